(** Proofs about the naive Bayes classifier: counting. *)
From Coq Require Import Reals.
From Verif Require Import Prelude FloatModel AttrModel AttrSpec AttrProofs StoreModel DenseModel DenseProofs GridModel GridSpec
  GridProofs FilterModel PredModel PredProofs RuleSpec CartModel CartGrow BagSpec NbModel NbSpec.
From Flocq Require Import Core.Core IEEE754.BinarySingleNaN IEEE754.Bits IEEE754.Binary.
Local Open Scope nat_scope.

Lemma difference_others g : distinct_attrs (gr_all_attrs g) → gr_class_attrs g ⊆ gr_all_attrs g →
  attr_difference (gr_all_attrs g) (gr_class_attrs g) = others g.
Proof.
  intros Hd Hs. rewrite attr_difference_filter. unfold others.
  assert (∀ a, a ∈ gr_all_attrs g → attr_matched a (gr_class_attrs g) = false ↔ a ∉ gr_class_attrs g) as H.
  { intros a Ha. clear -Hd Hs Ha. induction (gr_class_attrs g) as [|b l IH].
    { cbn. split; [intros _; apply not_elem_of_nil|done]. }
    cbn [attr_matched]. rewrite not_elem_of_cons. rewrite <- IH by (intros c Hc; apply Hs; by right).
    destruct (attr_equals a b) eqn:E; [|].
    - split; [done|]. intros [Hne _]. destruct Hne.
      assert (b ∈ gr_all_attrs g) as Hb by (apply Hs; left).
      apply elem_of_list_lookup in Ha as [i Hi], Hb as [j Hj]. assert (i = j) as -> by (by eapply Hd). congruence.
    - split; [|by intros [_ ?]]. intros ?. split; [|done]. intros ->.
      by rewrite AttrProofs.attr_equals_refl in E. }
  clear -H. induction (gr_all_attrs g) as [|a l IH]; [done|].
  rewrite !filter_cons. rewrite (decide_ext _ _ _ _ (H a (elem_of_list_here a l))).
  rewrite IH; [done|]. intros b Hb. apply H. by right.
Qed.

(** A callback that never stops and treats row [i] as [step] says. *)
Lemma run_rows_fold {S} (f : S → list (list N) → nat → res (S * cb)) (step : S → nat → S) its : ∀ s,
  (∀ i fetch, (i, fetch) ∈ its → ∃ buf, fetch = Ok buf ∧ ∀ s, f s buf i = Ok (step s i, Cont)) →
  ∃ b, run_rows f s its = Ok (foldl step s (map fst its), b).
Proof.
  induction its as [|[i fetch] its IH]; intros s H; [by eexists|]. cbn [run_rows map foldl fst].
  destruct (H i fetch) as (buf & -> & Hf); [left|]. cbn [mbind res_bind]. rewrite Hf.
  cbn [mbind res_bind]. apply IH. intros j fetch' Hj. apply H. by right.
Qed.

Lemma dsome {A} (d x : A) : default d (Some x) = x.
Proof. done. Qed.
Lemma dnone {A} (d : A) : default d None = d.
Proof. done. Qed.

(** ** Counting *)

Section count.
  Context (label : nat → string) (bits : nat → nat → bool) (features : nat).

  Notation classes := (gmap string nat).
  Notation terms := (gmap string (list nat)).

  Definition bump (class : string) (docs : terms) (f : nat) : terms :=
    <[class := alter S f (default (replicate features 0) (docs !! class))]> docs.
  Definition step_terms (docs : terms) (r : nat) : terms :=
    foldl (λ docs f, if bits r f then bump (label r) docs f else docs) docs (seq 0 features).
  Definition step_row (acc : classes * terms) (r : nat) : classes * terms :=
    (count_up acc.1 (label r), step_terms acc.2 r).

  Notation num rs c := (length (filter (λ r, label r = c) rs)).
  Notation with_f rs c f := (length (filter (λ r, label r = c ∧ bits r f = true) rs)).

  Lemma num_app rs r c : num (rs ++ [r]) c = num rs c + if decide (label r = c) then 1 else 0.
  Proof using Type. rewrite filter_app, app_length, filter_cons. f_equal. by destruct (decide _). Qed.
  Lemma with_app rs r c f : with_f (rs ++ [r]) c f = with_f rs c f + if decide (label r = c ∧ bits r f = true) then 1 else 0.
  Proof using Type. rewrite filter_app, app_length, filter_cons. f_equal. by destruct (decide _). Qed.

  Lemma class_counts rs acc : acc.1 = ∅ → ∀ c,
    (foldl step_row acc rs).1 !! c = if num rs c =? 0 then None else Some (num rs c).
  Proof using Type.
    intros H0. induction rs as [|r rs IH] using rev_ind; intros c; [cbn [foldl]; by rewrite H0|].
    rewrite foldl_app. cbn [foldl]. unfold step_row at 1. cbn [fst]. rewrite num_app. unfold count_up.
    destruct (decide (label r = c)) as [<-|Hne].
    - rewrite lookup_insert, IH. destruct (num rs (label r) =? 0) eqn:E.
      + apply Nat.eqb_eq in E. rewrite E. done.
      + replace (_ + 1 =? 0) with false by (symmetry; apply Nat.eqb_neq; lia). done.
    - rewrite lookup_insert_ne by done. rewrite IH. by rewrite Nat.add_0_r.
  Qed.

  (** The features of one row. *)
  Lemma bump_ne class c docs f : class ≠ c → bump class docs f !! c = docs !! c.
  Proof using Type. intros H. unfold bump. by rewrite lookup_insert_ne. Qed.

  Lemma terms_ne r c docs : label r ≠ c → step_terms docs r !! c = docs !! c.
  Proof using Type.
    intros H. unfold step_terms. generalize (seq 0 features). intros fs. revert docs.
    induction fs as [|f fs IH]; intros docs; [done|]. cbn [foldl]. rewrite IH.
    destruct (bits r f); [by rewrite bump_ne|done].
  Qed.

  Lemma terms_row r docs k : k ≤ features →
    foldl (λ docs f, if bits r f then bump (label r) docs f else docs) docs (seq 0 k) !! label r =
    if existsb (bits r) (seq 0 k)
    then Some (imap (λ f t, if (f <? k) && bits r f then S t else t) (default (replicate features 0) (docs !! label r)))
    else docs !! label r.
  Proof using Type.
    induction k as [|k IH]; intros Hk; [done|]. rewrite seq_S, foldl_app, existsb_app. cbn [foldl existsb].
    rewrite orb_false_r. change (0 + k) with k. set (docs1 := foldl _ docs (seq 0 k)) in *.
    specialize (IH ltac:(lia)). destruct (bits r k) eqn:E.
    - rewrite orb_true_r. unfold bump. rewrite lookup_insert, IH. f_equal.
      apply list_eq. intros j. destruct (decide (j = k)) as [->|Hj].
      + rewrite list_lookup_alter, list_lookup_imap.
        replace (k <? S k) with true by (symmetry; apply Nat.ltb_lt; lia). rewrite E. cbn [andb].
        destruct (existsb (bits r) (seq 0 k)).
        * rewrite dsome, list_lookup_imap.
          destruct (_ !! k); [|done]. cbn [fmap option_fmap option_map]. by rewrite Nat.ltb_irrefl.
        * by destruct (_ !! k).
      + rewrite list_lookup_alter_ne by done. rewrite list_lookup_imap.
        assert ((j <? S k) = (j <? k)) as -> by (destruct (j <? k) eqn:F; [apply Nat.ltb_lt in F; apply Nat.ltb_lt; lia|
          apply Nat.ltb_ge in F; apply Nat.ltb_ge; lia]).
        destruct (existsb (bits r) (seq 0 k)) eqn:F.
        * by rewrite dsome, list_lookup_imap.
        * destruct (default (replicate features 0) (docs !! label r) !! j) eqn:G; cbn [fmap option_fmap option_map]; [|done].
          destruct (j <? k) eqn:Hlt; [|done]. apply Nat.ltb_lt in Hlt. cbn [andb].
          destruct (bits r j) eqn:Hb; [|done]. exfalso.
          assert (existsb (bits r) (seq 0 k) = true); [|congruence].
          apply existsb_exists. exists j. split; [apply in_seq; lia|done].
    - rewrite orb_false_r, IH. destruct (existsb (bits r) (seq 0 k)); [|done]. f_equal.
      apply imap_ext. intros j t _. destruct (decide (j = k)) as [->|Hj].
      + rewrite E. by rewrite !andb_false_r.
      + assert ((j <? S k) = (j <? k)) as -> by (destruct (j <? k) eqn:F; [apply Nat.ltb_lt in F; apply Nat.ltb_lt; lia|
          apply Nat.ltb_ge in F; apply Nat.ltb_ge; lia]). done.
  Qed.

  (** Some row of class [c] among [rs] has a feature. *)
  Definition has_term (rs : list nat) (c : string) : bool :=
    existsb (λ r, bool_decide (label r = c) && existsb (bits r) (seq 0 features)) rs.

  Lemma term_counts rs acc : acc.2 = ∅ → ∀ c,
    (foldl step_row acc rs).2 !! c =
    if has_term rs c then Some (map (λ f, with_f rs c f) (seq 0 features)) else None.
  Proof using Type.
    intros H0. induction rs as [|r rs IH] using rev_ind; intros c; [cbn [foldl]; by rewrite H0|].
    rewrite foldl_app. cbn [foldl]. unfold step_row at 1. cbn [snd].
    unfold has_term. rewrite existsb_app. fold (has_term rs c). cbn [existsb]. rewrite orb_false_r.
    destruct (decide (label r = c)) as [<-|Hne].
    - rewrite bool_decide_eq_true_2 by done. cbn [andb]. unfold step_terms.
      rewrite terms_row by lia. rewrite IH.
      assert (has_term rs (label r) = false → ∀ f, f < features → with_f rs (label r) f = 0) as Hnone.
      { intros Hf f Hlt. destruct (filter _ rs) as [|r' l] eqn:E; [done|]. exfalso.
        assert (r' ∈ filter (λ r0, label r0 = label r ∧ bits r0 f = true) rs) as Hin by (rewrite E; left).
        apply elem_of_list_filter in Hin as ((H1 & H2) & H3).
        assert (has_term rs (label r) = true); [|congruence]. apply existsb_exists. exists r'.
        split; [by apply elem_of_list_In|]. rewrite bool_decide_eq_true_2 by done. cbn [andb].
        apply existsb_exists. exists f. split; [apply in_seq; lia|done]. }
      destruct (existsb (bits r) (seq 0 features)) eqn:E.
      + rewrite orb_true_r. f_equal. apply list_eq. intros f. rewrite list_lookup_imap.
        destruct (decide (f < features)) as [Hf|Hf].
        * rewrite list_lookup_fmap, lookup_seq_lt by done. cbn [fmap option_fmap option_map]. change (0 + f) with f.
          rewrite with_app. replace (f <? features) with true by (symmetry; by apply Nat.ltb_lt). cbn [andb].
          assert (default (replicate features 0) (if has_term rs (label r) then
             Some (map (λ f0, with_f rs (label r) f0) (seq 0 features)) else None) !! f = Some (with_f rs (label r) f)) as ->.
          { destruct (has_term rs (label r)) eqn:F.
            - by rewrite dsome, list_lookup_fmap, lookup_seq_lt.
            - rewrite dnone, lookup_replicate_2 by done. by rewrite Hnone. }
          cbn [fmap option_fmap option_map]. f_equal. destruct (bits r f) eqn:G.
          -- rewrite decide_True by done. lia.
          -- rewrite decide_False by (by intros [_ ?]). lia.
        * assert (∀ l : list nat, length l = features → l !! f = None) as Hl by (intros l Hl; apply lookup_ge_None_2; lia).
          rewrite !Hl; [done|by rewrite map_length, seq_length|]. destruct (has_term rs (label r)).
          -- by rewrite dsome, map_length, seq_length.
          -- by rewrite dnone, replicate_length.
      + rewrite orb_false_r. destruct (has_term rs (label r)); [|done]. f_equal.
        apply map_ext_in. intros f Hf. apply in_seq in Hf. rewrite with_app.
        rewrite decide_False; [lia|]. intros [_ Hb].
        assert (existsb (bits r) (seq 0 features) = true); [|congruence].
        apply existsb_exists. exists f. split; [apply in_seq; lia|done].
    - rewrite bool_decide_eq_false_2 by done. cbn [andb]. rewrite orb_false_r, terms_ne by done. rewrite IH.
      destruct (has_term rs c); [|done]. f_equal. apply map_ext. intros f. rewrite with_app.
      rewrite decide_False; [lia|]. by intros [? _].
  Qed.
End count.
