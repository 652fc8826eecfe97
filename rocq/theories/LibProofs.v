(** Proofs about the classifiers that use liblinear. *)
From Coq Require Import Reals.
From Verif Require Import Prelude FloatModel AttrModel StoreModel DenseModel DenseSpec GridModel GridSpec
  GridProofs KnnModel FilterModel CartModel SvcModel LinSpec LibModel LibSpec.
From Flocq Require Import IEEE754.BinarySingleNaN IEEE754.Bits IEEE754.Binary.
Local Open Scope nat_scope.

Lemma over_zero_positive f : over_zero f = is_positive f.
Proof. by destruct f as [[]|[]|[]|[]]. Qed.

Lemma not_zero_is f : not_zero f = negb (is_zero f).
Proof. by destruct f as [[]|[]|[]|[]]. Qed.

(** ** Writing vectors *)

Notation filled ws k := (ws ++ replicate k zero_node, length ws).

Lemma put_filled (ws : list node) k n : put_node (filled ws (S k)) n = Ok (filled (ws ++ [n]) k).
Proof.
  unfold put_node. cbn [fst snd]. rewrite app_length, replicate_length.
  rewrite (proj2 (Nat.ltb_lt _ _)) by lia.
  replace (length ws) with (length ws + 0) at 1 by lia. rewrite insert_app_r. cbn [replicate insert list_insert].
  rewrite <- app_assoc, app_length. cbn. do 3 f_equal. lia.
Qed.

Definition kept (keep : binary64 → bool) (i : nat) (x : list binary64) : list node :=
  List.filter (λ n : node, keep n.2) (imap (λ j v, (Z.of_nat (S (i + j)), v)) x).

Lemma kept_cons keep i v x :
  kept keep i (v :: x) = (if keep v then [(Z.of_nat (S i), v)] else []) ++ kept keep (S i) x.
Proof.
  unfold kept. cbn [imap List.filter snd]. rewrite Nat.add_0_r.
  rewrite (imap_ext _ (λ j v, (Z.of_nat (S (S i + j)), v))).
  2:{ intros j u _. unfold compose. do 3 f_equal. lia. }
  by destruct (keep v).
Qed.

Lemma kept_length keep i x : length (kept keep i x) = length (List.filter keep x).
Proof.
  revert i. induction x as [|v x IH]; intros i; [done|]. rewrite kept_cons. cbn [List.filter].
  destruct (keep v); cbn [app length]; by rewrite IH.
Qed.

Lemma kept_ext (keep keep' : binary64 → bool) i x : (∀ f, f ∈ x → keep f = keep' f) → kept keep i x = kept keep' i x.
Proof.
  revert i. induction x as [|v x IH]; intros i H; [done|]. rewrite !kept_cons.
  rewrite (H v) by left. f_equal. apply IH. intros f Hf. apply H. by right.
Qed.

Lemma sparse_kept x : sparse x = kept not_zero 0 x.
Proof. rewrite (kept_ext not_zero (λ f, negb (is_zero f))); [done|]. intros f _. apply not_zero_is. Qed.

Lemma put_kept keep x : ∀ i (ws : list node) k, length (kept keep i x) ≤ k →
  res_foldl (λ s jv, if keep jv.2 then put_node s (Z.of_nat (jv.1 + 1), jv.2) else Ok s) (filled ws k)
    (imap (λ j v, (i + j, v)) x) = Ok (filled (ws ++ kept keep i x) (k - length (kept keep i x))).
Proof.
  induction x as [|v x IH]; intros i ws k Hk.
  - cbn. rewrite app_nil_r. by rewrite Nat.sub_0_r.
  - rewrite kept_cons in *. cbn [imap res_foldl fst snd].
    rewrite (imap_ext _ (λ j v, (S i + j, v))).
    2:{ intros j u _. unfold compose. f_equal. lia. }
    rewrite Nat.add_0_r, Nat.add_1_r. destruct (keep v).
    + cbn [app length] in *. destruct k as [|k]; [lia|]. rewrite put_filled. cbn [mbind res_bind].
      rewrite IH by lia. rewrite <- !app_assoc. cbn [app]. done.
    + cbn [app mbind res_bind] in *. by apply IH.
Qed.

Lemma nodes_from_ok (ns rest : list node) z :
  Forall (λ n : node, n.1 ≠ (-1)%Z) ns → nodes_from (ns ++ ((-1)%Z, z) :: rest) = Ok ns.
Proof.
  induction 1 as [|n ns Hn _ IH]; [done|]. cbn [app nodes_from].
  rewrite (proj2 (Z.eqb_neq _ _) Hn), IH. done.
Qed.

Lemma kept_index keep i x : Forall (λ n : node, (Z.of_nat i < n.1)%Z) (kept keep i x).
Proof.
  revert i. induction x as [|v x IH]; intros i; [constructor|]. rewrite kept_cons.
  apply Forall_app. split.
  - destruct (keep v); [|done]. constructor; [cbn; lia|done].
  - eapply Forall_impl; [apply IH|]. cbn. intros n Hn. lia.
Qed.

Lemma kept_no_end keep i x : Forall (λ n : node, n.1 ≠ (-1)%Z) (kept keep i x).
Proof. eapply Forall_impl; [apply (kept_index keep i x)|]. cbn. intros n Hn. lia. Qed.

(** Reading the converted vector. *)
Lemma vector_read x :
  ∃ v, convert_vector x Id3Model.float_zero = Ok v ∧ read_nodes v 0 = Ok (kept over_zero 0 x).
Proof.
  unfold convert_vector.
  pose proof (put_kept over_zero x 0 [] (length (List.filter over_zero x) + 2)) as H.
  rewrite kept_length in H. specialize (H ltac:(lia)). cbn [app length] in H.
  change (imap (λ j v, (0 + j, v)) x) with (imap pair x) in H. rewrite H. cbn [mbind res_bind].
  replace (_ + 2 - _) with 2 by lia. change (over_zero Id3Model.float_zero) with false. cbn [mbind res_bind].
  rewrite put_filled. cbn [mbind res_bind fst]. eexists. split; [done|].
  unfold read_nodes. rewrite drop_0, <- app_assoc. apply nodes_from_ok, kept_no_end.
Qed.

(** ** Writing all rows *)

Definition enc (x : list binary64) : list node := sparse x ++ [((-1)%Z, Id3Model.float_zero)].
Fixpoint starts (o : nat) (X : list (list binary64)) : list nat :=
  match X with [] => [] | x :: X => o :: starts (o + length (enc x)) X end.

Lemma res_foldl_ext {A B} (f g : B → A → res B) l : ∀ b,
  (∀ b a, f b a = g b a) → res_foldl f b l = res_foldl g b l.
Proof.
  induction l as [|a l IH]; intros b H; [done|]. cbn [res_foldl]. rewrite H.
  destruct (g b a); [cbn [mbind res_bind]; by apply IH|done|done].
Qed.

Lemma put_row_ok x (ws : list node) k : length (enc x) ≤ k →
  put_row Id3Model.float_zero (filled ws k) x = Ok (filled (ws ++ enc x) (k - length (enc x))).
Proof.
  intros Hk. unfold put_row, enc in *. rewrite app_length in Hk. cbn [length] in Hk.
  rewrite (res_foldl_ext _ (λ s jv, if not_zero jv.2 then put_node s (Z.of_nat (jv.1 + 1), jv.2) else Ok s)).
  2:{ intros s jv. change (over_zero Id3Model.float_zero) with false.
      destruct (not_zero jv.2); [|done]. by destruct (put_node s _). }
  rewrite sparse_kept in *.
  pose proof (put_kept not_zero x 0 ws k ltac:(lia)) as H. change (imap (λ j v, (0 + j, v)) x) with (imap pair x) in H.
  rewrite H. cbn [mbind res_bind].
  replace (k - length (kept not_zero 0 x)) with (S (k - length (kept not_zero 0 x ++ [((-1)%Z, Id3Model.float_zero)])))
    by (rewrite app_length; cbn; lia).
  rewrite put_filled, <- !app_assoc. done.
Qed.

Lemma rows_put X : ∀ (ws : list node) k ptrs, length (concat (map enc X)) ≤ k →
  res_foldl (λ r x,
        let '(space, cursor, ptrs) := r in
        if cursor <? length space then
          s ← put_row Id3Model.float_zero (space, cursor) x;
          Ok (s.1, s.2, ptrs ++ [cursor])
        else Panic) (ws ++ replicate k zero_node, length ws, ptrs) X =
  Ok (ws ++ concat (map enc X) ++ replicate (k - length (concat (map enc X))) zero_node,
      length (ws ++ concat (map enc X)), ptrs ++ starts (length ws) X).
Proof.
  induction X as [|x X IH]; intros ws k ptrs Hk.
  - cbn. rewrite !app_nil_r. by rewrite Nat.sub_0_r.
  - cbn [map concat] in *. rewrite app_length in Hk. cbn [res_foldl starts].
    rewrite app_length, replicate_length.
    assert (0 < length (enc x)) by (unfold enc; rewrite app_length; cbn; lia).
    rewrite (proj2 (Nat.ltb_lt _ _)) by lia. rewrite put_row_ok by lia. cbn [mbind res_bind fst snd].
    rewrite IH by lia. rewrite <- !app_assoc, !app_length. cbn [app].
    replace (k - (length (enc x) + length (concat (map enc X)))) with (k - length (enc x) - length (concat (map enc X))) by lia.
    done.
Qed.

Lemma enough_space X : length (concat (map enc X)) ≤ space_size X + 0.
Proof.
  unfold space_size. induction X as [|x X IH]; [cbn; lia|]. cbn [map concat length]. rewrite app_length.
  cbn [sum_list]. unfold enc at 1. rewrite app_length, sparse_kept, kept_length. cbn [length].
  set (a := sum_list _) in *. unfold Datatypes.id. lia.
Qed.

Lemma starts_lookup X : ∀ o i x, X !! i = Some x →
  ∃ a b, concat (map enc X) = a ++ enc x ++ b ∧ starts o X !! i = Some (o + length a).
Proof.
  induction X as [|x' X IH]; intros o i x H; [done|]. destruct i as [|i].
  - injection H as ->. exists [], (concat (map enc X)). cbn. split; [done|]. by rewrite Nat.add_0_r.
  - destruct (IH (o + length (enc x')) i x H) as (a & b & E & Hs). exists (enc x' ++ a), b.
    cbn [map concat starts lookup list_lookup]. rewrite E, <- app_assoc, app_length. split; [done|].
    change (starts (o + length (enc x')) X !! i = Some (o + (length (enc x') + length a))).
    rewrite Hs. f_equal. lia.
Qed.

Lemma idx_some {A} (l : list A) i x : l !! i = Some x → idx l i = Ok x.
Proof. intros H. unfold idx. by rewrite H. Qed.

(** The converted problem holds the rows. *)
Lemma problem_ok X y x0 :
  X !! 0 = Some x0 → length y = length X →
  ∃ p, new_problem X y Id3Model.float_zero = Ok p ∧ pb_n p = length x0 + 1 ∧ pb_y p = y ∧
    ∀ i x, X !! i = Some x → problem_row p i = Ok (sparse x).
Proof.
  intros H0 Hy. unfold new_problem. rewrite (idx_some X 0 x0 H0). cbn [mbind res_bind]. unfold convert_features.
  pose proof (rows_put X [] (space_size X) [] ltac:(pose proof (enough_space X); lia)) as E. cbn [app length] in E.
  rewrite E. cbn [mbind res_bind]. clear E.
  destruct X as [|x X]; [done|]. injection H0 as ->. destruct y as [|y0 y]; [done|].
  cbn [starts]. cbn [idx lookup list_lookup mbind res_bind fst snd]. eexists. split; [done|]. cbn [pb_n pb_y].
  split; [done|]. split; [done|]. intros i x Hi.
  destruct (starts_lookup (x0 :: X) 0 i x Hi) as (a & b & Ec & Es).
  unfold problem_row, idx. cbn [pb_ptrs pb_space]. cbn [starts] in Es. rewrite Es. cbn [mbind res_bind].
  unfold read_nodes. rewrite Ec, <- app_assoc. rewrite drop_app_alt by lia.
  unfold enc. rewrite <- !app_assoc. cbn [app]. apply nodes_from_ok. rewrite sparse_kept. apply kept_no_end.
Qed.

(** ** Classes *)

Lemma place_in l t : t ∈ l → l !! place l t = Some t.
Proof.
  induction l as [|x l IH]; [by intros ?%elem_of_nil|]. cbn [place].
  destruct (Z.eqb_spec t x) as [->|Hne]; [done|]. intros [->|H]%elem_of_cons; [done|]. by apply IH.
Qed.
Lemma place_le l t : place l t ≤ length l.
Proof. induction l as [|x l IH]; [done|]. cbn. destruct (_ =? _)%Z; lia. Qed.
Lemma place_full l t : place l t = length l ↔ t ∉ l.
Proof.
  split.
  - intros E Hin. apply place_in in Hin. rewrite E in Hin. apply lookup_lt_Some in Hin. lia.
  - induction l as [|x l IH]; [done|]. cbn [place length]. intros [H1 H2]%not_elem_of_cons.
    rewrite (proj2 (Z.eqb_neq _ _) H1). by rewrite IH.
Qed.
Lemma place_app l l' t : t ∈ l → place (l ++ l') t = place l t.
Proof.
  induction l as [|x l IH]; [by intros ?%elem_of_nil|]. cbn [place app].
  destruct (Z.eqb_spec t x) as [->|Hne]; [done|]. intros [->|H]%elem_of_cons; [done|]. by rewrite IH.
Qed.
Lemma place_nth l i t : NoDup l → l !! i = Some t → place l t = i.
Proof.
  intros Hd Hi. eapply NoDup_lookup; [exact Hd| |exact Hi]. apply place_in. by eapply elem_of_list_lookup_2.
Qed.

Lemma group_fold undef y : ∀ labels rows ts,
  NoDup labels → rows = map (place labels) ts → (∀ z, z ∈ labels ↔ z ∈ ts) →
  ∃ labels', foldl (λ '(labels, rows) v,
      let t := to_int undef v in
      let j := place labels t in
      (if j =? length labels then labels ++ [t] else labels, rows ++ [j])) (labels, rows) y =
    (labels', map (place labels') (ts ++ map (to_int undef) y)) ∧
    NoDup labels' ∧ (∀ z, z ∈ labels' ↔ z ∈ ts ++ map (to_int undef) y).
Proof.
  induction y as [|v y IH]; intros labels rows ts Hd Hr Hin.
  - exists labels. cbn. rewrite app_nil_r. by subst.
  - cbn [foldl map]. set (t := to_int undef v). cbn zeta.
    destruct (Nat.eqb_spec (place labels t) (length labels)) as [E|E].
    + apply place_full in E as Hn.
      destruct (IH (labels ++ [t]) (rows ++ [place labels t]) (ts ++ [t])) as (l' & E1 & E2 & E3).
      * apply NoDup_app. split; [done|]. split; [|apply NoDup_singleton].
        intros z Hz ->%elem_of_list_singleton. done.
      * rewrite map_app. cbn [map]. subst rows. f_equal.
        -- apply map_ext_in. intros z Hz. symmetry. apply place_app, Hin. by apply elem_of_list_In.
        -- f_equal. rewrite E. symmetry.
           assert ((labels ++ [t]) !! length labels = Some t) as Hl by (rewrite lookup_app_r, Nat.sub_diag by done; done).
           apply place_nth in Hl; [done|]. apply NoDup_app. split; [done|]. split; [|apply NoDup_singleton].
           intros z Hz ->%elem_of_list_singleton. done.
      * intros z. rewrite !elem_of_app, Hin. done.
      * rewrite <- app_assoc in E1, E3. exists l'. done.
    + assert (t ∈ labels) as Ht. { apply dec_stable. intros H. apply E, place_full, H. }
      destruct (IH labels (rows ++ [place labels t]) (ts ++ [t])) as (l' & E1 & E2 & E3).
      * done.
      * rewrite map_app. by subst rows.
      * intros z. rewrite elem_of_app, elem_of_list_singleton, <- Hin. split; [by left|]. by intros [?| ->].
      * rewrite <- app_assoc in E1, E3. exists l'. done.
Qed.

Lemma group_ok undef y :
  ∃ labels, group_classes undef y = (labels, map (place labels) (map (to_int undef) y)) ∧
    NoDup labels ∧ (∀ z, z ∈ labels ↔ z ∈ map (to_int undef) y).
Proof.
  unfold group_classes. destruct (group_fold undef y [] [] []) as (labels & E & Hd & Hin); [constructor|done|done|].
  cbn [app] in *. rewrite E. case_bool_decide as Hl.
  - subst labels. exists [1%Z; (-1)%Z]. split; [|split].
    + f_equal. rewrite map_map. apply map_ext_in. intros z Hz. apply elem_of_list_In, Hin in Hz.
      apply elem_of_cons in Hz as [->|Hz]; [done|]. by apply elem_of_list_singleton in Hz as ->.
    + apply NoDup_cons. split; [by intros ?%elem_of_list_singleton|apply NoDup_singleton].
    + intros z. rewrite <- Hin, !elem_of_cons. split; intros [?|[?|?]]; auto.
  - exists labels. done.
Qed.

(** ** The order of the rows *)

Lemma of_class_elem rows c i : i ∈ of_class rows c ↔ rows !! i = Some c.
Proof.
  unfold of_class. rewrite elem_of_list_In, filter_In, <- elem_of_list_In, elem_of_seq, bool_decide_eq_true.
  split; [by intros [_ ?]|]. intros H. split; [|done]. apply lookup_lt_Some in H. lia.
Qed.
Lemma of_class_NoDup rows c : NoDup (of_class rows c).
Proof. apply NoDup_ListNoDup, List.NoDup_filter, NoDup_ListNoDup, NoDup_seq. Qed.

Lemma class_perm_perm n rows :
  (∀ i c, rows !! i = Some c → c < n) → class_perm n rows ≡ₚ seq 0 (length rows).
Proof.
  intros H. apply NoDup_Permutation.
  - unfold class_perm.
    assert (∀ l, NoDup l → NoDup (concat (map (of_class rows) l))) as Hn; [|apply Hn, NoDup_seq].
    induction 1 as [|c l Hc Hd IH]; [constructor|]. cbn [map concat]. apply NoDup_app.
    split; [apply of_class_NoDup|]. split; [|done]. intros i Hi Hi'. apply of_class_elem in Hi.
    apply elem_of_list_In, in_concat in Hi' as (k & Hk & Hi'). apply in_map_iff in Hk as (c' & <- & Hc').
    apply elem_of_list_In, of_class_elem in Hi'. apply elem_of_list_In in Hc'. congruence.
  - apply NoDup_seq.
  - intros i. rewrite elem_of_seq. unfold class_perm. rewrite elem_of_list_In, in_concat. split.
    + intros (k & Hk & Hi). apply in_map_iff in Hk as (c & <- & _).
      apply elem_of_list_In, of_class_elem, lookup_lt_Some in Hi. lia.
    + intros [_ Hi]. cbn in Hi. destruct (lookup_lt_is_Some_2 rows i Hi) as [c Hc]. exists (of_class rows c). split.
      * apply in_map, elem_of_list_In, elem_of_seq. apply H in Hc. lia.
      * by apply elem_of_list_In, of_class_elem.
Qed.

Lemma start_length rows i : class_start rows i = length (concat (map (of_class rows) (seq 0 i))).
Proof.
  unfold class_start, class_count. generalize 0. induction i as [|i IH]; intros o; [done|].
  cbn [seq map concat]. rewrite app_length, <- IH. done.
Qed.

Lemma imap_app_seq {A B} (f : nat → A → B) l l' : imap f (l ++ l') = imap f l ++ imap (λ k, f (length l + k)) l'.
Proof. apply imap_app. Qed.

Lemma imap_all {A B} (f : nat → A → B) (g : A → B) l :
  (∀ k x, l !! k = Some x → f k x = g x) → imap f l = map g l.
Proof.
  intros H. apply list_eq. intros k. rewrite list_lookup_imap. change (map g l) with (g <$> l). rewrite list_lookup_fmap.
  destruct (l !! k) eqn:E; cbn; [|done]. by rewrite H.
Qed.

(** Marking the positions of a class marks the rows of the class. *)
Lemma sides {A} (row : nat → A) n rows c :
  c < n →
  imap (λ k r, (r, (class_start rows c <=? k) && (k <? class_start rows c + class_count rows c)))
    (map row (class_perm n rows)) =
  map (λ i, (row i, bool_decide (rows !! i = Some c))) (class_perm n rows).
Proof.
  intros Hc. unfold class_perm.
  replace n with (c + S (n - S c)) by lia. rewrite seq_app, map_app, concat_app. cbn [seq map concat Nat.add].
  set (P1 := concat (map (of_class rows) (seq 0 c))). set (P2 := concat (map (of_class rows) (seq (S c) (n - S c)))).
  rewrite !map_app, !imap_app_seq. f_equal; [|f_equal].
  - rewrite (imap_all _ (λ r, (r, false))).
    + rewrite map_map. apply map_ext_in. intros i Hi. f_equal. symmetry. apply bool_decide_eq_false.
      intros E. apply in_concat in Hi as (k & Hk & Hi). apply in_map_iff in Hk as (c' & <- & Hc').
      apply elem_of_list_In, of_class_elem in Hi. apply elem_of_list_In, elem_of_seq in Hc'. rewrite E in Hi. injection Hi as ->. lia.
    + intros k x Hk. apply lookup_lt_Some in Hk. rewrite map_length in Hk. f_equal.
      rewrite (start_length rows c). fold P1. rewrite (proj2 (Nat.leb_gt _ _)) by lia. done.
  - rewrite (imap_all _ (λ r, (r, true))).
    + rewrite map_map. apply map_ext_in. intros i Hi. f_equal. symmetry. apply bool_decide_eq_true.
      by apply elem_of_list_In, of_class_elem in Hi.
    + intros k x Hk. apply lookup_lt_Some in Hk. rewrite map_length in Hk. f_equal.
      rewrite (start_length rows c), !map_length. fold P1. unfold class_count.
      rewrite (proj2 (Nat.leb_le _ _)) by lia. cbn [andb]. apply Nat.ltb_lt. lia.
  - rewrite (imap_all _ (λ r, (r, false))).
    + rewrite map_map. apply map_ext_in. intros i Hi. f_equal. symmetry. apply bool_decide_eq_false.
      intros E. apply in_concat in Hi as (k & Hk & Hi). apply in_map_iff in Hk as (c' & <- & Hc').
      apply elem_of_list_In, of_class_elem in Hi. apply elem_of_list_In, elem_of_seq in Hc'. rewrite E in Hi. injection Hi as ->. lia.
    + intros k x Hk. apply lookup_lt_Some in Hk. f_equal.
      rewrite (start_length rows c), !map_length. fold P1. unfold class_count. rewrite (proj2 (Nat.ltb_ge _ _)) by lia.
      apply andb_false_r.
Qed.

(** ** Penalties *)

Lemma weighted_penalty C weights labels : NoDup labels →
  weighted_c C weights labels = map (penalty C weights) labels.
Proof.
  intros Hd. unfold weighted_c. induction weights as [|w weights IH] using rev_ind.
  - cbn. apply list_eq. intros i. change (map ?f labels) with (f <$> labels). rewrite list_lookup_fmap.
    destruct (labels !! i) as [l|] eqn:E.
    + rewrite lookup_replicate_2 by (by eapply lookup_lt_Some). cbn. unfold penalty. by destruct (l <? 0)%Z.
    + apply lookup_ge_None in E. by rewrite lookup_ge_None_2 by (by rewrite replicate_length).
  - rewrite imap_app_seq, foldl_app, IH. cbn [imap foldl fst snd]. rewrite Nat.add_0_r.
    assert (∀ l, l ≠ Z.of_nat (length weights) → penalty C (weights ++ [w]) l = penalty C weights l) as Hp.
    { intros l Hl. unfold penalty. destruct (Z.ltb_spec l 0) as [|Hge]; [done|].
      destruct (decide (Z.to_nat l < length weights)).
      - by rewrite lookup_app_l.
      - rewrite lookup_app_r by lia. rewrite lookup_ge_None_2 by (cbn; lia). by rewrite lookup_ge_None_2 by lia. }
    destruct (Nat.eqb_spec (place labels (Z.of_nat (length weights))) (length labels)) as [E|E].
    + apply place_full in E. apply map_ext_in. intros l Hl. symmetry. apply Hp. intros ->. by apply elem_of_list_In in Hl.
    + assert (Z.of_nat (length weights) ∈ labels) as Ht. { apply dec_stable. intros H. apply E, place_full, H. }
      pose proof (place_in _ _ Ht) as Hl. set (j := place _ _) in *.
      apply list_eq. intros i. change (map ?f labels) with (f <$> labels).
      destruct (decide (i = j)) as [->|Hne].
      * rewrite list_lookup_alter, !list_lookup_fmap, Hl. cbn. f_equal. unfold penalty.
        rewrite (proj2 (Z.ltb_ge _ _)) by lia. rewrite Nat2Z.id.
        rewrite (lookup_ge_None_2 weights) by lia. rewrite lookup_app_r, Nat.sub_diag by done. done.
      * rewrite list_lookup_alter_ne by done. rewrite !list_lookup_fmap. destruct (labels !! i) as [l|] eqn:Ei; [|done].
        cbn. f_equal. symmetry. apply Hp. intros ->. apply Hne. symmetry. by apply place_nth.
Qed.
