(** Proofs about numeric splits: from the rows to the search for a threshold. *)
From Coq Require Import QArith Reals.
From Verif Require Import Prelude FloatModel FloatOrder AttrModel AttrSpec AttrProofs StoreModel DenseModel DenseProofs
  GridModel GridSpec GridProofs ConfModel FilterModel Id3Model Id3Spec RuleModel RuleSpec RuleProofs.
From Flocq Require Import Core.Zaux Core.Raux IEEE754.BinarySingleNaN IEEE754.Bits IEEE754.Binary.
Local Open Scope nat_scope.

(** ** Middles *)

Lemma plus_number x y :
  is_finite 53 1024 x = true → is_finite 53 1024 y = true →
  is_nan 53 1024 (b64_plus mode_NE x y) = false.
Proof.
  intros Hx Hy. unfold b64_plus.
  pose proof (Bplus_correct 53 1024 eq_refl eq_refl binop_nan_pl64 mode_NE x y Hx Hy) as H.
  destruct (Rlt_bool _ _).
  - destruct H as (_ & H & _). by destruct (Bplus _ _ _ _ _ _ _ _).
  - destruct H as [H _]. by destruct (Bplus _ _ _ _ _ _ _ _).
Qed.

Lemma half_number x : is_nan 53 1024 x = false → is_nan 53 1024 (b64_div mode_NE x float_two) = false.
Proof.
  intros Hx. destruct (is_finite 53 1024 x) eqn:Hf.
  - unfold b64_div.
    pose proof (Bdiv_correct 53 1024 eq_refl eq_refl binop_nan_pl64 mode_NE x float_two) as H.
    assert (B2R 53 1024 float_two <> 0%R) as H2.
    { intros E. assert (Bsign 53 1024 float_two = false) as Hs by reflexivity.
      destruct float_two as [| | |s m e He] eqn:E2; try (vm_compute in E2; discriminate).
      cbn [B2R] in E. unfold Defs.F2R in E. cbn [Defs.Fnum Defs.Fexp] in E.
      apply Rmult_integral in E as [E|E].
      - apply (eq_IZR _ 0) in E. by destruct s.
      - pose proof (bpow_gt_0 radix2 e) as Hp. rewrite E in Hp. by apply Rlt_irrefl in Hp. }
    specialize (H H2). destruct (Rlt_bool _ _).
    + destruct H as (_ & H & _). rewrite Hf in H. by destruct (Bdiv _ _ _ _ _ _ _ _).
    + by destruct (Bdiv _ _ _ _ _ _ _ _).
  - by destruct x.
Qed.

Lemma middle_number x y :
  is_finite 53 1024 x = true → is_finite 53 1024 y = true → is_nan 53 1024 (middle x y) = false.
Proof. intros Hx Hy. by apply half_number, plus_number. Qed.

(** ** The references *)

Section refs.
  Context (show : nat → N → string) (g : grid) (s : spec)
    (val : nat → binary64) (label : nat → string).
  Hypothesis Hread : reads_numbers show g s val label.

  (** Rows [seen] are in; [m] numbers their labels. *)
  Definition collected (seen : list nat) (st : gmap string nat * list (binary64 * nat)) : Prop :=
    length st.2 = (gr_size g).2 ∧ size st.1 ≤ length seen ∧
    (∀ i, i ∈ seen → ∃ k, st.1 !! label i = Some k ∧ st.2 !! i = Some (val i, k)) ∧
    (∀ c k, st.1 !! c = Some k → k < size st.1) ∧
    (∀ c c' k, st.1 !! c = Some k → st.1 !! c' = Some k → c = c').

  Lemma collect_rows rows seen st :
    NoDup (seen ++ map fst rows) →
    (∀ i fetch, (i, fetch) ∈ rows → i < (gr_size g).2 ∧
       fetch = res_mapM (λ a, gr_get g a i) [s]) →
    collected seen st →
    ∃ st', run_rows (collect_ref show g) st rows = Ok (st', false) ∧
      collected (seen ++ map fst rows) st'.
  Proof using Hread.
    revert seen st. induction rows as [|[i fetch] rows IH]; intros seen st Hnd Hrows Hc.
    { exists st. split; [done|]. cbn [map]. by rewrite app_nil_r. }
    destruct (Hrows i fetch) as [Hi ->]; [left|].
    destruct (Hread i Hi) as (Hcls & raw & Hraw & Hval).
    cbn [run_rows res_mapM]. rewrite Hraw. cbn [mbind res_bind].
    unfold collect_ref. rewrite Hcls. cbn [mbind res_bind idx lookup list_lookup]. rewrite Hval.
    cbn [mbind res_bind].
    destruct Hc as (Hlen & Hsz & Hseen & Hlt & Hinj). destruct st as [m refs]. cbn [fst snd] in *.
    set (k := default (size m) (m !! label i)).
    destruct (IH (seen ++ [i]) (<[label i := k]> m, <[i := (val i, k)]> refs)) as (st' & Hrun & Hc').
    - rewrite <- app_assoc. exact Hnd.
    - intros j f Hj. apply Hrows. by right.
    - assert (∀ c k', m !! c = Some k' → <[label i := k]> m !! c = Some k') as Hold.
      { intros c k' Hk'. destruct (decide (c = label i)) as [->|Hne].
        - rewrite lookup_insert. unfold k. rewrite Hk'. done.
        - by rewrite lookup_insert_ne. }
      assert (i ∉ seen) as Hnew.
      { rewrite NoDup_app in Hnd. destruct Hnd as (_ & Hd & _). intros Hin.
        apply (Hd i Hin). left. }
      split; [cbn [snd]; by rewrite insert_length|]. cbn [fst snd]. split; [|split; [|split]].
      + rewrite app_length. cbn [length]. destruct (m !! label i) as [ki|] eqn:Ei.
        * rewrite map_size_insert_Some by (by rewrite Ei). lia.
        * rewrite map_size_insert_None by done. lia.
      + intros j Hj. apply elem_of_app in Hj as [Hj|Hj].
        * destruct (Hseen j Hj) as (kj & H1 & H2). exists kj. split; [by apply Hold|].
          rewrite list_lookup_insert_ne by (intros ->; done). done.
        * apply elem_of_list_singleton in Hj as ->. exists k. rewrite lookup_insert. split; [done|].
          rewrite list_lookup_insert by lia. done.
      + intros c kc Hkc. unfold k in *. destruct (m !! label i) as [ki|] eqn:Ei.
        * cbn [default] in *. rewrite insert_id in * by done. by eapply Hlt.
        * rewrite map_size_insert_None by done. destruct (decide (c = label i)) as [->|Hne].
          -- rewrite lookup_insert in Hkc. injection Hkc as <-. cbn. lia.
          -- rewrite lookup_insert_ne in Hkc by done. apply Hlt in Hkc. lia.
      + intros c c' kc H1 H2. unfold k in *. destruct (m !! label i) as [ki|] eqn:Ei.
        * cbn [default] in *. rewrite insert_id in * by done. by eapply Hinj.
        * destruct (decide (c = label i)) as [->|Hne]; destruct (decide (c' = label i)) as [->|Hne'].
          -- done.
          -- rewrite lookup_insert in H1. rewrite lookup_insert_ne in H2 by done.
             injection H1 as <-. apply Hlt in H2. cbn in H2. lia.
          -- rewrite lookup_insert in H2. rewrite lookup_insert_ne in H1 by done.
             injection H2 as <-. apply Hlt in H1. cbn in H1. lia.
          -- rewrite lookup_insert_ne in H1, H2 by done. by eapply Hinj.
    - exists st'. split; [exact Hrun|]. cbn [map fst]. rewrite <- app_assoc in Hc'. exact Hc'.
  Qed.

  Lemma numeric_refs fast sorter a :
    iter_agrees g → gr_get_attribute g a = Ok s →
    ∃ k refs, refs_of (gr_size g).2 k val label refs ∧
      ∀ fuel, numeric_entropy fast show sorter fuel g a =
        match best_threshold fast fuel k (sorter refs) with Some p => Ok p | None => Err end.
  Proof using Hread.
    intros Hiter Hs. destruct (Hiter [s]) as (rows & Hrows & Hfst & Hf).
    destruct (collect_rows rows [] (∅, replicate (gr_size g).2 (float_zero, 0))) as ([m refs] & Hrun & Hc).
    - cbn [app]. rewrite Hfst. apply NoDup_seq.
    - intros i fetch Hin. split; [|by apply Hf]. apply (elem_of_list_fmap_1 fst) in Hin.
      change (fst <$> rows) with (map fst rows) in Hin. rewrite Hfst in Hin. apply elem_of_seq in Hin.
      cbn in Hin. lia.
    - split; [apply replicate_length|]. cbn [fst snd]. split; [by rewrite map_size_empty|]. split; [|split].
      + intros i Hi. by apply elem_of_nil in Hi.
      + intros c k Hk. by rewrite lookup_empty in Hk.
      + intros c c' k Hk. by rewrite lookup_empty in Hk.
    - destruct Hc as (Hlen & Hsz & Hseen & Hlt & Hinj). cbn [fst snd app] in *.
      rewrite Hfst, seq_length in Hsz.
      assert (∀ i, i < (gr_size g).2 → ∃ k, m !! label i = Some k ∧ refs !! i = Some (val i, k)) as Hin.
      { intros i Hi. apply Hseen. rewrite Hfst. apply elem_of_seq. lia. }
      exists (size m), refs. split.
      + split; [done|]. split; [done|]. exists (λ c, default 0 (m !! c)). split.
        * intros i Hi. destruct (Hin i Hi) as (k & -> & Hr). split; [done|]. cbn.
          destruct (Hin i Hi) as (k' & Hk' & Hr'). assert (k' = k) as -> by congruence. by eapply Hlt.
        * intros i j Hi Hj. destruct (Hin i Hi) as (k & Hk & _), (Hin j Hj) as (k' & Hk' & _).
          rewrite Hk, Hk'. cbn. intros ->. by eapply Hinj.
      + intros fuel. unfold numeric_entropy, map_over_rows. rewrite Hs. cbn [mbind res_bind].
        rewrite Hrows, Hrun. cbn [mbind res_bind fst snd]. done.
  Qed.
End refs.

(** ** Ends *)

Lemma numeric_ends fast show sorter g a s val label :
  iter_agrees g → gr_get_attribute g a = Ok s → reads_numbers show g s val label →
  (∀ l, sorter l ≡ₚ l) →
  (∀ i, i < (gr_size g).2 → is_finite 53 1024 (val i) = true) →
  ∀ fuel, 2 * (gr_size g).2 + 1 < fuel → ∃ e v, numeric_entropy fast show sorter fuel g a = Ok (e, v).
Proof.
  intros Hiter Hs Hread Hsort Hfin fuel Hfuel.
  destruct (numeric_refs show g s val label Hread fast sorter a Hiter Hs) as (k & refs & (Hlen & _ & code & Hr & _) & Hnum).
  destruct (best_threshold_ends fast k (sorter refs) fuel) as [[e v] H].
  - intros v (j & x & y & Hx & Hy & ->).
    assert (∀ z : split_ref, z ∈ sorter refs → is_finite 53 1024 z.1 = true) as Hz.
    { intros z Hz. rewrite (Hsort refs) in Hz. apply elem_of_list_lookup in Hz as [i Hi].
      assert (i < (gr_size g).2) as Hlt by (rewrite <- Hlen; by eapply lookup_lt_Some).
      destruct (Hr i Hlt) as [Hri _]. rewrite Hri in Hi. injection Hi as <-. by apply Hfin. }
    apply middle_number; apply Hz; by eapply elem_of_list_lookup_2.
  - rewrite (Permutation_length (Hsort refs)), Hlen. exact Hfuel.
  - exists e, v. by rewrite Hnum, H.
Qed.

Lemma numeric_best fast show sorter g a s val label :
  iter_agrees g → gr_get_attribute g a = Ok s → reads_numbers show g s val label →
  (∀ l, sorter l ≡ₚ l) →
  ∃ k refs, refs_of (gr_size g).2 k val label refs ∧
    (well_apart (sorter refs) → ∀ fuel, (gr_size g).2 < fuel →
     ∃ e v, numeric_entropy fast show sorter fuel g a = Ok (e, v) ∧
       (∀ w, is_middle (sorter refs) w → float_lt (threshold_entropy fast k refs w) e = false) ∧
       ((e = float_inf ∧ v = float_inf) ∨
        (is_middle (sorter refs) v ∧ e = threshold_entropy fast k refs v))).
Proof.
  intros Hiter Hs Hread Hsort.
  destruct (numeric_refs show g s val label Hread fast sorter a Hiter Hs) as (k & refs & Hr & Hnum).
  exists k, refs. split; [done|]. intros Hw fuel Hfuel.
  assert (∀ w, threshold_entropy fast k (sorter refs) w = threshold_entropy fast k refs w) as Ht.
  { intros w. unfold threshold_entropy, class_counts. f_equal; apply map_ext; intros c;
      apply Permutation_length, filter_Permutation, filter_Permutation, Hsort. }
  destruct (best_threshold_best fast k (sorter refs) fuel Hw) as (e & v & H & Hmin & Hbest).
  { rewrite (Permutation_length (Hsort refs)), (proj1 Hr). exact Hfuel. }
  exists e, v. split; [by rewrite Hnum, H|]. split.
  - intros w Hwm. rewrite <- Ht. by apply Hmin.
  - rewrite <- Ht. done.
Qed.

(** ** ... unless the column is all NaN *)

Lemma plus_nan x y : is_nan 53 1024 x = true → is_nan 53 1024 (b64_plus mode_NE x y) = true.
Proof. intros H. by destruct x, y. Qed.
Lemma half_nan x y : is_nan 53 1024 x = true → is_nan 53 1024 (b64_div mode_NE x y) = true.
Proof. intros H. by destruct x, y. Qed.

Lemma numeric_hangs fast show sorter g a s val label :
  iter_agrees g → gr_get_attribute g a = Ok s → reads_numbers show g s val label →
  (∀ l, sorter l ≡ₚ l) → 1 < (gr_size g).2 →
  (∀ i, i < (gr_size g).2 → is_nan 53 1024 (val i) = true) →
  ∀ fuel, numeric_entropy fast show sorter fuel g a = Err.
Proof.
  intros Hiter Hs Hread Hsort Hn Hnan fuel.
  destruct (numeric_refs show g s val label Hread fast sorter a Hiter Hs) as (k & refs & (Hlen & _ & code & Hr & _) & ->).
  pose proof (Permutation_length (Hsort refs)) as Hl. rewrite Hlen in Hl.
  destruct (lookup_lt_is_Some_2 (sorter refs) 0) as [x Hx]; [lia|].
  destruct (lookup_lt_is_Some_2 (sorter refs) 1) as [y Hy]; [lia|].
  rewrite (best_threshold_hangs fast fuel k (sorter refs) x y Hx Hy); [done|].
  apply half_nan, plus_nan. apply elem_of_list_lookup_2 in Hx. rewrite (Hsort refs) in Hx.
  apply elem_of_list_lookup in Hx as [i Hi].
  assert (i < (gr_size g).2) as Hlt by (rewrite <- Hlen; by eapply lookup_lt_Some).
  destruct (Hr i Hlt) as [Hri _]. rewrite Hri in Hi. injection Hi as <-. by apply Hnan.
Qed.

(** ** Candidates *)

Lemma candidates_perm ao g :
  any_order ao → distinct_attrs (gr_all_attrs g) →
  candidates ao g ≡ₚ filter (λ a, a ∉ gr_class_attrs g) (gr_all_attrs g) ∧
  distinct_attrs (candidates ao g).
Proof.
  intros Hao Hd. unfold candidates.
  destruct (difference_refs_spec (gr_all_attrs g) (gr_class_attrs g) (ao (build_attr_set (gr_all_attrs g))))
    as [Hn Hin]; [apply Hao|].
  assert (NoDup (gr_all_attrs g)) as Hnd.
  { apply NoDup_alt. intros i j a Hi Hj. apply (Hd i j a a Hi Hj). apply AttrProofs.attr_equals_refl. }
  split.
  - apply NoDup_Permutation; [done|by apply NoDup_filter|]. intros a. rewrite Hin, elem_of_list_filter. tauto.
  - intros i j a b Hi Hj He.
    assert (a = b) as <-.
    { pose proof (elem_of_list_lookup_2 _ _ _ Hi) as Ha. pose proof (elem_of_list_lookup_2 _ _ _ Hj) as Hb.
      apply Hin in Ha as [Ha _]. apply Hin in Hb as [Hb _].
      apply elem_of_list_lookup in Ha as [x Hx]. apply elem_of_list_lookup in Hb as [y Hy].
      pose proof (Hd x y a b Hx Hy He) as ->. congruence. }
    rewrite NoDup_alt in Hn. by eapply Hn.
Qed.

Lemma random_ends select draw k ao g :
  any_order ao → distinct_attrs (gr_all_attrs g) → k ≤ length (others g) →
  fair (length (others g)) draw →
  ∃ fuel l, distinct_attrs l ∧ length l = k ∧ l ⊆ others g ∧
    ∀ extra, random_rule select draw (fuel + extra) k ao g = (r ← select l g; Ok (Some r)).
Proof.
  intros Hao Hd Hk Hf. destruct (candidates_perm ao g Hao Hd) as [Hp Hc].
  pose proof (Permutation_length Hp) as Hl. fold (others g) in Hp, Hl.
  destruct (draw_attrs_ends draw (candidates ao g) k Hc) with (n := k) (acc := @nil attr) (t := 0) as (fuel & l & H).
  - lia.
  - by rewrite Hl.
  - cbn. lia.
  - destruct (draw_attrs_spec _ _ _ _ _ _ _ H) as (H1 & H2 & H3).
    + intros i j a b Hi. by rewrite lookup_nil in Hi.
    + intros a Ha. by apply elem_of_nil in Ha.
    + cbn. lia.
    + exists fuel, l. split; [done|]. split; [done|]. split.
      * intros a Ha. apply H2 in Ha. by rewrite Hp in Ha.
      * intros extra. unfold random_rule. by rewrite (draw_attrs_more _ extra _ _ _ _ _ _ H).
Qed.

Lemma random_hangs select draw k ao g :
  any_order ao → distinct_attrs (gr_all_attrs g) → others g ≠ [] → length (others g) < k →
  (∀ t, draw t < length (others g)) →
  ∀ fuel, random_rule select draw fuel k ao g = Err.
Proof.
  intros Hao Hd Hne Hk Hdraw fuel. destruct (candidates_perm ao g Hao Hd) as [Hp Hc].
  pose proof (Permutation_length Hp) as Hl. fold (others g) in Hp, Hl. unfold random_rule.
  rewrite (draw_attrs_hangs draw (candidates ao g) k); [done|done| | | | |].
  - intros E. rewrite E in Hl. by destruct (others g).
  - by rewrite Hl.
  - by rewrite Hl.
  - intros i j a b Hi. by rewrite lookup_nil in Hi.
  - intros a Ha. by apply elem_of_nil in Ha.
Qed.
