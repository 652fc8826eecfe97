(** Lemmas about attributes. *)
From Verif Require Import Prelude BytesModel BytesProofs AttrModel AttrSpec.

(** ** Equals *)

Lemma values_loop_spec a b :
  length a = length b → values_loop a b = true ↔ a = b.
Proof.
  revert b. induction a as [|x a IH]; intros [|y b] Hl; simpl in *; try done.
  case_bool_decide as Hxy; simpl.
  - subst. rewrite IH by lia. split; [by intros ->|by intros [= ->]].
  - split; [done|]. intros [= ??]. done.
Qed.

(** What [Equals] means: same kind, same name, and for categorical attributes
    the same values in the same order (float precision is ignored). *)
Lemma attr_equals_spec a b :
  attr_equals a b = true ↔
  match a, b with
  | FloatA n _, FloatA m _ => n = m
  | CatA n vs, CatA m ws => n = m ∧ vs = ws
  | BinA n, BinA m => n = m
  | _, _ => False
  end.
Proof.
  destruct a as [n p|n vs|n], b as [m q|m ws|m]; simpl; try done.
  - by rewrite bool_decide_eq_true.
  - case_bool_decide as Hn; simpl; [|naive_solver].
    destruct (length ws =? length vs) eqn:E; simpl.
    + rewrite values_loop_spec by lia. naive_solver.
    + split; [done|]. intros [_ ->]. rewrite Nat.eqb_refl in E. done.
  - rewrite bool_decide_eq_true. naive_solver.
Qed.

Lemma attr_equals_refl a : attr_equals a a = true.
Proof. apply attr_equals_spec. by destruct a. Qed.

Lemma attr_equals_sym a b : attr_equals a b = true → attr_equals b a = true.
Proof. rewrite !attr_equals_spec. destruct a, b; naive_solver. Qed.

Lemma attr_equals_comm a b : attr_equals a b = attr_equals b a.
Proof.
  destruct (attr_equals a b) eqn:E, (attr_equals b a) eqn:F; try done.
  - apply attr_equals_sym in E. congruence.
  - apply attr_equals_sym in F. congruence.
Qed.

Lemma attr_equals_trans a b c :
  attr_equals a b = true → attr_equals b c = true → attr_equals a c = true.
Proof. rewrite !attr_equals_spec. destruct a, b, c; naive_solver. Qed.

Lemma attr_compatible_spec a b :
  attr_compatible a b = true ↔
  match a, b with
  | FloatA _ _, FloatA _ _ => True
  | CatA _ vs, CatA _ ws => vs = ws
  | BinA _, BinA _ => True
  | _, _ => False
  end.
Proof.
  destruct a as [n p|n vs|n], b as [m q|m ws|m]; simpl; try done.
  destruct (length ws =? length vs) eqn:E; simpl.
  - by rewrite values_loop_spec by lia.
  - split; [done|]. intros ->. rewrite Nat.eqb_refl in E. done.
Qed.

Lemma attr_equals_compatible a b :
  attr_equals a b = true → attr_compatible a b = true.
Proof. rewrite attr_equals_spec, attr_compatible_spec. destruct a, b; naive_solver. Qed.

Lemma attr_compatible_name a b :
  attr_equals a b = true ↔ attr_compatible a b = true ∧ attr_name a = attr_name b.
Proof. rewrite attr_equals_spec, attr_compatible_spec. destruct a, b; naive_solver. Qed.

(** ** Set operations *)

Lemma attr_matched_spec a bs :
  attr_matched a bs = true ↔ ∃ b, b ∈ bs ∧ attr_equals a b = true.
Proof.
  induction bs as [|b bs IH]; simpl.
  - split; [done|]. intros (b & Hb & _). by apply not_elem_of_nil in Hb.
  - destruct (attr_equals a b) eqn:E.
    + split; [|done]. intros _. exists b. split; [left|done].
    + rewrite IH. split.
      * intros (c & Hc & Ha). exists c. split; [by right|done].
      * intros (c & Hc & Ha). apply elem_of_cons in Hc as [->|Hc]; [congruence|].
        by exists c.
Qed.

Lemma attr_intersect_filter a1 a2 :
  attr_intersect a1 a2 = filter (λ a, attr_matched a a2 = true) a1.
Proof.
  induction a1 as [|a a1 IH]; [done|]. simpl. rewrite filter_cons.
  destruct (attr_matched a a2); simpl; by rewrite IH.
Qed.

Lemma attr_difference_filter a1 a2 :
  attr_difference a1 a2 = filter (λ a, attr_matched a a2 = false) a1.
Proof.
  induction a1 as [|a a1 IH]; [done|]. simpl. rewrite filter_cons.
  destruct (attr_matched a a2); simpl; by rewrite IH.
Qed.

Lemma attr_ops_split a1 a2 :
  splits (λ a, ∃ b, b ∈ a2 ∧ attr_equals a b = true) a1
    (attr_intersect a1 a2) (attr_difference a1 a2).
Proof.
  induction a1 as [|a a1 IH]; simpl; [constructor|].
  destruct (attr_matched a a2) eqn:E; simpl.
  - apply splits_yes; [by apply attr_matched_spec|done].
  - apply splits_no; [|done]. intros H. apply attr_matched_spec in H. congruence.
Qed.

Lemma attr_intersect_elem a a1 a2 :
  a ∈ attr_intersect a1 a2 ↔ a ∈ a1 ∧ ∃ b, b ∈ a2 ∧ attr_equals a b = true.
Proof.
  rewrite attr_intersect_filter, elem_of_list_filter, attr_matched_spec. naive_solver.
Qed.

Lemma attr_intersect_length a1 a2 : length (attr_intersect a1 a2) ≤ length a1.
Proof. rewrite attr_intersect_filter. apply filter_length. Qed.

Lemma attr_intersect_full a1 a2 :
  length (attr_intersect a1 a2) = length a1 ↔
  ∀ a, a ∈ a1 → ∃ b, b ∈ a2 ∧ attr_equals a b = true.
Proof.
  induction a1 as [|a a1 IH]; simpl.
  - split; [|done]. intros _ a Ha. by apply not_elem_of_nil in Ha.
  - pose proof (attr_intersect_length a1 a2) as Hle.
    destruct (attr_matched a a2) eqn:E; simpl.
    + split.
      * intros [= Hl] c Hc. apply elem_of_cons in Hc as [->|Hc].
        -- by apply attr_matched_spec.
        -- by apply IH.
      * intros Hall. f_equal. apply IH. intros c Hc. apply Hall. by right.
    + split; [lia|]. intros Hall. exfalso.
      assert (attr_matched a a2 = true); [|congruence].
      apply attr_matched_spec, Hall. left.
Qed.

Lemma attr_intersect_id a1 a2 :
  length (attr_intersect a1 a2) = length a1 → attr_intersect a1 a2 = a1.
Proof.
  induction a1 as [|a a1 IH]; simpl; [done|].
  pose proof (attr_intersect_length a1 a2) as Hle.
  destruct (attr_matched a a2) eqn:E; simpl; intros Hl; [|lia].
  f_equal. apply IH. lia.
Qed.

Lemma distinct_attrs_cons a l :
  distinct_attrs (a :: l) → distinct_attrs l ∧ ∀ b, b ∈ l → attr_equals a b = false.
Proof.
  intros H. split.
  - intros i j x y Hi Hj He. pose proof (H (S i) (S j) x y Hi Hj He). lia.
  - intros b Hb. apply elem_of_list_lookup in Hb as [j Hj].
    destruct (attr_equals a b) eqn:E; [|done].
    pose proof (H 0 (S j) a b eq_refl Hj E). lia.
Qed.

Lemma distinct_cover_length l1 l2 :
  distinct_attrs l1 →
  (∀ a, a ∈ l1 → ∃ b, b ∈ l2 ∧ attr_equals a b = true) →
  length l1 ≤ length l2.
Proof.
  revert l2. induction l1 as [|a l1 IH]; intros l2 Hd Hc; simpl; [lia|].
  apply distinct_attrs_cons in Hd as [Hd Ha].
  destruct (Hc a) as (b & Hb & Hab); [left|].
  apply elem_of_list_split in Hb as (k1 & k2 & ->).
  assert (length l1 ≤ length (k1 ++ k2)) as Hle.
  { apply IH; [done|]. intros c Hcin.
    destruct (Hc c) as (d & Hdin & Hcd); [by right|].
    apply elem_of_app in Hdin as [Hdin|Hdin].
    - exists d. split; [apply elem_of_app; by left|done].
    - apply elem_of_cons in Hdin as [->|Hdin].
      + exfalso. specialize (Ha c Hcin).
        rewrite (attr_equals_trans a b c Hab) in Ha; [done|].
        by apply attr_equals_sym.
      + exists d. split; [apply elem_of_app; by right|done]. }
  rewrite app_length in *. simpl. lia.
Qed.

(** Equal length and one-sided cover imply the other cover. *)
Lemma distinct_cover_back l1 l2 :
  distinct_attrs l1 → length l1 = length l2 →
  (∀ a, a ∈ l1 → ∃ b, b ∈ l2 ∧ attr_equals a b = true) →
  ∀ b, b ∈ l2 → ∃ a, a ∈ l1 ∧ attr_equals b a = true.
Proof.
  revert l2. induction l1 as [|a l1 IH]; intros l2 Hd Hl Hc b Hb.
  - destruct l2; [by apply not_elem_of_nil in Hb|done].
  - apply distinct_attrs_cons in Hd as [Hd Ha].
    destruct (Hc a) as (c & Hcin & Hac); [left|].
    apply elem_of_list_split in Hcin as (k1 & k2 & ->).
    assert (b = c ∨ b ∈ k1 ++ k2) as [->|Hb'].
    { apply elem_of_app in Hb as [Hb|Hb];
        [right; apply elem_of_app; by left|].
      apply elem_of_cons in Hb as [->|Hb]; [by left|].
      right. apply elem_of_app; by right. }
    + exists a. split; [left|by apply attr_equals_sym].
    + destruct (IH (k1 ++ k2)) with b as (x & Hx & Hbx); try done.
      * rewrite app_length in *. simpl in *. lia.
      * intros x Hx. destruct (Hc x) as (d & Hdin & Hxd); [by right|].
        apply elem_of_app in Hdin as [Hdin|Hdin].
        -- exists d. split; [apply elem_of_app; by left|done].
        -- apply elem_of_cons in Hdin as [->|Hdin].
           ++ exfalso. specialize (Ha x Hx).
              rewrite (attr_equals_trans a c x Hac) in Ha; [done|].
              by apply attr_equals_sym.
           ++ exists d. split; [apply elem_of_app; by right|done].
      * exists x. split; [by right|done].
Qed.

Lemma check_compatible_spec s1 s2 :
  distinct_attrs s1 → distinct_attrs s2 →
  ((∀ a, a ∈ s1 → ∃ b, b ∈ s2 ∧ attr_equals a b = true) ∧
   (∀ b, b ∈ s2 → ∃ a, a ∈ s1 ∧ attr_equals b a = true) →
   check_compatible s1 s2 = Some s1) ∧
  (¬ ((∀ a, a ∈ s1 → ∃ b, b ∈ s2 ∧ attr_equals a b = true) ∧
      (∀ b, b ∈ s2 → ∃ a, a ∈ s1 ∧ attr_equals b a = true)) →
   check_compatible s1 s2 = None).
Proof.
  intros Hd1 Hd2. unfold check_compatible. split.
  - intros [H12 H21].
    assert (length (attr_intersect s1 s2) = length s1) as Hl
      by by apply attr_intersect_full.
    assert (length s1 = length s2) as Hl2.
    { apply Nat.le_antisymm; by apply distinct_cover_length. }
    rewrite Hl, Nat.eqb_refl. simpl. rewrite Hl2, Nat.eqb_refl. simpl.
    f_equal. by apply attr_intersect_id.
  - intros Hn.
    destruct (length (attr_intersect s1 s2) =? length s1) eqn:E1; simpl; [|done].
    destruct (length (attr_intersect s1 s2) =? length s2) eqn:E2; simpl; [|done].
    exfalso. apply Hn. apply Nat.eqb_eq in E1, E2.
    assert (∀ a, a ∈ s1 → ∃ b, b ∈ s2 ∧ attr_equals a b = true) as H12
      by by apply attr_intersect_full.
    split; [done|]. apply distinct_cover_back; [done|lia|done].
Qed.

Lemma check_compatible_symm s1 s2 :
  distinct_attrs s1 → distinct_attrs s2 →
  is_Some (check_compatible s1 s2) ↔ is_Some (check_compatible s2 s1).
Proof.
  assert (∀ s1 s2, distinct_attrs s1 → distinct_attrs s2 →
    is_Some (check_compatible s1 s2) → is_Some (check_compatible s2 s1)) as H.
  { clear s1 s2. intros s1 s2 Hd1 Hd2 [r Hr].
    destruct (check_compatible_spec s2 s1 Hd2 Hd1) as [Hyes _].
    rewrite Hyes; [by eexists|].
    unfold check_compatible in Hr.
    destruct (length (attr_intersect s1 s2) =? length s1) eqn:E1; simpl in Hr; [|done].
    destruct (length (attr_intersect s1 s2) =? length s2) eqn:E2; simpl in Hr; [|done].
    apply Nat.eqb_eq in E1, E2.
    assert (∀ a, a ∈ s1 → ∃ b, b ∈ s2 ∧ attr_equals a b = true) as H12
      by by apply attr_intersect_full.
    split; [|done]. apply distinct_cover_back; [done|lia|done]. }
  intros; split; by apply H.
Qed.

(** ** Reference sets *)

Section refs.
  Context {R : Type} `{EqDecision R}.

  Lemma build_attr_set_elem (l : list R) a : a ∈ build_attr_set l ↔ a ∈ l.
  Proof.
    revert a. induction l as [|b l IH]; intros a; simpl; [done|].
    case_bool_decide as Hb; rewrite !elem_of_cons, IH; [|done].
    rewrite IH in Hb. naive_solver.
  Qed.

  Lemma build_attr_set_nodup (l : list R) : NoDup (build_attr_set l).
  Proof.
    induction l as [|b l IH]; simpl; [constructor|].
    case_bool_decide; [done|]. by constructor.
  Qed.

  Lemma build_attr_set_id (l : list R) : NoDup l → build_attr_set l = l.
  Proof.
    induction 1 as [|b l Hb Hl IH]; simpl; [done|].
    rewrite bool_decide_eq_false_2; rewrite IH; done.
  Qed.

  Lemma difference_refs_spec (a1 a2 order : list R) :
    iteration_order a1 order →
    NoDup (difference_refs order a2) ∧
    (∀ a, a ∈ difference_refs order a2 ↔ a ∈ a1 ∧ a ∉ a2).
  Proof.
    unfold iteration_order, difference_refs. intros Ho. split.
    - apply NoDup_filter. rewrite Ho. apply build_attr_set_nodup.
    - intros a. rewrite elem_of_list_filter, build_attr_set_elem, Ho,
        build_attr_set_elem. naive_solver.
  Qed.

  Lemma intersect_refs_spec (a1 a2 order : list R) :
    iteration_order a1 order →
    NoDup (intersect_refs order a2) ∧
    (∀ a, a ∈ intersect_refs order a2 ↔ a ∈ a1 ∧ a ∈ a2).
  Proof.
    unfold iteration_order, intersect_refs. intros Ho. split.
    - apply NoDup_filter. rewrite Ho. apply build_attr_set_nodup.
    - intros a. rewrite elem_of_list_filter, build_attr_set_elem, Ho,
        build_attr_set_elem. naive_solver.
  Qed.

  Lemma refs_partition (a1 a2 o1 o2 : list R) :
    NoDup a1 → iteration_order a1 o1 → iteration_order a1 o2 →
    intersect_refs o1 a2 ++ difference_refs o2 a2 ≡ₚ a1.
  Proof.
    intros Hnd Ho1 Ho2.
    destruct (intersect_refs_spec a1 a2 o1 Ho1) as [Hn1 He1].
    destruct (difference_refs_spec a1 a2 o2 Ho2) as [Hn2 He2].
    apply NoDup_Permutation; [|done|].
    - apply NoDup_app. split; [done|]. split; [|done].
      intros x Hx Hx2. apply He1 in Hx. apply He2 in Hx2. naive_solver.
    - intros x. rewrite elem_of_app, He1, He2.
      destruct (decide (x ∈ a2)); naive_solver.
  Qed.
End refs.

Definition is_float (a : attr) : bool :=
  match a with FloatA _ _ => true | _ => false end.

Lemma nonclass_float_spec all cls :
  nonclass_float_attrs all cls =
  filter (λ a, is_float a = true ∧ attr_matched a cls = false) all.
Proof.
  induction all as [|a all IH]; [done|].
  destruct a as [n p|n vs|n]; cbn [nonclass_float_attrs].
  - destruct (attr_matched (FloatA n p) cls) eqn:E; cbn [negb].
    + rewrite filter_cons_False by (intros [??]; simpl in *; congruence). done.
    + rewrite filter_cons_True by (split; done). by rewrite IH.
  - rewrite filter_cons_False by (intros [??]; simpl in *; congruence). done.
  - rewrite filter_cons_False by (intros [??]; simpl in *; congruence). done.
Qed.

Lemma nonclass_float_elem all cls a :
  a ∈ nonclass_float_attrs all cls ↔
  a ∈ all ∧ (∃ n p, a = FloatA n p) ∧ ∀ c, c ∈ cls → attr_equals a c = false.
Proof.
  rewrite nonclass_float_spec, elem_of_list_filter.
  assert (is_float a = true ↔ ∃ n p, a = FloatA n p) as ->.
  { destruct a; naive_solver. }
  assert (attr_matched a cls = false ↔ ∀ c, c ∈ cls → attr_equals a c = false) as ->.
  { split.
    - intros H c Hc. destruct (attr_equals a c) eqn:E; [|done].
      assert (attr_matched a cls = true); [|congruence].
      apply attr_matched_spec. eauto.
    - intros H. destruct (attr_matched a cls) eqn:E; [|done].
      apply attr_matched_spec in E as (b & Hb & He). rewrite H in He; done. }
  naive_solver.
Qed.

(** ** Categorical encoding *)

Lemma cat_find_from_some k vs s i :
  cat_find_from k vs s = Some i →
  k ≤ i ∧ vs !! (i - k) = Some s ∧ ∀ j, j < i - k → vs !! j ≠ Some s.
Proof.
  revert k. induction vs as [|v vs IH]; intros k; simpl; [done|].
  case_bool_decide as Hv.
  - intros [= <-]. subst. rewrite Nat.sub_diag. split; [lia|].
    split; [done|]. intros j Hj. lia.
  - intros H. apply IH in H as (Hle & Hlk & Hmin).
    assert (i - k = S (i - S k)) as -> by lia.
    split; [lia|]. split; [done|]. intros [|j] Hj; simpl; [congruence|].
    apply Hmin. lia.
Qed.

Lemma cat_find_from_none k vs s :
  cat_find_from k vs s = None ↔ s ∉ vs.
Proof.
  revert k. induction vs as [|v vs IH]; intros k; simpl.
  - split; [intros _; apply not_elem_of_nil|done].
  - case_bool_decide as Hv.
    + split; [done|]. intros H. exfalso. apply H. subst. left.
    + rewrite IH, not_elem_of_cons. naive_solver.
Qed.

Lemma cat_find_some vs s i :
  cat_find vs s = Some i → vs !! i = Some s.
Proof.
  intros H. apply cat_find_from_some in H as (_ & H & _).
  by rewrite Nat.sub_0_r in H.
Qed.

Lemma cat_find_none vs s : cat_find vs s = None ↔ s ∉ vs.
Proof. apply cat_find_from_none. Qed.

Lemma cat_encode_spec vs s vs' code :
  cat_encode vs s = (vs', code) →
  ∃ k, code = pack_u64 (N.of_nat k) ∧ vs' !! k = Some s ∧
       vs `prefix_of` vs' ∧ (NoDup vs → NoDup vs') ∧
       (∀ t, t ∈ vs' ↔ t ∈ vs ∨ t = s) ∧ length vs' ≤ S (length vs).
Proof.
  unfold cat_encode. destruct (cat_find vs s) as [i|] eqn:E; intros [= <- <-].
  - apply cat_find_some in E. exists i. split; [done|]. split; [done|].
    split; [done|]. split; [done|]. split; [|lia].
    intros t. split; [by left|]. intros [?| ->]; [done|].
    by eapply elem_of_list_lookup_2.
  - apply cat_find_none in E. rewrite app_length. simpl.
    exists (length vs). split; [f_equal; f_equal; lia|].
    split; [by rewrite lookup_app_r, Nat.sub_diag|].
    split; [by apply prefix_app_r|].
    split.
    + intros Hnd. apply NoDup_app. split; [done|]. split.
      * intros x Hx Hs. apply elem_of_list_singleton in Hs. congruence.
      * apply NoDup_singleton.
    + split; [|lia]. intros t. rewrite elem_of_app, elem_of_list_singleton. done.
Qed.

Lemma cat_encode_all_spec hist vs vs' codes :
  cat_encode_all vs hist = (vs', codes) →
  vs `prefix_of` vs' ∧ (NoDup vs → NoDup vs') ∧
  (∀ t, t ∈ vs' ↔ t ∈ vs ∨ t ∈ hist) ∧
  length vs' ≤ length vs + length hist ∧
  Forall2 (λ s code, ∃ k, code = pack_u64 (N.of_nat k) ∧ vs' !! k = Some s)
    hist codes.
Proof.
  revert vs vs' codes. induction hist as [|s hist IH]; intros vs vs' codes; simpl.
  - intros [= <- <-]. split; [done|]. split; [done|].
    split; [|split; [lia|constructor]].
    intros t. rewrite elem_of_nil. tauto.
  - destruct (cat_encode vs s) as [v1 c1] eqn:E1.
    destruct (cat_encode_all v1 hist) as [v2 cs] eqn:E2. intros [= <- <-].
    apply cat_encode_spec in E1 as (k & Hc & Hk & Hp & Hnd & Hel & Hlen).
    apply IH in E2 as (Hp2 & Hnd2 & Hel2 & Hlen2 & Hall).
    split; [by etrans|]. split; [naive_solver|].
    split. { intros t. rewrite Hel2, Hel, elem_of_cons. naive_solver. }
    split; [lia|].
    constructor; [|done]. exists k. split; [done|].
    destruct Hp2 as [k2 ->]. by apply lookup_app_l_Some.
Qed.

Lemma cat_encode_all_app h1 h2 vs :
  (cat_encode_all vs (h1 ++ h2)).1 =
  (cat_encode_all (cat_encode_all vs h1).1 h2).1.
Proof.
  revert vs. induction h1 as [|s h1 IH]; intros vs; simpl; [done|].
  destruct (cat_encode vs s) as [v1 c1].
  destruct (cat_encode_all v1 (h1 ++ h2)) as [v2 cs] eqn:E.
  destruct (cat_encode_all v1 h1) as [v3 cs3] eqn:E3. simpl.
  specialize (IH v1). rewrite E, E3 in IH. simpl in IH. done.
Qed.

Lemma cat_decode_ok vs k s :
  (N.of_nat (length vs) < 2^63)%N → vs !! k = Some s →
  cat_decode vs (pack_u64 (N.of_nat k)) = Ok s.
Proof.
  intros Hlen Hk. unfold cat_decode.
  assert (k < length vs) as Hlt by by eapply lookup_lt_Some.
  change (2^63)%N with 9223372036854775808%N in *.
  rewrite unpack_pack_u64.
  2: { change (2^64)%N with 18446744073709551616%N. lia. }
  simpl.
  destruct (N.of_nat k <? 9223372036854775808)%N eqn:E; [|lia].
  destruct (Z.of_nat (length vs) <=? Z.of_N (N.of_nat k))%Z eqn:E2; [lia|].
  destruct (Z.of_N (N.of_nat k) <? 0)%Z eqn:E3; [lia|].
  unfold idx. replace (Z.to_nat (Z.of_N (N.of_nat k))) with k by lia.
  by rewrite Hk.
Qed.

Lemma cat_decode_panic vs raw v :
  (N.of_nat (length vs) < 2^63)%N →
  unpack_u64 raw = Ok v → (v < 2^64)%N → (N.of_nat (length vs) ≤ v)%N →
  cat_decode vs raw = Panic.
Proof.
  intros Hlen Hu H64 Hv. change (2^64)%N with 18446744073709551616%N in *. unfold cat_decode. rewrite Hu. cbn [mbind res_bind].
  change (2^63)%N with 9223372036854775808%N in *.
  change (2^64)%Z with 18446744073709551616%Z in *.
  destruct (v <? 9223372036854775808)%N eqn:E.
  - destruct (Z.of_nat (length vs) <=? Z.of_N v)%Z eqn:E2; [done|lia].
  - destruct (_ <=? _)%Z eqn:E2; [done|].
    destruct (_ <? 0)%Z eqn:E3; [done|].
    unfold idx. rewrite lookup_ge_None_2; [done|].
    lia.
Qed.

Lemma Forall2_lookup_both {A B} (P : A → B → Prop) l k :
  Forall2 P l k → ∀ i x y, l !! i = Some x → k !! i = Some y → P x y.
Proof. intros H i x y Hx Hy. by eapply (Forall2_lookup_lr P l k). Qed.

Lemma cat_history hist vs0 vs' codes :
  NoDup vs0 →
  (N.of_nat (length vs0 + length hist) < 2^63)%N →
  cat_encode_all vs0 hist = (vs', codes) →
  length codes = length hist ∧
  (∀ i s c, hist !! i = Some s → codes !! i = Some c → cat_decode vs' c = Ok s) ∧
  (∀ i j s t c d, hist !! i = Some s → hist !! j = Some t →
     codes !! i = Some c → codes !! j = Some d → (s = t ↔ c = d)).
Proof.
  intros Hnd Hlen Hrun.
  apply cat_encode_all_spec in Hrun as (Hp & Hnd2 & Hel & Hl & Hall).
  specialize (Hnd2 Hnd).
  assert (N.of_nat (length vs') < 2^63)%N as Hlen'.
  { change (2^63)%N with 9223372036854775808%N in *. lia. }
  assert (∀ i s c, hist !! i = Some s → codes !! i = Some c →
            cat_decode vs' c = Ok s) as Hdec.
  { intros i s c Hs Hc.
    destruct (Forall2_lookup_both _ _ _ Hall i s c Hs Hc) as (k & -> & Hk).
    by apply cat_decode_ok. }
  split; [symmetry; by eapply Forall2_length|]. split; [done|].
  intros i j s t c d Hs Ht Hc Hd. split.
  - intros <-.
    destruct (Forall2_lookup_both _ _ _ Hall i s c Hs Hc) as (k & -> & Hk).
    destruct (Forall2_lookup_both _ _ _ Hall j s d Ht Hd) as (k2 & -> & Hk2).
    assert (k = k2) as ->; [|done]. by eapply NoDup_lookup.
  - intros <-. pose proof (Hdec i s c Hs Hc). pose proof (Hdec j t c Ht Hd).
    congruence.
Qed.

Lemma cat_codes_index hist vs0 vs' codes :
  cat_encode_all vs0 hist = (vs', codes) →
  ∀ i s c, hist !! i = Some s → codes !! i = Some c →
  ∃ k, c = pack_u64 (N.of_nat k) ∧ vs' !! k = Some s.
Proof.
  intros Hrun. apply cat_encode_all_spec in Hrun as (_ & _ & _ & _ & Hall).
  by apply Forall2_lookup_both.
Qed.

Lemma cat_history_values h1 h2 vs0 :
  (cat_encode_all vs0 h1).1 `prefix_of` (cat_encode_all vs0 (h1 ++ h2)).1 ∧
  (∀ t, t ∈ (cat_encode_all vs0 h1).1 ↔ t ∈ vs0 ∨ t ∈ h1) ∧
  (NoDup vs0 → NoDup (cat_encode_all vs0 h1).1).
Proof.
  rewrite cat_encode_all_app.
  destruct (cat_encode_all vs0 h1) as [v1 c1] eqn:E1. simpl.
  destruct (cat_encode_all v1 h2) as [v2 c2] eqn:E2. simpl.
  apply cat_encode_all_spec in E1 as (_ & Hnd & Hel & _).
  apply cat_encode_all_spec in E2 as (Hp & _). done.
Qed.

Lemma cat_get_sysval_spec vs s :
  match cat_get_sysval vs s with
  | Some c => ∃ k, c = pack_u64 (N.of_nat k) ∧ vs !! k = Some s
  | None => s ∉ vs
  end.
Proof.
  unfold cat_get_sysval. destruct (cat_find vs s) as [i|] eqn:E.
  - apply cat_find_some in E. eauto.
  - by apply cat_find_none.
Qed.

(** Lookup without insertion agrees with the inserting one. *)
Lemma cat_get_sysval_encode vs s c :
  cat_get_sysval vs s = Some c → cat_encode vs s = (vs, c).
Proof.
  unfold cat_get_sysval, cat_encode. destruct (cat_find vs s); [|done].
  by intros [= <-].
Qed.
