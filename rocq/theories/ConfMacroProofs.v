(** Proofs about macro-averaged metrics, F1 scores and cross-validated metrics. *)
From Coq Require Import QArith Lqa.
From Verif Require Import Prelude AttrModel StoreModel DenseModel DenseProofs GridModel
  GridSpec GridProofs ConfModel ConfSpec ConfProofs.
Local Open Scope nat_scope.

Lemma qsum_perm l1 l2 : l1 ≡ₚ l2 → (qsum l1 == qsum l2)%Q.
Proof.
  induction 1 as [|x l1 l2 _ IH|x y l|l1 l2 l3 _ IH1 _ IH2]; simpl.
  - reflexivity.
  - by rewrite IH.
  - ring.
  - by rewrite IH1.
Qed.

Lemma qsum_ext {A} (f g : A → Q) l :
  (∀ x, x ∈ l → (f x == g x)%Q) → (qsum (map f l) == qsum (map g l))%Q.
Proof.
  induction l as [|x l IH]; intros H; simpl; [reflexivity|].
  rewrite (H x) by left. rewrite IH; [reflexivity|]. intros y Hy. apply H. by right.
Qed.

Lemma foldl_qsum {A} (f : A → Q) l a :
  (foldl (λ s x, s + f x)%Q a l == a + qsum (map f l))%Q.
Proof.
  revert a. induction l as [|x l IH]; intros a; simpl; [ring|]. rewrite IH. ring.
Qed.

Lemma sum_over_q_some l f (h : string → Q) :
  (∀ k, k ∈ l → is_number (f k) (h k)) → is_number (sum_over_q l f) (qsum (map h l)).
Proof.
  unfold sum_over_q. intros H.
  enough (∀ a, is_number (foldl (λ acc k, s ← acc; x ← f k; Some (s + x)%Q) (Some a) l)
    (a + qsum (map h l))%Q) as E.
  { destruct (E 0%Q) as (x & Hx & E'). exists x. split; [done|]. rewrite E'. ring. }
  induction l as [|k l IH]; intros a; simpl.
  - exists a. split; [done|]. ring.
  - destruct (H k) as (x & Hx & Ex); [left|]. rewrite Hx. simpl.
    destruct (IH (λ k' Hk', H k' (elem_of_list_further _ _ _ Hk')) (a + x)%Q) as (y & Hy & Ey).
    exists y. split; [done|]. rewrite Ey, Ex. ring.
Qed.

Lemma sum_over_q_none l f k : k ∈ l → f k = None → sum_over_q l f = None.
Proof.
  unfold sum_over_q. intros Hk Hf. generalize (Some 0%Q).
  assert (∀ l, foldl (λ acc k, s ← acc; x ← f k; Some (s + x)%Q) None l = None) as HN.
  { clear. induction l; simpl; [done|]. done. }
  induction Hk as [k l|k k' l Hk IH]; intros a; simpl.
  - destruct a; simpl; [|apply HN]. rewrite Hf. simpl. apply HN.
  - apply IH, Hf.
Qed.

Lemma of_nat_pos n : n ≠ 0 → (0 < of_nat n)%Q.
Proof. intros H. unfold of_nat. change 0%Q with (inject_Z 0). rewrite <- Zlt_Qlt. lia. Qed.

Lemma of_nat_S n : (of_nat (S n) == 1 + of_nat n)%Q.
Proof. rewrite <- (of_nat_plus 1 n : (of_nat 1 + _ == _)%Q). reflexivity. Qed.

(** A mean lies between any bounds of the values. *)
Lemma qsum_bounds (l : list Q) lo hi :
  (∀ x, x ∈ l → (lo <= x)%Q ∧ (x <= hi)%Q) →
  (lo * of_nat (length l) <= qsum l)%Q ∧ (qsum l <= hi * of_nat (length l))%Q.
Proof.
  induction l as [|x l IH]; intros H.
  - simpl. change (of_nat 0) with 0%Q. lra.
  - destruct (H x) as [H1 H2]; [left|].
    destruct IH as [H3 H4]; [intros y Hy; apply H; by right|].
    cbn [length qsum foldr]. fold (qsum l). rewrite of_nat_S.
    set (n := of_nat (length l)) in *. split; lra.
Qed.

Lemma mean_bounds (l : list Q) lo hi :
  l ≠ [] → (∀ x, x ∈ l → (lo <= x)%Q ∧ (x <= hi)%Q) →
  (lo <= mean_of l)%Q ∧ (mean_of l <= hi)%Q.
Proof.
  intros Hne H. destruct (qsum_bounds l lo hi H) as [H1 H2].
  assert (0 < of_nat (length l))%Q as Hp by (apply of_nat_pos; by destruct l).
  unfold mean_of. fold (of_nat (length l)). split.
  - by apply Qle_shift_div_l.
  - by apply Qle_shift_div_r.
Qed.

Lemma quotient_some a b : ¬ (b == 0)%Q → quotient a b = Some (a / b)%Q.
Proof.
  intros H. unfold quotient. destruct (Qeq_bool b 0) eqn:E; [|done].
  by apply Qeq_bool_eq in E.
Qed.

Lemma quotient_none a b : (b == 0)%Q → quotient a b = None.
Proof. intros H. unfold quotient. by rewrite (proj2 (Qeq_bool_iff _ _) H). Qed.

(** *** Precision and recall of a class *)

Lemma recall_fraction show ref gen c ko k :
  confusion_matrix show ref gen = Ok c → any_order ko →
  (∃ i, i < (gr_size ref).2 ∧ get_class show ref i = Ok k) →
  let n := (gr_size ref).2 in
  let hits := count_rows n (λ i, labelled show ref k i && labelled show gen k i) in
  let all := count_rows n (labelled show ref k) in
  is_number (recall ko k c) (fraction hits all) ∧ hits ≤ all ∧ all ≠ 0.
Proof.
  intros H Hko (i & Hi & Hk) n hits all.
  destruct (four_counts show ref gen c ko k H Hko) as (H1 & _ & H3 & _).
  assert (all = hits + false_negatives ko k c) as Hall.
  { unfold all, hits. rewrite H3. apply count_rows_split. }
  assert (all ≠ 0) as Hne.
  { unfold all, count_rows. intros E. apply length_zero_iff_nil in E.
    assert (i ∈ filter (λ i, labelled show ref k i = true) (seq 0 n)) as Hin.
    { apply elem_of_list_filter. split.
      - unfold labelled. by apply bool_decide_eq_true_2.
      - apply elem_of_seq. lia. }
    rewrite E in Hin. by apply elem_of_nil in Hin. }
  split; [|split; [lia|done]].
  unfold recall. rewrite H1. fold hits. apply quotient_fraction; [|done].
  rewrite of_nat_plus, Hall. reflexivity.
Qed.

Lemma precision_fraction show ref gen c ko k :
  confusion_matrix show ref gen = Ok c → any_order ko →
  (∃ i, i < (gr_size ref).2 ∧ get_class show gen i = Ok k) →
  let n := (gr_size ref).2 in
  let hits := count_rows n (λ i, labelled show ref k i && labelled show gen k i) in
  let all := count_rows n (labelled show gen k) in
  is_number (precision ko k c) (fraction hits all) ∧ hits ≤ all ∧ all ≠ 0.
Proof.
  intros H Hko (i & Hi & Hk) n hits all.
  destruct (four_counts show ref gen c ko k H Hko) as (H1 & H2 & _).
  assert (all = hits + false_positives ko k c) as Hall.
  { unfold all, hits. rewrite H2.
    rewrite (count_rows_split _ (labelled show gen k) (labelled show ref k)).
    f_equal; apply count_rows_ext; intros j _; apply andb_comm. }
  assert (all ≠ 0) as Hne.
  { unfold all, count_rows. intros E. apply length_zero_iff_nil in E.
    assert (i ∈ filter (λ i, labelled show gen k i = true) (seq 0 n)) as Hin.
    { apply elem_of_list_filter. split.
      - unfold labelled. by apply bool_decide_eq_true_2.
      - apply elem_of_seq. lia. }
    rewrite E in Hin. by apply elem_of_nil in Hin. }
  split; [|split; [lia|done]].
  unfold precision. rewrite H1. fold hits. apply quotient_fraction; [|done].
  rewrite of_nat_plus, Hall. reflexivity.
Qed.

(** *** C76 *)

Lemma range_labels show ref gen c ko ls :
  confusion_matrix show ref gen = Ok c → any_order ko → labels_of show ref ls →
  range ko c ≡ₚ ls ∧ size c = length ls.
Proof.
  intros H Hko (Hnd & Hls). apply confusion_inv in H as (Hn & rl & gl & Hl & ->).
  set (c := conf_of _).
  assert (map fst (map_to_list c) ≡ₚ ls) as Hp.
  { apply NoDup_Permutation.
    - apply NoDup_fst_map_to_list.
    - done.
    - intros k. rewrite Hls. rewrite elem_of_list_fmap. split.
      + intros ([k' row] & -> & Hin). apply elem_of_map_to_list in Hin. simpl.
        destruct (proj1 (conf_of_dom _ k') (ex_intro _ _ Hin)) as (g & Hg).
        unfold label_pairs in Hg. apply elem_of_list_fmap in Hg as (i & [= -> ->] & Hi).
        apply elem_of_seq in Hi. exists i. split; [lia|]. apply Hl. lia.
      + intros (i & Hi & Hk).
        assert (is_Some (c !! k)) as [row Hrow].
        { apply conf_of_dom. exists (gl i). unfold label_pairs. apply elem_of_list_fmap.
          exists i. destruct (Hl i Hi) as [Hr _]. split; [|apply elem_of_seq; lia].
          congruence. }
        exists (k, row). split; [done|]. by apply elem_of_map_to_list. }
  split.
  - unfold range. by rewrite Hko.
  - rewrite <- (Permutation_length Hp), map_length. reflexivity.
Qed.

Lemma macro_mean ls ko (c : cmatrix) f h :
  range ko c ≡ₚ ls → size c = length ls → ls ≠ [] →
  (∀ k, k ∈ ls → is_number (f k) (h k)) →
  is_number (s ← sum_over_q (range ko c) f; quotient s (of_nat (size c)))
    (mean_of (map h ls)).
Proof.
  intros Hp Hs Hne H.
  destruct (sum_over_q_some (range ko c) f h) as (x & Hx & Ex).
  { intros k Hk. apply H. by rewrite <- Hp. }
  rewrite Hx. simpl. rewrite Hs. rewrite quotient_some.
  - eexists. split; [done|]. unfold mean_of. rewrite map_length. fold (of_nat (length ls)).
    rewrite Ex. rewrite (qsum_perm _ (map h ls)); [reflexivity|]. by apply Permutation_map.
  - intros E. apply (proj1 (of_nat_zero _)) in E. by destruct ls.
Qed.

Lemma labels_nonempty show g ls c :
  labels_of show g ls → (∃ i, i < (gr_size g).2 ∧ get_class show g i = Ok c) → ls ≠ [].
Proof. intros [_ H] Hc ->. apply H in Hc. by apply elem_of_nil in Hc. Qed.

Lemma macro_recall_mean show ref gen c ko ls :
  confusion_matrix show ref gen = Ok c → any_order ko → (gr_size ref).2 ≠ 0 →
  labels_of show ref ls →
  let n := (gr_size ref).2 in
  let q := mean_of (map (λ k, fraction
    (count_rows n (λ i, labelled show ref k i && labelled show gen k i))
    (count_rows n (labelled show ref k))) ls) in
  is_number (macro_recall ko c) q ∧ in_unit q.
Proof.
  intros H Hko Hne Hls n q.
  destruct (range_labels show ref gen c ko ls H Hko Hls) as [Hp Hs].
  assert (ls ≠ []) as Hls'.
  { destruct (proj1 (confusion_inv _ _ _ _) H) as (_ & rl & gl & Hl & _).
    eapply labels_nonempty; [done|]. exists 0. split; [lia|]. apply Hl. lia. }
  assert (∀ k, k ∈ ls → ∃ i, i < (gr_size ref).2 ∧ get_class show ref i = Ok k) as Hin
    by (intros k Hk; by apply Hls).
  split.
  - apply macro_mean; [done..|]. intros k Hk.
    by apply (recall_fraction show ref gen c ko k H Hko (Hin k Hk)).
  - apply mean_bounds; [by destruct ls|]. intros x Hx.
    apply elem_of_list_fmap in Hx as (k & -> & Hk).
    destruct (recall_fraction show ref gen c ko k H Hko (Hin k Hk)) as (_ & H1 & H2).
    by apply fraction_unit.
Qed.

Lemma macro_precision_mean show ref gen c ko ls :
  confusion_matrix show ref gen = Ok c → any_order ko → (gr_size ref).2 ≠ 0 →
  labels_of show ref ls →
  (∀ k, k ∈ ls → ∃ i, i < (gr_size ref).2 ∧ get_class show gen i = Ok k) →
  let n := (gr_size ref).2 in
  let q := mean_of (map (λ k, fraction
    (count_rows n (λ i, labelled show ref k i && labelled show gen k i))
    (count_rows n (labelled show gen k))) ls) in
  is_number (macro_precision ko c) q ∧ in_unit q.
Proof.
  intros H Hko Hne Hls Hgen n q.
  destruct (range_labels show ref gen c ko ls H Hko Hls) as [Hp Hs].
  assert (ls ≠ []) as Hls'.
  { destruct (proj1 (confusion_inv _ _ _ _) H) as (_ & rl & gl & Hl & _).
    eapply labels_nonempty; [done|]. exists 0. split; [lia|]. apply Hl. lia. }
  split.
  - apply macro_mean; [done..|]. intros k Hk.
    by apply (precision_fraction show ref gen c ko k H Hko (Hgen k Hk)).
  - apply mean_bounds; [by destruct ls|]. intros x Hx.
    apply elem_of_list_fmap in Hx as (k & -> & Hk).
    destruct (precision_fraction show ref gen c ko k H Hko (Hgen k Hk)) as (_ & H1 & H2).
    by apply fraction_unit.
Qed.

(** A reference class that is never generated makes the macro precision NaN. *)
Lemma macro_precision_nan show ref gen c ko k :
  confusion_matrix show ref gen = Ok c → any_order ko →
  (∃ i, i < (gr_size ref).2 ∧ get_class show ref i = Ok k) →
  (∀ i, i < (gr_size ref).2 → get_class show gen i ≠ Ok k) →
  macro_precision ko c = None.
Proof.
  intros H Hko (i & Hi & Hk) Hno.
  destruct (four_counts show ref gen c ko k H Hko) as (H1 & H2 & _).
  assert (∀ P, (∀ i, i < (gr_size ref).2 → P i = false) → count_rows (gr_size ref).2 P = 0) as H0.
  { intros P HP. rewrite (count_rows_ext _ _ (λ _, false)) by done. unfold count_rows.
    induction (seq 0 (gr_size ref).2) as [|x l IH]; [done|].
    by rewrite filter_cons_False by done. }
  assert (∀ i, i < (gr_size ref).2 → labelled show gen k i = false) as HF.
  { intros j Hj. unfold labelled. apply bool_decide_eq_false_2. by apply Hno. }
  rewrite H0 in H1 by (intros j Hj; rewrite (HF j Hj); apply andb_false_r).
  rewrite H0 in H2 by (intros j Hj; rewrite (HF j Hj); apply andb_false_r).
  unfold macro_precision. rewrite (sum_over_q_none _ _ k); [done|..].
  - unfold range. rewrite (Hko _). apply elem_of_list_fmap.
    apply confusion_inv in H as (_ & rl & gl & Hl & ->).
    assert (is_Some (conf_of (label_pairs rl gl (gr_size ref).2) !! k)) as [row Hrow].
    { apply conf_of_dom. exists (gl i). unfold label_pairs. apply elem_of_list_fmap.
      exists i. destruct (Hl i Hi) as [Hr _]. split; [|apply elem_of_seq; lia].
      congruence. }
    exists (k, row). split; [done|]. by apply elem_of_map_to_list.
  - unfold precision. apply quotient_none. rewrite H1, H2. reflexivity.
Qed.

(** *** C77 *)

Lemma f1_fraction show ref gen c ko k :
  confusion_matrix show ref gen = Ok c → any_order ko →
  (∃ i, i < (gr_size ref).2 ∧ get_class show ref i = Ok k ∧ get_class show gen i = Ok k) →
  let n := (gr_size ref).2 in
  let tp := count_rows n (λ i, labelled show ref k i && labelled show gen k i) in
  let as_ref := count_rows n (labelled show ref k) in
  let as_gen := count_rows n (labelled show gen k) in
  is_number (f1_score ko k c) (fraction (2 * tp) (as_ref + as_gen)) ∧
  ∃ p r f, precision ko k c = Some p ∧ recall ko k c = Some r ∧ f1_score ko k c = Some f ∧
    ((p <= f)%Q ∧ (f <= r)%Q ∨ (r <= f)%Q ∧ (f <= p)%Q).
Proof.
  intros H Hko (i & Hi & Hr & Hg) n tp as_ref as_gen.
  destruct (recall_fraction show ref gen c ko k H Hko (ex_intro _ i (conj Hi Hr)))
    as ((r & Hrr & Er) & Hle1 & Hne1).
  destruct (precision_fraction show ref gen c ko k H Hko (ex_intro _ i (conj Hi Hg)))
    as ((p & Hpp & Ep) & Hle2 & Hne2).
  fold n tp as_ref as_gen in Er, Ep, Hle1, Hle2, Hne1, Hne2.
  assert (tp ≠ 0) as Hne.
  { unfold tp, count_rows. intros E. apply length_zero_iff_nil in E.
    assert (i ∈ filter (λ i, labelled show ref k i && labelled show gen k i = true) (seq 0 n)) as Hin.
    { apply elem_of_list_filter. split.
      - unfold labelled. by rewrite !bool_decide_eq_true_2.
      - apply elem_of_seq. lia. }
    rewrite E in Hin. by apply elem_of_nil in Hin. }
  unfold fraction in Er, Ep. fold (of_nat tp) (of_nat as_ref) in Er.
  fold (of_nat tp) (of_nat as_gen) in Ep.
  assert (0 < of_nat tp)%Q as P1 by by apply of_nat_pos.
  assert (0 < of_nat as_ref)%Q as P2 by by apply of_nat_pos.
  assert (0 < of_nat as_gen)%Q as P3 by by apply of_nat_pos.
  assert (0 < p)%Q as Pp.
  { rewrite Ep. apply Qlt_shift_div_l; [done|]. by rewrite Qmult_0_l. }
  assert (0 < r)%Q as Pr.
  { rewrite Er. apply Qlt_shift_div_l; [done|]. by rewrite Qmult_0_l. }
  assert (f1_score ko k c = Some ((2 # 1) * (p * r) / (p + r))%Q) as Hf.
  { unfold f1_score. rewrite Hpp, Hrr. simpl. apply quotient_some. lra. }
  split.
  - rewrite Hf. eexists. split; [done|]. rewrite Ep, Er. unfold fraction.
    fold (of_nat (2 * tp)) (of_nat (as_ref + as_gen)).
    rewrite <- of_nat_plus. replace (2 * tp) with (tp + tp) by lia. rewrite <- of_nat_plus.
    assert (0 < of_nat tp * of_nat as_ref)%Q as M1 by by apply Qmult_lt_0_compat.
    assert (0 < of_nat tp * of_nat as_gen)%Q as M2 by by apply Qmult_lt_0_compat.
    field. repeat split; lra.
  - exists p, r, ((2 # 1) * (p * r) / (p + r))%Q. split; [done|]. split; [done|]. split; [done|].
    destruct (Qlt_le_dec p r) as [L|L]; [left|right].
    + split; [apply Qle_shift_div_l|apply Qle_shift_div_r]; try lra; nra.
    + split; [apply Qle_shift_div_l|apply Qle_shift_div_r]; try lra; nra.
Qed.

(** *** C78 *)

Lemma qsquare_nonneg y : (0 <= y * y)%Q.
Proof.
  destruct (Qlt_le_dec y 0) as [H|H].
  - assert (y * y == (- y) * (- y))%Q as -> by ring. apply Qmult_le_0_compat; lra.
  - by apply Qmult_le_0_compat.
Qed.

Lemma qsum_squares_zero (l : list Q) m :
  (qsum (map (λ x, (x - m) * (x - m)) l) == 0)%Q → ∀ x, x ∈ l → (x == m)%Q.
Proof.
  pose proof qsquare_nonneg as Hsq.
  assert (∀ l, 0 <= qsum (map (λ x, (x - m) * (x - m)) l))%Q as Hpos.
  { clear l. intros l. induction l as [|y l IH]; cbn [map qsum foldr]; [lra|].
    pose proof (Hsq (y - m)%Q). fold (qsum (map (λ x, (x - m) * (x - m))%Q l)). lra. }
  induction l as [|y l IH]; intros H x Hx; [by apply elem_of_nil in Hx|].
  cbn [map qsum foldr] in H. fold (qsum (map (λ x, (x - m) * (x - m))%Q l)) in H.
  pose proof (Hsq (y - m)%Q) as H1. pose proof (Hpos l) as H2.
  apply elem_of_cons in Hx as [->|Hx].
  - assert ((y - m) * (y - m) == 0)%Q as E by lra.
    apply Qmult_integral in E as [E|E]; lra.
  - apply IH; [lra|done].
Qed.

Lemma qsum_squares_nonneg (l : list Q) m :
  (0 <= qsum (map (λ x, (x - m) * (x - m)) l))%Q.
Proof.
  induction l as [|y l IH]; cbn [map qsum foldr]; [lra|].
  fold (qsum (map (λ x, (x - m) * (x - m))%Q l)).
  pose proof (qsquare_nonneg (y - m)). lra.
Qed.

Lemma cross_validated_ok metric cs :
  cs ≠ [] →
  ∃ mean variance, cross_validated metric cs = Some (mean, variance) ∧
    (mean == mean_of (map metric cs))%Q ∧
    (variance == mean_of (map (λ c, (metric c - mean) * (metric c - mean)) cs))%Q ∧
    (0 <= variance)%Q ∧
    ((variance == 0)%Q ↔ ∀ c, c ∈ cs → (metric c == mean)%Q) ∧
    ∀ lo hi, (∀ c, c ∈ cs → (lo <= metric c)%Q ∧ (metric c <= hi)%Q) →
      (lo <= mean)%Q ∧ (mean <= hi)%Q.
Proof.
  intros Hne. unfold cross_validated. cbv zeta. rewrite map_length.
  assert (0 < of_nat (length cs))%Q as Hp by (apply of_nat_pos; by destruct cs).
  rewrite quotient_some by lra. simpl. rewrite quotient_some by lra. simpl.
  match goal with |- ∃ _ _, Some (?m, _) = _ ∧ _ => set (mean := m) end.
  match goal with |- ∃ _ _, Some (_, ?v) = _ ∧ _ => set (variance := v) end.
  assert (mean == mean_of (map metric cs))%Q as Hm.
  { unfold mean, mean_of. rewrite (foldl_qsum (λ x, x)), map_id, map_length.
    unfold of_nat. rewrite Qplus_0_l. reflexivity. }
  assert (variance == mean_of (map (λ c, (metric c - mean) * (metric c - mean)) cs))%Q as Hv.
  { unfold variance, mean_of. rewrite (foldl_qsum (λ x, (x - mean) * (x - mean))%Q).
    rewrite map_map, map_length. unfold of_nat. rewrite Qplus_0_l. reflexivity. }
  clearbody mean variance. exists mean, variance. split; [done|]. split; [done|].
  split; [done|].
  assert (variance * of_nat (length cs) ==
    qsum (map (λ x, (x - mean) * (x - mean)) (map metric cs)))%Q as Hvn.
  { rewrite Hv. unfold mean_of. rewrite map_map, map_length. fold (of_nat (length cs)).
    field. lra. }
  split; [|split].
  - rewrite Hv. unfold mean_of. rewrite map_length. fold (of_nat (length cs)).
    apply Qle_shift_div_l; [done|]. rewrite Qmult_0_l.
    pose proof (qsum_squares_nonneg (map metric cs) mean) as E. rewrite map_map in E. exact E.
  - split.
    + intros Hz c Hc. rewrite Hz, Qmult_0_l in Hvn.
      eapply qsum_squares_zero; [symmetry; exact Hvn|]. apply elem_of_list_fmap. eauto.
    + intros H. rewrite Hv. unfold mean_of.
      rewrite (qsum_ext _ (λ _, 0%Q)).
      * assert (qsum (map (λ _ : cmatrix, 0%Q) cs) == 0)%Q as ->.
        { clear. induction cs as [|x l IH]; [reflexivity|].
          cbn [map qsum foldr]. fold (qsum (map (λ _ : cmatrix, 0%Q) l)). rewrite IH. ring. }
        unfold Qdiv. ring.
      * intros c Hc. rewrite (H c Hc). ring.
  - intros lo hi H. rewrite Hm. apply mean_bounds; [by destruct cs|].
    intros x Hx. apply elem_of_list_fmap in Hx as (c & -> & Hc). by apply H.
Qed.

Lemma cross_validated_empty metric : cross_validated metric [] = None.
Proof. reflexivity. Qed.
