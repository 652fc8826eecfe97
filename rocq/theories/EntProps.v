(** Properties C166 and C167: information gain and gain ratio. *)
From Coq Require Import Reals Lra.
From Verif Require Import Prelude BytesModel FloatModel AttrModel StoreModel DenseModel DenseSpec GridModel GridSpec GridProofs
  KnnModel KnnProps ConfSpec Id3Model Id3Spec Id3Props RuleModel RuleSpec RuleProofs RuleRefs RuleProps CartModel CartFit
  EntModel EntSpec EntProofs EntLink EntFloat EntLog EntRules.
From Flocq Require Import Core.Core IEEE754.BinarySingleNaN IEEE754.Bits IEEE754.Binary.
Local Open Scope nat_scope.

(** ** C166 *)

(** With exact arithmetic, the entropy before the split is the entropy of the labels, and the
    one after it the average entropy of the labels within each value, for any order in which
    the maps are read. *)
Theorem C166_base : ∀ show g label co m,
  count_order co → (∀ i, i < (gr_size g).2 → get_class show g i = Ok (label i)) →
  class_distribution show g = Ok m →
  base_entropy_of real_logs co m = entropy (map label (seq 0 (gr_size g).2)).
Proof. intros show g label co m Ho Hc Hm. apply base_tally. by eapply class_tally. Qed.
Print Assumptions C166_base.

Theorem C166_after : ∀ show g a value label ao co,
  value_order ao → (∀ v, count_order (co v)) → 0 < (gr_size g).2 →
  (∀ i, i < (gr_size g).2 → value_of show g a i = Ok (value i)) →
  (∀ i, i < (gr_size g).2 → get_class show g i = Ok (label i)) →
  ∃ m, distribution_after_split show g a = Ok m ∧
    split_entropy_of real_logs ao co m = conditional (data (gr_size g).2 value label).
Proof.
  intros show g a value label ao co Ha Hco Hn Hv Hc.
  destruct (value_reads show g a value Hn Hv) as (s & Hs & Hr).
  destruct (after_split_spec show g a s value label Hs Hr Hc) as (m & Hm & _).
  exists m. split; [done|]. apply split_tally. by eapply split_tables.
Qed.
Print Assumptions C166_after.

(** A split never adds uncertainty.  It removes none exactly if the labels are spread within
    each value as they are overall, and all of it exactly if the value decides the label.
    The entropy is at most the logarithm of the number of labels. *)
Theorem C166_gain : ∀ {A B : Type} `{!EqDecision A, !EqDecision B} (rows : list (A * B)), rows ≠ [] →
  (0 <= conditional rows <= entropy (map snd rows))%R ∧
  (conditional rows = entropy (map snd rows) ↔
     ∀ v c, (v, c) ∈ rows → share c (labels_at v rows) = share c (map snd rows)) ∧
  (conditional rows = 0%R ↔ ∀ v c d, (v, c) ∈ rows → (v, d) ∈ rows → c = d) ∧
  (entropy (map snd rows) <= log2 (INR (length (remove_dups (map snd rows)))))%R.
Proof.
  intros A B HA HB rows Hne. split; [split; [apply conditional_nonneg|by apply gain_nonneg]|]. split; [|split].
  - rewrite gain_zero by done.
    assert (∀ v c, share c (labels_at v rows) = inner rows (v, c)) as E.
    { intros v c. unfold share, inner. by rewrite labels_length, labels_occurs. }
    split.
    + intros H v c Hin. rewrite E. apply (H (v, c) Hin).
    + intros H [v c] Hin. rewrite <- E. by apply H.
  - by apply conditional_zero.
  - apply entropy_most. by destruct rows.
Qed.
Print Assumptions C166_gain.

Lemma log2_half : log2 (1 / 2) = (-1)%R.
Proof.
  unfold log2. unfold Rdiv at 2. rewrite Rmult_1_l, ln_Rinv by lra. pose proof ln2_pos. field. lra.
Qed.
Lemma log2_quarter : log2 (1 / 4) = (-2)%R.
Proof.
  unfold log2. replace (1 / 4)%R with (/ (2 * 2))%R by lra. rewrite ln_Rinv, ln_mult by lra. pose proof ln2_pos. field. lra.
Qed.
Lemma log2_one : log2 1 = 0%R.
Proof. unfold log2. rewrite ln_1. unfold Rdiv. apply Rmult_0_l. Qed.

(** Four rows: knowing [b] leaves half a bit of one and a half. *)
Definition e_b (i : nat) : string := if i <? 2 then "s" else "t".
Definition e_id (i : nat) : string := nth i ["1"; "2"; "3"; "4"] "".
Definition e_label (i : nat) : string := nth i ["u"; "u"; "v"; "w"] "".

Lemma e_entropy : entropy (map e_label (seq 0 4)) = (3 / 2)%R.
Proof.
  rewrite <- (base_tally (map e_label (seq 0 4)) [2; 1; 1]); [|vm_compute; reflexivity].
  rewrite base_real. change (sum_list [2; 1; 1]) with 4. unfold r_sum. cbn [foldr].
  change (INR 4) with (1 + 1 + 1 + 1)%R. change (INR 2) with (1 + 1)%R. change (INR 1) with 1%R.
  replace ((1 + 1) / (1 + 1 + 1 + 1))%R with (1 / 2)%R by lra. replace (1 / (1 + 1 + 1 + 1))%R with (1 / 4)%R by lra.
  rewrite log2_half, log2_quarter. lra.
Qed.
Lemma e_values : entropy (map e_b (seq 0 4)) = 1%R.
Proof.
  rewrite <- (base_tally (map e_b (seq 0 4)) [2; 2]); [|vm_compute; reflexivity].
  rewrite base_real. change (sum_list [2; 2]) with 4. unfold r_sum. cbn [foldr].
  change (INR 4) with (1 + 1 + 1 + 1)%R. change (INR 2) with (1 + 1)%R.
  replace ((1 + 1) / (1 + 1 + 1 + 1))%R with (1 / 2)%R by lra. rewrite log2_half. lra.
Qed.
Lemma e_ids : entropy (map e_id (seq 0 4)) = 2%R.
Proof.
  rewrite <- (base_tally (map e_id (seq 0 4)) [1; 1; 1; 1]); [|vm_compute; reflexivity].
  rewrite base_real. change (sum_list [1; 1; 1; 1]) with 4. unfold r_sum. cbn [foldr].
  change (INR 4) with (1 + 1 + 1 + 1)%R. change (INR 1) with 1%R.
  replace (1 / (1 + 1 + 1 + 1))%R with (1 / 4)%R by lra. rewrite log2_quarter. lra.
Qed.
Lemma e_tables : tables (data 4 e_b e_label) [[2]; [1; 1]].
Proof.
  exists ["s"; "t"]. split; [vm_compute; reflexivity|].
  repeat first [apply Forall2_nil_2 | apply Forall2_cons_2]; vm_compute; reflexivity.
Qed.
Lemma e_conditional : conditional (data 4 e_b e_label) = (1 / 2)%R.
Proof.
  rewrite <- (split_tally _ _ e_tables). rewrite split_real. change (sum_list (concat [[2]; [1; 1]])) with 4.
  unfold r_sum. cbn [foldr]. change (sum_list [2]) with 2. change (sum_list [1; 1]) with 2.
  change (INR 4) with (1 + 1 + 1 + 1)%R. change (INR 2) with (1 + 1)%R. change (INR 1) with 1%R.
  replace ((1 + 1) / (1 + 1 + 1 + 1))%R with (1 / 2)%R by lra. replace (1 / (1 + 1 + 1 + 1))%R with (1 / 4)%R by lra.
  rewrite log2_half, log2_quarter. lra.
Qed.
Lemma e_decides : conditional (data 4 e_id e_label) = 0%R.
Proof.
  apply conditional_zero; [done|]. intros v c d Hc Hd.
  apply elem_of_list_fmap in Hc as (i & E & Hi). apply elem_of_list_fmap in Hd as (j & E' & Hj).
  apply elem_of_seq in Hi, Hj. injection E as -> ->. injection E' as E' ->.
  destruct i as [|[|[|[|i]]]]; [| | | |lia]; destruct j as [|[|[|[|j]]]]; try lia; try done; discriminate E'.
Qed.

Example C166_gain_ex :
  entropy (map snd (data 4 e_b e_label)) = (3 / 2)%R ∧ conditional (data 4 e_b e_label) = (1 / 2)%R ∧
  conditional (data 4 e_id e_label) = 0%R.
Proof. split; [exact e_entropy|]. split; [exact e_conditional|exact e_decides]. Qed.

(** The grid of these rows. *)
Definition e_attr_id : attr := CatA "id" ["1"; "2"; "3"; "4"].
Definition e_attr_b : attr := CatA "b" ["s"; "t"].
Definition e_attr_c : attr := CatA "c" ["u"; "v"; "w"].
Definition e_specs : list spec := [Spec 0 0 e_attr_id; Spec 0 1 e_attr_b; Spec 0 2 e_attr_c].
Definition e_dense : dense :=
  match dense_run 64 dense_new
    ([DAdd e_attr_id; DAdd e_attr_b; DAdd e_attr_c; DClass e_attr_c true; DExtend 4] ++
     concat (imap (λ i r, zip_with (λ s v, DSet s i v) e_specs (map byte8 r))
       [[0; 0; 0]; [1; 0; 0]; [2; 1; 1]; [3; 1; 2]]%N)) with
  | Ok d => d | _ => dense_new end.
Definition e_grid : grid := dense_grid [((0, 2), true)] e_dense.

Example e_reads :
  (gr_size e_grid).2 = 4 ∧
  (∀ i, i < 4 → get_class t_show e_grid i = Ok (e_label i)) ∧
  (∀ i, i < 4 → value_of t_show e_grid e_attr_id i = Ok (e_id i)) ∧
  (∀ i, i < 4 → value_of t_show e_grid e_attr_b i = Ok (e_b i)).
Proof.
  split; [vm_compute; reflexivity|].
  split; [|split]; apply below_cases; repeat constructor; vm_compute; reflexivity.
Qed.

(** Orders of iteration exist. *)
Example e_orders : value_order (λ m, map fst (map_to_list m)) ∧ count_order (λ m, map snd (map_to_list m)).
Proof. split; by intros m. Qed.

(** As computed, for any logarithm accurate to 4 units in the last place: both are finite and
    within [slack K] of the exact values, [K] being the number of terms added. *)
Theorem C166_float_base : ∀ log show g label co m,
  go_log log → count_order co → (∀ i, i < (gr_size g).2 → get_class show g i = Ok (label i)) →
  class_distribution show g = Ok m → (Z.of_nat (gr_size g).2 <= 2 ^ 53)%Z →
  let labels := map label (seq 0 (gr_size g).2) in
  let K := length (remove_dups labels) in
  (Z.of_nat K <= 1000000)%Z →
  is_finite 53 1024 (base_entropy_of (float_logs log) co m) = true ∧
  (Rabs (B2R 53 1024 (base_entropy_of (float_logs log) co m) - entropy labels) <= slack K)%R.
Proof.
  intros log show g label co m HL Ho Hc Hm HN labels K HK. apply tally_near; [done|by eapply class_tally| |done].
  unfold labels. by rewrite map_length, seq_length.
Qed.
Print Assumptions C166_float_base.

Theorem C166_float_after : ∀ log show g a value label ao co,
  go_log log → value_order ao → (∀ v, count_order (co v)) →
  0 < (gr_size g).2 → (Z.of_nat (gr_size g).2 <= 2 ^ 53)%Z →
  (∀ i, i < (gr_size g).2 → value_of show g a i = Ok (value i)) →
  (∀ i, i < (gr_size g).2 → get_class show g i = Ok (label i)) →
  let rows := data (gr_size g).2 value label in
  (Z.of_nat (kinds rows) <= 1000000)%Z →
  ∃ m, distribution_after_split show g a = Ok m ∧
    is_finite 53 1024 (split_entropy_of (float_logs log) ao co m) = true ∧
    (Rabs (B2R 53 1024 (split_entropy_of (float_logs log) ao co m) - conditional rows) <= slack (kinds rows))%R.
Proof.
  intros log show g a value label ao co HL Ha Hco Hn HN Hv Hc rows HK.
  destruct (value_reads show g a value Hn Hv) as (s & Hs & Hr).
  destruct (after_split_spec show g a s value label Hs Hr Hc) as (m & Hm & _).
  exists m. split; [done|]. apply tables_near; [done|by eapply split_tables| |done].
  unfold rows, data. by rewrite map_length, seq_length.
Qed.
Print Assumptions C166_float_after.

(** A logarithm as required: the nearest float64. *)
Example C166_float_ex : go_log nearest_log ∧ kinds (data 4 e_b e_label) = 5 ∧
  (slack 5 < 1 / 10000000000000)%R.
Proof.
  split; [exact nearest_log_go|]. split; [vm_compute; reflexivity|]. unfold slack. change (INR 5) with (1 + 1 + 1 + 1 + 1)%R.
  change (bpow radix2 (-50)) with (/ 1125899906842624)%R. lra.
Qed.

(** If the value decides the label, the entropy computed after the split is exactly +0. *)
Theorem C166_decided : ∀ log show g a value label ao co,
  go_log log → value_order ao → (∀ v, count_order (co v)) → discrete a →
  0 < (gr_size g).2 → (Z.of_nat (gr_size g).2 <= 2 ^ 53)%Z →
  (∀ i, i < (gr_size g).2 → value_of show g a i = Ok (value i)) →
  (∀ i, i < (gr_size g).2 → get_class show g i = Ok (label i)) →
  (∀ i j, i < (gr_size g).2 → j < (gr_size g).2 → value i = value j → label i = label j) →
  ∃ m, distribution_after_split show g a = Ok m ∧
    split_entropy_of (float_logs log) ao co m = B754_zero 53 1024 false.
Proof. intros log show g a value label ao co HL Ha Hco. by apply determined_zero. Qed.
Print Assumptions C166_decided.

(** Information gain picks, among attributes that are not numeric, one whose average entropy
    is at most K (K + 10) / 2^49 bits above that of any other. *)
Theorem C166_chosen : ∀ log ao co cob show sorter fuel l g label (value : attr → nat → string) K,
  go_log log → value_order ao → (∀ v, count_order (co v)) → count_order cob →
  l ≠ [] → 0 < (gr_size g).2 → (Z.of_nat (gr_size g).2 <= 2 ^ 53)%Z → (Z.of_nat K <= 1000000)%Z →
  (∀ i, i < (gr_size g).2 → get_class show g i = Ok (label i)) →
  (∀ a, a ∈ l → discrete a ∧ (∀ i, i < (gr_size g).2 → value_of show g a i = Ok (value a i)) ∧
    kinds (data (gr_size g).2 (value a) label) ≤ K) →
  ∃ a v, info_gain (fast_entropy (float_logs log)) show sorter (split_entropy_of (float_logs log) ao co)
      (base_entropy_of (float_logs log) cob) fuel l g = Ok (Rule (Some a) v) ∧ a ∈ l ∧
    ∀ b, b ∈ l → (conditional (data (gr_size g).2 (value a) label) <=
                  conditional (data (gr_size g).2 (value b) label) + INR K * (INR K + 10) * bpow radix2 (-49))%R.
Proof. intros log ao co cob show sorter fuel l g label value K HL Ha Hco Hcb. by apply chosen_near. Qed.
Print Assumptions C166_chosen.

Definition e_value (a : attr) : nat → string := if bool_decide (a = e_attr_id) then e_id else e_b.
(** Here the better one is always picked. *)
Example C166_chosen_ex : ∀ log ao co cob sorter fuel,
  go_log log → value_order ao → (∀ v, count_order (co v)) → count_order cob →
  ∃ v, info_gain (fast_entropy (float_logs log)) t_show sorter (split_entropy_of (float_logs log) ao co)
    (base_entropy_of (float_logs log) cob) fuel [e_attr_b; e_attr_id] e_grid = Ok (Rule (Some e_attr_id) v).
Proof.
  intros log ao co cob sorter fuel HL Ha Hco Hcb. generalize e_reads. generalize e_grid. intros g (Hn & Hc & Hid & Hb).
  destruct (C166_chosen log ao co cob t_show sorter fuel [e_attr_b; e_attr_id] g e_label e_value 8 HL Ha Hco Hcb)
    as (a & v & E & Hin & Hbest); rewrite ?Hn; try done; [lia| |].
  { intros a Hin. apply elem_of_cons in Hin as [->|Hin]; [|apply elem_of_list_singleton in Hin as ->]; unfold e_value.
    - rewrite bool_decide_eq_false_2 by done. split; [done|]. split; [done|]. vm_compute. lia.
    - rewrite bool_decide_eq_true_2 by done. split; [done|]. split; [done|]. vm_compute. lia. }
  apply elem_of_cons in Hin as [->|Hin]; [exfalso|apply elem_of_list_singleton in Hin as ->; by exists v].
  specialize (Hbest e_attr_id ltac:(right; left)). rewrite Hn in Hbest. unfold e_value in Hbest.
  rewrite bool_decide_eq_false_2 in Hbest by done. rewrite bool_decide_eq_true_2 in Hbest by done.
  rewrite e_conditional, e_decides in Hbest.
  change (bpow radix2 (-49)) with (/ 562949953421312)%R in Hbest.
  change (INR 8) with (1 + 1 + 1 + 1 + 1 + 1 + 1 + 1)%R in Hbest. lra.
Qed.

(** Numeric attributes: if the sorted values are far enough apart (see C87), the threshold is
    the middle of two neighbours, the entropy reported for it is close to the exact one, and
    no other middle is better by more than the error. *)
Theorem C166_threshold_partial : ∀ log show sorter g a s val label,
  go_log log → iter_agrees g → gr_get_attribute g a = Ok s → reads_numbers show g s val label →
  (∀ l, sorter l ≡ₚ l) → 2 ≤ (gr_size g).2 → (Z.of_nat (gr_size g).2 <= 400000)%Z →
  let n := (gr_size g).2 in
  ∃ k refs, refs_of n k val label refs ∧
    (well_apart (sorter refs) → ∀ fuel, n < fuel →
     ∃ e v, numeric_entropy (fast_entropy (float_logs log)) show sorter fuel g a = Ok (e, v) ∧
       is_middle (sorter refs) v ∧ is_finite 53 1024 e = true ∧
       (Rabs (B2R 53 1024 e - conditional (cut n val label v)) <= slack (2 * n + 2))%R ∧
       ∀ w, is_middle (sorter refs) w →
         (conditional (cut n val label v) <= conditional (cut n val label w) + 2 * slack (2 * n + 2))%R).
Proof. intros log show sorter g a s val label HL. by apply numeric_near. Qed.
Print Assumptions C166_threshold_partial.
(** C87_ex shows a table meeting the hypotheses, with values far enough apart. *)

(** A column that is constant is given an infinite entropy, so its gain is minus infinity,
    and no rule uses it; a threshold leaving one side empty counts as NaN. *)
Theorem C166_constant : ∀ log show sorter g a s val label x,
  go_log log → iter_agrees g → gr_get_attribute g a = Ok s → reads_numbers show g s val label →
  (∀ l, sorter l ≡ₚ l) → (Z.of_nat (gr_size g).2 <= 2 ^ 53)%Z → (∀ i, i < (gr_size g).2 → val i = x) →
  ∀ fuel e v, numeric_entropy (fast_entropy (float_logs log)) show sorter fuel g a = Ok (e, v) →
    e = float_inf ∧ v = float_inf.
Proof. intros log show sorter g a s val label x HL. by apply numeric_constant. Qed.
Print Assumptions C166_constant.

Definition e_const : list (list (list N)) := [t_row t_one 0 0 0; t_row t_one 1 0 1]%N.
Example C166_constant_ex :
  iter_agrees (t_grid e_const) ∧ gr_get_attribute (t_grid e_const) tx = Ok (Spec 0 0 tx) ∧
  reads_numbers t_show (t_grid e_const) (Spec 0 0 tx) (r_val e_const) (r_label e_const) ∧
  r_val e_const 0 = r_val e_const 1 ∧
  ∃ e v, numeric_entropy (fast_entropy (float_logs nearest_log)) t_show r_sort 20 (t_grid e_const) tx = Ok (e, v).
Proof.
  assert (reads_numbers t_show (t_grid e_const) (Spec 0 0 tx) (r_val e_const) (r_label e_const)) as Hr
    by (apply reads_check; vm_compute; reflexivity).
  split; [apply in_order_agrees, dense_grid_in_order|]. split; [vm_compute; reflexivity|]. split; [done|].
  split; [reflexivity|].
  apply (C84_ends_partial (fast_entropy (float_logs nearest_log)) t_show r_sort (t_grid e_const) tx (Spec 0 0 tx) (r_val e_const) (r_label e_const)).
  - apply in_order_agrees, dense_grid_in_order.
  - vm_compute. reflexivity.
  - exact Hr.
  - exact r_sort_perm.
  - change (gr_size (t_grid e_const)).2 with 2. apply below_cases. repeat constructor; vm_compute; reflexivity.
  - change (gr_size (t_grid e_const)).2 with 2. lia.
Qed.

Theorem C166_empty : ∀ log s0 s1, go_log log →
  (sum_list s0 = 0 ∨ sum_list s1 = 0) → 0 < sum_list (s0 ++ s1) → (Z.of_nat (sum_list (s0 ++ s1)) <= 2 ^ 53)%Z →
  is_nan 53 1024 (fast_entropy (float_logs log) s0 s1) = true.
Proof. intros log s0 s1 HL. by apply fast_empty. Qed.
Print Assumptions C166_empty.

(** ** C167 *)

(** With exact arithmetic the gain ratio of the code ranks attributes by their average entropy
    alone, as information gain does. *)
Theorem C167_order_partial : ∀ {A B C : Type} `{!EqDecision A, !EqDecision B, !EqDecision C} (rows : list (A * C)) (rows' : list (B * C)),
  map snd rows = map snd rows' → (0 < conditional rows)%R → (0 < conditional rows')%R →
  let score after := ratio_of real_logs (entropy (map snd rows)) after in
  (score (conditional rows) < score (conditional rows'))%R ↔ (conditional rows' < conditional rows)%R.
Proof.
  intros A B C HA HB HC rows rows' E H H' score. unfold score, ratio_of. cbn [la_sub la_div real_logs].
  assert (0 < entropy (map snd rows))%R as Hb.
  { eapply Rlt_le_trans; [exact H|]. apply gain_nonneg. intros ->. unfold conditional in H. cbn in H. lra. }
  set (b := entropy (map snd rows)) in *. set (x := conditional rows) in *. set (y := conditional rows') in *.
  replace ((b - x) / x)%R with (b * / x - 1)%R by (field; lra).
  replace ((b - y) / y)%R with (b * / y - 1)%R by (field; lra). split; intros Hlt.
  - apply Rnot_le_lt. intros Hle. apply Rinv_le_contravar in Hle; [|done].
    apply (Rmult_le_compat_l b) in Hle; lra.
  - assert (/ x < / y)%R as Hi by (apply Rinv_lt_contravar; [by apply Rmult_lt_0_compat|done]).
    apply (Rmult_lt_compat_l b) in Hi; lra.
Qed.
Print Assumptions C167_order_partial.

Example C167_order_ex : (0 < conditional (data 4 e_b e_label))%R ∧
  (conditional (data 4 e_b e_label) < entropy (map snd (data 4 e_b e_label)))%R.
Proof. rewrite e_conditional. split; [lra|]. change (map snd (data 4 e_b e_label)) with (map e_label (seq 0 4)). rewrite e_entropy. lra. Qed.

Lemma div_zero D : is_finite 53 1024 D = true → (0 < B2R 53 1024 D)%R →
  b64_div mode_NE D (B754_zero 53 1024 false) = float_inf.
Proof.
  intros F H. destruct D as [s|s|s pl Hpl|s m e He]; try discriminate F.
  - cbn in H. lra.
  - destruct s; [|reflexivity]. exfalso. revert H. apply Rle_not_lt. apply Rlt_le. by apply (F2R_lt_0 radix2 (Float radix2 (Z.neg m) e)).
Qed.

Lemma e_ratio log ao co cob sorter fuel l :
  go_log log → value_order ao → (∀ v, count_order (co v)) → count_order cob →
  l = [e_attr_id; e_attr_b] ∨ l = [e_attr_b; e_attr_id] →
  gain_ratio (fast_entropy (float_logs log)) t_show sorter (split_entropy_of (float_logs log) ao co)
    (base_entropy_of (float_logs log) cob) fuel l e_grid = Ok (Rule (Some e_attr_id) float_zero).
Proof.
  intros HL Ha Hco Hcb Hl. generalize e_reads. generalize e_grid. intros g (Hn & Hc & Hid & Hb).
  assert (∀ a, a ∈ l → a = e_attr_id ∨ a = e_attr_b) as Hin by (destruct Hl as [-> | ->]; set_solver).
  assert (e_attr_id ∈ l) as Hidl by (destruct Hl as [-> | ->]; set_solver).
  destruct (class_distribution_spec t_show g e_label) as (mc & Hmc & _); [by rewrite Hn|].
  destruct (C166_float_base log t_show g e_label cob mc HL Hcb) as [FB EB]; rewrite ?Hn; try done.
  destruct (C166_float_after log t_show g e_attr_b e_b e_label ao co HL Ha Hco) as (mb & Hmb & FS & ES); rewrite ?Hn; try done; [lia|].
  destruct (C166_decided log t_show g e_attr_id e_id e_label ao co HL Ha Hco) as (mi & Hmi & HS); rewrite ?Hn; try done; [lia| |].
  { intros i j Hi Hj E. destruct i as [|[|[|[|i]]]]; [| | | |lia]; destruct j as [|[|[|[|j]]]]; try lia; try done; discriminate E. }
  rewrite Hn in EB, ES. rewrite e_entropy in EB. rewrite e_conditional in ES.
  set (B := base_entropy_of (float_logs log) cob mc) in *. set (S := split_entropy_of (float_logs log) ao co mb) in *.
  assert (slack (length (remove_dups (map e_label (seq 0 4)))) <= / 100)%R as K1.
  { change (length (remove_dups (map e_label (seq 0 4)))) with 3. unfold slack. change (INR 3) with (1 + 1 + 1)%R.
    change (bpow radix2 (-50)) with (/ 1125899906842624)%R. lra. }
  assert (slack (kinds (data 4 e_b e_label)) <= / 100)%R as K2.
  { change (kinds (data 4 e_b e_label)) with 5. unfold slack. change (INR 5) with (1 + 1 + 1 + 1 + 1)%R.
    change (bpow radix2 (-50)) with (/ 1125899906842624)%R. lra. }
  apply Rabs_le_inv in EB, ES.
  set (p := λ a, if bool_decide (a = e_attr_id) then (B754_zero 53 1024 false, float_zero) else (S, float_zero)).
  destruct (gain_ratio_best (fast_entropy (float_logs log)) t_show sorter (split_entropy_of (float_logs log) ao co)
    (base_entropy_of (float_logs log) cob) fuel l g mc p) as (r & Hr & Hbest); [by destruct Hl as [-> | ->]|done| |].
  { intros a Hal. unfold p. destruct (Hin a Hal) as [-> | ->].
    - rewrite bool_decide_eq_true_2 by done. unfold entropy_after, e_attr_id. fold e_attr_id. rewrite Hmi. cbn [mbind res_bind]. by rewrite HS.
    - rewrite bool_decide_eq_false_2 by done. unfold entropy_after, e_attr_b. fold e_attr_b. by rewrite Hmb. }
  fold B in Hbest.
  assert (b64_div mode_NE (b64_minus mode_NE B (p e_attr_id).1) (p e_attr_id).1 = float_inf) as Einf.
  { unfold p. rewrite bool_decide_eq_true_2 by done. cbn [fst].
    pose proof (Bminus_correct 53 1024 eq_refl eq_refl binop_nan_pl64 mode_NE B (B754_zero 53 1024 false) FB eq_refl) as Hd.
    fold (b64_minus mode_NE B (B754_zero 53 1024 false)) in Hd. cbn [round_mode] in Hd.
    change (B2R 53 1024 (B754_zero 53 1024 false)) with 0%R in Hd.
    rewrite (small_bound 1 2) in Hd by (lia || lra). destruct Hd as (Hvg & Hfg & _).
    pose proof (rnd_between 1 2 (B2R 53 1024 B - 0) ltac:(lia) ltac:(lia) ltac:(lra)) as Hrb.
    apply div_zero; [exact Hfg|]. change (rnd (B2R 53 1024 B - 0)) with
      (round radix2 (SpecFloat.fexp 53 1024) ZnearestE (B2R 53 1024 B - 0)) in Hrb. rewrite <- Hvg in Hrb. lra. }
  assert (∃ q, b64_div mode_NE (b64_minus mode_NE B S) S = q ∧ is_finite 53 1024 q = true) as (q & Eq & Fq).
  { eexists. split; [reflexivity|].
    pose proof (Bminus_correct 53 1024 eq_refl eq_refl binop_nan_pl64 mode_NE B S FB FS) as Hd.
    fold (b64_minus mode_NE B S) in Hd. cbn [round_mode] in Hd.
    rewrite (small_bound 0 2) in Hd by (lia || lra). destruct Hd as (Hvg & Hfg & _).
    pose proof (rnd_between 0 2 (B2R 53 1024 B - B2R 53 1024 S) ltac:(lia) ltac:(lia) ltac:(lra)) as Hrb.
    set (D := b64_minus mode_NE B S) in *.
    change (B2R 53 1024 D = rnd (B2R 53 1024 B - B2R 53 1024 S)) in Hvg. rewrite <- Hvg in Hrb.
    pose proof (Bdiv_correct 53 1024 eq_refl eq_refl binop_nan_pl64 mode_NE D S ltac:(lra)) as Hd.
    fold (b64_div mode_NE D S) in Hd. cbn [round_mode] in Hd.
    rewrite (small_bound 0 5) in Hd; [|lia|lia|].
    - destruct Hd as (_ & Hf & _). by rewrite Hf.
    - split; [apply Rmult_le_pos; [lra|left; apply Rinv_0_lt_compat; lra]|].
      apply (Rmult_le_reg_r (B2R 53 1024 S)); [lra|]. unfold Rdiv. rewrite Rmult_assoc, Rinv_l by lra. lra. }
  destruct r as [ra rv]. cbn [ru_attr ru_val] in Hbest. destruct ra as [a|].
  - destruct Hbest as (Hal & -> & _ & Hmax). rewrite Hr. destruct (Hin a Hal) as [-> | ->].
    + unfold p. by rewrite bool_decide_eq_true_2.
    + exfalso. specialize (Hmax e_attr_id Hidl).
      change (float_gt (b64_div mode_NE (b64_minus mode_NE B (p e_attr_id).1) (p e_attr_id).1)
        (b64_div mode_NE (b64_minus mode_NE B (p e_attr_b).1) (p e_attr_b).1) = false) in Hmax. rewrite Einf in Hmax.
      unfold p in Hmax. rewrite bool_decide_eq_false_2 in Hmax by done. cbn [fst] in Hmax. rewrite Eq in Hmax.
      unfold float_gt, float_inf in Hmax. destruct q; try discriminate Fq; discriminate Hmax.
  - exfalso. specialize (Hbest e_attr_id Hidl).
    change (float_gt (b64_div mode_NE (b64_minus mode_NE B (p e_attr_id).1) (p e_attr_id).1) float_neg_inf = false) in Hbest.
    rewrite Einf in Hbest. discriminate Hbest.
Qed.

(** It is not the gain ratio of the literature, the gain by the entropy of the values, which
    is made to prefer attributes with few values: here the code takes the attribute that is
    different in every row, whatever the order of the candidates. *)
Theorem C167_refuted : ∃ g id b (value : attr → nat → string) label,
  (∀ i, i < (gr_size g).2 → get_class t_show g i = Ok (label i)) ∧
  (∀ a, a = id ∨ a = b → discrete a ∧ ∀ i, i < (gr_size g).2 → value_of t_show g a i = Ok (value a i)) ∧
  (quinlan (data (gr_size g).2 (value id) label) < quinlan (data (gr_size g).2 (value b) label))%R ∧
  ∀ log ao co cob sorter fuel l, go_log log → value_order ao → (∀ v, count_order (co v)) → count_order cob →
    l = [id; b] ∨ l = [b; id] →
    ∃ v, gain_ratio (fast_entropy (float_logs log)) t_show sorter (split_entropy_of (float_logs log) ao co)
      (base_entropy_of (float_logs log) cob) fuel l g = Ok (Rule (Some id) v).
Proof.
  exists e_grid, e_attr_id, e_attr_b, e_value, e_label. destruct e_reads as (Hn & Hc & Hid & Hb). rewrite Hn.
  split; [done|]. split.
  { intros a [-> | ->]; (split; [done|]); unfold e_value.
    - by rewrite bool_decide_eq_true_2.
    - by rewrite bool_decide_eq_false_2. }
  split.
  - unfold e_value. rewrite bool_decide_eq_true_2, bool_decide_eq_false_2 by done. unfold quinlan.
    change (map snd (data 4 e_id e_label)) with (map e_label (seq 0 4)).
    change (map snd (data 4 e_b e_label)) with (map e_label (seq 0 4)).
    change (map fst (data 4 e_id e_label)) with (map e_id (seq 0 4)).
    change (map fst (data 4 e_b e_label)) with (map e_b (seq 0 4)).
    rewrite e_entropy, e_ids, e_values, e_conditional, e_decides. lra.
  - intros log ao co cob sorter fuel l HL Ha Hco Hcb Hl. exists float_zero. by apply e_ratio.
Qed.
Print Assumptions C167_refuted.
