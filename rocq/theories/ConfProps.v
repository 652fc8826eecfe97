(** Properties C40-C44 and C76-C78: confusion matrices, metrics, cross-validation. *)
From Coq Require Import QArith.
From Verif Require Import Prelude BytesModel FloatModel AttrModel AttrSpec StoreModel
  DenseModel DenseSpec DenseProofs DenseCheck GridModel GridSpec GridProofs
  ConfModel ConfSpec ConfProofs ConfMacroProofs FoldSpec FoldProofs.
From stdpp Require Import pretty.
Local Open Scope nat_scope.

(** Tables with one categorical class column, used by the examples. *)
Definition lab_attr : attr := CatA "c" ["u"; "v"; "w"].
Definition lab_code (n : N) : list N := [n;0;0;0;0;0;0;0]%N.
Definition lab_dense (codes : list N) : dense :=
  match dense_run 64 dense_new
    ([DAdd lab_attr; DClass lab_attr true; DExtend (length codes)] ++
     imap (λ i n, DSet (Spec 0 0 lab_attr) i (lab_code n)) codes) with
  | Ok d => d | _ => dense_new end.
Definition lab_grid (codes : list N) : grid := dense_grid [((0, 0), true)] (lab_dense codes).
Definition no_show (p : nat) (bits : N) : string := pretty bits.

(** Reference u v u v u, generated u u u v w; and generated u u u v v. *)
Definition lab_ref : grid := lab_grid [0;1;0;1;0]%N.
Definition lab_gen : grid := lab_grid [0;0;0;1;2]%N.
Definition lab_gen2 : grid := lab_grid [0;0;0;1;1]%N.

(** Computing with the examples. *)
Definition matrix (ref gen : grid) : cmatrix :=
  match confusion_matrix no_show ref gen with Ok c => c | _ => ∅ end.

Lemma matrix_ok ref gen :
  match confusion_matrix no_show ref gen with Ok _ => true | _ => false end = true →
  confusion_matrix no_show ref gen = Ok (matrix ref gen).
Proof. unfold matrix. by destruct (confusion_matrix no_show ref gen). Qed.

Lemma number_check o q :
  match o with Some x => Qeq_bool x q | None => false end = true → is_number o q.
Proof.
  destruct o as [x|]; [|done]. intros H. exists x. split; [done|]. by apply Qeq_bool_eq.
Qed.

(** ** C40 *)

Theorem C40_cells : ∀ show ref gen c,
  confusion_matrix show ref gen = Ok c →
  (gr_size ref).2 = (gr_size gen).2 ∧
  (∀ r g, entry c r g = count_rows (gr_size ref).2
     (λ i, labelled show ref r i && labelled show gen g i)) ∧
  map_sum (map_sum id) c = (gr_size ref).2.
Proof. exact confusion_cells. Qed.
Print Assumptions C40_cells.

Theorem C40_total : ∀ show ref gen,
  (gr_size ref).2 = (gr_size gen).2 →
  (∀ i, i < (gr_size ref).2 → ∃ a b,
     get_class show ref i = Ok a ∧ get_class show gen i = Ok b) →
  ∃ c, confusion_matrix show ref gen = Ok c.
Proof. exact confusion_total. Qed.
Print Assumptions C40_total.

Theorem C40_mismatch : ∀ show ref gen,
  (gr_size ref).2 ≠ (gr_size gen).2 → confusion_matrix show ref gen = Err.
Proof. exact confusion_mismatch. Qed.
Print Assumptions C40_mismatch.

Example C40_ex : ∃ c,
  confusion_matrix no_show lab_ref lab_gen = Ok c ∧
  entry c "u" "u" = 2 ∧ entry c "u" "w" = 1 ∧ entry c "v" "u" = 1 ∧ entry c "v" "v" = 1 ∧
  entry c "w" "w" = 0 ∧ map_sum (map_sum id) c = 5.
Proof. exists (matrix lab_ref lab_gen). split; [apply matrix_ok; vm_compute; reflexivity|]. vm_compute. done. Qed.

Example C40_mismatch_ex :
  confusion_matrix no_show lab_ref (lab_grid [0;1]%N) = Err.
Proof. vm_compute. reflexivity. Qed.

(** ** C41 *)

(** For every class, a reference class or not, and every iteration order of
    Go's maps. *)
Theorem C41_counts : ∀ show ref gen c ko class,
  confusion_matrix show ref gen = Ok c → any_order ko →
  let n := (gr_size ref).2 in
  let is_ref := labelled show ref class in
  let is_gen := labelled show gen class in
  true_positives class c = count_rows n (λ i, is_ref i && is_gen i) ∧
  false_positives ko class c = count_rows n (λ i, negb (is_ref i) && is_gen i) ∧
  false_negatives ko class c = count_rows n (λ i, is_ref i && negb (is_gen i)) ∧
  true_negatives ko class c = count_rows n (λ i, negb (is_ref i) && negb (is_gen i)) ∧
  true_positives class c + false_positives ko class c + false_negatives ko class c +
    true_negatives ko class c = n.
Proof. exact four_counts. Qed.
Print Assumptions C41_counts.

Lemma rev_any_order {A} : any_order (@rev A).
Proof. intros l. symmetry. apply Permutation_rev. Qed.

Example C41_ex : any_order (@rev string) ∧ ∃ c,
  confusion_matrix no_show lab_ref lab_gen = Ok c ∧
  true_positives "u" c = 2 ∧ false_positives (@rev _) "u" c = 1 ∧
  false_negatives (@rev _) "u" c = 1 ∧ true_negatives (@rev _) "u" c = 1.
Proof.
  split; [apply rev_any_order|]. exists (matrix lab_ref lab_gen). split; [apply matrix_ok; vm_compute; reflexivity|].
  vm_compute. done.
Qed.

(** ** C42 *)

Theorem C42_accuracy : ∀ show ref gen c ko,
  confusion_matrix show ref gen = Ok c → any_order ko → (gr_size ref).2 ≠ 0 →
  let q := fraction (count_rows (gr_size ref).2 (agree show ref gen)) (gr_size ref).2 in
  is_number (accuracy ko c) q ∧ is_number (micro_recall ko c) q ∧ in_unit q.
Proof. exact accuracy_fraction. Qed.
Print Assumptions C42_accuracy.

Example C42_ex : ∃ c,
  confusion_matrix no_show lab_ref lab_gen = Ok c ∧
  is_number (accuracy (@rev _) c) (3 # 5) ∧ is_number (micro_recall (@rev _) c) (3 # 5).
Proof.
  exists (matrix lab_ref lab_gen). split; [apply matrix_ok; vm_compute; reflexivity|].
  split; (apply number_check; vm_compute; reflexivity).
Qed.

(** ** C43 *)

(** The false positives of a generated label that is no reference label are left
    out: micro precision 3/4, accuracy 3/5. *)
Theorem C43_micro_precision_refuted : ∃ show ref gen c,
  confusion_matrix show ref gen = Ok c ∧ (gr_size ref).2 ≠ 0 ∧
  ∃ p a, micro_precision id c = Some p ∧ accuracy id c = Some a ∧ ¬ (p == a)%Q.
Proof.
  exists no_show, lab_ref, lab_gen, (matrix lab_ref lab_gen).
  split; [apply matrix_ok; vm_compute; reflexivity|]. split; [vm_compute; lia|].
  exists (3 # 4)%Q, (3 # 5)%Q. split; [vm_compute; reflexivity|].
  split; [vm_compute; reflexivity|]. intros H. vm_compute in H. discriminate.
Qed.
Print Assumptions C43_micro_precision_refuted.

(** It holds when every generated label also occurs in the reference. *)
Theorem C43_micro_precision_partial : ∀ show ref gen c ko,
  confusion_matrix show ref gen = Ok c → any_order ko → (gr_size ref).2 ≠ 0 →
  (∀ i lab, i < (gr_size ref).2 → get_class show gen i = Ok lab →
     ∃ j, j < (gr_size ref).2 ∧ get_class show ref j = Ok lab) →
  let q := fraction (count_rows (gr_size ref).2 (agree show ref gen)) (gr_size ref).2 in
  is_number (micro_precision ko c) q.
Proof. exact micro_precision_fraction. Qed.
Print Assumptions C43_micro_precision_partial.

Example C43_ex :
  (∀ i lab, i < (gr_size lab_ref).2 → get_class no_show lab_gen2 i = Ok lab →
     ∃ j, j < (gr_size lab_ref).2 ∧ get_class no_show lab_ref j = Ok lab) ∧
  ∃ c, confusion_matrix no_show lab_ref lab_gen2 = Ok c ∧
    is_number (micro_precision (@rev _) c) (3 # 5).
Proof.
  split.
  - change (gr_size lab_ref).2 with 5. intros i lab Hi H.
    destruct i as [|[|[|[|[|i]]]]]; [..|lia]; vm_compute in H; injection H as <-;
      [exists 0|exists 0|exists 0|exists 1|exists 1]; (split; [lia|vm_compute; reflexivity]).
  - exists (matrix lab_ref lab_gen2). split; [apply matrix_ok; vm_compute; reflexivity|].
    apply number_check. vm_compute. reflexivity.
Qed.

(** ** C44 *)

(** The rows a run tests and trains on, for any classifier. *)
Theorem C44_folds : ∀ S (cls : classifier S) show co ro data s folds draws s' ms,
  cross_fold cls show co ro data s folds draws = Ok (s', ms) →
  (∀ i, i < (gr_size data).2 → draws i < folds) →
  ∃ parts, length parts = folds ∧
    validated cls show co ro data s parts ms s' ∧
    concat (map fst parts) ≡ₚ seq 0 (gr_size data).2 ∧
    Forall (λ p, p.1 ++ p.2 ≡ₚ seq 0 (gr_size data).2) parts.
Proof. exact @cross_fold_runs. Qed.
Print Assumptions C44_folds.

(** All matrices together count every row once. *)
Theorem C44_counts : ∀ S (cls : classifier S) show co ro data s folds draws s' ms,
  cross_fold cls show co ro data s folds draws = Ok (s', ms) →
  (∀ i, i < (gr_size data).2 → draws i < folds) →
  length ms = folds ∧ sum_list (map (map_sum (map_sum id)) ms) = (gr_size data).2.
Proof. exact @cross_fold_counts. Qed.
Print Assumptions C44_counts.

(** The run succeeds when the classifier does. *)
Theorem C44_total : ∀ S (cls : classifier S) show co ro data s folds draws,
  folds ≠ 0 →
  (∀ a, a ∈ gr_all_attrs data → ∃ sp, gr_get_attribute data a = Ok sp) →
  (∀ s v, ∃ s1, cl_fit cls s (view_grid co ro v) = Ok s1) →
  (∀ s v rows, whole_view v data rows → ∃ s1 pred m,
    cl_predict cls s (view_grid co ro v) = Ok (s1, pred) ∧
    confusion_matrix show (view_grid co ro v) pred = Ok m) →
  ∃ s' ms, cross_fold cls show co ro data s folds draws = Ok (s', ms).
Proof. exact @cross_fold_ok. Qed.
Print Assumptions C44_total.

(** A classifier that counts its training rows and echoes its input. *)
Definition echo : classifier (list nat) :=
  {| cl_fit := λ s g, Ok (s ++ [(gr_size g).2]); cl_predict := λ s g, Ok (s, g) |}.
Definition ex_draws (i : nat) : nat := nth i [2; 0; 2; 2; 0] 0.

Example C44_ex : ∃ s ms,
  cross_fold echo no_show id id lab_ref [] 3 ex_draws = Ok (s, ms) ∧
  (∀ i, i < (gr_size lab_ref).2 → ex_draws i < 3) ∧
  s = [3; 5; 2] ∧ map (map_sum (map_sum id)) ms = [2; 0; 3].
Proof.
  assert (match cross_fold echo no_show id id lab_ref [] 3 ex_draws with
    | Ok (s, ms) => s = [3; 5; 2] ∧ map (map_sum (map_sum id)) ms = [2; 0; 3]
    | _ => False end) as H by (vm_compute; done).
  destruct (cross_fold _ _ _ _ _ _ _ _) as [[s ms]| |]; [|done..].
  exists s, ms. split; [done|]. split; [|done]. clear.
  change (gr_size lab_ref).2 with 5. intros i Hi.
  destruct i as [|[|[|[|[|i]]]]]; [..|lia]; vm_compute; lia.
Qed.

(** ** C76 *)

(** Macro-averaged recall is the mean over the reference labels of the fraction
    of their rows recognised. *)
Theorem C76_macro_recall : ∀ show ref gen c ko ls,
  confusion_matrix show ref gen = Ok c → any_order ko → (gr_size ref).2 ≠ 0 →
  labels_of show ref ls →
  let n := (gr_size ref).2 in
  let q := mean_of (map (λ k, fraction
    (count_rows n (λ i, labelled show ref k i && labelled show gen k i))
    (count_rows n (labelled show ref k))) ls) in
  is_number (macro_recall ko c) q ∧ in_unit q.
Proof. exact macro_recall_mean. Qed.
Print Assumptions C76_macro_recall.

(** Macro-averaged precision is NaN as soon as one reference label is never
    generated. *)
Theorem C76_macro_precision_refuted : ∃ show ref gen c,
  confusion_matrix show ref gen = Ok c ∧ (gr_size ref).2 ≠ 0 ∧
  macro_precision id c = None.
Proof.
  exists no_show, lab_ref, (lab_grid [0;0;0;0;0]%N), (matrix lab_ref (lab_grid [0;0;0;0;0]%N)).
  split; [apply matrix_ok; vm_compute; reflexivity|]. split; [vm_compute; lia|]. vm_compute. reflexivity.
Qed.
Print Assumptions C76_macro_precision_refuted.

Theorem C76_macro_precision_nan : ∀ show ref gen c ko k,
  confusion_matrix show ref gen = Ok c → any_order ko →
  (∃ i, i < (gr_size ref).2 ∧ get_class show ref i = Ok k) →
  (∀ i, i < (gr_size ref).2 → get_class show gen i ≠ Ok k) →
  macro_precision ko c = None.
Proof. exact macro_precision_nan. Qed.
Print Assumptions C76_macro_precision_nan.

Theorem C76_macro_precision_partial : ∀ show ref gen c ko ls,
  confusion_matrix show ref gen = Ok c → any_order ko → (gr_size ref).2 ≠ 0 →
  labels_of show ref ls →
  (∀ k, k ∈ ls → ∃ i, i < (gr_size ref).2 ∧ get_class show gen i = Ok k) →
  let n := (gr_size ref).2 in
  let q := mean_of (map (λ k, fraction
    (count_rows n (λ i, labelled show ref k i && labelled show gen k i))
    (count_rows n (labelled show gen k))) ls) in
  is_number (macro_precision ko c) q ∧ in_unit q.
Proof. exact macro_precision_mean. Qed.
Print Assumptions C76_macro_precision_partial.

(** Recalls 2/3 and 1/2, precisions 2/3 and 1. *)
Example C76_ex : labels_of no_show lab_ref ["u"; "v"] ∧ ∃ c,
  confusion_matrix no_show lab_ref lab_gen = Ok c ∧
  is_number (macro_recall (@rev _) c) (7 # 12) ∧
  is_number (macro_precision (@rev _) c) (5 # 6).
Proof.
  split.
  - split; [apply (bool_decide_unpack _); vm_compute; exact I|].
    change (gr_size lab_ref).2 with 5. intros c. split.
    + intros H. apply elem_of_cons in H as [->|H]; [exists 0; split; [lia|vm_compute; reflexivity]|].
      apply elem_of_list_singleton in H as ->. exists 1. split; [lia|vm_compute; reflexivity].
    + intros (i & Hi & H).
      destruct i as [|[|[|[|[|i]]]]]; [..|lia]; vm_compute in H; injection H as <-;
        apply (bool_decide_unpack _); vm_compute; exact I.
  - exists (matrix lab_ref lab_gen). split; [apply matrix_ok; vm_compute; reflexivity|].
    split; (apply number_check; vm_compute; reflexivity).
Qed.

(** ** C77 *)

(** For a class recognised at least once: 2 TP / (reference rows + generated
    rows), between precision and recall. *)
Theorem C77_f1_partial : ∀ show ref gen c ko k,
  confusion_matrix show ref gen = Ok c → any_order ko →
  (∃ i, i < (gr_size ref).2 ∧ get_class show ref i = Ok k ∧ get_class show gen i = Ok k) →
  let n := (gr_size ref).2 in
  let tp := count_rows n (λ i, labelled show ref k i && labelled show gen k i) in
  let as_ref := count_rows n (labelled show ref k) in
  let as_gen := count_rows n (labelled show gen k) in
  is_number (f1_score ko k c) (fraction (2 * tp) (as_ref + as_gen)) ∧
  ∃ p r f, precision ko k c = Some p ∧ recall ko k c = Some r ∧ f1_score ko k c = Some f ∧
    ((p <= f)%Q ∧ (f <= r)%Q ∨ (r <= f)%Q ∧ (f <= p)%Q).
Proof. exact f1_fraction. Qed.
Print Assumptions C77_f1_partial.

(** Precision and recall both 0 give NaN, not 0. *)
Theorem C77_f1_refuted : ∃ show ref gen c k,
  confusion_matrix show ref gen = Ok c ∧
  is_number (precision id k c) 0 ∧ is_number (recall id k c) 0 ∧ f1_score id k c = None.
Proof.
  exists no_show, (lab_grid [0;1]%N), (lab_grid [1;0]%N).
  exists (matrix (lab_grid [0;1]%N) (lab_grid [1;0]%N)), "u".
  split; [apply matrix_ok; vm_compute; reflexivity|].
  split; [apply number_check; vm_compute; reflexivity|].
  split; [apply number_check; vm_compute; reflexivity|].
  vm_compute. reflexivity.
Qed.
Print Assumptions C77_f1_refuted.

Example C77_ex : ∃ c,
  confusion_matrix no_show lab_ref lab_gen = Ok c ∧
  is_number (precision (@rev _) "v" c) 1 ∧ is_number (recall (@rev _) "v" c) (1 # 2) ∧
  is_number (f1_score (@rev _) "v" c) (2 # 3) ∧
  get_class no_show lab_ref 3 = Ok "v" ∧ get_class no_show lab_gen 3 = Ok "v".
Proof.
  exists (matrix lab_ref lab_gen). split; [apply matrix_ok; vm_compute; reflexivity|].
  split; [apply number_check; vm_compute; reflexivity|].
  split; [apply number_check; vm_compute; reflexivity|].
  split; [apply number_check; vm_compute; reflexivity|].
  split; vm_compute; reflexivity.
Qed.

(** ** C78 *)

Theorem C78_mean_variance : ∀ metric cs,
  cs ≠ [] →
  ∃ mean variance, cross_validated metric cs = Some (mean, variance) ∧
    (mean == mean_of (map metric cs))%Q ∧
    (variance == mean_of (map (λ c, (metric c - mean) * (metric c - mean)) cs))%Q ∧
    (0 <= variance)%Q ∧
    ((variance == 0)%Q ↔ ∀ c, c ∈ cs → (metric c == mean)%Q) ∧
    ∀ lo hi, (∀ c, c ∈ cs → (lo <= metric c)%Q ∧ (metric c <= hi)%Q) →
      (lo <= mean)%Q ∧ (mean <= hi)%Q.
Proof. exact cross_validated_ok. Qed.
Print Assumptions C78_mean_variance.

Example C78_ex :
  let metric (c : cmatrix) := of_nat (map_sum (map_sum id) c) in
  let cs := [ {["u" := {["u" := 1]}]}; {["u" := {["v" := 4]}]}; {["v" := {["v" := 4]}]} ] in
  ∃ mean variance, cross_validated metric cs = Some (mean, variance) ∧
    (mean == 3)%Q ∧ (variance == 2)%Q.
Proof.
  intros metric cs. eexists _, _. split; [vm_compute; reflexivity|]. split; reflexivity.
Qed.
