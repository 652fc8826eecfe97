(** Properties C45-C47: the bounded heap, k-d tree construction and search. *)
From Coq Require Import QArith Qabs Lqa.
From stdpp Require Import sorting.
From Verif Require Import Prelude KdModel KdSpec HeapProofs KdProofs.
Local Open Scope nat_scope.

(** ** A sorting procedure and a distance for the examples *)

Definition key_le (key : nat → Q) (a b : nat) : Prop := (key a <= key b)%Q.
Global Instance key_le_dec key a b : Decision (key_le key a b).
Proof. unfold key_le. destruct (Qlt_le_dec (key b) (key a)); [right|left]; lra. Defined.
Global Instance key_le_trans key : Transitive (key_le key).
Proof. intros a b c. apply Qle_trans. Qed.
Global Instance key_le_total key : Total (key_le key).
Proof.
  intros a b. unfold key_le. destruct (Qlt_le_dec (key b) (key a)); [right|left]; lra.
Qed.

Definition msort (key : nat → Q) (l : list nat) : list nat := merge_sort (key_le key) l.
Lemma msort_sorts : sorts msort.
Proof.
  intros key l. split; [apply merge_sort_Permutation|].
  apply (StronglySorted_merge_sort (key_le key) l).
Qed.

Fixpoint manhattan (t w : list Q) : Q :=
  match t, w with
  | x :: t, y :: w => Qred (Qabs (x - y) + manhattan t w)
  | _, _ => 0
  end.

Lemma manhattan_nonneg t w : (0 <= manhattan t w)%Q.
Proof.
  revert w. induction t as [|x t IH]; intros [|y w]; cbn [manhattan]; try lra.
  rewrite Qred_correct. pose proof (Qabs_nonneg (x - y)). specialize (IH w). lra.
Qed.

Lemma manhattan_coord t w f tf wf :
  t !! f = Some tf → w !! f = Some wf → (Qabs (tf - wf) <= manhattan t w)%Q.
Proof.
  revert t w. induction f as [|f IH]; intros [|x t] [|y w] Ht Hw; try done; cbn [manhattan].
  - injection Ht as ->. injection Hw as ->. rewrite Qred_correct.
    pose proof (manhattan_nonneg t w). lra.
  - rewrite Qred_correct. specialize (IH t w Ht Hw). pose proof (Qabs_nonneg (x - y)). lra.
Qed.

Lemma manhattan_plane d : plane_bound manhattan d.
Proof.
  intros t w f tf wf v _ _ Ht Hw Hv. cbn [manhattan]. rewrite Qred_correct.
  pose proof (manhattan_coord t w f tf wf Ht Hw) as H. revert H.
  apply (Qabs_case (tf - wf)); apply (Qabs_case (tf - v)); intros; lra.
Qed.

(** ** C45 *)

Theorem C45_heap : ∀ ops,
  ∃ h, heap_run ops = Ok h ∧
    (∀ x, x ∈ h → (x.1 <= (heap_max h).1)%Q) ∧ (h ≠ [] → heap_max h ∈ h) ∧
    (∀ l r, ∃ h', heap_run (ops ++ [HInsert l r]) = Ok h' ∧ h' ≡ₚ (l, r) :: h) ∧
    (∃ h', heap_run (ops ++ [HExtract]) = Ok h' ∧
       (h = [] ∧ h' = [] ∨ h ≠ [] ∧ heap_max h :: h' ≡ₚ h)).
Proof. exact heap_history. Qed.
Print Assumptions C45_heap.

Example C45_ex : ∃ h,
  heap_run [HInsert 2 0; HInsert 5 1; HInsert 3 2; HInsert 5 3; HExtract; HInsert 4 4] = Ok h ∧
  length h = 4 ∧ heap_max h = (5%Q, 3).
Proof. eexists. split; [vm_compute; reflexivity|]. split; vm_compute; reflexivity. Qed.

(** ** C46 *)

(** Building succeeds on non-empty data of one width (at least one feature). *)
Theorem C46_build : ∀ sorter data d,
  sorts sorter → rectangular_data data d → 1 ≤ d → data ≠ [] →
  ∃ t, kd_build sorter data = Ok t ∧
    rows_of t ≡ₚ seq 0 (length data) ∧ search_tree data t.
Proof. exact kd_build_ok. Qed.
Print Assumptions C46_build.

(** Empty or ragged data is an error. *)
Theorem C46_build_error : ∀ sorter data,
  data = [] ∨ (∀ d, ¬ rectangular_data data d) → kd_build sorter data = Err.
Proof. exact kd_build_bad. Qed.
Print Assumptions C46_build_error.

Definition points : list (list Q) :=
  [[7;2]; [5;4]; [9;6]; [2;3]; [4;7]; [8;1]; [5;0]]%Q.

Example C46_ex :
  rectangular_data points 2 ∧
  kd_build msort points = Ok (KNode 0 [5;4]%Q 1
    (KNode 1 [2;3]%Q 3 (KLeaf [5;0]%Q 6) (KLeaf [4;7]%Q 4))
    (KNode 1 [7;2]%Q 0 (KLeaf [8;1]%Q 5) (KLeaf [9;6]%Q 2))).
Proof.
  split; [|vm_compute; reflexivity].
  intros v Hv. unfold points in Hv. rewrite !elem_of_cons, elem_of_nil in Hv. naive_solver.
Qed.

(** ** C47 *)

(** The full statement. *)
Definition C47_statement : Prop := ∀ sorter dist data d t k target out,
  sorts sorter → rectangular_data data d → 1 ≤ d → plane_bound dist d →
  kd_build sorter data = Ok t → length target = d → 1 ≤ k ≤ length data →
  kd_search dist data t k target = Ok out → nearest dist data target k out.

(** It is false: a nil node is treated as row 0 placed at the origin, so with rows -1
    and 5 and target 1, the two nearest rows are row 0 and row 0. *)
Theorem C47_nearest_refuted : ∃ sorter dist data d t k target out,
  sorts sorter ∧ rectangular_data data d ∧ 1 ≤ d ∧ plane_bound dist d ∧
  kd_build sorter data = Ok t ∧ length target = d ∧ 1 ≤ k ≤ length data ∧
  kd_search dist data t k target = Ok out ∧ ¬ nearest dist data target k out.
Proof.
  exists msort, manhattan, [[-(1)];[5]]%Q, 1. do 2 eexists. exists [1]%Q. eexists.
  split; [apply msort_sorts|]. split.
  { intros v Hv. rewrite !elem_of_cons, elem_of_nil in Hv. naive_solver. }
  split; [lia|]. split; [apply manhattan_plane|].
  split; [vm_compute; reflexivity|]. split; [done|].
  split; [instantiate (1 := 2); simpl; lia|].
  split; [vm_compute; reflexivity|]. intros (_ & Hnd & _). simpl in Hnd.
  apply NoDup_cons in Hnd as [Hnd _]. apply Hnd. left.
Qed.
Print Assumptions C47_nearest_refuted.

(** What is returned in general: the [k] smallest entries among all rows and some
    number of copies of row 0 at the origin. *)
Theorem C47_nearest_general_partial : ∀ sorter dist data d t k target,
  sorts sorter → rectangular_data data d → 1 ≤ d → plane_bound dist d →
  kd_build sorter data = Ok t → length target = d → 1 ≤ k ≤ length data →
  ∃ out m, kd_search dist data t k target = Ok out ∧ m ≤ gaps t ∧
    k_smallest k (imap (λ r v, (dist target v, r)) data ++
      repeat (dist target (repeat 0%Q d), 0) m) out.
Proof. exact kd_search_ok. Qed.
Print Assumptions C47_nearest_general_partial.

(** The [k] nearest rows are returned if the tree has no nil node, or if every row is
    strictly closer to the target than the origin is.  Missing from the full
    statement: trees with nil nodes and the origin among the candidates. *)
Theorem C47_nearest_partial : ∀ sorter dist data d t k target,
  sorts sorter → rectangular_data data d → 1 ≤ d → plane_bound dist d →
  kd_build sorter data = Ok t → length target = d → 1 ≤ k ≤ length data →
  gaps t = 0 ∨ (∀ v, v ∈ data → (dist target v < dist target (repeat 0%Q d))%Q) →
  ∃ out, kd_search dist data t k target = Ok out ∧ nearest dist data target k out.
Proof. exact kd_search_nearest. Qed.
Print Assumptions C47_nearest_partial.

(** Asking for more rows than there are, or with a target of another width, is an
    error. *)
Theorem C47_search_error : ∀ dist data t k target d,
  rectangular_data data d → data ≠ [] →
  length data < k ∨ length target ≠ d → kd_search dist data t k target = Err.
Proof. exact kd_search_errors. Qed.
Print Assumptions C47_search_error.

(** Seven points, no gap in the tree; then four points and a gap, the origin being
    farther away than any of them. *)
Example C47_ex_nogap : ∃ t,
  kd_build msort points = Ok t ∧ gaps t = 0 ∧
  kd_search manhattan points t 3 [8;3]%Q = Ok [(2%Q, 0); (2%Q, 5); (4%Q, 2)].
Proof. eexists. split; [vm_compute; reflexivity|]. split; vm_compute; reflexivity. Qed.

Definition far_points : list (list Q) := [[7;2]; [5;4]; [9;6]; [2;3]]%Q.
Example C47_ex_far : ∃ t,
  kd_build msort far_points = Ok t ∧ gaps t = 1 ∧
  (∀ v, v ∈ far_points → (manhattan [9;7] v < manhattan [9;7] (repeat 0 2))%Q) ∧
  kd_search manhattan far_points t 3 [9;7]%Q = Ok [(1%Q, 2); (7%Q, 1); (7%Q, 0)].
Proof.
  eexists. split; [vm_compute; reflexivity|]. split; [reflexivity|]. split.
  { intros v Hv. unfold far_points in Hv. rewrite !elem_of_cons, elem_of_nil in Hv.
    destruct Hv as [->|[->|[->|[->|[]]]]]; vm_compute; reflexivity. }
  vm_compute. reflexivity.
Qed.
