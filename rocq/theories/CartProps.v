(** Properties C54, C55 and C88 to C94: CART trees. *)
From Coq Require Import Reals Psatz.
From Verif Require Import Prelude BytesModel FloatModel FloatOrder AttrModel StoreModel DenseModel DenseSpec GridModel
  GridSpec GridProofs FilterModel KnnModel Id3Model Id3Props RuleModel RuleProofs CartModel CartSpec
  CartProofs CartGrow CartFit GiniProofs.
From Flocq Require Import IEEE754.BinarySingleNaN IEEE754.Bits IEEE754.Binary.
Local Open Scope nat_scope.

(** ** Sorting and tables for the examples *)

Definition key_le (x y : binary64) : Prop := (fkey x <= fkey y)%Z.
Global Instance key_le_dec x y : Decision (key_le x y).
Proof. unfold key_le. apply _. Defined.
Global Instance key_le_trans : Transitive key_le.
Proof. intros x y z. unfold key_le. lia. Qed.
Global Instance key_le_total : Total key_le.
Proof. intros x y. unfold key_le. lia. Qed.
Definition k_sort (l : list binary64) : list binary64 := merge_sort key_le l.

Definition at_le (l : list binary64) (i j : nat) : Prop :=
  key_le (default float_zero (l !! i)) (default float_zero (l !! j)).
Global Instance at_le_dec l i j : Decision (at_le l i j).
Proof. unfold at_le. apply _. Defined.
Global Instance at_le_trans l : Transitive (at_le l).
Proof. intros x y z. unfold at_le, key_le. lia. Qed.
Global Instance at_le_total l : Total (at_le l).
Proof. intros x y. unfold at_le, key_le. lia. Qed.
Definition k_order (l : list binary64) : list nat := merge_sort (at_le l) (seq 0 (length l)).

Lemma sorted_weaken {A} (R R' : A → A → Prop) l : StronglySorted R l →
  (∀ x y, x ∈ l → y ∈ l → R x y → R' x y) → StronglySorted R' l.
Proof.
  induction 1 as [|x l Hs IH Hf]; intros H; [constructor|]. constructor.
  - apply IH. intros y z Hy Hz. apply H; by right.
  - apply Forall_forall. intros y Hy. apply H; [left|by right|]. rewrite Forall_forall in Hf. by apply Hf.
Qed.

Lemma k_sort_ok : sorts k_sort.
Proof.
  intros l. split; [apply merge_sort_Permutation|]. intros Hn.
  eapply sorted_weaken; [apply (StronglySorted_merge_sort key_le)|].
  intros x y _ _ H. apply lt_false. intros _ _. exact H.
Qed.

Lemma k_order_ok : sorts_positions k_order.
Proof.
  intros l. split; [apply merge_sort_Permutation|]. intros Hn.
  eapply sorted_weaken; [apply (StronglySorted_merge_sort (at_le l))|].
  intros i j _ _ H x y Hx Hy. apply lt_false. intros _ _. unfold at_le in H. rewrite Hx, Hy in H. exact H.
Qed.

(** Two features and a class. *)
Definition cx : attr := FloatA "x" 2.
Definition cy : attr := FloatA "y" 2.
Definition cc : attr := FloatA "c" 2.
Definition c_dense (rows : list (Z * Z * Z)) : dense :=
  match dense_run 64 dense_new
    ([DAdd cx; DAdd cy; DAdd cc; DClass cc true; DExtend (length rows)] ++
     concat (imap (λ i r, [DSet (Spec 0 0 cx) i (pack_float (float_of_Z r.1.1));
                           DSet (Spec 0 1 cy) i (pack_float (float_of_Z r.1.2));
                           DSet (Spec 0 2 cc) i (pack_float (float_of_Z r.2))]) rows)) with
  | Ok d => d | _ => dense_new end.
Definition c_grid (rows : list (Z * Z * Z)) : grid := dense_grid [((0, 2), true)] (c_dense rows).
Definition c_feat (rows : list (Z * Z * Z)) (r : nat) : sample :=
  match rows !! r with Some r => [float_of_Z r.1.1; float_of_Z r.1.2] | None => [] end.
Definition c_label (rows : list (Z * Z * Z)) (r : nat) : binary64 :=
  match rows !! r with Some r => float_of_Z r.2 | None => float_zero end.

Definition same_bits (x y : binary64) : bool := (bits_of_b64 x =? bits_of_b64 y)%Z.
Lemma same_bits_eq x y : same_bits x y = true → x = y.
Proof.
  intros H. apply Z.eqb_eq in H. 
  rewrite <- (binary_float_of_bits_of_binary_float 52 11 eq_refl eq_refl eq_refl x).
  rewrite <- (binary_float_of_bits_of_binary_float 52 11 eq_refl eq_refl eq_refl y).
  f_equal. exact H.
Qed.

Global Instance spec_eq_dec : EqDecision spec.
Proof. solve_decision. Defined.
Global Instance res_eq_dec {A} `{EqDecision A} : EqDecision (res A).
Proof. solve_decision. Defined.

Definition c_rowb (rc rx ry : res (list N)) (f : sample) (l' : binary64) : bool :=
  match (v ← rc; unpack_float v), (v ← rx; unpack_float v), (v ← ry; unpack_float v), f with
  | Ok l, Ok x, Ok y, [x'; y'] => same_bits l l' && same_bits x x' && same_bits y y'
  | _, _, _, _ => false
  end.
Lemma c_row rc rx ry f l : c_rowb rc rx ry f l = true →
  ∃ vc vx vy x y, rc = Ok vc ∧ rx = Ok vx ∧ ry = Ok vy ∧ unpack_float vc = Ok l ∧
    unpack_float vx = Ok x ∧ unpack_float vy = Ok y ∧ f = [x; y].
Proof.
  unfold c_rowb. destruct rc as [vc| |]; [|discriminate..]. destruct rx as [vx| |]; cbn [mbind res_bind].
  - destruct (unpack_float vc) as [l0| |] eqn:E0; [|discriminate..].
    destruct (unpack_float vx) as [x0| |] eqn:E1; [|discriminate..].
    destruct ry as [vy| |]; cbn [mbind res_bind]; [|discriminate..].
    destruct (unpack_float vy) as [y0| |] eqn:E2; [|discriminate..].
    destruct f as [|x' [|y' [|]]]; try discriminate. rewrite !andb_true_iff.
    intros ((H1 & H2) & H3). apply same_bits_eq in H1 as ->. apply same_bits_eq in H2 as ->.
    apply same_bits_eq in H3 as ->. exists vc, vx, vy, x', y'. done.
  - destruct (unpack_float vc); discriminate.
  - destruct (unpack_float vc); discriminate.
Qed.

Definition c_holdsb (rows : list (Z * Z * Z)) : bool :=
  let g := c_grid rows in
  bool_decide (gr_class_attrs g = [cc]) &&
  bool_decide (gr_get_attribute g cc = Ok (Spec 0 2 cc)) &&
  bool_decide (resolve g (numeric_columns g) = Ok [Spec 0 0 cx; Spec 0 1 cy]) &&
  forallb (λ r, c_rowb (gr_get g (Spec 0 2 cc) r) (gr_get g (Spec 0 0 cx) r) (gr_get g (Spec 0 1 cy) r)
                  (c_feat rows r) (c_label rows r)) (seq 0 (gr_size g).2).

Lemma c_holds rows : c_holdsb rows = true → holds_samples (c_grid rows) (c_feat rows) (c_label rows).
Proof.
  unfold c_holdsb. rewrite !andb_true_iff. intros (((H1 & H2) & H3) & H4).
  apply bool_decide_eq_true_1 in H1, H2, H3. rewrite forallb_forall in H4.
  split; [split|].
  - apply in_order_agrees, dense_grid_in_order.
  - exists [Spec 0 0 cx; Spec 0 1 cy]. split; [exact H3|]. intros r Hr.
    destruct (c_row _ _ _ _ _ (H4 r ltac:(apply in_seq; split; [lia|exact Hr])))
      as (vc & vx & vy & x & y & _ & Ex & Ey & _ & Ux & Uy & ->).
    exists [vx; vy]. cbn [res_mapM]. rewrite Ex. cbn [mbind res_bind]. rewrite Ey. cbn [mbind res_bind].
    split; [reflexivity|]. rewrite Ux. cbn [mbind res_bind]. rewrite Uy. reflexivity.
  - exists "c", 2, (Spec 0 2 cc). split; [exact H1|]. split; [exact H2|]. intros r Hr.
    destruct (c_row _ _ _ _ _ (H4 r ltac:(apply in_seq; split; [lia|exact Hr])))
      as (vc & vx & vy & x & y & Ec & _ & _ & Uc & _). exists vc. split; [exact Ec|exact Uc].
Qed.

Definition apartb {L} (w : nat) (pts : list (sample * L)) : bool :=
  forallb (λ p, length p.1 =? w) pts &&
  forallb (λ p, forallb (λ q, forallb (λ i,
    match p.1 !! i, q.1 !! i with
    | Some x, Some y => negb (is_nan 53 1024 x) &&
        (negb (float_lt x y) || (float_lt x (middle x y) && negb (float_lt y (middle x y))))
    | _, _ => true
    end) (seq 0 w)) pts) pts.
Lemma apart_check {L} w (pts : list (sample * L)) : apartb w pts = true → apart w pts.
Proof.
  unfold apartb. rewrite andb_true_iff, !forallb_forall. intros [H1 H2]. split.
  - intros p Hp. apply Nat.eqb_eq, H1. by apply elem_of_list_In.
  - intros p q i x y Hp Hq Hx Hy.
    assert (i < w) as Hi.
    { apply elem_of_list_In, H1, Nat.eqb_eq in Hp. apply lookup_lt_Some in Hx. rewrite <- Hp. exact Hx. }
    apply elem_of_list_In, H2 in Hp. rewrite forallb_forall in Hp.
    apply elem_of_list_In, Hp in Hq. rewrite forallb_forall in Hq.
    specialize (Hq i ltac:(apply in_seq; lia)). rewrite Hx, Hy in Hq.
    apply andb_true_iff in Hq as [Hn Hq]. split; [by apply negb_true_iff in Hn|].
    intros Hlt. rewrite Hlt in Hq. cbn [negb orb] in Hq. apply andb_true_iff in Hq as [Hq1 Hq2].
    split; [done|]. by apply negb_true_iff in Hq2.
Qed.

(** ** C54: a split *)

Theorem C54_split {L} (pts : list (sample * L)) i t : (∀ p, p ∈ pts → i < length p.1) →
  create_split pts i t = Ok (low i t pts, high i t pts) ∧ low i t pts ++ high i t pts ≡ₚ pts.
Proof. intros H. split; [by apply create_split_any|apply low_high_perm]. Qed.
Print Assumptions C54_split.

(** Growing the left part for the next threshold gives the split by that threshold. *)
Theorem C54_next {L} (pts : list (sample * L)) i t u :
  (∀ p, p ∈ pts → ∃ x, p.1 !! i = Some x ∧ is_nan 53 1024 x = false) →
  StronglySorted (λ p q, ∀ x y, p.1 !! i = Some x → q.1 !! i = Some y → float_lt y x = false) pts →
  is_nan 53 1024 t = false → is_nan 53 1024 u = false → float_lt u t = false → high i u pts ≠ [] →
  update_split (low i t pts) (high i t pts) i u = Ok (low i u pts, high i u pts).
Proof. exact (next_split pts i t u). Qed.
Print Assumptions C54_next.

Definition c_rows : list (Z * Z * Z) := [(4, 1, 5); (1, 7, 2); (9, 3, 5); (3, 2, 2)]%Z.
Definition c_pts (rows : list (Z * Z * Z)) : list (sample * Z) :=
  samples_of (c_grid rows) (c_feat rows) (int_label (c_label rows)).
Definition c_num (z : Z) : binary64 := float_of_Z z.

Example C54_ex :
  (∀ p, p ∈ c_pts c_rows → 0 < length p.1) ∧
  map snd (low 0 (c_num 4) (c_pts c_rows)) = [2; 2]%Z ∧ map snd (high 0 (c_num 4) (c_pts c_rows)) = [5; 5]%Z.
Proof.
  split; [|split; vm_compute; reflexivity]. intros p Hp.
  assert (forallb (λ p : sample * Z, 0 <? length p.1) (c_pts c_rows) = true) as H by (vm_compute; reflexivity).
  rewrite forallb_forall in H. apply elem_of_list_In, H, Nat.ltb_lt in Hp. done.
Qed.

Definition c_next : bool := let pts := c_pts [(1, 7, 2); (3, 2, 2); (4, 1, 5); (9, 3, 5)]%Z in
  match update_split (low 0 (c_num 2) pts) (high 0 (c_num 2) pts) 0 (c_num 5) with
  | Ok (l, r) => bool_decide (map snd l = [2; 2; 5]%Z ∧ map snd r = [5]%Z)
  | _ => false
  end.
Example C54_next_ex : c_next = true.
Proof. vm_compute. reflexivity. Qed.

(** ** C55: the classifier predicts a label of the training samples *)

(** If some split lowers the impurity of the training samples and the tree may have a
    node, every sample gets the most frequent label of the training samples that take the
    same way through the tree. *)
Theorem C55_label_partial fsort order log2 criterion labels md g feat label w fuel :
  sorts fsort → sorts_positions order → classifies_by log2 criterion →
  holds_samples g feat label → 0 < (gr_size g).2 → (Z.of_nat (gr_size g).2 <= 2 ^ 53)%Z →
  apart w (samples_of g feat (int_label label)) → (∀ r, r < (gr_size g).2 → int_label label r ∈ labels) →
  some_depth md → (gr_size g).2 < fuel →
  (∃ i u, useful (class_impurity log2 criterion labels) (samples_of g feat (int_label label)) i u) →
  ∃ t, classifier_fit fsort order log2 fuel criterion md labels g = Ok t ∧
    ∀ x, length x = w → ∃ l, predict_single t x = Ok l ∧
      most_frequent (same_way t x (samples_of g feat (int_label label))) l.
Proof. exact (classifier_labels fsort order log2 criterion labels md g feat label w fuel). Qed.
Print Assumptions C55_label_partial.

(** Otherwise the root asks whether the first feature is below 0, and the label of all
    other samples is 0. *)
Theorem C55_no_split fsort order log2 criterion labels md g feat label w fuel :
  sorts fsort → sorts_positions order → classifies_by log2 criterion →
  holds_samples g feat label → 0 < (gr_size g).2 → (Z.of_nat (gr_size g).2 <= 2 ^ 53)%Z →
  apart w (samples_of g feat (int_label label)) →
  some_depth md → (gr_size g).2 < fuel →
  ¬ (∃ i u, useful (class_impurity log2 criterion labels) (samples_of g feat (int_label label)) i u) →
  ∃ t, classifier_fit fsort order log2 fuel criterion md labels g = Ok t ∧
    ∀ x v, x !! 0 = Some v → float_lt v float_zero = false → predict_single t x = Ok 0%Z.
Proof. exact (classifier_zero fsort order log2 criterion labels md g feat label w fuel). Qed.
Print Assumptions C55_no_split.

Definition usefulb (imp : list Z → binary64) (pts : list (sample * Z)) (i : nat) (t : binary64) : bool :=
  negb (length (low i t pts) =? 0) && negb (length (high i t pts) =? 0) &&
  float_lt (split_impurity imp pts i t) (imp (map snd pts)).
Lemma useful_check imp pts i t : usefulb imp pts i t = true → useful imp pts i t.
Proof.
  unfold usefulb. rewrite !andb_true_iff, !negb_true_iff, !Nat.eqb_neq. intros ((H1 & H2) & H3).
  split; [intros E; apply H1; by rewrite E|]. split; [intros E; apply H2; by rewrite E|done].
Qed.

Definition no_log (x : binary64) : binary64 := x.
Definition c_fit (md : Z) (labels : list Z) (rows : list (Z * Z * Z)) : res (cnode Z) :=
  classifier_fit k_sort k_order no_log 20 "gini" md labels (c_grid rows).
Definition c_predicts (md : Z) (labels : list Z) (rows : list (Z * Z * Z)) (x : list Z) : res Z :=
  t ← c_fit md labels rows; predict_single t (map float_of_Z x).

(** The labels are told by the first feature, with one exception. *)
Definition c_mixed : list (Z * Z * Z) := [(1, 7, 2); (2, 2, 2); (3, 3, 5); (7, 8, 5); (8, 1, 2); (9, 5, 5)]%Z.

Example C55_ex :
  holds_samples (c_grid c_mixed) (c_feat c_mixed) (c_label c_mixed) ∧
  (gr_size (c_grid c_mixed)).2 = 6 ∧ apart 2 (c_pts c_mixed) ∧
  useful (class_impurity no_log "gini" [2; 5]%Z) (c_pts c_mixed) 0 (c_num 3) ∧
  c_predicts (-1) [2; 5]%Z c_mixed [1; 9]%Z = Ok 2%Z ∧ c_predicts (-1) [2; 5]%Z c_mixed [8; 1]%Z = Ok 2%Z ∧
  c_predicts (-1) [2; 5]%Z c_mixed [8; 9]%Z = Ok 5%Z ∧ c_predicts 1 [2; 5]%Z c_mixed [8; 1]%Z = Ok 5%Z.
Proof.
  split; [apply c_holds; vm_compute; reflexivity|]. split; [vm_compute; reflexivity|].
  split; [apply apart_check; vm_compute; reflexivity|].
  split; [apply useful_check; vm_compute; reflexivity|].
  split; [vm_compute; reflexivity|]. split; [vm_compute; reflexivity|]. split; vm_compute; reflexivity.
Qed.

Lemma label_in x l : existsb (Z.eqb x) l = true → x ∈ l.
Proof. rewrite existsb_exists. intros (y & Hy & E). apply Z.eqb_eq in E as ->. by apply elem_of_list_In. Qed.

(** Two samples with the label 5: the label 0 is predicted. *)
Definition c_pure : list (Z * Z * Z) := [(1, 1, 5); (2, 3, 5)]%Z.

Theorem C55_pure_refuted : ∃ fsort order g feat label labels t x,
  sorts fsort ∧ sorts_positions order ∧ holds_samples g feat label ∧ 0 < (gr_size g).2 ∧
  apart (length x) (samples_of g feat (int_label label)) ∧
  (∀ r, r < (gr_size g).2 → int_label label r ∈ labels) ∧
  classifier_fit fsort order no_log 20 "gini" (-1) labels g = Ok t ∧
  predict_single t x = Ok 0%Z ∧ ∀ r, r < (gr_size g).2 → int_label label r ≠ 0%Z.
Proof.
  exists k_sort, k_order, (c_grid c_pure), (c_feat c_pure), (c_label c_pure), [5%Z],
    (of_ok (c_fit (-1) [5%Z] c_pure) (zero_node 0%Z)), (map float_of_Z [1; 1]%Z).
  split; [apply k_sort_ok|]. split; [apply k_order_ok|].
  split; [apply c_holds; vm_compute; reflexivity|]. split; [vm_compute; lia|].
  split; [apply apart_check; vm_compute; reflexivity|].
  assert ((gr_size (c_grid c_pure)).2 = 2) as -> by (vm_compute; reflexivity).
  split; [intros [|[|r]] Hr; [vm_compute; left..|lia]|].
  split; [apply okb_eq; vm_compute; reflexivity|].
  split; [vm_compute; reflexivity|].
  intros [|[|r]] Hr; [vm_compute; discriminate..|lia].
Qed.
Print Assumptions C55_pure_refuted.

(** With a maximum depth of 0 every prediction is 0, whatever the samples. *)
Theorem C55_depth_refuted : ∃ fsort order g feat label labels t x,
  sorts fsort ∧ sorts_positions order ∧ holds_samples g feat label ∧ 0 < (gr_size g).2 ∧
  apart (length x) (samples_of g feat (int_label label)) ∧
  (∀ r, r < (gr_size g).2 → int_label label r ∈ labels) ∧
  (∃ i u, useful (class_impurity no_log "gini" labels) (samples_of g feat (int_label label)) i u) ∧
  classifier_fit fsort order no_log 20 "gini" 0 labels g = Ok t ∧
  predict_single t x = Ok 0%Z ∧ ∀ r, r < (gr_size g).2 → int_label label r ≠ 0%Z.
Proof.
  exists k_sort, k_order, (c_grid c_mixed), (c_feat c_mixed), (c_label c_mixed), [2; 5]%Z,
    (of_ok (c_fit 0 [2; 5]%Z c_mixed) (zero_node 0%Z)), (map float_of_Z [1; 1]%Z).
  split; [apply k_sort_ok|]. split; [apply k_order_ok|].
  split; [apply c_holds; vm_compute; reflexivity|]. split; [vm_compute; lia|].
  split; [apply apart_check; vm_compute; reflexivity|].
  assert ((gr_size (c_grid c_mixed)).2 = 6) as -> by (vm_compute; reflexivity).
  split; [do 6 (destruct r as [|r]; [intros _; apply label_in; vm_compute; reflexivity|]); lia|].
  split; [exists 0, (c_num 3); apply useful_check; vm_compute; reflexivity|].
  split; [apply okb_eq; vm_compute; reflexivity|].
  split; [vm_compute; reflexivity|].
  do 6 (destruct r as [|r]; [intros _; vm_compute; discriminate|]). lia.
Qed.
Print Assumptions C55_depth_refuted.

(** ** C88: reading the rows *)

(** The problem vector holds, row by row and whatever the order of iteration, the numbers of
    the numeric columns that are no class; the label vectors hold the class column. *)
Theorem C88_rows g feat label : holds_samples g feat label →
  problem_vec g = Ok (map feat (seq 0 (gr_size g).2)) ∧
  label_vec g = Ok (map label (seq 0 (gr_size g).2)) ∧
  int_label_vec g = Ok (map (int_label label) (seq 0 (gr_size g).2)).
Proof.
  intros H. split; [exact (problem_vec_reads g feat (proj1 H))|]. split; [exact (label_vec_reads g feat label H)|].
  exact (int_label_vec_reads g feat label H).
Qed.
Print Assumptions C88_rows.

(** A table with a class that is not numeric, or with two classes, is refused. *)
Theorem C88_refused g : (∀ name prec, gr_class_attrs g ≠ [FloatA name prec]) →
  label_vec g = Err ∧ int_label_vec g = Err.
Proof. exact (label_vec_refuses g). Qed.
Print Assumptions C88_refused.

Example C88_ex : holds_samples (c_grid c_rows) (c_feat c_rows) (c_label c_rows) ∧
  int_label_vec (c_grid c_rows) = Ok [5; 2; 5; 2]%Z ∧
  map (map bits_of_b64) (of_ok (problem_vec (c_grid c_rows)) []) =
    map (map (λ z, bits_of_b64 (float_of_Z z))) [[4; 1]; [1; 7]; [9; 3]; [3; 2]]%Z.
Proof. split; [apply c_holds; vm_compute; reflexivity|]. split; vm_compute; reflexivity. Qed.

(** ** C89: the splits are the best ones *)

(** Every split of a tree lowers the impurity of the samples that reach it, and no other
    split of them gives less. *)
Theorem C89_best fsort order log2 criterion labels md g feat label w fuel t :
  sorts fsort → sorts_positions order → classifies_by log2 criterion →
  holds_samples g feat label → 0 < (gr_size g).2 → (Z.of_nat (gr_size g).2 <= 2 ^ 53)%Z →
  apart w (samples_of g feat (int_label label)) → some_depth md →
  classifier_fit fsort order log2 fuel criterion md labels g = Ok t →
  (∃ i u, useful (class_impurity log2 criterion labels) (samples_of g feat (int_label label)) i u) →
  best_everywhere (class_impurity log2 criterion labels) t (samples_of g feat (int_label label)).
Proof.
  intros H1 H2 H3 H4 H5 H6 H7 H8 H9 H10. apply (classifier_best fsort order log2 criterion labels md g feat label w fuel); try done.
  by apply (classifier_root fsort order log2 criterion labels md g feat label w fuel H1 H2 H3 H4 H5 H6 H7 t H8 H9).
Qed.
Print Assumptions C89_best.

(** The root of the tree for [c_mixed] asks the first feature. *)
Example C89_ex :
  match c_fit (-1) [2; 5]%Z c_mixed with
  | Ok t => (cn_feature t =? 0) && same_bits (cn_threshold t) (middle (c_num 2) (c_num 3)) && (height t =? 2)
  | _ => false
  end = true.
Proof. vm_compute. reflexivity. Qed.

(** ** C90: the depth *)

Theorem C90_classifier fsort order log2 criterion labels md g fuel t :
  (1 <= md)%Z → classifier_fit fsort order log2 fuel criterion md labels g = Ok t →
  (Z.of_nat (height t) <= md)%Z.
Proof. exact (classifier_depth fsort order log2 criterion labels md g fuel t). Qed.
Print Assumptions C90_classifier.

Theorem C90_regressor fsort order criterion md g fuel t :
  (1 <= md)%Z → regressor_fit fsort order fuel criterion md g = Ok t → (Z.of_nat (height t) <= md)%Z.
Proof. exact (regressor_depth fsort order criterion md g fuel t). Qed.
Print Assumptions C90_regressor.

Example C90_ex :
  (height <$> c_fit 1 [2; 5]%Z c_mixed) = Ok 1 ∧ (height <$> c_fit 2 [2; 5]%Z c_mixed) = Ok 2 ∧
  (height <$> c_fit 7 [2; 5]%Z c_mixed) = Ok 2.
Proof. split; [vm_compute; reflexivity|]. split; vm_compute; reflexivity. Qed.

(** ** C91: fitting ends *)

Theorem C91_classifier_partial fsort order log2 criterion labels md g feat label w fuel :
  sorts fsort → sorts_positions order → classifies_by log2 criterion →
  holds_samples g feat label → 0 < (gr_size g).2 → (Z.of_nat (gr_size g).2 <= 2 ^ 53)%Z →
  apart w (samples_of g feat (int_label label)) → (gr_size g).2 < fuel →
  ∃ t, classifier_fit fsort order log2 fuel criterion md labels g = Ok t.
Proof. exact (classifier_fits fsort order log2 criterion labels md g feat label w fuel). Qed.
Print Assumptions C91_classifier_partial.

Theorem C91_regressor_partial fsort order criterion md g feat label w fuel :
  sorts fsort → sorts_positions order → criterion = "mae" ∨ criterion = "mse" →
  holds_samples g feat label → 0 < (gr_size g).2 → (Z.of_nat (gr_size g).2 <= 2 ^ 53)%Z →
  apart w (samples_of g feat label) → (∀ r, r < (gr_size g).2 → is_finite 53 1024 (label r) = true) →
  (gr_size g).2 < fuel →
  ∃ t, regressor_fit fsort order fuel criterion md g = Ok t.
Proof. exact (regressor_fits fsort order criterion md g feat label w fuel). Qed.
Print Assumptions C91_regressor_partial.

(** Sums of finite numbers overflow: the threshold is +Inf, nothing is on its right, and
    the next threshold reads the first of the samples on the right. *)
Definition c_huge : list (Z * Z * Z) := [(10 ^ 308, 0, 1); (15 * 10 ^ 307, 0, 2); (17 * 10 ^ 307, 0, 1)]%Z.

Theorem C91_overflow_refuted : ∃ fsort order g feat label labels,
  sorts fsort ∧ sorts_positions order ∧ holds_samples g feat label ∧ 0 < (gr_size g).2 ∧
  (∀ r, r < (gr_size g).2 → Forall (λ v, is_finite 53 1024 v = true) (feat r)) ∧
  (∀ r, r < (gr_size g).2 → int_label label r ∈ labels) ∧
  classifier_fit fsort order no_log 20 "gini" (-1) labels g = Panic.
Proof.
  exists k_sort, k_order, (c_grid c_huge), (c_feat c_huge), (c_label c_huge), [1; 2]%Z.
  split; [apply k_sort_ok|]. split; [apply k_order_ok|].
  split; [apply c_holds; vm_compute; reflexivity|]. split; [vm_compute; lia|].
  assert ((gr_size (c_grid c_huge)).2 = 3) as -> by (vm_compute; reflexivity).
  split.
  { do 3 (destruct r as [|r]; [intros _; apply Forall_forall; intros v Hv;
      apply elem_of_list_In, (proj1 (forallb_forall (is_finite 53 1024) _)) in Hv; [exact Hv|vm_compute; reflexivity]|]). lia. }
  split; [do 3 (destruct r as [|r]; [intros _; apply label_in; vm_compute; reflexivity|]); lia|].
  vm_compute. reflexivity.
Qed.
Print Assumptions C91_overflow_refuted.

Example C91_ex : okb (c_fit (-1) [2; 5]%Z c_mixed) = true ∧
  okb (regressor_fit k_sort k_order 20 "mse" (-1) (c_grid c_mixed)) = true.
Proof. split; vm_compute; reflexivity. Qed.

(** ** C92: the regressor predicts means *)

(** A tree whose root splits the samples predicts the mean, computed in some order, of the
    targets of the training samples that take the same way; these are not none. *)
Theorem C92_mean_partial fsort order criterion md g feat label w fuel t :
  sorts fsort → sorts_positions order → criterion = "mae" ∨ criterion = "mse" →
  holds_samples g feat label → 0 < (gr_size g).2 → (Z.of_nat (gr_size g).2 <= 2 ^ 53)%Z →
  apart w (samples_of g feat label) → (∀ r, r < (gr_size g).2 → is_finite 53 1024 (label r) = true) →
  regressor_fit fsort order fuel criterion md g = Ok t → cn_needed t = true →
  ∀ x, length x = w → ∃ l ys, predict_single t x = Ok l ∧
    ys ≡ₚ same_way t x (samples_of g feat label) ∧ ys ≠ [] ∧ l = average ys.
Proof. intros H1 H2 H3 H4 H5 H6 H7 H8. exact (regressor_means fsort order criterion md g feat label w fuel H1 H2 H3 H4 H5 H6 H7 H8 t). Qed.
Print Assumptions C92_mean_partial.

(** If the root does not split them, the prediction is 0 for every sample whose first
    feature is not negative. *)
Theorem C92_no_split fsort order criterion md g feat label w fuel t :
  sorts fsort → sorts_positions order → criterion = "mae" ∨ criterion = "mse" →
  holds_samples g feat label → 0 < (gr_size g).2 → (Z.of_nat (gr_size g).2 <= 2 ^ 53)%Z →
  apart w (samples_of g feat label) → (∀ r, r < (gr_size g).2 → is_finite 53 1024 (label r) = true) →
  some_depth md → regressor_fit fsort order fuel criterion md g = Ok t → cn_needed t = false →
  ∀ x v, x !! 0 = Some v → float_lt v float_zero = false → predict_single t x = Ok float_zero.
Proof.
  intros H1 H2 H3 H4 H5 H6 H7 H8 H9. exact (regressor_zero fsort order criterion md g feat label w fuel H1 H2 H3 H4 H5 H6 H7 H8 t H9).
Qed.
Print Assumptions C92_no_split.

Definition c_regress (md : Z) (rows : list (Z * Z * Z)) (x : list Z) : bool → Z → bool := λ needed m,
  match regressor_fit k_sort k_order 20 "mse" md (c_grid rows) with
  | Ok t => match predict_single t (map float_of_Z x) with
            | Ok l => Bool.eqb (cn_needed t) needed && same_bits l (float_of_Z m) | _ => false end
  | _ => false
  end.

Theorem C92_constant_refuted : ∃ fsort order g feat label t x,
  sorts fsort ∧ sorts_positions order ∧ holds_samples g feat label ∧ 0 < (gr_size g).2 ∧
  apart (length x) (samples_of g feat label) ∧
  (∀ r, r < (gr_size g).2 → label r = float_of_Z 5) ∧
  regressor_fit fsort order 20 "mse" (-1) g = Ok t ∧ predict_single t x = Ok float_zero.
Proof.
  exists k_sort, k_order, (c_grid c_pure), (c_feat c_pure), (c_label c_pure),
    (of_ok (regressor_fit k_sort k_order 20 "mse" (-1) (c_grid c_pure)) (zero_node float_zero)),
    (map float_of_Z [1; 1]%Z).
  split; [apply k_sort_ok|]. split; [apply k_order_ok|].
  split; [apply c_holds; vm_compute; reflexivity|]. split; [vm_compute; lia|].
  split; [apply apart_check; vm_compute; reflexivity|].
  assert ((gr_size (c_grid c_pure)).2 = 2) as -> by (vm_compute; reflexivity).
  split; [intros [|[|r]] Hr; [reflexivity..|lia]|].
  split; [apply okb_eq; vm_compute; reflexivity|]. vm_compute. reflexivity.
Qed.
Print Assumptions C92_constant_refuted.

(** Targets 2, 4 and 10, 14: one comparison, and as many as needed. *)
Example C92_ex : c_regress 1 [(1, 0, 2); (2, 0, 4); (9, 0, 10); (10, 0, 14)]%Z [2; 0]%Z true 3 = true ∧
  c_regress 1 [(1, 0, 2); (2, 0, 4); (9, 0, 10); (10, 0, 14)]%Z [7; 0]%Z true 12 = true ∧
  c_regress (-1) [(1, 0, 2); (2, 0, 4); (9, 0, 10); (10, 0, 14)]%Z [7; 0]%Z true 10 = true.
Proof. split; [vm_compute; reflexivity|]. split; vm_compute; reflexivity. Qed.

(** ** C93: predictions and accuracy, row by row *)

Theorem C93_predict {L} (t : cnode L) g feat (p : nat → L) :
  holds_features g feat → (∀ r, r < (gr_size g).2 → predict_single t (feat r) = Ok (p r)) →
  cart_predict t g = Ok (map p (seq 0 (gr_size g).2)).
Proof. exact (predict_rows t g feat p). Qed.
Print Assumptions C93_predict.

(** [Evaluate] counts the rows whose label is predicted. *)
Theorem C93_evaluate (t : cnode Z) g feat label (p : nat → Z) :
  holds_samples g feat label → (∀ r, r < (gr_size g).2 → predict_single t (feat r) = Ok (p r)) →
  classifier_evaluate t g =
    Ok (length (filter (λ r, p r = int_label label r) (seq 0 (gr_size g).2)), (gr_size g).2).
Proof. exact (evaluate_counts t g feat label p). Qed.
Print Assumptions C93_evaluate.

Example C93_ex :
  (t ← c_fit 1 [2; 5]%Z c_mixed; cart_predict t (c_grid c_mixed)) = Ok [2; 2; 5; 5; 5; 5]%Z ∧
  (t ← c_fit 1 [2; 5]%Z c_mixed; classifier_evaluate t (c_grid c_mixed)) = Ok (5, 6).
Proof. split; vm_compute; reflexivity. Qed.

(** ** C94: the Gini impurity *)

(** The computed impurity is within 6 roundings per label of the exact one. *)
Theorem C94_error y labels : y ≠ [] → (Z.of_nat (length y) <= 2 ^ 53)%Z → NoDup labels →
  (Z.of_nat (length labels) <= 2 ^ 49)%Z →
  (Rabs (B2R 53 1024 (gini_impurity y labels) - exact_gini y labels) <=
   6 * INR (length labels) * Raux.bpow Zaux.radix2 (-53))%R.
Proof. intros H1 H2. exact (gini_error y labels H1 H2). Qed.
Print Assumptions C94_error.

(** It is exactly 0 for samples of one label, and only for them: a tree goes on as long as
    samples of different labels come together. *)
Theorem C94_pure y labels : y ≠ [] → (Z.of_nat (length y) <= 2 ^ 53)%Z → (∀ v, v ∈ y → v ∈ labels) →
  (Z.of_nat (length labels) <= 2 ^ 53)%Z →
  (B2R 53 1024 (gini_impurity y labels) = 0%R ↔ ∀ a b, a ∈ y → b ∈ y → a = b).
Proof. intros H1 H2. exact (gini_pure y labels H1 H2). Qed.
Print Assumptions C94_pure.

(** 1/3 of one label, 2/3 of the other. *)
Example C94_ex : exact_gini [2; 5; 5]%Z [2; 5]%Z = (4 / 9)%R ∧ NoDup [2; 5]%Z ∧
  float_lt (gini_impurity [2; 5; 5]%Z [2; 5]%Z) (b64_div mode_NE (c_num 45) (c_num 100)) = true ∧
  float_lt (b64_div mode_NE (c_num 44) (c_num 100)) (gini_impurity [2; 5; 5]%Z [2; 5]%Z) = true ∧
  B2R 53 1024 (gini_impurity [5; 5; 5]%Z [2; 5]%Z) = 0%R.
Proof.
  split; [|split; [|split; [vm_compute; reflexivity|split; [vm_compute; reflexivity|]]]].
  - unfold exact_gini, label_share. cbn [foldr].
    change (length (filter (λ v : Z, v = 2%Z) [2; 5; 5]%Z)) with 1.
    change (length (filter (λ v : Z, v = 5%Z) [2; 5; 5]%Z)) with 2.
    change (length [2; 5; 5]%Z) with 3. cbn. lra.
  - repeat constructor; intros H; inversion H; subst; [inversion H2].
  - apply C94_pure; [done|done| |done|].
    + intros v Hv. assert (v = 5%Z) as -> by (repeat (apply elem_of_cons in Hv as [->|Hv]; [done|]); by apply elem_of_nil in Hv).
      right. left.
    + intros a b Ha Hb. assert (∀ v, v ∈ [5; 5; 5]%Z → v = 5%Z) as H.
      { intros v Hv. repeat (apply elem_of_cons in Hv as [->|Hv]; [done|]). by apply elem_of_nil in Hv. }
      by rewrite (H a), (H b).
Qed.
