(** Vocabulary for the properties of the classifiers that use liblinear. *)
From Verif Require Import Prelude FloatModel AttrModel StoreModel DenseModel GridModel GridSpec
  KnnModel CartModel LinSpec LibModel.
From Flocq Require Import IEEE754.BinarySingleNaN IEEE754.Bits IEEE754.Binary.
Local Open Scope nat_scope.

Definition plus_zero : binary64 := B754_zero 53 1024 false.

Definition is_zero (f : binary64) : bool :=
  match f with B754_zero _ _ _ => true | _ => false end.
(** Greater than zero; NaN is not. *)
Definition is_positive (f : binary64) : bool :=
  match f with B754_finite _ _ false _ _ _ | B754_infinity _ _ false => true | _ => false end.

(** The features that are not zero with their numbers, counted from 1. *)
Definition sparse (x : list binary64) : list (Z * binary64) :=
  List.filter (λ n, negb (is_zero n.2)) (imap (λ j v, (Z.of_nat (S j), v)) x).

(** The explanatory variables in the order of the table. *)
Definition in_table_order (g : grid) (attrs : list attr) : Prop :=
  ∃ keep : attr → bool, attrs = List.filter keep (gr_all_attrs g) ∧
    ∀ a, keep a = true ↔ is_float a = true ∧ ∀ b, b ∈ gr_class_attrs g → attr_equals a b = false.

(** The penalty of the rows with label [l]: weight [l] times [C], or [C] if there is no
    such weight. *)
Definition penalty (C : binary64) (weights : list binary64) (l : Z) : binary64 :=
  if (l <? 0)%Z then C
  else match weights !! Z.to_nat l with Some w => b64_mult mode_NE C w | None => C end.

(** [m] is what the solver makes of [n] rows with labels: each call gets all rows, in some
    order, with the rows of its class on the positive side. *)
Record trained (train_one : list (list (Z * binary64) * bool) → binary64 → binary64 → list binary64)
    (n : nat) (row : nat → list binary64) (label : nat → Z) (C : binary64) (weights : list binary64)
    (m : lmodel) : Prop := {
  tr_labels : ∀ z, z ∈ lm_labels m ↔ ∃ r, r < n ∧ label r = z;
  tr_distinct : NoDup (lm_labels m);
  tr_weights : ∃ order, order ≡ₚ seq 0 n ∧
    let side l := map (λ r, (sparse (row r), bool_decide (label r = l))) order in
    (∀ l0 l1, lm_labels m = [l0; l1] →
       lm_w m = train_one (side l0) (penalty C weights l0) (penalty C weights l1)) ∧
    (length (lm_labels m) ≠ 2 → ∀ i l j, lm_labels m !! i = Some l → j < lm_n m →
       lm_w m !! (j * length (lm_labels m) + i) = train_one (side l) (penalty C weights l) C !! j)
}.

(** Whole numbers as labels. *)
Definition whole_labels (n : nat) (y : nat → binary64) (label : nat → Z) : Prop :=
  ∀ r, r < n → y r = float_of_Z (label r) ∧ (- 2 ^ 31 <= label r < 2 ^ 31)%Z.

(** The solver finds a weight for each of [k] features. *)
Definition solves (k : nat) (train_one : list (list (Z * binary64) * bool) → binary64 → binary64 → list binary64) : Prop :=
  ∀ rows cp cn, length (train_one rows cp cn) = k.

(** The sum of the weights times the values that are not zero, from left to right. *)
Fixpoint score (w x : list binary64) (sum : binary64) : binary64 :=
  match w, x with
  | u :: w, v :: x => score w x (if is_zero v then sum else b64_plus mode_NE sum (b64_mult mode_NE u v))
  | _, _ => sum
  end.

(** Two rows with the same positive values. *)
Definition same_positive (x x' : list binary64) : Prop :=
  Forall2 (λ a b, a = b ∨ is_positive a = false ∧ is_positive b = false) x x'.


(** [a] is greater than [b]; false when one of them is NaN. *)
Definition exceeds (a b : binary64) : Prop := Bcompare 53 1024 a b = Some Gt.
Definition nan (f : binary64) : Prop := is_nan 53 1024 f = true.

(** The number of vectors of weights: one for two classes, else one for each class. *)
Definition outputs (m : lmodel) : nat :=
  if length (lm_labels m) =? 2 then 1 else length (lm_labels m).
(** The weights of the features for output [i]. *)
Definition output_weights (m : lmodel) (i : nat) : list binary64 :=
  map (λ j, nth (j * outputs m + i) (lm_w m) plus_zero) (seq 0 (lm_n m)).
Definition complete (m : lmodel) : Prop :=
  lm_labels m ≠ [] ∧ length (lm_w m) = lm_n m * outputs m.

(** [l] is the label for the scores: for two classes the first one if the score is
    positive, else the first class with the highest score. *)
Definition chosen (m : lmodel) (s : nat → binary64) (l : Z) : Prop :=
  (∀ l0 l1, lm_labels m = [l0; l1] → l = if is_positive (s 0) then l0 else l1) ∧
  (length (lm_labels m) ≠ 2 → ∃ b, lm_labels m !! b = Some l ∧
     ∀ j, j < length (lm_labels m) → ¬ exceeds (s j) (s b) ∧ (j < b → exceeds (s b) (s j))).
