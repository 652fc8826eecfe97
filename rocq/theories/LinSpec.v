(** Vocabulary for the properties of linear regression. *)
From Coq Require Import Reals.
From Verif Require Import Prelude FloatModel AttrModel StoreModel DenseModel GridModel GridSpec KnnModel MetricModel MetricSpec.
From Flocq Require Import IEEE754.BinarySingleNaN IEEE754.Bits IEEE754.Binary.
Local Open Scope nat_scope.

(** The element in row [i] and column [j]. *)
Definition entry (x : mx R) (i j : nat) : R := el x (i * mx_cols x + j).

(** [q] and [r] are a QR factorisation of the [m] by [n] matrix [x]: the columns of [q] are
    orthonormal, [r] is upper triangular, and their product is [x]. *)
Definition factors (m n : nat) (x q r : mx R) : Prop :=
  shaped m m q ∧ shaped m n r ∧
  (∀ i j, i < m → j < m → total m (λ k, entry q k i * entry q k j)%R = if i =? j then 1%R else 0%R) ∧
  (∀ i j, i < m → j < n → entry x i j = total m (λ k, entry q i k * entry r k j)%R) ∧
  (∀ i j, i < m → j < i → j < n → entry r i j = 0%R).

(** Column [a] of [g] holds the numbers [col]. *)
Definition column_holds (g : grid) (a : attr) (col : nat → binary64) : Prop :=
  ∃ s, gr_get_attribute g a = Ok s ∧
    ∀ r, r < (gr_size g).2 → ∃ raw, gr_get g s r = Ok raw ∧ unpack_float raw = Ok (col r).

(** The explanatory variables: the numeric columns that are no class. *)
Definition explanatory (g : grid) (a : attr) : Prop :=
  a ∈ gr_all_attrs g ∧ is_float a = true ∧ a ∉ gr_class_attrs g.

(** The only class of [g] is [cls], which holds [y], and the explanatory variables hold the
    numbers that [col] says. *)
Definition observations (g : grid) (cls : attr) (y : nat → binary64) (col : attr → nat → binary64) : Prop :=
  iter_agrees g ∧ gr_class_attrs g = [cls] ∧ column_holds g cls y ∧ ∀ a, explanatory g a → column_holds g a (col a).

(** The matrix of the explanatory variables: ones, and a column for each of [attrs]. *)
Definition design (n : nat) (col : attr → nat → binary64) (attrs : list attr) : mx R :=
  MX n (length attrs + 1) (concat (map (λ r, 1%R :: map (λ a, B2R 53 1024 (col a r)) attrs) (seq 0 n))).

(** The prediction of a row: the constant [d] and [w] times the variables. *)
Fixpoint weighted (w : list R) (x : list R) : R :=
  match w, x with a :: w, b :: x => (a * b + weighted w x)%R | _, _ => 0%R end.
Definition fits (col : attr → nat → binary64) (attrs : list attr) (d : R) (w : list R) (r : nat) : R :=
  (d + weighted w (map (λ a, B2R 53 1024 (col a r)) attrs))%R.

(** The sum of the squared errors over the [n] rows. *)
Definition squared_error (n : nat) (y : nat → binary64) (col : attr → nat → binary64) (attrs : list attr) (d : R) (w : list R) : R :=
  total n (λ r, (B2R 53 1024 (y r) - fits col attrs d w r) ^ 2)%R.

(** No explanatory variable is a linear combination of the others and a constant. *)
Definition independent (n : nat) (col : attr → nat → binary64) (attrs : list attr) : Prop :=
  ∀ d w, length w = length attrs → (∀ r, r < n → fits col attrs d w r = 0%R) → d = 0%R ∧ Forall (λ x, x = 0%R) w.
