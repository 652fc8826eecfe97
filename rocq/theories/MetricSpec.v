(** Vocabulary for the properties of the distance functions. *)
From Coq Require Import Reals.
From Verif Require Import Prelude MetricModel.
From Flocq Require Import IEEE754.BinarySingleNaN IEEE754.Bits IEEE754.Binary.
Local Open Scope nat_scope.

(** A matrix holds as many elements as its shape says. *)
Definition well_formed {A} (x : mx A) : Prop := length (mx_data x) = mx_rows x * mx_cols x.
Definition shaped {A} (r c : nat) (x : mx A) : Prop := mx_rows x = r ∧ mx_cols x = c ∧ well_formed x.

(** The element at position [k], and the sum of [f 0], ..., [f (n - 1)]. *)
Definition el (x : mx R) (k : nat) : R := nth k (mx_data x) 0%R.
Fixpoint total (n : nat) (f : nat → R) : R := match n with 0 => 0%R | S m => (total m f + f m)%R end.

(** [d] is a metric on the matrices of each shape: it returns a number for every two
    matrices of the shape, and these numbers are as in a metric space. *)
Definition is_metric (d : mx R → mx R → res R) : Prop :=
  ∀ r c x y z, shaped r c x → shaped r c y → shaped r c z →
    ∃ dxy dyx dxz dyz, d x y = Ok dxy ∧ d y x = Ok dyx ∧ d x z = Ok dxz ∧ d y z = Ok dyz ∧
      (0 <= dxy)%R ∧ (dxy = 0%R ↔ x = y) ∧ dxy = dyx ∧ (dxz <= dxy + dyz)%R.
