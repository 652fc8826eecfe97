(** What discretising a table means. *)
From Coq Require Import Reals.
From Verif Require Import Prelude FloatModel AttrModel DenseModel GridModel.
From Flocq Require Import IEEE754.Bits IEEE754.Binary.
Local Open Scope nat_scope.

(** [g] has the column [a], which holds the finite number [vals r] in row [r]. *)
Definition holds_column (g : grid) (a : attr) (vals : nat → binary64) : Prop :=
  ∃ s, gr_get_attribute g a = Ok s ∧ sp_attr s = a ∧
    ∀ r, r < (gr_size g).2 → is_finite 53 1024 (vals r) = true ∧
      ∃ raw, gr_get g s r = Ok raw ∧ unpack_float raw = Ok (vals r).

(** [mn] and [mx] are the least and the greatest number of the first [rows] rows. *)
Definition extremes (rows : nat) (vals : nat → binary64) (mn mx : binary64) : Prop :=
  (∃ r, r < rows ∧ vals r = mn) ∧ (∃ r, r < rows ∧ vals r = mx) ∧
  ∀ r, r < rows → (B2R 53 1024 mn <= B2R 53 1024 (vals r) <= B2R 53 1024 mx)%R.

(** The range from [mn] to [mx] can be divided in binary64: it is no less than 2^-900 and
    does not overflow. *)
Definition sane_range (mn mx : binary64) : Prop :=
  is_finite 53 1024 mn = true ∧ is_finite 53 1024 mx = true ∧
  (/ IZR (2 ^ 900) <= B2R 53 1024 mx - B2R 53 1024 mn < IZR (2 ^ 1023))%R.

(** How many widths of a bin the number [v] lies above the least number. *)
Definition widths_above (mn mx : binary64) (bins : Z) (v : binary64) : R :=
  ((B2R 53 1024 v - B2R 53 1024 mn) / ((B2R 53 1024 mx - B2R 53 1024 mn) / IZR bins))%R.

(** Labels [show (edge i)] for [i] from 0 to [bins] are all different. *)
Definition distinct_labels (label : nat → string) (bins : Z) : Prop :=
  ∀ i j, (Z.of_nat i <= bins)%Z → (Z.of_nat j <= bins)%Z → label i = label j → i = j.
