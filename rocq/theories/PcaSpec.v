(** Vocabulary for the properties of principal component analysis. *)
From Coq Require Import Reals.
From Verif Require Import Prelude MetricModel MetricSpec LinSpec.
Local Open Scope nat_scope.

(** The vectors [w 0], ..., [w (k - 1)] of length [c] are orthonormal; [w j l] is component [j] of
    vector [l]. *)
Definition orthonormal (c k : nat) (w : nat → nat → R) : Prop :=
  ∀ l m, l < k → m < k → total c (λ j, w j l * w j m)%R = if l =? m then 1%R else 0%R.

(** The thin singular value decomposition of the [r] by [c] matrix [x]: [x] = U S V^T. *)
Definition thin_svd (r c : nat) (x : mx R) (u : nat → nat → R) (s : nat → R) (v : mx R) : Prop :=
  let k := Nat.min r c in
  shaped c k v ∧ orthonormal r k u ∧ orthonormal c k (entry v) ∧
  (∀ i j, i < r → j < c → entry x i j = total k (λ l, u i l * s l * entry v j l)%R) ∧
  (∀ l, l < k → (0 <= s l)%R) ∧ (∀ l m, l <= m → m < k → (s m <= s l)%R).

(** The mean of column [j] of [x], and the elements with it subtracted. *)
Definition column_mean (x : mx R) (j : nat) : R := (total (mx_rows x) (λ i, entry x i j) / INR (mx_rows x))%R.
Definition centred (x : mx R) (i j : nat) : R := (entry x i j - column_mean x j)%R.

Definition centred_matrix (r c : nat) (x x' : mx R) : Prop :=
  shaped r c x' ∧ ∀ i j, i < r → j < c → entry x' i j = centred x i j.

(** The variance of the rows of [x] (times their number) in the direction [w]. *)
Definition spread (x : mx R) (w : nat → R) : R :=
  total (mx_rows x) (λ i, (total (mx_cols x) (λ j, centred x i j * w j)) ^ 2)%R.

(** The numbers of the [n] components asked for that exist; all of them for zero, and for more than
    there are features. *)
Definition component (n : Z) (r c l : nat) : Prop :=
  l < Nat.min r c ∧ (n = 0%Z ∨ (Z.of_nat c < n)%Z ∨ (Z.of_nat l < n)%Z).
