(** Vocabulary for the properties of the statistic of ChiMerge. *)
From Coq Require Import QArith Qminmax.
From Verif Require Import Prelude FloatModel FilterModel CartModel.
From Flocq Require Import IEEE754.BinarySingleNaN IEEE754.Bits IEEE754.Binary.
Local Open Scope nat_scope.

(** How many rows of class [c] an interval has, and how many rows. *)
Definition has (e : freq_entry) (c : string) : nat := default 0 (fe_freq e !! c).
Definition rows_in (e : freq_entry) : nat := sum_list (map snd (map_to_list (fe_freq e))).

(** [cs] lists the classes of two intervals. *)
Definition classes_of (e1 e2 : freq_entry) (cs : list string) : Prop :=
  NoDup cs ∧ ∀ c, c ∈ cs ↔ is_Some (fe_freq e1 !! c) ∨ is_Some (fe_freq e2 !! c).

Definition q_sum {A} (f : A → Q) (l : list A) : Q := foldr (λ x s, f x + s)%Q 0%Q l.
Definition q_nat (n : nat) : Q := inject_Z (Z.of_nat n).

(** Rows of class [c] to be expected in [e], were the class independent of the interval. *)
Definition expectation (e1 e2 e : freq_entry) (c : string) : Q :=
  (q_nat (has e1 c + has e2 c) * (q_nat (rows_in e) / q_nat (rows_in e1 + rows_in e2)))%Q.

(** The squared deviation from the expectation, relative to the expectation or to 1/2 where
    less is expected. *)
Definition deviation (e1 e2 e : freq_entry) (c : string) : Q :=
  let x := expectation e1 e2 e c in
  ((q_nat (has e c) - x) * (q_nat (has e c) - x) / Qmax x (1 # 2))%Q.

Definition chi_squared (cs : list string) (e1 e2 : freq_entry) : Q :=
  q_sum (λ c, deviation e1 e2 e1 c + deviation e1 e2 e2 c)%Q cs.

(** [cs] lists the classes of a table. *)
Definition table_classes (freq : list freq_entry) (cs : list string) : Prop :=
  NoDup cs ∧ ∀ c, c ∈ cs ↔ ∃ e, e ∈ freq ∧ is_Some (fe_freq e !! c).

(** No two pairs of neighbours have the same statistic. *)
Definition no_ties (stat : freq_entry → freq_entry → Q) (freq : list freq_entry) : Prop :=
  ∀ i j a b c d, freq !! i = Some a → freq !! S i = Some b → freq !! j = Some c → freq !! S j = Some d →
    (stat a b == stat c d)%Q → i = j.

(** Go's functions, by the special cases and ranges of package math: [Pow(+0, y)] is +Inf
    for negative and +0 for positive finite [y], [Pow(NaN, y)] is NaN if [y] is not 0;
    [Exp(-0) = 1] and [Exp] underflows to 0; [Gamma(0)] is +Inf; powers of 2 are at least 1
    and [Gamma] is at least 1/2 where positive. *)
Definition f_le (a b : binary64) : Prop :=
  match Bcompare 53 1024 a b with Some Lt | Some Eq => True | _ => False end.
Record go_math (pow : binary64 → binary64 → binary64) (exp gamma : binary64 → binary64) : Prop := {
  pow_zero_neg : ∀ y, is_finite 53 1024 y = true → float_lt y (float_of_Z 0) = true →
    pow (float_of_Z 0) y = B754_infinity 53 1024 false;
  pow_zero_pos : ∀ y, is_finite 53 1024 y = true → float_lt (float_of_Z 0) y = true →
    pow (float_of_Z 0) y = float_of_Z 0;
  pow_nan : ∀ x y, is_nan 53 1024 x = true → float_eq y (float_of_Z 0) = false →
    is_nan 53 1024 (pow x y) = true;
  pow_fits : ∀ x y, f_le (float_of_Z 1) x → f_le x (float_of_Z (2 ^ 48)) →
    f_le (float_of_Z 0) y → f_le y (float_of_Z 16) →
    is_finite 53 1024 (pow x y) = true ∧ f_le (float_of_Z 1) (pow x y);
  pow_two : ∀ y, f_le (float_of_Z 0) y → f_le (float_of_Z 1) (pow (float_of_Z 2) y);
  pow_root : f_le (pow (float_of_Z 2) (b64_of_bits 0x3FE0000000000000)) (float_of_Z 2);
  exp_zero : exp (b64_opp (float_of_Z 0)) = float_of_Z 1;
  exp_underflow : ∀ x, f_le x (float_of_Z (-746)) → is_finite 53 1024 x = true → exp x = float_of_Z 0;
  gamma_least : ∀ y, float_lt (float_of_Z 0) y = true → is_finite 53 1024 y = true →
    f_le (b64_of_bits 0x3FE0000000000000) (gamma y);
  gamma_zero : gamma (float_of_Z 0) = B754_infinity 53 1024 false;
  gamma_half : f_le (gamma (b64_of_bits 0x3FE0000000000000)) (float_of_Z 2)
}.

(** A rounding of rationals to floats: not negative for those that are not, and between
    integers where they are. *)
Record rounding (rnd : Q → binary64) : Prop := {
  rnd_positive : ∀ q, (0 <= q)%Q → is_nan 53 1024 (rnd q) = false ∧ Bsign 53 1024 (rnd q) = false;
  rnd_between : ∀ q a b, (Z.abs a <= 2 ^ 53)%Z → (Z.abs b <= 2 ^ 53)%Z →
    (inject_Z a <= q)%Q → (q <= inject_Z b)%Q → f_le (float_of_Z a) (rnd q) ∧ f_le (rnd q) (float_of_Z b)
}.
