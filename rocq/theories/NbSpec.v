(** Vocabulary for the properties of the naive Bayes classifier. *)
From Coq Require Import Reals.
From Verif Require Import Prelude FloatModel AttrModel AttrSpec StoreModel DenseModel GridModel GridSpec RuleSpec BagSpec.
From Flocq Require Import Core.Core IEEE754.BinarySingleNaN IEEE754.Bits IEEE754.Binary.
Local Open Scope nat_scope.

(** A byte sequence read as "present" or not. *)
Definition reads_bit (raw : list N) (b : bool) : Prop :=
  ∃ x rest, raw = x :: rest ∧ (b = true ↔ x ≠ 0%N).

(** The row [r] of [g] shows the bits [bit f] under the attributes [attrs]. *)
Definition shows_bits (g : grid) (attrs : list attr) (bits : nat → nat → bool) : Prop :=
  ∃ specs, resolve g attrs = Ok specs ∧
    ∀ r f s, r < (gr_size g).2 → specs !! f = Some s → ∃ raw, gr_get g s r = Ok raw ∧ reads_bit raw (bits r f).

(** [g] is a training set: one class attribute, the other attributes binary; row [r] has the
    class [label r] and the features [bits r]. *)
Definition bernoulli_data (show : nat → N → string) (g : grid) (label : nat → string)
    (bits : nat → nat → bool) : Prop :=
  iter_agrees g ∧ distinct_attrs (gr_all_attrs g) ∧ gr_class_attrs g ⊆ gr_all_attrs g ∧
  length (gr_class_attrs g) = 1 ∧
  (∀ a, a ∈ others g → ∃ name, a = BinA name) ∧
  shows_bits g (others g) bits ∧
  ∀ r, r < (gr_size g).2 → get_class show g r = Ok (label r).

(** The number of rows among the first [rows] of class [c], and of those that have
    feature [f]. *)
Definition in_class (label : nat → string) (rows : nat) (c : string) : nat :=
  length (filter (λ r, label r = c) (seq 0 rows)).
Definition in_class_with (label : nat → string) (bits : nat → nat → bool) (rows : nat) (c : string) (f : nat) : nat :=
  length (filter (λ r, label r = c ∧ bits r f = true) (seq 0 rows)).

(** The float64 closest to a real number. *)
Definition nearest (x : binary64) (r : R) : Prop :=
  is_finite 53 1024 x = true ∧ B2R 53 1024 x = round radix2 (FLT_exp (-1074) 53) ZnearestE r.

(** [n] as a float64 and the quotient of two integers in float64. *)
Definition float_int (n : nat) : binary64 := binary_normalize 53 1024 eq_refl eq_refl mode_NE (Z.of_nat n) 0 false.
Definition ratio (a b : nat) : binary64 := b64_div mode_NE (float_int a) (float_int b).

(** The score of class [c] for the features [bit]: the logarithm of its share of the
    training set, plus the logarithm of the probability of each feature, with the estimates
    (k + 1) / (n + 1); where that is 1 the absence of the feature counts 1 / (n + 1). *)
Definition bernoulli_score (log : binary64 → binary64) (label : nat → string)
    (bits : nat → nat → bool) (rows features : nat) (bit : nat → bool) (c : string) : binary64 :=
  let n := in_class label rows c in
  foldl (λ acc f,
    let k := in_class_with label bits rows c f in
    b64_plus mode_NE acc
      (log (if bit f then ratio (k + 1) (n + 1)
            else if k =? n then ratio 1 (n + 1)
            else b64_minus mode_NE (float_int 1) (ratio (k + 1) (n + 1)))))
    (log (ratio n rows)) (seq 0 features).

(** The logarithm of a number from 0 (excluded) to 1 is a number from -1024 to 0. *)
Definition sane_log (log : binary64 → binary64) : Prop :=
  ∀ x, is_finite 53 1024 x = true → (0 < B2R 53 1024 x <= 1)%R →
    is_finite 53 1024 (log x) = true ∧ (-1024 <= B2R 53 1024 (log x) <= 0)%R.
