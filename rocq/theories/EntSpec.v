(** Vocabulary for the properties of entropies. *)
From Coq Require Import Reals.
From Verif Require Import Prelude FloatModel AttrModel GridModel.
From Flocq Require Import Core.Core IEEE754.BinarySingleNaN IEEE754.Bits IEEE754.Binary.
Local Open Scope nat_scope.

Definition r_sum {A} (f : A → R) (l : list A) : R := foldr (λ x s, f x + s)%R 0%R l.
Definition log2 (x : R) : R := (ln x / ln 2)%R.

Section entropy.
  Context {A : Type} `{!EqDecision A}.
  (** How often [x] occurs in [l], and the share of [l] that is [x]. *)
  Definition occurs (x : A) (l : list A) : nat := length (filter (λ y, y = x) l).
  Definition share (x : A) (l : list A) : R := (INR (occurs x l) / INR (length l))%R.

  (** Shannon entropy, in bits, of a list of labels. *)
  Definition entropy (l : list A) : R :=
    (- r_sum (λ c, share c l * log2 (share c l)) (remove_dups l))%R.
End entropy.

(** Labels of the rows with value [v], for rows given as pairs of value and label. *)
Definition labels_at {A B} `{!EqDecision A} (v : A) (rows : list (A * B)) : list B :=
  map snd (filter (λ r, r.1 = v) rows).

(** Entropy of the labels within each value, averaged over the rows. *)
Definition conditional {A B} `{!EqDecision A, !EqDecision B} (rows : list (A * B)) : R :=
  r_sum (λ v, share v (map fst rows) * entropy (labels_at v rows))%R (remove_dups (map fst rows)).

(** What is known about [math.Log]: the logarithm of +0 is -Inf, those of positive numbers are
    finite and within 4 ulps. *)
Record go_log (log : binary64 → binary64) : Prop := {
  log_zero : log (B754_zero 53 1024 false) = B754_infinity 53 1024 true;
  log_close : ∀ x, is_finite 53 1024 x = true → (0 < B2R 53 1024 x)%R →
    is_finite 53 1024 (log x) = true ∧
    (Rabs (B2R 53 1024 (log x) - ln (B2R 53 1024 x)) <= bpow radix2 (-50) * Rabs (ln (B2R 53 1024 x)))%R
}.

(** [counts] are the numbers of occurrences of the different elements of [l], in some order;
    [sides] those of the labels of the rows with each value. *)
Definition tallies {A} `{!EqDecision A} (l : list A) (counts : list nat) : Prop :=
  counts ≡ₚ map (λ c, occurs c l) (remove_dups l).
Definition tables {A B} `{!EqDecision A, !EqDecision B} (rows : list (A * B)) (sides : list (list nat)) : Prop :=
  ∃ vs, vs ≡ₚ remove_dups (map fst rows) ∧ Forall2 (λ v side, tallies (labels_at v rows) side) vs sides.

(** Orders of iteration. *)
Definition count_order (co : gmap string nat → list nat) : Prop :=
  ∀ m, co m ≡ₚ map snd (map_to_list m).
Definition value_order (ao : gmap string (gmap string nat) → list string) : Prop :=
  ∀ m, ao m ≡ₚ map fst (map_to_list m).

(** Number of different rows and of different values. *)
Definition kinds {A B} `{!EqDecision A, !EqDecision B} (rows : list (A * B)) : nat :=
  length (remove_dups rows) + length (remove_dups (map fst rows)).

(** Quinlan's gain ratio: the gain of information by that about the value. *)
Definition quinlan {A B} `{!EqDecision A, !EqDecision B} (rows : list (A * B)) : R :=
  ((entropy (map snd rows) - conditional rows) / entropy (map fst rows))%R.

(** Attributes that are not numeric. *)
Definition discrete (a : attr) : Prop :=
  match a with FloatA _ _ => False | _ => True end.

(** Rows of values and labels; of whether the value is above [v], and labels. *)
Definition data (n : nat) (value label : nat → string) : list (string * string) :=
  map (λ i, (value i, label i)) (seq 0 n).
Definition cut (n : nat) (val : nat → binary64) (label : nat → string) (v : binary64) : list (bool * string) :=
  map (λ i, (float_gt (val i) v, label i)) (seq 0 n).

(** Bound on the error of an entropy computed by adding [K] terms. *)
Definition slack (K : nat) : R := (INR K * (INR K + 8) * bpow radix2 (-50))%R.
