(** Vocabulary for the properties of fitting mixtures. *)
From Coq Require Import Reals.
From Verif Require Import Prelude FloatModel GridModel MetricSpec.
From Flocq Require Import IEEE754.Bits IEEE754.Binary.
Local Open Scope nat_scope.

(** The [j]th number of an observation, and a mean over observations. *)
Definition at_ (j : nat) (x : list R) : R := nth j x 0%R.
Definition sum_of {X} (f : X → R) (l : list X) : R := fold_right (λ x s, (f x + s)%R) 0%R l.
Definition mean_of {X} (f : X → R) (l : list X) : R := (sum_of f l / INR (length l))%R.

(** The sample covariance of the features [a] and [b]. *)
Definition sample_cov (l : list (list R)) (a b : nat) : R :=
  (sum_of (λ x, (at_ a x - mean_of (at_ a) l) * (at_ b x - mean_of (at_ b) l)) l / (INR (length l) - 1))%R.

(** The covariance of the features [a] and [b] that [c] lists, and whether [c] is that of a proper
    normal distribution of [n] features. *)
Definition cov_at (c : list (list R)) (a b : nat) : R := nth b (nth a c []) 0%R.
Definition pos_def (n : nat) (c : list (list R)) : Prop :=
  (∀ a b, a < n → b < n → cov_at c a b = cov_at c b a) ∧
  ∀ w : nat → R, (∃ a, a < n ∧ w a ≠ 0%R) → (0 < total n (λ a, total n (λ b, w a * cov_at c a b * w b)))%R.

(** Observations with [n] numbers each. *)
Definition observed (n : nat) (x : list (list R)) : Prop := ∀ row, row ∈ x → length row = n.

(** The observations that [y] assigns to component [k]. *)
Definition assigned (x : list (list R)) (y : list nat) (k : nat) : list (list R) :=
  map fst (filter (λ xy, xy.2 = k) (zip x y)).

(** [k] is the first of the most likely components of [x], for the log-densities [fs]. *)
Definition likeliest (fs : list (list R → R)) (x : list R) (k : nat) : Prop :=
  ∃ f, fs !! k = Some f ∧ (∀ j g, fs !! j = Some g → (g x <= f x)%R) ∧ (∀ j g, j < k → fs !! j = Some g → (g x < f x)%R).

(** The covariances of [c] are those of the observations [l]: all of them, or just the variances if
    there are fewer observations than features. *)
Definition covers (n : nat) (l : list (list R)) (c : list (list R)) : Prop :=
  ∀ a b, a < n → b < n →
    cov_at c a b = if (length l <? n) && negb (a =? b) then 0%R else sample_cov l a b.

(** The mean and covariances [c'] of a component with the observations [l], which had [c]: those of
    the observations, but a single observation changes nothing. *)
Definition updated (feats : nat) (l : list (list R)) (c c' : list R * list (list R)) : Prop :=
  l ≠ [] ∧ (length l = 1 → c' = c) ∧
  (1 < length l → length c'.1 = feats ∧ (∀ j, j < feats → at_ j c'.1 = mean_of (at_ j) l) ∧ covers feats l c'.2).

(** The observations of a table whose row [r] has the numbers [feat r]. *)
Definition rows_of (g : grid) (feat : nat → list binary64) : list (list R) :=
  map (λ r, map (B2R 53 1024) (feat r)) (seq 0 (gr_size g).2).
