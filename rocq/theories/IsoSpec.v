(** Vocabulary for the properties of isolation forests. *)
From Coq Require Import Reals.
From Verif Require Import Prelude FloatModel GridModel RuleModel CartModel CartSpec IsoModel.
From Flocq Require Import IEEE754.BinarySingleNaN IEEE754.Bits IEEE754.Binary.
Local Open Scope nat_scope.

(** The [i]-th number of [x] is at most [t]. *)
Definition at_most (i : nat) (t : binary64) (x : sample) : bool :=
  match x !! i with Some v => float_le v t | None => false end.

(** [x] and [y] take the same way through the tree. *)
Fixpoint fellows (t : cnode binary64) (x y : sample) : bool :=
  match t with
  | CNode l r threshold feature _ _ _ =>
      Bool.eqb (at_most feature threshold x) (at_most feature threshold y) &&
      match (if at_most feature threshold x then l else r) with
      | None => true
      | Some t => fellows t x y
      end
  end.

(** Number of comparisons made for [x]. *)
Fixpoint steps (t : cnode binary64) (x : sample) : nat :=
  match t with
  | CNode l r threshold feature _ _ _ =>
      S match (if at_most feature threshold x then l else r) with
        | None => 0
        | Some t => steps t x
        end
  end.

(** The sizes noted at the leaves, from left to right. *)
Fixpoint leaf_sizes (t : cnode binary64) : list binary64 :=
  match t with
  | CNode l r _ _ lpred rpred _ =>
      match l with None => [lpred] | Some t => leaf_sizes t end ++
      match r with None => [rpred] | Some t => leaf_sizes t end
  end.

(** All samples have [w] numbers. *)
Definition of_width (w : nat) (data : list sample) : Prop := ∀ x, x ∈ data → length x = w.

(** None of the numbers is NaN. *)
Definition no_nan (data : list sample) : Prop :=
  ∀ x v, x ∈ data → v ∈ x → is_nan 53 1024 v = false.

(** The source draws features of [w] and, at every node, each of them within [tries] draws. *)
Definition fair (w tries : nat) (draw : list bool → nat → nat) : Prop :=
  ∀ path, (∀ k, draw path k < w) ∧ ∀ i, i < w → ∃ k, k < tries ∧ draw path k = i.

(** The average length of a path that isolates one of [n] samples. *)
Definition average_path (n : Z) : R :=
  (2 * (Rpower.ln (IZR (n - 1)) + 0.5772156649) - 2 * IZR (n - 1) / IZR n)%R.

(** [math.Log] is accurate for the positive integers. *)
Definition log_close (log : binary64 → binary64) : Prop :=
  ∀ n, (1 <= n <= 2 ^ 53)%Z → is_finite 53 1024 (log (float_of_Z n)) = true ∧
    (Rabs (B2R 53 1024 (log (float_of_Z n)) - Rpower.ln (IZR n)) <= 1 / 1000)%R.

(** [math.Pow(2, x)] is accurate for [-1000 <= x <= 0]. *)
Definition pow2_close (pow2 : binary64 → binary64) : Prop :=
  ∀ x, is_finite 53 1024 x = true → (-1000 <= B2R 53 1024 x <= 0)%R →
    is_finite 53 1024 (pow2 x) = true ∧
    (Rabs (B2R 53 1024 (pow2 x) - Rpower 2 (B2R 53 1024 x)) <= Rpower 2 (B2R 53 1024 x) / 1000)%R.

(** It does not decrease. *)
Definition pow2_monotone (pow2 : binary64 → binary64) : Prop :=
  ∀ x y, float_le x y = true → float_le (pow2 x) (pow2 y) = true.

(** The numbers of a feature are at most 2^30 in size and, unless equal, 2/1000000 apart. *)
Definition well_spaced (data : list sample) : Prop :=
  ∀ x y i u v, x ∈ data → y ∈ data → x !! i = Some u → y !! i = Some v →
    is_finite 53 1024 u = true ∧ (Rabs (B2R 53 1024 u) <= 2 ^ 30)%R ∧
    (B2R 53 1024 u = B2R 53 1024 v ∨ 2 / 1000000 <= Rabs (B2R 53 1024 u - B2R 53 1024 v))%R.

(** [rand.Float64()] gives numbers from 0 up to, not including, 1. *)
Definition unit_draw (r : binary64) : Prop :=
  is_finite 53 1024 r = true ∧ (0 <= B2R 53 1024 r < 1)%R.

(** The samples of a table: its features followed by the class. *)
Definition whole (feat : nat → sample) (label : nat → binary64) (r : nat) : sample := feat r ++ [label r].

(** The samples given to tree [i]. *)
Definition bag (pick : nat → nat → nat) (feat : nat → sample) (label : nat → binary64) (n i : nat)
    : list sample := map (λ k, whole feat label (pick i k)) (seq 0 n).
