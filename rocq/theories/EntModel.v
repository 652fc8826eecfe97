(** Model of the entropies of trees/entropy.go:165-223 (getSplitEntropyFast, getSplitEntropy
    and getBaseEntropy). *)
From Coq Require Import Reals.
From Verif Require Import Prelude FloatModel FilterModel CartModel.
From Flocq Require Import IEEE754.BinarySingleNaN IEEE754.Bits IEEE754.Binary.
Local Open Scope nat_scope.

(** The arithmetic used. *)
Record log_arith (A : Type) := LogArith {
  la_add : A → A → A; la_sub : A → A → A; la_mul : A → A → A; la_div : A → A → A;
  la_int : nat → A; la_log : A → A
}.
Global Arguments la_add {A} _ _ _. Global Arguments la_sub {A} _ _ _. Global Arguments la_mul {A} _ _ _.
Global Arguments la_div {A} _ _ _. Global Arguments la_int {A} _ _. Global Arguments la_log {A} _ _.

Section entropies.
  Context {A : Type} (ar : log_arith A).

  (** [n / count * math.Log(n / count) / math.Log(2)], the term of trees/entropy.go:180, 183,
      204, 206 and 220. *)
  Definition plogp (n count : A) : A :=
    la_div ar (la_mul ar (la_div ar n count) (la_log ar (la_div ar n count))) (la_log ar (la_int ar 2)).

  (** A loop adding ints: trees/entropy.go:168-172, 193-197 and 216-218. *)
  Definition add_ints (counts : list nat) : nat := foldl (λ count n, count + n) 0 counts.

  (** trees/entropy.go:213-223 [getBaseEntropy], on the counts in the order of iteration. *)
  Definition base_entropy_list (counts : list nat) : A :=
    let count := add_ints counts in
    foldl (λ ret n, la_sub ar ret (plogp (la_int ar n) (la_int ar count))) (la_int ar 0) counts.

  (** trees/entropy.go:174-183 and 199-206: one value of the attribute; [skip] is the check
      of line 179, which getSplitEntropy does not make. *)
  Definition side_entropy (skip : nat → bool) (count : nat) (ret : A) (side : list nat) : A :=
    let total := foldl (λ t n, la_add ar t (la_int ar n)) (la_int ar 0) side in
    let ret := foldl (λ ret n, if skip n then ret
                               else la_sub ar ret (plogp (la_int ar n) (la_int ar count))) ret side in
    la_add ar ret (plogp total (la_int ar count)).

  (** trees/entropy.go:190-209 [getSplitEntropy], on the counts in the order of iteration.
      Simplified: Go may iterate in another order each time; the first two loops add
      integers, in any order alike. *)
  Definition split_entropy_list (sides : list (list nat)) : A :=
    let count := add_ints (concat sides) in
    foldl (side_entropy (λ _, false) count) (la_int ar 0) sides.

  (** trees/entropy.go:165-186 [getSplitEntropyFast]. *)
  Definition fast_entropy (s0 s1 : list nat) : A :=
    let count := add_ints (s0 ++ s1) in
    foldl (side_entropy (λ n, n =? 0) count) (la_int ar 0) [s0; s1].

  (** The two functions on maps; [co] lists the counts and [ao] the values in the order of
      iteration. *)
  Definition base_entropy_of (co : gmap string nat → list nat) (s : gmap string nat) : A :=
    base_entropy_list (co s).
  Definition split_entropy_of (ao : gmap string (gmap string nat) → list string)
      (co : string → gmap string nat → list nat) (s : gmap string (gmap string nat)) : A :=
    split_entropy_list (map (λ v, co v (default ∅ (s !! v))) (ao s)).

  (** trees/gr.go:65-66: the gain and its ratio. *)
  Definition ratio_of (base after : A) : A := la_div ar (la_sub ar base after) after.
End entropies.

(** float64, with [math.Log] as an oracle, and the reals. *)
Definition float_logs (log : binary64 → binary64) : log_arith binary64 :=
  LogArith _ (b64_plus mode_NE) (b64_minus mode_NE) (b64_mult mode_NE) (b64_div mode_NE) float_of_nat log.
Definition real_logs : log_arith R := LogArith _ Rplus Rminus Rmult Rdiv INR ln.
