(** Model of filters/chimerge_funcs.go:44-157: the statistic of ChiMerge and the test of its
    significance.  The procedure that uses them is in FilterModel. *)
From Coq Require Import Reals QArith Qminmax.
From Verif Require Import Prelude FloatModel AttrModel StoreModel DenseModel GridModel FilterModel CartModel.
From Flocq Require Import IEEE754.BinarySingleNaN IEEE754.Bits IEEE754.Binary.
Local Open Scope nat_scope.

(** filters/chimerge_funcs.go:87-95 [chiCountClasses]. *)
Definition count_classes (freq : list freq_entry) : gmap string nat :=
  foldl (λ m e, freq_union m (fe_freq e)) ∅ freq.

(** A sum of ints over the entries of a map (filters/chimerge_funcs.go:111-116). *)
Definition observations (m : gmap string nat) : nat :=
  foldl (λ s kv, s + kv.2) 0 (map_to_list m).

Definition q_of (n : nat) : Q := inject_Z (Z.of_nat n).

(** filters/chimerge_funcs.go:122-131: what is expected of a class in an entry of [n] out of
    [total] observations.  Exact here, rounded there. *)
Definition expected (count n total : nat) : Q := q_of count * q_of n / q_of total.

(** filters/chimerge_funcs.go:136-143 (and 146-153): the part of one class. *)
Definition chi_term (freq : gmap string nat) (e : Q) (k : string) : Q :=
  let num := (q_of (default 0%nat (freq !! k)) - e)%Q in
  let den := if negb (Qle_bool (1 # 2) e) then 1 # 2 else e in
  (num * num / den)%Q.

(** filters/chimerge_funcs.go:97-157 [chiComputeStatistic], exactly, where the code rounds.
    [ko1] and [ko2] are the iteration orders of lines 135 and 145. *)
Definition chi_statistic (ko1 ko2 : list string → list string) (e1 e2 : freq_entry) : Q :=
  let counter := freq_union (fe_freq e1) (fe_freq e2) in
  let n1 := observations (fe_freq e1) in
  let n2 := observations (fe_freq e2) in
  let keys := map fst (map_to_list counter) in
  let exp1 k := expected (default 0%nat (counter !! k)) n1 (n1 + n2) in
  let exp2 k := expected (default 0%nat (counter !! k)) n2 (n1 + n2) in
  foldl (λ s k, s + chi_term (fe_freq e2) (exp2 k) k)%Q
    (foldl (λ s k, s + chi_term (fe_freq e1) (exp1 k) k)%Q 0%Q (ko1 keys)) (ko2 keys).

(** The arithmetic the next two functions use. *)
Record arith (A : Type) := Arith {
  ar_add : A → A → A; ar_sub : A → A → A; ar_mul : A → A → A; ar_div : A → A → A; ar_neg : A → A;
  ar_less : A → A → bool; ar_lit : Z → A;
  ar_pow : A → A → A; ar_exp : A → A; ar_gamma : A → A
}.
Global Arguments ar_add {A} _ _ _. Global Arguments ar_sub {A} _ _ _. Global Arguments ar_mul {A} _ _ _.
Global Arguments ar_div {A} _ _ _. Global Arguments ar_neg {A} _ _. Global Arguments ar_less {A} _ _ _.
Global Arguments ar_lit {A} _ _. Global Arguments ar_pow {A} _ _ _. Global Arguments ar_exp {A} _ _.
Global Arguments ar_gamma {A} _ _.

(** The indexes [start], [start + step], ... of a loop of [n] turns. *)
Definition every (start step n : nat) : list nat := map (λ j, start + step * j) (seq 0 n).

Section quadrature.
  Context {A : Type} (ar : arith A).
  Notation "x + y" := (ar_add ar x y). Notation "x - y" := (ar_sub ar x y).
  Notation "x * y" := (ar_mul ar x y). Notation "x / y" := (ar_div ar x y). Notation "# z" := (ar_lit ar z%Z) (at level 1).

  (** filters/chimerge_funcs.go:44-51 [chiSquaredPdf]. *)
  Definition pdf_of (k x : A) : A :=
    if ar_less ar x #0 then #0 else
    let top := ar_pow ar x (k / #2 - #1) * ar_exp ar (ar_neg ar x / #2) in
    let bottom := ar_pow ar #2 (k / #2) * ar_gamma ar (k / #2) in
    top / bottom.

  (** A sum from 0.0 on. *)
  Definition sum_of (l : list A) : A := foldl (ar_add ar) #0 l.

  (** filters/chimerge_funcs.go:53-85 [chiSquaredPercentile] with its 32 steps, for any density.
      The loops of lines 72, 76 and 80 stop before 127, 125 and 128. *)
  Definition percentile_of (pdf : A → A) (x : A) : A :=
    let w := x / #128 in
    let value i := pdf (w * #(Z.of_nat i)) in
    let ret1 := value 0 + value 128 in
    let ret2 := sum_of (map value (every 2 4 32)) in
    let ret3 := sum_of (map value (every 4 4 31)) in
    let ret4 := sum_of (map value (every 1 2 64)) in
    (#2 * w / #45) * (#7 * ret1 + #12 * ret2 + #14 * ret3 + #32 * ret4).
End quadrature.

(** The code computes in float64; in exact arithmetic it is the same with real numbers. *)
Definition floats (pow : binary64 → binary64 → binary64) (exp gamma : binary64 → binary64) : arith binary64 :=
  Arith _ (b64_plus mode_NE) (b64_minus mode_NE) (b64_mult mode_NE) (b64_div mode_NE) b64_opp float_lt float_of_Z
    pow exp gamma.
Definition reals (gamma : R → R) : arith R :=
  Arith _ Rplus Rminus Rmult Rdiv Ropp (λ x y, if Rlt_dec x y then true else false) IZR Rpower Rtrigo_def.exp gamma.

Section percentile.
  (** [math.Pow], [math.Exp] and [math.Gamma]. *)
  Variable pow : binary64 → binary64 → binary64.
  Variable exp gamma : binary64 → binary64.

  Definition chi_pdf (k x : binary64) : binary64 := pdf_of (floats pow exp gamma) k x.
  Definition add_all (l : list binary64) : binary64 := foldl (b64_plus mode_NE) (float_of_Z 0) l.
  Definition chi_percentile (k : Z) (x : binary64) : binary64 :=
    percentile_of (floats pow exp gamma) (chi_pdf (float_of_Z k)) x.

  (** filters/chimerge.go:70 and 97-101: whether the least statistic [v] calls for a merge,
      [freq] being the first table.  [rnd] is the rounding of the statistic to a float, and
      a significance of 0 is taken as 10 (lines 57-59). *)
  Definition chi_significant (rnd : Q → binary64) (sig : binary64) (freq : list freq_entry) (v : Q) : bool :=
    let sig := if float_eq sig (float_of_Z 0) then float_of_Z 10 else sig in
    float_lt (chi_percentile (Z.of_nat (size (count_classes freq)) - 1) (rnd v)) sig.
End percentile.

(** The same in exact arithmetic, for [k] degrees of freedom. *)
Definition exact_percentile (gamma : R → R) (k : Z) (x : R) : R :=
  percentile_of (reals gamma) (pdf_of (reals gamma) (IZR k)) x.
