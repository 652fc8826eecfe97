(** Model of metrics/pairwise.  The code is written once over an abstract arithmetic, and
    used with the float64 arithmetic that the code has and with the real numbers. *)
From Coq Require Import Reals.
From Verif Require Import Prelude FloatModel.
From Flocq Require Import IEEE754.BinarySingleNaN IEEE754.Bits IEEE754.Binary.
Local Open Scope nat_scope.

Record arith (A : Type) := Arith {
  a_zero : A; a_one : A;
  a_add : A → A → A; a_sub : A → A → A; a_mul : A → A → A; a_div : A → A → A;
  a_abs : A → A; a_sqrt : A → A; a_max : A → A → A; a_eqb : A → A → bool
}.
Arguments Arith {A}. Arguments a_zero {A}. Arguments a_one {A}. Arguments a_add {A}. Arguments a_sub {A}.
Arguments a_mul {A}. Arguments a_div {A}. Arguments a_abs {A}. Arguments a_sqrt {A}. Arguments a_max {A}. Arguments a_eqb {A}.

(** [math.Max] (Go standard library): NaN and the infinities first, then +0 above -0. *)
Definition float_max (x y : binary64) : binary64 :=
  match x, y with
  | B754_infinity _ _ false, _ => x
  | _, B754_infinity _ _ false => y
  | B754_nan _ _ _ _ _, _ => x
  | _, B754_nan _ _ _ _ _ => y
  | B754_zero _ _ sx, B754_zero _ _ _ => if sx then y else x
  | _, _ => match b64_compare x y with Some Gt => x | _ => y end
  end.

(** The float64 arithmetic: every operation rounds to nearest, ties to even. *)
Definition float64 : arith binary64 :=
  Arith (B754_zero 53 1024 false) (b64_of_bits 0x3FF0000000000000)
        (b64_plus mode_NE) (b64_minus mode_NE) (b64_mult mode_NE) (b64_div mode_NE)
        b64_abs (b64_sqrt mode_NE) float_max
        (λ x y, match b64_compare x y with Some Eq => true | _ => false end).

(** The real numbers. *)
Definition reals : arith R :=
  Arith 0%R 1%R Rplus Rminus Rmult Rdiv Rabs R_sqrt.sqrt Rmax (λ x y, if Req_EM_T x y then true else false).

(** gonum's [mat.Dense]: the elements row by row.  Only well-formed matrices are built. *)
Record mx (A : Type) := MX { mx_rows : nat; mx_cols : nat; mx_data : list A }.
Arguments MX {A}. Arguments mx_rows {A}. Arguments mx_cols {A}. Arguments mx_data {A}.

(** [r1 != r2 || c1 != c2]. *)
Definition same_shape {A} (x y : mx A) : bool := (mx_rows x =? mx_rows y) && (mx_cols x =? mx_cols y).

(** [m.At(i, j)]; out of range panics. *)
Definition mx_at {A} (x : mx A) (i j : nat) : res A :=
  if (i <? mx_rows x) && (j <? mx_cols x) then idx (mx_data x) (i * mx_cols x + j) else Panic.

(** The positions of the two nested loops, in order. *)
Definition cells {A} (x : mx A) : list (nat * nat) :=
  concat (map (λ i, map (λ j, (i, j)) (seq 0 (mx_cols x))) (seq 0 (mx_rows x))).

Section metrics.
  Context {A : Type} (o : arith A).

  (** gonum's [Sub], [MulElem] into an empty receiver, and [mat.Sum]: element by element,
      panicking where the shapes differ; the sum runs row by row. *)
  Definition mx_map2 (f : A → A → A) (x y : mx A) : res (mx A) :=
    if same_shape x y then Ok (MX (mx_rows x) (mx_cols x) (zip_with f (mx_data x) (mx_data y))) else Panic.
  Definition mx_sum (x : mx A) : A := foldl (a_add o) (a_zero o) (mx_data x).

  (** metrics/pairwise/euclidean.go:16-23 [InnerProduct]; the same as metrics/pairwise/cosine.go:16-22 [Dot]. *)
  Definition inner_product (x y : mx A) : res A := m ← mx_map2 (a_mul o) x y; Ok (mx_sum m).

  (** metrics/pairwise/euclidean.go:26-33 [Distance]. *)
  Definition euclidean (x y : mx A) : res A :=
    d ← mx_map2 (a_sub o) x y;
    r ← inner_product d d;
    Ok (a_sqrt o r).

  (** metrics/pairwise/manhattan.go:18-33 [Distance]. *)
  Definition manhattan (x y : mx A) : res A :=
    if negb (same_shape x y) then Panic
    else res_foldl (λ acc ij,
           p ← mx_at x ij.1 ij.2; q ← mx_at y ij.1 ij.2;
           Ok (a_add o acc (a_abs o (a_sub o p q)))) (a_zero o) (cells x).

  (** metrics/pairwise/chebyshev.go:16-32 [Distance]. *)
  Definition chebyshev (x y : mx A) : res A :=
    if negb (same_shape x y) then Panic
    else res_foldl (λ acc ij,
           p ← mx_at x ij.1 ij.2; q ← mx_at y ij.1 ij.2;
           Ok (a_max o acc (a_abs o (a_sub o p q)))) (a_zero o) (cells x).

  (** metrics/pairwise/cranberra.go:16-21 [cranberraDistanceStep]. *)
  Definition cranberra_step (num denom : A) : A :=
    if a_eqb o num (a_zero o) && a_eqb o denom (a_zero o) then a_zero o else a_div o num denom.

  (** metrics/pairwise/cranberra.go:23-45 [Distance]. *)
  Definition cranberra (x y : mx A) : res A :=
    if negb (same_shape x y) then Panic
    else res_foldl (λ acc ij,
           p ← mx_at x ij.1 ij.2; q ← mx_at y ij.1 ij.2;
           Ok (a_add o acc (cranberra_step (a_abs o (a_sub o p q)) (a_add o (a_abs o p) (a_abs o q)))))
         (a_zero o) (cells x).

  (** metrics/pairwise/cosine.go:26-34 [Distance]. *)
  Definition cosine (x y : mx A) : res A :=
    dot ← inner_product x y;
    xx ← inner_product x x;
    yy ← inner_product y y;
    Ok (a_sub o (a_one o) (a_div o dot (a_mul o (a_sqrt o xx) (a_sqrt o yy)))).

  (** gonum's [ColView(0)] and [mat.Dot]: the first column; lengths that differ panic.  The
      order of the additions in the dot product is taken to be from the first to the last
      element (the assembly routine of gonum uses several partial sums). *)
  Definition column0 (x : mx A) : res (list A) :=
    if mx_cols x =? 0 then Panic else res_mapM (λ i, mx_at x i 0) (seq 0 (mx_rows x)).
  Definition dot (u v : list A) : res A :=
    if length u =? length v then Ok (foldl (a_add o) (a_zero o) (zip_with (a_mul o) u v)) else Panic.

  (** metrics/pairwise/poly_kernel.go:20-27 [InnerProduct]; [pow] is [math.Pow]. *)
  Definition poly_kernel (pow : A → Z → A) (degree : Z) (x y : mx A) : res A :=
    u ← column0 x; v ← column0 y;
    r ← dot u v;
    Ok (pow (a_add o r (a_one o)) degree).

  (** metrics/pairwise/poly_kernel.go:30-36 [Distance]. *)
  Definition poly_distance (pow : A → Z → A) (degree : Z) (x y : mx A) : res A :=
    d ← mx_map2 (a_sub o) x y;
    r ← poly_kernel pow degree d d;
    Ok (a_sqrt o r).

  (** metrics/pairwise/rbf_kernel.go:20-27 [InnerProduct]: [exp] is [math.Exp]; [math.Pow(d, 2)] is d * d
      and [-gamma] is 0 - gamma. *)
  Definition rbf_kernel (exp : A → A) (gamma : A) (x y : mx A) : res A :=
    d ← euclidean x y;
    Ok (exp (a_mul o (a_sub o (a_zero o) gamma) (a_mul o d d))).
End metrics.
