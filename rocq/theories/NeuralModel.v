(** Model of neural/funcs.go and neural/network.go.  The code is written once over an abstract
    arithmetic, and used with float64 and with the real numbers. *)
From Coq Require Import Reals.
From Verif Require Import Prelude FloatModel MetricModel.
From Flocq Require Import IEEE754.BinarySingleNaN IEEE754.Bits IEEE754.Binary.
Local Open Scope nat_scope.

(** A matrix from its elements, and one whose elements come from a call that may panic. *)
Definition tab {A} (r c : nat) (f : nat → nat → A) : mx A := MX r c (map (λ k, f (k / c) (k mod c)) (seq 0 (r * c))).
Definition tabM {A} (r c : nat) (f : nat → nat → res A) : res (mx A) :=
  d ← res_mapM (λ k, f (k / c) (k mod c)) (seq 0 (r * c)); Ok (MX r c d).
(** gonum's [Set]; out of range panics. *)
Definition mx_set {A} (x : mx A) (i j : nat) (v : A) : res (mx A) :=
  if (i <? mx_rows x) && (j <? mx_cols x) then Ok (MX (mx_rows x) (mx_cols x) (<[i * mx_cols x + j := v]> (mx_data x))) else Panic.

(** neural/neural.go:13-16 [NeuralFunction]. *)
Record nfun (A : Type) := NFun { forward : A → A; backward : A → A }.
Arguments NFun {A}. Arguments forward {A}. Arguments backward {A}.

(** neural/network.go:13-20 [Network]. *)
Record network (A : Type) := Net {
  n_orig : option (mx A);
  n_weights : mx A;
  n_biases : list A;
  n_funcs : list (nfun A);
  n_size : nat;
  n_input : nat
}.
Arguments Net {A}. Arguments n_orig {A}. Arguments n_weights {A}. Arguments n_biases {A}. Arguments n_funcs {A}.
Arguments n_size {A}. Arguments n_input {A}.

Definition with_weights {A} (n : network A) (w : mx A) : network A :=
  Net (n_orig n) w (n_biases n) (n_funcs n) (n_size n) (n_input n).
Definition with_biases {A} (n : network A) (b : list A) : network A :=
  Net (n_orig n) (n_weights n) b (n_funcs n) (n_size n) (n_input n).

Section networks.
  (** The arithmetic; [exp] and [log] are [math.Exp] and [math.Log]; [gt] is [>]; [faint] is the
      literal 0.005. *)
  Context {A : Type} (o : arith A) (exp log : A → A) (gt : A → A → bool) (faint : A).

  (** neural/funcs.go:10-13, 16-19, 23-26.  [-v] is 0 - v. *)
  Definition sigmoid : nfun A :=
    NFun (λ v, a_div o (a_one o) (a_add o (a_one o) (exp (a_sub o (a_zero o) v))))
         (λ v, a_mul o v (a_sub o (a_one o) v)).
  Definition linear : nfun A := NFun (λ v, v) (λ _, a_one o).
  Definition softplus : nfun A :=
    NFun (λ v, log (a_add o (a_one o) (exp v))) (λ v, a_mul o v (a_sub o (a_one o) v)).

  (** neural/network.go:68-72 [GetWeight], 76-80 [SetWeight]: nodes count from one, node 0 (and any
      below, which a natural number cannot name) is out of range. *)
  Definition get_weight (n : network A) (src target : nat) : res A :=
    if (src =? 0) || (target =? 0) then Panic else mx_at (n_weights n) (target - 1) (src - 1).
  Definition set_weight (n : network A) (src target : nat) (v : A) : res (network A) :=
    if (src =? 0) || (target =? 0) then Panic
    else w ← mx_set (n_weights n) (target - 1) (src - 1) v; Ok (with_weights n w).

  (** neural/network.go:83-89 [SetBias], 92-95 [GetBias]. *)
  Definition set_bias (n : network A) (node : nat) (v : A) : res (network A) :=
    if node <=? n_input n then Ok n
    else _ ← idx (n_biases n) (node - 1); Ok (with_biases n (<[node - 1 := v]> (n_biases n))).
  Definition get_bias (n : network A) (node : nat) : res A :=
    if node =? 0 then Panic else idx (n_biases n) (node - 1).

  (** neural/network.go:28-43 [NewNetwork]: gonum refuses matrices without elements. *)
  Definition net_new (size input : nat) (f : nfun A) : res (network A) :=
    if size =? 0 then Panic
    else
      res_foldl (λ n i,
        _ ← idx (n_funcs n) i;
        set_weight (Net (n_orig n) (n_weights n) (n_biases n) (<[i := linear]> (n_funcs n)) (n_size n) (n_input n))
          (i + 1) (i + 1) (a_one o))
      (Net None (tab size size (λ _ _, a_zero o)) (replicate size (a_zero o)) (replicate size f) size input) (seq 0 input).

  (** gonum's [Mul]: element (i, j) sums from the first column of [x] to the last; a zero of [x]
      contributes nothing (blas Dgemm skips it). *)
  Definition mul_at (x y : mx A) (i j : nat) : res A :=
    res_foldl (λ acc k,
      a ← mx_at x i k;
      if a_eqb o a (a_zero o) then Ok acc
      else b ← mx_at y k j; Ok (a_add o acc (a_mul o a b))) (a_zero o) (seq 0 (mx_cols x)).
  Definition mx_mul (x y : mx A) : res (mx A) :=
    if mx_cols x =? mx_rows y then tabM (mx_rows x) (mx_cols y) (mul_at x y) else Panic.

  (** gonum's [Apply]. *)
  Definition mx_apply (f : nat → nat → A → res A) (x : mx A) : res (mx A) :=
    tabM (mx_rows x) (mx_cols x) (λ i j, v ← mx_at x i j; f i j v).

  (** neural/network.go:121-125: one round of [Activate]. *)
  Definition activate_once (n : network A) (x : mx A) : res (mx A) :=
    x ← mx_mul (n_weights n) x;
    x ← mx_apply (λ r _ v, b ← idx (n_biases n) r; Ok (a_add o v b)) x;
    mx_apply (λ r _ v, f ← idx (n_funcs n) r; Ok (forward f v)) x.
  (** neural/network.go:107-126 [Activate]: what the first argument holds afterwards. *)
  Definition activate (n : network A) (x : mx A) (rounds : nat) : res (mx A) :=
    res_foldl (λ x (_ : nat), activate_once n x) x (seq 0 rounds).

  (** neural/network.go:131-150 [UpdateWeights]. *)
  Definition update_weights (n : network A) (out err : mx A) (rate : A) : res (network A) :=
    let orig := default (n_weights n) (n_orig n) in
    w ← mx_apply (λ target source v,
          if target =? source then Ok v
          else
            ow ← mx_at orig target source;
            if gt (a_abs o ow) faint
            then x ← mx_at out source 0; e ← mx_at err target 0; Ok (a_add o v (a_mul o (a_mul o rate x) e))
            else Ok (a_zero o)) (n_weights n);
    Ok (Net (Some orig) w (n_biases n) (n_funcs n) (n_size n) (n_input n)).

  (** neural/network.go:154-163 [UpdateBias]. *)
  Definition update_bias (n : network A) (err : mx A) (rate : A) : res (network A) :=
    b ← res_mapM (λ '(i, b), if i <? n_input n then Ok b
                             else e ← mx_at err i 0; Ok (a_add o b (a_mul o e rate))) (imap pair (n_biases n));
    Ok (with_biases n b).

  (** neural/network.go:175-219 [Error]. *)
  Definition net_error (n : network A) (out err : mx A) (rounds : nat) : res (mx A) :=
    if negb (mx_cols out =? 1) then Panic
    else
      diff ← mx_apply (λ r _ v, f ← idx (n_funcs n) r; Ok (backward f v)) out;
      reverse ← tabM (mx_cols (n_weights n)) (mx_rows (n_weights n)) (λ i j, mx_at (n_weights n) j i);
      r ← res_foldl (λ '(err, ret) i,
            err ← mx_map2 (a_mul o) err diff;
            ret ← mx_map2 (a_add o) ret err;
            if i =? rounds - 1 then Ok (err, ret)
            else err ← mx_mul reverse err; Ok (err, ret))
          (err, tab (mx_rows out) 1 (λ _ _, a_zero o)) (seq 0 rounds);
      Ok r.2.
End networks.

(** The literal 0.005, and [>] on float64 and on the reals. *)
Definition faint64 : binary64 := b64_of_bits 0x3F747AE147AE147B.
Definition gt64 (x y : binary64) : bool := match b64_compare x y with Some Gt => true | _ => false end.
Definition faintR : R := (5 / 1000)%R.
Definition gtR (x y : R) : bool := if Rlt_dec y x then true else false.
