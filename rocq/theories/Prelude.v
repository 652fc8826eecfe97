(** Shared vocabulary of the model: outcomes of Go calls and a few list
    helpers.  No code of /repo is modelled here. *)
From stdpp Require Export prelude list gmap numbers strings sorting.
From Coq Require Export ZifyBool ZifyNat ZifyN Lia.

(** Outcome of a Go call: normal return, a non-nil [error] result, or a
    run-time panic (explicit [panic], index out of range, failed type
    assertion). *)
Inductive res (A : Type) : Type :=
| Ok (a : A)
| Err
| Panic.
Arguments Ok {A} a.
Arguments Err {A}.
Arguments Panic {A}.

Global Instance res_ret : MRet res := @Ok.
Global Instance res_bind : MBind res := λ A B f m,
  match m with Ok a => f a | Err => Err | Panic => Panic end.
Global Instance res_fmap : FMap res := λ A B f m,
  match m with Ok a => Ok (f a) | Err => Err | Panic => Panic end.

Global Instance res_eq_dec `{EqDecision A} : EqDecision (res A).
Proof. solve_decision. Defined.

(** A Go slice/array index: out of range panics. *)
Definition idx {A} (l : list A) (i : nat) : res A :=
  match l !! i with Some x => Ok x | None => Panic end.

(** [mapM] in the [res] monad, left to right. *)
Fixpoint res_mapM {A B} (f : A → res B) (l : list A) : res (list B) :=
  match l with
  | [] => Ok []
  | x :: l => y ← f x; ys ← res_mapM f l; Ok (y :: ys)
  end.

(** Left fold in the [res] monad: a Go [for] loop whose body may panic. *)
Fixpoint res_foldl {A B} (f : B → A → res B) (b : B) (l : list A) : res B :=
  match l with
  | [] => Ok b
  | x :: l => b' ← f b x; res_foldl f b' l
  end.
