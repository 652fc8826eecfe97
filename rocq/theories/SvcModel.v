(** Model of the parameters of the linear support vector classifiers
    (linear_models/linearsvc.go, logistic.go, util.go, ensemble/multisvc.go).  The solver
    itself (liblinear, in C) is not modelled. *)
From Verif Require Import Prelude FloatModel AttrModel StoreModel DenseModel GridModel Id3Model CartModel.
From Flocq Require Import IEEE754.BinarySingleNaN IEEE754.Bits IEEE754.Binary.
Local Open Scope nat_scope.

(** linear_models/liblinear.go:22-31: the solver numbers of liblinear (linear.h, an enum). *)
Definition L2R_LR : nat := 0.
Definition L2R_L2LOSS_SVC_DUAL : nat := 1.
Definition L2R_L2LOSS_SVC : nat := 2.
Definition L2R_L1LOSS_SVC_DUAL : nat := 3.
Definition L1R_L2LOSS_SVC : nat := 5.
Definition L1R_LR : nat := 6.

(** linear_models/linearsvc.go:30-37 LinearSVCParams. *)
Record svc := SVC {
  sv_solver : nat;
  sv_weights : option (list binary64);
  sv_c : binary64;
  sv_eps : binary64;
  sv_auto : bool;
  sv_dual : bool
}.
Definition with_solver (n : nat) (p : svc) : svc :=
  SVC n (sv_weights p) (sv_c p) (sv_eps p) (sv_auto p) (sv_dual p).
Definition with_dual (b : bool) (p : svc) : svc :=
  SVC (sv_solver p) (sv_weights p) (sv_c p) (sv_eps p) (sv_auto p) b.

(** linear_models/linearsvc.go:40-54 [Copy]. *)
Definition svc_copy (p : svc) : svc :=
  SVC (sv_solver p) (sv_weights p) (sv_c p) (sv_eps p) (sv_auto p) (sv_dual p).

(** linear_models/linearsvc.go:58-102 [SetKindFromStrings]: the parameters afterwards and the error, if
    there is one.  The parameters are changed in place also where an error is returned. *)
Definition set_kind (loss penalty : string) (p : svc) : svc * option string :=
  let p := with_solver 0 p in
  if negb (bool_decide (loss = "l1") || bool_decide (loss = "l2")) then (p, Some "loss must be l1 or l2")
  else
    let '(p, ret, done) :=
      if bool_decide (penalty = "l2") then
        if bool_decide (loss = "l1") then
          let ret := if negb (sv_dual p) then Some "Important: changed to dual form" else None in
          (with_dual true (with_solver L2R_L1LOSS_SVC_DUAL p), ret, false)
        else if sv_dual p then (with_solver L2R_L2LOSS_SVC_DUAL p, None, false)
        else (with_solver L2R_L2LOSS_SVC p, None, false)
      else if bool_decide (penalty = "l1") then
        if bool_decide (loss = "l2") then
          let ret := if sv_dual p then Some "Important: changed to primary form" else None in
          (with_solver L1R_L2LOSS_SVC (with_dual false p), ret, false)
        else (p, Some "Must have L2 loss with L1 penalty", true)
      else (p, Some "Penalty must be l1 or l2", true) in
    if (done : bool) then (p, ret)
    else if sv_solver p =? 0 then (p, Some "Invalid parameter combination")
    else (p, ret).

(** linear_models/linearsvc.go:126-136 [NewLinearSVC] and 140-147 [NewLinearSVCFromParams]: the
    parameters of the classifier; ensemble/multisvc.go:25-42 [NewMultiLinearSVC] is the same
    with a panic instead of the error. *)
Definition new_linear_svc (loss penalty : string) (dual : bool) (C eps : binary64) : res svc :=
  let r := set_kind loss penalty (SVC 0 None C eps false dual) in
  match r.2 with Some _ => Err | None => Ok r.1 end.

(** linear_models/logistic.go:14-28 [NewLogisticRegression]: the solver. *)
Definition new_logistic (penalty : string) : res nat :=
  if bool_decide (penalty = "l2") then Ok L2R_LR
  else if bool_decide (penalty = "l1") then Ok L1R_LR
  else Err.

(** linear_models/util.go:8-19 [generateClassWeightVectorFromDist]. *)
Definition weights_from_dist (half : binary64) (g : grid) : res (list binary64) :=
  dist ← distribution_by_binary_float half g;
  Ok (map (λ c, if c =? 0 then float_one else b64_div mode_NE float_one (float_of_nat c)) dist).

(** linear_models/util.go:21-35 [generateClassWeightVectorFromFixed]. *)
Definition weights_from_fixed (g : grid) : res (list binary64) :=
  match gr_class_attrs g with
  | [FloatA _ _] => Ok [float_one; float_one]
  | _ => Panic
  end.

(** linear_models/linearsvc.go:154-164: the class weights that Fit passes on. *)
Definition class_weights (half : binary64) (p : svc) (g : grid) : res (list binary64) :=
  match sv_weights p with
  | None => if sv_auto p then weights_from_dist half g else weights_from_fixed g
  | Some w => Ok w
  end.

(** ensemble/multisvc.go:45-59: the parameters of the classifier for class [cls]; [ws] is the map of
    weights, [order] its iteration order. *)
Definition multi_params (order : list (string * binary64) → list (string * binary64))
    (p : svc) (weights : option (gmap string binary64)) (cls : string) : svc :=
  let p := svc_copy p in
  let w := match weights with
    | None => None
    | Some ws =>
        let '(w0, w1) := foldl (λ '(w0, w1) kv,
            if bool_decide (kv.1 ≠ cls) then (b64_plus mode_NE w0 kv.2, w1) else (w0, kv.2))
          (float_zero, float_zero) (order (map_to_list ws)) in
        Some [w0; w1]
    end in
  SVC (sv_solver p) w (sv_c p) (sv_eps p) (sv_auto p) (sv_dual p).
