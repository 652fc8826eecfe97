(** Model of linear_models/linear_regression.go.  The code is written once over the abstract
    arithmetic of MetricModel, and used with float64 and with the real numbers. *)
From Coq Require Import Reals.
From Verif Require Import Prelude FloatModel AttrModel StoreModel DenseModel GridModel PredModel KnnModel MetricModel.
From Flocq Require Import IEEE754.BinarySingleNaN IEEE754.Bits IEEE754.Binary.
Local Open Scope nat_scope.

(** linear_models/linear_regression.go:18-24 LinearRegression. *)
Record lin (A : Type) := Lin {
  ln_fitted : bool;
  ln_disturbance : A;
  ln_coef : list A;
  ln_attrs : list attr;
  ln_cls : option attr
}.
Arguments Lin {A}. Arguments ln_fitted {A}. Arguments ln_disturbance {A}. Arguments ln_coef {A}.
Arguments ln_attrs {A}. Arguments ln_cls {A}.

Section linear.
  Context {A : Type} (o : arith A).
  (** What a number read from the data is in the arithmetic. *)
  Variable of_float : binary64 → A.
  (** gonum's [QR.Factorize], [QTo], [RTo]: the two factors. *)
  Variable qr : mx A → mx A * mx A.
  (** The iteration order of the set of attributes in [NonClassAttributes]. *)
  Variable ao : list attr → list attr.

  (** linear_models/linear_regression.go:26-28 [NewLinearRegression]. *)
  Definition lin_new : lin A := Lin false (a_zero o) [] [] None.

  (** linear_models/linear_regression.go:43-49: the numeric attributes that are no class. *)
  Definition lin_attrs (g : grid) : list attr :=
    filter (λ a, is_float a = true)
      (difference_refs (ao (build_attr_set (gr_all_attrs g))) (gr_class_attrs g)).

  (** linear_models/linear_regression.go:62, 66-70: the observed results.  The error MapOverRows may return
      is ignored. *)
  Definition lin_observed (g : grid) (specs : list spec) : res (list A) :=
    r ← map_over_rows g specs (λ v row i,
          x ← (raw ← idx row 0; unpack_float raw);
          _ ← idx v i;
          Ok (<[i := of_float x]> v, Cont)) (replicate (gr_size g).2 (a_zero o));
    Ok r.1.

  (** linear_models/linear_regression.go:63, 73-80: the rows of the explanatory variables. *)
  Definition lin_design (g : grid) (specs : list spec) (cols : nat) : res (list (list A)) :=
    r ← map_over_rows g specs (λ v row i,
          x ← res_mapM unpack_float row;
          _ ← idx v i;
          Ok (<[i := a_one o :: map of_float x]> v, Cont)) (replicate (gr_size g).2 (replicate cols (a_zero o)));
    Ok r.1.

  (** linear_models/linear_regression.go:90-91: the product of the transpose of [q] and the observed
      results (gonum's [Mul]; the order of the additions is taken to be from the first to the
      last element). *)
  Definition q_times (q : mx A) (y : list A) : res (list A) :=
    if mx_rows q =? length y then
      res_mapM (λ i, res_foldl (λ acc kv, qki ← mx_at q kv.1 i; Ok (a_add o acc (a_mul o qki kv.2)))
                       (a_zero o) (imap pair y)) (seq 0 (mx_cols q))
    else Panic.

  (** linear_models/linear_regression.go:95-99: one step of the back substitution. *)
  Definition back_step (qty : list A) (r : mx A) (n : nat) (c : list A) (i : nat) : res (list A) :=
    v ← idx qty i;
    v ← res_foldl (λ v j, cj ← idx c j; rij ← mx_at r i j; Ok (a_sub o v (a_mul o cj rij))) v (seq (S i) (n - S i));
    rii ← mx_at r i i;
    Ok (<[i := a_div o v rii]> c).

  (** linear_models/linear_regression.go:93-100. *)
  Definition back_substitution (qty : list A) (r : mx A) (n : nat) : res (list A) :=
    res_foldl (back_step qty r n) (replicate n (a_zero o)) (rev (seq 0 n)).

  (** linear_models/linear_regression.go:30-108 [Fit]; both errors are [Err].  The receiver is only written
      at the end. *)
  Definition lin_fit (g : grid) : res (lin A) :=
    match gr_class_attrs g with
    | [cls] =>
        cspecs ← resolve g [cls];
        let attrs := lin_attrs g in
        let cols := length attrs + 1 in
        let rows := (gr_size g).2 in
        if rows <? cols then Err
        else
          specs ← resolve g attrs;
          y ← lin_observed g cspecs;
          x ← lin_design g specs cols;
          let '(q, r) := qr (MX rows cols (concat x)) in
          qty ← q_times q y;
          c ← back_substitution qty r cols;
          match c with
          | d :: w => Ok (Lin true d w attrs (Some cls))
          | [] => Panic
          end
    | _ => Err
    end.

  (** linear_models/linear_regression.go:123-126: the prediction for one row. *)
  Definition lin_value (l : lin A) (row : list (list N)) : res A :=
    res_foldl (λ p '(j, raw), x ← unpack_float raw; w ← idx (ln_coef l) j; Ok (a_add o p (a_mul o (of_float x) w)))
      (ln_disturbance l) (imap pair row).

  (** linear_models/linear_regression.go:110-133 [Predict]; [pg] is the page size and [to_float] what is
      stored of a number. *)
  Definition lin_predict (pg : nat) (to_float : A → binary64) (l : lin A) (g : grid) : res dense :=
    if negb (ln_fitted l) then Err
    else
      ret ← prediction_vector pg g;
      specs ← resolve g (ln_attrs l);
      match ln_cls l with
      | None => Panic
      | Some cls =>
          cspec ← dense_get_attribute ret cls;
          r ← map_over_rows g specs (λ ret row i,
                p ← lin_value l row;
                ret ← dense_set ret cspec i (pack_float (to_float p));
                Ok (ret, Cont)) ret;
          Ok r.1
      end.
End linear.
