(** Model of perceptron/average.go. *)
From Verif Require Import Prelude BytesModel FloatModel AttrModel StoreModel DenseModel GridModel PredModel KnnModel FilterModel.
From Flocq Require Import IEEE754.BinarySingleNaN IEEE754.Bits IEEE754.Binary.
Local Open Scope nat_scope.

(** Go's [>=] on float64. *)
Definition float_ge (a b : binary64) : bool :=
  match b64_compare a b with Some Gt | Some Eq => true | _ => false end.
Definition minus_one : binary64 := b64_of_bits 0xBFF0000000000000.

(** perceptron/average.go:10-20 AveragePerceptron.  Of the training data only the attributes are kept. *)
Record perc := Perc {
  pc_training : option (list attr);
  pc_weights : list binary64;
  pc_edges : list binary64;
  pc_bias : binary64;
  pc_threshold : binary64;
  pc_rate : binary64;
  pc_error : binary64;
  pc_trained : bool;
  pc_count : binary64
}.
Definition with_learned (p : perc) (weights edges : list binary64) (count : binary64) : perc :=
  Perc (pc_training p) weights edges (pc_bias p) (pc_threshold p) (pc_rate p) (pc_error p) (pc_trained p) count.
Definition with_error (p : perc) (e : binary64) : perc :=
  Perc (pc_training p) (pc_weights p) (pc_edges p) (pc_bias p) (pc_threshold p) (pc_rate p) e (pc_trained p) (pc_count p).

(** perceptron/average.go:188-196 [NewAveragePerceptron]; a negative number of features panics. *)
Definition perc_new (features : nat) (rate threshold error : binary64) : perc :=
  Perc None (replicate features float_zero) (replicate features float_zero) threshold rate error float_zero false float_zero.

(** perceptron/average.go:43-52 [average]. *)
Definition perc_average (p : perc) : res perc :=
  w ← res_mapM (λ '(i, fcount),
        wv ← idx (pc_weights p) i;
        Ok (b64_div mode_NE (b64_plus mode_NE (b64_mult mode_NE (pc_count p) wv) fcount) (b64_plus mode_NE fcount float_one)))
      (imap pair (pc_edges p));
  Ok (with_learned p w (pc_edges p) (b64_plus mode_NE (pc_count p) float_one)).

(** perceptron/average.go:29-41 [updateWeights]. *)
Definition perc_update (p : perc) (features : list binary64) (correction : binary64) : res perc :=
  r ← res_mapM (λ '(i, _),
        fv ← idx features i;
        e ← idx (pc_edges p) i;
        Ok (b64_mult mode_NE (b64_mult mode_NE (pc_rate p) correction) fv, b64_plus mode_NE e float_one))
      (imap pair (pc_weights p));
  perc_average (with_learned p (map fst r) (map snd r) (pc_count p)).

(** perceptron/average.go:54-66 [score]. *)
Definition perc_score (p : perc) (features : list binary64) : res binary64 :=
  s ← res_foldl (λ score '(i, wv), f ← idx features i; Ok (b64_plus mode_NE score (b64_mult mode_NE f wv)))
        float_zero (imap pair (pc_weights p));
  Ok (if float_ge s (pc_threshold p) then float_one else minus_one).

Section perceptron.
  (** Formatting of numbers, for GetClass; iteration order of the class attributes. *)
  Variable show : nat → N → string.
  Variable order : list ((nat * nat) * bool) → list ((nat * nat) * bool).

  (** perceptron/average.go:142-186 [processData]: class and features of each row; rows that are not
      visited keep no features. *)
  Definition process_data (x : grid) : res (list (string * list binary64)) :=
    specs ← resolve x (nonclass_float_attrs (gr_all_attrs x) (gr_class_attrs x));
    match gr_class_attrs x with
    | [c] =>
        if match c with CatA _ vs => length vs =? 2 | BinA _ => true | FloatA _ _ => false end
        then
          r ← map_over_rows x specs (λ v row rowno,
                f ← res_mapM unpack_float row;
                class ← get_class show x rowno;
                _ ← idx v rowno;
                Ok (<[rowno := (class, f)]> v, Cont)) (replicate (gr_size x).2 ("", []));
          Ok r.1
        else Panic
    | _ => Panic
    end.

  (** perceptron/average.go:76-85: one epoch. *)
  Definition perc_epoch (p : perc) (data : list (string * list binary64)) : res perc :=
    res_foldl (λ p datum,
      response ← perc_score p datum.2;
      let expected := float_zero in
      let correction := b64_minus mode_NE expected response in
      if negb (float_eq expected response) then
        p ← perc_update p datum.2 correction;
        Ok (with_error p (b64_plus mode_NE (pc_error p) (b64_abs correction)))
      else Ok p) p data.

  (** [MaxEpochs], perceptron/average.go:8. *)
  Definition max_epochs : nat := 10.
  (** The literal 0.1. *)
  Definition tenth : binary64 := b64_of_bits 0x3FB999999999999A.

  (** perceptron/average.go:68-97 [Fit]. *)
  Definition perc_fit (p : perc) (g : grid) : res perc :=
    data ← process_data g;
    p ← res_foldl (λ p _, perc_epoch p data) (with_error p tenth) (seq 0 max_epochs);
    p ← perc_average p;
    Ok (Perc (Some (gr_all_attrs g)) (pc_weights p) (pc_edges p) (pc_bias p) (pc_threshold p) (pc_rate p)
          (pc_error p) true (pc_count p)).

  (** perceptron/average.go:101-140 [Predict]; [Ok None] is a nil result.  [ret.Set] on row 1 for a row
      that scores no more than zero is what the code says. *)
  Definition perc_predict (pg : nat) (p : perc) (what : grid) : res (option dense) :=
    if negb (pc_trained p) then Panic
    else
      data ← process_data what;
      match pc_training p with
      | None => Panic
      | Some training =>
          match check_compatible (gr_all_attrs what) training with
          | None => Ok None
          | Some _ =>
              ret ← prediction_vector pg what;
              c ← idx (class_attrs_in_order ret (order (map_to_list (d_class ret)))) 0;
              match dense_get_attribute ret c with
              | Ok spec =>
                  ret ← res_foldl (λ ret '(i, datum),
                          result ← perc_score p datum.2;
                          if float_gt result float_zero then dense_set ret spec i (pack_u64 1)
                          else dense_set ret spec 1 (replicate 8 0%N))
                        ret (imap pair data);
                  Ok (Some ret)
              | _ => Panic
              end
          end
      end.
End perceptron.
