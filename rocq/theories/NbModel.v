(** Model of the Bernoulli naive Bayes classifier (naive/bernoulli_nb.go).  Not modelled:
    the structural copy [fitOn], String, GetMetadata, Save, Load. *)
From Verif Require Import Prelude FloatModel AttrModel StoreModel DenseModel GridModel FilterModel PredModel
  CartModel.
From Flocq Require Import IEEE754.BinarySingleNaN IEEE754.Bits IEEE754.Binary.
Local Open Scope nat_scope.

(** naive/bernoulli_nb.go:40-62 BernoulliNBClassifier. *)
Record nb := NB {
  nb_cond : gmap string (list binary64);
  nb_class : gmap string nat;
  nb_training : nat;
  nb_features : nat;
  nb_attrs : list attr
}.

(** naive/bernoulli_nb.go:179-185 [NewBernoulliNBClassifier]. *)
Definition nb_new : nb := NB ∅ ∅ 0 0 [].

(** [v[0] > 0]. *)
Definition is_present (v : list N) : res bool := b ← idx v 0; Ok (0 <? b)%N.

(** naive/bernoulli_nb.go:231-245: counting the features of a row. *)
Definition count_terms (features : nat) (docs : gmap string (list nat)) (class : string)
    (doc : list (list N)) : res (gmap string (list nat)) :=
  res_foldl (λ docs fv,
    p ← is_present fv.2;
    Ok (if p : bool then
          let t := default (replicate features 0) (docs !! class) in
          <[class := alter S fv.1 t]> docs
        else docs)) docs (imap pair doc).

(** Is it a BinaryAttribute? *)
Definition is_binary (a : attr) : bool := match a with BinA _ => true | _ => false end.

Section nb.
  Variable show : nat → N → string.
  (** The iteration order of the map [classInstances]. *)
  Variable ko : list (string * nat) → list (string * nat).

  (** naive/bernoulli_nb.go:189-266 [Fit]. *)
  Definition nb_fit (n : nb) (g : grid) : res nb :=
    let feats := attr_difference (gr_all_attrs g) (gr_class_attrs g) in
    if negb (forallb is_binary feats) then Err
    else
      specs ← resolve g feats;
      if negb (length (gr_class_attrs g) =? 1) then Err
      else
        let features := length feats in
        r ← map_over_rows g specs (λ acc doc r,
              class ← get_class show g r;
              docs ← count_terms features acc.2 class doc;
              Ok ((count_up acc.1 class, docs), Cont))
            ((∅, ∅) : gmap string nat * gmap string (list nat));
        let classes := r.1.1 in
        let docs := r.1.2 in
        cond ← res_foldl (λ cond cn,
            ps ← res_mapM (λ feat,
                   num ← idx (default [] (docs !! cn.1)) feat;
                   Ok (b64_div mode_NE (float_of_nat (num + 1)) (float_of_nat (cn.2 + 1))))
                 (seq 0 features);
            Ok (<[cn.1 := ps]> cond)) (nb_cond n) (ko (map_to_list classes));
        Ok (NB cond classes (gr_size g).2 features feats).

  (** [math.Log]. *)
  Variable log : binary64 → binary64.

  (** naive/bernoulli_nb.go:292-307: the score of a class. *)
  Definition nb_score (n : nb) (vector : list (list N)) (class : string) (count : nat)
      : res binary64 :=
    res_foldl (λ score f,
      v ← idx vector f;
      p ← is_present v;
      c ← idx (default [] (nb_cond n !! class)) f;
      Ok (b64_plus mode_NE score
            (if p : bool then log c
             else if float_eq c float_one
             then log (b64_div mode_NE float_one
                         (float_of_nat (default 0 (nb_class n !! class) + 1)))
             else log (b64_minus mode_NE float_one c))))
      (log (b64_div mode_NE (float_of_nat count) (float_of_nat (nb_training n))))
      (seq 0 (nb_features n)).

  (** [-math.MaxFloat64]. *)
  Definition float_lowest : binary64 := b64_of_bits 0xFFEFFFFFFFFFFFFF.

  (** naive/bernoulli_nb.go:277-315 [PredictOne]. *)
  Definition nb_predict_one (n : nb) (vector : list (list N)) : res string :=
    if nb_features n =? 0 then Panic
    else if negb (length vector =? nb_features n) then Panic
    else
      r ← res_foldl (λ best cn,
            score ← nb_score n vector cn.1 cn.2;
            Ok (if float_gt score best.1 then (score, cn.1) else best))
          (float_lowest, "") (ko (map_to_list (nb_class n)));
      Ok r.2.

  (** [strconv.ParseFloat] and the order of the class attributes (SetClass). *)
  Variable parse : string → option binary64.
  Variable order : list ((nat * nat) * bool) → list ((nat * nat) * bool).

  (** naive/bernoulli_nb.go:321-334 [Predict]. *)
  Definition nb_predict (pg : nat) (n : nb) (what : grid) : res dense :=
    ret ← prediction_vector pg what;
    specs ← resolve what (nb_attrs n);
    r ← map_over_rows what specs (λ ret row i,
          class ← nb_predict_one n row;
          ret ← set_class parse order ret i class;
          Ok (ret, Cont)) ret;
    Ok r.1.
End nb.
