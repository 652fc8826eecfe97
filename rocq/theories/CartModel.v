(** Model of the CART decision trees: trees/cart_utils.go, trees/cart_classifier.go and
    trees/cart_regressor.go.  The classifier and the regressor differ only in the type of
    the labels and in the loss, so the functions they have twice are modelled once. *)
From Verif Require Import Prelude FloatModel AttrModel StoreModel DenseModel GridModel FilterModel
  Id3Model RuleModel.
From Flocq Require Import IEEE754.BinarySingleNaN IEEE754.Bits IEEE754.Binary.
Local Open Scope nat_scope.

Definition float_one : binary64 := b64_of_bits 0x3FF0000000000000.

(** [float64(n)]. *)
Definition float_of_Z (n : Z) : binary64 :=
  binary_normalize 53 1024 eq_refl eq_refl mode_NE n 0 false.
Definition float_of_nat (n : nat) : binary64 := float_of_Z (Z.of_nat n).

(** [int64(x)]: rounding towards zero.  Numbers out of range, for which Go leaves the
    result open, are not treated specially. *)
Definition int_of_float (x : binary64) : Z := Btrunc 53 1024 x.

(** A row of the problem vector. *)
Notation sample := (list binary64).

(** ** trees/cart_utils.go *)

(** trees/cart_utils.go:8-18 [findUnique]: map keys are compared with [==]. *)
Definition find_unique (data : list binary64) : list binary64 :=
  foldl (λ u x, if existsb (λ y, float_eq y x) u then u else u ++ [x]) [] data.

(** trees/cart_utils.go:31-40 [validate].  The tried splits are pairs of feature and
    threshold; the code keeps the feature as a float64, exact below 2^53. *)
Definition validate (tried : list (nat * binary64)) (feature : nat) (threshold : binary64) : bool :=
  forallb (λ s, negb ((s.1 =? feature) && float_eq s.2 threshold)) tried.

(** trees/cart_utils.go:43-65 [convertInstancesToProblemVec], the same as
    trees/cart_regressor.go:365-387 and linear_models/util.go:37-59. *)
Definition problem_vec (g : grid) : res (list sample) :=
  specs ← resolve g (nonclass_float_attrs (gr_all_attrs g) (gr_class_attrs g));
  r ← map_over_rows g specs (λ (v : list sample) row rowno,
        x ← res_mapM unpack_float row;
        Ok (<[rowno := x]> v, Cont)) (replicate (gr_size g).2 []);
  Ok r.1.

(** trees/cart_regressor.go:390-412 [regressorConvertInstancesToLabelVec]. *)
Definition label_vec (g : grid) : res (list binary64) :=
  match gr_class_attrs g with
  | [FloatA name prec] =>
      specs ← resolve g [FloatA name prec];
      r ← map_over_rows g specs (λ (v : list binary64) row rowno,
            raw ← idx row 0;
            x ← unpack_float raw;
            Ok (<[rowno := x]> v, Cont)) (replicate (gr_size g).2 float_zero);
      Ok r.1
  | _ => Err
  end.

(** trees/cart_classifier.go:419-442 [classifierConvertInstancesToLabelVec]. *)
Definition int_label_vec (g : grid) : res (list Z) := map int_of_float <$> label_vec g.

(** ** Trees *)

Section cart.
  (** The labels: int64 in the classifier, float64 in the regressor, with their zero
      value. *)
  Context {L : Type}.
  Variable lzero : L.

  (** Rows of the data with their labels; the code has two slices of the same length. *)
  Notation point := (sample * L)%type.

  (** trees/cart_classifier.go:21-29, trees/cart_regressor.go:22-30. *)
  Inductive cnode :=
  | CNode (left right : option cnode) (threshold : binary64) (feature : nat)
      (llabel rlabel : L) (needed : bool).

  Definition cn_left (t : cnode) := match t with CNode l _ _ _ _ _ _ => l end.
  Definition cn_right (t : cnode) := match t with CNode _ r _ _ _ _ _ => r end.
  Definition cn_threshold (t : cnode) := match t with CNode _ _ x _ _ _ _ => x end.
  Definition cn_feature (t : cnode) := match t with CNode _ _ _ i _ _ _ => i end.
  Definition cn_llabel (t : cnode) := match t with CNode _ _ _ _ l _ _ => l end.
  Definition cn_rlabel (t : cnode) := match t with CNode _ _ _ _ _ r _ => r end.
  Definition cn_needed (t : cnode) := match t with CNode _ _ _ _ _ _ b => b end.

  (** The zero value of a node. *)
  Definition zero_node : cnode := CNode None None float_zero 0 lzero lzero false.

  (** trees/cart_utils.go:21-27 [getFeature]. *)
  Definition get_feature (pts : list point) (feature : nat) : res (list binary64) :=
    res_mapM (λ p, idx p.1 feature) pts.

  (** trees/cart_classifier.go:108-126, trees/cart_regressor.go:98-116 [createSplit]. *)
  Fixpoint create_split (pts : list point) (feature : nat) (threshold : binary64)
      : res (list point * list point) :=
    match pts with
    | [] => Ok ([], [])
    | p :: pts =>
        x ← idx p.1 feature;
        r ← create_split pts feature threshold;
        Ok (if float_lt x threshold then (p :: r.1, r.2) else (r.1, p :: r.2))
    end.

  (** trees/cart_classifier.go:158-168, trees/cart_regressor.go:146-156 [updateSplit]. *)
  Fixpoint update_split (left right : list point) (feature : nat) (threshold : binary64)
      : res (list point * list point) :=
    match right with
    | [] => Panic
    | p :: right' =>
        x ← idx p.1 feature;
        if float_lt x threshold then update_split (left ++ [p]) right' feature threshold
        else Ok (left, right)
    end.

  (** [sort.Float64s] and [sort.Sort] of trees/sorter.go, whose result is the slice of
      indices. *)
  Variable fsort : list binary64 → list binary64.
  Variable order : list binary64 → list nat.

  (** trees/cart_classifier.go:140-155, trees/cart_regressor.go:128-143 [reOrderData]. *)
  Definition reorder (vals : list binary64) (pts : list point) : res (list point) :=
    res_mapM (idx pts) (order vals).

  (** trees/cart_classifier.go:92-105, trees/cart_regressor.go:85-95: the loss of a list of
      labels and the label predicted for it. *)
  Variable loss : list L → res (binary64 * L).

  (** trees/cart_classifier.go:254-255, trees/cart_regressor.go:235-236: the error is
      ignored. *)
  Definition side_loss (y : list L) : res (binary64 * L) :=
    match loss y with Err => Ok (float_zero, lzero) | r => r end.

  (** trees/cart_classifier.go:258, trees/cart_regressor.go:238. *)
  Definition weighted (n : nat) (l1 : binary64) (n1 : nat) (l2 : binary64) (n2 : nat) : binary64 :=
    b64_plus mode_NE (b64_div mode_NE (b64_mult mode_NE l1 (float_of_nat n1)) (float_of_nat n))
                     (b64_div mode_NE (b64_mult mode_NE l2 (float_of_nat n2)) (float_of_nat n)).

  (** The best split so far: bestGini, bestLeft and bestLefty, bestRight and bestRighty,
      the fields Threshold, Feature, LeftLabel, RightLabel of upperNode, bestLeftGini,
      bestRightGini. *)
  Record best := Best {
    be_loss : binary64; be_left : list point; be_right : list point;
    be_threshold : binary64; be_feature : nat; be_llabel : L; be_rlabel : L;
    be_lloss : binary64; be_rloss : binary64
  }.

  (** trees/cart_classifier.go:241-274, trees/cart_regressor.go:224-252: one threshold.
      [None] as the parts is firstTime. *)
  Definition try_threshold (tried : list (nat * binary64)) (n feature : nat) (sorted : list point)
      (threshold : binary64) (st : option (list point * list point) * best)
      : res (option (list point * list point) * best) :=
    if validate tried feature threshold then
      parts ← match st.1 with
              | None => create_split sorted feature threshold
              | Some (pl, pr) => update_split pl pr feature threshold
              end;
      l ← side_loss (map snd parts.1);
      r ← side_loss (map snd parts.2);
      let sub := weighted n l.1 (length parts.1) r.1 (length parts.2) in
      Ok (Some parts,
          if float_lt sub (be_loss st.2)
          then Best sub parts.1 parts.2 threshold feature l.2 r.2 l.1 r.1
          else st.2)
    else Ok st.

  (** trees/cart_classifier.go:237-275, trees/cart_regressor.go:222-253: the thresholds are
      the middles of neighbours. *)
  Fixpoint try_thresholds (tried : list (nat * binary64)) (n feature : nat) (sorted : list point)
      (unique : list binary64) (st : option (list point * list point) * best)
      : res (option (list point * list point) * best) :=
    match unique with
    | x :: (y :: _) as unique =>
        st ← try_threshold tried n feature sorted (middle x y) st;
        try_thresholds tried n feature sorted unique st
    | _ => Ok st
    end.

  (** trees/cart_classifier.go:226-276, trees/cart_regressor.go:211-254: one feature. *)
  Definition try_feature (tried : list (nat * binary64)) (pts : list point) (b : best) (feature : nat)
      : res best :=
    vals ← get_feature pts feature;
    sorted ← reorder vals pts;
    st ← try_thresholds tried (length pts) feature sorted (fsort (find_unique vals)) (None, b);
    Ok st.2.

  (** trees/cart_classifier.go:193-315, trees/cart_regressor.go:180-286 [bestSplit].  Every
      call passes the zero node as upperNode.  [Err] also stands for a recursion deeper
      than [fuel]. *)
  Fixpoint best_split (fuel : nat) (tried : list (nat * binary64)) (pts : list point)
      (max_depth depth : Z) : res cnode :=
    match fuel with
    | 0 => Err
    | S fuel =>
        let depth := (depth + 1)%Z in
        if negb (max_depth =? -1)%Z && (max_depth <? depth)%Z then Ok zero_node else
        p ← idx pts 0;
        o ← loss (map snd pts);
        b ← res_foldl (try_feature tried pts)
              (Best o.1 pts pts float_zero 0 o.2 lzero o.1 o.1) (seq 0 (length p.1));
        let node l r := CNode l r (be_threshold b) (be_feature b) (be_llabel b) (be_rlabel b) in
        if float_eq (be_loss b) o.1 then Ok (node None None false) else
        if float_gt (be_loss b) float_zero then
          let here := [(be_feature b, be_threshold b)] in
          let go_left := float_gt (be_lloss b) float_zero in
          l ← (if go_left
               then t ← best_split fuel (tried ++ here) (be_left b) max_depth depth;
                    Ok (if cn_needed t then Some t else None)
               else Ok None);
          r ← (if float_gt (be_rloss b) float_zero
               then t ← best_split fuel ((if go_left then tried ++ here else tried) ++ here)
                          (be_right b) max_depth depth;
                    Ok (if cn_needed t then Some t else None)
               else Ok None);
          Ok (node l r true)
        else Ok (node None None true)
    end.

  (** trees/cart_classifier.go:358-372, trees/cart_regressor.go:329-343 [predictSingle]. *)
  Fixpoint predict_single (t : cnode) (x : sample) : res L :=
    match t with
    | CNode l r threshold feature llabel rlabel _ =>
        v ← idx x feature;
        if float_lt v threshold
        then match l with None => Ok llabel | Some t => predict_single t x end
        else match r with None => Ok rlabel | Some t => predict_single t x end
    end.

  (** trees/cart_classifier.go:383-390, trees/cart_regressor.go:355-362. *)
  Definition predict_all (t : cnode) (test : list sample) : res (list L) :=
    res_mapM (predict_single t) test.

  (** trees/cart_classifier.go:375-379, trees/cart_regressor.go:347-351 [Predict]. *)
  Definition cart_predict (t : cnode) (g : grid) : res (list L) :=
    test ← problem_vec g; predict_all t test.
End cart.
Arguments cnode L : clear implicits.
Arguments best L : clear implicits.

(** ** The classifier *)

(** trees/cart_classifier.go:43-52 [convertToMap]: the number of labels [l]; absent labels
    read as 0. *)
Definition count_label (y : list Z) (l : Z) : nat := length (filter (λ v, v = l) y).

(** trees/cart_classifier.go:58-64: the label of greatest count, 0 before the loop. *)
Definition mode_label (y labels : list Z) : Z :=
  foldl (λ m l, if count_label y m <? count_label y l then l else m) 0%Z labels.

(** trees/cart_classifier.go:65, 82: the share of a label. *)
Definition share_of (y : list Z) (l : Z) : binary64 :=
  b64_div mode_NE (float_of_nat (count_label y l)) (float_of_nat (length y)).

(** trees/cart_classifier.go:55-69 [computeGiniImpurityAndModeLabel]. *)
Definition gini_impurity (y labels : list Z) : binary64 :=
  foldl (λ g l, let p := share_of y l in
                b64_plus mode_NE g (b64_mult mode_NE p (b64_minus mode_NE float_one p)))
    float_zero labels.

(** trees/cart_classifier.go:72-90 [computeEntropyAndModeLabel]; [log2] is [math.Log2]. *)
Definition entropy_impurity (log2 : binary64 → binary64) (y labels : list Z) : binary64 :=
  foldl (λ e l, let p := share_of y l in
                let lp := if float_eq p float_zero then float_zero else log2 p in
                b64_plus mode_NE e (b64_mult mode_NE (b64_opp p) lp))
    float_zero labels.

(** trees/cart_classifier.go:92-105 [calculateClassificationLoss]. *)
Definition classification_loss (log2 : binary64 → binary64) (criterion : string) (labels y : list Z)
    : res (binary64 * Z) :=
  match y with
  | [] => Err
  | _ =>
      if bool_decide (criterion = "gini") then Ok (gini_impurity y labels, mode_label y labels)
      else if bool_decide (criterion = "entropy")
      then Ok (entropy_impurity log2 y labels, mode_label y labels)
      else Err
  end.

(** trees/cart_classifier.go:172-189 [Fit].  [criterion] is in lower case (line 132). *)
Definition classifier_fit (fsort : list binary64 → list binary64) (order : list binary64 → list nat)
    (log2 : binary64 → binary64) (fuel : nat) (criterion : string) (max_depth : Z) (labels : list Z)
    (g : grid) : res (cnode Z) :=
  data ← problem_vec g;
  y ← int_label_vec g;
  best_split 0%Z fsort order (classification_loss log2 criterion labels) fuel [] (zip data y)
    max_depth 0.

(** trees/cart_classifier.go:395-416 [Evaluate]: the number of right predictions and of
    labels, whose quotient is the accuracy. *)
Definition classifier_evaluate (t : cnode Z) (g : grid) : res (nat * nat) :=
  test ← problem_vec g;
  y ← int_label_vec g;
  preds ← predict_all t test;
  Ok (length (filter (λ p, p.1 = p.2) (zip preds y)), length y).

(** ** The regressor *)

(** trees/cart_regressor.go:43-50 [average]. *)
Definition average (y : list binary64) : binary64 :=
  b64_div mode_NE (foldl (b64_plus mode_NE) float_zero y) (float_of_nat (length y)).

(** trees/cart_regressor.go:53-60 [meanAbsoluteError]. *)
Definition mean_absolute_error (y : list binary64) (c : binary64) : binary64 :=
  b64_div mode_NE (foldl (λ e v, b64_plus mode_NE e (b64_abs (b64_minus mode_NE v c))) float_zero y)
    (float_of_nat (length y)).

(** trees/cart_regressor.go:69-77 [meanSquaredError]; [math.Pow(x, 2)] is [x*x]. *)
Definition mean_squared_error (y : list binary64) (c : binary64) : binary64 :=
  b64_div mode_NE (foldl (λ e v, let d := b64_minus mode_NE v c in
                                 b64_plus mode_NE e (b64_mult mode_NE d d)) float_zero y)
    (float_of_nat (length y)).

(** trees/cart_regressor.go:63-66, 80-95 [calculateRegressionLoss]. *)
Definition regression_loss (criterion : string) (y : list binary64) : res (binary64 * binary64) :=
  if bool_decide (criterion = "mae") then Ok (mean_absolute_error y (average y), average y)
  else if bool_decide (criterion = "mse") then Ok (mean_squared_error y (average y), average y)
  else Panic.

(** trees/cart_regressor.go:160-176 [Fit]. *)
Definition regressor_fit (fsort : list binary64 → list binary64) (order : list binary64 → list nat)
    (fuel : nat) (criterion : string) (max_depth : Z) (g : grid) : res (cnode binary64) :=
  data ← problem_vec g;
  y ← label_vec g;
  best_split float_zero fsort order (regression_loss criterion) fuel [] (zip data y) max_depth 0.
