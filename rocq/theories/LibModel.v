(** Model of how LinearSVC and LogisticRegression use liblinear: linear_models/liblinear.go,
    util.go, linearsvc.go, logistic.go, and of [train] and [predict] in linear.cpp except
    for the numerical solvers. *)
From Verif Require Import Prelude FloatModel AttrModel StoreModel DenseModel GridModel Id3Model
  FilterModel PredModel KnnModel CartModel SvcModel.
From Flocq Require Import IEEE754.BinarySingleNaN IEEE754.Bits IEEE754.Binary.
Local Open Scope nat_scope.

(** ** The sparse vectors of liblinear *)

(** linear.h:8-12 struct feature_node: the number of the feature and its value; the
    number -1 ends a vector. *)
Notation node := (Z * binary64)%type.
Notation zero_node := (0%Z, Id3Model.float_zero).

(** [space\[cursor\] = n; cursor++]. *)
Definition put_node (s : list node * nat) (n : node) : res (list node * nat) :=
  if s.2 <? length s.1 then Ok (<[s.2 := n]> s.1, S s.2) else Panic.

(** What liblinear reads at a pointer into [space]; reading past the end is not defined. *)
Fixpoint nodes_from (l : list node) : res (list node) :=
  match l with
  | [] => Panic
  | n :: l => if (n.1 =? -1)%Z then Ok [] else r ← nodes_from l; Ok (n :: r)
  end.
Definition read_nodes (space : list node) (p : nat) : res (list node) := nodes_from (drop p space).

Definition over_zero (x : binary64) : bool := float_gt x Id3Model.float_zero.
Definition not_zero (x : binary64) : bool := negb (float_eq x Id3Model.float_zero).

(** linear_models/liblinear.go:90-115 [convert_vector]. *)
Definition convert_vector (x : list binary64) (bias : binary64) : res (list node) :=
  let n_ele := length (List.filter over_zero x) + 2 in
  s ← res_foldl (λ s iv, if over_zero iv.2 then put_node s (Z.of_nat (iv.1 + 1), iv.2) else Ok s)
        (replicate n_ele zero_node, 0) (imap pair x);
  s ← (if over_zero bias then put_node s zero_node else Ok s);
  s ← put_node s ((-1)%Z, Id3Model.float_zero);
  Ok s.1.

(** linear_models/liblinear.go:120-127: the size of the array for all rows. *)
Definition space_size (X : list (list binary64)) : nat :=
  sum_list (map (λ x, length (List.filter not_zero x) + length x) X) + length X.

(** linear_models/liblinear.go:136-151: one row. *)
Definition put_row (bias : binary64) (s : list node * nat) (x : list binary64)
    : res (list node * nat) :=
  s ← res_foldl (λ s jv,
        s ← (if not_zero jv.2 then put_node s (Z.of_nat (jv.1 + 1), jv.2) else Ok s);
        (if over_zero bias then put_node s (0%Z, bias) else Ok s)) s (imap pair x);
  put_node s ((-1)%Z, Id3Model.float_zero).

(** linear_models/liblinear.go:116-155 [convert_features]: the array and the pointers to
    the rows. *)
Definition convert_features (X : list (list binary64)) (bias : binary64)
    : res (list node * list nat) :=
  r ← res_foldl (λ r x,
        let '(space, cursor, ptrs) := r in
        if cursor <? length space then
          s ← put_row bias (space, cursor) x;
          Ok (s.1, s.2, ptrs ++ [cursor])
        else Panic) (replicate (space_size X) zero_node, 0, []) X;
  let '(space, _, ptrs) := r in
  _ ← idx ptrs 0;
  Ok (space, ptrs).

(** linear.h:14-20 struct problem without its bias, which is -1. *)
Record problem := Problem {
  pb_n : nat;
  pb_y : list binary64;
  pb_space : list node;
  pb_ptrs : list nat
}.

(** linear_models/liblinear.go:45-59 [NewProblem]. *)
Definition new_problem (X : list (list binary64)) (y : list binary64) (bias : binary64)
    : res problem :=
  x0 ← idx X 0;
  s ← convert_features X bias;
  _ ← idx y 0;
  Ok (Problem (length x0 + 1) y s.1 s.2).

(** Row [i] as liblinear reads it. *)
Definition problem_row (p : problem) (i : nat) : res (list node) :=
  q ← idx (pb_ptrs p) i; read_nodes (pb_space p) q.

(** ** Training *)

(** The cast of a double to int rounds towards zero.  Outside of the range of int the
    result is not defined in C; [undef] stands for it. *)
Definition truncate (f : binary64) : option Z :=
  match f with
  | B754_zero _ _ _ => Some 0%Z
  | B754_finite _ _ s m e _ =>
      let v := if (0 <=? e)%Z then (Z.pos m * 2 ^ e)%Z else (Z.pos m / 2 ^ (- e))%Z in
      Some (if s then (- v)%Z else v)
  | _ => None
  end.
Definition to_int (undef : binary64 → Z) (f : binary64) : Z :=
  match truncate f with
  | Some z => if (- 2 ^ 31 <=? z)%Z && (z <? 2 ^ 31)%Z then z else undef f
  | None => undef f
  end.

(** The position of the first occurrence, or the length (linear.cpp:2120-2127, 2340-2342). *)
Fixpoint place (l : list Z) (t : Z) : nat :=
  match l with [] => 0 | x :: l => if (t =? x)%Z then 0 else S (place l t) end.

(** linear.cpp:2106-2159 [group_classes]: the labels of the classes and the class of each
    row. *)
Definition group_classes (undef : binary64 → Z) (y : list binary64) : list Z * list nat :=
  let '(labels, rows) := foldl (λ '(labels, rows) v,
      let t := to_int undef v in
      let j := place labels t in
      (if j =? length labels then labels ++ [t] else labels, rows ++ [j])) ([], []) y in
  if bool_decide (labels = [(-1)%Z; 1%Z]) then ([1%Z; (-1)%Z], map (λ j, if j =? 0 then 1 else 0) rows)
  else (labels, rows).

(** linear.cpp:2161-2172: the rows sorted by class.  The counting sort of the code is
    written as the concatenation of the classes. *)
Definition of_class (rows : list nat) (c : nat) : list nat :=
  List.filter (λ i, bool_decide (rows !! i = Some c)) (seq 0 (length rows)).
Definition class_perm (n : nat) (rows : list nat) : list nat :=
  concat (map (of_class rows) (seq 0 n)).
Definition class_count (rows : list nat) (c : nat) : nat := length (of_class rows c).
Definition class_start (rows : list nat) (c : nat) : nat := sum_list (map (class_count rows) (seq 0 c)).

(** linear.cpp:2334-2347; weight [i] belongs to label [i] (linear_models/linearsvc.go:164-167). *)
Definition weighted_c (C : binary64) (weights : list binary64) (labels : list Z) : list binary64 :=
  foldl (λ l iw,
    let j := place labels (Z.of_nat iw.1) in
    if j =? length labels then l else alter (λ c, b64_mult mode_NE c iw.2) j l)
    (replicate (length labels) C) (imap pair weights).

(** linear.h:40-48 struct model: without its bias, which is -1. *)
Record lmodel := LModel {
  lm_labels : list Z;
  lm_n : nat;
  lm_w : list binary64
}.

Section train.
  Variable undef : binary64 → Z.
  (** linear.cpp:2181-2288 [train_one] for a solver, epsilon and number of features: the
      rows with their sides, the penalties of both sides; the weights of the features. *)
  Variable train_one : list (list node * bool) → binary64 → binary64 → list binary64.

  (** linear.cpp:2293-2427 [train] for the solvers of support vector classification and
      logistic regression other than MCSVM_CS. *)
  Definition train (p : problem) (C : binary64) (weights : list binary64) : res lmodel :=
    let '(labels, rows) := group_classes undef (pb_y p) in
    let nr := length labels in
    let wc := weighted_c C weights labels in
    x ← res_mapM (problem_row p) (class_perm nr rows);
    if nr =? 2 then
      let e0 := class_start rows 0 + class_count rows 0 in
      c0 ← idx wc 0;
      c1 ← idx wc 1;
      Ok (LModel labels (pb_n p) (train_one (imap (λ k r, (r, k <? e0)) x) c0 c1))
    else
      ws ← res_mapM (λ i,
             let si := class_start rows i in
             let ei := si + class_count rows i in
             ci ← idx wc i;
             Ok (train_one (imap (λ k r, (r, (si <=? k) && (k <? ei))) x) ci C)) (seq 0 nr);
      w ← res_mapM (λ jk, wi ← idx ws jk.2; idx wi jk.1)
            (concat (map (λ j, map (pair j) (seq 0 nr)) (seq 0 (pb_n p))));
      Ok (LModel labels (pb_n p) w).

  (** linear_models/util.go:37-59 [convertInstancesToProblemVec];
      base/util_attributes.go:12-32 [NonClassFloatAttributes]. *)
  Definition numeric_attrs (g : grid) : list attr :=
    filter (λ a, is_float a = true ∧ existsb (attr_equals a) (gr_class_attrs g) = false)
      (gr_all_attrs g).
  Definition problem_vec (g : grid) : res (list (list binary64)) :=
    specs ← resolve g (numeric_attrs g);
    r ← map_over_rows g specs (λ v row i,
          x ← res_mapM unpack_float row;
          _ ← idx v i;
          Ok (<[i := x]> v, Cont)) (replicate (gr_size g).2 []);
    Ok r.1.

  (** linear_models/util.go:61-82 [convertInstancesToLabelVec]. *)
  Definition label_vec (g : grid) : res (list binary64) :=
    match gr_class_attrs g with
    | [FloatA name prec] =>
        specs ← resolve g [FloatA name prec];
        r ← map_over_rows g specs (λ v row i,
              x ← (raw ← idx row 0; unpack_float raw);
              _ ← idx v i;
              Ok (<[i := x]> v, Cont)) (replicate (gr_size g).2 Id3Model.float_zero);
        Ok r.1
    | _ => Panic
    end.

  (** What both [Fit] methods pass to liblinear. *)
  Definition grid_problem (g : grid) : res problem :=
    X ← problem_vec g;
    y ← label_vec g;
    new_problem X y Id3Model.float_zero.

  (** linear_models/linearsvc.go:150-184 [LinearSVC.Fit]. *)
  Definition svc_fit (half : binary64) (p : svc) (g : grid) : res lmodel :=
    w ← class_weights half p g;
    prob ← grid_problem g;
    _ ← idx w 0;
    train prob (sv_c p) w.

  (** linear_models/logistic.go:30-36 [LogisticRegression.Fit]. *)
  Definition logistic_fit (C : binary64) (g : grid) : res lmodel :=
    prob ← grid_problem g;
    train prob C [].
End train.

(** ** Predicting *)

(** linear.cpp:2508-2514: the decision value of output [i] of [nr_w]; reading outside of
    the array of weights is not defined. *)
Definition decision (m : lmodel) (nr_w i : nat) (x : list node) : res binary64 :=
  res_foldl (λ acc n,
    if (n.1 <=? Z.of_nat (lm_n m))%Z then
      if (n.1 <? 1)%Z then Panic else
      w ← idx (lm_w m) ((Z.to_nat n.1 - 1) * nr_w + i);
      Ok (b64_plus mode_NE acc (b64_mult mode_NE w n.2))
    else Ok acc) Id3Model.float_zero x.

(** linear.cpp:2488-2543 [predict_values], [predict]. *)
Definition predict_nodes (m : lmodel) (x : list node) : res binary64 :=
  let nr := length (lm_labels m) in
  let nr_w := if nr =? 2 then 1 else nr in
  dec ← res_mapM (λ i, decision m nr_w i x) (seq 0 nr_w);
  if nr =? 2 then
    d ← idx dec 0;
    l ← idx (lm_labels m) (if over_zero d then 0 else 1);
    Ok (float_of_Z l)
  else
    best ← res_foldl (λ b i, di ← idx dec i; db ← idx dec b; Ok (if float_gt di db then i else b))
             0 (seq 1 (nr - 1));
    l ← idx (lm_labels m) best;
    Ok (float_of_Z l).

(** linear_models/liblinear.go:84-89 [Predict]. *)
Definition lib_predict (m : lmodel) (x : list binary64) : res binary64 :=
  v ← convert_vector x Id3Model.float_zero;
  ns ← read_nodes v 0;
  predict_nodes m ns.

(** linear_models/linearsvc.go:187-215 and linear_models/logistic.go:38-65 [Predict], which are the same;
    [None] is a classifier that was not fitted. *)
Definition linear_predict (pg : nat) (m : option lmodel) (g : grid) : res dense :=
  match gr_class_attrs g with
  | [cls] =>
      ret ← prediction_vector pg g;
      cspec ← match dense_get_attribute ret cls with Ok s => Ok s | _ => Panic end;
      specs ← resolve g (numeric_attrs g);
      r ← map_over_rows g specs (λ ret row i,
            x ← res_mapM unpack_float row;
            val ← match m with Some m => lib_predict m x | None => Panic end;
            ret ← dense_set ret cspec i (pack_float val);
            Ok (ret, Cont)) ret;
      Ok r.1
  | _ => Panic
  end.
