(** Confusion matrices, the metrics computed from them and cross-fold
    validation: package evaluation. *)
From Coq Require Import QArith.
From Verif Require Import Prelude AttrModel StoreModel DenseModel GridModel.
Local Open Scope nat_scope.

(** evaluation/confusion.go:12-13 [ConfusionMatrix].  Go's [int] as [nat]: counts
    only grow from 0 and are bounded by the number of rows. *)
Notation cmatrix := (gmap string (gmap string nat)).

Section with_show.
  (** Formatting of floats, see [attr_decode]. *)
  Variable show : nat → N → string.

  (** evaluation/confusion.go:30-35, the update for one row. *)
  Definition conf_add (m : cmatrix) (r g : string) : cmatrix :=
    match m !! r with
    | Some row => <[r := <[g := default 0 (row !! g) + 1]> row]> m
    | None => <[r := {[g := 1]}]> m
    end.

  (** evaluation/confusion.go:17-38 [GetConfusionMatrix]. *)
  Definition confusion_matrix (ref gen : grid) : res cmatrix :=
    if (gr_size ref).2 =? (gr_size gen).2 then
      res_foldl (λ m i,
        r ← get_class show ref i;
        p ← get_class show gen i;
        Ok (conf_add m r p)) ∅ (seq 0 (gr_size ref).2)
    else Err.
End with_show.

(** [c[r][g]]: a missing row or cell reads as zero. *)
Definition cell (c : cmatrix) (r g : string) : nat :=
  default 0 (default ∅ (c !! r) !! g).

(** A loop adding up [f k]. *)
Definition sum_over (l : list string) (f : string → nat) : nat :=
  foldl (λ acc k, acc + f k) 0 l.

Section with_order.
  (** Go's iteration order over the keys of a map. *)
  Variable ko : list string → list string.

  (** [for k := range m]. *)
  Definition range {V} (m : gmap string V) : list string :=
    ko (map fst (map_to_list m)).

  (** evaluation/confusion.go:42-44 [GetTruePositives].  The float64 results of
      the four counting functions are sums of integers, exact below 2^53; the model
      keeps the integers. *)
  Definition true_positives (class : string) (c : cmatrix) : nat :=
    cell c class class.

  (** evaluation/confusion.go:48-57 [GetFalsePositives]. *)
  Definition false_positives (class : string) (c : cmatrix) : nat :=
    sum_over (range c) (λ k, if bool_decide (k = class) then 0 else cell c k class).

  (** evaluation/confusion.go:61-70 [GetFalseNegatives]. *)
  Definition false_negatives (class : string) (c : cmatrix) : nat :=
    sum_over (range (default ∅ (c !! class)))
      (λ k, if bool_decide (k = class) then 0 else cell c class k).

  (** evaluation/confusion.go:74-88 [GetTrueNegatives]. *)
  Definition true_negatives (class : string) (c : cmatrix) : nat :=
    sum_over (range c) (λ k,
      if bool_decide (k = class) then 0
      else sum_over (range (default ∅ (c !! k)))
             (λ l, if bool_decide (l = class) then 0 else cell c k l)).

  (** Float64 division.  The result is the exact quotient (the code rounds it);
      [None] stands for NaN or an infinity, which is what dividing by zero gives. *)
  Definition quotient (a b : Q) : option Q :=
    if Qeq_bool b 0 then None else Some (a / b)%Q.

  Definition of_nat (n : nat) : Q := inject_Z (Z.of_nat n).

  (** evaluation/confusion.go:92-97 [GetPrecision]. *)
  Definition precision (class : string) (c : cmatrix) : option Q :=
    quotient (of_nat (true_positives class c))
      (of_nat (true_positives class c) + of_nat (false_positives class c)).

  (** evaluation/confusion.go:101-106 [GetRecall]. *)
  Definition recall (class : string) (c : cmatrix) : option Q :=
    quotient (of_nat (true_positives class c))
      (of_nat (true_positives class c) + of_nat (false_negatives class c)).

  (** evaluation/confusion.go:110-114 [GetF1Score]. *)
  Definition f1_score (class : string) (c : cmatrix) : option Q :=
    p ← precision class c; r ← recall class c;
    quotient ((2 # 1) * (p * r)) (p + r).

  (** evaluation/confusion.go:118-130 [GetAccuracy]. *)
  Definition accuracy (c : cmatrix) : option Q :=
    let correct := sum_over (range c) (λ i,
      sum_over (range (default ∅ (c !! i)))
        (λ j, if bool_decide (i = j) then cell c i j else 0)) in
    let total := sum_over (range c) (λ i,
      sum_over (range (default ∅ (c !! i))) (λ j, cell c i j)) in
    quotient (of_nat correct) (of_nat total).

  (** evaluation/confusion.go:134-142 [GetMicroPrecision]. *)
  Definition micro_precision (c : cmatrix) : option Q :=
    let tp := sum_over (range c) (λ k, true_positives k c) in
    let fp := sum_over (range c) (λ k, false_positives k c) in
    quotient (of_nat tp) (of_nat tp + of_nat fp).

  (** evaluation/confusion.go:156-164 [GetMicroRecall]. *)
  Definition micro_recall (c : cmatrix) : option Q :=
    let tp := sum_over (range c) (λ k, true_positives k c) in
    let fn := sum_over (range c) (λ k, false_negatives k c) in
    quotient (of_nat tp) (of_nat tp + of_nat fn).

  (** A loop adding up float64 values: one NaN makes the sum NaN. *)
  Definition sum_over_q (l : list string) (f : string → option Q) : option Q :=
    foldl (λ acc k, s ← acc; x ← f k; Some (s + x)%Q) (Some 0%Q) l.

  (** evaluation/confusion.go:146-152 [GetMacroPrecision]. *)
  Definition macro_precision (c : cmatrix) : option Q :=
    s ← sum_over_q (range c) (λ k, precision k c); quotient s (of_nat (size c)).

  (** evaluation/confusion.go:168-174 [GetMacroRecall]. *)
  Definition macro_recall (c : cmatrix) : option Q :=
    s ← sum_over_q (range c) (λ k, recall k c); quotient s (of_nat (size c)).
End with_order.

(** evaluation/cross_fold.go:10-30 [GetCrossValidatedMetric], on metric values
    that are numbers, with exact instead of rounded arithmetic. *)
Definition cross_validated (metric : cmatrix → Q) (cs : list cmatrix) : option (Q * Q) :=
  let scores := map metric cs in
  let n := of_nat (length scores) in
  mean ← quotient (foldl (λ s x, s + x)%Q 0%Q scores) n;
  variance ← quotient
    (foldl (λ s x, s + (x - mean) * (x - mean))%Q 0%Q scores) n;
  Some (mean, variance).

(** evaluation/cross_fold.go:37-47: [draws i] is the result of the [rand.Intn]
    call for row [i]. *)
Definition fold_map (draws : nat → nat) (rows : nat) : gmap nat (list nat) :=
  foldl (λ m i,
    let m := match m !! draws i with Some _ => m | None => <[draws i := []]> m end in
    <[draws i := default [] (m !! draws i) ++ [i]]> m) ∅ (seq 0 rows).

(** evaluation/cross_fold.go:54: the rows tested in fold [i]. *)
Definition fold_test (m : gmap nat (list nat)) (i : nat) : list nat :=
  default [] (m !! i).

(** evaluation/cross_fold.go:55-61: the rows trained on in fold [i]. *)
Definition fold_train (m : gmap nat (list nat)) (folds i : nat) : list nat :=
  foldl (λ acc j, if i =? j then acc else acc ++ default [] (m !! j)) [] (seq 0 folds).

(** A base.Classifier: state and the effects of Fit and Predict, which may
    return an error. *)
Record classifier (S : Type) : Type := Classifier {
  cl_fit : S → grid → res S;
  cl_predict : S → grid → res (S * grid) }.
Arguments cl_fit {S}.
Arguments cl_predict {S}.

Section cross_fold.
  Context {S : Type} (cls : classifier S).
  Variable show : nat → N → string.
  (** Iteration orders of the maps inside a view, see [view_grid]. *)
  Variables (co : list attr → list attr) (ro : list nat → list nat).

  (** evaluation/cross_fold.go:52-79, one turn of the loop. *)
  Definition cross_fold_step (data : grid) (m : gmap nat (list nat)) (folds : nat)
      (acc : S * list cmatrix) (i : nat) : res (S * list cmatrix) :=
    test ← view_from_visible data (fold_test m i) (gr_all_attrs data);
    train ← view_from_visible data (fold_train m folds i) (gr_all_attrs data);
    s ← cl_fit cls acc.1 (view_grid co ro train);
    sp ← cl_predict cls s (view_grid co ro test);
    cf ← confusion_matrix show (view_grid co ro test) sp.2;
    Ok (sp.1, acc.2 ++ [cf]).

  (** evaluation/cross_fold.go:34-81 [GenerateCrossFoldValidationConfusionMatrices].
      [rand.Intn] panics when [folds] is 0 and there is a row. *)
  Definition cross_fold (data : grid) (s : S) (folds : nat) (draws : nat → nat)
      : res (S * list cmatrix) :=
    let rows := (gr_size data).2 in
    if (folds =? 0) && negb (rows =? 0) then Panic
    else res_foldl (cross_fold_step data (fold_map draws rows) folds) (s, [])
           (seq 0 folds).
End cross_fold.
