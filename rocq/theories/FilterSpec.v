(** Vocabulary for the properties of filters. *)
From Verif Require Import Prelude BytesModel FloatModel AttrModel StoreModel DenseModel
  GridModel FilterModel.
From Flocq Require Import IEEE754.Bits IEEE754.Binary.
From Coq Require Import QArith.
Local Open Scope nat_scope.

(** [s] is the spec of a column the filtered data can read. *)
Definition lf_readable (l : lfiltered) (s : spec) : Prop := ∃ o, lf_old l s = Ok o.

(** The filter leaves alone the values of the attribute [a]. *)
Definition leaves_alone (f : filter_t) (a : attr) : Prop :=
  ∀ b, fl_transform f a a b = Ok b.

(** Total of one class over all the entries of a frequency table, and over the
    whole table. *)
Definition class_total (freq : list freq_entry) (c : string) : nat :=
  sum_list (map (λ e, default 0 (fe_freq e !! c)) freq).

(** Strictly increasing boundaries (Go's [<]). *)
Definition boundaries_increase (freq : list freq_entry) : Prop :=
  StronglySorted (λ a b, float_lt (fe_value a) (fe_value b) = true) freq.

(** [xs] is [ys] with some elements left out. *)
Definition boundaries_kept (new old : list freq_entry) : Prop :=
  map fe_value new `sublist_of` map fe_value old.

(** One table is the outcome of merging intervals of another. *)
Definition merged (old new : list freq_entry) : Prop :=
  (∀ c, class_total new c = class_total old c) ∧
  boundaries_kept new old ∧
  fe_value <$> head new = fe_value <$> head old ∧
  length new ≤ length old.

(** The columns a conversion filter generates for an attribute. *)
Definition float_columns (a : attr) : list attr :=
  match a with
  | CatA n vs => if decide (length vs ≤ 2) then [FloatA n 2]
                 else map (λ v, FloatA (n +:+ "_" +:+ v) 2) vs
  | BinA n => [FloatA n 2]
  | FloatA _ _ => [a]
  end.
Definition binary_columns (a : attr) : list attr :=
  match a with
  | CatA n vs => if decide (length vs ≤ 2) then [BinA n]
                 else map (λ v, BinA (n +:+ "_" +:+ v)) vs
  | FloatA n _ => [BinA n]
  | BinA _ => [a]
  end.

(** The statistic of the [i]-th pair of adjacent intervals. *)
Definition stat_at (stat : freq_entry → freq_entry → Q) (freq : list freq_entry) (i : nat) : Q :=
  match freq !! i, freq !! (i + 1) with Some a, Some b => stat a b | _, _ => 0%Q end.

(** The discretised attribute's values are those of the interval's entries: row
    [i] of the training data falls in the entry with an equal value. *)
Definition rows_with (n : nat) (val : nat → binary64) (cls : nat → string) (v : binary64)
    (c : string) : nat :=
  length (filter (λ i, Bcompare 53 1024 v (val i) = Some Eq ∧ cls i = c) (seq 0 n)).

(** An attribute of the source that the filter does not replace. *)
Definition untouched (l : lfiltered) (a : attr) : Prop :=
  a ∈ gr_all_attrs (lf_src l) ∧ ∀ n, (a, n) ∉ fl_attrs (lf_filter l).
