(** Model of filters/binning.go over the real numbers: rounding, infinities and
    NaN are left out, [math.Floor] is Flocq's [Zfloor]. *)
From Verif Require Import Prelude.
From Coq Require Import Reals.
From Flocq Require Import Core.Raux.
Local Open Scope R_scope.

(** filters/binning.go:48-49: [maxVals] starts at -Inf, [minVals] at +Inf, here
    both [None]. *)
Definition binning_start : option R * option R := (None, None).

(** filters/binning.go:57-62: the callback, for one column; (min, max). *)
Definition binning_step (acc : option R * option R) (val : R) : option R * option R :=
  let '(mn, mx) := acc in
  let mx := match mx with
            | None => Some val
            | Some m => if Rlt_dec m val then Some val else Some m
            end in
  let mn := match mn with
            | None => Some val
            | Some m => if Rlt_dec val m then Some val else Some m
            end in
  (mn, mx).

(** filters/binning.go:40-72 [Train], for one column given as its values. *)
Definition binning_train (column : list R) : option R * option R :=
  foldl binning_step binning_start column.

(** filters/binning.go:76-97 [Transform]: the bin number. *)
Definition binning_transform (mn mx : R) (bins : nat) (val : R) : Z :=
  let delta := (mx - mn) / INR bins in
  if Rle_dec val mn then 0%Z
  else Zfloor ((val - mn) / delta + 1 / 10000).
