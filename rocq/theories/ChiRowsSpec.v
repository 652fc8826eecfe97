(** Vocabulary for the intervals of a ChiMerge table. *)
From Verif Require Import Prelude FloatModel FilterModel.
From Flocq Require Import IEEE754.Bits IEEE754.Binary.
Local Open Scope nat_scope.

(** The number lies in interval [j]: not below its boundary, and below the next. *)
Definition in_interval (table : list freq_entry) (j : nat) (v : binary64) : bool :=
  match table !! j with
  | Some e => negb (float_lt v (fe_value e)) &&
      match table !! S j with Some e' => float_lt v (fe_value e') | None => true end
  | None => false
  end.
