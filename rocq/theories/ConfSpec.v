(** Vocabulary for the properties of confusion matrices. *)
From Coq Require Import QArith.
From Verif Require Import Prelude AttrModel StoreModel DenseModel GridModel GridSpec.
Local Open Scope nat_scope.

(** Row [i] of [g] has class label [c]. *)
Definition labelled (show : nat → N → string) (g : grid) (c : string) (i : nat) : bool :=
  bool_decide (get_class show g i = Ok c).

(** Row [i] has the same class label in both grids. *)
Definition agree (show : nat → N → string) (ref gen : grid) (i : nat) : bool :=
  bool_decide (get_class show ref i = get_class show gen i).

(** The entry of a nested map, zero when missing. *)
Definition entry (c : gmap string (gmap string nat)) (r g : string) : nat :=
  match c !! r with
  | Some row => match row !! g with Some n => n | None => 0 end
  | None => 0
  end.

(** The fraction [a / b]. *)
Definition fraction (a b : nat) : Q := (inject_Z (Z.of_nat a) / inject_Z (Z.of_nat b))%Q.

(** [o] is the number [q]. *)
Definition is_number (o : option Q) (q : Q) : Prop := ∃ x, o = Some x ∧ (x == q)%Q.

Definition in_unit (q : Q) : Prop := (0 <= q)%Q ∧ (q <= 1)%Q.

(** Exact sum and mean of a list of numbers. *)
Definition qsum (l : list Q) : Q := foldr Qplus 0%Q l.
Definition mean_of (l : list Q) : Q := (qsum l / inject_Z (Z.of_nat (length l)))%Q.

(** [ls] lists the class labels of [g], each once. *)
Definition labels_of (show : nat → N → string) (g : grid) (ls : list string) : Prop :=
  NoDup ls ∧ ∀ c, c ∈ ls ↔ ∃ i, i < (gr_size g).2 ∧ get_class show g i = Ok c.
