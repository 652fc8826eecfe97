(** Vocabulary used to state the attribute properties. *)
From Verif Require Import Prelude AttrModel.

(** Relational specification of a split of [l] by a predicate, in order. *)
Inductive splits {A} (P : A → Prop) : list A → list A → list A → Prop :=
| splits_nil : splits P [] [] []
| splits_yes x l l1 l2 : P x → splits P l l1 l2 → splits P (x :: l) (x :: l1) l2
| splits_no x l l1 l2 : ¬ P x → splits P l l1 l2 → splits P (x :: l) l1 (x :: l2).

(** No two attributes of the list are Equal. *)
Definition distinct_attrs (l : list attr) : Prop :=
  ∀ i j a b, l !! i = Some a → l !! j = Some b → attr_equals a b = true → i = j.

