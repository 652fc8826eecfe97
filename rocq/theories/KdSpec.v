(** Vocabulary for the properties of k-d trees. *)
From Coq Require Import QArith.
From Verif Require Import Prelude KdModel.
Local Open Scope nat_scope.

(** A sorting procedure: rearranges its input so that keys ascend; nothing is said
    about the order of equal keys. *)
Definition sorts (sorter : (nat → Q) → list nat → list nat) : Prop :=
  ∀ key l, sorter key l ≡ₚ l ∧ StronglySorted (λ a b, key a <= key b)%Q (sorter key l).

(** The source rows stored in a tree. *)
Fixpoint rows_of (t : kd) : list nat :=
  match t with
  | KLeaf _ r => [r]
  | KNil => []
  | KNode _ _ r a b => r :: rows_of a ++ rows_of b
  end.

(** The nodes without a row. *)
Fixpoint gaps (t : kd) : nat :=
  match t with KLeaf _ _ => 0 | KNil => 1 | KNode _ _ _ a b => gaps a + gaps b end.

(** Coordinate [f] of row [r]. *)
Definition has_coord (data : list (list Q)) (r f : nat) (x : Q) : Prop :=
  ∃ v, data !! r = Some v ∧ v !! f = Some x.

(** Every node carries the values of its row; left of an inner node the split
    coordinate is at most the node's, right of it greater. *)
Fixpoint search_tree (data : list (list Q)) (t : kd) : Prop :=
  match t with
  | KLeaf v r => data !! r = Some v
  | KNil => True
  | KNode f v r a b =>
      data !! r = Some v ∧
      (∃ x, v !! f = Some x ∧
         (∀ s, s ∈ rows_of a → ∃ y, has_coord data s f y ∧ (y <= x)%Q) ∧
         (∀ s, s ∈ rows_of b → ∃ y, has_coord data s f y ∧ (x < y)%Q)) ∧
      search_tree data a ∧ search_tree data b
  end.

(** All rows have [d] features. *)
Definition rectangular_data (data : list (list Q)) (d : nat) : Prop :=
  ∀ v, v ∈ data → length v = d.

(** The distance from a point to a point beyond a plane is at least the distance
    to the plane, measured on the coordinate alone. *)
Definition plane_bound (dist : list Q → list Q → Q) (d : nat) : Prop :=
  ∀ t w f tf wf v, length t = d → length w = d → t !! f = Some tf → w !! f = Some wf →
    (tf <= v ∧ v <= wf ∨ wf <= v ∧ v <= tf)%Q → (dist [tf] [v] <= dist t w)%Q.

(** [out] is in ascending order and holds the [k] smallest of [items]. *)
Definition k_smallest (k : nat) (items out : list (Q * nat)) : Prop :=
  length out = k ∧ StronglySorted (λ x y, x.1 <= y.1)%Q out ∧
  ∃ rest, items ≡ₚ out ++ rest ∧ ∀ x y, x ∈ out → y ∈ rest → (x.1 <= y.1)%Q.

(** [out] lists [k] distinct rows with their distances, in ascending order, and no
    other row is closer. *)
Definition nearest (dist : list Q → list Q → Q) (data : list (list Q)) (target : list Q)
    (k : nat) (out : list (Q * nat)) : Prop :=
  length out = k ∧ NoDup (map snd out) ∧
  (∀ l r, (l, r) ∈ out → ∃ v, data !! r = Some v ∧ l = dist target v) ∧
  StronglySorted (λ x y, x.1 <= y.1)%Q out ∧
  ∀ r v, data !! r = Some v → r ∉ map snd out →
    ∀ x, x ∈ out → (x.1 <= dist target v)%Q.
