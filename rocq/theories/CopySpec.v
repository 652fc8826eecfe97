(** Vocabulary used to state the properties of copies. *)
From Verif Require Import Prelude BytesModel AttrModel StoreModel DenseModel DenseSpec GridModel AttrSpec.
Local Open Scope nat_scope.

(** What is in a cell of an attribute has the form that the storage for it gives back. *)
Definition cell_of (a : attr) (v : list N) : Prop :=
  match a with BinA _ => v = [0%N] ∨ v = [1%N] | _ => length v = 8 end.

(** The attributes of [g] can be told apart, its class attributes are among them, and
    all its cells can be read. *)
Record regular (g : grid) : Prop := {
  rg_distinct : distinct_attrs (gr_all_attrs g);
  rg_class : ∀ a, a ∈ gr_class_attrs g → a ∈ gr_all_attrs g;
  rg_cells : ∀ a, a ∈ gr_all_attrs g → ∃ s, gr_get_attribute g a = Ok s ∧
    ∀ i, i < (gr_size g).2 → ∃ v, gr_get g s i = Ok v ∧ cell_of a v
}.

(** [d] has the attributes and class attributes of [g]. *)
Definition same_structure (g : grid) (d : dense) : Prop :=
  dense_all_attrs d ≡ₚ gr_all_attrs g ∧
  ∀ a, a ∈ gr_all_attrs g → ∃ s, dense_get_attribute d a = Ok s ∧ sp_attr s = a ∧
    (d_class d !! (sp_pond s, sp_pos s) = Some true ↔ a ∈ gr_class_attrs g).

(** [d] has the rows of [g], cell by cell. *)
Definition same_cells (g : grid) (d : dense) : Prop :=
  (dense_size d).2 = (gr_size g).2 ∧
  ∀ a s s' i, a ∈ gr_all_attrs g → gr_get_attribute g a = Ok s → dense_get_attribute d a = Ok s' →
    i < (gr_size g).2 → dense_get d s' i = gr_get g s i.

(** Of a history of AddClassAttribute and RemoveClassAttribute, the last about an attribute
    equal to [a] added it. *)
Definition chosen (ops : list (attr * bool)) (a : attr) : Prop :=
  ∃ l1 b l2, ops = l1 ++ (b, true) :: l2 ∧ attr_equals a b = true ∧
    ∀ c on, (c, on) ∈ l2 → attr_equals a c = false.
