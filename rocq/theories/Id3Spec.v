(** Vocabulary for the properties of decision trees. *)
From Coq Require Import QArith.
From Verif Require Import Prelude FloatModel AttrModel AttrSpec StoreModel DenseModel GridModel GridSpec
  KnnModel KnnSpec Id3Model.
From Flocq Require Import IEEE754.Bits IEEE754.Binary.
Local Open Scope nat_scope.

(** The string value of attribute [a] in row [i]. *)
Definition value_of (show : nat → N → string) (g : grid) (a : attr) (i : nat) : res string :=
  s ← gr_get_attribute g a; raw ← gr_get g s i; attr_decode show a raw.

(** The side of a split on which row [i] is: "1" and "0" for numbers above the threshold
    and others, the value itself for other attributes. *)
Definition side (show : nat → N → string) (g : grid) (a : attr) (v : binary64) (i : nat)
    : res string :=
  match a with
  | FloatA _ _ =>
      s ← gr_get_attribute g a; raw ← gr_get g s i; x ← unpack_float raw;
      Ok (if decide (Bcompare 53 1024 x v = Some Gt) then "1" else "0")
  | _ => value_of show g a i
  end.

(** A consistent training set with class attribute [c]: distinct attributes, every cell
    readable, row [i] labelled [label i]. *)
Record training (show : nat → N → string) (g : grid) (c : attr) (label : nat → string) : Prop := {
  tr_iter : iter_agrees g;
  tr_attrs : distinct_attrs (gr_all_attrs g);
  tr_cols : (gr_size g).1 = length (gr_all_attrs g);
  tr_find : ∀ a, a ∈ gr_all_attrs g → ∃ s, gr_get_attribute g a = Ok s ∧ sp_attr s = a;
  tr_only : ∀ a s, gr_get_attribute g a = Ok s →
    ∃ b, b ∈ gr_all_attrs g ∧ attr_equals b a = true ∧ gr_get_attribute g b = Ok s;
  tr_value : ∀ a i, a ∈ gr_all_attrs g → i < (gr_size g).2 → ∃ v, value_of show g a i = Ok v;
  tr_class : gr_class_attrs g = [c];
  tr_class_in : c ∈ gr_all_attrs g;
  tr_label : ∀ i, i < (gr_size g).2 → value_of show g c i = Ok (label i)
}.

(** Rules split on an attribute of the data other than the class. *)
Definition sane_rules (gen : list string → grid → res (option rule)) : Prop :=
  ∀ path g r a, gen path g = Ok (Some r) → ru_attr r = Some a →
    a ∈ gr_all_attrs g ∧ a ∉ gr_class_attrs g.

(** The class distribution and class of a node that stands for the rows [rows]. *)
Definition counts_rows (label : nat → string) (rows : list nat) (dist : gmap string nat)
    (class : string) : Prop :=
  (∀ c, dist !! c = if votes label rows c =? 0 then None else Some (votes label rows c)) ∧
  (rows ≠ [] → majority label rows class).

(** The tree stands for the rows [rows] of [g]: so does each node for its share of them. *)
Inductive describes (show : nat → N → string) (g : grid) (label : nat → string)
    : list nat → tree → Prop :=
| describes_end rows leaf dist class cattr r :
    counts_rows label rows dist class →
    describes show g label rows (Node leaf None dist class cattr r)
| describes_split rows leaf l dist class cattr a v :
    counts_rows label rows dist class →
    a ∈ gr_all_attrs g → a ∉ gr_class_attrs g →
    NoDup (map fst l) →
    (∀ i, i ∈ rows → ∃ k, side show g a v i = Ok k) →
    (∀ k, k ∈ map fst l ↔ ∃ i, i ∈ rows ∧ side show g a v i = Ok k) →
    (∀ k t, (k, t) ∈ l →
       describes show g label (filter (λ i, side show g a v i = Ok k) rows) t) →
    describes show g label rows
      (Node leaf (Some l) dist class cattr (Some (Rule (Some a) v))).

(** Rows to be predicted by a tree trained on [g]: their class attribute is categorical
    and has the values [vs]; the other attributes of [g] are present and readable. *)
Record predictable (show : nat → N → string) (g what : grid) (vs : list string) : Prop := {
  pr_iter : iter_agrees what;
  pr_class : ∃ name, gr_class_attrs what = [CatA name vs];
  pr_values : (N.of_nat (length vs) < 2^63)%N;
  pr_rows : ∀ a, a ∈ gr_all_attrs what → ∃ s, gr_get_attribute what a = Ok s ∧
    ∀ i, i < (gr_size what).2 → ∃ raw, gr_get what s i = Ok raw;
  pr_cells : ∀ a, a ∈ gr_all_attrs g → a ∉ gr_class_attrs g →
    ∃ s, gr_get_attribute what a = Ok s ∧
      ∀ i, i < (gr_size what).2 → ∃ raw v, gr_get what s i = Ok raw ∧ attr_decode show (sp_attr s) raw = Ok v
}.

(** A tree that splits on attributes of [attrs] that are not numeric, never twice on one
    path, and whose nodes carry classes of [vs]. *)
Inductive usable (vs : list string) : list attr → tree → Prop :=
| usable_end attrs leaf dist class cattr r :
    class ∈ vs → usable vs attrs (Node leaf None dist class cattr r)
| usable_split attrs leaf l dist class cattr a v :
    class ∈ vs → a ∈ attrs → is_float a = false → NoDup (map fst l) →
    (∀ k t, (k, t) ∈ l → usable vs (filter (λ b, attr_equals b a = false) attrs) t) →
    usable vs attrs (Node leaf (Some l) dist class cattr (Some (Rule (Some a) v))).

(** The values of row [r] of [g] lead from the root of [t] to the childless node [node]:
    each split has a child for the value. *)
Inductive leads (show : nat → N → string) (g : grid) (r : nat) : tree → tree → Prop :=
| leads_end leaf dist class cattr ru :
    leads show g r (Node leaf None dist class cattr ru) (Node leaf None dist class cattr ru)
| leads_split leaf l dist class cattr a v k t node :
    value_of show g a r = Ok k → (k, t) ∈ l → leads show g r t node →
    leads show g r (Node leaf (Some l) dist class cattr (Some (Rule (Some a) v))) node.

(** Rules never split on a numeric attribute. *)
Definition no_float_rules (gen : list string → grid → res (option rule)) : Prop :=
  ∀ path g r a, gen path g = Ok (Some r) → ru_attr r = Some a → is_float a = false.

(** [t'] is a node of [t]. *)
Inductive node_of (t' : tree) : tree → Prop :=
| node_here : node_of t' t'
| node_below leaf l dist class cattr r k t :
    (k, t) ∈ l → node_of t' t → node_of t' (Node leaf (Some l) dist class cattr r).

(** [l] gives each label of the rows with its share of them, the largest first. *)
Definition shares (label : nat → string) (rows : list nat) (l : list (string * Q)) : Prop :=
  NoDup (map fst l) ∧ (∀ c, c ∈ map fst l ↔ c ∈ map label rows) ∧
  (∀ c q, (c, q) ∈ l →
     (q * inject_Z (Z.of_nat (length rows)) == inject_Z (Z.of_nat (votes label rows c)))%Q) ∧
  StronglySorted (λ x y, y.2 <= x.2)%Q l.
