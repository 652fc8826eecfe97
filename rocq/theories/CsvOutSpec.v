(** Vocabulary used to state the properties of writing CSV files. *)
From Verif Require Import Prelude BytesModel FloatModel AttrModel AttrSpec DenseModel GridModel GridSpec TextModel
  CsvModel CsvSpec.
From Flocq Require Import IEEE754.Bits IEEE754.Binary.
From Coq Require Import Ascii.
Local Open Scope nat_scope.

(** Instances as the library makes them: the attributes are different, are found, and the class
    attributes are some of them, each once. *)
Record tidy (g : grid) : Prop := {
  td_order : iter_in_order g;
  td_attrs : NoDup (gr_all_attrs g);
  td_found : ∀ a, a ∈ gr_all_attrs g → ∃ s, gr_get_attribute g a = Ok s ∧ sp_attr s = a;
  td_class : NoDup (gr_class_attrs g) ∧ ∀ a, a ∈ gr_class_attrs g → a ∈ gr_all_attrs g;
  td_width : (gr_size g).1 = length (gr_all_attrs g)
}.

(** The text [t] stands in row [i] of attribute [a] of [g]. *)
Definition text_at (show : nat → N → string) (g : grid) (a : attr) (i : nat) (t : string) : Prop :=
  ∃ s v, gr_get_attribute g a = Ok s ∧ gr_get g s i = Ok v ∧ attr_decode show a v = Ok t.

(** The records are the table: the names of [attrs], and their texts in each row. *)
Definition table_of (show : nat → N → string) (g : grid) (attrs : list attr) (records : list record) : Prop :=
  ∃ rows, records = map attr_name attrs :: rows ∧ length rows = (gr_size g).2 ∧
    ∀ i r, rows !! i = Some r → Forall2 (λ a t, text_at show g a i t) attrs r.

(** A text that comes back from a CSV file as it is: not empty, and without white space at
    the ends. *)
Definition kept_text (t : string) : Prop := t ≠ EmptyString ∧ trim_space t = t.

(** The texts of an attribute come back with its kind: numbers that can be read for a numeric one;
    for a categorical one, texts that are kept, of which the first does not look like a number. *)
Definition kept_column (show : nat → N → string) (parse : string → option binary64) (g : grid) (a : attr) : Prop :=
  ∀ i t, i < (gr_size g).2 → text_at show g a i t →
    kept_text t ∧
    match a with
    | CatA _ _ => i = 0 → ¬ number (chars (trim_blanks t))
    | _ => number (chars (trim_blanks t)) ∧ is_Some (parse t)
    end.

(** In row [i] of the column [s] of [d], of attribute [a'], is what the text [t] stands for: the
    category [t], or the number [t] is read as. *)
Definition reads_back (show : nat → N → string) (parse : string → option binary64) (d : dense) (a a' : attr)
    (s : spec) (i : nat) (t : string) : Prop :=
  ∃ b, dense_get d s i = Ok b ∧
    match a with
    | CatA _ _ => attr_decode show a' b = Ok t
    | _ => ∃ f, parse t = Some f ∧ b = pack_float f
    end.
Definition same_kind (a a' : attr) : Prop :=
  match a with CatA _ _ => ∃ n vs, a' = CatA n vs | _ => ∃ n p, a' = FloatA n p end.
