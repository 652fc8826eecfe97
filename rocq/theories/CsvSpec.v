(** Vocabulary used to state the properties of the CSV parsers. *)
From Verif Require Import Prelude BytesModel FloatModel AttrModel DenseModel GridModel TextModel
  CsvModel.
From Flocq Require Import IEEE754.Bits IEEE754.Binary.
From stdpp Require Import pretty.
From Coq Require Import Ascii.
Local Open Scope nat_scope.

(** The bytes [b] are the value [v] under the attribute [a]: the float that [v]
    reads as, or the position of [v] among the attribute's values. *)
Definition field_stored (parse : string → option binary64) (a : attr) (v : string)
    (b : list N) : Prop :=
  match a with
  | FloatA _ _ => ∃ f, parse v = Some f ∧ b = pack_float f
  | CatA _ vs => ∃ k, vs !! k = Some v ∧ b = pack_u64 (N.of_nat k)
  | BinA _ => ∃ f, parse v = Some f ∧ b = [if float_gt f (b64_of_bits 0) then 1%N else 0%N]
  end.

(** The records that hold data. *)
Definition data_records (has_headers : bool) (records : list record) : list record :=
  if has_headers then tail records else records.

(** The column names: those of the first line, or the column numbers. *)
Definition column_name (has_headers : bool) (records : list record) (j : nat) : option string :=
  r ← head records; v ← r !! j; Some (if has_headers then trim_space v else pretty j).

(** Numbers, written as a regular expression would: an optional sign, digits, an
    optional dot with digits, an optional exponent. *)
Definition digits (l : list ascii) : Prop := Forall (λ c, is_digit c = true) l.
Definition sign (l : list ascii) : Prop := l = [] ∨ l = ["+"%char] ∨ l = ["-"%char].
Definition exponent (l : list ascii) : Prop :=
  l = [] ∨ ∃ c s d, l = c :: s ++ d ∧ (c = "e"%char ∨ c = "E"%char) ∧ sign s ∧ digits d ∧ d ≠ [].
Definition number (l : list ascii) : Prop :=
  ∃ s i p f e, l = s ++ i ++ p ++ f ++ e ∧ sign s ∧ digits i ∧
    (p = [] ∨ p = ["."%char]) ∧ digits f ∧ f ≠ [] ∧ exponent e.

(** [line] has a number with [k] digits after its decimal point. *)
Definition has_decimals (line : list ascii) (k : nat) : Prop :=
  ∃ pre c ds post, line = pre ++ c :: "."%char :: ds ++ post ∧
    is_digit c = true ∧ digits ds ∧ length ds = k ∧ 0 < k ∧
    ∀ x, head post = Some x → is_digit x = false.

(** Column [j] of the records is the column [s] of [d], of attribute [a]: named after
    the header, numeric exactly if the first data record has a number there, with the
    values that occur if it is categorical, and holding field [j] of every record;
    an empty field leaves the cell zero. *)
Record column_read (parse : string → option binary64) (has_headers : bool)
    (records : list record) (d : dense) (j : nat) (a : attr) (s : spec) : Prop := {
  cr_found : dense_get_attribute d a = Ok s;
  cr_name : column_name has_headers records j = Some (attr_name a);
  cr_type : ∀ r v, head (data_records has_headers records) = Some r → r !! j = Some v →
    (number (chars (trim_blanks v)) → ∃ n p, a = FloatA n p) ∧
    (¬ number (chars (trim_blanks v)) → ∃ n vs, a = CatA n vs);
  cr_values : ∀ n vs, a = CatA n vs → NoDup vs ∧
    ∀ t, t ∈ vs ↔ ∃ r v, r ∈ data_records has_headers records ∧ r !! j = Some v ∧
      v ≠ EmptyString ∧ t = trim_space v;
  cr_cells : ∀ i r v, data_records has_headers records !! i = Some r → r !! j = Some v →
    (v = EmptyString → dense_get d s i = Ok (replicate 8 0%N)) ∧
    (v ≠ EmptyString → ∃ b, dense_get d s i = Ok b ∧ field_stored parse a (trim_space v) b)
}.

(** [d] is the table written in the records; [w] is their width. *)
Definition table_read (parse : string → option binary64) (has_headers : bool)
    (records : list record) (w : nat) (d : dense) : Prop :=
  dense_size d = (w, length (data_records has_headers records)) ∧
  (∀ r, r ∈ records → length r = w) ∧
  (∀ j, j < w → ∃ a s, column_read parse has_headers records d j a s) ∧
  (∀ j a s, S j = w → column_read parse has_headers records d j a s →
     d_class d = {[ (sp_pond s, sp_pos s) := true ]}).
