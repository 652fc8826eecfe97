(** Vocabulary used to state the properties of ARFF files. *)
From Verif Require Import Prelude BytesModel FloatModel AttrModel DenseModel GridModel TextModel
  CsvModel CsvSpec ArffModel.
From Flocq Require Import IEEE754.Bits IEEE754.Binary.
From Coq Require Import Ascii.
Local Open Scope nat_scope.

(** ** The grammar *)

Definition blanks (l : list ascii) : Prop := Forall (λ c, is_space c = true) l.
(** A word: letters without white space. *)
Definition word (l : list ascii) : Prop := l ≠ [] ∧ Forall (λ c, is_space c = false) l.
(** A category: a word without commas. *)
Definition category (l : list ascii) : Prop := word l ∧ comma ∉ l.

(** The items with commas between them. *)
Fixpoint separated (items : list (list ascii)) : list ascii :=
  match items with
  | [] => []
  | [v] => v
  | v :: items => v ++ comma :: separated items
  end.
(** The same with white space after every comma. *)
Inductive spaced : list (list ascii) → list ascii → Prop :=
| spaced_one v : spaced [v] v
| spaced_more v b vs l :
    blanks b → b ≠ [] → spaced vs l → spaced (v :: vs) (v ++ comma :: b ++ l).
Definition listing (items : list (list ascii)) (l : list ascii) : Prop :=
  items ≠ [] ∧ (l = separated items ∨ spaced items l).

(** What a line of the header declares: a numeric attribute or the categories of
    a nominal one. *)
Inductive decl := Real (name : string) | Nominal (name : string) (values : list string).
Definition decl_name (dc : decl) : string := match dc with Real n | Nominal n _ => n end.
Inductive declares : list ascii → decl → Prop :=
| declares_real kw b1 name b2 ty b3 :
    lower kw = chars "@attribute" → lower ty = chars "real" → word name →
    blanks b1 → b1 ≠ [] → blanks b2 → b2 ≠ [] → blanks b3 →
    declares (kw ++ b1 ++ name ++ b2 ++ ty ++ b3) (Real (text name))
| declares_nominal kw b1 name b2 vs l b3 :
    lower kw = chars "@attribute" → word name →
    blanks b1 → b1 ≠ [] → blanks b2 → b2 ≠ [] → blanks b3 →
    Forall category vs → NoDup vs → listing vs l →
    declares (kw ++ b1 ++ name ++ b2 ++ opening :: l ++ closing :: b3)
      (Nominal (text name) (map text vs)).

(** The lines before [@data]: comments, empty lines, the name of the relation and the
    declarations. *)
Inductive header : list (list ascii) → list decl → Prop :=
| header_end : header [] []
| header_empty ls ds : header ls ds → header ([] :: ls) ds
| header_comment l ls ds : header ls ds → header ((percent :: l) :: ls) ds
| header_relation kw b l ls ds :
    lower kw = chars "@relation" → blanks b → b ≠ [] → header ls ds →
    header ((kw ++ b ++ l) :: ls) ds
| header_declaration l dc ls ds : declares l dc → header ls ds → header (l :: ls) (dc :: ds).

(** A line of data: fields without commas and quotes between commas, where the first
    letter is not that of a comment or a keyword. *)
Definition data_line (l : list ascii) (fields : list string) : Prop :=
  l = separated (map chars fields) ∧ l ≠ [] ∧
  Forall (λ f, comma ∉ chars f ∧ quote ∉ chars f) fields ∧
  head l ≠ Some at_sign ∧ head l ≠ Some percent.
(** The lines after [@data]: comments, empty lines and data. *)
Inductive body : list (list ascii) → list (list string) → Prop :=
| body_end : body [] []
| body_empty ls rows : body ls rows → body ([] :: ls) rows
| body_comment l ls rows : body ls rows → body ((percent :: l) :: ls) rows
| body_row l r ls rows : data_line l r → body ls rows → body (l :: ls) (r :: rows).

(** The text of a file: its lines, each ended by a newline or by a carriage return and
    a newline. *)
Definition written (crlf : bool) (lines : list (list ascii)) : string :=
  text (concat (map (λ l, l ++ (if crlf then [carriage] else []) ++ [newline]) lines)).
(** A line no longer than the readers can take. *)
Definition fitting (l : list ascii) : Prop :=
  newline ∉ l ∧ last l ≠ Some carriage ∧ (N.of_nat (length l) < line_limit)%N.

Record arff_file (crlf : bool) (file : string) (decls : list decl) (rows : list (list string))
    : Prop := {
  af_text : ∃ h mark b, file = written crlf (h ++ mark :: b) ∧
    header h decls ∧ lower mark = chars "@data" ∧ body b rows ∧ Forall fitting (h ++ mark :: b);
  af_decls : decls ≠ [];
  af_names : NoDup (map decl_name decls);
  af_width : ∀ r, r ∈ rows → length r = length decls
}.

(** ** The table *)

Definition declared (dc : decl) (a : attr) : Prop :=
  match dc with Real n => ∃ p, a = FloatA n p | Nominal n vs => a = CatA n vs end.

(** The field is a value of the attribute: a number, or one of the categories. *)
Definition field_valid (parse : string → option binary64) (dc : decl) (f : string) : Prop :=
  match dc with
  | Real _ => is_Some (parse (trim_space f))
  | Nominal _ vs => trim_space f ∈ vs
  end.

(** [d] is the table of the file: the attribute of every declaration has a column, which
    holds its field of every row, and the last one is the class. *)
Definition arff_table (parse : string → option binary64) (decls : list decl)
    (rows : list (list string)) (d : dense) : Prop :=
  dense_size d = (length decls, length rows) ∧
  (∀ j dc, decls !! j = Some dc → ∃ a s,
     declared dc a ∧ dense_get_attribute d a = Ok s ∧
     (∀ i r f, rows !! i = Some r → r !! j = Some f →
        ∃ b, dense_get d s i = Ok b ∧ field_stored parse a (trim_space f) b) ∧
     (S j = length decls → d_class d = {[ (sp_pond s, sp_pos s) := true ]})).

(** ** Writing *)

(** The declaration written for an attribute. *)
Definition decl_of (a : attr) : decl :=
  match a with CatA n vs => Nominal n vs | a => Real (attr_name a) end.

(** A text that survives in a line of data. *)
Definition plain_text (s : string) : Prop :=
  category (chars s) ∧ quote ∉ chars s ∧
  head (chars s) ≠ Some at_sign ∧ head (chars s) ≠ Some percent.
(** An attribute that survives in the header. *)
Definition plain_attr (a : attr) : Prop :=
  word (chars (attr_name a)) ∧
  ∀ n vs, a = CatA n vs → vs ≠ [] ∧ NoDup vs ∧ ∀ v, v ∈ vs → plain_text v.
(** Numbers are written plainly and can be read. *)
Definition plain_numbers (show : nat → N → string) (parse : string → option binary64) : Prop :=
  (∀ p b, plain_text (show p b) ∧ is_Some (parse (show p b))) ∧
  is_Some (parse "0") ∧ is_Some (parse "1").

(** The texts of the cells of the columns [specs]. *)
Definition cell_texts (show : nat → N → string) (g : grid) (specs : list spec)
    (rows : list (list string)) : Prop :=
  length rows = (gr_size g).2 ∧
  ∀ i r, rows !! i = Some r →
    Forall2 (λ s t, ∃ v, gr_get g s i = Ok v ∧ attr_decode show (sp_attr s) v = Ok t) specs r.

(** No line is longer than the readers can take. *)
Definition short_lines (file : string) : Prop :=
  ∀ l, l ∈ split_on newline (chars file) → (N.of_nat (length l) < line_limit)%N.
