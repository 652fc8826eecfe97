(** Vocabulary for the properties of serialisation. *)
From Coq Require Import Ascii.
From stdpp Require Import pretty.
From Verif Require Import Prelude BytesModel AttrModel AttrSpec StoreModel DenseModel GridModel
  GridSpec SerModel.
Local Open Scope nat_scope.

(** ** Text *)

Definition string_bytes (s : string) : list N := map N_of_ascii (String.list_ascii_of_string s).

Definition between (lo hi b : N) : bool := (lo <=? b)%N && (b <=? hi)%N.

(** Well-formed UTF-8 (RFC 3629). *)
Fixpoint utf8 (l : list N) : bool :=
  match l with
  | [] => true
  | a :: l1 =>
      if between 0 127 a then utf8 l1 else
      match l1 with
      | [] => false
      | b :: l2 =>
          if between 194 223 a && between 128 191 b then utf8 l2 else
          match l2 with
          | [] => false
          | c :: l3 =>
              let three :=
                (N.eqb a 224 && between 160 191 b) || (between 225 236 a && between 128 191 b) ||
                (N.eqb a 237 && between 128 159 b) || (between 238 239 a && between 128 191 b) in
              if three && between 128 191 c then utf8 l3 else
              match l3 with
              | [] => false
              | d :: l4 =>
                  let four :=
                    (N.eqb a 240 && between 144 191 b) || (between 241 243 a && between 128 191 b) ||
                    (N.eqb a 244 && between 128 143 b) in
                  if four && between 128 191 c && between 128 191 d then utf8 l4 else false
              end
          end
      end
  end.
Definition is_text (s : string) : Prop := utf8 (string_bytes s) = true.

(** Number literals (RFC 8259): sign, integer part, fraction, exponent. *)
Definition digit (c : ascii) : bool := between 48 57 (N_of_ascii c).
Fixpoint after_digits (l : list ascii) : list ascii :=
  match l with c :: l' => if digit c then after_digits l' else l | [] => [] end.
Definition digits_then (l : list ascii) (rest : list ascii → bool) : bool :=
  match l with c :: _ => digit c && rest (after_digits l) | [] => false end.
Definition exponent (l : list ascii) : bool :=
  match l with
  | [] => true
  | ("e" | "E")%char :: ("+" | "-")%char :: l | ("e" | "E")%char :: l =>
      digits_then l (λ l, match l with [] => true | _ => false end)
  | _ => false
  end.
Definition fraction (l : list ascii) : bool :=
  match l with "."%char :: l => digits_then l exponent | _ => exponent l end.
Definition number (s : string) : bool :=
  let l := match String.list_ascii_of_string s with "-"%char :: l => l | l => l end in
  match l with "0"%char :: l => fraction l | _ => digits_then l fraction end.

(** JSON values that survive encoding/json: text in UTF-8 (anything else is replaced by
    U+FFFD), integers that a float64 represents exactly. *)
Inductive sendable : json → Prop :=
| send_null : sendable JNull
| send_num n : (N.of_nat n <= 2^53)%N → sendable (JNum n)
| send_lit s : number s = true → (∀ n, (N.of_nat n <= 2^53)%N → s ≠ pretty n) → sendable (JLit s)
| send_bool b : sendable (JBool b)
| send_str s : is_text s → sendable (JStr s)
| send_arr l : Forall sendable l → sendable (JArr l)
| send_obj l : Forall (λ m, is_text m.1 ∧ sendable m.2) l → sendable (JObj l).

(** The trusted fact about encoding/json. *)
Definition json_faithful (marshal : json → list N) (unmarshal : list N → option json) : Prop :=
  ∀ j, sendable j → unmarshal (marshal j) = Some j.

Definition attr_sendable (a : attr) : Prop :=
  match a with
  | FloatA n p => is_text n ∧ (N.of_nat p <= 2^53)%N
  | CatA n vs => is_text n ∧ Forall is_text vs
  | BinA n => is_text n
  end.

(** The attribute was made by one of the constructors, or has values. *)
Definition has_slice (h : held) : Prop :=
  match h with (CatA _ [], b) => b = false | _ => True end.

(** ** Tables *)

(** A cell as AddAttribute's storage holds it. *)
Definition proper_cell (a : attr) (v : list N) : Prop :=
  match a with BinA _ => v = [0%N] ∨ v = [1%N] | _ => length v = 8 end.

(** [g] is a consistent table with the cells [cell]: MapOverRows goes through the rows
    in order, attributes are distinguishable and can be serialised. *)
Record table (is_nil : attr → bool) (g : grid) (cell : attr → nat → list N) : Prop := {
  tb_iter : iter_in_order g;
  tb_attrs : distinct_attrs (gr_all_attrs g);
  tb_class : ∀ a, a ∈ gr_class_attrs g → a ∈ gr_all_attrs g;
  tb_class_once : NoDup (gr_class_attrs g);
  tb_size : (gr_size g).1 = length (gr_all_attrs g);
  tb_cols : (N.of_nat (gr_size g).1 < 2^63)%N;
  tb_rows : (N.of_nat (gr_size g).2 < 2^63)%N;
  tb_text : ∀ a, a ∈ gr_all_attrs g → attr_sendable a ∧ has_slice (a, is_nil a);
  tb_cells : ∀ a, a ∈ gr_all_attrs g → ∃ s, gr_get_attribute g a = Ok s ∧
    ∀ i, i < (gr_size g).2 → gr_get g s i = Ok (cell a i) ∧ proper_cell a (cell a i)
}.

(** [d] holds the attributes, class attributes, row count and cells of [g]. *)
Record same_table (g : grid) (cell : attr → nat → list N) (d : dense) : Prop := {
  st_attrs : dense_all_attrs d ≡ₚ gr_all_attrs g;
  st_class : ∀ order, class_order d order → class_attrs_in_order d order ≡ₚ gr_class_attrs g;
  st_rows : (dense_size d).2 = (gr_size g).2;
  st_cells : ∀ a i, a ∈ gr_all_attrs g → i < (gr_size g).2 →
    ∃ s, dense_get_attribute d a = Ok s ∧ sp_attr s = a ∧ dense_get d s i = Ok (cell a i)
}.

(** ** Archives *)

(** What a caller may write to an archive. *)
Inductive wop :=
| WBytes (key : string) (b : list N)
| WU64 (key : string) (v : N)
| WAttr (key : string) (h : held)
| WAttrs (key : string) (l : list held)
| WInstances (key : string) (g : grid).

Section writes.
  Variable marshal : json → list N.
  Variable is_nil : attr → bool.
  Variable attr_order : list attr → list attr.

  Definition wrun1 (w : tarw) (o : wop) : res tarw :=
    match o with
    | WBytes k b => write_bytes w k b
    | WU64 k v => write_u64 w k v
    | WAttr k h => write_attribute marshal w k h
    | WAttrs k l => write_attributes marshal w k l
    | WInstances k g => serialize_to_tar marshal is_nil attr_order g w k true
    end.

  (** The archive that results from a sequence of writes. *)
  Definition written (metadata : list N) (ops : list wop) : res archive :=
    w ← classifier_stub metadata;
    w ← res_foldl wrun1 w ops;
    tar_close w.
End writes.

(** Only consistent tables are written. *)
Definition writes_tables (is_nil : attr → bool) (ops : list wop) : Prop :=
  ∀ k g, WInstances k g ∈ ops → ∃ cell, table is_nil g cell.

(** The names of the entries an operation creates. *)
Definition wkeys (o : wop) : list string :=
  match o with
  | WBytes k _ | WU64 k _ | WAttr k _ => [k]
  | WAttrs k l =>
      tar_prefix k "ATTR_COUNT" :: map (λ i, tar_prefix k (pretty.pretty i)) (seq 0 (length l))
  | WInstances k _ =>
      [k +:+ "MANIFEST"; k +:+ "DIMS"; k +:+ "CATTRS"; k +:+ "ATTRS"; k +:+ "DATA"]
  end.

(** The entries every classifier archive starts with. *)
Definition reserved : list string := ["CLS_MANIFEST"; "METADATA"].

(** [ops] writes no entry that [o] writes. *)
Definition untouched (o : wop) (ops : list wop) : Prop :=
  ∀ k, k ∈ wkeys o → k ∉ reserved ∧ ∀ o', o' ∈ ops → k ∉ wkeys o'.

(** A reader that always fills the buffer. *)
Definition full_reads (got : nat → nat → nat) : Prop := ∀ pos len, got pos len = len.

(** Everything written so far is complete. *)
Definition flushed (w : tarw) (ar : archive) : Prop := tar_flush w = Ok (TarW ar None).
