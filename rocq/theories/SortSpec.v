(** Vocabulary for the properties of sorting. *)
From Verif Require Import Prelude AttrModel StoreModel DenseModel FloatModel GridModel SortModel.
From Flocq Require Import IEEE754.Bits IEEE754.Binary.
Local Open Scope nat_scope.

(** The number a little-endian byte sequence denotes. *)
Fixpoint le_value (b : list N) : N :=
  match b with [] => 0 | x :: b => x + 256 * le_value b end%N.

(** Lexicographic comparison of tuples of numbers. *)
Fixpoint lex_lt (a b : list N) : Prop :=
  match a, b with
  | x :: a, y :: b => (x < y)%N ∨ (x = y ∧ lex_lt a b)
  | _, _ => False
  end.

(** Every sort column is readable, with non-empty byte values of one length. *)
Definition sort_columns_ok (g : grid) (attrs : list spec) : Prop :=
  ∀ s, s ∈ attrs → ∃ len, 0 < len ∧
    ∀ i, i < (gr_size g).2 → ∃ v, gr_get g s i = Ok v ∧ length v = len ∧
      Forall (λ b, (b < 256)%N) v.

(** The tuple a row is really sorted by: the raw values, as numbers, except that
    bit 7 of the last attribute's value is flipped. *)
Fixpoint flip_last (l : list N) : list N :=
  match l with
  | [] => []
  | [x] => [N.lxor x 0x80]
  | x :: l => x :: flip_last l
  end.
Definition raw_tuple (g : grid) (attrs : list spec) (i : nat) : list N :=
  map (λ s, match gr_get g s i with Ok v => le_value v | _ => 0%N end) attrs.
Definition sort_tuple (g : grid) (attrs : list spec) (i : nat) : list N :=
  flip_last (raw_tuple g attrs i).

(** Row [i] comes before row [j]: smaller sort tuple, ties by row number. *)
Definition row_before (g : grid) (attrs : list spec) (i j : nat) : Prop :=
  lex_lt (sort_tuple g attrs i) (sort_tuple g attrs j) ∨
  (sort_tuple g attrs i = sort_tuple g attrs j ∧ i < j).

(** Which source row stands at position [i] of the result, when the rows in
    ascending order are [rs]. *)
Definition result_row (dir : direction) (n : nat) (rs : list nat) (i : nat) : nat :=
  default 0 (rs !! match dir with Ascending => i | Descending => n - 1 - i end).

(** Numeric lexicographic order of tuples of floats. *)
Fixpoint float_lex_le (a b : list binary64) : Prop :=
  match a, b with
  | [], [] => True
  | x :: a, y :: b => Bcompare 53 1024 x y = Some Lt ∨
                      (Bcompare 53 1024 x y = Some Eq ∧ float_lex_le a b)
  | _, _ => False
  end.

(** Floats whose numeric order is the order of their bit patterns: not NaN,
    sign bit clear. *)
Definition plain_float (x : binary64) : Prop :=
  is_nan 53 1024 x = false ∧ Bsign 53 1024 x = false.

(** A tuple of floats the code sorts numerically: all plain, and the last one
    with bit 7 clear. *)
Definition sortable_floats (l : list binary64) : Prop :=
  Forall plain_float l ∧
  ∀ x, last l = Some x → N.testbit (float64bits x) 7 = false.
