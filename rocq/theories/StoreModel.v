(** Model of the two AttributeGroup implementations: base/fixed.go
    (FixedAttributeGroup) and base/bag.go (BinaryAttributeGroup).
    The storage is a list of bytes ([N]); [int] offsets are [nat]. *)
From Verif Require Import Prelude BytesModel AttrModel.

(** base/fixed.go:10-16 and base/bag.go:10-16.  The two structs have the same
    fields; [GFixed size] / [GBits] tells them apart ([parent] is not used by
    the modelled functions). *)
Inductive gkind := GFixed (size : nat) | GBits.
Record group := Group {
  g_kind : gkind;
  g_attrs : list attr;
  g_alloc : list N;
  g_maxrow : nat
}.

(** base/fixed.go:24-26 and base/bag.go:25-27 [RowSizeInBytes]. *)
Definition row_size (g : group) : nat :=
  match g_kind g with
  | GFixed size => length (g_attrs g) * size
  | GBits => (length (g_attrs g) + 7) / 8
  end.

(** base/fixed.go:39-42, base/bag.go:39-42 [AddAttribute]. *)
Definition group_add (g : group) (a : attr) : group :=
  Group (g_kind g) (g_attrs g ++ [a]) (g_alloc g) (g_maxrow g).

(** base/fixed.go:55-57 [offset]. *)
Definition fixed_offset (g : group) (size col row : nat) : nat :=
  row * row_size g + col * size.

(** base/fixed.go:75-78, base/bag.go:75-78: update of [maxRow]. *)
Definition bump_maxrow (old row : nat) : nat :=
  if old <? row + 1 then row + 1 else old.

(** base/fixed.go:59-79 [set].  [f.alloc[offset:]] panics when
    [offset > len(alloc)]; [copy] writes the bytes that fit and the code
    panics afterwards if not all did.  Simplification: the partial write made
    before that last panic is not observable in the model. *)
Definition fixed_set (g : group) (size col row : nat) (val : list N) : res group :=
  if negb (length val =? size) then Panic else
  let offset := fixed_offset g size col row in
  if length (g_alloc g) <? offset then Panic else
  let copied := Nat.min (length val) (length (g_alloc g) - offset) in
  if negb (copied =? size) then Panic else
  Ok (Group (g_kind g) (g_attrs g)
        (take offset (g_alloc g) ++ take copied val
           ++ drop (offset + copied) (g_alloc g))
        (bump_maxrow (g_maxrow g) row)).

(** base/fixed.go:81-84 [get].  The Go result aliases the storage; the model
    returns the bytes at the time of the call. *)
Definition fixed_get (g : group) (size col row : nat) : res (list N) :=
  let offset := fixed_offset g size col row in
  if length (g_alloc g) <? offset + size then Panic
  else Ok (take size (drop offset (g_alloc g))).

(** base/bag.go:59-61 [getByteOffset]. *)
Definition byte_offset (g : group) (col row : nat) : nat :=
  row * row_size g + col / 8.

(** The mask [1 << (uint(col) % 8)] of base/bag.go:69,72,83. *)
Definition bit_mask (col : nat) : N := N.shiftl 1 (N.of_nat (col mod 8)).

(** base/bag.go:63-79 [set]: OR the mask, or AND with its complement
    ([byte] complement is XOR with 0xFF). *)
Definition bit_set (g : group) (col row : nat) (val : list N) : res group :=
  let offset := byte_offset g col row in
  v ← idx val 0;
  old ← idx (g_alloc g) offset;
  let new := if (0 <? v)%N then N.lor old (bit_mask col)
             else N.land old (N.lxor (bit_mask col) 0xFF) in
  Ok (Group (g_kind g) (g_attrs g) (<[offset := new]> (g_alloc g))
        (bump_maxrow (g_maxrow g) row)).

(** base/bag.go:81-88 [get]. *)
Definition bit_get (g : group) (col row : nat) : res (list N) :=
  b ← idx (g_alloc g) (byte_offset g col row);
  Ok (if (0 <? N.land b (bit_mask col))%N then [1%N] else [0%N]).

(** Dynamic dispatch over the AttributeGroup interface (base/group.go). *)
Definition group_set (g : group) (col row : nat) (val : list N) : res group :=
  match g_kind g with
  | GFixed size => fixed_set g size col row val
  | GBits => bit_set g col row val
  end.
Definition group_get (g : group) (col row : nat) : res (list N) :=
  match g_kind g with
  | GFixed size => fixed_get g size col row
  | GBits => bit_get g col row
  end.

(** base/fixed.go:96-100, base/bag.go:101-105 [resize]: [add] zero bytes
    after the old contents. *)
Definition group_resize (g : group) (add : nat) : group :=
  Group (g_kind g) (g_attrs g) (g_alloc g ++ replicate add 0%N) (g_maxrow g).
