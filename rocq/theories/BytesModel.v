(** Model of base/util.go: packing of 64-bit integers into byte
    slices (floats: FloatModel.v).  Bytes and uint64s are [N]; the ranges 256 and 2^64 are explicit
    in the statements. *)
From Verif Require Import Prelude.
Local Open Scope N_scope.

Notation byte := N (only parsing).

(** base/util.go:11-18, 31-38: one of the expressions
    [byte(val & (0xFF << s) >> s)].  In Go [&] and [>>] have the same
    precedence and associate to the left, so this is
    [byte((val & (0xFF << s)) >> s)]; [byte()] keeps the low 8 bits. *)
Definition pack_byte (val s : N) : byte :=
  N.land (N.shiftr (N.land val (N.shiftl 0xFF s)) s) 0xFF.

(** The eight indexed stores of base/util.go:11-18 (and again 31-38), in
    order. *)
Definition pack_stores (val : N) (ret : list byte) : list byte :=
  let ret := <[7%nat := pack_byte val 56]> ret in
  let ret := <[6%nat := pack_byte val 48]> ret in
  let ret := <[5%nat := pack_byte val 40]> ret in
  let ret := <[4%nat := pack_byte val 32]> ret in
  let ret := <[3%nat := pack_byte val 24]> ret in
  let ret := <[2%nat := pack_byte val 16]> ret in
  let ret := <[1%nat := pack_byte val 8]> ret in
  <[0%nat := pack_byte val 0]> ret.

(** base/util.go:10-19 [PackU64ToBytesInline].  The first store is [ret[7]],
    so a buffer shorter than 8 panics before anything is written. *)
Definition pack_u64_inline (val : N) (ret : list byte) : res (list byte) :=
  if (length ret <? 8)%nat then Panic else Ok (pack_stores val ret).

(** base/util.go:29-40 [PackU64ToBytes]. *)
Definition pack_u64 (val : N) : list byte :=
  pack_stores val (replicate 8 0).

(** base/util.go:44-47 [UnpackBytesToU64]: reads 8 bytes at [&val[0]] as a
    native uint64.  The model fixes a little-endian machine.  [&val[0]]
    panics on an empty slice; with 1 to 7 bytes the Go code reads memory
    beyond the slice, whose contents the model cannot know: it is treated as
    [Panic], i.e. as "no defined result". *)
Definition unpack_u64 (val : list byte) : res N :=
  match val with
  | b0 :: b1 :: b2 :: b3 :: b4 :: b5 :: b6 :: b7 :: _ =>
      Ok (b0 + 2^8 * (b1 + 2^8 * (b2 + 2^8 * (b3 + 2^8 * (b4 + 2^8 *
          (b5 + 2^8 * (b6 + 2^8 * b7)))))))
  | _ => Panic
  end.

(** base/util.go:62-72 [byteSeqEqual].  [b[i]] cannot panic after the length
    check, so the pairwise loop is written on both lists. *)
Fixpoint byte_loop_equal (a b : list byte) : bool :=
  match a, b with
  | v :: a, w :: b => if negb (v =? w) then false else byte_loop_equal a b
  | _, _ => true
  end.
Definition byte_seq_equal (a b : list byte) : bool :=
  if negb (length a =? length b)%nat then false else byte_loop_equal a b.
