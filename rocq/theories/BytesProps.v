(** Property theorems C01 and C02: byte packing. *)
From Verif Require Import Prelude BytesModel BytesProofs FloatModel FloatProofs.
From Flocq Require Import IEEE754.Bits IEEE754.Binary.
Local Open Scope N_scope.

(** C01, first half: every uint64 survives pack/unpack, and the packed form
    is 8 genuine bytes. *)
Theorem C01_u64_roundtrip (v : N) :
  v < 2^64 →
  unpack_u64 (pack_u64 v) = Ok v ∧
  length (pack_u64 v) = 8%nat ∧
  Forall (λ b, b < 256) (pack_u64 v).
Proof.
  exact (λ H, conj (unpack_pack_u64 v H)
                (conj (pack_u64_length v) (pack_u64_bytes v))).
Qed.
Print Assumptions C01_u64_roundtrip.

(** C01, second half: every 8-byte sequence survives unpack/pack. *)
Theorem C01_bytes_roundtrip (bs : list N) :
  length bs = 8%nat → Forall (λ b, b < 256) bs →
  ∃ v, unpack_u64 bs = Ok v ∧ v < 2^64 ∧ pack_u64 v = bs.
Proof. exact (pack_unpack_u64 bs). Qed.
Print Assumptions C01_bytes_roundtrip.

(** C01, in-place variant: the same 8 bytes, the tail of the buffer
    untouched; a short buffer panics. *)
Theorem C01_inline_same (v : N) (buf : list N) :
  ((8 ≤ length buf)%nat →
   pack_u64_inline v buf = Ok (pack_u64 v ++ drop 8 buf)) ∧
  ((length buf < 8)%nat → pack_u64_inline v buf = Panic).
Proof. exact (conj (pack_inline_spec v buf) (pack_inline_short v buf)). Qed.
Print Assumptions C01_inline_same.

(** The value read is the little-endian number of the bytes. *)
Theorem C01_unpack_little_endian (bs : list N) (v : N) :
  length bs = 8%nat →
  unpack_u64 bs = Ok v ↔ v = foldr (λ b acc, b + 256 * acc) 0 bs.
Proof. exact (unpack_u64_spec bs v). Qed.
Print Assumptions C01_unpack_little_endian.

Example C01_ex : pack_u64 0xDEADBEEF01020304 =
    [4; 3; 2; 1; 0xEF; 0xBE; 0xAD; 0xDE]
  ∧ unpack_u64 (pack_u64 0xDEADBEEF01020304) = Ok 0xDEADBEEF01020304
  ∧ pack_u64_inline 258 [9;9;9;9;9;9;9;9;7;7] = Ok [2;1;0;0;0;0;0;0;7;7].
Proof. vm_compute. done. Qed.

(** C02: float packing is bit-exact.  [binary64] is Flocq's type of all
    IEEE-754 data, including signed zeros, infinities and NaNs with payload,
    and [=] is identity of the datum. *)
Theorem C02_float_roundtrip (f : binary64) :
  unpack_float (pack_float f) = Ok f ∧ length (pack_float f) = 8%nat.
Proof. exact (conj (unpack_pack_float f) (pack_u64_length _)). Qed.
Print Assumptions C02_float_roundtrip.

Theorem C02_float_bytes_roundtrip (bs : list N) :
  length bs = 8%nat → Forall (λ b, b < 256) bs →
  ∃ f, unpack_float bs = Ok f ∧ pack_float f = bs.
Proof. exact (pack_unpack_float bs). Qed.
Print Assumptions C02_float_bytes_roundtrip.

Theorem C02_float_pack_injective (f g : binary64) :
  pack_float f = pack_float g → f = g.
Proof. exact (pack_float_inj f g). Qed.
Print Assumptions C02_float_pack_injective.

Theorem C02_float_inline_same (f : binary64) (buf : list N) :
  (8 ≤ length buf)%nat →
  pack_float_inline f buf = Ok (pack_float f ++ drop 8 buf).
Proof. exact (pack_inline_spec (float64bits f) buf). Qed.
Print Assumptions C02_float_inline_same.

(** [-0.0], the float one and a quiet NaN with payload 5. *)
Example C02_ex :
  pack_float (B754_zero 53 1024 true) = [0;0;0;0;0;0;0;0x80]
  ∧ pack_float (b64_of_bits 0x3FF0000000000000) = [0;0;0;0;0;0;0xF0;0x3F]
  ∧ pack_float (b64_of_bits 0x7FF8000000000005) = [5;0;0;0;0;0;0xF8;0x7F].
Proof. vm_compute. done. Qed.

(** The byte comparison used by the library decides equality of byte
    sequences (used by C24). *)
Theorem C24_byte_seq_equal (a b : list N) : byte_seq_equal a b = true ↔ a = b.
Proof. exact (byte_seq_equal_spec a b). Qed.
Print Assumptions C24_byte_seq_equal.
