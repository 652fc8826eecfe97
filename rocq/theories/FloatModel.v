(** Model of the float part of base/util.go, over Flocq's type of IEEE-754
    binary64 data. *)
From Verif Require Import Prelude BytesModel.
From Flocq Require Import IEEE754.Bits IEEE754.Binary.
Local Open Scope N_scope.

(** [math.Float64bits], [math.Float64frombits] and the native reading of a
    float64 from memory: the interchange format of IEEE-754, as given by
    Flocq. *)
Definition float64bits (f : binary64) : N := Z.to_N (bits_of_b64 f).
Definition float64frombits (v : N) : binary64 := b64_of_bits (Z.of_N v).

(** base/util.go:23-25 [PackFloatToBytesInline]. *)
Definition pack_float_inline (f : binary64) (ret : list byte) :=
  pack_u64_inline (float64bits f) ret.

(** base/util.go:51-53 [PackFloatToBytes]. *)
Definition pack_float (f : binary64) : list byte := pack_u64 (float64bits f).

(** base/util.go:57-60 [UnpackBytesToFloat]: same memory read as
    [UnpackBytesToU64], interpreted as a float64. *)
Definition unpack_float (val : list byte) : res binary64 :=
  float64frombits <$> unpack_u64 val.

