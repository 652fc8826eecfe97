(** Lemmas about float packing. *)
From Verif Require Import Prelude BytesModel BytesProofs FloatModel.
From Flocq Require Import IEEE754.Bits IEEE754.Binary.
Local Open Scope N_scope.

(** ** Floats *)

Lemma float64bits_lt f : float64bits f < 2^64.
Proof.
  unfold float64bits, bits_of_b64.
  pose proof (bits_of_binary_float_range 52 11 eq_refl eq_refl f) as H.
  change (2 ^ (52 + 11 + 1))%Z with (2^64)%Z in H. lia.
Qed.

Lemma float64_bits_frombits f : float64frombits (float64bits f) = f.
Proof.
  unfold float64frombits, float64bits.
  pose proof (bits_of_binary_float_range 52 11 eq_refl eq_refl f) as H.
  rewrite Z2N.id by (unfold bits_of_b64; lia).
  exact (binary_float_of_bits_of_binary_float 52 11 eq_refl eq_refl eq_refl f).
Qed.

Lemma float64_frombits_bits v : v < 2^64 → float64bits (float64frombits v) = v.
Proof.
  intros Hv. unfold float64frombits, float64bits, bits_of_b64, b64_of_bits.
  rewrite bits_of_binary_float_of_bits.
  - lia.
  - change (2 ^ (52 + 11 + 1))%Z with (2^64)%Z. lia.
Qed.

Lemma unpack_pack_float f : unpack_float (pack_float f) = Ok f.
Proof.
  unfold unpack_float, pack_float.
  rewrite unpack_pack_u64 by apply float64bits_lt.
  simpl. by rewrite float64_bits_frombits.
Qed.

Lemma pack_float_inj f g : pack_float f = pack_float g → f = g.
Proof.
  intros H. pose proof (unpack_pack_float f) as H1.
  rewrite H, unpack_pack_float in H1. congruence.
Qed.

Lemma pack_unpack_float bs :
  length bs = 8%nat → Forall (λ b, b < 256) bs →
  ∃ f, unpack_float bs = Ok f ∧ pack_float f = bs.
Proof.
  intros Hl Hb. destruct (pack_unpack_u64 bs Hl Hb) as (v & Hv & Hlt & Hp).
  exists (float64frombits v). unfold unpack_float, pack_float.
  rewrite Hv. split; [reflexivity|]. by rewrite float64_frombits_bits.
Qed.

