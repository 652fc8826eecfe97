(** Order of binary64 numbers: comparing floats is comparing integer keys. *)
From Verif Require Import Prelude BytesModel FloatModel FloatProofs.
From Flocq Require Import IEEE754.Bits IEEE754.Binary.

Lemma finite_bits (m : positive) (e : Z) H :
  bits_of_b64 (B754_finite 53 1024 false m e H) = ((e + 1074) * 2^52 + Z.pos m)%Z ∧
  (-1074 ≤ e ≤ 971)%Z ∧ (Z.pos m < 2^53)%Z ∧ (e = -1074 ∨ 2^52 ≤ Z.pos m)%Z.
Proof.
  pose proof H as Hb. unfold SpecFloat.bounded in Hb. apply andb_true_iff in Hb as [Hc He].
  apply Zeq_bool_eq in Hc. apply Z.leb_le in He.
  unfold SpecFloat.fexp, SpecFloat.emin in Hc.
  pose proof (Digits.Zdigits_correct Zaux.radix2 (Z.pos m)) as Hd.
  rewrite Digits.Zpos_digits2_pos in Hc. 
  set (D := Digits.Zdigits Zaux.radix2 (Z.pos m)) in *.
  change (Z.abs (Z.pos m)) with (Z.pos m) in Hd.
  assert (0 < D)%Z as HD0 by (apply Digits.Zdigits_gt_0; done).
  assert (D ≤ 53)%Z as HD by lia.
  assert (Z.pos m < 2^53)%Z as Hm53.
  { eapply Z.lt_le_trans; [apply Hd|].
    change (Zaux.radix_val Zaux.radix2) with 2%Z. apply Z.pow_le_mono_r; lia. }
  assert (e = -1074 ∨ 2^52 ≤ Z.pos m)%Z as Hnorm.
  { destruct (Z.eq_dec e (-1074)%Z) as [|Hne]; [by left|]. right.
    assert (D = 53)%Z as HD' by lia. rewrite HD' in Hd. apply Hd. }
  split; [|split; [lia|split; [done|done]]].
  unfold bits_of_b64, bits_of_binary_float.
  destruct (0 <=? Z.pos m - 2 ^ 52)%Z eqn:E.
  - unfold join_bits. rewrite Z.shiftl_mul_pow2 by lia. 
    change (SpecFloat.emin (52 + 1) (2 ^ (11 - 1))) with (-1074)%Z. lia.
  - unfold join_bits. rewrite Z.shiftl_mul_pow2 by lia.
    apply Z.leb_gt in E. assert (e = -1074)%Z as -> by lia. lia.
Qed.


Lemma sign_bits (m : positive) (e : Z) H :
  bits_of_b64 (B754_finite 53 1024 true m e H) =
  (2^63 + bits_of_b64 (B754_finite 53 1024 false m e H))%Z.
Proof.
  unfold bits_of_b64, bits_of_binary_float.
  destruct (0 <=? Z.pos m - 2 ^ 52)%Z; unfold join_bits;
    rewrite !Z.shiftl_mul_pow2 by lia; simpl (2 ^ 11)%Z; simpl (2^52)%Z; simpl (2^63)%Z; lia.
Qed.

(** The integer whose order is that of the float (both zeros are 0). *)
Definition fkey (x : binary64) : Z :=
  if Bsign 53 1024 x then (2^63 - bits_of_b64 x)%Z else bits_of_b64 x.

Lemma fkey_finite s m e H :
  fkey (B754_finite 53 1024 s m e H) =
    (if s then - ((e + 1074) * 2^52 + Z.pos m) else (e + 1074) * 2^52 + Z.pos m)%Z.
Proof.
  unfold fkey. change (Bsign 53 1024 (B754_finite 53 1024 s m e H)) with s. destruct s.
  - rewrite sign_bits. destruct (finite_bits m e H) as (-> & _). lia.
  - by destruct (finite_bits m e H) as (-> & _).
Qed.

Lemma fkey_zero s : fkey (B754_zero 53 1024 s) = 0%Z.
Proof. by destruct s. Qed.
Lemma fkey_inf s : fkey (B754_infinity 53 1024 s) = (if s then - (2047 * 2^52) else 2047 * 2^52)%Z.
Proof. by destruct s. Qed.

Lemma mono_key m1 e1 (H1 : SpecFloat.bounded 53 1024 m1 e1 = true) m2 e2
    (H2 : SpecFloat.bounded 53 1024 m2 e2 = true) :
  match Z.compare e1 e2 with Eq => Pos.compare_cont Eq m1 m2 | Lt => Lt | Gt => Gt end =
  ((e1 + 1074) * 2^52 + Z.pos m1 ?= (e2 + 1074) * 2^52 + Z.pos m2)%Z.
Proof.
  destruct (finite_bits m1 e1 H1) as (_ & A1 & A2 & A3).
  destruct (finite_bits m2 e2 H2) as (_ & B1 & B2 & B3).
  symmetry. destruct (Z.compare_spec e1 e2) as [->|Hlt|Hgt].
  - rewrite Z.add_compare_mono_l. done.
  - apply Z.compare_lt_iff. assert (e2 = e1 + 1 ∨ e1 + 2 ≤ e2)%Z as [->|] by lia; lia.
  - apply Z.compare_gt_iff. assert (e1 = e2 + 1 ∨ e2 + 2 ≤ e1)%Z as [->|] by lia; lia.
Qed.

Lemma fkey_compare x y : is_nan 53 1024 x = false → is_nan 53 1024 y = false →
  Bcompare 53 1024 x y = Some (fkey x ?= fkey y)%Z.
Proof.
  intros Hx Hy.
  assert (∀ (m : positive) e (H : SpecFloat.bounded 53 1024 m e = true),
    (0 < (e + 1074) * 2^52 + Z.pos m < 2047 * 2^52)%Z) as Hb.
  { intros m e H. destruct (finite_bits m e H) as (_ & H1 & H2 & H3). lia. }
  destruct x as [s1|s1|?|s1 m1 e1 H1]; [| |discriminate|];
    (destruct y as [s2|s2|?|s2 m2 e2 H2]; [| |discriminate|]);
    rewrite ?fkey_zero, ?fkey_inf, ?fkey_finite.
  - done.
  - by destruct s2.
  - specialize (Hb m2 e2 H2).
    change (Some (if s2 then Gt else Lt) =
      Some (0 ?= if s2 then - ((e2 + 1074) * 2^52 + Z.pos m2) else (e2 + 1074) * 2^52 + Z.pos m2)%Z).
    f_equal. symmetry. destruct s2; [apply Z.compare_gt_iff|apply Z.compare_lt_iff]; lia.
  - by destruct s1.
  - by destruct s1, s2.
  - specialize (Hb m2 e2 H2).
    change (Some (if s1 then Lt else Gt) =
      Some ((if s1 then - (2047 * 2^52) else 2047 * 2^52) ?= if s2 then - ((e2 + 1074) * 2^52 + Z.pos m2) else (e2 + 1074) * 2^52 + Z.pos m2)%Z).
    f_equal. symmetry. destruct s1; [apply Z.compare_lt_iff|apply Z.compare_gt_iff]; destruct s2; lia.
  - specialize (Hb m1 e1 H1).
    change (Some (if s1 then Lt else Gt) =
      Some ((if s1 then - ((e1 + 1074) * 2^52 + Z.pos m1) else (e1 + 1074) * 2^52 + Z.pos m1) ?= 0)%Z).
    f_equal. symmetry. destruct s1; [apply Z.compare_lt_iff|apply Z.compare_gt_iff]; lia.
  - specialize (Hb m1 e1 H1).
    change (Some (if s2 then Gt else Lt) =
      Some ((if s1 then - ((e1 + 1074) * 2^52 + Z.pos m1) else (e1 + 1074) * 2^52 + Z.pos m1) ?=
            (if s2 then - (2047 * 2^52) else 2047 * 2^52))%Z).
    f_equal. symmetry. destruct s2; [apply Z.compare_gt_iff|apply Z.compare_lt_iff]; destruct s1; lia.
  - pose proof (Hb m1 e1 H1) as P1. pose proof (Hb m2 e2 H2) as P2.
    pose proof (mono_key m1 e1 H1 m2 e2 H2) as K.
    change (Bcompare 53 1024 (B754_finite 53 1024 s1 m1 e1 H1) (B754_finite 53 1024 s2 m2 e2 H2))
      with (Some (if s1 then if s2
         then match Z.compare e1 e2 with Eq => CompOpp (Pos.compare_cont Eq m1 m2) | Lt => Gt | Gt => Lt end
         else Lt else if s2 then Gt else
         match Z.compare e1 e2 with Eq => Pos.compare_cont Eq m1 m2 | Lt => Lt | Gt => Gt end)).
    f_equal. destruct s1, s2.
    + rewrite Z.compare_opp.
      rewrite (Z.compare_antisym ((e1 + 1074) * 2^52 + Z.pos m1)), <- K.
      by destruct (Z.compare e1 e2).
    + symmetry. apply Z.compare_lt_iff. lia.
    + symmetry. apply Z.compare_gt_iff. lia.
    + exact K.
Qed.

Lemma fcompare_nan x y : is_nan 53 1024 x = true ∨ is_nan 53 1024 y = true →
  Bcompare 53 1024 x y = None.
Proof.
  intros [H|H].
  - destruct x; try discriminate. by destruct y.
  - destruct y; try discriminate. by destruct x as [| | |[] ? ? ?].
Qed.

(** Comparisons of Go floats as comparisons of keys of numbers. *)
Lemma fcompare_spec x y c :
  Bcompare 53 1024 x y = Some c ↔
  is_nan 53 1024 x = false ∧ is_nan 53 1024 y = false ∧ (fkey x ?= fkey y)%Z = c.
Proof.
  destruct (is_nan 53 1024 x) eqn:Ex; [rewrite fcompare_nan by auto; naive_solver|].
  destruct (is_nan 53 1024 y) eqn:Ey; [rewrite fcompare_nan by auto; naive_solver|].
  rewrite fkey_compare by done. naive_solver.
Qed.
