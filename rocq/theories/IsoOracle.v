(** Functions that satisfy what the theorems on isolation forests ask of [math.Log] and
    [math.Pow], so that their hypotheses can be met. *)
From Coq Require Import Reals Psatz.
From Verif Require Import Prelude FloatModel FloatOrder AttrModel StoreModel DenseModel DenseProofs GridModel GridSpec
  GridProofs FilterModel KnnModel Id3Model RuleModel RuleProofs RuleRefs CartModel CartSpec CartProofs CartGrow CartFit
  GiniProofs IsoModel IsoSpec IsoProofs IsoScore IsoSplit.
From Flocq Require Import Core.Core Relative IEEE754.BinarySingleNaN IEEE754.Bits IEEE754.Binary.
Local Open Scope nat_scope.

(** The logarithm in steps of 2^-20. *)
Definition log_w (x : binary64) : binary64 :=
  if float_eq x float_zero then float_neg_inf
  else b64_div mode_NE (float_of_Z (Zfloor (Rpower.ln (val x) * 1048576))) (float_of_Z 1048576).

Lemma log_w_close : log_close log_w.
Proof.
  intros n Hn. destruct (float_of_Z_exact n) as [F V]; [lia|]. unfold log_w.
  assert (1 <= IZR n)%R as Hn1 by (apply (IZR_le 1%Z); lia).
  destruct (float_eq (float_of_Z n) float_zero) eqn:E.
  { apply eq_val in E; [|done|done]. rewrite V in E. change (val float_zero) with 0%R in E. lra. }
  rewrite V. pose proof (ln_bound n Hn) as [L0 L1]. set (l := Rpower.ln (IZR n)) in *.
  pose proof (Zfloor_lb (l * 1048576)) as Z1. pose proof (Zfloor_ub (l * 1048576)) as Z2.
  set (z := Zfloor (l * 1048576)) in *.
  assert (-1 <= z <= 55574529)%Z as Hz.
  { split; apply le_IZR; lra. }
  destruct (float_of_Z_exact z) as [Fz Vz]; [lia|]. destruct (float_of_Z_exact 1048576) as [Fd Vd]; [lia|].
  unfold b64_div.
  pose proof (Bdiv_correct 53 1024 eq_refl eq_refl binop_nan_pl64 mode_NE (float_of_Z z) (float_of_Z 1048576)) as H.
  rewrite Vd in H. specialize (H ltac:(lra)). cbn [round_mode] in H. rewrite Vz in H.
  assert (-1 <= IZR z / 1048576 <= 54)%R as Hq by lra.
  rewrite (small_bound (-1) 54) in H; [|lia|lia|done]. destruct H as (H & H' & _).
  split; [by rewrite H', Fz|]. rewrite H.
  assert (Rabs (rnd (IZR z / 1048576) - IZR z / 1048576) <= / 10000)%R as He.
  { eapply Rle_trans; [apply (rnd_error 6%Z); [lia|]|].
    - change (bpow radix2 6) with 64%R. apply Rabs_le. lra.
    - rewrite <- bpow_plus. apply Rle_trans with (bpow radix2 (-20)); [apply bpow_le; lia|].
      change (bpow radix2 (-20)) with (/ 1048576)%R. lra. }
  apply Rabs_le_inv in He. apply Rabs_le. lra.
Qed.

(** The powers of 2 in steps of 2^-1020, 1 for exponents above 0. *)
Definition pow_steps (v : R) : Z := Zfloor (Rpower 2 (Rmin v 0) * bpow radix2 1020).
Definition pow2_w (x : binary64) : binary64 :=
  match x with
  | B754_nan _ _ _ _ _ => x
  | B754_infinity _ _ true => float_zero
  | B754_infinity _ _ false => float_one
  | _ => binary_normalize 53 1024 eq_refl eq_refl mode_NE (pow_steps (val x)) (-1020) false
  end.

Lemma Rpower_le_one v : (Rpower 2 (Rmin v 0) <= 1)%R.
Proof.
  rewrite <- (Rpower_O 2) by lra. destruct (Rle_lt_or_eq_dec (Rmin v 0) 0 (Rmin_r _ _)) as [H|H].
  - apply Rlt_le, Rpower_lt; lra.
  - rewrite H. lra.
Qed.

Lemma steps_value v : fin (binary_normalize 53 1024 eq_refl eq_refl mode_NE (pow_steps v) (-1020) false) = true ∧
  val (binary_normalize 53 1024 eq_refl eq_refl mode_NE (pow_steps v) (-1020) false) =
    rnd (IZR (pow_steps v) * bpow radix2 (-1020)) ∧
  (0 <= IZR (pow_steps v) * bpow radix2 (-1020) <= 1)%R.
Proof.
  pose proof (Rpower_le_one v) as H1. assert (0 < Rpower 2 (Rmin v 0))%R as H0 by apply exp_pos.
  assert (0 < bpow radix2 1020)%R as Hb by apply bpow_gt_0.
  assert (0 < bpow radix2 (-1020))%R as Hb' by apply bpow_gt_0.
  assert (bpow radix2 1020 * bpow radix2 (-1020) = 1)%R as Hbb by (by rewrite <- bpow_plus).
  assert (0 <= pow_steps v)%Z as Z0.
  { apply (Zfloor_lub 0%Z). apply Rmult_le_pos; lra. }
  assert (IZR (pow_steps v) <= bpow radix2 1020)%R as Z1.
  { eapply Rle_trans; [apply Zfloor_lb|]. rewrite <- (Rmult_1_l (bpow radix2 1020)) at 2. apply Rmult_le_compat_r; lra. }
  assert (0 <= IZR (pow_steps v) * bpow radix2 (-1020) <= 1)%R as Hr.
  { split; [apply Rmult_le_pos; [by apply (IZR_le 0%Z)|lra]|]. rewrite <- Hbb. apply Rmult_le_compat_r; lra. }
  pose proof (binary_normalize_correct 53 1024 eq_refl eq_refl mode_NE (pow_steps v) (-1020) false) as H.
  cbn [round_mode] in H. unfold F2R in H. cbn [Fnum Fexp] in H.
  rewrite (small_bound 0 1) in H; [|lia|lia|lra]. by destruct H as (H & H' & _).
Qed.

Lemma pow2_w_close : pow2_close pow2_w.
Proof.
  intros x F Hx. assert (pow2_w x = binary_normalize 53 1024 eq_refl eq_refl mode_NE (pow_steps (val x)) (-1020) false) as ->.
  { destruct x as [s|s|s pl Hpl|s m e He]; done. }
  destruct (steps_value (val x)) as (Fn & Vn & Hr). split; [done|]. rewrite Vn.
  set (t := Rpower 2 (val x)).
  assert (Rmin (val x) 0 = val x) as Em by (apply Rmin_left; lra).
  assert (bpow radix2 (-1000) <= t)%R as Ht.
  { unfold t. rewrite bpow_powerRZ, powerRZ_Rpower by (cbn; lra). change (IZR radix2) with 2%R.
    destruct (Rle_lt_or_eq_dec (-1000) (val x) ltac:(lra)) as [H|H]; [apply Rlt_le, Rpower_lt; lra|]. rewrite <- H. apply Rle_refl. }
  assert (0 < bpow radix2 1020)%R as Hb by apply bpow_gt_0.
  assert (0 < bpow radix2 (-1020))%R as Hb' by apply bpow_gt_0.
  assert (bpow radix2 1020 * bpow radix2 (-1020) = 1)%R as Hbb by (by rewrite <- bpow_plus).
  set (y := (IZR (pow_steps (val x)) * bpow radix2 (-1020))%R) in *.
  assert (bpow radix2 (-1020) <= t * / 1048576)%R as Hsmall.
  { change (-1020)%Z with (-1000 + -20)%Z. rewrite bpow_plus. change (bpow radix2 (-20)) with (/ 1048576)%R.
    apply Rmult_le_compat_r; lra. }
  assert (t - t / 1048576 <= y <= t)%R as Hy.
  { unfold y, pow_steps. rewrite Em. fold t. pose proof (Zfloor_lb (t * bpow radix2 1020)) as Z1.
    pose proof (Zfloor_ub (t * bpow radix2 1020)) as Z2. set (z := IZR (Zfloor (t * bpow radix2 1020))) in *.
    assert (t = t * bpow radix2 1020 * bpow radix2 (-1020))%R as Et by (rewrite Rmult_assoc, Hbb; lra).
    split.
    - apply Rle_trans with ((t * bpow radix2 1020 - 1) * bpow radix2 (-1020))%R; [|apply Rmult_le_compat_r; lra].
      rewrite Rmult_minus_distr_r, <- Et. lra.
    - apply Rle_trans with (t * bpow radix2 1020 * bpow radix2 (-1020))%R; [apply Rmult_le_compat_r; lra|lra]. }
  assert (0 < t)%R as Ht0 by (pose proof (bpow_gt_0 radix2 (-1000)); lra).
  assert (Rabs (rnd y - y) <= / 2 * bpow radix2 (- (53) + 1) * Rabs y)%R as He.
  { apply (relative_error_N_FLT radix2 (-1074) 53 ltac:(lia)). rewrite Rabs_pos_eq by lra.
    apply Rle_trans with (bpow radix2 (-1001)); [apply bpow_le; lia|].
    apply Rle_trans with (t * / 2)%R; [|lra]. change (-1001)%Z with (-1000 + -1)%Z. rewrite bpow_plus.
    change (bpow radix2 (-1)) with (/ 2)%R. apply Rmult_le_compat_r; lra. }
  assert (bpow radix2 (- (53) + 1) <= / 1048576)%R as Hsm.
  { change (/ 1048576)%R with (bpow radix2 (-20)). apply bpow_le. lia. }
  assert (Rabs (rnd y - y) <= t * / 1048576)%R as He2.
  { eapply Rle_trans; [exact He|]. rewrite (Rabs_pos_eq y) by lra.
    apply Rle_trans with (/ 2 * / 1048576 * t)%R; [|lra].
    apply Rmult_le_compat; [|lra| |lra].
    - pose proof (bpow_ge_0 radix2 (- (53) + 1)). lra.
    - lra. }
  apply Rabs_le_inv in He2. apply Rabs_le. lra.
Qed.

Lemma pow2_w_monotone : pow2_monotone pow2_w.
Proof.
  assert (∀ v, fin (binary_normalize 53 1024 eq_refl eq_refl mode_NE (pow_steps v) (-1020) false) = true ∧
    (0 <= val (binary_normalize 53 1024 eq_refl eq_refl mode_NE (pow_steps v) (-1020) false) <= 1)%R) as Hv.
  { intros v. destruct (steps_value v) as (F & V & Hr). split; [done|]. rewrite V. apply (rnd_between 0 1); [lia|lia|lra]. }
  destruct one_exact as [F1 V1].
  assert (∀ x y, fin x = true → fin y = true → float_le x y = true → float_le (pow2_w x) (pow2_w y) = true) as Hfin.
  { intros x y Fx Fy Hle.
    assert (∀ z, fin z = true → pow2_w z = binary_normalize 53 1024 eq_refl eq_refl mode_NE (pow_steps (val z)) (-1020) false) as E.
    { intros [s|s|s pl Hpl|s m e He] Fz; done. }
    rewrite !E by done. apply le_val in Hle; [|done|done].
    destruct (steps_value (val x)) as (F & V & _). destruct (steps_value (val y)) as (F' & V' & _).
    apply le_val; [done|done|]. rewrite V, V'. apply round_le; [apply _|apply valid_rnd_N|].
    apply Rmult_le_compat_r; [apply bpow_ge_0|]. apply IZR_le. apply Zfloor_le. apply Rmult_le_compat_r; [apply bpow_ge_0|].
    apply Rle_Rpower; [lra|]. apply Rle_min_compat_r. done. }
  assert (∀ y, fin y = true → float_le float_zero (pow2_w y) = true ∧ float_le (pow2_w y) float_one = true) as Hends.
  { intros y Fy.
    assert (pow2_w y = binary_normalize 53 1024 eq_refl eq_refl mode_NE (pow_steps (val y)) (-1020) false) as ->.
    { destruct y as [s|s|s pl Hpl|s m e He]; done. }
    destruct (Hv (val y)) as [F V]. split; apply le_val; try done; [change (val float_zero) with 0%R; lra|rewrite V1; lra]. }
  intros x y Hle. destruct (fin x) eqn:Fx, (fin y) eqn:Fy.
  - by apply Hfin.
  - destruct y as [s|s|s pl Hpl|s m e He]; try done.
    + destruct s; [|apply Hends; done]. exfalso. destruct x as [s'|s'|s' pl' Hpl'|s' m' e' He']; try done; by destruct s'.
    + exfalso. destruct x as [s'|s'|s' pl' Hpl'|s' m' e' He']; try done; by destruct s'.
  - destruct x as [s|s|s pl Hpl|s m e He]; try done.
    + destruct s; [apply Hends; done|]. exfalso. destruct y as [s'|s'|s' pl' Hpl'|s' m' e' He']; try done; by destruct s'.
  - destruct x as [s|s|s pl Hpl|s m e He]; try done; destruct y as [s'|s'|s' pl' Hpl'|s' m' e' He']; try done; destruct s; try done; destruct s'; done.
Qed.

Lemma pow2_w_zero : pow2_w float_zero = float_one.
Proof.
  unfold pow2_w, float_zero. change (val _) with 0%R.
  destruct (steps_value 0) as (F & V & _). destruct one_exact as [F1 V1].
  assert (IZR (pow_steps 0) * bpow radix2 (-1020) = 1)%R as E.
  { unfold pow_steps. rewrite Rmin_left by lra. rewrite Rpower_O, Rmult_1_l by lra.
    rewrite <- (IZR_Zpower radix2 1020) by lia. rewrite Zfloor_IZR, IZR_Zpower by lia. by rewrite <- bpow_plus. }
  rewrite E in V. rewrite round_generic in V; [|apply valid_rnd_N|apply (format_pow 0); lia].
  apply B2R_inj; [|done|by rewrite V1, <- V].
  destruct (binary_normalize _ _ _ _ _ _ _ _) as [s|s|s pl Hpl|s m e He]; try done. cbn in V. lra.
Qed.

(** The number 1/2. *)
Definition a_half : binary64 := b64_of_bits 0x3FE0000000000000.
Lemma a_half_unit : unit_draw a_half.
Proof.
  split; [reflexivity|]. assert (val a_half = / 2)%R as ->; [|lra].
  assert (val a_half = F2R (Float radix2 4503599627370496 (-53))) as ->.
  { unfold a_half. vm_compute (b64_of_bits _). reflexivity. }
  unfold F2R. cbn [Fnum Fexp]. change (-53)%Z with (- (53))%Z.
  rewrite bpow_opp, <- (IZR_Zpower radix2) by lia.
  change (radix2 ^ 53)%Z with 9007199254740992%Z. lra.
Qed.
