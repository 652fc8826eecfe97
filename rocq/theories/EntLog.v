(** A logarithm satisfying what is assumed of [math.Log]: the nearest number. *)
From Coq Require Import Reals Lra.
From Verif Require Import Prelude FloatModel FilterModel RuleModel CartModel CartFit GiniProofs EntModel EntSpec EntProofs.
From Flocq Require Import Core.Core Relative IEEE754.BinarySingleNaN IEEE754.Bits IEEE754.Binary.
Local Open Scope nat_scope.

Notation fexp64 := (SpecFloat.fexp 53 1024).

(** The number nearest to a real. *)
Definition nearest (y : R) : binary64 :=
  binary_normalize 53 1024 eq_refl eq_refl mode_NE (ZnearestE (scaled_mantissa radix2 fexp64 y)) (cexp radix2 fexp64 y) false.

Lemma nearest_correct y : (Rabs y <= 10000)%R → fin (nearest y) = true ∧ val (nearest y) = rnd y.
Proof.
  intros Hy. unfold nearest.
  pose proof (binary_normalize_correct 53 1024 eq_refl eq_refl mode_NE (ZnearestE (scaled_mantissa radix2 fexp64 y)) (cexp radix2 fexp64 y) false) as H.
  change (F2R (Float radix2 (ZnearestE (scaled_mantissa radix2 fexp64 y)) (cexp radix2 fexp64 y))) with (rnd y) in H.
  cbn [round_mode] in H.
  rewrite (round_generic radix2 fexp64 ZnearestE (rnd y)) in H.
  2: { apply generic_format_round; [apply (fexp_correct 53 1024); reflexivity|apply valid_rnd_N]. }
  apply Rabs_le_inv in Hy.
  rewrite (small_bound (-10000) 10000) in H by (lia || done). tauto.
Qed.

Definition nearest_log (x : binary64) : binary64 :=
  match x with B754_zero _ _ false => B754_infinity 53 1024 true | _ => nearest (ln (val x)) end.

Lemma ln_bpow e : ln (bpow radix2 e) = (IZR e * ln 2)%R.
Proof. rewrite bpow_exp. by rewrite ln_exp. Qed.

(** Logarithms of numbers other than 1 are not too small, and not too large. *)
Lemma ln_apart (x : binary64) : fin x = true → (0 < val x)%R → val x <> 1%R → (eps / 2 <= Rabs (ln (val x)))%R.
Proof.
  intros Fx Px Hx. pose proof (generic_format_B2R 53 1024 x) as G.
  assert (Valid_exp fexp64) as V by (apply (fexp_correct 53 1024); reflexivity).
  assert (0 < eps < / 8)%R as He.
  { split; [apply bpow_gt_0|]. change (bpow radix2 (-53) < bpow radix2 (-3))%R. apply bpow_lt. lia. }
  destruct (Rlt_or_le (val x) 1) as [L|L].
  - assert (val x <= 1 - eps)%R as H.
    { assert (pred radix2 fexp64 1 = 1 - eps)%R as <-.
      { change 1%R with (bpow radix2 0). rewrite pred_bpow. done. }
      apply pred_ge_gt; [done|done| |done]. apply (format_Z 1). lia. }
    pose proof (ln_le (val x) Px). rewrite Rabs_left1 by lra. lra.
  - assert (1 + eps <= val x)%R as H.
    { apply Rle_trans with (succ radix2 fexp64 1).
      - rewrite succ_eq_pos by lra. apply Rplus_le_compat_l.
        change 1%R with (bpow radix2 0). rewrite ulp_bpow. apply bpow_le. vm_compute. done.
      - apply succ_le_lt; [done|apply (format_Z 1); lia|done|lra]. }
    pose proof (ln_le (/ val x) (Rinv_0_lt_compat _ Px)) as H1. rewrite ln_Rinv in H1 by done.
    assert (/ val x <= / (1 + eps))%R by (apply Rinv_le_contravar; lra).
    assert (/ (1 + eps) <= 1 - eps / 2)%R.
    { apply (Rmult_le_reg_r (1 + eps)); [lra|]. rewrite Rinv_l by lra. nra. }
    rewrite Rabs_pos_eq; lra.
Qed.

Lemma ln_fits (x : binary64) : fin x = true → (0 < val x)%R → (Rabs (ln (val x)) <= 2000)%R.
Proof.
  intros Fx Px. assert (0 < ln 2 <= 1)%R as H2.
  { split; [apply ln2_pos|]. pose proof (ln_le 2 ltac:(lra)). lra. }
  apply Rabs_le. split.
  - assert (bpow radix2 (-1074) <= val x)%R as H.
    { destruct x as [s|s|s pl Hpl|s m e He]; try discriminate Fx.
      - cbn in Px. lra.
      - pose proof (abs_B2R_ge_emin 53 1024 (B754_finite 53 1024 s m e He) eq_refl) as H.
        rewrite Rabs_pos_eq in H by lra. exact H. }
    assert (ln (bpow radix2 (-1074)) <= ln (val x))%R as Hl.
    { destruct (Req_dec (bpow radix2 (-1074)) (val x)) as [->|]; [lra|]. apply Rlt_le, ln_increasing; [apply bpow_gt_0|lra]. }
    rewrite ln_bpow in Hl. nra.
  - pose proof (abs_B2R_lt_emax 53 1024 x) as H. rewrite Rabs_pos_eq in H by lra.
    assert (ln (val x) < ln (bpow radix2 1024))%R as Hl by (by apply ln_increasing).
    rewrite ln_bpow in Hl. nra.
Qed.

Lemma nearest_log_go : go_log nearest_log.
Proof.
  split; [done|]. intros x Fx Px. pose proof (ln_fits x Fx Px) as Hf.
  assert (nearest_log x = nearest (ln (val x))) as ->.
  { destruct x as [[]|s|s pl Hpl|s m e He]; try done. cbn in Px. lra. }
  destruct (nearest_correct (ln (val x)) ltac:(lra)) as [F1 V1]. split; [done|]. rewrite V1.
  destruct (Req_dec (val x) 1) as [E|E].
  - rewrite E, ln_1, round_0 by apply valid_rnd_N. rewrite Rminus_0_r, !Rabs_R0. lra.
  - pose proof (ln_apart x Fx Px E) as Hn.
    pose proof (relative_error_N_FLT radix2 (-1074) 53 ltac:(reflexivity) (λ n, negb (Z.even n)) (ln (val x))) as Hr.
    apply Rle_trans with (/ 2 * bpow radix2 (- (53) + 1) * Rabs (ln (val x)))%R.
    + apply Hr. apply Rle_trans with (eps / 2)%R; [|done]. 
      replace (eps / 2)%R with (bpow radix2 (-54)); [apply bpow_le; lia|].
      change (-54)%Z with (-53 + -1)%Z. rewrite bpow_plus. change (bpow radix2 (-1)) with (/ 2)%R. done.
    + apply Rmult_le_compat_r; [apply Rabs_pos|].
      apply Rle_trans with (bpow radix2 (- (53) + 1)); [pose proof (bpow_gt_0 radix2 (- (53) + 1)); lra|].
      apply bpow_le. lia.
Qed.
