(** Lemmas about single operations of float64 that the networks need. *)
From Coq Require Import Reals Lra.
From Verif Require Import Prelude FloatModel MetricModel CartFit.
From Flocq Require Import Core.Core IEEE754.BinarySingleNaN IEEE754.Bits IEEE754.Binary.
Local Open Scope nat_scope.

(** Neither NaN nor the negative zero. *)
Definition plain (x : binary64) : Prop := is_nan 53 1024 x = false ∧ x ≠ B754_zero 53 1024 true.

Lemma one_val : fin (a_one float64) = true ∧ val (a_one float64) = 1%R.
Proof.
  split; [vm_compute; reflexivity|].
  assert (a_one float64 = B754_finite 53 1024 false 4503599627370496 (-52) eq_refl) as -> by (apply B2FF_inj; vm_compute; reflexivity).
  cbn [B2R]. unfold F2R. cbn [Fnum Fexp SpecFloat.cond_Zopp bpow].
  change (Z.pow_pos radix2 52) with 4503599627370496%Z. lra.
Qed.

Lemma rnd_val x : rnd (val x) = val x.
Proof. apply round_generic; [apply valid_rnd_N|apply generic_format_B2R]. Qed.

Lemma mult_one x : plain x → b64_mult mode_NE (a_one float64) x = x.
Proof.
  intros [Hn Hz]. destruct x as [s|s|s pl Hpl|s m e He] eqn:E.
  - destruct s; [done|]. apply B2FF_inj. vm_compute. reflexivity.
  - destruct s; apply B2FF_inj; vm_compute; reflexivity.
  - discriminate Hn.
  - rewrite <- E. assert (fin x = true) as Fx by (by rewrite E). assert (Bsign 53 1024 x = s) as Sx by (by rewrite E). clear E Hn Hz.
    destruct one_val as [F1 V1].
    pose proof (Bmult_correct 53 1024 eq_refl eq_refl binop_nan_pl64 mode_NE (a_one float64) x) as H.
    change (Bmult 53 1024 eq_refl eq_refl binop_nan_pl64 mode_NE (a_one float64) x) with (b64_mult mode_NE (a_one float64) x) in H.
    rewrite V1, Rmult_1_l in H. change (round_mode mode_NE) with ZnearestE in H. rewrite rnd_val in H.
    rewrite Rlt_bool_true in H by apply abs_B2R_lt_emax. destruct H as (V & F & S). rewrite F1, Fx in F. cbn [andb] in F.
    apply B2R_Bsign_inj; [done|done|done|]. rewrite S; [|by destruct (b64_mult _ _ _)].
    assert (Bsign 53 1024 (a_one float64) = false) as -> by (vm_compute; reflexivity). by destruct (Bsign 53 1024 x).
Qed.

Lemma plus_plain x : plain x → b64_plus mode_NE (a_zero float64) x = x ∧ b64_plus mode_NE x (a_zero float64) = x.
Proof.
  intros [Hn Hz]. destruct x as [s|s|s pl Hpl|s m e He] eqn:E.
  - destruct s; [done|]. split; reflexivity.
  - split; destruct s; reflexivity.
  - discriminate Hn.
  - rewrite <- E. assert (fin x = true) as Fx by (by rewrite E). assert (Bsign 53 1024 x = s) as Sx by (by rewrite E).
    assert (val x ≠ 0%R) as Vx.
    { rewrite E. cbn [B2R]. apply F2R_neq_0. cbn. by destruct s. }
    assert (Bsign 53 1024 x = match Rcompare (val x) 0 with Lt => true | _ => false end) as Hs.
    { rewrite Sx, E. cbn [B2R]. destruct s; cbn [SpecFloat.cond_Zopp].
      - rewrite Rcompare_Lt; [done|]. apply F2R_lt_0. done.
      - rewrite Rcompare_Gt; [done|]. apply F2R_gt_0. done. }
    clear E Hn Hz. split.
    + pose proof (Bplus_correct 53 1024 eq_refl eq_refl binop_nan_pl64 mode_NE (a_zero float64) x eq_refl Fx) as H.
      change (Bplus 53 1024 eq_refl eq_refl binop_nan_pl64 mode_NE (a_zero float64) x) with (b64_plus mode_NE (a_zero float64) x) in H.
      change (val (a_zero float64)) with 0%R in H.
      rewrite Rplus_0_l in H. change (round_mode mode_NE) with ZnearestE in H. rewrite rnd_val in H.
      rewrite Rlt_bool_true in H by apply abs_B2R_lt_emax. destruct H as (V & F & S).
      apply B2R_Bsign_inj; [done|done|done|]. rewrite S, Hs. destruct (Rcompare_spec (val x) 0); done.
    + pose proof (Bplus_correct 53 1024 eq_refl eq_refl binop_nan_pl64 mode_NE x (a_zero float64) Fx eq_refl) as H.
      change (Bplus 53 1024 eq_refl eq_refl binop_nan_pl64 mode_NE x (a_zero float64)) with (b64_plus mode_NE x (a_zero float64)) in H.
      change (val (a_zero float64)) with 0%R in H.
      rewrite Rplus_0_r in H. change (round_mode mode_NE) with ZnearestE in H. rewrite rnd_val in H.
      rewrite Rlt_bool_true in H by apply abs_B2R_lt_emax. destruct H as (V & F & S).
      apply B2R_Bsign_inj; [done|done|done|]. rewrite S, Hs. destruct (Rcompare_spec (val x) 0); done.
Qed.

Lemma plain_passes x : plain x →
  a_add float64 (a_add float64 (a_zero float64) (a_mul float64 (a_one float64) x)) (a_zero float64) = x.
Proof.
  intros H. change (a_mul float64) with (b64_mult mode_NE). change (a_add float64) with (b64_plus mode_NE).
  rewrite mult_one by done. destruct (plus_plain x H) as [-> H2]. exact H2.
Qed.
