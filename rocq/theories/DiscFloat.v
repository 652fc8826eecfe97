(** Equal-width binning in binary64: error analysis. *)
From Coq Require Import Reals Lra Lia.
From Verif Require Import Prelude BytesModel FloatModel AttrModel GridModel FilterModel RuleModel RuleProofs CartModel CartFit GiniProofs
  EntFloat IsoModel DiscModel.
From Flocq Require Import Core.Core Relative IEEE754.BinarySingleNaN IEEE754.Bits IEEE754.Binary.
Local Open Scope nat_scope.

Lemma floor_Z_spec x : fin x = true → floor_Z x = Zfloor (val x).
Proof.
  destruct x as [s|s|s pl H|s m e H]; try done; intros _.
  - cbn. symmetry. apply (Zfloor_IZR 0).
  - cbn [floor_Z B2R]. unfold F2R. cbn [Fnum Fexp].
    replace (cond_Zopp s (Z.pos m)) with (if s then Z.neg m else Z.pos m) by (by destruct s).
    generalize (if s then Z.neg m else Z.pos m). intros z.
    destruct (Z.leb_spec 0 e).
    + rewrite <- IZR_Zpower by done. rewrite <- mult_IZR, Zfloor_IZR. done.
    + replace e with (- - e)%Z at 2 by lia. rewrite bpow_opp. rewrite <- IZR_Zpower by lia.
      change (IZR z * / IZR (radix2 ^ - e))%R with (IZR z / IZR (radix2 ^ - e))%R.
      rewrite Zfloor_div; [done|]. apply Z.pow_nonzero; [done|lia].
Qed.

Lemma rnd_split x : ∃ e h, (Rabs e <= eps)%R ∧ (Rabs h <= bpow radix2 (-1075))%R ∧ rnd x = (x * (1 + e) + h)%R.
Proof.
  destruct (error_N_FLT radix2 (-1074) 53 ltac:(lia) (λ n, negb (Z.even n)) x) as (e & h & He & Hh & _ & Hr).
  exists e, h. split; [|split; [|exact Hr]].
  - eapply Rle_trans; [exact He|]. change (- (53) + 1)%Z with (1 + -53)%Z. rewrite bpow_plus. change (bpow radix2 1) with 2%R. lra.
  - eapply Rle_trans; [exact Hh|]. change (-1074)%Z with (1 + -1075)%Z at 1. rewrite bpow_plus. change (bpow radix2 1) with 2%R. pose proof (bpow_ge_0 radix2 (-1075)). lra.
Qed.

Lemma tiny_le m x : (-1000 <= m)%Z → (bpow radix2 m <= x)%R → (bpow radix2 (-1075) <= eps * x)%R.
Proof.
  intros Hm Hx. apply Rle_trans with (eps * bpow radix2 m)%R.
  - rewrite <- bpow_plus. apply bpow_le. lia.
  - apply Rmult_le_compat_l; [apply bpow_ge_0|done].
Qed.

Lemma tolerance : fin float_tolerance = true ∧ (Rabs (val float_tolerance - / 10000) <= eps)%R.
Proof.
  split; [reflexivity|].
  assert (val float_tolerance = IZR 0x1A36E2EB1C432D * bpow radix2 (-66))%R as ->. { unfold float_tolerance. vm_compute B2R. unfold F2R. cbn [Fnum Fexp]. reflexivity. }
  change (bpow radix2 (-66)) with (/ IZR (2 ^ 66))%R. change eps with (/ IZR (2 ^ 53))%R.
  apply Rabs_le. split; apply Rmult_le_reg_r with (IZR (2 ^ 66 * 10000)); try (apply IZR_lt; reflexivity).
  all: rewrite mult_IZR.
  - replace (- / IZR (2 ^ 53) * (IZR (2 ^ 66) * 10000))%R with (IZR (- (2 ^ 13) * 10000)).
    2:{ rewrite mult_IZR, opp_IZR. replace (IZR (2 ^ 66)) with (IZR (2 ^ 53) * IZR (2 ^ 13))%R by (rewrite <- mult_IZR; reflexivity).
        field. apply not_0_IZR. lia. }
    replace ((IZR 7378697629483821 * / IZR (2 ^ 66) - / 10000) * (IZR (2 ^ 66) * 10000))%R with (IZR (7378697629483821 * 10000 - 2 ^ 66)).
    2:{ rewrite minus_IZR, mult_IZR. field. apply not_0_IZR. lia. }
    apply IZR_le. lia.
  - replace (/ IZR (2 ^ 53) * (IZR (2 ^ 66) * 10000))%R with (IZR ((2 ^ 13) * 10000)).
    2:{ rewrite mult_IZR. replace (IZR (2 ^ 66)) with (IZR (2 ^ 53) * IZR (2 ^ 13))%R by (rewrite <- mult_IZR; reflexivity).
        field. apply not_0_IZR. lia. }
    replace ((IZR 7378697629483821 * / IZR (2 ^ 66) - / 10000) * (IZR (2 ^ 66) * 10000))%R with (IZR (7378697629483821 * 10000 - 2 ^ 66)).
    2:{ rewrite minus_IZR, mult_IZR. field. apply not_0_IZR. lia. }
    apply IZR_le. lia.
Qed.

Section bins.
  Context (mn mx : binary64) (bins : Z).
  Context (Fn : fin mn = true) (Fx : fin mx = true) (Fd : fin (b64_minus mode_NE mx mn) = true).
  Context (Hb : (1 <= bins <= 1000000000)%Z).
  Notation lo := (val mn).
  Notation hi := (val mx).
  Notation W := (hi - lo)%R.
  Notation n := (IZR bins).
  Context (HW : (bpow radix2 (-900) <= W)%R).

  Notation D := (rnd W).
  Notation d := (rnd (rnd W / IZR bins)).

  Lemma n_range : (1 <= n <= 1000000000)%R.
  Proof. split; apply IZR_le; lia. Qed.

  Lemma W_pos : (0 < W)%R.
  Proof. pose proof (bpow_gt_0 radix2 (-900)). lra. Qed.

  Lemma minus_cases a b : fin a = true → fin b = true → fin (b64_minus mode_NE a b) = true →
    Rlt_bool (Rabs (rnd (val a - val b))) (bpow radix2 1024) = true ∧ val (b64_minus mode_NE a b) = rnd (val a - val b).
  Proof.
    intros Ha Hb' Hf. unfold b64_minus in *.
    pose proof (Bminus_correct 53 1024 eq_refl eq_refl binop_nan_pl64 mode_NE a b Ha Hb') as H. cbn [round_mode] in H.
    destruct (Rlt_bool _ _); [tauto|]. destruct H as [H _]. exfalso.
    revert H Hf. generalize (Bminus 53 1024 eq_refl eq_refl binop_nan_pl64 mode_NE a b). clear.
    intros f. unfold binary_overflow, BinarySingleNaN.binary_overflow. destruct f; cbn; intros; try done.
  Qed.

  Lemma width_top : val (b64_minus mode_NE mx mn) = D.
  Proof. apply minus_cases; done. Qed.

  Lemma D_near : (Rabs (D - W) <= 2 * eps * W)%R.
  Proof.
    destruct (rnd_split W) as (e & h & He & Hh & ->). pose proof W_pos.
    pose proof (tiny_le (-900) W ltac:(lia) HW).
    replace (W * (1 + e) + h - W)%R with (W * e + h)%R by lra.
    eapply Rle_trans; [apply Rabs_triang|]. rewrite Rabs_mult, (Rabs_pos_eq W) by lra. nra.
  Qed.

  Lemma D_range : (W / 2 <= D <= 2 * W)%R.
  Proof. pose proof D_near as H. apply Rabs_le_inv in H. pose proof eps_small. pose proof W_pos. nra. Qed.

  Lemma Dn_big : (bpow radix2 (-940) <= D / n)%R.
  Proof.
    pose proof D_range. pose proof n_range. apply Rmult_le_reg_r with n; [lra|]. unfold Rdiv. rewrite Rmult_assoc, Rinv_l, Rmult_1_r by lra.
    apply Rle_trans with (bpow radix2 (-940) * bpow radix2 30)%R.
    - apply Rmult_le_compat_l; [apply bpow_ge_0|]. change (bpow radix2 30) with (IZR (2 ^ 30)). apply IZR_le. lia.
    - rewrite <- bpow_plus. apply Rle_trans with (W / 2)%R; [|lra].
      apply Rle_trans with (bpow radix2 (-901)).
      + apply bpow_le. lia.
      + change (-901)%Z with (-900 + -1)%Z. rewrite bpow_plus. change (bpow radix2 (-1)) with (/ 2)%R. lra.
  Qed.

  Lemma d_near : (Rabs (d - W / n) <= 5 * eps * (W / n))%R.
  Proof.
    destruct (rnd_split (D / n)) as (e & h & He & Hh & ->). pose proof n_range as Hn.
    pose proof (tiny_le (-940) (D / n) ltac:(lia) Dn_big) as Ht.
    pose proof D_near as HD. pose proof D_range as HR. pose proof eps_small as Hs. pose proof W_pos as HWp.
    set (w := (W / n)%R). set (D' := (D / n)%R) in *.
    assert (0 < w)%R as Hw. { apply Rdiv_lt_0_compat; lra. }
    assert (Rabs (D' - w) <= 2 * eps * w)%R as Hd'.
    { unfold D', w. replace (D / n - W / n)%R with ((D - W) * / n)%R by (field; lra).
      rewrite Rabs_mult, (Rabs_pos_eq (/ n)) by (left; apply Rinv_0_lt_compat; lra).
      replace (2 * eps * (W / n))%R with (2 * eps * W * / n)%R by (field; lra).
      apply Rmult_le_compat_r; [left; apply Rinv_0_lt_compat; lra|done]. }
    assert (0 < D' <= w * (1 + 2 * eps))%R as HD'.
    { apply Rabs_le_inv in Hd'. split; [|nra]. unfold D'. apply Rdiv_lt_0_compat; lra. }
    replace (D' * (1 + e) + h - w)%R with (D' * e + (h + (D' - w)))%R by lra.
    eapply Rle_trans; [apply Rabs_triang|]. rewrite Rabs_mult, (Rabs_pos_eq D') by lra.
    pose proof (Rabs_triang h (D' - w)). 
    assert (D' * Rabs e <= D' * eps)%R by (apply Rmult_le_compat_l; lra).
    assert (D' * eps <= w * (1 + 2 * eps) * eps)%R by (apply Rmult_le_compat_r; lra).
    assert (w * (1 + 2 * eps) * eps <= 3 / 2 * (eps * w))%R.
    { replace (w * (1 + 2 * eps) * eps)%R with ((1 + 2 * eps) * (eps * w))%R by lra.
      apply Rmult_le_compat_r; [apply Rmult_le_pos; lra|lra]. }
    assert (Rabs h <= 3 / 2 * (eps * w))%R.
    { eapply Rle_trans; [exact Hh|]. eapply Rle_trans; [exact Ht|]. rewrite Rmult_comm. lra. }
    lra.
  Qed.

  Lemma d_range : (0 < d ∧ W / n / 2 <= d)%R.
  Proof.
    pose proof d_near as H. apply Rabs_le_inv in H. pose proof eps_small. pose proof n_range.
    assert (0 < W / n)%R. { apply Rdiv_lt_0_compat; [apply W_pos|lra]. } split; nra.
  Qed.

  Lemma width_val : fin (bin_width mn mx bins) = true ∧ val (bin_width mn mx bins) = d.
  Proof.
    unfold bin_width. pose proof n_range as Hn. destruct (float_of_Z_exact bins) as [F1 F2]; [lia|].
    pose proof width_top as HD. destruct (minus_cases mx mn Fx Fn Fd) as [Hlt _].
    unfold b64_div. pose proof (Bdiv_correct 53 1024 eq_refl eq_refl binop_nan_pl64 mode_NE (b64_minus mode_NE mx mn) (float_of_Z bins)) as H.
    rewrite F2 in H. specialize (H ltac:(apply not_0_IZR; lia)). cbn [round_mode] in H. rewrite HD in H.
    rewrite Rlt_bool_true in H.
    - destruct H as (H1 & H2 & _). split; [by rewrite H2|done].
    - destruct (Rlt_bool_spec (Rabs D) (bpow radix2 1024)) as [Hlt'|]; [|done]. eapply Rle_lt_trans; [|exact Hlt']. pose proof D_range. pose proof W_pos.
      assert (0 <= D / n <= D)%R as HDn.
      { split; [left; apply Rdiv_lt_0_compat; lra|]. apply Rmult_le_reg_r with n; [lra|]. unfold Rdiv.
        rewrite Rmult_assoc, Rinv_l, Rmult_1_r by lra. nra. }
      rewrite (Rabs_pos_eq D) by lra. rewrite Rabs_pos_eq.
      + apply round_le_generic; [apply _|apply _| |apply HDn]. apply generic_format_round; apply _.
      + rewrite <- (round_0 radix2 (SpecFloat.fexp 53 1024) ZnearestE). apply round_le; [apply _|apply _|apply HDn].
  Qed.

  (** The argument of the floor, for a number of the range. *)
  Definition argument (v : R) : R := rnd (rnd (rnd (v - lo) / d) + val float_tolerance).

  Definition exact_share (v : R) : R := ((v - lo) / (W / n))%R.

  Lemma x_near v : (lo < v <= hi)%R → (Rabs (rnd (v - lo) - (v - lo)) <= 2 * eps * W)%R.
  Proof.
    intros Hv. destruct (rnd_split (v - lo)) as (e & h & He & Hh & ->). pose proof (tiny_le (-900) W ltac:(lia) HW).
    replace ((v - lo) * (1 + e) + h - (v - lo))%R with ((v - lo) * e + h)%R by lra.
    eapply Rle_trans; [apply Rabs_triang|]. rewrite Rabs_mult, (Rabs_pos_eq (v - lo)) by lra.
    pose proof eps_small. assert ((v - lo) * Rabs e <= W * eps)%R; [|lra].
    apply Rmult_le_compat; [lra|apply Rabs_pos|lra|done].
  Qed.

  Lemma share_range v : (lo < v <= hi)%R → (0 < exact_share v <= n)%R.
  Proof.
    intros Hv. unfold exact_share. pose proof W_pos. pose proof n_range.
    replace ((v - lo) / (W / n))%R with ((v - lo) * n / W)%R by (field; lra). split.
    - apply Rdiv_lt_0_compat; [|done]. apply Rmult_lt_0_compat; lra.
    - apply Rmult_le_reg_r with W; [done|]. unfold Rdiv. rewrite Rmult_assoc, Rinv_l, Rmult_1_r by lra. nra.
  Qed.

  Lemma quotient_near v : (lo < v <= hi)%R → (Rabs (rnd (v - lo) / d - exact_share v) <= 20 * n * eps)%R.
  Proof.
    intros Hv. pose proof (x_near v Hv) as Hx. pose proof d_near as Hd. pose proof d_range as [Hd0 Hd1].
    pose proof (share_range v Hv) as Ht. pose proof n_range as Hn. pose proof W_pos as HWp. pose proof eps_small as Hs.
    set (x := rnd (v - lo)) in *. set (t := exact_share v) in *. set (w := (W / n)%R) in *.
    assert (0 < w)%R as Hw. { apply Rdiv_lt_0_compat; lra. }
    assert (v - lo = t * w)%R as Et. { unfold t, exact_share. fold w. field. lra. }
    assert (W = n * w)%R as EW. { unfold w. field. lra. }
    apply Rmult_le_reg_r with d; [done|]. rewrite <- (Rabs_pos_eq d) at 2 by lra. rewrite <- Rabs_mult.
    replace ((x / d - t) * d)%R with ((x - (v - lo)) + t * (w - d))%R by (rewrite Et; field; lra).
    eapply Rle_trans; [apply Rabs_triang|]. rewrite Rabs_mult, (Rabs_pos_eq t), (Rabs_minus_sym w) by lra.
    assert (t * Rabs (d - w) <= n * (5 * eps * w))%R.
    { apply Rmult_le_compat; [lra|apply Rabs_pos|lra|done]. }
    assert (2 * eps * W = 2 * (n * eps * w))%R as E2 by (rewrite EW; lra).
    assert (0 <= n * eps * w)%R. { apply Rmult_le_pos; [apply Rmult_le_pos; lra|lra]. }
    assert (10 * (n * eps * w) <= 20 * n * eps * d)%R as H10.
    { replace (20 * n * eps * d)%R with (20 * (n * eps) * d)%R by lra.
      replace (10 * (n * eps * w))%R with (20 * (n * eps) * (w / 2))%R by lra.
      apply Rmult_le_compat_l; [|lra]. assert (0 <= n * eps)%R by (apply Rmult_le_pos; lra). lra. }
    lra.
  Qed.

  Lemma small_n : (40 * n * eps <= / 100000)%R.
  Proof.
    pose proof n_range. pose proof eps_small. apply Rle_trans with (40 * 1000000000 * eps)%R.
    - apply Rmult_le_compat_r; lra.
    - change eps with (/ IZR (2 ^ 53))%R. apply Rmult_le_reg_r with (IZR (2 ^ 53)); [apply IZR_lt; reflexivity|].
      rewrite Rmult_assoc, Rinv_l, Rmult_1_r by (apply not_0_IZR; lia).
      assert (9007199254740992 = IZR (2 ^ 53))%R as <- by reflexivity. lra.
  Qed.

  Lemma quotient_rounded v : (lo < v <= hi)%R → (Rabs (rnd (rnd (v - lo) / d) - exact_share v) <= 24 * n * eps)%R.
  Proof.
    intros Hv. pose proof (quotient_near v Hv) as Hq. pose proof (share_range v Hv) as Ht. pose proof n_range as Hn.
    pose proof small_n. pose proof eps_small. assert (0 <= n * eps)%R by (apply Rmult_le_pos; lra).
    pose proof (rnd_rel (n + 1) (rnd (v - lo) / d)) as Hr.
    pose proof (Rabs_le_inv _ _ Hq) as Hq'.
    specialize (Hr ltac:(lra) ltac:(apply Rabs_le; lra)).
    replace (rnd (rnd (v - lo) / d) - exact_share v)%R with
      ((rnd (rnd (v - lo) / d) - rnd (v - lo) / d) + (rnd (v - lo) / d - exact_share v))%R by lra.
    eapply Rle_trans; [apply Rabs_triang|].
    assert (2 * (n + 1) * eps <= 4 * n * eps)%R. { apply Rmult_le_compat_r; lra. } lra.
  Qed.

  Lemma argument_near v : (lo < v <= hi)%R → (Rabs (argument v - (exact_share v + / 10000)) <= / 100000)%R.
  Proof.
    intros Hv. pose proof (quotient_rounded v Hv) as Hq. pose proof (share_range v Hv) as Ht. pose proof n_range as Hn.
    pose proof small_n. pose proof eps_small. assert (0 <= n * eps)%R by (apply Rmult_le_pos; lra).
    destruct tolerance as [_ Hc]. pose proof (Rabs_le_inv _ _ Hc). pose proof (Rabs_le_inv _ _ Hq).
    unfold argument. set (q := rnd (rnd (v - lo) / d)) in *. set (c := val float_tolerance) in *.
    pose proof (rnd_rel (n + 1) (q + c)) as Hr. specialize (Hr ltac:(lra) ltac:(apply Rabs_le; lra)).
    replace (rnd (q + c) - (exact_share v + / 10000))%R with
      ((rnd (q + c) - (q + c)) + ((q - exact_share v) + (c - / 10000)))%R by lra.
    eapply Rle_trans; [apply Rabs_triang|]. pose proof (Rabs_triang (q - exact_share v) (c - / 10000)).
    assert (2 * (n + 1) * eps <= 4 * n * eps)%R. { apply Rmult_le_compat_r; lra. }
    assert (eps <= n * eps)%R. { rewrite <- (Rmult_1_l eps) at 1. apply Rmult_le_compat_r; lra. } lra.
  Qed.

  Lemma fin_le a b : fin a = true → fin b = true → float_le a b = true ↔ (val a <= val b)%R.
  Proof.
    intros Ha Hb'. unfold float_le. rewrite Bcompare_correct by done.
    destruct (Rcompare_spec (val a) (val b)); split; intros; try done; lra.
  Qed.

  Lemma argument_range v : (lo < v <= hi)%R → (0 < argument v < n + 1)%R.
  Proof.
    intros Hv. pose proof (share_range v Hv). pose proof (Rabs_le_inv _ _ (argument_near v Hv)). lra.
  Qed.

  Lemma bin_of_floor wild v : fin v = true → (lo < val v <= hi)%R →
    bin_of wild mn mx bins v = Zfloor (argument (val v)).
  Proof.
    intros Fv Hv. unfold bin_of. destruct (float_le v mn) eqn:E.
    { apply fin_le in E; [lra|done|done]. }
    pose proof (argument_range (val v) Hv) as Ha. pose proof n_range as Hn. pose proof (share_range (val v) Hv) as Hs.
    destruct width_val as [Fw Ew]. destruct d_range as [Hd0 _].
    pose proof (Rabs_le_inv _ _ (quotient_near (val v) Hv)) as Hq.
    pose proof small_n as Hsm. assert (0 <= n * eps)%R by (apply Rmult_le_pos; [lra|apply bpow_ge_0]).
    (* the difference *)
    assert (fin (b64_minus mode_NE v mn) = true ∧ val (b64_minus mode_NE v mn) = rnd (val v - lo)) as [F1 E1].
    { destruct (minus_cases mx mn Fx Fn Fd) as [Hlt _]. unfold b64_minus.
      pose proof (Bminus_correct 53 1024 eq_refl eq_refl binop_nan_pl64 mode_NE v mn Fv Fn) as H'. cbn [round_mode] in H'.
      rewrite Rlt_bool_true in H'; [tauto|].
      destruct (Rlt_bool_spec (Rabs D) (bpow radix2 1024)) as [Hlt'|]; [|done]. eapply Rle_lt_trans; [|exact Hlt'].
      assert (0 <= rnd (val v - lo) <= D)%R as Hr.
      { split; [|apply round_le; [apply _|apply _|lra]].
        rewrite <- (round_0 radix2 (SpecFloat.fexp 53 1024) ZnearestE). apply round_le; [apply _|apply _|lra]. }
      rewrite !Rabs_pos_eq; lra. }
    (* the quotient *)
    assert (fin (b64_div mode_NE (b64_minus mode_NE v mn) (bin_width mn mx bins)) = true ∧
      val (b64_div mode_NE (b64_minus mode_NE v mn) (bin_width mn mx bins)) = rnd (rnd (val v - lo) / d)) as [F2 E2].
    { revert F1 E1 Fw Ew. generalize (b64_minus mode_NE v mn), (bin_width mn mx bins). intros f w F1 E1 Fw Ew. unfold b64_div.
      pose proof (Bdiv_correct 53 1024 eq_refl eq_refl binop_nan_pl64 mode_NE f w) as H'. rewrite E1, Ew in H'.
      specialize (H' ltac:(lra)). cbn [round_mode] in H'. rewrite (small_bound (-1) (bins + 1)) in H'; [|lia|lia|rewrite plus_IZR; lra].
      destruct H' as (G1 & G2 & _). split; [by rewrite G2|done]. }
    pose proof (Rabs_le_inv _ _ (quotient_rounded (val v) Hv)) as Hq'.
    destruct tolerance as [F3 Hc]. apply Rabs_le_inv in Hc. pose proof eps_small.
    assert (fin (b64_plus mode_NE (b64_div mode_NE (b64_minus mode_NE v mn) (bin_width mn mx bins)) float_tolerance) = true ∧
      val (b64_plus mode_NE (b64_div mode_NE (b64_minus mode_NE v mn) (bin_width mn mx bins)) float_tolerance) = argument (val v)) as [F4 E4].
    { revert F2 E2. generalize (b64_div mode_NE (b64_minus mode_NE v mn) (bin_width mn mx bins)). intros f F2 E2.
      unfold b64_plus, argument.
      pose proof (Bplus_correct 53 1024 eq_refl eq_refl binop_nan_pl64 mode_NE f float_tolerance F2 F3) as H'. cbn [round_mode] in H'.
      rewrite E2 in H'. rewrite (small_bound (-1) (bins + 1)) in H'; [tauto|lia|lia|rewrite plus_IZR; lra]. }
    revert F4 E4. generalize (b64_plus mode_NE (b64_div mode_NE (b64_minus mode_NE v mn) (bin_width mn mx bins)) float_tolerance).
    intros f F4 E4. unfold floor_int. rewrite F4, floor_Z_spec by done. rewrite E4.
    assert (0 <= Zfloor (argument (val v)) <= bins)%Z as Hz.
    { split; [apply Zfloor_lub; lra|]. assert (Zfloor (argument (val v)) < bins + 1)%Z; [|lia]. apply lt_IZR.
      eapply Rle_lt_trans; [apply Zfloor_lb|]. rewrite plus_IZR. lra. }
    rewrite (proj2 (Z.leb_le _ _)) by lia. rewrite (proj2 (Z.ltb_lt _ _)) by lia. done.
  Qed.

  Lemma bin_of_range wild v : fin v = true → (val v <= hi)%R → (0 <= bin_of wild mn mx bins v <= bins)%Z.
  Proof.
    intros Fv Hv. destruct (float_le v mn) eqn:E.
    { unfold bin_of. rewrite E. lia. }
    assert (lo < val v)%R as Hlo. { apply Rnot_le_lt. intros H. apply (fin_le v mn Fv Fn) in H. congruence. }
    rewrite bin_of_floor by done. pose proof (argument_range (val v) ltac:(lra)).
    split; [apply Zfloor_lub; lra|]. assert (Zfloor (argument (val v)) < bins + 1)%Z; [|lia]. apply lt_IZR.
    eapply Rle_lt_trans; [apply Zfloor_lb|]. rewrite plus_IZR. lra.
  Qed.

  Lemma bin_of_mono wild u v : fin u = true → fin v = true → (val u <= val v <= hi)%R →
    (bin_of wild mn mx bins u <= bin_of wild mn mx bins v)%Z.
  Proof.
    intros Fu Fv Huv. destruct (float_le u mn) eqn:E.
    { transitivity 0%Z; [|apply bin_of_range; [done|lra]]. unfold bin_of. by rewrite E. }
    assert (lo < val u)%R as Hlo. { apply Rnot_le_lt. intros H. apply (fin_le u mn Fu Fn) in H. congruence. }
    rewrite !bin_of_floor by (done || lra). apply Zfloor_le. unfold argument. destruct d_range as [Hd0 _].
    apply round_le; [apply _|apply _|]. apply Rplus_le_compat_r. apply round_le; [apply _|apply _|].
    apply Rmult_le_compat_r; [left; by apply Rinv_0_lt_compat|]. apply round_le; [apply _|apply _|lra].
  Qed.

  Lemma bin_of_near wild v k : fin v = true → (lo < val v <= hi)%R → bin_of wild mn mx bins v = k →
    (IZR k - 11 / 100000 <= exact_share (val v) < IZR k + 1 - 9 / 100000)%R.
  Proof.
    intros Fv Hv <-. rewrite bin_of_floor by done. pose proof (Rabs_le_inv _ _ (argument_near (val v) Hv)).
    pose proof (Zfloor_lb (argument (val v))). pose proof (Zfloor_ub (argument (val v))). lra.
  Qed.

  Lemma rnd_err_big x B : (bpow radix2 (-900) <= B)%R → (Rabs x <= B)%R → (Rabs (rnd x - x) <= 2 * eps * B)%R.
  Proof.
    intros HB Hx. destruct (rnd_split x) as (e & h & He & Hh & ->). pose proof (tiny_le (-900) B ltac:(lia) HB).
    replace (x * (1 + e) + h - x)%R with (x * e + h)%R by lra. eapply Rle_trans; [apply Rabs_triang|]. rewrite Rabs_mult.
    assert (Rabs x * Rabs e <= B * eps)%R; [|lra]. apply Rmult_le_compat; [apply Rabs_pos|apply Rabs_pos|done|done].
  Qed.

  Lemma edge_near (k : nat) : (Z.of_nat k <= bins)%Z → (Rabs lo <= bpow radix2 1000)%R → (Rabs hi <= bpow radix2 1000)%R →
    fin (bin_edge mn mx bins k) = true ∧
    (Rabs (val (bin_edge mn mx bins k) - (lo + INR k * (W / n))) <= 20 * eps * (Rabs lo + Rabs hi))%R.
  Proof.
    intros Hk Hlo Hhi. pose proof n_range as Hn. pose proof W_pos as HWp. pose proof eps_small as Hs.
    destruct width_val as [Fw Ew]. pose proof d_near as Hd. destruct d_range as [Hd0 _].
    destruct (float_of_Z_exact (Z.of_nat k)) as [F1 E1]; [lia|].
    set (w := (W / n)%R) in *. assert (0 < w)%R as Hw by (apply Rdiv_lt_0_compat; lra).
    assert (W = n * w)%R as EW by (unfold w; field; lra).
    rewrite INR_IZR_INZ. assert (0 <= IZR (Z.of_nat k) <= n)%R as Hkn by (split; apply IZR_le; lia).
    set (kk := IZR (Z.of_nat k)) in *.
    assert (0 <= kk * w <= W)%R as Hkw by (rewrite EW; split; [apply Rmult_le_pos; lra|apply Rmult_le_compat_r; lra]).
    assert (Rabs (kk * d - kk * w) <= 5 * eps * W)%R as H1.
    { replace (kk * d - kk * w)%R with (kk * (d - w))%R by lra. rewrite Rabs_mult, (Rabs_pos_eq kk) by lra.
      replace (5 * eps * W)%R with (n * (5 * eps * w))%R by (pose proof EW as EW'; clear -EW'; revert EW'; generalize w; intros; rewrite EW'; ring).
      apply Rmult_le_compat; [lra|apply Rabs_pos|lra|done]. }
    assert (0 <= eps * W)%R as HeW by (apply Rmult_le_pos; lra).
    assert (eps * W <= / 1000000000000 * W)%R as HeW' by (apply Rmult_le_compat_r; lra).
    apply Rabs_le_inv in H1.
    assert (Rabs (kk * d) <= 2 * W)%R as H2.
    { rewrite Rabs_pos_eq; [lra|]. apply Rmult_le_pos; lra. }
    pose proof (rnd_err_big (kk * d) (2 * W) ltac:(lra) H2) as H3. apply Rabs_le_inv in H3.
    assert (W <= Rabs lo + Rabs hi)%R as HWl.
    { pose proof (Rabs_triang hi (- lo)). rewrite Rabs_Ropp in H. pose proof (Rle_abs (hi + - lo)). lra. }
    assert (bpow radix2 1000 * 8 < bpow radix2 1024)%R as Hbig.
    { change 8%R with (bpow radix2 3). rewrite <- bpow_plus. apply bpow_lt. lia. }
    assert (∀ x, (Rabs x <= 7 * bpow radix2 1000)%R → Rlt_bool (Rabs (rnd x)) (bpow radix2 1024) = true) as Hnov.
    { intros x Hx. apply Rlt_bool_true. apply Rle_lt_trans with (bpow radix2 1000 * 8)%R; [|done].
      pose proof (bpow_gt_0 radix2 1000). rewrite (Rmult_comm _ 8). change 8%R with (bpow radix2 3). rewrite <- bpow_plus.
      apply abs_round_le_generic; [apply _|apply _| |].
      - apply generic_format_bpow. unfold SpecFloat.fexp, SpecFloat.emin. lia.
      - rewrite bpow_plus. change (bpow radix2 3) with 8%R. lra. }
    unfold bin_edge.
    assert (fin (b64_mult mode_NE (float_of_Z (Z.of_nat k)) (bin_width mn mx bins)) = true ∧
      val (b64_mult mode_NE (float_of_Z (Z.of_nat k)) (bin_width mn mx bins)) = rnd (kk * d)) as [F2 E2].
    { unfold b64_mult. pose proof (Bmult_correct 53 1024 eq_refl eq_refl binop_nan_pl64 mode_NE (float_of_Z (Z.of_nat k)) (bin_width mn mx bins)) as H'.
      cbn [round_mode] in H'. rewrite E1, Ew in H'. fold kk in H'. rewrite Hnov in H' by lra. destruct H' as (G1 & G2 & _).
      split; [by rewrite G2, F1, Fw|done]. }
    set (s := rnd (kk * d)) in *.
    assert (Rabs (s + lo) <= 4 * (Rabs lo + Rabs hi))%R as H4.
    { eapply Rle_trans; [apply Rabs_triang|]. assert (Rabs s <= 3 * W)%R; [|pose proof (Rabs_pos hi); lra].
      apply Rabs_le. apply Rabs_le_inv in H2. lra. }
    assert (fin (b64_plus mode_NE (b64_mult mode_NE (float_of_Z (Z.of_nat k)) (bin_width mn mx bins)) mn) = true ∧
      val (b64_plus mode_NE (b64_mult mode_NE (float_of_Z (Z.of_nat k)) (bin_width mn mx bins)) mn) = rnd (s + lo)) as [F3 E3].
    { revert F2 E2. generalize (b64_mult mode_NE (float_of_Z (Z.of_nat k)) (bin_width mn mx bins)). intros f F2 E2.
      unfold b64_plus. pose proof (Bplus_correct 53 1024 eq_refl eq_refl binop_nan_pl64 mode_NE f mn F2 Fn) as H'. cbn [round_mode] in H'.
      rewrite E2 in H'. rewrite Hnov in H'; [tauto|].
      eapply Rle_trans; [apply Rabs_triang|]. assert (Rabs s <= 3 * W)%R; [|lra].
      apply Rabs_le. apply Rabs_le_inv in H2. lra. }
    split; [done|]. rewrite E3.
    pose proof (rnd_err_big (s + lo) (4 * (Rabs lo + Rabs hi)) ltac:(lra) H4) as H5. apply Rabs_le_inv in H5.
    assert (eps * W <= eps * (Rabs lo + Rabs hi))%R as H6 by (apply Rmult_le_compat_l; lra).
    apply Rabs_le. lra.
  Qed.
End bins.
