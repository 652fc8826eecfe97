(** Proofs about the Gini impurity computed in binary64. *)
From Coq Require Import Reals Psatz.
From Verif Require Import Prelude FloatModel FilterModel RuleModel RuleProofs CartModel CartSpec CartFit.
From Flocq Require Import Core.Core IEEE754.BinarySingleNaN IEEE754.Bits IEEE754.Binary.
Local Open Scope nat_scope.

Notation eps := (bpow radix2 (-53)).

Lemma rnd_error k x : (-50 <= k <= 100)%Z → (Rabs x <= bpow radix2 k)%R →
  (Rabs (rnd x - x) <= bpow radix2 k * eps)%R.
Proof.
  intros Hk Hx. pose proof (error_le_half_ulp radix2 (SpecFloat.fexp 53 1024) (λ n, negb (Z.even n)) x) as H.
  eapply Rle_trans; [exact H|].
  apply Rle_trans with (/ 2 * ulp radix2 (SpecFloat.fexp 53 1024) (bpow radix2 k))%R.
  - apply Rmult_le_compat_l; [lra|]. apply ulp_le; [apply _|apply (fexp_monotone 53 1024)|].
    rewrite (Rabs_pos_eq (bpow radix2 k)) by apply bpow_ge_0. done.
  - rewrite ulp_bpow. unfold SpecFloat.fexp, SpecFloat.emin. rewrite Z.max_l by lia.
    replace (k + 1 - 53)%Z with (k + -53 + 1)%Z by lia. rewrite !bpow_plus.
    change (bpow radix2 1) with 2%R. lra.
Qed.

Lemma format_pow k : (-1000 <= k <= 100)%Z → generic_format radix2 (SpecFloat.fexp 53 1024) (bpow radix2 k).
Proof.
  intros Hk. apply generic_format_bpow. unfold SpecFloat.fexp, SpecFloat.emin. lia.
Qed.

Lemma rnd_above k x : (-1000 <= k <= 100)%Z → (bpow radix2 k <= x)%R → (bpow radix2 k <= rnd x)%R.
Proof.
  intros Hk H. apply round_ge_generic; [apply _|apply valid_rnd_N|by apply format_pow|done].
Qed.

Lemma almost_one : generic_format radix2 (SpecFloat.fexp 53 1024) (1 - eps).
Proof.
  apply (generic_format_FLT radix2 (-1074) 53). exists (Float radix2 (2 ^ 53 - 1) (-53)).
  - unfold F2R. cbn [Fnum Fexp]. rewrite minus_IZR. change (2 ^ 53)%Z with (radix2 ^ 53)%Z.
    rewrite IZR_Zpower by lia. rewrite Rmult_minus_distr_r, <- bpow_plus. change (bpow radix2 (53 + -53)) with 1%R. lra.
  - done.
  - done.
Qed.

Section gini.
  Context (y labels : list Z).
  Hypotheses (Hy : y ≠ []) (Hlen : (Z.of_nat (length y) <= 2 ^ 53)%Z).
  Notation p l := (label_share y l).
  Notation p' l := (val (share_of y l)).
  Notation q' l := (val (b64_minus mode_NE float_one (share_of y l))).
  Definition term (l : Z) : binary64 :=
    b64_mult mode_NE (share_of y l) (b64_minus mode_NE float_one (share_of y l)).
  Notation n := (IZR (Z.of_nat (length y))).

  Lemma n_pos : (0 < n)%R.
  Proof using Hy. clear -Hy. apply (IZR_lt 0). destruct y; [done|cbn; lia]. Qed.

  Lemma share_exact l : (p l = IZR (Z.of_nat (count_label y l)) / n)%R.
  Proof using Type. unfold label_share. by rewrite !INR_IZR_INZ. Qed.

  Lemma share_range l : (0 <= p l <= 1)%R.
  Proof using Hy.
    rewrite share_exact. pose proof n_pos as Hn. pose proof (count_length y l) as Hc. split.
    - apply Rmult_le_pos; [apply (IZR_le 0); lia|]. by apply Rlt_le, Rinv_0_lt_compat.
    - apply Rmult_le_reg_r with n; [done|]. unfold Rdiv. rewrite Rmult_assoc, Rinv_l by lra.
      rewrite Rmult_1_r, Rmult_1_l. apply IZR_le. lia.
  Qed.

  Lemma share_rounded l : p' l = rnd (p l).
  Proof using Hy Hlen.
    unfold share_of, b64_div. pose proof (count_length y l) as Hc. pose proof (share_range l) as Hr.
    destruct (float_of_Z_exact (Z.of_nat (count_label y l))) as [F1 V1]; [lia|].
    destruct (float_of_Z_exact (Z.of_nat (length y))) as [F2 V2]; [lia|].
    fold (float_of_nat (count_label y l)) in F1, V1. fold (float_of_nat (length y)) in F2, V2.
    pose proof (Bdiv_correct 53 1024 eq_refl eq_refl binop_nan_pl64 mode_NE (float_of_nat (count_label y l))
      (float_of_nat (length y))) as H.
    rewrite V1, V2, <- share_exact in H. pose proof n_pos. specialize (H ltac:(lra)). cbn [round_mode] in H.
    rewrite (small_bound 0 1) in H; [by destruct H as (H & _)|lia|lia|exact Hr].
  Qed.

  Lemma rest_rounded l : fin (b64_minus mode_NE float_one (share_of y l)) = true ∧ q' l = rnd (1 - p' l).
  Proof using Hy Hlen.
    destruct (share_between y l Hy Hlen) as [F [H0 H1]]. destruct one_exact as [F1 V1].
    unfold b64_minus.
    pose proof (Bminus_correct 53 1024 eq_refl eq_refl binop_nan_pl64 mode_NE float_one (share_of y l) F1 F) as H.
    cbn [round_mode] in H. rewrite V1 in H.
    rewrite (small_bound 0 1) in H; [|lia|lia|cbn in *; lra]. by destruct H as (H & H' & _).
  Qed.

  Lemma q_range l : (0 <= q' l <= 1)%R.
  Proof using Hy Hlen.
    destruct (share_between y l Hy Hlen) as [F [H0 H1]]. rewrite (proj2 (rest_rounded l)).
    apply (rnd_between 0 1); [lia|lia|]. cbn in *. lra.
  Qed.

  Lemma term_rounded l : fin (term l) = true ∧ val (term l) = rnd (p' l * q' l) ∧ (0 <= val (term l) <= 1)%R.
  Proof using Hy Hlen.
    destruct (share_between y l Hy Hlen) as [F [H0 H1]]. pose proof (q_range l) as [H2 H3].
    pose proof (proj1 (rest_rounded l)) as F2.
    assert (0 <= p' l * q' l <= 1)%R as Hr.
    { cbn in *. split; [by apply Rmult_le_pos|]. rewrite <- (Rmult_1_l 1). apply Rmult_le_compat; lra. }
    unfold term, b64_mult.
    pose proof (Bmult_correct 53 1024 eq_refl eq_refl binop_nan_pl64 mode_NE (share_of y l)
      (b64_minus mode_NE float_one (share_of y l))) as H.
    cbn [round_mode] in H. rewrite (small_bound 0 1) in H; [|lia|lia|exact Hr].
    destruct H as (H & H' & _). rewrite F, F2 in H'. split; [done|]. split; [done|]. rewrite H.
    apply (rnd_between 0 1); [lia|lia|exact Hr].
  Qed.

  Lemma term_error l : (Rabs (val (term l) - p l * (1 - p l)) <= 4 * eps)%R.
  Proof using Hy Hlen.
    destruct (share_between y l Hy Hlen) as [F [H0 H1]]. pose proof (q_range l) as [H2 H3].
    destruct (term_rounded l) as (_ & Ht & _). pose proof (share_range l) as [P0 P1].
    cbn in H0, H1.
    assert (Rabs (p' l - p l) <= eps)%R as E1.
    { rewrite share_rounded. rewrite <- (Rmult_1_l eps). apply (rnd_error 0); [lia|].
      rewrite Rabs_pos_eq by lra. cbn. lra. }
    assert (Rabs (q' l - (1 - p' l)) <= eps)%R as E2.
    { rewrite (proj2 (rest_rounded l)). rewrite <- (Rmult_1_l eps). apply (rnd_error 0); [lia|].
      rewrite Rabs_pos_eq by lra. cbn. lra. }
    assert (0 <= p' l * q' l <= 1)%R as Hr.
    { split; [by apply Rmult_le_pos|]. rewrite <- (Rmult_1_l 1). apply Rmult_le_compat; lra. }
    assert (Rabs (val (term l) - p' l * q' l) <= eps)%R as E3.
    { rewrite Ht. rewrite <- (Rmult_1_l eps). apply (rnd_error 0); [lia|].
      rewrite Rabs_pos_eq by lra. cbn. lra. }
    replace (val (term l) - p l * (1 - p l))%R with
      ((val (term l) - p' l * q' l) + ((p' l - p l) * q' l + p l * ((q' l - (1 - p' l)) + (p l - p' l))))%R by lra.
    eapply Rle_trans; [apply Rabs_triang|].
    assert (Rabs ((p' l - p l) * q' l) <= eps)%R as E4.
    { rewrite Rabs_mult, (Rabs_pos_eq (q' l)) by lra. rewrite <- (Rmult_1_r eps).
      apply Rmult_le_compat; [apply Rabs_pos|lra|done|lra]. }
    assert (Rabs (p l * ((q' l - (1 - p' l)) + (p l - p' l))) <= 2 * eps)%R as E5.
    { rewrite Rabs_mult, (Rabs_pos_eq (p l)) by lra.
      assert (Rabs ((q' l - (1 - p' l)) + (p l - p' l)) <= 2 * eps)%R as E6.
      { eapply Rle_trans; [apply Rabs_triang|]. rewrite (Rabs_minus_sym (p l)). lra. }
      rewrite <- (Rmult_1_l (2 * eps)). apply Rmult_le_compat; [lra|apply Rabs_pos|lra|done]. }
    pose proof (Rabs_triang ((p' l - p l) * q' l) (p l * ((q' l - (1 - p' l)) + (p l - p' l)))). lra.
  Qed.

  (** The sum of the terms. *)
  Notation sum acc ls := (foldl (λ a l, b64_plus mode_NE a (term l)) acc ls).

  Lemma sum_step acc l (k : Z) : (0 <= k < 2 ^ 53)%Z → fin acc = true → (0 <= val acc <= IZR k)%R →
    fin (b64_plus mode_NE acc (term l)) = true ∧
    val (b64_plus mode_NE acc (term l)) = rnd (val acc + val (term l)) ∧
    (0 <= val (b64_plus mode_NE acc (term l)) <= IZR (k + 1))%R.
  Proof using Hy Hlen.
    intros Hk F Ha. destruct (term_rounded l) as (Ft & _ & Ht).
    assert (0 <= val acc + val (term l) <= IZR (k + 1))%R as Hr by (rewrite plus_IZR; lra).
    unfold b64_plus.
    pose proof (Bplus_correct 53 1024 eq_refl eq_refl binop_nan_pl64 mode_NE acc (term l) F Ft) as H.
    cbn [round_mode] in H. rewrite (small_bound 0 (k + 1)) in H; [|lia|lia|exact Hr].
    destruct H as (H & H' & _). split; [done|]. split; [done|]. rewrite H.
    apply (rnd_between 0 (k + 1)); [lia|lia|exact Hr].
  Qed.

  Lemma exact_nonneg ls : (0 <= exact_gini y ls)%R.
  Proof using Hy.
    induction ls as [|l ls IH]; cbn [exact_gini foldr]; [lra|]. pose proof (share_range l).
    assert (0 <= p l * (1 - p l))%R by (apply Rmult_le_pos; lra). fold (exact_gini y ls). lra.
  Qed.

  Lemma sum_error ls acc (k : Z) e ex :
    (0 <= k)%Z → (k + Z.of_nat (length ls) <= 2 ^ 50)%Z → fin acc = true → (0 <= val acc <= IZR k)%R →
    (Rabs (val acc - ex) <= e)%R → (0 <= ex)%R → (ex + exact_gini y ls <= 1)%R →
    (e + 6 * INR (length ls) * eps <= 1 / 2)%R →
    (Rabs (val (sum acc ls) - (ex + exact_gini y ls)) <= e + 6 * INR (length ls) * eps)%R.
  Proof using Hy Hlen.
    revert acc k e ex. induction ls as [|l ls IH]; intros acc k e ex Hk Hkl F Ha He Hex H1 He1.
    { cbn in *. rewrite Rplus_0_r. lra. }
    cbn [foldl length] in *. cbn [exact_gini foldr] in H1. fold (exact_gini y ls) in H1.
    destruct (sum_step acc l k) as (Fs & Vs & Rs); [lia|done|done|].
    pose proof (term_error l) as Et. pose proof (share_range l) as [P0 P1]. pose proof (exact_nonneg ls) as Hpos.
    assert (0 <= p l * (1 - p l))%R as Pt by (apply Rmult_le_pos; lra).
    assert (0 < eps)%R as Heps by apply bpow_gt_0.
    rewrite S_INR in He1 |- *. pose proof (pos_INR (length ls)) as Hls.
    assert (0 <= 6 * INR (length ls) * eps)%R as Hm.
    { apply Rmult_le_pos; [|lra]. lra. }
    destruct (term_rounded l) as (_ & _ & Ht).
    assert (Rabs (val acc + val (term l)) <= bpow radix2 1)%R as Hb.
    { change (bpow radix2 1) with 2%R. rewrite Rabs_pos_eq by lra.
      apply Rabs_le_inv in He, Et. lra. }
    pose proof (rnd_error 1 _ ltac:(lia) Hb) as Er. change (bpow radix2 1) with 2%R in Er.
    assert (Rabs (val (b64_plus mode_NE acc (term l)) - (ex + p l * (1 - p l))) <= e + 6 * eps)%R as Hn.
    { rewrite Vs. apply Rabs_le_inv in He, Et, Er. apply Rabs_le. lra. }
    cbn [exact_gini foldr]. fold (exact_gini y ls).
    specialize (IH (b64_plus mode_NE acc (term l)) (k + 1)%Z (e + 6 * eps)%R (ex + p l * (1 - p l))%R
      ltac:(lia) ltac:(lia) Fs Rs Hn ltac:(lra) ltac:(lra) ltac:(lra)).
    replace (ex + (p l * (1 - p l) + exact_gini y ls))%R with (ex + p l * (1 - p l) + exact_gini y ls)%R by lra.
    eapply Rle_trans; [exact IH|]. lra.
  Qed.

  Lemma counts_sum ls : NoDup ls → foldr (λ l s, count_label y l + s) 0 ls ≤ length y.
  Proof using Type.
    clear. intros Hnd. induction y as [|v ys IH].
    - clear. induction ls as [|l ls IH]; [done|]. cbn in *. done.
    - assert (foldr (λ l s, count_label (v :: ys) l + s) 0 ls ≤
              foldr (λ l s, count_label ys l + s) 0 ls + (if decide (v ∈ ls) then 1 else 0)) as H.
      { clear IH. induction Hnd as [|l ls Hl Hnd IH]; [cbn; lia|]. cbn [foldr].
        assert (count_label (v :: ys) l = count_label ys l + (if decide (v = l) then 1 else 0)) as ->.
        { unfold count_label. rewrite filter_cons. destruct (decide (v = l)); cbn [length]; lia. }
        destruct (decide (v = l)) as [->|Hne].
        - rewrite (decide_True _ _ (elem_of_list_here l ls)). rewrite decide_False in IH by done. lia.
        - destruct (decide (v ∈ ls)); [rewrite decide_True by (by right)|]; [lia|].
          rewrite decide_False; [lia|]. intros [?|?]%elem_of_cons; done. }
      cbn [length]. destruct (decide (v ∈ ls)); lia.
  Qed.

  Lemma exact_below_one ls : NoDup ls → (exact_gini y ls <= 1)%R.
  Proof using Hy.
    intros Hnd. pose proof (counts_sum ls Hnd) as Hc. pose proof n_pos as Hn.
    assert (exact_gini y ls <= INR (foldr (λ l s, count_label y l + s)%nat 0%nat ls) / n)%R as H.
    { clear Hc Hnd. induction ls as [|l ls IH]; cbn [exact_gini foldr].
      - cbn. unfold Rdiv. lra.
      - fold (exact_gini y ls). rewrite plus_INR. unfold Rdiv in *. rewrite Rmult_plus_distr_r.
        pose proof (share_range l) as [P0 P1]. apply Rplus_le_compat; [|exact IH].
        apply Rle_trans with (p l * 1)%R; [apply Rmult_le_compat_l; lra|].
        rewrite Rmult_1_r, share_exact, <- INR_IZR_INZ. unfold Rdiv. lra. }
    eapply Rle_trans; [exact H|]. apply Rmult_le_reg_r with n; [done|]. unfold Rdiv.
    rewrite Rmult_assoc, Rinv_l by lra. rewrite Rmult_1_r, Rmult_1_l, <- INR_IZR_INZ. by apply le_INR.
  Qed.

  Lemma gini_error : NoDup labels → (Z.of_nat (length labels) <= 2 ^ 49)%Z →
    (Rabs (val (gini_impurity y labels) - exact_gini y labels) <= 6 * INR (length labels) * eps)%R.
  Proof using Hy Hlen.
    intros Hnd Hl. pose proof (sum_error labels float_zero 0 0 0) as H.
    rewrite !Rplus_0_l in H. change (val float_zero) with 0%R in H.
    apply H; [done|lia|done|lra|rewrite Rminus_0_r, Rabs_R0; lra|lra| |].
    - by apply exact_below_one.
    - assert (INR (length labels) <= bpow radix2 49)%R as Hb.
      { rewrite INR_IZR_INZ, <- (IZR_Zpower radix2) by lia. by apply IZR_le. }
      apply Rle_trans with (6 * bpow radix2 49 * eps)%R.
      + apply Rmult_le_compat_r; [apply bpow_ge_0|]. lra.
      + rewrite Rmult_assoc, <- bpow_plus. change (49 + -53)%Z with (-4)%Z.
        change (bpow radix2 (-4)) with (/ 16)%R. lra.
  Qed.

  (** *** Purity *)

  Lemma eps_n : (eps <= / n)%R.
  Proof using Hy Hlen.
    pose proof n_pos. change (-53)%Z with (- (53))%Z. rewrite bpow_opp. apply Rinv_le; [done|].
    rewrite <- (IZR_Zpower radix2) by lia. by apply IZR_le.
  Qed.

  Lemma term_positive l : 0 < count_label y l < length y → (0 < val (term l))%R.
  Proof using Hy Hlen.
    intros [Hc1 Hc2]. pose proof n_pos as Hn. pose proof eps_n as He.
    assert (eps <= p l)%R as L1.
    { rewrite share_exact. eapply Rle_trans; [exact He|]. unfold Rdiv. rewrite <- (Rmult_1_l (/ n)) at 1.
      apply Rmult_le_compat_r; [by apply Rlt_le, Rinv_0_lt_compat|]. apply (IZR_le 1). lia. }
    assert (p l <= 1 - eps)%R as L2.
    { assert (p l <= 1 - / n)%R; [|lra]. rewrite share_exact. apply Rmult_le_reg_r with n; [done|].
      rewrite Rmult_minus_distr_r. unfold Rdiv. rewrite Rmult_assoc, Rinv_l by lra.
      rewrite Rmult_1_r, Rmult_1_l, <- minus_IZR. apply IZR_le. lia. }
    assert (eps <= p' l)%R as L3 by (rewrite share_rounded; by apply rnd_above).
    assert (p' l <= 1 - eps)%R as L4.
    { rewrite share_rounded. apply round_le_generic; [apply _|apply valid_rnd_N|apply almost_one|done]. }
    assert (eps <= q' l)%R as L5.
    { rewrite (proj2 (rest_rounded l)). apply rnd_above; [lia|lra]. }
    destruct (term_rounded l) as (_ & -> & _). apply Rlt_le_trans with (bpow radix2 (-53 + -53)); [apply bpow_gt_0|].
    apply rnd_above; [lia|]. rewrite bpow_plus. pose proof (bpow_ge_0 radix2 (-53)).
    apply Rmult_le_compat; done.
  Qed.

  Lemma term_zero l : count_label y l = 0 ∨ count_label y l = length y → val (term l) = 0%R.
  Proof using Hy Hlen.
    intros H. destruct (term_rounded l) as (_ & -> & _). pose proof n_pos as Hn.
    assert (p' l = 0 ∨ p' l = 1)%R as [E|E].
    { rewrite share_rounded, share_exact. destruct H as [->| ->].
      - left. unfold Rdiv. cbn. rewrite Rmult_0_l. apply round_0, _.
      - right. unfold Rdiv. rewrite Rinv_r by lra. apply round_generic; [apply valid_rnd_N|].
        by apply (format_Z 1). }
    - rewrite E, Rmult_0_l. apply round_0, _.
    - assert (q' l = 0%R) as ->; [|rewrite Rmult_0_r; apply round_0, _].
      rewrite (proj2 (rest_rounded l)), E, Rminus_diag_eq by done. apply round_0, _.
  Qed.

  Lemma sum_grows ls acc (k : Z) : (0 <= k)%Z → (k + Z.of_nat (length ls) <= 2 ^ 53)%Z →
    fin acc = true → (0 <= val acc <= IZR k)%R →
    (val acc <= val (sum acc ls))%R ∧
    (∀ l, l ∈ ls → val (term l) <= val (sum acc ls))%R ∧
    ((∀ l, l ∈ ls → val (term l) = 0%R) → val (sum acc ls) = val acc).
  Proof using Hy Hlen.
    revert acc k. induction ls as [|l ls IH]; intros acc k Hk Hkl F Ha.
    { cbn. split; [lra|]. split; [|done]. intros l Hl. by apply elem_of_nil in Hl. }
    cbn [foldl length] in *. destruct (sum_step acc l k) as (Fs & Vs & Rs); [lia|done|done|].
    destruct (term_rounded l) as (_ & _ & Ht).
    destruct (IH (b64_plus mode_NE acc (term l)) (k + 1)%Z) as (H1 & H2 & H3); [lia|lia|done|done|].
    assert (val acc <= val (b64_plus mode_NE acc (term l)))%R as G1.
    { rewrite Vs. apply round_ge_generic; [apply _|apply valid_rnd_N|apply generic_format_B2R|lra]. }
    assert (val (term l) <= val (b64_plus mode_NE acc (term l)))%R as G2.
    { rewrite Vs. apply round_ge_generic; [apply _|apply valid_rnd_N|apply generic_format_B2R|lra]. }
    split; [lra|]. split.
    - intros l' [->|Hl']%elem_of_cons; [lra|by apply H2].
    - intros Hz. rewrite H3 by (intros l' Hl'; apply Hz; by right). rewrite Vs, Hz by left.
      rewrite Rplus_0_r. apply round_generic; [apply valid_rnd_N|apply generic_format_B2R].
  Qed.

  Lemma count_full l : count_label y l = length y ↔ ∀ v, v ∈ y → v = l.
  Proof using Type.
    clear. unfold count_label. split.
    - induction y as [|v ys IH]; intros H w Hw; [by apply elem_of_nil in Hw|].
      rewrite filter_cons in H. destruct (decide (v = l)) as [->|Hne].
      + cbn [length] in H. apply elem_of_cons in Hw as [->|Hw]; [done|]. apply IH; [lia|done].
      + pose proof (filter_length (λ v, v = l) ys). cbn [length] in H. lia.
    - intros H. induction y as [|v ys IH]; [done|]. rewrite filter_cons, decide_True by (apply H; left).
      cbn [length]. f_equal. apply IH. intros w Hw. apply H. by right.
  Qed.

  Lemma gini_pure : (∀ v, v ∈ y → v ∈ labels) → (Z.of_nat (length labels) <= 2 ^ 53)%Z →
    (val (gini_impurity y labels) = 0%R ↔ ∀ a b, a ∈ y → b ∈ y → a = b).
  Proof using Hy Hlen.
    intros Hcov Hl. destruct (sum_grows labels float_zero 0) as (_ & H2 & H3); [lia|lia|done|change (val float_zero) with 0%R; lra|].
    change (sum float_zero labels) with (gini_impurity y labels) in H2, H3. split.
    - intros H0 a b Ha Hb. specialize (H2 a (Hcov a Ha)). rewrite H0 in H2.
      assert (count_label y a = length y) as Hf.
      { pose proof (count_length y a). apply count_pos in Ha.
        destruct (decide (count_label y a = length y)) as [|Hne]; [done|].
        pose proof (term_positive a ltac:(lia)). lra. }
      rewrite count_full in Hf. symmetry. by apply Hf.
    - intros Hp. rewrite H3; [done|]. intros l _. apply term_zero.
      destruct (decide (l ∈ y)) as [Hin|Hin].
      + right. apply count_full. intros v Hv. by apply Hp.
      + left. rewrite count_pos in Hin. lia.
  Qed.
End gini.
