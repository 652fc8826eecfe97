(** The entropies computed in binary64. *)
From Coq Require Import Reals Lra.
From Verif Require Import Prelude FloatModel FilterModel RuleModel RuleProofs CartModel CartFit GiniProofs EntModel EntSpec EntProofs EntLink.
From Flocq Require Import Core.Core Relative IEEE754.BinarySingleNaN IEEE754.Bits IEEE754.Binary.
Local Open Scope nat_scope.

Lemma eps_small : (0 < eps < / 1000000000000)%R.
Proof.
  split; [apply bpow_gt_0|]. change (/ IZR (2 ^ 53) < / 1000000000000)%R. apply Rinv_lt_contravar.
  - apply Rmult_lt_0_compat; apply IZR_lt; reflexivity.
  - apply IZR_lt. reflexivity.
Qed.
Lemma eps_eight : (bpow radix2 (-50) = 8 * eps)%R.
Proof. change (-50)%Z with (3 + -53)%Z. rewrite bpow_plus. change (bpow radix2 3) with 8%R. done. Qed.

Lemma ln2_range : (/ 2 <= ln 2 <= 1)%R.
Proof.
  split.
  - pose proof (ln_le (/ 2) ltac:(lra)) as H. rewrite ln_Rinv in H by lra. lra.
  - pose proof (ln_le 2 ltac:(lra)). lra.
Qed.

Lemma xlnx x : (0 < x <= 1 → -1 <= x * ln x <= 0)%R.
Proof.
  intros Hx. pose proof (ln_le x ltac:(lra)). pose proof (ln_le (/ x) ltac:(apply Rinv_0_lt_compat; lra)) as H1.
  rewrite ln_Rinv in H1 by lra. split; [|nra].
  assert (x * / x = 1)%R by (apply Rinv_r; lra). nra.
Qed.

Lemma rnd_rel B x : (1 <= B <= 1000000000000)%R → (Rabs x <= B)%R → (Rabs (rnd x - x) <= 2 * B * eps)%R.
Proof.
  intros HB Hx. destruct (mag radix2 B) as [k Hk]. specialize (Hk ltac:(lra)). rewrite Rabs_pos_eq in Hk by lra.
  assert (0 < k)%Z as K1. { apply (lt_bpow radix2). change (bpow radix2 0) with 1%R. lra. }
  assert (k - 1 < 60)%Z as K2.
  { apply (lt_bpow radix2). apply Rle_lt_trans with B; [lra|]. change (bpow radix2 60) with (IZR (2 ^ 60)).
    apply Rle_lt_trans with 1000000000000%R; [lra|]. apply IZR_lt. reflexivity. }
  apply Rle_trans with (bpow radix2 k * eps)%R.
  - apply rnd_error; [lia|lra].
  - apply Rmult_le_compat_r; [apply bpow_ge_0|]. replace k with (k - 1 + 1)%Z by lia. rewrite bpow_plus.
    change (bpow radix2 1) with 2%R. lra.
Qed.

Section with_log.
  Context (log : binary64 → binary64) (HL : go_log log).
  Notation F := (float_logs log).

  (** [D] is the number [d] up to a rounding error. *)
  Definition term_near (D : binary64) (d : R) : Prop :=
    fin D = true ∧ (Rabs d <= 2)%R ∧ (Rabs (val D - d) <= 64 * eps)%R.

  Lemma plogp_near (x y : binary64) (n N : nat) : fin x = true → fin y = true → val x = INR n → val y = INR N →
    0 < n ≤ N → (Z.of_nat N <= 2 ^ 53)%Z →
    term_near (plogp F x y) (plogp real_logs (INR n) (INR N)).
  Proof using HL.
    intros Fx Fy Vx Vy Hn HN. pose proof eps_small as He. pose proof ln2_range as H2.
    assert (0 < INR N)%R as PN by (apply lt_0_INR; lia). assert (0 < INR n)%R as Pn by (apply lt_0_INR; lia).
    assert (INR n <= INR N)%R as Le by (apply le_INR; lia).
    rewrite plogp_real. unfold plogp. cbn [la_div la_mul la_log la_int float_logs]. set (p := (INR n / INR N)%R).
    assert (0 < p <= 1)%R as Hp.
    { unfold p. split; [by apply Rdiv_lt_0_compat|]. apply (Rmult_le_reg_r (INR N)); [done|].
      unfold Rdiv. rewrite Rmult_assoc, Rinv_l by lra. lra. }
    assert (bpow radix2 (-53) <= p)%R as Hlow.
    { unfold p. apply (Rmult_le_reg_r (INR N)); [done|]. unfold Rdiv. rewrite Rmult_assoc, Rinv_l by lra.
      apply Rle_trans with (bpow radix2 (-53) * bpow radix2 53)%R.
      - apply Rmult_le_compat_l; [apply bpow_ge_0|]. rewrite INR_IZR_INZ. change (bpow radix2 53) with (IZR (2 ^ 53)). by apply IZR_le.
      - rewrite <- bpow_plus. change (bpow radix2 (-53 + 53)) with 1%R. rewrite Rmult_1_r.
        change 1%R with (INR 1). apply le_INR. lia. }
    (* the share *)
    set (P := b64_div mode_NE x y).
    assert (between 0 1 P) as [FP BP].
    { apply div_between; [lia|lia|done|rewrite Vy; lra|]. rewrite Vx, Vy. fold p. lra. }
    assert (val P = rnd p) as VP.
    { unfold P, b64_div. pose proof (Bdiv_correct 53 1024 eq_refl eq_refl binop_nan_pl64 mode_NE x y ltac:(rewrite Vy; lra)) as Hd.
      cbn [round_mode] in Hd. rewrite (small_bound 0 1) in Hd; [|lia|lia|rewrite Vx, Vy; fold p; lra].
      destruct Hd as (-> & _). by rewrite Vx, Vy. }
    assert (bpow radix2 (-53) <= val P)%R as LP by (rewrite VP; by apply rnd_above).
    assert (Rabs (val P - p) <= eps * p)%R as EP.
    { rewrite VP. pose proof (relative_error_N_FLT radix2 (-1074) 53 ltac:(reflexivity) (λ n, negb (Z.even n)) p) as Hr.
      rewrite (Rabs_pos_eq p) in Hr by lra.
      assert (/ 2 * bpow radix2 (-53 + 1) = eps)%R as Ee.
      { rewrite bpow_plus. change (bpow radix2 1) with 2%R. lra. }
      change (- (53) + 1)%Z with (-53 + 1)%Z in Hr. rewrite Ee in Hr. apply Hr. apply Rle_trans with (bpow radix2 (-53)); [apply bpow_le; lia|done]. }
    set (q := val P) in *. assert (0 < q <= 1)%R as Hq by (pose proof (bpow_gt_0 radix2 (-53)); lra).
    (* q ln q against p ln p *)
    assert (Rabs (q * ln q - p * ln p) <= 3 * eps)%R as E1.
    { set (u := (q / p)%R). assert (q = u * p)%R as Eq by (unfold u; field; lra).
      assert (Rabs (u - 1) <= eps)%R as Eu.
      { apply (Rmult_le_reg_r p); [lra|]. rewrite <- (Rabs_pos_eq p) at 1 by lra. rewrite <- Rabs_mult.
        replace ((u - 1) * p)%R with (q - p)%R by (rewrite Eq; lra). done. }
      apply Rabs_le_inv in Eu. assert (0 < u)%R as Pu by lra.
      assert (ln q = ln u + ln p)%R as El by (rewrite Eq; apply ln_mult; lra).
      pose proof (ln_le u Pu) as L1. pose proof (ln_le (/ u) (Rinv_0_lt_compat _ Pu)) as L2. rewrite ln_Rinv in L2 by done.
      assert (/ u <= 1 + 2 * eps)%R as L3.
      { apply (Rmult_le_reg_r u); [done|]. rewrite Rinv_l by lra. nra. }
      replace (q * ln q - p * ln p)%R with (q * ln u + (u - 1) * (p * ln p))%R by (rewrite El, Eq; ring).
      pose proof (xlnx p Hp) as Xp. apply Rabs_le.
      assert (-(2 * eps) <= q * ln u <= eps)%R by (split; nra).
      assert (- eps <= (u - 1) * (p * ln p) <= eps)%R by (split; nra). lra. }
    (* the logarithm *)
    destruct (log_close _ HL P FP ltac:(fold q; lra)) as [FL EL]. fold q in EL. rewrite eps_eight in EL.
    set (L := val (log P)) in *.
    assert (Rabs (q * L - q * ln q) <= 8 * eps)%R as E2.
    { rewrite <- Rmult_minus_distr_l, Rabs_mult, (Rabs_pos_eq q) by lra. pose proof (xlnx q Hq) as Xq.
      apply Rle_trans with (8 * eps * (q * Rabs (ln q)))%R.
      - apply Rle_trans with (q * (8 * eps * Rabs (ln q)))%R; [apply Rmult_le_compat_l; lra|lra].
      - replace (q * Rabs (ln q))%R with (Rabs (q * ln q)); [|by rewrite Rabs_mult, (Rabs_pos_eq q) by lra].
        assert (Rabs (q * ln q) <= 1)%R by (apply Rabs_le; lra). nra. }
    pose proof (xlnx p Hp) as Xp. apply Rabs_le_inv in E1. apply Rabs_le_inv in E2.
    (* the product *)
    set (M := b64_mult mode_NE P (log P)).
    assert (-2 <= q * L <= 2)%R as BM by lra.
    assert (between (-2) 2 M) as [FM _] by (apply mult_between; done).
    assert (val M = rnd (q * L)) as VM.
    { unfold M, b64_mult. pose proof (Bmult_correct 53 1024 eq_refl eq_refl binop_nan_pl64 mode_NE P (log P)) as Hd.
      cbn [round_mode] in Hd. rewrite (small_bound (-2) 2) in Hd by done. destruct Hd as (-> & _). done. }
    pose proof (rnd_rel 2 (q * L) ltac:(lra) ltac:(apply Rabs_le; lra)) as E3. rewrite <- VM in E3. apply Rabs_le_inv in E3.
    assert (Rabs (val M - p * ln p) <= 15 * eps)%R as E4 by (apply Rabs_le; lra). apply Rabs_le_inv in E4.
    (* ln 2 *)
    destruct (float_of_Z_exact 2 ltac:(lia)) as [F2 V2].
    change (float_of_nat 2) with (float_of_Z 2).
    destruct (log_close _ HL (float_of_Z 2) F2 ltac:(rewrite V2; lra)) as [FK EK]. rewrite V2, eps_eight in EK.
    rewrite (Rabs_pos_eq (ln 2)) in EK by lra. set (K := val (log (float_of_Z 2))) in *. apply Rabs_le_inv in EK.
    assert (49 / 100 <= K)%R as HK by nra.
    (* the quotient *)
    assert (val M / K - p * ln p / ln 2 = ((val M - p * ln p) * ln 2 + (p * ln p) * (ln 2 - K)) / (K * ln 2))%R as Eq.
    { field. lra. }
    assert (Rabs (val M / K - p * ln p / ln 2) <= 50 * eps)%R as E5.
    { rewrite Eq. unfold Rdiv. rewrite Rabs_mult, (Rabs_pos_eq (/ (K * ln 2))) by (apply Rlt_le, Rinv_0_lt_compat; nra).
      apply (Rmult_le_reg_r (K * ln 2)); [nra|]. rewrite Rmult_assoc, Rinv_l by nra. rewrite Rmult_1_r.
      apply Rle_trans with (23 * eps * ln 2)%R; [|nra].
      apply Rabs_le. assert (- (15 * eps) * ln 2 <= (val M - p * ln p) * ln 2 <= 15 * eps * ln 2)%R by (split; nra).
      assert (- (8 * eps) * ln 2 <= p * ln p * (ln 2 - K) <= 8 * eps * ln 2)%R by (split; nra). lra. }
    assert (-2 <= p * ln p / ln 2 <= 0)%R as Bd.
    { pose proof (Rinv_0_lt_compat (ln 2) ltac:(lra)). assert (/ ln 2 <= 2)%R.
      { apply (Rmult_le_reg_r (ln 2)); [lra|]. rewrite Rinv_l by lra. lra. }
      unfold Rdiv. split; nra. }
    apply Rabs_le_inv in E5.
    assert (-3 <= val M / K <= 3)%R as BD by lra.
    set (D := b64_div mode_NE M (log (float_of_Z 2))).
    assert (between (-3) 3 D) as [FD _].
    { apply div_between; [lia|lia|done|fold K; lra|fold K; done]. }
    assert (val D = rnd (val M / K)) as VD.
    { unfold D, b64_div. pose proof (Bdiv_correct 53 1024 eq_refl eq_refl binop_nan_pl64 mode_NE M (log (float_of_Z 2)) ltac:(fold K; lra)) as Hd.
      cbn [round_mode] in Hd. rewrite (small_bound (-3) 3) in Hd by done. destruct Hd as (-> & _). done. }
    pose proof (rnd_rel 3 (val M / K) ltac:(lra) ltac:(apply Rabs_le; lra)) as E6. rewrite <- VD in E6. apply Rabs_le_inv in E6.
    replace (p * log2 p)%R with (p * ln p / ln 2)%R by (unfold log2, Rdiv; lra).
    split; [done|]. split; apply Rabs_le; lra.
  Qed.

  (** ** Sums *)

  Definition eta (K : nat) : R := ((64 + 8 * INR K) * eps)%R.

  (** After [j] of [K] additions, [s] is [t] up to rounding errors. *)
  Definition near (K j : nat) (s : binary64) (t : R) : Prop :=
    fin s = true ∧ (Rabs t <= 2 * INR j)%R ∧ (Rabs (val s - t) <= INR j * eta K)%R.

  Lemma eta_small K : (Z.of_nat K <= 1000000)%Z → (0 <= eta K <= / 1000)%R.
  Proof using.
    intros HK. pose proof eps_small as He. unfold eta. pose proof (pos_INR K).
    assert (INR K <= 1000000)%R. { rewrite INR_IZR_INZ. by apply IZR_le. }
    split; nra.
  Qed.

  Lemma near_bounds K j s t d D : (Z.of_nat K <= 1000000)%Z → j < K → near K j s t → term_near D d →
    (1 <= 4 * INR K <= 1000000000000)%R ∧ (Rabs (val s) + Rabs (val D) <= 4 * INR K)%R.
  Proof using.
    intros HK Hj (Fs & Bt & Es) (FD & Bd & ED). pose proof (eta_small K HK) as Hn. pose proof eps_small as He.
    assert (INR K <= 1000000)%R. { rewrite INR_IZR_INZ. by apply IZR_le. }
    assert (INR j + 1 <= INR K)%R as Hjk by (rewrite <- S_INR; apply le_INR; lia).
    pose proof (pos_INR j).
    apply Rabs_le_inv in Bt, Es, Bd, ED.
    assert (INR j * eta K <= INR j)%R by nra.
    assert (Rabs (val s) <= 3 * INR j)%R by (apply Rabs_le; lra).
    assert (Rabs (val D) <= 3)%R by (apply Rabs_le; lra). lra.
  Qed.

  Lemma big_between K x : (Z.of_nat K <= 1000000)%Z → (Rabs x <= 4 * INR K)%R →
    let z := (4 * Z.of_nat K)%Z in (Z.abs (- z) <= 2 ^ 53)%Z ∧ (Z.abs z <= 2 ^ 53)%Z ∧ (IZR (- z) <= x <= IZR z)%R.
  Proof using.
    intros HK Hx z. split; [unfold z; lia|]. split; [unfold z; lia|]. apply Rabs_le_inv in Hx.
    unfold z. rewrite opp_IZR, mult_IZR, <- INR_IZR_INZ. lra.
  Qed.

  Lemma near_sub K j s t D d : (Z.of_nat K <= 1000000)%Z → j < K → near K j s t → term_near D d →
    near K (S j) (b64_minus mode_NE s D) (t - d).
  Proof using.
    intros HK Hj Hs HD. destruct (near_bounds K j s t d D HK Hj Hs HD) as [HB Hb].
    destruct Hs as (Fs & Bt & Es), HD as (FD & Bd & ED).
    assert (Rabs (val s - val D) <= 4 * INR K)%R as Hx.
    { unfold Rminus. eapply Rle_trans; [apply Rabs_triang|]. rewrite Rabs_Ropp. lra. }
    destruct (big_between K _ HK Hx) as (Z1 & Z2 & HZ).
    pose proof (Bminus_correct 53 1024 eq_refl eq_refl binop_nan_pl64 mode_NE s D Fs FD) as Hd.
    cbn [round_mode] in Hd. rewrite (small_bound _ _ _ Z1 Z2 HZ) in Hd. destruct Hd as (Hv & Hf & _).
    pose proof (rnd_rel _ _ HB Hx) as Er. unfold b64_minus. rewrite <- Hv in Er.
    split; [done|]. rewrite S_INR. apply Rabs_le_inv in Bt, Es, Bd, ED, Er. split; apply Rabs_le.
    - lra.
    - assert (eta K = 64 * eps + 8 * INR K * eps)%R as E by (unfold eta; lra). lra.
  Qed.

  Lemma near_add K j s t D d : (Z.of_nat K <= 1000000)%Z → j < K → near K j s t → term_near D d →
    near K (S j) (b64_plus mode_NE s D) (t + d).
  Proof using.
    intros HK Hj Hs HD. destruct (near_bounds K j s t d D HK Hj Hs HD) as [HB Hb].
    destruct Hs as (Fs & Bt & Es), HD as (FD & Bd & ED).
    assert (Rabs (val s + val D) <= 4 * INR K)%R as Hx.
    { eapply Rle_trans; [apply Rabs_triang|]. lra. }
    destruct (big_between K _ HK Hx) as (Z1 & Z2 & HZ).
    pose proof (Bplus_correct 53 1024 eq_refl eq_refl binop_nan_pl64 mode_NE s D Fs FD) as Hd.
    cbn [round_mode] in Hd. rewrite (small_bound _ _ _ Z1 Z2 HZ) in Hd. destruct Hd as (Hv & Hf & _).
    pose proof (rnd_rel _ _ HB Hx) as Er. unfold b64_plus. rewrite <- Hv in Er.
    split; [done|]. rewrite S_INR. apply Rabs_le_inv in Bt, Es, Bd, ED, Er. split; apply Rabs_le.
    - lra.
    - assert (eta K = 64 * eps + 8 * INR K * eps)%R as E by (unfold eta; lra). lra.
  Qed.

  Lemma int_exact n : (Z.of_nat n <= 2 ^ 53)%Z → fin (float_of_nat n) = true ∧ val (float_of_nat n) = INR n.
  Proof using. intros H. rewrite INR_IZR_INZ. apply float_of_Z_exact. lia. Qed.

  (** Counts up to 2^53 are added without error. *)
  Lemma total_exact l : (Z.of_nat (sum_list l) <= 2 ^ 53)%Z →
    fin (foldl (λ t n, la_add F t (la_int F n)) (la_int F 0) l) = true ∧
    val (foldl (λ t n, la_add F t (la_int F n)) (la_int F 0) l) = INR (sum_list l).
  Proof using.
    intros H. cbn [la_add la_int float_logs].
    enough (∀ a A, fin A = true → val A = INR a → (Z.of_nat (a + sum_list l) <= 2 ^ 53)%Z →
      fin (foldl (λ t n, b64_plus mode_NE t (float_of_nat n)) A l) = true ∧
      val (foldl (λ t n, b64_plus mode_NE t (float_of_nat n)) A l) = INR (a + sum_list l)) as Hg.
    { apply (Hg 0 (float_of_nat 0)); [apply int_exact; lia..|done]. }
    clear H. induction l as [|n l IH]; intros a A FA VA H; cbn [foldl].
    - change (sum_list []) with 0. by rewrite Nat.add_0_r.
    - change (sum_list (n :: l)) with (n + sum_list l) in *.
      destruct (int_exact n ltac:(lia)) as [Fn Vn].
      pose proof (Bplus_correct 53 1024 eq_refl eq_refl binop_nan_pl64 mode_NE A (float_of_nat n) FA Fn) as Hd.
      cbn [round_mode] in Hd. rewrite VA, Vn, <- plus_INR in Hd.
      rewrite (small_bound 0 (Z.of_nat (a + n))) in Hd; [|lia|lia|].
      2: { rewrite <- INR_IZR_INZ. split; [apply pos_INR|lra]. }
      rewrite round_generic in Hd; [|apply valid_rnd_N|rewrite INR_IZR_INZ; apply format_Z; lia].
      destruct Hd as (Hv & Hf & _).
      destruct (IH (a + n) (b64_plus mode_NE A (float_of_nat n)) Hf Hv ltac:(lia)) as [H1 H2].
      split; [done|]. rewrite H2. f_equal. lia.
  Qed.

  Lemma zero_near K : near K 0 (float_of_nat 0) 0%R.
  Proof using.
    destruct (int_exact 0 ltac:(lia)) as [Fz Vz]. split; [done|]. rewrite Vz. cbn [INR].
    rewrite Rminus_diag_eq, Rabs_R0 by done. split; lra.
  Qed.

  Lemma counts_near K N l : (Z.of_nat K <= 1000000)%Z → (Z.of_nat N <= 2 ^ 53)%Z → (∀ n, n ∈ l → n ≤ N) →
    ∀ (skip : nat → bool) j s t, (∀ n, n ∈ l → skip n = false → 0 < n) → j + length l ≤ K → near K j s t →
    ∃ i, i ≤ j + length l ∧
    near K i (foldl (λ ret n, if skip n then ret else la_sub F ret (plogp F (la_int F n) (la_int F N))) s l)
      (foldl (λ ret n, if skip n then ret else la_sub real_logs ret (plogp real_logs (la_int real_logs n) (la_int real_logs N))) t l).
  Proof using HL.
    intros HK HN. induction l as [|n l IH]; intros Hl skip j s t Hskip Hj Hs; cbn [foldl].
    - exists j. split; [lia|done].
    - cbn [length] in *. destruct (skip n) eqn:Sk.
      + destruct (IH ltac:(intros; apply Hl; by right) skip j s t) as (i & Hi & H); [intros; apply Hskip; [by right|done]|lia|done|].
        exists i. split; [lia|done].
      + assert (n ≤ N) as Hn1 by (apply Hl; left). assert (0 < n) as Hn2 by (apply Hskip; [left|done]).
        destruct (int_exact n ltac:(lia)) as [Fn Vn]. destruct (int_exact N HN) as [FN VN].
        destruct (IH ltac:(intros; apply Hl; by right) skip (S j)
          (la_sub F s (plogp F (la_int F n) (la_int F N)))
          (la_sub real_logs t (plogp real_logs (la_int real_logs n) (la_int real_logs N)))) as (i & Hi & H);
          [intros; apply Hskip; [by right|done]|lia| |].
        * apply near_sub; [done|lia|done|]. apply plogp_near; done.
        * exists i. split; [lia|done].
  Qed.

  Lemma near_mono K j i s t : (Z.of_nat K <= 1000000)%Z → j ≤ i → near K j s t → near K i s t.
  Proof using.
    intros HK Hji (Fs & Bt & Es). apply le_INR in Hji. pose proof (eta_small K HK). split; [done|]. split; [lra|]. nra.
  Qed.

  Lemma side_near K N skip side j s t : (Z.of_nat K <= 1000000)%Z → (Z.of_nat N <= 2 ^ 53)%Z → 0 < sum_list side ≤ N →
    (∀ n, n ∈ side → skip n = false → 0 < n) →
    j + length side + 1 ≤ K → near K j s t →
    near K (j + length side + 1) (side_entropy F skip N s side) (side_entropy real_logs skip N t side).
  Proof using HL.
    intros HK HN Hsum Hskip Hj Hs. unfold side_entropy.
    assert (∀ n, n ∈ side → n ≤ sum_list side) as Hle.
    { clear. induction side as [|x l IH]; intros n Hn; [by apply elem_of_nil in Hn|].
      change (sum_list (x :: l)) with (x + sum_list l). apply elem_of_cons in Hn as [->|Hn]; [lia|].
      specialize (IH n Hn). lia. }
    destruct (total_exact side ltac:(lia)) as [Ft Vt].
    destruct (counts_near K N side HK HN ltac:(intros n Hn; specialize (Hle n Hn); lia) skip j s t Hskip ltac:(lia) Hs) as (i & Hi & H).
    apply (near_mono K (S i)); [done|lia|].
    change (la_add F) with (b64_plus mode_NE). change (la_add real_logs) with Rplus.
    apply near_add; [done|lia|exact H|].
    rewrite (foldl_add (λ n, la_int real_logs n)).
    replace (la_int real_logs 0 + r_sum (λ n, la_int real_logs n) side)%R with (INR (sum_list side)).
    2: { cbn [la_int real_logs INR]. rewrite sum_INR. change (λ n, INR n) with INR. lra. }
    destruct (int_exact N HN) as [FN VN].
    apply plogp_near; done.
  Qed.

  Lemma sides_near K N skip sides : (Z.of_nat K <= 1000000)%Z → (Z.of_nat N <= 2 ^ 53)%Z →
    (∀ side, side ∈ sides → 0 < sum_list side ≤ N ∧ ∀ n, n ∈ side → skip n = false → 0 < n) →
    ∀ j s t, j + length (concat sides) + length sides ≤ K → near K j s t →
    near K (j + length (concat sides) + length sides) (foldl (side_entropy F skip N) s sides) (foldl (side_entropy real_logs skip N) t sides).
  Proof using HL.
    intros HK HN. induction sides as [|side sides IH]; intros Hs j s t Hj H.
    - cbn [foldl concat length] in *. by rewrite !Nat.add_0_r.
    - cbn [foldl concat length] in *. rewrite app_length in *. destruct (Hs side ltac:(left)) as [H1 H2].
      pose proof (side_near K N skip side j s t HK HN H1 H2 ltac:(lia) H) as H'.
      replace (j + (length side + length (concat sides)) + S (length sides)) with
        (j + length side + 1 + length (concat sides) + length sides) by lia.
      apply IH; [intros; apply Hs; by right|lia|done].
  Qed.

  Lemma base_near l : (Z.of_nat (length l) <= 1000000)%Z → (Z.of_nat (sum_list l) <= 2 ^ 53)%Z → (∀ n, n ∈ l → 0 < n) →
    near (length l) (length l) (base_entropy_list F l) (base_entropy_list real_logs l).
  Proof using HL.
    intros HK HN Hp. unfold base_entropy_list. rewrite add_ints_sum.
    assert (∀ n, n ∈ l → n ≤ sum_list l) as Hle.
    { clear. induction l as [|x l IH]; intros n Hn; [by apply elem_of_nil in Hn|].
      change (sum_list (x :: l)) with (x + sum_list l). apply elem_of_cons in Hn as [->|Hn]; [lia|].
      specialize (IH n Hn). lia. }
    destruct (counts_near (length l) (sum_list l) l HK HN Hle (λ _, false) 0 (float_of_nat 0) 0%R) as (i & Hi & H);
      [intros; by apply Hp|lia|apply zero_near|].
    apply (near_mono _ i); [done|lia|exact H].
  Qed.

  Lemma sum_in (sides : list (list nat)) side : side ∈ sides → sum_list side ≤ sum_list (concat sides).
  Proof using.
    assert (∀ l k, sum_list (l ++ k) = sum_list l + sum_list k) as Happ.
    { clear. intros l k. induction l as [|x l IH]; cbn in *; lia. }
    induction sides as [|x l IH]; intros Hn; [by apply elem_of_nil in Hn|].
    cbn [concat]. rewrite Happ. apply elem_of_cons in Hn as [->|Hn]; [lia|]. specialize (IH Hn). lia.
  Qed.

  Definition ops (sides : list (list nat)) : nat := length (concat sides) + length sides.

  Lemma split_near sides : (Z.of_nat (ops sides) <= 1000000)%Z → (Z.of_nat (sum_list (concat sides)) <= 2 ^ 53)%Z →
    (∀ side, side ∈ sides → side ≠ [] ∧ ∀ n, n ∈ side → 0 < n) →
    near (ops sides) (ops sides) (split_entropy_list F sides) (split_entropy_list real_logs sides).
  Proof using HL.
    intros HK HN Hs. unfold split_entropy_list. rewrite add_ints_sum.
    apply (sides_near (ops sides) (sum_list (concat sides)) (λ _, false) sides HK HN) with (j := 0).
    - intros side Hin. split; [|intros; by apply (Hs side)]. split; [|by apply sum_in].
      destruct (Hs side Hin) as [Hne Hp]. destruct side as [|n side]; [done|].
      change (sum_list (n :: side)) with (n + sum_list side). specialize (Hp n ltac:(left)). lia.
    - unfold ops. lia.
    - apply zero_near.
  Qed.

  Lemma fast_near s0 s1 : (Z.of_nat (ops [s0; s1]) <= 1000000)%Z → (Z.of_nat (sum_list (s0 ++ s1)) <= 2 ^ 53)%Z →
    0 < sum_list s0 → 0 < sum_list s1 →
    near (ops [s0; s1]) (ops [s0; s1]) (fast_entropy F s0 s1) (fast_entropy real_logs s0 s1).
  Proof using HL.
    intros HK HN H0 H1. unfold fast_entropy. rewrite add_ints_sum.
    assert (concat [s0; s1] = s0 ++ s1) as E by (cbn; by rewrite app_nil_r).
    apply (sides_near (ops [s0; s1]) (sum_list (s0 ++ s1)) (λ n, n =? 0) [s0; s1] HK HN) with (j := 0).
    - intros side Hin. split.
      + split; [|rewrite <- E; by apply sum_in]. repeat (apply elem_of_cons in Hin as [->|Hin]; [done|]). by apply elem_of_nil in Hin.
      + intros n _ Hn. apply Nat.eqb_neq in Hn. lia.
    - unfold ops. lia.
    - apply zero_near.
  Qed.
End with_log.
