(** Back-propagation over the real numbers. *)
From Coq Require Import Reals Lra.
From Coquelicot Require Import Hierarchy Derive AutoDerive.
From Verif Require Import Prelude MetricModel MetricSpec MetricReal LinReal NeuralModel NeuralSpec NeuralProofs.
Local Open Scope nat_scope.

Lemma eqb_real x : a_eqb reals x (a_zero reals) = false ↔ x ≠ 0%R.
Proof. cbn. destruct (Req_EM_T x 0) as [E|E]; split; intros H; congruence. Qed.
Lemma eqb_real_true x : a_eqb reals x (a_zero reals) = true ↔ x = 0%R.
Proof. cbn. destruct (Req_EM_T x 0) as [E|E]; split; intros H; congruence. Qed.

Lemma wsum_total w x n : wsum reals w x n = total n (λ k, w k * x k)%R.
Proof.
  unfold wsum. induction n as [|n IH]; [done|]. rewrite seq_S, foldl_app, IH. cbn [foldl total Nat.add].
  destruct (a_eqb reals (w n) (a_zero reals)) eqn:E; [|done]. apply eqb_real_true in E. rewrite E. lra.
Qed.

Lemma d_const (c w0 : R) : is_derive (λ _ : R, c) w0 0%R.
Proof. apply (is_derive_const (K := R_AbsRing) (V := R_NormedModule) c w0). Qed.
Lemma d_plus (f g : R → R) (w0 a c : R) : is_derive f w0 a → is_derive g w0 c → is_derive (λ w, f w + g w)%R w0 (a + c)%R.
Proof. intros H1 H2. exact (is_derive_plus (K := R_AbsRing) (V := R_NormedModule) f g w0 a c H1 H2). Qed.
Lemma d_mult (f g : R → R) (w0 a c : R) : is_derive f w0 a → is_derive g w0 c →
  is_derive (λ w, f w * g w)%R w0 (a * g w0 + f w0 * c)%R.
Proof. intros H1 H2. exact (is_derive_mult f g w0 a c H1 H2). Qed.
Lemma d_comp (f g : R → R) (w0 a c : R) : is_derive f (g w0) a → is_derive g w0 c → is_derive (λ w, f (g w)) w0 (a * c)%R.
Proof.
  intros H1 H2. rewrite Rmult_comm. exact (is_derive_comp (K := R_AbsRing) (V := R_NormedModule) f g w0 a c H1 H2).
Qed.

Lemma is_derive_total n (F : nat → R → R) (D : nat → R) w0 : (∀ k, k < n → is_derive (F k) w0 (D k)) →
  is_derive (λ w, total n (λ k, F k w)) w0 (total n D).
Proof.
  induction n as [|n IH]; intros H; cbn [total].
  - apply d_const.
  - apply (d_plus (λ w, total n (λ k, F k w)) (F n)); [apply IH; intros k Hk; apply H; lia|apply H; lia].
Qed.

Section gradient.
  Context (N I L : nat) (rank : nat → nat) (W : nat → nat → R) (b : nat → R) (f : nat → nfun R).
  Hypothesis HIN : I <= N.
  Hypothesis Hff : feeds_forward reals N I L rank W b f.
  Hypothesis Hf : ∀ j z, j < N → is_derive (forward (f j)) z (backward (f j) (forward (f j) z)).
  Context (Wf : R → nat → nat → R) (bf : R → nat → R) (w0 : R) (Wd : nat → nat → R) (bd : nat → R).
  Hypothesis HW0 : ∀ i k, i < N → k < N → Wf w0 i k = W i k.
  Hypothesis Hb0 : ∀ i, i < N → bf w0 i = b i.
  Hypothesis HWd : ∀ i k, i < N → k < N → is_derive (λ w, Wf w i k) w0 (Wd i k).
  Hypothesis Hbd : ∀ i, i < N → is_derive (λ w, bf w i) w0 (bd i).
  Hypothesis HWdir : ∀ i k, i < N → k < N → Wd i k ≠ 0%R → I <= i ∧ rank k < rank i.
  Hypothesis Hbdir : ∀ i, i < N → bd i ≠ 0%R → I <= i.
  Context (x : nat → nat → R).

  Notation st w k := (Nat.iter k (round reals N (Wf w) (bf w) f) x).
  Notation s0 k := (Nat.iter k (round reals N W b f) x).

  Lemma st_base k j : j < N → st w0 k j O = s0 k j O.
  Proof.
    revert j. induction k as [|k IH]; intros j Hj; [done|]. rewrite !Nat.iter_succ. unfold round at 1 3. rewrite Hb0 by done.
    f_equal. f_equal. apply wsum_ext; [intros s Hs; by apply HW0|exact IH].
  Qed.

  Fixpoint dv (k j : nat) : R :=
    match k with
    | 0 => 0%R
    | S k' => (backward (f j) (s0 k j O) * (total N (λ s, Wd j s * s0 k' s O + W j s * dv k' s) + bd j))%R
    end.

  Lemma st_derive k : ∀ j, j < N → is_derive (λ w, st w k j O) w0 (dv k j).
  Proof.
    induction k as [|k IH]; intros j Hj.
    - exact (d_const (x j 0) w0).
    - apply (is_derive_ext (λ w, forward (f j) (total N (λ s, Wf w j s * st w k s O) + bf w j)%R)).
      { intros w. rewrite Nat.iter_succ. unfold round at 2. by rewrite wsum_total. }
      cbn [dv].
      apply (d_comp (forward (f j)) (λ w, total N (λ s, Wf w j s * st w k s O) + bf w j)%R).
      + assert (s0 (S k) j O = forward (f j) (total N (λ s, Wf w0 j s * st w0 k s O) + bf w0 j)%R) as ->.
        { rewrite <- st_base by done. rewrite Nat.iter_succ. unfold round at 1. by rewrite wsum_total. }
        by apply Hf.
      + apply (d_plus (λ w, total N (λ s, Wf w j s * st w k s O)%R) (λ w, bf w j)); [|by apply Hbd].
        apply (is_derive_total N (λ s w, Wf w j s * st w k s O)%R). intros s Hs.
        rewrite <- (st_base k s) by done. rewrite <- (HW0 j s) by done.
        apply (d_mult (λ w, Wf w j s) (λ w, st w k s O)); [by apply HWd|by apply IH].
  Qed.

  Lemma real_passes : passes reals I x.
  Proof. clear. intros i c _. cbn. lra. Qed.
  Lemma real_io : a_eqb reals (a_one reals) (a_zero reals) = false.
  Proof. clear. apply eqb_real. cbn. lra. Qed.

  Lemma s0_settled k m j : j < N → rank j <= k → rank j <= m → s0 k j O = s0 m j O.
  Proof.
    intros Hj Hk Hm.
    apply (settled reals N I L rank W b f Hff real_io x x 0 HIN real_passes (λ _ _, eq_refl) (rank j) j k m Hj (le_n _) Hk Hm).
  Qed.

  Lemma dv_input k i : i < I → dv k i = 0%R.
  Proof.
    intros Hi. induction k as [|k IH]; [done|]. cbn [dv]. destruct Hff as [H1 _]. destruct (H1 i Hi) as (Hr & Hfi & Hb & Hw & Hz).
    rewrite Hfi. cbn [backward linear a_one reals].
    assert (bd i = 0%R) as ->.
    { destruct (Req_EM_T (bd i) 0) as [E|E]; [done|]. apply Hbdir in E; lia. }
    rewrite (total_ext _ _ (λ _, 0%R)); [rewrite total_const0; lra|].
    intros s Hs. assert (Wd i s = 0%R) as ->.
    { destruct (Req_EM_T (Wd i s) 0) as [E|E]; [done|]. apply HWdir in E; lia. }
    destruct (decide (s = i)) as [-> |Hne]; [rewrite IH; lra|].
    specialize (Hz s Hs Hne). apply eqb_real_true in Hz. rewrite Hz. lra.
  Qed.

  Lemma dv_settled r : ∀ j k m, j < N → rank j <= r → rank j <= k → rank j <= m → dv k j = dv m j.
  Proof.
    induction r as [|r IH]; intros j k m Hj Hr Hk Hm; (destruct (decide (j < I)) as [Hji|Hji]; [by rewrite !dv_input|]);
      destruct Hff as [_ H2]; destruct (H2 j ltac:(lia) Hj) as (H3 & H4 & H5); [lia|].
    destruct k as [|k]; [lia|]. destruct m as [|m]; [lia|]. cbn [dv].
    rewrite (s0_settled (S k) (S m) j) by done. f_equal. f_equal. apply total_ext. intros s Hs. f_equal.
    - destruct (Req_EM_T (Wd j s) 0) as [->|E]; [lra|]. apply HWdir in E; [|done|done].
      by rewrite (s0_settled k m s) by lia.
    - destruct (Req_EM_T (W j s) 0) as [->|E]; [lra|]. apply eqb_real in E. specialize (H5 s Hs E).
      by rewrite (IH s k m) by lia.
  Qed.

  Context (K M : nat).
  Hypothesis HK : L <= K.
  Hypothesis HM : L <= M.
  Context (err : nat → R).
  Notation out j := (s0 K j O).
  Definition slope (j : nat) : R := backward (f j) (out j).
  Notation delta := (summed reals N W slope err).

  Lemma rank_le j : j < N → rank j <= L.
  Proof.
    intros Hj. destruct Hff as [H1 H2]. destruct (decide (j < I)) as [Hi|Hi].
    - destruct (H1 j Hi). lia.
    - destruct (H2 j ltac:(lia) Hj) as (_ & ? & _). done.
  Qed.

  Definition push (j : nat) : R := (total N (λ s, Wd j s * out s) + bd j)%R.
  Lemma dv_fixed j : j < N → dv K j = (slope j * (total N (λ s, W j s * dv K s) + push j))%R.
  Proof.
    intros Hj. pose proof (rank_le j Hj). rewrite (dv_settled L j K (S K)) by lia. cbn [dv]. unfold slope, push.
    rewrite (s0_settled (S K) K j) by lia. rewrite total_plus. lra.
  Qed.

  Lemma summed_S m j : delta (S m) j = (slope j * (err j + total N (λ t, W t j * delta m t)))%R.
  Proof.
    clear. revert j. induction m as [|m IH]; intros j.
    - cbn. rewrite (total_ext _ _ (λ _, 0%R)) by (intros; lra). rewrite total_const0. lra.
    - change (delta (S (S m)) j) with (delta (S m) j + spread reals N W slope err (S m) j)%R. rewrite IH.
      assert (spread reals N W slope err (S m) j = (slope j * total N (λ t, W t j * spread reals N W slope err m t))%R) as ->.
      { cbn [spread a_mul reals]. rewrite wsum_total. lra. }
      rewrite (total_ext N (λ t, W t j * delta (S m) t)%R (λ t, W t j * delta m t + W t j * spread reals N W slope err m t)%R).
      + rewrite total_plus. lra.
      + intros t _. change (delta (S m) t) with (delta m t + spread reals N W slope err m t)%R. lra.
  Qed.

  Lemma spread_zero i : ∀ j, I <= j → j < N → L < rank j + i → spread reals N W slope err i j = 0%R.
  Proof.
    induction i as [|i IH]; intros j HI Hj Hl.
    - pose proof (rank_le j Hj). lia.
    - cbn [spread a_mul reals]. rewrite wsum_total, (total_ext _ _ (λ _, 0%R)); [rewrite total_const0; lra|].
      intros t Ht. destruct (Req_EM_T (W t j) 0) as [->|E]; [lra|]. destruct Hff as [H1 H2].
      destruct (decide (t < I)) as [Hti|Hti].
      + destruct (H1 t Hti) as (_ & _ & _ & _ & Hz). specialize (Hz j Hj ltac:(lia)). apply eqb_real_true in Hz. done.
      + destruct (H2 t ltac:(lia) Ht) as (_ & _ & H). apply eqb_real in E. specialize (H j Hj E).
        rewrite IH by lia. lra.
  Qed.

  Lemma delta_fixed j : I <= j → j < N → delta M j = (slope j * (err j + total N (λ t, W t j * delta M t)))%R.
  Proof.
    intros HI Hj. rewrite <- summed_S. change (delta (S M) j) with (delta M j + spread reals N W slope err M j)%R.
    rewrite spread_zero; [lra|done|done|]. destruct Hff as [_ H2]. destruct (H2 j HI Hj). lia.
  Qed.

  Lemma adjoint : total N (λ j, err j * dv K j)%R = total N (λ j, delta M j * push j)%R.
  Proof.
    assert (total N (λ j, (err j + total N (λ t, W t j * delta M t)) * dv K j)%R =
            total N (λ j, delta M j * (total N (λ s, W j s * dv K s) + push j))%R) as E.
    { apply total_ext. intros j Hj. destruct (decide (j < I)) as [Hi|Hi].
      - pose proof (dv_fixed j Hj) as Hd. rewrite (dv_input K j Hi) in *.
        destruct Hff as [H1 _]. destruct (H1 j Hi) as (_ & Hfi & _). unfold slope in Hd. rewrite Hfi in Hd. cbn in Hd.
        replace (total N (λ s, W j s * dv K s) + push j)%R with 0%R by lra. lra.
      - rewrite (dv_fixed j Hj) at 1. rewrite (delta_fixed j) by lia. lra. }
    rewrite (total_ext N _ (λ j, err j * dv K j + total N (λ t, W t j * delta M t * dv K j))%R) in E.
    2:{ intros j _. rewrite Rmult_plus_distr_r, <- total_scale_r. done. }
    rewrite total_plus in E.
    rewrite (total_ext N (λ j, delta M j * _)%R (λ j, total N (λ s, W j s * delta M j * dv K s) + delta M j * push j)%R) in E.
    2:{ intros j _. rewrite Rmult_plus_distr_l, <- total_scale. f_equal. apply total_ext. intros s _. lra. }
    rewrite total_plus, (total_swap N N (λ j t, W t j * delta M t * dv K j)%R) in E. lra.
  Qed.

  (** The loss. *)
  Context (goal : nat → R) (watched : nat → bool).
  Hypothesis Herr : ∀ j, j < N → err j = if watched j then (goal j - out j)%R else 0%R.

  Lemma loss_derive : is_derive (λ w, total N (λ j, if watched j then (goal j - st w K j O) ^ 2 / 2 else 0)%R) w0
    (- total N (λ j, delta M j * push j))%R.
  Proof.
    rewrite <- adjoint. replace (- total N (λ j, err j * dv K j))%R with (total N (λ j, - (err j * dv K j)))%R.
    2:{ replace (- total N (λ j, err j * dv K j))%R with (- (1) * total N (λ j, err j * dv K j))%R by lra.
        rewrite <- total_scale. apply total_ext. intros j _. lra. }
    apply (is_derive_total N (λ j w, if watched j then (goal j - st w K j O) ^ 2 / 2 else 0)%R). intros j Hj.
    rewrite (Herr j Hj). destruct (watched j).
    - rewrite <- (st_base K j Hj).
      pose proof (st_derive K j Hj) as Hd.
      apply (is_derive_ext (λ w, (λ u, (goal j - u) * (goal j - u) * / 2)%R (st w K j O))).
      { intros w. cbn. lra. }
      replace (- ((goal j - st w0 K j O) * dv K j))%R with (- (goal j - st w0 K j O) * dv K j)%R by lra.
      apply (d_comp (λ u, (goal j - u) * (goal j - u) * / 2)%R); [|exact Hd].
      auto_derive; [done|]. lra.
    - replace (- (0 * dv K j))%R with 0%R by lra. apply d_const.
  Qed.
End gradient.
