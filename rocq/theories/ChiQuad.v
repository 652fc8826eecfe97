(** chiSquaredPercentile is Boole's rule: exact for polynomials of degree up to 5. *)
From Coq Require Import Reals Lra.
From Coquelicot Require Import Coquelicot.
From Verif Require Import Prelude ChiModel.
Local Open Scope R_scope.

(** The quadrature spelt out. *)
Definition real_sum (l : list R) : R := foldl Rplus 0%R l.
Definition percentile_exact (pdf : R → R) (x : R) : R :=
  let w := (x / (4 * 32))%R in
  let value (i : nat) := pdf (w * INR i)%R in
  let ret1 := (value 0%nat + value 128%nat)%R in
  let ret2 := real_sum (map value (every 2 4 32)) in
  let ret3 := real_sum (map value (every 4 4 31)) in
  let ret4 := real_sum (map value (every 1 2 64)) in
  ((2 * w / 45) * (7 * ret1 + 12 * ret2 + 14 * ret3 + 32 * ret4))%R.
Lemma percentile_exact_eq gamma pdf x : percentile_of (reals gamma) pdf x = percentile_exact pdf x.
Proof.
  unfold percentile_of, percentile_exact. cbn [reals ar_add ar_sub ar_mul ar_div ar_lit]. cbv zeta.
  rewrite !(INR_IZR_INZ 0), !(INR_IZR_INZ 128). replace (4 * 32) with 128 by ring.
  assert (∀ l, sum_of (reals gamma) (map (λ i, pdf (x / 128 * IZR (Z.of_nat i))) l) =
               real_sum (map (λ i, pdf (x / 128 * INR i)) l)) as E.
  { intros l. unfold sum_of, real_sum. cbn [reals ar_add ar_lit]. f_equal. apply map_ext. intros i. by rewrite INR_IZR_INZ. }
  by rewrite !E.
Qed.

Lemma real_sum_acc l a : foldl Rplus a l = a + real_sum l.
Proof.
  unfold real_sum. revert a. induction l as [|x l IH]; intros a; cbn [foldl]; [ring|].
  rewrite IH, (IH (0 + x)). ring.
Qed.
Lemma real_sum_cons x l : real_sum (x :: l) = x + real_sum l.
Proof. unfold real_sum at 1. cbn [foldl]. rewrite real_sum_acc. ring. Qed.

Definition z_sum (l : list Z) : Z := foldr Z.add 0%Z l.
Definition z_pows (n : nat) (l : list nat) : Z := z_sum (map (λ i, Z.pow (Z.of_nat i) (Z.of_nat n)) l).

Lemma sum_pow w n l : real_sum (map (λ i, (w * INR i) ^ n) l) = w ^ n * IZR (z_pows n l).
Proof.
  induction l as [|i l IH].
  - unfold z_pows, z_sum. cbn [map foldr real_sum foldl]. unfold real_sum. cbn [foldl]. ring.
  - cbn [map]. rewrite real_sum_cons, IH. unfold z_pows, z_sum. cbn [map foldr]. rewrite plus_IZR, <- pow_IZR, INR_IZR_INZ, Rpow_mult_distr. ring.
Qed.

Lemma percentile_ext f g x : (∀ u, f u = g u) → percentile_exact f x = percentile_exact g x.
Proof.
  intros H. unfold percentile_exact. cbv zeta. rewrite !H.
  assert (∀ l, map (λ i, f (x / (4 * 32) * INR i)) l = map (λ i, g (x / (4 * 32) * INR i)) l) as E.
  { intros l. apply map_ext. intros i. apply H. }
  by rewrite !E.
Qed.

Lemma sum_lin f g a b (l : list nat) :
  real_sum (map (λ i, a * f i + b * g i) l) = a * real_sum (map f l) + b * real_sum (map g l).
Proof.
  induction l as [|i l IH]; [unfold real_sum; cbn; ring|]. cbn [map]. rewrite !real_sum_cons, IH. ring.
Qed.
Lemma percentile_linear f g a b x :
  percentile_exact (λ u, a * f u + b * g u) x = a * percentile_exact f x + b * percentile_exact g x.
Proof.
  unfold percentile_exact. cbv zeta. set (w := x / (4 * 32)).
  rewrite !(sum_lin (λ i, f (w * INR i)) (λ i, g (w * INR i)) a b). ring.
Qed.

Lemma percentile_pow n x : (n <= 5)%nat → percentile_exact (λ u, u ^ n) x = x ^ (S n) / INR (S n).
Proof.
  intros Hn. unfold percentile_exact. cbv zeta. rewrite !sum_pow, !Rpow_mult_distr.
  replace (x ^ S n) with ((128 * (x / (4 * 32))) ^ S n) by (f_equal; field).
  generalize (x / (4 * 32)). intros w. rewrite Rpow_mult_distr.
  assert (INR 128 = 128) as -> by (rewrite INR_IZR_INZ; reflexivity).
  assert (INR 0 = 0) as -> by reflexivity.
  destruct n as [|[|[|[|[|[|n]]]]]]; [..|lia].
  all: repeat match goal with |- context [IZR (z_pows ?n ?l)] =>
    let v := eval vm_compute in (z_pows n l) in change (z_pows n l) with v end.
  all: rewrite INR_IZR_INZ; cbn [Z.of_nat Pos.of_succ_nat Pos.succ pow]; field.
Qed.

(** Exact integrals of polynomials. *)
Lemma poly_integral a0 a1 a2 a3 a4 a5 x :
  percentile_exact (λ u, a0 + a1 * u + a2 * u ^ 2 + a3 * u ^ 3 + a4 * u ^ 4 + a5 * u ^ 5) x =
  RInt (λ u, a0 + a1 * u + a2 * u ^ 2 + a3 * u ^ 3 + a4 * u ^ 4 + a5 * u ^ 5) 0 x.
Proof.
  transitivity (a0 * x + a1 * x ^ 2 / 2 + a2 * x ^ 3 / 3 + a3 * x ^ 4 / 4 + a4 * x ^ 5 / 5 + a5 * x ^ 6 / 6).
  - rewrite (percentile_ext _ (λ u, a0 * u ^ 0 + 1 * (a1 * u ^ 1 + 1 * (a2 * u ^ 2 + 1 * (a3 * u ^ 3 + 1 * (a4 * u ^ 4 + a5 * u ^ 5))))))
      by (intros u; ring).
    rewrite (percentile_linear (λ u, u ^ 0)), (percentile_linear (λ u, u ^ 1)), (percentile_linear (λ u, u ^ 2)),
      (percentile_linear (λ u, u ^ 3)), (percentile_linear (λ u, u ^ 4)).
    rewrite !percentile_pow by lia. rewrite !INR_IZR_INZ. cbn [Z.of_nat Pos.of_succ_nat Pos.succ]. field.
  - symmetry. apply is_RInt_unique.
    set (F := λ x, a0 * x + a1 * x ^ 2 / 2 + a2 * x ^ 3 / 3 + a3 * x ^ 4 / 4 + a4 * x ^ 5 / 5 + a5 * x ^ 6 / 6).
    assert (F x = F x - F 0) as E by (unfold F; field).
    change (is_RInt (λ u, a0 + a1 * u + a2 * u ^ 2 + a3 * u ^ 3 + a4 * u ^ 4 + a5 * u ^ 5) 0 x (F x)).
    rewrite E. apply (is_RInt_derive (V := R_CompleteNormedModule) F).
    + intros u _. unfold F. auto_derive; [done|]. cbn -[pow]. field.
    + intros u _. apply (ex_derive_continuous (K := R_AbsRing) (V := R_NormedModule)). auto_derive. done.
Qed.

(** ** Two degrees of freedom *)

(** Powers of one number, as sums over the nodes. *)
Lemma sum_geo q a d n : (1 - q ^ d) * real_sum (map (λ i, q ^ i) (every a d n)) = q ^ a * (1 - q ^ (d * n)).
Proof.
  unfold every. induction n as [|n IH].
  - cbn [seq map]. unfold real_sum. cbn [foldl]. rewrite Nat.mul_0_r. cbn [pow]. ring.
  - rewrite seq_S, !map_app. unfold real_sum. rewrite foldl_app. rewrite real_sum_acc.
    fold (real_sum (map (λ i, q ^ i) (map (λ j, (a + d * j)%nat) (seq 0 n)))).
    cbn [map Nat.add]. rewrite Rmult_plus_distr_l, IH. unfold real_sum. cbn [foldl].
    replace (d * S n)%nat with (d * n + d)%nat by lia. rewrite !pow_add. ring.
Qed.

Definition half_exp (u : R) : R := exp (- u / 2) / 2.

Lemma percentile_half x : x <> 0 →
  let q := exp (- (x / 256)) in
  percentile_exact half_exp x =
    (1 - exp (- x / 2)) * ((x / 128 / 45) * (7 + 32 * q + 12 * q ^ 2 + 32 * q ^ 3 + 7 * q ^ 4) / (1 - q ^ 4)).
Proof.
  intros Hx. cbv zeta. set (q := exp (- (x / 256))).
  assert (∀ i : nat, half_exp (x / (4 * 32) * INR i) = / 2 * q ^ i + 0 * 0) as V.
  { intros i. unfold half_exp, q. rewrite <- exp_INR_mult || idtac.
    replace (- (x / (4 * 32) * INR i) / 2) with (INR i * - (x / 256)) by field.
    rewrite <- Rpower_pow by apply exp_pos. unfold Rpower. rewrite ln_exp. field. }
  unfold percentile_exact. cbv zeta.
  assert (∀ l, real_sum (map (λ i, half_exp (x / (4 * 32) * INR i)) l) = / 2 * real_sum (map (λ i, q ^ i) l)) as W.
  { intros l. rewrite (map_ext _ (λ i, / 2 * q ^ i + 0 * 0)) by exact V.
    rewrite (sum_lin (λ i, q ^ i) (λ _, 0) (/ 2) 0). ring. }
  rewrite !W, !V. clear W V.
  assert (exp (- x / 2) = q ^ 128) as ->.
  { unfold q. rewrite <- Rpower_pow by apply exp_pos. unfold Rpower. rewrite ln_exp. f_equal.
    rewrite INR_IZR_INZ. change (Z.of_nat 128) with 128%Z. field. }
  assert (q <> 1) as Hq.
  { unfold q. intros E. rewrite <- exp_0 in E. apply exp_inv in E. lra. }
  assert (0 < q) as Hp by apply exp_pos.
  assert (1 - q ^ 4 <> 0) as H4.
  { replace (1 - q ^ 4) with ((1 - q) * ((1 + q) * (1 + q ^ 2))) by ring.
    apply Rmult_integral_contrapositive_currified; [lra|]. apply Rgt_not_eq. apply Rmult_lt_0_compat; [lra|].
    pose proof (pow_lt q 2 Hp). lra. }
  assert (1 - q ^ 2 <> 0) as H2.
  { replace (1 - q ^ 2) with ((1 - q) * (1 + q)) by ring.
    apply Rmult_integral_contrapositive_currified; lra. }
  assert (∀ a d n, 1 - q ^ d <> 0 → real_sum (map (λ i, q ^ i) (every a d n)) = q ^ a * (1 - q ^ (d * n)) / (1 - q ^ d)) as G.
  { intros a d n Hd. rewrite <- sum_geo. field. exact Hd. }
  rewrite !G by assumption. clear G.
  replace (4 * 32)%nat with 128%nat by lia. replace (2 * 64)%nat with 128%nat by lia.
  replace (4 * 31)%nat with 124%nat by lia.
  set (z := q ^ 124). assert (q ^ 128 = z * q ^ 4) as -> by (unfold z; rewrite <- pow_add; f_equal).
  clearbody z. cbn [pow]. rewrite ?Rmult_1_r.
  replace (q ^ 2) with (q * q) in * by ring. replace (q ^ 4) with (q * q * (q * q)) in * by ring.
  replace (1 - q * (q * (q * q))) with (1 - q * q * (q * q)) by ring. 
  field. split; [|assumption]. assumption.
Qed.

(** A function that starts at zero and has a nonnegative derivative stays nonnegative. *)
Lemma grows (f f' : R → R) b :
  (∀ u, is_derive f u (f' u)) → f 0 = 0 → (∀ u, 0 <= u <= b → 0 <= f' u) → ∀ u, 0 <= u <= b → 0 <= f u.
Proof.
  intros D Z P u [U1 U2]. destruct (Req_dec u 0) as [->|N]; [lra|].
  destruct (MVT_gen f 0 u f') as (c & C & E).
  - intros v _. apply D.
  - intros v _. apply continuity_pt_filterlim.
    apply (ex_derive_continuous (K := R_AbsRing) (V := R_NormedModule)). eexists. apply D.
  - rewrite Rmin_left, Rmax_right in C by lra. rewrite Z in E.
    assert (0 <= f' c) by (apply P; lra). nra.
Qed.

(** The error of Boole's rule on one panel of the exponential and its derivatives, each with the
    remainder [K u^n / n!] subtracted [s] times. *)
Section panel.
  Variables s k : R.
  Let C2 (u : R) : R := (exp (2 * u) + exp (- (2 * u))) / 2.
  Let S2 (u : R) : R := (exp (2 * u) - exp (- (2 * u))) / 2.
  Let C1 (u : R) : R := (exp u + exp (- u)) / 2.
  Let S1 (u : R) : R := (exp u - exp (- u)) / 2.
  Definition g0 (u : R) : R := s * (2 / 45 * (7 * u * C2 u + 32 * u * C1 u + 6 * u) - S2 u) + k * u ^ 7 / 5040.
  Definition g1 (u : R) : R := s * (2 / 45 * (7 * C2 u + 14 * u * S2 u + 32 * C1 u + 32 * u * S1 u + 6) - 2 * C2 u) + k * u ^ 6 / 720.
  Definition g2 (u : R) : R := s * (2 / 45 * (28 * S2 u + 28 * u * C2 u + 64 * S1 u + 32 * u * C1 u) - 4 * S2 u) + k * u ^ 5 / 120.
  Definition g3 (u : R) : R := s * (2 / 45 * (84 * C2 u + 56 * u * S2 u + 96 * C1 u + 32 * u * S1 u) - 8 * C2 u) + k * u ^ 4 / 24.
  Definition g4 (u : R) : R := s * (2 / 45 * (224 * S2 u + 112 * u * C2 u + 128 * S1 u + 32 * u * C1 u) - 16 * S2 u) + k * u ^ 3 / 6.
  Definition g5 (u : R) : R := s * (2 / 45 * (560 * C2 u + 224 * u * S2 u + 160 * C1 u + 32 * u * S1 u) - 32 * C2 u) + k * u ^ 2 / 2.
  Definition g6 (u : R) : R := s * (2 / 45 * (1344 * S2 u + 448 * u * C2 u + 192 * S1 u + 32 * u * C1 u) - 64 * S2 u) + k * u.
  Definition g7 (u : R) : R := s * (2 / 45 * (3136 * C2 u + 896 * u * S2 u + 224 * C1 u + 32 * u * S1 u) - 128 * C2 u) + k.

  Lemma panel b : (∀ u, 0 <= u <= b → 0 <= g7 u) → ∀ u, 0 <= u <= b → 0 <= g0 u.
  Proof using.
    intros H.
    assert (∀ u, 0 <= u <= b → 0 <= g6 u) as H6.
    { apply (grows _ g7); [|unfold g6, S2, C2, S1, C1; rewrite !Rmult_0_r, !Ropp_0, exp_0; field|exact H].
      intros u. unfold g6, g7, S2, C2, S1, C1. auto_derive; [exact I|field]. }
    assert (∀ u, 0 <= u <= b → 0 <= g5 u) as H5.
    { apply (grows _ g6); [|unfold g5, S2, C2, S1, C1; rewrite !Rmult_0_r, !Ropp_0, exp_0; field|exact H6].
      intros u. unfold g6, g5, S2, C2, S1, C1. auto_derive; [exact I|field]. }
    assert (∀ u, 0 <= u <= b → 0 <= g4 u) as H4.
    { apply (grows _ g5); [|unfold g4, S2, C2, S1, C1; rewrite !Rmult_0_r, !Ropp_0, exp_0; field|exact H5].
      intros u. unfold g4, g5, S2, C2, S1, C1. auto_derive; [exact I|field]. }
    assert (∀ u, 0 <= u <= b → 0 <= g3 u) as H3.
    { apply (grows _ g4); [|unfold g3, S2, C2, S1, C1; rewrite !Rmult_0_r, !Ropp_0, exp_0; field|exact H4].
      intros u. unfold g3, g4, S2, C2, S1, C1. auto_derive; [exact I|field]. }
    assert (∀ u, 0 <= u <= b → 0 <= g2 u) as H2.
    { apply (grows _ g3); [|unfold g2, S2, C2, S1, C1; rewrite !Rmult_0_r, !Ropp_0, exp_0; field|exact H3].
      intros u. unfold g2, g3, S2, C2, S1, C1. auto_derive; [exact I|field]. }
    assert (∀ u, 0 <= u <= b → 0 <= g1 u) as H1.
    { apply (grows _ g2); [|unfold g1, S2, C2, S1, C1; rewrite !Rmult_0_r, !Ropp_0, exp_0; field|exact H2].
      intros u. unfold g1, g2, S2, C2, S1, C1. auto_derive; [exact I|field]. }
    apply (grows _ g1); [|unfold g0, S2, C2, S1, C1; rewrite !Rmult_0_r, !Ropp_0, exp_0; field|exact H1].
    intros u. unfold g0, g1, S2, C2, S1, C1. auto_derive; [exact I|field].
  Qed.
End panel.

Lemma exp_ge_1 u : 0 <= u → 1 <= exp u.
Proof. intros H. rewrite <- exp_0. destruct H as [H| <-]; [left; by apply exp_increasing|lra]. Qed.
Lemma exp_neg_le_1 u : 0 <= u → 0 < exp (- u) <= 1.
Proof. intros H. split; [apply exp_pos|]. rewrite <- exp_0. destruct H as [H| <-]; [left; apply exp_increasing; lra|rewrite Ropp_0; lra]. Qed.

Lemma panel_lower u : 0 <= u → 0 <= g0 1 0 u.
Proof.
  intros H. generalize (Rle_refl u). generalize u at 2. intros b Hb. apply (panel 1 0 b); [|lra]. clear u H Hb. intros u [U _]. unfold g7.
  pose proof (exp_ge_1 (2 * u) ltac:(lra)). pose proof (exp_neg_le_1 (2 * u) ltac:(lra)).
  pose proof (exp_ge_1 u U). pose proof (exp_neg_le_1 u U).
  assert (0 <= u * (exp (2 * u) - exp (- (2 * u)))) by (apply Rmult_le_pos; lra).
  assert (0 <= u * (exp u - exp (- u))) by (apply Rmult_le_pos; lra).
  lra.
Qed.

Lemma panel_upper u : 0 <= u <= / 4 → 0 <= g0 (-1) 36 u.
Proof.
  intros H. apply (panel (-1) 36 (/ 4)); [|exact H]. clear u H. intros u [U U4]. unfold g7.
  pose proof (exp_ge_1 (2 * u) ltac:(lra)) as A. pose proof (exp_neg_le_1 (2 * u) ltac:(lra)) as B.
  pose proof (exp_ge_1 u U) as C. pose proof (exp_neg_le_1 u U) as D.
  assert (exp (2 * u) = exp u * exp u) as E2 by (rewrite <- exp_plus; f_equal; ring).
  assert (exp (2 * u) <= 1.7321) as E.
  { apply Rle_trans with (exp (/ 2)).
    - destruct (Req_dec (2 * u) (/ 2)) as [->|N]; [lra|]. left. apply exp_increasing. lra.
    - pose proof (exp_pos (/ 2)). assert (exp (/ 2) * exp (/ 2) <= 3).
      { rewrite <- exp_plus. replace (/ 2 + / 2) with 1 by field. apply exp_le_3. }
      nra. }
  assert (exp u <= 1.3161) as E1 by nra.
  assert (u * (exp (2 * u) - exp (- (2 * u))) <= / 4 * (exp (2 * u) - exp (- (2 * u)))) by (apply Rmult_le_compat_r; lra).
  assert (u * (exp u - exp (- u)) <= / 4 * (exp u - exp (- u))) by (apply Rmult_le_compat_r; lra).
  assert (/ 1.7321 <= exp (- (2 * u))).
  { rewrite exp_Ropp. apply Rinv_le_contravar; lra. }
  lra.
Qed.

Lemma percentile_half_lower x : 0 < x → 1 - exp (- x / 2) <= percentile_exact half_exp x.
Proof.
  intros Hx. rewrite percentile_half by lra. cbv zeta.
  set (q := exp (- (x / 256))). set (u := x / 256). fold u in q.
  assert (0 < u) as Hu by (unfold u; lra).
  pose proof (panel_lower u ltac:(lra)) as P. unfold g0 in P.
  assert (0 < q < 1) as Hq.
  { split; [apply exp_pos|]. unfold q. rewrite <- exp_0. apply exp_increasing. lra. }
  assert (exp u = / q) as E1 by (unfold q; rewrite exp_Ropp, Rinv_inv; done).
  assert (exp (- (2 * u)) = q ^ 2) as E2 by (unfold q; rewrite <- (Rmult_1_r (_ ^ 2)); cbn; rewrite !Rmult_1_r, <- exp_plus; f_equal; ring).
  assert (exp (2 * u) = / q ^ 2) as E3 by (rewrite <- E2, exp_Ropp, Rinv_inv; done).
  rewrite E1, E2, E3 in P. fold q in P.
  assert (0 < 1 - exp (- x / 2)) as H1.
  { assert (exp (- x / 2) < exp 0) by (apply exp_increasing; lra). rewrite exp_0 in *. lra. }
  assert (q ^ 4 < 1) as H4. { apply pow_lt_1_compat; [lra|lia]. }
  rewrite <- (Rmult_1_r (1 - exp (- x / 2))) at 1. apply Rmult_le_compat_l; [lra|].
  apply Rle_div_r; [lra|]. replace (x / 128 / 45) with (2 / 45 * u) by (unfold u; field).
  apply Rmult_le_compat_l with (r := 2 * q ^ 2) in P; [|pose proof (pow_lt q 2 ltac:(lra)); lra].
  rewrite Rmult_0_r in P.
  match type of P with _ <= ?e => replace e with (2 / 45 * u * (7 + 32 * q + 12 * q ^ 2 + 32 * q ^ 3 + 7 * q ^ 4) - (1 - q ^ 4)) in P by (field; lra) end.
  lra.
Qed.

Lemma percentile_half_upper x : 0 < x <= 64 → percentile_exact half_exp x <= (1 - exp (- x / 2)) * (1 + / 1000000).
Proof.
  intros Hx. rewrite percentile_half by lra. cbv zeta.
  set (q := exp (- (x / 256))). set (u := x / 256). fold u in q.
  assert (0 < u <= / 4) as Hu by (unfold u; lra).
  pose proof (panel_upper u ltac:(lra)) as P. unfold g0 in P.
  assert (0 < q < 1) as Hq.
  { split; [apply exp_pos|]. unfold q. rewrite <- exp_0. apply exp_increasing. lra. }
  assert (exp u = / q) as E1 by (unfold q; rewrite exp_Ropp, Rinv_inv; done).
  assert (exp (- (2 * u)) = q ^ 2) as E2 by (unfold q; rewrite <- (Rmult_1_r (_ ^ 2)); cbn; rewrite !Rmult_1_r, <- exp_plus; f_equal; ring).
  assert (exp (2 * u) = / q ^ 2) as E3 by (rewrite <- E2, exp_Ropp, Rinv_inv; done).
  (* 2 u <= sinh (2 u) *)
  assert (2 * u <= (exp (2 * u) - exp (- (2 * u))) / 2) as SH.
  { assert (0 <= (λ v, (exp (2 * v) - exp (- (2 * v))) / 2 - 2 * v) u) as Q.
    { apply (grows (λ v, (exp (2 * v) - exp (- (2 * v))) / 2 - 2 * v) (λ v, exp (2 * v) + exp (- (2 * v)) - 2) (/ 4)); [|rewrite !Rmult_0_r, Ropp_0, exp_0; field| |lra].
      - intros v. auto_derive; [exact I|field].
      - intros v [V _]. pose proof (exp_pos (2 * v)). rewrite exp_Ropp.
        assert (exp (2 * v) * / exp (2 * v) = 1) by (apply Rinv_r; lra).
        pose proof (Rle_0_sqr (exp (2 * v) - 1)) as S. unfold Rsqr in S.
        assert (0 < / exp (2 * v)) by (by apply Rinv_0_lt_compat). nra. }
    lra. }
  rewrite E1, E2, E3 in P. rewrite E2, E3 in SH. fold q in P.
  assert (0 < 1 - exp (- x / 2)) as H1.
  { assert (exp (- x / 2) < exp 0) by (apply exp_increasing; lra). rewrite exp_0 in *. lra. }
  assert (q ^ 4 < 1) as H4. { apply pow_lt_1_compat; [lra|lia]. }
  apply Rmult_le_compat_l; [lra|].
  apply Rle_div_l; [lra|]. replace (x / 128 / 45) with (2 / 45 * u) by (unfold u; field).
  pose proof (pow_lt q 2 ltac:(lra)) as Q2.
  apply Rmult_le_compat_l with (r := 2 * q ^ 2) in P; [|lra].
  apply Rmult_le_compat_l with (r := 2 * q ^ 2) in SH; [|lra].
  rewrite Rmult_0_r in P.
  replace (2 * q ^ 2 * ((/ q ^ 2 - q ^ 2) / 2)) with (1 - q ^ 4) in SH by (field; lra).
  match type of P with _ <= ?e => replace e with
    ((1 - q ^ 4) - 2 / 45 * u * (7 + 32 * q + 12 * q ^ 2 + 32 * q ^ 3 + 7 * q ^ 4) + 2 * q ^ 2 * (2 * u) * (u ^ 6 / 280)) in P by (field; lra) end.
  assert (u ^ 6 <= (/ 4) ^ 6) as U6 by (apply pow_incr; lra).
  assert (0 <= u ^ 6) by (apply pow_le; lra).
  assert (2 * q ^ 2 * (2 * u) * (u ^ 6 / 280) <= (1 - q ^ 4) * (u ^ 6 / 280)) by (apply Rmult_le_compat_r; lra).
  assert ((1 - q ^ 4) * (u ^ 6 / 280) <= (1 - q ^ 4) * / 1000000) by (apply Rmult_le_compat_l; [lra|]; cbn in U6 |- *; lra).
  lra.
Qed.

(** The density of two degrees of freedom. *)
Lemma density_two gamma u : gamma 1 = 1 → 0 <= u → pdf_of (reals gamma) 2 u = half_exp u.
Proof.
  intros G U. unfold pdf_of, half_exp. cbn [reals ar_less ar_lit ar_mul ar_div ar_sub ar_neg ar_pow ar_exp ar_gamma].
  destruct (Rlt_dec u 0); [lra|]. replace (2 / 2) with 1 by field. rewrite G. replace (1 - 1) with 0 by ring.
  unfold Rpower. rewrite Rmult_0_l, exp_0, !Rmult_1_l, exp_ln by lra. field.
Qed.

Lemma percentile_nodes f g x : 0 <= x → (∀ u, 0 <= u → f u = g u) → percentile_exact f x = percentile_exact g x.
Proof.
  intros X H. unfold percentile_exact. cbv zeta.
  assert (∀ i, f (x / (4 * 32) * INR i) = g (x / (4 * 32) * INR i)) as E.
  { intros i. apply H. apply Rmult_le_pos; [lra|apply pos_INR]. }
  rewrite !E. assert (∀ l, map (λ i, f (x / (4 * 32) * INR i)) l = map (λ i, g (x / (4 * 32) * INR i)) l) as E2.
  { intros l. apply map_ext. exact E. }
  by rewrite !E2.
Qed.
