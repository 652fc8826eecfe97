(** The test of significance of ChiMerge: two classes, and large statistics. *)
From Coq Require Import Reals QArith Lra.
From Verif Require Import Prelude FloatModel AttrModel GridModel GridSpec FilterModel CartModel CartFit GiniProofs ChiModel ChiSpec.
From Flocq Require Import Core.Core IEEE754.BinarySingleNaN IEEE754.Bits IEEE754.Binary.
Local Open Scope nat_scope.

Notation isnan := (is_nan 53 1024).
Notation isfin := (is_finite 53 1024).
Notation sgn := (Bsign 53 1024).

(** NaN or not negative; NaN or +Inf. *)
Definition posf (f : binary64) : Prop := isnan f = true ∨ sgn f = false.
Definition bigf (f : binary64) : Prop := isnan f = true ∨ f = B754_infinity 53 1024 false.

Lemma nan_mult_l x y : isnan x = true → isnan (b64_mult mode_NE x y) = true.
Proof. destruct x as [s|s|s pl Hpl|s m e He]; try discriminate. intros _. by destruct y. Qed.
Lemma nan_mult_r x y : isnan y = true → isnan (b64_mult mode_NE x y) = true.
Proof. destruct y as [s|s|s pl Hpl|s m e He]; try discriminate. intros _. by destruct x. Qed.
Lemma nan_plus_l x y : isnan x = true → isnan (b64_plus mode_NE x y) = true.
Proof. destruct x as [s|s|s pl Hpl|s m e He]; try discriminate. intros _. by destruct y. Qed.
Lemma nan_plus_r x y : isnan y = true → isnan (b64_plus mode_NE x y) = true.
Proof. destruct y as [s|s|s pl Hpl|s m e He]; try discriminate. intros _. by destruct x. Qed.
Lemma nan_div_l x y : isnan x = true → isnan (b64_div mode_NE x y) = true.
Proof. destruct x as [s|s|s pl Hpl|s m e He]; try discriminate. intros _. by destruct y. Qed.

Lemma posf_mult x y : posf x → posf y → posf (b64_mult mode_NE x y).
Proof.
  intros [Hx|Hx]; [left; by apply nan_mult_l|]. intros [Hy|Hy]; [left; by apply nan_mult_r|].
  destruct (isnan (b64_mult mode_NE x y)) eqn:N; [by left|]. right.
  destruct x as [s|s|s pl Hpl|s m e He], y as [s'|s'|s' pl' Hpl'|s' m' e' He']; cbn in Hx, Hy; subst; try done.
  pose proof (Bmult_correct 53 1024 eq_refl eq_refl binop_nan_pl64 mode_NE
    (B754_finite 53 1024 false m e He) (B754_finite 53 1024 false m' e' He')) as H.
  fold (b64_mult mode_NE (B754_finite 53 1024 false m e He) (B754_finite 53 1024 false m' e' He')) in H.
  destruct (Rlt_bool _ _).
  - destruct H as (_ & _ & H). rewrite H by exact N. done.
  - cbn [Bsign xorb] in H. unfold binary_overflow, overflow_to_inf in H. cbn in H.
    destruct (b64_mult mode_NE _ _); cbn in H; try discriminate H. by injection H.
Qed.

Lemma posf_div x y : posf x → val y <> 0%R → sgn y = false → posf (b64_div mode_NE x y).
Proof.
  intros [Hx|Hx] Hy Sy; [left; by apply nan_div_l|].
  destruct (isnan (b64_div mode_NE x y)) eqn:N; [by left|]. right.
  destruct x as [s|s|s pl Hpl|s m e He], y as [s'|s'|s' pl' Hpl'|s' m' e' He']; cbn in Hx, Sy; subst; try done.
  pose proof (Bdiv_correct 53 1024 eq_refl eq_refl binop_nan_pl64 mode_NE
    (B754_finite 53 1024 false m e He) (B754_finite 53 1024 false m' e' He') Hy) as H.
  fold (b64_div mode_NE (B754_finite 53 1024 false m e He) (B754_finite 53 1024 false m' e' He')) in H.
  destruct (Rlt_bool _ _).
  - destruct H as (_ & _ & H). rewrite H by exact N. done.
  - cbn [Bsign xorb] in H. unfold binary_overflow, overflow_to_inf in H. cbn in H.
    destruct (b64_div mode_NE _ _); cbn in H; try discriminate H. by injection H.
Qed.

Lemma bigf_plus_l x y : bigf x → bigf (b64_plus mode_NE x y).
Proof.
  intros [Hx| ->]; [left; by apply nan_plus_l|].
  destruct y as [s|[|]|s pl Hpl|s m e He]; [by right|left; reflexivity|by right|left; reflexivity|by right].
Qed.
Lemma bigf_mult x y : posf x → bigf y → bigf (b64_mult mode_NE x y).
Proof.
  intros Hx [Hy| ->]; [left; by apply nan_mult_r|].
  destruct Hx as [Hx|Hx]; [left; by apply nan_mult_l|].
  destruct x as [s|s|s pl Hpl|s m e He]; cbn in Hx; subst; [left; reflexivity|by right|left; reflexivity|by right].
Qed.
Lemma bigf_not_less x y : bigf x → float_lt x y = false.
Proof.
  unfold float_lt. intros [Hx| ->].
  - by destruct x.
  - destruct y as [s|[|]|s pl Hpl|s m e He]; reflexivity.
Qed.

Lemma f_le_val x y : isfin x = true → isfin y = true → f_le x y ↔ (val x <= val y)%R.
Proof.
  intros Fx Fy. unfold f_le. rewrite Bcompare_correct by done.
  destruct (Rcompare_spec (val x) (val y)); split; intros; try lra; try done.
Qed.

(** Finite, or +Inf, and at least [x]. *)
Lemma f_le_pos x y : isfin x = true → (0 < val x)%R → f_le x y →
  sgn y = false ∧ isnan y = false ∧ (isfin y = true → (val x <= val y)%R).
Proof.
  intros Fx Hx H. destruct (isfin y) eqn:Fy.
  - apply f_le_val in H; [|done..]. split; [|split].
    + destruct y as [s|s|s pl Hpl|s m e He]; try discriminate.
      * exfalso. change (B2R 53 1024 (B754_zero 53 1024 s)) with 0%R in H. lra.
      * cbn [Bsign]. destruct s; [|done]. exfalso.
        assert (B2R 53 1024 (B754_finite 53 1024 true m e He) < 0)%R as L by (by apply F2R_lt_0). lra.
    + by destruct y.
    + done.
  - destruct y as [s|[|]|s pl Hpl|s m e He]; try discriminate Fy.
    + exfalso. unfold f_le in H. destruct x as [?|[]|?|?]; cbn in H; try done.
    + done.
    + exfalso. unfold f_le in H. destruct x as [?|[]|?|?]; cbn in H; try done.
Qed.

(** The two functions spelt out. *)
Lemma chi_pdf_eq pow exp gamma k x : chi_pdf pow exp gamma k x =
  if float_lt x (float_of_Z 0) then float_of_Z 0 else
  let top := b64_mult mode_NE
               (pow x (b64_minus mode_NE (b64_div mode_NE k (float_of_Z 2)) (float_of_Z 1)))
               (exp (b64_div mode_NE (b64_opp x) (float_of_Z 2))) in
  let bottom := b64_mult mode_NE (pow (float_of_Z 2) (b64_div mode_NE k (float_of_Z 2)))
                  (gamma (b64_div mode_NE k (float_of_Z 2))) in
  b64_div mode_NE top bottom.
Proof. reflexivity. Qed.
Lemma chi_percentile_eq pow exp gamma k x : chi_percentile pow exp gamma k x =
  let w := b64_div mode_NE x (float_of_Z 128) in
  let value i := chi_pdf pow exp gamma (float_of_Z k) (b64_mult mode_NE w (float_of_nat i)) in
  let ret1 := b64_plus mode_NE (value 0) (value 128) in
  let ret2 := add_all (map value (every 2 4 32)) in
  let ret3 := add_all (map value (every 4 4 31)) in
  let ret4 := add_all (map value (every 1 2 64)) in
  b64_mult mode_NE (b64_div mode_NE (b64_mult mode_NE (float_of_Z 2) w) (float_of_Z 45))
    (b64_plus mode_NE (b64_plus mode_NE (b64_plus mode_NE
       (b64_mult mode_NE (float_of_Z 7) ret1) (b64_mult mode_NE (float_of_Z 12) ret2))
       (b64_mult mode_NE (float_of_Z 14) ret3)) (b64_mult mode_NE (float_of_Z 32) ret4)).
Proof. unfold chi_percentile, percentile_of, sum_of, add_all, float_of_nat, floats. cbn [ar_add ar_sub ar_mul ar_div ar_lit]. exact eq_refl. Qed.

Definition fzero : binary64 := float_of_Z 0.
Definition fhalf : binary64 := b64_of_bits 0x3FE0000000000000.

Lemma f_small z : (Z.abs z <= 2 ^ 53)%Z → isfin (float_of_Z z) = true ∧ val (float_of_Z z) = IZR z.
Proof. apply float_of_Z_exact. Qed.
Lemma f_exact z : Z.leb (Z.abs z) (2 ^ 53) = true → isfin (float_of_Z z) = true ∧ val (float_of_Z z) = IZR z.
Proof. intros H. apply f_small. by apply Z.leb_le. Qed.
Ltac small z := destruct (f_exact z eq_refl).

Lemma half_value : isfin fhalf = true ∧ val fhalf = (1 / 2)%R.
Proof.
  split; [vm_compute; reflexivity|].
  assert (fhalf = b64_div mode_NE (float_of_Z 1) (float_of_Z 2)) as ->.
  { apply FloatProofs.pack_float_inj. vm_compute. reflexivity. }
  unfold b64_div. small 1%Z. small 2%Z.
  assert (val (float_of_Z 2) <> 0)%R as Hn by lra.
  pose proof (Bdiv_correct 53 1024 eq_refl eq_refl binop_nan_pl64 mode_NE (float_of_Z 1) (float_of_Z 2) Hn) as Hd.
  cbn [round_mode] in Hd. rewrite (small_bound 0 1) in Hd; [|lia|lia|].
  2: { rewrite H0, H2. lra. }
  destruct Hd as (Hv & _). rewrite Hv, H0, H2. apply round_generic; [apply valid_rnd_N|].
  assert (1 / 2 = bpow radix2 (-1))%R as -> by (change (1 / 2 = / 2)%R; lra).
  apply format_pow. lia.
Qed.

Lemma zero_zero w : isfin w = true → sgn w = false → b64_mult mode_NE w fzero = fzero.
Proof. destruct w as [s|s|s pl Hpl|s m e He]; try discriminate; cbn; intros _ ->; reflexivity. Qed.

Lemma div_finite x : isfin x = true → isfin (b64_div mode_NE x (float_of_Z 128)) = true.
Proof.
  intros Fx. unfold b64_div. small 128%Z.
  assert (val (float_of_Z 128) <> 0)%R as Hn by lra.
  pose proof (Bdiv_correct 53 1024 eq_refl eq_refl binop_nan_pl64 mode_NE x (float_of_Z 128) Hn) as Hd.
  rewrite Rlt_bool_true in Hd; [destruct Hd as (_ & -> & _); done|].
  apply Rle_lt_trans with (Rabs (val x)); [|apply abs_B2R_lt_emax].
  rewrite H0. cbn [round_mode].
  apply abs_round_le_generic; [apply _|apply valid_rnd_N| |].
  - apply generic_format_abs, generic_format_B2R.
  - unfold Rdiv. rewrite Rabs_mult, (Rabs_pos_eq (/ 128)) by lra. pose proof (Rabs_pos (val x)). lra.
Qed.

Section with_math.
  Context (pow : binary64 → binary64 → binary64) (exp gamma : binary64 → binary64) (M : go_math pow exp gamma).
  Notation pdf := (chi_pdf pow exp gamma).

  Lemma opp_half : b64_div mode_NE (b64_opp fzero) (float_of_Z 2) = b64_opp fzero.
  Proof using. vm_compute. reflexivity. Qed.
  Lemma not_below : float_lt fzero fzero = false.
  Proof using. vm_compute. reflexivity. Qed.

  (** Lines 48-50 at x = 0. *)
  Lemma pdf_zero k :
    pdf k fzero = b64_div mode_NE
      (b64_mult mode_NE (pow fzero (b64_minus mode_NE (b64_div mode_NE k (float_of_Z 2)) (float_of_Z 1))) (float_of_Z 1))
      (b64_mult mode_NE (pow (float_of_Z 2) (b64_div mode_NE k (float_of_Z 2))) (gamma (b64_div mode_NE k (float_of_Z 2)))).
  Proof using M.
    rewrite chi_pdf_eq. fold fzero. rewrite not_below, opp_half.
    unfold fzero at 2. rewrite (exp_zero _ _ _ M). reflexivity.
  Qed.

  Lemma pdf_zero_two : bigf (pdf (float_of_Z 1) fzero).
  Proof using M.
    rewrite pdf_zero. unfold fzero. rewrite (pow_zero_neg _ _ _ M) by (vm_compute; reflexivity).
    assert (b64_div mode_NE (float_of_Z 1) (float_of_Z 2) = fhalf) as ->.
    { apply FloatProofs.pack_float_inj. vm_compute. reflexivity. }
    set (p := pow (float_of_Z 2) fhalf). set (g := gamma fhalf).
    assert (f_le (float_of_Z 1) p) as P1 by (apply (pow_two _ _ _ M); vm_compute; done).
    assert (f_le p (float_of_Z 2)) as P2 by apply (pow_root _ _ _ M).
    assert (f_le fhalf g) as G1 by (apply (gamma_least _ _ _ M); vm_compute; reflexivity).
    assert (f_le g (float_of_Z 2)) as G2 by apply (gamma_half _ _ _ M).
    small 1%Z. small 2%Z. destruct half_value as [Fh Vh].
    destruct (f_le_pos _ _ H ltac:(lra) P1) as (Sp & Np & Lp).
    destruct (f_le_pos _ _ Fh ltac:(lra) G1) as (Sg & Ng & Lg).
    assert (isfin p = true) as Fp.
    { destruct p as [s|[|]|s pl Hpl|s m e He]; try done. }
    assert (isfin g = true) as Fg.
    { destruct g as [s|[|]|s pl Hpl|s m e He]; try done. }
    specialize (Lp Fp). specialize (Lg Fg). apply f_le_val in P2, G2; try done.
    destruct (mult_between 0 4 p g) as [Fb Vb]; [lia|lia|done|done| |].
    { split; nra. }
    destruct (posf_mult p g ltac:(by right) ltac:(by right)) as [N|S].
    { destruct (b64_mult mode_NE p g); discriminate. }
    destruct (b64_mult mode_NE p g) as [s|s|s pl Hpl|s m e He]; try discriminate Fb; cbn in S; subst s; right; reflexivity.
  Qed.

  Lemma pdf_zero_one : bigf (pdf fzero fzero).
  Proof using M.
    rewrite pdf_zero. unfold fzero. rewrite (pow_zero_neg _ _ _ M) by (vm_compute; reflexivity).
    assert (b64_div mode_NE (float_of_Z 0) (float_of_Z 2) = float_of_Z 0) as -> by (vm_compute; reflexivity).
    rewrite (gamma_zero _ _ _ M).
    assert (f_le (float_of_Z 1) (pow (float_of_Z 2) (float_of_Z 0))) as P1 by (apply (pow_two _ _ _ M); vm_compute; done).
    small 1%Z. destruct (f_le_pos _ _ H ltac:(lra) P1) as (Sp & Np & Lp).
    destruct (pow (float_of_Z 2) (float_of_Z 0)) as [s|s|s pl Hpl|s m e He]; cbn in Sp; subst; try discriminate Np.
    - exfalso. specialize (Lp eq_refl). change (B2R 53 1024 (B754_zero 53 1024 false)) with 0%R in Lp. lra.
    - left. reflexivity.
    - left. reflexivity.
  Qed.

  (** With a NaN for x, where the power is not 0. *)
  Lemma pdf_nan k x : isnan x = true →
    float_eq (b64_minus mode_NE (b64_div mode_NE k (float_of_Z 2)) (float_of_Z 1)) fzero = false →
    isnan (pdf k x) = true.
  Proof using M.
    intros Hx Hk. rewrite chi_pdf_eq. fold fzero. assert (float_lt x fzero = false) as -> by (by destruct x).
    apply nan_div_l, nan_mult_l. by apply (pow_nan _ _ _ M).
  Qed.

  Lemma percentile_big k x : (k = 0 ∨ k = 1)%Z → isnan x = false → sgn x = false →
    bigf (chi_percentile pow exp gamma k x).
  Proof using M.
    intros Hk Nx Sx. rewrite chi_percentile_eq. cbv zeta.
    set (w := b64_div mode_NE x (float_of_Z 128)).
    assert (posf w) as Pw.
    { apply posf_div; [by right| |vm_compute; reflexivity]. small 128%Z. lra. }
    apply bigf_mult.
    { apply posf_div; [apply posf_mult; [right; vm_compute; reflexivity|done]| |vm_compute; reflexivity].
      small 45%Z. lra. }
    do 3 apply bigf_plus_l. apply bigf_mult; [right; vm_compute; reflexivity|]. apply bigf_plus_l.
    change (float_of_nat 0) with fzero.
    destruct (isfin x) eqn:Fx.
    - assert (isfin w = true) as Fw by (by apply div_finite).
      destruct Pw as [N|S]; [destruct w; discriminate|]. rewrite zero_zero by done.
      destruct Hk as [-> | ->]; [apply pdf_zero_one|apply pdf_zero_two].
    - assert (w = B754_infinity 53 1024 false) as ->.
      { destruct x as [s|s|s pl Hpl|s m e He]; try discriminate; cbn in Sx; subst s. reflexivity. }
      left. apply pdf_nan; [reflexivity|].
      destruct Hk as [-> | ->]; vm_compute; reflexivity.
  Qed.

  (** ** Large statistics *)

  (** The powers and halves of lines 48-49 for 4 to 35 classes. *)
  Definition degree_ok (k : Z) : bool :=
    let h := b64_div mode_NE (float_of_Z k) (float_of_Z 2) in
    let y := b64_minus mode_NE h (float_of_Z 1) in
    isfin h && float_lt fzero h && isfin y && float_lt fzero y && negb (float_lt (float_of_Z 16) y).
  Lemma degrees k : (3 <= k <= 34)%Z → degree_ok k = true.
  Proof using.
    intros Hk. assert (forallb degree_ok (map Z.of_nat (seq 3 32)) = true) as H by (vm_compute; reflexivity).
    rewrite forallb_forall in H. apply H. apply in_map_iff. exists (Z.to_nat k). split; [lia|]. apply in_seq. lia.
  Qed.
  Lemma lt_le x y : float_lt x y = true → f_le x y.
  Proof using. unfold float_lt, f_le. by destruct (Bcompare 53 1024 x y) as [[]|]. Qed.
  Lemma not_lt_le x y : isfin x = true → isfin y = true → float_lt y x = false → f_le x y.
  Proof using.
    intros Fx Fy. unfold float_lt, f_le. rewrite !Bcompare_correct by done.
    destruct (Rcompare_spec (val x) (val y)); destruct (Rcompare_spec (val y) (val x)); try done; lra.
  Qed.

  Lemma bottom_ok k : (3 <= k <= 34)%Z →
    let b := b64_mult mode_NE (pow (float_of_Z 2) (b64_div mode_NE (float_of_Z k) (float_of_Z 2)))
               (gamma (b64_div mode_NE (float_of_Z k) (float_of_Z 2))) in
    b64_div mode_NE fzero b = fzero.
  Proof using M.
    intros Hk. pose proof (degrees k Hk) as D. unfold degree_ok in D. rewrite !andb_true_iff in D.
    destruct D as ((((D1 & D2) & _) & _) & _).
    set (h := b64_div mode_NE (float_of_Z k) (float_of_Z 2)) in *. cbv zeta.
    assert (f_le (float_of_Z 1) (pow (float_of_Z 2) h)) as P1 by (apply (pow_two _ _ _ M), lt_le, D2).
    assert (f_le fhalf (gamma h)) as G1 by (apply (gamma_least _ _ _ M); done).
    set (p := pow (float_of_Z 2) h) in *. set (g := gamma h) in *.
    small 1%Z. destruct half_value as [Fh Vh].
    destruct (f_le_pos _ _ H ltac:(lra) P1) as (Sp & Np & Lp).
    destruct (f_le_pos _ _ Fh ltac:(lra) G1) as (Sg & Ng & Lg).
    destruct p as [s|s|s pl Hpl|s m e He] eqn:Ep; cbn in Sp; subst s; try discriminate Np.
    - exfalso. specialize (Lp eq_refl). change (B2R 53 1024 (B754_zero 53 1024 false)) with 0%R in Lp. lra.
    - destruct g as [s|s|s pl Hpl|s m e He]; cbn in Sg; subst s; try discriminate Ng; try reflexivity.
      exfalso. specialize (Lg eq_refl). change (B2R 53 1024 (B754_zero 53 1024 false)) with 0%R in Lg. lra.
    - destruct g as [s|s|s pl Hpl|s m' e' He'] eqn:Eg; cbn in Sg; subst s; try discriminate Ng; try reflexivity.
      { exfalso. specialize (Lg eq_refl). change (B2R 53 1024 (B754_zero 53 1024 false)) with 0%R in Lg. lra. }
      specialize (Lp eq_refl). specialize (Lg eq_refl). rewrite <- Ep, <- Eg in *.
      pose proof (Bmult_correct 53 1024 eq_refl eq_refl binop_nan_pl64 mode_NE p g) as Hd.
      fold (b64_mult mode_NE p g) in Hd. cbn [round_mode] in Hd.
      assert (isfin p = true) as Fp by (by rewrite Ep). assert (isfin g = true) as Fg by (by rewrite Eg).
      assert (sgn p = false) as Sp by (by rewrite Ep). assert (sgn g = false) as Sg by (by rewrite Eg).
      assert (isnan (b64_mult mode_NE p g) = false → sgn (b64_mult mode_NE p g) = false) as S.
      { intros N. destruct (posf_mult p g ltac:(by right) ltac:(by right)) as [N'|S']; congruence. }
      destruct (Rlt_bool _ _).
      + destruct Hd as (Hv & Hf & _). rewrite Fp, Fg in Hf.
        assert (1 / 2 <= val (b64_mult mode_NE p g))%R as L.
        { rewrite Hv. assert (1 / 2 = bpow radix2 (-1))%R as -> by (change (1 / 2 = / 2)%R; lra).
          apply rnd_above; [clear; lia|]. change (bpow radix2 (-1)) with (/ 2)%R.
          replace (/ 2)%R with (1 * (1 / 2))%R by (clear; lra).
          apply Rmult_le_compat; [clear; lra|clear; lra|rewrite <- H0; exact Lp|rewrite <- Vh; exact Lg]. }
        destruct (b64_mult mode_NE p g) as [s|s|s pl Hpl|s m1 e1 He1]; try discriminate Hf.
        * exfalso. change (B2R 53 1024 (B754_zero 53 1024 s)) with 0%R in L. lra.
        * specialize (S eq_refl). cbn in S. subst s. reflexivity.
      + rewrite Sp, Sg in Hd. unfold binary_overflow, overflow_to_inf in Hd. cbn in Hd.
        destruct (b64_mult mode_NE p g); cbn in Hd; try discriminate Hd. injection Hd as ->. reflexivity.
  Qed.

  Lemma zero_times x : isfin x = true → sgn x = false → b64_mult mode_NE x fzero = fzero.
  Proof using. apply zero_zero. Qed.

  Lemma value_zero k x i : (3 <= k <= 34)%Z → between (2 ^ 18) (2 ^ 40) x → sgn x = false → i ≤ 128 →
    pdf (float_of_Z k) (b64_mult mode_NE (b64_div mode_NE x (float_of_Z 128)) (float_of_nat i)) = fzero.
  Proof using M.
    intros Hk [Fx Vx] Sx Hi. pose proof (degrees k Hk) as D. unfold degree_ok in D. rewrite !andb_true_iff in D.
    destruct D as ((((D1 & D2) & D3) & D4) & D5). apply negb_true_iff in D5.
    small 128%Z.
    assert (between (2 ^ 11) (2 ^ 33) (b64_div mode_NE x (float_of_Z 128))) as [Fw Vw].
    { apply div_between; [clear; lia|clear; lia|done|lra|]. rewrite H0. change (2 ^ 18)%Z with 262144%Z in Vx.
      change (2 ^ 40)%Z with 1099511627776%Z in Vx. change (2 ^ 11)%Z with 2048%Z.
      change (2 ^ 33)%Z with 8589934592%Z. lra. }
    set (w := b64_div mode_NE x (float_of_Z 128)) in *.
    assert (sgn w = false) as Sw.
    { destruct (posf_div x (float_of_Z 128)) as [N|S]; [by right|lra|vm_compute; reflexivity| |exact S].
      fold w in N. destruct w; discriminate. }
    destruct i as [|i].
    - change (float_of_nat 0) with fzero. rewrite zero_zero by done. rewrite (pdf_zero _).
      unfold fzero at 1. rewrite (pow_zero_pos _ _ _ M) by done.
      assert (b64_mult mode_NE (float_of_Z 0) (float_of_Z 1) = fzero) as -> by (vm_compute; reflexivity).
      by apply bottom_ok.
    - unfold float_of_nat. destruct (f_small (Z.of_nat (S i)) ltac:(lia)) as [Fi Vi].
      assert (1 <= IZR (Z.of_nat (S i)) <= 128)%R as Bi by (split; apply IZR_le; lia).
      change (2 ^ 11)%Z with 2048%Z in Vw. change (2 ^ 33)%Z with 8589934592%Z in Vw.
      assert (between 2048 1099511627776 (b64_mult mode_NE w (float_of_Z (Z.of_nat (S i))))) as [Fc Vc].
      { apply mult_between; [clear; lia|clear; lia|done|done|]. rewrite Vi. split; nra. }
      set (c := b64_mult mode_NE w (float_of_Z (Z.of_nat (S i)))) in *.
      small 0%Z. small 1%Z. small 2%Z. destruct (f_exact (2 ^ 48)%Z eq_refl) as [F48 V48].
      change (IZR (2 ^ 48)) with 281474976710656%R in V48.
      rewrite chi_pdf_eq. fold fzero. assert (float_lt c fzero = false) as ->.
      { unfold float_lt. rewrite Bcompare_correct by done. unfold fzero. rewrite H2.
        rewrite Rcompare_Gt by lra. done. }
      assert (exp (b64_div mode_NE (b64_opp c) (float_of_Z 2)) = fzero) as ->.
      { assert (isfin (b64_opp c) = true) as Fo by (unfold b64_opp; by rewrite is_finite_Bopp).
        assert (val (b64_opp c) = - val c)%R as Vo by (unfold b64_opp; by rewrite B2R_Bopp).
        destruct (div_between (-1099511627776) (-1024) (b64_opp c) (float_of_Z 2)) as [Fd Vd]; [clear; lia|clear; lia|done|lra| |].
        { rewrite Vo, H6. lra. }
        apply (exp_underflow _ _ _ M); [|done].
        destruct (f_exact (-746)%Z eq_refl) as [F7 V7]. apply f_le_val; [done|done|]. lra. }
      destruct (pow_fits _ _ _ M c (b64_minus mode_NE (b64_div mode_NE (float_of_Z k) (float_of_Z 2)) (float_of_Z 1)))
        as [Fp Lp].
      { apply f_le_val; [done|done|]. lra. }
      { apply f_le_val; [done|done|]. lra. }
      { by apply lt_le. }
      { apply not_lt_le; [done|vm_compute; reflexivity|done]. }
      destruct (f_le_pos _ _ H3 ltac:(lra) Lp) as (Sp & _ & _).
      rewrite zero_zero by done. by apply bottom_ok.
  Qed.

  Lemma add_all_zero l : (∀ x, x ∈ l → x = fzero) → add_all l = fzero.
  Proof using.
    unfold add_all. fold fzero. induction l as [|x l IH]; intros H; [done|]. cbn [foldl].
    rewrite (H x) by left. change (b64_plus mode_NE fzero fzero) with fzero. apply IH. intros y Hy. apply H. by right.
  Qed.
  Lemma every_below s d n i : i ∈ every s d n → i ≤ s + d * (n - 1).
  Proof using.
    unfold every. intros Hi. apply elem_of_list_fmap in Hi as (j & -> & Hj). apply elem_of_seq in Hj.
    assert (j ≤ n - 1) by lia. nia.
  Qed.

  Lemma percentile_zero k x : (3 <= k <= 34)%Z → between (2 ^ 18) (2 ^ 40) x → sgn x = false →
    chi_percentile pow exp gamma k x = fzero.
  Proof using M.
    intros Hk Bx Sx. rewrite chi_percentile_eq. cbv zeta.
    assert (∀ i, i ≤ 128 →
      pdf (float_of_Z k) (b64_mult mode_NE (b64_div mode_NE x (float_of_Z 128)) (float_of_nat i)) = fzero) as V
      by (intros i Hi; by apply value_zero).
    set (value := λ i : nat, pdf (float_of_Z k) (b64_mult mode_NE (b64_div mode_NE x (float_of_Z 128)) (float_of_nat i))) in *.
    assert (∀ s d n, s + d * (n - 1) ≤ 128 → add_all (map value (every s d n)) = fzero) as A.
    { intros s d n Hn. apply add_all_zero. intros y Hy. apply elem_of_list_fmap in Hy as (i & -> & Hi).
      apply every_below in Hi. apply V. lia. }
    fold value. rewrite !A by lia.
    change (∀ i, i ≤ 128 → value i = fzero) in V. rewrite (V 0), (V 128) by lia.
    assert (b64_mult mode_NE (float_of_Z 7) fzero = fzero) as E7 by (vm_compute; reflexivity).
    assert (b64_mult mode_NE (float_of_Z 12) fzero = fzero) as E12 by (vm_compute; reflexivity).
    assert (b64_mult mode_NE (float_of_Z 14) fzero = fzero) as E14 by (vm_compute; reflexivity).
    assert (b64_mult mode_NE (float_of_Z 32) fzero = fzero) as E32 by (vm_compute; reflexivity).
    assert (b64_plus mode_NE fzero fzero = fzero) as Z by (vm_compute; reflexivity).
    rewrite Z, E7, E12, E14, E32, Z, Z, Z. clear E7 E12 E14 E32 Z A V.
    destruct Bx as [Fx Vx]. small 128%Z. small 2%Z. small 45%Z.
    change (2 ^ 18)%Z with 262144%Z in Vx. change (2 ^ 40)%Z with 1099511627776%Z in Vx.
    assert (between 2048 8589934592 (b64_div mode_NE x (float_of_Z 128))) as [Fw Vw].
    { apply div_between; [clear; lia|clear; lia|done|lra|]. rewrite H0. lra. }
    destruct (mult_between 4096 17179869184 (float_of_Z 2) (b64_div mode_NE x (float_of_Z 128))) as [F2 V2];
      [clear; lia|clear; lia|done|done|rewrite H2; lra|].
    destruct (div_between 0 17179869184 (b64_mult mode_NE (float_of_Z 2) (b64_div mode_NE x (float_of_Z 128)))
      (float_of_Z 45)) as [F3 V3]; [clear; lia|clear; lia|done|lra|rewrite H4; lra|].
    apply zero_zero; [done|].
    edestruct (posf_div (b64_mult mode_NE (float_of_Z 2) (b64_div mode_NE x (float_of_Z 128))) (float_of_Z 45))
      as [N|S]; [|lra|vm_compute; reflexivity| |exact S].
    - apply posf_mult; [right; vm_compute; reflexivity|]. apply posf_div; [by right|lra|vm_compute; reflexivity].
    - destruct (b64_div mode_NE (b64_mult mode_NE (float_of_Z 2) _) _); discriminate.
  Qed.
End with_math.
