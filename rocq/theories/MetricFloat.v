(** The distance functions in float64. *)
From Coq Require Import Reals Lra.
From Verif Require Import Prelude FloatModel CartModel CartFit MetricModel MetricSpec MetricProofs MetricReal.
From Flocq Require Plus_error.
From Flocq Require Import Core.Core IEEE754.BinarySingleNaN IEEE754.Bits IEEE754.Binary.
Local Open Scope nat_scope.

Local Notation fnan := (is_nan 53 1024).
Notation pzero := (B754_zero 53 1024 false).

Lemma nonneg_fin_inj x y : fin x = true → fin y = true → val x = val y → Bsign 53 1024 x = Bsign 53 1024 y → x = y.
Proof. intros. by apply B2R_Bsign_inj. Qed.

Lemma abs_fin x : fin x = true → fin (b64_abs x) = true ∧ val (b64_abs x) = Rabs (val x) ∧ Bsign 53 1024 (b64_abs x) = false.
Proof.
  intros H. split; [|split].
  - destruct x; done.
  - apply B2R_Babs.
  - destruct x; done.
Qed.

Lemma inf_of_FF (x : binary64) s : B2FF 53 1024 x = F754_infinity s → x = B754_infinity 53 1024 s.
Proof. destruct x; cbn; intros H; try discriminate H. by injection H as ->. Qed.

(** Exchanging the arguments of a subtraction changes at most the sign. *)
Lemma minus_swap x y : fin x = true → fin y = true →
  b64_abs (b64_minus mode_NE x y) = b64_abs (b64_minus mode_NE y x).
Proof.
  intros Hx Hy.
  pose proof (Bminus_correct 53 1024 eq_refl eq_refl binop_nan_pl64 mode_NE x y Hx Hy) as H1.
  pose proof (Bminus_correct 53 1024 eq_refl eq_refl binop_nan_pl64 mode_NE y x Hy Hx) as H2.
  change (Bminus 53 1024 eq_refl eq_refl binop_nan_pl64 mode_NE x y) with (b64_minus mode_NE x y) in H1.
  change (Bminus 53 1024 eq_refl eq_refl binop_nan_pl64 mode_NE y x) with (b64_minus mode_NE y x) in H2.
  assert (round radix2 (SpecFloat.fexp 53 1024) (round_mode mode_NE) (val y - val x) =
    - round radix2 (SpecFloat.fexp 53 1024) (round_mode mode_NE) (val x - val y))%R as E.
  { replace (val y - val x)%R with (- (val x - val y))%R by ring. apply round_NE_opp. }
  rewrite E, Rabs_Ropp in H2.
  destruct (Rlt_bool _ _).
  - destruct H1 as (V1 & F1 & _), H2 as (V2 & F2 & _).
    destruct (abs_fin _ F1) as (A1 & A2 & A3). destruct (abs_fin _ F2) as (B1 & B2 & B3).
    apply nonneg_fin_inj; [exact A1|exact B1| |congruence].
    rewrite A2, B2, V1, V2, Rabs_Ropp. done.
  - destruct H1 as [V1 _], H2 as [V2 _]. cbn in V1, V2. apply inf_of_FF in V1, V2. by rewrite V1, V2.
Qed.

(** Only the absolute value matters for a square. *)
Lemma square_abs x y : fnan x = false → fnan y = false → b64_abs x = b64_abs y →
  b64_mult mode_NE x x = b64_mult mode_NE y y.
Proof.
  intros Nx Ny H.
  destruct (fin x) eqn:Fx.
  - assert (fin y = true) as Fy by (destruct x, y; try discriminate; done).
    pose proof (Bmult_correct 53 1024 eq_refl eq_refl binop_nan_pl64 mode_NE x x) as H1.
    pose proof (Bmult_correct 53 1024 eq_refl eq_refl binop_nan_pl64 mode_NE y y) as H2.
    change (Bmult 53 1024 eq_refl eq_refl binop_nan_pl64 mode_NE x x) with (b64_mult mode_NE x x) in H1.
    change (Bmult 53 1024 eq_refl eq_refl binop_nan_pl64 mode_NE y y) with (b64_mult mode_NE y y) in H2.
    assert (val x * val x = val y * val y)%R as E.
    { destruct (abs_fin x Fx) as (_ & A & _), (abs_fin y Fy) as (_ & B & _). rewrite H in A. rewrite A in B.
      change (Rsqr (val x) = Rsqr (val y)). by apply Rsqr_eq_asb_1. }
    rewrite E, !xorb_nilpotent, Fx, Fy in *. destruct (Rlt_bool _ _).
    + destruct H1 as (V1 & F1 & S1), H2 as (V2 & F2 & S2). cbn [andb] in F1, F2.
      apply nonneg_fin_inj; [done|done|congruence|]. rewrite S1, S2; [done| |].
      * by destruct (b64_mult mode_NE y y).
      * by destruct (b64_mult mode_NE x x).
    + cbn in H1, H2. apply inf_of_FF in H1, H2. congruence.
  - destruct x as [s|s|s pl Hpl|s m e He], y as [s'|s'|s' pl' Hpl'|s' m' e' He']; try discriminate.
    destruct s, s'; done.
Qed.

Lemma zero_fin x : fin x = true → val x = 0%R → b64_abs x = pzero.
Proof.
  intros H V. destruct (abs_fin x H) as (A1 & A2 & A3). apply nonneg_fin_inj; [done|done| |done].
  rewrite A2, V, Rabs_R0. done.
Qed.

(** The difference is zero only for equal numbers: underflow is gradual. *)
Lemma minus_zero x y : fin x = true → fin y = true → b64_abs (b64_minus mode_NE x y) = pzero ↔ val x = val y.
Proof.
  intros Hx Hy. pose proof (Bminus_correct 53 1024 eq_refl eq_refl binop_nan_pl64 mode_NE x y Hx Hy) as H.
  change (Bminus 53 1024 eq_refl eq_refl binop_nan_pl64 mode_NE x y) with (b64_minus mode_NE x y) in H. split.
  - intros E. destruct (Rlt_bool _ _).
    + destruct H as (V & F & _). destruct (abs_fin _ F) as (_ & A & _). rewrite E in A. cbn in A.
      destruct (Req_EM_T (val x - val y) 0) as [Z|Z]; [lra|]. exfalso.
      assert (val (b64_minus mode_NE x y) ≠ 0%R) as Hn.
      { rewrite V. unfold Rminus.
        apply (Plus_error.round_plus_neq_0 radix2 (SpecFloat.fexp 53 1024) (round_mode mode_NE)).
        - apply generic_format_B2R.
        - apply generic_format_opp, generic_format_B2R.
        - exact Z. }
      apply Rabs_pos_lt in Hn. lra.
    + destruct H as [H _]. cbn in H. apply inf_of_FF in H. rewrite H in E. discriminate E.
  - intros E. rewrite E, Rminus_diag_eq, round_0 in H by (try done; apply valid_rnd_N).
    rewrite Rabs_R0, Rlt_bool_true in H by (apply bpow_gt_0). destruct H as (V & F & _). by apply zero_fin.
Qed.

Lemma nonneg_val x : nonneg x → fin x = true → (0 <= val x)%R.
Proof.
  intros [N1 S1] F. destruct x as [s|s|s pl Hpl|s m e He]; try done; cbn; [lra|]. cbn in S1. subst s.
  apply F2R_ge_0. cbn. lia.
Qed.

Lemma nonneg_zero x : nonneg x → fin x = true → val x = 0%R ↔ x = pzero.
Proof.
  intros [N1 S1] F. split; [|by intros ->]. intros V. apply nonneg_fin_inj; done.
Qed.

(** A sum of numbers that are not negative is zero only if both are. *)
Lemma plus_zero x y : nonneg x → nonneg y → b64_plus mode_NE x y = pzero ↔ x = pzero ∧ y = pzero.
Proof.
  intros Nx Ny. split; [|intros [-> ->]; reflexivity]. intros E.
  destruct (fin x) eqn:Fx; [destruct (fin y) eqn:Fy|].
  - pose proof (Bplus_correct 53 1024 eq_refl eq_refl binop_nan_pl64 mode_NE x y Fx Fy) as H.
    change (Bplus 53 1024 eq_refl eq_refl binop_nan_pl64 mode_NE x y) with (b64_plus mode_NE x y) in H. destruct (Rlt_bool _ _).
    + destruct H as (V & _ & _). rewrite E in V. cbn [B2R] in V.
      destruct (Req_EM_T (val x + val y) 0) as [Z|Z].
      * pose proof (nonneg_val x Nx Fx). pose proof (nonneg_val y Ny Fy).
        split; apply nonneg_zero; (done || lra).
      * exfalso. apply (Plus_error.round_plus_neq_0 radix2 (SpecFloat.fexp 53 1024) (round_mode mode_NE)) in Z;
          [by apply Z|apply generic_format_B2R|apply generic_format_B2R].
    + destruct H as [H _]. rewrite E in H. discriminate H.
  - exfalso. destruct Ny as [Ny _]. destruct x, y; try discriminate.
  - exfalso. destruct Nx as [Nx Sx], Ny as [Ny Sy]. destruct x, y; try discriminate. cbn in *. subst. discriminate.
Qed.

Lemma max_nonneg x y : nonneg x → nonneg y → nonneg (float_max x y).
Proof.
  intros Nx Ny. unfold float_max. destruct x as [[]|[]|s pl Hpl|s m e He] eqn:Ex; try done;
  destruct y as [[]|[]|s' pl' Hpl'|s' m' e' He'] eqn:Ey; try done; rewrite <- ?Ex, <- ?Ey in *;
  by destruct (b64_compare _ _) as [[]|].
Qed.

Lemma max_zero x y : nonneg x → nonneg y → float_max x y = pzero ↔ x = pzero ∧ y = pzero.
Proof.
  intros Nx Ny. split; [|intros [-> ->]; reflexivity].
  destruct Nx as [Nx Sx], Ny as [Ny Sy].
  destruct x as [sx|sx|s pl Hpl|s m e He], y as [sy|sy|s' pl' Hpl'|s' m' e' He']; try discriminate;
    cbn in Sx, Sy; subst; unfold float_max; try done.
  all: destruct (b64_compare _ _) as [[]|]; done.
Qed.

Lemma sqrt_nonneg x : nonneg x → nonneg (b64_sqrt mode_NE x).
Proof.
  intros [N S]. pose proof (Bsqrt_correct 53 1024 eq_refl eq_refl unop_nan_pl64 mode_NE x) as (_ & F & H).
  change (Bsqrt 53 1024 eq_refl eq_refl unop_nan_pl64 mode_NE x) with (b64_sqrt mode_NE x) in F, H. unfold nonneg.
  assert (fnan (b64_sqrt mode_NE x) = false) as N'.
  { destruct x as [s|s|s pl Hpl|s m e He]; try done; cbn in S; subst; [done|].
    cbn [B2SF] in F. destruct (b64_sqrt mode_NE _); done. }
  split; [exact N'|]. by rewrite H.
Qed.

(** ** The folds *)

Lemma zip_sym {X Y} (l : list X) (l' : list Y) : zip l' l = map (λ pq, (pq.2, pq.1)) (zip l l').
Proof. revert l'. induction l as [|a l IH]; intros [|b l']; try done. cbn. f_equal. apply IH. Qed.

Lemma foldl_sym {X} (h : X → X → binary64) (op : binary64 → binary64 → binary64) l l' a :
  (∀ p q, p ∈ l → q ∈ l' → h p q = h q p) →
  foldl (λ acc pq, op acc (h pq.1 pq.2)) a (zip l' l) = foldl (λ acc pq, op acc (h pq.1 pq.2)) a (zip l l').
Proof.
  intros H. rewrite zip_sym.
  assert (∀ z a, (∀ pq, pq ∈ z → h pq.1 pq.2 = h pq.2 pq.1) →
    foldl (λ acc pq, op acc (h pq.1 pq.2)) a (map (λ pq : X * X, (pq.2, pq.1)) z) = foldl (λ acc pq, op acc (h pq.1 pq.2)) a z) as Hz.
  { clear. induction z as [|pq z IH]; intros a H; [done|]. cbn [map foldl fst snd].
    rewrite <- (H pq) by left. apply IH. intros. apply H. by right. }
  apply Hz. intros [p q] Hin. apply elem_of_zip_l in Hin as H1. apply elem_of_zip_r in Hin as H2. cbn. by apply H.
Qed.

(** A fold by an operation that keeps numbers that are not negative, and that is zero only
    on zeros. *)
Lemma fold_zero {X} (op : binary64 → binary64 → binary64) (h : X → binary64) l :
  (∀ x y, nonneg x → nonneg y → nonneg (op x y)) →
  (∀ x y, nonneg x → nonneg y → op x y = pzero ↔ x = pzero ∧ y = pzero) →
  (∀ e, e ∈ l → nonneg (h e)) → ∀ a, nonneg a →
  nonneg (foldl (λ acc e, op acc (h e)) a l) ∧
  (foldl (λ acc e, op acc (h e)) a l = pzero ↔ a = pzero ∧ ∀ e, e ∈ l → h e = pzero).
Proof.
  intros Hop Hz. induction l as [|e l IH]; intros Hl a Ha; cbn [foldl].
  { split; [done|]. split; [intros ->; split; [done|]|intros [-> _]; done]. intros e He. by apply elem_of_nil in He. }
  assert (nonneg (h e)) as He by (apply Hl; left).
  destruct (IH (λ e' H, Hl e' (elem_of_list_further _ _ _ H)) (op a (h e)) (Hop _ _ Ha He)) as [H1 H2].
  split; [exact H1|]. rewrite H2, (Hz a (h e) Ha He). split.
  - intros [[-> E] H]. split; [done|]. intros e' He'. apply elem_of_cons in He' as [->|He']; [done|]. by apply H.
  - intros [-> H]. split; [split; [done|apply H; left]|]. intros e' He'. apply H. by right.
Qed.

Definition finite_mx (x : mx binary64) : Prop := Forall (λ v, fin v = true) (mx_data x).
(** The two matrices hold the same numbers (-0 and +0 are the same number). *)
Definition same_numbers (x y : mx binary64) : Prop := map val (mx_data x) = map val (mx_data y).

Section floats.
  Context (r c : nat) (x y : mx binary64) (Hx : shaped r c x) (Hy : shaped r c y).
  Context (Fx : finite_mx x) (Fy : finite_mx y).

  Lemma both_finite pq : pq ∈ zip (mx_data x) (mx_data y) → fin pq.1 = true ∧ fin pq.2 = true.
  Proof using Fx Fy.
    intros H. destruct pq as [p q]. apply elem_of_zip_l in H as H1. apply elem_of_zip_r in H as H2.
    unfold finite_mx in Fx, Fy. rewrite Forall_forall in Fx, Fy. cbn. auto.
  Qed.

  Lemma same_zip : same_numbers x y ↔ ∀ pq, pq ∈ zip (mx_data x) (mx_data y) → val pq.1 = val pq.2.
  Proof using Hx Hy.
    unfold same_numbers. assert (length (mx_data x) = length (mx_data y)) as L.
    { destruct Hx as (E1 & E2 & E3), Hy as (E4 & E5 & E6). unfold well_formed in *. congruence. }
    revert L. generalize (mx_data y). clear. induction (mx_data x) as [|p l IH]; intros [|q l'] L; try discriminate L.
    { split; [|done]. intros _ pq H. by apply elem_of_nil in H. }
    cbn [map zip zip_with]. injection L as L. split.
    - intros E pq H. injection E as E1 E2. apply elem_of_cons in H as [->|H]; [done|]. by apply (proj1 (IH l' L)).
    - intros H. f_equal; [apply (H (p, q)); left|]. apply IH; [done|]. intros. apply H. by right.
  Qed.

  Lemma fin_number v : fin v = true → is_nan 53 1024 v = false.
  Proof. by destruct v. Qed.

  Lemma diff_nonneg pq : pq ∈ zip (mx_data x) (mx_data y) → nonneg (b64_abs (b64_minus mode_NE pq.1 pq.2)).
  Proof using Fx Fy.
    intros H. apply both_finite in H as [H1 H2]. apply abs_nonneg, minus_number; [done|]. by apply fin_number.
  Qed.

  Lemma pzero_nonneg : nonneg pzero.
  Proof. done. Qed.

  Lemma manhattan_float : ∃ d, manhattan float64 x y = Ok d ∧ manhattan float64 y x = Ok d ∧
    nonneg d ∧ (d = pzero ↔ same_numbers x y).
  Proof using All.
    rewrite (manhattan_fold float64 r c x y Hx Hy), (manhattan_fold float64 r c y x Hy Hx).
    cbn [float64 a_add a_abs a_sub a_zero]. eexists. split; [done|]. split.
    - f_equal. apply (foldl_sym (λ p q, b64_abs (b64_minus mode_NE p q))). intros p q Hp Hq. apply minus_swap.
      + unfold finite_mx in Fx. rewrite Forall_forall in Fx. by apply Fx.
      + unfold finite_mx in Fy. rewrite Forall_forall in Fy. by apply Fy.
    - destruct (fold_zero (b64_plus mode_NE) (λ pq : binary64 * binary64, b64_abs (b64_minus mode_NE pq.1 pq.2))
        (zip (mx_data x) (mx_data y)) plus_nonneg plus_zero diff_nonneg pzero pzero_nonneg) as [H1 H2].
      split; [exact H1|]. etransitivity; [exact H2|]. rewrite same_zip. split.
      + intros [_ H] pq Hin. destruct (both_finite pq Hin). apply minus_zero; auto.
      + intros H. split; [done|]. intros pq Hin. destruct (both_finite pq Hin). apply minus_zero; auto.
  Qed.

  Lemma chebyshev_float : ∃ d, chebyshev float64 x y = Ok d ∧ chebyshev float64 y x = Ok d ∧
    nonneg d ∧ (d = pzero ↔ same_numbers x y).
  Proof using All.
    rewrite (chebyshev_fold float64 r c x y Hx Hy), (chebyshev_fold float64 r c y x Hy Hx).
    cbn [float64 a_max a_abs a_sub a_zero]. eexists. split; [done|]. split.
    - f_equal. apply (foldl_sym (λ p q, b64_abs (b64_minus mode_NE p q))). intros p q Hp Hq. apply minus_swap.
      + unfold finite_mx in Fx. rewrite Forall_forall in Fx. by apply Fx.
      + unfold finite_mx in Fy. rewrite Forall_forall in Fy. by apply Fy.
    - destruct (fold_zero float_max (λ pq : binary64 * binary64, b64_abs (b64_minus mode_NE pq.1 pq.2))
        (zip (mx_data x) (mx_data y)) max_nonneg max_zero diff_nonneg pzero pzero_nonneg) as [H1 H2].
      split; [exact H1|]. etransitivity; [exact H2|]. rewrite same_zip. split.
      + intros [_ H] pq Hin. destruct (both_finite pq Hin). apply minus_zero; auto.
      + intros H. split; [done|]. intros pq Hin. destruct (both_finite pq Hin). apply minus_zero; auto.
  Qed.

  Lemma euclidean_float : ∃ d, euclidean float64 x y = Ok d ∧ euclidean float64 y x = Ok d ∧
    nonneg d ∧ (same_numbers x y → d = pzero).
  Proof using All.
    rewrite (euclidean_fold float64 r c x y Hx Hy), (euclidean_fold float64 r c y x Hy Hx).
    cbn [float64 a_add a_mul a_sub a_zero a_sqrt]. eexists. split; [done|]. split.
    - f_equal. f_equal. apply (foldl_sym (λ p q, b64_mult mode_NE (b64_minus mode_NE p q) (b64_minus mode_NE p q))).
      intros p q Hp Hq. unfold finite_mx in Fx, Fy. rewrite Forall_forall in Fx, Fy.
      apply square_abs; [apply minus_number; [|apply fin_number]; auto|apply minus_number; [|apply fin_number]; auto|].
      apply minus_swap; auto.
    - destruct (fold_zero (b64_plus mode_NE) (λ pq : binary64 * binary64, b64_mult mode_NE (b64_minus mode_NE pq.1 pq.2) (b64_minus mode_NE pq.1 pq.2))
        (zip (mx_data x) (mx_data y)) plus_nonneg plus_zero) with (a := pzero) as [H1 H2]; [|done|].
      { intros pq Hin. destruct (both_finite pq Hin). apply square_nonneg, minus_number; [done|by apply fin_number]. }
      split; [exact (sqrt_nonneg _ H1)|]. rewrite same_zip. intros H.
      assert (∀ s, s = pzero → b64_sqrt mode_NE s = pzero) as Hs by (intros s ->; reflexivity). apply Hs.
      apply H2. split; [done|]. intros pq Hin. destruct (both_finite pq Hin) as [F1 F2].
      specialize (H pq Hin). apply (minus_zero pq.1 pq.2 F1 F2) in H.
      destruct (b64_minus mode_NE pq.1 pq.2) as [s|s|s pl Hpl|s m e He]; try discriminate H. by destruct s.
  Qed.

  Lemma plus_comm_float p q : fin p = true → fin q = true → Bsign 53 1024 p = Bsign 53 1024 q →
    b64_plus mode_NE p q = b64_plus mode_NE q p.
  Proof using.
    intros Fp Fq S.
    pose proof (Bplus_correct 53 1024 eq_refl eq_refl binop_nan_pl64 mode_NE p q Fp Fq) as H1.
    pose proof (Bplus_correct 53 1024 eq_refl eq_refl binop_nan_pl64 mode_NE q p Fq Fp) as H2.
    change (Bplus 53 1024 eq_refl eq_refl binop_nan_pl64 mode_NE p q) with (b64_plus mode_NE p q) in H1.
    change (Bplus 53 1024 eq_refl eq_refl binop_nan_pl64 mode_NE q p) with (b64_plus mode_NE q p) in H2.
    rewrite (Rplus_comm (val q)) in H2. destruct (Rlt_bool _ _).
    - destruct H1 as (V1 & F1 & S1), H2 as (V2 & F2 & S2). apply nonneg_fin_inj; [done|done|congruence|].
      rewrite S1, S2, S. done.
    - destruct H1 as [V1 _], H2 as [V2 _]. cbn in V1, V2. rewrite S in V1. apply inf_of_FF in V1, V2. congruence.
  Qed.

  Lemma cranberra_float : ∃ d, cranberra float64 x y = Ok d ∧ cranberra float64 y x = Ok d ∧
    (x = y → d = pzero).
  Proof using All.
    rewrite (cranberra_fold float64 r c x y Hx Hy), (cranberra_fold float64 r c y x Hy Hx).
    eexists. split; [done|]. split.
    - f_equal. cbn [float64 a_add].
      apply (foldl_sym (λ p q, cranberra_step float64 (b64_abs (b64_minus mode_NE p q)) (b64_plus mode_NE (b64_abs p) (b64_abs q)))).
      intros p q Hp Hq. unfold finite_mx in Fx, Fy. rewrite Forall_forall in Fx, Fy.
      specialize (Fx p Hp). specialize (Fy q Hq). rewrite (minus_swap p q) by done.
      destruct (abs_fin p Fx) as (A1 & _ & A3), (abs_fin q Fy) as (B1 & _ & B3).
      rewrite (plus_comm_float (b64_abs p) (b64_abs q)) by congruence. done.
    - intros ->. cbn [float64 a_add a_zero].
      assert (∀ l, Forall (λ v, fin v = true) l →
        foldl (λ acc pq, b64_plus mode_NE acc (cranberra_step float64 (b64_abs (b64_minus mode_NE pq.1 pq.2))
           (b64_plus mode_NE (b64_abs pq.1) (b64_abs pq.2)))) pzero (zip l l) = pzero) as H; [|apply H, Fy].
      induction l as [|v l IH]; intros Hl; [done|]. apply Forall_cons in Hl as [Hv Hl]. cbn [zip zip_with foldl fst snd].
      assert (cranberra_step float64 (b64_abs (b64_minus mode_NE v v)) (b64_plus mode_NE (b64_abs v) (b64_abs v)) = pzero) as ->.
      { rewrite (proj2 (minus_zero v v Hv Hv) eq_refl). unfold cranberra_step. cbn [float64 a_eqb a_zero a_div].
        assert (nonneg (b64_plus mode_NE (b64_abs v) (b64_abs v))) as [N S].
        { apply plus_nonneg; apply abs_nonneg; by apply fin_number. }
        destruct (b64_plus mode_NE (b64_abs v) (b64_abs v)) as [s|s|s pl Hpl|s m e He] eqn:E; try discriminate; cbn in S; subst; reflexivity. }
      apply IH, Hl.
  Qed.
End floats.
