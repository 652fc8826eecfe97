(** Proofs about CART trees: the losses, the rows of a table and fitting. *)
From Coq Require Import Reals Psatz.
From Verif Require Import Prelude FloatModel FloatOrder AttrModel AttrProofs StoreModel DenseModel DenseProofs
  GridModel GridSpec GridProofs FilterModel KnnModel Id3Model RuleModel RuleProofs RuleRefs CartModel CartSpec
  CartProofs CartGrow.
From Flocq Require Import Core.Core IEEE754.BinarySingleNaN IEEE754.Bits IEEE754.Binary.
Local Open Scope nat_scope.

Notation fin := (is_finite 53 1024).
Notation val := (B2R 53 1024).
Notation rnd := (round radix2 (SpecFloat.fexp 53 1024) ZnearestE).

(** ** Numbers *)

Global Instance valid_exp64 : Valid_exp (SpecFloat.fexp 53 1024) := fexp_correct 53 1024 eq_refl.

Lemma format_Z (n : Z) : (Z.abs n <= 2 ^ 53)%Z → generic_format radix2 (SpecFloat.fexp 53 1024) (IZR n).
Proof.
  intros Hn. apply (generic_format_FLT radix2 (-1074) 53).
  destruct (Z.eq_dec (Z.abs n) (2 ^ 53)%Z) as [E|E].
  - exists (Float radix2 (Z.sgn n) 53).
    + unfold F2R. cbn [Fnum Fexp]. rewrite <- (IZR_Zpower radix2) by lia. rewrite <- mult_IZR. f_equal.
      change (radix2 ^ 53)%Z with (2 ^ 53)%Z. rewrite <- E. lia.
    + cbn [Fnum]. change (radix2 ^ 53)%Z with (2 ^ 53)%Z. lia.
    + cbn [Fexp]. lia.
  - exists (Float radix2 n 0).
    + unfold F2R. cbn [Fnum Fexp]. change (bpow radix2 0) with 1%R. lra.
    + cbn [Fnum]. change (radix2 ^ 53)%Z with (2 ^ 53)%Z. lia.
    + cbn [Fexp]. lia.
Qed.

Lemma float_of_Z_exact n : (Z.abs n <= 2 ^ 53)%Z → fin (float_of_Z n) = true ∧ val (float_of_Z n) = IZR n.
Proof.
  intros Hn. unfold float_of_Z.
  pose proof (binary_normalize_correct 53 1024 eq_refl eq_refl mode_NE n 0 false) as H.
  assert (F2R (Float radix2 n 0) = IZR n) as E.
  { unfold F2R. cbn [Fnum Fexp]. change (bpow radix2 0) with 1%R. lra. }
  rewrite E in H. cbn [round_mode] in H.
  rewrite round_generic in H; [|apply valid_rnd_N|by apply format_Z].
  rewrite Rlt_bool_true in H; [tauto|].
  apply Rle_lt_trans with (IZR (2 ^ 53)); [rewrite <- abs_IZR; by apply IZR_le|].
  change (2 ^ 53)%Z with (radix2 ^ 53)%Z. rewrite IZR_Zpower by lia. apply bpow_lt. lia.
Qed.

Lemma rnd_between a b x : (Z.abs a <= 2 ^ 53)%Z → (Z.abs b <= 2 ^ 53)%Z → (IZR a <= x <= IZR b)%R →
  (IZR a <= rnd x <= IZR b)%R.
Proof.
  intros Ha Hb [H1 H2]. split.
  - apply round_ge_generic; [apply _|apply valid_rnd_N|by apply format_Z|done].
  - apply round_le_generic; [apply _|apply valid_rnd_N|by apply format_Z|done].
Qed.

Lemma small_bound a b x : (Z.abs a <= 2 ^ 53)%Z → (Z.abs b <= 2 ^ 53)%Z → (IZR a <= x <= IZR b)%R →
  Rlt_bool (Rabs (rnd x)) (bpow radix2 1024) = true.
Proof.
  intros Ha Hb H. apply Rlt_bool_true. pose proof (rnd_between a b x Ha Hb H) as [H1 H2].
  apply Rle_lt_trans with (IZR (2 ^ 53)).
  - apply Rabs_le. split.
    + apply Rle_trans with (IZR a); [|done]. rewrite <- opp_IZR. apply IZR_le. lia.
    + apply Rle_trans with (IZR b); [done|]. apply IZR_le. lia.
  - change (2 ^ 53)%Z with (radix2 ^ 53)%Z. rewrite IZR_Zpower by lia. apply bpow_lt. lia.
Qed.

(** [x] is a finite number from [a] to [b]. *)
Definition between (a b : Z) (x : binary64) : Prop :=
  fin x = true ∧ (IZR a <= val x <= IZR b)%R.

Lemma div_between a b x y : (Z.abs a <= 2 ^ 53)%Z → (Z.abs b <= 2 ^ 53)%Z →
  fin x = true → val y <> 0%R → (IZR a <= val x / val y <= IZR b)%R → between a b (b64_div mode_NE x y).
Proof.
  intros Ha Hb Hx Hy H. unfold b64_div.
  pose proof (Bdiv_correct 53 1024 eq_refl eq_refl binop_nan_pl64 mode_NE x y Hy) as Hd.
  cbn [round_mode] in Hd. rewrite (small_bound a b) in Hd by done. destruct Hd as (H1 & H2 & _).
  split; [by rewrite <- Hx|]. rewrite H1. by apply rnd_between.
Qed.

Lemma minus_between a b x y : (Z.abs a <= 2 ^ 53)%Z → (Z.abs b <= 2 ^ 53)%Z →
  fin x = true → fin y = true → (IZR a <= val x - val y <= IZR b)%R → between a b (b64_minus mode_NE x y).
Proof.
  intros Ha Hb Hx Hy H. unfold b64_minus.
  pose proof (Bminus_correct 53 1024 eq_refl eq_refl binop_nan_pl64 mode_NE x y Hx Hy) as Hd.
  cbn [round_mode] in Hd. rewrite (small_bound a b) in Hd by done. destruct Hd as (H1 & H2 & _).
  split; [done|]. rewrite H1. by apply rnd_between.
Qed.

Lemma mult_between a b x y : (Z.abs a <= 2 ^ 53)%Z → (Z.abs b <= 2 ^ 53)%Z →
  fin x = true → fin y = true → (IZR a <= val x * val y <= IZR b)%R → between a b (b64_mult mode_NE x y).
Proof.
  intros Ha Hb Hx Hy H. unfold b64_mult.
  pose proof (Bmult_correct 53 1024 eq_refl eq_refl binop_nan_pl64 mode_NE x y) as Hd.
  cbn [round_mode] in Hd. rewrite (small_bound a b) in Hd by done. destruct Hd as (H1 & H2 & _).
  split; [by rewrite H2, Hx, Hy|]. rewrite H1. by apply rnd_between.
Qed.

Lemma plus_half x y : fnan x = false → fin y = true → fnan (b64_plus mode_NE x y) = false.
Proof.
  intros Hx Hy. destruct (fin x) eqn:Fx; [by apply plus_number|].
  destruct x as [s|s|s pl Hpl|s m e He]; try done. by destruct y.
Qed.

Lemma sum_number {A} (f : A → binary64) l acc : fnan acc = false → (∀ x, x ∈ l → fin (f x) = true) →
  fnan (foldl (λ a x, b64_plus mode_NE a (f x)) acc l) = false.
Proof.
  revert acc. induction l as [|x l IH]; intros acc Ha Hf; [done|]. cbn [foldl]. apply IH.
  - apply plus_half; [done|]. apply Hf. left.
  - intros y Hy. apply Hf. by right.
Qed.

(** ** The losses of the classifier *)

Lemma count_length y l : count_label y l ≤ length y.
Proof. unfold count_label. apply filter_length. Qed.

Lemma share_between y l : y ≠ [] → (Z.of_nat (length y) <= 2 ^ 53)%Z → between 0 1 (share_of y l).
Proof.
  intros Hne Hl. pose proof (count_length y l) as Hc. unfold share_of, float_of_nat.
  destruct (float_of_Z_exact (Z.of_nat (count_label y l))) as [F1 V1]; [lia|].
  destruct (float_of_Z_exact (Z.of_nat (length y))) as [F2 V2]; [lia|].
  assert (0 < length y) as Hp by (destruct y; [done|cbn; lia]).
  assert (0 < IZR (Z.of_nat (length y)))%R as Hpos by (apply (IZR_lt 0); lia).
  apply div_between; [lia|lia|done| |]; rewrite ?V1, ?V2; [lra|]. split.
  - apply Rmult_le_pos; [apply (IZR_le 0); lia|]. apply Rlt_le, Rinv_0_lt_compat; done.
  - apply Rmult_le_reg_r with (IZR (Z.of_nat (length y))); [done|].
    unfold Rdiv. rewrite Rmult_assoc, Rinv_l by lra. rewrite Rmult_1_r, Rmult_1_l.
    apply IZR_le. lia.
Qed.

Lemma one_exact : fin float_one = true ∧ val float_one = 1%R.
Proof. exact (float_of_Z_exact 1 ltac:(lia)). Qed.

Lemma gini_number y labels : y ≠ [] → (Z.of_nat (length y) <= 2 ^ 53)%Z → fnan (gini_impurity y labels) = false.
Proof.
  intros Hne Hl. unfold gini_impurity. apply (sum_number (λ l, b64_mult mode_NE (share_of y l) _)); [done|].
  intros l _. destruct (share_between y l Hne Hl) as [F [H0 H1]]. destruct one_exact as [F1 V1].
  destruct (minus_between 0 1 float_one (share_of y l)) as [F2 [H2 H3]]; [lia|lia|done|done|rewrite V1; lra|].
  destruct (mult_between 0 1 (share_of y l) (b64_minus mode_NE float_one (share_of y l))); [lia|lia|done|done| |done].
  split; [by apply Rmult_le_pos|]. rewrite <- (Rmult_1_l 1). apply Rmult_le_compat; lra.
Qed.

Lemma eq_zero_val p : fin p = true → float_eq p float_zero = false → val p <> 0%R.
Proof.
  intros F H E. destruct p as [s|s|s pl Hpl|s m e He]; try done.
  cbn [B2R] in E. unfold F2R in E. cbn [Fnum Fexp] in E. apply Rmult_integral in E as [E|E].
  - apply (eq_IZR _ 0) in E. by destruct s.
  - pose proof (bpow_gt_0 radix2 e). lra.
Qed.

Lemma entropy_number log2 y labels : log2_sane log2 →
  y ≠ [] → (Z.of_nat (length y) <= 2 ^ 53)%Z → fnan (entropy_impurity log2 y labels) = false.
Proof.
  intros Hlog Hne Hl. unfold entropy_impurity.
  apply (sum_number (λ l, b64_mult mode_NE (b64_opp (share_of y l))
    (if float_eq (share_of y l) float_zero then float_zero else log2 (share_of y l)))); [done|].
  intros l _. destruct (share_between y l Hne Hl) as [F [H0 H1]].
  assert (fin (b64_opp (share_of y l)) = true ∧ val (b64_opp (share_of y l)) = (- val (share_of y l))%R) as [F2 V2].
  { unfold b64_opp. rewrite is_finite_Bopp, B2R_Bopp. done. }
  set (lp := if float_eq _ _ then _ else _).
  assert (between (-1100) 0 lp) as [F3 [H2 H3]].
  { unfold lp. destruct (float_eq (share_of y l) float_zero) eqn:E; [split; [done|cbn; lra]|].
    apply eq_zero_val in E; [|done]. apply Hlog; [done|]. cbn in *. lra. }
  destruct (mult_between 0 1100 (b64_opp (share_of y l)) lp); [lia|lia|done|done| |done].
  rewrite V2. split.
  - replace (- val (share_of y l) * val lp)%R with (val (share_of y l) * - val lp)%R by lra.
    apply Rmult_le_pos; lra.
  - replace (- val (share_of y l) * val lp)%R with (val (share_of y l) * - val lp)%R by lra.
    replace 1100%R with (1 * 1100)%R by lra. apply Rmult_le_compat; lra.
Qed.

Lemma count_perm y y' l : y ≡ₚ y' → count_label y l = count_label y' l.
Proof. intros H. unfold count_label. apply Permutation_length. by rewrite H. Qed.

Lemma share_perm y y' l : y ≡ₚ y' → share_of y l = share_of y' l.
Proof. intros H. unfold share_of. by rewrite (count_perm y y' l H), (Permutation_length H). Qed.

Lemma foldl_ext' {A B} (f g : A → B → A) l a : (∀ a b, f a b = g a b) → foldl f a l = foldl g a l.
Proof. intros H. revert a. induction l as [|b l IH]; intros a; [done|]. cbn. by rewrite H. Qed.

Lemma gini_perm y y' labels : y ≡ₚ y' → gini_impurity y labels = gini_impurity y' labels.
Proof. intros H. apply foldl_ext'. intros a l. by rewrite (share_perm y y' l H). Qed.

Lemma entropy_perm log2 y y' labels : y ≡ₚ y' → entropy_impurity log2 y labels = entropy_impurity log2 y' labels.
Proof. intros H. apply foldl_ext'. intros a l. by rewrite (share_perm y y' l H). Qed.

Lemma mode_fold y labels m :
  let m' := foldl (λ m l, if count_label y m <? count_label y l then l else m) m labels in
  count_label y m ≤ count_label y m' ∧ (∀ l, l ∈ labels → count_label y l ≤ count_label y m').
Proof.
  revert m. induction labels as [|l labels IH]; intros m.
  { cbn. split; [lia|]. intros l Hl. by apply elem_of_nil in Hl. }
  cbn [foldl]. destruct (IH (if count_label y m <? count_label y l then l else m)) as [H1 H2].
  destruct (Nat.ltb_spec (count_label y m) (count_label y l)).
  - split; [lia|]. intros l' [->|Hl']%elem_of_cons; [lia|by apply H2].
  - split; [lia|]. intros l' [->|Hl']%elem_of_cons; [lia|by apply H2].
Qed.

Lemma count_pos y l : l ∈ y ↔ 0 < count_label y l.
Proof.
  unfold count_label. split.
  - intros H. destruct (filter (λ v, v = l) y) as [|v f] eqn:E; [|cbn; lia].
    assert (l ∈ filter (λ v, v = l) y) as Hin by (by apply elem_of_list_filter).
    rewrite E in Hin. by apply elem_of_nil in Hin.
  - intros H. destruct (filter (λ v, v = l) y) as [|v f] eqn:E; [cbn in H; lia|].
    assert (v ∈ filter (λ v, v = l) y) as Hin by (rewrite E; left).
    apply elem_of_list_filter in Hin as [-> Hin]. done.
Qed.

Lemma mode_most_frequent y labels : y ≠ [] → (∀ v, v ∈ y → v ∈ labels) → most_frequent y (mode_label y labels).
Proof.
  intros Hne Hcov. destruct (mode_fold y labels 0%Z) as [_ H].
  change (foldl _ 0%Z labels) with (mode_label y labels) in H.
  assert (∀ l, count_label y l ≤ count_label y (mode_label y labels)) as Hall.
  { intros l. destruct (decide (l ∈ y)) as [Hl|Hl]; [by apply H, Hcov|].
    rewrite count_pos in Hl. lia. }
  split; [|exact Hall]. destruct y as [|v y]; [done|].
  apply count_pos. assert (v ∈ v :: y) as Hv by left. apply count_pos in Hv. specialize (Hall v). lia.
Qed.

Lemma most_frequent_perm y y' l : y ≡ₚ y' → most_frequent y l → most_frequent y' l.
Proof.
  intros Hp [H1 H2]. split; [by rewrite <- Hp|]. intros l'. specialize (H2 l').
  change (count_label y' l' ≤ count_label y' l). rewrite <- !(count_perm y y') by done. exact H2.
Qed.

(** ** The losses of the regressor *)

Lemma div_number x y : fnan x = false → fin y = true → val y <> 0%R → fnan (b64_div mode_NE x y) = false.
Proof.
  intros Hx Hf Hy. destruct (fin x) eqn:F.
  - unfold b64_div. pose proof (Bdiv_correct 53 1024 eq_refl eq_refl binop_nan_pl64 mode_NE x y Hy) as H.
    destruct (Rlt_bool _ _).
    + destruct H as (_ & H & _). rewrite F in H. by destruct (Bdiv _ _ _ _ _ _ _ _).
    + by destruct (Bdiv _ _ _ _ _ _ _ _).
  - destruct x as [s|s|s pl Hpl|s m e He]; try done. by destruct y.
Qed.

Lemma length_number (y : list binary64) : y ≠ [] → (Z.of_nat (length y) <= 2 ^ 53)%Z →
  fin (float_of_nat (length y)) = true ∧ val (float_of_nat (length y)) <> 0%R.
Proof.
  intros Hne Hl. destruct (float_of_Z_exact (Z.of_nat (length y))) as [F V]; [lia|].
  unfold float_of_nat. split; [done|]. rewrite V. apply not_0_IZR. destruct y; [done|cbn; lia].
Qed.

Lemma average_number y : y ≠ [] → (Z.of_nat (length y) <= 2 ^ 53)%Z → Forall (λ x, fin x = true) y →
  fnan (average y) = false.
Proof.
  intros Hne Hl Hf. destruct (length_number y Hne Hl) as [F V]. apply div_number; [|done|done].
  apply (sum_number (λ x : binary64, x)); [done|]. intros x Hx. rewrite Forall_forall in Hf. by apply Hf.
Qed.

Lemma minus_number x y : fin x = true → fnan y = false → fnan (b64_minus mode_NE x y) = false.
Proof.
  intros Hx Hy. destruct (fin y) eqn:Fy.
  - unfold b64_minus. pose proof (Bminus_correct 53 1024 eq_refl eq_refl binop_nan_pl64 mode_NE x y Hx Fy) as H.
    destruct (Rlt_bool _ _).
    + destruct H as (_ & H & _). by destruct (Bminus _ _ _ _ _ _ _ _).
    + destruct H as [H _]. by destruct (Bminus _ _ _ _ _ _ _ _).
  - destruct y as [s|s|s pl Hpl|s m e He]; try done. by destruct x.
Qed.

(** A number that is not negative: +0, positive or +Inf. *)
Definition nonneg (x : binary64) : Prop := fnan x = false ∧ Bsign 53 1024 x = false.

Lemma plus_nonneg x y : nonneg x → nonneg y → nonneg (b64_plus mode_NE x y).
Proof.
  intros [N1 S1] [N2 S2]. destruct (fin x) eqn:Fx; destruct (fin y) eqn:Fy.
  - unfold b64_plus. pose proof (Bplus_correct 53 1024 eq_refl eq_refl binop_nan_pl64 mode_NE x y Fx Fy) as H.
    destruct (Rlt_bool _ _).
    + destruct H as (_ & H & Hs). split; [by destruct (Bplus _ _ _ _ _ _ _ _)|].
      rewrite Hs, S1, S2. assert (0 <= val x)%R as P1.
      { destruct x as [s|s|s pl Hpl|s m e He]; try done; cbn; [lra|]. cbn in S1. subst s.
        apply F2R_ge_0. cbn. lia. }
      assert (0 <= val y)%R as P2.
      { destruct y as [s|s|s pl Hpl|s m e He]; try done; cbn; [lra|]. cbn in S2. subst s.
        apply F2R_ge_0. cbn. lia. }
      destruct (Rcompare_spec (val x + val y) 0); [lra|done|done].
    + destruct H as [H Hs].
      destruct (Bplus _ _ _ _ _ _ _ _) as [s|s|s pl Hpl|s m e He]; cbn in H; try done.
      rewrite S1 in H. unfold nonneg. cbn in *. injection H as ->. done.
  - destruct x, y; try done; cbn in *; subst; done.
  - destruct x, y; try done; cbn in *; subst; done.
  - destruct x, y; try done; cbn in *; subst; done.
Qed.

Lemma sum_nonneg {A} (f : A → binary64) l acc : nonneg acc → (∀ x, x ∈ l → nonneg (f x)) →
  nonneg (foldl (λ a x, b64_plus mode_NE a (f x)) acc l).
Proof.
  revert acc. induction l as [|x l IH]; intros acc Ha Hf; [done|]. cbn [foldl]. apply IH.
  - apply plus_nonneg; [done|]. apply Hf. left.
  - intros y Hy. apply Hf. by right.
Qed.

Lemma abs_nonneg x : fnan x = false → nonneg (b64_abs x).
Proof. destruct x as [s|s|s pl Hpl|s m e He]; intros H; done. Qed.

Lemma square_nonneg x : fnan x = false → nonneg (b64_mult mode_NE x x).
Proof.
  intros Hx. destruct (fin x) eqn:F.
  - unfold b64_mult. pose proof (Bmult_correct 53 1024 eq_refl eq_refl binop_nan_pl64 mode_NE x x) as H.
    destruct (Rlt_bool _ _).
    + destruct H as (_ & H & Hs). rewrite F in H. cbn in H.
      assert (fnan (Bmult 53 1024 eq_refl eq_refl binop_nan_pl64 mode_NE x x) = false) as N
        by (by destruct (Bmult _ _ _ _ _ _ _ _)).
      split; [done|]. rewrite Hs by done. apply xorb_nilpotent.
    + rewrite xorb_nilpotent in H. destruct (Bmult _ _ _ _ _ _ _ _) as [s|s|s pl Hpl|s m e He]; try done.
      cbn in H. injection H as ->. done.
  - destruct x as [s|s|s pl Hpl|s m e He]; try done. by destruct s.
Qed.

Lemma regression_number criterion y : y ≠ [] → (Z.of_nat (length y) <= 2 ^ 53)%Z →
  Forall (λ x, fin x = true) y → fnan (regression_impurity criterion y) = false.
Proof.
  intros Hne Hl Hf. pose proof (average_number y Hne Hl Hf) as Na.
  destruct (length_number y Hne Hl) as [F V]. unfold regression_impurity.
  destruct (bool_decide (criterion = "mae")).
  - apply div_number; [|done|done].
    apply (sum_nonneg (λ v, b64_abs (b64_minus mode_NE v (average y)))); [done|].
    intros x Hx. apply abs_nonneg, minus_number; [|done]. rewrite Forall_forall in Hf. by apply Hf.
  - apply div_number; [|done|done].
    apply (sum_nonneg (λ v, b64_mult mode_NE (b64_minus mode_NE v (average y)) (b64_minus mode_NE v (average y)))); [done|].
    intros x Hx. apply square_nonneg, minus_number; [|done]. rewrite Forall_forall in Hf. by apply Hf.
Qed.

(** ** Rows *)

Lemma nonclass_filter all cls :
  nonclass_float_attrs all cls =
  filter (λ a, KnnModel.is_float a = true ∧ Forall (λ c, attr_equals a c = false) cls) all.
Proof.
  induction all as [|a all IH]; [done|]. cbn [nonclass_float_attrs].
  assert (attr_matched a cls = false ↔ Forall (λ c, attr_equals a c = false) cls) as Hm.
  { rewrite <- not_true_iff_false, attr_matched_spec, Forall_forall. split.
    - intros H c Hc. apply not_true_iff_false. intros E. apply H. eauto.
    - intros H (c & Hc & E). by rewrite H in E. }
  rewrite filter_cons. destruct a as [n p|n vs|n]; cbn [KnnModel.is_float].
  - destruct (attr_matched (FloatA n p) cls); cbn [negb]; case_decide as Hd; rewrite IH; try done.
    + destruct Hd as [_ Hd]. apply Hm in Hd. done.
    + destruct Hd. split; [done|]. by apply Hm.
  - case_decide as Hd; [by destruct Hd|]. done.
  - case_decide as Hd; [by destruct Hd|]. done.
Qed.

Lemma fill_rows {A} (f : list (list N) → res A) (h : nat → A) rows n (v : list A) :
  NoDup (map fst rows) → length v = n →
  (∀ i fetch, (i, fetch) ∈ rows → i < n ∧ ∃ row, fetch = Ok row ∧ f row = Ok (h i)) →
  ∃ v', run_rows (λ v row r, x ← f row; Ok (<[r := x]> v, Cont)) v rows = Ok (v', false) ∧ length v' = n ∧
    ∀ i, v' !! i = if bool_decide (i ∈ map fst rows) then Some (h i) else v !! i.
Proof.
  revert v. induction rows as [|[i fetch] rows IH]; intros v Hnd Hlen H.
  { exists v. done. }
  cbn [map] in Hnd. apply NoDup_cons in Hnd as [Hi Hnd].
  destruct (H i fetch) as (Hin & row & -> & Hf); [left|]. cbn [run_rows mbind res_bind]. rewrite Hf.
  cbn [mbind res_bind].
  destruct (IH (<[i := h i]> v) Hnd) as (v' & Hrun & Hl & Hv).
  { by rewrite insert_length. }
  { intros j fj Hj. apply H. by right. }
  exists v'. split; [exact Hrun|]. split; [done|]. intros j. rewrite Hv. cbn [map fst] in *.
  destruct (bool_decide (j ∈ map fst rows)) eqn:Ej.
  - apply bool_decide_eq_true_1 in Ej. rewrite bool_decide_true; [done|]. by right.
  - apply bool_decide_eq_false_1 in Ej. destruct (decide (j = i)) as [->|Hne].
    + rewrite bool_decide_true by left. apply list_lookup_insert. lia.
    + rewrite bool_decide_false; [by apply list_lookup_insert_ne|].
      intros [->|?]%elem_of_cons; done.
Qed.

Lemma read_rows {A} g specs (f : list (list N) → res A) (h : nat → A) (a0 : A) :
  iter_agrees g →
  (∀ r, r < (gr_size g).2 → ∃ row, res_mapM (λ s, gr_get g s r) specs = Ok row ∧ f row = Ok (h r)) →
  map_over_rows g specs (λ v row r, x ← f row; Ok (<[r := x]> v, Cont)) (replicate (gr_size g).2 a0) =
  Ok (map h (seq 0 (gr_size g).2), false).
Proof.
  intros Hit H. unfold map_over_rows. destruct (Hit specs) as (rows & -> & Hperm & Hfetch).
  destruct (fill_rows f h rows (gr_size g).2 (replicate (gr_size g).2 a0)) as (v' & -> & Hl & Hv).
  - rewrite Hperm. apply NoDup_seq.
  - apply replicate_length.
  - intros i fetch Hin. assert (i < (gr_size g).2) as Hi.
    { apply (elem_of_list_fmap_1 fst) in Hin. change (fst <$> rows) with (map fst rows) in Hin.
      rewrite Hperm in Hin. apply elem_of_seq in Hin. cbn in Hin. lia. }
    split; [done|]. rewrite (Hfetch i fetch Hin). destruct (H i Hi) as (row & Hr & Hf). eauto.
  - f_equal. f_equal. apply list_eq. intros i. rewrite Hv.
    destruct (decide (i < (gr_size g).2)) as [Hi|Hi].
    + rewrite bool_decide_true by (rewrite Hperm; apply elem_of_seq; lia).
      change (map h) with (fmap (M:=list) h). by rewrite list_lookup_fmap, lookup_seq_lt.
    + rewrite bool_decide_false by (rewrite Hperm, elem_of_seq; lia).
      rewrite !lookup_ge_None_2; [done| |]; [rewrite map_length, seq_length; lia|rewrite replicate_length; lia].
Qed.

Lemma problem_vec_reads g feat : holds_features g feat →
  problem_vec g = Ok (map feat (seq 0 (gr_size g).2)).
Proof.
  intros [Hit (specs & Hs & Hf)]. unfold problem_vec. rewrite nonclass_filter.
  change (filter _ (gr_all_attrs g)) with (numeric_columns g). rewrite Hs. cbn [mbind res_bind].
  rewrite (read_rows g specs (res_mapM unpack_float) feat); [done|done|exact Hf].
Qed.

Lemma label_vec_reads g feat label : holds_samples g feat label →
  label_vec g = Ok (map label (seq 0 (gr_size g).2)).
Proof.
  intros [[Hit _] (name & prec & s & Hc & Hs & Hf)]. unfold label_vec. rewrite Hc. cbn [resolve res_mapM].
  rewrite Hs. cbn [mbind res_bind].
  assert (map_over_rows g [s] (λ v row r, x ← (raw ← idx row 0; unpack_float raw); Ok (<[r := x]> v, Cont))
    (replicate (gr_size g).2 float_zero) = Ok (map label (seq 0 (gr_size g).2), false)) as H.
  { apply read_rows; [done|]. intros r Hr. destruct (Hf r Hr) as (raw & Hg & Hu). exists [raw].
    cbn [res_mapM]. rewrite Hg. cbn [mbind res_bind]. done. }
  match goal with |- (r ← ?m; Ok r.1) = _ => assert (m = Ok (map label (seq 0 (gr_size g).2), false)) as -> end;
    [|done].
  rewrite <- H. clear H.
  unfold map_over_rows. destruct (gr_iter g [s]) as [rows| |]; [|done|done].
  generalize (replicate (gr_size g).2 float_zero). induction rows as [|[i fetch] rows IH]; intros v; [done|].
  cbn [run_rows]. destruct fetch as [row| |]; [|done|done]. cbn [mbind res_bind].
  destruct (idx row 0) as [raw| |]; [|done|done]. cbn [mbind res_bind].
  destruct (unpack_float raw); [|done|done]. cbn [mbind res_bind]. apply IH.
Qed.

Lemma int_label_vec_reads g feat label : holds_samples g feat label →
  int_label_vec g = Ok (map (λ r, int_of_float (label r)) (seq 0 (gr_size g).2)).
Proof.
  intros H. unfold int_label_vec. rewrite (label_vec_reads g feat label H). cbn. by rewrite map_map.
Qed.

Lemma zip_map {A B C} (f : A → B) (h : A → C) l : zip (map f l) (map h l) = map (λ x, (f x, h x)) l.
Proof. induction l as [|x l IH]; [done|]. cbn. f_equal. exact IH. Qed.

Lemma samples_zip {L} g feat (label : nat → L) :
  zip (map feat (seq 0 (gr_size g).2)) (map label (seq 0 (gr_size g).2)) = samples_of g feat label.
Proof. apply zip_map. Qed.

Lemma samples_length {L} g feat (label : nat → L) : length (samples_of g feat label) = (gr_size g).2.
Proof. unfold samples_of. by rewrite map_length, seq_length. Qed.

Lemma samples_nonempty {L} g feat (label : nat → L) : 0 < (gr_size g).2 → samples_of g feat label ≠ [].
Proof. intros H E. apply (f_equal length) in E. rewrite samples_length in E. cbn in E. lia. Qed.

Lemma samples_in {L} g feat (label : nat → L) p : p ∈ samples_of g feat label →
  ∃ r, r < (gr_size g).2 ∧ p = (feat r, label r).
Proof.
  intros H. apply elem_of_list_fmap in H as (r & -> & Hr). apply elem_of_seq in Hr. exists r. split; [lia|done].
Qed.

Lemma regressor_fit_reads fsort order fuel criterion md g feat label : holds_samples g feat label →
  regressor_fit fsort order fuel criterion md g =
  best_split float_zero fsort order (regression_loss criterion) fuel [] (samples_of g feat label) md 0.
Proof.
  intros H. unfold regressor_fit. rewrite (problem_vec_reads g feat (proj1 H)), (label_vec_reads g feat label H).
  cbn [mbind res_bind]. by rewrite samples_zip.
Qed.

Lemma classifier_fit_reads fsort order log2 fuel criterion md labels g feat label : holds_samples g feat label →
  classifier_fit fsort order log2 fuel criterion md labels g =
  best_split 0%Z fsort order (classification_loss log2 criterion labels) fuel []
    (samples_of g feat (int_label label)) md 0.
Proof.
  intros H. unfold classifier_fit. rewrite (problem_vec_reads g feat (proj1 H)), (int_label_vec_reads g feat label H).
  cbn [mbind res_bind]. by rewrite samples_zip.
Qed.

Lemma class_loss log2 criterion labels : classifies_by log2 criterion → ∀ y, y ≠ [] →
  classification_loss log2 criterion labels y =
  Ok (class_impurity log2 criterion labels y, mode_label y labels).
Proof.
  intros H y Hy. unfold classification_loss, class_impurity. destruct y as [|v y]; [done|].
  destruct H as [->|[-> _]]; done.
Qed.

Lemma class_perm log2 criterion labels y y' : y ≡ₚ y' →
  class_impurity log2 criterion labels y = class_impurity log2 criterion labels y'.
Proof. intros H. unfold class_impurity. by rewrite (gini_perm y y'), (entropy_perm log2 y y'). Qed.

Lemma class_numeric log2 criterion labels (pts : list (sample * Z)) : classifies_by log2 criterion →
  (Z.of_nat (length pts) <= 2 ^ 53)%Z → numeric (class_impurity log2 criterion labels) pts.
Proof.
  intros H Hl s Hne _ Hs. assert (map snd s ≠ []) as Hne' by (by destruct s).
  unfold class_impurity. destruct H as [->|[-> Hlog]].
  - apply gini_number; [done|]. rewrite map_length. lia.
  - apply entropy_number; [done|done|]. rewrite map_length. lia.
Qed.

Lemma regr_loss criterion : criterion = "mae" ∨ criterion = "mse" → ∀ y, y ≠ [] →
  regression_loss criterion y = Ok (regression_impurity criterion y, average y).
Proof. intros [->| ->] y _; done. Qed.

Lemma regr_numeric criterion (pts : list (sample * binary64)) :
  (Z.of_nat (length pts) <= 2 ^ 53)%Z → (∀ p, p ∈ pts → fin p.2 = true) →
  numeric (regression_impurity criterion) pts.
Proof.
  intros Hl Hf s Hne Hs Hsl. assert (map snd s ≠ []) as Hne' by (by destruct s).
  apply regression_number; [done|rewrite map_length; lia|].
  apply Forall_forall. intros v Hv. apply elem_of_list_fmap in Hv as (p & -> & Hp). by apply Hf, Hs.
Qed.

Lemma create_split_any {L} (pts : list (sample * L)) i t : (∀ p, p ∈ pts → i < length p.1) →
  create_split pts i t = Ok (low i t pts, high i t pts).
Proof.
  induction pts as [|p s IH]; intros Hn; [done|]. cbn [create_split].
  destruct (lookup_lt_is_Some_2 p.1 i) as [x Hx]; [apply Hn; left|]. unfold idx. rewrite Hx. cbn [mbind res_bind].
  rewrite IH by (intros q Hq; apply Hn; by right). cbn [mbind res_bind fst snd].
  assert (below i t p.1 = float_lt x t) as Hb by (unfold below; by rewrite Hx).
  unfold low, high. destruct (float_lt x t); cbn [fst snd].
  - rewrite filter_cons_True by done. by rewrite filter_cons_False by congruence.
  - rewrite filter_cons_False by congruence. by rewrite filter_cons_True by done.
Qed.

Lemma predict_all_reads {L} (t : cnode L) feat n :
  (∀ r, r < n → ∃ l, predict_single t (feat r) = Ok l) →
  ∃ ls, predict_all t (map feat (seq 0 n)) = Ok ls ∧ length ls = n ∧
    ∀ r, r < n → ∃ l, ls !! r = Some l ∧ predict_single t (feat r) = Ok l.
Proof.
  intros H. unfold predict_all.
  assert (∀ k, k ≤ n → ∃ ls, res_mapM (predict_single t) (map feat (seq (n - k) k)) = Ok ls ∧ length ls = k ∧
    ∀ r, r < k → ∃ l, ls !! r = Some l ∧ predict_single t (feat (n - k + r)) = Ok l) as Hk.
  { induction k as [|k IH]; intros Hk.
    - exists []. split; [done|]. split; [done|]. intros r Hr. lia.
    - destruct IH as (ls & E & Hl & Hls); [lia|]. destruct (H (n - S k)) as (l & Hp); [lia|].
      exists (l :: ls). cbn [seq map res_mapM]. rewrite Hp. cbn [mbind res_bind].
      replace (S (n - S k)) with (n - k) by lia. rewrite E. split; [done|]. split; [cbn; lia|].
      intros [|r] Hr; [exists l; rewrite Nat.add_0_r; done|].
      destruct (Hls r) as (l' & H1 & H2); [lia|]. exists l'. split; [done|].
      replace (n - S k + S r) with (n - k + r) by lia. done. }
  destruct (Hk n) as (ls & E & Hl & Hls); [lia|]. rewrite Nat.sub_diag in E, Hls. exists ls. done.
Qed.

(** Every test in the tree reads one of [w] features. *)
Fixpoint features_below {L} (w : nat) (t : cnode L) : Prop :=
  match t with
  | CNode l r _ i _ _ _ => i < w ∧
      match l with None => True | Some t => features_below w t end ∧
      match r with None => True | Some t => features_below w t end
  end.

Lemma predict_features {L} w (t : cnode L) x : features_below w t → length x = w →
  ∃ l, predict_single t x = Ok l.
Proof.
  induction t as [l r u i ll rl n IHl IHr] using cnode_ind'. intros (Hi & Hl & Hr) Hx.
  cbn [predict_single]. destruct (lookup_lt_is_Some_2 x i) as [v Hv]; [lia|]. unfold idx. rewrite Hv.
  cbn [mbind res_bind]. destruct (float_lt v u).
  - destruct l as [t|]; [by apply IHl|by eexists].
  - destruct r as [t|]; [by apply IHr|by eexists].
Qed.

Lemma asc_high_sub {L} i t (s : list (sample * L)) : asc i s → asc i (high i t s).
Proof.
  unfold asc, high. induction 1 as [|p s Hs IH Hf]; [constructor|]. rewrite filter_cons.
  case_decide; [|done]. constructor; [done|]. apply Forall_forall. intros q Hq.
  apply elem_of_list_filter in Hq as [_ Hq]. rewrite Forall_forall in Hf. by apply Hf.
Qed.

Lemma next_split {L} (pts : list (sample * L)) i t u : numbers i pts → asc i pts →
  fnan t = false → fnan u = false → float_lt u t = false → high i u pts ≠ [] →
  update_split (low i t pts) (high i t pts) i u = Ok (low i u pts, high i u pts).
Proof.
  intros Hn Ha Nt Nu Htu Hh. destruct (low_step i t u pts Ha Hn) as [H1 H2].
  { intros p Hp. destruct (Hn p Hp) as (x & Hx & Nx). unfold below. rewrite Hx. intros Hb.
    apply lt_spec in Hb as (_ & _ & Hb). apply lt_spec. split; [done|]. split; [done|].
    pose proof (proj1 (lt_false _ _) Htu Nu Nt). lia. }
  rewrite update_split_spec; [by rewrite H1, H2|by apply asc_high_sub| |by rewrite H2].
  intros p Hp. apply high_in in Hp as [_ Hp]. by apply Hn.
Qed.

(** ** Fitting *)

Section classifier.
  Context (fsort : list binary64 → list binary64) (order : list binary64 → list nat)
    (log2 : binary64 → binary64) (criterion : string) (labels : list Z) (md : Z) (g : grid)
    (feat : nat → sample) (label : nat → binary64) (w fuel : nat).
  Hypotheses (Hfs : sorts fsort) (Hord : sorts_positions order) (Hcr : classifies_by log2 criterion)
    (Hg : holds_samples g feat label) (Hpos : 0 < (gr_size g).2)
    (Hmax : (Z.of_nat (gr_size g).2 <= 2 ^ 53)%Z).
  Notation pts := (samples_of g feat (int_label label)).
  Notation imp := (class_impurity log2 criterion labels).
  Notation fit := (classifier_fit fsort order log2 fuel criterion md labels g).
  Hypotheses (Hap : apart w pts).

  Lemma classifier_numeric : numeric imp pts.
  Proof using Hcr Hmax. apply class_numeric; [done|]. by rewrite samples_length. Qed.

  Lemma classifier_fits : (gr_size g).2 < fuel → ∃ t, fit = Ok t.
  Proof using Hfs Hord Hcr Hg Hpos Hmax Hap.
    intros Hf. rewrite (classifier_fit_reads _ _ _ _ _ _ _ _ feat label) by done.
    apply (grow_ends _ _ _ _ imp (λ y, mode_label y labels)) with w; try done.
    - by apply class_loss.
    - by apply samples_nonempty.
    - apply classifier_numeric.
    - by rewrite samples_length.
  Qed.

  Lemma classifier_root t : some_depth md → fit = Ok t → (cn_needed t = true ↔ ∃ i u, useful imp pts i u).
  Proof using Hfs Hord Hcr Hg Hpos Hmax Hap.
    intros Hmd Ht. rewrite (classifier_fit_reads _ _ _ _ _ _ _ _ feat label) in Ht by done.
    apply (root_split 0%Z fsort order (classification_loss log2 criterion labels) imp (λ y, mode_label y labels)
      Hfs Hord (class_loss _ _ _ Hcr) (class_perm _ _ _) w fuel pts md t Hap); [|apply classifier_numeric|done..].
    by apply samples_nonempty.
  Qed.

  Lemma classifier_labels : (∀ r, r < (gr_size g).2 → int_label label r ∈ labels) →
    some_depth md → (gr_size g).2 < fuel → (∃ i u, useful imp pts i u) →
    ∃ t, fit = Ok t ∧ ∀ x, length x = w → ∃ l, predict_single t x = Ok l ∧ most_frequent (same_way t x pts) l.
  Proof using Hfs Hord Hcr Hg Hpos Hmax Hap.
    intros Hcov Hmd Hf Hu. destruct (classifier_fits Hf) as [t Ht]. exists t. split; [done|]. intros x Hx.
    apply (classifier_root t Hmd Ht) in Hu.
    rewrite (classifier_fit_reads _ _ _ _ _ _ _ _ feat label) in Ht by done.
    destruct (predict_groups 0%Z fsort order (classification_loss log2 criterion labels) imp
      (λ y, mode_label y labels) Hfs Hord (class_loss _ _ _ Hcr) w fuel [] pts md 0 t x) as (grp & Hp & Hne & Hl);
      [done|by apply samples_nonempty|apply classifier_numeric|done..|].
    eexists. split; [exact Hl|]. eapply most_frequent_perm; [apply Permutation_map, Hp|].
    apply mode_most_frequent; [by destruct grp|]. intros v Hv.
    apply elem_of_list_fmap in Hv as (p & -> & Hin). rewrite Hp in Hin.
    apply elem_of_list_filter in Hin as [_ Hin]. apply samples_in in Hin as (r & Hr & ->). by apply Hcov.
  Qed.

  Lemma classifier_zero : some_depth md → (gr_size g).2 < fuel → ¬ (∃ i u, useful imp pts i u) →
    ∃ t, fit = Ok t ∧
      ∀ x v, x !! 0 = Some v → float_lt v float_zero = false → predict_single t x = Ok 0%Z.
  Proof using Hfs Hord Hcr Hg Hpos Hmax Hap.
    intros Hmd Hf Hu. destruct (classifier_fits Hf) as [t Ht]. exists t. split; [done|]. intros x v Hx Hv.
    pose proof (classifier_root t Hmd Ht) as Hr.
    rewrite (classifier_fit_reads _ _ _ _ _ _ _ _ feat label) in Ht by done.
    apply (root_none _ _ _ _ imp (λ y, mode_label y labels) Hfs Hord (class_loss _ _ _ Hcr) w) in Ht as ->;
      [|done|by apply samples_nonempty|apply classifier_numeric|done|apply not_true_iff_false; tauto].
    cbn [predict_single]. unfold idx. rewrite Hx. cbn [mbind res_bind]. by rewrite Hv.
  Qed.

  Lemma classifier_best t : fit = Ok t → cn_needed t = true → best_everywhere imp t pts.
  Proof using Hfs Hord Hcr Hg Hpos Hmax Hap.
    intros Ht Hn. rewrite (classifier_fit_reads _ _ _ _ _ _ _ _ feat label) in Ht by done.
    apply (grow_best 0%Z fsort order (classification_loss log2 criterion labels) imp (λ y, mode_label y labels)
      Hfs Hord (class_loss _ _ _ Hcr) (class_perm _ _ _) w fuel [] pts md 0 t Hap);
      [by apply samples_nonempty|apply classifier_numeric| |done..].
    - intros i u Hi. by apply elem_of_nil in Hi.
  Qed.
End classifier.

Section regressor.
  Context (fsort : list binary64 → list binary64) (order : list binary64 → list nat)
    (criterion : string) (md : Z) (g : grid)
    (feat : nat → sample) (label : nat → binary64) (w fuel : nat).
  Hypotheses (Hfs : sorts fsort) (Hord : sorts_positions order) (Hcr : criterion = "mae" ∨ criterion = "mse")
    (Hg : holds_samples g feat label) (Hpos : 0 < (gr_size g).2)
    (Hmax : (Z.of_nat (gr_size g).2 <= 2 ^ 53)%Z).
  Notation pts := (samples_of g feat label).
  Notation imp := (regression_impurity criterion).
  Notation fit := (regressor_fit fsort order fuel criterion md g).
  Hypotheses (Hap : apart w pts) (Hfin : ∀ r, r < (gr_size g).2 → is_finite 53 1024 (label r) = true).

  Lemma regressor_numeric : numeric imp pts.
  Proof using Hfin Hmax.
    apply regr_numeric; [by rewrite samples_length|]. intros p Hp.
    apply samples_in in Hp as (r & Hr & ->). by apply Hfin.
  Qed.

  Lemma regressor_fits : (gr_size g).2 < fuel → ∃ t, fit = Ok t.
  Proof using Hfs Hord Hcr Hg Hpos Hmax Hap Hfin.
    intros Hf. rewrite (regressor_fit_reads _ _ _ _ _ _ feat label) by done.
    apply (grow_ends _ _ _ _ imp average) with w; try done.
    - by apply regr_loss.
    - by apply samples_nonempty.
    - apply regressor_numeric.
    - by rewrite samples_length.
  Qed.

  Lemma regressor_means t : fit = Ok t → cn_needed t = true →
    ∀ x, length x = w → ∃ l ys, predict_single t x = Ok l ∧ ys ≡ₚ same_way t x pts ∧ ys ≠ [] ∧ l = average ys.
  Proof using Hfs Hord Hcr Hg Hpos Hmax Hap Hfin.
    intros Ht Hn x Hx. rewrite (regressor_fit_reads _ _ _ _ _ _ feat label) in Ht by done.
    destruct (predict_groups float_zero fsort order (regression_loss criterion) imp average
      Hfs Hord (regr_loss _ Hcr) w fuel [] pts md 0 t x) as (grp & Hp & Hne & Hl);
      [done|by apply samples_nonempty|apply regressor_numeric|done..|].
    exists (average (map snd grp)), (map snd grp). split; [exact Hl|].
    split; [by apply Permutation_map|]. split; [by destruct grp|done].
  Qed.

  Lemma regressor_zero t : some_depth md → fit = Ok t → cn_needed t = false →
    ∀ x v, x !! 0 = Some v → float_lt v float_zero = false → predict_single t x = Ok float_zero.
  Proof using Hfs Hord Hcr Hg Hpos Hmax Hap Hfin.
    intros Hmd Ht Hn x v Hx Hv. rewrite (regressor_fit_reads _ _ _ _ _ _ feat label) in Ht by done.
    apply (root_none _ _ _ _ imp average Hfs Hord (regr_loss _ Hcr) w) in Ht as ->;
      [|done|by apply samples_nonempty|apply regressor_numeric|done|done].
    cbn [predict_single]. unfold idx. rewrite Hx. cbn [mbind res_bind]. by rewrite Hv.
  Qed.
End regressor.

Lemma evaluate_counts (t : cnode Z) g feat label (p : nat → Z) :
  holds_samples g feat label → (∀ r, r < (gr_size g).2 → predict_single t (feat r) = Ok (p r)) →
  classifier_evaluate t g =
    Ok (length (filter (λ r, p r = int_label label r) (seq 0 (gr_size g).2)), (gr_size g).2).
Proof.
  intros Hg Hp. unfold classifier_evaluate.
  rewrite (problem_vec_reads g feat (proj1 Hg)), (int_label_vec_reads g feat label Hg). cbn [mbind res_bind].
  assert (predict_all t (map feat (seq 0 (gr_size g).2)) = Ok (map p (seq 0 (gr_size g).2))) as ->.
  { unfold predict_all.
    assert (∀ l, (∀ r, r ∈ l → r < (gr_size g).2) → res_mapM (predict_single t) (map feat l) = Ok (map p l)) as H.
    { induction l as [|r l IH]; intros Hl; [done|]. cbn [map res_mapM]. rewrite Hp by (apply Hl; left).
      cbn [mbind res_bind]. rewrite IH; [done|]. intros r' Hr'. apply Hl. by right. }
    apply H. intros r Hr. apply elem_of_seq in Hr. lia. }
  cbn [mbind res_bind]. rewrite map_length, seq_length, zip_map. f_equal. f_equal.
  generalize (seq 0 (gr_size g).2). intros l. induction l as [|r l IH]; [done|]. cbn [map].
  rewrite !filter_cons. cbn [fst snd]. change (int_of_float (label r)) with (int_label label r).
  destruct (decide (p r = int_label label r)); cbn [length]; by rewrite IH.
Qed.

Lemma predict_rows {L} (t : cnode L) g feat (p : nat → L) :
  holds_features g feat → (∀ r, r < (gr_size g).2 → predict_single t (feat r) = Ok (p r)) →
  cart_predict t g = Ok (map p (seq 0 (gr_size g).2)).
Proof.
  intros Hg Hp. unfold cart_predict. rewrite (problem_vec_reads g feat Hg). cbn [mbind res_bind]. unfold predict_all.
  assert (∀ l, (∀ r, r ∈ l → r < (gr_size g).2) → res_mapM (predict_single t) (map feat l) = Ok (map p l)) as H.
  { induction l as [|r l IH]; intros Hl; [done|]. cbn [map res_mapM]. rewrite Hp by (apply Hl; left).
    cbn [mbind res_bind]. rewrite IH; [done|]. intros r' Hr'. apply Hl. by right. }
  apply H. intros r Hr. apply elem_of_seq in Hr. lia.
Qed.

Lemma classifier_depth fsort order log2 criterion labels md g fuel t :
  (1 <= md)%Z → classifier_fit fsort order log2 fuel criterion md labels g = Ok t →
  (Z.of_nat (height t) <= md)%Z.
Proof.
  intros Hmd Ht. apply bind_Ok in Ht as (data & _ & Ht). apply bind_Ok in Ht as (y & _ & Ht).
  apply height_bound in Ht as [[_ H]|[H _]]; lia.
Qed.

Lemma regressor_depth fsort order criterion md g fuel t :
  (1 <= md)%Z → regressor_fit fsort order fuel criterion md g = Ok t → (Z.of_nat (height t) <= md)%Z.
Proof.
  intros Hmd Ht. apply bind_Ok in Ht as (data & _ & Ht). apply bind_Ok in Ht as (y & _ & Ht).
  apply height_bound in Ht as [[_ H]|[H _]]; lia.
Qed.

Lemma label_vec_refuses g : (∀ name prec, gr_class_attrs g ≠ [FloatA name prec]) →
  label_vec g = Err ∧ int_label_vec g = Err.
Proof.
  intros H. assert (label_vec g = Err) as E.
  { unfold label_vec. destruct (gr_class_attrs g) as [|[n p|n vs|n] [|b l]]; try done. by destruct (H n p). }
  split; [done|]. unfold int_label_vec. by rewrite E.
Qed.
