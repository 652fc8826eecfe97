(** Proofs about isolation forests: thresholds lie between the values of the feature. *)
From Coq Require Import Reals Psatz.
From Verif Require Import Prelude FloatModel FloatOrder AttrModel StoreModel DenseModel DenseProofs GridModel GridSpec
  GridProofs FilterModel KnnModel Id3Model RuleModel RuleProofs RuleRefs CartModel CartSpec CartProofs CartGrow CartFit
  GiniProofs IsoModel IsoSpec IsoProofs IsoScore.
From Flocq Require Import Core.Core IEEE754.BinarySingleNaN IEEE754.Bits IEEE754.Binary.
Local Open Scope nat_scope.

Notation fexp64 := (SpecFloat.fexp 53 1024).
Notation format := (generic_format radix2 fexp64).

Lemma pred_gap d : (bpow radix2 (-1000) <= d)%R → format d →
  (d - d * bpow radix2 (-53) < (pred radix2 fexp64 d + d) / 2)%R.
Proof.
  intros Hd Hf. assert (0 < d)%R as Hp by (pose proof (bpow_gt_0 radix2 (-1000)); lra).
  rewrite pred_eq_pos by lra. unfold pred_pos.
  destruct (mag radix2 d) as [e He]. cbn [mag_val]. specialize (He ltac:(lra)). rewrite Rabs_pos_eq in He by lra.
  assert (-1000 < e)%Z as Hel.
  { apply (lt_bpow radix2). lra. }
  assert (∀ k, (-1001 <= k)%Z → fexp64 k = (k - 53)%Z) as Hfe.
  { intros k Hk. unfold SpecFloat.fexp, SpecFloat.emin. lia. }
  assert (0 < bpow radix2 (-53))%R as Hb by apply bpow_gt_0.
  case Req_bool_spec; intros E.
  - rewrite Hfe by lia.
    assert (bpow radix2 (e - 1 - 53) = d * bpow radix2 (-53))%R as -> by (rewrite E, <- bpow_plus; f_equal; lia).
    assert (0 < d * bpow radix2 (-53))%R by (by apply Rmult_lt_0_compat). lra.
  - rewrite ulp_neq_0 by lra. unfold cexp. rewrite (mag_unique_pos radix2 d e) by lra. rewrite Hfe by lia.
    assert (bpow radix2 (e - 1) * bpow radix2 (-53) < d * bpow radix2 (-53))%R as H by (apply Rmult_lt_compat_r; lra).
    rewrite <- bpow_plus in H. replace (e - 53)%Z with (1 + (e - 1 + -53))%Z by lia.
    rewrite bpow_plus. change (bpow radix2 1) with 2%R. lra.
Qed.

Lemma below_one r : fin r = true → (val r < 1)%R → (val r <= 1 - bpow radix2 (-53))%R.
Proof.
  intros F H.
  assert (val r <= pred radix2 fexp64 1)%R as Hr.
  { apply pred_ge_gt; [apply _|apply generic_format_B2R| |done]. apply (format_pow 0). lia. }
  rewrite pred_eq_pos in Hr by lra. unfold pred_pos in Hr.
  rewrite (mag_unique_pos radix2 1 1) in Hr.
  2:{ change (bpow radix2 (1 - 1)) with 1%R. change (bpow radix2 1) with 2%R. lra. }
  change (bpow radix2 (1 - 1)) with 1%R in Hr. rewrite Req_bool_true in Hr by done. exact Hr.
Qed.

Lemma round_above_pred x : (0 < x)%R → (0 < rnd x)%R → (pred radix2 fexp64 (rnd x) <= x)%R.
Proof.
  intros Hx Hr. apply Rnot_lt_le. intros H.
  assert (format (rnd x)) as Hf by (apply generic_format_round; [apply _|apply valid_rnd_N]).
  assert (pred radix2 fexp64 (rnd x) < rnd x)%R as Hp by (apply pred_lt_id; lra).
  assert (rnd x <= pred radix2 fexp64 (rnd x))%R as Hle; [|lra].
  apply round_le_generic; [apply _|apply valid_rnd_N|apply generic_format_pred; [apply _|done]|lra].
Qed.

(** Scaling a difference by a number below 1 keeps it below the exact difference. *)
Lemma scaled r d : fin r = true → (0 <= val r < 1)%R → (bpow radix2 (-900) <= d)%R →
  (0 <= rnd (val r * rnd d) <= d)%R.
Proof.
  intros F Hr Hd. assert (bpow radix2 (-900) <= rnd d)%R as Hrd.
  { apply round_ge_generic; [apply _|apply valid_rnd_N|apply generic_format_bpow; unfold SpecFloat.fexp, SpecFloat.emin; lia|done]. }
  assert (0 < bpow radix2 (-900))%R as Hb by apply bpow_gt_0.
  assert (bpow radix2 (-1000) <= bpow radix2 (-900))%R as Hbb by (apply bpow_le; lia).
  split.
  - apply round_ge_generic; [apply _|apply valid_rnd_N|apply generic_format_0|]. apply Rmult_le_pos; lra.
  - eapply Rle_trans; [|apply round_above_pred; lra].
    apply round_N_le_midp; [apply _|apply generic_format_pred; [apply _|apply generic_format_round; [apply _|apply valid_rnd_N]]|].
    rewrite succ_pred; [|apply _|apply generic_format_round; [apply _|apply valid_rnd_N]].
    eapply Rle_lt_trans; [|apply pred_gap; [lra|apply generic_format_round; [apply _|apply valid_rnd_N]]].
    pose proof (below_one r F ltac:(lra)) as H1.
    replace (rnd d - rnd d * bpow radix2 (-53))%R with ((1 - bpow radix2 (-53)) * rnd d)%R by lra.
    apply Rmult_le_compat_r; lra.
Qed.

Lemma millionth_val : fin float_millionth = true ∧ (999 / 1000000000 <= val float_millionth <= 1001 / 1000000000)%R.
Proof.
  split; [done|].
  assert (val float_millionth = F2R (Float radix2 4722366482869645 (-72))) as ->.
  { unfold float_millionth. vm_compute (b64_of_bits _). reflexivity. }
  unfold F2R. cbn [Fnum Fexp]. change (-72)%Z with (- (72))%Z. rewrite bpow_opp, <- (IZR_Zpower radix2) by lia.
  change (radix2 ^ 72)%Z with 4722366482869645213696%Z. lra.
Qed.

Lemma eq_val x y : fin x = true → fin y = true → (float_eq x y = true ↔ val x = val y).
Proof.
  intros Hx Hy. unfold float_eq. rewrite Bcompare_correct by done.
  destruct (Rcompare_spec (val x) (val y)); split; try done; lra.
Qed.
Lemma lt_val x y : fin x = true → fin y = true → (float_lt x y = true ↔ (val x < val y)%R).
Proof.
  intros Hx Hy. unfold float_lt. rewrite Bcompare_correct by done.
  destruct (Rcompare_spec (val x) (val y)); split; try done; lra.
Qed.

Lemma pow30 : (2 ^ 30 = IZR (2 ^ 30))%R.
Proof. rewrite (pow_IZR 2%Z 30). reflexivity. Qed.

Lemma select_inside r a b : unit_draw r → fin a = true → fin b = true →
  (Rabs (val a) <= 2 ^ 30)%R → (Rabs (val b) <= 2 ^ 30)%R → (2 / 1000000 <= val b - val a)%R →
  float_le a (select_value r a b) = true ∧ float_lt (select_value r a b) b = true.
Proof.
  intros [Fr Vr] Fa Fb Va Vb Hd. rewrite pow30 in Va, Vb. change (2 ^ 30)%Z with 1073741824%Z in *.
  apply Rabs_le_inv in Va, Vb. unfold select_value.
  set (d := b64_minus mode_NE b a).
  assert (fin d = true ∧ val d = rnd (val b - val a)) as [Fd Vd].
  { unfold d, b64_minus. pose proof (Bminus_correct 53 1024 eq_refl eq_refl binop_nan_pl64 mode_NE b a Fb Fa) as H.
    cbn [round_mode] in H. rewrite (small_bound 0 4294967296) in H; [|lia|lia|lra]. by destruct H as (H & H' & _). }
  assert (bpow radix2 (-900) <= val b - val a)%R as Hs.
  { apply Rle_trans with (bpow radix2 (-20)); [apply bpow_le; lia|]. change (bpow radix2 (-20)) with (/ 1048576)%R. lra. }
  pose proof (scaled r (val b - val a) Fr Vr Hs) as Hm. rewrite <- Vd in Hm.
  assert (0 <= val r * val d <= 4294967296)%R as Hrd.
  { assert (0 <= val d <= 4294967296)%R as Hvd.
    { rewrite Vd. apply (rnd_between 0 4294967296); [lia|lia|lra]. }
    split; [apply Rmult_le_pos; lra|]. apply Rle_trans with (1 * val d)%R; [apply Rmult_le_compat_r; lra|lra]. }
  set (m := b64_mult mode_NE r d).
  assert (fin m = true ∧ val m = rnd (val r * val d)) as [Fm Vm].
  { unfold m, b64_mult. pose proof (Bmult_correct 53 1024 eq_refl eq_refl binop_nan_pl64 mode_NE r d) as H.
    cbn [round_mode] in H. rewrite (small_bound 0 4294967296) in H; [|lia|lia|lra]. destruct H as (H & H' & _).
    split; [by rewrite H', Fr, Fd|done]. }
  rewrite <- Vm in Hm.
  set (v := b64_plus mode_NE a m).
  assert (fin v = true ∧ (val a <= val v <= val b)%R) as [Fv Vv].
  { unfold v, b64_plus. pose proof (Bplus_correct 53 1024 eq_refl eq_refl binop_nan_pl64 mode_NE a m Fa Fm) as H.
    cbn [round_mode] in H. rewrite (small_bound (-1073741824) 1073741824) in H; [|lia|lia|lra].
    destruct H as (H & H' & _). split; [done|]. rewrite H. split.
    - apply round_ge_generic; [apply _|apply valid_rnd_N|apply generic_format_B2R|lra].
    - apply round_le_generic; [apply _|apply valid_rnd_N|apply generic_format_B2R|lra]. }
  destruct millionth_val as [Fe Ve].
  assert (∀ x, (Rabs x <= 1073741826)%R → (Rabs (rnd x - x) <= / 4000000)%R) as Herr.
  { intros x Hx. eapply Rle_trans; [apply (rnd_error 31%Z); [lia|]|].
    - change (bpow radix2 31) with 2147483648%R. lra.
    - rewrite <- bpow_plus. change (bpow radix2 (31 + -53)) with (/ 4194304)%R. lra. }
  destruct (float_eq v a) eqn:E1.
  - apply eq_val in E1; [|done|done].
    assert (fin (b64_plus mode_NE v float_millionth) = true ∧
      val (b64_plus mode_NE v float_millionth) = rnd (val v + val float_millionth)) as [F V].
    { unfold b64_plus. pose proof (Bplus_correct 53 1024 eq_refl eq_refl binop_nan_pl64 mode_NE v float_millionth Fv Fe) as H.
      cbn [round_mode] in H. rewrite (small_bound (-1073741825) 1073741825) in H; [|lia|lia|lra].
      by destruct H as (H & H' & _). }
    pose proof (Herr (val v + val float_millionth)%R ltac:(apply Rabs_le; lra)) as He. apply Rabs_le_inv in He.
    split; [apply le_val; [done|done|lra]|apply lt_val; [done|done|lra]].
  - destruct (float_eq v b) eqn:E2.
    + apply eq_val in E2; [|done|done].
      assert (fin (b64_minus mode_NE v float_millionth) = true ∧
        val (b64_minus mode_NE v float_millionth) = rnd (val v - val float_millionth)) as [F V].
      { unfold b64_minus. pose proof (Bminus_correct 53 1024 eq_refl eq_refl binop_nan_pl64 mode_NE v float_millionth Fv Fe) as H.
        cbn [round_mode] in H. rewrite (small_bound (-1073741825) 1073741825) in H; [|lia|lia|lra].
        by destruct H as (H & H' & _). }
      pose proof (Herr (val v - val float_millionth)%R ltac:(apply Rabs_le; lra)) as He. apply Rabs_le_inv in He.
      split; [apply le_val; [done|done|lra]|apply lt_val; [done|done|lra]].
    + assert (val v ≠ val b) as Hne.
      { intros E. apply eq_val in E; [|done|done]. by rewrite E in E2. }
      split; [apply le_val; [done|done|lra]|apply lt_val; [done|done|lra]].
Qed.

Lemma fin_not_nan x : fin x = true → fnan x = false.
Proof. by destruct x. Qed.

Lemma well_spaced_no_nan data i x : well_spaced data → x ∈ data → i < length x → ∃ v, x !! i = Some v ∧ fnan v = false.
Proof.
  intros Hs Hx Hi. destruct (lookup_lt_is_Some_2 x i Hi) as [v Hv]. exists v. split; [done|].
  destruct (Hs x x i v v Hx Hx Hv Hv) as (F & _). by apply fin_not_nan.
Qed.

Lemma spaced_sides data i a b r : well_spaced data → (∀ x, x ∈ data → i < length x) → data ≠ [] →
  min_max i data = Ok (a, b) → float_eq a b = false → unit_draw r →
  lows i (select_value r a b) data ≠ [] ∧ highs i (select_value r a b) data ≠ [].
Proof.
  intros Hs Hi Hne Hmm Hab Hr.
  assert (∀ x, x ∈ data → ∃ v, x !! i = Some v ∧ fnan v = false) as Hn.
  { intros x Hx. by eapply well_spaced_no_nan; eauto. }
  destruct (min_max_fold i data (float_inf, float_neg_inf) Hn) as ([a' b'] & H & N1 & N2 & _ & _ & Hran & Ha & Hb); [done|done|].
  unfold min_max in Hmm. rewrite Hmm in H. injection H as <- <-. cbn [fst snd] in *.
  assert (∃ x0 v0, x0 ∈ data ∧ x0 !! i = Some v0 ∧ fin v0 = true) as (x0 & v0 & Hx0 & Hv0 & F0).
  { destruct data as [|x data]; [done|]. destruct (Hn x) as (v & Hv & _); [left|]. exists x, v. split; [left|]. split; [done|].
    by destruct (Hs x x i v v ltac:(left) ltac:(left) Hv Hv) as (F & _). }
  pose proof (Hran x0 v0 Hx0 Hv0) as Hr0.
  assert (∃ x, x ∈ data ∧ x !! i = Some a) as (x & Hx & Hxa).
  { destruct Ha as [->|Ha]; [|done]. exfalso.
    assert (float_lt v0 float_inf = true) as Hlt by (destruct v0 as [s|s|s pl Hpl|s m e He]; try done; by destruct s).
    apply lt_spec in Hlt as (_ & _ & Hlt). lia. }
  assert (∃ x, x ∈ data ∧ x !! i = Some b) as (y & Hy & Hyb).
  { destruct Hb as [->|Hb]; [|done]. exfalso.
    assert (float_lt float_neg_inf v0 = true) as Hlt by (destruct v0 as [s|s|s pl Hpl|s m e He]; try done; by destruct s).
    apply lt_spec in Hlt as (_ & _ & Hlt). lia. }
  destruct (Hs y x i b a Hy Hx Hyb Hxa) as (Fb & Vb & Hd).
  destruct (Hs x y i a b Hx Hy Hxa Hyb) as (Fa & Va & _).
  assert (val a <= val b)%R as Hle.
  { apply le_val; [done|done|]. apply le_spec. split; [done|]. split; [done|lia]. }
  assert (2 / 1000000 <= val b - val a)%R as Hgap.
  { destruct Hd as [E|Hd].
    - symmetry in E. apply eq_val in E; [|done|done]. by rewrite E in Hab.
    - rewrite Rabs_pos_eq in Hd by lra. done. }
  destruct (select_inside r a b Hr Fa Fb Va Vb Hgap) as [H1 H2].
  eapply sides_nonempty; [exact Hmm|done|done|done|done].
Qed.

Lemma spaced_sub data data' : (∀ x, x ∈ data' → x ∈ data) → well_spaced data → well_spaced data'.
Proof. intros Hsub Hs x y i u v Hx Hy. apply Hs; by apply Hsub. Qed.

Lemma sum_list_app_nat (l k : list nat) : sum_list (l ++ k) = sum_list l + sum_list k.
Proof. induction l as [|x l IH]; [done|]. cbn. rewrite IH. lia. Qed.

Lemma leaves_positive draw rand tries md fuel path data depth t :
  (∀ p k, unit_draw (rand p k)) → well_spaced data →
  build_tree draw rand fuel tries path data depth md = Ok t →
  cn_needed t = true → ∃ ns, leaf_sizes t = map float_of_nat ns ∧ Forall (λ n, 1 ≤ n) ns ∧ sum_list ns = length data.
Proof.
  intros Hrand. revert path data depth t. induction fuel as [|fuel IH]; intros path data depth t Hs Ht Hn; [done|].
  apply build_inv in Ht as [[-> _]|(Hlen & Hd & _ & i & u & l & r & Hp & Hw & Hl & Hr & ->)]; [done|].
  apply pick_inv in Hp as (k & a & b & _ & Hmm & Hab & ->).
  assert (data ≠ []) as Hne by (intros ->; cbn in Hlen; lia).
  pose proof (spaced_sides data i a b (rand path k) Hs Hw Hne Hmm Hab (Hrand _ _)) as [N1 N2].
  set (u := select_value (rand path k) a b) in *.
  cbn [leaf_sizes].
  pose proof (IH _ _ _ _ (spaced_sub _ _ (lows_in i u data) Hs) Hl) as Bl.
  pose proof (IH _ _ _ _ (spaced_sub _ _ (highs_in i u data) Hs) Hr) as Br.
  assert (∀ (s : list sample) (c : cnode binary64), s ≠ [] → (cn_needed c = true → ∃ ns, leaf_sizes c = map float_of_nat ns ∧ Forall (λ n, 1 ≤ n) ns ∧ sum_list ns = length s) →
    ∃ ns, match (if cn_needed c then Some c else None) with None => [float_of_nat (length s)] | Some t => leaf_sizes t end = map float_of_nat ns ∧
      Forall (λ n, 1 ≤ n) ns ∧ sum_list ns = length s) as Hside.
  { clear. intros s c Hs H. destruct (cn_needed c); [by apply H|]. exists [length s]. split; [done|].
    split; [|cbn; lia]. constructor; [|done]. destruct s; [done|cbn; lia]. }
  destruct (Hside _ l N1 Bl) as (n1 & -> & P1 & S1). destruct (Hside _ r N2 Br) as (n2 & -> & P2 & S2).
  exists (n1 ++ n2). split; [by rewrite map_app|]. split; [by apply Forall_app|].
  rewrite sum_list_app_nat, S1, S2. apply lows_highs.
Qed.
