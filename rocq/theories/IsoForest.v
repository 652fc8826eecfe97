(** Proofs about isolation forests: whole forests, and oracles as the theorems want them. *)
From Coq Require Import Reals Psatz.
From Verif Require Import Prelude FloatModel FloatOrder AttrModel StoreModel DenseModel DenseProofs GridModel GridSpec
  GridProofs FilterModel KnnModel Id3Model RuleModel RuleProofs RuleRefs CartModel CartSpec CartProofs CartGrow CartFit
  GiniProofs IsoModel IsoSpec IsoProofs IsoScore IsoSplit.
From Flocq Require Import Core.Core IEEE754.BinarySingleNaN IEEE754.Bits IEEE754.Binary.
Local Open Scope nat_scope.

Lemma zip_append feat label l :
  zip_with (λ (x : sample) c, x ++ [c]) (map feat l) (map label l) = map (whole feat label) l.
Proof. induction l as [|x l IH]; [done|]. cbn [map zip_with]. f_equal. exact IH. Qed.

Lemma preprocess_reads g feat label : holds_samples g feat label →
  preprocess g = Ok (map (whole feat label) (seq 0 (gr_size g).2)).
Proof.
  intros H. unfold preprocess. rewrite (problem_vec_reads g feat (proj1 H)), (label_vec_reads g feat label H).
  cbn [mbind res_bind]. by rewrite zip_append.
Qed.

Lemma preprocess_panics g feat : holds_features g feat →
  (∀ name prec, gr_class_attrs g ≠ [FloatA name prec]) → preprocess g = Panic.
Proof.
  intros Hf H. unfold preprocess. rewrite (problem_vec_reads g feat Hf). cbn [mbind res_bind].
  destruct (label_vec_refuses g H) as [-> _]. done.
Qed.

Lemma sub_reads pick feat label n rows : (∀ k, pick k < rows) →
  get_random_data pick (map (whole feat label) (seq 0 rows)) n = Ok (map (λ k, whole feat label (pick k)) (seq 0 n)).
Proof.
  intros H. unfold get_random_data. apply res_mapM_some. intros k _. unfold idx.
  rewrite list_lookup_fmap, lookup_seq_lt by apply H. done.
Qed.

Section forest.
  Context (pick : nat → nat → nat) (draw : nat → list bool → nat → nat) (rand : nat → list bool → nat → binary64)
    (fuel tries ntrees : nat) (md : Z) (n : nat) (g : grid) (feat : nat → sample) (label : nat → binary64) (w : nat).
  Hypothesis Hg : holds_samples g feat label.
  Hypothesis Hpick : ∀ i k, pick i k < (gr_size g).2.

  Lemma fit_trees : iso_fit pick draw rand fuel tries ntrees md n g =
    res_mapM (λ i, build_tree (draw i) (rand i) fuel tries [] (bag pick feat label n i) 0 md) (seq 0 ntrees).
  Proof using All.
    unfold iso_fit. rewrite (preprocess_reads g feat label Hg). cbn [mbind res_bind].
    assert (∀ l, res_mapM (λ i, sub ← get_random_data (pick i) (map (whole feat label) (seq 0 (gr_size g).2)) n;
      build_tree (draw i) (rand i) fuel tries [] sub 0 md) l =
      res_mapM (λ i, build_tree (draw i) (rand i) fuel tries [] (bag pick feat label n i) 0 md) l) as H.
    { induction l as [|i l IH]; [done|]. cbn [res_mapM]. rewrite IH, sub_reads by apply Hpick. done. }
    apply H.
  Qed.

  Lemma tree_of forest i t : iso_fit pick draw rand fuel tries ntrees md n g = Ok forest → forest !! i = Some t →
    build_tree (draw i) (rand i) fuel tries [] (bag pick feat label n i) 0 md = Ok t.
  Proof using All.
    rewrite fit_trees, res_mapM_Ok. intros H Ht. destruct (Forall2_lookup_r _ _ _ _ _ H Ht) as (j & Hj & Hb).
    apply lookup_seq in Hj as [-> _]. exact Hb.
  Qed.

  Lemma forest_length forest : iso_fit pick draw rand fuel tries ntrees md n g = Ok forest → length forest = ntrees.
  Proof using All.
    rewrite fit_trees, res_mapM_Ok. intros H. apply Forall2_length in H. by rewrite seq_length in H.
  Qed.

  Lemma bag_length i : length (bag pick feat label n i) = n.
  Proof using All. clear. unfold bag. by rewrite map_length, seq_length. Qed.

  Lemma bag_in i x : x ∈ bag pick feat label n i → ∃ r, r < (gr_size g).2 ∧ x = whole feat label r.
  Proof using All.
    unfold bag. intros H. apply elem_of_list_In, in_map_iff in H as (k & <- & _). exists (pick i k). split; [apply Hpick|done].
  Qed.

  Lemma bag_width i : (∀ r, r < (gr_size g).2 → length (feat r) = w) → of_width (S w) (bag pick feat label n i).
  Proof using All.
    intros Hw x Hx. apply bag_in in Hx as (r & Hr & ->). unfold whole. rewrite app_length, Hw by done. cbn [length]. apply Nat.add_1_r.
  Qed.

  Lemma fit_ends : (∀ i, fair (S w) tries (draw i)) → (∀ r, r < (gr_size g).2 → length (feat r) = w) →
    no_nan (map (whole feat label) (seq 0 (gr_size g).2)) → (md < Z.of_nat fuel)%Z → 0 < fuel →
    ∃ forest, iso_fit pick draw rand fuel tries ntrees md n g = Ok forest ∧ length forest = ntrees.
  Proof using All.
    intros Hfair Hw Hn Hf Hf0.
    assert (∀ i, ∃ t, build_tree (draw i) (rand i) fuel tries [] (bag pick feat label n i) 0 md = Ok t) as Ht.
    { intros i. eapply build_ends; [apply Hfair|by apply bag_width| |lia|lia|done].
      intros x v Hx Hv. apply bag_in in Hx as (r & Hr & ->). eapply Hn; [|exact Hv].
      apply elem_of_list_In, in_map_iff. exists r. split; [done|]. apply in_seq. lia. }
    assert (∃ forest, iso_fit pick draw rand fuel tries ntrees md n g = Ok forest) as [forest H].
    { rewrite fit_trees. generalize (seq 0 ntrees). intros l. induction l as [|i l [k IH]]; [by exists []|].
      cbn [res_mapM]. destruct (Ht i) as [t ->]. cbn [mbind res_bind]. rewrite IH. by eexists. }
    exists forest. split; [done|]. by apply forest_length.
  Qed.

  (** The path through one tree. *)
  Lemma forest_path log forest i t x : iso_fit pick draw rand fuel tries ntrees md n g = Ok forest → forest !! i = Some t →
    (∀ r, r < (gr_size g).2 → length (feat r) = w) → length x = S w → (Z.of_nat n <= 2 ^ 52)%Z → (0 <= md <= 2 ^ 50)%Z →
    log_close log → ∃ p, path_length log t x float_zero = Ok p ∧ between 1 (md + 110) p.
  Proof using All.
    intros Hfit Ht Hw Hx Hn Hmd Hlog. pose proof (tree_of forest i t Hfit Ht) as Hb.
    destruct (cn_needed t) eqn:E.
    - pose proof (depth_bound _ _ _ _ _ _ _ _ _ x Hb E) as [S1 S2].
      pose proof (path_value (draw i) (rand i) tries md log fuel [] _ 0 t x (S w) 0 Hb E (bag_width i Hw) Hx) as H.
      rewrite bag_length in H. change (float_of_Z 0) with float_zero in H.
      rewrite H by lia. eexists. split; [reflexivity|].
      destruct (path_bound log (0 + Z.of_nat (steps t x)) (length (filter (λ y, fellows t x y = true) (bag pick feat label n i))) Hlog)
        as [F V]; [lia| |].
      { pose proof (filter_length (λ y, fellows t x y = true) (bag pick feat label n i)) as Hl. rewrite bag_length in Hl. lia. }
      split; [done|]. split; [apply V|]. eapply Rle_trans; [apply V|]. apply IZR_le. lia.
    - rewrite (root_kind _ _ _ _ _ _ _ Hb E). exists float_one. split; [apply path_none; by destruct x|].
      destruct one_exact as [F V]. split; [done|]. rewrite V. split; [apply (IZR_le 1%Z)|apply (IZR_le 1%Z)]; lia.
  Qed.

  Lemma forest_paths log forest x : iso_fit pick draw rand fuel tries ntrees md n g = Ok forest →
    (∀ r, r < (gr_size g).2 → length (feat r) = w) → length x = S w → (Z.of_nat n <= 2 ^ 52)%Z → (0 <= md <= 2 ^ 50)%Z →
    log_close log → ∃ ps, evaluate_instance log x forest = Ok ps ∧ length ps = ntrees ∧ Forall (between 1 (md + 110)) ps.
  Proof using All.
    intros Hfit Hw Hx Hn Hmd Hlog.
    assert (∀ t, t ∈ forest → ∃ p, path_length log t x float_zero = Ok p ∧ between 1 (md + 110) p) as H.
    { intros t [i Ht]%elem_of_list_lookup. by eapply forest_path. }
    rewrite <- (forest_length forest Hfit). clear Hfit. unfold evaluate_instance.
    induction forest as [|t forest IH]; [by exists []|].
    destruct (H t) as (p & Hp & Bp); [left|]. destruct IH as (ps & Hps & Hl & Bps); [intros t' Ht'; apply H; by right|].
    exists (p :: ps). cbn [res_mapM]. rewrite Hp. cbn [mbind res_bind]. rewrite Hps. split; [done|].
    split; [cbn; by rewrite Hl|by constructor].
  Qed.

  Lemma score_between log pow2 forest x : iso_fit pick draw rand fuel tries ntrees md n g = Ok forest →
    (∀ r, r < (gr_size g).2 → length (feat r) = w) → length x = S w → (2 <= Z.of_nat n <= 2 ^ 52)%Z → (0 <= md <= 2 ^ 39)%Z →
    log_close log → pow2_close pow2 → 0 < ntrees → (Z.of_nat ntrees * (md + 110) <= 2 ^ 53)%Z →
    (IZR (md + 110) <= 900 * average_path (Z.of_nat n))%R →
    ∃ s, anomaly_score log pow2 x forest (Z.of_nat n) = Ok s ∧ fin s = true ∧ (0 < val s < 1)%R.
  Proof using All.
    intros Hfit Hw Hx Hn Hmd Hlog Hpow Hnt Hs Hav.
    destruct (forest_paths log forest x Hfit Hw Hx) as (ps & Hps & Hl & Bps); [lia|lia|done|].
    unfold anomaly_score. rewrite Hps. cbn [mbind res_bind]. eexists. split; [reflexivity|].
    apply (score_range log pow2 (mean_path ps) (Z.of_nat n) (md + 110)); [done|done|lia| |lia|done].
    apply mean_between; [lia|lia| |rewrite Hl; lia|lia|done]. intros ->. cbn in Hl. lia.
  Qed.
End forest.

Lemma foldl_monotone (B : Z) ps qs a b (m : Z) : (0 <= m)%Z → (1 <= B)%Z → Forall (between 1 B) ps → Forall (between 1 B) qs →
  ((m + Z.of_nat (length ps)) * B <= 2 ^ 53)%Z → between (m * 1) (m * B) a → between (m * 1) (m * B) b →
  Forall2 (λ p q, float_le p q = true) ps qs → (val a <= val b)%R →
  (val (foldl (b64_plus mode_NE) a ps) <= val (foldl (b64_plus mode_NE) b qs))%R.
Proof.
  intros Hm HB Hps Hqs Hs Ha Hb Hle. revert a b m Hm Hs Ha Hb.
  induction Hle as [|p q ps qs Hpq Hle IH]; intros a b m Hm Hs Ha Hb Hab; [done|].
  cbn [foldl length] in *. inversion Hps as [|? ? Bp Hps']; subst. inversion Hqs as [|? ? Bq Hqs']; subst.
  assert (∀ x y, between (m * 1) (m * B) x → between 1 B y →
    between ((m + 1) * 1) ((m + 1) * B) (b64_plus mode_NE x y) ∧ val (b64_plus mode_NE x y) = rnd (val x + val y)) as Hstep.
  { intros x y [Fx Vx] [Fy Vy]. pose proof (Bplus_correct 53 1024 eq_refl eq_refl binop_nan_pl64 mode_NE x y Fx Fy) as H.
    cbn [round_mode] in H.
    assert (IZR ((m + 1) * 1) <= val x + val y <= IZR ((m + 1) * B))%R as Hr.
    { replace ((m + 1) * 1)%Z with (m * 1 + 1)%Z by lia. replace ((m + 1) * B)%Z with (m * B + B)%Z by lia.
      rewrite !plus_IZR. lra. }
    rewrite (small_bound ((m + 1) * 1) ((m + 1) * B)) in H; [|nia|nia|done]. destruct H as (H & H' & _).
    split; [|done]. split; [done|]. unfold b64_plus. rewrite H. apply rnd_between; [nia|nia|done]. }
  destruct (Hstep a p Ha Bp) as [Ba Va]. destruct (Hstep b q Hb Bq) as [Bb Vb].
  apply (IH Hps' Hqs' _ _ (m + 1)%Z); [lia|nia|done|done|].
  rewrite Va, Vb. apply round_le; [apply _|apply valid_rnd_N|].
  apply le_val in Hpq; [lra|apply Bp|apply Bq].
Qed.

Lemma mean_monotone (B : Z) ps qs : (1 <= B)%Z → Forall (between 1 B) ps → Forall (between 1 B) qs → ps ≠ [] →
  (Z.of_nat (length ps) * B <= 2 ^ 53)%Z → Forall2 (λ p q, float_le p q = true) ps qs →
  float_le (mean_path ps) (mean_path qs) = true.
Proof.
  intros HB Hps Hqs Hne Hs Hle. pose proof (Forall2_length _ _ _ Hle) as Hl.
  assert (0 < length ps) as Hp by (destruct ps; [done|cbn; lia]).
  assert (qs ≠ []) as Hne2 by (intros ->; cbn in Hl; lia).
  destruct (mean_between 1 B ps) as [F1 _]; [lia|lia|done|done|lia|done|].
  destruct (mean_between 1 B qs) as [F2 _]; [lia|lia|done|by rewrite <- Hl|lia|done|].
  apply le_val; [done|done|].
  assert (between (0 * 1) (0 * B) float_zero) as B0.
  { split; [done|]. change (val float_zero) with 0%R. rewrite !Z.mul_0_l. lra. }
  pose proof (foldl_monotone B ps qs float_zero float_zero 0 ltac:(lia) HB Hps Hqs ltac:(lia) B0 B0 Hle ltac:(lra)) as Hsum.
  destruct (sum_between 1 B ps float_zero 0) as [G1 V1]; [lia|lia|lia|lia|done|exact B0|].
  destruct (sum_between 1 B qs float_zero 0) as [G2 V2]; [lia|lia|lia|rewrite <- Hl; lia|done|exact B0|].
  rewrite !Z.add_0_l in V1, V2.
  destruct (float_of_Z_exact (Z.of_nat (length ps))) as [Fn Vn]; [nia|].
  assert (0 < IZR (Z.of_nat (length ps)))%R as Hn by (apply (IZR_lt 0%Z); lia).
  assert (∀ s, fin s = true → (IZR (Z.of_nat (length ps) * 1) <= val s <= IZR (Z.of_nat (length ps) * B))%R →
    val (b64_div mode_NE s (float_of_nat (length ps))) = rnd (val s / IZR (Z.of_nat (length ps)))) as Hdiv.
  { intros s Fs Vs. unfold b64_div, float_of_nat.
    pose proof (Bdiv_correct 53 1024 eq_refl eq_refl binop_nan_pl64 mode_NE s (float_of_Z (Z.of_nat (length ps)))) as H.
    rewrite Vn in H. specialize (H ltac:(lra)). cbn [round_mode] in H. rewrite !mult_IZR in Vs.
    rewrite (small_bound 1 B) in H; [by destruct H as (H & _)|lia|nia|]. split.
    - apply Rmult_le_reg_r with (IZR (Z.of_nat (length ps))); [done|]. unfold Rdiv. rewrite Rmult_assoc, Rinv_l by lra. lra.
    - apply Rmult_le_reg_r with (IZR (Z.of_nat (length ps))); [done|]. unfold Rdiv. rewrite Rmult_assoc, Rinv_l by lra. lra. }
  unfold mean_path. rewrite <- Hl in *. rewrite !Hdiv by done.
  apply round_le; [apply _|apply valid_rnd_N|]. unfold Rdiv. apply Rmult_le_compat_r; [|done].
  apply Rlt_le, Rinv_0_lt_compat. done.
Qed.

(** One sample per tree: the correction is -Inf and every score 1. *)
Lemma single_score log pow2 x forest : log float_zero = float_neg_inf → pow2 float_zero = float_one →
  forest ≠ [] → (Z.of_nat (length forest) <= 2 ^ 52)%Z → x ≠ [] →
  (∀ t, t ∈ forest → t = zero_node float_zero) → anomaly_score log pow2 x forest 1 = Ok float_one.
Proof.
  intros Hlog Hpow Hne Hlen Hx Hf. unfold anomaly_score, evaluate_instance.
  rewrite (res_mapM_some _ (λ _, float_one)).
  2:{ intros t Ht. rewrite (Hf t Ht). by apply path_none. }
  cbn [mbind res_bind]. f_equal.
  assert (c_factor log 1 = float_neg_inf) as ->.
  { unfold c_factor. change (1 - 1)%Z with 0%Z. change (float_of_Z 0) with float_zero. rewrite Hlog. vm_compute. reflexivity. }
  set (ps := map (λ _, float_one) forest).
  assert (length ps = length forest) as Hl by apply map_length.
  assert (between 1 1 (mean_path ps)) as [F V].
  { apply mean_between; [lia|lia|by destruct forest|lia|lia|]. apply Forall_forall. intros p Hp.
    apply elem_of_list_In, in_map_iff in Hp as (t & <- & _). destruct one_exact as [F V]. split; [done|]. rewrite V. lra. }
  assert (mean_path ps = float_one) as ->.
  { destruct one_exact as [F1 V1]. apply B2R_inj; [| |rewrite V1; lra].
    - destruct (mean_path ps) as [s|s|s pl Hpl|s m e He]; try done. cbn in V. lra.
    - done. }
  assert (b64_div mode_NE (b64_mult mode_NE (float_of_Z (-1)) float_one) float_neg_inf = float_zero) as -> by (vm_compute; reflexivity).
  exact Hpow.
Qed.
