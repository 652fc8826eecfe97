(** Properties C56 and C95 to C98: isolation forests. *)
From Coq Require Import Reals Psatz.
From Verif Require Import Prelude BytesModel FloatModel FloatOrder AttrModel StoreModel DenseModel DenseSpec DenseProofs
  GridModel GridSpec GridProofs FilterModel KnnModel Id3Model Id3Props RuleModel RuleProofs CartModel CartSpec
  CartProofs CartGrow CartFit GiniProofs CartProps IsoModel IsoSpec IsoProofs IsoScore IsoSplit IsoForest IsoOracle.
From Flocq Require Import IEEE754.BinarySingleNaN IEEE754.Bits IEEE754.Binary.
Local Open Scope nat_scope.

(** ** C56: the trees *)

(** A tree makes at most [md] comparisons on any way; with fewer than two different samples
    or no depth it is the zero node. *)
Theorem C56_depth pick draw rand fuel tries ntrees md n g feat label forest i t :
  holds_samples g feat label → (∀ i k, pick i k < (gr_size g).2) →
  iso_fit pick draw rand fuel tries ntrees md n g = Ok forest → forest !! i = Some t →
  if cn_needed t then (Z.of_nat (height t) <= md)%Z else t = zero_node float_zero.
Proof.
  intros Hg Hp Hfit Ht. pose proof (tree_of _ _ _ _ _ _ _ _ _ _ _ 0 Hg Hp _ _ _ Hfit Ht) as Hb.
  destruct (cn_needed t) eqn:E.
  - pose proof (depth_height _ _ _ _ _ _ _ _ _ Hb E). lia.
  - exact (root_kind _ _ _ _ _ _ _ Hb E).
Qed.
Print Assumptions C56_depth.

(** The sizes at the leaves add up to the number of samples. *)
Theorem C56_leaves pick draw rand fuel tries ntrees md n g feat label forest i t :
  holds_samples g feat label → (∀ i k, pick i k < (gr_size g).2) →
  iso_fit pick draw rand fuel tries ntrees md n g = Ok forest → forest !! i = Some t → cn_needed t = true →
  ∃ ns, leaf_sizes t = map float_of_nat ns ∧ sum_list ns = n.
Proof.
  intros Hg Hp Hfit Ht E. pose proof (tree_of _ _ _ _ _ _ _ _ _ _ _ 0 Hg Hp _ _ _ Hfit Ht) as Hb.
  destruct (leaves_sum _ _ _ _ _ _ _ _ _ Hb E) as (ns & H1 & H2). exists ns. split; [done|].
  rewrite H2. unfold bag. by rewrite map_length, seq_length.
Qed.
Print Assumptions C56_leaves.

(** The path of a sample is the number of comparisons made for it, corrected by the number
    of samples of the tree that took the same way. *)
Theorem C56_path pick draw rand fuel tries ntrees md n g feat label w forest i t log x :
  holds_samples g feat label → (∀ i k, pick i k < (gr_size g).2) → (∀ r, r < (gr_size g).2 → length (feat r) = w) →
  (Z.of_nat n <= 2 ^ 53)%Z → (md <= 2 ^ 53)%Z →
  iso_fit pick draw rand fuel tries ntrees md n g = Ok forest → forest !! i = Some t → cn_needed t = true →
  length x = S w →
  let fellow := length (filter (λ y, fellows t x y = true) (bag pick feat label n i)) in
  let s := Z.of_nat (steps t x) in
  path_length log t x float_zero =
    Ok (if fellow <=? 1 then float_of_Z s else b64_plus mode_NE (float_of_Z s) (c_factor log (Z.of_nat fellow))).
Proof.
  intros Hg Hp Hw Hn Hmd Hfit Ht E Hx. pose proof (tree_of _ _ _ _ _ _ _ _ _ _ _ 0 Hg Hp _ _ _ Hfit Ht) as Hb.
  pose proof (depth_bound _ _ _ _ _ _ _ _ _ x Hb E) as [S1 S2].
  assert (of_width (S w) (bag pick feat label n i)) as Hbw.
  { intros y Hy. unfold bag in Hy. apply elem_of_list_In, in_map_iff in Hy as (k & <- & _). unfold whole.
    rewrite app_length, Hw by apply Hp. cbn. lia. }
  assert (length (bag pick feat label n i) = n) as Hbl by (unfold bag; by rewrite map_length, seq_length).
  cbv zeta. change float_zero with (float_of_Z 0).
  rewrite (path_value (draw i) (rand i) tries md log fuel [] _ 0 t x (S w) 0 Hb E Hbw Hx); [|rewrite Hbl; lia|lia|lia].
  by rewrite Z.add_0_l.
Qed.
Print Assumptions C56_path.

(** The path lies between 1 and [md + 110] for samples of up to 2^52 rows. *)
Theorem C56_bound pick draw rand fuel tries ntrees md n g feat label w forest i t log x :
  holds_samples g feat label → (∀ i k, pick i k < (gr_size g).2) → (∀ r, r < (gr_size g).2 → length (feat r) = w) →
  log_close log → (Z.of_nat n <= 2 ^ 52)%Z → (0 <= md <= 2 ^ 50)%Z →
  iso_fit pick draw rand fuel tries ntrees md n g = Ok forest → forest !! i = Some t → length x = S w →
  ∃ p, path_length log t x float_zero = Ok p ∧ is_finite 53 1024 p = true ∧ (1 <= B2R 53 1024 p <= IZR (md + 110))%R.
Proof.
  intros Hg Hp Hw Hlog Hn Hmd Hfit Ht Hx.
  destruct (forest_path _ _ _ _ _ _ _ _ _ _ _ w Hg Hp log forest i t x Hfit Ht Hw Hx Hn Hmd Hlog) as (p & H1 & H2 & H3).
  exists p. done.
Qed.
Print Assumptions C56_bound.

(** The correction is the average length of an unsuccessful search among [n] samples. *)
Theorem C56_correction log n : log_close log → (2 <= n <= 2 ^ 52)%Z →
  is_finite 53 1024 (c_factor log n) = true ∧ (Rabs (B2R 53 1024 (c_factor log n) - average_path n) <= 1 / 100)%R ∧
  (15 / 100 <= average_path n <= 108)%R.
Proof.
  intros Hlog Hn. destruct (c_factor_close log n Hlog Hn) as [F V]. pose proof (average_path_bound n ltac:(lia)).
  split; [done|]. split; [|lra]. eapply Rle_trans; [exact V|lra].
Qed.
Print Assumptions C56_correction.

(** A forest of two trees from five rows; each tree gets four of them. *)
Definition i_rows : list (Z * Z * Z) := [(1, 5, 0); (2, 5, 0); (3, 6, 1); (90, 5, 0); (4, 6, 1)]%Z.
Definition i_pick (i k : nat) : nat := (i + k) mod 5.
Definition i_draw (i : nat) (path : list bool) (k : nat) : nat := k mod 3.
Definition i_rand (i : nat) (path : list bool) (k : nat) : binary64 := a_half.
Definition i_forest (md : Z) (n : nat) : res (list (cnode binary64)) :=
  iso_fit i_pick i_draw i_rand 10 3 2 md n (c_grid i_rows).

Lemma i_draw_fair i : fair 3 3 (i_draw i).
Proof.
  intros path. split; [intros k; apply Nat.mod_upper_bound; lia|].
  intros j Hj. exists j. split; [done|]. by apply Nat.mod_small.
Qed.
Lemma i_pick_in i k : i_pick i k < (gr_size (c_grid i_rows)).2.
Proof.
  assert ((gr_size (c_grid i_rows)).2 = 5) as -> by (vm_compute; reflexivity). apply Nat.mod_upper_bound. lia.
Qed.

Example C56_ex :
  holds_samples (c_grid i_rows) (c_feat i_rows) (c_label i_rows) ∧
  okb (i_forest 2 4) = true ∧
  map (λ t, (height t, cn_needed t)) (of_ok (i_forest 2 4) []) = [(2, true); (2, true)] ∧
  map (λ t, map bits_of_b64 (leaf_sizes t)) (of_ok (i_forest 2 4) []) =
    map (map (λ z, bits_of_b64 (float_of_Z z))) [[2; 1; 1]; [2; 1; 1]]%Z ∧
  map (λ t, steps t (whole (c_feat i_rows) (c_label i_rows) 3)) (of_ok (i_forest 2 4) []) = [1; 1].
Proof.
  split; [apply c_holds; vm_compute; reflexivity|]. split; [vm_compute; reflexivity|].
  split; [vm_compute; reflexivity|]. split; vm_compute; reflexivity.
Qed.

(** ** C95: the scores *)

(** Every row gets a score strictly between 0 and 1, given two samples per tree, some tree
    and a maximum depth that is moderate for the number of samples. *)
Theorem C95_range pick draw rand fuel tries ntrees md n g feat label w forest log pow2 g' feat' label' :
  holds_samples g feat label → (∀ i k, pick i k < (gr_size g).2) → (∀ r, r < (gr_size g).2 → length (feat r) = w) →
  log_close log → pow2_close pow2 → (2 <= Z.of_nat n <= 2 ^ 52)%Z → (0 <= md <= 2 ^ 39)%Z → 0 < ntrees →
  (Z.of_nat ntrees * (md + 110) <= 2 ^ 53)%Z → (IZR (md + 110) <= 900 * average_path (Z.of_nat n))%R →
  iso_fit pick draw rand fuel tries ntrees md n g = Ok forest →
  holds_samples g' feat' label' → (∀ r, r < (gr_size g').2 → length (feat' r) = w) →
  ∃ scores, iso_predict log pow2 forest (Z.of_nat n) g' = Ok scores ∧ length scores = (gr_size g').2 ∧
    Forall (λ s, is_finite 53 1024 s = true ∧ 0 < B2R 53 1024 s < 1)%R scores.
Proof.
  intros Hg Hp Hw Hlog Hpow Hn Hmd Hnt Hs Hav Hfit Hg' Hw'.
  unfold iso_predict. rewrite (preprocess_reads g' feat' label' Hg'). cbn [mbind res_bind].
  assert (∀ l, (∀ r, r ∈ l → r < (gr_size g').2) → ∃ scores,
    res_mapM (λ x, anomaly_score log pow2 x forest (Z.of_nat n)) (map (whole feat' label') l) = Ok scores ∧
    length scores = length l ∧ Forall (λ s, is_finite 53 1024 s = true ∧ 0 < B2R 53 1024 s < 1)%R scores) as H.
  { induction l as [|r l IH]; intros Hl; [by exists []|].
    destruct IH as (scores & H1 & H2 & H3); [intros r' Hr'; apply Hl; by right|].
    destruct (score_between _ _ _ _ _ _ _ _ _ _ _ w Hg Hp log pow2 forest (whole feat' label' r) Hfit Hw) as (s & Hsc & F & V);
      [|done|done|done|done|done|done|done|].
    { unfold whole. rewrite app_length, Hw' by (apply Hl; left). cbn [length]. apply Nat.add_1_r. }
    exists (s :: scores). cbn [map res_mapM]. rewrite Hsc. cbn [mbind res_bind]. rewrite H1. split; [done|].
    split; [cbn; by rewrite H2|]. by constructor. }
  destruct (H (seq 0 (gr_size g').2)) as (scores & H1 & H2 & H3).
  { intros r Hr. apply elem_of_seq in Hr. lia. }
  exists scores. rewrite seq_length in H2. done.
Qed.
Print Assumptions C95_range.

(** A row whose path is no longer in any tree scores at least as high. *)
Theorem C95_order pick draw rand fuel tries ntrees md n g feat label w forest log pow2 x y px py :
  holds_samples g feat label → (∀ i k, pick i k < (gr_size g).2) → (∀ r, r < (gr_size g).2 → length (feat r) = w) →
  log_close log → pow2_monotone pow2 → (2 <= Z.of_nat n <= 2 ^ 52)%Z → (0 <= md <= 2 ^ 39)%Z → 0 < ntrees →
  (Z.of_nat ntrees * (md + 110) <= 2 ^ 53)%Z → (IZR (md + 110) <= 900 * average_path (Z.of_nat n))%R →
  iso_fit pick draw rand fuel tries ntrees md n g = Ok forest → length x = S w → length y = S w →
  Forall2 (λ t p, path_length log t x float_zero = Ok p) forest px →
  Forall2 (λ t p, path_length log t y float_zero = Ok p) forest py →
  Forall2 (λ p q, float_le p q = true) px py →
  ∃ sx sy, anomaly_score log pow2 x forest (Z.of_nat n) = Ok sx ∧ anomaly_score log pow2 y forest (Z.of_nat n) = Ok sy ∧
    float_le sy sx = true.
Proof.
  intros Hg Hp Hw Hlog Hpow Hn Hmd Hnt Hs Hav Hfit Hx Hy Hpx Hpy Hle.
  destruct (forest_paths _ _ _ _ _ _ _ _ _ _ _ w Hg Hp log forest x Hfit Hw Hx) as (qx & Ex & Lx & Bx); [lia|lia|done|].
  destruct (forest_paths _ _ _ _ _ _ _ _ _ _ _ w Hg Hp log forest y Hfit Hw Hy) as (qy & Ey & Ly & By); [lia|lia|done|].
  pose proof (proj2 (res_mapM_Ok _ _ _) Hpx) as Ex'. pose proof (proj2 (res_mapM_Ok _ _ _) Hpy) as Ey'.
  unfold evaluate_instance in Ex, Ey. assert (qx = px) as -> by congruence. assert (qy = py) as -> by congruence.
  unfold anomaly_score, evaluate_instance. rewrite Ex', Ey'. cbn [mbind res_bind]. eexists _, _. split; [reflexivity|].
  split; [reflexivity|].
  assert (px ≠ []) as Nx by (intros ->; cbn in Lx; lia). assert (py ≠ []) as Ny by (intros ->; cbn in Ly; lia).
  apply (score_monotone log pow2 _ _ (Z.of_nat n) (md + 110)); [done|done|lia| | |lia|done|].
  - apply mean_between; [lia|lia|done|rewrite Lx; lia|lia|done].
  - apply mean_between; [lia|lia|done|rewrite Ly; lia|lia|done].
  - apply (mean_monotone (md + 110)); [lia|done|done|done|rewrite Lx; lia|done].
Qed.
Print Assumptions C95_order.

(** The hypotheses on the two functions of package math can be met. *)
Example C95_oracles : log_close log_w ∧ pow2_close pow2_w ∧ pow2_monotone pow2_w.
Proof. split; [apply log_w_close|]. split; [apply pow2_w_close|apply pow2_w_monotone]. Qed.

Example C95_ex : (IZR (2 + 110) <= 900 * average_path (Z.of_nat 4))%R ∧ okb (i_forest 2 4) = true ∧
  (∀ r, r < (gr_size (c_grid i_rows)).2 → length (c_feat i_rows r) = 2).
Proof.
  split; [|split; [vm_compute; reflexivity|]].
  - pose proof (average_path_bound (Z.of_nat 4) ltac:(lia)) as [H _]. change (2 + 110)%Z with 112%Z. lra.
  - assert ((gr_size (c_grid i_rows)).2 = 5) as -> by (vm_compute; reflexivity).
    do 5 (destruct r as [|r]; [intros _; vm_compute; reflexivity|]). lia.
Qed.

(** With one sample per tree every score is 1, whatever the row. *)
Theorem C95_single_refuted : ∃ pick draw rand fuel tries ntrees md g feat label forest log pow2,
  holds_samples g feat label ∧ 1 < (gr_size g).2 ∧ (∀ i k, pick i k < (gr_size g).2) ∧
  log_close log ∧ pow2_close pow2 ∧ 0 < ntrees ∧
  iso_fit pick draw rand fuel tries ntrees md 1 g = Ok forest ∧
  ∀ x, x ≠ [] → anomaly_score log pow2 x forest 1 = Ok float_one.
Proof.
  exists i_pick, i_draw, i_rand, 10, 3, 2, 2%Z, (c_grid i_rows), (c_feat i_rows), (c_label i_rows),
    [zero_node float_zero; zero_node float_zero], log_w, pow2_w.
  split; [apply c_holds; vm_compute; reflexivity|]. split; [vm_compute; lia|]. split; [apply i_pick_in|].
  split; [apply log_w_close|]. split; [apply pow2_w_close|]. split; [lia|].
  assert (holds_samples (c_grid i_rows) (c_feat i_rows) (c_label i_rows)) as Hg by (apply c_holds; vm_compute; reflexivity).
  split.
  - rewrite (fit_trees _ _ _ _ _ _ _ _ _ _ _ 0 Hg i_pick_in). reflexivity.
  - intros x Hx. apply single_score; [|apply pow2_w_zero|done|cbn; lia|done|].
    + unfold log_w. assert (float_eq float_zero float_zero = true) as -> by (vm_compute; reflexivity). done.
    + intros t Ht. repeat (apply elem_of_cons in Ht as [->|Ht]; [done|]). by apply elem_of_nil in Ht.
Qed.
Print Assumptions C95_single_refuted.

(** ** C96: fitting ends *)

(** With a source that draws every feature sooner or later and no NaN in the table, fitting
    ends with the wanted number of trees; [tries] bounds the draws at a node and [fuel] the
    depth of the recursion. *)
Theorem C96_ends pick draw rand fuel tries ntrees md n g feat label w :
  holds_samples g feat label → (∀ i k, pick i k < (gr_size g).2) → (∀ r, r < (gr_size g).2 → length (feat r) = w) →
  (∀ i, fair (S w) tries (draw i)) → no_nan (map (whole feat label) (seq 0 (gr_size g).2)) →
  (md < Z.of_nat fuel)%Z → 0 < fuel →
  ∃ forest, iso_fit pick draw rand fuel tries ntrees md n g = Ok forest ∧ length forest = ntrees.
Proof.
  intros Hg Hp Hw Hfair Hn Hf Hf0.
  exact (fit_ends pick draw rand fuel tries ntrees md n g feat label w Hg Hp Hfair Hw Hn Hf Hf0).
Qed.
Print Assumptions C96_ends.

Definition nan_free (data : list sample) : bool := forallb (forallb (λ v, negb (is_nan 53 1024 v))) data.
Lemma nan_free_check data : nan_free data = true → no_nan data.
Proof.
  intros H x v Hx Hv. unfold nan_free in H. rewrite forallb_forall in H.
  apply elem_of_list_In, H in Hx. rewrite forallb_forall in Hx. apply elem_of_list_In, Hx in Hv. by apply negb_true_iff in Hv.
Qed.

Example C96_ex : (∀ i, fair 3 3 (i_draw i)) ∧
  no_nan (map (whole (c_feat i_rows) (c_label i_rows)) (seq 0 (gr_size (c_grid i_rows)).2)).
Proof. split; [exact i_draw_fair|]. apply nan_free_check. vm_compute. reflexivity. Qed.

(** A NaN beside otherwise constant features: the draws of a feature go on for ever. *)
Definition n_dense (rows : list (binary64 * binary64)) : dense :=
  match dense_run 64 dense_new
    ([DAdd cx; DAdd cc; DClass cc true; DExtend (length rows)] ++
     concat (imap (λ i r, [DSet (Spec 0 0 cx) i (pack_float r.1); DSet (Spec 0 1 cc) i (pack_float r.2)]) rows)) with
  | Ok d => d | _ => dense_new end.
Definition n_grid (rows : list (binary64 * binary64)) : grid := dense_grid [((0, 1), true)] (n_dense rows).

Theorem C96_nan_refuted : ∃ g, (gr_size g).2 = 2 ∧
  ∀ pick draw rand fuel tries ntrees md n,
    pick 0 0 = 0 → pick 0 1 = 1 → (∀ i k, pick i k < 2) → (∀ i path k, draw i path k < 2) →
    0 < ntrees → (1 <= md)%Z → 2 ≤ n →
    iso_fit pick draw rand fuel tries ntrees md n g = Err.
Proof.
  exists (n_grid [(float_nan, float_zero); (float_one, float_zero)]). split; [vm_compute; reflexivity|].
  intros pick draw rand fuel tries ntrees md n P0 P1 Hp Hd Hnt Hmd Hn.
  set (data := [[float_nan; float_zero]; [float_one; float_zero]]).
  assert (preprocess (n_grid [(float_nan, float_zero); (float_one, float_zero)]) = Ok data) as Hpre by reflexivity.
  unfold iso_fit. rewrite Hpre. clear Hpre. cbn [mbind res_bind].
  destruct ntrees as [|ntrees]; [lia|]. cbn [seq res_mapM].
  assert (∃ rest, get_random_data (pick 0) data n = Ok ([float_nan; float_zero] :: [float_one; float_zero] :: rest) ∧
    Forall (λ x, x ∈ data) rest) as (rest & -> & Hrest).
  { destruct n as [|[|n]]; [lia|lia|]. unfold get_random_data. cbn [seq res_mapM]. rewrite P0, P1.
    cbn [mbind res_bind idx lookup list_lookup data].
    assert (∀ l, ∃ rest, res_mapM (λ i, idx data (pick 0 i)) l = Ok rest ∧ Forall (λ x, x ∈ data) rest) as H.
    { induction l as [|k l (rest & IH & Hr)]; [by exists []|]. cbn [res_mapM].
      destruct (lookup_lt_is_Some_2 data (pick 0 k)) as [x Hx]; [apply Hp|].
      assert (idx data (pick 0 k) = Ok x) as -> by (unfold idx; by rewrite Hx). cbn [mbind res_bind]. rewrite IH. exists (x :: rest). split; [done|].
      constructor; [by eapply elem_of_list_lookup_2|done]. }
    destruct (H (seq 2 n)) as (rest & Hr & Hf). exists rest. rewrite Hr. split; [done|done]. }
  cbn [mbind res_bind]. set (sub := _ :: _ :: rest).
  assert (∀ d r, (∀ k, d [] k < 2) → build_tree d r fuel tries [] sub 0 md = Err) as Hb.
  { intros d r Hdr. destruct fuel as [|f]; [done|]. cbn [build_tree].
    replace (md <? 0 + 1)%Z with false by lia. unfold sub at 1. cbn [orb length Nat.leb].
    assert (check_data sub = Ok true) as ->.
    { unfold check_data, sub. cbn [res_foldl].
      assert (differs [float_nan; float_zero] [float_nan; float_zero] = Ok true) as -> by (vm_compute; reflexivity).
      cbn [mbind res_bind]. clear. induction rest as [|x rest IH]; [done|]. cbn [res_foldl mbind res_bind]. exact IH. }
    cbn [mbind res_bind negb].
    assert (∀ i, i < 2 → ∃ a b, min_max i sub = Ok (a, b) ∧ float_eq a b = true) as Hmm.
    { intros i Hi. unfold min_max, sub. cbn [res_foldl].
      destruct i as [|[|i]]; [| |lia]; cbn [idx lookup list_lookup mbind res_bind].
      - assert ((if float_lt float_one (if float_lt float_nan float_inf then float_nan else float_inf)
          then float_one else (if float_lt float_nan float_inf then float_nan else float_inf)) = float_one) as E1 by (vm_compute; reflexivity).
        assert ((if float_gt float_one (if float_gt float_nan float_neg_inf then float_nan else float_neg_inf)
          then float_one else (if float_gt float_nan float_neg_inf then float_nan else float_neg_inf)) = float_one) as E2 by (vm_compute; reflexivity).
        cbn [fst snd]. rewrite E1, E2. exists float_one, float_one. split; [|vm_compute; reflexivity].
        clear -Hrest. induction Hrest as [|x rest Hx Hr IH]; [done|]. cbn [res_foldl].
        unfold data in Hx. apply elem_of_cons in Hx as [->|Hx]; [|apply elem_of_list_singleton in Hx as ->].
        + cbn [idx lookup list_lookup mbind res_bind fst snd].
          assert (float_lt float_nan float_one = false) as -> by (vm_compute; reflexivity).
          assert (float_gt float_nan float_one = false) as -> by (vm_compute; reflexivity). exact IH.
        + cbn [idx lookup list_lookup mbind res_bind fst snd].
          assert (float_lt float_one float_one = false) as -> by (vm_compute; reflexivity).
          assert (float_gt float_one float_one = false) as -> by (vm_compute; reflexivity). exact IH.
      - cbn [fst snd].
        assert (float_lt float_zero float_inf = true) as -> by (vm_compute; reflexivity).
        assert (float_gt float_zero float_neg_inf = true) as -> by (vm_compute; reflexivity).
        assert (float_lt float_zero float_zero = false) as E1 by (vm_compute; reflexivity).
        assert (float_gt float_zero float_zero = false) as E2 by (vm_compute; reflexivity).
        rewrite E1, E2. exists float_zero, float_zero. split; [|vm_compute; reflexivity].
        clear -Hrest E1 E2. induction Hrest as [|x rest Hx Hr IH]; [done|]. cbn [res_foldl].
        unfold data in Hx. apply elem_of_cons in Hx as [->|Hx]; [|apply elem_of_list_singleton in Hx as ->];
          cbn [idx lookup list_lookup mbind res_bind fst snd]; rewrite E1, E2; exact IH. }
    assert (∀ m k, pick_split d r m k [] sub = Err) as Hpk.
    { induction m as [|m IH]; intros k; [done|]. cbn [pick_split].
      destruct (Hmm (d [] k) (Hdr k)) as (a & b & -> & Hab). cbn [mbind res_bind fst snd]. rewrite Hab. apply IH. }
    by rewrite Hpk. }
  by rewrite (Hb (draw 0) (rand 0) (Hd 0 [])).
Qed.
Print Assumptions C96_nan_refuted.

(** ** C97: splits *)

(** If different values of a feature are at least 2/1000000 apart and at most 2^30 in size,
    both sides of every split have samples, so all leaves do. *)
Theorem C97_leaves pick draw rand fuel tries ntrees md n g feat label forest i t :
  holds_samples g feat label → (∀ i k, pick i k < (gr_size g).2) →
  (∀ i path k, unit_draw (rand i path k)) →
  well_spaced (map (whole feat label) (seq 0 (gr_size g).2)) →
  iso_fit pick draw rand fuel tries ntrees md n g = Ok forest → forest !! i = Some t → cn_needed t = true →
  ∃ ns, leaf_sizes t = map float_of_nat ns ∧ Forall (λ m, 1 ≤ m) ns ∧ sum_list ns = n ∧ length ns ≤ n.
Proof.
  intros Hg Hp Hr Hs Hfit Ht E. pose proof (tree_of _ _ _ _ _ _ _ _ _ _ _ 0 Hg Hp _ _ _ Hfit Ht) as Hb.
  destruct (leaves_positive (draw i) (rand i) tries md fuel [] (bag pick feat label n i) 0 t) as (ns & H1 & H2 & H3); [by apply Hr| |done|done|].
  { eapply spaced_sub; [|exact Hs]. intros x Hx.
    destruct (bag_in pick draw rand fuel tries ntrees md n g feat label 0 Hg Hp i x Hx) as (r & Hr' & ->).
    apply elem_of_list_In, in_map_iff. exists r. split; [done|]. apply in_seq. lia. }
  assert (length (bag pick feat label n i) = n) as Hbl by (unfold bag; by rewrite map_length, seq_length).
  exists ns. split; [done|]. split; [done|]. rewrite <- Hbl. split; [done|]. rewrite <- H3.
  clear -H2. induction H2 as [|m ns Hm Hns IH]; [done|]. cbn. lia.
Qed.
Print Assumptions C97_leaves.

(** The threshold drawn between the least and the greatest value leaves both of them on
    their side. *)
Theorem C97_threshold r a b : unit_draw r → is_finite 53 1024 a = true → is_finite 53 1024 b = true →
  (Rabs (B2R 53 1024 a) <= 2 ^ 30)%R → (Rabs (B2R 53 1024 b) <= 2 ^ 30)%R →
  (2 / 1000000 <= B2R 53 1024 b - B2R 53 1024 a)%R →
  float_le a (select_value r a b) = true ∧ float_lt (select_value r a b) b = true.
Proof. exact (select_inside r a b). Qed.
Print Assumptions C97_threshold.

(** Two different values that are too close: whatever the number drawn, the threshold lies
    outside and all samples go to one side. *)
Theorem C97_close_refuted : ∃ a b, float_lt a b = true ∧
  ∀ r, unit_draw r → float_lt (select_value r a b) a = true ∨ float_lt b (select_value r a b) = true.
Proof.
  exists float_one, next_one. split; [vm_compute; reflexivity|]. intros r [F V]. exact (select_adjacent r F V).
Qed.
Print Assumptions C97_close_refuted.

(** ** C98: reading the table *)

(** The samples are the rows with their class as last number; a class that is not one
    numeric attribute panics. *)
Theorem C98_reads g feat label : holds_samples g feat label →
  preprocess g = Ok (map (λ r, feat r ++ [label r]) (seq 0 (gr_size g).2)).
Proof. exact (preprocess_reads g feat label). Qed.
Print Assumptions C98_reads.

Theorem C98_panics pick draw rand fuel tries ntrees md n log pow2 forest g feat : holds_features g feat →
  (∀ name prec, gr_class_attrs g ≠ [FloatA name prec]) →
  iso_fit pick draw rand fuel tries ntrees md n g = Panic ∧ iso_predict log pow2 forest (Z.of_nat n) g = Panic.
Proof.
  intros Hf H. unfold iso_fit, iso_predict. rewrite (preprocess_panics g feat Hf H). done.
Qed.
Print Assumptions C98_panics.

(** A score depends only on its row, the forest and the sample size: row [r] of the
    predictions is the score of row [r]. *)
Theorem C98_rowwise log pow2 forest n g feat label scores : holds_samples g feat label →
  iso_predict log pow2 forest n g = Ok scores → length scores = (gr_size g).2 ∧
  ∀ r, r < (gr_size g).2 → ∃ s, scores !! r = Some s ∧ anomaly_score log pow2 (feat r ++ [label r]) forest n = Ok s.
Proof.
  intros Hg. unfold iso_predict. rewrite (preprocess_reads g feat label Hg). cbn [mbind res_bind].
  rewrite res_mapM_Ok. intros H. split.
  - apply Forall2_length in H. by rewrite map_length, seq_length in H.
  - intros r Hr. destruct (Forall2_lookup_l _ _ _ r (feat r ++ [label r]) H) as (s & Hs & E).
    + by rewrite list_lookup_fmap, lookup_seq_lt.
    + by exists s.
Qed.
Print Assumptions C98_rowwise.

Example C98_ex : map (map bits_of_b64) (of_ok (preprocess (c_grid i_rows)) []) =
  map (map (λ z, bits_of_b64 (float_of_Z z))) [[1; 5; 0]; [2; 5; 0]; [3; 6; 1]; [90; 5; 0]; [4; 6; 1]]%Z.
Proof. vm_compute. reflexivity. Qed.

(** Integers of moderate size are well spaced. *)
Lemma integers_spaced (rows : list (list Z)) : Forall (Forall (λ z, Z.abs z <= 2 ^ 30)%Z) rows →
  well_spaced (map (map float_of_Z) rows).
Proof.
  intros H x y i u v Hx Hy Hu Hv.
  assert (∀ x i u, x ∈ map (map float_of_Z) rows → x !! i = Some u →
    ∃ z, (Z.abs z <= 2 ^ 30)%Z ∧ is_finite 53 1024 u = true ∧ B2R 53 1024 u = IZR z) as Hz.
  { clear -H. intros x i u Hx Hu. apply elem_of_list_In, in_map_iff in Hx as (zs & <- & Hx).
    rewrite Forall_forall in H. apply elem_of_list_In, H in Hx. rewrite list_lookup_fmap in Hu.
    destruct (zs !! i) as [z|] eqn:E; [|done]. cbn in Hu. injection Hu as <-.
    rewrite Forall_forall in Hx. apply elem_of_list_lookup_2, Hx in E.
    destruct (float_of_Z_exact z) as [F V]; [lia|]. by exists z. }
  destruct (Hz x i u Hx Hu) as (a & Ha & Fu & Vu). destruct (Hz y i v Hy Hv) as (b & Hb & Fv & Vv).
  split; [done|]. rewrite pow30, Vu, Vv. split.
  - rewrite <- abs_IZR. by apply IZR_le.
  - destruct (Z.eq_dec a b) as [->|Hne]; [by left|]. right. rewrite <- minus_IZR, <- abs_IZR.
    apply Rle_trans with 1%R; [lra|]. apply (IZR_le 1%Z). lia.
Qed.

Example C97_ex : well_spaced (map (whole (c_feat i_rows) (c_label i_rows)) (seq 0 (gr_size (c_grid i_rows)).2)) ∧
  (∀ i path k, unit_draw (i_rand i path k)).
Proof.
  split; [|intros; apply a_half_unit].
  assert ((gr_size (c_grid i_rows)).2 = 5) as -> by (vm_compute; reflexivity).
  change (map (whole (c_feat i_rows) (c_label i_rows)) (seq 0 5)) with
    (map (map float_of_Z) [[1; 5; 0]; [2; 5; 0]; [3; 6; 1]; [90; 5; 0]; [4; 6; 1]]%Z).
  apply integers_spaced. repeat constructor; cbn; lia.
Qed.
