(** Properties C143-C146: fitting mixtures. *)
From Coq Require Import Reals Lra.
From Verif Require Import Prelude FloatModel AttrModel StoreModel DenseModel DenseProofs GridModel GridSpec GridProofs KnnModel Id3Model BagModel
  CartModel CartFit CartProps LayerPredict IsoModel ClusModel ClusSpec MetricModel MetricSpec MetricReal LinReal EmModel EmSpec EmProofs EmFit.
From Flocq Require Import IEEE754.Bits IEEE754.Binary.
Local Open Scope nat_scope.

(** ** C143: the means stay within the data *)

(** When Fit returns, there are as many components as asked for, over the attributes that are no
    class, and in each feature each mean lies between any bounds of the data. *)
Theorem C143_range normal eps rnd ao fuel m g feat m' :
  (∀ l, ao l ≡ₚ l) → (∀ i, 0 <= rnd i < 1)%R →
  iter_agrees g → reads_columns g (non_class_attrs ao g) feat → non_class_attrs ao g ≠ [] →
  0 < em_comps m → em_comps m <= (gr_size g).2 →
  em_fit_real eps normal rnd ao fuel m g = Ok (Some m') →
  ∃ p attrs, m' = Em (em_comps m) (Some (p, attrs)) ∧ length p = em_comps m ∧
    (∀ a, a ∈ attrs ↔ a ∈ gr_all_attrs g ∧ a ∉ gr_class_attrs g) ∧
    ∀ lo hi : nat → R, (∀ row j, row ∈ rows_of g feat → j < length attrs → (lo j <= at_ j row <= hi j)%R) →
    ∀ c, c ∈ p → length c.1 = length attrs ∧ ∀ j, j < length attrs → (lo j <= at_ j c.1 <= hi j)%R.
Proof.
  intros Hao Hrnd Hit Hr Hne H0 Hle Hfit. rewrite (fit_reads normal eps rnd ao fuel m g feat) in Hfit by done.
  apply bind_Ok in Hfit as (p & Hp & [= Hm']). destruct p as [p|]; [|done]. injection Hm' as <-.
  exists p, (non_class_attrs ao g). split; [done|].
  assert (rows_of g feat ≠ []) as Hx. { intros E. pose proof (rows_length g feat) as L. rewrite E in L. cbn in L. lia. }
  split; [|split].
  - destruct (λ H1 H2, loop_last normal eps (λ _, True) _ _ H1 _ _ _ H2 Hp)
      as (p' & y & _ & Hl & _ & Hmax & _); [done|done|].
    apply maximize_ok in Hmax as [-> _]. rewrite Hl. apply init_length.
  - intros a. apply non_class_elem. intros l. apply Hao.
  - intros lo hi Hb.
    destruct (λ H1 H2, loop_last normal eps (in_box (length (non_class_attrs ao g)) lo hi) _ _ H1 _ _ _ H2 Hp)
      as (p' & y & Hbox & _ & _ & Hmax & _).
    + intros p1 y q. by apply box_step.
    + by apply box_init.
    + exact (box_step _ _ _ _ Hb p' y p Hbox Hmax).
Qed.
Print Assumptions C143_range.

(** ** C145: what Fit finds *)

(** When Fit returns, every component has got observations.  Each observation was given to the
    (first) component under which it is most likely, for parameters [q] whose means are all within
    [eps] of the result; and the mean and the covariances of a component are those of its
    observations, except that a component with a single observation is left as it was. *)
Theorem C145_last_step normal eps rnd ao fuel m g feat m' :
  iter_agrees g → reads_columns g (non_class_attrs ao g) feat → non_class_attrs ao g ≠ [] →
  0 < em_comps m → em_comps m <= (gr_size g).2 →
  em_fit_real eps normal rnd ao fuel m g = Ok (Some m') →
  ∃ p q fs y, m' = Em (em_comps m) (Some (p, non_class_attrs ao g)) ∧
    length p = em_comps m ∧ length q = em_comps m ∧
    Forall2 (λ d f, normal d.1 d.2 = Some f) q fs ∧ Forall2 (λ row k, likeliest fs row k) (rows_of g feat) y ∧
    ∀ k d c, q !! k = Some d → p !! k = Some c →
      updated (length (non_class_attrs ao g)) (assigned (rows_of g feat) y k) d c ∧
      ∀ j, j < length (non_class_attrs ao g) → (Rabs (at_ j c.1 - at_ j d.1) < eps)%R.
Proof.
  intros Hit Hr Hne H0 Hle Hfit. rewrite (fit_reads normal eps rnd ao fuel m g feat) in Hfit by done.
  apply bind_Ok in Hfit as (p & Hp & [= Hm']). destruct p as [p|]; [|done]. injection Hm' as <-.
  destruct (λ H1 H2, loop_last normal eps (λ p, ∀ c, c ∈ p → length c.1 = length (non_class_attrs ao g)) _ _ H1 _ _ _ H2 Hp)
      as (q & y & Hq & Hl & Hest & Hmax & Hd).
  - intros p1 y q. by apply length_step.
  - intros c Hc. apply elem_of_list_lookup in Hc as (k & Hk). by apply init_lookup in Hk as (_ & ? & _).
  - rewrite init_length in Hl.
    assert (q ≠ []) as Hqne by (intros ->; cbn in Hl; lia).
    destruct (estimate_ok normal (rows_of g feat) q y Hqne Hest) as (fs & Hfs & Hy).
    pose proof (length_step _ _ _ _ _ Hq Hmax) as Hp'. apply maximize_ok in Hmax as [Hpl Hmax].
    exists p, q, fs, y. split; [done|]. split; [lia|]. split; [done|]. split; [done|]. split; [done|].
    intros k d c Hd' Hc. destruct (Hmax k d Hd') as (c' & Hc' & Hup). rewrite Hc in Hc'. injection Hc' as <-. split; [done|].
    intros j Hj. apply (distance_at q p k d c j eps); [done|done|done| |].
    + rewrite Hq; [done|]. by eapply elem_of_list_lookup_2.
    + rewrite Hp'; [done|]. by eapply elem_of_list_lookup_2.
Qed.
Print Assumptions C145_last_step.

(** ** C144: one component *)

(** With one component Fit ends after at most two iterations with the mean and the covariances of
    the data, whatever the random numbers; if there are fewer observations than features the
    covariances of different features are zero.  [normal] accepts proper distributions, and the
    data have one. *)
Theorem C144_one normal eps rnd ao fuel m g feat : (0 < eps)%R →
  iter_agrees g → reads_columns g (non_class_attrs ao g) feat → non_class_attrs ao g ≠ [] →
  em_comps m = 1 → 1 < (gr_size g).2 → 2 <= fuel →
  let n := length (non_class_attrs ao g) in let x := rows_of g feat in
  (∀ mu c, length mu = n → pos_def n c → is_Some (normal mu c)) →
  (∀ c, covers n x c → pos_def n c) →
  ∃ mu c, em_fit_real eps normal rnd ao fuel m g = Ok (Some (Em 1 (Some ([(mu, c)], non_class_attrs ao g)))) ∧
    length mu = n ∧ (∀ j, j < n → at_ j mu = mean_of (at_ j) x) ∧ covers n x c.
Proof.
  intros Heps Hit Hr Hne Hm Hrows Hfuel n x Hnormal Hpd.
  rewrite (fit_reads normal eps rnd ao fuel m g feat) by (done || lia). rewrite Hm. fold n x.
  destruct (whole_spec n x) as (Hl & Hmean & Hcov). exists (whole n x).1, (whole n x).2.
  destruct (em_init reals Rltb rnd 1 n x) as [|c [|]] eqn:E; [done| |done].
  assert (em_init reals Rltb rnd 1 n x !! 0 = Some c) as Hc by (by rewrite E). apply init_lookup in Hc as (_ & Hcl & _ & Hid).
  rewrite (one_loop normal eps Heps n x); [|unfold x; rewrite rows_length; lia| | |done].
  - cbn [mbind res_bind]. split; [|done]. by destruct (whole n x).
  - apply Hnormal; [done|]. by apply identity_pos_def.
  - apply Hnormal; [done|]. by apply Hpd.
Qed.
Print Assumptions C144_one.

(** Three points in the plane. *)
Definition rows_check (g : grid) (attrs : list attr) (specs : list spec) (feat : nat → list binary64) : bool :=
  bool_decide (resolve g attrs = Ok specs) &&
  forallb (λ r, match res_mapM (λ s, gr_get g s r) specs with
                | Ok raws => match res_mapM unpack_float raws with
                             | Ok vs => (length vs =? length (feat r)) && forallb (λ xy, same_bits xy.1 xy.2) (zip vs (feat r))
                             | _ => false end
                | _ => false end) (seq 0 (gr_size g).2).
Lemma rows_checked g attrs specs feat : rows_check g attrs specs feat = true → reads_columns g attrs feat.
Proof.
  unfold rows_check. intros [H1 H2]%andb_true_iff. apply bool_decide_eq_true in H1. exists specs. split; [done|].
  intros r Hr. rewrite forallb_forall in H2. specialize (H2 r ltac:(apply in_seq; lia)).
  destruct (res_mapM _ specs) as [raws| |]; [|done..]. exists raws. split; [done|].
  destruct (res_mapM unpack_float raws) as [vs| |]; [|done..]. f_equal. apply andb_true_iff in H2 as [Hl H2]. apply Nat.eqb_eq in Hl.
  revert Hl H2. generalize (feat r). clear. intros l. revert l. induction vs as [|v vs IH]; intros [|w l] Hl H; try done.
  cbn [zip zip_with forallb fst snd] in H. apply andb_true_iff in H as [H1 H2]. f_equal; [by apply same_bits_eq|]. apply IH; [by injection Hl|done].
Qed.
Definition plane (rows : list (Z * Z * Z)) : Prop :=
  let g := c_grid rows in
  iter_agrees g ∧ non_class_attrs (λ l, l) g = [cx; cy] ∧ reads_columns g [cx; cy] (c_feat rows) ∧ (gr_size g).2 = length rows.
Definition plane_check (rows : list (Z * Z * Z)) : bool :=
  bool_decide (non_class_attrs (λ l, l) (c_grid rows) = [cx; cy]) && ((gr_size (c_grid rows)).2 =? length rows) &&
  rows_check (c_grid rows) [cx; cy] [Spec 0 0 cx; Spec 0 1 cy] (c_feat rows).
Lemma plane_ok rows : plane_check rows = true → plane rows.
Proof.
  unfold plane_check. intros [[H1 H2]%andb_true_iff H3]%andb_true_iff. split; [apply in_order_agrees, dense_grid_in_order|].
  split; [by apply bool_decide_eq_true in H1|]. split; [by eapply rows_checked|]. by apply Nat.eqb_eq.
Qed.

Lemma real_of_Z z : (Z.abs z <=? 2 ^ 53)%Z = true → B2R 53 1024 (float_of_Z z) = IZR z.
Proof. intros H%Z.leb_le. by apply float_of_Z_exact. Qed.

Definition three : list (Z * Z * Z) := [(0, 0, 7); (2, 0, 7); (1, 3, 7)]%Z.
Lemma plane_three : plane three. Proof. apply plane_ok. vm_compute. reflexivity. Qed.
Lemma rows_three : rows_of (c_grid three) (c_feat three) = [[0; 0]; [2; 0]; [1; 3]]%R.
Proof.
  destruct plane_three as (_ & _ & _ & Hs). unfold rows_of. rewrite Hs. cbn [three length seq map c_feat lookup list_lookup fst snd].
  by rewrite !real_of_Z by done.
Qed.

Example C144_example : ∃ mu c,
  em_fit_real (1 / 1000)%R (λ _ _, Some (λ _, 0%R)) (λ _, (1 / 2)%R) (λ l, l) 2 (Em 1 None) (c_grid three) =
    Ok (Some (Em 1 (Some ([(mu, c)], [cx; cy])))) ∧
  at_ 0 mu = 1%R ∧ at_ 1 mu = 1%R ∧ cov_at c 0 0 = 1%R ∧ cov_at c 0 1 = 0%R ∧ cov_at c 1 1 = 3%R.
Proof.
  destruct plane_three as (Hit & Ha & Hr & Hs).
  destruct (C144_one (λ _ _, Some (λ _, 0%R)) (1 / 1000)%R (λ _, (1 / 2)%R) (λ l, l) 2 (Em 1 None) (c_grid three) (c_feat three))
    as (mu & c & Hfit & _ & Hmu & Hc); rewrite ?Ha, ?Hs; [lra|done|done|done|done|cbn; lia|lia|by eauto| |].
  - intros c. rewrite rows_three. intros Hc. cbn [length] in *.
    assert (cov_at c 0 0 = 1 ∧ cov_at c 0 1 = 0 ∧ cov_at c 1 0 = 0 ∧ cov_at c 1 1 = 3)%R as (E1 & E2 & E3 & E4).
    { split_and!; rewrite Hc by lia; cbn [length Nat.ltb Nat.leb andb]; unfold sample_cov, mean_of, sum_of, at_; cbn; lra. }
    split.
    + intros [|[|]] [|[|]] ? ?; try lia; congruence.
    + intros w (a & Hlt & Hw). cbn [total]. rewrite E1, E2, E3, E4.
      assert (0 <= w 0%nat * w 0%nat)%R by apply Rle_0_sqr. assert (0 <= w 1%nat * w 1%nat)%R by apply Rle_0_sqr.
      destruct a as [|[|]]; [| |lia].
      * assert (0 < w 0%nat * w 0%nat)%R by (by apply Rlt_0_sqr). lra.
      * assert (0 < w 1%nat * w 1%nat)%R by (by apply Rlt_0_sqr). lra.
  - rewrite Ha in Hfit, Hmu, Hc. rewrite rows_three in Hmu, Hc. cbn [length] in *. exists mu, c. split; [done|].
    split_and!; first [rewrite Hmu by lia | rewrite Hc by lia]; cbn [length Nat.ltb Nat.leb andb]; unfold sample_cov, mean_of, sum_of, at_; cbn; lra.
Qed.

(** ** C146: what Fit accepts *)

(** Refused: no component at all, fewer observations than components, and predictions before a fit. *)
Theorem C146_refused normal eps rnd ao :
  (∀ n, (n < 1)%Z → @em_new R n = Err) ∧
  (∀ n, (1 <= n)%Z → @em_new R n = Ok (Em (Z.to_nat n) None)) ∧
  (∀ fuel m g feat, reads_columns g (non_class_attrs ao g) feat → (gr_size g).2 < em_comps m →
     em_fit_real eps normal rnd ao fuel m g = Err) ∧
  (∀ n g, em_components_real normal (Em n None) g = Err).
Proof.
  split; [|split; [|split]].
  - intros n Hn. unfold em_new. by destruct (Z.ltb_spec n 1); [|lia].
  - intros n Hn. unfold em_new. by destruct (Z.ltb_spec n 1); [lia|].
  - intros fuel m g feat (specs & Hs & _) H. unfold em_fit. rewrite Hs. cbn [mbind res_bind].
    by destruct (Nat.ltb_spec (gr_size g).2 (em_comps m)); [|lia].
  - done.
Qed.
Print Assumptions C146_refused.

(** The full claim: Fit succeeds on any data with as many observations as components, and Predict
    after it.  With one component and as many observations as features, the covariances are never
    those of a proper distribution: Fit panics or, if the random mean is right, Predict does. *)
Theorem C146_singular normal eps rnd ao fuel m g feat :
  iter_agrees g → reads_columns g (non_class_attrs ao g) feat →
  em_comps m = 1 → 1 < (gr_size g).2 → length (non_class_attrs ao g) = (gr_size g).2 → 2 <= fuel →
  (∀ mu c, is_Some (normal mu c) → pos_def (length mu) c) →
  em_fit_real eps normal rnd ao fuel m g = Panic ∨
  ∃ m', em_fit_real eps normal rnd ao fuel m g = Ok (Some m') ∧
    ∀ what wfeat, iter_agrees what → reads_columns what (non_class_attrs ao g) wfeat → (gr_size what).2 ≠ 0 →
      em_components_real normal m' what = Panic.
Proof.
  intros Hit Hr Hm Hrows Hn Hfuel Hnormal.
  assert (non_class_attrs ao g ≠ []) as Hne by (intros E; rewrite E in Hn; cbn in Hn; lia).
  rewrite (fit_reads normal eps rnd ao fuel m g feat) by (done || lia). rewrite Hm.
  set (n := length (non_class_attrs ao g)) in *. set (x := rows_of g feat).
  assert (length x = n) as Hx by (unfold x; rewrite rows_length; lia).
  assert (normal (whole n x).1 (whole n x).2 = None) as Hsing.
  { destruct (normal _ _) as [f|] eqn:E; [|done]. destruct (whole_spec n x) as (Hl & _ & Hcov).
    exfalso. apply (square_singular n x (whole n x).2); [lia|done| |].
    - intros a b Ha Hb. rewrite Hcov by done. assert (length x <? n = false) as -> by (apply Nat.ltb_ge; lia). done.
    - rewrite <- Hl at 1. apply Hnormal. by rewrite E. }
  destruct (em_init reals Rltb rnd 1 n x) as [|c [|]] eqn:E; [done| |done].
  destruct fuel as [|[|fuel]]; [lia|lia|]. cbn [em_loop].
  destruct (normal c.1 c.2) as [f|] eqn:Ec; [|left; unfold em_estimate; cbn [res_mapM]; by rewrite Ec].
  destruct (one_estimate normal x c) as (y & -> & Hyl & Hy); [by rewrite Ec|]. cbn [mbind res_bind].
  rewrite (one_maximize n x ltac:(lia) y c Hyl Hy). cbn [mbind res_bind].
  destruct (Rltb _ eps); cbn [mbind res_bind].
  - right. eexists. split; [done|]. intros what wfeat Hit' Hr' Hw. rewrite (components_read normal 1 _ _ what wfeat) by done.
    unfold em_estimate. cbn [res_mapM]. by rewrite Hsing.
  - left. unfold em_estimate at 1. cbn [res_mapM]. by rewrite Hsing.
Qed.
Print Assumptions C146_singular.

Definition pair2 : list (Z * Z * Z) := [(0, 1, 7); (2, 5, 7)]%Z.
Lemma plane_pair2 : plane pair2. Proof. apply plane_ok. vm_compute. reflexivity. Qed.
Theorem C146_square_refuted : ∃ g feat m, iter_agrees g ∧ reads_columns g (non_class_attrs (λ l, l) g) feat ∧
  0 < em_comps m ∧ em_comps m <= (gr_size g).2 ∧
  ∀ normal eps rnd fuel, (∀ mu c, is_Some (normal mu c) → pos_def (length mu) c) → 2 <= fuel →
    em_fit_real eps normal rnd (λ l, l) fuel m g = Panic ∨
    ∃ m', em_fit_real eps normal rnd (λ l, l) fuel m g = Ok (Some m') ∧ em_components_real normal m' g = Panic.
Proof.
  destruct plane_pair2 as (Hit & Ha & Hr & Hs). exists (c_grid pair2), (c_feat pair2), (Em 1 None).
  split; [done|]. split; [by rewrite Ha|]. split; [cbn; lia|]. split; [rewrite Hs; cbn; lia|]. intros normal eps rnd fuel Hn Hf.
  destruct (C146_singular normal eps rnd (λ l, l) fuel (Em 1 None) (c_grid pair2) (c_feat pair2)) as [H|(m' & H1 & H2)];
    rewrite ?Ha, ?Hs; [done|done|done|cbn; lia|done|done|done| |].
  - by left.
  - right. exists m'. split; [done|]. rewrite Ha in H2. apply (H2 _ (c_feat pair2)); [done|done|]. rewrite Hs. done.
Qed.
Print Assumptions C146_square_refuted.

(** Two equal observations and two components: both go to the first component, and the empty
    matrix of the second cannot be made, whatever the random numbers. *)
Definition twins : list (Z * Z * Z) := [(4, 4, 7); (4, 4, 7)]%Z.
Lemma plane_twins : plane twins. Proof. apply plane_ok. vm_compute. reflexivity. Qed.
Lemma rows_twins : rows_of (c_grid twins) (c_feat twins) = [[4; 4]; [4; 4]]%R.
Proof.
  destruct plane_twins as (_ & _ & _ & Hs). unfold rows_of. rewrite Hs. cbn [twins length seq map c_feat lookup list_lookup fst snd].
  by rewrite !real_of_Z by done.
Qed.
Theorem C146_empty_refuted : ∃ g feat m, iter_agrees g ∧ reads_columns g (non_class_attrs (λ l, l) g) feat ∧
  0 < em_comps m ∧ em_comps m <= (gr_size g).2 ∧
  ∀ normal eps rnd fuel, 0 < fuel → em_fit_real eps normal rnd (λ l, l) fuel m g = Panic.
Proof.
  destruct plane_twins as (Hit & Ha & Hr & Hs). exists (c_grid twins), (c_feat twins), (Em 2 None).
  split; [done|]. split; [by rewrite Ha|]. split; [cbn; lia|]. split; [rewrite Hs; cbn; lia|]. intros normal eps rnd fuel Hf.
  rewrite (fit_reads normal eps rnd (λ l, l) fuel (Em 2 None) (c_grid twins) (c_feat twins));
    rewrite ?Ha, ?Hs; [|done|done|done|cbn; lia|cbn; lia].
  rewrite rows_twins. cbn [length em_comps]. destruct fuel as [|fuel]; [lia|]. cbn [em_loop].
  set (x := [[4; 4]; [4; 4]]%R). set (cov := [[1; 0]; [0; 1]]%R).
  assert (em_init reals Rltb rnd 2 2 x = [([4; 4]%R, cov); ([4; 4]%R, cov)]) as ->.
  { unfold em_init. cbn [seq map]. unfold em_min, em_max, em_column. cbn [x map nth hd foldl].
    cbn [a_add a_mul a_sub a_one a_zero reals Nat.eqb]. unfold cov.
    assert (∀ t, 4 + t * (4 - 4) = 4)%R as Ht by (intros; lra).
    assert (∀ b : bool, (if b then 4 else 4)%R = 4%R) as Hi by (by intros []). by rewrite !Hi, !Ht. }
  unfold em_estimate. cbn [res_mapM fst snd]. destruct (normal [4; 4]%R cov) as [f|]; [|done]. cbn [mbind res_bind].
  assert (∀ row, em_best Rltb any [f; f] row = 0) as Hb.
  { intros row. destruct (best_likeliest [f; f] row ltac:(done)) as (h & Hh & Hle & Hlt).
    destruct (em_best Rltb any [f; f] row) as [|[|k]]; [done| |done]. injection Hh as <-.
    specialize (Hlt 0 f ltac:(lia) ltac:(done)). lra. }
  cbn [x map]. rewrite !Hb. done.
Qed.
Print Assumptions C146_empty_refuted.

(** What [C143_range] and [C145_last_step] say of the three points. *)
Example C143_example : ∃ p q : em_params R,
  em_fit_real (1 / 1000)%R (λ _ _, Some (λ _, 0%R)) (λ _, (1 / 2)%R) (λ l, l) 2 (Em 1 None) (c_grid three) = Ok (Some (Em 1 (Some (p, [cx; cy])))) ∧
  (∀ c, c ∈ p → (0 <= at_ 0 c.1 <= 2)%R ∧ (0 <= at_ 1 c.1 <= 3)%R) ∧
  ∀ d c, q !! 0 = Some d → p !! 0 = Some c → (Rabs (at_ 1 c.1 - at_ 1 d.1) < 1 / 1000)%R.
Proof.
  destruct plane_three as (Hit & Ha & Hr & Hs). destruct C144_example as (mu & c & Hfit & _).
  destruct (C143_range (λ _ _, Some (λ _, 0%R)) (1 / 1000)%R (λ _, (1 / 2)%R) (λ l, l) 2 (Em 1 None) (c_grid three) (c_feat three)
    (Em 1 (Some ([(mu, c)], [cx; cy])))) as (p & attrs & [= <- <-] & _ & _ & Hb);
    rewrite ?Ha, ?Hs; [done|intros; lra|done|done|done|cbn; lia|cbn; lia|done|].
  destruct (C145_last_step (λ _ _, Some (λ _, 0%R)) (1 / 1000)%R (λ _, (1 / 2)%R) (λ l, l) 2 (Em 1 None) (c_grid three) (c_feat three)
    (Em 1 (Some ([(mu, c)], [cx; cy])))) as (p & q & fs & y & Hm & _ & _ & _ & _ & Hlast);
    rewrite ?Ha, ?Hs; [done|done|done|cbn; lia|cbn; lia|done|]. rewrite Ha in Hm, Hlast. injection Hm as <-.
  exists [(mu, c)], q. split; [done|]. split.
  - intros c' Hc'. destruct (Hb (λ _, 0%R) (λ j, if j =? 0 then 2%R else 3%R)) with (c := c') as [_ H]; [|done|].
    + rewrite rows_three. intros row j Hrow Hj. cbn [length] in Hj.
      repeat (apply elem_of_cons in Hrow as [-> |Hrow]; [destruct j as [|[|]]; [| |lia]; cbn; lra|]). destruct (not_elem_of_nil _ Hrow).
    + cbn [length] in H. split; [apply (H 0); lia|apply (H 1); lia].
  - intros d c' Hd Hc'. destruct (Hlast 0 d c' Hd Hc') as [_ H]. apply H. cbn. lia.
Qed.
