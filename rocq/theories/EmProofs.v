(** Proofs about fitting mixtures. *)
From Coq Require Import Reals Lra.
From Verif Require Import Prelude FloatModel AttrModel StoreModel DenseModel DenseProofs GridModel GridSpec GridProofs KnnModel Id3Model BagModel
  CartFit IsoModel ClusModel ClusSpec MetricModel MetricSpec MetricReal LinReal EmModel EmSpec.
From Flocq Require Import IEEE754.Bits IEEE754.Binary.
Local Open Scope nat_scope.

Definition Rltb (x y : R) : bool := if Rlt_dec x y then true else false.
Lemma Rltb_spec x y : Rltb x y = true ↔ (x < y)%R.
Proof. unfold Rltb. by destruct (Rlt_dec x y). Qed.
Definition any (_ : R) : bool := true.

Notation em_fit_real := (em_fit reals INR (B2R 53 1024) Rltb any).
Notation em_components_real := (em_components (B2R 53 1024) Rltb any).

(** ** Sums *)

Lemma sum_of_ext {X} (f g : X → R) l : (∀ x, x ∈ l → f x = g x) → sum_of f l = sum_of g l.
Proof.
  induction l as [|x l IH]; intros H; [done|]. unfold sum_of in *. cbn [fold_right]. rewrite H by left.
  rewrite IH; [done|]. intros y Hy. apply H. by right.
Qed.
Lemma sum_of_minus {X} (f : X → R) a l : sum_of (λ x, f x - a)%R l = (sum_of f l - INR (length l) * a)%R.
Proof.
  induction l as [|x l IH]; [cbn; lra|]. cbn [length]. rewrite S_INR. unfold sum_of in *. cbn [fold_right]. rewrite IH. lra.
Qed.
Lemma sum_of_bounds {X} (f : X → R) lo hi l : (∀ x, x ∈ l → (lo <= f x <= hi)%R) →
  (INR (length l) * lo <= sum_of f l <= INR (length l) * hi)%R.
Proof.
  induction l as [|x l IH]; intros H; [cbn; lra|]. cbn [length]. rewrite S_INR. unfold sum_of in *. cbn [fold_right].
  specialize (IH (λ y Hy, H y (elem_of_list_further _ _ _ Hy))). specialize (H x (elem_of_list_here _ _)). lra.
Qed.
Lemma mean_bounds {X} (f : X → R) lo hi l : l ≠ [] → (∀ x, x ∈ l → (lo <= f x <= hi)%R) → (lo <= mean_of f l <= hi)%R.
Proof.
  intros Hl H. apply sum_of_bounds in H. unfold mean_of.
  assert (0 < INR (length l))%R as Hp. { apply lt_0_INR. destruct l; [done|cbn; lia]. }
  split; apply (Rmult_le_reg_r (INR (length l))); try done; unfold Rdiv; rewrite Rmult_assoc, Rinv_l, Rmult_1_r by lra; lra.
Qed.
Lemma mean_sum {X} (f : X → R) l : l ≠ [] → sum_of (λ x, f x - mean_of f l)%R l = 0%R.
Proof.
  intros Hl. rewrite sum_of_minus. unfold mean_of. field. apply not_0_INR. by destruct l.
Qed.

Lemma em_sum_map {X} (f : X → R) l : em_sum reals (map f l) = sum_of f l.
Proof.
  unfold em_sum. cbn [a_add a_zero reals].
  assert (∀ acc, foldl Rplus acc (map f l) = (acc + sum_of f l)%R) as H; [|rewrite H; lra].
  induction l as [|x l IH]; intros acc; [cbn; lra|]. cbn [map foldl]. rewrite IH. unfold sum_of. cbn [fold_right]. lra.
Qed.
Lemma em_column_map j x : em_column reals j x = map (at_ j) x. Proof. done. Qed.

Lemma nth_map_seq {X} (f : nat → X) n j d : j < n → nth j (map f (seq 0 n)) d = f j.
Proof.
  intros Hj. rewrite (nth_indep _ d (f 0)) by (by rewrite map_length, seq_length). by rewrite (map_nth f (seq 0 n)), seq_nth.
Qed.

Lemma means_at feats x j : j < feats → at_ j (em_means reals INR feats x) = mean_of (at_ j) x.
Proof.
  intros Hj. unfold at_ at 1, em_means. rewrite nth_map_seq by done. rewrite em_column_map, em_sum_map. done.
Qed.
Lemma means_length feats x : length (em_means reals INR feats x) = feats.
Proof. unfold em_means. by rewrite map_length, seq_length. Qed.

Lemma variance_cov x a : em_variance reals INR (em_column reals a x) = sample_cov x a a.
Proof.
  unfold em_variance. rewrite em_column_map, map_length, em_sum_map, !map_map, !em_sum_map. cbn [a_div a_mul a_sub a_one reals].
  fold (mean_of (at_ a) x). unfold sample_cov.
  assert (sum_of (λ x0, at_ a x0 - mean_of (at_ a) x)%R x = 0%R) as ->.
  { destruct x as [|r x]; [done|]. by apply mean_sum. }
  assert (∀ l : list (list R), sum_of (λ v, v * v)%R (map (λ x0, at_ a x0 - mean_of (at_ a) x)%R l) =
    sum_of (λ x0, (at_ a x0 - mean_of (at_ a) x) * (at_ a x0 - mean_of (at_ a) x))%R l) as ->.
  { induction l as [|r l IH]; [done|]. unfold sum_of in *. cbn [map fold_right]. by rewrite IH. }
  unfold Rdiv. f_equal. lra.
Qed.
Lemma covariance_at feats x a b : a < feats → b < feats → cov_at (em_covariance reals INR feats x) a b = sample_cov x a b.
Proof.
  intros Ha Hb. unfold cov_at, em_covariance. rewrite nth_map_seq by done. rewrite nth_map_seq by done.
  rewrite !em_column_map, !em_sum_map. done.
Qed.
Lemma shrunk_at feats x a b : a < feats → b < feats →
  cov_at (em_shrunk reals INR feats x) a b = if a =? b then sample_cov x a b else 0%R.
Proof.
  intros Ha Hb. unfold cov_at, em_shrunk. rewrite nth_map_seq by done. rewrite nth_map_seq by done.
  destruct (Nat.eqb_spec a b) as [-> |]; [|done]. apply variance_cov.
Qed.

(** ** The most likely component *)

Lemma best_likeliest fs x : fs ≠ [] → likeliest fs x (em_best Rltb any fs x).
Proof.
  intros Hne. unfold em_best.
  set (step := λ '(ix, best) '(k, f), let pr := f x in
       if match best with None => any pr | Some b => Rltb b pr end then (k, Some pr) else (ix, best)).
  assert (∀ fs, fs ≠ [] → ∃ ix f, foldl step (0, None) (imap (λ k f, (k, f)) fs) = (ix, Some (f x)) ∧
    fs !! ix = Some f ∧ (∀ j g, fs !! j = Some g → (g x <= f x)%R) ∧ (∀ j g, j < ix → fs !! j = Some g → (g x < f x)%R)) as H.
  { clear fs Hne. induction fs as [|h fs IH] using rev_ind; [done|]. intros _. rewrite imap_app, foldl_app. cbn [imap foldl].
    destruct (decide (fs = [])) as [-> |Hfs].
    - exists 0, h. cbn. split; [done|]. split; [done|]. split; [|lia]. intros [|j] g; [intros [= ->]; lra|done].
    - destruct (IH Hfs) as (ix & f & -> & Hix & Hle & Hlt). cbn [step].
      unfold compose. rewrite Nat.add_0_r.
      pose proof (lookup_lt_Some _ _ _ Hix) as Hl. cbv zeta. destruct (Rltb (f x) (h x)) eqn:E.
      + apply Rltb_spec in E. exists (length fs), h. split; [done|]. split; [by rewrite list_lookup_middle|]. split.
        * intros j g Hj. apply lookup_app_Some in Hj as [Hj|[_ Hj]]; [specialize (Hle j g Hj); lra|].
          apply list_lookup_singleton_Some in Hj as [_ ->]. lra.
        * intros j g Hj Hg. rewrite lookup_app_l in Hg by done. specialize (Hle j g Hg). lra.
      + exists ix, f. split; [done|]. split; [by rewrite lookup_app_l|].
        assert (h x <= f x)%R. { unfold Rltb in E. destruct (Rlt_dec (f x) (h x)); [done|lra]. } split.
        * intros j g Hj. apply lookup_app_Some in Hj as [Hj|[_ Hj]]; [by apply Hle in Hj|].
          by apply list_lookup_singleton_Some in Hj as [_ <-].
        * intros j g Hj Hg. rewrite lookup_app_l in Hg by lia. by apply (Hlt j). }
  destruct (H fs Hne) as (ix & f & -> & Hf & Hle & Hlt). cbn [fst]. by exists f.
Qed.

(** ** One step *)

Section step.
  Variable normal : list R → list (list R) → option (list R → R).
  Variable eps : R.
  Notation estimate := (em_estimate Rltb any normal).
  Notation maximize := (em_maximization reals INR).

  Lemma estimate_ok x p y : p ≠ [] → estimate x p = Ok y →
    ∃ fs, Forall2 (λ c f, normal c.1 c.2 = Some f) p fs ∧ Forall2 (λ row k, likeliest fs row k) x y.
  Proof.
    intros Hp H. unfold em_estimate in H. apply bind_Ok in H as (fs & Hfs & [= <-]). apply res_mapM_Ok in Hfs.
    exists fs. assert (Forall2 (λ c f, normal c.1 c.2 = Some f) p fs) as HF.
    { eapply Forall2_impl; [exact Hfs|]. intros c f Hc. cbn in Hc. destruct (normal c.1 c.2); [by injection Hc as ->|done]. }
    split; [done|]. assert (fs ≠ []) as Hne. { intros ->. by apply Forall2_nil_inv_r in HF. }
    clear -Hne. induction x as [|row x IH]; constructor; [by apply best_likeliest|done].
  Qed.

  Lemma maximize_ok feats x y p q : maximize feats x y p = Ok q →
    length q = length p ∧
    ∀ k c, p !! k = Some c → ∃ c', q !! k = Some c' ∧ updated feats (assigned x y k) c c'.
  Proof.
    intros H. unfold em_maximization in H. apply res_mapM_Ok in H. pose proof (Forall2_length _ _ _ H) as Hl.
    rewrite imap_length in Hl. split; [done|]. intros k c Hk.
    assert (imap (λ k c, (k, c)) p !! k = Some (k, c)) as Hk' by (by rewrite list_lookup_imap, Hk).
    destruct (Forall2_lookup_l _ _ _ _ _ H Hk') as (c' & Hc' & Hs). exists c'. split; [done|]. clear -Hs.
    cbn [fst snd] in Hs. apply bind_Ok in Hs as (l & Hw & Hs).
    assert (l = assigned x y k ∧ l ≠ []) as [-> Hne].
    { unfold em_where in Hw. unfold assigned. destruct (map fst _) as [|r l'] eqn:E; [done|]. injection Hw as <-. done. }
    set (l := assigned x y k) in *. split; [done|]. destruct (Nat.leb_spec (length l) 1).
    - injection Hs as <-. split; [done|lia].
    - split; [lia|]. intros _. destruct (Nat.ltb_spec (length l) feats) as [Hlt|Hge]; injection Hs as <-; cbn [fst snd].
      + split; [apply means_length|]. split; [intros j Hj; by apply means_at|]. intros a b Ha Hb.
        rewrite shrunk_at by done. assert (length l <? feats = true) as -> by (by apply Nat.ltb_lt).
        cbn [andb]. by destruct (a =? b).
      + split; [apply means_length|]. split; [intros j Hj; by apply means_at|]. intros a b Ha Hb.
        rewrite covariance_at by done. assert (length l <? feats = false) as -> by (by apply Nat.ltb_ge). done.
  Qed.

  (** The last step, for an invariant. *)
  Lemma loop_last (I : em_params R → Prop) feats x : (∀ p y q, I p → maximize feats x y p = Ok q → I q) →
    ∀ fuel p q, I p → em_loop reals INR Rltb any eps normal fuel feats x p = Ok (Some q) →
    ∃ p' y, I p' ∧ length p' = length p ∧ estimate x p' = Ok y ∧ maximize feats x y p' = Ok q ∧ (em_distance reals p' q < eps)%R.
  Proof.
    intros HI. induction fuel as [|fuel IH]; intros p q Hp H; [done|]. cbn [em_loop] in H.
    apply bind_Ok in H as (y & Hy & H). apply bind_Ok in H as (p1 & H1 & H).
    destruct (Rltb (em_distance reals p p1) eps) eqn:E.
    - injection H as <-. exists p, y. split_and!; try done. by apply Rltb_spec.
    - destruct (IH p1 q) as (p' & y' & ? & Hl & ? & ? & ?); [by eapply HI|done|]. exists p', y'. split_and!; try done.
      rewrite Hl. by apply (maximize_ok feats x y).
  Qed.
End step.

(** Small distances. *)
Lemma sum_of_nonneg l : (∀ v, v ∈ l → (0 <= v)%R) → (0 <= sum_of (λ v : R, v) l)%R.
Proof.
  induction l as [|v l IH]; intros H; [cbn; lra|]. unfold sum_of in *. cbn [fold_right].
  specialize (IH (λ y Hy, H y (elem_of_list_further _ _ _ Hy))). specialize (H v (elem_of_list_here _ _)). lra.
Qed.
Lemma sum_of_elem l v : (∀ v, v ∈ l → (0 <= v)%R) → v ∈ l → (v <= sum_of (λ v : R, v) l)%R.
Proof.
  induction l as [|u l IH]; intros H Hv; [by apply elem_of_nil in Hv|]. unfold sum_of in *. cbn [fold_right].
  pose proof (sum_of_nonneg l (λ y Hy, H y (elem_of_list_further _ _ _ Hy))) as Hs. unfold sum_of in Hs.
  apply elem_of_cons in Hv as [-> |Hv]; [lra|].
  specialize (IH (λ y Hy, H y (elem_of_list_further _ _ _ Hy)) Hv). specialize (H u (elem_of_list_here _ _)). lra.
Qed.
Definition squares (p q : em_params R) : list R :=
  concat (zip_with (λ c d, zip_with (λ v w, ((v - w) * (v - w))%R) c.1 d.1) p q).
Lemma distance_squares p q : em_distance reals p q = R_sqrt.sqrt (sum_of (λ v, v) (squares p q)).
Proof. unfold em_distance. cbn [a_sqrt reals]. f_equal. rewrite <- em_sum_map. by rewrite map_id. Qed.
Lemma squares_nonneg p q v : v ∈ squares p q → (0 <= v)%R.
Proof.
  intros Hv. unfold squares in Hv. apply elem_of_list_In, in_concat in Hv as (l & Hl & Hv).
  apply elem_of_list_In, elem_of_zip_with in Hl as (c & d & -> & _). apply elem_of_list_In, elem_of_zip_with in Hv as (a & b & -> & _). apply Rle_0_sqr.
Qed.
Lemma distance_at p q k c d j eps : (em_distance reals p q < eps)%R → p !! k = Some c → q !! k = Some d →
  j < length c.1 → j < length d.1 → (Rabs (at_ j d.1 - at_ j c.1) < eps)%R.
Proof.
  intros H Hc Hd Hj Hj'. rewrite distance_squares in H.
  assert ((at_ j c.1 - at_ j d.1) * (at_ j c.1 - at_ j d.1) ∈ squares p q)%R as Hin.
  { unfold squares. apply elem_of_list_In, in_concat.
    exists (zip_with (λ v w, ((v - w) * (v - w))%R) c.1 d.1). split; apply elem_of_list_In.
    - apply elem_of_list_lookup. exists k. by rewrite lookup_zip_with, Hc; cbn; rewrite Hd.
    - apply elem_of_list_lookup. exists j.
      assert (c.1 !! j = Some (at_ j c.1)) as H1 by (by destruct (nth_lookup_or_length c.1 j 0%R); [|lia]).
      assert (d.1 !! j = Some (at_ j d.1)) as H2 by (by destruct (nth_lookup_or_length d.1 j 0%R); [|lia]).
      rewrite lookup_zip_with, H1. cbn. by rewrite H2. }
  pose proof (sum_of_elem _ _ (squares_nonneg p q) Hin) as Hle. set (s := sum_of (λ v, v) (squares p q)) in *.
  eapply Rle_lt_trans; [|exact H]. rewrite <- (sqrt_Rsqr_abs). apply sqrt_le_1_alt. unfold Rsqr. lra.
Qed.
