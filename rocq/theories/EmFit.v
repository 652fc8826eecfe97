(** Proofs about fitting mixtures: the fit as a whole. *)
From Coq Require Import Reals Lra.
From Verif Require Import Prelude FloatModel AttrModel StoreModel DenseModel DenseProofs GridModel GridSpec GridProofs KnnModel Id3Model BagModel
  CartFit IsoModel ClusModel ClusSpec MetricModel MetricSpec MetricReal LinReal EmModel EmSpec EmProofs.
From Flocq Require Import IEEE754.Bits IEEE754.Binary.
Local Open Scope nat_scope.

(** ** Reading the table *)

Lemma rows_length g feat : length (rows_of g feat) = (gr_size g).2.
Proof. unfold rows_of. by rewrite map_length, seq_length. Qed.

Lemma rows_observed g attrs feat : reads_columns g attrs feat → observed (length attrs) (rows_of g feat).
Proof.
  intros (specs & Hs & Hf) row Hrow. unfold rows_of in Hrow. apply elem_of_list_fmap in Hrow as (r & -> & Hr). apply elem_of_seq in Hr.
  destruct (Hf r ltac:(lia)) as (raws & H1 & H2). rewrite map_length. apply res_mapM_Ok in H1, H2.
  etransitivity; [symmetry; exact (Forall2_length _ _ _ H2)|]. rewrite <- (Forall2_length _ _ _ H1). unfold resolve in Hs. apply res_mapM_Ok in Hs.
  by rewrite <- (Forall2_length _ _ _ Hs).
Qed.

Section fit.
  Variable normal : list R → list (list R) → option (list R → R).

  Lemma components_read n p attrs g feat : iter_agrees g → reads_columns g attrs feat → attrs ≠ [] → (gr_size g).2 ≠ 0 →
    em_components_real normal (Em n (Some (p, attrs))) g = em_estimate Rltb any normal (rows_of g feat) p.
  Proof.
    intros Hit Hr Hne H0. pose proof Hr as (specs & Hs & Hf). unfold em_components. cbn [em_fitted]. rewrite Hs. cbn [mbind res_bind].
    destruct (Nat.eqb_spec (gr_size g).2 0); [lia|].
    destruct (Nat.eqb_spec (length attrs) 0); [by destruct attrs|]. cbn [orb].
    rewrite (read_rows g specs (res_mapM unpack_float) feat) by done. cbn [mbind res_bind fst]. unfold rows_of.
    by rewrite map_map.
  Qed.
  Variable eps : R.
  Variable rnd : nat → R.
  Variable ao : list attr → list attr.

  Lemma fit_reads fuel m g feat : iter_agrees g → reads_columns g (non_class_attrs ao g) feat →
    non_class_attrs ao g ≠ [] → 0 < em_comps m → em_comps m <= (gr_size g).2 →
    em_fit_real eps normal rnd ao fuel m g =
      p ← em_loop reals INR Rltb any eps normal fuel (length (non_class_attrs ao g)) (rows_of g feat)
            (em_init reals Rltb rnd (em_comps m) (length (non_class_attrs ao g)) (rows_of g feat));
      Ok (match p with None => None | Some p => Some (Em (em_comps m) (Some (p, non_class_attrs ao g))) end).
  Proof.
    intros Hit Hr Hne H0 Hle. pose proof Hr as (specs & Hs & Hf). unfold em_fit. rewrite Hs. cbn [mbind res_bind].
    destruct (Nat.ltb_spec (gr_size g).2 (em_comps m)); [lia|]. destruct (Nat.eqb_spec (gr_size g).2 0); [lia|].
    destruct (Nat.eqb_spec (length (non_class_attrs ao g)) 0); [by destruct (non_class_attrs ao g)|]. cbn [orb].
    rewrite (read_rows g specs (res_mapM unpack_float) feat) by done. cbn [mbind res_bind fst]. unfold rows_of.
    by rewrite map_map.
  Qed.
End fit.

(** ** The first means *)

Lemma fold_choice {X} (f : X → X → bool) l : ∀ m, foldl (λ m v, if f v m then v else m) m l ∈ m :: l.
Proof.
  induction l as [|v l IH]; intros m; [left|]. cbn [foldl]. specialize (IH (if f v m then v else m)).
  apply elem_of_cons in IH as [IH|IH]; [|by right; right]. rewrite IH. destruct (f v m); [right; left|left].
Qed.
Lemma em_min_elem l : l ≠ [] → em_min reals Rltb l ∈ l.
Proof.
  destruct l as [|v l]; [done|]. intros _. unfold em_min. cbn [hd foldl].
  pose proof (fold_choice Rltb l (if Rltb v v then v else v)) as H. by destruct (Rltb v v).
Qed.
Lemma em_max_elem l : l ≠ [] → em_max reals Rltb l ∈ l.
Proof.
  destruct l as [|v l]; [done|]. intros _. unfold em_max. cbn [hd foldl].
  pose proof (fold_choice (λ v m, Rltb m v) l (if Rltb v v then v else v)) as H. by destruct (Rltb v v).
Qed.

Lemma init_length rnd comps feats x : length (em_init reals Rltb rnd comps feats x) = comps.
Proof. unfold em_init. by rewrite map_length, seq_length. Qed.
Lemma init_lookup rnd comps feats x k c : em_init reals Rltb rnd comps feats x !! k = Some c →
  k < comps ∧ length c.1 = feats ∧
  (∀ j, j < feats → at_ j c.1 = (em_min reals Rltb (map (at_ j) x) + rnd (k * feats + j)%nat *
    (em_max reals Rltb (map (at_ j) x) - em_min reals Rltb (map (at_ j) x)))%R) ∧
  ∀ a b, a < feats → b < feats → cov_at c.2 a b = if a =? b then 1%R else 0%R.
Proof.
  unfold em_init. change (map ?f ?l) with (fmap (M:=list) f l) at 1. rewrite list_lookup_fmap. intros H.
  apply fmap_Some in H as (k' & Hk & ->). apply lookup_seq in Hk as [-> Hk]. cbn [Nat.add fst snd]. split; [done|].
  split; [by rewrite map_length, seq_length|]. split.
  - intros j Hj. unfold at_ at 1. rewrite nth_map_seq by done. done.
  - intros a b Ha Hb. unfold cov_at. rewrite nth_map_seq by done. rewrite nth_map_seq by done. done.
Qed.

(** ** Bounds of the means *)

Definition in_box (feats : nat) (lo hi : nat → R) (p : em_params R) : Prop :=
  ∀ c, c ∈ p → length c.1 = feats ∧ ∀ j, j < feats → (lo j <= at_ j c.1 <= hi j)%R.

Lemma assigned_elem x y k row : row ∈ assigned x y k → row ∈ x.
Proof.
  unfold assigned. intros H. apply elem_of_list_fmap in H as ([r z] & -> & H). apply elem_of_list_filter in H as [_ H].
  by apply elem_of_zip_l in H.
Qed.

Lemma box_step feats lo hi x : (∀ row j, row ∈ x → j < feats → (lo j <= at_ j row <= hi j)%R) →
  ∀ p y q, in_box feats lo hi p → em_maximization reals INR feats x y p = Ok q → in_box feats lo hi q.
Proof.
  intros Hx p y q Hp H. apply maximize_ok in H as [Hl H]. intros c' Hc'. apply elem_of_list_lookup in Hc' as (k & Hk).
  pose proof (lookup_lt_Some _ _ _ Hk) as Hlt. rewrite Hl in Hlt. apply lookup_lt_is_Some_2 in Hlt as [c Hc].
  destruct (H k c Hc) as (c'' & Hc'' & Hne & H1 & H2). rewrite Hk in Hc''. injection Hc'' as <-.
  destruct (decide (length (assigned x y k) = 1)) as [E|E].
  - rewrite (H1 E). apply Hp. by eapply elem_of_list_lookup_2.
  - destruct H2 as (Hlen & Hm & _); [destruct (assigned x y k) as [|? [|]]; [done|done|cbn; lia]|].
    split; [done|]. intros j Hj. rewrite Hm by done. apply mean_bounds; [done|]. intros row Hrow. apply Hx; [by eapply assigned_elem|done].
Qed.

Lemma length_step feats x p y q : (∀ c, c ∈ p → length c.1 = feats) →
  em_maximization reals INR feats x y p = Ok q → ∀ c, c ∈ q → length c.1 = feats.
Proof.
  intros Hp H. apply maximize_ok in H as [Hl H]. intros c' Hc'. apply elem_of_list_lookup in Hc' as (k & Hk).
  pose proof (lookup_lt_Some _ _ _ Hk) as Hlt. rewrite Hl in Hlt. apply lookup_lt_is_Some_2 in Hlt as [c Hc].
  destruct (H k c Hc) as (c'' & Hc'' & Hne & H1 & H2). rewrite Hk in Hc''. injection Hc'' as <-.
  destruct (decide (length (assigned x y k) = 1)) as [E|E].
  - rewrite (H1 E). apply Hp. by eapply elem_of_list_lookup_2.
  - apply H2. destruct (assigned x y k) as [|? [|]]; [done|done|cbn; lia].
Qed.

Lemma box_init feats lo hi x rnd comps : x ≠ [] → (∀ i, 0 <= rnd i < 1)%R →
  (∀ row j, row ∈ x → j < feats → (lo j <= at_ j row <= hi j)%R) →
  in_box feats lo hi (em_init reals Rltb rnd comps feats x).
Proof.
  intros Hne Hr Hx c Hc. apply elem_of_list_lookup in Hc as (k & Hk). apply init_lookup in Hk as (_ & Hl & Hm & _).
  split; [done|]. intros j Hj. rewrite Hm by done. specialize (Hr (k * feats + j)).
  assert (map (at_ j) x ≠ []) as Hne' by (by destruct x).
  assert (∀ v, v ∈ map (at_ j) x → (lo j <= v <= hi j)%R) as Hv.
  { intros v Hv. apply elem_of_list_fmap in Hv as (row & -> & Hrow). by apply Hx. }
  pose proof (Hv _ (em_min_elem _ Hne')) as H1. pose proof (Hv _ (em_max_elem _ Hne')) as H2.
  revert H1 H2 Hr. generalize (em_min reals Rltb (map (at_ j) x)) (em_max reals Rltb (map (at_ j) x)) (rnd (k * feats + j)). intros; nra.
Qed.

(** ** One component *)

Lemma assigned_all x y k : length y = length x → (∀ z, z ∈ y → z = k) → assigned x y k = x.
Proof.
  revert y. induction x as [|r x IH]; intros y Hl H; [done|]. destruct y as [|z y]; [done|].
  unfold assigned. cbn [zip zip_with]. rewrite filter_cons. cbn [snd]. destruct (decide (z = k)) as [_|Hn]; [|destruct Hn; apply H; left].
  cbn [map fst]. f_equal. apply IH; [by injection Hl|]. intros w Hw. apply H. by right.
Qed.

Section one.
  Variable normal : list R → list (list R) → option (list R → R).
  Variable eps : R.
  Hypothesis Heps : (0 < eps)%R.
  Variable feats : nat.
  Variable x : list (list R).
  Hypothesis Hx : 1 < length x.

  Definition whole : list R * list (list R) :=
    (em_means reals INR feats x, if length x <? feats then em_shrunk reals INR feats x else em_covariance reals INR feats x).

  Lemma one_estimate c : is_Some (normal c.1 c.2) → ∃ y, em_estimate Rltb any normal x [c] = Ok y ∧ length y = length x ∧ ∀ z, z ∈ y → z = 0.
  Proof using.
    intros [f Hf]. unfold em_estimate. cbn [res_mapM]. rewrite Hf. cbn [mbind res_bind].
    eexists. split; [done|]. split; [apply map_length|]. intros z Hz. apply elem_of_list_fmap in Hz as (row & -> & _).
    pose proof (best_likeliest [f] row ltac:(done)) as (g & Hg & _). apply lookup_lt_Some in Hg. cbn [length] in Hg. clear -Hg. lia.
  Qed.

  Lemma one_maximize y c : length y = length x → (∀ z, z ∈ y → z = 0) → em_maximization reals INR feats x y [c] = Ok [whole].
  Proof using Hx.
    clear Heps normal eps. intros Hl Hy. unfold em_maximization. cbn [imap res_mapM fst snd]. 
    assert (em_where x y 0 = Ok x) as ->.
    { unfold em_where. pose proof (assigned_all x y 0 Hl Hy) as E. unfold assigned in E. rewrite E. destruct x; [cbn in Hx; lia|done]. }
    cbn [mbind res_bind]. destruct (Nat.leb_spec (length x) 1); [lia|]. unfold whole.
    destruct (Nat.ltb_spec (length x) feats); done.
  Qed.

  Lemma distance_self p : em_distance reals p p = 0%R.
  Proof using.
    rewrite distance_squares. replace (sum_of (λ v, v) (squares p p)) with 0%R; [apply sqrt_0|]. symmetry.
    assert (∀ v, v ∈ squares p p → v = 0%R) as H.
    { intros v Hv. unfold squares in Hv. apply elem_of_list_In, in_concat in Hv as (l & Hl & Hv).
      apply elem_of_list_In, elem_of_list_lookup in Hl as (k & Hk). rewrite lookup_zip_with in Hk.
      destruct (p !! k) as [c|]; [|done]. injection Hk as <-.
      apply elem_of_list_In, elem_of_list_lookup in Hv as (j & Hj). rewrite lookup_zip_with in Hj.
      destruct (c.1 !! j) as [w|]; [|done]. injection Hj as <-. lra. }
    induction (squares p p) as [|v l IH]; [done|]. unfold sum_of in *. cbn [fold_right].
    rewrite (H v) by left. rewrite IH; [lra|]. intros w Hw. apply H. by right.
  Qed.

  Lemma one_loop c fuel : is_Some (normal c.1 c.2) → is_Some (normal whole.1 whole.2) → 2 <= fuel →
    em_loop reals INR Rltb any eps normal fuel feats x [c] = Ok (Some [whole]).
  Proof using Hx Heps.
    intros Hc Hw Hf. destruct fuel as [|[|fuel]]; [lia|lia|]. cbn [em_loop].
    destruct (one_estimate c Hc) as (y & -> & Hl & Hy). cbn [mbind res_bind]. rewrite (one_maximize y c Hl Hy). cbn [mbind res_bind].
    destruct (Rltb (em_distance reals [c] [whole]) eps); [done|].
    destruct (one_estimate whole Hw) as (y' & -> & Hl' & Hy'). cbn [mbind res_bind]. rewrite (one_maximize y' whole Hl' Hy'). cbn [mbind res_bind].
    rewrite distance_self. assert (Rltb 0 eps = true) as -> by (by apply Rltb_spec). done.
  Qed.

  Lemma whole_spec : length whole.1 = feats ∧ (∀ j, j < feats → at_ j whole.1 = mean_of (at_ j) x) ∧ covers feats x whole.2.
  Proof using.
    split; [apply means_length|]. split; [intros j Hj; by apply means_at|]. intros a b Ha Hb. unfold whole. cbn [snd].
    destruct (length x <? feats); cbn [andb]; [rewrite shrunk_at by done; by destruct (a =? b)|by apply covariance_at].
  Qed.
End one.

Lemma identity_pos_def n c : (∀ a b, a < n → b < n → cov_at c a b = if a =? b then 1%R else 0%R) → pos_def n c.
Proof.
  intros H. split; [intros a b Ha Hb; rewrite !H by done; by rewrite Nat.eqb_sym|]. intros w (a & Ha & Hw).
  rewrite (total_ext n _ (λ a, w a * w a)%R).
  2:{ intros b Hb. rewrite (total_pick n b); [rewrite H, Nat.eqb_refl by done; lra|done|].
      intros k Hk Hne. rewrite H by done. destruct (Nat.eqb_spec b k); [lia|]. lra. }
  assert (∀ b, b < n → (0 <= w b * w b)%R) as H0 by (intros; apply Rle_0_sqr).
  destruct (Rle_lt_or_eq_dec 0 (total n (λ a, w a * w a)%R)) as [|E]; [by apply total_nonneg|done|].
  symmetry in E. rewrite total_zero in E by done. specialize (E a Ha). destruct Hw. cbn in E. nra.
Qed.

(** ** Fewer equations than unknowns *)

Lemma dependent n : ∀ a : nat → nat → R, ∃ w : nat → R, (∃ j, j < S n ∧ w j ≠ 0%R) ∧ ∀ i, i < n → total (S n) (λ j, a i j * w j)%R = 0%R.
Proof.
  induction n as [|n IH]; intros a.
  { exists (λ _, 1%R). split; [exists 0; split; [lia|lra]|lia]. }
  assert ((∀ i, i < S n → a i (S n) = 0%R) ∨ ∃ p, p < S n ∧ a p (S n) ≠ 0%R) as [H|(p & Hp & Hne)].
  { clear IH. generalize (S n) at 2 4. intros k. generalize (S n). intros m. induction m as [|m IH]; [left; lia|].
    destruct IH as [IH|(p & ? & ?)]; [|right; exists p; split; [lia|done]].
    destruct (Req_dec (a m k) 0) as [E|E]; [|right; exists m; split; [lia|done]].
    left. intros i Hi. destruct (decide (i = m)) as [-> |]; [done|]. apply IH. lia. }
  - exists (λ j, if j =? S n then 1%R else 0%R). split; [exists (S n); split; [lia|]; rewrite Nat.eqb_refl; lra|].
    intros i Hi. rewrite (total_pick (S (S n)) (S n)); [rewrite H by done; lra|lia|].
    intros j Hj Hjn. destruct (Nat.eqb_spec j (S n)); [done|lra].
  - set (skip i := if i <? p then i else S i).
    destruct (IH (λ i j, a (skip i) j - a (skip i) (S n) / a p (S n) * a p j)%R) as (w & (j & Hj & Hw) & Hz).
    set (s := total (S n) (λ j, a p j * w j)%R).
    exists (λ j, if j =? S n then (- s / a p (S n))%R else w j). split.
    { exists j. split; [lia|]. destruct (Nat.eqb_spec j (S n)); [lia|done]. }
    assert (∀ i, total (S (S n)) (λ j, a i j * (if j =? S n then - s / a p (S n) else w j))%R =
      (total (S n) (λ j, a i j * w j) - a i (S n) / a p (S n) * s)%R) as Hs.
    { intros i. change (total (S (S n)) ?f) with (total (S n) f + f (S n))%R. cbv beta. rewrite Nat.eqb_refl.
      rewrite (total_ext (S n) _ (λ j, a i j * w j)%R); [unfold Rdiv; lra|].
      intros k Hk. destruct (Nat.eqb_spec k (S n)); [lia|done]. }
    intros i Hi. rewrite Hs. destruct (decide (i = p)) as [-> |Hip].
    + fold s. field. done.
    + assert (∃ i', i' < n ∧ skip i' = i) as (i' & Hi' & <-).
      { destruct (decide (i < p)) as [Hlt|Hge]; [exists i|exists (i - 1)]; (split; [lia|]); unfold skip.
        - by destruct (Nat.ltb_spec i p); [|lia].
        - destruct (Nat.ltb_spec (i - 1) p); lia. }
      specialize (Hz i' Hi'). cbv beta in Hz.
      rewrite (total_ext (S n) _ (λ j, a (skip i') j * w j - a (skip i') (S n) / a p (S n) * (a p j * w j))%R) in Hz by (intros; lra).
      rewrite total_minus, total_scale in Hz. exact Hz.
Qed.

Lemma sum_of_total {X} (f : X → R) l d : sum_of f l = total (length l) (λ i, f (nth i l d)).
Proof.
  induction l as [|x l IH]; [done|]. cbn [length]. rewrite total_first. cbn [nth]. unfold sum_of in *. cbn [fold_right]. by rewrite IH.
Qed.

(** The covariances of no more observations than features are singular. *)
Lemma square_singular n x c : 2 <= length x → length x = n → (∀ a b, a < n → b < n → cov_at c a b = sample_cov x a b) → ¬ pos_def n c.
Proof.
  intros H2 Hn Hc [_ Hpd]. destruct n as [|n]; [lia|].
  set (d i j := (at_ j (nth i x []) - mean_of (at_ j) x)%R).
  assert (∀ j, total (S n) (λ i, d i j) = 0%R) as Hd.
  { intros j. rewrite <- Hn. unfold d. rewrite <- (sum_of_total (λ row, at_ j row - mean_of (at_ j) x)%R x []). apply mean_sum. by destruct x. }
  destruct (dependent n d) as (w & Hw & Hz). specialize (Hpd w Hw).
  assert (∀ i, i < S n → total (S n) (λ j, d i j * w j)%R = 0%R) as Hall.
  { intros i Hi. destruct (decide (i = n)) as [-> |]; [|apply Hz; lia].
    assert (total (S n) (λ i, total (S n) (λ j, d i j * w j))%R = 0%R) as Ht.
    { rewrite total_swap. rewrite (total_ext _ _ (λ _, 0%R)), total_const0; [done|]. intros j _. rewrite total_scale_r, Hd. lra. }
    change (total (S n) ?f) with (total n f + f n)%R in Ht at 1. cbv beta in Ht.
    rewrite (total_ext n _ (λ _, 0%R)), total_const0 in Ht by (intros; by apply Hz). lra. }
  apply (Rlt_irrefl 0). eapply Rlt_le_trans; [exact Hpd|]. right.
  rewrite (total_ext (S n) _ (λ a, w a * total (S n) (λ i, d i a * total (S n) (λ b, d i b * w b)) * / (INR (length x) - 1))%R).
  - rewrite (total_ext (S n) _ (λ _, 0%R)), total_const0; [done|]. intros a Ha.
    rewrite (total_ext (S n) (λ i, d i a * total (S n) (λ b, d i b * w b))%R (λ _, 0%R)), total_const0; [lra|].
    intros i Hi. rewrite Hall by done. lra.
  - intros a Ha.
    rewrite (total_ext (S n) _ (λ b, w a * / (INR (length x) - 1) * total (S n) (λ i, d i a * (d i b * w b)))%R).
    + rewrite total_scale. rewrite total_swap.
      rewrite (total_ext (S n) (λ i, total (S n) (λ b, d i a * (d i b * w b)))%R (λ i, d i a * total (S n) (λ b, d i b * w b))%R)
        by (intros; by rewrite total_scale). lra.
    + intros b Hb. rewrite Hc by done. unfold sample_cov. rewrite (sum_of_total _ x []), Hn. fold (d 0 0).
      rewrite (total_ext (S n) (λ i, d i a * (d i b * w b))%R (λ i, (d i a * d i b) * w b)%R) by (intros; lra).
      rewrite total_scale_r. unfold Rdiv, d. lra.
Qed.
