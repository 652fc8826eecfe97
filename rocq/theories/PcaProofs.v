(** Proofs about principal component analysis. *)
From Coq Require Import Reals Lra.
From Verif Require Import Prelude FloatModel DenseProofs MetricModel MetricSpec MetricReal LinSpec LinReal LinProofs PcaModel PcaSpec.
Local Open Scope nat_scope.

(** ** Matrices *)

Lemma positions_S r c : positions (S r) c = positions r c ++ map (λ j, (r, j)) (seq 0 c).
Proof. unfold positions. rewrite seq_S, map_app, concat_app. cbn [map concat Nat.add]. by rewrite app_nil_r. Qed.
Lemma positions_length r c : length (positions r c) = r * c.
Proof.
  induction r as [|r IH]; [done|]. rewrite positions_S, app_length, IH, map_length, seq_length. lia.
Qed.
Lemma positions_nth r c i j d : i < r → j < c → nth (i * c + j) (positions r c) d = (i, j).
Proof.
  induction r as [|r IH]; [lia|]. intros Hi Hj. rewrite positions_S. destruct (decide (i = r)) as [-> |Hne].
  - rewrite app_nth2; rewrite positions_length; [|lia]. replace (r * c + j - r * c) with j by lia.
    rewrite (nth_indep _ d (r, 0)) by (by rewrite map_length, seq_length).
    rewrite (map_nth (λ j, (r, j)) (seq 0 c) 0 j), seq_nth by done. done.
  - rewrite app_nth1; [apply IH; lia|]. rewrite positions_length. assert (i < r) by lia. nia.
Qed.
Lemma positions_elem r c ij : ij ∈ positions r c ↔ ij.1 < r ∧ ij.2 < c.
Proof.
  induction r as [|r IH].
  - split; [by intros ?%elem_of_nil|lia].
  - rewrite positions_S, elem_of_app, IH, elem_of_list_fmap. setoid_rewrite elem_of_seq. destruct ij as [i j]. cbn. split.
    + intros [?|(k & [= -> ->] & ?)]; lia.
    + intros [Hi Hj]. destruct (decide (i = r)) as [-> |]; [right; exists j; split; [done|lia]|left; lia].
Qed.

Lemma mapM_total {X Y} (f : X → res Y) (g : X → Y) l : (∀ x, x ∈ l → f x = Ok (g x)) → res_mapM f l = Ok (map g l).
Proof.
  induction l as [|x l IH]; intros H; [done|]. cbn [res_mapM map]. rewrite H by left. cbn [mbind res_bind].
  rewrite IH by (intros y Hy; apply H; by right). done.
Qed.

Lemma build_ok r c f (g : nat → nat → R) : (∀ i j, i < r → j < c → f i j = Ok (g i j)) →
  ∃ y, mx_build r c f = Ok y ∧ shaped r c y ∧ ∀ i j, i < r → j < c → entry y i j = g i j.
Proof.
  intros H. unfold mx_build.
  rewrite (mapM_total _ (λ ij, g ij.1 ij.2)) by (intros ij Hij; apply positions_elem in Hij as [? ?]; by apply H).
  cbn [mbind res_bind]. eexists. split; [done|]. split.
  - split; [done|]. split; [done|]. unfold well_formed. cbn. by rewrite map_length, positions_length.
  - intros i j Hi Hj. unfold entry, el. cbn [mx_cols mx_data].
    rewrite (nth_indep _ 0%R ((λ ij, g ij.1 ij.2) (0, 0))).
    + rewrite (map_nth (λ ij, g ij.1 ij.2)), positions_nth by done. done.
    + rewrite map_length, positions_length. nia.
Qed.

Lemma shaped_eq r c x y : shaped r c x → shaped r c y → (∀ i j, i < r → j < c → entry x i j = entry y i j) → x = y.
Proof.
  intros Hx Hy H. apply (mx_ext r c x y Hx Hy). intros k Hk. 
  assert (c ≠ 0) as Hc by (intros ->; lia).
  specialize (H (k / c) (k mod c)). unfold entry in H. destruct Hx as (_ & Ex & _), Hy as (_ & Ey & _). rewrite Ex, Ey in H.
  rewrite (Nat.mul_comm (k / c) c), <- (Nat.div_mod k c Hc) in H. apply H.
  - apply Nat.div_lt_upper_bound; [done|lia].
  - by apply Nat.mod_upper_bound.
Qed.

Lemma sum_loop (f : nat → res R) (g : nat → R) n : (∀ i, i < n → f i = Ok (g i)) →
  ∀ acc, res_foldl (λ acc i, v ← f i; Ok (acc + v)%R) acc (seq 0 n) = Ok (acc + total n g)%R.
Proof.
  induction n as [|n IH]; intros H acc; [cbn; by rewrite Rplus_0_r|].
  rewrite seq_S, res_foldl_app, IH by (intros i Hi; apply H; lia). cbn [mbind res_bind res_foldl Nat.add total].
  rewrite H by lia. cbn [mbind res_bind]. f_equal. lra.
Qed.

Section pca.
  Context (r c : nat) (x : mx R).
  Hypothesis Hx : shaped r c x.

  Lemma mean_ok : 0 < c → pca_mean reals INR x = Ok (map (column_mean x) (seq 0 c)).
  Proof using Hx.
    intros Hc. unfold pca_mean. destruct Hx as (Ex & Ec & _). rewrite Ec. destruct (Nat.eqb_spec c 0); [lia|].
    apply mapM_total. intros j Hj. apply elem_of_seq in Hj.
    assert (∀ i, i < r → mx_at x i j = Ok (entry x i j)) as Hat by (intros i Hi; apply (at_entry r c); [done|done|lia]).
    rewrite Ex. cbn [a_add a_zero a_div reals].
    rewrite (sum_loop (λ i, mx_at x i j) (λ i, entry x i j)) by done. cbn [mbind res_bind].
    unfold column_mean. rewrite Ex, Rplus_0_l. done.
  Qed.

  Lemma sub_ok : ∃ x', sub_vector reals x (map (column_mean x) (seq 0 c)) = Ok x' ∧ shaped r c x' ∧
    ∀ i j, i < r → j < c → entry x' i j = centred x i j.
  Proof using Hx.
    unfold sub_vector. rewrite map_length, seq_length. pose proof Hx as (Ex & Ec & _). rewrite Ec, Ex, Nat.eqb_refl.
    apply build_ok. intros i j Hi Hj. rewrite (at_entry r c) by done. cbn [mbind res_bind].
    rewrite (idx_nth _ _ (column_mean x 0)) by (by rewrite map_length, seq_length).
    rewrite (map_nth (column_mean x)), seq_nth by done. done.
  Qed.

  Lemma mul_ok k v : shaped c k v → ∃ y, mx_mul reals x v = Ok y ∧ shaped r k y ∧
    ∀ i l, i < r → l < k → entry y i l = total c (λ j, entry x i j * entry v j l)%R.
  Proof using Hx.
    intros Hv. unfold mx_mul. pose proof Hx as (Ex & Ec & _). pose proof Hv as (Ev & Ek & _).
    rewrite Ec, Ex, Ev, Ek, Nat.eqb_refl. apply build_ok. intros i l Hi Hl. cbn [a_add a_mul a_zero reals].
    assert (∀ n, n <= c → ∀ acc, res_foldl (λ acc k0, a ← mx_at x i k0; b ← mx_at v k0 l; Ok (acc + a * b)%R) acc (seq 0 n) =
      Ok (acc + total n (λ j, entry x i j * entry v j l))%R) as H.
    { induction n as [|n IH]; intros Hn acc; [cbn; by rewrite Rplus_0_r|].
      rewrite seq_S, res_foldl_app, IH by lia. cbn [mbind res_bind res_foldl Nat.add total].
      rewrite (at_entry r c x) by (done || lia). cbn [mbind res_bind]. rewrite (at_entry c k v) by (done || lia).
      cbn [mbind res_bind]. f_equal. lra. }
    rewrite H by lia. f_equal. lra.
  Qed.
End pca.

Lemma fit_ok svd r c x n x' v : 0 < r → 0 < c → shaped r c x → (0 <= n)%Z →
  shaped r c x' → (∀ i j, i < r → j < c → entry x' i j = centred x i j) → svd x' = Some v →
  pca_fit reals INR svd (pca_new n) x = Ok (Pca n (Some v), x').
Proof.
  intros Hr Hc Hx Hn Hx' He Hv. unfold pca_fit. rewrite (mean_ok r c) by done. cbn [mbind res_bind].
  destruct (sub_ok r c x Hx) as (x'' & -> & Hs & He'). cbn [mbind res_bind].
  assert (x'' = x') as -> by (apply (shaped_eq r c); [done|done|]; intros i j Hi Hj; by rewrite He, He').
  rewrite Hv. cbn [pc_number pca_new]. destruct (Z.ltb_spec n 0); [lia|done].
Qed.

(** The columns that Transform keeps. *)
Definition kept (n : Z) (c k : nat) : nat := if (n =? 0)%Z || (Z.of_nat c <? n)%Z then k else Z.to_nat n.

Lemma transform_ok r c k x n v : shaped r c x → shaped c k v → (0 <= n)%Z →
  ∃ y, pca_transform reals (Pca n (Some v)) x = Ok y ∧ shaped r (kept n c k) y ∧
    ∀ i l, i < r → l < kept n c k →
      entry y i l = if l <? k then total c (λ j, entry x i j * entry v j l)%R else 0%R.
Proof.
  intros Hx Hv Hn. unfold pca_transform. cbn [pc_svd pc_number].
  destruct (mul_ok r c x Hx k v Hv) as (y & -> & Hy & Hey). cbn [mbind res_bind].
  pose proof Hx as (Er & Ec & _). rewrite Ec, Er. unfold kept.
  destruct ((n =? 0)%Z || (Z.of_nat c <? n)%Z).
  - exists y. split; [done|]. split; [done|]. intros i l Hi Hl. rewrite Hey by done.
    destruct (Nat.ltb_spec l k); [done|lia].
  - destruct (Z.ltb_spec n 0); [lia|].
    pose proof Hy as (_ & Ek & _). rewrite Ek.
    destruct (build_ok r (Z.to_nat n) (λ i j, if j <? k then mx_at y i j else Ok 0%R) (λ i j, if j <? k then entry y i j else 0%R))
      as (z & Hz & Hsz & Hez).
    { intros i j Hi Hj. destruct (Nat.ltb_spec j k); [|done]. by apply (at_entry r k). }
    exists z. split; [exact Hz|]. split; [done|]. intros i l Hi Hl. rewrite Hez by done.
    destruct (Nat.ltb_spec l k); [|done]. by apply Hey.
Qed.

(** ** The decomposition *)

Section svd.
  Context (r c k : nat) (X : nat → nat → R) (u : nat → nat → R) (s : nat → R) (V : nat → nat → R).
  Hypothesis HU : orthonormal r k u.
  Hypothesis HV : orthonormal c k V.
  Hypothesis HX : ∀ i j, i < r → j < c → X i j = total k (λ l, u i l * s l * V j l)%R.
  Local Open Scope R_scope.

  Let Y i l := total c (λ j, X i j * V j l).

  Lemma total_eqb n m (f : nat → R) : (m < n)%nat → total n (λ l, f l * (if l =? m then 1 else 0)) = f m.
  Proof using.
    intros Hm. rewrite (total_pick n m); [rewrite Nat.eqb_refl; lra|done|].
    intros j _ Hj. destruct (Nat.eqb_spec j m); [done|lra].
  Qed.

  Lemma y_us i l : (i < r)%nat → (l < k)%nat → Y i l = u i l * s l.
  Proof using HX HV.
    intros Hi Hl. unfold Y.
    rewrite (total_ext c _ (λ j, total k (λ m, u i m * s m * (V j m * V j l)))).
    2:{ intros j Hj. rewrite HX by done. rewrite <- total_scale_r. apply total_ext. intros m _. lra. }
    rewrite total_swap. rewrite (total_ext k _ (λ m, (u i m * s m) * (if m =? l then 1 else 0))).
    2:{ intros m Hm. rewrite total_scale. by rewrite HV. }
    by rewrite total_eqb.
  Qed.

  Lemma y_gram l m : (l < k)%nat → (m < k)%nat → total r (λ i, Y i l * Y i m) = if l =? m then s l ^ 2 else 0.
  Proof using HX HV HU.
    intros Hl Hm. rewrite (total_ext r _ (λ i, (s l * s m) * (u i l * u i m))).
    2:{ intros i Hi. rewrite !y_us by done. lra. }
    rewrite total_scale, HU by done. destruct (Nat.eqb_spec l m) as [-> |]; lra.
  Qed.

  (** The data are recovered from all components. *)
  Lemma y_recovers i j : (i < r)%nat → (j < c)%nat → X i j = total k (λ l, Y i l * V j l).
  Proof using HX HV.
    intros Hi Hj. rewrite HX by done. apply total_ext. intros l Hl. by rewrite y_us.
  Qed.

  (** So distances are kept. *)
  Lemma y_distance (a : nat → R) (b : nat → R) :
    (∀ j, (j < c)%nat → a j = total k (λ l, b l * V j l)) →
    total c (λ j, a j ^ 2) = total k (λ l, b l ^ 2).
  Proof using HV.
    intros Ha. rewrite (total_ext c _ (λ j, total k (λ l, b l * total k (λ m, b m * (V j l * V j m))))).
    2:{ intros j Hj. rewrite Ha by done. rewrite <- Rsqr_pow2. unfold Rsqr. rewrite <- total_scale_r.
        apply total_ext. intros l _. rewrite <- total_scale. rewrite <- total_scale. apply total_ext. intros m _. lra. }
    rewrite total_swap. apply total_ext. intros l Hl. rewrite total_scale. rewrite total_swap.
    rewrite (total_ext k _ (λ m, b m * (if m =? l then 1 else 0))).
    2:{ intros m Hm. rewrite total_scale, HV by done. by rewrite (Nat.eqb_sym l m). }
    rewrite total_eqb by done. lra.
  Qed.

  (** *** Most variance *)

  (** The length of a projection on orthonormal vectors. *)
  Lemma bessel n k' (W : nat → nat → R) (a : nat → R) : orthonormal n k' W →
    total k' (λ l, (total n (λ j, a j * W j l)) ^ 2) <= total n (λ j, a j ^ 2).
  Proof using.
    intros HW. set (p l := total n (λ j, a j * W j l)).
    assert (0 <= total n (λ j, (a j - total k' (λ l, p l * W j l)) ^ 2)) as H0.
    { apply total_nonneg. intros j _. apply pow2_ge_0. }
    rewrite (total_ext n _ (λ j, a j ^ 2 - 2 * (total k' (λ l, p l * (a j * W j l))) +
      total k' (λ l, p l * total k' (λ m, p m * (W j l * W j m))))) in H0.
    2:{ intros j _. 
        assert (total k' (λ l, p l * (a j * W j l)) = a j * total k' (λ l, p l * W j l)) as ->.
        { rewrite <- total_scale. apply total_ext. intros l _. lra. }
        assert (total k' (λ l, p l * total k' (λ m, p m * (W j l * W j m))) = total k' (λ l, p l * W j l) ^ 2) as ->; [|lra].
        rewrite <- Rsqr_pow2. unfold Rsqr. rewrite <- total_scale_r. apply total_ext. intros l _.
        rewrite <- !total_scale. apply total_ext. intros m _. lra. }
    rewrite total_plus, total_minus in H0. rewrite total_scale in H0.
    rewrite (total_swap n k' (λ j l, p l * (a j * W j l))) in H0.
    rewrite (total_ext k' (λ l, total n (λ j, p l * (a j * W j l))) (λ l, p l ^ 2)) in H0.
    2:{ intros l _. rewrite total_scale. fold (p l). lra. }
    rewrite (total_swap n k' (λ j l, p l * total k' (λ m, p m * (W j l * W j m)))) in H0.
    rewrite (total_ext k' (λ l, total n (λ j, p l * total k' (λ m, p m * (W j l * W j m)))) (λ l, p l ^ 2)) in H0.
    2:{ intros l Hl. rewrite total_scale. rewrite total_swap.
        rewrite (total_ext k' _ (λ m, p m * (if m =? l then 1 else 0))).
        2:{ intros m Hm. rewrite total_scale, HW by done. by rewrite (Nat.eqb_sym l m). }
        rewrite total_eqb by done. lra. }
    change (total k' (λ l, p l ^ 2) <= total n (λ j, a j ^ 2)). lra.
  Qed.

  (** The spread of the data in a direction. *)
  Lemma spread_direction (w : nat → R) :
    total r (λ i, (total c (λ j, X i j * w j)) ^ 2) = total k (λ l, s l ^ 2 * (total c (λ j, V j l * w j)) ^ 2).
  Proof using HX HU.
    set (q l := total c (λ j, V j l * w j)).
    rewrite (total_ext r _ (λ i, total k (λ l, s l * q l * total k (λ m, s m * q m * (u i l * u i m))))).
    2:{ intros i Hi.
        assert (total c (λ j, X i j * w j) = total k (λ l, u i l * (s l * q l))) as ->.
        { rewrite (total_ext c _ (λ j, total k (λ l, u i l * s l * (V j l * w j)))).
          2:{ intros j Hj. rewrite HX by done. rewrite <- total_scale_r. apply total_ext. intros l _. lra. }
          rewrite total_swap. apply total_ext. intros l _. rewrite total_scale. fold (q l). lra. }
        clearbody q. rewrite <- Rsqr_pow2. unfold Rsqr. rewrite <- total_scale_r. apply total_ext. intros l _.
        rewrite <- !total_scale. apply total_ext. intros m _. lra. }
    rewrite total_swap. apply total_ext. intros l Hl. rewrite total_scale, total_swap.
    rewrite (total_ext k _ (λ m, s m * q m * (if m =? l then 1 else 0))).
    2:{ intros m Hm. rewrite total_scale, HU by done. by rewrite (Nat.eqb_sym l m). }
    rewrite (total_eqb k l (λ m, s m * q m)) by done. change (total c (λ j, V j l * w j)) with (q l). clearbody q. ring.
  Qed.

  (** No [n] orthonormal directions have more spread than the first [n] components. *)
  Lemma most_spread n (W : nat → nat → R) : (n <= k)%nat → orthonormal c n W →
    (∀ l, (l < k)%nat → 0 <= s l) → (∀ l m, (l <= m)%nat → (m < k)%nat → s m <= s l) →
    total n (λ m, total r (λ i, (total c (λ j, X i j * W j m)) ^ 2)) <= total n (λ l, s l ^ 2).
  Proof using HX HU HV.
    intros Hn HW Hpos Hdec.
    set (a l := total n (λ m, (total c (λ j, V j l * W j m)) ^ 2)).
    rewrite (total_ext n _ (λ m, total k (λ l, s l ^ 2 * (total c (λ j, V j l * W j m)) ^ 2))).
    2:{ intros m _. apply spread_direction. }
    rewrite total_swap. rewrite (total_ext k _ (λ l, s l ^ 2 * a l)).
    2:{ intros l _. rewrite total_scale. done. }
    assert (∀ l, (l < k)%nat → 0 <= a l <= 1) as Ha.
    { intros l Hl. split; [apply total_nonneg; intros m _; apply pow2_ge_0|].
      unfold a. eapply Rle_trans; [apply (bessel c n W (λ j, V j l) HW)|].
      rewrite (total_ext c _ (λ j, V j l * V j l)) by (intros j _; lra). rewrite HV, Nat.eqb_refl by done. lra. }
    assert (total k a <= INR n) as Hsum.
    { unfold a. rewrite total_swap.
      assert (∀ m, (m < n)%nat → total k (λ l, (total c (λ j, V j l * W j m)) ^ 2) <= 1) as H1.
      { intros m Hm. eapply Rle_trans; [|].
        - rewrite (total_ext k _ (λ l, (total c (λ j, W j m * V j l)) ^ 2)).
          2:{ intros l _. f_equal. apply total_ext. intros j _. lra. }
          apply (bessel c k V (λ j, W j m) HV).
        - rewrite (total_ext c _ (λ j, W j m * W j m)) by (intros j _; lra). rewrite HW, Nat.eqb_refl by done. lra. }
      set (f m := total k (λ l, (total c (λ j, V j l * W j m)) ^ 2)) in *.
      assert (∀ m, (m < n)%nat → f m <= 1) as H2 by exact H1. change (total n f <= INR n). clearbody f. clear -H2. rename H2 into H1.
      induction n as [|n IH]; [cbn; lra|]. rewrite S_INR. cbn [total].
      assert (f n <= 1) by (apply H1; lia). assert (total n f <= INR n); [|lra]. apply IH. intros m Hm. apply H1. lia. }
    destruct n as [|n'].
    { assert (∀ l, (l < k)%nat → a l = 0) as Hz by (intros l _; done).
      rewrite (total_ext k _ (λ _, 0)), total_const0; [cbn; lra|]. intros l Hl. rewrite Hz by done. lra. }
    set (n := S n') in *. set (t := s n' ^ 2).
    rewrite (total_split k n) by done. rewrite (total_split k n a) in Hsum by done.
    assert (total n (λ l, s l ^ 2 * a l) <= total n (λ l, s l ^ 2) - t * (INR n - total n a)) as H1.
    { assert (INR n = total n (λ _, 1)) as ->.
      { clear. induction n as [|n IH]; [done|]. rewrite S_INR, IH. done. }
      rewrite <- total_minus, <- total_scale, <- total_minus. apply total_le. intros l Hl.
      assert (0 <= a l <= 1) by (apply Ha; lia).
      assert (t <= s l ^ 2) as Ht.
      { unfold t. apply pow_incr. split; [apply Hpos; lia|apply Hdec; lia]. }
      nra. }
    assert (total (k - n) (λ j, s (n + j)%nat ^ 2 * a (n + j)%nat) <= t * total (k - n) (λ j, a (n + j)%nat)) as H2.
    { rewrite <- total_scale. apply total_le. intros j Hj.
      assert (0 <= a (n + j)%nat <= 1) by (apply Ha; lia).
      assert (s (n + j)%nat ^ 2 <= t) as Ht.
      { unfold t. apply pow_incr. split; [apply Hpos; lia|apply Hdec; lia]. }
      nra. }
    assert (0 <= t) by apply pow2_ge_0. nra.
  Qed.

  (** The spread of the components. *)
  Lemma component_spread l : (l < k)%nat → total r (λ i, Y i l ^ 2) = s l ^ 2.
  Proof using HX HU HV.
    intros Hl. rewrite (total_ext r _ (λ i, Y i l * Y i l)) by (intros; lra). rewrite y_gram, Nat.eqb_refl by done. done.
  Qed.
End svd.

Lemma centred_sum r c x j : 0 < r → shaped r c x → total r (λ i, centred x i j) = 0%R.
Proof.
  intros Hr (Er & _ & _). unfold centred. rewrite total_minus. unfold column_mean. rewrite Er.
  assert (∀ n a, total n (λ _, a) = (INR n * a)%R) as Hc.
  { induction n as [|n IH]; intros a; [cbn; lra|]. rewrite S_INR. cbn [total]. rewrite IH. lra. }
  rewrite Hc. field_simplify; [lra|]. apply not_0_INR. lia.
Qed.
