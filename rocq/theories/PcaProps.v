(** Properties C138-C142: principal component analysis. *)
From Coq Require Import Reals Lra.
From Verif Require Import Prelude FloatModel DenseProofs MetricModel MetricSpec MetricReal LinSpec LinReal LinProofs PcaModel PcaSpec PcaProofs.
Local Open Scope nat_scope.

(** FitTransform on data whose centred matrix is decomposed. *)
Lemma fit_transform_ok svd n r c x x' u s v : 0 < r → 0 < c → shaped r c x → (0 <= n)%Z →
  centred_matrix r c x x' → svd x' = Some v → thin_svd r c x' u s v →
  ∃ y, pca_fit_transform reals INR svd (pca_new n) x = Ok (Pca n (Some v), x', y) ∧ shaped r (kept n c (Nat.min r c)) y ∧
    ∀ i l, i < r → l < kept n c (Nat.min r c) →
      entry y i l = if l <? Nat.min r c then total c (λ j, centred x i j * entry v j l)%R else 0%R.
Proof.
  intros Hr Hc Hx Hn [Hs He] Hv (Hsv & _). unfold pca_fit_transform.
  rewrite (fit_ok svd r c x n x' v) by done. cbn [mbind res_bind fst snd].
  destruct (transform_ok r c (Nat.min r c) x' n v Hs Hsv Hn) as (y & -> & Hy & Hey). cbn [mbind res_bind].
  exists y. split; [done|]. split; [done|]. intros i l Hi Hl. rewrite Hey by done. destruct (l <? Nat.min r c); [|done].
  apply total_ext. intros j Hj. by rewrite He.
Qed.

Lemma component_kept n r c l : (0 <= n)%Z → component n r c l ↔ l < kept n c (Nat.min r c) ∧ l < Nat.min r c.
Proof.
  intros Hn. unfold component, kept. destruct (Z.eqb_spec n 0); cbn [orb]; [lia|]. destruct (Z.ltb_spec (Z.of_nat c) n); lia.
Qed.

(** ** C138: the components are uncorrelated and have the most variance *)

(** Each component has mean zero, different components are uncorrelated, earlier components have
    no less variance than later ones, and no [k] orthonormal directions have more variance in
    total than the first [k] components. *)
Theorem C138_components svd n r c x x' u s v : 0 < r → 0 < c → shaped r c x → (0 <= n)%Z →
  centred_matrix r c x x' → svd x' = Some v → thin_svd r c x' u s v →
  ∃ p y, pca_fit_transform reals INR svd (pca_new n) x = Ok (p, x', y) ∧ mx_rows y = r ∧
    let variance l := total r (λ i, entry y i l ^ 2)%R in
    (∀ l, component n r c l → total r (λ i, entry y i l) = 0%R) ∧
    (∀ l m, component n r c l → component n r c m → l ≠ m → total r (λ i, entry y i l * entry y i m)%R = 0%R) ∧
    (∀ l m, component n r c m → l <= m → (variance m <= variance l)%R) ∧
    (∀ k w, orthonormal c k w → (∀ l, l < k → component n r c l) →
       (total k (λ l, spread x (λ j, w j l)) <= total k variance)%R).
Proof.
  intros Hr Hc Hx Hn Hx' Hv Hsvd. destruct (fit_transform_ok svd n r c x x' u s v) as (y & Hfit & Hy & Hey); try done.
  destruct Hx' as [Hsx' He]. destruct Hsvd as (Hsv & Hu & Hvo & Hdec & Hpos & Hord). set (k := Nat.min r c) in *.
  assert (∀ i l, i < r → component n r c l → entry y i l = total c (λ j, centred x i j * entry v j l)%R) as Hyl.
  { intros i l Hi Hl. apply component_kept in Hl as [Hl1 Hl2]; [|done]. rewrite Hey by done.
    fold k in Hl2. destruct (Nat.ltb_spec l k); [done|lia]. }
  assert (∀ i j, i < r → j < c → centred x i j = total k (λ l, u i l * s l * entry v j l)%R) as Hxd.
  { intros i j Hi Hj. by rewrite <- He, Hdec. }
  assert (∀ l, component n r c l → l < k) as Hlt by (by intros l [? _]).
  assert (∀ l, component n r c l → total r (λ i, entry y i l ^ 2)%R = (s l ^ 2)%R) as Hvar.
  { intros l Hl. rewrite (total_ext r _ (λ i, total c (λ j, centred x i j * entry v j l) ^ 2)%R) by (intros i Hi; by rewrite Hyl).
    apply (component_spread r c k (centred x) u s (entry v) Hu Hvo Hxd). by apply Hlt. }
  assert (∀ l m, component n r c m → l <= m → component n r c l) as Hdown.
  { intros l m [? H] ?. split; [lia|]. destruct H as [?|[?|?]]; [by left|by right; left|right; right; lia]. }
  exists (Pca n (Some v)), y. split; [done|]. split; [apply Hy|]. intros variance. split; [|split; [|split]].
  - intros l Hl. rewrite (total_ext r _ (λ i, total c (λ j, centred x i j * entry v j l)%R)) by (intros i Hi; by rewrite Hyl).
    rewrite total_swap. rewrite (total_ext c _ (λ _, 0%R)), total_const0; [done|].
    intros j _. rewrite total_scale_r, (centred_sum r c) by done. lra.
  - intros l m Hl Hm Hne.
    rewrite (total_ext r _ (λ i, total c (λ j, centred x i j * entry v j l) * total c (λ j, centred x i j * entry v j m))%R)
      by (intros i Hi; by rewrite !Hyl).
    rewrite (y_gram r c k (centred x) u s (entry v) Hu Hvo Hxd) by (by apply Hlt). by destruct (Nat.eqb_spec l m).
  - intros l m Hm Hle. unfold variance. rewrite !Hvar by eauto. pose proof (Hlt m Hm). apply pow_incr. split; [apply Hpos; lia|by apply Hord].
  - intros m w Hw Hm. rewrite (total_ext m variance (λ l, s l ^ 2)%R) by (intros l Hl; apply Hvar, Hm, Hl).
    unfold spread. destruct Hx as (-> & -> & _).
    apply (most_spread r c k (centred x) u s (entry v) Hu Hvo Hxd); [|done|done|done].
    destruct m as [|m]; [lia|]. specialize (Hlt m (Hm m ltac:(lia))). lia.
Qed.
Print Assumptions C138_components.

(** ** C139: keeping all components keeps the distances *)

Theorem C139_distance svd n r c x x' u s v : 0 < r → 0 < c → shaped r c x → (n = 0 ∨ Z.of_nat (Nat.min r c) <= n)%Z →
  centred_matrix r c x x' → svd x' = Some v → thin_svd r c x' u s v →
  ∃ p y, pca_fit_transform reals INR svd (pca_new n) x = Ok (p, x', y) ∧
    ∀ i i', i < r → i' < r →
      total (mx_cols y) (λ l, (entry y i l - entry y i' l) ^ 2)%R = total c (λ j, (entry x i j - entry x i' j) ^ 2)%R.
Proof.
  intros Hr Hc Hx Hn Hx' Hv Hsvd. destruct (fit_transform_ok svd n r c x x' u s v) as (y & Hfit & Hy & Hey); try done; [lia|].
  destruct Hx' as [Hsx' He]. destruct Hsvd as (Hsv & Hu & Hvo & Hdec & Hpos & Hord). set (k := Nat.min r c) in *.
  assert (∀ i j, i < r → j < c → centred x i j = total k (λ l, u i l * s l * entry v j l)%R) as Hxd.
  { intros i j Hi Hj. by rewrite <- He, Hdec. }
  exists (Pca n (Some v)), y. split; [done|]. intros i i' Hi Hi'.
  assert (k <= kept n c k) as Hk.
  { unfold kept. destruct (Z.eqb_spec n 0); cbn [orb]; [lia|]. destruct (Z.ltb_spec (Z.of_nat c) n); lia. }
  destruct Hy as (_ & -> & _).
  rewrite (total_split _ k) by done.
  rewrite (total_ext (kept n c k - k) _ (λ _, 0%R)), total_const0, Rplus_0_r.
  2:{ intros l Hl. rewrite !Hey by lia. destruct (Nat.ltb_spec (k + l) k); [lia|]. lra. }
  symmetry.
  rewrite (total_ext k _ (λ l, (total c (λ j, centred x i j * entry v j l) - total c (λ j, centred x i' j * entry v j l)) ^ 2)%R).
  2:{ intros l Hl. rewrite !Hey by lia. by destruct (Nat.ltb_spec l k); [|lia]. }
  apply (y_distance c k (entry v) Hvo).
  intros j Hj.
  rewrite (total_ext k _ (λ l, total c (λ j, centred x i j * entry v j l) * entry v j l -
    total c (λ j, centred x i' j * entry v j l) * entry v j l)%R) by (intros; lra).
  rewrite total_minus.
  rewrite <- (y_recovers r c k (centred x) u s (entry v) Hvo Hxd i j) by done.
  rewrite <- (y_recovers r c k (centred x) u s (entry v) Hvo Hxd i' j) by done. unfold centred. lra.
Qed.
Print Assumptions C139_distance.

(** ** C140: Transform on new data *)

(** The full claim: Transform gives the rows that the model was fitted to the components that
    FitTransform gave them.  Proved: each component is shifted by the same amount in all rows, the
    component of the mean of the fitted data. *)
Theorem C140_shift_partial svd n r c x x' u s v : 0 < r → 0 < c → shaped r c x → (0 <= n)%Z →
  centred_matrix r c x x' → svd x' = Some v → thin_svd r c x' u s v →
  ∃ p y z, pca_fit_transform reals INR svd (pca_new n) x = Ok (p, x', y) ∧ pca_transform reals p x = Ok z ∧
    mx_rows z = mx_rows y ∧ mx_cols z = mx_cols y ∧
    ∀ i l, i < r → component n r c l →
      entry z i l = (entry y i l + total c (λ j, column_mean x j * entry v j l))%R.
Proof.
  intros Hr Hc Hx Hn Hx' Hv Hsvd. destruct (fit_transform_ok svd n r c x x' u s v) as (y & Hfit & Hy & Hey); try done.
  destruct Hsvd as (Hsv & _). destruct (transform_ok r c (Nat.min r c) x n v Hx Hsv Hn) as (z & Hz & Hsz & Hez).
  exists (Pca n (Some v)), y, z. split; [done|]. split; [done|].
  split; [by destruct Hy as (-> & _), Hsz as (-> & _)|]. split; [by destruct Hy as (_ & -> & _), Hsz as (_ & -> & _)|].
  intros i l Hi Hl. apply component_kept in Hl as [Hl Hl']; [|done]. rewrite Hez, Hey by done.
  destruct (Nat.ltb_spec l (Nat.min r c)); [|lia]. rewrite <- total_plus. apply total_ext. intros j _. unfold centred. lra.
Qed.
Print Assumptions C140_shift_partial.

(** Data with integer elements: four points. *)
Definition pts : mx R := MX 4 2 (map IZR [0; -4; -4; -1; 6; 4; 2; 7]%Z).
Definition pts' : mx R := MX 4 2 (map (λ z, IZR z / 2)%R [-2; -11; -10; -5; 10; 5; 2; 11]%Z).
Definition pts_v : mx R := MX 2 2 (map (λ z, IZR z / 5)%R [3; -4; 4; 3]%Z).
Definition pts_s (l : nat) : R := if l =? 0 then 10%R else 5%R.
Definition pts_u (i l : nat) : R := (IZR (nth (2 * i + l) [-1; -1; -1; 1; 1; -1; 1; 1]%Z 0%Z) / 2)%R.

Lemma pts_shaped : shaped 4 2 pts. Proof. done. Qed.
Lemma pts_centred : centred_matrix 4 2 pts pts'.
Proof.
  split; [done|]. intros i j Hi Hj. unfold centred, column_mean, entry, el.
  destruct i as [|[|[|[|]]]]; [..|lia]; (destruct j as [|[|]]; [..|lia]); cbn; lra.
Qed.
Lemma pts_svd : thin_svd 4 2 pts' pts_u pts_s pts_v.
Proof.
  split; [done|]. change (Nat.min 4 2) with 2.
  split; [|split; [|split; [|split]]].
  - intros l m Hl Hm. destruct l as [|[|]]; [..|lia]; (destruct m as [|[|]]; [..|lia]); unfold pts_u; cbn; lra.
  - intros l m Hl Hm. destruct l as [|[|]]; [..|lia]; (destruct m as [|[|]]; [..|lia]); unfold entry, el; cbn; lra.
  - intros i j Hi Hj. destruct i as [|[|[|[|]]]]; [..|lia]; (destruct j as [|[|]]; [..|lia]); unfold entry, el, pts_u, pts_s; cbn; lra.
  - intros l Hl. unfold pts_s. destruct (l =? 0); lra.
  - intros l m Hl Hm. unfold pts_s. destruct (Nat.eqb_spec l 0), (Nat.eqb_spec m 0); try lra. lia.
Qed.

Example C138_example : ∃ p y,
  pca_fit_transform reals INR (λ _, Some pts_v) (pca_new 1) pts = Ok (p, pts', y) ∧
  total 4 (λ i, entry y i 0) = 0%R ∧
  ∀ w, orthonormal 2 1 w → (spread pts (λ j, w j 0%nat) <= total 4 (λ i, entry y i 0 ^ 2))%R.
Proof.
  destruct (C138_components (λ _, Some pts_v) 1 4 2 pts pts' pts_u pts_s pts_v) as (p & y & Hfit & _ & H0 & _ & _ & Hmost);
    [lia|lia|done|lia|apply pts_centred|done|apply pts_svd|].
  assert (component 1 4 2 0) as Hcomp by (split; cbn; lia).
  exists p, y. split; [done|]. split; [by apply H0|]. intros w Hw. specialize (Hmost 1 w Hw). cbn [total] in Hmost.
  rewrite !Rplus_0_l in Hmost. cbn [total]. rewrite Rplus_0_l. apply Hmost. intros l Hl. by replace l with 0 by lia.
Qed.

Example C139_example : ∃ p y,
  pca_fit_transform reals INR (λ _, Some pts_v) (pca_new 0) pts = Ok (p, pts', y) ∧
  total (mx_cols y) (λ l, (entry y 0 l - entry y 3 l) ^ 2)%R = 125%R.
Proof.
  destruct (C139_distance (λ _, Some pts_v) 0 4 2 pts pts' pts_u pts_s pts_v) as (p & y & Hfit & Hd);
    [lia|lia|done|by left|apply pts_centred|done|apply pts_svd|].
  exists p, y. split; [done|]. rewrite Hd by lia. unfold entry, el. cbn. lra.
Qed.

(** Transform does not subtract the mean: the rows that the model was fitted to get other
    components than FitTransform gave them. *)
Theorem C140_transform_refuted : ∃ r c x x' u s v, 0 < r ∧ 0 < c ∧ shaped r c x ∧ centred_matrix r c x x' ∧
  thin_svd r c x' u s v ∧ ∀ svd, svd x' = Some v →
  ∃ p y z, pca_fit_transform reals INR svd (pca_new 0) x = Ok (p, x', y) ∧ pca_transform reals p x = Ok z ∧
    ∀ i, i < r → entry z i 0 ≠ entry y i 0.
Proof.
  exists 4, 2, pts, pts', pts_u, pts_s, pts_v. split; [lia|]. split; [lia|]. split; [done|]. split; [apply pts_centred|].
  split; [apply pts_svd|]. intros svd Hsvd.
  destruct (C140_shift_partial svd 0 4 2 pts pts' pts_u pts_s pts_v) as (p & y & z & Hfit & Htr & _ & _ & H);
    [lia|lia|done|lia|apply pts_centred|done|apply pts_svd|].
  exists p, y, z. split; [done|]. split; [done|]. intros i Hi. rewrite (H i 0 Hi) by (split; cbn; lia).
  unfold column_mean, entry at 2 3, el. cbn. lra.
Qed.
Print Assumptions C140_transform_refuted.

(** ** C141: the data that the model is fitted to *)

(** The full claim: Fit does not change the matrix it is given.  Proved: the matrix is changed to
    the centred data, and fitting to that again changes nothing. *)
Theorem C141_fit_partial svd n r c x x' v : 0 < r → 0 < c → shaped r c x → (0 <= n)%Z →
  centred_matrix r c x x' → svd x' = Some v →
  pca_fit reals INR svd (pca_new n) x = Ok (Pca n (Some v), x') ∧
  pca_fit reals INR svd (pca_new n) x' = Ok (Pca n (Some v), x').
Proof.
  intros Hr Hc Hx Hn [Hs He] Hv. split; [by apply (fit_ok svd r c)|]. apply (fit_ok svd r c); try done.
  intros i j Hi Hj. unfold centred, column_mean at 1. pose proof Hs as (-> & _ & _).
  rewrite (total_ext r _ (λ i, centred x i j)) by auto. rewrite (centred_sum r c) by done. unfold Rdiv. lra.
Qed.
Print Assumptions C141_fit_partial.

Theorem C141_unchanged_refuted : ∃ r c x x' u s v, 0 < r ∧ 0 < c ∧ shaped r c x ∧ thin_svd r c x' u s v ∧
  ∀ svd, svd x' = Some v → ∃ p, pca_fit reals INR svd (pca_new 0) x = Ok (p, x') ∧ ∀ i j, i < r → j < c → entry x' i j ≠ entry x i j.
Proof.
  exists 4, 2, pts, pts', pts_u, pts_s, pts_v. split; [lia|]. split; [lia|]. split; [done|]. split; [apply pts_svd|].
  intros svd Hsvd. exists (Pca 0 (Some pts_v)). split.
  - apply (C141_fit_partial svd 0 4 2); [lia|lia|done|lia|apply pts_centred|done].
  - intros i j Hi Hj. unfold entry, el.
    destruct i as [|[|[|[|]]]]; [..|lia]; (destruct j as [|[|]]; [..|lia]); cbn; lra.
Qed.
Print Assumptions C141_unchanged_refuted.

Example C141_example : pca_fit reals INR (λ _, Some pts_v) (pca_new 2) pts = Ok (Pca 2 (Some pts_v), pts').
Proof. apply (C141_fit_partial (λ _, Some pts_v) 2 4 2); [lia|lia|done|lia|apply pts_centred|done]. Qed.

(** ** C142: the number of components *)

(** The full claim: the result has as many columns as components were asked for, and as many as
    there are features if zero were.  Proved for a number from one to the number of features; for
    zero or a larger one there is one column for each feature or row, whichever are fewer. *)
Theorem C142_columns_partial svd n r c x x' u s v : 0 < r → 0 < c → shaped r c x → (0 <= n)%Z →
  centred_matrix r c x x' → svd x' = Some v → thin_svd r c x' u s v →
  ∃ p y, pca_fit_transform reals INR svd (pca_new n) x = Ok (p, x', y) ∧
    ((0 < n <= Z.of_nat c)%Z → Z.of_nat (mx_cols y) = n) ∧
    ((n = 0 ∨ Z.of_nat c < n)%Z → mx_cols y = Nat.min r c) ∧
    ∀ i l, i < r → Nat.min r c <= l → l < mx_cols y → entry y i l = 0%R.
Proof.
  intros Hr Hc Hx Hn Hx' Hv Hsvd. destruct (fit_transform_ok svd n r c x x' u s v) as (y & Hfit & Hy & Hey); try done.
  exists (Pca n (Some v)), y. split; [done|]. destruct Hy as (_ & -> & _). split; [|split].
  - intros H. unfold kept. destruct (Z.eqb_spec n 0); [lia|]. cbn [orb]. destruct (Z.ltb_spec (Z.of_nat c) n); lia.
  - intros H. unfold kept. destruct (Z.eqb_spec n 0); [done|]. cbn [orb]. destruct (Z.ltb_spec (Z.of_nat c) n); lia.
  - intros i l Hi Hle Hl. rewrite Hey by done. by destruct (Nat.ltb_spec l (Nat.min r c)); [lia|].
Qed.
Print Assumptions C142_columns_partial.

(** The calls that panic: a negative number of components, a model that was not fitted, and data
    with another number of features than the model was fitted to. *)
Theorem C142_refused : 
  (∀ svd n r c x x' v, 0 < r → 0 < c → shaped r c x → centred_matrix r c x x' → svd x' = Some v → (n < 0)%Z →
     pca_fit reals INR svd (pca_new n) x = Panic) ∧
  (∀ n x, pca_transform reals (pca_new n) x = Panic) ∧
  (∀ n c k v x, shaped c k v → mx_cols x ≠ c → pca_transform reals (Pca n (Some v)) x = Panic).
Proof.
  split; [|split].
  - intros svd n r c x x' v Hr Hc Hx [Hs He] Hv Hn. unfold pca_fit. rewrite (mean_ok r c) by done. cbn [mbind res_bind].
    destruct (sub_ok r c x Hx) as (x'' & -> & Hs' & He'). cbn [mbind res_bind].
    assert (x'' = x') as -> by (apply (shaped_eq r c); [done|done|]; intros i j Hi Hj; by rewrite He, He').
    rewrite Hv. cbn [pc_number pca_new]. by destruct (Z.ltb_spec n 0); [|lia].
  - done.
  - intros n c k v x (Hc & _ & _) Hne. unfold pca_transform, mx_mul. cbn [pc_svd].
    destruct (Nat.eqb_spec (mx_cols x) (mx_rows v)); [congruence|done].
Qed.
Print Assumptions C142_refused.

(** Two points with three features have two components. *)
Definition two : mx R := MX 2 3 (map IZR [0; 0; 0; 0; 0; 0]%Z).
Definition two_v : mx R := MX 3 2 (map IZR [1; 0; 0; 1; 0; 0]%Z).
Theorem C142_features_refuted : ∃ r c x x' u s v, 0 < r ∧ 0 < c ∧ shaped r c x ∧ centred_matrix r c x x' ∧
  thin_svd r c x' u s v ∧ ∀ svd, svd x' = Some v →
  ∃ p y, pca_fit_transform reals INR svd (pca_new 0) x = Ok (p, x', y) ∧ mx_cols y < c.
Proof.
  assert (centred_matrix 2 3 two two) as H1.
  { split; [done|]. intros i j Hi Hj. unfold centred, column_mean, entry, el.
    destruct i as [|[|]]; [..|lia]; (destruct j as [|[|[|]]]; [..|lia]); cbn; lra. }
  assert (thin_svd 2 3 two (λ i l, if i =? l then 1 else 0)%R (λ _, 0%R) two_v) as H2.
  { split; [done|]. change (Nat.min 2 3) with 2. split; [|split; [|split; [|split]]].
    - intros l m Hl Hm. destruct l as [|[|]]; [..|lia]; (destruct m as [|[|]]; [..|lia]); cbn; lra.
    - intros l m Hl Hm. destruct l as [|[|]]; [..|lia]; (destruct m as [|[|]]; [..|lia]); unfold entry, el; cbn; lra.
    - intros i j Hi Hj. destruct i as [|[|]]; [..|lia]; (destruct j as [|[|[|]]]; [..|lia]); unfold entry, el; cbn; lra.
    - intros; lra.
    - intros; lra. }
  exists 2, 3, two, two, (λ i l, if i =? l then 1 else 0)%R, (λ _, 0%R), two_v.
  split; [lia|]. split; [lia|]. split; [done|]. split; [done|]. split; [done|]. intros svd Hsvd.
  destruct (C142_columns_partial svd 0 2 3 two two _ _ two_v ltac:(lia) ltac:(lia) ltac:(done) ltac:(lia) H1 Hsvd H2)
    as (p & y & Hfit & _ & H & _).
  exists p, y. split; [done|]. rewrite H by (by left). cbn. lia.
Qed.
Print Assumptions C142_features_refuted.

Example C142_example : ∃ p y, pca_fit_transform reals INR (λ _, Some pts_v) (pca_new 1) pts = Ok (p, pts', y) ∧ mx_cols y = 1.
Proof.
  destruct (C142_columns_partial (λ _, Some pts_v) 1 4 2 pts pts' pts_u pts_s pts_v) as (p & y & Hfit & H & _);
    [lia|lia|done|lia|apply pts_centred|done|apply pts_svd|].
  exists p, y. split; [done|]. specialize (H ltac:(lia)). lia.
Qed.
