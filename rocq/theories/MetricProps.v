(** Properties C68 and C69: distance functions and kernels. *)
From Coq Require Import Reals Lra.
From Verif Require Import Prelude FloatModel CartFit Id3Props MetricModel MetricSpec MetricProofs MetricReal MetricFloat.
From Flocq Require Import IEEE754.BinarySingleNaN IEEE754.Bits IEEE754.Binary.
Local Open Scope nat_scope.

(** ** C68: the distances over the real numbers *)

(** What each function computes on two matrices of the same shape. *)
Theorem C68_values r c x y : shaped r c x → shaped r c y →
  euclidean reals x y = Ok (R_sqrt.sqrt (total (r * c) (λ k, (el x k - el y k) * (el x k - el y k))%R)) ∧
  manhattan reals x y = Ok (total (r * c) (λ k, Rabs (el x k - el y k))) ∧
  cranberra reals x y = Ok (total (r * c) (λ k, Rabs (el x k - el y k) / (Rabs (el x k) + Rabs (el y k)))%R) ∧
  ∃ m, chebyshev reals x y = Ok m ∧ (0 <= m)%R ∧ (∀ k, k < r * c → (Rabs (el x k - el y k) <= m)%R) ∧
    (m = 0%R ∨ ∃ k, k < r * c ∧ m = Rabs (el x k - el y k)).
Proof.
  intros Hx Hy. split; [by apply euclidean_real|]. split; [by apply manhattan_real|].
  split; [by apply cranberra_real|by apply chebyshev_real].
Qed.
Print Assumptions C68_values.

(** All four are metrics. *)
Theorem C68_metrics :
  is_metric (euclidean reals) ∧ is_metric (manhattan reals) ∧ is_metric (chebyshev reals) ∧ is_metric (cranberra reals).
Proof.
  split; [exact euclidean_metric|]. split; [exact manhattan_metric|].
  split; [exact chebyshev_metric|exact cranberra_metric].
Qed.
Print Assumptions C68_metrics.

(** Two matrices of different shapes make every function panic. *)
Theorem C68_shapes {A} (o : arith A) x y : mx_rows x ≠ mx_rows y ∨ mx_cols x ≠ mx_cols y →
  euclidean o x y = Panic ∧ manhattan o x y = Panic ∧ chebyshev o x y = Panic ∧ cranberra o x y = Panic ∧
  cosine o x y = Panic ∧ ∀ exp gamma, rbf_kernel o exp gamma x y = Panic.
Proof.
  intros H. assert (same_shape x y = false) as E.
  { unfold same_shape. destruct H as [H|H]; apply Nat.eqb_neq in H; rewrite H; [done|apply andb_false_r]. }
  assert (∀ f, mx_map2 f x y = Panic) as Em by (intros f; unfold mx_map2; by rewrite E).
  assert (euclidean o x y = Panic) as Ee by (unfold euclidean; by rewrite Em).
  split; [exact Ee|]. unfold manhattan, chebyshev, cranberra, cosine, inner_product, rbf_kernel. rewrite E, Em, Ee. done.
Qed.
Print Assumptions C68_shapes.

(** A 1 x 2 example: (0, 3) and (4, 0). *)
Definition m_x : mx R := MX 1 2 [0; 3]%R.
Definition m_y : mx R := MX 1 2 [4; 0]%R.
Example C68_ex_shaped : shaped 1 2 m_x ∧ shaped 1 2 m_y ∧ m_x ≠ m_y.
Proof. split; [done|]. split; [done|]. intros [= H _]. lra. Qed.
Example C68_ex_values : euclidean reals m_x m_y = Ok 5%R ∧ manhattan reals m_x m_y = Ok 7%R ∧ chebyshev reals m_x m_y = Ok 4%R.
Proof.
  destruct C68_ex_shaped as (Hx & Hy & _). destruct (C68_values 1 2 m_x m_y Hx Hy) as (-> & -> & _ & m & -> & _ & Hu & He).
  assert (Rabs (el m_x 0 - el m_y 0) = 4%R) as A0 by (unfold el, m_x, m_y; cbn [mx_data nth]; rewrite Rabs_left; lra).
  assert (Rabs (el m_x 1 - el m_y 1) = 3%R) as A1 by (unfold el, m_x, m_y; cbn [mx_data nth]; rewrite Rabs_right; lra).
  split; [|split].
  - f_equal. rewrite <- (sqrt_square 5) by lra. f_equal. unfold el, m_x, m_y. cbn [mx_data nth total Nat.mul Nat.add]. ring.
  - f_equal. cbn [total Nat.mul Nat.add]. rewrite A0, A1. ring.
  - f_equal. pose proof (Hu 0 ltac:(lia)) as H0. rewrite A0 in H0.
    destruct He as [->|(k & Hk & ->)]; [lra|]. destruct k as [|[|k]]; [exact A0| |lia]. rewrite A1 in H0. lra.
Qed.

(** ** C68: the distances in float64 *)

(** On matrices of finite numbers, whatever overflows: the result does not depend on the
    order of the arguments, bit by bit, and it is +0, positive or +Inf, never NaN.  The
    Manhattan and Chebyshev distances are zero exactly on matrices that hold the same
    numbers, the Euclidean distance is zero on those. *)
Theorem C68_float r c x y : shaped r c x → shaped r c y → finite_mx x → finite_mx y →
  (∃ d, manhattan float64 x y = Ok d ∧ manhattan float64 y x = Ok d ∧ nonneg d ∧ (d = pzero ↔ same_numbers x y)) ∧
  (∃ d, chebyshev float64 x y = Ok d ∧ chebyshev float64 y x = Ok d ∧ nonneg d ∧ (d = pzero ↔ same_numbers x y)) ∧
  (∃ d, euclidean float64 x y = Ok d ∧ euclidean float64 y x = Ok d ∧ nonneg d ∧ (same_numbers x y → d = pzero)) ∧
  (∃ d, cranberra float64 x y = Ok d ∧ cranberra float64 y x = Ok d ∧ (x = y → d = pzero)).
Proof.
  intros Hx Hy Fx Fy. split; [by apply (manhattan_float r c)|]. split; [by apply (chebyshev_float r c)|].
  split; [by apply (euclidean_float r c)|by apply (cranberra_float r c)].
Qed.
Print Assumptions C68_float.

(** 0.5 and 1.5, 2 and -1. *)
Definition f_x : mx binary64 := MX 2 1 [b64_of_bits 0x3FE0000000000000; b64_of_bits 0x3FF8000000000000].
Definition f_y : mx binary64 := MX 2 1 [b64_of_bits 0x4000000000000000; b64_of_bits 0xBFF0000000000000].
Example C68_ex_float : shaped 2 1 f_x ∧ shaped 2 1 f_y ∧ finite_mx f_x ∧ finite_mx f_y ∧
  match manhattan float64 f_x f_y with Ok d => bits_of_b64 d = 0x4010000000000000%Z | _ => False end.
Proof.
  split; [done|]. split; [done|]. split; [repeat constructor|]. split; [repeat constructor|]. vm_compute. reflexivity.
Qed.

(** What fails in float64.  The square of a difference underflows: 2^-600 and 0 are at
    Euclidean distance zero. *)
Theorem C68_euclidean_underflow_refuted : ∃ x y, shaped 1 1 x ∧ shaped 1 1 y ∧ finite_mx x ∧ finite_mx y ∧
  ¬ same_numbers x y ∧ euclidean float64 x y = Ok pzero.
Proof.
  exists (MX 1 1 [b64_of_bits 0x1A70000000000000]), (MX 1 1 [pzero]).
  split; [done|]. split; [done|]. split; [repeat constructor|]. split; [repeat constructor|]. split.
  - unfold same_numbers. cbn [mx_data map]. intros [= H]. revert H. cbn [B2R].
    assert (b64_of_bits 0x1A70000000000000 ≠ pzero) as Hne by (intros E; apply (f_equal bits_of_b64) in E; vm_compute in E; discriminate E).
    intros H. apply Hne. apply (nonneg_zero (b64_of_bits 0x1A70000000000000)); [by split|done|exact H].
  - vm_compute. reflexivity.
Qed.
Print Assumptions C68_euclidean_underflow_refuted.

(** The sum of two numbers overflows: 1.5 * 2^1023 and 2^1023 are at Canberra distance
    zero, 2^1023 and -2^1023 at distance NaN. *)
Theorem C68_cranberra_overflow_refuted : ∃ x y z, shaped 1 1 x ∧ shaped 1 1 y ∧ shaped 1 1 z ∧
  finite_mx x ∧ finite_mx y ∧ finite_mx z ∧
  mx_data x ≠ mx_data y ∧ cranberra float64 x y = Ok pzero ∧
  ∃ d, cranberra float64 y z = Ok d ∧ is_nan 53 1024 d = true.
Proof.
  exists (MX 1 1 [b64_of_bits 0x7FE8000000000000]), (MX 1 1 [b64_of_bits 0x7FE0000000000000]),
    (MX 1 1 [b64_of_bits 0xFFE0000000000000]).
  do 3 (split; [done|]). do 3 (split; [repeat constructor|]). split; [|split].
  - cbn [mx_data]. intros E. apply (f_equal (map bits_of_b64)) in E. vm_compute in E. discriminate E.
  - vm_compute. reflexivity.
  - eexists. split; [apply (okb_eq _ pzero); vm_compute; reflexivity|]. vm_compute. reflexivity.
Qed.
Print Assumptions C68_cranberra_overflow_refuted.

(** Rounding breaks the triangle inequality: -1, 2^-54 and 1.5 * 2^-53. *)
Theorem C68_triangle_refuted : ∃ x y z dxy dyz dxz,
  shaped 1 1 x ∧ shaped 1 1 y ∧ shaped 1 1 z ∧ finite_mx x ∧ finite_mx y ∧ finite_mx z ∧
  manhattan float64 x y = Ok dxy ∧ manhattan float64 y z = Ok dyz ∧ manhattan float64 x z = Ok dxz ∧
  b64_compare dxz (b64_plus mode_NE dxy dyz) = Some Gt.
Proof.
  exists (MX 1 1 [b64_of_bits 0xBFF0000000000000]), (MX 1 1 [b64_of_bits 0x3C90000000000000]),
    (MX 1 1 [b64_of_bits 0x3CA8000000000000]). do 3 eexists.
  do 3 (split; [done|]). do 3 (split; [repeat constructor|]).
  do 3 (split; [apply (okb_eq _ pzero); vm_compute; reflexivity|]). vm_compute. reflexivity.
Qed.
Print Assumptions C68_triangle_refuted.

(** ** C69: cosine and kernels over the real numbers *)

(** Between two vectors that are not zero the cosine distance lies in [0, 2], does not
    depend on the order, and is zero from a vector to itself. *)
Theorem C69_cosine r c x y : shaped r c x → shaped r c y →
  (∃ k, k < r * c ∧ el x k ≠ 0%R) → (∃ k, k < r * c ∧ el y k ≠ 0%R) →
  cosine reals x x = Ok 0%R ∧
  ∃ d, cosine reals x y = Ok d ∧ cosine reals y x = Ok d ∧ (0 <= d <= 2)%R ∧
    d = (1 - total (r * c) (λ k, el x k * el y k) /
      (R_sqrt.sqrt (total (r * c) (λ k, el x k * el x k)) * R_sqrt.sqrt (total (r * c) (λ k, el y k * el y k))))%R.
Proof.
  intros Hx Hy Nx Ny. rewrite (cosine_real r c x x), (cosine_real r c x y), (cosine_real r c y x) by done. split.
  - f_equal. apply squares_pos in Nx. rewrite sqrt_sqrt by lra. field. lra.
  - eexists. split; [done|]. split.
    + f_equal. rewrite (total_ext _ (λ k, el y k * el x k)%R (λ k, el x k * el y k)%R) by (intros; ring).
      by rewrite (Rmult_comm (R_sqrt.sqrt (total (r * c) (λ k, el y k * el y k)%R))).
    + split; [|done]. pose proof (cos_range (r * c) (el x) (el y) Nx Ny). lra.
Qed.
Print Assumptions C69_cosine.

(** The radial kernel of a vector and itself is 1; with gamma > 0 it is in (0, 1], equal
    to 1 for equal vectors only, and the order does not matter. *)
Theorem C69_rbf r c gamma x y : shaped r c x → shaped r c y → (0 < gamma)%R →
  rbf_kernel reals exp gamma x x = Ok 1%R ∧
  ∃ k, rbf_kernel reals exp gamma x y = Ok k ∧ rbf_kernel reals exp gamma y x = Ok k ∧
    (0 < k <= 1)%R ∧ (k = 1%R ↔ x = y).
Proof.
  intros Hx Hy Hg. rewrite (rbf_real r c gamma x x), (rbf_real r c gamma x y), (rbf_real r c gamma y x) by done.
  assert (∀ u v : mx R, ∀ k, k < r * c → (0 <= (el u k - el v k) * (el u k - el v k))%R) as Hs
    by (intros u v k _; apply (Rle_0_sqr (el u k - el v k))).
  split.
  - f_equal. rewrite (proj2 (total_zero _ _ (Hs x x))); [rewrite Rmult_0_r, Ropp_0; apply exp_0|]. intros. ring.
  - set (T := total (r * c) (λ k, (el x k - el y k) * (el x k - el y k))%R).
    assert (0 <= T)%R as HT by (apply total_nonneg, Hs).
    eexists. split; [done|]. split; [|split; [split|]].
    + f_equal. f_equal. f_equal. f_equal. apply total_ext. intros. ring.
    + apply exp_pos.
    + destruct (Req_EM_T T 0) as [->|Hne]; [rewrite Rmult_0_r, Ropp_0, exp_0; lra|].
      rewrite <- exp_0. apply Rlt_le, exp_increasing. nra.
    + rewrite <- (mx_ext r c x y Hx Hy). split.
      * intros E. assert (- (gamma * T) = 0)%R as Ez by (apply exp_inv; by rewrite exp_0).
        assert (T = 0%R) as ET by nra. unfold T in ET. rewrite (total_zero _ _ (Hs x y)) in ET.
        intros k Hk. specialize (ET k Hk). apply Rmult_integral in ET. lra.
      * intros E. assert (T = 0%R) as ->; [|by rewrite Rmult_0_r, Ropp_0, exp_0].
        apply total_zero; [apply Hs|]. intros k Hk. rewrite (E k Hk). ring.
Qed.
Print Assumptions C69_rbf.

(** The polynomial kernel on column vectors is (x . y + 1) ^ degree. *)
Theorem C69_poly pow degree r x y : shaped r 1 x → shaped r 1 y →
  poly_kernel reals pow degree x y = Ok (pow (total r (λ k, el x k * el y k) + 1)%R degree).
Proof.
  intros Hx Hy. unfold poly_kernel. rewrite (column0_ok r 1 x), (column0_ok r 1 y) by (done || lia).
  cbn [mbind res_bind]. unfold dot. rewrite !map_length, Nat.eqb_refl. cbn [mbind res_bind reals a_add a_mul a_zero a_one].
  do 2 f_equal. f_equal. set (u := map (λ i, el x (i * 1)) (seq 0 r)). set (v := map (λ i, el y (i * 1)) (seq 0 r)).
  assert (∀ l a, foldl Rplus a l = foldl (λ acc e : R, acc + e)%R a l) as -> by done.
  rewrite (foldl_total (λ e : R, e) 0%R). unfold u, v. rewrite zip_with_length, !map_length, seq_length, Nat.min_id.
  apply total_ext. intros k Hk.
  erewrite nth_lookup. rewrite lookup_zip_with, !list_lookup_fmap, lookup_seq_lt by done. cbn. by rewrite Nat.mul_1_r.
Qed.
Print Assumptions C69_poly.

(** The statement that fails: the distance of a vector to itself is zero.  Under the
    polynomial kernel it is 1, for every degree and every vector. *)
Theorem C69_poly_refuted pow degree r c x : pow 1%R degree = 1%R → shaped r c x → 0 < c →
  poly_distance reals pow degree x x = Ok 1%R.
Proof.
  intros Hp Hx Hc. unfold poly_distance. destruct (map2_shaped r c x x Hx Hx (a_sub reals)) as (m & -> & Hm & Hd).
  cbn [mbind res_bind]. unfold poly_kernel. rewrite (column0_ok r c m Hm Hc). cbn [mbind res_bind]. unfold dot.
  rewrite !map_length, Nat.eqb_refl. cbn [mbind res_bind reals a_add a_mul a_zero a_one a_sqrt].
  assert (∀ k, el m k = 0%R) as Hz.
  { intros k. unfold el. rewrite Hd. clear. cbn [reals a_sub]. revert k. induction (mx_data x) as [|v l IH]; intros [|k]; try done.
    - cbn. ring.
    - apply IH. }
  assert (∀ l, foldl Rplus 0%R (zip_with Rmult (map (λ i, el m (i * c)) l) (map (λ i, el m (i * c)) l)) = 0%R) as ->.
  { induction l as [|i l IH]; [done|]. cbn [map zip_with foldl]. rewrite !Hz, Rmult_0_l, Rplus_0_l. apply IH. }
  by rewrite Rplus_0_l, Hp, sqrt_1.
Qed.
Print Assumptions C69_poly_refuted.

(** On matrices with several columns (rows of a data set, for one) the polynomial kernel
    reads the first column only. *)
Theorem C69_poly_columns_refuted : ∃ x y y', shaped 1 2 x ∧ shaped 1 2 y ∧ shaped 1 2 y' ∧
  total 2 (λ k, el x k * el y k)%R ≠ total 2 (λ k, el x k * el y' k)%R ∧
  ∀ pow degree, poly_kernel reals pow degree x y = poly_kernel reals pow degree x y'.
Proof.
  exists (MX 1 2 [1; 1]%R), (MX 1 2 [1; 2]%R), (MX 1 2 [1; 3]%R). do 3 (split; [done|]). split; [cbn; lra|]. done.
Qed.
Print Assumptions C69_poly_columns_refuted.

(** In float64 the cosine distance of (1, 1, 1) to itself is negative, and that of a zero
    vector to itself is NaN. *)
Theorem C69_cosine_float_refuted : ∃ x z d n,
  shaped 1 3 x ∧ finite_mx x ∧ cosine float64 x x = Ok d ∧ b64_compare d pzero = Some Lt ∧
  shaped 1 1 z ∧ finite_mx z ∧ cosine float64 z z = Ok n ∧ is_nan 53 1024 n = true.
Proof.
  exists (MX 1 3 (replicate 3 (b64_of_bits 0x3FF0000000000000))), (MX 1 1 [pzero]). do 2 eexists.
  split; [done|]. split; [repeat constructor|]. split; [apply (okb_eq _ pzero); vm_compute; reflexivity|].
  split; [vm_compute; reflexivity|]. split; [done|]. split; [repeat constructor|].
  split; [apply (okb_eq _ pzero); vm_compute; reflexivity|]. vm_compute. reflexivity.
Qed.
Print Assumptions C69_cosine_float_refuted.

(** (0, 3) and (4, 0) are orthogonal. *)
Example C69_ex_cosine : (∃ k, k < 1 * 2 ∧ el m_x k ≠ 0%R) ∧ (∃ k, k < 1 * 2 ∧ el m_y k ≠ 0%R) ∧ cosine reals m_x m_y = Ok 1%R.
Proof.
  assert (∃ k, k < 1 * 2 ∧ el m_x k ≠ 0%R) as H1 by (exists 1; split; [lia|cbn; lra]).
  assert (∃ k, k < 1 * 2 ∧ el m_y k ≠ 0%R) as H2 by (exists 0; split; [lia|cbn; lra]).
  split; [exact H1|]. split; [exact H2|]. destruct C68_ex_shaped as (Hx & Hy & _).
  destruct (C69_cosine 1 2 m_x m_y Hx Hy H1 H2) as (_ & d & -> & _ & _ & ->). f_equal.
  cbn [total el m_x m_y mx_data nth Nat.mul Nat.add]. unfold Rdiv.
  replace (0 + 0 * 4 + 3 * 0)%R with 0%R by ring. lra.
Qed.
