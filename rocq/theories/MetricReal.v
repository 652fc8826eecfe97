(** The distance functions over the real numbers. *)
From Coq Require Import Reals Lra Psatz.
From Verif Require Import Prelude MetricModel MetricSpec MetricProofs.
Local Open Scope nat_scope.

(** ** Sums *)

Lemma total_ext n f g : (∀ k, k < n → f k = g k) → total n f = total n g.
Proof. intros H. induction n as [|n IH]; [done|]. cbn. rewrite IH, H; [done|lia|]. intros. apply H. lia. Qed.

Lemma total_nonneg n f : (∀ k, k < n → (0 <= f k)%R) → (0 <= total n f)%R.
Proof.
  induction n as [|n IH]; intros H; cbn; [lra|]. pose proof (H n). specialize (IH (λ k Hk, H k ltac:(lia))).
  specialize (H n ltac:(lia)). lra.
Qed.

Lemma total_zero n f : (∀ k, k < n → (0 <= f k)%R) → total n f = 0%R ↔ ∀ k, k < n → f k = 0%R.
Proof.
  induction n as [|n IH]; intros H; cbn; [split; [intros; lia|done]|].
  assert (∀ k, k < n → (0 <= f k)%R) as H' by (intros; apply H; lia).
  pose proof (total_nonneg n f H') as Ht. pose proof (H n ltac:(lia)) as Hn. specialize (IH H'). split.
  - intros E k Hk. assert (total n f = 0%R) as E1 by lra. destruct (decide (k = n)) as [->|]; [lra|].
    apply IH; [done|lia].
  - intros E. rewrite (E n) by lia. assert (total n f = 0%R) as -> by (apply IH; intros; apply E; lia). lra.
Qed.

Lemma total_le n f g : (∀ k, k < n → (f k <= g k)%R) → (total n f <= total n g)%R.
Proof.
  induction n as [|n IH]; intros H; cbn; [lra|]. specialize (IH (λ k Hk, H k ltac:(lia))). specialize (H n ltac:(lia)). lra.
Qed.

Lemma total_plus n f g : total n (λ k, f k + g k)%R = (total n f + total n g)%R.
Proof. induction n as [|n IH]; cbn; [lra|]. rewrite IH. lra. Qed.

Lemma total_scale n a f : total n (λ k, a * f k)%R = (a * total n f)%R.
Proof. induction n as [|n IH]; cbn; [lra|]. rewrite IH. lra. Qed.

(** Cauchy and Schwarz. *)
Lemma cauchy n f g : ((total n (λ k, f k * g k)) ^ 2 <= total n (λ k, f k * f k) * total n (λ k, g k * g k))%R.
Proof.
  induction n as [|n IH]; cbn [total]; [lra|].
  set (S := total n (λ k, f k * g k)%R) in *. set (F := total n (λ k, f k * f k)%R) in *.
  set (G := total n (λ k, g k * g k)%R) in *.
  assert (0 <= F)%R as HF by (apply total_nonneg; intros; nra).
  assert (0 <= G)%R as HG by (apply total_nonneg; intros; nra).
  set (a := f n). set (b := g n).
  (* (2 a b S)^2 <= 4 a^2 b^2 F G <= (a^2 G + b^2 F)^2 *)
  assert (2 * a * b * S <= a * a * G + b * b * F)%R as H.
  { apply Rnot_lt_le. intros Hlt. assert (0 <= a * a * G + b * b * F)%R by nra.
    assert ((a * a * G + b * b * F) ^ 2 < (2 * a * b * S) ^ 2)%R by nra.
    assert ((2 * a * b * S) ^ 2 <= 4 * (a * a) * (b * b) * (F * G))%R.
    { replace ((2 * a * b * S) ^ 2)%R with (4 * (a * a) * (b * b) * (S ^ 2))%R by ring.
      apply Rmult_le_compat_l; [nra|exact IH]. }
    assert (0 <= (a * a * G - b * b * F) ^ 2)%R by apply pow2_ge_0. nra. }
  nra.
Qed.

(** ** The folds *)

Lemma foldl_total {E} (g : E → R) (d : E) l :
  foldl (λ acc e, acc + g e)%R 0%R l = total (length l) (λ k, g (nth k l d)).
Proof.
  induction l as [|e l IH] using rev_ind; [done|].
  rewrite foldl_app, app_length. cbn [foldl length]. replace (length l + 1) with (S (length l)) by lia. cbn [total].
  rewrite IH, app_nth2, Nat.sub_diag by lia. cbn [nth]. f_equal. apply total_ext. intros k Hk. by rewrite app_nth1.
Qed.

Lemma nth_zip {X Y} (l : list X) (l' : list Y) a b k : length l = length l' →
  nth k (zip l l') (a, b) = (nth k l a, nth k l' b).
Proof.
  revert l' k. induction l as [|u l IH]; intros [|v l'] [|k] H; try discriminate H; try done. cbn. apply IH. by injection H.
Qed.

Lemma zip_length {X Y} (l : list X) (l' : list Y) : length l = length l' → length (zip l l') = length l.
Proof. intros H. rewrite zip_with_length. lia. Qed.

Section pair.
  Context (r c : nat) (x y : mx R) (Hx : shaped r c x) (Hy : shaped r c y).

  Lemma lengths : length (mx_data x) = r * c ∧ length (mx_data y) = r * c.
  Proof using Hx Hy. destruct Hx as (<- & <- & ?), Hy as (H1 & H2 & H3). unfold well_formed in *. rewrite H3, H1, H2. done. Qed.

  Lemma fold_pairs (h : R → R → R) :
    foldl (λ acc pq, acc + h pq.1 pq.2)%R 0%R (zip (mx_data x) (mx_data y)) =
    total (r * c) (λ k, h (el x k) (el y k)).
  Proof using Hx Hy.
    destruct lengths as [L1 L2]. rewrite (foldl_total (λ pq, h pq.1 pq.2) (0%R, 0%R)), zip_length by congruence.
    rewrite L1. apply total_ext. intros k Hk. by rewrite nth_zip by congruence.
  Qed.

  Lemma euclidean_real : euclidean reals x y =
    Ok (R_sqrt.sqrt (total (r * c) (λ k, (el x k - el y k) * (el x k - el y k))%R)).
  Proof using Hx Hy.
    rewrite (euclidean_fold reals r c x y Hx Hy). cbn [reals a_sqrt a_add a_mul a_sub a_zero].
    by rewrite (fold_pairs (λ p q, (p - q) * (p - q))%R).
  Qed.

  Lemma manhattan_real : manhattan reals x y = Ok (total (r * c) (λ k, Rabs (el x k - el y k))).
  Proof using Hx Hy.
    rewrite (manhattan_fold reals r c x y Hx Hy). cbn [reals a_abs a_add a_sub a_zero].
    by rewrite (fold_pairs (λ p q, Rabs (p - q))).
  Qed.

  Lemma inner_real : inner_product reals x y = Ok (total (r * c) (λ k, el x k * el y k)%R).
  Proof using Hx Hy.
    rewrite (inner_fold reals r c x y Hx Hy). cbn [reals a_mul a_add a_zero].
    by rewrite (fold_pairs (λ p q, p * q)%R).
  Qed.

  Lemma foldl_max l : ∀ a, let m := foldl Rmax a l in
    (a <= m)%R ∧ (∀ v, v ∈ l → (v <= m)%R) ∧ (m = a ∨ m ∈ l).
  Proof.
    induction l as [|v l IH]; intros a; cbn [foldl].
    { split; [lra|]. split; [|by left]. intros v Hv. by apply elem_of_nil in Hv. }
    destruct (IH (Rmax a v)) as (H1 & H2 & H3). split; [|split].
    - pose proof (Rmax_l a v). lra.
    - intros u Hu. apply elem_of_cons in Hu as [->|Hu]; [|by apply H2]. pose proof (Rmax_r a v). lra.
    - destruct H3 as [H3|H3]; [|right; by right]. rewrite H3. unfold Rmax. destruct (Rle_dec a v); [right; left|by left].
  Qed.

  Lemma chebyshev_real : ∃ m, chebyshev reals x y = Ok m ∧
    (0 <= m)%R ∧ (∀ k, k < r * c → (Rabs (el x k - el y k) <= m)%R) ∧
    (m = 0%R ∨ ∃ k, k < r * c ∧ m = Rabs (el x k - el y k)).
  Proof using Hx Hy.
    rewrite (chebyshev_fold reals r c x y Hx Hy). cbn [reals a_abs a_max a_sub a_zero].
    destruct lengths as [L1 L2].
    set (z := zip (mx_data x) (mx_data y)). assert (length z = r * c) as Lz by (unfold z; rewrite zip_length; congruence).
    assert (foldl (λ acc pq, Rmax acc (Rabs (pq.1 - pq.2))) 0%R z = foldl Rmax 0%R (map (λ pq, Rabs (pq.1 - pq.2)) z)) as ->.
    { clear. generalize 0%R. induction z as [|e z IH]; intros a; [done|]. cbn. apply IH. }
    destruct (foldl_max (map (λ pq, Rabs (pq.1 - pq.2)) z) 0%R) as (H1 & H2 & H3).
    eexists. split; [done|]. split; [exact H1|]. split.
    - intros k Hk. apply H2. apply elem_of_list_fmap. exists (nth k z (0%R, 0%R)).
      split; [|apply elem_of_list_In, nth_In; lia]. unfold z. rewrite nth_zip by congruence. done.
    - destruct H3 as [H3|H3]; [by left|right]. apply elem_of_list_fmap in H3 as (pq & E & Hin).
      apply elem_of_list_In, (In_nth _ _ (0%R, 0%R)) in Hin as (k & Hk & Ek). exists k. split; [lia|].
      rewrite E. unfold z in Ek. rewrite nth_zip in Ek by congruence. rewrite <- Ek. done.
  Qed.

  Lemma mx_ext : (∀ k, k < r * c → el x k = el y k) ↔ x = y.
  Proof using Hx Hy.
    split; [|by intros ->]. intros H. destruct lengths as [L1 L2].
    destruct Hx as (E1 & E2 & _), Hy as (E3 & E4 & _). destruct x as [r1 c1 d1], y as [r2 c2 d2]. cbn in *.
    subst. f_equal. apply (nth_ext _ _ 0%R 0%R); [congruence|]. intros k Hk. apply H. lia.
  Qed.
End pair.

(** ** Metrics *)

Lemma triangle_abs p q s : (Rabs (p - s) <= Rabs (p - q) + Rabs (q - s))%R.
Proof. replace (p - s)%R with ((p - q) + (q - s))%R by ring. apply Rabs_triang. Qed.

Lemma abs_zero p q : Rabs (p - q) = 0%R ↔ p = q.
Proof.
  split; [|intros ->; rewrite Rminus_diag_eq, Rabs_R0; done].
  intros H. destruct (Req_EM_T (p - q) 0) as [E|E]; [lra|]. by apply Rabs_no_R0 in E.
Qed.

Lemma manhattan_metric : is_metric (manhattan reals).
Proof.
  intros r c x y z Hx Hy Hz. rewrite (manhattan_real r c x y), (manhattan_real r c y x), (manhattan_real r c x z), (manhattan_real r c y z) by done.
  do 4 eexists. do 4 (split; [done|]). split; [|split; [|split]].
  - apply total_nonneg. intros. apply Rabs_pos.
  - rewrite total_zero by (intros; apply Rabs_pos). rewrite <- (mx_ext r c x y Hx Hy).
    split; intros H k Hk; [apply abs_zero|apply abs_zero]; auto.
  - apply total_ext. intros. apply Rabs_minus_sym.
  - rewrite <- total_plus. apply total_le. intros. apply triangle_abs.
Qed.

Lemma chebyshev_metric : is_metric (chebyshev reals).
Proof.
  intros r c x y z Hx Hy Hz.
  destruct (chebyshev_real r c x y Hx Hy) as (a & -> & A0 & A1 & A2).
  destruct (chebyshev_real r c y x Hy Hx) as (b & -> & B0 & B1 & B2).
  destruct (chebyshev_real r c x z Hx Hz) as (d & -> & D0 & D1 & D2).
  destruct (chebyshev_real r c y z Hy Hz) as (e & -> & E0 & E1 & E2).
  do 4 eexists. do 4 (split; [done|]). split; [done|split; [|split]].
  - rewrite <- (mx_ext r c x y Hx Hy). split.
    + intros -> k Hk. apply abs_zero. specialize (A1 k Hk). pose proof (Rabs_pos (el x k - el y k)). lra.
    + intros H. destruct A2 as [A2|(k & Hk & A2)]; [done|]. rewrite A2. by apply abs_zero, H.
  - apply Rle_antisym.
    + destruct A2 as [->|(k & Hk & ->)]; [done|]. rewrite Rabs_minus_sym. by apply B1.
    + destruct B2 as [->|(k & Hk & ->)]; [done|]. rewrite Rabs_minus_sym. by apply A1.
  - destruct D2 as [->|(k & Hk & ->)]; [lra|]. pose proof (triangle_abs (el x k) (el y k) (el z k)).
    specialize (A1 k Hk). specialize (E1 k Hk). lra.
Qed.

Lemma sqrt_sum_triangle n f g :
  (R_sqrt.sqrt (total n (λ k, (f k + g k) * (f k + g k))) <=
   R_sqrt.sqrt (total n (λ k, f k * f k)) + R_sqrt.sqrt (total n (λ k, g k * g k)))%R.
Proof.
  set (F := total n (λ k, f k * f k)%R). set (G := total n (λ k, g k * g k)%R).
  assert (0 <= F)%R as HF by (apply total_nonneg; intros; nra).
  assert (0 <= G)%R as HG by (apply total_nonneg; intros; nra).
  pose proof (sqrt_pos F). pose proof (sqrt_pos G). pose proof (sqrt_sqrt F HF). pose proof (sqrt_sqrt G HG).
  set (S := total n (λ k, f k * g k)%R).
  assert (total n (λ k, (f k + g k) * (f k + g k))%R = F + G + 2 * S)%R as ->.
  { unfold F, G, S. rewrite <- (total_scale n 2), <- !total_plus. apply total_ext. intros. ring. }
  assert (S <= R_sqrt.sqrt F * R_sqrt.sqrt G)%R as HS.
  { pose proof (cauchy n f g) as Hc. fold S F G in Hc. apply Rnot_lt_le. intros Hlt.
    assert (0 <= R_sqrt.sqrt F * R_sqrt.sqrt G)%R by nra.
    assert ((R_sqrt.sqrt F * R_sqrt.sqrt G) * (R_sqrt.sqrt F * R_sqrt.sqrt G) < S * S)%R by nra.
    assert ((R_sqrt.sqrt F * R_sqrt.sqrt G) * (R_sqrt.sqrt F * R_sqrt.sqrt G) = F * G)%R as Hsq.
    { transitivity ((R_sqrt.sqrt F * R_sqrt.sqrt F) * (R_sqrt.sqrt G * R_sqrt.sqrt G))%R; [ring|congruence]. }
    replace (S ^ 2)%R with (S * S)%R in Hc by ring. lra. }
  rewrite <- (sqrt_square (R_sqrt.sqrt F + R_sqrt.sqrt G)) by lra. apply sqrt_le_1_alt. nra.
Qed.

Lemma euclidean_metric : is_metric (euclidean reals).
Proof.
  intros r c x y z Hx Hy Hz. rewrite (euclidean_real r c x y), (euclidean_real r c y x), (euclidean_real r c x z), (euclidean_real r c y z) by done.
  do 4 eexists. do 4 (split; [done|]).
  assert (∀ u v : mx R, (0 <= total (r * c) (λ k, (el u k - el v k) * (el u k - el v k))%R)%R) as Hpos.
  { intros u v. apply total_nonneg. intros k _. apply (Rle_0_sqr (el u k - el v k)). }
  split; [|split; [|split]].
  - apply sqrt_pos.
  - rewrite <- (mx_ext r c x y Hx Hy). split.
    + intros H. apply sqrt_eq_0 in H; [|apply Hpos]. rewrite total_zero in H by (intros k _; apply (Rle_0_sqr (el x k - el y k))).
      intros k Hk. specialize (H k Hk). apply Rmult_integral in H. lra.
    + intros H. rewrite (total_ext _ _ (λ _, 0 * 0)%R), total_scale, Rmult_0_l, sqrt_0; [done|].
      intros k Hk. rewrite (H k Hk). ring.
  - f_equal. apply total_ext. intros. ring.
  - rewrite (total_ext _ (λ k, (el x k - el z k) * (el x k - el z k))%R
      (λ k, ((el x k - el y k) + (el y k - el z k)) * ((el x k - el y k) + (el y k - el z k)))%R) by (intros; ring).
    apply (sqrt_sum_triangle (r * c) (λ k, el x k - el y k)%R (λ k, el y k - el z k)%R).
Qed.

(** ** Canberra *)

Definition can (p q : R) : R := (Rabs (p - q) / (Rabs p + Rabs q))%R.

Lemma step_can p q : cranberra_step reals (Rabs (p - q)) (Rabs p + Rabs q)%R = can p q.
Proof.
  unfold cranberra_step, can. cbn [reals a_eqb a_zero a_div].
  destruct (Req_EM_T (Rabs (p - q)) 0) as [E|E]; [|done].
  destruct (Req_EM_T (Rabs p + Rabs q) 0) as [E'|E']; [|done]. cbn [andb]. rewrite E. lra.
Qed.

Lemma can_sym p q : can p q = can q p.
Proof. unfold can. by rewrite Rabs_minus_sym, Rplus_comm. Qed.

Lemma can_opp p q : can (- p) (- q) = can p q.
Proof. unfold can. rewrite !Rabs_Ropp. f_equal. rewrite <- Rabs_Ropp. f_equal. ring. Qed.

Lemma den_pos p q : p ≠ 0%R ∨ q ≠ 0%R → (0 < Rabs p + Rabs q)%R.
Proof.
  pose proof (Rabs_pos p). pose proof (Rabs_pos q).
  intros [H1|H1]; apply Rabs_pos_lt in H1; lra.
Qed.

Lemma can_self p : can p p = 0%R.
Proof. unfold can. rewrite Rminus_diag_eq, Rabs_R0 by done. lra. Qed.

Lemma can_range p q : (0 <= can p q <= 1)%R.
Proof.
  destruct (Req_EM_T p 0) as [Hp|Hp]; [destruct (Req_EM_T q 0) as [Hq|Hq]|].
  { subst. rewrite can_self. lra. }
  all: pose proof (den_pos p q ltac:(auto)) as Hd; unfold can; split;
    [apply Rmult_le_pos; [apply Rabs_pos|apply Rlt_le, Rinv_0_lt_compat; done]|];
    apply (Rmult_le_reg_r (Rabs p + Rabs q)); [done|]; unfold Rdiv;
    rewrite Rmult_assoc, Rinv_l, Rmult_1_r, Rmult_1_l by lra;
    pose proof (Rabs_triang p (- q)) as Ht; rewrite Rabs_Ropp in Ht; exact Ht.
Qed.

Lemma can_zero p q : can p q = 0%R ↔ p = q.
Proof.
  split; [|intros ->; apply can_self]. intros H.
  destruct (Req_EM_T p 0) as [Hp|Hp]; [destruct (Req_EM_T q 0) as [Hq|Hq]; [congruence|]|].
  all: pose proof (den_pos p q ltac:(auto)) as Hd; apply abs_zero;
    unfold can, Rdiv in H; apply Rmult_integral in H as [H|H]; [done|];
    pose proof (Rinv_0_lt_compat _ Hd); lra.
Qed.

(** On opposite sides of zero the value is 1. *)
Lemma can_opposite p q : (p <= 0 <= q)%R → p ≠ q → can p q = 1%R.
Proof.
  intros [H1 H2] Hne. unfold can. rewrite (Rabs_left1 p), (Rabs_right q), Rabs_left1 by lra. field. lra.
Qed.

Lemma can_positive p q : (0 < p)%R → (0 < q)%R → (p <= q)%R → can p q = ((q - p) / (q + p))%R.
Proof.
  intros H1 H2 H3. unfold can. rewrite (Rabs_right p), (Rabs_right q), Rabs_left1 by lra.
  replace (- (p - q))%R with (q - p)%R by ring. by rewrite (Rplus_comm p q).
Qed.

Lemma can_mono a b t : (0 < t)%R → (t <= a)%R → (a <= b)%R → (can t a <= can t b)%R.
Proof.
  intros Ht Ha Hb. rewrite !can_positive by lra.
  assert ((b - t) / (b + t) - (a - t) / (a + t) = 2 * t * (b - a) / ((b + t) * (a + t)))%R as E by (field; lra).
  assert (0 <= 2 * t * (b - a) / ((b + t) * (a + t)))%R; [|lra].
  apply Rmult_le_pos; [nra|]. apply Rlt_le, Rinv_0_lt_compat. nra.
Qed.

Lemma can_mono' a b t : (0 < a)%R → (a <= b)%R → (b <= t)%R → (can b t <= can a t)%R.
Proof.
  intros Ha Hb Ht. rewrite !can_positive by lra.
  assert ((t - a) / (t + a) - (t - b) / (t + b) = 2 * t * (b - a) / ((t + a) * (t + b)))%R as E by (field; lra).
  assert (0 <= 2 * t * (b - a) / ((t + a) * (t + b)))%R; [|lra].
  apply Rmult_le_pos; [nra|]. apply Rlt_le, Rinv_0_lt_compat. nra.
Qed.

Lemma can_triangle_pos p q s : (0 < p)%R → (0 < q)%R → (p <= s)%R → (can p s <= can p q + can q s)%R.
Proof.
  intros Hp Hq Hs. pose proof (can_range p q). pose proof (can_range q s).
  destruct (Rle_dec q p) as [H1|H1]; [pose proof (can_mono' q p s Hq H1 Hs); lra|].
  destruct (Rle_dec s q) as [H2|H2]; [pose proof (can_mono s q p Hp Hs H2); lra|].
  rewrite !can_positive by lra.
  assert ((q - p) / (q + p) + (s - q) / (s + q) - (s - p) / (s + p) =
    (q - p) * (s - q) * (s - p) / ((q + p) * (s + q) * (s + p)))%R as E by (field; lra).
  assert (0 <= (q - p) * (s - q) * (s - p) / ((q + p) * (s + q) * (s + p)))%R; [|lra].
  apply Rmult_le_pos.
  - apply Rmult_le_pos; [apply Rmult_le_pos; lra|lra].
  - apply Rlt_le, Rinv_0_lt_compat. apply Rmult_lt_0_compat; [apply Rmult_lt_0_compat; lra|lra].
Qed.

Lemma can_triangle p q s : (can p s <= can p q + can q s)%R.
Proof.
  assert (∀ p q s, (0 < p)%R → (can p s <= can p q + can q s)%R) as H.
  { clear. intros p q s Hp. pose proof (can_range p q). pose proof (can_range q s). pose proof (can_range p s).
    destruct (Rle_dec q 0) as [Hq|Hq].
    { rewrite (can_sym p q), (can_opposite q p) by lra. lra. }
    destruct (Rle_dec s 0) as [Hs|Hs].
    { rewrite (can_sym q s), (can_opposite s q) by lra. lra. }
    destruct (Rle_dec p s) as [Hps|Hps]; [apply can_triangle_pos; lra|].
    rewrite (can_sym p s), (can_sym p q), (can_sym q s), Rplus_comm. apply can_triangle_pos; lra. }
  destruct (Rtotal_order p 0) as [Hp|[->|Hp]]; [|clear H|apply H; lra].
  - rewrite <- (can_opp p s), <- (can_opp p q), <- (can_opp q s). apply H. lra.
  - pose proof (can_range 0 q). pose proof (can_range q s). pose proof (can_range 0 s).
    destruct (Req_EM_T q 0) as [->|Hq]; [lra|].
    assert (can 0 q = 1%R) as ->; [|lra].
    destruct (Rle_dec 0 q); [apply can_opposite; lra|rewrite can_sym; apply can_opposite; lra].
Qed.

Lemma cranberra_real r c x y : shaped r c x → shaped r c y →
  cranberra reals x y = Ok (total (r * c) (λ k, can (el x k) (el y k))).
Proof.
  intros Hx Hy. rewrite (cranberra_fold reals r c x y Hx Hy). cbn [reals a_abs a_add a_sub a_zero].
  rewrite (fold_pairs r c x y Hx Hy (λ p q, cranberra_step reals (Rabs (p - q)) (Rabs p + Rabs q)%R)).
  f_equal. apply total_ext. intros. apply step_can.
Qed.

Lemma cranberra_metric : is_metric (cranberra reals).
Proof.
  intros r c x y z Hx Hy Hz. rewrite (cranberra_real r c x y), (cranberra_real r c y x), (cranberra_real r c x z), (cranberra_real r c y z) by done.
  do 4 eexists. do 4 (split; [done|]). split; [|split; [|split]].
  - apply total_nonneg. intros. apply can_range.
  - rewrite total_zero by (intros; apply can_range). rewrite <- (mx_ext r c x y Hx Hy).
    split; intros H k Hk; [apply can_zero|apply can_zero]; auto.
  - apply total_ext. intros. apply can_sym.
  - rewrite <- total_plus. apply total_le. intros. apply can_triangle.
Qed.

(** ** Cosine and the kernels *)

Lemma cosine_real r c x y : shaped r c x → shaped r c y →
  cosine reals x y = Ok (1 - total (r * c) (λ k, el x k * el y k) /
    (R_sqrt.sqrt (total (r * c) (λ k, el x k * el x k)) * R_sqrt.sqrt (total (r * c) (λ k, el y k * el y k))))%R.
Proof.
  intros Hx Hy. unfold cosine. rewrite (inner_real r c x y), (inner_real r c x x), (inner_real r c y y) by done. done.
Qed.

Lemma squares_pos n f : (∃ k, k < n ∧ f k ≠ 0%R) → (0 < total n (λ k, f k * f k))%R.
Proof.
  intros (k & Hk & Hne).
  assert (∀ k, k < n → (0 <= f k * f k)%R) as Hs by (intros j _; apply (Rle_0_sqr (f j))).
  pose proof (total_nonneg n _ Hs). destruct (Req_EM_T (total n (λ k, f k * f k)%R) 0) as [E|E]; [|lra].
  rewrite (total_zero n _ Hs) in E. specialize (E k Hk). apply Rmult_integral in E. lra.
Qed.

Lemma cos_range n f g : (∃ k, k < n ∧ f k ≠ 0%R) → (∃ k, k < n ∧ g k ≠ 0%R) →
  (-1 <= total n (λ k, f k * g k) /
    (R_sqrt.sqrt (total n (λ k, f k * f k)) * R_sqrt.sqrt (total n (λ k, g k * g k))) <= 1)%R.
Proof.
  intros Hf Hg. apply squares_pos in Hf, Hg. pose proof (cauchy n f g) as Hc.
  set (S := total n (λ k, f k * g k)%R) in *. set (F := total n (λ k, f k * f k)%R) in *.
  set (G := total n (λ k, g k * g k)%R) in *.
  pose proof (sqrt_lt_R0 F Hf). pose proof (sqrt_lt_R0 G Hg).
  set (D := (R_sqrt.sqrt F * R_sqrt.sqrt G)%R). assert (0 < D)%R as HD by (apply Rmult_lt_0_compat; done).
  assert (S * S <= D * D)%R as HS.
  { replace (S ^ 2)%R with (S * S)%R in Hc by ring. unfold D.
    replace ((R_sqrt.sqrt F * R_sqrt.sqrt G) * (R_sqrt.sqrt F * R_sqrt.sqrt G))%R
      with ((R_sqrt.sqrt F * R_sqrt.sqrt F) * (R_sqrt.sqrt G * R_sqrt.sqrt G))%R by ring.
    rewrite !sqrt_sqrt by lra. lra. }
  assert (- D <= S <= D)%R as [H1 H2] by (split; apply Rnot_lt_le; intros Hlt; nra).
  split; apply (Rmult_le_reg_r D); try done; unfold Rdiv; rewrite Rmult_assoc, Rinv_l, Rmult_1_r by lra; lra.
Qed.

Lemma rbf_real r c gamma x y : shaped r c x → shaped r c y →
  rbf_kernel reals exp gamma x y =
  Ok (exp (- (gamma * total (r * c) (λ k, (el x k - el y k) * (el x k - el y k)))))%R.
Proof.
  intros Hx Hy. unfold rbf_kernel. rewrite (euclidean_real r c x y Hx Hy). cbn [mbind res_bind reals a_mul a_sub a_zero].
  rewrite sqrt_sqrt; [f_equal; f_equal; ring|]. apply total_nonneg. intros k _. apply (Rle_0_sqr (el x k - el y k)).
Qed.

Lemma column0_ok r c (x : mx R) : shaped r c x → 0 < c →
  column0 x = Ok (map (λ i, el x (i * c)) (seq 0 r)).
Proof.
  intros (H1 & H2 & H3) Hc. unfold column0. rewrite H2.
  replace (c =? 0) with false by (symmetry; apply Nat.eqb_neq; lia). rewrite H1.
  assert (∀ l, (∀ i, i ∈ l → i < r) → res_mapM (λ i, mx_at x i 0) l = Ok (map (λ i, el x (i * c)) l)) as H.
  { induction l as [|i l IH]; intros Hl; [done|]. cbn [res_mapM map].
    rewrite (at_ok x i 0 (el x (i * c))).
    - cbn [mbind res_bind]. rewrite IH; [done|]. intros. apply Hl. by right.
    - rewrite H1. apply Hl. left.
    - lia.
    - rewrite H2, Nat.add_0_r. unfold el. pose proof (Hl i ltac:(left)) as Hi.
      destruct (mx_data x !! (i * c)) as [v|] eqn:E.
      + by erewrite nth_lookup, E.
      + apply lookup_ge_None in E. unfold well_formed in H3. rewrite H3, H1, H2 in E. nia. }
  apply H. intros i Hi. apply elem_of_seq in Hi. lia.
Qed.
