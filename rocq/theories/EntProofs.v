(** Proofs about entropies in exact arithmetic. *)
From Coq Require Import Reals Lra.
From Verif Require Import Prelude FloatModel FilterModel CartModel EntModel EntSpec.
Local Open Scope nat_scope.

(** ** Sums *)

Lemma r_sum_cons {A} (f : A → R) x l : r_sum f (x :: l) = (f x + r_sum f l)%R.
Proof. done. Qed.
Lemma r_sum_nil {A} (f : A → R) : r_sum f [] = 0%R.
Proof. done. Qed.
Ltac sums := rewrite ?r_sum_cons, ?r_sum_nil in *.

Lemma r_sum_app {A} (f : A → R) l1 l2 : r_sum f (l1 ++ l2) = (r_sum f l1 + r_sum f l2)%R.
Proof.
  induction l1 as [|x l1 IH]; [rewrite app_nil_l; sums; lra|]. rewrite <- app_comm_cons. sums. lra.
Qed.
Lemma r_sum_ext {A} (f g : A → R) l : (∀ x, x ∈ l → f x = g x) → r_sum f l = r_sum g l.
Proof.
  induction l as [|x l IH]; intros H; sums; [done|]. rewrite H by left. f_equal. apply IH. intros y Hy. apply H. by right.
Qed.
Lemma r_sum_perm {A} (f : A → R) l l' : l ≡ₚ l' → r_sum f l = r_sum f l'.
Proof. induction 1; sums; lra. Qed.
Lemma r_sum_plus {A} (f g : A → R) l : r_sum (λ x, f x + g x)%R l = (r_sum f l + r_sum g l)%R.
Proof. induction l as [|x l IH]; cbn [map]; sums; lra. Qed.
Lemma r_sum_scale {A} (f : A → R) k l : r_sum (λ x, k * f x)%R l = (k * r_sum f l)%R.
Proof. induction l as [|x l IH]; cbn [map]; sums; [lra|]. rewrite IH. lra. Qed.
Lemma r_sum_opp {A} (f : A → R) l : r_sum (λ x, - f x)%R l = (- r_sum f l)%R.
Proof. induction l as [|x l IH]; cbn [map]; sums; lra. Qed.
Lemma r_sum_map {A B} (f : B → R) (h : A → B) l : r_sum f (map h l) = r_sum (λ x, f (h x)) l.
Proof. induction l as [|x l IH]; cbn [map]; sums; [done|]. by rewrite IH. Qed.
Lemma r_sum_le {A} (f g : A → R) l : (∀ x, x ∈ l → (f x <= g x)%R) → (r_sum f l <= r_sum g l)%R.
Proof.
  induction l as [|x l IH]; intros H; sums; [lra|]. assert (f x <= g x)%R by (apply H; left).
  assert (r_sum f l <= r_sum g l)%R by (apply IH; intros y Hy; apply H; by right). lra.
Qed.
Lemma r_sum_const {A} (k : R) (l : list A) : r_sum (λ _, k) l = (INR (length l) * k)%R.
Proof. induction l as [|x l IH]; [cbn; lra|]. sums. cbn [length]. rewrite S_INR, IH. lra. Qed.
Lemma r_sum_zeros {A} (f : A → R) l : (∀ x, x ∈ l → f x = 0%R) → r_sum f l = 0%R.
Proof. intros H. rewrite (r_sum_ext f (λ _, 0%R)) by done. rewrite r_sum_const. lra. Qed.
Lemma r_sum_nonneg {A} (f : A → R) l : (∀ x, x ∈ l → (0 <= f x)%R) → (0 <= r_sum f l)%R.
Proof. intros H. rewrite <- (r_sum_zeros (λ _, 0%R) l) by done. by apply r_sum_le. Qed.
Lemma r_sum_zero {A} (f : A → R) l : (∀ x, x ∈ l → (0 <= f x)%R) → r_sum f l = 0%R → ∀ x, x ∈ l → f x = 0%R.
Proof.
  induction l as [|y l IH]; intros Hp H x Hx; [by apply elem_of_nil in Hx|].
  assert (0 <= f y)%R as Hy by (apply Hp; left).
  assert (0 <= r_sum f l)%R as Hl.
  { apply r_sum_nonneg. intros z Hz. apply Hp. by right. }
  sums. apply elem_of_cons in Hx as [->|Hx]; [lra|]. apply IH; [|lra|done]. intros z Hz. apply Hp. by right.
Qed.
Lemma r_sum_single {A} `{!EqDecision A} (f : A → R) (x : A) cs : NoDup cs → x ∈ cs →
  r_sum (λ c, if decide (x = c) then f c else 0%R) cs = f x.
Proof.
  induction 1 as [|c cs Hc Hn IH]; intros Hx; [by apply elem_of_nil in Hx|]. sums. apply elem_of_cons in Hx as [->|Hx].
  - rewrite decide_True by done. rewrite <- (Rplus_0_r (f c)) at 2. f_equal.
    apply r_sum_zeros. intros y Hy. rewrite decide_False; [done|]. by intros ->.
  - rewrite decide_False; [|by intros ->]. rewrite Rplus_0_l. by apply IH.
Qed.

Section lists.
  Context {A : Type} `{!EqDecision A}.
  Implicit Types (l : list A).

  Lemma occurs_cons (x y : A) l : occurs x (y :: l) = (if decide (y = x) then 1 else 0) + occurs x l.
  Proof. unfold occurs. rewrite filter_cons. by destruct (decide (y = x)). Qed.
  Lemma occurs_pos (x : A) l : x ∈ l ↔ 0 < occurs x l.
  Proof.
    unfold occurs. split.
    - intros Hx. destruct (filter (λ y, y = x) l) as [|y l'] eqn:E; [|cbn; lia].
      assert (x ∈ filter (λ y, y = x) l) as H by (by apply elem_of_list_filter). rewrite E in H. by apply elem_of_nil in H.
    - intros H. destruct (filter (λ y, y = x) l) as [|y l'] eqn:E; [cbn in H; lia|].
      assert (y ∈ filter (λ y, y = x) l) as Hy by (rewrite E; left). apply elem_of_list_filter in Hy as [-> Hy]. done.
  Qed.
  Lemma occurs_le (x : A) l : occurs x l ≤ length l.
  Proof. apply filter_length. Qed.

  (** A sum over a list is one over its different elements. *)
  Lemma regroup (f : A → R) l cs : NoDup cs → (∀ x, x ∈ l → x ∈ cs) →
    r_sum f l = r_sum (λ c, INR (occurs c l) * f c)%R cs.
  Proof.
    intros Hn. induction l as [|x l IH]; intros H.
    - symmetry. apply r_sum_zeros. intros c _. cbn. lra.
    - sums. rewrite IH; [|intros y Hy; apply H; by right].
      rewrite <- (r_sum_single f x cs Hn) at 1; [|apply H; left]. rewrite <- r_sum_plus.
      apply r_sum_ext. intros c _. rewrite occurs_cons. destruct (decide (x = c)); rewrite plus_INR; cbn [INR]; lra.
  Qed.

  Lemma share_pos (x : A) l : x ∈ l → (0 < share x l <= 1)%R.
  Proof.
    intros Hx. unfold share. pose proof (proj1 (occurs_pos x l) Hx). pose proof (occurs_le x l).
    assert (0 < INR (length l))%R as Hl by (apply lt_0_INR; lia).
    assert (0 < INR (occurs x l))%R by (apply lt_0_INR; lia).
    assert (INR (occurs x l) <= INR (length l))%R by (apply le_INR; lia).
    split; [by apply Rdiv_lt_0_compat|]. apply (Rmult_le_reg_r (INR (length l))); [done|].
    unfold Rdiv. rewrite Rmult_assoc, Rinv_l by lra. lra.
  Qed.

  Lemma in_dups (x : A) l : x ∈ l → x ∈ remove_dups l.
  Proof. apply elem_of_remove_dups. Qed.

  (** Entropy as an average over the list. *)
  Lemma entropy_average l : l ≠ [] →
    entropy l = (r_sum (λ x, - log2 (share x l)) l / INR (length l))%R.
  Proof.
    intros Hl. assert (INR (length l) <> 0)%R as Hn.
    { destruct l; [done|]. apply not_0_INR. cbn. lia. }
    rewrite (regroup _ l (remove_dups l)) by (try apply NoDup_remove_dups; intros x; apply in_dups).
    unfold entropy. rewrite <- r_sum_opp. unfold Rdiv. rewrite Rmult_comm, <- r_sum_scale.
    apply r_sum_ext. intros c _. unfold share at 1. field. done.
  Qed.
End lists.

Lemma ln2_pos : (0 < ln 2)%R.
Proof. rewrite <- ln_1. apply ln_increasing; lra. Qed.

Lemma ln_le (x : R) : (0 < x → ln x <= x - 1)%R.
Proof. intros Hx. pose proof (exp_ineq1_le (ln x)). rewrite exp_ln in H by done. lra. Qed.

Lemma log2_mult x y : (0 < x → 0 < y → log2 (x * y) = log2 x + log2 y)%R.
Proof. intros. unfold log2. rewrite ln_mult by done. unfold Rdiv. lra. Qed.
Lemma log2_inv x : (0 < x → log2 (/ x) = - log2 x)%R.
Proof. intros. unfold log2. rewrite ln_Rinv by done. unfold Rdiv. lra. Qed.
Lemma log2_div x y : (0 < x → 0 < y → log2 (x / y) = log2 x - log2 y)%R.
Proof.
  intros. unfold Rdiv. rewrite log2_mult, log2_inv; [lra|done|done|]. by apply Rinv_0_lt_compat.
Qed.
Lemma log2_bound x : (0 < x → log2 x <= (x - 1) / ln 2)%R.
Proof.
  intros Hx. unfold log2, Rdiv. apply Rmult_le_compat_r; [|by apply ln_le].
  apply Rlt_le, Rinv_0_lt_compat, ln2_pos.
Qed.
Lemma ln_lt_ne x : (0 < x → x <> 1 → ln x < x - 1)%R.
Proof.
  intros Hx Hn. assert (ln x <> 0)%R as Hz by (by apply ln_neq_0).
  pose proof (exp_ineq1 (ln x) Hz). rewrite exp_ln in H by done. lra.
Qed.
Lemma log2_nonpos x : (0 < x <= 1 → log2 x <= 0)%R.
Proof.
  intros Hx. pose proof (log2_bound x ltac:(lra)) as H. pose proof (Rinv_0_lt_compat _ ln2_pos).
  unfold Rdiv in H. nra.
Qed.
Lemma log2_zero x : (0 < x <= 1 → log2 x = 0 → x = 1)%R.
Proof.
  intros Hx H. destruct (Req_dec x 1) as [|Hn]; [done|].
  pose proof (ln_lt_ne x ltac:(lra) Hn). pose proof ln2_pos. unfold log2 in H.
  assert (ln x = 0)%R; [|lra]. apply (Rmult_eq_reg_r (/ ln 2)); [unfold Rdiv in H; lra|].
  by apply Rinv_neq_0_compat, Rgt_not_eq.
Qed.

Section rows.
  Context {A B : Type} `{!EqDecision A, !EqDecision B}.
  Implicit Types (rows : list (A * B)).

  Lemma labels_cons v (r : A * B) rows :
    labels_at v (r :: rows) = if decide (r.1 = v) then r.2 :: labels_at v rows else labels_at v rows.
  Proof. unfold labels_at. rewrite filter_cons. by destruct (decide (r.1 = v)). Qed.

  Lemma labels_length v rows : length (labels_at v rows) = occurs v (map fst rows).
  Proof.
    induction rows as [|r rows IH]; [done|]. rewrite labels_cons. cbn [map]. rewrite occurs_cons.
    destruct (decide (r.1 = v)); cbn; lia.
  Qed.
  Lemma labels_occurs v (c : B) rows : occurs c (labels_at v rows) = occurs (v, c) rows.
  Proof.
    induction rows as [|[w d] rows IH]; [done|]. rewrite labels_cons, occurs_cons. cbn [fst snd].
    destruct (decide (w = v)) as [->|Hw].
    - rewrite occurs_cons, IH. destruct (decide (d = c)) as [->|Hd]; [by rewrite decide_True|].
      rewrite decide_False; [done|]. congruence.
    - rewrite decide_False; [done|congruence].
  Qed.
  Lemma labels_sum (h : A → B → R) rows vs : NoDup vs → (∀ r, r ∈ rows → r.1 ∈ vs) →
    r_sum (λ v, r_sum (h v) (labels_at v rows)) vs = r_sum (λ r, h r.1 r.2) rows.
  Proof.
    intros Hn. induction rows as [|r rows IH]; intros H.
    - by apply r_sum_zeros.
    - sums.
      rewrite <- IH; [|intros x Hx; apply H; by right].
      rewrite <- (r_sum_single (λ v, h v r.2) r.1 vs Hn) at 1; [|apply H; left]. rewrite <- r_sum_plus.
      apply r_sum_ext. intros v _. rewrite labels_cons. destruct (decide (r.1 = v)); sums; lra.
  Qed.

  Lemma in_labels v (c : B) rows : (v, c) ∈ rows ↔ c ∈ labels_at v rows.
  Proof. by rewrite !occurs_pos, labels_occurs. Qed.

  (** Share of label [r.2] among the rows with value [r.1]. *)
  Definition inner (rows : list (A * B)) (r : A * B) : R :=
    (INR (occurs r rows) / INR (occurs r.1 (map fst rows)))%R.

  Lemma inner_range rows r : r ∈ rows → (0 < inner rows r <= 1)%R.
  Proof.
    intros Hr. destruct r as [v c]. pose proof (share_pos c (labels_at v rows) ltac:(by apply in_labels)) as H.
    unfold share in H. rewrite labels_occurs, labels_length in H. exact H.
  Qed.

  (** Conditional entropy as an average over the rows. *)
  Lemma conditional_average rows : rows ≠ [] →
    conditional rows = (r_sum (λ r, - log2 (inner rows r)) rows / INR (length rows))%R.
  Proof.
    intros Hl. assert (INR (length rows) <> 0)%R as Hn.
    { destruct rows; [done|]. apply not_0_INR. cbn. lia. }
    rewrite (r_sum_ext (λ r, - log2 (inner rows r))%R (λ r, - log2 (inner rows (r.1, r.2)))%R) by (by intros []).
    rewrite <- (labels_sum (λ v c, - log2 (inner rows (v, c)))%R rows (remove_dups (map fst rows)));
      [|apply NoDup_remove_dups|intros r Hr; by apply in_dups, elem_of_list_fmap_1].
    unfold conditional. unfold Rdiv. rewrite Rmult_comm, <- r_sum_scale. apply r_sum_ext.
    intros v Hv. rewrite elem_of_remove_dups, occurs_pos in Hv.
    assert (labels_at v rows ≠ []) as Hne.
    { intros E. pose proof (labels_length v rows) as H. rewrite E in H. cbn in H. lia. }
    rewrite entropy_average by done. unfold share at 1. rewrite map_length, labels_length.
    rewrite (r_sum_ext _ (λ c, - log2 (inner rows (v, c)))%R).
    - assert (INR (occurs v (map fst rows)) <> 0)%R by (apply not_0_INR; lia). field. done.
    - intros c _. unfold share, inner. by rewrite labels_occurs, labels_length.
  Qed.

  Lemma entropy_labels rows : rows ≠ [] →
    entropy (map snd rows) = (r_sum (λ r, - log2 (share r.2 (map snd rows))) rows / INR (length rows))%R.
  Proof using.
    intros Hl. rewrite entropy_average by (by destruct rows). by rewrite r_sum_map, map_length.
  Qed.

  Lemma rows_pos rows : rows ≠ [] → (0 < INR (length rows))%R.
  Proof using. intros H. destruct rows; [done|]. apply lt_0_INR. cbn. lia. Qed.

  (** The shares of label and value of a row, multiplied, to the share of the row. *)
  Definition lift rows (r : A * B) : R := (share r.2 (map snd rows) / inner rows r)%R.

  Lemma lift_pos rows r : r ∈ rows → (0 < lift rows r)%R.
  Proof using.
    intros Hr. unfold lift. apply Rdiv_lt_0_compat; [|by apply inner_range].
    apply share_pos. by apply elem_of_list_fmap_1.
  Qed.

  Lemma gain_lift rows : rows ≠ [] →
    (entropy (map snd rows) - conditional rows = r_sum (λ r, - log2 (lift rows r)) rows / INR (length rows))%R.
  Proof using.
    intros Hl. rewrite entropy_labels, conditional_average by done. unfold Rdiv. rewrite <- Rmult_minus_distr_r. f_equal.
    unfold Rminus. rewrite <- r_sum_opp, <- r_sum_plus. apply r_sum_ext. intros r Hr. unfold lift.
    rewrite log2_div; [lra| |by apply inner_range]. apply share_pos. by apply elem_of_list_fmap_1.
  Qed.

  Lemma r_sum_incl {C} (f : C → R) ds l : NoDup ds → (∀ x, x ∈ ds → x ∈ l) → (∀ x, x ∈ l → (0 <= f x)%R) →
    (r_sum f ds <= r_sum f l)%R.
  Proof using.
    intros Hn Hs Hp. pose proof (NoDup_submseteq ds l Hn Hs) as H. apply submseteq_Permutation in H as [k Hk].
    rewrite (r_sum_perm f _ _ Hk), r_sum_app. assert (0 <= r_sum f k)%R; [|lra]. apply r_sum_nonneg. intros x Hx. apply Hp. rewrite Hk.
    apply elem_of_app. by right.
  Qed.
  Lemma occurs_sum {C} `{!EqDecision C} (l : list C) : r_sum (λ c, INR (occurs c l)) (remove_dups l) = INR (length l).
  Proof using.
    rewrite <- (Rmult_1_r (INR (length l))), <- r_sum_const.
    rewrite (regroup (λ _, 1%R) l (remove_dups l)) by (try apply NoDup_remove_dups; intros x; apply in_dups).
    apply r_sum_ext. intros. lra.
  Qed.
  Lemma r_sum_prod {C D} (f : C → R) (h : D → R) l k :
    r_sum (λ p, f p.1 * h p.2)%R (list_prod l k) = (r_sum f l * r_sum h k)%R.
  Proof using.
    induction l as [|x l IH]; [cbn; lra|]. cbn [list_prod]. rewrite r_sum_app, IH, r_sum_map. sums. cbn [fst snd].
    rewrite (r_sum_scale h (f x)). lra.
  Qed.

  Lemma lift_sum rows : rows ≠ [] → (r_sum (lift rows) rows <= INR (length rows))%R.
  Proof using.
    intros Hl. pose proof (rows_pos rows Hl) as Hn.
    rewrite (regroup _ rows (remove_dups rows)) by (try apply NoDup_remove_dups; intros x; apply in_dups).
    rewrite (r_sum_ext _ (λ r, / INR (length rows) * (INR (occurs r.1 (map fst rows)) * INR (occurs r.2 (map snd rows))))%R).
    2: { intros r Hr. rewrite elem_of_remove_dups in Hr. unfold lift, share, inner. rewrite map_length.
         pose proof (proj1 (occurs_pos _ _) Hr).
         pose proof (proj1 (occurs_pos _ _) (elem_of_list_fmap_1 fst rows r Hr)).
         assert (INR (occurs r rows) <> 0)%R by (apply not_0_INR; lia).
         assert (INR (occurs r.1 (map fst rows)) <> 0)%R.
         { apply not_0_INR. change (map fst rows) with (fst <$> rows). lia. }
         field. lra. }
    rewrite r_sum_scale.
    assert (r_sum (λ r, INR (occurs r.1 (map fst rows)) * INR (occurs r.2 (map snd rows)))%R (remove_dups rows)
      <= INR (length rows) * INR (length rows))%R as H.
    { eapply Rle_trans; [apply (r_sum_incl _ _ (list_prod (remove_dups (map fst rows)) (remove_dups (map snd rows))))|].
      - apply NoDup_remove_dups.
      - intros [v c] Hr. rewrite elem_of_remove_dups in Hr. apply elem_of_list_In, in_prod; apply elem_of_list_In, in_dups.
        + by apply (elem_of_list_fmap_1 fst rows (v, c)).
        + by apply (elem_of_list_fmap_1 snd rows (v, c)).
      - intros. apply Rmult_le_pos; apply pos_INR.
      - rewrite (r_sum_prod (λ v, INR (occurs v (map fst rows))) (λ c, INR (occurs c (map snd rows)))).
        rewrite !occurs_sum, !map_length. lra. }
    apply (Rmult_le_reg_l (INR (length rows))); [done|]. rewrite <- Rmult_assoc, Rinv_r by lra. lra.
  Qed.

  Lemma gain_nonneg rows : rows ≠ [] → (conditional rows <= entropy (map snd rows))%R.
  Proof using.
    intros Hl. pose proof (gain_lift rows Hl) as H. pose proof (rows_pos rows Hl) as Hn.
    assert (0 <= r_sum (λ r, - log2 (lift rows r)) rows)%R as Hs.
    { apply Rle_trans with (r_sum (λ r, / ln 2 * (1 + - lift rows r)) rows)%R.
      - rewrite r_sum_scale, r_sum_plus, r_sum_const, r_sum_opp. pose proof (lift_sum rows Hl).
        apply Rmult_le_pos; [apply Rlt_le, Rinv_0_lt_compat, ln2_pos|]. lra.
      - apply r_sum_le. intros r Hr. pose proof (log2_bound _ (lift_pos rows r Hr)) as Hb. unfold Rdiv in Hb. lra. }
    assert (0 <= r_sum (λ r, - log2 (lift rows r)) rows / INR (length rows))%R; [|lra].
    apply Rmult_le_pos; [done|]. by apply Rlt_le, Rinv_0_lt_compat.
  Qed.

  Lemma gain_zero rows : rows ≠ [] →
    (conditional rows = entropy (map snd rows) ↔ ∀ r, r ∈ rows → inner rows r = share r.2 (map snd rows)).
  Proof using.
    intros Hl. pose proof (gain_lift rows Hl) as H. pose proof (rows_pos rows Hl) as Hn. pose proof ln2_pos as H2. split.
    - intros E r Hr. rewrite E, Rminus_diag_eq in H by done.
      assert (r_sum (λ r, - log2 (lift rows r)) rows = 0)%R as Hz.
      { apply (Rmult_eq_reg_r (/ INR (length rows))); [unfold Rdiv in H; lra|]. apply Rinv_neq_0_compat. lra. }
      assert (∀ x, x ∈ rows → (0 <= (lift rows x - 1) * / ln 2 + - log2 (lift rows x))%R) as Hge.
      { intros x Hx. pose proof (log2_bound _ (lift_pos rows x Hx)) as Hb. unfold Rdiv in Hb. lra. }
      assert (r_sum (λ r, (lift rows r - 1) * / ln 2 + - log2 (lift rows r)) rows = 0)%R as Hs.
      { apply Rle_antisym.
        - rewrite r_sum_plus, Hz. rewrite (r_sum_ext _ (λ r, / ln 2 * (lift rows r + -1))%R) by (intros; lra).
          rewrite r_sum_scale, r_sum_plus, r_sum_const. pose proof (lift_sum rows Hl).
          pose proof (Rinv_0_lt_compat _ H2). nra.
        - by apply r_sum_nonneg. }
      pose proof (r_sum_zero _ _ Hge Hs r Hr) as Ht.
      cbn beta in Ht. pose proof (lift_pos rows r Hr) as Hp. unfold log2, Rdiv in Ht.
      assert (lift rows r = 1)%R as H1.
      { destruct (Req_dec (lift rows r) 1) as [|Hne]; [done|]. pose proof (ln_lt_ne _ Hp Hne).
        pose proof (Rinv_0_lt_compat _ H2). nra. }
      unfold lift in H1. pose proof (inner_range rows r Hr).
      apply (f_equal (λ z, z * inner rows r)%R) in H1. unfold Rdiv in H1. rewrite Rmult_assoc, Rinv_l in H1 by lra. lra.
    - intros E. assert (r_sum (λ r, - log2 (lift rows r)) rows = 0)%R as Hz.
      { apply r_sum_zeros. intros r Hr. unfold lift. rewrite <- E by done. pose proof (inner_range rows r Hr).
        unfold Rdiv. rewrite Rinv_r by lra. unfold log2. rewrite ln_1. lra. }
      rewrite Hz in H. lra.
  Qed.

  Lemma conditional_nonneg rows : (0 <= conditional rows)%R.
  Proof using.
    destruct rows as [|r0 rows]; [cbn; lra|]. set (l := r0 :: rows).
    rewrite conditional_average by done. apply Rmult_le_pos.
    - apply r_sum_nonneg. intros r Hr. pose proof (log2_nonpos _ (inner_range l r Hr)). lra.
    - apply Rlt_le, Rinv_0_lt_compat. by apply rows_pos.
  Qed.

  (** No entropy is left exactly if the value determines the label. *)
  Lemma conditional_zero rows : rows ≠ [] →
    (conditional rows = 0%R ↔ ∀ v c d, (v, c) ∈ rows → (v, d) ∈ rows → c = d).
  Proof using.
    intros Hl. rewrite conditional_average by done. pose proof (rows_pos rows Hl) as Hn. split.
    - intros E v c d Hc Hd.
      assert (r_sum (λ r, - log2 (inner rows r)) rows = 0)%R as Hz.
      { apply (Rmult_eq_reg_r (/ INR (length rows))); [unfold Rdiv in E; lra|]. apply Rinv_neq_0_compat. lra. }
      assert (∀ x, x ∈ rows → (0 <= - log2 (inner rows x))%R) as Hge.
      { intros x Hx. pose proof (log2_nonpos _ (inner_range rows x Hx)). lra. }
      pose proof (r_sum_zero _ _ Hge Hz (v, c) Hc) as Ht.
      cbn beta in Ht. pose proof (log2_zero _ (inner_range rows _ Hc) ltac:(lra)) as H1.
      unfold inner in H1. cbn [fst] in H1.
      rewrite <- labels_length, <- labels_occurs in H1. set (l := labels_at v rows) in *.
      assert (c ∈ l) as Hcl by (by apply in_labels). assert (d ∈ l) as Hdl by (by apply in_labels).
      assert (INR (occurs c l) = INR (length l)) as H2.
      { apply (f_equal (λ z, z * INR (length l))%R) in H1. unfold Rdiv in H1.
        rewrite Rmult_assoc, Rinv_l in H1; [lra|]. apply not_0_INR. destruct l; [by apply elem_of_nil in Hcl|done]. }
      apply INR_eq in H2. clearbody l. clear -H2 Hdl. induction l as [|x l IH]; [by apply elem_of_nil in Hdl|].
      rewrite occurs_cons in H2. pose proof (occurs_le c l). cbn [length] in H2. destruct (decide (x = c)) as [->|]; [|lia].
      apply elem_of_cons in Hdl as [->|Hd]; [done|]. apply IH; [done|lia].
    - intros H. rewrite r_sum_zeros; [unfold Rdiv; lra|]. intros [v c] Hr.
      assert (inner rows (v, c) = 1)%R as ->; [|unfold log2; rewrite ln_1; lra].
      unfold inner. cbn [fst]. rewrite <- labels_length, <- labels_occurs.
      assert (occurs c (labels_at v rows) = length (labels_at v rows)) as ->.
      { assert (∀ d, d ∈ labels_at v rows → d = c) as Hall.
        { intros d Hd. apply in_labels in Hd. by apply (H v). }
        generalize dependent (labels_at v rows). clear. intros l Hall. induction l as [|x l IH]; [done|].
        rewrite occurs_cons, decide_True by (apply Hall; left). cbn. f_equal. apply IH. intros d Hd. apply Hall. by right. }
      apply Rinv_r. apply not_0_INR. apply in_labels in Hr. destruct (labels_at v rows); [by apply elem_of_nil in Hr|done].
  Qed.
End rows.

Section bounds.
  Context {A : Type} `{!EqDecision A}.
  Lemma entropy_nonneg (l : list A) : (0 <= entropy l)%R.
  Proof using.
    destruct l as [|x0 l0]; [change (0 <= - 0)%R; lra|]. set (l := x0 :: l0). rewrite entropy_average by done. apply Rmult_le_pos.
    - apply r_sum_nonneg. intros x Hx. pose proof (log2_nonpos _ (share_pos x l Hx)). lra.
    - apply Rlt_le, Rinv_0_lt_compat, lt_0_INR. cbn. lia.
  Qed.
  Lemma entropy_most (l : list A) : l ≠ [] → (entropy l <= log2 (INR (length (remove_dups l))))%R.
  Proof using.
    intros Hl. assert (0 < INR (length l))%R as Hn by (destruct l; [done|apply lt_0_INR; cbn; lia]).
    set (k := INR (length (remove_dups l))).
    assert (0 < k)%R as Hk.
    { apply lt_0_INR. destruct l as [|x l]; [done|]. assert (x ∈ remove_dups (x :: l)) as H by (apply in_dups; left).
      destruct (remove_dups (x :: l)); [by apply elem_of_nil in H|cbn; lia]. }
    rewrite entropy_average by done. pose proof ln2_pos as H2.
    assert (r_sum (λ x, - log2 (share x l)) l <= INR (length l) * log2 k)%R as H.
    { rewrite <- r_sum_const.
      apply Rle_trans with (r_sum (λ x, log2 k + / ln 2 * (/ (share x l * k) + -1)) l)%R.
      - apply r_sum_le. intros x Hx. destruct (share_pos x l Hx) as [Hp _].
        assert (0 < share x l * k)%R as Hq by nra.
        pose proof (log2_bound (/ (share x l * k)) (Rinv_0_lt_compat _ Hq)) as Hb.
        rewrite log2_inv, log2_mult in Hb by done. unfold Rdiv in Hb. lra.
      - rewrite r_sum_plus, r_sum_scale, r_sum_plus, !r_sum_const.
        assert (r_sum (λ x, / (share x l * k)) l = INR (length l))%R as ->; [|nra].
        rewrite (regroup _ l (remove_dups l)) by (try apply NoDup_remove_dups; intros x; apply in_dups).
        rewrite (r_sum_ext _ (λ _, INR (length l) / k)%R).
        + rewrite r_sum_const. fold k. field. lra.
        + intros c Hc. rewrite elem_of_remove_dups, occurs_pos in Hc. unfold share.
          assert (INR (occurs c l) <> 0)%R by (apply not_0_INR; lia). field. lra. }
    apply (Rmult_le_reg_r (INR (length l))); [done|]. unfold Rdiv. rewrite Rmult_assoc, Rinv_l by lra. lra.
  Qed.
End bounds.
