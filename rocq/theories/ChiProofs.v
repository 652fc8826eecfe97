(** The statistic of ChiMerge. *)
From Coq Require Import QArith Qminmax Lqa.
From Verif Require Import Prelude FloatModel AttrModel GridModel GridSpec FilterModel CartModel ChiModel ChiSpec.
From Flocq Require Import IEEE754.BinarySingleNaN IEEE754.Bits IEEE754.Binary.
Local Open Scope nat_scope.

Lemma foldl_sum (l : list (string * nat)) n : foldl (λ s kv, s + kv.2) n l = n + sum_list (map snd l).
Proof.
  revert n. induction l as [|x l IH]; intros n; cbn [foldl map]; [unfold sum_list; cbn; lia|].
  rewrite IH. cbn [sum_list sum_list_with]. unfold sum_list. cbn. lia.
Qed.
Lemma observations_rows e : observations (fe_freq e) = rows_in e.
Proof. unfold observations, rows_in. by rewrite foldl_sum. Qed.

(** ** Sums *)

Lemma q_sum_app {A} (f : A → Q) l1 l2 : (q_sum f (l1 ++ l2) == q_sum f l1 + q_sum f l2)%Q.
Proof.
  induction l1 as [|x l1 IH]; cbn [app q_sum foldr]; [fold (q_sum f l2); ring|].
  fold (q_sum f (l1 ++ l2)). fold (q_sum f l1). rewrite IH. ring.
Qed.
Lemma q_sum_perm {A} (f : A → Q) l1 l2 : l1 ≡ₚ l2 → (q_sum f l1 == q_sum f l2)%Q.
Proof.
  induction 1 as [|x l1 l2 _ IH|x y l|l1 l2 l3 _ IH1 _ IH2].
  - reflexivity.
  - cbn [q_sum foldr]. fold (q_sum f l1). fold (q_sum f l2). rewrite IH. reflexivity.
  - cbn [q_sum foldr]. ring.
  - rewrite IH1. exact IH2.
Qed.
Lemma q_sum_ext {A} (f g : A → Q) l : (∀ x, x ∈ l → (f x == g x)%Q) → (q_sum f l == q_sum g l)%Q.
Proof.
  induction l as [|x l IH]; intros H; [reflexivity|]. cbn [q_sum foldr]. fold (q_sum f l). fold (q_sum g l).
  rewrite (H x), IH; [reflexivity| |left]. intros y Hy. apply H. by right.
Qed.
Lemma q_sum_add {A} (f g : A → Q) l : (q_sum (λ x, f x + g x) l == q_sum f l + q_sum g l)%Q.
Proof.
  induction l as [|x l IH]; [reflexivity|]. cbn [q_sum foldr].
  fold (q_sum (λ x, f x + g x)%Q l). fold (q_sum f l). fold (q_sum g l). rewrite IH. ring.
Qed.
Lemma foldl_q_sum {A} (f : A → Q) l a : (foldl (λ s x, s + f x)%Q a l == a + q_sum f l)%Q.
Proof.
  revert a. induction l as [|x l IH]; intros a; cbn [foldl q_sum foldr]; [ring|].
  fold (q_sum f l). rewrite IH. ring.
Qed.
Lemma q_sum_nonneg {A} (f : A → Q) l : (∀ x, x ∈ l → (0 <= f x)%Q) → (0 <= q_sum f l)%Q.
Proof.
  induction l as [|x l IH]; intros H; [apply Qle_refl|]. cbn [q_sum foldr]. fold (q_sum f l).
  pose proof (H x ltac:(left)). pose proof (IH ltac:(intros y Hy; apply H; by right)). lra.
Qed.
Lemma q_sum_zero {A} (f : A → Q) l : (∀ x, x ∈ l → (0 <= f x)%Q) →
  ((q_sum f l == 0)%Q ↔ ∀ x, x ∈ l → (f x == 0)%Q).
Proof.
  induction l as [|x l IH]; intros H.
  - split; [intros _ x Hx; by apply elem_of_nil in Hx|reflexivity].
  - cbn [q_sum foldr]. fold (q_sum f l). pose proof (H x ltac:(left)) as Hx.
    assert (∀ y, y ∈ l → (0 <= f y)%Q) as Hl by (intros y Hy; apply H; by right).
    pose proof (q_sum_nonneg f l Hl) as Hs.  split.
    + intros E. assert (f x == 0)%Q as E1 by lra. assert (q_sum f l == 0)%Q as E2 by lra.
      intros y Hy. apply elem_of_cons in Hy as [->|Hy]; [exact E1|]. by apply IH.
    + intros E. rewrite (E x) by left. rewrite (proj2 (IH Hl)); [reflexivity|].
      intros y Hy. apply E. by right.
Qed.

(** ** The statistic *)

Lemma union_lookup m1 m2 c :
  default 0 (freq_union m1 m2 !! c) = default 0 (m1 !! c) + default 0 (m2 !! c).
Proof.
  unfold freq_union. rewrite lookup_union_with. destruct (m1 !! c), (m2 !! c); cbn; lia.
Qed.
Lemma union_some m1 m2 c :
  is_Some (freq_union m1 m2 !! c) ↔ is_Some (m1 !! c) ∨ is_Some (m2 !! c).
Proof.
  unfold freq_union. rewrite lookup_union_with.
  destruct (m1 !! c) as [a|], (m2 !! c) as [b|]; cbn; split; intros H; eauto;
    try (destruct H as [H|H]; inversion H); try (inversion H; discriminate); try done.
Qed.

Lemma expected_expectation e1 e2 e c :
  (expected (has e1 c + has e2 c) (rows_in e) (rows_in e1 + rows_in e2) == expectation e1 e2 e c)%Q.
Proof. unfold expected, expectation, q_of, q_nat. unfold Qdiv. ring. Qed.

Lemma chi_term_deviation e1 e2 e x c : (x == expectation e1 e2 e c)%Q →
  (chi_term (fe_freq e) x c == deviation e1 e2 e c)%Q.
Proof.
  intros E. unfold chi_term, deviation. fold (has e c). change q_of with q_nat.
  assert ((if negb (Qle_bool (1 # 2) x) then 1 # 2 else x) == Qmax (expectation e1 e2 e c) (1 # 2))%Q as D.
  { destruct (Qle_bool (1 # 2) x) eqn:H; cbn [negb].
    - apply Qle_bool_iff in H. rewrite E in H. rewrite Q.max_l by exact H. exact E.
    - rewrite Q.max_r; [reflexivity|]. rewrite <- E.
      destruct (Qlt_le_dec x (1 # 2)) as [L|L]; [lra|]. apply Qle_bool_iff in L. congruence. }
  rewrite D, E. reflexivity.
Qed.

Lemma chi_statistic_spec ko1 ko2 e1 e2 cs : any_order ko1 → any_order ko2 → classes_of e1 e2 cs →
  (chi_statistic ko1 ko2 e1 e2 == chi_squared cs e1 e2)%Q.
Proof.
  intros H1 H2 [Hnd Hcs]. unfold chi_statistic, chi_squared. rewrite !observations_rows.
  set (keys := map fst (map_to_list (freq_union (fe_freq e1) (fe_freq e2)))).
  assert (keys ≡ₚ cs) as Hk.
  { apply NoDup_Permutation; [apply NoDup_fst_map_to_list|done|]. intros c. rewrite Hcs, <- union_some.
    unfold keys. rewrite elem_of_list_fmap. split.
    - intros ((k & v) & -> & Hin). apply elem_of_map_to_list in Hin. cbn. eauto.
    - intros [v Hv]. exists (c, v). split; [done|]. by apply elem_of_map_to_list. }
  rewrite foldl_q_sum, foldl_q_sum, q_sum_add.
  rewrite (q_sum_perm _ _ cs) by (rewrite (H1 keys); exact Hk).
  rewrite (q_sum_perm _ (ko2 keys) cs) by (rewrite (H2 keys); exact Hk).
  rewrite Qplus_0_l. apply Qplus_comp; apply q_sum_ext; intros c _; apply chi_term_deviation; rewrite union_lookup.
  - apply (expected_expectation e1 e2 e1 c).
  - apply (expected_expectation e1 e2 e2 c).
Qed.

Lemma deviation_nonneg e1 e2 e c : (0 <= deviation e1 e2 e c)%Q.
Proof.
  unfold deviation. set (x := expectation e1 e2 e c).
  apply Qle_shift_div_l.
  - apply Qlt_le_trans with (1 # 2); [reflexivity|]. apply Q.le_max_r.
  - rewrite Qmult_0_l. destruct (Qlt_le_dec (q_nat (has e c) - x) 0) as [L|L].
    + setoid_replace ((q_nat (has e c) - x) * (q_nat (has e c) - x))%Q
        with ((- (q_nat (has e c) - x)) * (- (q_nat (has e c) - x)))%Q by ring.
      apply Qmult_le_0_compat; lra.
    + apply Qmult_le_0_compat; exact L.
Qed.
Lemma deviation_zero e1 e2 e c : (deviation e1 e2 e c == 0)%Q ↔ (q_nat (has e c) == expectation e1 e2 e c)%Q.
Proof.
  unfold deviation. set (x := expectation e1 e2 e c).
  assert (0 < Qmax x (1 # 2))%Q as Hp.
  { apply Qlt_le_trans with (1 # 2); [reflexivity|]. apply Q.le_max_r. }
  split.
  - intros E. assert ((q_nat (has e c) - x) * (q_nat (has e c) - x) == 0)%Q as E2.
    { setoid_replace ((q_nat (has e c) - x) * (q_nat (has e c) - x))%Q
        with (((q_nat (has e c) - x) * (q_nat (has e c) - x) / Qmax x (1 # 2)) * Qmax x (1 # 2))%Q
        by (field; lra). rewrite E. ring. }
    apply Qmult_integral in E2. destruct E2; lra.
  - intros E. rewrite E. unfold Qdiv. ring.
Qed.

Lemma chi_squared_nonneg cs e1 e2 : (0 <= chi_squared cs e1 e2)%Q.
Proof.
  apply q_sum_nonneg. intros c _. pose proof (deviation_nonneg e1 e2 e1 c).
  pose proof (deviation_nonneg e1 e2 e2 c). lra.
Qed.

Lemma classes_exist e1 e2 : ∃ cs, classes_of e1 e2 cs.
Proof.
  exists (map fst (map_to_list (freq_union (fe_freq e1) (fe_freq e2)))). split; [apply NoDup_fst_map_to_list|].
  intros c. rewrite <- union_some, elem_of_list_fmap. split.
  - intros ((k & v) & -> & Hin). apply elem_of_map_to_list in Hin. cbn. eauto.
  - intros [v Hv]. exists (c, v). split; [done|]. by apply elem_of_map_to_list.
Qed.

Lemma chi_statistic_nonneg ko1 ko2 e1 e2 : any_order ko1 → any_order ko2 → (0 <= chi_statistic ko1 ko2 e1 e2)%Q.
Proof.
  intros H1 H2. destruct (classes_exist e1 e2) as [cs Hcs].
  rewrite (chi_statistic_spec ko1 ko2 e1 e2 cs) by done. apply chi_squared_nonneg.
Qed.

Lemma expectation_sym e1 e2 e c : (expectation e1 e2 e c == expectation e2 e1 e c)%Q.
Proof. unfold expectation. rewrite (Nat.add_comm (has e1 c)), (Nat.add_comm (rows_in e1)). reflexivity. Qed.

Lemma deviation_sym e1 e2 e c : (deviation e1 e2 e c == deviation e2 e1 e c)%Q.
Proof. unfold deviation. rewrite (expectation_sym e1 e2 e c). reflexivity. Qed.

Lemma chi_statistic_sym ko1 ko2 ko3 ko4 e1 e2 :
  any_order ko1 → any_order ko2 → any_order ko3 → any_order ko4 →
  (chi_statistic ko1 ko2 e1 e2 == chi_statistic ko3 ko4 e2 e1)%Q.
Proof.
  intros H1 H2 H3 H4. destruct (classes_exist e1 e2) as [cs Hcs].
  rewrite (chi_statistic_spec ko1 ko2 e1 e2 cs), (chi_statistic_spec ko3 ko4 e2 e1 cs); try done.
  - apply q_sum_ext. intros c _. rewrite (deviation_sym e1 e2 e1), (deviation_sym e1 e2 e2). ring.
  - destruct Hcs as [Hnd Hcs]. split; [done|]. intros c. rewrite Hcs. tauto.
Qed.

Lemma q_nat_pos n : n ≠ 0 → (0 < q_nat n)%Q.
Proof. intros H. unfold q_nat. change 0%Q with (inject_Z 0). rewrite <- Zlt_Qlt. lia. Qed.
Lemma q_nat_add a b : (q_nat (a + b) == q_nat a + q_nat b)%Q.
Proof. unfold q_nat. rewrite Nat2Z.inj_add, inject_Z_plus. reflexivity. Qed.
Lemma q_nat_mult a b : (q_nat (a * b) == q_nat a * q_nat b)%Q.
Proof. unfold q_nat. rewrite Nat2Z.inj_mul, inject_Z_mult. reflexivity. Qed.
Lemma q_nat_inj a b : (q_nat a == q_nat b)%Q → a = b.
Proof. unfold q_nat, Qeq. cbn [inject_Z Qnum Qden]. lia. Qed.

Lemma same_share e1 e2 c : rows_in e1 ≠ 0 → rows_in e2 ≠ 0 →
  ((q_nat (has e1 c) == expectation e1 e2 e1 c)%Q ↔ has e1 c * rows_in e2 = has e2 c * rows_in e1) ∧
  ((q_nat (has e2 c) == expectation e1 e2 e2 c)%Q ↔ has e1 c * rows_in e2 = has e2 c * rows_in e1).
Proof.
  intros H1 H2. unfold expectation.
  pose proof (q_nat_pos _ H1) as P1. pose proof (q_nat_pos _ H2) as P2.
  assert (∀ x : nat, (q_nat (has e1 c + has e2 c) * (q_nat x / q_nat (rows_in e1 + rows_in e2))
    == (q_nat (has e1 c) + q_nat (has e2 c)) * q_nat x / (q_nat (rows_in e1) + q_nat (rows_in e2)))%Q) as E.
  { intros x. rewrite !q_nat_add. field. lra. }
  rewrite !E. clear E.
  set (a := q_nat (has e1 c)) in *. set (b := q_nat (has e2 c)) in *.
  set (n1 := q_nat (rows_in e1)) in *. set (n2 := q_nat (rows_in e2)) in *.
  assert ((has e1 c * rows_in e2 = has e2 c * rows_in e1)%nat ↔ (a * n2 == b * n1)%Q) as K.
  { unfold a, b, n1, n2. rewrite <- !q_nat_mult. split; [by intros ->|apply q_nat_inj]. }
  rewrite K. assert (∀ y z : Q, (y == z / (n1 + n2))%Q ↔ (y * (n1 + n2) == z)%Q) as D.
  { intros y z. split; intros H.
    - rewrite H. field. lra.
    - rewrite <- H. field. lra. }
  rewrite !D. split; split; intros H; lra.
Qed.

Lemma chi_statistic_zero ko1 ko2 e1 e2 : any_order ko1 → any_order ko2 → rows_in e1 ≠ 0 → rows_in e2 ≠ 0 →
  ((chi_statistic ko1 ko2 e1 e2 == 0)%Q ↔ ∀ c, has e1 c * rows_in e2 = has e2 c * rows_in e1).
Proof.
  intros H1 H2 N1 N2. destruct (classes_exist e1 e2) as [cs Hcs].
  rewrite (chi_statistic_spec ko1 ko2 e1 e2 cs) by done. unfold chi_squared. rewrite q_sum_zero.
  2: { intros c _. pose proof (deviation_nonneg e1 e2 e1 c). pose proof (deviation_nonneg e1 e2 e2 c). lra. }
  split.
  - intros H c. destruct (decide (c ∈ cs)) as [Hc|Hc].
    + apply (proj1 (same_share e1 e2 c N1 N2)), deviation_zero. specialize (H c Hc).
      pose proof (deviation_nonneg e1 e2 e1 c). pose proof (deviation_nonneg e1 e2 e2 c). lra.
    + rewrite (proj2 Hcs) in Hc. unfold has.
      destruct (fe_freq e1 !! c) eqn:E1; [exfalso; eauto|]. destruct (fe_freq e2 !! c) eqn:E2; [exfalso; eauto|]. done.
  - intros H c _. destruct (same_share e1 e2 c N1 N2) as [S1 S2].
    rewrite (proj2 (deviation_zero e1 e2 e1 c)), (proj2 (deviation_zero e1 e2 e2 c)); [reflexivity| |].
    + by apply S2.
    + by apply S1.
Qed.
