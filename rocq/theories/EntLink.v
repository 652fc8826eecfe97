(** The entropies of the model and those of the rows. *)
From Coq Require Import Reals Lra.
From Verif Require Import Prelude FloatModel AttrModel StoreModel DenseModel GridModel GridSpec GridProofs ConfModel FilterModel CartModel EntModel EntSpec EntProofs.
Local Open Scope nat_scope.

(** ** Exact arithmetic *)

Lemma add_ints_sum l : add_ints l = sum_list l.
Proof.
  unfold add_ints. enough (∀ a, foldl (λ count n, count + n) a l = a + sum_list l) as H by (rewrite H; lia).
  induction l as [|x l IH]; intros a; cbn; [lia|]. rewrite IH. lia.
Qed.
Lemma sum_INR l : INR (sum_list l) = r_sum INR l.
Proof. induction l as [|x l IH]; [done|]. change (sum_list (x :: l)) with (x + sum_list l). by rewrite plus_INR, IH. Qed.
Lemma foldl_sub {A} (t : A → R) l a : foldl (λ r n, Rminus r (t n)) a l = (a - r_sum t l)%R.
Proof. revert a. induction l as [|x l IH]; intros a; cbn [foldl]; [sums; lra|]. rewrite IH. sums. lra. Qed.
Lemma foldl_add {A} (t : A → R) l a : foldl (λ r n, Rplus r (t n)) a l = (a + r_sum t l)%R.
Proof. revert a. induction l as [|x l IH]; intros a; cbn [foldl]; [sums; lra|]. rewrite IH. sums. lra. Qed.

Lemma plogp_real n m : plogp real_logs n m = (n / m * log2 (n / m))%R.
Proof. unfold plogp, log2, real_logs. cbn [la_div la_mul la_log la_int]. change (INR 2) with 2%R. unfold Rdiv. lra. Qed.

Lemma base_real counts :
  base_entropy_list real_logs counts =
  (- r_sum (λ n, INR n / INR (sum_list counts) * log2 (INR n / INR (sum_list counts))) counts)%R.
Proof.
  unfold base_entropy_list. rewrite add_ints_sum. cbn [la_sub la_int real_logs].
  rewrite (foldl_sub (λ n, plogp real_logs (INR n) (INR (sum_list counts)))). cbn [INR].
  rewrite (r_sum_ext _ _ _ (λ n _, plogp_real _ _)). lra.
Qed.

Lemma side_real count ret side :
  side_entropy real_logs (λ _, false) count ret side =
  (ret + (INR (sum_list side) / INR count * log2 (INR (sum_list side) / INR count) -
    r_sum (λ n, INR n / INR count * log2 (INR n / INR count)) side))%R.
Proof.
  unfold side_entropy. cbn [la_sub la_add la_int real_logs].
  rewrite (foldl_sub (λ n, plogp real_logs (INR n) (INR count))), (foldl_add INR). cbn [INR]. rewrite Rplus_0_l, <- sum_INR.
  rewrite plogp_real, (r_sum_ext _ _ _ (λ n _, plogp_real _ _)). lra.
Qed.

Lemma split_real sides :
  split_entropy_list real_logs sides =
  r_sum (λ side, INR (sum_list side) / INR (sum_list (concat sides)) * log2 (INR (sum_list side) / INR (sum_list (concat sides))) -
    r_sum (λ n, INR n / INR (sum_list (concat sides)) * log2 (INR n / INR (sum_list (concat sides)))) side)%R sides.
Proof.
  unfold split_entropy_list. rewrite add_ints_sum. set (N := sum_list (concat sides)). clearbody N. cbn [la_int real_logs INR].
  match goal with |- _ = ?x => rewrite <- (Rplus_0_l x) end. generalize 0%R. induction sides as [|s sides IH]; intros a; cbn [foldl]; [sums; lra|].
  rewrite IH, side_real. sums. lra.
Qed.

Lemma sum_list_perm l l' : l ≡ₚ l' → sum_list l = sum_list l'.
Proof. induction 1; cbn in *; lia. Qed.

Lemma tally_sum {A} `{!EqDecision A} (l : list A) counts : tallies l counts → sum_list counts = length l.
Proof.
  intros H. rewrite (sum_list_perm _ _ H). apply INR_eq. rewrite sum_INR, r_sum_map. apply occurs_sum.
Qed.
Lemma tally_pos {A} `{!EqDecision A} (l : list A) counts : tallies l counts → ∀ n, n ∈ counts → 0 < n ≤ length l.
Proof.
  intros H n Hn. rewrite H in Hn. apply elem_of_list_fmap in Hn as (c & -> & Hc). rewrite elem_of_remove_dups in Hc.
  split; [by apply occurs_pos|apply occurs_le].
Qed.

Lemma base_tally {A} `{!EqDecision A} (l : list A) counts : tallies l counts →
  base_entropy_list real_logs counts = entropy l.
Proof.
  intros H. rewrite base_real, (tally_sum l counts H). unfold entropy. f_equal.
  rewrite (r_sum_perm _ _ _ H), r_sum_map. apply r_sum_ext. done.
Qed.

Lemma side_tally {A} `{!EqDecision A} (l : list A) side (N : R) : tallies l side → l ≠ [] → (0 < N)%R →
  (INR (sum_list side) / N * log2 (INR (sum_list side) / N) - r_sum (λ n, INR n / N * log2 (INR n / N)) side)%R =
  (INR (length l) / N * entropy l)%R.
Proof.
  intros H Hl HN. rewrite (tally_sum l side H).
  assert (0 < INR (length l))%R as Hm by (destruct l; [done|apply lt_0_INR; cbn; lia]).
  rewrite (r_sum_perm _ _ _ H), r_sum_map. unfold entropy.
  rewrite (r_sum_ext _ (λ c, / N * log2 (INR (length l) / N) * INR (occurs c l) + INR (length l) / N * (share c l * log2 (share c l)))%R).
  - rewrite r_sum_plus, r_sum_scale, r_sum_scale, occurs_sum. unfold Rdiv. lra.
  - intros c Hc. rewrite elem_of_remove_dups, occurs_pos in Hc. unfold share.
    assert (0 < INR (occurs c l))%R by (by apply lt_0_INR). rewrite !log2_div by done. field. lra.
Qed.

Lemma tables_sum {A B} `{!EqDecision A, !EqDecision B} (rows : list (A * B)) sides : tables rows sides →
  sum_list (concat sides) = length rows.
Proof.
  intros (vs & Hvs & H). apply INR_eq.
  transitivity (r_sum (λ v, INR (length (labels_at v rows))) vs).
  - clear Hvs. induction H as [|v s vs sides Hs H IH]; [done|]. sums. cbn [concat].
    assert (∀ l k, sum_list (l ++ k) = sum_list l + sum_list k) as Happ.
    { clear. intros l k. induction l as [|x l IH]; cbn in *; lia. }
    rewrite Happ, plus_INR, IH. by rewrite (tally_sum _ _ Hs).
  - rewrite (r_sum_perm _ _ _ Hvs), (r_sum_ext _ (λ v, INR (occurs v (map fst rows)))) by (intros; by rewrite labels_length).
    rewrite occurs_sum, map_length. done.
Qed.

Lemma split_tally {A B} `{!EqDecision A, !EqDecision B} (rows : list (A * B)) sides : tables rows sides →
  split_entropy_list real_logs sides = conditional rows.
Proof.
  intros H. rewrite split_real, (tables_sum rows sides H). destruct H as (vs & Hvs & H). unfold conditional.
  rewrite <- (r_sum_perm _ _ _ Hvs). assert (∀ v, v ∈ vs → labels_at v rows ≠ []) as Hv.
  { intros v Hv E. rewrite Hvs, elem_of_remove_dups, occurs_pos, <- labels_length, E in Hv. cbn in Hv. lia. }
  assert (vs ≠ [] → (0 < INR (length rows))%R) as Hn.
  { intros Hne. destruct vs as [|v vs']; [done|]. apply rows_pos. intros ->. apply (Hv v); [left|done]. }
  clear Hvs. set (N := INR (length rows)) in *.
  transitivity (r_sum (λ v, INR (length (labels_at v rows)) / N * entropy (labels_at v rows))%R vs).
  - assert (vs ≠ [] → (0 < N)%R) as Hn' by done. clear Hn. clearbody N.
    induction H as [|v s vs sides Hs H IH]; [done|]. sums. rewrite IH.
    + f_equal. apply side_tally; [done|apply Hv; left|by apply Hn'].
    + intros w Hw. apply Hv. by right.
    + intros _. by apply Hn'.
  - apply r_sum_ext. intros v _. unfold share. rewrite labels_length, map_length. done.
Qed.

(** ** Maps of counts *)

Lemma map_tally {A} `{Countable A} (l : list A) (m : gmap A nat) :
  (∀ k, default 0 (m !! k) = occurs k l) → map_Forall (λ _ v, 0 < v) m →
  map_to_list m ≡ₚ map (λ c, (c, occurs c l)) (remove_dups l).
Proof.
  intros Hk Hp. apply NoDup_Permutation.
  - apply NoDup_map_to_list.
  - apply NoDup_ListNoDup, FinFun.Injective_map_NoDup; [|apply NoDup_ListNoDup, NoDup_remove_dups]. intros x y E. by injection E.
  - intros [k v]. rewrite elem_of_map_to_list, elem_of_list_fmap. specialize (Hk k). split.
    + intros E. rewrite E in Hk. cbn in Hk. exists k. split; [by rewrite <- Hk|].
      rewrite elem_of_remove_dups. apply occurs_pos. rewrite <- Hk. by apply (Hp k v).
    + intros (c & E & Hc). injection E as -> ->. rewrite elem_of_remove_dups, occurs_pos in Hc.
      destruct (m !! c) as [w|] eqn:E; cbn in Hk; [by subst|lia].
Qed.

Lemma count_occurs {A} `{!EqDecision A} n (c : nat → A) k :
  count_rows n (λ i, bool_decide (c i = k)) = occurs k (map c (seq 0 n)).
Proof.
  induction n as [|n IH]; [done|]. rewrite count_rows_S, IH, seq_S, map_app.
  unfold occurs. rewrite filter_app, app_length. f_equal. cbn [map]. rewrite filter_cons, filter_nil.
  cbn [Nat.add]. destruct (decide (c n = k)) as [E|E].
  - by rewrite bool_decide_eq_true_2.
  - by rewrite bool_decide_eq_false_2.
Qed.

Lemma class_tally show g c co m : count_order co →
  (∀ i, i < (gr_size g).2 → get_class show g i = Ok (c i)) →
  class_distribution show g = Ok m → tallies (map c (seq 0 (gr_size g).2)) (co m).
Proof.
  intros Ho Hc Hm. destruct (class_distribution_spec show g c Hc) as (m' & Hm' & Hk & Hp & _).
  rewrite Hm in Hm'. injection Hm' as <-. unfold tallies. etransitivity; [apply Ho|].
  rewrite (map_tally (map c (seq 0 (gr_size g).2)) m); [|intros; by rewrite Hk, count_occurs|done].
  rewrite map_map. done.
Qed.

Lemma split_tables show g at_ s kf c ao co m : value_order ao → (∀ v, count_order (co v)) →
  gr_get_attribute g at_ = Ok s →
  (∀ i, i < (gr_size g).2 → (raw ← gr_get g s i; attr_decode show at_ raw) = Ok (kf i)) →
  (∀ i, i < (gr_size g).2 → get_class show g i = Ok (c i)) →
  distribution_after_split show g at_ = Ok m →
  tables (map (λ i, (kf i, c i)) (seq 0 (gr_size g).2)) (map (λ v, co v (default ∅ (m !! v))) (ao m)).
Proof.
  intros Ha Ho Hs Hk Hc Hm. destruct (after_split_spec show g at_ s kf c Hs Hk Hc) as (m' & Hm' & Hcnt & Hdom & _).
  rewrite Hm in Hm'. injection Hm' as <-.
  assert (map_Forall (λ _ inner, map_Forall (λ _ v, 0 < v) inner) m) as Hp.
  { unfold distribution_after_split in Hm. rewrite Hs in Hm. revert Hm. generalize (seq 0 (gr_size g).2) as l.
    intros l. assert (map_Forall (λ _ inner, map_Forall (λ _ v, 0 < v) inner) (∅ : gmap string (gmap string nat))) as H0 by done.
    revert H0. generalize (∅ : gmap string (gmap string nat)). induction l as [|i l IH]; intros m0 H0 Hm; cbn [res_foldl] in Hm.
    - by injection Hm as <-.
    - destruct (gr_get g s i) as [raw| |]; cbn [mbind res_bind] in Hm; [|discriminate..].
      destruct (attr_decode show at_ raw) as [k| |]; cbn [mbind res_bind] in Hm; [|discriminate..].
      destruct (get_class show g i) as [cl| |]; cbn [mbind res_bind] in Hm; [|discriminate..].
      apply IH in Hm; [done|]. rewrite count_up2_eq. apply map_Forall_insert_2; [|done].
      apply map_Forall_insert_2; [lia|]. destruct (m0 !! k) as [w|] eqn:E; [|done]. by apply (H0 k w). }
  set (rows := map (λ i, (kf i, c i)) (seq 0 (gr_size g).2)).
  assert (∀ v, tallies (labels_at v rows) (co v (default ∅ (m !! v)))) as Ht.
  { intros v. unfold tallies. etransitivity; [apply (Ho v)|]. rewrite (map_tally (labels_at v rows)); [by rewrite map_map| |].
    - intros k. rewrite Hcnt, labels_occurs. unfold rows. rewrite <- count_occurs.
      apply count_rows_ext. intros i _. apply bool_decide_ext. split; [intros [-> ->]; done|]. intros E. by injection E.
    - destruct (m !! v) as [w|] eqn:E; [|done]. by apply (Hp v w). }
  exists (ao m). split.
  - etransitivity; [apply Ha|]. apply NoDup_Permutation.
    + apply (NoDup_fst_map_to_list m).
    + apply NoDup_remove_dups.
    + intros v. rewrite elem_of_remove_dups. unfold rows. rewrite map_map. cbn [fst].
      transitivity (is_Some (m !! v)).
      * rewrite <- elem_of_dom. rewrite <- (list_to_map_to_list m) at 2. rewrite dom_list_to_map, elem_of_list_to_set. done.
      * rewrite Hdom, elem_of_list_fmap. split.
        -- intros (i & Hi & <-). exists i. split; [done|]. apply elem_of_seq. lia.
        -- intros (i & -> & Hi). apply elem_of_seq in Hi. exists i. split; [lia|done].
  - apply Forall2_fmap_r. apply Forall_Forall2_diag. apply Forall_forall. intros v _. apply Ht.
Qed.

(** Renaming labels changes no counts. *)
Lemma tallies_rename {A B} `{!EqDecision A, !EqDecision B} (f : A → B) (l : list A) counts :
  (∀ x y, x ∈ l → y ∈ l → f x = f y → x = y) → tallies (map f l) counts → tallies l counts.
Proof.
  intros Hf H. unfold tallies in *. etransitivity; [exact H|].
  assert (∀ k x, (∀ y, y ∈ k → y ∈ l) → x ∈ l → occurs (f x) (map f k) = occurs x k) as Ho.
  { intros k x. induction k as [|y k IH]; intros Hk Hx; [done|]. unfold occurs in *. cbn [map]. rewrite !filter_cons.
    specialize (IH ltac:(intros z Hz; apply Hk; by right) Hx).
    destruct (decide (y = x)) as [->|Hne].
    - rewrite decide_True by done. cbn [length]. by rewrite IH.
    - rewrite decide_False; [done|]. intros E. apply Hne, Hf; [apply Hk; left|done|done]. }
  assert (remove_dups (map f l) ≡ₚ map f (remove_dups l)) as Hp.
  { apply NoDup_Permutation; [apply NoDup_remove_dups| |].
    - assert (∀ k, NoDup k → (∀ y, y ∈ k → y ∈ l) → NoDup (map f k)) as Hn.
      { induction k as [|y k IH]; intros Hnd Hk; [constructor|]. apply NoDup_cons in Hnd as [H1 H2]. cbn [map]. constructor.
        - intros Hin. apply elem_of_list_fmap in Hin as (z & E & Hz). apply H1.
          rewrite (Hf y z); [done|apply Hk; left|apply Hk; by right|done].
        - apply IH; [done|]. intros z Hz. apply Hk. by right. }
      apply Hn; [apply NoDup_remove_dups|]. intros y. by rewrite elem_of_remove_dups.
    - intros x. rewrite elem_of_remove_dups, !elem_of_list_fmap.
      split; intros (y & -> & Hy); exists y; (split; [done|]); by rewrite elem_of_remove_dups in *. }
  rewrite Hp, map_map. apply Permutation_refl'. apply map_ext_in. intros x Hx. apply elem_of_list_In in Hx.
  rewrite elem_of_remove_dups in Hx. by apply Ho.
Qed.

Lemma tables_rename {A B C} `{!EqDecision A, !EqDecision B, !EqDecision C} (f : B → C) (rows : list (A * B)) sides :
  (∀ x y, x ∈ rows → y ∈ rows → f x.2 = f y.2 → x.2 = y.2) →
  tables (map (λ r, (r.1, f r.2)) rows) sides → tables rows sides.
Proof.
  intros Hf (vs & Hvs & H). exists vs. rewrite map_map in Hvs. cbn [fst] in Hvs. split; [exact Hvs|].
  eapply Forall2_impl; [exact H|]. intros v side Ht. apply (tallies_rename f).
  - intros c d Hc Hd. apply in_labels in Hc, Hd. by apply (Hf (v, c) (v, d)).
  - assert (labels_at v (map (λ r, (r.1, f r.2)) rows) = map f (labels_at v rows)) as <-; [|done].
    clear. induction rows as [|[w c] rows IH]; [done|]. unfold labels_at in *. cbn [map]. rewrite !filter_cons. cbn [fst].
    destruct (decide (w = v)); cbn [map snd]; by rewrite IH.
Qed.
