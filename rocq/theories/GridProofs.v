(** Lemmas about grids, views and distributions. *)
From Verif Require Import Prelude BytesModel BytesProofs FloatModel AttrModel AttrSpec AttrProofs
  StoreModel StoreProofs DenseModel DenseSpec DenseProofs ShuffleModel SwapProofs
  GridModel GridSpec.
From Flocq Require Import IEEE754.Bits IEEE754.Binary.
Local Open Scope nat_scope.

(** ** MapOverRows of DenseInstances is the loop over its row sequence *)

Lemma dense_map_from_run {S} d asv (f : S → list (list N) → nat → res (S * cb)) n :
  ∀ i s, dense_map_from d asv f s i n =
  run_rows f s (map (λ i, (i, res_mapM (λ a, dense_get d a i) asv)) (seq i n)).
Proof.
  induction n as [|n IH]; intros i s; simpl; [done|].
  destruct (res_mapM _ _); simpl; [|done..].
  destruct (f s a i) as [[s1 []]| |]; simpl; try done.
Qed.

Lemma dense_grid_map {S} order d asv (f : S → list (list N) → nat → res (S * cb)) s :
  map_over_rows (dense_grid order d) asv f s = dense_map_over_rows d asv f s.
Proof. unfold map_over_rows, dense_map_over_rows. simpl. by rewrite dense_map_from_run. Qed.

Lemma dense_grid_in_order order d : iter_in_order (dense_grid order d).
Proof. intros asv. done. Qed.

Lemma in_order_agrees g : iter_in_order g → iter_agrees g.
Proof.
  intros H asv. rewrite (H asv). eexists. split; [done|]. split.
  - rewrite map_map. simpl. by rewrite map_id.
  - intros i fetch Hin. apply elem_of_list_fmap in Hin as (j & [= -> ->] & _). done.
Qed.

(** ** Views *)

Lemma row_map_lookup rows i : row_map rows !! i = rows !! i.
Proof.
  unfold row_map.
  destruct (rows !! i) as [r|] eqn:E.
  - apply elem_of_list_to_map_1.
    + rewrite fmap_imap.
      replace (imap _ rows) with (seq 0 (length rows)); [apply NoDup_seq|].
      apply list_eq. intros j. rewrite list_lookup_imap.
      destruct (rows !! j) as [x|] eqn:E'; simpl.
      * apply lookup_seq. split; [done|]. by eapply lookup_lt_Some.
      * apply lookup_seq_ge. by apply lookup_ge_None.
    + apply elem_of_lookup_imap. eauto.
  - apply not_elem_of_list_to_map_1. intros Hin.
    apply elem_of_list_fmap in Hin as ([k x] & -> & Hin).
    apply elem_of_lookup_imap in Hin as (k' & x' & [= -> ->] & Hl). simpl in *. congruence.
Qed.

Lemma row_map_keys rows :
  map fst (map_to_list (row_map rows)) ≡ₚ seq 0 (length rows).
Proof.
  apply NoDup_Permutation.
  - apply NoDup_fst_map_to_list.
  - apply NoDup_seq.
  - intros i. rewrite elem_of_seq. split.
    + intros Hin. apply elem_of_list_fmap in Hin as ([k x] & -> & Hin).
      apply elem_of_map_to_list in Hin. rewrite row_map_lookup in Hin.
      apply lookup_lt_Some in Hin. simpl. lia.
    + intros [_ Hi]. destruct (lookup_lt_is_Some_2 rows i) as [x Hx]; [lia|].
      apply elem_of_list_fmap. exists (i, x). split; [done|].
      apply elem_of_map_to_list. by rewrite row_map_lookup.
Qed.

Lemma row_map_size rows : size (row_map rows) = length rows.
Proof.
  rewrite <- (seq_length (length rows) 0), <- row_map_keys.
  rewrite map_length. unfold size, map_size. done.
Qed.

Lemma view_visible_inv src rows attrs v :
  view_from_visible src rows attrs = Ok v →
  ∃ specs, resolve src attrs = Ok specs ∧
    v = View src (Some specs) (Some (row_map rows)) (class_from_src src (Some specs)) true.
Proof.
  unfold view_from_visible. rewrite bind_Ok. intros (specs & Hs & [= <-]). eauto.
Qed.

Lemma resolve_Ok g attrs specs :
  resolve g attrs = Ok specs ↔ Forall2 (λ a s, gr_get_attribute g a = Ok s) attrs specs.
Proof.
  unfold resolve. rewrite res_mapM_Ok. split; intros H.
  - eapply Forall2_impl; [exact H|]. simpl. intros a s Hs.
    destruct (gr_get_attribute g a); [|done..]. done.
  - eapply Forall2_impl; [exact H|]. simpl. intros a s ->. done.
Qed.

Lemma view_visible_shows src rows attrs v :
  view_from_visible src rows attrs = Ok v → shows_rows v src rows.
Proof.
  intros H. apply view_visible_inv in H as (specs & Hs & ->). split; [|split].
  - unfold view_size. simpl. destruct (gr_size src). simpl. by rewrite row_map_size.
  - intros j r s Hj. unfold view_get, resolve_row. simpl. by rewrite row_map_lookup, Hj.
  - intros j s Hj. unfold view_get, resolve_row. simpl.
    rewrite row_map_lookup. by rewrite (lookup_ge_None_2 rows j Hj).
Qed.

Lemma view_visible_cols src rows attrs v :
  view_from_visible src rows attrs = Ok v →
  (view_size v).1 = length attrs ∧
  Forall2 (λ a b, ∃ s, gr_get_attribute src a = Ok s ∧ sp_attr s = b)
    attrs (view_all_attrs v) ∧
  ∀ a, a ∈ v_class v ↔
    a ∈ gr_class_attrs src ∧ ∃ b, b ∈ view_all_attrs v ∧ attr_equals b a = true.
Proof.
  intros H. apply view_visible_inv in H as (specs & Hs & ->).
  apply resolve_Ok in Hs.
  split; [|split].
  - unfold view_size. simpl. destruct (gr_size src). simpl.
    by apply Forall2_length in Hs.
  - unfold view_all_attrs. simpl.
    apply Forall2_fmap_r. eapply Forall2_impl; [exact Hs|]. simpl. eauto.
  - intros a. unfold view_all_attrs, class_from_src. simpl.
    rewrite elem_of_remove_dups, elem_of_list_filter.
    unfold spec_matched. rewrite existsb_exists. split.
    + intros [(s & Hin & He) Ha]. split; [done|]. exists (sp_attr s).
      split; [|done]. apply elem_of_list_fmap. exists s. split; [done|].
      by apply elem_of_list_In.
    + intros (Ha & b & Hb & He). apply elem_of_list_fmap in Hb as (s & -> & Hin).
      split; [|done]. exists s. split; [by apply elem_of_list_In|done].
Qed.

Lemma view_visible_total src rows attrs :
  (∀ a, a ∈ attrs → ∃ s, gr_get_attribute src a = Ok s) →
  ∃ v, view_from_visible src rows attrs = Ok v.
Proof.
  intros H. assert (∃ specs, resolve src attrs = Ok specs) as [specs Hs].
  { induction attrs as [|a attrs IH]; simpl; [by exists []|].
    destruct (H a) as [s Hs]; [left|].
    destruct IH as [specs Hsp]; [intros b Hb; apply H; by right|].
    exists (s :: specs). unfold resolve in *. simpl. rewrite Hs. simpl. by rewrite Hsp. }
  unfold view_from_visible. rewrite Hs. simpl. eauto.
Qed.

Lemma view_visible_unresolved src rows attrs a :
  a ∈ attrs → (∀ s, gr_get_attribute src a ≠ Ok s) →
  view_from_visible src rows attrs = Panic.
Proof.
  intros Hin Hno. unfold view_from_visible.
  assert (resolve src attrs = Panic) as ->; [|done].
  unfold resolve. induction attrs as [|b attrs IH]; [by apply not_elem_of_nil in Hin|].
  simpl. apply elem_of_cons in Hin as [->|Hin].
  - destruct (gr_get_attribute src b) eqn:E; simpl; [by destruct (Hno a)|done..].
  - rewrite (IH Hin). by destruct (gr_get_attribute src b).
Qed.

Lemma view_visible_iter src rows attrs v co ro :
  view_from_visible src rows attrs = Ok v → any_order ro →
  iter_agrees (view_grid co ro v).
Proof.
  intros H Hro asv. pose proof (view_visible_shows _ _ _ _ H) as (Hsz & Hget & _).
  apply view_visible_inv in H as (specs & _ & ->).
  cbn [gr_iter view_grid gr_size gr_get]. unfold view_iter. simpl.
  eexists. split; [done|]. split.
  - rewrite map_map. simpl. rewrite map_id, (Hro _), row_map_keys.
    by rewrite <- Hsz.
  - intros i fetch Hin. apply elem_of_list_fmap in Hin as (r & [= -> ->] & Hr).
    rewrite (Hro _), row_map_keys, elem_of_seq in Hr.
    destruct (lookup_lt_is_Some_2 rows r) as [x Hx]; [lia|].
    rewrite row_map_lookup, Hx. simpl.
    induction asv as [|a asv IH]; simpl; [done|].
    rewrite IH. by rewrite (Hget r x a Hx).
Qed.

Lemma view_attrs_iter src attrs v co ro :
  view_from_attrs src attrs = Ok v → iter_agrees src →
  iter_agrees (view_grid co ro v).
Proof.
  unfold view_from_attrs. rewrite bind_Ok. intros (specs & _ & [= <-]) Hsrc asv.
  destruct (Hsrc asv) as (rows & Hit & Hp & Hf). exists rows.
  cbn [gr_iter view_grid gr_size gr_get]. unfold view_iter, view_size. simpl.
  destruct (gr_size src) as [h n]. done.
Qed.

(** ** LazyShuffle and SampleWithReplacement *)

Lemma lazy_rows_bound draws l n (m : gmap nat nat) :
  (∀ i, i ∈ l → i < n ∧ draws i < n) →
  map_Forall (λ k v, k < n ∧ v < n) m →
  map_Forall (λ k v, k < n ∧ v < n)
    (foldl (λ m i, <[draws i := i]> (<[i := draws i]> m)) m l).
Proof.
  revert m. induction l as [|i l IH]; intros m Hl Hm; simpl; [done|].
  destruct (Hl i) as [H1 H2]; [left|].
  apply IH; [intros j Hj; apply Hl; by right|].
  apply map_Forall_insert_2; [done|]. by apply map_Forall_insert_2.
Qed.

Lemma size_bound (m : gmap nat nat) n :
  map_Forall (λ k v, k < n ∧ v < n) m → size m ≤ n.
Proof.
  intros H. rewrite <- size_dom.
  rewrite <- (size_set_seq (C := gset nat) 0 n). apply subseteq_size.
  intros k Hk. apply elem_of_dom in Hk as [v Hv].
  apply elem_of_set_seq. specialize (H k v Hv). simpl in H. lia.
Qed.

Lemma lazy_shuffle_rows_ok draws g :
  (∀ i, i < (gr_size g).2 → draws i ≤ i) →
  (view_size (lazy_shuffle draws g)).2 = (gr_size g).2 ∧
  ∀ i, i < (gr_size g).2 →
    ∃ j, j < (gr_size g).2 ∧ ∀ s, view_get (lazy_shuffle draws g) s i = gr_get g s j.
Proof.
  intros Hd. set (n := (gr_size g).2) in *.
  assert (map_Forall (λ k v, k < n ∧ v < n) (lazy_shuffle_rows draws n)) as Hm.
  { apply lazy_rows_bound; [|apply map_Forall_empty].
    intros i Hi. apply elem_of_seq in Hi. specialize (Hd i ltac:(lia)). lia. }
  split.
  - unfold view_size, lazy_shuffle. simpl. fold n.
    pose proof (size_bound _ _ Hm). destruct (gr_size g) as [h n'] eqn:E. simpl in *.
    subst n. simpl in *. destruct (n' <? size (lazy_shuffle_rows draws n')) eqn:E2; lia.
  - intros i Hi. unfold view_get, resolve_row, lazy_shuffle. simpl. fold n.
    destruct (lazy_shuffle_rows draws n !! i) as [r|] eqn:E.
    + exists r. split; [|done]. by apply (Hm i r).
    + exists i. done.
Qed.

Lemma sample_rows_lookup draws n i :
  (foldl (λ (m : gmap nat nat) i, <[i := draws i]> m) ∅ (seq 0 n)) !! i =
  if decide (i < n) then Some (draws i) else None.
Proof.
  induction n as [|n IH].
  - rewrite decide_False by lia. done.
  - rewrite seq_S, foldl_app. simpl. destruct (decide (i = n)) as [->|Hne].
    + rewrite lookup_insert, decide_True by lia. done.
    + rewrite lookup_insert_ne by done. rewrite IH.
      destruct (decide (i < n)), (decide (i < S n)); try lia; done.
Qed.

Lemma sample_rows_size draws n :
  size (foldl (λ (m : gmap nat nat) i, <[i := draws i]> m) ∅ (seq 0 n)) = n.
Proof.
  induction n as [|n IH]; [done|].
  rewrite seq_S, foldl_app. simpl. rewrite map_size_insert_None; [by rewrite IH|].
  rewrite sample_rows_lookup, decide_False by lia. done.
Qed.

Lemma sample_spec draws g n v :
  (∀ i, i < n → draws i < (gr_size g).2) →
  sample_with_replacement draws g n = Ok v →
  (view_size v).2 = Nat.max n (gr_size g).2 ∧
  ∀ i, i < n → draws i < (gr_size g).2 ∧ ∀ s, view_get v s i = gr_get g s (draws i).
Proof.
  intros Hd. unfold sample_with_replacement.
  destruct ((0 <? n) && ((gr_size g).2 =? 0)); [done|]. intros [= <-]. split.
  - unfold view_size. simpl. destruct (gr_size g) as [h r]. simpl.
    rewrite sample_rows_size. destruct (r <? n) eqn:E; lia.
  - intros i Hi. split; [by apply Hd|]. intros s.
    unfold view_get, resolve_row. simpl. by rewrite sample_rows_lookup, decide_True.
Qed.

(** ** Train/test split *)

Lemma split_rows_perm draws t n i :
  (split_rows draws t i n).1 ++ (split_rows draws t i n).2 ≡ₚ seq i n.
Proof.
  revert i. induction n as [|n IH]; intros i; simpl; [done|].
  specialize (IH (S i)). destruct (split_rows draws t (S i) n) as [tr te]. simpl in *.
  destruct (t <? draws i)%Z; simpl.
  - by rewrite IH.
  - rewrite <- IH. by rewrite Permutation_middle.
Qed.

Lemma bijection_perm n p : row_bijection n p → map p (seq 0 n) ≡ₚ seq 0 n.
Proof.
  intros (H1 & H2 & H3). apply NoDup_Permutation.
  - apply NoDup_fmap_2_strong; [|apply NoDup_seq].
    intros i j Hi Hj. apply elem_of_seq in Hi, Hj. apply H2; lia.
  - apply NoDup_seq.
  - intros j. rewrite elem_of_list_fmap. split.
    + intros (i & -> & Hi). apply elem_of_seq in Hi. apply elem_of_seq.
      specialize (H1 i ltac:(lia)). lia.
    + intros Hj. apply elem_of_seq in Hj. destruct (H3 j) as (i & Hi & Heq); [lia|].
      exists i. split; [done|]. apply elem_of_seq. lia.
Qed.

Lemma shows_map_rows v src rows (p : nat → nat) : 
  shows_rows v src rows → length (map p rows) = (view_size v).2.
Proof. intros [H _]. by rewrite map_length. Qed.

Lemma column_of_rearranged p d d' s g :
  rows_rearranged p d d' → column_of d s g → ∃ g', column_of d' s g'.
Proof.
  intros (_ & Ha & _) [Hg Hp].
  assert (map g_attrs (d_ags d) !! sp_pond s = Some (g_attrs g)) as H.
  { rewrite list_lookup_fmap, Hg. done. }
  rewrite <- Ha, list_lookup_fmap in H.
  destruct (d_ags d' !! sp_pond s) as [g'|] eqn:E; [|done]. simpl in H.
  injection H as H. exists g'. split; [done|]. by rewrite H.
Qed.

Lemma rearranged_all_attrs p d d' : rows_rearranged p d d' →
  dense_all_attrs d' = dense_all_attrs d.
Proof. intros (_ & Ha & _). unfold dense_all_attrs. by rewrite Ha. Qed.

Lemma train_test_dense_spec pg h d order shuf draws t :
  reachable pg h d → distinct_attrs (dense_all_attrs d) →
  (∀ i, i < d_maxrow d → shuf i ≤ i) →
  ∃ d' v1 v2 tr te, train_test_dense order shuf draws t d = Ok (d', (v1, v2)) ∧
    tr ++ te ≡ₚ seq 0 (d_maxrow d) ∧
    (view_size v1).2 = length tr ∧ (view_size v2).2 = length te ∧
    (∀ j r s g, tr !! j = Some r → column_of d s g → view_get v1 s j = dense_get d s r) ∧
    (∀ j r s g, te !! j = Some r → column_of d s g → view_get v2 s j = dense_get d s r).
Proof.
  intros Hr Hd Hsh.
  destruct (dense_shuffle_spec pg d shuf (ex_intro _ h Hr) Hd Hsh)
    as (d' & p & Hs & Hr' & Hp & Hre).
  unfold train_test_dense. rewrite Hs. cbn [mbind res_bind].
  unfold train_test_views.
  pose proof (split_rows_perm draws t (gr_size (dense_grid order d')).2 0) as Hperm.
  destruct (split_rows draws t 0 _) as [tr te] eqn:Esp. simpl in Hperm.
  assert (∀ rows, ∃ v, view_from_visible (dense_grid order d') rows
    (gr_all_attrs (dense_grid order d')) = Ok v) as Htot.
  { intros rows. apply view_visible_total. intros a Ha.
    by apply dense_get_attribute_finds. }
  destruct (Htot tr) as [v1 Hv1], (Htot te) as [v2 Hv2].
  rewrite Hv1. cbn [mbind res_bind]. rewrite Hv2. cbn [mbind res_bind].
  exists d', v1, v2, (map p tr), (map p te). split; [done|].
  assert (d_maxrow d' = d_maxrow d) as Hmr by apply Hre.
  pose proof (view_visible_shows _ _ _ _ Hv1) as (Hz1 & Hg1 & _).
  pose proof (view_visible_shows _ _ _ _ Hv2) as (Hz2 & Hg2 & _).
  assert (∀ rows x, x ∈ rows → rows = tr ∨ rows = te → x < d_maxrow d) as Hlt.
  { intros rows x Hx Hor.
    assert (x ∈ seq 0 (d_maxrow d')) as Hin.
    { rewrite <- Hperm. apply elem_of_app. destruct Hor as [<-|<-]; auto. }
    apply elem_of_seq in Hin. lia. }
  split; [|split; [|split; [|split]]].
  - rewrite <- fmap_app. rewrite Hperm, Hmr. by apply bijection_perm.
  - by rewrite map_length.
  - by rewrite map_length.
  - intros j r s g Hj Hcol. rewrite list_lookup_fmap in Hj.
    destruct (tr !! j) as [x|] eqn:Ej; [|done]. simpl in Hj. injection Hj as <-.
    rewrite (Hg1 j x s Ej). simpl. eapply Hre; [done|].
    eapply Hlt; [by eapply elem_of_list_lookup_2|by left].
  - intros j r s g Hj Hcol. rewrite list_lookup_fmap in Hj.
    destruct (te !! j) as [x|] eqn:Ej; [|done]. simpl in Hj. injection Hj as <-.
    rewrite (Hg2 j x s Ej). simpl. eapply Hre; [done|].
    eapply Hlt; [by eapply elem_of_list_lookup_2|by right].
Qed.

(** ** Counting *)

Lemma map_sum_empty {V} (f : V → nat) : map_sum f ∅ = 0.
Proof. unfold map_sum. by rewrite map_to_list_empty. Qed.

Lemma sum_list_perm l1 l2 : l1 ≡ₚ l2 → sum_list l1 = sum_list l2.
Proof. intros H. induction H; simpl; lia. Qed.

Lemma map_sum_insert_new {V} (f : V → nat) m k v :
  m !! k = None → map_sum f (<[k := v]> m) = f v + map_sum f m.
Proof.
  intros H. unfold map_sum.
  rewrite (sum_list_perm _ (map (λ kv, f kv.2) ((k, v) :: map_to_list m))); [done|].
  apply fmap_Permutation. by apply map_to_list_insert.
Qed.

Lemma map_sum_insert {V} (f : V → nat) m k v :
  map_sum f (<[k := v]> m) + match m !! k with Some w => f w | None => 0 end
  = f v + map_sum f m.
Proof.
  destruct (m !! k) as [w|] eqn:E.
  - rewrite <- insert_delete_insert.
    rewrite map_sum_insert_new by apply lookup_delete.
    pose proof (map_sum_insert_new f (delete k m) k w (lookup_delete m k)) as H.
    rewrite insert_delete in H by done. lia.
  - rewrite map_sum_insert_new by done. lia.
Qed.

Lemma count_rows_S n P : count_rows (S n) P = count_rows n P + if P n then 1 else 0.
Proof.
  unfold count_rows. rewrite seq_S, filter_app, app_length. simpl. f_equal.
  unfold filter. simpl. destruct (P n); simpl; [|done]. done.
Qed.

Lemma count_rows_ext n P Q : (∀ i, i < n → P i = Q i) → count_rows n P = count_rows n Q.
Proof.
  induction n as [|n IH]; intros H; [done|].
  rewrite !count_rows_S. rewrite IH by (intros; apply H; lia). by rewrite H by lia.
Qed.

(** The generic counting loop. *)
Lemma res_foldl_seq_S {B} (f : B → nat → res B) b n :
  res_foldl f b (seq 0 (S n)) = b' ← res_foldl f b (seq 0 n); f b' n.
Proof.
  rewrite seq_S, res_foldl_app. simpl. destruct (res_foldl f b (seq 0 n)); simpl; try done.
  by destruct (f a n).
Qed.

Lemma distribution_loop (cls : nat → res string) n (c : nat → string) :
  (∀ i, i < n → cls i = Ok (c i)) →
  ∃ m, res_foldl (λ m i, k ← cls i; Ok (count_up m k)) ∅ (seq 0 n) = Ok m ∧
    (∀ k, default 0 (m !! k) = count_rows n (λ i, bool_decide (c i = k))) ∧
    map_Forall (λ _ v, 0 < v) m ∧ map_sum (λ v, v) m = n.
Proof.
  induction n as [|n IH]; intros Hc.
  - exists ∅. split; [done|]. split; [|split; [apply map_Forall_empty|apply map_sum_empty]].
    intros k. rewrite lookup_empty. done.
  - destruct IH as (m & Hm & Hk & Hpos & Hs); [intros; apply Hc; lia|].
    rewrite res_foldl_seq_S, Hm. cbn [mbind res_bind]. rewrite Hc by lia. simpl.
    eexists. split; [done|]. unfold count_up. split; [|split].
    + intros k. rewrite count_rows_S. destruct (decide (c n = k)) as [<-|Hne].
      * rewrite lookup_insert, bool_decide_eq_true_2 by done. simpl. by rewrite Hk.
      * rewrite lookup_insert_ne, bool_decide_eq_false_2 by done. rewrite Hk. lia.
    + apply map_Forall_insert_2; [lia|done].
    + pose proof (map_sum_insert (λ v, v) m (c n) (default 0 (m !! c n) + 1)) as H.
      destruct (m !! c n); simpl in *; lia.
Qed.

Lemma class_distribution_spec show g c :
  (∀ i, i < (gr_size g).2 → get_class show g i = Ok (c i)) →
  ∃ m, class_distribution show g = Ok m ∧
    (∀ k, default 0 (m !! k) = count_rows (gr_size g).2 (λ i, bool_decide (c i = k))) ∧
    map_Forall (λ _ v, 0 < v) m ∧ map_sum (λ v, v) m = (gr_size g).2.
Proof. apply distribution_loop. Qed.

Lemma count_up2_eq m k c :
  count_up2 m k c = <[k := count_up (default ∅ (m !! k)) c]> m.
Proof.
  unfold count_up2. destruct (m !! k) as [w|] eqn:E.
  - by rewrite E.
  - rewrite lookup_insert, insert_insert. done.
Qed.

Lemma distribution2_loop (key : nat → res string) (cls : nat → res string) n
    (kf c : nat → string) :
  (∀ i, i < n → key i = Ok (kf i)) → (∀ i, i < n → cls i = Ok (c i)) →
  ∃ m, res_foldl (λ m i, k ← key i; cl ← cls i; Ok (count_up2 m k cl)) ∅ (seq 0 n) = Ok m ∧
    (∀ k cl, default 0 ((default ∅ (m !! k)) !! cl) =
       count_rows n (λ i, bool_decide (kf i = k ∧ c i = cl))) ∧
    (∀ k, is_Some (m !! k) ↔ ∃ i, i < n ∧ kf i = k) ∧
    ∀ cl, map_sum (λ inner, default 0 (inner !! cl)) m =
      count_rows n (λ i, bool_decide (c i = cl)).
Proof.
  induction n as [|n IH]; intros Hkf Hc.
  - exists ∅. split; [done|]. split; [|split].
    + intros k cl. rewrite lookup_empty. simpl. rewrite lookup_empty. done.
    + intros k. rewrite lookup_empty. split; [by intros []|]. intros (i & Hi & _). lia.
    + intros cl. apply map_sum_empty.
  - destruct IH as (m & Hm & Hk & Hdom & Hs); [intros; apply Hkf; lia|intros; apply Hc; lia|].
    rewrite res_foldl_seq_S, Hm. cbn [mbind res_bind]. rewrite Hkf by lia. cbn [mbind res_bind].
    rewrite Hc by lia. cbn [mbind res_bind].
    eexists. split; [done|]. rewrite count_up2_eq. split; [|split].
    + intros k cl. rewrite count_rows_S. specialize (Hk k cl).
      destruct (decide (kf n = k)) as [<-|Hne].
      * rewrite lookup_insert. simpl. unfold count_up.
        destruct (decide (c n = cl)) as [<-|Hne2].
        -- rewrite lookup_insert, bool_decide_eq_true_2 by done. simpl. lia.
        -- rewrite lookup_insert_ne, bool_decide_eq_false_2 by naive_solver. lia.
      * rewrite lookup_insert_ne, bool_decide_eq_false_2 by naive_solver. lia.
    + intros k. rewrite lookup_insert_is_Some'. rewrite Hdom. split.
      * intros [<-|(i & Hi & He)]; [exists n; split; [lia|done]|].
        exists i. split; [lia|done].
      * intros (i & Hi & He). destruct (decide (i = n)) as [->|Hne]; [by left|].
        right. exists i. split; [lia|done].
    + intros cl. rewrite count_rows_S. rewrite <- Hs.
      pose proof (map_sum_insert (λ inner : gmap string nat, default 0 (inner !! cl)) m (kf n)
        (count_up (default ∅ (m !! kf n)) (c n))) as H.
      unfold count_up in H at 2.
      destruct (decide (c n = cl)) as [<-|Hne].
      * rewrite bool_decide_eq_true_2 by done. rewrite lookup_insert in H.
        destruct (m !! kf n) as [w|]; simpl in *; [lia|].
        rewrite lookup_empty in H. simpl in H. lia.
      * rewrite bool_decide_eq_false_2 by done. rewrite lookup_insert_ne in H by done.
        destruct (m !! kf n) as [w|]; simpl in *; [lia|].
        rewrite lookup_empty in H. simpl in H. lia.
Qed.

Lemma res_foldl_ext {A B} (f f' : B → A → res B) b l :
  (∀ b x, x ∈ l → f b x = f' b x) → res_foldl f b l = res_foldl f' b l.
Proof.
  revert b. induction l as [|x l IH]; intros b H; simpl; [done|].
  rewrite H by left. destruct (f' b x); simpl; [|done..].
  apply IH. intros b' y Hy. apply H. by right.
Qed.

Lemma after_split_spec show g at_ s kf c :
  gr_get_attribute g at_ = Ok s →
  (∀ i, i < (gr_size g).2 → (raw ← gr_get g s i; attr_decode show at_ raw) = Ok (kf i)) →
  (∀ i, i < (gr_size g).2 → get_class show g i = Ok (c i)) →
  ∃ m, distribution_after_split show g at_ = Ok m ∧
    (∀ k cl, default 0 ((default ∅ (m !! k)) !! cl) =
       count_rows (gr_size g).2 (λ i, bool_decide (kf i = k ∧ c i = cl))) ∧
    (∀ k, is_Some (m !! k) ↔ ∃ i, i < (gr_size g).2 ∧ kf i = k) ∧
    ∀ cl, map_sum (λ inner, default 0 (inner !! cl)) m =
      count_rows (gr_size g).2 (λ i, bool_decide (c i = cl)).
Proof.
  intros Hs Hk Hc. unfold distribution_after_split. rewrite Hs.
  destruct (distribution2_loop (λ i, raw ← gr_get g s i; attr_decode show at_ raw)
    (get_class show g) (gr_size g).2 kf c Hk Hc) as (m & Hm & Hrest).
  exists m. split; [|done]. rewrite <- Hm. apply res_foldl_ext.
  intros b x _. by destruct (gr_get g s x).
Qed.

Lemma after_threshold_spec show g name prec s val kf c :
  gr_get_attribute g (FloatA name prec) = Ok s →
  (∀ i, i < (gr_size g).2 → (raw ← gr_get g s i; threshold_key val raw) = Ok (kf i)) →
  (∀ i, i < (gr_size g).2 → get_class show g i = Ok (c i)) →
  ∃ m, distribution_after_threshold show g (FloatA name prec) val = Ok m ∧
    (∀ k cl, default 0 ((default ∅ (m !! k)) !! cl) =
       count_rows (gr_size g).2 (λ i, bool_decide (kf i = k ∧ c i = cl))) ∧
    (∀ k, is_Some (m !! k) ↔ ∃ i, i < (gr_size g).2 ∧ kf i = k) ∧
    ∀ cl, map_sum (λ inner, default 0 (inner !! cl)) m =
      count_rows (gr_size g).2 (λ i, bool_decide (c i = cl)).
Proof.
  intros Hs Hk Hc. unfold distribution_after_threshold. rewrite Hs.
  destruct (distribution2_loop (λ i, raw ← gr_get g s i; threshold_key val raw)
    (get_class show g) (gr_size g).2 kf c Hk Hc) as (m & Hm & Hrest).
  exists m. split; [|done]. rewrite <- Hm. apply res_foldl_ext.
  intros b x _. by destruct (gr_get g s x).
Qed.

(** ** Decomposition *)

Lemma collect_rows_one key m buf raw i k :
  key raw = Ok k →
  collect_rows key m (buf ++ [raw]) i = Ok (<[k := default [] (m !! k) ++ [i]]> m, Cont).
Proof.
  intros Hk. unfold collect_rows.
  assert (idx (buf ++ [raw]) (length (buf ++ [raw]) - 1) = Ok raw) as ->.
  { apply idx_Ok. rewrite app_length. simpl. rewrite Nat.add_sub.
    rewrite lookup_app_r by lia. by rewrite Nat.sub_diag. }
  cbn [mbind res_bind]. by rewrite Hk.
Qed.

Lemma collect_rows_run key rows (k : nat → string) m :
  (∀ i fetch, (i, fetch) ∈ rows → ∃ buf raw, fetch = Ok (buf ++ [raw]) ∧ key raw = Ok (k i)) →
  ∃ m', run_rows (collect_rows key) m rows = Ok (m', false) ∧
    ∀ x, m' !! x =
      match m !! x, filter (λ i, k i = x) (map fst rows) with
      | None, [] => None
      | o, l => Some (default [] o ++ l)
      end.
Proof.
  revert m. induction rows as [|[i fetch] rows IH]; intros m Hall.
  - exists m. split; [done|]. intros x. simpl. destruct (m !! x); simpl; by rewrite ?app_nil_r.
  - destruct (Hall i fetch) as (buf & raw & -> & Hkey); [left|].
    cbn [run_rows]. cbn [mbind res_bind].
    rewrite (collect_rows_one _ _ _ _ _ _ Hkey). cbn [mbind res_bind].
    destruct (IH (<[k i := default [] (m !! k i) ++ [i]]> m)) as (m' & Hrun & Hm').
    { intros i' f' Hin. apply Hall. by right. }
    exists m'. split; [done|]. intros x. rewrite Hm'. cbn [map fst].
    destruct (decide (k i = x)) as [<-|Hne].
    + rewrite lookup_insert. rewrite filter_cons_True by done. simpl.
      rewrite <- app_assoc. simpl. by destruct (m !! k i).
    + rewrite lookup_insert_ne by done. by rewrite filter_cons_False by done.
Qed.

Lemma views_of_spec g newattrs m :
  (∀ a, a ∈ newattrs → ∃ s, gr_get_attribute g a = Ok s) →
  ∃ vs, views_of g newattrs m = Ok vs ∧
    ∀ k, match m !! k with
         | Some rows => ∃ v, vs !! k = Some v ∧ view_from_visible g rows newattrs = Ok v
         | None => vs !! k = None
         end.
Proof.
  intros Hres. unfold views_of.
  assert (∀ l : list (string * list nat), ∃ vs,
    res_mapM (λ '(k, rows), v ← view_from_visible g rows newattrs; Ok (k, v)) l = Ok vs ∧
    Forall2 (λ kr kv, kv.1 = kr.1 ∧ view_from_visible g kr.2 newattrs = Ok kv.2) l vs)
    as Hmap.
  { induction l as [|[k rows] l (vs & IH1 & IH2)]; [exists []; split; [done|constructor]|].
    destruct (view_visible_total g rows newattrs Hres) as [v Hv].
    exists ((k, v) :: vs). simpl. rewrite Hv. cbn [mbind res_bind]. rewrite IH1.
    split; [done|]. constructor; [done|done]. }
  destruct (Hmap (map_to_list m)) as (vs & Hvs & HF).
  rewrite Hvs. cbn [mbind res_bind]. eexists. split; [done|].
  assert (map fst vs = map fst (map_to_list m)) as Hkeys.
  { clear -HF. induction HF as [|? ? ? ? [H1 H2]]; simpl; [done|]. by f_equal. }
  assert (NoDup (map fst vs)) as Hnd by (rewrite Hkeys; apply NoDup_fst_map_to_list).
  intros k. destruct (m !! k) as [rows|] eqn:E.
  - apply elem_of_map_to_list in E. apply elem_of_list_lookup in E as [n Hn].
    destruct (Forall2_lookup_l _ _ _ _ _ HF Hn) as ([k' v] & Hv & Heq & Hview).
    simpl in Heq, Hview. subst k'. exists v. split; [|done].
    apply elem_of_list_to_map_1; [done|]. by eapply elem_of_list_lookup_2.
  - apply not_elem_of_list_to_map_1. change (k ∉ map fst vs). rewrite Hkeys.
    intros Hin. apply elem_of_list_fmap in Hin as ([k' rows] & -> & Hin).
    apply elem_of_map_to_list in Hin. simpl in E. congruence.
Qed.

Lemma Forall2_app_last {A B} (P : A → B → Prop) l x k y :
  Forall2 P l k → P x y → Forall2 P (l ++ [x]) (k ++ [y]).
Proof. intros H1 H2. apply Forall2_app; [done|]. by constructor. Qed.

Lemma decompose_spec g at_ s key (kf : nat → string) :
  iter_agrees g →
  (∀ a, a ∈ gr_all_attrs g → ∃ s, gr_get_attribute g a = Ok s) →
  (∀ a s' i, gr_get_attribute g a = Ok s' → i < (gr_size g).2 → ∃ v, gr_get g s' i = Ok v) →
  gr_get_attribute g at_ = Ok s →
  (∀ i, i < (gr_size g).2 → (raw ← gr_get g s i; key raw) = Ok (kf i)) →
  ∃ m order, decompose g at_ s key = Ok m ∧
    order ≡ₚ seq 0 (gr_size g).2 ∧
    (∀ specs rows, resolve g (other_attrs g at_) = Ok specs →
       gr_iter g (specs ++ [s]) = Ok rows → order = map fst rows) ∧
    ∀ k, match filter (λ i, kf i = k) order with
         | [] => m !! k = None
         | rows => ∃ v, m !! k = Some v ∧
                     view_from_visible g rows (other_attrs g at_) = Ok v
         end.
Proof.
  intros Hit Hall Hread Hs Hkey. unfold decompose.
  assert (∀ a, a ∈ other_attrs g at_ → ∃ s, gr_get_attribute g a = Ok s) as Hother.
  { intros a Ha. apply elem_of_list_filter in Ha as [_ Ha]. by apply Hall. }
  assert (∃ specs, resolve g (other_attrs g at_) = Ok specs) as [specs Hspecs].
  { destruct (view_visible_total g [] _ Hother) as [v Hv].
    apply view_visible_inv in Hv as (specs & Hsp & _). eauto. }
  rewrite Hspecs. cbn [mbind res_bind].
  destruct (Hit (specs ++ [s])) as (rows & Hrows & Hperm & Hfetch).
  unfold map_over_rows. rewrite Hrows.
  destruct (collect_rows_run key rows kf ∅) as (m & Hrun & Hm).
  { intros i fetch Hin.
    assert (i < (gr_size g).2) as Hi.
    { assert (i ∈ map fst rows) as Hi by (apply elem_of_list_fmap; by exists (i, fetch)).
      rewrite Hperm in Hi. apply elem_of_seq in Hi. lia. }
    rewrite (Hfetch i fetch Hin).
    assert (∃ buf, Forall2 (λ x y, gr_get g x i = Ok y) specs buf) as [buf Hbuf].
    { apply resolve_Ok in Hspecs. clear -Hspecs Hread Hi.
      induction Hspecs as [|a sp attrs specs Ha HF (buf & IH)].
      - exists []. constructor.
      - destruct (Hread a sp i Ha Hi) as [v Hv]. exists (v :: buf). by constructor. }
    specialize (Hkey i Hi). apply bind_Ok in Hkey as (raw & Hraw & Hk).
    exists buf, raw. split; [|done]. apply res_mapM_Ok. by apply Forall2_app_last. }
  rewrite Hrun. cbn [mbind res_bind fst].
  destruct (views_of_spec g (other_attrs g at_) m Hother) as (vs & Hvs & Hlook).
  exists vs, (map fst rows). split; [done|]. split; [done|]. split.
  - intros sp rows' Hsp Hseq. injection Hsp as <-.
    rewrite Hrows in Hseq. by injection Hseq as <-.
  - intros k. specialize (Hlook k). rewrite Hm, lookup_empty in Hlook. simpl in Hlook.
    by destruct (filter (λ i, kf i = k) (map fst rows)).
Qed.

Lemma StronglySorted_seq i n : StronglySorted lt (seq i n).
Proof.
  revert i. induction n as [|n IH]; intros i; simpl; [constructor|].
  constructor; [apply IH|]. apply Forall_forall. intros x Hx.
  apply elem_of_seq in Hx. lia.
Qed.

Lemma StronglySorted_filter {A} (R : A → A → Prop) (P : A → Prop) `{!∀ x, Decision (P x)} l :
  StronglySorted R l → StronglySorted R (filter P l).
Proof.
  induction 1 as [|x l Hs IH HF]; [constructor|].
  destruct (decide (P x)).
  - rewrite filter_cons_True by done. constructor; [done|].
    apply Forall_forall. intros y Hy. apply elem_of_list_filter in Hy as [_ Hy].
    by eapply Forall_forall in HF.
  - by rewrite filter_cons_False by done.
Qed.

Lemma decompose_decomposes g at_ s key (kf : nat → string) :
  iter_agrees g →
  (∀ a, a ∈ gr_all_attrs g → ∃ s, gr_get_attribute g a = Ok s) →
  (∀ a s' i, gr_get_attribute g a = Ok s' → i < (gr_size g).2 → ∃ v, gr_get g s' i = Ok v) →
  gr_get_attribute g at_ = Ok s →
  (∀ i, i < (gr_size g).2 → (raw ← gr_get g s i; key raw) = Ok (kf i)) →
  ∃ m, decompose g at_ s key = Ok m ∧ decomposes g at_ kf m.
Proof.
  intros Hit Hall Hread Hs Hkey.
  destruct (decompose_spec g at_ s key kf Hit Hall Hread Hs Hkey)
    as (m & order & Hm & Hperm & Hord & Hk).
  exists m. split; [done|].
  assert (∀ k i, i ∈ filter (λ i, kf i = k) order ↔ i < (gr_size g).2 ∧ kf i = k) as Hmem.
  { intros k i. rewrite elem_of_list_filter, Hperm, elem_of_seq. split; intros; [lia || (destruct H as [H1 H2]; split; [lia|done])|].
    destruct H as [H1 H2]. split; [done|lia]. }
  assert (iter_in_order g → order = seq 0 (gr_size g).2) as Hsorted.
  { intros Ho.
    assert (∃ specs, resolve g (other_attrs g at_) = Ok specs) as [specs Hspecs].
    { destruct (view_visible_total g [] (other_attrs g at_)) as [v Hv].
      - intros a Ha. apply elem_of_list_filter in Ha as [_ Ha]. by apply Hall.
      - apply view_visible_inv in Hv as (specs & Hsp & _). eauto. }
    rewrite (Hord specs _ Hspecs (Ho _)).
    rewrite map_map. simpl. by rewrite map_id. }
  split.
  - intros k. specialize (Hk k). specialize (Hmem k).
    destruct (filter (λ i, kf i = k) order) as [|i0 l] eqn:E.
    + rewrite Hk. split; [by intros []|]. intros (i & Hi). apply Hmem in Hi.
      by apply not_elem_of_nil in Hi.
    + destruct Hk as (v & -> & _). split; [|eauto]. intros _. exists i0.
      apply Hmem. left.
  - intros k v Hv. specialize (Hk k). specialize (Hmem k).
    assert (NoDup (filter (λ i, kf i = k) order)) as Hnd.
    { apply NoDup_filter. rewrite Hperm. apply NoDup_seq. }
    assert (iter_in_order g → StronglySorted lt (filter (λ i, kf i = k) order)) as Hss.
    { intros Ho. rewrite (Hsorted Ho). apply StronglySorted_filter, StronglySorted_seq. }
    destruct (filter (λ i, kf i = k) order) as [|i0 l] eqn:E; [congruence|].
    destruct Hk as (v' & Hv' & Hview). rewrite Hv in Hv'. injection Hv' as <-.
    exists (i0 :: l). split; [done|]. split; [done|]. split; [done|]. split; [done|].
    split; [by eapply view_visible_shows|].
    by apply view_visible_cols in Hview as (_ & ? & _).
Qed.

(** ** The two typed distributions stop after one row *)

Lemma run_rows_stop {S} (f : S → list (list N) → nat → res (S * cb)) s rows :
  (∀ s r i s' c, f s r i = Ok (s', c) → c ≠ Cont) →
  run_rows f s rows = run_rows f s (take 1 rows).
Proof.
  intros Hstop. destruct rows as [|[i [buf| |]] rows]; simpl; try done.
  destruct (f s buf i) as [[s' c]| |] eqn:E; simpl; try done.
  destruct c; [|done..]. by apply Hstop in E.
Qed.

Lemma sum_list_insert l i x :
  l !! i = Some x → sum_list (<[i := x + 1]> l) = sum_list l + 1.
Proof.
  revert i. induction l as [|y l IH]; intros [|i] H; simpl in *; try done.
  - injection H as ->. lia.
  - rewrite (IH _ H). lia.
Qed.

Lemma by_categorical_first_row g l :
  distribution_by_categorical g = Ok l → sum_list l ≤ 1.
Proof.
  unfold distribution_by_categorical.
  destruct (gr_class_attrs g) as [|[| |] [|]]; try done.
  rewrite bind_Ok. intros (specs & _ & H). apply bind_Ok in H as ([r e] & H & [= <-]).
  unfold map_over_rows in H. simpl.
  assert (∀ n, sum_list (replicate n 0) = 0) as H0.
  { intros n. induction n; simpl; lia. }
  destruct (gr_iter g specs) as [rows| |]; [|injection H as <- _; rewrite H0; lia|done].
  destruct rows as [|[i [buf| |]] rows]; simpl in H; try done.
  - injection H as <- _. rewrite H0. lia.
  - unfold count_categorical_cb in H.
    destruct (idx buf 0) as [raw| |]; simpl in H; try done.
    destruct (unpack_u64 raw) as [u| |]; simpl in H; try done.
    destruct (idx (replicate (length values) 0) (N.to_nat u)) as [old| |] eqn:E;
      simpl in H; try done.
    injection H as <- _. apply idx_Ok in E. rewrite sum_list_insert by done.
    rewrite H0. lia.
Qed.

Lemma by_binary_first_row half g l :
  distribution_by_binary_float half g = Ok l → sum_list l ≤ 1.
Proof.
  unfold distribution_by_binary_float.
  destruct (gr_class_attrs g) as [|[| |] [|]]; try done.
  rewrite bind_Ok. intros (specs & _ & H). apply bind_Ok in H as ([r e] & H & [= <-]).
  unfold map_over_rows in H. simpl.
  destruct (gr_iter g specs) as [rows| |]; [|injection H as <- _; simpl; lia|done].
  destruct rows as [|[i [buf| |]] rows]; simpl in H; try done.
  - injection H as <- _. simpl. lia.
  - unfold count_binary_cb in H.
    destruct (idx buf 0) as [raw| |]; simpl in H; try done.
    destruct (unpack_float raw) as [u| |]; simpl in H; try done.
    destruct (float_gt u half); simpl in H; injection H as <- _; simpl; lia.
Qed.

(** ** InstancesAreEqual never answers false *)

Lemma byte_seq_equal_refl b : byte_seq_equal b b = true.
Proof.
  unfold byte_seq_equal. rewrite Nat.eqb_refl. simpl.
  induction b as [|x b IH]; simpl; [done|]. by rewrite N.eqb_refl.
Qed.

Lemma equal_rows_same get i n :
  (∀ j, i ≤ j < i + n → ∃ v, get j = Ok v) → equal_rows get get i n = Ok true.
Proof.
  revert i. induction n as [|n IH]; intros i H; simpl; [done|].
  destruct (H i) as [v Hv]; [lia|]. rewrite Hv. simpl. rewrite byte_seq_equal_refl. simpl.
  apply IH. intros j Hj. apply H. lia.
Qed.

Lemma instances_equal_always inst other :
  (∀ a, a ∈ gr_all_attrs inst → ∃ s, gr_get_attribute inst a = Ok s) →
  (∀ a s i, gr_get_attribute inst a = Ok s → i < (gr_size inst).2 →
     ∃ v, gr_get inst s i = Ok v) →
  instances_are_equal inst other = Ok true.
Proof.
  intros Hall Hread. unfold instances_are_equal.
  assert (∀ l, (∀ a, a ∈ l → a ∈ gr_all_attrs inst) →
    equal_attrs inst (gr_size inst).2 l = Ok true) as H; [|by apply H].
  induction l as [|a l IH]; intros Hsub; simpl; [done|].
  destruct (Hall a) as [s Hs]; [apply Hsub; left|]. rewrite Hs, attr_equals_refl. simpl.
  rewrite equal_rows_same; [|intros j Hj; eapply Hread; [done|lia]].
  simpl. apply IH. intros b Hb. apply Hsub. by right.
Qed.

(** ** Reachable DenseInstances satisfy the hypotheses used above *)

Lemma dense_grid_resolves order d a :
  a ∈ gr_all_attrs (dense_grid order d) →
  ∃ s, gr_get_attribute (dense_grid order d) a = Ok s.
Proof. apply dense_get_attribute_finds. Qed.

Lemma dense_grid_reads pg h order d a s i :
  reachable pg h d → gr_get_attribute (dense_grid order d) a = Ok s →
  i < (gr_size (dense_grid order d)).2 → ∃ v, gr_get (dense_grid order d) s i = Ok v.
Proof.
  intros Hr Hs Hi. apply dense_get_attribute_ok in Hs as (_ & _ & g & Hg).
  simpl. eexists. by apply (dense_refines_table pg h d s g i Hr Hg).
Qed.

Lemma decompose_values_spec show g at_ s kf :
  iter_agrees g →
  (∀ a, a ∈ gr_all_attrs g → ∃ s, gr_get_attribute g a = Ok s) →
  (∀ a s' i, gr_get_attribute g a = Ok s' → i < (gr_size g).2 →
     ∃ v, gr_get g s' i = Ok v) →
  gr_get_attribute g at_ = Ok s →
  (∀ i, i < (gr_size g).2 →
     (raw ← gr_get g s i; attr_decode show (sp_attr s) raw) = Ok (kf i)) →
  ∃ m, decompose_values show g at_ = Ok m ∧ decomposes g at_ kf m.
Proof.
  intros H1 H2 H3 H4 H5. unfold decompose_values. rewrite H4.
  exact (decompose_decomposes g at_ s _ kf H1 H2 H3 H4 H5).
Qed.

Lemma decompose_values_dense pg h d order show at_ s kf :
  reachable pg h d → dense_get_attribute d at_ = Ok s →
  (∀ i, i < d_maxrow d →
     (raw ← dense_get d s i; attr_decode show (sp_attr s) raw) = Ok (kf i)) →
  ∃ m, decompose_values show (dense_grid order d) at_ = Ok m ∧
    decomposes (dense_grid order d) at_ kf m.
Proof.
  intros Hr Hs Hk. eapply decompose_values_spec.
  - apply in_order_agrees, dense_grid_in_order.
  - intros a Ha. by apply dense_grid_resolves.
  - intros a s' i Ha Hi. exact (dense_grid_reads pg h order d a s' i Hr Ha Hi).
  - exact Hs.
  - exact Hk.
Qed.

Lemma threshold_key_float val raw f :
  unpack_float raw = Ok f →
  threshold_key val raw =
  Ok (if decide (Bcompare 53 1024 f val = Some Gt) then "1" else "0").
Proof.
  intros Hf. unfold threshold_key, float_gt. rewrite Hf. cbn [mbind res_bind].
  destruct (Bcompare 53 1024 f val) as [[]|]; case_decide; simpl; congruence.
Qed.

Lemma threshold_keys g s val n (x : nat → binary64) :
  (∀ i, i < n → (raw ← gr_get g s i; unpack_float raw) = Ok (x i)) →
  ∀ i, i < n → (raw ← gr_get g s i; threshold_key val raw) =
    Ok (if decide (Bcompare 53 1024 (x i) val = Some Gt) then "1" else "0").
Proof.
  intros H i Hi. specialize (H i Hi). apply bind_Ok in H as (raw & -> & Hr).
  cbn [mbind res_bind]. by apply threshold_key_float.
Qed.

Lemma decompose_threshold_spec g name prec s val (x : nat → binary64) :
  iter_agrees g →
  (∀ a, a ∈ gr_all_attrs g → ∃ s, gr_get_attribute g a = Ok s) →
  (∀ a s' i, gr_get_attribute g a = Ok s' → i < (gr_size g).2 →
     ∃ v, gr_get g s' i = Ok v) →
  gr_get_attribute g (FloatA name prec) = Ok s →
  (∀ i, i < (gr_size g).2 → (raw ← gr_get g s i; unpack_float raw) = Ok (x i)) →
  ∃ m, decompose_threshold g (FloatA name prec) val = Ok m ∧
    decomposes g (FloatA name prec)
      (λ i, if decide (Bcompare 53 1024 (x i) val = Some Gt) then "1" else "0") m.
Proof.
  intros H1 H2 H3 H4 H5. unfold decompose_threshold. rewrite H4.
  exact (decompose_decomposes g _ s _ _ H1 H2 H3 H4 (threshold_keys g s val _ x H5)).
Qed.

Lemma decompose_threshold_dense pg h d order name prec s val (x : nat → binary64) :
  reachable pg h d → dense_get_attribute d (FloatA name prec) = Ok s →
  (∀ i, i < d_maxrow d → (raw ← dense_get d s i; unpack_float raw) = Ok (x i)) →
  ∃ m, decompose_threshold (dense_grid order d) (FloatA name prec) val = Ok m ∧
    decomposes (dense_grid order d) (FloatA name prec)
      (λ i, if decide (Bcompare 53 1024 (x i) val = Some Gt) then "1" else "0") m.
Proof.
  intros Hr Hs Hk. eapply decompose_threshold_spec.
  - apply in_order_agrees, dense_grid_in_order.
  - intros a Ha. by apply dense_grid_resolves.
  - intros a s' i Ha Hi. exact (dense_grid_reads pg h order d a s' i Hr Ha Hi).
  - exact Hs.
  - exact Hk.
Qed.

Lemma after_threshold_float_spec show g name prec s val (x : nat → binary64) c :
  gr_get_attribute g (FloatA name prec) = Ok s →
  (∀ i, i < (gr_size g).2 → (raw ← gr_get g s i; unpack_float raw) = Ok (x i)) →
  (∀ i, i < (gr_size g).2 → get_class show g i = Ok (c i)) →
  let kf i := if decide (Bcompare 53 1024 (x i) val = Some Gt) then "1" else "0" in
  ∃ m, distribution_after_threshold show g (FloatA name prec) val = Ok m ∧
    (∀ k cl, default 0 ((default ∅ (m !! k)) !! cl) =
       count_rows (gr_size g).2 (λ i, bool_decide (kf i = k ∧ c i = cl))) ∧
    (∀ k, is_Some (m !! k) ↔ ∃ i, i < (gr_size g).2 ∧ kf i = k) ∧
    ∀ cl, map_sum (λ inner, default 0 (inner !! cl)) m =
      count_rows (gr_size g).2 (λ i, bool_decide (c i = cl)).
Proof.
  intros H1 H2 H3 kf.
  exact (after_threshold_spec show g name prec s val kf c H1
    (threshold_keys g s val _ x H2) H3).
Qed.
