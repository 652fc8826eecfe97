(** Proofs about decision trees: sums of distributions, shares of classes, pruning of
    whole trees. *)
From Coq Require Import QArith.
From Verif Require Import Prelude AttrModel AttrSpec AttrProofs StoreModel DenseModel DenseSpec
  DenseProofs GridModel GridSpec GridProofs CsvModel PredModel PredProofs ConfModel ConfSpec ConfProofs
  TableProofs KnnModel KnnSpec Id3Model Id3Spec Id3Proofs PruneProofs.
From Flocq Require Import IEEE754.Bits IEEE754.Binary.
Local Open Scope nat_scope.

(** ** Distributions *)

Lemma describes_node show g label rows t node :
  describes show g label rows t → node_of node t →
  ∃ rows', rows' ⊆ rows ∧ describes show g label rows' node.
Proof.
  intros Hd Hn. revert rows Hd. induction Hn as [|leaf l dist class cattr r k t Hk Hn IH]; intros rows Hd.
  - by exists rows.
  - inversion Hd as [|? ? ? ? ? ? a v Hc Ha Hna Hnd Hs Hkeys Hch]; subst.
    destruct (IH _ (Hch k t Hk)) as (rows' & Hsub & H). exists rows'. split; [|done].
    intros i Hi. apply Hsub, elem_of_list_filter in Hi. by destruct Hi.
Qed.

Lemma counts_votes label rows dist class cl :
  counts_rows label rows dist class → default 0 (dist !! cl) = votes label rows cl.
Proof.
  intros [H _]. rewrite H. destruct (votes label rows cl =? 0) eqn:E; [|done].
  apply Nat.eqb_eq in E. done.
Qed.

Lemma sum_list_cons n l : sum_list (n :: l) = n + sum_list l.
Proof. done. Qed.

Lemma votes_cons label i rows cl :
  votes label (i :: rows) cl = (if bool_decide (label i = cl) then 1 else 0) + votes label rows cl.
Proof.
  unfold votes. rewrite filter_cons. destruct (decide (label i = cl)) as [E|E].
  - by rewrite bool_decide_eq_true_2.
  - by rewrite bool_decide_eq_false_2.
Qed.

(** Sum over the keys of a row counted once. *)
Lemma sum_one (ks : list string) k n :
  NoDup ks → k ∈ ks → sum_list (map (λ k', if bool_decide (k = k') then n else 0) ks) = n.
Proof.
  induction ks as [|k' ks IH]; intros Hn Hk; [by apply elem_of_nil in Hk|].
  apply NoDup_cons in Hn as [Hk' Hn]. cbn [map]. rewrite sum_list_cons.
  destruct (decide (k = k')) as [->|Hne].
  - rewrite bool_decide_eq_true_2 by done.
    assert (sum_list (map (λ x, if bool_decide (k' = x) then n else 0) ks) = 0) as ->; [|lia].
    clear IH Hk Hn. induction ks as [|x ks IH]; [done|]. cbn [map]. rewrite sum_list_cons.
    rewrite bool_decide_eq_false_2 by (intros ->; apply Hk'; left).
    rewrite IH; [done|]. intros H. apply Hk'. by right.
  - rewrite bool_decide_eq_false_2 by done. apply elem_of_cons in Hk as [->|Hk]; [done|].
    by rewrite IH.
Qed.

Lemma sum_map_add {A} (f h : A → nat) l :
  sum_list (map (λ x, f x + h x) l) = sum_list (map f l) + sum_list (map h l).
Proof. induction l as [|x l IH]; [done|]. cbn [map]. rewrite !sum_list_cons, IH. lia. Qed.

Lemma votes_parts label (key : nat → res string) (ks : list string) rows cl :
  NoDup ks → (∀ i, i ∈ rows → ∃ k, key i = Ok k ∧ k ∈ ks) →
  votes label rows cl = sum_list (map (λ k, votes label (filter (λ i, key i = Ok k) rows) cl) ks).
Proof.
  intros Hn. induction rows as [|i rows IH]; intros H.
  - induction ks as [|k ks IHk]; [done|]. cbn [map]. rewrite sum_list_cons.
    rewrite <- IHk; [done|by apply NoDup_cons in Hn as [_ Hn]|]. intros j Hj. by apply elem_of_nil in Hj.
  - rewrite votes_cons, IH by (intros j Hj; apply H; by right).
    destruct (H i) as (k & Hk & Hin); [left|].
    rewrite <- (sum_one ks k (if bool_decide (label i = cl) then 1 else 0) Hn Hin).
    rewrite <- sum_map_add. f_equal. apply map_ext. intros k'. rewrite filter_cons, Hk.
    destruct (decide (k = k')) as [->|Hne].
    + rewrite bool_decide_eq_true_2, decide_True by done. by rewrite votes_cons.
    + by rewrite bool_decide_eq_false_2, decide_False by congruence.
Qed.

Lemma children_sum show g label rows leaf l dist class cattr r cl :
  describes show g label rows (Node leaf (Some l) dist class cattr r) →
  default 0 (dist !! cl) = sum_list (map (λ x, default 0 (t_dist x.2 !! cl)) l).
Proof.
  intros Hd. inversion Hd as [|? ? ? ? ? ? a v Hc Ha Hna Hnd Hs Hkeys Hch]; subst.
  rewrite (counts_votes _ _ _ _ _ Hc).
  rewrite (votes_parts label (side show g a v) (map fst l) rows cl Hnd).
  - rewrite map_map. f_equal. apply map_ext_in. intros [k t] Hin. apply elem_of_list_In in Hin.
    symmetry. apply (counts_votes _ _ _ (t_class t)). by apply (describes_class show g), Hch.
  - intros i Hi. destruct (Hs i Hi) as [k Hk]. exists k. split; [done|]. apply Hkeys. eauto.
Qed.

(** ** Shares *)

Lemma sum_over_list l f : sum_over l f = sum_list (map f l).
Proof.
  unfold sum_over. assert (∀ n, foldl (λ a k, a + f k) n l = n + sum_list (map f l)) as H.
  { induction l as [|x l IH]; intros n; cbn [foldl map]; [cbn; lia|].
    rewrite IH, sum_list_cons. lia. }
  rewrite H. lia.
Qed.

Lemma votes_total label rows (ks : list string) :
  NoDup ks → (∀ i, i ∈ rows → label i ∈ ks) →
  sum_list (map (votes label rows) ks) = length rows.
Proof.
  intros Hn. induction rows as [|i rows IH]; intros H.
  - induction ks as [|k ks IHk]; [done|]. cbn [map]. rewrite sum_list_cons, IHk; [done| |].
    + by apply NoDup_cons in Hn as [_ Hn].
    + intros j Hj. by apply elem_of_nil in Hj.
  - cbn [length]. rewrite <- IH by (intros j Hj; apply H; by right).
    rewrite (map_ext _ (λ k, (if bool_decide (label i = k) then 1 else 0) + votes label rows k)).
    + rewrite sum_map_add, sum_one; [done|done|]. apply H. left.
    + intros k. by rewrite votes_cons.
Qed.

Lemma node_shares label rows t sorter order :
  (∀ l, sorter l ≡ₚ l ∧ StronglySorted (λ x y : string * Q, y.2 <= x.2)%Q (sorter l)) →
  counts_rows label rows (t_dist t) (t_class t) →
  order ≡ₚ map fst (map_to_list (t_dist t)) →
  shares label rows (node_proba sorter order t).
Proof.
  intros Hs Hc Ho. unfold node_proba.
  set (total := sum_over order _).
  assert (∀ c, c ∈ order ↔ c ∈ map label rows) as Hin.
  { intros c. rewrite Ho. destruct Hc as [Hd _]. rewrite elem_of_list_fmap. split.
    - intros ([c' n] & -> & H). apply elem_of_map_to_list in H. cbn [fst]. rewrite Hd in H.
      destruct (votes label rows c' =? 0) eqn:E; [done|]. apply Nat.eqb_neq in E.
      destruct (decide (c' ∈ map label rows)) as [Hy|Hy]; [done|]. by apply votes_zero in Hy.
    - intros H. destruct (t_dist t !! c) as [n|] eqn:E.
      + exists (c, n). split; [done|]. by apply elem_of_map_to_list.
      + rewrite Hd in E. destruct (votes label rows c =? 0) eqn:E'; [|done].
        apply Nat.eqb_eq, votes_zero in E'. done. }
  assert (NoDup order) as Hnd.
  { rewrite Ho. apply (NoDup_fst_map_to_list (t_dist t)). }
  assert (total = length rows) as Et.
  { unfold total. rewrite sum_over_list. rewrite <- (votes_total label rows order Hnd).
    - f_equal. apply map_ext. intros c. by eapply counts_votes.
    - intros i Hi. apply Hin. apply elem_of_list_fmap. eauto. }
  clearbody total. subst total.
  set (l := map _ order). destruct (Hs l) as [Hp Hsorted].
  assert (map fst l = order) as Hf by (unfold l; rewrite map_map; apply map_id).
  assert (map fst (sorter l) ≡ₚ order) as Hpf by (rewrite <- Hf; by apply fmap_Permutation).
  split; [by rewrite Hpf|]. split; [intros c; by rewrite Hpf|].
  split; [|done]. intros c q H. rewrite Hp in H. unfold l in H.
  apply elem_of_list_fmap in H as (c' & [= -> ->] & Hc'). rewrite (counts_votes _ _ _ _ c' Hc).
  apply Hin, elem_of_list_fmap in Hc' as (i & _ & Hi). unfold of_nat. field.
  intros E. assert (inject_Z (Z.of_nat (length rows)) == inject_Z 0)%Q as E' by exact E.
  rewrite inject_Z_injective in E'. destruct rows; [by apply elem_of_nil in Hi|done].
Qed.

Lemma shares_sum label rows l :
  shares label rows l → rows ≠ [] → (foldr (λ x s, x.2 + s) 0 l == 1)%Q.
Proof.
  intros (Hn & Hin & Hq & _) Hne.
  assert (foldr (λ x s, x.2 + s) 0 l * inject_Z (Z.of_nat (length rows)) ==
    inject_Z (Z.of_nat (sum_list (map (votes label rows) (map fst l)))))%Q as H.
  { clear Hn Hin. induction l as [|[c q] l IH]; [cbn [foldr map]; unfold sum_list; cbn [sum_list_with]; ring|].
    cbn [foldr map fst snd]. rewrite sum_list_cons, Nat2Z.inj_add, inject_Z_plus.
    rewrite <- IH by (intros c' q' H; apply Hq; by right). rewrite <- (Hq c q) by left. ring. }
  rewrite votes_total in H.
  - assert (¬ inject_Z (Z.of_nat (length rows)) == 0)%Q as Hz.
    { intros E. assert (inject_Z (Z.of_nat (length rows)) == inject_Z 0)%Q as E' by exact E.
      rewrite inject_Z_injective in E'. by destruct rows. }
    apply (Qmult_inj_r _ _ (inject_Z (Z.of_nat (length rows))) Hz). rewrite H. ring.
  - done.
  - intros i Hi. apply Hin, elem_of_list_fmap. eauto.
Qed.

Lemma predict_proba_shares show sorter pg cord ao ko wo g what vs label rows t :
  any_order cord → any_order ao → any_order ko → (∀ i j, any_order (wo i j)) →
  (∀ l, sorter l ≡ₚ l ∧ StronglySorted (λ x y : string * Q, y.2 <= x.2)%Q (sorter l)) →
  predictable show g what vs → describes show g label rows t → rows ≠ [] →
  (gr_size what).2 = 1 →
  ∃ l rows', predict_proba show sorter pg cord ao ko wo t what = Ok l ∧
    rows' ⊆ rows ∧ rows' ≠ [] ∧ shares label rows' l.
Proof.
  intros Hcord Hao Hko Hwo Hs P Hd Hne H1.
  destruct (pr_class _ _ _ _ P) as [name Hclass].
  unfold predict_proba. destruct (labels_predicted_new pg what name vs Hclass) as (d0 & -> & Hd0).
  cbn [mbind res_bind].
  rewrite (predicted_class_attrs _ _ _ _ _ _ (proj1 Hd0)) by apply Hcord.
  destruct (predictable_fetch show g what vs ao [CatA name vs] P Hao) as (specs & -> & Hfetch).
  cbn [mbind res_bind]. rewrite H1. change (1 <? 1) with false. cbn match.
  destruct (pr_iter _ _ _ _ P specs) as (lr & Hrows & Hfst & Hf).
  unfold map_over_rows. rewrite Hrows. cbn [mbind res_bind].
  rewrite H1 in Hfst. change (seq 0 1) with [0] in Hfst.
  pose proof Hfst as Hfst'. apply Permutation_length in Hfst'. symmetry in Hfst.
  apply Permutation_singleton_l in Hfst. destruct lr as [|[i fetch] [|]]; [done| |done].
  cbn [map fst] in Hfst. injection Hfst as Hi. subst i. clear Hfst'.
  destruct (Hfetch 0) as [buf Hbuf]; [lia|].
  pose proof (Hf 0 fetch ltac:(left)) as Hf0.
  destruct (walk_ok show g what vs label wo 0 0 rows t P ltac:(lia) Hwo Hd Hne)
    as (node & rows' & Hw & _ & Hd' & Hne' & Hsub).
  cbn [run_rows]. rewrite Hf0, Hbuf. cbn [mbind res_bind]. rewrite Hw. cbn [mbind res_bind fst snd].
  eexists _, rows'. split; [reflexivity|]. split; [done|]. split; [done|].
  apply node_shares; [done|by eapply describes_class|apply Hko].
Qed.

(** ** Pruning *)

Lemma leads_some show g vs attrs t r node :
  usable vs attrs t → leads show g r t node → ∃ n, leaf_of show g r t = Some n.
Proof. intros Hu Hl. eexists. by eapply leads_leaf_of. Qed.

Lemma prune_accuracy show parse cord ao pg ko wo co ro g c label name vs t wo1 wo2 :
  any_order cord → any_order ao → (∀ p, any_order (ko p)) →
  (∀ p, any_order (co p)) → (∀ p, any_order (ro p)) →
  training show g c label → c = CatA name vs → (N.of_nat (length vs) < 2^63)%N →
  (gr_size g).2 ≠ 0 →
  usable vs (features c g) t →
  (∀ r, r < (gr_size g).2 → ∃ node, leads show g r t node) →
  ∃ t' ret ret', prune show parse cord ao pg ko wo co ro [] t g = Ok t' ∧
    predict show parse cord ao pg wo1 t g = Ok ret ∧
    predict show parse cord ao pg wo2 t' g = Ok ret' ∧
    ∀ order order', class_order ret order → class_order ret' order' →
      count_rows (gr_size g).2 (agree show g (dense_grid order ret)) ≤
      count_rows (gr_size g).2 (agree show g (dense_grid order' ret')).
Proof.
  intros Hcord Hao Hko Hco Hro T Hc Hvs Hne Hu Hlead.
  pose proof (shows_all _ _ _ _ T) as S.
  assert (∀ r, r ∈ seq 0 (gr_size g).2 → r < (gr_size g).2) as Hb.
  { intros r Hr. apply elem_of_seq in Hr. lia. }
  assert (∀ a, a ∈ features c g → a ∈ gr_all_attrs g ∧ a ≠ c) as Hf.
  { intros a Ha. apply elem_of_list_filter in Ha as [H1 H2]. done. }
  assert (all_lead show g t (seq 0 (gr_size g).2)) as Hall.
  { intros r Hr. destruct (Hlead r (Hb r Hr)) as [node Hn]. by eapply leads_some. }
  destruct (prune_right show g c label T name vs Hc Hvs parse cord ao pg Hcord Hao ko wo co ro Hko Hco Hro
    (features c g) t [] g (seq 0 (gr_size g).2) Hu S Hb) as (t' & Hp & Hu' & Hall' & Hle).
  { by destruct (gr_size g).2. } { done. } { done. }
  assert (features c g ⊆ gr_all_attrs g) as Hsub by (intros a Ha; by apply Hf).
  destruct (predict_right show g c label T name vs Hc Hvs parse cord ao pg Hcord Hao g
    (seq 0 (gr_size g).2) (features c g) t wo1 S Hb Hu Hsub Hall) as (ret & Hr & _ & Hcount).
  destruct (predict_right show g c label T name vs Hc Hvs parse cord ao pg Hcord Hao g
    (seq 0 (gr_size g).2) (features c g) t' wo2 S Hb Hu' Hsub Hall') as (ret' & Hr' & _ & Hcount').
  exists t', ret, ret'. split; [done|]. split; [done|]. split; [done|].
  intros order order' Ho Ho'. destruct (Hcount order Ho) as [_ ->].
  destruct (Hcount' order' Ho') as [_ ->]. done.
Qed.

(** ** Training sets that are DenseInstances *)

Lemma attr_at_in d k a : attr_at d k = Some a → a ∈ dense_all_attrs d.
Proof.
  intros Hk. unfold dense_all_attrs. unfold attr_at in Hk.
  apply bind_Some in Hk as (g & Hg & Ha). apply elem_of_list_In, in_concat.
  exists (g_attrs g). split; apply elem_of_list_In.
  - apply elem_of_list_fmap. exists g. split; [done|]. by eapply elem_of_list_lookup_2.
  - by eapply elem_of_list_lookup_2.
Qed.

Lemma dense_training show order d c label :
  distinct_attrs (dense_all_attrs d) → class_attrs_in_order d order = [c] → c ∈ dense_all_attrs d →
  (∀ a, a ∈ dense_all_attrs d → ∀ i, i < (dense_size d).2 → ∃ v, value_of show (dense_grid order d) a i = Ok v) →
  (∀ i, i < (dense_size d).2 → value_of show (dense_grid order d) c i = Ok (label i)) →
  training show (dense_grid order d) c label.
Proof.
  intros Hd Hcls Hc Hv Hl. split; try done.
  - apply in_order_agrees, dense_grid_in_order.
  - intros a Ha. destruct (dense_get_attribute_finds d a Ha) as [s Hs]. exists s.
    split; [done|]. by apply (get_attribute_exact d).
  - intros a s Hs. destruct (dense_get_attribute_ok d a s Hs) as (Hat & Heq & _).
    exists (sp_attr s). split; [by eapply attr_at_in|]. split; [done|].
    destruct (dense_get_attribute_finds d (sp_attr s)) as [s' Hs']; [by eapply attr_at_in|].
    destruct (dense_lookup_unique d _ _ s' Hd Hat Hs') as [Hk Ha].
    cbn [gr_get_attribute dense_grid]. rewrite Hs'. f_equal.
    destruct s, s'. cbn in *. congruence.
  - intros a i Ha. by apply Hv.
Qed.
