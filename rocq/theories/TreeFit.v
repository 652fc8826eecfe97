(** Trees reproduce training data whose labels are decided by all attributes but any one. *)
From Verif Require Import Prelude FloatModel AttrModel AttrSpec AttrProofs StoreModel DenseModel DenseSpec GridModel GridSpec GridProofs
  TableProofs CsvModel PredModel PredProofs ConfModel ConfSpec KnnModel KnnSpec Id3Model Id3Spec Id3Proofs TreeProofs.
From Flocq Require Import IEEE754.Bits IEEE754.Binary.
Local Open Scope nat_scope.

Lemma one_key {A} (m : gmap string A) : size m = 1 → ∀ x y, is_Some (m !! x) → is_Some (m !! y) → x = y.
Proof.
  intros H x y [u Hx] [v Hy]. unfold size, map_size in H.
  apply elem_of_map_to_list in Hx, Hy. destruct (map_to_list m) as [|p [|q l]]; try discriminate H.
  apply elem_of_list_singleton in Hx, Hy. congruence.
Qed.

Lemma one_label label rows dist class x : counts_rows label rows dist class → rows ≠ [] →
  (∀ i, i ∈ rows → label i = x) → size dist = 1.
Proof.
  intros [Hd _] Hne Hx.
  assert (dist = {[ x := votes label rows x ]}) as ->; [|by rewrite map_size_singleton].
  apply map_eq. intros c. rewrite Hd. destruct (decide (c = x)) as [->|Hc].
  - rewrite lookup_singleton. destruct (votes label rows x =? 0) eqn:E; [|done]. exfalso.
    apply Nat.eqb_eq, votes_zero in E. apply E. destruct rows as [|i rows]; [done|].
    apply elem_of_list_fmap. exists i. split; [|left]. symmetry. apply Hx. left.
  - rewrite lookup_singleton_ne by done. destruct (votes label rows c =? 0) eqn:E; [done|].
    exfalso. apply Nat.eqb_neq in E. apply E, votes_zero. intros Hin. apply elem_of_list_fmap in Hin as (i & -> & Hi).
    apply Hc. by apply Hx.
Qed.

Lemma filter_one (l : list attr) a : distinct_attrs l → a ∈ l →
  S (length (filter (λ b, attr_equals b a = false) l)) = length l ∧
  ∀ b, b ∈ l → b ∉ filter (λ b, attr_equals b a = false) l → b = a.
Proof.
  intros Hd Ha. split.
  - pose proof Ha as Ha'. apply elem_of_Permutation in Ha' as [k Hk]. rewrite Hk.
    pose proof (distinct_perm _ _ Hk Hd) as Hd'.
    rewrite filter_cons_False by (by rewrite attr_equals_refl). cbn [length]. f_equal.
    assert (∀ x, x ∈ k → attr_equals x a = false) as Hx.
    { intros x Hx. destruct (attr_equals x a) eqn:E; [|done].
      apply elem_of_list_lookup in Hx as [i Hi].
      assert (S i = 0) as H0; [|done]. by apply (Hd' (S i) 0 x a). }
    clear -Hx. induction k as [|x k IH]; [done|].
    rewrite filter_cons_True by (apply Hx; left). cbn [length]. f_equal. apply IH.
    intros y Hy. apply Hx. by right.
  - intros b Hb Hn. destruct (attr_equals b a) eqn:E; [by eapply distinct_equals|].
    exfalso. apply Hn. by apply elem_of_list_filter.
Qed.

Section fit.
  Context (show : nat → N → string) (g : grid) (label : nat → string) (feats : list attr).
  Hypothesis Hdist : distinct_attrs feats.
  (** Rows that differ in one attribute at most have the same label. *)
  Hypothesis Hcons : ∀ b i j, b ∈ feats → i < (gr_size g).2 → j < (gr_size g).2 →
    (∀ a, a ∈ feats → a ≠ b → value_of show g a i = value_of show g a j) → label i = label j.

  Lemma ends_pure vs rows t : describes show g label rows t →
    ∀ attrs n, usable vs attrs t → finished n t → n = S (length attrs) → distinct_attrs attrs → attrs ⊆ feats →
    (∀ a i j, a ∈ feats → a ∉ attrs → i ∈ rows → j ∈ rows → value_of show g a i = value_of show g a j) →
    rows ≠ [] → (∀ i, i ∈ rows → i < (gr_size g).2) →
    (∀ node, node_of node t → t_children node = None → t_leaf node = true) →
    ∀ node, node_of node t → t_children node = None → size (t_dist node) = 1.
  Proof using Hdist Hcons.
    induction 1 as [rows leaf dist class cattr r Hc|rows leaf l dist class cattr a v Hc Ha Hna Hnd Hside Hk Hch IH];
      intros attrs n U Fi En Hda Hsub Hag Hne Hb Hleaf node Hnode Hend.
    - inversion Hnode; subst; clear Hnode. cbn [t_dist].
      specialize (Hleaf _ (node_here _) eq_refl). cbn [t_leaf] in Hleaf.
      inversion Fi as [? ? ? ? ? ? Hfin|]; subst. destruct (Hfin eq_refl) as [Hs|Hs]; [done|].
      destruct attrs as [|b [|]]; try discriminate Hs.
      destruct rows as [|r0 rows]; [done|].
      apply (one_label label (r0 :: rows) dist class (label r0)); [done|done|]. intros i Hi.
      apply (Hcons b); [apply Hsub; left|by apply Hb|apply Hb; left|].
      intros a Ha Hab. apply Hag; [done|by rewrite elem_of_list_singleton|done|left].
    - inversion U as [|? ? ? ? ? ? ? ? Hcl Haat Hfl Hnd' Hus]; subst.
      inversion Fi as [|? ? ? ? ? ? ? Hfin]; subst.
      inversion Hnode as [|? ? ? ? ? ? k t Hkt Hnt]; subst; [discriminate Hend|].
      destruct (filter_one attrs a Hda Haat) as [Hlen Hone].
      assert (k ∈ map fst l) as Hkin by (apply elem_of_list_fmap; by exists (k, t)).
      apply Hk in Hkin as (i0 & Hi0 & Hs0).
      assert (∀ i, side show g a v i = value_of show g a i) as Hsv by (intros i; by destruct a).
      apply (IH k t Hkt (filter (λ b, attr_equals b a = false) attrs) (Nat.pred (S (length attrs)))); try done.
      + by apply Hus with k.
      + by apply (Hfin k).
      + by apply distinct_filter.
      + intros b Hb'. apply elem_of_list_filter in Hb' as [_ Hb']. by apply Hsub.
      + intros b i j Hbf Hbn Hi Hj. apply elem_of_list_filter in Hi as [Ei Hi]. apply elem_of_list_filter in Hj as [Ej Hj].
        destruct (decide (b ∈ attrs)) as [Hin|Hin]; [|by apply Hag].
        rewrite (Hone b Hin Hbn), <- !Hsv. congruence.
      + intros E. assert (i0 ∈ filter (λ i, side show g a v i = Ok k) rows) as Hin by (by apply elem_of_list_filter).
        rewrite E in Hin. by apply elem_of_nil in Hin.
      + intros i Hi. apply elem_of_list_filter in Hi as [_ Hi]. by apply Hb.
      + intros nd Hn. apply Hleaf. by eapply node_below.
  Qed.
End fit.

Lemma pure_class show g label rows node i : describes show g label rows node → i ∈ rows → size (t_dist node) = 1 →
  t_class node = label i.
Proof.
  intros Hd Hi Hs. apply describes_class in Hd as [Hd Hm].
  destruct Hm as [Hin _]; [by intros ->; apply elem_of_nil in Hi|].
  apply (one_key _ Hs).
  - rewrite Hd. destruct (votes label rows (t_class node) =? 0) eqn:E; [|by eexists]. by apply Nat.eqb_eq, votes_zero in E.
  - rewrite Hd. destruct (votes label rows (label i) =? 0) eqn:E; [|by eexists]. apply Nat.eqb_eq, votes_zero in E.
    exfalso. apply E. by apply elem_of_list_fmap_1.
Qed.

Lemma features_length g c : distinct_attrs (gr_all_attrs g) → c ∈ gr_all_attrs g →
  S (length (features c g)) = length (gr_all_attrs g).
Proof.
  intros Hd Hc. unfold features.
  assert (filter (λ a, a ≠ c) (gr_all_attrs g) = filter (λ b, attr_equals b c = false) (gr_all_attrs g)) as ->; [|by apply filter_one].
  revert Hd Hc. generalize (gr_all_attrs g). intros l Hd Hc.
  assert (∀ k : list attr, (∀ x, x ∈ k → x ∈ l) → filter (λ a, a ≠ c) k = filter (λ b, attr_equals b c = false) k) as H.
  { induction k as [|x k IH]; intros Hk; [done|]. rewrite !filter_cons. rewrite IH by (intros y Hy; apply Hk; by right).
    destruct (decide (x ≠ c)) as [Hx|Hx], (decide (attr_equals x c = false)) as [E|E]; try done.
    - exfalso. apply Hx. apply (distinct_equals l); [done|apply Hk; left|done|]. by destruct (attr_equals x c).
    - exfalso. apply Hx. intros ->. by rewrite attr_equals_refl in E. }
  by apply H.
Qed.

Lemma fits_training show parse gen ko co ro cord ao pg wo g c label vs t :
  training show g c label → sane_rules gen → no_float_rules gen →
  (∀ p, any_order (ko p)) → (∀ p, any_order (co p)) → (∀ p, any_order (ro p)) →
  any_order cord → any_order ao → (∀ i j, any_order (wo i j)) →
  infer_id3 show gen ko co ro g = Ok t →
  predictable show g g vs → (∀ r, r < (gr_size g).2 → label r ∈ vs) →
  (∀ node, node_of node t → t_children node = None → t_leaf node = true) →
  (∀ b i j, b ∈ gr_all_attrs g → b ≠ c → i < (gr_size g).2 → j < (gr_size g).2 →
     (∀ a, a ∈ gr_all_attrs g → a ≠ c → a ≠ b → value_of show g a i = value_of show g a j) → label i = label j) →
  ∃ ret, predict show parse cord ao pg wo t g = Ok ret ∧
    ∀ order i, class_order ret order → i < (gr_size g).2 →
      get_class show (dense_grid order ret) i = Ok (label i).
Proof.
  intros T Hg Hnf Hko Hco Hro Hcord Hao Hwo Ht P Hvs Hleaf Hcons.
  pose proof (infer_id3_describes show g c label T gen ko co ro Hg Hko Hco Hro) as Hd. rewrite Ht in Hd.
  destruct (predict_training show parse cord ao pg wo g c vs label t Hcord Hao Hwo T P Hd Hvs) as (ret & Hret & Hrows).
  exists ret. split; [done|]. intros order i Ho Hi. destruct (Hrows order i Ho Hi) as (node & rows & Hof & Hdn & Hend & Hin & ->).
  f_equal. apply (pure_class show g label rows); [done|done|].
  assert ((gr_size g).2 ≠ 0) as Hn0 by lia.
  pose proof (infer_id3_usable show g c label T gen ko co ro Hg Hko Hco Hro t vs Ht Hnf Hn0 Hvs) as U.
  pose proof (infer_id3_finished show g c label T gen ko co ro Hg Hko Hco Hro t Ht) as Fi.
  assert (distinct_attrs (features c g)) as Hdf by (apply distinct_filter, T).
  apply (ends_pure show g label (features c g)) with (vs := vs) (rows := seq 0 (gr_size g).2) (t := t)
    (attrs := features c g) (n := (gr_size g).1); try done.
  - intros b x y Hb Hx Hy Hag. apply elem_of_list_filter in Hb as [Hbc Hb]. apply (Hcons b); try done.
    intros a Ha Hac Hab. apply Hag; [|done]. by apply elem_of_list_filter.
  - rewrite (tr_cols _ _ _ _ T). symmetry. apply features_length; apply T.
  - by destruct (gr_size g).2.
  - intros x Hx. apply elem_of_seq in Hx. lia.
Qed.
