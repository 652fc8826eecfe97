(** Proofs about [ID3DecisionTree.Fit]. *)
From Verif Require Import Prelude FloatModel AttrModel AttrSpec AttrProofs StoreModel DenseModel DenseSpec DenseProofs SwapProofs
  GridModel GridSpec GridProofs PredModel PredProofs ConfModel ConfSpec KnnModel KnnSpec Id3Model Id3Spec Id3Proofs
  Id3FitModel.
From Flocq Require Import IEEE754.Bits IEEE754.Binary.
Local Open Scope nat_scope.

(** ** Pruning *)

Lemma prune_describes show parse cord ao pg ko wo co ro g label rows t :
  describes show g label rows t →
  ∀ path data t', prune show parse cord ao pg ko wo co ro path t data = Ok t' → describes show g label rows t'.
Proof.
  induction 1 as [rows leaf dist class cattr r Hc|rows leaf ch dist class cattr a v Hc Ha Hn Hnd Hside Hk Hch IH];
    intros path data t' H.
  - cbn [prune] in H. injection H as <-. by constructor.
  - cbn [prune ru_attr mbind res_bind] in H. apply bind_Ok in H as (subs & _ & H).
    apply bind_Ok in H as (ch' & Hgo & H). revert Hgo.
    match goal with |- ?f ch = _ → _ => set (go := f) end. intros Hgo.
    assert (∀ l l', (∀ k t, (k, t) ∈ l → (k, t) ∈ ch) → go l = Ok l' →
      map fst l' = map fst l ∧ ∀ k t, (k, t) ∈ l' → describes show g label (filter (λ i, side show g a v i = Ok k) rows) t) as Hall.
    { induction l as [|[k0 c0] l IHl]; intros l' Hin Hl.
      - injection Hl as <-. split; [done|]. intros k t Hkt. by apply elem_of_nil in Hkt.
      - cbn [go] in Hl. apply bind_Ok in Hl as (c1 & Hc1 & Hl). apply bind_Ok in Hl as (l1 & Hl1 & Hl).
        injection Hl as <-. destruct (IHl l1) as [E1 E2]; [|done|].
        { intros k t Hkt. apply Hin. by right. }
        split; [cbn [map fst]; by rewrite E1|].
        intros k t Hkt. apply elem_of_cons in Hkt as [E|Hkt]; [|by apply E2].
        injection E as -> ->. assert ((k0, c0) ∈ ch) as Hc0 by (apply Hin; left).
        destruct (subs !! k0) as [w|]; [|injection Hc1 as <-; by apply Hch].
        destruct ((view_size w).1 =? 0) eqn:Ea, ((view_size w).2 =? 0) eqn:Eb; cbn [orb] in Hc1;
          try (injection Hc1 as <-; by apply Hch).
        by apply (IH k0 c0 Hc0 _ _ _ Hc1). }
    destruct (Hall ch ch') as [Hfst Hd]; [done|done|].
    apply bind_Ok in H as (b1 & _ & H). apply bind_Ok in H as (b2 & _ & H). injection H as <-.
    destruct (q_lt b2 b1); [|by constructor].
    constructor; try done; [by rewrite Hfst|]. intros k. by rewrite Hfst.
Qed.

(** ** The two parts of the data *)

Lemma find_in_groups_attrs i gs gs' get :
  map g_attrs gs' = map g_attrs gs → find_in_groups i gs' get = find_in_groups i gs get.
Proof.
  revert i gs'. induction gs as [|g gs IH]; intros i [|g' gs'] E; try discriminate E; [done|].
  injection E as E1 E2. cbn [find_in_groups]. rewrite E1. destruct (find_in_group _ _ _ _); [done|]. by apply IH.
Qed.

Lemma rearranged_get_attribute p d d' a :
  rows_rearranged p d d' → dense_get_attribute d' a = dense_get_attribute d a.
Proof. intros (_ & E & _). unfold dense_get_attribute. by rewrite (find_in_groups_attrs 0 (d_ags d)). Qed.

Lemma rearranged_class p d d' order :
  rows_rearranged p d d' → class_attrs_in_order d' order = class_attrs_in_order d order.
Proof.
  intros (_ & E & _). assert (∀ k, attr_at d' k = attr_at d k) as Hat.
  { intros k. unfold attr_at. assert (map g_attrs (d_ags d') !! k.1 = map g_attrs (d_ags d) !! k.1) as H by (by rewrite E).
    rewrite !map_lookup in H. destruct (d_ags d' !! k.1), (d_ags d !! k.1); cbn in *; congruence. }
  induction order as [|[k b] order IH]; [done|]. cbn [class_attrs_in_order]. by rewrite IH, Hat.
Qed.

Section parts.
  Context (show : nat → N → string) (d : dense) (order : list ((nat * nat) * bool)).
  Context (c : attr) (label : nat → string) (pg : nat).
  Hypothesis T : training show (dense_grid order d) c label.
  Hypothesis R : reach pg d.

  Lemma shows_shuffled d' p :
    row_bijection (d_maxrow d) p → rows_rearranged p d d' →
    shows (dense_grid order d) c (map p (seq 0 (d_maxrow d))) (dense_grid order d').
  Proof using T R.
    intros Hp Hre. pose proof (rearranged_all_attrs p d d' Hre) as Hall.
    assert (d_maxrow d' = d_maxrow d) as Hmr by apply Hre.
    split.
    - cbn [dense_grid gr_size]. unfold dense_size. cbn [snd]. by rewrite map_length, seq_length.
    - pose proof (tr_cols _ _ _ _ T) as H. cbn [dense_grid gr_size gr_all_attrs] in *. unfold dense_size in *.
      cbn [fst] in *. by rewrite Hall.
    - apply in_order_agrees, dense_grid_in_order.
    - cbn [dense_grid gr_all_attrs]. rewrite Hall. apply T.
    - cbn [dense_grid gr_all_attrs]. by rewrite Hall.
    - cbn [dense_grid gr_get_attribute]. intros a s _ Hs. by rewrite (rearranged_get_attribute p d d').
    - cbn [dense_grid gr_get_attribute gr_all_attrs]. intros a s Hs. rewrite (rearranged_get_attribute p d d') in Hs by done.
      rewrite Hall. by apply (tr_only _ _ _ _ T).
    - cbn [dense_grid gr_get_attribute gr_all_attrs gr_get]. intros a s j r Ha Hs Hj.
      rewrite map_lookup in Hj. destruct (seq 0 (d_maxrow d) !! j) as [j'|] eqn:Ej; [|done]. injection Hj as <-.
      apply lookup_seq in Ej as [-> Hj]. cbn.
      apply dense_get_attribute_ok in Hs as (_ & _ & gr & Hcol). by eapply Hre.
    - cbn [dense_grid gr_class_attrs]. rewrite (rearranged_class p d d') by done. apply T.
    - cbn [dense_grid gr_all_attrs]. rewrite Hall. apply T.
  Qed.

  (** Both parts show rows of the data, which are dealt out. *)
  Lemma parts_shown shuf draws t d' v1 v2 :
    (∀ i, i < d_maxrow d → shuf i ≤ i) →
    train_test_dense order shuf draws t d = Ok (d', (v1, v2)) →
    ∃ p tr te, row_bijection (d_maxrow d) p ∧ rows_rearranged p d d' ∧
      split_rows draws t 0 (d_maxrow d) = (tr, te) ∧
      ∀ co ro, any_order co → any_order ro →
        shows (dense_grid order d) c (map p tr) (view_grid co ro v1) ∧
        shows (dense_grid order d) c (map p te) (view_grid co ro v2).
  Proof using T R.
    intros Hsh H.
    destruct (dense_shuffle_spec pg d shuf R (tr_attrs _ _ _ _ T) Hsh) as (d1 & p & Hs & _ & Hp & Hre).
    unfold train_test_dense in H. rewrite Hs in H. cbn [mbind res_bind] in H.
    apply bind_Ok in H as ([w1 w2] & H & E). injection E as -> -> ->.
    unfold train_test_views in H. cbn [dense_grid gr_size] in H. unfold dense_size in H. cbn [snd] in H.
    replace (d_maxrow d') with (d_maxrow d) in H by (symmetry; apply Hre).
    pose proof (split_rows_perm draws t (d_maxrow d) 0) as Hperm.
    destruct (split_rows draws t 0 (d_maxrow d)) as [tr te]. cbn [fst snd] in Hperm.
    apply bind_Ok in H as (u1 & H1 & H). apply bind_Ok in H as (u2 & H2 & H). injection H as -> ->.
    exists p, tr, te. split; [done|]. split; [done|]. split; [done|]. intros co ro Hco Hro.
    pose proof (shows_shuffled d' p Hp Hre) as S.
    assert (∀ rows, (∀ j, j ∈ rows → j ∈ tr ++ te) →
      (∀ j, j ∈ rows → j < length (map p (seq 0 (d_maxrow d)))) ∧
      map (λ j, default 0 (map p (seq 0 (d_maxrow d)) !! j)) rows = map p rows) as Hrows.
    { intros rows Hin. assert (∀ j, j ∈ rows → j < d_maxrow d) as Hlt.
      { intros j Hj. apply Hin in Hj. rewrite Hperm in Hj. apply elem_of_seq in Hj. lia. }
      split; [intros j Hj; rewrite map_length, seq_length; by apply Hlt|].
      apply map_ext_in. intros j Hj. apply elem_of_list_In in Hj. rewrite map_lookup, lookup_seq_lt by (by apply Hlt).
      done. }
    assert (∀ a, a ∈ gr_all_attrs (dense_grid order d') → a ∈ gr_all_attrs (dense_grid order d')) as Hid by done.
    destruct (Hrows tr) as [Ha Ea]; [intros j Hj; apply elem_of_app; by left|].
    destruct (Hrows te) as [Hb Eb]; [intros j Hj; apply elem_of_app; by right|].
    split.
    - rewrite <- Ea. eapply (shows_part show); [exact T|exact S|exact Hid|apply S|apply S|exact Ha|exact H1|done|done].
    - rewrite <- Eb. eapply (shows_part show); [exact T|exact S|exact Hid|apply S|apply S|exact Hb|exact H2|done|done].
  Qed.
End parts.

Lemma split_rows_first draws t i n r :
  r ∈ (split_rows draws t i n).1 ↔ i ≤ r < i + n ∧ (t < draws r)%Z.
Proof.
  revert i. induction n as [|n IH]; intros i; cbn [split_rows].
  - cbn [fst]. rewrite elem_of_nil. lia.
  - specialize (IH (S i)). destruct (split_rows draws t (S i) n) as [tr te]. cbn [fst] in IH.
    destruct (t <? draws i)%Z eqn:E; cbn [fst].
    + rewrite elem_of_cons, IH. apply Z.ltb_lt in E. split; [intros [->|H]; lia|].
      intros [H1 H2]. destruct (decide (r = i)) as [->|Hri]; [by left|]. right. lia.
    + rewrite IH. apply Z.ltb_ge in E. split; [lia|]. intros [H1 H2].
      destruct (decide (r = i)) as [->|Hri]; lia.
Qed.

(** ** No rows to prune on *)

Lemma accuracy_nothing show parse cord ao pg ko wo t data q :
  any_order ko → (gr_size data).2 = 0 → accuracy_of show parse cord ao pg ko wo t data = Ok q → q = None.
Proof.
  intros Hko Hn H. unfold accuracy_of in H. apply bind_Ok in H as (ret & _ & H).
  assert (accuracy ko ∅ = None) as He.
  { unfold accuracy, range. rewrite map_to_list_empty. cbn [map].
    assert (ko [] = []) as ->; [|done]. apply Permutation_nil_r, Hko. }
  unfold confusion_matrix in H. rewrite Hn in H. cbn [seq res_foldl] in H.
  destruct (0 =? _); congruence.
Qed.

Lemma prune_nothing show parse cord ao pg ko wo co ro g label rows t path data t' :
  describes show g label rows t → (∀ p, any_order (ko p)) → (gr_size data).2 = 0 →
  prune show parse cord ao pg ko wo co ro path t data = Ok t' →
  t_children t' = None ∧ t_class t' = t_class t ∧ t_dist t' = t_dist t.
Proof.
  intros Hd Hko Hn H. destruct Hd as [rows leaf dist class cattr r Hc|rows leaf ch dist class cattr a v Hc Ha _ _ _ _ _].
  - cbn [prune] in H. by injection H as <-.
  - cbn [prune ru_attr mbind res_bind] in H. apply bind_Ok in H as (subs & _ & H).
    apply bind_Ok in H as (ch' & _ & H).
    apply bind_Ok in H as (b1 & Hb1 & H). apply bind_Ok in H as (b2 & Hb2 & H). injection H as <-.
    apply accuracy_nothing in Hb1, Hb2; [|done..]. by subst.
Qed.

(** ** Fit *)

Section fit.
  Context (show : nat → N → string) (parse : string → option binary64).
  Context (gen : list string → grid → res (option rule)).
  Context (ko : list string → list string → list string) (co : list string → list attr → list attr).
  Context (ro : list string → list nat → list nat).
  Context (cord : list ((nat * nat) * bool) → list ((nat * nat) * bool)) (ao : list attr → list attr) (pg : nat).
  Context (pko : list string → list string → list string) (pwo : list string → nat → nat → list string → list string).
  Context (pco : list string → list attr → list attr) (pro : list string → list nat → list nat).
  Context (order : list ((nat * nat) * bool)) (co1 co2 : list attr → list attr) (ro1 ro2 : list nat → list nat).
  Context (shuf : nat → nat) (draws : nat → Z) (wild : binary64 → Z).
  Context (c : attr) (label : nat → string) (d : dense).
  Hypothesis T : training show (dense_grid order d) c label.
  Hypothesis R : reach pg d.
  Hypothesis Hgen : sane_rules gen.
  Hypothesis Hko : ∀ p, any_order (ko p).
  Hypothesis Hco : ∀ p, any_order (co p).
  Hypothesis Hro : ∀ p, any_order (ro p).
  Hypothesis Hco1 : any_order co1.
  Hypothesis Hro1 : any_order ro1.
  Hypothesis Hco2 : any_order co2.
  Hypothesis Hro2 : any_order ro2.
  Hypothesis Hshuf : ∀ i, i < d_maxrow d → shuf i ≤ i.

  Notation fit := (id3_fit show parse gen ko co ro cord ao pg pko pwo pco pro order co1 co2 ro1 ro2 shuf draws wild).

  (** The rows the tree is inferred from. *)
  Definition fitted_rows (prop : binary64) (i : nat) : Prop :=
    i < d_maxrow d ∧ (holds_back prop = true → (share_limit wild prop < draws i)%Z).

  Lemma fit_describes prop d' t :
    fit prop d = Ok (d', t) →
    ∃ p rows, row_bijection (d_maxrow d) p ∧ rows_rearranged p d d' ∧
      (holds_back prop = false → d' = d) ∧
      (∀ r, r ∈ rows ↔ ∃ i, fitted_rows prop i ∧ r = p i) ∧ NoDup rows ∧
      describes show (dense_grid order d) label rows t ∧
      (holds_back prop = true → (∀ i, i < d_maxrow d → (share_limit wild prop < draws i)%Z) →
       (∀ q, any_order (pko q)) → t_children t = None).
  Proof using T R Hgen Hko Hco Hro Hco1 Hro1 Hco2 Hro2 Hshuf.
    unfold id3_fit. destruct (holds_back prop) eqn:Eb; intros H.
    - apply bind_Ok in H as ([d1 [v1 v2]] & Hs & H).
      apply bind_Ok in H as (t0 & Ht0 & H). apply bind_Ok in H as (t1 & Ht1 & H). injection H as -> ->.
      destruct (parts_shown show d order c label pg T R shuf draws _ d' v1 v2 Hshuf Hs)
        as (p & tr & te & Hp & Hre & Esp & HS).
      destruct (HS co1 ro1 Hco1 Hro1) as [S1 _]. destruct (HS co2 ro2 Hco2 Hro2) as [_ S2].
      pose proof (split_rows_first draws (share_limit wild prop) 0 (d_maxrow d)) as Hfirst.
      pose proof (split_rows_perm draws (share_limit wild prop) (d_maxrow d) 0) as Hperm.
      rewrite Esp in Hfirst, Hperm. cbn [fst snd] in Hfirst, Hperm.
      assert (describes show (dense_grid order d) label (map p tr) t0) as Hd0.
      { pose proof (infer_describes show (dense_grid order d) c label T gen ko co ro Hgen Hko Hco Hro
          (S (gr_size (view_grid co1 ro1 v1)).1) [] (view_grid co1 ro1 v1) (map p tr) S1) as H.
        unfold infer_id3 in Ht0. rewrite Ht0 in H. apply H; [|lia].
        intros r Hr. apply elem_of_list_fmap in Hr as (i & -> & Hi). apply Hfirst in Hi.
        cbn [dense_grid gr_size]. unfold dense_size. cbn [snd]. apply Hp. lia. }
      exists p, (map p tr). split; [done|]. split; [done|]. split; [done|]. split; [|split; [|split]].
      + intros r. rewrite elem_of_list_fmap. split.
        * intros (i & -> & Hi). exists i. split; [|done]. apply Hfirst in Hi as [Hi Hi']. split; [lia|done].
        * intros (i & [Hi1 Hi2] & ->). exists i. split; [done|]. apply Hfirst. specialize (Hi2 Eb). lia.
      + apply NoDup_fmap_2_strong.
        * intros x y Hx Hy. apply Hfirst in Hx, Hy. apply Hp; lia.
        * assert (NoDup (tr ++ te)) as Hnd by (rewrite Hperm; apply NoDup_seq). by apply NoDup_app in Hnd as [Hnd _].
      + by eapply prune_describes.
      + intros _ Hall Hpko. assert (te = []) as ->.
        { destruct te as [|i te]; [done|]. exfalso.
          assert (i ∈ seq 0 (d_maxrow d)) as Hi by (rewrite <- Hperm; apply elem_of_app; right; left).
          apply elem_of_seq in Hi. assert (i ∈ tr) as Hit by (apply Hfirst; split; [lia|apply Hall; lia]).
          assert (NoDup (tr ++ i :: te)) as Hnd by (rewrite Hperm; apply NoDup_seq).
          apply NoDup_app in Hnd as (_ & Hnd & _). apply (Hnd i Hit). left. }
        eapply (prune_nothing show parse cord ao pg pko pwo pco pro); [exact Hd0|done| |exact Ht1].
        by rewrite (sh_rows _ _ _ _ S2).
    - apply bind_Ok in H as (t0 & Ht0 & H). injection H as <- <-.
      exists (λ i, i), (seq 0 (d_maxrow d)). split; [|split; [|split; [|split; [|split; [|split]]]]].
      + split; [done|]. split; [done|]. intros j Hj. by exists j.
      + split; [done|]. split; [done|]. split; [done|]. by split.
      + done.
      + intros r. rewrite elem_of_seq. unfold fitted_rows. split; [intros Hr; exists r; split; [split; [lia|by rewrite Eb]|done]|].
        intros (i & [Hi _] & ->). lia.
      + apply NoDup_seq.
      + pose proof (infer_id3_describes show (dense_grid order d) c label T gen ko co ro Hgen Hko Hco Hro) as H.
        by rewrite Ht0 in H.
      + done.
  Qed.
End fit.
