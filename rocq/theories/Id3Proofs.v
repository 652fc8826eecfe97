(** Proofs about decision trees. *)
From Coq Require Import QArith.
From stdpp Require Import functions.
From Verif Require Import Prelude BytesModel FloatModel AttrModel AttrSpec AttrProofs StoreModel DenseModel DenseSpec
  DenseProofs GridModel GridSpec GridProofs CsvModel PredModel PredProofs ConfModel TableProofs
  KnnModel KnnSpec Id3Model Id3Spec.
From Flocq Require Import IEEE754.Bits IEEE754.Binary.
Local Open Scope nat_scope.

(** ** Lists of rows *)

Lemma map_lookup {A B} (f : A → B) l i : map f l !! i = f <$> l !! i.
Proof. apply list_lookup_fmap. Qed.

Lemma votes_perm label l l' c : l ≡ₚ l' → votes label l c = votes label l' c.
Proof. intros H. unfold votes. by rewrite H. Qed.

Lemma votes_zero label l c : votes label l c = 0 ↔ c ∉ map label l.
Proof.
  unfold votes. rewrite elem_of_list_fmap. split.
  - intros H (i & -> & Hi).
    assert (i ∈ filter (λ r, label r = label i) l) as Hf by (by apply elem_of_list_filter).
    destruct (filter (λ r, label r = label i) l); [by apply elem_of_nil in Hf|done].
  - intros H. destruct (filter (λ r, label r = c) l) as [|i f] eqn:E; [done|].
    assert (i ∈ filter (λ r, label r = c) l) as Hi by (rewrite E; left).
    apply elem_of_list_filter in Hi as [Hl Hi]. destruct H. by exists i.
Qed.

Lemma counts_perm label l l' dist class :
  l ≡ₚ l' → counts_rows label l dist class → counts_rows label l' dist class.
Proof.
  intros Hp [H1 H2]. split.
  - intros c. by rewrite H1, (votes_perm label l l' c Hp).
  - intros Hne. destruct H2 as [Hin Hmax].
    { intros ->. by apply Permutation_nil_l in Hp. }
    split; [by rewrite <- Hp|]. intros c'. rewrite <- !(votes_perm label l l' _ Hp). apply Hmax.
Qed.

Lemma describes_perm show g label l l' t :
  l ≡ₚ l' → describes show g label l t → describes show g label l' t.
Proof.
  intros Hp Hd. revert l' Hp.
  induction Hd as [rows leaf dist class cattr r Hc|rows leaf ch dist class cattr a v Hc Ha Hn Hnd Hside Hk Hch IH];
    intros l' Hp.
  - constructor. by eapply counts_perm.
  - constructor; [by eapply counts_perm|done|done|done| | |].
    + intros i. rewrite <- Hp. apply Hside.
    + intros k. rewrite Hk. split; intros (i & Hi & Hs); exists i; [by rewrite <- Hp|by rewrite Hp].
    + intros k t Hkt. apply (IH k t Hkt). by rewrite Hp.
Qed.

Lemma count_rows_votes label rows cl :
  count_rows (length rows) (λ j, bool_decide (default "" (label <$> rows !! j) = cl)) =
  votes label rows cl.
Proof.
  induction rows as [|r rows IH] using rev_ind; [done|].
  unfold votes in *. rewrite filter_app, !app_length. cbn [length].
  rewrite Nat.add_1_r, count_rows_S, lookup_app_r, Nat.sub_diag by lia.
  cbn [lookup list_lookup fmap option_fmap option_map from_option].
  rewrite (count_rows_ext _ _ (λ j, bool_decide (default "" (label <$> rows !! j) = cl))), IH.
  2:{ intros i Hi. by rewrite lookup_app_l. }
  destruct (decide (label r = cl)) as [E|E].
  - rewrite bool_decide_eq_true_2, filter_cons_True by done. cbn. done.
  - rewrite bool_decide_eq_false_2, filter_cons_False by done. cbn. done.
Qed.

(** ** The majority class *)

Lemma max_class_spec order (m : gmap string nat) :
  let r := max_class order m in
  (r = (0, "") ∨ (r.2 ∈ order ∧ m !! r.2 = Some r.1)) ∧ ∀ k, k ∈ order → default 0 (m !! k) ≤ r.1.
Proof.
  cbv zeta. induction order as [|k order IH] using rev_ind.
  - split; [by left|]. intros k Hk. by apply elem_of_nil in Hk.
  - unfold max_class in *. rewrite foldl_app. cbn [foldl].
    set (r := foldl _ _ order) in *. clearbody r. destruct IH as [IH1 IH2].
    destruct (r.1 <? default 0 (m !! k)) eqn:E; [apply Nat.ltb_lt in E|apply Nat.ltb_ge in E].
    + split.
      * right. cbn [fst snd]. split; [apply elem_of_app; right; left|].
        destruct (m !! k); [done|simpl in E; lia].
      * intros k' Hk'. cbn [fst]. apply elem_of_app in Hk' as [Hk'|Hk'].
        -- specialize (IH2 k' Hk'). lia.
        -- apply elem_of_list_singleton in Hk' as ->. lia.
    + split.
      * destruct IH1 as [?|[H1 H2]]; [by left|right]. split; [apply elem_of_app; by left|done].
      * intros k' Hk'. apply elem_of_app in Hk' as [Hk'|Hk']; [by apply IH2|].
        by apply elem_of_list_singleton in Hk' as ->.
Qed.

Lemma counts_max label rows dist order :
  (∀ c, dist !! c = if votes label rows c =? 0 then None else Some (votes label rows c)) →
  order ≡ₚ map fst (map_to_list dist) →
  counts_rows label rows dist (max_class order dist).2.
Proof.
  intros Hd Ho. split; [done|]. intros Hne.
  pose proof (max_class_spec order dist) as [H1 H2]. cbv zeta in *.
  assert (∀ c, votes label rows c ≤ (max_class order dist).1) as Hmax.
  { intros c. pose proof (Hd c) as Hc. destruct (votes label rows c =? 0) eqn:E;
      [apply Nat.eqb_eq in E; lia|].
    specialize (H2 c). rewrite Hc in H2. cbn in H2. apply H2.
    rewrite Ho. apply elem_of_list_fmap. eexists (c, _). split; [done|]. by apply elem_of_map_to_list. }
  destruct rows as [|i rows]; [done|].
  assert (0 < votes label (i :: rows) (label i)) as Hpos.
  { apply Nat.neq_0_lt_0. rewrite votes_zero. intros H. destruct H. left. }
  specialize (Hmax (label i)) as Hi.
  destruct H1 as [H1|[H1 H1']]; [rewrite H1 in Hi; simpl in Hi; lia|].
  rewrite Hd in H1'. destruct (votes label (i :: rows) _ =? 0) eqn:E; [done|].
  apply Nat.eqb_neq in E. injection H1' as H1'. split.
  - destruct (decide ((max_class order dist).2 ∈ map label (i :: rows))) as [|Hn]; [done|].
    apply votes_zero in Hn. lia.
  - intros c'. rewrite H1'. apply Hmax.
Qed.

Lemma counts_only label rows dist order :
  (∀ c, dist !! c = if votes label rows c =? 0 then None else Some (votes label rows c)) →
  order ≡ₚ map fst (map_to_list dist) → size dist = 1 →
  counts_rows label rows dist (only_class order).
Proof.
  intros Hd Ho Hs. split; [done|]. intros Hne.
  assert (length order = 1) as Hl by (rewrite (Permutation_length Ho), map_length; exact Hs).
  destruct order as [|c [|]]; try done. cbn [only_class foldl].
  assert (∀ c', c' ∈ map label rows → c' = c) as Hin.
  { intros c' Hc'. assert (c' ∈ [c]) as H; [|by apply elem_of_list_singleton in H].
    rewrite Ho. apply elem_of_list_fmap. destruct (dist !! c') as [n|] eqn:E.
    - exists (c', n). split; [done|]. by apply elem_of_map_to_list.
    - rewrite Hd in E. destruct (votes label rows c' =? 0) eqn:E'; [|done].
      apply Nat.eqb_eq, votes_zero in E'. done. }
  assert (c ∈ map label rows) as Hc.
  { destruct rows as [|i rows]; [done|]. specialize (Hin (label i)).
    rewrite <- Hin at 1; left. }
  split; [done|]. intros c'. destruct (decide (c' ∈ map label rows)) as [H|H].
  - by rewrite (Hin c' H).
  - apply votes_zero in H. lia.
Qed.

(** ** Parts of the training set *)

(** [g] shows the rows [rows] of [g0], with some of its attributes. *)
Record shows (g0 : grid) (c : attr) (rows : list nat) (g : grid) : Prop := {
  sh_rows : (gr_size g).2 = length rows;
  sh_cols : (gr_size g).1 = length (gr_all_attrs g);
  sh_iter : iter_agrees g;
  sh_attrs : distinct_attrs (gr_all_attrs g);
  sh_sub : ∀ a, a ∈ gr_all_attrs g → a ∈ gr_all_attrs g0;
  sh_find : ∀ a s, a ∈ gr_all_attrs g → gr_get_attribute g0 a = Ok s → gr_get_attribute g a = Ok s;
  sh_only : ∀ a s, gr_get_attribute g a = Ok s →
    ∃ b, b ∈ gr_all_attrs g ∧ attr_equals b a = true ∧ gr_get_attribute g0 b = Ok s;
  sh_get : ∀ a s j r, a ∈ gr_all_attrs g0 → gr_get_attribute g0 a = Ok s →
    rows !! j = Some r → gr_get g s j = gr_get g0 s r;
  sh_class : gr_class_attrs g = [c];
  sh_class_in : c ∈ gr_all_attrs g
}.

Lemma shows_all show g c label :
  training show g c label → shows g c (seq 0 (gr_size g).2) g.
Proof.
  intros T. split; try apply T; try done.
  - by rewrite seq_length.
  - intros a s j r _ _ Hj. apply lookup_seq in Hj as [-> _]. done.
Qed.

(** Leaves have rows of one class, or [n] was down to 2 there. *)
Inductive finished : nat → tree → Prop :=
| finished_end n leaf dist class cattr r :
    (leaf = true → size dist = 1 ∨ n = 2) → finished n (Node leaf None dist class cattr r)
| finished_split n leaf l dist class cattr r :
    (∀ k t, (k, t) ∈ l → finished (Nat.pred n) t) → finished n (Node leaf (Some l) dist class cattr r).

Section parts.
  Context (show : nat → N → string) (g0 : grid) (c : attr) (label : nat → string).
  Hypothesis T : training show g0 c label.

  Lemma shows_value g rows a j r :
    shows g0 c rows g → a ∈ gr_all_attrs g → rows !! j = Some r →
    value_of show g a j = value_of show g0 a r.
  Proof using T.
    intros S Ha Hj. pose proof (sh_sub _ _ _ _ S a Ha) as Ha0.
    destruct (tr_find _ _ _ _ T a Ha0) as (s & Hs & _). unfold value_of.
    rewrite Hs, (sh_find _ _ _ _ S a s Ha Hs). cbn [mbind res_bind].
    by rewrite (sh_get _ _ _ _ S a s j r Ha0 Hs Hj).
  Qed.

  Lemma shows_side g rows a v j r :
    shows g0 c rows g → a ∈ gr_all_attrs g → rows !! j = Some r →
    side show g a v j = side show g0 a v r.
  Proof using T.
    intros S Ha Hj. pose proof (sh_sub _ _ _ _ S a Ha) as Ha0.
    destruct a as [n p|n vs|n]; [|by apply (shows_value g rows)..].
    destruct (tr_find _ _ _ _ T _ Ha0) as (s & Hs & _). unfold side.
    rewrite Hs, (sh_find _ _ _ _ S _ s Ha Hs). cbn [mbind res_bind].
    by rewrite (sh_get _ _ _ _ S _ s j r Ha0 Hs Hj).
  Qed.

  (** Every row is on some side. *)
  Lemma side_total a v i :
    a ∈ gr_all_attrs g0 → i < (gr_size g0).2 → ∃ k, side show g0 a v i = Ok k.
  Proof using T.
    intros Ha Hi. destruct (tr_value _ _ _ _ T a i Ha Hi) as [x Hx].
    destruct a as [n p|n vs|n]; [|eauto..]. unfold side. unfold value_of in Hx.
    apply bind_Ok in Hx as (s & Hs & Hx). apply bind_Ok in Hx as (raw & Hraw & Hx).
    rewrite Hs. cbn [mbind res_bind]. rewrite Hraw. cbn [mbind res_bind].
    cbn [attr_decode] in Hx. unfold unpack_float.
    destruct (unpack_u64 raw) as [u| |] eqn:E; [|done..].
    cbn [fmap res_fmap mbind res_bind]. eauto.
  Qed.

  Lemma shows_class g rows j r :
    shows g0 c rows g → (∀ r, r ∈ rows → r < (gr_size g0).2) → rows !! j = Some r →
    get_class show g j = Ok (label r).
  Proof using T.
    intros S Hb Hj. unfold get_class. rewrite (sh_class _ _ _ _ S).
    pose proof (sh_class_in _ _ _ _ S) as Hc.
    pose proof (shows_value g rows c j r S Hc Hj) as Hv.
    rewrite (tr_label _ _ _ _ T r) in Hv by (apply Hb; by eapply elem_of_list_lookup_2).
    unfold value_of in Hv. apply bind_Ok in Hv as (s & Hs & Hv). by rewrite Hs.
  Qed.

  Lemma shows_distribution g rows :
    shows g0 c rows g → (∀ r, r ∈ rows → r < (gr_size g0).2) →
    ∃ m, class_distribution show g = Ok m ∧
      ∀ cl, m !! cl = if votes label rows cl =? 0 then None else Some (votes label rows cl).
  Proof using T.
    intros S Hb. pose proof (sh_rows _ _ _ _ S) as Hn.
    destruct (class_distribution_spec show g (λ j, default "" (label <$> rows !! j)))
      as (m & Hm & Hcount).
    { intros i Hi. rewrite Hn in Hi. apply lookup_lt_is_Some in Hi as [r Hr].
      rewrite Hr. by apply (shows_class g rows). }
    destruct Hcount as (Hcount & Hpos & _). exists m. split; [done|]. intros cl.
    specialize (Hcount cl). rewrite Hn, count_rows_votes in Hcount.
    destruct (m !! cl) as [n|] eqn:E; cbn in Hcount.
    - specialize (Hpos cl n E). cbn in Hpos. rewrite <- Hcount.
      destruct (n =? 0) eqn:E'; [apply Nat.eqb_eq in E'; lia|done].
    - by rewrite <- Hcount.
  Qed.
  Lemma distinct_filter (P : attr → Prop) `{!∀ x, Decision (P x)} l :
    distinct_attrs l → distinct_attrs (filter P l).
  Proof.
    intros Hd. pose proof (distinct_NoDup l Hd) as Hnd.
    intros i j a b Hi Hj E.
    pose proof (elem_of_list_lookup_2 _ _ _ Hi) as Ha. pose proof (elem_of_list_lookup_2 _ _ _ Hj) as Hb.
    apply elem_of_list_filter in Ha as [_ Ha]. apply elem_of_list_filter in Hb as [_ Hb].
    apply elem_of_list_lookup in Ha as [i' Hi']. apply elem_of_list_lookup in Hb as [j' Hj'].
    assert (i' = j') as -> by (by apply (Hd i' j' a b)). assert (a = b) as -> by congruence.
    exact (NoDup_lookup (filter P l) i j b (NoDup_filter P l Hnd) Hi Hj).
  Qed.

  Lemma distinct_equals l a b :
    distinct_attrs l → a ∈ l → b ∈ l → attr_equals a b = true → a = b.
  Proof.
    intros H Ha Hb E. apply elem_of_list_lookup in Ha as [i Hi].
    apply elem_of_list_lookup in Hb as [j Hj]. specialize (H i j a b Hi Hj E). subst. congruence.
  Qed.

  Lemma other_attrs_length g a :
    distinct_attrs (gr_all_attrs g) → a ∈ gr_all_attrs g →
    S (length (other_attrs g a)) = length (gr_all_attrs g).
  Proof.
    unfold other_attrs. intros Hd Ha. apply elem_of_Permutation in Ha as [l Hl].
    rewrite Hl. pose proof (distinct_perm _ _ Hl Hd) as Hd'.
    rewrite filter_cons_False by (by rewrite attr_equals_refl). cbn [length]. f_equal.
    assert (∀ x, x ∈ l → attr_equals x a = false) as Hx.
    { intros x Hx. destruct (attr_equals x a) eqn:E; [|done].
      apply elem_of_list_lookup in Hx as [i Hi].
      assert (S i = 0) as H0; [|done]. by apply (Hd' (S i) 0 x a). }
    clear -Hx. induction l as [|x l IH]; [done|].
    rewrite filter_cons_True by (apply Hx; left). cbn [length]. f_equal. apply IH.
    intros y Hy. apply Hx. by right.
  Qed.

  Lemma find_spec_one l a s :
    distinct_attrs (map sp_attr l) → s ∈ l → sp_attr s = a → find_spec l a = Some s.
  Proof.
    induction l as [|t l IH]; intros Hd Hs Ha; [by apply elem_of_nil in Hs|].
    cbn [find_spec]. destruct (attr_equals (sp_attr t) a) eqn:E.
    - apply elem_of_cons in Hs as [->|Hs]; [done|]. exfalso.
      apply elem_of_list_lookup in Hs as [i Hi].
      assert (0 = S i) as H0; [|done]. apply (Hd 0 (S i) (sp_attr t) a); [done| |done].
      change (map sp_attr l !! i = Some a). rewrite map_lookup, Hi. cbn. by rewrite Ha.
    - apply elem_of_cons in Hs as [->|Hs]; [by rewrite Ha, attr_equals_refl in E|].
      apply IH; [|done|done]. intros i j x y Hi Hj Exy.
      assert (S i = S j) as H0; [|lia]. by apply (Hd (S i) (S j) x y).
  Qed.

  Lemma find_spec_some l a s : find_spec l a = Some s → s ∈ l ∧ attr_equals (sp_attr s) a = true.
  Proof.
    induction l as [|t l IH]; cbn [find_spec]; [done|].
    destruct (attr_equals (sp_attr t) a) eqn:E.
    - intros [= <-]. split; [left|done].
    - intros H. apply IH in H as [H1 H2]. split; [by right|done].
  Qed.

  Lemma shows_part g rows attrs rows' v co ro :
    shows g0 c rows g → (∀ b, b ∈ attrs → b ∈ gr_all_attrs g) → distinct_attrs attrs → c ∈ attrs →
    (∀ j, j ∈ rows' → j < length rows) →
    view_from_visible g rows' attrs = Ok v → any_order co → any_order ro →
    shows g0 c (map (λ j, default 0 (rows !! j)) rows') (view_grid co ro v) ∧
    gr_all_attrs (view_grid co ro v) = attrs.
  Proof using T.
    intros S Hsub Hd Hc Hin Hv Hco Hro.
    pose proof (view_visible_iter g rows' _ v co ro Hv Hro) as Hit.
    pose proof (view_visible_shows g rows' _ v Hv) as (Hsz & Hget & _).
    apply view_visible_inv in Hv as (specs & Hspecs & ->).
    apply resolve_Ok in Hspecs.
    assert (map sp_attr specs = attrs) as Hattrs.
    { clear -Hspecs Hsub S T. revert Hsub. induction Hspecs as [|b s l specs Hs H IH]; intros Hsub; [done|].
      cbn [map]. rewrite IH by (intros; apply Hsub; by right). f_equal.
      assert (b ∈ gr_all_attrs g) as Hb by (apply Hsub; left).
      destruct (tr_find _ _ _ _ T b (sh_sub _ _ _ _ S b Hb)) as (s' & Hs' & E').
      pose proof (sh_find _ _ _ _ S b s' Hb Hs') as E. congruence. }
    assert (∀ s, s ∈ specs → sp_attr s ∈ gr_all_attrs g ∧ gr_get_attribute g0 (sp_attr s) = Ok s) as Hspec.
    { intros s Hs. assert (sp_attr s ∈ gr_all_attrs g) as Hb.
      { apply Hsub. rewrite <- Hattrs. apply elem_of_list_fmap. eauto. }
      split; [done|]. apply elem_of_list_lookup in Hs as [i Hi].
      destruct (Forall2_lookup_r _ _ _ _ _ Hspecs Hi) as (b & Hbi & Hbs).
      assert (sp_attr s = b) as Esb.
      { assert (map sp_attr specs !! i = Some (sp_attr s)) as E by (by rewrite map_lookup, Hi).
        rewrite Hattrs, Hbi in E. congruence. }
      rewrite Esb in Hb. rewrite Esb.
      destruct (tr_find _ _ _ _ T b (sh_sub _ _ _ _ S b Hb)) as (s' & Hs' & _).
      rewrite Hs'. pose proof (sh_find _ _ _ _ S b s' Hb Hs'). congruence. }
    split; [|done]. split.
    - cbn [view_grid gr_size]. rewrite Hsz. by rewrite map_length.
    - cbn [view_grid gr_size gr_all_attrs]. unfold view_size, view_all_attrs. cbn [v_src v_attrs].
      destruct (gr_size g). cbn [fst]. by rewrite map_length.
    - done.
    - cbn [view_grid gr_all_attrs]. unfold view_all_attrs. cbn [v_attrs]. by rewrite Hattrs.
    - cbn [view_grid gr_all_attrs]. unfold view_all_attrs. cbn [v_attrs]. rewrite Hattrs.
      intros b Hb. by apply S, Hsub.
    - cbn [view_grid gr_all_attrs gr_get_attribute]. unfold view_all_attrs, view_get_attribute.
      cbn [v_attrs]. intros b s Hb Hs. apply elem_of_list_fmap in Hb as (s' & -> & Hs').
      rewrite (find_spec_one specs (sp_attr s') s'); [|by rewrite Hattrs|done|done].
      f_equal. destruct (Hspec s' Hs') as [_ E]. congruence.
    - cbn [view_grid gr_all_attrs gr_get_attribute]. unfold view_all_attrs, view_get_attribute.
      cbn [v_attrs]. intros b s Hb. destruct (find_spec specs b) as [s'|] eqn:E; [|done].
      injection Hb as <-. apply find_spec_some in E as [E1 E2]. exists (sp_attr s').
      split; [apply elem_of_list_fmap; eauto|]. split; [done|]. by apply Hspec.
    - intros b s j r Hb Hs Hj. rewrite map_lookup in Hj.
      destruct (rows' !! j) as [j'|] eqn:Ej; [|done]. injection Hj as <-.
      cbn [view_grid gr_get]. rewrite (Hget j j' s Ej).
      assert (j' < length rows) as Hlt by (apply Hin; by eapply elem_of_list_lookup_2).
      apply lookup_lt_is_Some in Hlt as [r Hr]. rewrite Hr. cbn.
      by apply (sh_get _ _ _ _ S b s j' r).
    - cbn [view_grid gr_class_attrs]. unfold view_class_attrs. cbn [v_class].
      assert (class_from_src g (Some specs) = [c]) as ->.
      { unfold class_from_src. rewrite (sh_class _ _ _ _ S).
        rewrite filter_cons_True; [done|]. unfold spec_matched. apply existsb_exists.
        rewrite <- Hattrs in Hc. apply elem_of_list_fmap in Hc as (s & E & Hs).
        exists s. split; [by apply elem_of_list_In|]. rewrite <- E. apply attr_equals_refl. }
      apply Permutation_singleton_r, Hco.
    - cbn [view_grid gr_all_attrs]. unfold view_all_attrs. cbn [v_attrs]. by rewrite Hattrs.
  Qed.

  Lemma shows_child g rows a rows' v co ro :
    shows g0 c rows g → a ∈ gr_all_attrs g → a ≠ c → (∀ j, j ∈ rows' → j < length rows) →
    view_from_visible g rows' (other_attrs g a) = Ok v → any_order co → any_order ro →
    shows g0 c (map (λ j, default 0 (rows !! j)) rows') (view_grid co ro v) ∧
    gr_all_attrs (view_grid co ro v) = other_attrs g a.
  Proof using T.
    intros S Ha Hac Hin Hv Hco Hro. apply (shows_part g rows (other_attrs g a) rows'); try done.
    - intros b Hb. by apply elem_of_list_filter in Hb as [_ Hb].
    - apply distinct_filter, S.
    - apply elem_of_list_filter. split; [|apply S]. destruct (attr_equals c a) eqn:E; [|done].
      destruct Hac. symmetry. by apply (distinct_equals (gr_all_attrs g)); [apply S|apply S| |].
  Qed.
  Lemma shows_reads g rows a s j :
    shows g0 c rows g → (∀ r, r ∈ rows → r < (gr_size g0).2) →
    gr_get_attribute g a = Ok s → j < (gr_size g).2 → ∃ raw, gr_get g s j = Ok raw.
  Proof using T.
    intros S Hb Hs Hj. rewrite (sh_rows _ _ _ _ S) in Hj. apply lookup_lt_is_Some in Hj as [r Hr].
    destruct (sh_only _ _ _ _ S a s Hs) as (b & Hin & _ & Hs0).
    pose proof (sh_sub _ _ _ _ S b Hin) as Hin0.
    destruct (tr_value _ _ _ _ T b r Hin0) as [x Hx];
      [apply Hb; by eapply elem_of_list_lookup_2|].
    unfold value_of in Hx. rewrite Hs0 in Hx. cbn [mbind res_bind] in Hx.
    apply bind_Ok in Hx as (raw & Hraw & _). exists raw.
    by rewrite (sh_get _ _ _ _ S b s j r Hin0 Hs0 Hr).
  Qed.

  (** The row of [g0] behind row [j]. *)
  Definition behind (rows : list nat) (j : nat) : nat := default 0 (rows !! j).

  Lemma shows_keys g rows a v :
    shows g0 c rows g → (∀ r, r ∈ rows → r < (gr_size g0).2) → a ∈ gr_all_attrs g →
    ∃ kf s, gr_get_attribute g a = Ok s ∧ sp_attr s = a ∧
      (∀ j, j < (gr_size g).2 → side show g0 a v (behind rows j) = Ok (kf j)) ∧
      ∀ j, j < (gr_size g).2 →
        (raw ← gr_get g s j;
         match a with FloatA _ _ => threshold_key v raw | _ => attr_decode show a raw end) = Ok (kf j).
  Proof using T.
    intros S Hb Ha. pose proof (sh_sub _ _ _ _ S a Ha) as Ha0.
    destruct (tr_find _ _ _ _ T a Ha0) as (s & Hs & Es).
    exists (λ j, match side show g0 a v (behind rows j) with Ok k => k | _ => "" end), s.
    split; [by apply (sh_find _ _ _ _ S)|]. split; [done|].
    assert (∀ j, j < (gr_size g).2 → ∃ r, rows !! j = Some r ∧ behind rows j = r ∧ r < (gr_size g0).2) as Hr.
    { intros j Hj. rewrite (sh_rows _ _ _ _ S) in Hj. apply lookup_lt_is_Some in Hj as [r Hr].
      exists r. split; [done|]. unfold behind. rewrite Hr. split; [done|].
      apply Hb. by eapply elem_of_list_lookup_2. }
    split.
    - intros j Hj. destruct (Hr j Hj) as (r & _ & -> & Hlt).
      destruct (side_total a v r Ha0 Hlt) as [k Hk]. by rewrite Hk.
    - intros j Hj. destruct (Hr j Hj) as (r & Hjr & -> & Hlt).
      destruct (side_total a v r Ha0 Hlt) as [k Hk]. rewrite Hk.
      rewrite (sh_get _ _ _ _ S a s j r Ha0 Hs Hjr). unfold side, value_of in Hk.
      destruct a as [n p|n vs|n]; rewrite Hs in Hk; cbn [mbind res_bind] in Hk;
        apply bind_Ok in Hk as (raw & Hraw & Hk); rewrite Hraw; cbn [mbind res_bind]; [|done..].
      apply bind_Ok in Hk as (x & Hx & Hk). rewrite (threshold_key_float v raw x Hx). done.
  Qed.

  Lemma split_on_spec g rows a v :
    shows g0 c rows g → (∀ r, r ∈ rows → r < (gr_size g0).2) → a ∈ gr_all_attrs g →
    ∃ m kf order, split_on show g a v = Ok m ∧ order ≡ₚ seq 0 (gr_size g).2 ∧
      (∀ j, j < (gr_size g).2 → side show g0 a v (behind rows j) = Ok (kf j)) ∧
      ∀ k, match filter (λ j, kf j = k) order with
           | [] => m !! k = None
           | rows' => ∃ v, m !! k = Some v ∧ view_from_visible g rows' (other_attrs g a) = Ok v
           end.
  Proof using T.
    intros S Hb Ha. destruct (shows_keys g rows a v S Hb Ha) as (kf & s & Hs & Es & Hkf & Hkey).
    assert (∀ a, a ∈ gr_all_attrs g → ∃ s, gr_get_attribute g a = Ok s) as Hall.
    { intros b Hb'. destruct (tr_find _ _ _ _ T b (sh_sub _ _ _ _ S b Hb')) as (s' & Hs' & _).
      exists s'. by apply (sh_find _ _ _ _ S). }
    assert (∀ a s' i, gr_get_attribute g a = Ok s' → i < (gr_size g).2 →
      ∃ v, gr_get g s' i = Ok v) as Hread.
    { intros b s' i Hb' Hi. by apply (shows_reads g rows b s' i). }
    assert (∃ key, split_on show g a v = decompose g a s key ∧
      ∀ j, j < (gr_size g).2 → (raw ← gr_get g s j; key raw) = Ok (kf j)) as (key & -> & Hkey').
    { destruct a as [n p|n vs|n]; cbn [split_on].
      - exists (threshold_key v). unfold decompose_threshold. by rewrite Hs.
      - exists (attr_decode show (CatA n vs)). unfold decompose_values. rewrite Hs, Es. done.
      - exists (attr_decode show (BinA n)). unfold decompose_values. rewrite Hs, Es. done. }
    destruct (decompose_spec g a s key kf (sh_iter _ _ _ _ S) Hall Hread Hs Hkey')
      as (m & order & Hm & Hperm & _ & Hk).
    exists m, kf, order. done.
  Qed.

  Lemma behind_filter rows kf a v k order n :
    n = length rows → order ≡ₚ seq 0 n →
    (∀ j, j < n → side show g0 a v (behind rows j) = Ok (kf j)) →
    map (behind rows) (filter (λ j, kf j = k) order) ≡ₚ
    filter (λ i, side show g0 a v i = Ok k) rows.
  Proof.
    intros -> Ho Hk. rewrite Ho. clear Ho order.
    induction rows as [|r rows IH] using rev_ind; [done|].
    rewrite app_length in *. cbn [length] in *. rewrite Nat.add_1_r, seq_S in *. rewrite !filter_app, map_app.
    cbn [plus]. apply Permutation_app.
    - rewrite <- IH.
      + apply reflexive_eq, map_ext_in. intros j Hj. apply elem_of_list_In in Hj.
        apply elem_of_list_filter in Hj as [_ Hj]. apply elem_of_seq in Hj. unfold behind.
        by rewrite lookup_app_l by lia.
      + intros j Hj. rewrite <- Hk by lia. unfold behind. by rewrite lookup_app_l by lia.
    - specialize (Hk (length rows)). unfold behind in Hk at 1.
      rewrite lookup_app_r, Nat.sub_diag in Hk by lia. cbn in Hk. specialize (Hk ltac:(lia)).
      destruct (decide (kf (length rows) = k)) as [E|E].
      + rewrite !filter_cons_True by congruence. cbn. unfold behind.
        by rewrite lookup_app_r, Nat.sub_diag by lia.
      + rewrite !filter_cons_False by congruence. done.
  Qed.

  (** ** Construction *)

  Lemma usable_mono vs attrs attrs' t :
    attrs ⊆ attrs' → usable vs attrs t → usable vs attrs' t.
  Proof.
    intros Hs H. revert attrs' Hs.
    induction H as [attrs leaf dist class cattr r Hc|attrs leaf l dist class cattr a v Hc Ha Hf Hn Hl IH];
      intros attrs' Hs; constructor; [done|done|by apply Hs|done|done|].
    intros k t Hkt. apply (IH k t Hkt). intros b Hb. apply elem_of_list_filter in Hb as [Hb1 Hb2].
    apply elem_of_list_filter. split; [done|]. by apply Hs.
  Qed.

  Lemma counts_class rows dist class (vs : list string) :
    counts_rows label rows dist class → rows ≠ [] → (∀ r, r ∈ rows → label r ∈ vs) → class ∈ vs.
  Proof.
    intros [_ Hc] Hne Hvs. destruct (Hc Hne) as [Hin _].
    apply elem_of_list_fmap in Hin as (r & -> & Hr). by apply Hvs.
  Qed.

  (** The attributes but the class. *)
  Definition features (g : grid) : list attr := filter (λ a, a ≠ c) (gr_all_attrs g).

  Lemma res_mapM_cases {A B} (f : A → res B) l :
    (∃ l', res_mapM f l = Ok l' ∧ Forall2 (λ x y, f x = Ok y) l l') ∨
    ((∀ l', res_mapM f l ≠ Ok l') ∧ ∃ x, x ∈ l ∧ ∀ y, f x ≠ Ok y).
  Proof.
    induction l as [|x l IH]; [left; by exists []|]. cbn [res_mapM].
    destruct (f x) as [y| |] eqn:E; cbn [mbind res_bind].
    - destruct IH as [(l' & -> & H)|(H & z & Hz & Hfz)].
      + left. exists (y :: l'). split; [done|]. by constructor.
      + right. split; [|exists z; split; [by right|done]].
        destruct (res_mapM f l) as [l'| |]; [by destruct (H l')|done..].
    - right. split; [done|]. exists x. split; [left|]. intros y. by rewrite E.
    - right. split; [done|]. exists x. split; [left|]. intros y. by rewrite E.
  Qed.

  Section build.
    Context (gen : list string → grid → res (option rule)).
    Context (ko : list string → list string → list string).
    Context (co : list string → list attr → list attr) (ro : list string → list nat → list nat).
    Hypothesis Hgen : sane_rules gen.
    Hypothesis Hko : ∀ p, any_order (ko p).
    Hypothesis Hco : ∀ p, any_order (co p).
    Hypothesis Hro : ∀ p, any_order (ro p).

    Lemma infer_describes fuel path g rows :
      shows g0 c rows g → (∀ r, r ∈ rows → r < (gr_size g0).2) → (gr_size g).1 < fuel →
      match infer show gen ko co ro fuel path g with
      | Ok t => describes show g0 label rows t ∧ finished (gr_size g).1 t ∧
          (∀ vs, no_float_rules gen → rows ≠ [] → (∀ r, r ∈ rows → label r ∈ vs) →
             usable vs (features g) t)
      | _ => ∃ path g, ∀ r, gen path g ≠ Ok r
      end.
    Proof using T Hgen Hko Hco Hro.
      revert path g rows. induction fuel as [|fuel IH]; intros path g rows S Hb Hf; [lia|].
      cbn [infer].
      destruct (shows_distribution g rows S Hb) as (dist & -> & Hdist). cbn [mbind res_bind].
      rewrite (sh_class _ _ _ _ S). cbn [idx lookup list_lookup mbind res_bind].
      assert (ko path (map fst (map_to_list dist)) ≡ₚ map fst (map_to_list dist)) as Hord by apply Hko.
      destruct (size dist =? 1) eqn:E1.
      { apply Nat.eqb_eq in E1. pose proof (counts_only label rows dist _ Hdist Hord E1) as Hc.
        split; [by constructor|]. split; [constructor; by left|].
        intros vs _ Hne Hvs. constructor. by eapply (counts_class rows). }
      assert (counts_rows label rows dist
        (max_class (ko path (map fst (map_to_list dist))) dist).2) as Hcounts by (by apply counts_max).
      destruct ((gr_size g).1 =? 2) eqn:E2;
        [apply Nat.eqb_eq in E2; split; [by constructor|]; split; [constructor; by right|]; intros vs _ Hne Hvs; constructor; by eapply (counts_class rows)|].
      destruct (gen path g) as [r| |] eqn:Egen; cbn [mbind res_bind];
        [|exists path, g; intros r'; by rewrite Egen..].
      destruct r as [[[a|] v]|]; cbn [ru_attr ru_val];
        [|split; [by constructor|]; split; [by constructor|]; intros vs _ Hne Hvs; constructor; by eapply (counts_class rows)..].
      destruct (Hgen path g _ a Egen eq_refl) as [Ha Hac].
      rewrite (sh_class _ _ _ _ S) in Hac. rewrite elem_of_list_singleton in Hac.
      destruct (split_on_spec g rows a v S Hb Ha) as (m & kf & order & -> & Hperm & Hkf & Hm).
      cbn [mbind res_bind].
      pose proof (sh_rows _ _ _ _ S) as Hn.
      assert (∀ k w, m !! k = Some w →
        ∃ rows', rows' ≡ₚ filter (λ i, side show g0 a v i = Ok k) rows ∧ rows' ≠ [] ∧
          shows g0 c rows' (view_grid (co (path ++ [k])) (ro (path ++ [k])) w) ∧
          1 + (gr_size (view_grid (co (path ++ [k])) (ro (path ++ [k])) w)).1 = (gr_size g).1 ∧
          gr_all_attrs (view_grid (co (path ++ [k])) (ro (path ++ [k])) w) = other_attrs g a) as Hchild.
      { intros k w Hk. specialize (Hm k).
        pose proof (behind_filter rows kf a v k order _ Hn Hperm Hkf) as Hp.
        destruct (filter (λ j, kf j = k) order) as [|j js] eqn:Ef; [congruence|].
        destruct Hm as (w' & Hw' & Hw). assert (w' = w) as -> by congruence.
        exists (map (behind rows) (j :: js)). split; [done|]. split; [done|].
        destruct (shows_child g rows a (j :: js) w (co (path ++ [k])) (ro (path ++ [k])) S Ha Hac)
          as [S' Hattrs]; [|done|apply Hco|apply Hro|].
        { intros j' Hj'. rewrite <- Ef in Hj'. apply elem_of_list_filter in Hj' as [_ Hj'].
          rewrite Hperm in Hj'. apply elem_of_seq in Hj'. lia. }
        split; [done|]. split; [|done]. rewrite (sh_cols _ _ _ _ S'), Hattrs.
        pose proof (other_attrs_length g a (sh_attrs _ _ _ _ S) Ha) as Hlen.
        rewrite <- (sh_cols _ _ _ _ S) in Hlen. lia. }
      assert (∀ k, (∃ w, m !! k = Some w) ↔ ∃ i, i ∈ rows ∧ side show g0 a v i = Ok k) as Hkeys.
      { intros k. split.
        - intros [w Hw]. destruct (Hchild k w Hw) as (rows' & Hp & Hne & _).
          destruct rows' as [|i rows']; [done|]. exists i.
          assert (i ∈ i :: rows') as Hi by left. rewrite Hp in Hi.
          apply elem_of_list_filter in Hi. by destruct Hi.
        - intros (i & Hi & Hs). specialize (Hm k).
          pose proof (behind_filter rows kf a v k order _ Hn Hperm Hkf) as Hp.
          destruct (filter (λ j, kf j = k) order); [|destruct Hm as (w & Hw & _); eauto].
          apply Permutation_nil_l in Hp.
          assert (i ∈ filter (λ i, side show g0 a v i = Ok k) rows) as Hif by (by apply elem_of_list_filter).
          rewrite <- Hp in Hif. by apply elem_of_nil in Hif. }
      match goal with |- context [res_mapM ?f ?l] => destruct (res_mapM_cases f l)
        as [(ch & Hch & Hall)|(Hfail & [k w] & Hkw & Hno)] end.
      - rewrite Hch. cbn [mbind res_bind].
        assert (map fst ch = map fst (map_to_list m)) as Hfst.
        { clear -Hall. induction Hall as [|[k w] [k' t] l l' H Hall IH]; [done|].
          cbn [map fst]. rewrite IH. f_equal. apply bind_Ok in H as (t' & _ & H). congruence. }
        assert (∀ k t, (k, t) ∈ ch → ∃ w rows', infer show gen ko co ro fuel (path ++ [k])
            (view_grid (co (path ++ [k])) (ro (path ++ [k])) w) = Ok t ∧
          rows' ≡ₚ filter (λ i, side show g0 a v i = Ok k) rows ∧ rows' ≠ [] ∧
          shows g0 c rows' (view_grid (co (path ++ [k])) (ro (path ++ [k])) w) ∧
          1 + (gr_size (view_grid (co (path ++ [k])) (ro (path ++ [k])) w)).1 = (gr_size g).1 ∧
          gr_all_attrs (view_grid (co (path ++ [k])) (ro (path ++ [k])) w) = other_attrs g a) as Hkt.
        { intros k t Hkt. apply elem_of_list_lookup in Hkt as [i Hi].
          destruct (Forall2_lookup_r _ _ _ _ _ Hall Hi) as ([k' w] & Hkw & H).
          apply bind_Ok in H as (t' & Ht' & H). injection H as -> ->.
          apply elem_of_list_lookup_2, elem_of_map_to_list in Hkw.
          destruct (Hchild k w Hkw) as (rows' & H). exists w, rows'. done. }
        assert (∀ rows' k, rows' ≡ₚ filter (λ i, side show g0 a v i = Ok k) rows →
          ∀ r, r ∈ rows' → r ∈ rows) as Hsub.
        { intros rows' k Hp r Hr. rewrite Hp in Hr. apply elem_of_list_filter in Hr. by destruct Hr. }
        split; [|split].
        2:{ constructor. intros k t Hin. destruct (Hkt k t Hin) as (w & rows' & Ht' & Hp & Hne' & S' & Heq & Hat).
          specialize (IH (path ++ [k]) _ rows' S'). rewrite Ht' in IH.
          replace (Nat.pred (gr_size g).1) with (gr_size (view_grid (co (path ++ [k])) (ro (path ++ [k])) w)).1 by lia.
          apply IH; [|lia]. intros r Hr. apply Hb. by eapply Hsub. }
        2:{ intros vs Hnf Hne Hvs. constructor; [by eapply (counts_class rows)| | | |].
          - apply elem_of_list_filter. done.
          - by eapply Hnf.
          - rewrite Hfst. apply NoDup_fst_map_to_list.
          - intros k t Hin. destruct (Hkt k t Hin) as (w & rows' & Ht' & Hp & Hne' & S' & Heq & Hat).
            assert (∀ r, r ∈ rows' → label r ∈ vs) as Hvs' by (intros r Hr; apply Hvs; by eapply Hsub).
            specialize (IH (path ++ [k]) _ rows' S').
            rewrite Ht' in IH. destruct IH as (_ & _ & IH); [|lia|].
            { intros r Hr. apply Hb. by eapply Hsub. }
            eapply usable_mono; [|by apply IH]. unfold features. rewrite Hat. unfold other_attrs.
            intros b Hb'. apply elem_of_list_filter in Hb' as [H1 H2].
            apply elem_of_list_filter in H2 as [H2 H3].
            apply elem_of_list_filter. split; [done|]. by apply elem_of_list_filter. }
        constructor; [done| | | | | |].
        + by apply S.
        + rewrite (tr_class _ _ _ _ T), elem_of_list_singleton. done.
        + rewrite Hfst. apply NoDup_fst_map_to_list.
        + intros i Hi. apply side_total; [by apply S|by apply Hb].
        + intros k. rewrite Hfst, <- Hkeys. rewrite elem_of_list_fmap. split.
          * intros ([k' w] & -> & H). apply elem_of_map_to_list in H. eauto.
          * intros [w Hw]. exists (k, w). split; [done|]. by apply elem_of_map_to_list.
        + intros k t Hin. destruct (Hkt k t Hin) as (w & rows' & Ht' & Hp & Hne' & S' & Heq & Hat).
          specialize (IH (path ++ [k]) _ rows' S').
          rewrite Ht' in IH. eapply describes_perm; [exact Hp|]. apply IH; [|lia].
          intros r Hr. apply Hb. by eapply Hsub.
      - apply elem_of_map_to_list in Hkw.
        destruct (Hchild k w Hkw) as (rows' & Hp & _ & S' & Heq & _).
        specialize (IH (path ++ [k]) _ rows' S').
        assert (∃ path g, ∀ r, gen path g ≠ Ok r) as Hex.
        { destruct (infer show gen ko co ro fuel (path ++ [k]) _) as [t| |] eqn:E.
          - by destruct (Hno (k, t)).
          - apply IH; [|lia]. intros r Hr. rewrite Hp in Hr.
            apply elem_of_list_filter in Hr as [_ Hr]. by apply Hb.
          - apply IH; [|lia]. intros r Hr. rewrite Hp in Hr.
            apply elem_of_list_filter in Hr as [_ Hr]. by apply Hb. }
        destruct (res_mapM _ (map_to_list m)) as [l| |]; [by destruct (Hfail l)|done..].
    Qed.

    Lemma infer_id3_finished t : infer_id3 show gen ko co ro g0 = Ok t → finished (gr_size g0).1 t.
    Proof using T Hgen Hko Hco Hro.
      unfold infer_id3. intros Ht.
      pose proof (infer_describes (S (gr_size g0).1) [] g0 (seq 0 (gr_size g0).2)) as H.
      rewrite Ht in H. apply H; [by eapply shows_all| |lia].
      intros r Hr. apply elem_of_seq in Hr. lia.
    Qed.

    Lemma infer_id3_describes :
      match infer_id3 show gen ko co ro g0 with
      | Ok t => describes show g0 label (seq 0 (gr_size g0).2) t
      | _ => ∃ path g, ∀ r, gen path g ≠ Ok r
      end.
    Proof using T Hgen Hko Hco Hro.
      pose proof (infer_describes (S (gr_size g0).1) [] g0 (seq 0 (gr_size g0).2)) as H.
      unfold infer_id3. destruct (infer _ _ _ _ _ _ _ _); apply H; try lia; try by eapply shows_all.
      all: intros r Hr; apply elem_of_seq in Hr; lia.
    Qed.

    Lemma infer_id3_usable t vs :
      infer_id3 show gen ko co ro g0 = Ok t → no_float_rules gen → (gr_size g0).2 ≠ 0 →
      (∀ r, r < (gr_size g0).2 → label r ∈ vs) → usable vs (features g0) t.
    Proof using T Hgen Hko Hco Hro.
      unfold infer_id3. intros Ht Hnf Hne Hvs.
      pose proof (infer_describes (S (gr_size g0).1) [] g0 (seq 0 (gr_size g0).2)) as H.
      rewrite Ht in H. apply H; [by eapply shows_all| |lia|done| |].
      - intros r Hr. apply elem_of_seq in Hr. lia.
      - by destruct (gr_size g0).2.
      - intros r Hr. apply Hvs. apply elem_of_seq in Hr. lia.
    Qed.
  End build.
End parts.

(** ** From the root to a leaf *)

Lemma best_child_in order v best : best_child order v best ∈ order ∨ order = [].
Proof.
  revert best. induction order as [|c order IH]; intros best; [by right|]. left.
  cbn [best_child]. destruct (String.ltb v c); [left|].
  destruct (IH c) as [H| ->]; [by right|]. cbn. left.
Qed.

Section walk.
  Context (show : nat → N → string) (wo : nat → nat → list string → list string)
    (what : grid) (row : nat).

  (** Same as the inner loop of [walk]. *)
  Definition pick (k : string) (l : list (string * tree)) (depth : nat) : res tree :=
    (fix go (l : list (string * tree)) : res tree :=
       match l with
       | [] => Panic
       | (k', t') :: l =>
           if bool_decide (k' = k) then walk show wo what row (S depth) t' else go l
       end) l.

  Lemma pick_some k l depth :
    k ∈ map fst l → ∃ t, (k, t) ∈ l ∧ pick k l depth = walk show wo what row (S depth) t.
  Proof.
    induction l as [|[k' t'] l IH]; intros Hk; [by apply elem_of_nil in Hk|].
    unfold pick. destruct (decide (k' = k)) as [->|Hne].
    - exists t'. split; [left|]. by rewrite bool_decide_eq_true_2.
    - rewrite bool_decide_eq_false_2 by done. destruct IH as (t & Ht & E).
      { cbn [map fst] in Hk. apply elem_of_cons in Hk as [->|Hk]; done. }
      exists t. split; [by right|]. exact E.
  Qed.

  Lemma walk_split leaf l dist class cattr ru depth v :
    branch show what row ru = Ok v → l ≠ [] → any_order (wo row depth) →
    ∃ k t, (k, t) ∈ l ∧ (v ∈ map fst l → k = v) ∧
      walk show wo what row depth (Node leaf (Some l) dist class cattr (Some ru)) =
      walk show wo what row (S depth) t.
  Proof.
    intros Hv Hne Hwo. cbn [walk]. rewrite Hv. cbn [mbind res_bind].
    set (k := if bool_decide (v ∈ map fst l) then v else _).
    assert (k ∈ map fst l ∧ (v ∈ map fst l → k = v)) as [Hk Hkv].
    { unfold k. destruct (decide (v ∈ map fst l)) as [H|H].
      - by rewrite bool_decide_eq_true_2.
      - rewrite bool_decide_eq_false_2 by done. split; [|done].
        destruct (best_child_in (wo row depth (map fst l)) v "") as [Hb|Hb].
        + by eapply elem_of_Permutation_proper; [symmetry; apply Hwo|].
        + assert (map fst l = []) as E by (apply Permutation_nil; rewrite <- Hb; exact (Hwo _)).
          by destruct l. }
    clearbody k. destruct (pick_some k l depth Hk) as (t & Ht & E).
    exists k, t. split; [done|]. split; [done|]. exact E.
  Qed.
End walk.

Lemma threshold_key_total v raw s show n p :
  attr_decode show (FloatA n p) raw = Ok s → ∃ k, threshold_key v raw = Ok k.
Proof.
  cbn [attr_decode]. intros H. assert (∃ x, unpack_float raw = Ok x) as [x Hx].
  { unfold unpack_float. destruct (unpack_u64 raw); [|done..]. cbn. eauto. }
  eexists. by apply threshold_key_float.
Qed.

Lemma branch_total show g what vs row a v :
  predictable show g what vs → a ∈ gr_all_attrs g → a ∉ gr_class_attrs g → row < (gr_size what).2 →
  ∃ k, branch show what row (Rule (Some a) v) = Ok k.
Proof.
  intros P Ha Hc Hrow. destruct (pr_cells _ _ _ _ P a Ha Hc) as (s & Hs & Hcell).
  destruct (Hcell row Hrow) as (raw & x & Hraw & Hx).
  unfold branch. cbn [ru_attr ru_val]. rewrite Hs, Hraw. cbn [mbind res_bind].
  destruct (sp_attr s) as [n p|n l|n] eqn:E; [|eauto..]. by eapply threshold_key_total.
Qed.

Lemma branch_training show g c label row a v :
  training show g c label → a ∈ gr_all_attrs g → row < (gr_size g).2 →
  branch show g row (Rule (Some a) v) = side show g a v row.
Proof.
  intros T Ha Hrow. destruct (tr_find _ _ _ _ T a Ha) as (s & Hs & E).
  destruct (tr_value _ _ _ _ T a row Ha Hrow) as [x Hx].
  unfold branch, side. cbn [ru_attr ru_val]. unfold value_of in *. rewrite Hs in *. cbn [mbind res_bind] in *.
  apply bind_Ok in Hx as (raw & -> & Hx). cbn [mbind res_bind]. rewrite E.
  destruct a as [n p|n l|n]; [|done..]. cbn [attr_decode] in Hx.
  assert (∃ y, unpack_float raw = Ok y) as [y Hy].
  { unfold unpack_float. destruct (unpack_u64 raw); [|done..]. cbn. eauto. }
  rewrite Hy. cbn [mbind res_bind]. by rewrite (threshold_key_float v raw y Hy).
Qed.

Lemma describes_class show g label rows t :
  describes show g label rows t → counts_rows label rows (t_dist t) (t_class t).
Proof. by intros []. Qed.

Lemma walk_ok show g what vs label wo row depth rows t :
  predictable show g what vs → row < (gr_size what).2 → (∀ i j, any_order (wo i j)) →
  describes show g label rows t → rows ≠ [] →
  ∃ node rows', walk show wo what row depth t = Ok node ∧ t_children node = None ∧
    describes show g label rows' node ∧ rows' ≠ [] ∧ rows' ⊆ rows.
Proof.
  intros P Hrow Hwo Hd. revert depth.
  induction Hd as [rows leaf dist class cattr r Hc|rows leaf ch dist class cattr a v Hc Ha Hn Hnd Hside Hk Hch IH];
    intros depth Hne.
  - exists (Node leaf None dist class cattr r), rows.
    split; [done|]. split; [done|]. split; [by constructor|]. done.
  - destruct (branch_total show g what vs row a v P Ha Hn Hrow) as [k Hbk].
    destruct (decide (ch = [])) as [->|Hchne].
    { exfalso. destruct rows as [|i rows]; [done|]. destruct (Hside i) as [k' Hk']; [left|].
      assert (k' ∈ map fst ([] : list (string * tree))) as Hin by (apply Hk; exists i; split; [left|done]).
      by apply elem_of_nil in Hin. }
    destruct (walk_split show wo what row leaf ch dist class cattr (Rule (Some a) v) depth k Hbk Hchne
      (Hwo row depth)) as (k' & t & Hkt & _ & ->).
    assert (k' ∈ map fst ch) as Hin by (apply elem_of_list_fmap; by exists (k', t)).
    apply Hk in Hin as (i & Hi & Hsi).
    destruct (IH k' t Hkt (S depth)) as (node & rows' & H1 & H2 & H3 & H4 & H5).
    { intros E. assert (i ∈ filter (λ i, side show g a v i = Ok k') rows) as Hif
        by (by apply elem_of_list_filter). rewrite E in Hif. by apply elem_of_nil in Hif. }
    exists node, rows'. split; [done|]. split; [done|]. split; [done|]. split; [done|].
    intros x Hx. apply H5, elem_of_list_filter in Hx. by destruct Hx.
Qed.

Lemma walk_training show g c label wo row depth rows t :
  training show g c label → row < (gr_size g).2 → (∀ i j, any_order (wo i j)) →
  describes show g label rows t → row ∈ rows →
  ∃ node rows', walk show wo g row depth t = Ok node ∧ t_children node = None ∧
    describes show g label rows' node ∧ row ∈ rows' ∧ rows' ⊆ rows ∧ node_of node t.
Proof.
  intros T Hrow Hwo Hd. revert depth.
  induction Hd as [rows leaf dist class cattr r Hc|rows leaf ch dist class cattr a v Hc Ha Hn Hnd Hside Hk Hch IH];
    intros depth Hin.
  - exists (Node leaf None dist class cattr r), rows.
    split; [done|]. split; [done|]. split; [by constructor|]. split; [done|]. split; [done|]. constructor.
  - destruct (Hside row Hin) as [k Hsk].
    pose proof (branch_training show g c label row a v T Ha Hrow) as Hb. rewrite Hsk in Hb.
    assert (k ∈ map fst ch) as Hkin by (apply Hk; eauto).
    assert (ch ≠ []) as Hchne by (intros ->; by apply elem_of_nil in Hkin).
    destruct (walk_split show wo g row leaf ch dist class cattr (Rule (Some a) v) depth k Hb Hchne
      (Hwo row depth)) as (k' & t & Hkt & Hkk & ->).
    specialize (Hkk Hkin) as ->.
    destruct (IH k t Hkt (S depth)) as (node & rows' & H1 & H2 & H3 & H4 & H5 & H6).
    { by apply elem_of_list_filter. }
    exists node, rows'. split; [done|]. split; [done|]. split; [done|]. split; [done|].
    split; [intros x Hx; apply H5, elem_of_list_filter in Hx; by destruct Hx|]. by eapply node_below.
Qed.

(** ** Predictions *)

Lemma any_set_attrs (ao : list attr → list attr) g cls a :
  any_order ao → a ∈ difference_refs (ao (build_attr_set (gr_all_attrs g))) cls → a ∈ gr_all_attrs g.
Proof.
  intros Hao. unfold difference_refs. intros H. apply elem_of_list_filter in H as [_ H].
  apply build_attr_set_elem. by eapply elem_of_Permutation_proper; [symmetry; apply Hao|].
Qed.

Lemma resolve_total g attrs :
  (∀ a, a ∈ attrs → ∃ s, gr_get_attribute g a = Ok s) → ∃ specs, resolve g attrs = Ok specs.
Proof.
  induction attrs as [|a attrs IH]; intros H; [by exists []|].
  destruct (H a) as [s Hs]; [left|]. destruct IH as [specs Hspecs]; [intros b Hb; apply H; by right|].
  exists (s :: specs). apply resolve_Ok. constructor; [done|]. by apply resolve_Ok.
Qed.

Lemma mapM_total {A B} (f : A → res B) l :
  (∀ x, x ∈ l → ∃ y, f x = Ok y) → ∃ l', res_mapM f l = Ok l'.
Proof.
  induction l as [|x l IH]; intros H; [by exists []|].
  destruct (H x) as [y Hy]; [left|]. destruct IH as [l' Hl']; [intros z Hz; apply H; by right|].
  exists (y :: l'). cbn [res_mapM]. rewrite Hy. cbn [mbind res_bind]. by rewrite Hl'.
Qed.

Lemma predictable_fetch show g what vs (ao : list attr → list attr) cls :
  predictable show g what vs → any_order ao →
  ∃ specs, resolve what (difference_refs (ao (build_attr_set (gr_all_attrs what))) cls) = Ok specs ∧
    ∀ i, i < (gr_size what).2 → ∃ buf, res_mapM (λ s, gr_get what s i) specs = Ok buf.
Proof.
  intros P Hao.
  destruct (resolve_total what (difference_refs (ao (build_attr_set (gr_all_attrs what))) cls)) as [specs Hspecs].
  { intros a Ha. apply any_set_attrs in Ha; [|done].
    destruct (pr_rows _ _ _ _ P a Ha) as (s & Hs & _). eauto. }
  exists specs. split; [done|]. intros i Hi. apply mapM_total. intros s Hs.
  apply resolve_Ok in Hspecs. apply elem_of_list_lookup in Hs as [j Hj].
  destruct (Forall2_lookup_r _ _ _ _ _ Hspecs Hj) as (a & Haj & Has).
  apply elem_of_list_lookup_2, any_set_attrs in Haj; [|done].
  destruct (pr_rows _ _ _ _ P a Haj) as (s' & Hs' & Hget).
  assert (s' = s) as -> by congruence. by apply Hget.
Qed.

Section predict.
  Context (show : nat → N → string) (parse : string → option binary64)
    (cord : list ((nat * nat) * bool) → list ((nat * nat) * bool)) (ao : list attr → list attr)
    (pg : nat) (g what : grid) (vs : list string).
  Hypothesis Hcord : any_order cord.
  Hypothesis Hao : any_order ao.
  Hypothesis P : predictable show g what vs.

  Lemma predict_ok wo t :
    (∀ i, i < (gr_size what).2 → ∃ node, walk show wo what i 0 t = Ok node ∧ t_class node ∈ vs) →
    ∃ ret, predict show parse cord ao pg wo t what = Ok ret ∧ (dense_size ret).2 = (gr_size what).2 ∧
      ∀ order i, class_order ret order → i < (gr_size what).2 →
        ∃ node, walk show wo what i 0 t = Ok node ∧
          get_class show (dense_grid order ret) i = Ok (t_class node).
  Proof using Hcord Hao P.
    intros Hw. destruct (pr_class _ _ _ _ P) as [name Hclass].
    unfold predict. destruct (labels_predicted_new pg what name vs Hclass) as (d0 & -> & Hd0).
    cbn [mbind res_bind].
    rewrite (predicted_class_attrs _ _ _ _ _ _ (proj1 Hd0)) by apply Hcord.
    cbn [idx lookup list_lookup mbind res_bind].
    rewrite (predicted_find _ _ _ _ _ (proj1 Hd0)). cbn [mbind res_bind].
    destruct (predictable_fetch show g what vs ao [CatA name vs] P Hao) as (specs & -> & Hfetch).
    cbn [mbind res_bind].
    destruct (pr_iter _ _ _ _ P specs) as (rows & Hrows & Hfst & Hf).
    unfold map_over_rows. rewrite Hrows. cbn [mbind res_bind].
    destruct (run_rows_labels (predict_row show parse wo t what (Spec 0 0 (CatA name vs)))
      (λ st lab, labels_predicted pg name vs (gr_size what).2 lab st.1 ∧ st.2 = CatA name vs)
      (λ i l, ∃ node, walk show wo what i 0 t = Ok node ∧ l = t_class node)
      rows (d0, CatA name vs) (λ _, None)) as (st & lab & -> & [Hret _] & Hin & _).
    { intros i fetch [d cl] lab Hi [Hlab Ecl]. cbn [fst snd] in *. subst cl.
      assert (i < (gr_size what).2) as Hlt.
      { apply (elem_of_list_fmap_1 fst) in Hi. rewrite Hfst in Hi. apply elem_of_seq in Hi.
        simpl in Hi. lia. }
      destruct (Hfetch i Hlt) as [buf Hbuf]. rewrite (Hf i fetch Hi). exists buf.
      destruct (Hw i Hlt) as (node & Hnode & Hvs).
      unfold predict_row. rewrite Hnode. cbn [mbind res_bind fst snd encode_value].
      destruct Hlab as [Hp Hlin].
      unfold cat_encode. destruct (cat_find vs (t_class node)) as [k|] eqn:Ek.
      2:{ by apply cat_find_none in Ek. }
      cbn [mbind res_bind fst snd]. rewrite (update_attr_same _ _ _ _ _ Hp). cbn [mbind res_bind].
      destruct (predicted_set _ _ _ _ _ i (pack_u64 (N.of_nat k)) Hp Hlt) as (d' & -> & Hp'); [done|].
      cbn [mbind res_bind]. exists (d', CatA name vs), (t_class node).
      split; [done|]. split; [done|]. split; [|eauto]. split; [|done]. cbn [fst]. split.
      - eapply predicted_ext; [|exact Hp']. intros j. cbn beta.
        destruct (decide (j = i)) as [->|Hne].
        + rewrite bool_decide_eq_true_2, fn_lookup_insert by done. cbn. by rewrite Ek.
        + by rewrite bool_decide_eq_false_2, fn_lookup_insert_ne by done.
      - intros j s. destruct (decide (j = i)) as [->|Hne].
        + rewrite fn_lookup_insert. by intros [= <-].
        + rewrite fn_lookup_insert_ne by done. apply Hlin. }
    { done. }
    cbn [mbind res_bind fst]. exists st.1. split; [done|]. split.
    { destruct Hret as [(_ & Hmr & _) _]. done. }
    intros order i Ho Hi. destruct (Hin i) as (l & Hl & node & Hnode & ->).
    { rewrite Hfst. apply elem_of_seq. lia. }
    exists node. split; [done|].
    by eapply labels_predicted_get; [exact Hret|done|done|done|apply P].
  Qed.
End predict.

Lemma describes_majority show g label rows t :
  describes show g label rows t → rows ≠ [] → majority label rows (t_class t).
Proof. intros H Hne. by apply describes_class in H as [_ H]; apply H. Qed.

Lemma predict_described show parse cord ao pg wo g what vs label rows t :
  any_order cord → any_order ao → (∀ i j, any_order (wo i j)) →
  predictable show g what vs → describes show g label rows t → rows ≠ [] →
  (∀ r, r ∈ rows → label r ∈ vs) →
  ∃ ret, predict show parse cord ao pg wo t what = Ok ret ∧ (dense_size ret).2 = (gr_size what).2 ∧
    ∀ order i, class_order ret order → i < (gr_size what).2 →
      ∃ rows' cl, rows' ⊆ rows ∧ majority label rows' cl ∧
        get_class show (dense_grid order ret) i = Ok cl.
Proof.
  intros Hcord Hao Hwo P Hd Hne Hvs.
  destruct (predict_ok show parse cord ao pg g what vs Hcord Hao P wo t) as (ret & Hret & Hsz & Hget).
  { intros i Hi. destruct (walk_ok show g what vs label wo i 0 rows t P Hi Hwo Hd Hne)
      as (node & rows' & Hw & _ & Hd' & Hne' & Hsub).
    exists node. split; [done|].
    destruct (describes_majority _ _ _ _ _ Hd' Hne') as [Hm _].
    apply elem_of_list_fmap in Hm as (r & -> & Hr). by apply Hvs, Hsub. }
  exists ret. split; [done|]. split; [done|]. intros order i Ho Hi.
  destruct (Hget order i Ho Hi) as (node & Hnode & Hcl).
  destruct (walk_ok show g what vs label wo i 0 rows t P Hi Hwo Hd Hne)
    as (node' & rows' & Hw & _ & Hd' & Hne' & Hsub).
  assert (node' = node) as -> by congruence.
  exists rows', (t_class node). split; [done|]. split; [|done]. by apply (describes_majority show g).
Qed.

Lemma predict_training show parse cord ao pg wo g c vs label t :
  any_order cord → any_order ao → (∀ i j, any_order (wo i j)) →
  training show g c label → predictable show g g vs →
  describes show g label (seq 0 (gr_size g).2) t →
  (∀ r, r < (gr_size g).2 → label r ∈ vs) →
  ∃ ret, predict show parse cord ao pg wo t g = Ok ret ∧
    ∀ order i, class_order ret order → i < (gr_size g).2 →
      ∃ node rows, node_of node t ∧ describes show g label rows node ∧ t_children node = None ∧ i ∈ rows ∧
        get_class show (dense_grid order ret) i = Ok (t_class node).
Proof.
  intros Hcord Hao Hwo T P Hd Hvs.
  assert (∀ i, i < (gr_size g).2 → ∃ node rows', walk show wo g i 0 t = Ok node ∧ t_children node = None ∧
    describes show g label rows' node ∧ i ∈ rows' ∧ rows' ⊆ seq 0 (gr_size g).2 ∧ node_of node t) as Hw.
  { intros i Hi. apply (walk_training show g c label wo i 0 (seq 0 (gr_size g).2) t T Hi Hwo Hd).
    apply elem_of_seq. lia. }
  destruct (predict_ok show parse cord ao pg g g vs Hcord Hao P wo t) as (ret & Hret & Hsz & Hget).
  { intros i Hi. destruct (Hw i Hi) as (node & rows' & Hn & _ & Hd' & Hin & Hsub & _).
    exists node. split; [done|].
    destruct (describes_majority _ _ _ _ _ Hd') as [Hm _]; [by intros ->; apply elem_of_nil in Hin|].
    apply elem_of_list_fmap in Hm as (r & -> & Hr). apply Hvs. apply Hsub, elem_of_seq in Hr. lia. }
  exists ret. split; [done|]. intros order i Ho Hi.
  destruct (Hget order i Ho Hi) as (node & Hnode & Hcl).
  destruct (Hw i Hi) as (node' & rows' & Hn & Hleaf & Hd' & Hin & Hsub & Hof).
  assert (node' = node) as -> by congruence. exists node, rows'. done.
Qed.
