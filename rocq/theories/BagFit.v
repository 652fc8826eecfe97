(** Proofs about bagging: the selection of attributes, Fit and random forests. *)
From Verif Require Import Prelude AttrModel AttrSpec AttrProofs StoreModel DenseModel GridModel GridSpec
  DenseProofs GridProofs FilterModel RuleModel RuleSpec RuleProofs RuleRefs BagModel BagSpec.
Local Open Scope nat_scope.

(** ** Selection *)

Lemma non_class_candidates ao g : non_class_attrs ao g = candidates ao g.
Proof. done. Qed.

Lemma bag_draw_attrs fuel draw t attrs want ret :
  bag_draw fuel draw t attrs want ret = draw_attrs fuel draw t attrs (Z.to_nat want) ret.
Proof.
  revert t ret. induction fuel as [|fuel IH]; intros t ret; [done|]. cbn [bag_draw draw_attrs].
  assert ((want <=? Z.of_nat (length ret))%Z = (Z.to_nat want <=? length ret)) as ->.
  { destruct (want <=? _)%Z eqn:E; symmetry; [apply Nat.leb_le|apply Nat.leb_gt]; lia. }
  destruct (Z.to_nat want <=? length ret); [done|]. destruct attrs as [|a attrs]; [done|].
  destruct ((a :: attrs) !! draw t); [|done]. by rewrite !IH.
Qed.

(** How many attributes a model gets. *)
Definition wanted (want : Z) (from : grid) : nat :=
  if bool_decide (want = 0%Z) then length (others from) else Z.to_nat want.

Lemma training_attrs_spec ao fuel draw want from l :
  any_order ao → distinct_attrs (gr_all_attrs from) →
  training_attrs ao fuel draw want from = Ok l →
  ∃ feats, l = feats ++ gr_class_attrs from ∧ distinct_attrs feats ∧ feats ⊆ others from ∧
    length feats = wanted want from.
Proof.
  intros Hao Hd. unfold training_attrs. rewrite non_class_candidates.
  destruct (candidates_perm ao from Hao Hd) as [Hp Hc]. fold (others from) in Hp. cbv zeta.
  rewrite bind_Ok. intros (feats & Hf & [= <-]). exists feats. split; [done|]. unfold wanted.
  destruct (want =? 0)%Z eqn:E.
  - injection Hf as <-. apply Z.eqb_eq in E. rewrite bool_decide_true by done.
    split; [done|]. split; [by intros a; rewrite Hp|by apply Permutation_length].
  - apply Z.eqb_neq in E. rewrite bool_decide_false by done. rewrite bag_draw_attrs in Hf.
    destruct (draw_attrs _ _ _ _ _ _) as [r|] eqn:Er; [|done]. subst r.
    destruct (draw_attrs_spec _ _ _ _ _ _ _ Er) as (H1 & H2 & H3).
    + intros i j a b Hi. by rewrite lookup_nil in Hi.
    + intros a Ha. by apply elem_of_nil in Ha.
    + cbn. lia.
    + split; [done|]. split; [|done]. intros a Ha. rewrite <- Hp. by apply H2.
Qed.

Lemma training_attrs_ends ao draw want from :
  any_order ao → distinct_attrs (gr_all_attrs from) → (want ≤ Z.of_nat (length (others from)))%Z →
  fair (length (others from)) draw →
  ∃ fuel l, ∀ extra, training_attrs ao (fuel + extra) draw want from = Ok l.
Proof.
  intros Hao Hd Hk Hf. destruct (candidates_perm ao from Hao Hd) as [Hp Hc].
  pose proof (Permutation_length Hp) as Hl. fold (others from) in Hp, Hl.
  destruct (draw_attrs_ends draw (candidates ao from) (Z.to_nat want) Hc) with (n := Z.to_nat want) (acc := @nil attr) (t := 0) as (fuel & l & H).
  - lia.
  - by rewrite Hl.
  - cbn. lia.
  - unfold training_attrs. rewrite non_class_candidates. cbv zeta. destruct (want =? 0)%Z.
    + by eexists 0, _.
    + exists fuel. eexists. intros extra. rewrite bag_draw_attrs, (draw_attrs_more _ extra _ _ _ _ _ _ H). done.
Qed.

Lemma training_attrs_hangs ao draw want from :
  any_order ao → distinct_attrs (gr_all_attrs from) → others from ≠ [] →
  (Z.of_nat (length (others from)) < want)%Z → (∀ t, draw t < length (others from)) →
  ∀ fuel, training_attrs ao fuel draw want from = Err.
Proof.
  intros Hao Hd Hne Hk Hdraw fuel. destruct (candidates_perm ao from Hao Hd) as [Hp Hc].
  pose proof (Permutation_length Hp) as Hl. fold (others from) in Hp, Hl.
  unfold training_attrs. rewrite non_class_candidates. cbv zeta.
  destruct (want =? 0)%Z eqn:E; [lia|]. rewrite bag_draw_attrs.
  rewrite (draw_attrs_hangs draw (candidates ao from) (Z.to_nat want)); [done|done| | | | |].
  - intros E'. rewrite E' in Hl. by destruct (others from).
  - rewrite Hl. lia.
  - by rewrite Hl.
  - intros i j a b Hi. by rewrite lookup_nil in Hi.
  - intros a Ha. by apply elem_of_nil in Ha.
Qed.

(** ** Training instances *)

Lemma sampled_lookup (draws : nat → nat) n (m : gmap nat nat) r :
  foldl (λ m i, <[i := draws i]> m) m (seq 0 n) !! r = if r <? n then Some (draws r) else m !! r.
Proof.
  induction n as [|n IH]; [done|]. rewrite seq_S, foldl_app. cbn [foldl Nat.add].
  destruct (decide (r = n)) as [->|Hne].
  - rewrite lookup_insert. by replace (n <? S n) with true by (symmetry; apply Nat.ltb_lt; lia).
  - rewrite lookup_insert_ne by done. rewrite IH.
    destruct (r <? n) eqn:E1, (r <? S n) eqn:E2; try done; lia.
Qed.

Lemma sampled_size (draws : nat → nat) n :
  size (foldl (λ m i, <[i := draws i]> m) (∅ : gmap nat nat) (seq 0 n)) = n.
Proof.
  induction n as [|n IH]; [done|]. rewrite seq_S, foldl_app. cbn [foldl Nat.add].
  rewrite map_size_insert_None; [by rewrite IH|]. rewrite sampled_lookup.
  replace (n <? n) with false by (symmetry; apply Nat.ltb_ge; lia). done.
Qed.

Lemma others_all from a : a ∈ others from → a ∈ gr_all_attrs from.
Proof. unfold others. rewrite elem_of_list_filter. tauto. Qed.

(** Resolving attributes that are found under themselves. *)
Lemma resolve_own g l : finds_own g → l ⊆ gr_all_attrs g →
  ∃ specs, resolve g l = Ok specs ∧ map sp_attr specs = l.
Proof.
  intros Hg. unfold resolve. induction l as [|a l IH]; intros Hl; [by exists []|].
  destruct (Hg a) as (s & Hs & Ha); [apply Hl; by left|].
  destruct IH as (specs & H & Hm); [intros b Hb; apply Hl; by right|].
  exists (s :: specs). cbn [res_mapM]. rewrite Hs. cbn [mbind res_bind]. rewrite H.
  split; [done|]. cbn [map]. by rewrite Ha, Hm.
Qed.

Lemma training_instances_spec ao co ro fuel drawr drawa want from sel l :
  any_order ao → any_order co → distinct_attrs (gr_all_attrs from) → finds_own from → gr_class_attrs from ⊆ gr_all_attrs from →
  NoDup (gr_class_attrs from) →
  training_instances ao co ro fuel drawr drawa want from = Ok (sel, l) →
  ∃ feats, sel = feats ++ gr_class_attrs from ∧ distinct_attrs feats ∧ feats ⊆ others from ∧
    length feats = wanted want from ∧
    gr_all_attrs l = sel ∧ gr_class_attrs l ≡ₚ gr_class_attrs from ∧
    gr_size l = (length sel, (gr_size from).2) ∧
    ∀ r s, r < (gr_size from).2 → gr_get l s r = gr_get from s (drawr r).
Proof.
  intros Hao Hco Hd Hown Hcls Hnd. unfold training_instances. rewrite bind_Ok. intros (insts & Hi & H).
  apply bind_Ok in H as (sel' & Hsel & H). apply bind_Ok in H as (v & Hv & [= -> <-]).
  destruct (training_attrs_spec _ _ _ _ _ _ Hao Hd Hsel) as (feats & -> & H1 & H2 & H3).
  exists feats. split; [done|]. split; [done|]. split; [done|]. split; [done|].
  unfold sample_with_replacement in Hi. destruct (_ && _); [done|]. injection Hi as <-.
  unfold view_from_attrs in Hv. apply bind_Ok in Hv as (specs & Hspecs & [= <-]).
  assert (feats ++ gr_class_attrs from ⊆ gr_all_attrs from) as Hsub.
  { intros a Ha. apply elem_of_app in Ha as [Ha|Ha]; [by apply others_all, H2|by apply Hcls]. }
  destruct (resolve_own from _ Hown Hsub) as (specs0 & Hs' & Hm).
  change (resolve (view_grid co ro _) (feats ++ gr_class_attrs from))
    with (resolve from (feats ++ gr_class_attrs from)) in Hspecs.
  rewrite Hs' in Hspecs. injection Hspecs as <-.
  split; [exact Hm|]. split; [|split].
  - cbn [view_grid gr_class_attrs]. unfold view_class_attrs. rewrite (Hco _). cbn [v_class].
    unfold class_from_src. cbn [view_grid gr_class_attrs]. unfold view_class_attrs. cbn [view_from_rows v_class].
    unfold class_from_src.
    set (cls := gr_class_attrs from) in *.
    assert (filter (λ _ : attr, true = true) cls = cls) as E1.
    { clear. induction cls as [|a cls IH]; [done|]. rewrite filter_cons_True by done. by rewrite IH. }
    assert (∀ f : attr → bool, (∀ a, a ∈ cls → f a = true) → ∀ l, l ≡ₚ cls → filter (λ a, f a = true) l = l) as E2.
    { intros f Hf l Hl. assert (∀ a, a ∈ l → f a = true) as Hf' by (intros a Ha; apply Hf; by rewrite <- Hl).
      clear -Hf'. induction l as [|a l IH]; [done|]. rewrite filter_cons_True by (apply Hf'; by left).
      rewrite IH; [done|]. intros b Hb. apply Hf'. by right. }
    assert (∀ l : list attr, NoDup l → remove_dups l = l) as E3.
    { clear. intros l Hl. induction Hl as [|a l Ha _ IH]; [done|]. cbn [remove_dups].
      rewrite IH. case_decide; [done|]. done. }
    rewrite E1, (E3 cls Hnd). rewrite (E2 (λ a, spec_matched a specs0)); [| |apply Hco].
    + rewrite E3; [apply Hco|]. by rewrite (Hco _).
    + intros a Ha. unfold spec_matched. apply existsb_exists.
      assert (a ∈ map sp_attr specs0) as Hin by (rewrite Hm; apply elem_of_app; by right).
      apply elem_of_list_fmap in Hin as (s & -> & Hs). exists s. split; [by apply elem_of_list_In|apply attr_equals_refl].
  - cbn [view_grid gr_size]. unfold view_size. cbn [v_src v_attrs v_rows v_mask view_grid gr_size view_from_rows].
    unfold view_size. cbn [v_src v_attrs v_rows v_mask view_from_rows].
    rewrite sampled_size. destruct (gr_size from) as [h n]. cbn [snd]. rewrite Nat.ltb_irrefl.
    f_equal. apply (f_equal length) in Hm. by rewrite map_length in Hm.
  - intros r s Hr. cbn [view_grid gr_get]. unfold view_get. cbn [resolve_row v_rows v_src view_grid gr_get].
    unfold view_get, resolve_row. cbn [v_rows v_src view_from_rows]. rewrite sampled_lookup.
    by replace (r <? (gr_size from).2) with true by (symmetry; by apply Nat.ltb_lt).
Qed.

(** ** Fit *)

Section fitting.
  Context (ao co : list attr → list attr) (ro : list nat → list nat) {C : Type} (fit : C → grid → res C).
  Context (fuel : nat) (drawr drawa : nat → nat → nat) (want : Z) (from : grid).

  Definition trained_one (models : list C) (i : nat) : res (C * list attr) :=
    c ← idx models i;
    l ← training_instances ao co ro fuel (drawr i) (drawa i) want from;
    c' ← fit_ignoring fit c l.2;
    Ok (c', l.1).

  Lemma fit_model_one b i : fit_model ao co ro fit fuel drawr drawa want from b i =
    (p ← trained_one (bg_models b) i; Ok (Bag (<[i := p.1]> (bg_models b)) (<[i := p.2]> (bg_selected b)))).
  Proof.
    unfold fit_model, trained_one. destruct (idx _ _); [|done|done]. cbn [mbind res_bind].
    destruct (training_instances _ _ _ _ _ _ _ _); [|done|done]. cbn [mbind res_bind].
    by destruct (fit_ignoring _ _ _).
  Qed.

  Lemma fold_fit order b b' : NoDup order →
    res_foldl (fit_model ao co ro fit fuel drawr drawa want from) b order = Ok b' ↔
    (∀ i, i ∈ order → ∃ p, trained_one (bg_models b) i = Ok p ∧
       bg_models b' !! i = Some p.1 ∧ bg_selected b' !! i = Some p.2) ∧
    (∀ i, i ∉ order → bg_models b' !! i = bg_models b !! i ∧ bg_selected b' !! i = bg_selected b !! i) ∧
    length (bg_models b') = length (bg_models b).
  Proof.
    revert b. induction order as [|i order IH]; intros b Hnd.
    - cbn [res_foldl]. split.
      + intros [= <-]. split; [|done]. intros i Hi. by apply elem_of_nil in Hi.
      + intros (_ & H & _). destruct b as [ms sel], b' as [ms' sel']. cbn in *. f_equal. f_equal.
        * apply list_eq. intros i. symmetry. apply H. apply not_elem_of_nil.
        * apply map_eq. intros i. symmetry. apply H. apply not_elem_of_nil.
    - apply NoDup_cons in Hnd as [Hni Hnd]. cbn [res_foldl]. rewrite fit_model_one.
      assert (∀ (p : C * list attr) j, j ≠ i → trained_one (<[i := p.1]> (bg_models b)) j = trained_one (bg_models b) j) as Hone.
      { intros p j Hj. unfold trained_one, idx. by rewrite list_lookup_insert_ne. }
      split.
      + rewrite bind_Ok. intros (b1 & H1 & H2). apply bind_Ok in H1 as (p & Hp & [= <-]).
        apply IH in H2 as (Hin & Hout & Hlen); [|done]. cbn [bg_models bg_selected] in *.
        rewrite insert_length in Hlen. split; [|split; [|done]].
        * intros j Hj. apply elem_of_cons in Hj as [->|Hj].
          -- exists p. split; [done|]. destruct (Hout i Hni) as [-> ->]. rewrite lookup_insert.
             split; [|done]. apply list_lookup_insert. unfold trained_one in Hp.
             apply bind_Ok in Hp as (c & Hc & _). unfold idx in Hc.
             destruct (bg_models b !! i) eqn:E; [|done]. by eapply lookup_lt_Some.
          -- destruct (Hin j Hj) as (q & Hq & H). exists q. rewrite Hone in Hq; [done|]. by intros ->.
        * intros j Hj. apply not_elem_of_cons in Hj as [Hne Hj]. destruct (Hout j Hj) as [-> ->].
          rewrite list_lookup_insert_ne, lookup_insert_ne by done. done.
      + intros (Hin & Hout & Hlen). destruct (Hin i) as (p & Hp & Hpm & Hps); [by left|].
        rewrite Hp. cbn [mbind res_bind]. apply IH; [done|]. cbn [bg_models bg_selected]. rewrite insert_length.
        split; [|split; [|done]].
        * intros j Hj. rewrite Hone by (by intros ->). apply Hin. by right.
        * intros j Hj. destruct (decide (j = i)) as [->|Hne].
          -- rewrite lookup_insert, Hpm, Hps. split; [|done]. symmetry. apply list_lookup_insert.
             rewrite <- Hlen. by eapply lookup_lt_Some.
          -- rewrite list_lookup_insert_ne, lookup_insert_ne by done. apply Hout.
             by apply not_elem_of_cons.
  Qed.

  Lemma bag_fit_order order order' b b' : order ≡ₚ order' → NoDup order →
    bag_fit ao co ro fit order fuel drawr drawa want b from = Ok b' →
    bag_fit ao co ro fit order' fuel drawr drawa want b from = Ok b'.
  Proof.
    intros Hp Hnd H. unfold bag_fit in *. apply fold_fit in H; [|done]. apply fold_fit; [by rewrite <- Hp|].
    destruct H as (H1 & H2 & H3). split; [|split; [|done]].
    - intros i Hi. apply H1. by rewrite Hp.
    - intros i Hi. apply H2. by rewrite Hp.
  Qed.

  Lemma bag_fit_spec order b b' i :
    any_order ao → any_order co → distinct_attrs (gr_all_attrs from) → finds_own from →
    gr_class_attrs from ⊆ gr_all_attrs from → NoDup (gr_class_attrs from) →
    order ≡ₚ seq 0 (length (bg_models b)) → i < length (bg_models b) →
    bag_fit ao co ro fit order fuel drawr drawa want b from = Ok b' →
    length (bg_models b') = length (bg_models b) ∧
    ∃ feats l c c',
      bg_selected b' !! i = Some (feats ++ gr_class_attrs from) ∧
      distinct_attrs feats ∧ feats ⊆ others from ∧ length feats = wanted want from ∧
      gr_all_attrs l = feats ++ gr_class_attrs from ∧ gr_class_attrs l ≡ₚ gr_class_attrs from ∧
      (gr_size l).2 = (gr_size from).2 ∧
      (∀ r s, r < (gr_size from).2 → gr_get l s r = gr_get from s (drawr i r)) ∧
      bg_models b !! i = Some c ∧ fit_ignoring fit c l = Ok c' ∧ bg_models b' !! i = Some c'.
  Proof.
    intros Hao Hco Hd Hown Hcls Hnd Ho Hi H. unfold bag_fit in H.
    apply fold_fit in H; [|rewrite Ho; apply NoDup_seq]. cbn [bg_models] in H. destruct H as (Hin & _ & Hlen).
    split; [done|]. destruct (Hin i) as ([c' sel] & Hone & Hm & Hs).
    { rewrite Ho. apply elem_of_seq. lia. }
    unfold trained_one in Hone. apply bind_Ok in Hone as (c & Hc & Hone).
    apply bind_Ok in Hone as ([sel' l] & Hl & Hone). apply bind_Ok in Hone as (c'' & Hf & [= -> ->]).
    destruct (training_instances_spec _ _ _ _ _ _ _ _ _ _ Hao Hco Hd Hown Hcls Hnd Hl)
      as (feats & -> & H1 & H2 & H3 & H4 & H5 & H6 & H7).
    cbn [fst snd] in *. exists feats, l, c, c'. rewrite H6. unfold idx in Hc.
    destruct (bg_models b !! i) as [x|]; [|done]. injection Hc as ->. done.
  Qed.
End fitting.

(** ** Random forests *)

Lemma add_models {C} (tree : C) k b :
  foldl (λ b _, add_model b tree) b (seq 0 k) = Bag (bg_models b ++ replicate k tree) (bg_selected b).
Proof.
  generalize 0. revert b. induction k as [|k IH]; intros b o.
  - cbn. rewrite app_nil_r. by destruct b.
  - cbn [seq foldl]. rewrite IH. cbn [add_model bg_models bg_selected replicate]. by rewrite <- app_assoc.
Qed.

Lemma others_candidates ao on : any_order ao → distinct_attrs (gr_all_attrs on) →
  length (non_class_attrs ao on) = length (others on).
Proof.
  intros Hao Hd. rewrite non_class_candidates. destruct (candidates_perm ao on Hao Hd) as [Hp _].
  by apply Permutation_length in Hp.
Qed.

Section forest.
  Context (ao co : list attr → list attr) (ro : list nat → list nat) {C : Type} (fit : C → grid → res C).
  Context (drawr drawa : nat → nat → nat) (tree : C) (size features : Z) (model : option (bag C)) (on : grid).
  Context (Hao : any_order ao) (Hd : distinct_attrs (gr_all_attrs on)).

  Lemma forest_rejects order fuel : (Z.of_nat (length (others on)) < features)%Z →
    forest_fit ao co ro fit order fuel drawr drawa tree size features model on = Ok (model, true).
  Proof using Hao Hd.
    intros H. unfold forest_fit. rewrite (others_candidates ao on Hao Hd). destruct (_ <? _)%Z eqn:E; [done|lia].
  Qed.

  Lemma forest_accepts order fuel model' err : (features ≤ Z.of_nat (length (others on)))%Z →
    forest_fit ao co ro fit order fuel drawr drawa tree size features model on = Ok (model', err) →
    err = false ∧ ∃ b, model' = Some b ∧
      bag_fit ao co ro fit order fuel drawr drawa features (Bag (replicate (Z.to_nat size) tree) ∅) on = Ok b.
  Proof using Hao Hd.
    intros H. unfold forest_fit. rewrite (others_candidates ao on Hao Hd). destruct (_ <? _)%Z eqn:E; [lia|].
    cbv zeta. rewrite add_models. cbn [bg_models bg_selected app]. rewrite bind_Ok.
    intros (b & Hb & [= <- <-]). split; [done|]. by exists b.
  Qed.
End forest.

(** ** Fit returns *)

Lemma bound_choice (P : nat → nat → Prop) m :
  (∀ i, i < m → ∃ f, ∀ extra, P i (f + extra)) → ∃ f, ∀ i extra, i < m → P i (f + extra).
Proof.
  induction m as [|m IH]; intros H; [exists 0; intros; lia|].
  destruct IH as (f & Hf); [intros i Hi; apply H; lia|]. destruct (H m) as (g & Hg); [lia|].
  exists (f + g). intros i extra Hi. destruct (decide (i = m)) as [->|Hne].
  - replace (f + g + extra) with (g + (f + extra)) by lia. apply Hg.
  - replace (f + g + extra) with (f + (g + extra)) by lia. apply Hf. lia.
Qed.

Lemma training_instances_ends ao co ro drawr drawa want from :
  any_order ao → distinct_attrs (gr_all_attrs from) → finds_own from → gr_class_attrs from ⊆ gr_all_attrs from →
  (want ≤ Z.of_nat (length (others from)))%Z → fair (length (others from)) drawa →
  ∃ fuel, ∀ extra, ∃ p, training_instances ao co ro (fuel + extra) drawr drawa want from = Ok p.
Proof.
  intros Hao Hd Hown Hcls Hw Hf. destruct (training_attrs_ends ao drawa want from Hao Hd Hw Hf) as (fuel & l & H).
  exists fuel. intros extra. unfold training_instances.
  assert ((0 <? (gr_size from).2) && ((gr_size from).2 =? 0) = false) as E.
  { destruct (gr_size from).2; done. }
  unfold sample_with_replacement. rewrite E. cbn [mbind res_bind]. rewrite H. cbn [mbind res_bind].
  destruct (training_attrs_spec _ _ _ _ _ _ Hao Hd (H 0)) as (feats & -> & _ & Hsub & _).
  unfold view_from_attrs.
  change (resolve (view_grid co ro (view_from_rows ?a ?b)) ?x) with (resolve a x).
  destruct (resolve_own from (feats ++ gr_class_attrs from) Hown) as (specs & -> & _).
  { intros a Ha. apply elem_of_app in Ha as [Ha|Ha]; [by apply others_all, Hsub|by apply Hcls]. }
  by eexists.
Qed.

Lemma bag_fit_ends ao co ro {C} (fit : C → grid → res C) order drawr drawa want b from :
  any_order ao → distinct_attrs (gr_all_attrs from) → finds_own from → gr_class_attrs from ⊆ gr_all_attrs from →
  (want ≤ Z.of_nat (length (others from)))%Z →
  order ≡ₚ seq 0 (length (bg_models b)) →
  (∀ i, i < length (bg_models b) → fair (length (others from)) (drawa i)) →
  (∀ c g, fit c g ≠ Panic) →
  ∃ fuel, ∀ extra, ∃ b', bag_fit ao co ro fit order (fuel + extra) drawr drawa want b from = Ok b'.
Proof.
  intros Hao Hd Hown Hcls Hw Ho Hf Hfit.
  destruct (bound_choice (λ i fuel, ∃ p, training_instances ao co ro fuel (drawr i) (drawa i) want from = Ok p) (length (bg_models b)))
    as (fuel & Hfuel).
  { intros i Hi. apply training_instances_ends; try done. by apply Hf. }
  exists fuel. intros extra. unfold bag_fit.
  assert (∀ i, i ∈ order → i < length (bg_models b)) as Hin.
  { intros i Hi. rewrite Ho in Hi. apply elem_of_seq in Hi. lia. }
  clear Ho. set (b0 := Bag (bg_models b) ∅).
  assert (length (bg_models b0) = length (bg_models b)) as Hlen by done. clearbody b0.
  revert b0 Hlen. induction order as [|i order IH]; intros b0 Hlen; [by exists b0|].
  cbn [res_foldl]. assert (i < length (bg_models b)) as Hi by (apply Hin; by left).
  destruct (Hfuel i extra Hi) as (p & Hp).
  destruct (lookup_lt_is_Some_2 (bg_models b0) i) as [c Hc]; [lia|].
  rewrite fit_model_one. unfold trained_one, idx. rewrite Hc. cbn [mbind res_bind]. rewrite Hp. cbn [mbind res_bind].
  assert (∃ c', fit_ignoring fit c p.2 = Ok c') as (c' & ->).
  { unfold fit_ignoring. pose proof (Hfit c p.2). destruct (fit c p.2); [by eexists|by eexists|done]. }
  cbn [mbind res_bind]. apply IH.
  - intros j Hj. apply Hin. by right.
  - cbn [bg_models]. by rewrite insert_length.
Qed.

(** MapOverRows on the training instances goes through the source itself. *)
Lemma training_instances_iter ao co ro fuel drawr drawa want from sel l asv :
  training_instances ao co ro fuel drawr drawa want from = Ok (sel, l) → gr_iter l asv = gr_iter from asv.
Proof.
  unfold training_instances. rewrite bind_Ok. intros (insts & Hi & H).
  apply bind_Ok in H as (sel' & Hsel & H). apply bind_Ok in H as (v & Hv & [= -> <-]).
  unfold sample_with_replacement in Hi. destruct (_ && _); [done|]. injection Hi as <-.
  unfold view_from_attrs in Hv. apply bind_Ok in Hv as (specs & Hspecs & [= <-]). done.
Qed.

Lemma bag_fit_length {C} ao co ro (fit : C → grid → res C) order fuel drawr drawa want b from b' :
  NoDup order → bag_fit ao co ro fit order fuel drawr drawa want b from = Ok b' →
  length (bg_models b') = length (bg_models b).
Proof. intros Hnd H. unfold bag_fit in H. apply fold_fit in H as (_ & _ & H); done. Qed.

Lemma prediction_instances_spec co ro selected i feats from what :
  selected !! i = Some (feats ++ gr_class_attrs from) → finds_own what → feats ++ gr_class_attrs from ⊆ gr_all_attrs what →
  ∃ l, prediction_instances co ro selected i what = Ok l ∧ gr_all_attrs l = feats ++ gr_class_attrs from ∧
    (gr_size l).2 = (gr_size what).2 ∧ ∀ s r, gr_get l s r = gr_get what s r.
Proof.
  intros Hs Hown Hsub. unfold prediction_instances. rewrite Hs. cbn [default from_option id].
  change (default [] (Some (feats ++ gr_class_attrs from))) with (feats ++ gr_class_attrs from).
  destruct (resolve_own what _ Hown Hsub) as (specs & H & Hm). unfold view_from_attrs. rewrite H.
  cbn [mbind res_bind]. eexists. split; [done|]. split; [exact Hm|]. split.
  - cbn [view_grid gr_size]. unfold view_size. cbn [v_src v_rows]. by destruct (gr_size what).
  - done.
Qed.
