(** Lemmas about copies of instances. *)
From Verif Require Import Prelude BytesModel BytesProofs FloatModel AttrModel AttrSpec AttrProofs StoreModel
  StoreProofs DenseModel DenseSpec DenseProofs GridModel GridSpec CsvModel CsvProofs ArffProofs
  CopyModel CopySpec.
From stdpp Require Import pretty.
From Flocq Require Import IEEE754.Bits IEEE754.Binary.
Local Open Scope nat_scope.

Lemma distinct_attrs_perm l l' : l ≡ₚ l' → distinct_attrs l' → distinct_attrs l.
Proof.
  intros Hp Hd. apply Permutation_inj in Hp as (_ & f & Hf & Hl). intros i j a b Hi Hj He.
  rewrite Hl in Hi, Hj. apply Hf. by eapply Hd.
Qed.

Lemma copy_attrs_spec pg of attrs : ∀ d,
  (∀ a, a ∈ attrs → ∃ s, gr_get_attribute of a = Ok s) → ∀ d1 s2, add_all pg d attrs = Ok (d1, s2) →
  ∃ s1, copy_attrs pg of d attrs = Ok (d1, s1, s2) ∧ Forall2 (λ a s, gr_get_attribute of a = Ok s) attrs s1.
Proof.
  induction attrs as [|a attrs IH]; intros d Ha d1 s2 H; cbn [add_all copy_attrs] in *.
  - injection H as <- <-. exists []. split; [done|constructor].
  - apply bind_Ok in H as ([d0 s] & Hadd & H). apply bind_Ok in H as ([d2 ss] & Hr & H).
    injection H as <- <-. cbn [fst snd] in *. destruct (Ha a) as [sa Hsa]; [left|].
    rewrite Hsa, Hadd. cbn [mbind res_bind fst snd].
    destruct (IH d0) with (2 := Hr) as (s1 & -> & Hs1); [intros; apply Ha; by right|].
    cbn [mbind res_bind fst snd]. eauto.
Qed.

Lemma add_all_sp_attr pg attrs : ∀ d d1 specs,
  add_all pg d attrs = Ok (d1, specs) → map sp_attr specs = attrs.
Proof.
  induction attrs as [|a attrs IH]; intros d d1 specs H; cbn [add_all] in H.
  - by injection H as <- <-.
  - apply bind_Ok in H as ([d0 s] & Ha & H). apply bind_Ok in H as ([d2 ss] & Hr & H).
    injection H as <- <-. cbn [fst snd map] in *. f_equal; [|by eapply IH].
    unfold dense_add in Ha. destruct (d_fixed d); [done|].
    destruct (default_group pg d a) as [[[[f c] b] ag] bin].
    apply bind_Ok in Ha as (dd & _ & Ha). unfold add_in_group in Ha.
    apply bind_Ok in Ha as (p & _ & Ha). by injection Ha as <- <-.
Qed.

Lemma copy_classes_spec pg l : ∀ d,
  (∀ a, a ∈ l → ∃ s, dense_get_attribute d a = Ok s) →
  ∃ d', copy_classes d l = Ok d' ∧ dense_run pg d (map (λ a, DClass a true) l) = Ok d' ∧
    d_ags d' = d_ags d ∧ d_maxrow d' = d_maxrow d ∧
    ∀ k, d_class d' !! k = Some true ↔
      d_class d !! k = Some true ∨ ∃ a s, a ∈ l ∧ dense_get_attribute d a = Ok s ∧ place s = k.
Proof.
  induction l as [|a l IH]; intros d Hl.
  - exists d. split_and!; try done. intros k. split; [by left|]. intros [?|(? & ? & Hin & _)]; [done|].
    by apply elem_of_nil in Hin.
  - destruct (Hl a) as [s Hs]; [left|]. cbn [copy_classes].
    assert (∃ d1, dense_set_class d a true = Ok d1 ∧ d_ags d1 = d_ags d ∧ d_maxrow d1 = d_maxrow d ∧
      d_class d1 = <[place s := true]> (d_class d)) as (d1 & H1 & H2 & H3 & H4).
    { unfold dense_set_class. rewrite Hs. cbn [mbind res_bind]. eexists. split; [done|]. done. }
    assert (∀ b, dense_get_attribute d1 b = dense_get_attribute d b) as Hg.
    { intros b. unfold dense_get_attribute. by rewrite H2. }
    destruct (IH d1) as (d' & I1 & I2 & I3 & I4 & I5).
    { intros b Hb. rewrite Hg. apply Hl. by right. }
    exists d'. rewrite H1. cbn [mbind res_bind]. split_and!; try congruence.
    + cbn [map dense_run res_foldl dense_step]. rewrite H1. cbn [mbind res_bind]. exact I2.
    + intros k. rewrite I5, H4, lookup_insert_Some. split.
      * intros [[[<- _]|[_ ?]]|(b & sb & Hb & Hsb & Hp)].
        -- right. exists a, s. split; [left|done].
        -- by left.
        -- right. exists b, sb. rewrite <- Hg. split; [by right|done].
      * intros [Hk|(b & sb & Hb & Hsb & Hp)].
        -- left. destruct (decide (place s = k)); [by left|by right].
        -- apply elem_of_cons in Hb as [->|Hb].
           ++ left. left. split; [|done]. congruence.
           ++ right. exists b, sb. rewrite Hg. done.
Qed.

(** ** The structure *)

Section structure.
  Context (pg : nat) (g : grid).
  Hypothesis Hdist : distinct_attrs (gr_all_attrs g).
  Hypothesis Hclass : ∀ a, a ∈ gr_class_attrs g → a ∈ gr_all_attrs g.
  Hypothesis Hfound : ∀ a, a ∈ gr_all_attrs g → ∃ s, gr_get_attribute g a = Ok s.

  Lemma copy_structure_ok : ∃ d s1 s2 base,
    copy_structure pg g = Ok (d, s1, s2) ∧
    same_structure g d ∧ d_maxrow d = 0 ∧
    Forall2 (λ a s, gr_get_attribute g a = Ok s) (gr_all_attrs g) s1 ∧
    map sp_attr s2 = gr_all_attrs g ∧ NoDup (map place s2) ∧
    (∀ o, o ∈ base → (∃ a, o = DAdd a) ∨ (∃ a, o = DClass a true)) ∧
    dense_run pg dense_new base = Ok d ∧
    (∀ s, s ∈ s2 → attr_at d (place s) = Some (sp_attr s)).
  Proof using All.
    destruct (add_all_succeeds pg (gr_all_attrs g) dense_new dense_wf_new eq_refl) as [[d0 s2] Hadd].
    destruct (add_all_spec _ _ _ _ _ Hadd) as (Hrun & _ & Hat0 & _ & Hnd & _).
    pose proof (add_all_attrs _ _ _ _ _ Hadd) as Hall. cbn in Hall. rewrite app_nil_r in Hall.
    pose proof (add_all_sp_attr _ _ _ _ _ Hadd) as Hsa.
    pose proof (add_all_rows _ _ _ _ Hadd) as Hrows. cbn [fst] in Hrows.
    destruct (copy_attrs_spec pg g (gr_all_attrs g) dense_new Hfound d0 s2 Hadd) as (s1 & Hcopy & Hs1).
    assert (∀ a, a ∈ gr_all_attrs g → ∃ s, dense_get_attribute d0 a = Ok s) as Hget0.
    { intros a Ha. apply dense_get_attribute_finds. by rewrite Hall. }
    destruct (copy_classes_spec pg (gr_class_attrs g) d0) as (d & C1 & C2 & C3 & C4 & C5).
    { intros a Ha. apply Hget0. by apply Hclass. }
    exists d, s1, s2, (map DAdd (gr_all_attrs g) ++ map (λ a, DClass a true) (gr_class_attrs g)).
    assert (∀ k, attr_at d k = attr_at d0 k) as Hat by (intros k; unfold attr_at; by rewrite C3).
    assert (dense_all_attrs d = dense_all_attrs d0) as Hda by (unfold dense_all_attrs; by rewrite C3).
    assert (∀ a, dense_get_attribute d a = dense_get_attribute d0 a) as Hga.
    { intros a. unfold dense_get_attribute. by rewrite C3. }
    assert (distinct_attrs (dense_all_attrs d0)) as Hd0.
    { by eapply distinct_attrs_perm. }
    (* the place and attribute found for an attribute *)
    assert (∀ a s, a ∈ gr_all_attrs g → dense_get_attribute d0 a = Ok s →
              sp_attr s = a ∧ attr_at d0 (place s) = Some a) as Hplace.
    { intros a s Ha Hs. apply elem_of_list_lookup in Ha as [j Hj].
      destruct (Forall2_lookup_l _ _ _ _ _ Hat0 Hj) as (s' & _ & Hs').
      destruct (dense_lookup_unique d0 (place s') a s Hd0 Hs' Hs) as [Hp Ha]. split; [done|].
      unfold place at 1. rewrite Hp. done. }
    split_and!; try done.
    - unfold copy_structure. rewrite Hcopy. cbn [mbind res_bind fst snd]. rewrite C1. done.
    - split; [by rewrite Hda|]. intros a Ha. destruct (Hget0 a Ha) as [s Hs].
      destruct (Hplace a s Ha Hs) as [Hsa' Hats].
      exists s. rewrite Hga. split_and!; try done.
      change (d_class d !! place s = Some true ↔ a ∈ gr_class_attrs g). rewrite C5.
      assert (d_class d0 = ∅) as ->.
      { rewrite (run_class pg _ _ _ Hrun); [done|]. intros o Ho.
        by apply elem_of_list_fmap in Ho as (b & -> & _). }
      split.
      + intros [[=]|(b & sb & Hb & Hsb & Hp)].
        destruct (Hplace b sb (Hclass b Hb) Hsb) as [_ Hatb]. rewrite Hp in Hatb.
        assert (a = b) as -> by congruence. done.
      + intros Hc. right. exists a, s. done.
    - rewrite C4, Hrows. done.
    - intros o Ho. apply elem_of_app in Ho as [Ho|Ho];
        apply elem_of_list_fmap in Ho as (a & -> & _); eauto.
    - rewrite dense_run_app, Hrun. exact C2.
    - intros s Hs. rewrite Hat. apply elem_of_list_lookup in Hs as [j Hj].
      destruct (Forall2_lookup_r _ _ _ _ _ Hat0 Hj) as (a & Ha & Hats).
      rewrite <- Hsa, list_lookup_fmap, Hj in Ha. injection Ha as <-. done.
  Qed.
End structure.

(** ** The rows *)

Lemma set_ready pg h d specs n s row b :
  ready pg h d specs n → s ∈ specs → row < n → right_size (default_kind (sp_attr s)) b →
  ∃ d', dense_set d s row b = Ok d' ∧ ready pg (h ++ [DSet s row b]) d' specs n.
Proof.
  intros [R1 R2 R3 R4] Hs Hrow Hb. pose proof (R4 s Hs) as Hat.
  destruct (attr_at_column d s _ Hat) as [g Hg].
  assert (g_kind g = default_kind (sp_attr s)) as Hk.
  { eapply (default_column_kind pg h d s g); [apply R1| | |exact Hg|].
    - intros a ag Hin. by apply R2 in Hin.
    - intros a ag Hin. by apply R2 in Hin.
    - destruct Hg as [Hg _]. unfold attr_at in Hat. cbn in Hat. by rewrite Hg in Hat. }
  destruct (dense_set_succeeds pg h d s g row b R1 Hg) as [d' Hd'].
  { lia. }
  { by rewrite Hk. }
  exists d'. split; [exact Hd'|].
  destruct (reachable_sets pg h d [DSet s row b] d' R1) as [Hr Ha].
  - cbn [dense_run res_foldl dense_step]. by rewrite Hd'.
  - intros o Ho. apply elem_of_list_singleton in Ho as ->. eexists _, _, _. split; [done|]. eauto.
  - split; [done| | |].
    + intros o Ho. apply elem_of_app in Ho as [Ho|Ho]; [by apply R2|].
      by apply elem_of_list_singleton in Ho as ->.
    + by rewrite (set_maxrow _ _ _ _ _ Hd').
    + intros s' Hs'. rewrite Ha. by apply R4.
Qed.

Lemma cells_ready pg all n row : row < n → ∀ specs vals,
  Forall2 (λ s v, s ∈ all ∧ right_size (default_kind (sp_attr s)) v) specs vals →
  ∀ h d, ready pg h d all n →
  ∃ d' sets, copy_cells specs d row vals = Ok d' ∧ ready pg (h ++ sets) d' all n ∧
    ∀ o, o ∈ sets ↔ ∃ j s v, specs !! j = Some s ∧ vals !! j = Some v ∧ o = DSet s row v.
Proof.
  intros Hrow specs vals H. induction H as [|s v specs vals [Hs Hv] H IH]; intros h d Hr.
  - exists d, []. rewrite app_nil_r. split; [done|]. split; [done|]. intros o. split.
    + intros Ho. by apply elem_of_nil in Ho.
    + by intros (j & ? & ? & Hj & _).
  - destruct (set_ready pg h d all n s row v Hr Hs Hrow Hv) as (d1 & Hd1 & Hr1).
    destruct (IH _ _ Hr1) as (d' & sets & Hc & Hr' & Hsets).
    exists d', (DSet s row v :: sets). cbn [copy_cells]. rewrite Hd1. cbn [mbind res_bind].
    split; [done|]. rewrite <- app_assoc in Hr'. split; [done|]. intros o. rewrite elem_of_cons, Hsets. split.
    + intros [->|(j & s' & v' & H1 & H2 & ->)].
      * by exists 0, s, v.
      * by exists (S j), s', v'.
    + intros ([|j] & s' & v' & H1 & H2 & ->).
      * cbn in H1, H2. left. congruence.
      * right. by exists j, s', v'.
Qed.

Lemma rows_ready pg specs n its :
  (∀ i f, (i, f) ∈ its → i < n ∧ ∃ vals, f = Ok vals ∧
     Forall2 (λ s v, right_size (default_kind (sp_attr s)) v) specs vals) →
  ∀ h d, ready pg h d specs n →
  ∃ d' sets, run_rows (λ d vals row, d ← copy_cells specs d row vals; Ok (d, Cont)) d its = Ok (d', false) ∧
    ready pg (h ++ sets) d' specs n ∧
    ∀ o, o ∈ sets ↔ ∃ i vals j s v, (i, Ok vals) ∈ its ∧ specs !! j = Some s ∧ vals !! j = Some v ∧
      o = DSet s i v.
Proof.
  induction its as [|[i f] its IH]; intros Hits h d Hr.
  - exists d, []. rewrite app_nil_r. split; [done|]. split; [done|]. intros o. split.
    + intros Ho. by apply elem_of_nil in Ho.
    + intros (? & ? & ? & ? & ? & Hin & _). by apply elem_of_nil in Hin.
  - destruct (Hits i f) as (Hi & vals & -> & Hvals); [left|].
    destruct (cells_ready pg specs n i Hi specs vals) with (h := h) (d := d) as (d1 & sets1 & H1 & Hr1 & Hs1); [|done|].
    { apply Forall2_same_length_lookup. split; [by eapply Forall2_length|].
      intros j s v Hs Hv. split; [by eapply elem_of_list_lookup_2|]. by eapply Forall2_lookup_lr in Hvals. }
    destruct (IH ltac:(intros i' f' Hin; apply Hits; by right) _ _ Hr1) as (d2 & sets2 & H2 & Hr2 & Hs2).
    exists d2, (sets1 ++ sets2). cbn [run_rows mbind res_bind]. rewrite H1. cbn [mbind res_bind]. rewrite H2.
    split; [done|]. rewrite app_assoc. split; [done|]. intros o. rewrite elem_of_app, Hs1, Hs2. split.
    + intros [(j & s & v & ? & ? & ->)|(i' & vals' & j & s & v & ? & ? & ? & ->)].
      * exists i, vals, j, s, v. split; [left|done].
      * exists i', vals', j, s, v. split; [by right|done].
    + intros (i' & vals' & j & s & v & Hin & ? & ? & ->). apply elem_of_cons in Hin as [[= -> ->]|Hin].
      * left. by exists j, s, v.
      * right. by exists i', vals', j, s, v.
Qed.

Lemma cell_of_size a v : cell_of a v → right_size (default_kind a) v.
Proof. destruct a; cbn; [done|done|]. by intros [-> | ->]. Qed.
Lemma cell_of_value a v : cell_of a v → cell_value (default_kind a) (Some v) = v.
Proof. destruct a; cbn; [done|done|]. by intros [-> | ->]. Qed.

Lemma same_structure_layout g d d' :
  d_ags d' = d_ags d → d_class d' = d_class d → same_structure g d → same_structure g d'.
Proof.
  intros H1 H2 [S1 S2]. split.
  - unfold dense_all_attrs in *. by rewrite H1.
  - intros a Ha. unfold dense_get_attribute in *. rewrite H1, H2. by apply S2.
Qed.

Lemma same_structure_lookup g d d' :
  (∀ k, attr_at d' k = attr_at d k) → dense_all_attrs d' = dense_all_attrs d → d_class d' = d_class d →
  distinct_attrs (gr_all_attrs g) → same_structure g d → same_structure g d'.
Proof.
  intros H1 H2 H3 Hd [S1 S2]. split; [by rewrite H2|].
  intros a Ha. destruct (S2 a Ha) as (s & Hs & Hsa & Hc).
  destruct (dense_get_attribute_finds d' a) as [s' Hs']; [by rewrite H2, S1|].
  assert (distinct_attrs (dense_all_attrs d')) as Hd'.
  { rewrite H2. by eapply distinct_attrs_perm. }
  destruct (dense_lookup_unique d' (place s) a s' Hd') as [Hp Ha']; [|done|].
  { rewrite H1. apply dense_get_attribute_ok in Hs as (Hx & _). unfold place. rewrite Hx. by f_equal. }
  exists s'. split_and!; try done. rewrite H3. unfold place in Hp. rewrite Hp. done.
Qed.

Lemma dense_copy_ok pg g :
  regular g → iter_agrees g →
  ∃ d, dense_copy pg g = Ok d ∧ (∃ h, reachable pg h d) ∧ same_structure g d ∧ same_cells g d.
Proof.
  intros [Hdist Hclass Hcells] Hit.
  destruct (copy_structure_ok pg g Hdist Hclass) as (d0 & s1 & s2 & base0 & Hcs & Hstruct & Hmax & Hs1 & Hsa & Hnd & Hbase & Hrun & Hat).
  { intros a Ha. destruct (Hcells a Ha) as (s & Hs & _). eauto. }
  unfold dense_copy. rewrite Hcs. cbn [mbind res_bind fst snd].
  set (n := (gr_size g).2) in *. set (dB := dense_extend d0 n).
  set (base := base0 ++ [DExtend n]).
  assert (∀ o, o ∈ base → (∃ a, o = DAdd a) ∨ (∃ a, o = DClass a true) ∨ o = DExtend n) as Hbase'.
  { intros o Ho. apply elem_of_app in Ho as [Ho|Ho]; [destruct (Hbase o Ho) as [?|?]; eauto|].
    apply elem_of_list_singleton in Ho. auto. }
  assert (reachable pg base dB) as HrB.
  { apply reachable_plain; [apply dense_run_snoc; eauto|].
    intros o Ho. destruct (Hbase' o Ho) as [[? ->]|[[? ->]| ->]]; done. }
  assert (∀ k, attr_at dB k = attr_at d0 k) as HatB.
  { intros k. unfold dB. apply (layout_attr_at d0), dense_extend_layout. }
  assert (ready pg base dB s2 n) as Hready.
  { split; [done| | |].
    - intros o Ho. destruct (Hbase' o Ho) as [[? ->]|[[? ->]| ->]]; done.
    - pose proof (dense_rows _ _ _ HrB) as Hrows. change ((dense_size dB).2) with (d_maxrow dB) in Hrows.
      rewrite Hrows. unfold base. rewrite rows_extended_snoc.
      assert (reachable pg base0 d0) as Hr0.
      { apply reachable_plain; [done|]. intros o Ho. destruct (Hbase o Ho) as [[? ->]|[? ->]]; done. }
      pose proof (dense_rows _ _ _ Hr0) as Hrows0. change ((dense_size d0).2) with (d_maxrow d0) in Hrows0. lia.
    - intros s Hs. rewrite HatB. by apply Hat. }
  destruct (Hit s1) as (its & Hits & Hperm & Hfetch).
  unfold map_over_rows. rewrite Hits.
  (* what a row holds *)
  assert (∀ i, i < n → ∃ vals, res_mapM (λ s, gr_get g s i) s1 = Ok vals ∧
            Forall2 (λ s v, gr_get g s i = Ok v) s1 vals ∧
            Forall2 (λ s v, cell_of (sp_attr s) v) s2 vals) as Hrow.
  { intros i Hi.
    assert (Forall2 (λ s s', ∃ v, gr_get g s i = Ok v ∧ cell_of (sp_attr s') v) s1 s2) as H12.
    { apply Forall2_same_length_lookup. split.
      - apply Forall2_length in Hs1. rewrite <- Hs1, <- Hsa. by rewrite map_length.
      - intros j x y Hx Hy. destruct (Forall2_lookup_r _ _ _ _ _ Hs1 Hx) as (a & Ha & Hg).
        destruct (Hcells a) as (s & Hs & Hv); [by eapply elem_of_list_lookup_2|].
        assert (s = x) as -> by congruence.
        rewrite <- Hsa, list_lookup_fmap, Hy in Ha. injection Ha as <-. by apply Hv. }
    clear -H12. induction H12 as [|x y s1 s2 (v & Hv & Hc) _ (vals & IH1 & IH2 & IH3)].
    - exists []. done.
    - exists (v :: vals). cbn [res_mapM]. rewrite Hv. cbn [mbind res_bind]. rewrite IH1. cbn.
      split; [done|]. split; by constructor. }
  assert (∀ i f, (i, f) ∈ its → i < n ∧ f = res_mapM (λ s, gr_get g s i) s1) as Hin.
  { intros i f Hf. split; [|by apply Hfetch].
    assert (i ∈ map fst its) as Hi by (apply elem_of_list_fmap; exists (i, f); done).
    rewrite Hperm in Hi. apply elem_of_seq in Hi. lia. }
  destruct (rows_ready pg s2 n its) with (h := base) (d := dB) as (d & sets & Hd & Hrdy & Hsets); [|done|].
  { intros i f Hf. destruct (Hin i f Hf) as [Hi ->]. split; [done|].
    destruct (Hrow i Hi) as (vals & -> & _ & Hc). exists vals. split; [done|].
    eapply Forall2_impl; [exact Hc|]. intros s v. apply cell_of_size. }
  rewrite Hd. cbn [mbind res_bind fst]. exists d. split; [done|].
  destruct Hrdy as [R1 R2 R3 R4]. split; [eauto|].
  assert (dense_run pg dB sets = Ok d) as Hrunsets.
  { destruct R1 as (Hx & _). rewrite dense_run_app in Hx. destruct HrB as (HB & _). rewrite HB in Hx. exact Hx. }
  assert (∀ o, o ∈ sets → ∃ s r v, o = DSet s r v ∧ s ∈ s2) as Hset.
  { intros o Ho. apply Hsets in Ho as (i & vals & j & s & v & _ & Hs & _ & ->). eexists _, _, _.
    split; [done|]. by eapply elem_of_list_lookup_2. }
  destruct (reachable_sets pg base dB sets d) as [_ Hatd]; [done|done| |].
  { intros o Ho. destruct (Hset o Ho) as (s & r & v & -> & Hs). eexists _, _, _. split; [done|].
    eapply attr_at_column. by apply (rd_specs _ _ _ _ _ Hready). }
  assert (dense_all_attrs d = dense_all_attrs dB) as Hdall.
  { apply layout_all_attrs. clear -Hrunsets Hset. revert d Hrunsets.
    induction sets as [|o sets IH] using rev_ind; intros d Hr.
    - by injection Hr as <-.
    - apply dense_run_snoc in Hr as (d2 & H1 & H2).
      rewrite <- (IH) with (d := d2); [| |done].
      + destruct (Hset o) as (s & r & v & -> & _); [set_solver|]. by eapply dense_set_layout.
      + intros o' Ho'. apply Hset. set_solver. }
  assert (d_class d = d_class dB) as Hdc.
  { apply (run_class pg sets); [done|]. intros o Ho. by destruct (Hset o Ho) as (? & ? & ? & -> & _). }
  assert (same_structure g d) as Hst.
  { apply (same_structure_lookup g d0); try done.
    - intros k. rewrite Hatd. apply HatB.
    - rewrite Hdall. unfold dB. apply layout_all_attrs, dense_extend_layout. }
  split; [done|]. split; [exact R3|].
  intros a s s' i Ha Hs Hs' Hi. fold n in Hi.
  assert (distinct_attrs (dense_all_attrs d)) as Hdd.
  { destruct Hst as [Hall _]. by eapply distinct_attrs_perm. }
  apply elem_of_list_lookup in Ha as [j Hj].
  assert (∃ sj, s2 !! j = Some sj ∧ sp_attr sj = a) as (sj & Hsj & Hsja).
  { rewrite <- Hsa, list_lookup_fmap in Hj. destruct (s2 !! j) as [sj|]; [|done]. injection Hj as <-. eauto. }
  assert (attr_at d (place sj) = Some a) as Hatj.
  { rewrite <- Hsja. apply R4. by eapply elem_of_list_lookup_2. }
  destruct (dense_lookup_unique d (place sj) a s' Hdd Hatj Hs') as [Hp _].
  destruct (Hrow i Hi) as (vals & Hvals & Hg & Hc).
  destruct (Forall2_lookup_l _ _ _ _ _ Hc Hsj) as (v & Hv & Hcv). rewrite Hsja in Hcv.
  assert (s1 !! j = Some s) as Hs1j.
  { destruct (Forall2_lookup_l _ _ _ _ _ Hs1 Hj) as (x & Hx & Hgx). congruence. }
  pose proof (Forall2_lookup_lr _ _ _ _ _ _ Hg Hs1j Hv) as Hgv. cbn in Hgv. rewrite Hgv.
  assert (attr_at d (place s') = Some a) as Hats' by (unfold place at 1; by rewrite Hp).
  destruct (attr_at_column d s' a Hats') as [gr Hgr].
  assert (i < d_maxrow d) as Hilt by (by rewrite R3).
  rewrite (dense_refines_table pg _ d s' gr i R1 Hgr Hilt).
  assert (g_kind gr = default_kind a) as ->.
  { eapply (default_column_kind pg _ d s' gr); [apply R1| | |exact Hgr|].
    - intros a' ag Hx. by apply R2 in Hx.
    - intros a' ag Hx. by apply R2 in Hx.
    - destruct Hgr as [Hgr _]. unfold attr_at in Hats'. cbn in Hats'. by rewrite Hgr in Hats'. }
  assert (last_write (base ++ sets) (sp_pond sj) (sp_pos sj) i = Some v) as Hlw.
  { rewrite last_write_base.
    2:{ intros o Ho. destruct (Hbase' o Ho) as [[? ->]|[[? ->]| ->]]; done. }
    apply last_write_unique.
    - apply Hsets. exists i, vals, j, sj, v. split_and!; try done.
      assert (i ∈ map fst its) as Hi' by (rewrite Hperm; apply elem_of_seq; lia).
      apply elem_of_list_fmap in Hi' as ([i' f] & -> & Hx). destruct (Hin i' f Hx) as [_ ->]. cbn [fst] in *.
      by rewrite Hvals in Hx.
    - intros sx b Hx Hpx. apply Hsets in Hx as (i2 & vals2 & j2 & s3 & v2 & Hx & Hs3 & Hv2 & [= -> -> ->]).
      assert (j2 = j) as ->.
      { eapply NoDup_lookup; [exact Hnd|rewrite list_lookup_fmap, Hs3; done|].
        rewrite list_lookup_fmap, Hsj. cbn. by rewrite Hpx. }
      destruct (Hin _ _ Hx) as [_ Hx2]. rewrite Hvals in Hx2. injection Hx2 as ->. congruence. }
  unfold place in Hp. injection Hp as E1 E2. rewrite E1, E2, Hlw. f_equal. by apply cell_of_value.
Qed.

Lemma structural_copy_ok pg g :
  distinct_attrs (gr_all_attrs g) → (∀ a, a ∈ gr_class_attrs g → a ∈ gr_all_attrs g) →
  (∀ a, a ∈ gr_all_attrs g → ∃ s, gr_get_attribute g a = Ok s) →
  ∃ d, structural_copy pg g = Ok d ∧ (∃ h, reachable pg h d) ∧ same_structure g d ∧ (dense_size d).2 = 0.
Proof.
  intros H1 H2 H3.
  destruct (copy_structure_ok pg g H1 H2 H3) as (d0 & s1 & s2 & base0 & Hcs & Hstruct & Hmax & _ & _ & _ & Hbase & Hrun & _).
  exists d0. unfold structural_copy. rewrite Hcs. split_and!; try done. exists base0.
  apply reachable_plain; [done|]. intros o Ho. destruct (Hbase o Ho) as [[? ->]|[? ->]]; done.
Qed.

(** ** DenseInstances are regular *)

Lemma dense_regular pg h d order :
  reachable pg h d → (∀ a ag, DAddTo a ag ∉ h) → (∀ n z, DCreateGroup n z ∉ h) →
  distinct_attrs (dense_all_attrs d) → regular (dense_grid order d).
Proof.
  intros Hr H1 H2 Hd. split.
  - exact Hd.
  - intros a Ha. cbn in *. revert Ha. induction order as [|[k b] order IH]; cbn; [by intros ?%elem_of_nil|].
    intros Ha. apply elem_of_app in Ha as [Ha|Ha]; [|by apply IH]. destruct b; [|by apply elem_of_nil in Ha].
    destruct (attr_at d k) as [a'|] eqn:E; [|by apply elem_of_nil in Ha].
    apply elem_of_list_singleton in Ha as ->. unfold attr_at in E. cbn in E.
    destruct (d_ags d !! k.1) as [g|] eqn:Eg; [|done].
    unfold dense_all_attrs. apply elem_of_list_In, in_concat. exists (g_attrs g).
    split; [apply in_map; by eapply elem_of_list_In, elem_of_list_lookup_2|].
    by eapply elem_of_list_In, elem_of_list_lookup_2.
  - intros a Ha. cbn in Ha. destruct (dense_get_attribute_finds d a Ha) as [s Hs]. exists s.
    split; [exact Hs|]. intros i Hi. cbn [gr_get dense_grid gr_size] in *.
    change (dense_size d).2 with (d_maxrow d) in Hi.
    assert (attr_at d (place s) = Some (sp_attr s)) as Hat by (by apply dense_get_attribute_ok in Hs as (? & _)).
    assert (attr_equals (sp_attr s) a = true) as He by (by apply dense_get_attribute_ok in Hs as (_ & ? & _)).
    destruct (attr_at_column d s _ Hat) as [g Hg].
    assert (g_kind g = default_kind (sp_attr s)) as Hk.
    { eapply (default_column_kind pg h d s g); [apply Hr|done|done|exact Hg|].
      destruct Hg as [Hg _]. unfold attr_at in Hat. cbn in Hat. by rewrite Hg in Hat. }
    pose proof (dense_refines_table pg h d s g i Hr Hg Hi) as Hv. rewrite Hk in Hv.
    eexists. split; [exact Hv|].
    assert (default_kind (sp_attr s) = default_kind a) as Hdk by (by destruct (sp_attr s), a).
    assert (g_kind g = GFixed 8 → ∀ v, dense_get d s i = Ok v → length v = 8) as Hlen.
    { intros Hk8 v Hdv. unfold dense_get in Hdv. apply bind_Ok in Hdv as (g' & Hg' & Hdv).
      assert (g' = g) as ->.
      { destruct Hg as [Hg _]. unfold idx in Hg'. rewrite Hg in Hg'. congruence. }
      unfold group_get in Hdv. rewrite Hk8 in Hdv. unfold fixed_get in Hdv.
      destruct (Nat.ltb_spec (length (g_alloc g)) (fixed_offset g 8 (sp_pos s) i + 8)); [done|].
      injection Hdv as <-. rewrite take_length, drop_length. lia. }
    destruct a as [n p|n vs|n]; cbn [cell_of].
    + eapply Hlen; [by rewrite Hk, Hdk|]. exact Hv.
    + eapply Hlen; [by rewrite Hk, Hdk|]. exact Hv.
    + rewrite Hdk. cbn [default_kind cell_value]. destruct (last_write h (sp_pond s) (sp_pos s) i) as [[|b v]|];
        [by left| |by left]. destruct (0 <? b)%N; [by right|by left].
Qed.

(** ** Matrices *)

Lemma mat_find_ok attrs a : ∀ i s,
  mat_find i attrs a = Ok s → sp_pond s = 0 ∧ ∃ j, sp_pos s = i + j ∧ attrs !! j = Some (sp_attr s) ∧
    attr_equals (sp_attr s) a = true.
Proof.
  induction attrs as [|b attrs IH]; intros i s H; [done|]. cbn [mat_find] in H.
  destruct (attr_equals b a) eqn:E.
  - injection H as <-. split; [done|]. exists 0. cbn. split; [lia|done].
  - destruct (IH _ _ H) as (Hp & j & Hj & Ha & He). split; [done|]. exists (S j). cbn. split; [lia|done].
Qed.

Lemma mat_find_finds attrs a : ∀ i, a ∈ attrs → ∃ s, mat_find i attrs a = Ok s.
Proof.
  induction attrs as [|b attrs IH]; intros i Hin; [by apply elem_of_nil in Hin|]. cbn [mat_find].
  destruct (attr_equals b a) eqn:E; [eauto|]. apply elem_of_cons in Hin as [->|Hin]; [|by apply IH].
  by rewrite attr_equals_refl in E.
Qed.

Lemma mat_attr_lookup rows cols dim data j a :
  mi_attrs (mat_instances rows cols dim data) !! j = Some a ↔ j < cols ∧ a = FloatA (pretty j) 2.
Proof.
  cbn [mat_instances mi_attrs]. rewrite list_lookup_fmap, fmap_Some. split.
  - intros (k & Hk & ->). apply lookup_seq in Hk as [-> Hk]. done.
  - intros [Hj ->]. exists j. split; [|done]. apply lookup_seq. done.
Qed.

Lemma mat_attrs_distinct rows cols dim data : distinct_attrs (mi_attrs (mat_instances rows cols dim data)).
Proof.
  intros i j a b Hi Hj He. apply mat_attr_lookup in Hi as [_ ->], Hj as [_ ->]. cbn [attr_equals] in He.
  apply bool_decide_eq_true in He. by apply (inj pretty).
Qed.

Lemma mat_found rows cols dim data j a :
  mi_attrs (mat_instances rows cols dim data) !! j = Some a →
  mat_get_attribute (mat_instances rows cols dim data) a = Ok (Spec 0 j a).
Proof.
  intros Hj. unfold mat_get_attribute.
  destruct (mat_find_finds (mi_attrs (mat_instances rows cols dim data)) a 0) as [s Hs];
    [by eapply elem_of_list_lookup_2|].
  destruct (mat_find_ok _ _ _ _ Hs) as (Hp & k & Hk & Ha & He). cbn in Hk.
  assert (k = j) as -> by (by eapply mat_attrs_distinct).
  rewrite Hs. f_equal. destruct s as [p q b]. cbn in *. congruence.
Qed.

Lemma mat_set_classes_attrs l : ∀ m m',
  res_foldl (λ m (o : attr * bool), mat_set_class m o.1 o.2) m l = Ok m' →
  mi_attrs m' = mi_attrs m ∧ mi_dim m' = mi_dim m ∧ mi_data m' = mi_data m ∧ mi_rows m' = mi_rows m.
Proof.
  induction l as [|[a on] l IH]; intros m m' H; cbn [res_foldl fst snd] in H; [by injection H as <-|].
  apply bind_Ok in H as (m1 & H1 & H). destruct (IH _ _ H) as (I1 & I2 & I3 & I4).
  unfold mat_set_class in H1. apply bind_Ok in H1 as (s & _ & H1). injection H1 as <-. done.
Qed.

Lemma mat_class_in m order a : a ∈ mat_class_attrs m order → a ∈ mi_attrs m.
Proof.
  induction order as [|[k b] order IH]; cbn; [by intros ?%elem_of_nil|].
  intros [Ha|Ha]%elem_of_app; [|by apply IH]. destruct b; [|by apply elem_of_nil in Ha].
  destruct (mi_attrs m !! k) as [a'|] eqn:E; [|by apply elem_of_nil in Ha].
  apply elem_of_list_singleton in Ha as ->. by eapply elem_of_list_lookup_2.
Qed.

Lemma mat_class_elem m order a :
  a ∈ mat_class_attrs m order ↔ ∃ k, (k, true) ∈ order ∧ mi_attrs m !! k = Some a.
Proof.
  induction order as [|[k b] order IH]; cbn [mat_class_attrs].
  - split; [by intros ?%elem_of_nil|]. intros (k & Hk & _). by apply elem_of_nil in Hk.
  - rewrite elem_of_app, IH. split.
    + intros [Ha|(k' & Hk & Ha)]; [|exists k'; split; [by right|done]].
      destruct b; [|by apply elem_of_nil in Ha].
      destruct (mi_attrs m !! k) as [a'|] eqn:E; [|by apply elem_of_nil in Ha].
      apply elem_of_list_singleton in Ha as ->. exists k. split; [left|done].
    + intros (k' & [[= -> <-]|Hk]%elem_of_cons & Ha).
      * left. rewrite Ha. by apply elem_of_list_singleton.
      * right. eauto.
Qed.

Lemma mat_get_attribute_attrs m m' a : mi_attrs m = mi_attrs m' → mat_get_attribute m a = mat_get_attribute m' a.
Proof. intros H. unfold mat_get_attribute. by rewrite H. Qed.

Lemma mat_grid_in_order order m : iter_in_order (mat_grid order m).
Proof. intros asv. cbn. reflexivity. Qed.

Lemma chosen_snoc ops b on a :
  chosen (ops ++ [(b, on)]) a ↔ (attr_equals a b = true ∧ on = true) ∨ (attr_equals a b = false ∧ chosen ops a).
Proof.
  split.
  - intros (l1 & b' & l2 & E & He & Hl). destruct l2 as [|[c con] l2 _] using rev_ind.
    + apply app_inj_tail in E as [-> [= -> ->]]. by left.
    + right. rewrite app_comm_cons, app_assoc in E. apply app_inj_tail in E as [-> [= -> ->]]. split.
      * apply (Hl c con). apply elem_of_app. right. by apply elem_of_list_singleton.
      * exists l1, b', l2. split; [done|]. split; [done|]. intros c' on' Hc. apply (Hl c' on').
        apply elem_of_app. by left.
  - intros [[He ->]|[He (l1 & b' & l2 & -> & He' & Hl)]].
    + exists ops, b, []. split; [done|]. split; [done|]. by intros ? ? ?%elem_of_nil.
    + exists l1, b', (l2 ++ [(b, on)]). split; [by rewrite <- app_assoc|]. split; [done|].
      intros c con [Hc|Hc]%elem_of_app; [by eapply Hl|]. apply elem_of_list_singleton in Hc as [= -> ->]. done.
Qed.

Lemma mat_class_flags rows cols dim data ops : ∀ m,
  res_foldl (λ m (o : attr * bool), mat_set_class m o.1 o.2) (mat_instances rows cols dim data) ops = Ok m →
  ∀ k a, mi_attrs m !! k = Some a → (mi_class m !! k = Some true ↔ chosen ops a).
Proof.
  induction ops as [|[b on] ops IH] using rev_ind; intros m H k a Hk.
  - cbn in H. injection H as <-. cbn [mat_instances mi_class]. rewrite lookup_empty. split; [done|].
    intros ([|] & ? & ? & E & _); discriminate E.
  - rewrite res_foldl_app in H. apply bind_Ok in H as (m1 & H1 & H). cbn [res_foldl fst snd] in H.
    apply bind_Ok in H as (m2 & H2 & H). injection H as <-.
    destruct (mat_set_classes_attrs _ _ _ H1) as (A1 & _).
    unfold mat_set_class in H2. apply bind_Ok in H2 as (s & Hs & H2). injection H2 as <-.
    cbn [mi_class mi_attrs] in *. rewrite chosen_snoc, lookup_insert_Some, (IH _ H1 k a Hk).
    destruct (mat_find_ok _ _ _ _ Hs) as (_ & j & Hj & Ha & He). cbn in Hj. subst j.
    rewrite A1 in Hk, Ha.
    pose proof (mat_attrs_distinct rows cols dim data) as Hd.
    assert (attr_equals a b = true ↔ sp_pos s = k) as Heq.
    { split.
      - intros Hab. apply (Hd _ _ _ _ Ha Hk).
        apply mat_attr_lookup in Ha as [_ Ha], Hk as [_ Hk]. rewrite Ha in He |- *. rewrite Hk in Hab |- *.
        destruct b; cbn [attr_equals] in *; [|discriminate|discriminate].
        apply bool_decide_eq_true in He, Hab. apply bool_decide_eq_true. congruence.
      - intros <-. assert (a = sp_attr s) as -> by congruence. done. }
    destruct (attr_equals a b) eqn:Eab.
    + destruct Heq as [Heq _]. rewrite Heq by done. split.
      * intros [[_ ?]|[Hn _]]; [by left|done].
      * intros [[_ ->]|[? _]]; [by left|done].
    + split.
      * intros [[E _]|[_ ?]]; [|by right]. by apply Heq in E.
      * intros [[? _]|[_ ?]]; [done|]. right. split; [|done]. intros E. by apply Heq in E.
Qed.

Lemma mat_grid_ok rows cols r c data ops m order :
  res_foldl (λ m (o : attr * bool), mat_set_class m o.1 o.2) (mat_instances rows cols (r, c) data) ops = Ok m →
  order ≡ₚ map_to_list (mi_class m) → rows ≤ r → cols ≤ c →
  gr_size (mat_grid order m) = (cols, rows) ∧
  (∀ j a, gr_all_attrs (mat_grid order m) !! j = Some a ↔ j < cols ∧ a = FloatA (pretty j) 2) ∧
  (∀ j a, gr_all_attrs (mat_grid order m) !! j = Some a →
     gr_get_attribute (mat_grid order m) a = Ok (Spec 0 j a)) ∧
  (∀ i j a, i < rows → j < cols → gr_get (mat_grid order m) (Spec 0 j a) i = Ok (pack_float (data i j))) ∧
  (∀ a, a ∈ gr_class_attrs (mat_grid order m) ↔ a ∈ gr_all_attrs (mat_grid order m) ∧ chosen ops a).
Proof.
  intros H Ho Hr Hc. destruct (mat_set_classes_attrs _ _ _ H) as (A1 & A2 & A3 & A4).
  cbn [mat_grid gr_size gr_all_attrs gr_get_attribute gr_get gr_class_attrs]. split_and!.
  - rewrite A1, A4. cbn. by rewrite map_length, seq_length.
  - intros j a. rewrite A1. apply mat_attr_lookup.
  - intros j a Hj. rewrite (mat_get_attribute_attrs m _ a A1). apply mat_found. by rewrite <- A1.
  - intros i j a Hi Hj. unfold mat_get. rewrite A2, A3. cbn [fst snd sp_pos mat_instances mi_dim mi_data].
    destruct (Nat.ltb_spec i r); [|lia]. destruct (Nat.ltb_spec j c); [|lia]. done.
  - intros a. rewrite mat_class_elem. split.
    + intros (k & Hk & Ha). split; [by eapply elem_of_list_lookup_2|].
      rewrite <- (mat_class_flags _ _ _ _ _ _ H k a Ha). rewrite Ho in Hk. by apply elem_of_map_to_list.
    + intros [Ha Hch]. apply elem_of_list_lookup in Ha as [k Hk]. exists k. split; [|done].
      rewrite Ho. apply elem_of_map_to_list. by apply (mat_class_flags _ _ _ _ _ _ H k a Hk).
Qed.

Lemma mat_regular rows cols r c data ops m order :
  res_foldl (λ m (o : attr * bool), mat_set_class m o.1 o.2) (mat_instances rows cols (r, c) data) ops = Ok m →
  order ≡ₚ map_to_list (mi_class m) → rows ≤ r → cols ≤ c → regular (mat_grid order m).
Proof.
  intros H Ho Hr Hc. destruct (mat_grid_ok _ _ _ _ _ _ _ _ H Ho Hr Hc) as (G1 & G2 & G3 & G4 & G5). split.
  - cbn [mat_grid gr_all_attrs]. destruct (mat_set_classes_attrs _ _ _ H) as (-> & _). apply mat_attrs_distinct.
  - intros a Ha. by apply G5 in Ha as [? _].
  - intros a Ha. apply elem_of_list_lookup in Ha as [j Hj]. exists (Spec 0 j a). split; [by apply G3|].
    rewrite G1. cbn [snd]. intros i Hi. apply G2 in Hj as [Hj ->]. eexists. split; [by apply G4|].
    unfold cell_of, pack_float. apply pack_u64_length.
Qed.
