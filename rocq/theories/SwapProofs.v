(** Lemmas about exchanging rows of DenseInstances, and Shuffle. *)
From Verif Require Import Prelude BytesModel AttrModel AttrSpec AttrProofs
  StoreModel StoreProofs DenseModel DenseSpec DenseProofs ShuffleModel.

Definition reach (pg : nat) (d : dense) : Prop := ∃ h, reachable pg h d.

Lemma reach_wf pg d : reach pg d → dense_wf d.
Proof. intros [h Hr]. by apply reachable_inv in Hr as []. Qed.

Lemma reach_kinds pg d : reach pg d → kinds_ok d.
Proof. intros [h Hr]. by apply reachable_inv in Hr as []. Qed.

Lemma snoc_split {A} (h h1 h2 : list A) o x :
  h ++ [o] = h1 ++ x :: h2 →
  (h2 = [] ∧ h = h1 ∧ o = x) ∨ ∃ h3, h2 = h3 ++ [o] ∧ h = h1 ++ x :: h3.
Proof.
  destruct (decide (h2 = [])) as [->|Hne].
  - intros H. apply app_inj_tail in H as [-> ->]. left. done.
  - destruct (exists_last Hne) as (h3 & y & ->). intros H.
    rewrite app_comm_cons, app_assoc in H.
    apply app_inj_tail in H as [-> ->]. right. eauto.
Qed.

Lemma reach_set pg d s g row val d' :
  reach pg d → column_of d s g → dense_set d s row val = Ok d' → reach pg d'.
Proof.
  intros (h & Hrun & Hv & Hl) Hs Hset.
  exists (h ++ [DSet s row val]). split; [|split].
  - apply dense_run_snoc. eauto.
  - intros h1 s1 r v h2 Heq d1 Hd1.
    apply snoc_split in Heq as [(-> & -> & [= -> -> ->])|(h3 & -> & ->)].
    + rewrite Hrun in Hd1. injection Hd1 as <-. eauto.
    + by eapply Hv.
  - intros h1 a ag h2 Heq. apply snoc_split in Heq as [(-> & -> & ?)|(h3 & -> & ->)].
    + done.
    + by eapply Hl.
Qed.

Lemma column_of_same_layout d d' s g :
  layout d' = layout d → column_of d s g →
  ∃ g', column_of d' s g' ∧ g_kind g' = g_kind g ∧ g_attrs g' = g_attrs g.
Proof. intros Hl. by apply column_of_layout. Qed.

(** Reading gives a value that can be written back unchanged. *)
Lemma group_get_fits g col row v :
  group_get g col row = Ok v → fits (g_kind g) v ∧ stored (g_kind g) v = v.
Proof.
  unfold group_get. destruct (g_kind g) as [size|] eqn:Hk.
  - rewrite fixed_get_eq. case_decide as Hd; [|done]. intros [= <-].
    simpl. rewrite take_length, drop_length. split; [lia|done].
  - rewrite bit_get_eq. destruct (g_alloc g !! _); [|done]. intros [= <-].
    by destruct (N.testbit _ _).
Qed.

Lemma dense_get_ok pg d s g row :
  reach pg d → column_of d s g → row < d_maxrow d →
  ∃ v, dense_get d s row = Ok v ∧ fits (g_kind g) v ∧ stored (g_kind g) v = v.
Proof.
  intros Hr [Hg Hp] Hrow. apply reach_wf in Hr as [Hrows _ _].
  eapply Forall_lookup_1 in Hrows; [|exact Hg].
  destruct (group_get_ok g (d_maxrow d) (sp_pos s) row Hrows Hp Hrow) as [v Hv].
  exists v. rewrite (dense_get_group d s row g Hg).
  split; [done|]. by eapply group_get_fits.
Qed.

(** One Set, in terms of reads. *)
Lemma dense_set_spec pg d s g row val :
  reach pg d → column_of d s g → row < d_maxrow d → fits (g_kind g) val →
  ∃ d', dense_set d s row val = Ok d' ∧ reach pg d' ∧ layout d' = layout d ∧
    d_maxrow d' = d_maxrow d ∧ d_agmap d' = d_agmap d ∧ d_class d' = d_class d ∧
    dense_get d' s row = Ok (stored (g_kind g) val) ∧
    ∀ s' g' row', column_of d s' g' →
      (sp_pond s', sp_pos s', row') ≠ (sp_pond s, sp_pos s, row) →
      dense_get d' s' row' = dense_get d s' row'.
Proof.
  intros Hr [Hg Hp] Hrow Hf.
  pose proof (reach_wf _ _ Hr) as [Hrows _ _].
  eapply Forall_lookup_1 in Hrows; [|exact Hg].
  destruct (group_set_ok g (d_maxrow d) (sp_pos s) row val Hrows Hp Hrow Hf) as [g' Hs].
  set (d' := Dense (d_agmap d) (d_agrev d) (<[sp_pond s := g']> (d_ags d)) (d_fixed d)
        (d_class d) (d_maxrow d) (d_floatbytes d) (d_catbytes d) (d_binbits d)).
  assert (dense_set d s row val = Ok d') as Hset.
  { unfold dense_set, idx. rewrite Hg. simpl. rewrite Hs. done. }
  exists d'. split; [done|].
  assert (d_ags d' !! sp_pond s = Some g') as Hg'.
  { apply list_lookup_insert. by eapply lookup_lt_Some. }
  split; [by eapply reach_set|]. split; [by eapply dense_set_layout|].
  split; [done|]. split; [done|]. split; [done|]. split.
  - rewrite (dense_get_group d' s row g' Hg'). by eapply group_set_get.
  - intros s' g2 row' [Hg2 Hp2] Hne.
    destruct (decide (sp_pond s' = sp_pond s)) as [Heq|Hneq].
    + rewrite Heq in Hg2. rewrite Hg in Hg2. injection Hg2 as <-.
      rewrite (dense_get_group d' s' row' g') by by rewrite Heq.
      rewrite (dense_get_group d s' row' g) by by rewrite Heq.
      eapply (group_set_frame g (sp_pos s) row val g'); try done.
      intros [= H1 H2]. apply Hne. by rewrite Heq, H1, H2.
    + unfold dense_get. simpl. by rewrite (list_lookup_insert_ne _ _ _ _ (not_eq_sym Hneq)) || (unfold idx; simpl; by rewrite list_lookup_insert_ne).
Qed.

(** The transposition of rows [i] and [j]. *)
Definition swp (i j r : nat) : nat := if decide (r = i) then j else if decide (r = j) then i else r.

Lemma swp_lt i j r n : i < n → j < n → r < n → swp i j r < n.
Proof. unfold swp. repeat case_decide; lia. Qed.

Lemma swp_invol i j r : swp i j (swp i j r) = r.
Proof. unfold swp. repeat case_decide; lia. Qed.

Definition same_col (s s' : spec) : Prop := sp_pond s = sp_pond s' ∧ sp_pos s = sp_pos s'.

Lemma swap_cell_spec pg d s g i j :
  reach pg d → column_of d s g → i < d_maxrow d → j < d_maxrow d →
  ∃ d', swap_cell i j d s = Ok d' ∧ reach pg d' ∧ layout d' = layout d ∧
    d_maxrow d' = d_maxrow d ∧ d_agmap d' = d_agmap d ∧ d_class d' = d_class d ∧
    (∀ s' row, same_col s' s → row < d_maxrow d →
      dense_get d' s' row = dense_get d s' (swp i j row)) ∧
    ∀ s' g' row, column_of d s' g' → ¬ same_col s' s →
      dense_get d' s' row = dense_get d s' row.
Proof.
  intros Hr Hs Hi Hj.
  destruct (dense_get_ok pg d s g i Hr Hs Hi) as (v1 & Hv1 & Hf1 & Hst1).
  destruct (dense_get_ok pg d s g j Hr Hs Hj) as (v2 & Hv2 & Hf2 & Hst2).
  destruct (dense_set_spec pg d s g j v1 Hr Hs Hj Hf1)
    as (d1 & Hset1 & Hr1 & Hl1 & Hm1 & Ha1 & Hc1 & Hg1 & Hfr1).
  destruct (column_of_same_layout d d1 s g Hl1 Hs) as (g1 & Hs1 & Hk1 & _).
  rewrite <- Hk1 in Hf2.
  destruct (dense_set_spec pg d1 s g1 i v2 Hr1 Hs1 ltac:(lia) Hf2)
    as (d2 & Hset2 & Hr2 & Hl2 & Hm2 & Ha2 & Hc2 & Hg2 & Hfr2).
  exists d2. unfold swap_cell. rewrite Hv1, Hv2. cbn [mbind res_bind].
  rewrite Hset1. cbn [mbind res_bind].
  split; [done|]. split; [done|]. split; [congruence|]. split; [congruence|].
  split; [congruence|]. split; [congruence|]. split.
  - intros s' row [Hp1 Hp2] Hrow.
    assert (∀ dd r, dense_get dd s' r = dense_get dd s r) as Hsame.
    { intros dd r. unfold dense_get. by rewrite Hp1, Hp2. }
    rewrite !Hsame. unfold swp. case_decide as E1; [|case_decide as E2].
    + subst row. rewrite Hg2, Hk1, Hst2. done.
    + subst row. rewrite (Hfr2 s g1 j Hs1) by congruence. by rewrite Hg1, Hst1.
    + rewrite (Hfr2 s g1 row Hs1) by congruence.
      by rewrite (Hfr1 s g row Hs) by congruence.
  - intros s' g' row Hs' Hne.
    destruct (column_of_same_layout d d1 s' g' Hl1 Hs') as (g1' & Hs1' & _).
    rewrite (Hfr2 s' g1' row Hs1').
    + apply (Hfr1 s' g' row Hs'). intros [= H1 H2 _]. by apply Hne.
    + intros [= H1 H2 _]. by apply Hne.
Qed.

(** Folding over distinct columns. *)
Lemma swap_cells_spec pg i j specs d :
  reach pg d → i < d_maxrow d → j < d_maxrow d →
  NoDup (map (λ s, (sp_pond s, sp_pos s)) specs) →
  (∀ s, s ∈ specs → ∃ g, column_of d s g) →
  ∃ d', res_foldl (swap_cell i j) d specs = Ok d' ∧ reach pg d' ∧ layout d' = layout d ∧
    d_maxrow d' = d_maxrow d ∧ d_agmap d' = d_agmap d ∧ d_class d' = d_class d ∧
    (∀ s' row, (∃ s, s ∈ specs ∧ same_col s' s) → row < d_maxrow d →
      dense_get d' s' row = dense_get d s' (swp i j row)) ∧
    ∀ s' g' row, column_of d s' g' → (∀ s, s ∈ specs → ¬ same_col s' s) →
      dense_get d' s' row = dense_get d s' row.
Proof.
  revert d. induction specs as [|s specs IH]; intros d Hr Hi Hj Hnd Hcols; simpl.
  - exists d. split; [done|]. split; [done|]. do 4 (split; [done|]). split; [|done].
    intros s' row (s & Hin & _). by apply not_elem_of_nil in Hin.
  - destruct (Hcols s) as [g Hg]; [left|].
    destruct (swap_cell_spec pg d s g i j Hr Hg Hi Hj)
      as (d1 & Hsw & Hr1 & Hl1 & Hm1 & Ha1 & Hc1 & Hin1 & Hout1).
    rewrite Hsw. cbn [mbind res_bind].
    simpl in Hnd. apply NoDup_cons in Hnd as [Hnotin Hnd].
    destruct (IH d1 Hr1 ltac:(lia) ltac:(lia) Hnd)
      as (d2 & Hf & Hr2 & Hl2 & Hm2 & Ha2 & Hc2 & Hin2 & Hout2).
    { intros s' Hs'. destruct (Hcols s') as [g' Hg']; [by right|].
      destruct (column_of_same_layout d d1 s' g' Hl1 Hg') as (g1' & Hs1' & _). eauto. }
    assert (∀ s1, s1 ∈ specs → ¬ same_col s s1) as Hdiff.
    { intros s1 Hs1 [E1 E2]. apply Hnotin. apply elem_of_list_fmap.
      exists s1. by rewrite E1, E2. }
    exists d2. split; [done|]. split; [done|]. split; [congruence|].
    split; [congruence|]. split; [congruence|]. split; [congruence|]. split.
    + intros s' row (s1 & Hs1 & Hsame) Hrow.
      apply elem_of_cons in Hs1 as [->|Hs1].
      * destruct Hg as [Hg1 Hg2].
        destruct (column_of_same_layout d d1 s' g Hl1) as (g1' & Hs1' & _).
        { destruct Hsame as [E1 E2]. split; [by rewrite E1|by rewrite E2]. }
        rewrite (Hout2 s' g1' row Hs1').
        -- apply Hin1; done.
        -- intros s1 Hs1 [E1 E2]. apply (Hdiff s1 Hs1). destruct Hsame as [E3 E4].
           split; congruence.
      * assert (row < d_maxrow d1) as Hrow1 by lia.
        rewrite (Hin2 s' row) by eauto.
        destruct (Hcols s1) as [g1 Hg1]; [by right|].
        apply (Hout1 s' g1).
        -- destruct Hsame as [E1 E2], Hg1. split; [by rewrite E1|by rewrite E2].
        -- intros [E1 E2]. apply (Hdiff s1 Hs1). destruct Hsame as [E3 E4].
           split; congruence.
    + intros s' g' row Hs' Hno.
      destruct (column_of_same_layout d d1 s' g' Hl1 Hs') as (g1' & Hs1' & _).
      rewrite (Hout2 s' g1' row Hs1') by (intros s1 Hs1; apply Hno; by right).
      apply (Hout1 s' g' row Hs'). apply Hno. left.
Qed.

(** The columns of the instances in the order of AllAttributes. *)
Fixpoint col_keys (i : nat) (gs : list group) : list (nat * nat) :=
  match gs with
  | [] => []
  | g :: gs => map (λ j, (i, j)) (seq 0 (length (g_attrs g))) ++ col_keys (S i) gs
  end.

Lemma col_keys_elem i gs k1 k2 :
  (k1, k2) ∈ col_keys i gs ↔
  ∃ g, i ≤ k1 ∧ gs !! (k1 - i) = Some g ∧ k2 < length (g_attrs g).
Proof.
  revert i. induction gs as [|g gs IH]; intros i; simpl.
  - split; [intros H; by apply not_elem_of_nil in H|]. intros (g & _ & H & _).
    done.
  - rewrite elem_of_app, elem_of_list_fmap, IH. split.
    + intros [(j & [= -> ->] & Hj)|(g' & H1 & H2 & H3)].
      * apply elem_of_seq in Hj. exists g. rewrite Nat.sub_diag. simpl. lia || (split; [lia|]; split; [done|lia]).
      * exists g'. split; [lia|]. split; [|done].
        replace (k1 - i) with (S (k1 - S i)) by lia. done.
    + intros (g' & H1 & H2 & H3). destruct (decide (k1 = i)) as [->|Hne].
      * left. rewrite Nat.sub_diag in H2. simpl in H2. injection H2 as ->.
        exists k2. split; [done|]. apply elem_of_seq. lia.
      * right. exists g'. split; [lia|]. split; [|done].
        replace (k1 - i) with (S (k1 - S i)) in H2 by lia. done.
Qed.

Lemma col_keys_nodup i gs : NoDup (col_keys i gs).
Proof.
  revert i. induction gs as [|g gs IH]; intros i; simpl; [constructor|].
  apply NoDup_app. split; [|split; [|apply IH]].
  - apply NoDup_fmap_2; [intros ?? [= ->]; done|apply NoDup_seq].
  - intros [k1 k2] H1 H2. apply elem_of_list_fmap in H1 as (j & [= -> ->] & _).
    apply col_keys_elem in H2 as (g' & H & _). lia.
Qed.

Lemma col_keys_attrs gs :
  ∀ pre, Forall2 (λ k a, (g ← (pre ++ gs) !! k.1; g_attrs g !! k.2) = Some a)
    (col_keys (length pre) gs) (concat (map g_attrs gs)).
Proof.
  induction gs as [|g gs IH]; intros pre; simpl; [constructor|].
  apply Forall2_app.
  - apply Forall2_same_length_lookup_2.
    + rewrite map_length, seq_length. done.
    + intros n [k1 k2] a Hk Ha. rewrite list_lookup_fmap in Hk.
      destruct (seq 0 _ !! n) as [m|] eqn:E; [|done]. simpl in Hk.
      injection Hk as <- <-. apply lookup_seq in E as [-> _].
      rewrite lookup_app_r by done. rewrite Nat.sub_diag. simpl. done.
  - specialize (IH (pre ++ [g])). rewrite app_length in IH. simpl in IH.
    rewrite Nat.add_1_r in IH. by rewrite <- app_assoc in IH.
Qed.

Lemma Forall2_map_l_eq {A B} (P : A → B → Prop) (f : A → A) l k :
  Forall2 P l k → (∀ x y, P x y → f x = x) → map f l = l.
Proof. intros H Hf. induction H; simpl; [done|]. f_equal; eauto. Qed.

Lemma dense_resolve_all d :
  distinct_attrs (dense_all_attrs d) →
  ∃ specs, dense_resolve d (dense_all_attrs d) = Ok specs ∧
    map (λ s, (sp_pond s, sp_pos s)) specs = col_keys 0 (d_ags d) ∧
    map sp_attr specs = dense_all_attrs d.
Proof.
  intros Hd.
  pose proof (col_keys_attrs (d_ags d) []) as Hkeys. simpl in Hkeys.
  fold (dense_all_attrs d) in Hkeys.
  assert (∀ k a, (k, a) ∈ zip (col_keys 0 (d_ags d)) (dense_all_attrs d) →
     a ∈ dense_all_attrs d) as Hin.
  { intros k a H. by apply elem_of_zip_r in H. }
  assert (∀ keys attrs,
    Forall2 (λ k a, (g ← d_ags d !! k.1; g_attrs g !! k.2) = Some a) keys attrs →
    (∀ a, a ∈ attrs → a ∈ dense_all_attrs d) →
    ∃ specs, dense_resolve d attrs = Ok specs ∧
      map (λ s, (sp_pond s, sp_pos s)) specs = keys ∧ map sp_attr specs = attrs) as Hgen.
  { intros keys attrs HF. induction HF as [|k a keys attrs Hka HF IH]; intros Hsub.
    - exists []. done.
    - destruct IH as (specs & Hres & Hk & Ha).
      { intros b Hb. apply Hsub. by right. }
      destruct (dense_get_attribute_finds d a) as [s Hs]; [apply Hsub; left|].
      pose proof (dense_lookup_unique d k a s Hd Hka Hs) as [Hks Has].
      exists (s :: specs). unfold dense_resolve in *. simpl. rewrite Hs.
      cbn [mbind res_bind]. rewrite Hres. simpl. rewrite Hks, Hk, Has, Ha. done. }
  by apply Hgen.
Qed.

Lemma dense_swap_rows_spec pg d i j :
  reach pg d → distinct_attrs (dense_all_attrs d) →
  i < d_maxrow d → j < d_maxrow d →
  ∃ d', dense_swap_rows d i j = Ok d' ∧ reach pg d' ∧ layout d' = layout d ∧
    d_maxrow d' = d_maxrow d ∧ d_agmap d' = d_agmap d ∧ d_class d' = d_class d ∧
    ∀ s g row, column_of d s g → row < d_maxrow d →
      dense_get d' s row = dense_get d s (swp i j row).
Proof.
  intros Hr Hd Hi Hj. unfold dense_swap_rows.
  destruct (dense_resolve_all d Hd) as (specs & Hres & Hkeys & Hattrs).
  rewrite Hres. cbn [mbind res_bind].
  destruct (swap_cells_spec pg i j specs d Hr Hi Hj) as
    (d' & Hf & Hr' & Hl & Hm & Ha & Hc & Hin & _).
  - rewrite Hkeys. apply col_keys_nodup.
  - intros s Hs.
    assert ((sp_pond s, sp_pos s) ∈ col_keys 0 (d_ags d)) as Hk.
    { rewrite <- Hkeys. apply elem_of_list_fmap. eauto. }
    apply col_keys_elem in Hk as (g & _ & Hg & Hp). rewrite Nat.sub_0_r in Hg.
    exists g. done.
  - exists d'. do 6 (split; [done|]).
    intros s g row [Hg Hp] Hrow. apply Hin; [|done].
    assert ((sp_pond s, sp_pos s) ∈ col_keys 0 (d_ags d)) as Hk.
    { apply col_keys_elem. exists g. rewrite Nat.sub_0_r. split; [lia|done]. }
    rewrite <- Hkeys in Hk. apply elem_of_list_fmap in Hk as (s' & [= E1 E2] & Hs').
    exists s'. split; [done|]. split; done.
Qed.

(** Any sequence of row exchanges rearranges the rows. *)
Lemma swaps_rearrange pg (sw : list (nat * nat)) d :
  reach pg d → distinct_attrs (dense_all_attrs d) →
  (∀ i j, (i, j) ∈ sw → i < d_maxrow d ∧ j < d_maxrow d) →
  ∃ d', res_foldl (λ d p, dense_swap_rows d p.1 p.2) d sw = Ok d' ∧ reach pg d' ∧
    layout d' = layout d ∧ d_maxrow d' = d_maxrow d ∧ d_agmap d' = d_agmap d ∧
    d_class d' = d_class d ∧
    ∀ s g row, column_of d s g → row < d_maxrow d →
      dense_get d' s row =
      dense_get d s (foldr (λ p r, swp p.1 p.2 r) row sw).
Proof.
  revert d. induction sw as [|[i j] sw IH]; intros d Hr Hd Hb; simpl.
  - exists d. done.
  - destruct (Hb i j) as [Hi Hj]; [left|].
    destruct (dense_swap_rows_spec pg d i j Hr Hd Hi Hj)
      as (d1 & Hsw & Hr1 & Hl1 & Hm1 & Ha1 & Hc1 & Hget1).
    rewrite Hsw. cbn [mbind res_bind].
    destruct (IH d1) as (d2 & Hf & Hr2 & Hl2 & Hm2 & Ha2 & Hc2 & Hget2).
    + done.
    + by rewrite (layout_all_attrs _ _ Hl1).
    + intros i' j' Hin. rewrite Hm1. apply Hb. by right.
    + exists d2. split; [done|]. split; [done|]. do 4 (split; [congruence|]).
      intros s g row Hs Hrow.
      destruct (column_of_same_layout d d1 s g Hl1 Hs) as (g1 & Hs1 & _).
      rewrite (Hget2 s g1 row Hs1) by lia.
      apply (Hget1 s g _ Hs).
      assert (∀ i j, (i,j) ∈ sw → i < d_maxrow d ∧ j < d_maxrow d) as Hb'.
      { intros i' j' Hin. apply Hb. by right. }
      clear -Hb' Hrow. induction sw as [|[i' j'] sw IH]; simpl; [done|].
      destruct (Hb' i' j') as [H1 H2]; [left|].
      apply swp_lt; [done|done|]. apply IH. intros i j Hin. apply Hb'. by right.
Qed.

Definition swaps_fun (sw : list (nat * nat)) (row : nat) : nat :=
  foldr (λ p r, swp p.1 p.2 r) row sw.

Lemma swaps_fun_bij n sw :
  (∀ i j, (i, j) ∈ sw → i < n ∧ j < n) → row_bijection n (swaps_fun sw).
Proof.
  induction sw as [|[i j] sw IH]; intros Hb.
  - split; [done|]. split; [done|]. eauto.
  - destruct (Hb i j) as [Hi Hj]; [left|].
    destruct IH as (H1 & H2 & H3); [intros i' j' Hin; apply Hb; by right|].
    split; [|split].
    + intros r Hr. simpl. apply swp_lt; [done|done|]. by apply H1.
    + intros r1 r2 Hr1 Hr2 Heq. simpl in Heq. apply H2; [done|done|].
      rewrite <- (swp_invol i j (swaps_fun sw r1)). fold (swaps_fun sw) in Heq.
      change (foldr (λ p r, swp p.1 p.2 r) r1 sw) with (swaps_fun sw r1) in Heq.
      change (foldr (λ p r, swp p.1 p.2 r) r2 sw) with (swaps_fun sw r2) in Heq.
      rewrite Heq. apply swp_invol.
    + intros r Hr. destruct (H3 (swp i j r)) as (r0 & Hr0 & He).
      { by apply swp_lt. }
      exists r0. split; [done|]. simpl.
      change (foldr (λ p r, swp p.1 p.2 r) r0 sw) with (swaps_fun sw r0).
      rewrite He. apply swp_invol.
Qed.

Lemma layout_parts d d' :
  layout d' = layout d →
  map g_attrs (d_ags d') = map g_attrs (d_ags d) ∧
  map g_kind (d_ags d') = map g_kind (d_ags d).
Proof.
  unfold layout. intros Hl. split.
  - apply (f_equal (map snd)) in Hl. rewrite !map_map in Hl. done.
  - apply (f_equal (map fst)) in Hl. rewrite !map_map in Hl. done.
Qed.

Lemma swaps_rows_rearranged pg (sw : list (nat * nat)) d :
  reach pg d → distinct_attrs (dense_all_attrs d) →
  (∀ i j, (i, j) ∈ sw → i < d_maxrow d ∧ j < d_maxrow d) →
  ∃ d', res_foldl (λ d p, dense_swap_rows d p.1 p.2) d sw = Ok d' ∧ reach pg d' ∧
    rows_rearranged (swaps_fun sw) d d'.
Proof.
  intros Hr Hd Hb.
  destruct (swaps_rearrange pg sw d Hr Hd Hb) as (d' & Hf & Hr' & Hl & Hm & _ & Hc & Hget).
  exists d'. split; [done|]. split; [done|].
  destruct (layout_parts _ _ Hl). split; [done|]. split; [done|]. split; [done|].
  split; [done|]. exact Hget.
Qed.

(** Shuffle. *)
Lemma res_foldl_map {A B C} (f : B → A → res B) (g : C → A) b l :
  res_foldl f b (map g l) = res_foldl (λ b c, f b (g c)) b l.
Proof.
  revert b. induction l as [|x l IH]; intros b; simpl; [done|].
  destruct (f b (g x)); simpl; [apply IH|done|done].
Qed.

Lemma dense_shuffle_spec pg d draws :
  reach pg d → distinct_attrs (dense_all_attrs d) →
  (∀ i, i < d_maxrow d → draws i ≤ i) →
  ∃ d' p, dense_shuffle draws d = Ok d' ∧ reach pg d' ∧
    row_bijection (d_maxrow d) p ∧ rows_rearranged p d d'.
Proof.
  intros Hr Hd Hdraw.
  set (sw := map (λ i, (i, draws i)) (seq 0 (d_maxrow d))).
  assert (∀ i j, (i, j) ∈ sw → i < d_maxrow d ∧ j < d_maxrow d) as Hb.
  { intros i j Hin. apply elem_of_list_fmap in Hin as (k & [= -> ->] & Hk).
    apply elem_of_seq in Hk. specialize (Hdraw k ltac:(lia)). lia. }
  destruct (swaps_rows_rearranged pg sw d Hr Hd Hb) as (d' & Hf & Hr' & Hre).
  exists d', (swaps_fun sw). split; [|split; [done|split; [by apply swaps_fun_bij|done]]].
  unfold dense_shuffle. unfold sw in Hf. rewrite res_foldl_map in Hf. exact Hf.
Qed.
