(** Building DenseInstances attribute by attribute and cell by cell. *)
From Verif Require Import Prelude AttrModel AttrSpec AttrProofs StoreModel DenseModel DenseSpec
  DenseProofs GridModel GridSpec GridProofs CsvModel CsvProofs.
Local Open Scope nat_scope.

(** ** Attributes *)

Lemma distinct_NoDup l : distinct_attrs l → NoDup l.
Proof.
  intros H. apply NoDup_alt. intros i j a Hi Hj. apply (H i j a a Hi Hj), attr_equals_refl.
Qed.

(** A check, for concrete lists. *)
Fixpoint distinctb (l : list attr) : bool :=
  match l with
  | [] => true
  | a :: l => forallb (λ b, negb (attr_equals a b || attr_equals b a)) l && distinctb l
  end.

Lemma distinctb_spec l : distinctb l = true → distinct_attrs l.
Proof.
  induction l as [|x l IH]; intros H [|i] [|j] a b Hi Hj E; try done.
  - cbn in H, Hi, Hj. injection Hi as ->. apply andb_true_iff in H as [H _].
    rewrite forallb_forall in H. specialize (H b). rewrite E in H. cbn in H.
    feed specialize H; [|done]. apply elem_of_list_In. by eapply elem_of_list_lookup_2.
  - cbn in H, Hi, Hj. injection Hj as ->. apply andb_true_iff in H as [H _].
    rewrite forallb_forall in H. specialize (H a). rewrite E, orb_true_r in H. cbn in H.
    feed specialize H; [|done]. apply elem_of_list_In. by eapply elem_of_list_lookup_2.
  - cbn in H, Hi, Hj. apply andb_true_iff in H as [_ H]. f_equal. by eapply IH.
Qed.

Lemma distinct_perm l l' : l ≡ₚ l' → distinct_attrs l → distinct_attrs l'.
Proof.
  intros Hp H i j a b Hi Hj E.
  assert (∀ k x, l' !! k = Some x → x ∈ l) as Hin.
  { intros k x Hk. rewrite Hp. by eapply elem_of_list_lookup_2. }
  destruct (elem_of_list_lookup_1 _ _ (Hin _ _ Hi)) as [i' Hi'].
  destruct (elem_of_list_lookup_1 _ _ (Hin _ _ Hj)) as [j' Hj'].
  assert (i' = j') as -> by (by apply (H i' j' a b)).
  assert (a = b) as -> by congruence.
  assert (NoDup l') as Hnd by (rewrite <- Hp; by apply distinct_NoDup).
  by eapply NoDup_lookup.
Qed.

Lemma distinct_app_l l1 l2 : distinct_attrs (l1 ++ l2) → distinct_attrs l1.
Proof.
  intros H i j a b Hi Hj. apply H; by apply lookup_app_l_Some.
Qed.

Lemma attr_at_inj d k k' a :
  distinct_attrs (dense_all_attrs d) → attr_at d k = Some a → attr_at d k' = Some a → k = k'.
Proof.
  intros Hd Hk Hk'. destruct (dense_get_attribute_finds d a) as [s Hs].
  { unfold dense_all_attrs. unfold attr_at in Hk.
    apply bind_Some in Hk as (g & Hg & Ha). apply elem_of_list_In, in_concat.
    exists (g_attrs g). split; apply elem_of_list_In.
    - apply elem_of_list_fmap. exists g. split; [done|]. by eapply elem_of_list_lookup_2.
    - by eapply elem_of_list_lookup_2. }
  destruct (dense_lookup_unique d k a s Hd Hk Hs) as [<- _].
  by destruct (dense_lookup_unique d k' a s Hd Hk' Hs) as [<- _].
Qed.

Lemma get_attribute_exact d a s :
  distinct_attrs (dense_all_attrs d) → a ∈ dense_all_attrs d → dense_get_attribute d a = Ok s →
  sp_attr s = a.
Proof.
  intros Hd Ha Hs. destruct (dense_get_attribute_ok _ _ _ Hs) as (Hat & Heq & _).
  assert (sp_attr s ∈ dense_all_attrs d) as Hin.
  { unfold dense_all_attrs. unfold attr_at in Hat.
    apply bind_Some in Hat as (g & Hg & Hga). apply elem_of_list_In, in_concat.
    exists (g_attrs g). split; apply elem_of_list_In.
    - apply elem_of_list_fmap. exists g. split; [done|]. by eapply elem_of_list_lookup_2.
    - by eapply elem_of_list_lookup_2. }
  apply elem_of_list_lookup in Hin as [i Hi]. apply elem_of_list_lookup in Ha as [j Hj].
  assert (i = j) as -> by (by apply (Hd i j _ _ Hi Hj)). congruence.
Qed.

(** ** Instances without rows *)

(** [d] results from adding the attributes [attrs] and designating [cls] as classes. *)
Record blank (pg : nat) (h : list dop) (d : dense) (attrs cls : list attr) : Prop := {
  bl_run : dense_run pg dense_new h = Ok d;
  bl_ops : ∀ o, o ∈ h → match o with DAdd _ | DClass _ _ => True | _ => False end;
  bl_wf : dense_wf d;
  bl_fixed : d_fixed d = false;
  bl_attrs : dense_all_attrs d ≡ₚ attrs;
  bl_class : ∀ k b, d_class d !! k = Some b → b = true ∧ ∃ a, a ∈ cls ∧ attr_at d k = Some a;
  bl_cls : ∀ a, a ∈ cls → ∃ k, attr_at d k = Some a ∧ d_class d !! k = Some true
}.

Lemma blank_new pg : blank pg [] dense_new [] [].
Proof.
  split; [done| |apply dense_wf_new|done|done| |].
  - intros o Ho. by apply elem_of_nil in Ho.
  - intros k b H. cbn [dense_new d_class] in H. by rewrite lookup_empty in H.
  - intros a Ha. by apply elem_of_nil in Ha.
Qed.

Lemma blank_add pg h d attrs cls a :
  blank pg h d attrs cls →
  ∃ d' s, dense_add pg d a = Ok (d', s) ∧ blank pg (h ++ [DAdd a]) d' (attrs ++ [a]) cls.
Proof.
  intros [Hrun Hops Hwf Hfix Hattrs Hcl1 Hcl2].
  destruct (dense_add_succeeds pg d a Hwf Hfix) as (d' & s & Hadd). exists d', s. split; [done|].
  assert (add_all pg d [a] = Ok (d', [s])) as Hall.
  { cbn [add_all]. rewrite Hadd. done. }
  destruct (add_all_spec pg [a] d d' [s] Hall) as (_ & Hkeep & _ & _ & _ & _).
  assert (dense_step pg d (DAdd a) = Ok d') as Hstep.
  { cbn [dense_step]. rewrite Hadd. done. }
  assert (d_class d' = d_class d) as Hclass.
  { apply (run_class pg [DAdd a]).
    - unfold dense_run. cbn [res_foldl]. rewrite Hstep. done.
    - intros o Ho. by apply elem_of_list_singleton in Ho as ->. }
  split.
  - apply dense_run_snoc. eauto.
  - intros o Ho. apply elem_of_app in Ho as [Ho|Ho]; [by apply Hops|].
    by apply elem_of_list_singleton in Ho as ->.
  - by eapply dense_add_wf.
  - by eapply dense_add_fixed.
  - etrans; [exact (proj1 (dense_add_attrs _ _ _ _ _ Hadd))|]. etrans; [apply Permutation_skip, Hattrs|].
    apply Permutation_cons_append.
  - intros k b Hk. rewrite Hclass in Hk. destruct (Hcl1 k b Hk) as (-> & c & Hc & Hat). eauto.
  - intros c Hc. destruct (Hcl2 c Hc) as (k & Hk & Hcl). exists k. rewrite Hclass. eauto.
Qed.

Lemma blank_class pg h d attrs cls a :
  blank pg h d attrs cls → distinct_attrs attrs → a ∈ attrs →
  ∃ d', dense_set_class d a true = Ok d' ∧ blank pg (h ++ [DClass a true]) d' attrs (cls ++ [a]).
Proof.
  intros [Hrun Hops Hwf Hfix Hattrs Hcl1 Hcl2] Hdist Ha.
  assert (distinct_attrs (dense_all_attrs d)) as Hd by (by eapply distinct_perm).
  destruct (dense_get_attribute_finds d a) as [s Hs]; [by rewrite Hattrs|].
  destruct (dense_get_attribute_ok _ _ _ Hs) as (Hat & Heq & _).
  assert (sp_attr s = a) as Hsa by (eapply get_attribute_exact; [done|by rewrite Hattrs|done]).
  rewrite Hsa in Hat.
  assert (∃ d', dense_set_class d a true = Ok d') as [d' Hset].
  { unfold dense_set_class. rewrite Hs. by eexists. }
  exists d'. split; [done|].
  assert (dense_step pg d (DClass a true) = Ok d') as Hstep.
  { cbn [dense_step]. by rewrite Hset. }
  assert (d_ags d' = d_ags d ∧ d_fixed d' = d_fixed d ∧
    d_class d' = <[(sp_pond s, sp_pos s) := true]> (d_class d)) as (Hags & Hf & Hcl).
  { unfold dense_set_class in Hset. rewrite Hs in Hset. cbn [mbind res_bind] in Hset.
    injection Hset as <-. done. }
  assert (∀ k, attr_at d' k = attr_at d k) as Hat'.
  { intros k. unfold attr_at. by rewrite Hags. }
  split.
  - apply dense_run_snoc. eauto.
  - intros o Ho. apply elem_of_app in Ho as [Ho|Ho]; [by apply Hops|].
    by apply elem_of_list_singleton in Ho as ->.
  - by eapply dense_step_wf.
  - by rewrite Hf.
  - unfold dense_all_attrs. rewrite Hags. exact Hattrs.
  - intros k b Hk. rewrite Hcl in Hk. rewrite Hat'.
    apply lookup_insert_Some in Hk as [[<- <-]|[_ Hk]].
    + split; [done|]. exists a. split; [apply elem_of_app; right; left|done].
    + destruct (Hcl1 k b Hk) as (-> & c & Hc & Hatc). split; [done|]. exists c.
      split; [apply elem_of_app; by left|done].
  - intros c Hc. rewrite Hcl. apply elem_of_app in Hc as [Hc|Hc].
    + destruct (Hcl2 c Hc) as (k & Hk & Hkc). exists k. rewrite Hat'. split; [done|].
      destruct (decide (k = (sp_pond s, sp_pos s))) as [->|]; [apply lookup_insert|].
      by rewrite lookup_insert_ne.
    + apply elem_of_list_singleton in Hc as ->. exists (sp_pond s, sp_pos s). rewrite Hat'.
      split; [done|]. apply lookup_insert.
Qed.

Lemma elem_class_attrs d order a :
  a ∈ class_attrs_in_order d order ↔ ∃ k, (k, true) ∈ order ∧ attr_at d k = Some a.
Proof.
  induction order as [|[k b] order IH]; cbn [class_attrs_in_order].
  - split; [intros H; by apply elem_of_nil in H|]. intros (k & H & _). by apply elem_of_nil in H.
  - rewrite elem_of_app, IH. split.
    + intros [H|(k' & H & Ha)].
      * destruct b; [|by apply elem_of_nil in H].
        destruct (attr_at d k) as [c|] eqn:E; [|by apply elem_of_nil in H].
        apply elem_of_list_singleton in H as ->. exists k. split; [left|done].
      * exists k'. split; [by right|done].
    + intros (k' & H & Ha). apply elem_of_cons in H as [[= -> <-]|H].
      * left. rewrite Ha. left.
      * right. eauto.
Qed.

Lemma class_attrs_NoDup d order :
  distinct_attrs (dense_all_attrs d) → NoDup (map fst order) → NoDup (class_attrs_in_order d order).
Proof.
  intros Hd. induction order as [|[k b] order IH]; cbn [class_attrs_in_order map]; [constructor|].
  intros Hnd. apply NoDup_cons in Hnd as [Hk Hnd]. apply NoDup_app. split; [|split; [|by apply IH]].
  - destruct b; [|constructor]. destruct (attr_at d k); [apply NoDup_singleton|constructor].
  - intros a Ha Hin. destruct b; [|by apply elem_of_nil in Ha].
    destruct (attr_at d k) as [c|] eqn:E; [|by apply elem_of_nil in Ha].
    apply elem_of_list_singleton in Ha as ->. apply elem_class_attrs in Hin as (k' & Hk' & Ha').
    assert (k' = k) as -> by (by eapply attr_at_inj). apply Hk.
    by apply (elem_of_list_fmap_1 fst) in Hk'.
Qed.

Lemma class_attrs_perm d cls order :
  distinct_attrs (dense_all_attrs d) → NoDup cls →
  (∀ k b, d_class d !! k = Some b → b = true ∧ ∃ a, a ∈ cls ∧ attr_at d k = Some a) →
  (∀ a, a ∈ cls → ∃ k, attr_at d k = Some a ∧ d_class d !! k = Some true) →
  class_order d order → class_attrs_in_order d order ≡ₚ cls.
Proof.
  intros Hd Hnd H1 H2 Ho. unfold class_order in Ho. apply NoDup_Permutation; [|done|].
  - apply class_attrs_NoDup; [done|]. rewrite Ho. apply NoDup_fst_map_to_list.
  - intros a. rewrite elem_class_attrs. split.
    + intros (k & Hk & Ha). rewrite Ho in Hk. apply elem_of_map_to_list in Hk.
      destruct (H1 _ _ Hk) as (_ & c & Hc & Hat). congruence.
    + intros Ha. destruct (H2 a Ha) as (k & Hk & Hkc). exists k. split; [|done].
      rewrite Ho. by apply elem_of_map_to_list.
Qed.

(** ** Filling in the cells *)

Lemma last_write_elem h s row v :
  DSet s row v ∈ h →
  (∀ s' v', DSet s' row v' ∈ h → place s' = place s → v' = v) →
  last_write h (sp_pond s) (sp_pos s) row = Some v.
Proof.
  induction h as [|o h IH] using rev_ind; intros Hin Hfun; [by apply elem_of_nil in Hin|].
  rewrite last_write_snoc.
  destruct o as [| | | | |s' r' v']; try (apply IH;
    [apply elem_of_app in Hin as [?|Hin]; [done|by apply elem_of_list_singleton in Hin]
    |intros; eapply Hfun; [apply elem_of_app; by left|done]]).
  case_bool_decide as E.
  - destruct E as (E1 & E2 & ->). f_equal. eapply Hfun; [apply elem_of_app; right; left|].
    unfold place. by rewrite E1, E2.
  - apply elem_of_app in Hin as [Hin|Hin].
    + apply IH; [done|]. intros s'' v'' Hin'. apply Hfun. apply elem_of_app. by left.
    + apply elem_of_list_singleton in Hin as [= <- <- <-]. exfalso. by apply E.
Qed.

(** The calls that write cell [val i j] to row [i] of column [j]. *)
Definition fill (specs : list spec) (n : nat) (val : nat → nat → list N) : list dop :=
  concat (map (λ i, imap (λ j s, DSet s i (val i j)) specs) (seq 0 n)).

Lemma elem_fill specs n val o :
  o ∈ fill specs n val ↔ ∃ i j s, i < n ∧ specs !! j = Some s ∧ o = DSet s i (val i j).
Proof.
  unfold fill. rewrite elem_of_list_In, in_concat. split.
  - intros (l & Hl & Ho). apply elem_of_list_In, elem_of_list_fmap in Hl as (i & -> & Hi).
    apply elem_of_list_In, elem_of_lookup_imap in Ho as (j & s & -> & Hj).
    apply elem_of_seq in Hi. exists i, j, s. split; [lia|done].
  - intros (i & j & s & Hi & Hj & ->). exists (imap (λ j s, DSet s i (val i j)) specs).
    split; apply elem_of_list_In.
    + apply elem_of_list_fmap. exists i. split; [done|]. apply elem_of_seq. lia.
    + apply elem_of_lookup_imap. eauto.
Qed.

Lemma get_attribute_layout d d' a :
  layout d' = layout d → dense_get_attribute d' a = dense_get_attribute d a.
Proof.
  intros Hl. unfold dense_get_attribute.
  assert (∀ gs gs' i, map (λ g, (g_kind g, g_attrs g)) gs' = map (λ g, (g_kind g, g_attrs g)) gs →
    find_in_groups i gs' a = find_in_groups i gs a) as H.
  { induction gs as [|g gs IH]; intros [|g' gs'] i H; cbn in H; try done.
    injection H as _ Ha Hr. cbn [find_in_groups]. rewrite Ha. by rewrite (IH gs' _ Hr). }
  by rewrite (H (d_ags d) (d_ags d') _ Hl).
Qed.

Lemma set_step pg h d s g r v :
  reachable pg h d → column_of d s g → r < d_maxrow d → right_size (g_kind g) v →
  ∃ d', dense_set d s r v = Ok d' ∧ reachable pg (h ++ [DSet s r v]) d' ∧
    layout d' = layout d ∧ d_maxrow d' = d_maxrow d.
Proof.
  intros Hr Hc Hrow Hv. destruct (dense_set_succeeds pg h d s g r v Hr Hc Hrow Hv) as [d1 Hd1].
  exists d1. split; [done|]. split; [|split].
  - apply (reachable_sets pg h d [DSet s r v] d1); [done| |].
    { unfold dense_run. cbn [res_foldl dense_step]. by rewrite Hd1. }
    { intros o Ho. apply elem_of_list_singleton in Ho as ->. eauto 10. }
  - by eapply dense_set_layout.
  - apply dense_set_inv in Hd1 as (g1 & g2 & _ & _ & ->). done.
Qed.

Lemma run_sets pg h d sets :
  reachable pg h d →
  (∀ o, o ∈ sets → ∃ s r v g, o = DSet s r v ∧ column_of d s g ∧ r < d_maxrow d ∧ right_size (g_kind g) v) →
  ∃ d', dense_run pg d sets = Ok d' ∧ layout d' = layout d ∧ d_maxrow d' = d_maxrow d.
Proof.
  revert h d. induction sets as [|o sets IH]; intros h d Hr Hsets; [by exists d|].
  destruct (Hsets o) as (s & r & v & g & -> & Hc & Hrow & Hv); [left|].
  destruct (set_step pg h d s g r v Hr Hc Hrow Hv) as (d1 & Hd1 & Hr1 & Hl1 & Hm1).
  destruct (IH _ d1 Hr1) as (d' & Hd' & Hl' & Hm').
  { intros o Ho. destruct (Hsets o) as (s' & r' & v' & g' & -> & Hc' & Hrow' & Hv'); [by right|].
    destruct (column_of_layout d1 d s' g' (eq_sym Hl1) Hc') as (g'' & Hc'' & Hk'' & _).
    exists s', r', v', g''. split; [done|]. split; [done|]. rewrite Hm1, Hk''. done. }
  exists d'. unfold dense_run. cbn [res_foldl dense_step]. rewrite Hd1. cbn [mbind res_bind].
  split; [done|]. split; congruence.
Qed.

(** The storage of an attribute after Extend. *)
Lemma blank_column pg h d0 attrs cls a s n :
  blank pg h d0 attrs cls → distinct_attrs attrs → a ∈ attrs → dense_get_attribute d0 a = Ok s →
  sp_attr s = a ∧ attr_at d0 (place s) = Some a ∧
  ∃ g, column_of (dense_extend d0 n) s g ∧ g_attrs g !! sp_pos s = Some a ∧ g_kind g = default_kind a.
Proof.
  intros [Hrun Hops Hwf Hfix Hattrs Hc1 Hc2] Hdist Ha Hget.
  destruct (dense_get_attribute_ok _ _ _ Hget) as (Hat & Heq & g0 & Hg0).
  assert (distinct_attrs (dense_all_attrs d0)) as Hd0 by (by eapply distinct_perm).
  assert (a ∈ dense_all_attrs d0) as Hin by (by rewrite Hattrs).
  assert (sp_attr s = a) as Hsa by (by eapply get_attribute_exact).
  rewrite Hsa in Hat. split; [done|]. split; [done|].
  pose proof (dense_extend_layout d0 n) as Hl1.
  destruct (column_of_layout (dense_extend d0 n) d0 s g0 (eq_sym Hl1) Hg0) as (g & Hg & Hk & Hga).
  assert (g_attrs g !! sp_pos s = Some a) as Hga'.
  { rewrite Hga. destruct Hg0 as [Hg0 _]. unfold attr_at in Hat. cbn [fst snd] in Hat.
    by rewrite Hg0 in Hat. }
  exists g. split; [done|]. split; [done|].
  assert (dense_run pg dense_new (h ++ [DExtend n]) = Ok (dense_extend d0 n)) as Hrun1.
  { apply dense_run_snoc. exists d0. done. }
  apply (default_column_kind pg (h ++ [DExtend n]) (dense_extend d0 n) s g a Hrun1); [| |done|done].
  - intros a' ag Ho. apply elem_of_app in Ho as [Ho|Ho]; [by specialize (Hops _ Ho)|].
    by apply elem_of_list_singleton in Ho.
  - intros nm z Ho. apply elem_of_app in Ho as [Ho|Ho]; [by specialize (Hops _ Ho)|].
    by apply elem_of_list_singleton in Ho.
Qed.

(** Writing every cell of every column. *)
Lemma fill_table pg h d0 attrs cls cols specs n val d1 :
  blank pg h d0 attrs cls → distinct_attrs attrs → NoDup cls →
  dense_extend d0 n = d1 →
  cols ≡ₚ attrs →
  Forall2 (λ a s, dense_get_attribute d0 a = Ok s) cols specs →
  (∀ i j a, i < n → cols !! j = Some a → right_size (default_kind a) (val i j)) →
  d_maxrow d0 = 0 ∧
  ∃ d, dense_run pg d1 (fill specs n val) = Ok d ∧
    (dense_all_attrs d ≡ₚ attrs ∧ (dense_size d).2 = n ∧
     (∀ order, class_order d order → class_attrs_in_order d order ≡ₚ cls)) ∧
    ∀ i j a, i < n → cols !! j = Some a →
      ∃ s, dense_get_attribute d a = Ok s ∧ sp_attr s = a ∧
        dense_get d s i = Ok (cell_value (default_kind a) (Some (val i j))).
Proof.
  intros Hb Hdist Hnd <- Hcols Hspecs Hval. pose proof Hb as Hb0. destruct Hb as [Hrun Hops Hwf Hfix Hattrs Hc1 Hc2].
  assert (reachable pg h d0) as Hr0.
  { apply reachable_plain; [done|]. intros o Ho. specialize (Hops o Ho). by destruct o. }
  assert (rows_extended h = 0) as Hrows0.
  { clear -Hops. induction h as [|o h IH]; [done|].
    pose proof (Hops o (elem_of_list_here _ _)) as Ho.
    assert (rows_extended h = 0) as IH' by (apply IH; intros o' Ho'; apply Hops; by right).
    destruct o; try done; cbn; exact IH'. }
  assert (d_maxrow d0 = 0) as Hm0.
  { rewrite <- Hrows0, <- (dense_rows _ _ _ Hr0). done. }
  split; [done|].
  set (d1 := dense_extend d0 n).
  assert (dense_run pg dense_new (h ++ [DExtend n]) = Ok d1) as Hrun1.
  { apply dense_run_snoc. exists d0. done. }
  assert (∀ o, o ∈ h ++ [DExtend n] → match o with DSet _ _ _ | DAddTo _ _ => False | _ => True end) as Hplain.
  { intros o Ho. apply elem_of_app in Ho as [Ho|Ho].
    - specialize (Hops o Ho). by destruct o.
    - by apply elem_of_list_singleton in Ho as ->. }
  assert (reachable pg (h ++ [DExtend n]) d1) as Hr1 by (by apply reachable_plain).
  pose proof (dense_extend_layout d0 n) as Hl1. fold d1 in Hl1.
  assert (d_maxrow d1 = n) as Hm1.
  { unfold d1, dense_extend. cbn. lia. }
  assert (∀ j a, cols !! j = Some a → ∃ s g, specs !! j = Some s ∧ dense_get_attribute d0 a = Ok s ∧
    sp_attr s = a ∧ attr_at d0 (place s) = Some a ∧ column_of d1 s g ∧
    g_attrs g !! sp_pos s = Some a ∧ g_kind g = default_kind a) as Hcol.
  { intros j a Hj. destruct (Forall2_lookup_l _ _ _ _ _ Hspecs Hj) as (s & Hs & Hget).
    destruct (blank_column pg h d0 attrs cls a s n Hb0 Hdist) as (Hsa & Hat & g & Hg & Hga & Hk); [|done|].
    { rewrite <- Hcols. by eapply elem_of_list_lookup_2. }
    exists s, g. done. }
  assert (length cols = length specs) as Hlen by (by eapply Forall2_length).
  assert (∀ o, o ∈ fill specs n val → ∃ s r v g, o = DSet s r v ∧ column_of d1 s g ∧
    r < d_maxrow d1 ∧ right_size (g_kind g) v) as Hfill.
  { intros o Ho. apply elem_fill in Ho as (i & j & s & Hi & Hj & ->).
    destruct (lookup_lt_is_Some_2 cols j) as [a Ha].
    { rewrite Hlen. by eapply lookup_lt_Some. }
    destruct (Hcol j a Ha) as (s' & g & Hs' & _ & _ & _ & Hg & _ & Hk).
    assert (s' = s) as -> by congruence. exists s, i, (val i j), g. rewrite Hm1, Hk.
    repeat (split; [done|]). by apply Hval. }
  destruct (run_sets pg _ d1 (fill specs n val) Hr1 Hfill) as (d & Hd & Hld & Hmd).
  exists d. split; [done|].
  destruct (reachable_sets pg _ d1 _ d Hr1 Hd) as [Hrd Hatd].
  { intros o Ho. destruct (Hfill o Ho) as (s & r & v & g & -> & Hg & _). eauto 10. }
  assert (∀ k, attr_at d k = attr_at d0 k) as Hatd0.
  { intros k. by apply layout_attr_at; rewrite Hld. }
  assert (dense_all_attrs d = dense_all_attrs d0) as Hall.
  { apply layout_all_attrs. by rewrite Hld. }
  assert (d_class d = d_class d0) as Hclass.
  { transitivity (d_class d1); [|done]. apply (run_class pg (fill specs n val)); [done|].
    intros o Ho. by apply elem_fill in Ho as (i & j & s & _ & _ & ->). }
  split.
  { split; [by rewrite Hall|]. split; [cbn; by rewrite Hmd|].
    intros order Ho. apply class_attrs_perm; [by rewrite Hall; eapply distinct_perm|done| | |done].
    - intros k b. rewrite Hclass, Hatd0. apply Hc1.
    - intros a Ha. setoid_rewrite Hatd0. rewrite Hclass. by apply Hc2. }
  intros i j a Hi Hj. destruct (Hcol j a Hj) as (s & g & Hs & Hget & Hsa & Hat & Hg & Hga & Hk).
  assert (distinct_attrs (dense_all_attrs d)) as Hdd by (by rewrite Hall; eapply distinct_perm).
  assert (a ∈ dense_all_attrs d) as Hin.
  { rewrite Hall, Hattrs, <- Hcols. by eapply elem_of_list_lookup_2. }
  destruct (dense_get_attribute_finds d a Hin) as [s' Hs'].
  assert (sp_attr s' = a) as Hsa' by (by eapply get_attribute_exact).
  destruct (dense_lookup_unique d (place s) a s' Hdd) as [Hpl _]; [by rewrite Hatd0|done|].
  exists s'. split; [done|]. split; [done|].
  assert (s' = s) as ->.
  { destruct s as [sa sb sc], s' as [sa' sb' sc']. unfold place in Hpl. cbn in *. congruence. }
  destruct (column_of_layout d d1 s g (eq_sym Hld)) as (g' & Hg' & Hk' & _); [done|].
  rewrite (dense_refines_table _ _ _ _ _ _ Hrd Hg') by (rewrite Hmd, Hm1; done).
  rewrite Hk', Hk. do 2 f_equal. rewrite last_write_base by (intros o Ho; specialize (Hplain o Ho); by destruct o).
  apply last_write_elem.
  - apply elem_fill. eauto 10.
  - intros s' v' Ho Hp. apply elem_fill in Ho as (i' & j' & s'' & _ & Hj' & [= -> <- ->]).
    destruct (lookup_lt_is_Some_2 cols j') as [a' Ha'].
    { rewrite Hlen. by eapply lookup_lt_Some. }
    destruct (Hcol j' a' Ha') as (s3 & g3 & Hs3 & _ & _ & Hat3 & _).
    assert (s3 = s'') as -> by congruence. rewrite Hp in Hat3.
    assert (a' = a) as -> by congruence.
    assert (j' = j) as ->; [|done].
    assert (NoDup cols) as Hndc by (rewrite Hcols; by apply distinct_NoDup).
    by eapply NoDup_lookup.
Qed.
