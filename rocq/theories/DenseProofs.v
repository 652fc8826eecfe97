(** Lemmas about DenseInstances. *)
From Verif Require Import Prelude BytesModel AttrModel AttrSpec AttrProofs
  StoreModel StoreProofs DenseModel DenseSpec.
From stdpp Require Import pretty.
Local Open Scope nat_scope.

(** ** The res monad *)

Lemma bind_Ok {A B} (m : res A) (f : A → res B) b :
  m ≫= f = Ok b ↔ ∃ a, m = Ok a ∧ f a = Ok b.
Proof.
  destruct m; simpl; split; try done.
  - intros; eauto.
  - intros (a' & [= <-] & H). done.
  - intros (a' & ? & H). done.
  - intros (a' & ? & H). done.
Qed.

Lemma idx_Ok {A} (l : list A) i x : idx l i = Ok x ↔ l !! i = Some x.
Proof. unfold idx. destruct (l !! i); split; congruence. Qed.

Lemma res_foldl_app {A B} (f : B → A → res B) b l1 l2 :
  res_foldl f b (l1 ++ l2) = b' ← res_foldl f b l1; res_foldl f b' l2.
Proof.
  revert b. induction l1 as [|x l1 IH]; intros b; simpl; [done|].
  destruct (f b x); simpl; [apply IH|done|done].
Qed.

Lemma res_mapM_Ok {A B} (f : A → res B) l k :
  res_mapM f l = Ok k ↔ Forall2 (λ x y, f x = Ok y) l k.
Proof.
  revert k. induction l as [|x l IH]; intros k; simpl.
  - split.
    + intros [= <-]. constructor.
    + intros H. by inversion H.
  - rewrite bind_Ok. split.
    + intros (y & Hy & H). apply bind_Ok in H as (ys & Hys & [= <-]).
      constructor; [done|]. by apply IH.
    + intros H. inversion H as [|? y ? ys Hy Hys]; subst.
      exists y. split; [done|]. apply bind_Ok. exists ys. split; [by apply IH|done].
Qed.

Lemma dense_run_app pg d h1 h2 :
  dense_run pg d (h1 ++ h2) = d1 ← dense_run pg d h1; dense_run pg d1 h2.
Proof. apply res_foldl_app. Qed.

Lemma dense_run_snoc pg d h o d' :
  dense_run pg d (h ++ [o]) = Ok d' ↔
  ∃ d1, dense_run pg d h = Ok d1 ∧ dense_step pg d1 o = Ok d'.
Proof.
  rewrite dense_run_app, bind_Ok. unfold dense_run. simpl.
  split; intros (d1 & H1 & H2); exists d1; split; try done.
  - apply bind_Ok in H2 as (d2 & H2 & [= <-]). done.
  - rewrite H2. done.
Qed.

(** ** Well-formedness *)

Record dense_wf (d : dense) : Prop := {
  wf_rows : Forall (λ g, group_rows_ok g (d_maxrow d)) (d_ags d);
  wf_unfixed : d_fixed d = false → d_maxrow d = 0;
  wf_agmap : map_Forall (λ _ id, id < length (d_ags d)) (d_agmap d)
}.

Lemma dense_wf_new : dense_wf dense_new.
Proof. split; simpl; [constructor|done|apply map_Forall_empty]. Qed.

Lemma group_rows_ok_0 g : group_rows_ok g 0 ↔ g_alloc g = [].
Proof.
  unfold group_rows_ok. simpl. split; [apply nil_length_inv|by intros ->].
Qed.

Lemma group_rows_add g a : group_rows_ok g 0 → group_rows_ok (group_add g a) 0.
Proof. rewrite !group_rows_ok_0. done. Qed.

Lemma create_group_inv d name size d' :
  create_group d name size = Ok d' →
  d_fixed d = false ∧
  d' = Dense (<[name := length (d_ags d)]> (d_agmap d)) (d_agrev d ++ [name])
        (d_ags d ++ [if negb (size =? 0) then Group (GFixed size) [] [] 0
           else Group GBits [] [] 0]) false (d_class d) (d_maxrow d)
        (d_floatbytes d) (d_catbytes d) (d_binbits d).
Proof.
  unfold create_group. destruct (d_fixed d) eqn:E; [done|].
  intros [= <-]. split; done.
Qed.

Lemma create_group_wf d name size d' :
  dense_wf d → create_group d name size = Ok d' → dense_wf d'.
Proof.
  intros [Hr Hu Ha] H. apply create_group_inv in H as [Hf ->].
  split; simpl.
  - apply Forall_app. split; [done|]. constructor; [|constructor].
    rewrite (Hu Hf). apply group_rows_ok_0. by destruct (negb _).
  - intros _. by apply Hu.
  - rewrite app_length. simpl. intros k id. rewrite lookup_insert_Some.
    intros [[<- <-]|[_ Hk]]; [lia|]. specialize (Ha k id Hk). simpl in Ha. lia.
Qed.

Lemma add_in_group_inv d id a d' s :
  add_in_group d id a = Ok (d', s) →
  ∃ p, d_ags d !! id = Some p ∧
    d' = Dense (d_agmap d) (d_agrev d) (<[id := group_add p a]> (d_ags d))
      (d_fixed d) (d_class d) (d_maxrow d) (d_floatbytes d) (d_catbytes d) (d_binbits d) ∧
    s = Spec id (length (g_attrs p)) a.
Proof.
  unfold add_in_group. rewrite bind_Ok. intros (p & Hp & H).
  apply idx_Ok in Hp. injection H as <- <-. exists p. split; [done|].
  split; [done|]. simpl. rewrite app_length. simpl. f_equal. lia.
Qed.

Lemma add_in_group_wf d id a d' s :
  d_fixed d = false → dense_wf d → add_in_group d id a = Ok (d', s) → dense_wf d'.
Proof.
  intros Hf [Hr Hu Ha] H. apply add_in_group_inv in H as (p & Hp & -> & _).
  split; simpl.
  - apply Forall_insert; [done|]. rewrite (Hu Hf).
    apply group_rows_add. pose proof (Forall_lookup_1 _ _ _ _ Hr Hp) as H1.
    simpl in H1. by rewrite (Hu Hf) in H1.
  - done.
  - rewrite insert_length. done.
Qed.

Lemma dense_add_inv pg d a d' s :
  dense_add pg d a = Ok (d', s) →
  d_fixed d = false ∧
  ∃ f c b d1 id, 
    let d0 := Dense (d_agmap d) (d_agrev d) (d_ags d) (d_fixed d) (d_class d)
                (d_maxrow d) f c b in
    let '(cnt, ag, bin) := default_group pg d a in
    cnt = (f, c, b) ∧
    ((∃ i, d_agmap d !! ag = Some i ∧ d1 = d0) ∨
     (d_agmap d !! ag = None ∧
      create_group d0 ag (if bin : bool then 0 else 8) = Ok d1)) ∧
    id = default 0 (d_agmap d1 !! ag) ∧
    add_in_group d1 id a = Ok (d', s).
Proof.
  unfold dense_add. destruct (d_fixed d) eqn:E; [done|]. intros H.
  split; [done|].
  destruct (default_group pg d a) as [[[[f c] b] ag] bin] eqn:Ed.
  apply bind_Ok in H as (d1 & H1 & H2). cbn [d_agmap] in H1.
  exists f, c, b, d1, (default 0 (d_agmap d1 !! ag)).
  split; [done|]. split; [|done].
  destruct (d_agmap d !! ag) as [i|] eqn:Ei.
  - left. exists i. injection H1 as <-. done.
  - right. split; [done|]. by destruct bin.
Qed.

Lemma dense_add_wf pg d a d' s :
  dense_wf d → dense_add pg d a = Ok (d', s) → dense_wf d'.
Proof.
  intros Hwf H. apply dense_add_inv in H as (Hf & f & c & b & d1 & id & H).
  destruct (default_group pg d a) as [[cnt ag] bin].
  destruct H as (-> & H1 & -> & H2).
  assert (dense_wf (Dense (d_agmap d) (d_agrev d) (d_ags d) (d_fixed d) (d_class d)
                (d_maxrow d) f c b)) as Hwf0.
  { destruct Hwf as [Hr Hu Ha]. split; done. }
  destruct H1 as [(i & Hi & ->)|[Hn Hc]].
  - eapply add_in_group_wf; [|exact Hwf0|exact H2]. done.
  - pose proof Hc as Hc'. apply create_group_inv in Hc' as [_ Hd1].
    eapply add_in_group_wf; [|by eapply create_group_wf|exact H2].
    by rewrite Hd1.
Qed.

Lemma dense_add_to_group_inv d a ag d' s :
  dense_add_to_group d a ag = Ok (d', s) →
  ∃ id, d_agmap d !! ag = Some id ∧ add_in_group d id a = Ok (d', s).
Proof.
  unfold dense_add_to_group. destruct (d_agmap d !! ag) as [id|]; [|done].
  rewrite bind_Ok. intros (p & Hp & H).
  destruct (some_incompatible _ _); [done|]. eauto.
Qed.

Lemma dense_extend_wf d n : dense_wf d → dense_wf (dense_extend d n).
Proof.
  intros [Hr Hu Ha]. split; simpl.
  - apply Forall_fmap. eapply Forall_impl; [exact Hr|].
    intros g Hg. simpl. by apply group_resize_rows.
  - done.
  - rewrite map_length. done.
Qed.

Lemma dense_set_inv d s row val d' :
  dense_set d s row val = Ok d' →
  ∃ g g', d_ags d !! sp_pond s = Some g ∧
    group_set g (sp_pos s) row val = Ok g' ∧
    d' = Dense (d_agmap d) (d_agrev d) (<[sp_pond s := g']> (d_ags d)) (d_fixed d)
        (d_class d) (d_maxrow d) (d_floatbytes d) (d_catbytes d) (d_binbits d).
Proof.
  unfold dense_set. rewrite bind_Ok. intros (g & Hg & H).
  apply idx_Ok in Hg. apply bind_Ok in H as (g' & Hs & [= <-]).
  exists g, g'. done.
Qed.

Lemma group_set_rows_ok g col row val g' rows :
  group_set g col row val = Ok g' → group_rows_ok g rows → group_rows_ok g' rows.
Proof.
  intros H Hr. pose proof (group_set_kind _ _ _ _ _ H) as (Hk & Ha & Hl).
  unfold group_rows_ok, row_size in *. by rewrite Hk, Ha, Hl.
Qed.

Lemma dense_set_wf d s row val d' :
  dense_wf d → dense_set d s row val = Ok d' → dense_wf d'.
Proof.
  intros [Hr Hu Ha] H. apply dense_set_inv in H as (g & g' & Hg & Hs & ->).
  split; simpl.
  - apply Forall_insert; [done|]. eapply group_set_rows_ok; [done|].
    by eapply Forall_lookup_1 in Hr.
  - done.
  - by rewrite insert_length.
Qed.

Lemma dense_set_class_inv d a on d' :
  dense_set_class d a on = Ok d' →
  ∃ k, d' = Dense (d_agmap d) (d_agrev d) (d_ags d) (d_fixed d)
        (<[k := on]> (d_class d)) (d_maxrow d)
        (d_floatbytes d) (d_catbytes d) (d_binbits d).
Proof.
  unfold dense_set_class. rewrite bind_Ok. intros (s & _ & [= <-]). eauto.
Qed.

(** One step preserves well-formedness, except for adding to a group after
    [Extend]. *)
Lemma dense_step_wf pg d o d' :
  dense_wf d → (∀ a ag, o = DAddTo a ag → d_fixed d = false) →
  dense_step pg d o = Ok d' → dense_wf d'.
Proof.
  intros Hwf Hlate H. destruct o as [a|name size|a ag|a on|n|s row val]; simpl in H.
  - destruct (dense_add pg d a) as [[d1 s]| |] eqn:E; simpl in H; try done.
    + injection H as <-. by eapply dense_add_wf.
    + by injection H as <-.
  - unfold dense_create_group in H.
    destruct (create_group d name size) as [d1| |] eqn:E; simpl in H; try done;
      injection H as <-; try done. by eapply create_group_wf.
  - destruct (dense_add_to_group d a ag) as [[d1 s]| |] eqn:E; simpl in H; try done.
    + injection H as <-. apply dense_add_to_group_inv in E as (id & Hid & E).
      eapply add_in_group_wf; [by eapply Hlate|done|done].
    + by injection H as <-.
  - destruct (dense_set_class d a on) as [d1| |] eqn:E; simpl in H; try done.
    + injection H as <-. apply dense_set_class_inv in E as (k & ->).
      destruct Hwf as [Hr Hu Ha]. split; done.
    + by injection H as <-.
  - injection H as <-. by apply dense_extend_wf.
  - by eapply dense_set_wf.
Qed.

(** [fixed] is set exactly by [Extend]. *)
Lemma dense_step_fixed pg d o d' :
  dense_step pg d o = Ok d' →
  d_fixed d' = match o with DExtend _ => true | _ => d_fixed d end.
Proof.
  intros H. destruct o as [a|name size|a ag|a on|n|s row val]; simpl in H.
  - destruct (dense_add pg d a) as [[d1 s]| |] eqn:E; simpl in H; try done;
      injection H as <-; [|done].
    apply dense_add_inv in E as (Hf & f & c & b & d1' & id & H).
    destruct (default_group pg d a) as [[cnt ag] bin].
    destruct H as (-> & H1 & -> & H2).
    apply add_in_group_inv in H2 as (p & _ & -> & _). simpl.
    destruct H1 as [(i & Hi & ->)|[Hn Hc]]; [done|].
    apply create_group_inv in Hc as [_ ->]. by rewrite Hf.
  - unfold dense_create_group in H.
    destruct (create_group d name size) as [d1| |] eqn:E; simpl in H; try done;
      injection H as <-; try done.
    apply create_group_inv in E as [Hf ->]. by rewrite Hf.
  - destruct (dense_add_to_group d a ag) as [[d1 s]| |] eqn:E; simpl in H; try done;
      injection H as <-; [|done].
    apply dense_add_to_group_inv in E as (id & Hid & E).
    by apply add_in_group_inv in E as (p & _ & -> & _).
  - destruct (dense_set_class d a on) as [d1| |] eqn:E; simpl in H; try done;
      injection H as <-; [|done].
    by apply dense_set_class_inv in E as (k & ->).
  - by injection H as <-.
  - by apply dense_set_inv in H as (g & g' & _ & _ & ->).
Qed.

Lemma dense_run_fixed pg h d :
  dense_run pg dense_new h = Ok d → (∀ n, DExtend n ∉ h) → d_fixed d = false.
Proof.
  revert d. induction h as [|o h IH] using rev_ind; intros d Hrun Hno.
  - by injection Hrun as <-.
  - apply dense_run_snoc in Hrun as (d1 & H1 & H2).
    assert (d_fixed d1 = false) as Hf1.
    { apply IH; [done|]. intros n Hin. apply (Hno n), elem_of_app. by left. }
    apply dense_step_fixed in H2. rewrite H2. destruct o; try done.
    exfalso. apply (Hno n), elem_of_app. right. left.
Qed.

(** Layout: group kinds and attributes. *)
Definition layout (d : dense) : list (gkind * list attr) :=
  map (λ g, (g_kind g, g_attrs g)) (d_ags d).

Lemma dense_extend_layout d n : layout (dense_extend d n) = layout d.
Proof. unfold layout. simpl. rewrite map_map. done. Qed.

Lemma dense_set_layout d s row val d' :
  dense_set d s row val = Ok d' → layout d' = layout d.
Proof.
  intros H. apply dense_set_inv in H as (g & g' & Hg & Hs & ->).
  apply group_set_kind in Hs as (Hk & Ha & _).
  unfold layout. simpl. rewrite list_fmap_insert. apply list_insert_id.
  rewrite list_lookup_fmap, Hg. simpl. by rewrite Hk, Ha.
Qed.

(** ** The refinement *)

Lemma last_write_snoc h o pond pos row :
  last_write (h ++ [o]) pond pos row =
  match o with
  | DSet s r v => if bool_decide (sp_pond s = pond ∧ sp_pos s = pos ∧ r = row)
                  then Some v else last_write h pond pos row
  | _ => last_write h pond pos row
  end.
Proof. unfold last_write. rewrite foldl_app. simpl. by destruct o. Qed.

Lemma rows_extended_snoc h o :
  rows_extended (h ++ [o]) =
  rows_extended h + match o with DExtend k => k | _ => 0 end.
Proof.
  unfold rows_extended. induction h as [|x h IH]; simpl.
  - destruct o; lia.
  - destruct x; lia.
Qed.

Lemma stored_cell_value k v : fits k v → stored k v = cell_value k (Some v).
Proof. destruct k; simpl; [done|]. by destruct v. Qed.

Lemma dense_get_group d s row g :
  d_ags d !! sp_pond s = Some g → dense_get d s row = group_get g (sp_pos s) row.
Proof. intros Hg. unfold dense_get, idx. by rewrite Hg. Qed.

Lemma zero_cell_value k : zero_cell k = cell_value k None.
Proof. by destruct k. Qed.

Definition cells_ok (h : list dop) (d : dense) : Prop :=
  ∀ s g row, column_of d s g → row < d_maxrow d →
    dense_get d s row =
    Ok (cell_value (g_kind g) (last_write h (sp_pond s) (sp_pos s) row)).

(** If nothing was written outside the allocated rows... *)
Definition writes_in_range (h : list dop) (d : dense) : Prop :=
  ∀ s g row, column_of d s g → d_maxrow d ≤ row →
    last_write h (sp_pond s) (sp_pos s) row = None.

(** Fixed groups never have cell size 0 (size 0 requests a bit group). *)
Definition kinds_ok (d : dense) : Prop := Forall (λ g, g_kind g ≠ GFixed 0) (d_ags d).

Lemma add_in_group_kinds d id a d' s :
  kinds_ok d → add_in_group d id a = Ok (d', s) → kinds_ok d'.
Proof.
  intros Hk H. apply add_in_group_inv in H as (p & Hp & -> & _).
  unfold kinds_ok in *. simpl. apply Forall_insert; [done|]. simpl.
  by eapply Forall_lookup_1 in Hk.
Qed.

Lemma create_group_kinds d name size d' :
  kinds_ok d → create_group d name size = Ok d' → kinds_ok d'.
Proof.
  intros Hk H. apply create_group_inv in H as [_ ->].
  unfold kinds_ok in *. simpl. apply Forall_app. split; [done|].
  constructor; [|constructor]. destruct (size =? 0) eqn:E; simpl; [done|].
  intros [= ->]. done.
Qed.

Lemma layout_kinds d d' : layout d' = layout d → kinds_ok d → kinds_ok d'.
Proof.
  unfold kinds_ok, layout. intros Hl Hk.
  assert (Forall (λ p : gkind * list attr, p.1 ≠ GFixed 0)
    (map (λ g, (g_kind g, g_attrs g)) (d_ags d))) as H.
  { apply List.Forall_map. exact Hk. }
  rewrite <- Hl in H. exact (proj1 (List.Forall_map _ _ _) H).
Qed.

Lemma dense_step_kinds pg d o d' :
  kinds_ok d → dense_step pg d o = Ok d' → kinds_ok d'.
Proof.
  intros Hk H. destruct o as [a|name size|a ag|a on|n|s row val]; simpl in H.
  - destruct (dense_add pg d a) as [[d1 s]| |] eqn:E; simpl in H; try done;
      injection H as <-; [|done].
    apply dense_add_inv in E as (Hf & f & c & b & d1' & id & H).
    destruct (default_group pg d a) as [[cnt ag] bin].
    destruct H as (-> & H1 & -> & H2).
    eapply add_in_group_kinds; [|exact H2].
    destruct H1 as [(i & Hi & ->)|[Hn Hc]]; [done|].
    eapply create_group_kinds; [|exact Hc]. done.
  - unfold dense_create_group in H.
    destruct (create_group d name size) as [d1| |] eqn:E; simpl in H; try done;
      injection H as <-; try done. by eapply create_group_kinds.
  - destruct (dense_add_to_group d a ag) as [[d1 s]| |] eqn:E; simpl in H; try done;
      injection H as <-; [|done].
    apply dense_add_to_group_inv in E as (id & Hid & E).
    by eapply add_in_group_kinds.
  - destruct (dense_set_class d a on) as [d1| |] eqn:E; simpl in H; try done;
      injection H as <-; [|done].
    by apply dense_set_class_inv in E as (k & ->).
  - injection H as <-. eapply layout_kinds; [apply dense_extend_layout|done].
  - eapply layout_kinds; [by eapply dense_set_layout|done].
Qed.

Lemma column_of_layout d d' s g :
  layout d' = layout d → column_of d' s g →
  ∃ g0, column_of d s g0 ∧ g_kind g0 = g_kind g ∧ g_attrs g0 = g_attrs g.
Proof.
  intros Hl [Hg Hp].
  assert (layout d' !! sp_pond s = Some (g_kind g, g_attrs g)) as H1.
  { unfold layout. rewrite list_lookup_fmap, Hg. done. }
  rewrite Hl in H1. unfold layout in H1.
  rewrite list_lookup_fmap in H1.
  destruct (d_ags d !! sp_pond s) as [g0|] eqn:E; [|done].
  simpl in H1. injection H1 as Hk Ha. exists g0.
  split; [split; [done|by rewrite Ha]|]. done.
Qed.

Lemma writes_snoc_other h o d d' :
  (∀ s r v, o ≠ DSet s r v) →
  (∀ s g, column_of d' s g → ∃ g0, column_of d s g0) →
  d_maxrow d ≤ d_maxrow d' →
  writes_in_range h d → writes_in_range (h ++ [o]) d'.
Proof.
  intros Ho Hcol Hle Hw s g row Hs Hr. rewrite last_write_snoc.
  destruct (Hcol s g Hs) as [g0 Hg0].
  assert (last_write h (sp_pond s) (sp_pos s) row = None) as H.
  { eapply Hw; [done|lia]. }
  destruct o; try done. by edestruct Ho.
Qed.

(** The history invariant. *)
Record inv (h : list dop) (d : dense) : Prop := {
  inv_wf : dense_wf d;
  inv_kinds : kinds_ok d;
  inv_cells : cells_ok h d;
  inv_writes : ∀ pond pos row, d_maxrow d ≤ row → last_write h pond pos row = None;
  inv_rows : d_maxrow d = rows_extended h
}.

Lemma inv_step pg h d o d' :
  inv h d →
  (∀ a ag, o = DAddTo a ag → d_fixed d = false) →
  (∀ s r v, o = DSet s r v → ∃ g, column_of d s g) →
  dense_step pg d o = Ok d' → inv (h ++ [o]) d'.
Proof.
  intros [Hwf Hk Hc Hw Hr] Hlate Hvalid Hstep.
  assert (dense_wf d') as Hwf' by by eapply dense_step_wf.
  assert (kinds_ok d') as Hk' by by eapply dense_step_kinds.
  (* Steps that add columns happen while there are no rows. *)
  assert (∀ (Hnoset : ∀ s r v, o ≠ DSet s r v), 
    d_maxrow d' = d_maxrow d → rows_extended (h ++ [o]) = rows_extended h →
    (d_maxrow d = 0 ∨ d_ags d' = d_ags d) → inv (h ++ [o]) d') as Hquiet.
  { intros Hnoset Hmr Hre Hcase. split; try done.
    - intros s g row Hs Hrow. rewrite last_write_snoc.
      destruct Hcase as [H0|Hags]; [lia|].
      assert (dense_get d' s row = dense_get d s row) as ->.
      { unfold dense_get. by rewrite Hags. }
      assert (column_of d s g) as Hs' by (unfold column_of in *; by rewrite <- Hags).
      rewrite (Hc s g row Hs' ltac:(lia)).
      destruct o; try done. by edestruct Hnoset.
    - intros pond pos row Hrow. rewrite last_write_snoc.
      assert (last_write h pond pos row = None) as H by (apply Hw; lia).
      destruct o; try done. by edestruct Hnoset.
    - lia. }
  destruct o as [a|name size|a ag|a on|n|s row val].
  - apply Hquiet; clear Hquiet; try done.
    + simpl in Hstep.
      destruct (dense_add pg d a) as [[d1 s]| |] eqn:E; simpl in Hstep; try done;
        injection Hstep as <-; [|done].
      apply dense_add_inv in E as (Hf & f & c & b & d1' & id & H).
      destruct (default_group pg d a) as [[cnt ag] bin].
      destruct H as (-> & H1 & -> & H2).
      apply add_in_group_inv in H2 as (p & _ & -> & _). simpl.
      destruct H1 as [(i & Hi & ->)|[Hn Hcr]]; [done|].
      by apply create_group_inv in Hcr as [_ ->].
    + rewrite rows_extended_snoc. lia.
    + simpl in Hstep.
      destruct (dense_add pg d a) as [[d1 s]| |] eqn:E; simpl in Hstep; try done;
        injection Hstep as <-; [|by right].
      left. apply dense_add_inv in E as (Hf & _). by apply wf_unfixed.
  - apply Hquiet; clear Hquiet; try done.
    + simpl in Hstep. unfold dense_create_group in Hstep.
      destruct (create_group d name size) as [d1| |] eqn:E; simpl in Hstep; try done;
        injection Hstep as <-; try done.
      by apply create_group_inv in E as [_ ->].
    + rewrite rows_extended_snoc. lia.
    + simpl in Hstep. unfold dense_create_group in Hstep.
      destruct (create_group d name size) as [d1| |] eqn:E; simpl in Hstep; try done;
        injection Hstep as <-; try by right.
      left. apply create_group_inv in E as [Hf _]. by apply wf_unfixed.
  - apply Hquiet; clear Hquiet; try done.
    + simpl in Hstep.
      destruct (dense_add_to_group d a ag) as [[d1 s]| |] eqn:E; simpl in Hstep; try done;
        injection Hstep as <-; [|done].
      apply dense_add_to_group_inv in E as (id & Hid & E).
      by apply add_in_group_inv in E as (p & _ & -> & _).
    + rewrite rows_extended_snoc. lia.
    + left. apply wf_unfixed; [done|]. by eapply Hlate.
  - apply Hquiet; clear Hquiet; try done.
    + simpl in Hstep.
      destruct (dense_set_class d a on) as [d1| |] eqn:E; simpl in Hstep; try done;
        injection Hstep as <-; [|done].
      by apply dense_set_class_inv in E as (k & ->).
    + rewrite rows_extended_snoc. lia.
    + right. simpl in Hstep.
      destruct (dense_set_class d a on) as [d1| |] eqn:E; simpl in Hstep; try done;
        injection Hstep as <-; [|done].
      by apply dense_set_class_inv in E as (k & ->).
  - clear Hquiet. simpl in Hstep. injection Hstep as <-. split; try done.
    + intros s g row Hs Hrow. rewrite last_write_snoc.
      destruct Hs as [Hg Hp]. cbn [dense_extend d_ags] in Hg.
      rewrite list_lookup_fmap in Hg.
      destruct (d_ags d !! sp_pond s) as [g0|] eqn:E; [|done].
      simpl in Hg. injection Hg as <-.
      rewrite (dense_get_group (dense_extend d n) s row
        (group_resize g0 (n * row_size g0))).
      2: { cbn [dense_extend d_ags]. rewrite list_lookup_fmap, E. done. }
      assert (group_rows_ok g0 (d_maxrow d)) as Hro.
      { destruct Hwf as [Hrows _ _]. by eapply Forall_lookup_1 in Hrows. }
      cbn [g_kind group_resize]. simpl in Hp, Hrow.
      destruct (decide (row < d_maxrow d)) as [Hlt|Hge].
      * rewrite (group_resize_old g0 (d_maxrow d)) by done.
        rewrite <- (dense_get_group d s row g0 E).
        by rewrite (Hc s g0 row (conj E Hp) Hlt).
      * rewrite (group_resize_new g0 (d_maxrow d)) by (done || lia).
        rewrite Hw by lia. by rewrite zero_cell_value.
    + intros pond pos row Hrow. rewrite last_write_snoc. simpl in Hrow.
      apply Hw. lia.
    + rewrite rows_extended_snoc. simpl. lia.
  - clear Hquiet. simpl in Hstep.
    destruct (Hvalid s row val eq_refl) as (g & Hg & Hp).
    pose proof Hstep as Hset.
    apply dense_set_inv in Hset as (g1 & g' & Hg1 & Hs & Hd').
    rewrite Hg in Hg1. injection Hg1 as <-.
    assert (group_rows_ok g (d_maxrow d)) as Hro.
    { destruct Hwf as [Hrows _ _]. by eapply Forall_lookup_1 in Hrows. }
    assert (g_kind g ≠ GFixed 0) as Hk0 by by eapply Forall_lookup_1 in Hk.
    assert (row < d_maxrow d) as Hrow.
    { by eapply group_set_row_lt. }
    pose proof (group_set_kind _ _ _ _ _ Hs) as (Hkg & Hag & Hlg).
    split; try done.
    + intros s1 g1 row1 [Hs1 Hp1] Hrow1. rewrite last_write_snoc.
      rewrite (dense_get_group d' s1 row1 g1 Hs1).
      assert (d_maxrow d' = d_maxrow d) as Hmr by by rewrite Hd'.
      rewrite Hd' in Hs1. simpl in Hs1.
      destruct (decide (sp_pond s = sp_pond s1)) as [Hpond|Hpond].
      * rewrite <- Hpond, list_lookup_insert in Hs1 by by eapply lookup_lt_Some.
        injection Hs1 as <-. rewrite Hkg.
        destruct (decide (sp_pos s = sp_pos s1 ∧ row = row1)) as [[Hpos <-]|Hne].
        -- rewrite bool_decide_eq_true_2 by done.
           rewrite <- Hpos. rewrite (group_set_get _ _ _ _ _ Hs).
           rewrite stored_cell_value; [done|]. by eapply group_set_fits.
        -- rewrite bool_decide_eq_false_2 by naive_solver.
           rewrite (group_set_frame g (sp_pos s) row val g'); try done.
           ++ rewrite <- (dense_get_group d s1 row1 g) by by rewrite <- Hpond.
              apply Hc; [|lia]. split; [by rewrite <- Hpond|by rewrite <- Hag].
           ++ by rewrite <- Hag.
           ++ naive_solver.
      * rewrite list_lookup_insert_ne in Hs1 by done.
        rewrite bool_decide_eq_false_2 by naive_solver.
        rewrite <- (dense_get_group d s1 row1 g1 Hs1).
        apply Hc; [done|lia].
    + intros pond pos row1 Hrow1. rewrite last_write_snoc.
      rewrite Hd' in Hrow1. simpl in Hrow1.
      rewrite bool_decide_eq_false_2; [by apply Hw|]. lia.
    + rewrite rows_extended_snoc, Hd'. simpl. lia.
Qed.

Lemma inv_nil : inv [] dense_new.
Proof.
  split.
  - apply dense_wf_new.
  - constructor.
  - intros s g row [Hs _] Hr. done.
  - done.
  - done.
Qed.

Lemma reachable_inv pg h d : reachable pg h d → inv h d.
Proof.
  intros (Hrun & Hv & Hl). revert d Hrun Hv Hl.
  induction h as [|o h IH] using rev_ind; intros d Hrun Hv Hl.
  - injection Hrun as <-. apply inv_nil.
  - apply dense_run_snoc in Hrun as (d1 & H1 & H2).
    eapply inv_step; [|..|exact H2].
    + apply IH; [done|..].
      * intros h1 s r v h2 -> d2 Hd2. eapply (Hv h1 s r v (h2 ++ [o])); [|done].
        by rewrite <- app_assoc.
      * intros h1 a ag h2 ->. eapply (Hl h1 a ag (h2 ++ [o])).
        by rewrite <- app_assoc.
    + intros a ag ->. eapply dense_run_fixed; [done|].
      by eapply (Hl h a ag []).
    + intros s r v ->. by eapply (Hv h s r v []).
Qed.

Lemma dense_refines_table pg h d s g row :
  reachable pg h d → column_of d s g → row < d_maxrow d →
  dense_get d s row =
  Ok (cell_value (g_kind g) (last_write h (sp_pond s) (sp_pos s) row)).
Proof. intros Hr. apply reachable_inv in Hr as [_ _ Hc _ _]. apply Hc. Qed.

Lemma dense_set_succeeds pg h d s g row val :
  reachable pg h d → column_of d s g → row < d_maxrow d → right_size (g_kind g) val →
  ∃ d', dense_set d s row val = Ok d'.
Proof.
  intros Hr [Hg Hp] Hrow Hsz. apply reachable_inv in Hr as [Hwf _ _ _ _].
  assert (group_rows_ok g (d_maxrow d)) as Hro.
  { destruct Hwf as [Hrows _ _]. by eapply Forall_lookup_1 in Hrows. }
  destruct (group_set_ok g (d_maxrow d) (sp_pos s) row val Hro Hp Hrow) as [g' Hs].
  { by destruct (g_kind g). }
  unfold dense_set, idx. rewrite Hg. simpl. rewrite Hs. simpl. eauto.
Qed.

Lemma dense_set_bad_panics pg h d s g row val :
  reachable pg h d → column_of d s g →
  (d_maxrow d ≤ row ∨ ¬ right_size (g_kind g) val) →
  dense_set d s row val = Panic.
Proof.
  intros Hr [Hg Hp] Hbad. apply reachable_inv in Hr as [Hwf Hk _ _ _].
  assert (group_rows_ok g (d_maxrow d)) as Hro.
  { destruct Hwf as [Hrows _ _]. by eapply Forall_lookup_1 in Hrows. }
  assert (g_kind g ≠ GFixed 0) as Hk0 by by eapply Forall_lookup_1 in Hk.
  unfold dense_set, idx. rewrite Hg. simpl.
  destruct (group_set g (sp_pos s) row val) as [g'| |] eqn:E; simpl; [|..|done].
  - exfalso. destruct Hbad as [Hge|Hsz].
    + assert (row < d_maxrow d); [|lia]. by eapply group_set_row_lt.
    + apply Hsz. apply group_set_fits in E. by destruct (g_kind g).
  - exfalso. unfold group_set, fixed_set, bit_set, idx in E.
    destruct (g_kind g).
    + repeat case_match; done.
    + destruct val; simpl in E; [done|]. repeat case_match; done.
Qed.

Lemma dense_rows pg h d : reachable pg h d → (dense_size d).2 = rows_extended h.
Proof. intros Hr. by apply reachable_inv in Hr as [_ _ _ _ Hr]. Qed.

(** ** Extend (C07) *)

Lemma dense_extend_keeps pg h d n :
  reachable pg h d →
  (dense_size (dense_extend d n)).2 = (dense_size d).2 + n ∧
  dense_all_attrs (dense_extend d n) = dense_all_attrs d ∧
  (∀ s g row, column_of d s g → row < d_maxrow d →
     dense_get (dense_extend d n) s row = dense_get d s row) ∧
  (∀ s g row, column_of d s g → d_maxrow d ≤ row < d_maxrow d + n →
     dense_get (dense_extend d n) s row =
     Ok (match g_kind g with GFixed k => replicate k 0%N | GBits => [0%N] end)).
Proof.
  intros Hr. apply reachable_inv in Hr as [Hwf _ _ _ _].
  split; [done|]. split.
  { unfold dense_all_attrs. simpl. by rewrite map_map. }
  assert (∀ s g row, column_of d s g →
    dense_get (dense_extend d n) s row =
    group_get (group_resize g (n * row_size g)) (sp_pos s) row) as Heq.
  { intros s g row [Hg Hp]. apply dense_get_group.
    cbn [dense_extend d_ags]. rewrite list_lookup_fmap, Hg. done. }
  assert (∀ s g, column_of d s g → group_rows_ok g (d_maxrow d)) as Hro.
  { intros s g [Hg _]. destruct Hwf as [Hrows _ _].
    by eapply Forall_lookup_1 in Hrows. }
  split.
  - intros s g row Hs Hrow. rewrite (Heq s g row Hs).
    rewrite (group_resize_old g (d_maxrow d)); [|by eapply Hro|by destruct Hs|done].
    destruct Hs as [Hg _]. symmetry. by apply dense_get_group.
  - intros s g row Hs Hrow. rewrite (Heq s g row Hs).
    rewrite (group_resize_new g (d_maxrow d)); [|by eapply Hro|by destruct Hs|done].
    by destruct (g_kind g).
Qed.

(** ** Layout frozen by Extend (C08) *)

Lemma dense_frozen pg d o d' :
  d_fixed d = true → (∀ a ag, o ≠ DAddTo a ag) →
  dense_step pg d o = Ok d' →
  map g_attrs (d_ags d') = map g_attrs (d_ags d) ∧
  map g_kind (d_ags d') = map g_kind (d_ags d).
Proof.
  intros Hf Hno H.
  assert (layout d' = layout d) as Hl.
  { destruct o as [a|name size|a ag|a on|n|s row val]; simpl in H.
    - unfold dense_add in H. rewrite Hf in H. done.
    - unfold dense_create_group, create_group in H. rewrite Hf in H.
      by injection H as <-.
    - by edestruct Hno.
    - destruct (dense_set_class d a on) as [d1| |] eqn:E; simpl in H; try done;
        injection H as <-; [|done].
      by apply dense_set_class_inv in E as (k & ->).
    - injection H as <-. apply dense_extend_layout.
    - by eapply dense_set_layout. }
  unfold layout in Hl. split.
  - apply (f_equal (map snd)) in Hl. rewrite !map_map in Hl. done.
  - apply (f_equal (map fst)) in Hl. rewrite !map_map in Hl. done.
Qed.

Lemma dense_add_after_extend pg d a : d_fixed d = true → dense_add pg d a = Panic.
Proof. intros Hf. unfold dense_add. by rewrite Hf. Qed.

Lemma dense_create_after_extend d name size :
  d_fixed d = true → dense_create_group d name size = Err.
Proof. intros Hf. unfold dense_create_group, create_group. by rewrite Hf. Qed.

(** ** Lookup (C09) *)

Lemma find_in_group_some i j l get s :
  find_in_group i j l get = Some s →
  ∃ k, sp_pond s = i ∧ sp_pos s = j + k ∧ l !! k = Some (sp_attr s) ∧
    attr_equals (sp_attr s) get = true ∧
    ∀ k' a, k' < k → l !! k' = Some a → attr_equals a get = false.
Proof.
  revert j. induction l as [|a l IH]; intros j; simpl; [done|].
  destruct (attr_equals a get) eqn:E.
  - intros [= <-]. exists 0. simpl. split; [done|]. split; [lia|].
    split; [done|]. split; [done|]. intros; lia.
  - intros H. apply IH in H as (k & H1 & H2 & H3 & H4 & H5).
    exists (S k). split; [done|]. split; [lia|]. split; [done|]. split; [done|].
    intros [|k'] b Hk Hb; simpl in Hb; [congruence|]. eapply H5; [|done]. lia.
Qed.

Lemma find_in_group_none i j l get :
  find_in_group i j l get = None ↔ ∀ a, a ∈ l → attr_equals a get = false.
Proof.
  revert j. induction l as [|a l IH]; intros j; simpl.
  - split; [|done]. intros _ a Ha. by apply not_elem_of_nil in Ha.
  - destruct (attr_equals a get) eqn:E.
    + split; [done|]. intros H. rewrite H in E; [done|left].
    + rewrite IH. split.
      * intros H b Hb. apply elem_of_cons in Hb as [->|Hb]; auto.
      * intros H b Hb. apply H. by right.
Qed.

Lemma find_in_groups_some i gs get s :
  find_in_groups i gs get = Some s →
  ∃ n g, sp_pond s = i + n ∧ gs !! n = Some g ∧
    g_attrs g !! sp_pos s = Some (sp_attr s) ∧
    attr_equals (sp_attr s) get = true.
Proof.
  revert i. induction gs as [|g gs IH]; intros i; simpl; [done|].
  destruct (find_in_group i 0 (g_attrs g) get) as [s'|] eqn:E.
  - intros [= <-]. apply find_in_group_some in E as (k & H1 & H2 & H3 & H4 & _).
    exists 0, g. simpl. split; [lia|]. split; [done|]. rewrite H2. done.
  - intros H. apply IH in H as (n & g' & H1 & H2 & H3 & H4).
    exists (S n), g'. split; [lia|]. done.
Qed.

Lemma find_in_groups_none i gs get :
  find_in_groups i gs get = None ↔
  ∀ a, a ∈ concat (map g_attrs gs) → attr_equals a get = false.
Proof.
  revert i. induction gs as [|g gs IH]; intros i; simpl.
  - split; [|done]. intros _ a Ha. by apply not_elem_of_nil in Ha.
  - destruct (find_in_group i 0 (g_attrs g) get) as [s'|] eqn:E.
    + split; [done|]. intros H.
      apply find_in_group_some in E as (k & H1 & H2 & H3 & H4 & _).
      rewrite H in H4; [done|]. apply elem_of_app. left.
      by eapply elem_of_list_lookup_2.
    + rewrite IH. rewrite find_in_group_none in E. split.
      * intros H a Ha. apply elem_of_app in Ha as [Ha|Ha]; auto.
      * intros H a Ha. apply H, elem_of_app. by right.
Qed.

Lemma dense_get_attribute_ok d get s :
  dense_get_attribute d get = Ok s →
  attr_at d (sp_pond s, sp_pos s) = Some (sp_attr s) ∧
  attr_equals (sp_attr s) get = true ∧ ∃ g, column_of d s g.
Proof.
  unfold dense_get_attribute.
  destruct (find_in_groups 0 (d_ags d) get) as [s'|] eqn:E; [|done].
  intros [= ->]. apply find_in_groups_some in E as (n & g & H1 & H2 & H3 & H4).
  rewrite Nat.add_0_l in H1. rewrite <- H1 in H2.
  split; [|split; [done|]].
  - unfold attr_at. cbn [fst snd]. rewrite H2. done.
  - exists g. split; [done|]. by eapply lookup_lt_Some.
Qed.

Lemma dense_get_attribute_err d get :
  dense_get_attribute d get = Err ↔
  ∀ a, a ∈ dense_all_attrs d → attr_equals a get = false.
Proof.
  unfold dense_get_attribute, dense_all_attrs.
  rewrite <- (find_in_groups_none 0).
  destruct (find_in_groups 0 (d_ags d) get); done.
Qed.

Lemma dense_get_attribute_nopanic d get : dense_get_attribute d get ≠ Panic.
Proof. unfold dense_get_attribute. by destruct (find_in_groups _ _ _). Qed.

Lemma dense_get_attribute_finds d a :
  a ∈ dense_all_attrs d → ∃ s, dense_get_attribute d a = Ok s.
Proof.
  intros Ha. destruct (dense_get_attribute d a) as [s| |] eqn:E; [eauto|..].
  - rewrite dense_get_attribute_err in E. specialize (E a Ha).
    by rewrite attr_equals_refl in E.
  - by apply dense_get_attribute_nopanic in E.
Qed.

(** Adding: the columns. *)
Lemma concat_insert_perm (ll : list (list attr)) i l a :
  ll !! i = Some l → concat (<[i := l ++ [a]]> ll) ≡ₚ a :: concat ll.
Proof.
  revert i. induction ll as [|x ll IH]; intros [|i] H; simpl in *; try done.
  - injection H as ->. rewrite <- app_assoc. simpl.
    by rewrite Permutation_middle.
  - rewrite (IH _ H). by rewrite Permutation_middle.
Qed.

Lemma add_in_group_attrs d id a d' s :
  add_in_group d id a = Ok (d', s) →
  dense_all_attrs d' ≡ₚ a :: dense_all_attrs d ∧
  attr_at d' (sp_pond s, sp_pos s) = Some a ∧ sp_attr s = a ∧
  (∀ k b, attr_at d k = Some b → attr_at d' k = Some b).
Proof.
  intros H. apply add_in_group_inv in H as (p & Hp & -> & ->).
  split; [|split; [|split; [done|]]].
  - unfold dense_all_attrs. simpl. rewrite list_fmap_insert.
    apply concat_insert_perm. rewrite list_lookup_fmap, Hp. done.
  - unfold attr_at. simpl. rewrite list_lookup_insert by by eapply lookup_lt_Some.
    simpl. by rewrite lookup_app_r, Nat.sub_diag.
  - intros [k1 k2] b. unfold attr_at. simpl. intros Hb.
    destruct (decide (k1 = id)) as [->|Hne].
    + rewrite list_lookup_insert by by eapply lookup_lt_Some.
      rewrite Hp in Hb. simpl in *. by apply lookup_app_l_Some.
    + by rewrite list_lookup_insert_ne.
Qed.

Lemma create_group_attrs d name size d' :
  create_group d name size = Ok d' →
  dense_all_attrs d' = dense_all_attrs d ∧
  (∀ k b, attr_at d k = Some b → attr_at d' k = Some b).
Proof.
  intros H. apply create_group_inv in H as [_ ->].
  unfold dense_all_attrs, attr_at. simpl. split.
  - rewrite fmap_app, concat_app. simpl.
    destruct (negb _); simpl; by rewrite app_nil_r.
  - intros [k1 k2] b. simpl.
    destruct (d_ags d !! k1) as [g|] eqn:E; [|done]. simpl. intros Hb.
    rewrite lookup_app_l by by eapply lookup_lt_Some. rewrite E. done.
Qed.

Lemma dense_add_attrs pg d a d' s :
  dense_add pg d a = Ok (d', s) →
  dense_all_attrs d' ≡ₚ a :: dense_all_attrs d ∧
  attr_at d' (sp_pond s, sp_pos s) = Some a ∧ sp_attr s = a ∧
  (∀ k b, attr_at d k = Some b → attr_at d' k = Some b).
Proof.
  intros E. apply dense_add_inv in E as (Hf & f & c & b & d1' & id & H).
  destruct (default_group pg d a) as [[cnt ag] bin].
  destruct H as (-> & H1 & -> & H2).
  apply add_in_group_attrs in H2 as (Hp & Ha & Hs & Hk).
  destruct H1 as [(i & Hi & ->)|[Hn Hc]]; [done|].
  apply create_group_attrs in Hc as [Hattrs Hk2]. rewrite Hattrs in Hp.
  split; [done|]. split; [done|]. split; [done|]. intros k b0 Hb0. apply Hk, Hk2, Hb0.
Qed.

Lemma layout_all_attrs d d' : layout d' = layout d → dense_all_attrs d' = dense_all_attrs d.
Proof.
  unfold layout, dense_all_attrs. intros Hl.
  apply (f_equal (map snd)) in Hl. rewrite !map_map in Hl. simpl in Hl.
  unfold fmap in *. by f_equal.
Qed.

Lemma added_attrs_app h1 h2 : added_attrs (h1 ++ h2) = added_attrs h1 ++ added_attrs h2.
Proof. induction h1 as [|o h1 IH]; simpl; [done|]. destruct o; simpl; by rewrite ?IH. Qed.

Lemma dense_attrs_added pg h d :
  dense_run pg dense_new h = Ok d → (∀ a ag, DAddTo a ag ∉ h) →
  dense_all_attrs d ≡ₚ added_attrs h.
Proof.
  revert d. induction h as [|o h IH] using rev_ind; intros d Hrun Hno.
  - by injection Hrun as <-.
  - apply dense_run_snoc in Hrun as (d1 & H1 & H2).
    assert (dense_all_attrs d1 ≡ₚ added_attrs h) as IH1.
    { apply IH; [done|]. intros a ag Hin. apply (Hno a ag), elem_of_app. by left. }
    rewrite added_attrs_app.
    destruct o as [a|name size|a ag|a on|n|s row val]; simpl in *; rewrite ?app_nil_r.
    + destruct (dense_add pg d1 a) as [[d2 s]| |] eqn:E; simpl in H2; try done;
        injection H2 as <-.
      * apply dense_add_attrs in E as (-> & _). rewrite IH1.
        by rewrite Permutation_app_comm.
      * exfalso. unfold dense_add in E. destruct (d_fixed d1); [done|].
        destruct (default_group pg d1 a) as [[[[f c] b] g] bin].
        unfold add_in_group, create_group, idx in E.
        repeat (case_match; simpl in *; try done).
    + unfold dense_create_group in H2.
      destruct (create_group d1 name size) as [d2| |] eqn:E; simpl in H2; try done;
        injection H2 as <-; try done.
      apply create_group_attrs in E as [-> _]. done.
    + exfalso. apply (Hno a ag), elem_of_app. right. left.
    + destruct (dense_set_class d1 a on) as [d2| |] eqn:E; simpl in H2; try done;
        injection H2 as <-; [|done].
      by apply dense_set_class_inv in E as (k & ->).
    + injection H2 as <-.
      rewrite (layout_all_attrs _ _ (dense_extend_layout d1 n)). done.
    + apply dense_set_layout in H2. by rewrite (layout_all_attrs _ _ H2).
Qed.

(** With distinct attributes, lookup finds the very column of the attribute. *)
Lemma dense_lookup_unique d k a s :
  distinct_attrs (dense_all_attrs d) → attr_at d k = Some a →
  dense_get_attribute d a = Ok s → (sp_pond s, sp_pos s) = k ∧ sp_attr s = a.
Proof.
  intros Hd Hk Hs. apply dense_get_attribute_ok in Hs as (Hat & Heq & _).
  assert (∀ (ll : list (list attr)) i1 j1 i2 j2 l1 l2 a1 a2,
    distinct_attrs (concat ll) → ll !! i1 = Some l1 → l1 !! j1 = Some a1 →
    ll !! i2 = Some l2 → l2 !! j2 = Some a2 → attr_equals a1 a2 = true →
    i1 = i2 ∧ j1 = j2) as Huniq.
  { clear. induction ll as [|x ll IH]; intros i1 j1 i2 j2 l1 l2 a1 a2 Hd H1 H1' H2 H2' He;
      [done|]. simpl in Hd.
    destruct i1 as [|i1], i2 as [|i2]; simpl in H1, H2.
    - injection H1 as ->. injection H2 as ->. split; [done|].
      eapply Hd; [by apply lookup_app_l_Some|by apply lookup_app_l_Some|done].
    - exfalso. injection H1 as ->.
      assert (a2 ∈ concat ll) as Hin.
      { apply elem_of_list_In, in_concat. exists l2.
        split; apply elem_of_list_In; by eapply elem_of_list_lookup_2. }
      apply elem_of_list_lookup in Hin as [m Hm].
      assert (j1 = length l1 + m) as Hj.
      { eapply Hd; [by apply lookup_app_l_Some| |done].
        rewrite lookup_app_r by lia. by rewrite Nat.add_comm, Nat.add_sub. }
      apply lookup_lt_Some in H1'. lia.
    - exfalso. injection H2 as ->.
      assert (a1 ∈ concat ll) as Hin.
      { apply elem_of_list_In, in_concat. exists l1.
        split; apply elem_of_list_In; by eapply elem_of_list_lookup_2. }
      apply elem_of_list_lookup in Hin as [m Hm].
      assert (length l2 + m = j2) as Hj.
      { eapply Hd; [|by apply lookup_app_l_Some|done].
        rewrite lookup_app_r by lia. by rewrite Nat.add_comm, Nat.add_sub. }
      apply lookup_lt_Some in H2'. lia.
    - destruct (IH i1 j1 i2 j2 l1 l2 a1 a2) as [-> ->]; try done.
      intros p q b c Hb Hc Hbc.
      assert (length x + p = length x + q); [|lia].
      eapply Hd; [| |done].
      + rewrite lookup_app_r by lia. by rewrite Nat.add_comm, Nat.add_sub.
      + rewrite lookup_app_r by lia. by rewrite Nat.add_comm, Nat.add_sub. }
  unfold attr_at in Hat, Hk. destruct k as [k1 k2]. cbn [fst snd] in *.
  destruct (d_ags d !! sp_pond s) as [g1|] eqn:E1; [|done]. simpl in Hat.
  destruct (d_ags d !! k1) as [g2|] eqn:E2; [|done]. simpl in Hk.
  destruct (Huniq (map g_attrs (d_ags d)) (sp_pond s) (sp_pos s) k1 k2
    (g_attrs g1) (g_attrs g2) (sp_attr s) a) as [H1 H2]; try done.
  - rewrite list_lookup_fmap, E1. done.
  - rewrite list_lookup_fmap, E2. done.
  - split; [by rewrite H1, H2|]. rewrite H1, E2 in E1. injection E1 as ->.
    rewrite H2 in Hat. congruence.
Qed.

(** ** Groups made by AddAttribute alone have the expected kind *)

Definition default_layout (d : dense) : Prop :=
  Forall (λ g, Forall (λ a, default_kind a = g_kind g) (g_attrs g)) (d_ags d) ∧
  map_Forall (λ name id, ∃ g, d_ags d !! id = Some g ∧
     ∀ a, ∀ x, name = (match a with CatA _ _ => "CAT" | FloatA _ _ => "FLOAT" | BinA _ => "BIN" end) +:+ x →
       default_kind a = g_kind g) (d_agmap d).

Lemma default_group_name pg d a :
  ∃ x, (default_group pg d a).1.2 =
    (match a with CatA _ _ => "CAT" | FloatA _ _ => "FLOAT" | BinA _ => "BIN" end) +:+ x ∧
  (default_group pg d a).2 = match a with BinA _ => true | _ => false end.
Proof. destruct a; simpl; eauto. Qed.

Lemma prefix_kind (a b : attr) (x y : string) :
  (match a with CatA _ _ => "CAT" | FloatA _ _ => "FLOAT" | BinA _ => "BIN" end) +:+ x
  = (match b with CatA _ _ => "CAT" | FloatA _ _ => "FLOAT" | BinA _ => "BIN" end) +:+ y →
  default_kind a = default_kind b.
Proof. destruct a, b; simpl; try done. Qed.

Lemma default_layout_step pg d o d' :
  default_layout d →
  (∀ a ag, o ≠ DAddTo a ag) → (∀ n z, o ≠ DCreateGroup n z) →
  dense_step pg d o = Ok d' → default_layout d'.
Proof.
  intros [Hg Hm] Hno1 Hno2 H.
  assert (∀ d d', layout d' = layout d → d_agmap d' = d_agmap d →
    default_layout d → default_layout d') as Htrans.
  { clear. intros d d' Hl Ham [Hg Hm]. split.
    - assert (Forall (λ p : gkind * list attr, Forall (λ a, default_kind a = p.1) p.2)
        (layout d)) as H by (unfold layout; apply List.Forall_map; exact Hg).
      rewrite <- Hl in H. unfold layout in H. exact (proj1 (List.Forall_map _ _ _) H).
    - rewrite Ham. intros name id Hid. specialize (Hm name id Hid) as (g & Hgg & Ha).
      assert (layout d !! id = Some (g_kind g, g_attrs g)) as H1.
      { unfold layout. rewrite list_lookup_fmap, Hgg. done. }
      rewrite <- Hl in H1. unfold layout in H1. rewrite list_lookup_fmap in H1.
      destruct (d_ags d' !! id) as [g'|]; [|done]. simpl in H1. injection H1 as Hk _.
      exists g'. split; [done|]. intros a x Hx. rewrite Hk. by eapply Ha. }
  destruct o as [a|name size|a ag|a on|n|s row val]; simpl in H.
  - destruct (dense_add pg d a) as [[d1 s]| |] eqn:E; simpl in H; try done;
      injection H as <-; [|done].
    apply dense_add_inv in E as (Hf & f & c & b & d1' & id & H).
    pose proof (default_group_name pg d a) as (x & Hx & Hbin).
    destruct (default_group pg d a) as [[cnt ag] bin].
    simpl in Hx, Hbin.
    destruct H as (-> & H1 & -> & H2).
    assert (default_layout d1' ∧
            ∃ i, d_agmap d1' !! ag = Some i) as [[Hg1 Hm1] [i Hi]].
    { destruct H1 as [(i & Hi & ->)|[Hn Hc]]; [split; [done|eauto]|].
      apply create_group_inv in Hc as [_ ->]. simpl.
      split; [|exists (length (d_ags d)); by rewrite lookup_insert].
      split; simpl.
      - apply Forall_app. split; [done|]. constructor; [|constructor].
        destruct bin; simpl; constructor.
      - intros name id. rewrite lookup_insert_Some.
        intros [[<- <-]|[Hne Hid]].
        + eexists. rewrite lookup_app_r, Nat.sub_diag by lia.
          split; [reflexivity|]. intros a' x' Hx'.
          rewrite Hx' in Hx. apply prefix_kind in Hx. rewrite Hx.
          subst bin. by destruct a.
        + specialize (Hm name id Hid) as (g & Hgg & Ha).
          exists g. split; [|done]. by apply lookup_app_l_Some. }
    rewrite Hi in H2. simpl in H2.
    apply add_in_group_inv in H2 as (p & Hp & -> & _).
    destruct (Hm1 ag i Hi) as (g & Hgg & Ha).
    rewrite Hp in Hgg. injection Hgg as <-.
    split; simpl.
    + apply Forall_insert; [done|]. simpl. apply Forall_app.
      split; [by eapply Forall_lookup_1 in Hg1|]. constructor; [|constructor].
      by eapply Ha.
    + intros name id Hid. specialize (Hm1 name id Hid) as (g2 & Hg2 & Ha2).
      destruct (decide (id = i)) as [->|Hne].
      * rewrite Hp in Hg2. injection Hg2 as <-.
        exists (group_add p a). split; [|done].
        apply list_lookup_insert. by eapply lookup_lt_Some.
      * exists g2. split; [|done]. by rewrite list_lookup_insert_ne.
  - by edestruct Hno2.
  - by edestruct Hno1.
  - destruct (dense_set_class d a on) as [d1| |] eqn:E; simpl in H; try done;
      injection H as <-; [|done].
    apply dense_set_class_inv in E as (k & ->). done.
  - injection H as <-. eapply Htrans; [apply dense_extend_layout|done|done].
  - eapply Htrans; [by eapply dense_set_layout| |done].
    by apply dense_set_inv in H as (g & g' & _ & _ & ->).
Qed.

Lemma default_layout_run pg h d :
  dense_run pg dense_new h = Ok d →
  (∀ a ag, DAddTo a ag ∉ h) → (∀ n z, DCreateGroup n z ∉ h) → default_layout d.
Proof.
  revert d. induction h as [|o h IH] using rev_ind; intros d Hrun Hno1 Hno2.
  - injection Hrun as <-. split; simpl; [constructor|apply map_Forall_empty].
  - apply dense_run_snoc in Hrun as (d1 & H1 & H2).
    eapply default_layout_step; [|..|exact H2].
    + apply IH; [done|..].
      * intros a ag Hin. apply (Hno1 a ag), elem_of_app. by left.
      * intros n z Hin. apply (Hno2 n z), elem_of_app. by left.
    + intros a ag ->. apply (Hno1 a ag), elem_of_app. right. left.
    + intros n z ->. apply (Hno2 n z), elem_of_app. right. left.
Qed.

Lemma default_column_kind pg h d s g a :
  dense_run pg dense_new h = Ok d →
  (∀ a ag, DAddTo a ag ∉ h) → (∀ n z, DCreateGroup n z ∉ h) →
  column_of d s g → g_attrs g !! sp_pos s = Some a → g_kind g = default_kind a.
Proof.
  intros Hrun H1 H2 [Hg _] Ha.
  destruct (default_layout_run pg h d Hrun H1 H2) as [Hl _].
  eapply Forall_lookup_1 in Hl; [|exact Hg].
  eapply Forall_lookup_1 in Hl; [|exact Ha]. done.
Qed.

(** ** MapOverRows (C10) *)

Lemma dense_map_from_visits {S} d asv (f : S → list (list N) → nat → res (S * cb))
    (row : nat → list (list N)) :
  (∀ i, i < d_maxrow d → res_mapM (λ a, dense_get d a i) asv = Ok (row i)) →
  ∀ n i s s' e, i + n = d_maxrow d →
  dense_map_from d asv f s i n = Ok (s', e) ↔ visits row (d_maxrow d) f i s s' e.
Proof.
  intros Hrow. induction n as [|n IH]; intros i s s' e Hi; simpl.
  - assert (i = d_maxrow d) as -> by lia. split.
    + intros [= <- <-]. constructor.
    + intros H. inversion H; subst; try lia. done.
  - rewrite Hrow by lia. cbn [mbind res_bind].
    destruct (f s (row i) i) as [[s1 c]| |] eqn:Ef; cbn [mbind res_bind].
    + destruct c.
      * rewrite IH by lia. split.
        -- intros H. eapply visits_next; [lia|exact Ef|]. by rewrite Nat.add_1_r.
        -- intros H. inversion H; subst; try lia; try congruence.
           rewrite Ef in *. rewrite Nat.add_1_r in *. naive_solver.
      * split.
        -- intros [= <- <-]. by apply visits_stop; [lia|].
        -- intros H. inversion H; subst; try lia; try congruence.
      * split.
        -- intros [= <- <-]. by apply visits_fail; [lia|].
        -- intros H. inversion H; subst; try lia; try congruence.
    + split; [done|]. intros H. inversion H; subst; try lia; congruence.
    + split; [done|]. intros H. inversion H; subst; try lia; congruence.
Qed.

Lemma dense_map_visits {S} d asv (f : S → list (list N) → nat → res (S * cb))
    (row : nat → list (list N)) s s' e :
  (∀ i, i < d_maxrow d → res_mapM (λ a, dense_get d a i) asv = Ok (row i)) →
  dense_map_over_rows d asv f s = Ok (s', e) ↔ visits row (d_maxrow d) f 0 s s' e.
Proof. intros H. by apply dense_map_from_visits. Qed.

(** A callback that records its calls and never stops sees all rows. *)
Definition log_all (acc : list (nat * list (list N))) (r : list (list N)) (i : nat)
  : res (list (nat * list (list N)) * cb) := Ok (acc ++ [(i, r)], Cont).

Lemma visits_log_all row n :
  ∀ k i acc, i + k = n →
  visits row n log_all i acc (acc ++ map (λ j, (j, row j)) (seq i k)) false.
Proof.
  induction k as [|k IH]; intros i acc Hi; simpl.
  - rewrite app_nil_r. assert (i = n) as -> by lia. constructor.
  - eapply visits_next; [lia|reflexivity|].
    replace (acc ++ (i, row i) :: map (λ j, (j, row j)) (seq (S i) k))
      with ((acc ++ [(i, row i)]) ++ map (λ j, (j, row j)) (seq (S i) k))
      by by rewrite <- app_assoc.
    rewrite Nat.add_1_r. apply IH. lia.
Qed.

Lemma dense_map_log_all d asv row :
  (∀ i, i < d_maxrow d → res_mapM (λ a, dense_get d a i) asv = Ok (row i)) →
  dense_map_over_rows d asv log_all [] =
  Ok (map (λ i, (i, row i)) (seq 0 (d_maxrow d)), false).
Proof.
  intros H. apply (dense_map_visits d asv log_all row); [done|].
  apply (visits_log_all row (d_maxrow d) (d_maxrow d) 0 []). done.
Qed.

(** On reachable instances every row can be read. *)
Lemma dense_rows_readable pg h d asv i :
  reachable pg h d → (∀ s, s ∈ asv → ∃ g, column_of d s g) → i < d_maxrow d →
  ∃ row, res_mapM (λ a, dense_get d a i) asv = Ok row.
Proof.
  intros Hr Hv Hi. induction asv as [|s asv IH]; simpl; [eauto|].
  destruct (Hv s) as [g Hg]; [left|].
  rewrite (dense_refines_table pg h d s g i Hr Hg Hi). cbn [mbind res_bind].
  destruct IH as [row Hrow]; [intros s' Hs'; apply Hv; by right|].
  rewrite Hrow. simpl. eauto.
Qed.
