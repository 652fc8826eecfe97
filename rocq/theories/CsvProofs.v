(** Proofs about the CSV parsers. *)
From Verif Require Import Prelude BytesModel BytesProofs FloatModel AttrModel AttrSpec AttrProofs
  StoreModel StoreProofs DenseModel DenseSpec DenseProofs GridModel GridProofs TextModel CsvModel CsvSpec TextProofs.
From Flocq Require Import IEEE754.Bits IEEE754.Binary.
From stdpp Require Import pretty.
Local Open Scope nat_scope.

(** ** Instances that differ in their attributes only *)

Definition group_like (g g' : group) : Prop :=
  g_kind g = g_kind g' ∧ g_alloc g = g_alloc g' ∧ g_maxrow g = g_maxrow g' ∧
  length (g_attrs g) = length (g_attrs g').

Record similar (d d' : dense) : Prop := Similar {
  sim_agmap : d_agmap d = d_agmap d';
  sim_agrev : d_agrev d = d_agrev d';
  sim_ags : Forall2 group_like (d_ags d) (d_ags d');
  sim_fixed : d_fixed d = d_fixed d';
  sim_class : d_class d = d_class d';
  sim_maxrow : d_maxrow d = d_maxrow d';
  sim_float : d_floatbytes d = d_floatbytes d';
  sim_cat : d_catbytes d = d_catbytes d';
  sim_bin : d_binbits d = d_binbits d'
}.

Definition place (s : spec) : nat * nat := (sp_pond s, sp_pos s).

Lemma group_like_refl g : group_like g g.
Proof. done. Qed.

Lemma groups_like_refl gs : Forall2 group_like gs gs.
Proof. induction gs; constructor; [apply group_like_refl|done]. Qed.

Lemma similar_refl d : similar d d.
Proof. split; try done. apply groups_like_refl. Qed.

Lemma similar_sym d d' : similar d d' → similar d' d.
Proof.
  intros []. split; try done. apply Forall2_flip. eapply Forall2_impl; [done|].
  unfold group_like, flip. intuition.
Qed.

Lemma similar_trans d1 d2 d3 : similar d1 d2 → similar d2 d3 → similar d1 d3.
Proof.
  intros [] []. split; try congruence. eapply Forall2_transitive; [|done..].
  unfold group_like. intros x y z. intuition congruence.
Qed.

Lemma similar_lookup d d' i g :
  similar d d' → d_ags d !! i = Some g → ∃ g', d_ags d' !! i = Some g' ∧ group_like g g'.
Proof. intros Hs Hg. by eapply Forall2_lookup_l; [apply Hs|]. Qed.

Lemma group_like_row_size g g' : group_like g g' → row_size g = row_size g'.
Proof. intros (H1 & _ & _ & H2). unfold row_size. by rewrite H1, H2. Qed.

Lemma group_like_get g g' col row : group_like g g' → group_get g col row = group_get g' col row.
Proof.
  intros H. pose proof (group_like_row_size _ _ H) as Hr. destruct H as (H1 & H2 & H3 & H4).
  unfold group_get, fixed_get, bit_get, fixed_offset, byte_offset. by rewrite H1, H2, Hr.
Qed.

Lemma group_like_set g g' col row val g1 :
  group_like g g' → group_set g col row val = Ok g1 →
  ∃ g1', group_set g' col row val = Ok g1' ∧ group_like g1 g1' ∧ g_attrs g1 = g_attrs g ∧
    g_attrs g1' = g_attrs g'.
Proof.
  intros H Hs. pose proof (group_like_row_size _ _ H) as Hr. pose proof H as (H1 & H2 & H3 & H4).
  assert (∃ g1', group_set g' col row val = Ok g1' ∧ group_like g1 g1') as (g1' & Hs' & Hl).
  { unfold group_set, fixed_set, bit_set, fixed_offset, byte_offset in *.
    rewrite <- H1, <- H2, <- H3, <- Hr. destruct (g_kind g) as [n|].
    - repeat (case_match; try done). injection Hs as <-. eexists. split; [done|]. done.
    - destruct val as [|b val]; [done|].
      destruct (idx (g_alloc g) _) as [old| |]; try done. cbn [mbind res_bind] in *.
      injection Hs as <-. eexists. split; [done|]. done. }
  exists g1'. split; [done|]. split; [done|].
  apply group_set_kind in Hs as (_ & -> & _). apply group_set_kind in Hs' as (_ & -> & _). done.
Qed.

Lemma similar_get d d' s s' row :
  similar d d' → place s = place s' → dense_get d s row = dense_get d' s' row.
Proof.
  intros Hs [= Hp1 Hp2]. unfold dense_get, idx. rewrite Hp1, Hp2.
  destruct (d_ags d !! sp_pond s') as [g|] eqn:Eg.
  - destruct (similar_lookup _ _ _ _ Hs Eg) as (g' & -> & Hl). by apply group_like_get.
  - apply lookup_ge_None in Eg. rewrite (Forall2_length _ _ _ (sim_ags _ _ Hs)) in Eg.
    apply lookup_ge_None in Eg. by rewrite Eg.
Qed.

Lemma similar_set d d' s s' row val d1 :
  similar d d' → place s = place s' → dense_set d s row val = Ok d1 →
  ∃ d1', dense_set d' s' row val = Ok d1' ∧ similar d1 d1' ∧ layout d1 = layout d.
Proof.
  intros Hs [= Hp1 Hp2] H. pose proof (dense_set_layout _ _ _ _ _ H) as Hlay.
  apply dense_set_inv in H as (g & g1 & Hg & Hset & ->).
  destruct (similar_lookup _ _ _ _ Hs Hg) as (g' & Hg' & Hl).
  destruct (group_like_set _ _ _ _ _ _ Hl Hset) as (g1' & Hset' & Hl' & _ & _).
  eexists. unfold dense_set, idx. rewrite <- Hp1, Hg'. cbn [mbind res_bind].
  rewrite <- Hp2, Hset'. cbn [mbind res_bind]. split; [done|]. split; [|done].
  destruct Hs. split; cbn; try done. by apply Forall2_insert.
Qed.

Lemma update_attr_similar d s a d1 : update_attr d s a = Ok d1 → similar d d1.
Proof.
  unfold update_attr, idx. destruct (d_ags d !! sp_pond s) as [g|] eqn:Eg; [|done].
  cbn [mbind res_bind]. intros [= <-]. split; try done. cbn.
  rewrite <- (list_insert_id (d_ags d) (sp_pond s) g) at 1 by done.
  apply Forall2_insert; [apply groups_like_refl|].
  unfold group_like. cbn. by rewrite insert_length.
Qed.

Lemma attr_at_update d s a d1 k :
  (∃ b, attr_at d (place s) = Some b) → update_attr d s a = Ok d1 →
  attr_at d1 k = if decide (k = place s) then Some a else attr_at d k.
Proof.
  intros [b Hb]. unfold update_attr, idx. unfold attr_at in Hb. cbn [place fst snd] in Hb.
  destruct (d_ags d !! sp_pond s) as [g|] eqn:Eg; [|done]. cbn [mbind res_bind option_bind] in *.
  intros [= <-]. unfold attr_at. cbn. destruct k as [k1 k2]. cbn [fst snd].
  pose proof (lookup_lt_Some _ _ _ Eg) as Hlt. pose proof (lookup_lt_Some _ _ _ Hb) as Hlt2.
  destruct (decide (k1 = sp_pond s)) as [->|Hne].
  - rewrite list_lookup_insert by done. cbn. rewrite Eg. cbn.
    destruct (decide (k2 = sp_pos s)) as [->|Hne2].
    + rewrite list_lookup_insert by done. by rewrite decide_True.
    + rewrite list_lookup_insert_ne by done. rewrite decide_False; [done|].
      unfold place. congruence.
  - rewrite list_lookup_insert_ne by done. rewrite decide_False; [done|]. unfold place. congruence.
Qed.

Lemma layout_attr_at d d' k : layout d' = layout d → attr_at d' k = attr_at d k.
Proof.
  intros Hl. apply (f_equal (map snd)) in Hl. unfold layout in Hl. rewrite !map_map in Hl.
  cbn in Hl. apply (f_equal (.!! k.1)) in Hl. rewrite !list_lookup_fmap in Hl.
  unfold attr_at. by destruct (d_ags d' !! k.1), (d_ags d !! k.1); simplify_eq/=; rewrite ?Hl.
Qed.

Lemma similar_column d d' s s' g :
  similar d d' → place s = place s' → column_of d s g → ∃ g', column_of d' s' g' ∧ g_kind g = g_kind g'.
Proof.
  intros Hs [= Hp1 Hp2] [Hg Hp]. destruct (similar_lookup _ _ _ _ Hs Hg) as (g' & Hg' & Hl).
  exists g'. unfold column_of. rewrite <- Hp1, <- Hp2. destruct Hl as (? & ? & ? & <-). done.
Qed.

Lemma attr_at_column d s a : attr_at d (place s) = Some a → ∃ g, column_of d s g.
Proof.
  unfold attr_at, column_of, place. cbn [fst snd]. destruct (d_ags d !! sp_pond s) as [g|]; [|done].
  cbn. intros H. exists g. split; [done|]. by eapply lookup_lt_Some.
Qed.

Lemma similar_eq d d' : similar d d' → (∀ k, attr_at d k = attr_at d' k) → d = d'.
Proof.
  intros [] Hk. destruct d as [m rv gs fx cl mx f c b], d' as [m' rv' gs' fx' cl' mx' f' c' b'].
  cbn in *. subst. f_equal. apply list_eq. intros i.
  destruct (gs !! i) as [g|] eqn:E.
  - destruct (Forall2_lookup_l _ _ _ _ _ sim_ags0 E) as (g' & E' & (H1 & H2 & H3 & H4)).
    rewrite E'. f_equal. destruct g as [k a al mr], g' as [k' a' al' mr']. cbn in *. subst.
    f_equal. apply list_eq. intros j. specialize (Hk (i, j)). unfold attr_at in Hk.
    cbn in Hk. rewrite E, E' in Hk. done.
  - apply lookup_ge_None in E. rewrite (Forall2_length _ _ _ sim_ags0) in E.
    by apply lookup_ge_None in E.
Qed.

(** Attributes stored alike. *)
Definition same_kind (a a' : attr) : Prop :=
  match a, a' with
  | FloatA _ _, FloatA _ _ => True
  | CatA _ _, CatA _ _ => True
  | BinA _, BinA _ => True
  | _, _ => False
  end.

Lemma similar_add pg d d' a a' d1 s :
  similar d d' → same_kind a a' → dense_add pg d a = Ok (d1, s) →
  ∃ d1' s', dense_add pg d' a' = Ok (d1', s') ∧ similar d1 d1' ∧ place s = place s'.
Proof.
  intros Hs Hk. unfold dense_add. rewrite (sim_fixed _ _ Hs).
  destruct (d_fixed d'); [done|].
  assert (default_group pg d a = default_group pg d' a') as ->.
  { destruct Hs. unfold default_group. destruct a, a'; try done; congruence. }
  destruct (default_group pg d' a') as [[[[f c] b] ag] bin].
  cbn [d_agmap]. rewrite <- (sim_agmap _ _ Hs).
  set (d0 := Dense (d_agmap d) (d_agrev d) (d_ags d) false (d_class d) (d_maxrow d) f c b).
  set (d0' := Dense (d_agmap d) (d_agrev d') (d_ags d') false (d_class d') (d_maxrow d') f c b).
  assert (similar d0 d0') as H0 by (destruct Hs; by split).
  assert (∀ m m' : res dense,
    (∀ x, m = Ok x → ∃ x', m' = Ok x' ∧ similar x x') →
    ∀ k k' : dense → res (dense * spec), 
    (∀ x x' r, similar x x' → k x = Ok r → ∃ r', k' x' = Ok r' ∧ similar r.1 r'.1 ∧ place r.2 = place r'.2) →
    (m ≫= k) = Ok (d1, s) → ∃ d1' s', (m' ≫= k') = Ok (d1', s') ∧ similar d1 d1' ∧ place s = place s') as Hb.
  { intros m m' Hm k k' Hkk H. apply bind_Ok in H as (x & Hx & H).
    destruct (Hm x Hx) as (x' & -> & Hxx). destruct (Hkk x x' _ Hxx H) as ([r1 r2] & Hr & ? & ?).
    exists r1, r2. by rewrite <- Hr. }
  apply Hb; clear Hb.
  - assert (∀ size x, create_group d0 ag size = Ok x →
      ∃ x', create_group d0' ag size = Ok x' ∧ similar x x') as Hc.
    { intros size x H. apply create_group_inv in H as [Hf ->]. unfold create_group.
      rewrite <- (sim_fixed _ _ H0), Hf. eexists. split; [done|].
      rewrite <- (Forall2_length _ _ _ (sim_ags _ _ H0)).
      destruct H0; split; cbn in *; try congruence.
      apply Forall2_app; [done|]. constructor; [|done]. apply group_like_refl. }
    intros x Hx. destruct (d_agmap d !! ag).
    + injection Hx as <-. exists d0'. done.
    + destruct bin; by apply Hc.
  - intros x x' [r1 r2] Hxx H. unfold add_in_group, idx in *. rewrite <- (sim_agmap _ _ Hxx).
    destruct (d_ags x !! _) as [g|] eqn:Eg; [|done]. cbn [mbind res_bind] in *.
    destruct (similar_lookup _ _ _ _ Hxx Eg) as (g' & -> & Hl). cbn [mbind res_bind].
    injection H as <- <-. eexists. split; [done|]. cbn [fst snd].
    destruct Hl as (L1 & L2 & L3 & L4).
    split.
    + destruct Hxx; split; cbn; try done. apply Forall2_insert; [done|].
      unfold group_like, group_add. cbn. rewrite !app_length, L4. done.
    + unfold place. cbn. by rewrite !app_length, L4.
Qed.

Lemma similar_extend d d' n : similar d d' → similar (dense_extend d n) (dense_extend d' n).
Proof.
  intros H. destruct H. split; cbn; try congruence.
  apply Forall2_fmap. eapply Forall2_impl; [done|]. intros g g' Hl.
  pose proof (group_like_row_size _ _ Hl) as Hr. destruct Hl as (L1 & L2 & L3 & L4).
  unfold group_like, group_resize. cbn. by rewrite Hr, L1, L2, L3, L4.
Qed.

(** ** Adding the columns *)

Lemma dense_add_fresh pg d a d1 s :
  dense_add pg d a = Ok (d1, s) →
  attr_at d (place s) = None ∧
  (∀ k, is_Some (attr_at d1 k) → k = place s ∨ is_Some (attr_at d k)).
Proof.
  intros H. unfold dense_add in H. destruct (d_fixed d); [done|].
  destruct (default_group pg d a) as [[[[f c] b] ag] bin].
  apply bind_Ok in H as (x & Hx & H).
  assert (∀ k, is_Some (attr_at x k) → is_Some (attr_at d k)) as Hxd.
  { cbn [d_agmap] in Hx. destruct (d_agmap d !! ag).
    - injection Hx as <-. done.
    - assert (∃ size d0, create_group d0 ag size = Ok x ∧ d_ags d0 = d_ags d) as (size & d0 & Hc & Hd0).
      { destruct bin; eexists _, _; (split; [exact Hx|done]). }
      apply create_group_inv in Hc as [_ ->]. intros k. unfold attr_at. cbn. rewrite Hd0.
      destruct (decide (k.1 < length (d_ags d))) as [Hlt|Hge].
      + by rewrite lookup_app_l.
      + rewrite lookup_app_r by lia. destruct (k.1 - length (d_ags d)); cbn.
        * destruct (negb _); cbn; intros [? ?]; done.
        * intros [? ?]; done. }
  assert (∀ k, attr_at d k = None → attr_at x k = None) as Hn.
  { intros k Hk. destruct (attr_at x k) eqn:E; [|done]. 
    destruct (Hxd k) as [? ?]; [by rewrite E|congruence]. }
  apply add_in_group_inv in H as (p & Hp & -> & ->). cbn.
  assert (attr_at x (default 0 (d_agmap x !! ag), length (g_attrs p)) = None) as Hnone.
  { unfold attr_at. cbn. rewrite Hp. cbn. apply lookup_ge_None. lia. }
  split.
  - unfold place. cbn. destruct (attr_at d _) eqn:E; [|done].
    assert (∀ k b, attr_at d k = Some b → attr_at x k = Some b) as Hmono.
    { cbn [d_agmap] in Hx. destruct (d_agmap d !! ag).
      - injection Hx as <-. done.
      - assert (∃ size d0, create_group d0 ag size = Ok x ∧ d_ags d0 = d_ags d) as (size & d0 & Hc & Hd0).
        { destruct bin; eexists _, _; (split; [exact Hx|done]). }
        apply create_group_attrs in Hc as [_ Hc]. intros k' b' Hk'. apply Hc.
        unfold attr_at. by rewrite Hd0. }
    apply Hmono in E. cbn in Hnone. congruence.
  - intros k Hk. unfold place. cbn. unfold attr_at in Hk. cbn in Hk.
    destruct k as [k1 k2]. cbn [fst snd] in Hk.
    set (id := default 0 (d_agmap x !! ag)) in *.
    pose proof (lookup_lt_Some _ _ _ Hp).
    destruct (decide (k1 = id)) as [->|Hne].
    + rewrite list_lookup_insert in Hk by done. cbn in Hk.
      destruct (decide (k2 < length (g_attrs p))) as [Hlt|Hge].
      * right. apply Hxd. unfold attr_at. cbn. rewrite Hp. cbn. by rewrite lookup_app_l in Hk.
      * left. destruct Hk as [b' Hk]. apply lookup_lt_Some in Hk. rewrite app_length in Hk.
        cbn in *. f_equal. lia.
    + rewrite list_lookup_insert_ne in Hk by done. right. apply Hxd. exact Hk.
Qed.

Lemma dense_add_succeeds pg d a :
  dense_wf d → d_fixed d = false → ∃ d1 s, dense_add pg d a = Ok (d1, s).
Proof.
  intros Hwf Hf. unfold dense_add. rewrite Hf.
  destruct (default_group pg d a) as [[[[f c] b] ag] bin].
  set (d0 := Dense _ _ _ _ _ _ _ _ _). cbn [d_agmap].
  assert (∃ x id, (match d_agmap d !! ag with
      | None => if negb bin then create_group d0 ag 8 else create_group d0 ag 0
      | Some _ => Ok d0 end) = Ok x ∧ default 0 (d_agmap x !! ag) = id ∧ id < length (d_ags x))
    as (x & id & Hx & Hid & Hlt).
  { destruct (d_agmap d !! ag) as [i|] eqn:E.
    - exists d0, i. split; [done|]. cbn. rewrite E. split; [done|].
      destruct Hwf as [_ _ Ha]. by apply (Ha ag i E).
    - assert (∀ size, ∃ x, create_group d0 ag size = Ok x ∧ d_agmap x !! ag = Some (length (d_ags d)) ∧
        length (d_ags x) = S (length (d_ags d))) as Hc.
      { intros size. unfold create_group. cbn. eexists. split; [done|]. cbn.
        rewrite lookup_insert, app_length. cbn. split; [done|lia]. }
      destruct bin; cbn [negb]; destruct (Hc 0) as (x0 & H1 & H2 & H3); destruct (Hc 8) as (x8 & H4 & H5 & H6).
      + exists x0, (length (d_ags d)). rewrite H1, H2. cbn. split; [done|]. lia.
      + exists x8, (length (d_ags d)). rewrite H4, H5. cbn. split; [done|]. lia. }
  change (d_agmap d0) with (d_agmap d). rewrite Hx. cbn [mbind res_bind]. rewrite Hid. unfold add_in_group, idx.
  destruct (d_ags x !! id) eqn:E; [|apply lookup_ge_None in E; lia]. cbn [mbind res_bind]. eauto.
Qed.

Lemma add_all_spec pg attrs d d1 specs :
  add_all pg d attrs = Ok (d1, specs) →
  dense_run pg d (map DAdd attrs) = Ok d1 ∧
  (∀ k b, attr_at d k = Some b → attr_at d1 k = Some b) ∧
  Forall2 (λ a s, attr_at d1 (place s) = Some a) attrs specs ∧
  Forall (λ s, attr_at d (place s) = None) specs ∧
  NoDup (map place specs) ∧
  (∀ k, is_Some (attr_at d1 k) → is_Some (attr_at d k) ∨ k ∈ map place specs).
Proof.
  revert d d1 specs. induction attrs as [|a attrs IH]; intros d d1 specs H.
  - injection H as <- <-. split; [done|]. split; [done|]. split; [constructor|].
    split; [constructor|]. split; [constructor|]. auto.
  - cbn [add_all] in H. apply bind_Ok in H as ([d0 s] & Ha & H). cbn [fst snd] in H.
    apply bind_Ok in H as ([d2 ss] & Hr & H). cbn [fst snd] in H. injection H as <- <-.
    destruct (IH _ _ _ Hr) as (R1 & R2 & R3 & R4 & R5 & R6).
    destruct (dense_add_fresh _ _ _ _ _ Ha) as [F1 F2].
    destruct (dense_add_attrs _ _ _ _ _ Ha) as (_ & A1 & _ & A2).
    split; [|split; [|split; [|split; [|split]]]].
    + cbn [map dense_run res_foldl dense_step]. rewrite Ha. cbn [mbind res_bind fst]. exact R1.
    + eauto.
    + constructor; [|done]. apply R2. exact A1.
    + constructor; [done|]. eapply Forall_impl; [exact R4|]. intros s' Hs'. cbn in Hs'.
      destruct (attr_at d (place s')) eqn:E; [|done]. apply A2 in E. congruence.
    + cbn [map]. constructor; [|done]. intros Hin. apply elem_of_list_fmap in Hin as (s' & Hp & Hs').
      rewrite Forall_forall in R4. specialize (R4 s' Hs'). unfold place in Hp, R4. 
      rewrite <- Hp in R4. congruence.
    + intros k Hk. destruct (R6 k Hk) as [Hk'|Hk']; [|right; by right].
      destruct (F2 k Hk') as [->|?]; [right; left|by left].
Qed.

Lemma dense_add_fixed pg d a d1 s : dense_add pg d a = Ok (d1, s) → d_fixed d1 = false.
Proof.
  intros H. assert (dense_step pg d (DAdd a) = Ok d1) as Hs.
  { cbn [dense_step]. rewrite H. done. }
  apply dense_step_fixed in Hs. rewrite Hs. unfold dense_add in H. by destruct (d_fixed d).
Qed.

Lemma add_all_succeeds pg attrs d :
  dense_wf d → d_fixed d = false → ∃ r, add_all pg d attrs = Ok r.
Proof.
  revert d. induction attrs as [|a attrs IH]; intros d Hwf Hf; cbn [add_all]; [eauto|].
  destruct (dense_add_succeeds pg d a Hwf Hf) as (d1 & s & H). rewrite H. cbn [mbind res_bind fst snd].
  destruct (IH d1) as [r Hr]; [by eapply dense_add_wf|by eapply dense_add_fixed|].
  rewrite Hr. cbn [mbind res_bind]. eauto.
Qed.

Lemma add_all_similar pg attrs attrs' d d' d1 specs :
  similar d d' → Forall2 same_kind attrs attrs' → add_all pg d attrs = Ok (d1, specs) →
  ∃ d1' specs', add_all pg d' attrs' = Ok (d1', specs') ∧ similar d1 d1' ∧
    map place specs = map place specs'.
Proof.
  intros Hs Hk. revert d d' d1 specs Hs. induction Hk as [|a a' attrs attrs' Hka Hk IH];
    intros d d' d1 specs Hs H; cbn [add_all] in *.
  - injection H as <- <-. eauto.
  - apply bind_Ok in H as ([d0 s] & Ha & H). cbn [fst snd] in H.
    apply bind_Ok in H as ([d2 ss] & Hr & H). cbn [fst snd] in H. injection H as <- <-.
    destruct (similar_add _ _ _ _ _ _ _ Hs Hka Ha) as (d0' & s' & -> & Hs0 & Hp).
    cbn [mbind res_bind fst snd].
    destruct (IH _ _ _ _ Hs0 Hr) as (d2' & ss' & -> & Hs2 & Hps). cbn [mbind res_bind fst snd].
    eexists _, _. split; [done|]. split; [done|]. cbn [map]. by rewrite Hp, Hps.
Qed.

(** ** Encoding one value *)

Definition attr_grows (a a' : attr) : Prop :=
  match a, a' with
  | CatA n vs, CatA n' vs' => n = n' ∧ vs `prefix_of` vs'
  | _, _ => a = a'
  end.

Lemma attr_grows_refl a : attr_grows a a.
Proof. by destruct a. Qed.
Lemma attr_grows_trans a b c : attr_grows a b → attr_grows b c → attr_grows a c.
Proof.
  destruct a, b, c; cbn; try congruence; try done. intros [-> ?] [-> ?]. split; [done|].
  by etrans.
Qed.
Lemma attr_grows_kind a b : attr_grows a b → same_kind a b.
Proof. destruct a, b; cbn; try done. Qed.
Lemma attr_grows_name a b : attr_grows a b → attr_name a = attr_name b.
Proof. destruct a, b; cbn; try congruence. by intros [-> _]. Qed.

Lemma field_stored_grows parse a a' v b :
  attr_grows a a' → field_stored parse a v b → field_stored parse a' v b.
Proof.
  destruct a, a'; cbn; try done. intros [_ [k ->]] (i & Hi & ->). exists i.
  split; [by apply lookup_app_l_Some|done].
Qed.

Lemma encode_value_ok parse a v a' b :
  encode_value parse a v = Ok (a', b) → field_stored parse a' v b ∧ attr_grows a a'.
Proof.
  unfold encode_value. destruct a as [n p|n vs|n].
  - destruct (parse v) eqn:E; [|done].
    intros H. assert (a' = FloatA n p ∧ b = pack_float b0) as [-> ->] by (split; congruence).
    split; [|done]. exists b0. split; [done|reflexivity].
  - destruct (cat_encode vs v) as [vs' c] eqn:E. intros [= <- <-].
    assert (cat_encode_all vs [v] = (vs', [c])) as Hall by (cbn; by rewrite E).
    apply cat_encode_all_spec in Hall as (Hp & _ & _ & _ & Hf).
    inversion_clear Hf as [|? ? ? ? (k & Hk & Hl) _]. cbn. split; [eauto|done].
  - destruct (parse v) eqn:E; [|done]. intros [= <- <-]. split; [|done]. cbn. eauto.
Qed.

(** The values of a categorical attribute after a field come from the field. *)
Lemma encode_value_values parse n vs v a' b :
  encode_value parse (CatA n vs) v = Ok (a', b) →
  ∃ vs', a' = CatA n vs' ∧ (∀ t, t ∈ vs' ↔ t ∈ vs ∨ t = v) ∧ (NoDup vs → NoDup vs').
Proof.
  unfold encode_value. destruct (cat_encode vs v) as [vs' c] eqn:E. intros [= <- <-].
  assert (cat_encode_all vs [v] = (vs', [c])) as Hall by (cbn; by rewrite E).
  apply cat_encode_all_spec in Hall as (_ & Hn & Ht & _). exists vs'. split; [done|].
  split; [|done]. intros t. rewrite Ht. by rewrite elem_of_list_singleton.
Qed.

Lemma csv_put_spec parse d s row v d' a :
  attr_at d (place s) = Some a → csv_put parse d s row v = Ok d' →
  ∃ a' b, encode_value parse a (trim_space v) = Ok (a', b) ∧
    (∀ k, attr_at d' k = if decide (k = place s) then Some a' else attr_at d k) ∧
    ∀ dh, similar d dh → ∃ dh', dense_set dh s row b = Ok dh' ∧ similar d' dh'.
Proof.
  intros Ha. unfold csv_put. unfold place in Ha. rewrite Ha. cbn [mbind res_bind].
  intros H. apply bind_Ok in H as ([a' b] & He & H). cbn [fst snd] in H.
  apply bind_Ok in H as (d0 & Hu & H). exists a', b. split; [done|]. split.
  - intros k. rewrite <- (attr_at_update d s a' d0 k); [|by eexists|done].
    apply layout_attr_at. by eapply dense_set_layout.
  - intros dh Hs. pose proof (update_attr_similar _ _ _ _ Hu) as Hs0.
    destruct (similar_set d0 dh s s row b d') as (dh' & ? & ? & _); try done; [|eauto].
    eapply similar_trans; [|done]. by apply similar_sym.
Qed.

(** ** The loop as a list of writes *)

Definition write : Type := spec * nat * string.
Definition row_writes (specs : list spec) (row : nat) (r : record) : list write :=
  map (λ p, (p.1, row, p.2)) (filter (λ p, p.2 ≠ EmptyString) (zip specs r)).
Fixpoint all_writes (specs : list spec) (row : nat) (records : list record) : list write :=
  match records with
  | [] => []
  | r :: records => row_writes specs row r ++ all_writes specs (S row) records
  end.

Definition do_write parse (d : dense) (w : write) : res dense := csv_put parse d w.1.1 w.1.2 w.2.

Lemma csv_fields_writes parse specs row r d :
  length r ≤ length specs →
  csv_fields parse specs row d r = res_foldl (do_write parse) d (row_writes specs row r).
Proof.
  unfold row_writes. revert specs d. induction r as [|v r IH]; intros specs d Hl.
  - by rewrite zip_with_nil_r.
  - destruct specs as [|s specs]; [cbn in Hl; lia|]. cbn [csv_fields zip zip_with].
    cbn in Hl. destruct v as [|c v].
    + cbn [mbind res_bind]. rewrite filter_cons_False by (cbn; congruence). apply IH. lia.
    + rewrite filter_cons_True by (cbn; congruence). cbn [map res_foldl].
      change (do_write parse d _) with (csv_put parse d s row (String c v)).
      destruct (csv_put parse d s row (String c v)); cbn [mbind res_bind]; [|done..].
      apply IH. lia.
Qed.

Lemma csv_records_writes parse specs records : ∀ row d,
  Forall (λ r, length r ≤ length specs) records →
  csv_records parse specs row d records = res_foldl (do_write parse) d (all_writes specs row records).
Proof.
  induction records as [|r records IH]; intros row d Hf; [done|].
  apply Forall_cons in Hf as [Hr Hf]. cbn [csv_records all_writes].
  rewrite res_foldl_app, csv_fields_writes by done.
  destruct (res_foldl (do_write parse) d (row_writes specs row r)); cbn [mbind res_bind]; [|done..].
  by apply IH.
Qed.

(** The last field written to a place. *)
Definition last_field (ws : list write) (k : nat * nat) (row : nat) : option string :=
  foldl (λ acc w, if bool_decide (place w.1.1 = k ∧ w.1.2 = row) then Some w.2 else acc) None ws.

Lemma last_field_snoc ws w k row :
  last_field (ws ++ [w]) k row =
  if bool_decide (place w.1.1 = k ∧ w.1.2 = row) then Some w.2 else last_field ws k row.
Proof. unfold last_field. by rewrite foldl_app. Qed.

Lemma last_field_app ws1 ws2 k row :
  last_field (ws1 ++ ws2) k row =
  match last_field ws2 k row with Some v => Some v | None => last_field ws1 k row end.
Proof.
  induction ws2 as [|w ws2 IH] using rev_ind; [by rewrite app_nil_r|].
  rewrite app_assoc, !last_field_snoc. case_bool_decide; [done|]. apply IH.
Qed.

Lemma last_field_none ws k row :
  (∀ w, w ∈ ws → ¬ (place w.1.1 = k ∧ w.1.2 = row)) → last_field ws k row = None.
Proof.
  induction ws as [|w ws IH] using rev_ind; intros H; [done|].
  rewrite last_field_snoc, bool_decide_false; [|apply H; set_solver]. apply IH. set_solver.
Qed.

Lemma row_writes_last specs row r j s :
  NoDup (map place specs) → specs !! j = Some s →
  last_field (row_writes specs row r) (place s) row =
  match r !! j with Some v => if bool_decide (v = EmptyString) then None else Some v | None => None end.
Proof.
  unfold row_writes. revert r j. induction specs as [|s0 specs IH]; intros r j Hn Hj; [done|].
  cbn [map] in Hn. apply NoDup_cons in Hn as [Hn0 Hn].
  destruct r as [|v r]; [by cbn|]. cbn [zip zip_with].
  assert (∀ r' k, k = place s0 → last_field (map (λ p, (p.1, row, p.2))
    (filter (λ p : spec * string, p.2 ≠ EmptyString) (zip specs r'))) k row = None) as Hnone.
  { intros r' k ->. apply last_field_none. intros w Hw [Hp _].
    apply elem_of_list_fmap in Hw as (p & -> & Hp'). apply elem_of_list_filter in Hp' as [_ Hp'].
    cbn in Hp. apply Hn0. apply elem_of_list_fmap. exists p.1. split; [done|].
    destruct p. by apply elem_of_zip_l in Hp'. }
  destruct j as [|j]; cbn in Hj.
  - injection Hj as ->. cbn [lookup list_lookup]. destruct (decide (v = EmptyString)) as [->|Hv].
    + rewrite filter_cons_False by (cbn; congruence). rewrite Hnone by done. done.
    + rewrite filter_cons_True by done. cbn [map].
      change (?x :: ?l) with ([x] ++ l). rewrite last_field_app, Hnone by done.
      rewrite (bool_decide_false _ Hv). unfold last_field. cbn. by rewrite bool_decide_true.
  - assert (place s0 ≠ place s) as Hne.
    { intros E. apply Hn0. rewrite E. apply elem_of_list_fmap. exists s. split; [done|].
      by eapply elem_of_list_lookup_2. }
    etrans; [|exact (IH r j Hn Hj)].
    destruct (decide (v = EmptyString)) as [->|Hv].
    + rewrite filter_cons_False by (cbn; congruence). done.
    + rewrite filter_cons_True by done. cbn [map].
      change (?x :: ?l) with ([x] ++ l). rewrite last_field_app.
      destruct (last_field _ _ _); [done|]. unfold last_field. cbn.
      rewrite bool_decide_false; [done|]. naive_solver.
Qed.

Lemma all_writes_last specs records : ∀ row i j s,
  NoDup (map place specs) → specs !! j = Some s →
  last_field (all_writes specs row records) (place s) (row + i) =
  match records !! i with
  | Some r => match r !! j with
              | Some v => if bool_decide (v = EmptyString) then None else Some v
              | None => None
              end
  | None => None
  end.
Proof.
  assert (∀ records row w, w ∈ all_writes specs row records → row ≤ w.1.2 ∧ w.1.1 ∈ specs) as Hge.
  { clear. induction records as [|r records IH]; intros row w Hw; [by apply elem_of_nil in Hw|].
    cbn in Hw. apply elem_of_app in Hw as [Hw|Hw].
    - apply elem_of_list_fmap in Hw as (p & -> & Hp). cbn. split; [lia|].
      apply elem_of_list_filter in Hp as [_ Hp]. destruct p. by apply elem_of_zip_l in Hp.
    - destruct (IH _ _ Hw). split; [lia|done]. }
  induction records as [|r records IH]; intros row i j s Hn Hj; [done|].
  cbn [all_writes]. rewrite last_field_app. destruct i as [|i]; cbn [lookup list_lookup].
  - rewrite Nat.add_0_r. rewrite last_field_none.
    + by apply row_writes_last.
    + intros w Hw [_ Hr]. apply Hge in Hw. lia.
  - replace (row + S i) with (S row + i) by lia. rewrite (IH (S row) i j s Hn Hj).
    destruct (match records !! i with Some _ => _ | None => _ end) eqn:E; [done|].
    apply last_field_none. intros w Hw [_ Hr].
    apply elem_of_list_fmap in Hw as (p & -> & _). cbn in Hr. lia.
Qed.

(** ** The invariant of the loop *)

Definition values_from (a0 a : attr) (k : nat * nat) (ws : list write) : Prop :=
  match a0, a with
  | CatA _ vs0, CatA _ vs =>
      (NoDup vs0 → NoDup vs) ∧
      ∀ t, t ∈ vs ↔ t ∈ vs0 ∨ ∃ w, w ∈ ws ∧ place w.1.1 = k ∧ t = trim_space w.2
  | _, _ => True
  end.

Record loop_inv (parse : string → option binary64) (pg : nat) (dB : dense) (ws : list write)
    (d : dense) (sets : list dop) : Prop := {
  li_sets : ∀ o, o ∈ sets → ∃ s r v, o = DSet s r v ∧ ∃ w, w ∈ ws ∧ w.1.1 = s;
  li_run : ∀ dB', similar dB dB' → ∃ dh, dense_run pg dB' sets = Ok dh ∧ similar d dh;
  li_none : ∀ k, attr_at dB k = None → attr_at d k = None;
  li_some : ∀ k a0, attr_at dB k = Some a0 →
    ∃ a, attr_at d k = Some a ∧ attr_grows a0 a ∧ values_from a0 a k ws;
  li_cells : ∀ k row,
    match last_field ws k row with
    | None => last_write sets k.1 k.2 row = None
    | Some v => ∃ a b, attr_at d k = Some a ∧ last_write sets k.1 k.2 row = Some b ∧
                  field_stored parse a (trim_space v) b
    end
}.

Lemma loop_inv_step parse pg dB ws d sets w d' :
  is_Some (attr_at dB (place w.1.1)) →
  loop_inv parse pg dB ws d sets → do_write parse d w = Ok d' →
  ∃ o, loop_inv parse pg dB (ws ++ [w]) d' (sets ++ [o]).
Proof.
  intros [a0 Ha0] Hi H. destruct w as [[s row] v]. cbn in Ha0. unfold do_write in H. cbn in H.
  destruct Hi as [I1 I2 I3 I4 I5].
  destruct (I4 _ _ Ha0) as (a & Ha & Hg & Hv).
  destruct (csv_put_spec _ _ _ _ _ _ _ Ha H) as (a' & b & He & Hat & Hsim).
  destruct (encode_value_ok _ _ _ _ _ He) as [Hst Hgr].
  exists (DSet s row b). split.
  - intros o Ho. apply elem_of_app in Ho as [Ho|Ho].
    + destruct (I1 o Ho) as (s' & r' & v' & -> & w & Hw & <-). eexists _, _, _. split; [done|].
      exists w. split; [set_solver|done].
    + apply elem_of_list_singleton in Ho as ->. eexists _, _, _. split; [done|].
      exists (s, row, v). split; [set_solver|done].
  - intros dB' HB. destruct (I2 _ HB) as (dh & Hr & Hs). destruct (Hsim _ Hs) as (dh' & Hset & Hs').
    exists dh'. split; [|done]. apply dense_run_snoc. exists dh. done.
  - intros k Hk. rewrite Hat. rewrite decide_False; [by apply I3|]. congruence.
  - intros k b0 Hk. rewrite Hat. destruct (decide (k = place s)) as [->|Hne].
    + assert (b0 = a0) as -> by congruence. exists a'. split; [done|].
      split; [by eapply attr_grows_trans|].
      unfold values_from in *. destruct a0 as [|n0 vs0|]; [done| |done].
      destruct a as [|n vs|]; try done.
      destruct (encode_value_values _ _ _ _ _ _ He) as (vs' & -> & Ht & Hnd).
      destruct Hv as [Hv1 Hv2]. split; [auto|]. intros t. rewrite Ht, Hv2.
      split.
      * intros [[?|(w & Hw & ?)]| ->]; [by left|right; exists w; split; [apply elem_of_app; by left|done]|].
        right. exists (s, row, v). split; [apply elem_of_app; right; left|done].
      * intros [?|(w & Hw & Hp & ->)]; [by left; left|]. apply elem_of_app in Hw as [Hw|Hw].
        -- left. right. eauto.
        -- apply elem_of_list_singleton in Hw as ->. by right.
    + destruct (I4 _ _ Hk) as (a1 & Ha1 & Hg1 & Hv1). exists a1. split; [done|]. split; [done|].
      unfold values_from in *. destruct b0 as [|n0 vs0|]; [done| |done].
      destruct a1 as [|n1 vs1|]; try done. destruct Hv1 as [Hn1 Hv1]. split; [done|].
      intros t. rewrite Hv1. apply or_iff_compat_l. split.
      * intros (w & Hw & ?). exists w. split; [apply elem_of_app; by left|done].
      * intros (w & Hw & Hp & ->). apply elem_of_app in Hw as [Hw|Hw]; [eauto|].
        apply elem_of_list_singleton in Hw as ->. cbn in Hp. congruence.
  - intros k row'. rewrite last_field_snoc, last_write_snoc. cbn [fst snd].
    destruct (decide (place s = k ∧ row = row')) as [Hd|Hd].
    + rewrite (bool_decide_true _ Hd). destruct Hd as [<- <-]. cbn [place fst snd].
      rewrite bool_decide_true by done. exists a', b.
      rewrite Hat. rewrite decide_True by done. done.
    + rewrite (bool_decide_false _ Hd). rewrite bool_decide_false.
      2:{ intros (H1 & H2 & H3). apply Hd. split; [|done]. destruct k. cbn in *. unfold place. congruence. }
      specialize (I5 k row'). destruct (last_field ws k row'); [|done].
      destruct I5 as (a1 & b1 & Ha1 & Hw & Hf). destruct (decide (k = place s)) as [->|Hne].
      * exists a', b1. rewrite Hat, decide_True by done. split; [done|]. split; [done|].
        assert (a1 = a) as -> by congruence. by eapply field_stored_grows.
      * exists a1, b1. by rewrite Hat, decide_False.
Qed.

Lemma loop_inv_run parse pg dB ws0 d0 sets0 ws : ∀ d,
  Forall (λ w : write, is_Some (attr_at dB (place w.1.1))) ws →
  loop_inv parse pg dB ws0 d0 sets0 → res_foldl (do_write parse) d0 ws = Ok d →
  ∃ sets, loop_inv parse pg dB (ws0 ++ ws) d (sets0 ++ sets).
Proof.
  induction ws as [|w ws IH] using rev_ind; intros d Hf H0 H.
  - injection H as <-. exists []. by rewrite !app_nil_r.
  - rewrite res_foldl_app in H. apply bind_Ok in H as (d1 & H1 & H).
    apply Forall_app in Hf as [Hf Hw]. inversion_clear Hw as [|?? Hw' _].
    destruct (IH _ Hf H0 H1) as [sets Hs]. cbn [res_foldl] in H.
    apply bind_Ok in H as (d2 & H & Hd). injection Hd as ->.
    destruct (loop_inv_step _ _ _ _ _ _ _ _ Hw' Hs H) as [o Ho].
    exists (sets ++ [o]). rewrite !app_assoc. exact Ho.
Qed.

Lemma loop_inv_init parse pg dB : loop_inv parse pg dB [] dB [].
Proof.
  split.
  - intros o Ho. by apply elem_of_nil in Ho.
  - intros dB' H. exists dB'. done.
  - done.
  - intros k a0 H. exists a0. split; [done|]. split; [apply attr_grows_refl|].
    destruct a0; cbn; try done. split; [done|]. intros t. split; [by left|].
    intros [?|(w & Hw & _)]; [done|by apply elem_of_nil in Hw].
  - intros k row. done.
Qed.

(** ** Histories *)

Lemma reachable_sets pg base dB sets d :
  reachable pg base dB → dense_run pg dB sets = Ok d →
  (∀ o, o ∈ sets → ∃ s r v, o = DSet s r v ∧ ∃ g, column_of dB s g) →
  reachable pg (base ++ sets) d ∧ (∀ k, attr_at d k = attr_at dB k).
Proof.
  intros Hb. revert d. induction sets as [|o sets IH] using rev_ind; intros d Hrun Hsets.
  - injection Hrun as <-. rewrite app_nil_r. done.
  - apply dense_run_snoc in Hrun as (d1 & H1 & H2).
    destruct (IH d1 H1) as [(R1 & R2 & R3) Hat].
    { intros o' Ho'. apply Hsets. set_solver. }
    destruct (Hsets o) as (s & r & v & -> & g & Hg); [set_solver|].
    cbn [dense_step] in H2. split.
    + rewrite app_assoc. split; [|split].
      * apply dense_run_snoc. exists d1. done.
      * intros h1 s' r' v' h2 Heq. destruct h2 as [|o2 h2 _] using rev_ind.
        -- apply app_inj_tail in Heq as [<- [= <- <- <-]]. intros d1' Hd1'.
           assert (d1' = d1) as -> by congruence.
           assert (∃ a, attr_at dB (place s) = Some a) as [a Ha].
           { destruct Hg as [Hg1 Hg2]. unfold attr_at. cbn. rewrite Hg1. cbn.
             destruct (lookup_lt_is_Some_2 _ _ Hg2) as [a Ha]. by exists a. }
           eapply attr_at_column. by rewrite Hat.
        -- rewrite app_comm_cons, app_assoc in Heq. apply app_inj_tail in Heq as [Heq _].
           by eapply R2.
      * intros h1 a ag h2 Heq. destruct h2 as [|o2 h2 _] using rev_ind.
        -- apply app_inj_tail in Heq as [_ [=]].
        -- rewrite app_comm_cons, app_assoc in Heq. apply app_inj_tail in Heq as [Heq _].
           by eapply R3.
    + intros k. rewrite <- Hat. apply layout_attr_at. by eapply dense_set_layout.
Qed.

Lemma reachable_plain pg h d :
  dense_run pg dense_new h = Ok d →
  (∀ o, o ∈ h → match o with DSet _ _ _ | DAddTo _ _ => False | _ => True end) → reachable pg h d.
Proof.
  intros Hr Hh. split; [done|]. split.
  - intros h1 s r v h2 ->. exfalso. apply (Hh (DSet s r v)). set_solver.
  - intros h1 a ag h2 ->. exfalso. apply (Hh (DAddTo a ag)). set_solver.
Qed.

Lemma reachable_class pg h d a on d' :
  reachable pg h d → dense_step pg d (DClass a on) = Ok d' → reachable pg (h ++ [DClass a on]) d'.
Proof.
  intros (R1 & R2 & R3) Hs. split; [|split].
  - apply dense_run_snoc. exists d. done.
  - intros h1 s r v h2 Heq. destruct h2 as [|o2 h2 _] using rev_ind.
    + by apply app_inj_tail in Heq as [_ [=]].
    + rewrite app_comm_cons, app_assoc in Heq. apply app_inj_tail in Heq as [Heq _]. by eapply R2.
  - intros h1 b ag h2 Heq. destruct h2 as [|o2 h2 _] using rev_ind.
    + by apply app_inj_tail in Heq as [_ [=]].
    + rewrite app_comm_cons, app_assoc in Heq. apply app_inj_tail in Heq as [Heq _]. by eapply R3.
Qed.

Lemma last_write_base base sets p q row :
  (∀ o, o ∈ base → match o with DSet _ _ _ => False | _ => True end) →
  last_write (base ++ sets) p q row = last_write sets p q row.
Proof.
  intros Hb. unfold last_write. rewrite foldl_app. f_equal.
  induction base as [|o base IH] using rev_ind; [done|]. rewrite foldl_app. cbn.
  assert (match o with DSet _ _ _ => False | _ => True end) as Ho by (apply Hb; set_solver).
  rewrite IH by (intros o' Ho'; apply Hb; set_solver). by destruct o.
Qed.

Lemma run_class pg h : ∀ d d',
  dense_run pg d h = Ok d' →
  (∀ o, o ∈ h → match o with DClass _ _ => False | _ => True end) → d_class d' = d_class d.
Proof.
  induction h as [|o h IH] using rev_ind; intros d d' Hr Hh.
  - by injection Hr as <-.
  - apply dense_run_snoc in Hr as (d1 & H1 & H2).
    rewrite <- (IH d d1 H1) by (intros o' Ho'; apply Hh; set_solver).
    assert (match o with DClass _ _ => False | _ => True end) as Ho by (apply Hh; set_solver).
    assert (∀ d0 name size dd, create_group d0 name size = Ok dd → d_class dd = d_class d0) as Hcg.
    { intros d0 name size dd Hc. apply create_group_inv in Hc as [_ ->]. done. }
    destruct o as [a|name size|a ag|a on|n|s row val]; cbn [dense_step] in H2; [| | |done| |].
    + destruct (dense_add pg d1 a) as [[d2 s]| |] eqn:E; cbn in H2; try done; injection H2 as <-; [|done].
      apply dense_add_inv in E as (Hf & f & c & b & d3 & id & H).
      destruct (default_group pg d1 a) as [[cnt ag] bin]. destruct H as (-> & H3 & -> & H4).
      apply add_in_group_inv in H4 as (p & _ & -> & _). cbn.
      destruct H3 as [(i & _ & ->)|[_ Hc]]; [done|]. by apply Hcg in Hc.
    + destruct (dense_create_group d1 name size) as [d2| |] eqn:E; cbn in H2; try done; injection H2 as <-; [|done].
      unfold dense_create_group in E. destruct (create_group d1 name size) eqn:Ec; try done.
      injection E as ->. by apply Hcg in Ec.
    + destruct (dense_add_to_group d1 a ag) as [[d2 s]| |] eqn:E; cbn in H2; try done; injection H2 as <-; [|done].
      unfold dense_add_to_group in E. destruct (d_agmap d1 !! ag) as [id|]; [|done].
      apply bind_Ok in E as (p & _ & E). destruct (some_incompatible _ _); [done|].
      by apply add_in_group_inv in E as (p' & _ & -> & _).
    + injection H2 as <-. done.
    + by apply dense_set_inv in H2 as (g & g1 & _ & _ & ->).
Qed.

(** ** The whole parser *)

Lemma add_all_attrs pg attrs d d1 specs :
  add_all pg d attrs = Ok (d1, specs) → dense_all_attrs d1 ≡ₚ attrs ++ dense_all_attrs d.
Proof.
  revert d d1 specs. induction attrs as [|a attrs IH]; intros d d1 specs H; cbn [add_all] in H.
  - by injection H as <- <-.
  - apply bind_Ok in H as ([d0 s] & Ha & H). cbn [fst snd] in H.
    apply bind_Ok in H as ([d2 ss] & Hr & H). cbn [fst snd] in H. injection H as <- <-.
    rewrite (IH _ _ _ Hr). apply dense_add_attrs in Ha as (Hp & _). rewrite Hp.
    by rewrite <- Permutation_middle.
Qed.

Lemma layout_all_attrs d d' : layout d' = layout d → dense_all_attrs d' = dense_all_attrs d.
Proof.
  intros Hl. apply (f_equal (map snd)) in Hl. unfold layout in Hl. rewrite !map_map in Hl.
  unfold dense_all_attrs. f_equal. exact Hl.
Qed.

Lemma attr_equals_name a b : attr_equals a b = true → attr_name a = attr_name b.
Proof.
  destruct a, b; cbn; try done; intros H; repeat case_bool_decide; cbn in *; congruence.
Qed.

Lemma distinct_names l : NoDup (map attr_name l) → distinct_attrs l.
Proof.
  intros Hn i j a b Hi Hj He. apply attr_equals_name in He.
  eapply NoDup_lookup; [exact Hn|..]; rewrite list_lookup_fmap.
  - by rewrite Hi.
  - rewrite Hj. cbn. by rewrite He.
Qed.

Lemma resolve_places d attrs specs0 specs :
  distinct_attrs (dense_all_attrs d) →
  Forall2 (λ a s, attr_at d (place s) = Some a) attrs specs0 →
  dense_resolve d attrs = Ok specs → map place specs = map place specs0.
Proof.
  intros Hd Hf H. unfold dense_resolve in H. apply res_mapM_Ok in H.
  revert specs H. induction Hf as [|a s attrs specs0 Ha Hf IH]; intros specs H; inversion H; subst; [done|].
  cbn. f_equal; [|by apply IH].
  destruct (dense_get_attribute d a) eqn:E; simplify_eq.
  by destruct (dense_lookup_unique _ _ _ _ Hd Ha E) as [Hp _].
Qed.

Lemma all_writes_spec specs records : ∀ row w,
  w ∈ all_writes specs row records →
  ∃ i j r v s, records !! i = Some r ∧ r !! j = Some v ∧ specs !! j = Some s ∧
    w = (s, row + i, v) ∧ v ≠ EmptyString.
Proof.
  induction records as [|r records IH]; intros row w Hw; [by apply elem_of_nil in Hw|].
  cbn in Hw. apply elem_of_app in Hw as [Hw|Hw].
  - apply elem_of_list_fmap in Hw as ([s v] & -> & Hp). apply elem_of_list_filter in Hp as [Hv Hp].
    apply elem_of_list_lookup in Hp as [j Hj]. apply lookup_zip_with_Some in Hj as (s' & v' & [= <- <-] & Hs & Hr).
    exists 0, j, r, v, s. rewrite Nat.add_0_r. done.
  - destruct (IH _ _ Hw) as (i & j & r' & v & s & H1 & H2 & H3 & -> & H5).
    exists (S i), j, r', v, s. split; [done|]. split; [done|]. split; [done|]. split; [|done].
    f_equal. f_equal. lia.
Qed.

Lemma all_writes_complete specs records : ∀ row i j r v s,
  records !! i = Some r → r !! j = Some v → specs !! j = Some s → v ≠ EmptyString →
  (s, row + i, v) ∈ all_writes specs row records.
Proof.
  induction records as [|r0 records IH]; intros row i j r v s Hi Hj Hs Hv; [done|].
  cbn [all_writes]. apply elem_of_app. destruct i as [|i]; cbn in Hi.
  - injection Hi as ->. left. rewrite Nat.add_0_r. apply elem_of_list_fmap. exists (s, v).
    split; [done|]. apply elem_of_list_filter. split; [done|].
    apply elem_of_list_lookup. exists j. apply lookup_zip_with_Some. eauto.
  - right. replace (row + S i) with (S row + i) by lia. by eapply IH.
Qed.

Lemma csv_attributes_spec prec hh records attrs :
  csv_attributes prec hh records = Ok attrs → rectangular records = true →
  ∃ r0 r1, head records = Some r0 ∧ head (data_records hh records) = Some r1 ∧
    Forall (λ r, length r = length attrs) records ∧
    length r0 = length attrs ∧ length r1 = length attrs ∧
    ∀ j a, attrs !! j = Some a →
      column_name hh records j = Some (attr_name a) ∧
      ∃ v, r1 !! j = Some v ∧
        a = if is_number (trim_blanks v) then FloatA (attr_name a) prec else CatA (attr_name a) [].
Proof.
  unfold csv_attributes. intros H Hrect. apply bind_Ok in H as (tys & Ht & H).
  apply bind_Ok in H as (names & Hn & H). apply res_mapM_Ok in H.
  unfold csv_types in Ht. unfold csv_names in Hn.
  destruct records as [|r0 rest]; [done|]. injection Hn as Hn.
  assert (Forall (λ r, length r = length r0) (r0 :: rest)) as Hall.
  { constructor; [done|]. cbn in Hrect. apply Is_true_true_2, forallb_True in Hrect.
    eapply Forall_impl; [exact Hrect|]. cbn. intros r Hr. apply Is_true_true in Hr.
    by apply Nat.eqb_eq in Hr. }
  assert (∃ r1, head (data_records hh (r0 :: rest)) = Some r1 ∧ tys = map (csv_type prec) r1)
    as (r1 & Hr1 & ->).
  { unfold data_records. destruct hh; cbn in *.
    - destruct rest as [|r1 rest]; [done|]. injection Ht as <-. eauto.
    - injection Ht as <-. eauto. }
  assert (length r1 = length r0) as Hl1.
  { rewrite Forall_forall in Hall. apply Hall. unfold data_records in Hr1. destruct hh; cbn in Hr1.
    - destruct rest; [done|]. injection Hr1 as ->. right. left.
    - injection Hr1 as ->. left. }
  assert (length attrs = length r0) as Hl0.
  { apply Forall2_length in H. rewrite imap_length, map_length in H. lia. }
  exists r0, r1. split; [done|]. split; [done|]. rewrite Hl0. split; [done|].
  split; [done|]. split; [done|].
  intros j a Hj. destruct (Forall2_lookup_r _ _ _ _ _ H Hj) as ([i ty] & Hi & Hr).
  rewrite list_lookup_imap, list_lookup_fmap in Hi.
  destruct (r1 !! j) as [v|] eqn:Hv; [|done]. cbn in Hi. injection Hi as <- <-.
  cbn [fst snd] in Hr. apply bind_Ok in Hr as (n & Hnm & Hr). injection Hr as <-.
  apply idx_Ok in Hnm.
  assert (attr_name (set_name (csv_type prec v) n) = n) as Hname.
  { unfold csv_type. by destruct (is_number _). }
  rewrite Hname. split.
  - unfold column_name. cbn [head mbind option_bind].
    destruct (r0 !! j) as [u|] eqn:Hu.
    + cbn. subst names. destruct hh.
      * rewrite list_lookup_fmap, Hu in Hnm. cbn in Hnm. congruence.
      * rewrite list_lookup_imap, Hu in Hnm. cbn in Hnm. congruence.
    + apply lookup_ge_None in Hu. apply lookup_lt_Some in Hv. lia.
  - exists v. split; [done|]. unfold csv_type. by destruct (is_number _).
Qed.

Lemma data_records_drop hh records :
  data_records hh records = if hh then drop 1 records else records.
Proof. unfold data_records. destruct hh; [|done]. by destruct records. Qed.

Lemma Forall2_places (P : attr → nat * nat → Prop) attrs specs specs' :
  Forall2 (λ a s, P a (place s)) attrs specs → map place specs' = map place specs →
  Forall2 (λ a s, P a (place s)) attrs specs'.
Proof.
  intros H. revert specs'. induction H as [|a s attrs specs Ha H IH]; intros [|s' specs'] Hp; try done.
  cbn [map] in Hp. injection Hp as Hp1 Hp2 Hp3. constructor; [|by apply IH].
  by replace (place s') with (place s) by (unfold place; congruence).
Qed.

Lemma csv_reads parse pg prec hh records attrs d :
  csv_to_instances parse pg prec hh records = Ok d →
  csv_attributes prec hh records = Ok attrs →
  NoDup (map attr_name attrs) →
  (∃ h, reachable pg h d) ∧ table_read parse hh records (length attrs) d.
Proof.
  unfold csv_to_instances. intros H Hattrs Hn. rewrite Hattrs in H.
  apply bind_Ok in H as (rows & Hrows & H). cbn [mbind res_bind] in H.
  apply bind_Ok in H as ([d0 specs0] & Hadd & H). cbn [fst snd] in H.
  apply bind_Ok in H as (d2 & Hb & H). unfold csv_build in Hb.
  apply bind_Ok in Hb as (specs & Hres & Hb).
  assert (dense_resolve (dense_extend d0 (if hh then rows - 1 else rows)) attrs = Ok specs) as Hres'.
  { destruct (dense_resolve _ _); done. } clear Hres.
  unfold csv_rows in Hrows. destruct (rectangular records) eqn:Hrect; [|done]. injection Hrows as <-.
  destruct (csv_attributes_spec _ _ _ _ Hattrs Hrect) as (r0 & r1 & Hr0 & Hr1 & Hlen & Hl0 & Hl1 & Hcols).
  set (n := length (data_records hh records)).
  assert ((if hh then length records - 1 else length records) = n) as Hnn.
  { unfold n, data_records. destruct hh; [|done]. destruct records; cbn; lia. }
  rewrite Hnn in *. clear Hnn.
  rewrite <- data_records_drop in Hb. set (data := data_records hh records) in *.
  set (dB := dense_extend d0 n) in *.
  destruct (add_all_spec _ _ _ _ _ Hadd) as (Hrun & _ & Hat0 & _ & Hnd & Hplaces).
  pose proof (add_all_attrs _ _ _ _ _ Hadd) as Hall. cbn in Hall. rewrite app_nil_r in Hall.
  assert (∀ k, attr_at dB k = attr_at d0 k) as HatB.
  { intros k. apply layout_attr_at, dense_extend_layout. }
  assert (Forall2 (λ a s, attr_at dB (place s) = Some a) attrs specs0) as HatB0.
  { eapply Forall2_impl; [exact Hat0|]. intros a s. by rewrite HatB. }
  assert (map place specs = map place specs0) as Hsp.
  { eapply resolve_places; [|exact HatB0|exact Hres'].
    apply distinct_names. unfold dB. rewrite (layout_all_attrs d0) by apply dense_extend_layout.
    by rewrite Hall. }
  assert (Forall2 (λ a s, attr_at dB (place s) = Some a) attrs specs) as HatS.
  { by apply (Forall2_places (λ a k, attr_at dB k = Some a) attrs specs0). }
  assert (length specs = length attrs) as Hls by (symmetry; by eapply Forall2_length).
  assert (NoDup (map place specs)) as HndS by (by rewrite Hsp).
  assert (Forall (λ r, length r = length specs) data) as Hwidth.
  { rewrite Hls. unfold data, data_records. destruct hh; [|done]. destruct Hlen; [constructor|done]. }
  rewrite csv_records_writes in Hb.
  2:{ eapply Forall_impl; [exact Hwidth|]. cbn. lia. }
  set (ws := all_writes specs 0 data) in *.
  assert (Forall (λ w : write, is_Some (attr_at dB (place w.1.1))) ws) as Hws.
  { apply Forall_forall. intros w Hw.
    destruct (all_writes_spec _ _ _ _ Hw) as (i & j & r & v & s & _ & _ & Hs & -> & _). cbn.
    destruct (Forall2_lookup_r _ _ _ _ _ HatS Hs) as (a & _ & Ha). by rewrite Ha. }
  destruct (loop_inv_run parse pg dB [] dB [] ws d2 Hws (loop_inv_init parse pg dB) Hb) as [sets HI].
  cbn in HI. destruct HI as [I1 I2 I3 I4 I5].
  (* the final attributes *)
  assert (∃ finals, Forall2 (λ a s, attr_at d2 (place s) = Some a) finals specs ∧
    Forall2 attr_grows attrs finals) as (finals & Hfin & Hgrow).
  { clearbody ws. clear -HatS I4. induction HatS as [|a s attrs specs Ha HatS IH].
    - exists []. split; constructor.
    - destruct IH as (finals & H1 & H2). destruct (I4 _ _ Ha) as (b & Hb & Hg & _).
      exists (b :: finals). split; by constructor. }
  assert (Forall2 same_kind attrs finals) as Hkind.
  { eapply Forall2_impl; [exact Hgrow|]. apply attr_grows_kind. }
  destruct (add_all_similar pg attrs finals _ _ _ _ (similar_refl dense_new) Hkind Hadd)
    as (d0' & specs0' & Hadd' & Hsim0 & Hsp').
  destruct (add_all_spec _ _ _ _ _ Hadd') as (Hrun' & _ & Hat0' & _ & _ & Hplaces').
  pose proof (similar_extend _ _ n Hsim0) as HsimB. fold dB in HsimB.
  set (dB' := dense_extend d0' n) in *.
  destruct (I2 _ HsimB) as (dfin & Hrunf & Hsimf).
  set (base := map DAdd finals ++ [DExtend n]).
  assert (∀ o, o ∈ base → (∃ a, o = DAdd a) ∨ o = DExtend n) as Hbase.
  { intros o Ho. unfold base in Ho. apply elem_of_app in Ho as [Ho|Ho].
    - apply elem_of_list_fmap in Ho as (a & -> & _). eauto.
    - apply elem_of_list_singleton in Ho. eauto. }
  assert (dense_run pg dense_new base = Ok dB') as HrunB.
  { unfold base. apply dense_run_snoc. exists d0'. done. }
  assert (∀ k, attr_at dB' k = attr_at d0' k) as HatB'.
  { intros k. apply layout_attr_at, dense_extend_layout. }
  assert (Forall2 (λ a s, attr_at dB' (place s) = Some a) finals specs) as HatS'.
  { apply (Forall2_places (λ a k, attr_at dB' k = Some a) finals specs0'); [|congruence].
    eapply Forall2_impl; [exact Hat0'|]. intros a s. by rewrite HatB'. }
  destruct (reachable_sets pg base dB' sets dfin) as [Hreach Hatf].
  { apply reachable_plain; [done|]. intros o Ho. destruct (Hbase o Ho) as [[a ->]| ->]; done. }
  { done. }
  { intros o Ho. destruct (I1 o Ho) as (s & r & v & -> & w & Hw & <-). eexists _, _, _. split; [done|].
    destruct (all_writes_spec _ _ _ _ Hw) as (i & j & r' & v' & s & _ & _ & Hs & -> & _). cbn.
    destruct (Forall2_lookup_r _ _ _ _ _ HatS' Hs) as (a & _ & Ha). by eapply attr_at_column. }
  assert (d2 = dfin) as ->.
  { apply similar_eq; [done|]. intros k. rewrite Hatf.
    destruct (attr_at dB' k) as [a|] eqn:Ek.
    - destruct (Hplaces' k) as [[? ?]|Hin]; [rewrite <- HatB', Ek; eauto|done|].
      rewrite <- Hsp', <- Hsp in Hin.
      apply elem_of_list_fmap in Hin as (s & -> & Hs). apply elem_of_list_lookup in Hs as [j Hj].
      destruct (Forall2_lookup_r _ _ _ _ _ HatS' Hj) as (b & Hb1 & Hb2).
      destruct (Forall2_lookup_r _ _ _ _ _ Hfin Hj) as (b' & Hb3 & Hb4). congruence.
    - apply I3. destruct (attr_at dB k) as [a|] eqn:E; [|done].
      destruct (Hplaces k) as [[? ?]|Hin]; [rewrite <- HatB, E; eauto|done|].
      rewrite <- Hsp in Hin.
      apply elem_of_list_fmap in Hin as (s & -> & Hs). apply elem_of_list_lookup in Hs as [j Hj].
      destruct (Forall2_lookup_r _ _ _ _ _ HatS' Hj) as (b & Hb1 & Hb2). congruence. }
  (* the names of the final attributes *)
  assert (map attr_name finals = map attr_name attrs) as Hnames.
  { clear -Hgrow. induction Hgrow as [|a b l l' Hab _ IH]; [done|]. cbn. f_equal; [|done].
    symmetry. by apply attr_grows_name. }
  assert (length finals = length attrs) as Hlf.
  { apply (f_equal length) in Hnames. by rewrite !map_length in Hnames. }
  assert (dense_all_attrs dB' ≡ₚ finals) as HallB'.
  { unfold dB'. rewrite (layout_all_attrs d0') by apply dense_extend_layout.
    rewrite (add_all_attrs _ _ _ _ _ Hadd'). cbn. by rewrite app_nil_r. }
  assert (dense_all_attrs dfin ≡ₚ finals) as Hallf.
  { rewrite <- HallB'. apply reflexive_eq. apply layout_all_attrs.
    clear -Hrunf I1. revert dfin Hrunf. induction sets as [|o sets IH] using rev_ind; intros dfin Hr.
    - by injection Hr as <-.
    - apply dense_run_snoc in Hr as (d1 & H1 & H2).
      rewrite <- (IH) with (dfin := d1); [| |done].
      + destruct (I1 o) as (s & r & v & -> & _); [set_solver|]. by eapply dense_set_layout.
      + intros o' Ho'. apply I1. set_solver. }
  assert (distinct_attrs (dense_all_attrs dfin)) as Hdist.
  { apply distinct_names. rewrite Hallf, Hnames. done. }
  assert (d_class dfin = ∅) as Hcls.
  { rewrite (run_class pg sets dB' dfin Hrunf).
    - rewrite (run_class pg base dense_new dB' HrunB); [done|].
      intros o Ho. destruct (Hbase o Ho) as [[a ->]| ->]; done.
    - intros o Ho. by destruct (I1 o Ho) as (s & r & v & -> & _). }
  (* the class attribute *)
  destruct (last specs0) as [sl|] eqn:Hlast; [|done].
  assert (∃ sl', last specs = Some sl' ∧ place sl' = place sl) as (sl' & Hlast' & Hpl).
  { rewrite last_lookup in Hlast. apply (f_equal (fmap place)) in Hlast.
    rewrite <- list_lookup_fmap in Hlast.
    assert (length specs = length specs0) as Hls0.
    { apply (f_equal length) in Hsp. by rewrite !map_length in Hsp. }
    change (place <$> specs0) with (map place specs0) in Hlast. rewrite <- Hsp in Hlast.
    rewrite <- Hls0 in Hlast. change (map place specs) with (place <$> specs) in Hlast.
    rewrite list_lookup_fmap in Hlast. rewrite last_lookup.
    destruct (specs !! Nat.pred (length specs)) as [x|]; [|done].
    exists x. split; [done|]. cbn in Hlast. congruence. }
  assert (∃ j, specs !! j = Some sl' ∧ S j = length specs) as (jl & Hjl & Hjl').
  { rewrite last_lookup in Hlast'. exists (Nat.pred (length specs)). split; [done|].
    apply lookup_lt_Some in Hlast'. lia. }
  destruct (Forall2_lookup_r _ _ _ _ _ Hfin Hjl) as (al & Hal & Hatl).
  change (sp_pond sl, sp_pos sl) with (place sl) in H. rewrite <- Hpl, Hatl in H.
  destruct (dense_get_attribute dfin al) as [sf| |] eqn:Hgl.
  2:{ apply dense_get_attribute_err with (a := al) in Hgl; [by rewrite attr_equals_refl in Hgl|].
      rewrite Hallf. by eapply elem_of_list_lookup_2. }
  2:{ by apply dense_get_attribute_nopanic in Hgl. }
  destruct (dense_lookup_unique _ _ _ _ Hdist Hatl Hgl) as [Hpf _].
  assert (d = Dense (d_agmap dfin) (d_agrev dfin) (d_ags dfin) (d_fixed dfin)
        {[ place sl' := true ]} (d_maxrow dfin)
        (d_floatbytes dfin) (d_catbytes dfin) (d_binbits dfin) ∧
    dense_step pg dfin (DClass al true) = Ok d) as [Hd Hstep].
  { unfold dense_step. unfold dense_set_class in H |- *. rewrite Hgl in H |- *. cbn [mbind res_bind] in H |- *.
    rewrite Hpf, Hcls in H |- *. injection H as <-. done. }
  pose proof (reachable_class _ _ _ _ _ _ Hreach Hstep) as Hreach'.
  set (h := (base ++ sets) ++ [DClass al true]) in *.
  assert (d_ags d = d_ags dfin) as Hags by (by rewrite Hd).
  assert (∀ k, attr_at d k = attr_at dfin k) as Hatd by (intros k; unfold attr_at; by rewrite Hags).
  assert (dense_all_attrs d = dense_all_attrs dfin) as Halld by (unfold dense_all_attrs; by rewrite Hags).
  assert (d_maxrow d = n) as Hmax.
  { pose proof (dense_rows _ _ _ Hreach') as Hr. cbn in Hr. rewrite Hr.
    assert (∀ h1 h2, rows_extended (h1 ++ h2) = rows_extended h1 + rows_extended h2) as Happ.
    { clear. intros h1 h2. induction h1 as [|o h1 IH]; [done|]. unfold rows_extended in *. cbn.
      destruct o; cbn; rewrite ?IH; lia. }
    unfold h. rewrite !Happ. unfold base. rewrite !Happ. cbn.
    assert (rows_extended (map DAdd finals) = 0) as ->.
    { clear. by induction finals. }
    assert (rows_extended sets = 0) as ->; [|lia].
    clear -I1. induction sets as [|o sets IH]; [done|]. cbn.
    destruct (I1 o) as (s & r & v & -> & _); [left|]. apply IH. intros o' Ho'. apply I1. by right. }
  assert (∀ j a s, finals !! j = Some a → specs !! j = Some s →
    ∃ s', dense_get_attribute d a = Ok s' ∧ place s' = place s) as Hfind.
  { intros j a s Ha Hs. destruct (Forall2_lookup_r _ _ _ _ _ Hfin Hs) as (b & Hb1 & Hb2).
    assert (b = a) as -> by congruence.
    destruct (dense_get_attribute_finds d a) as [s' Hs'].
    { rewrite Halld, Hallf. by eapply elem_of_list_lookup_2. }
    exists s'. split; [done|].
    destruct (dense_lookup_unique d (place s) a s'); [by rewrite Halld|by rewrite Hatd|done|done]. }
  split; [eauto|]. split; [|split; [|split]].
  - unfold dense_size. rewrite Hmax, Halld, Hallf, Hlf. done.
  - intros r Hr. rewrite Forall_forall in Hlen. by apply Hlen.
  - intros j Hj.
    destruct (lookup_lt_is_Some_2 attrs j Hj) as [a0 Ha0].
    destruct (Forall2_lookup_l _ _ _ _ _ Hgrow Ha0) as (a & Ha & Hga).
    destruct (Forall2_lookup_l _ _ _ _ _ Hfin Ha) as (s & Hs & Hatj).
    destruct (Hfind j a s Ha Hs) as (s' & Hs' & Hps).
    destruct (Hcols j a0 Ha0) as (Hcn & v1 & Hv1 & Ha0eq).
    exists a, s'. split.
    + done.
    + rewrite Hcn. f_equal. by apply attr_grows_name.
    + intros r v Hr Hv. unfold data in Hr1. assert (r = r1) as -> by congruence.
      assert (v = v1) as -> by congruence. rewrite <- is_number_spec.
      destruct (is_number _); (split; [intros H1|intros H1]); try done.
      * rewrite Ha0eq in Hga. destruct a; try done. eauto.
      * rewrite Ha0eq in Hga. destruct a; try done. eauto.
    + intros nm vs ->. destruct (I4 (place s) a0) as (a' & Ha' & _ & Hvals).
      { destruct (Forall2_lookup_l _ _ _ _ _ HatS Ha0) as (s2 & Hs2 & ?). congruence. }
      assert (a' = CatA nm vs) as -> by congruence.
      destruct (is_number (trim_blanks v1)); rewrite Ha0eq in Hga, Hvals; [done|].
      cbn in Hvals. destruct Hvals as [Hv2 Hv3]. split; [apply Hv2; constructor|].
      intros t. rewrite Hv3. split.
      * intros [Ht|(w & Hw & Hpw & ->)]; [by apply elem_of_nil in Ht|].
        destruct (all_writes_spec _ _ _ _ Hw) as (i & j' & r & v & s2 & Hi & Hj' & Hs2 & -> & Hne).
        cbn in Hpw. assert (j' = j) as ->.
        { eapply NoDup_lookup; [exact HndS|rewrite list_lookup_fmap, Hs2; done|].
          rewrite list_lookup_fmap, Hs. cbn. by rewrite Hpw. }
        exists r, v. split; [by eapply elem_of_list_lookup_2|]. done.
      * intros (r & v & Hr & Hv & Hne & ->). right.
        apply elem_of_list_lookup in Hr as [i Hi]. exists (s, 0 + i, v).
        split; [|done]. by eapply all_writes_complete.
    + intros i r v Hi Hv. fold data in Hi.
      assert (column_of d s' (default (Group GBits [] [] 0) (d_ags d !! sp_pond s'))) as Hcol.
      { destruct (attr_at_column d s' a) as [g [Hg1 Hg2]]; [by rewrite Hps, Hatd|].
        rewrite Hg1. cbn. by split. }
      set (g := default _ _) in Hcol.
      assert (g_kind g = GFixed 8) as Hk.
      { rewrite (default_column_kind pg h d s' g a); [| |..| |].
        - destruct a0; destruct a; try done. exfalso. by destruct (is_number _).
        - apply Hreach'.
        - intros b ag Hin. unfold h in Hin. rewrite !elem_of_app in Hin.
          destruct Hin as [[Hin|Hin]|Hin].
          + by destruct (Hbase _ Hin) as [[? [=]]|[=]].
          + by destruct (I1 _ Hin) as (? & ? & ? & [=] & _).
          + by apply elem_of_list_singleton in Hin.
        - intros b ag Hin. unfold h in Hin. rewrite !elem_of_app in Hin.
          destruct Hin as [[Hin|Hin]|Hin].
          + by destruct (Hbase _ Hin) as [[? [=]]|[=]].
          + by destruct (I1 _ Hin) as (? & ? & ? & [=] & _).
          + by apply elem_of_list_singleton in Hin.
        - done.
        - destruct Hcol as [Hg1 _]. specialize (Hatd (place s)). rewrite Hatj, <- Hps in Hatd.
          unfold attr_at in Hatd. cbn in Hatd. by rewrite Hg1 in Hatd. }
      assert (i < d_maxrow d) as Hilt by (rewrite Hmax; by eapply lookup_lt_Some).
      rewrite (dense_refines_table pg h d s' g i Hreach' Hcol Hilt), Hk.
      unfold h. rewrite last_write_snoc. rewrite last_write_base.
      2:{ intros o Ho. destruct (Hbase _ Ho) as [[? ->]| ->]; done. }
      change (sp_pond s') with (place s').1. change (sp_pos s') with (place s').2.
      rewrite Hps. specialize (I5 (place s) i).
      pose proof (all_writes_last specs data 0 i j s HndS Hs) as Hlw. cbn [Nat.add] in Hlw.
      fold ws in Hlw. rewrite Hlw, Hi, Hv in I5. split.
      * intros ->. rewrite bool_decide_true in I5 by done. rewrite I5. done.
      * intros Hne. rewrite (bool_decide_false _ Hne) in I5.
        destruct I5 as (a' & b & Ha' & Hlwr & Hst). rewrite Hlwr. exists b.
        split; [done|]. assert (a' = a) as -> by congruence. exact Hst.
  - intros j a s Hj [Hf Hnm _ _ _]. rewrite Hd. cbn [d_class]. f_equal.
    assert (j = jl) as -> by lia.
    apply dense_get_attribute_ok in Hf as (Hat & Heq & _). apply attr_equals_name in Heq.
    change (sp_pond s, sp_pos s) with (place s) in *.
    rewrite Hatd, Hatf in Hat.
    destruct (Hplaces' (place s)) as [[? ?]|Hin]; [rewrite <- HatB', Hat; eauto|done|].
    rewrite <- Hsp', <- Hsp in Hin.
    apply elem_of_list_fmap in Hin as (s2 & Hp2 & Hs2). apply elem_of_list_lookup in Hs2 as [j2 Hj2].
    rewrite Hp2. f_equal. enough (j2 = jl) by congruence.
    destruct (Forall2_lookup_r _ _ _ _ _ HatS' Hj2) as (b & Hb1 & Hb2).
    assert (b = sp_attr s) as -> by congruence.
    destruct (lookup_lt_is_Some_2 attrs jl) as [a0 Ha0]; [lia|].
    destruct (Hcols jl a0 Ha0) as [Hcn _].
    eapply NoDup_lookup; [exact Hn|rewrite <- Hnames; rewrite list_lookup_fmap, Hb1; reflexivity|].
    rewrite list_lookup_fmap, Ha0. cbn. f_equal. congruence.
Qed.

(** ** The parser succeeds *)

Lemma encode_value_succeeds parse a v :
  match a with CatA _ _ => True | _ => is_Some (parse v) end →
  ∃ a' b, encode_value parse a v = Ok (a', b).
Proof.
  unfold encode_value. destruct a.
  - intros [f ->]. eauto.
  - intros _. destruct (cat_encode _ _). eauto.
  - intros [f ->]. eauto.
Qed.

Lemma field_stored_size parse a v b :
  (∀ n, a ≠ BinA n) → field_stored parse a v b → length b = 8.
Proof.
  destruct a; cbn.
  - intros _ (f & _ & ->). reflexivity.
  - intros _ (k & _ & ->). reflexivity.
  - intros H. by destruct (H name).
Qed.

Lemma do_write_succeeds parse pg base dB ws d sets s row v a0 :
  reachable pg base dB → (∀ a ag, DAddTo a ag ∉ base) → (∀ n z, DCreateGroup n z ∉ base) →
  Forall (λ w : write, is_Some (attr_at dB (place w.1.1))) ws →
  loop_inv parse pg dB ws d sets →
  attr_at dB (place s) = Some a0 →
  match a0 with CatA _ _ => True | FloatA _ _ => is_Some (parse (trim_space v)) | BinA _ => False end →
  row < d_maxrow dB →
  ∃ d', do_write parse d (s, row, v) = Ok d'.
Proof.
  intros Hreach Hb1 Hb2 Hws HI Ha0 Hparse Hrow. destruct HI as [I1 I2 I3 I4 I5].
  destruct (I4 _ _ Ha0) as (a & Ha & Hg & _).
  destruct (encode_value_succeeds parse a (trim_space v)) as (a' & b & He).
  { destruct a0, a; try done; cbn in Hg; try (injection Hg as <- <-); done. }
  destruct (encode_value_ok _ _ _ _ _ He) as [Hst Hgr].
  assert (∀ n, a' ≠ BinA n) as Hnb.
  { intros n ->. destruct a; try done. destruct a0; try done. }
  pose proof (field_stored_size _ _ _ _ Hnb Hst) as Hlb.
  destruct (I2 dB (similar_refl dB)) as (dh & Hrun & Hsim).
  destruct (reachable_sets pg base dB sets dh Hreach Hrun) as [Hr' Hat'].
  { intros o Ho. destruct (I1 o Ho) as (s' & r & v' & -> & w & Hw & <-). eexists _, _, _.
    split; [done|]. rewrite Forall_forall in Hws. destruct (Hws _ Hw) as [x Hx].
    by eapply attr_at_column. }
  destruct (attr_at_column dh s a0) as [g Hg']; [by rewrite Hat'|].
  assert (g_kind g = GFixed 8) as Hk.
  { rewrite (default_column_kind pg (base ++ sets) dh s g a0); [by destruct a0|apply Hr'|..].
    - intros x ag Hin. apply elem_of_app in Hin as [Hin|Hin]; [by eapply Hb1|].
      by destruct (I1 _ Hin) as (? & ? & ? & [=] & _).
    - intros x ag Hin. apply elem_of_app in Hin as [Hin|Hin]; [by eapply Hb2|].
      by destruct (I1 _ Hin) as (? & ? & ? & [=] & _).
    - done.
    - specialize (Hat' (place s)). rewrite Ha0 in Hat'. destruct Hg' as [Hg1 _].
      unfold attr_at in Hat'. cbn in Hat'. by rewrite Hg1 in Hat'. }
  assert (d_maxrow dh = d_maxrow dB) as Hmax.
  { clear -Hrun I1. revert dh Hrun. induction sets as [|o sets IH] using rev_ind; intros dh Hrun.
    - by injection Hrun as <-.
    - apply dense_run_snoc in Hrun as (d1 & H1 & H2).
      rewrite <- (IH) with (dh := d1); [| |done].
      + destruct (I1 o) as (s & r & v & -> & _); [set_solver|]. cbn in H2.
        by apply dense_set_inv in H2 as (? & ? & ? & ? & ->).
      + intros o' Ho'. apply I1. set_solver. }
  destruct (dense_set_succeeds pg _ dh s g row b Hr' Hg') as [dh' Hset].
  { by rewrite Hmax. } { rewrite Hk. exact Hlb. }
  unfold do_write, csv_put. cbn [fst snd]. change (sp_pond s, sp_pos s) with (place s). rewrite Ha.
  cbn [mbind res_bind]. rewrite He. cbn [mbind res_bind fst snd].
  unfold update_attr, idx. unfold attr_at in Ha. cbn in Ha.
  destruct (d_ags d !! sp_pond s) as [gd|] eqn:Egd; [|done]. cbn [mbind res_bind].
  set (d1 := Dense _ _ _ _ _ _ _ _ _).
  assert (similar d d1) as Hs1.
  { apply (update_attr_similar d s a' d1). unfold update_attr, idx. by rewrite Egd. }
  destruct (similar_set dh d1 s s row b dh') as (d' & Hd' & _); [|done|done|eauto].
  eapply similar_trans; [by apply similar_sym|done].
Qed.

Lemma writes_succeed parse pg base dB ws :
  reachable pg base dB → (∀ a ag, DAddTo a ag ∉ base) → (∀ n z, DCreateGroup n z ∉ base) →
  ∀ ws0 d sets,
  Forall (λ w : write, is_Some (attr_at dB (place w.1.1))) ws0 →
  Forall (λ w : write, ∃ a0, attr_at dB (place w.1.1) = Some a0 ∧ w.1.2 < d_maxrow dB ∧
    match a0 with CatA _ _ => True | FloatA _ _ => is_Some (parse (trim_space w.2)) | BinA _ => False end) ws →
  loop_inv parse pg dB ws0 d sets →
  ∃ d', res_foldl (do_write parse) d ws = Ok d'.
Proof.
  intros Hr Hb1 Hb2. induction ws as [|w ws IH]; intros ws0 d sets Hf0 Hf HI; [by eexists|].
  apply Forall_cons in Hf as [(a0 & Ha0 & Hrow & Hp) Hf]. destruct w as [[s row] v]. cbn [fst snd] in Ha0, Hrow, Hp.
  destruct (do_write_succeeds parse pg base dB ws0 d sets s row v a0) as [d1 Hd1]; try done.
  destruct (loop_inv_step parse pg dB ws0 d sets (s, row, v) d1) as [o Ho]; [by exists a0|done|done|].
  cbn [res_foldl]. rewrite Hd1. cbn [mbind res_bind]. apply (IH (ws0 ++ [(s, row, v)]) d1 (sets ++ [o])); try done.
  apply Forall_app. split; [done|]. constructor; [|constructor]. by exists a0.
Qed.

Lemma csv_attributes_ok prec hh records w :
  (∀ r, r ∈ records → length r = w) → data_records hh records ≠ [] →
  ∃ attrs, csv_attributes prec hh records = Ok attrs ∧ length attrs = w.
Proof.
  intros Hw Hd. unfold csv_attributes, csv_types, csv_names. rewrite <- data_records_drop.
  destruct (data_records hh records) as [|r1 data] eqn:E; [done|].
  assert (r1 ∈ records) as H1.
  { unfold data_records in E. destruct hh; [|rewrite E; left]. destruct records; [done|].
    cbn in E. rewrite E. right. left. }
  destruct records as [|r0 rest]; [by apply elem_of_nil in H1|]. cbn [mbind res_bind].
  set (names := if hh then _ else _).
  assert (length names = w) as Hn.
  { rewrite <- (Hw r0) by left. unfold names. destruct hh; [by rewrite map_length|by rewrite imap_length]. }
  assert (∀ (l : list attr) k, k + length l ≤ length names →
    ∃ r, res_mapM (λ '(i, a), n ← idx names i; Ok (set_name a n)) (imap (λ i, pair (k + i)) l) = Ok r ∧
      length r = length l) as Hgen.
  { induction l as [|a l IH]; intros k Hk; [by exists []|]. cbn in Hk. rewrite imap_cons.
    rewrite Nat.add_0_r. cbn [res_mapM].
    assert (∃ x, idx names k = Ok x) as [x Ex].
    { unfold idx. destruct (names !! k) as [x|] eqn:Ex; [eauto|apply lookup_ge_None in Ex; lia]. }
    rewrite Ex. cbn [mbind res_bind].
    destruct (IH (S k)) as (r & Hr & Hl); [lia|].
    assert (imap ((λ i, pair (k + i)) ∘ S) l = imap (λ i, pair (S k + i)) l) as ->.
    { apply imap_ext. intros i x' _. cbn. f_equal. lia. }
    rewrite Hr. cbn [mbind res_bind]. eexists. split; [done|]. cbn. lia. }
  destruct (Hgen (map (csv_type prec) r1) 0) as (r & Hr & Hl).
  { rewrite map_length, Hn, (Hw r1 H1). lia. }
  exists r. split; [exact Hr|]. rewrite map_length in Hl. by rewrite Hl, Hw.
Qed.

Lemma csv_succeeds parse pg prec hh records w attrs :
  0 < w → (∀ r, r ∈ records → length r = w) → data_records hh records ≠ [] →
  csv_attributes prec hh records = Ok attrs → NoDup (map attr_name attrs) →
  (∀ j r1 v1 r v, head (data_records hh records) = Some r1 → r1 !! j = Some v1 →
     is_number (trim_blanks v1) = true → r ∈ data_records hh records → r !! j = Some v →
     v ≠ EmptyString → is_Some (parse (trim_space v))) →
  ∃ d, csv_to_instances parse pg prec hh records = Ok d.
Proof.
  intros Hw Hlen Hne Hattrs Hn Hparse.
  assert (rectangular records = true) as Hrect.
  { destruct records as [|r0 rest]; [done|]. cbn. apply forallb_forall. intros r Hr.
    apply Nat.eqb_eq. apply elem_of_list_In in Hr. rewrite !Hlen; [done|left|by right]. }
  destruct (csv_attributes_spec _ _ _ _ Hattrs Hrect) as (r0 & r1 & Hr0 & Hr1 & _ & Hl0 & Hl1 & Hcols).
  assert (length attrs = w) as Hla.
  { rewrite <- Hl0. apply Hlen. destruct records; [done|]. injection Hr0 as ->. left. }
  unfold csv_to_instances, csv_rows. rewrite Hrect. cbn [mbind res_bind]. rewrite Hattrs.
  cbn [mbind res_bind].
  destruct (add_all_succeeds pg attrs dense_new dense_wf_new) as [[d0 specs0] Hadd]; [done|].
  rewrite Hadd. cbn [mbind res_bind fst snd].
  set (n := length (data_records hh records)).
  assert ((if hh then length records - 1 else length records) = n) as Hnn.
  { unfold n, data_records. destruct hh; [|done]. destruct records; cbn; lia. }
  rewrite Hnn. set (dB := dense_extend d0 n).
  destruct (add_all_spec _ _ _ _ _ Hadd) as (Hrun & _ & Hat0 & _ & Hnd & Hplaces).
  pose proof (add_all_attrs _ _ _ _ _ Hadd) as Hall. cbn in Hall. rewrite app_nil_r in Hall.
  assert (dense_all_attrs dB ≡ₚ attrs) as HallB.
  { unfold dB. by rewrite (layout_all_attrs d0) by apply dense_extend_layout. }
  assert (Forall2 (λ a s, attr_at dB (place s) = Some a) attrs specs0) as HatB0.
  { eapply Forall2_impl; [exact Hat0|]. intros a s <-. apply layout_attr_at, dense_extend_layout. }
  assert (∃ specs, dense_resolve dB attrs = Ok specs) as [specs Hres].
  { assert (∀ l, (∀ a, a ∈ l → a ∈ dense_all_attrs dB) → ∃ specs, dense_resolve dB l = Ok specs) as Hg.
    { induction l as [|a l IH]; intros Hin; [by exists []|]. unfold dense_resolve in *. cbn [res_mapM].
      destruct (dense_get_attribute_finds dB a) as [s ->]; [apply Hin; left|]. cbn [mbind res_bind].
      destruct IH as [ss ->]; [intros; apply Hin; by right|]. cbn [mbind res_bind]. eauto. }
    apply Hg. intros a. by rewrite HallB. }
  assert (Forall2 (λ a s, attr_at dB (place s) = Some a) attrs specs) as HatS.
  { apply (Forall2_places (λ a k, attr_at dB k = Some a) attrs specs0); [done|].
    eapply resolve_places; [|exact HatB0|exact Hres]. apply distinct_names. by rewrite HallB. }
  assert (length specs = w) as Hls.
  { apply Forall2_length in HatS. lia. }
  unfold csv_build. rewrite Hres, Hrect. cbn [mbind res_bind]. rewrite <- data_records_drop.
  rewrite csv_records_writes.
  2:{ apply Forall_forall. intros r Hr. rewrite Hls, Hlen; [lia|].
      unfold data_records in Hr. destruct hh; [|done]. destruct records; [done|]. by right. }
  set (base := map DAdd attrs ++ [DExtend n]).
  assert (∀ o, o ∈ base → (∃ a, o = DAdd a) ∨ o = DExtend n) as Hbase.
  { intros o Ho. unfold base in Ho. apply elem_of_app in Ho as [Ho|Ho].
    - apply elem_of_list_fmap in Ho as (a & -> & _). eauto.
    - apply elem_of_list_singleton in Ho. eauto. }
  assert (reachable pg base dB) as Hreach.
  { apply reachable_plain; [apply dense_run_snoc; by exists d0|].
    intros o Ho. destruct (Hbase o Ho) as [[a ->]| ->]; done. }
  assert (d_maxrow dB = n) as Hmax.
  { pose proof (dense_rows _ _ _ Hreach) as Hr. cbn in Hr. unfold dB. cbn. rewrite Hr. unfold base.
    clear. induction attrs; cbn; [lia|done]. }
  destruct (writes_succeed parse pg base dB (all_writes specs 0 (data_records hh records))) with
    (ws0 := @nil write) (d := dB) (sets := @nil dop) as [d2 Hd2].
  { done. }
  { intros a ag Hin. by destruct (Hbase _ Hin) as [[? [=]]|[=]]. }
  { intros a ag Hin. by destruct (Hbase _ Hin) as [[? [=]]|[=]]. }
  { constructor. }
  { apply Forall_forall. intros x Hx.
    destruct (all_writes_spec _ _ _ _ Hx) as (i & j & r & v & s & Hi & Hj & Hs & -> & Hv). cbn [fst snd].
    destruct (Forall2_lookup_r _ _ _ _ _ HatS Hs) as (a & Ha & Hat). exists a. split; [done|].
    split; [rewrite Hmax; by eapply lookup_lt_Some in Hi|].
    destruct (Hcols j a Ha) as (_ & v1 & Hv1 & Haeq).
    destruct (is_number (trim_blanks v1)) eqn:E; rewrite Haeq; [|done].
    eapply Hparse; try done. by eapply elem_of_list_lookup_2. }
  { apply loop_inv_init. }
  rewrite Hd2. cbn [mbind res_bind].
  assert (Forall2 (λ a s, is_Some (attr_at d2 (place s))) attrs specs0) as Hsome.
  { destruct (loop_inv_run parse pg dB [] dB [] (all_writes specs 0 (data_records hh records)) d2)
      as [sets HI]; [|apply loop_inv_init|done|].
    - apply Forall_forall. intros x Hx.
      destruct (all_writes_spec _ _ _ _ Hx) as (i & j & r & v & s & Hi & Hj & Hs & -> & Hv). cbn [fst snd].
      destruct (Forall2_lookup_r _ _ _ _ _ HatS Hs) as (a & Ha & ->). by eexists.
    - eapply Forall2_impl; [exact HatB0|]. intros a s Has.
      destruct (li_some _ _ _ _ _ _ HI _ _ Has) as (b & -> & _). by eexists. }
  destruct (last specs0) as [sl|] eqn:El.
  2:{ apply last_None in El. subst. apply Forall2_length in Hsome. cbn in Hsome. lia. }
  rewrite last_lookup in El. destruct (Forall2_lookup_r _ _ _ _ _ Hsome El) as (a & _ & [b Hb]).
  change (sp_pond sl, sp_pos sl) with (place sl). rewrite Hb.
  unfold dense_set_class. destruct (dense_get_attribute d2 b) eqn:Eg; cbn [mbind res_bind]; [eauto|eauto|].
  by apply dense_get_attribute_nopanic in Eg.
Qed.

(** Names. *)
Lemma names_distinct prec hh records attrs :
  csv_attributes prec hh records = Ok attrs → rectangular records = true →
  (∀ j k n, column_name hh records j = Some n → column_name hh records k = Some n → j = k) →
  NoDup (map attr_name attrs).
Proof.
  intros H Hr Hn. destruct (csv_attributes_spec _ _ _ _ H Hr) as (r0 & r1 & Hc1 & Hc2 & Hc3 & Hc4 & Hc5 & Hc).
  apply NoDup_alt. intros i j x Hi Hj. rewrite list_lookup_fmap in Hi, Hj.
  destruct (attrs !! i) as [a|] eqn:Ea; [|done]. destruct (attrs !! j) as [b|] eqn:Eb; [|done].
  cbn in Hi, Hj. destruct (Hc _ _ Ea) as [Hna _]. destruct (Hc _ _ Eb) as [Hnb _].
  eapply Hn; [exact Hna|]. rewrite Hnb. congruence.
Qed.

Lemma numbered_names_distinct records j k n :
  column_name false records j = Some n → column_name false records k = Some n → j = k.
Proof.
  unfold column_name. destruct (head records) as [r|]; [|done]. cbn.
  destruct (r !! j); [|done]. destruct (r !! k); [|done]. cbn. intros [= <-] [= Hp].
  symmetry. by apply (inj pretty).
Qed.

(** ** Row counts *)

Lemma csv_put_rows parse d s row v d' : csv_put parse d s row v = Ok d' → d_maxrow d' = d_maxrow d.
Proof.
  unfold csv_put. destruct (attr_at d _); cbn [mbind res_bind]; [|done]. intros H.
  apply bind_Ok in H as ([a' b] & _ & H). cbn [fst snd] in H.
  apply bind_Ok in H as (d0 & Hu & H). apply dense_set_inv in H as (g & g1 & _ & _ & ->). cbn.
  unfold update_attr in Hu. apply bind_Ok in Hu as (g0 & _ & Hu). by injection Hu as <-.
Qed.

Lemma csv_fields_rows parse r : ∀ specs row d d',
  csv_fields parse specs row d r = Ok d' → d_maxrow d' = d_maxrow d.
Proof.
  induction r as [|v r IH]; intros specs row d d' H; cbn [csv_fields] in H; [by injection H as ->|].
  destruct specs as [|s specs].
  - destruct v; [by eapply IH|done].
  - apply bind_Ok in H as (d1 & H1 & H). rewrite (IH _ _ _ _ H).
    destruct v; [by injection H1 as ->|by eapply csv_put_rows].
Qed.

Lemma csv_records_rows parse specs records : ∀ row d d',
  csv_records parse specs row d records = Ok d' → d_maxrow d' = d_maxrow d.
Proof.
  induction records as [|r records IH]; intros row d d' H; cbn [csv_records] in H; [by injection H as ->|].
  apply bind_Ok in H as (d1 & H1 & H). rewrite (IH _ _ _ H). by eapply csv_fields_rows.
Qed.

Lemma csv_build_rows parse attrs hh records d d' :
  csv_build parse attrs hh records d = Ok d' → d_maxrow d' = d_maxrow d.
Proof.
  unfold csv_build. intros H. apply bind_Ok in H as (specs & _ & H).
  destruct (rectangular records); [|done]. by eapply csv_records_rows.
Qed.

Lemma res_foldl_maxrow {A} (f : dense → A → res dense) l :
  (∀ d x d', f d x = Ok d' → d_maxrow d' = d_maxrow d) →
  ∀ d d', res_foldl f d l = Ok d' → d_maxrow d' = d_maxrow d.
Proof.
  intros Hf. induction l as [|x l IH]; intros d d' H; cbn [res_foldl] in H; [by injection H as ->|].
  apply bind_Ok in H as (d1 & H1 & H). rewrite (IH _ _ H). by eapply Hf.
Qed.

Lemma create_group_rows d name size d' :
  dense_create_group d name size = Ok d' → d_maxrow d' = d_maxrow d.
Proof.
  unfold dense_create_group. destruct (create_group d name size) eqn:E; try done. intros [= <-].
  by apply create_group_inv in E as [_ ->].
Qed.

Lemma add_in_group_rows d id a r : add_in_group d id a = Ok r → d_maxrow r.1 = d_maxrow d.
Proof. destruct r. intros H. by apply add_in_group_inv in H as (p & _ & -> & _). Qed.

Lemma add_to_group_rows d a ag r : dense_add_to_group d a ag = Ok r → d_maxrow r.1 = d_maxrow d.
Proof.
  unfold dense_add_to_group. destruct (d_agmap d !! ag); [|done]. intros H.
  apply bind_Ok in H as (p & _ & H). destruct (some_incompatible _ _); [done|].
  by eapply add_in_group_rows.
Qed.

Lemma dense_add_rows pg d a r : dense_add pg d a = Ok r → d_maxrow r.1 = d_maxrow d.
Proof.
  destruct r as [d' s]. intros H. apply dense_add_inv in H as (Hf & f & c & b & d1 & id & H).
  destruct (default_group pg d a) as [[cnt ag] bin]. destruct H as (-> & H1 & -> & H2).
  apply add_in_group_rows in H2. cbn in H2. cbn. rewrite H2.
  destruct H1 as [(i & _ & ->)|[_ Hc]]; [done|]. by apply create_group_inv in Hc as [_ ->].
Qed.

Lemma set_class_rows d a on d' : dense_set_class d a on = Ok d' → d_maxrow d' = d_maxrow d.
Proof. intros H. by apply dense_set_class_inv in H as (k & ->). Qed.

Lemma add_all_rows pg attrs : ∀ d r, add_all pg d attrs = Ok r → d_maxrow r.1 = d_maxrow d.
Proof.
  induction attrs as [|a attrs IH]; intros d r H; cbn [add_all] in H; [by injection H as <-|].
  apply bind_Ok in H as (r1 & H1 & H). apply bind_Ok in H as (r2 & H2 & H). injection H as <-. cbn.
  rewrite (IH _ _ H2). by eapply dense_add_rows.
Qed.

Lemma copy_dense_rows order t attrs r : copy_dense order t attrs = Ok r → d_maxrow r.1 = 0.
Proof.
  unfold copy_dense. intros H. apply bind_Ok in H as (d & Hg & H).
  assert (d_maxrow d = 0) as Hd.
  { unfold copy_groups in Hg. change 0 with (d_maxrow dense_new). revert Hg. apply res_foldl_maxrow.
    intros d0 [ag id] d1 Hx. apply bind_Ok in Hx as (g & _ & Hx).
    destruct (dense_create_group _ _ _) eqn:E; try done; injection Hx as <-; [|done].
    by eapply create_group_rows. }
  rewrite <- Hd. clear -H. revert d r H. induction attrs as [|a attrs IH]; intros d r H; cbn [copy_attrs] in H.
  - by injection H as <-.
  - apply bind_Ok in H as (s & _ & H). apply bind_Ok in H as (ag & _ & H).
    apply bind_Ok in H as (r1 & H1 & H). apply bind_Ok in H as (r2 & H2 & H). injection H as <-.
    cbn. rewrite (IH _ _ H2). destruct (dense_add_to_group d a ag) eqn:E; try done. injection H1 as <-.
    by eapply add_to_group_rows.
Qed.

Lemma rows_of_records (hh : bool) (records : list record) :
  (if hh then length records - 1 else length records) = length (data_records hh records).
Proof. unfold data_records. destruct hh; [|done]. destruct records; cbn; lia. Qed.

Lemma csv_rows_Ok records rows : csv_rows records = Ok rows → rows = length records.
Proof. unfold csv_rows. destruct (rectangular records); [|done]. by intros [= <-]. Qed.

Lemma csv_to_instances_rows parse pg prec hh records d :
  csv_to_instances parse pg prec hh records = Ok d →
  (dense_size d).2 = length (data_records hh records).
Proof.
  unfold csv_to_instances. intros H. apply bind_Ok in H as (rows & Hr & H). apply csv_rows_Ok in Hr as ->.
  apply bind_Ok in H as (attrs & _ & H). apply bind_Ok in H as (r & Hadd & H).
  apply bind_Ok in H as (d2 & Hb & H). apply csv_build_rows in Hb. apply add_all_rows in Hadd.
  rewrite rows_of_records in Hb. cbn [dense_extend d_maxrow] in Hb. rewrite Hadd in Hb. cbn in Hb.
  cbn. rewrite <- Hb. destruct (last r.2); [|done]. destruct (attr_at d2 _); [|done].
  destruct (dense_set_class d2 _ true) eqn:E; try done; injection H as <-; [|done].
  by eapply set_class_rows.
Qed.

Lemma csv_to_templated_rows parse order corder prec hh t records d :
  csv_to_templated parse order corder prec hh t records = Ok d →
  (dense_size d).2 = length (data_records hh records).
Proof.
  unfold csv_to_templated. intros H. apply bind_Ok in H as (rows & Hr & H). apply csv_rows_Ok in Hr as ->.
  apply bind_Ok in H as (attrs & _ & H). apply bind_Ok in H as (r & Hc & H).
  apply bind_Ok in H as (d2 & Hb & H). apply csv_build_rows in Hb. apply copy_dense_rows in Hc.
  rewrite rows_of_records in Hb. cbn [dense_extend d_maxrow] in Hb. rewrite Hc in Hb. cbn in Hb.
  cbn. rewrite <- Hb. revert H. unfold copy_class. apply res_foldl_maxrow.
  intros d0 [k b] d1. destruct b; [|by intros [= <-]].
  destruct (list_find _ _) as [[i ?]|]; [|by intros [= <-]]. intros Hx.
  apply bind_Ok in Hx as (s & _ & Hx). destruct (attr_at d0 _); [|done]. by eapply set_class_rows.
Qed.

Lemma csv_to_grouped_rows parse order pg prec groups classes overrides hh records d :
  csv_to_grouped parse order pg prec groups classes overrides hh records = Ok d →
  (dense_size d).2 = length records.
Proof.
  unfold csv_to_grouped. intros H. apply bind_Ok in H as (rows & Hr & H). apply csv_rows_Ok in Hr as ->.
  apply bind_Ok in H as (attrs & _ & H). apply bind_Ok in H as (d1 & H1 & H).
  apply bind_Ok in H as (d2 & H2 & H). apply csv_build_rows in H. cbn [dense_extend d_maxrow] in H.
  assert (d_maxrow d2 = 0) as Hz; [|rewrite Hz in H; exact H].
  assert (d_maxrow d1 = 0) as H10.
  { change 0 with (d_maxrow dense_new). revert H1. apply res_foldl_maxrow. intros d0 [ag size] d' Hx.
    destruct (dense_create_group _ _ _) eqn:E; try done. injection Hx as <-. by eapply create_group_rows. }
  rewrite <- H10. revert H2. apply res_foldl_maxrow. intros d0 a d' Hx. unfold add_grouped in Hx.
  apply bind_Ok in Hx as (r & Hr & Hx).
  assert (d_maxrow r.1 = d_maxrow d0) as Hr0.
  { destruct ((classes ∪ groups) !! attr_name a) as [ag|]; [|by eapply dense_add_rows].
    destruct (dense_add_to_group d0 a ag) eqn:E; try done. injection Hr as <-.
    by eapply add_to_group_rows. }
  rewrite <- Hr0. destruct (classes !! attr_name a); [|by injection Hx as <-].
  destruct (dense_set_class _ _ _) eqn:E; try done. injection Hx as <-. by eapply set_class_rows.
Qed.

Lemma csv_reads_distinct parse pg prec hh records d :
  csv_to_instances parse pg prec hh records = Ok d →
  (∀ j k n, column_name hh records j = Some n → column_name hh records k = Some n → j = k) →
  (∃ h, reachable pg h d) ∧ ∃ w, table_read parse hh records w d.
Proof.
  intros H Hn. pose proof H as H'. unfold csv_to_instances in H'.
  apply bind_Ok in H' as (rows & Hrows & H'). apply bind_Ok in H' as (attrs & Hattrs & _).
  unfold csv_rows in Hrows. destruct (rectangular records) eqn:Hr; [|done].
  destruct (csv_reads _ _ _ _ _ _ _ H Hattrs) as [? ?]; [|eauto].
  by eapply names_distinct.
Qed.

Lemma csv_reads_numbered parse pg prec records d :
  csv_to_instances parse pg prec false records = Ok d →
  (∃ h, reachable pg h d) ∧ ∃ w, table_read parse false records w d.
Proof. intros H. apply (csv_reads_distinct _ _ _ _ _ _ H). apply numbered_names_distinct. Qed.

Lemma csv_total parse pg prec hh records w :
  0 < w → (∀ r, r ∈ records → length r = w) → data_records hh records ≠ [] →
  (∀ j k n, column_name hh records j = Some n → column_name hh records k = Some n → j = k) →
  (∀ j r1 v1 r v, head (data_records hh records) = Some r1 → r1 !! j = Some v1 →
     number (chars (trim_blanks v1)) → r ∈ data_records hh records → r !! j = Some v →
     v ≠ EmptyString → is_Some (parse (trim_space v))) →
  ∃ d, csv_to_instances parse pg prec hh records = Ok d.
Proof.
  intros Hw Hl Hd Hn Hp. destruct (csv_attributes_ok prec hh records w Hl Hd) as (attrs & Ha & Hla).
  eapply csv_succeeds; try done.
  - eapply names_distinct; [exact Ha| |done].
    destruct records as [|r0 rest]; [done|]. cbn. apply forallb_forall. intros r Hr.
    apply Nat.eqb_eq. apply elem_of_list_In in Hr. rewrite !Hl; [done|left|by right].
  - intros j r1 v1 r v H1 H2 H3. apply (Hp j r1 v1 r v H1 H2). by apply is_number_spec.
Qed.
