(** Lemmas about reading ARFF files. *)
From Verif Require Import Prelude BytesModel BytesProofs FloatModel AttrModel AttrSpec AttrProofs StoreModel
  StoreProofs DenseModel DenseSpec DenseProofs GridModel TextModel CsvModel CsvSpec CsvProofs
  ArffModel ArffSpec ArffText.
From Flocq Require Import IEEE754.Bits IEEE754.Binary.
From Coq Require Import Ascii.
Local Open Scope nat_scope.

(** The bytes of a field. *)
Definition arff_code (parse : string → option binary64) (a : attr) (v : string) : option (list N) :=
  match a with
  | CatA _ vs => cat_get_sysval vs v
  | FloatA _ _ => pack_float <$> parse v
  | BinA _ => (λ f, [if float_gt f (b64_of_bits 0) then 1%N else 0%N]) <$> parse v
  end.

Lemma code_stored parse a v b : arff_code parse a v = Some b → field_stored parse a v b.
Proof.
  destruct a as [n p|n vs|n]; cbn.
  - destruct (parse v) as [f|]; [|done]. intros [= <-]. eauto.
  - unfold cat_get_sysval. destruct (cat_find vs v) as [k|] eqn:E; [|done]. intros [= <-].
    exists k. split; [|done]. by apply cat_find_some in E.
  - destruct (parse v) as [f|]; [|done]. intros [= <-]. eauto.
Qed.

Lemma code_length parse a v b : arff_code parse a v = Some b → right_size (default_kind a) b.
Proof.
  destruct a as [n p|n vs|n]; cbn.
  - destruct (parse v) as [f|]; [|done]. intros [= <-]. apply pack_u64_length.
  - unfold cat_get_sysval. destruct (cat_find vs v) as [k|]; [|done]. intros [= <-]. apply pack_u64_length.
  - destruct (parse v) as [f|]; [|done]. by intros [= <-].
Qed.

Lemma code_valid parse dc a f :
  declared dc a → field_valid parse dc f → is_Some (arff_code parse a (trim_space f)).
Proof.
  destruct dc as [n|n vs]; cbn [declared field_valid].
  - intros [p ->] [v Hv]. cbn. rewrite Hv. by eexists.
  - intros -> Hin. cbn. unfold cat_get_sysval, cat_find.
    destruct (cat_find_from 0 vs (trim_space f)) eqn:E; [by eexists|].
    by apply cat_find_none_from in E.
Qed.

(** ** What any run writes *)

Section any.
  Context (parse : string → option binary64) (pg : nat).

  Definition good_set (specs : list spec) (o : dop) : Prop :=
    ∃ s row v b, s ∈ specs ∧ o = DSet s row b ∧ arff_code parse (sp_attr s) v = Some b.

  Lemma put_sets specs d s row v d' e :
    s ∈ specs → arff_put parse d s row v = (d', e) →
    ∃ sets, dense_run pg d sets = Ok d' ∧ ∀ o, o ∈ sets → good_set specs o.
  Proof.
    intros Hs H. unfold arff_put in H. fold (arff_code parse (sp_attr s) (text v)) in H.
    destruct (arff_code parse (sp_attr s) (text v)) as [b|] eqn:Eb.
    2:{ injection H as <- <-. exists []. split; [done|]. intros o Ho. by apply elem_of_nil in Ho. }
    destruct (dense_set d s row b) as [d1| |] eqn:Ed.
    - injection H as <- <-. exists [DSet s row b]. split.
      + cbn [dense_run res_foldl dense_step]. by rewrite Ed.
      + intros o Ho. apply elem_of_list_singleton in Ho as ->. exists s, row, (text v), b. done.
    - injection H as <- <-. exists []. split; [done|]. intros o Ho. by apply elem_of_nil in Ho.
    - injection H as <- <-. exists []. split; [done|]. intros o Ho. by apply elem_of_nil in Ho.
  Qed.

  Lemma run_sets_app d d1 d2 s1 s2 (P : dop → Prop) :
    (dense_run pg d s1 = Ok d1 ∧ ∀ o, o ∈ s1 → P o) →
    (dense_run pg d1 s2 = Ok d2 ∧ ∀ o, o ∈ s2 → P o) →
    ∃ sets, dense_run pg d sets = Ok d2 ∧ ∀ o, o ∈ sets → P o.
  Proof.
    intros [H1 P1] [H2 P2]. exists (s1 ++ s2). split.
    - rewrite dense_run_app, H1. exact H2.
    - intros o Ho. apply elem_of_app in Ho as [?|?]; auto.
  Qed.

  Lemma fields_sets all specs row fields : (∀ s, s ∈ specs → s ∈ all) → ∀ d d' e,
    arff_fields parse specs row d fields = (d', e) →
    ∃ sets, dense_run pg d sets = Ok d' ∧ ∀ o, o ∈ sets → good_set all o.
  Proof.
    revert specs. induction fields as [|v fields IH]; intros specs Hs d d' e H.
    - assert (arff_fields parse specs row d [] = (d, Finished)) as Hx by (by destruct specs).
      rewrite Hx in H. injection H as <- <-. exists []. split; [done|].
      intros o Ho. by apply elem_of_nil in Ho.
    - destruct specs as [|s specs]; cbn [arff_fields] in H.
      { injection H as <- <-. exists []. split; [done|]. intros o Ho. by apply elem_of_nil in Ho. }
      destruct (arff_put parse d s row (trim_list is_space v)) as [d1 e1] eqn:E.
      destruct (put_sets all d s row _ d1 e1 ltac:(apply Hs; left) E) as [s1 H1].
      destruct e1; try (injection H as <- <-; by exists s1).
      destruct (IH specs ltac:(intros x Hx; apply Hs; by right) d1 d' e H) as [s2 H2].
      by eapply run_sets_app.
  Qed.

  Lemma lines_sets specs lines : ∀ reading row d d' e,
    arff_lines parse specs reading row d lines = (d', e) →
    ∃ sets, dense_run pg d sets = Ok d' ∧ ∀ o, o ∈ sets → good_set specs o.
  Proof.
    induction lines as [|l lines IH]; intros reading row d d' e H; cbn [arff_lines] in H.
    - injection H as <- <-. exists []. split; [done|]. intros o Ho. by apply elem_of_nil in Ho.
    - destruct (bool_decide (head l = Some percent)); [by eapply IH|].
      destruct reading; [|by eapply IH].
      destruct (csv_line l) as [[fields|]| |].
      + destruct (arff_fields parse specs row d fields) as [d1 e1] eqn:E.
        destruct (fields_sets specs specs row fields ltac:(done) d d1 e1 E) as [s1 H1].
        destruct e1; try (injection H as <- <-; by exists s1).
        destruct (IH _ _ _ _ _ H) as [s2 H2]. by eapply run_sets_app.
      + by eapply IH.
      + injection H as <- <-. exists []. split; [done|]. intros o Ho. by apply elem_of_nil in Ho.
      + injection H as <- <-. exists []. split; [done|]. intros o Ho. by apply elem_of_nil in Ho.
  Qed.
End any.

(** ** A run on valid rows *)

Record ready (pg : nat) (h : list dop) (d : dense) (specs : list spec) (n : nat) : Prop := {
  rd_reach : reachable pg h d;
  rd_ops : ∀ o, o ∈ h → match o with DAddTo _ _ | DCreateGroup _ _ => False | _ => True end;
  rd_rows : d_maxrow d = n;
  rd_specs : ∀ s, s ∈ specs → attr_at d (place s) = Some (sp_attr s)
}.

Lemma set_maxrow d s row b d' : dense_set d s row b = Ok d' → d_maxrow d' = d_maxrow d.
Proof. intros H. by apply dense_set_inv in H as (g & g1 & _ & _ & ->). Qed.

Lemma put_ready parse pg h d specs n s row f b :
  ready pg h d specs n → s ∈ specs → row < n → arff_code parse (sp_attr s) (trim_space f) = Some b →
  ∃ d', arff_put parse d s row (trim_list is_space (chars f)) = (d', Finished) ∧
    dense_step pg d (DSet s row b) = Ok d' ∧ ready pg (h ++ [DSet s row b]) d' specs n.
Proof.
  intros [R1 R2 R3 R4] Hs Hrow Hb. pose proof (R4 s Hs) as Hat.
  destruct (attr_at_column d s _ Hat) as [g Hg].
  assert (g_kind g = default_kind (sp_attr s)) as Hk.
  { eapply (default_column_kind pg h d s g); [apply R1| | |exact Hg|].
    - intros a ag Hin. by apply R2 in Hin.
    - intros a ag Hin. by apply R2 in Hin.
    - destruct Hg as [Hg _]. unfold attr_at in Hat. cbn in Hat. by rewrite Hg in Hat. }
  destruct (dense_set_succeeds pg h d s g row b R1 Hg) as [d' Hd'].
  { lia. }
  { rewrite Hk. by eapply code_length. }
  exists d'. split; [|split; [exact Hd'|]].
  - unfold arff_put. change (text (trim_list is_space (chars f))) with (trim_space f).
    fold (arff_code parse (sp_attr s) (trim_space f)). by rewrite Hb, Hd'.
  - destruct (reachable_sets pg h d [DSet s row b] d' R1) as [Hr Ha].
    + cbn [dense_run res_foldl dense_step]. by rewrite Hd'.
    + intros o Ho. apply elem_of_list_singleton in Ho as ->. eexists _, _, _. split; [done|]. eauto.
    + split; [done| | |].
      * intros o Ho. apply elem_of_app in Ho as [Ho|Ho]; [by apply R2|].
        by apply elem_of_list_singleton in Ho as ->.
      * by rewrite (set_maxrow _ _ _ _ _ Hd').
      * intros s' Hs'. rewrite Ha. by apply R4.
Qed.

Lemma fields_ready parse pg all n row : row < n → ∀ specs r, Forall2 (λ s f, s ∈ all ∧ is_Some (arff_code parse (sp_attr s) (trim_space f))) specs r →
  ∀ h d, ready pg h d all n →
  ∃ d' sets, arff_fields parse specs row d (map chars r) = (d', Finished) ∧
    ready pg (h ++ sets) d' all n ∧
    ∀ o, o ∈ sets ↔ ∃ j s f b, specs !! j = Some s ∧ r !! j = Some f ∧
      arff_code parse (sp_attr s) (trim_space f) = Some b ∧ o = DSet s row b.
Proof.
  intros Hrow specs r H. induction H as [|s f specs r [Hs [b Hb]] H IH]; intros h d Hr.
  - exists d, []. rewrite app_nil_r. split; [done|]. split; [done|]. intros o. split.
    + intros Ho. by apply elem_of_nil in Ho.
    + intros (j & ? & ? & ? & Hj & _). done.
  - destruct (put_ready parse pg h d all n s row f b Hr Hs Hrow Hb) as (d1 & Hp & Hd1 & Hr1).
    destruct (IH _ _ Hr1) as (d' & sets & Hf & Hr' & Hsets).
    exists d', (DSet s row b :: sets). cbn [map arff_fields]. rewrite Hp, Hf.
    split; [done|]. rewrite <- app_assoc in Hr'. split; [done|]. intros o. rewrite elem_of_cons, Hsets. split.
    + intros [->|(j & s' & f' & b' & H1 & H2 & H3 & ->)].
      * by exists 0, s, f, b.
      * by exists (S j), s', f', b'.
    + intros ([|j] & s' & f' & b' & H1 & H2 & H3 & ->).
      * cbn in H1, H2. injection H1 as <-. injection H2 as <-. left. congruence.
      * right. by exists j, s', f', b'.
Qed.

Lemma records_ready parse pg specs n rows : ∀ row h d,
  row + length rows ≤ n → ready pg h d specs n →
  Forall (λ r, Forall2 (λ s f, is_Some (arff_code parse (sp_attr s) (trim_space f))) specs r) rows →
  ∃ d' sets, read_records parse specs row d rows = (d', Finished) ∧
    ready pg (h ++ sets) d' specs n ∧
    ∀ o, o ∈ sets ↔ ∃ i r j s f b, rows !! i = Some r ∧ specs !! j = Some s ∧ r !! j = Some f ∧
      arff_code parse (sp_attr s) (trim_space f) = Some b ∧ o = DSet s (row + i) b.
Proof.
  induction rows as [|r rows IH]; intros row h d Hn Hr Hf.
  - exists d, []. rewrite app_nil_r. split; [done|]. split; [done|]. intros o. split.
    + intros Ho. by apply elem_of_nil in Ho.
    + by intros (i & ? & ? & ? & ? & ? & Hi & _).
  - cbn [length] in Hn. inversion_clear Hf as [|?? Hf1 Hf2].
    destruct (fields_ready parse pg specs n row ltac:(lia) specs r) with (h := h) (d := d)
      as (d1 & sets1 & H1 & Hr1 & Hs1); [|done|].
    { apply Forall2_same_length_lookup. split; [by eapply Forall2_length|].
      intros i s f Hs Hfi. split; [by eapply elem_of_list_lookup_2|].
      by eapply Forall2_lookup_lr in Hf1. }
    destruct (IH (S row) _ _ ltac:(lia) Hr1 Hf2) as (d2 & sets2 & H2 & Hr2 & Hs2).
    exists d2, (sets1 ++ sets2). cbn [read_records]. rewrite H1, H2. split; [done|].
    rewrite app_assoc. split; [done|]. intros o. rewrite elem_of_app, Hs1, Hs2. split.
    + intros [(j & s & f & b & ? & ? & ? & ->)|(i & r' & j & s & f & b & ? & ? & ? & ? & ->)].
      * exists 0, r, j, s, f, b. rewrite Nat.add_0_r. done.
      * exists (S i), r', j, s, f, b. replace (row + S i) with (S row + i) by lia. done.
    + intros ([|i] & r' & j & s & f & b & Hi & ? & ? & ? & ->).
      * injection Hi as <-. left. exists j, s, f, b. rewrite Nat.add_0_r. done.
      * right. exists i, r', j, s, f, b. replace (S row + i) with (row + S i) by lia. done.
Qed.

Lemma last_write_unique h s row b :
  DSet s row b ∈ h → (∀ s' b', DSet s' row b' ∈ h → place s' = place s → b' = b) →
  last_write h (sp_pond s) (sp_pos s) row = Some b.
Proof.
  induction h as [|o h IH] using rev_ind; intros Hin Hu; [by apply elem_of_nil in Hin|].
  rewrite last_write_snoc.
  assert (∀ s' b', DSet s' row b' ∈ h → place s' = place s → b' = b) as Hu'.
  { intros s' b' H. apply Hu. apply elem_of_app. by left. }
  destruct o as [| | | | |s' row' b'];
    try (apply elem_of_app in Hin as [Hin|Hin]; [by apply IH|by apply elem_of_list_singleton in Hin]).
  case_bool_decide as Hd.
  - destruct Hd as (H1 & H2 & ->). f_equal. apply (Hu s'); [apply elem_of_app; right; left|].
    unfold place. congruence.
  - apply elem_of_app in Hin as [Hin|Hin]; [by apply IH|].
    apply elem_of_list_singleton in Hin as [= <- <- <-]. by destruct Hd.
Qed.

(** ** The columns *)

Section columns.
  Context (pg : nat) (attrs : list attr) (n : nat).

  (** The instances before the first row is read. *)
  Lemma columns_ready al d0 specs0 d1 :
    add_all pg dense_new attrs = Ok (d0, specs0) →
    (match dense_set_class d0 al true with Err => Ok d0 | r => r end) = Ok d1 →
    let dB := dense_extend d1 n in
    let base := (map DAdd attrs ++ [DClass al true]) ++ [DExtend n] in
    dense_run pg dense_new base = Ok dB ∧
    (∀ k, attr_at dB k = attr_at d0 k) ∧
    dense_all_attrs dB = dense_all_attrs d0 ∧
    dense_all_attrs dB ≡ₚ attrs ∧
    (∀ specs, dense_resolve dB attrs = Ok specs → ready pg base dB specs n).
  Proof.
    intros Hadd Hcls dB base.
    destruct (add_all_spec _ _ _ _ _ Hadd) as (Hrun & _ & Hat0 & _ & Hnd & Hplaces).
    pose proof (add_all_attrs _ _ _ _ _ Hadd) as Hall. cbn in Hall. rewrite app_nil_r in Hall.
    assert (d_ags d1 = d_ags d0) as Hags.
    { destruct (dense_set_class d0 al true) as [d| |] eqn:E; simplify_eq; [|done].
      by apply dense_set_class_inv in E as (k & ->). }
    assert (∀ k, attr_at dB k = attr_at d0 k) as HatB.
    { intros k. unfold dB. rewrite (layout_attr_at d1) by apply dense_extend_layout.
      unfold attr_at. by rewrite Hags. }
    assert (dense_all_attrs dB = dense_all_attrs d0) as HallB.
    { unfold dB. rewrite (layout_all_attrs d1) by apply dense_extend_layout.
      unfold dense_all_attrs. by rewrite Hags. }
    assert (dense_run pg dense_new base = Ok dB) as HrunB.
    { unfold base. apply dense_run_snoc. exists d1. split; [|done]. apply dense_run_snoc. exists d0.
      split; [done|]. cbn [dense_step]. destruct (dense_set_class d0 al true); done. }
    split; [done|]. split; [done|]. split; [done|]. split; [by rewrite HallB|].
    intros specs Hres.
    assert (∀ o, o ∈ base → (∃ a, o = DAdd a) ∨ o = DClass al true ∨ o = DExtend n) as Hbase.
    { intros o Ho. unfold base in Ho. rewrite !elem_of_app, !elem_of_list_singleton in Ho.
      destruct Ho as [[Ho|Ho]|Ho]; [|by auto..].
      apply elem_of_list_fmap in Ho as (a & -> & _). eauto. }
    split.
    - apply reachable_plain; [done|]. intros o Ho.
      destruct (Hbase o Ho) as [[a ->]|[->| ->]]; done.
    - intros o Ho. destruct (Hbase o Ho) as [[a ->]|[->| ->]]; done.
    - assert (reachable pg base dB) as Hr.
      { apply reachable_plain; [done|]. intros o Ho. destruct (Hbase o Ho) as [[a ->]|[->| ->]]; done. }
      pose proof (dense_rows _ _ _ Hr) as Hrows. change ((dense_size dB).2) with (d_maxrow dB) in Hrows.
      rewrite Hrows. unfold base.
      rewrite !rows_extended_snoc. cbn.
      assert (rows_extended (map DAdd attrs) = 0) as ->; [clear; by induction attrs|]. cbn. lia.
    - intros s Hs. unfold dense_resolve in Hres. apply res_mapM_Ok in Hres.
      apply elem_of_list_lookup in Hs as [j Hj].
      destruct (Forall2_lookup_r _ _ _ _ _ Hres Hj) as (a & _ & Ha).
      destruct (dense_get_attribute dB a) eqn:E; simplify_eq.
      by apply dense_get_attribute_ok in E as (? & _).
  Qed.
End columns.

(** ** Any file *)

Lemma encode_all_grows hist : ∀ vs, ∃ l, (cat_encode_all vs hist).1 = vs ++ l.
Proof.
  induction hist as [|v hist IH]; intros vs; cbn; [exists []; by rewrite app_nil_r|].
  unfold cat_encode. destruct (cat_find vs v).
  - destruct (IH vs) as [l Hl]. destruct (cat_encode_all vs hist). cbn in *. eauto.
  - destruct (IH (vs ++ [v])) as [l Hl]. destruct (cat_encode_all (vs ++ [v]) hist). cbn in *.
    exists (v :: l). rewrite Hl. by rewrite <- app_assoc.
Qed.

Lemma split_on_nonempty sep l : split_on sep l ≠ [].
Proof. induction l as [|c l IH]; cbn; [done|]. case_bool_decide; [done|]. by destruct (split_on sep l). Qed.

Lemma declaration_values line n vs : arff_declaration line = Ok (Some (CatA n vs)) → vs ≠ [].
Proof.
  unfold arff_declaration. destruct line as [|c line]; [done|].
  destruct (negb _); [done|]. destruct (words (c :: line)) as [|kw [|name [|ty more]]]; try done.
  destruct (negb _); [done|]. case_bool_decide; [done|]. case_bool_decide; [|done].
  case_bool_decide; [|done].
  set (cats := match more with [] => split_on comma ty | _ => ty :: more end).
  intros [= _ <-].
  assert (∃ v l, arff_categories cats = v :: l) as (v & l & ->).
  { assert (cats ≠ []) as Hc.
    { unfold cats. destruct more; [apply split_on_nonempty|done]. }
    destruct cats as [|x cats]; [done|]. cbn [arff_categories].
    destruct (on_last (@removelast ascii) (tail x :: cats)) as [|y ys] eqn:E; [|cbn; eauto].
    unfold on_last in E. destruct (last (tail x :: cats)) eqn:E2; [|done].
    by destruct (removelast (tail x :: cats)). }
  cbn. destruct (encode_all_grows l [v]) as [l' Hl']. unfold cat_encode. cbn.
  destruct (cat_encode_all [v] l). cbn in *. by subst.
Qed.

Lemma attributes_values lines attrs a n vs :
  arff_attributes lines = Ok attrs → a ∈ attrs → a = CatA n vs → vs ≠ [].
Proof.
  unfold arff_attributes. intros H Ha ->. apply bind_Ok in H as (os & Hos & H). injection H as <-.
  apply elem_of_list_fmap in Ha as (a & Ha & Hin). destruct a; try done. cbn in Ha. injection Ha as <- <-.
  apply elem_of_list_omap in Hin as (o & Hin & Ho). cbn in Ho. subst o.
  apply res_mapM_Ok in Hos. apply elem_of_list_lookup in Hin as [i Hi].
  destruct (Forall2_lookup_r _ _ _ _ _ Hos Hi) as (l & _ & Hl). by eapply declaration_values.
Qed.

Lemma arff_any parse nil pg file d :
  arff_to_instances parse nil pg file = Ok d →
  ∃ attrs, arff_attributes (scan_lines file) = Ok attrs ∧
    dense_all_attrs d ≡ₚ attrs ∧ (dense_size d).2 = arff_count false (scan_lines file) ∧
    (∃ h, reachable pg h d) ∧
    ∀ s n vs i, attr_at d (place s) = Some (CatA n vs) → i < (dense_size d).2 →
      ∃ k v, vs !! k = Some v ∧ dense_get d s i = Ok (pack_u64 (N.of_nat k)).
Proof.
  unfold arff_to_instances. intros H. apply bind_Ok in H as (attrs & Hattrs & H).
  exists attrs. split; [done|].
  apply bind_Ok in H as ([d0 specs0] & Hadd & H). cbn [fst] in H.
  destruct (last attrs) as [al|] eqn:Hlast; [|done]. apply bind_Ok in H as (d1 & Hcls & H).
  set (n := arff_count false (scan_lines file)) in *.
  destruct (columns_ready pg attrs n al d0 specs0 d1 Hadd Hcls) as (HrunB & HatB & HallB0 & HallB & Hready).
  set (dB := dense_extend d1 n) in *.
  set (base := (map DAdd attrs ++ [DClass al true]) ++ [DExtend n]) in *.
  unfold arff_build in H. apply bind_Ok in H as (specs & Hres & H).
  assert (dense_resolve dB attrs = Ok specs) as Hres' by (destruct (dense_resolve dB attrs); done).
  destruct (Hready specs Hres') as [R1 R2 R3 R4].
  destruct (arff_lines parse specs false 0 dB (scan_lines file)) as [d' e] eqn:El.
  assert (d' = d) as -> by (destruct e; [congruence|done|destruct nil; congruence|done]).
  destruct (lines_sets parse pg specs _ _ _ _ _ _ El) as (sets & Hsets & Hgood).
  destruct (reachable_sets pg base dB sets d R1 Hsets) as [Hr Hat].
  { intros o Ho. destruct (Hgood o Ho) as (s & row & v & b & Hs & -> & _). eexists _, _, _. split; [done|].
    eapply attr_at_column. by apply R4. }
  assert (dense_all_attrs d = dense_all_attrs dB) as Hd.
  { apply layout_all_attrs. clear -Hsets Hgood. revert d Hsets. induction sets as [|o sets IH] using rev_ind; intros d Hr.
    - by injection Hr as <-.
    - apply dense_run_snoc in Hr as (d2 & H1 & H2).
      rewrite <- (IH) with (d := d2); [| |done].
      + destruct (Hgood o) as (s & r & v & b & _ & -> & _); [set_solver|]. by eapply dense_set_layout.
      + intros o' Ho'. apply Hgood. set_solver. }
  assert (d_maxrow d = n) as Hmax.
  { clear -Hsets Hgood R3. rewrite <- R3. clear R3. revert d Hsets. induction sets as [|o sets IH] using rev_ind; intros d Hr.
    - by injection Hr as <-.
    - apply dense_run_snoc in Hr as (d2 & H1 & H2).
      rewrite <- (IH) with (d := d2); [| |done].
      + destruct (Hgood o) as (s & r & v & b & _ & -> & _); [set_solver|]. by eapply set_maxrow.
      + intros o' Ho'. apply Hgood. set_solver. }
  split; [by rewrite Hd|]. split; [exact Hmax|]. split; [eauto|].
  intros s nm vs i Ha Hi. unfold dense_size in Hi. cbn in Hi.
  destruct (attr_at_column d s _ Ha) as [g Hg].
  assert (g_kind g = GFixed 8) as Hk.
  { change (GFixed 8) with (default_kind (CatA nm vs)).
    eapply (default_column_kind pg (base ++ sets) d s g); [apply Hr| | |exact Hg|].
    - intros a ag Hin. apply elem_of_app in Hin as [Hin|Hin]; [by apply R2 in Hin|].
      by destruct (Hgood _ Hin) as (? & ? & ? & ? & _ & [=] & _).
    - intros a ag Hin. apply elem_of_app in Hin as [Hin|Hin]; [by apply R2 in Hin|].
      by destruct (Hgood _ Hin) as (? & ? & ? & ? & _ & [=] & _).
    - destruct Hg as [Hg _]. unfold attr_at in Ha. cbn in Ha. by rewrite Hg in Ha. }
  rewrite (dense_refines_table pg _ d s g i Hr Hg Hi), Hk. 
  destruct (last_write (base ++ sets) (sp_pond s) (sp_pos s) i) as [b|] eqn:Elw.
  - assert (∃ s', DSet s' i b ∈ base ++ sets ∧ place s' = place s) as (s' & Hin & Hp).
    { clear -Elw. induction (base ++ sets) as [|o h IH] using rev_ind; [done|].
      rewrite last_write_snoc in Elw. destruct o as [| | | | |s' r' v'];
        try (destruct (IH Elw) as (s' & ? & ?); exists s'; split; [set_solver|done]).
      case_bool_decide as Hd.
      - injection Elw as <-. destruct Hd as (H1 & H2 & ->). exists s'. split; [set_solver|].
        unfold place. congruence.
      - destruct (IH Elw) as (s2 & ? & ?); exists s2; split; [set_solver|done]. }
    apply elem_of_app in Hin as [Hin|Hin].
    { unfold base in Hin. rewrite !elem_of_app, !elem_of_list_singleton in Hin.
      destruct Hin as [[Hin|[=]]|[=]]. by apply elem_of_list_fmap in Hin as (? & [=] & _). }
    destruct (Hgood _ Hin) as (s2 & r2 & v & b2 & Hs2 & [= <- <- <-] & Hc).
    assert (sp_attr s' = CatA nm vs) as Hsa.
    { pose proof (R4 s' Hs2) as H2. rewrite Hp in H2. rewrite <- Hat in H2. congruence. }
    rewrite Hsa in Hc. apply code_stored in Hc. cbn in Hc. destruct Hc as (k & Hk2 & ->).
    exists k, v. done.
  - assert (vs ≠ []) as Hne.
    { eapply attributes_values; [exact Hattrs| |done]. rewrite <- HallB, <- Hd.
      unfold attr_at in Ha. cbn in Ha. destruct (d_ags d !! sp_pond s) as [g0|] eqn:Eg; [|done].
      unfold dense_all_attrs. apply elem_of_list_In, in_concat. exists (g_attrs g0).
      split; [apply in_map; by eapply elem_of_list_In, elem_of_list_lookup_2|].
      by eapply elem_of_list_In, elem_of_list_lookup_2. }
    destruct vs as [|v vs]; [done|]. exists 0, v. split; [done|]. done.
Qed.

(** ** Well-formed files *)

Lemma arff_reads parse nil pg crlf file decls rows :
  arff_file crlf file decls rows →
  (∀ r j f dc, r ∈ rows → r !! j = Some f → decls !! j = Some dc → field_valid parse dc f) →
  ∃ d, arff_to_instances parse nil pg file = Ok d ∧ (∃ h, reachable pg h d) ∧
    arff_table parse decls rows d.
Proof.
  intros [(hd & mark & b & -> & Hh & Hm & Hb & Hfit) Hne Hn Hw] Hv.
  unfold arff_to_instances. rewrite scan_written by done.
  destruct (file_attributes hd mark b decls rows Hh Hm Hb) as (attrs & Hattrs & Hdecl).
  rewrite Hattrs. cbn [mbind res_bind].
  destruct (add_all_succeeds pg attrs dense_new dense_wf_new eq_refl) as [[d0 specs0] Hadd].
  rewrite Hadd. cbn [mbind res_bind fst].
  rewrite (count_file hd mark b decls rows Hh Hm Hb). set (n := length rows).
  assert (map attr_name attrs = map decl_name decls) as Hnames.
  { clear -Hdecl. induction Hdecl as [|dc a l l' Hd _ IH]; [done|]. cbn. f_equal; [|done].
    destruct dc; cbn in Hd; [by destruct Hd as [p ->]|by subst]. }
  assert (length attrs = length decls) as Hlen by (symmetry; by eapply Forall2_length).
  destruct (last attrs) as [al|] eqn:Hlast.
  2:{ apply last_None in Hlast. subst. by destruct decls. }
  assert (∃ jl, attrs !! jl = Some al ∧ S jl = length decls) as (jl & Hjl & Hjl').
  { rewrite last_lookup in Hlast. exists (Nat.pred (length attrs)). split; [done|].
    apply lookup_lt_Some in Hlast. lia. }
  destruct (add_all_spec _ _ _ _ _ Hadd) as (Hrun0 & _ & Hat0 & _ & Hnd & Hplaces).
  pose proof (add_all_attrs _ _ _ _ _ Hadd) as Hall0. cbn in Hall0. rewrite app_nil_r in Hall0.
  assert (distinct_attrs (dense_all_attrs d0)) as Hdist0.
  { apply distinct_names. rewrite Hall0, Hnames. done. }
  destruct (dense_get_attribute_finds d0 al) as [sl Hsl].
  { rewrite Hall0. by eapply elem_of_list_lookup_2. }
  assert (∃ d1, dense_set_class d0 al true = Ok d1 ∧ d_class d1 = {[ place sl := true ]}) as (d1 & Hcls & Hclass).
  { unfold dense_set_class. rewrite Hsl. cbn [mbind res_bind]. eexists. split; [done|]. cbn [d_class].
    rewrite (run_class pg _ _ _ Hrun0); [done|]. intros o Ho.
    by apply elem_of_list_fmap in Ho as (a & -> & _). }
  assert ((match dense_set_class d0 al true with Err => Ok d0 | r => r end) = Ok d1) as Hcls' by (by rewrite Hcls).
  rewrite Hcls'. cbn [mbind res_bind].
  destruct (columns_ready pg attrs n al d0 specs0 d1 Hadd Hcls') as (HrunB & HatB & HallB0 & HallB & Hready).
  set (dB := dense_extend d1 n) in *.
  set (base := (map DAdd attrs ++ [DClass al true]) ++ [DExtend n]) in *.
  assert (distinct_attrs (dense_all_attrs dB)) as HdistB by (by rewrite HallB0).
  assert (∃ specs, dense_resolve dB attrs = Ok specs) as [specs Hres].
  { unfold dense_resolve.
    assert (Forall (λ a, ∃ s, dense_get_attribute dB a = Ok s) attrs) as Hf.
    { apply Forall_forall. intros a Ha. apply dense_get_attribute_finds. by rewrite HallB. }
    clear -Hf. induction Hf as [|a l [s Hs] Hf [ss IH]]; [by exists []|]. cbn [res_mapM].
    rewrite Hs. cbn [mbind res_bind]. rewrite IH. cbn. eauto. }
  unfold arff_build. rewrite Hres. cbn [mbind res_bind].
  rewrite (lines_header parse hd decls) by done. rewrite lines_mark by done.
  assert (Forall (λ l, last l ≠ Some carriage) b) as Hcr.
  { apply Forall_app in Hfit as [_ Hfit]. inversion_clear Hfit as [|?? _ Hfb].
    eapply Forall_impl; [exact Hfb|]. by intros l (_ & ? & _). }
  rewrite (lines_body parse b rows) by done.
  assert (Forall2 (λ a s, attr_at dB (place s) = Some a) attrs specs0) as HatB0.
  { eapply Forall2_impl; [exact Hat0|]. intros a s. by rewrite HatB. }
  pose proof (resolve_places dB attrs specs0 specs HdistB HatB0 Hres) as Hsp.
  assert (Forall2 (λ a s, attr_at dB (place s) = Some a) attrs specs) as HatS.
  { by apply (Forall2_places (λ a k, attr_at dB k = Some a) attrs specs0). }
  assert (NoDup (map place specs)) as HndS by (by rewrite Hsp).
  pose proof (Hready specs Hres) as Hr0.
  assert (Forall2 (λ a s, sp_attr s = a) attrs specs) as Hsa.
  { apply Forall2_same_length_lookup. split; [by eapply Forall2_length|].
    intros i a s Ha Hs. pose proof (rd_specs _ _ _ _ _ Hr0 s ltac:(by eapply elem_of_list_lookup_2)) as H1.
    pose proof (Forall2_lookup_lr _ _ _ _ _ _ HatS Ha Hs) as H2. congruence. }
  destruct (records_ready parse pg specs n rows 0 base dB) as (d & sets & Hrd & Hrdy & Hsets); [done|done| |].
  { apply Forall_forall. intros r Hrin. apply Forall2_same_length_lookup. split.
    - rewrite (Hw r Hrin). rewrite <- Hlen. symmetry. by eapply Forall2_length.
    - intros j s f Hs Hf. destruct (Forall2_lookup_r _ _ _ _ _ Hsa Hs) as (a & Ha & ->).
      destruct (Forall2_lookup_r _ _ _ _ _ Hdecl Ha) as (dc & Hdc & Hda).
      eapply code_valid; [exact Hda|]. by eapply Hv. }
  rewrite Hrd. exists d. split; [done|].
  destruct Hrdy as [R1 R2 R3 R4]. split; [eauto|].
  assert (dense_run pg dB sets = Ok d) as Hrunsets.
  { destruct R1 as (Hx & _). rewrite dense_run_app, HrunB in Hx. exact Hx. }
  assert (∀ o, o ∈ sets → ∃ s r v, o = DSet s r v ∧ s ∈ specs) as Hset.
  { intros o Ho. apply Hsets in Ho as (i & r & j & s & f & bb & _ & Hs & _ & _ & ->).
    eexists _, _, _. split; [done|]. by eapply elem_of_list_lookup_2. }
  destruct (reachable_sets pg base dB sets d) as [_ Hatd]; [apply Hr0|done| |].
  { intros o Ho. destruct (Hset o Ho) as (s & r & v & -> & Hs). eexists _, _, _. split; [done|].
    eapply attr_at_column. by apply (rd_specs _ _ _ _ _ Hr0). }
  assert (dense_all_attrs d = dense_all_attrs dB) as Hd.
  { apply layout_all_attrs. clear -Hrunsets Hset. revert d Hrunsets. induction sets as [|o sets IH] using rev_ind; intros d Hr.
    - by injection Hr as <-.
    - apply dense_run_snoc in Hr as (d2 & H1 & H2).
      rewrite <- (IH) with (d := d2); [| |done].
      + destruct (Hset o) as (s & r & v & -> & _); [set_solver|]. by eapply dense_set_layout.
      + intros o' Ho'. apply Hset. set_solver. }
  split.
  { unfold dense_size. rewrite R3, Hd, HallB, Hlen. done. }
  intros j dc Hdc. destruct (Forall2_lookup_l _ _ _ _ _ Hdecl Hdc) as (a & Ha & Hda).
  destruct (Forall2_lookup_l _ _ _ _ _ HatS Ha) as (s & Hs & Hats).
  destruct (dense_get_attribute_finds d a) as [s' Hs'].
  { rewrite Hd, HallB. by eapply elem_of_list_lookup_2. }
  destruct (dense_lookup_unique d (place s) a s') as [Hps Hsa']; [by rewrite Hd|by rewrite Hatd|done|].
  exists a, s'. split; [done|]. split; [done|]. split.
  - intros i r f Hi Hf.
    destruct (attr_at_column d s' a) as [g Hg].
    { unfold place. rewrite Hps. by rewrite Hatd. }
    assert (i < d_maxrow d) as Hilt by (rewrite R3; by eapply lookup_lt_Some).
    rewrite (dense_refines_table pg _ d s' g i R1 Hg Hilt).
    pose proof (Forall2_lookup_lr _ _ _ _ _ _ Hsa Ha Hs) as Hsas. cbn in Hsas.
    destruct (code_valid parse dc a f Hda) as [bb Hbb].
    { eapply Hv; [by eapply elem_of_list_lookup_2|done|done]. }
    assert (last_write (base ++ sets) (sp_pond s) (sp_pos s) i = Some bb) as Hlw.
    { rewrite last_write_base.
      2:{ intros o Ho. unfold base in Ho. rewrite !elem_of_app, !elem_of_list_singleton in Ho.
          destruct Ho as [[Ho|Ho]|Ho]; [|by subst..]. by apply elem_of_list_fmap in Ho as (? & -> & _). }
      apply last_write_unique.
      - apply Hsets. exists i, r, j, s, f, bb. rewrite Hsas. done.
      - intros s2 b2 Hin Hp2. apply Hsets in Hin as (i2 & r2 & j2 & s3 & f2 & b3 & Hi2 & Hs3 & Hf2 & Hb3 & [= -> -> ->]).
        cbn in Hi2. assert (j2 = j) as ->.
        { eapply NoDup_lookup; [exact HndS|rewrite list_lookup_fmap, Hs3; done|].
          rewrite list_lookup_fmap, Hs. cbn. by rewrite Hp2. }
        assert (s3 = s) as -> by congruence. assert (r2 = r) as -> by congruence.
        assert (f2 = f) as -> by congruence. rewrite Hsas in Hb3. congruence. }
    assert ((sp_pond s', sp_pos s') = (sp_pond s, sp_pos s)) as [= E1 E2] by exact Hps.
    rewrite E1, E2, Hlw.
    assert (g_kind g = GFixed 8) as ->.
    { assert (default_kind a = GFixed 8) as <-.
      { destruct dc; cbn in Hda; [by destruct Hda as [p ->]|by subst]. }
      eapply (default_column_kind pg _ d s' g); [apply R1| | |exact Hg|].
      - intros a' ag Hin. by apply R2 in Hin.
      - intros a' ag Hin. by apply R2 in Hin.
      - apply dense_get_attribute_ok in Hs' as (Hx & _). destruct Hg as [Hg _]. unfold attr_at in Hx. cbn in Hx.
        rewrite Hg in Hx. cbn in Hx. congruence. }
    exists bb. split; [done|]. by apply code_stored.
  - intros Hj. assert (j = jl) as -> by lia. assert (a = al) as -> by congruence.
    assert (d_class d = d_class dB) as ->.
    { apply (run_class pg sets); [done|]. intros o Ho. by destruct (Hset o Ho) as (? & ? & ? & -> & _). }
    unfold dB. cbn [d_class dense_extend]. rewrite Hclass. f_equal. 
    destruct (dense_lookup_unique d0 (place s) al sl) as [Hp0 _]; [done| |done|].
    { by rewrite <- HatB. }
    unfold place at 1. congruence.
Qed.

(** ** Files with an invalid field *)

Lemma code_invalid parse dc a f :
  declared dc a → ¬ field_valid parse dc f → arff_code parse a (trim_space f) = None.
Proof.
  destruct dc as [n|n vs]; cbn [declared field_valid].
  - intros [p ->] Hv. cbn. destruct (parse (trim_space f)); [by destruct Hv|done].
  - intros -> Hin. cbn. unfold cat_get_sysval, cat_find.
    destruct (cat_find_from 0 vs (trim_space f)) eqn:E; [|done].
    destruct Hin. apply cat_find_some in E. by eapply elem_of_list_lookup_2.
Qed.

Lemma fields_invalid parse pg all n row : row < n → ∀ specs r,
  Forall2 (λ s (_ : string), s ∈ all) specs r →
  (∃ j s f, specs !! j = Some s ∧ r !! j = Some f ∧ arff_code parse (sp_attr s) (trim_space f) = None) →
  ∀ h d, ready pg h d all n → ∃ d', arff_fields parse specs row d (map chars r) = (d', Failed).
Proof.
  intros Hrow specs r H. induction H as [|s f specs r Hs H IH]; intros (j & sj & fj & Hj & Hf & Hc) h d Hr;
    [done|]. cbn [map arff_fields].
  destruct (arff_code parse (sp_attr s) (trim_space f)) as [b|] eqn:Eb.
  - destruct (put_ready parse pg h d all n s row f b Hr Hs Hrow Eb) as (d1 & Hp & _ & Hr1).
    rewrite Hp. destruct j as [|j]; [cbn in Hj, Hf; congruence|]. eapply IH; [|exact Hr1]. by exists j, sj, fj.
  - exists d. unfold arff_put. change (text (trim_list is_space (chars f))) with (trim_space f).
    fold (arff_code parse (sp_attr s) (trim_space f)). by rewrite Eb.
Qed.

Lemma records_invalid parse pg specs n rows : ∀ row h d,
  row + length rows ≤ n → ready pg h d specs n →
  Forall (λ r, length r = length specs) rows →
  (∃ r j s f, r ∈ rows ∧ specs !! j = Some s ∧ r !! j = Some f ∧
     arff_code parse (sp_attr s) (trim_space f) = None) →
  ∃ d', read_records parse specs row d rows = (d', Failed).
Proof.
  induction rows as [|r rows IH]; intros row h d Hn Hr Hf Hbad.
  - destruct Hbad as (? & _ & _ & _ & Hin & _). by apply elem_of_nil in Hin.
  - cbn [length] in Hn. inversion_clear Hf as [|?? Hf1 Hf2].
    assert (Forall2 (λ s (_ : string), s ∈ specs) specs r) as Hall.
    { apply Forall2_same_length_lookup. split; [done|]. intros i s f Hs _. by eapply elem_of_list_lookup_2. }
    destruct (decide (Forall (λ sf : spec * string, is_Some (arff_code parse (sp_attr sf.1) (trim_space sf.2)))
                        (zip specs r))) as [Hok|Hno].
    + destruct (fields_ready parse pg specs n row ltac:(lia) specs r) with (h := h) (d := d)
        as (d1 & sets1 & H1 & Hr1 & Hs1); [|done|].
      { apply Forall2_same_length_lookup. split; [done|]. intros i s f Hs Hfi.
        split; [by eapply elem_of_list_lookup_2|]. rewrite Forall_forall in Hok.
        apply (Hok (s, f)). apply elem_of_list_lookup. exists i. apply lookup_zip_with_Some. by exists s, f. }
      cbn [read_records]. rewrite H1. apply (IH (S row) _ _ ltac:(lia) Hr1 Hf2).
      destruct Hbad as (r' & j & s & f & Hin & Hs & Hfj & Hc). apply elem_of_cons in Hin as [->|Hin].
      * rewrite Forall_forall in Hok. destruct (Hok (s, f)) as [b Hb].
        { apply elem_of_list_lookup. exists j. apply lookup_zip_with_Some. by exists s, f. }
        cbn [fst snd] in Hb. congruence.
      * eauto 10.
    + apply not_Forall_Exists in Hno; [|intros ?; apply _]. apply Exists_exists in Hno as ([s f] & Hin & Hno).
      apply elem_of_list_lookup in Hin as [j Hj]. apply lookup_zip_with_Some in Hj as (s' & f' & [= -> ->] & Hs & Hfj).
      destruct (fields_invalid parse pg specs n row ltac:(lia) specs r Hall) with (h := h) (d := d) as [d' Hd'].
      { exists j, s', f'. split_and!; try done. cbn [fst snd] in Hno. apply eq_None_not_Some. exact Hno. }
      { done. }
      exists d'. cbn [read_records]. by rewrite Hd'.
Qed.

Lemma arff_rejects parse nil pg crlf file decls rows r j f dc :
  arff_file crlf file decls rows →
  r ∈ rows → r !! j = Some f → decls !! j = Some dc → ¬ field_valid parse dc f →
  arff_to_instances parse nil pg file = Err.
Proof.
  intros [(hd & mark & b & -> & Hh & Hm & Hb & Hfit) Hne Hn Hw] Hr Hf Hdc Hv.
  unfold arff_to_instances. rewrite scan_written by done.
  destruct (file_attributes hd mark b decls rows Hh Hm Hb) as (attrs & Hattrs & Hdecl).
  rewrite Hattrs. cbn [mbind res_bind].
  destruct (add_all_succeeds pg attrs dense_new dense_wf_new eq_refl) as [[d0 specs0] Hadd].
  rewrite Hadd. cbn [mbind res_bind fst].
  rewrite (count_file hd mark b decls rows Hh Hm Hb). set (n := length rows).
  assert (length attrs = length decls) as Hlen by (symmetry; by eapply Forall2_length).
  destruct (last attrs) as [al|] eqn:Hlast.
  2:{ apply last_None in Hlast. subst. by destruct decls. }
  assert (∃ d1, (match dense_set_class d0 al true with Err => Ok d0 | r => r end) = Ok d1) as [d1 Hcls].
  { unfold dense_set_class. pose proof (dense_get_attribute_nopanic d0 al) as Hnp.
    destruct (dense_get_attribute d0 al); cbn [mbind res_bind]; eauto. done. }
  rewrite Hcls. cbn [mbind res_bind].
  destruct (columns_ready pg attrs n al d0 specs0 d1 Hadd Hcls) as (HrunB & HatB & HallB0 & HallB & Hready).
  set (dB := dense_extend d1 n) in *.
  assert (∃ specs, dense_resolve dB attrs = Ok specs) as [specs Hres].
  { unfold dense_resolve.
    assert (Forall (λ a, ∃ s, dense_get_attribute dB a = Ok s) attrs) as Hfa.
    { apply Forall_forall. intros a Ha. apply dense_get_attribute_finds. by rewrite HallB. }
    clear -Hfa. induction Hfa as [|a l [s Hs] Hfa [ss IH]]; [by exists []|]. cbn [res_mapM].
    rewrite Hs. cbn [mbind res_bind]. rewrite IH. cbn. eauto. }
  unfold arff_build. rewrite Hres. cbn [mbind res_bind].
  rewrite (lines_header parse hd decls) by done. rewrite lines_mark by done.
  assert (Forall (λ l, last l ≠ Some carriage) b) as Hcr.
  { apply Forall_app in Hfit as [_ Hfit]. inversion_clear Hfit as [|?? _ Hfb].
    eapply Forall_impl; [exact Hfb|]. by intros l (_ & ? & _). }
  rewrite (lines_body parse b rows) by done.
  pose proof (Hready specs Hres) as Hr0.
  assert (map attr_name attrs = map decl_name decls) as Hnames.
  { clear -Hdecl. induction Hdecl as [|dc a l l' Hd _ IH]; [done|]. cbn. f_equal; [|done].
    destruct dc; cbn in Hd; [by destruct Hd as [p ->]|by subst]. }
  destruct (add_all_spec _ _ _ _ _ Hadd) as (Hrun0 & _ & Hat0 & _ & Hnd & Hplaces).
  assert (Forall2 (λ a s, attr_at dB (place s) = Some a) attrs specs0) as HatB0.
  { eapply Forall2_impl; [exact Hat0|]. intros a s. by rewrite HatB. }
  assert (distinct_attrs (dense_all_attrs dB)) as HdistB.
  { apply distinct_names. rewrite HallB, Hnames. done. }
  pose proof (resolve_places dB attrs specs0 specs HdistB HatB0 Hres) as Hsp.
  assert (Forall2 (λ a s, attr_at dB (place s) = Some a) attrs specs) as HatS.
  { by apply (Forall2_places (λ a k, attr_at dB k = Some a) attrs specs0). }
  edestruct (records_invalid parse pg specs n rows 0) as [d' Hd']; [| exact Hr0| | |].
  - done.
  - apply Forall_forall. intros r' Hr'. rewrite (Hw r' Hr'), <- Hlen. by eapply Forall2_length.
  - destruct (Forall2_lookup_l _ _ _ _ _ Hdecl Hdc) as (a & Ha & Hda).
    destruct (Forall2_lookup_l _ _ _ _ _ HatS Ha) as (s & Hs & Hats).
    exists r, j, s, f. split_and!; try done.
    pose proof (rd_specs _ _ _ _ _ Hr0 s ltac:(by eapply elem_of_list_lookup_2)) as H1.
    assert (sp_attr s = a) as -> by congruence. by eapply code_invalid.
  - by rewrite Hd'.
Qed.
