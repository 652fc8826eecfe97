(** Proofs about saving and loading decision trees. *)
From Verif Require Import Prelude BytesModel AttrModel AttrSpec StoreModel DenseModel DenseSpec
  DenseProofs GridModel GridSpec GridProofs CsvModel PredModel SerModel SerSpec SerProofs Id3Model
  NbModel BagModel SaveModel SaveSpec SaveProofs.
From Flocq Require Import IEEE754.Bits IEEE754.Binary.
Local Open Scope nat_scope.

(** ** Predictions of a loaded tree *)

Definition res_map {A B} (f : A → B) (r : res A) : res B :=
  match r with Ok a => Ok (f a) | Err => Err | Panic => Panic end.

Lemma reload_branch show what row ru :
  branch show what row (reload_rule ru) = branch show what row ru.
Proof. by destruct ru as [[a|] v]. Qed.

Lemma reload_walk show wo what row t : ∀ depth,
  walk show wo what row depth (reload t) = res_map reload (walk show wo what row depth t).
Proof.
  induction t as [leaf cs dist class cattr r IH] using tree_children_ind. intros depth.
  cbn [reload walk]. destruct cs as [l|]; [|done]. destruct r as [ru|]; [|done].
  rewrite reload_branch. destruct (branch show what row ru) as [v| |]; [|done|done].
  cbn [mbind res_bind].
  assert (map fst (map (λ kc : string * tree, (kc.1, reload kc.2)) l) = map fst l) as ->.
  { rewrite map_map. apply map_ext. done. }
  set (k := if bool_decide (v ∈ map fst l) then v else best_child (wo row depth (map fst l)) v "").
  clearbody k.
  assert (∀ k c depth, (k, c) ∈ l →
    walk show wo what row depth (reload c) = res_map reload (walk show wo what row depth c)) as H.
  { intros k' c d Hin. by eapply IH. }
  clear IH. induction l as [|[k' c] l IHl]; [done|]. cbn [map fst snd].
  case_bool_decide; [apply (H k' c); left|]. apply IHl. intros. eapply H. by right.
Qed.

Lemma reload_class t : t_class (reload t) = t_class t. Proof. by destruct t. Qed.
Lemma reload_dist t : t_dist (reload t) = t_dist t. Proof. by destruct t. Qed.

Lemma walk_class_attr show wo what row depth t a :
  res_map t_class (walk show wo what row depth (set_class_attr t a)) =
    res_map t_class (walk show wo what row depth t) ∧
  res_map t_dist (walk show wo what row depth (set_class_attr t a)) =
    res_map t_dist (walk show wo what row depth t).
Proof.
  destruct t as [leaf cs dist class cattr r]. cbn [set_class_attr walk].
  destruct cs as [l|]; [|done]. by destruct r.
Qed.

Lemma map_over_rows_ext {S} g specs (f f' : S → list (list N) → nat → res (S * cb)) s :
  (∀ st row n, f st row n = f' st row n) → map_over_rows g specs f s = map_over_rows g specs f' s.
Proof.
  intros E. unfold map_over_rows. destruct (gr_iter g specs) as [rows| |]; [|done|done].
  revert s. induction rows as [|[n r] rows IH]; intros s; [done|]. cbn [run_rows].
  destruct r as [row| |]; [|done|done]. cbn [mbind res_bind]. rewrite E.
  destruct (f' s row n) as [[s' []]| |]; [apply IH|done..].
Qed.

(** Only the class and the distribution of the node reached are used. *)
Lemma alike_by_walk t t' :
  (∀ show wo what row depth,
    res_map t_class (walk show wo what row depth t') = res_map t_class (walk show wo what row depth t) ∧
    res_map t_dist (walk show wo what row depth t') = res_map t_dist (walk show wo what row depth t)) →
  predict_alike t t'.
Proof.
  intros H. split.
  - intros show parse cord ao pg wo what. unfold predict.
    destruct (prediction_vector pg what) as [d| |]; [|done|done]. cbn [mbind res_bind].
    destruct (idx _ 0) as [c| |]; [|done|done]. cbn [mbind res_bind].
    destruct (match dense_get_attribute d c with Ok s => Ok s | _ => Panic end) as [s| |]; [|done|done].
    cbn [mbind res_bind]. destruct (resolve what _) as [specs| |]; [|done|done].
    cbn [mbind res_bind]. rewrite (map_over_rows_ext what specs _ (predict_row show parse wo t' what s)); [done|].
    assert (∀ st row n, predict_row show parse wo t what s st row n =
      predict_row show parse wo t' what s st row n) as E.
    { intros st row n. unfold predict_row. destruct (H show wo what n 0) as [E _].
      destruct (walk show wo what n 0 t'), (walk show wo what n 0 t); cbn [res_map] in E;
        try discriminate E; cbn [mbind res_bind]; try done.
      injection E as ->. done. }
    exact E.
  - intros show sorter pg cord ao ko wo what. unfold predict_proba.
    destruct (prediction_vector pg what) as [d| |]; [|done|done]. cbn [mbind res_bind].
    destruct (resolve what _) as [specs| |]; [|done|done]. cbn [mbind res_bind].
    destruct (1 <? (gr_size what).2); [done|]. erewrite map_over_rows_ext; [done|].
    intros st row n. cbn beta. destruct (H show wo what n 0) as [_ E].
    destruct (walk show wo what n 0 t'), (walk show wo what n 0 t); cbn [res_map] in E;
      try discriminate E; cbn [mbind res_bind]; try done.
    injection E as E. unfold node_proba. by rewrite E.
Qed.

Lemma reload_alike t a : predict_alike t (set_class_attr (reload t) a).
Proof.
  apply alike_by_walk. intros show wo what row depth.
  destruct (walk_class_attr show wo what row depth (reload t) a) as [-> ->].
  rewrite reload_walk. destruct (walk show wo what row depth t) as [n| |]; [|done|done].
  cbn [res_map]. by rewrite reload_class, reload_dist.
Qed.

(** ** Trees in archives *)

Section trees.
  Variable marshal : json → list N.
  Variable unmarshal : list N → option json.
  Hypothesis faithful : json_faithful marshal unmarshal.
  Variable fmt : binary64 → string.
  Variable fparse : string → option binary64.
  Hypothesis floats : float_text fmt fparse.
  Variable is_nil : attr → bool.

  Notation tree_save := (tree_save marshal fmt is_nil).
  Notation tree_load := (tree_load unmarshal fparse).

  Lemma put_attr_appends k a :
    appends (put_attr marshal is_nil k a) [(k, serialize_attribute marshal (a, is_nil a))].
  Proof. apply appends_do. intros w ar. apply write_bytes_flushed. Qed.

  Lemma tree_stored t :
    tree_saves is_nil t → attr_saves is_nil (t_class_attr t) →
    ∃ j, stored (tree_save (Some t)) tree_load
      [("tree", marshal j); ("treeClassAttr", serialize_attribute marshal (t_class_attr t, is_nil (t_class_attr t)))]
      (λ t', t' = Some (set_class_attr (reload t) (t_class_attr t))) ∧ tree_json fmt is_nil t = Ok j.
  Proof using faithful floats.
    intros Ht [Ha Hs]. destruct (tree_round_trip fmt fparse floats is_nil t Ht) as (j & Ej & Hj & Er).
    exists j. split; [|done]. split.
    - intros p. unfold under. cbn [map fst snd].
      intros s ar Hopen. cbn [SaveModel.tree_save]. rewrite Ej. cbn [mbind res_bind]. unfold put_json.
      destruct (put_bytes_appends (tar_prefix p "tree") (marshal j) s ar Hopen) as (s1 & -> & H1).
      cbn [mbind res_bind].
      destruct (put_attr_appends (tar_prefix p "treeClassAttr") (t_class_attr t) s1 _ H1) as (s2 & -> & H2).
      exists s2. split; [done|]. by rewrite <- app_assoc in H2.
    - apply (bool_decide_unpack _). vm_compute. done.
    - intros p ar H. unfold under in H. cbn [map fst snd] in H.
      apply holds_cons in H as [H1 H]. apply holds_cons in H as [H2 _].
      unfold SaveModel.tree_load, get_json, parse_json, get_attribute_for. rewrite H1. cbn [mbind res_bind].
      rewrite (faithful _ Hj). cbn [mbind res_bind]. rewrite Er. cbn [mbind res_bind].
      rewrite H2. cbn [mbind res_bind].
      rewrite (attribute_round_trip _ _ faithful) by done. cbn [mbind res_bind fst]. eauto.
  Qed.

  (** A file with one classifier. *)
  Lemma single_file {C} (load : archive → string → res C) (m : meta) save es R :
    meta_sendable m → md_format m = 1 → (∀ k, k ∈ map fst es → k ∉ reserved) →
    stored save load es R →
    ∃ s s', create_stub marshal m = Ok s ∧ save s "" = Ok s' ∧
      opened s' (stub_entries marshal m ++ es) ∧
      read_stub unmarshal (stub_entries marshal m ++ es) = Ok m ∧
      ∃ c, load (stub_entries marshal m ++ es) "" = Ok c ∧ R c.
  Proof using faithful.
    intros Hm Hf Hres [Hw Hn Hr]. destruct (create_stub_opened marshal m) as (s & E & Ho).
    destruct (Hw "" s _ Ho) as (s' & E' & Ho'). rewrite under_empty in Ho'.
    exists s, s'. split; [done|]. split; [done|]. split; [done|].
    split; [by apply (read_stub_stub marshal unmarshal faithful)|].
    apply Hr. rewrite under_empty. intros k b Hin.
    rewrite get_named_app_r.
    - rewrite <- (app_nil_r es). by apply get_named_elem.
    - change (k ∉ reserved). apply Hres. by apply (elem_of_list_fmap_1 fst) in Hin.
  Qed.

  Definition tree_entries (t : tree) (j : json) : archive :=
    [("tree", marshal j);
     ("treeClassAttr", serialize_attribute marshal (t_class_attr t, is_nil (t_class_attr t)))].

  Lemma tree_saved t j :
    tree_json fmt is_nil t = Ok j →
    id3_save marshal fmt is_nil (Some t) =
      Ok (stub_entries marshal (Meta 1 "ID3" "1.0" None) ++ tree_entries t j) ∧
    random_tree_save marshal fmt is_nil (Some t) =
      Ok (stub_entries marshal (Meta 1 "KNN" "1.0" None) ++ tree_entries t j).
  Proof.
    intros Ej.
    assert (∀ m, ∃ s, create_stub marshal m = Ok s ∧ opened s (stub_entries marshal m) ∧
      tree_save (Some t) s "" = Ok (Ser (TarW (stub_entries marshal m ++ tree_entries t j) None) false)) as H.
    { intros m. destruct (create_stub_opened marshal m) as (s & E & Ho). exists s. split; [done|]. split; [done|].
      cbn [SaveModel.tree_save]. rewrite Ej. cbn [mbind res_bind].
      unfold put_json. rewrite (put_bytes_done _ _ _ _ Ho). cbn [mbind res_bind].
      change (put_attr marshal is_nil) with (λ k a, put_bytes k (serialize_attribute marshal (a, is_nil a))).
      cbn beta. erewrite put_bytes_done by (split; reflexivity). unfold ser_file. reflexivity. }
    split.
    - destruct (H (Meta 1 "ID3" "1.0" None)) as (s & E1 & _ & E2).
      unfold id3_save. rewrite E1. cbn [mbind res_bind]. by rewrite E2.
    - destruct (H (Meta 1 "KNN" "1.0" None)) as (s & E1 & _ & E2).
      unfold random_tree_save. rewrite E1. cbn [mbind res_bind]. rewrite E2. cbn [mbind res_bind].
      rewrite (try_close_file _ (stub_entries marshal (Meta 1 "KNN" "1.0" None) ++ tree_entries t j)); [done|].
      split; reflexivity.
  Qed.

  Lemma tree_files t :
    tree_saves is_nil t → attr_saves is_nil (t_class_attr t) →
    ∃ ar ar', id3_save marshal fmt is_nil (Some t) = Ok ar ∧
      random_tree_save marshal fmt is_nil (Some t) = Ok ar' ∧
      tree_file_load unmarshal fparse ar = Ok (Some (set_class_attr (reload t) (t_class_attr t))) ∧
      tree_file_load unmarshal fparse ar' = Ok (Some (set_class_attr (reload t) (t_class_attr t))).
  Proof using faithful floats.
    intros Ht Ha. destruct (tree_stored t Ht Ha) as (j & Hst & Ej).
    assert (∀ k, k ∈ map fst (tree_entries t j) → k ∉ reserved) as Hres.
    { cbn [map fst]. intros k Hk. repeat (apply elem_of_cons in Hk as [->|Hk];
        [apply (bool_decide_unpack _); vm_compute; done|]). by apply elem_of_nil in Hk. }
    destruct (single_file tree_load (Meta 1 "ID3" "1.0" None) _ _ _
      (plain_meta_sendable "ID3" "1.0" eq_refl eq_refl) eq_refl Hres Hst)
      as (s & s' & E1 & E2 & E3 & E4 & c & E5 & ->).
    destruct (single_file tree_load (Meta 1 "KNN" "1.0" None) _ _ _
      (plain_meta_sendable "KNN" "1.0" eq_refl eq_refl) eq_refl Hres Hst)
      as (z & z' & F1 & F2 & F3 & F4 & c' & F5 & ->).
    destruct (tree_saved t j Ej) as [G1 G2]. eexists _, _. split; [exact G1|]. split; [exact G2|].
    split; unfold tree_file_load; fold (tree_entries t j) in *.
    - rewrite E4. cbn [mbind res_bind]. done.
    - rewrite F4. cbn [mbind res_bind]. done.
  Qed.

  Lemma unbounded_saves t p s : unbounded t → tree_save (Some t) s p = Err.
  Proof. intros H. cbn [SaveModel.tree_save]. by rewrite (unbounded_refused fmt is_nil t H). Qed.
End trees.
