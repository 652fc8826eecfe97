(** Proofs about ensembles of trees, and about loading files of other kinds. *)
From Verif Require Import Prelude BytesModel BytesProofs AttrModel AttrSpec AttrProofs StoreModel
  DenseModel DenseSpec DenseProofs GridModel GridSpec GridProofs CsvModel PredModel SerModel SerSpec
  SerProofs TableProofs Id3Model NbModel BagModel SaveModel SaveSpec SaveProofs SaveTrees SaveOthers
  SaveBag SaveFiles.
From Flocq Require Import IEEE754.Bits IEEE754.Binary.
From stdpp Require Import pretty.
Local Open Scope nat_scope.

Lemma entries_of_members {A B} (P : A → B → Prop) l :
  (∀ x, x ∈ l → ∃ y, P x y) → ∃ l', Forall2 P l l'.
Proof.
  induction l as [|x l IH]; intros H; [by exists []|].
  destruct (H x) as [y Hy]; [left|]. destruct IH as [l' Hl]; [intros; apply H; by right|].
  exists (y :: l'). by constructor.
Qed.

Lemma stored_weaken {C} (save : ser → string → res ser) (load : archive → string → res C) es (R R' : C → Prop) :
  (∀ c, R c → R' c) → stored save load es R → stored save load es R'.
Proof.
  intros H [H1 H2 H3]. split; [done|done|]. intros p ar Hh. destruct (H3 p ar Hh) as (c & E & Hc). eauto.
Qed.

Section kinds.
  Variable marshal : json → list N.
  Variable unmarshal : list N → option json.
  Hypothesis faithful : json_faithful marshal unmarshal.
  Hypothesis bytes : json_bytes marshal.
  Variable fmt : binary64 → string.
  Variable fparse : string → option binary64.
  Hypothesis floats : float_text fmt fparse.
  Variable b64 : list N → string.
  Variable unb64 : string → option (list N).
  Hypothesis base64 : base64_text b64 unb64.
  Variable is_nil : attr → bool.
  Variable attr_order : list attr → list attr.
  Hypothesis order_ok : any_order attr_order.
  Variable got : nat → nat → nat.
  Hypothesis full : full_reads got.
  Variable pg : nat.

  Notation tree_save := (tree_save marshal fmt is_nil).
  Notation tree_load := (tree_load unmarshal fparse).
  Notation stub_entries := (stub_entries marshal).
  Notation written := (written marshal fmt b64 is_nil attr_order).

  Lemma tree_member_stored c :
    tree_member is_nil c → ∃ es, stored (tree_save c) tree_load es (tree_alike c).
  Proof using faithful floats.
    intros (t & -> & Ht & Ha). destruct (tree_stored marshal unmarshal faithful fmt fparse floats is_nil t Ht Ha)
      as (j & Hst & _). eexists. eapply stored_weaken; [|exact Hst].
    intros c ->. exists t, (set_class_attr (reload t) (t_class_attr t)). split; [done|]. split; [done|].
    apply reload_alike.
  Qed.

  Lemma bag_stored {C} (save : C → ser → string → res ser) (load : archive → string → res C) R b features on cell :
    bag_saves is_nil b features on cell →
    (∀ c, c ∈ bg_models b → ∃ es, stored (save c) load es (R c)) →
    ∃ es, stored (bag_save marshal b64 is_nil attr_order save b features on)
      (bag_load unmarshal unb64 got pg load (length (bg_models b))) es
      (λ r, same_bag R b r.1.1 ∧ r.1.2 = features ∧ same_table on cell r.2).
  Proof using faithful bytes base64 order_ok full.
    intros [T Hr Hf Hs] Hm. destruct (entries_of_members _ _ Hm) as (ess & Hess).
    exists (bag_entries marshal b64 is_nil attr_order b features on cell ess). split.
    - intros p. by apply (bag_appends marshal b64 is_nil attr_order order_ok save load R).
    - by apply (entries_NoDup marshal b64 is_nil attr_order save load R).
    - intros p ar H.
      destruct (bag_reads marshal unmarshal faithful bytes b64 unb64 base64 is_nil attr_order order_ok got full pg
        save load R b features on cell ess p ar (length (bg_models b)) T Hf Hs Hess H) as (b' & d & E & HR & Hsel & Hd); [done|].
      eexists. split; [exact E|]. cbn [fst snd]. rewrite firstn_all in HR. done.
  Qed.

  Lemma bag_files {C} (save : C → ser → string → res ser) (load : archive → string → res C) R b features on cell :
    bag_saves is_nil b features on cell →
    (∀ c, c ∈ bg_models b → ∃ es, stored (save c) load es (R c)) →
    (∃ ar b' d, bag_file_save marshal b64 is_nil attr_order save b features on = Ok ar ∧
       bag_file_load unmarshal unb64 got pg load (length (bg_models b)) ar = Ok (b', features, d) ∧
       same_bag R b b' ∧ same_table on cell d) ∧
    (∃ ar b' d, forest_save marshal b64 is_nil attr_order save b features on = Ok ar ∧
       forest_load unmarshal unb64 got pg load (Z.of_nat (length (bg_models b))) ar = Ok (b', features, d) ∧
       same_bag R b b' ∧ same_table on cell d).
  Proof using faithful bytes base64 order_ok full.
    intros [T Hr Hf Hs] Hm. destruct (entries_of_members _ _ Hm) as (ess & Hess). split.
    - destruct (ensemble_loaded marshal unmarshal faithful bytes b64 unb64 base64 is_nil attr_order order_ok got full pg
        save load R b features on cell ess T Hf Hs Hess "BaggedModel" "" (length (bg_models b)))
        as (b' & d & E & HR & Hsel & Hd); [done|by left|done|].
      rewrite firstn_all in HR. eexists _, b', d.
      split; [by apply (ensemble_saved marshal b64 is_nil attr_order order_ok save load R)|].
      split; [exact E|]. split; [done|done].
    - destruct (ensemble_loaded marshal unmarshal faithful bytes b64 unb64 base64 is_nil attr_order order_ok got full pg
        save load R b features on cell ess T Hf Hs Hess "KNN" "model" (length (bg_models b)))
        as (b' & d & E & HR & Hsel & Hd); [done|by right|done|].
      rewrite firstn_all in HR. eexists _, b', d.
      split; [by apply (ensemble_saved marshal b64 is_nil attr_order order_ok save load R)|].
      split; [unfold forest_load; rewrite Nat2Z.id; exact E|]. split; [done|done].
  Qed.

  (** Other sizes. *)
  Lemma forest_sizes b features on cell :
    bag_saves is_nil b features on cell → Forall (tree_member is_nil) (bg_models b) →
    ∃ ar, forest_save marshal b64 is_nil attr_order tree_save b features on = Ok ar ∧
      (∀ size, (size <= Z.of_nat (length (bg_models b)))%Z →
         ∃ b' d, forest_load unmarshal unb64 got pg tree_load size ar = Ok (b', features, d) ∧
           Forall2 tree_alike (take (Z.to_nat size) (bg_models b)) (bg_models b')) ∧
      (∀ size, (Z.of_nat (length (bg_models b)) < size)%Z →
         forest_load unmarshal unb64 got pg tree_load size ar = Err).
  Proof using faithful bytes base64 order_ok full floats.
    intros [T Hr Hf Hs] Hm.
    assert (∀ c, c ∈ bg_models b → ∃ es, stored (tree_save c) tree_load es (tree_alike c)) as Hst.
    { intros c Hc. apply tree_member_stored. by eapply Forall_forall. }
    destruct (entries_of_members _ _ Hst) as (ess & Hess).
    eexists. split; [by apply (ensemble_saved marshal b64 is_nil attr_order order_ok tree_save tree_load tree_alike)|].
    split.
    - intros size Hsize.
      destruct (ensemble_loaded marshal unmarshal faithful bytes b64 unb64 base64 is_nil attr_order order_ok got full pg
        tree_save tree_load tree_alike b features on cell ess T Hf Hs Hess "KNN" "model" (Z.to_nat size))
        as (b' & d & E & HR & Hsel & Hd); [done|by right|clear -Hsize; lia|].
      exists b', d. split; [exact E|done].
    - intros size Hsize.
      eapply (ensemble_more marshal unmarshal faithful b64 unb64 is_nil attr_order got pg
        tree_save tree_load tree_alike b features on cell ess T Hf Hess "KNN" "model" (Z.to_nat size) "tree");
        [|done|by right|clear -Hsize; lia].
      intros ar q E. unfold SaveModel.tree_load, get_json, parse_json. by rewrite E.
  Qed.

  (** ** Names in the files *)

  Definition first_key (k : kind) : string :=
    match k with
    | KTree | KRandomTree => "tree" | KBayes => "INSTANCE_STRUCTUREMANIFEST"
    | KNeighbours => "TrainingInstancesMANIFEST"
    | KBag => "NUM_RANDOM_FEATURES" | KForest => "model/NUM_RANDOM_FEATURES"
    end.
  Definition same_form (k k' : kind) : Prop := first_key k = first_key k'.

  Lemma written_entries k ar :
    written k ar →
    ∃ m es, ar = stub_entries m ++ es ∧ meta_sendable m ∧ md_format m = 1 ∧
      md_name m = match k with KTree => "ID3" | KBag => "BaggedModel" | _ => "KNN" end ∧
      md_version m = "1.0" ∧
      (k ≠ KNeighbours → md_params m = None) ∧
      ∀ k', ¬ same_form k k' → first_key k' ∉ map fst es.
  Proof using faithful floats order_ok.
    intros [t ar' Ht Ha E|t ar' Ht Ha E|n on cell ar' T Hr Hs E|p train cell ar' T Hp E|
            b features on cell ar' [T Hr Hf Hs] Hm E|b features on cell ar' [T Hr Hf Hs] Hm E].
    - destruct (tree_round_trip fmt fparse floats is_nil t Ht) as (j & Ej & _).
      destruct (tree_saved marshal fmt is_nil t j Ej) as [E1 _]. rewrite E1 in E. injection E as <-.
      eexists _, _. split; [done|]. split; [by apply plain_meta_sendable|]. do 4 (split; [done|]).
      intros k' Hk. unfold same_form in Hk. destruct k'; cbn [first_key] in Hk |- *;
        first [by destruct Hk | apply (bool_decide_unpack _); vm_compute; done].
    - destruct (tree_round_trip fmt fparse floats is_nil t Ht) as (j & Ej & _).
      destruct (tree_saved marshal fmt is_nil t j Ej) as [_ E1]. rewrite E1 in E. injection E as <-.
      eexists _, _. split; [done|]. split; [by apply plain_meta_sendable|]. do 4 (split; [done|]).
      intros k' Hk. unfold same_form in Hk. destruct k'; cbn [first_key] in Hk |- *;
        first [by destruct Hk | apply (bool_decide_unpack _); vm_compute; done].
    - destruct (nb_files marshal unmarshal faithful fmt fparse floats is_nil attr_order order_ok
        (λ _ n, n) (λ _ _, eq_refl) 1 n on cell T Hr Hs) as (jc & d & E1 & _).
      rewrite E1 in E. injection E as <-.
      eexists _, _. split; [done|]. split; [by apply plain_meta_sendable|]. do 4 (split; [done|]).
      intros k' Hk Hin. unfold same_form in Hk. apply nb_entries_names in Hin as [Hin|[(x & Hin)|Hin]].
      + cbn [wkeys] in Hin. destruct k'; cbn [first_key] in Hk, Hin; try (by destruct Hk);
          (repeat (apply elem_of_cons in Hin as [Hin|Hin]; [discriminate Hin|]); by apply elem_of_nil in Hin).
      + destruct k'; cbn [first_key] in Hin; discriminate Hin.
      + destruct k'; cbn [first_key] in Hin;
          (repeat (apply elem_of_cons in Hin as [Hin|Hin]; [discriminate Hin|]); by apply elem_of_nil in Hin).
    - rewrite (knn_saved marshal is_nil attr_order order_ok p train cell T) in E. injection E as <-.
      eexists _, _. split; [done|]. split; [by apply knn_meta_sendable|]. do 4 (split; [done|]).
      intros k' Hk Hin. unfold same_form in Hk. rewrite instances_names in Hin.
      cbn [wkeys] in Hin. destruct k'; cbn [first_key] in Hk, Hin; try (by destruct Hk);
          (repeat (apply elem_of_cons in Hin as [Hin|Hin]; [discriminate Hin|]); by apply elem_of_nil in Hin).
    - assert (∀ c, c ∈ bg_models b → ∃ es, stored (tree_save c) tree_load es (tree_alike c)) as Hst.
      { intros c Hc. apply tree_member_stored. by eapply Forall_forall. }
      destruct (entries_of_members _ _ Hst) as (ess & Hess).
      unfold bag_file_save in E.
      rewrite (ensemble_saved marshal b64 is_nil attr_order order_ok tree_save tree_load tree_alike
        b features on cell ess T Hr Hess) in E.
      assert (∀ x y : archive, Ok x = Ok y → y = x) as Hinj by (by intros ?? [= ->]).
      apply Hinj in E. subst ar'. eexists _, _. split; [done|]. split; [by apply plain_meta_sendable|]. do 4 (split; [done|]).
      intros k' Hk Hin. rewrite under_empty in Hin. unfold same_form in Hk.
      apply (bag_entries_head marshal b64 is_nil attr_order tree_save tree_load tree_alike b features on cell ess Hess)
        in Hin as [Hin|[Hin|[(j & x & _ & Hin)|[Hin|Hin]]]].
      + destruct k'; cbn [first_key] in Hin, Hk; first [by destruct Hk|discriminate Hin].
      + destruct k'; cbn [first_key] in Hin; discriminate Hin.
      + rewrite member_name in Hin. destruct k'; cbn [first_key] in Hin; discriminate Hin.
      + cbn [wkeys] in Hin. destruct k'; cbn [first_key] in Hin;
          (repeat (apply elem_of_cons in Hin as [Hin|Hin]; [discriminate Hin|]); by apply elem_of_nil in Hin).
      + destruct k'; cbn [first_key] in Hin; discriminate Hin.
    - assert (∀ c, c ∈ bg_models b → ∃ es, stored (tree_save c) tree_load es (tree_alike c)) as Hst.
      { intros c Hc. apply tree_member_stored. by eapply Forall_forall. }
      destruct (entries_of_members _ _ Hst) as (ess & Hess).
      unfold forest_save in E.
      rewrite (ensemble_saved marshal b64 is_nil attr_order order_ok tree_save tree_load tree_alike
        b features on cell ess T Hr Hess) in E.
      assert (∀ x y : archive, Ok x = Ok y → y = x) as Hinj by (by intros ?? [= ->]).
      apply Hinj in E. subst ar'. eexists _, _. split; [done|]. split; [by apply plain_meta_sendable|]. do 4 (split; [done|]).
      intros k' Hk Hin. rewrite under_names in Hin. apply elem_of_list_fmap in Hin as (x & Hin & _).
      unfold same_form in Hk. destruct k'; cbn [first_key] in Hin, Hk; first [by destruct Hk|discriminate Hin].
  Qed.

  Lemma first_absent k k' ar :
    written k ar → ¬ same_form k k' → get_named_file ar (first_key k') = Err.
  Proof using faithful floats order_ok.
    intros Hw Hk. destruct (written_entries k ar Hw) as (m & es & -> & _ & _ & _ & _ & _ & Hn).
    apply get_named_absent. rewrite map_app, elem_of_app. intros [Hin|Hin]; [|by eapply Hn].
    cbn [map fst SaveProofs.stub_entries] in Hin.
    destruct k'; cbn [first_key] in Hin;
      (repeat (apply elem_of_cons in Hin as [Hin|Hin]; [discriminate Hin|]); by apply elem_of_nil in Hin).
  Qed.

  Lemma written_stub k ar : written k ar → ∃ m, read_stub unmarshal ar = Ok m.
  Proof using faithful floats order_ok.
    intros Hw. destruct (written_entries k ar Hw) as (m & es & -> & Hm & Hf & _).
    exists m. by apply (read_stub_stub marshal unmarshal faithful).
  Qed.

  Lemma other_kinds k ar :
    written k ar →
    (k ≠ KTree → k ≠ KRandomTree → tree_file_load unmarshal fparse ar = Err) ∧
    (k ≠ KBayes → nb_file_load unmarshal fparse got pg ar = Err) ∧
    (k ≠ KBag → ∀ n, bag_file_load unmarshal unb64 got pg tree_load n ar = Err) ∧
    (k ≠ KForest → ∀ size, forest_load unmarshal unb64 got pg tree_load size ar = Err).
  Proof using faithful floats order_ok.
    intros Hw. destruct (written_stub k ar Hw) as (m & Em). split; [|split; [|split]].
    - intros H1 H2. assert (¬ same_form k KTree) as Hk by (by destruct k).
      pose proof (first_absent k KTree ar Hw Hk) as E. cbn [first_key] in E.
      unfold tree_file_load. rewrite Em. cbn [mbind res_bind].
      unfold SaveModel.tree_load, get_json, parse_json.
      change (tar_prefix "" "tree") with "tree". by rewrite E.
    - intros H1. assert (¬ same_form k KBayes) as Hk by (by destruct k).
      pose proof (first_absent k KBayes ar Hw Hk) as E. cbn [first_key] in E.
      unfold nb_file_load. rewrite Em. cbn [mbind res_bind].
      unfold nb_load, get_instances, deserialize_from_tar.
      change (tar_prefix "" "INSTANCE_STRUCTURE" +:+ "MANIFEST") with "INSTANCE_STRUCTUREMANIFEST". by rewrite E.
    - intros H1 n. assert (¬ same_form k KBag) as Hk by (by destruct k).
      pose proof (first_absent k KBag ar Hw Hk) as E. cbn [first_key] in E.
      unfold bag_file_load. rewrite Em. cbn [mbind res_bind].
      unfold bag_load, get_u64. change (tar_prefix "" "NUM_RANDOM_FEATURES") with "NUM_RANDOM_FEATURES". by rewrite E.
    - intros H1 n. assert (¬ same_form k KForest) as Hk by (by destruct k).
      pose proof (first_absent k KForest ar Hw Hk) as E. cbn [first_key] in E.
      unfold forest_load. rewrite Em. cbn [mbind res_bind].
      unfold bag_load, get_u64. change (tar_prefix "model" "NUM_RANDOM_FEATURES") with "model/NUM_RANDOM_FEATURES".
      by rewrite E.
  Qed.

  (** Nearest neighbours look at the name, which others share. *)
  Lemma neighbours_load_other k ar :
    written k ar → k ≠ KNeighbours →
    knn_file_load unmarshal got pg ar =
      match k with KTree | KBag => Err | _ => Panic end.
  Proof using faithful floats order_ok.
    intros Hw Hk. destruct (written_entries k ar Hw) as (m & es & -> & Hm & Hf & Hname & Hv & Hp & _).
    unfold knn_file_load. rewrite (read_stub_stub marshal unmarshal faithful) by done. cbn [mbind res_bind].
    unfold knn_load. rewrite (read_metadata_stub marshal unmarshal faithful) by done. cbn [mbind res_bind].
    rewrite Hname, Hv, (Hp Hk). by destruct k.
  Qed.

  (** ** Members that close the file *)

  Lemma closed_puts key g data s : sr_closed s = true → put_instances marshal is_nil attr_order key g data s = Err.
  Proof. intros H. by apply closed_refuses. Qed.

  Lemma bag_of_neighbours {C} (train : C → grid) b features on :
    bg_models b ≠ [] →
    (∀ c, c ∈ bg_models b → ∃ cell, table is_nil (train c) cell) →
    bag_file_save marshal b64 is_nil attr_order (λ c, knn_save marshal is_nil attr_order (train c)) b features on = Err.
  Proof using order_ok.
    intros Hne Ht. destruct b as [[|c models] sel]; [done|]. cbn [bg_models] in *.
    unfold bag_file_save. destruct (create_stub_opened marshal (Meta 1 "BaggedModel" "1.0" None)) as (s & -> & Ho).
    cbn [mbind res_bind]. unfold bag_save. cbn [bg_models bg_selected].
    destruct (put_u64_appends (tar_prefix "" "NUM_RANDOM_FEATURES") (int_u64 features) s _ Ho) as (s1 & -> & H1).
    cbn [mbind res_bind].
    destruct (put_u64_appends (tar_prefix "" "NUM_CLASSIFIERS") (N.of_nat (length (c :: models))) s1 _ H1) as (s2 & -> & H2).
    cbn [mbind res_bind members_save].
    destruct (Ht c) as [cell T]; [left|]. unfold knn_save.
    destruct (put_data_appends marshal is_nil attr_order order_ok
      (tar_prefix (member_key "" 0) "TrainingInstances") (train c) cell T s2 _ H2) as (s3 & -> & H3).
    cbn [mbind res_bind]. rewrite (close_opened _ _ H3). cbn [mbind res_bind].
    destruct models as [|c' models]; cbn [members_save].
    - cbn [mbind res_bind]. by rewrite closed_puts.
    - unfold knn_save. by rewrite closed_puts.
  Qed.
End kinds.
