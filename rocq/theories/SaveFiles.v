(** Proofs about files that hold one classifier. *)
From Verif Require Import Prelude BytesModel BytesProofs AttrModel AttrSpec AttrProofs StoreModel
  DenseModel DenseSpec DenseProofs GridModel GridSpec GridProofs CsvModel PredModel SerModel SerSpec
  SerProofs TableProofs Id3Model NbModel BagModel SaveModel SaveSpec SaveProofs SaveTrees SaveOthers
  SaveBag.
From Flocq Require Import IEEE754.Bits IEEE754.Binary.
From stdpp Require Import pretty.
Local Open Scope nat_scope.

Section files.
  Variable marshal : json → list N.
  Variable unmarshal : list N → option json.
  Hypothesis faithful : json_faithful marshal unmarshal.
  Hypothesis bytes : json_bytes marshal.
  Variable fmt : binary64 → string.
  Variable fparse : string → option binary64.
  Hypothesis floats : float_text fmt fparse.
  Variable b64 : list N → string.
  Variable unb64 : string → option (list N).
  Hypothesis base64 : base64_text b64 unb64.
  Variable is_nil : attr → bool.
  Variable attr_order : list attr → list attr.
  Hypothesis order_ok : any_order attr_order.
  Variable got : nat → nat → nat.
  Hypothesis full : full_reads got.
  Variable pg : nat.

  Notation stub_entries := (stub_entries marshal).

  (** What is written behind the first entries can be read. *)
  Lemma holds_stub m es :
    NoDup (map fst es) → (∀ k, k ∈ map fst es → k ∉ reserved) → holds (stub_entries m ++ es) es.
  Proof.
    intros Hn Hr k b Hin. rewrite get_named_app_r.
    - rewrite <- (app_nil_r es). by apply get_named_elem.
    - change (k ∉ reserved). apply Hr. by apply (elem_of_list_fmap_1 fst) in Hin.
  Qed.

  (** ** Naive Bayes *)

  Lemma nb_files n on cell :
    table is_nil on cell → (gr_size on).2 = 0 → nb_saves is_nil n on →
    ∃ jc d,
      let ar := stub_entries (Meta 1 "KNN" "1.0" None) ++ nb_entries marshal is_nil attr_order n on cell jc in
      nb_file_save marshal fmt is_nil attr_order n on = Ok ar ∧
      nb_file_load unmarshal fparse got pg ar = Ok (n, d) ∧ same_table on cell d.
  Proof using faithful floats order_ok full.
    intros T Hn S.
    destruct (nb_stored marshal unmarshal faithful fmt fparse floats is_nil attr_order order_ok got full pg
      n on cell T Hn S) as (jc & Hst).
    assert (∀ k, k ∈ map fst (nb_entries marshal is_nil attr_order n on cell jc) → k ∉ reserved) as Hres.
    { intros k Hk. apply nb_entries_names in Hk as [Hk|[(x & ->)|Hk]].
      - cbn [wkeys] in Hk. repeat (apply elem_of_cons in Hk as [->|Hk];
          [apply (bool_decide_unpack _); vm_compute; done|]). by apply elem_of_nil in Hk.
      - intros Hk. repeat (apply elem_of_cons in Hk as [Hk|Hk]; [discriminate Hk|]).
        by apply elem_of_nil in Hk.
      - repeat (apply elem_of_cons in Hk as [->|Hk];
          [apply (bool_decide_unpack _); vm_compute; done|]). by apply elem_of_nil in Hk. }
    destruct (single_file marshal unmarshal faithful _ (Meta 1 "KNN" "1.0" None) _ _ _
      (plain_meta_sendable "KNN" "1.0" eq_refl eq_refl) eq_refl Hres Hst)
      as (s & s' & E1 & E2 & E3 & E4 & [n' d] & E5 & En & Hd).
    cbn [fst snd] in *. subst n'.
    exists jc, d. split; [|split; [|exact Hd]].
    - unfold nb_file_save. rewrite E1. cbn [mbind res_bind]. rewrite E2. cbn [mbind res_bind].
      by rewrite (try_close_file _ _ E3).
    - unfold nb_file_load. rewrite E4. cbn [mbind res_bind]. exact E5.
  Qed.

  (** ** Nearest neighbours *)

  Lemma knn_meta_sendable k : knn_text k → meta_sendable (knn_meta k).
  Proof.
    intros (H1 & H2 & H3). unfold meta_sendable, knn_meta, meta_json. cbn [md_format md_name md_version md_params].
    constructor. repeat (constructor; [split; [reflexivity|]|]); try by constructor.
    cbn [snd]. constructor.
    repeat (constructor; [split; [reflexivity|]|]); try by constructor.
  Qed.

  Lemma knn_saved k train cell :
    table is_nil train cell →
    knn_file_save marshal is_nil attr_order k train =
      Ok (stub_entries (knn_meta k) ++ instance_entries marshal is_nil attr_order train cell "TrainingInstances").
  Proof using order_ok.
    intros T. unfold knn_file_save. destruct (create_stub_opened marshal (knn_meta k)) as (s & -> & Ho).
    cbn [mbind res_bind]. unfold knn_save.
    destruct (put_data_appends marshal is_nil attr_order order_ok (tar_prefix "" "TrainingInstances") train cell T s _ Ho)
      as (s' & -> & Ho'). cbn [mbind res_bind]. by rewrite (close_opened _ _ Ho').
  Qed.

  Lemma knn_files k train cell :
    table is_nil train cell → knn_text k →
    ∃ ar d, knn_file_save marshal is_nil attr_order k train = Ok ar ∧
      knn_file_load unmarshal got pg ar = Ok (k, d) ∧ same_table train cell d.
  Proof using faithful order_ok full.
    intros T Hk. eexists. pose proof (knn_meta_sendable k Hk) as Hm.
    destruct (get_instances_ok marshal unmarshal faithful is_nil attr_order order_ok got full pg
      (stub_entries (knn_meta k) ++ instance_entries marshal is_nil attr_order train cell "TrainingInstances")
      "TrainingInstances" train cell T) as (d & Ed & Hd).
    { apply holds_stub.
      - rewrite instances_names. apply wkeys_instances_NoDup.
      - rewrite instances_names. cbn [wkeys]. intros x Hx. repeat (apply elem_of_cons in Hx as [->|Hx];
          [apply (bool_decide_unpack _); vm_compute; done|]). by apply elem_of_nil in Hx. }
    exists d. split; [by apply knn_saved|]. split; [|done].
    unfold knn_file_load. rewrite (read_stub_stub marshal unmarshal faithful) by done. cbn [mbind res_bind].
    unfold knn_load. rewrite (read_metadata_stub marshal unmarshal faithful) by done. cbn [mbind res_bind].
    cbn [tar_prefix]. change (tar_prefix "" "TrainingInstances") with "TrainingInstances".
    rewrite Ed. destruct k. done.
  Qed.

  (** ** Ensembles *)

  Section ensemble.
    Context {C : Type}.
    Variable save : C → ser → string → res ser.
    Variable load : archive → string → res C.
    Variable R : C → C → Prop.

    Variable b : bag C.
    Variable features : Z.
    Variable on : grid.
    Variable cell : attr → nat → list N.
    Variable ess : list archive.
    Hypothesis T : table is_nil on cell.
    Hypothesis Hrows : (gr_size on).2 = 0.
    Hypothesis Hf : (- 2^63 <= features < 2^63)%Z.
    Hypothesis Hsel : ∀ i l a, bg_selected b !! i = Some l → a ∈ l → a ∈ gr_all_attrs on.
    Hypothesis Hm : Forall2 (λ c es, stored (save c) load es (R c)) (bg_models b) ess.

    Notation entries := (bag_entries marshal b64 is_nil attr_order b features on cell ess).

    Lemma bag_entries_head k :
      k ∈ map fst entries →
      k = "NUM_RANDOM_FEATURES" ∨ k = "NUM_CLASSIFIERS" ∨
      (∃ j x, j < length (bg_models b) ∧ k = tar_prefix (member_dir j) x) ∨
      k ∈ wkeys (WInstances "REFERENCE_INSTANCES" on) ∨ k = "SELECTED_ATTRIBUTES".
    Proof using Hm.
      unfold bag_entries. rewrite !map_app, !elem_of_app.
      intros [H|[H|[H|[H|H]]]].
      - left. by apply elem_of_singleton_names in H.
      - right. left. by apply elem_of_singleton_names in H.
      - right. right. left. apply member_entries_names in H as (j & x & Hj & ->).
        exists j, x. split; [|done]. rewrite (Forall2_length _ _ _ Hm). clear -Hj. lia.
      - right. right. right. by left.
      - right. right. right. right. by apply elem_of_singleton_names in H.
    Qed.

    Lemma entries_NoDup : NoDup (map fst entries).
    Proof using Hm.
      apply bag_entries_NoDup. apply Forall_forall. intros es Hes.
      apply elem_of_list_lookup in Hes as [i Hi].
      destruct (Forall2_lookup_r _ _ _ _ _ Hm Hi) as (c & _ & Hc). apply (so_names _ _ _ _ Hc).
    Qed.

    Lemma entries_free p k : p = "" ∨ p = "model" → k ∈ map fst (under p entries) → k ∉ reserved.
    Proof using Hm.
      intros Hp Hk. rewrite under_names in Hk. apply elem_of_list_fmap in Hk as (x & -> & Hx).
      destruct Hp as [-> | ->].
      - change (tar_prefix "" x) with x. apply bag_entries_head in Hx as [->|[->|[(j & y & _ & ->)|[Hx| ->]]]];
          try (apply (bool_decide_unpack _); vm_compute; done).
        cbn [wkeys] in Hx. repeat (apply elem_of_cons in Hx as [->|Hx];
          [apply (bool_decide_unpack _); vm_compute; done|]). by apply elem_of_nil in Hx.
      - intros Hk. repeat (apply elem_of_cons in Hk as [Hk|Hk]; [discriminate Hk|]).
        by apply elem_of_nil in Hk.
    Qed.

    Lemma ensemble_holds m p : p = "" ∨ p = "model" → holds (stub_entries m ++ under p entries) (under p entries).
    Proof using Hm.
      intros Hp. apply holds_stub; [apply under_NoDup, entries_NoDup|]. intros k. by apply entries_free.
    Qed.

    Lemma ensemble_saved m p :
      (s ← create_stub marshal m;
       s ← bag_save marshal b64 is_nil attr_order save b features on s p;
       Ok (ser_file (ser_try_close s))) = Ok (stub_entries m ++ under p entries).
    Proof using T Hrows Hm order_ok.
      destruct (create_stub_opened marshal m) as (s & -> & Ho). cbn [mbind res_bind].
      destruct (bag_appends marshal b64 is_nil attr_order order_ok save load R b features on cell ess p
        T Hrows Hm s _ Ho) as (s' & -> & Ho'). cbn [mbind res_bind].
      by rewrite (try_close_file _ _ Ho').
    Qed.

    Lemma ensemble_loaded name p n :
      is_text name → p = "" ∨ p = "model" → n ≤ length (bg_models b) →
      let ar := stub_entries (Meta 1 name "1.0" None) ++ under p entries in
      ∃ b' d, (_ ← read_stub unmarshal ar; bag_load unmarshal unb64 got pg load n ar p) = Ok (b', features, d) ∧
        Forall2 R (take n (bg_models b)) (bg_models b') ∧ bg_selected b' = bg_selected b ∧
        same_table on cell d.
    Proof using T Hf Hsel Hm faithful bytes base64 order_ok full.
      intros Hname Hp Hn ar. unfold ar.
      rewrite (read_stub_stub marshal unmarshal faithful) by (try done; by apply plain_meta_sendable).
      cbn [mbind res_bind]. eapply bag_reads; try done. by apply ensemble_holds.
    Qed.

    Lemma ensemble_more name p n key :
      (∀ ar q, get_named_file ar (tar_prefix q key) = Err → load ar q = Err) →
      is_text name → p = "" ∨ p = "model" → length (bg_models b) < n →
      let ar := stub_entries (Meta 1 name "1.0" None) ++ under p entries in
      (_ ← read_stub unmarshal ar; bag_load unmarshal unb64 got pg load n ar p) = Err.
    Proof using T Hf Hm faithful.
      intros Hkey Hname Hp Hn ar. unfold ar.
      rewrite (read_stub_stub marshal unmarshal faithful) by (try done; by apply plain_meta_sendable).
      cbn [mbind res_bind]. eapply bag_reads_more; try done; [by apply ensemble_holds|].
      intros j Hj. apply get_named_absent. rewrite map_app, elem_of_app. intros [Hk|Hk].
      - destruct Hp as [-> | ->].
        + change (tar_prefix "" ?x) with x in Hk. rewrite member_name in Hk. cbn [map fst SaveProofs.stub_entries] in Hk.
          repeat (apply elem_of_cons in Hk as [Hk|Hk]; [discriminate Hk|]). by apply elem_of_nil in Hk.
        + repeat (apply elem_of_cons in Hk as [Hk|Hk]; [discriminate Hk|]). by apply elem_of_nil in Hk.
      - rewrite under_names in Hk. apply elem_of_list_fmap in Hk as (x & E & Hx).
        apply tar_prefix_inj in E. subst x. rewrite member_name in Hx.
        apply bag_entries_head in Hx as [Hx|[Hx|[(i & y & Hi & Hx)|[Hx|Hx]]]]; try discriminate Hx.
        + rewrite member_name in Hx. apply (inj (String.append "CLASSIFIERS/")), pretty_before_slash in Hx. clear -Hi Hj Hx. lia.
        + cbn [wkeys] in Hx. repeat (apply elem_of_cons in Hx as [Hx|Hx]; [discriminate Hx|]).
          by apply elem_of_nil in Hx.
    Qed.
  End ensemble.
End files.
