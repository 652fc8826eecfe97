(** Proofs about saving and loading naive Bayes, nearest neighbours and ensembles. *)
From Verif Require Import Prelude BytesModel BytesProofs AttrModel AttrSpec AttrProofs StoreModel
  DenseModel DenseSpec DenseProofs GridModel GridSpec GridProofs CsvModel PredModel SerModel SerSpec
  SerProofs TableProofs Id3Model NbModel BagModel SaveModel SaveSpec SaveProofs SaveTrees.
From Flocq Require Import IEEE754.Bits IEEE754.Binary.
From stdpp Require Import pretty.
Local Open Scope nat_scope.

Lemma replace_attr_same l a :
  distinct_attrs l → a ∈ l → replace_attr a l = Ok a.
Proof.
  intros Hd Ha. unfold replace_attr.
  destruct (list_find (λ b, attr_equals b a = true) l) as [[i b]|] eqn:E.
  - apply list_find_Some in E as (Hi & Hb & _). apply elem_of_list_lookup in Ha as [j Hj].
    assert (i = j) as -> by (by eapply Hd). congruence.
  - rewrite list_find_None, Forall_forall in E. destruct (E a Ha). apply attr_equals_refl.
Qed.

Lemma replace_attrs_same l (attrs : list held) :
  distinct_attrs l → (∀ h, h ∈ attrs → h.1 ∈ l) →
  res_mapM (λ h, replace_attr h.1 l) attrs = Ok (map fst attrs).
Proof.
  intros Hd H. apply res_mapM_Ok, Forall2_fmap_r, Forall_Forall2_diag, Forall_forall.
  intros h Hh. apply replace_attr_same; [done|by apply H].
Qed.

Lemma elem_of_singleton_names (k : string) (b : list N) x : x ∈ map fst [(k, b)] → x = k.
Proof. cbn. by rewrite elem_of_list_singleton. Qed.

Section others.
  Variable marshal : json → list N.
  Variable unmarshal : list N → option json.
  Hypothesis faithful : json_faithful marshal unmarshal.
  Variable fmt : binary64 → string.
  Variable fparse : string → option binary64.
  Hypothesis floats : float_text fmt fparse.
  Variable is_nil : attr → bool.
  Variable attr_order : list attr → list attr.
  Hypothesis order_ok : any_order attr_order.
  Variable got : nat → nat → nat.
  Hypothesis full : full_reads got.
  Variable pg : nat.

  Notation put_instances := (put_instances marshal is_nil attr_order).
  Notation get_instances := (get_instances unmarshal got pg).
  Notation instance_entries := (instance_entries marshal is_nil attr_order).
  Notation attrs_entries := (attrs_entries marshal).

  Lemma put_data_appends key g cell :
    table is_nil g cell → appends (put_instances key g true) (instance_entries g cell key).
  Proof using order_ok. intros T. apply appends_do. intros w ar Hw. by apply serialize_writes. Qed.

  Lemma put_structure_appends key g cell :
    table is_nil g cell → (gr_size g).2 = 0 →
    appends (put_instances key g false) (instance_entries g cell key).
  Proof using order_ok.
    intros T Hn. apply appends_do. intros w ar Hw.
    destruct (serialize_structure marshal is_nil attr_order order_ok g cell w ar key T Hw) as (w' & E & Hp).
    exists w'. split; [done|].
    assert (rows_bytes (grid_rows attr_order g cell) = []) as Eb.
    { unfold rows_bytes, grid_rows. by rewrite Hn. }
    unfold SerProofs.instance_entries. rewrite Eb in *. apply pending_flushed in Hp. by rewrite app_assoc.
  Qed.

  Lemma under_instances p key g cell :
    under p (instance_entries g cell key) = instance_entries g cell (tar_prefix p key).
  Proof. unfold under. cbn [map app fst snd SerProofs.instance_entries head_entries]. by rewrite !prefix_append. Qed.

  Lemma get_instances_ok ar key g cell :
    table is_nil g cell → holds ar (instance_entries g cell key) →
    ∃ d, get_instances ar key = Ok d ∧ same_table g cell d.
  Proof using faithful order_ok full.
    intros T H. by apply (deserialize_ok marshal unmarshal faithful is_nil attr_order order_ok got pg g cell).
  Qed.

  Lemma put_attrs_appends k l :
    appends (put_attrs marshal is_nil k l) (attrs_entries k (map (λ a, (a, is_nil a)) l)).
  Proof.
    apply appends_do. intros w ar Hw.
    by destruct (proj2 (creates_attrs marshal is_nil attr_order k (map (λ a, (a, is_nil a)) l)) w ar Hw)
      as (w' & E & F); eauto.
  Qed.

  Lemma under_attrs p k l : k ≠ "" → under p (attrs_entries k l) = attrs_entries (tar_prefix p k) l.
  Proof.
    intros Hk. unfold under, SerProofs.attrs_entries. cbn [map fst snd]. f_equal.
    - by rewrite prefix_prefix.
    - apply list_eq. intros i. rewrite list_lookup_fmap, !list_lookup_imap.
      destruct (l !! i); cbn; [|done]. by rewrite prefix_prefix.
  Qed.

  Lemma instances_names g cell key :
    map fst (instance_entries g cell key) = wkeys (WInstances key g).
  Proof. done. Qed.

  Lemma attrs_names k l : map fst (attrs_entries k l) = wkeys (WAttrs k l).
  Proof. apply (creates_attrs marshal is_nil attr_order). Qed.

  (** ** Naive Bayes *)

  Lemma floats_round_trip l :
    Forall (λ f, is_finite 53 1024 f = true) l →
    ∃ j, floats_json fmt l = Ok j ∧ sendable j ∧ json_floats fparse j = Ok l.
  Proof using floats.
    intros H. unfold floats_json.
    assert (∃ jl, res_mapM (float_json fmt) l = Ok jl ∧ Forall sendable jl ∧
      res_mapM (λ v, match json_float fparse v with Ok f => Ok f | _ => Err end) jl = Ok l)
      as (jl & E & Hs & Hl).
    { induction H as [|f l Hf H (jl & E & Hs & Hl)]; [by exists []|].
      destruct (float_json_ok fmt fparse floats f Hf) as (j & Ej & Hj & Ef).
      exists (j :: jl). cbn [res_mapM]. rewrite Ej. cbn [mbind res_bind]. rewrite E.
      split; [done|]. split; [by constructor|]. rewrite Ef. cbn [mbind res_bind]. by rewrite Hl. }
    rewrite E. cbn [mbind res_bind]. exists (JArr jl). split; [done|]. split; [by constructor|done].
  Qed.

  Lemma cond_round_trip (m : gmap string (list binary64)) :
    (∀ k l, m !! k = Some l → is_text k ∧ Forall (λ f, is_finite 53 1024 f = true) l) →
    ∃ j, cond_json fmt m = Ok j ∧ sendable j ∧ json_cond fparse j = Ok m.
  Proof using floats.
    intros H. unfold cond_json.
    assert (∀ ml : list (string * list binary64),
      (∀ k l, (k, l) ∈ ml → is_text k ∧ Forall (λ f, is_finite 53 1024 f = true) l) →
      ∃ jl, res_mapM (λ kv, j ← floats_json fmt kv.2; Ok (kv.1, j)) ml = Ok jl ∧
        Forall (λ m, is_text m.1 ∧ sendable m.2) jl ∧
        res_mapM (λ kv, v ← json_floats fparse kv.2; Ok (kv.1, v)) jl = Ok ml) as Hm.
    { clear H. induction ml as [|[k l] ml IH]; intros H; [by exists []|].
      destruct IH as (jl & E & Hs & Hl); [intros; apply H; by right|].
      destruct (H k l) as [Hk Hf]; [left|]. destruct (floats_round_trip l Hf) as (j & Ej & Hj & Ef).
      exists ((k, j) :: jl). cbn [res_mapM fst snd]. rewrite Ej, Ef. cbn [mbind res_bind].
      split; [by rewrite E|]. split; [by constructor|by rewrite Hl]. }
    destruct (Hm (map_to_list m)) as (jl & E & Hs & Hl).
    { intros k l Hin. apply H. by apply elem_of_map_to_list. }
    rewrite E. cbn [mbind res_bind]. exists (JObj jl). split; [done|]. split; [by constructor|].
    cbn [json_cond]. rewrite Hl. cbn [mbind res_bind]. by rewrite list_to_map_to_list.
  Qed.

  Definition nb_entries (n : nb) (on : grid) (cell : attr → nat → list N) (jc : json) : archive :=
    instance_entries on cell "INSTANCE_STRUCTURE" ++
    attrs_entries "TRAINING_ATTRIBUTES" (map (λ a, (a, is_nil a)) (nb_attrs n)) ++
    [("NUM_FEATURES", pack_u64 (N.of_nat (nb_features n)))] ++
    [("NUM_TRAINING_INSTANCES", pack_u64 (N.of_nat (nb_training n)))] ++
    [("CLASS_INSTANCES", marshal (JObj (map (λ kv, (kv.1, JNum kv.2)) (map_to_list (nb_class n)))))] ++
    [("COND_MAP", marshal jc)].

  Lemma nb_entries_names n on cell jc k :
    k ∈ map fst (nb_entries n on cell jc) →
    k ∈ wkeys (WInstances "INSTANCE_STRUCTURE" on) ∨ (∃ x, k = "TRAINING_ATTRIBUTES/" +:+ x) ∨
    k ∈ ["NUM_FEATURES"; "NUM_TRAINING_INSTANCES"; "CLASS_INSTANCES"; "COND_MAP"].
  Proof.
    unfold nb_entries. rewrite map_app, elem_of_app, map_app, elem_of_app.
    intros [H|[H|H]]; [by left| |by right; right].
    right. left. rewrite attrs_names in H. cbn [wkeys] in H.
    apply elem_of_cons in H as [->|H]; [by eexists|].
    apply elem_of_list_fmap in H as (i & -> & _). by eexists.
  Qed.

  Lemma nb_entries_NoDup n on cell jc : NoDup (map fst (nb_entries n on cell jc)).
  Proof.
    unfold nb_entries. rewrite map_app, map_app. apply NoDup_app. split; [|split].
    - rewrite instances_names. apply wkeys_instances_NoDup.
    - intros x Hx H. rewrite instances_names in Hx. cbn [wkeys] in Hx.
      apply elem_of_app in H as [H|H].
      + rewrite attrs_names in H. cbn [wkeys] in H. apply elem_of_cons in H as [->|H].
        * repeat (apply elem_of_cons in Hx as [Hx|Hx]; [discriminate Hx|]). by apply elem_of_nil in Hx.
        * apply elem_of_list_fmap in H as (i & -> & _).
          repeat (apply elem_of_cons in Hx as [Hx|Hx]; [discriminate Hx|]). by apply elem_of_nil in Hx.
      + cbn [map app fst] in H.
        repeat (apply elem_of_cons in Hx as [->|Hx];
          [repeat (apply elem_of_cons in H as [H|H]; [discriminate H|]); by apply elem_of_nil in H|]).
        by apply elem_of_nil in Hx.
    - apply NoDup_app. split; [|split].
      + rewrite attrs_names. apply wkeys_attrs_NoDup.
      + intros x Hx H. rewrite attrs_names in Hx. cbn [wkeys] in Hx. cbn [map app fst] in H.
        apply elem_of_cons in Hx as [->|Hx].
        * repeat (apply elem_of_cons in H as [H|H]; [discriminate H|]). by apply elem_of_nil in H.
        * apply elem_of_list_fmap in Hx as (i & -> & _).
          repeat (apply elem_of_cons in H as [H|H]; [discriminate H|]). by apply elem_of_nil in H.
      + cbn [map app fst]. apply (bool_decide_unpack _). vm_compute. done.
  Qed.

  Lemma nb_stored n on cell :
    table is_nil on cell → (gr_size on).2 = 0 → nb_saves is_nil n on →
    ∃ jc, stored (nb_save marshal fmt is_nil attr_order n on) (nb_load unmarshal fparse got pg)
      (nb_entries n on cell jc) (λ r, r.1 = n ∧ same_table on cell r.2).
  Proof using faithful floats order_ok full.
    intros T Hn S. destruct (cond_round_trip (nb_cond n) (ns_cond _ _ _ S)) as (jc & Ec & Hjc & Erc).
    exists jc. split.
    - intros p. unfold nb_entries. rewrite !under_app, under_instances, under_attrs by done.
      unfold nb_save. unfold put_json.
      apply appends_bind; [by apply put_structure_appends|].
      apply appends_bind; [apply put_attrs_appends|].
      apply appends_bind; [apply put_u64_appends|].
      apply appends_bind; [apply put_u64_appends|].
      apply appends_bind; [apply put_bytes_appends|].
      rewrite Ec. cbn [mbind res_bind]. apply put_bytes_appends.
    - apply nb_entries_NoDup.
    - intros p ar H. unfold nb_entries in H. rewrite !under_app, under_instances, under_attrs in H by done.
      apply holds_app in H as [H1 H]. apply holds_app in H as [H2 H].
      apply holds_cons in H as [H3 H]. apply holds_cons in H as [H4 H].
      apply holds_cons in H as [H5 H]. apply holds_cons in H as [H6 _]. cbn [fst snd] in *.
      unfold nb_load. destruct (get_instances_ok ar _ on cell T H1) as (d & Ed & Hd).
      rewrite Ed. cbn [mbind res_bind].
      destruct (attrs_read marshal unmarshal faithful ar (tar_prefix p "TRAINING_ATTRIBUTES") (map (λ a, (a, is_nil a)) (nb_attrs n))) as (l' & El & Hl).
      { intros h Hh. apply elem_of_list_fmap in Hh as (a & -> & Ha). cbn [fst].
        apply (tb_text _ _ _ T). by apply (ns_attrs _ _ _ S). }
      { rewrite map_length. apply (ns_length _ _ _ S). }
      { exact H2. }
      rewrite map_map, map_id in Hl. rewrite El. cbn [mbind res_bind].
      rewrite replace_attrs_same.
      2:{ eapply distinct_perm; [symmetry; apply (st_attrs _ _ _ Hd)|]. apply (tb_attrs _ _ _ T). }
      2:{ intros h Hh. rewrite (st_attrs _ _ _ Hd). apply (ns_attrs _ _ _ S). rewrite <- Hl.
          by apply elem_of_list_fmap_1. }
      cbn [mbind res_bind]. rewrite Hl. unfold get_u64. rewrite H3. cbn [mbind res_bind].
      rewrite unpack_pack_u64 by apply (ns_features _ _ _ S). cbn [mbind res_bind].
      rewrite H4. cbn [mbind res_bind].
      rewrite unpack_pack_u64 by apply (ns_training _ _ _ S). cbn [mbind res_bind].
      unfold get_json, parse_json. rewrite H5. cbn [mbind res_bind].
      rewrite (faithful _ (counts_sendable _ (ns_classes _ _ _ S))). cbn [mbind res_bind].
      rewrite counts_read. cbn [mbind res_bind]. rewrite H6. cbn [mbind res_bind].
      rewrite (faithful _ Hjc). cbn [mbind res_bind]. rewrite Erc. cbn [mbind res_bind].
      eexists. split; [done|]. cbn [fst snd]. rewrite !Nat2N.id. split; [by destruct n|done].
  Qed.
End others.
