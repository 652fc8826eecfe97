(** Proofs about saving and loading nearest neighbours and ensembles. *)
From Verif Require Import Prelude BytesModel BytesProofs AttrModel AttrSpec AttrProofs StoreModel
  DenseModel DenseSpec DenseProofs GridModel GridSpec GridProofs CsvModel PredModel SerModel SerSpec
  SerProofs TableProofs Id3Model NbModel BagModel SaveModel SaveSpec SaveProofs SaveTrees SaveOthers.
From Flocq Require Import IEEE754.Bits IEEE754.Binary.
From stdpp Require Import pretty.
Local Open Scope nat_scope.

(** ** Names of members *)

Lemma digits_before_slash a : ∀ b x y v w u z,
  read_digits a v = Some u → read_digits b w = Some z →
  a +:+ "/" +:+ x = b +:+ "/" +:+ y → a = b.
Proof.
  induction a as [|c a IH]; intros [|c' b] x y v w u z Ha Hb E.
  - done.
  - cbn in E. injection E as <- _. discriminate Hb.
  - cbn in E. injection E as -> _. discriminate Ha.
  - cbn in E. injection E as <- E. f_equal. cbn [read_digits] in *.
    destruct (_ && _); [|done]. eapply IH; [exact Ha|exact Hb|exact E].
Qed.

Lemma pretty_before_slash (i j : nat) x y : pretty i +:+ "/" +:+ x = pretty j +:+ "/" +:+ y → i = j.
Proof.
  intros E. assert (pretty i = pretty j) as Ep.
  { eapply digits_before_slash; [| |exact E];
      [change (pretty i) with (pretty (N.of_nat i))|change (pretty j) with (pretty (N.of_nat j))];
      apply read_digits_pretty. }
  by apply (inj pretty) in Ep.
Qed.

Lemma digits_text s : ∀ v u, read_digits s v = Some u → is_text s.
Proof.
  induction s as [|c s IH]; intros v u H; [done|]. cbn [read_digits] in H.
  destruct (_ && _) eqn:E; [|done]. apply andb_true_iff in E as [E1%N.leb_le E2%N.leb_le].
  unfold is_text, string_bytes. cbn [String.list_ascii_of_string map utf8]. unfold SerSpec.between at 1.
  rewrite (proj2 (N.leb_le 0 _)) by lia. rewrite (proj2 (N.leb_le _ 127)) by lia.
  cbn [andb]. by eapply IH.
Qed.

Lemma pretty_text (i : nat) : is_text (pretty i).
Proof. change (pretty i) with (pretty (N.of_nat i)). eapply digits_text, read_digits_pretty. Qed.

Lemma res_mapM_snoc {A B} (f : A → res B) l l' ys :
  res_mapM f l = Ok ys → res_mapM f (l ++ l') = (zs ← res_mapM f l'; Ok (ys ++ zs)).
Proof.
  revert ys. induction l as [|x l IH]; intros ys; cbn [res_mapM app].
  - intros [= <-]. by destruct (res_mapM f l').
  - destruct (f x) as [y| |]; [|done|done]. cbn [mbind res_bind].
    destruct (res_mapM f l) as [ys'| |]; [|done|done]. intros [= <-].
    rewrite (IH ys' eq_refl). by destruct (res_mapM f l').
Qed.

Definition member_dir (i : nat) : string := "CLASSIFIERS/" +:+ pretty i +:+ "/".

Lemma member_key_dir p i : member_key p i = tar_prefix p (member_dir i).
Proof. unfold member_key. rewrite prefix_append. done. Qed.

Lemma member_name i x : tar_prefix (member_dir i) x = "CLASSIFIERS/" +:+ pretty i +:+ "/" +:+ "/" +:+ x.
Proof. unfold tar_prefix, member_dir. rewrite bool_decide_eq_false_2 by done. by rewrite !append_assoc'. Qed.

Lemma u64_int_back z : (- 2^63 <= z < 2^63)%Z → u64_int (int_u64 z) = z.
Proof.
  intros H. unfold u64_int, int_u64.
  destruct (decide (0 <= z)%Z) as [Hz|Hz].
  - rewrite Z.mod_small by lia. destruct (Z.to_N z <? 2^63)%N eqn:E; [lia|]. apply N.ltb_ge in E. lia.
  - assert (z mod 2^64 = z + 2^64)%Z as ->.
    { rewrite <- (Z.mod_add z 1) by lia. rewrite Z.mod_small; lia. }
    destruct (Z.to_N (z + 2^64) <? 2^63)%N eqn:E; [apply N.ltb_lt in E; lia|]. lia.
Qed.

Lemma int_u64_bound z : (int_u64 z < 2^64)%N.
Proof. unfold int_u64. pose proof (Z.mod_pos_bound z (2^64)). lia. Qed.

Fixpoint member_entries (i : nat) (ess : list archive) : archive :=
  match ess with [] => [] | es :: ess => under (member_dir i) es ++ member_entries (S i) ess end.

Lemma member_entries_names ess : ∀ i k,
  k ∈ map fst (member_entries i ess) →
  ∃ j x, i ≤ j < i + length ess ∧ k = tar_prefix (member_dir j) x.
Proof.
  induction ess as [|es ess IH]; intros i k; cbn [member_entries]; [by intros ?%elem_of_nil|].
  rewrite map_app, elem_of_app. intros [H|H].
  - rewrite under_names in H. apply elem_of_list_fmap in H as (x & -> & _).
    exists i, x. split; [cbn; lia|done].
  - apply IH in H as (j & x & Hj & ->). exists j, x. split; [cbn; lia|done].
Qed.

Lemma member_entries_NoDup ess : ∀ i,
  Forall (λ es : archive, NoDup (map fst es)) ess → NoDup (map fst (member_entries i ess)).
Proof.
  induction ess as [|es ess IH]; intros i H; [constructor|]. apply Forall_cons in H as [He H].
  cbn [member_entries]. rewrite map_app. apply NoDup_app. split; [by apply under_NoDup|].
  split; [|by apply IH].
  intros k Hk Hk'. rewrite under_names in Hk. apply elem_of_list_fmap in Hk as (x & -> & _).
  apply member_entries_names in Hk' as (j & y & Hj & E). rewrite !member_name in E.
  apply (inj (String.append "CLASSIFIERS/")), pretty_before_slash in E. lia.
Qed.

Section bag.
  Variable marshal : json → list N.
  Variable unmarshal : list N → option json.
  Hypothesis faithful : json_faithful marshal unmarshal.
  Hypothesis bytes : json_bytes marshal.
  Variable b64 : list N → string.
  Variable unb64 : string → option (list N).
  Hypothesis base64 : base64_text b64 unb64.
  Variable is_nil : attr → bool.
  Variable attr_order : list attr → list attr.
  Hypothesis order_ok : any_order attr_order.
  Variable got : nat → nat → nat.
  Hypothesis full : full_reads got.
  Variable pg : nat.
  Context {C : Type}.
  Variable save : C → ser → string → res ser.
  Variable load : archive → string → res C.
  Variable R : C → C → Prop.

  Notation instance_entries := (instance_entries marshal is_nil attr_order).

  Lemma members_appends models ess : ∀ i p,
    Forall2 (λ c es, stored (save c) load es (R c)) models ess →
    appends (members_save save p i models) (under p (member_entries i ess)).
  Proof.
    intros i p H. revert i. induction H as [|c es models ess Hc H IH]; intros i.
    - apply appends_ret.
    - cbn [members_save member_entries]. rewrite under_app. apply appends_bind; [|apply IH].
      rewrite member_key_dir. rewrite under_under by done. apply (so_writes _ _ _ _ Hc).
  Qed.

  Lemma members_read ar p models ess : ∀ i,
    Forall2 (λ c es, stored (save c) load es (R c)) models ess →
    holds ar (under p (member_entries i ess)) →
    ∃ models', res_mapM (λ j, load ar (member_key p j)) (seq i (length models)) = Ok models' ∧
      Forall2 R models models'.
  Proof.
    intros i H. revert i. induction H as [|c es models ess Hc H IH]; intros i Hh; [by exists []|].
    cbn [member_entries] in Hh. rewrite under_app in Hh. apply holds_app in Hh as [H1 H2].
    rewrite under_under in H1 by done.
    destruct (so_reads _ _ _ _ Hc _ _ H1) as (c' & E & Hr).
    destruct (IH (S i) H2) as (ms & Em & Hms).
    exists (c' :: ms). cbn [length seq res_mapM]. rewrite member_key_dir, E. cbn [mbind res_bind].
    rewrite Em. cbn [mbind res_bind]. split; [done|by constructor].
  Qed.

  (** ** The selected attributes *)

  Lemma selected_sendable sel :
    (∀ i l a, sel !! i = Some l → a ∈ l → attr_saves is_nil a) →
    sendable (selected_json marshal b64 is_nil sel).
  Proof using base64 bytes.
    intros H. unfold selected_json. constructor. apply Forall_forall. intros m Hm.
    apply elem_of_list_fmap in Hm as ([i l] & -> & Hin). cbn [fst snd].
    split; [apply pretty_text|]. constructor. apply Forall_forall. intros j Hj.
    apply elem_of_list_fmap in Hj as (a & -> & Ha). constructor. apply base64. apply bytes.
  Qed.

  Lemma selected_read all sel :
    distinct_attrs all →
    (∀ i l a, sel !! i = Some l → a ∈ l → a ∈ all ∧ attr_saves is_nil a) →
    json_selected unmarshal unb64 all (selected_json marshal b64 is_nil sel) = Ok sel.
  Proof using faithful base64 bytes.
    intros Hd H. unfold selected_json. cbn [json_selected].
    assert (∀ ml : list (nat * list attr),
      (∀ i l a, (i, l) ∈ ml → a ∈ l → a ∈ all ∧ attr_saves is_nil a) →
      res_mapM (λ kv, i ← match read_nat kv.1 with Some i => Ok i | None => Err end;
                v ← json_selected1 unmarshal unb64 all kv.2; Ok (i, v))
        (map (λ kv, (pretty kv.1,
          JArr (map (λ a, JStr (b64 (serialize_attribute marshal (a, is_nil a)))) kv.2))) ml) = Ok ml) as Hm.
    { clear H. induction ml as [|[i l] ml IH]; intros H; [done|].
      cbn [map res_mapM fst snd]. rewrite read_nat_pretty. cbn [mbind res_bind].
      assert (json_selected1 unmarshal unb64 all
        (JArr (map (λ a, JStr (b64 (serialize_attribute marshal (a, is_nil a)))) l)) = Ok l) as ->.
      { unfold json_selected1. cbn [mbind res_bind]. apply res_mapM_Ok, Forall2_fmap_l, Forall_Forall2_diag, Forall_forall.
        intros a Ha. destruct (H i l a) as [Hall [Hs1 Hs2]]; [left|done|]. unfold compose. cbn [mbind res_bind].
        rewrite (proj2 (base64 (serialize_attribute marshal (a, is_nil a)) (bytes _))). cbn [mbind res_bind].
        rewrite (attribute_round_trip _ _ faithful) by done. cbn [mbind res_bind fst].
        by apply replace_attr_same. }
      cbn [mbind res_bind]. rewrite IH; [done|]. intros i' l' a Hin. apply (H i'). by right. }
    rewrite Hm.
    - cbn [mbind res_bind]. by rewrite list_to_map_to_list.
    - intros i l a Hin. apply (H i). by apply elem_of_map_to_list.
  Qed.

  (** ** The whole model *)

  Definition bag_entries (b : bag C) (features : Z) (on : grid) (cell : attr → nat → list N)
      (ess : list archive) : archive :=
    [("NUM_RANDOM_FEATURES", pack_u64 (int_u64 features))] ++
    [("NUM_CLASSIFIERS", pack_u64 (N.of_nat (length (bg_models b))))] ++
    member_entries 0 ess ++
    instance_entries on cell "REFERENCE_INSTANCES" ++
    [("SELECTED_ATTRIBUTES", marshal (selected_json marshal b64 is_nil (bg_selected b)))].

  Lemma bag_appends b features on cell ess p :
    table is_nil on cell → (gr_size on).2 = 0 →
    Forall2 (λ c es, stored (save c) load es (R c)) (bg_models b) ess →
    appends (λ s, bag_save marshal b64 is_nil attr_order save b features on s p)
      (under p (bag_entries b features on cell ess)).
  Proof using order_ok.
    intros T Hn Hm. unfold bag_entries. rewrite !under_app.
    rewrite (under_instances marshal is_nil attr_order).
    apply appends_bind; [apply put_u64_appends|].
    apply appends_bind; [apply put_u64_appends|].
    apply appends_bind; [by apply members_appends|].
    apply appends_bind; [by apply put_structure_appends|].
    apply put_bytes_appends.
  Qed.

  Lemma bag_entries_NoDup b features on cell ess :
    Forall (λ es : archive, NoDup (map fst es)) ess →
    NoDup (map fst (bag_entries b features on cell ess)).
  Proof using.
    intros H. unfold bag_entries. rewrite !map_app.
    apply NoDup_app. split; [apply NoDup_singleton|]. split.
    { intros k ->%elem_of_singleton_names Hk. rewrite !elem_of_app in Hk. destruct Hk as [Hk|[Hk|[Hk|Hk]]].
      - by apply elem_of_singleton_names in Hk.
      - apply member_entries_names in Hk as (j & x & _ & E). by rewrite member_name in E.
      - cbn [map fst SerProofs.instance_entries head_entries app] in Hk.
        repeat (apply elem_of_cons in Hk as [Hk|Hk]; [discriminate Hk|]). by apply elem_of_nil in Hk.
      - by apply elem_of_singleton_names in Hk. }
    apply NoDup_app. split; [apply NoDup_singleton|]. split.
    { intros k ->%elem_of_singleton_names Hk. rewrite !elem_of_app in Hk. destruct Hk as [Hk|[Hk|Hk]].
      - apply member_entries_names in Hk as (j & x & _ & E). by rewrite member_name in E.
      - cbn [map fst SerProofs.instance_entries head_entries app] in Hk.
        repeat (apply elem_of_cons in Hk as [Hk|Hk]; [discriminate Hk|]). by apply elem_of_nil in Hk.
      - by apply elem_of_singleton_names in Hk. }
    apply NoDup_app. split; [by apply member_entries_NoDup|]. split.
    { intros k Hk Hk'. apply member_entries_names in Hk as (j & x & _ & E). rewrite member_name in E. subst k.
      apply elem_of_app in Hk' as [Hk|Hk].
      - cbn [map fst SerProofs.instance_entries head_entries app] in Hk.
        repeat (apply elem_of_cons in Hk as [Hk|Hk]; [discriminate Hk|]). by apply elem_of_nil in Hk.
      - by apply elem_of_singleton_names in Hk. }
    apply NoDup_app. split; [apply (wkeys_instances_NoDup "REFERENCE_INSTANCES" on)|].
    split; [|apply NoDup_singleton].
    intros k Hk ->%elem_of_singleton_names. cbn [map fst SerProofs.instance_entries head_entries app] in Hk.
    repeat (apply elem_of_cons in Hk as [Hk|Hk]; [discriminate Hk|]). by apply elem_of_nil in Hk.
  Qed.

  (** Reading the first [n] members back. *)
  Lemma bag_reads b features on cell ess p ar n :
    table is_nil on cell → (- 2^63 <= features < 2^63)%Z →
    (∀ i l a, bg_selected b !! i = Some l → a ∈ l → a ∈ gr_all_attrs on) →
    Forall2 (λ c es, stored (save c) load es (R c)) (bg_models b) ess →
    holds ar (under p (bag_entries b features on cell ess)) →
    n ≤ length (bg_models b) →
    ∃ b' d, bag_load unmarshal unb64 got pg load n ar p = Ok (b', features, d) ∧
      Forall2 R (take n (bg_models b)) (bg_models b') ∧ bg_selected b' = bg_selected b ∧
      same_table on cell d.
  Proof using faithful bytes base64 order_ok full.
    intros T Hf Hsel Hm H Hn. unfold bag_entries in H. rewrite !under_app in H.
    rewrite (under_instances marshal is_nil attr_order) in H.
    apply holds_app in H as [H1 H]. apply holds_app in H as [_ H].
    apply holds_app in H as [H3 H]. apply holds_app in H as [H4 H5].
    apply holds_cons in H1 as [H1 _]. apply holds_cons in H5 as [H5 _]. cbn [fst snd] in *.
    unfold bag_load, get_u64. rewrite H1. cbn [mbind res_bind].
    rewrite unpack_pack_u64 by apply int_u64_bound. cbn [mbind res_bind].
    destruct (members_read ar p (bg_models b) ess 0 Hm H3) as (ms & Ems & Hms).
    assert (res_mapM (λ j, load ar (member_key p j)) (seq 0 n) = Ok (take n ms)) as ->.
    { apply res_mapM_Ok in Ems. apply res_mapM_Ok.
      assert (seq 0 n = take n (seq 0 (length (bg_models b)))) as ->.
      { replace (length (bg_models b)) with (n + (length (bg_models b) - n)) by lia.
        rewrite seq_app, take_app_alt; [done|by rewrite seq_length]. }
      by apply Forall2_take. }
    cbn [mbind res_bind].
    destruct (get_instances_ok marshal unmarshal faithful is_nil attr_order order_ok got full pg ar _ on cell T H4)
      as (d & -> & Hd). cbn [mbind res_bind].
    unfold get_json, parse_json. rewrite H5. cbn [mbind res_bind].
    assert (∀ i l a, bg_selected b !! i = Some l → a ∈ l → attr_saves is_nil a) as Hs.
    { intros i l a E Ha. apply (tb_text _ _ _ T). by eapply Hsel. }
    rewrite (faithful _ (selected_sendable _ Hs)). cbn [mbind res_bind].
    rewrite selected_read.
    2:{ eapply distinct_perm; [symmetry; apply (st_attrs _ _ _ Hd)|]. apply (tb_attrs _ _ _ T). }
    2:{ intros i l a E Ha. split; [|by eapply Hs]. rewrite (st_attrs _ _ _ Hd). by eapply Hsel. }
    cbn [mbind res_bind]. rewrite u64_int_back by done.
    eexists _, d. split; [done|]. cbn [bg_models bg_selected]. split; [by apply Forall2_take|done].
  Qed.

  (** A member more than there are. *)
  Lemma bag_reads_more b features on cell ess p ar n key :
    (∀ ar q, get_named_file ar (tar_prefix q key) = Err → load ar q = Err) →
    (- 2^63 <= features < 2^63)%Z →
    Forall2 (λ c es, stored (save c) load es (R c)) (bg_models b) ess →
    holds ar (under p (bag_entries b features on cell ess)) →
    (∀ j, length (bg_models b) ≤ j → get_named_file ar (tar_prefix p (tar_prefix (member_dir j) key)) = Err) →
    length (bg_models b) < n →
    bag_load unmarshal unb64 got pg load n ar p = Err.
  Proof using.
    intros Hkey Hf Hm H Habs Hn. unfold bag_entries in H. rewrite !under_app in H.
    apply holds_app in H as [H1 H]. apply holds_app in H as [_ H]. apply holds_app in H as [H3 H].
    apply holds_cons in H1 as [H1 _]. cbn [fst snd] in *.
    unfold bag_load, get_u64. rewrite H1. cbn [mbind res_bind].
    rewrite unpack_pack_u64 by apply int_u64_bound. cbn [mbind res_bind].
    destruct (members_read ar p (bg_models b) ess 0 Hm H3) as (ms & Ems & Hms).
    assert (res_mapM (λ j, load ar (member_key p j)) (seq 0 n) = Err) as ->; [|done].
    replace n with (length (bg_models b) + S (n - S (length (bg_models b)))) by lia.
    rewrite seq_app, (res_mapM_snoc _ _ _ _ Ems). cbn [mbind res_bind seq res_mapM Nat.add].
    rewrite Hkey; [done|]. rewrite member_key_dir, prefix_prefix by done. by apply Habs.
  Qed.
End bag.
