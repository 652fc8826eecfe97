(** Proofs about saving one-vs-all models as [Fit] leaves them, and ensembles of linear
    support vector classifiers. *)
From Coq Require Import Ascii.
From Verif Require Import Prelude BytesModel BytesProofs AttrModel AttrSpec AttrProofs StoreModel
  DenseModel DenseSpec DenseProofs GridModel GridSpec GridProofs CsvModel FilterModel PredModel SerModel SerSpec
  SerProofs TableProofs Id3Model NbModel BagModel BagOva SvcModel LibModel SaveModel SaveSpec SaveProofs SaveTrees
  SaveOthers SaveBag SaveFiles SaveCodec OvaSaveModel OvaSaveSpec OvaSaveProofs OvaSaveLib.
From Flocq Require Import IEEE754.Bits IEEE754.Binary.
From stdpp Require Import pretty.
Local Open Scope nat_scope.

Lemma stored_weaken {C} save (load : archive → string → res C) es (R R' : C → Prop) :
  stored save load es R → (∀ c, R c → R' c) → stored save load es R'.
Proof.
  intros [H1 H2 H3] H. split; [done|done|]. intros p ar Hh. destruct (H3 p ar Hh) as (c & E & Hc). exists c.
  split; [done|by apply H].
Qed.

Section kept.
  Context {C : Type}.
  Variable make : string → C.
  Variable fit : C → grid → res C.
  Variable oo co : list attr → list attr.
  Hypothesis oo_ok : any_order oo.
  Variable is_nil : attr → bool.

  Lemma kept_saves train on cell m :
    ova_kept make fit oo co train = Ok m → structure_of train on → table is_nil on cell →
    NoDup (om_values m) → (N.of_nat (length (om_values m)) < 2^64)%N →
    ∃ name, gr_class_attrs on = [CatA name (om_values m)] ∧ 2 ≤ length (om_values m) ∧
      om_max m = ova_max (om_values m) ∧ length (om_models m) = length (om_values m) ∧
      Forall (filter_ok is_nil (gr_all_attrs on)) (om_filters m) ∧
      (N.of_nat (length (om_filters m)) < 2^64)%N.
  Proof using oo_ok.
    intros Hk [Hall Hcls _] T Hnd Hlt.
    destruct (ova_kept_spec make fit oo co train m Hk)
      as (name & vals & o & attrs & Hc & Ha & _ & Hne & _ & -> & Hlen & _). cbn [om_values om_max om_models om_filters] in *.
    rewrite (ova_max_distinct _ Hnd) in *. exists name. rewrite Hcls.
    split; [done|]. split; [lia|]. split; [reflexivity|]. split; [lia|].
    rewrite map_length, seq_length. split; [|lia].
    apply Forall_forall. intros f Hf. apply elem_of_list_fmap in Hf as (i & -> & Hi). apply elem_of_seq in Hi.
    assert (CatA name vals ∈ gr_all_attrs on) as Hin.
    { apply (tb_class _ _ _ T). rewrite Hcls, Hc. left. }
    pose proof (tb_text _ _ _ T _ Hin) as Hct.
    pose proof (ova_pairs oo oo_ok train attrs Ha) as Hndk.
    unfold ova_attrs in Ha. rewrite Hc in Ha. injection Ha as <-.
    split; [|split; [done|split; [done|split; [cbn [of_val]; lia|]]]]; cbn [of_attrs].
    - intros k v Hkv. apply elem_of_list_to_map_2 in Hkv. apply elem_of_list_fmap in Hkv as (a & [= -> ->] & Hel).
      rewrite (oo_ok _), build_attr_set_elem, <- Hall in Hel. split; [done|]. split; [by apply (tb_text _ _ _ T)|].
      destruct (attr_equals a (CatA name vals)); [|by apply (tb_text _ _ _ T)].
      split; [|done]. destruct Hct as [[Hn _] _]. split; [exact Hn|]. vm_compute. discriminate.
    - pose proof (tb_cols _ _ _ T) as Hcols. rewrite (tb_size _ _ _ T) in Hcols.
      match goal with |- (N.of_nat (size (list_to_map ?l)) < _)%N => set (ps := l) in * end.
      assert (size (list_to_map ps : gmap attr attr) = length ps) as ->.
      { change (size (list_to_map ps : gmap attr attr)) with (length (map_to_list (list_to_map ps : gmap attr attr))).
        apply Permutation_length, map_to_list_to_map. exact Hndk. }
      unfold ps. rewrite map_length, (Permutation_length (oo_ok _)).
      assert (length (build_attr_set (gr_all_attrs train)) ≤ length (gr_all_attrs on)) as Hle.
      { rewrite (Permutation_length Hall). apply submseteq_length, NoDup_submseteq; [apply build_attr_set_nodup|].
        intros a. by rewrite build_attr_set_elem. }
      lia.
  Qed.

  (** What is kept is what [Predict] works on. *)
  Lemma kept_is_fit train m :
    ova_kept make fit oo co train = Ok m →
    ∃ fo, any_order fo ∧ ova_fit make fit oo co train = Ok (om_ova fo m).
  Proof using oo_ok.
    intros Hk. destruct (ova_kept_spec make fit oo co train m Hk)
      as (name & vals & o & attrs & Hc & Ha & Ho & Hne & Hm & -> & Hlen & Hf).
    pose proof (ova_pairs oo oo_ok train attrs Ha) as Hndk.
    set (l := map_to_list (list_to_map attrs : gmap attr attr)).
    exists (λ l', if decide (l' = l) then attrs else l'). split.
    - intros l'. destruct (decide (l' = l)) as [->|]; [|done]. symmetry. by apply map_to_list_to_map.
    - rewrite Ho. f_equal. unfold om_ova. cbn [om_filters om_models om_max]. destruct o as [fs ms mx].
      cbn [ov_filters ov_models ov_max] in *. subst. f_equal.
      rewrite map_map. apply map_ext. intros i. cbn [of_attrs of_class of_val]. fold l.
      rewrite decide_True by done. by rewrite Nat2N.id.
  Qed.

  (** A member comes from [make] and [fit]. *)
  Lemma kept_members (P : string → C → Prop) train m :
    ova_kept make fit oo co train = Ok m →
    (∀ v, P v (make v)) → (∀ v c g c', P v c → fit c g = Ok c' → P v c') →
    ∀ j c v, om_models m !! j = Some c → om_values m !! j = Some v → P v c.
  Proof using.
    intros Hk H0 Hs. unfold ova_kept in Hk. destruct (gr_class_attrs train) as [|[|name vals|] [|]] eqn:Hc; try done.
    apply bind_Ok in Hk as (attrs & Ha & Hk). apply bind_Ok in Hk as (o & Ho & [= <-]).
    unfold ova_fit in Ho. rewrite Hc, Ha in Ho. cbn [mbind res_bind] in Ho.
    destruct (ova_max vals =? 0); [done|]. apply bind_Ok in Ho as (l & Hl & [= <-]).
    cbn [om_models om_values ov_models]. apply res_mapM_Ok in Hl. intros j c v Hj Hv.
    rewrite list_lookup_fmap in Hj. destruct (l !! j) as [[f c']|] eqn:El; [|done]. injection Hj as ->.
    destruct (Forall2_lookup_r _ _ _ _ _ Hl El) as (i & Hi & Hone). apply lookup_seq in Hi as [-> _].
    unfold ova_fit_one in Hone. apply bind_Ok in Hone as (v' & Hv' & Hone).
    unfold idx in Hv'. cbn [Nat.add] in Hv'. rewrite Hv in Hv'. injection Hv' as <-.
    destruct (_ =? 0); [injection Hone as _ <-; apply H0|].
    apply bind_Ok in Hone as (c' & Hfit & [= _ <-]). unfold fit_ignoring in Hfit.
    destruct (fit (make v) _) as [c''| |] eqn:E; [|by injection Hfit as <-|done]. injection Hfit as <-.
    by eapply Hs.
  Qed.
End kept.

Section ova.
  Variable marshal : json → list N.
  Variable unmarshal : list N → option json.
  Hypothesis faithful : json_faithful marshal unmarshal.
  Variable is_nil : attr → bool.
  Variable attr_order : list attr → list attr.
  Hypothesis order_ok : any_order attr_order.
  Variable got : nat → nat → nat.
  Hypothesis full : full_reads got.
  Variable pg : nat.
  Variable oo co : list attr → list attr.
  Hypothesis oo_ok : any_order oo.
  Variable class_iter : list ((nat * nat) * bool) → list ((nat * nat) * bool).
  Hypothesis class_ok : any_order class_iter.
  Variable mo : nat → list (attr * attr) → list (attr * attr).
  Hypothesis mo_ok : ∀ i, any_order (mo i).

  Lemma gather_members {C} (save : C → ser → string → res ser) (load : string → archive → string → res C)
      (R : C → C → Prop) (m : ova_model C) :
    length (om_models m) = length (om_values m) →
    (∀ j c v, om_models m !! j = Some c → om_values m !! j = Some v →
      ∃ es, stored (save c) (load v) es (R c)) →
    ∃ ess, members_stored save load R m ess.
  Proof using.
    destruct m as [fs cs mx vs]. unfold members_stored. cbn [om_models om_values]. intros Hlen H.
    clear -Hlen H. revert vs Hlen H. induction cs as [|c cs IH]; intros [|v vs] Hlen H; try done.
    - exists []. split; [done|]. split; [done|]. by intros j.
    - cbn [length] in Hlen. destruct (H 0 c v eq_refl eq_refl) as (es & Hes).
      destruct (IH vs) as (ess & H1 & H2 & H3); [lia|intros j c' v' Hc Hv; by apply (H (S j))|].
      exists (es :: ess). cbn [length]. split; [lia|]. split; [lia|].
      intros [|j] c' v' es' Hc Hv He; [|by apply (H3 j)]. by injection Hc as <-; injection Hv as <-; injection He as <-.
  Qed.

  Lemma kept_files {C} make fit (save : C → ser → string → res ser) load (R : C → C → Prop) train on cell m :
    ova_kept make fit oo co train = Ok m → structure_of train on → table is_nil on cell →
    NoDup (om_values m) → (N.of_nat (length (om_values m)) < 2^64)%N →
    (∀ j c v, om_models m !! j = Some c → om_values m !! j = Some v →
      ∃ es, stored (save c) (load v) es (R c)) →
    ∃ ar m' d, ova_file_save marshal is_nil attr_order mo save m on = Ok ar ∧
      ova_file_load unmarshal got pg make fit oo co class_iter load ar = Ok (m', d) ∧
      om_filters m' = om_filters m ∧ om_max m' = om_max m ∧
      om_values m' = om_values m ∧ Forall2 R (om_models m) (om_models m') ∧ same_table on cell d.
  Proof using faithful order_ok full class_ok mo_ok oo_ok.
    intros Hk Hs T Hnd Hlt Hm.
    destruct (kept_saves make fit oo co oo_ok is_nil train on cell m Hk Hs T Hnd Hlt) as (name & Hc & H2 & Hmax & Hlen & Hf & Hfl).
    destruct (gather_members save load R m Hlen Hm) as (ess & Hess).
    by apply (ova_files marshal unmarshal faithful is_nil attr_order order_ok got full pg make fit oo co class_iter class_ok
      mo mo_ok save load R m on cell ess name (om_values m) T (sc_rows _ _ Hs) Hc Hnd H2 eq_refl Hmax Hf Hfl Hess).
  Qed.

  (** The writer is closed. *)
  Lemma kept_closes {C} make fit (save : C → ser → string → res ser) load (R : C → C → Prop) train on cell m p s ar :
    ova_kept make fit oo co train = Ok m → structure_of train on → table is_nil on cell →
    NoDup (om_values m) → (N.of_nat (length (om_values m)) < 2^64)%N →
    (∀ j c v, om_models m !! j = Some c → om_values m !! j = Some v →
      ∃ es, stored (save c) (load v) es (R c)) →
    opened s ar →
    ∃ t, ova_save marshal is_nil attr_order mo save m on s p = Ok (Ser t true).
  Proof using order_ok oo_ok.
    intros Hk Hs T Hnd Hlt Hm Ho.
    destruct (kept_saves make fit oo co oo_ok is_nil train on cell m Hk Hs T Hnd Hlt) as (name & Hc & H2 & Hmax & Hlen & Hf & Hfl).
    destruct (gather_members save load R m Hlen Hm) as (ess & Hess).
    eexists. by apply (ova_saved marshal is_nil attr_order order_ok mo save load R m on cell ess p s ar T (sc_rows _ _ Hs) Hess).
  Qed.
End ova.

(** Bags of models that close the file when they are saved. *)
Lemma bag_of_closing marshal b64 is_nil attr_order {C} (save : C → ser → string → res ser) b features on :
  bg_models b ≠ [] →
  (∀ c s ar p, c ∈ bg_models b → opened s ar → ∃ t, save c s p = Ok (Ser t true)) →
  (∀ c s p, c ∈ bg_models b → sr_closed s = true → save c s p = Err) →
  bag_file_save marshal b64 is_nil attr_order save b features on = Err.
Proof.
  intros Hne H1 H2. destruct b as [[|c models] sel]; [done|]. cbn [bg_models] in *.
  unfold bag_file_save. destruct (create_stub_opened marshal (Meta 1 "BaggedModel" "1.0" None)) as (s & -> & Ho).
  cbn [mbind res_bind]. unfold bag_save. cbn [bg_models bg_selected].
  destruct (put_u64_appends (tar_prefix "" "NUM_RANDOM_FEATURES") (int_u64 features) s _ Ho) as (s1 & -> & Ho1).
  cbn [mbind res_bind].
  destruct (put_u64_appends (tar_prefix "" "NUM_CLASSIFIERS") (N.of_nat (length (c :: models))) s1 _ Ho1) as (s2 & -> & Ho2).
  cbn [mbind res_bind members_save].
  destruct (H1 c s2 _ (member_key "" 0) ltac:(left) Ho2) as (t & ->). cbn [mbind res_bind].
  destruct models as [|c' models]; cbn [members_save].
  - cbn [mbind res_bind]. unfold put_instances. by rewrite closed_refuses.
  - rewrite H2; [done|right; left|done].
Qed.
