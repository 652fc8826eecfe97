(** Proofs about saving and loading ensembles of linear support vector classifiers. *)
From Coq Require Import Ascii.
From Verif Require Import Prelude BytesModel BytesProofs AttrModel AttrSpec AttrProofs StoreModel
  DenseModel DenseSpec DenseProofs GridModel GridSpec GridProofs CsvModel FilterModel PredModel SerModel SerSpec
  SerProofs TableProofs Id3Model NbModel BagModel BagOva SvcModel LibModel SaveModel SaveSpec SaveProofs SaveTrees
  SaveOthers SaveBag SaveFiles SaveCodec OvaSaveModel OvaSaveSpec OvaSaveProofs OvaSaveLib OvaSaveFit.
From Flocq Require Import IEEE754.Bits IEEE754.Binary.
From stdpp Require Import pretty.
Local Open Scope nat_scope.

Section multi.
  Variable marshal : json → list N.
  Variable unmarshal : list N → option json.
  Hypothesis faithful : json_faithful marshal unmarshal.
  Variable fmt : binary64 → string.
  Variable fparse : string → option binary64.
  Hypothesis floats : float_text fmt fparse.
  Variable show16 : binary64 → string.
  Variable scan_float : string → option binary64.
  Hypothesis text : lib_text show16 scan_float.
  Variable undef : binary64 → Z.
  Variable train_one : nat → binary64 → list (list node * bool) → binary64 → binary64 → list binary64.
  Variable half : binary64.
  Variable pg : nat.
  Variable is_nil : attr → bool.
  Variable attr_order : list attr → list attr.
  Hypothesis order_ok : any_order attr_order.
  Variable got : nat → nat → nat.
  Hypothesis full : full_reads got.
  Variable oo co : list attr → list attr.
  Hypothesis oo_ok : any_order oo.
  Variable class_iter : list ((nat * nat) * bool) → list ((nat * nat) * bool).
  Hypothesis class_ok : any_order class_iter.
  Variable mo : nat → list (attr * attr) → list (attr * attr).
  Hypothesis mo_ok : ∀ i, any_order (mo i).
  Variable wo : list (string * binary64) → list (string * binary64).

  Notation multi_fit := (multi_fit undef train_one half oo co wo).
  Notation lsvc_fit := (lsvc_fit undef train_one half).

  (** Loading a member into the classifier it was made from. *)
  Lemma multi_member p w train m j c v :
    multi_fit p w train = Ok m → om_models (mu_ova m) !! j = Some c → om_values (mu_ova m) !! j = Some v →
    ls_native c = ls_native (multi_make wo p w v) ∧ ls_param c = ls_param (multi_make wo p w v).
  Proof using.
    intros H. unfold OvaSaveModel.multi_fit in H. apply bind_Ok in H as (o & Ho & [= <-]). cbn [mu_ova].
    revert j c v. apply (kept_members (multi_make wo p w) lsvc_fit oo co
      (λ v c, ls_native c = ls_native (multi_make wo p w v) ∧ ls_param c = ls_param (multi_make wo p w v)) train o Ho).
    - done.
    - intros v c g c' [H1 H2] Hfit. unfold OvaSaveModel.lsvc_fit in Hfit.
      destruct (ls_native c) as [[[solver cc] eps]|] eqn:En; [|done].
      apply bind_Ok in Hfit as (lm & _ & [= <-]). cbn [ls_native ls_param]. done.
  Qed.

  Lemma multi_prefix (k : string) : "" +:+ "/" +:+ k = "/" +:+ k.
  Proof using. done. Qed.

  Lemma multi_files p w train m on cell p0 w0 :
    multi_fit p w train = Ok m → structure_of train on → table is_nil on cell →
    NoDup (om_values (mu_ova m)) → (N.of_nat (length (om_values (mu_ova m))) < 2^64)%N →
    svc_saves p → weights_save w → w0 = None ∨ w0 = Some ∅ ∨ w = None →
    (∀ c, c ∈ om_models (mu_ova m) → ∃ sm, lsvc_saves c sm) →
    ∃ ar m' d, multi_file_save marshal fmt show16 is_nil attr_order mo m on = Ok ar ∧
      multi_file_load unmarshal fparse scan_float undef train_one half pg got oo co class_iter wo p0 w0 ar = Ok (m', d) ∧
      mu_params m' = p ∧ mu_weights m' = w ∧
      om_filters (mu_ova m') = om_filters (mu_ova m) ∧ om_max (mu_ova m') = om_max (mu_ova m) ∧
      om_values (mu_ova m') = om_values (mu_ova m) ∧
      Forall2 (λ c c', reloaded show16 scan_float c c c') (om_models (mu_ova m)) (om_models (mu_ova m')) ∧
      same_table on cell d ∧
      ∀ p1 w1 m1 d1,
        multi_file_load unmarshal fparse scan_float undef train_one half pg got oo co class_iter wo p1 w1 ar = Ok (m1, d1) →
        mu_params m1 = p ∧
        mu_weights m1 = match w with None => None | Some x => Some (x ∪ default ∅ w1) end.
  Proof using faithful floats text order_ok full class_ok mo_ok oo_ok.
    intros Hfit Hs T Hnd Hlt Hp Hw Hw0 Hmem.
    pose proof (multi_member p w train m) as Hmm.
    pose proof Hfit as Hfit'. unfold OvaSaveModel.multi_fit in Hfit. apply bind_Ok in Hfit as (o & Ho & [= Em]).
    subst m. cbn [mu_params mu_weights mu_ova] in *.
    set (R := λ c c', reloaded show16 scan_float c c c').
    set (save := lsvc_save marshal fmt show16).
    set (load := λ cls, lsvc_load unmarshal fparse scan_float (multi_make wo p w cls)).
    destruct (kept_saves (multi_make wo p w) lsvc_fit oo co oo_ok is_nil train on cell o Ho Hs T Hnd Hlt)
      as (name & Hc & H2 & Hmax & Hlen & Hf & Hfl).
    destruct (gather_members save load R o Hlen) as (ess & Hess).
    { intros j c v Hj Hv. destruct (Hmem c) as (sm & Hsm); [by eapply elem_of_list_lookup_2|].
      destruct (lsvc_stored marshal unmarshal faithful fmt fparse floats show16 scan_float text c sm Hsm)
        as (jp & b & _ & _ & Hst).
      eexists. eapply stored_weaken; [apply (Hst (multi_make wo p w v))|].
      intros c' (E1 & E2 & E3). destruct (Hmm j c v Hfit' Hj Hv) as [En _]. split; [by rewrite En|]. by split. }
    destruct (svc_round_trip fmt fparse floats p Hp) as (jl & Ej & Sj & Rj).
    destruct (weights_round_trip fmt fparse floats w Hw) as (jw & Ew & Sw & Rw).
    set (es := ova_entries marshal is_nil attr_order mo o on cell ess).
    set (mt := Meta 1 "MultiLinearSVC" "1" None).
    set (all := [("/params", marshal (JObj jl)); ("/weights", marshal jw)] ++ under "/one-vs-all" es).
    assert (∀ k, tar_prefix "/one-vs-all" k = "/one-vs-all/" +:+ k) as Hpre by done.
    assert (NoDup (map fst all)) as Hall.
    { unfold all, under. rewrite map_app, map_map. cbn [map fst app].
      assert (∀ k x, k ∈ map (λ e : string * list N, (tar_prefix "/one-vs-all" e.1)) es → k = "/" +:+ x →
        ∃ y, x = "one-vs-all/" +:+ y) as Hin.
      { intros k x Hk ->. apply elem_of_list_fmap in Hk as (e & E & _). rewrite Hpre in E. exists e.1.
        by injection E. }
      constructor; [|constructor].
      - intros Hk. apply elem_of_cons in Hk as [E|Hk]; [discriminate E|].
        destruct (Hin _ "params" Hk eq_refl) as (y & E). discriminate E.
      - intros Hk. destruct (Hin _ "weights" Hk eq_refl) as (y & E). discriminate E.
      - rewrite <- (map_map fst (tar_prefix "/one-vs-all")). apply NoDup_fmap_2_strong.
        + intros x y _ _ E. rewrite !Hpre in E. by injection E.
        + by apply (ova_NoDup marshal is_nil attr_order mo save load R). }
    assert (∀ k, k ∈ map fst all → k ∉ reserved) as Hfree.
    { unfold all, under. rewrite map_app, map_map. cbn [map fst app]. intros k Hk.
      repeat (apply elem_of_cons in Hk as [->|Hk]; [apply (bool_decide_unpack _); vm_compute; done|]).
      apply elem_of_list_fmap in Hk as (e & -> & _). rewrite Hpre.
      intros Hr. unfold reserved in Hr.
      repeat (apply elem_of_cons in Hr as [Hr|Hr]; [discriminate Hr|]). by apply elem_of_nil in Hr. }
    set (ar := stub_entries marshal mt ++ all).
    assert (holds ar all) as Hh by (by apply holds_stub).
    assert (match w with None => None | Some x => Some (x ∪ default ∅ w0) end = w) as Hmerge.
    { destruct w as [x|]; [|done]. f_equal. destruct Hw0 as [->|[->|]]; [| |done]; cbn [default from_option id]; apply (right_id_L ∅ (∪)). }
    unfold all in Hh. cbn [app] in Hh. apply holds_cons in Hh as [Hh1 Hh]. apply holds_cons in Hh as [Hh2 Hh].
    destruct (ova_reads marshal unmarshal faithful is_nil attr_order order_ok got full pg (multi_make wo p w) lsvc_fit oo co
      class_iter class_ok mo mo_ok save load R o on cell ess "/one-vs-all" ar name (om_values o)
      T (sc_rows _ _ Hs) Hc Hnd H2 eq_refl Hmax Hf Hfl Hess Hh) as (o' & d & Eo & Hrest).
    assert (∀ p1 w1,
      multi_file_load unmarshal fparse scan_float undef train_one half pg got oo co class_iter wo p1 w1 ar =
      let w2 := match w with None => None | Some x => Some (x ∪ default ∅ w1) end in
      o2 ← ova_load unmarshal got pg (multi_make wo p w2) lsvc_fit oo co class_iter
            (λ cls, lsvc_load unmarshal fparse scan_float (multi_make wo p w2 cls)) ar "/one-vs-all";
      Ok (Multi p w2 o2.1, o2.2)) as Hld.
    { intros p1 w1. unfold multi_file_load.
      assert (read_stub unmarshal ar = Ok mt) as ->.
      { apply (read_stub_stub marshal unmarshal faithful); [|done]. by apply plain_meta_sendable. }
      cbn [mbind res_bind]. unfold multi_load, get_json, parse_json. rewrite !multi_prefix.
      change ("/" +:+ "params") with "/params". change ("/" +:+ "weights") with "/weights".
      change ("/" +:+ "one-vs-all") with "/one-vs-all".
      rewrite Hh1. cbn [mbind res_bind]. rewrite (faithful _ Sj). cbn [mbind res_bind]. rewrite Rj. cbn [mbind res_bind].
      rewrite Hh2. cbn [mbind res_bind]. rewrite (faithful _ Sw). cbn [mbind res_bind]. rewrite Rw. cbn [mbind res_bind].
      done. }
    exists ar, (Multi p w o'), d. split; [|split].
    - unfold multi_file_save. fold mt. destruct (create_stub_opened marshal mt) as (s & -> & Hop). cbn [mbind res_bind].
      unfold multi_save. cbn [mu_params mu_weights mu_ova]. rewrite Ej. cbn [mbind res_bind]. rewrite !multi_prefix. unfold put_json.
      destruct (put_bytes_appends ("/" +:+ "params") (marshal (JObj jl)) s _ Hop) as (s1 & -> & Hop1). cbn [mbind res_bind].
      rewrite Ew. cbn [mbind res_bind].
      destruct (put_bytes_appends ("/" +:+ "weights") (marshal jw) s1 _ Hop1) as (s2 & -> & Hop2). cbn [mbind res_bind].
      rewrite (ova_saved marshal is_nil attr_order order_ok mo save load R o on cell ess _ s2 _ T (sc_rows _ _ Hs) Hess Hop2).
      cbn [mbind res_bind]. unfold ar, all. cbn [ser_file ser_try_close]. by rewrite <- !app_assoc.
    - rewrite (Hld p0 w0), Hmerge. cbn zeta. fold load. rewrite Eo. done.
    - cbn [mu_params mu_weights mu_ova]. destruct Hrest as (R1 & R2 & R3 & R4 & R5). repeat (split; [done|]).
      intros p1 w1 m1 d1 H1. rewrite (Hld p1 w1) in H1. apply bind_Ok in H1 as (o1 & _ & [= <- _]). done.
  Qed.
End multi.
