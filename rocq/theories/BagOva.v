(** Proofs about the one-versus-all model. *)
From stdpp Require Import functions.
From Verif Require Import Prelude BytesModel BytesProofs FloatModel FloatProofs FloatOrder AttrModel AttrSpec AttrProofs
  StoreModel DenseModel DenseSpec DenseProofs GridModel GridSpec GridProofs PredModel PredProofs FilterModel FilterSpec FilterProofs
  BagModel BagSpec.
From Flocq Require Import IEEE754.Bits IEEE754.Binary.
Local Open Scope nat_scope.

(** ** The class with the best score *)

Lemma above_spec x y : above x y ↔
  is_nan 53 1024 x = false ∧ is_nan 53 1024 y = false ∧ (fkey y < fkey x)%Z.
Proof. unfold above. rewrite fcompare_spec, Z.compare_gt_iff. done. Qed.

Lemma float_gt_above x y : float_gt x y = true ↔ above x y.
Proof. unfold float_gt, above. destruct (Bcompare 53 1024 x y) as [[]|]; naive_solver. Qed.

Lemma zero_float : float_zero = zero.
Proof. reflexivity. Qed.

Lemma best_fold (score : nat → binary64) k cls best :
  (cls, best) = foldl (λ cb j, if float_gt (score j) cb.2 then (j, score j) else cb) (0, float_zero) (seq 0 k) →
  (cls = 0 ∧ best = zero ∧ ∀ i, i < k → ¬ above (score i) zero) ∨
  (cls < k ∧ best = score cls ∧ above (score cls) zero ∧ (∀ i, i < k → ¬ above (score i) (score cls)) ∧
   (∀ i, i < cls → above (score i) zero → above (score cls) (score i))).
Proof.
  revert cls best. induction k as [|k IH]; intros cls best.
  - cbn. intros [= -> ->]. left. split; [done|]. split; [apply zero_float|lia].
  - rewrite seq_S, foldl_app. cbn [foldl Nat.add]. destruct (foldl _ _ (seq 0 k)) as [cls0 best0] eqn:E.
    specialize (IH cls0 best0 eq_refl). cbn [snd]. destruct (float_gt (score k) best0) eqn:Eg.
    + intros [= -> ->]. right. apply float_gt_above in Eg. destruct IH as [(-> & -> & Hno)|(Hlt & -> & Hpos & Hmax & Hfirst)].
      * split; [lia|]. split; [done|]. split; [done|]. split.
        -- intros i Hi Ha. destruct (decide (i = k)) as [->|Hne]; [apply above_spec in Ha; lia|].
           apply (Hno i); [lia|]. rewrite above_spec in *. split; [tauto|]. split; [tauto|lia].
        -- intros i Hi Ha. by destruct (Hno i Hi).
      * split; [lia|]. split; [done|]. split.
        { rewrite above_spec in *. split; [tauto|]. split; [tauto|lia]. }
        split.
        -- intros i Hi Ha. destruct (decide (i = k)) as [->|Hne]; [apply above_spec in Ha; lia|].
           apply (Hmax i); [lia|]. rewrite above_spec in *. split; [tauto|]. split; [tauto|lia].
        -- intros i Hi Ha. pose proof (Hmax i Hi) as Hni. rewrite above_spec in *.
           split; [tauto|]. split; [tauto|]. destruct Ha as (Ha & _ & _), Hpos as (Hp & _ & _).
           assert (¬ (fkey (score cls0) < fkey (score i))%Z) by tauto. lia.
    + intros [= -> ->]. assert (¬ above (score k) best0) as Hng by (rewrite <- float_gt_above, Eg; done).
      destruct IH as [(-> & -> & Hno)|(Hlt & -> & Hpos & Hmax & Hfirst)].
      * left. split; [done|]. split; [done|]. intros i Hi. destruct (decide (i = k)) as [->|Hne]; [done|]. apply Hno. lia.
      * right. split; [lia|]. split; [done|]. split; [done|]. split; [|done].
        intros i Hi. destruct (decide (i = k)) as [->|Hne]; [done|]. apply Hmax. lia.
Qed.

Lemma ova_class_best vecs row max (score : nat → binary64) :
  (∀ j, j ≤ max → ∃ v raw, vecs !! j = Some v ∧ gr_get v.1 v.2 row = Ok raw ∧ unpack_float raw = Ok (score j)) →
  ∃ j, ova_class vecs row max = Ok j ∧ best_scoring score max j.
Proof.
  intros H. unfold ova_class.
  assert (∀ k cb, k ≤ max + 1 →
    res_foldl (λ cb j, v ← idx vecs j; raw ← gr_get v.1 v.2 row; val ← unpack_float raw;
      Ok (if float_gt val cb.2 then (j, val) else cb)) cb (seq 0 k) =
    Ok (foldl (λ cb j, if float_gt (score j) cb.2 then (j, score j) else cb) cb (seq 0 k))) as Hf.
  { intros k cb. induction k as [|k IH]; intros Hk; [done|]. rewrite seq_S, res_foldl_app, foldl_app, IH by lia.
    cbn [mbind res_bind res_foldl foldl Nat.add]. destruct (H k) as (v & raw & Hv & Hr & Hu); [lia|].
    unfold idx. rewrite Hv. cbn [mbind res_bind]. rewrite Hr. cbn [mbind res_bind]. rewrite Hu. done. }
  rewrite Hf by done. cbn [mbind res_bind]. destruct (foldl _ _ _) as [cls best] eqn:E.
  exists cls. split; [done|]. symmetry in E. apply best_fold in E as [(-> & _ & Hno)|(Hlt & _ & Hpos & Hmax & Hfirst)].
  - split; [lia|]. split; [|done]. intros (i & Hi & Ha). exfalso. apply (Hno i); [lia|done].
  - split; [lia|]. split.
    + intros _. split; [done|]. split; [|done]. intros i Hi. apply Hmax. lia.
    + intros Hno. by destruct (Hno cls ltac:(lia)).
Qed.

(** ** Predict *)

Section ova_predict.
  Context {C : Type} (predict : C → grid → res grid) (co : list attr → list attr).
  Context (pg : nat) (order : list ((nat * nat) * bool) → list ((nat * nat) * bool)).
  Context (show : nat → N → string) (o : ova C) (what : grid) (name : string) (vs : list string).
  Context (score : nat → nat → binary64).
  Context (Ho : ∀ l, order l ≡ₚ l).
  Context (Hclass : gr_class_attrs what = [CatA name vs]).
  Context (Hlen : (N.of_nat (length vs) < 2^63)%N) (Hmax : ov_max o < length vs).
  Context (Hscore : ∀ j, j ≤ ov_max o → ∃ f c p a s,
    ov_filters o !! j = Some f ∧ ov_models o !! j = Some c ∧
    predict c (lf_grid co (new_lfiltered what f)) = Ok p ∧
    gr_class_attrs p = [a] ∧ gr_get_attribute p a = Ok s ∧
    ∀ r, r < (gr_size what).2 → ∃ raw, gr_get p s r = Ok raw ∧ unpack_float raw = Ok (score j r)).

  Lemma ova_vecs : ∃ vecs, res_mapM (ova_scores predict co o what) (seq 0 (ov_max o + 1)) = Ok vecs ∧
    ∀ j r, j ≤ ov_max o → r < (gr_size what).2 →
      ∃ v raw, vecs !! j = Some v ∧ gr_get v.1 v.2 r = Ok raw ∧ unpack_float raw = Ok (score j r).
  Proof using Hscore. clear -Hscore.
    assert (∀ k, k ≤ ov_max o + 1 → ∃ vecs, res_mapM (ova_scores predict co o what) (seq 0 k) = Ok vecs ∧ length vecs = k ∧
      ∀ j r, j < k → r < (gr_size what).2 →
        ∃ v raw, vecs !! j = Some v ∧ gr_get v.1 v.2 r = Ok raw ∧ unpack_float raw = Ok (score j r)) as H.
    { induction k as [|k IH]; intros Hk.
      - exists []. split; [done|]. split; [done|]. lia.
      - destruct IH as (vecs & Hv & Hl & Hj); [lia|].
        destruct (Hscore k) as (f & c & p & a & s & Hf & Hc & Hp & Ha & Hs & Hr); [lia|].
        exists (vecs ++ [(p, s)]). split; [|split].
        + rewrite seq_S. cbn [Nat.add]. apply res_mapM_Ok in Hv. apply res_mapM_Ok. apply Forall2_app; [done|].
          apply Forall2_cons. split; [|by apply Forall2_nil]. unfold ova_scores, idx. rewrite Hf. cbn [mbind res_bind].
          rewrite Hc. cbn [mbind res_bind]. rewrite Hp. cbn [mbind res_bind]. rewrite Ha. cbn [resolve res_mapM].
          rewrite Hs. done.
        + rewrite app_length, Hl. cbn. lia.
        + intros j r Hj' Hr'. destruct (decide (j = k)) as [->|Hne].
          * destruct (Hr r Hr') as (raw & H1 & H2). exists (p, s), raw. split; [|done].
            rewrite lookup_app_r by lia. by rewrite Hl, Nat.sub_diag.
          * destruct (Hj j r ltac:(lia) Hr') as (v & raw & H1 & H2). exists v, raw. split; [|done].
            by rewrite lookup_app_l by lia. }
    destruct (H (ov_max o + 1)) as (vecs & H1 & _ & H2); [lia|]. exists vecs. split; [done|].
    intros j r Hj Hr. apply H2; [lia|done].
  Qed.

  Lemma ova_predict_best : ∃ ret, ova_predict predict co pg order o what = Ok ret ∧
    d_maxrow ret = (gr_size what).2 ∧
    ∀ r, r < (gr_size what).2 → ∃ j c, best_scoring (λ i, score i r) (ov_max o) j ∧
      vs !! j = Some c ∧ reads_class show ret r c.
  Proof using Ho Hclass Hlen Hmax Hscore.
    unfold ova_predict. destruct (prediction_vector_ok pg what _ Hclass) as (d0 & -> & Hd0). cbn [mbind res_bind].
    assert (ov_max o < length (ov_filters o)) as Hfl.
    { destruct (Hscore (ov_max o)) as (f & _ & _ & _ & _ & Hf & _); [lia|]. by eapply lookup_lt_Some. }
    replace (length (ov_filters o) <? ov_max o) with false by (symmetry; apply Nat.ltb_ge; lia).
    replace ((ov_max o =? 0) && (length (ov_filters o) =? 0)) with false.
    2:{ symmetry. apply andb_false_iff. right. apply Nat.eqb_neq. lia. }
    cbn [orb]. destruct ova_vecs as (vecs & -> & Hvecs). cbn [mbind res_bind].
    assert (class_order d0 (order (map_to_list (d_class d0)))) as Hco by apply Ho.
    rewrite (predicted_class_attrs _ _ _ _ _ _ Hd0 Hco). cbn [resolve res_mapM dense_grid gr_get_attribute].
    rewrite (predicted_find _ _ _ _ _ Hd0). cbn [mbind res_bind idx lookup list_lookup].
    assert ((dense_size d0).2 = (gr_size what).2) as ->.
    { destruct Hd0 as (_ & Hm & _). unfold dense_size. destruct d0. cbn in *. done. }
    set (rows := (gr_size what).2) in *.
    assert (∀ k, k ≤ rows → ∃ ret f, res_foldl (λ ret i, class ← ova_class vecs i (ov_max o);
        dense_set ret (Spec 0 0 (CatA name vs)) i (pack_u64 (N.of_nat class))) d0 (seq 0 k) = Ok ret ∧
      predicted pg (CatA name vs) rows f ret ∧
      ∀ r, r < k → ∃ j, best_scoring (λ i, score i r) (ov_max o) j ∧ f r = Some (pack_u64 (N.of_nat j))) as H.
    { induction k as [|k IH]; intros Hk.
      - exists d0, (λ _, None). split; [done|]. split; [done|lia].
      - destruct IH as (ret & f & Hret & Hp & Hr); [lia|].
        rewrite seq_S, res_foldl_app, Hret. cbn [mbind res_bind res_foldl Nat.add].
        destruct (ova_class_best vecs k (ov_max o) (λ i, score i k)) as (j & -> & Hbest).
        { intros j Hj. apply Hvecs; [done|lia]. }
        cbn [mbind res_bind].
        destruct (predicted_set pg (CatA name vs) rows f ret k (pack_u64 (N.of_nat j)) Hp) as (ret' & -> & Hp'); [lia|done|].
        cbn [mbind res_bind]. eexists ret', _. split; [done|]. split; [exact Hp'|].
        intros r Hr'. cbn beta. destruct (decide (r = k)) as [->|Hne].
        + exists j. by rewrite bool_decide_true.
        + rewrite bool_decide_false by done. apply Hr. lia. }
    destruct (H rows) as (ret & f & Hret & Hp & Hr); [lia|]. exists ret. split; [exact Hret|].
    split; [by destruct Hp as (_ & ? & _)|]. intros r Hlt. destruct (Hr r Hlt) as (j & Hbest & Hf).
    assert (j ≤ ov_max o) as Hj by apply Hbest.
    destruct (lookup_lt_is_Some_2 vs j) as [c Hc]; [lia|]. exists j, c. split; [done|]. split; [done|].
    intros ord Hord. unfold get_class. cbn [dense_grid gr_class_attrs gr_get_attribute gr_get].
    rewrite (predicted_class_attrs _ _ _ _ _ _ Hp Hord), (predicted_find _ _ _ _ _ Hp), (predicted_get _ _ _ _ _ r Hp Hlt).
    cbn [mbind res_bind]. rewrite Hf. cbn [cell_value default_kind attr_decode]. by apply cat_decode_ok.
  Qed.
End ova_predict.

(** ** The instances the models are trained on *)

Section relabel.
  Context (oo co : list attr → list attr) (on : grid) (name : string) (vals : list string) (i : nat).
  Context (Hoo : any_order oo) (Hco : any_order co).
  Context (Hd : distinct_attrs (gr_all_attrs on)) (Hown : finds_own on).
  Context (Hin : CatA name vals ∈ gr_all_attrs on).
  Context (Hclass : gr_class_attrs on = [CatA name vals]).
  Context (Hname : ∀ p, FloatA name p ∉ gr_all_attrs on).

  Local Definition cls := CatA name vals.
  Local Definition new := FloatA name 2.
  Local Definition newof (a : attr) : attr := if attr_equals a cls then new else a.
  Local Definition pairs := map (λ a, (a, newof a)) (oo (build_attr_set (gr_all_attrs on))).
  Local Definition lfi := new_lfiltered on (ova_filter pairs cls i).

  Lemma equal_same a b : a ∈ gr_all_attrs on → b ∈ gr_all_attrs on → attr_equals a b = true → a = b.
  Proof using Hd.
    intros Ha Hb He. apply elem_of_list_lookup in Ha as [x Hx]. apply elem_of_list_lookup in Hb as [y Hy].
    pose proof (Hd x y a b Hx Hy He) as ->. congruence.
  Qed.

  Lemma newof_class : newof cls = new.
  Proof. unfold newof. by rewrite AttrProofs.attr_equals_refl. Qed.
  Lemma newof_other a : a ∈ gr_all_attrs on → a ≠ cls → newof a = a.
  Proof using Hd Hin.
    intros Ha Hne. unfold newof. destruct (attr_equals a cls) eqn:E; [|done]. by destruct (Hne (equal_same a cls Ha Hin E)).
  Qed.

  Lemma pairs_in p : p ∈ pairs ↔ p.1 ∈ gr_all_attrs on ∧ p.2 = newof p.1.
  Proof using Hoo.
    unfold pairs. rewrite elem_of_list_fmap. split.
    - intros (a & -> & Ha). rewrite (Hoo _) in Ha. rewrite build_attr_set_elem in Ha. split; [exact Ha|reflexivity].
    - intros [H1 H2]. exists p.1. split; [destruct p; cbn in *; by subst|]. rewrite (Hoo _). by apply build_attr_set_elem.
  Qed.

  Lemma not_new a : a ∈ gr_all_attrs on → attr_equals a new = false.
  Proof using Hname.
    intros Ha. destruct (attr_equals a new) eqn:E; [|done]. destruct a as [n p|n vs|n]; try discriminate.
    cbn in E. apply bool_decide_eq_true in E as ->. by destruct (Hname p).
  Qed.

  Lemma src_lf : lf_src lfi = on ∧ lf_filter lfi = ova_filter pairs cls i.
  Proof using Hclass.
    unfold lfi, new_lfiltered. rewrite Hclass. cbn [foldl]. unfold lf_add_class.
    destruct (lf_unfiltered _ _); [done|]. by destruct (map snd _).
  Qed.

  Lemma unfiltered_old f k a : fl_attrs f = pairs → a ∈ gr_all_attrs on → lf_unfiltered (LF f on k) a = false.
  Proof using Hoo.
    intros Hf Ha. unfold lf_unfiltered. cbn [lf_filter lf_src]. rewrite Hf.
    destruct (existsb _ pairs) eqn:E; [done|]. exfalso.
    assert (existsb (λ p, bool_decide (p.1 = a)) pairs = true) as H; [|congruence].
    apply existsb_exists. exists (a, newof a). split; [|by apply bool_decide_eq_true].
    apply elem_of_list_In, pairs_in. done.
  Qed.
  Lemma unfiltered_new f k : fl_attrs f = pairs → lf_unfiltered (LF f on k) new = false.
  Proof using Hname.
    intros Hf. unfold lf_unfiltered. cbn [lf_filter lf_src]. destruct (existsb _ (fl_attrs f)); [done|].
    destruct (existsb _ (gr_all_attrs on)) eqn:E; [|done]. apply existsb_exists in E as (b & Hb & E).
    apply bool_decide_eq_true in E as ->. apply elem_of_list_In in Hb. by destruct (Hname 2).
  Qed.

  (** Exactly one pair belongs to an attribute. *)
  Lemma filter_one (P : attr * attr → Prop) `{∀ p, Decision (P p)} a :
    a ∈ gr_all_attrs on → (∀ p, p ∈ pairs → P p ↔ p.1 = a) → filter P pairs = [(a, newof a)].
  Proof using Hoo.
    intros Ha HP. assert (NoDup pairs) as Hnd.
    { unfold pairs. apply NoDup_fmap_2; [by intros ?? [= ->]|]. rewrite (Hoo _). apply build_attr_set_nodup. }
    assert (∀ p, p ∈ filter P pairs ↔ p = (a, newof a)) as Hf.
    { intros p. rewrite elem_of_list_filter. split.
      - intros [H1 H2]. apply HP in H1; [|done]. apply pairs_in in H2 as [_ H2]. destruct p; cbn in *; by subst.
      - intros ->. assert ((a, newof a) ∈ pairs) as Hp by by apply pairs_in. split; [|done]. by apply HP. }
    apply (NoDup_filter P) in Hnd. destruct (filter P pairs) as [|p [|q l]].
    - assert ((a, newof a) ∈ @nil (attr * attr)) as H' by by apply Hf. by apply elem_of_nil in H'.
    - f_equal. apply Hf. by left.
    - apply NoDup_cons in Hnd as [Hni _]. destruct Hni.
      assert (p = (a, newof a)) as -> by (apply Hf; by left). assert (q = (a, newof a)) as -> by (apply Hf; right; by left). by left.
  Qed.

  Lemma class_lf : lf_class lfi = [new].
  Proof using Hoo Hd Hin Hclass Hname.
    unfold lfi, new_lfiltered. rewrite Hclass. cbn [foldl]. unfold lf_add_class.
    rewrite (unfiltered_old (ova_filter pairs cls i) [] _ eq_refl Hin). cbn [lf_filter ova_filter fl_attrs].
    rewrite (filter_one (λ p, attr_equals p.1 (CatA name vals) || attr_equals p.2 (CatA name vals) = true) cls Hin).
    - cbn [map snd]. by rewrite newof_class.
    - intros p Hp. apply pairs_in in Hp as [H1 H2]. rewrite orb_true_iff, H2. split.
      + intros [H|H]; [by apply equal_same|]. unfold newof in H. destruct (attr_equals p.1 cls) eqn:E; [done|]. by apply equal_same.
      + intros ->. left. apply AttrProofs.attr_equals_refl.
  Qed.

  Lemma lfi_LF : lfi = LF (ova_filter pairs cls i) on (lf_class lfi).
  Proof using Hclass. destruct src_lf as [H1 H2]. destruct lfi as [f s k]. cbn in *. by subst. Qed.

  Lemma unf_old a : a ∈ gr_all_attrs on → lf_unfiltered lfi a = false.
  Proof using Hoo Hclass. rewrite lfi_LF. by apply unfiltered_old. Qed.
  Lemma unf_new : lf_unfiltered lfi new = false.
  Proof using Hname Hclass. rewrite lfi_LF. by apply unfiltered_new. Qed.

  Lemma find_new_some l t k : (∃ p, p ∈ l ∧ attr_equals p.2 t = true) → ∃ j, lf_find_new k l t = Some j.
  Proof.
    revert k. induction l as [|q l IH]; intros k (p & Hp & He); [by apply elem_of_nil in Hp|].
    cbn [lf_find_new]. destruct (attr_equals q.2 t) eqn:E; [by eexists|]. apply IH. exists p. split; [|done].
    apply elem_of_cons in Hp as [->|Hp]; [congruence|done].
  Qed.

  (** GetAttribute gives a spec for the attribute itself, whose values are the transformed
      ones of the old attribute. *)
  Lemma get_filtered a os : a ∈ gr_all_attrs on → gr_get_attribute on a = Ok os →
    ∃ s', lf_get_attribute lfi (newof a) = Ok s' ∧ sp_attr s' = newof a ∧ lf_old lfi s' = Ok os ∧
      ∀ r, lf_get lfi s' r = (b ← gr_get on os r; fl_transform (ova_filter pairs cls i) (sp_attr os) (newof a) b).
  Proof using Hoo Hd Hin Hclass Hname.
    intros Ha Hos. destruct src_lf as [Hsrc Hfil].
    assert (lf_unfiltered lfi (newof a) = false) as Hunf.
    { unfold newof. destruct (attr_equals a cls); [apply unf_new|by apply unf_old]. }
    assert ((a, newof a) ∈ fl_attrs (lf_filter lfi)) as Hpin by (rewrite Hfil; by apply pairs_in).
    assert (∀ o n, (o, n) ∈ fl_attrs (lf_filter lfi) → attr_equals o (newof a) = true ∨ attr_equals n (newof a) = true → o = a) as Hone.
    { rewrite Hfil. cbn [ova_filter fl_attrs]. intros o n Hp He. apply pairs_in in Hp as [Ho Hn]. cbn [fst snd] in *. subst n.
      destruct (decide (a = cls)) as [->|Hne].
      - rewrite newof_class in He. destruct He as [He|He]; [by rewrite not_new in He|].
        destruct (decide (o = cls)) as [->|Hno]; [done|]. rewrite newof_other in He by done. by rewrite not_new in He.
      - rewrite (newof_other a) in He by done. destruct He as [He|He]; [by apply equal_same|].
        destruct (decide (o = cls)) as [->|Hno].
        + rewrite newof_class in He. apply AttrProofs.attr_equals_sym in He. by rewrite not_new in He.
        + rewrite newof_other in He by done. by apply equal_same. }
    destruct (find_new_some (fl_attrs (lf_filter lfi)) (newof a) 0) as (j & Hj).
    { exists (a, newof a). split; [done|]. apply AttrProofs.attr_equals_refl. }
    exists (Spec 0 j (newof a)). split; [unfold lf_get_attribute; by rewrite Hunf, Hj|]. split; [done|]. split.
    - unfold lf_old. cbn [sp_attr]. rewrite Hunf. destruct (lf_match _ _) as [[o n]|] eqn:E.
      + apply lf_match_Some in E as [Hin' Heq]. cbn [fst snd] in *. apply orb_true_iff in Heq.
        rewrite (Hone o n Hin' Heq), Hsrc, Hos. done.
      + pose proof (lf_match_None _ _ E _ Hpin) as H. cbn [fst snd] in H. apply orb_false_iff in H as [_ H].
        by rewrite AttrProofs.attr_equals_refl in H.
    - intros r. rewrite (lf_get_filtered lfi a (newof a) (Spec 0 j (newof a)) os r Hpin Hunf Hone); [by rewrite Hsrc, Hfil|done|by rewrite Hsrc].
  Qed.

  Lemma ova_relabels : relabelled on (lf_grid co lfi) cls i.
  Proof using Hoo Hco Hd Hown Hin Hclass Hname.
    destruct src_lf as [Hsrc Hfil]. unfold relabelled. cbv zeta. cbn [lf_grid gr_class_attrs gr_all_attrs gr_size gr_get_attribute gr_get gr_iter].
    change (FloatA (attr_name cls) 2) with new.
    split_and!.
    - rewrite class_lf. by apply Permutation_singleton_r, Hco.
    - unfold lf_all_attrs. rewrite Hsrc, Hfil.
      assert (∀ l, l ⊆ gr_all_attrs on → concat (map (λ a, if lf_unfiltered lfi a then [a]
          else map snd (filter (λ p, attr_equals a p.1 = true) (fl_attrs (ova_filter pairs cls i)))) l) =
        map (λ a, if bool_decide (a = cls) then new else a) l) as H; [|by apply H].
      intros l. induction l as [|a l IH]; intros Hl; [done|]. cbn [map concat].
      assert (a ∈ gr_all_attrs on) as Ha by (apply Hl; by left).
      rewrite (unf_old a Ha), IH by (intros b Hb; apply Hl; by right). cbn [ova_filter fl_attrs].
      rewrite (filter_one (λ p, attr_equals a p.1 = true) a Ha).
      + cbn [map snd app]. f_equal. case_bool_decide as E; [by rewrite E, newof_class|by rewrite newof_other].
      + intros p Hp. apply pairs_in in Hp as [H1 _]. split.
        * intros He. symmetry. by apply equal_same.
        * intros ->. apply AttrProofs.attr_equals_refl.
    - unfold lf_size. by rewrite Hsrc.
    - intros a s Ha Hne Hs. destruct (get_filtered a s Ha Hs) as (s' & Hs' & Hat & _ & Hg).
      rewrite newof_other in * by done. exists s'. split; [done|]. intros r. rewrite Hg.
      destruct (Hown a Ha) as (s0 & Hs0 & Hsa). rewrite Hs in Hs0. injection Hs0 as <-.
      destruct (gr_get on s r) as [b| |]; [|done|done]. cbn [mbind res_bind ova_filter fl_transform]. rewrite Hsa.
      destruct (attr_equals a cls) eqn:E; [by destruct (Hne (equal_same a cls Ha Hin E))|done].
    - intros s Hs. destruct (get_filtered cls s Hin Hs) as (s' & Hs' & Hat & _ & Hg).
      rewrite newof_class in *. exists s'. split; [done|]. intros r code Hc Hlt. rewrite Hg, Hc. cbn [mbind res_bind ova_filter fl_transform].
      destruct (Hown cls Hin) as (s0 & Hs0 & Hsa). rewrite Hs in Hs0. injection Hs0 as <-. rewrite Hsa, AttrProofs.attr_equals_refl.
      cbn [negb]. rewrite unpack_pack_u64 by done. cbn [mbind res_bind].
      destruct (code =? N.of_nat i)%N eqn:E; [apply N.eqb_eq in E; by rewrite bool_decide_true|].
      apply N.eqb_neq in E. by rewrite bool_decide_false.
    - intros Hit attrs asv Hsub Hres.
      assert (∀ s, s ∈ asv → lf_readable lfi s ∧ lf_unfiltered lfi (sp_attr s) = false) as Hr.
      { intros s Hs. unfold resolve in Hres. apply res_mapM_Ok in Hres.
        apply elem_of_list_lookup in Hs as (k & Hk). destruct (Forall2_lookup_r _ _ _ _ _ Hres Hk) as (b & Hb & Hget).
        apply elem_of_list_lookup_2, Hsub in Hb. cbn [lf_grid gr_get_attribute gr_all_attrs] in *.
        unfold lf_all_attrs in Hb. rewrite Hsrc, Hfil in Hb. apply elem_of_list_In, in_concat in Hb as (x & Hx & Hb).
        apply in_map_iff in Hx as (a & <- & Ha). apply elem_of_list_In in Ha. rewrite (unf_old a Ha) in Hb.
        cbn [ova_filter fl_attrs] in Hb. rewrite (filter_one (λ p, attr_equals a p.1 = true) a Ha) in Hb.
        2:{ intros p Hp. apply pairs_in in Hp as [H1 _]. split; [intros He; symmetry; by apply equal_same|].
            intros ->. apply AttrProofs.attr_equals_refl. }
        cbn [map snd] in Hb. destruct Hb as [<-|[]]. destruct (Hown a Ha) as (os & Hos & _).
        destruct (get_filtered a os Ha Hos) as (s' & Hs' & Hat & Hold & _). rewrite Hs' in Hget. injection Hget as <-.
        split; [by exists os|]. rewrite Hat. unfold newof. destruct (attr_equals a cls); [apply unf_new|by apply unf_old]. }
      destruct (lf_iter_agrees lfi asv) as (rows & H1 & H2 & H3).
      + by rewrite Hsrc.
      + intros s Hs. by apply Hr.
      + intros s Hs Hu. destruct (Hr s Hs) as [_ Hf]. congruence.
      + by exists rows.
  Qed.
End relabel.

(** ** Fit *)

Lemma ova_max_find vals k x : NoDup vals → vals !! k = Some x → cat_find vals x = Some k.
Proof.
  intros Hnd Hx. destruct (cat_find vals x) as [j|] eqn:E.
  - apply cat_find_some in E. f_equal. rewrite NoDup_alt in Hnd. by eapply Hnd.
  - apply cat_find_none in E. destruct E. by eapply elem_of_list_lookup_2.
Qed.

Lemma ova_max_distinct vals : NoDup vals → ova_max vals = length vals - 1.
Proof.
  intros Hnd. unfold ova_max.
  assert (∀ k, k ≤ length vals → foldl (λ val s, let cur := default 0 (cat_find vals s) in if val <? cur then cur else val) 0
    (take k vals) = k - 1) as H.
  { induction k as [|k IH]; intros Hk; [done|].
    destruct (lookup_lt_is_Some_2 vals k) as [x Hx]; [lia|].
    rewrite (take_S_r _ _ _ Hx), foldl_app, IH by lia. cbn [foldl]. cbv zeta.
    rewrite (ova_max_find vals k x Hnd Hx). change (default 0 (Some k)) with k. destruct (k - 1 <? k) eqn:E; lia. }
  specialize (H (length vals) ltac:(lia)). rewrite firstn_all in H. exact H.
Qed.

Section ova_fitting.
  Context {C : Type} (make : string → C) (fit : C → grid → res C) (oo co : list attr → list attr).
  Context (on : grid) (name : string) (vals : list string).
  Context (Hoo : any_order oo) (Hco : any_order co).
  Context (Hd : distinct_attrs (gr_all_attrs on)) (Hown : finds_own on).
  Context (Hin : CatA name vals ∈ gr_all_attrs on).
  Context (Hclass : gr_class_attrs on = [CatA name vals]).
  Context (Hname : ∀ p, FloatA name p ∉ gr_all_attrs on).
  Context (Hnd : NoDup vals).

  Lemma ova_fit_spec o : ova_fit make fit oo co on = Ok o →
    ov_max o + 1 = length vals ∧ length (ov_filters o) = length vals ∧ length (ov_models o) = length vals ∧
    ∀ j v, vals !! j = Some v → ∃ c g, ov_models o !! j = Some c ∧ relabelled on g (CatA name vals) j ∧
      if (gr_size on).2 =? 0 then c = make v else fit_ignoring fit (make v) g = Ok c.
  Proof using Hoo Hco Hd Hown Hin Hclass Hname Hnd.
    unfold ova_fit, ova_attrs. rewrite Hclass. cbn [mbind res_bind]. rewrite ova_max_distinct by done.
    destruct (length vals - 1 =? 0) eqn:E; [done|]. apply Nat.eqb_neq in E. rewrite bind_Ok. intros (l & Hl & [= <-]).
    cbn [ov_max ov_filters ov_models]. apply res_mapM_Ok in Hl. pose proof (Forall2_length _ _ _ Hl) as Hlen.
    rewrite seq_length in Hlen. rewrite !map_length. split; [lia|]. split; [lia|]. split; [lia|].
    intros j v Hv. pose proof (lookup_lt_Some _ _ _ Hv) as Hj.
    destruct (lookup_lt_is_Some_2 l j) as [[f c] Hfc]; [lia|].
    assert (seq 0 (length vals - 1 + 1) !! j = Some j) as Hs by (rewrite lookup_seq_lt; [done|lia]).
    pose proof (Forall2_lookup_lr _ _ _ _ _ _ Hl Hs Hfc) as Hone. unfold ova_fit_one in Hone. unfold idx in Hone.
    rewrite Hv in Hone. cbn [mbind res_bind] in Hone. exists c. eexists. split; [by rewrite list_lookup_fmap, Hfc|].
    split; [apply (ova_relabels oo co on name vals j Hoo Hco Hd Hown Hin Hclass Hname)|].
    destruct (_ =? 0).
    - congruence.
    - apply bind_Ok in Hone as (c' & Hc & [= _ ->]). exact Hc.
  Qed.

  Lemma ova_fit_total : 2 ≤ length vals → (∀ c g, fit c g ≠ Panic) → ∃ o, ova_fit make fit oo co on = Ok o.
  Proof using Hclass Hnd. clear -Hclass Hnd.
    intros H2 Hfit. unfold ova_fit, ova_attrs. rewrite Hclass. cbn [mbind res_bind]. rewrite ova_max_distinct by done.
    destruct (length vals - 1 =? 0) eqn:E; [apply Nat.eqb_eq in E; lia|].
    match goal with |- ∃ o, (l ← res_mapM ?f ?s; _) = _ => assert (∀ l, (∀ j, j ∈ l → j < length vals) → ∃ r, res_mapM f l = Ok r) as H end.
    { induction l as [|j l IH]; intros Hl; [by eexists|]. destruct IH as (r & Hr); [intros k Hk; apply Hl; by right|].
      match goal with |- ∃ r, res_mapM ?f _ = _ => assert (∃ p, f j = Ok p) as (p & Hp) end.
      { unfold ova_fit_one, idx. destruct (lookup_lt_is_Some_2 vals j) as [v ->]; [apply Hl; by left|].
        cbn [mbind res_bind]. destruct ((gr_size on).2 =? 0); [by eexists|].
        unfold fit_ignoring. match goal with |- context [fit ?c ?g] => pose proof (Hfit c g); destruct (fit c g) end; [by eexists|by eexists|done]. }
      cbn [res_mapM]. rewrite Hp. cbn [mbind res_bind]. rewrite Hr. by eexists. }
    destruct (H (seq 0 (length vals - 1 + 1))) as (r & ->); [|by eexists].
    intros j Hj. apply elem_of_seq in Hj. lia.
  Qed.
End ova_fitting.

Lemma ova_fit_rejects {C} (make : string → C) fit oo co on :
  (∀ name vals, gr_class_attrs on = [CatA name vals] → NoDup vals → length vals ≤ 1) →
  (∀ name vals, gr_class_attrs on = [CatA name vals] → NoDup vals) →
  ova_fit make fit oo co on = Panic.
Proof.
  intros H Hn. unfold ova_fit, ova_attrs.
  destruct (gr_class_attrs on) as [|[|name vals|] [|]]; try done.
  cbn [mbind res_bind]. rewrite ova_max_distinct by (by eapply Hn). destruct (_ =? 0) eqn:E; [done|].
  apply Nat.eqb_neq in E. specialize (H name vals eq_refl (Hn _ _ eq_refl)). lia.
Qed.
