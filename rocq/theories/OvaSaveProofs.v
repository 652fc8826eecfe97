(** Proofs about saving and loading one-vs-all models. *)
From Coq Require Import Ascii.
From Verif Require Import Prelude BytesModel BytesProofs AttrModel AttrSpec AttrProofs StoreModel
  DenseModel DenseSpec DenseProofs GridModel GridSpec GridProofs CsvModel FilterModel PredModel SerModel SerSpec
  SerProofs TableProofs Id3Model NbModel BagModel BagOva SvcModel LibModel SaveModel SaveSpec SaveProofs SaveTrees
  SaveOthers SaveBag SaveFiles SaveCodec OvaSaveModel OvaSaveSpec.
From Flocq Require Import IEEE754.Bits IEEE754.Binary.
From stdpp Require Import pretty.
Local Open Scope nat_scope.

(** ** Numbered directories *)

Definition dir (name : string) (i : nat) : string := tar_prefix name (pretty i).

Lemma dir_nonempty name i : name ≠ "" → dir name i ≠ "".
Proof.
  intros H. unfold dir, tar_prefix. rewrite bool_decide_eq_false_2 by done. by destruct name.
Qed.

Lemma dir_name name i x : name ≠ "" → tar_prefix (dir name i) x = name +:+ "/" +:+ pretty i +:+ "/" +:+ x.
Proof.
  intros H. unfold tar_prefix at 1. rewrite bool_decide_eq_false_2 by (by apply dir_nonempty).
  unfold dir, tar_prefix. rewrite bool_decide_eq_false_2 by done. by rewrite !append_assoc'.
Qed.

Fixpoint dir_entries (name : string) (i : nat) (ess : list archive) : archive :=
  match ess with [] => [] | es :: ess => under (dir name i) es ++ dir_entries name (S i) ess end.

Lemma dir_entries_names name ess : ∀ i k,
  k ∈ map fst (dir_entries name i ess) →
  ∃ j x, i ≤ j < i + length ess ∧ k = tar_prefix (dir name j) x.
Proof.
  induction ess as [|es ess IH]; intros i k; cbn [dir_entries]; [by intros ?%elem_of_nil|].
  rewrite map_app, elem_of_app. intros [H|H].
  - rewrite under_names in H. apply elem_of_list_fmap in H as (x & -> & _).
    exists i, x. split; [cbn; lia|done].
  - apply IH in H as (j & x & Hj & ->). exists j, x. split; [cbn; lia|done].
Qed.

Lemma dir_entries_NoDup name ess : name ≠ "" → ∀ i,
  Forall (λ es : archive, NoDup (map fst es)) ess → NoDup (map fst (dir_entries name i ess)).
Proof.
  intros Hname. induction ess as [|es ess IH]; intros i H; [constructor|]. apply Forall_cons in H as [He H].
  cbn [dir_entries]. rewrite map_app. apply NoDup_app. split; [by apply under_NoDup|].
  split; [|by apply IH].
  intros k Hk Hk'. rewrite under_names in Hk. apply elem_of_list_fmap in Hk as (x & -> & _).
  apply dir_entries_names in Hk' as (j & y & Hj & E). rewrite !dir_name in E by done.
  apply (inj (String.append name)), (inj (String.append "/")), pretty_before_slash in E. lia.
Qed.

Lemma dir_holds name ar p ess : ∀ i j es,
  name ≠ "" → holds ar (under p (dir_entries name i ess)) → ess !! j = Some es →
  holds ar (under (tar_prefix p (dir name (i + j))) es).
Proof.
  induction ess as [|e ess IH]; intros i j es Hn H Hj; [done|].
  cbn [dir_entries] in H. rewrite under_app in H. apply holds_app in H as [H1 H2].
  destruct j as [|j].
  - injection Hj as ->. rewrite Nat.add_0_r. by rewrite under_under in H1 by (by apply dir_nonempty).
  - replace (i + S j) with (S i + j) by lia. by apply IH.
Qed.

(** The lists with numbers. *)
Definition enum {A} (k : nat) (l : list A) : list (nat * A) := imap (λ j a, (k + j, a)) l.

Lemma enum_cons {A} k (a : A) l : enum k (a :: l) = (k, a) :: enum (S k) l.
Proof.
  unfold enum. rewrite imap_cons. f_equal; [by rewrite Nat.add_0_r|].
  apply imap_ext. intros i x _. unfold compose. by rewrite Nat.add_succ_r.
Qed.

Lemma enum_pair {A} (l : list A) : imap pair l = enum 0 l.
Proof. by apply imap_ext. Qed.

Lemma dir_appends {A} name p (f : ser → nat → A → res ser) (l : list A) (ess : list archive) : ∀ k,
  name ≠ "" → length l = length ess →
  (∀ j a es, l !! j = Some a → ess !! j = Some es →
     appends (λ s, f s (k + j) a) (under (tar_prefix p (dir name (k + j))) es)) →
  appends (λ s, res_foldl (λ s ja, f s ja.1 ja.2) s (enum k l)) (under p (dir_entries name k ess)).
Proof.
  revert ess. induction l as [|a l IH]; intros ess k Hn Hl H; destruct ess as [|es ess]; try done.
  - apply appends_ret.
  - cbn [dir_entries]. rewrite under_app, under_under by (by apply dir_nonempty).
    assert (appends (λ s, s' ← f s k a; res_foldl (λ s ja, f s ja.1 ja.2) s' (enum (S k) l))
      (under (tar_prefix p (dir name k)) es ++ under p (dir_entries name (S k) ess))) as G.
    { apply appends_bind.
      - specialize (H 0 a es eq_refl eq_refl). by rewrite Nat.add_0_r in H.
      - apply IH; [done|by injection Hl|]. intros j b es' Hb Hes. specialize (H (S j) b es' Hb Hes).
        by rewrite Nat.add_succ_r in H. }
    intros s ar Hs. destruct (G s ar Hs) as (s' & E & Ho). exists s'. split; [|done].
    rewrite enum_cons. exact E.
Qed.

Lemma pretty_digit (i : nat) x : ∃ c s, pretty i +:+ x = String c s ∧ (48 <= N_of_ascii c <= 57)%N.
Proof.
  pose proof (read_digits_pretty (N.of_nat i)) as H. change (pretty (N.of_nat i)) with (pretty i) in H.
  pose proof (pretty_nonempty (N.of_nat i)) as Hn. change (pretty (N.of_nat i)) with (pretty i) in Hn.
  destruct (pretty i) as [|c s]; [done|]. exists c, (s +:+ x). split; [done|].
  cbn [read_digits] in H. destruct (_ && _) eqn:E; [|done].
  apply andb_true_iff in E as [E1%N.leb_le E2%N.leb_le]. lia.
Qed.

Lemma pretty_dir (i : nat) x : tar_prefix (pretty i) x = pretty i +:+ "/" +:+ x.
Proof.
  unfold tar_prefix. rewrite bool_decide_eq_false_2; [by rewrite ?append_assoc'|].
  apply (pretty_nonempty (N.of_nat i)).
Qed.

(** ** Filters *)

Section filters.
  Variable marshal : json → list N.
  Variable unmarshal : list N → option json.
  Hypothesis faithful : json_faithful marshal unmarshal.
  Variable is_nil : attr → bool.
  Variable mo : nat → list (attr * attr) → list (attr * attr).
  Hypothesis mo_ok : ∀ i, any_order (mo i).

  Notation written a := (serialize_attribute marshal (a, is_nil a)).

  Fixpoint tuple_entries (j : nat) (l : list (attr * attr)) : archive :=
    match l with
    | [] => []
    | kv :: l =>
        ([(tar_prefix (pretty j) "KEY", written kv.1)] ++ [(tar_prefix (pretty j) "VAL", written kv.2)]) ++
        tuple_entries (S j) l
    end.

  Definition filter_entries (i : nat) (f : ofilter) : archive :=
    [("COUNT", pack_u64 (N.of_nat (size (of_attrs f))))] ++
    tuple_entries 0 (mo i (map_to_list (of_attrs f))) ++
    [("CLASS_ATTR", written (of_class f))] ++
    [("CLASS_VAL", pack_u64 (of_val f))].

  Lemma tuples_append mp l : ∀ k,
    mp ≠ "" →
    appends (λ s, res_foldl (tuple_save marshal is_nil mp) s (enum k l)) (under mp (tuple_entries k l)).
  Proof using.
    induction l as [|kv l IH]; intros k Hm; [apply appends_ret|].
    cbn [tuple_entries]. rewrite under_app.
    assert (appends (λ s, s' ← tuple_save marshal is_nil mp s (k, kv);
        res_foldl (tuple_save marshal is_nil mp) s' (enum (S k) l))
      (under mp ([(tar_prefix (pretty k) "KEY", written kv.1)] ++ [(tar_prefix (pretty k) "VAL", written kv.2)]) ++
       under mp (tuple_entries (S k) l))) as G.
    { apply appends_bind; [|by apply IH]. rewrite under_app. unfold tuple_save. cbn [fst snd].
      assert (∀ x, tar_prefix (tar_prefix mp (pretty k)) x = tar_prefix mp (tar_prefix (pretty k) x)) as Ep.
      { intros x. apply prefix_prefix. apply (pretty_nonempty (N.of_nat k)). }
      rewrite !Ep. apply appends_bind; apply put_attr_appends. }
    intros s ar Hs. destruct (G s ar Hs) as (s' & E & Ho). exists s'. split; [|done].
    rewrite enum_cons. exact E.
  Qed.

  Lemma filter_appends p i f :
    appends (λ s, filter_save marshal is_nil mo p s i f) (under (tar_prefix p (dir "FILTER" i)) (filter_entries i f)).
  Proof using.
    unfold filter_entries, filter_save, numbered. fold (dir "FILTER" i). rewrite !under_app.
    apply appends_bind; [apply put_u64_appends|].
    apply appends_bind.
    { rewrite enum_pair. apply tuples_append. unfold tar_prefix.
      destruct (bool_decide (p = "")); [by apply dir_nonempty|]. by destruct p. }
    apply appends_bind; [apply put_attr_appends|apply put_u64_appends].
  Qed.

  Lemma tuple_names l : ∀ k x, x ∈ map fst (tuple_entries k l) →
    ∃ j y, k ≤ j ∧ x = pretty j +:+ "/" +:+ y.
  Proof using.
    clear mo_ok mo.
    induction l as [|kv l IH]; intros k x; cbn [tuple_entries app map fst]; [by intros ?%elem_of_nil|].
    rewrite !elem_of_cons. intros [->|[->|H]].
    - exists k, "KEY". by rewrite pretty_dir.
    - exists k, "VAL". by rewrite pretty_dir.
    - apply IH in H as (j & y & Hj & ->). exists j, y. split; [lia|done].
  Qed.

  Lemma tuple_NoDup l : ∀ k, NoDup (map fst (tuple_entries k l)).
  Proof using.
    clear mo_ok mo.
    induction l as [|kv l IH]; intros k; [constructor|]. cbn [tuple_entries app map fst].
    apply NoDup_cons. split.
    - rewrite elem_of_cons. intros [E|H].
      + apply tar_prefix_inj in E. discriminate E.
      + apply tuple_names in H as (j & y & Hj & E). rewrite pretty_dir in E. apply pretty_before_slash in E. lia.
    - apply NoDup_cons. split; [|apply IH].
      intros H. apply tuple_names in H as (j & y & Hj & E). rewrite pretty_dir in E. apply pretty_before_slash in E. lia.
  Qed.

  Lemma tuple_not k l x : (∀ c s, x = String c s → ¬ (48 <= N_of_ascii c <= 57)%N) →
    x ∉ map fst (tuple_entries k l).
  Proof using.
    intros Hx H. apply tuple_names in H as (j & y & _ & ->).
    destruct (pretty_digit j ("/" +:+ y)) as (c & s & E & Hc). by apply (Hx c s).
  Qed.

  Lemma filter_NoDup i f : NoDup (map fst (filter_entries i f)).
  Proof using.
    unfold filter_entries. rewrite !map_app. cbn [map fst app].
    apply NoDup_cons. split.
    { rewrite elem_of_app. intros [H|H].
      - revert H. apply tuple_not. intros c s [= <- _]. vm_compute. by intros [_ []].
      - apply elem_of_cons in H as [H|H]; [discriminate H|].
        apply elem_of_cons in H as [H|H]; [discriminate H|]. by apply elem_of_nil in H. }
    apply NoDup_app. split; [apply tuple_NoDup|]. split.
    - intros x Hx H. revert Hx.
      apply elem_of_cons in H as [->|H]; [apply tuple_not; intros c s [= <- _]; vm_compute; by intros [_ []]|].
      apply elem_of_cons in H as [->|H]; [apply tuple_not; intros c s [= <- _]; vm_compute; by intros [_ []]|].
      by apply elem_of_nil in H.
    - apply (bool_decide_unpack _). vm_compute. done.
  Qed.

  (** Reading. *)
  Lemma foldl_insert (l : list (attr * attr)) : ∀ acc : gmap attr attr,
    NoDup l.*1 → (∀ k, k ∈ l.*1 → acc !! k = None) →
    foldl (λ m kv, <[kv.1 := kv.2]> m) acc l = list_to_map l ∪ acc.
  Proof using.
    induction l as [|[k v] l IH]; intros acc Hn Hacc; cbn [foldl]; [symmetry; apply (left_id_L ∅ (∪))|].
    apply NoDup_cons in Hn as [Hk Hn]. rewrite IH; [|done|].
    - cbn [fst snd]. rewrite list_to_map_cons, <- insert_union_l.
      rewrite insert_union_r; [done|]. by apply not_elem_of_list_to_map.
    - intros k' Hk'. cbn [fst snd]. rewrite lookup_insert_ne by (intros ->; done). apply Hacc. by right.
  Qed.

  Lemma foldl_map_to_list i (m : gmap attr attr) :
    foldl (λ m kv, <[kv.1 := kv.2]> m) ∅ (mo i (map_to_list m)) = m.
  Proof using mo_ok.
    assert (NoDup (mo i (map_to_list m)).*1) as Hn.
    { rewrite (mo_ok i (map_to_list m)). apply NoDup_fst_map_to_list. }
    rewrite foldl_insert by (done || (intros; apply lookup_empty)).
    rewrite (right_id_L ∅ (∪)). rewrite (list_to_map_proper _ (map_to_list m)); [apply list_to_map_to_list|done|].
    apply mo_ok.
  Qed.

  Lemma tuples_read ar mp all l : ∀ k acc,
    mp ≠ "" → distinct_attrs all →
    (∀ kv, kv ∈ l → kv.1 ∈ all ∧ attr_saves is_nil kv.1 ∧ attr_saves is_nil kv.2) →
    holds ar (under mp (tuple_entries k l)) →
    res_foldl (λ m j, kv ← tuple_load unmarshal ar mp all j; Ok (<[kv.1 := kv.2]> m)) acc (seq k (length l)) =
      Ok (foldl (λ (m : gmap attr attr) kv, <[kv.1 := kv.2]> m) acc l).
  Proof using faithful.
    induction l as [|kv l IH]; intros k acc Hm Hd Hl Hh; [done|].
    cbn [tuple_entries] in Hh. rewrite !under_app in Hh. apply holds_app in Hh as [Hh H2].
    apply holds_app in Hh as [H0 H1].
    apply holds_cons in H0 as [H0 _]. apply holds_cons in H1 as [H1 _]. cbn [fst snd] in H0, H1.
    destruct (Hl kv) as (Hall & [Hk1 Hk2] & [Hv1 Hv2]); [left|].
    cbn [length seq res_foldl foldl].
    assert (tuple_load unmarshal ar mp all k = Ok kv) as ->.
    { unfold tuple_load, get_attribute_for.
      assert (∀ x, tar_prefix (tar_prefix mp (pretty k)) x = tar_prefix mp (tar_prefix (pretty k) x)) as Ep.
      { intros x. apply prefix_prefix. apply (pretty_nonempty (N.of_nat k)). }
      rewrite !Ep, H0, H1. cbn [mbind res_bind]. rewrite !(attribute_round_trip _ _ faithful) by done.
      cbn [mbind res_bind fst]. rewrite replace_attr_same by done. cbn [mbind res_bind]. by destruct kv. }
    cbn [mbind res_bind]. apply IH; [done|done| |done]. intros x Hx. apply Hl. by right.
  Qed.

  Definition filter_ok (all : list attr) (f : ofilter) : Prop :=
    (∀ k v, of_attrs f !! k = Some v → k ∈ all ∧ attr_saves is_nil k ∧ attr_saves is_nil v) ∧
    of_class f ∈ all ∧ attr_saves is_nil (of_class f) ∧ (of_val f < 2^64)%N ∧
    (N.of_nat (size (of_attrs f)) < 2^64)%N.

  Lemma filter_reads ar p all i f :
    distinct_attrs all → filter_ok all f →
    holds ar (under (tar_prefix p (dir "FILTER" i)) (filter_entries i f)) →
    filter_load unmarshal ar p all i = Ok f.
  Proof using faithful mo_ok.
    intros Hd (Ha & Hc & [Hc1 Hc2] & Hv & Hs) H. unfold filter_entries in H. rewrite !under_app in H.
    apply holds_app in H as [H0 H]. apply holds_app in H as [H1 H]. apply holds_app in H as [H2 H3].
    apply holds_cons in H0 as [H0 _]. apply holds_cons in H2 as [H2 _]. apply holds_cons in H3 as [H3 _].
    cbn [fst snd] in H0, H2, H3. unfold filter_load. cbn zeta.
    change (numbered p "FILTER" i) with (tar_prefix p (dir "FILTER" i)).
    unfold get_u64. rewrite H0. cbn [mbind res_bind]. rewrite unpack_pack_u64 by done. cbn [mbind res_bind].
    rewrite Nat2N.id.
    assert (size (of_attrs f) = length (mo i (map_to_list (of_attrs f)))) as ->.
    { rewrite (Permutation_length (mo_ok i (map_to_list (of_attrs f)))). reflexivity. }
    assert (tar_prefix p (dir "FILTER" i) ≠ "") as Hne.
    { unfold tar_prefix. destruct (bool_decide (p = "")); [by apply dir_nonempty|]. by destruct p. }
    rewrite tuples_read; [|done|done| |done].
    2:{ intros kv Hkv. rewrite (mo_ok i (map_to_list (of_attrs f))) in Hkv. destruct kv as [k v].
        apply elem_of_map_to_list in Hkv. by apply Ha. }
    cbn [mbind res_bind]. rewrite foldl_map_to_list. unfold get_attribute_for. rewrite H2. cbn [mbind res_bind].
    rewrite (attribute_round_trip _ _ faithful) by done. cbn [mbind res_bind fst].
    rewrite replace_attr_same by done. cbn [mbind res_bind]. rewrite H3. cbn [mbind res_bind].
    rewrite unpack_pack_u64 by done. cbn [mbind res_bind]. by destruct f.
  Qed.
End filters.

(** ** The whole model *)

Lemma names_strings l : json_string_list (JArr (map JStr l)) = Ok l.
Proof.
  cbn [json_string_list]. apply res_mapM_Ok, Forall2_fmap_l, Forall_Forall2_diag, Forall_forall. done.
Qed.

Section ova.
  Variable marshal : json → list N.
  Variable unmarshal : list N → option json.
  Hypothesis faithful : json_faithful marshal unmarshal.
  Variable is_nil : attr → bool.
  Variable attr_order : list attr → list attr.
  Hypothesis order_ok : any_order attr_order.
  Variable got : nat → nat → nat.
  Hypothesis full : full_reads got.
  Variable pg : nat.
  Context {C : Type}.
  Variable make : string → C.
  Variable fit : C → grid → res C.
  Variable oo co : list attr → list attr.
  Hypothesis oo_ok : any_order oo.
  Variable class_iter : list ((nat * nat) * bool) → list ((nat * nat) * bool).
  Hypothesis class_ok : any_order class_iter.
  Variable mo : nat → list (attr * attr) → list (attr * attr).
  Hypothesis mo_ok : ∀ i, any_order (mo i).
  Variable save : C → ser → string → res ser.
  Variable load : string → archive → string → res C.
  Variable R : C → C → Prop.

  Notation instance_entries := (instance_entries marshal is_nil attr_order).
  Notation filter_entries := (filter_entries marshal is_nil mo).
  Notation ova_save := (ova_save marshal is_nil attr_order mo save).
  Notation ova_load := (ova_load unmarshal got pg make fit oo co class_iter load).

  Definition ova_entries (m : ova_model C) (on : grid) (cell : attr → nat → list N)
      (ess : list archive) : archive :=
    instance_entries on cell "INSTANCE_STRUCTURE" ++
    [("CLASS_VALUES", marshal (JArr (map JStr (om_values m))))] ++
    [("FILTER_COUNT", pack_u64 (N.of_nat (length (om_filters m))))] ++
    dir_entries "FILTER" 0 (imap filter_entries (om_filters m)) ++
    dir_entries "CLASSIFIERS" 0 ess.

  (** Member [j] can be saved and loaded. *)
  Definition members_stored (m : ova_model C) (ess : list archive) : Prop :=
    length (om_models m) = length ess ∧ length (om_values m) = length ess ∧
    ∀ j c v es, om_models m !! j = Some c → om_values m !! j = Some v → ess !! j = Some es →
      stored (save c) (load v) es (R c).

  Lemma ova_saved m on cell ess p s ar :
    table is_nil on cell → (gr_size on).2 = 0 → members_stored m ess → opened s ar →
    ova_save m on s p = Ok (Ser (TarW (ar ++ under p (ova_entries m on cell ess)) None) true).
  Proof using order_ok.
    intros T Hn (Hl1 & Hl2 & Hm) Ho.
    assert (appends (λ s,
        s ← put_instances marshal is_nil attr_order (tar_prefix p "INSTANCE_STRUCTURE") on false s;
        s ← put_json marshal (tar_prefix p "CLASS_VALUES") (JArr (map JStr (om_values m))) s;
        s ← put_u64 (tar_prefix p "FILTER_COUNT") (N.of_nat (length (om_filters m))) s;
        s ← res_foldl (λ s jf, filter_save marshal is_nil mo p s jf.1 jf.2) s (imap pair (om_filters m));
        res_foldl (λ s jc, save jc.2 s (numbered p "CLASSIFIERS" jc.1)) s (imap pair (om_models m)))
      (under p (ova_entries m on cell ess))) as H.
    { unfold ova_entries. rewrite !under_app. rewrite (under_instances marshal is_nil attr_order).
      apply appends_bind; [by apply put_structure_appends|].
      apply appends_bind; [apply put_bytes_appends|].
      apply appends_bind; [apply put_u64_appends|].
      apply appends_bind.
      - rewrite enum_pair. apply (dir_appends "FILTER" p (filter_save marshal is_nil mo p)); [done|by rewrite imap_length|].
        intros j f es Hf Hes. rewrite list_lookup_imap, Hf in Hes. injection Hes as <-. apply filter_appends.
      - rewrite enum_pair.
        apply (dir_appends "CLASSIFIERS" p (λ s i c, save c s (numbered p "CLASSIFIERS" i))); [done|done|].
        intros j c es Hc Hes.
        destruct (lookup_lt_is_Some_2 (om_values m) j) as [v Hv]; [rewrite Hl2; by eapply lookup_lt_Some|].
        apply (so_writes _ _ _ _ (Hm j c v es Hc Hv Hes)). }
    destruct (H s ar Ho) as (s' & E & Ho').
    unfold OvaSaveModel.ova_save.
    repeat match type of E with
    | (mbind (M:=res) _ ?x) = Ok _ => destruct x as [?| |]; cbn [mbind res_bind] in E |- *; [|discriminate E|discriminate E]
    end.
    rewrite E. cbn [mbind res_bind]. by rewrite (close_opened _ _ Ho').
  Qed.

  Lemma ova_names m on cell ess k :
    k ∈ map fst (ova_entries m on cell ess) →
    k ∈ wkeys (WInstances "INSTANCE_STRUCTURE" on) ∨ k = "CLASS_VALUES" ∨ k = "FILTER_COUNT" ∨
    (∃ (j : nat) x, k = "FILTER/" +:+ pretty j +:+ "/" +:+ x) ∨
    (∃ (j : nat) x, k = "CLASSIFIERS/" +:+ pretty j +:+ "/" +:+ x).
  Proof using.
    unfold ova_entries. rewrite !map_app, !elem_of_app. intros [H|[H|[H|[H|H]]]].
    - by left.
    - right. left. by apply elem_of_singleton_names in H.
    - right. right. left. by apply elem_of_singleton_names in H.
    - right. right. right. left. apply dir_entries_names in H as (j & x & _ & ->). exists j, x.
      by rewrite dir_name.
    - right. right. right. right. apply dir_entries_names in H as (j & x & _ & ->). exists j, x.
      by rewrite dir_name.
  Qed.

  Lemma ova_NoDup m on cell ess :
    members_stored m ess → NoDup (map fst (ova_entries m on cell ess)).
  Proof using.
    intros (Hl1 & Hl2 & Hm). unfold ova_entries. rewrite !map_app.
    assert (∀ k, k ∈ map fst (dir_entries "FILTER" 0 (imap filter_entries (om_filters m))) →
      ∃ (j : nat) x, k = "FILTER/" +:+ pretty j +:+ "/" +:+ x) as HF.
    { intros k H. apply dir_entries_names in H as (j & x & _ & ->). exists j, x. by rewrite dir_name. }
    assert (∀ k, k ∈ map fst (dir_entries "CLASSIFIERS" 0 ess) →
      ∃ (j : nat) x, k = "CLASSIFIERS/" +:+ pretty j +:+ "/" +:+ x) as HC.
    { intros k H. apply dir_entries_names in H as (j & x & _ & ->). exists j, x. by rewrite dir_name. }
    apply NoDup_app. split; [apply (wkeys_instances_NoDup "INSTANCE_STRUCTURE" on)|]. split.
    { intros k Hk. cbn [map fst SerProofs.instance_entries head_entries app] in Hk.
      assert (∃ x, k = "INSTANCE_STRUCTURE" +:+ x) as [x ->].
      { repeat (apply elem_of_cons in Hk as [->|Hk]; [by eexists|]). by apply elem_of_nil in Hk. }
      rewrite !elem_of_app. intros [H|[H|[H|H]]].
      - by apply elem_of_singleton_names in H.
      - by apply elem_of_singleton_names in H.
      - by apply HF in H as (j & y & E).
      - by apply HC in H as (j & y & E). }
    apply NoDup_app. split; [apply NoDup_singleton|]. split.
    { intros k ->%elem_of_singleton_names. rewrite !elem_of_app. intros [H|[H|H]].
      - by apply elem_of_singleton_names in H.
      - by apply HF in H as (j & y & E).
      - by apply HC in H as (j & y & E). }
    apply NoDup_app. split; [apply NoDup_singleton|]. split.
    { intros k ->%elem_of_singleton_names. rewrite !elem_of_app. intros [H|H].
      - by apply HF in H as (j & y & E).
      - by apply HC in H as (j & y & E). }
    apply NoDup_app. split.
    { apply dir_entries_NoDup; [done|]. apply Forall_forall. intros es Hes.
      apply elem_of_list_lookup in Hes as [i Hi]. rewrite list_lookup_imap in Hi.
      destruct (om_filters m !! i); [|done]. injection Hi as <-. apply filter_NoDup. }
    split.
    { intros k H1 H2. apply HF in H1 as (j & y & ->). by apply HC in H2 as (j' & y' & E). }
    apply dir_entries_NoDup; [done|]. apply Forall_forall. intros es Hes.
    apply elem_of_list_lookup in Hes as [i Hi]. pose proof (lookup_lt_Some _ _ _ Hi) as Hlt.
    destruct (lookup_lt_is_Some_2 (om_values m) i) as [v Hv]; [by rewrite Hl2|].
    destruct (lookup_lt_is_Some_2 (om_models m) i) as [c Hc]; [by rewrite Hl1|].
    apply (so_names _ _ _ _ (Hm i c v es Hc Hv Hi)).
  Qed.

  (** What the structure alone gives. *)
  Lemma ova_fit_structure on name vals :
    gr_class_attrs on = [CatA name vals] → (gr_size on).2 = 0 →
    NoDup vals → 2 ≤ length vals →
    ∃ o, ova_fit make fit oo co on = Ok o ∧ ov_max o = ova_max vals.
  Proof using.
    clear -make fit oo co.
    intros Hc Hr Hn H2. unfold ova_fit, ova_attrs. rewrite Hc. cbn [mbind res_bind].
    rewrite ova_max_distinct by done.
    destruct (length vals - 1 =? 0) eqn:E; [apply Nat.eqb_eq in E; lia|].
    assert (∀ l, (∀ j, j ∈ l → j < length vals) → ∃ r, res_mapM
      (ova_fit_one make fit co (map (λ a, (a, if attr_equals a (CatA name vals) then new_float (attr_name (CatA name vals)) else a))
         (oo (build_attr_set (gr_all_attrs on)))) (CatA name vals) vals on) l = Ok r) as H.
    { induction l as [|j l IH]; intros Hl; [by eexists|]. destruct IH as (r & Er); [intros k Hk; apply Hl; by right|].
      match goal with |- ∃ r, res_mapM ?f _ = _ => assert (∃ p, f j = Ok p) as (p & Hp) end.
      { unfold ova_fit_one, idx. destruct (lookup_lt_is_Some_2 vals j) as [v ->]; [apply Hl; by left|].
        cbn [mbind res_bind]. rewrite Hr. by eexists. }
      cbn [res_mapM]. rewrite Hp. cbn [mbind res_bind]. rewrite Er. by eexists. }
    destruct (H (seq 0 (length vals - 1 + 1))) as (r & ->); [|by eexists].
    intros j Hj. apply elem_of_seq in Hj. lia.
  Qed.

  Lemma ova_reads m on cell ess p ar name vals :
    table is_nil on cell → (gr_size on).2 = 0 → gr_class_attrs on = [CatA name vals] → NoDup vals →
    2 ≤ length vals → om_values m = vals → om_max m = ova_max vals →
    Forall (filter_ok is_nil (gr_all_attrs on)) (om_filters m) →
    (N.of_nat (length (om_filters m)) < 2^64)%N →
    members_stored m ess →
    holds ar (under p (ova_entries m on cell ess)) →
    ∃ m' d, ova_load ar p = Ok (m', d) ∧ om_filters m' = om_filters m ∧ om_max m' = om_max m ∧
      om_values m' = om_values m ∧ Forall2 R (om_models m) (om_models m') ∧ same_table on cell d.
  Proof using faithful order_ok full class_ok mo_ok.
    intros T Hrows Hcls Hnd H2 Hvals Hmax Hf Hlen (Hl1 & Hl2 & Hm) H.
    unfold ova_entries in H. rewrite !under_app in H. rewrite (under_instances marshal is_nil attr_order) in H.
    apply holds_app in H as [H0 H]. apply holds_app in H as [H1 H]. apply holds_app in H as [H3 H].
    apply holds_app in H as [H4 H5]. apply holds_cons in H1 as [H1 _]. apply holds_cons in H3 as [H3 _].
    cbn [fst snd] in H1, H3.
    destruct (get_instances_ok marshal unmarshal faithful is_nil attr_order order_ok got full pg ar _ on cell T H0)
      as (d & Ed & Hd).
    set (g := dense_grid (class_iter (map_to_list (d_class d))) d).
    assert (gr_class_attrs g = [CatA name vals]) as Hg.
    { assert (class_attrs_in_order d (class_iter (map_to_list (d_class d))) ≡ₚ gr_class_attrs on) as Hp.
      { apply (st_class _ _ _ Hd). apply class_ok. }
      rewrite Hcls in Hp. apply Permutation_singleton_r in Hp. exact Hp. }
    assert ((gr_size g).2 = 0) as Hgr by (rewrite <- Hrows; apply (st_rows _ _ _ Hd)).
    destruct (ova_fit_structure g name vals Hg Hgr Hnd H2) as (o & Eo & Ho).
    assert (distinct_attrs (dense_all_attrs d)) as Hdd.
    { eapply distinct_perm; [symmetry; apply (st_attrs _ _ _ Hd)|]. apply (tb_attrs _ _ _ T). }
    unfold OvaSaveModel.ova_load. rewrite Ed. cbn [mbind res_bind]. fold g. rewrite Eo. cbn [mbind res_bind].
    unfold get_u64. rewrite H3. cbn [mbind res_bind]. rewrite unpack_pack_u64 by done. cbn [mbind res_bind].
    rewrite Nat2N.id.
    assert (res_mapM (filter_load unmarshal ar p (dense_all_attrs d)) (seq 0 (length (om_filters m))) =
      Ok (om_filters m)) as ->.
    { apply res_mapM_Ok. apply Forall2_same_length_lookup_2; [by rewrite seq_length|].
      intros i j f Hj Hfi. apply lookup_seq in Hj as [-> _]. rewrite Nat.add_0_l.
      apply (filter_reads marshal unmarshal faithful is_nil mo mo_ok); [done| |].
      - rewrite Forall_forall in Hf. destruct (Hf f) as (Ha & Hc & Hr).
        { by eapply elem_of_list_lookup_2. }
        split; [|split; [|done]].
        + intros k v Hk. destruct (Ha k v Hk) as (Hin & Hrest). split; [|done].
          by rewrite (st_attrs _ _ _ Hd).
        + by rewrite (st_attrs _ _ _ Hd).
      - apply (dir_holds "FILTER" ar p _ 0 i _ ltac:(done) H4). by rewrite list_lookup_imap, Hfi. }
    cbn [mbind res_bind]. unfold get_json, parse_json. rewrite H1. cbn [mbind res_bind].
    rewrite faithful.
    2:{ constructor. apply Forall_forall. intros x Hx. apply elem_of_list_fmap in Hx as (v & -> & Hv).
        constructor. destruct (tb_text _ _ _ T (CatA name vals)) as [[_ Ht] _].
        { apply (tb_class _ _ _ T). rewrite Hcls. left. }
        rewrite Forall_forall in Ht. apply Ht. by rewrite <- Hvals. }
    cbn [mbind res_bind]. rewrite names_strings. cbn [mbind res_bind].
    assert (∃ ms, res_mapM (λ iv, load iv.2 ar (numbered p "CLASSIFIERS" iv.1)) (imap pair (om_values m)) = Ok ms ∧
      Forall2 R (om_models m) ms) as (ms & Ems & Hms).
    { assert (∀ vs cs es k, length cs = length es → length vs = length es →
        (∀ j c v e, cs !! j = Some c → vs !! j = Some v → es !! j = Some e →
           stored (save c) (load v) e (R c)) →
        holds ar (under p (dir_entries "CLASSIFIERS" k es)) →
        ∃ ms, res_mapM (λ iv, load iv.2 ar (numbered p "CLASSIFIERS" iv.1)) (enum k vs) = Ok ms ∧
          Forall2 R cs ms) as G.
      { clear. induction vs as [|v vs IH]; intros cs es k E1 E2 Hs Hh.
        - destruct es; [|done]. destruct cs; [|done]. by exists [].
        - destruct es as [|e es]; [done|]. destruct cs as [|c cs]; [done|].
          cbn [dir_entries] in Hh. rewrite under_app in Hh. apply holds_app in Hh as [Ha Hb].
          rewrite under_under in Ha by (by apply dir_nonempty).
          destruct (so_reads _ _ _ _ (Hs 0 c v e eq_refl eq_refl eq_refl) _ _ Ha) as (c' & Ec & Hc).
          destruct (IH cs es (S k)) as (ms & Em & Hm); [by injection E1|by injection E2| |done|].
          { intros j. apply (Hs (S j)). }
          exists (c' :: ms). rewrite enum_cons. cbn [res_mapM fst snd].
          change (numbered p "CLASSIFIERS" k) with (tar_prefix p (dir "CLASSIFIERS" k)).
          rewrite Ec. cbn [mbind res_bind]. rewrite Em. split; [done|by constructor]. }
      rewrite enum_pair. by apply (G _ _ ess). }
    rewrite Ems. cbn [mbind res_bind]. eexists _, d. split; [done|]. cbn [om_filters om_max om_values om_models].
    rewrite Ho, Hmax. done.
  Qed.

  (** ** A file *)

  Lemma ova_free m on cell ess k :
    k ∈ map fst (ova_entries m on cell ess) → k ∉ reserved.
  Proof using.
    intros Hk. apply ova_names in Hk as [Hk|[->|[->|[(j & x & ->)|(j & x & ->)]]]];
      try (apply (bool_decide_unpack _); vm_compute; done).
    - cbn [wkeys] in Hk. repeat (apply elem_of_cons in Hk as [->|Hk];
        [apply (bool_decide_unpack _); vm_compute; done|]). by apply elem_of_nil in Hk.
  Qed.

  Lemma ova_files m on cell ess name vals :
    table is_nil on cell → (gr_size on).2 = 0 → gr_class_attrs on = [CatA name vals] → NoDup vals →
    2 ≤ length vals → om_values m = vals → om_max m = ova_max vals →
    Forall (filter_ok is_nil (gr_all_attrs on)) (om_filters m) →
    (N.of_nat (length (om_filters m)) < 2^64)%N →
    members_stored m ess →
    ∃ ar m' d, ova_file_save marshal is_nil attr_order mo save m on = Ok ar ∧
      ova_file_load unmarshal got pg make fit oo co class_iter load ar = Ok (m', d) ∧
      om_filters m' = om_filters m ∧ om_max m' = om_max m ∧
      om_values m' = om_values m ∧ Forall2 R (om_models m) (om_models m') ∧ same_table on cell d.
  Proof using faithful order_ok full class_ok mo_ok.
    intros T Hrows Hcls Hnd H2 Hvals Hmax Hf Hlen Hm.
    set (mt := Meta 1 "OneVsAllModel" "1.0" None).
    assert (meta_sendable mt) as Hmt by (by apply plain_meta_sendable).
    set (ar := stub_entries marshal mt ++ ova_entries m on cell ess).
    destruct (ova_reads m on cell ess "" ar name vals T Hrows Hcls Hnd H2 Hvals Hmax Hf Hlen Hm) as (m' & d & E & Hrest).
    { rewrite under_empty. apply holds_stub; [by apply ova_NoDup|]. intros k. apply ova_free. }
    exists ar, m', d. split; [|split; [|exact Hrest]].
    - unfold ova_file_save. fold mt. destruct (create_stub_opened marshal mt) as (s & -> & Ho). cbn [mbind res_bind].
      rewrite (ova_saved m on cell ess "" s _ T Hrows Hm Ho). cbn [mbind res_bind]. by rewrite under_empty.
    - unfold ova_file_load.
      assert (read_stub unmarshal ar = Ok mt) as -> by (by apply (read_stub_stub marshal unmarshal faithful)).
      cbn [mbind res_bind]. exact E.
  Qed.

  (** ** What [Fit] keeps *)

  Lemma ova_kept_spec train m :
    ova_kept make fit oo co train = Ok m →
    ∃ name vals o attrs, gr_class_attrs train = [CatA name vals] ∧ ova_attrs oo train = Ok attrs ∧
      ova_fit make fit oo co train = Ok o ∧ ova_max vals ≠ 0 ∧ ov_max o = ova_max vals ∧
      m = OvaModel (map (λ i, OFilter (list_to_map attrs) (CatA name vals) (N.of_nat i)) (seq 0 (ova_max vals + 1)))
            (ov_models o) (ova_max vals) vals ∧
      length (ov_models o) = ova_max vals + 1 ∧
      ov_filters o = map (ova_filter attrs (CatA name vals)) (seq 0 (ova_max vals + 1)).
  Proof using.
    unfold ova_kept. destruct (gr_class_attrs train) as [|[|name vals|] [|]] eqn:Hc; try done.
    rewrite bind_Ok. intros (attrs & Ha & H). apply bind_Ok in H as (o & Ho & [= <-]).
    exists name, vals, o, attrs. split; [done|]. split; [done|]. split; [done|].
    unfold ova_fit in Ho. rewrite Hc, Ha in Ho. cbn [mbind res_bind] in Ho.
    destruct (ova_max vals =? 0) eqn:E; [done|]. apply Nat.eqb_neq in E.
    apply bind_Ok in Ho as (l & Hl & [= <-]). cbn [ov_max ov_models ov_filters].
    apply res_mapM_Ok in Hl. split; [done|]. split; [done|]. split; [done|].
    split; [by rewrite map_length, <- (Forall2_length _ _ _ Hl), seq_length|].
    apply list_eq. intros i. rewrite !list_lookup_fmap.
    destruct (l !! i) as [[f c]|] eqn:El.
    - destruct (Forall2_lookup_r _ _ _ _ _ Hl El) as (j & Hj & Hone). rewrite Hj. cbn [fmap option_fmap option_map fst].
      unfold ova_fit_one in Hone. apply bind_Ok in Hone as (v & _ & Hone).
      destruct (_ =? 0); [by injection Hone as <- _|]. apply bind_Ok in Hone as (c' & _ & [= <- _]). done.
    - destruct (seq 0 (ova_max vals + 1) !! i) eqn:Es; [|done].
      apply lookup_lt_Some in Es. rewrite (Forall2_length _ _ _ Hl) in Es.
      apply lookup_lt_is_Some_2 in Es as [? Es]. congruence.
  Qed.

  Lemma ova_pairs train attrs :
    ova_attrs oo train = Ok attrs → NoDup attrs.*1.
  Proof using oo_ok.
    unfold ova_attrs. destruct (gr_class_attrs train) as [|b [|]]; try done. intros [= <-].
    rewrite <- list_fmap_compose. unfold compose. cbn [fst]. rewrite list_fmap_id.
    rewrite (oo_ok (build_attr_set (gr_all_attrs train))). apply build_attr_set_nodup.
  Qed.
End ova.
