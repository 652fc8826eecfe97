(** Proofs about the naive Bayes classifier: the estimates. *)
From Coq Require Import Reals.
From Verif Require Import Prelude FloatModel AttrModel AttrSpec AttrProofs StoreModel DenseModel DenseProofs GridModel GridSpec
  GridProofs FilterModel PredModel PredProofs RuleSpec CartModel CartGrow BagSpec NbModel NbSpec NbProofs.
From Flocq Require Import Core.Core IEEE754.BinarySingleNaN IEEE754.Bits IEEE754.Binary.
Local Open Scope nat_scope.

Lemma reads_present raw b : reads_bit raw b → is_present raw = Ok b.
Proof.
  intros (x & rest & -> & H). unfold is_present, idx. cbn [lookup list_lookup mbind res_bind]. f_equal.
  destruct (decide (x = 0%N)) as [->|Hx].
  - destruct b; [|done]. exfalso. by apply (proj1 H eq_refl).
  - rewrite (proj2 H Hx). apply N.ltb_lt. lia.
Qed.

Lemma count_terms_steps label bits features r doc docs :
  length doc = features → (∀ f v, doc !! f = Some v → is_present v = Ok (bits r f)) →
  count_terms features docs (label r) doc = Ok (step_terms label bits features docs r).
Proof.
  intros Hl Hd. unfold count_terms, step_terms.
  assert (∀ doc k docs, (∀ f v, doc !! f = Some v → is_present v = Ok (bits r (k + f))) →
    res_foldl (λ docs fv, p ← is_present fv.2;
      Ok (if p : bool then let t := default (replicate features 0) (docs !! label r) in <[label r := alter S fv.1 t]> docs else docs))
      docs (imap (λ i v, (k + i, v)) doc) =
    Ok (foldl (λ docs f, if bits r f then bump features (label r) docs f else docs) docs (seq k (length doc)))) as H.
  { clear. induction doc as [|v doc IH]; intros k docs H; [done|]. cbn [imap length seq foldl res_foldl].
    cbn [fst snd]. rewrite (H 0 v eq_refl). cbn [mbind res_bind]. rewrite Nat.add_0_r.
    rewrite <- (IH (S k)).
    - f_equal. apply imap_ext. intros i x _. unfold compose. f_equal. lia.
    - intros f w Hf. rewrite (H (S f) w Hf). f_equal. f_equal. lia. }
  specialize (H doc 0 docs Hd). rewrite Hl in H. exact H.
Qed.

Lemma in_class_perm label rs rows c : rs ≡ₚ seq 0 rows →
  length (filter (λ r, label r = c) rs) = in_class label rows c.
Proof. intros H. unfold in_class. by rewrite H. Qed.
Lemma in_class_with_perm label bits rs rows c f : rs ≡ₚ seq 0 rows →
  length (filter (λ r, label r = c ∧ bits r f = true) rs) = in_class_with label bits rows c f.
Proof. intros H. unfold in_class_with. by rewrite H. Qed.

Lemma in_class_pos label rows c : 0 < in_class label rows c ↔ ∃ r, r < rows ∧ label r = c.
Proof.
  unfold in_class. split.
  - destruct (filter _ _) as [|r l] eqn:E; [cbn; lia|]. intros _.
    assert (r ∈ filter (λ r, label r = c) (seq 0 rows)) as H by (rewrite E; left).
    apply elem_of_list_filter in H as [H1 H2]. apply elem_of_seq in H2. exists r. split; [lia|done].
  - intros (r & Hr & Hc). destruct (filter _ _) as [|r' l] eqn:E; [|cbn; lia].
    assert (r ∈ filter (λ r, label r = c) (seq 0 rows)) as H.
    { apply elem_of_list_filter. split; [done|]. apply elem_of_seq. lia. }
    rewrite E in H. by apply elem_of_nil in H.
Qed.

(** Every class has a row with some feature, or there are no features. *)
Definition all_seen (label : nat → string) (bits : nat → nat → bool) (rows features : nat) : Prop :=
  features = 0 ∨ ∀ r, r < rows → ∃ r' f, r' < rows ∧ label r' = label r ∧ f < features ∧ bits r' f = true.

Section fit.
  Context (show : nat → N → string) (ko : list (string * nat) → list (string * nat)).
  Context (Hko : any_order ko).
  Context (g : grid) (label : nat → string) (bits : nat → nat → bool).
  Context (Hg : bernoulli_data show g label bits).

  Notation rows := (gr_size g).2.
  Notation features := (length (others g)).

  (** What Fit counts. *)
  Lemma fit_counts : ∃ (specs : list spec) (classes : gmap string nat) (docs : gmap string (list nat)) (b : bool),
    resolve g (others g) = Ok specs ∧
    map_over_rows g specs (λ acc doc r,
              class ← get_class show g r;
              docs ← count_terms features acc.2 class doc;
              Ok ((count_up acc.1 class, docs), Cont)) (∅, ∅) = Ok ((classes, docs), b) ∧
    (∀ c, classes !! c = if in_class label rows c =? 0 then None else Some (in_class label rows c)) ∧
    (∀ c, docs !! c = None ∧ (∀ r f, r < rows → label r = c → f < features → bits r f = false) ∨
          docs !! c = Some (map (λ f, in_class_with label bits rows c f) (seq 0 features)) ∧
          ∃ r f, r < rows ∧ label r = c ∧ f < features ∧ bits r f = true).
  Proof using Hg.
    destruct Hg as (Hit & Hd & Hcl & Hone & Hbin & (specs & Hsp & Hbits) & Hlab).
    destruct (Hit specs) as (its & Hits & Hperm & Hfetch).
    assert (length specs = features) as Hlen.
    { unfold resolve in Hsp. apply res_mapM_Ok in Hsp. by apply Forall2_length in Hsp. }
    destruct (run_rows_fold (λ acc doc r,
              class ← get_class show g r;
              docs ← count_terms features acc.2 class doc;
              Ok ((count_up acc.1 class, docs), Cont)) (step_row label bits features) its (∅, ∅)) as [b Hrun].
    { intros i fetch Hi. assert (i < rows) as Hlt.
      { assert (i ∈ map fst its) as H by (apply elem_of_list_fmap; by exists (i, fetch)).
        rewrite Hperm in H. apply elem_of_seq in H. lia. }
      rewrite (Hfetch _ _ Hi).
      assert (∃ buf, res_mapM (λ a, gr_get g a i) specs = Ok buf) as [buf Hbuf].
      { clear -Hbits Hlt. assert (∀ s, s ∈ specs → ∃ raw, gr_get g s i = Ok raw) as H.
        { intros s Hs. apply elem_of_list_lookup in Hs as [f Hf]. destruct (Hbits i f s Hlt Hf) as (raw & Hr & _). eauto. }
        clear Hbits. induction specs as [|s specs IH]; [by exists []|].
        destruct (H s) as [raw Hr]; [left|]. destruct IH as [buf Hb]; [intros; apply H; by right|].
        exists (raw :: buf). cbn [res_mapM]. rewrite Hr. cbn [mbind res_bind]. rewrite Hb. done. }
      exists buf. split; [done|]. intros acc. rewrite (Hlab i Hlt). cbn [mbind res_bind].
      apply res_mapM_Ok in Hbuf. pose proof (Forall2_length _ _ _ Hbuf) as Hl.
      rewrite (count_terms_steps label bits); [done|lia|].
      intros f v Hv. destruct (Forall2_lookup_r _ _ _ _ _ Hbuf Hv) as (s & Hs & E).
      destruct (Hbits i f s Hlt Hs) as (raw & Hr & Hb). rewrite Hr in E. injection E as <-. by apply reads_present. }
    exists specs. destruct (foldl (step_row label bits features) (∅, ∅) (map fst its)) as [classes docs] eqn:E.
    exists classes, docs, b. split; [done|]. split.
    { unfold map_over_rows. by rewrite Hits, Hrun. }
    split.
    - intros c. match type of E with foldl _ ?z _ = _ => pose proof (class_counts label bits features (map fst its) z eq_refl c) as H end.
      rewrite E in H. cbn [fst] in H. by rewrite (in_class_perm _ _ _ _ Hperm) in H.
    - intros c. match type of E with foldl _ ?z _ = _ => pose proof (term_counts label bits features (map fst its) z eq_refl c) as H end.
      rewrite E in H. cbn [snd] in H. destruct (has_term label bits features (map fst its) c) eqn:Ht.
      + right. split.
        * rewrite H. f_equal. apply map_ext. intros f. by apply in_class_with_perm.
        * unfold has_term in Ht. apply existsb_exists in Ht as (r & Hr & Hb). apply andb_true_iff in Hb as [H1 H2].
          apply bool_decide_eq_true_1 in H1. apply existsb_exists in H2 as (f & Hf & Hb). apply in_seq in Hf.
          apply elem_of_list_In in Hr. rewrite Hperm in Hr. apply elem_of_seq in Hr.
          exists r, f. split; [lia|]. split; [done|]. split; [lia|done].
      + left. split; [done|]. intros r f Hr Hc Hf. destruct (bits r f) eqn:Hb; [|done].
        assert (has_term label bits features (map fst its) c = true); [|congruence].
        unfold has_term. apply existsb_exists. exists r. split.
        * apply elem_of_list_In. rewrite Hperm. apply elem_of_seq. lia.
        * rewrite bool_decide_eq_true_2 by done. cbn [andb]. apply existsb_exists. exists f.
          split; [apply in_seq; lia|done].
  Qed.

  Definition estimates (c : string) : list binary64 :=
    map (λ f, ratio (in_class_with label bits rows c f + 1) (in_class label rows c + 1)) (seq 0 features).

  Notation cond_step docs := (λ (cond : gmap string (list binary64)) (cn : string * nat),
            ps ← res_mapM (λ feat,
                   num ← idx (default [] (docs !! cn.1)) feat;
                   Ok (b64_div mode_NE (float_of_nat (num + 1)) (float_of_nat (cn.2 + 1))))
                 (seq 0 features);
            Ok (<[cn.1 := ps]> cond)).

  Lemma one_class (docs : gmap string (list nat)) c :
    (features = 0 ∨ docs !! c = Some (map (λ f, in_class_with label bits rows c f) (seq 0 features))) →
    res_mapM (λ feat, num ← idx (default [] (docs !! c)) feat;
       Ok (b64_div mode_NE (float_of_nat (num + 1)) (float_of_nat (in_class label rows c + 1)))) (seq 0 features) =
    Ok (estimates c).
  Proof using Type.
    intros H. unfold estimates. apply res_mapM_some. intros f Hf. apply elem_of_seq in Hf.
    destruct H as [H|H]; [lia|]. rewrite H, dsome. unfold idx. rewrite list_lookup_fmap, lookup_seq_lt by lia. done.
  Qed.

  Lemma cond_fold (docs : gmap string (list nat)) l : ∀ cond,
    NoDup (map fst l) →
    (∀ c n, (c, n) ∈ l → n = in_class label rows c ∧
       (features = 0 ∨ docs !! c = Some (map (λ f, in_class_with label bits rows c f) (seq 0 features)))) →
    ∃ cond', res_foldl (cond_step docs) cond l = Ok cond' ∧
      (∀ c, c ∈ map fst l → cond' !! c = Some (estimates c)) ∧ (∀ c, c ∉ map fst l → cond' !! c = cond !! c).
  Proof using Type.
    induction l as [|[c n] l IH]; intros cond Hnd H.
    { exists cond. split; [done|]. split; [|done]. intros c Hc. by apply elem_of_nil in Hc. }
    cbn [map fst] in *. apply NoDup_cons in Hnd as [Hc Hnd].
    destruct (H c n) as [-> Hdoc]; [left|]. cbn [res_foldl fst snd]. rewrite (one_class docs c Hdoc). cbn [mbind res_bind].
    destruct (IH (<[c := estimates c]> cond) Hnd) as (cond' & E & H1 & H2).
    { intros c' n' Hin. apply H. by right. }
    exists cond'. split; [done|]. split.
    - intros c' [->|Hin]%elem_of_cons; [|by apply H1]. rewrite H2 by done. by rewrite lookup_insert.
    - intros c' [Hne Hin]%not_elem_of_cons. rewrite H2 by done. by rewrite lookup_insert_ne.
  Qed.

  Lemma cond_panics (docs : gmap string (list nat)) l : ∀ cond c n,
    (∀ c n, (c, n) ∈ l → docs !! c = None ∨ (n = in_class label rows c ∧
        docs !! c = Some (map (λ f, in_class_with label bits rows c f) (seq 0 features)))) →
    (c, n) ∈ l → features ≠ 0 → docs !! c = None → res_foldl (cond_step docs) cond l = Panic.
  Proof using Type.
    induction l as [|[c' n'] l IH]; intros cond c n H Hin Hf Hd; [by apply elem_of_nil in Hin|].
    cbn [res_foldl fst snd]. destruct (H c' n') as [E|[-> E]]; [left| |].
    - rewrite E, dnone. destruct (length (others g)) as [|k]; [done|]. done.
    - rewrite one_class by (by right). cbn [mbind res_bind]. apply elem_of_cons in Hin as [[= -> ->]|Hin].
      + congruence.
      + eapply IH; [|exact Hin|done|done]. intros c2 n2 H2. apply H. by right.
  Qed.

  Lemma fit_unfold n0 : ∃ (classes : gmap string nat) (docs : gmap string (list nat)),
    nb_fit show ko n0 g =
      (cond ← res_foldl (cond_step docs) (nb_cond n0) (ko (map_to_list classes));
       Ok (NB cond classes rows features (others g))) ∧
    (∀ c, classes !! c = if in_class label rows c =? 0 then None else Some (in_class label rows c)) ∧
    (∀ c, docs !! c = None ∧ (∀ r f, r < rows → label r = c → f < features → bits r f = false) ∨
          docs !! c = Some (map (λ f, in_class_with label bits rows c f) (seq 0 features)) ∧
          ∃ r f, r < rows ∧ label r = c ∧ f < features ∧ bits r f = true).
  Proof using Hg.
    destruct fit_counts as (specs & classes & docs & b & Hsp & Hrun & H1 & H2).
    destruct Hg as (Hit & Hd & Hcl & Hone & Hbin & _ & Hlab).
    exists classes, docs. split; [|done]. unfold nb_fit. rewrite (difference_others g Hd Hcl).
    assert (forallb is_binary (others g) = true) as ->.
    { apply forallb_forall. intros a Ha. apply elem_of_list_In, Hbin in Ha as [name ->]. done. }
    cbn [negb]. rewrite Hsp. cbn [mbind res_bind]. rewrite Hone. change (negb (1 =? 1)) with false. cbv iota.
    cbv zeta. rewrite Hrun. done.
  Qed.

  Lemma classes_list (classes : gmap string nat) :
    (∀ c, classes !! c = if in_class label rows c =? 0 then None else Some (in_class label rows c)) →
    (∀ c n, (c, n) ∈ ko (map_to_list classes) ↔ n = in_class label rows c ∧ 0 < n) ∧
    NoDup (map fst (ko (map_to_list classes))).
  Proof using Hko.
    intros H. split.
    - intros c n. rewrite (Hko _), elem_of_map_to_list, H. destruct (_ =? 0) eqn:E.
      + apply Nat.eqb_eq in E. split; [done|]. intros [-> ?]. lia.
      + apply Nat.eqb_neq in E. split; [intros [= <-]; lia|]. intros [-> _]. done.
    - assert (map fst (ko (map_to_list classes)) ≡ₚ (map_to_list classes).*1) as -> by (by rewrite (Hko _)).
      apply NoDup_fst_map_to_list.
  Qed.

  Lemma nb_fit_ok n0 : all_seen label bits rows features → ∃ n,
    nb_fit show ko n0 g = Ok n ∧
    nb_training n = rows ∧ nb_features n = features ∧ nb_attrs n = others g ∧
    (∀ c, nb_class n !! c = if in_class label rows c =? 0 then None else Some (in_class label rows c)) ∧
    (∀ c, 0 < in_class label rows c → nb_cond n !! c = Some (estimates c)).
  Proof using Hg Hko.
    intros Hall. destruct (fit_unfold n0) as (classes & docs & -> & H1 & H2).
    destruct (classes_list classes H1) as [Hl Hnd].
    destruct (cond_fold docs (ko (map_to_list classes)) (nb_cond n0) Hnd) as (cond & -> & C1 & C2).
    { intros c n Hin. apply Hl in Hin as [-> Hp]. split; [done|].
      destruct Hall as [Hall|Hall]; [by left|]. right.
      apply in_class_pos in Hp as (r & Hr & Hc). destruct (Hall r Hr) as (r' & f & Hr' & Hc' & Hf & Hb).
      destruct (H2 c) as [[_ Hn]|[Hd _]]; [|done]. rewrite (Hn r' f) in Hb; [done|done|congruence|done]. }
    eexists. split; [done|]. cbn [nb_training nb_features nb_attrs nb_class nb_cond].
    split; [done|]. split; [done|]. split; [done|]. split; [done|].
    intros c Hc. apply C1. apply elem_of_list_fmap. exists (c, in_class label rows c). split; [done|]. by apply Hl.
  Qed.

  Lemma nb_fit_panics n0 : ¬ all_seen label bits rows features → nb_fit show ko n0 g = Panic.
  Proof using Hg Hko.
    intros Hnot. destruct (fit_unfold n0) as (classes & docs & -> & H1 & H2).
    destruct (classes_list classes H1) as [Hl Hnd].
    assert (features ≠ 0) as Hf0 by (intros E; apply Hnot; by left).
    assert (∃ r, r < rows ∧ docs !! label r = None) as (r & Hr & Hd).
    { destruct (decide (Exists (λ r, docs !! label r = None) (seq 0 rows))) as [(r & Hr & Hd)%Exists_exists|Hn].
      { apply elem_of_seq in Hr. exists r. split; [lia|done]. }
      exfalso. apply Hnot. right. intros r Hr. destruct (H2 (label r)) as [[Hd _]|[_ (r' & f & A & B & D & E)]].
      - destruct Hn. apply Exists_exists. exists r. split; [apply elem_of_seq; lia|done].
      - by exists r', f. }
    rewrite (cond_panics docs _ _ (label r) (in_class label rows (label r))); [done| | |done|done].
    - intros c n Hin. apply Hl in Hin as [-> Hp]. destruct (H2 c) as [[E _]|[E _]]; [by left|by right].
    - apply Hl. split; [done|]. apply in_class_pos. by exists r.
  Qed.
End fit.

(** The classes account for all rows. *)
Lemma sum_bump (D : list string) (h h' : string → nat) x : NoDup D → x ∈ D →
  (∀ c, c ≠ x → h' c = h c) → h' x = S (h x) → sum_list (map h' D) = S (sum_list (map h D)).
Proof.
  intros Hnd. induction Hnd as [|c D Hc Hnd IH]; intros Hx H1 H2; [by apply elem_of_nil in Hx|].
  cbn [map sum_list sum_list_with]. destruct (decide (c = x)) as [->|Hne].
  - rewrite H2. assert (map h' D = map h D) as ->; [|done].
    apply map_ext_in. intros c Hin. apply H1. intros ->. apply Hc. by apply elem_of_list_In.
  - apply elem_of_cons in Hx as [->|Hx]; [done|]. rewrite (H1 c) by done.
    specialize (IH Hx H1 H2). cbn in IH |- *. lia.
Qed.

Lemma sum_classes (label : nat → string) D rs : NoDup D → (∀ r, r ∈ rs → label r ∈ D) →
  sum_list (map (λ c, length (filter (λ r, label r = c) rs)) D) = length rs.
Proof.
  intros Hnd. induction rs as [|r rs IH]; intros H.
  { clear. induction D as [|c D IH]; [done|]. cbn in *. done. }
  cbn [length]. rewrite <- IH by (intros r' Hr; apply H; by right).
  apply (sum_bump D _ _ (label r)); [done|apply H; left| |].
  - intros c Hc. rewrite filter_cons_False; [done|]. congruence.
  - rewrite filter_cons_True; [done|done].
Qed.

Lemma classes_sum label rows (classes : gmap string nat) :
  (∀ c, classes !! c = if in_class label rows c =? 0 then None else Some (in_class label rows c)) →
  sum_list (map snd (map_to_list classes)) = rows.
Proof.
  intros H. set (D := map fst (map_to_list classes)).
  assert (map snd (map_to_list classes) = map (λ c, in_class label rows c) D) as ->.
  { unfold D. rewrite map_map. apply map_ext_in. intros [c k] Hin. apply elem_of_list_In, elem_of_map_to_list in Hin.
    rewrite H in Hin. cbn. destruct (_ =? 0); [done|]. by injection Hin as <-. }
  unfold in_class. rewrite sum_classes; [apply seq_length|apply NoDup_fst_map_to_list|].
  intros r Hr. apply elem_of_seq in Hr. unfold D. apply elem_of_list_fmap.
  assert (0 < in_class label rows (label r)) as Hp by (apply in_class_pos; exists r; split; [lia|done]).
  exists (label r, in_class label rows (label r)). split; [done|]. apply elem_of_map_to_list. rewrite H.
  replace (_ =? 0) with false by (symmetry; apply Nat.eqb_neq; lia). done.
Qed.

Lemma classic_seen label bits rows features : all_seen label bits rows features ∨ ¬ all_seen label bits rows features.
Proof.
  destruct (decide (features = 0)) as [->|Hf]; [left; by left|].
  destruct (decide (Forall (λ r, Exists (λ r', label r' = label r ∧ Exists (λ f, bits r' f = true) (seq 0 features)) (seq 0 rows))
      (seq 0 rows))) as [H|H].
  - left. right. intros r Hr. rewrite Forall_forall in H. specialize (H r). rewrite elem_of_seq in H.
    specialize (H ltac:(lia)). apply Exists_exists in H as (r' & Hr' & Hl & H).
    apply Exists_exists in H as (f & Hf' & Hb). apply elem_of_seq in Hr', Hf'. exists r', f. split_and!; [lia|done|lia|done].
  - right. intros [?|Hall]; [done|]. apply H. apply Forall_forall. intros r Hr. apply elem_of_seq in Hr.
    destruct (Hall r) as (r' & f & H1 & H2 & H3 & H4); [lia|].
    apply Exists_exists. exists r'. split; [apply elem_of_seq; lia|]. split; [done|].
    apply Exists_exists. exists f. split; [apply elem_of_seq; lia|done].
Qed.

Lemma not_seen g label bits : ¬ all_seen label bits (gr_size g).2 (length (others g)) →
  ∃ r, r < (gr_size g).2 ∧ others g ≠ [] ∧
     ∀ r' f, r' < (gr_size g).2 → label r' = label r → f < length (others g) → bits r' f = false.
Proof.
  intros Hn. destruct (decide (Forall (λ r, Exists (λ r', label r' = label r ∧
      Exists (λ f, bits r' f = true) (seq 0 (length (others g)))) (seq 0 (gr_size g).2))
      (seq 0 (gr_size g).2))) as [H|H].
  - exfalso. apply Hn. right. intros r Hr. rewrite Forall_forall in H. specialize (H r). rewrite elem_of_seq in H.
    specialize (H ltac:(lia)). apply Exists_exists in H as (r' & Hr' & Hl & H).
    apply Exists_exists in H as (f & Hf' & Hb). apply elem_of_seq in Hr', Hf'. exists r', f. split_and!; [lia|done|lia|done].
  - apply not_Forall_Exists in H; [|apply _]. apply Exists_exists in H as (r & Hr & H). apply elem_of_seq in Hr.
    exists r. split; [lia|]. split; [intros E; apply Hn; left; by rewrite E|].
    intros r' f Hr' Hl Hf. destruct (bits r' f) eqn:Eb; [|done]. exfalso. apply H.
    apply Exists_exists. exists r'. split; [apply elem_of_seq; lia|]. split; [done|].
    apply Exists_exists. exists f. split; [apply elem_of_seq; lia|done].
Qed.
