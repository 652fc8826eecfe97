(** Property C178: naive Bayes classifiers in a bag. *)
From Coq Require Import Reals.
From Verif Require Import Prelude BytesModel FloatModel AttrModel AttrSpec AttrProofs StoreModel DenseModel DenseProofs
  DenseSpec GridModel GridSpec GridProofs FilterModel PredModel TableProofs KnnProps Id3Proofs Id3Props CartModel RuleSpec
  BagModel BagSpec BagProofs BagFit BagProps NbModel NbSpec NbProofs NbFit NbProps.
From Flocq Require Import Core.Core IEEE754.BinarySingleNaN IEEE754.Bits IEEE754.Binary.
Local Open Scope nat_scope.

Lemma run_rows_same {S} (f f' : S → list (list N) → nat → res (S * cb)) rows s :
  (∀ s buf i fetch, (i, fetch) ∈ rows → f s buf i = f' s buf i) → run_rows f s rows = run_rows f' s rows.
Proof.
  revert s. induction rows as [|[i fetch] rows IH]; intros s H; cbn [run_rows]; [done|].
  destruct fetch as [buf| |]; cbn [mbind res_bind]; [|done..].
  rewrite (H s buf i (Ok buf)) by (by left). destruct (f' s buf i) as [[s' []]| |]; cbn [mbind res_bind]; try done.
  apply IH. intros s1 buf1 i1 fetch1 Hin. apply (H s1 buf1 i1 fetch1). by right.
Qed.

Section sample.
  Context (ao co : list attr → list attr) (ro : list nat → list nat) (fuel : nat) (drawr drawa : nat → nat) (want : Z).
  Context (from : grid) (sel : list attr) (g : grid).
  Context (Hao : any_order ao) (Hco : any_order co) (Hd : distinct_attrs (gr_all_attrs from)) (Hown : finds_own from).
  Context (Hcls : gr_class_attrs from ⊆ gr_all_attrs from) (Hnd : NoDup (gr_class_attrs from)).
  Context (Htr : training_instances ao co ro fuel drawr drawa want from = Ok (sel, g)).

  Lemma same_attr a b : a ∈ gr_all_attrs from → b ∈ gr_all_attrs from → attr_equals a b = true → a = b.
  Proof using Hd.
    intros Ha Hb E. apply elem_of_list_lookup in Ha as (i & Hi). apply elem_of_list_lookup in Hb as (j & Hj).
    rewrite (Hd i j a b Hi Hj E) in Hi. congruence.
  Qed.

  Lemma sel_shape : ∃ feats, gr_all_attrs g = feats ++ gr_class_attrs from ∧ NoDup (gr_all_attrs g) ∧
    gr_all_attrs g ⊆ gr_all_attrs from ∧ feats ⊆ others from ∧ gr_class_attrs g ≡ₚ gr_class_attrs from ∧
    (gr_size g).2 = (gr_size from).2 ∧ ∀ r s, r < (gr_size from).2 → gr_get g s r = gr_get from s (drawr r).
  Proof using Hao Hco Hd Hown Hcls Hnd Htr.
    destruct (training_instances_spec ao co ro fuel drawr drawa want from sel g Hao Hco Hd Hown Hcls Hnd Htr)
      as (feats & Hs & Hf & Hsub & _ & Hall & Hc & Hz & Hg).
    exists feats. rewrite Hall, Hs. split; [done|]. split.
    { apply NoDup_app. split; [by apply distinct_NoDup|]. split; [|done].
      intros a Ha. apply Hsub in Ha. by apply elem_of_list_filter in Ha as [Ha _]. }
    split.
    { intros a Ha. apply elem_of_app in Ha as [Ha|Ha]; [|by apply Hcls].
      apply Hsub in Ha. by apply elem_of_list_filter in Ha as [_ Ha]. }
    split; [done|]. split; [done|]. rewrite Hz. done.
  Qed.

  Lemma sample_find a s : a ∈ gr_all_attrs from → gr_get_attribute g a = Ok s →
    gr_get_attribute from a = Ok s ∧ sp_attr s = a.
  Proof using Hao Hco Hd Hown Hcls Hnd Htr.
    intros Ha. pose proof sel_shape as (feats & Hall & _ & Hsub & _). revert Hall Hsub.
    revert Htr. unfold training_instances. rewrite bind_Ok. intros (insts & Hi & H).
    apply bind_Ok in H as (sel' & Hsel & H). apply bind_Ok in H as (v & Hv & H). injection H as -> <-.
    unfold sample_with_replacement in Hi. destruct (_ && _); [done|]. injection Hi as <-.
    unfold view_from_attrs in Hv. apply bind_Ok in Hv as (specs & Hr & Hv). injection Hv as <-.
    cbn [gr_get_attribute gr_all_attrs view_grid view_get_attribute view_all_attrs v_attrs].
    intros _ Hsub H. destruct (find_spec specs a) as [s'|] eqn:E; [|done]. injection H as ->.
    apply find_spec_some in E as [Hin E].
    assert (a = sp_attr s) as Has.
    { symmetry. apply same_attr; [|done|done]. apply Hsub. apply elem_of_list_fmap. by exists s. }
    split; [|done]. apply resolve_Ok in Hr. apply elem_of_list_lookup in Hin as (i & Hi).
    destruct (Forall2_lookup_r _ _ _ _ _ Hr Hi) as (b & Hb & Hbs).
    change (gr_get_attribute from b = Ok s) in Hbs.
    assert (b ∈ gr_all_attrs from) as Hball.
    { destruct (training_attrs_spec _ _ _ _ _ _ Hao Hd Hsel) as (feats' & -> & _ & H2 & _).
      apply elem_of_list_lookup_2 in Hb. apply elem_of_app in Hb as [Hb|Hb]; [|by apply Hcls].
      apply H2 in Hb. by apply elem_of_list_filter in Hb as [_ Hb]. }
    destruct (Hown b Hball) as (s1 & Hs1 & Hs1'). rewrite Hbs in Hs1. injection Hs1 as <-. congruence.
  Qed.

  Lemma sample_finds a : a ∈ gr_all_attrs g → ∃ s, gr_get_attribute g a = Ok s.
  Proof using Htr.
    revert Htr. unfold training_instances. rewrite bind_Ok. intros (insts & Hi & H).
    apply bind_Ok in H as (sel' & Hsel & H). apply bind_Ok in H as (v & Hv & H). injection H as _ <-.
    unfold view_from_attrs in Hv. apply bind_Ok in Hv as (specs & Hr & Hv). injection Hv as <-.
    cbn [gr_get_attribute gr_all_attrs view_grid view_get_attribute view_all_attrs v_attrs].
    clear. induction specs as [|r l IH]; intros Ha; cbn [map find_spec] in *; [by apply elem_of_nil in Ha|].
    apply elem_of_cons in Ha as [->|Ha].
    - rewrite attr_equals_refl. eauto.
    - destruct (attr_equals (sp_attr r) a); [eauto|]. by apply IH.
  Qed.

  (** What Fit sees: the features of row [r] of the source and the class of row [r] of the
      sample. *)
  Definition mixed_get (s : spec) (r : nat) : res (list N) :=
    if bool_decide (sp_attr s ∈ gr_class_attrs g) then gr_get g s r else gr_get from s r.
  Definition mixed : grid :=
    Grid (gr_get_attribute g) (gr_all_attrs g) (gr_class_attrs g) mixed_get
      (λ asv, rows ← gr_iter from asv; Ok (map (λ p, (p.1, res_mapM (λ a, mixed_get a p.1) asv)) rows)) (gr_size g).

  Context (show : nat → N → string) (label : nat → string) (bits bits0 : nat → nat → bool).
  Context (Hdata : bernoulli_data show from label bits0).
  Context (Hdraw : ∀ r, r < (gr_size from).2 → drawr r < (gr_size from).2).
  Context (Hbits : ∀ f a s r, others g !! f = Some a → gr_get_attribute from a = Ok s → r < (gr_size from).2 →
    ∃ raw, gr_get from s r = Ok raw ∧ reads_bit raw (bits r f)).

  Lemma class_one : ∃ c, gr_class_attrs from = [c] ∧ gr_class_attrs g = [c].
  Proof using Hao Hco Hd Hown Hcls Hnd Htr Hdata.
    destruct sel_shape as (feats & _ & _ & _ & _ & Hc & _). destruct Hdata as (_ & _ & _ & Hl & _).
    destruct (gr_class_attrs from) as [|c [|]]; try discriminate Hl. exists c. split; [done|].
    by apply Permutation_singleton_r.
  Qed.

  Lemma mixed_class r : r < (gr_size from).2 → get_class show mixed r = get_class show g r.
  Proof using Hao Hco Hd Hown Hcls Hnd Htr Hdata.
    intros Hr. destruct class_one as (c & Hc1 & Hc2). unfold get_class.
    cbn [mixed gr_class_attrs gr_get_attribute gr_get]. rewrite Hc2.
    destruct (gr_get_attribute g c) as [s| |] eqn:E; [|done..].
    destruct (sample_find c s) as [_ Hs]; [apply Hcls; rewrite Hc1; by left|done|].
    unfold mixed_get. rewrite bool_decide_eq_true_2; [done|]. rewrite Hs, Hc2. by left.
  Qed.

  Lemma sample_class r : r < (gr_size from).2 → get_class show g r = Ok (label (drawr r)).
  Proof using Hao Hco Hd Hown Hcls Hnd Htr Hdata Hdraw.
    intros Hr. destruct class_one as (c & Hc1 & Hc2). destruct Hdata as (_ & _ & _ & _ & _ & _ & Hlab).
    rewrite <- (Hlab (drawr r) (Hdraw r Hr)). unfold get_class. rewrite Hc1, Hc2.
    destruct sel_shape as (feats & Hall & _ & _ & _ & _ & _ & Hget).
    destruct (sample_finds c) as (s & E). { rewrite Hall, Hc1. apply elem_of_app. right. by left. }
    rewrite E. destruct (sample_find c s) as [-> _]; [apply Hcls; rewrite Hc1; by left|done|].
    by rewrite (Hget r s Hr).
  Qed.

  Lemma other_feature a s : a ∈ others g → gr_get_attribute g a = Ok s →
    gr_get_attribute from a = Ok s ∧ sp_attr s = a ∧ a ∉ gr_class_attrs g.
  Proof using Hao Hco Hd Hown Hcls Hnd Htr.
    intros Ha E. apply elem_of_list_filter in Ha as [H1 H2].
    destruct sel_shape as (feats & _ & _ & Hsub & _).
    destruct (sample_find a s) as [H3 H4]; [by apply Hsub|done|]. done.
  Qed.

  Lemma mixed_data : bernoulli_data show mixed (λ r, label (drawr r)) bits.
  Proof using All.
    destruct sel_shape as (feats & Hall & Hnd' & Hsub & Hf & Hc & Hz & Hget).
    pose proof Hdata as (Hit & _ & _ & Hl & Hbin & _ & _).
    split; [|split; [|split; [|split; [|split; [|split]]]]]; cbn [mixed gr_all_attrs gr_class_attrs gr_size].
    - intros asv. destruct (Hit asv) as (rows & H1 & H2 & H3). cbn [mixed gr_iter gr_size gr_get]. rewrite H1.
      cbn [mbind res_bind]. eexists. split; [reflexivity|]. split.
      + rewrite map_map. cbn [fst]. rewrite Hz. exact H2.
      + intros i fetch Hin. apply elem_of_list_fmap in Hin as ([i' f'] & [= -> ->] & _). done.
    - intros i j a b Hi Hj E.
      assert (a = b) as <-.
      { apply same_attr; [apply Hsub; by eapply elem_of_list_lookup_2..|done]. }
      by eapply NoDup_lookup.
    - rewrite Hall. intros a Ha. rewrite Hc in Ha. apply elem_of_app. by right.
    - rewrite Hc. exact Hl.
    - intros a Ha. apply elem_of_list_filter in Ha as [H1 H2]. cbn [mixed gr_class_attrs gr_all_attrs] in H1, H2.
      rewrite Hall in H2. apply elem_of_app in H2 as [H2|H2]; [by apply Hbin, Hf|]. rewrite Hc in H1. done.
    - assert (∃ specs, resolve g (others g) = Ok specs) as [specs Hs].
      { destruct (view_visible_total g [] (others g)) as [v Hv].
        - intros a Ha. apply sample_finds. by apply elem_of_list_filter in Ha as [_ Ha].
        - apply view_visible_inv in Hv as (specs & Hsp & _). eauto. }
      exists specs. split; [exact Hs|]. cbn [mixed gr_size gr_get]. rewrite Hz. intros r f s Hr Hsf.
      apply resolve_Ok in Hs. destruct (Forall2_lookup_r _ _ _ _ _ Hs Hsf) as (a & Ha & Has).
      change (gr_get_attribute g a = Ok s) in Has.
      destruct (other_feature a s) as (H1 & H2 & H3); [by eapply elem_of_list_lookup_2|done|].
      unfold mixed_get. rewrite H2, bool_decide_eq_false_2 by done. by apply (Hbits f a).
    - rewrite Hz. intros r Hr. rewrite (mixed_class r Hr). by apply sample_class.
  Qed.

  Lemma fit_mixed ko n0 : nb_fit show ko n0 g = nb_fit show ko n0 mixed.
  Proof using All.
    pose proof mixed_data as (Hmit & Hmd & Hms & _).
    destruct sel_shape as (feats & _ & _ & _ & _ & _ & Hz & _). pose proof Hdata as (Hit & _).
    unfold nb_fit. rewrite (difference_others mixed Hmd Hms).
    change (attr_difference (gr_all_attrs g) (gr_class_attrs g)) with
      (attr_difference (gr_all_attrs mixed) (gr_class_attrs mixed)).
    rewrite (difference_others mixed Hmd Hms).
    change (others mixed) with (others g). change (gr_class_attrs mixed) with (gr_class_attrs g).
    change (resolve mixed (others g)) with (resolve g (others g)). change (gr_size mixed) with (gr_size g).
    destruct (negb (forallb is_binary (others g))); [done|].
    destruct (resolve g (others g)) as [specs| |] eqn:Hs; cbn [mbind res_bind]; [|done..].
    destruct (negb (length (gr_class_attrs g) =? 1)); [done|].
    assert (∀ features, map_over_rows g specs (λ acc doc r,
              class ← get_class show g r;
              docs ← count_terms features acc.2 class doc;
              Ok ((count_up acc.1 class, docs), Cont)) ((∅, ∅) : gmap string nat * gmap string (list nat)) =
            map_over_rows mixed specs (λ acc doc r,
              class ← get_class show mixed r;
              docs ← count_terms features acc.2 class doc;
              Ok ((count_up acc.1 class, docs), Cont)) (∅, ∅)) as Hmap.
    { intros features. unfold map_over_rows. rewrite (training_instances_iter _ _ _ _ _ _ _ _ _ _ specs Htr).
      cbn [mixed gr_iter]. destruct (Hit specs) as (rows & H1 & H2 & H3). rewrite H1. cbn [mbind res_bind].
      assert (map (λ p : nat * res (list (list N)), (p.1, res_mapM (λ a, mixed_get a p.1) specs)) rows = rows) as ->.
      { transitivity (map (λ x, x) rows); [|apply map_id]. apply map_ext_in. intros [i fetch] Hin.
        apply elem_of_list_In in Hin. rewrite (H3 i fetch Hin). cbn [fst]. f_equal.
        apply resolve_Ok in Hs. clear -Hs Hao Hco Hd Hown Hcls Hnd Htr.
        assert (∀ a, a ∈ others g → a ∈ others g) as Hin by done. revert Hs Hin.
        generalize (others g) at 1 2 as l. intros l Hs. induction Hs as [|a s l specs Ha HF IH]; intros Hin; [done|].
        cbn [res_mapM]. destruct (other_feature a s) as (_ & Hsa & Hno); [apply Hin; by left|done|].
        assert (mixed_get s i = gr_get from s i) as ->.
        { unfold mixed_get. rewrite Hsa, bool_decide_eq_false_2 by done. done. }
        rewrite IH; [done|]. intros b Hb. apply Hin. by right. }
      apply run_rows_same. intros s buf i fetch Hin. rewrite mixed_class; [done|].
      assert (i ∈ map fst rows) as Hi by (apply elem_of_list_fmap; by exists (i, fetch)).
      rewrite H2 in Hi. apply elem_of_seq in Hi. lia. }
    rewrite Hmap. done.
  Qed.
End sample.

(** The claim would be that the estimates of a naive Bayes classifier in a bag are those of
    the drawn rows.  Instead the count for a feature in a class is of the positions at which
    the drawn row has the class and the row of the source that stands there, drawn or not,
    has the feature. *)
Theorem C178_estimates_partial show ko ao co ro fuel drawr drawa want from sel g label bits0 bits n0 n :
  any_order ko → any_order ao → any_order co → bernoulli_data show from label bits0 → finds_own from →
  (Z.of_nat (gr_size from).2 < 2 ^ 53)%Z → (∀ r, r < (gr_size from).2 → drawr r < (gr_size from).2) →
  training_instances ao co ro fuel drawr drawa want from = Ok (sel, g) →
  (∀ f a s r, others g !! f = Some a → gr_get_attribute from a = Ok s → r < (gr_size from).2 →
     ∃ raw, gr_get from s r = Ok raw ∧ reads_bit raw (bits r f)) →
  nb_fit show ko n0 g = Ok n →
  let rows := (gr_size from).2 in let drawn r := label (drawr r) in
  nb_training n = rows ∧ (∀ c k, nb_class n !! c = Some k ↔ k = in_class drawn rows c ∧ 0 < k) ∧
  ∀ r, r < rows → ∃ ps, nb_cond n !! drawn r = Some ps ∧ length ps = length (others g) ∧
    ∀ f p, ps !! f = Some p →
      nearest p (INR (in_class_with drawn bits rows (drawn r) f + 1) / INR (in_class drawn rows (drawn r) + 1))%R.
Proof.
  intros Hko Hao Hco Hdata Hown Hsz Hdraw Htr Hbits Hfit.
  pose proof Hdata as (_ & Hd & Hcls & Hl & _).
  assert (NoDup (gr_class_attrs from)) as Hnd.
  { destruct (gr_class_attrs from) as [|c [|]]; try discriminate Hl. apply NoDup_singleton. }
  pose proof (mixed_data _ _ _ _ _ _ _ _ _ _ Hao Hco Hd Hown Hcls Hnd Htr show label bits bits0 Hdata Hdraw Hbits) as Hm.
  rewrite (fit_mixed _ _ _ _ _ _ _ _ _ _ Hao Hco Hd Hown Hcls Hnd Htr show label bits bits0 Hdata Hdraw Hbits) in Hfit.
  destruct (sel_shape _ _ _ _ _ _ _ _ _ _ Hao Hco Hd Hown Hcls Hnd Htr) as (_ & _ & _ & _ & _ & _ & Hz & _).
  change (gr_size g) with (gr_size (mixed from g)) in Hz. rewrite <- Hz in Hsz.
  destruct (C64_estimates show ko (mixed from g) _ bits n0 n Hko Hm Hsz Hfit) as (H1 & _ & H3 & _ & H5).
  rewrite Hz in *. cbv zeta. split; [done|]. split; [done|].
  intros r Hr. destruct (H5 r Hr) as (ps & Hp & Hlen & Hall). exists ps. split; [done|]. split; [done|].
  intros f p Hf. by destruct (Hall f p Hf) as [H _].
Qed.
Print Assumptions C178_estimates_partial.

(** ** C178: a bag of naive Bayes classifiers can learn the opposite of its data *)

(** Two rows: p, not q, class u and q, not p, class v; each is drawn once, in another order. *)
Definition bn_rows : list (list N) := [[1;0;0];[0;1;1]]%N.
Definition bn_swap (i : nat) : nat := 1 - i.

(** What the classifier answers for the training rows. *)
Definition bn_says (drawr : nat → nat) (from : grid) : res (list string) :=
  p ← training_instances (λ l, l) (λ l, l) (λ l, l) 10 drawr (λ i, i) 2 from;
  n ← nb_fit t_show (λ l, l) nb_new p.2;
  ret ← nb_predict (λ l, l) n_log ex_parse (λ l, l) 64 n from;
  res_mapM (get_class t_show (dense_grid (map_to_list (d_class ret)) ret)) (seq 0 (gr_size from).2).

(** The claim would be that the classifier is right about rows whose features tell their
    classes, if all of them are drawn.  It is if they are drawn in order. *)
Theorem C178_refuted : ∃ from label bits drawr,
  sane_log n_log ∧ bernoulli_data t_show from label bits ∧ (gr_size from).2 = 2 ∧
  map drawr [0; 1] ≡ₚ [0; 1] ∧ label 0 ≠ label 1 ∧
  bn_says drawr from = Ok [label 1; label 0] ∧ bn_says (λ i, i) from = Ok [label 0; label 1].
Proof.
  exists (n_grid bn_rows), (n_label bn_rows), (n_bits bn_rows), bn_swap.
  destruct (n_data bn_rows ltac:(vm_compute; reflexivity)) as (H1 & H2 & _).
  split; [exact n_log_sane|]. split; [exact H1|]. split; [exact H2|]. split; [apply Permutation_swap|].
  split; [vm_compute; discriminate|]. split; vm_compute; reflexivity.
Qed.
Print Assumptions C178_refuted.

(** The hypotheses of [C178_estimates_partial] for that table.  Both features count for the
    class of the other row: the estimates are 1/2 and 1 for u, 1 and 1/2 for v. *)
Example C178_ex :
  bernoulli_data t_show (n_grid bn_rows) (n_label bn_rows) (n_bits bn_rows) ∧ finds_own (n_grid bn_rows) ∧
  (∀ r, r < 2 → bn_swap r < 2) ∧
  match training_instances (λ l, l) (λ l, l) (λ l, l) 10 bn_swap (λ i, i) 2 (n_grid bn_rows) with
  | Ok (_, g) =>
      others g = [np; nq] ∧
      match nb_fit t_show (λ l, l) nb_new g with
      | Ok n => map bits_of_b64 (default [] (nb_cond n !! "u")) = [0x3FE0000000000000; 0x3FF0000000000000]%Z ∧
                map bits_of_b64 (default [] (nb_cond n !! "v")) = [0x3FF0000000000000; 0x3FE0000000000000]%Z
      | _ => False
      end
  | _ => False
  end.
Proof.
  destruct (n_data bn_rows ltac:(vm_compute; reflexivity)) as (H1 & _).
  split; [exact H1|]. split; [apply own_check_ok; vm_compute; reflexivity|].
  split; [intros r Hr; unfold bn_swap; lia|].
  vm_compute. split; [reflexivity|]. split; reflexivity.
Qed.
