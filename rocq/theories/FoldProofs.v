(** Proofs about cross-fold validation. *)
From Verif Require Import Prelude AttrModel StoreModel DenseModel DenseProofs GridModel
  GridSpec GridProofs ConfModel ConfSpec ConfProofs FoldSpec.
Local Open Scope nat_scope.

Lemma fold_map_lookup draws rows f :
  fold_test (fold_map draws rows) f = filter (λ i, draws i = f) (seq 0 rows).
Proof.
  unfold fold_test, fold_map. induction rows as [|n IH].
  { simpl. by rewrite lookup_empty. }
  rewrite seq_S, foldl_app, filter_app, <- IH. simpl.
  set (m := foldl _ _ _). clearbody m. clear IH.
  destruct (decide (draws n = f)) as [<-|Hne].
  - rewrite lookup_insert. rewrite filter_cons_True by done. simpl.
    destruct (m !! draws n) eqn:E; simpl; [by rewrite E|]. by rewrite lookup_insert.
  - rewrite lookup_insert_ne by done. rewrite filter_cons_False by done.
    rewrite filter_nil, app_nil_r.
    destruct (m !! draws n); [done|]. by rewrite lookup_insert_ne.
Qed.

Lemma fold_train_concat m folds i :
  fold_train m folds i =
  concat (map (fold_test m) (filter (λ j, j ≠ i) (seq 0 folds))).
Proof.
  unfold fold_train.
  enough (∀ l acc, foldl (λ acc j, if i =? j then acc else acc ++ default [] (m !! j)) acc l
    = acc ++ concat (map (fold_test m) (filter (λ j, j ≠ i) l))) as H by apply H.
  induction l as [|j l IH]; intros acc; simpl; [by rewrite app_nil_r|].
  rewrite IH. destruct (Nat.eqb_spec i j) as [->|Hne].
  - rewrite filter_cons_False by naive_solver. done.
  - rewrite filter_cons_True by congruence. simpl. by rewrite app_assoc.
Qed.

(** Splitting a list by a function into finitely many classes. *)
Lemma concat_classes (draws : nat → nat) (fs l : list nat) :
  NoDup fs → (∀ i, i ∈ l → draws i ∈ fs) →
  concat (map (λ f, filter (λ i, draws i = f) l) fs) ≡ₚ l.
Proof.
  revert l. induction fs as [|f fs IH]; intros l Hnd Hin; simpl.
  - destruct l as [|x l]; [done|]. exfalso. specialize (Hin x). rewrite elem_of_nil in Hin.
    apply Hin. left.
  - apply NoDup_cons in Hnd as [Hf Hnd].
    transitivity (filter (λ i, draws i = f) l ++ filter (λ i, draws i ≠ f) l).
    2:{ clear. induction l as [|x l IH]; [done|].
        destruct (decide (draws x = f)).
        - rewrite (filter_cons_True (λ i, draws i = f)) by done.
          rewrite (filter_cons_False (λ i, draws i ≠ f)) by naive_solver. simpl. by f_equiv.
        - rewrite (filter_cons_False (λ i, draws i = f)) by done.
          rewrite (filter_cons_True (λ i, draws i ≠ f)) by done.
          rewrite <- Permutation_middle. by f_equiv. }
    f_equiv. rewrite <- (IH (filter (λ i, draws i ≠ f) l)); [|done|].
    + match goal with |- ?a ≡ₚ ?b => enough (a = b) as -> by done end. f_equal. apply map_ext_in. intros g Hg. apply elem_of_list_In in Hg.
      rewrite list_filter_filter. apply list_filter_iff. intros x. split; [|naive_solver].
      intros E. split; [done|]. intros E'. apply Hf. by rewrite <- E', E.
    + intros i Hi. apply elem_of_list_filter in Hi as [Hne Hi].
      apply Hin in Hi. apply elem_of_cons in Hi. naive_solver.
Qed.

Lemma concat_perm {A} (l1 l2 : list (list A)) : l1 ≡ₚ l2 → concat l1 ≡ₚ concat l2.
Proof.
  induction 1 as [|x l1 l2 _ IH|x y l|l1 l2 l3 _ IH1 _ IH2]; simpl; [done|..].
  - by rewrite IH.
  - rewrite !app_assoc. f_equiv. apply Permutation_app_comm.
  - by rewrite IH1.
Qed.

Lemma folds_partition draws folds rows :
  (∀ i, i < rows → draws i < folds) →
  let m := fold_map draws rows in
  concat (map (fold_test m) (seq 0 folds)) ≡ₚ seq 0 rows ∧
  ∀ i, i < folds → fold_test m i ++ fold_train m folds i ≡ₚ seq 0 rows.
Proof.
  intros Hd m.
  assert (concat (map (fold_test m) (seq 0 folds)) ≡ₚ seq 0 rows) as H.
  { rewrite (map_ext _ (λ f, filter (λ i, draws i = f) (seq 0 rows)))
      by (intros; apply fold_map_lookup).
    apply concat_classes; [apply NoDup_seq|]. intros i Hi. apply elem_of_seq in Hi.
    apply elem_of_seq. specialize (Hd i). lia. }
  split; [done|]. intros i Hi. rewrite <- H. rewrite fold_train_concat.
  change (fold_test m i ++ concat (map (fold_test m) (filter (λ j, j ≠ i) (seq 0 folds))))
    with (concat (map (fold_test m) (i :: filter (λ j, j ≠ i) (seq 0 folds)))).
  apply concat_perm, Permutation_map.
  apply NoDup_Permutation.
  - apply NoDup_cons. split; [|apply NoDup_filter, NoDup_seq].
    rewrite elem_of_list_filter. naive_solver.
  - apply NoDup_seq.
  - intros x. rewrite elem_of_cons, elem_of_list_filter, elem_of_seq. split.
    + intros [->|[_ ?]]; lia.
    + intros ?. destruct (decide (x = i)); [by left|right]. split; [done|lia].
Qed.

Section run.
  Context {S : Type} (cls : classifier S) (show : nat → N → string)
    (co : list attr → list attr) (ro : list nat → list nat) (data : grid).

  Lemma whole_view_ok rows v :
    view_from_visible data rows (gr_all_attrs data) = Ok v → whole_view v data rows.
  Proof.
    intros H. split; [by eapply view_visible_shows|]. by apply (view_visible_cols _ _ _ _ H).
  Qed.

  Lemma validated_snoc s parts ms s1 test train vtest vtrain s2 s3 pred m :
    validated cls show co ro data s parts ms s1 →
    whole_view vtest data test → whole_view vtrain data train →
    cl_fit cls s1 (view_grid co ro vtrain) = Ok s2 →
    cl_predict cls s2 (view_grid co ro vtest) = Ok (s3, pred) →
    confusion_matrix show (view_grid co ro vtest) pred = Ok m →
    validated cls show co ro data s (parts ++ [(test, train)]) (ms ++ [m]) s3.
  Proof.
    induction 1; intros; simpl; econstructor; eauto. constructor.
  Qed.

  Lemma cross_fold_loop m folds s l s' ms :
    res_foldl (cross_fold_step cls show co ro data m folds) (s, []) l = Ok (s', ms) →
    validated cls show co ro data s
      (map (λ i, (fold_test m i, fold_train m folds i)) l) ms s'.
  Proof.
    revert s' ms. induction l as [|i l IH] using rev_ind; intros s' ms H.
    { simpl in H. injection H as <- <-. constructor. }
    rewrite res_foldl_app, bind_Ok in H. destruct H as ([s1 ms1] & H1 & H).
    apply IH in H1. simpl in H. rewrite bind_Ok in H. destruct H as (acc & H & E).
    injection E as ->. unfold cross_fold_step in H.
    rewrite bind_Ok in H. destruct H as (vtest & Hte & H).
    rewrite bind_Ok in H. destruct H as (vtrain & Htr & H).
    rewrite bind_Ok in H. destruct H as (s2 & Hfit & H).
    rewrite bind_Ok in H. destruct H as ([s3 pred] & Hpred & H).
    rewrite bind_Ok in H. destruct H as (cf & Hcf & H). simpl in *.
    injection H as <- <-. rewrite map_app. simpl.
    eapply validated_snoc; eauto using whole_view_ok.
  Qed.

  Lemma cross_fold_runs s folds draws s' ms :
    cross_fold cls show co ro data s folds draws = Ok (s', ms) →
    (∀ i, i < (gr_size data).2 → draws i < folds) →
    ∃ parts, length parts = folds ∧
      validated cls show co ro data s parts ms s' ∧
      concat (map fst parts) ≡ₚ seq 0 (gr_size data).2 ∧
      Forall (λ p, p.1 ++ p.2 ≡ₚ seq 0 (gr_size data).2) parts.
  Proof.
    unfold cross_fold. destruct ((folds =? 0) && negb _); [done|]. intros H Hd.
    apply cross_fold_loop in H. eexists. split; [|split; [exact H|split]].
    - by rewrite map_length, seq_length.
    - rewrite map_map. simpl. by apply folds_partition.
    - apply Forall_forall. intros p Hp. apply elem_of_list_fmap in Hp as (i & -> & Hi).
      apply elem_of_seq in Hi. simpl. apply folds_partition; [done|lia].
  Qed.

  (** Each matrix counts the rows tested. *)
  Lemma validated_counts s parts ms s' :
    validated cls show co ro data s parts ms s' →
    map (map_sum (map_sum id)) ms = map (λ p, length p.1) parts.
  Proof.
    induction 1 as [|s s1 s2 s' test train vtest vtrain pred m parts ms [Hte _] _ _ _ Hm _ IH];
      simpl; [done|]. f_equal; [|done].
    destruct (confusion_cells _ _ _ _ Hm) as (_ & _ & ->). exact (proj1 Hte).
  Qed.

  Lemma cross_fold_counts s folds draws s' ms :
    cross_fold cls show co ro data s folds draws = Ok (s', ms) →
    (∀ i, i < (gr_size data).2 → draws i < folds) →
    length ms = folds ∧ sum_list (map (map_sum (map_sum id)) ms) = (gr_size data).2.
  Proof.
    intros H Hd. destruct (cross_fold_runs _ _ _ _ _ H Hd) as (parts & Hl & Hv & Hp & _).
    pose proof (validated_counts _ _ _ _ Hv) as E. split.
    - rewrite <- Hl. apply (f_equal length) in E. by rewrite !map_length in E.
    - rewrite E. apply Permutation_length in Hp. rewrite seq_length in Hp. rewrite <- Hp.
      clear. induction parts as [|p l IH]; simpl; [done|]. by rewrite app_length, IH.
  Qed.

  (** It succeeds whenever the classifier does. *)
  Lemma cross_fold_ok s folds draws :
    folds ≠ 0 →
    (∀ a, a ∈ gr_all_attrs data → ∃ sp, gr_get_attribute data a = Ok sp) →
    (∀ s v, ∃ s1, cl_fit cls s (view_grid co ro v) = Ok s1) →
    (∀ s v rows, whole_view v data rows → ∃ s1 pred m,
      cl_predict cls s (view_grid co ro v) = Ok (s1, pred) ∧
      confusion_matrix show (view_grid co ro v) pred = Ok m) →
    ∃ s' ms, cross_fold cls show co ro data s folds draws = Ok (s', ms).
  Proof.
    intros Hf Ha Hfit Hpred. unfold cross_fold. rewrite (proj2 (Nat.eqb_neq _ _) Hf). simpl.
    generalize (fold_map draws (gr_size data).2) as m. intros m.
    enough (∀ l acc, ∃ s' ms,
      res_foldl (cross_fold_step cls show co ro data m folds) acc l = Ok (s', ms)) as H
      by apply H.
    induction l as [|i l IH]; intros [s0 ms0]; simpl; [by eauto|].
    destruct (view_visible_total data (fold_test m i) (gr_all_attrs data) Ha) as [vte Hte].
    destruct (view_visible_total data (fold_train m folds i) (gr_all_attrs data) Ha) as [vtr Htr].
    destruct (Hfit s0 vtr) as [s1 Hs1].
    destruct (Hpred s1 vte _ (whole_view_ok _ _ Hte)) as (s2 & pred & cf & Hp & Hc).
    assert (cross_fold_step cls show co ro data m folds (s0, ms0) i = Ok (s2, ms0 ++ [cf])) as ->.
    { unfold cross_fold_step. rewrite Hte. cbn [mbind res_bind]. rewrite Htr.
      cbn [mbind res_bind fst snd]. rewrite Hs1. cbn [mbind res_bind]. rewrite Hp.
      cbn [mbind res_bind fst snd]. rewrite Hc. reflexivity. }
    apply IH.
  Qed.
End run.
