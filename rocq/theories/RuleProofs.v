(** Proofs about the rule generators of decision trees. *)
From Coq Require Import QArith Lqa.
From Verif Require Import Prelude FloatModel FloatOrder AttrModel AttrSpec AttrProofs StoreModel DenseModel DenseProofs
  GridModel GridSpec GridProofs ConfModel FilterModel Id3Model Id3Spec RuleModel RuleSpec.
From Flocq Require Import IEEE754.BinarySingleNaN IEEE754.Bits IEEE754.Binary.
Local Open Scope nat_scope.

(** ** Comparisons *)

Definition fnan (x : binary64) : bool := is_nan 53 1024 x.

Lemma lt_spec x y : float_lt x y = true ↔ fnan x = false ∧ fnan y = false ∧ (fkey x < fkey y)%Z.
Proof.
  unfold float_lt, fnan. destruct (Bcompare 53 1024 x y) as [c|] eqn:E.
  - apply fcompare_spec in E as (Hx & Hy & E). rewrite Hx, Hy. rewrite <- Z.compare_lt_iff, E.
    destruct c; naive_solver.
  - split; [done|]. intros (Hx & Hy & _). by rewrite fkey_compare in E.
Qed.

Lemma gt_spec x y : float_gt x y = true ↔ fnan x = false ∧ fnan y = false ∧ (fkey y < fkey x)%Z.
Proof.
  unfold float_gt, fnan. destruct (Bcompare 53 1024 x y) as [c|] eqn:E.
  - apply fcompare_spec in E as (Hx & Hy & E). rewrite Hx, Hy. rewrite <- Z.compare_gt_iff, E.
    destruct c; naive_solver.
  - split; [done|]. intros (Hx & Hy & _). by rewrite fkey_compare in E.
Qed.

Lemma eq_spec x y : float_eq x y = true ↔ fnan x = false ∧ fnan y = false ∧ fkey x = fkey y.
Proof.
  unfold float_eq, fnan. destruct (Bcompare 53 1024 x y) as [c|] eqn:E.
  - apply fcompare_spec in E as (Hx & Hy & E). rewrite Hx, Hy. rewrite <- Z.compare_eq_iff, E.
    destruct c; naive_solver.
  - split; [done|]. intros (Hx & Hy & _). by rewrite fkey_compare in E.
Qed.

Lemma lt_false x y : float_lt x y = false ↔ (fnan x = false → fnan y = false → (fkey y <= fkey x)%Z).
Proof.
  rewrite <- not_true_iff_false, lt_spec. split.
  - intros H Hx Hy. destruct (Z.lt_ge_cases (fkey x) (fkey y)); [|done]. by destruct H.
  - intros H (Hx & Hy & Hlt). specialize (H Hx Hy). lia.
Qed.

Lemma gt_false x y : float_gt x y = false ↔ (fnan x = false → fnan y = false → (fkey x <= fkey y)%Z).
Proof.
  rewrite <- not_true_iff_false, gt_spec. split.
  - intros H Hx Hy. destruct (Z.lt_ge_cases (fkey y) (fkey x)); [|done]. by destruct H.
  - intros H (Hx & Hy & Hlt). specialize (H Hx Hy). lia.
Qed.

(** ** The search for a threshold ends *)

Lemma advance_nan refs v s0 s1 : fnan v = true → advance refs v s0 s1 = (0, (s0, s1)).
Proof.
  intros Hv. destruct refs as [|[x c] refs]; [done|]. cbn [advance].
  assert (float_lt x v = false) as ->; [|done]. apply lt_false. congruence.
Qed.

Section search.
  Context (fast : list nat → list nat → binary64).

  Definition work (refs : list split_ref) (st : search_state) : nat :=
    2 * (length refs - ss_i st) +
    match refs !! ss_i st, refs !! S (ss_i st) with
    | Some (x, _), Some (y, _) => if float_eq (middle x y) (ss_prev st) then 0 else 1
    | _, _ => 0
    end.

  Definition middles_numbers (refs : list split_ref) : Prop :=
    ∀ v, is_middle refs v → is_nan 53 1024 v = false.

  Lemma work_bound refs st : work refs st ≤ 2 * (length refs - ss_i st) + 1.
  Proof. unfold work. repeat case_match; lia. Qed.

  Lemma step_work refs st st' :
    middles_numbers refs → search_step fast refs st = Some st' → work refs st' < work refs st.
  Proof.
    intros Hnan. unfold search_step.
    destruct (refs !! ss_i st) as [[x cx]|] eqn:Ex; [|done].
    destruct (refs !! S (ss_i st)) as [[y cy]|] eqn:Ey; [|done].
    pose proof (lookup_lt_Some _ _ _ Ex) as Hi.
    destruct (float_eq (middle x y) (ss_prev st)) eqn:Eeq.
    - intros [= <-]. unfold work at 2. rewrite Ex, Ey, Eeq.
      eapply Nat.le_lt_trans; [apply work_bound|]. cbn [ss_i]. lia.
    - set (r := advance _ _ _ _).
      assert (∀ e w, work refs (Search (ss_i st + r.1) (ss_ind st + r.1) (middle x y) r.2.1 r.2.2 e w) < work refs st) as H.
      { intros e w. destruct (decide (r.1 = 0)) as [E|E].
        - rewrite E, !Nat.add_0_r. unfold work. cbn [ss_i ss_prev]. rewrite Ex, Ey, Eeq.
          assert (float_eq (middle x y) (middle x y) = true) as ->; [|lia].
          apply eq_spec. assert (fnan (middle x y) = false); [|done]. apply Hnan.
          exists (ss_i st), (x, cx), (y, cy). done.
        - eapply Nat.le_lt_trans; [apply work_bound|]. unfold work. rewrite Ex, Ey, Eeq.
          cbn [ss_i]. lia. }
      destruct (float_lt _ _); intros [= <-]; apply H.
  Qed.

  Lemma search_ends fuel refs st :
    middles_numbers refs → work refs st < fuel → ∃ r, search fast fuel refs st = Some r.
  Proof.
    intros Hnan. revert st. induction fuel as [|fuel IH]; intros st Hw; [lia|].
    cbn [search]. destruct (search_step fast refs st) as [st'|] eqn:E; [|eauto].
    apply IH. apply step_work in E; [lia|done].
  Qed.

  Lemma best_threshold_ends classes refs fuel :
    middles_numbers refs → 2 * length refs + 1 < fuel →
    ∃ r, best_threshold fast fuel classes refs = Some r.
  Proof.
    intros Hnan Hf. apply search_ends; [done|].
    eapply Nat.le_lt_trans; [apply work_bound|]. cbn [search_start ss_i]. lia.
  Qed.

  (** ... unless a middle is not a number. *)
  Lemma search_hangs fuel refs st x y :
    refs !! ss_i st = Some x → refs !! S (ss_i st) = Some y → is_nan 53 1024 (middle x.1 y.1) = true →
    search fast fuel refs st = None.
  Proof.
    intros Hx Hy Hnan. revert st Hx Hy. induction fuel as [|fuel IH]; intros st Hx Hy; [done|].
    cbn [search]. unfold search_step. rewrite Hx, Hy. destruct x as [x cx], y as [y cy]. cbn [fst] in Hnan.
    assert (float_eq (middle x y) (ss_prev st) = false) as ->.
    { apply not_true_iff_false. rewrite eq_spec. unfold fnan. rewrite Hnan. naive_solver. }
    rewrite (advance_nan _ _ _ _ Hnan). cbn [fst snd]. rewrite !Nat.add_0_r.
    destruct (float_lt _ _); apply IH; done.
  Qed.

  Lemma best_threshold_hangs fuel classes refs x y :
    refs !! 0 = Some x → refs !! 1 = Some y → is_nan 53 1024 (middle x.1 y.1) = true →
    best_threshold fast fuel classes refs = None.
  Proof. intros Hx Hy. by apply search_hangs. Qed.

  (** ** The threshold found *)

  Lemma counts_lookup n l j :
    class_counts n l !! j = if decide (j < n) then Some (length (filter (λ x, x.2 = j) l)) else None.
  Proof.
    unfold class_counts. change (map ?f ?l) with (f <$> l). rewrite list_lookup_fmap.
    case_decide as E.
    - by rewrite lookup_seq_lt by done.
    - rewrite lookup_seq_ge by lia. done.
  Qed.

  Lemma counts_snoc n l x c : up c (class_counts n l) = class_counts n (l ++ [(x, c)]).
  Proof.
    apply list_eq. intros j. unfold up. destruct (decide (j = c)) as [->|Hne].
    - rewrite list_lookup_alter, !counts_lookup. case_decide; [|done]. cbn [fmap option_fmap option_map].
      rewrite filter_app, app_length, (filter_cons_True (λ x, x.2 = c)) by done. cbn [filter list_filter length].
      f_equal. change (length (@filter _ (list split_ref) _ (λ x, x.2 = c) _ [])) with 0. lia.
    - rewrite list_lookup_alter_ne, !counts_lookup by done. case_decide; [|done].
      rewrite filter_app, app_length, (filter_cons_False (λ x, x.2 = j)) by naive_solver.
      f_equal. change (length (@filter _ (list split_ref) _ (λ x, x.2 = j) _ [])) with 0. lia.
  Qed.

  Lemma counts_tail n l x c : down c (class_counts n ((x, c) :: l)) = class_counts n l.
  Proof.
    apply list_eq. intros j. unfold down. destruct (decide (j = c)) as [->|Hne].
    - rewrite list_lookup_alter, !counts_lookup. case_decide; [|done]. cbn [fmap option_fmap option_map].
      by rewrite (filter_cons_True (λ x, x.2 = c)) by done.
    - rewrite list_lookup_alter_ne, !counts_lookup by done. case_decide; [|done].
      by rewrite (filter_cons_False (λ x, x.2 = j)) by naive_solver.
  Qed.

  Lemma start_counts n refs :
    foldl (λ s x, up x.2 s) (replicate n 0) refs = class_counts n refs ∧
    replicate n 0 = class_counts n [].
  Proof.
    assert (replicate n 0 = class_counts n []) as E0.
    { apply list_eq. intros j. rewrite counts_lookup. case_decide.
      - by apply lookup_replicate_2.
      - apply lookup_ge_None. rewrite replicate_length. lia. }
    split; [|done]. induction refs as [|[x c] refs IH] using rev_ind; [done|].
    rewrite foldl_app, IH. cbn [foldl snd]. apply counts_snoc.
  Qed.

  Definition entropy_at (n : nat) (refs : list split_ref) (k : nat) : binary64 :=
    fast (class_counts n (take (S k) refs)) (class_counts n (drop (S k) refs)).

  (** The best of the thresholds before position [k]. *)
  Definition best_before (n : nat) (refs : list split_ref) (k : nat) (e v : binary64) : Prop :=
    fnan e = false ∧
    (∀ j, j < k → S j < length refs → float_lt (entropy_at n refs j) e = false) ∧
    ((e = float_inf ∧ v = float_inf) ∨
     ∃ j x y, j < k ∧ refs !! j = Some x ∧ refs !! S j = Some y ∧ v = middle x.1 y.1 ∧
       e = entropy_at n refs j).

  Lemma search_best n refs fuel k prev e v :
    well_apart refs → length refs - k < fuel →
    (∀ x, refs !! k = Some x → fnan prev = true ∨ float_lt prev x.1 = true) →
    best_before n refs k e v →
    ∃ e' v', search fast fuel refs
        (Search k k prev (class_counts n (take k refs)) (class_counts n (drop k refs)) e v) =
        Some (e', v') ∧ best_before n refs (length refs) e' v'.
  Proof.
    intros Hw. revert k prev e v. induction fuel as [|fuel IH]; intros k prev e v Hf Hprev Hbest; [lia|].
    cbn [search]. unfold search_step. cbn [ss_i ss_ind ss_prev ss_s0 ss_s1 ss_best ss_val].
    assert ((refs !! k = None ∨ refs !! S k = None) → ∃ e' v', Some (e, v) = Some (e', v') ∧
      best_before n refs (length refs) e' v') as Hstop.
    { intros Hnone. exists e, v. split; [done|].
      assert (length refs ≤ S k) as Hlen.
      { destruct Hnone as [H|H]; apply lookup_ge_None in H; lia. }
      destruct Hbest as (H1 & H2 & H3). split; [done|]. split.
      - intros j Hj Hsj. apply H2; [lia|done].
      - destruct H3 as [H3|(j & x & y & Hj & Hx & Hy & H3)]; [by left|right].
        exists j, x, y. split; [|done]. by eapply lookup_lt_Some. }
    destruct (refs !! k) as [[x cx]|] eqn:Ex; [|by apply Hstop; left].
    destruct (refs !! S k) as [[y cy]|] eqn:Ey; [|by apply Hstop; right]. clear Hstop.
    destruct (Hw k (x, cx) (y, cy) Ex Ey) as [Hxm Hmy]. cbn [fst] in *.
    apply lt_spec in Hxm as (Nx & Nm & Lxm). apply lt_spec in Hmy as (_ & Ny & Lmy).
    assert (float_eq (middle x y) prev = false) as ->.
    { apply not_true_iff_false. rewrite eq_spec. intros (_ & Hp & Heq).
      destruct (Hprev _ eq_refl) as [H|H]; [congruence|].
      cbn [fst] in H. apply lt_spec in H as (_ & _ & H). lia. }
    assert (drop k refs = (x, cx) :: (y, cy) :: drop (S (S k)) refs) as Hdrop.
    { rewrite (drop_S _ _ _ Ex), (drop_S _ _ _ Ey). done. }
    assert (advance (drop k refs) (middle x y) (class_counts n (take k refs)) (class_counts n (drop k refs)) =
      (1, (class_counts n (take (S k) refs), class_counts n (drop (S k) refs)))) as ->.
    { rewrite Hdrop. cbn [advance]. assert (float_lt x (middle x y) = true) as -> by (by apply lt_spec).
      assert (float_lt y (middle x y) = false) as -> by (apply lt_false; lia).
      cbn [fst snd]. f_equal. f_equal.
      - rewrite (counts_snoc n (take k refs) x cx). by rewrite <- (take_S_r _ _ _ Ex).
      - rewrite counts_tail, (drop_S _ _ _ Ey). done. }
    cbn [fst snd]. rewrite Nat.add_1_r.
    pose proof (lookup_lt_Some _ _ _ Ex) as Hk.
    change (fast _ _) with (entropy_at n refs k).
    destruct (float_lt (entropy_at n refs k) e) eqn:El.
    - apply IH; [lia| |].
      + intros z Hz. right. rewrite Ey in Hz. injection Hz as <-. by apply lt_spec.
      + apply lt_spec in El as (N1 & N2 & L). destruct Hbest as (H1 & H2 & H3).
        split; [done|]. split.
        * intros j Hj Hsj. apply lt_false. intros Nj _.
          destruct (decide (j = k)) as [->|Hne]; [lia|].
          specialize (H2 j ltac:(lia) Hsj). rewrite lt_false in H2. specialize (H2 Nj N2). lia.
        * right. exists k, (x, cx), (y, cy). split; [lia|]. done.
    - apply IH; [lia| |].
      + intros z Hz. right. rewrite Ey in Hz. injection Hz as <-. by apply lt_spec.
      + destruct Hbest as (H1 & H2 & H3). split; [done|]. split.
        * intros j Hj Hsj. destruct (decide (j = k)) as [->|Hne]; [done|]. apply H2; [lia|done].
        * destruct H3 as [H3|(j & x' & y' & Hj & H3)]; [by left|right].
          exists j, x', y'. split; [lia|done].
  Qed.

  (** Strict order of all references. *)
  Lemma apart_chain refs i j x y :
    well_apart refs → i < j → refs !! i = Some x → refs !! j = Some y →
    fnan x.1 = false ∧ fnan y.1 = false ∧ (fkey x.1 < fkey y.1)%Z.
  Proof.
    intros Hw Hij Hx. revert y. induction Hij as [|j Hij IH]; intros y Hy.
    - destruct (Hw i x y Hx Hy) as [H1 H2]. apply lt_spec in H1 as (N1 & N2 & L1).
      apply lt_spec in H2 as (_ & N3 & L2). split; [done|]. split; [done|]. lia.
    - destruct (lookup_lt_is_Some_2 refs j) as [z Hz].
      { apply lookup_lt_Some in Hy. lia. }
      destruct (IH z Hz) as (N1 & N2 & L1). destruct (Hw j z y Hz Hy) as [H1 H2].
      apply lt_spec in H1 as (_ & N4 & L2). apply lt_spec in H2 as (_ & N3 & L3).
      split; [done|]. split; [done|]. lia.
  Qed.

  Lemma filter_all {A} (P : A → Prop) `{HP : !∀ x, Decision (P x)} (l : list A) :
    (∀ x, x ∈ l → P x) → filter P l = l.
  Proof using.
    induction l as [|x l IHl]; intros Hl; [done|]. rewrite filter_cons_True by (apply Hl; left).
    f_equal. apply IHl. intros y Hy. apply Hl. by right.
  Qed.
  Lemma filter_none {A} (P : A → Prop) `{HP : !∀ x, Decision (P x)} (l : list A) :
    (∀ x, x ∈ l → ¬ P x) → filter P l = [].
  Proof using.
    induction l as [|x l IHl]; intros Hl; [done|]. rewrite filter_cons_False by (apply Hl; left).
    apply IHl. intros y Hy. apply Hl. by right.
  Qed.

  Lemma entropy_at_threshold n refs k x y :
    well_apart refs → refs !! k = Some x → refs !! S k = Some y →
    threshold_entropy fast n refs (middle x.1 y.1) = entropy_at n refs k.
  Proof.
    intros Hw Hx Hy. destruct (Hw k x y Hx Hy) as [H1 H2].
    apply lt_spec in H1 as (N1 & N2 & L1). apply lt_spec in H2 as (_ & N3 & L2).
    assert (∀ z, z ∈ take (S k) refs → float_gt z.1 (middle x.1 y.1) = false) as Hlow.
    { intros z Hz. apply elem_of_list_lookup in Hz as [j Hj].
      assert (j < S k) as Hlt by (apply lookup_lt_Some in Hj; rewrite take_length in Hj; lia).
      rewrite lookup_take in Hj by done. apply gt_false. intros _ _.
      destruct (decide (j = k)) as [->|Hne]; [assert (z = x) as -> by congruence; lia|].
      destruct (apart_chain refs j k z x Hw ltac:(lia) Hj Hx) as (_ & _ & L). lia. }
    assert (∀ z, z ∈ drop (S k) refs → float_gt z.1 (middle x.1 y.1) = true) as Hhigh.
    { intros z Hz. apply elem_of_list_lookup in Hz as [j Hj]. rewrite lookup_drop in Hj.
      apply gt_spec. destruct (decide (j = 0)) as [->|Hne].
      - rewrite Nat.add_0_r in Hj. assert (z = y) as -> by congruence. done.
      - destruct (apart_chain refs (S k) (S k + j) y z Hw ltac:(lia) Hy Hj) as (_ & N & L).
        split; [done|]. split; [done|]. lia. }
    unfold threshold_entropy, entropy_at.
    assert (filter (λ x0, float_gt x0.1 (middle x.1 y.1) = false) refs = take (S k) refs) as ->.
    { rewrite <- (take_drop (S k) refs) at 1. rewrite filter_app, filter_all, filter_none; [by rewrite app_nil_r| |done].
      intros z Hz. rewrite Hhigh; done. }
    assert (filter (λ x0, float_gt x0.1 (middle x.1 y.1) = true) refs = drop (S k) refs) as ->; [|done].
    rewrite <- (take_drop (S k) refs) at 1. rewrite filter_app, filter_none, filter_all; [done|done|].
    intros z Hz. rewrite Hlow; done.
  Qed.

  Lemma best_threshold_best n refs fuel :
    well_apart refs → length refs < fuel →
    ∃ e v, best_threshold fast fuel n refs = Some (e, v) ∧
      (∀ w, is_middle refs w → float_lt (threshold_entropy fast n refs w) e = false) ∧
      ((e = float_inf ∧ v = float_inf) ∨
       (is_middle refs v ∧ e = threshold_entropy fast n refs v)).
  Proof.
    intros Hw Hf. unfold best_threshold, search_start.
    destruct (start_counts n refs) as [E1 E2]. rewrite E1, E2.
    destruct (search_best n refs fuel 0 float_nan float_inf float_inf Hw) as (e & v & Hs & _ & Hmin & Hbest).
    - lia.
    - intros x _. left. vm_compute. reflexivity.
    - split; [reflexivity|]. split; [lia|]. by left.
    - exists e, v. split; [exact Hs|]. split.
      + intros w (k & x & y & Hx & Hy & ->). rewrite (entropy_at_threshold n refs k x y Hw Hx Hy).
        apply Hmin; by eapply lookup_lt_Some.
      + destruct Hbest as [?|(j & x & y & _ & Hx & Hy & -> & ->)]; [by left|right].
        split; [by exists j, x, y|]. symmetry. by apply entropy_at_threshold.
  Qed.
End search.

(** ** Choosing an attribute *)

Lemma pick_max_spec score (p : attr → binary64 * binary64) l best r :
  (∀ a, a ∈ l → score a = Ok (p a)) → fnan best = false →
  ∃ r', pick_max score l best r = Ok r' ∧
    ((r' = r ∧ ∀ a, a ∈ l → float_gt (p a).1 best = false) ∨
     ∃ a, a ∈ l ∧ r' = Rule (Some a) (p a).2 ∧ float_gt (p a).1 best = true ∧
       ∀ b, b ∈ l → float_gt (p b).1 (p a).1 = false).
Proof.
  revert best r. induction l as [|a l IH]; intros best r Hs Hbest.
  - exists r. split; [done|]. left. split; [done|]. intros a Ha. by apply elem_of_nil in Ha.
  - cbn [pick_max]. rewrite (Hs a) by left. cbn [mbind res_bind].
    assert (∀ b, b ∈ l → score b = Ok (p b)) as Hs' by (intros b Hb; apply Hs; by right).
    destruct (float_gt (p a).1 best) eqn:E.
    + pose proof E as E'. apply gt_spec in E' as (Na & _ & L).
      destruct (IH (p a).1 (Rule (Some a) (p a).2) Hs' Na) as (r' & Hr' & H).
      exists r'. split; [done|]. right. destruct H as [[-> Hall]|(b & Hb & -> & Hgt & Hall)].
      * exists a. split; [left|]. split; [done|]. split; [done|]. intros b Hb.
        apply elem_of_cons in Hb as [->|Hb]; [|by apply Hall]. apply gt_false. lia.
      * pose proof Hgt as Hgt'. apply gt_spec in Hgt' as (Nb & _ & Lb).
        exists b. split; [by right|]. split; [done|]. split; [apply gt_spec; split; [done|]; split; [done|lia]|].
        intros d Hd. apply elem_of_cons in Hd as [->|Hd]; [|by apply Hall]. apply gt_false. lia.
    + destruct (IH best r Hs' Hbest) as (r' & Hr' & H).
      exists r'. split; [done|]. destruct H as [[-> Hall]|(b & Hb & -> & Hgt & Hall)].
      * left. split; [done|]. intros b Hb. apply elem_of_cons in Hb as [->|Hb]; [done|by apply Hall].
      * right. exists b. split; [by right|]. split; [done|]. split; [done|].
        intros d Hd. apply elem_of_cons in Hd as [->|Hd]; [|by apply Hall].
        apply gt_spec in Hgt as (Nb & _ & Lb). apply gt_false. intros Na _.
        rewrite gt_false in E. specialize (E Na Hbest). lia.
Qed.

(** A rule that is best among [l] for the gains and thresholds [p]. *)
Lemma pick_max_best score (p : attr → binary64 * binary64) l v :
  (∀ a, a ∈ l → score a = Ok (p a)) →
  ∃ r, pick_max score l float_neg_inf (Rule None v) = Ok r ∧
    match ru_attr r with
    | Some a => a ∈ l ∧ ru_val r = (p a).2 ∧ is_nan 53 1024 (p a).1 = false ∧
        ∀ b, b ∈ l → float_gt (p b).1 (p a).1 = false
    | None => ∀ b, b ∈ l → float_gt (p b).1 float_neg_inf = false
    end.
Proof.
  intros H. destruct (pick_max_spec score p l float_neg_inf (Rule None v) H) as (r & Hr & Hb); [done|].
  exists r. split; [done|]. destruct Hb as [[-> Hall]|(a & Ha & -> & Hgt & Hall)]; cbn [ru_attr ru_val].
  - done.
  - apply gt_spec in Hgt as (N & _). done.
Qed.

Lemma pick_max_in score l best r r' a :
  pick_max score l best r = Ok r' → ru_attr r' = Some a → ru_attr r = Some a ∨ a ∈ l.
Proof.
  intros H Ha. revert best r H. induction l as [|b l IH]; intros best r H; cbn [pick_max] in H.
  - left. congruence.
  - apply bind_Ok in H as (p & _ & H). destruct (float_gt p.1 best).
    + destruct (IH _ _ H) as [E|E]; [cbn in E; right; injection E as ->; left|right; by right].
    + destruct (IH _ _ H) as [E|E]; [by left|right; by right].
Qed.

Lemma after_split_entropy fast show sorter se fuel g a p : after_split fast show sorter se fuel g a p →
  entropy_after fast show sorter se fuel g a = Ok p.
Proof.
  unfold after_split, entropy_after. destruct a; [done| |]; intros (m & -> & H1 & H2);
    cbn [mbind res_bind]; destruct p; cbn in *; by subst.
Qed.

Lemma pick_min_in score l best r r' a :
  pick_min score l best r = Ok r' → ru_attr r' = Some a → ru_attr r = Some a ∨ a ∈ l.
Proof.
  intros H Ha. revert best r H. induction l as [|b l IH]; intros best r H; cbn [pick_min] in H.
  - left. congruence.
  - apply bind_Ok in H as (p & _ & H). destruct p.1 as [q|].
    + destruct (match best with Some b => _ | None => _ end).
      * destruct (IH _ _ H) as [E|E]; [cbn in E; right; injection E as ->; left|right; by right].
      * destruct (IH _ _ H) as [E|E]; [by left|right; by right].
    + destruct (IH _ _ H) as [E|E]; [by left|right; by right].
Qed.

Lemma candidates_spec ao g a :
  any_order ao → a ∈ candidates ao g → a ∈ gr_all_attrs g ∧ a ∉ gr_class_attrs g.
Proof.
  intros Hao H. unfold candidates in H.
  destruct (difference_refs_spec (gr_all_attrs g) (gr_class_attrs g) (ao (build_attr_set (gr_all_attrs g))))
    as [_ Hd]; [apply Hao|]. by apply Hd.
Qed.

(** ** Gini *)

Lemma compute_gini_one s : (compute_gini s == 1)%Q.
Proof.
  unfold compute_gini.
  assert (∀ l : list string, foldl (λ p i,
      if Qeq_bool (default 0%Q ((p : gmap string Q) !! i)) 0 then p
      else <[i := (1 / default 0%Q (p !! i))%Q]> p) ∅ l = (∅ : gmap string Q)) as ->.
  { induction l as [|i l IH]; [done|]. cbn [foldl]. rewrite lookup_empty. exact IH. }
  rewrite map_to_list_empty. cbn [foldl]. reflexivity.
Qed.

Lemma total_of_sum {A} (l : list A) f : total_of l f = sum_list (map f l).
Proof.
  unfold total_of. assert (∀ n, foldl (λ n x, n + f x) n l = n + sum_list (map f l)) as H.
  { induction l as [|x l IH]; intros n; cbn [foldl map sum_list]; [unfold sum_list; simpl; lia|].
    rewrite IH. unfold sum_list. cbn [sum_list_with]. unfold id. lia. }
  rewrite H. lia.
Qed.

Lemma average_gini_one s :
  sum_list (map sum_list (sides_of s)) ≠ 0 → ∃ q, average_gini s = Some q ∧ (q == 1)%Q.
Proof.
  intros Ht. unfold average_gini.
  set (total := total_of (map_to_list s) _).
  assert (total = sum_list (map sum_list (sides_of s))) as Et.
  { unfold total. rewrite total_of_sum. unfold sides_of. rewrite map_map. f_equal.
    apply map_ext. intros x. by rewrite total_of_sum. }
  rewrite <- Et in Ht. clearbody total.
  destruct (total =? 0) eqn:E; [apply Nat.eqb_eq in E; lia|]. cbn [andb].
  eexists. split; [reflexivity|].
  assert (∀ l z, (foldl (λ sum x,
      sum + (of_nat (total_of (map_to_list x.2) snd) / of_nat total) * compute_gini x.2)%Q z l ==
      z + inject_Z (Z.of_nat (sum_list (map (λ x : string * gmap string nat, total_of (map_to_list x.2) snd) l))) / of_nat total)%Q) as H.
  { clear -Ht. induction l as [|x l IH]; intros z; cbn [foldl map].
    - unfold sum_list. cbn [sum_list_with]. unfold Qdiv. change (inject_Z (Z.of_nat 0)) with 0%Q. ring.
    - rewrite IH, compute_gini_one. 
      set (rest := map (λ x : string * gmap string nat, total_of (map_to_list x.2) snd) l).
      set (one := total_of (map_to_list x.2) snd). clearbody rest one.
      assert (sum_list (one :: rest) = one + sum_list rest) as -> by done.
      rewrite Nat2Z.inj_add, inject_Z_plus. unfold of_nat. unfold Qdiv. ring. }
  rewrite H.
  assert (sum_list (map (λ x : string * gmap string nat, total_of (map_to_list x.2) snd) (map_to_list s)) = total) as ->.
  { rewrite Et. unfold sides_of. rewrite map_map. f_equal. apply map_ext. intros x. by rewrite total_of_sum. }
  unfold of_nat. field. intros Hz. apply Ht.
  assert (inject_Z (Z.of_nat total) == inject_Z 0)%Q as Hz' by exact Hz.
  rewrite inject_Z_injective in Hz'. lia.
Qed.

Lemma pick_min_stays score (p : attr → option Q * binary64) l q r :
  (∀ a, a ∈ l → score a = Ok (p a)) → (q == 1)%Q →
  (∀ a, a ∈ l → ∃ q, (p a).1 = Some q ∧ (q == 1)%Q) →
  pick_min score l (Some q) r = Ok r.
Proof.
  intros Hs Hq H. induction l as [|a l IH]; [done|]. cbn [pick_min]. rewrite (Hs a) by left.
  cbn [mbind res_bind]. destruct (H a) as (qa & Ea & Hqa); [left|]. rewrite Ea.
  assert (Qle_bool q qa = true) as ->.
  { apply Qle_bool_iff. rewrite Hq, Hqa. apply Qle_refl. }
  cbn [negb]. apply IH; intros b Hb; [apply Hs|apply H]; by right.
Qed.

Lemma gini_first fast show sorter fuel a l g
    (p : attr → gmap string (gmap string nat) * binary64) :
  (∀ b, b ∈ a :: l → gini_after fast show sorter fuel g b = Ok (p b)) →
  (∀ b, b ∈ a :: l → sum_list (map sum_list (sides_of (p b).1)) ≠ 0) →
  gini fast show sorter fuel (a :: l) g = Ok (Rule (Some a) (p a).2).
Proof.
  intros Hs Ht. unfold gini. cbn [pick_min]. rewrite (Hs a) by left. cbn [mbind res_bind fst snd].
  destruct (average_gini_one (p a).1) as (q & -> & Hq); [apply Ht; left|].
  apply (pick_min_stays _ (λ b, (average_gini (p b).1, (p b).2))); [|done|].
  - intros b Hb. rewrite (Hs b) by (by right). done.
  - intros b Hb. apply average_gini_one, Ht. by right.
Qed.

(** ** Random attributes *)

Lemma distinct_snoc l a :
  distinct_attrs l → (∀ b, b ∈ l → attr_equals b a = false) → distinct_attrs (l ++ [a]).
Proof.
  intros Hd Ha i j x y Hi Hj He.
  apply lookup_app_Some in Hi as [Hi|[Li Hi]]; apply lookup_app_Some in Hj as [Hj|[Lj Hj]].
  - by eapply Hd.
  - destruct (j - length l); [|done]. injection Hj as <-.
    rewrite (Ha x) in He; [done|]. by eapply elem_of_list_lookup_2.
  - destruct (i - length l); [|done]. injection Hi as <-. apply attr_equals_sym in He.
    rewrite (Ha y) in He; [done|]. by eapply elem_of_list_lookup_2.
  - destruct (i - length l) eqn:Ei; [|done]. destruct (j - length l) eqn:Ej; [|done]. lia.
Qed.

Lemma draw_attrs_spec fuel draw t all k acc l :
  draw_attrs fuel draw t all k acc = Some (Ok l) →
  distinct_attrs acc → acc ⊆ all → length acc ≤ k →
  distinct_attrs l ∧ l ⊆ all ∧ length l = k.
Proof.
  revert t acc. induction fuel as [|fuel IH]; intros t acc H Hd Hs Hk; [done|].
  cbn [draw_attrs] in H. destruct (k <=? length acc) eqn:E.
  { apply Nat.leb_le in E. injection H as <-. split; [done|]. split; [done|lia]. }
  apply Nat.leb_gt in E. destruct all as [|z all']; [done|]. set (all := z :: all') in *. clearbody all.
  destruct (all !! draw t) as [a|] eqn:Ea; [|done].
  destruct (existsb (λ b, attr_equals b a) acc) eqn:Ex; [by apply IH in H|].
  apply IH in H; [done| | |].
  - apply distinct_snoc; [done|]. intros b Hb. destruct (attr_equals b a) eqn:Eb; [|done].
    rewrite <- Ex. symmetry. apply existsb_exists. exists b. split; [by apply elem_of_list_In|done].
  - intros b Hb. apply elem_of_app in Hb as [Hb|Hb]; [by apply Hs|].
    apply elem_of_list_singleton in Hb as ->. by eapply elem_of_list_lookup_2.
  - rewrite app_length. cbn. lia.
Qed.

Lemma not_covered acc all :
  distinct_attrs all → length acc < length all →
  ∃ i a, all !! i = Some a ∧ existsb (λ b, attr_equals b a) acc = false.
Proof.
  intros Hd Hl. destruct (forallb (λ a, existsb (λ b, attr_equals b a) acc) all) eqn:E.
  - exfalso. rewrite forallb_forall in E. pose proof (distinct_cover_length all acc Hd) as Hc.
    assert (length all ≤ length acc); [|lia]. apply Hc. intros a Ha. apply elem_of_list_In in Ha.
    apply E in Ha. apply existsb_exists in Ha as (b & Hb & He). exists b.
    split; [by apply elem_of_list_In|by apply attr_equals_sym].
  - clear -E. induction all as [|a all IH]; [done|]. cbn [forallb] in E.
    destruct (existsb (λ b, attr_equals b a) acc) eqn:Ea.
    + destruct (IH E) as (i & b & Hi & Hb). by exists (S i), b.
    + by exists 0, a.
Qed.

Lemma draw_attrs_ends draw all k :
  distinct_attrs all → k ≤ length all → fair (length all) draw →
  ∀ n acc t, k - length acc ≤ n → ∃ fuel l, draw_attrs fuel draw t all k acc = Some (Ok l).
Proof.
  intros Hd Hk [Hin Hf] n. induction n as [|n IH]; intros acc t Hn.
  - exists 1, acc. cbn [draw_attrs]. destruct (k <=? length acc) eqn:E; [done|]. apply Nat.leb_gt in E. lia.
  - destruct (k <=? length acc) eqn:E; [exists 1, acc; cbn [draw_attrs]; by rewrite E|].
    pose proof E as E'. apply Nat.leb_gt in E'.
    destruct (not_covered acc all Hd) as (i & a & Hi & Ha); [lia|].
    destruct (Hf i t) as (u & Hu & Hdu); [by eapply lookup_lt_Some|].
    remember (u - t) as d eqn:Ed. revert t Hu Ed. induction d as [|d IHd]; intros t Hu Ed.
    + assert (u = t) as -> by lia. destruct (IH (acc ++ [a]) (S t)) as (fuel & l & Hl).
      { rewrite app_length. cbn. lia. }
      exists (S fuel), l. cbn [draw_attrs]. rewrite E. destruct all as [|z all']; [done|].
      rewrite Hdu, Hi, Ha. exact Hl.
    + destruct (lookup_lt_is_Some_2 all (draw t)) as [b Hb]; [apply Hin|].
      destruct (existsb (λ x, attr_equals x b) acc) eqn:Eb.
      * destruct (IHd (S t)) as (fuel & l & Hl); [lia|lia|].
        exists (S fuel), l. cbn [draw_attrs]. rewrite E. destruct all as [|z all']; [done|].
        rewrite Hb, Eb. exact Hl.
      * destruct (IH (acc ++ [b]) (S t)) as (fuel & l & Hl).
        { rewrite app_length. cbn. lia. }
        exists (S fuel), l. cbn [draw_attrs]. rewrite E. destruct all as [|z all']; [done|].
        rewrite Hb, Eb. exact Hl.
Qed.

Lemma draw_attrs_more fuel extra draw t all k acc r :
  draw_attrs fuel draw t all k acc = Some r → draw_attrs (fuel + extra) draw t all k acc = Some r.
Proof.
  revert t acc. induction fuel as [|fuel IH]; intros t acc H; [done|].
  cbn [draw_attrs Nat.add] in *. destruct (k <=? length acc); [done|].
  destruct all as [|z all']; [done|]. set (all := z :: all') in *. clearbody all.
  destruct (all !! draw t) as [a|]; [|done]. destruct (existsb _ acc); by apply IH.
Qed.

(** Asking for more attributes than there are never ends. *)
Lemma draw_attrs_hangs draw all k :
  distinct_attrs all → all ≠ [] → length all < k → (∀ t, draw t < length all) →
  ∀ fuel t acc, distinct_attrs acc → acc ⊆ all → draw_attrs fuel draw t all k acc = None.
Proof.
  intros Hd Hne Hk Hin fuel. induction fuel as [|fuel IH]; intros t acc Ha Hs; [done|].
  cbn [draw_attrs]. assert (length acc ≤ length all) as Hl.
  { apply distinct_cover_length; [done|]. intros a Hin'. exists a. split; [by apply Hs|apply attr_equals_refl]. }
  destruct (k <=? length acc) eqn:E; [apply Nat.leb_le in E; lia|].
  destruct all as [|z all'] eqn:Eall; [done|]. rewrite <- Eall in *. clear Eall.
  destruct (lookup_lt_is_Some_2 all (draw t)) as [b Hb]; [apply Hin|]. rewrite Hb.
  destruct (existsb (λ x, attr_equals x b) acc) eqn:Eb; [by apply IH|]. apply IH.
  - apply distinct_snoc; [done|]. intros x Hx. destruct (attr_equals x b) eqn:Ex; [|done].
    rewrite <- Eb. symmetry. apply existsb_exists. exists x. split; [by apply elem_of_list_In|done].
  - intros x Hx. apply elem_of_app in Hx as [Hx|Hx]; [by apply Hs|].
    apply elem_of_list_singleton in Hx as ->. by eapply elem_of_list_lookup_2.
Qed.

(** ** Generators *)

Section generators.
  Context (fast : list nat → list nat → binary64) (show : nat → N → string)
    (sorter : list (binary64 * nat) → list (binary64 * nat))
    (split_entropy : gmap string (gmap string nat) → binary64)
    (base_entropy : gmap string nat → binary64).

  Lemma info_gain_in fuel l g r a :
    info_gain fast show sorter split_entropy base_entropy fuel l g = Ok r → ru_attr r = Some a → a ∈ l.
  Proof.
    unfold info_gain. destruct l as [|b l']; [done|]. set (l := b :: l'). clearbody l. intros H Ha.
    apply bind_Ok in H as (m & _ & H). by destruct (pick_max_in _ _ _ _ _ _ H Ha).
  Qed.
  Lemma gain_ratio_in fuel l g r a :
    gain_ratio fast show sorter split_entropy base_entropy fuel l g = Ok r → ru_attr r = Some a → a ∈ l.
  Proof.
    unfold gain_ratio. destruct l as [|b l']; [done|]. set (l := b :: l'). clearbody l. intros H Ha.
    apply bind_Ok in H as (m & _ & H). by destruct (pick_max_in _ _ _ _ _ _ H Ha).
  Qed.
  Lemma gini_in fuel l g r a :
    gini fast show sorter fuel l g = Ok r → ru_attr r = Some a → a ∈ l.
  Proof.
    unfold gini. destruct l as [|b l']; [done|]. set (l := b :: l'). clearbody l. intros H Ha.
    by destruct (pick_min_in _ _ _ _ _ _ H Ha).
  Qed.

  Lemma info_gain_best fuel l g m (p : attr → binary64 * binary64) :
    l ≠ [] → class_distribution show g = Ok m →
    (∀ a, a ∈ l → entropy_after fast show sorter split_entropy fuel g a = Ok (p a)) →
    let gain a := b64_minus mode_NE (base_entropy m) (p a).1 in
    ∃ r, info_gain fast show sorter split_entropy base_entropy fuel l g = Ok r ∧
      match ru_attr r with
      | Some a => a ∈ l ∧ ru_val r = (p a).2 ∧ is_nan 53 1024 (gain a) = false ∧
          ∀ b, b ∈ l → float_gt (gain b) (gain a) = false
      | None => ∀ b, b ∈ l → float_gt (gain b) float_neg_inf = false
      end.
  Proof.
    intros Hne Hm Hp gain. unfold info_gain. destruct l as [|b l']; [done|].
    set (l := b :: l') in *. clearbody l. rewrite Hm. cbn [mbind res_bind].
    apply (pick_max_best _ (λ a, (gain a, (p a).2))). intros a Ha. by rewrite (Hp a Ha).
  Qed.

  Lemma gain_ratio_best fuel l g m (p : attr → binary64 * binary64) :
    l ≠ [] → class_distribution show g = Ok m →
    (∀ a, a ∈ l → entropy_after fast show sorter split_entropy fuel g a = Ok (p a)) →
    let ratio a := b64_div mode_NE (b64_minus mode_NE (base_entropy m) (p a).1) (p a).1 in
    ∃ r, gain_ratio fast show sorter split_entropy base_entropy fuel l g = Ok r ∧
      match ru_attr r with
      | Some a => a ∈ l ∧ ru_val r = (p a).2 ∧ is_nan 53 1024 (ratio a) = false ∧
          ∀ b, b ∈ l → float_gt (ratio b) (ratio a) = false
      | None => ∀ b, b ∈ l → float_gt (ratio b) float_neg_inf = false
      end.
  Proof.
    intros Hne Hm Hp ratio. unfold gain_ratio. destruct l as [|b l']; [done|].
    set (l := b :: l') in *. clearbody l. rewrite Hm. cbn [mbind res_bind].
    apply (pick_max_best _ (λ a, (ratio a, (p a).2))). intros a Ha. by rewrite (Hp a Ha).
  Qed.
End generators.

Lemma generate_sane (select : list string → list attr → grid → res rule)
    (ao : list string → list attr → list attr) :
  (∀ path l g r a, select path l g = Ok r → ru_attr r = Some a → a ∈ l) →
  (∀ path, any_order (ao path)) →
  sane_rules (λ path, generate (select path) (ao path)).
Proof.
  intros Hs Hao path g r a H Ha. unfold generate in H. apply bind_Ok in H as (r' & Hr & H).
  injection H as ->. apply (candidates_spec (ao path)); [apply Hao|]. by eapply Hs.
Qed.

Lemma random_sane (select : list string → list attr → grid → res rule) (draw : list string → nat → nat)
    fuel k (ao : list string → list attr → list attr) :
  (∀ path l g r a, select path l g = Ok r → ru_attr r = Some a → a ∈ l) →
  (∀ path, any_order (ao path)) →
  sane_rules (λ path, random_rule (select path) (draw path) fuel k (ao path)).
Proof.
  intros Hs Hao path g r a H Ha. unfold random_rule in H.
  destruct (draw_attrs _ _ _ _ _ _) as [d|] eqn:Ed; [|done].
  apply bind_Ok in H as (l & -> & H). apply bind_Ok in H as (r' & Hr & H). injection H as ->.
  apply (candidates_spec (ao path)); [apply Hao|].
  destruct k as [|k].
  { destruct fuel; [done|]. cbn in Ed. injection Ed as <-. apply (Hs _ _ _ _ _ Hr) in Ha. by apply elem_of_nil in Ha. }
  destruct (draw_attrs_spec _ _ _ _ _ _ _ Ed) as (_ & Hsub & _).
  - intros i j x y Hi. by rewrite lookup_nil in Hi.
  - intros x Hx. by apply elem_of_nil in Hx.
  - cbn. lia.
  - apply Hsub. by eapply Hs.
Qed.
