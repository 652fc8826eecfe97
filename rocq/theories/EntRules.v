(** The entropies in the rule generators. *)
From Coq Require Import Reals Lra.
From Verif Require Import Prelude FloatModel AttrModel StoreModel DenseModel GridModel GridSpec GridProofs ConfModel FilterModel
  Id3Model Id3Spec RuleModel RuleSpec RuleProofs RuleRefs CartModel CartFit GiniProofs EntModel EntSpec EntProofs EntLink EntFloat ChiFloat.
From Flocq Require Import Core.Core IEEE754.BinarySingleNaN IEEE754.Bits IEEE754.Binary.
Local Open Scope nat_scope.

(** ** Thresholds *)

Definition nonzero (l : list nat) : list nat := filter (λ n, n ≠ 0) l.

Lemma nonzero_sum l : sum_list (nonzero l) = sum_list l.
Proof.
  unfold nonzero. induction l as [|n l IH]; [done|]. rewrite filter_cons. change (sum_list (n :: l)) with (n + sum_list l).
  case_decide as E.
  - change (sum_list (n :: filter (λ n, n ≠ 0) l)) with (n + sum_list (filter (λ n, n ≠ 0) l)). lia.
  - destruct n; [|lia]. cbn in *. lia.
Qed.

Lemma side_skip N t side :
  side_entropy real_logs (λ n, n =? 0) N t side = side_entropy real_logs (λ _, false) N t (nonzero side).
Proof.
  unfold side_entropy. f_equal.
  - generalize t. induction side as [|n l IH]; intros u; [done|]. unfold nonzero. rewrite filter_cons. cbn [foldl].
    case_decide as E.
    + rewrite (proj2 (Nat.eqb_neq n 0) E). cbn [foldl]. apply IH.
    + destruct n; [|lia]. apply IH.
  - f_equal. rewrite !(foldl_add (λ n, la_int real_logs n)). f_equal. cbn [la_int real_logs].
    change (λ n, INR n) with INR. by rewrite <- !sum_INR, nonzero_sum.
Qed.

Lemma sum_app l k : sum_list (l ++ k) = sum_list l + sum_list k.
Proof. induction l as [|x l IH]; cbn in *; lia. Qed.

Lemma fast_split s0 s1 : fast_entropy real_logs s0 s1 = split_entropy_list real_logs [nonzero s0; nonzero s1].
Proof.
  unfold fast_entropy, split_entropy_list. rewrite !add_ints_sum. cbn [foldl concat].
  rewrite !side_skip. rewrite !sum_app, !nonzero_sum. change (sum_list []) with 0. by rewrite Nat.add_0_r.
Qed.

Lemma counts_tally k (l : list (binary64 * nat)) : (∀ x, x ∈ l → x.2 < k) →
  tallies (map snd l) (nonzero (class_counts k l)).
Proof.
  intros Hk. unfold tallies.
  assert (∀ c, length (filter (λ x, x.2 = c) l) = occurs c (map snd l)) as Hc.
  { intros c. clear. induction l as [|x l IH]; [done|]. rewrite filter_cons. cbn [map]. rewrite occurs_cons.
    destruct (decide (x.2 = c)); cbn [length]; lia. }
  transitivity (map (λ c, occurs c (map snd l)) (filter (λ c, c ∈ map snd l) (seq 0 k))).
  - unfold nonzero, class_counts. generalize (seq 0 k) as s. intros s. induction s as [|c s IH]; [done|].
    cbn [map]. rewrite !filter_cons, Hc. destruct (decide (c ∈ map snd l)) as [E|E].
    + rewrite decide_True; [|apply occurs_pos in E; lia]. cbn [map]. by constructor.
    + rewrite decide_False; [done|]. intros H. apply E, occurs_pos. lia.
  - apply Permutation_map. apply NoDup_Permutation.
    + apply NoDup_filter, NoDup_seq.
    + apply NoDup_remove_dups.
    + intros c. rewrite elem_of_list_filter, elem_of_remove_dups. split; [tauto|]. intros Hin. split; [done|].
      apply elem_of_list_fmap in Hin as (x & -> & Hx). apply elem_of_seq. specialize (Hk x Hx). lia.
Qed.

(** Rows for a threshold: whether the value is above it, and the number of the class. *)
Definition above (v : binary64) (refs : list (binary64 * nat)) : list (bool * nat) :=
  map (λ x, (float_gt x.1 v, x.2)) refs.

Lemma above_labels v refs b : labels_at b (above v refs) = map snd (filter (λ x, float_gt x.1 v = b) refs).
Proof.
  induction refs as [|x refs IH]; [done|]. unfold above in *. cbn [map]. rewrite labels_cons, filter_cons. cbn [fst snd].
  destruct (decide (float_gt x.1 v = b)); cbn [map]; by rewrite IH.
Qed.

Lemma above_tables k refs v : (∀ x, x ∈ refs → x.2 < k) →
  (∃ x, x ∈ refs ∧ float_gt x.1 v = false) → (∃ x, x ∈ refs ∧ float_gt x.1 v = true) →
  tables (above v refs) [nonzero (class_counts k (filter (λ x, float_gt x.1 v = false) refs));
    nonzero (class_counts k (filter (λ x, float_gt x.1 v = true) refs))].
Proof.
  intros Hk (x & Hx & Gx) (y & Hy & Gy). exists [false; true]. split.
  - apply NoDup_Permutation.
    + apply NoDup_cons. split; [|apply NoDup_singleton]. rewrite elem_of_list_singleton. done.
    + apply NoDup_remove_dups.
    + intros b. rewrite elem_of_remove_dups. unfold above. rewrite map_map. cbn [fst]. split.
      * intros _. apply elem_of_list_fmap. destruct b; [by exists y|by exists x].
      * intros _. destruct b; [right; left|left].
  - repeat constructor; rewrite above_labels; apply counts_tally; intros z Hz; apply elem_of_list_filter in Hz as [_ Hz]; by apply Hk.
Qed.

(** ** An empty side *)

Lemma nan_minus_l x y : isnan x = true → isnan (b64_minus mode_NE x y) = true.
Proof. destruct x as [s|s|s pl Hpl|s m e He]; try discriminate. intros _. by destruct y. Qed.

(** ** How many numbers are added *)

Lemma length_remove_dups {A} `{!EqDecision A} (l k : list A) : NoDup k → (∀ x, x ∈ k ↔ x ∈ l) → length (remove_dups l) = length k.
Proof.
  intros Hk H. apply Permutation_length, NoDup_Permutation; [apply NoDup_remove_dups|done|].
  intros x. by rewrite elem_of_remove_dups, H.
Qed.

Lemma tables_ops {A B} `{!EqDecision A, !EqDecision B} (rows : list (A * B)) sides : tables rows sides →
  ops sides = kinds rows.
Proof.
  intros (vs & Hvs & H). unfold ops, kinds. f_equal.
  2: { rewrite <- (Permutation_length Hvs). symmetry. by eapply Forall2_length. }
  assert (length (concat sides) = length (concat (map (λ v, map (pair v) (remove_dups (labels_at v rows))) vs))) as ->.
  { clear Hvs. induction H as [|v s vs sides Hs H IH]; [done|]. cbn [map concat]. rewrite !app_length, map_length, IH. f_equal.
    rewrite (Permutation_length Hs). apply map_length. }
  symmetry. apply length_remove_dups.
  - assert (NoDup vs) as Hn by (rewrite Hvs; apply NoDup_remove_dups). clear Hvs H. induction Hn as [|v vs Hv Hn IH]; [constructor|].
    cbn [map concat]. apply NoDup_app. split; [|split; [|done]].
    + apply NoDup_ListNoDup, FinFun.Injective_map_NoDup; [|apply NoDup_ListNoDup, NoDup_remove_dups]. intros x y E. by injection E.
    + intros [w c] Hw Hin. apply elem_of_list_fmap in Hw as (d & E & _). injection E as -> ->.
      apply elem_of_list_In, in_concat in Hin as (k & Hk & Hin). apply in_map_iff in Hk as (u & <- & Hu).
      apply in_map_iff in Hin as (d' & E & _). injection E as -> ->. apply Hv. by apply elem_of_list_In.
  - intros [v c]. rewrite elem_of_list_In, in_concat. split.
    + intros (k & Hk & Hin). apply in_map_iff in Hk as (u & <- & Hu). apply in_map_iff in Hin as (d & E & Hd).
      injection E as -> ->. apply elem_of_list_In in Hd. rewrite elem_of_remove_dups in Hd. by apply in_labels.
    + intros Hin. exists (map (pair v) (remove_dups (labels_at v rows))). split.
      * apply in_map_iff. exists v. split; [done|]. apply elem_of_list_In. rewrite Hvs, elem_of_remove_dups.
        by apply (elem_of_list_fmap_1 fst rows (v, c)).
      * apply in_map_iff. exists c. split; [done|]. apply elem_of_list_In. rewrite elem_of_remove_dups. by apply in_labels.
Qed.

Lemma labels_kinds {A B} `{!EqDecision A, !EqDecision B} (rows : list (A * B)) :
  length (remove_dups (map snd rows)) ≤ kinds rows.
Proof.
  unfold kinds. assert (length (remove_dups (map snd rows)) ≤ length (map snd (remove_dups rows))) as H.
  { apply submseteq_length, NoDup_submseteq; [apply NoDup_remove_dups|]. intros c Hc. rewrite elem_of_remove_dups in Hc.
    apply elem_of_list_fmap in Hc as (r & -> & Hr). apply (elem_of_list_fmap_1 snd). by rewrite elem_of_remove_dups. }
  rewrite map_length in H. lia.
Qed.

Section with_log.
  Context (log : binary64 → binary64) (HL : go_log log).
  Notation F := (float_logs log).

  Lemma zeros_total side : sum_list side = 0 →
    foldl (λ t n, la_add F t (la_int F n)) (la_int F 0) side = B754_zero 53 1024 false.
  Proof using.
    intros H. cbn [la_add la_int float_logs]. change (float_of_nat 0) with (B754_zero 53 1024 false).
    induction side as [|n l IH]; [done|]. change (sum_list (n :: l)) with (n + sum_list l) in H.
    assert (n = 0) as -> by lia. cbn [foldl].
    change (b64_plus mode_NE (B754_zero 53 1024 false) (float_of_nat 0)) with (B754_zero 53 1024 false).
    apply IH. lia.
  Qed.

  Lemma side_nan skip N s side : isnan s = true → isnan (side_entropy F skip N s side) = true.
  Proof using.
    intros Hs. unfold side_entropy. apply nan_plus_l. revert s Hs.
    induction side as [|n l IH]; intros s Hs; [done|]. cbn [foldl]. apply IH. destruct (skip n); [done|].
    by apply nan_minus_l.
  Qed.

  Lemma empty_side skip N s side : sum_list side = 0 → 0 < N → (Z.of_nat N <= 2 ^ 53)%Z →
    isnan (side_entropy F skip N s side) = true.
  Proof using HL.
    intros H0 HN HN2. unfold side_entropy. apply nan_plus_r. rewrite zeros_total by done.
    unfold plogp. cbn [la_div la_mul la_log la_int float_logs].
    destruct (int_exact N HN2) as [FN VN].
    assert (b64_div mode_NE (B754_zero 53 1024 false) (float_of_nat N) = B754_zero 53 1024 false) as ->.
    { assert (0 < INR N)%R as Hp by (by apply lt_0_INR). rewrite <- VN in Hp.
      destruct (float_of_nat N) as [s'|s'|s' pl Hpl|s' m e He]; try discriminate FN.
      - cbn in Hp. lra.
      - destruct s'; [|done]. exfalso. assert (B2R 53 1024 (B754_finite 53 1024 true m e He) < 0)%R by (by apply F2R_lt_0). lra. }
    rewrite (log_zero _ HL). apply nan_div_l. done.
  Qed.

  Lemma fast_empty s0 s1 : (sum_list s0 = 0 ∨ sum_list s1 = 0) → 0 < sum_list (s0 ++ s1) →
    (Z.of_nat (sum_list (s0 ++ s1)) <= 2 ^ 53)%Z → isnan (fast_entropy F s0 s1) = true.
  Proof using HL.
    intros He Hp Hs. unfold fast_entropy. rewrite add_ints_sum. cbn [foldl]. destruct He as [E|E].
    - apply side_nan. by apply empty_side.
    - by apply empty_side.
  Qed.

  (** ** A constant column *)

  Lemma advance_none x v refs s0 s1 : (∀ r, r ∈ refs → r.1 = x) → float_lt x v = false →
    advance refs v s0 s1 = (0, (s0, s1)).
  Proof using.
    intros Hr Hv. destruct refs as [|[y c] refs]; [done|]. cbn [advance].
    assert (y = x) as -> by (by apply (Hr (y, c)); left). by rewrite Hv.
  Qed.

  Lemma advance_every n x v refs : ∀ done, (∀ r, r ∈ refs → r.1 = x) → float_lt x v = true →
    advance refs v (class_counts n done) (class_counts n refs) =
      (length refs, (class_counts n (done ++ refs), class_counts n [])).
  Proof using.
    induction refs as [|[y c] refs IH]; intros pre Hr Hv; cbn [advance].
    - by rewrite app_nil_r.
    - assert (y = x) as -> by (by apply (Hr (y, c)); left). rewrite Hv, (counts_snoc n pre x c), counts_tail.
      rewrite IH; [|intros; apply Hr; by right|done]. cbn [fst snd length]. by rewrite <- app_assoc.
  Qed.

  Lemma counts_sum k (l : list (binary64 * nat)) : (∀ x, x ∈ l → x.2 < k) → sum_list (class_counts k l) = length l.
  Proof using.
    intros H. rewrite <- nonzero_sum, (tally_sum _ _ (counts_tally k l H)). apply map_length.
  Qed.

  Lemma constant_search n x refs : (∀ r, r ∈ refs → r.1 = x ∧ r.2 < n) → (Z.of_nat (length refs) <= 2 ^ 53)%Z →
    ∀ fuel e v, best_threshold (fast_entropy F) fuel n refs = Some (e, v) → e = float_inf ∧ v = float_inf.
  Proof using HL.
    intros Hr Hlen fuel e v. unfold best_threshold, search_start. destruct (start_counts n refs) as [-> ->].
    assert (∀ r, r ∈ refs → r.1 = x) as Hx by (intros; by apply Hr).
    assert (∀ r, r ∈ refs → r.2 < n) as Hn by (intros; by apply Hr).
    destruct (decide (refs = [])) as [->|Hne].
    { destruct fuel; [done|]. cbn. intros E. by injection E as <- <-. }
    assert (0 < length refs) as Hpos by (destruct refs; [done|cbn; lia]).
    set (ok := λ st, ss_best st = float_inf ∧ ss_val st = float_inf ∧
      ((ss_ind st = 0 ∧ ss_s0 st = class_counts n [] ∧ ss_s1 st = class_counts n refs) ∨
       (length refs ≤ ss_ind st ∧ ss_s0 st = class_counts n refs ∧ ss_s1 st = class_counts n []))).
    assert (∀ a b, isnan a = true → float_lt a b = false) as Hnan by (intros a b; by destruct a).
    assert (isnan (fast_entropy F (class_counts n []) (class_counts n refs)) = true) as N1.
    { apply fast_empty; rewrite ?sum_app, ?counts_sum by (done || (intros z Hz; by apply elem_of_nil in Hz)); cbn [length]; [by left|lia|lia]. }
    assert (isnan (fast_entropy F (class_counts n refs) (class_counts n [])) = true) as N2.
    { apply fast_empty; rewrite ?sum_app, ?counts_sum by (done || (intros z Hz; by apply elem_of_nil in Hz)); cbn [length]; [by right|lia|lia]. }
    enough (∀ st, ok st → search (fast_entropy F) fuel refs st = Some (e, v) → e = float_inf ∧ v = float_inf) as Hg.
    { apply Hg. unfold ok. cbn. tauto. }
    clear Hlen. induction fuel as [|fuel IH]; intros st Hok Hs; [done|]. cbn [search] in Hs.
    destruct Hok as (Hb & Hv & Hst). unfold search_step in Hs.
    destruct (refs !! ss_i st) as [[y1 c1]|] eqn:E1; [|injection Hs as <- <-; done].
    destruct (refs !! S (ss_i st)) as [[y2 c2]|] eqn:E2; [|injection Hs as <- <-; done].
    destruct (float_eq (middle y1 y2) (ss_prev st)) eqn:Eq.
    { apply IH in Hs; [done|]. unfold ok. cbn. tauto. }
    set (val' := middle y1 y2) in *.
    destruct Hst as [(Hi & H0 & H1)|(Hi & H0 & H1)].
    - rewrite Hi, H0, H1, drop_0 in Hs. destruct (float_lt x val') eqn:Lt.
      + rewrite (advance_every n x val' refs [] Hx Lt) in Hs. cbn [fst snd] in Hs. rewrite app_nil_l, (Hnan _ _ N2) in Hs.
        apply IH in Hs; [done|]. unfold ok. cbn. split; [done|]. split; [done|]. right. split; [lia|done].
      + rewrite (advance_none x val' refs _ _ Hx Lt) in Hs. cbn [fst snd] in Hs. rewrite (Hnan _ _ N1) in Hs.
        apply IH in Hs; [done|]. unfold ok. cbn. tauto.
    - rewrite H0, H1, drop_ge in Hs by done. cbn [advance fst snd] in Hs. rewrite (Hnan _ _ N2) in Hs.
      apply IH in Hs; [done|]. unfold ok. cbn. split; [done|]. split; [done|]. right. split; [lia|done].
  Qed.

  (** ** A value that determines the label *)

  Lemma pure_split sides : (Z.of_nat (sum_list (concat sides)) <= 2 ^ 53)%Z →
    (∀ side, side ∈ sides → ∃ n, side = [n] ∧ 0 < n) → split_entropy_list F sides = B754_zero 53 1024 false.
  Proof using HL.
    intros HN Hs. unfold split_entropy_list. rewrite add_ints_sum. set (N := sum_list (concat sides)) in *.
    assert (∀ side, side ∈ sides → sum_list side ≤ N) as Hle by (intros; by apply sum_in).
    clearbody N. change (la_int F 0) with (B754_zero 53 1024 false). induction sides as [|side sides IH]; [done|].
    cbn [foldl]. destruct (Hs side ltac:(left)) as (n & -> & Hn). specialize (Hle [n] ltac:(left)) as Hn'.
    change (sum_list [n]) with (n + 0) in Hn'. rewrite Nat.add_0_r in Hn'.
    unfold side_entropy at 2. cbn [foldl la_add la_sub la_int float_logs].
    destruct (int_exact n ltac:(lia)) as [Fn Vn]. destruct (int_exact N HN) as [FN VN].
    assert (b64_plus mode_NE (float_of_nat 0) (float_of_nat n) = float_of_nat n) as ->.
    { change (float_of_nat 0) with (B754_zero 53 1024 false).
      assert (0 < INR n)%R as Hp by (by apply lt_0_INR). rewrite <- Vn in Hp.
      destruct (float_of_nat n) as [s'|s'|s' pl Hpl|s' m e He]; try discriminate Fn; [|done].
      cbn in Hp. lra. }
    destruct (plogp_near log HL (float_of_nat n) (float_of_nat N) n N Fn FN Vn VN ltac:(lia) HN) as (FD & _).
    set (D := plogp F (float_of_nat n) (float_of_nat N)) in *.
    assert (b64_plus mode_NE (b64_minus mode_NE (B754_zero 53 1024 false) D) D = B754_zero 53 1024 false) as ->.
    { clear -FD. destruct D as [[|]|s'|s' pl Hpl|s' m e He]; try discriminate FD; [done|done|].
      assert (b64_minus mode_NE (B754_zero 53 1024 false) (B754_finite 53 1024 s' m e He) = B754_finite 53 1024 (negb s') m e He) as -> by done.
      set (x := B754_finite 53 1024 s' m e He). set (y := B754_finite 53 1024 (negb s') m e He).
      pose proof (Bplus_correct 53 1024 eq_refl eq_refl binop_nan_pl64 mode_NE y x eq_refl eq_refl) as H.
      fold (b64_plus mode_NE y x) in H.
      assert (val y + val x = 0)%R as E0.
      { unfold x, y, B2R. rewrite <- F2R_Zplus || idtac. destruct s'; cbn [negb SpecFloat.cond_Zopp]; unfold F2R; cbn [Fnum Fexp];
          rewrite opp_IZR || rewrite <- opp_IZR; lra. }
      cbn [round_mode] in H. rewrite E0, round_0, Rabs_R0 in H by apply valid_rnd_N.
      rewrite Rlt_bool_true in H by apply bpow_gt_0. destruct H as (Hv & Hf & Hsg).
      rewrite Rcompare_Eq in Hsg by done.
      assert (Bsign 53 1024 (b64_plus mode_NE y x) = false) as Hs2.
      { rewrite Hsg. unfold x, y. cbn [Bsign]. by destruct s'. }
      clear Hsg. destruct (b64_plus mode_NE y x) as [s2|s2|s2 pl Hpl|s2 m2 e2 He2]; try discriminate Hf.
      - cbn in Hs2. by subst.
      - exfalso. cbn in Hs2. subst s2. assert (0 < B2R 53 1024 (B754_finite 53 1024 false m2 e2 He2))%R by (by apply F2R_gt_0). lra. }
    apply IH; intros side Hin; [apply Hs|apply Hle]; by right.
  Qed.

  (** ** Errors *)

  Lemma near_slack K s t : near K K s t → (Rabs (val s - t) <= slack K)%R.
  Proof using.
    intros (_ & _ & H). eapply Rle_trans; [exact H|]. unfold slack, eta. rewrite eps_eight. lra.
  Qed.

  Lemma slack_mono j K : j ≤ K → (slack j <= slack K)%R.
  Proof using.
    intros H. apply le_INR in H. pose proof (pos_INR j). pose proof (bpow_gt_0 radix2 (-50)). unfold slack.
    apply Rmult_le_compat_r; [lra|]. nra.
  Qed.

  Lemma tally_near {A} `{!EqDecision A} (l : list A) counts :
    tallies l counts → (Z.of_nat (length l) <= 2 ^ 53)%Z → (Z.of_nat (length (remove_dups l)) <= 1000000)%Z →
    fin (base_entropy_list F counts) = true ∧
    (Rabs (val (base_entropy_list F counts) - entropy l) <= slack (length (remove_dups l)))%R.
  Proof using HL.
    intros Ht Hl HK. assert (length counts = length (remove_dups l)) as E by (rewrite (Permutation_length Ht); apply map_length).
    pose proof (base_near log HL counts ltac:(rewrite E; done) ltac:(rewrite (tally_sum _ _ Ht); done)
      ltac:(intros n Hn; apply (tally_pos _ _ Ht n Hn))) as H.
    split; [by destruct H|]. rewrite <- E, <- (base_tally _ _ Ht). by apply near_slack.
  Qed.

  Lemma tables_near {A B} `{!EqDecision A, !EqDecision B} (rows : list (A * B)) sides :
    tables rows sides → (Z.of_nat (length rows) <= 2 ^ 53)%Z → (Z.of_nat (kinds rows) <= 1000000)%Z →
    fin (split_entropy_list F sides) = true ∧
    (Rabs (val (split_entropy_list F sides) - conditional rows) <= slack (kinds rows))%R.
  Proof using HL.
    intros Ht Hl HK. pose proof (tables_ops _ _ Ht) as E.
    pose proof (split_near log HL sides ltac:(rewrite E; done) ltac:(rewrite (tables_sum _ _ Ht); done)) as H.
    assert (∀ side, side ∈ sides → side ≠ [] ∧ ∀ n, n ∈ side → 0 < n) as Hs.
    { destruct Ht as (vs & Hvs & Hf). intros side Hin. apply elem_of_list_lookup in Hin as [i Hi].
      destruct (Forall2_lookup_r _ _ _ _ _ Hf Hi) as (v & Hv & Hside). split.
      - intros ->. apply tally_sum in Hside. cbn in Hside. apply elem_of_list_lookup_2 in Hv.
        rewrite Hvs, elem_of_remove_dups, occurs_pos, <- labels_length in Hv. lia.
      - intros n Hn. by apply (tally_pos _ _ Hside n). }
    specialize (H Hs). split; [by destruct H|]. rewrite <- E, <- (split_tally _ _ Ht). by apply near_slack.
  Qed.

  Lemma fast_threshold k refs v : (∀ x, x ∈ refs → x.2 < k) → (Z.of_nat k <= 400000)%Z → (Z.of_nat (length refs) <= 2 ^ 53)%Z →
    (∃ x, x ∈ refs ∧ float_gt x.1 v = false) → (∃ x, x ∈ refs ∧ float_gt x.1 v = true) →
    fin (threshold_entropy (fast_entropy F) k refs v) = true ∧
    (Rabs (val (threshold_entropy (fast_entropy F) k refs v) - conditional (above v refs)) <= slack (2 * k + 2))%R.
  Proof using HL.
    intros Hk HK Hl H0 H1. unfold threshold_entropy.
    pose proof (above_tables k refs v Hk H0 H1) as Ht.
    rewrite <- (split_tally _ _ Ht), <- fast_split.
    set (l0 := filter (λ x, float_gt x.1 v = false) refs) in *. set (l1 := filter (λ x, float_gt x.1 v = true) refs) in *.
    assert (∀ x, x ∈ l0 → x.2 < k) as K0 by (intros x Hx; apply elem_of_list_filter in Hx as [_ Hx]; by apply Hk).
    assert (∀ x, x ∈ l1 → x.2 < k) as K1 by (intros x Hx; apply elem_of_list_filter in Hx as [_ Hx]; by apply Hk).
    assert (0 < length l0) as P0.
    { destruct H0 as (x & Hx & Gx). assert (x ∈ l0) as H by (by apply elem_of_list_filter). destruct l0; [by apply elem_of_nil in H|cbn; lia]. }
    assert (0 < length l1) as P1.
    { destruct H1 as (x & Hx & Gx). assert (x ∈ l1) as H by (by apply elem_of_list_filter). destruct l1; [by apply elem_of_nil in H|cbn; lia]. }
    assert (length l0 + length l1 = length refs) as Hlen.
    { unfold l0, l1. clear. induction refs as [|x refs IH]; [done|]. rewrite !filter_cons.
      destruct (float_gt x.1 v) eqn:E.
      - rewrite decide_False, decide_True by congruence. cbn [length]. lia.
      - rewrite decide_True, decide_False by congruence. cbn [length]. lia. }
    assert (ops [class_counts k l0; class_counts k l1] = 2 * k + 2) as E.
    { unfold ops. cbn [concat]. rewrite !app_length. unfold class_counts. rewrite !map_length, !seq_length. cbn [length]. lia. }
    pose proof (fast_near log HL (class_counts k l0) (class_counts k l1)) as H. rewrite E, sum_app, !counts_sum in H by done.
    specialize (H ltac:(lia) ltac:(lia) P0 P1). split; [by destruct H|]. by apply near_slack.
  Qed.

  (** ** The attribute chosen *)

  Context (ao : gmap string (gmap string nat) → list string) (co : string → gmap string nat → list nat)
    (cob : gmap string nat → list nat).
  Hypotheses (Ha : value_order ao) (Hco : ∀ v, count_order (co v)) (Hcb : count_order cob).

  Lemma value_reads show g a value : 0 < (gr_size g).2 →
    (∀ i, i < (gr_size g).2 → value_of show g a i = Ok (value i)) →
    ∃ s, gr_get_attribute g a = Ok s ∧
      ∀ i, i < (gr_size g).2 → (raw ← gr_get g s i; attr_decode show a raw) = Ok (value i).
  Proof using.
    intros Hn H. destruct (gr_get_attribute g a) as [s| |] eqn:E.
    - exists s. split; [done|]. intros i Hi. specialize (H i Hi). unfold value_of in H. by rewrite E in H.
    - specialize (H 0 Hn). unfold value_of in H. by rewrite E in H.
    - specialize (H 0 Hn). unfold value_of in H. by rewrite E in H.
  Qed.

  Lemma data_split show g a value label : discrete a → 0 < (gr_size g).2 →
    (∀ i, i < (gr_size g).2 → value_of show g a i = Ok (value i)) →
    (∀ i, i < (gr_size g).2 → get_class show g i = Ok (label i)) →
    ∃ m, distribution_after_split show g a = Ok m ∧
      tables (data (gr_size g).2 value label) (map (λ v, co v (default ∅ (m !! v))) (ao m)).
  Proof using Ha Hco.
    intros Hf Hn Hv Hc. destruct (value_reads show g a value Hn Hv) as (s & Hs & Hr).
    destruct (after_split_spec show g a s value label Hs Hr Hc) as (m & Hm & _).
    exists m. split; [done|]. by eapply split_tables.
  Qed.

  Lemma chosen_near show sorter fuel l g label (value : attr → nat → string) K :
    l ≠ [] → 0 < (gr_size g).2 → (Z.of_nat (gr_size g).2 <= 2 ^ 53)%Z → (Z.of_nat K <= 1000000)%Z →
    (∀ i, i < (gr_size g).2 → get_class show g i = Ok (label i)) →
    (∀ a, a ∈ l → discrete a ∧ (∀ i, i < (gr_size g).2 → value_of show g a i = Ok (value a i)) ∧
      kinds (data (gr_size g).2 (value a) label) ≤ K) →
    ∃ a v, info_gain (fast_entropy F) show sorter (split_entropy_of F ao co) (base_entropy_of F cob) fuel l g =
        Ok (Rule (Some a) v) ∧ a ∈ l ∧
      ∀ b, b ∈ l → (conditional (data (gr_size g).2 (value a) label) <=
                    conditional (data (gr_size g).2 (value b) label) + INR K * (INR K + 10) * bpow radix2 (-49))%R.
  Proof using HL Ha Hco Hcb.
    intros Hl Hn HN HK Hc Hv.
    destruct (class_distribution_spec show g label Hc) as (mc & Hmc & _).
    set (mm := λ a, match distribution_after_split show g a with Ok m => m | _ => ∅ end).
    set (p := λ a, (split_entropy_of F ao co (mm a), float_zero)).
    assert (∀ a, a ∈ l → distribution_after_split show g a = Ok (mm a) ∧
      fin (p a).1 = true ∧ (Rabs (val (p a).1 - conditional (data (gr_size g).2 (value a) label)) <= slack K)%R) as Hp.
    { intros a Hin. destruct (Hv a Hin) as (Hf & Hval & HkK).
      destruct (data_split show g a (value a) label Hf Hn Hval Hc) as (m & Hm & Ht).
      assert (mm a = m) as Em by (unfold mm; by rewrite Hm). split; [by rewrite Em|].
      unfold p. cbn [fst]. rewrite Em. unfold split_entropy_of.
      destruct (tables_near _ _ Ht) as [H1 H2].
      - unfold data. by rewrite map_length, seq_length.
      - lia.
      - split; [done|]. eapply Rle_trans; [exact H2|]. by apply slack_mono. }
    destruct (info_gain_best (fast_entropy F) show sorter (split_entropy_of F ao co) (base_entropy_of F cob) fuel l g mc p Hl Hmc) as (r & Hr & Hbest).
    { intros a Hin. destruct (Hv a Hin) as (Hf & _). destruct (Hp a Hin) as (Hm & _). unfold entropy_after.
      destruct a; try destruct Hf; by rewrite Hm. }
    pose proof (class_tally show g label cob mc Hcb Hc Hmc) as Htc.
    assert (∃ a, a ∈ l) as [a0 Ha0] by (destruct l as [|a0 ?]; [done|exists a0; left]).
    assert (length (remove_dups (map label (seq 0 (gr_size g).2))) ≤ K) as HkB.
    { destruct (Hv a0 Ha0) as (_ & _ & Hk0). pose proof (labels_kinds (data (gr_size g).2 (value a0) label)) as Hlk.
      unfold data in Hlk at 1. rewrite map_map in Hlk. cbn [snd] in Hlk. change (λ x, label x) with label in Hlk. lia. }
    assert (1 <= INR K)%R as HK1.
    { change 1%R with (INR 1). apply le_INR. destruct (gr_size g).2 as [|n'] eqn:En; [lia|].
      assert (label 0 ∈ remove_dups (map label (seq 0 (S n')))) as Hin.
      { rewrite elem_of_remove_dups. apply elem_of_list_fmap. exists 0. split; [done|]. apply elem_of_seq. lia. }
      destruct (remove_dups (map label (seq 0 (S n')))); [by apply elem_of_nil in Hin|]. cbn [length] in HkB. lia. }
    destruct (tally_near _ _ Htc) as [FB EB].
    { by rewrite map_length, seq_length. }
    { lia. }
    fold (base_entropy_of F cob mc) in FB, EB. set (B := base_entropy_of F cob mc) in *.
    assert (Rabs (val B - entropy (map label (seq 0 (gr_size g).2))) <= slack K)%R as EB'.
    { eapply Rle_trans; [exact EB|]. by apply slack_mono. }
    set (n := (gr_size g).2) in *.
    assert (slack K <= 1)%R as Hslack.
    { unfold slack. rewrite eps_eight. assert (INR K <= 1000000)%R by (rewrite INR_IZR_INZ; by apply IZR_le).
      pose proof eps_small as He.
      assert (INR K * (INR K + 8) <= 1000008000000)%R by nra. 
      apply Rle_trans with (1000008000000 * (8 * eps))%R; [apply Rmult_le_compat_r; lra|].
      assert (eps * IZR (2 ^ 53) = 1)%R as E1.
      { change eps with (/ IZR (2 ^ 53))%R. apply Rinv_l. by apply not_0_IZR. }
      assert (IZR 8000064000000 <= IZR (2 ^ 53))%R by (by apply IZR_le). nra. }
    (* entropies are at most log2 of the number of classes, so at most 2 K *)
    assert (0 <= entropy (map label (seq 0 n)) <= 2 * INR K)%R as HE.
    { split; [apply entropy_nonneg|]. eapply Rle_trans; [apply entropy_most|].
      - intros E. apply (f_equal length) in E. rewrite map_length, seq_length in E. cbn in E. lia.
      - set (c := INR (length (remove_dups (map label (seq 0 n))))).
        assert (1 <= c)%R as Hc1.
        { unfold c. change 1%R with (INR 1). apply le_INR.
          assert (label 0 ∈ remove_dups (map label (seq 0 n))) as Hin.
          { rewrite elem_of_remove_dups. apply elem_of_list_fmap. exists 0. split; [done|]. apply elem_of_seq. lia. }
          destruct (remove_dups (map label (seq 0 n))); [by apply elem_of_nil in Hin|]. cbn. lia. }
        assert (c <= INR K)%R by (unfold c; by apply le_INR).
        pose proof (log2_bound c ltac:(lra)) as Hb. pose proof ln2_range as H2.
        eapply Rle_trans; [exact Hb|]. apply (Rmult_le_reg_r (ln 2)); [lra|]. unfold Rdiv. rewrite Rmult_assoc, Rinv_l by lra. nra. }
    assert (∀ a, a ∈ l → (0 <= conditional (data (gr_size g).2 (value a) label) <= 2 * INR K)%R) as HC.
    { intros a Hin. split; [apply conditional_nonneg|]. eapply Rle_trans; [apply gain_nonneg|].
      - intros E. apply (f_equal length) in E. unfold data in E. rewrite map_length, seq_length in E. cbn in E. fold n in E. lia.
      - unfold data. rewrite map_map. cbn [snd]. fold n. change (λ x, label x) with label. lra. }
    set (gain := λ a, b64_minus mode_NE B (p a).1).
    assert (∀ a, a ∈ l → fin (gain a) = true ∧
      (Rabs (val (gain a) - (val B - val (p a).1)) <= 12 * INR K * eps)%R) as HG.
    { intros a Hin. destruct (Hp a Hin) as (_ & Fp & Ep). specialize (HC a Hin). fold n in HC.
      apply Rabs_le_inv in Ep. pose proof EB' as EB2. apply Rabs_le_inv in EB2.
      assert (Rabs (val B - val (p a).1) <= 4 * INR K)%R as Hx by (apply Rabs_le; lra).
      destruct (big_between K _ HK Hx) as (Z1 & Z2 & HZ).
      pose proof (Bminus_correct 53 1024 eq_refl eq_refl binop_nan_pl64 mode_NE B (p a).1 FB Fp) as Hd.
      fold (b64_minus mode_NE B (p a).1) in Hd. fold (gain a) in Hd.
      cbn [round_mode] in Hd. rewrite (small_bound _ _ _ Z1 Z2 HZ) in Hd. destruct Hd as (Hvg & Hfg & _).
      assert (INR K <= 1000000)%R by (rewrite INR_IZR_INZ; by apply IZR_le).
      pose proof (rnd_rel (4 * INR K) _ ltac:(lra) Hx) as Er. rewrite <- Hvg in Er. split; [done|].
      eapply Rle_trans; [exact Er|]. pose proof eps_small. nra. }
    destruct r as [ra rv]. cbn [ru_attr ru_val] in Hbest. destruct ra as [a|].
    - destruct Hbest as (Hin & -> & _ & Hmax). exists a, (p a).2. split; [done|]. split; [done|]. intros b Hb.
      specialize (Hmax b Hb). change (float_gt (gain b) (gain a) = false) in Hmax.
      destruct (HG a Hin) as [Fa Ea], (HG b Hb) as [Fb Eb].
      destruct (Hp a Hin) as (_ & _ & Pa), (Hp b Hb) as (_ & _ & Pb).
      unfold float_gt in Hmax. rewrite Bcompare_correct in Hmax by done.
      assert (val (gain b) <= val (gain a))%R as Hle.
      { destruct (Rcompare_spec (val (gain b)) (val (gain a))); try lra; discriminate Hmax. }
      apply Rabs_le_inv in Ea, Eb, Pa, Pb.
      assert (INR K * (INR K + 10) * bpow radix2 (-49) = 2 * slack K + 32 * INR K * eps)%R as Et.
      { unfold slack. rewrite eps_eight. change (-49)%Z with (4 + -53)%Z. rewrite bpow_plus. change (bpow radix2 4) with 16%R. lra. }
      rewrite Et. pose proof eps_small. nra.
    - exfalso. specialize (Hbest a0 Ha0). change (float_gt (gain a0) float_neg_inf = false) in Hbest.
      destruct (HG a0 Ha0) as [F0 _]. unfold float_gt, float_neg_inf in Hbest.
      destruct (gain a0) as [s|s|s pl Hpl|s m e He]; try discriminate F0; discriminate Hbest.
  Qed.

  (** ** The label determined *)

  Lemma determined_zero show g a value label : discrete a → 0 < (gr_size g).2 →
    (Z.of_nat (gr_size g).2 <= 2 ^ 53)%Z →
    (∀ i, i < (gr_size g).2 → value_of show g a i = Ok (value i)) →
    (∀ i, i < (gr_size g).2 → get_class show g i = Ok (label i)) →
    (∀ i j, i < (gr_size g).2 → j < (gr_size g).2 → value i = value j → label i = label j) →
    ∃ m, distribution_after_split show g a = Ok m ∧ split_entropy_of F ao co m = B754_zero 53 1024 false.
  Proof using HL Ha Hco.
    intros Hf Hn HN Hv Hc Hd. destruct (data_split show g a value label Hf Hn Hv Hc) as (m & Hm & Ht).
    exists m. split; [done|]. apply pure_split.
    - rewrite (tables_sum _ _ Ht). unfold data. by rewrite map_length, seq_length.
    - destruct Ht as (vs & Hvs & Hfa). intros side Hin. apply elem_of_list_lookup in Hin as [i Hi].
      destruct (Forall2_lookup_r _ _ _ _ _ Hfa Hi) as (v & Hvi & Hside). apply elem_of_list_lookup_2 in Hvi.
      rewrite Hvs, elem_of_remove_dups in Hvi.
      assert (∀ c d, c ∈ labels_at v (data (gr_size g).2 value label) → d ∈ labels_at v (data (gr_size g).2 value label) → c = d) as Hone.
      { intros c d Hcl Hdl. apply in_labels, elem_of_list_fmap in Hcl as (x & Ex & Hx).
        apply in_labels, elem_of_list_fmap in Hdl as (y & Ey & Hy). injection Ex as -> ->. injection Ey as Ev ->.
        apply elem_of_seq in Hx, Hy. apply Hd; [lia|lia|done]. }
      unfold tallies in Hside. set (L := labels_at v (data (gr_size g).2 value label)) in *.
      assert (L ≠ []) as HLne.
      { intros E. rewrite occurs_pos, <- labels_length in Hvi. fold L in Hvi. rewrite E in Hvi. cbn in Hvi. lia. }
      destruct L as [|c L'] eqn:EL; [done|]. clear HLne.
      assert (remove_dups (c :: L') ≡ₚ [c]) as Hp.
      { apply NoDup_Permutation; [apply NoDup_remove_dups|apply NoDup_singleton|]. intros d.
        rewrite elem_of_remove_dups, elem_of_list_singleton. split; [intros Hdl; apply Hone; [done|left]|intros ->; left]. }
      rewrite Hp in Hside. cbn [map] in Hside. apply Permutation_singleton_r in Hside as ->.
      exists (occurs c (c :: L')). split; [done|]. apply occurs_pos. left.
  Qed.

  (** ** Thresholds *)

  Lemma middle_between refs w : well_apart refs → is_middle refs w →
    (∃ x, x ∈ refs ∧ float_gt x.1 w = false) ∧ (∃ x, x ∈ refs ∧ float_gt x.1 w = true).
  Proof using.
    intros Hw (k & x & y & Hx & Hy & ->). destruct (Hw k x y Hx Hy) as [H1 H2]. split.
    - exists x. split; [by eapply elem_of_list_lookup_2|]. unfold float_lt in H1. unfold float_gt.
      destruct (Bcompare 53 1024 x.1 (middle x.1 y.1)) as [[]|]; done.
    - exists y. split; [by eapply elem_of_list_lookup_2|]. unfold float_lt in H2. unfold float_gt.
      rewrite Bcompare_swap. by destruct (Bcompare 53 1024 (middle x.1 y.1) y.1) as [[]|].
  Qed.

  Lemma refs_cut n k value label refs w : refs_of n k value label refs →
    (∃ x, x ∈ refs ∧ float_gt x.1 w = false) → (∃ x, x ∈ refs ∧ float_gt x.1 w = true) →
    (∀ x, x ∈ refs → x.2 < k) ∧ conditional (above w refs) = conditional (cut n value label w).
  Proof using.
    intros (Hlen & _ & code & Hr & Hinj) H0 H1.
    assert (refs = map (λ i, (value i, code (label i))) (seq 0 n)) as E.
    { apply list_eq. intros i. change (map ?f ?l) with (f <$> l). rewrite list_lookup_fmap.
      destruct (decide (i < n)) as [Hi|Hi].
      - rewrite lookup_seq_lt by done. cbn. by destruct (Hr i Hi) as [-> _].
      - rewrite lookup_ge_None_2 by lia. rewrite lookup_ge_None_2; [done|]. rewrite seq_length. lia. }
    assert (∀ x, x ∈ refs → x.2 < k) as Hk.
    { intros x Hx. rewrite E in Hx. apply elem_of_list_fmap in Hx as (i & -> & Hi). apply elem_of_seq in Hi. cbn [snd].
      apply Hr. lia. }
    split; [done|]. pose proof (above_tables k refs w Hk H0 H1) as Ht. rewrite <- (split_tally _ _ Ht).
    apply split_tally. apply (tables_rename code).
    - intros x y Hx Hy. apply elem_of_list_fmap in Hx as (i & -> & Hi). apply elem_of_list_fmap in Hy as (j & -> & Hj).
      apply elem_of_seq in Hi, Hj. cbn [snd]. apply Hinj; lia.
    - unfold cut. rewrite map_map. cbn [fst snd].
      assert (above w refs = map (λ i, (float_gt (value i) w, code (label i))) (seq 0 n)) as <-; [|done].
      rewrite E. unfold above. by rewrite map_map.
  Qed.

  Lemma numeric_near show sorter g a s value label :
    iter_agrees g → gr_get_attribute g a = Ok s → reads_numbers show g s value label →
    (∀ l, sorter l ≡ₚ l) → 2 ≤ (gr_size g).2 → (Z.of_nat (gr_size g).2 <= 400000)%Z →
    ∃ k refs, refs_of (gr_size g).2 k value label refs ∧
      (well_apart (sorter refs) → ∀ fuel, (gr_size g).2 < fuel →
       ∃ e v, numeric_entropy (fast_entropy F) show sorter fuel g a = Ok (e, v) ∧ is_middle (sorter refs) v ∧
         fin e = true ∧
         (Rabs (val e - conditional (cut (gr_size g).2 value label v)) <= slack (2 * (gr_size g).2 + 2))%R ∧
         ∀ w, is_middle (sorter refs) w →
           (conditional (cut (gr_size g).2 value label v) <=
            conditional (cut (gr_size g).2 value label w) + 2 * slack (2 * (gr_size g).2 + 2))%R).
  Proof using HL.
    intros Hi Hs Hr Hsort Hn HN.
    destruct (numeric_best (fast_entropy F) show sorter g a s value label Hi Hs Hr Hsort) as (k & refs & Href & Hbest).
    exists k, refs. split; [done|]. intros Hw fuel Hfuel. destruct (Hbest Hw fuel Hfuel) as (e & v & He & Hmin & Hev).
    set (n := (gr_size g).2) in *.
    assert (∀ w, is_middle (sorter refs) w → fin (threshold_entropy (fast_entropy F) k refs w) = true ∧
      (Rabs (val (threshold_entropy (fast_entropy F) k refs w) - conditional (cut n value label w)) <= slack (2 * n + 2))%R) as Hall.
    { intros w Hm. destruct (middle_between _ w Hw Hm) as [(x & Hx & Gx) (y & Hy & Gy)]. rewrite (Hsort refs) in Hx, Hy.
      destruct (refs_cut n k value label refs w Href) as [Hk <-]; [by exists x|by exists y|].
      destruct Href as (Hlen & Hkn & _).
      destruct (fast_threshold k refs w Hk) as [H1 H2]; [lia|lia|by exists x|by exists y|].
      split; [done|]. eapply Rle_trans; [exact H2|]. apply slack_mono. lia. }
    assert (∃ w, is_middle (sorter refs) w) as [w0 Hw0].
    { pose proof (Permutation_length (Hsort refs)) as Hl. rewrite (proj1 Href) in Hl.
      destruct (lookup_lt_is_Some_2 (sorter refs) 0) as [x Hx]; [lia|].
      destruct (lookup_lt_is_Some_2 (sorter refs) 1) as [y Hy]; [lia|].
      exists (middle x.1 y.1), 0, x, y. done. }
    assert (is_middle (sorter refs) v ∧ e = threshold_entropy (fast_entropy F) k refs v) as [Hv Ee].
    { destruct Hev as [[-> _]|?]; [|done]. exfalso. specialize (Hmin w0 Hw0). destruct (Hall w0 Hw0) as [F0 _].
      unfold float_lt, float_inf in Hmin.
      destruct (threshold_entropy (fast_entropy F) k refs w0) as [?|?|?|[] ? ? ?]; try discriminate F0; discriminate Hmin. }
    destruct (Hall v Hv) as [Fv Ev]. exists e, v. rewrite Ee. rewrite Ee in He. split; [done|]. split; [done|]. split; [done|]. split; [done|].
    intros w Hm. specialize (Hmin w Hm). rewrite Ee in Hmin. destruct (Hall w Hm) as [Fw Ew].
    unfold float_lt in Hmin. rewrite Bcompare_correct in Hmin by done.
    set (V := val (threshold_entropy (fast_entropy F) k refs v)) in *.
    set (W := val (threshold_entropy (fast_entropy F) k refs w)) in *.
    assert (V <= W)%R by (destruct (Rcompare_spec W V); try lra; discriminate Hmin).
    apply Rabs_le_inv in Ev, Ew. lra.
  Qed.

  Lemma numeric_constant show sorter g a s value label x :
    iter_agrees g → gr_get_attribute g a = Ok s → reads_numbers show g s value label →
    (∀ l, sorter l ≡ₚ l) → (Z.of_nat (gr_size g).2 <= 2 ^ 53)%Z → (∀ i, i < (gr_size g).2 → value i = x) →
    ∀ fuel e v, numeric_entropy (fast_entropy F) show sorter fuel g a = Ok (e, v) → e = float_inf ∧ v = float_inf.
  Proof using HL.
    intros Hi Hs Hr Hsort HN Hx fuel e v.
    destruct (numeric_refs show g s value label Hr (fast_entropy F) sorter a Hi Hs) as (k & refs & (Hlen & _ & code & Hcode & _) & ->).
    destruct (best_threshold (fast_entropy F) fuel k (sorter refs)) as [p|] eqn:E; [|done]. intros H. injection H as ->.
    eapply (constant_search k x (sorter refs)); [|by rewrite (Permutation_length (Hsort refs)), Hlen|exact E].
    intros r Hin. rewrite (Hsort refs) in Hin. apply elem_of_list_lookup in Hin as [i Hri].
    assert (i < (gr_size g).2) as Hlt by (rewrite <- Hlen; by eapply lookup_lt_Some).
    destruct (Hcode i Hlt) as [E1 E2]. rewrite E1 in Hri. injection Hri as <-. split; [by apply Hx|done].
  Qed.
End with_log.
