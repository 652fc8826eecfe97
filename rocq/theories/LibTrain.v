(** Proofs about training and predicting with liblinear. *)
From Coq Require Import Reals Lra.
From Verif Require Import Prelude FloatModel FloatOrder AttrModel StoreModel DenseModel DenseSpec DenseProofs GridModel GridSpec
  GridProofs KnnModel FilterModel CartModel CartGrow CartFit RuleProofs SvcModel LinSpec LinProofs LibModel LibSpec LibProofs.
From Flocq Require Import Core IEEE754.BinarySingleNaN IEEE754.Bits IEEE754.Binary.
Local Open Scope nat_scope.

Lemma lookup_nth {A} (l : list A) i d : i < length l → l !! i = Some (nth i l d).
Proof. intros H. destruct (nth_lookup_or_length l i d); [done|lia]. Qed.

(** ** Whole numbers *)

Lemma truncate_real f : fin f = true → truncate f = Some (Ztrunc (val f)).
Proof.
  destruct f as [s|s|s pl Hpl|s m e He]; intros Hf; try done.
  - cbn. by rewrite (Ztrunc_IZR 0).
  - cbn [truncate]. f_equal. unfold val. cbn [B2R]. unfold F2R. cbn [Fnum Fexp].
    assert (∀ z, Ztrunc (- z) = - Ztrunc z)%Z as Hopp by apply Ztrunc_opp.
    assert (Ztrunc (IZR (Z.pos m) * bpow radix2 e) = if (0 <=? e)%Z then (Z.pos m * 2 ^ e)%Z else (Z.pos m / 2 ^ (- e))%Z) as E.
    { destruct (Z.leb_spec 0 e) as [H|H].
      - rewrite <- (IZR_Zpower radix2 e H), <- mult_IZR. change (radix_val radix2) with 2%Z. apply Ztrunc_IZR.
      - rewrite <- Zfloor_div by lia. rewrite Ztrunc_floor.
        + f_equal. unfold Rdiv. f_equal. change 2%Z with (radix_val radix2). rewrite IZR_Zpower by lia.
          rewrite bpow_opp. by rewrite Rinv_inv.
        + apply Rmult_le_pos; [apply IZR_le; lia|apply bpow_ge_0]. }
    destruct s; cbn [cond_Zopp].
    + rewrite <- E. rewrite <- Hopp. f_equal. rewrite (opp_IZR (Z.pos m)). lra.
    + by rewrite <- E.
Qed.

Lemma to_int_whole undef z : (- 2 ^ 31 <= z < 2 ^ 31)%Z → to_int undef (float_of_Z z) = z.
Proof.
  intros Hz. destruct (float_of_Z_exact z) as [Hf Hv]; [lia|]. unfold to_int. rewrite truncate_real by done.
  rewrite Hv, Ztrunc_IZR. rewrite (proj2 (Z.leb_le _ _)), (proj2 (Z.ltb_lt _ _)) by lia. done.
Qed.

(** ** Training *)

Section train.
  Context (undef : binary64 → Z) (train_one : list (list node * bool) → binary64 → binary64 → list binary64).

  Lemma concat_lookup {A} (f : nat → nat → A) nr n j i : j < n → i < nr →
    concat (map (λ j, map (f j) (seq 0 nr)) (seq 0 n)) !! (j * nr + i) = Some (f j i).
  Proof.
    clear. intros Hj Hi. revert j Hj. induction n as [|n IH]; intros j Hj; [lia|].
    rewrite seq_S, map_app, concat_app. cbn [map concat].
    assert (length (concat (map (λ j, map (f j) (seq 0 nr)) (seq 0 n))) = n * nr) as Hl.
    { rewrite (length_concat _ nr), map_length, seq_length; [done|]. apply Forall_map, Forall_forall. intros x _.
      by rewrite map_length, seq_length. }
    destruct (decide (j = n)) as [->|Hne].
    - rewrite lookup_app_r by lia. rewrite Hl, app_nil_r, Nat.add_comm, Nat.add_sub.
      change (map (f (0 + n)) ?l) with (f n <$> l). rewrite list_lookup_fmap, lookup_seq_lt by done. done.
    - rewrite lookup_app_l by (rewrite Hl; nia). apply IH. lia.
  Qed.

  Lemma train_ok (X : list (list binary64)) p C weights :
    solves (pb_n p) train_one → X ≠ [] → length (pb_y p) = length X →
    (∀ i x, X !! i = Some x → problem_row p i = Ok (sparse x)) →
    ∃ m, train undef train_one p C weights = Ok m ∧ lm_n m = pb_n p ∧ complete m ∧
      trained train_one (length X) (λ r, nth r X []) (λ r, to_int undef (nth r (pb_y p) plus_zero)) C weights m.
  Proof.
    intros Hsol HX Hy Hrow. unfold train.
    destruct (group_ok undef (pb_y p)) as (labels & -> & Hd & Hin).
    set (ts := map (to_int undef) (pb_y p)) in *. set (rows := map (place labels) ts).
    assert (length rows = length X) as Hlen by (unfold rows, ts; rewrite !map_length; done).
    assert (∀ i c, rows !! i = Some c → c < length labels) as Hlt.
    { intros i c Hi. unfold rows in Hi. change (map ?f ts) with (f <$> ts) in Hi. rewrite list_lookup_fmap in Hi.
      destruct (ts !! i) as [t|] eqn:Ht; [|done]. injection Hi as <-.
      apply elem_of_list_lookup_2, Hin, place_in, lookup_lt_Some in Ht. done. }
    pose proof (class_perm_perm (length labels) rows Hlt) as Hperm. rewrite Hlen in Hperm.
    set (row := λ r, nth r X []).
    assert (res_mapM (problem_row p) (class_perm (length labels) rows) =
            Ok (map (λ r, sparse (row r)) (class_perm (length labels) rows))) as ->.
    { apply res_mapM_some. intros i Hi. rewrite Hperm in Hi. apply elem_of_seq in Hi. apply Hrow.
      apply lookup_nth; lia. }
    cbn [mbind res_bind].
    set (label := λ r, to_int undef (nth r (pb_y p) plus_zero)).
    assert (∀ r, r < length X → ts !! r = Some (label r)) as Hts.
    { intros r Hr. unfold ts. change (map ?f ?l) with (f <$> l). rewrite list_lookup_fmap.
      unfold label. destruct (pb_y p !! r) as [v|] eqn:E; [|apply lookup_ge_None in E; lia].
      cbn. by rewrite (nth_lookup_Some _ _ _ _ E). }
    assert (∀ c l, labels !! c = Some l →
      map (λ i, (sparse (row i), bool_decide (rows !! i = Some c))) (class_perm (length labels) rows) =
      map (λ i, (sparse (row i), bool_decide (label i = l))) (class_perm (length labels) rows)) as Hside.
    { intros c l Hc. apply map_ext_in. intros i Hi. apply elem_of_list_In in Hi. rewrite Hperm in Hi. apply elem_of_seq in Hi.
      f_equal. apply bool_decide_ext. unfold rows. change (map ?f ts) with (f <$> ts). rewrite list_lookup_fmap.
      rewrite Hts by lia. cbn. split.
      - intros [= E]. assert (label i ∈ labels) as Hl.
        { apply Hin. eapply elem_of_list_lookup_2. apply Hts. lia. }
        apply place_in in Hl. rewrite E in Hl. congruence.
      - intros ->. f_equal. by apply place_nth. }
    rewrite weighted_penalty by done.
    assert (∀ i l, labels !! i = Some l → idx (map (penalty C weights) labels) i = Ok (penalty C weights l)) as Hpen.
    { intros i l Hi. apply idx_some. change (map ?f ?l) with (f <$> l). by rewrite list_lookup_fmap, Hi. }
    assert (∀ z, z ∈ labels ↔ ∃ r, r < length X ∧ label r = z) as Hlab.
    { intros z. rewrite Hin, elem_of_list_lookup. split.
      - intros [r Hr]. exists r. assert (r < length X) as Hl.
        { apply lookup_lt_Some in Hr. unfold ts in Hr. rewrite map_length in Hr. lia. }
        rewrite Hts in Hr by done. injection Hr as <-. done.
      - intros (r & Hr & <-). exists r. by apply Hts. }
    assert (labels ≠ []) as Hne.
    { destruct X as [|x X]; [done|]. assert (label 0 ∈ labels) as H by (apply Hlab; exists 0; split; [cbn; lia|done]).
      intros ->. by apply elem_of_nil in H. }
    destruct (Nat.eqb_spec (length labels) 2) as [E2|E2].
    - destruct labels as [|l0 [|l1 [|]]]; try done. cbn [map idx lookup list_lookup mbind res_bind].
      eexists. split; [done|]. split; [done|]. split.
      { split; [done|]. unfold outputs. cbn [lm_labels lm_w lm_n length Nat.eqb]. rewrite Hsol. lia. }
      constructor; cbn [lm_labels lm_w lm_n]; [exact Hlab|exact Hd|].
      exists (class_perm 2 rows). split; [exact Hperm|]. cbn zeta. split; [|done].
      intros a b [= <- <-]. f_equal.
      pose proof (sides (λ r, sparse (row r)) 2 rows 0 ltac:(lia)) as Hs.
      change (class_start rows 0) with 0 in *. cbn [Nat.add Nat.leb andb] in *.
      etransitivity; [exact Hs|]. by apply (Hside 0).
    - set (nr := length labels) in *.
      rewrite (res_mapM_some _ (λ i, train_one (map (λ r, (sparse (row r), bool_decide (label r = nth i labels 0%Z))) (class_perm nr rows))
         (penalty C weights (nth i labels 0%Z)) C)).
      2:{ intros i Hi. apply elem_of_seq in Hi. destruct (lookup_lt_is_Some_2 labels i ltac:(lia)) as [l Hl].
          rewrite (Hpen i l Hl). cbn [mbind res_bind]. rewrite (nth_lookup_Some _ _ _ _ Hl).
          rewrite sides by (unfold nr in *; lia). by rewrite (Hside i l Hl). }
      cbn [mbind res_bind].
      set (t := λ i, train_one _ _ _).
      rewrite (res_mapM_some _ (λ jk : nat * nat, nth jk.1 (t jk.2) plus_zero)).
      2:{ intros [j k] Hjk. apply elem_of_list_In, in_concat in Hjk as (q & Hq & Hjk).
          apply in_map_iff in Hq as (j' & <- & Hj). apply in_map_iff in Hjk as (k' & [= -> ->] & Hk).
          apply in_seq in Hj, Hk. cbn [fst snd].
          rewrite (idx_some (map t (seq 0 nr)) k (t k)).
          2:{ change (map t ?l) with (t <$> l). rewrite list_lookup_fmap, lookup_seq_lt by lia. done. }
          cbn [mbind res_bind]. apply idx_nth. unfold t. rewrite Hsol. lia. }
      cbn [mbind res_bind]. eexists. split; [done|]. split; [done|].
      assert (map (λ jk : nat * nat, nth jk.1 (t jk.2) plus_zero) (concat (map (λ j, map (pair j) (seq 0 nr)) (seq 0 (pb_n p)))) =
              concat (map (λ j, map (λ k, nth j (t k) plus_zero) (seq 0 nr)) (seq 0 (pb_n p)))) as ->.
      { rewrite concat_map, map_map. f_equal. apply map_ext. intros j. by rewrite map_map. }
      split.
      { split; [done|]. unfold outputs. cbn [lm_labels lm_w lm_n]. fold nr. rewrite (proj2 (Nat.eqb_neq _ _) E2).
        rewrite (length_concat _ nr); [by rewrite map_length, seq_length|]. apply Forall_map, Forall_forall. intros j _.
        by rewrite map_length, seq_length. }
      constructor; cbn [lm_labels lm_w lm_n]; [exact Hlab|exact Hd|].
      exists (class_perm nr rows). split; [exact Hperm|]. cbn zeta. split; [by intros ? ? ->|].
      intros _ i l j Hi Hj. rewrite concat_lookup; [|done|by eapply lookup_lt_Some]. symmetry.
      unfold t. rewrite (nth_lookup_Some _ _ _ _ Hi). apply lookup_nth. by rewrite Hsol.
  Qed.
End train.

(** ** Predicting *)

Fixpoint fsum (keep : binary64 → bool) (w : nat → binary64) (n o : nat) (x : list binary64) (acc : binary64) : binary64 :=
  match x with
  | [] => acc
  | v :: x => fsum keep w n (S o) x
      (if keep v && (o <? n) then b64_plus mode_NE acc (b64_mult mode_NE (w o) v) else acc)
  end.

Lemma decision_ok keep m i x : length (lm_w m) = lm_n m * outputs m → i < outputs m →
  decision m (outputs m) i (kept keep 0 x) =
  Ok (fsum keep (λ j, nth (j * outputs m + i) (lm_w m) plus_zero) (lm_n m) 0 x Id3Model.float_zero).
Proof.
  intros Hl Hi. unfold decision.
  match goal with |- res_foldl ?f _ _ = _ => assert (∀ o acc, res_foldl f acc (kept keep o x) =
    Ok (fsum keep (λ j, nth (j * outputs m + i) (lm_w m) plus_zero) (lm_n m) o x acc)) as H end; [|apply H].
  induction x as [|v x IH]; intros o acc; [done|]. rewrite kept_cons. cbn [fsum].
  destruct (keep v); cbn [app andb]; [|apply IH]. cbn [res_foldl fst snd].
  destruct (Nat.ltb_spec o (lm_n m)) as [Ho|Ho].
  - rewrite (proj2 (Z.leb_le _ _)) by lia. rewrite (proj2 (Z.ltb_ge _ _)) by lia. rewrite Nat2Z.id.
    replace (S o - 1) with o by lia. rewrite (idx_nth _ _ plus_zero) by (rewrite Hl; nia). cbn [mbind res_bind]. apply IH.
  - rewrite (proj2 (Z.leb_gt _ _)) by lia. cbn [mbind res_bind]. apply IH.
Qed.

Lemma fsum_ext keep keep' w n x : (∀ v, v ∈ x → keep v = keep' v) → ∀ o acc, fsum keep w n o x acc = fsum keep' w n o x acc.
Proof.
  induction x as [|v x IH]; intros H o acc; [done|]. cbn [fsum]. rewrite (H v) by left. apply IH. intros u Hu. apply H. by right.
Qed.

Lemma fsum_score w n x : ∀ o acc,
  fsum not_zero w n o x acc = score (map w (seq o (n - o))) x acc.
Proof.
  induction x as [|v x IH]; intros o acc.
  - cbn. by destruct (map w _).
  - cbn [fsum]. destruct (Nat.ltb_spec o n) as [Ho|Ho].
    + replace (n - o) with (S (n - S o)) by lia. cbn [seq map score]. rewrite IH, andb_true_r, not_zero_is.
      by destruct (is_zero v).
    + replace (n - o) with 0 by lia. cbn [seq map score]. rewrite andb_false_r, IH.
      replace (n - S o) with 0 by lia. by destruct x.
Qed.

Lemma best_first (s : nat → binary64) dec nr k : 
  (∀ i, i < nr → idx dec i = Ok (s i)) → S k ≤ nr →
  ∃ b, res_foldl (λ b i, di ← idx dec i; db ← idx dec b; Ok (if float_gt di db then i else b)) 0 (seq 1 k) = Ok b ∧
    b ≤ k ∧ ((∀ i, i < nr → ¬ nan (s i)) → ∀ j, j ≤ k → ¬ exceeds (s j) (s b) ∧ (j < b → exceeds (s b) (s j))).
Proof.
  intros Hd. induction k as [|k IH]; intros Hk.
  - exists 0. split; [done|]. split; [lia|]. intros _ j Hj. assert (j = 0) as -> by lia. split; [|lia].
    intros H. assert (float_gt (s 0) (s 0) = true) as E by (unfold float_gt; by rewrite H). apply gt_spec in E. lia.
  - destruct IH as (b & Hb & Hbk & Hbest); [lia|]. rewrite seq_S, res_foldl_app, Hb. cbn [mbind res_bind res_foldl].
    rewrite !Hd by lia. cbn [mbind res_bind]. eexists. split; [done|].
    assert (∀ x y, exceeds x y ↔ float_gt x y = true) as Hex.
    { intros x y. unfold exceeds, float_gt. destruct (Bcompare 53 1024 x y) as [[]|]; naive_solver. }
    destruct (float_gt (s (1 + k)) (s b)) eqn:E.
    + split; [lia|]. intros Hn j Hj. specialize (Hbest Hn).
      assert (∀ i, i < nr → fnan (s i) = false) as Hf.
      { intros i Hi. specialize (Hn i Hi). unfold nan in Hn. unfold fnan. by apply not_true_is_false. }
      rewrite !Hex. apply gt_spec in E as (_ & _ & E).
      destruct (decide (j = S k)) as [->|Hne].
      * split; [|lia]. rewrite gt_spec. cbn. lia.
      * destruct (Hbest j ltac:(lia)) as [H1 _]. rewrite Hex, gt_spec in H1.
        assert (¬ (fkey (s b) < fkey (s j))%Z) as H2 by (intros H; apply H1; split_and!; [apply Hf; lia|apply Hf; lia|done]).
        split; [rewrite gt_spec; cbn in *; lia|]. intros _. apply gt_spec. split_and!; [apply Hf; lia|apply Hf; lia|cbn in *; lia].
    + split; [lia|]. intros Hn j Hj. specialize (Hbest Hn). destruct (decide (j = S k)) as [->|Hne].
      * split; [|lia]. rewrite Hex. cbn in *. by rewrite E.
      * apply Hbest. lia.
Qed.

(** The prediction of any row. *)
Lemma predict_any m x : complete m →
  ∃ l, lib_predict m x = Ok (float_of_Z l) ∧ l ∈ lm_labels m ∧
    let s i := fsum over_zero (λ j, nth (j * outputs m + i) (lm_w m) plus_zero) (lm_n m) 0 x Id3Model.float_zero in
    ((∀ i, i < outputs m → ¬ nan (s i)) → chosen m s l).
Proof.
  intros [Hne Hl]. unfold lib_predict. destruct (vector_read x) as (v & -> & Hr). cbn [mbind res_bind]. rewrite Hr.
  cbn [mbind res_bind]. cbn zeta. set (s := λ i, fsum _ _ _ _ _ _). unfold predict_nodes. fold (outputs m).
  rewrite (res_mapM_some _ s). 2:{ intros i Hi. apply elem_of_seq in Hi. apply decision_ok; [done|lia]. }
  cbn [mbind res_bind].
  assert (∀ i, i < outputs m → idx (map s (seq 0 (outputs m))) i = Ok (s i)) as Hdec.
  { intros i Hi. apply idx_some. change (map s ?l) with (s <$> l). by rewrite list_lookup_fmap, lookup_seq_lt by lia. }
  destruct (Nat.eqb_spec (length (lm_labels m)) 2) as [E|E].
  - assert (outputs m = 1) as Ho by (unfold outputs; by rewrite E). rewrite Hdec by lia. cbn [mbind res_bind].
    destruct (lm_labels m) as [|l0 [|l1 [|]]] eqn:El; try done. rewrite over_zero_positive.
    exists (if is_positive (s 0) then l0 else l1). split; [by destruct (is_positive (s 0))|].
    split; [destruct (is_positive (s 0)); set_solver|]. intros _. unfold chosen. rewrite El. split; [|done]. by intros ?? [= -> ->].
  - assert (outputs m = length (lm_labels m)) as Ho by (unfold outputs; by rewrite (proj2 (Nat.eqb_neq _ _) E)).
    assert (0 < length (lm_labels m)) by (destruct (lm_labels m); [done|cbn; lia]).
    destruct (best_first s _ (outputs m) (length (lm_labels m) - 1) Hdec ltac:(lia)) as (b & -> & Hb & Hbest). cbn [mbind res_bind].
    destruct (lookup_lt_is_Some_2 (lm_labels m) b ltac:(lia)) as [l Hlb]. rewrite (idx_some _ _ _ Hlb). cbn [mbind res_bind].
    exists l. split; [done|]. split; [by eapply elem_of_list_lookup_2|]. intros Hn. unfold chosen. split; [by intros ?? E'; rewrite E' in E|].
    intros _. exists b. split; [done|]. intros j Hj. apply (Hbest Hn). lia.
Qed.
