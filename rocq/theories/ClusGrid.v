(** Proofs about DBSCAN on tables, about cluster maps and about mixture predictions. *)
From Verif Require Import Prelude FloatModel FloatOrder AttrModel StoreModel DenseModel DenseProofs GridModel GridSpec GridProofs
  FilterModel KnnModel Id3Model RuleModel RuleProofs CartModel CartSpec CartProofs CartGrow IsoModel IsoProofs ClusModel ClusSpec ClusProofs.
From Flocq Require Import IEEE754.BinarySingleNaN IEEE754.Bits IEEE754.Binary.
Local Open Scope nat_scope.

(** ** Pairwise distances *)

Lemma foldl_ok {A B} (f : A → B → res A) (g : A → B → A) l : ∀ a,
  (∀ a b, b ∈ l → f a b = Ok (g a b)) → res_foldl f a l = Ok (foldl g a l).
Proof.
  induction l as [|b l IH]; intros a Hf; [done|]. cbn [res_foldl foldl]. rewrite Hf by left. cbn [mbind res_bind].
  apply IH. intros a' b' Hb. apply Hf. by right.
Qed.

Lemma mapM_unpack g r specs : ∀ raws fs, res_mapM (λ s, gr_get g s r) specs = Ok raws →
  res_mapM unpack_float raws = Ok fs → res_mapM (λ s, raw ← gr_get g s r; unpack_float raw) specs = Ok fs.
Proof.
  intros raws fs Hraw Hfeat. apply res_mapM_Ok in Hraw. apply res_mapM_Ok in Hfeat. apply res_mapM_Ok.
  revert fs Hfeat. induction Hraw as [|s raw ss raws H1 _ IH]; intros fs Hfeat.
  - apply Forall2_nil_inv_l in Hfeat. subst fs. constructor.
  - apply Forall2_cons_inv_l in Hfeat as (f & fs' & H2 & H3 & ->). constructor; [|by apply IH].
    rewrite H1. exact H2.
Qed.

Lemma convert_rows_reads attrs g feat : reads_columns g attrs feat → all_float attrs = true → length attrs ≠ 0 →
  convert_rows attrs g = Ok (map feat (seq 0 (gr_size g).2)).
Proof.
  intros (specs & Hs & Hrows) Hf Hl. unfold convert_rows. rewrite Hf, Hs. cbn [negb mbind res_bind].
  apply res_mapM_Ok, Forall2_fmap_r, Forall_Forall2_diag, Forall_forall. intros r Hr. apply elem_of_seq in Hr.
  destruct (Nat.eqb_spec (length attrs) 0); [done|].
  destruct (Hrows r ltac:(lia)) as (raws & Hraw & Hfeat). by apply (mapM_unpack g r specs raws).
Qed.

Section distances.
  Variable metric : list binary64 → list binary64 → binary64.
  Variable feat : nat → list binary64.
  Variable rows : nat.
  Notation d := (distance_of metric feat).

  Definition set_pair (i : nat) (m : matrix) (j : nat) : matrix :=
    mat_set (mat_set m i j (metric (feat i) (feat j))) j i (metric (feat i) (feat j)).

  Lemma set_inner i a b l : ∀ m, (∀ j, j ∈ l → i < j) →
    foldl (set_pair i) m l a b =
      if bool_decide ((a = i ∧ b ∈ l) ∨ (b = i ∧ a ∈ l)) then d a b else m a b.
  Proof.
    induction l as [|j l IH]; intros m Hl; cbn [foldl].
    { rewrite bool_decide_eq_false_2; [done|]. intros [[_ H]|[_ H]]; by apply elem_of_nil in H. }
    rewrite IH by (intros k Hk; apply Hl; by right). assert (i < j) as Hij by (apply Hl; left).
    destruct (bool_decide_reflect ((a = i ∧ b ∈ l) ∨ (b = i ∧ a ∈ l))) as [Hin|Hin].
    { rewrite bool_decide_eq_true_2; [done|]. rewrite !elem_of_cons. tauto. }
    unfold set_pair, mat_set.
    destruct (Nat.eqb_spec a j) as [->|Ha]; [destruct (Nat.eqb_spec b i) as [->|Hb]|]; cbn [andb].
    - rewrite bool_decide_eq_true_2 by (right; split; [done|left]). unfold distance_of.
      destruct (Nat.eqb_spec j i); [lia|]. destruct (Nat.ltb_spec j i); [lia|]. done.
    - destruct (Nat.eqb_spec j i); [lia|]. cbn [andb]. rewrite bool_decide_eq_false_2; [done|].
      rewrite !elem_of_cons. intros [[? _]|[? _]]; lia.
    - destruct (Nat.eqb_spec a i) as [->|Ha2]; [destruct (Nat.eqb_spec b j) as [->|Hb]|]; cbn [andb].
      + rewrite bool_decide_eq_true_2 by (left; split; [done|left]). unfold distance_of.
        destruct (Nat.eqb_spec i j); [lia|]. destruct (Nat.ltb_spec i j); [done|lia].
      + rewrite bool_decide_eq_false_2; [done|]. rewrite !elem_of_cons. naive_solver.
      + rewrite bool_decide_eq_false_2; [done|]. rewrite !elem_of_cons. naive_solver.
  Qed.

  Definition all_pairs (k : nat) : matrix :=
    foldl (λ m i, foldl (set_pair i) m (seq (S i) (rows - S i))) mat_zero (seq 0 k).

  Lemma all_pairs_at a b k : k ≤ rows → all_pairs k a b =
    if bool_decide (a ≠ b ∧ a < rows ∧ b < rows ∧ (a < k ∨ b < k)) then d a b else float_zero.
  Proof.
    induction k as [|k IH]; intros Hk.
    { rewrite bool_decide_eq_false_2 by lia. done. }
    unfold all_pairs. rewrite seq_S, foldl_app. cbn [foldl]. fold (all_pairs k).
    rewrite set_inner by (intros j Hj; apply elem_of_seq in Hj; lia). rewrite IH by lia.
    repeat case_bool_decide; try done; exfalso; rewrite !elem_of_seq in *; lia.
  Qed.

  Lemma distance_sym i j : d i j = d j i.
  Proof.
    unfold distance_of. destruct (Nat.eqb_spec i j), (Nat.eqb_spec j i), (Nat.ltb_spec i j), (Nat.ltb_spec j i); try lia; done.
  Qed.
End distances.

Lemma pairwise_at metric attrs g feat : reads_columns g attrs feat → all_float attrs = true → length attrs ≠ 0 →
  (gr_size g).2 ≠ 0 → pairwise_distances metric attrs g = Ok (all_pairs metric feat (gr_size g).2 (gr_size g).2).
Proof.
  intros Hr Hf Hl Hn. unfold pairwise_distances. rewrite (convert_rows_reads attrs g feat Hr Hf Hl). cbn [mbind res_bind].
  destruct (Nat.eqb_spec (gr_size g).2 0); [done|]. apply foldl_ok. intros m i Hi. apply foldl_ok. intros m' j Hj.
  apply elem_of_seq in Hi, Hj.
  assert (∀ k, k < (gr_size g).2 → idx (map feat (seq 0 (gr_size g).2)) k = Ok (feat k)) as Hx.
  { intros k Hk. unfold idx. change (map feat) with (fmap (M:=list) feat). rewrite list_lookup_fmap, lookup_seq_lt by done. done. }
  rewrite !Hx by lia. done.
Qed.

Lemma all_pairs_within metric feat rows eps x y : x < rows → y < rows →
  within (all_pairs metric feat rows rows) eps x y = within (distance_of metric feat) eps x y.
Proof.
  intros Hx Hy. unfold within. rewrite all_pairs_at by lia. case_bool_decide as Hc; [done|].
  assert (x = y) as <- by lia. unfold distance_of. by rewrite Nat.eqb_refl.
Qed.

Lemma all_pairs_sym metric feat rows eps x y :
  within (all_pairs metric feat rows rows) eps x y = within (all_pairs metric feat rows rows) eps y x.
Proof.
  unfold within. rewrite !all_pairs_at by lia. rewrite (distance_sym metric feat x y).
  repeat case_bool_decide; try done; exfalso; lia.
Qed.

(** Everything depends on nearness of rows only. *)
Section near_ext.
  Variable rows : nat.
  Variable n1 n2 : nat → nat → bool.
  Variable mc : Z.
  Hypothesis Hn : ∀ x y, x < rows → y < rows → n1 x y = n2 x y.

  Lemma core_ext x : x < rows → core rows n1 mc x ↔ core rows n2 mc x.
  Proof using Hn.
    intros Hx. unfold core.
    rewrite (filter_length_ext (λ y, n1 x y = true) (λ y, n2 x y = true)); [done|].
    intros y Hy. apply elem_of_seq in Hy. rewrite Hn; [done|lia|lia].
  Qed.

  Lemma step_ext x y : step rows n1 mc x y ↔ step rows n2 mc x y.
  Proof using Hn.
    unfold step. split; intros (? & ? & ? & ?); (split_and!; try done); [by apply core_ext|by rewrite <- Hn|by apply core_ext|by rewrite Hn].
  Qed.

  Lemma reaches_ext x y : reaches rows n1 mc x y ↔ reaches rows n2 mc x y.
  Proof using Hn.
    unfold reaches. split; intros Hr; induction Hr as [|a b c Hab _ IH]; try constructor;
      (eapply rtc_l; [|exact IH]); by apply step_ext.
  Qed.
End near_ext.

Lemma dbscan_reads metric fuel attrs eps mc g m : dbscan metric fuel attrs eps mc g = Ok m →
  all_float attrs = true ∧ (gr_size g).2 ≠ 0 ∧ length attrs ≠ 0.
Proof.
  unfold dbscan, pairwise_distances, convert_rows. intros (dist & (mats & Hc & Hd)%bind_Ok & _)%bind_Ok.
  destruct (all_float attrs); [|done]. cbn [negb] in Hc. apply bind_Ok in Hc as (specs & Hs & Hm).
  destruct (Nat.eqb_spec (gr_size g).2 0) as [E|E]; [done|]. split_and!; [done|done|]. intros Hl. rewrite Hl in Hm. cbn in Hm.
  destruct (gr_size g).2; done.
Qed.

Lemma mapM_pack g r specs : ∀ fs, res_mapM (λ s, raw ← gr_get g s r; unpack_float raw) specs = Ok fs →
  ∃ raws, res_mapM (λ s, gr_get g s r) specs = Ok raws ∧ res_mapM unpack_float raws = Ok fs.
Proof.
  induction specs as [|s specs IH]; intros fs H; cbn [res_mapM] in H.
  { injection H as <-. by exists []. }
  apply bind_Ok in H as (f & (raw & Hr & Hu)%bind_Ok & (fs' & Hfs & [= <-])%bind_Ok).
  destruct (IH fs' Hfs) as (raws & H1 & H2). exists (raw :: raws). cbn [res_mapM]. rewrite Hr, H1, Hu, H2. done.
Qed.

Lemma convert_rows_inv attrs g mats : convert_rows attrs g = Ok mats →
  reads_columns g attrs (λ r, default [] (mats !! r)).
Proof.
  unfold convert_rows. destruct (all_float attrs); [|done]. cbn [negb]. intros (specs & Hs & Hm)%bind_Ok.
  exists specs. split; [done|]. intros r Hr. apply res_mapM_Ok in Hm.
  destruct (Forall2_lookup_l _ _ _ r r Hm) as (x & Hx & Hc); [by apply lookup_seq_lt|].
  destruct (length attrs =? 0); [done|]. rewrite Hx. cbn [default]. by apply mapM_pack.
Qed.

Lemma dbscan_feat metric fuel attrs eps mc g m : dbscan metric fuel attrs eps mc g = Ok m → ∃ feat, reads_columns g attrs feat.
Proof.
  unfold dbscan, pairwise_distances. intros (dist & (mats & Hc & Hd)%bind_Ok & _)%bind_Ok. eexists. by apply convert_rows_inv.
Qed.

Section table.
  Variable metric : list binary64 → list binary64 → binary64.
  Variables (fuel : nat) (attrs : list attr) (eps : binary64) (mc : Z) (g : grid) (feat : nat → list binary64).
  Hypothesis Hreads : reads_columns g attrs feat.
  Notation rows := (gr_size g).2.
  Notation near := (within (distance_of metric feat) eps).
  Notation dist := (all_pairs metric feat rows rows).

  Lemma dbscan_scan : all_float attrs = true → length attrs ≠ 0 → rows ≠ 0 →
    dbscan metric fuel attrs eps mc g = scan_all rows dist eps mc fuel.
  Proof using Hreads. intros Hf Hl Hn. unfold dbscan. by rewrite (pairwise_at metric attrs g feat). Qed.

  Lemma dbscan_good m : dbscan metric fuel attrs eps mc g = Ok m →
    ∃ c st, good rows dist eps mc rows c st ∧ m = filter (λ e, (mc <=? Z.of_nat (length e.2))%Z = true) (sc_map st).
  Proof using Hreads.
    intros Hm. destruct (dbscan_reads _ _ _ _ _ _ _ Hm) as (Hf & Hn & Hl). rewrite dbscan_scan in Hm by done.
    destruct (scan_good rows dist eps mc (all_pairs_sym metric feat rows eps) fuel m Hm) as (c & st & HG & -> & _).
    by exists c, st.
  Qed.

  Lemma near_eq x y : x < rows → y < rows → within dist eps x y = near x y.
  Proof. apply all_pairs_within. Qed.

  Lemma dbscan_total : (rows + 1) * (rows + 1) ≤ fuel → all_float attrs = true → length attrs ≠ 0 → rows ≠ 0 →
    dbscan metric fuel attrs eps mc g ≠ Err.
  Proof using Hreads. intros. rewrite dbscan_scan by done. apply scan_fuel; [apply all_pairs_sym|done]. Qed.

  Lemma dbscan_valid m c l : dbscan metric fuel attrs eps mc g = Ok m → m !! c = Some l →
    NoDup l ∧ (mc <= Z.of_nat (length l))%Z ∧ (∀ q, q ∈ l → q < rows) ∧
    (∀ c' l' q, m !! c' = Some l' → q ∈ l → q ∈ l' → c' = c).
  Proof using Hreads.
    intros Hm Hc. destruct (dbscan_good m Hm) as (k & st & [_ _ G3 G4 _ _] & ->).
    apply map_filter_lookup_Some in Hc as [Hc Hs]. destruct (G3 c l Hc) as (p & l' & -> & _ & Hnd & Hq). split_and!; [done|by apply Z.leb_le|intros q Hin; by apply (Hq q Hin)|].
    intros c' l2 q [Hc' _]%map_filter_lookup_Some Hq1 Hq2. exact (G4 c' c l2 (p :: l') q Hc' Hc Hq2 Hq1).
  Qed.

  Lemma dbscan_reached m c l : dbscan metric fuel attrs eps mc g = Ok m → m !! c = Some l →
    ∃ p l', l = p :: l' ∧ core rows near mc p ∧ ∀ q, q ∈ l → reaches rows near mc p q.
  Proof using Hreads.
    intros Hm Hc. destruct (dbscan_good m Hm) as (k & st & [_ _ G3 G4 _ _] & ->).
    apply map_filter_lookup_Some in Hc as [Hc Hs]. destruct (G3 c l Hc) as (p & l' & -> & Hp & Hnd & Hq). exists p, l'.
    split_and!; [done| |].
    - apply (core_ext rows (within dist eps) near mc near_eq p); [apply (Hq p); left|exact Hp].
    - intros q Hin. apply (reaches_ext rows (within dist eps) near mc near_eq). by apply (Hq q Hin).
  Qed.

  Lemma dbscan_apart m c1 c2 l1 l2 x y : dbscan metric fuel attrs eps mc g = Ok m →
    m !! c1 = Some l1 → m !! c2 = Some l2 → x ∈ l1 → y ∈ l2 →
    core rows near mc x → core rows near mc y → near x y = true → c1 = c2.
  Proof using Hreads.
    intros Hm Hc1 Hc2 Hx Hy Hcx Hcy Hn. destruct (dbscan_good m Hm) as (k & st & [_ _ G3 _ _ G6] & ->).
    apply map_filter_lookup_Some in Hc1 as [Hc1 _], Hc2 as [Hc2 _].
    assert (x < rows) as Hxr by (destruct (G3 _ _ Hc1) as (? & ? & _ & _ & _ & Hq); by eapply Hq).
    assert (y < rows) as Hyr by (destruct (G3 _ _ Hc2) as (? & ? & _ & _ & _ & Hq); by eapply Hq).
    eapply (G6 c1 c2 l1 l2 x y); try done.
    - by apply (core_ext rows (within dist eps) near mc near_eq).
    - by apply (core_ext rows (within dist eps) near mc near_eq).
    - by rewrite near_eq.
  Qed.

  Lemma dbscan_components : (rows + 1) * (rows + 1) ≤ fuel → all_float attrs = true → length attrs ≠ 0 → rows ≠ 0 →
    no_border rows near mc →
    ∃ m, dbscan metric fuel attrs eps mc g = Ok m ∧
      (∀ q, q < rows → core rows near mc q → ∃ c l, m !! c = Some l ∧ q ∈ l) ∧
      (∀ c l x y, m !! c = Some l → x ∈ l → x < rows → core rows near mc x → (y ∈ l ↔ reaches rows near mc x y)).
  Proof using Hreads.
    intros Hfu Hf Hl Hn Hin. rewrite dbscan_scan by done.
    destruct (scan_complete rows dist eps mc (all_pairs_sym metric feat rows eps)) with (fuel := fuel) as (m & Hm & H1 & H2); [|done|].
    - intros x y Hs. assert (step rows near mc x y) as Hs' by (by apply (step_ext rows (within dist eps) near mc near_eq)).
      pose proof (Hin x y Hs') as Hc. destruct Hs as (_ & _ & Hy & _). by apply (core_ext rows (within dist eps) near mc near_eq).
    - exists m. split_and!; [done| |].
      + intros q Hq Hc. apply H1; [done|]. by apply (core_ext rows (within dist eps) near mc near_eq).
      + intros c l x y Hc Hx Hxr Hcx. rewrite (H2 c l x y Hc Hx Hxr); [|by apply (core_ext rows (within dist eps) near mc near_eq)].
        apply (reaches_ext rows (within dist eps) near mc near_eq).
  Qed.
End table.
