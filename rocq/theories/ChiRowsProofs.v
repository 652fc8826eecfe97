(** Proofs about which rows the intervals of a ChiMerge table count and receive. *)
From Verif Require Import Prelude BytesModel BytesProofs FloatModel FloatOrder AttrModel AttrProofs StoreModel DenseModel DenseProofs GridModel GridSpec GridProofs
  SortModel SortProofs FilterModel FilterSpec FilterProofs ArffText ChiRowsSpec.
From Flocq Require Import IEEE754.Bits IEEE754.Binary.
Local Open Scope nat_scope.

Notation notnan v := (is_nan 53 1024 v = false).

(** ** Intervals of integers *)

Definition zin (zs : list Z) (j : nat) (z : Z) : bool :=
  match zs !! j with
  | Some a => (a <=? z)%Z && match zs !! S j with Some b => (z <? b)%Z | None => true end
  | None => false
  end.

Definition rising (zs : list Z) : Prop := ∀ i j a b, i < j → zs !! i = Some a → zs !! j = Some b → (a < b)%Z.

Definition keys (table : list freq_entry) : list Z := map (λ e, fkey (fe_value e)) table.

Lemma keys_lookup table j : keys table !! j = (λ e, fkey (fe_value e)) <$> table !! j.
Proof. apply list_lookup_fmap. Qed.

Lemma in_interval_keys table j v : Forall (λ e, notnan (fe_value e)) table → notnan v →
  in_interval table j v = zin (keys table) j (fkey v).
Proof.
  intros Hn Hv. unfold in_interval, zin. rewrite !keys_lookup.
  assert (∀ k e, table !! k = Some e → notnan (fe_value e)) as Hk.
  { intros k e He. rewrite Forall_forall in Hn. apply Hn. by eapply elem_of_list_lookup_2. }
  assert (∀ a b, notnan a → notnan b → float_lt a b = (fkey a <? fkey b)%Z) as Hlt.
  { intros a b Ha Hb. apply eq_bool_prop_intro. rewrite !Is_true_true, float_lt_key, Z.ltb_lt. naive_solver. }
  destruct (table !! j) as [e|] eqn:Ej; [|done]. cbn [fmap option_fmap option_map].
  rewrite (Hlt v (fe_value e)) by eauto. f_equal.
  - rewrite Z.leb_antisym. done.
  - destruct (table !! S j) as [e'|] eqn:Ej'; [|done]. cbn [fmap option_fmap option_map].
    rewrite (Hlt v (fe_value e')) by eauto. done.
Qed.

(** ** Merging *)

Lemma merge_lookup freq i freq' : merge_adjacent freq i = Ok freq' →
  ∃ e1 e2, freq !! i = Some e1 ∧ freq !! S i = Some e2 ∧
    (∀ k, k < i → freq' !! k = freq !! k) ∧
    freq' !! i = Some (Freq (fe_value e1) (freq_union (fe_freq e1) (fe_freq e2))) ∧
    ∀ k, i < k → freq' !! k = freq !! S k.
Proof.
  unfold merge_adjacent. intros H. apply bind_Ok in H as (e1 & H1 & H). apply bind_Ok in H as (e2 & H2 & H).
  injection H as <-. unfold idx in H1, H2. rewrite Nat.add_1_r in H2.
  destruct (freq !! i) as [x|] eqn:E1; [|done]. injection H1 as ->.
  destruct (freq !! S i) as [x|] eqn:E2; [|done]. injection H2 as ->.
  assert (length (take i freq) = i) as Hl.
  { rewrite take_length. apply lookup_lt_Some in E1. lia. }
  exists e1, e2. split; [done|]. split; [done|]. split; [|split].
  - intros k Hk. rewrite lookup_app_l by lia. by rewrite lookup_take.
  - rewrite lookup_app_r by lia. by rewrite Hl, Nat.sub_diag.
  - intros k Hk. rewrite lookup_app_r by lia. rewrite Hl.
    destruct (k - i) as [|m] eqn:Em; [lia|]. cbn [lookup list_lookup]. 
    change (drop (i + 2) freq !! m = freq !! S k). rewrite lookup_drop. f_equal. lia.
Qed.

Section counts.
  Context (n : nat) (val : nat → binary64) (cls : nat → string).

  (** The table counts the rows of each interval. *)
  Record counted (table : list freq_entry) : Prop := {
    ct_rising : rising (keys table);
    ct_notnan : Forall (λ e, notnan (fe_value e)) table;
    ct_rows : ∀ j e c, table !! j = Some e → default 0 (fe_freq e !! c) =
      count_rows n (λ i, zin (keys table) j (fkey (val i)) && bool_decide (cls i = c))
  }.

  Lemma count_rows_disjoint m P Q R : (∀ i, i < m → R i = P i || Q i) → (∀ i, i < m → P i && Q i = false) →
    count_rows m R = count_rows m P + count_rows m Q.
  Proof.
    induction m as [|m IH]; intros H1 H2; [done|]. rewrite !count_rows_S, IH; [|intros; apply H1; lia|intros; apply H2; lia].
    rewrite H1 by lia. specialize (H2 m ltac:(lia)). destruct (P m), (Q m); cbn in *; try done; lia.
  Qed.

  Lemma merge_counted freq i freq' : counted freq → merge_adjacent freq i = Ok freq' → counted freq'.
  Proof.
    intros [Hr Hn Hc] H. apply merge_lookup in H as (e1 & e2 & E1 & E2 & Hlt & Hi & Hgt).
    assert (∀ k, keys freq' !! k = keys freq !! (if k <=? i then k else S k)) as Hk.
    { intros k. rewrite !keys_lookup. destruct (k <=? i) eqn:E; [apply Nat.leb_le in E|apply Nat.leb_gt in E].
      - destruct (decide (k = i)) as [->|Hne]; [by rewrite Hi, E1|]. by rewrite Hlt by lia.
      - by rewrite Hgt by lia. }
    split.
    - intros a b x y Hab Ha Hb. rewrite Hk in Ha, Hb. eapply Hr; [|exact Ha|exact Hb].
      destruct (a <=? i) eqn:Ea, (b <=? i) eqn:Eb;
        rewrite ?Nat.leb_le, ?Nat.leb_gt in Ea; rewrite ?Nat.leb_le, ?Nat.leb_gt in Eb; lia.
    - apply Forall_forall. intros e He. apply elem_of_list_lookup in He as [k He]. rewrite Forall_forall in Hn.
      destruct (decide (k < i)) as [Hki|Hki]; [rewrite Hlt in He by done; apply Hn; by eapply elem_of_list_lookup_2|].
      destruct (decide (k = i)) as [->|Hki'].
      + rewrite Hi in He. injection He as <-. cbn [fe_value]. apply Hn. by eapply elem_of_list_lookup_2.
      + rewrite Hgt in He by lia. apply Hn. by eapply elem_of_list_lookup_2.
    - intros k e c He.
      destruct (decide (k < i)) as [Hki|Hki]; [|destruct (decide (k = i)) as [->|Hki']].
      + rewrite Hlt in He by done. rewrite (Hc k e c He). apply count_rows_ext. intros r Hr'. f_equal.
        unfold zin. rewrite !Hk. rewrite !(proj2 (Nat.leb_le _ _)) by lia. done.
      + rewrite Hi in He. injection He as <-. cbn [fe_freq]. rewrite freq_union_lookup.
        rewrite (Hc i e1 c E1), (Hc (S i) e2 c E2). symmetry.
        assert (keys freq !! i = Some (fkey (fe_value e1))) as K1 by (by rewrite keys_lookup, E1).
        assert (keys freq !! S i = Some (fkey (fe_value e2))) as K2 by (by rewrite keys_lookup, E2).
        pose proof (Hr i (S i) _ _ ltac:(lia) K1 K2) as L12.
        assert (∀ b, keys freq !! S (S i) = Some b → (fkey (fe_value e2) < b)%Z) as L23.
        { intros b Hb. apply (Hr (S i) (S (S i)) _ _ ltac:(lia) K2 Hb). }
        apply count_rows_disjoint; intros r Hr'; unfold zin; rewrite ?Hk.
        * rewrite (proj2 (Nat.leb_le i i)), (proj2 (Nat.leb_gt (S i) i)) by lia. rewrite K1, K2.
          rewrite <- andb_orb_distrib_l. f_equal.
          destruct (keys freq !! S (S i)) as [b|]; [specialize (L23 b eq_refl)|]; lia.
        * rewrite K1, K2. destruct (bool_decide (cls r = c)); rewrite ?andb_false_r, ?andb_true_r; [|done].
          destruct (keys freq !! S (S i)) as [b|]; lia.
      + rewrite Hgt in He by lia. rewrite (Hc (S k) e c He). apply count_rows_ext. intros r Hr'. f_equal.
        unfold zin. rewrite !Hk. rewrite !(proj2 (Nat.leb_gt _ _)) by lia. done.
  Qed.

  Lemma merge_all_counted idxs : ∀ freq i freq', counted freq → merge_all freq i idxs = Ok freq' → counted freq'.
  Proof.
    induction idxs as [|v idxs IH]; intros freq i freq' Hc H.
    - cbn [merge_all] in H. by injection H as <-.
    - cbn [merge_all] in H. apply bind_Ok in H as (f1 & H1 & H).
      apply (IH f1 (S i) freq'); [|done]. by apply (merge_counted freq (v - i)).
  Qed.

  Lemma chi_loop_counted stat significant fuel minrows maxrows : ∀ freq freq',
    counted freq → chi_loop stat significant fuel minrows maxrows freq = Ok freq' → counted freq'.
  Proof.
    induction fuel as [|fuel IH]; intros freq freq' Hc H; cbn [chi_loop] in H.
    - destruct (length freq <=? minrows); [|done]. by injection H as <-.
    - destruct (length freq <=? minrows); [by injection H as <-|].
      apply bind_Ok in H as (m & _ & H).
      destruct (_ || _); [|by injection H as <-]. apply bind_Ok in H as (f1 & H1 & H).
      apply (IH f1); [|done]. by eapply merge_all_counted.
  Qed.
End counts.

Lemma rising_of table : Forall (λ e, notnan (fe_value e)) table → boundaries_increase table → rising (keys table).
Proof.
  intros _ Hb. unfold boundaries_increase in Hb.
  induction Hb as [|e table Hb IH Hall]; intros i j a b Hij Ha Hb'; [done|].
  destruct j as [|j]; [lia|]. cbn in Hb'. destruct i as [|i].
  - cbn in Ha. injection Ha as <-. change (keys table !! j = Some b) in Hb'. rewrite keys_lookup in Hb'.
    destruct (table !! j) as [e'|] eqn:E; [|done]. injection Hb' as <-.
    rewrite Forall_forall in Hall. apply elem_of_list_lookup_2, Hall, float_lt_key in E. apply E.
  - apply (IH i j); [lia|done|done].
Qed.

Lemma zin_key zs i j a : rising zs → zs !! i = Some a → zin zs j a = bool_decide (i = j).
Proof.
  intros Hr Hi. unfold zin. destruct (zs !! j) as [b|] eqn:Ej.
  - destruct (decide (i = j)) as [->|Hne].
    + assert (b = a) as -> by congruence. rewrite bool_decide_eq_true_2 by done. rewrite Z.leb_refl. cbn.
      destruct (zs !! S j) as [c|] eqn:Es; [|done]. apply Z.ltb_lt. apply (Hr j (S j)); [lia|done|done].
    + rewrite bool_decide_eq_false_2 by done. destruct (decide (i < j)) as [H|H].
      * pose proof (Hr i j a b H Hi Ej). rewrite (proj2 (Z.leb_gt _ _)) by lia. done.
      * destruct (zs !! S j) as [c|] eqn:Es.
        -- destruct (decide (S j = i)) as [E|E].
           ++ subst i. assert (c = a) as -> by congruence. rewrite Z.ltb_irrefl. by rewrite andb_false_r.
           ++ pose proof (Hr (S j) i c a ltac:(lia) Es Hi). rewrite (proj2 (Z.ltb_ge _ _)) by lia. by rewrite andb_false_r.
        -- apply lookup_lt_Some in Hi. apply lookup_ge_None in Es. lia.
  - rewrite bool_decide_eq_false_2; [done|]. intros ->. congruence.
Qed.

Lemma start_counted show g n p s val cls freq :
  iter_in_order g → gr_get_attribute g (FloatA n p) = Ok s →
  (∀ i, i < (gr_size g).2 → gr_get g s i = Ok (pack_float (val i)) ∧ notnan (val i)) →
  (∀ i, i < (gr_size g).2 → get_class show g i = Ok (cls i)) →
  (∀ i j, i ≤ j → j < (gr_size g).2 → float_lt (val j) (val i) = false) →
  build_freq show (FloatA n p) g = Ok freq →
  counted (gr_size g).2 val cls freq.
Proof.
  intros Hit Hs Hval Hcls Hsort Hf.
  destruct (build_freq_increase show g n p s val cls Hit Hs Hval Hcls Hsort) as (f1 & Hf1 & Hinc).
  assert (f1 = freq) as -> by congruence.
  destruct (build_freq_spec show g n p s val cls (in_order_agrees _ Hit) Hs Hval Hcls)
    as (f2 & rows & Hf2 & _ & _ & (Hn & _) & _).
  assert (f2 = freq) as -> by congruence.
  destruct (build_freq_counts show g n p s val cls (in_order_agrees _ Hit) Hs Hval Hcls) as (f3 & Hf3 & Hrows & Hfind).
  assert (f3 = freq) as -> by congruence.
  pose proof (rising_of freq Hn Hinc) as Hr. split; [done|done|].
  intros j e c Hj. rewrite (Hrows e c) by (by eapply elem_of_list_lookup_2).
  apply count_rows_ext. intros i Hi. f_equal.
  destruct (Hfind i Hi) as (k & e' & Hk & He' & _).
  rewrite Forall_forall in Hn. destruct (Hval i Hi) as [_ Hvi].
  pose proof (Hn e' (elem_of_list_lookup_2 _ _ _ Hk)) as Hne'.
  pose proof (Hn e (elem_of_list_lookup_2 _ _ _ Hj)) as Hne.
  rewrite float_eq_key in He' by done. apply bool_decide_eq_true in He'. rewrite <- He'.
  assert (keys freq !! k = Some (fkey (fe_value e'))) as Kk by (by rewrite keys_lookup, Hk).
  assert (keys freq !! j = Some (fkey (fe_value e))) as Kj by (by rewrite keys_lookup, Hj).
  rewrite (zin_key _ k j _ Hr Kk), float_eq_key, <- He' by done. apply bool_decide_ext. split.
  - intros E. destruct (decide (k = j)) as [|Hne2]; [done|]. exfalso.
    destruct (decide (k < j)) as [L|L].
    + pose proof (Hr k j _ _ L Kk Kj). lia.
    + pose proof (Hr j k _ _ ltac:(lia) Kj Kk). lia.
  - intros ->. congruence.
Qed.

Lemma counted_increase n val cls table : counted n val cls table → boundaries_increase table.
Proof.
  intros [Hr Hn _]. unfold boundaries_increase. revert Hr. induction Hn as [|e table He Hn IH]; intros Hr; [constructor|].
  constructor.
  - apply IH. intros i j a b Hij Ha Hb. apply (Hr (S i) (S j)); [lia|done|done].
  - apply Forall_forall. intros e' He'. apply float_lt_key. rewrite Forall_forall in Hn. split; [done|]. split; [by apply Hn|].
    apply elem_of_list_lookup in He' as [j Hj]. apply (Hr 0 (S j)); [lia|done|].
    change (keys table !! j = Some (fkey (fe_value e'))). by rewrite keys_lookup, Hj.
Qed.

(** ** The code of a number *)

Lemma compare_lt_key a b : notnan a → notnan b → Bcompare 53 1024 a b = Some Lt ↔ (fkey a < fkey b)%Z.
Proof.
  intros Ha Hb. rewrite (fkey_compare a b Ha Hb). split; [intros [= H]; by apply Z.compare_lt_iff|].
  intros H. f_equal. by apply Z.compare_lt_iff.
Qed.

Lemma code_of tables a m table val j :
  List.find (λ p, bool_decide (p.1 = a)) tables = Some (a, table) →
  Forall (λ e, notnan (fe_value e)) table → boundaries_increase table → notnan val →
  in_interval table j val = true →
  ∃ e, table !! j = Some e ∧
    chi_transform tables a m (pack_float val) =
      Ok (pack_u64 (N.of_nat (if float_eq (fe_value e) val then Nat.pred j else j))).
Proof.
  intros Hf Hn Hinc Hv Hin. rewrite in_interval_keys in Hin by done.
  pose proof (rising_of table Hn Hinc) as Hr.
  unfold zin in Hin. rewrite !keys_lookup in Hin.
  destruct (table !! j) as [e|] eqn:Ej; [|done]. cbn [fmap option_fmap option_map] in Hin.
  apply andb_true_iff in Hin as [Hlo Hhi]. apply Z.leb_le in Hlo.
  exists e. split; [done|].
  assert (table ≠ []) as Hne by (intros ->; done).
  destruct (chi_transform_spec tables a m table val Hf Hinc Hne) as (d & -> & Hd & Hlast & Hwas).
  do 3 f_equal.
  assert (∀ k x, table !! k = Some x → keys table !! k = Some (fkey (fe_value x)) ∧ notnan (fe_value x)) as Hkey.
  { intros k x Hx. split; [by rewrite keys_lookup, Hx|]. rewrite Forall_forall in Hn. apply Hn. by eapply elem_of_list_lookup_2. }
  destruct (Hkey j e Ej) as [Kj Nj].
  assert (d ≤ j) as Hdj.
  { destruct Hwas as [->|(x & Hx & Hlt)]; [lia|]. destruct (Hkey d x Hx) as [Kx Nx].
    apply compare_lt_key in Hlt; [|done|done]. destruct (decide (d ≤ j)) as [|H]; [done|]. exfalso.
    destruct (table !! S j) as [y|] eqn:Ey; [|apply lookup_ge_None in Ey; apply lookup_lt_Some in Hx; lia].
    cbn [fmap option_fmap option_map] in Hhi. apply Z.ltb_lt in Hhi. destruct (Hkey (S j) y Ey) as [Ky _].
    destruct (decide (d = S j)) as [E|E].
    - subst d. assert (x = y) as -> by congruence. lia.
    - pose proof (Hr (S j) d _ _ ltac:(lia) Ky Kx). lia. }
  rewrite float_eq_key by done. case_bool_decide as E.
  - (* on the boundary *)
    destruct j as [|j]; [cbn; lia|]. cbn [Nat.pred].
    assert (d ≠ S j) as Hne2.
    { intros ->. destruct Hwas as [?|(x & Hx & Hlt)]; [done|]. assert (x = e) as -> by congruence.
      apply compare_lt_key in Hlt; [|done|done]. lia. }
    assert (j ≤ d); [|lia].
    destruct (table !! j) as [x|] eqn:Ex; [|apply lookup_ge_None in Ex; apply lookup_lt_Some in Ej; lia].
    destruct (Hkey j x Ex) as [Kx Nx]. apply (Hlast j x Ex), compare_lt_key; [done|done|].
    pose proof (Hr j (S j) _ _ ltac:(lia) Kx Kj). lia.
  - assert (j ≤ d); [|lia]. apply (Hlast j e Ej), compare_lt_key; [done|done|]. lia.
Qed.

(** Every number from the first boundary on lies in one interval. *)
Lemma interval_exists zs z a : rising zs → zs !! 0 = Some a → (a <= z)%Z → ∃ j, zin zs j z = true ∧ ∀ k, zin zs k z = true → k = j.
Proof.
  intros Hr H0 Haz.
  assert (∃ j b, zs !! j = Some b ∧ (b <= z)%Z ∧ ∀ c, zs !! S j = Some c → (z < c)%Z) as (j & b & Hj & Hb & Hnext).
  { assert (∀ m, m < length zs → (∃ j b, j ≤ m ∧ zs !! j = Some b ∧ (b <= z)%Z ∧ ∀ c, zs !! S j = Some c → (z < c)%Z) ∨
      ∃ b, zs !! m = Some b ∧ (b <= z)%Z) as Hm.
    { induction m as [|m IH]; intros Hm; [right; by exists a|]. destruct IH as [(j & b & H1 & H)|(b & Hb1 & Hb2)]; [lia| |].
      - left. exists j, b. split; [lia|done].
      - destruct (zs !! S m) as [c|] eqn:Ec; [|apply lookup_ge_None in Ec; lia].
        destruct (decide (z < c)%Z) as [L|L]; [|right; exists c; split; [done|lia]].
        left. exists m, b. split; [lia|]. split; [done|]. split; [done|]. intros c' Hc'. congruence. }
    assert (0 < length zs) as Hpos by (apply lookup_lt_Some in H0; lia).
    destruct (Hm (length zs - 1)) as [(j & b & _ & H)|(b & H1 & H2)]; [lia|by exists j, b|].
    exists (length zs - 1), b. split; [done|]. split; [done|]. intros c Hc. apply lookup_lt_Some in Hc. lia. }
  exists j. split.
  - unfold zin. rewrite Hj. rewrite (proj2 (Z.leb_le _ _)) by done. cbn.
    destruct (zs !! S j) as [c|] eqn:Ec; [|done]. apply Z.ltb_lt. by apply Hnext.
  - intros k Hk. unfold zin in Hk. destruct (zs !! k) as [x|] eqn:Ek; [|done].
    apply andb_true_iff in Hk as [H1 H2]. apply Z.leb_le in H1.
    destruct (decide (k = j)) as [|Hne]; [done|]. exfalso. destruct (decide (k < j)) as [L|L].
    + destruct (zs !! S k) as [y|] eqn:Ey; [|apply lookup_ge_None in Ey; apply lookup_lt_Some in Hj; lia].
      apply Z.ltb_lt in H2. destruct (decide (S k = j)) as [E|E].
      * subst j. assert (y = b) as -> by congruence. lia.
      * pose proof (Hr (S k) j _ _ ltac:(lia) Ey Hj). lia.
    + destruct (zs !! S j) as [y|] eqn:Ey; [|apply lookup_ge_None in Ey; apply lookup_lt_Some in Ek; lia].
      specialize (Hnext y eq_refl). destruct (decide (S j = k)) as [E|E].
      * subst k. assert (y = x) as -> by congruence. lia.
      * pose proof (Hr (S j) k _ _ ltac:(lia) Ey Ek). lia.
Qed.

(** Merging keeps the first boundary. *)
Lemma merge_first freq i freq' : merge_adjacent freq i = Ok freq' → keys freq' !! 0 = keys freq !! 0.
Proof.
  intros H. apply merge_lookup in H as (e1 & e2 & E1 & E2 & Hlt & Hi & _). rewrite !keys_lookup.
  destruct i as [|i]; [by rewrite Hi, E1|]. by rewrite Hlt by lia.
Qed.
Lemma merge_all_first idxs : ∀ freq i freq', merge_all freq i idxs = Ok freq' → keys freq' !! 0 = keys freq !! 0.
Proof.
  induction idxs as [|v idxs IH]; intros freq i freq' H; cbn [merge_all] in H; [by injection H as <-|].
  apply bind_Ok in H as (f1 & H1 & H). rewrite (IH _ _ _ H). by apply (merge_first freq (v - i)).
Qed.
Lemma chi_loop_first stat significant fuel minrows maxrows : ∀ freq freq',
  chi_loop stat significant fuel minrows maxrows freq = Ok freq' → keys freq' !! 0 = keys freq !! 0.
Proof.
  induction fuel as [|fuel IH]; intros freq freq' H; cbn [chi_loop] in H.
  - destruct (length freq <=? minrows); [|done]. by injection H as <-.
  - destruct (length freq <=? minrows); [by injection H as <-|].
    apply bind_Ok in H as (m & _ & H).
    destruct (_ || _); [|by injection H as <-].
    apply bind_Ok in H as (f1 & H1 & H). rewrite (IH _ _ H). by apply (merge_all_first m.2 freq 0).
Qed.

Lemma chi_merge_rows show stat significant g n p s val cls minrows maxrows table :
  iter_in_order g → gr_get_attribute g (FloatA n p) = Ok s →
  (∀ i, i < (gr_size g).2 → gr_get g s i = Ok (pack_float (val i)) ∧ notnan (val i)) →
  (∀ i, i < (gr_size g).2 → get_class show g i = Ok (cls i)) →
  (∀ i j, i ≤ j → j < (gr_size g).2 → float_lt (val j) (val i) = false) →
  chi_merge show stat significant g (FloatA n p) minrows maxrows = Ok table →
  counted (gr_size g).2 val cls table ∧
  ∀ i, i < (gr_size g).2 → ∃ j, in_interval table j (val i) = true ∧ ∀ k, in_interval table k (val i) = true → k = j.
Proof.
  intros Hit Hs Hval Hcls Hsort H. unfold chi_merge in H. apply bind_Ok in H as (freq & Hf & H).
  pose proof (start_counted show g n p s val cls freq Hit Hs Hval Hcls Hsort Hf) as Hc.
  pose proof (chi_loop_counted _ _ _ _ _ _ _ _ _ _ Hc H) as Hc'.
  pose proof (chi_loop_first _ _ _ _ _ _ _ H) as Hfirst.
  split; [done|]. intros i Hi.
  destruct (build_freq_counts show g n p s val cls (in_order_agrees _ Hit) Hs Hval Hcls) as (f3 & Hf3 & Hrows & Hfind).
  assert (f3 = freq) as -> by congruence.
  destruct (Hfind i Hi) as (k & e & Hk & He & _). destruct (Hval i Hi) as [_ Hvi].
  destruct Hc as [Hr Hn _]. rewrite Forall_forall in Hn.
  rewrite float_eq_key in He; [|apply Hn; by eapply elem_of_list_lookup_2|done]. apply bool_decide_eq_true in He.
  assert (keys freq !! k = Some (fkey (fe_value e))) as Kk by (by rewrite keys_lookup, Hk).
  destruct (keys freq !! 0) as [a|] eqn:E0; [|apply lookup_ge_None in E0; apply lookup_lt_Some in Kk; lia].
  assert (a <= fkey (val i))%Z as Ha.
  { rewrite <- He. destruct k as [|k]; [assert (a = fkey (fe_value e)) by congruence; lia|].
    pose proof (Hr 0 (S k) _ _ ltac:(lia) E0 Kk). lia. }
  destruct Hc' as [Hr' Hn' _].
  destruct (interval_exists (keys table) (fkey (val i)) a Hr' Hfirst Ha) as (j & Hj & Hu).
  exists j. split; [by rewrite in_interval_keys|]. intros k' Hk'. apply Hu. by rewrite <- in_interval_keys.
Qed.

(** ** Labels *)

Lemma encode_all_length hist : ∀ vs, length (cat_encode_all vs hist).1 ≤ length vs + length hist ∧
  (∀ v, v ∈ vs → v ∈ hist → length (cat_encode_all vs hist).1 < length vs + length hist).
Proof.
  induction hist as [|w hist IH]; intros vs; cbn; [split; [lia|]; intros v _ Hv; by apply elem_of_nil in Hv|].
  destruct (cat_encode vs w) as [vs1 c] eqn:E. destruct (IH vs1) as [H1 H2].
  destruct (cat_encode_all vs1 hist) as [vs2 cs]. cbn in *.
  unfold cat_encode in E. destruct (cat_find vs w) as [k|] eqn:Ef.
  - injection E as <- <-. split; [lia|]. intros v _ _. lia.
  - injection E as <- <-. rewrite app_length in H1, H2. cbn in *. split; [lia|].
    intros v Hv Hvh. apply elem_of_cons in Hvh as [->|Hvh].
    + exfalso. unfold cat_find in Ef. by apply (cat_find_none_from vs w 0) in Ef.
    + specialize (H2 v ltac:(apply elem_of_app; by left) Hvh). lia.
Qed.
Lemma encode_all_repeat hist : ∀ vs i j v, i < j → hist !! i = Some v → hist !! j = Some v →
  length (cat_encode_all vs hist).1 < length vs + length hist.
Proof.
  induction hist as [|w hist IH]; intros vs i j v Hij Hi Hj; [done|].
  destruct j as [|j]; [lia|]. cbn in Hj. cbn [cat_encode_all length].
  destruct (cat_encode vs w) as [vs1 c] eqn:E.
  assert (length vs1 ≤ S (length vs) ∧ w ∈ vs1) as [Hl Hw].
  { unfold cat_encode in E. destruct (cat_find vs w) as [k|] eqn:Ef.
    - injection E as <- <-. split; [lia|]. destruct (decide (w ∈ vs)) as [|Hni]; [done|]. exfalso.
      apply (cat_find_none_from vs w 0) in Hni. unfold cat_find in Ef. congruence.
    - injection E as <- <-. rewrite app_length. cbn. split; [lia|]. apply elem_of_app. right. by left. }
  destruct i as [|i].
  - cbn in Hi. injection Hi as ->. destruct (encode_all_length hist vs1) as [_ H].
    specialize (H v Hw (elem_of_list_lookup_2 _ _ _ Hj)). destruct (cat_encode_all vs1 hist). cbn in *. lia.
  - cbn in Hi. specialize (IH vs1 i j v ltac:(lia) Hi Hj). destruct (cat_encode_all vs1 hist). cbn in *. lia.
Qed.

Lemma chi_label_read label show tables a m name table val :
  List.find (λ p, bool_decide (p.1 = a)) tables = Some (a, table) →
  boundaries_increase table → table ≠ [] → (Z.of_nat (length table) < 2 ^ 63)%Z →
  NoDup (map (λ e, label (fe_value e)) table) →
  ∃ d e code, chi_transform tables a m (pack_float val) = Ok code ∧ table !! d = Some e ∧
    attr_decode show (CatA name (chi_labels label table)) code = Ok (label (fe_value e)) ∧
    (d = 0 ∨ float_lt (fe_value e) val = true) ∧
    ∀ j e', d < j → table !! j = Some e' → float_lt (fe_value e') val = false.
Proof.
  intros Hf Hinc Hne Hlen Hnd. destruct (chi_transform_spec tables a m table val Hf Hinc Hne) as (d & Ht & Hd & Hlast & Hwas).
  destruct (lookup_lt_is_Some_2 table d Hd) as [e He]. exists d, e, (pack_u64 (N.of_nat d)).
  split; [done|]. split; [done|].
  assert (∀ e, float_lt (fe_value e) val = true ↔ Bcompare 53 1024 (fe_value e) val = Some Lt) as Hlt.
  { intros x. unfold float_lt. by destruct (Bcompare 53 1024 (fe_value x) val) as [[]|]. }
  split; [|split].
  - cbn [attr_decode]. unfold chi_labels. rewrite encode_all_fresh; [|done|intros v _; apply not_elem_of_nil]. cbn [app].
    apply cat_decode_ok; [rewrite map_length; lia|]. change (map ?f ?l) with (f <$> l). rewrite list_lookup_fmap, He. done.
  - destruct Hwas as [|(x & Hx & Hl)]; [by left|]. right. apply Hlt. congruence.
  - intros j e' Hj He'. destruct (float_lt (fe_value e') val) eqn:E; [|done]. apply Hlt in E.
    specialize (Hlast j e' He' E). lia.
Qed.

Lemma chi_label_repeat label show tables a m name table val i j e1 e2 :
  List.find (λ p, bool_decide (p.1 = a)) tables = Some (a, table) →
  boundaries_increase table → (Z.of_nat (length table) < 2 ^ 63)%Z →
  i < j → table !! i = Some e1 → table !! j = Some e2 → label (fe_value e1) = label (fe_value e2) →
  (∀ e, e ∈ table → float_lt (fe_value e) val = true) →
  ∃ code, chi_transform tables a m (pack_float val) = Ok code ∧
    attr_decode show (CatA name (chi_labels label table)) code = Panic.
Proof.
  intros Hf Hinc Hlen Hij H1 H2 E Hall. assert (table ≠ []) as Hne by (intros ->; done).
  destruct (chi_transform_spec tables a m table val Hf Hinc Hne) as (d & Ht & Hd & Hlast & _).
  exists (pack_u64 (N.of_nat d)). split; [done|].
  assert (length table - 1 ≤ d) as Hd'.
  { destruct (lookup_lt_is_Some_2 table (length table - 1)) as [x Hx]; [lia|].
    apply (Hlast _ _ Hx). specialize (Hall x (elem_of_list_lookup_2 _ _ _ Hx)). unfold float_lt in Hall.
    by destruct (Bcompare 53 1024 (fe_value x) val) as [[]|]. }
  assert (length (chi_labels label table) < length table) as Hl.
  { unfold chi_labels. pose proof (encode_all_repeat (map (λ e, label (fe_value e)) table) [] i j (label (fe_value e1))) as H.
    rewrite map_length in H. apply H; [done| |]; change (map ?f ?l) with (f <$> l); rewrite list_lookup_fmap.
    - by rewrite H1.
    - rewrite H2. cbn. by rewrite E. }
  cbn [attr_decode]. eapply cat_decode_panic; [|apply unpack_pack_u64| |]; lia.
Qed.
