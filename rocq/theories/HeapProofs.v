(** Proofs about the heap of the k-d tree. *)
From Coq Require Import QArith Lqa.
From Verif Require Import Prelude DenseProofs KdModel.
Local Open Scope nat_scope.

Lemma qle_spec a b : qle a b = true ↔ (a <= b)%Q.
Proof. apply Qle_bool_iff. Qed.
Lemma qle_false a b : qle a b = false ↔ (b < a)%Q.
Proof.
  unfold qle. destruct (Qle_bool a b) eqn:E.
  - apply Qle_bool_iff in E. split; [done|]. intros. lra.
  - split; [|done]. intros _. apply Qnot_le_lt. intros H. apply Qle_bool_iff in H. congruence.
Qed.
Lemma qlt_spec a b : qlt a b = true ↔ (a < b)%Q.
Proof. unfold qlt. rewrite negb_true_iff. apply qle_false. Qed.
Lemma qlt_false a b : qlt a b = false ↔ (b <= a)%Q.
Proof. unfold qlt. rewrite negb_false_iff. apply qle_spec. Qed.

Lemma idx_lt {A} `{!Inhabited A} (l : list A) i : i < length l → idx l i = Ok (l !!! i).
Proof. intros H. unfold idx. by rewrite (list_lookup_lookup_total_lt l i H). Qed.

Lemma swap_perm {A} (l : list A) i j x y :
  l !! i = Some x → l !! j = Some y → <[j := x]> (<[i := y]> l) ≡ₚ l.
Proof.
  intros Hi Hj. pose proof (lookup_lt_Some _ _ _ Hi). pose proof (lookup_lt_Some _ _ _ Hj).
  apply Permutation_inj. split; [by rewrite !insert_length|].
  exists (λ n, if decide (n = i) then j else if decide (n = j) then i else n). split.
  - intros a b. repeat case_decide; congruence.
  - intros n. destruct (decide (n = j)) as [->|Hnj].
    + rewrite list_lookup_insert by (rewrite insert_length; done).
      repeat case_decide; congruence.
    + rewrite list_lookup_insert_ne by done.
      destruct (decide (n = i)) as [->|Hni].
      * rewrite list_lookup_insert by done. congruence.
      * by rewrite list_lookup_insert_ne.
Qed.

(** The length at position [t], counted from 1. *)
Global Instance Q_inhabited : Inhabited Q := populate 0%Q.
Definition hkey (h : heap) (t : nat) : Q := (h !!! (t - 1) : Q * nat).1.

Definition heap_ok (h : heap) : Prop :=
  ∀ t, 2 ≤ t ≤ length h → (hkey h t <= hkey h (t / 2))%Q.

Lemma heap_swap_ok h i j :
  1 ≤ i ≤ length h → 1 ≤ j ≤ length h →
  ∃ h', heap_swap h (i - 1) (j - 1) = Ok h' ∧ h' ≡ₚ h ∧ length h' = length h ∧
    hkey h' i = hkey h j ∧ hkey h' j = hkey h i ∧
    ∀ t, 1 ≤ t → t ≠ i → t ≠ j → hkey h' t = hkey h t.
Proof.
  intros Hi Hj. unfold heap_swap.
  rewrite !idx_lt by lia. cbn [mbind res_bind].
  eexists. split; [reflexivity|]. split.
  { apply swap_perm; apply list_lookup_lookup_total_lt; lia. }
  split; [by rewrite !insert_length|]. unfold hkey. repeat split.
  - destruct (decide (i = j)) as [->|Hne].
    + rewrite list_lookup_total_insert by (rewrite insert_length; lia). done.
    + rewrite list_lookup_total_insert_ne by lia.
      rewrite list_lookup_total_insert by lia. done.
  - rewrite list_lookup_total_insert by (rewrite insert_length; lia). done.
  - intros t Ht H1 H2. rewrite !list_lookup_total_insert_ne by lia. done.
Qed.

(** In a heap the first entry is a greatest one. *)
Lemma heap_ok_root h t : heap_ok h → 1 ≤ t ≤ length h → (hkey h t <= hkey h 1)%Q.
Proof.
  intros Hok. induction (lt_wf t) as [t _ IH]. intros Ht.
  destruct (decide (t = 1)) as [->|Hne]; [lra|].
  assert (t / 2 < t) by (apply Nat.div_lt; lia).
  assert (1 ≤ t / 2) by (apply Nat.div_le_lower_bound; lia).
  eapply Qle_trans; [apply Hok; lia|]. apply IH; lia.
Qed.

Lemma heap_max_key h : h ≠ [] → (heap_max h).1 = hkey h 1 ∧ heap_max h ∈ h.
Proof. destruct h; [done|]. intros _. split; [done|left]. Qed.

Lemma heap_max_greatest h x : heap_ok h → x ∈ h → (x.1 <= (heap_max h).1)%Q.
Proof.
  intros Hok Hx. apply elem_of_list_lookup in Hx as [i Hi].
  pose proof (lookup_lt_Some _ _ _ Hi) as Hl.
  destruct (heap_max_key h) as [-> _]; [by destruct h|].
  pose proof (heap_ok_root h (S i) Hok) as H. unfold hkey at 1 in H.
  replace (S i - 1) with i in H by lia.
  rewrite (list_lookup_total_correct _ _ _ Hi) in H. apply H. lia.
Qed.

(** *** insert *)

(** The order holds but perhaps between [t] and its parent. *)
Definition up_inv (h : heap) (t : nat) : Prop :=
  (∀ s, 2 ≤ s ≤ length h → s ≠ t → (hkey h s <= hkey h (s / 2))%Q) ∧
  (∀ s, 2 ≤ s ≤ length h → s / 2 = t → 2 ≤ t → (hkey h s <= hkey h (t / 2))%Q).

Lemma sift_up_ok fuel h t :
  1 ≤ t ≤ length h → t ≤ fuel → up_inv h t →
  ∃ h', sift_up fuel h t = Ok h' ∧ h' ≡ₚ h ∧ heap_ok h'.
Proof.
  revert h t. induction fuel as [|fuel IH]; intros h t Ht Hf [H1 H2]; [lia|]. cbn [sift_up].
  destruct (Nat.eqb_spec t 1) as [->|Hne].
  { exists h. split; [done|]. split; [done|]. intros s Hs. apply H1; lia. }
  assert (t / 2 < t) by (apply Nat.div_lt; lia).
  assert (1 ≤ t / 2) by (apply Nat.div_le_lower_bound; lia).
  rewrite !idx_lt by lia. cbn [mbind res_bind].
  fold (hkey h t). fold (hkey h (t / 2)).
  destruct (qle (hkey h t) (hkey h (t / 2))) eqn:E.
  { apply qle_spec in E. exists h. split; [done|]. split; [done|]. intros s Hs.
    destruct (decide (s = t)) as [->|]; [done|]. by apply H1. }
  apply qle_false in E.
  destruct (heap_swap_ok h t (t / 2)) as (h1 & -> & Hp & Hl & K1 & K2 & K3); [lia..|].
  cbn [mbind res_bind].
  destruct (IH h1 (t / 2)) as (h' & -> & Hp' & Hok); [lia|lia|..].
  2:{ exists h'. split; [done|]. split; [|done]. by rewrite Hp'. }
  split.
  - rewrite Hl. intros s Hs Hs'.
    assert (s / 2 < s) by (apply Nat.div_lt; lia).
    assert (1 ≤ s / 2) by (apply Nat.div_le_lower_bound; lia).
    destruct (decide (s = t)) as [->|Hst].
    { rewrite K1, K2. lra. }
    rewrite (K3 s) by lia.
    destruct (decide (s / 2 = t)) as [E1|Hs1].
    { rewrite E1, K1. apply H2; lia. }
    destruct (decide (s / 2 = t / 2)) as [E1|Hs2].
    { rewrite E1, K2. specialize (H1 s Hs Hst). rewrite E1 in H1. lra. }
    rewrite K3 by lia. by apply H1.
  - rewrite Hl. intros s Hs Hs' Ht2.
    assert (t / 2 / 2 < t / 2) by (apply Nat.div_lt; lia).
    assert (1 ≤ t / 2 / 2) by (apply Nat.div_le_lower_bound; lia).
    rewrite (K3 (t / 2 / 2)) by lia.
    assert (hkey h (t / 2) <= hkey h (t / 2 / 2))%Q by (apply H1; lia).
    destruct (decide (s = t)) as [->|Hst]; [by rewrite K1|].
    assert (s ≠ t / 2).
    { intros ->. lia. }
    rewrite (K3 s) by lia. specialize (H1 s Hs Hst). rewrite Hs' in H1. lra.
Qed.

Lemma heap_insert_ok h l r :
  heap_ok h → ∃ h', heap_insert h l r = Ok h' ∧ heap_ok h' ∧ h' ≡ₚ (l, r) :: h.
Proof.
  intros Hok. unfold heap_insert.
  destruct (sift_up_ok (length (h ++ [(l, r)])) (h ++ [(l, r)]) (length (h ++ [(l, r)])))
    as (h' & -> & Hp & Hok').
  - rewrite app_length. cbn [length]. lia.
  - lia.
  - rewrite app_length. cbn [length]. split.
    + rewrite app_length. cbn [length]. intros s Hs Hne.
      assert (s / 2 < s) by (apply Nat.div_lt; lia).
      unfold hkey. rewrite !lookup_total_app_l by lia. apply Hok. lia.
    + rewrite app_length. cbn [length]. intros s Hs Hs'.
      assert (s / 2 < s) by (apply Nat.div_lt; lia). lia.
  - exists h'. split; [done|]. split; [done|]. rewrite Hp.
    symmetry. apply Permutation_cons_append.
Qed.

(** *** extractMax *)

(** The order holds but perhaps between [t] and its children. *)
Definition down_inv (h : heap) (t : nat) : Prop :=
  (∀ s, 2 ≤ s ≤ length h → s / 2 ≠ t → (hkey h s <= hkey h (s / 2))%Q) ∧
  (∀ s, 2 ≤ s ≤ length h → s / 2 = t → 2 ≤ t → (hkey h s <= hkey h (t / 2))%Q).

Lemma half_cases s t : 1 ≤ t → s / 2 = t ↔ s = t * 2 ∨ s = t * 2 + 1.
Proof.
  intros Ht. pose proof (Nat.div_mod s 2). pose proof (Nat.mod_upper_bound s 2). lia.
Qed.

Lemma sift_down_step h t c :
  1 ≤ t ≤ length h → c / 2 = t → c ≤ length h → down_inv h t →
  (hkey h t < hkey h c)%Q →
  (∀ s, 2 ≤ s ≤ length h → s / 2 = t → (hkey h s <= hkey h c)%Q) →
  ∃ h1, heap_swap h (c - 1) (t - 1) = Ok h1 ∧ h1 ≡ₚ h ∧ down_inv h1 c.
Proof.
  intros Ht Hc Hcl [H1 H2] Hlt Hmax.
  assert (c = t * 2 ∨ c = t * 2 + 1) as Hc' by (by apply half_cases; [lia|]).
  destruct (heap_swap_ok h c t) as (h1 & Hs1 & Hp & Hl & K1 & K2 & K3); [lia..|].
  exists h1. split; [done|]. split; [done|]. split; rewrite Hl.
  - intros s Hs Hne.
    assert (s / 2 < s) by (apply Nat.div_lt; lia).
    assert (1 ≤ s / 2) by (apply Nat.div_le_lower_bound; lia).
    destruct (decide (s / 2 = t)) as [E|Hnt].
    + rewrite E, K2. destruct (decide (s = c)) as [->|Hsc]; [rewrite K1; lra|].
      rewrite K3 by lia. by apply Hmax.
    + rewrite (K3 (s / 2)) by lia.
      destruct (decide (s = t)) as [->|Hst].
      { rewrite K2. apply H2; lia. }
      destruct (decide (s = c)) as [->|Hsc]; [lia|].
      rewrite K3 by lia. by apply H1.
  - intros s Hs Hs2 Hc2. rewrite Hc, K2.
    assert (s / 2 < s) by (apply Nat.div_lt; lia).
    rewrite K3 by lia. specialize (H1 s Hs). rewrite Hs2 in H1. apply H1. lia.
Qed.

Lemma sift_down_ok fuel h t :
  1 ≤ t → length h < t + fuel ∧ 1 ≤ fuel → (h = [] ∨ t ≤ length h) → down_inv h t →
  ∃ h', sift_down fuel h t = Ok h' ∧ h' ≡ₚ h ∧ heap_ok h'.
Proof.
  revert h t. induction fuel as [|fuel IH]; intros h t Ht Hf Hne Hinv.
  { lia. }
  cbn [sift_down]. destruct (Nat.leb_spec (length h) (t * 2 - 1)) as [Hle|Hgt].
  { exists h. split; [done|]. split; [done|]. intros s Hs.
    apply (proj1 Hinv); [done|]. intros E. apply half_cases in E; lia. }
  assert (1 ≤ t ≤ length h) as Ht' by lia.
  rewrite (idx_lt h (t * 2 - 1)), (idx_lt h (t - 1)) by lia. cbn [mbind res_bind].
  fold (hkey h (t * 2)). fold (hkey h t).
  set (lg := if qlt (hkey h t) (hkey h (t * 2)) then t * 2 else t).
  assert ((lg = t ∧ (hkey h (t * 2) <= hkey h t)%Q) ∨
          (lg = t * 2 ∧ (hkey h t < hkey h (t * 2))%Q)) as Hlg.
  { unfold lg. destruct (qlt (hkey h t) (hkey h (t * 2))) eqn:E.
    - right. by apply qlt_spec in E.
    - left. by apply qlt_false in E. }
  clearbody lg.
  assert (∃ lg', (if t * 2 <? length h then
      r ← idx h (t * 2); m ← idx h (lg - 1);
      Ok (if qlt m.1 r.1 then t * 2 + 1 else lg) else Ok lg) = Ok lg' ∧
    ((lg' = t ∧ ∀ s, 2 ≤ s ≤ length h → s / 2 = t → (hkey h s <= hkey h t)%Q) ∨
     (lg' / 2 = t ∧ lg' ≤ length h ∧ (hkey h t < hkey h lg')%Q ∧
      ∀ s, 2 ≤ s ≤ length h → s / 2 = t → (hkey h s <= hkey h lg')%Q))) as (lg' & -> & Hlg').
  { destruct (Nat.ltb_spec (t * 2) (length h)) as [Hr|Hr].
    - rewrite (idx_lt h (t * 2)), (idx_lt h (lg - 1)) by lia. cbn [mbind res_bind].
      fold (hkey h lg). replace ((h !!! (t * 2)).1) with (hkey h (t * 2 + 1))
        by (unfold hkey; repeat f_equal; lia).
      eexists. split; [reflexivity|].
      destruct (qlt (hkey h lg) (hkey h (t * 2 + 1))) eqn:E.
      + apply qlt_spec in E. right.
        split; [apply half_cases; lia|]. split; [lia|].
        destruct Hlg as [[-> Hk]|[-> Hk]]; (split; [lra|]);
          intros s Hs Hs2; apply half_cases in Hs2 as [->| ->]; try lia; lra.
      + apply qlt_false in E. destruct Hlg as [[-> Hk]|[-> Hk]]; [left|right].
        * split; [done|]. intros s Hs Hs2. apply half_cases in Hs2 as [->| ->]; try lia; lra.
        * split; [apply half_cases; lia|]. split; [lia|]. split; [done|].
          intros s Hs Hs2. apply half_cases in Hs2 as [->| ->]; try lia; lra.
    - eexists. split; [reflexivity|].
      destruct Hlg as [[-> Hk]|[-> Hk]]; [left|right].
      + split; [done|]. intros s Hs Hs2. apply half_cases in Hs2 as [->| ->]; try lia; lra.
      + split; [apply half_cases; lia|]. split; [lia|]. split; [done|].
        intros s Hs Hs2. apply half_cases in Hs2 as [->| ->]; try lia; lra. }
  cbn [mbind res_bind]. destruct Hlg' as [[-> Hk]|(Hc & Hcl & Hk & Hm)].
  - rewrite Nat.eqb_refl. exists h. split; [done|]. split; [done|]. intros s Hs.
    destruct (decide (s / 2 = t)) as [E|Hn]; [rewrite E; by apply Hk|].
    by apply (proj1 Hinv).
  - assert (lg' = t * 2 ∨ lg' = t * 2 + 1) by (by apply half_cases; [lia|]).
    rewrite (proj2 (Nat.eqb_neq lg' t)) by lia.
    destruct (sift_down_step h t lg') as (h1 & -> & Hp & Hinv1); [done..|].
    cbn [mbind res_bind]. pose proof (Permutation_length Hp) as Hl.
    destruct (IH h1 lg') as (h' & -> & Hp' & Hok); [lia|lia|right; lia|done|].
    exists h'. split; [done|]. split; [|done]. by rewrite Hp'.
Qed.

Lemma heap_extract_ok h :
  heap_ok h → h ≠ [] →
  ∃ h', heap_extract h = Ok h' ∧ heap_ok h' ∧ heap_max h :: h' ≡ₚ h.
Proof.
  intros Hok Hne. destruct h as [|x h]; [done|]. unfold heap_extract.
  rewrite idx_lt by (simpl; lia). cbn [mbind res_bind].
  destruct (decide (h = [])) as [->|Hh].
  { simpl. exists []. split; [done|]. split; [|done]. intros t Ht. simpl in Ht. lia. }
  replace (length (x :: h) - 1) with (length h) by (simpl; lia).
  set (l := (x :: h) !!! length h). simpl (<[0 := l]> (x :: h)).
  destruct h as [|y h _] using rev_ind; [done|].
  assert (l = y) as Hl.
  { unfold l. rewrite app_length. simpl. rewrite Nat.add_1_r. simpl.
    rewrite lookup_total_app_r by lia. by rewrite Nat.sub_diag. }
  rewrite Hl. rewrite app_length. simpl length. rewrite Nat.add_1_r.
  assert (take (S (length h)) (y :: h ++ [y]) = y :: h) as ->.
  { simpl. f_equal. by rewrite take_app. }
  clear l Hl.
  destruct (sift_down_ok (S (length (y :: h))) (y :: h) 1) as (h' & -> & Hp & Hok').
  - lia.
  - simpl. lia.
  - right. simpl. lia.
  - split; [|intros; lia]. intros s Hs Hs2.
    assert (s / 2 < s) by (apply Nat.div_lt; simpl in Hs; lia).
    assert (1 ≤ s / 2) by (apply Nat.div_le_lower_bound; lia).
    assert (2 ≤ s ≤ length (x :: h ++ [y])) as Hs'.
    { simpl in *. rewrite app_length. simpl. lia. }
    pose proof (Hok s Hs') as HK.
    assert (∀ u, 2 ≤ u ≤ length (y :: h) →
      hkey (x :: h ++ [y]) u = hkey (y :: h) u) as Hk.
    { intros u Hu. unfold hkey. destruct u as [|[|u]]; [lia..|]. simpl.
      simpl in Hu. rewrite lookup_total_app_l by lia. done. }
    rewrite !Hk in HK by lia. done.
  - exists h'. split; [done|]. split; [done|]. simpl. rewrite Hp.
    f_equiv. apply Permutation_cons_append.
Qed.

(** *** Histories *)

Inductive hop := HInsert (length_ : Q) (row : nat) | HExtract.

Definition heap_step (h : heap) (o : hop) : res heap :=
  match o with HInsert l r => heap_insert h l r | HExtract => heap_extract h end.

Definition heap_run (ops : list hop) : res heap := res_foldl heap_step [] ops.

Lemma heap_ok_nil : heap_ok [].
Proof. intros t Ht. simpl in Ht. lia. Qed.

Lemma heap_step_ok h o : heap_ok h → ∃ h', heap_step h o = Ok h' ∧ heap_ok h'.
Proof.
  intros Hok. destruct o as [l r|]; simpl.
  - destruct (heap_insert_ok h l r Hok) as (h' & -> & ? & _). eauto.
  - destruct (decide (h = [])) as [->|Hne]; [exists []; by split|].
    destruct (heap_extract_ok h Hok Hne) as (h' & -> & ? & _). eauto.
Qed.

Lemma heap_run_ok ops : ∃ h, heap_run ops = Ok h ∧ heap_ok h.
Proof.
  induction ops as [|o ops IH] using rev_ind.
  - exists []. split; [done|apply heap_ok_nil].
  - destruct IH as (h & Hr & Hok). unfold heap_run in *. rewrite res_foldl_app, Hr.
    cbn [mbind res_bind]. destruct (heap_step_ok h o Hok) as (h' & Hs & Hok').
    exists h'. simpl. rewrite Hs. done.
Qed.

Lemma heap_history ops :
  ∃ h, heap_run ops = Ok h ∧
    (∀ x, x ∈ h → (x.1 <= (heap_max h).1)%Q) ∧ (h ≠ [] → heap_max h ∈ h) ∧
    (∀ l r, ∃ h', heap_run (ops ++ [HInsert l r]) = Ok h' ∧ h' ≡ₚ (l, r) :: h) ∧
    (∃ h', heap_run (ops ++ [HExtract]) = Ok h' ∧
       (h = [] ∧ h' = [] ∨ h ≠ [] ∧ heap_max h :: h' ≡ₚ h)).
Proof.
  destruct (heap_run_ok ops) as (h & Hr & Hok). exists h. split; [done|].
  split; [intros x Hx; by apply heap_max_greatest|].
  split; [intros Hne; by apply heap_max_key|].
  unfold heap_run in *. split.
  - intros l r. rewrite res_foldl_app, Hr. cbn [mbind res_bind].
    destruct (heap_insert_ok h l r Hok) as (h' & Hi & _ & Hp).
    exists h'. simpl. rewrite Hi. done.
  - rewrite res_foldl_app, Hr. cbn [mbind res_bind].
    destruct (decide (h = [])) as [->|Hne]; [exists []; split; [done|by left]|].
    destruct (heap_extract_ok h Hok Hne) as (h' & He & _ & Hp).
    exists h'. simpl. rewrite He. split; [done|by right].
Qed.
