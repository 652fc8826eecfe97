(** Proofs on when ChiMerge merges. *)
From Coq Require Import Reals QArith Lra.
From Verif Require Import Prelude FloatModel AttrModel GridModel GridSpec FilterModel FilterSpec FilterProofs CartModel CartFit
  ChiModel ChiSpec ChiProofs ChiFloat.
From Flocq Require Import IEEE754.BinarySingleNaN IEEE754.Bits IEEE754.Binary.
Local Open Scope nat_scope.

(** ** Counting classes *)

Lemma count_some freq c : ∀ m, is_Some (foldl (λ m e, freq_union m (fe_freq e)) m freq !! c) ↔
  is_Some (m !! c) ∨ ∃ e, e ∈ freq ∧ is_Some (fe_freq e !! c).
Proof.
  induction freq as [|e freq IH]; intros m; cbn [foldl].
  - split; [by left|]. intros [H|(e & He & _)]; [done|]. by apply elem_of_nil in He.
  - rewrite IH, union_some. split.
    + intros [[H|H]|(x & Hx & H)]; [by left|right; exists e; split; [left|done]|right; exists x; split; [by right|done]].
    + intros [H|(x & Hx & H)]; [by left; left|]. apply elem_of_cons in Hx as [->|Hx]; [by left; right|right; eauto].
Qed.

Lemma count_size freq cs : table_classes freq cs → size (count_classes freq) = length cs.
Proof.
  intros [Hn Hc]. rewrite <- (map_length fst (map_to_list (count_classes freq))) || idtac.
  transitivity (length (map fst (map_to_list (count_classes freq)))).
  { rewrite map_length. reflexivity. }
  apply Permutation_length, NoDup_Permutation; [apply NoDup_fst_map_to_list|done|].
  intros c. rewrite Hc. transitivity (is_Some (count_classes freq !! c)).
  - rewrite elem_of_list_fmap. split.
    + intros ((k & v) & -> & Hin). apply elem_of_map_to_list in Hin. cbn. eauto.
    + intros [v Hv]. exists (c, v). split; [done|]. by apply elem_of_map_to_list.
  - unfold count_classes. rewrite count_some, lookup_empty. split; [|by right].
    intros [H|H]; [inversion H; discriminate|done].
Qed.

(** ** When the loop stops *)

Lemma loop_stops stat significant minrows maxrows : 0 < minrows → minrows ≤ maxrows → ∀ fuel freq freq',
  chi_loop stat significant fuel minrows maxrows freq = Ok freq' → minrows < length freq' →
  ∃ m i a b, freq' !! i = Some a ∧ freq' !! S i = Some b ∧ (stat a b == m)%Q ∧
    (∀ j c d, freq' !! j = Some c → freq' !! S j = Some d → (m <= stat c d)%Q) ∧
    significant m = false ∧ length freq' ≤ maxrows.
Proof.
  intros Hmin Hmax. induction fuel as [|fuel IH]; intros freq freq'; cbn [chi_loop].
  - destruct (length freq <=? minrows) eqn:E; [|discriminate]. intros [= <-] H. apply Nat.leb_le in E. lia.
  - destruct (length freq <=? minrows) eqn:E; [intros [= <-] H; apply Nat.leb_le in E; lia|].
    apply Nat.leb_gt in E.
    destruct (min_indexes_spec stat freq) as (m & l & Hm & Hne & Hs & Hle & Hin); [lia|].
    rewrite Hm. cbn [mbind res_bind fst snd].
    destruct (merge_all freq 0 l) as [f1| |] eqn:H1; cbn [mbind res_bind].
    2, 3: destruct ((maxrows <? length freq) || significant m) eqn:G; [discriminate|].
    1: destruct ((maxrows <? length freq) || significant m) eqn:G; [apply IH|].
    all: intros [= <-] _; apply orb_false_iff in G as [G1 G2]; apply Nat.ltb_ge in G1;
      destruct l as [|i l]; [done|]; assert (i ∈ i :: l) as Hi by left; apply Hin in Hi as [Hi He];
      destruct (lookup_lt_is_Some_2 freq i) as [a Ha]; [lia|];
      destruct (lookup_lt_is_Some_2 freq (S i)) as [b Hb]; [lia|];
      exists m, i, a, b; (split; [done|]); (split; [done|]);
      (split; [unfold stat_at in He; rewrite Nat.add_1_r, Ha, Hb in He; exact He|]);
      (split; [|done]); intros j c d Hc Hd;
      specialize (Hle j); unfold stat_at in Hle; rewrite Nat.add_1_r, Hc, Hd in Hle;
      apply Hle; by apply lookup_lt_Some in Hd.
Qed.

(** The loop leaves a table alone that is small enough or whose least statistic is not
    significant. *)
Lemma loop_keeps stat significant minrows maxrows fuel freq : length freq ≤ fuel → 0 < minrows → length freq ≤ maxrows →
  (∀ m i a b, freq !! i = Some a → freq !! S i = Some b → (stat a b == m)%Q →
    (∀ j c d, freq !! j = Some c → freq !! S j = Some d → (m <= stat c d)%Q) → significant m = false) →
  chi_loop stat significant fuel minrows maxrows freq = Ok freq.
Proof.
  intros Hf Hmin Hmax H. destruct fuel as [|fuel]; cbn [chi_loop].
  - rewrite (proj2 (Nat.leb_le _ _)) by lia. done.
  - destruct (length freq <=? minrows) eqn:E; [done|]. apply Nat.leb_gt in E.
    destruct (min_indexes_spec stat freq) as (m & l & Hm & Hne & Hs & Hle & Hin); [lia|].
    rewrite Hm. cbn [mbind res_bind fst snd]. rewrite (proj2 (Nat.ltb_ge _ _)) by lia. cbn [orb].
    destruct l as [|i l]; [done|]. assert (i ∈ i :: l) as Hi by left. apply Hin in Hi as [Hi He].
    destruct (lookup_lt_is_Some_2 freq i) as [a Ha]; [lia|].
    destruct (lookup_lt_is_Some_2 freq (S i)) as [b Hb]; [lia|].
    rewrite (H m i a b); [done|done|done| |].
    + unfold stat_at in He. rewrite Nat.add_1_r, Ha, Hb in He. exact He.
    + intros j c d Hc Hd. specialize (Hle j). unfold stat_at in Hle. rewrite Nat.add_1_r, Hc, Hd in Hle.
      apply Hle. by apply lookup_lt_Some in Hd.
Qed.

(** ** How many intervals remain *)

Lemma loop_least stat significant minrows maxrows : 0 < minrows → minrows ≤ maxrows → ∀ fuel freq freq',
  (∀ f, merged freq f → no_ties stat f) →
  chi_loop stat significant fuel minrows maxrows freq = Ok freq' → minrows ≤ length freq → minrows ≤ length freq'.
Proof.
  intros Hmin Hmax. induction fuel as [|fuel IH]; intros freq freq' Ht; cbn [chi_loop].
  - destruct (length freq <=? minrows) eqn:E; [|discriminate]. by intros [= <-].
  - destruct (length freq <=? minrows) eqn:E; [by intros [= <-]|]. apply Nat.leb_gt in E.
    destruct (min_indexes_spec stat freq) as (m & l & Hm & Hne & Hs & Hle & Hin); [lia|].
    rewrite Hm. cbn [mbind res_bind fst snd].
    destruct (merge_all_spec l freq 0) as (f1 & H1 & M1 & L1); [done| |].
    { intros v Hv. apply Hin in Hv. lia. }
    rewrite H1. cbn [mbind res_bind].
    destruct (_ || _); [|by intros [= <-]]. intros Hc _. refine (IH f1 freq' _ Hc _).
    + intros f Hf. apply Ht. by apply (merged_trans _ f1).
    + enough (length l = 1) by lia. destruct l as [|i [|j l]]; [done|done|exfalso].
      apply StronglySorted_inv in Hs as [_ Hs]. apply Forall_inv in Hs.
      assert (i ∈ i :: j :: l) as Hi by left. assert (j ∈ i :: j :: l) as Hj by (right; left).
      apply Hin in Hi as [Hi Ei], Hj as [Hj Ej]. unfold stat_at in Ei, Ej. rewrite Nat.add_1_r in Ei, Ej.
      destruct (lookup_lt_is_Some_2 freq i) as [a Ha]; [lia|].
      destruct (lookup_lt_is_Some_2 freq (S i)) as [b Hb]; [lia|].
      destruct (lookup_lt_is_Some_2 freq j) as [c Hc']; [lia|].
      destruct (lookup_lt_is_Some_2 freq (S j)) as [d Hd]; [lia|].
      rewrite Ha, Hb in Ei. rewrite Hc', Hd in Ej.
      assert (i = j); [|lia]. apply (Ht freq (merged_refl freq) i j a b c d); try done.
      rewrite Ei, Ej. reflexivity.
Qed.

(** ** The test of significance *)

Section math.
  Context (pow : binary64 → binary64 → binary64) (exp gamma : binary64 → binary64) (rnd : Q → binary64).
  Context (M : go_math pow exp gamma) (RR : rounding rnd).

  Lemma two_never sig freq cs v : table_classes freq cs → 1 ≤ length cs ≤ 2 → (0 <= v)%Q →
    chi_significant pow exp gamma rnd sig freq v = false.
  Proof using M RR.
    intros Hc Hl Hv. unfold chi_significant. rewrite (count_size freq cs Hc). apply bigf_not_less.
    destruct (ChiSpec.rnd_positive _ RR v Hv). apply percentile_big; [done|lia|done|done].
  Qed.

  Lemma large_always sig freq cs v : table_classes freq cs → 4 ≤ length cs ≤ 35 →
    (inject_Z (2 ^ 18) <= v)%Q → (v <= inject_Z (2 ^ 40))%Q → f_le (float_of_Z 0) sig →
    chi_significant pow exp gamma rnd sig freq v = true.
  Proof using M RR.
    intros Hc Hl Hv1 Hv2 Hs. unfold chi_significant. rewrite (count_size freq cs Hc).
    assert (0 <= v)%Q as Hv by (apply Qle_trans with (inject_Z (2 ^ 18)); [discriminate|done]).
    destruct (ChiSpec.rnd_positive _ RR v Hv) as [N S].
    destruct (ChiSpec.rnd_between _ RR v (2 ^ 18) (2 ^ 40)) as [B1 B2]; [discriminate|discriminate|done|done|].
    rewrite (percentile_zero pow exp gamma M); [|lia| |done].
    - unfold fzero. destruct (float_eq sig (float_of_Z 0)) eqn:E; [vm_compute; reflexivity|].
      unfold f_le in Hs. unfold float_eq in E. unfold float_lt.
      rewrite Bcompare_swap in E.
      destruct (Bcompare 53 1024 (float_of_Z 0) sig) as [[]|]; cbn in E; done.
    - small (2 ^ 18)%Z. small (2 ^ 40)%Z.
      destruct (f_le_pos _ _ H ltac:(rewrite H0; lra) B1) as (_ & _ & L).
      assert (is_finite 53 1024 (rnd v) = true) as Fv.
      { revert B2 N S. generalize (rnd v). intros f. destruct f as [s|[|]|s pl Hpl|s m e He]; try done. }
      split; [done|]. specialize (L Fv). apply f_le_val in B2; [|done..]. rewrite H0 in L. rewrite H2 in B2. done.
  Qed.
End math.
