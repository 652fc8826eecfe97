(** Lemmas about equal-width binning. *)
From Verif Require Import Prelude BinModel.
From Coq Require Import Reals Lra.
From Flocq Require Import Core.Raux.
Local Open Scope R_scope.

Lemma binning_train_spec column mn mx :
  binning_train column = (Some mn, Some mx) →
  mn ∈ column ∧ mx ∈ column ∧ ∀ v, v ∈ column → mn <= v <= mx.
Proof.
  unfold binning_train, binning_start.
  assert (match foldl binning_step (None, None) column with
    | (Some mn, Some mx) => mn ∈ column ∧ mx ∈ column ∧ ∀ v, v ∈ column → mn <= v <= mx
    | (None, None) => column = []
    | _ => False end) as H.
  { induction column as [|x column IH] using rev_ind; [done|].
    rewrite foldl_app. cbn [foldl]. destruct (foldl binning_step (None, None) column) as [[a|] [b|]]; try done.
    - destruct IH as (H1 & H2 & H3). cbn [binning_step].
      destruct (Rlt_dec b x), (Rlt_dec x a); (split; [|split]);
        try (apply elem_of_app; by (left + (right; left)));
        intros v Hv; apply elem_of_app in Hv as [Hv|Hv];
        try (apply elem_of_list_singleton in Hv as ->); try (specialize (H3 v Hv));
        specialize (H3 _ H1) || idtac; lra.
    - subst column. cbn [binning_step]. split; [left|]. split; [left|].
      intros v Hv. apply elem_of_list_singleton in Hv as ->. lra. }
  intros E. by rewrite E in H.
Qed.

Lemma binning_train_total column : column ≠ [] →
  ∃ mn mx, binning_train column = (Some mn, Some mx).
Proof.
  unfold binning_train, binning_start. induction column as [|x column IH] using rev_ind; [done|].
  intros _. rewrite foldl_app. cbn [foldl].
  destruct column as [|y column]; [by exists x, x|].
  destruct IH as (a & b & ->); [done|]. cbn [binning_step].
  destruct (Rlt_dec b x), (Rlt_dec x a); eauto.
Qed.

Lemma delta_pos mn mx bins : mn < mx → (0 < bins)%nat → 0 < (mx - mn) / INR bins.
Proof. intros H Hb. apply Rdiv_lt_0_compat; [lra|by apply lt_0_INR]. Qed.

Lemma binning_nonneg mn mx bins val : mn < mx → (0 < bins)%nat →
  (0 <= binning_transform mn mx bins val)%Z.
Proof.
  intros H Hb. unfold binning_transform. destruct (Rle_dec val mn) as [|Hn]; [lia|].
  apply Zfloor_lub. pose proof (delta_pos mn mx bins H Hb) as Hd.
  assert (0 < (val - mn) / ((mx - mn) / INR bins)) by (apply Rdiv_lt_0_compat; lra).
  simpl. lra.
Qed.

Lemma binning_mono mn mx bins v1 v2 : mn < mx → (0 < bins)%nat → v1 <= v2 →
  (binning_transform mn mx bins v1 <= binning_transform mn mx bins v2)%Z.
Proof.
  intros H Hb Hv. pose proof (binning_nonneg mn mx bins v2 H Hb) as Hn.
  pose proof (delta_pos mn mx bins H Hb) as Hd.
  unfold binning_transform in *. destruct (Rle_dec v1 mn); [done|].
  destruct (Rle_dec v2 mn); [lra|]. apply Zfloor_le.
  apply Rplus_le_compat_r. unfold Rdiv. apply Rmult_le_compat_r; [|lra].
  left. by apply Rinv_0_lt_compat.
Qed.

Lemma binning_max mn mx bins : mn < mx → (0 < bins)%nat →
  binning_transform mn mx bins mx = Z.of_nat bins.
Proof.
  intros H Hb. unfold binning_transform. destruct (Rle_dec mx mn); [lra|].
  assert (0 < INR bins) as Hi by (by apply lt_0_INR).
  replace ((mx - mn) / ((mx - mn) / INR bins)) with (INR bins) by (field; split; lra).
  apply Zfloor_imp. rewrite plus_IZR, <- INR_IZR_INZ. lra.
Qed.

Lemma binning_range mn mx bins v : mn < mx → (0 < bins)%nat → mn <= v <= mx →
  (0 <= binning_transform mn mx bins v <= Z.of_nat bins)%Z.
Proof.
  intros H Hb [H1 H2]. split; [by apply binning_nonneg|].
  rewrite <- (binning_max mn mx bins H Hb). by apply binning_mono.
Qed.

Lemma binning_min mn mx bins v : v <= mn → binning_transform mn mx bins v = 0%Z.
Proof. intros H. unfold binning_transform. by destruct (Rle_dec v mn). Qed.

(** Away from the tolerance, the bin is the one of width [delta] holding the
    value. *)
Lemma binning_bin mn mx bins v k : mn < mx → (0 < bins)%nat → mn < v →
  let delta := (mx - mn) / INR bins in
  (binning_transform mn mx bins v = k ↔
   mn + (IZR k - 1 / 10000) * delta <= v < mn + (IZR k + 1 - 1 / 10000) * delta).
Proof.
  intros H Hb Hv delta. pose proof (delta_pos mn mx bins H Hb) as Hd. fold delta in Hd.
  unfold binning_transform. fold delta. destruct (Rle_dec v mn); [lra|].
  assert (∀ a, (a <= (v - mn) / delta ↔ mn + a * delta <= v)) as Hle.
  { intros a. split; intros Ha.
    - apply (Rmult_le_compat_r delta) in Ha; [|lra].
      replace ((v - mn) / delta * delta) with (v - mn) in Ha by (field; lra). lra.
    - apply (Rmult_le_reg_r delta); [done|].
      replace ((v - mn) / delta * delta) with (v - mn) by (field; lra). lra. }
  split.
  - intros <-. set (q := (v - mn) / delta) in *.
    pose proof (Zfloor_lb (q + 1 / 10000)). pose proof (Zfloor_ub (q + 1 / 10000)).
    split; [apply Hle; lra|]. apply Rnot_le_lt. intros Hc. apply Hle in Hc. lra.
  - intros [H1 H2]. apply Zfloor_imp. rewrite plus_IZR.
    apply Hle in H1. split; [lra|].
    assert (¬ (IZR k + 1 - 1 / 10000 <= (v - mn) / delta)) by (rewrite Hle; lra). lra.
Qed.

Lemma binning_example :
  binning_train [3; 1; 5] = (Some 1, Some 5) ∧
  binning_transform 1 5 4 (5 / 2) = 1%Z ∧ binning_transform 1 5 4 5 = 4%Z.
Proof.
  split; [|split].
  - unfold binning_train, binning_start. cbn [foldl binning_step].
    repeat (destruct (Rlt_dec _ _); try lra); done.
  - apply binning_bin; [lra|lia|lra|]. replace (INR 4) with 4 by (simpl; lra). lra.
  - apply binning_max; [lra|lia].
Qed.
