(** Proofs about isolation forests: termination, path lengths and scores. *)
From Coq Require Import Reals Psatz.
From Verif Require Import Prelude FloatModel FloatOrder AttrModel StoreModel DenseModel DenseProofs GridModel GridSpec
  GridProofs FilterModel KnnModel Id3Model RuleModel RuleProofs RuleRefs CartModel CartSpec CartProofs CartGrow CartFit
  GiniProofs IsoModel IsoSpec IsoProofs.
From Flocq Require Import Core.Core IEEE754.BinarySingleNaN IEEE754.Bits IEEE754.Binary.
Local Open Scope nat_scope.

(** ** Choosing a split *)

Lemma fkey_inf_max v : fnan v = false → (fkey v <= fkey float_inf)%Z ∧ (fkey float_neg_inf <= fkey v)%Z.
Proof.
  intros Hv. split.
  - destruct (Z.le_gt_cases (fkey v) (fkey float_inf)) as [|H]; [done|]. exfalso.
    assert (float_lt float_inf v = true) as E by (apply lt_spec; done).
    destruct v as [s|s|s pl Hpl|s m e He]; try done; by destruct s.
  - destruct (Z.le_gt_cases (fkey float_neg_inf) (fkey v)) as [|H]; [done|]. exfalso.
    assert (float_lt v float_neg_inf = true) as E by (apply lt_spec; done).
    destruct v as [s|s|s pl Hpl|s m e He]; try done; by destruct s.
Qed.

Lemma min_max_fold i data mm :
  (∀ x, x ∈ data → ∃ v, x !! i = Some v ∧ fnan v = false) → fnan mm.1 = false → fnan mm.2 = false →
  ∃ mm', res_foldl (λ mm x,
      v ← idx x i;
      Ok (if float_lt v mm.1 then v else mm.1, if float_gt v mm.2 then v else mm.2)) mm data = Ok mm' ∧
    fnan mm'.1 = false ∧ fnan mm'.2 = false ∧
    (fkey mm'.1 <= fkey mm.1)%Z ∧ (fkey mm.2 <= fkey mm'.2)%Z ∧
    (∀ x v, x ∈ data → x !! i = Some v → (fkey mm'.1 <= fkey v <= fkey mm'.2)%Z) ∧
    (mm'.1 = mm.1 ∨ ∃ x, x ∈ data ∧ x !! i = Some mm'.1) ∧
    (mm'.2 = mm.2 ∨ ∃ x, x ∈ data ∧ x !! i = Some mm'.2).
Proof.
  revert mm. induction data as [|x data IH]; intros mm Hd N1 N2.
  { exists mm. split; [done|]. split; [done|]. split; [done|]. split; [lia|]. split; [lia|].
    split; [|by split; left]. intros x v Hx. by apply elem_of_nil in Hx. }
  destruct (Hd x) as (v & Hv & Nv); [left|]. cbn [res_foldl].
  assert (idx x i = Ok v) as -> by (unfold idx; by rewrite Hv). cbn [mbind res_bind].
  set (mm1 := (if float_lt v mm.1 then v else mm.1, if float_gt v mm.2 then v else mm.2)).
  assert (fnan mm1.1 = false ∧ (fkey mm1.1 <= fkey mm.1)%Z ∧ (fkey mm1.1 <= fkey v)%Z ∧ (mm1.1 = mm.1 ∨ mm1.1 = v)) as (A1 & A2 & A3 & A4).
  { unfold mm1. cbn [fst]. destruct (float_lt v mm.1) eqn:E.
    - apply lt_spec in E as (_ & _ & E). repeat split; [done|lia|lia|by right].
    - pose proof (proj1 (lt_false _ _) E Nv N1). repeat split; [done|lia|lia|by left]. }
  assert (fnan mm1.2 = false ∧ (fkey mm.2 <= fkey mm1.2)%Z ∧ (fkey v <= fkey mm1.2)%Z ∧ (mm1.2 = mm.2 ∨ mm1.2 = v)) as (B1 & B2 & B3 & B4).
  { unfold mm1. cbn [snd]. destruct (float_gt v mm.2) eqn:E.
    - apply gt_spec in E as (_ & _ & E). repeat split; [done|lia|lia|by right].
    - pose proof (proj1 (gt_false _ _) E Nv N2). repeat split; [done|lia|lia|by left]. }
  destruct (IH mm1) as (mm' & -> & C1 & C2 & C3 & C4 & C5 & C6 & C7); [|done|done|].
  { intros y Hy. apply Hd. by right. }
  exists mm'. split; [done|]. split; [done|]. split; [done|]. split; [lia|]. split; [lia|]. split; [|split].
  - intros y u [->|Hy]%elem_of_cons Hu; [|by eapply C5]. assert (u = v) as -> by congruence. lia.
  - destruct C6 as [C6|(y & Hy & C6)].
    + rewrite C6. destruct A4 as [A4|A4]; [by left|]. right. exists x. split; [left|]. by rewrite A4.
    + right. exists y. split; [by right|done].
  - destruct C7 as [C7|(y & Hy & C7)].
    + rewrite C7. destruct B4 as [B4|B4]; [by left|]. right. exists x. split; [left|]. by rewrite B4.
    + right. exists y. split; [by right|done].
Qed.

Lemma column_numbers w data i : of_width w data → no_nan data → i < w →
  ∀ x, x ∈ data → ∃ v, x !! i = Some v ∧ fnan v = false.
Proof.
  intros Hw Hn Hi x Hx. destruct (lookup_lt_is_Some_2 x i) as [v Hv]; [by rewrite (Hw x Hx)|].
  exists v. split; [done|]. eapply Hn; [exact Hx|]. by eapply elem_of_list_lookup_2.
Qed.

Lemma min_max_ok w data i : of_width w data → no_nan data → i < w →
  ∃ a b, min_max i data = Ok (a, b) ∧ fnan a = false ∧ fnan b = false ∧
    ∀ x v, x ∈ data → x !! i = Some v → (fkey a <= fkey v <= fkey b)%Z.
Proof.
  intros Hw Hn Hi. destruct (min_max_fold i data (float_inf, float_neg_inf)) as ([a b] & H & H1 & H2 & _ & _ & H3 & _);
    [by eapply column_numbers|done|done|]. exists a, b. done.
Qed.

Lemma differs_ok first x : length x = length first →
  ∃ b, differs first x = Ok b ∧
    (b = true → ∃ i v f, x !! i = Some v ∧ first !! i = Some f ∧ float_eq v f = false) ∧
    (b = false → ∀ i v f, x !! i = Some v → first !! i = Some f → float_eq v f = true).
Proof.
  revert first. induction x as [|v x IH]; intros [|f first] Hl; try done.
  { exists false. split; [done|]. split; [done|]. intros _ i v f Hv. done. }
  cbn [differs]. destruct (float_eq v f) eqn:E; cbn [negb].
  - destruct (IH first) as (b & -> & H1 & H2); [cbn in Hl; lia|]. exists b. split; [done|]. split.
    + intros Hb. destruct (H1 Hb) as (i & v' & f' & A & B & C). exists (S i), v', f'. done.
    + intros Hb [|i] v' f'; cbn; [by intros [= <-] [= <-]|]. by apply H2.
  - exists true. split; [done|]. split; [|done]. intros _. exists 0, v, f. done.
Qed.

Lemma check_data_ok w data : of_width w data →
  ∃ b, check_data data = Ok b ∧
    (b = true → ∃ i v f x y, i < w ∧ x ∈ data ∧ y ∈ data ∧ x !! i = Some v ∧ y !! i = Some f ∧ float_eq v f = false).
Proof.
  intros Hw. destruct data as [|first data]; [by exists false|]. unfold check_data.
  assert (∀ l b0, (∀ x, x ∈ l → x ∈ first :: data) →
    (b0 = true → ∃ i v f x y, i < w ∧ x ∈ first :: data ∧ y ∈ first :: data ∧ x !! i = Some v ∧ y !! i = Some f ∧ float_eq v f = false) →
    ∃ b, res_foldl (λ (b : bool) x, if b then Ok true else differs first x) b0 l = Ok b ∧
      (b = true → ∃ i v f x y, i < w ∧ x ∈ first :: data ∧ y ∈ first :: data ∧ x !! i = Some v ∧ y !! i = Some f ∧ float_eq v f = false)) as H.
  { induction l as [|x l IH]; intros b0 Hl Hb; [by exists b0|]. cbn [res_foldl].
    destruct b0.
    - cbn [mbind res_bind]. apply IH; [|done]. intros y Hy. apply Hl. by right.
    - destruct (differs_ok first x) as (b & -> & H1 & _).
      { rewrite (Hw x), (Hw first); [done|left|]. apply Hl. left. }
      cbn [mbind res_bind]. apply IH; [intros y Hy; apply Hl; by right|].
      intros Hbt. destruct (H1 Hbt) as (i & v & f & A & B & C). exists i, v, f, x, first.
      split; [|split; [apply Hl; left|split; [left|done]]].
      apply lookup_lt_Some in B. rewrite (Hw first) in B by left. done. }
  apply H; [done|done].
Qed.

Section ends.
  Context (draw : list bool → nat → nat) (rand : list bool → nat → binary64) (w tries : nat) (md : Z).
  Hypothesis Hfair : fair w tries draw.

  Lemma pick_ok path data : of_width w data → no_nan data →
    (∃ i v f x y, i < w ∧ x ∈ data ∧ y ∈ data ∧ x !! i = Some v ∧ y !! i = Some f ∧ float_eq v f = false) →
    ∃ i k a b, pick_split draw rand tries 0 path data = Ok (i, select_value (rand path k) a b) ∧ i < w ∧
      min_max i data = Ok (a, b) ∧ float_eq a b = false.
  Proof.
    intros Hw Hn (i & v & f & x & y & Hi & Hx & Hy & Hv & Hf & Hne).
    destruct (Hfair path) as [Hr Hhit]. destruct (Hhit i Hi) as (k0 & Hk0 & Hd).
    assert (∀ n k, k ≤ k0 → k0 < k + n → ∃ i k' a b, pick_split draw rand n k path data = Ok (i, select_value (rand path k') a b) ∧ i < w ∧
      min_max i data = Ok (a, b) ∧ float_eq a b = false) as H; [|exact (H tries 0 ltac:(lia) ltac:(lia))].
    induction n as [|n IH]; intros k Hk Hkn; [lia|]. cbn [pick_split].
    destruct (min_max_ok w data (draw path k) Hw Hn (Hr k)) as (a & b & Hmm & Na & Nb & Hab). rewrite Hmm.
    cbn [mbind res_bind fst snd]. destruct (float_eq a b) eqn:E; [|exists (draw path k), k, a, b; done].
    destruct (decide (k = k0)) as [->|Hkk]; [|apply IH; lia]. exfalso.
    rewrite Hd in Hab. pose proof (Hab x v Hx Hv). pose proof (Hab y f Hy Hf).
    apply eq_spec in E as (_ & _ & E). apply not_true_iff_false in Hne. apply Hne, eq_spec.
    destruct (column_numbers w data i Hw Hn Hi x Hx) as (v' & ? & ?).
    destruct (column_numbers w data i Hw Hn Hi y Hy) as (f' & ? & ?).
    assert (v' = v) as -> by congruence. assert (f' = f) as -> by congruence. split; [done|]. split; [done|lia].
  Qed.

  Lemma build_ends fuel path data depth : of_width w data → no_nan data → (0 <= depth)%Z →
    (md - depth < Z.of_nat fuel)%Z → 0 < fuel →
    ∃ t, build_tree draw rand fuel tries path data depth md = Ok t.
  Proof.
    revert path data depth. induction fuel as [|fuel IH]; intros path data depth Hw Hn Hd Hf Hp; [lia|].
    cbn [build_tree]. destruct (_ || _) eqn:E; [by eexists|].
    apply orb_false_iff in E as [E1 E2]. apply Z.ltb_ge in E1.
    destruct (check_data_ok w data Hw) as (b & -> & Hb). cbn [mbind res_bind]. destruct b; cbn [negb]; [|by eexists].
    destruct (pick_ok path data Hw Hn (Hb eq_refl)) as (i & k & x & y & -> & Hi & _). cbn [mbind res_bind fst snd].
    rewrite split_data_ok by (intros z Hz; by rewrite (Hw z Hz)). cbn [mbind res_bind fst snd].
    set (u := select_value _ _ _).
    destruct (IH (path ++ [false]) (lows i u data) (depth + 1)%Z) as [l ->].
    { intros z Hz. by apply Hw, (lows_in i u). }
    { intros z v Hz. apply Hn. by apply (lows_in i u). }
    { lia. } { lia. } { lia. }
    cbn [mbind res_bind].
    destruct (IH (path ++ [true]) (highs i u data) (depth + 1)%Z) as [r ->].
    { intros z Hz. by apply Hw, (highs_in i u). }
    { intros z v Hz. apply Hn. by apply (highs_in i u). }
    { lia. } { lia. } { lia. }
    cbn [mbind res_bind]. by eexists.
  Qed.
End ends.

(** A feature that is constant up to NaN: the draws never end. *)
Lemma build_hangs draw rand fuel tries md :
  (∀ k, draw [] k = 0) → (1 <= md)%Z →
  build_tree draw rand fuel tries [] [[float_nan]; [float_one]] 0 md = Err.
Proof.
  intros Hd Hmd. destruct fuel as [|fuel]; [done|]. cbn [build_tree].
  replace (md <? 0 + 1)%Z with false by lia. cbn [orb length Nat.leb].
  assert (check_data [[float_nan]; [float_one]] = Ok true) as -> by (vm_compute; reflexivity).
  cbn [mbind res_bind negb].
  assert (∀ n k, pick_split draw rand n k [] [[float_nan]; [float_one]] = Err) as H.
  { induction n as [|n IH]; intros k; [done|]. cbn [pick_split]. rewrite Hd.
    assert (min_max 0 [[float_nan]; [float_one]] = Ok (float_one, float_one)) as -> by (vm_compute; reflexivity).
    cbn [mbind res_bind fst snd]. assert (float_eq float_one float_one = true) as -> by (vm_compute; reflexivity).
    apply IH. }
  by rewrite H.
Qed.

(** ** Both sides *)

Lemma sides_nonempty i u data a b : min_max i data = Ok (a, b) → (∀ x, x ∈ data → ∃ v, x !! i = Some v ∧ fnan v = false) →
  data ≠ [] → float_le a u = true → float_lt u b = true → lows i u data ≠ [] ∧ highs i u data ≠ [].
Proof.
  intros Hmm Hn Hne Hau Hub.
  destruct (min_max_fold i data (float_inf, float_neg_inf) Hn) as ([a' b'] & H & N1 & N2 & _ & _ & Hr & Ha & Hb); [done|done|].
  unfold min_max in Hmm. rewrite Hmm in H. injection H as <- <-. cbn [fst snd] in *.
  apply le_spec in Hau as (_ & Nu & Hau). apply lt_spec in Hub as (_ & _ & Hub).
  assert (∃ x, x ∈ data ∧ x !! i = Some a) as (x & Hx & Hxa).
  { destruct Ha as [->|Ha]; [|done]. destruct data as [|x data]; [done|].
    destruct (Hn x) as (v & Hv & Nv); [left|]. pose proof (Hr x v ltac:(left) Hv). pose proof (fkey_inf_max v Nv).
    pose proof (fkey_inf_max b N2). lia. }
  assert (∃ x, x ∈ data ∧ x !! i = Some b) as (y & Hy & Hyb).
  { destruct Hb as [->|Hb]; [|done]. destruct data as [|y data]; [done|].
    pose proof (fkey_inf_max u Nu). lia. }
  split; intros E.
  - assert (x ∈ lows i u data) as Hin.
    { apply elem_of_list_filter. split; [|done]. unfold at_most. rewrite Hxa. by apply le_spec. }
    rewrite E in Hin. by apply elem_of_nil in Hin.
  - assert (y ∈ highs i u data) as Hin.
    { apply elem_of_list_filter. split; [|done]. unfold at_most. rewrite Hyb. apply not_true_iff_false.
      rewrite le_spec. lia. }
    rewrite E in Hin. by apply elem_of_nil in Hin.
Qed.

Lemma pick_inv draw rand tries k path data i u : pick_split draw rand tries k path data = Ok (i, u) →
  ∃ k' a b, i = draw path k' ∧ min_max i data = Ok (a, b) ∧ float_eq a b = false ∧ u = select_value (rand path k') a b.
Proof.
  revert k. induction tries as [|tries IH]; intros k; [done|]. cbn [pick_split]. intros H.
  apply bind_Ok in H as ([a b] & Hmm & H). cbn [fst snd] in H. destruct (float_eq a b) eqn:E; [by eapply IH|].
  injection H as <- <-. exists k, a, b. done.
Qed.

(** The number after 1. *)
Definition next_one : binary64 := b64_of_bits 0x3FF0000000000001.

Lemma next_one_val : fin next_one = true ∧ val next_one = (1 + bpow radix2 (-52))%R.
Proof.
  split; [done|]. unfold next_one.
  assert (val (b64_of_bits 0x3FF0000000000001) = F2R (Float radix2 4503599627370497 (-52))) as ->.
  { vm_compute (b64_of_bits _). reflexivity. }
  unfold F2R. cbn [Fnum Fexp]. change (-52)%Z with (- (52))%Z. rewrite bpow_opp, <- (IZR_Zpower radix2) by lia.
  change (radix2 ^ 52)%Z with 4503599627370496%Z. lra.
Qed.

Lemma select_adjacent r : fin r = true → (0 <= val r < 1)%R →
  let u := select_value r float_one next_one in
  float_lt u float_one = true ∨ float_lt next_one u = true.
Proof.
  intros Fr Hr. unfold select_value.
  set (d := b64_minus mode_NE next_one float_one).
  assert (fin d = true ∧ val d = bpow radix2 (-52)) as [Fd Vd].
  { split; [done|]. assert (val d = F2R (Float radix2 4503599627370496 (-104))) as ->.
    { unfold d. vm_compute (b64_minus _ _ _). reflexivity. }
    unfold F2R. cbn [Fnum Fexp]. change 4503599627370496%Z with (radix2 ^ 52)%Z. rewrite IZR_Zpower by lia.
    by rewrite <- bpow_plus. }
  assert (0 < bpow radix2 (-52))%R as Hb by apply bpow_gt_0.
  assert (bpow radix2 (-52) < 1)%R as Hb1 by (apply (bpow_lt radix2 (-52) 0); lia).
  set (m := b64_mult mode_NE r d).
  assert (fin m = true ∧ (0 <= val m <= bpow radix2 (-52))%R) as [Fm Vm].
  { unfold m, b64_mult. pose proof (Bmult_correct 53 1024 eq_refl eq_refl binop_nan_pl64 mode_NE r d) as H.
    cbn [round_mode] in H. rewrite Vd in H.
    assert (0 <= val r * bpow radix2 (-52) <= bpow radix2 (-52))%R as Hp.
    { split; [apply Rmult_le_pos; lra|]. rewrite <- (Rmult_1_l (bpow radix2 (-52))) at 2.
      apply Rmult_le_compat_r; lra. }
    rewrite (small_bound 0 1) in H; [|lia|lia|lra]. destruct H as (H & H' & _).
    split; [by rewrite H', Fr, Fd|]. rewrite H. split.
    - apply (rnd_between 0 1); [lia|lia|lra].
    - apply round_le_generic; [apply _|apply valid_rnd_N|apply format_pow; lia|lra]. }
  destruct one_exact as [F1 V1]. destruct next_one_val as [Fn Vn].
  set (v := b64_plus mode_NE float_one m).
  assert (v = float_one ∨ v = next_one) as Hv.
  { pose proof (Bplus_correct 53 1024 eq_refl eq_refl binop_nan_pl64 mode_NE float_one m F1 Fm) as H.
    cbn [round_mode] in H. rewrite V1 in H.
    rewrite (small_bound 1 2) in H; [|lia|lia|lra]. destruct H as (H & H' & Hs).
    fold (b64_plus mode_NE float_one m) in H, H', Hs. fold v in H, H', Hs.
    rewrite Rcompare_Gt in Hs by lra.
    assert (1 <= val v <= 1 + bpow radix2 (-52))%R as Hv.
    { rewrite H. split; [apply (rnd_between 1 2); [lia|lia|lra]|].
      apply round_le_generic; [apply _|apply valid_rnd_N|rewrite <- Vn; apply generic_format_B2R|lra]. }
    assert (generic_format radix2 (SpecFloat.fexp 53 1024) (val v)) as Hg by apply generic_format_B2R.
    assert (val v = 1 ∨ val v = 1 + bpow radix2 (-52))%R as [E|E].
    { unfold generic_format in Hg. set (M := Ztrunc _) in Hg.
      assert (cexp radix2 (SpecFloat.fexp 53 1024) (val v) = (-52)%Z) as Ec.
      { unfold cexp. rewrite (mag_unique_pos radix2 (val v) 1).
        - reflexivity.
        - change (bpow radix2 (1 - 1)) with 1%R. change (bpow radix2 1) with 2%R. lra. }
      rewrite Ec in Hg. unfold F2R in Hg. cbn [Fnum Fexp] in Hg.
      assert (IZR (2 ^ 52) * bpow radix2 (-52) = 1)%R as E52.
      { change (2 ^ 52)%Z with (radix2 ^ 52)%Z. rewrite IZR_Zpower by lia. by rewrite <- bpow_plus. }
      assert (2 ^ 52 <= M <= 2 ^ 52 + 1)%Z as HM.
      { split.
        - apply le_IZR, Rmult_le_reg_r with (bpow radix2 (-52)); [done|]. rewrite E52, <- Hg. lra.
        - apply le_IZR, Rmult_le_reg_r with (bpow radix2 (-52)); [done|]. rewrite plus_IZR, Rmult_plus_distr_r, E52, <- Hg. lra. }
      assert (M = 2 ^ 52 ∨ M = 2 ^ 52 + 1)%Z as [EM|EM] by lia; rewrite EM in Hg.
      - left. by rewrite E52 in Hg.
      - right. rewrite plus_IZR, Rmult_plus_distr_r, E52 in Hg. lra. }
    - left. apply B2R_Bsign_inj; [done|done|by rewrite V1|]. rewrite Hs. reflexivity.
    - right. apply B2R_Bsign_inj; [done|done|by rewrite Vn|]. rewrite Hs. reflexivity. }
  destruct Hv as [-> | ->]; vm_compute; [by right|by left].
Qed.

(** ** The correction for unsplit samples *)

Lemma ln_bound n : (1 <= n <= 2 ^ 53)%Z → (0 <= Rpower.ln (IZR n) <= 53)%R.
Proof.
  intros Hn. assert (1 <= IZR n)%R as H1 by (apply (IZR_le 1%Z); lia). split.
  - destruct (Rle_lt_or_eq_dec 1 (IZR n) H1) as [H|H].
    + rewrite <- ln_1. apply Rlt_le, ln_increasing; lra.
    + rewrite <- H, ln_1. lra.
  - assert (IZR n <= exp 53)%R as H.
    { apply Rle_trans with (IZR (2 ^ 53)); [apply IZR_le; lia|].
      assert (2 <= exp 1)%R as He by (pose proof (exp_ineq1 1 ltac:(lra)); lra).
      assert (∀ k, (IZR (2 ^ Z.of_nat k) <= exp (INR k))%R) as Hk.
      { induction k as [|k IH]; [change (INR 0) with 0%R; change (2 ^ Z.of_nat 0)%Z with 1%Z; rewrite exp_0; lra|].
        rewrite S_INR, exp_plus. rewrite Nat2Z.inj_succ, Z.pow_succ_r by lia. rewrite mult_IZR, Rmult_comm.
        pose proof (exp_pos (INR k)). apply Rmult_le_compat; [apply IZR_le; lia|lra|done|done]. }
      specialize (Hk 53). rewrite INR_IZR_INZ in Hk. exact Hk. }
    rewrite <- (ln_exp 53). destruct (Rle_lt_or_eq_dec _ _ H) as [H'|H'].
    + apply Rlt_le, ln_increasing; lra.
    + rewrite H'. lra.
Qed.

Lemma average_path_bound n : (2 <= n <= 2 ^ 53)%Z → (0.15 <= average_path n <= 108)%R.
Proof.
  intros Hn. unfold average_path. assert (2 <= IZR n)%R as H2 by (apply (IZR_le 2%Z); lia).
  pose proof (ln_bound (n - 1) ltac:(lia)) as [L0 L1].
  assert (0 <= 2 * IZR (n - 1) / IZR n <= 2)%R as [D0 D1].
  { split.
    - apply Rmult_le_pos; [|apply Rlt_le, Rinv_0_lt_compat; lra]. rewrite minus_IZR. lra.
    - apply Rmult_le_reg_r with (IZR n); [lra|]. unfold Rdiv. rewrite Rmult_assoc, Rinv_l by lra.
      rewrite minus_IZR. lra. }
  split; [|lra]. destruct (Z.eq_dec n 2%Z) as [->|Hne].
  - change (2 - 1)%Z with 1%Z in *. lra.
  - assert (/ 2 < Rpower.ln (IZR (n - 1)))%R as Hl; [|lra].
    eapply Rlt_le_trans; [apply ln_lt_2|]. assert (2 <= IZR (n - 1))%R as H by (apply (IZR_le 2%Z); lia).
    destruct (Rle_lt_or_eq_dec _ _ H) as [H'|H'].
    + apply Rlt_le, ln_increasing; lra.
    + rewrite <- H'. lra.
Qed.

Lemma gamma_val : fin float_gamma = true ∧ (Rabs (val float_gamma - 0.5772156649) <= 1 / 1000)%R.
Proof.
  split; [done|].
  assert (val float_gamma = F2R (Float radix2 5199096506712106 (-53))) as ->.
  { unfold float_gamma. vm_compute (b64_of_bits _). reflexivity. }
  unfold F2R. cbn [Fnum Fexp]. change (-53)%Z with (- (53))%Z. rewrite bpow_opp, <- (IZR_Zpower radix2) by lia.
  change (radix2 ^ 53)%Z with 9007199254740992%Z. apply Rabs_le. lra.
Qed.

Lemma two_val : fin float_two = true ∧ val float_two = 2%R.
Proof. exact (float_of_Z_exact 2 ltac:(lia)). Qed.

Lemma small_eps k : (-50 <= k <= 20)%Z → (bpow radix2 k * bpow radix2 (-53) <= / 1000)%R.
Proof.
  intros Hk. rewrite <- bpow_plus. apply Rle_trans with (bpow radix2 (-10)); [apply bpow_le; lia|].
  change (bpow radix2 (-10)) with (/ 1024)%R. lra.
Qed.

Lemma c_factor_close log n : log_close log → (2 <= n <= 2 ^ 52)%Z →
  fin (c_factor log n) = true ∧ (Rabs (val (c_factor log n) - average_path n) <= 0.01)%R.
Proof.
  intros Hlog Hn. unfold c_factor. destruct (Hlog (n - 1)%Z) as [Fl Vl]; [lia|].
  pose proof (ln_bound (n - 1) ltac:(lia)) as [L0 L1]. destruct gamma_val as [Fg Vg]. destruct two_val as [F2 V2].
  set (L := log (float_of_Z (n - 1))) in *. set (lr := Rpower.ln (IZR (n - 1))) in *.
  apply Rabs_le_inv in Vl, Vg.
  (* the sum *)
  set (s := b64_plus mode_NE L float_gamma).
  assert (fin s = true ∧ (Rabs (val s - (val L + val float_gamma)) <= / 1000)%R) as [Fs Vs].
  { unfold s, b64_plus.
    pose proof (Bplus_correct 53 1024 eq_refl eq_refl binop_nan_pl64 mode_NE L float_gamma Fl Fg) as H.
    cbn [round_mode] in H. rewrite (small_bound 0 100) in H; [|lia|lia|lra]. destruct H as (-> & H & _).
    split; [done|]. eapply Rle_trans; [apply (rnd_error 7%Z); [lia|]|apply small_eps; lia].
    change (bpow radix2 7) with 128%R. rewrite Rabs_pos_eq; lra. }
  apply Rabs_le_inv in Vs.
  set (p := b64_mult mode_NE float_two s).
  assert (fin p = true ∧ (Rabs (val p - 2 * val s) <= / 1000)%R) as [Fp Vp].
  { unfold p, b64_mult. pose proof (Bmult_correct 53 1024 eq_refl eq_refl binop_nan_pl64 mode_NE float_two s) as H.
    cbn [round_mode] in H. rewrite V2 in H. rewrite (small_bound 0 200) in H; [|lia|lia|lra]. destruct H as (-> & H & _).
    split; [by rewrite H, F2, Fs|]. eapply Rle_trans; [apply (rnd_error 8); [lia|]|apply small_eps; lia].
    change (bpow radix2 8) with 256%R. rewrite Rabs_pos_eq; lra. }
  apply Rabs_le_inv in Vp.
  assert (2 <= IZR n)%R as Hn2 by (apply (IZR_le 2%Z); lia).
  assert (0 <= 2 * IZR (n - 1) / IZR n <= 2)%R as [D0 D1].
  { split.
    - apply Rmult_le_pos; [|apply Rlt_le, Rinv_0_lt_compat; lra]. rewrite minus_IZR. lra.
    - apply Rmult_le_reg_r with (IZR n); [lra|]. unfold Rdiv. rewrite Rmult_assoc, Rinv_l by lra.
      rewrite minus_IZR. lra. }
  destruct (float_of_Z_exact (2 * (n - 1))) as [Fa Va]; [lia|]. destruct (float_of_Z_exact n) as [Fb Vb]; [lia|].
  rewrite mult_IZR in Va.
  set (q := b64_div mode_NE (float_of_Z (2 * (n - 1))) (float_of_Z n)).
  assert (fin q = true ∧ (Rabs (val q - 2 * IZR (n - 1) / IZR n) <= / 1000)%R) as [Fq Vq].
  { unfold q, b64_div. pose proof (Bdiv_correct 53 1024 eq_refl eq_refl binop_nan_pl64 mode_NE (float_of_Z (2 * (n - 1)))
      (float_of_Z n)) as H. rewrite Vb in H. specialize (H ltac:(lra)). cbn [round_mode] in H. rewrite Va in H.
    rewrite (small_bound 0 2) in H; [|lia|lia|lra]. destruct H as (-> & H & _). rewrite Fa in H.
    split; [done|]. eapply Rle_trans; [apply (rnd_error 2); [lia|]|apply small_eps; lia].
    change (bpow radix2 2) with 4%R. rewrite Rabs_pos_eq; lra. }
  apply Rabs_le_inv in Vq.
  unfold b64_minus. pose proof (Bminus_correct 53 1024 eq_refl eq_refl binop_nan_pl64 mode_NE p q Fp Fq) as H.
  cbn [round_mode] in H. rewrite (small_bound (-10) 200) in H; [|lia|lia|lra]. destruct H as (-> & H & _).
  split; [done|].
  assert (Rabs (rnd (val p - val q) - (val p - val q)) <= / 1000)%R as Vr.
  { eapply Rle_trans; [apply (rnd_error 8); [lia|]|apply small_eps; lia].
    change (bpow radix2 8) with 256%R. apply Rabs_le. lra. }
  apply Rabs_le_inv in Vr. unfold average_path. fold lr. apply Rabs_le. lra.
Qed.

Lemma path_bound log k n : log_close log → (1 <= k <= 2 ^ 50)%Z → (Z.of_nat n <= 2 ^ 52)%Z →
  between 1 (k + 110) (length_of log k n).
Proof.
  intros Hlog Hk Hn. unfold length_of. destruct (float_of_Z_exact k) as [F V]; [lia|].
  destruct (Nat.leb_spec n 1) as [H1|H1].
  - split; [done|]. rewrite V. split; apply IZR_le; lia.
  - destruct (c_factor_close log (Z.of_nat n) Hlog) as [Fc Vc]; [lia|].
    pose proof (average_path_bound (Z.of_nat n) ltac:(lia)) as [A0 A1]. apply Rabs_le_inv in Vc.
    assert (1 <= IZR k)%R as Hk1 by (apply (IZR_le 1%Z); lia).
    unfold b64_plus. pose proof (Bplus_correct 53 1024 eq_refl eq_refl binop_nan_pl64 mode_NE (float_of_Z k)
      (c_factor log (Z.of_nat n)) F Fc) as H. cbn [round_mode] in H. rewrite V in H.
    assert (1 <= IZR k + val (c_factor log (Z.of_nat n)) <= IZR (k + 110))%R as Hr by (rewrite plus_IZR; lra).
    rewrite (small_bound 1 (k + 110)) in H; [|lia|lia|done]. destruct H as (H & H' & _).
    split; [done|]. rewrite H. apply (rnd_between 1 (k + 110)); [lia|lia|done].
Qed.

(** ** The score *)

Lemma sum_between (a b : Z) l acc (m : Z) : (0 <= a)%Z → (a <= b)%Z → (0 <= m)%Z →
  ((m + Z.of_nat (length l)) * b <= 2 ^ 53)%Z → Forall (between a b) l → between (m * a) (m * b) acc →
  between ((m + Z.of_nat (length l)) * a) ((m + Z.of_nat (length l)) * b) (foldl (b64_plus mode_NE) acc l).
Proof.
  intros Ha Hab Hm Hb Hl. revert acc m Hm Hb. induction Hl as [|x l [Fx Vx] Hl IH]; intros acc m Hm Hb Hacc.
  { cbn [length foldl]. replace (m + Z.of_nat 0)%Z with m by lia. done. }
  cbn [length foldl] in *. replace (m + Z.of_nat (S (length l)))%Z with ((m + 1) + Z.of_nat (length l))%Z in * by lia.
  apply IH; [lia|done|]. destruct Hacc as [F V].
  assert (IZR ((m + 1) * a) <= val acc + val x <= IZR ((m + 1) * b))%R as Hr.
  { replace ((m + 1) * a)%Z with (m * a + a)%Z by lia. replace ((m + 1) * b)%Z with (m * b + b)%Z by lia.
    rewrite !plus_IZR. lra. }
  assert ((m + 1) * b <= 2 ^ 53)%Z as Hmb by nia.
  pose proof (Bplus_correct 53 1024 eq_refl eq_refl binop_nan_pl64 mode_NE acc x F Fx) as H. cbn [round_mode] in H.
  rewrite (small_bound ((m + 1) * a) ((m + 1) * b)) in H; [|nia|nia|done]. destruct H as (H & H' & _).
  split; [done|]. unfold b64_plus. rewrite H. apply rnd_between; [nia|nia|done].
Qed.

Lemma mean_between (a b : Z) l : (0 <= a)%Z → (a <= b)%Z → l ≠ [] → (Z.of_nat (length l) * b <= 2 ^ 53)%Z → (1 <= b)%Z →
  Forall (between a b) l → between a b (mean_path l).
Proof.
  intros Ha Hab Hne Hb Hb1 Hl. assert (0 < length l) as Hp by (destruct l; [done|cbn; lia]).
  destruct (sum_between a b l float_zero 0) as [F V]; [done|done|lia|lia|done|split; [done|change (val float_zero) with 0%R; rewrite !Z.mul_0_l; lra]|].
  rewrite !Z.add_0_l in V. unfold mean_path.
  destruct (float_of_Z_exact (Z.of_nat (length l))) as [Fn Vn]; [nia|]. fold (float_of_nat (length l)) in Fn, Vn.
  assert (0 < IZR (Z.of_nat (length l)))%R as Hn by (apply (IZR_lt 0%Z); lia).
  rewrite !mult_IZR in V.
  apply div_between; [nia|nia|done|rewrite Vn; lra|]. rewrite Vn. split.
  - apply Rmult_le_reg_r with (IZR (Z.of_nat (length l))); [done|]. unfold Rdiv. rewrite Rmult_assoc, Rinv_l by lra. lra.
  - apply Rmult_le_reg_r with (IZR (Z.of_nat (length l))); [done|]. unfold Rdiv. rewrite Rmult_assoc, Rinv_l by lra. lra.
Qed.

Lemma neg_one_mult x : fin x = true → (Rabs (val x) <= IZR (2 ^ 53))%R →
  fin (b64_mult mode_NE (float_of_Z (-1)) x) = true ∧ val (b64_mult mode_NE (float_of_Z (-1)) x) = (- val x)%R.
Proof.
  intros F Hx. destruct (float_of_Z_exact (-1)) as [F1 V1]; [lia|]. apply Rabs_le_inv in Hx.
  unfold b64_mult. pose proof (Bmult_correct 53 1024 eq_refl eq_refl binop_nan_pl64 mode_NE (float_of_Z (-1)) x) as H.
  cbn [round_mode] in H. rewrite V1 in H. replace (-1 * val x)%R with (- val x)%R in H by lra.
  rewrite (small_bound (- 2 ^ 53) (2 ^ 53)) in H; [|lia|lia|rewrite opp_IZR; lra].
  destruct H as (H & H' & _). split; [by rewrite H', F1, F|]. rewrite H.
  apply round_generic; [apply valid_rnd_N|]. apply generic_format_opp, generic_format_B2R.
Qed.

(** The exponent of the score for an average path [E]. *)
Definition exponent (log : binary64 → binary64) (E : binary64) (n : Z) : binary64 :=
  b64_div mode_NE (b64_mult mode_NE (float_of_Z (-1)) E) (c_factor log n).

Lemma c_factor_pos log n : log_close log → (2 <= n <= 2 ^ 52)%Z →
  fin (c_factor log n) = true ∧ (0.14 <= val (c_factor log n) <= 109)%R ∧
  (0.93 * average_path n <= val (c_factor log n))%R.
Proof.
  intros Hlog Hn. destruct (c_factor_close log n Hlog Hn) as [F V]. apply Rabs_le_inv in V.
  pose proof (average_path_bound n ltac:(lia)). split; [done|]. split; lra.
Qed.

Lemma exponent_range log E n (B : Z) : log_close log → (2 <= n <= 2 ^ 52)%Z → between 1 B E →
  (1 <= B <= 2 ^ 40)%Z → (IZR B <= 900 * average_path n)%R →
  fin (exponent log E n) = true ∧ (-1000 <= val (exponent log E n) <= - / 110)%R.
Proof.
  intros Hlog Hn [FE VE] HB Hc. destruct (c_factor_pos log n Hlog Hn) as (Fc & Vc & Vc').
  assert (1 <= IZR B)%R as HB1 by (apply (IZR_le 1%Z); lia).
  assert (IZR B <= IZR (2 ^ 53))%R as HB2 by (apply IZR_le; lia).
  destruct (neg_one_mult E FE) as [Fm Vm]; [apply Rabs_le; lra|].
  unfold exponent, b64_div. set (c := c_factor log n) in *.
  pose proof (Bdiv_correct 53 1024 eq_refl eq_refl binop_nan_pl64 mode_NE (b64_mult mode_NE (float_of_Z (-1)) E) c ltac:(lra)) as H.
  cbn [round_mode] in H. rewrite Vm in H.
  assert (-1000 <= - val E / val c <= - / 109)%R as Hr.
  { split.
    - apply Rmult_le_reg_r with (val c); [lra|]. unfold Rdiv. rewrite Rmult_assoc, Rinv_l by lra. lra.
    - apply Rmult_le_reg_r with (val c); [lra|]. unfold Rdiv. rewrite Rmult_assoc, Rinv_l by lra. lra. }
  rewrite (small_bound (-1000) 0) in H; [|lia|lia|lra]. destruct H as (H & H' & _). rewrite H.
  split; [by rewrite H', Fm|]. split; [apply (rnd_between (-1000) 0); [lia|lia|lra]|].
  assert (Rabs (rnd (- val E / val c) - - val E / val c) <= bpow radix2 10 * bpow radix2 (-53))%R as He.
  { apply rnd_error; [lia|]. change (bpow radix2 10) with 1024%R. apply Rabs_le. lra. }
  rewrite <- bpow_plus in He.
  assert (bpow radix2 (10 + -53) <= / 1000000)%R as Hb.
  { apply Rle_trans with (bpow radix2 (-20)); [apply bpow_le; lia|]. change (bpow radix2 (-20)) with (/ 1048576)%R. lra. }
  apply Rabs_le_inv in He. lra.
Qed.

Lemma pow_below_one x : (x <= - / 110)%R → (0 < Rpower 2 x)%R ∧ (Rpower 2 x * (1 + / 1000) < 1)%R.
Proof.
  intros Hx. unfold Rpower. split; [apply exp_pos|].
  pose proof ln_lt_2 as Hl. set (z := (- (x * Rpower.ln 2))%R).
  assert (/ 220 < z)%R as Hz.
  { unfold z. assert (- x * Rpower.ln 2 > / 110 * / 2)%R as H; [|lra].
    apply Rlt_gt, Rle_lt_trans with (- x * / 2)%R; [apply Rmult_le_compat_r; lra|].
    apply Rmult_lt_compat_l; lra. }
  replace (x * Rpower.ln 2)%R with (- z)%R by (unfold z; lra). rewrite exp_Ropp.
  pose proof (exp_ineq1 z ltac:(lra)) as He.
  assert (/ exp z < / (1 + / 220))%R as Hi by (apply Rinv_lt_contravar; [apply Rmult_lt_0_compat; lra|lra]).
  apply Rlt_le_trans with (/ (1 + / 220) * (1 + / 1000))%R; [apply Rmult_lt_compat_r; lra|].
  apply Rmult_le_reg_l with (1 + / 220)%R; [lra|]. rewrite <- Rmult_assoc, Rinv_r by lra. lra.
Qed.

Lemma score_range log pow2 E n B : log_close log → pow2_close pow2 → (2 <= n <= 2 ^ 52)%Z → between 1 B E →
  (1 <= B <= 2 ^ 40)%Z → (IZR B <= 900 * average_path n)%R →
  fin (pow2 (exponent log E n)) = true ∧ (0 < val (pow2 (exponent log E n)) < 1)%R.
Proof.
  intros Hlog Hpow Hn HE HB Hc. destruct (exponent_range log E n B Hlog Hn HE HB Hc) as [F V].
  destruct (Hpow (exponent log E n) F) as [Fp Vp]; [lra|]. split; [done|].
  destruct (pow_below_one (val (exponent log E n)) ltac:(lra)) as [P0 P1]. apply Rabs_le_inv in Vp. lra.
Qed.

Lemma le_val x y : fin x = true → fin y = true → (float_le x y = true ↔ (val x <= val y)%R).
Proof.
  intros Hx Hy. unfold float_le. rewrite Bcompare_correct by done.
  destruct (Rcompare_spec (val x) (val y)); split; try done; lra.
Qed.

Lemma score_monotone log pow2 E1 E2 n B : log_close log → pow2_monotone pow2 → (2 <= n <= 2 ^ 52)%Z →
  between 1 B E1 → between 1 B E2 → (1 <= B <= 2 ^ 40)%Z → (IZR B <= 900 * average_path n)%R →
  float_le E1 E2 = true → float_le (pow2 (exponent log E2 n)) (pow2 (exponent log E1 n)) = true.
Proof.
  intros Hlog Hpow Hn HE1 HE2 HB Hc Hle. apply Hpow.
  destruct (exponent_range log E1 n B Hlog Hn HE1 HB Hc) as [F1 V1].
  destruct (exponent_range log E2 n B Hlog Hn HE2 HB Hc) as [F2 V2].
  apply le_val; [done|done|]. destruct HE1 as [G1 R1], HE2 as [G2 R2]. apply le_val in Hle; [|done|done].
  destruct (c_factor_pos log n Hlog Hn) as (Fc & Vc & Vc').
  assert (1 <= IZR B)%R as HB1 by (apply (IZR_le 1%Z); lia).
  assert (IZR B <= IZR (2 ^ 53))%R as HB2 by (apply IZR_le; lia).
  assert (∀ E, between 1 B E → val (exponent log E n) = rnd (- val E / val (c_factor log n))) as Hv.
  { clear E1 E2 F1 V1 F2 V2 G1 R1 G2 R2 Hle. intros E [FE VE].
    destruct (neg_one_mult E FE) as [Fm Vm]; [apply Rabs_le; lra|].
    unfold exponent, b64_div. set (c := c_factor log n) in *.
    pose proof (Bdiv_correct 53 1024 eq_refl eq_refl binop_nan_pl64 mode_NE (b64_mult mode_NE (float_of_Z (-1)) E) c ltac:(lra)) as H.
    cbn [round_mode] in H. rewrite Vm in H.
    assert (-1000 <= - val E / val c <= 0)%R as Hr.
    { split.
      - apply Rmult_le_reg_r with (val c); [lra|]. unfold Rdiv. rewrite Rmult_assoc, Rinv_l by lra. lra.
      - apply Rmult_le_reg_r with (val c); [lra|]. unfold Rdiv. rewrite Rmult_assoc, Rinv_l by lra. lra. }
    rewrite (small_bound (-1000) 0) in H; [|lia|lia|lra]. by destruct H as (H & _). }
  rewrite !Hv by done. apply round_le; [apply _|apply valid_rnd_N|].
  unfold Rdiv. apply Rmult_le_compat_r; [apply Rlt_le, Rinv_0_lt_compat; lra|]. lra.
Qed.
