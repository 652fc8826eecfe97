(** Proofs about the naive Bayes classifier: scores and predictions. *)
From Coq Require Import Reals Psatz.
From Verif Require Import Prelude FloatModel AttrModel AttrSpec AttrProofs StoreModel DenseModel DenseProofs GridModel GridSpec
  GridProofs FilterModel PredModel PredProofs RuleModel RuleSpec RuleProofs CartModel CartSpec CartGrow CartFit GiniProofs BagSpec NbModel
  NbSpec NbProofs NbFit.
From Flocq Require Import Core.Core IEEE754.BinarySingleNaN IEEE754.Bits IEEE754.Binary.
Local Open Scope nat_scope.

Lemma gt_val x y : fin x = true → fin y = true → float_gt x y = true ↔ (val y < val x)%R.
Proof.
  intros Hx Hy. unfold float_gt. rewrite Bcompare_correct by done. destruct (Rcompare_spec (val x) (val y)); split; intros; try done; lra.
Qed.
Lemma eq_val x y : fin x = true → fin y = true → float_eq x y = true ↔ val x = val y.
Proof.
  intros Hx Hy. unfold float_eq. rewrite Bcompare_correct by done. destruct (Rcompare_spec (val x) (val y)); split; intros; try done; lra.
Qed.

Lemma int_exact n : (Z.of_nat n <= 2 ^ 53)%Z → fin (float_int n) = true ∧ val (float_int n) = IZR (Z.of_nat n).
Proof. intros H. apply (float_of_Z_exact (Z.of_nat n)). lia. Qed.

Section ratio.
  Context (a b : nat) (Ha : 0 < a) (Hab : a ≤ b) (Hb : (Z.of_nat b <= 2 ^ 53)%Z).
  Notation x := (IZR (Z.of_nat a) / IZR (Z.of_nat b))%R.

  Lemma quotient_range : (eps <= x <= 1)%R.
  Proof using Ha Hab Hb.
    assert (0 < IZR (Z.of_nat b))%R as Hp by (apply (IZR_lt 0); lia).
    assert (1 <= IZR (Z.of_nat a))%R as H1 by (apply (IZR_le 1); lia).
    assert (IZR (Z.of_nat b) <= bpow radix2 53)%R as H2.
    { change (bpow radix2 53) with (IZR (2 ^ 53)). apply IZR_le. lia. }
    split.
    - apply Rmult_le_reg_r with (IZR (Z.of_nat b)); [done|]. unfold Rdiv. rewrite Rmult_assoc, Rinv_l by lra.
      rewrite Rmult_1_r. apply Rle_trans with (eps * bpow radix2 53)%R.
      + apply Rmult_le_compat_l; [apply bpow_ge_0|done].
      + rewrite <- bpow_plus. change (bpow radix2 (-53 + 53)) with 1%R. done.
    - apply Rmult_le_reg_r with (IZR (Z.of_nat b)); [done|]. unfold Rdiv. rewrite Rmult_assoc, Rinv_l by lra.
      rewrite Rmult_1_r, Rmult_1_l. apply IZR_le. lia.
  Qed.

  Lemma ratio_nearest : nearest (ratio a b) x.
  Proof using Ha Hab Hb.
    destruct (int_exact a) as [F1 V1]; [lia|]. destruct (int_exact b) as [F2 V2]; [lia|].
    pose proof quotient_range as Hq. unfold nearest, ratio, b64_div.
    pose proof (Bdiv_correct 53 1024 eq_refl eq_refl binop_nan_pl64 mode_NE (float_int a) (float_int b)) as H.
    rewrite V1, V2 in H. assert (IZR (Z.of_nat b) ≠ 0%R) as Hn by (apply not_0_IZR; lia). specialize (H Hn).
    cbn [round_mode] in H. rewrite (small_bound 0 1) in H; [|lia|lia|].
    - destruct H as (H1 & H2 & _). split; [by rewrite H2|]. exact H1.
    - pose proof (bpow_gt_0 radix2 (-53)). lra.
  Qed.

  Lemma ratio_range : fin (ratio a b) = true ∧ (eps <= val (ratio a b) <= 1)%R.
  Proof using Ha Hab Hb.
    destruct ratio_nearest as [F V]. split; [done|]. rewrite V. pose proof quotient_range as [Q1 Q2]. split.
    - apply (rnd_above (-53)); [lia|done].
    - apply (rnd_between 0 1); [lia|lia|]. pose proof (bpow_gt_0 radix2 (-53)). lra.
  Qed.

  Lemma ratio_below : a < b → (val (ratio a b) <= 1 - eps)%R.
  Proof using Ha Hab Hb.
    intros Hlt. destruct ratio_nearest as [F V]. rewrite V.
    apply round_le_generic; [apply _|apply valid_rnd_N|apply almost_one|].
    assert (0 < IZR (Z.of_nat b))%R as Hp by (apply (IZR_lt 0); lia).
    assert (IZR (Z.of_nat b) <= bpow radix2 53)%R as H2.
    { change (bpow radix2 53) with (IZR (2 ^ 53)). apply IZR_le. lia. }
    apply Rmult_le_reg_r with (IZR (Z.of_nat b)); [done|]. unfold Rdiv. rewrite Rmult_assoc, Rinv_l by lra.
    rewrite Rmult_1_r. assert (IZR (Z.of_nat a) <= IZR (Z.of_nat b) - 1)%R as H3.
    { rewrite <- minus_IZR. apply IZR_le. lia. }
    assert (eps * IZR (Z.of_nat b) <= 1)%R; [|lra].
    apply Rle_trans with (eps * bpow radix2 53)%R.
    - apply Rmult_le_compat_l; [apply bpow_ge_0|done].
    - rewrite <- bpow_plus. change (bpow radix2 (-53 + 53)) with 1%R. lra.
  Qed.
End ratio.

Lemma ratio_same a : 0 < a → (Z.of_nat a <= 2 ^ 53)%Z → val (ratio a a) = 1%R.
Proof.
  intros Ha Hb. destruct (ratio_nearest a a Ha (le_n a) Hb) as [_ ->].
  unfold Rdiv. rewrite Rinv_r by (apply not_0_IZR; lia).
  apply round_generic; [apply valid_rnd_N|]. apply (format_Z 1). lia.
Qed.

Lemma one_minus p : fin p = true → (0 <= val p <= 1 - eps)%R →
  fin (b64_minus mode_NE (float_int 1) p) = true ∧ (0 < val (b64_minus mode_NE (float_int 1) p) <= 1)%R.
Proof.
  intros F H. destruct (int_exact 1) as [F1 V1]; [lia|]. unfold b64_minus.
  pose proof (Bminus_correct 53 1024 eq_refl eq_refl binop_nan_pl64 mode_NE (float_int 1) p F1 F) as E.
  cbn [round_mode] in E. rewrite V1 in E. change (IZR (Z.of_nat 1)) with 1%R in E. pose proof (bpow_gt_0 radix2 (-53)) as Hp.
  rewrite (small_bound 0 1) in E; [|lia|lia|lra]. destruct E as (E1 & E2 & _). split; [done|]. rewrite E1. split.
  - apply Rlt_le_trans with eps; [done|]. apply (rnd_above (-53)); [lia|]. lra.
  - apply (rnd_between 0 1); [lia|lia|lra].
Qed.

Lemma in_class_le label rows c : in_class label rows c ≤ rows.
Proof.
  unfold in_class. etrans; [apply filter_length|]. by rewrite seq_length.
Qed.
Lemma in_class_with_le label bits rows c f : in_class_with label bits rows c f ≤ in_class label rows c.
Proof.
  unfold in_class_with, in_class. induction (seq 0 rows) as [|r l IH]; [done|]. rewrite !filter_cons.
  destruct (decide (label r = c ∧ bits r f = true)) as [[H1 H2]|H]; destruct (decide (label r = c)); cbn [length]; try lia.
  done.
Qed.

(** ** Scores *)

Section score.
  Context (log : binary64 → binary64) (Hlog : sane_log log).
  Context (label : nat → string) (bits : nat → nat → bool) (rows : nat).
  Context (Hrows : (Z.of_nat rows < 2 ^ 53)%Z).

  Definition score_term (bit : nat → bool) (c : string) (f : nat) : binary64 :=
    let n := in_class label rows c in
    let k := in_class_with label bits rows c f in
    log (if bit f then ratio (k + 1) (n + 1)
         else if k =? n then ratio 1 (n + 1)
         else b64_minus mode_NE (float_int 1) (ratio (k + 1) (n + 1))).

  Lemma log_between x : fin x = true → (0 < val x <= 1)%R → between (-1024) 0 (log x).
  Proof using Hlog. intros F H. destruct (Hlog x F H) as [H1 H2]. by split. Qed.

  Lemma term_between bit c f : between (-1024) 0 (score_term bit c f).
  Proof using Hlog Hrows.
    pose proof (in_class_le label rows c) as H1. pose proof (in_class_with_le label bits rows c f) as H2.
    pose proof (bpow_gt_0 radix2 (-53)) as Hp. unfold score_term.
    set (n := in_class label rows c) in *. set (k := in_class_with label bits rows c f) in *.
    destruct (ratio_range (k + 1) (n + 1)) as [F V]; [lia|lia|lia|]. cbv zeta.
    destruct (bit f); [apply log_between; [done|lra]|]. destruct (k =? n) eqn:E.
    - destruct (ratio_range 1 (n + 1)) as [F1 V1]; [lia|lia|lia|]. apply log_between; [done|lra].
    - apply Nat.eqb_neq in E. destruct (one_minus (ratio (k + 1) (n + 1)) F) as [F1 V1].
      + split; [lra|]. apply ratio_below; lia.
      + by apply log_between.
  Qed.

  Lemma sum_terms bit c fs : ∀ acc (m : Z), (0 <= m)%Z → (m + Z.of_nat (length fs) <= 2 ^ 43)%Z →
    between (-1024 * m) 0 acc →
    between (-1024 * (m + Z.of_nat (length fs))) 0 (foldl (λ acc f, b64_plus mode_NE acc (score_term bit c f)) acc fs).
  Proof using Hlog Hrows.
    induction fs as [|f fs IH]; intros acc m Hm Hb Hacc.
    { cbn [length foldl]. rewrite Z.add_0_r. done. }
    cbn [length foldl] in *. replace (m + Z.of_nat (S (length fs)))%Z with ((m + 1) + Z.of_nat (length fs))%Z in * by lia.
    apply IH; [lia|done|]. destruct Hacc as [F V]. destruct (term_between bit c f) as [Ft Vt].
    assert (IZR (-1024 * (m + 1)) <= val acc + val (score_term bit c f) <= IZR 0)%R as Hr.
    { replace (-1024 * (m + 1))%Z with (-1024 * m + -1024)%Z by lia. rewrite plus_IZR. lra. }
    pose proof (Bplus_correct 53 1024 eq_refl eq_refl binop_nan_pl64 mode_NE acc (score_term bit c f) F Ft) as H.
    cbn [round_mode] in H. rewrite (small_bound (-1024 * (m + 1)) 0) in H; [|lia|lia|done]. destruct H as (H & H' & _).
    split; [done|]. unfold b64_plus. rewrite H. apply rnd_between; [lia|lia|done].
  Qed.

  Lemma score_between bit c features : 0 < in_class label rows c → (Z.of_nat features < 2 ^ 43)%Z →
    between (-1024 * (1 + Z.of_nat features)) 0 (bernoulli_score log label bits rows features bit c).
  Proof using Hlog Hrows.
    intros Hc Hf. pose proof (bpow_gt_0 radix2 (-53)) as Hp. pose proof (in_class_le label rows c) as H1.
    unfold bernoulli_score. cbv zeta.
    destruct (ratio_range (in_class label rows c) rows) as [F V]; [lia|lia|lia|].
    pose proof (sum_terms bit c (seq 0 features) (log (ratio (in_class label rows c) rows)) 1) as H.
    rewrite seq_length in H. apply H; [lia|lia|]. apply log_between; [done|lra].
  Qed.
End score.

(** The most negative number. *)
Lemma lowest_val : fin float_lowest = true ∧ (val float_lowest < - bpow radix2 60)%R.
Proof.
  split; [vm_compute; reflexivity|].
  assert (float_lowest = B754_finite 53 1024 true 9007199254740991 971 eq_refl) as ->.
  { unfold float_lowest. apply B2FF_inj. vm_compute. reflexivity. }
  unfold B2R, F2R. cbn [Fnum Fexp cond_Zopp].
  apply Rlt_le_trans with (- bpow radix2 971)%R.
  - assert (0 < bpow radix2 971)%R by apply bpow_gt_0. change (Z.neg 9007199254740991) with (- 9007199254740991)%Z.
    rewrite opp_IZR. nra.
  - apply Ropp_le_contravar, bpow_le. lia.
Qed.

Section predict.
  Context (ko : list (string * nat) → list (string * nat)) (Hko : any_order ko).
  Context (log : binary64 → binary64) (Hlog : sane_log log).
  Context (label : nat → string) (bits : nat → nat → bool) (rows features : nat).
  Context (Hrows : (Z.of_nat rows < 2 ^ 53)%Z) (Hfeat : (Z.of_nat features < 2 ^ 43)%Z) (Hf0 : 0 < features).
  Context (n : nb).
  Context (Hn1 : nb_training n = rows) (Hn2 : nb_features n = features).
  Context (Hn3 : ∀ c, nb_class n !! c = if in_class label rows c =? 0 then None else Some (in_class label rows c)).
  Context (Hn4 : ∀ c, 0 < in_class label rows c → nb_cond n !! c =
    Some (map (λ f, ratio (in_class_with label bits rows c f + 1) (in_class label rows c + 1)) (seq 0 features))).
  Context (vector : list (list N)) (bit : nat → bool).
  Context (Hlen : length vector = features) (Hbit : ∀ f v, vector !! f = Some v → reads_bit v (bit f)).

  Notation score c := (bernoulli_score log label bits rows features bit c).

  Lemma one_score c : 0 < in_class label rows c →
    nb_score log n vector c (in_class label rows c) = Ok (score c).
  Proof using Hf0 Hn1 Hn2 Hn3 Hn4 Hlen Hbit Hrows.
    clear Hko ko. intros Hc. unfold nb_score, bernoulli_score. rewrite Hn1, Hn2.
    rewrite (Hn4 c Hc). rewrite dsome. rewrite (Hn3 c).
    replace (in_class label rows c =? 0) with false by (symmetry; apply Nat.eqb_neq; lia). rewrite dsome. cbv zeta.
    fold (float_int (in_class label rows c)).
    change (float_of_nat (in_class label rows c)) with (float_int (in_class label rows c)).
    change (float_of_nat rows) with (float_int rows). fold (ratio (in_class label rows c) rows).
    generalize (log (ratio (in_class label rows c) rows)).
    assert (∀ fs, (∀ f, f ∈ fs → f < features) → ∀ acc, res_foldl (λ score f,
      v ← idx vector f; p ← is_present v;
      c0 ← idx (map (λ f0, ratio (in_class_with label bits rows c f0 + 1) (in_class label rows c + 1)) (seq 0 features)) f;
      Ok (b64_plus mode_NE score
            (if p : bool then log c0
             else if float_eq c0 float_one
             then log (b64_div mode_NE float_one (float_of_nat (in_class label rows c + 1)))
             else log (b64_minus mode_NE float_one c0)))) acc fs =
      Ok (foldl (λ acc f, b64_plus mode_NE acc (log (if bit f
         then ratio (in_class_with label bits rows c f + 1) (in_class label rows c + 1)
         else if in_class_with label bits rows c f =? in_class label rows c then ratio 1 (in_class label rows c + 1)
         else b64_minus mode_NE (float_int 1) (ratio (in_class_with label bits rows c f + 1) (in_class label rows c + 1))))) acc fs))
      as H.
    { induction fs as [|f fs IH]; intros Hfs acc; [done|]. cbn [res_foldl foldl].
      assert (f < features) as Hf by (apply Hfs; left).
      destruct (lookup_lt_is_Some_2 vector f) as [v Hv]; [lia|].
      assert (idx vector f = Ok v) as -> by (unfold idx; by rewrite Hv). cbn [mbind res_bind].
      rewrite (reads_present _ _ (Hbit f v Hv)). cbn [mbind res_bind].
      assert (∀ (h : nat → binary64), idx (map h (seq 0 features)) f = Ok (h f)) as ->
        by (intros h; unfold idx; by rewrite list_lookup_fmap, lookup_seq_lt).
      cbn [mbind res_bind]. rewrite IH by (intros f' Hf'; apply Hfs; by right). f_equal. f_equal. f_equal.
      destruct (bit f); [done|].
      pose proof (in_class_le label rows c) as L1. pose proof (in_class_with_le label bits rows c f) as L2.
      destruct one_exact as [F1 V1].
      destruct (ratio_range (in_class_with label bits rows c f + 1) (in_class label rows c + 1)) as [F V]; [lia|lia|lia|].
      destruct (float_eq _ _) eqn:E.
      - apply (eq_val _ _ F F1) in E. rewrite V1 in E.
        destruct (in_class_with label bits rows c f =? in_class label rows c) eqn:G; [f_equal; unfold ratio; f_equal; apply B2FF_inj; vm_compute; reflexivity|]. exfalso. apply Nat.eqb_neq in G.
        pose proof (ratio_below (in_class_with label bits rows c f + 1) (in_class label rows c + 1) ltac:(lia) ltac:(lia) ltac:(lia) ltac:(lia)) as HB.
        pose proof (bpow_gt_0 radix2 (-53)). lra.
      - destruct (in_class_with label bits rows c f =? in_class label rows c) eqn:G; [|f_equal; f_equal; apply B2FF_inj; vm_compute; reflexivity]. exfalso. apply Nat.eqb_eq in G.
        assert (float_eq (ratio (in_class_with label bits rows c f + 1) (in_class label rows c + 1)) float_one = true); [|congruence].
        apply eq_val; [done|done|]. rewrite V1, G. apply ratio_same; lia. }
    intros acc. apply H. intros f Hf. apply elem_of_seq in Hf. lia.
  Qed.

  Lemma best_class l : ∀ best : binary64 * string,
    (∀ c k, (c, k) ∈ l → 0 < in_class label rows c ∧ k = in_class label rows c) → fin best.1 = true →
    ∃ best', res_foldl (λ best cn, score ← nb_score log n vector cn.1 cn.2;
            Ok (if float_gt score best.1 then (score, cn.1) else best)) best l = Ok best' ∧
      fin best'.1 = true ∧ (val best.1 <= val best'.1)%R ∧
      (∀ c k, (c, k) ∈ l → (val (score c) <= val best'.1)%R) ∧
      (best' = best ∨ ∃ c k, (c, k) ∈ l ∧ best' = (score c, c)).
  Proof using Hf0 Hn1 Hn2 Hn3 Hn4 Hlen Hbit Hrows Hlog Hfeat.
    induction l as [|[c k] l IH]; intros best Hl Hb.
    { exists best. split; [done|]. split; [done|]. split; [apply Rle_refl|]. split; [|by left].
      intros c k H. by apply elem_of_nil in H. }
    destruct (Hl c k) as [Hc ->]; [left|]. cbn [res_foldl fst snd]. rewrite (one_score c Hc). cbn [mbind res_bind].
    destruct (score_between log Hlog label bits rows Hrows bit c features Hc Hfeat) as [Fs _].
    set (best1 := if float_gt (score c) best.1 then (score c, c) else best).
    assert (fin best1.1 = true ∧ (val best.1 <= val best1.1)%R ∧ (val (score c) <= val best1.1)%R ∧
      (best1 = best ∨ best1 = (score c, c))) as (B1 & B2 & B3 & B4).
    { unfold best1. destruct (float_gt (score c) best.1) eqn:E.
      - apply (gt_val _ _ Fs Hb) in E. cbn [fst]. split; [done|]. split; [by apply Rlt_le|]. split; [apply Rle_refl|by right].
      - split; [done|]. split; [apply Rle_refl|]. split; [|by left]. apply Rnot_lt_le. intros H.
        apply (gt_val _ _ Fs Hb) in H. congruence. }
    destruct (IH best1) as (best' & -> & C1 & C2 & C3 & C4); [|done|].
    { intros c' k' Hin. apply Hl. by right. }
    exists best'. split; [done|]. split; [done|]. split; [by eapply Rle_trans|]. split.
    - intros c' k' [[= -> ->]|Hin]%elem_of_cons; [by eapply Rle_trans|]. by eapply C3.
    - destruct C4 as [->|(c' & k' & Hin & ->)].
      + destruct B4 as [->| ->]; [by left|]. right. exists c, (in_class label rows c). split; [left|done].
      + right. exists c', k'. split; [by right|done].
  Qed.

  Lemma predict_one_best : 0 < rows → ∃ c,
    nb_predict_one ko log n vector = Ok c ∧ (∃ r, r < rows ∧ label r = c) ∧
    ∀ r, r < rows → ¬ above (score (label r)) (score c).
  Proof using All.
    intros Hr0. unfold nb_predict_one. rewrite Hn2.
    replace (features =? 0) with false by (symmetry; apply Nat.eqb_neq; lia).
    replace (length vector =? features) with true by (symmetry; by apply Nat.eqb_eq). cbn [negb].
    destruct (classes_list ko Hko (Grid (λ _, Err) [] [] (λ _ _, Err) (λ _, Err) (0, rows)) label (nb_class n) Hn3) as [Hl _].
    cbn [gr_size snd] in Hl.
    destruct lowest_val as [Fl Vl].
    destruct (best_class (ko (map_to_list (nb_class n))) (float_lowest, "")) as (best & -> & B1 & B2 & B3 & B4).
    { intros c k H. apply Hl in H as [-> H]. done. }
    { done. }
    cbn [mbind res_bind]. exists best.2. split; [done|].
    assert (∀ r, r < rows → (label r, in_class label rows (label r)) ∈ ko (map_to_list (nb_class n))) as Hin.
    { intros r Hr. apply Hl. split; [done|]. apply in_class_pos. by exists r. }
    destruct B4 as [->|(c & k & Hck & ->)].
    - exfalso. pose proof (B3 _ _ (Hin 0 Hr0)) as H. cbn [fst] in H.
      destruct (score_between log Hlog label bits rows Hrows bit (label 0) features) as [_ [Hs _]]; [|done|].
      { apply in_class_pos. by exists 0. }
      assert (- bpow radix2 60 <= IZR (-1024 * (1 + Z.of_nat features)))%R as Hb.
      { change (bpow radix2 60) with (IZR (2 ^ 60)). rewrite <- opp_IZR. apply IZR_le. lia. }
      apply (Rlt_irrefl (- bpow radix2 60)). eapply Rle_lt_trans; [exact Hb|]. eapply Rle_lt_trans; [exact Hs|].
      eapply Rle_lt_trans; [exact H|exact Vl].
    - cbn [fst snd] in *. apply Hl in Hck as [-> Hp]. apply in_class_pos in Hp. split; [done|].
      intros r Hr Hab. pose proof (B3 _ _ (Hin r Hr)) as H.
      destruct (score_between log Hlog label bits rows Hrows bit (label r) features) as [Fs _]; [|done|].
      { apply in_class_pos. by exists r. }
      assert (float_gt (score (label r)) (score c) = true) as Hgt.
      { unfold float_gt. unfold above in Hab. by rewrite Hab. }
      apply gt_val in Hgt; [|done|done]. apply (Rlt_irrefl (val (score c))). eapply Rlt_le_trans; [exact Hgt|exact H].
  Qed.
End predict.

(** ** Predict *)

Lemma reads_bits g specs i attrs bits : resolve g attrs = Ok specs →
  (∀ f s, specs !! f = Some s → ∃ raw, gr_get g s i = Ok raw ∧ reads_bit raw (bits i f)) →
  ∃ buf, res_mapM (λ a, gr_get g a i) specs = Ok buf ∧ length buf = length attrs ∧
    ∀ f v, buf !! f = Some v → reads_bit v (bits i f).
Proof.
  intros Hsp Hb.
  assert (length specs = length attrs) as Hl.
  { unfold resolve in Hsp. apply res_mapM_Ok in Hsp. by apply Forall2_length in Hsp. }
  rewrite <- Hl. clear Hl Hsp.
  revert Hb. generalize (bits i). intros bi. revert bi. induction specs as [|s specs IH]; intros bi Hb.
  { exists []. split; [done|]. split; [done|]. intros f v H. by rewrite lookup_nil in H. }
  destruct (Hb 0 s eq_refl) as (raw & Hr & Hr').
  destruct (IH (λ f, bi (S f))) as (buf & E & Hl & H).
  { intros f s' Hs. apply (Hb (S f) s' Hs). }
  exists (raw :: buf). cbn [res_mapM]. rewrite Hr. cbn [mbind res_bind]. rewrite E. split; [done|].
  split; [cbn; lia|]. intros [|f] v Hv; [by injection Hv as <-|]. by apply H.
Qed.

Section predicting.
  Context (show : nat → N → string) (ko : list (string * nat) → list (string * nat)) (Hko : any_order ko).
  Context (parse : string → option binary64) (order : list ((nat * nat) * bool) → list ((nat * nat) * bool)).
  Context (Ho : any_order order) (pg : nat).
  Context (log : binary64 → binary64) (Hlog : sane_log log).
  Context (label : nat → string) (bits : nat → nat → bool) (rows features : nat).
  Context (Hrows : (Z.of_nat rows < 2 ^ 53)%Z) (Hfeat : (Z.of_nat features < 2 ^ 43)%Z) (Hf0 : 0 < features) (Hr0 : 0 < rows).
  Context (n : nb).
  Context (Hn1 : nb_training n = rows) (Hn2 : nb_features n = features) (Hn5 : length (nb_attrs n) = features).
  Context (Hn3 : ∀ c, nb_class n !! c = if in_class label rows c =? 0 then None else Some (in_class label rows c)).
  Context (Hn4 : ∀ c, 0 < in_class label rows c → nb_cond n !! c =
    Some (map (λ f, ratio (in_class_with label bits rows c f + 1) (in_class label rows c + 1)) (seq 0 features))).
  Context (what : grid) (name : string) (vs : list string) (wbits : nat → nat → bool).
  Context (Hit : iter_agrees what) (Hclass : gr_class_attrs what = [CatA name vs]) (Hvs : (N.of_nat (length vs) < 2^63)%N).
  Context (Hlab : ∀ r, r < rows → label r ∈ vs).
  Context (Hw : shows_bits what (nb_attrs n) wbits).

  Lemma nb_predict_best : ∃ ret, nb_predict ko log parse order pg n what = Ok ret ∧ d_maxrow ret = (gr_size what).2 ∧
    ∀ i, i < (gr_size what).2 → ∃ c, reads_class show ret i c ∧ (∃ r, r < rows ∧ label r = c) ∧
      ∀ r, r < rows → ¬ above (bernoulli_score log label bits rows features (wbits i) (label r))
                              (bernoulli_score log label bits rows features (wbits i) c).
  Proof using All.
    unfold nb_predict. destruct (labels_predicted_new pg what name vs Hclass) as (d0 & -> & Hd0). cbn [mbind res_bind].
    destruct Hw as (specs & Hsp & Hbits). rewrite Hsp. cbn [mbind res_bind]. unfold map_over_rows.
    destruct (Hit specs) as (its & -> & Hperm & Hfetch).
    set (good := λ i c, (∃ r, r < rows ∧ label r = c) ∧
      ∀ r, r < rows → ¬ above (bernoulli_score log label bits rows features (wbits i) (label r))
                              (bernoulli_score log label bits rows features (wbits i) c)).
    destruct (run_rows_labels (λ ret row i, class ← nb_predict_one ko log n row;
          ret ← set_class parse order ret i class; Ok (ret, Cont))
      (λ d lab, labels_predicted pg name vs (gr_size what).2 lab d) good its d0 (λ _, None)) as (ret & lab & -> & Hret & Hin & _).
    - intros i fetch d lab Hi Hd. assert (i < (gr_size what).2) as Hlt.
      { assert (i ∈ map fst its) as H by (apply elem_of_list_fmap; by exists (i, fetch)).
        rewrite Hperm in H. apply elem_of_seq in H. lia. }
      rewrite (Hfetch _ _ Hi).
      destruct (reads_bits what specs i (nb_attrs n) wbits Hsp) as (buf & Hbuf & Hl & Hb).
      { intros f s Hs. by apply Hbits. }
      destruct (predict_one_best ko Hko log Hlog label bits rows features Hrows Hfeat Hf0 n Hn1 Hn2 Hn3 Hn4 buf (wbits i))
        as (c & Hc & Hex & Hbest); [lia|done|done|].
      destruct (labels_predicted_set parse order pg name vs (gr_size what).2 lab d i c Ho Hd Hlt) as (d' & Hd' & Hp).
      { destruct Hex as (r & Hr & <-). by apply Hlab. }
      exists buf, d', c. split; [done|]. rewrite Hc. cbn [mbind res_bind]. rewrite Hd'. done.
    - exact Hd0.
    - cbn [mbind res_bind fst]. exists ret. split; [done|]. split.
      + destruct Hret as [(_ & H & _) _]. done.
      + intros i Hi. destruct (Hin i) as (c & Hc & Hex & Hbest); [rewrite Hperm; apply elem_of_seq; lia|].
        exists c. split; [|done]. intros ord Hord. by eapply labels_predicted_get.
  Qed.
End predicting.
