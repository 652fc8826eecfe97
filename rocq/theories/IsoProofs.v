(** Proofs about isolation trees. *)
From Coq Require Import Reals Psatz.
From Verif Require Import Prelude FloatModel FloatOrder AttrModel StoreModel DenseModel DenseProofs GridModel GridSpec
  GridProofs FilterModel KnnModel Id3Model RuleModel RuleProofs RuleRefs CartModel CartSpec CartProofs CartGrow CartFit
  IsoModel IsoSpec.
From Flocq Require Import Core.Core IEEE754.BinarySingleNaN IEEE754.Bits IEEE754.Binary.
Local Open Scope nat_scope.

Lemma le_spec x y : float_le x y = true ↔ fnan x = false ∧ fnan y = false ∧ (fkey x <= fkey y)%Z.
Proof.
  unfold float_le, fnan. destruct (Bcompare 53 1024 x y) as [c|] eqn:E.
  - apply fcompare_spec in E as (Hx & Hy & E). rewrite Hx, Hy. rewrite <- Z.compare_le_iff, E.
    destruct c; naive_solver.
  - split; [done|]. intros (Hx & Hy & _). by rewrite fkey_compare in E.
Qed.

Definition lows (i : nat) (t : binary64) (data : list sample) := filter (λ x, at_most i t x = true) data.
Definition highs (i : nat) (t : binary64) (data : list sample) := filter (λ x, at_most i t x = false) data.

Lemma split_data_ok t i data : (∀ x, x ∈ data → i < length x) →
  split_data t i data = Ok (lows i t data, highs i t data).
Proof.
  induction data as [|p s IH]; intros Hn; [done|]. cbn [split_data].
  destruct (lookup_lt_is_Some_2 p i) as [x Hx]; [apply Hn; left|]. unfold idx. rewrite Hx. cbn [mbind res_bind].
  rewrite IH by (intros q Hq; apply Hn; by right). cbn [mbind res_bind fst snd].
  assert (at_most i t p = float_le x t) as Hb by (unfold at_most; by rewrite Hx).
  unfold lows, highs. destruct (float_le x t); cbn [fst snd].
  - rewrite filter_cons_True by done. by rewrite filter_cons_False by congruence.
  - rewrite filter_cons_False by congruence. by rewrite filter_cons_True by done.
Qed.

Lemma split_data_inv t i data r : split_data t i data = Ok r →
  (∀ x, x ∈ data → i < length x) ∧ r = (lows i t data, highs i t data).
Proof.
  intros H. assert (∀ x, x ∈ data → i < length x) as Hw.
  { revert r H. induction data as [|p s IH]; intros r H x Hx; [by apply elem_of_nil in Hx|].
    cbn [split_data] in H. apply bind_Ok in H as (v & Hv & H). apply bind_Ok in H as (r' & Hr & _).
    apply elem_of_cons in Hx as [->|Hx]; [|by eapply IH]. unfold idx in Hv.
    destruct (p !! i) eqn:E; [by eapply lookup_lt_Some|done]. }
  split; [done|]. rewrite split_data_ok in H by done. by injection H as <-.
Qed.

Lemma lows_highs i t data : length (lows i t data) + length (highs i t data) = length data.
Proof.
  unfold lows, highs. induction data as [|x data IH]; [done|]. rewrite !filter_cons.
  destruct (at_most i t x); repeat case_decide; try done; cbn [length]; lia.
Qed.

Lemma lows_in i t data x : x ∈ lows i t data → x ∈ data.
Proof. intros H. by apply elem_of_list_filter in H as [_ H]. Qed.
Lemma highs_in i t data x : x ∈ highs i t data → x ∈ data.
Proof. intros H. by apply elem_of_list_filter in H as [_ H]. Qed.

Section build.
  Context (draw : list bool → nat → nat) (rand : list bool → nat → binary64) (tries : nat) (md : Z).
  Notation build := (build_tree draw rand).

  Lemma build_inv fuel path data depth t : build (S fuel) tries path data depth md = Ok t →
    (t = zero_node float_zero ∧
       ((md < depth + 1)%Z ∨ length data ≤ 1 ∨ check_data data = Ok false)) ∨
    (1 < length data ∧ (depth + 1 <= md)%Z ∧ check_data data = Ok true ∧
     ∃ i u l r, pick_split draw rand tries 0 path data = Ok (i, u) ∧ (∀ x, x ∈ data → i < length x) ∧
       build fuel tries (path ++ [false]) (lows i u data) (depth + 1) md = Ok l ∧
       build fuel tries (path ++ [true]) (highs i u data) (depth + 1) md = Ok r ∧
       t = CNode (if cn_needed l then Some l else None) (if cn_needed r then Some r else None)
             u i (float_of_nat (length (lows i u data))) (float_of_nat (length (highs i u data))) true).
  Proof.
    cbn [build_tree]. destruct (_ || _) eqn:E.
    { intros [= <-]. left. split; [done|]. apply orb_true_iff in E as [E|E].
      - left. lia.
      - right. left. by apply Nat.leb_le. }
    apply orb_false_iff in E as [E1 E2]. apply Nat.leb_gt in E2.
    intros H. apply bind_Ok in H as (c & Hc & H). destruct c; cbn [negb] in H.
    2: { injection H as <-. left. split; [done|]. by right; right. }
    apply bind_Ok in H as ([i u] & Hs & H). apply bind_Ok in H as (parts & Hp & H). cbn [fst snd] in *.
    apply split_data_inv in Hp as [Hw ->]. cbn [fst snd] in H.
    apply bind_Ok in H as (l & Hl & H). apply bind_Ok in H as (r & Hr & H). injection H as <-.
    right. split; [done|]. split; [lia|]. split; [done|]. exists i, u, l, r. done.
  Qed.

  Lemma depth_bound fuel path data depth t x : build fuel tries path data depth md = Ok t →
    cn_needed t = true → 1 ≤ steps t x ∧ (depth + Z.of_nat (steps t x) <= md)%Z.
  Proof.
    revert path data depth t. induction fuel as [|fuel IH]; intros path data depth t Ht Hn; [done|].
    apply build_inv in Ht as [[-> _]|(_ & Hd & _ & i & u & l & r & _ & _ & Hl & Hr & ->)]; [done|].
    cbn [steps]. destruct (at_most i u x).
    - destruct (cn_needed l) eqn:E; [|lia]. apply IH in Hl as [H1 H2]; [|done]. lia.
    - destruct (cn_needed r) eqn:E; [|lia]. apply IH in Hr as [H1 H2]; [|done]. lia.
  Qed.

  Lemma depth_height fuel path data depth t : build fuel tries path data depth md = Ok t →
    cn_needed t = true → (depth + Z.of_nat (height t) <= md)%Z.
  Proof.
    revert path data depth t. induction fuel as [|fuel IH]; intros path data depth t Ht Hn; [done|].
    apply build_inv in Ht as [[-> _]|(_ & Hd & _ & i & u & l & r & _ & _ & Hl & Hr & ->)]; [done|].
    cbn [height]. pose proof (IH _ _ _ _ Hl) as Bl. pose proof (IH _ _ _ _ Hr) as Br.
    destruct (cn_needed l); destruct (cn_needed r); try specialize (Bl eq_refl); try specialize (Br eq_refl); lia.
  Qed.

  Lemma leaves_sum fuel path data depth t : build fuel tries path data depth md = Ok t →
    cn_needed t = true → ∃ ns, leaf_sizes t = map float_of_nat ns ∧ sum_list ns = length data.
  Proof.
    revert path data depth t. induction fuel as [|fuel IH]; intros path data depth t Ht Hn; [done|].
    apply build_inv in Ht as [[-> _]|(_ & Hd & _ & i & u & l & r & _ & _ & Hl & Hr & ->)]; [done|].
    cbn [leaf_sizes]. pose proof (IH _ _ _ _ Hl) as Bl. pose proof (IH _ _ _ _ Hr) as Br. rewrite <- (lows_highs i u data).
    assert (∃ ns, match (if cn_needed l then Some l else None) with
        | None => [float_of_nat (length (lows i u data))] | Some t => leaf_sizes t end = map float_of_nat ns ∧
        sum_list ns = length (lows i u data)) as (n1 & -> & <-).
    { destruct (cn_needed l); [by apply Bl|]. exists [length (lows i u data)]. split; [done|]. cbn. lia. }
    assert (∃ ns, match (if cn_needed r then Some r else None) with
        | None => [float_of_nat (length (highs i u data))] | Some t => leaf_sizes t end = map float_of_nat ns ∧
        sum_list ns = length (highs i u data)) as (n2 & -> & <-).
    { destruct (cn_needed r); [by apply Br|]. exists [length (highs i u data)]. split; [done|]. cbn. lia. }
    exists (n1 ++ n2). split; [by rewrite map_app|]. clear. induction n1 as [|n n1 IH]; [done|]. cbn. cbn in IH. lia.
  Qed.

  Lemma int_of_nat n : (Z.of_nat n <= 2 ^ 53)%Z → int_of_float (float_of_nat n) = Z.of_nat n.
  Proof.
    clear. intros Hn. destruct (float_of_Z_exact (Z.of_nat n)) as [F V]; [lia|]. unfold int_of_float, float_of_nat.
    apply eq_IZR. pose proof (Btrunc_correct 53 1024 eq_refl (float_of_Z (Z.of_nat n))) as H.
    rewrite H, V. apply round_generic; [apply valid_rnd_ZR|]. apply generic_format_FIX.
    exists (Float radix2 (Z.of_nat n) 0); [|done]. unfold F2R. cbn. lra.
  Qed.

  Lemma step_exact k : (0 <= k < 2 ^ 53)%Z → b64_plus mode_NE (float_of_Z k) float_one = float_of_Z (k + 1).
  Proof.
    clear. intros Hk. destruct (float_of_Z_exact k) as [F V]; [lia|]. destruct one_exact as [F1 V1].
    destruct (float_of_Z_exact (k + 1)) as [F2 V2]; [lia|].
    unfold b64_plus.
    pose proof (Bplus_correct 53 1024 eq_refl eq_refl binop_nan_pl64 mode_NE (float_of_Z k) float_one F F1) as H.
    rewrite V, V1 in H. cbn [round_mode] in H. rewrite <- plus_IZR in H.
    rewrite (small_bound (k + 1) (k + 1)) in H by (first [lia|lra]).
    destruct H as (Hv & Hf & Hs).
    rewrite round_generic in Hv by (first [apply valid_rnd_N|apply format_Z; lia]).
    apply B2R_Bsign_inj; [done|done|by rewrite V2|]. rewrite Hs.
    rewrite Rcompare_Gt by (apply (IZR_lt 0); lia).
    unfold float_of_Z. pose proof (binary_normalize_correct 53 1024 eq_refl eq_refl mode_NE (k + 1) 0 false) as H.
    assert (F2R (Float radix2 (k + 1) 0) = IZR (k + 1)) as E.
    { unfold F2R. cbn [Fnum Fexp]. change (bpow radix2 0) with 1%R. lra. }
    rewrite E in H. cbn [round_mode] in H. rewrite (small_bound (k + 1) (k + 1)) in H by (first [lia|lra]).
    destruct H as (_ & _ & H). rewrite H. rewrite Rcompare_Gt by (apply (IZR_lt 0); lia). done.
  Qed.

  Lemma size_le_one n : (Z.of_nat n <= 2 ^ 53)%Z → float_le (float_of_nat n) float_one = (n <=? 1).
  Proof.
    clear. intros Hn. destruct (float_of_Z_exact (Z.of_nat n)) as [F V]; [lia|]. destruct one_exact as [F1 V1].
    unfold float_le, float_of_nat. rewrite Bcompare_correct by done. rewrite V, V1.
    destruct (Rcompare_spec (IZR (Z.of_nat n)) 1) as [H|H|H].
    - apply (lt_IZR _ 1) in H. symmetry. apply Nat.leb_le. lia.
    - apply (eq_IZR _ 1) in H. symmetry. apply Nat.leb_le. lia.
    - apply (lt_IZR 1) in H. symmetry. apply Nat.leb_gt. lia.
  Qed.

  Lemma fellows_filter l r u i ll rl b x data :
    filter (λ y, fellows (CNode l r u i ll rl b) x y = true) data =
    let side := if at_most i u x then lows i u data else highs i u data in
    match (if at_most i u x then l else r) with
    | None => side
    | Some t => filter (λ y, fellows t x y = true) side
    end.
  Proof.
    clear. cbn [fellows]. destruct (at_most i u x) eqn:E; cbn zeta.
    - destruct l as [t|].
      + unfold lows. rewrite list_filter_filter. apply list_filter_iff. intros y.
        destruct (at_most i u y); cbn [Bool.eqb andb]; naive_solver.
      + unfold lows. apply list_filter_iff. intros y. destruct (at_most i u y); cbn; naive_solver.
    - destruct r as [t|].
      + unfold highs. rewrite list_filter_filter. apply list_filter_iff. intros y.
        destruct (at_most i u y); cbn [Bool.eqb andb]; naive_solver.
      + unfold highs. apply list_filter_iff. intros y. destruct (at_most i u y); cbn; naive_solver.
  Qed.

  (** The length of the path of [k] comparisons that ends with [n] samples. *)
  Definition length_of (log : binary64 → binary64) (k : Z) (n : nat) : binary64 :=
    if n <=? 1 then float_of_Z k else b64_plus mode_NE (float_of_Z k) (c_factor log (Z.of_nat n)).

  Lemma path_value log fuel path data depth t x w k :
    build fuel tries path data depth md = Ok t → cn_needed t = true → of_width w data → length x = w →
    (Z.of_nat (length data) <= 2 ^ 53)%Z → (0 <= k)%Z → (k + Z.of_nat (steps t x) <= 2 ^ 53)%Z →
    path_length log t x (float_of_Z k) =
    Ok (length_of log (k + Z.of_nat (steps t x)) (length (filter (λ y, fellows t x y = true) data))).
  Proof.
    revert path data depth t k. induction fuel as [|fuel IH]; intros path data depth t k Ht Hn Hw Hx Hlen Hk Hks; [done|].
    apply build_inv in Ht as [[-> _]|(Hl1 & Hd & _ & i & u & l & r & _ & Hi & Hl & Hr & ->)]; [done|].
    assert (i < length x) as Hix.
    { destruct data as [|y data]; [cbn in Hl1; lia|]. rewrite Hx, <- (Hw y) by left. apply Hi. left. }
    destruct (lookup_lt_is_Some_2 x i Hix) as [v Hv].
    assert (at_most i u x = float_le v u) as Ha by (unfold at_most; by rewrite Hv).
    pose proof (lows_highs i u data) as Hlh.
    cbn [path_length]. unfold idx. rewrite Hv. cbn [mbind res_bind]. rewrite <- Ha.
    rewrite fellows_filter. cbn [steps] in *.
    rewrite step_exact by lia.
    destruct (at_most i u x); cbn zeta.
    - destruct (cn_needed l) eqn:E.
      + rewrite (IH _ _ _ l (k + 1)%Z Hl E); [|by intros y Hy; apply Hw; eapply lows_in|done|lia..].
        f_equal. f_equal. lia.
      + rewrite size_le_one, int_of_nat by lia. unfold length_of. done.
    - destruct (cn_needed r) eqn:E.
      + rewrite (IH _ _ _ r (k + 1)%Z Hr E); [|by intros y Hy; apply Hw; eapply highs_in|done|lia..].
        f_equal. f_equal. lia.
      + rewrite size_le_one, int_of_nat by lia. unfold length_of. done.
  Qed.

  Lemma path_none log x : x ≠ [] → path_length log (zero_node float_zero) x float_zero = Ok float_one.
  Proof.
    clear. intros Hx. destruct x as [|v x]; [done|]. cbn [path_length zero_node idx lookup list_lookup mbind res_bind].
    destruct (float_le v float_zero); vm_compute; reflexivity.
  Qed.

  Lemma root_kind fuel data t : build fuel tries [] data 0 md = Ok t → cn_needed t = false → t = zero_node float_zero.
  Proof.
    intros Ht Hn. destruct fuel as [|fuel]; [done|].
    by apply build_inv in Ht as [[-> _]|(_ & _ & _ & i & u & l & r & _ & _ & _ & _ & ->)].
  Qed.
End build.
