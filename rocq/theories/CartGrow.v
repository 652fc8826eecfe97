(** Proofs about the growth of CART trees. *)
From Verif Require Import Prelude FloatModel FloatOrder AttrModel StoreModel DenseModel DenseProofs GridModel GridSpec
  FilterModel KnnModel Id3Model RuleModel RuleProofs CartModel CartSpec CartProofs.
From Flocq Require Import IEEE754.BinarySingleNaN IEEE754.Bits IEEE754.Binary.
Local Open Scope nat_scope.

Lemma apart_sub {L} w (s s' : list (sample * L)) : apart w s → (∀ p, p ∈ s' → p ∈ s) → apart w s'.
Proof. intros [H1 H2] Hs. split; [intros p Hp; by apply H1, Hs|]. intros p q i x y Hp Hq. apply H2; by apply Hs. Qed.

Lemma apart_numbers {L} w i (s : list (sample * L)) : apart w s → i < w → numbers i s.
Proof.
  intros [H1 H2] Hi p Hp. destruct (lookup_lt_is_Some_2 p.1 i) as [x Hx]; [by rewrite H1|].
  exists x. split; [done|]. by destruct (H2 p p i x x).
Qed.

Lemma res_mapM_some {A B} (f : A → res B) (g : A → B) l : (∀ x, x ∈ l → f x = Ok (g x)) →
  res_mapM f l = Ok (map g l).
Proof.
  induction l as [|x l IH]; intros H; [done|]. cbn [res_mapM map]. rewrite H by left. cbn [mbind res_bind].
  rewrite IH; [done|]. intros y Hy. apply H. by right.
Qed.

Lemma cnode_ind' {L} (P : cnode L → Prop) :
  (∀ l r u i ll rl n, (∀ t, l = Some t → P t) → (∀ t, r = Some t → P t) → P (CNode l r u i ll rl n)) →
  ∀ t, P t.
Proof.
  intros H. fix F 1. intros [l r u i ll rl n]. apply H.
  - destruct l as [t'|]; [|discriminate]. intros t [= <-]. apply F.
  - destruct r as [t'|]; [|discriminate]. intros t [= <-]. apply F.
Qed.

Section grow.
  Context {L : Type}.
  Notation point := (sample * L)%type.
  Variable lzero : L.
  Variable fsort : list binary64 → list binary64.
  Variable order : list binary64 → list nat.
  Variable loss : list L → res (binary64 * L).
  Variable imp : list L → binary64.
  Variable lab : list L → L.
  Hypothesis Hfs : sorts fsort.
  Hypothesis Hord : sorts_positions order.
  Hypothesis Hloss : ∀ y, y ≠ [] → loss y = Ok (imp y, lab y).

  Notation wl := (split_impurity imp).

  Definition mk (s : list point) (i : nat) (t : binary64) : best L :=
    Best (wl s i t) (low i t s) (high i t s) t i (lab (map snd (low i t s))) (lab (map snd (high i t s)))
      (imp (map snd (low i t s))) (imp (map snd (high i t s))).

  Definition upd (s : list point) (i : nat) (t : binary64) (b : best L) : best L :=
    if float_lt (wl s i t) (be_loss b) then mk s i t else b.

  Fixpoint pure_thresholds (tried : list (nat * binary64)) (i : nat) (s : list point)
      (u : list binary64) (b : best L) : best L :=
    match u with
    | x :: (y :: _) as u =>
        pure_thresholds tried i s u
          (if validate tried i (middle x y) then upd s i (middle x y) b else b)
    | _ => b
    end.

  Lemma try_thresholds_cons tried n i (s : list point) x y u st :
    try_thresholds lzero loss tried n i s (x :: y :: u) st =
    (st' ← try_threshold lzero loss tried n i s (middle x y) st;
     try_thresholds lzero loss tried n i s (y :: u) st').
  Proof using Type. reflexivity. Qed.

  Lemma pure_thresholds_cons tried i (s : list point) x y u b :
    pure_thresholds tried i s (x :: y :: u) b =
    pure_thresholds tried i s (y :: u)
      (if validate tried i (middle x y) then upd s i (middle x y) b else b).
  Proof using Type. reflexivity. Qed.

  (** The values [u] of feature [i], in ascending order, with middles between them. *)
  Definition ladder (i : nat) (s : list point) (u : list binary64) : Prop :=
    ascending u ∧ Forall (λ x, fnan x = false) u ∧
    (∀ x, x ∈ u → ∃ p, p ∈ s ∧ p.1 !! i = Some x) ∧
    (∀ x y, x ∈ u → y ∈ u → float_lt x y = true →
       float_lt x (middle x y) = true ∧ float_lt y (middle x y) = false).

  Lemma ladder_tail i s x u : ladder i s (x :: u) → ladder i s u.
  Proof using Type.
    intros (H1 & H2 & H3 & H4). apply StronglySorted_inv in H1 as [H1 _].
    apply Forall_cons in H2 as [_ H2]. split; [done|]. split; [done|].
    split; intros; [apply H3|apply H4]; try done; by right.
  Qed.

  Lemma ladder_sides i s x y u : ladder i s (x :: y :: u) →
    fnan (middle x y) = false ∧ (fkey x < fkey (middle x y) <= fkey y)%Z ∧
    low i (middle x y) s ≠ [] ∧ high i (middle x y) s ≠ [].
  Proof using Type.
    intros (H1 & H2 & H3 & H4). apply StronglySorted_inv in H1 as [H1 Hx].
    apply Forall_cons in Hx as [Hxy _]. destruct (H4 x y) as [Hlo Hhi]; [left|right; left|done|].
    destruct (H3 x) as (p & Hp & Hpx); [left|]. destruct (H3 y) as (q & Hq & Hqy); [right; left|].
    pose proof (proj1 (lt_spec _ _) Hlo) as (_ & Nm & Hk).
    apply Forall_cons in H2 as [_ H2]. apply Forall_cons in H2 as [Ny _].
    pose proof (proj1 (lt_false _ _) Hhi Ny Nm) as Hk2.
    split; [done|]. split; [lia|]. split.
    - apply (low_nonempty _ _ _ p); [done|]. unfold below. by rewrite Hpx.
    - apply (high_nonempty _ _ _ q); [done|]. unfold below. by rewrite Hqy.
  Qed.

  Lemma side_loss_ok (s : list point) : s ≠ [] →
    side_loss lzero loss (map snd s) = Ok (imp (map snd s), lab (map snd s)).
  Proof using Hloss. intros H. unfold side_loss. rewrite Hloss; [done|]. by destruct s. Qed.

  Lemma try_thresholds_pure tried i (s : list point) u o b :
    asc i s → numbers i s → ladder i s u →
    match o with
    | None => True
    | Some parts => ∃ t, fnan t = false ∧ (∀ x, head u = Some x → (fkey t <= fkey x)%Z) ∧
        parts = (low i t s, high i t s)
    end →
    ∃ o', try_thresholds lzero loss tried (length s) i s u (o, b) = Ok (o', pure_thresholds tried i s u b).
  Proof using Hloss.
    intros Ha Hn. revert o b. induction u as [|x u IH]; intros o b Hu Ho; [by eexists|].
    destruct u as [|y u]; [by eexists|].
    rewrite try_thresholds_cons, pure_thresholds_cons.
    destruct (ladder_sides i s x y u Hu) as (Nm & Hm & Hlow & Hhigh).
    unfold try_threshold.
    destruct (validate tried i (middle x y)).
    - cbn [fst snd]. assert ((match o with
         | None => create_split s i (middle x y)
         | Some (pl, pr) => update_split pl pr i (middle x y)
         end) = Ok (low i (middle x y) s, high i (middle x y) s)) as ->.
      { destruct o as [parts|].
        - destruct Ho as (t & Nt & Ht & ->). specialize (Ht x). cbn [head] in Ht.
          assert (fkey t <= fkey x)%Z as Htx by (apply Ht; done).
          destruct (low_step i t (middle x y) s) as [H1 H2]; [done|done| |].
          { intros p Hp. unfold below. destruct (p.1 !! i) as [v|]; [|done].
            rewrite !lt_spec. intros (Nv & _ & ?). split; [done|]. split; [done|]. lia. }
          rewrite update_split_spec.
          + by rewrite H1, H2.
          + by apply high_asc.
          + intros p Hp. apply Hn. by apply high_in in Hp as [_ Hp].
          + by rewrite H2.
        - by apply create_split_spec. }
      cbn [mbind res_bind fst snd]. rewrite !side_loss_ok by done. cbn [mbind res_bind fst snd].
      apply IH; [by eapply ladder_tail|]. exists (middle x y). split; [done|]. split; [|done].
      intros z Hz. cbn [head] in Hz. injection Hz as <-. lia.
    - cbn [mbind res_bind]. apply IH; [by eapply ladder_tail|].
      destruct o as [parts|]; [|done]. destruct Ho as (t & Nt & Ht & ->). exists t.
      split; [done|]. split; [|done]. intros z Hz. cbn [head] in Hz. injection Hz as <-.
      assert (fkey t <= fkey x)%Z by (apply Ht; cbn; done). lia.
  Qed.

  (** What the loop over the thresholds finds. *)
  Lemma pure_thresholds_spec tried i (s : list point) u b :
    ladder i s u → fnan (be_loss b) = false →
    let b' := pure_thresholds tried i s u b in
    fnan (be_loss b') = false ∧ (fkey (be_loss b') <= fkey (be_loss b))%Z ∧
    (b' = b ∨ ∃ t, low i t s ≠ [] ∧ high i t s ≠ [] ∧ b' = mk s i t ∧ fnan t = false ∧
       (fkey (be_loss b') < fkey (be_loss b))%Z) ∧
    (∀ k x y, u !! k = Some x → u !! S k = Some y → validate tried i (middle x y) = true →
       float_lt (wl s i (middle x y)) (be_loss b') = false).
  Proof using Type.
    revert b. induction u as [|x u IH]; intros b Hu Nb.
    { cbn. split; [done|]. split; [lia|]. split; [by left|]. done. }
    destruct u as [|y u].
    { cbn. split; [done|]. split; [lia|]. split; [by left|]. intros [|k]; done. }
    rewrite pure_thresholds_cons.
    destruct (ladder_sides i s x y u Hu) as (Nm & Hm & Hlow & Hhigh).
    set (b1 := if validate tried i (middle x y) then upd s i (middle x y) b else b).
    assert (fnan (be_loss b1) = false ∧
      (b1 = b ∨ b1 = mk s i (middle x y) ∧ (fkey (be_loss b1) < fkey (be_loss b))%Z) ∧
      (validate tried i (middle x y) = true → float_lt (wl s i (middle x y)) (be_loss b1) = false))
      as (N1 & Hb1 & Hv1).
    { subst b1. destruct (validate tried i (middle x y)); [|split; [done|]; split; [by left|done]].
      unfold upd. destruct (float_lt (wl s i (middle x y)) (be_loss b)) eqn:E; [|split; [done|]; split; [by left|done]].
      pose proof (proj1 (lt_spec _ _) E) as (N & _ & Hk). cbn [be_loss mk].
      split; [done|]. split; [by right|]. intros _. apply lt_false. lia. }
    destruct (IH b1) as (N2 & Hle & Hor & Hall); [by eapply ladder_tail|done|].
    split; [done|]. split; [destruct Hb1 as [->|[_ ?]]; lia|]. split.
    - destruct Hor as [->|(t & Ht1 & Ht2 & -> & Nt & Hlt)].
      + destruct Hb1 as [->|[-> ?]]; [by left|]. right. by exists (middle x y).
      + right. exists t. split; [done|]. split; [done|]. split; [done|]. split; [done|].
        destruct Hb1 as [->|[_ ?]]; lia.
    - intros [|k] x' y' Hx' Hy' Hv.
      + cbn in Hx', Hy'. injection Hx' as <-. injection Hy' as <-. specialize (Hv1 Hv).
        apply lt_false. intros Nw _. pose proof (proj1 (lt_false _ _) Hv1 Nw N1). lia.
      + by apply (Hall k).
  Qed.

  Lemma reorder_ok w i (pts : list point) : apart w pts → i < w →
    ∃ vals s, get_feature pts i = Ok vals ∧ reorder order vals pts = Ok s ∧
      length vals = length pts ∧ (∀ k p, pts !! k = Some p → p.1 !! i = vals !! k) ∧
      s ≡ₚ pts ∧ asc i s.
  Proof using Hord.
    intros Hap Hi. pose proof (apart_numbers w i pts Hap Hi) as Hn.
    set (val := λ p : point, default float_zero (p.1 !! i)).
    exists (map val pts).
    assert (get_feature pts i = Ok (map val pts)) as Hget.
    { unfold get_feature. apply res_mapM_some. intros p Hp. destruct (Hn p Hp) as (x & Hx & _).
      unfold idx, val. by rewrite Hx. }
    destruct (Hord (map val pts)) as [Hp Hs].
    assert (∀ k p, pts !! k = Some p → p.1 !! i = map val pts !! k) as Hval.
    { intros k p Hk. change (map val pts) with (val <$> pts). rewrite list_lookup_fmap, Hk. cbn.
      unfold val. destruct (Hn p) as (x & Hx & _); [by eapply elem_of_list_lookup_2|]. by rewrite Hx. }
    assert (Forall (λ x, is_nan 53 1024 x = false) (map val pts)) as Nv.
    { apply Forall_forall. intros x Hx. apply elem_of_list_In, in_map_iff in Hx as (p & <- & Hp').
      apply elem_of_list_In in Hp'. destruct (Hn p Hp') as (x & Hx & Nx). unfold val. by rewrite Hx. }
    specialize (Hs Nv). rewrite map_length in Hp.
    assert (∀ l, (∀ k, k ∈ l → k < length pts) → ∃ s, res_mapM (idx pts) l = Ok s ∧
      Forall2 (λ k p, pts !! k = Some p) l s) as Hmap.
    { clear. induction l as [|k l IH]; intros H; [by exists []|].
      destruct IH as (s & Hs & Hf); [intros j Hj; apply H; by right|].
      destruct (lookup_lt_is_Some_2 pts k) as [p Hp]; [apply H; left|].
      exists (p :: s). cbn [res_mapM].
      assert (idx pts k = Ok p) as -> by (unfold idx; by rewrite Hp). cbn [mbind res_bind]. rewrite Hs.
      split; [done|]. by constructor. }
    destruct (Hmap (order (map val pts))) as (s & Hre & Hf).
    { intros k Hk. rewrite Hp in Hk. apply elem_of_seq in Hk. lia. }
    exists s. split; [done|]. split; [done|]. split; [by rewrite map_length|]. split; [done|]. split.
    - assert (s = omap (λ k, pts !! k) (order (map val pts))) as ->.
      { clear -Hf. induction Hf as [|k p l s Hk Hf IH]; [done|]. cbn. rewrite Hk. by f_equal. }
      rewrite Hp. clear.
      assert (∀ pre, omap (λ k, (pre ++ pts) !! k) (seq (length pre) (length pts)) = pts) as H.
      { induction pts as [|p pts IH]; intros pre; [done|]. cbn [length seq omap list_omap].
        rewrite lookup_app_r by lia. rewrite Nat.sub_diag. cbn. f_equal.
        specialize (IH (pre ++ [p])). rewrite app_length in IH. cbn in IH.
        rewrite <- app_assoc in IH. cbn in IH. rewrite Nat.add_1_r in IH. done. }
      specialize (H []). cbn in H. by rewrite H.
    - revert Hs Hf Hval. generalize (order (map val pts)). clear. intros l Hs Hf Hval.
      revert s Hf. induction Hs as [|k l Hl IH Hk]; intros s Hf.
      { apply Forall2_nil_inv_l in Hf as ->. constructor. }
      apply Forall2_cons_inv_l in Hf as (p & s' & Hp & Hf & ->). constructor; [by apply IH|].
      apply Forall_forall. intros q Hq x y Hx Hy.
      apply elem_of_list_lookup in Hq as [m Hm].
      destruct (Forall2_lookup_r _ _ _ _ _ Hf Hm) as (j & Hj & Hjq).
      apply elem_of_list_lookup_2 in Hj. pose proof (proj1 (Forall_forall _ _) Hk j Hj x y) as H. cbn in H.
      apply H; [by rewrite <- (Hval k p)|by rewrite <- (Hval j q)].
  Qed.

  Definition covers (i : nat) (pts : list point) (u : list binary64) : Prop :=
    ∀ p x, p ∈ pts → p.1 !! i = Some x → ∃ y, y ∈ u ∧ fkey y = fkey x.

  Lemma try_feature_ok w tried (pts : list point) b i : apart w pts → i < w →
    ∃ s u, try_feature lzero fsort order loss tried pts b i = Ok (pure_thresholds tried i s u b) ∧
      s ≡ₚ pts ∧ ladder i s u ∧ covers i pts u.
  Proof using Hfs Hord Hloss.
    intros Hap Hi. pose proof (apart_numbers w i pts Hap Hi) as Hn.
    destruct (reorder_ok w i pts Hap Hi) as (vals & s & Hget & Hre & Hlen & Hval & Hp & Ha).
    assert (Forall (λ x, fnan x = false) vals) as Nv.
    { apply Forall_forall. intros x Hx. apply elem_of_list_lookup in Hx as [k Hk].
      destruct (lookup_lt_is_Some_2 pts k) as [p Hkp].
      { rewrite <- Hlen. by eapply lookup_lt_Some. }
      destruct (Hn p) as (y & Hy & Ny); [by eapply elem_of_list_lookup_2|].
      rewrite (Hval k p Hkp) in Hy. congruence. }
    destruct (unique_ascending fsort vals Hfs Nv) as (Hu1 & Hu2 & Hu3).
    assert (∀ x, x ∈ vals → ∃ p, p ∈ pts ∧ p.1 !! i = Some x) as Hback.
    { intros x Hx. apply elem_of_list_lookup in Hx as [k Hk].
      destruct (lookup_lt_is_Some_2 pts k) as [p Hkp].
      { rewrite <- Hlen. by eapply lookup_lt_Some. }
      exists p. split; [by eapply elem_of_list_lookup_2|]. by rewrite (Hval k p Hkp). }
    exists s, (fsort (find_unique vals)).
    assert (ladder i s (fsort (find_unique vals))) as Hlad.
    { split; [done|]. split.
      { apply Forall_forall. intros x Hx. apply Hu2 in Hx. by apply (proj1 (Forall_forall _ _) Nv). }
      split.
      - intros x Hx. destruct (Hback x) as (p & Hpp & Hpx); [by apply Hu2|]. exists p. by rewrite Hp.
      - intros x y Hx Hy. destruct (Hback x) as (p & Hpp & Hpx); [by apply Hu2|].
        destruct (Hback y) as (q & Hqp & Hqy); [by apply Hu2|]. by apply (proj2 Hap p q i x y). }
    split; [|split; [done|split; [done|]]].
    - unfold try_feature. rewrite Hget. cbn [mbind res_bind]. rewrite Hre. cbn [mbind res_bind].
      destruct (try_thresholds_pure tried i s (fsort (find_unique vals)) None b) as [o' Ho'];
        [done| |done|done|].
      { intros p Hpp. apply Hn. by rewrite <- Hp. }
      rewrite <- (Permutation_length Hp). by rewrite Ho'.
    - intros p x Hpp Hpx. apply Hu3. apply elem_of_list_lookup in Hpp as [k Hk].
      rewrite (Hval k p Hk) in Hpx. by eapply elem_of_list_lookup_2.
  Qed.

  (** No threshold allowed by [tried] has less impurity than [v]. *)
  Definition unbeaten (tried : list (nat * binary64)) (pts : list point) (i : nat) (v : binary64) : Prop :=
    ∃ s u, s ≡ₚ pts ∧ ladder i s u ∧ covers i pts u ∧
      ∀ k x y, u !! k = Some x → u !! S k = Some y → validate tried i (middle x y) = true →
        float_lt (wl s i (middle x y)) v = false.

  Lemma unbeaten_le tried pts i v v' : unbeaten tried pts i v → fnan v = false → fnan v' = false →
    (fkey v' <= fkey v)%Z → unbeaten tried pts i v'.
  Proof using Type.
    intros (s & u & H1 & H2 & H3 & H4) N N' Hle. exists s, u. split; [done|]. split; [done|]. split; [done|].
    intros k x y Hx Hy Hv. specialize (H4 k x y Hx Hy Hv). apply lt_false. intros Nw _.
    pose proof (proj1 (lt_false _ _) H4 Nw N). lia.
  Qed.

  Definition found (w : nat) (pts : list point) (v : binary64) (b : best L) : Prop :=
    ∃ s i t, s ≡ₚ pts ∧ i < w ∧ fnan t = false ∧ low i t s ≠ [] ∧ high i t s ≠ [] ∧
      b = mk s i t ∧ float_lt (wl s i t) v = true.

  Lemma try_features_ok w tried (pts : list point) b l : apart w pts → Forall (λ i, i < w) l →
    fnan (be_loss b) = false →
    ∃ b', res_foldl (try_feature lzero fsort order loss tried pts) b l = Ok b' ∧
      fnan (be_loss b') = false ∧ (fkey (be_loss b') <= fkey (be_loss b))%Z ∧
      (b' = b ∨ found w pts (be_loss b) b') ∧
      ∀ i, i ∈ l → unbeaten tried pts i (be_loss b').
  Proof using Hfs Hord Hloss.
    intros Hap. revert b. induction l as [|i l IH]; intros b Hl Nb.
    { exists b. cbn. split; [done|]. split; [done|]. split; [lia|]. split; [by left|].
      intros i Hi. by apply elem_of_nil in Hi. }
    apply Forall_cons in Hl as [Hi Hl]. cbn [res_foldl].
    destruct (try_feature_ok w tried pts b i Hap Hi) as (s & u & -> & Hp & Hlad & Hcov).
    cbn [mbind res_bind].
    destruct (pure_thresholds_spec tried i s u b Hlad Nb) as (N1 & Hle1 & Hor1 & Hall1).
    set (b1 := pure_thresholds tried i s u b) in *.
    destruct (IH b1 Hl N1) as (b' & Hb' & N' & Hle & Hor & Hall).
    exists b'. split; [done|]. split; [done|]. split; [lia|]. split.
    - destruct Hor as [->|(s' & i' & t' & H1 & H2 & H3 & H4 & H5 & H6 & H7)].
      + destruct Hor1 as [->|(t & H1 & H2 & H3 & H4 & H5)]; [by left|]. right.
        exists s, i, t. rewrite H3 in H5, N1. cbn [be_loss mk] in H5, N1.
        split; [done|]. split; [done|]. split; [done|]. split; [done|]. split; [done|]. split; [done|].
        by apply lt_spec.
      + right. exists s', i', t'. do 6 (split; [done|]).
        apply lt_spec in H7 as (N7 & _ & H7). apply lt_spec. split; [done|]. split; [done|]. lia.
    - intros j Hj. apply elem_of_cons in Hj as [->|Hj]; [|by apply Hall].
      apply (unbeaten_le tried pts i (be_loss b1)); [|done..]. by exists s, u.
  Qed.

  Definition numeric (pts : list point) : Prop :=
    ∀ s : list point, s ≠ [] → (∀ p, p ∈ s → p ∈ pts) → length s ≤ length pts →
      fnan (imp (map snd s)) = false.

  Lemma numeric_sub pts s : numeric pts → (∀ p, p ∈ s → p ∈ pts) → length s ≤ length pts → numeric s.
  Proof using Type.
    intros H Hs Hl s' Hne Hs' Hl'. apply H; [done| |lia]. intros p Hp. by apply Hs, Hs'.
  Qed.

  Lemma low_length i u (s pts : list point) : s ≡ₚ pts → length (low i u s) ≤ length pts.
  Proof using Type. intros H. rewrite <- (Permutation_length H). apply filter_length. Qed.
  Lemma high_length i u (s pts : list point) : s ≡ₚ pts → length (high i u s) ≤ length pts.
  Proof using Type. intros H. rewrite <- (Permutation_length H). apply filter_length. Qed.

  Notation grow := (best_split lzero fsort order loss).

  Lemma best_split_inv w fuel tried pts md depth t :
    apart w pts → pts ≠ [] → numeric pts → grow fuel tried pts md depth = Ok t →
    (md ≠ -1 ∧ md < depth + 1)%Z ∧ t = zero_node lzero ∨
    (∃ fuel', fuel = S fuel') ∧ ((md = -1) ∨ (depth + 1 <= md))%Z ∧
    ((t = CNode None None float_zero 0 (lab (map snd pts)) lzero false ∧
      ∀ i, i < w → unbeaten tried pts i (imp (map snd pts))) ∨
     ∃ s i u l r, s ≡ₚ pts ∧ i < w ∧ fnan u = false ∧ low i u s ≠ [] ∧ high i u s ≠ [] ∧
       float_lt (wl s i u) (imp (map snd pts)) = true ∧
       t = CNode l r u i (lab (map snd (low i u s))) (lab (map snd (high i u s))) true ∧
       (∀ j, j < w → unbeaten tried pts j (wl s i u)) ∧
       (l = None ∨ ∃ tl, l = Some tl ∧ cn_needed tl = true ∧
          grow (pred fuel) (tried ++ [(i, u)]) (low i u s) md (depth + 1) = Ok tl) ∧
       (r = None ∨ ∃ tr tried', r = Some tr ∧ cn_needed tr = true ∧
          (∀ x, x ∈ tried' → x ∈ tried ∨ x = (i, u)) ∧
          grow (pred fuel) tried' (high i u s) md (depth + 1) = Ok tr)).
  Proof using Hfs Hord Hloss.
    intros Hap Hne Hnum. destruct fuel as [|fuel]; [done|]. cbn [best_split pred].
    destruct (negb (md =? -1)%Z && (md <? depth + 1)%Z) eqn:Edepth.
    { intros [= <-]. left. split; [|done]. lia. }
    intros Ht. right. split; [by eexists|]. split; [lia|].
    destruct pts as [|p pts]; [done|]. set (all := p :: pts) in *. cbn [idx lookup list_lookup] in Ht.
    change (idx all 0) with (Ok p) in Ht. cbn [mbind res_bind] in Ht.
    rewrite Hloss in Ht by done. cbn [mbind res_bind fst snd] in Ht.
    assert (length p.1 = w) as Hw by (apply Hap; left). rewrite Hw in Ht.
    assert (fnan (imp (map snd all)) = false) as N0 by (by apply Hnum).
    destruct (try_features_ok w tried all
      (Best (imp (map snd all)) all all float_zero 0 (lab (map snd all)) lzero (imp (map snd all)) (imp (map snd all)))
      (seq 0 w) Hap) as (b & Hb & Nb & Hle & Hor & Hall).
    { apply Forall_forall. intros i Hi. apply elem_of_seq in Hi. lia. }
    { done. }
    rewrite Hb in Ht. cbn [mbind res_bind] in Ht. cbn [be_loss] in Hle, Hor.
    assert (∀ j, j < w → unbeaten tried all j (be_loss b)) as Hall'.
    { intros j Hj. apply Hall, elem_of_seq. lia. }
    destruct Hor as [->|(s & i & u & Hp & Hi & Nu & Hlo & Hhi & -> & Hlt)].
    - cbn [be_loss be_llabel be_rlabel be_threshold be_feature] in Ht, Hall'. left.
      rewrite (proj2 (eq_spec _ _)) in Ht by done. injection Ht as <-. done.
    - right. cbn [be_loss be_llabel be_rlabel be_threshold be_feature be_left be_right be_lloss be_rloss mk] in Ht, Hall'.
      pose proof (proj1 (lt_spec _ _) Hlt) as (Nw & _ & Hk).
      destruct (float_eq _ _) eqn:Eeq in Ht.
      { apply eq_spec in Eeq as (_ & _ & Eeq). lia. }
      destruct (float_gt (wl s i u) float_zero).
      + destruct (float_gt (imp (map snd (low i u s))) float_zero) eqn:El.
        * apply bind_Ok in Ht as (l & Hl & Ht). apply bind_Ok in Hl as (tl & Htl & Hl).
          apply bind_Ok in Ht as (r & Hr & Ht). injection Ht as <-. injection Hl as <-.
          exists s, i, u, (if cn_needed tl then Some tl else None), r.
          do 8 (split; [done|]). split.
          { destruct (cn_needed tl) eqn:En; [|by left]. right. by exists tl. }
          destruct (float_gt (imp (map snd (high i u s))) float_zero).
          -- apply bind_Ok in Hr as (tr & Htr & Hr). injection Hr as <-.
             destruct (cn_needed tr) eqn:En; [|by left]. right. eexists tr, _.
             split; [done|]. split; [done|]. split; [|done].
             intros x. rewrite !elem_of_app, !elem_of_list_singleton. tauto.
          -- injection Hr as <-. by left.
        * cbn [mbind res_bind] in Ht. apply bind_Ok in Ht as (r & Hr & Ht). injection Ht as <-.
          exists s, i, u, None, r. do 8 (split; [done|]). split; [by left|].
          destruct (float_gt (imp (map snd (high i u s))) float_zero).
          -- apply bind_Ok in Hr as (tr & Htr & Hr). injection Hr as <-.
             destruct (cn_needed tr) eqn:En; [|by left]. right. eexists tr, _.
             split; [done|]. split; [done|]. split; [|done].
             intros x. rewrite !elem_of_app, !elem_of_list_singleton. tauto.
          -- injection Hr as <-. by left.
      + injection Ht as <-. exists s, i, u, None, None. do 8 (split; [done|]). split; by left.
  Qed.

  Lemma together_filter (t : cnode L) l r u i ll rl n x (s : list point) :
    t = CNode l r u i ll rl n →
    filter (λ p : point, together t x p.1 = true) s =
    match (if below i u x then l else r) with
    | None => if below i u x then low i u s else high i u s
    | Some t' => filter (λ p : point, together t' x p.1 = true) (if below i u x then low i u s else high i u s)
    end.
  Proof using Type.
    intros ->. unfold low, high. cbn [together]. destruct (below i u x) eqn:E.
    - destruct l as [t'|].
      + rewrite list_filter_filter. apply list_filter_iff. intros p.
        destruct (below i u p.1), (together t' x p.1); cbn; naive_solver.
      + apply list_filter_iff. intros p. destruct (below i u p.1); cbn; naive_solver.
    - destruct r as [t'|].
      + rewrite list_filter_filter. apply list_filter_iff. intros p.
        destruct (below i u p.1), (together t' x p.1); cbn; naive_solver.
      + apply list_filter_iff. intros p. destruct (below i u p.1); cbn; naive_solver.
  Qed.

  Lemma sub_perm (s pts : list point) i u p : s ≡ₚ pts → p ∈ low i u s ∨ p ∈ high i u s → p ∈ pts.
  Proof using Type. intros Hp [H|H]; [apply low_in in H as [_ H]|apply high_in in H as [_ H]]; by rewrite <- Hp. Qed.

  (** A sample gets the label of the training samples that go the same way. *)
  Lemma predict_groups w fuel tried pts md depth t x :
    apart w pts → pts ≠ [] → numeric pts → grow fuel tried pts md depth = Ok t →
    cn_needed t = true → length x = w →
    ∃ grp, grp ≡ₚ filter (λ p, together t x p.1 = true) pts ∧ grp ≠ [] ∧
      predict_single t x = Ok (lab (map snd grp)).
  Proof using Hfs Hord Hloss.
    revert tried pts depth t. induction fuel as [|fuel IH]; intros tried pts depth t Hap Hne Hnum Ht Hneed Hx;
      [done|].
    destruct (best_split_inv w _ _ _ _ _ _ Hap Hne Hnum Ht) as
      [[_ ->]|(_ & _ & [[-> _]|(s & i & u & l & r & Hp & Hi & Nu & Hlo & Hhi & _ & Heq & _ & Hl & Hr)])];
      [done|done|].
    cbn [pred] in Hl, Hr. rewrite (together_filter t l r u i _ _ _ x pts Heq).
    destruct (lookup_lt_is_Some_2 x i) as [v Hv]; [by rewrite Hx|].
    rewrite Heq. cbn [predict_single]. unfold idx. rewrite Hv. cbn [mbind res_bind].
    assert (below i u x = float_lt v u) as Hb by (unfold below; by rewrite Hv). rewrite Hb.
    destruct (float_lt v u).
    - destruct Hl as [->|(tl & -> & Hn & Hg)].
      + exists (low i u s). split; [by apply low_perm|]. done.
      + destruct (IH _ _ _ _ (apart_sub w pts (low i u s) Hap ltac:(intros; eapply sub_perm; eauto)) Hlo
          (numeric_sub pts (low i u s) Hnum ltac:(intros; eapply sub_perm; eauto) (low_length i u s pts Hp)) Hg Hn Hx) as (grp & H1 & H2 & H3).
        exists grp. split; [|done]. rewrite H1. by rewrite (low_perm i u s pts Hp).
    - destruct Hr as [->|(tr & tried' & -> & Hn & _ & Hg)].
      + exists (high i u s). split; [by apply high_perm|]. done.
      + destruct (IH _ _ _ _ (apart_sub w pts (high i u s) Hap ltac:(intros; eapply sub_perm; eauto)) Hhi
          (numeric_sub pts (high i u s) Hnum ltac:(intros; eapply sub_perm; eauto) (high_length i u s pts Hp)) Hg Hn Hx) as (grp & H1 & H2 & H3).
        exists grp. split; [|done]. rewrite H1. by rewrite (high_perm i u s pts Hp).
  Qed.

  (** The tree is not deeper than allowed. *)
  Lemma height_bound fuel tried pts md depth t : grow fuel tried pts md depth = Ok t → (md ≠ -1)%Z →
    (depth + 1 <= md ∧ depth + Z.of_nat (height t) <= md)%Z ∨ (md < depth + 1)%Z ∧ t = zero_node lzero.
  Proof using Type.
    revert tried pts depth t. induction fuel as [|fuel IH]; intros tried pts depth t Ht Hmd; [done|].
    cbn [best_split] in Ht.
    destruct (negb (md =? -1)%Z && (md <? depth + 1)%Z) eqn:Edepth.
    { injection Ht as <-. right. split; [lia|done]. }
    left. assert (depth + 1 <= md)%Z as Hle by lia. split; [done|].
    assert (∀ (b : bool) tr s c, (if b then t ← grow fuel tr s md (depth + 1)%Z;
      Ok (if cn_needed t then Some t else None) else Ok None) = Ok c →
      (depth + 1 + Z.of_nat match c with None => 0 | Some t => height t end <= md)%Z) as Hchild.
    { intros b tr s c Hc. destruct b; [|injection Hc as <-; cbn; lia].
      apply bind_Ok in Hc as (t' & Ht' & Hc). injection Hc as <-.
      destruct (cn_needed t') eqn:En; [|cbn; lia].
      destruct (IH _ _ _ _ Ht' Hmd) as [[_ H]|[_ ->]]; [lia|done]. }
    apply bind_Ok in Ht as (p & _ & Ht). apply bind_Ok in Ht as (o & _ & Ht).
    apply bind_Ok in Ht as (b & _ & Ht). destruct (float_eq _ _) in Ht.
    { injection Ht as <-. cbn [height]. lia. }
    destruct (float_gt (be_loss b) _) in Ht; [|injection Ht as <-; cbn [height]; lia].
    apply bind_Ok in Ht as (l & Hl & Ht). apply bind_Ok in Ht as (r & Hr & Ht).
    injection Ht as <-. apply Hchild in Hl. apply Hchild in Hr. cbn [height]. lia.
  Qed.

  (** Growth ends. *)
  Lemma grow_ends w fuel tried pts md depth :
    apart w pts → pts ≠ [] → numeric pts → length pts < fuel →
    ∃ t, grow fuel tried pts md depth = Ok t.
  Proof using Hfs Hord Hloss.
    revert tried pts depth. induction fuel as [|fuel IH]; intros tried pts depth Hap Hne Hnum Hf; [lia|].
    cbn [best_split]. destruct (negb _ && _); [by eexists|].
    destruct pts as [|p pts]; [done|]. set (all := p :: pts) in *.
    change (idx all 0) with (Ok p). cbn [mbind res_bind].
    rewrite Hloss by done. cbn [mbind res_bind fst snd].
    assert (length p.1 = w) as Hw by (apply Hap; left). rewrite Hw.
    assert (fnan (imp (map snd all)) = false) as N0 by (by apply Hnum).
    destruct (try_features_ok w tried all
      (Best (imp (map snd all)) all all float_zero 0 (lab (map snd all)) lzero (imp (map snd all)) (imp (map snd all)))
      (seq 0 w) Hap) as (b & Hb & Nb & Hle & Hor & Hall).
    { apply Forall_forall. intros i Hi. apply elem_of_seq in Hi. lia. }
    { done. }
    rewrite Hb. cbn [mbind res_bind]. cbn [be_loss] in Hle, Hor.
    destruct Hor as [->|(s & i & u & Hp & Hi & Nu & Hlo & Hhi & -> & Hlt)].
    - cbn [be_loss be_llabel be_rlabel be_threshold be_feature].
      rewrite (proj2 (eq_spec _ _)) by done. by eexists.
    - cbn [be_loss be_llabel be_rlabel be_threshold be_feature be_left be_right be_lloss be_rloss mk].
      destruct (float_eq _ _); [by eexists|]. destruct (float_gt (wl s i u) _); [|by eexists].
      pose proof (low_high_length i u s) as Hlen. pose proof (Permutation_length Hp) as Hlp.
      assert (length (low i u s) ≠ 0) by (by destruct (low i u s)).
      assert (length (high i u s) ≠ 0) by (by destruct (high i u s)).
      assert (∀ tr s', s' ≠ [] → (∀ p, p ∈ s' → p ∈ all) → length s' < length all →
        ∃ t, grow fuel tr s' md (depth + 1)%Z = Ok t) as Hgo.
      { intros tr s' Hne' Hsub Hl. apply IH; [by eapply apart_sub|done|eapply numeric_sub; [done|done|lia]|lia]. }
      assert (∀ (c : bool) tr s', s' ≠ [] → (∀ p, p ∈ s' → p ∈ all) → length s' < length all →
        ∃ c', (if c then t ← grow fuel tr s' md (depth + 1)%Z;
               Ok (if cn_needed t then Some t else None) else Ok None) = Ok c') as Hc.
      { intros c tr s' H1 H2 H3. destruct c; [|by eexists]. destruct (Hgo tr s') as [t Ht]; [done..|].
        rewrite Ht. by eexists. }
      destruct (Hc (float_gt (imp (map snd (low i u s))) float_zero) (tried ++ [(i, u)]) (low i u s)) as [l ->];
        [done|intros; eapply sub_perm; eauto|lia|]. cbn [mbind res_bind].
      edestruct Hc as [r ->]; [|intros; eapply sub_perm; eauto|lia|]; [done|]. cbn [mbind res_bind].
      by eexists.
  Qed.

  (** ** The splits are the best *)

  Hypothesis Hperm : ∀ y y', y ≡ₚ y' → imp y = imp y'.

  Lemma wl_perm s s' i u : s ≡ₚ s' → wl s i u = wl s' i u.
  Proof using Hperm.
    intros H. unfold split_impurity. rewrite (Permutation_length H).
    rewrite (Permutation_length (low_perm i u s s' H)), (Permutation_length (high_perm i u s s' H)).
    rewrite (Hperm (map snd (low i u s)) (map snd (low i u s'))); [|apply Permutation_map, low_perm, H].
    by rewrite (Hperm (map snd (high i u s)) (map snd (high i u s'))) by (apply Permutation_map, high_perm, H).
  Qed.

  (** All samples lie on one side of the splits tried. *)
  Definition settled (tried : list (nat * binary64)) (pts : list point) : Prop :=
    ∀ i u, (i, u) ∈ tried → (∀ p, p ∈ pts → below i u p.1 = true) ∨ (∀ p, p ∈ pts → below i u p.1 = false).

  Lemma unbeaten_all w tried pts i v j u : apart w pts → settled tried pts → i < w →
    unbeaten tried pts i v → j = i → low j u pts ≠ [] → high j u pts ≠ [] →
    float_lt (wl pts j u) v = false.
  Proof using Hperm.
    intros Hap Hset Hi (s & vs & Hp & Hlad & Hcov & Hall) -> Hlo Hhi.
    pose proof (apart_numbers w i pts Hap Hi) as Hn.
    destruct (fnan u) eqn:Nu.
    { destruct Hlo. apply low_nil. intros p Hpp. unfold below. destruct (p.1 !! i); [|done].
      apply lt_false. congruence. }
    assert (∃ k x y, vs !! k = Some x ∧ vs !! S k = Some y ∧ float_lt x u = true ∧ float_lt y u = false)
      as (k & x & y & Hx & Hy & Hxu & Hyu).
    { destruct Hlad as (H1 & H2 & H3 & H4). apply neighbours; [done|done|done| |].
      - destruct (low i u pts) as [|p l] eqn:E; [done|].
        assert (p ∈ low i u pts) as Hin by (rewrite E; left). apply low_in in Hin as [Hb Hin].
        destruct (Hn p Hin) as (z & Hz & Nz). unfold below in Hb. rewrite Hz in Hb.
        destruct (Hcov p z Hin Hz) as (z' & Hz' & Hk). exists z'. split; [done|].
        apply lt_spec in Hb as (_ & _ & Hb). apply lt_spec. split; [|split; [done|lia]].
        by apply (proj1 (Forall_forall _ _) H2).
      - destruct (high i u pts) as [|p l] eqn:E; [done|].
        assert (p ∈ high i u pts) as Hin by (rewrite E; left). apply high_in in Hin as [Hb Hin].
        destruct (Hn p Hin) as (z & Hz & Nz). unfold below in Hb. rewrite Hz in Hb.
        destruct (Hcov p z Hin Hz) as (z' & Hz' & Hk). exists z'. split; [done|].
        pose proof (proj1 (lt_false _ _) Hb Nz Nu). apply lt_false. lia. }
    assert (float_lt x y = true) as Hxy.
    { apply lt_spec. destruct Hlad as (H1 & H2 & _).
      split; [by apply (proj1 (Forall_forall _ _) H2); eapply elem_of_list_lookup_2|].
      split; [by apply (proj1 (Forall_forall _ _) H2); eapply elem_of_list_lookup_2|].
      apply (ascending_lookup vs k (S k) x y); [done|lia|done|done]. }
    destruct Hlad as (Hasc & Nvs & Hin & Hmid).
    destruct (Hmid x y) as [Hm1 Hm2]; [by eapply elem_of_list_lookup_2..|done|].
    pose proof (proj1 (lt_spec _ _) Hm1) as (Nx & Nm & Hk1).
    pose proof (proj1 (lt_spec _ _) Hxy) as (_ & Ny & Hk2).
    pose proof (proj1 (lt_false _ _) Hm2 Ny Nm) as Hk3.
    pose proof (proj1 (lt_spec _ _) Hxu) as (_ & _ & Hk4).
    pose proof (proj1 (lt_false _ _) Hyu Ny Nu) as Hk5.
    assert (∀ p, p ∈ pts → below i u p.1 = below i (middle x y) p.1) as Hext.
    { intros p Hpp. destruct (Hn p Hpp) as (z & Hz & Nz). unfold below. rewrite Hz.
      destruct (Hcov p z Hpp Hz) as (z' & Hz' & Hkz). apply elem_of_list_lookup in Hz' as [m Hm].
      destruct (le_lt_dec m k) as [Hmk|Hmk].
      - assert (fkey z' <= fkey x)%Z.
        { destruct (decide (m = k)) as [->|]; [|].
          - rewrite Hx in Hm. injection Hm as <-. lia.
          - assert (fkey z' < fkey x)%Z by (eapply (ascending_lookup vs m k); eauto; lia). lia. }
        transitivity true; [apply lt_spec|symmetry; apply lt_spec]; (split; [done|split; [done|lia]]).
      - assert (fkey y <= fkey z')%Z.
        { destruct (decide (m = S k)) as [->|]; [|].
          - rewrite Hy in Hm. injection Hm as <-. lia.
          - assert (fkey y < fkey z')%Z by (eapply (ascending_lookup vs (S k) m); eauto; lia). lia. }
        transitivity false; [apply lt_false|symmetry; apply lt_false]; lia. }
    assert (wl pts i u = wl pts i (middle x y)) as ->.
    { unfold split_impurity. by rewrite (low_ext i u (middle x y)), (high_ext i u (middle x y)). }
    rewrite <- (wl_perm s pts i (middle x y) Hp). apply (Hall k); [done..|].
    unfold validate. apply forallb_forall. intros [i' u'] Hiu. apply elem_of_list_In in Hiu. cbn [fst snd].
    apply negb_true_iff, andb_false_iff. destruct (decide (i' = i)) as [->|]; [right|left; lia].
    apply not_true_iff_false. rewrite eq_spec. intros (Nu' & _ & Hk6).
    destruct (Hin x) as (p & Hp1 & Hpx); [by eapply elem_of_list_lookup_2|].
    destruct (Hin y) as (q & Hq1 & Hqy); [by eapply elem_of_list_lookup_2|].
    rewrite Hp in Hp1, Hq1.
    destruct (Hset i u' Hiu) as [Hs|Hs].
    - specialize (Hs q Hq1). unfold below in Hs. rewrite Hqy in Hs. apply lt_spec in Hs. lia.
    - specialize (Hs p Hp1). unfold below in Hs. rewrite Hpx in Hs. rewrite lt_false in Hs.
      specialize (Hs Nx Nu'). lia.
  Qed.

  Lemma low_width w j u (pts : list point) : apart w pts → low j u pts ≠ [] → j < w.
  Proof using Type.
    intros Hap Hlo. destruct (low j u pts) as [|p l] eqn:E; [done|].
    assert (p ∈ low j u pts) as Hin by (rewrite E; left). apply low_in in Hin as [Hb Hin].
    unfold below in Hb. destruct (p.1 !! j) as [z|] eqn:Hz; [|done].
    rewrite <- (proj1 Hap p Hin). by eapply lookup_lt_Some.
  Qed.

  Lemma best_everywhere_perm t : ∀ s s', s ≡ₚ s' → best_everywhere imp t s → best_everywhere imp t s'.
  Proof using Hperm.
    induction t as [l r u i ll rl n IHl IHr] using cnode_ind'.
    intros s s' Hp. cbn [best_everywhere]. intros ((H1 & H2 & H3) & Hb & Hl & Hr).
    pose proof (low_perm i u s s' Hp) as Hlp. pose proof (high_perm i u s s' Hp) as Hhp.
    split; [|split; [|split]].
    - split; [|split].
      + intros He. rewrite He in Hlp. symmetry in Hlp. by apply Permutation_nil in Hlp.
      + intros He. rewrite He in Hhp. symmetry in Hhp. by apply Permutation_nil in Hhp.
      + rewrite <- (wl_perm s s' i u Hp). by rewrite <- (Hperm (map snd s) (map snd s')) by (by apply Permutation_map).
    - intros j v Hlo Hhi. rewrite <- (wl_perm s s' j v Hp), <- (wl_perm s s' i u Hp). apply Hb.
      + intros He. apply Hlo. pose proof (low_perm j v s s' Hp) as H. rewrite He in H. by apply Permutation_nil in H.
      + intros He. apply Hhi. pose proof (high_perm j v s s' Hp) as H. rewrite He in H. by apply Permutation_nil in H.
    - destruct l as [l|]; [|done]. by apply (IHl l eq_refl (low i u s)).
    - destruct r as [r|]; [|done]. by apply (IHr r eq_refl (high i u s)).
  Qed.

  Lemma grow_best w fuel tried pts md depth t :
    apart w pts → pts ≠ [] → numeric pts → settled tried pts →
    grow fuel tried pts md depth = Ok t → cn_needed t = true → best_everywhere imp t pts.
  Proof using Hfs Hord Hloss Hperm.
    revert tried pts depth t. induction fuel as [|fuel IH]; intros tried pts depth t Hap Hne Hnum Hset Ht Hneed; [done|].
    destruct (best_split_inv w _ _ _ _ _ _ Hap Hne Hnum Ht) as
      [[_ ->]|(_ & _ & [[-> _]|(s & i & u & l & r & Hp & Hi & Nu & Hlo & Hhi & Huse & -> & Hun & Hl & Hr)])];
      [done|done|]. cbn [pred] in Hl, Hr.
    apply (best_everywhere_perm _ s pts Hp). cbn [best_everywhere].
    assert (settled tried s) as Hsets.
    { intros j v Hjv. destruct (Hset j v Hjv) as [H|H]; [left|right]; intros p Hpp; apply H; by rewrite <- Hp. }
    assert (apart w s) as Haps by (eapply apart_sub; [done|]; intros p Hpp; by rewrite <- Hp).
    split; [|split; [|split]].
    - split; [done|]. split; [done|]. by rewrite (Hperm (map snd s) (map snd pts)) by (by apply Permutation_map).
    - intros j v Hlo' Hhi'. rewrite (wl_perm s pts j v Hp).
      assert (j < w) as Hj by (by eapply low_width).
      apply (unbeaten_all w tried pts j _ j v); [done|done|done|by apply Hun|done| |].
      + intros He. apply Hlo'. pose proof (low_perm j v s pts Hp) as H. rewrite He in H. symmetry in H. by apply Permutation_nil in H.
      + intros He. apply Hhi'. pose proof (high_perm j v s pts Hp) as H. rewrite He in H. symmetry in H. by apply Permutation_nil in H.
    - destruct Hl as [->|(tl & -> & Hn & Hg)]; [done|].
      apply (IH (tried ++ [(i, u)]) (low i u s) (depth + 1)%Z tl); [|done| | |done|done].
      + eapply apart_sub; [done|]. intros p Hpp. eapply sub_perm; eauto.
      + eapply numeric_sub; [done| |by apply low_length]. intros p Hpp. eapply sub_perm; eauto.
      + intros j v Hjv. apply elem_of_app in Hjv as [Hjv|Hjv].
        * destruct (Hsets j v Hjv) as [H|H]; [left|right]; intros p Hpp; apply H; by apply low_in in Hpp as [_ Hpp].
        * apply elem_of_list_singleton in Hjv. injection Hjv as -> ->. left. intros p Hpp. by apply low_in in Hpp as [Hpp _].
    - destruct Hr as [->|(tr & tried' & -> & Hn & Htr & Hg)]; [done|].
      apply (IH tried' (high i u s) (depth + 1)%Z tr); [|done| | |done|done].
      + eapply apart_sub; [done|]. intros p Hpp. eapply sub_perm; eauto.
      + eapply numeric_sub; [done| |by apply high_length]. intros p Hpp. eapply sub_perm; eauto.
      + intros j v Hjv. destruct (Htr _ Hjv) as [Hjv'|Hjv'].
        * destruct (Hsets j v Hjv') as [H|H]; [left|right]; intros p Hpp; apply H; by apply high_in in Hpp as [_ Hpp].
        * injection Hjv' as -> ->. right. intros p Hpp. by apply high_in in Hpp as [Hpp _].
  Qed.

  (** A root without a split. *)
  Lemma root_split w fuel pts md t : apart w pts → pts ≠ [] → numeric pts →
    (md = -1 ∨ 1 <= md)%Z → grow fuel [] pts md 0 = Ok t →
    (cn_needed t = true ↔ ∃ i u, useful imp pts i u).
  Proof using Hfs Hord Hloss Hperm.
    intros Hap Hne Hnum Hmd Ht. split.
    - intros Hneed. pose proof (grow_best w fuel [] pts md 0 t Hap Hne Hnum) as Hb.
      destruct t as [l r u i ll rl n]. exists i, u.
      destruct Hb as [Hb _]; [|done..]. intros j v Hjv. by apply elem_of_nil in Hjv.
    - intros (i & u & H1 & H2 & H3).
      destruct (best_split_inv w _ _ _ _ _ _ Hap Hne Hnum Ht) as
        [[? ->]|(_ & _ & [[-> Hun]|(s & i' & u' & l & r & _ & _ & _ & _ & _ & _ & -> & _)])];
        [lia| |done].
      assert (i < w) as Hi by (by eapply low_width).
      exfalso. rewrite (unbeaten_all w [] pts i _ i u) in H3; [done|done| |done|by apply Hun|done|done|done].
      intros j v Hjv. by apply elem_of_nil in Hjv.
  Qed.

  Lemma root_none w fuel pts md t : apart w pts → pts ≠ [] → numeric pts →
    (md = -1 ∨ 1 <= md)%Z → grow fuel [] pts md 0 = Ok t → cn_needed t = false →
    t = CNode None None float_zero 0 (lab (map snd pts)) lzero false.
  Proof using Hfs Hord Hloss.
    intros Hap Hne Hnum Hmd Ht Hneed.
    destruct (best_split_inv w _ _ _ _ _ _ Hap Hne Hnum Ht) as
      [[? ->]|(_ & _ & [[-> Hun]|(s & i' & u' & l & r & _ & _ & _ & _ & _ & _ & -> & _)])]; [lia|done|done].
  Qed.
End grow.
