(** Proofs about CART trees. *)
From Verif Require Import Prelude FloatModel FloatOrder AttrModel StoreModel DenseModel GridModel GridSpec
  FilterModel KnnModel Id3Model RuleModel RuleProofs CartModel CartSpec.
From Flocq Require Import IEEE754.BinarySingleNaN IEEE754.Bits IEEE754.Binary.
Local Open Scope nat_scope.

(** ** Sides of a threshold *)

Section sides.
  Context {L : Type}.
  Notation point := (sample * L)%type.

  Definition asc (i : nat) (s : list point) : Prop :=
    StronglySorted (λ p q : point, ∀ x y, p.1 !! i = Some x → q.1 !! i = Some y → float_lt y x = false) s.
  Definition numbers (i : nat) (s : list point) : Prop :=
    ∀ p, p ∈ s → ∃ x, p.1 !! i = Some x ∧ fnan x = false.

  Lemma low_nil i t (s : list point) : low i t s = [] ↔ ∀ p, p ∈ s → below i t p.1 = false.
  Proof.
    unfold low. split.
    - intros H p Hp. apply not_true_iff_false. intros Hb.
      assert (p ∈ filter (λ p : point, below i t p.1 = true) s) as Hin by (by apply elem_of_list_filter).
      rewrite H in Hin. by apply elem_of_nil in Hin.
    - intros H. induction s as [|p s IH]; [done|]. rewrite filter_cons_False.
      + apply IH. intros q Hq. apply H. by right.
      + rewrite H by left. done.
  Qed.

  Lemma high_nil i t (s : list point) : high i t s = [] ↔ ∀ p, p ∈ s → below i t p.1 = true.
  Proof.
    unfold high. split.
    - intros H p Hp. apply not_false_iff_true. intros Hb.
      assert (p ∈ filter (λ p : point, below i t p.1 = false) s) as Hin by (by apply elem_of_list_filter).
      rewrite H in Hin. by apply elem_of_nil in Hin.
    - intros H. induction s as [|p s IH]; [done|]. rewrite filter_cons_False.
      + apply IH. intros q Hq. apply H. by right.
      + rewrite H by left. done.
  Qed.

  Lemma low_in i t (s : list point) p : p ∈ low i t s ↔ below i t p.1 = true ∧ p ∈ s.
  Proof. unfold low. by rewrite elem_of_list_filter. Qed.
  Lemma high_in i t (s : list point) p : p ∈ high i t s ↔ below i t p.1 = false ∧ p ∈ s.
  Proof. unfold high. by rewrite elem_of_list_filter. Qed.

  Lemma low_nonempty i t (s : list point) p : p ∈ s → below i t p.1 = true → low i t s ≠ [].
  Proof. intros Hp Hb He. apply low_nil with (p := p) in He; [|done]. congruence. Qed.
  Lemma high_nonempty i t (s : list point) p : p ∈ s → below i t p.1 = false → high i t s ≠ [].
  Proof. intros Hp Hb He. apply high_nil with (p := p) in He; [|done]. congruence. Qed.

  Lemma low_perm i t (s s' : list point) : s ≡ₚ s' → low i t s ≡ₚ low i t s'.
  Proof. intros H. unfold low. by rewrite H. Qed.
  Lemma high_perm i t (s s' : list point) : s ≡ₚ s' → high i t s ≡ₚ high i t s'.
  Proof. intros H. unfold high. by rewrite H. Qed.

  Lemma low_high_perm i t (s : list point) : low i t s ++ high i t s ≡ₚ s.
  Proof.
    induction s as [|p s IH]; [done|]. unfold low, high.
    destruct (below i t p.1) eqn:E.
    - rewrite filter_cons_True by done. rewrite filter_cons_False by congruence.
      cbn. by constructor.
    - rewrite filter_cons_False by congruence. rewrite filter_cons_True by done.
      rewrite <- Permutation_middle. by constructor.
  Qed.

  Lemma low_high_length i t (s : list point) : length (low i t s) + length (high i t s) = length s.
  Proof. rewrite <- app_length. apply Permutation_length, low_high_perm. Qed.

  Lemma low_ext i t u (s : list point) : (∀ p, p ∈ s → below i t p.1 = below i u p.1) →
    low i t s = low i u s.
  Proof.
    intros H. unfold low. induction s as [|p s IH]; [done|]. rewrite !filter_cons.
    rewrite (H p) by left. rewrite IH; [done|]. intros q Hq. apply H. by right.
  Qed.
  Lemma high_ext i t u (s : list point) : (∀ p, p ∈ s → below i t p.1 = below i u p.1) →
    high i t s = high i u s.
  Proof.
    intros H. unfold high. induction s as [|p s IH]; [done|]. rewrite !filter_cons.
    rewrite (H p) by left. rewrite IH; [done|]. intros q Hq. apply H. by right.
  Qed.

  Lemma asc_tail i (p : point) s : asc i (p :: s) → asc i s.
  Proof. intros H. by apply StronglySorted_inv in H as [H _]. Qed.

  (** Above a sample that is not below the threshold nothing is. *)
  Lemma asc_high i t (p : point) s : asc i (p :: s) → numbers i (p :: s) → below i t p.1 = false →
    low i t (p :: s) = [] ∧ high i t (p :: s) = p :: s.
  Proof.
    intros Ha Hn Hp.
    assert (∀ q, q ∈ p :: s → below i t q.1 = false) as Hall.
    { intros q Hq. apply elem_of_cons in Hq as [->|Hq]; [done|].
      destruct (Hn p) as (x & Hx & Nx); [left|]. destruct (Hn q) as (y & Hy & Ny); [by right|].
      apply StronglySorted_inv in Ha as [_ Ha].
      assert (float_lt y x = false) as Hyx by (by eapply (proj1 (Forall_forall _ _) Ha)).
      unfold below in Hp |- *. rewrite Hx in Hp. rewrite Hy.
      apply lt_false. intros Ny' Nt. rewrite lt_false in Hp. rewrite lt_false in Hyx.
      specialize (Hp Nx Nt). specialize (Hyx Ny Nx). lia. }
    split; [by apply low_nil|]. unfold high. revert Hall.
    generalize (p :: s). intros l Hall. clear -Hall. induction l as [|q l IH]; [done|].
    rewrite filter_cons_True by (apply Hall; left). f_equal. apply IH. intros r Hr. apply Hall. by right.
  Qed.

  Lemma create_split_spec i t (s : list point) : numbers i s →
    create_split s i t = Ok (low i t s, high i t s).
  Proof.
    induction s as [|p s IH]; intros Hn; [done|]. cbn [create_split].
    destruct (Hn p) as (x & Hx & _); [left|]. unfold idx. rewrite Hx. cbn [mbind res_bind].
    rewrite IH by (intros q Hq; apply Hn; by right). cbn [mbind res_bind fst snd].
    assert (below i t p.1 = float_lt x t) as Hb by (unfold below; by rewrite Hx).
    unfold low, high. destruct (float_lt x t); cbn [fst snd].
    - rewrite filter_cons_True by done. by rewrite filter_cons_False by congruence.
    - rewrite filter_cons_False by congruence. by rewrite filter_cons_True by done.
  Qed.

  Lemma update_split_spec i t (s l : list point) : asc i s → numbers i s → high i t s ≠ [] →
    update_split l s i t = Ok (l ++ low i t s, high i t s).
  Proof.
    revert l. induction s as [|p s IH]; intros l Ha Hn Hh; [done|]. cbn [update_split].
    destruct (Hn p) as (x & Hx & Nx); [left|]. unfold idx. rewrite Hx. cbn [mbind res_bind].
    assert (below i t p.1 = float_lt x t) as Hb by (unfold below; by rewrite Hx).
    destruct (float_lt x t).
    - unfold low, high in *. rewrite filter_cons_True by done.
      rewrite filter_cons_False in Hh by congruence. rewrite filter_cons_False by congruence.
      rewrite IH; [|by eapply asc_tail|intros q Hq; apply Hn; by right|done].
      by rewrite <- app_assoc.
    - destruct (asc_high i t p s) as [H1 H2]; [done..|]. rewrite H1, H2. by rewrite app_nil_r.
  Qed.

  Lemma asc_split i t (s : list point) : asc i s → numbers i s → low i t s ++ high i t s = s.
  Proof.
    induction s as [|p s IH]; intros Ha Hn; [done|].
    destruct (below i t p.1) eqn:E.
    - unfold low, high. rewrite filter_cons_True by done. rewrite filter_cons_False by congruence.
      cbn. f_equal. apply IH; [by eapply asc_tail|]. intros q Hq. apply Hn. by right.
    - destruct (asc_high i t p s) as [H1 H2]; [done..|]. by rewrite H1, H2.
  Qed.

  Lemma low_step i t u (s : list point) : asc i s → numbers i s →
    (∀ p, p ∈ s → below i t p.1 = true → below i u p.1 = true) →
    low i t s ++ low i u (high i t s) = low i u s ∧ high i u (high i t s) = high i u s.
  Proof.
    intros Ha Hn Hm.
    assert (low i u (low i t s) = low i t s) as H1.
    { unfold low at 1. clear -Hm. induction s as [|p s IH]; [done|]. unfold low. rewrite filter_cons.
      case_decide as Hd.
      - rewrite filter_cons_True by (apply Hm; [left|done]). f_equal. apply IH.
        intros q Hq. apply Hm. by right.
      - apply IH. intros q Hq. apply Hm. by right. }
    assert (high i u (low i t s) = []) as H2.
    { apply high_nil. intros p [Hb Hp]%low_in. by apply Hm. }
    assert (∀ b s1 s2, filter (λ p : point, below i u p.1 = b) (s1 ++ s2) =
      filter (λ p, below i u p.1 = b) s1 ++ filter (λ p, below i u p.1 = b) s2) as Happ
      by (intros; apply filter_app).
    pose proof (asc_split i t s Ha Hn) as Hs. split.
    - rewrite <- Hs at 3. unfold low at 3. rewrite Happ. fold (low i u (low i t s)).
      by rewrite H1.
    - rewrite <- Hs at 2. unfold high at 3. rewrite Happ. fold (high i u (low i t s)).
      by rewrite H2.
  Qed.

  Lemma high_asc i t (s : list point) : asc i s → asc i (high i t s).
  Proof.
    unfold high, asc. induction 1 as [|p s Hs IH Hp]; [constructor|]. rewrite filter_cons.
    case_decide; [|done]. constructor; [done|]. apply Forall_forall. intros q Hq.
    apply elem_of_list_filter in Hq as [_ Hq]. by apply (proj1 (Forall_forall _ _) Hp).
  Qed.
End sides.

(** ** Values of a feature *)

Lemma find_unique_from l u :
  let r := foldl (λ u x, if existsb (λ y, float_eq y x) u then u else u ++ [x]) u l in
  Forall (λ x, fnan x = false) (u ++ l) →
  NoDup (map fkey u) →
  NoDup (map fkey r) ∧ (∀ x, x ∈ r → x ∈ u ∨ x ∈ l) ∧
  (∀ x, x ∈ u ∨ x ∈ l → ∃ y, y ∈ r ∧ fkey y = fkey x).
Proof.
  revert u. induction l as [|x l IH]; intros u r Hn Hu; subst r; cbn [foldl].
  - split; [done|]. split; [by left|]. intros x [Hx|Hx]; [by exists x|by apply elem_of_nil in Hx].
  - rewrite Forall_app, Forall_cons in Hn. destruct Hn as (Nu & Nx & Nl).
    destruct (existsb (λ y, float_eq y x) u) eqn:E.
    + apply existsb_exists in E as (y & Hy & Hyx). apply elem_of_list_In in Hy.
      apply eq_spec in Hyx as (_ & _ & Hyx).
      destruct (IH u) as (H1 & H2 & H3); [rewrite Forall_app; done|done|].
      split; [done|]. split.
      * intros z Hz. destruct (H2 z Hz) as [?|?]; [by left|right; by right].
      * intros z [Hz|Hz]; [apply H3; by left|].
        apply elem_of_cons in Hz as [->|Hz]; [|apply H3; by right].
        destruct (H3 y) as (w & Hw & Hk); [by left|]. exists w. split; [done|congruence].
    + destruct (IH (u ++ [x])) as (H1 & H2 & H3).
      * rewrite <- app_assoc. rewrite Forall_app, Forall_app. split; [done|]. by split; [repeat constructor|].
      * rewrite map_app. cbn [map]. apply NoDup_app. split; [done|]. split; [|apply NoDup_singleton].
        intros k Hk Hx. apply elem_of_list_singleton in Hx as ->.
        apply elem_of_list_In, in_map_iff in Hk as (y & Hk & Hy). apply elem_of_list_In in Hy.
        assert (existsb (λ y, float_eq y x) u = true) as E'; [|congruence].
        apply existsb_exists. exists y. split; [by apply elem_of_list_In|].
        apply eq_spec. split; [|done]. by apply (proj1 (Forall_forall _ _) Nu).
      * split; [done|]. split.
        -- intros z Hz. destruct (H2 z Hz) as [Hz'|?]; [|right; by right].
           apply elem_of_app in Hz' as [?|Hz']; [by left|]. apply elem_of_list_singleton in Hz' as ->.
           right. left.
        -- intros z [Hz|Hz]; [apply H3; left; apply elem_of_app; by left|].
           apply elem_of_cons in Hz as [->|Hz]; [|apply H3; by right].
           apply H3. left. apply elem_of_app. right. left.
Qed.

Definition ascending (u : list binary64) : Prop := StronglySorted (λ x y, float_lt x y = true) u.

Lemma unique_ascending fsort l : sorts fsort → Forall (λ x, fnan x = false) l →
  ascending (fsort (find_unique l)) ∧ (∀ x, x ∈ fsort (find_unique l) → x ∈ l) ∧
  (∀ x, x ∈ l → ∃ y, y ∈ fsort (find_unique l) ∧ fkey y = fkey x).
Proof.
  intros Hs Hn. destruct (find_unique_from l []) as (H1 & H2 & H3); [done|constructor|].
  fold (find_unique l) in H1, H2, H3.
  assert (Forall (λ x, fnan x = false) (find_unique l)) as Nu.
  { apply Forall_forall. intros x Hx. destruct (H2 x Hx) as [Hx'|Hx']; [by apply elem_of_nil in Hx'|].
    by apply (proj1 (Forall_forall _ _) Hn). }
  destruct (Hs (find_unique l)) as [Hp Ha]. specialize (Ha Nu).
  assert (NoDup (map fkey (fsort (find_unique l)))) as Hd.
  { change (map fkey ?l) with (fkey <$> l). rewrite Hp. done. }
  split; [|split].
  - rewrite <- Hp in Nu. revert Ha Hd Nu. generalize (fsort (find_unique l)). clear.
    intros u Ha. induction Ha as [|x u Hu IH Hx]; intros Hd Nu; [constructor|].
    apply Forall_cons in Nu as [Nx Nu]. cbn [map] in Hd. apply NoDup_cons in Hd as [Hxd Hd].
    constructor; [by apply IH|]. apply Forall_forall. intros y Hy.
    pose proof (proj1 (Forall_forall _ _) Hx y Hy) as Hyx. cbn in Hyx.
    pose proof (proj1 (Forall_forall _ _) Nu y Hy) as Ny. cbn in Ny.
    rewrite lt_false in Hyx. specialize (Hyx Ny Nx). apply lt_spec. split; [done|]. split; [done|].
    assert (fkey x ≠ fkey y); [|lia]. intros He. apply Hxd. rewrite He.
    apply elem_of_list_In, in_map, elem_of_list_In, Hy.
  - intros x Hx. rewrite Hp in Hx. destruct (H2 x Hx) as [Hx'|Hx']; [by apply elem_of_nil in Hx'|done].
  - intros x Hx. destruct (H3 x) as (y & Hy & Hk); [by right|]. exists y. by rewrite Hp.
Qed.

(** A threshold between two of the values lies between two neighbours. *)
Lemma neighbours t u : ascending u → fnan t = false → Forall (λ x, fnan x = false) u →
  (∃ a, a ∈ u ∧ float_lt a t = true) → (∃ b, b ∈ u ∧ float_lt b t = false) →
  ∃ k x y, u !! k = Some x ∧ u !! S k = Some y ∧ float_lt x t = true ∧ float_lt y t = false.
Proof.
  intros Hu Nt. induction Hu as [|x u Hu IH Hx]; intros Nu (a & Ha & Hat) (b & Hb & Hbt);
    [by apply elem_of_nil in Ha|]. apply Forall_cons in Nu as [Nx Nu].
  destruct u as [|y u].
  { apply elem_of_list_singleton in Ha as ->. apply elem_of_list_singleton in Hb as ->. congruence. }
  assert (float_lt x t = true) as Hxt.
  { apply elem_of_cons in Ha as [->|Ha]; [done|].
    pose proof (proj1 (Forall_forall _ _) Hx a Ha) as Hxa. cbn in Hxa.
    apply lt_spec in Hxa as (_ & _ & ?). apply lt_spec in Hat as (_ & _ & ?).
    apply lt_spec. split; [done|]. split; [done|]. lia. }
  destruct (float_lt y t) eqn:Hyt.
  - destruct IH as (k & x' & y' & H1 & H2 & H3); [done| | |].
    + exists y. split; [left|done].
    + exists b. split; [|done]. apply elem_of_cons in Hb as [->|Hb]; [congruence|done].
    + by exists (S k), x', y'.
  - by exists 0, x, y.
Qed.

Lemma ascending_lookup u i j x y : ascending u → i < j → u !! i = Some x → u !! j = Some y →
  (fkey x < fkey y)%Z.
Proof.
  intros Hu. revert i j. induction Hu as [|z u Hu IH Hz]; intros i j Hij Hi Hj; [done|].
  destruct j as [|j]; [lia|]. destruct i as [|i].
  - cbn in Hi. injection Hi as ->. cbn in Hj. apply elem_of_list_lookup_2 in Hj.
    pose proof (proj1 (Forall_forall _ _) Hz y Hj) as H. cbn in H. apply lt_spec in H. tauto.
  - apply (IH i j); [lia|done|done].
Qed.
