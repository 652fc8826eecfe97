(** Lemmas about sorting. *)
From Verif Require Import Prelude BytesModel BytesProofs FloatModel AttrModel AttrSpec AttrProofs
  StoreModel StoreProofs DenseModel DenseSpec DenseProofs ShuffleModel SwapProofs
  GridModel GridSpec GridProofs SortModel SortSpec FloatProofs FloatOrder.
From Flocq Require Import IEEE754.Bits IEEE754.Binary.
Local Open Scope nat_scope.

(** ** Little-endian values *)

Lemma le_value_app a b :
  le_value (a ++ b) = (le_value a + 256 ^ N.of_nat (length a) * le_value b)%N.
Proof.
  induction a as [|x a IH]; cbn [app le_value length].
  - change (N.of_nat 0) with 0%N. rewrite N.pow_0_r. lia.
  - rewrite IH, Nat2N.inj_succ, N.pow_succ_r'. ring.
Qed.

Lemma le_value_bound a :
  Forall (λ b, (b < 256)%N) a → (le_value a < 256 ^ N.of_nat (length a))%N.
Proof.
  induction 1 as [|x a Hx Ha IH]; cbn [le_value length].
  - change (N.of_nat 0) with 0%N. rewrite N.pow_0_r. lia.
  - rewrite Nat2N.inj_succ, N.pow_succ_r'. lia.
Qed.

Lemma le_value_take_S v i b :
  v !! i = Some b →
  le_value (take (S i) v) = (le_value (take i v) + 256 ^ N.of_nat i * b)%N.
Proof.
  intros Hb. rewrite (take_S_r _ _ _ Hb), le_value_app.
  cbn [le_value]. rewrite take_length_le by (apply lookup_lt_Some in Hb; lia). lia.
Qed.

Lemma lex_step (P a1 a2 b1 b2 : N) :
  (a1 < P)%N → (a2 < P)%N →
  ((a1 + P * b1 < a2 + P * b2)%N ↔ (b1 < b2)%N ∨ (b1 = b2 ∧ (a1 < a2)%N)) ∧
  ((a1 + P * b1 = a2 + P * b2)%N ↔ b1 = b2 ∧ a1 = a2).
Proof.
  intros H1 H2. 
  assert ((b1 < b2)%N → (P * b1 + P ≤ P * b2)%N) as E1.
  { intros H. replace (P * b1 + P)%N with (P * (b1 + 1))%N by ring.
    apply N.mul_le_mono_l. lia. }
  assert ((b2 < b1)%N → (P * b2 + P ≤ P * b1)%N) as E2.
  { intros H. replace (P * b2 + P)%N with (P * (b2 + 1))%N by ring.
    apply N.mul_le_mono_l. lia. }
  destruct (N.lt_trichotomy b1 b2) as [H|[<-|H]]; [specialize (E1 H)| |specialize (E2 H)]; lia.
Qed.

(** ** Sorted lists *)

Lemma StronglySorted_app {A} (R : A → A → Prop) l1 l2 :
  StronglySorted R l1 → StronglySorted R l2 →
  (∀ x y, x ∈ l1 → y ∈ l2 → R x y) → StronglySorted R (l1 ++ l2).
Proof.
  induction 1 as [|x l1 Hs IH HF]; intros H2 H; simpl; [done|].
  constructor.
  - apply IH; [done|]. intros y z Hy Hz. apply H; [by right|done].
  - apply Forall_app. split; [done|]. apply Forall_forall. intros y Hy. apply H; [left|done].
Qed.

Lemma StronglySorted_concat {A} (R : A → A → Prop) (f : nat → list A) ks :
  StronglySorted lt ks →
  (∀ k, k ∈ ks → StronglySorted R (f k)) →
  (∀ k1 k2 x y, k1 < k2 → x ∈ f k1 → y ∈ f k2 → R x y) →
  StronglySorted R (concat (map f ks)).
Proof.
  induction 1 as [|k ks Hs IH HF]; intros H1 H2; simpl; [constructor|].
  apply StronglySorted_app.
  - apply H1. left.
  - apply IH; [|done]. intros k' Hk'. apply H1. by right.
  - intros x y Hx Hy. apply elem_of_list_In, in_concat in Hy as (l & Hl & Hy).
    apply elem_of_list_In in Hy. apply elem_of_list_In, elem_of_list_fmap in Hl as (k' & -> & Hk').
    eapply H2; [|done|done]. by eapply Forall_forall in HF.
Qed.

Lemma StronglySorted_impl_in {A} (R R' : A → A → Prop) l :
  StronglySorted R l → (∀ x y, x ∈ l → y ∈ l → R x y → R' x y) → StronglySorted R' l.
Proof.
  induction 1 as [|x l Hs IH HF]; intros H; [constructor|].
  constructor.
  - apply IH. intros y z Hy Hz. apply H; by right.
  - apply Forall_forall. intros y Hy. apply H; [left|by right|].
    by eapply Forall_forall in HF.
Qed.

Lemma StronglySorted_map {A B} (R : B → B → Prop) (f : A → B) l :
  StronglySorted R (map f l) ↔ StronglySorted (λ x y, R (f x) (f y)) l.
Proof.
  induction l as [|x l IH]; simpl; [split; constructor|].
  split; inversion_clear 1 as [|? ? Hs HF]; constructor.
  - by apply IH.
  - exact (proj1 (List.Forall_map _ _ _) HF).
  - by apply IH.
  - exact (proj2 (List.Forall_map _ _ _) HF).
Qed.

(** ** Radix passes *)

Lemma bin_rows_spec i l bins :
  length bins = 256 →
  (∀ p, p ∈ l → ∃ b, p.1 !! i = Some b ∧ (b < 256)%N) →
  ∃ bins', res_foldl (bin_row i) bins l = Ok bins' ∧ length bins' = 256 ∧
    ∀ k, k < 256 → bins' !! k =
      (λ old, old ++ filter (λ p, p.1 !! i = Some (N.of_nat k)) l) <$> bins !! k.
Proof.
  revert bins. induction l as [|p l IH]; intros bins Hlen Hl.
  - exists bins. split; [done|]. split; [done|]. intros k Hk.
    destruct (bins !! k) eqn:E; simpl; [|done]. by rewrite app_nil_r.
  - destruct (Hl p) as (b & Hb & Hb256); [left|].
    destruct (lookup_lt_is_Some_2 bins (N.to_nat b)) as [old Hold]; [lia|].
    assert (bin_row i bins p = Ok (<[N.to_nat b := old ++ [p]]> bins)) as Hstep.
    { unfold bin_row, idx. rewrite Hb. cbn [mbind res_bind]. by rewrite Hold. }
    destruct (IH (<[N.to_nat b := old ++ [p]]> bins)) as (bins' & Hrun & Hlen' & Hk').
    + by rewrite insert_length.
    + intros q Hq. apply Hl. by right.
    + exists bins'. cbn [res_foldl]. rewrite Hstep. split; [done|]. split; [done|].
      intros k Hk. rewrite (Hk' k Hk). destruct (decide (k = N.to_nat b)) as [->|Hne].
      * rewrite list_lookup_insert by lia. rewrite Hold. cbn [fmap option_fmap option_map].
        rewrite filter_cons_True by (by rewrite N2Nat.id). f_equal.
        by rewrite <- app_assoc.
      * rewrite list_lookup_insert_ne by done.
        rewrite filter_cons_False; [done|]. rewrite Hb. intros [= ->].
        apply Hne. by rewrite Nat2N.id.
Qed.

Lemma radix_pass_eq i l :
  (∀ p, p ∈ l → ∃ b, p.1 !! i = Some b ∧ (b < 256)%N) →
  radix_pass l i =
  Ok (concat (map (λ k, filter (λ p, p.1 !! i = Some (N.of_nat k)) l) (seq 0 256))).
Proof.
  intros Hl. unfold radix_pass.
  destruct (bin_rows_spec i l (replicate 256 []) (replicate_length _ _) Hl)
    as (bins & -> & Hlen & Hk).
  cbn [mbind res_bind]. do 2 f_equal. apply list_eq. intros k.
  destruct (decide (k < 256)) as [Hlt|Hge].
  - rewrite (Hk k Hlt), lookup_replicate_2 by done. rewrite list_lookup_fmap.
    rewrite lookup_seq_lt by done. done.
  - rewrite !lookup_ge_None_2; [done|rewrite map_length, seq_length|]; lia.
Qed.

Lemma concat_bins_perm {A} (f : A → option N) n (l : list A) :
  (∀ x, x ∈ l → ∃ b, f x = Some b ∧ N.to_nat b < n) →
  concat (map (λ k, filter (λ x, f x = Some (N.of_nat k)) l) (seq 0 n)) ≡ₚ l.
Proof.
  induction l as [|x l IH]; intros H.
  - induction (seq 0 n) as [|k ks IHk]; simpl; [done|]. by rewrite IHk.
  - destruct (H x) as (b & Hb & Hlt); [left|].
    assert (∀ ks, NoDup ks →
      concat (map (λ k, filter (λ x, f x = Some (N.of_nat k)) (x :: l)) ks) ≡ₚ
      (if decide (N.to_nat b ∈ ks) then [x] else []) ++
      concat (map (λ k, filter (λ x, f x = Some (N.of_nat k)) l) ks)) as Hks.
    { induction 1 as [|k ks Hk Hnd IHk]; [done|]. cbn [map concat]. rewrite IHk.
      destruct (decide (N.to_nat b = k)) as [<-|Hne].
      - rewrite filter_cons_True by (by rewrite N2Nat.id).
        rewrite decide_False by done. rewrite decide_True by left. done.
      - rewrite filter_cons_False.
        2:{ rewrite Hb. intros [= ->]. apply Hne. by rewrite Nat2N.id. }
        destruct (decide (N.to_nat b ∈ ks)).
        + rewrite decide_True by (by right). rewrite !app_assoc.
          apply Permutation_app_tail. apply Permutation_app_comm.
        + rewrite decide_False; [done|]. intros Hin. apply elem_of_cons in Hin as [?|?]; done. }
    rewrite Hks by apply NoDup_seq. rewrite decide_True by (apply elem_of_seq; lia).
    cbn [app]. apply perm_skip, IH. intros y Hy. apply H. by right.
Qed.

(** Sorted by the first [i] bytes of the key, ties by row number. *)
Definition radix_le (i : nat) (p q : list N * nat) : Prop :=
  (le_value (take i p.1) < le_value (take i q.1))%N ∨
  (le_value (take i p.1) = le_value (take i q.1) ∧ p.2 < q.2).

Definition keys_ok (L : nat) (l : list (list N * nat)) : Prop :=
  ∀ p, p ∈ l → length p.1 = L ∧ Forall (λ b, (b < 256)%N) p.1.

Lemma radix_pass_sorted L i l :
  keys_ok L l → i < L → StronglySorted (radix_le i) l →
  ∃ l', radix_pass l i = Ok l' ∧ l' ≡ₚ l ∧ StronglySorted (radix_le (S i)) l'.
Proof.
  intros Hk Hi Hs.
  assert (∀ p, p ∈ l → ∃ b, p.1 !! i = Some b ∧ (b < 256)%N) as Hb.
  { intros p Hp. destruct (Hk p Hp) as [Hlen HF].
    destruct (lookup_lt_is_Some_2 p.1 i) as [b Hb]; [lia|]. exists b. split; [done|].
    by eapply Forall_lookup_1 in HF. }
  eexists. split; [by apply radix_pass_eq|]. split.
  { apply (concat_bins_perm (λ p, p.1 !! i) 256). intros p Hp.
    destruct (Hb p Hp) as (b & ? & ?). exists b. split; [done|lia]. }
  assert (∀ p, p ∈ l → (le_value (take i p.1) < 256 ^ N.of_nat i)%N) as Hbound.
  { intros p Hp. destruct (Hk p Hp) as [Hlen HF].
    pose proof (le_value_bound (take i p.1) (Forall_take _ _ _ HF)) as H.
    rewrite take_length_le in H by lia. done. }
  apply StronglySorted_concat.
  - apply StronglySorted_seq.
  - intros k _. eapply StronglySorted_impl_in; [by apply StronglySorted_filter|].
    intros p q Hp Hq Hle. apply elem_of_list_filter in Hp as [Ep Hp].
    apply elem_of_list_filter in Hq as [Eq Hq]. unfold radix_le.
    rewrite (le_value_take_S _ _ _ Ep), (le_value_take_S _ _ _ Eq).
    destruct Hle as [Hle|[Hle ?]]; [left; lia|right; split; [lia|done]].
  - intros k1 k2 p q Hlt Hp Hq. apply elem_of_list_filter in Hp as [Ep Hp].
    apply elem_of_list_filter in Hq as [Eq Hq]. left.
    rewrite (le_value_take_S _ _ _ Ep), (le_value_take_S _ _ _ Eq).
    apply (proj1 (lex_step _ _ _ _ _ (Hbound p Hp) (Hbound q Hq))). left. lia.
Qed.

Lemma radix_passes_sorted L i l :
  keys_ok L l → i ≤ L → StronglySorted (radix_le 0) l →
  ∃ l', res_foldl radix_pass l (seq 0 i) = Ok l' ∧ l' ≡ₚ l ∧ StronglySorted (radix_le i) l'.
Proof.
  intros Hk Hi Hs. induction i as [|i IH].
  - exists l. done.
  - destruct IH as (l1 & H1 & Hp1 & Hs1); [lia|].
    destruct (radix_pass_sorted L i l1) as (l2 & H2 & Hp2 & Hs2); [|lia|done|].
    + intros p Hp. apply Hk. by rewrite <- Hp1.
    + exists l2. rewrite res_foldl_seq_S, H1. cbn [mbind res_bind].
      split; [done|]. split; [by rewrite Hp2|done].
Qed.

(** ** Keys *)

Lemma lxor_high x r : (x < 256)%N → N.lxor (x + 256 * r) 0x80 = (N.lxor x 0x80 + 256 * r)%N.
Proof.
  intros Hx.
  assert (∀ y, (y < 256)%N → (y + 256 * r)%N = N.lxor y (256 * r)) as Hadd.
  { intros y Hy. apply N.add_nocarry_lxor. apply N.bits_inj. intros m.
    rewrite N.land_spec, N.bits_0.
    destruct (N.lt_ge_cases m 8) as [Hm|Hm].
    - replace (256 * r)%N with (N.shiftl r 8) by (rewrite N.shiftl_mul_pow2; lia).
      rewrite N.shiftl_spec_low by done. apply andb_false_r.
    - destruct (N.eq_dec y 0) as [->|Hne]; [done|].
      rewrite N.bits_above_log2; [done|].
      apply N.lt_le_trans with 8%N; [|done]. apply N.log2_lt_pow2; lia. }
  assert (N.lxor x 0x80 < 256)%N as Hx'.
  { destruct (N.eq_dec (N.lxor x 0x80) 0) as [->|Hne]; [lia|].
    apply (N.log2_lt_pow2 _ 8); [lia|].
    eapply N.le_lt_trans; [apply N.log2_lxor|].
    change (N.log2 0x80) with 7%N.
    destruct (N.eq_dec x 0) as [->|Hx0]; [done|].
    assert (N.log2 x < 8)%N by (apply N.log2_lt_pow2; lia). lia. }
  rewrite !Hadd by done. rewrite (N.lxor_comm x), N.lxor_assoc, N.lxor_comm.
  rewrite (N.lxor_comm (N.lxor x 0x80)). done.
Qed.

(** The values of a row with the xor applied to the last one. *)
Fixpoint xor_last (vs : list (list N)) : list (list N) :=
  match vs with
  | [] => []
  | [v] => [match v with [] => [] | x :: b => N.lxor x 0x80 :: b end]
  | v :: vs => v :: xor_last vs
  end.

Lemma xor_last_snoc vs v :
  xor_last (vs ++ [v]) = vs ++ [match v with [] => [] | x :: b => N.lxor x 0x80 :: b end].
Proof.
  induction vs as [|w vs IH]; [done|]. simpl in *. rewrite IH. by destruct vs.
Qed.

Lemma flip_last_snoc l x : flip_last (l ++ [x]) = l ++ [N.lxor x 0x80].
Proof. induction l as [|w l IH]; [done|]. simpl in *. rewrite IH. by destruct l. Qed.

Lemma sort_row_bytes_rev vs :
  Forall (λ v, v ≠ []) vs → sort_row_bytes (rev vs) = Ok (concat (rev (xor_last vs))).
Proof.
  destruct vs as [|v vs _] using rev_ind; [done|]. intros H.
  rewrite xor_last_snoc, !rev_app_distr.
  apply Forall_app in H as [_ H]. rewrite Forall_singleton in H.
  destruct v as [|x v]; [done|]. reflexivity.
Qed.

Lemma xor_last_values vs :
  Forall (λ v, v ≠ [] ∧ Forall (λ b, (b < 256)%N) v) vs →
  map le_value (xor_last vs) = flip_last (map le_value vs).
Proof.
  destruct vs as [|v vs _] using rev_ind; [done|]. intros H.
  rewrite xor_last_snoc, !map_app. cbn [map]. rewrite flip_last_snoc. do 2 f_equal.
  apply Forall_app in H as [_ H]. rewrite Forall_singleton in H; destruct H as [Hne HF].
  destruct v as [|x v]; [done|]. cbn [le_value]. inversion HF; subst.
  by rewrite lxor_high.
Qed.

Lemma lxor_byte x : (x < 256)%N → (N.lxor x 0x80 < 256)%N.
Proof.
  intros Hx. destruct (N.eq_dec (N.lxor x 0x80) 0) as [->|Hne]; [lia|].
  apply (N.log2_lt_pow2 _ 8); [lia|].
  eapply N.le_lt_trans; [apply N.log2_lxor|].
  change (N.log2 0x80) with 7%N.
  destruct (N.eq_dec x 0) as [->|Hx0]; [done|].
  assert (N.log2 x < 8)%N by (apply N.log2_lt_pow2; lia). lia.
Qed.

Lemma xor_last_bytes vs :
  Forall (Forall (λ b, (b < 256)%N)) vs → Forall (Forall (λ b, (b < 256)%N)) (xor_last vs).
Proof.
  destruct vs as [|v vs _] using rev_ind; [done|]. intros H.
  rewrite xor_last_snoc. apply Forall_app in H as [H1 H2]. apply Forall_app. split; [done|].
  rewrite Forall_singleton in H2. apply Forall_singleton.
  destruct v as [|x v]; [done|]. inversion H2; subst. constructor; [by apply lxor_byte|done].
Qed.

Lemma xor_last_lengths vs : map length (xor_last vs) = map length vs.
Proof.
  destruct vs as [|v vs _] using rev_ind; [done|]. rewrite xor_last_snoc, !map_app.
  cbn [map]. by destruct v.
Qed.

Lemma concat_length_sum {A} (l : list (list A)) : length (concat l) = sum_list (map length l).
Proof. induction l as [|x l IH]; simpl; [done|]. rewrite app_length. lia. Qed.

Lemma map_rev_lengths {A} (l : list (list A)) : sum_list (map length (rev l)) = sum_list (map length l).
Proof. rewrite map_rev. apply sum_list_perm. symmetry. apply Permutation_rev. Qed.

Lemma le_value_concat_rev vs ws :
  map length vs = map length ws →
  Forall (Forall (λ b, (b < 256)%N)) vs → Forall (Forall (λ b, (b < 256)%N)) ws →
  ((le_value (concat (rev vs)) < le_value (concat (rev ws)))%N ↔
     lex_lt (map le_value vs) (map le_value ws)) ∧
  (le_value (concat (rev vs)) = le_value (concat (rev ws)) ↔
     map le_value vs = map le_value ws).
Proof.
  revert ws. induction vs as [|v vs IH]; intros [|w ws] Hlen Hv Hw; try done.
  injection Hlen as Hvw Hlen. inversion Hv; subst. inversion Hw; subst.
  destruct (IH ws) as [IH1 IH2]; [done..|].
  cbn [rev map]. rewrite !concat_app. cbn [concat]. rewrite !app_nil_r, !le_value_app.
  assert (length (concat (rev vs)) = length (concat (rev ws))) as Hl.
  { rewrite !concat_length_sum, !map_rev_lengths. by rewrite Hlen. }
  assert (∀ l, Forall (Forall (λ b, (b < 256)%N)) l → Forall (λ b, (b < 256)%N) (concat (rev l))) as HFc.
  { intros l HF. apply Forall_forall. intros b Hb.
    apply elem_of_list_In, in_concat in Hb as (x & Hx & Hb).
    apply in_rev in Hx. apply elem_of_list_In in Hx, Hb.
    eapply Forall_forall in HF; [|done]. by eapply Forall_forall in HF. }
  pose proof (le_value_bound _ (HFc vs ltac:(done))) as B1.
  pose proof (le_value_bound _ (HFc ws ltac:(done))) as B2.
  rewrite Hl in *.
  destruct (lex_step _ _ _ (le_value v) (le_value w) B1 B2) as [L1 L2]. split.
  - rewrite L1, IH1. done.
  - rewrite L2, IH2. split; [intros [-> ->]; done|]. intros [= ? ?]. done.
Qed.

(** ** Collecting the keys *)

Section collect.
  Variables (n L : nat) (vals : nat → list (list N)) (key : nat → list N).

  Lemma collect_keys rows st :
    (∀ r f, (r, f) ∈ rows → r < n ∧ f = Ok (vals r) ∧ sort_row_bytes (vals r) = Ok (key r) ∧
       length (key r) = L ∧ sum_list (map length (vals r)) = L) →
    ss_buf st = [] → (ss_rowsize st = 0 ∨ ss_rowsize st = L) →
    length (ss_ds st) = n → length (ss_rs st) = n →
    ∃ st', run_rows sort_cb st rows = Ok (st', false) ∧
      (rows ≠ [] → ss_rowsize st' = L) ∧ (rows = [] → st' = st) ∧
      length (ss_ds st') = n ∧ length (ss_rs st') = n ∧
      (∀ i, ss_ds st' !! i =
        if decide (i ∈ map fst rows) then Some (key i) else ss_ds st !! i) ∧
      (∀ i, ss_rs st' !! i =
        if decide (i ∈ map fst rows) then Some i else ss_rs st !! i).
  Proof.
    revert st. induction rows as [|[r f] rows IH]; intros st Hrows Hbuf Hsz Hds Hrs.
    - exists st. do 5 (split; [done|]). split; intros i; cbn [map];
        rewrite decide_False by apply not_elem_of_nil; done.
    - destruct (Hrows r f) as (Hr & -> & Hb & Hlen & Hsum); [left|].
      assert (sort_cb st (vals r) r = Ok (SortState L [] (<[r := key r]> (ss_ds st))
        (<[r := r]> (ss_rs st)), Cont)) as Hcb.
      { unfold sort_cb. rewrite Hb. cbn [mbind res_bind]. rewrite Hbuf, Hsum. cbn [app].
        assert ((if ss_rowsize st =? 0 then L else ss_rowsize st) = L) as ->.
        { destruct Hsz as [-> | ->]; [done|]. by destruct (L =? 0). }
        rewrite (proj2 (Nat.ltb_lt r (length (ss_ds st)))) by lia.
        rewrite take_ge, drop_ge by lia. rewrite Hlen, Nat.sub_diag. simpl.
        by rewrite app_nil_r. }
      cbn [run_rows]. cbn [mbind res_bind]. rewrite Hcb. cbn [mbind res_bind].
      destruct (IH (SortState L [] (<[r := key r]> (ss_ds st)) (<[r := r]> (ss_rs st))))
        as (st' & Hrun & Hne & He & Hd' & Hr' & HD & HR).
      + intros r' f' Hin. apply Hrows. by right.
      + done.
      + by right.
      + cbn. by rewrite insert_length.
      + cbn. by rewrite insert_length.
      + exists st'. split; [done|]. split.
        { intros _. destruct rows; [by rewrite (He eq_refl)|by apply Hne]. }
        split; [done|]. split; [done|]. split; [done|]. split; intros i.
        * rewrite HD. cbn [ss_ds map fst]. destruct (decide (i ∈ map fst rows)).
          -- rewrite decide_True by (by right). done.
          -- destruct (decide (i = r)) as [->|Hne'].
             ++ rewrite decide_True by left. rewrite list_lookup_insert by lia. done.
             ++ rewrite decide_False. { by rewrite list_lookup_insert_ne. }
                intros Hin. apply elem_of_cons in Hin as [?|?]; done.
        * rewrite HR. cbn [ss_rs map fst]. destruct (decide (i ∈ map fst rows)).
          -- rewrite decide_True by (by right). done.
          -- destruct (decide (i = r)) as [->|Hne'].
             ++ rewrite decide_True by left. rewrite list_lookup_insert by lia. done.
             ++ rewrite decide_False. { by rewrite list_lookup_insert_ne. }
                intros Hin. apply elem_of_cons in Hin as [?|?]; done.
  Qed.
End collect.

Lemma sort_order_spec g attrs :
  iter_agrees g → sort_columns_ok g attrs →
  ∃ rs, sort_order g attrs = Ok rs ∧ rs ≡ₚ seq 0 (gr_size g).2 ∧
    StronglySorted (row_before g attrs) rs.
Proof.
  intros Hit Hcols. unfold sort_order. set (n := (gr_size g).2) in *.
  (* the values of each row *)
  set (val := λ s i, match gr_get g s i with Ok v => v | _ => [] end).
  set (vals := λ i, map (λ s, val s i) attrs).
  assert (∀ s i, s ∈ attrs → i < n → gr_get g s i = Ok (val s i) ∧ val s i ≠ [] ∧
    Forall (λ b, (b < 256)%N) (val s i)) as Hval.
  { intros s i Hs Hi. destruct (Hcols s Hs) as (len & Hpos & Hv).
    destruct (Hv i Hi) as (v & Hg & Hl & HF). unfold val. rewrite Hg.
    split; [done|]. split; [|done]. intros ->. simpl in Hl. lia. }
  assert (∀ i, i < n → map length (vals i) = map length (vals 0)) as Hlens.
  { intros i Hi. unfold vals. rewrite !map_map. apply map_ext_in. intros s Hs.
    apply elem_of_list_In in Hs. destruct (Hcols s Hs) as (len & Hpos & Hv).
    destruct (Hv i Hi) as (v & Hg & Hl & HF). destruct (Hv 0 ltac:(lia)) as (v0 & Hg0 & Hl0 & _).
    unfold val. rewrite Hg, Hg0. congruence. }
  assert (∀ i, i < n → Forall (λ v, v ≠ [] ∧ Forall (λ b, (b < 256)%N) v) (vals i)) as Hok.
  { intros i Hi. unfold vals. apply Forall_fmap, Forall_forall. intros s Hs. by apply Hval. }
  assert (∀ i, i < n → Forall (Forall (λ b, (b < 256)%N)) (vals i)) as Hbytes.
  { intros i Hi. eapply Forall_impl; [by apply Hok|]. simpl. tauto. }
  set (key := λ i, concat (rev (xor_last (vals i)))).
  set (L := sum_list (map length (vals 0))).
  assert (∀ i, i < n → length (key i) = L) as HL.
  { intros i Hi. unfold key. rewrite concat_length_sum, map_rev_lengths, xor_last_lengths.
    by rewrite Hlens. }
  destruct (Hit (rev attrs)) as (rows & Hrows & Hperm & Hfetch).
  unfold map_over_rows. rewrite Hrows.
  assert (∀ r f, (r, f) ∈ rows → r < n) as Hlt.
  { intros r f Hin. assert (r ∈ map fst rows) as Hr by (apply elem_of_list_fmap; by exists (r, f)).
    rewrite Hperm in Hr. apply elem_of_seq in Hr. lia. }
  destruct (collect_keys n L (λ i, rev (vals i)) key rows
    (SortState 0 [] (replicate n []) (replicate n 0)))
    as (st & Hrun & Hsz & Hnil & Hdl & Hrl & HD & HR).
  { intros r f Hin. specialize (Hlt r f Hin). split; [done|]. split; [|split; [|split]].
    - rewrite (Hfetch r f Hin). unfold vals. rewrite <- map_rev. apply res_mapM_Ok.
      apply Forall2_fmap_r. apply Forall_Forall2_diag. apply Forall_forall.
      intros s Hs. apply Hval; [|done]. apply elem_of_list_In, in_rev, elem_of_list_In in Hs. done.
    - apply sort_row_bytes_rev. eapply Forall_impl; [by apply Hok|]. simpl. tauto.
    - by apply HL.
    - rewrite map_rev_lengths. by rewrite Hlens. }
  { done. } { by left. } { apply replicate_length. } { apply replicate_length. }
  rewrite Hrun. cbn [mbind res_bind fst].
  assert (∀ i, i < n → i ∈ map fst rows) as Hall.
  { intros i Hi. rewrite Hperm. apply elem_of_seq. unfold n in Hi. lia. }
  assert (zip (ss_ds st) (ss_rs st) = map (λ i, (key i, i)) (seq 0 n)) as Hzip.
  { apply list_eq. intros i. rewrite list_lookup_fmap.
    destruct (decide (i < n)) as [Hi|Hi].
    - rewrite lookup_seq_lt by done. cbn [fmap option_fmap option_map].
      apply lookup_zip_with_Some. exists (key i), i. split; [done|].
      rewrite HD, HR. rewrite !decide_True by (by apply Hall). done.
    - rewrite !lookup_ge_None_2; [done|rewrite seq_length; lia|].
      rewrite zip_with_length. lia. }
  assert (n = 0 ∨ ss_rowsize st = L) as HszL.
  { destruct (decide (n = 0)) as [|Hn]; [by left|]. right. apply Hsz. intros ->.
    specialize (Hall 0 ltac:(lia)). by apply not_elem_of_nil in Hall. }
  rewrite Hzip.
  assert (keys_ok L (map (λ i, (key i, i)) (seq 0 n))) as Hkeys.
  { intros p Hp. apply elem_of_list_fmap in Hp as (i & -> & Hi). apply elem_of_seq in Hi.
    cbn [fst]. split; [apply HL; lia|]. unfold key. apply Forall_forall. intros b Hb.
    apply elem_of_list_In, in_concat in Hb as (x & Hx & Hb).
    apply in_rev in Hx. apply elem_of_list_In in Hx, Hb.
    pose proof (xor_last_bytes _ (Hbytes i ltac:(lia))) as HF.
    eapply Forall_forall in HF; [|exact Hx]. by eapply Forall_forall in HF. }
  assert (StronglySorted (radix_le 0) (map (λ i, (key i, i)) (seq 0 n))) as Hs0.
  { apply StronglySorted_map. eapply StronglySorted_impl_in; [apply StronglySorted_seq|].
    intros i j _ _ Hij. right. by rewrite !take_0. }
  destruct HszL as [Hn0|HszL].
  { (* no rows *)
    rewrite Hn0. cbn [seq map]. exists [].
    assert (∀ l, res_foldl radix_pass [] l = Ok []) as Hemp.
    { intros l. induction l as [|x l IHl]; [done|]. cbn [res_foldl].
      change (radix_pass [] x) with (Ok (concat (replicate 256 (@nil (list N * nat))))).
      exact IHl. }
    rewrite Hemp. split; [done|]. split; [done|]. constructor. }
  rewrite HszL.
  destruct (radix_passes_sorted L L _ Hkeys (le_n L) Hs0) as (l & Hl & Hlp & Hls).
  rewrite Hl. cbn [mbind res_bind]. eexists. split; [done|].
  assert (map snd (map (λ i, (key i, i)) (seq 0 n)) = seq 0 n) as Hsnd.
  { rewrite map_map. apply map_id. }
  split; [rewrite <- Hsnd; by apply fmap_Permutation|].
  apply StronglySorted_map. eapply StronglySorted_impl_in; [exact Hls|].
  intros p q Hp Hq Hpq. rewrite Hlp in Hp, Hq.
  pose proof (Hkeys p Hp) as [Lp _]. pose proof (Hkeys q Hq) as [Lq _].
  apply elem_of_list_fmap in Hp as (i & -> & Hi), Hq as (j & -> & Hj).
  apply elem_of_seq in Hi, Hj. cbn [fst snd] in *.
  unfold radix_le in Hpq. cbn [fst snd] in Hpq. rewrite !take_ge in Hpq by lia.
  assert (∀ k, k < n → sort_tuple g attrs k = map le_value (xor_last (vals k))) as Htup.
  { intros k Hk. rewrite xor_last_values by (by apply Hok). unfold sort_tuple, raw_tuple.
    f_equal. unfold vals. rewrite map_map. apply map_ext. intros s. unfold val.
    by destruct (gr_get g s k). }
  unfold row_before. rewrite !Htup by lia.
  destruct (le_value_concat_rev (xor_last (vals i)) (xor_last (vals j))) as [E1 E2].
  - rewrite !xor_last_lengths. by rewrite (Hlens i), (Hlens j) by lia.
  - apply xor_last_bytes, Hbytes. lia.
  - apply xor_last_bytes, Hbytes. lia.
  - rewrite <- E1, <- E2. exact Hpq.
Qed.

(** ** Cycle decomposition *)

Section cycles.
  Variables (rs : list nat) (n : nat).
  Hypothesis Hperm : rs ≡ₚ seq 0 n.

  Definition nxt (p : nat) : nat := default 0 (rs !! p).

  Lemma rs_length : length rs = n.
  Proof. rewrite Hperm. apply seq_length. Qed.

  Lemma rs_lookup p : p < n → rs !! p = Some (nxt p).
  Proof.
    intros Hp. destruct (lookup_lt_is_Some_2 rs p) as [x Hx]; [by rewrite rs_length|].
    unfold nxt. by rewrite Hx.
  Qed.

  Lemma nxt_lt p : p < n → nxt p < n.
  Proof.
    intros Hp. pose proof (rs_lookup p Hp) as H. apply elem_of_list_lookup_2 in H.
    rewrite Hperm in H. apply elem_of_seq in H. lia.
  Qed.

  Lemma nxt_inj p q : p < n → q < n → nxt p = nxt q → p = q.
  Proof.
    intros Hp Hq Heq. pose proof (rs_lookup p Hp) as H1. pose proof (rs_lookup q Hq) as H2.
    assert (NoDup rs) as Hnd by (rewrite Hperm; apply NoDup_seq).
    rewrite Heq in H1. by eapply NoDup_lookup.
  Qed.

  Definition marked (done : list bool) (p : nat) : Prop := done !! p = Some true.

  (** Between two iterations of the outer loop: marked rows hold their final
      contents, the others their own. *)
  Record outer_inv (done : list bool) (sw : list (nat * nat)) : Prop := {
    oi_len : length done = n;
    oi_bound : ∀ i j, (i, j) ∈ sw → i < n ∧ j < n;
    oi_done : ∀ p, marked done p → swaps_fun sw p = nxt p;
    oi_todo : ∀ p, p < n → ¬ marked done p → swaps_fun sw p = p;
    oi_image : ∀ q, marked done q → ∃ p, marked done p ∧ nxt p = q
  }.

  (** Inside a cycle, with [j] about to be marked. *)
  Record inner_inv (index j : nat) (done : list bool) (sw : list (nat * nat)) : Prop := {
    ii_len : length done = n;
    ii_bound : ∀ i j, (i, j) ∈ sw → i < n ∧ j < n;
    ii_index : index < n;
    ii_j : j < n;
    ii_unmarked : ¬ marked done j;
    ii_done : ∀ p, marked done p → swaps_fun sw p = nxt p;
    ii_cur : swaps_fun sw j = index;
    ii_todo : ∀ p, p < n → p ≠ j → ¬ marked done p → swaps_fun sw p = p;
    ii_image : ∀ q, marked done q ∨ q = j → q ≠ index → ∃ p, marked done p ∧ nxt p = q;
    ii_start : marked done index ∨ index = j
  }.

  Lemma marked_lt done p : length done = n → marked done p → p < n.
  Proof. intros Hl H. apply lookup_lt_Some in H. lia. Qed.

  Lemma marked_insert done j p : j < length done →
    marked (<[j := true]> done) p ↔ marked done p ∨ p = j.
  Proof.
    intros Hj. unfold marked. destruct (decide (p = j)) as [->|Hne].
    - rewrite list_lookup_insert by done. naive_solver.
    - rewrite list_lookup_insert_ne by done. naive_solver.
  Qed.

  Definition unmarked_count (done : list bool) : nat := length (filter (λ b, b = false) done).

  Lemma unmarked_insert done j :
    j < length done → ¬ marked done j →
    unmarked_count done = S (unmarked_count (<[j := true]> done)).
  Proof.
    revert j. induction done as [|b done IH]; intros [|j] Hj Hm; simpl in *; try lia.
    - destruct b; [by destruct Hm|]. done.
    - unfold unmarked_count in *. specialize (IH j ltac:(lia) Hm).
      destruct b.
      + rewrite !filter_cons_False by done. done.
      + rewrite !filter_cons_True by done. simpl. lia.
  Qed.

  Lemma swaps_fun_snoc sw a b r :
    swaps_fun (sw ++ [(a, b)]) r = swaps_fun sw (swp a b r).
  Proof. unfold swaps_fun. by rewrite foldr_app. Qed.

  Lemma follow_cycle_spec fuel index j done sw :
    inner_inv index j done sw → unmarked_count done < fuel →
    ∃ done' sw', follow_cycle fuel rs index j done sw = Ok (done', sw') ∧
      outer_inv done' sw' ∧ (∀ p, marked done p → marked done' p) ∧ marked done' index.
  Proof.
    revert j done sw. induction fuel as [|fuel IH]; intros j done sw Hi Hf; [lia|].
    destruct Hi as [Hlen Hb Hidx Hj Hun Hd Hc Ht Him Hst].
    cbn [follow_cycle].
    destruct (lookup_lt_is_Some_2 done j) as [bj Hbj]; [lia|].
    assert (idx done j = Ok bj) as -> by by apply idx_Ok.
    cbn [mbind res_bind].
    assert (idx rs j = Ok (nxt j)) as -> by by apply idx_Ok, rs_lookup.
    cbn [mbind res_bind].
    pose proof (unmarked_insert done j ltac:(lia) Hun) as Hcount.
    assert (∀ p, marked (<[j := true]> done) p ↔ marked done p ∨ p = j) as Hmi.
    { intros p. apply marked_insert. lia. }
    destruct (nxt j =? index) eqn:E; simpl.
    - apply Nat.eqb_eq in E. eexists _, _. split; [done|]. split; [|split].
      + split.
        * by rewrite insert_length.
        * done.
        * intros p Hp. apply Hmi in Hp as [Hp| ->]; [by apply Hd|]. by rewrite Hc.
        * intros p Hp Hnm. rewrite Hmi in Hnm. apply Ht; [done|naive_solver..].
        * intros q Hq. apply Hmi in Hq. destruct (decide (q = index)) as [->|Hne].
          -- exists j. split; [apply Hmi; by right|done].
          -- destruct (Him q Hq Hne) as (p & Hp & Hpq). exists p. split; [|done].
             apply Hmi. by left.
      + intros p Hp. apply Hmi. by left.
      + apply Hmi. naive_solver.
    - apply Nat.eqb_neq in E.
      assert (¬ marked (<[j := true]> done) (nxt j)) as Hfresh.
      { intros Hm. apply Hmi in Hm.
        assert (∃ p, marked done p ∧ nxt p = nxt j) as (p & Hp & Hpq).
        { by apply Him. }
        assert (p = j) as ->; [|done].
        apply nxt_inj; [by eapply marked_lt|done|done]. }
      assert (nxt j ≠ j) as Hnj.
      { intros Heq. apply Hfresh, Hmi. by right. }
      destruct (IH (nxt j) (<[j := true]> done) (sw ++ [(j, nxt j)]))
        as (done' & sw' & Hrun & Ho & Hmono & Hix).
      + split.
        * by rewrite insert_length.
        * intros a b Hin. apply elem_of_app in Hin as [Hin|Hin]; [by apply Hb|].
          apply elem_of_list_singleton in Hin as [= -> ->]. split; [done|by apply nxt_lt].
        * done.
        * by apply nxt_lt.
        * done.
        * intros p Hp. rewrite swaps_fun_snoc. apply Hmi in Hp as [Hp| ->].
          -- assert (swp j (nxt j) p = p) as ->; [|by apply Hd].
             unfold swp. rewrite !decide_False; [done|intros ->; apply Hfresh, Hmi; by left|].
             intros ->. done.
          -- assert (swp j (nxt j) j = nxt j) as ->.
             { unfold swp. by rewrite decide_True. }
             apply Ht; [by apply nxt_lt|done|]. intros Hm. apply Hfresh, Hmi. by left.
        * rewrite swaps_fun_snoc.
          assert (swp j (nxt j) (nxt j) = j) as ->; [|done].
          unfold swp. rewrite decide_False by done. by rewrite decide_True.
        * intros p Hp Hne Hnm. rewrite swaps_fun_snoc. rewrite Hmi in Hnm.
          assert (swp j (nxt j) p = p) as ->; [|apply Ht; naive_solver].
          unfold swp. rewrite !decide_False; naive_solver.
        * intros q Hq Hqi. destruct Hq as [Hq| ->].
          -- apply Hmi in Hq. destruct (Him q Hq Hqi) as (p & Hp & Hpq).
             exists p. split; [apply Hmi; by left|done].
          -- exists j. split; [apply Hmi; by right|done].
        * left. apply Hmi. naive_solver.
      + lia.
      + exists done', sw'. split; [done|]. split; [done|]. split; [|done].
        intros p Hp. apply Hmono, Hmi. by left.
  Qed.

  Lemma unmarked_le done : unmarked_count done ≤ length done.
  Proof. apply filter_length. Qed.

  Lemma cycle_steps_spec l done sw :
    (∀ i, i ∈ l → i < n) → outer_inv done sw →
    ∃ done' sw', res_foldl (cycle_step rs) (done, sw) l = Ok (done', sw') ∧
      outer_inv done' sw' ∧ (∀ p, marked done p → marked done' p) ∧
      ∀ i, i ∈ l → marked done' i.
  Proof.
    revert done sw. induction l as [|i l IH]; intros done sw Hl Ho.
    - exists done, sw. split; [done|]. split; [done|]. split; [done|].
      intros i Hi. by apply not_elem_of_nil in Hi.
    - assert (i < n) as Hi by (apply Hl; left).
      assert (∃ done1 sw1, cycle_step rs (done, sw) i = Ok (done1, sw1) ∧
        outer_inv done1 sw1 ∧ (∀ p, marked done p → marked done1 p) ∧ marked done1 i)
        as (done1 & sw1 & Hstep & Ho1 & Hm1 & Hmi).
      { unfold cycle_step. destruct (lookup_lt_is_Some_2 done i) as [b Hb].
        { rewrite (oi_len _ _ Ho). done. }
        assert (idx done i = Ok b) as -> by by apply idx_Ok.
        cbn [mbind res_bind]. destruct b.
        - exists done, sw. done.
        - apply follow_cycle_spec.
          + assert (¬ marked done i) as Hun by (unfold marked; rewrite Hb; done).
            destruct Ho as [H1 H2 H3 H4 H5]. split; try done.
            * by apply H4.
            * intros p Hp _ Hnm. by apply H4.
            * intros q [Hq| ->] Hne; [by apply H5|done].
            * by right.
          + pose proof (unmarked_le done). rewrite (oi_len _ _ Ho) in *.
            rewrite rs_length. lia. }
      cbn [res_foldl]. rewrite Hstep. cbn [mbind res_bind].
      destruct (IH done1 sw1) as (done' & sw' & Hrun & Ho' & Hm' & Hall); [|done|].
      { intros k Hk. apply Hl. by right. }
      exists done', sw'. split; [done|]. split; [done|]. split; [naive_solver|].
      intros k Hk. apply elem_of_cons in Hk as [->|Hk]; [by apply Hm'|by apply Hall].
  Qed.

  Lemma cycle_swaps_spec :
    ∃ sw, cycle_swaps rs = Ok sw ∧ (∀ i j, (i, j) ∈ sw → i < n ∧ j < n) ∧
      ∀ p, p < n → rs !! p = Some (swaps_fun sw p).
  Proof.
    unfold cycle_swaps.
    destruct (cycle_steps_spec (seq 0 (length rs)) (replicate (length rs) false) [])
      as (done & sw & Hrun & Ho & _ & Hall).
    - intros i Hi. apply elem_of_seq in Hi. rewrite rs_length in Hi. lia.
    - assert (∀ p, ¬ marked (replicate (length rs) false) p) as Hno.
      { intros p Hp. unfold marked in Hp. apply lookup_replicate in Hp as [? _]. done. }
      split.
      + rewrite replicate_length. apply rs_length.
      + intros i j Hin. by apply not_elem_of_nil in Hin.
      + intros p Hp. by apply Hno in Hp.
      + done.
      + intros q Hq. by apply Hno in Hq.
    - rewrite Hrun. cbn [mbind res_bind]. exists sw. split; [done|].
      destruct Ho as [H1 H2 H3 H4 H5]. split; [done|].
      intros p Hp. rewrite (rs_lookup p Hp). f_equal. symmetry. apply H3, Hall.
      apply elem_of_seq. rewrite rs_length. lia.
  Qed.
End cycles.

(** ** Exchanging entries of an array *)

Lemma swap_entries_spec n arr a b (f : nat → nat) :
  length arr = n → a < n → b < n → (∀ p, p < n → arr !! p = Some (f p)) →
  ∃ arr', swap_entries arr (a, b) = Ok arr' ∧ length arr' = n ∧
    ∀ p, p < n → arr' !! p = Some (f (swp a b p)).
Proof.
  intros Hlen Ha Hb Hf. unfold swap_entries. simpl.
  assert (idx arr a = Ok (f a)) as -> by by apply idx_Ok, Hf.
  assert (idx arr b = Ok (f b)) as -> by by apply idx_Ok, Hf.
  cbn [mbind res_bind]. eexists. split; [done|]. split; [by rewrite !insert_length|].
  intros p Hp. unfold swp. destruct (decide (p = a)) as [->|Hpa].
  - destruct (decide (b = a)) as [->|Hne].
    + rewrite list_lookup_insert by (rewrite insert_length; lia). done.
    + rewrite list_lookup_insert_ne by done. rewrite list_lookup_insert by lia. done.
  - destruct (decide (p = b)) as [->|Hpb].
    + rewrite list_lookup_insert by (rewrite insert_length; lia). done.
    + rewrite !list_lookup_insert_ne by done. by apply Hf.
Qed.

Lemma swaps_fun_cons a b sw r : swaps_fun ((a, b) :: sw) r = swp a b (swaps_fun sw r).
Proof. done. Qed.

Lemma swaps_fun_app s1 s2 r : swaps_fun (s1 ++ s2) r = swaps_fun s1 (swaps_fun s2 r).
Proof. unfold swaps_fun. by rewrite foldr_app. Qed.

Lemma swap_array_spec n sw arr f :
  length arr = n → (∀ i j, (i, j) ∈ sw → i < n ∧ j < n) →
  (∀ p, p < n → arr !! p = Some (f p)) →
  ∃ arr', res_foldl swap_entries arr sw = Ok arr' ∧ length arr' = n ∧
    ∀ p, p < n → arr' !! p = Some (f (swaps_fun sw p)).
Proof.
  revert arr f. induction sw as [|[a b] sw IH]; intros arr f Hlen Hb Hf.
  - exists arr. done.
  - destruct (Hb a b) as [Ha Hb']; [left|].
    destruct (swap_entries_spec n arr a b f Hlen Ha Hb' Hf) as (arr1 & H1 & Hl1 & Hf1).
    cbn [res_foldl]. rewrite H1. cbn [mbind res_bind].
    destruct (IH arr1 (λ p, f (swp a b p)) Hl1) as (arr2 & H2 & Hl2 & Hf2); [|done|].
    { intros i j Hin. apply Hb. by right. }
    exists arr2. split; [done|]. split; [done|]. intros p Hp. by rewrite Hf2.
Qed.

Lemma sort_row_map_lookup arr i : sort_row_map arr !! i =
  match arr !! i with Some a => if i =? a then None else Some a | None => None end.
Proof.
  unfold sort_row_map.
  assert (∀ (l : list nat) k (m : gmap nat nat), (∀ j, k ≤ j → m !! j = None) →
    foldl (λ m p, if p.1 =? p.2 then m else <[p.1 := p.2]> m) m (imap (λ i a, (k + i, a)) l) !! i =
    if decide (i < k) then m !! i else
    match l !! (i - k) with Some a => if i =? a then None else Some a | None => None end) as H.
  { induction l as [|x l IH]; intros k m Hm.
    - simpl. destruct (decide (i < k)); [done|]. apply Hm. lia.
    - cbn [imap foldl]. simpl.
      assert (imap ((λ i0 a : nat, (k + i0, a)) ∘ S) l = imap (λ i a, (S k + i, a)) l) as ->.
      { apply imap_ext. intros j y _. simpl. f_equal. lia. }
      rewrite Nat.add_0_r. rewrite IH.
      + destruct (decide (i < k)) as [Hlt|Hge].
        * rewrite decide_True by lia. destruct (k =? x); [done|].
          by rewrite lookup_insert_ne by lia.
        * destruct (decide (i = k)) as [->|Hne].
          -- rewrite decide_True by lia. rewrite Nat.sub_diag. simpl.
             destruct (k =? x); [by apply Hm|]. by rewrite lookup_insert.
          -- rewrite decide_False by lia. replace (i - k) with (S (i - S k)) by lia. done.
      + intros j Hj. destruct (k =? x); [apply Hm; lia|].
        rewrite lookup_insert_ne by lia. apply Hm. lia. }
  specialize (H arr 0 ∅ (λ j _, lookup_empty j)). simpl in H. rewrite Nat.sub_0_r in H.
  exact H.
Qed.

(** ** Reversal *)

Lemma reverse_swaps_bound n i j : (i, j) ∈ reverse_swaps n → i < n ∧ j < n.
Proof.
  unfold reverse_swaps. intros Hin. apply elem_of_list_fmap in Hin as (k & [= -> ->] & Hk).
  apply elem_of_seq in Hk. pose proof (Nat.mul_div_le n 2). lia.
Qed.

Lemma reverse_swaps_fun n p : p < n → swaps_fun (reverse_swaps n) p = n - 1 - p.
Proof.
  intros Hp. unfold reverse_swaps.
  assert (∀ m, m ≤ n / 2 →
    swaps_fun (map (λ i, (i, n - 1 - i)) (seq 0 m)) p =
    if decide (p < m ∨ n - 1 - p < m) then n - 1 - p else p) as H.
  { pose proof (Nat.mul_div_le n 2) as Hdiv. induction m as [|m IH]; intros Hm.
    - rewrite decide_False by lia. done.
    - rewrite seq_S, map_app. cbn [map]. rewrite swaps_fun_snoc. cbn [Nat.add].
      unfold swp. destruct (decide (p = m)) as [->|H1].
      + rewrite (decide_True (P := m < S m ∨ _)) by lia.
        clear IH.
        assert (∀ q m', m' ≤ m → m ≤ q → q < n - m' → 
          swaps_fun (map (λ i, (i, n - 1 - i)) (seq 0 m')) q = q) as Hfix.
        { intros q m' Hm' Hq1 Hq2. induction m' as [|m' IH']; [done|].
          rewrite seq_S, map_app. cbn [map]. rewrite swaps_fun_snoc. cbn [Nat.add].
          unfold swp. rewrite !decide_False by lia. apply IH'; lia. }
        apply Hfix; lia.
      + destruct (decide (p = n - 1 - m)) as [->|H2].
        * rewrite decide_True by lia.
          assert (∀ q m', m' ≤ m → m ≤ q → q < n - m' → 
            swaps_fun (map (λ i, (i, n - 1 - i)) (seq 0 m')) q = q) as Hfix.
          { intros q m' Hm' Hq1 Hq2. induction m' as [|m' IH']; [done|].
            rewrite seq_S, map_app. cbn [map]. rewrite swaps_fun_snoc. cbn [Nat.add].
            unfold swp. rewrite !decide_False by lia. apply IH'; lia. }
          rewrite Hfix by lia. lia.
        * rewrite IH by lia. destruct (decide (p < m ∨ n - 1 - p < m)).
          -- rewrite decide_True by lia. done.
          -- rewrite decide_False by lia. done. }
  rewrite H by lia. destruct (decide (p < n / 2 ∨ n - 1 - p < n / 2)); [done|].
  pose proof (Nat.div_mod n 2). pose proof (Nat.mod_upper_bound n 2). lia.
Qed.

(** ** Sort and LazySort *)

Lemma dense_sort_columns pg h d order attrs :
  reachable pg h d →
  (∀ s, s ∈ attrs → ∃ g, column_of d s g ∧ 
     ∀ i v, i < d_maxrow d → dense_get d s i = Ok v → Forall (λ b, (b < 256)%N) v) →
  sort_columns_ok (dense_grid order d) attrs.
Proof.
  intros Hr Hcols s Hs. destruct (Hcols s Hs) as (g & Hg & Hbytes).
  assert (reach pg d) as Hre by (by exists h).
  exists (match g_kind g with GFixed size => size | GBits => 1 end). split.
  - destruct (g_kind g) as [size|] eqn:Ek; [|lia].
    destruct Hg as [Hg _]. pose proof (reach_kinds _ _ Hre) as Hk.
    eapply Forall_lookup_1 in Hk; [|exact Hg]. rewrite Ek in Hk. destruct size; [done|lia].
  - intros i Hi. destruct (dense_get_ok pg d s g i Hre Hg Hi) as (v & Hv & Hfit & Hst).
    exists v. split; [done|]. split; [|by eapply Hbytes].
    destruct (g_kind g) as [size|]; simpl in Hfit, Hst; [done|].
    destruct v as [|b v]; [done|]. rewrite <- Hst. by destruct (0 <? b)%N.
Qed.

Lemma swaps_fun_ext_bij n sw rs :
  rs ≡ₚ seq 0 n → (∀ p, p < n → rs !! p = Some (swaps_fun sw p)) →
  ∀ dir p, p < n →
    swaps_fun (sw ++ match dir with Ascending => [] | Descending => reverse_swaps n end) p =
    result_row dir n rs p.
Proof.
  intros Hp Hsw dir p Hlt. rewrite swaps_fun_app. unfold result_row. destruct dir.
  - simpl. by rewrite (Hsw p Hlt).
  - rewrite reverse_swaps_fun by done. by rewrite (Hsw (n - 1 - p)) by lia.
Qed.

Lemma dense_sort_spec pg h d order dir attrs :
  reachable pg h d → distinct_attrs (dense_all_attrs d) →
  (∀ s, s ∈ attrs → ∃ g, column_of d s g ∧
     ∀ i v, i < d_maxrow d → dense_get d s i = Ok v → Forall (λ b, (b < 256)%N) v) →
  ∃ d' rs, dense_sort order dir attrs d = Ok d' ∧ reach pg d' ∧
    sort_order (dense_grid order d) attrs = Ok rs ∧
    rs ≡ₚ seq 0 (d_maxrow d) ∧
    StronglySorted (row_before (dense_grid order d) attrs) rs ∧
    rows_rearranged (result_row dir (d_maxrow d) rs) d d'.
Proof.
  intros Hr Hd Hcols.
  pose proof (dense_sort_columns pg h d order attrs Hr Hcols) as Hok.
  destruct (sort_order_spec (dense_grid order d) attrs
    (in_order_agrees _ (dense_grid_in_order order d)) Hok) as (rs & Hrs & Hp & Hs).
  cbn [gr_size dense_grid] in Hp.
  change (dense_size d).2 with (d_maxrow d) in Hp.
  destruct (cycle_swaps_spec rs (d_maxrow d) Hp) as (sw & Hsw & Hb & Hlook).
  unfold dense_sort, create_sort_spec. rewrite Hrs. cbn [mbind res_bind]. rewrite Hsw.
  cbn [mbind res_bind].
  set (rv := match dir with Ascending => [] | Descending => reverse_swaps (d_maxrow d) end).
  assert (∀ i j, (i, j) ∈ sw ++ rv → i < d_maxrow d ∧ j < d_maxrow d) as Hb2.
  { intros i j Hin. apply elem_of_app in Hin as [Hin|Hin]; [by apply Hb|].
    unfold rv in Hin. destruct dir; [by apply not_elem_of_nil in Hin|].
    by apply reverse_swaps_bound. }
  assert (reach pg d) as Hre by (by exists h).
  destruct (swaps_rows_rearranged pg (sw ++ rv) d Hre Hd Hb2) as (d2 & Hrun2 & Hre2 & Hrr2).
  rewrite res_foldl_app in Hrun2.
  destruct (swaps_rows_rearranged pg sw d Hre Hd Hb) as (d1 & Hrun1 & Hre1 & Hrr1).
  rewrite Hrun1 in Hrun2 |- *. cbn [mbind res_bind] in *.
  exists d2, rs.
  assert (d_maxrow d1 = d_maxrow d) as Hm by apply Hrr1.
  split.
  { destruct dir; [exact Hrun2|]. rewrite Hm. exact Hrun2. }
  split; [done|]. split; [done|]. split; [done|]. split; [done|].
  destruct Hrr2 as (E1 & E2 & E3 & E4 & E5). do 4 (split; [done|]).
  intros s g i Hg Hi. rewrite (E5 s g i Hg Hi). f_equal.
  by apply (swaps_fun_ext_bij (d_maxrow d) sw rs Hp Hlook dir).
Qed.

Lemma result_row_bij dir n rs : rs ≡ₚ seq 0 n → row_bijection n (result_row dir n rs).
Proof.
  intros Hp. pose proof (rs_length rs n Hp) as Hl.
  assert (∀ p, p < n → ∃ q, q < n ∧ result_row dir n rs p = nxt rs q ∧
    q = match dir with Ascending => p | Descending => n - 1 - p end) as Hq.
  { intros p Hlt. unfold result_row. destruct dir; eexists; (split; [|split; [|reflexivity]]); try done; lia. }
  split; [|split].
  - intros i Hi. destruct (Hq i Hi) as (q & Hq1 & -> & _). by apply (nxt_lt rs n Hp).
  - intros i j Hi Hj Heq. destruct (Hq i Hi) as (q & Hq1 & E1 & E2), (Hq j Hj) as (q' & Hq1' & E1' & E2').
    rewrite E1, E1' in Heq. apply (nxt_inj rs n Hp) in Heq; [|done|done]. destruct dir; lia.
  - intros j Hj. assert (j ∈ rs) as Hin by (rewrite Hp; apply elem_of_seq; lia).
    apply elem_of_list_lookup in Hin as [q Hq']. pose proof (lookup_lt_Some _ _ _ Hq') as Hlt.
    exists (match dir with Ascending => q | Descending => n - 1 - q end).
    unfold result_row. destruct dir.
    + split; [lia|]. by rewrite Hq'.
    + split; [lia|]. replace (n - 1 - (n - 1 - q)) with q by lia. by rewrite Hq'.
Qed.

Lemma lazy_sort_spec g dir attrs :
  iter_agrees g → sort_columns_ok g attrs →
  ∃ v rs, lazy_sort dir attrs g = Ok v ∧
    sort_order g attrs = Ok rs ∧ rs ≡ₚ seq 0 (gr_size g).2 ∧
    StronglySorted (row_before g attrs) rs ∧
    (view_size v).2 = (gr_size g).2 ∧
    ∀ i s, i < (gr_size g).2 →
      view_get v s i = gr_get g s (result_row dir (gr_size g).2 rs i).
Proof.
  intros Hit Hok. destruct (sort_order_spec g attrs Hit Hok) as (rs & Hrs & Hp & Hs).
  destruct (cycle_swaps_spec rs _ Hp) as (sw & Hsw & Hb & Hlook).
  unfold lazy_sort, create_sort_spec. rewrite Hrs. cbn [mbind res_bind]. rewrite Hsw.
  cbn [mbind res_bind]. set (n := (gr_size g).2) in *.
  destruct (swap_array_spec n sw (seq 0 n) id) as (arr & Harr & Hlen & Hf).
  { apply seq_length. } { done. } { intros p Hlt. by apply lookup_seq_lt. }
  rewrite Harr. cbn [mbind res_bind].
  assert (∃ arr', match dir with
    | Descending => res_foldl swap_entries arr (reverse_swaps n)
    | Ascending => Ok arr end = Ok arr' ∧ length arr' = n ∧
    ∀ p, p < n → arr' !! p = Some (result_row dir n rs p)) as (arr' & -> & Hlen' & Hf').
  { pose proof (swaps_fun_ext_bij n sw rs Hp Hlook dir) as Hext. destruct dir.
    - exists arr. split; [done|]. split; [done|]. intros p Hlt. rewrite (Hf p Hlt).
      rewrite <- (Hext p Hlt). by rewrite app_nil_r.
    - destruct (swap_array_spec n (reverse_swaps n) arr (swaps_fun sw)) as (arr2 & H2 & Hl2 & Hf2);
        [done|intros i j; apply reverse_swaps_bound|done|].
      exists arr2. split; [done|]. split; [done|]. intros p Hlt. rewrite (Hf2 p Hlt).
      rewrite <- (Hext p Hlt). by rewrite swaps_fun_app. }
  cbn [mbind res_bind]. eexists _, rs. split; [done|]. split; [done|]. split; [done|].
  split; [done|]. split.
  - unfold view_size. simpl. destruct (gr_size g) as [w n'] eqn:E. simpl in *. subst n.
    assert (size (sort_row_map arr') ≤ n') as Hsz.
    { apply size_bound. intros i a Hia. rewrite sort_row_map_lookup in Hia.
      destruct (arr' !! i) as [a'|] eqn:Ea; [|done].
      destruct (i =? a'); [done|]. injection Hia as ->.
      pose proof (lookup_lt_Some _ _ _ Ea) as Hi. rewrite (Hf' i ltac:(lia)) in Ea.
      injection Ea as <-. split; [lia|].
      by apply (result_row_bij dir n' rs Hp); lia. }
    destruct (n' <? size (sort_row_map arr')) eqn:E2; [apply Nat.ltb_lt in E2; lia|done].
  - intros i s Hi. unfold view_get, resolve_row. simpl.
    rewrite sort_row_map_lookup, (Hf' i Hi).
    destruct (i =? result_row dir n rs i) eqn:E; [|done].
    apply Nat.eqb_eq in E. by rewrite <- E.
Qed.

(** ** Order of floats and of their bit patterns *)

Lemma plain_compare x y : plain_float x → plain_float y →
  Bcompare 53 1024 x y = Some (Z.compare (bits_of_b64 x) (bits_of_b64 y)).
Proof.
  intros [Hn1 Hs1] [Hn2 Hs2].
  assert (∀ (m : positive) e H, (0 < bits_of_b64 (B754_finite 53 1024 false m e H) < 2047 * 2^52)%Z) as Hb.
  { intros m e H. destruct (finite_bits m e H) as (-> & H1 & H2 & H3). lia. }
  assert (bits_of_b64 (B754_zero 53 1024 false) = 0%Z) as Hz by done.
  assert (bits_of_b64 (B754_infinity 53 1024 false) = (2047 * 2^52)%Z) as Hi by done.
  destruct x as [[]|[]|?|[] m1 e1 H1], y as [[]|[]|?|[] m2 e2 H2]; try discriminate;
    rewrite ?Hz, ?Hi.
  - done.
  - done.
  - specialize (Hb m2 e2 H2). symmetry. 
    change (Some (0 ?= bits_of_b64 (B754_finite 53 1024 false m2 e2 H2))%Z = Some Lt).
    f_equal. apply Z.compare_lt_iff. lia.
  - done.
  - done.
  - specialize (Hb m2 e2 H2). symmetry.
    change (Some (2047 * 2^52 ?= bits_of_b64 (B754_finite 53 1024 false m2 e2 H2))%Z = Some Gt).
    f_equal. apply Z.compare_gt_iff. lia.
  - specialize (Hb m1 e1 H1). symmetry.
    change (Some (bits_of_b64 (B754_finite 53 1024 false m1 e1 H1) ?= 0)%Z = Some Gt).
    f_equal. apply Z.compare_gt_iff. lia.
  - specialize (Hb m1 e1 H1). symmetry.
    change (Some (bits_of_b64 (B754_finite 53 1024 false m1 e1 H1) ?= 2047 * 2^52)%Z = Some Lt).
    f_equal. apply Z.compare_lt_iff. lia.
  - destruct (finite_bits m1 e1 H1) as (-> & A1 & A2 & A3).
    destruct (finite_bits m2 e2 H2) as (-> & B1 & B2 & B3).
    change (Some (match Z.compare e1 e2 with
      | Eq => Pos.compare_cont Eq m1 m2 | Lt => Lt | Gt => Gt end) =
      Some ((e1 + 1074) * 2^52 + Z.pos m1 ?= (e2 + 1074) * 2^52 + Z.pos m2)%Z).
    f_equal. symmetry. destruct (Z.compare_spec e1 e2) as [->|Hlt|Hgt].
    + rewrite Z.add_compare_mono_l. done.
    + apply Z.compare_lt_iff.
      assert (e2 = e1 + 1 ∨ e1 + 2 ≤ e2)%Z as [->|] by lia; lia.
    + apply Z.compare_gt_iff.
      assert (e1 = e2 + 1 ∨ e2 + 2 ≤ e1)%Z as [->|] by lia; lia.
Qed.

Lemma lex_float a : ∀ b, length a = length b →
  Forall plain_float a → Forall plain_float b →
  lex_lt (map float64bits a) (map float64bits b) ∨ map float64bits a = map float64bits b →
  float_lex_le a b.
Proof.
  induction a as [|x a IH]; intros [|y b] Hl Ha Hb H; try discriminate; [done|].
  apply Forall_cons in Ha as [Hx Ha], Hb as [Hy Hb]. cbn [float_lex_le map lex_lt] in *.
  rewrite (plain_compare x y Hx Hy).
  pose proof (Binary.Bsign 53 1024 x) as _.
  assert (∀ f, (0 ≤ bits_of_b64 f)%Z) as Hpos by (intros f; apply (bits_of_binary_float_range 52 11); done).
  pose proof (Hpos x). pose proof (Hpos y). unfold float64bits in *.
  destruct H as [[Hlt|[Heq Hlt]]|Heq].
  - left. f_equal. apply Z.compare_lt_iff. lia.
  - right. split; [f_equal; apply Z.compare_eq_iff; lia|]. apply IH; auto.
  - injection Heq as Heq Hr. right. split; [f_equal; apply Z.compare_eq_iff; lia|]. apply IH; auto.
Qed.

Lemma lxor_clear x : N.testbit x 7 = false → N.lxor x 0x80 = (x + 128)%N.
Proof.
  intros H. rewrite N.add_nocarry_lxor; [done|]. apply N.bits_inj. intros k.
  rewrite N.land_spec, N.bits_0. change 128%N with (2^7)%N. rewrite N.pow2_bits_eqb.
  destruct (N.eqb_spec 7 k) as [<-|]; [by rewrite H|by rewrite andb_false_r].
Qed.

Lemma flip_last_lex a : ∀ b,
  (∀ x, last a = Some x → N.testbit x 7 = false) →
  (∀ x, last b = Some x → N.testbit x 7 = false) →
  length a = length b →
  (lex_lt (flip_last a) (flip_last b) → lex_lt a b) ∧
  (flip_last a = flip_last b → a = b).
Proof.
  induction a as [|x a IH]; intros [|y b] Ha Hb Hl; try discriminate; [done|].
  destruct a as [|x' a], b as [|y' b]; try discriminate.
  - cbn [flip_last lex_lt].
    rewrite (lxor_clear x), (lxor_clear y) by auto. split.
    + intros [?|[? []]]. left. lia.
    + intros [= ?]. f_equal. lia.
  - destruct (IH (y' :: b)) as [I1 I2]; [done|done|simpl in *; lia|].
    change (flip_last (x :: x' :: a)) with (x :: flip_last (x' :: a)).
    change (flip_last (y :: y' :: b)) with (y :: flip_last (y' :: b)).
    split.
    + intros [?|[-> ?]]; [by left|right; split; [done|by apply I1]].
    + intros [= -> ?]. f_equal. by apply I2.
Qed.

Lemma sortable_order a b : length a = length b →
  sortable_floats a → sortable_floats b →
  (lex_lt (flip_last (map float64bits a)) (flip_last (map float64bits b)) ∨
   flip_last (map float64bits a) = flip_last (map float64bits b)) → float_lex_le a b.
Proof.
  intros Hl [Ha1 Ha2] [Hb1 Hb2] H. apply lex_float; [done|done|done|].
  destruct (flip_last_lex (map float64bits a) (map float64bits b)) as [I1 I2].
  - intros x. rewrite fmap_last. intros Hx. destruct (last a) eqn:E; [|done]. simpl in Hx. injection Hx as <-. by apply Ha2.
  - intros x. rewrite fmap_last. intros Hx. destruct (last b) eqn:E; [|done]. simpl in Hx. injection Hx as <-. by apply Hb2.
  - by rewrite !map_length.
  - destruct H; [left|right]; auto.
Qed.

Lemma le_value_pack x : le_value (pack_float x) = float64bits x.
Proof.
  unfold pack_float. pose proof (unpack_pack_u64 (float64bits x) (float64bits_lt x)) as H.
  apply unpack_u64_spec in H; [|apply pack_u64_length]. rewrite H at 2.
  generalize (pack_u64 (float64bits x)) as l.
  induction l as [|b l IH]; [done|]. cbn [le_value foldr]. by rewrite <- IH.
Qed.

Lemma float_tuple (g : grid) attrs i xs :
  Forall2 (λ s x, gr_get g s i = Ok (pack_float x)) attrs xs →
  raw_tuple g attrs i = map float64bits xs.
Proof.
  unfold raw_tuple. induction 1 as [|s x attrs xs Hs _ IH]; [done|]. cbn [map].
  rewrite Hs, le_value_pack. by f_equal.
Qed.

Lemma StronglySorted_lookup {A} (R : A → A → Prop) l i j x y :
  StronglySorted R l → i < j → l !! i = Some x → l !! j = Some y → R x y.
Proof.
  intros Hs. revert i j. induction Hs as [|a l Hs IH Ha]; intros i j Hij Hx Hy; [done|].
  destruct j as [|j]; [lia|]. destruct i as [|i].
  - injection Hx as ->. eapply Forall_lookup_1 in Ha; [exact Ha|exact Hy].
  - apply (IH i j); [lia|done|done].
Qed.

(** The order of the result, whatever the values. *)
Lemma result_row_order dir n rs R :
  rs ≡ₚ seq 0 n → StronglySorted R rs → ∀ i j, i < j < n →
  match dir with
  | Ascending => R (result_row dir n rs i) (result_row dir n rs j)
  | Descending => R (result_row dir n rs j) (result_row dir n rs i)
  end.
Proof.
  intros Hp Hs i j [Hij Hj]. pose proof (rs_length rs n Hp) as Hl.
  assert (∀ p, p < n → ∃ x, rs !! p = Some x) as Hlook.
  { intros p Hlt. apply lookup_lt_is_Some. lia. }
  unfold result_row. destruct dir.
  - destruct (Hlook i ltac:(lia)) as [x Hx], (Hlook j ltac:(lia)) as [y Hy]. rewrite Hx, Hy.
    by apply (StronglySorted_lookup R rs i j).
  - destruct (Hlook (n - 1 - i) ltac:(lia)) as [x Hx], (Hlook (n - 1 - j) ltac:(lia)) as [y Hy].
    rewrite Hx, Hy. apply (StronglySorted_lookup R rs (n - 1 - j) (n - 1 - i)); [done|lia|done|done].
Qed.

Lemma sort_permutes pg h d order dir attrs :
  reachable pg h d → distinct_attrs (dense_all_attrs d) →
  (∀ s, s ∈ attrs → ∃ g, column_of d s g ∧
     ∀ i v, i < d_maxrow d → dense_get d s i = Ok v → Forall (λ b, (b < 256)%N) v) →
  ∃ d' p, dense_sort order dir attrs d = Ok d' ∧
    row_bijection (d_maxrow d) p ∧ rows_rearranged p d d'.
Proof.
  intros Hr Hd Hc. destruct (dense_sort_spec pg h d order dir attrs Hr Hd Hc)
    as (d' & rs & H1 & _ & _ & Hp & _ & H2).
  eexists d', _. split; [done|]. split; [by apply (result_row_bij dir)|done].
Qed.

Lemma sort_bit_patterns pg h d order dir attrs :
  reachable pg h d → distinct_attrs (dense_all_attrs d) →
  (∀ s, s ∈ attrs → ∃ g, column_of d s g ∧
     ∀ i v, i < d_maxrow d → dense_get d s i = Ok v → Forall (λ b, (b < 256)%N) v) →
  ∃ d' p, dense_sort order dir attrs d = Ok d' ∧ row_bijection (d_maxrow d) p ∧
    rows_rearranged p d d' ∧
    ∀ i j, i < j < d_maxrow d →
      match dir with
      | Ascending => row_before (dense_grid order d) attrs (p i) (p j)
      | Descending => row_before (dense_grid order d) attrs (p j) (p i)
      end.
Proof.
  intros Hr Hd Hc. destruct (dense_sort_spec pg h d order dir attrs Hr Hd Hc)
    as (d' & rs & H1 & _ & _ & Hp & Hs & H2).
  eexists d', _. split; [done|]. split; [by apply (result_row_bij dir)|]. split; [done|].
  by apply result_row_order.
Qed.

Lemma float_row_unique (get : spec → res (list N)) attrs xs : ∀ ys,
  Forall2 (λ s x, get s = Ok (pack_float x)) attrs xs →
  Forall2 (λ s x, get s = Ok (pack_float x)) attrs ys → xs = ys.
Proof.
  revert xs. induction attrs as [|s attrs IH]; intros xs ys Hx Hy.
  - apply Forall2_nil_inv_l in Hx as ->. by apply Forall2_nil_inv_l in Hy as ->.
  - apply Forall2_cons_inv_l in Hx as (x & xs' & Hx & Hxs & ->).
    apply Forall2_cons_inv_l in Hy as (y & ys' & Hy & Hys & ->).
    f_equal; [|by apply IH]. apply pack_float_inj.
    assert (∀ u v : list N, Ok u = Ok v → u = v) as Hi by (by intros u v [= ->]).
    apply Hi. by rewrite <- Hx.
Qed.

Lemma sort_floats pg h d order dir attrs :
  reachable pg h d → distinct_attrs (dense_all_attrs d) →
  (∀ s, s ∈ attrs → ∃ g, column_of d s g) →
  (∀ i, i < d_maxrow d → ∃ xs, sortable_floats xs ∧
     Forall2 (λ s x, dense_get d s i = Ok (pack_float x)) attrs xs) →
  ∃ d', dense_sort order dir attrs d = Ok d' ∧ d_maxrow d' = d_maxrow d ∧
    ∀ i j xs ys, i < j < d_maxrow d →
      Forall2 (λ s x, dense_get d' s i = Ok (pack_float x)) attrs xs →
      Forall2 (λ s y, dense_get d' s j = Ok (pack_float y)) attrs ys →
      match dir with
      | Ascending => float_lex_le xs ys
      | Descending => float_lex_le ys xs
      end.
Proof.
  intros Hr Hd Hc Hf.
  destruct (sort_bit_patterns pg h d order dir attrs Hr Hd) as (d' & p & H1 & Hb & Hrr & Ho).
  { intros s Hs. destruct (Hc s Hs) as [g Hg]. exists g. split; [done|]. intros i v Hi Hv.
    destruct (Hf i Hi) as (xs & _ & H2). apply elem_of_list_lookup in Hs as [k Hk].
    eapply Forall2_lookup_l in H2 as (x & _ & Hx); [|exact Hk].
    rewrite Hx in Hv. injection Hv as <-. apply pack_u64_bytes. }
  exists d'. split; [done|]. split; [apply Hrr|].
  intros i j xs ys Hij Hxs Hys.
  assert (∀ k zs, k < d_maxrow d →
    Forall2 (λ s x, dense_get d' s k = Ok (pack_float x)) attrs zs →
    sortable_floats zs ∧
    sort_tuple (dense_grid order d) attrs (p k) = flip_last (map float64bits zs)) as Hkey.
  { intros k zs Hk Hzs.
    assert (Forall2 (λ s x, dense_get d s (p k) = Ok (pack_float x)) attrs zs) as Hzs'.
    { apply Forall2_same_length_lookup. split; [by eapply Forall2_length|].
      intros q s z Hs Hz. pose proof (Forall2_lookup_lr _ _ _ _ _ _ Hzs Hs Hz) as E. simpl in E.
      destruct (Hc s) as [g Hg]; [by eapply elem_of_list_lookup_2|].
      destruct Hrr as (_ & _ & _ & _ & Hrr). by rewrite <- (Hrr s g k Hg Hk). }
    split.
    - destruct (Hf (p k)) as (zs2 & Hs2 & H2); [by apply Hb|].
      enough (zs = zs2) as -> by done.
      eapply float_row_unique; [exact Hzs'|exact H2].
    - unfold sort_tuple. f_equal. apply float_tuple. exact Hzs'. }
  destruct (Hkey i xs ltac:(lia) Hxs) as [Sx Tx], (Hkey j ys ltac:(lia) Hys) as [Sy Ty].
  specialize (Ho i j Hij). unfold row_before in Ho. rewrite Tx, Ty in Ho.
  pose proof (Forall2_length _ _ _ Hxs). pose proof (Forall2_length _ _ _ Hys).
  destruct dir; (apply sortable_order; [congruence|done|done|]); tauto.
Qed.

Lemma lazy_sort_agrees pg h d order dir attrs :
  reachable pg h d → distinct_attrs (dense_all_attrs d) →
  (∀ s, s ∈ attrs → ∃ g, column_of d s g ∧
     ∀ i v, i < d_maxrow d → dense_get d s i = Ok v → Forall (λ b, (b < 256)%N) v) →
  ∃ d' v, dense_sort order dir attrs d = Ok d' ∧
    lazy_sort dir attrs (dense_grid order d) = Ok v ∧
    (view_size v).2 = d_maxrow d' ∧
    ∀ s g i, column_of d s g → i < d_maxrow d' → view_get v s i = dense_get d' s i.
Proof.
  intros Hr Hd Hc.
  destruct (dense_sort_spec pg h d order dir attrs Hr Hd Hc)
    as (d' & rs & H1 & _ & Hrs & Hp & _ & Hrr).
  destruct (lazy_sort_spec (dense_grid order d) dir attrs
    (in_order_agrees _ (dense_grid_in_order order d))
    (dense_sort_columns pg h d order attrs Hr Hc)) as (v & rs' & H2 & Hrs' & _ & _ & Hsz & Hget).
  assert (rs' = rs) as -> by congruence.
  destruct Hrr as (Hm & _ & _ & _ & Hrr).
  exists d', v. split; [done|]. split; [done|]. split; [by rewrite Hm, Hsz|].
  intros s g i Hg Hi. rewrite Hm in Hi. rewrite (Hrr s g i Hg Hi). by rewrite (Hget i s Hi).
Qed.
