(** Lemmas about the model of neural networks. *)
From Coq Require Import Reals.
From Verif Require Import Prelude DenseProofs FloatModel MetricModel MetricSpec NeuralModel NeuralSpec.
Local Open Scope nat_scope.

Section matrices.
  Context {A : Type}.
  Implicit Types x y : mx A.

  Lemma tab_shaped r c (f : nat → nat → A) : shaped r c (tab r c f).
  Proof. split; [done|]. split; [done|]. unfold well_formed, tab. cbn. by rewrite map_length, seq_length. Qed.

  Lemma cell_div i j c : j < c → (i * c + j) / c = i.
  Proof. intros H. rewrite Nat.div_add_l by lia. rewrite Nat.div_small by lia. lia. Qed.
  Lemma cell_mod i j c : j < c → (i * c + j) mod c = j.
  Proof. intros H. rewrite Nat.add_comm, Nat.mod_add by lia. by apply Nat.mod_small. Qed.
  Lemma cell_lt i j r c : i < r → j < c → i * c + j < r * c.
  Proof. intros. nia. Qed.
  Lemma cell_inv k r c : k < r * c → k / c < r ∧ k mod c < c ∧ k = k / c * c + k mod c.
  Proof.
    intros H. assert (c ≠ 0) by (intros ->; lia). split; [apply Nat.div_lt_upper_bound; lia|].
    split; [by apply Nat.mod_upper_bound|]. rewrite (Nat.mul_comm (k / c)). by apply Nat.div_mod.
  Qed.
  Lemma cell_eq i j i' j' c : j < c → j' < c → i * c + j = i' * c + j' → i = i' ∧ j = j'.
  Proof.
    intros H H' E. split.
    - rewrite <- (cell_div i j c H), E. by apply cell_div.
    - rewrite <- (cell_mod i j c H), E. by apply cell_mod.
  Qed.

  Lemma mx_at_tab r c f i j : i < r → j < c → mx_at (tab r c f) i j = Ok (f i j : A).
  Proof.
    intros Hi Hj. unfold mx_at, tab. cbn [mx_rows mx_cols mx_data].
    assert ((i <? r) && (j <? c) = true) as -> by (apply andb_true_iff; split; apply Nat.ltb_lt; done).
    unfold idx. change (map ?g) with (fmap (M:=list) g). rewrite list_lookup_fmap, lookup_seq_lt by (by apply cell_lt).
    cbn [fmap option_fmap option_map]. rewrite Nat.add_0_l, cell_div, cell_mod by done. done.
  Qed.
  Lemma mx_at_out x i j : ¬ (i < mx_rows x ∧ j < mx_cols x) → mx_at x i j = Panic.
  Proof.
    intros H. unfold mx_at. destruct (_ && _) eqn:E; [|done]. apply andb_true_iff in E as [E1 E2].
    apply Nat.ltb_lt in E1, E2. tauto.
  Qed.

  Lemma mapM_seq_ok {B} (f : nat → res B) g n : (∀ k, k < n → f k = Ok (g k)) → res_mapM f (seq 0 n) = Ok (map g (seq 0 n)).
  Proof.
    intros H. assert (∀ s m, s + m <= n → res_mapM f (seq s m) = Ok (map g (seq s m))) as E; [|apply E; lia].
    intros s m. revert s. induction m as [|m IH]; intros s Hs; [done|].
    cbn [seq res_mapM map]. rewrite H by lia. cbn [mbind res_bind]. rewrite IH by lia. done.
  Qed.

  Lemma tabM_ok r c (f : nat → nat → res A) g : (∀ i j, i < r → j < c → f i j = Ok (g i j)) → tabM r c f = Ok (tab r c g).
  Proof.
    intros H. unfold tabM. rewrite (mapM_seq_ok _ (λ k, g (k / c) (k mod c))); [done|].
    intros k Hk. destruct (cell_inv k r c Hk) as (H1 & H2 & _). by apply H.
  Qed.

  Lemma tab_ext r c (f g : nat → nat → A) : (∀ i j, i < r → j < c → f i j = g i j) → tab r c f = tab r c g.
  Proof.
    intros H. unfold tab. f_equal. apply map_ext_in. intros k Hk. apply in_seq in Hk.
    destruct (cell_inv k r c ltac:(lia)) as (H1 & H2 & _). by apply H.
  Qed.

  Lemma shaped_tab r c x d : shaped r c x → x = tab r c (λ i j, nth (i * c + j) (mx_data x) d).
  Proof.
    intros (H1 & H2 & H3). unfold well_formed in H3. rewrite H1, H2 in H3. destruct x as [r' c' l]. cbn in *. subst r' c'.
    unfold tab. f_equal. apply list_eq. intros k. change (map ?g) with (fmap (M:=list) g). rewrite list_lookup_fmap.
    destruct (decide (k < r * c)) as [Hk|Hk].
    - rewrite lookup_seq_lt by done. cbn [fmap option_fmap option_map Nat.add].
      destruct (cell_inv k r c Hk) as (_ & _ & <-). by destruct (nth_lookup_or_length l k d) as [E|E]; [|lia].
    - rewrite !lookup_ge_None_2; [done| |lia]. rewrite seq_length. lia.
  Qed.
End matrices.

Section networks.
  Context {A : Type} (o : arith A).
  Notation zero := (a_zero o).

  Lemma idx_map_seq {B} (g : nat → B) n k : k < n → idx (map g (seq 0 n)) k = Ok (g k).
  Proof.
    intros H. unfold idx. change (map g) with (fmap (M:=list) g). rewrite list_lookup_fmap, lookup_seq_lt by done. done.
  Qed.

  Definition put (W : nat → nat → A) (t s : nat) (v : A) : nat → nat → A :=
    λ i j, if (i =? t) && (j =? s) then v else W i j.
  Definition put1 {B} (b : nat → B) (k : nat) (v : B) : nat → B := λ i, if i =? k then v else b i.

  Lemma mx_set_tab r c W i j v : i < r → j < c → mx_set (tab r c W) i j v = Ok (tab r c (put W i j v)).
  Proof.
    intros Hi Hj. unfold mx_set. cbn [mx_rows mx_cols mx_data tab].
    assert ((i <? r) && (j <? c) = true) as -> by (apply andb_true_iff; split; apply Nat.ltb_lt; done).
    f_equal. unfold tab. f_equal. apply list_eq. intros k. change (map ?g) with (fmap (M:=list) g).
    destruct (decide (k < r * c)) as [Hk|Hk].
    - destruct (decide (k = i * c + j)) as [->|Hne].
      + rewrite list_lookup_insert by (by rewrite fmap_length, seq_length).
        rewrite list_lookup_fmap, lookup_seq_lt by done. cbn [fmap option_fmap option_map Nat.add].
        unfold put. rewrite cell_div, cell_mod, !Nat.eqb_refl by done. done.
      + rewrite list_lookup_insert_ne by done. rewrite !list_lookup_fmap, lookup_seq_lt by done.
        cbn [fmap option_fmap option_map Nat.add]. unfold put. destruct (_ && _) eqn:E; [|done].
        apply andb_true_iff in E as [E1 E2]. apply Nat.eqb_eq in E1, E2.
        destruct (cell_inv k r c Hk) as (_ & _ & Hk'). rewrite E1, E2 in Hk'. done.
    - rewrite !lookup_ge_None_2; [done| |]; rewrite ?insert_length, fmap_length, seq_length; lia.
  Qed.

  Lemma insert_map_seq {B} (g : nat → B) n k v : k < n → <[k := v]> (map g (seq 0 n)) = map (put1 g k v) (seq 0 n).
  Proof.
    intros H. apply list_eq. intros i. change (map ?g) with (fmap (M:=list) g). destruct (decide (i < n)) as [Hi|Hi].
    - destruct (decide (i = k)) as [->|Hne].
      + rewrite list_lookup_insert by (by rewrite fmap_length, seq_length).
        rewrite list_lookup_fmap, lookup_seq_lt by done. cbn. unfold put1. by rewrite Nat.eqb_refl.
      + rewrite list_lookup_insert_ne by done. rewrite !list_lookup_fmap, lookup_seq_lt by done. cbn. unfold put1.
        by assert (i =? k = false) as -> by (apply Nat.eqb_neq; lia).
    - rewrite !lookup_ge_None_2; [done| |]; rewrite ?insert_length, fmap_length, seq_length; lia.
  Qed.

  Lemma get_weight_ok (n : network A) N I W b f s t : holds_net n N I W b f → s < N → t < N → get_weight n (S s) (S t) = Ok (W t s).
  Proof.
    intros (H1 & _) Hs Ht. unfold get_weight. cbn [Nat.eqb orb]. rewrite H1, !Nat.sub_succ, !Nat.sub_0_r. by apply mx_at_tab.
  Qed.
  Lemma get_bias_ok (n : network A) N I W b f k : holds_net n N I W b f → k < N → get_bias n (S k) = Ok (b k).
  Proof.
    intros (_ & H2 & _) Hk. unfold get_bias. cbn [Nat.eqb]. rewrite H2, Nat.sub_succ, Nat.sub_0_r. by apply idx_map_seq.
  Qed.
  Lemma set_weight_ok (n : network A) N I W b f s t v : holds_net n N I W b f → s < N → t < N →
    ∃ n', set_weight n (S s) (S t) v = Ok n' ∧ n_orig n' = n_orig n ∧ holds_net n' N I (put W t s v) b f.
  Proof.
    intros (H1 & H2 & H3 & H4 & H5) Hs Ht. unfold set_weight. cbn [Nat.eqb orb]. rewrite H1, !Nat.sub_succ, !Nat.sub_0_r.
    rewrite mx_set_tab by done. cbn [mbind res_bind]. eexists. split; [done|]. split; [done|]. by repeat split.
  Qed.
  Lemma set_bias_ok (n : network A) N I W b f k v : holds_net n N I W b f → k < N →
    ∃ n', set_bias n (S k) v = Ok n' ∧ n_orig n' = n_orig n ∧ holds_net n' N I W (if k <? I then b else put1 b k v) f.
  Proof.
    intros (H1 & H2 & H3 & H4 & H5) Hk. unfold set_bias. rewrite H5.
    destruct (S k <=? I) eqn:E.
    - assert (k <? I = true) as -> by (apply Nat.leb_le in E; apply Nat.ltb_lt; lia).
      exists n. by repeat split.
    - assert (k <? I = false) as -> by (apply Nat.leb_gt in E; apply Nat.ltb_ge; lia).
      rewrite H2, Nat.sub_succ, Nat.sub_0_r, idx_map_seq by done. cbn [mbind res_bind].
      eexists. split; [done|]. split; [done|]. repeat split; [done| |done|done|done]. cbn. by apply insert_map_seq.
  Qed.

  Lemma holds_net_ext (n : network A) N I W b f W' b' f' : holds_net n N I W b f → (∀ i j, i < N → j < N → W i j = W' i j) →
    (∀ i, i < N → b i = b' i) → (∀ i, i < N → f i = f' i) → holds_net n N I W' b' f'.
  Proof.
    intros (H1 & H2 & H3 & H4 & H5) HW Hb Hf. repeat split; [| | |done|done].
    - rewrite H1. by apply tab_ext.
    - rewrite H2. apply map_ext_in. intros i Hi. apply in_seq in Hi. apply Hb. lia.
    - rewrite H3. apply map_ext_in. intros i Hi. apply in_seq in Hi. apply Hf. lia.
  Qed.

  Lemma net_new_ok N I f : 0 < N → I <= N →
    ∃ n, net_new o N I f = Ok n ∧ n_orig n = None ∧
      holds_net n N I (λ t s, if (t =? s) && (t <? I) then a_one o else zero) (λ _, zero) (λ i, if i <? I then linear o else f).
  Proof.
    intros HN HI. unfold net_new. assert (N =? 0 = false) as -> by (apply Nat.eqb_neq; lia).
    assert (∀ m, m <= I → ∃ n, res_foldl (λ n i, _ ← idx (n_funcs n) i;
        set_weight (Net (n_orig n) (n_weights n) (n_biases n) (<[i := linear o]> (n_funcs n)) (n_size n) (n_input n)) (i + 1) (i + 1) (a_one o))
      (Net None (tab N N (λ _ _, zero)) (replicate N zero) (replicate N f) N I) (seq 0 m) = Ok n ∧ n_orig n = None ∧
      holds_net n N I (λ t s, if (t =? s) && (t <? m) then a_one o else zero) (λ _, zero) (λ i, if i <? m then linear o else f)) as H;
      [|by apply H].
    induction m as [|m IH]; intros Hm.
    - eexists. split; [done|]. split; [done|]. repeat split.
      + cbn. apply tab_ext. intros i j _ _. by rewrite andb_false_r.
      + cbn. apply list_eq. intros k. change (map ?g) with (fmap (M:=list) g). rewrite list_lookup_fmap.
        destruct (decide (k < N)); [by rewrite lookup_replicate_2, lookup_seq_lt|].
        rewrite !lookup_ge_None_2; [done|rewrite seq_length; lia|rewrite replicate_length; lia].
      + cbn. apply list_eq. intros k. change (map ?g) with (fmap (M:=list) g). rewrite list_lookup_fmap.
        destruct (decide (k < N)); [by rewrite lookup_replicate_2, lookup_seq_lt|].
        rewrite !lookup_ge_None_2; [done|rewrite seq_length; lia|rewrite replicate_length; lia].
    - destruct (IH ltac:(lia)) as (n & Hn & Ho & H1 & H2 & H3 & H4 & H5). rewrite seq_S, res_foldl_app, Hn. cbn [mbind res_bind res_foldl Nat.add].
      rewrite H3, idx_map_seq by lia. cbn [mbind res_bind]. rewrite insert_map_seq by lia. rewrite !Nat.add_1_r.
      destruct (set_weight_ok (Net (n_orig n) (n_weights n) (n_biases n)
        (map (put1 (λ i, if i <? m then linear o else f) m (linear o)) (seq 0 N)) (n_size n) (n_input n)) N I
        (λ t s, if (t =? s) && (t <? m) then a_one o else zero) (λ _, zero) (put1 (λ i, if i <? m then linear o else f) m (linear o)) m m (a_one o))
        as (n' & Hn' & Ho' & Hh); [by repeat split|lia|lia|].
      rewrite Hn'. cbn [mbind res_bind]. exists n'. split; [done|]. split; [by rewrite Ho'|].
      apply (holds_net_ext _ _ _ _ _ _ _ _ _ Hh).
      + intros i j _ _. unfold put. destruct (decide (i = m)) as [->|Him].
        * rewrite Nat.eqb_refl. cbn [andb]. rewrite (Nat.eqb_sym m j). destruct (j =? m).
          -- by assert (m <? S m = true) as -> by (apply Nat.ltb_lt; lia).
          -- done.
        * assert (i =? m = false) as -> by (by apply Nat.eqb_neq). cbn [andb].
          assert (i <? S m = (i <? m)) as ->; [|done]. apply Bool.eq_iff_eq_true. rewrite !Nat.ltb_lt. lia.
      + done.
      + intros i _. unfold put1. destruct (decide (i = m)) as [->|Him].
        * rewrite Nat.eqb_refl. by assert (m <? S m = true) as -> by (apply Nat.ltb_lt; lia).
        * assert (i =? m = false) as -> by (by apply Nat.eqb_neq).
          assert (i <? S m = (i <? m)) as ->; [|done]. apply Bool.eq_iff_eq_true. rewrite !Nat.ltb_lt. lia.
  Qed.

  Lemma sound_holds (n : network A) : sound_net n → ∃ W b f, holds_net n (n_size n) (n_input n) W b f.
  Proof.
    intros (H1 & H2 & H3 & H4 & H5). exists (λ i j, nth (i * n_size n + j) (mx_data (n_weights n)) zero), (λ i, nth i (n_biases n) zero),
      (λ i, nth i (n_funcs n) (linear o)).
    assert (∀ B (l : list B) d k, length l = k → l = map (λ i, nth i l d) (seq 0 k)) as E.
    { intros B l d k Hl. apply list_eq. intros i. change (map ?g) with (fmap (M:=list) g). rewrite list_lookup_fmap.
      destruct (decide (i < k)).
      - rewrite lookup_seq_lt by done. cbn. by destruct (nth_lookup_or_length l i d); [|lia].
      - rewrite !lookup_ge_None_2; [done|rewrite seq_length; lia|lia]. }
    split; [by apply shaped_tab|]. split; [exact (E _ _ _ _ H2)|]. split; [exact (E _ _ _ _ H3)|]. done.
  Qed.
  Lemma holds_sound (n : network A) N I W b f : holds_net n N I W b f → I <= N → (∀ w, n_orig n = Some w → shaped N N w) → sound_net n.
  Proof.
    intros (H1 & H2 & H3 & H4 & H5) HI Ho. unfold sound_net. rewrite H4, H5, H1, H2, H3, !map_length, !seq_length.
    split; [apply tab_shaped|]. split; [done|]. split; [done|]. split; [done|]. exact Ho.
  Qed.

  Lemma mul_at_tab r c c' W X i j : i < r → j < c' →
    mul_at o (tab r c W) (tab c c' X) i j = Ok (wsum o (W i) (λ k, X k j) c).
  Proof.
    intros Hi Hj. unfold mul_at, wsum. cbn [mx_cols tab].
    assert (∀ m s acc, s + m <= c →
      res_foldl (λ acc k, a ← mx_at (tab r c W) i k;
        if a_eqb o a zero then Ok acc else b ← mx_at (tab c c' X) k j; Ok (a_add o acc (a_mul o a b))) acc (seq s m) =
      Ok (foldl (λ acc k, if a_eqb o (W i k) zero then acc else a_add o acc (a_mul o (W i k) (X k j))) acc (seq s m))) as E.
    { induction m as [|m IH]; intros s acc Hs; [done|]. cbn [seq res_foldl foldl].
      rewrite (mx_at_tab r c W) by lia. cbn [mbind res_bind]. destruct (a_eqb o (W i s) zero).
      - cbn [mbind res_bind]. apply IH. lia.
      - rewrite (mx_at_tab c c' X) by lia. cbn [mbind res_bind]. apply IH. lia. }
    apply E. lia.
  Qed.

  Lemma mx_mul_tab r c c' W X : mx_mul o (tab r c W) (tab c c' X) = Ok (tab r c' (λ i j, wsum o (W i) (λ k, X k j) c)).
  Proof.
    unfold mx_mul. cbn [mx_cols mx_rows tab]. rewrite Nat.eqb_refl. apply tabM_ok. intros i j Hi Hj. by apply mul_at_tab.
  Qed.

  Lemma mx_apply_tab r c X f g : (∀ i j, i < r → j < c → f i j (X i j) = Ok (g i j : A)) →
    mx_apply f (tab r c X) = Ok (tab r c g).
  Proof.
    intros H. unfold mx_apply. cbn [mx_cols mx_rows tab]. apply tabM_ok. intros i j Hi Hj.
    change (MX r c _) with (tab r c X). rewrite mx_at_tab by done. cbn [mbind res_bind]. by apply H.
  Qed.

  Lemma mx_map2_tab r c X Y f : mx_map2 f (tab r c X) (tab r c Y) = Ok (tab r c (λ i j, f (X i j) (Y i j) : A)).
  Proof.
    unfold mx_map2, same_shape. cbn [mx_cols mx_rows tab]. rewrite !Nat.eqb_refl. cbn [andb mx_data]. f_equal. unfold tab. f_equal.
    assert (∀ l : list nat, zip_with f (map (λ k, X (k / c) (k mod c)) l) (map (λ k, Y (k / c) (k mod c)) l) =
      map (λ k, f (X (k / c) (k mod c)) (Y (k / c) (k mod c))) l) as E by (induction l as [|k l IH]; [done|]; cbn; by rewrite IH).
    apply E.
  Qed.

  (** One round of Activate. *)
  Definition round (N : nat) (W : nat → nat → A) (b : nat → A) (f : nat → nfun A) (x : nat → nat → A) : nat → nat → A :=
    λ i j, forward (f i) (a_add o (wsum o (W i) (λ k, x k j) N) (b i)).

  Lemma activate_once_ok (n : network A) N I W b f c x : holds_net n N I W b f →
    activate_once o n (tab N c x) = Ok (tab N c (round N W b f x)).
  Proof.
    intros (H1 & H2 & H3 & _ & _). unfold activate_once. rewrite H1, mx_mul_tab. cbn [mbind res_bind].
    rewrite (mx_apply_tab _ _ _ _ (λ i j, a_add o (wsum o (W i) (λ k, x k j) N) (b i))).
    2:{ intros i j Hi Hj. rewrite H2, idx_map_seq by done. done. }
    cbn [mbind res_bind]. apply mx_apply_tab. intros i j Hi Hj. rewrite H3, idx_map_seq by done. done.
  Qed.

  Lemma activate_ok (n : network A) N I W b f c x k : holds_net n N I W b f →
    activate o n (tab N c x) k = Ok (tab N c (Nat.iter k (round N W b f) x)).
  Proof.
    intros H. unfold activate.
    assert (∀ l x, res_foldl (λ x (_ : nat), activate_once o n x) (tab N c x) l = Ok (tab N c (Nat.iter (length l) (round N W b f) x))) as E.
    { induction l as [|a l IH]; intros y; [done|]. cbn [res_foldl length]. rewrite (activate_once_ok n N I W b f) by done.
      cbn [mbind res_bind]. rewrite IH. by rewrite Nat.iter_succ_r. }
    rewrite E, seq_length. done.
  Qed.

  (** UpdateWeights. *)
  Definition moved (gt : A → A → bool) (faint : A) (O W : nat → nat → A) (out err : nat → A) (rate : A) : nat → nat → A := λ t s,
    if t =? s then W t s
    else if gt (a_abs o (O t s)) faint then a_add o (W t s) (a_mul o (a_mul o rate (out s)) (err t)) else zero.

  Lemma update_weights_ok gt faint (n : network A) N I W b f O out err rate : holds_net n N I W b f →
    default (n_weights n) (n_orig n) = tab N N O →
    ∃ n', update_weights o gt faint n (tab N 1 out) (tab N 1 err) rate = Ok n' ∧ n_orig n' = Some (tab N N O) ∧
      holds_net n' N I (moved gt faint O W (λ s, out s 0) (λ t, err t 0) rate) b f.
  Proof.
    intros (H1 & H2 & H3 & H4 & H5) Ho. unfold update_weights. rewrite Ho, H1.
    rewrite (mx_apply_tab _ _ _ _ (moved gt faint O W (λ s, out s 0) (λ t, err t 0) rate)).
    - cbn [mbind res_bind]. eexists. split; [done|]. split; [done|]. by repeat split.
    - intros t s Ht Hs. unfold moved. destruct (t =? s); [done|]. rewrite (mx_at_tab N N O) by lia. cbn [mbind res_bind].
      destruct (gt _ _); [|done]. rewrite !mx_at_tab by lia. done.
  Qed.

  Lemma update_bias_ok (n : network A) N I W b f err rate : holds_net n N I W b f →
    ∃ n', update_bias o n (tab N 1 err) rate = Ok n' ∧ n_orig n' = n_orig n ∧
      holds_net n' N I W (λ i, if i <? I then b i else a_add o (b i) (a_mul o (err i 0) rate)) f.
  Proof.
    intros (H1 & H2 & H3 & H4 & H5). unfold update_bias. rewrite H2, H5.
    assert (∀ m s, s + m <= N → res_mapM (λ '(i, b0), if i <? I then Ok b0 else e ← mx_at (tab N 1 err) i 0; Ok (a_add o b0 (a_mul o e rate)))
      (imap (λ i, pair (s + i)) (map b (seq s m))) =
      Ok (map (λ i, if i <? I then b i else a_add o (b i) (a_mul o (err i 0) rate)) (seq s m))) as E.
    { induction m as [|m IH]; intros s Hs; [done|]. cbn [seq map imap res_mapM]. rewrite Nat.add_0_r.
      rewrite (imap_ext _ (λ i, pair (S s + i))).
      2:{ intros j z _. cbn. by replace (s + S j) with (S s + j) by lia. }
      destruct (s <? I).
      - cbn [mbind res_bind]. rewrite IH by lia. done.
      - rewrite mx_at_tab by lia. cbn [mbind res_bind]. rewrite IH by lia. done. }
    specialize (E N 0 ltac:(lia)). cbn [Nat.add] in E.
    change (imap pair (map b (seq 0 N))) with (imap (λ i, pair i) (map b (seq 0 N))). rewrite E. cbn [mbind res_bind].
    eexists. split; [done|]. split; [done|]. by repeat split.
  Qed.

  (** The errors that Error sums up. *)
  Fixpoint spread (N : nat) (W : nat → nat → A) (diff err : nat → A) (k : nat) : nat → A := λ j,
    a_mul o (match k with 0 => err j | S k => wsum o (λ t, W t j) (spread N W diff err k) N end) (diff j).
  Fixpoint summed (N : nat) (W : nat → nat → A) (diff err : nat → A) (k : nat) : nat → A := λ j,
    match k with 0 => zero | S k => a_add o (summed N W diff err k j) (spread N W diff err k j) end.

  Lemma wsum_ext w w' x x' n : (∀ k, k < n → w k = w' k) → (∀ k, k < n → x k = x' k) → wsum o w x n = wsum o w' x' n.
  Proof.
    intros Hw Hx. unfold wsum. assert (∀ m s acc, s + m <= n →
      foldl (λ acc k, if a_eqb o (w k) zero then acc else a_add o acc (a_mul o (w k) (x k))) acc (seq s m) =
      foldl (λ acc k, if a_eqb o (w' k) zero then acc else a_add o acc (a_mul o (w' k) (x' k))) acc (seq s m)) as E; [|apply E; lia].
    induction m as [|m IH]; intros s acc Hs; [done|]. cbn [seq foldl]. rewrite Hw, Hx by lia. apply IH. lia.
  Qed.

  Lemma net_error_ok (n : network A) N I W b f out err k : holds_net n N I W b f →
    net_error o n (tab N 1 out) (tab N 1 err) k =
    Ok (tab N 1 (λ j _, summed N W (λ j, backward (f j) (out j 0)) (λ j, err j 0) k j)).
  Proof.
    intros (H1 & H2 & H3 & H4 & H5). unfold net_error. cbn [mx_cols mx_rows tab]. cbn [Nat.eqb negb].
    change (MX N 1 _) with (tab N 1 out). set (diff := λ j, backward (f j) (out j 0)).
    rewrite (mx_apply_tab _ _ _ _ (λ j _, diff j)).
    2:{ intros i j Hi Hj. rewrite H3, idx_map_seq by done. cbn [mbind res_bind]. unfold diff. by replace j with 0 by lia. }
    cbn [mbind res_bind]. rewrite H1. cbn [mx_cols mx_rows tab]. change (MX N N _) with (tab N N W).
    rewrite (tabM_ok _ _ _ (λ i j, W j i)) by (intros i j Hi Hj; by apply mx_at_tab). cbn [mbind res_bind].
    set (err0 := λ j, err j 0).
    set (body := λ '(err, ret) i, err ← mx_map2 (a_mul o) err (tab N 1 (λ j _, diff j)); ret ← mx_map2 (a_add o) ret err;
            if i =? k - 1 then Ok (err, ret) else err ← mx_mul o (tab N N (λ i j, W j i)) err; Ok (err, ret)).
    assert (∀ m, m <= k → ∃ e, res_foldl body (tab N 1 err, tab N 1 (λ _ _, zero)) (seq 0 m) =
      Ok (e, tab N 1 (λ j _, summed N W diff err0 m j)) ∧
      (m < k → e = tab N 1 (λ j _, match m with 0 => err0 j | S m' => wsum o (λ t, W t j) (spread N W diff err0 m') N end))) as E.
    { induction m as [|m IH]; intros Hm.
      - exists (tab N 1 err). split; [done|]. intros _. apply tab_ext. intros i j Hi Hj. unfold err0. by replace j with 0 by lia.
      - destruct (IH ltac:(lia)) as (e & He & Hm'). rewrite (Hm' ltac:(lia)) in He. clear IH Hm'.
        rewrite seq_S, res_foldl_app, He. cbn [mbind res_bind res_foldl Nat.add]. unfold body at 1.
        rewrite mx_map2_tab. cbn [mbind res_bind]. rewrite mx_map2_tab. cbn [mbind res_bind].
        destruct (m =? k - 1) eqn:Emk.
        + apply Nat.eqb_eq in Emk. cbn [mbind res_bind]. eexists. split.
          * f_equal. f_equal. apply tab_ext. intros i j Hi Hj. cbn [summed]. f_equal. by destruct m.
          * lia.
        + rewrite mx_mul_tab. cbn [mbind res_bind]. eexists. split.
          * f_equal. f_equal. apply tab_ext. intros i j Hi Hj. cbn [summed]. f_equal. by destruct m.
          * intros _. apply tab_ext. intros i j Hi Hj. apply wsum_ext; [done|]. intros t Ht. by destruct m. }
    destruct (E k ltac:(lia)) as (e & He & _). rewrite He. done.
  Qed.

  Lemma wsum_heard w x x' n : (∀ k, k < n → a_eqb o (w k) zero = false → x k = x' k) → wsum o w x n = wsum o w x' n.
  Proof.
    intros Hx. unfold wsum. assert (∀ m s acc, s + m <= n →
      foldl (λ acc k, if a_eqb o (w k) zero then acc else a_add o acc (a_mul o (w k) (x k))) acc (seq s m) =
      foldl (λ acc k, if a_eqb o (w k) zero then acc else a_add o acc (a_mul o (w k) (x' k))) acc (seq s m)) as E; [|apply E; lia].
    induction m as [|m IH]; intros s acc Hs; [done|]. cbn [seq foldl]. destruct (a_eqb o (w s) zero) eqn:Ew; [apply IH; lia|].
    rewrite (Hx s) by (done || lia). apply IH. lia.
  Qed.

  Lemma wsum_single w x n i : i < n → a_eqb o (w i) zero = false → (∀ s, s < n → s ≠ i → a_eqb o (w s) zero = true) →
    wsum o w x n = a_add o zero (a_mul o (w i) (x i)).
  Proof.
    intros Hi Hw Hz. unfold wsum.
    assert (∀ m s acc, (∀ k, s <= k → k < s + m → a_eqb o (w k) zero = true) →
      foldl (λ acc k, if a_eqb o (w k) zero then acc else a_add o acc (a_mul o (w k) (x k))) acc (seq s m) = acc) as E.
    { induction m as [|m IH]; intros s acc H; [done|]. cbn [seq foldl]. rewrite (H s) by lia. apply IH. intros k H1 H2. apply H; lia. }
    replace n with (i + S (n - i - 1)) by lia. rewrite seq_app, foldl_app, (E i 0) by (intros k _ Hk; apply Hz; lia).
    cbn [Nat.add seq foldl]. rewrite Hw. apply E. intros k H1 H2. apply Hz; lia.
  Qed.

  Section forward.
    Context (N I L : nat) (rank : nat → nat) (W : nat → nat → A) (b : nat → A) (f : nat → nfun A).
    Hypothesis Hff : feeds_forward o N I L rank W b f.
    Hypothesis Hio : a_eqb o (a_one o) zero = false.
    Notation run x k := (Nat.iter k (round N W b f) x).

    (** Inputs that survive being added to zero. *)
    Definition passes (x : nat → nat → A) : Prop :=
      ∀ i c, i < I → a_add o (a_add o zero (a_mul o (a_one o) (x i c))) zero = x i c.

    Lemma input_kept x k i c : I <= N → passes x → i < I → run x k i c = x i c.
    Proof using Hff Hio.
      intros HIN Hp Hi. induction k as [|k IH]; [done|]. rewrite Nat.iter_succ. unfold round at 1.
      destruct Hff as [H1 _]. destruct (H1 i Hi) as (_ & Hf & Hb & Hw & Hz). rewrite Hf, Hb. cbn [forward linear].
      rewrite (wsum_single _ _ N i); [|lia|by rewrite Hw|done]. rewrite Hw. cbn beta. rewrite IH. by apply Hp.
    Qed.

    Lemma settled x y c : I <= N → passes x → (∀ i, i < I → x i c = y i c) → ∀ r j k m, j < N → rank j <= r → rank j <= k → rank j <= m →
      run x k j c = run y m j c.
    Proof using Hff Hio.
      intros HIN Hp Hxy.
      assert (∀ r x' y' j k m, (∀ i, i < I → x' i c = x i c) → (∀ i, i < I → y' i c = x i c) → j < N → rank j <= r → rank j <= k → rank j <= m →
        run x' k j c = run y' m j c) as E.
      { induction r as [|r IH]; intros x' y' j k m Hx' Hy' Hj Hr Hk Hm.
        - destruct (decide (j < I)) as [Hji|Hji].
          + assert (∀ z k, (∀ i, i < I → z i c = x i c) → run z k j c = x j c) as E.
            { clear k m Hk Hm. intros z k Hz. induction k as [|k IH]; [by apply Hz|]. rewrite Nat.iter_succ. unfold round at 1.
              destruct Hff as [H1 _]. destruct (H1 j Hji) as (_ & Hf & Hb & Hw & Hzz). rewrite Hf, Hb. cbn [forward linear].
              rewrite (wsum_single _ _ N j); [|lia|by rewrite Hw|done]. rewrite Hw. cbn beta. rewrite IH. by apply Hp. }
            by rewrite !E.
          + destruct Hff as [_ H2]. destruct (H2 j ltac:(lia) Hj). lia.
        - destruct (decide (rank j <= r)); [by apply IH|].
          destruct (decide (j < I)) as [Hji|Hji].
          { destruct Hff as [H1 _]. destruct (H1 j Hji). lia. }
          destruct k as [|k]; [lia|]. destruct m as [|m]; [lia|]. rewrite !Nat.iter_succ. unfold round at 1 3. f_equal. f_equal.
          apply wsum_heard. intros s Hs Hws. destruct Hff as [_ H2]. destruct (H2 j ltac:(lia) Hj) as (_ & _ & H).
          specialize (H s Hs Hws). apply IH; [done|done|done|lia|lia|lia]. }
      intros r j k m. apply E; [done|]. intros i Hi. symmetry. by apply Hxy.
    Qed.
  End forward.
End networks.
