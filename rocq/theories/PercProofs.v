(** Proofs about the averaged perceptron. *)
From Verif Require Import Prelude BytesModel FloatModel AttrModel AttrProofs StoreModel DenseModel DenseSpec DenseProofs
  GridModel GridSpec GridProofs PredModel PredProofs KnnModel CartSpec CartModel CartGrow CartFit FilterModel PercModel.
From Flocq Require Import IEEE754.BinarySingleNaN IEEE754.Bits IEEE754.Binary.
Local Open Scope nat_scope.

(** ** The rows *)

Lemma process_features show g feat data : holds_features g feat → process_data show g = Ok data →
  map snd data = map feat (seq 0 (gr_size g).2).
Proof.
  intros Hf H. pose proof (problem_vec_reads g feat Hf) as Hp. unfold problem_vec in Hp. unfold process_data in H.
  destruct (resolve g _) as [specs| |]; [|done|done]. cbn [mbind res_bind] in H, Hp.
  destruct (gr_class_attrs g) as [|c [|c' l]]; [done| |done].
  destruct (match c with CatA _ vs => length vs =? 2 | BinA _ => true | FloatA _ _ => false end); [|done].
  apply bind_Ok in H as ([data' b] & H & [= ->]). apply bind_Ok in Hp as ([v' b'] & Hp & [= <-]).
  assert (∀ v v' b, map_over_rows g specs (λ v row rowno,
            f ← res_mapM unpack_float row; class ← get_class show g rowno; _ ← idx v rowno;
            Ok (<[rowno := (class, f)]> v, Cont)) v = Ok (v', b) →
          map_over_rows g specs (λ (v : list sample) row rowno, x ← res_mapM unpack_float row; Ok (<[rowno := x]> v, Cont)) (map snd v) =
          Ok (map snd v', b)) as Hsim.
  { clear. intros v v' b. unfold map_over_rows. destruct (gr_iter g specs) as [rows| |]; [|by intros [= -> ->]|done].
    revert v. induction rows as [|[i fetch] rows IH]; intros v; cbn [run_rows]; [by intros [= -> ->]|].
    destruct fetch as [row| |]; [|done|done]. cbn [mbind res_bind].
    destruct (res_mapM unpack_float row) as [x| |]; [|done|done]. cbn [mbind res_bind].
    destruct (get_class show g i) as [cl| |]; [|done|done]. cbn [mbind res_bind].
    destruct (idx v i) as [old| |]; [|done|done]. cbn [mbind res_bind]. intros H. apply IH in H. rewrite <- H. f_equal.
    change (map snd) with (fmap (M:=list) (@snd string (list binary64))). by rewrite list_fmap_insert. }
  apply Hsim in H. assert (map snd (replicate (gr_size g).2 ("", [] : list binary64)) = replicate (gr_size g).2 []) as E.
  { clear. induction (gr_size g).2 as [|n IH]; [done|]. cbn. by rewrite IH. }
  rewrite E in H. rewrite Hp in H. by injection H as -> _.
Qed.

(** ** Fit does not look at the classes *)

Lemma epoch_features p data data' : map snd data = map snd data' → perc_epoch p data = perc_epoch p data'.
Proof.
  unfold perc_epoch. revert p data'. induction data as [|[c x] data IH]; intros p [|[c' x'] data'] H; try done.
  cbn [map snd] in H. injection H as -> H. cbn [res_foldl snd].
  destruct (perc_score p x') as [s| |]; [|done|done]. cbn [mbind res_bind].
  destruct (negb (float_eq float_zero s)); [|by apply IH].
  destruct (perc_update p x' _) as [p'| |]; [|done|done]. cbn [mbind res_bind]. by apply IH.
Qed.

Lemma fit_features show show' p g g' feat p1 p2 :
  holds_features g feat → holds_features g' feat → (gr_size g).2 = (gr_size g').2 → gr_all_attrs g = gr_all_attrs g' →
  perc_fit show p g = Ok p1 → perc_fit show' p g' = Ok p2 → p1 = p2.
Proof.
  intros Hf Hf' Hn Ha H1 H2. unfold perc_fit in *. rewrite Ha in H1.
  apply bind_Ok in H1 as (data & Hd & H1). apply bind_Ok in H2 as (data' & Hd' & H2).
  apply (process_features _ _ _ _ Hf) in Hd. apply (process_features _ _ _ _ Hf') in Hd'.
  assert (map snd data = map snd data') as E by congruence.
  assert (∀ l p, res_foldl (λ p _, perc_epoch p data) p l = res_foldl (λ p (_ : nat), perc_epoch p data') p l) as El.
  { clear -E. induction l as [|x l IH]; intros p; [done|]. cbn [res_foldl]. rewrite (epoch_features p data data' E).
    destruct (perc_epoch p data') as [q| |]; [|done|done]. cbn [mbind res_bind]. apply IH. }
  rewrite El in H1. rewrite H1 in H2. by injection H2.
Qed.

(** ** What is learned *)

Definition steps (k : nat) (e : binary64) : binary64 := Nat.iter k (λ x, b64_plus mode_NE x float_one) e.

(** The weights after the last row [x]: the answer to it was [s]. *)
Definition averaged (count e w : binary64) : binary64 :=
  b64_div mode_NE (b64_plus mode_NE (b64_mult mode_NE count w) e) (b64_plus mode_NE e float_one).

Lemma average_ok p : length (pc_weights p) = length (pc_edges p) →
  perc_average p = Ok (with_learned p (zip_with (λ w e, averaged (pc_count p) e w) (pc_weights p) (pc_edges p))
    (pc_edges p) (b64_plus mode_NE (pc_count p) float_one)).
Proof.
  intros H. unfold perc_average.
  assert (∀ (es ws pre : list binary64) k, length pre = k → length ws = length es → pc_weights p = pre ++ ws →
    res_mapM (λ '(i, fcount), wv ← idx (pc_weights p) i;
        Ok (b64_div mode_NE (b64_plus mode_NE (b64_mult mode_NE (pc_count p) wv) fcount) (b64_plus mode_NE fcount float_one)))
      (imap (λ i, pair (k + i)) es) = Ok (zip_with (λ w e, averaged (pc_count p) e w) ws es)) as E.
  { induction es as [|e es IH]; intros [|w ws] pre k Hk Hl Hw; try done.
    cbn [imap res_mapM]. rewrite Nat.add_0_r. assert (idx (pc_weights p) k = Ok w) as ->.
    { unfold idx. rewrite Hw, lookup_app_r, Hk, Nat.sub_diag by lia. done. }
    cbn [mbind res_bind]. rewrite (imap_ext _ (λ i, pair (S k + i))).
    2:{ intros j z _. cbn. by replace (k + S j) with (S k + j) by lia. }
    rewrite (IH ws (pre ++ [w]) (S k)); [done|rewrite app_length; cbn; lia|by injection Hl|by rewrite <- app_assoc]. }
  specialize (E (pc_edges p) (pc_weights p) [] 0 eq_refl H eq_refl). cbn [Nat.add] in E.
  change (imap pair (pc_edges p)) with (imap (λ i, pair i) (pc_edges p)). rewrite E. done.
Qed.

Lemma update_ok p x c : length (pc_weights p) = length (pc_edges p) → length (pc_weights p) <= length x →
  perc_update p x c = Ok (with_learned p
    (zip_with (λ f e, averaged (pc_count p) (b64_plus mode_NE e float_one) (b64_mult mode_NE (b64_mult mode_NE (pc_rate p) c) f)) x (pc_edges p))
    (map (λ e, b64_plus mode_NE e float_one) (pc_edges p)) (b64_plus mode_NE (pc_count p) float_one)).
Proof.
  intros H Hx. unfold perc_update.
  assert (∀ (ws es xs pre pre' : list binary64) k, length pre = k → length pre' = k → length ws = length es → length ws <= length xs →
    pc_edges p = pre ++ es → x = pre' ++ xs →
    res_mapM (λ '(i, _), fv ← idx x i; e ← idx (pc_edges p) i;
        Ok (b64_mult mode_NE (b64_mult mode_NE (pc_rate p) c) fv, b64_plus mode_NE e float_one))
      (imap (λ i, pair (k + i)) ws) =
    Ok (zip_with (λ f e, (b64_mult mode_NE (b64_mult mode_NE (pc_rate p) c) f, b64_plus mode_NE e float_one)) xs es)) as E.
  { induction ws as [|w ws IH]; intros [|e es] xs pre pre' k Hk Hk' Hl Hlx He Hxs; try done.
    { by destruct xs. }
    destruct xs as [|f xs]; [cbn in Hlx; lia|].
    cbn [imap res_mapM]. rewrite Nat.add_0_r. assert (idx x k = Ok f) as ->.
    { unfold idx. rewrite Hxs, lookup_app_r, Hk', Nat.sub_diag by lia. done. }
    cbn [mbind res_bind]. assert (idx (pc_edges p) k = Ok e) as ->.
    { unfold idx. rewrite He, lookup_app_r, Hk, Nat.sub_diag by lia. done. }
    cbn [mbind res_bind]. rewrite (imap_ext _ (λ i, pair (S k + i))).
    2:{ intros j z _. cbn. by replace (k + S j) with (S k + j) by lia. }
    cbn [length] in Hl, Hlx.
    rewrite (IH es xs (pre ++ [e]) (pre' ++ [f]) (S k)); [done|rewrite app_length; cbn; lia|rewrite app_length; cbn; lia|lia|lia|
      by rewrite <- app_assoc|by rewrite <- app_assoc]. }
  specialize (E (pc_weights p) (pc_edges p) x [] [] 0 eq_refl eq_refl H Hx eq_refl eq_refl). cbn [Nat.add] in E.
  change (imap pair (pc_weights p)) with (imap (λ i, pair i) (pc_weights p)). rewrite E. cbn [mbind res_bind].
  rewrite average_ok; cbn [with_learned pc_weights pc_edges pc_count pc_training pc_bias pc_threshold pc_rate pc_error pc_trained].
  2:{ by rewrite !map_length. }
  f_equal. unfold with_learned. cbn. clear E.
  assert (map snd (zip_with (λ f e : binary64, (b64_mult mode_NE (b64_mult mode_NE (pc_rate p) c) f, b64_plus mode_NE e float_one)) x (pc_edges p)) =
    map (λ e, b64_plus mode_NE e float_one) (pc_edges p)) as E1.
  { rewrite H in Hx. clear H. revert Hx. generalize (pc_edges p). revert x. induction x as [|f x IH]; intros [|e es] Hl; cbn in *; try done; [lia|].
    f_equal. apply IH. lia. }
  rewrite E1. f_equal. clear. generalize (pc_edges p). induction x as [|f x IH]; intros [|e es]; try done. cbn. f_equal. apply IH.
Qed.

Lemma score_ok p x : length (pc_weights p) <= length x →
  perc_score p x = Ok (if float_ge (foldl (b64_plus mode_NE) float_zero (zip_with (b64_mult mode_NE) x (pc_weights p))) (pc_threshold p)
    then float_one else minus_one).
Proof.
  intros Hx. unfold perc_score.
  assert (∀ (ws xs pre : list binary64) k acc, length pre = k → length ws <= length xs → x = pre ++ xs →
    res_foldl (λ score '(i, wv), f ← idx x i; Ok (b64_plus mode_NE score (b64_mult mode_NE f wv))) acc (imap (λ i, pair (k + i)) ws) =
    Ok (foldl (b64_plus mode_NE) acc (zip_with (b64_mult mode_NE) xs ws))) as E.
  { induction ws as [|w ws IH]; intros xs pre k acc Hk Hl Hxs; [by destruct xs|].
    destruct xs as [|f xs]; [cbn in Hl; lia|]. cbn [imap res_foldl]. rewrite Nat.add_0_r. assert (idx x k = Ok f) as ->.
    { unfold idx. rewrite Hxs, lookup_app_r, Hk, Nat.sub_diag by lia. done. }
    cbn [mbind res_bind]. rewrite (imap_ext _ (λ i, pair (S k + i))).
    2:{ intros j z _. cbn. by replace (k + S j) with (S k + j) by lia. }
    rewrite (IH xs (pre ++ [f]) (S k)); [done|rewrite app_length; cbn; lia|cbn in Hl; lia|by rewrite <- app_assoc]. }
  specialize (E (pc_weights p) x [] 0 float_zero eq_refl Hx eq_refl). cbn [Nat.add] in E.
  change (imap pair (pc_weights p)) with (imap (λ i, pair i) (pc_weights p)). rewrite E. done.
Qed.

(** Everything but the learned numbers stays. *)
Definition settings_kept (p q : perc) : Prop :=
  pc_training q = pc_training p ∧ pc_bias q = pc_bias p ∧ pc_threshold q = pc_threshold p ∧ pc_rate q = pc_rate p ∧
  pc_trained q = pc_trained p.

Lemma step_always s : s = float_one ∨ s = minus_one → float_eq float_zero s = false.
Proof. intros [-> | ->]; vm_compute; reflexivity. Qed.

Lemma epoch_step p datum : length (pc_weights p) = length (pc_edges p) → length (pc_weights p) <= length datum.2 →
  ∃ s q, (s = float_one ∨ s = minus_one) ∧ perc_epoch p [datum] = Ok q ∧ settings_kept p q ∧
    pc_weights q = zip_with (λ f e, averaged (pc_count p) (b64_plus mode_NE e float_one)
      (b64_mult mode_NE (b64_mult mode_NE (pc_rate p) (b64_minus mode_NE float_zero s)) f)) datum.2 (pc_edges p) ∧
    pc_edges q = map (λ e, b64_plus mode_NE e float_one) (pc_edges p) ∧
    pc_count q = b64_plus mode_NE (pc_count p) float_one.
Proof.
  intros H1 H2. unfold perc_epoch. cbn [res_foldl]. rewrite score_ok by done. cbn [mbind res_bind].
  set (s := if float_ge _ _ then float_one else minus_one). exists s.
  assert (s = float_one ∨ s = minus_one) as Hs by (unfold s; destruct float_ge; auto).
  rewrite (step_always s Hs). cbn [negb]. rewrite update_ok by done. cbn [mbind res_bind].
  eexists. split; [done|]. split; [reflexivity|]. done.
Qed.

Lemma epoch_app p l l' : perc_epoch p (l ++ l') = (q ← perc_epoch p l; perc_epoch q l').
Proof. apply res_foldl_app. Qed.

Lemma epoch_learns l : ∀ p, length (pc_weights p) = length (pc_edges p) →
  Forall (λ d, length d.2 = length (pc_weights p)) l →
  ∃ q, perc_epoch p l = Ok q ∧ settings_kept p q ∧ length (pc_weights q) = length (pc_weights p) ∧
    pc_edges q = map (steps (length l)) (pc_edges p) ∧ pc_count q = steps (length l) (pc_count p) ∧
    ∀ x, last l = Some x → ∃ s, (s = float_one ∨ s = minus_one) ∧
      pc_weights q = zip_with (λ f e, averaged (steps (length l - 1) (pc_count p)) (steps (length l) e)
        (b64_mult mode_NE (b64_mult mode_NE (pc_rate p) (b64_minus mode_NE float_zero s)) f)) x.2 (pc_edges p).
Proof.
  induction l as [|x l IH] using rev_ind; intros p Hl Hall.
  - exists p. split; [done|]. split; [done|]. split; [done|]. split.
    { clear. cbn [length]. unfold steps. cbn [Nat.iter]. symmetry. apply map_id. }
    split; [done|]. intros x Hx. done.
  - apply Forall_app in Hall as [Hall Hx]. apply Forall_cons in Hx as [Hx _].
    destruct (IH p Hl Hall) as (q & Hq & (K1 & K2 & K3 & K4 & K5) & Hw & He & Hc & _).
    destruct (epoch_step q x) as (s & q' & Hs & Hq' & (L1 & L2 & L3 & L4 & L5) & Hw' & He' & Hc').
    { rewrite Hw, He, map_length. done. }
    { rewrite Hw. lia. }
    exists q'. split; [rewrite epoch_app, Hq; exact Hq'|]. split; [unfold settings_kept; repeat split; congruence|]. split.
    { rewrite Hw', zip_with_length, He, map_length. lia. }
    rewrite app_length. cbn [length]. rewrite Nat.add_1_r. split.
    { rewrite He', He, map_map. done. }
    split; [by rewrite Hc', Hc|]. intros z Hz. rewrite last_snoc in Hz. injection Hz as <-. exists s. split; [done|].
    rewrite Hw', He, Hc, K4. replace (S (length l) - 1) with (length l) by lia.
    clear. generalize (pc_edges p). induction (x.2) as [|f fs IH]; intros [|e es]; try done. cbn. f_equal. apply IH.
Qed.

Lemma epochs_flat data k : ∀ p, res_foldl (λ p (_ : nat), perc_epoch p data) p (seq 0 k) = perc_epoch p (concat (replicate k data)).
Proof.
  generalize 0. induction k as [|k IH]; intros n p; [done|]. cbn [seq res_foldl replicate concat]. rewrite epoch_app.
  destruct (perc_epoch p data) as [q| |]; [|done|done]. cbn [mbind res_bind]. apply IH.
Qed.

Lemma last_concat {A} k (data : list A) x : 0 < k → last data = Some x → last (concat (replicate k data)) = Some x.
Proof.
  intros Hk Hx. destruct k as [|k]; [lia|]. clear Hk. induction k as [|k IH]; cbn [replicate concat].
  - by rewrite app_nil_r.
  - rewrite last_app. cbn [replicate concat] in IH. by rewrite IH.
Qed.

Lemma length_replicate_concat {A} k (data : list A) : length (concat (replicate k data)) = k * length data.
Proof. induction k as [|k IH]; [done|]. cbn [replicate concat]. rewrite app_length, IH. lia. Qed.

(** The weights that Fit leaves: [x] is the last row, [n] the number of rows. *)
Definition last_weights (p : perc) (n : nat) (x : list binary64) (s : binary64) : list binary64 :=
  zip_with (λ f e, averaged (steps (10 * n) (pc_count p)) (steps (10 * n) e)
    (averaged (steps (10 * n - 1) (pc_count p)) (steps (10 * n) e)
       (b64_mult mode_NE (b64_mult mode_NE (pc_rate p) (b64_minus mode_NE float_zero s)) f))) x (pc_edges p).

Lemma fit_learns show p g feat data : length (pc_weights p) = length (pc_edges p) → holds_features g feat →
  process_data show g = Ok data → 0 < (gr_size g).2 →
  (∀ r, r < (gr_size g).2 → length (feat r) = length (pc_weights p)) →
  ∃ q s, perc_fit show p g = Ok q ∧ (s = float_one ∨ s = minus_one) ∧
    pc_weights q = last_weights p (gr_size g).2 (feat ((gr_size g).2 - 1)) s ∧
    pc_edges q = map (steps (10 * (gr_size g).2)) (pc_edges p) ∧
    pc_count q = steps (10 * (gr_size g).2 + 1) (pc_count p) ∧
    pc_threshold q = pc_threshold p ∧ pc_rate q = pc_rate p ∧ pc_trained q = true.
Proof.
  intros Hl Hf Hd Hn Hlen. pose proof (process_features show g feat data Hf Hd) as Hs. set (n := (gr_size g).2) in *.
  assert (length data = n) as Hdn.
  { apply (f_equal length) in Hs. by rewrite !map_length, seq_length in Hs. }
  unfold perc_fit. rewrite Hd. cbn [mbind res_bind]. rewrite epochs_flat. unfold max_epochs.
  destruct (epoch_learns (concat (replicate 10 data)) (with_error p tenth)) as (q & Hq & (K1 & K2 & K3 & K4 & K5) & Hw & He & Hc & Hlast).
  { done. }
  { apply Forall_forall. intros d Hin. apply elem_of_list_In, in_concat in Hin as (l & Hin & Hdl).
    apply elem_of_list_In, elem_of_replicate in Hin as [-> _].
    assert (d.2 ∈ map snd data) as Hin by (apply elem_of_list_In, in_map; done).
    rewrite Hs in Hin. apply elem_of_list_fmap in Hin as (r & -> & Hr). apply elem_of_seq in Hr. apply Hlen. lia. }
  rewrite Hq. cbn [mbind res_bind]. rewrite average_ok.
  2:{ rewrite Hw, He, map_length. done. }
  cbn [mbind res_bind].
  assert (∃ x, last data = Some x ∧ x.2 = feat (n - 1)) as (x & Hx & Hxf).
  { destruct (last data) as [x|] eqn:E.
    - exists x. split; [done|]. rewrite last_lookup, Hdn in E.
      assert (map snd data !! (n - 1) = Some x.2) as E1.
      { change (map snd) with (fmap (M:=list) (@snd string (list binary64))). rewrite list_lookup_fmap.
        replace (n - 1) with (pred n) by lia. by rewrite E. }
      rewrite Hs in E1. change (map feat) with (fmap (M:=list) feat) in E1. rewrite list_lookup_fmap, lookup_seq_lt in E1 by lia.
      cbn in E1. by injection E1.
    - apply last_None in E. subst data. cbn in Hdn. lia. }
  destruct (Hlast x (last_concat 10 data x ltac:(lia) Hx)) as (s & Hss & Hws).
  rewrite length_replicate_concat, Hdn in *. cbn [with_error pc_weights pc_edges pc_count pc_rate pc_threshold pc_training pc_bias pc_trained] in *.
  eexists _, s. split; [reflexivity|]. cbn [with_learned pc_weights pc_edges pc_count pc_rate pc_threshold pc_trained].
  split; [done|]. split.
  { rewrite Hws, He, Hc, Hxf. unfold last_weights. clear. generalize (pc_edges p).
    induction (feat (n - 1)) as [|f fs IH]; intros [|e es]; try done. cbn [zip_with map]. f_equal. apply IH. }
  split; [done|]. split; [by rewrite Hc, Nat.add_1_r|]. split; [done|]. done.
Qed.

(** ** Predictions *)

Definition fires (p : perc) (x : list binary64) : bool :=
  float_ge (foldl (b64_plus mode_NE) float_zero (zip_with (b64_mult mode_NE) x (pc_weights p))) (pc_threshold p).

Lemma fires_gt (b : bool) : float_gt (if b then float_one else minus_one) float_zero = b.
Proof. destruct b; vm_compute; reflexivity. Qed.

(** What the rows hold after the first [k]. *)
Definition written (pos : nat → bool) (k : nat) (f : nat → option (list N)) : Prop :=
  (∀ i, i ≠ 1 → f i = if (i <? k) && pos i then Some (pack_u64 1) else None) ∧
  (f 1 = if (1 <? k) && pos 1 && forallb pos (seq 2 (k - 2)) then Some (pack_u64 1) else f 1) ∧
  ((1 <? k) && pos 1 && forallb pos (seq 2 (k - 2)) = false → f 1 = None ∨ f 1 = Some (replicate 8 0%N)).

Lemma seq_more k : 2 <= k → seq 2 (S k - 2) = seq 2 (k - 2) ++ [k].
Proof. intros H. replace (S k - 2) with (S (k - 2)) by lia. rewrite seq_S. by replace (2 + (k - 2)) with k by lia. Qed.

Lemma written_yes pos k f : written pos k f → pos k = true →
  written pos (S k) (λ j, if bool_decide (j = k) then Some (pack_u64 1) else f j).
Proof.
  intros (H1 & H2 & H3) Hk. split; [|split].
  - intros i Hi. cbv beta. case_bool_decide as E.
    + subst. rewrite Hk. destruct (Nat.ltb_spec k (S k)); [done|lia].
    + rewrite (H1 i Hi). destruct (Nat.ltb_spec i k), (Nat.ltb_spec i (S k)); try lia; done.
  - cbv beta. case_bool_decide as E.
    + match goal with |- _ = (if ?b then _ else _) => destruct b; reflexivity end.
    + destruct (Nat.ltb_spec 1 (S k)); [|done]. destruct (decide (k < 2)); [replace k with 0 in * by lia; lia|].
      rewrite seq_more, forallb_app by lia. cbn [forallb]. rewrite Hk, !andb_true_r. destruct (Nat.ltb_spec 1 k); [|lia].
      rewrite H2 at 1. cbn [andb]. destruct (pos 1 && forallb pos (seq 2 (k - 2))); [|done].
      done.
  - cbv beta. case_bool_decide as E.
    + subst k. cbn. rewrite Hk. done.
    + destruct (Nat.ltb_spec 1 (S k)).
      2:{ intros _. apply H3. destruct (Nat.ltb_spec 1 k); [lia|done]. }
      rewrite seq_more, forallb_app by lia. cbn [forallb]. rewrite Hk, !andb_true_r. intros Hq. apply H3.
      destruct (Nat.ltb_spec 1 k); [done|lia].
Qed.

Lemma written_no pos k f : written pos k f → pos k = false →
  written pos (S k) (λ j, if bool_decide (j = 1) then Some (replicate 8 0%N) else f j).
Proof.
  intros (H1 & H2 & H3) Hk.
  assert ((1 <? S k) && pos 1 && forallb pos (seq 2 (S k - 2)) = false) as Hz.
  { destruct (Nat.ltb_spec 1 (S k)); [|done]. destruct (decide (k = 1)) as [->|]; [by rewrite Hk|].
    rewrite seq_more, forallb_app by lia. cbn [forallb]. rewrite Hk. by rewrite !andb_false_r. }
  split; [|split].
  - intros i Hi. cbv beta. rewrite bool_decide_eq_false_2 by done. rewrite (H1 i Hi).
    destruct (Nat.ltb_spec i k), (Nat.ltb_spec i (S k)); try lia; [done| |done].
    replace i with k by lia. by rewrite Hk.
  - by rewrite Hz.
  - intros _. cbv beta. rewrite bool_decide_eq_true_2 by done. by right.
Qed.

Lemma predict_loop pg p c n data : 1 < n → right_size (default_kind c) (pack_u64 1) → right_size (default_kind c) (replicate 8 0%N) →
  Forall (λ d : string * list binary64, length (pc_weights p) <= length d.2) data → length data <= n →
  ∀ d0, predicted pg c n (λ _, None) d0 →
  ∃ d f, res_foldl (λ ret '(i, datum), result ← perc_score p datum.2;
                if float_gt result float_zero then dense_set ret (Spec 0 0 c) i (pack_u64 1)
                else dense_set ret (Spec 0 0 c) 1 (replicate 8 0%N)) d0 (imap pair data) = Ok d ∧
    predicted pg c n f d ∧ written (λ i, match data !! i with Some x => fires p x.2 | None => false end) (length data) f.
Proof.
  intros Hn Hy Hz. induction data as [|x data IH] using rev_ind; intros Hall Hlen d0 H0.
  - exists d0, (λ _, None). split; [done|]. split; [done|]. split; [|split]; [|done|by left].
    intros i _. by destruct (Nat.ltb_spec i 0); [lia|].
  - apply Forall_app in Hall as [Hall Hx]. apply Forall_cons in Hx as [Hx _]. rewrite app_length in Hlen. cbn in Hlen.
    destruct (IH Hall ltac:(lia) d0 H0) as (d & f & Hrun & Hp & Hw).
    rewrite imap_app. cbn [imap]. rewrite res_foldl_app, Hrun. cbn [mbind res_bind res_foldl].
    unfold compose. rewrite Nat.add_0_r. rewrite score_ok by done. cbn [mbind res_bind].
    change (float_ge _ _) with (fires p x.2). rewrite fires_gt.
    rewrite app_length. cbn [length]. rewrite Nat.add_1_r.
    assert (written (λ i, match (data ++ [x]) !! i with Some y => fires p y.2 | None => false end) (length data) f) as Hw'.
    { destruct Hw as (W1 & W2 & W3).
      assert (∀ i, i < length data → (data ++ [x]) !! i = data !! i) as Hlk by (intros; by apply lookup_app_l).
      assert ((1 <? length data) && match (data ++ [x]) !! 1 with Some y => fires p y.2 | None => false end &&
          forallb (λ i, match (data ++ [x]) !! i with Some y => fires p y.2 | None => false end) (seq 2 (length data - 2)) =
        (1 <? length data) && match data !! 1 with Some y => fires p y.2 | None => false end &&
          forallb (λ i, match data !! i with Some y => fires p y.2 | None => false end) (seq 2 (length data - 2))) as E.
      { destruct (Nat.ltb_spec 1 (length data)); [|done]. rewrite Hlk by done. f_equal.
        assert (∀ l, (∀ i, i ∈ l → i < length data) →
          forallb (λ i, match (data ++ [x]) !! i with Some y => fires p y.2 | None => false end) l =
          forallb (λ i, match data !! i with Some y => fires p y.2 | None => false end) l) as Hfb.
        { induction l as [|i l IHl]; intros Hi; [done|]. cbn [forallb]. rewrite Hlk by (apply Hi; left). f_equal. apply IHl.
          intros j Hj. apply Hi. by right. }
        apply Hfb. intros i Hi%elem_of_seq. lia. }
      split; [|split].
      - intros i Hi. rewrite (W1 i Hi). destruct (Nat.ltb_spec i (length data)); [|done]. by rewrite Hlk.
      - by rewrite E.
      - by rewrite E. }
    destruct (fires p x.2) eqn:Ef.
    + destruct (predicted_set pg c n f d (length data) (pack_u64 1) Hp ltac:(lia) Hy) as (d' & Hd' & Hp').
      rewrite Hd'. eexists d', _. split; [done|]. split; [exact Hp'|]. apply written_yes; [done|].
      rewrite lookup_app_r, Nat.sub_diag by lia. done.
    + destruct (predicted_set pg c n f d 1 (replicate 8 0%N) Hp ltac:(lia) Hz) as (d' & Hd' & Hp').
      rewrite Hd'. eexists d', _. split; [done|]. split; [exact Hp'|]. apply written_no; [done|].
      rewrite lookup_app_r, Nat.sub_diag by lia. done.
Qed.

(** The two labels of a class that the perceptron accepts. *)
Inductive two_labels : attr → string → string → Prop :=
| two_cat name no yes : two_labels (CatA name [no; yes]) no yes
| two_bin name : two_labels (BinA name) "0" "1".

Lemma predict_rows show order pg p g c no yes feat lab training : (∀ k, order k ≡ₚ k) →
  pc_trained p = true → pc_training p = Some training → check_compatible (gr_all_attrs g) training ≠ None →
  gr_class_attrs g = [c] → two_labels c no yes → holds_features g feat →
  (∀ r, r < (gr_size g).2 → get_class show g r = Ok (lab r)) →
  (∀ r, r < (gr_size g).2 → length (pc_weights p) <= length (feat r)) →
  1 < (gr_size g).2 →
  ∃ d, perc_predict show order pg p g = Ok (Some d) ∧ ∀ order', class_order d order' →
    ∀ i, i < (gr_size g).2 → get_class show (dense_grid order' d) i =
      Ok (if (if decide (i = 1) then fires p (feat 1) && forallb (λ j, fires p (feat j)) (seq 2 ((gr_size g).2 - 2))
              else fires p (feat i)) then yes else no).
Proof.
  intros Ho Ht Htr Hcomp Hc Htwo Hf Hlab Hlen Hn. set (n := (gr_size g).2) in *. unfold perc_predict. rewrite Ht. cbn [negb].
  assert (∃ data, process_data show g = Ok data) as (data & Hd).
  { pose proof (problem_vec_reads g feat Hf) as Hp. unfold problem_vec in Hp. unfold process_data.
    destruct (resolve g _) as [specs| |]; [|done|done]. cbn [mbind res_bind] in Hp |- *. rewrite Hc.
    assert (match c with CatA _ vs => length vs =? 2 | BinA _ => true | FloatA _ _ => false end = true) as -> by (by destruct Htwo).
    unfold map_over_rows in *. destruct Hf as [Hit _]. destruct (Hit specs) as (rows & Er & Hperm & _). rewrite Er in *.
    assert (∀ i fetch, (i, fetch) ∈ rows → i < n) as Hin.
    { intros i fetch Hin. apply (elem_of_list_fmap_1 fst) in Hin. change (fst <$> rows) with (map fst rows) in Hin.
      rewrite Hperm in Hin. apply elem_of_seq in Hin. unfold n. cbn in Hin. lia. }
    assert (∀ (rows : list (nat * res (list (list N)))) (v : list (string * list binary64)) w, (∀ i fetch, (i, fetch) ∈ rows → i < n) → length v = n →
      (∃ z, run_rows (λ (v : list sample) row rowno, x ← res_mapM unpack_float row; Ok (<[rowno := x]> v, Cont)) w rows = Ok z) →
      ∃ z, run_rows (λ v row rowno, f ← res_mapM unpack_float row; class ← get_class show g rowno; _ ← idx v rowno;
            Ok (<[rowno := (class, f)]> v, Cont)) v rows = Ok z) as H.
    { clear -Hlab. intros rows. induction rows as [|[i fetch] rows IH]; intros v w Hin Hl (z & Hz); [by eexists|].
      cbn [run_rows] in Hz |- *. destruct fetch as [row| |]; [|done|done]. cbn [mbind res_bind] in Hz |- *.
      destruct (res_mapM unpack_float row) as [x| |]; [|done|done]. cbn [mbind res_bind] in Hz |- *.
      assert (i < n) as Hi by (apply (Hin i (Ok row)); left).
      rewrite (Hlab i Hi). cbn [mbind res_bind].
      assert (∃ old, idx v i = Ok old) as (old & ->).
      { unfold idx. destruct (lookup_lt_is_Some_2 v i) as [old ->]; [lia|]. eauto. }
      cbn [mbind res_bind]. apply (IH _ (<[i := x]> w)); [|by rewrite insert_length|eauto].
      intros j fetch Hj. apply (Hin j fetch). by right. }
    destruct (H rows (replicate n ("", [])) (replicate n [])) as ([z b] & Hz); [done|apply replicate_length| |].
    { destruct (run_rows _ (replicate _ _) rows) as [z| |]; [eauto|done|done]. }
    fold n. rewrite Hz. eauto. }
  rewrite Hd. cbn [mbind res_bind]. rewrite Htr. destruct (check_compatible _ training) as [all|]; [|done].
  destruct (prediction_vector_ok pg g c Hc) as (d0 & Hd0 & Hp0). rewrite Hd0. cbn [mbind res_bind].
  rewrite (predicted_class_attrs pg c n (λ _, None) d0 _ Hp0) by apply Ho. cbn [idx lookup list_lookup mbind res_bind].
  rewrite (predicted_find _ _ _ _ _ Hp0).
  pose proof (process_features show g feat data Hf Hd) as Hs. fold n in Hs.
  assert (length data = n) as Hdn.
  { apply (f_equal length) in Hs. by rewrite !map_length, seq_length in Hs. }
  assert (∀ i, i < n → ∃ x, data !! i = Some x ∧ x.2 = feat i) as Hrow.
  { intros i Hi. destruct (lookup_lt_is_Some_2 data i) as [x Hx]; [lia|]. exists x. split; [done|].
    assert (map snd data !! i = Some x.2) as E1.
    { change (map snd) with (fmap (M:=list) (@snd string (list binary64))). rewrite list_lookup_fmap. by rewrite Hx. }
    rewrite Hs in E1. change (map feat) with (fmap (M:=list) feat) in E1. rewrite list_lookup_fmap, lookup_seq_lt in E1 by lia.
    cbn in E1. by injection E1. }
  destruct (predict_loop pg p c n data Hn) with (d0 := d0) as (d & f & Hrun & Hp & Hw).
  { by destruct Htwo. }
  { by destruct Htwo. }
  { apply Forall_lookup. intros i x Hx. pose proof (lookup_lt_Some _ _ _ Hx) as Hi. rewrite Hdn in Hi.
    destruct (Hrow i Hi) as (x' & Hx' & E). rewrite Hx in Hx'. injection Hx' as <-. rewrite E. by apply Hlen. }
  { lia. }
  { exact Hp0. }
  rewrite Hrun. cbn [mbind res_bind]. exists d. split; [done|]. intros order' Ho' i Hi.
  unfold get_class. cbn [dense_grid gr_class_attrs gr_get_attribute gr_get].
  rewrite (predicted_class_attrs _ _ _ _ _ _ Hp Ho'), (predicted_find _ _ _ _ _ Hp), (predicted_get _ _ _ _ _ _ Hp Hi).
  cbn [mbind res_bind].
  assert (∀ b : bool, (b = true → f i = Some (pack_u64 1)) → (b = false → f i = None ∨ f i = Some (replicate 8 0%N)) →
    attr_decode show c (cell_value (default_kind c) (f i)) = Ok (if b then yes else no)) as Hdec.
  { intros b Hy Hno. destruct Htwo.
    - destruct b; [rewrite Hy by done; done|]. by destruct Hno as [-> | ->].
    - destruct b; [rewrite Hy by done; done|]. by destruct Hno as [-> | ->]. }
  apply Hdec.
  - rewrite Hdn in Hw. destruct Hw as (W1 & W2 & W3). case_decide as E.
    + subst i. intros Hb. rewrite W2. assert ((1 <? n) = true) as -> by (apply Nat.ltb_lt; lia). cbn [andb].
      destruct (Hrow 1 Hn) as (x & -> & ->). apply andb_prop in Hb as [-> Hb]. cbn [andb].
      assert (forallb (λ i, match data !! i with Some x => fires p x.2 | None => false end) (seq 2 (n - 2)) = true) as ->; [|done].
      apply forallb_forall. intros j Hj. rewrite forallb_forall in Hb. specialize (Hb j Hj). apply in_seq in Hj.
      destruct (Hrow j ltac:(lia)) as (x' & -> & ->). done.
    + intros Hb. rewrite (W1 i E). assert ((i <? n) = true) as -> by (apply Nat.ltb_lt; lia). cbn [andb].
      destruct (Hrow i Hi) as (x & -> & ->). by rewrite Hb.
  - rewrite Hdn in Hw. destruct Hw as (W1 & W2 & W3). case_decide as E.
    + subst i. intros Hb. apply W3. assert ((1 <? n) = true) as -> by (apply Nat.ltb_lt; lia). cbn [andb].
      destruct (Hrow 1 Hn) as (x & -> & ->). apply andb_false_iff in Hb as [-> | Hb]; [done|].
      assert (forallb (λ i, match data !! i with Some x => fires p x.2 | None => false end) (seq 2 (n - 2)) = false) as ->; [|by rewrite andb_false_r].
      apply not_true_iff_false. intros Ht'. rewrite forallb_forall in Ht'. apply not_true_iff_false in Hb. apply Hb.
      apply forallb_forall. intros j Hj. specialize (Ht' j Hj). apply in_seq in Hj.
      destruct (Hrow j ltac:(lia)) as (x' & Hx' & E'). cbv beta in Ht'. rewrite Hx', E' in Ht'. done.
    + intros Hb. left. rewrite (W1 i E). assert ((i <? n) = true) as -> by (apply Nat.ltb_lt; lia). cbn [andb].
      destruct (Hrow i Hi) as (x & -> & ->). by rewrite Hb.
Qed.
