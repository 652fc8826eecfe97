(** Properties C65, C113 and C114: the averaged perceptron. *)
From Verif Require Import Prelude BytesModel FloatModel AttrModel StoreModel DenseModel DenseSpec DenseProofs GridModel GridSpec GridProofs
  PredModel PredProofs KnnModel KnnProps CartSpec CartModel CartProps FilterModel PercModel PercProofs.
From Flocq Require Import IEEE754.BinarySingleNaN IEEE754.Bits IEEE754.Binary.
Local Open Scope nat_scope.

(** ** Training sets for the examples *)

Definition ax : attr := FloatA "x" 2.
Definition ac : attr := CatA "c" ["no"; "yes"].
Definition a_dense (rows : list (Z * N)) : dense :=
  match dense_run 64 dense_new
    ([DAdd ax; DAdd ac; DClass ac true; DExtend (length rows)] ++
     imap (λ i r, DSet (Spec 0 0 ax) i (pack_float (float_of_Z r.1))) rows ++
     imap (λ i r, DSet (Spec 1 0 ac) i (byte8 r.2)) rows) with
  | Ok d => d | _ => dense_new end.
Definition a_grid (rows : list (Z * N)) : grid := dense_grid [((1, 0), true)] (a_dense rows).
Definition a_feat (rows : list (Z * N)) (r : nat) : list binary64 :=
  match rows !! r with Some p => [float_of_Z p.1] | None => [] end.


Definition a_rowb (r : res (list N)) (f : list binary64) : bool :=
  match r with Ok v => match unpack_float v, f with Ok x, [y] => same_bits x y | _, _ => false end | _ => false end.
Definition a_holdsb (rows : list (Z * N)) : bool :=
  let g := a_grid rows in
  bool_decide (resolve g (numeric_columns g) = Ok [Spec 0 0 ax]) &&
  forallb (λ r, a_rowb (gr_get g (Spec 0 0 ax) r) (a_feat rows r)) (seq 0 (gr_size g).2).

Lemma a_holds rows : a_holdsb rows = true → holds_features (a_grid rows) (a_feat rows).
Proof.
  unfold a_holdsb. rewrite !andb_true_iff. intros (H1 & H2).
  apply bool_decide_eq_true_1 in H1. rewrite forallb_forall in H2. split.
  - apply in_order_agrees, dense_grid_in_order.
  - exists [Spec 0 0 ax]. split; [exact H1|]. intros r Hr.
    specialize (H2 r ltac:(apply in_seq; split; [lia|exact Hr])). unfold a_rowb in H2.
    destruct (gr_get _ _ _) as [v| |] eqn:Ev; [|discriminate|discriminate].
    destruct (unpack_float v) as [x| |] eqn:Ex; [|discriminate|discriminate].
    destruct (a_feat rows r) as [|y [|? ?]]; [discriminate| |discriminate].
    exists [v]. cbn [res_mapM]. rewrite Ev. cbn [mbind res_bind]. split; [reflexivity|].
    rewrite Ex. cbn [mbind res_bind]. by rewrite (same_bits_eq _ _ H2).
Qed.

(** A perceptron of one feature with learning rate zero, starting threshold zero and training error [e]. *)
Definition a_new (e : Z) : perc := perc_new 1 (float_of_Z 0) (float_of_Z 0) (float_of_Z e).
Definition a_fit (e : Z) (rows : list (Z * N)) : res perc := perc_fit ex_show (a_new e) (a_grid rows).
(** The predictions for [rows]. *)
Definition a_pred (r : res perc) (rows : list (Z * N)) : res (list (res string)) :=
  p ← r; o ← perc_predict ex_show (λ l, l) 64 p (a_grid rows);
  match o with Some d => Ok (map (get_class ex_show (dense_grid [((0, 0), true)] d)) (seq 0 (length rows))) | None => Err end.

(** ** C65: learning from labels, and a prediction for each row *)

(** Fitting ignores the labels: two training sets with the same numbers, whatever their
    labels, give the same perceptron. *)
Theorem C65_labels_ignored show show' p g g' feat p1 p2 :
  holds_features g feat → holds_features g' feat → (gr_size g).2 = (gr_size g').2 → gr_all_attrs g = gr_all_attrs g' →
  perc_fit show p g = Ok p1 → perc_fit show' p g' = Ok p2 → p1 = p2.
Proof. apply fit_features. Qed.
Print Assumptions C65_labels_ignored.

Definition okp (r : res perc) : bool := match r with Ok _ => true | _ => false end.
Lemma okp_ok r : okp r = true → ∃ p, r = Ok p.
Proof. destruct r as [p| |]; [by exists p|discriminate|discriminate]. Qed.

Example C65_swapped_labels : ∃ p, a_fit 1 [(1, 0%N); (2, 1%N); (-3, 0%N)]%Z = Ok p ∧ a_fit 1 [(1, 1%N); (2, 0%N); (-3, 1%N)]%Z = Ok p.
Proof.
  destruct (okp_ok (a_fit 1 [(1, 0%N); (2, 1%N); (-3, 0%N)]%Z)) as (p & Hp); [vm_compute; reflexivity|].
  destruct (okp_ok (a_fit 1 [(1, 1%N); (2, 0%N); (-3, 1%N)]%Z)) as (q & Hq); [vm_compute; reflexivity|].
  exists p. split; [exact Hp|]. rewrite Hq. f_equal. symmetry.
  refine (C65_labels_ignored _ _ _ _ _ (a_feat [(1, 0%N); (2, 1%N); (-3, 0%N)]%Z) _ _ _ _ _ _ Hp Hq).
  - apply a_holds. vm_compute. reflexivity.
  - pose proof (a_holds [(1, 1%N); (2, 0%N); (-3, 1%N)]%Z ltac:(vm_compute; reflexivity)) as (Hi & specs & Hs & Hr).
    split; [exact Hi|]. exists specs. split; [exact Hs|]. intros r Hlt. destruct (Hr r Hlt) as (raws & H1 & H2).
    exists raws. split; [exact H1|]. rewrite H2. destruct r as [|[|[|r]]]; reflexivity.
  - vm_compute. reflexivity.
  - vm_compute. reflexivity.
Qed.

(** Predict on at least two rows: every row but the second gets the label its own weighted sum
    asks for, and the second one gets the positive label only if no later row is negative. *)
Theorem C65_predict show order pg p g c no yes feat lab training : (∀ k, order k ≡ₚ k) →
  pc_trained p = true → pc_training p = Some training → check_compatible (gr_all_attrs g) training ≠ None →
  gr_class_attrs g = [c] → two_labels c no yes → holds_features g feat →
  (∀ r, r < (gr_size g).2 → get_class show g r = Ok (lab r)) →
  (∀ r, r < (gr_size g).2 → length (pc_weights p) <= length (feat r)) →
  1 < (gr_size g).2 →
  ∃ d, perc_predict show order pg p g = Ok (Some d) ∧ ∀ order', class_order d order' →
    ∀ i, i < (gr_size g).2 → get_class show (dense_grid order' d) i =
      Ok (if (if decide (i = 1) then fires p (feat 1) && forallb (λ j, fires p (feat j)) (seq 2 ((gr_size g).2 - 2))
              else fires p (feat i)) then yes else no).
Proof. apply predict_rows. Qed.
Print Assumptions C65_predict.

(** A perceptron that was not trained refuses to predict: it panics, and so it is left with no
    prediction at all for any instances. *)
Theorem C65_untrained show order pg features rate threshold error what :
  perc_predict show order pg (perc_new features rate threshold error) what = Panic.
Proof. reflexivity. Qed.
Print Assumptions C65_untrained.

Definition a_what : list (Z * N) := [(1, 0%N); (2, 1%N); (-1, 0%N)]%Z.
Example C65_predict_example : two_labels ac "no" "yes" ∧ gr_class_attrs (a_grid a_what) = [ac] ∧
  holds_features (a_grid a_what) (a_feat a_what) ∧ (gr_size (a_grid a_what)).2 = 3 ∧
  check_compatible (gr_all_attrs (a_grid a_what)) (gr_all_attrs (a_grid a_what)) ≠ None ∧
  ∀ r, r < 3 → ∃ s, get_class ex_show (a_grid a_what) r = Ok s.
Proof.
  split; [constructor|]. split; [vm_compute; reflexivity|]. split; [apply a_holds; vm_compute; reflexivity|].
  split; [vm_compute; reflexivity|]. split; [intros H; vm_compute in H; discriminate H|].
  intros [|[|[|r]]] Hr; [eexists; vm_compute; reflexivity..|lia].
Qed.

(** The same training set serves to predict its first, third and later rows as they should be,
    but the second one, which is positive, is overwritten by the third. *)
Theorem C65_overwritten_refuted : ∃ rows what p, a_fit 1 rows = Ok p ∧
  map (λ i, fires p (a_feat what i)) (seq 0 3) = [true; true; false] ∧
  a_pred (Ok p) what = Ok [Ok "yes"; Ok "no"; Ok "no"].
Proof.
  exists [(1, 0%N); (2, 1%N)]%Z, [(1, 0%N); (2, 1%N); (-1, 0%N)]%Z.
  destruct (okp_ok (a_fit 1 [(1, 0%N); (2, 1%N)]%Z)) as (p & Hp); [vm_compute; reflexivity|].
  exists p. split; [exact Hp|].
  assert (match a_fit 1 [(1, 0%N); (2, 1%N)]%Z with Ok p =>
    map (λ i, fires p (a_feat [(1, 0%N); (2, 1%N); (-1, 0%N)]%Z i)) (seq 0 3) | _ => [] end = [true; true; false]) as H1
    by (vm_compute; reflexivity).
  assert (a_pred (a_fit 1 [(1, 0%N); (2, 1%N)]%Z) [(1, 0%N); (2, 1%N); (-1, 0%N)]%Z = Ok [Ok "yes"; Ok "no"; Ok "no"]) as H2
    by (vm_compute; reflexivity).
  rewrite Hp in H1, H2. split; [exact H1|exact H2].
Qed.
Print Assumptions C65_overwritten_refuted.

(** On a single row that is negative Predict panics. *)
Theorem C65_single_row_refuted : ∃ rows what p, a_fit 1 rows = Ok p ∧ length what = 1 ∧ a_pred (Ok p) what = Panic.
Proof.
  exists [(1, 0%N); (2, 1%N)]%Z, [(-1, 0%N)]%Z.
  destruct (okp_ok (a_fit 1 [(1, 0%N); (2, 1%N)]%Z)) as (p & Hp); [vm_compute; reflexivity|].
  exists p. split; [exact Hp|]. split; [reflexivity|]. rewrite <- Hp. vm_compute. reflexivity.
Qed.
Print Assumptions C65_single_row_refuted.

(** ** C113: the arguments of the constructor *)

Definition set_bias (b : binary64) (p : perc) : perc :=
  Perc (pc_training p) (pc_weights p) (pc_edges p) b (pc_threshold p) (pc_rate p) (pc_error p) (pc_trained p) (pc_count p).
Definition rmap {A B} (f : A → B) (r : res A) : res B := match r with Ok a => Ok (f a) | Err => Err | Panic => Panic end.

Lemma average_bias b p : perc_average (set_bias b p) = rmap (set_bias b) (perc_average p).
Proof. unfold perc_average. cbn [pc_edges pc_weights pc_count set_bias]. by destruct (res_mapM _ _). Qed.
Lemma update_bias b p x c : perc_update (set_bias b p) x c = rmap (set_bias b) (perc_update p x c).
Proof.
  unfold perc_update. cbn [pc_edges pc_weights pc_count pc_rate set_bias]. destruct (res_mapM _ _) as [r| |]; [|done|done].
  cbn [mbind res_bind]. apply (average_bias b (with_learned p (map fst r) (map snd r) (pc_count p))).
Qed.
Lemma epoch_bias b data : ∀ p, perc_epoch (set_bias b p) data = rmap (set_bias b) (perc_epoch p data).
Proof.
  unfold perc_epoch. induction data as [|d data IH]; intros p; [done|]. cbn [res_foldl].
  change (perc_score (set_bias b p) d.2) with (perc_score p d.2).
  destruct (perc_score p d.2) as [s| |]; [|done|done]. cbn [mbind res_bind].
  destruct (negb (float_eq float_zero s)).
  - rewrite update_bias. destruct (perc_update p d.2 _) as [q| |]; [|done|done]. cbn [mbind res_bind rmap].
    exact (IH (with_error q (b64_plus mode_NE (pc_error q) (b64_abs (b64_minus mode_NE float_zero s))))).
  - apply IH.
Qed.
Lemma fit_bias show b p g : perc_fit show (set_bias b p) g = rmap (set_bias b) (perc_fit show p g).
Proof.
  unfold perc_fit. destruct (process_data show g) as [data| |]; [|done|done]. cbn [mbind res_bind].
  change (with_error (set_bias b p) tenth) with (set_bias b (with_error p tenth)).
  assert (∀ l p, res_foldl (λ p (_ : nat), perc_epoch p data) (set_bias b p) l =
    rmap (set_bias b) (res_foldl (λ p (_ : nat), perc_epoch p data) p l)) as ->.
  { clear. induction l as [|x l IH]; intros p; [done|]. cbn [res_foldl]. rewrite epoch_bias.
    destruct (perc_epoch p data) as [q| |]; [|done|done]. cbn [mbind res_bind rmap]. apply IH. }
  destruct (res_foldl _ _ _) as [q| |]; [|done|done]. cbn [mbind res_bind rmap]. rewrite average_bias.
  by destruct (perc_average q).
Qed.

(** The starting threshold is ignored: perceptrons that differ in nothing else make the same
    predictions once fitted, and fail to be fitted on the same sets. *)
Theorem C113_starting_threshold_ignored show order pg features rate t1 t2 error g what :
  (p ← perc_fit show (perc_new features rate t1 error) g; perc_predict show order pg p what) =
  (p ← perc_fit show (perc_new features rate t2 error) g; perc_predict show order pg p what).
Proof.
  change (perc_new features rate t1 error) with (set_bias t1 (perc_new features rate t2 error)).
  rewrite fit_bias. by destruct (perc_fit show (perc_new features rate t2 error) g).
Qed.
Print Assumptions C113_starting_threshold_ignored.


(** What is passed as the learning rate is the threshold, and what is passed as the training
    error is the learning rate. A fitted perceptron of learning rate [rate] is positive on the
    rows whose weighted sum is at least [rate]; apart from that threshold its weights come from the
    training error [error]: they are those of the last row, scaled by plus or minus [error] and
    averaged twice. *)
Theorem C113_arguments_mixed_up show features rate threshold error g feat p : 0 < (gr_size g).2 → holds_features g feat →
  (∀ r, r < (gr_size g).2 → length (feat r) = features) →
  perc_fit show (perc_new features rate threshold error) g = Ok p →
  (∀ x, features <= length x →
    perc_score p x = Ok (if float_ge (foldl (b64_plus mode_NE) float_zero (zip_with (b64_mult mode_NE) x (pc_weights p))) rate
                         then float_one else minus_one)) ∧
  ∃ s, (s = float_one ∨ s = minus_one) ∧ let n := (gr_size g).2 in
    pc_weights p = map (λ f, averaged (steps (10 * n) float_zero) (steps (10 * n) float_zero)
      (averaged (steps (10 * n - 1) float_zero) (steps (10 * n) float_zero)
        (b64_mult mode_NE (b64_mult mode_NE error (b64_minus mode_NE float_zero s)) f))) (feat (n - 1)).
Proof.
  intros Hn Hf Hlen Hp. unfold perc_fit in Hp. apply bind_Ok in Hp as Hp'. destruct Hp' as (data & Hd & _).
  destruct (fit_learns show (perc_new features rate threshold error) g feat data) as (q & s & Hq & Hs & Hw & He & Hc & Ht & Hr & _).
  - cbn. by rewrite replicate_length.
  - done.
  - done.
  - done.
  - intros r Hr. cbn. rewrite replicate_length. by apply Hlen.
  - unfold perc_fit in Hq. rewrite Hp in Hq. injection Hq as <-.
    assert (pc_weights p = map (λ f, averaged (steps (10 * (gr_size g).2) float_zero) (steps (10 * (gr_size g).2) float_zero)
      (averaged (steps (10 * (gr_size g).2 - 1) float_zero) (steps (10 * (gr_size g).2) float_zero)
        (b64_mult mode_NE (b64_mult mode_NE error (b64_minus mode_NE float_zero s)) f))) (feat ((gr_size g).2 - 1))) as Hw'.
    { rewrite Hw. unfold last_weights. cbn [perc_new pc_edges pc_count pc_rate]. by rewrite zip_with_replicate_r_eq by (apply Hlen; lia). }
    split; [|exists s; split; [exact Hs|exact Hw']].
    intros x Hx. rewrite score_ok.
    + by rewrite Ht.
    + rewrite Hw', map_length, (Hlen ((gr_size g).2 - 1)) by lia. done.
Qed.
Print Assumptions C113_arguments_mixed_up.

Example C113_example : ∃ p, a_fit 1 [(1, 0%N); (2, 1%N); (-3, 0%N)]%Z = Ok p ∧
  holds_features (a_grid [(1, 0%N); (2, 1%N); (-3, 0%N)]%Z) (a_feat [(1, 0%N); (2, 1%N); (-3, 0%N)]%Z) ∧
  ∀ r, r < 3 → length (a_feat [(1, 0%N); (2, 1%N); (-3, 0%N)]%Z r) = 1.
Proof.
  destruct (okp_ok (a_fit 1 [(1, 0%N); (2, 1%N); (-3, 0%N)]%Z)) as (p & Hp); [vm_compute; reflexivity|].
  exists p. split; [exact Hp|]. split; [apply a_holds; vm_compute; reflexivity|].
  intros [|[|[|r]]] Hr; [reflexivity|reflexivity|reflexivity|lia].
Qed.

(** A larger learning rate alone turns a positive row negative, though nothing was learned
    differently: it moved the threshold. *)
Theorem C113_rate_refuted : ∃ rows p1 p2,
  perc_fit ex_show (perc_new 1 (float_of_Z 1) (float_of_Z 0) (float_of_Z 0)) (a_grid rows) = Ok p1 ∧
  perc_fit ex_show (perc_new 1 (float_of_Z 100) (float_of_Z 0) (float_of_Z 0)) (a_grid rows) = Ok p2 ∧
  pc_weights p1 = pc_weights p2 ∧ perc_score p1 [float_of_Z 5] = Ok float_one ∧ perc_score p2 [float_of_Z 5] = Ok minus_one.
Proof.
  exists [(1, 0%N); (2, 1%N); (-3, 0%N)]%Z.
  destruct (okp_ok (perc_fit ex_show (perc_new 1 (float_of_Z 1) (float_of_Z 0) (float_of_Z 0)) (a_grid [(1, 0%N); (2, 1%N); (-3, 0%N)]%Z)))
    as (p & Hp); [vm_compute; reflexivity|].
  destruct (okp_ok (perc_fit ex_show (perc_new 1 (float_of_Z 100) (float_of_Z 0) (float_of_Z 0)) (a_grid [(1, 0%N); (2, 1%N); (-3, 0%N)]%Z)))
    as (q & Hq); [vm_compute; reflexivity|].
  exists p, q. split; [exact Hp|]. split; [exact Hq|].
  assert (match perc_fit ex_show (perc_new 1 (float_of_Z 1) (float_of_Z 0) (float_of_Z 0)) (a_grid [(1, 0%N); (2, 1%N); (-3, 0%N)]%Z),
    perc_fit ex_show (perc_new 1 (float_of_Z 100) (float_of_Z 0) (float_of_Z 0)) (a_grid [(1, 0%N); (2, 1%N); (-3, 0%N)]%Z) with
    | Ok p, Ok q => match pc_weights p, pc_weights q, perc_score p [float_of_Z 5], perc_score q [float_of_Z 5] with
                    | [u], [v], Ok s, Ok t => same_bits u v && same_bits s float_one && same_bits t minus_one
                    | _, _, _, _ => false end
    | _, _ => false end = true) as H by (vm_compute; reflexivity).
  rewrite Hp, Hq in H.
  destruct (pc_weights p) as [|u [|? ?]]; [discriminate| |discriminate].
  destruct (pc_weights q) as [|v [|? ?]]; [discriminate| |discriminate].
  destruct (perc_score p _) as [s| |]; [|discriminate|discriminate].
  destruct (perc_score q _) as [t| |]; [|discriminate|discriminate].
  rewrite !andb_true_iff in H. destruct H as [[H1 H2] H3].
  clear Hp Hq. rewrite (same_bits_eq _ _ H1), (same_bits_eq _ _ H2), (same_bits_eq _ _ H3).
  split; [reflexivity|]. split; reflexivity.
Qed.
Print Assumptions C113_rate_refuted.

(** ** C114: every training row counts *)

Lemma predict_ext show order pg p q what : pc_trained p = pc_trained q → pc_training p = pc_training q →
  pc_weights p = pc_weights q → pc_threshold p = pc_threshold q →
  perc_predict show order pg p what = perc_predict show order pg q what.
Proof.
  intros H1 H2 H3 H4. unfold perc_predict. rewrite H1, H2. destruct (negb (pc_trained q)); [done|].
  destruct (process_data show what) as [data| |]; [|done|done]. cbn [mbind res_bind].
  destruct (pc_training q) as [t|]; [|done]. unfold perc_score. rewrite H3, H4. done.
Qed.

(** Among any three training sets with the same attributes, the same number of rows and the same
    last row, two lead to perceptrons that predict the same on every set. *)
Theorem C114_two_of_three show features rate threshold error n x attrs (g : nat → grid) (feat : nat → nat → list binary64) (p : nat → perc) :
  0 < n →
  (∀ k, k < 3 → holds_features (g k) (feat k) ∧ (gr_size (g k)).2 = n ∧ gr_all_attrs (g k) = attrs ∧
    (∀ r, r < n → length (feat k r) = features) ∧ feat k (n - 1) = x ∧
    perc_fit show (perc_new features rate threshold error) (g k) = Ok (p k)) →
  ∃ j k, j < k ∧ k < 3 ∧ ∀ show' order pg what,
    perc_predict show' order pg (p j) what = perc_predict show' order pg (p k) what.
Proof.
  intros Hn H. set (p0 := perc_new features rate threshold error) in *.
  assert (∀ k, k < 3 → pc_trained (p k) = true ∧ pc_training (p k) = Some attrs ∧ pc_threshold (p k) = rate ∧
    (pc_weights (p k) = last_weights p0 n x float_one ∨ pc_weights (p k) = last_weights p0 n x minus_one)) as Hk.
  { intros k Hk. destruct (H k Hk) as (Hf & Hs & Ha & Hlen & Hx & Hp). clear H.
    assert (∃ data, process_data show (g k) = Ok data) as (data & Hd).
    { unfold perc_fit in Hp. apply bind_Ok in Hp as (data & Hd & _). by exists data. }
    destruct (fit_learns show p0 (g k) (feat k) data) as (q & s & Hq & Hs' & Hw & He & Hc & Ht & Hr & Htr).
    - unfold p0. cbn. by rewrite replicate_length.
    - done.
    - done.
    - by rewrite Hs.
    - intros r Hlt. unfold p0. cbn. rewrite replicate_length. apply Hlen. by rewrite <- Hs.
    - rewrite Hp in Hq. injection Hq as <-. split; [done|].
      split.
      + unfold perc_fit in Hp. apply bind_Ok in Hp as (? & _ & Hp). apply bind_Ok in Hp as (? & _ & Hp).
        apply bind_Ok in Hp as (? & _ & Hp). injection Hp as <-. cbn. by rewrite Ha.
      + split; [exact Ht|]. rewrite Hs, Hx in Hw. by destruct Hs' as [-> | ->]; [left|right]. }
  clear H.
  assert (∀ j k, j < k → k < 3 → pc_weights (p j) = pc_weights (p k) → ∃ j k, j < k ∧ k < 3 ∧ ∀ show' order pg what,
    perc_predict show' order pg (p j) what = perc_predict show' order pg (p k) what) as Hgo.
  { intros j k Hjk Hk3 Hw. exists j, k. split; [done|]. split; [done|]. intros show' order pg what.
    destruct (Hk j ltac:(lia)) as (A1 & A2 & A3 & _). destruct (Hk k Hk3) as (B1 & B2 & B3 & _).
    apply predict_ext; congruence. }
  destruct (Hk 0 ltac:(lia)) as (_ & _ & _ & W0). destruct (Hk 1 ltac:(lia)) as (_ & _ & _ & W1).
  destruct (Hk 2 ltac:(lia)) as (_ & _ & _ & W2).
  destruct W0 as [W0|W0], W1 as [W1|W1]; try (apply (Hgo 0 1); [lia|lia|congruence]).
  - destruct W2 as [W2|W2]; [apply (Hgo 0 2)|apply (Hgo 1 2)]; [lia|lia|congruence|lia|lia|congruence].
  - destruct W2 as [W2|W2]; [apply (Hgo 1 2)|apply (Hgo 0 2)]; [lia|lia|congruence|lia|lia|congruence].
Qed.
Print Assumptions C114_two_of_three.

Definition a_three (k : nat) : list (Z * N) :=
  match k with 0 => [(1, 0%N); (4, 1%N)]%Z | 1 => [(-90, 1%N); (4, 0%N)]%Z | _ => [(7, 1%N); (4, 0%N)]%Z end.
Example C114_two_of_three_example : ∀ k, k < 3 → holds_features (a_grid (a_three k)) (a_feat (a_three k)) ∧
  (gr_size (a_grid (a_three k))).2 = 2 ∧ gr_all_attrs (a_grid (a_three k)) = [ax; ac] ∧
  (∀ r, r < 2 → length (a_feat (a_three k) r) = 1) ∧ a_feat (a_three k) (2 - 1) = [float_of_Z 4] ∧
  ∃ p, a_fit 1 (a_three k) = Ok p.
Proof.
  assert (∀ k, k < 3 → a_holdsb (a_three k) = true ∧ okp (a_fit 1 (a_three k)) = true) as H.
  { intros [|[|[|k]]] Hk; [split; vm_compute; reflexivity..|lia]. }
  intros k Hk. destruct (H k Hk) as [H1 H2]. split; [exact (a_holds _ H1)|]. clear H H1.
  split; [destruct k as [|[|[|k]]]; [vm_compute; reflexivity..|lia]|].
  split; [destruct k as [|[|[|k]]]; [vm_compute; reflexivity..|lia]|].
  split; [intros [|[|r]] Hr; [| |lia]; destruct k as [|[|[|k]]]; solve [reflexivity|lia]|].
  split; [destruct k as [|[|[|k]]]; [reflexivity..|lia]|]. exact (okp_ok _ H2).
Qed.

(** Training sets that have nothing but the last row in common, with the same perceptron. *)
Theorem C114_rows_refuted : ∃ rows1 rows2 p1 p2, a_fit 1 rows1 = Ok p1 ∧ a_fit 1 rows2 = Ok p2 ∧
  rows1 = [(1, 0%N); (2, 1%N); (3, 0%N); (4, 1%N)]%Z ∧ rows2 = [(-90, 1%N); (70, 0%N); (-50, 1%N); (4, 1%N)]%Z ∧
  ∀ show order pg what, perc_predict show order pg p1 what = perc_predict show order pg p2 what.
Proof.
  exists [(1, 0%N); (2, 1%N); (3, 0%N); (4, 1%N)]%Z, [(-90, 1%N); (70, 0%N); (-50, 1%N); (4, 1%N)]%Z.
  destruct (okp_ok (a_fit 1 [(1, 0%N); (2, 1%N); (3, 0%N); (4, 1%N)]%Z)) as (p & Hp); [vm_compute; reflexivity|].
  destruct (okp_ok (a_fit 1 [(-90, 1%N); (70, 0%N); (-50, 1%N); (4, 1%N)]%Z)) as (q & Hq); [vm_compute; reflexivity|].
  exists p, q. split; [exact Hp|]. split; [exact Hq|]. split; [reflexivity|]. split; [reflexivity|].
  assert (match a_fit 1 [(1, 0%N); (2, 1%N); (3, 0%N); (4, 1%N)]%Z, a_fit 1 [(-90, 1%N); (70, 0%N); (-50, 1%N); (4, 1%N)]%Z with
    | Ok p, Ok q => match pc_weights p, pc_weights q with [u], [v] => same_bits u v | _, _ => false end &&
        same_bits (pc_threshold p) (pc_threshold q) && bool_decide (pc_training p = pc_training q) && pc_trained p && pc_trained q
    | _, _ => false end = true) as H by (vm_compute; reflexivity).
  rewrite Hp, Hq in H. rewrite !andb_true_iff in H. destruct H as [[[[H1 H2] H3] H4] H5]. clear Hp Hq.
  intros show order pg what. apply predict_ext.
  - rewrite H4, H5. reflexivity.
  - exact (bool_decide_eq_true_1 _ H3).
  - destruct (pc_weights p) as [|u [|? ?]]; [discriminate| |discriminate].
    destruct (pc_weights q) as [|v [|? ?]]; [discriminate| |discriminate].
    rewrite (same_bits_eq _ _ H1). reflexivity.
  - exact (same_bits_eq _ _ H2).
Qed.
Print Assumptions C114_rows_refuted.
