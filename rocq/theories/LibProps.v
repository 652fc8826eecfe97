(** The properties of the classifiers that use liblinear. *)
From Coq Require Import Reals.
From Verif Require Import Prelude FloatModel AttrModel AttrProofs StoreModel DenseModel DenseSpec DenseProofs GridModel GridSpec
  GridProofs KnnModel FilterModel CartModel SvcModel CartProps LinModel LinSpec LinProofs LinProps
  LibModel LibSpec LibProofs LibTrain LibGrid.
From Flocq Require Import IEEE754.BinarySingleNaN IEEE754.Bits IEEE754.Binary.
Local Open Scope nat_scope.

(** ** Examples: tables with two numbers and a class *)

Definition b1 : attr := FloatA "a" 2.
Definition b2 : attr := FloatA "b" 2.
Definition bc : attr := FloatA "class" 2.
(** The columns are [b1], [b2], [bc], or with [swap] [b2], [b1], [bc]. *)
Definition lb_dense (swap : bool) (rows : list (binary64 * binary64 * binary64)) : dense :=
  match dense_run 64 dense_new
    ([DAdd (if swap then b2 else b1); DAdd (if swap then b1 else b2); DAdd bc; DClass bc true; DExtend (length rows)] ++
     concat (imap (λ i r, [DSet (Spec 0 (if swap then 1 else 0) b1) i (pack_float r.1.1);
                           DSet (Spec 0 (if swap then 0 else 1) b2) i (pack_float r.1.2);
                           DSet (Spec 0 2 bc) i (pack_float r.2)]) rows)) with
  | Ok d => d | _ => dense_new end.
Definition lb_grid (swap : bool) (rows : list (binary64 * binary64 * binary64)) : grid :=
  dense_grid [((0, 2), true)] (lb_dense swap rows).
Definition lb_get (rows : list (binary64 * binary64 * binary64)) (f : binary64 * binary64 * binary64 → binary64) (r : nat) : binary64 :=
  match rows !! r with Some p => f p | None => plus_zero end.
Definition lb_col (rows : list (binary64 * binary64 * binary64)) (a : attr) (r : nat) : binary64 :=
  if bool_decide (a = b1) then lb_get rows (λ p, p.1.1) r else lb_get rows (λ p, p.1.2) r.
Definition lb_y (rows : list (binary64 * binary64 * binary64)) : nat → binary64 := lb_get rows snd.

Definition lb_check (swap : bool) (rows : list (binary64 * binary64 * binary64)) : bool :=
  let g := lb_grid swap rows in
  bool_decide (gr_all_attrs g = if swap then [b2; b1; bc] else [b1; b2; bc]) &&
  bool_decide (gr_class_attrs g = [bc]) && ((gr_size g).2 =? length rows) &&
  col_check g bc (lb_y rows) && col_check g b1 (lb_col rows b1) && col_check g b2 (lb_col rows b2).

Lemma lb_ok swap rows : lb_check swap rows = true →
  observations (lb_grid swap rows) bc (lb_y rows) (lb_col rows) ∧ (gr_size (lb_grid swap rows)).2 = length rows ∧
  numeric_attrs (lb_grid swap rows) = if swap then [b2; b1] else [b1; b2].
Proof.
  unfold lb_check. cbn zeta. intros H. apply andb_prop in H as [H H6]. apply andb_prop in H as [H H5].
  apply andb_prop in H as [H H4]. apply andb_prop in H as [H H3]. apply andb_prop in H as [H1 H2].
  apply bool_decide_eq_true in H1, H2. apply Nat.eqb_eq in H3. split; [|split; [done|]].
  - split; [apply in_order_agrees, dense_grid_in_order|]. split; [done|]. split; [by apply col_check_ok|].
    intros a (Ha & _ & Hn). rewrite H1 in Ha. rewrite H2 in Hn.
    assert (a = b1 ∨ a = b2) as [->| ->]; [|by apply col_check_ok|by apply col_check_ok].
    clear -Ha Hn. rewrite elem_of_list_singleton in Hn.
    destruct swap; rewrite !elem_of_cons, elem_of_nil in Ha; (destruct Ha as [Ha|[Ha|[Ha|[]]]]; [auto|auto|destruct (Hn Ha)]).
  - unfold numeric_attrs. rewrite H1, H2. by destruct swap.
Qed.

(** A simple solver for the examples: the sum of the rows of the class minus the others. *)
Definition add_row (w : list binary64) (r : list (Z * binary64) * bool) : list binary64 :=
  foldl (λ w (n : Z * binary64),
    alter (λ v, if r.2 then b64_plus mode_NE v n.2 else b64_minus mode_NE v n.2) (Z.to_nat n.1 - 1) w) w r.1.
Definition summed (k : nat) (rows : list (list (Z * binary64) * bool)) (cp cn : binary64) : list binary64 :=
  foldl add_row (replicate k plus_zero) rows.
Lemma summed_solves k : solves k (summed k).
Proof.
  intros rows cp cn. unfold summed.
  assert (∀ w, length w = k → length (foldl add_row w rows) = k) as H.
  { induction rows as [|[ns side] rows IH]; intros w Hw; [done|]. cbn [foldl]. apply IH. unfold add_row. cbn [fst snd].
    revert w Hw. induction ns as [|n ns IH']; intros w Hw; [done|]. cbn [foldl]. apply IH'. by rewrite alter_length. }
  apply H, replicate_length.
Qed.

Definition fz : Z → binary64 := float_of_Z.
Definition lb_train : list (binary64 * binary64 * binary64) := [(fz 1, fz 0, fz 0); (fz 0, fz 2, fz 1); (fz 3, fz 0, fz 0)].

(** ** C153: the training set *)

(** Liblinear gets every row: the values that are not zero of the numeric columns that are no
    class, in the order of the table, and the class of the row. *)
Theorem C153_training_set g name prec y col attrs :
  observations g (FloatA name prec) y col → 0 < (gr_size g).2 → in_table_order g attrs →
  ∃ p, grid_problem g = Ok p ∧ pb_n p = length attrs + 1 ∧ pb_y p = map y (seq 0 (gr_size g).2) ∧
    ∀ r, r < (gr_size g).2 → problem_row p r = Ok (sparse (map (λ a, col a r) attrs)).
Proof.
  intros Hobs Hn Ha. rewrite (in_table_order_unique g _ _ Ha (numeric_order g)). by apply (grid_problem_ok g name prec).
Qed.
Print Assumptions C153_training_set.

(** The same for rows given as lists. *)
Theorem C153_rows X y x0 : X !! 0 = Some x0 → length y = length X →
  ∃ p, new_problem X y plus_zero = Ok p ∧ pb_n p = length x0 + 1 ∧ pb_y p = y ∧
    ∀ i x, X !! i = Some x → problem_row p i = Ok (sparse x).
Proof. apply problem_ok. Qed.
Print Assumptions C153_rows.

Lemma lb_train_ok : lb_check false lb_train = true.
Proof. vm_compute. reflexivity. Qed.

Example C153_ex : ∃ p, grid_problem (lb_grid false lb_train) = Ok p ∧ pb_n p = 3 ∧
  problem_row p 1 = Ok [(2%Z, fz 2)].
Proof.
  destruct (lb_ok false lb_train lb_train_ok) as (Hobs & Hn & Ha).
  destruct (C153_training_set _ _ _ _ _ _ Hobs ltac:(rewrite Hn; cbn; lia) (numeric_order _)) as (p & H1 & H2 & _ & H3).
  exists p. split; [exact H1|]. rewrite Ha in H2, H3. split; [exact H2|]. rewrite Hn in H3. exact (H3 1 ltac:(cbn; lia)).
Qed.

(** ** C154: the classes *)

(** With whole numbers as classes, Fit trains one model for each class against the others
    (one for two classes), on all rows, with the penalty [C] times the weight of the class. *)
Theorem C154_logistic undef train_one C g name prec y col attrs label :
  observations g (FloatA name prec) y col → 0 < (gr_size g).2 → in_table_order g attrs →
  whole_labels (gr_size g).2 y label → solves (length attrs + 1) train_one →
  ∃ m, logistic_fit undef train_one C g = Ok m ∧ lm_n m = length attrs + 1 ∧ complete m ∧
    trained train_one (gr_size g).2 (λ r, map (λ a, col a r) attrs) label C [] m.
Proof.
  intros Hobs Hn Ha Hw Hs. rewrite (in_table_order_unique g _ _ Ha (numeric_order g)) in *.
  destruct (logistic_ok g name prec y col Hobs undef train_one C Hn Hs) as (m & H1 & H2 & H3 & H4).
  exists m. split; [done|]. split; [done|]. split; [done|]. eapply trained_ext; [|exact H4].
  intros r Hr. destruct (Hw r Hr) as [-> Hz]. cbn beta. by apply to_int_whole.
Qed.
Print Assumptions C154_logistic.

Theorem C154_svc undef train_one half s w g name prec y col attrs label :
  observations g (FloatA name prec) y col → 0 < (gr_size g).2 → in_table_order g attrs →
  whole_labels (gr_size g).2 y label → solves (length attrs + 1) train_one →
  (sv_weights s = Some w ∧ w ≠ [] ∨ sv_weights s = None ∧ sv_auto s = false ∧ w = [fz 1; fz 1]) →
  ∃ m, svc_fit undef train_one half s g = Ok m ∧ lm_n m = length attrs + 1 ∧ complete m ∧
    trained train_one (gr_size g).2 (λ r, map (λ a, col a r) attrs) label (sv_c s) w m.
Proof.
  intros Hobs Hn Ha Hw Hs Hsw. rewrite (in_table_order_unique g _ _ Ha (numeric_order g)) in *.
  assert (class_weights half s g = Ok w ∧ w ≠ []) as [Hcw Hne].
  { unfold class_weights. destruct Hsw as [[-> ?]|(-> & -> & ->)]; [done|]. split; [|done].
    unfold weights_from_fixed. destruct Hobs as (_ & -> & _).
    assert (float_one = fz 1) as -> by (apply same_bits_eq; vm_compute; reflexivity). reflexivity. }
  destruct (svc_ok g name prec y col Hobs undef train_one half s w Hn Hs Hcw Hne) as (m & H1 & H2 & H3 & H4).
  exists m. split; [done|]. split; [done|]. split; [done|]. eapply trained_ext; [|exact H4].
  intros r Hr. destruct (Hw r Hr) as [-> Hz]. cbn beta. by apply to_int_whole.
Qed.
Print Assumptions C154_svc.

Definition lb_label (r : nat) : Z := if r =? 1 then 1%Z else 0%Z.
Lemma lb_whole : whole_labels 3 (lb_y lb_train) lb_label.
Proof. intros r Hr. destruct r as [|[|[|r]]]; [| | |lia]; (split; [reflexivity|unfold lb_label; cbn [Nat.eqb]; lia]). Qed.

(** The hypotheses hold for a table of three rows; the classes are 0 and 1. *)
Example C154_ex : ∃ m, logistic_fit (λ _, 0%Z) (summed 3) (fz 1) (lb_grid false lb_train) = Ok m ∧
  ∀ z, z ∈ lm_labels m ↔ z = 0%Z ∨ z = 1%Z.
Proof.
  destruct (lb_ok false lb_train lb_train_ok) as (Hobs & Hn & Ha).
  destruct (C154_logistic (λ _, 0%Z) (summed 3) (fz 1) _ _ _ _ _ _ lb_label Hobs ltac:(rewrite Hn; cbn; lia) (numeric_order _))
    as (m & H1 & _ & _ & [H2 _ _]).
  - rewrite Hn. exact lb_whole.
  - rewrite Ha. apply summed_solves.
  - exists m. split; [exact H1|]. intros z. rewrite H2, Hn. split.
    + intros (r & Hr & <-). unfold lb_label. destruct (r =? 1); auto.
    + intros [->| ->]; [exists 0|exists 1]; (split; [cbn; lia|done]).
Qed.

(** The claim that fails for other numbers: classes that differ are told apart.  0.25 and
    0.75 become one class, which is neither, whatever the solver does. *)
Definition quarter : binary64 := b64_div mode_NE (fz 1) (fz 4).
Definition three_quarters : binary64 := b64_div mode_NE (fz 3) (fz 4).
Definition lb_fractions : list (binary64 * binary64 * binary64) := [(fz 1, fz 0, quarter); (fz 0, fz 2, three_quarters)].
Theorem C154_fractions_refuted : ∃ g name prec y col,
  observations g (FloatA name prec) y col ∧ (gr_size g).2 = 2 ∧ y 0 ≠ y 1 ∧
  ∀ undef train_one C pg order, solves 3 train_one → (∀ k, order k ≡ₚ k) →
  ∃ m d, logistic_fit undef train_one C g = Ok m ∧ linear_predict pg (Some m) g = Ok d ∧
    column_holds (dense_grid (order (map_to_list (d_class d))) d) (FloatA name prec) (λ _, fz 0) ∧
    ∀ r, r < 2 → y r ≠ fz 0.
Proof.
  assert (lb_check false lb_fractions = true) as Hck by (vm_compute; reflexivity).
  destruct (lb_ok false lb_fractions Hck) as (Hobs & Hn & Ha).
  exists (lb_grid false lb_fractions), "class"%string, 2, (lb_y lb_fractions), (lb_col lb_fractions).
  split; [exact Hobs|]. split; [exact Hn|]. split; [intros E; apply (f_equal pack_float) in E; vm_compute in E; discriminate E|].
  intros undef train_one C pg order Hs Ho.
  destruct (logistic_ok _ _ _ _ _ Hobs undef train_one C ltac:(rewrite Hn; cbn; lia)) as (m & Hm & _ & Hc & [T1 T2 _]).
  { rewrite Ha. exact Hs. }
  assert (∀ z, z ∈ lm_labels m → z = 0%Z) as Hz.
  { intros z Hz. apply T1 in Hz as (r & Hr & <-). rewrite Hn in Hr.
    destruct r as [|[|r]]; [| |cbn in Hr; lia]; unfold to_int; vm_compute; reflexivity. }
  destruct (linear_predict_ok pg m (lb_grid false lb_fractions) "class" 2 (lb_col lb_fractions) (λ _, fz 0) order) as (d & Hd & _ & _ & Hcol).
  - apply Hobs.
  - apply Hobs.
  - intros a Hin. apply Hobs. by apply numeric_elem.
  - exact Ho.
  - intros r _. destruct (predict_any m (map (λ a, lb_col lb_fractions a r) (numeric_attrs (lb_grid false lb_fractions))) Hc) as (l & Hl & Hin & _).
    rewrite Hl. by rewrite (Hz l Hin).
  - exists m, d. split; [exact Hm|]. split; [exact Hd|]. split; [exact Hcol|].
    intros r Hr. destruct r as [|[|r]]; [| |lia]; intros E; apply (f_equal pack_float) in E; vm_compute in E; discriminate E.
Qed.
Print Assumptions C154_fractions_refuted.

(** ** C155: the decision *)

Lemma result_check (r : res binary64) y : match r with Ok x => same_bits x y | _ => false end = true → r = Ok y.
Proof. destruct r; intros H; [|done|done]. f_equal. by apply same_bits_eq. Qed.

(** For a row without negative numbers and NaN, the prediction is the class that the sums of
    the weights times the values choose. *)
Theorem C155_decision_partial m x : complete m →
  (∀ v, v ∈ x → is_positive v = true ∨ is_zero v = true) →
  let s i := score (output_weights m i) x plus_zero in
  (∀ i, i < outputs m → ¬ nan (s i)) →
  ∃ l, lib_predict m x = Ok (float_of_Z l) ∧ l ∈ lm_labels m ∧ chosen m s l.
Proof.
  intros Hc Hx s Hn. destruct (predict_any m x Hc) as (l & Hl & Hin & Hch). exists l. split; [done|]. split; [done|].
  cbn zeta in Hch.
  assert (∀ i, fsum over_zero (λ j, nth (j * outputs m + i) (lm_w m) plus_zero) (lm_n m) 0 x Id3Model.float_zero = s i) as E.
  { intros i. rewrite (fsum_ext _ not_zero).
    - rewrite fsum_score, Nat.sub_0_r. done.
    - intros v Hv. rewrite over_zero_positive, not_zero_is. by destruct (Hx v Hv) as [H|H]; destruct v as [[]|[]|[]|[]]. }
  unfold chosen in *. destruct Hch as [H1 H2]. { intros i Hi. rewrite E. by apply Hn. }
  split.
  - intros l0 l1 H. specialize (H1 l0 l1 H). by rewrite E in H1.
  - intros H. destruct (H2 H) as (b & Hb & Hj). exists b. split; [done|]. intros j Hlt. specialize (Hj j Hlt). by rewrite !E in Hj.
Qed.
Print Assumptions C155_decision_partial.

(** Values that are not positive are not looked at. *)
Theorem C155_negative_ignored m x x' : same_positive x x' → lib_predict m x = lib_predict m x'.
Proof.
  intros H. unfold lib_predict. destruct (vector_read x) as (v & -> & Hv), (vector_read x') as (v' & -> & Hv').
  cbn [mbind res_bind]. rewrite Hv, Hv'. cbn [mbind res_bind]. f_equal.
  assert (∀ o, kept over_zero o x = kept over_zero o x') as E; [|apply E].
  clear v v' Hv Hv'. induction H as [|a b x x' Hab _ IH]; intros o; [done|]. rewrite !kept_cons, IH, !over_zero_positive.
  by destruct Hab as [->|[-> ->]].
Qed.
Print Assumptions C155_negative_ignored.

(** The claim that fails: the class is the one that the weights of the model choose.  The two
    rows (-1, 0) and (0, -1) of different classes are told apart by the sign of a weighted
    sum, but no solver can make the model predict different classes for them. *)
Definition lb_negative : list (binary64 * binary64 * binary64) := [(fz (-1), fz 0, fz 0); (fz 0, fz (-1), fz 1)].
Theorem C155_decision_refuted : ∃ g name prec y col attrs label w,
  observations g (FloatA name prec) y col ∧ (gr_size g).2 = 2 ∧ in_table_order g attrs ∧
  whole_labels 2 y label ∧ label 0 ≠ label 1 ∧
  (∀ r, r < 2 → is_positive (score w (map (λ a, col a r) attrs) plus_zero) = bool_decide (label r = label 0)) ∧
  ∀ undef train_one C pg order, solves (length attrs + 1) train_one → (∀ k, order k ≡ₚ k) →
  ∃ m d v, logistic_fit undef train_one C g = Ok m ∧ linear_predict pg (Some m) g = Ok d ∧
    column_holds (dense_grid (order (map_to_list (d_class d))) d) (FloatA name prec) (λ _, v).
Proof.
  assert (lb_check false lb_negative = true) as Hck by (vm_compute; reflexivity).
  destruct (lb_ok false lb_negative Hck) as (Hobs & Hn & Ha).
  exists (lb_grid false lb_negative), "class"%string, 2, (lb_y lb_negative), (lb_col lb_negative), [b1; b2], lb_label, [fz (-1); fz 1].
  split; [exact Hobs|]. split; [exact Hn|]. split; [pose proof (numeric_order (lb_grid false lb_negative)) as H; rewrite Ha in H; exact H|].
  split. { intros r Hr. destruct r as [|[|r]]; [| |lia]; (split; [reflexivity|unfold lb_label; cbn [Nat.eqb]; lia]). }
  split; [done|]. split. { intros r Hr. destruct r as [|[|r]]; [| |lia]; vm_compute; reflexivity. }
  intros undef train_one C pg order Hs Ho.
  destruct (logistic_ok _ _ _ _ _ Hobs undef train_one C ltac:(rewrite Hn; cbn; lia)) as (m & Hm & _ & Hc & _).
  { rewrite Ha. exact Hs. }
  destruct (predict_any m [plus_zero; plus_zero] Hc) as (l & Hl & _).
  destruct (linear_predict_ok pg m (lb_grid false lb_negative) "class" 2 (lb_col lb_negative) (λ _, float_of_Z l) order) as (d & Hd & _ & _ & Hcol).
  - apply Hobs.
  - apply Hobs.
  - intros a Hin. apply Hobs. by apply numeric_elem.
  - exact Ho.
  - intros r Hr. rewrite Ha. rewrite <- Hl. apply C155_negative_ignored. rewrite Hn in Hr.
    destruct r as [|[|r]]; [| |cbn in Hr; lia]; (constructor; [right; split; vm_compute; reflexivity|]; constructor; [right; split; vm_compute; reflexivity|]; constructor).
  - exists m, d, (float_of_Z l). split; [exact Hm|]. split; [exact Hd|]. exact Hcol.
Qed.
Print Assumptions C155_decision_refuted.

(** A model of two classes and one of three classes. *)
Example C155_ex :
  complete (LModel [0; 1]%Z 3 [fz 4; fz (-2); fz 0]) ∧
  lib_predict (LModel [0; 1]%Z 3 [fz 4; fz (-2); fz 0]) [fz 1; fz 1] = Ok (fz 0) ∧
  lib_predict (LModel [0; 1]%Z 3 [fz 4; fz (-2); fz 0]) [fz 1; fz 3] = Ok (fz 1) ∧
  complete (LModel [5; 6; 7]%Z 1 [fz 1; fz 2; fz 2]) ∧
  lib_predict (LModel [5; 6; 7]%Z 1 [fz 1; fz 2; fz 2]) [fz 1] = Ok (fz 6) ∧
  same_positive [fz (-1); fz 3] [fz (-9); fz 3].
Proof.
  split; [done|]. split; [apply result_check; vm_compute; reflexivity|]. split; [apply result_check; vm_compute; reflexivity|].
  split; [done|]. split; [apply result_check; vm_compute; reflexivity|]. constructor; [right; split; vm_compute; reflexivity|]. constructor; [by left|constructor].
Qed.

(** ** C156: predictions for a table *)

(** Predict gives each row the class that liblinear chooses for the numeric columns that are
    no class, in the order of that table. *)
Theorem C156_rows_partial pg m g name prec y col attrs (v : nat → binary64) order :
  observations g (FloatA name prec) y col → in_table_order g attrs → (∀ k, order k ≡ₚ k) →
  (∀ r, r < (gr_size g).2 → lib_predict m (map (λ a, col a r) attrs) = Ok (v r)) →
  ∃ d, linear_predict pg (Some m) g = Ok d ∧
    let p := dense_grid (order (map_to_list (d_class d))) d in
    gr_class_attrs p = [FloatA name prec] ∧ (gr_size p).2 = (gr_size g).2 ∧ column_holds p (FloatA name prec) v.
Proof.
  intros Hobs Ha Ho Hv. rewrite (in_table_order_unique g _ _ Ha (numeric_order g)) in *. destruct Hobs as (Hit & Hc & _ & Hcols).
  apply (linear_predict_ok pg m g name prec col v order Hc Hit); [|done|done]. intros a Hin. by apply Hcols, numeric_elem.
Qed.
Print Assumptions C156_rows_partial.

(** The claim that fails: two tables with the same columns get the same predictions.  The
    columns are matched by position: with the columns in another order the predictions for
    the same rows differ. *)
Definition lb_swapped : list (binary64 * binary64 * binary64) := [(fz 1, fz 2, fz 0)].
Theorem C156_columns_refuted : ∃ m g g' name prec y col,
  complete m ∧ observations g (FloatA name prec) y col ∧ observations g' (FloatA name prec) y col ∧
  (∀ a, a ∈ gr_all_attrs g ↔ a ∈ gr_all_attrs g') ∧ (gr_size g).2 = 1 ∧ (gr_size g').2 = 1 ∧
  ∀ pg order, (∀ k, order k ≡ₚ k) → ∃ d d' u u',
    linear_predict pg (Some m) g = Ok d ∧ linear_predict pg (Some m) g' = Ok d' ∧
    column_holds (dense_grid (order (map_to_list (d_class d))) d) (FloatA name prec) (λ _, u) ∧
    column_holds (dense_grid (order (map_to_list (d_class d'))) d') (FloatA name prec) (λ _, u') ∧ u ≠ u'.
Proof.
  assert (lb_check false lb_swapped = true) as Hck by (vm_compute; reflexivity).
  assert (lb_check true lb_swapped = true) as Hck' by (vm_compute; reflexivity).
  destruct (lb_ok false lb_swapped Hck) as (Hobs & Hn & Ha). destruct (lb_ok true lb_swapped Hck') as (Hobs' & Hn' & Ha').
  set (m := LModel [0; 1]%Z 3 [fz 1; fz (-1); fz 0]).
  exists m, (lb_grid false lb_swapped), (lb_grid true lb_swapped), "class"%string, 2, (lb_y lb_swapped), (lb_col lb_swapped).
  split; [split; [discriminate|reflexivity]|]. split; [exact Hobs|]. split; [exact Hobs'|]. split.
  { assert (gr_all_attrs (lb_grid false lb_swapped) = [b1; b2; bc]) as -> by (vm_compute; reflexivity).
    assert (gr_all_attrs (lb_grid true lb_swapped) = [b2; b1; bc]) as -> by (vm_compute; reflexivity).
    intros a. rewrite !elem_of_cons. tauto. }
  split; [exact Hn|]. split; [exact Hn'|]. intros pg order Ho.
  destruct (C156_rows_partial pg m _ _ _ _ _ _ (λ _, fz 1) order Hobs (numeric_order _) Ho) as (d & Hd & _ & _ & Hcol).
  { intros r Hr. rewrite Hn in Hr. rewrite Ha. destruct r as [|r]; [|cbn in Hr; lia]. apply result_check. vm_compute. reflexivity. }
  destruct (C156_rows_partial pg m _ _ _ _ _ _ (λ _, fz 0) order Hobs' (numeric_order _) Ho) as (d' & Hd' & _ & _ & Hcol').
  { intros r Hr. rewrite Hn' in Hr. rewrite Ha'. destruct r as [|r]; [|cbn in Hr; lia]. apply result_check. vm_compute. reflexivity. }
  exists d, d', (fz 1), (fz 0). split; [exact Hd|]. split; [exact Hd'|]. split; [exact Hcol|]. split; [exact Hcol'|].
  intros E. apply (f_equal pack_float) in E. vm_compute in E. discriminate E.
Qed.
Print Assumptions C156_columns_refuted.

(** ** C157: only known classes *)

(** With whole numbers as classes, every prediction, for any table with the same class, is a
    class of the training set, whatever weights the solver found. *)
Theorem C157_known undef train_one half s w g name prec y col attrs label :
  observations g (FloatA name prec) y col → 0 < (gr_size g).2 → in_table_order g attrs →
  whole_labels (gr_size g).2 y label → solves (length attrs + 1) train_one →
  (sv_weights s = Some w ∧ w ≠ [] ∨ sv_weights s = None ∧ sv_auto s = false ∧ w = [fz 1; fz 1]) →
  ∃ m, svc_fit undef train_one half s g = Ok m ∧
  ∀ pg g' y' col' order, observations g' (FloatA name prec) y' col' → (∀ k, order k ≡ₚ k) →
  ∃ d v, linear_predict pg (Some m) g' = Ok d ∧
    let p := dense_grid (order (map_to_list (d_class d))) d in
    (gr_size p).2 = (gr_size g').2 ∧ column_holds p (FloatA name prec) v ∧
    ∀ r, r < (gr_size g').2 → ∃ k, k < (gr_size g).2 ∧ v r = y k.
Proof.
  intros Hobs Hn Ha Hw Hs Hsw.
  destruct (C154_svc undef train_one half s w g name prec y col attrs label Hobs Hn Ha Hw Hs Hsw) as (m & Hm & _ & Hc & [T1 _ _]).
  exists m. split; [done|]. intros pg g' y' col' order Hobs' Ho.
  destruct (C156_rows_partial pg m g' name prec y' col' _
    (λ r, match lib_predict m (map (λ a, col' a r) (numeric_attrs g')) with Ok x => x | _ => plus_zero end) order Hobs' (numeric_order g') Ho) as (d & Hd & _ & H1 & H2).
  { intros r _. destruct (predict_any m (map (λ a, col' a r) (numeric_attrs g')) Hc) as (l & -> & _). done. }
  eexists d, _. split; [exact Hd|]. split; [exact H1|]. split; [exact H2|]. intros r _. cbn beta.
  destruct (predict_any m (map (λ a, col' a r) (numeric_attrs g')) Hc) as (l & -> & Hl & _).
  apply T1 in Hl as (k & Hk & <-). exists k. split; [done|]. symmetry. by apply (Hw k Hk).
Qed.
Print Assumptions C157_known.

Theorem C157_known_logistic undef train_one C g name prec y col attrs label :
  observations g (FloatA name prec) y col → 0 < (gr_size g).2 → in_table_order g attrs →
  whole_labels (gr_size g).2 y label → solves (length attrs + 1) train_one →
  ∃ m, logistic_fit undef train_one C g = Ok m ∧
  ∀ pg g' y' col' order, observations g' (FloatA name prec) y' col' → (∀ k, order k ≡ₚ k) →
  ∃ d v, linear_predict pg (Some m) g' = Ok d ∧
    let p := dense_grid (order (map_to_list (d_class d))) d in
    (gr_size p).2 = (gr_size g').2 ∧ column_holds p (FloatA name prec) v ∧
    ∀ r, r < (gr_size g').2 → ∃ k, k < (gr_size g).2 ∧ v r = y k.
Proof.
  intros Hobs Hn Ha Hw Hs.
  destruct (C154_logistic undef train_one C g name prec y col attrs label Hobs Hn Ha Hw Hs) as (m & Hm & _ & Hc & [T1 _ _]).
  exists m. split; [done|]. intros pg g' y' col' order Hobs' Ho.
  destruct (C156_rows_partial pg m g' name prec y' col' _
    (λ r, match lib_predict m (map (λ a, col' a r) (numeric_attrs g')) with Ok x => x | _ => plus_zero end) order Hobs' (numeric_order g') Ho) as (d & Hd & _ & H1 & H2).
  { intros r _. destruct (predict_any m (map (λ a, col' a r) (numeric_attrs g')) Hc) as (l & -> & _). done. }
  eexists d, _. split; [exact Hd|]. split; [exact H1|]. split; [exact H2|]. intros r _. cbn beta.
  destruct (predict_any m (map (λ a, col' a r) (numeric_attrs g')) Hc) as (l & -> & Hl & _).
  apply T1 in Hl as (k & Hk & <-). exists k. split; [done|]. symmetry. by apply (Hw k Hk).
Qed.
Print Assumptions C157_known_logistic.

(** The hypotheses hold for the example of C154; the table to predict has a negative number
    and more. *)
Example C157_ex : ∃ m, logistic_fit (λ _, 0%Z) (summed 3) (fz 1) (lb_grid false lb_train) = Ok m ∧
  ∃ d v, linear_predict 64 (Some m) (lb_grid false [(fz (-7), fz 9, fz 0); (fz 5, fz 2, fz 0)]) = Ok d ∧
  column_holds (dense_grid (map_to_list (d_class d)) d) bc v ∧ v 0 ∈ [fz 0; fz 1].
Proof.
  destruct (lb_ok false lb_train lb_train_ok) as (Hobs & Hn & Ha).
  assert (lb_check false [(fz (-7), fz 9, fz 0); (fz 5, fz 2, fz 0)] = true) as Hck by (vm_compute; reflexivity).
  destruct (lb_ok false _ Hck) as (Hobs' & Hn' & _).
  destruct (C157_known_logistic (λ _, 0%Z) (summed 3) (fz 1) _ _ _ _ _ _ lb_label Hobs ltac:(rewrite Hn; cbn; lia) (numeric_order _))
    as (m & Hm & Hp).
  - rewrite Hn. exact lb_whole.
  - rewrite Ha. apply summed_solves.
  - exists m. split; [exact Hm|]. destruct (Hp 64 _ _ _ (λ l, l) Hobs' (λ l, reflexivity l)) as (d & v & H1 & _ & H2 & H3).
    exists d, v. split; [exact H1|]. split; [exact H2|]. rewrite Hn' in H3. destruct (H3 0 ltac:(cbn; lia)) as (k & Hk & ->).
    rewrite Hn in Hk. destruct k as [|[|[|k]]]; [left|right; left|left|cbn in Hk; lia].
Qed.
