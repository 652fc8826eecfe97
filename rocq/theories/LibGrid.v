(** Proofs about the classifiers that use liblinear: fitting and predicting on tables. *)
From Coq Require Import Reals Lra.
From Verif Require Import Prelude FloatModel FloatProofs FloatOrder AttrModel AttrProofs StoreModel DenseModel DenseSpec DenseProofs PredModel PredProofs
  GridModel GridSpec GridProofs KnnModel KnnProofs FilterModel CartModel CartGrow CartFit RuleProofs SvcModel LinModel LinSpec LinProofs
  LibModel LibSpec LibProofs LibTrain.
From Flocq Require Import IEEE754.BinarySingleNaN IEEE754.Bits IEEE754.Binary.
Local Open Scope nat_scope.

Lemma numeric_elem g a : a ∈ numeric_attrs g → explanatory g a.
Proof.
  unfold numeric_attrs, explanatory. rewrite elem_of_list_filter. intros ((Hf & Hc) & Ha). split; [done|]. split; [done|].
  intros Hin. assert (existsb (attr_equals a) (gr_class_attrs g) = true) as E; [|congruence].
  apply existsb_exists. exists a. split; [by apply elem_of_list_In|apply attr_equals_refl].
Qed.

Lemma filter_bool {A} (P : A → Prop) `{∀ x, Decision (P x)} l : filter P l = List.filter (λ x, bool_decide (P x)) l.
Proof.
  induction l as [|x l IH]; [done|]. rewrite filter_cons. cbn [List.filter]. rewrite IH.
  destruct (decide (P x)) as [Hp|Hp]; [by rewrite bool_decide_eq_true_2|by rewrite bool_decide_eq_false_2].
Qed.

Lemma numeric_order g : in_table_order g (numeric_attrs g).
Proof.
  unfold numeric_attrs. rewrite filter_bool. eexists. split; [done|]. intros a. cbn beta. rewrite bool_decide_eq_true.
  split; intros [H1 H2]; (split; [done|]).
  - intros b Hb. apply not_true_is_false. intros E. rewrite <- not_true_iff_false in H2. apply H2, existsb_exists.
    exists b. split; [by apply elem_of_list_In|done].
  - apply not_true_is_false. intros (b & Hb & E)%existsb_exists. apply elem_of_list_In in Hb. rewrite H2 in E; done.
Qed.

Lemma in_table_order_unique g l l' : in_table_order g l → in_table_order g l' → l = l'.
Proof.
  intros (k & -> & Hk) (k' & -> & Hk'). apply filter_ext. intros a.
  destruct (k a) eqn:E, (k' a) eqn:E'; try done.
  - apply Hk, Hk' in E. congruence.
  - apply Hk', Hk in E'. congruence.
Qed.

Section grid.
  Context (g : grid) (name : string) (prec : nat) (y : nat → binary64) (col : attr → nat → binary64).
  Context (Hobs : observations g (FloatA name prec) y col).
  Notation n := (gr_size g).2.
  Notation row r := (map (λ a, col a r) (numeric_attrs g)).

  Lemma problem_vec_ok : problem_vec g = Ok (map (λ r, row r) (seq 0 n)).
  Proof.
    destruct Hobs as (Hit & _ & _ & Hcols). unfold problem_vec.
    destruct (resolve_columns g col (numeric_attrs g)) as (specs & -> & _ & Hrows).
    { intros a Ha. by apply Hcols, numeric_elem. }
    cbn [mbind res_bind].
    rewrite (read_rows_into g specs (res_mapM unpack_float) (λ r, row r) [] Hit); [done|].
    intros r Hr. destruct (Hrows r Hr) as (raws & H1 & H2). exists raws. done.
  Qed.

  Lemma label_vec_ok : label_vec g = Ok (map y (seq 0 n)).
  Proof.
    pose proof Hobs as (Hit & Hc & _). unfold label_vec. rewrite Hc.
    destruct (resolve_class g _ y col Hobs) as (s & -> & Hr). cbn [mbind res_bind].
    rewrite (read_rows_into g [s] (λ row, raw ← idx row 0; unpack_float raw) y Id3Model.float_zero Hit); [done|].
    intros r Hlt. destruct (Hr r Hlt) as (raw & H1 & H2). exists [raw]. cbn [res_mapM]. rewrite H1. cbn. done.
  Qed.

  Lemma grid_problem_ok : 0 < n →
    ∃ p, grid_problem g = Ok p ∧ pb_n p = length (numeric_attrs g) + 1 ∧ pb_y p = map y (seq 0 n) ∧
      ∀ i, i < n → problem_row p i = Ok (sparse (row i)).
  Proof.
    intros Hn. unfold grid_problem. rewrite problem_vec_ok, label_vec_ok. cbn [mbind res_bind].
    destruct (problem_ok (map (λ r, row r) (seq 0 n)) (map y (seq 0 n)) (row 0)) as (p & Hp & H1 & H2 & H3).
    - change (map ?f (seq 0 n)) with (f <$> seq 0 n). by rewrite list_lookup_fmap, lookup_seq_lt by done.
    - by rewrite !map_length.
    - exists p. split; [done|]. split; [rewrite H1, map_length; done|]. split; [done|]. intros i Hi. apply H3.
      change (map ?f (seq 0 n)) with (f <$> seq 0 n). by rewrite list_lookup_fmap, lookup_seq_lt by done.
  Qed.

  Lemma grid_train undef train_one p C weights : 0 < n →
    solves (length (numeric_attrs g) + 1) train_one → grid_problem g = Ok p →
    ∃ m, train undef train_one p C weights = Ok m ∧ lm_n m = length (numeric_attrs g) + 1 ∧ complete m ∧
      trained train_one n (λ r, row r) (λ r, to_int undef (y r)) C weights m.
  Proof.
    intros Hn Hsol Hp. destruct (grid_problem_ok Hn) as (p' & Hp' & H1 & H2 & H3). rewrite Hp in Hp'. injection Hp' as <-.
    destruct (train_ok undef train_one (map (λ r, row r) (seq 0 n)) p C weights) as (m & Hm & Hln & Hc & [T1 T2 T3]).
    - by rewrite H1.
    - destruct n; [lia|done].
    - by rewrite H2, !map_length.
    - intros i x Hi. change (map ?f (seq 0 n)) with (f <$> seq 0 n) in Hi. rewrite list_lookup_fmap in Hi.
      destruct (seq 0 n !! i) as [j|] eqn:E; [|done]. injection Hi as <-. apply lookup_seq in E as [-> Hi]. by apply H3.
    - rewrite map_length, seq_length in *. exists m. split; [done|]. split; [congruence|]. split; [done|].
      assert (∀ r, r < n → to_int undef (nth r (pb_y p) plus_zero) = to_int undef (y r)) as Hy.
      { intros r Hr. rewrite H2. by rewrite nth_map_seq. }
      constructor.
      + intros z. rewrite T1. split; intros (r & Hr & E); exists r; (split; [done|]); [rewrite <- Hy|rewrite Hy]; done.
      + done.
      + destruct T3 as (order & Ho & T3 & T4). exists order. split; [done|]. cbn zeta in *.
        assert (∀ l, map (λ r, (sparse (nth r (map (λ r, row r) (seq 0 n)) []), bool_decide (to_int undef (nth r (pb_y p) plus_zero) = l))) order =
                     map (λ r, (sparse (row r), bool_decide (to_int undef (y r) = l))) order) as Hs.
        { intros l. apply map_ext_in. intros r Hr. apply elem_of_list_In in Hr. rewrite Ho in Hr. apply elem_of_seq in Hr.
          rewrite Hy by lia. by rewrite (nth_map_seq (λ r, row r)) by lia. }
        split.
        * intros l0 l1 Hl. rewrite (T3 l0 l1 Hl). by rewrite Hs.
        * intros Hl i l j Hi Hj. rewrite (T4 Hl i l j Hi Hj). by rewrite Hs.
  Qed.

  Lemma logistic_ok undef train_one C : 0 < n → solves (length (numeric_attrs g) + 1) train_one →
    ∃ m, logistic_fit undef train_one C g = Ok m ∧ lm_n m = length (numeric_attrs g) + 1 ∧ complete m ∧
      trained train_one n (λ r, row r) (λ r, to_int undef (y r)) C [] m.
  Proof.
    intros Hn Hsol. unfold logistic_fit. destruct (grid_problem_ok Hn) as (p & Hp & _). rewrite Hp. cbn [mbind res_bind].
    by apply grid_train.
  Qed.

  Lemma svc_ok undef train_one half s w : 0 < n → solves (length (numeric_attrs g) + 1) train_one →
    class_weights half s g = Ok w → w ≠ [] →
    ∃ m, svc_fit undef train_one half s g = Ok m ∧ lm_n m = length (numeric_attrs g) + 1 ∧ complete m ∧
      trained train_one n (λ r, row r) (λ r, to_int undef (y r)) (sv_c s) w m.
  Proof.
    intros Hn Hsol Hw Hne. unfold svc_fit. rewrite Hw. cbn [mbind res_bind].
    destruct (grid_problem_ok Hn) as (p & Hp & _). rewrite Hp. cbn [mbind res_bind].
    destruct w as [|w0 w]; [done|]. cbn [idx lookup list_lookup mbind res_bind]. by apply grid_train.
  Qed.
End grid.

Lemma trained_ext train_one n row label label' C w m : (∀ r, r < n → label r = label' r) →
  trained train_one n row label C w m → trained train_one n row label' C w m.
Proof.
  intros Hl [T1 T2 T3]. constructor; [|done|].
  - intros z. rewrite T1. split; intros (r & Hr & E); exists r; (split; [done|]); [rewrite <- Hl|rewrite Hl]; done.
  - destruct T3 as (order & Ho & T3 & T4). exists order. split; [done|]. cbn zeta in *.
    assert (∀ l, map (λ r, (sparse (row r), bool_decide (label r = l))) order =
                 map (λ r, (sparse (row r), bool_decide (label' r = l))) order) as Hs.
    { intros l. apply map_ext_in. intros r Hr. apply elem_of_list_In in Hr. rewrite Ho in Hr. apply elem_of_seq in Hr.
      by rewrite Hl by lia. }
    split.
    + intros l0 l1 El. rewrite (T3 l0 l1 El). by rewrite Hs.
    + intros El i l j Hi Hj. rewrite (T4 El i l j Hi Hj). by rewrite Hs.
Qed.

Lemma linear_predict_ok pg m g name prec (col : attr → nat → binary64) (v : nat → binary64) order :
  gr_class_attrs g = [FloatA name prec] → iter_agrees g →
  (∀ a, a ∈ numeric_attrs g → column_holds g a (col a)) → (∀ k, order k ≡ₚ k) →
  (∀ r, r < (gr_size g).2 → lib_predict m (map (λ a, col a r) (numeric_attrs g)) = Ok (v r)) →
  ∃ d, linear_predict pg (Some m) g = Ok d ∧
    let p := dense_grid (order (map_to_list (d_class d))) d in
    gr_class_attrs p = [FloatA name prec] ∧ (gr_size p).2 = (gr_size g).2 ∧ column_holds p (FloatA name prec) v.
Proof.
  intros Hc Hit Hcols Ho Hv. unfold linear_predict. rewrite Hc.
  set (cls := FloatA name prec) in *. set (n := (gr_size g).2) in *.
  destruct (prediction_vector_ok pg g cls Hc) as (d0 & Hd0 & Hp0). rewrite Hd0. cbn [mbind res_bind].
  rewrite (predicted_find _ _ _ _ _ Hp0). cbn [mbind res_bind].
  destruct (resolve_columns g col (numeric_attrs g) Hcols) as (specs & Hs & Hl & Hrows). rewrite Hs. cbn [mbind res_bind].
  unfold map_over_rows. destruct (Hit specs) as (rows & -> & Hperm & Hfetch).
  set (b := λ r, pack_float (v r)).
  match goal with |- context [run_rows ?f d0 rows] => destruct (run_rows_stores pg cls n f b rows) with (d := d0) (h := λ _ : nat, @None (list N)) as (d' & Hrun & Hp') end.
  { intros i fetch d Hin. assert (i < n) as Hi.
    { apply (elem_of_list_fmap_1 fst) in Hin. change (fst <$> rows) with (map fst rows) in Hin.
      rewrite Hperm in Hin. apply elem_of_seq in Hin. cbn in Hin. lia. }
    split; [done|]. destruct (Hrows i Hi) as (raws & H1 & H2). exists raws. split; [by rewrite (Hfetch i fetch Hin)|].
    split; [|done]. rewrite H2. cbn [mbind res_bind]. rewrite (Hv i Hi). done. }
  { exact Hp0. }
  rewrite Hrun. cbn [mbind res_bind fst]. exists d'. split; [done|].
  assert (predicted pg cls n (λ i, if bool_decide (i ∈ map fst rows) then Some (b i) else None) d') as Hp by exact Hp'.
  cbn [dense_grid gr_class_attrs gr_size snd gr_get_attribute gr_get].
  split; [apply (predicted_class_attrs _ _ _ _ _ _ Hp), Ho|].
  split; [destruct Hp as (_ & Hmr & _); exact Hmr|].
  exists (Spec 0 0 cls). split; [by apply (predicted_find _ _ _ _ _ Hp)|].
  intros r Hr. assert (r < n) as Hrn by (destruct Hp as (_ & Hmr & _); cbn in Hr; lia).
  cbn [dense_grid gr_get]. rewrite (predicted_get _ _ _ _ _ _ Hp Hrn).
  rewrite bool_decide_eq_true_2 by (rewrite Hperm; apply elem_of_seq; lia). eexists. split; [reflexivity|].
  cbn [cell_value default_kind cls]. unfold b. apply unpack_pack_float.
Qed.
