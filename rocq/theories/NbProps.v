(** Properties C64 and C109: Bernoulli naive Bayes. *)
From Coq Require Import Reals Lra.
From Verif Require Import Prelude BytesModel FloatModel AttrModel AttrSpec StoreModel DenseModel DenseSpec GridModel
  GridSpec GridProofs FilterModel PredModel KnnProps Id3Props CartModel CartFit CartProps GiniProofs RuleSpec BagSpec NbModel NbSpec
  NbProofs NbFit NbPredict.
From Flocq Require Import Core.Core IEEE754.BinarySingleNaN IEEE754.Bits IEEE754.Binary.
Local Open Scope nat_scope.

(** ** C64: the estimates *)

(** After a Fit that returns, whatever the classifier held before, the count of each class is
    the number of its rows, the counts add up to the number of rows, and the estimate for
    feature [f] in class [c] is the float64 nearest to (k + 1) / (n + 1), where [k] of the
    [n] rows of the class have the feature; it lies in (0, 1]. *)
Theorem C64_estimates show ko g label bits n0 n :
  any_order ko → bernoulli_data show g label bits → (Z.of_nat (gr_size g).2 < 2 ^ 53)%Z →
  nb_fit show ko n0 g = Ok n →
  nb_training n = (gr_size g).2 ∧ nb_features n = length (others g) ∧
  (∀ c k, nb_class n !! c = Some k ↔ k = in_class label (gr_size g).2 c ∧ 0 < k) ∧
  sum_list (map snd (map_to_list (nb_class n))) = (gr_size g).2 ∧
  ∀ r, r < (gr_size g).2 → ∃ ps, nb_cond n !! label r = Some ps ∧ length ps = length (others g) ∧
    ∀ f p, ps !! f = Some p →
      nearest p (INR (in_class_with label bits (gr_size g).2 (label r) f + 1) /
                 INR (in_class label (gr_size g).2 (label r) + 1))%R ∧
      (0 < B2R 53 1024 p <= 1)%R.
Proof.
  intros Hko Hg Hrows E.
  destruct (classic_seen label bits (gr_size g).2 (length (others g))) as [Hall|Hnot];
    [|by rewrite (nb_fit_panics show ko Hko g label bits Hg n0 Hnot) in E].
  destruct (nb_fit_ok show ko Hko g label bits Hg n0 Hall) as (n' & E' & H1 & H2 & _ & H3 & H4).
  rewrite E in E'. injection E' as <-. split; [done|]. split; [done|]. split; [|split].
  - intros c k. rewrite H3. destruct (_ =? 0) eqn:Hz.
    + apply Nat.eqb_eq in Hz. split; [done|]. intros [-> Hk]. lia.
    + apply Nat.eqb_neq in Hz. split; [intros [= <-]; split; [done|lia]|intros [-> _]; done].
  - exact (classes_sum label _ _ H3).
  - intros r Hr. assert (0 < in_class label (gr_size g).2 (label r)) as Hp by (apply in_class_pos; by exists r).
    eexists. split; [exact (H4 _ Hp)|]. unfold estimates. rewrite map_length, seq_length. split; [done|].
    intros f p Hp'. rewrite list_lookup_fmap in Hp'.
    destruct (seq 0 (length (others g)) !! f) as [f'|] eqn:Hf; [|done]. cbn in Hp'. injection Hp' as <-.
    apply lookup_seq in Hf as [-> _]. cbn [Nat.add].
    pose proof (in_class_le label (gr_size g).2 (label r)). pose proof (in_class_with_le label bits (gr_size g).2 (label r) f).
    split.
    + rewrite !INR_IZR_INZ. apply ratio_nearest; lia.
    + destruct (ratio_range (in_class_with label bits (gr_size g).2 (label r) f + 1) (in_class label (gr_size g).2 (label r) + 1))
        as [_ Hr']; [lia|lia|lia|]. pose proof (bpow_gt_0 radix2 (-53)). lra.
Qed.
Print Assumptions C64_estimates.

(** ** C64: when Fit returns *)

(** Fit returns exactly when there are no features or every class of the training set has
    a row with some feature present; otherwise it panics. *)
Theorem C64_fit show ko g label bits n0 :
  any_order ko → bernoulli_data show g label bits →
  (others g = [] ∨
   ∀ r, r < (gr_size g).2 →
     ∃ r' f, r' < (gr_size g).2 ∧ label r' = label r ∧ f < length (others g) ∧ bits r' f = true) ∧
    (∃ n, nb_fit show ko n0 g = Ok n) ∨
  (∃ r, r < (gr_size g).2 ∧ others g ≠ [] ∧
     ∀ r' f, r' < (gr_size g).2 → label r' = label r → f < length (others g) → bits r' f = false) ∧
    nb_fit show ko n0 g = Panic.
Proof.
  intros Hko Hg. destruct (classic_seen label bits (gr_size g).2 (length (others g))) as [Hall|Hnot].
  - left. split.
    + destruct Hall as [H|H]; [left; by apply length_zero_iff_nil|by right].
    + destruct (nb_fit_ok show ko Hko g label bits Hg n0 Hall) as (n & E & _). by exists n.
  - right. split; [|by apply nb_fit_panics with label bits]. by apply not_seen.
Qed.
Print Assumptions C64_fit.

(** A feature that is not binary, or a number of class attributes other than one, is
    reported as an error. *)
Theorem C64_fit_errors show ko n0 g :
  distinct_attrs (gr_all_attrs g) → gr_class_attrs g ⊆ gr_all_attrs g →
  (∃ a, a ∈ others g ∧ ∀ name, a ≠ BinA name) ∨
  ((∃ specs, resolve g (others g) = Ok specs) ∧ length (gr_class_attrs g) ≠ 1) →
  nb_fit show ko n0 g = Err.
Proof.
  intros Hd Hs H. unfold nb_fit. rewrite difference_others by done.
  destruct (forallb is_binary (others g)) eqn:Eb; cbn [negb]; [|done].
  destruct H as [(a & Ha & Hn)|[(specs & ->) Hc]].
  - exfalso. rewrite forallb_forall in Eb. specialize (Eb a). apply elem_of_list_In in Ha. specialize (Eb Ha).
    destruct a as [| |name]; [discriminate|discriminate|]. by apply (Hn name).
  - cbn [mbind res_bind]. replace (length (gr_class_attrs g) =? 1) with false by (symmetry; by apply Nat.eqb_neq). done.
Qed.
Print Assumptions C64_fit_errors.

(** ** C64: prediction *)

(** PredictOne returns a class of the training set, and no class of the training set has a
    higher score, for every vector of the right length, whatever the order of the maps. *)
Theorem C64_predict_one show ko ko' log g label bits n0 n vector bit :
  any_order ko → any_order ko' → sane_log log → bernoulli_data show g label bits →
  (Z.of_nat (gr_size g).2 < 2 ^ 53)%Z → (Z.of_nat (length (others g)) < 2 ^ 43)%Z →
  0 < (gr_size g).2 → others g ≠ [] →
  nb_fit show ko n0 g = Ok n →
  length vector = length (others g) → (∀ f v, vector !! f = Some v → reads_bit v (bit f)) →
  ∃ c, nb_predict_one ko' log n vector = Ok c ∧
    (∃ r, r < (gr_size g).2 ∧ label r = c) ∧
    ∀ r, r < (gr_size g).2 →
      ¬ above (bernoulli_score log label bits (gr_size g).2 (length (others g)) bit (label r))
              (bernoulli_score log label bits (gr_size g).2 (length (others g)) bit c).
Proof.
  intros Hko Hko' Hlog Hg Hrows Hfeat H0 Hne E Hlen Hbit.
  destruct (classic_seen label bits (gr_size g).2 (length (others g))) as [Hall|Hnot];
    [|by rewrite (nb_fit_panics show ko Hko g label bits Hg n0 Hnot) in E].
  destruct (nb_fit_ok show ko Hko g label bits Hg n0 Hall) as (n' & E' & H1 & H2 & _ & H3 & H4).
  rewrite E in E'. injection E' as <-.
  apply (predict_one_best ko' Hko' log Hlog label bits (gr_size g).2 (length (others g)) Hrows Hfeat); try done.
  destruct (others g); [done|cbn; lia].
Qed.
Print Assumptions C64_predict_one.

(** The same for Predict on a table: it has a row for each row of the request, each with
    such a class. *)
Theorem C64_predict show ko ko' log parse order pg g label bits n0 n what name vs wbits :
  any_order ko → any_order ko' → any_order order → sane_log log → bernoulli_data show g label bits →
  (Z.of_nat (gr_size g).2 < 2 ^ 53)%Z → (Z.of_nat (length (others g)) < 2 ^ 43)%Z →
  0 < (gr_size g).2 → others g ≠ [] →
  nb_fit show ko n0 g = Ok n →
  iter_agrees what → gr_class_attrs what = [CatA name vs] → (N.of_nat (length vs) < 2^63)%N →
  (∀ r, r < (gr_size g).2 → label r ∈ vs) → shows_bits what (others g) wbits →
  ∃ ret, nb_predict ko' log parse order pg n what = Ok ret ∧ d_maxrow ret = (gr_size what).2 ∧
    ∀ i, i < (gr_size what).2 → ∃ c, reads_class show ret i c ∧
      (∃ r, r < (gr_size g).2 ∧ label r = c) ∧
      ∀ r, r < (gr_size g).2 →
        ¬ above (bernoulli_score log label bits (gr_size g).2 (length (others g)) (wbits i) (label r))
                (bernoulli_score log label bits (gr_size g).2 (length (others g)) (wbits i) c).
Proof.
  intros Hko Hko' Ho Hlog Hg Hrows Hfeat H0 Hne E Hit Hc Hvs Hl Hw.
  destruct (classic_seen label bits (gr_size g).2 (length (others g))) as [Hall|Hnot];
    [|by rewrite (nb_fit_panics show ko Hko g label bits Hg n0 Hnot) in E].
  destruct (nb_fit_ok show ko Hko g label bits Hg n0 Hall) as (n' & E' & H1 & H2 & H5 & H3 & H4).
  rewrite E in E'. injection E' as <-.
  apply (nb_predict_best show ko' Hko' parse order Ho pg log Hlog label bits (gr_size g).2 (length (others g)) Hrows Hfeat)
    with (name := name) (vs := vs); try done.
  - destruct (others g); [done|cbn; lia].
  - by rewrite H5.
  - by rewrite H5.
Qed.
Print Assumptions C64_predict.

(** ** Examples *)

Definition np : attr := BinA "p".
Definition nq : attr := BinA "q".
Definition nc : attr := CatA "c" ["u"; "v"].
Definition n_specs : list spec := [Spec 0 0 np; Spec 0 1 nq; Spec 1 0 nc].
Definition n_dense (rows : list (list N)) : dense :=
  match dense_run 64 dense_new
    ([DAdd np; DAdd nq; DAdd nc; DClass nc true; DExtend (length rows)] ++
     concat (imap (λ i r, match r with
       | [p; q; c] => [DSet (Spec 0 0 np) i [p]; DSet (Spec 0 1 nq) i [q]; DSet (Spec 1 0 nc) i (byte8 c)]
       | _ => [] end) rows)) with
  | Ok d => d | _ => dense_new end.
Definition n_grid (rows : list (list N)) : grid := dense_grid [((1, 0), true)] (n_dense rows).
Definition n_bits (rows : list (list N)) (r f : nat) : bool := (0 <? nth f (nth r rows []) 0)%N.
Definition n_label (rows : list (list N)) (r : nat) : string :=
  nth (N.to_nat (nth 2 (nth r rows []) 0%N)) ["u"; "v"] "".

(** Decided row by row. *)
Definition n_check (g : grid) (rows : list (list N)) : bool :=
  bool_decide (gr_all_attrs g = [np; nq; nc]) && bool_decide (gr_class_attrs g = [nc]) &&
  bool_decide ((gr_size g).2 = length rows) &&
  match resolve g [np; nq] with
  | Ok specs =>
      forallb (λ r, forallb (λ f,
        match specs !! f with
        | Some s => match gr_get g s r with
                    | Ok (x :: _) => Bool.eqb (n_bits rows r f) (negb (x =? 0)%N)
                    | _ => false end
        | None => true end) (seq 0 2)) (seq 0 (length rows)) && (length specs =? 2)
  | _ => false end &&
  forallb (λ r, match get_class t_show g r with Ok c => bool_decide (c = n_label rows r) | _ => false end)
    (seq 0 (length rows)).

Lemma n_check_ok g rows : iter_agrees g → n_check g rows = true →
  bernoulli_data t_show g (n_label rows) (n_bits rows) ∧
  (gr_size g).2 = length rows ∧ others g = [np; nq] ∧
  gr_class_attrs g = [nc] ∧ shows_bits g [np; nq] (n_bits rows).
Proof.
  unfold n_check. rewrite !andb_true_iff. intros Hit [[[[Ha Hc] Hsz] Hr] Hcl].
  apply bool_decide_eq_true in Ha, Hc, Hsz.
  destruct (resolve g [np; nq]) as [specs| |] eqn:Es; [|done|done].
  apply andb_true_iff in Hr as [Hr Hl]. apply Nat.eqb_eq in Hl.
  assert (others g = [np; nq]) as Ho by (unfold others; rewrite Ha, Hc; reflexivity).
  assert (shows_bits g [np; nq] (n_bits rows)) as Hb.
  { exists specs. split; [exact Es|]. intros r f s Hlt Hs. rewrite Hsz in Hlt.
    rewrite forallb_forall in Hr. specialize (Hr r ltac:(apply in_seq; lia)).
    rewrite forallb_forall in Hr. pose proof (lookup_lt_Some _ _ _ Hs) as Hf. specialize (Hr f ltac:(apply in_seq; lia)).
    rewrite Hs in Hr. destruct (gr_get g s r) as [[|x raw]| |]; [discriminate| |discriminate|discriminate].
    eexists. split; [reflexivity|]. exists x, raw. split; [reflexivity|]. apply Bool.eqb_prop in Hr. rewrite Hr.
    destruct (x =? 0)%N eqn:E; [apply N.eqb_eq in E|apply N.eqb_neq in E]; cbn; split; intros; congruence. }
  split; [|split; [exact Hsz|split; [exact Ho|split; [exact Hc|exact Hb]]]].
  unfold bernoulli_data. rewrite Ho, Ha, Hc, Hsz. split; [exact Hit|].
  split; [intros i j a b Hi Hj He; by destruct i as [|[|[|i]]], j as [|[|[|j]]];
    cbn in Hi, Hj; simplify_eq; try discriminate He|].
  split; [intros a Hin; apply elem_of_list_singleton in Hin as ->; right; right; left|].
  split; [reflexivity|]. split.
  - intros a Hin. apply elem_of_cons in Hin as [->|Hin]; [by exists "p"|].
    apply elem_of_list_singleton in Hin as ->. by exists "q".
  - split; [exact Hb|]. intros r Hlt. rewrite forallb_forall in Hcl. specialize (Hcl r ltac:(apply in_seq; lia)).
    destruct (get_class t_show g r) as [c| |]; [|discriminate|discriminate].
    apply bool_decide_eq_true in Hcl. by rewrite Hcl.
Qed.

(** A stand-in for the logarithm: x - 1. *)
Definition n_log (x : binary64) : binary64 := b64_minus mode_NE x (float_int 1).
Lemma n_log_sane : sane_log n_log.
Proof.
  intros x Hx [H0 H1]. unfold n_log. destruct (int_exact 1) as [F1 V1]; [lia|]. change (IZR (Z.of_nat 1)) with 1%R in V1.
  destruct (minus_between (-1) 0 x (float_int 1)) as [F [L U]]; [lia|lia|exact Hx|exact F1|rewrite V1; lra|].
  split; [exact F|]. lra.
Qed.

Definition n_rows : list (list N) := [[1;0;0];[1;1;0];[0;1;1];[1;1;1];[0;1;1]]%N.
Definition n_what : list (list N) := [[1;0;0];[0;1;0];[0;0;0];[1;1;0]]%N.
Definition n_sparse : list (list N) := [[1;0;0];[0;0;1]]%N.

Lemma n_data rows : n_check (n_grid rows) rows = true →
  bernoulli_data t_show (n_grid rows) (n_label rows) (n_bits rows) ∧
  (gr_size (n_grid rows)).2 = length rows ∧ others (n_grid rows) = [np; nq] ∧
  gr_class_attrs (n_grid rows) = [nc] ∧ shows_bits (n_grid rows) [np; nq] (n_bits rows).
Proof. apply n_check_ok. unfold n_grid. apply in_order_agrees, dense_grid_in_order. Qed.

(** Five rows of two classes: the hypotheses of the theorems hold. *)
Example C64_ex_data :
  bernoulli_data t_show (n_grid n_rows) (n_label n_rows) (n_bits n_rows) ∧
  (gr_size (n_grid n_rows)).2 = 5 ∧ others (n_grid n_rows) = [np; nq] ∧
  gr_class_attrs (n_grid n_what) = [nc] ∧ shows_bits (n_grid n_what) [np; nq] (n_bits n_what) ∧
  (∀ r, r < 5 → n_label n_rows r ∈ ["u"; "v"]).
Proof.
  destruct (n_data n_rows ltac:(vm_compute; reflexivity)) as (H1 & H2 & H3 & _ & _).
  destruct (n_data n_what ltac:(vm_compute; reflexivity)) as (_ & _ & _ & H4 & H5).
  split; [exact H1|]. split; [exact H2|]. split; [exact H3|]. split; [exact H4|]. split; [exact H5|].
  intros r Hr. do 5 (destruct r as [|r]; [vm_compute; first [left|right; left]|]). lia.
Qed.

Definition n_predicted (train what : list (list N)) : list (res string) :=
  match nb_fit t_show (λ l, l) nb_new (n_grid train) with
  | Ok n => match nb_predict (@rev _) n_log ex_parse (λ l, l) 64 n (n_grid what) with
            | Ok ret => map (get_class t_show (dense_grid (map_to_list (d_class ret)) ret)) (seq 0 (length what))
            | _ => [] end
  | _ => [] end.

Example C64_ex_predicted : n_predicted n_rows n_what = [Ok "u"; Ok "v"; Ok "v"; Ok "v"].
Proof. vm_compute. reflexivity. Qed.

(** The estimate for a feature of a class: 2 of 2 rows give 1, 1 of 2 rows give 2/3. *)
Example C64_ex_estimates :
  match nb_fit t_show (λ l, l) nb_new (n_grid n_rows) with
  | Ok n => map bits_of_b64 (default [] (nb_cond n !! "u")) = [0x3FF0000000000000; 0x3FE5555555555555]%Z ∧
            nb_class n !! "u" = Some 2 ∧ nb_class n !! "v" = Some 3
  | _ => False end.
Proof. vm_compute. split; [reflexivity|]. split; reflexivity. Qed.

(** A training set with a numeric feature is refused. *)
Example C64_ex_errors : nb_fit t_show (λ l, l) nb_new t_train = Err.
Proof. vm_compute. reflexivity. Qed.

(** ** C109: does Fit take every training set? *)

(** The statement that fails: Fit returns for every training set with one class attribute
    and binary features.  A class whose rows have no feature present makes it panic. *)
Theorem C109_sparse_refuted : ∃ show g label bits n0,
  bernoulli_data show g label bits ∧ 0 < (gr_size g).2 ∧ others g ≠ [] ∧
  ∀ ko, any_order ko → nb_fit show ko n0 g = Panic.
Proof.
  destruct (n_data n_sparse ltac:(vm_compute; reflexivity)) as (H1 & H2 & H3 & _ & _).
  exists t_show, (n_grid n_sparse), (n_label n_sparse), (n_bits n_sparse), nb_new.
  split; [exact H1|]. split; [rewrite H2; vm_compute; lia|]. split; [rewrite H3; discriminate|].
  intros ko Hko. destruct (C64_fit t_show ko (n_grid n_sparse) (n_label n_sparse) (n_bits n_sparse) nb_new Hko H1)
    as [[[Hn|Hall] _]|[_ H]]; [rewrite H3 in Hn; discriminate| |exact H].
  rewrite H2, H3 in Hall. destruct (Hall 1) as (r & f & Hr & Hl & Hf & Hb); [vm_compute; lia|].
  exfalso. change (r < 2) in Hr. change (f < 2) in Hf.
  destruct r as [|[|r]]; [vm_compute in Hl; discriminate| |lia].
  destruct f as [|[|f]]; [vm_compute in Hb; discriminate|vm_compute in Hb; discriminate|lia].
Qed.
Print Assumptions C109_sparse_refuted.

(** A classifier trained on no rows answers every vector with the empty string, which is
    not a class. *)
Theorem C109_empty_refuted : ∃ show g label bits,
  bernoulli_data show g label bits ∧ ∀ ko log, any_order ko →
    ∃ n, nb_fit show ko nb_new g = Ok n ∧ nb_predict_one ko log n [[1%N]; [1%N]] = Ok "".
Proof.
  destruct (n_data [] ltac:(vm_compute; reflexivity)) as (H1 & H2 & H3 & _ & _).
  exists t_show, (n_grid []), (n_label []), (n_bits []). split; [exact H1|]. intros ko log Hko.
  destruct (nb_fit_ok t_show ko Hko (n_grid []) (n_label []) (n_bits []) H1 nb_new) as (n & E & E1 & E2 & _ & E4 & _).
  { right. rewrite H2. intros r Hr. cbn in Hr. lia. }
  exists n. split; [exact E|]. unfold nb_predict_one. rewrite E2, H3.
  assert (nb_class n = ∅) as ->.
  { apply map_empty. intros c. rewrite E4, H2. reflexivity. }
  rewrite map_to_list_empty, (Permutation_nil (symmetry (Hko []))). reflexivity.
Qed.
Print Assumptions C109_empty_refuted.
