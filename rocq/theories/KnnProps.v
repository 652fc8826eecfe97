(** Properties C48, C49, C79 and C80: nearest-neighbour predictions. *)
From Coq Require Import QArith Qabs.
From Verif Require Import Prelude BytesModel AttrModel StoreModel DenseModel DenseSpec GridModel
  GridSpec GridProofs CsvModel PredModel PredProofs KdModel KdSpec KdProofs KdProps KnnModel KnnSpec KnnProofs.
From Flocq Require Import IEEE754.Bits.
Local Open Scope nat_scope.

(** ** Tables for the examples: one numeric column and the class *)

Definition fx : attr := FloatA "x" 2.
Definition fc : attr := CatA "c" ["u"; "v"; "w"].
Definition byte8 (n : N) : list N := [n;0;0;0;0;0;0;0]%N.
Definition fx_dense (rows : list (N * N)) : dense :=
  match dense_run 64 dense_new
    ([DAdd fx; DAdd fc; DClass fc true; DExtend (length rows)] ++
     imap (λ i r, DSet (Spec 0 0 fx) i (byte8 r.1)) rows ++
     imap (λ i r, DSet (Spec 1 0 fc) i (byte8 r.2)) rows) with
  | Ok d => d | _ => dense_new end.
Definition fx_grid (rows : list (N * N)) : grid := dense_grid [((1, 0), true)] (fx_dense rows).

(** Numbers and their texts, in the examples: small whole numbers. *)
Definition ex_num (raw : list N) : res Q := Ok (inject_Z (Z.of_N (default 0%N (raw !! 0)))).
Definition ex_show (p : nat) (bits : N) : string := "?".
Definition ex_parse (s : string) : option binary64 := None.
Definition ex_distance (s : string) : option (list Q → list Q → Q) :=
  if bool_decide (s = "manhattan") then Some manhattan else None.

(** x = 1, 2, 4, 8, 9 labelled u, u, v, w, w; to predict: x = 3 and x = 7. *)
Definition ex_train : grid := fx_grid [(1,0);(2,0);(4,1);(8,2);(9,2)]%N.
Definition ex_what : grid := fx_grid [(3,0);(7,0)]%N.
Definition ex_tfeat (r : nat) : list Q := [nth r [1;2;4;8;9]%Q 0%Q].
Definition ex_wfeat (r : nat) : list Q := [nth r [3;7]%Q 0%Q].
Definition ex_label (r : nat) : string := nth r ["u";"u";"v";"w";"w"] "".

Lemma below_cases (P : nat → Prop) n : Forall P (seq 0 n) → ∀ i, i < n → P i.
Proof. intros H i Hi. rewrite Forall_forall in H. apply H. apply elem_of_seq. lia. Qed.

Example ex_inputs : knn_inputs ex_num ex_show ex_train ex_what ["u";"v";"w"] ex_label ex_tfeat ex_wfeat.
Proof.
  split.
  - vm_compute. reflexivity.
  - intros a Ha. exists a. split; [exact Ha|]. apply AttrProofs.attr_equals_refl.
  - exists fc. split; [vm_compute; right; left|reflexivity].
  - exists "c". vm_compute. reflexivity.
  - vm_compute. reflexivity.
  - apply in_order_agrees, dense_grid_in_order.
  - apply in_order_agrees, dense_grid_in_order.
  - eexists. split; [vm_compute; reflexivity|]. unfold reads_features. apply below_cases.
    repeat constructor; (eexists; split; [vm_compute; reflexivity|]); vm_compute; reflexivity.
  - eexists. split; [vm_compute; reflexivity|]. unfold reads_features. apply below_cases.
    repeat constructor; (eexists; split; [vm_compute; reflexivity|]); vm_compute; reflexivity.
  - unfold reads_labels. apply below_cases.
    repeat constructor; try (vm_compute; reflexivity).
Qed.

(** The labels predicted for [what] in the examples. *)
Definition ex_labels (r : res dense) (n : nat) : res (list string) :=
  d ← r; res_mapM (get_class ex_show (dense_grid [((0, 0), true)] d)) (seq 0 n).

Definition ex_predict (algorithm : string) (k : nat) (weighted : bool) (train what : grid) : res dense :=
  knn_predict ex_num ex_show ex_parse msort id id id id 64 ex_distance "manhattan" algorithm k
    weighted train what.

Lemma id_any_order {A} : any_order (@id (list A)).
Proof. intros l. done. Qed.

(** ** C48 *)

(** Whatever is left in the map of votes [m] by earlier predictions. *)
Theorem C48_vote : ∀ show vo train label m ns,
  any_order vo → ns ≠ [] →
  (∀ r, r ∈ ns → get_class show train r = Ok (label r)) →
  ∃ m' c, vote show vo train m ns = Ok (m', c) ∧ majority label ns c.
Proof. exact vote_ok. Qed.
Print Assumptions C48_vote.

Example C48_vote_ex :
  (r ← vote ex_show (@rev _) ex_train {["v" := 7; "w" := 3]} [2; 0; 1]; Ok r.2) = Ok "u".
Proof. vm_compute. reflexivity. Qed.

(** Weighted votes: a class whose neighbours' inverse distances have the largest sum,
    a neighbour at distance zero weighing more than any others. *)
Theorem C48_weighted : ∀ show wo train label dist_to m ns,
  any_order wo → ns ≠ [] → (∀ r, r ∈ ns → (0 <= dist_to r)%Q) →
  (∀ r, r ∈ ns → get_class show train r = Ok (label r)) →
  ∃ m' c, weighted_vote show wo train m ns (map dist_to ns) = Ok (m', c) ∧
    heaviest label dist_to ns c.
Proof. exact weighted_vote_ok. Qed.
Print Assumptions C48_weighted.

(** One close v outweighs two distant u. *)
Example C48_weighted_ex :
  (r ← weighted_vote ex_show (@rev _) ex_train ∅ [2; 0; 1] [1; 3; 4]%Q; Ok r.2) = Ok "v" ∧
  (r ← vote ex_show (@rev _) ex_train ∅ [2; 0; 1]; Ok r.2) = Ok "u".
Proof. split; vm_compute; reflexivity. Qed.

(** ** C49 *)

(** Every row to predict gets a label elected by k nearest training rows. *)
Theorem C49_linear : ∀ num show parse sorter io vo wo co pg train what vs label tfeat wfeat distance_of
    distfunc dist weighted k,
  sorts sorter → any_order io → any_order vo → any_order wo → any_order co →
  knn_inputs num show train what vs label tfeat wfeat → distance_of distfunc = Some dist →
  let n := (gr_size train).2 in let m := (gr_size what).2 in
  1 ≤ k ≤ n → (weighted = true → ∀ i r, i < m → r < n → (0 <= dist (wfeat i) (tfeat r))%Q) →
  ∃ ret, knn_predict num show parse sorter io vo wo co pg distance_of distfunc "linear" k
      weighted train what = Ok ret ∧ (dense_size ret).2 = m ∧
    ∀ order i, class_order ret order → i < m →
      ∃ ns c, nearest_rows (λ r, dist (wfeat i) (tfeat r)) n k ns ∧
        elected weighted label (λ r, dist (wfeat i) (tfeat r)) ns c ∧
        get_class show (dense_grid order ret) i = Ok c.
Proof. exact knn_linear. Qed.
Print Assumptions C49_linear.

Example C49_linear_ex :
  ex_labels (ex_predict "linear" 3 false ex_train ex_what) 2 = Ok ["u"; "w"] ∧
  (∀ i r, i < 2 → r < 5 → (0 <= manhattan (ex_wfeat i) (ex_tfeat r))%Q).
Proof. split; [vm_compute; reflexivity|]. intros. apply manhattan_nonneg. Qed.

(** The neighbours themselves, for any distances: exactly when there are enough rows. *)
Theorem C49_neighbours : ∀ sorter io k (m : gmap nat Q) d n,
  sorts sorter → any_order io →
  (∀ i, m !! i = if i <? n then Some (d i) else None) →
  (k ≤ n → ∃ ns, neighbours sorter io k m = Ok ns ∧ nearest_rows d n k ns) ∧
  (n < k → neighbours sorter io k m = Panic).
Proof. exact neighbours_ok. Qed.
Print Assumptions C49_neighbours.

(** Too many neighbours: no prediction. *)
Theorem C49_too_many : ∀ num show parse sorter io vo wo co pg train what vs label tfeat wfeat distance_of
    distfunc dist weighted k,
  sorts sorter → any_order io →
  knn_inputs num show train what vs label tfeat wfeat → distance_of distfunc = Some dist →
  (gr_size train).2 < k → (gr_size what).2 ≠ 0 →
  knn_predict num show parse sorter io vo wo co pg distance_of distfunc "linear" k
      weighted train what = Panic.
Proof. exact knn_linear_too_many. Qed.
Print Assumptions C49_too_many.

Example C49_too_many_ex : ex_predict "linear" 6 false ex_train ex_what = Panic.
Proof. vm_compute. reflexivity. Qed.

(** With the k-d tree: partial, because the tree pads itself with the origin (see C47);
    proved when every training row is closer to the rows to predict than the origin. *)
Theorem C49_kdtree_partial : ∀ num show parse sorter io vo wo co pg train what vs label tfeat wfeat
    distance_of distfunc dist weighted k d,
  sorts sorter → any_order vo → any_order wo → any_order co →
  knn_inputs num show train what vs label tfeat wfeat → distance_of distfunc = Some dist →
  let n := (gr_size train).2 in let m := (gr_size what).2 in
  1 ≤ k ≤ n → 1 ≤ d → (∀ r, r < n → length (tfeat r) = d) → (∀ i, i < m → length (wfeat i) = d) →
  plane_bound dist d →
  (∀ i r, i < m → r < n → (dist (wfeat i) (tfeat r) < dist (wfeat i) (repeat 0%Q d))%Q) →
  (weighted = true → ∀ i r, i < m → r < n → (0 <= dist (wfeat i) (tfeat r))%Q) →
  ∃ ret, knn_predict num show parse sorter io vo wo co pg distance_of distfunc "kdtree" k
      weighted train what = Ok ret ∧ (dense_size ret).2 = m ∧
    ∀ order i, class_order ret order → i < m →
      ∃ ns c, nearest_rows (λ r, dist (wfeat i) (tfeat r)) n k ns ∧
        elected weighted label (λ r, dist (wfeat i) (tfeat r)) ns c ∧
        get_class show (dense_grid order ret) i = Ok c.
Proof. exact knn_tree. Qed.
Print Assumptions C49_kdtree_partial.

(** Training rows 6, 7, 9, 11; to predict: 7 and 10. *)
Example C49_kdtree_ex :
  let train := fx_grid [(6,0);(7,0);(9,1);(11,1)]%N in
  let what := fx_grid [(7,2);(10,2)]%N in
  ex_labels (ex_predict "kdtree" 2 false train what) 2 = Ok ["u"; "v"] ∧
  ∀ i r, i < 2 → r < 4 →
    (manhattan [nth i [7;10]%Q 0%Q] [nth r [6;7;9;11]%Q 0%Q] < manhattan [nth i [7;10]%Q 0%Q] (repeat 0%Q 1))%Q.
Proof.
  split; [vm_compute; reflexivity|]. intros i r Hi Hr.
  destruct i as [|[|i]]; [| |lia]; (destruct r as [|[|[|[|r]]]]; [vm_compute; reflexivity..|lia]).
Qed.

(** With the k-d tree, asking for too many neighbours is no error: every row silently
    gets the first value of the class attribute. *)
Theorem C49_too_many_kdtree : ∀ num show parse sorter io vo wo co pg train what v vs label tfeat wfeat
    distance_of distfunc dist weighted k d,
  sorts sorter →
  knn_inputs num show train what (v :: vs) label tfeat wfeat → distance_of distfunc = Some dist →
  let n := (gr_size train).2 in let m := (gr_size what).2 in
  1 ≤ n → n < k → 1 ≤ d → (∀ r, r < n → length (tfeat r) = d) →
  ∃ ret, knn_predict num show parse sorter io vo wo co pg distance_of distfunc "kdtree" k
      weighted train what = Ok ret ∧ (dense_size ret).2 = m ∧
    ∀ order i, class_order ret order → i < m → get_class show (dense_grid order ret) i = Ok v.
Proof. exact knn_tree_too_many. Qed.
Print Assumptions C49_too_many_kdtree.

Theorem C49_too_many_kdtree_refuted : ∃ train what k,
  (gr_size train).2 < k ∧ (gr_size what).2 ≠ 0 ∧
  ex_labels (ex_predict "kdtree" k false train what) (gr_size what).2 = Ok ["u"; "u"].
Proof.
  exists ex_train, ex_what, 6. split; [vm_compute; lia|]. split; [vm_compute; lia|].
  vm_compute. reflexivity.
Qed.
Print Assumptions C49_too_many_kdtree_refuted.

(** ** C79: the regressor *)

Theorem C79_mean : ∀ sorter io dist k values data vector,
  sorts sorter → any_order io → length values = length data → 1 ≤ k →
  (k ≤ length data → ∃ ns vs q, knn_regress sorter io dist k values data vector = Ok (Some q) ∧
     nearest_rows (λ r, dist (default [] (data !! r)) vector) (length data) k ns ∧
     Forall2 (λ r v, values !! r = Some v) ns vs ∧
     (q == foldr Qplus 0 vs / inject_Z (Z.of_nat k))%Q) ∧
  (length data < k → knn_regress sorter io dist k values data vector = Panic).
Proof. exact knn_regress_ok. Qed.
Print Assumptions C79_mean.

Example C79_ex :
  knn_regress msort id manhattan 2 [10; 20; 40]%Q [[1]; [2]; [9]]%Q [3]%Q = Ok (Some (30 # 2)).
Proof. vm_compute. reflexivity. Qed.

(** ** C80: the optimised path *)

(** Unweighted: as without optimisation, with squared distances. *)
Theorem C80_optimised_partial : ∀ show parse sorter vo co pg k train groups what name vs label ret0,
  sorts sorter → any_order vo → any_order co →
  let n := (gr_size train).2 in let m := (gr_size what).2 in
  groups_fit groups n m → groups ≠ [] → 1 ≤ k ≤ n →
  gr_class_attrs what = [CatA name vs] → (N.of_nat (length vs) < 2^63)%N →
  reads_labels show train vs label → prediction_vector pg what = Ok ret0 →
  ∃ ret, opt_predict show parse sorter vo co k train groups m ret0 = Ok ret ∧
    ∀ order i, class_order ret order → i < m →
      ∃ ns c, nearest_rows (group_distance groups i) n k ns ∧ majority label ns c ∧
        get_class show (dense_grid order ret) i = Ok c.
Proof. exact opt_predict_ok. Qed.
Print Assumptions C80_optimised_partial.

Definition ex_groups : list (nat * list Q * list Q) := [(1, [1;2;4;8;9]%Q, [3;7]%Q)].

Example C80_ex :
  groups_fit ex_groups 5 2 ∧
  ex_labels (d ← prediction_vector 64 ex_what;
             opt_predict ex_show ex_parse msort id id 3 ex_train ex_groups 2 d) 2 = Ok ["u"; "w"].
Proof.
  split; [|vm_compute; reflexivity]. intros g Hg. apply elem_of_list_singleton in Hg as ->. done.
Qed.

(** The optimised path, which [NewKnnClassifier] allows, takes no account of
    [Weighted]: for training rows 1, 2 (u) and 4 (v) and x = 4 to predict, the label v
    has a neighbour at distance zero, so that its weight is infinite, but u is
    predicted. *)
Theorem C80_weighted_refuted : ∃ train what groups label,
  groups_fit groups (gr_size train).2 (gr_size what).2 ∧
  reads_labels ex_show train ["u"; "v"; "w"] label ∧
  ex_labels (d ← prediction_vector 64 what;
             opt_predict ex_show ex_parse msort id id 3 train groups 1 d) 1 = Ok ["u"] ∧
  ∀ ns, nearest_rows (group_distance groups 0) 3 3 ns →
    ¬ heaviest label (group_distance groups 0) ns "u".
Proof.
  exists (fx_grid [(1,0);(2,0);(4,1)]%N), (fx_grid [(4,0)]%N), [(1, [1;2;4]%Q, [4]%Q)],
    (λ r, nth r ["u";"u";"v"] "").
  split; [intros g Hg; apply elem_of_list_singleton in Hg as ->; done|].
  split; [unfold reads_labels; apply below_cases; repeat constructor; try (vm_compute; reflexivity)|].
  split; [vm_compute; reflexivity|].
  intros ns (Hl & Hnd & Hlt & _) [_ Hh]. specialize (Hh "v"). revert Hh.
  assert (2 ∈ ns) as H2.
  { destruct (decide (2 ∈ ns)) as [|Hno]; [done|]. exfalso.
    assert (length ns ≤ length (seq 0 2)); [|rewrite seq_length in *; lia].
    apply submseteq_length, NoDup_submseteq; [done|]. intros r Hr. apply elem_of_seq.
    specialize (Hlt r Hr). assert (r ≠ 2) by (by intros ->). lia. }
  unfold total_weight.
  rewrite (proj2 (existsb_exists _ _)).
  2: { exists 2. split; [|vm_compute; reflexivity]. apply elem_of_list_In, elem_of_list_filter. done. }
  destruct (existsb _ (filter (λ r, nth r ["u";"u";"v"] "" = "u") ns)) eqn:E; [|done].
  exfalso. apply existsb_exists in E as (r & Hr & E). apply elem_of_list_In, elem_of_list_filter in Hr as [Hu Hr].
  specialize (Hlt r Hr). destruct r as [|[|[|r]]]; [vm_compute in E; done..|lia].
Qed.
Print Assumptions C80_weighted_refuted.

(** ** C81: CheckStrictlyCompatible *)

(** Never a refusal when the layouts are the same, for any map iteration order. *)
Theorem C81_accepts : ∀ order g1 g2,
  any_order order → same_layout g1 g2 → strictly_compatible order g1 g2 = Ok true.
Proof. exact strictly_compatible_complete. Qed.
Print Assumptions C81_accepts.

(** Exact when groups of the same name have as many attributes. *)
Theorem C81_exact_partial : ∀ order g1 g2,
  any_order order → (∀ n l1 l2, g1 !! n = Some l1 → g2 !! n = Some l2 → length l1 = length l2) →
  ∃ b, strictly_compatible order g1 g2 = Ok b ∧ (b = true ↔ same_layout g1 g2).
Proof. exact strictly_compatible_false. Qed.
Print Assumptions C81_exact_partial.

Example C81_ex :
  strictly_compatible id {["FLOAT" := [fx]; "CAT" := [fc]]} {["FLOAT" := [fx]; "CAT" := [fc]]} = Ok true ∧
  strictly_compatible id {["FLOAT" := [fx]; "CAT" := [fc]]} {["FLOAT" := [fx]; "CAT" := [BinA "c"]]} = Ok false.
Proof. split; vm_compute; reflexivity. Qed.

(** Otherwise: accepted though the layouts differ, or a panic. *)
Theorem C81_refuted :
  (∃ g1 g2, ¬ same_layout g1 g2 ∧ strictly_compatible id g1 g2 = Ok true) ∧
  ∃ g1 g2, ¬ same_layout g1 g2 ∧ strictly_compatible id g1 g2 = Panic.
Proof.
  split.
  - exists {["FLOAT" := [fx]]}, {["FLOAT" := [fx; FloatA "y" 2]]}. split; [|vm_compute; reflexivity].
    intros H. specialize (H "FLOAT"). vm_compute in H. inversion H as [|? ? ? ? _ H5]. by inversion H5.
  - exists {["FLOAT" := [fx; FloatA "y" 2]]}, {["FLOAT" := [fx]]}. split; [|vm_compute; reflexivity].
    intros H. specialize (H "FLOAT"). vm_compute in H. inversion H as [|? ? ? ? _ H5]. by inversion H5.
Qed.
Print Assumptions C81_refuted.
