(** Properties C57 to C60 and C99 to C103: clustering. *)
From Coq Require Import Reals Psatz.
From Verif Require Import Prelude BytesModel FloatModel FloatOrder AttrModel StoreModel DenseModel DenseSpec DenseProofs
  GridModel GridSpec GridProofs FilterModel KnnModel Id3Model Id3Props RuleModel RuleProofs CartModel CartSpec
  CartProofs CartGrow CartFit CartProps IsoModel ClusModel ClusSpec ClusProofs ClusGrid ClusMap.
From Flocq Require Import IEEE754.BinarySingleNaN IEEE754.Bits IEEE754.Binary.
Local Open Scope nat_scope.

(** ** Points on a line for the examples *)

Definition p_grid (xs : list Z) : grid := c_grid (map (λ x, (x, 0, 0)%Z) xs).
Definition p_feat (xs : list Z) (r : nat) : list binary64 :=
  match xs !! r with Some x => [float_of_Z x] | None => [] end.
Definition p_metric (a b : list binary64) : binary64 :=
  match a, b with [x], [y] => b64_abs (b64_minus mode_NE x y) | _, _ => float_zero end.
Definition p_near (xs : list Z) (eps : Z) : nat → nat → bool :=
  within (distance_of p_metric (p_feat xs)) (float_of_Z eps).

Definition p_rowb (r : res (list N)) (f : list binary64) : bool :=
  match r with
  | Ok raw => match unpack_float raw, f with Ok x, [y] => same_bits x y | _, _ => false end
  | _ => false
  end.
Lemma p_row r f : p_rowb r f = true → ∃ raw x, r = Ok raw ∧ unpack_float raw = Ok x ∧ f = [x].
Proof.
  unfold p_rowb. destruct r as [raw| |]; [|done..]. destruct (unpack_float raw) as [x| |] eqn:E; [|done..].
  destruct f as [|y [|]]; [done| |done]. intros ->%same_bits_eq. eauto.
Qed.
Definition p_readsb (xs : list Z) : bool :=
  let g := p_grid xs in
  bool_decide (resolve g [cx] = Ok [Spec 0 0 cx]) &&
  ((gr_size g).2 =? length xs) &&
  forallb (λ r, p_rowb (gr_get g (Spec 0 0 cx) r) (p_feat xs r)) (seq 0 (length xs)).
Lemma p_reads xs : p_readsb xs = true → reads_columns (p_grid xs) [cx] (p_feat xs) ∧ (gr_size (p_grid xs)).2 = length xs.
Proof.
  unfold p_readsb. generalize (p_grid xs). intros g. rewrite !andb_true_iff. intros [[H1 H2] H3].
  apply bool_decide_eq_true in H1. apply Nat.eqb_eq in H2. split; [|done]. exists [Spec 0 0 cx]. split; [done|].
  intros r Hr. rewrite forallb_forall in H3. destruct (p_row _ _ (H3 r ltac:(apply in_seq; lia))) as (raw & x & Ha & Hb & ->).
  exists [raw]. cbn [res_mapM]. rewrite Ha, Hb. done.
Qed.

Definition p_run (xs : list Z) (eps mc : Z) : res (list (nat * list nat)) :=
  m ← dbscan p_metric ((length xs + 1) * (length xs + 1)) [cx] (float_of_Z eps) mc (p_grid xs); Ok (map_to_list m).

(** ** C57: valid clusterings *)

(** When DBSCAN returns, no cluster lists a row twice, no row is in two clusters, every
    cluster has [mc] rows or more, and the rows are rows of the table. *)
Theorem C57_valid metric fuel attrs eps mc g m c l :
  dbscan metric fuel attrs eps mc g = Ok m → m !! c = Some l →
  NoDup l ∧ (mc <= Z.of_nat (length l))%Z ∧ (∀ q, q ∈ l → q < (gr_size g).2) ∧
  (∀ c' l' q, m !! c' = Some l' → q ∈ l → q ∈ l' → c' = c).
Proof.
  intros Hm Hc. destruct (dbscan_feat _ _ _ _ _ _ _ Hm) as [feat Hf].
  exact (dbscan_valid metric fuel attrs eps mc g feat Hf m c l Hm Hc).
Qed.
Print Assumptions C57_valid.

(** Two groups and a lone point; the rows of the groups alternate. *)
Example C57_ex : p_run [0; 10; 1; 50; 12; 2; 11]%Z 2 3 = Ok [(1, [0; 2; 5]); (2, [1; 4; 6])].
Proof. vm_compute. reflexivity. Qed.

(** ** C58: DBSCAN returns *)

(** The expansion of a cluster always ends: with the fuel of [(rows + 1)^2] iterations the
    model never gives up, for every metric, distance and count. *)
Theorem C58_ends metric fuel attrs eps mc g feat :
  reads_columns g attrs feat → all_float attrs = true → length attrs ≠ 0 → (gr_size g).2 ≠ 0 →
  ((gr_size g).2 + 1) * ((gr_size g).2 + 1) ≤ fuel →
  dbscan metric fuel attrs eps mc g ≠ Err.
Proof. intros Hr Hf Hl Hn Hfu. by apply (dbscan_total metric fuel attrs eps mc g feat Hr). Qed.
Print Assumptions C58_ends.

(** DBSCAN returns for every table without border rows (rows that are near a core row but
    are no core rows); missing: the tables with border rows, see [C58_refuted]. *)
Theorem C58_returns_partial metric fuel attrs eps mc g feat :
  reads_columns g attrs feat → all_float attrs = true → length attrs ≠ 0 → (gr_size g).2 ≠ 0 →
  ((gr_size g).2 + 1) * ((gr_size g).2 + 1) ≤ fuel →
  no_border (gr_size g).2 (within (distance_of metric feat) eps) mc →
  ∃ m, dbscan metric fuel attrs eps mc g = Ok m.
Proof.
  intros Hr Hf Hl Hn Hfu Hb.
  destruct (dbscan_components metric fuel attrs eps mc g feat Hr Hfu Hf Hl Hn Hb) as (m & Hm & _). eauto.
Qed.
Print Assumptions C58_returns_partial.

(** Points 0, 10, 15 and 20 with eps 10 and MinCount 3: the first is noise, and takes the
    second, a core row, with it; DBSCAN panics. *)
Theorem C58_refuted : ∃ metric fuel attrs eps mc g feat,
  reads_columns g attrs feat ∧ all_float attrs = true ∧ length attrs ≠ 0 ∧ (gr_size g).2 ≠ 0 ∧
  ((gr_size g).2 + 1) * ((gr_size g).2 + 1) ≤ fuel ∧ (1 <= mc)%Z ∧ float_le float_zero eps = true ∧
  dbscan metric fuel attrs eps mc g = Panic.
Proof.
  exists p_metric, 25, [cx], (float_of_Z 10), 3%Z, (p_grid [0; 10; 15; 20]%Z), (p_feat [0; 10; 15; 20]%Z).
  destruct (p_reads [0; 10; 15; 20]%Z ltac:(vm_compute; reflexivity)) as [H1 H2]. rewrite H2.
  split; [exact H1|]. split; [vm_compute; reflexivity|]. split; [discriminate|]. split; [discriminate|].
  split; [vm_compute; lia|]. split; [lia|]. split; vm_compute; reflexivity.
Qed.
Print Assumptions C58_refuted.

(** ** C99: clusters are connected *)

(** The first row of a cluster is a core row and every row of the cluster can be reached
    from it through core rows. *)
Theorem C99_reached metric fuel attrs eps mc g feat m c l :
  reads_columns g attrs feat → dbscan metric fuel attrs eps mc g = Ok m → m !! c = Some l →
  let near := within (distance_of metric feat) eps in
  ∃ p l', l = p :: l' ∧ core (gr_size g).2 near mc p ∧ ∀ q, q ∈ l → reaches (gr_size g).2 near mc p q.
Proof. intros Hr Hm Hc. exact (dbscan_reached metric fuel attrs eps mc g feat Hr m c l Hm Hc). Qed.
Print Assumptions C99_reached.

(** A chain: the first and the last point are far apart. *)
Example C99_ex : p_readsb [0; 1; 2; 3; 4]%Z = true ∧ p_run [0; 1; 2; 3; 4]%Z 1 2 = Ok [(1, [0; 1; 2; 3; 4])].
Proof. split; vm_compute; reflexivity. Qed.

(** ** C100: clusters are as large as they should be *)

(** Core rows within eps of each other are not in different clusters. *)
Theorem C100_together metric fuel attrs eps mc g feat m c1 c2 l1 l2 x y :
  reads_columns g attrs feat → dbscan metric fuel attrs eps mc g = Ok m →
  let near := within (distance_of metric feat) eps in
  m !! c1 = Some l1 → m !! c2 = Some l2 → x ∈ l1 → y ∈ l2 →
  core (gr_size g).2 near mc x → core (gr_size g).2 near mc y → near x y = true → c1 = c2.
Proof. intros Hr Hm near. exact (dbscan_apart metric fuel attrs eps mc g feat Hr m c1 c2 l1 l2 x y Hm). Qed.
Print Assumptions C100_together.

(** Without border rows every core row is in a cluster, and that cluster consists exactly
    of the rows that can be reached from it; missing: tables with border rows. *)
Theorem C100_components_partial metric fuel attrs eps mc g feat m :
  reads_columns g attrs feat →
  let rows := (gr_size g).2 in let near := within (distance_of metric feat) eps in
  (rows + 1) * (rows + 1) ≤ fuel → no_border rows near mc →
  dbscan metric fuel attrs eps mc g = Ok m →
  (∀ q, q < rows → core rows near mc q → ∃ c l, m !! c = Some l ∧ q ∈ l) ∧
  (∀ c l x y, m !! c = Some l → x ∈ l → x < rows → core rows near mc x → (y ∈ l ↔ reaches rows near mc x y)).
Proof.
  intros Hr rows near Hfu Hb Hm. destruct (dbscan_reads _ _ _ _ _ _ _ Hm) as (Hf & Hn & Hl).
  destruct (dbscan_components metric fuel attrs eps mc g feat Hr Hfu Hf Hl Hn Hb) as (m' & Hm' & H).
  rewrite Hm in Hm'. injection Hm' as <-. exact H.
Qed.
Print Assumptions C100_components_partial.

Definition coreb (rows : nat) (near : nat → nat → bool) (mc : Z) (x : nat) : bool :=
  (mc <=? Z.of_nat (length (filter (λ y, near x y = true) (seq 0 rows))))%Z.
Lemma coreb_core rows near mc x : coreb rows near mc x = true ↔ core rows near mc x.
Proof. apply Z.leb_le. Qed.
Definition no_borderb (rows : nat) (near : nat → nat → bool) (mc : Z) : bool :=
  forallb (λ x, forallb (λ y, implb (coreb rows near mc x && near x y) (coreb rows near mc y)) (seq 0 rows)) (seq 0 rows).
Lemma no_border_check rows near mc : no_borderb rows near mc = true → no_border rows near mc.
Proof.
  unfold no_borderb. rewrite forallb_forall. intros H x y (Hc & Hx & Hy & Hn).
  specialize (H x ltac:(apply in_seq; lia)). rewrite forallb_forall in H. specialize (H y ltac:(apply in_seq; lia)).
  apply coreb_core in Hc. rewrite Hc, Hn in H. cbn in H. by apply coreb_core.
Qed.

(** The table of [C57_ex] has no border rows and has noise. *)
Example C100_ex : let xs := [0; 10; 1; 50; 12; 2; 11]%Z in
  reads_columns (p_grid xs) [cx] (p_feat xs) ∧ (gr_size (p_grid xs)).2 = 7 ∧
  no_border 7 (p_near xs 2) 3 ∧ ¬ core 7 (p_near xs 2) 3 3 ∧ core 7 (p_near xs 2) 3 4.
Proof.
  cbv zeta. destruct (p_reads [0; 10; 1; 50; 12; 2; 11]%Z ltac:(vm_compute; reflexivity)) as [H1 H2].
  split; [exact H1|]. split; [exact H2|]. split; [apply no_border_check; vm_compute; reflexivity|].
  split; [rewrite <- coreb_core|apply coreb_core]; vm_compute; [discriminate|reflexivity].
Qed.

(** Points 0, 18, 19 and 10 with eps 10 and MinCount 3: DBSCAN returns no cluster although
    the second row is a core row. *)
Theorem C100_lost_refuted : ∃ metric fuel attrs eps mc g feat m q,
  reads_columns g attrs feat ∧ ((gr_size g).2 + 1) * ((gr_size g).2 + 1) ≤ fuel ∧
  dbscan metric fuel attrs eps mc g = Ok m ∧
  q < (gr_size g).2 ∧ core (gr_size g).2 (within (distance_of metric feat) eps) mc q ∧
  ¬ ∃ c l, m !! c = Some l ∧ q ∈ l.
Proof.
  set (xs := [0; 18; 19; 10]%Z). destruct (p_reads xs ltac:(vm_compute; reflexivity)) as [H1 H2].
  exists p_metric, 25, [cx], (float_of_Z 10), 3%Z, (p_grid xs), (p_feat xs), ∅, 1. rewrite H2.
  split; [exact H1|]. split; [vm_compute; lia|]. split.
  { assert (p_run xs 10 3 = Ok []) as H by (vm_compute; reflexivity). unfold p_run in H. change ((length xs + 1) * (length xs + 1)) with 25 in H.
    clear H1 H2. destruct (dbscan _ _ _ _ _ _) as [m| |]; [|discriminate H..]. cbn [mbind res_bind] in H. injection H as H.
    f_equal. by apply map_to_list_empty_iff. }
  split; [vm_compute; lia|]. split; [apply coreb_core; vm_compute; reflexivity|].
  intros (c & l & Hc & _). by rewrite lookup_empty in Hc.
Qed.
Print Assumptions C100_lost_refuted.

(** ** C59: inverting cluster maps *)

(** Whatever the order of the clusters: when no point is listed twice, the inverse maps a
    point to a cluster exactly when the cluster lists it; otherwise there is an error. *)
Theorem C59_invert order ref : order ≡ₚ (map_to_list ref).*1 →
  (NoDup (points_of ref) → ∃ m, invert order ref = Ok m ∧ ∀ p c, m !! p = Some c ↔ listed ref p c) ∧
  (¬ NoDup (points_of ref) → invert order ref = Err).
Proof. apply invert_spec. Qed.
Print Assumptions C59_invert.

Lemma two_clusters (a b : Z) (la lb : list Z) (c : Z) (l : list Z) :
  (<[a := la]> (<[b := lb]> ∅) : cluster_map) !! c = Some l → (c = a ∧ l = la) ∨ (c = b ∧ l = lb).
Proof.
  intros H. apply lookup_insert_Some in H as [[<- <-]|[_ H]]; [by left|]. right.
  apply lookup_insert_Some in H as [[<- <-]|[_ H]]; [done|]. by apply lookup_empty_Some in H.
Qed.
Definition e_map : cluster_map := <[1%Z := [4; 2]%Z]> (<[7%Z := [3]%Z]> ∅).
Example C59_ex : [7; 1]%Z ≡ₚ (map_to_list e_map).*1 ∧ NoDup (points_of e_map) ∧
  (∃ m, invert [7; 1]%Z e_map = Ok m ∧ m !! 2%Z = Some 1%Z ∧ m !! 3%Z = Some 7%Z ∧ m !! 1%Z = None) ∧
  invert [7; 1]%Z (<[1%Z := [4; 3]%Z]> e_map) = Err.
Proof.
  split; [eapply bool_decide_eq_true_1; vm_compute; reflexivity|].
  split; [eapply bool_decide_eq_true_1; vm_compute; reflexivity|]. split; [|vm_compute; reflexivity].
  eexists. split; [vm_compute; reflexivity|]. split_and!; vm_compute; reflexivity.
Qed.

(** ** C60: equality of cluster maps *)

(** For maps that list no point twice, a one-to-one renaming makes Equals true; this holds
    for every order of Go's loops. *)
Theorem C60_renaming_equal ref other oref oother opoints oold :
  oref ≡ₚ (map_to_list ref).*1 → oother ≡ₚ (map_to_list other).*1 → oold ≡ₚ (map_to_list other).*1 →
  opoints ≡ₚ points_of ref →
  NoDup (points_of ref) → NoDup (points_of other) → renamed ref other →
  equals oref oother opoints oold ref other = Ok true.
Proof. apply equals_true. Qed.
Print Assumptions C60_renaming_equal.

(** When no cluster of the receiver is empty, Equals is true only for maps that list no
    point twice and are renamings of each other, and it never returns false without an
    error; missing: receivers with empty clusters, see [C60_empty_refuted]. *)
Theorem C60_equal_renaming_partial ref other oref oother opoints oold b :
  oref ≡ₚ (map_to_list ref).*1 → oother ≡ₚ (map_to_list other).*1 → oold ≡ₚ (map_to_list other).*1 →
  opoints ≡ₚ points_of ref → (∀ c, ref !! c ≠ Some []) →
  equals oref oother opoints oold ref other = Ok b →
  b = true ∧ NoDup (points_of ref) ∧ NoDup (points_of other) ∧ renamed ref other.
Proof. apply equals_renamed. Qed.
Print Assumptions C60_equal_renaming_partial.

Definition e_other : cluster_map := <[7%Z := [2; 4]%Z]> (<[0%Z := [3]%Z]> ∅).
Example C60_ex : renamed e_map e_other ∧ NoDup (points_of e_other) ∧ (∀ c, e_map !! c ≠ Some []) ∧
  equals [7; 1]%Z [0; 7]%Z [2; 3; 4]%Z [7; 0]%Z e_map e_other = Ok true ∧
  equals [7; 1]%Z [0; 7]%Z [2; 3; 4]%Z [7; 0]%Z e_map (<[7%Z := [2]%Z]> (<[0%Z := [3; 4]%Z]> ∅)) = Err.
Proof.
  split_and!.
  - assert (∀ c, is_Some (e_other !! c) → c = 7%Z ∨ c = 0%Z) as Hd.
    { intros c [l [[-> _]|[-> _]]%two_clusters]; auto. }
    assert (∀ c, is_Some (e_map !! c) → c = 1%Z ∨ c = 7%Z) as Hr.
    { intros c [l [[-> _]|[-> _]]%two_clusters]; auto. }
    exists (λ c, if (c =? 7)%Z then 1%Z else 7%Z). split_and!.
    + intros c c' [->| ->]%Hd [->| ->]%Hd; cbn; congruence.
    + intros c [->| ->]%Hd; eexists; vm_compute; reflexivity.
    + intros c [->| ->]%Hr; [exists 7%Z|exists 0%Z]; (split; [eexists|]; vm_compute; reflexivity).
    + intros c p [->| ->]%Hd; unfold listed; cbn [Z.eqb Pos.eqb]; split; intros (l & [= <-] & Hp).
      * exists [4; 2]%Z. split; [vm_compute; reflexivity|]. set_solver.
      * exists [2; 4]%Z. split; [vm_compute; reflexivity|]. set_solver.
      * exists [3]%Z. split; [vm_compute; reflexivity|]. set_solver.
      * exists [3]%Z. split; [vm_compute; reflexivity|]. set_solver.
  - eapply bool_decide_eq_true_1; vm_compute; reflexivity.
  - intros c [[_ Hl]|[_ Hl]]%two_clusters; done.
  - vm_compute. reflexivity.
  - vm_compute. reflexivity.
Qed.

(** With an empty cluster in the receiver, Equals is true though no renaming exists: one
    cluster of two points against two clusters of one. *)
Theorem C60_empty_refuted : ∃ ref other oref oother opoints oold,
  oref ≡ₚ (map_to_list ref).*1 ∧ oother ≡ₚ (map_to_list other).*1 ∧ oold ≡ₚ (map_to_list other).*1 ∧
  opoints ≡ₚ points_of ref ∧ equals oref oother opoints oold ref other = Ok true ∧ ¬ renamed ref other.
Proof.
  exists (<[1%Z := [0; 1]%Z]> (<[2%Z := []]> ∅)), (<[1%Z := [0]%Z]> (<[2%Z := [1]%Z]> ∅)),
    [1; 2]%Z, [1; 2]%Z, [0; 1]%Z, [1; 2]%Z.
  split_and!; try (eapply bool_decide_eq_true_1; vm_compute; reflexivity).
  - intros (f & Hinj & Hdom & Hsur & Hlist).
    destruct (Hsur 1%Z) as (c & [l Hc] & Hf); [eexists; apply lookup_insert|].
    assert (listed (<[1%Z := [0]%Z]> (<[2%Z := [1]%Z]> ∅)) 0 c) as (l0 & H0 & Hin0).
    { apply Hlist; [eauto|]. rewrite Hf. eexists. split; [apply lookup_insert|]. left. }
    assert (listed (<[1%Z := [0]%Z]> (<[2%Z := [1]%Z]> ∅)) 1 c) as (l1 & H1 & Hin1).
    { apply Hlist; [eauto|]. rewrite Hf. eexists. split; [apply lookup_insert|]. right. left. }
    rewrite H0 in H1. injection H1 as <-. 
    apply two_clusters in H0 as [[_ ->]|[_ ->]]; set_solver.
Qed.
Print Assumptions C60_empty_refuted.

(** ** C101: mixture predictions *)

(** Predict of a fitted mixture puts every row into one cluster, that of the component
    under which it is most likely (the first on ties), in the order of the rows. *)
Theorem C101_predict log_prob comps attrs g feat :
  iter_agrees g → reads_columns g attrs feat → length attrs ≠ 0 → (gr_size g).2 ≠ 0 → 0 < comps →
  (∀ k r, k < comps → r < (gr_size g).2 → is_nan 53 1024 (log_prob k (feat r)) = false) →
  ∃ m, em_predict log_prob comps attrs g = Ok m ∧
    (∀ k l, m !! k = Some l → l ≠ [] ∧ StronglySorted lt l) ∧
    (∀ k r, (∃ l, m !! k = Some l ∧ r ∈ l) ↔ r < (gr_size g).2 ∧ most_likely log_prob comps (feat r) k).
Proof.
  intros Hit Hr Hl Hn H0 Hnan. destruct (em_predict_spec log_prob comps attrs g feat Hit Hr Hl Hn) as (m & Hm & Hk).
  exists m. split; [done|]. split.
  - intros k l [Hne ->]%Hk. split; [done|]. clear. generalize 0. induction (gr_size g).2 as [|n IH]; intros a; cbn [seq]; [constructor|].
    rewrite filter_cons. case_decide; [|apply IH]. constructor; [apply IH|]. apply Forall_forall.
    intros x [_ Hx]%elem_of_list_filter. apply elem_of_seq in Hx. lia.
  - intros k r. split.
    + intros (l & [_ ->]%Hk & [Hb Hx]%elem_of_list_filter). apply elem_of_seq in Hx. split; [lia|]. rewrite <- Hb.
      apply best_most_likely; [done|]. intros j Hj. apply Hnan; [done|lia].
    + intros [Hx Hml]. eexists. split; [apply Hk; split; [|reflexivity]|].
      * intros Hnil. assert (r ∈ filter (λ i, best_component log_prob comps (feat i) = k) (seq 0 (gr_size g).2)) as Hin; [|rewrite Hnil in Hin; by apply elem_of_nil in Hin].
        apply elem_of_list_filter. split; [|apply elem_of_seq; lia].
        apply (most_likely_unique log_prob comps (feat r)); [intros j Hj; by apply Hnan| |done].
        apply best_most_likely; [done|]. intros j Hj. by apply Hnan.
      * apply elem_of_list_filter. split; [|apply elem_of_seq; lia].
        apply (most_likely_unique log_prob comps (feat r)); [intros j Hj; by apply Hnan| |done].
        apply best_most_likely; [done|]. intros j Hj. by apply Hnan.
Qed.
Print Assumptions C101_predict.

(** Three components around 0, 10 and 20, with a tie at 5. *)
Definition e_log (k : nat) (x : list binary64) : binary64 :=
  b64_minus mode_NE float_zero (p_metric x [float_of_Z (10 * Z.of_nat k)]).
Example C101_ex : let xs := [11; 1; 5; 9; 0]%Z in
  iter_agrees (p_grid xs) ∧ p_readsb xs = true ∧
  forallb (λ k, forallb (λ r, negb (is_nan 53 1024 (e_log k (p_feat xs r)))) (seq 0 5)) (seq 0 3) = true ∧
  (m ← em_predict e_log 3 [cx] (p_grid xs); Ok (map_to_list m)) = Ok [(0, [1; 2; 4]); (1, [0; 3])].
Proof.
  cbv zeta. split; [apply in_order_agrees, dense_grid_in_order|]. split_and!; vm_compute; reflexivity.
Qed.

(** ** C102: counting bits *)

(** BitCount is the number of the bits of the number that are 1. *)
Theorem C102_bits n : ∀ k, (n < 2 ^ N.of_nat k)%N →
  bit_count n = length (filter (λ i, N.testbit n (N.of_nat i) = true) (seq 0 k)).
Proof. intros k Hk. exact (bit_count_bits n k Hk). Qed.
Print Assumptions C102_bits.

Example C102_ex : bit_count (2 ^ 200 + 2 ^ 100 + 255 * 2 ^ 64 + 3)%N = 12.
Proof. vm_compute. reflexivity. Qed.

(** ** C103: rows as vectors *)

(** Converting a row, or all rows, gives the numbers in the given columns, in their order;
    a column that is no number is an error. *)
Theorem C103_rows attrs g feat : reads_columns g attrs feat → length attrs ≠ 0 →
  if forallb is_float attrs
  then convert_rows attrs g = Ok (map feat (seq 0 (gr_size g).2)) ∧
       ∀ r, r < (gr_size g).2 → convert_row attrs g r = Ok (feat r)
  else convert_rows attrs g = Err ∧ ∀ r, convert_row attrs g r = Err.
Proof.
  intros Hr Hl. destruct (forallb is_float attrs) eqn:Hf.
  - split; [by apply convert_rows_reads|]. intros r Hrow. destruct Hr as (specs & Hs & Hrows).
    unfold convert_row, all_float. rewrite Hf. cbn [negb]. destruct (Nat.eqb_spec (length attrs) 0); [done|]. rewrite Hs. cbn [mbind res_bind].
    destruct (Hrows r Hrow) as (raws & H1 & H2). by apply (mapM_unpack g r specs raws).
  - unfold convert_rows, convert_row, all_float. rewrite Hf. done.
Qed.
Print Assumptions C103_rows.

Example C103_ex : let xs := [3; 5]%Z in p_readsb xs = true ∧
  (m ← convert_rows [cx] (p_grid xs); Ok (map (map bits_of_b64) m)) = Ok [[bits_of_b64 (float_of_Z 3)]; [bits_of_b64 (float_of_Z 5)]].
Proof. split; vm_compute; reflexivity. Qed.
