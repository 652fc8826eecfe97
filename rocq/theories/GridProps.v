(** Properties C12-C20 and C24: views, splits, distributions. *)
From Verif Require Import Prelude BytesModel FloatModel AttrModel AttrSpec StoreModel
  DenseModel DenseSpec DenseProofs DenseCheck ShuffleModel SwapProofs
  GridModel GridSpec GridProofs.
From Flocq Require Import IEEE754.Bits IEEE754.Binary.
From stdpp Require Import pretty.
Local Open Scope nat_scope.

(** The table used by the examples: a float column 1, 2, 3 and a categorical
    class u, v, u. *)
Definition gx : attr := FloatA "x" 2.
Definition gc : attr := CatA "c" ["u"; "v"].
Definition sx : spec := Spec 0 0 gx.
Definition sc : spec := Spec 1 0 gc.
Definition f1 : list N := [0;0;0;0;0;0;240;63]%N.
Definition f2 : list N := [0;0;0;0;0;0;0;64]%N.
Definition f3 : list N := [0;0;0;0;0;0;8;64]%N.
Definition code_v : list N := [1;0;0;0;0;0;0;0]%N.
Definition code_u : list N := [0;0;0;0;0;0;0;0]%N.

Definition gr_history : list dop :=
  [DAdd gx; DAdd gc; DClass gc true; DExtend 3;
   DSet sx 0 f1; DSet sx 1 f2; DSet sx 2 f3; DSet sc 1 code_v].
Definition gr_dense : dense :=
  match dense_run 64 dense_new gr_history with Ok d => d | _ => dense_new end.
Definition gr_order : list ((nat * nat) * bool) := [((1, 0), true)].
Definition gr_ex : grid := dense_grid gr_order gr_dense.
Definition ex_show (p : nat) (bits : N) : string := pretty bits.

Lemma gr_reachable : reachable 64 gr_history gr_dense.
Proof. apply check_reachable. vm_compute. reflexivity. Qed.

Definition two : binary64 := b64_of_bits 4611686018427387904.

(** ** C12 *)

(** A view of selected rows shows exactly those rows, in the order given, and
    panics outside them. *)
Theorem C12_view_rows : ∀ src rows attrs v,
  view_from_visible src rows attrs = Ok v → shows_rows v src rows.
Proof. exact view_visible_shows. Qed.
Print Assumptions C12_view_rows.

(** Its attributes are those asked for, in order; its class attributes are the
    source's class attributes among them. *)
Theorem C12_view_attributes : ∀ src rows attrs v,
  view_from_visible src rows attrs = Ok v →
  (view_size v).1 = length attrs ∧
  Forall2 (λ a b, ∃ s, gr_get_attribute src a = Ok s ∧ sp_attr s = b)
    attrs (view_all_attrs v) ∧
  ∀ a, a ∈ v_class v ↔
    a ∈ gr_class_attrs src ∧ ∃ b, b ∈ view_all_attrs v ∧ attr_equals b a = true.
Proof. exact view_visible_cols. Qed.
Print Assumptions C12_view_attributes.

(** The view exists exactly when the source has all the attributes; asking for
    another panics. *)
Theorem C12_view_total : ∀ src rows attrs,
  (∀ a, a ∈ attrs → ∃ s, gr_get_attribute src a = Ok s) →
  ∃ v, view_from_visible src rows attrs = Ok v.
Proof. exact view_visible_total. Qed.
Print Assumptions C12_view_total.

Theorem C12_unknown_attribute_panics : ∀ src rows attrs a,
  a ∈ attrs → (∀ s, gr_get_attribute src a ≠ Ok s) →
  view_from_visible src rows attrs = Panic.
Proof. exact view_visible_unresolved. Qed.
Print Assumptions C12_unknown_attribute_panics.

Example C12_ex : ∃ v,
  view_from_visible gr_ex [2; 0; 2] [gc] = Ok v ∧
  view_size v = (1, 3) ∧ view_all_attrs v = [gc] ∧ v_class v = [gc] ∧
  view_get v sx 0 = Ok f3 ∧ view_get v sx 1 = Ok f1 ∧ view_get v sx 2 = Ok f3 ∧
  view_get v sx 3 = Panic ∧
  view_from_visible gr_ex [0] [BinA "z"] = Panic.
Proof.
  destruct (view_from_visible gr_ex [2; 0; 2] [gc]) as [v| |] eqn:E; [|by vm_compute in E..].
  exists v. split; [done|]. vm_compute in E. injection E as <-. vm_compute. done.
Qed.

(** ** C13 *)

(** Iterating a row-remapped view shows the source rows, not the view's. *)
Theorem C13_iteration_agrees_refuted : ∃ src rows asv i buf,
  iter_agrees src ∧
  let v := view_from_rows src rows in
  ∀ co ro,
  (∃ shown, gr_iter (view_grid co ro v) asv = Ok shown ∧ (i, Ok buf) ∈ shown) ∧
  res_mapM (λ a, view_get v a i) asv ≠ Ok buf ∧
  i < (view_size v).2.
Proof.
  exists gr_ex, {[0 := 1; 1 := 0]}, [sx], 0, [f1]. split.
  - apply in_order_agrees, dense_grid_in_order.
  - intros v co ro. split; [|split].
    + eexists. split; [reflexivity|]. vm_compute. left.
    + vm_compute. discriminate.
    + vm_compute. lia.
Qed.
Print Assumptions C13_iteration_agrees_refuted.

(** It holds of views made from visible rows, for every iteration order of the
    row map, and of attribute-restricted views of sources for which it
    holds. What is missing is the row-remapped kind, for which it is false. *)
Theorem C13_visible_rows_partial : ∀ src rows attrs v co ro,
  view_from_visible src rows attrs = Ok v → any_order ro →
  iter_agrees (view_grid co ro v).
Proof. exact view_visible_iter. Qed.
Print Assumptions C13_visible_rows_partial.

Theorem C13_attributes_partial : ∀ src attrs v co ro,
  view_from_attrs src attrs = Ok v → iter_agrees src →
  iter_agrees (view_grid co ro v).
Proof. exact view_attrs_iter. Qed.
Print Assumptions C13_attributes_partial.

Theorem C13_dense : ∀ order d, iter_in_order (dense_grid order d).
Proof. exact dense_grid_in_order. Qed.
Print Assumptions C13_dense.

Example C13_ex : ∃ v,
  view_from_visible gr_ex [2; 0] [gx] = Ok v ∧
  gr_iter (view_grid id (@rev nat) v) [sx] = Ok [(1, Ok [f1]); (0, Ok [f3])].
Proof.
  destruct (view_from_visible gr_ex [2; 0] [gx]) as [v| |] eqn:E; [|by vm_compute in E..].
  exists v. split; [done|]. vm_compute in E. injection E as <-. vm_compute. reflexivity.
Qed.

(** ** C14 *)

(** With three rows and all draws 0, row 1 of the source is nowhere in the
    shuffled view. *)
Theorem C14_lazy_shuffle_permutes_refuted : ∃ src draws,
  (∀ i, i < (gr_size src).2 → draws i ≤ i) ∧
  ∃ s j, j < (gr_size src).2 ∧
    ∀ i, i < (view_size (lazy_shuffle draws src)).2 →
      view_get (lazy_shuffle draws src) s i ≠ gr_get src s j.
Proof.
  exists gr_ex, (λ _, 0). split; [intros; lia|].
  exists sx, 1. split; [vm_compute; lia|].
  change (view_size _).2 with 3. intros i Hi.
  destruct i as [|[|[|i]]]; [..|lia]; vm_compute; discriminate.
Qed.
Print Assumptions C14_lazy_shuffle_permutes_refuted.

(** What holds: the row count is kept and every row shown is a source row. *)
Theorem C14_rows_from_source_partial : ∀ draws g,
  (∀ i, i < (gr_size g).2 → draws i ≤ i) →
  (view_size (lazy_shuffle draws g)).2 = (gr_size g).2 ∧
  ∀ i, i < (gr_size g).2 →
    ∃ j, j < (gr_size g).2 ∧ ∀ s, view_get (lazy_shuffle draws g) s i = gr_get g s j.
Proof. exact lazy_shuffle_rows_ok. Qed.
Print Assumptions C14_rows_from_source_partial.

Example C14_ex :
  let v := lazy_shuffle (λ i, i - 1) gr_ex in
  view_size v = (2, 3) ∧ view_get v sx 0 = Ok f2 ∧ view_get v sx 1 = Ok f3.
Proof. vm_compute. done. Qed.

(** ** C15 *)

(** A sample smaller than the source reports the source's row count. *)
Theorem C15_sample_size_refuted : ∃ src draws n v,
  (∀ i, i < n → draws i < (gr_size src).2) ∧
  sample_with_replacement draws src n = Ok v ∧ (view_size v).2 ≠ n.
Proof.
  exists gr_ex, (λ _, 0), 1. eexists. split; [vm_compute; lia|].
  split; [reflexivity|]. vm_compute. lia.
Qed.
Print Assumptions C15_sample_size_refuted.

(** The count is the larger of the two, and the first [n] rows are the source
    rows drawn; so the property holds whenever n is at least the row count. *)
Theorem C15_sample_partial : ∀ draws g n v,
  (∀ i, i < n → draws i < (gr_size g).2) →
  sample_with_replacement draws g n = Ok v →
  (view_size v).2 = Nat.max n (gr_size g).2 ∧
  ∀ i, i < n → draws i < (gr_size g).2 ∧ ∀ s, view_get v s i = gr_get g s (draws i).
Proof. exact sample_spec. Qed.
Print Assumptions C15_sample_partial.

Example C15_ex : ∃ v,
  sample_with_replacement (λ i, i mod 2) gr_ex 5 = Ok v ∧
  (view_size v).2 = 5 ∧ view_get v sx 3 = Ok f2.
Proof. eexists. split; [reflexivity|]. vm_compute. done. Qed.

(** ** C16 *)

(** DenseInstances: the training and test views together show every row of the
    original table exactly once. *)
Theorem C16_dense_split_partial : ∀ pg h d order shuf draws t,
  reachable pg h d → distinct_attrs (dense_all_attrs d) →
  (∀ i, i < d_maxrow d → shuf i ≤ i) →
  ∃ d' v1 v2 tr te, train_test_dense order shuf draws t d = Ok (d', (v1, v2)) ∧
    tr ++ te ≡ₚ seq 0 (d_maxrow d) ∧
    (view_size v1).2 = length tr ∧ (view_size v2).2 = length te ∧
    (∀ j r s g, tr !! j = Some r → column_of d s g → view_get v1 s j = dense_get d s r) ∧
    (∀ j r s g, te !! j = Some r → column_of d s g → view_get v2 s j = dense_get d s r).
Proof. exact train_test_dense_spec. Qed.
Print Assumptions C16_dense_split_partial.

(** Other sources are shuffled with LazyShuffle, which loses rows (C14): here
    row 1 of the source is in neither part. *)
Theorem C16_other_split_refuted : ∃ src shuf draws t v1 v2,
  (∀ i, i < (gr_size src).2 → shuf i ≤ i) ∧
  train_test_other id id shuf draws t src = Ok (v1, v2) ∧
  ∃ s j, j < (gr_size src).2 ∧
    (∀ i, i < (view_size v1).2 → view_get v1 s i ≠ gr_get src s j) ∧
    (∀ i, i < (view_size v2).2 → view_get v2 s i ≠ gr_get src s j).
Proof.
  exists gr_ex, (λ _, 0), (λ i, if (i =? 0)%nat then 100%Z else 0%Z), 50%Z.
  destruct (train_test_other id id (λ _, 0)
    (λ i, if (i =? 0)%nat then 100%Z else 0%Z) 50 gr_ex) as [[v1 v2]| |] eqn:E;
    [|by vm_compute in E..].
  exists v1, v2. split; [intros; lia|]. split; [done|].
  exists sx, 1. split; [vm_compute; lia|].
  vm_compute in E. injection E as <- <-. split; intros i Hi; vm_compute in Hi.
  - destruct i as [|i]; [|lia]. vm_compute. discriminate.
  - destruct i as [|[|i]]; [..|lia]; vm_compute; discriminate.
Qed.
Print Assumptions C16_other_split_refuted.

Example C16_ex : reachable 64 gr_history gr_dense ∧
  distinct_attrs (dense_all_attrs gr_dense) ∧ d_maxrow gr_dense = 3 ∧
  ∀ i, i < d_maxrow gr_dense → (λ i, i - 1) i ≤ i.
Proof.
  split; [exact gr_reachable|]. split; [apply distinctb_ok; vm_compute; reflexivity|].
  split; [done|]. intros. lia.
Qed.

(** ** C17 *)

(** Any grid whose iteration agrees with reading: the rows are split by the
    displayed value of the attribute. *)
Theorem C17_decompose : ∀ show g at_ s kf,
  iter_agrees g →
  (∀ a, a ∈ gr_all_attrs g → ∃ s, gr_get_attribute g a = Ok s) →
  (∀ a s' i, gr_get_attribute g a = Ok s' → i < (gr_size g).2 →
     ∃ v, gr_get g s' i = Ok v) →
  gr_get_attribute g at_ = Ok s →
  (∀ i, i < (gr_size g).2 →
     (raw ← gr_get g s i; attr_decode show (sp_attr s) raw) = Ok (kf i)) →
  ∃ m, decompose_values show g at_ = Ok m ∧ decomposes g at_ kf m.
Proof. exact decompose_values_spec. Qed.
Print Assumptions C17_decompose.

(** For DenseInstances the hypotheses on the grid always hold. *)
Theorem C17_decompose_dense : ∀ pg h d order show at_ s kf,
  reachable pg h d → dense_get_attribute d at_ = Ok s →
  (∀ i, i < d_maxrow d →
     (raw ← dense_get d s i; attr_decode show (sp_attr s) raw) = Ok (kf i)) →
  ∃ m, decompose_values show (dense_grid order d) at_ = Ok m ∧
    decomposes (dense_grid order d) at_ kf m.
Proof. exact decompose_values_dense. Qed.
Print Assumptions C17_decompose_dense.

Example C17_ex : ∃ m v,
  decompose_values ex_show gr_ex gc = Ok m ∧ m !! "u" = Some v ∧
  m !! "v" ≠ None ∧ m !! "w" = None ∧
  view_size v = (1, 2) ∧ view_get v sx 0 = Ok f1 ∧ view_get v sx 1 = Ok f3.
Proof.
  destruct (decompose_values ex_show gr_ex gc) as [m| |] eqn:E; [|by vm_compute in E..].
  exists m. destruct (m !! "u") as [v|] eqn:Ev.
  - exists v. split; [done|]. split; [done|].
    vm_compute in E. injection E as <-. vm_compute in Ev. injection Ev as <-.
    vm_compute. done.
  - exfalso. vm_compute in E. injection E as <-. by vm_compute in Ev.
Qed.

(** ** C18 *)

(** The same for a numeric threshold: the view "1" shows the rows whose value is
    greater, "0" the others (NaN compares false with everything). *)
Theorem C18_threshold : ∀ g name prec s val (x : nat → binary64),
  iter_agrees g →
  (∀ a, a ∈ gr_all_attrs g → ∃ s, gr_get_attribute g a = Ok s) →
  (∀ a s' i, gr_get_attribute g a = Ok s' → i < (gr_size g).2 →
     ∃ v, gr_get g s' i = Ok v) →
  gr_get_attribute g (FloatA name prec) = Ok s →
  (∀ i, i < (gr_size g).2 → (raw ← gr_get g s i; unpack_float raw) = Ok (x i)) →
  ∃ m, decompose_threshold g (FloatA name prec) val = Ok m ∧
    decomposes g (FloatA name prec)
      (λ i, if decide (Bcompare 53 1024 (x i) val = Some Gt) then "1" else "0") m.
Proof. exact decompose_threshold_spec. Qed.
Print Assumptions C18_threshold.

Theorem C18_threshold_dense : ∀ pg h d order name prec s val (x : nat → binary64),
  reachable pg h d → dense_get_attribute d (FloatA name prec) = Ok s →
  (∀ i, i < d_maxrow d → (raw ← dense_get d s i; unpack_float raw) = Ok (x i)) →
  ∃ m, decompose_threshold (dense_grid order d) (FloatA name prec) val = Ok m ∧
    decomposes (dense_grid order d) (FloatA name prec)
      (λ i, if decide (Bcompare 53 1024 (x i) val = Some Gt) then "1" else "0") m.
Proof. exact decompose_threshold_dense. Qed.
Print Assumptions C18_threshold_dense.

Example C18_ex : ∃ m v,
  decompose_threshold gr_ex gx two = Ok m ∧ m !! "0" = Some v ∧
  (view_size v).2 = 2 ∧ view_get v sc 1 = Ok code_v.
Proof.
  destruct (decompose_threshold gr_ex gx two) as [m| |] eqn:E; [|by vm_compute in E..].
  exists m. destruct (m !! "0") as [v|] eqn:Ev.
  - exists v. split; [done|]. split; [done|].
    vm_compute in E. injection E as <-. vm_compute in Ev. injection Ev as <-.
    vm_compute. done.
  - exfalso. vm_compute in E. injection E as <-. by vm_compute in Ev.
Qed.

(** ** C19 *)

Theorem C19_distribution : ∀ show g c,
  (∀ i, i < (gr_size g).2 → get_class show g i = Ok (c i)) →
  ∃ m, class_distribution show g = Ok m ∧
    (∀ k, default 0 (m !! k) = count_rows (gr_size g).2 (λ i, bool_decide (c i = k))) ∧
    map_Forall (λ _ v, 0 < v) m ∧ map_sum (λ v, v) m = (gr_size g).2.
Proof. exact class_distribution_spec. Qed.
Print Assumptions C19_distribution.

(** The branch counts are exact, and summing over the branches gives the overall
    count of every label. *)
Theorem C19_after_split : ∀ show g at_ s kf c,
  gr_get_attribute g at_ = Ok s →
  (∀ i, i < (gr_size g).2 → (raw ← gr_get g s i; attr_decode show at_ raw) = Ok (kf i)) →
  (∀ i, i < (gr_size g).2 → get_class show g i = Ok (c i)) →
  ∃ m, distribution_after_split show g at_ = Ok m ∧
    (∀ k cl, default 0 ((default ∅ (m !! k)) !! cl) =
       count_rows (gr_size g).2 (λ i, bool_decide (kf i = k ∧ c i = cl))) ∧
    (∀ k, is_Some (m !! k) ↔ ∃ i, i < (gr_size g).2 ∧ kf i = k) ∧
    ∀ cl, map_sum (λ inner, default 0 (inner !! cl)) m =
      count_rows (gr_size g).2 (λ i, bool_decide (c i = cl)).
Proof. exact after_split_spec. Qed.
Print Assumptions C19_after_split.

Theorem C19_after_threshold : ∀ show g name prec s val (x : nat → binary64) c,
  gr_get_attribute g (FloatA name prec) = Ok s →
  (∀ i, i < (gr_size g).2 → (raw ← gr_get g s i; unpack_float raw) = Ok (x i)) →
  (∀ i, i < (gr_size g).2 → get_class show g i = Ok (c i)) →
  let kf i := if decide (Bcompare 53 1024 (x i) val = Some Gt) then "1" else "0" in
  ∃ m, distribution_after_threshold show g (FloatA name prec) val = Ok m ∧
    (∀ k cl, default 0 ((default ∅ (m !! k)) !! cl) =
       count_rows (gr_size g).2 (λ i, bool_decide (kf i = k ∧ c i = cl))) ∧
    (∀ k, is_Some (m !! k) ↔ ∃ i, i < (gr_size g).2 ∧ kf i = k) ∧
    ∀ cl, map_sum (λ inner, default 0 (inner !! cl)) m =
      count_rows (gr_size g).2 (λ i, bool_decide (c i = cl)).
Proof. exact after_threshold_float_spec. Qed.
Print Assumptions C19_after_threshold.

Example C19_ex :
  class_distribution ex_show gr_ex = Ok {[ "u" := 2; "v" := 1 ]} ∧
  distribution_after_threshold ex_show gr_ex gx two =
    Ok {[ "0" := {[ "u" := 1; "v" := 1 ]}; "1" := {[ "u" := 1 ]} ]} ∧
  distribution_after_split ex_show gr_ex gc =
    Ok {[ "u" := {[ "u" := 2 ]}; "v" := {[ "v" := 1 ]} ]}.
Proof. split_and!; (eapply bool_decide_eq_true_1; vm_compute; reflexivity). Qed.

(** ** C20 *)

(** The callbacks return [false], so counting stops after one row. *)
Theorem C20_categorical_counts_refuted : ∃ g l,
  iter_in_order g ∧ distribution_by_categorical g = Ok l ∧ sum_list l ≠ (gr_size g).2.
Proof.
  exists gr_ex, [1; 0]. split; [apply dense_grid_in_order|]. vm_compute. done.
Qed.
Print Assumptions C20_categorical_counts_refuted.

Theorem C20_categorical_at_most_one : ∀ g l,
  distribution_by_categorical g = Ok l → sum_list l ≤ 1.
Proof. exact by_categorical_first_row. Qed.
Print Assumptions C20_categorical_at_most_one.

Definition gr_float_history : list dop :=
  [DAdd gx; DClass gx true; DExtend 2; DSet sx 0 f1; DSet sx 1 f1].
Definition gr_float_dense : dense :=
  match dense_run 64 dense_new gr_float_history with Ok d => d | _ => dense_new end.

Theorem C20_binary_counts_refuted : ∃ half g l,
  iter_in_order g ∧ distribution_by_binary_float half g = Ok l ∧
  sum_list l ≠ (gr_size g).2.
Proof.
  exists (b64_of_bits 4602678819172646912), (dense_grid [((0, 0), true)] gr_float_dense), [0; 1].
  split; [apply dense_grid_in_order|]. vm_compute. done.
Qed.
Print Assumptions C20_binary_counts_refuted.

Theorem C20_binary_at_most_one : ∀ half g l,
  distribution_by_binary_float half g = Ok l → sum_list l ≤ 1.
Proof. exact by_binary_first_row. Qed.
Print Assumptions C20_binary_at_most_one.

(** ** C24 *)

(** InstancesAreEqual compares its first argument with itself. *)
Theorem C24_instances_equal_refuted : ∃ g1 g2 s,
  instances_are_equal g1 g2 = Ok true ∧ gr_size g1 ≠ gr_size g2 ∧
  gr_get g1 s 0 ≠ gr_get g2 s 0.
Proof.
  exists gr_ex, (dense_grid [] dense_new), sx.
  split; [vm_compute; reflexivity|]. split; vm_compute; discriminate.
Qed.
Print Assumptions C24_instances_equal_refuted.

(** In fact it accepts every pair whose first component is readable; so equal
    tables are accepted, and the missing half is that no others are. *)
Theorem C24_always_true_partial : ∀ inst other,
  (∀ a, a ∈ gr_all_attrs inst → ∃ s, gr_get_attribute inst a = Ok s) →
  (∀ a s i, gr_get_attribute inst a = Ok s → i < (gr_size inst).2 →
     ∃ v, gr_get inst s i = Ok v) →
  instances_are_equal inst other = Ok true.
Proof. exact instances_equal_always. Qed.
Print Assumptions C24_always_true_partial.

Example C24_grid_ex : instances_are_equal gr_ex gr_ex = Ok true.
Proof. vm_compute. reflexivity. Qed.
