(** Copies of instances, and instances over a matrix: C131 - C135. *)
From Verif Require Import Prelude BytesModel FloatModel AttrModel AttrSpec AttrProofs StoreModel DenseModel DenseSpec
  DenseProofs GridModel GridSpec GridProofs CartModel DenseCheck CsvProofs CopyModel CopySpec CopyProofs.
From stdpp Require Import pretty.
From Flocq Require Import IEEE754.Bits IEEE754.Binary.
Local Open Scope nat_scope.

(** Example: a float, a category and a bit, two rows, the category is the class. *)
Definition cp_x := FloatA "x" 2.
Definition cp_k := CatA "k" ["r"; "g"; "b"].
Definition cp_b := BinA "b".
Definition cp_y := FloatA "y" 2.
Definition cp_specs : list spec := [Spec 0 0 cp_x; Spec 1 0 cp_k; Spec 2 0 cp_b].
Definition cp_hist : list dop :=
  [DAdd cp_x; DAdd cp_k; DAdd cp_b; DClass cp_k true; DExtend 2;
   DSet (Spec 0 0 cp_x) 0 [1;2;3;4;5;6;7;8]%N; DSet (Spec 1 0 cp_k) 0 (pack_u64 2); DSet (Spec 2 0 cp_b) 0 [1]%N;
   DSet (Spec 1 0 cp_k) 1 (pack_u64 1)].
Definition ok_or (r : res dense) : dense := match r with Ok d => d | _ => dense_new end.
Definition ok_is (r : res dense) : bool := match r with Ok _ => true | _ => false end.
Lemma ok_is_ok r : ok_is r = true → r = Ok (ok_or r).
Proof. by destruct r. Qed.
Definition cp_d : dense := ok_or (dense_run 64 dense_new cp_hist).
Definition cp_grid : grid := dense_grid (map_to_list (d_class cp_d)) cp_d.

(** ** C131 *)

(** NewDenseCopy of instances whose attributes can be told apart gives the same table:
    the attributes, the class attributes, the number of rows, and the value of each attribute
    in each row.  Partial: the order of the attributes is not kept (below). *)
Theorem C131_copy_partial : ∀ pg g, regular g → iter_agrees g →
  ∃ d, dense_copy pg g = Ok d ∧ (∃ h, reachable pg h d) ∧ same_structure g d ∧ same_cells g d.
Proof. exact dense_copy_ok. Qed.
Print Assumptions C131_copy_partial.

(** So it is for DenseInstances that were built through the API, other than with
    CreateAttributeGroup and AddAttributeToAttributeGroup. *)
Theorem C131_dense_partial : ∀ pg h d order,
  reachable pg h d → (∀ a ag, DAddTo a ag ∉ h) → (∀ n z, DCreateGroup n z ∉ h) →
  distinct_attrs (dense_all_attrs d) →
  ∃ d', dense_copy pg (dense_grid order d) = Ok d' ∧ (∃ h', reachable pg h' d') ∧
    same_structure (dense_grid order d) d' ∧ same_cells (dense_grid order d) d'.
Proof.
  intros pg h d order Hr H1 H2 Hd. apply dense_copy_ok; [by eapply dense_regular|].
  apply in_order_agrees, dense_grid_in_order.
Qed.
Print Assumptions C131_dense_partial.

Lemma cp_run : dense_run 64 dense_new cp_hist = Ok cp_d.
Proof. apply ok_is_ok. vm_compute. reflexivity. Qed.

Ltac names_apart := apply distinct_names, (bool_decide_unpack _); vm_compute; exact I.

Example C131_dense_example : reachable 64 cp_hist cp_d ∧ distinct_attrs (dense_all_attrs cp_d) ∧
  dense_all_attrs cp_d = [cp_x; cp_k; cp_b] ∧ (dense_size cp_d).2 = 2.
Proof.
  split; [apply check_reachable; vm_compute; reflexivity|]. split; [names_apart|].
  split; vm_compute; reflexivity.
Qed.

(** The attributes are grouped by type, so the copy of a view may have them in another order. *)
Definition cp_wide : dense := ok_or (dense_run 64 dense_new
  [DAdd cp_x; DAdd cp_k; DAdd cp_y; DExtend 1; DSet (Spec 0 0 cp_x) 0 [1;2;3;4;5;6;7;8]%N;
   DSet (Spec 1 0 cp_k) 0 (pack_u64 2); DSet (Spec 0 1 cp_y) 0 [8;7;6;5;4;3;2;1]%N]).
Definition cp_view : view :=
  match view_from_attrs (dense_grid [] cp_wide) [cp_x; cp_k; cp_y] with Ok v => v | _ => View (dense_grid [] dense_new) None None [] false end.
Theorem C131_order_refuted : ∃ g d, regular g ∧ iter_agrees g ∧ gr_all_attrs g = [cp_x; cp_k; cp_y] ∧
  dense_copy 64 g = Ok d ∧ dense_all_attrs d = [cp_x; cp_y; cp_k].
Proof.
  exists (view_grid (λ l, l) (λ l, l) cp_view), (ok_or (dense_copy 64 (view_grid (λ l, l) (λ l, l) cp_view))).
  split_and!.
  - split.
    + names_apart.
    + intros a Ha. vm_compute in Ha. by apply elem_of_nil in Ha.
    + intros a Ha.
      assert (a ∈ [cp_x; cp_k; cp_y]) as Hb by exact Ha. clear Ha.
      apply elem_of_cons in Hb as [->|[->|[->|[]%elem_of_nil]%elem_of_cons]%elem_of_cons];
        eexists; (split; [vm_compute; reflexivity|]); intros [|i] Hi; try (vm_compute in Hi; lia);
        eexists; (split; [vm_compute; reflexivity|reflexivity]).
  - eapply (view_attrs_iter (dense_grid [] cp_wide) [cp_x; cp_k; cp_y]).
    + reflexivity.
    + apply in_order_agrees, dense_grid_in_order.
  - vm_compute. reflexivity.
  - apply ok_is_ok. vm_compute. reflexivity.
  - vm_compute. reflexivity.
Qed.
Print Assumptions C131_order_refuted.

(** Of two columns whose attributes are Equal, the copy has the first twice. *)
Theorem C131_duplicates_refuted : ∃ h d d' s, reachable 64 h d ∧
  dense_copy 64 (dense_grid [] d) = Ok d' ∧ attr_at d (sp_pond s, sp_pos s) = Some (sp_attr s) ∧
  dense_get d s 0 = Ok (pack_u64 7) ∧ dense_get d' s 0 = Ok (pack_u64 5).
Proof.
  set (h := [DAdd cp_x; DAdd cp_x; DExtend 1; DSet (Spec 0 0 cp_x) 0 (pack_u64 5); DSet (Spec 0 1 cp_x) 0 (pack_u64 7)]).
  exists h, (ok_or (dense_run 64 dense_new h)), (ok_or (dense_copy 64 (dense_grid [] (ok_or (dense_run 64 dense_new h))))),
    (Spec 0 1 cp_x).
  split; [apply check_reachable; vm_compute; reflexivity|]. split; [apply ok_is_ok; vm_compute; reflexivity|].
  split_and!; vm_compute; reflexivity.
Qed.
Print Assumptions C131_duplicates_refuted.

(** A column in an AttributeGroup whose cells have another size than that of the group
    AddAttribute would choose makes NewDenseCopy panic. *)
Theorem C131_groups_refuted : ∃ h d, reachable 64 h d ∧ distinct_attrs (dense_all_attrs d) ∧
  dense_all_attrs d = [cp_x] ∧ dense_copy 64 (dense_grid [] d) = Panic.
Proof.
  set (h := [DCreateGroup "wide" 16; DAddTo cp_x "wide"; DExtend 1]).
  exists h, (ok_or (dense_run 64 dense_new h)).
  split; [apply check_reachable; vm_compute; reflexivity|]. split; [names_apart|].
  split; vm_compute; reflexivity.
Qed.
Print Assumptions C131_groups_refuted.

(** ** C132 *)

(** NewStructuralCopy has the attributes and class attributes, and no rows. *)
Theorem C132_structural_copy : ∀ pg g,
  distinct_attrs (gr_all_attrs g) → (∀ a, a ∈ gr_class_attrs g → a ∈ gr_all_attrs g) →
  (∀ a, a ∈ gr_all_attrs g → ∃ s, gr_get_attribute g a = Ok s) →
  ∃ d, structural_copy pg g = Ok d ∧ (∃ h, reachable pg h d) ∧ same_structure g d ∧ (dense_size d).2 = 0.
Proof. exact structural_copy_ok. Qed.
Print Assumptions C132_structural_copy.

Definition cp_short : dense := ok_or (structural_copy 64 cp_grid).
Example C132_example : dense_all_attrs cp_short = [cp_x; cp_k; cp_b] ∧ (dense_size cp_short).2 = 0 ∧
  class_attrs_in_order cp_short (map_to_list (d_class cp_short)) = [cp_k].
Proof. split_and!; vm_compute; reflexivity. Qed.

(** ** C133 *)

(** The first [cols] columns and [rows] rows of a matrix read as instances: an attribute for
    each column, named by its number, with the numbers of the column in order; the class attributes
    are those that were added last rather than removed. *)
Theorem C133_matrix : ∀ rows cols r c data ops m order,
  res_foldl (λ m (o : attr * bool), mat_set_class m o.1 o.2) (mat_instances rows cols (r, c) data) ops = Ok m →
  order ≡ₚ map_to_list (mi_class m) → rows ≤ r → cols ≤ c →
  gr_size (mat_grid order m) = (cols, rows) ∧
  (∀ j a, gr_all_attrs (mat_grid order m) !! j = Some a ↔ j < cols ∧ a = FloatA (pretty j) 2) ∧
  (∀ j a, gr_all_attrs (mat_grid order m) !! j = Some a → ∃ s, gr_get_attribute (mat_grid order m) a = Ok s ∧
     sp_attr s = a ∧ ∀ i, i < rows → gr_get (mat_grid order m) s i = Ok (pack_float (data i j))) ∧
  iter_in_order (mat_grid order m) ∧
  (∀ a, a ∈ gr_class_attrs (mat_grid order m) ↔ a ∈ gr_all_attrs (mat_grid order m) ∧ chosen ops a).
Proof.
  intros rows cols r c data ops m order H Ho Hr Hc.
  destruct (mat_grid_ok _ _ _ _ _ _ _ _ H Ho Hr Hc) as (G1 & G2 & G3 & G4 & G5).
  split_and!; try done.
  intros j a Hj. exists (Spec 0 j a). split; [by apply G3|]. split; [done|]. intros i Hi. apply G4; [done|].
  by apply G2 in Hj as [? _].
Qed.
Print Assumptions C133_matrix.

(** Marking a column that is not there is an error, and any column that is there can be marked. *)
Theorem C133_class_errors : ∀ rows cols dim data ops m a on,
  res_foldl (λ m (o : attr * bool), mat_set_class m o.1 o.2) (mat_instances rows cols dim data) ops = Ok m →
  (∃ m', mat_set_class m a on = Ok m') ↔ ∃ j b, mi_attrs m !! j = Some b ∧ attr_equals b a = true.
Proof.
  intros rows cols dim data ops m a on H. unfold mat_set_class, mat_get_attribute. split.
  - intros [m' Hm]. apply bind_Ok in Hm as (s & Hs & _).
    destruct (mat_find_ok _ _ _ _ Hs) as (_ & j & _ & Ha & He). eauto.
  - intros (j & b & Hj & He).
    destruct (mat_find 0 (mi_attrs m) a) as [s| |] eqn:E; [eexists; done| |]; exfalso; clear H; revert E;
      generalize 0; revert j Hj; induction (mi_attrs m) as [|b' l IH]; intros [|j] Hj k E; try discriminate Hj;
      cbn [mat_find] in E.
    1,3: injection Hj as ->; rewrite He in E; discriminate E.
    all: destruct (attr_equals b' a); [discriminate E|by eapply IH].
Qed.
Print Assumptions C133_class_errors.

Definition cp_data (i j : nat) : binary64 := float_of_Z (Z.of_nat (10 * i + j)).
Definition cp_mat : mat_inst :=
  match mat_set_class (mat_instances 2 3 (4, 3) cp_data) (FloatA "2" 0) true with Ok m => m | _ => mat_instances 0 0 (0, 0) cp_data end.
Example C133_example :
  res_foldl (λ m (o : attr * bool), mat_set_class m o.1 o.2) (mat_instances 2 3 (4, 3) cp_data) [(FloatA "2" 0, true)] = Ok cp_mat ∧
  gr_all_attrs (mat_grid [(2, true)] cp_mat) = [FloatA "0" 2; FloatA "1" 2; FloatA "2" 2] ∧
  gr_class_attrs (mat_grid [(2, true)] cp_mat) = [FloatA "2" 2].
Proof. split_and!; reflexivity. Qed.

(** ** C134 *)

(** NewDenseCopy of instances over a matrix holds the numbers of the matrix. *)
Theorem C134_matrix_copy : ∀ pg rows cols r c data ops m order,
  res_foldl (λ m (o : attr * bool), mat_set_class m o.1 o.2) (mat_instances rows cols (r, c) data) ops = Ok m →
  order ≡ₚ map_to_list (mi_class m) → rows ≤ r → cols ≤ c →
  ∃ d, dense_copy pg (mat_grid order m) = Ok d ∧ (dense_size d).2 = rows ∧
    ∀ j, j < cols → ∃ s, dense_get_attribute d (FloatA (pretty j) 2) = Ok s ∧
      (∀ i, i < rows → dense_get d s i = Ok (pack_float (data i j))) ∧
      (d_class d !! (sp_pond s, sp_pos s) = Some true ↔ chosen ops (FloatA (pretty j) 2)).
Proof.
  intros pg rows cols r c data ops m order H Ho Hr Hc.
  destruct (mat_grid_ok _ _ _ _ _ _ _ _ H Ho Hr Hc) as (G1 & G2 & G3 & G4 & G5).
  destruct (dense_copy_ok pg (mat_grid order m)) as (d & Hd & _ & Hst & Hn & Hcells).
  { by eapply mat_regular. }
  { apply in_order_agrees, mat_grid_in_order. }
  exists d. split; [done|]. rewrite G1 in Hn, Hcells. split; [done|]. intros j Hj.
  assert (gr_all_attrs (mat_grid order m) !! j = Some (FloatA (pretty j) 2)) as Hl by (by apply G2).
  assert (FloatA (pretty j) 2 ∈ gr_all_attrs (mat_grid order m)) as Hin by (by eapply elem_of_list_lookup_2).
  destruct Hst as [_ Hst]. destruct (Hst _ Hin) as (s & Hs & _ & Hcl). exists s. split; [done|]. split.
  - intros i Hi. rewrite (Hcells _ _ s i Hin (G3 _ _ Hl) Hs Hi). by apply G4.
  - rewrite Hcl, G5. tauto.
Qed.
Print Assumptions C134_matrix_copy.

(** ** C135 *)

(** InstancesFromMat64 does not compare the numbers of rows and columns with the matrix: it accepts
    more rows, or more columns, than there are, and reading them panics. *)
Theorem C135_rows_refuted : ∀ data, ∃ rows s, let g := mat_grid [] (mat_instances rows 1 (2, 1) data) in
  gr_get_attribute g (FloatA "0" 2) = Ok s ∧ (gr_size g).2 = rows ∧ 2 < rows ∧ gr_get g s 2 = Panic ∧
  ∀ f, map_over_rows g [s] (λ n vals _, Ok (f n vals, Cont)) 0 = Panic.
Proof. intros data. exists 3, (Spec 0 0 (FloatA "0" 2)). cbv zeta. split_and!; try reflexivity. lia. Qed.
Print Assumptions C135_rows_refuted.
Theorem C135_columns_refuted : ∀ data, ∃ cols s, let g := mat_grid [] (mat_instances 1 cols (1, 1) data) in
  gr_get_attribute g (FloatA "1" 2) = Ok s ∧ (gr_size g).1 = cols ∧ 1 < cols ∧ gr_get g s 0 = Panic.
Proof. intros data. exists 2, (Spec 0 1 (FloatA "1" 2)). cbv zeta. split_and!; try reflexivity. lia. Qed.
Print Assumptions C135_columns_refuted.
