(** Properties C21-C23: sorting. *)
From Verif Require Import Prelude BytesModel FloatModel AttrModel AttrSpec StoreModel
  DenseModel DenseSpec DenseProofs DenseCheck ShuffleModel SwapProofs
  GridModel GridSpec GridProofs SortModel SortSpec SortProofs.
From Flocq Require Import IEEE754.Bits IEEE754.Binary.
Local Open Scope nat_scope.

(** The table of the examples: columns x and y, rows (2,1) (1,3) (2,0) (1,1). *)
Definition so_x : attr := FloatA "x" 2.
Definition so_y : attr := FloatA "y" 2.
Definition so_sx : spec := Spec 0 0 so_x.
Definition so_sy : spec := Spec 0 1 so_y.
Definition so_0 : list N := [0;0;0;0;0;0;0;0]%N.
Definition so_1 : list N := [0;0;0;0;0;0;240;63]%N.
Definition so_2 : list N := [0;0;0;0;0;0;0;64]%N.
Definition so_3 : list N := [0;0;0;0;0;0;8;64]%N.
Definition so_minus1 : list N := [0;0;0;0;0;0;240;191]%N.
Definition so_history : list dop :=
  [DAdd so_x; DAdd so_y; DExtend 4;
   DSet so_sx 0 so_2; DSet so_sx 1 so_1; DSet so_sx 2 so_2; DSet so_sx 3 so_1;
   DSet so_sy 0 so_1; DSet so_sy 1 so_3; DSet so_sy 3 so_1].
Definition so_dense : dense :=
  match dense_run 64 dense_new so_history with Ok d => d | _ => dense_new end.

(** ** C21 *)

(** Sorting, in either direction, on any list of the table's columns, always
    succeeds and leaves the same columns with the rows rearranged by a
    bijection.  The byte condition only says that a stored byte is below 256. *)
Theorem C21_sort_permutes : ∀ pg h d order dir attrs,
  reachable pg h d → distinct_attrs (dense_all_attrs d) →
  (∀ s, s ∈ attrs → ∃ g, column_of d s g ∧
     ∀ i v, i < d_maxrow d → dense_get d s i = Ok v → Forall (λ b, (b < 256)%N) v) →
  ∃ d' p, dense_sort order dir attrs d = Ok d' ∧
    row_bijection (d_maxrow d) p ∧ rows_rearranged p d d'.
Proof. exact sort_permutes. Qed.
Print Assumptions C21_sort_permutes.

Definition so_read (r : res dense) : list (list (res (list N))) :=
  match r with
  | Ok d => map (λ i, [dense_get d so_sx i; dense_get d so_sy i]) (seq 0 (d_maxrow d))
  | _ => []
  end.

Example C21_ex :
  reachable 64 so_history so_dense ∧
  distinct_attrs (dense_all_attrs so_dense) ∧
  so_read (dense_sort [] Ascending [so_sx; so_sy] so_dense) =
    [[Ok so_1; Ok so_1]; [Ok so_1; Ok so_3]; [Ok so_2; Ok so_0]; [Ok so_2; Ok so_1]] ∧
  so_read (dense_sort [] Descending [so_sx; so_sy] so_dense) =
    [[Ok so_2; Ok so_1]; [Ok so_2; Ok so_0]; [Ok so_1; Ok so_3]; [Ok so_1; Ok so_1]].
Proof.
  split; [apply check_reachable; vm_compute; reflexivity|]. split.
  - intros i j a b Ha Hb. vm_compute in Ha, Hb.
    destruct i as [|[|i]], j as [|[|j]]; try discriminate;
      injection Ha as <-; injection Hb as <-; try done.
  - vm_compute. done.
Qed.

(** ** C22 *)

(** -1 is placed after 1 by an ascending sort. *)
Definition so_neg_history : list dop :=
  [DAdd so_x; DExtend 2; DSet so_sx 0 so_minus1; DSet so_sx 1 so_1].
Theorem C22_sorted_negative_refuted : ∃ pg h d d' x y,
  reachable pg h d ∧
  dense_sort [] Ascending [so_sx] d = Ok d' ∧ d_maxrow d' = 2 ∧
  dense_get d' so_sx 0 = Ok (pack_float x) ∧ dense_get d' so_sx 1 = Ok (pack_float y) ∧
  Bcompare 53 1024 x y = Some Gt.
Proof.
  destruct (dense_run 64 dense_new so_neg_history) as [d| |] eqn:E; [|by vm_compute in E..].
  destruct (dense_sort [] Ascending [so_sx] d) as [d'| |] eqn:E';
    vm_compute in E; injection E as <-; [|by vm_compute in E'..].
  eexists 64, so_neg_history, _, d', (b64_of_bits 0x3FF0000000000000), (b64_of_bits 0xBFF0000000000000).
  split; [apply check_reachable; vm_compute; reflexivity|].
  vm_compute in E'. split; [exact E'|]. injection E' as <-. vm_compute. done.
Qed.
Print Assumptions C22_sorted_negative_refuted.

(** Even two positive numbers are misplaced when bit 7 of their bit patterns
    differs: 1 + 2^-45 comes before 1. *)
Definition so_bit_history : list dop :=
  [DAdd so_x; DExtend 2; DSet so_sx 0 so_1; DSet so_sx 1 (0x80 :: tail so_1)%N].
Theorem C22_sorted_positive_refuted : ∃ pg h d d' x y,
  reachable pg h d ∧
  dense_sort [] Ascending [so_sx] d = Ok d' ∧ d_maxrow d' = 2 ∧
  dense_get d' so_sx 0 = Ok (pack_float x) ∧ dense_get d' so_sx 1 = Ok (pack_float y) ∧
  Bsign 53 1024 x = false ∧ Bsign 53 1024 y = false ∧
  Bcompare 53 1024 x y = Some Gt.
Proof.
  destruct (dense_run 64 dense_new so_bit_history) as [d| |] eqn:E; [|by vm_compute in E..].
  destruct (dense_sort [] Ascending [so_sx] d) as [d'| |] eqn:E';
    vm_compute in E; injection E as <-; [|by vm_compute in E'..].
  eexists 64, so_bit_history, _, d', (b64_of_bits 0x3FF0000000000080), (b64_of_bits 0x3FF0000000000000).
  split; [apply check_reachable; vm_compute; reflexivity|].
  vm_compute in E'. split; [exact E'|]. injection E' as <-. vm_compute. done.
Qed.
Print Assumptions C22_sorted_positive_refuted.

(** For numbers without sign bit and NaN, bit 7 of the last attribute being
    clear, the rows do come out in numeric lexicographic order.  Missing, since
    false: other floats. *)
Theorem C22_sorted_partial : ∀ pg h d order dir attrs,
  reachable pg h d → distinct_attrs (dense_all_attrs d) →
  (∀ s, s ∈ attrs → ∃ g, column_of d s g) →
  (∀ i, i < d_maxrow d → ∃ xs, sortable_floats xs ∧
     Forall2 (λ s x, dense_get d s i = Ok (pack_float x)) attrs xs) →
  ∃ d', dense_sort order dir attrs d = Ok d' ∧ d_maxrow d' = d_maxrow d ∧
    ∀ i j xs ys, i < j < d_maxrow d →
      Forall2 (λ s x, dense_get d' s i = Ok (pack_float x)) attrs xs →
      Forall2 (λ s y, dense_get d' s j = Ok (pack_float y)) attrs ys →
      match dir with
      | Ascending => float_lex_le xs ys
      | Descending => float_lex_le ys xs
      end.
Proof. exact sort_floats. Qed.
Print Assumptions C22_sorted_partial.

(** What the code does for all values: rows ordered by their bit patterns read
    as numbers, bit 7 of the last attribute flipped; rows that tie keep their
    order, or have it reversed when descending. *)
Theorem C22_bit_patterns_partial : ∀ pg h d order dir attrs,
  reachable pg h d → distinct_attrs (dense_all_attrs d) →
  (∀ s, s ∈ attrs → ∃ g, column_of d s g ∧
     ∀ i v, i < d_maxrow d → dense_get d s i = Ok v → Forall (λ b, (b < 256)%N) v) →
  ∃ d' p, dense_sort order dir attrs d = Ok d' ∧ row_bijection (d_maxrow d) p ∧
    rows_rearranged p d d' ∧
    ∀ i j, i < j < d_maxrow d →
      match dir with
      | Ascending => row_before (dense_grid order d) attrs (p i) (p j)
      | Descending => row_before (dense_grid order d) attrs (p j) (p i)
      end.
Proof. exact sort_bit_patterns. Qed.
Print Assumptions C22_bit_patterns_partial.

(** The example table meets the hypotheses of the numeric theorem. *)
Example C22_ex : ∀ i, i < d_maxrow so_dense → ∃ xs, sortable_floats xs ∧
  Forall2 (λ s x, dense_get so_dense s i = Ok (pack_float x)) [so_sx; so_sy] xs.
Proof.
  intros i Hi. change (d_maxrow so_dense) with 4 in Hi.
  assert (∃ a b : Z, dense_get so_dense so_sx i = Ok (pack_float (b64_of_bits a)) ∧
    dense_get so_dense so_sy i = Ok (pack_float (b64_of_bits b)) ∧
    a ∈ [0x4000000000000000; 0x3FF0000000000000]%Z ∧
    b ∈ [0; 0x4008000000000000; 0x3FF0000000000000]%Z) as (a & b & Ha & Hb & Ka & Kb).
  { destruct i as [|[|[|[|i]]]]; [| | | |lia].
    - exists 0x4000000000000000%Z, 0x3FF0000000000000%Z. repeat split; try (vm_compute; reflexivity); set_solver.
    - exists 0x3FF0000000000000%Z, 0x4008000000000000%Z. repeat split; try (vm_compute; reflexivity); set_solver.
    - exists 0x4000000000000000%Z, 0%Z. repeat split; try (vm_compute; reflexivity); set_solver.
    - exists 0x3FF0000000000000%Z, 0x3FF0000000000000%Z. repeat split; try (vm_compute; reflexivity); set_solver. }
  exists [b64_of_bits a; b64_of_bits b]. split.
  - clear Ha Hb. split.
    + assert (∀ c, c ∈ [0; 0x4000000000000000; 0x4008000000000000; 0x3FF0000000000000]%Z →
        plain_float (b64_of_bits c)) as Hc.
      { intros c Hc. rewrite !elem_of_cons in Hc.
        destruct Hc as [Hc|[Hc|[Hc|[Hc|Hc]]]]; [rewrite Hc; split; vm_compute; reflexivity..|exfalso; exact (not_elem_of_nil _ Hc)]. }
      apply Forall_cons. split; [apply Hc; set_solver|].
      apply Forall_cons. split; [apply Hc; set_solver|apply Forall_nil, I].
    + intros x [= <-]. rewrite !elem_of_cons in Kb.
      destruct Kb as [Kb|[Kb|[Kb|Kb]]]; [rewrite Kb; vm_compute; reflexivity..|exfalso; exact (not_elem_of_nil _ Kb)].
  - constructor; [exact Ha|]. constructor; [exact Hb|]. constructor.
Qed.

(** ** C23 *)

(** The lazily sorted view reads, cell by cell, like the table sorted in
    place. *)
Theorem C23_lazy_sort_agrees : ∀ pg h d order dir attrs,
  reachable pg h d → distinct_attrs (dense_all_attrs d) →
  (∀ s, s ∈ attrs → ∃ g, column_of d s g ∧
     ∀ i v, i < d_maxrow d → dense_get d s i = Ok v → Forall (λ b, (b < 256)%N) v) →
  ∃ d' v, dense_sort order dir attrs d = Ok d' ∧
    lazy_sort dir attrs (dense_grid order d) = Ok v ∧
    (view_size v).2 = d_maxrow d' ∧
    ∀ s g i, column_of d s g → i < d_maxrow d' → view_get v s i = dense_get d' s i.
Proof. exact lazy_sort_agrees. Qed.
Print Assumptions C23_lazy_sort_agrees.

Example C23_ex : ∃ v,
  lazy_sort Descending [so_sx; so_sy] (dense_grid [] so_dense) = Ok v ∧
  map (λ i, (view_get v so_sx i, view_get v so_sy i)) (seq 0 4) =
    [(Ok so_2, Ok so_1); (Ok so_2, Ok so_0); (Ok so_1, Ok so_3); (Ok so_1, Ok so_1)].
Proof.
  destruct (lazy_sort Descending [so_sx; so_sy] (dense_grid [] so_dense)) as [v| |] eqn:E;
    [|by vm_compute in E..].
  exists v. split; [done|]. vm_compute in E. injection E as <-. vm_compute. reflexivity.
Qed.
