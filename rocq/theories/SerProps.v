(** Properties C37, C38, C39 and C82: serialisation. *)
From Coq Require Import Ascii.
From Verif Require Import Prelude BytesModel AttrModel AttrSpec AttrProofs StoreModel DenseModel
  DenseSpec GridModel GridSpec GridProofs TableProofs SerModel SerSpec SerProofs SerCodec.
Local Open Scope nat_scope.

(** ** Tables for the examples: a float, a binary and the class *)

Definition sx : attr := FloatA "x" 2.
Definition sb : attr := BinA "b".
Definition sc : attr := CatA "c" ["u"; "v"; "caf" +:+ String "195"%char (String "169"%char EmptyString)].
Definition word (n : N) : list N := [n;0;0;0;0;0;0;0]%N.
Definition ser_ops : list dop :=
  [DAdd sc; DAdd sx; DAdd sb; DClass sc true; DExtend 2;
   DSet (Spec 0 0 sc) 0 (word 1); DSet (Spec 1 0 sx) 0 (word 7); DSet (Spec 2 0 sb) 0 [1%N];
   DSet (Spec 0 0 sc) 1 (word 2); DSet (Spec 1 0 sx) 1 (word 9)].
Definition ser_dense : dense :=
  match dense_run 64 dense_new ser_ops with Ok d => d | _ => dense_new end.
Definition ser_grid : grid := dense_grid [((0, 0), true)] ser_dense.
Definition ser_cell (a : attr) (i : nat) : list N :=
  match a, i with
  | CatA _ _, 0 => word 1 | CatA _ _, _ => word 2
  | FloatA _ _, 0 => word 7 | FloatA _ _, _ => word 9
  | BinA _, 0 => [1%N] | BinA _, _ => [0%N]
  end.
Definition never_nil (a : attr) : bool := false.
Definition fill_buffer (pos len : nat) : nat := len.

Lemma rev_order {A} : any_order (@rev A).
Proof. intros l. symmetry. apply Permutation_rev. Qed.

Lemma below_two (P : nat → Prop) : P 0 → P 1 → ∀ i, i < 2 → P i.
Proof. intros H0 H1 [|[|i]] Hi; [done|done|lia]. Qed.

Example ser_table : table never_nil ser_grid ser_cell.
Proof.
  assert (gr_all_attrs ser_grid = [sc; sx; sb]) as Hall by (vm_compute; reflexivity).
  assert (gr_class_attrs ser_grid = [sc]) as Hcls by (vm_compute; reflexivity).
  split.
  - apply dense_grid_in_order.
  - rewrite Hall. apply distinctb_spec. reflexivity.
  - rewrite Hall, Hcls. intros a Ha. apply elem_of_list_singleton in Ha as ->. left.
  - rewrite Hcls. apply NoDup_singleton.
  - vm_compute. reflexivity.
  - vm_compute. reflexivity.
  - vm_compute. reflexivity.
  - rewrite Hall. clear. intros a Ha. apply elem_of_cons in Ha as [->|Ha].
    { split; [|exact I]. split; [reflexivity|]. repeat (constructor; [reflexivity|]). constructor. }
    apply elem_of_cons in Ha as [->|Ha].
    { split; [|exact I]. split; [reflexivity|]. vm_compute. discriminate. }
    apply elem_of_cons in Ha as [->|Ha]; [|by apply elem_of_nil in Ha].
    split; [|exact I]. reflexivity.
  - rewrite Hall. intros a Ha.
    repeat (apply elem_of_cons in Ha as [->|Ha];
      [eexists; split; [vm_compute; reflexivity|]; apply below_two; (split; [vm_compute; reflexivity|]);
       vm_compute; auto|]).
    clear -Ha. by apply elem_of_nil in Ha.
Qed.

(** ** C37 *)

(** For any [FixedDataGrid] that iterates in row order and readers that fill the
    buffer.  Not covered: see the two refutations below. *)
Theorem C37_round_trip_partial : ∀ marshal unmarshal is_nil attr_order got pg g cell,
  json_faithful marshal unmarshal → any_order attr_order → full_reads got → table is_nil g cell →
  ∃ ar d, serialize_instances marshal is_nil attr_order g = Ok ar ∧
    deserialize_instances unmarshal got pg ar = Ok d ∧ same_table g cell d.
Proof. exact instances_round_trip. Qed.
Print Assumptions C37_round_trip_partial.

Example C37_ex : json_faithful toy_marshal toy_unmarshal ∧ any_order (@rev attr) ∧
  full_reads fill_buffer ∧ table never_nil ser_grid ser_cell ∧
  (ar ← serialize_instances toy_marshal never_nil (@rev attr) ser_grid;
   d ← deserialize_instances toy_unmarshal fill_buffer 64 ar;
   s ← dense_get_attribute d sc;
   v ← dense_get d s 1;
   Ok (dense_all_attrs d, (dense_size d).2, v)) = Ok ([sb; sx; sc], 2, word 2).
Proof.
  split; [exact toy_faithful|]. split; [apply rev_order|]. split; [done|].
  split; [exact ser_table|]. vm_compute. reflexivity.
Qed.

(** DenseInstances built through the interface, with the default storage, satisfy the
    hypotheses above. *)
Theorem C37_dense_partial : ∀ marshal unmarshal is_nil attr_order got pg pg' h d order,
  json_faithful marshal unmarshal → any_order attr_order → full_reads got →
  reachable pg h d → (∀ a ag, DAddTo a ag ∉ h) → (∀ n z, DCreateGroup n z ∉ h) →
  distinct_attrs (dense_all_attrs d) → class_order d order →
  (N.of_nat (dense_size d).1 < 2^63)%N → (N.of_nat (dense_size d).2 < 2^63)%N →
  (∀ a, a ∈ dense_all_attrs d → attr_sendable a ∧ has_slice (a, is_nil a)) →
  ∃ ar d' cell, serialize_instances marshal is_nil attr_order (dense_grid order d) = Ok ar ∧
    deserialize_instances unmarshal got pg' ar = Ok d' ∧ same_table (dense_grid order d) cell d' ∧
    ∀ a i, a ∈ dense_all_attrs d → i < (dense_size d).2 →
      ∃ s, dense_get_attribute d a = Ok s ∧ dense_get d s i = Ok (cell a i).
Proof.
  intros marshal unmarshal is_nil attr_order got pg pg' h d order Hf Ho Hfull Hr H1 H2 Hd Hord Hc Hn Ht.
  pose proof (dense_table pg h d order is_nil Hr H1 H2 Hd Hord Hc Hn Ht) as T.
  destruct (instances_round_trip marshal unmarshal is_nil attr_order got pg' _ _ Hf Ho Hfull T)
    as (ar & d' & Hs & Hde & Hst).
  exists ar, d'. eexists. split; [done|]. split; [done|]. split; [exact Hst|].
  intros a i Ha Hi. destruct (tb_cells _ _ _ T a Ha) as (s & Hg & Hcell). exists s.
  split; [exact Hg|]. exact (proj1 (Hcell i Hi)).
Qed.
Print Assumptions C37_dense_partial.

Example C37_dense_ex : dense_run 64 dense_new ser_ops = Ok ser_dense ∧
  distinct_attrs (dense_all_attrs ser_dense) ∧ (dense_size ser_dense) = (3, 2).
Proof.
  split; [vm_compute; reflexivity|]. split; [|vm_compute; reflexivity].
  exact (tb_attrs _ _ _ ser_table).
Qed.

(** The same inside a classifier archive, among other entries. *)
Theorem C37_archive_partial :
  ∀ marshal unmarshal is_nil attr_order got pg metadata pre post k g cell,
  json_faithful marshal unmarshal → any_order attr_order → full_reads got →
  writes_tables is_nil pre → writes_tables is_nil post → table is_nil g cell →
  untouched (WInstances k g) (pre ++ post) →
  ∃ ar d, written marshal is_nil attr_order metadata (pre ++ WInstances k g :: post) = Ok ar ∧
    deserialize_from_tar unmarshal got pg ar k = Ok d ∧ same_table g cell d.
Proof. exact archive_instances. Qed.
Print Assumptions C37_archive_partial.

Example C37_archive_ex :
  untouched (WInstances "INST" ser_grid) [WBytes "x" [1%N]; WU64 "MANIFEST" 3; WAttrs "INST" [(sc, false)]].
Proof.
  intros k Hk. repeat (apply elem_of_cons in Hk as [->|Hk]); [..|by apply elem_of_nil in Hk];
    (split; [intros H; repeat (apply elem_of_cons in H as [H|H]; [done|]); by apply elem_of_nil in H|]);
    intros o Ho Hin; repeat (apply elem_of_cons in Ho as [->|Ho];
      [cbn in Hin; repeat (apply elem_of_cons in Hin as [Hin|Hin]; [done|]); by apply elem_of_nil in Hin|]);
    by apply elem_of_nil in Ho.
Qed.

(** A reader that returns fewer bytes than asked for in the middle of a value, as an
    [io.Reader] may, makes reading fail. *)
Theorem C37_short_reads : ∀ marshal unmarshal is_nil attr_order got pg g cell,
  json_faithful marshal unmarshal → any_order attr_order → table is_nil g cell →
  short_rows got 0 (map (λ i, map (λ a, cell a i)
    (non_class_attributes attr_order g ++ gr_class_attrs g)) (seq 0 (gr_size g).2)) →
  ∃ ar, serialize_instances marshal is_nil attr_order g = Ok ar ∧
    deserialize_instances unmarshal got pg ar = Err.
Proof. exact instances_short. Qed.
Print Assumptions C37_short_reads.

(** A reader that delivers at most the rest of a block of [size] bytes at a time: the Go
    decompressor does so with blocks of 32768 bytes. *)
Definition in_blocks (size pos len : nat) : nat := Nat.min len (size - pos mod size).

Theorem C37_short_read_refuted :
  ∃ g cell ar, table never_nil g cell ∧
    serialize_instances toy_marshal never_nil (@rev attr) g = Ok ar ∧
    deserialize_instances toy_unmarshal (in_blocks 8) 64 ar = Err.
Proof.
  exists ser_grid, ser_cell.
  destruct (instances_short toy_marshal toy_unmarshal never_nil (@rev attr) (in_blocks 8) 64 ser_grid ser_cell
    toy_faithful rev_order ser_table) as (ar & H & Hd).
  { vm_compute. right. left. right. left. lia. }
  exists ar. exact (conj ser_table (conj H Hd)).
Qed.
Print Assumptions C37_short_read_refuted.

(** Views that select rows iterate over a Go map; the rows are written, and read back,
    in that order. *)
Definition ser_view : grid :=
  match view_from_visible ser_grid [0; 1] [sx; sb; sc] with
  | Ok v => view_grid id (@rev nat) v
  | _ => ser_grid
  end.

Theorem C37_row_order_refuted : ∃ g,
  iter_agrees g ∧
  (ar ← serialize_instances toy_marshal never_nil id g;
   d ← deserialize_instances toy_unmarshal fill_buffer 64 ar;
   s ← dense_get_attribute d sx;
   dense_get d s 0) = Ok (word 9) ∧
  (s ← gr_get_attribute g sx; gr_get g s 0) = Ok (word 7).
Proof.
  exists ser_view. split; [|split; vm_compute; reflexivity].
  assert (∃ v, view_from_visible ser_grid [0; 1] [sx; sb; sc] = Ok v ∧ ser_view = view_grid id (@rev nat) v)
    as (v & Hv & ->).
  { unfold ser_view. destruct (view_from_visible ser_grid [0; 1] [sx; sb; sc]) eqn:E; [eauto| |];
      vm_compute in E; discriminate. }
  exact (view_visible_iter _ _ _ _ _ _ Hv rev_order).
Qed.
Print Assumptions C37_row_order_refuted.

(** ** C38 *)

(** Provided no other write uses the name: see the refutation below. *)
Theorem C38_bytes_partial : ∀ marshal is_nil attr_order metadata pre post k b,
  any_order attr_order → writes_tables is_nil pre → writes_tables is_nil post →
  untouched (WBytes k b) (pre ++ post) →
  ∃ ar, written marshal is_nil attr_order metadata (pre ++ WBytes k b :: post) = Ok ar ∧
    get_named_file ar k = Ok b.
Proof. exact archive_bytes. Qed.
Print Assumptions C38_bytes_partial.

Theorem C38_u64_partial : ∀ marshal is_nil attr_order metadata pre post k v,
  any_order attr_order → writes_tables is_nil pre → writes_tables is_nil post → (v < 2^64)%N →
  untouched (WU64 k v) (pre ++ post) →
  ∃ ar, written marshal is_nil attr_order metadata (pre ++ WU64 k v :: post) = Ok ar ∧
    get_u64 ar k = Ok v.
Proof. exact archive_u64. Qed.
Print Assumptions C38_u64_partial.

Theorem C38_attribute_partial : ∀ marshal unmarshal is_nil attr_order metadata pre post k h,
  json_faithful marshal unmarshal → any_order attr_order →
  writes_tables is_nil pre → writes_tables is_nil post →
  attr_sendable h.1 → has_slice h → untouched (WAttr k h) (pre ++ post) →
  ∃ ar h', written marshal is_nil attr_order metadata (pre ++ WAttr k h :: post) = Ok ar ∧
    get_attribute_for unmarshal ar k = Ok h' ∧ h'.1 = h.1.
Proof. exact archive_attribute. Qed.
Print Assumptions C38_attribute_partial.

Theorem C38_attributes_partial : ∀ marshal unmarshal is_nil attr_order metadata pre post k l,
  json_faithful marshal unmarshal → any_order attr_order →
  writes_tables is_nil pre → writes_tables is_nil post →
  (∀ h, h ∈ l → attr_sendable h.1 ∧ has_slice h) → (N.of_nat (length l) < 2^64)%N →
  untouched (WAttrs k l) (pre ++ post) →
  ∃ ar l', written marshal is_nil attr_order metadata (pre ++ WAttrs k l :: post) = Ok ar ∧
    get_attributes unmarshal ar k = Ok l' ∧ map fst l' = map fst l.
Proof. exact archive_attributes. Qed.
Print Assumptions C38_attributes_partial.

Definition ser_writes : list wop :=
  [WU64 "n" 1025; WAttrs "as" [(sx, false); (sc, false)]; WBytes "b" [3%N]; WAttr "a" (sb, false)].

Example C38_ex :
  (ar ← written toy_marshal never_nil id [9%N] ser_writes;
   n ← get_u64 ar "n"; l ← get_attributes toy_unmarshal ar "as"; b ← get_named_file ar "b";
   a ← get_attribute_for toy_unmarshal ar "a";
   Ok (n, map fst l, b, a.1)) = Ok (1025%N, [sx; sc], [3%N], sb).
Proof. vm_compute. reflexivity. Qed.

(** A name that was never written is reported as an error. *)
Theorem C38_absent : ∀ marshal is_nil attr_order metadata ops k,
  any_order attr_order → writes_tables is_nil ops →
  k ∉ reserved → (∀ o, o ∈ ops → k ∉ wkeys o) →
  ∃ ar, written marshal is_nil attr_order metadata ops = Ok ar ∧ get_named_file ar k = Err.
Proof. intros. by apply written_absent. Qed.
Print Assumptions C38_absent.

Example C38_absent_ex :
  (ar ← written toy_marshal never_nil id [9%N] ser_writes; get_named_file ar "c") = Err.
Proof. vm_compute. reflexivity. Qed.

(** Of several values written under one name the first is returned, not the most
    recent. *)
Theorem C38_repeated_refuted : ∃ k (v1 v2 : list N),
  v1 ≠ v2 ∧
  (ar ← written toy_marshal never_nil id [] [WBytes k v1; WBytes k v2]; get_named_file ar k) = Ok v1.
Proof. exists "k", [1%N], [2%N]. split; [done|]. vm_compute. reflexivity. Qed.
Print Assumptions C38_repeated_refuted.

(** ** C39 *)

(** Restricted to names and values that are text, precisions that a float64 holds
    exactly, and attributes whose value list is not the nil slice. *)
Theorem C39_attribute_partial : ∀ marshal unmarshal a b,
  json_faithful marshal unmarshal → attr_sendable a → has_slice (a, b) →
  ∃ b', deserialize_attribute unmarshal (serialize_attribute marshal (a, b)) = Ok (a, b').
Proof. intros marshal unmarshal a b Hf Ha Hs. eexists. exact (attribute_round_trip _ _ Hf a b Ha Hs). Qed.
Print Assumptions C39_attribute_partial.

Theorem C39_attributes_partial : ∀ marshal unmarshal l,
  json_faithful marshal unmarshal → (∀ h, h ∈ l → attr_sendable h.1 ∧ has_slice h) →
  ∃ l', deserialize_attributes unmarshal (marshal (JArr (map attr_json l))) = Ok l' ∧
    map fst l' = map fst l.
Proof. intros marshal unmarshal l Hf Hl. exact (attributes_round_trip _ _ Hf l Hl). Qed.
Print Assumptions C39_attributes_partial.

Example C39_ex : attr_sendable sc ∧ has_slice (sc, false) ∧
  deserialize_attribute toy_unmarshal (serialize_attribute toy_marshal (sc, false)) = Ok (sc, false).
Proof.
  split; [split; [reflexivity|]; repeat (constructor; [reflexivity|]); constructor|].
  split; [exact I|]. vm_compute. reflexivity.
Qed.

(** A second round trip of a categorical attribute without values panics. *)
Theorem C39_again_panics : ∀ marshal unmarshal name,
  json_faithful marshal unmarshal → is_text name →
  ∃ h, deserialize_attribute unmarshal (serialize_attribute marshal (CatA name [], false)) = Ok h ∧
    h.1 = CatA name [] ∧
    deserialize_attribute unmarshal (serialize_attribute marshal h) = Panic.
Proof.
  intros marshal unmarshal name Hf Hn. exists (CatA name [], true).
  split; [|split; [reflexivity|by apply attribute_again]].
  refine (attribute_round_trip _ _ Hf (CatA name []) false _ _); [|reflexivity].
  split; [exact Hn|constructor].
Qed.
Print Assumptions C39_again_panics.

Theorem C39_again_refuted : ∃ a,
  attr_sendable a ∧
  (h ← deserialize_attribute toy_unmarshal (serialize_attribute toy_marshal (a, false));
   deserialize_attribute toy_unmarshal (serialize_attribute toy_marshal h)) = Panic.
Proof.
  exists (CatA "c" []). split; [split; [reflexivity|constructor]|]. vm_compute. reflexivity.
Qed.
Print Assumptions C39_again_refuted.

(** ** C82 *)

(** A table without rows. *)
Theorem C82_structure_partial :
  ∀ marshal unmarshal is_nil attr_order got pg g cell metadata key,
  json_faithful marshal unmarshal → any_order attr_order → full_reads got → table is_nil g cell →
  (gr_size g).2 = 0 → untouched (WInstances key g) [] →
  ∃ w w1 ar d, classifier_stub metadata = Ok w ∧
    serialize_to_tar marshal is_nil attr_order g w key false = Ok w1 ∧ tar_close w1 = Ok ar ∧
    deserialize_from_tar unmarshal got pg ar key = Ok d ∧ same_table g cell d.
Proof. exact structure_empty. Qed.
Print Assumptions C82_structure_partial.

Definition empty_grid : grid :=
  dense_grid [((0, 0), true)]
    match dense_run 64 dense_new [DAdd sc; DAdd sx; DAdd sb; DClass sc true; DExtend 0] with
    | Ok d => d | _ => dense_new end.

Example C82_structure_ex :
  (w ← classifier_stub [];
   w ← serialize_to_tar toy_marshal never_nil id empty_grid w "INST" false;
   ar ← tar_close w;
   d ← deserialize_from_tar toy_unmarshal fill_buffer 64 ar "INST";
   Ok (dense_all_attrs d, dense_size d)) = Ok ([sx; sb; sc], (3, 0)).
Proof. vm_compute. reflexivity. Qed.

(** With rows, the write is accepted but the next one fails and so does closing. *)
Theorem C82_next_write_fails : ∀ marshal is_nil attr_order g cell w ar key k b,
  any_order attr_order → table is_nil g cell → flushed w ar →
  gr_all_attrs g ≠ [] → 0 < (gr_size g).2 →
  ∃ w', serialize_to_tar marshal is_nil attr_order g w key false = Ok w' ∧
    write_bytes w' k b = Err ∧ tar_close w' = Err.
Proof. exact structure_then_write. Qed.
Print Assumptions C82_next_write_fails.

Theorem C82_refuted : ∃ g cell,
  table never_nil g cell ∧
  (w ← classifier_stub [];
   w ← serialize_to_tar toy_marshal never_nil id g w "INST" false;
   tar_close w) = Err.
Proof.
  exists ser_grid, ser_cell. split; [exact ser_table|]. vm_compute. reflexivity.
Qed.
Print Assumptions C82_refuted.
