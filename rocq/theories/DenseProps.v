(** Properties C06-C11: DenseInstances. *)
From Verif Require Import Prelude BytesModel AttrModel AttrSpec StoreModel
  DenseModel DenseSpec DenseProofs DenseCheck ShuffleModel SwapProofs.

(** A concrete history used by the examples: a float, a categorical and two
    binary columns, two rows, some writes, one more row. *)
Definition ex_history : list dop :=
  [DAdd (FloatA "x" 2); DAdd (CatA "c" ["u"; "v"]); DAdd (BinA "b"); DAdd (BinA "b2");
   DClass (CatA "c" ["u"; "v"]) true; DExtend 2;
   DSet (Spec 0 0 (FloatA "x" 2)) 1 [1;2;3;4;5;6;7;8]%N;
   DSet (Spec 2 1 (BinA "b2")) 0 [9]%N; DExtend 1;
   DSet (Spec 0 0 (FloatA "x" 2)) 1 [8;7;6;5;4;3;2;1]%N].

Definition ex_dense : dense :=
  match dense_run 64 dense_new ex_history with Ok d => d | _ => dense_new end.

Lemma ex_reachable : reachable 64 ex_history ex_dense.
Proof. apply check_reachable. vm_compute. reflexivity. Qed.

(** ** C06 *)

(** After any well-behaved history, every cell of every column reads as the last
    value written to it (normalised for bit columns), or zero. *)
Theorem C06_reads_last_write : ∀ pg h d s g row,
  reachable pg h d → column_of d s g → row < d_maxrow d →
  dense_get d s row =
  Ok (cell_value (g_kind g) (last_write h (sp_pond s) (sp_pos s) row)).
Proof. exact dense_refines_table. Qed.
Print Assumptions C06_reads_last_write.

(** In-range writes of the right size never fail; all others panic. *)
Theorem C06_set_succeeds : ∀ pg h d s g row val,
  reachable pg h d → column_of d s g → row < d_maxrow d → right_size (g_kind g) val →
  ∃ d', dense_set d s row val = Ok d'.
Proof. exact dense_set_succeeds. Qed.
Print Assumptions C06_set_succeeds.

Theorem C06_bad_set_panics : ∀ pg h d s g row val,
  reachable pg h d → column_of d s g →
  (d_maxrow d ≤ row ∨ ¬ right_size (g_kind g) val) →
  dense_set d s row val = Panic.
Proof. exact dense_set_bad_panics. Qed.
Print Assumptions C06_bad_set_panics.

(** Columns made by AddAttribute hold one bit for a binary attribute and
    eight bytes for the others. *)
Theorem C06_default_kind : ∀ pg h d s g a,
  dense_run pg dense_new h = Ok d →
  (∀ a ag, DAddTo a ag ∉ h) → (∀ n z, DCreateGroup n z ∉ h) →
  column_of d s g → g_attrs g !! sp_pos s = Some a → g_kind g = default_kind a.
Proof. exact default_column_kind. Qed.
Print Assumptions C06_default_kind.

(** The reported row count is the sum of the Extend calls. *)
Theorem C06_row_count : ∀ pg h d,
  reachable pg h d → (dense_size d).2 = rows_extended h.
Proof. exact dense_rows. Qed.
Print Assumptions C06_row_count.

Example C06_ex :
  reachable 64 ex_history ex_dense ∧
  dense_size ex_dense = (4, 3) ∧
  dense_get ex_dense (Spec 0 0 (FloatA "x" 2)) 1 = Ok [8;7;6;5;4;3;2;1]%N ∧
  dense_get ex_dense (Spec 2 1 (BinA "b2")) 0 = Ok [1]%N ∧
  dense_get ex_dense (Spec 2 0 (BinA "b")) 0 = Ok [0]%N ∧
  dense_get ex_dense (Spec 1 0 (CatA "c" ["u"; "v"])) 2 = Ok [0;0;0;0;0;0;0;0]%N.
Proof. split; [exact ex_reachable|]. vm_compute. done. Qed.

(** ** C07 *)

Theorem C07_extend : ∀ pg h d n,
  reachable pg h d →
  (dense_size (dense_extend d n)).2 = (dense_size d).2 + n ∧
  dense_all_attrs (dense_extend d n) = dense_all_attrs d ∧
  (∀ s g row, column_of d s g → row < d_maxrow d →
     dense_get (dense_extend d n) s row = dense_get d s row) ∧
  (∀ s g row, column_of d s g → d_maxrow d ≤ row < d_maxrow d + n →
     dense_get (dense_extend d n) s row =
     Ok (match g_kind g with GFixed k => replicate k 0%N | GBits => [0%N] end)).
Proof. exact dense_extend_keeps. Qed.
Print Assumptions C07_extend.

Example C07_ex :
  dense_get (dense_extend ex_dense 2) (Spec 0 0 (FloatA "x" 2)) 1 = Ok [8;7;6;5;4;3;2;1]%N ∧
  dense_get (dense_extend ex_dense 2) (Spec 0 0 (FloatA "x" 2)) 4 = Ok (replicate 8 0%N).
Proof. vm_compute. done. Qed.

(** ** C08 *)

(** False: AddAttributeToAttributeGroup succeeds after Extend and then the same
    specification reads other bytes (here: the zeros of the next row). *)
Theorem C08_layout_frozen_refuted : ∃ pg h d s g a ag d' s' row,
  reachable pg h d ∧ d_fixed d = true ∧ column_of d s g ∧ row < d_maxrow d ∧
  dense_add_to_group d a ag = Ok (d', s') ∧
  dense_get d s row = Ok [1%N] ∧ dense_get d' s row = Ok [0%N].
Proof.
  pose (h := [DCreateGroup "G" 1; DAddTo (FloatA "x" 2) "G"; DExtend 3;
               DSet (Spec 0 0 (FloatA "x" 2)) 1 [1]%N]).
  destruct (check_from 64 false dense_new h) as [d|] eqn:E;
    [|vm_compute in E; discriminate E].
  exists 64, h, d, (Spec 0 0 (FloatA "x" 2)).
  destruct (d_ags d !! 0) as [g|] eqn:Eg;
    [|vm_compute in E; injection E as <-; vm_compute in Eg; discriminate Eg].
  exists g, (FloatA "y" 2), "G".
  destruct (dense_add_to_group d (FloatA "y" 2) "G") as [[d' s']| |] eqn:Ea;
    [|vm_compute in E; injection E as <-; vm_compute in Ea; discriminate Ea..].
  exists d', s', 1. split; [by apply check_reachable|].
  vm_compute in E. injection E as <-. vm_compute in Eg. injection Eg as <-.
  vm_compute in Ea. injection Ea as <- <-.
  split; [reflexivity|]. split; [split; [reflexivity|simpl; lia]|].
  split; [simpl; lia|]. done.
Qed.
Print Assumptions C08_layout_frozen_refuted.

(** What does hold: after Extend, AddAttribute panics, CreateAttributeGroup
    returns an error, and no call other than AddAttributeToAttributeGroup
    changes columns or their storage. *)
Theorem C08_layout_frozen_partial : ∀ pg d,
  d_fixed d = true →
  (∀ a, dense_add pg d a = Panic) ∧
  (∀ name size, dense_create_group d name size = Err) ∧
  (∀ o d', (∀ a ag, o ≠ DAddTo a ag) → dense_step pg d o = Ok d' →
     map g_attrs (d_ags d') = map g_attrs (d_ags d) ∧
     map g_kind (d_ags d') = map g_kind (d_ags d)).
Proof.
  intros pg d Hf. split; [intros a; by apply dense_add_after_extend|].
  split; [intros n z; by apply dense_create_after_extend|].
  intros o d'. by apply dense_frozen.
Qed.
Print Assumptions C08_layout_frozen_partial.

Example C08_ex :
  d_fixed ex_dense = true ∧ dense_add 64 ex_dense (BinA "z") = Panic ∧
  dense_create_group ex_dense "H" 8 = Err.
Proof. vm_compute. done. Qed.

(** ** C09 *)

Theorem C09_lookup_sound : ∀ d get s,
  dense_get_attribute d get = Ok s →
  attr_at d (sp_pond s, sp_pos s) = Some (sp_attr s) ∧
  attr_equals (sp_attr s) get = true ∧ ∃ g, column_of d s g.
Proof. exact dense_get_attribute_ok. Qed.
Print Assumptions C09_lookup_sound.

Theorem C09_lookup_complete : ∀ d a,
  a ∈ dense_all_attrs d → ∃ s, dense_get_attribute d a = Ok s.
Proof. exact dense_get_attribute_finds. Qed.
Print Assumptions C09_lookup_complete.

Theorem C09_lookup_error : ∀ d get,
  dense_get_attribute d get = Err ↔
  ∀ a, a ∈ dense_all_attrs d → attr_equals a get = false.
Proof. exact dense_get_attribute_err. Qed.
Print Assumptions C09_lookup_error.

(** AddAttribute returns a specification of a new column holding that attribute,
    and keeps every old column where it was. *)
Theorem C09_add : ∀ pg d a d' s,
  dense_add pg d a = Ok (d', s) →
  dense_all_attrs d' ≡ₚ a :: dense_all_attrs d ∧
  attr_at d' (sp_pond s, sp_pos s) = Some a ∧ sp_attr s = a ∧
  (∀ k b, attr_at d k = Some b → attr_at d' k = Some b).
Proof. exact dense_add_attrs. Qed.
Print Assumptions C09_add.

(** The attributes of the instances are those that were added, each as often as it
    was added; Size reports their number. *)
Theorem C09_attributes_added : ∀ pg h d,
  dense_run pg dense_new h = Ok d → (∀ a ag, DAddTo a ag ∉ h) →
  dense_all_attrs d ≡ₚ added_attrs h ∧ (dense_size d).1 = length (added_attrs h).
Proof.
  intros pg h d Hr Hn. pose proof (dense_attrs_added pg h d Hr Hn) as Hp.
  split; [done|]. by apply Permutation_length in Hp.
Qed.
Print Assumptions C09_attributes_added.

(** When no two attributes are Equal, looking an attribute up finds its own column. *)
Theorem C09_lookup_exact : ∀ d k a s,
  distinct_attrs (dense_all_attrs d) → attr_at d k = Some a →
  dense_get_attribute d a = Ok s → (sp_pond s, sp_pos s) = k ∧ sp_attr s = a.
Proof. exact dense_lookup_unique. Qed.
Print Assumptions C09_lookup_exact.

Example C09_ex :
  dense_get_attribute ex_dense (BinA "b2") = Ok (Spec 2 1 (BinA "b2")) ∧
  dense_get_attribute ex_dense (FloatA "b2" 2) = Err ∧
  added_attrs ex_history = [FloatA "x" 2; CatA "c" ["u"; "v"]; BinA "b"; BinA "b2"].
Proof. vm_compute. done. Qed.

(** ** C10 *)

(** MapOverRows is exactly the visit of rows 0, 1, 2, ... with the values of Get. *)
Theorem C10_map_over_rows : ∀ S d asv (f : S → list (list N) → nat → res (S * cb))
    (row : nat → list (list N)) s s' e,
  (∀ i, i < d_maxrow d → Forall2 (λ a v, dense_get d a i = Ok v) asv (row i)) →
  dense_map_over_rows d asv f s = Ok (s', e) ↔ visits row (d_maxrow d) f 0 s s' e.
Proof.
  intros S d asv f row s s' e H. apply dense_map_visits.
  intros i Hi. apply res_mapM_Ok. by apply H.
Qed.
Print Assumptions C10_map_over_rows.

(** The rows a recording callback sees. *)
Theorem C10_all_rows_seen : ∀ d asv row,
  (∀ i, i < d_maxrow d → Forall2 (λ a v, dense_get d a i = Ok v) asv (row i)) →
  dense_map_over_rows d asv
    (λ acc r i, Ok (acc ++ [(i, r)], Cont)) [] =
  Ok (map (λ i, (i, row i)) (seq 0 (d_maxrow d)), false).
Proof.
  intros d asv row H. apply (dense_map_log_all d asv row).
  intros i Hi. apply res_mapM_Ok. by apply H.
Qed.
Print Assumptions C10_all_rows_seen.

(** The hypothesis of the two theorems can always be met. *)
Theorem C10_rows_readable : ∀ pg h d asv i,
  reachable pg h d → (∀ s, s ∈ asv → ∃ g, column_of d s g) → i < d_maxrow d →
  ∃ row, Forall2 (λ a v, dense_get d a i = Ok v) asv row.
Proof.
  intros pg h d asv i Hr Hv Hi.
  destruct (dense_rows_readable pg h d asv i Hr Hv Hi) as [row Hrow].
  exists row. by apply res_mapM_Ok.
Qed.
Print Assumptions C10_rows_readable.

Example C10_ex :
  dense_map_over_rows ex_dense [Spec 2 1 (BinA "b2"); Spec 2 0 (BinA "b")]
    (λ acc r i, Ok (acc ++ [(i, r)], if i =? 1 then Stop else Cont)) []
  = Ok ([(0, [[1%N]; [0%N]]); (1, [[0%N]; [0%N]])], false) ∧
  dense_map_over_rows ex_dense [Spec 2 1 (BinA "b2")]
    (λ acc r i, Ok (acc + 1, if i =? 0 then Fail else Cont)) 0 = Ok (1, true).
Proof. vm_compute. done. Qed.

(** ** C11 *)

(** Whatever the draws, Shuffle rearranges whole rows by a bijection. *)
Theorem C11_shuffle_permutes : ∀ pg h d draws,
  reachable pg h d → distinct_attrs (dense_all_attrs d) →
  (∀ i, i < d_maxrow d → draws i ≤ i) →
  ∃ d' p, dense_shuffle draws d = Ok d' ∧
    row_bijection (d_maxrow d) p ∧ rows_rearranged p d d'.
Proof.
  intros pg h d draws Hr Hd Hdr.
  destruct (dense_shuffle_spec pg d draws (ex_intro _ h Hr) Hd Hdr)
    as (d' & p & H1 & _ & H2 & H3). eauto.
Qed.
Print Assumptions C11_shuffle_permutes.

(** The shuffled instances are again reachable, so all theorems above apply. *)
Theorem C11_shuffle_reachable : ∀ pg h d draws d',
  reachable pg h d → distinct_attrs (dense_all_attrs d) →
  (∀ i, i < d_maxrow d → draws i ≤ i) →
  dense_shuffle draws d = Ok d' → ∃ h', reachable pg h' d'.
Proof.
  intros pg h d draws d' Hr Hd Hdr Hs.
  destruct (dense_shuffle_spec pg d draws (ex_intro _ h Hr) Hd Hdr)
    as (d2 & p & H1 & H4 & H2 & H3). rewrite Hs in H1. by injection H1 as ->.
Qed.
Print Assumptions C11_shuffle_reachable.

(** Without distinct attributes it is false: with two Equal columns, one of
    them is exchanged twice and the other stays put. *)
Theorem C11_equal_columns_refuted : ∃ pg h d i j d',
  dense_run pg dense_new h = Ok d ∧ dense_swap_rows d i j = Ok d' ∧
  i < d_maxrow d ∧ j < d_maxrow d ∧
  dense_get d (Spec 0 0 (FloatA "x" 2)) i ≠ dense_get d (Spec 0 0 (FloatA "x" 2)) j ∧
  dense_get d' (Spec 0 0 (FloatA "x" 2)) i = dense_get d (Spec 0 0 (FloatA "x" 2)) i ∧
  dense_get d' (Spec 1 0 (BinA "b")) i = dense_get d (Spec 1 0 (BinA "b")) j ∧
  dense_get d (Spec 1 0 (BinA "b")) i ≠ dense_get d (Spec 1 0 (BinA "b")) j.
Proof.
  exists 64, [DAdd (FloatA "x" 2); DAdd (FloatA "x" 2); DAdd (BinA "b"); DExtend 2;
    DSet (Spec 0 0 (FloatA "x" 2)) 0 [1;2;3;4;5;6;7;8]%N;
    DSet (Spec 1 0 (BinA "b")) 0 [1]%N].
  eexists. exists 1, 0. eexists.
  split; [vm_compute; reflexivity|]. split; [vm_compute; reflexivity|].
  vm_compute. split; [lia|]. split; [lia|]. done.
Qed.
Print Assumptions C11_equal_columns_refuted.

Example C11_ex :
  distinct_attrs (dense_all_attrs ex_dense) ∧
  match dense_shuffle (λ i, i - 1) ex_dense with
  | Ok d' => dense_get d' (Spec 0 0 (FloatA "x" 2)) 0 = Ok [8;7;6;5;4;3;2;1]%N
           ∧ dense_get d' (Spec 2 1 (BinA "b2")) 2 = Ok [1]%N
  | _ => False
  end.
Proof.
  split; [|vm_compute; done]. apply distinctb_ok. vm_compute. reflexivity.
Qed.
