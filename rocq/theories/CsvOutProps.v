(** Writing CSV files: C136, C137. *)
From Verif Require Import Prelude BytesModel FloatModel AttrModel AttrSpec AttrProofs StoreModel DenseModel DenseSpec DenseProofs DenseCheck
  GridModel GridSpec GridProofs TextModel CsvModel CsvSpec CsvProofs TextProofs BagModel CsvOutModel CsvOutSpec CsvOutProofs CsvProps.
From Flocq Require Import IEEE754.Bits IEEE754.Binary.
From Coq Require Import Ascii.
Local Open Scope nat_scope.

Lemma all_attrs_place d a : a ∈ dense_all_attrs d → ∃ k, attr_at d k = Some a.
Proof.
  unfold dense_all_attrs. intros Ha. apply elem_of_list_In, in_concat in Ha as (l & Hl & Ha).
  apply in_map_iff in Hl as (g & <- & Hg). apply elem_of_list_In, elem_of_list_lookup in Hg as [i Hi].
  apply elem_of_list_In, elem_of_list_lookup in Ha as [j Hj]. exists (i, j). unfold attr_at. cbn. by rewrite Hi.
Qed.

(** Instances built by a history are tidy if their attributes can be told apart. *)
Lemma dense_tidy d order : distinct_attrs (dense_all_attrs d) →
  NoDup (class_attrs_in_order d order) → (∀ a, a ∈ class_attrs_in_order d order → a ∈ dense_all_attrs d) →
  tidy (dense_grid order d).
Proof.
  intros Hd Hn Hc. split.
  - apply dense_grid_in_order.
  - apply NoDup_alt. intros i j a Hi Hj. apply (Hd i j a a Hi Hj). apply attr_equals_refl.
  - cbn [gr_all_attrs gr_get_attribute dense_grid]. intros a Ha.
    destruct (dense_get_attribute_finds d a Ha) as [s Hs]. exists s. split; [done|].
    destruct (all_attrs_place d a Ha) as [k Hk]. by destruct (dense_lookup_unique d k a s Hd Hk Hs).
  - split; [exact Hn|exact Hc].
  - reflexivity.
Qed.

(** ** C136 *)

(** What SerializeInstancesToCSVStream writes is the table: a first record with the names of all
    the attributes, each once and the class attributes last, and one record for each row, in order, with
    the texts of its cells; whatever the order of the map. *)
Theorem C136_records : ∀ ao show g records, any_order ao → tidy g → csv_write show ao g = Ok records →
  ∃ attrs, attrs ++ gr_class_attrs g ≡ₚ gr_all_attrs g ∧ table_of show g (attrs ++ gr_class_attrs g) records.
Proof. intros ao show g records H1 H2 H3. eexists. by apply csv_written. Qed.
Print Assumptions C136_records.

(** It succeeds if every cell has a text. *)
Theorem C136_total : ∀ ao show g, any_order ao → tidy g →
  (∀ a i, a ∈ gr_all_attrs g → i < (gr_size g).2 → ∃ t, text_at show g a i t) →
  ∃ records, csv_write show ao g = Ok records.
Proof. exact csv_write_total. Qed.
Print Assumptions C136_total.

(** ** C137 *)

(** Written and read back: as many rows, the attributes with their names and kinds, in
    each cell the category or the number that was written, and the last attribute for the class. *)
Theorem C137_round_trip_partial : ∀ ao show parse pg prec g records,
  any_order ao → tidy g → csv_write show ao g = Ok records →
  gr_all_attrs g ≠ [] → 0 < (gr_size g).2 → (N.of_nat (gr_size g).2 < 2 ^ 63)%N →
  NoDup (map (λ a, trim_space (attr_name a)) (gr_all_attrs g)) →
  (∀ a, a ∈ gr_all_attrs g → kept_column show parse g a) →
  ∃ d, csv_to_instances parse pg prec true records = Ok d ∧ (∃ h, reachable pg h d) ∧
    dense_size d = (length (gr_all_attrs g), (gr_size g).2) ∧
    ∀ a, a ∈ gr_all_attrs g → ∃ a' s, dense_get_attribute d a' = Ok s ∧
      attr_name a' = trim_space (attr_name a) ∧ same_kind a a' ∧
      (∀ i t, i < (gr_size g).2 → text_at show g a i t → reads_back show parse d a a' s i t) ∧
      (gr_class_attrs g = [a] → d_class d = {[ (sp_pond s, sp_pos s) := true ]}).
Proof.
  intros ao show parse pg prec g records Hao Ht Hw Hne Hpos Hbig Hnames Hkept.
  destruct (csv_written ao show g records Hao Ht Hw) as [Hp Htab].
  set (attrs := non_class_attrs ao g ++ gr_class_attrs g) in *.
  destruct (csv_round_trip show parse pg prec g attrs records Htab) as (d & Hd & Hr & Hsz & Hcol); try done.
  { intros E. apply Hne. rewrite E in Hp. by apply Permutation_nil. }
  { by rewrite Hp. }
  { intros a Ha. apply Hkept. by rewrite <- Hp. }
  exists d. split; [done|]. split; [done|]. split; [by rewrite Hsz, <- Hp|].
  intros a Ha.
  assert (∃ j, attrs !! j = Some a ∧ (gr_class_attrs g = [a] → S j = length attrs)) as (j & Hj & Hlast).
  { destruct (decide (gr_class_attrs g = [a])) as [E|E].
    - exists (length (non_class_attrs ao g)). unfold attrs. rewrite E. split.
      + by apply list_lookup_middle.
      + intros _. rewrite app_length. cbn. lia.
    - rewrite <- Hp in Ha. apply elem_of_list_lookup in Ha as [j Hj]. exists j. done. }
  destruct (Hcol j a Hj) as (a' & s & H1 & H2 & H3 & H4 & H5). exists a', s. split_and!; try done.
  intros E. by apply H5, Hlast.
Qed.
Print Assumptions C137_round_trip_partial.

(** Instances of the examples. *)
Definition o_dense (h : list dop) : dense := match dense_run 64 dense_new h with Ok d => d | _ => dense_new end.
Definition o_grid (h : list dop) : grid := dense_grid (map_to_list (d_class (o_dense h))) (o_dense h).
Definition o_ok (r : res dense) : bool := match r with Ok _ => true | _ => false end.
Definition o_or (r : res dense) : dense := match r with Ok d => d | _ => dense_new end.
Lemma o_ok_eq r : o_ok r = true → r = Ok (o_or r).
Proof. by destruct r. Qed.

Ltac o_in := apply (bool_decide_unpack _); vm_compute; exact I.
Ltac o_tidy :=
  apply dense_tidy; [apply distinct_names; o_in|o_in|apply Forall_forall; o_in].

(** Categories that look like numbers are read as numbers; if others do not, the file that was written is
    refused. *)
Theorem C137_numeric_refuted : ∃ h records d, tidy (o_grid h) ∧ gr_all_attrs (o_grid h) = [CatA "zip" ["1"; "2"]] ∧
  csv_write (λ _ _, "1") (λ l, l) (o_grid h) = Ok records ∧
  csv_to_instances cv_parse 64 0 true records = Ok d ∧ dense_all_attrs d = [FloatA "zip" 0].
Proof.
  set (a := CatA "zip" ["1"; "2"]).
  exists [DAdd a; DExtend 2; DSet (Spec 0 0 a) 1 (pack_u64 1)], [["zip"]; ["1"]; ["2"]],
    (o_or (csv_to_instances cv_parse 64 0 true [["zip"]; ["1"]; ["2"]])).
  split; [o_tidy|]. split; [reflexivity|]. split; [vm_compute; reflexivity|].
  split; [apply o_ok_eq; vm_compute; reflexivity|vm_compute; reflexivity].
Qed.
Print Assumptions C137_numeric_refuted.
Theorem C137_mixed_refuted : ∃ h records, tidy (o_grid h) ∧ gr_all_attrs (o_grid h) = [CatA "zip" ["1"; "none"]] ∧
  csv_write (λ _ _, "1") (λ l, l) (o_grid h) = Ok records ∧
  csv_to_instances cv_parse 64 0 true records = Err.
Proof.
  set (a := CatA "zip" ["1"; "none"]).
  exists [DAdd a; DExtend 2; DSet (Spec 0 0 a) 1 (pack_u64 1)], [["zip"]; ["1"]; ["none"]].
  split; [o_tidy|]. split; [reflexivity|]. split; vm_compute; reflexivity.
Qed.
Print Assumptions C137_mixed_refuted.

(** An empty category is read as the first category of the column. *)
Theorem C137_empty_refuted : ∃ h records d a a' s, a = CatA "k" ["red"; ""] ∧ tidy (o_grid h) ∧
  gr_all_attrs (o_grid h) = [a; FloatA "x" 2] ∧
  csv_write (λ _ _, "1") (λ l, l) (o_grid h) = Ok records ∧
  text_at (λ _ _, "1") (o_grid h) a 1 "" ∧
  csv_to_instances cv_parse 64 0 true records = Ok d ∧ dense_get_attribute d a' = Ok s ∧
  attr_name a' = "k" ∧ dense_get d s 1 = Ok (pack_u64 0) ∧
  attr_decode (λ _ _, "1") a' (pack_u64 0) = Ok "red".
Proof.
  set (a := CatA "k" ["red"; ""]).
  exists [DAdd a; DAdd (FloatA "x" 2); DExtend 2; DSet (Spec 0 0 a) 1 (pack_u64 1)], [["k"; "x"]; ["red"; "1"]; [""; "1"]],
    (o_or (csv_to_instances cv_parse 64 0 true [["k"; "x"]; ["red"; "1"]; [""; "1"]])), a, (CatA "k" ["red"]), (Spec 0 0 (CatA "k" ["red"])).
  split; [done|]. split; [o_tidy|]. split; [reflexivity|]. split; [vm_compute; reflexivity|].
  split. { exists (Spec 0 0 a), (pack_u64 1). split_and!; vm_compute; reflexivity. }
  split; [apply o_ok_eq; vm_compute; reflexivity|]. split_and!; vm_compute; reflexivity.
Qed.
Print Assumptions C137_empty_refuted.

(** Instances without rows cannot be read back: the parser panics. *)
Theorem C137_no_rows_refuted : ∃ h records, tidy (o_grid h) ∧ gr_all_attrs (o_grid h) = [FloatA "x" 2] ∧
  csv_write (λ _ _, "1") (λ l, l) (o_grid h) = Ok records ∧ csv_to_instances cv_parse 64 0 true records = Panic.
Proof.
  exists [DAdd (FloatA "x" 2)], [["x"]].
  split; [o_tidy|]. split; [reflexivity|]. split; vm_compute; reflexivity.
Qed.
Print Assumptions C137_no_rows_refuted.

(** A column that starts with NaN comes back as a column of categories. *)
Theorem C137_nan_refuted : ∀ show, show 2 0x7FF8000000000001%N = "NaN" → ∃ h records d, tidy (o_grid h) ∧
  gr_all_attrs (o_grid h) = [FloatA "x" 2] ∧ csv_write show (λ l, l) (o_grid h) = Ok records ∧
  csv_to_instances cv_parse 64 0 true records = Ok d ∧ dense_all_attrs d = [CatA "x" ["NaN"]].
Proof.
  intros show Hs. set (a := FloatA "x" 2).
  exists [DAdd a; DExtend 1; DSet (Spec 0 0 a) 0 (pack_u64 0x7FF8000000000001)], [["x"]; ["NaN"]],
    (o_or (csv_to_instances cv_parse 64 0 true [["x"]; ["NaN"]])).
  split; [o_tidy|]. split; [reflexivity|].
  split. { unfold csv_write. rewrite <- Hs. vm_compute. reflexivity. }
  split; [apply o_ok_eq; vm_compute; reflexivity|vm_compute; reflexivity].
Qed.
Print Assumptions C137_nan_refuted.

(** Of several class attributes one is left. *)
Theorem C137_classes_refuted : ∃ h records d, tidy (o_grid h) ∧ length (gr_class_attrs (o_grid h)) = 2 ∧
  csv_write (λ _ _, "1") (λ l, l) (o_grid h) = Ok records ∧
  csv_to_instances cv_parse 64 0 true records = Ok d ∧ size (d_class d) = 1.
Proof.
  set (a := FloatA "x" 2). set (b := FloatA "y" 2).
  exists [DAdd a; DAdd b; DClass a true; DClass b true; DExtend 1].
  eexists _, (o_or (csv_to_instances cv_parse 64 0 true _)).
  split; [o_tidy|]. split; [vm_compute; reflexivity|]. split; [vm_compute; reflexivity|].
  split; [apply o_ok_eq; vm_compute; reflexivity|vm_compute; reflexivity].
Qed.
Print Assumptions C137_classes_refuted.

(** Instances that meet the conditions. *)
Definition o_k := CatA "kind" ["red"; "blue"].
Definition o_x := FloatA "x" 2.
Definition o_hist : list dop :=
  [DAdd o_k; DAdd o_x; DClass o_k true; DExtend 2; DSet (Spec 0 0 o_k) 0 (pack_u64 1)].
Example C137_example : tidy (o_grid o_hist) ∧
  csv_write (λ _ _, "1") (@rev attr) (o_grid o_hist) = Ok [["x"; "kind"]; ["1"; "blue"]; ["1"; "red"]] ∧
  (∀ a, a ∈ gr_all_attrs (o_grid o_hist) → kept_column (λ _ _, "1") cv_parse (o_grid o_hist) a).
Proof.
  split; [o_tidy|]. split; [vm_compute; reflexivity|]. intros a Ha.
  assert (a ∈ [o_k; o_x]) as Hb by exact Ha. clear Ha.
  intros i t Hi (s & v & Hs & Hv & Ht).
  assert (i = 0 ∨ i = 1) as Hi'.
  { change (gr_size (o_grid o_hist)).2 with 2 in Hi. lia. }
  apply elem_of_cons in Hb as [->|[->|[]%elem_of_nil]%elem_of_cons].
  - assert (Ok s = Ok (Spec 0 0 o_k)) as [= ->] by (rewrite <- Hs; vm_compute; reflexivity).
    destruct Hi' as [-> | ->].
    + assert (Ok v = Ok (pack_u64 1)) as [= ->] by (rewrite <- Hv; vm_compute; reflexivity).
      assert (Ok t = Ok "blue") as [= ->] by (rewrite <- Ht; vm_compute; reflexivity).
      split; [split; [done|vm_compute; reflexivity]|]. intros _ Hn. apply C35_number in Hn. vm_compute in Hn. discriminate Hn.
    + assert (Ok v = Ok (pack_u64 0)) as [= ->] by (rewrite <- Hv; vm_compute; reflexivity).
      assert (Ok t = Ok "red") as [= ->] by (rewrite <- Ht; vm_compute; reflexivity).
      split; [split; [done|vm_compute; reflexivity]|]. done.
  - assert (t = "1") as ->.
    { cbn [attr_decode o_x] in Ht. destruct (unpack_u64 v) in Ht; [|discriminate Ht..]. cbn in Ht. congruence. }
    split; [split; [done|vm_compute; reflexivity]|]. split; [apply C35_number; vm_compute; reflexivity|].
    eexists. vm_compute. reflexivity.
Qed.
