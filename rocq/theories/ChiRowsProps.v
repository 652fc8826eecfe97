(** Properties C173 and C174: which rows ChiMerge intervals hold, and their labels. *)
From Coq Require Import QArith.
From Verif Require Import Prelude BytesModel FloatModel AttrModel StoreModel DenseModel DenseSpec DenseCheck GridModel GridSpec GridProofs SortModel FilterModel
  FilterSpec ChiRowsSpec ChiRowsProofs.
From Flocq Require Import IEEE754.BinarySingleNaN IEEE754.Bits IEEE754.Binary.
Local Open Scope nat_scope.

(** Tables of a numeric column, given by the bits of its values, and a class. *)
Definition k_x : attr := FloatA "x" 2.
Definition k_c : attr := CatA "c" ["u"; "v"].
Definition k_history (rows : list (Z * N)) : list dop :=
  [DAdd k_x; DAdd k_c; DClass k_c true; DExtend (length rows)] ++
  concat (imap (λ i r, [DSet (Spec 0 0 k_x) i (pack_float (b64_of_bits r.1)); DSet (Spec 1 0 k_c) i (pack_u64 r.2)]) rows).
Definition k_dense (rows : list (Z * N)) : dense := match dense_run 64 dense_new (k_history rows) with Ok d => d | _ => dense_new end.
Definition k_grid (rows : list (Z * N)) : grid := dense_grid [((1, 0), true)] (k_dense rows).
Definition k_show (p : nat) (bits : N) : string := "".

(** The numbers 1, 2, 3, and two just above 1. *)
Definition k_1 : Z := 0x3FF0000000000000.
Definition k_1a : Z := 0x3FF0000000001000.
Definition k_1b : Z := 0x3FF0000000002000.
Definition k_2 : Z := 0x4000000000000000.
Definition k_3 : Z := 0x4008000000000000.

(** ** C173 *)

(** Whatever the statistic, the significance test and the numbers of intervals asked for:
    the table that merging rows in ascending order leaves counts, for each interval, the
    rows of each class whose number lies in it, and every row lies in exactly one.
    Missing: the view that Train makes is read in the order of the unsorted rows
    ([C73_counts_refuted]), so this holds of a training set that is sorted already. *)
Theorem C173_counts_partial : ∀ show stat significant g n p s val cls minrows maxrows table,
  iter_in_order g → gr_get_attribute g (FloatA n p) = Ok s →
  (∀ i, i < (gr_size g).2 → gr_get g s i = Ok (pack_float (val i)) ∧ is_nan 53 1024 (val i) = false) →
  (∀ i, i < (gr_size g).2 → get_class show g i = Ok (cls i)) →
  (∀ i j, i ≤ j → j < (gr_size g).2 → float_lt (val j) (val i) = false) →
  chi_merge show stat significant g (FloatA n p) minrows maxrows = Ok table →
  (∀ j e c, table !! j = Some e → default 0 (fe_freq e !! c) =
     count_rows (gr_size g).2 (λ i, in_interval table j (val i) && bool_decide (cls i = c))) ∧
  ∀ i, i < (gr_size g).2 → ∃ j, in_interval table j (val i) = true ∧ ∀ k, in_interval table k (val i) = true → k = j.
Proof.
  intros show stat significant g n p s val cls minrows maxrows table Hit Hs Hval Hcls Hsort H.
  destruct (chi_merge_rows _ _ _ _ _ _ _ _ _ _ _ _ Hit Hs Hval Hcls Hsort H) as [[Hr Hn Hc] Hin].
  split; [|done]. intros j e c Hj. rewrite (Hc j e c Hj). apply count_rows_ext. intros i Hi. f_equal.
  symmetry. apply in_interval_keys; [done|]. by apply Hval.
Qed.
Print Assumptions C173_counts_partial.

(** Filtering gives a row the code of the interval that counted it, unless its number is
    the boundary of the interval: then it gets the code of the interval before. *)
Theorem C173_code : ∀ show stat significant g n p s val cls minrows maxrows table tables new i,
  iter_in_order g → gr_get_attribute g (FloatA n p) = Ok s →
  (∀ i, i < (gr_size g).2 → gr_get g s i = Ok (pack_float (val i)) ∧ is_nan 53 1024 (val i) = false) →
  (∀ i, i < (gr_size g).2 → get_class show g i = Ok (cls i)) →
  (∀ i j, i ≤ j → j < (gr_size g).2 → float_lt (val j) (val i) = false) →
  chi_merge show stat significant g (FloatA n p) minrows maxrows = Ok table →
  List.find (λ q, bool_decide (q.1 = FloatA n p)) tables = Some (FloatA n p, table) →
  i < (gr_size g).2 →
  ∃ j e, table !! j = Some e ∧ in_interval table j (val i) = true ∧
    chi_transform tables (FloatA n p) new (pack_float (val i)) =
      Ok (pack_u64 (N.of_nat (if float_eq (fe_value e) (val i) then Nat.pred j else j))).
Proof.
  intros show stat significant g n p s val cls minrows maxrows table tables new i Hit Hs Hval Hcls Hsort H Hf Hi.
  destruct (chi_merge_rows _ _ _ _ _ _ _ _ _ _ _ _ Hit Hs Hval Hcls Hsort H) as [Hc Hin].
  destruct (Hin i Hi) as (j & Hj & _). pose proof (counted_increase _ _ _ _ Hc) as Hinc.
  destruct Hc as [Hr Hn _].
  destruct (code_of tables (FloatA n p) new table (val i) j Hf Hn Hinc (proj2 (Hval i Hi)) Hj) as (e & He & Ht).
  eauto.
Qed.
Print Assumptions C173_code.

(** Four rows 1 u, 2 u, 2 u, 3 v in at most three intervals: the first two values merge. *)
Definition k_four : grid := k_grid [(k_1, 0%N); (k_2, 0%N); (k_2, 0%N); (k_3, 1%N)].
Definition k_stat (a b : freq_entry) : Q := if decide (dom (fe_freq a) = dom (fe_freq b)) then 0%Q else 1%Q.
Definition k_values (l : list Z) (i : nat) : binary64 := b64_of_bits (default 0%Z (l !! i)).
Example C173_ex : ∃ table,
  iter_in_order k_four ∧ gr_get_attribute k_four k_x = Ok (Spec 0 0 k_x) ∧ (gr_size k_four).2 = 4 ∧
  (∀ i, i < 4 → gr_get k_four (Spec 0 0 k_x) i = Ok (pack_float (k_values [k_1; k_2; k_2; k_3] i)) ∧
     is_nan 53 1024 (k_values [k_1; k_2; k_2; k_3] i) = false) ∧
  (∀ i, i < 4 → get_class k_show k_four i = Ok (if i =? 3 then "v" else "u")) ∧
  chi_merge k_show k_stat (λ _ v, Qle_bool v 0) k_four k_x 2 3 = Ok table ∧
  map (λ e, (float64bits (fe_value e), default 0 (fe_freq e !! "u"), default 0 (fe_freq e !! "v"))) table =
    [(Z.to_N k_1, 3, 0); (Z.to_N k_3, 0, 1)] ∧
  map (λ v, chi_transform [(k_x, table)] k_x k_x (pack_float (b64_of_bits v))) [k_1; k_2; k_3] =
    [Ok (pack_u64 0); Ok (pack_u64 0); Ok (pack_u64 0)].
Proof.
  eexists. split; [apply dense_grid_in_order|]. split; [vm_compute; reflexivity|]. split; [vm_compute; reflexivity|].
  split; [intros [|[|[|[|i]]]] Hi; try lia; split; vm_compute; reflexivity|].
  split; [intros [|[|[|[|i]]]] Hi; try lia; vm_compute; reflexivity|].
  split; [vm_compute; reflexivity|]. split; vm_compute; reflexivity.
Qed.

(** So rows are not given the interval they were counted in: from the rows 1 u and 2 v
    every training leaves the two intervals that tell the classes apart, yet both rows get
    the code of the first. *)
Theorem C173_code_refuted : ∃ h d e1 e2,
  let g := dense_grid [((1, 0), true)] d in let v1 := b64_of_bits k_1 in let v2 := b64_of_bits k_2 in
  reachable 64 h d ∧ (gr_size g).2 = 2 ∧
  gr_get g (Spec 0 0 k_x) 0 = Ok (pack_float v1) ∧ gr_get g (Spec 0 0 k_x) 1 = Ok (pack_float v2) ∧
  get_class k_show g 0 = Ok "u" ∧ get_class k_show g 1 = Ok "v" ∧
  (∀ stat significant minrows maxrows,
     chi_train k_show stat significant (λ l, l) (λ l, l) g k_x minrows maxrows = Ok [e1; e2]) ∧
  in_interval [e1; e2] 0 v1 = true ∧ in_interval [e1; e2] 1 v2 = true ∧
  fe_freq e1 = {["u" := 1]} ∧ fe_freq e2 = {["v" := 1]} ∧
  ∀ new, chi_transform [(k_x, [e1; e2])] k_x new (pack_float v1) = chi_transform [(k_x, [e1; e2])] k_x new (pack_float v2).
Proof.
  exists (k_history [(k_1, 0%N); (k_2, 1%N)]), (k_dense [(k_1, 0%N); (k_2, 1%N)]),
    (Freq (b64_of_bits k_1) {["u" := 1]}), (Freq (b64_of_bits k_2) {["v" := 1]}).
  cbv zeta. split; [apply check_reachable; vm_compute; reflexivity|].
  split; [vm_compute; reflexivity|]. split; [vm_compute; reflexivity|]. split; [vm_compute; reflexivity|].
  split; [vm_compute; reflexivity|]. split; [vm_compute; reflexivity|].
  split.
  { intros stat significant minrows maxrows.
    set (freq := [Freq (b64_of_bits k_1) {["u" := 1]}; Freq (b64_of_bits k_2) {["v" := 1]}]).
    assert (∃ s v, gr_get_attribute (dense_grid [((1, 0), true)] (k_dense [(k_1, 0%N); (k_2, 1%N)])) k_x = Ok s ∧
      lazy_sort Ascending [s] (dense_grid [((1, 0), true)] (k_dense [(k_1, 0%N); (k_2, 1%N)])) = Ok v ∧
      build_freq k_show k_x (view_grid (λ l, l) (λ l, l) v) = Ok freq) as (s & v & H1 & H2 & H3).
    { eexists _, _. split; [vm_compute; reflexivity|]. split; [vm_compute; reflexivity|]. vm_compute. reflexivity. }
    unfold chi_train. rewrite H1, H2. cbn [mbind res_bind]. unfold chi_merge. rewrite H3. cbn [mbind res_bind].
    cbn [length freq chi_loop]. unfold chi_minrows.
    assert (2 <=? (if 2 <=? minrows then minrows else 2) = true) as ->; [|done].
    apply Nat.leb_le. destruct (2 <=? minrows) eqn:E; [by apply Nat.leb_le|done]. }
  split; [vm_compute; reflexivity|]. split; [vm_compute; reflexivity|]. split; [done|]. split; [done|].
  intros new. vm_compute. reflexivity.
Qed.
Print Assumptions C173_code_refuted.

(** ** C174 *)

(** When the boundaries have different texts, every number can be read after filtering:
    as the text of the greatest boundary below it, or of the first. *)
Theorem C174_label_partial : ∀ label show tables a new name table val,
  List.find (λ p, bool_decide (p.1 = a)) tables = Some (a, table) →
  boundaries_increase table → table ≠ [] → (Z.of_nat (length table) < 2 ^ 63)%Z →
  NoDup (map (λ e, label (fe_value e)) table) →
  ∃ d e code, chi_transform tables a new (pack_float val) = Ok code ∧ table !! d = Some e ∧
    attr_decode show (CatA name (chi_labels label table)) code = Ok (label (fe_value e)) ∧
    (d = 0 ∨ float_lt (fe_value e) val = true) ∧
    ∀ j e', d < j → table !! j = Some e' → float_lt (fe_value e') val = false.
Proof. exact chi_label_read. Qed.
Print Assumptions C174_label_partial.

(** When two have the same text, no number above the boundaries can be read. *)
Theorem C174_repeat : ∀ label show tables a new name table val i j e1 e2,
  List.find (λ p, bool_decide (p.1 = a)) tables = Some (a, table) →
  boundaries_increase table → (Z.of_nat (length table) < 2 ^ 63)%Z →
  i < j → table !! i = Some e1 → table !! j = Some e2 → label (fe_value e1) = label (fe_value e2) →
  (∀ e, e ∈ table → float_lt (fe_value e) val = true) →
  ∃ code, chi_transform tables a new (pack_float val) = Ok code ∧
    attr_decode show (CatA name (chi_labels label table)) code = Panic.
Proof. exact chi_label_repeat. Qed.
Print Assumptions C174_repeat.

Definition k_table : list freq_entry :=
  [Freq (b64_of_bits k_1) {["u" := 1]}; Freq (b64_of_bits k_1a) {["v" := 1]}; Freq (b64_of_bits k_1b) {["u" := 1]}].
Definition k_label (v : binary64) : string := if float_lt v (b64_of_bits k_1a) then "low" else if float_lt v (b64_of_bits k_1b) then "mid" else "high".
Example C174_ex : boundaries_increase k_table ∧ NoDup (map (λ e, k_label (fe_value e)) k_table) ∧
  (∀ e, e ∈ k_table → float_lt (fe_value e) (b64_of_bits k_2) = true) ∧
  (code ← chi_transform [(k_x, k_table)] k_x k_x (pack_float (b64_of_bits k_2));
   attr_decode k_show (CatA "x" (chi_labels k_label k_table)) code) = Ok "high".
Proof.
  split; [repeat (constructor; [|repeat (constructor; [vm_compute; reflexivity|]); constructor]); constructor|].
  split; [apply (bool_decide_eq_true_1 (NoDup _)); vm_compute; reflexivity|]. split; [|vm_compute; reflexivity].
  intros e He. unfold k_table in He. rewrite !elem_of_cons in He.
  destruct He as [->|[->|[->|He]]]; [vm_compute; reflexivity..|by apply elem_of_nil in He].
Qed.

(** Labels have six decimals.  After training for three intervals on three numbers that
    agree in those, the last row of the training data cannot be read. *)
Theorem C174_label_refuted : ∃ h d table,
  let g := dense_grid [((1, 0), true)] d in
  reachable 64 h d ∧ gr_get g (Spec 0 0 k_x) 2 = Ok (pack_float (b64_of_bits k_1b)) ∧
  (∀ stat significant, chi_train k_show stat significant (λ l, l) (λ l, l) g k_x 3 4 = Ok table) ∧
  ∀ label show, label (b64_of_bits k_1) = label (b64_of_bits k_1a) → label (b64_of_bits k_1a) = label (b64_of_bits k_1b) →
  ∃ labels code, (k_x, CatA "x" labels) ∈ chi_attrs label [(k_x, table)] g ∧
    chi_transform [(k_x, table)] k_x (CatA "x" labels) (pack_float (b64_of_bits k_1b)) = Ok code ∧
    attr_decode show (CatA "x" labels) code = Panic.
Proof.
  exists (k_history [(k_1, 0%N); (k_1a, 1%N); (k_1b, 0%N)]), (k_dense [(k_1, 0%N); (k_1a, 1%N); (k_1b, 0%N)]), k_table.
  cbv zeta. split; [apply check_reachable; vm_compute; reflexivity|]. split; [vm_compute; reflexivity|].
  split; [intros stat significant; vm_compute; reflexivity|].
  intros label show E1 E2. exists (chi_labels label k_table), (pack_u64 1).
  split; [|split].
  - unfold chi_attrs. replace (gr_all_attrs (dense_grid [((1, 0), true)] (k_dense [(k_1, 0%N); (k_1a, 1%N); (k_1b, 0%N)]))) with [k_x; k_c] by (vm_compute; reflexivity).
    cbn [map List.find fst]. rewrite bool_decide_true by done. left.
  - vm_compute. reflexivity.
  - assert (chi_labels label k_table = [label (b64_of_bits k_1)]) as ->; [|vm_compute; reflexivity].
    unfold chi_labels, k_table. cbn [map fe_value]. rewrite <- E2, <- E1. generalize (label (b64_of_bits k_1)). intros l.
    assert (cat_encode [] l = ([l], pack_u64 0)) as E by done.
    assert (cat_encode [l] l = ([l], pack_u64 0)) as E'.
    { unfold cat_encode, cat_find. cbn [cat_find_from]. by rewrite bool_decide_true. }
    cbn [cat_encode_all]. by rewrite E, !E'.
Qed.
Print Assumptions C174_label_refuted.
