(** Properties C28-C34, C73 and C74: filters. *)
From Verif Require Import Prelude BytesModel FloatModel AttrModel AttrSpec StoreModel
  DenseModel DenseSpec DenseProofs DenseCheck GridModel GridSpec GridProofs SortModel
  FilterModel FilterSpec FilterProofs BinModel BinProofs.
From Flocq Require Import IEEE754.Bits IEEE754.Binary Core.Raux.
From Coq Require Import QArith Reals Lra.
Local Open Scope nat_scope.

(** The table of the examples: floats x = 2, 1, a class c = u, v and a three-valued
    attribute k = r, t. *)
Definition fi_x : attr := FloatA "x" 2.
Definition fi_c : attr := CatA "c" ["u"; "v"].
Definition fi_k : attr := CatA "k" ["r"; "s"; "t"].
Definition fi_sx : spec := Spec 0 0 fi_x.
Definition fi_sc : spec := Spec 1 0 fi_c.
Definition fi_sk : spec := Spec 1 1 fi_k.
Definition fi_1 : list N := pack_float float_one.
Definition fi_0 : list N := pack_float float_zero.
Definition fi_2 : list N := [0;0;0;0;0;0;0;64]%N.
Definition fi_history : list dop :=
  [DAdd fi_x; DAdd fi_c; DAdd fi_k; DClass fi_c true; DExtend 2;
   DSet fi_sx 0 fi_2; DSet fi_sx 1 fi_1; DSet fi_sc 1 (pack_u64 1); DSet fi_sk 1 (pack_u64 2)].
Definition fi_dense : dense :=
  match dense_run 64 dense_new fi_history with Ok d => d | _ => dense_new end.
Definition fi_grid : grid := dense_grid [((1, 0), true)] fi_dense.
Definition fi_show (p : nat) (bits : N) : string := "".

Lemma fi_reachable : reachable 64 fi_history fi_dense.
Proof. apply check_reachable. vm_compute. reflexivity. Qed.

(** ** C28 *)

(** Get on an unfiltered attribute is the source value; on a filtered one, the
    transformed value of the old attribute (the one and only old attribute that the
    new name belongs to). *)
Theorem C28_get_unfiltered : ∀ l s row,
  untouched l (sp_attr s) → lf_get l s row = gr_get (lf_src l) s row.
Proof. exact lf_get_untouched. Qed.
Print Assumptions C28_get_unfiltered.

Theorem C28_get_filtered : ∀ l old new s os row,
  (old, new) ∈ fl_attrs (lf_filter l) → ¬ untouched l new →
  (∀ o n, (o, n) ∈ fl_attrs (lf_filter l) →
     attr_equals o new = true ∨ attr_equals n new = true → o = old) →
  sp_attr s = new → gr_get_attribute (lf_src l) old = Ok os →
  lf_get l s row =
    (b ← gr_get (lf_src l) os row; fl_transform (lf_filter l) (sp_attr os) new b).
Proof. exact lf_get_touched. Qed.
Print Assumptions C28_get_filtered.

(** Iteration differs from Get: with a BinaryConvertFilter for the class only, Get
    gives the eight bytes of the float x = 2 but MapOverRows the single byte 1. *)
Theorem C28_iteration_refuted : ∃ src f s i buf,
  iter_in_order src ∧
  let l := new_lfiltered src f in
  untouched l (sp_attr s) ∧
  (∃ shown, lf_iter l [s] = Ok shown ∧ (i, Ok [buf]) ∈ shown) ∧
  lf_get l s i ≠ Ok buf.
Proof.
  exists fi_grid, (binary_filter (binary_train convert_new [fi_c])), fi_sx, 0, [1%N].
  split; [apply dense_grid_in_order|]. intros l.
  split; [apply lf_unfiltered_spec; vm_compute; reflexivity|]. split.
  - eexists. split; [reflexivity|]. vm_compute. left.
  - vm_compute. discriminate.
Qed.
Print Assumptions C28_iteration_refuted.

(** They agree when the filter leaves the unfiltered attributes iterated over
    alone.  Missing, since false: other filters. *)
Theorem C28_iteration_partial : ∀ l asv,
  iter_agrees (lf_src l) →
  (∀ s, s ∈ asv → lf_readable l s) →
  (∀ s, s ∈ asv → untouched l (sp_attr s) → leaves_alone (lf_filter l) (sp_attr s)) →
  ∃ rows, lf_iter l asv = Ok rows ∧ map fst rows ≡ₚ seq 0 (lf_size l).2 ∧
    ∀ i fetch, (i, fetch) ∈ rows → ∀ buf,
      fetch = Ok buf ↔ res_mapM (λ s, lf_get l s i) asv = Ok buf.
Proof. exact lf_iter_agrees_untouched. Qed.
Print Assumptions C28_iteration_partial.

(** ChiMergeFilter does leave alone what it does not discretise. *)
Theorem C28_chimerge_leaves_alone : ∀ label tables train a,
  List.find (λ p, bool_decide (p.1 = a)) tables = None →
  leaves_alone (chi_filter label tables train) a.
Proof. exact chi_leaves_alone. Qed.
Print Assumptions C28_chimerge_leaves_alone.

Definition fi_float : lfiltered :=
  new_lfiltered fi_grid (float_filter (float_train convert_new [fi_k])).
Definition fi_ks : spec := Spec 0 2 (FloatA "k_t" 2).

Example C28_ex :
  lf_all_attrs fi_float = [fi_x; fi_c; FloatA "k_r" 2; FloatA "k_s" 2; FloatA "k_t" 2] ∧
  lf_get_attribute fi_float (FloatA "k_t" 2) = Ok fi_ks ∧
  lf_get fi_float fi_ks 0 = Ok fi_0 ∧ lf_get fi_float fi_ks 1 = Ok fi_1 ∧
  lf_get fi_float fi_sx 0 = Ok fi_2 ∧
  lf_iter fi_float [fi_sx; fi_ks] = Ok [(0, Ok [fi_2; fi_0]); (1, Ok [fi_1; fi_1])].
Proof. vm_compute. done. Qed.

(** ** C29 *)

Theorem C29_rows : ∀ l, (lf_size l).2 = (gr_size (lf_src l)).2.
Proof. reflexivity. Qed.

(** Size reports the source's three columns, AllAttributes lists five. *)
Theorem C29_columns_refuted : ∃ src attrs,
  let l := new_lfiltered src (float_filter (float_train convert_new attrs)) in
  (gr_size src).1 = length (gr_all_attrs src) ∧
  (lf_size l).1 ≠ length (lf_all_attrs l).
Proof. exists fi_grid, [fi_k]. vm_compute. done. Qed.
Print Assumptions C29_columns_refuted.

(** True when every filtered attribute has exactly one new attribute. *)
Theorem C29_columns_partial : ∀ l,
  (gr_size (lf_src l)).1 = length (gr_all_attrs (lf_src l)) →
  (∀ a, a ∈ gr_all_attrs (lf_src l) → ¬ untouched l a →
     length (filter (λ p, attr_equals a p.1 = true) (fl_attrs (lf_filter l))) = 1) →
  (lf_size l).1 = length (lf_all_attrs l).
Proof. exact lf_columns_untouched. Qed.
Print Assumptions C29_columns_partial.

Example C29_ex :
  let l := new_lfiltered fi_grid (binary_filter (binary_train convert_new [fi_x; fi_c])) in
  lf_size l = (3, 2) ∧ lf_all_attrs l = [BinA "x"; BinA "c"; fi_k].
Proof. vm_compute. done. Qed.

(** ** C30 *)

(** The columns a trained filter has, per attribute, in order. *)
Theorem C30_float_columns : ∀ attrs,
  fl_attrs (float_filter (float_train convert_new attrs)) =
  concat (map (λ a, map (λ n, (a, n)) (float_columns a)) attrs).
Proof. exact (λ attrs, float_converted attrs convert_new). Qed.
Print Assumptions C30_float_columns.

Theorem C30_binary_columns : ∀ attrs,
  fl_attrs (binary_filter (binary_train convert_new attrs)) =
  concat (map (λ a, map (λ n, (a, n)) (binary_columns a)) attrs).
Proof. exact (λ attrs, binary_converted attrs convert_new). Qed.
Print Assumptions C30_binary_columns.

(** With more than two values: column [i] (of the value [v]) is 1 for the code
    [c] exactly when [i = c]. *)
Theorem C30_float_one_hot : ∀ attrs n vs i c v,
  CatA n vs ∈ attrs → NoDup vs → 2 < length vs → (N.of_nat (length vs) < 2^64)%N →
  vs !! i = Some v → c < length vs →
  fl_transform (float_filter (float_train convert_new attrs)) (CatA n vs)
    (FloatA (n +:+ "_" +:+ v) 2) (pack_u64 (N.of_nat c)) =
  Ok (pack_float (if decide (i = c) then float_one else float_zero)).
Proof. exact float_one_hot. Qed.
Print Assumptions C30_float_one_hot.

Theorem C30_binary_one_hot : ∀ attrs n vs i c v,
  CatA n vs ∈ attrs → NoDup vs → 2 < length vs → (N.of_nat (length vs) < 2^64)%N →
  vs !! i = Some v → c < length vs →
  fl_transform (binary_filter (binary_train convert_new attrs)) (CatA n vs)
    (BinA (n +:+ "_" +:+ v)) (pack_u64 (N.of_nat c)) =
  Ok [if decide (i = c) then 1%N else 0%N].
Proof. exact binary_one_hot. Qed.
Print Assumptions C30_binary_one_hot.

(** With at most two values: 0 for the first and 1 for the second. *)
Theorem C30_float_two_valued : ∀ attrs n vs c m,
  CatA n vs ∈ attrs → length vs ≤ 2 → (c < 2^64)%N →
  fl_transform (float_filter (float_train convert_new attrs)) (CatA n vs) m (pack_u64 c) =
  Ok (pack_float (if decide (c = 0%N) then float_zero else float_one)).
Proof. exact float_two. Qed.
Print Assumptions C30_float_two_valued.

Theorem C30_binary_two_valued : ∀ attrs n vs c m,
  CatA n vs ∈ attrs → length vs ≤ 2 → (c < 2^64)%N →
  fl_transform (binary_filter (binary_train convert_new attrs)) (CatA n vs) m (pack_u64 c) =
  Ok [if decide (c = 0%N) then 0%N else 1%N].
Proof. exact binary_two. Qed.
Print Assumptions C30_binary_two_valued.

(** Binary attributes: passed through, or as the floats 0 and 1; floats are
    passed through by the float filter. *)
Theorem C30_binary_passes_through : ∀ attrs n m b,
  fl_transform (binary_filter (binary_train convert_new attrs)) (BinA n) m b = Ok b.
Proof. reflexivity. Qed.

Theorem C30_float_passes_through : ∀ attrs n p m b,
  fl_transform (float_filter (float_train convert_new attrs)) (FloatA n p) m b = Ok b.
Proof. reflexivity. Qed.

Theorem C30_float_of_binary : ∀ attrs n m b,
  fl_transform (float_filter (float_train convert_new attrs)) (BinA n) m [b] =
  Ok (pack_float (if decide (b = 0%N) then float_zero else float_one)).
Proof. exact float_of_binary. Qed.
Print Assumptions C30_float_of_binary.

(** The two constants are the numbers 0 and 1. *)
Theorem C30_constants : B2R 53 1024 float_one = 1%R ∧ B2R 53 1024 float_zero = 0%R.
Proof.
  split; rewrite <- FF2R_B2FF; vm_compute B2FF; [|reflexivity].
  unfold FF2R, Defs.F2R. cbn -[IZR]. change (IZR _) with 4503599627370496%R at 1.
  match goal with |- context [(/ IZR ?z)%R] => change z with 4503599627370496%Z end. lra.
Qed.
Print Assumptions C30_constants.

Example C30_ex :
  float_columns fi_k = [FloatA "k_r" 2; FloatA "k_s" 2; FloatA "k_t" 2] ∧
  map (λ n, float_transform (float_train convert_new [fi_c; fi_k]) fi_k n (pack_u64 1))
    (float_columns fi_k) = [Ok fi_0; Ok fi_1; Ok fi_0] ∧
  map (λ n, binary_transform (binary_train convert_new [fi_c; fi_k]) fi_k n (pack_u64 2))
    (binary_columns fi_k) = [Ok [0]; Ok [0]; Ok [1]]%N ∧
  binary_transform (binary_train convert_new [fi_c; fi_k]) fi_c (BinA "c") (pack_u64 1) = Ok [1%N].
Proof. vm_compute. done. Qed.

(** ** C31 *)

(** -1 is not zero but becomes 0. *)
Theorem C31_nonzero_refuted : ∃ attrs n p x,
  FloatA n p ∈ attrs ∧
  Bcompare 53 1024 x float_zero ≠ Some Eq ∧
  fl_transform (binary_filter (binary_train convert_new attrs)) (FloatA n p) (BinA n)
    (pack_float x) = Ok [0%N].
Proof.
  exists [fi_x], "x", 2, (b64_of_bits 0xBFF0000000000000). split; [left|]. vm_compute. done.
Qed.
Print Assumptions C31_nonzero_refuted.

(** What holds: 1 exactly for the values above zero.  Missing, since false:
    negative numbers and NaN. *)
Theorem C31_positive_partial : ∀ attrs n p m x,
  fl_transform (binary_filter (binary_train convert_new attrs)) (FloatA n p) m (pack_float x) =
  Ok [match Bcompare 53 1024 x float_zero with Some Gt => 1%N | _ => 0%N end].
Proof. exact (λ attrs, binary_float_positive (binary_train convert_new attrs)). Qed.
Print Assumptions C31_positive_partial.

Example C31_ex :
  binary_transform (binary_train convert_new [fi_x]) fi_x (BinA "x") fi_2 = Ok [1%N] ∧
  binary_transform (binary_train convert_new [fi_x]) fi_x (BinA "x") fi_0 = Ok [0%N].
Proof. vm_compute. done. Qed.

(** ** C32 *)

(** Training finds the least and the greatest value. *)
Theorem C32_train : ∀ column mn mx,
  binning_train column = (Some mn, Some mx) →
  mn ∈ column ∧ mx ∈ column ∧ ∀ v, v ∈ column → (mn <= v <= mx)%R.
Proof. exact binning_train_spec. Qed.
Print Assumptions C32_train.

Theorem C32_train_total : ∀ column, column ≠ [] →
  ∃ mn mx, binning_train column = (Some mn, Some mx).
Proof. exact binning_train_total. Qed.
Print Assumptions C32_train_total.

Theorem C32_monotone : ∀ mn mx bins v1 v2,
  (mn < mx)%R → 0 < bins → (v1 <= v2)%R →
  (binning_transform mn mx bins v1 <= binning_transform mn mx bins v2)%Z.
Proof. exact binning_mono. Qed.
Print Assumptions C32_monotone.

Theorem C32_minimum : ∀ mn mx bins v, (v <= mn)%R → binning_transform mn mx bins v = 0%Z.
Proof. exact binning_min. Qed.
Print Assumptions C32_minimum.

Theorem C32_range : ∀ mn mx bins v,
  (mn < mx)%R → 0 < bins → (mn <= v <= mx)%R →
  (0 <= binning_transform mn mx bins v <= Z.of_nat bins)%Z.
Proof. exact binning_range. Qed.
Print Assumptions C32_range.

(** The bins have equal width, up to the tolerance of a ten-thousandth. *)
Theorem C32_equal_width : ∀ mn mx bins v k,
  (mn < mx)%R → 0 < bins → (mn < v)%R →
  let delta := ((mx - mn) / INR bins)%R in
  (binning_transform mn mx bins v = k ↔
   mn + (IZR k - 1 / 10000) * delta <= v < mn + (IZR k + 1 - 1 / 10000) * delta)%R.
Proof. exact binning_bin. Qed.
Print Assumptions C32_equal_width.

Example C32_ex :
  binning_train [3; 1; 5]%R = (Some 1, Some 5)%R ∧
  binning_transform 1 5 4 (5 / 2)%R = 1%Z ∧ binning_transform 1 5 4 5 = 4%Z.
Proof. exact binning_example. Qed.

(** ** C33 *)

(** One merge: class totals, boundaries (those kept are some of the old ones, in
    order, and the first stays) and the number of intervals. *)
Theorem C33_merge_step : ∀ freq i, i + 1 < length freq →
  ∃ freq', merge_adjacent freq i = Ok freq' ∧
    (∀ c, class_total freq' c = class_total freq c) ∧
    map fe_value freq' `sublist_of` map fe_value freq ∧
    fe_value <$> head freq' = fe_value <$> head freq ∧
    length freq' + 1 = length freq.
Proof. exact merge_step. Qed.
Print Assumptions C33_merge_step.

Lemma rows_asked minrows maxrows : chi_minrows minrows = Nat.max 2 minrows ∧
  chi_maxrows minrows maxrows = Nat.max maxrows (S (Nat.max 2 minrows)).
Proof.
  assert (chi_minrows minrows = Nat.max 2 minrows) as E.
  { unfold chi_minrows. destruct (2 <=? minrows) eqn:H; [apply Nat.leb_le in H|apply Nat.leb_gt in H]; lia. }
  split; [done|]. unfold chi_maxrows. rewrite E.
  destruct (_ <? maxrows) eqn:H; [apply Nat.ltb_lt in H|apply Nat.ltb_ge in H]; lia.
Qed.

(** The whole procedure, for every statistic and significance test: it ends, and
    conserves the same. *)
Theorem C33_chi_merge : ∀ show stat significant inst a minrows maxrows freq,
  build_freq show a inst = Ok freq →
  ∃ freq', chi_merge show stat significant inst a minrows maxrows = Ok freq' ∧
    merged freq freq' ∧ length freq' ≤ Nat.max maxrows (S (Nat.max 2 minrows)) ∧
    (boundaries_increase freq → boundaries_increase freq').
Proof.
  intros show stat significant inst a minrows maxrows. destruct (rows_asked minrows maxrows) as [_ <-].
  apply chi_merge_spec.
Qed.
Print Assumptions C33_chi_merge.

(** The pairs merged in one round are exactly those of least statistic. *)
Theorem C33_least_statistic : ∀ stat freq, 2 ≤ length freq →
  ∃ m l, min_indexes stat freq = Ok (Some m, l) ∧ l ≠ [] ∧ StronglySorted lt l ∧
    (∀ i, i + 1 < length freq → (m <= stat_at stat freq i)%Q) ∧
    ∀ i, i ∈ l ↔ i + 1 < length freq ∧ (stat_at stat freq i == m)%Q.
Proof. exact min_indexes_spec. Qed.
Print Assumptions C33_least_statistic.

(** On data iterated in ascending order of the values, the boundaries of the first
    table increase. *)
Theorem C33_start_increases : ∀ show g n p s val cls,
  iter_in_order g → gr_get_attribute g (FloatA n p) = Ok s →
  (∀ i, i < (gr_size g).2 → gr_get g s i = Ok (pack_float (val i)) ∧ is_nan 53 1024 (val i) = false) →
  (∀ i, i < (gr_size g).2 → get_class show g i = Ok (cls i)) →
  (∀ i j, i ≤ j → j < (gr_size g).2 → float_lt (val j) (val i) = false) →
  ∃ freq, build_freq show (FloatA n p) g = Ok freq ∧ boundaries_increase freq.
Proof. exact build_freq_increase. Qed.
Print Assumptions C33_start_increases.

Definition fi_f (z : Z) (u v : nat) : freq_entry := Freq (b64_of_bits z) {["u" := u; "v" := v]}.
Definition fi_table : list freq_entry :=
  [fi_f 0 1 2; fi_f 0x3FF0000000000000 3 4; fi_f 0x4000000000000000 5 6; fi_f 0x4008000000000000 7 8].
Definition fi_stat (a b : freq_entry) : Q :=
  inject_Z (Z.of_nat (default 0 (fe_freq b !! "u") - default 0 (fe_freq a !! "u"))%nat).
Definition fi_view (t : list freq_entry) : list (N * option nat * option nat) :=
  map (λ e, (float64bits (fe_value e), fe_freq e !! "u", fe_freq e !! "v")) t.
Example C33_ex :
  (∃ t, chi_loop fi_stat (λ _, false) 4 2 3 fi_table = Ok t ∧ fi_view t = [(0%N, Some 16, Some 20)]) ∧
  (∃ t, merge_adjacent fi_table 1 = Ok t ∧
     fi_view t = [(0%N, Some 1, Some 2); (0x3FF0000000000000%N, Some 8, Some 10);
                  (0x4008000000000000%N, Some 7, Some 8)]).
Proof. split; eexists; (split; [reflexivity|]); vm_compute; reflexivity. Qed.

(** ** C34 *)

(** The result is the last interval whose boundary is below the value, or 0. *)
Theorem C34_transform : ∀ tables a n table val,
  List.find (λ p, bool_decide (p.1 = a)) tables = Some (a, table) →
  boundaries_increase table → table ≠ [] →
  ∃ d, chi_transform tables a n (pack_float val) = Ok (pack_u64 (N.of_nat d)) ∧
    d < length table ∧
    (∀ j e, table !! j = Some e → Bcompare 53 1024 (fe_value e) val = Some Lt → j ≤ d) ∧
    (d = 0 ∨ ∃ e, table !! d = Some e ∧ Bcompare 53 1024 (fe_value e) val = Some Lt).
Proof. exact chi_transform_spec. Qed.
Print Assumptions C34_transform.

Theorem C34_monotone : ∀ tables a n table v1 v2 d1 d2,
  List.find (λ p, bool_decide (p.1 = a)) tables = Some (a, table) →
  is_nan 53 1024 v2 = false → Bcompare 53 1024 v2 v1 ≠ Some Lt →
  (N.of_nat (length table) < 2^64)%N → (d1 < 2^64)%N → (d2 < 2^64)%N →
  chi_transform tables a n (pack_float v1) = Ok (pack_u64 d1) →
  chi_transform tables a n (pack_float v2) = Ok (pack_u64 d2) → (d1 ≤ d2)%N.
Proof. exact chi_transform_mono. Qed.
Print Assumptions C34_monotone.

Example C34_ex :
  boundaries_increase fi_table ∧
  chi_transform [(fi_x, fi_table)] fi_x fi_c fi_2 = Ok (pack_u64 1) ∧
  chi_transform [(fi_x, fi_table)] fi_x fi_c fi_0 = Ok (pack_u64 0) ∧
  chi_transform [(fi_x, fi_table)] fi_x fi_c [0;0;0;0;0;0;0;65]%N = Ok (pack_u64 3).
Proof.
  split; [|vm_compute; done].
  repeat (constructor; [|repeat (constructor; [vm_compute; reflexivity|]); constructor]). constructor.
Qed.

(** ** C73 *)

(** Trained on the rows (2, u) and (1, v) the filter counts a v for the value 2,
    which no row has: Train iterates over a lazily sorted view, whose iteration
    shows the values of the unsorted rows. *)
Theorem C73_counts_refuted : ∃ train n p val cls co ro,
  iter_in_order train ∧
  (∀ i, i < (gr_size train).2 → ∃ s, gr_get_attribute train (FloatA n p) = Ok s ∧
     gr_get train s i = Ok (pack_float (val i))) ∧
  (∀ i, i < (gr_size train).2 → get_class fi_show train i = Ok (cls i)) ∧
  ∀ stat significant, ∃ freq e c,
    chi_train fi_show stat significant co ro train (FloatA n p) 2 3 = Ok freq ∧ e ∈ freq ∧
    default 0 (fe_freq e !! c) ≠ rows_with (gr_size train).2 val cls (fe_value e) c.
Proof.
  exists fi_grid, "x", 2, (λ i, if i =? 0 then b64_of_bits 0x4000000000000000 else float_one),
    (λ i, if i =? 0 then "u" else "v"), (λ l, l), (λ l, l).
  split; [apply dense_grid_in_order|]. change (gr_size fi_grid).2 with 2. split; [|split].
  - intros i Hi. exists fi_sx. split; [vm_compute; reflexivity|].
    destruct i as [|[|i]]; [vm_compute; reflexivity..|lia].
  - intros i Hi. destruct i as [|[|i]]; [vm_compute; reflexivity..|lia].
  - intros stat significant.
    eexists _, _, "v". split; [vm_compute; reflexivity|]. split; [left|]. vm_compute. done.
Qed.
Print Assumptions C73_counts_refuted.

(** On any data whose iteration agrees with reading (so not on the view that Train
    makes) the table holds, for each value, the rows of each class with that value,
    and every row's value has exactly one entry; merging conserves it (C33). *)
Theorem C73_counts_partial : ∀ show g n p s val cls,
  iter_agrees g → gr_get_attribute g (FloatA n p) = Ok s →
  (∀ i, i < (gr_size g).2 → gr_get g s i = Ok (pack_float (val i)) ∧ is_nan 53 1024 (val i) = false) →
  (∀ i, i < (gr_size g).2 → get_class show g i = Ok (cls i)) →
  ∃ freq, build_freq show (FloatA n p) g = Ok freq ∧
    (∀ e c, e ∈ freq → default 0 (fe_freq e !! c) =
       rows_with (gr_size g).2 val cls (fe_value e) c) ∧
    (∀ i, i < (gr_size g).2 → ∃ k e, freq !! k = Some e ∧
       Bcompare 53 1024 (fe_value e) (val i) = Some Eq ∧
       ∀ k' e', freq !! k' = Some e' → Bcompare 53 1024 (fe_value e') (val i) = Some Eq → k' = k).
Proof. exact build_freq_rows. Qed.
Print Assumptions C73_counts_partial.

Example C73_ex : ∃ t,
  build_freq fi_show fi_x fi_grid = Ok t ∧
  fi_view t = [(0x4000000000000000%N, Some 1, None); (0x3FF0000000000000%N, None, Some 1)].
Proof. eexists. split; [reflexivity|]. vm_compute. reflexivity. Qed.

(** ** C74 *)

(** Making the expanded attribute k a class adds its three columns to the class
    attributes; removing it again takes only one away. *)
Theorem C74_remove_undoes_add_refuted : ∃ l c l1 l2 a,
  lf_add_class l c = Ok l1 ∧ lf_remove_class l1 c = Ok l2 ∧
  a ∈ lf_class l2 ∧ a ∉ lf_class l.
Proof.
  exists fi_float, fi_k. eexists _, _, (FloatA "k_s" 2). split; [reflexivity|].
  split; [reflexivity|]. split.
  - eapply bool_decide_eq_true_1. vm_compute. reflexivity.
  - eapply bool_decide_eq_true_1. vm_compute. reflexivity.
Qed.
Print Assumptions C74_remove_undoes_add_refuted.

(** It does undo it when at most one filtered attribute matches. *)
Theorem C74_remove_undoes_add_partial : ∀ l c l1,
  NoDup (lf_class l) →
  (∀ p q, p ∈ fl_attrs (lf_filter l) → q ∈ fl_attrs (lf_filter l) →
     (attr_equals p.1 c || attr_equals p.2 c) = true →
     (attr_equals q.1 c || attr_equals q.2 c) = true → p.2 = q.2) →
  lf_add_class l c = Ok l1 →
  ∃ l2 n, lf_remove_class l1 c = Ok l2 ∧
    (∀ a, a ∈ lf_class l1 ↔ a = n ∨ a ∈ lf_class l) ∧
    (∀ a, a ∈ lf_class l2 ↔ a ≠ n ∧ a ∈ lf_class l).
Proof. exact lf_remove_add. Qed.
Print Assumptions C74_remove_undoes_add_partial.

Example C74_ex : ∃ l1 l2,
  lf_add_class fi_float fi_x = Ok l1 ∧ lf_remove_class l1 fi_x = Ok l2 ∧
  lf_class fi_float = [fi_c] ∧ lf_class l1 = [fi_c; fi_x] ∧ lf_class l2 = [fi_c].
Proof.
  eexists _, _. split; [reflexivity|]. split; [reflexivity|]. repeat split; vm_compute; reflexivity.
Qed.
