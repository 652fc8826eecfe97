(** Properties C175 and C176: data converted to numbers or to ones and zeros. *)
From Verif Require Import Prelude BytesModel FloatModel AttrModel StoreModel DenseModel DenseSpec DenseCheck GridModel GridSpec
  SortModel FilterModel FilterSpec FilterProofs ConvProofs.
From Flocq Require Import IEEE754.Bits IEEE754.Binary.
Local Open Scope nat_scope.

(** ** C175 *)

(** If every attribute is converted and the names of all new columns differ, each new
    column can be looked up and shows the values of the attribute it was made of. *)
Theorem C175_float_partial : ∀ src attrs a new os row,
  (∀ b, b ∈ gr_all_attrs src → b ∈ attrs) → NoDup (map attr_name (concat (map float_columns attrs))) →
  a ∈ attrs → new ∈ float_columns a → gr_get_attribute src a = Ok os → sp_attr os = a →
  let f := float_filter (float_train convert_new attrs) in let l := new_lfiltered src f in
  ∃ s, lf_get_attribute l new = Ok s ∧ sp_attr s = new ∧ lf_get l s row = (b ← gr_get src os row; fl_transform f a new b).
Proof. exact float_own. Qed.
Print Assumptions C175_float_partial.

Theorem C175_binary_partial : ∀ src attrs a new os row,
  (∀ b, b ∈ gr_all_attrs src → b ∈ attrs) → NoDup (map attr_name (concat (map binary_columns attrs))) →
  a ∈ attrs → new ∈ binary_columns a → gr_get_attribute src a = Ok os → sp_attr os = a →
  let f := binary_filter (binary_train convert_new attrs) in let l := new_lfiltered src f in
  ∃ s, lf_get_attribute l new = Ok s ∧ sp_attr s = new ∧ lf_get l s row = (b ← gr_get src os row; fl_transform f a new b).
Proof. exact binary_own. Qed.
Print Assumptions C175_binary_partial.

(** In particular a row shows a one in the column of its own value, and zeros in the
    columns of the other values. *)
Theorem C175_float_one_hot_partial : ∀ src attrs n vs os row c i v,
  (∀ b, b ∈ gr_all_attrs src → b ∈ attrs) → NoDup (map attr_name (concat (map float_columns attrs))) →
  CatA n vs ∈ attrs → NoDup vs → 2 < length vs → (N.of_nat (length vs) < 2^64)%N →
  gr_get_attribute src (CatA n vs) = Ok os → sp_attr os = CatA n vs →
  gr_get src os row = Ok (pack_u64 (N.of_nat c)) → c < length vs → vs !! i = Some v →
  let l := new_lfiltered src (float_filter (float_train convert_new attrs)) in
  ∃ s, lf_get_attribute l (FloatA (n +:+ "_" +:+ v) 2) = Ok s ∧
    lf_get l s row = Ok (pack_float (if decide (i = c) then float_one else float_zero)).
Proof.
  intros src attrs n vs os row c i v Hall Hnd Ha Hvs Hl Hb Hos Ea Hg Hc Hi l.
  destruct (float_own src attrs (CatA n vs) (FloatA (n +:+ "_" +:+ v) 2) os row Hall Hnd Ha) as (s & Hs & _ & Hget); [|done|done|].
  { cbn. destruct (decide (length vs ≤ 2)); [lia|]. apply elem_of_list_In, in_map_iff. exists v. split; [done|].
    apply elem_of_list_In. by eapply elem_of_list_lookup_2. }
  exists s. split; [done|]. unfold l. rewrite Hget, Hg. cbn [mbind res_bind]. by apply float_one_hot.
Qed.
Print Assumptions C175_float_one_hot_partial.

Theorem C175_binary_one_hot_partial : ∀ src attrs n vs os row c i v,
  (∀ b, b ∈ gr_all_attrs src → b ∈ attrs) → NoDup (map attr_name (concat (map binary_columns attrs))) →
  CatA n vs ∈ attrs → NoDup vs → 2 < length vs → (N.of_nat (length vs) < 2^64)%N →
  gr_get_attribute src (CatA n vs) = Ok os → sp_attr os = CatA n vs →
  gr_get src os row = Ok (pack_u64 (N.of_nat c)) → c < length vs → vs !! i = Some v →
  let l := new_lfiltered src (binary_filter (binary_train convert_new attrs)) in
  ∃ s, lf_get_attribute l (BinA (n +:+ "_" +:+ v)) = Ok s ∧
    lf_get l s row = Ok [if decide (i = c) then 1%N else 0%N].
Proof.
  intros src attrs n vs os row c i v Hall Hnd Ha Hvs Hl Hb Hos Ea Hg Hc Hi l.
  destruct (binary_own src attrs (CatA n vs) (BinA (n +:+ "_" +:+ v)) os row Hall Hnd Ha) as (s & Hs & _ & Hget); [|done|done|].
  { cbn. destruct (decide (length vs ≤ 2)); [lia|]. apply elem_of_list_In, in_map_iff. exists v. split; [done|].
    apply elem_of_list_In. by eapply elem_of_list_lookup_2. }
  exists s. split; [done|]. unfold l. rewrite Hget, Hg. cbn [mbind res_bind]. by apply binary_one_hot.
Qed.
Print Assumptions C175_binary_one_hot_partial.

(** A table of two categorical attributes with one row, holding the codes given. *)
Definition v_history (a b : attr) (ca cb : N) : list dop :=
  [DAdd a; DAdd b; DExtend 1; DSet (Spec 0 0 a) 0 (pack_u64 ca); DSet (Spec 0 1 b) 0 (pack_u64 cb)].
Definition v_dense (a b : attr) (ca cb : N) : dense :=
  match dense_run 64 dense_new (v_history a b ca cb) with Ok d => d | _ => dense_new end.
Definition v_grid (a b : attr) (ca cb : N) : grid := dense_grid [] (v_dense a b ca cb).
Definition v_k : attr := CatA "k" ["r"; "s"; "t"].
Definition v_m : attr := CatA "m" ["r"; "s"; "t"].

Example C175_ex :
  let g := v_grid v_k v_m 1 2 in let l := new_lfiltered g (binary_filter (binary_train convert_new [v_k; v_m])) in
  gr_all_attrs g = [v_k; v_m] ∧ NoDup (map attr_name (concat (map binary_columns [v_k; v_m]))) ∧
  NoDup (map attr_name (concat (map float_columns [v_k; v_m]))) ∧
  gr_get_attribute g v_m = Ok (Spec 0 1 v_m) ∧ gr_get g (Spec 0 1 v_m) 0 = Ok (pack_u64 2) ∧
  map (λ n, s ← lf_get_attribute l n; lf_get l s 0) (lf_all_attrs l) =
    [Ok [0]; Ok [1]; Ok [0]; Ok [0]; Ok [0]; Ok [1]]%N.
Proof.
  cbv zeta. split; [vm_compute; reflexivity|]. split; [apply (bool_decide_eq_true_1 (NoDup _)); vm_compute; reflexivity|].
  split; [apply (bool_decide_eq_true_1 (NoDup _)); vm_compute; reflexivity|].
  split; [vm_compute; reflexivity|]. split; vm_compute; reflexivity.
Qed.

(** Names may agree: the value b_c of a and the value c of a_b both make a column a_b_c.
    A row with the value c for a_b then shows a zero in the column of that value. *)
Definition v_a : attr := CatA "a" ["b_c"; "x"; "y"].
Definition v_ab : attr := CatA "a_b" ["c"; "p"; "q"].
Theorem C175_names_refuted : ∃ h d os,
  let g := dense_grid [] d in let l := new_lfiltered g (binary_filter (binary_train convert_new [v_a; v_ab])) in
  reachable 64 h d ∧ gr_all_attrs g = [v_a; v_ab] ∧ gr_get_attribute g v_ab = Ok os ∧
  (b ← gr_get g os 0; attr_decode (λ _ _, "") v_ab b) = Ok "c" ∧
  ∃ s, lf_get_attribute l (BinA "a_b_c") = Ok s ∧ lf_get l s 0 = Ok [0%N].
Proof.
  exists (v_history v_a v_ab 1 0), (v_dense v_a v_ab 1 0), (Spec 0 1 v_ab). cbv zeta.
  split; [apply check_reachable; vm_compute; reflexivity|]. split; [vm_compute; reflexivity|].
  split; [vm_compute; reflexivity|]. split; [vm_compute; reflexivity|].
  exists (Spec 0 0 (BinA "a_b_c")). split; vm_compute; reflexivity.
Qed.
Print Assumptions C175_names_refuted.

(** ** C176 *)

(** Training again lists every column a second time. *)
Theorem C176_columns : ∀ attrs,
  fl_attrs (float_filter (float_train (float_train convert_new attrs) attrs)) =
    fl_attrs (float_filter (float_train convert_new attrs)) ++ fl_attrs (float_filter (float_train convert_new attrs)) ∧
  fl_attrs (binary_filter (binary_train (binary_train convert_new attrs) attrs)) =
    fl_attrs (binary_filter (binary_train convert_new attrs)) ++ fl_attrs (binary_filter (binary_train convert_new attrs)).
Proof.
  intros attrs. unfold float_filter, binary_filter. cbn [fl_attrs].
  rewrite !float_converted, !binary_converted. done.
Qed.
Print Assumptions C176_columns.

(** It does not change how values are converted. *)
Theorem C176_transform : ∀ attrs a new b, a ∈ attrs →
  fl_transform (float_filter (float_train (float_train convert_new attrs) attrs)) a new b =
    fl_transform (float_filter (float_train convert_new attrs)) a new b ∧
  fl_transform (binary_filter (binary_train (binary_train convert_new attrs) attrs)) a new b =
    fl_transform (binary_filter (binary_train convert_new attrs)) a new b.
Proof.
  intros attrs a new b Ha. rewrite float_again, binary_again. cbn [float_filter binary_filter fl_transform].
  split; [apply float_transform_set|apply binary_transform_set]; try (apply elem_of_app; by left).
  - intros x. rewrite elem_of_app. naive_solver.
  - intros x. rewrite elem_of_app. naive_solver.
Qed.
Print Assumptions C176_transform.

(** Nor does the order in which attributes were added. *)
Theorem C176_order : ∀ attrs attrs' a new b, attrs ≡ₚ attrs' → a ∈ attrs →
  fl_transform (float_filter (float_train convert_new attrs)) a new b =
    fl_transform (float_filter (float_train convert_new attrs')) a new b ∧
  fl_transform (binary_filter (binary_train convert_new attrs)) a new b =
    fl_transform (binary_filter (binary_train convert_new attrs')) a new b.
Proof.
  intros attrs attrs' a new b E Ha. cbn [float_filter binary_filter fl_transform].
  split; [apply float_transform_set|apply binary_transform_set]; try done; intros x; by rewrite E.
Qed.
Print Assumptions C176_order.

(** So data converted with a filter trained twice has twice the columns. *)
Theorem C176_again_refuted : ∃ h d attrs,
  let g := dense_grid [] d in
  reachable 64 h d ∧ gr_all_attrs g = attrs ∧
  lf_all_attrs (new_lfiltered g (float_filter (float_train convert_new attrs))) =
    [FloatA "k_r" 2; FloatA "k_s" 2; FloatA "k_t" 2; FloatA "m_r" 2; FloatA "m_s" 2; FloatA "m_t" 2] ∧
  length (lf_all_attrs (new_lfiltered g (float_filter (float_train (float_train convert_new attrs) attrs)))) = 12.
Proof.
  exists (v_history v_k v_m 1 2), (v_dense v_k v_m 1 2), [v_k; v_m]. cbv zeta.
  split; [apply check_reachable; vm_compute; reflexivity|]. split; [vm_compute; reflexivity|].
  split; vm_compute; reflexivity.
Qed.
Print Assumptions C176_again_refuted.

Example C176_ex : v_k ∈ [v_k; v_m] ∧ [v_k; v_m] ≡ₚ [v_m; v_k] ∧
  fl_transform (binary_filter (binary_train (binary_train convert_new [v_k; v_m]) [v_k; v_m])) v_k (BinA "k_s") (pack_u64 1) = Ok [1%N] ∧
  length (fl_attrs (binary_filter (binary_train (binary_train convert_new [v_k; v_m]) [v_k; v_m]))) = 12.
Proof. split; [left|]. split; [apply Permutation_swap|]. split; vm_compute; reflexivity. Qed.
