(** Properties C169-C171: equal-width binning in binary64. *)
From stdpp Require Import pretty.
From Coq Require Import Reals Lra.
From Verif Require Import Prelude BytesModel FloatModel FloatProofs AttrModel StoreModel DenseModel DenseSpec DenseCheck
  GridModel GridSpec FilterModel CartModel CartFit IsoModel DiscModel DiscSpec DiscFloat DiscProofs.
From Flocq Require Import IEEE754.BinarySingleNaN IEEE754.Bits IEEE754.Binary.
Local Open Scope nat_scope.

Notation finite := (is_finite 53 1024).
Notation num := (B2R 53 1024).

(** The table of the examples: a column x without decimals, holding 0 and 1. *)
Definition dx : attr := FloatA "x" 0.
Definition dx2 : attr := FloatA "x" 2.
Definition d_spec : spec := Spec 0 0 dx.
Definition d_zero : binary64 := b64_of_bits 0.
Definition d_one : binary64 := b64_of_bits 0x3FF0000000000000.
Definition d_two : binary64 := b64_of_bits 0x4000000000000000.
Definition d_history : list dop := [DAdd dx; DExtend 2; DSet d_spec 0 (pack_float d_zero); DSet d_spec 1 (pack_float d_one)].
Definition d_dense : dense := match dense_run 64 dense_new d_history with Ok d => d | _ => dense_new end.
Definition d_grid : grid := dense_grid [] d_dense.
Definition d_filter (a : attr) (bins : Z) : binning :=
  match res_foldl add_attribute (new_binning d_grid bins) [a] with Ok b => b | _ => new_binning d_grid bins end.
Definition d_trained (a : attr) (bins : Z) : binning :=
  match bin_train (d_filter a bins) [a] with Ok b => b | _ => new_binning d_grid bins end.

Lemma d_reachable : reachable 64 d_history d_dense.
Proof. apply check_reachable. vm_compute. reflexivity. Qed.

Lemma d_is_trained : trained d_grid 4 [dx] [dx] (d_trained dx 4) ∧ trained d_grid 4 [dx2] [dx2] (d_trained dx2 4).
Proof.
  split.
  - exists (d_filter dx 4). split; [apply take_ok; vm_compute; reflexivity|]. split; [|apply take_ok; vm_compute; reflexivity].
    replace (bn_attrs (d_filter dx 4)) with [dx] by (vm_compute; reflexivity). done.
  - exists (d_filter dx2 4). split; [apply take_ok; vm_compute; reflexivity|]. split; [|apply take_ok; vm_compute; reflexivity].
    replace (bn_attrs (d_filter dx2 4)) with [dx2] by (vm_compute; reflexivity). done.
Qed.

(** ** C169 *)

(** On a table whose columns hold finite numbers, adding the columns and training
    succeeds, in whatever order the map of attributes is visited, and finds the least and
    the greatest number of every column. *)
Theorem C169_train : ∀ g bins attrs vals, iter_agrees g → 0 < (gr_size g).2 →
  (∀ a, a ∈ attrs → (∃ n p, a = FloatA n p) ∧ holds_column g a (vals a)) →
  ∃ b0, res_foldl add_attribute (new_binning g bins) attrs = Ok b0 ∧
  ∀ order, order ≡ₚ bn_attrs b0 → ∃ b, trained g bins attrs order b ∧
    ∀ a, a ∈ attrs → extremes (gr_size g).2 (vals a) (bn_min b a) (bn_max b a).
Proof. exact training_succeeds. Qed.
Print Assumptions C169_train.

Example C169_train_ex :
  float64bits (bn_min (d_trained dx 4) dx) = 0%N ∧ float64bits (bn_max (d_trained dx 4) dx) = 0x3FF0000000000000%N.
Proof. vm_compute. done. Qed.

(** The bin is one of the [bins + 1] bins for every number up to the greatest, does not
    decrease, and is the exact one up to about a ten-thousandth of a width: the number
    lies [k] widths above the least number, less than 0.00011, and below [k + 1] widths.
    Missing: ranges below 2^-900 or from 2^1023 on; see the refutation below. *)
Theorem C169_bins_partial : ∀ wild mn mx bins, sane_range mn mx → (1 <= bins <= 1000000000)%Z →
  (∀ v, finite v = true → (num v <= num mx)%R → (0 <= bin_of wild mn mx bins v <= bins)%Z) ∧
  (∀ u v, finite u = true → finite v = true → (num u <= num v <= num mx)%R →
    (bin_of wild mn mx bins u <= bin_of wild mn mx bins v)%Z) ∧
  (∀ v, finite v = true → (num mn <= num v <= num mx)%R →
    (IZR (bin_of wild mn mx bins v) - 11 / 100000 <= widths_above mn mx bins v
       < IZR (bin_of wild mn mx bins v) + 1 - 9 / 100000)%R).
Proof. exact sane_bins. Qed.
Print Assumptions C169_bins_partial.

Definition d_tenth : binary64 := b64_of_bits 0x3FB999999999999A.
Example C169_bins_ex :
  map (bin_of (λ _, (-1)%Z) d_zero d_one 10) (map float_of_Z [0; 1]%Z ++ [d_tenth]) = [0; 10; 1]%Z.
Proof. vm_compute. done. Qed.

Example C169_sane_ex : sane_range d_zero d_one.
Proof.
  split; [reflexivity|]. split; [reflexivity|]. destruct CartFit.one_exact as [_ H1]. change (num d_one = 1%R) in H1. rewrite H1.
  change (num d_zero) with 0%R. replace (1 - 0)%R with 1%R by lra. split.
  - rewrite <- Rinv_1. apply Rinv_le_contravar; [lra|]. apply IZR_le. done.
  - apply IZR_lt. done.
Qed.

(** Numbers from the least on down go to bin 0, whatever the range. *)
Theorem C169_below : ∀ wild mn mx bins v, finite v = true → finite mn = true → (num v <= num mn)%R →
  bin_of wild mn mx bins v = 0%Z.
Proof. intros wild mn mx bins v Fv Fn H. unfold bin_of. by rewrite (proj2 (fin_le v mn Fv Fn) H). Qed.
Print Assumptions C169_below.

Definition d_max : binary64 := b64_of_bits 0x7FEFFFFFFFFFFFFF.

(** In general false: the greatest number of a tiny range goes beyond the last bin, and in
    a range that overflows a number in the upper half goes to the first of two bins. *)
Theorem C169_bins_refuted :
  (∃ mn mx bins, finite mn = true ∧ finite mx = true ∧ (1 <= bins)%Z ∧ (num mn < num mx)%R ∧
     ∀ wild, (bins < bin_of wild mn mx bins mx)%Z) ∧
  (∃ mn mx bins v, finite mn = true ∧ finite mx = true ∧ finite v = true ∧ (1 <= bins)%Z ∧ (num mn <= num v <= num mx)%R ∧
     (1 <= widths_above mn mx bins v)%R ∧ ∀ wild, bin_of wild mn mx bins v = 0%Z).
Proof.
  split.
  - exists d_zero, (b64_of_bits 4), 3%Z. split; [reflexivity|]. split; [reflexivity|]. split; [done|]. split.
    + apply fin_lt; vm_compute; reflexivity.
    + intros wild. assert (bin_of wild d_zero (b64_of_bits 4) 3 (b64_of_bits 4) = 4%Z) as -> by (vm_compute; reflexivity). done.
  - exists (b64_opp d_max), d_max, 2%Z, d_one.
    assert (num (b64_opp d_max) < num d_one < num d_max)%R as H.
    { split; apply fin_lt; vm_compute; reflexivity. }
    assert (num (b64_opp d_max) = - num d_max)%R as Ho.
    { apply B2R_Bopp. }
    assert (0 < num d_one)%R as H1.
    { change 0%R with (num d_zero). apply fin_lt; vm_compute; reflexivity. }
    split; [reflexivity|]. split; [reflexivity|]. split; [reflexivity|]. split; [done|]. split; [lra|]. split.
    + unfold widths_above. rewrite Ho. destruct H as [_ H]. clear Ho. revert H H1. generalize (num d_max), (num d_one).
      intros M v H H1. replace ((M - - M) / 2)%R with M by lra.
      apply Rmult_le_reg_r with M; [lra|]. unfold Rdiv. rewrite Rmult_assoc, Rinv_l, Rmult_1_r by lra. lra.
    + intros wild. vm_compute. reflexivity.
Qed.
Print Assumptions C169_bins_refuted.

(** ** C170 *)

(** When the labels of the bins are all different, every number of a trained column can be
    read after filtering: its label is the text of the lower edge of its bin. *)
Theorem C170_label_partial : ∀ show wild g bins attrs order b name prec field v,
  let a := FloatA name prec in let mn := bn_min b a in let mx := bn_max b a in
  trained g bins attrs order b → a ∈ attrs → a ∈ gr_all_attrs g →
  sane_range mn mx → (1 <= bins <= 1000000000)%Z →
  distinct_labels (λ i, show prec (float64bits (bin_edge mn mx bins i))) bins →
  unpack_float field = Ok v → finite v = true → (num mn <= num v <= num mx)%R →
  ∃ after labels code k, bin_attrs show b = Ok after ∧ (a, CatA name labels) ∈ after ∧
    bin_transform wild b a (CatA name labels) field = Ok code ∧
    attr_decode show (CatA name labels) code = Ok (show prec (float64bits (bin_edge mn mx bins k))) ∧
    k <= Z.to_nat bins ∧ (INR k - 11 / 100000 <= widths_above mn mx bins v < INR k + 1 - 9 / 100000)%R.
Proof. exact label_read. Qed.
Print Assumptions C170_label_partial.

(** The number that the label of bin [k] shows is the lower edge of the bin, up to a few
    roundings.  Missing: numbers beyond 2^1000, where the edge may overflow. *)
Theorem C170_edge_partial : ∀ mn mx bins (k : nat), sane_range mn mx → (1 <= bins <= 1000000000)%Z → (Z.of_nat k <= bins)%Z →
  (Rabs (num mn) <= IZR (2 ^ 1000))%R → (Rabs (num mx) <= IZR (2 ^ 1000))%R →
  finite (bin_edge mn mx bins k) = true ∧
  (Rabs (num (bin_edge mn mx bins k) - (num mn + INR k * ((num mx - num mn) / IZR bins)))
     <= 20 / IZR (2 ^ 53) * (Rabs (num mn) + Rabs (num mx)))%R.
Proof. exact edge_spec. Qed.
Print Assumptions C170_edge_partial.

(** A text for every number. *)
Definition d_show (_ : nat) (bits : N) : string := pretty bits.
Example C170_label_ex :
  (after ← bin_attrs d_show (d_trained dx 4);
   let new := match after with (_, n) :: _ => n | [] => dx end in
   code ← bin_transform (λ _, 0%Z) (d_trained dx 4) dx new (pack_float d_one);
   attr_decode d_show new code) = Ok (d_show 0 (float64bits d_one)).
Proof. vm_compute. reflexivity. Qed.

(** False when two labels agree, as they do for a column of zeros and ones without
    decimals in four bins, where 0 and 0.25 are both written as 0: reading the second row
    of the training data after filtering panics. *)
Theorem C170_label_refuted : ∃ h d b,
  let g := dense_grid [] d in
  reachable 64 h d ∧ trained g 4 [dx] [dx] b ∧ gr_get g d_spec 1 = Ok (pack_float d_one) ∧
  ∀ show wild, show 0 (float64bits d_zero) = show 0 (float64bits (b64_of_bits 0x3FD0000000000000)) →
    ∃ labels code, bin_attrs show b = Ok [(dx, CatA "x" labels)] ∧
      bin_transform wild b dx (CatA "x" labels) (pack_float d_one) = Ok code ∧
      attr_decode show (CatA "x" labels) code = Panic.
Proof.
  exists d_history, d_dense, (d_trained dx 4). split; [exact d_reachable|]. split; [apply d_is_trained|]. split; [vm_compute; reflexivity|].
  intros show wild Hs. exists (bin_labels show 0 (bn_min (d_trained dx 4) dx) (bn_max (d_trained dx 4) dx) 4), (pack_u64 (Z.to_N 4)).
  destruct (trained_keeps _ _ _ _ _ (proj1 d_is_trained)) as (Hf & _ & Hb & Hin).
  assert (gr_all_attrs (bn_train (d_trained dx 4)) = [dx]) as Hall by (vm_compute; reflexivity).
  split; [|split].
  - rewrite bin_attrs_spec by done. rewrite Hall. cbn [map]. rewrite bool_decide_true by (apply Hin; left). unfold dx at 2 3. rewrite Hb. reflexivity.
  - vm_compute. reflexivity.
  - assert (length (bin_labels show 0 (bn_min (d_trained dx 4) dx) (bn_max (d_trained dx 4) dx) 4) ≤ Z.to_nat 4) as Hlen.
    { apply labels_repeat; [done|].
      assert (float64bits (bin_edge (bn_min (d_trained dx 4) dx) (bn_max (d_trained dx 4) dx) 4 0) = float64bits d_zero) as -> by (vm_compute; reflexivity).
      assert (float64bits (bin_edge (bn_min (d_trained dx 4) dx) (bn_max (d_trained dx 4) dx) 4 1) =
        float64bits (b64_of_bits 0x3FD0000000000000)) as -> by (vm_compute; reflexivity). done. }
    revert Hlen. generalize (bin_labels show 0 (bn_min (d_trained dx 4) dx) (bn_max (d_trained dx 4) dx) 4). intros l Hl.
    change (Z.to_nat 4) with 4 in Hl. apply decode_beyond; lia.
Qed.
Print Assumptions C170_label_refuted.

(** Nor can a number be read that exceeds the training data by a width or more. *)
Theorem C170_beyond_refuted : ∃ h d b,
  let g := dense_grid [] d in
  reachable 64 h d ∧ trained g 4 [dx] [dx] b ∧
  ∀ show wild, ∃ labels code, bin_attrs show b = Ok [(dx, CatA "x" labels)] ∧
    bin_transform wild b dx (CatA "x" labels) (pack_float d_two) = Ok code ∧
    attr_decode show (CatA "x" labels) code = Panic.
Proof.
  exists d_history, d_dense, (d_trained dx 4). split; [exact d_reachable|]. split; [apply d_is_trained|].
  intros show wild. exists (bin_labels show 0 (bn_min (d_trained dx 4) dx) (bn_max (d_trained dx 4) dx) 4), (pack_u64 (Z.to_N 8)).
  destruct (trained_keeps _ _ _ _ _ (proj1 d_is_trained)) as (Hf & _ & Hb & Hin).
  assert (gr_all_attrs (bn_train (d_trained dx 4)) = [dx]) as Hall by (vm_compute; reflexivity).
  split; [|split].
  - rewrite bin_attrs_spec by done. rewrite Hall. cbn [map]. rewrite bool_decide_true by (apply Hin; left). unfold dx at 2 3. rewrite Hb. reflexivity.
  - vm_compute. reflexivity.
  - pose proof (labels_length show 0 (bn_min (d_trained dx 4) dx) (bn_max (d_trained dx 4) dx) 4) as Hlen.
    revert Hlen. generalize (bin_labels show 0 (bn_min (d_trained dx 4) dx) (bn_max (d_trained dx 4) dx) 4). intros l Hl.
    change (Z.to_nat (4 + 1)) with 5 in Hl. apply decode_beyond; lia.
Qed.
Print Assumptions C170_beyond_refuted.

(** ** C171 *)

(** AddAttribute takes exactly the numeric attributes that the training data knows. *)
Theorem C171_accepts : ∀ b a,
  (∃ b', add_attribute b a = Ok b') ↔ (∃ n p, a = FloatA n p) ∧ ∃ s, gr_get_attribute (bn_train b) a = Ok s.
Proof.
  intros b a. split.
  - intros (b' & H). apply add_attribute_spec in H. tauto.
  - intros [H1 H2]. eexists. apply add_attribute_spec. eauto.
Qed.
Print Assumptions C171_accepts.

(** A trained filter turns the columns that were added into categorical columns of the
    same name, and leaves every other column and its values alone. *)
Theorem C171_exactly : ∀ show g bins attrs order b, trained g bins attrs order b →
  ∃ after, bin_attrs show b = Ok after ∧ map fst after = gr_all_attrs g ∧
    (∀ a, a ∈ gr_all_attrs g → a ∈ attrs → ∃ labels, (a, CatA (attr_name a) labels) ∈ after) ∧
    (∀ a, a ∉ attrs → (∀ n, (a, n) ∈ after → n = a) ∧ ∀ wild n field, bin_transform wild b a n field = Ok field).
Proof.
  intros show g bins attrs order b Ht. destruct (trained_keeps _ _ _ _ _ Ht) as (Hf & Hg & Hb & Hin).
  eexists. split; [by apply bin_attrs_spec|]. rewrite Hg. split; [|split].
  - rewrite map_map. cbn [fst]. apply map_id.
  - intros a Ha Hat. destruct (Hf a (proj2 (Hin a) Hat)) as (n & p & ->). eexists. apply elem_of_list_fmap. eexists.
    split; [|exact Ha]. rewrite bool_decide_true by (by apply Hin). cbn [attr_name]. reflexivity.
  - intros a Ha. split.
    + intros n (x & E & _)%elem_of_list_fmap. injection E as <- ->. rewrite bool_decide_false; [done|]. intros H. by apply Ha, Hin.
    + intros wild n field. unfold bin_transform. rewrite bool_decide_false; [done|]. intros H. by apply Ha, Hin.
Qed.
Print Assumptions C171_exactly.

Example C171_exactly_ex : ∃ after, bin_attrs d_show (d_trained dx 4) = Ok after ∧
  map snd after = [CatA "x" (map (λ z, d_show 0 z)
    [0; 0x3FD0000000000000; 0x3FE0000000000000; 0x3FE8000000000000; 0x3FF0000000000000]%N)].
Proof. eexists. split; [vm_compute; reflexivity|]. vm_compute. reflexivity. Qed.

(** But an attribute that equals a column (by [Equals]) without being the one of the table
    is accepted as well, training succeeds, and the column is left alone. *)
Theorem C171_equal_refuted : ∃ h d a b,
  let g := dense_grid [] d in
  reachable 64 h d ∧ gr_all_attrs g = [a] ∧ attr_equals dx2 a = true ∧ trained g 4 [dx2] [dx2] b ∧
  (∀ show, bin_attrs show b = Ok [(a, a)]) ∧ ∀ wild n field, bin_transform wild b a n field = Ok field.
Proof.
  exists d_history, d_dense, dx, (d_trained dx2 4). split; [exact d_reachable|]. split; [vm_compute; reflexivity|].
  split; [reflexivity|]. split; [apply d_is_trained|].
  destruct (trained_keeps _ _ _ _ _ (proj2 d_is_trained)) as (Hf & _ & Hb & Hin).
  assert (gr_all_attrs (bn_train (d_trained dx2 4)) = [dx]) as Hall by (vm_compute; reflexivity).
  assert (dx ∉ bn_attrs (d_trained dx2 4)) as Hno. { rewrite Hin, elem_of_list_singleton. done. }
  split.
  - intros show. rewrite bin_attrs_spec by done. rewrite Hall. cbn [map]. by rewrite bool_decide_false.
  - intros wild n field. unfold bin_transform. by rewrite bool_decide_false.
Qed.
Print Assumptions C171_equal_refuted.
