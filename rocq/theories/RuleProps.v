(** Properties C53 and C84-C87: the rule generators of decision trees. *)
From Coq Require Import QArith.
From Verif Require Import Prelude BytesModel FloatModel AttrModel AttrSpec StoreModel DenseModel DenseSpec GridModel
  GridSpec GridProofs CsvModel ConfModel ConfSpec FilterModel TableProofs KnnModel KnnSpec KnnProps Id3Model Id3Spec
  TreeProofs Id3Props RuleModel RuleSpec RuleProofs RuleRefs.
From Flocq Require Import IEEE754.BinarySingleNaN IEEE754.Bits IEEE754.Binary.
Local Open Scope nat_scope.

(** ** C53 *)

(** What holds instead: the first candidate is always chosen, whatever the data. *)
Theorem C53_first : ∀ fast show sorter fuel a l g (p : attr → gmap string (gmap string nat) * binary64),
  (∀ b, b ∈ a :: l → gini_after fast show sorter fuel g b = Ok (p b)) →
  (∀ b, b ∈ a :: l → sum_list (map sum_list (sides_of (p b).1)) ≠ 0) →
  gini fast show sorter fuel (a :: l) g = Ok (Rule (Some a) (p a).2).
Proof. exact gini_first. Qed.
Print Assumptions C53_first.

(** y tells the class, w says nothing about it. *)
Definition r_grid : grid := t_grid
  [t_row t_one 0 0 0; t_row t_one 0 1 0; t_row t_one 1 0 1; t_row t_one 1 1 1]%N.
Definition r_after (a : attr) : gmap string (gmap string nat) :=
  of_ok (distribution_after_split t_show r_grid a) ∅.

Theorem C53_gini_refuted : ∃ g l a b r ma mb, ∀ fast sorter fuel,
  gini fast t_show sorter fuel l g = Ok r ∧ ru_attr r = Some a ∧ a ∈ l ∧ b ∈ l ∧
  distribution_after_split t_show g a = Ok ma ∧ distribution_after_split t_show g b = Ok mb ∧
  (average_impurity (sides_of mb) < average_impurity (sides_of ma))%Q.
Proof.
  exists r_grid, [tw; ty], tw, ty, (Rule (Some tw) float_zero), (r_after tw), (r_after ty).
  intros fast sorter fuel.
  assert (distribution_after_split t_show r_grid tw = Ok (r_after tw)) as Hw
    by (unfold r_after; apply okb_eq; vm_compute; reflexivity).
  assert (distribution_after_split t_show r_grid ty = Ok (r_after ty)) as Hy
    by (unfold r_after; apply okb_eq; vm_compute; reflexivity).
  split.
  { apply (C53_first fast t_show sorter fuel tw [ty] r_grid (λ a, (r_after a, float_zero))).
    - intros b Hb. apply elem_of_cons in Hb as [->|Hb].
      + unfold gini_after, tw. fold tw. rewrite Hw. reflexivity.
      + apply elem_of_list_singleton in Hb as ->. unfold gini_after, ty. fold ty. rewrite Hy. reflexivity.
    - intros b Hb. apply elem_of_cons in Hb as [->|Hb].
      + vm_compute. discriminate.
      + apply elem_of_list_singleton in Hb as ->. vm_compute. discriminate. }
  split; [reflexivity|]. split; [left|]. split; [right; left|]. split; [exact Hw|]. split; [exact Hy|].
  vm_compute. reflexivity.
Qed.
Print Assumptions C53_gini_refuted.

Example C53_ex :
  (average_impurity (sides_of (r_after tw)) == 1 # 2)%Q ∧ (average_impurity (sides_of (r_after ty)) == 0)%Q.
Proof. split; vm_compute; reflexivity. Qed.

(** ** C84 *)

(** If all values are finite the search for a threshold ends. *)
Theorem C84_ends_partial : ∀ fast show sorter g a s val label,
  iter_agrees g → gr_get_attribute g a = Ok s → reads_numbers show g s val label →
  (∀ l, sorter l ≡ₚ l) →
  (∀ i, i < (gr_size g).2 → is_finite 53 1024 (val i) = true) →
  ∀ fuel, 2 * (gr_size g).2 + 1 < fuel → ∃ e v, numeric_entropy fast show sorter fuel g a = Ok (e, v).
Proof. exact numeric_ends. Qed.
Print Assumptions C84_ends_partial.

(** If all values are NaN it never ends. *)
Theorem C84_hangs : ∀ fast show sorter g a s val label,
  iter_agrees g → gr_get_attribute g a = Ok s → reads_numbers show g s val label →
  (∀ l, sorter l ≡ₚ l) → 1 < (gr_size g).2 →
  (∀ i, i < (gr_size g).2 → is_nan 53 1024 (val i) = true) →
  ∀ fuel, numeric_entropy fast show sorter fuel g a = Err.
Proof. exact numeric_hangs. Qed.
Print Assumptions C84_hangs.

Definition r_val (rows : list (list (list N))) (i : nat) : binary64 :=
  of_ok (unpack_float (default [] ((rows !! i) ≫= (λ r, r !! 0)))) float_zero.
Definition r_label (rows : list (list (list N))) (i : nat) : string :=
  of_ok (get_class t_show (t_grid rows) i) "".
Definition readsb (rows : list (list (list N))) : bool :=
  forallb (λ i, okb (get_class t_show (t_grid rows) i) &&
    match gr_get (t_grid rows) (Spec 0 0 tx) i with
    | Ok raw => bool_decide (raw = default [] ((rows !! i) ≫= (λ r, r !! 0))) && okb (unpack_float raw)
    | _ => false
    end) (seq 0 (gr_size (t_grid rows)).2).
Lemma reads_check rows :
  readsb rows = true → reads_numbers t_show (t_grid rows) (Spec 0 0 tx) (r_val rows) (r_label rows).
Proof.
  unfold readsb. intros H i Hi. rewrite forallb_forall in H. specialize (H i ltac:(apply in_seq; lia)).
  apply andb_true_iff in H as [H1 H2]. split.
  - unfold r_label. by apply okb_eq.
  - destruct (gr_get (t_grid rows) (Spec 0 0 tx) i) as [raw| |]; try discriminate H2.
    apply andb_true_iff in H2 as [H2 H3]. apply bool_decide_eq_true_1 in H2.
    exists raw. split; [done|]. unfold r_val. rewrite <- H2. by apply okb_eq.
Qed.

Definition t_nan : list N := [1;0;0;0;0;0;248;127]%N.
Definition t_three : list N := [0;0;0;0;0;0;8;64]%N.
Definition r_nan_rows : list (list (list N)) := [t_row t_nan 0 0 0; t_row t_nan 1 0 1]%N.

(** A column of two NaNs, and any way of computing entropies and of sorting. *)
Theorem C84_nan_refuted : ∃ g a, a ∈ gr_all_attrs g ∧
  training t_show g tc (r_label r_nan_rows) ∧
  ∀ fast sorter, (∀ l, sorter l ≡ₚ l) → ∀ fuel, numeric_entropy fast t_show sorter fuel g a = Err.
Proof.
  exists (t_grid r_nan_rows), tx. split; [vm_compute; left|].
  split; [apply training_check; vm_compute; reflexivity|].
  intros fast sorter Hs. apply (C84_hangs fast t_show sorter (t_grid r_nan_rows) tx (Spec 0 0 tx)
    (r_val r_nan_rows) (r_label r_nan_rows)).
  - apply in_order_agrees, dense_grid_in_order.
  - vm_compute. reflexivity.
  - apply reads_check. vm_compute. reflexivity.
  - exact Hs.
  - vm_compute. lia.
  - change (gr_size (t_grid r_nan_rows)).2 with 2. apply below_cases.
    repeat constructor; vm_compute; reflexivity.
Qed.
Print Assumptions C84_nan_refuted.

(** An entropy for the examples: the number of rows that are not of the more frequent of
    two classes on their side, out of four; NaN if a side is empty. *)
Definition r_fast (s0 s1 : list nat) : binary64 :=
  match s0, s1 with
  | [a; b], [c; d] =>
      if (a + b =? 0) || (c + d =? 0) then float_nan
      else match Nat.min a b + Nat.min c d with
           | 0 => float_zero
           | 1 => b64_of_bits 0x3FF0000000000000
           | _ => float_two
           end
  | _, _ => float_nan
  end.
Definition r_le (x y : binary64 * nat) : bool := negb (float_gt x.1 y.1).
Fixpoint r_insert (x : binary64 * nat) (l : list (binary64 * nat)) : list (binary64 * nat) :=
  match l with
  | [] => [x]
  | y :: l' => if r_le x y then x :: l else y :: r_insert x l'
  end.
Definition r_sort (l : list (binary64 * nat)) : list (binary64 * nat) := foldr r_insert [] l.
Lemma r_sort_perm l : r_sort l ≡ₚ l.
Proof.
  induction l as [|x l IH]; [done|]. cbn [r_sort foldr]. fold (r_sort l). rewrite <- IH at 2.
  generalize (r_sort l). clear. intros l. induction l as [|y l IH]; [done|].
  cbn [r_insert]. destruct (r_le x y); [done|]. rewrite IH. constructor.
Qed.

(** x = 2, 1, 3 with classes u, u, v. *)
Definition r_rows : list (list (list N)) := [t_row t_two 0 0 0; t_row t_one 0 0 0; t_row t_three 0 0 1]%N.

Example C84_ex :
  reads_numbers t_show (t_grid r_rows) (Spec 0 0 tx) (r_val r_rows) (r_label r_rows) ∧
  (∀ i, i < (gr_size (t_grid r_rows)).2 → is_finite 53 1024 (r_val r_rows i) = true) ∧
  match numeric_entropy r_fast t_show r_sort 8 (t_grid r_rows) tx with
  | Ok (e, v) => bits_of_b64 e = 0%Z ∧ bits_of_b64 v = 0x4004000000000000%Z (* 2.5 *)
  | _ => False
  end.
Proof.
  split; [apply reads_check; vm_compute; reflexivity|]. split; [|vm_compute; done].
  change (gr_size (t_grid r_rows)).2 with 3. apply below_cases. repeat constructor; vm_compute; reflexivity.
Qed.

(** ** C85 *)

(** If every index is drawn again and again, and no more attributes are asked for than
    there are, the drawing ends with that many different attributes. *)
Theorem C85_random_partial : ∀ select draw k ao g,
  any_order ao → distinct_attrs (gr_all_attrs g) → k ≤ length (others g) →
  fair (length (others g)) draw →
  ∃ fuel l, distinct_attrs l ∧ length l = k ∧ l ⊆ others g ∧
    ∀ extra, random_rule select draw (fuel + extra) k ao g = (r ← select l g; Ok (Some r)).
Proof. exact random_ends. Qed.
Print Assumptions C85_random_partial.

(** If more are asked for it never ends. *)
Theorem C85_hangs : ∀ select draw k ao g,
  any_order ao → distinct_attrs (gr_all_attrs g) → others g ≠ [] → length (others g) < k →
  (∀ t, draw t < length (others g)) →
  ∀ fuel, random_rule select draw fuel k ao g = Err.
Proof. exact random_hangs. Qed.
Print Assumptions C85_hangs.

(** Four of three attributes. *)
Theorem C85_too_many_refuted : ∃ g k, length (others g) = 3 ∧ k = 4 ∧
  ∀ select draw ao, any_order ao → (∀ t, draw t < 3) →
  ∀ fuel, random_rule select draw fuel k ao g = Err.
Proof.
  exists r_grid, 4. split; [vm_compute; reflexivity|]. split; [reflexivity|].
  intros select draw ao Hao Hd. apply C85_hangs.
  - exact Hao.
  - apply distinctb_spec. vm_compute. reflexivity.
  - vm_compute. discriminate.
  - vm_compute. lia.
  - exact Hd.
Qed.
Print Assumptions C85_too_many_refuted.

(** Drawing 0, 0, 1, 1, 2, 2, 0, 0, ... *)
Definition r_draw (t : nat) : nat := Nat.modulo (Nat.div t 2) 3.
Lemma r_draw_fair : fair 3 r_draw.
Proof.
  split.
  - intros t. unfold r_draw. apply Nat.mod_upper_bound. lia.
  - intros i t Hi. exists (2 * (i + t * 3)). split; [lia|]. unfold r_draw.
    rewrite Nat.mul_comm, Nat.div_mul, Nat.mod_add by lia. apply Nat.mod_small. done.
Qed.
Example C85_ex :
  length (others r_grid) = 3 ∧ fair 3 r_draw ∧
  draw_attrs 4 r_draw 0 (candidates id r_grid) 2 [] = Some (Ok [tx; ty]).
Proof. split; [vm_compute; reflexivity|]. split; [apply r_draw_fair|vm_compute; reflexivity]. Qed.

(** ** C86 *)

(** [p a] is the entropy after splitting on [a], with the threshold.  The rule has a
    candidate whose gain is a number that no other gain exceeds; if it has none, no gain
    is above minus infinity. *)
Theorem C86_gain : ∀ fast show sorter split_entropy base_entropy fuel l g m (p : attr → binary64 * binary64),
  l ≠ [] → class_distribution show g = Ok m →
  (∀ a, a ∈ l → after_split fast show sorter split_entropy fuel g a (p a)) →
  let gain a := b64_minus mode_NE (base_entropy m) (p a).1 in
  ∃ r, info_gain fast show sorter split_entropy base_entropy fuel l g = Ok r ∧
    match ru_attr r with
    | Some a => a ∈ l ∧ ru_val r = (p a).2 ∧ is_nan 53 1024 (gain a) = false ∧
        ∀ b, b ∈ l → float_gt (gain b) (gain a) = false
    | None => ∀ b, b ∈ l → float_gt (gain b) float_neg_inf = false
    end.
Proof.
  intros fast show sorter se be fuel l g m p Hl Hm Hp. apply info_gain_best; [done|done|].
  intros a Ha. by apply after_split_entropy, Hp.
Qed.
Print Assumptions C86_gain.

Theorem C86_ratio : ∀ fast show sorter split_entropy base_entropy fuel l g m (p : attr → binary64 * binary64),
  l ≠ [] → class_distribution show g = Ok m →
  (∀ a, a ∈ l → after_split fast show sorter split_entropy fuel g a (p a)) →
  let ratio a := b64_div mode_NE (b64_minus mode_NE (base_entropy m) (p a).1) (p a).1 in
  ∃ r, gain_ratio fast show sorter split_entropy base_entropy fuel l g = Ok r ∧
    match ru_attr r with
    | Some a => a ∈ l ∧ ru_val r = (p a).2 ∧ is_nan 53 1024 (ratio a) = false ∧
        ∀ b, b ∈ l → float_gt (ratio b) (ratio a) = false
    | None => ∀ b, b ∈ l → float_gt (ratio b) float_neg_inf = false
    end.
Proof.
  intros fast show sorter se be fuel l g m p Hl Hm Hp. apply gain_ratio_best; [done|done|].
  intros a Ha. by apply after_split_entropy, Hp.
Qed.
Print Assumptions C86_ratio.

(** A perfect split on an attribute other than the only one gives a ratio x/0 = +Inf,
    0/0 = NaN if there was nothing to gain. *)
Definition r_split (m : gmap string (gmap string nat)) : binary64 :=
  if existsb (λ x, size x.2 =? 2) (map_to_list m) then b64_of_bits 0x3FF0000000000000 else float_zero.
Example C86_ex :
  match info_gain r_fast t_show r_sort r_split (λ _, b64_of_bits 0x3FF0000000000000) 20 [tw; ty; tx] r_grid,
        gain_ratio r_fast t_show r_sort r_split (λ _, b64_of_bits 0x3FF0000000000000) 20 [tw; ty; tx] r_grid,
        numeric_entropy r_fast t_show r_sort 20 r_grid tx,
        distribution_after_split t_show r_grid ty, distribution_after_split t_show r_grid tw with
  | Ok r, Ok r', Ok ex, Ok my, Ok mw =>
      ru_attr r = Some ty ∧ ru_attr r' = Some ty ∧ bits_of_b64 (r_split my) = 0%Z ∧
      bits_of_b64 (r_split mw) = 0x3FF0000000000000%Z ∧ bits_of_b64 ex.1 = 0x7FF0000000000000%Z
  | _, _, _, _, _ => False
  end.
Proof. vm_compute. done. Qed.

(** ** C87 *)

(** If the sorted values are pairwise different, far enough apart for the middle of two
    neighbours to lie between them: no middle gives a lower entropy than the threshold. *)
Theorem C87_threshold_partial : ∀ fast show sorter g a s val label,
  iter_agrees g → gr_get_attribute g a = Ok s → reads_numbers show g s val label →
  (∀ l, sorter l ≡ₚ l) →
  ∃ k refs, refs_of (gr_size g).2 k val label refs ∧
    (well_apart (sorter refs) → ∀ fuel, (gr_size g).2 < fuel →
     ∃ e v, numeric_entropy fast show sorter fuel g a = Ok (e, v) ∧
       (∀ w, is_middle (sorter refs) w → float_lt (threshold_entropy fast k refs w) e = false) ∧
       ((e = float_inf ∧ v = float_inf) ∨
        (is_middle (sorter refs) v ∧ e = threshold_entropy fast k refs v))).
Proof. exact numeric_best. Qed.
Print Assumptions C87_threshold_partial.

Fixpoint well_apartb (refs : list (binary64 * nat)) : bool :=
  match refs with
  | x :: l =>
      match l with
      | y :: _ => float_lt x.1 (middle x.1 y.1) && float_lt (middle x.1 y.1) y.1
      | [] => true
      end && well_apartb l
  | _ => true
  end.
Lemma well_apart_check refs : well_apartb refs = true → well_apart refs.
Proof.
  induction refs as [|x [|y l] IH]; intros H k a b Ha Hb.
  - done.
  - destruct k; done.
  - cbn [well_apartb] in H, IH. apply andb_true_iff in H as [H H3]. apply andb_true_iff in H as [H1 H2].
    destruct k as [|k].
    + cbn in Ha, Hb. injection Ha as <-. injection Hb as <-. done.
    + by apply (IH H3 k).
Qed.

Example C87_ex :
  reads_numbers t_show (t_grid r_rows) (Spec 0 0 tx) (r_val r_rows) (r_label r_rows) ∧
  refs_of 3 2 (r_val r_rows) (r_label r_rows)
    (map (λ i, (r_val r_rows i, if bool_decide (r_label r_rows i = "u") then 0 else 1)) (seq 0 3)) ∧
  well_apart (r_sort
    (map (λ i, (r_val r_rows i, if bool_decide (r_label r_rows i = "u") then 0 else 1)) (seq 0 3))).
Proof.
  split; [apply reads_check; vm_compute; reflexivity|]. split.
  - split; [reflexivity|]. split; [lia|]. exists (λ s, if bool_decide (s = "u") then 0 else 1). split.
    + intros i Hi. split; [|case_bool_decide; lia]. change (map ?f ?l) with (f <$> l).
      rewrite list_lookup_fmap, lookup_seq_lt by done. reflexivity.
    + assert (∀ i, i < 3 → r_label r_rows i = "u" ∨ r_label r_rows i = "v") as H.
      { apply below_cases. repeat constructor; vm_compute; first [left; reflexivity|right; reflexivity]. }
      intros i j Hi Hj. destruct (H i Hi) as [->| ->], (H j Hj) as [->| ->]; intros E; done.
  - apply well_apart_check. vm_compute. reflexivity.
Qed.

(** With equal values it is false.  x = 1, 1, 2, 3 with classes u, u, u, v: passing the two
    ones moves the loop two places on, past the middle 2.5 of 2 and 3, which would separate
    the classes. *)
Definition r_dup_rows : list (list (list N)) :=
  [t_row t_one 0 0 0; t_row t_one 0 0 0; t_row t_two 0 0 0; t_row t_three 0 0 1]%N.
Definition r_dup_refs : list (binary64 * nat) :=
  [(r_val r_dup_rows 0, 0); (r_val r_dup_rows 1, 0); (r_val r_dup_rows 2, 0); (r_val r_dup_rows 3, 1)].

Theorem C87_duplicates_refuted : ∃ fast g a s val label k refs e v w,
  iter_agrees g ∧ gr_get_attribute g a = Ok s ∧ reads_numbers t_show g s val label ∧
  refs_of (gr_size g).2 k val label refs ∧
  numeric_entropy fast t_show r_sort 20 g a = Ok (e, v) ∧
  is_middle (r_sort refs) w ∧ float_lt (threshold_entropy fast k refs w) e = true.
Proof.
  exists r_fast, (t_grid r_dup_rows), tx, (Spec 0 0 tx), (r_val r_dup_rows), (r_label r_dup_rows), 2, r_dup_refs.
  exists (of_ok (numeric_entropy r_fast t_show r_sort 20 (t_grid r_dup_rows) tx) (float_zero, float_zero)).1.
  exists (of_ok (numeric_entropy r_fast t_show r_sort 20 (t_grid r_dup_rows) tx) (float_zero, float_zero)).2.
  exists (middle (r_val r_dup_rows 2) (r_val r_dup_rows 3)).
  split; [apply in_order_agrees, dense_grid_in_order|]. split; [vm_compute; reflexivity|].
  split; [apply reads_check; vm_compute; reflexivity|].
  split.
  { split; [vm_compute; reflexivity|]. split; [vm_compute; lia|]. exists (λ s, if bool_decide (s = "v") then 1 else 0).
    change (gr_size (t_grid r_dup_rows)).2 with 4. split.
    - apply below_cases. cbn [seq]. repeat apply Forall_cons_2; try apply Forall_nil_2; (split; vm_compute; [reflexivity|lia]).
    - assert (∀ i, i < 4 → r_label r_dup_rows i = "u" ∨ r_label r_dup_rows i = "v") as H.
      { apply below_cases. repeat constructor; vm_compute; first [left; reflexivity|right; reflexivity]. }
      intros i j Hi Hj. destruct (H i Hi) as [->| ->], (H j Hj) as [->| ->]; intros E; done. }
  split; [rewrite <- surjective_pairing; apply okb_eq; vm_compute; reflexivity|].
  split.
  - exists 2, (r_val r_dup_rows 2, 0), (r_val r_dup_rows 3, 1). split; [vm_compute; reflexivity|].
    split; [vm_compute; reflexivity|reflexivity].
  - vm_compute. reflexivity.
Qed.
Print Assumptions C87_duplicates_refuted.
