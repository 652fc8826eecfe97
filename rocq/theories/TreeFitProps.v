(** Property C168: decision trees on their own training data. *)
From Verif Require Import Prelude BytesModel FloatModel AttrModel AttrSpec StoreModel DenseModel DenseSpec GridModel GridSpec
  GridProofs CsvModel PredModel PredProofs ConfModel ConfSpec KnnModel KnnSpec KnnProps Id3Model Id3Spec Id3Proofs TreeProofs
  TreeFit Id3Props.
From Flocq Require Import IEEE754.BinarySingleNaN IEEE754.Bits IEEE754.Binary.
Local Open Scope nat_scope.

(** The claim would be: if rows with the same values have the same label, a tree without
    numeric rules gives every training row its label.  It is true if rows with the same values
    in all attributes but one have the same label, whichever that one is, and every node
    without children is a leaf (the generator always had a rule to give). *)
Theorem C168_fits_partial : ∀ show parse gen ko co ro cord ao pg wo g c label vs t,
  training show g c label → sane_rules gen → no_float_rules gen →
  (∀ p, any_order (ko p)) → (∀ p, any_order (co p)) → (∀ p, any_order (ro p)) →
  any_order cord → any_order ao → (∀ i j, any_order (wo i j)) →
  infer_id3 show gen ko co ro g = Ok t →
  predictable show g g vs → (∀ r, r < (gr_size g).2 → label r ∈ vs) →
  (∀ node, node_of node t → t_children node = None → t_leaf node = true) →
  (∀ b i j, b ∈ gr_all_attrs g → b ≠ c → i < (gr_size g).2 → j < (gr_size g).2 →
     (∀ a, a ∈ gr_all_attrs g → a ≠ c → a ≠ b → value_of show g a i = value_of show g a j) → label i = label j) →
  ∃ ret, predict show parse cord ao pg wo t g = Ok ret ∧
    ∀ order i, class_order ret order → i < (gr_size g).2 →
      get_class show (dense_grid order ret) i = Ok (label i).
Proof. exact fits_training. Qed.
Print Assumptions C168_fits_partial.

(** Four rows, any two of different label differing in two attributes. *)
Definition t_apart : grid := t_grid
  [t_row t_one 0 0 0; t_row t_one 1 1 1; t_row t_two 0 1 1; t_row t_two 1 0 1]%N.
Definition t_alabel (i : nat) : string := nth i ["u"; "v"; "v"; "v"] "".

Definition sameb (x y : res string) : bool :=
  match x, y with Ok a, Ok b => bool_decide (a = b) | _, _ => true end.
Definition apartb (show : nat → N → string) (g : grid) (c : attr) (label : nat → string) : bool :=
  forallb (λ b, forallb (λ i, forallb (λ j,
    bool_decide (label i = label j) || bool_decide (b = c) ||
    negb (forallb (λ a, bool_decide (a = c) || bool_decide (a = b) || sameb (value_of show g a i) (value_of show g a j))
      (gr_all_attrs g))) (seq 0 (gr_size g).2)) (seq 0 (gr_size g).2)) (gr_all_attrs g).
Lemma apart_check show g c label : apartb show g c label = true →
  ∀ b i j, b ∈ gr_all_attrs g → b ≠ c → i < (gr_size g).2 → j < (gr_size g).2 →
    (∀ a, a ∈ gr_all_attrs g → a ≠ c → a ≠ b → value_of show g a i = value_of show g a j) → label i = label j.
Proof.
  intros H b i j Hb Hbc Hi Hj Hag. unfold apartb in H. rewrite forallb_forall in H.
  apply elem_of_list_In in Hb. specialize (H b Hb). rewrite forallb_forall in H.
  specialize (H i ltac:(apply in_seq; lia)). rewrite forallb_forall in H. specialize (H j ltac:(apply in_seq; lia)).
  rewrite !orb_true_iff in H. destruct H as [[H|H]|H].
  - by apply bool_decide_eq_true_1 in H.
  - by apply bool_decide_eq_true_1 in H.
  - exfalso. apply negb_true_iff, not_true_iff_false in H. apply H. apply forallb_forall. intros a Ha. apply elem_of_list_In in Ha.
    destruct (decide (a = c)) as [->|Hac]; [by rewrite bool_decide_eq_true_2|].
    destruct (decide (a = b)) as [->|Hab]; [by rewrite (bool_decide_eq_true_2 (b = b)), orb_true_r|].
    rewrite (Hag a Ha Hac Hab). apply orb_true_iff. right. unfold sameb. destruct (value_of show g a j); [by apply bool_decide_eq_true_2|done..].
Qed.

Fixpoint leavesb (t : tree) : bool :=
  match t with
  | Node leaf None _ _ _ _ => leaf
  | Node _ (Some l) _ _ _ _ => forallb (λ x, leavesb x.2) l
  end.
Lemma leaves_check t : leavesb t = true → ∀ node, node_of node t → t_children node = None → t_leaf node = true.
Proof.
  intros H node Hn. induction Hn as [|leaf l dist class cattr r k t' Hkt Hn IH].
  - intros E. destruct node as [leaf [l|] dist class cattr r]; [discriminate E|exact H].
  - apply IH. cbn [leavesb] in H. rewrite forallb_forall in H. apply (H (k, t')). by apply elem_of_list_In.
Qed.

Example C168_fits_ex :
  training t_show t_apart tc t_alabel ∧ sane_rules (t_gen t_yw) ∧ no_float_rules (t_gen t_yw) ∧
  predictable t_show t_apart t_apart ["u"; "v"] ∧
  (∃ t, t_infer t_yw t_apart = Ok t ∧
     ∀ node, node_of node t → t_children node = None → t_leaf node = true) ∧
  (∀ b i j, b ∈ gr_all_attrs t_apart → b ≠ tc → i < (gr_size t_apart).2 → j < (gr_size t_apart).2 →
     (∀ a, a ∈ gr_all_attrs t_apart → a ≠ tc → a ≠ b → value_of t_show t_apart a i = value_of t_show t_apart a j) →
     t_alabel i = t_alabel j) ∧
  t_labels (t_built t_yw t_apart) t_apart = Ok ["u"; "v"; "v"; "v"].
Proof.
  split; [apply training_check; vm_compute; reflexivity|]. split; [apply t_gen_sane|].
  split; [apply t_gen_no_float; intros a Ha; repeat (apply elem_of_cons in Ha as [->|Ha]; [reflexivity|]); by apply elem_of_nil in Ha|].
  split; [apply predictable_check; vm_compute; reflexivity|].
  split; [|split; [apply apart_check; vm_compute; reflexivity|vm_compute; reflexivity]].
  exists (of_ok (t_infer t_yw t_apart) no_tree). split; [apply okb_eq; vm_compute; reflexivity|].
  apply leaves_check. vm_compute. reflexivity.
Qed.

(** It is false as it stands: a tree is not split when one attribute is left.  Here that
    attribute decides the label; whatever the generator of rules and the orders of iteration,
    a training row gets the wrong one. *)
Definition f_y : attr := CatA "y" ["p"; "q"].
Definition f_dense : dense :=
  match dense_run 64 dense_new
    ([DAdd f_y; DAdd tc; DClass tc true; DExtend 3] ++
     concat (imap (λ i r, zip_with (λ s v, DSet s i v) [Spec 0 0 f_y; Spec 0 1 tc] (map byte8 r))
       [[0; 0]; [0; 0]; [1; 1]]%N)) with
  | Ok d => d | _ => dense_new end.
Definition f_grid : grid := dense_grid [((0, 1), true)] f_dense.
Definition f_label (i : nat) : string := nth i ["u"; "u"; "v"] "".

Lemma two_columns show gen ko co ro g t : (gr_size g).1 = 2 → infer_id3 show gen ko co ro g = Ok t → t_children t = None.
Proof.
  intros E. unfold infer_id3. cbn [infer]. destruct (class_distribution show g) as [m| |]; [|done..]. cbn [mbind res_bind].
  destruct (idx (gr_class_attrs g) 0) as [a| |]; [|done..]. cbn [mbind res_bind]. rewrite E. cbn [Nat.eqb].
  destruct (size m =? 1); intros H; injection H as <-; done.
Qed.

Theorem C168_refuted : ∃ g c label a vs,
  training t_show g c label ∧ predictable t_show g g vs ∧ (∀ r, r < (gr_size g).2 → label r ∈ vs) ∧
  a ∈ gr_all_attrs g ∧ a ≠ c ∧
  (∀ i j, i < (gr_size g).2 → j < (gr_size g).2 → value_of t_show g a i = value_of t_show g a j → label i = label j) ∧
  ∀ parse gen ko co ro cord ao pg wo,
    sane_rules gen → (∀ p, any_order (ko p)) → (∀ p, any_order (co p)) → (∀ p, any_order (ro p)) →
    any_order cord → any_order ao → (∀ i j, any_order (wo i j)) →
    ∀ t, infer_id3 t_show gen ko co ro g = Ok t →
    ∃ ret, predict t_show parse cord ao pg wo t g = Ok ret ∧
      ∃ i, i < (gr_size g).2 ∧ ∀ order, class_order ret order →
        ∃ wrong, get_class t_show (dense_grid order ret) i = Ok wrong ∧ wrong ≠ label i.
Proof.
  assert (training t_show f_grid tc f_label) as T by (apply training_check; vm_compute; reflexivity).
  assert (predictable t_show f_grid f_grid ["u"; "v"]) as P by (apply predictable_check; vm_compute; reflexivity).
  assert (∀ r, r < 3 → f_label r ∈ ["u"; "v"]) as Hvs.
  { apply below_cases. repeat constructor; apply (bool_decide_eq_true_1 _); vm_compute; reflexivity. }
  assert (gr_size f_grid = (2, 3)) as Hsz by (vm_compute; reflexivity).
  assert (f_y ∈ gr_all_attrs f_grid) as Hy by (apply (bool_decide_eq_true_1 _); vm_compute; reflexivity).
  assert (∀ i, i < 3 → value_of t_show f_grid f_y i = Ok (nth i ["p"; "p"; "q"] "")) as Hv.
  { apply below_cases. repeat constructor; vm_compute; reflexivity. }
  exists f_grid, tc, f_label, f_y, ["u"; "v"]. revert T P Hsz Hy Hv. generalize f_grid. intros g T P Hsz Hy Hv.
  rewrite !Hsz. cbn [snd]. split; [done|]. split; [done|]. split; [done|]. split; [done|]. split; [done|]. split.
  { intros i j Hi Hj. rewrite !Hv by done.
    destruct i as [|[|[|i]]]; [| | |lia]; destruct j as [|[|[|j]]]; try lia; cbn; congruence. }
  intros parse gen ko co ro cord ao pg wo Hg Hko Hco Hro Hcord Hao Hwo t Ht.
  pose proof (two_columns t_show gen ko co ro g t) as H2. rewrite Hsz in H2. specialize (H2 eq_refl Ht).
  pose proof (infer_id3_describes t_show g tc f_label T gen ko co ro Hg Hko Hco Hro) as Hd. rewrite Ht, Hsz in Hd. cbn [snd] in Hd.
  destruct (C51_training t_show parse gen ko co ro cord ao pg wo g tc f_label ["u"; "v"] t T Hg Hko Hco Hro Hcord Hao Hwo Ht P)
    as (ret & Hret & Hrows); [by rewrite Hsz|].
  exists ret. split; [done|]. exists 2. split; [lia|]. intros order Ho.
  destruct (Hrows order 2 Ho) as (node & rows & Hof & _ & _ & _ & Hcl); [rewrite Hsz; cbn; lia|].
  assert (node = t) as ->.
  { inversion Hof; subst; [done|discriminate H2]. }
  exists (t_class t). split; [done|]. intros E.
  destruct (describes_majority _ _ _ _ _ Hd) as [_ Hm]; [done|]. rewrite E in Hm. specialize (Hm "u"). vm_compute in Hm. lia.
Qed.
Print Assumptions C168_refuted.

Example C168_refuted_ex : okb (infer_id3 t_show (t_gen t_yw) (λ _, id) (λ _, id) (λ _, id) f_grid) = true.
Proof. vm_compute. reflexivity. Qed.
