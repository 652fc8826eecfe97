(** Properties C50, C51, C52 and C83: decision trees. *)
From Coq Require Import QArith.
From Verif Require Import Prelude BytesModel FloatModel AttrModel AttrSpec StoreModel DenseModel DenseSpec GridModel
  GridSpec GridProofs CsvModel PredModel PredProofs ConfModel ConfSpec TableProofs KnnModel KnnSpec KnnProps
  Id3Model Id3Spec Id3Proofs PruneProofs TreeProofs RuleModel RuleProofs.
From Flocq Require Import IEEE754.BinarySingleNaN IEEE754.Bits IEEE754.Binary.
Local Open Scope nat_scope.

(** ** Tables for the examples: a number, two categorical attributes and the class *)

Definition tx : attr := FloatA "x" 0.
Definition ty : attr := CatA "y" ["p"; "q"; "z"].
Definition tw : attr := CatA "w" ["1"; "2"].
Definition tc : attr := CatA "c" ["u"; "v"].
Definition t_code (n : N) : list N := byte8 n.
(** 1.0 and 2.0 *)
Definition t_one : list N := [0;0;0;0;0;0;240;63]%N.
Definition t_two : list N := [0;0;0;0;0;0;0;64]%N.
Definition t_show (p : nat) (bits : N) : string :=
  if (bits =? 0x3FF0000000000000)%N then "1" else if (bits =? 0x4000000000000000)%N then "2" else "?".
Definition t_specs : list spec := [Spec 0 0 tx; Spec 1 0 ty; Spec 1 1 tw; Spec 1 2 tc].
Definition t_dense (rows : list (list (list N))) : dense :=
  match dense_run 64 dense_new
    ([DAdd tx; DAdd ty; DAdd tw; DAdd tc; DClass tc true; DExtend (length rows)] ++
     concat (imap (λ i r, zip_with (λ s v, DSet s i v) t_specs r) rows)) with
  | Ok d => d | _ => dense_new end.
Definition t_grid (rows : list (list (list N))) : grid := dense_grid [((1, 2), true)] (t_dense rows).
Definition t_row (x : list N) (y w c : N) : list (list N) := [x; byte8 y; byte8 w; byte8 c].

(** The tree is described without its distributions: the keys and the classes. *)
Inductive sketch := Sk (class : string) (children : option (list (string * sketch))).
Fixpoint sketch_of (t : tree) : sketch :=
  match t with
  | Node _ None _ class _ _ => Sk class None
  | Node _ (Some l) _ class _ _ => Sk class (Some (map (λ x, (x.1, sketch_of x.2)) l))
  end.

(** Checking the hypotheses of the theorems by computation. *)
Definition trainingb (show : nat → N → string) (g : grid) (c : attr) (label : nat → string) : bool :=
  distinctb (gr_all_attrs g) && bool_decide (gr_class_attrs g = [c]) && bool_decide (c ∈ gr_all_attrs g) &&
  forallb (λ a, forallb (λ i, match value_of show g a i with Ok _ => true | _ => false end)
                  (seq 0 (gr_size g).2)) (gr_all_attrs g) &&
  forallb (λ i, match value_of show g c i with Ok s => bool_decide (s = label i) | _ => false end)
    (seq 0 (gr_size g).2).

Lemma training_check show order d c label :
  trainingb show (dense_grid order d) c label = true → training show (dense_grid order d) c label.
Proof.
  unfold trainingb. rewrite !andb_true_iff. intros ((((H1 & H2) & H3) & H4) & H5).
  apply dense_training.
  - by apply distinctb_spec.
  - by apply bool_decide_eq_true_1 in H2.
  - by apply bool_decide_eq_true_1 in H3.
  - intros a Ha i Hi. rewrite forallb_forall in H4. apply elem_of_list_In, H4 in Ha.
    rewrite forallb_forall in Ha. specialize (Ha i). destruct (value_of _ _ a i); [eauto|..].
    all: discriminate Ha; apply in_seq; split; [lia|exact Hi].
  - intros i Hi. rewrite forallb_forall in H5. specialize (H5 i).
    destruct (value_of _ _ c i) as [s| |].
    + f_equal. eapply bool_decide_eq_true_1, H5. apply in_seq. split; [lia|exact Hi].
    + discriminate H5; apply in_seq; split; [lia|exact Hi].
    + discriminate H5; apply in_seq; split; [lia|exact Hi].
Qed.

(** Six rows.  The class is u if y = p, as w says if y = q, and v if y = z. *)
Definition t_train : grid := t_grid
  [t_row t_one 0 0 0; t_row t_two 0 1 0; t_row t_one 1 0 0; t_row t_two 1 1 1; t_row t_one 2 0 1;
   t_row t_one 2 1 1]%N.
Definition t_label (i : nat) : string := nth i ["u"; "u"; "u"; "v"; "v"; "v"] "".

Example t_training_ex : training t_show t_train tc t_label.
Proof. apply training_check. vm_compute. reflexivity. Qed.

(** A generator that takes the first attribute of [l] that is left. *)
Fixpoint first_of (l : list (attr * binary64)) (g : grid) : rule :=
  match l with
  | [] => Rule None float_zero
  | (a, v) :: l =>
      if bool_decide (a ∈ gr_all_attrs g ∧ a ∉ gr_class_attrs g) then Rule (Some a) v else first_of l g
  end.
Definition t_gen (l : list (attr * binary64)) (path : list string) (g : grid) : res (option rule) :=
  Ok (Some (first_of l g)).

Lemma first_of_in l g a :
  ru_attr (first_of l g) = Some a → a ∈ map fst l ∧ a ∈ gr_all_attrs g ∧ a ∉ gr_class_attrs g.
Proof.
  induction l as [|[b v] l IH]; cbn [first_of map fst]; [done|].
  destruct (decide (b ∈ gr_all_attrs g ∧ b ∉ gr_class_attrs g)) as [H|H].
  - rewrite bool_decide_eq_true_2 by done. cbn [ru_attr]. intros [= <-]. split; [left|done].
  - rewrite bool_decide_eq_false_2 by done. intros E. destruct (IH E) as [H1 H2]. split; [by right|done].
Qed.
Lemma t_gen_sane l : sane_rules (t_gen l).
Proof. intros path g r a H Ha. unfold t_gen in H. injection H as <-. apply first_of_in in Ha. tauto. Qed.
Lemma t_gen_no_float l : (∀ a, a ∈ map fst l → is_float a = false) → no_float_rules (t_gen l).
Proof.
  intros Hl path g r a H Ha. unfold t_gen in H. injection H as <-. apply first_of_in in Ha.
  apply Hl. tauto.
Qed.

Definition okb {A} (r : res A) : bool := match r with Ok _ => true | _ => false end.
Definition of_ok {A} (r : res A) (d : A) : A := match r with Ok x => x | _ => d end.
Lemma okb_eq {A} (r : res A) d : okb r = true → r = Ok (of_ok r d).
Proof. by destruct r. Qed.

Definition no_tree : tree := Node true None ∅ "" tc None.
Definition t_infer (l : list (attr * binary64)) (g : grid) : res tree :=
  infer_id3 t_show (t_gen l) (λ _, id) (λ _, id) (λ _, id) g.
Definition t_built (l : list (attr * binary64)) (g : grid) : tree := of_ok (t_infer l g) no_tree.
Definition t_predict (t : tree) (what : grid) : res dense :=
  predict t_show ex_parse id id 64 (λ _ _, id) t what.
Definition t_labels (t : tree) (what : grid) : res (list string) :=
  ex_labels (t_predict t what) (gr_size what).2.
Definition t_prune (t : tree) (g : grid) : res tree :=
  prune t_show ex_parse id id 64 (λ _, id) (λ _ _ _, id) (λ _, id) (λ _, id) [] t g.

(** y first, then w. *)
Definition t_yw : list (attr * binary64) := [(ty, float_zero); (tw, float_zero)].

(** The leaf for y = q is split by w; x is never used, and no other leaf is split. *)
Example t_tree_ex :
  t_infer t_yw t_train = Ok (t_built t_yw t_train) ∧
  sketch_of (t_built t_yw t_train) =
    Sk "v" (Some [("p", Sk "u" None); ("z", Sk "v" None);
                  ("q", Sk "v" (Some [("2", Sk "v" None); ("1", Sk "u" None)]))]).
Proof. split; [apply okb_eq|]; vm_compute; reflexivity. Qed.

(** ** C50 *)

(** For every generator whose rules split on an attribute of the data other than the
    class, every order of Go's maps: the tree describes the rows — each node has the
    class counts of its rows and a most frequent class, and the children of a node have
    those of its rows that are on their side of the split, one child for each side.  If
    there is no tree, the generator failed. *)
Theorem C50_tree : ∀ show g c label gen ko co ro,
  training show g c label → sane_rules gen →
  (∀ p, any_order (ko p)) → (∀ p, any_order (co p)) → (∀ p, any_order (ro p)) →
  match infer_id3 show gen ko co ro g with
  | Ok t => describes show g label (seq 0 (gr_size g).2) t
  | _ => ∃ path g', ∀ r, gen path g' ≠ Ok r
  end.
Proof. intros show g c label gen ko co ro T. by apply (infer_id3_describes show g c label T). Qed.
Print Assumptions C50_tree.

(** The distributions of the children of a node sum to its own. *)
Theorem C50_children_sum : ∀ show g c label gen ko co ro t leaf l dist class cattr r,
  training show g c label → sane_rules gen →
  (∀ p, any_order (ko p)) → (∀ p, any_order (co p)) → (∀ p, any_order (ro p)) →
  infer_id3 show gen ko co ro g = Ok t →
  node_of (Node leaf (Some l) dist class cattr r) t →
  ∀ cl, default 0 (dist !! cl) = sum_list (map (λ x, default 0 (t_dist x.2 !! cl)) l).
Proof.
  intros show g c label gen ko co ro t leaf l dist class cattr r T Hg Hko Hco Hro Ht Hn cl.
  pose proof (infer_id3_describes show g c label T gen ko co ro Hg Hko Hco Hro) as Hd.
  rewrite Ht in Hd. destruct (describes_node _ _ _ _ _ _ Hd Hn) as (rows & _ & Hr).
  by eapply children_sum.
Qed.
Print Assumptions C50_children_sum.

(** The generators of the library only give such rules. *)
Theorem C50_generators : ∀ fast show sorter split_entropy base_entropy fuel
    (ao : list string → list attr → list attr) (draw : list string → nat → nat) turns k,
  (∀ path, any_order (ao path)) →
  sane_rules (λ path, generate (info_gain fast show sorter split_entropy base_entropy fuel) (ao path)) ∧
  sane_rules (λ path, generate (gain_ratio fast show sorter split_entropy base_entropy fuel) (ao path)) ∧
  sane_rules (λ path, generate (gini fast show sorter fuel) (ao path)) ∧
  sane_rules (λ path, random_rule (info_gain fast show sorter split_entropy base_entropy fuel)
                        (draw path) turns k (ao path)).
Proof.
  intros fast show sorter se be fuel ao draw turns k Hao.
  split; [|split; [|split]].
  - apply (generate_sane (λ _, info_gain fast show sorter se be fuel)); [|done].
    intros _ l g r a. apply info_gain_in.
  - apply (generate_sane (λ _, gain_ratio fast show sorter se be fuel)); [|done].
    intros _ l g r a. apply gain_ratio_in.
  - apply (generate_sane (λ _, gini fast show sorter fuel)); [|done].
    intros _ l g r a. apply gini_in.
  - apply (random_sane (λ _, info_gain fast show sorter se be fuel)); [|done].
    intros _ l g r a. apply info_gain_in.
Qed.
Print Assumptions C50_generators.

Example C50_ex :
  training t_show t_train tc t_label ∧ sane_rules (t_gen t_yw) ∧
  (∃ t, t_infer t_yw t_train = Ok t ∧ t_dist t !! "u" = Some 3 ∧
     match t_children t with
     | Some [(_, a); (_, b); (_, c)] =>
         (t_dist a !! "u", t_dist b !! "u", t_dist c !! "u") = (Some 2, None, Some 1)
     | _ => False
     end).
Proof.
  split; [exact t_training_ex|]. split; [apply t_gen_sane|].
  exists (t_built t_yw t_train). split; [apply t_tree_ex|]. vm_compute. done.
Qed.

(** ** C51 *)

Definition predictableb (show : nat → N → string) (g what : grid) (vs : list string) : bool :=
  match gr_class_attrs what with [CatA _ vs'] => bool_decide (vs' = vs) | _ => false end &&
  (N.of_nat (length vs) <? 2^63)%N &&
  forallb (λ a, match gr_get_attribute what a with
    | Ok s => forallb (λ i, okb (gr_get what s i)) (seq 0 (gr_size what).2) | _ => false end)
    (gr_all_attrs what) &&
  forallb (λ a, match gr_get_attribute what a with
    | Ok s => forallb (λ i, okb (raw ← gr_get what s i; attr_decode show (sp_attr s) raw))
                (seq 0 (gr_size what).2)
    | _ => false end)
    (filter (λ a, a ∉ gr_class_attrs g) (gr_all_attrs g)).

Lemma predictable_check show g order d vs :
  predictableb show g (dense_grid order d) vs = true → predictable show g (dense_grid order d) vs.
Proof.
  unfold predictableb. rewrite !andb_true_iff. intros (((H1 & H2) & H3) & H4).
  split.
  - apply in_order_agrees, dense_grid_in_order.
  - destruct (gr_class_attrs (dense_grid order d)) as [|[|n vs'|] [|]]; try done.
    exists n. apply bool_decide_eq_true_1 in H1. by rewrite H1.
  - by apply N.ltb_lt.
  - intros a Ha. rewrite forallb_forall in H3. apply elem_of_list_In, H3 in Ha.
    destruct (gr_get_attribute (dense_grid order d) a) as [s| |]; try discriminate Ha.
    exists s. split; [done|]. intros i Hi. rewrite forallb_forall in Ha.
    assert (okb (gr_get (dense_grid order d) s i) = true) as H by (apply Ha, in_seq; lia).
    destruct (gr_get _ s i); [eauto|discriminate H..].
  - intros a Ha Hc. rewrite forallb_forall in H4.
    assert (a ∈ filter (λ a, a ∉ gr_class_attrs g) (gr_all_attrs g)) as Hin by (by apply elem_of_list_filter).
    apply elem_of_list_In, H4 in Hin.
    destruct (gr_get_attribute (dense_grid order d) a) as [s| |]; try discriminate Hin.
    exists s. split; [done|]. intros i Hi. rewrite forallb_forall in Hin.
    assert (okb (raw ← gr_get (dense_grid order d) s i; attr_decode show (sp_attr s) raw) = true) as H
      by (apply Hin, in_seq; lia).
    destruct (gr_get _ s i) as [raw| |]; try discriminate H. cbn [mbind res_bind] in H.
    destruct (attr_decode show (sp_attr s) raw) as [v| |] eqn:E; try discriminate H.
    exists raw, v. done.
Qed.

(** Every row gets the most frequent class of some of the training rows, whatever its
    values. *)
Theorem C51_predict_partial : ∀ show parse gen ko co ro cord ao pg wo g c label what vs t,
  training show g c label → sane_rules gen → (gr_size g).2 ≠ 0 →
  (∀ p, any_order (ko p)) → (∀ p, any_order (co p)) → (∀ p, any_order (ro p)) →
  any_order cord → any_order ao → (∀ i j, any_order (wo i j)) →
  infer_id3 show gen ko co ro g = Ok t →
  predictable show g what vs → (∀ r, r < (gr_size g).2 → label r ∈ vs) →
  ∃ ret, predict show parse cord ao pg wo t what = Ok ret ∧ (dense_size ret).2 = (gr_size what).2 ∧
    ∀ order i, class_order ret order → i < (gr_size what).2 →
      ∃ rows cl, rows ⊆ seq 0 (gr_size g).2 ∧ majority label rows cl ∧
        get_class show (dense_grid order ret) i = Ok cl.
Proof.
  intros show parse gen ko co ro cord ao pg wo g c label what vs t T Hg Hn Hko Hco Hro Hcord Hao Hwo Ht P Hvs.
  pose proof (infer_id3_describes show g c label T gen ko co ro Hg Hko Hco Hro) as Hd. rewrite Ht in Hd.
  apply (predict_described show parse cord ao pg wo g what vs label); try done.
  - by destruct (gr_size g).2.
  - intros r Hr. apply Hvs. apply elem_of_seq in Hr. lia.
Qed.
Print Assumptions C51_predict_partial.

(** Rows of the training set get the class of the leaf they were used for. *)
Theorem C51_training : ∀ show parse gen ko co ro cord ao pg wo g c label vs t,
  training show g c label → sane_rules gen →
  (∀ p, any_order (ko p)) → (∀ p, any_order (co p)) → (∀ p, any_order (ro p)) →
  any_order cord → any_order ao → (∀ i j, any_order (wo i j)) →
  infer_id3 show gen ko co ro g = Ok t →
  predictable show g g vs → (∀ r, r < (gr_size g).2 → label r ∈ vs) →
  ∃ ret, predict show parse cord ao pg wo t g = Ok ret ∧
    ∀ order i, class_order ret order → i < (gr_size g).2 →
      ∃ node rows, node_of node t ∧ describes show g label rows node ∧ t_children node = None ∧ i ∈ rows ∧
        get_class show (dense_grid order ret) i = Ok (t_class node).
Proof.
  intros show parse gen ko co ro cord ao pg wo g c label vs t T Hg Hko Hco Hro Hcord Hao Hwo Ht P Hvs.
  pose proof (infer_id3_describes show g c label T gen ko co ro Hg Hko Hco Hro) as Hd. rewrite Ht in Hd.
  by apply (predict_training show parse cord ao pg wo g c vs label).
Qed.
Print Assumptions C51_training.

(** Trained where y is never z; the last two rows to predict are new. *)
Definition t_noz : grid := t_grid
  [t_row t_one 0 0 0; t_row t_two 0 1 0; t_row t_one 1 0 0; t_row t_two 1 1 1]%N.
Definition t_new : grid := t_grid [t_row t_one 0 0 0; t_row t_one 1 1 0; t_row t_one 2 0 0; t_row t_one 2 1 0]%N.

Example C51_ex :
  training t_show t_noz tc t_label ∧ predictable t_show t_noz t_new ["u"; "v"] ∧
  (∀ r, r < (gr_size t_noz).2 → t_label r ∈ ["u"; "v"]) ∧
  (t ← t_infer t_yw t_noz; t_labels t t_new) = Ok ["u"; "v"; "u"; "v"].
Proof.
  split; [apply training_check; vm_compute; reflexivity|].
  split; [apply predictable_check; vm_compute; reflexivity|].
  split; [|vm_compute; reflexivity]. change (gr_size t_noz).2 with 4.
  apply below_cases. repeat constructor; apply (bool_decide_eq_true_1 _); vm_compute; reflexivity.
Qed.

Example C51_training_ex :
  training t_show t_train tc t_label ∧ predictable t_show t_train t_train ["u"; "v"] ∧
  t_labels (t_built t_yw t_train) t_train = Ok ["u"; "u"; "u"; "v"; "v"; "v"].
Proof.
  split; [exact t_training_ex|].
  split; [apply predictable_check; vm_compute; reflexivity|]. vm_compute. reflexivity.
Qed.

(** A tree fitted to no rows at all panics when asked to predict. *)
Theorem C51_empty_refuted : ∃ gen g label what t,
  training t_show g tc label ∧ sane_rules gen ∧ (gr_size g).2 = 0 ∧
  infer_id3 t_show gen (λ _, id) (λ _, id) (λ _, id) g = Ok t ∧
  predictable t_show g what ["u"; "v"] ∧
  predict t_show ex_parse id id 64 (λ _ _, id) t what = Panic.
Proof.
  exists (t_gen t_yw), (t_grid []), t_label, t_new, (t_built t_yw (t_grid [])).
  split; [apply training_check; vm_compute; reflexivity|]. split; [apply t_gen_sane|].
  split; [vm_compute; reflexivity|]. split; [apply okb_eq; vm_compute; reflexivity|].
  split; [apply predictable_check; vm_compute; reflexivity|]. vm_compute. reflexivity.
Qed.
Print Assumptions C51_empty_refuted.

(** ** C52 *)

(** Proved for trees that split on attributes that are not numeric, never twice on a
    path, when each value met has a child; the refutations below show that both
    conditions are needed. *)
Theorem C52_prune_partial : ∀ show parse cord ao pg ko wo co ro g c label name vs t wo1 wo2,
  any_order cord → any_order ao → (∀ p, any_order (ko p)) →
  (∀ p, any_order (co p)) → (∀ p, any_order (ro p)) →
  training show g c label → c = CatA name vs → (N.of_nat (length vs) < 2^63)%N →
  (gr_size g).2 ≠ 0 →
  usable vs (filter (λ a, a ≠ c) (gr_all_attrs g)) t →
  (∀ r, r < (gr_size g).2 → ∃ node, leads show g r t node) →
  ∃ t' ret ret', prune show parse cord ao pg ko wo co ro [] t g = Ok t' ∧
    predict show parse cord ao pg wo1 t g = Ok ret ∧
    predict show parse cord ao pg wo2 t' g = Ok ret' ∧
    ∀ order order', class_order ret order → class_order ret' order' →
      count_rows (gr_size g).2 (agree show g (dense_grid order ret)) ≤
      count_rows (gr_size g).2 (agree show g (dense_grid order' ret')).
Proof. exact prune_accuracy. Qed.
Print Assumptions C52_prune_partial.

(** Trees built from data with the same attributes are such trees. *)
Theorem C52_trained_usable : ∀ show g c label gen ko co ro t vs,
  training show g c label → sane_rules gen →
  (∀ p, any_order (ko p)) → (∀ p, any_order (co p)) → (∀ p, any_order (ro p)) →
  infer_id3 show gen ko co ro g = Ok t → no_float_rules gen → (gr_size g).2 ≠ 0 →
  (∀ r, r < (gr_size g).2 → label r ∈ vs) →
  usable vs (filter (λ a, a ≠ c) (gr_all_attrs g)) t.
Proof. intros show g c label gen ko co ro t vs T Hg Hko Hco Hro. by apply infer_id3_usable. Qed.
Print Assumptions C52_trained_usable.

Definition right (t : tree) (g : grid) : nat :=
  match t_predict t g with
  | Ok ret => count_rows (gr_size g).2 (agree t_show g (dense_grid [((0, 0), true)] ret))
  | _ => 0
  end.

Lemma right_predicted t g : okb (t_predict t g) = true →
  ∃ ret, t_predict t g = Ok ret ∧
    count_rows (gr_size g).2 (agree t_show g (dense_grid [((0, 0), true)] ret)) = right t g.
Proof. unfold right. destruct (t_predict t g) as [ret| |]; [eauto|done..]. Qed.

(** Of the pruning rows with y = q and w = 1, for which the tree says u, two are v and one
    is u: the split on w goes, the one on y stays. *)
Definition t_pruning : grid := t_grid
  [t_row t_one 0 0 0; t_row t_one 1 0 1; t_row t_one 1 0 1; t_row t_one 1 1 1; t_row t_one 1 0 0;
   t_row t_one 2 0 1]%N.
Definition t_plabel (i : nat) : string := nth i ["u"; "v"; "v"; "v"; "u"; "v"] "".

Fixpoint usableb (vs : list string) (attrs : list attr) (t : tree) : bool :=
  match t with
  | Node _ None _ class _ _ => bool_decide (class ∈ vs)
  | Node _ (Some l) _ class _ (Some (Rule (Some a) _)) =>
      bool_decide (class ∈ vs) && bool_decide (a ∈ attrs) && negb (is_float a) &&
      bool_decide (NoDup (map fst l)) &&
      forallb (λ x, usableb vs (filter (λ b, attr_equals b a = false) attrs) x.2) l
  | _ => false
  end.
Fixpoint leadsb (show : nat → N → string) (g : grid) (r : nat) (t : tree) : bool :=
  match t with
  | Node _ None _ _ _ _ => true
  | Node _ (Some l) _ _ _ (Some (Rule (Some a) _)) =>
      match value_of show g a r with
      | Ok k => existsb (λ x, bool_decide (x.1 = k) && leadsb show g r x.2) l
      | _ => false
      end
  | _ => false
  end.

Section induction.
  Variable P : tree → Prop.
  Hypothesis Hend : ∀ leaf dist class cattr r, P (Node leaf None dist class cattr r).
  Hypothesis Hsplit : ∀ leaf l dist class cattr r, Forall (λ x, P x.2) l →
    P (Node leaf (Some l) dist class cattr r).
  Fixpoint tree_ind' (t : tree) : P t.
  Proof.
    destruct t as [leaf [l|] dist class cattr r]; [|apply Hend]. apply Hsplit.
    induction l as [|[k t] l IH]; constructor; [exact (tree_ind' t)|exact IH].
  Defined.
End induction.

Lemma usable_check vs t : ∀ attrs, usableb vs attrs t = true → usable vs attrs t.
Proof.
  induction t as [|leaf l dist class cattr r IH] using tree_ind'; intros attrs H; cbn [usableb] in H;
    try rewrite Forall_forall in IH.
  - constructor. by apply bool_decide_eq_true_1 in H.
  - destruct r as [[[a|] v]|]; try discriminate H. rewrite !andb_true_iff in H.
    destruct H as ((((H1 & H2) & H3) & H4) & H5). constructor.
    + by apply bool_decide_eq_true_1 in H1.
    + by apply bool_decide_eq_true_1 in H2.
    + by apply negb_true_iff.
    + by apply bool_decide_eq_true_1 in H4.
    + intros k t Hk. rewrite forallb_forall in H5. apply (IH (k, t) Hk). apply (H5 (k, t)).
      by apply elem_of_list_In.
Qed.
Lemma leads_check show g r t : leadsb show g r t = true → ∃ node, leads show g r t node.
Proof.
  induction t as [|leaf l dist class cattr ru IH] using tree_ind'; intros H; cbn [leadsb] in H;
    try rewrite Forall_forall in IH.
  - eexists. constructor.
  - destruct ru as [[[a|] v]|]; try discriminate H.
    destruct (value_of show g a r) as [k| |] eqn:E; try discriminate H.
    apply existsb_exists in H as ([k' t] & Hin & Ht). apply elem_of_list_In in Hin.
    apply andb_true_iff in Ht as [Hk Ht]. apply bool_decide_eq_true_1 in Hk. cbn [fst snd] in *. subst k'.
    destruct (IH (k, t) Hin Ht) as [node Hn]. exists node. by econstructor.
Qed.
Lemma leads_all show g t :
  forallb (λ r, leadsb show g r t) (seq 0 (gr_size g).2) = true →
  ∀ r, r < (gr_size g).2 → ∃ node, leads show g r t node.
Proof.
  intros H r Hr. rewrite forallb_forall in H. apply leads_check, H, in_seq. lia.
Qed.

Example C52_ex :
  let t := t_built t_yw t_train in
  training t_show t_pruning tc t_plabel ∧
  usable ["u"; "v"] (filter (λ a, a ≠ tc) (gr_all_attrs t_pruning)) t ∧
  (∀ r, r < (gr_size t_pruning).2 → ∃ node, leads t_show t_pruning r t node) ∧
  ∃ t', t_prune t t_pruning = Ok t' ∧
    sketch_of t' = Sk "v" (Some [("p", Sk "u" None); ("z", Sk "v" None); ("q", Sk "v" None)]) ∧
    (right t t_pruning, right t' t_pruning) = (4, 5).
Proof.
  split; [apply training_check; vm_compute; reflexivity|].
  split; [apply usable_check; vm_compute; reflexivity|].
  split; [apply leads_all; vm_compute; reflexivity|].
  exists (of_ok (t_prune (t_built t_yw t_train) t_pruning) no_tree).
  split; [apply okb_eq; vm_compute; reflexivity|]. vm_compute. split; reflexivity.
Qed.

(** With a numeric split it is false: rows are sent to the children by comparison with
    the threshold, but the pruning data are shared among the children by formatted value.
    Here x > 1.5 at the root; rows with x = 1 are used to prune the child "1". *)
Definition t_x15 : list (attr * binary64) :=
  [(tx, b64_of_bits 0x3FF8000000000000); (ty, float_zero)].
Definition t_numeric : grid := t_grid
  [t_row t_one 0 0 0; t_row t_one 1 0 0; t_row t_two 0 0 0; t_row t_two 0 1 0; t_row t_two 1 0 1]%N.
Definition t_nlabel (i : nat) : string := nth i ["u"; "u"; "u"; "u"; "v"] "".

Theorem C52_numeric_refuted : ∃ g label gen t t' ret ret',
  training t_show g tc label ∧ sane_rules gen ∧
  infer_id3 t_show gen (λ _, id) (λ _, id) (λ _, id) g = Ok t ∧
  prune t_show ex_parse id id 64 (λ _, id) (λ _ _ _, id) (λ _, id) (λ _, id) [] t g = Ok t' ∧
  predict t_show ex_parse id id 64 (λ _ _, id) t g = Ok ret ∧
  predict t_show ex_parse id id 64 (λ _ _, id) t' g = Ok ret' ∧
  let order := [((0, 0), true)] in
  count_rows 5 (agree t_show g (dense_grid order ret)) = 5 ∧
  count_rows 5 (agree t_show g (dense_grid order ret')) = 4.
Proof.
  set (t := t_built t_x15 t_numeric). set (t' := of_ok (t_prune t t_numeric) no_tree).
  destruct (right_predicted t t_numeric) as (ret & Hret & Hn); [vm_compute; reflexivity|].
  destruct (right_predicted t' t_numeric) as (ret' & Hret' & Hn'); [vm_compute; reflexivity|].
  exists t_numeric, t_nlabel, (t_gen t_x15), t, t', ret, ret'.
  split; [apply training_check; vm_compute; reflexivity|]. split; [apply t_gen_sane|].
  split; [apply okb_eq; vm_compute; reflexivity|].
  split; [apply okb_eq; vm_compute; reflexivity|].
  split; [exact Hret|]. split; [exact Hret'|].
  change 5 with (gr_size t_numeric).2 at 1 3. cbn zeta. rewrite Hn, Hn'.
  split; vm_compute; reflexivity.
Qed.
Print Assumptions C52_numeric_refuted.

(** With values that have no child it is false as well: such rows are sent to some child,
    but that child is pruned without them.  Here y is always p in training, and z in three
    of the four pruning rows. *)
Definition t_onlyp : grid := t_grid [t_row t_one 0 0 0; t_row t_one 0 1 1; t_row t_two 0 1 1]%N.
Definition t_olabel (i : nat) : string := nth i ["u"; "v"; "v"] "".
Definition t_mostz : grid := t_grid
  [t_row t_one 0 1 1; t_row t_one 2 0 0; t_row t_one 2 0 0; t_row t_one 2 0 0]%N.
Definition t_mlabel (i : nat) : string := nth i ["v"; "u"; "u"; "u"] "".

Theorem C52_unseen_refuted : ∃ g0 label0 g label gen t t' ret ret',
  training t_show g0 tc label0 ∧ training t_show g tc label ∧ sane_rules gen ∧ no_float_rules gen ∧
  infer_id3 t_show gen (λ _, id) (λ _, id) (λ _, id) g0 = Ok t ∧
  prune t_show ex_parse id id 64 (λ _, id) (λ _ _ _, id) (λ _, id) (λ _, id) [] t g = Ok t' ∧
  predict t_show ex_parse id id 64 (λ _ _, id) t g = Ok ret ∧
  predict t_show ex_parse id id 64 (λ _ _, id) t' g = Ok ret' ∧
  let order := [((0, 0), true)] in
  count_rows 4 (agree t_show g (dense_grid order ret)) = 4 ∧
  count_rows 4 (agree t_show g (dense_grid order ret')) = 1.
Proof.
  set (t := t_built t_yw t_onlyp). set (t' := of_ok (t_prune t t_mostz) no_tree).
  destruct (right_predicted t t_mostz) as (ret & Hret & Hn); [vm_compute; reflexivity|].
  destruct (right_predicted t' t_mostz) as (ret' & Hret' & Hn'); [vm_compute; reflexivity|].
  exists t_onlyp, t_olabel, t_mostz, t_mlabel, (t_gen t_yw), t, t', ret, ret'.
  split; [apply training_check; vm_compute; reflexivity|].
  split; [apply training_check; vm_compute; reflexivity|]. split; [apply t_gen_sane|].
  split; [apply t_gen_no_float; apply Forall_forall; repeat constructor|].
  split; [apply okb_eq; vm_compute; reflexivity|].
  split; [apply okb_eq; vm_compute; reflexivity|].
  split; [exact Hret|]. split; [exact Hret'|].
  change 4 with (gr_size t_mostz).2 at 1 3. cbn zeta. rewrite Hn, Hn'.
  split; vm_compute; reflexivity.
Qed.
Print Assumptions C52_unseen_refuted.

(** ** C83 *)

(** For one row: the classes of some of the training rows with their shares of them. *)
Theorem C83_shares : ∀ show sorter gen ko co ro pg cord ao po wo g c label what vs t,
  training show g c label → sane_rules gen → (gr_size g).2 ≠ 0 →
  (∀ p, any_order (ko p)) → (∀ p, any_order (co p)) → (∀ p, any_order (ro p)) →
  any_order cord → any_order ao → any_order po → (∀ i j, any_order (wo i j)) →
  (∀ l, sorter l ≡ₚ l ∧ StronglySorted (λ x y : string * Q, y.2 <= x.2)%Q (sorter l)) →
  infer_id3 show gen ko co ro g = Ok t →
  predictable show g what vs → (gr_size what).2 = 1 →
  ∃ l rows, predict_proba show sorter pg cord ao po wo t what = Ok l ∧
    rows ⊆ seq 0 (gr_size g).2 ∧ rows ≠ [] ∧ shares label rows l ∧
    (foldr (λ x s, x.2 + s) 0 l == 1)%Q.
Proof.
  intros show sorter gen ko co ro pg cord ao po wo g c label what vs t T Hg Hn Hko Hco Hro Hcord Hao Hpo Hwo Hs Ht P H1.
  pose proof (infer_id3_describes show g c label T gen ko co ro Hg Hko Hco Hro) as Hd. rewrite Ht in Hd.
  destruct (predict_proba_shares show sorter pg cord ao po wo g what vs label (seq 0 (gr_size g).2) t)
    as (l & rows & Hl & Hsub & Hne & Hsh); try done.
  { by destruct (gr_size g).2. }
  exists l, rows. split; [done|]. split; [done|]. split; [done|]. split; [done|].
  by eapply shares_sum.
Qed.
Print Assumptions C83_shares.

Definition by_share (x y : string * Q) : Prop := (y.2 <= x.2)%Q.
Global Instance by_share_dec x y : Decision (by_share x y).
Proof. unfold by_share. destruct (Qlt_le_dec x.2 y.2) as [H|H]; [right|by left]. by apply Qlt_not_le. Defined.
Definition share_sort (l : list (string * Q)) : list (string * Q) := merge_sort by_share l.

Lemma share_sort_ok l :
  share_sort l ≡ₚ l ∧ StronglySorted (λ x y : string * Q, y.2 <= x.2)%Q (share_sort l).
Proof.
  split; [apply merge_sort_Permutation|].
  assert (Transitive by_share) as Ht by (intros x y z H1 H2; unfold by_share in *; by eapply Qle_trans).
  assert (Total by_share) as Htot.
  { intros x y. unfold by_share. destruct (Qlt_le_dec x.2 y.2) as [H|H]; [right; by apply Qlt_le_weak|by left]. }
  apply (StronglySorted_merge_sort by_share).
Qed.

(** With only the split x > 1.5: two of the three rows on the right are u. *)
Example C83_ex :
  training t_show t_numeric tc t_nlabel ∧
  predictable t_show t_numeric (t_grid [t_row t_two 2 0 0]%N) ["u"; "v"] ∧
  match (t ← t_infer (take 1 t_x15) t_numeric;
         predict_proba t_show share_sort 64 id id id (λ _ _, id) t (t_grid [t_row t_two 2 0 0]%N)) with
  | Ok [(a, x); (b, y)] => a = "u" ∧ b = "v" ∧ (x == 2 # 3)%Q ∧ (y == 1 # 3)%Q
  | _ => False
  end.
Proof.
  split; [apply training_check; vm_compute; reflexivity|].
  split; [apply predictable_check; vm_compute; reflexivity|]. vm_compute. done.
Qed.
