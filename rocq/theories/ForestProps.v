(** Property C177: the rows that a tree of a random forest learns from. *)
From Verif Require Import Prelude BytesModel FloatModel AttrModel AttrSpec StoreModel DenseModel DenseProofs DenseSpec DenseCheck GridModel
  GridSpec GridProofs FilterModel PredModel PredProofs TableProofs ConfProps KnnProps Id3Model Id3Props CartProps RuleSpec
  BagModel BagSpec BagProofs BagVote BagFit BagOva BagProps.
From Flocq Require Import IEEE754.BinarySingleNaN IEEE754.Bits IEEE754.Binary.
Local Open Scope nat_scope.

(** ** How a tree splits its training instances *)

Lemma training_attribute ao co ro fuel drawr drawa want from sel g a s :
  training_instances ao co ro fuel drawr drawa want from = Ok (sel, g) → gr_get_attribute g a = Ok s →
  ∃ b, gr_get_attribute from b = Ok s.
Proof.
  unfold training_instances. rewrite bind_Ok. intros (insts & Hi & H).
  apply bind_Ok in H as (sel' & Hsel & H). apply bind_Ok in H as (v & Hv & H). injection H as <- <-.
  unfold sample_with_replacement in Hi. destruct (_ && _); [done|]. injection Hi as <-.
  unfold view_from_attrs in Hv. apply bind_Ok in Hv as (specs & Hr & Hv). injection Hv as <-.
  cbn [gr_get_attribute view_grid view_get_attribute v_attrs]. intros H.
  destruct (find_spec specs a) as [s'|] eqn:E; [|done]. injection H as ->.
  assert (s ∈ specs) as Hin.
  { clear -E. induction specs as [|r l IH]; cbn [find_spec] in E; [done|]. destruct (attr_equals _ _).
    - injection E as ->. left.
    - right. by apply IH. }
  apply resolve_Ok in Hr. apply elem_of_list_lookup in Hin as (i & Hi).
  destruct (Forall2_lookup_r _ _ _ _ _ Hr Hi) as (b & _ & Hb). exists b. exact Hb.
Qed.

Lemma split_rows_of g from at_ s key (kf : nat → string) m :
  (∀ asv, ∃ rows, gr_iter g asv = Ok rows ∧ map fst rows ≡ₚ seq 0 (gr_size g).2 ∧
     ∀ i fetch, (i, fetch) ∈ rows → fetch = res_mapM (λ a, gr_get from a i) asv) →
  (∀ a s' i, gr_get_attribute g a = Ok s' → i < (gr_size g).2 → ∃ v, gr_get from s' i = Ok v) →
  gr_get_attribute g at_ = Ok s →
  (∀ i, i < (gr_size g).2 → (raw ← gr_get from s i; key raw) = Ok (kf i)) →
  decompose g at_ s key = Ok m →
  ∃ order, order ≡ₚ seq 0 (gr_size g).2 ∧
    ∀ k, match filter (λ i, kf i = k) order with
         | [] => m !! k = None
         | rows => ∃ v, m !! k = Some v ∧ view_from_visible g rows (other_attrs g at_) = Ok v
         end.
Proof.
  intros Hit Hread Hs Hkey. unfold decompose. rewrite bind_Ok. intros (specs & Hspecs & H).
  assert (∀ a, a ∈ other_attrs g at_ → ∃ s, gr_get_attribute g a = Ok s) as Hother.
  { intros a Ha. apply resolve_Ok in Hspecs. apply elem_of_list_lookup in Ha as (i & Ha).
    destruct (Forall2_lookup_l _ _ _ _ _ Hspecs Ha) as (b & _ & Hb). eauto. }
  destruct (Hit (specs ++ [s])) as (rows & Hrows & Hperm & Hfetch).
  unfold map_over_rows in H. rewrite Hrows in H.
  destruct (collect_rows_run key rows kf ∅) as (m' & Hrun & Hm).
  { intros i fetch Hin.
    assert (i < (gr_size g).2) as Hi.
    { assert (i ∈ map fst rows) as Hi by (apply elem_of_list_fmap; by exists (i, fetch)).
      rewrite Hperm in Hi. apply elem_of_seq in Hi. lia. }
    rewrite (Hfetch i fetch Hin).
    assert (∃ buf, Forall2 (λ x y, gr_get from x i = Ok y) specs buf) as [buf Hbuf].
    { apply resolve_Ok in Hspecs. clear -Hspecs Hread Hi.
      induction Hspecs as [|a sp attrs specs Ha HF (buf & IH)].
      - exists []. constructor.
      - destruct (Hread a sp i Ha Hi) as [v Hv]. exists (v :: buf). by constructor. }
    specialize (Hkey i Hi). apply bind_Ok in Hkey as (raw & Hraw & Hk).
    exists buf, raw. split; [|done]. apply res_mapM_Ok. by apply Forall2_app_last. }
  rewrite Hrun in H. cbn [mbind res_bind fst] in H.
  destruct (views_of_spec g (other_attrs g at_) m' Hother) as (vs & Hvs & Hlook).
  rewrite Hvs in H. injection H as <-.
  exists (map fst rows). split; [done|]. intros k. specialize (Hlook k). rewrite Hm, lookup_empty in Hlook.
  simpl in Hlook. by destruct (filter (λ i, kf i = k) (map fst rows)).
Qed.

Lemma split_drawn ao co ro fuel drawr drawa want from sel g at_ s key (kf : nat → string) m :
  any_order ao → any_order co → distinct_attrs (gr_all_attrs from) → finds_own from →
  gr_class_attrs from ⊆ gr_all_attrs from → NoDup (gr_class_attrs from) → iter_agrees from →
  (∀ a s i, gr_get_attribute from a = Ok s → i < (gr_size from).2 → ∃ v, gr_get from s i = Ok v) →
  training_instances ao co ro fuel drawr drawa want from = Ok (sel, g) →
  gr_get_attribute g at_ = Ok s →
  (∀ i, i < (gr_size from).2 → (raw ← gr_get from s i; key raw) = Ok (kf i)) →
  decompose g at_ s key = Ok m →
  (∀ k, is_Some (m !! k) ↔ ∃ i, i < (gr_size from).2 ∧ kf i = k) ∧
  ∀ k v, m !! k = Some v →
    ∃ rows, NoDup rows ∧ (∀ i, i ∈ rows ↔ i < (gr_size from).2 ∧ kf i = k) ∧
      (view_size v).2 = length rows ∧
      ∀ j r s, rows !! j = Some r → view_get v s j = gr_get from s (drawr r).
Proof.
  intros Hao Hco Hd Hown Hcls Hnd Hit Hread Htr Hs Hkey.
  destruct (training_instances_spec ao co ro fuel drawr drawa want from sel g Hao Hco Hd Hown Hcls Hnd Htr)
    as (feats & _ & _ & _ & _ & _ & _ & Hz & Hg).
  assert ((gr_size g).2 = (gr_size from).2) as Hn by (by rewrite Hz).
  intros H.
  destruct (split_rows_of g from at_ s key kf m) as (order & Hperm & Hk);
    [| |done| |done|].
  { intros asv. destruct (Hit asv) as (rows & H1 & H2 & H3). exists rows.
    rewrite (training_instances_iter _ _ _ _ _ _ _ _ _ _ asv Htr), Hn. done. }
  { intros a s' i Ha Hi. rewrite Hn in Hi. destruct (training_attribute _ _ _ _ _ _ _ _ _ _ _ _ Htr Ha) as (b & Hb).
    by apply (Hread b). }
  { rewrite Hn. exact Hkey. }
  rewrite Hn in Hperm.
  assert (∀ k i, i ∈ filter (λ i, kf i = k) order ↔ i < (gr_size from).2 ∧ kf i = k) as Hmem.
  { intros k i. rewrite elem_of_list_filter, Hperm, elem_of_seq. split; intros [H1 H2]; split; done || lia. }
  split.
  - intros k. specialize (Hk k). specialize (Hmem k).
    destruct (filter (λ i, kf i = k) order) as [|i0 l] eqn:E.
    + rewrite Hk. split; [by intros []|]. intros (i & Hi). apply Hmem in Hi. by apply not_elem_of_nil in Hi.
    + destruct Hk as (v & -> & _). split; [|eauto]. intros _. exists i0. apply Hmem. left.
  - intros k v Hv. specialize (Hk k). specialize (Hmem k).
    assert (NoDup (filter (λ i, kf i = k) order)) as Hnd'.
    { apply NoDup_filter. rewrite Hperm. apply NoDup_seq. }
    destruct (filter (λ i, kf i = k) order) as [|i0 l] eqn:E; [congruence|].
    destruct Hk as (v' & Hv' & Hview). rewrite Hv in Hv'. injection Hv' as <-.
    exists (i0 :: l). split; [done|]. split; [done|].
    destruct (view_visible_shows _ _ _ _ Hview) as (H1 & H2 & _). split; [done|].
    intros j r s' Hj. rewrite (H2 j r s' Hj). apply Hg. apply Hmem. by eapply elem_of_list_lookup_2.
Qed.

(** The claim would be that the rows of the node for the value [k] of an attribute are the
    drawn rows with that value.  Instead they are the drawn rows [drawr r] for all [r] such
    that row [r] of the source, drawn or not, has that value. *)
Theorem C177_split_partial show ao co ro fuel drawr drawa want from sel g at_ s kf m :
  any_order ao → any_order co → distinct_attrs (gr_all_attrs from) → finds_own from →
  gr_class_attrs from ⊆ gr_all_attrs from → NoDup (gr_class_attrs from) → iter_agrees from →
  (∀ a s i, gr_get_attribute from a = Ok s → i < (gr_size from).2 → ∃ v, gr_get from s i = Ok v) →
  training_instances ao co ro fuel drawr drawa want from = Ok (sel, g) →
  gr_get_attribute g at_ = Ok s →
  (∀ i, i < (gr_size from).2 → (raw ← gr_get from s i; attr_decode show (sp_attr s) raw) = Ok (kf i)) →
  decompose_values show g at_ = Ok m →
  (∀ k, is_Some (m !! k) ↔ ∃ i, i < (gr_size from).2 ∧ kf i = k) ∧
  ∀ k v, m !! k = Some v →
    ∃ rows, NoDup rows ∧ (∀ i, i ∈ rows ↔ i < (gr_size from).2 ∧ kf i = k) ∧
      (view_size v).2 = length rows ∧
      ∀ j r s, rows !! j = Some r → view_get v s j = gr_get from s (drawr r).
Proof.
  intros H1 H2 H3 H4 H5 H6 H7 H8 H9 H10 H11. unfold decompose_values. rewrite H10.
  exact (split_drawn _ _ _ _ _ _ _ _ _ _ _ _ _ _ _ H1 H2 H3 H4 H5 H6 H7 H8 H9 H10 H11).
Qed.
Print Assumptions C177_split_partial.

(** So it is for a number: the node for "more than [val]" holds the drawn rows [drawr r] for
    all [r] such that row [r] of the source has more. *)
Theorem C177_threshold_partial ao co ro fuel drawr drawa want from sel g name prec s (x : nat → binary64) val m :
  any_order ao → any_order co → distinct_attrs (gr_all_attrs from) → finds_own from →
  gr_class_attrs from ⊆ gr_all_attrs from → NoDup (gr_class_attrs from) → iter_agrees from →
  (∀ a s i, gr_get_attribute from a = Ok s → i < (gr_size from).2 → ∃ v, gr_get from s i = Ok v) →
  training_instances ao co ro fuel drawr drawa want from = Ok (sel, g) →
  gr_get_attribute g (FloatA name prec) = Ok s →
  (∀ i, i < (gr_size from).2 → (raw ← gr_get from s i; unpack_float raw) = Ok (x i)) →
  decompose_threshold g (FloatA name prec) val = Ok m →
  let side i := if decide (Bcompare 53 1024 (x i) val = Some Gt) then "1" else "0" in
  (∀ k, is_Some (m !! k) ↔ ∃ i, i < (gr_size from).2 ∧ side i = k) ∧
  ∀ k v, m !! k = Some v →
    ∃ rows, NoDup rows ∧ (∀ i, i ∈ rows ↔ i < (gr_size from).2 ∧ side i = k) ∧
      (view_size v).2 = length rows ∧
      ∀ j r s, rows !! j = Some r → view_get v s j = gr_get from s (drawr r).
Proof.
  intros H1 H2 H3 H4 H5 H6 H7 H8 H9 H10 H11. unfold decompose_threshold. rewrite H10. intros H12.
  exact (split_drawn _ _ _ _ _ _ _ _ _ _ _ _ _ _ _ H1 H2 H3 H4 H5 H6 H7 H8 H9 H10
           (threshold_keys from s val _ x H11) H12).
Qed.
Print Assumptions C177_threshold_partial.

(** ** C177: a forest can learn the opposite of its data *)

(** Two rows: x = 1, y = p, w = 1, class u and x = 1, y = q, w = 2, class v.  Row 1 is drawn
    first and row 0 second, so the sample is the data. *)
Definition fo_train : grid := t_grid [t_row t_one 0 0 0; t_row t_one 1 1 1]%N.
Definition fo_label (i : nat) : string := nth i ["u"; "v"] "".
Definition fo_swap (i : nat) : nat := 1 - i.

(** The tree of a rule generator that always picks [a], and a forest of one such tree with
    all three features; [drawr] are the rows drawn. *)
Definition fo_fit (a : attr) (t : option tree) (g : grid) : res (option tree) :=
  u ← infer_id3 t_show (t_gen [(a, float_zero)]) (λ _, id) (λ _, id) (λ _, id) g; Ok (Some u).
Definition fo_forest (a : attr) (drawr : nat → nat) (from : grid) : res (option (bag (option tree)) * bool) :=
  forest_fit id id id (fo_fit a) [0] 10 (λ _, drawr) (λ _ i, i) None 1 3 None from.
(** What its model [i] answers when Predict asks it. *)
Definition fo_answer (b : bag (option tree)) (from : grid) (i : nat) : res grid :=
  g ← prediction_instances id id (bg_selected b) i from;
  match bg_models b !! i with
  | Some (Some t) => d ← t_predict t g; Ok (dense_grid [((0, 0), true)] d)
  | _ => Panic
  end.

Lemma shows_check_any show g rows label :
  iter_agrees g → shows_labelsb show g rows label = true → shows_labels show g rows label.
Proof.
  unfold shows_labelsb. rewrite !andb_true_iff. intros Hi ((H1 & H2) & H3). split; [done|].
  split; [by apply Nat.eqb_eq|]. split.
  - destruct (resolve _ _) as [specs| |]; [eauto|discriminate H2..].
  - intros r Hr. rewrite forallb_forall in H3. specialize (H3 r).
    destruct (get_class show g r) as [c| |].
    + f_equal. eapply bool_decide_eq_true_1, H3, in_seq. lia.
    + discriminate H3. apply in_seq. lia.
    + discriminate H3. apply in_seq. lia.
Qed.

Definition fo_wrong (i r : nat) : string := nth r ["v"; "u"] "".
Lemma fo_among : (∀ r, r < 2 → fo_wrong 0 r ∈ ["u"; "v"]) ∧ (∀ r, r < 2 → fo_label r ∈ ["u"; "v"]).
Proof.
  split; (intros [|[|r]] Hr; [| |lia]); cbn; apply elem_of_cons; rewrite elem_of_list_singleton; tauto.
Qed.

Lemma fo_bag_check a drawr (label : nat → string) :
  match fo_forest a drawr fo_train with
  | Ok (Some b, false) =>
      (length (bg_models b) =? 1) && okb (fo_answer b fo_train 0) &&
      shows_labelsb t_show (of_ok (fo_answer b fo_train 0) fo_train) 2 label
  | _ => false
  end = true →
  ∃ b, fo_forest a drawr fo_train = Ok (Some b, false) ∧ length (bg_models b) = 1 ∧
    ∃ g, fo_answer b fo_train 0 = Ok g ∧ shows_labels t_show g 2 label.
Proof.
  destruct (fo_forest a drawr fo_train) as [[[b|] [|]]| |]; try discriminate. rewrite !andb_true_iff.
  intros ((H1 & H2) & H3). exists b. split; [done|]. split; [by apply Nat.eqb_eq|].
  exists (of_ok (fo_answer b fo_train 0) fo_train). split; [by apply okb_eq|]. apply shows_check_any; [|done].
  apply okb_eq with (d := fo_train) in H2. unfold fo_answer in H2 |- *.
  destruct (prediction_instances _ _ _ _ _); cbn [mbind res_bind] in *; try discriminate.
  destruct (bg_models b !! 0) as [[t|]|]; try discriminate.
  destruct (t_predict t _); cbn [mbind res_bind of_ok] in *; try discriminate.
  apply in_order_agrees, dense_grid_in_order.
Qed.

(** The claim would be that a forest gives the training rows their classes, if every feature
    but a constant one determines the class and every row is drawn.  Here the rows are drawn
    once each, in another order.  Whichever of the two features is picked, whatever the number
    of processors and the schedule, and whatever the orders of the maps in Predict, both rows
    get the class of the other.  The same forest is right if the rows are drawn in order. *)
Theorem C177_refuted : ∃ from label drawr,
  (gr_size from).2 = 2 ∧ (∀ r, r < 2 → get_class t_show from r = Ok (label r)) ∧ label 0 ≠ label 1 ∧
  map drawr [0; 1] ≡ₚ [0; 1] ∧
  ∀ a, a ∈ [ty; tw] →
    (∃ b, fo_forest a drawr from = Ok (Some b, false) ∧ length (bg_models b) = 1 ∧
       ∀ n ret, 0 < n → predicts t_show n 1 (fo_answer b from) ex_parse 64 from ret →
         reads_class t_show ret 0 (label 1) ∧ reads_class t_show ret 1 (label 0)) ∧
    (∃ b, fo_forest a id from = Ok (Some b, false) ∧ length (bg_models b) = 1 ∧
       ∀ n ret, 0 < n → predicts t_show n 1 (fo_answer b from) ex_parse 64 from ret →
         reads_class t_show ret 0 (label 0) ∧ reads_class t_show ret 1 (label 1)).
Proof.
  exists fo_train, fo_label, fo_swap. split; [vm_compute; reflexivity|]. split.
  { intros [|[|r]] Hr; [vm_compute; reflexivity..|lia]. }
  split; [done|]. split; [apply Permutation_swap|].
  assert (∀ b label n ret, length (bg_models b) = 1 →
    (∃ g, fo_answer b fo_train 0 = Ok g ∧ shows_labels t_show g 2 label) →
    (∀ r, r < 2 → label r ∈ ["u"; "v"]) →
    0 < n → predicts t_show n 1 (fo_answer b fo_train) ex_parse 64 fo_train ret →
    reads_class t_show ret 0 (label 0) ∧ reads_class t_show ret 1 (label 1)) as Hall.
  { intros b label n ret _ (g & Hg & Hl) Hin Hn Hp.
    assert ((gr_size fo_train).2 = 2) as H2 by (vm_compute; reflexivity).
    assert (∀ i, i < 1 → ∃ g, fo_answer b fo_train i = Ok g ∧
              shows_labels t_show g (gr_size fo_train).2 ((λ _, label) i)) as Ha.
    { intros i Hi. assert (i = 0) as -> by lia. rewrite H2. eauto. }
    assert (gr_class_attrs fo_train = [CatA "c" ["u"; "v"]]) as Hc by (vm_compute; reflexivity).
    assert (∀ r, r < 2 → reads_class t_show ret r (label r)) as H.
    { intros r Hr.
      apply (C61_majority t_show n 1 (fo_answer b fo_train) (λ _, label) ex_parse 64 fo_train "c" ["u"; "v"]).
      - exact Hn.
      - apply Nat.lt_0_1.
      - exact Ha.
      - exact Hc.
      - intros i r' _ Hr'. rewrite H2 in Hr'. by apply Hin.
      - vm_compute. reflexivity.
      - exact Hp.
      - rewrite H2. exact Hr.
      - intros c' Hc'. unfold votes_for. cbn [seq]. rewrite filter_cons_False by congruence.
        rewrite filter_cons_True by done. cbn [filter list_filter length]. apply Nat.lt_0_1. }
    clear Ha Hc Hp Hg.
    split; apply H; [apply Nat.lt_0_2|apply Nat.lt_1_2]. }
  intros a Ha.
  assert (a = ty ∨ a = tw) as Ha'
    by (clear Hall; apply elem_of_cons in Ha as [Ha|Ha]; [by left|apply elem_of_list_singleton in Ha; by right]). clear Ha. split.
  - destruct (fo_bag_check a fo_swap (fo_wrong 0)) as (b & H1 & H2 & H3).
    { destruct Ha' as [-> | ->]; vm_compute; reflexivity. }
    exists b. split; [done|]. split; [done|]. intros n ret Hn Hp.
    exact (Hall b (fo_wrong 0) n ret H2 H3 (proj1 fo_among) Hn Hp).
  - destruct (fo_bag_check a id fo_label) as (b & H1 & H2 & H3).
    { destruct Ha' as [-> | ->]; vm_compute; reflexivity. }
    exists b. split; [done|]. split; [done|]. intros n ret Hn Hp.
    exact (Hall b fo_label n ret H2 H3 (proj2 fo_among) Hn Hp).
Qed.
Print Assumptions C177_refuted.

Lemma fo_reads a s i :
  gr_get_attribute fo_train a = Ok s → i < (gr_size fo_train).2 → ∃ v, gr_get fo_train s i = Ok v.
Proof.
  set (rows := [t_row t_one 0 0 0; t_row t_one 1 1 1]%N).
  set (h := [DAdd tx; DAdd ty; DAdd tw; DAdd tc; DClass tc true; DExtend (length rows)] ++
     concat (imap (λ i r, zip_with (λ s v, DSet s i v) t_specs r) rows)).
  apply (dense_grid_reads 64 h [((1, 2), true)] (t_dense rows) a s i).
  apply check_reachable. vm_compute. reflexivity.
Qed.

(** The hypotheses of [C177_split_partial] for that table: the node for y = p holds one row,
    the one with y = q, w = 2 and class v. *)
Example C177_ex :
  distinct_attrs (gr_all_attrs fo_train) ∧ finds_own fo_train ∧ gr_class_attrs fo_train ⊆ gr_all_attrs fo_train ∧
  NoDup (gr_class_attrs fo_train) ∧ iter_agrees fo_train ∧
  (∀ a s i, gr_get_attribute fo_train a = Ok s → i < (gr_size fo_train).2 → ∃ v, gr_get fo_train s i = Ok v) ∧
  match training_instances id id id 10 fo_swap (λ i, i) 3 fo_train with
  | Ok (_, g) =>
      gr_get_attribute g ty = Ok (Spec 1 0 ty) ∧
      match decompose_values t_show g ty with
      | Ok m => match m !! "p" with
                | Some v => (view_size v).2 = 1 ∧ view_get v (Spec 1 0 ty) 0 = Ok (byte8 1) ∧
                            view_get v (Spec 1 2 tc) 0 = Ok (byte8 1)
                | None => False
                end
      | _ => False
      end
  | _ => False
  end.
Proof.
  split; [apply distinctb_spec; vm_compute; reflexivity|].
  split; [apply own_check_ok; vm_compute; reflexivity|].
  split. { apply (bool_decide_eq_true_1 _). vm_compute. reflexivity. }
  split. { apply (bool_decide_eq_true_1 _). vm_compute. reflexivity. }
  split; [unfold fo_train, t_grid; apply in_order_agrees, dense_grid_in_order|].
  split; [exact fo_reads|]. vm_compute. split; [reflexivity|]. split; [reflexivity|]. split; reflexivity.
Qed.
