(** Properties C147 to C152: saving and loading classifiers. *)
From Coq Require Import Ascii.
From Verif Require Import Prelude BytesModel AttrModel AttrSpec AttrProofs StoreModel DenseModel
  DenseSpec GridModel GridSpec GridProofs TableProofs CsvModel PredModel SerModel SerSpec SerProofs
  SerCodec SerProps Id3Model NbModel BagModel SaveModel SaveSpec SaveProofs SaveTrees SaveOthers SaveBag
  SaveFiles SaveKinds SaveCodec.
From Flocq Require Import IEEE754.Bits IEEE754.Binary.
Local Open Scope nat_scope.

(** ** Classifiers for the examples *)

Definition f_1_5 : binary64 := b64_of_bits 4609434218613702656.
Definition f_inf : binary64 := B754_infinity 53 1024 false.
Definition leaf (c : string) (n : nat) : tree := Node true (Some []) {[c := n]} c sc None.
Definition split_at (v : binary64) : tree :=
  Node false (Some [("0", leaf "u" 3); ("1", leaf "v" 2)]) ∅ "" sc (Some (Rule (Some sx) v)).

Lemma sx_saves : attr_saves never_nil sx.
Proof. split; [|exact I]. split; [reflexivity|]. vm_compute. discriminate. Qed.
Lemma sc_saves : attr_saves never_nil sc.
Proof. apply (tb_text _ _ _ ser_table). left. Qed.

Lemma leaf_saves c n : is_text c → (N.of_nat n <= 2^53)%N → tree_saves never_nil (leaf c n).
Proof.
  intros Hc Hn. constructor; try done.
  - intros l k t [= <-] H. by apply elem_of_nil in H.
  - intros l k t [= <-] H. by apply elem_of_nil in H.
  - intros k m H. apply lookup_singleton_Some in H as [<- <-]. done.
Qed.

Lemma split_saves : tree_saves never_nil (split_at f_1_5).
Proof.
  constructor; try done.
  - intros l k t [= <-] H. repeat (apply elem_of_cons in H as [[= -> ->]|H]; [done|]). by apply elem_of_nil in H.
  - intros l k t [= <-] H.
    repeat (apply elem_of_cons in H as [[= -> ->]|H]; [apply leaf_saves; [done|vm_compute; discriminate]|]).
    by apply elem_of_nil in H.
  - intros ru a [= <-] [= <-]. split; [exact sx_saves|reflexivity].
Qed.

Lemma empty_table : table never_nil empty_grid ser_cell.
Proof.
  assert (gr_all_attrs empty_grid = [sc; sx; sb]) as Hall by (vm_compute; reflexivity).
  assert (gr_class_attrs empty_grid = [sc]) as Hcls by (vm_compute; reflexivity).
  split.
  - apply dense_grid_in_order.
  - rewrite Hall. apply distinctb_spec. reflexivity.
  - rewrite Hall, Hcls. intros a Ha. apply elem_of_list_singleton in Ha as ->. left.
  - rewrite Hcls. apply NoDup_singleton.
  - vm_compute. reflexivity.
  - vm_compute. reflexivity.
  - vm_compute. reflexivity.
  - rewrite Hall. intros a Ha. by apply (tb_text _ _ _ ser_table).
  - rewrite Hall. intros a Ha.
    repeat (apply elem_of_cons in Ha as [->|Ha];
      [eexists; split; [vm_compute; reflexivity|]; intros i Hi;
       assert ((gr_size empty_grid).2 = 0) as H0 by (vm_compute; reflexivity);
       rewrite H0 in Hi; destruct (Nat.nlt_0_r _ Hi)|]).
    clear -Ha. by apply elem_of_nil in Ha.
Qed.

(** ** C147 *)

(** ID3 trees and random trees saved to a file predict the same when they are loaded. *)
Theorem C147_trees : ∀ marshal unmarshal fmt fparse is_nil t,
  json_faithful marshal unmarshal → float_text fmt fparse →
  tree_saves is_nil t → attr_saves is_nil (t_class_attr t) →
  ∃ ar ar' t1 t2,
    id3_save marshal fmt is_nil (Some t) = Ok ar ∧
    tree_file_load unmarshal fparse ar = Ok (Some t1) ∧
    random_tree_save marshal fmt is_nil (Some t) = Ok ar' ∧
    tree_file_load unmarshal fparse ar' = Ok (Some t2) ∧
    predict_alike t t1 ∧ predict_alike t t2 ∧
    t_class_attr t1 = t_class_attr t ∧ t_class_attr t2 = t_class_attr t.
Proof.
  intros marshal unmarshal fmt fparse is_nil t Hf Hfl Ht Ha.
  destruct (tree_files marshal unmarshal Hf fmt fparse Hfl is_nil t Ht Ha) as (ar & ar' & E1 & E2 & E3 & E4).
  exists ar, ar', (set_class_attr (reload t) (t_class_attr t)), (set_class_attr (reload t) (t_class_attr t)).
  repeat (split; [done || apply reload_alike|]). split; by destruct (reload t).
Qed.
Print Assumptions C147_trees.

Example C147_ex :
  json_faithful toy_marshal toy_unmarshal ∧ float_text toy_fmt toy_parse ∧
  tree_saves never_nil (split_at f_1_5) ∧ attr_saves never_nil (t_class_attr (split_at f_1_5)) ∧
  (ar ← id3_save toy_marshal toy_fmt never_nil (Some (split_at f_1_5));
   t ← tree_file_load toy_unmarshal toy_parse ar;
   match t with
   | Some (Node false (Some l) _ _ a (Some r)) =>
       Ok (map (λ kv, (kv.1, t_class kv.2)) l, a, ru_attr r, bits_of_b64 (ru_val r))
   | _ => Err
   end) = Ok ([("0", "u"); ("1", "v")], sc, Some sx, 4609434218613702656%Z).
Proof.
  split; [exact toy_faithful|]. split; [exact toy_floats|]. split; [exact split_saves|].
  split; [exact sc_saves|]. vm_compute. reflexivity.
Qed.

(** A tree with a threshold that is not finite is refused when it is saved. *)
Theorem C147_unbounded_refused : ∀ marshal fmt is_nil t,
  unbounded t →
  id3_save marshal fmt is_nil (Some t) = Err ∧ random_tree_save marshal fmt is_nil (Some t) = Err.
Proof.
  intros marshal fmt is_nil t Ht. unfold id3_save, random_tree_save.
  destruct (create_stub_opened marshal (Meta 1 "ID3" "1.0" None)) as (s & -> & _).
  destruct (create_stub_opened marshal (Meta 1 "KNN" "1.0" None)) as (s' & -> & _).
  cbn [mbind res_bind]. by rewrite !unbounded_saves.
Qed.
Print Assumptions C147_unbounded_refused.

Example C147_unbounded_ex : unbounded (split_at f_inf) ∧
  id3_save toy_marshal toy_fmt never_nil (Some (split_at f_inf)) = Err.
Proof. split; [by eapply unbounded_here|]. vm_compute. reflexivity. Qed.

(** ** C148 *)

(** A saved naive Bayes classifier is loaded with all its counts, probabilities and
    training attributes. *)
Theorem C148_bayes : ∀ marshal unmarshal fmt fparse is_nil attr_order got pg n on cell,
  json_faithful marshal unmarshal → float_text fmt fparse → any_order attr_order → full_reads got →
  table is_nil on cell → (gr_size on).2 = 0 → nb_saves is_nil n on →
  ∃ ar d, nb_file_save marshal fmt is_nil attr_order n on = Ok ar ∧
    nb_file_load unmarshal fparse got pg ar = Ok (n, d) ∧ same_table on cell d.
Proof.
  intros marshal unmarshal fmt fparse is_nil attr_order got pg n on cell Hf Hfl Ho Hg T Hr Hs.
  destruct (nb_files marshal unmarshal Hf fmt fparse Hfl is_nil attr_order Ho got Hg pg n on cell T Hr Hs)
    as (jc & d & E1 & E2 & E3). eauto.
Qed.
Print Assumptions C148_bayes.

Definition some_nb : nb := NB {["v" := [f_1_5; float_zero]]} {["u" := 3; "v" := 1]} 4 2 [sb].

Lemma some_nb_saves : nb_saves never_nil some_nb empty_grid.
Proof.
  assert (gr_all_attrs empty_grid = [sc; sx; sb]) as Hall by (vm_compute; reflexivity).
  split.
  - rewrite Hall. intros a Ha. apply elem_of_list_singleton in Ha as ->.
    right. right. left.
  - intros k c H. cbn [nb_class some_nb] in H. apply lookup_insert_Some in H as [[<- <-]|[_ H]]; [split; [done|vm_compute; discriminate]|].
    apply lookup_singleton_Some in H as [<- <-]. split; [done|vm_compute; discriminate].
  - intros k l H. cbn [nb_cond some_nb] in H. apply lookup_singleton_Some in H as [<- <-]. split; [done|].
    repeat constructor.
  - vm_compute. reflexivity.
  - vm_compute. reflexivity.
  - vm_compute. reflexivity.
Qed.

Example C148_ex : table never_nil empty_grid ser_cell ∧ nb_saves never_nil some_nb empty_grid ∧
  (ar ← nb_file_save toy_marshal toy_fmt never_nil (@rev attr) some_nb empty_grid;
   r ← nb_file_load toy_unmarshal toy_parse fill_buffer 64 ar;
   Ok (nb_attrs r.1, nb_training r.1, nb_features r.1, default 0 (nb_class r.1 !! "u"),
       map bits_of_b64 (default [] (nb_cond r.1 !! "v")), dense_size r.2)) =
  Ok ([sb], 4, 2, 3, [4609434218613702656; 0]%Z, (3, 0)).
Proof. split; [exact empty_table|]. split; [exact some_nb_saves|]. vm_compute. reflexivity. Qed.

(** ** C149 *)

(** Saved nearest neighbours are loaded with their parameters and training data. *)
Theorem C149_neighbours : ∀ marshal unmarshal is_nil attr_order got pg k train cell,
  json_faithful marshal unmarshal → any_order attr_order → full_reads got →
  table is_nil train cell → knn_text k →
  ∃ ar d, knn_file_save marshal is_nil attr_order k train = Ok ar ∧
    knn_file_load unmarshal got pg ar = Ok (k, d) ∧ same_table train cell d.
Proof. intros. by apply knn_files. Qed.
Print Assumptions C149_neighbours.

Definition some_knn : knn := Knn "euclidean" "kdtree" 5 true false.

Example C149_ex : table never_nil ser_grid ser_cell ∧ knn_text some_knn ∧
  (ar ← knn_file_save toy_marshal never_nil (@rev attr) some_knn ser_grid;
   r ← knn_file_load toy_unmarshal fill_buffer 64 ar;
   Ok (r.1, dense_size r.2)) = Ok (some_knn, (3, 2)).
Proof.
  split; [exact ser_table|]. split; [|vm_compute; reflexivity].
  split; [reflexivity|]. split; [reflexivity|]. vm_compute. discriminate.
Qed.

(** ** C150 *)

(** Ensembles (bagged models and, with another prefix, random forests) of members that
    can be stored are loaded with all their members, in a model with as many members.
    Missing: models that have another number of members, see below. *)
Theorem C150_ensembles_partial : ∀ marshal unmarshal b64 unb64 is_nil attr_order got pg
    C (save : C → ser → string → res ser) (load : archive → string → res C) R b features on cell,
  json_faithful marshal unmarshal → json_bytes marshal → base64_text b64 unb64 →
  any_order attr_order → full_reads got →
  bag_saves is_nil b features on cell →
  (∀ c, c ∈ bg_models b → ∃ es, stored (save c) load es (R c)) →
  (∃ ar b' d, bag_file_save marshal b64 is_nil attr_order save b features on = Ok ar ∧
     bag_file_load unmarshal unb64 got pg load (length (bg_models b)) ar = Ok (b', features, d) ∧
     same_bag R b b' ∧ same_table on cell d) ∧
  (∃ ar b' d, forest_save marshal b64 is_nil attr_order save b features on = Ok ar ∧
     forest_load unmarshal unb64 got pg load (Z.of_nat (length (bg_models b))) ar = Ok (b', features, d) ∧
     same_bag R b b' ∧ same_table on cell d).
Proof. intros. by eapply bag_files. Qed.
Print Assumptions C150_ensembles_partial.

(** Trees, naive Bayes and bagged models of such are members that can be stored. *)
Theorem C150_trees_stored : ∀ marshal unmarshal fmt fparse is_nil t,
  json_faithful marshal unmarshal → float_text fmt fparse →
  tree_saves is_nil t → attr_saves is_nil (t_class_attr t) →
  ∃ es, stored (tree_save marshal fmt is_nil (Some t)) (tree_load unmarshal fparse) es
    (tree_alike (Some t)).
Proof.
  intros marshal unmarshal fmt fparse is_nil t Hf Hfl Ht Ha.
  apply (tree_member_stored marshal unmarshal Hf fmt fparse Hfl is_nil). by exists t.
Qed.
Print Assumptions C150_trees_stored.

Theorem C150_bayes_stored : ∀ marshal unmarshal fmt fparse is_nil attr_order got pg n on cell,
  json_faithful marshal unmarshal → float_text fmt fparse → any_order attr_order → full_reads got →
  table is_nil on cell → (gr_size on).2 = 0 → nb_saves is_nil n on →
  ∃ es, stored (nb_save marshal fmt is_nil attr_order n on) (nb_load unmarshal fparse got pg) es
    (λ r, r.1 = n ∧ same_table on cell r.2).
Proof.
  intros marshal unmarshal fmt fparse is_nil attr_order got pg n on cell Hf Hfl Ho Hg T Hr Hs.
  destruct (nb_stored marshal unmarshal Hf fmt fparse Hfl is_nil attr_order Ho got Hg pg n on cell T Hr Hs)
    as (jc & H). eauto.
Qed.
Print Assumptions C150_bayes_stored.

Theorem C150_bags_stored : ∀ marshal unmarshal b64 unb64 is_nil attr_order got pg
    C (save : C → ser → string → res ser) (load : archive → string → res C) R b features on cell,
  json_faithful marshal unmarshal → json_bytes marshal → base64_text b64 unb64 →
  any_order attr_order → full_reads got →
  bag_saves is_nil b features on cell →
  (∀ c, c ∈ bg_models b → ∃ es, stored (save c) load es (R c)) →
  ∃ es, stored (bag_save marshal b64 is_nil attr_order save b features on)
    (bag_load unmarshal unb64 got pg load (length (bg_models b))) es
    (λ r, same_bag R b r.1.1 ∧ r.1.2 = features ∧ same_table on cell r.2).
Proof. intros. by eapply bag_stored. Qed.
Print Assumptions C150_bags_stored.

Definition some_forest : bag (option tree) :=
  Bag [Some (split_at f_1_5); Some (leaf "v" 5)] {[0 := [sx; sb]; 1 := [sb]]}.

Lemma some_forest_saves : bag_saves never_nil some_forest 2 empty_grid ser_cell.
Proof.
  assert (gr_all_attrs empty_grid = [sc; sx; sb]) as Hall by (vm_compute; reflexivity).
  split; [exact empty_table|vm_compute; reflexivity|clear; lia|].
  rewrite Hall. intros i l a H Ha. cbn [bg_selected some_forest] in H. apply lookup_insert_Some in H as [[<- <-]|[_ H]].
  - repeat (apply elem_of_cons in Ha as [->|Ha]; [repeat constructor|]). clear -Ha. by apply elem_of_nil in Ha.
  - apply lookup_singleton_Some in H as [<- <-].
    repeat (apply elem_of_cons in Ha as [->|Ha]; [repeat constructor|]). clear -Ha. by apply elem_of_nil in Ha.
Qed.

Lemma some_forest_members : Forall (tree_member never_nil) (bg_models some_forest).
Proof.
  constructor; [|constructor; [|constructor]].
  - eexists. split; [done|]. split; [exact split_saves|exact sc_saves].
  - eexists. split; [done|]. split; [|exact sc_saves].
    apply leaf_saves; [done|]. vm_compute. discriminate.
Qed.

Definition summary (r : bag (option tree) * Z * dense) :=
  (map (λ c, match c with Some t => t_class t | None => "?" end) (bg_models r.1.1),
   default [] (bg_selected r.1.1 !! 0), default [] (bg_selected r.1.1 !! 1), r.1.2).
Definition saved_forest : res archive :=
  forest_save toy_marshal toy_b64 never_nil (@rev attr) (tree_save toy_marshal toy_fmt never_nil) some_forest 2 empty_grid.
Definition load_forest (size : Z) (ar : archive) :=
  forest_load toy_unmarshal toy_unb64 fill_buffer 64 (tree_load toy_unmarshal toy_parse) size ar.

Example C150_ex : bag_saves never_nil some_forest 2 empty_grid ser_cell ∧
  Forall (tree_member never_nil) (bg_models some_forest) ∧ base64_text toy_b64 toy_unb64 ∧
  json_bytes toy_marshal ∧
  (ar ← saved_forest; r ← load_forest 2 ar; Ok (summary r)) = Ok (["" ; "v"], [sx; sb], [sb], 2%Z).
Proof.
  split; [exact some_forest_saves|]. split; [exact some_forest_members|].
  split; [exact toy_base64|]. split; [exact toy_bytes|]. vm_compute. reflexivity.
Qed.

(** A forest loaded into one of another size keeps only the first trees, without an
    error, or fails. *)
Theorem C150_other_sizes : ∀ marshal unmarshal fmt fparse b64 unb64 is_nil attr_order got pg
    b features on cell,
  json_faithful marshal unmarshal → json_bytes marshal → float_text fmt fparse →
  base64_text b64 unb64 → any_order attr_order → full_reads got →
  bag_saves is_nil b features on cell → Forall (tree_member is_nil) (bg_models b) →
  ∃ ar, forest_save marshal b64 is_nil attr_order (tree_save marshal fmt is_nil) b features on = Ok ar ∧
    (∀ size, (size <= Z.of_nat (length (bg_models b)))%Z →
       ∃ b' d, forest_load unmarshal unb64 got pg (tree_load unmarshal fparse) size ar = Ok (b', features, d) ∧
         Forall2 tree_alike (take (Z.to_nat size) (bg_models b)) (bg_models b')) ∧
    (∀ size, (Z.of_nat (length (bg_models b)) < size)%Z →
       forest_load unmarshal unb64 got pg (tree_load unmarshal fparse) size ar = Err).
Proof. intros. by eapply forest_sizes. Qed.
Print Assumptions C150_other_sizes.

(** So loading a forest successfully does not mean that its trees were loaded. *)
Theorem C150_any_size_refuted : ∃ ar r,
  saved_forest = Ok ar ∧ load_forest 1 ar = Ok r ∧
  length (bg_models some_forest) = 2 ∧ length (bg_models r.1.1) = 1.
Proof.
  destruct (C150_other_sizes toy_marshal toy_unmarshal toy_fmt toy_parse toy_b64 toy_unb64 never_nil (@rev attr)
    fill_buffer 64 some_forest 2 empty_grid ser_cell toy_faithful toy_bytes toy_floats toy_base64 rev_order
    (λ _ _, eq_refl) some_forest_saves some_forest_members) as (ar & E & H & _).
  destruct (H 1%Z) as (b' & d & E' & HR); [vm_compute; discriminate|].
  exists ar, (b', 2%Z, d). split; [exact E|]. split; [exact E'|]. split; [done|].
  apply Forall2_length in HR. cbn in HR. cbn. by rewrite <- HR.
Qed.
Print Assumptions C150_any_size_refuted.

(** ** C151 *)

(** Nearest neighbours close the file when they are saved, so that no bagged model that
    has them as members can be saved. *)
Theorem C151_neighbours_in_bags : ∀ marshal b64 is_nil attr_order C (train : C → grid) b features on,
  any_order attr_order → bg_models b ≠ [] →
  (∀ c, c ∈ bg_models b → ∃ cell, table is_nil (train c) cell) →
  bag_file_save marshal b64 is_nil attr_order
    (λ c, knn_save marshal is_nil attr_order (train c)) b features on = Err.
Proof. intros. by apply bag_of_neighbours. Qed.
Print Assumptions C151_neighbours_in_bags.

Theorem C151_saved_in_bags_refuted : ∃ ar,
  knn_file_save toy_marshal never_nil (@rev attr) some_knn ser_grid = Ok ar ∧
  bag_file_save toy_marshal toy_b64 never_nil (@rev attr) (λ g, knn_save toy_marshal never_nil (@rev attr) g)
    (Bag [ser_grid] ∅) 2 empty_grid = Err.
Proof.
  destruct (C149_neighbours toy_marshal toy_unmarshal never_nil (@rev attr) fill_buffer 64 some_knn ser_grid ser_cell
    toy_faithful rev_order (λ _ _, eq_refl) ser_table (proj1 (proj2 C149_ex))) as (ar & d & E & _).
  exists ar. split; [exact E|].
  apply (C151_neighbours_in_bags toy_marshal toy_b64 never_nil (@rev attr) grid (λ g, g)); [apply rev_order|done|].
  intros c Hc. apply elem_of_list_singleton in Hc as ->. exists ser_cell. exact ser_table.
Qed.
Print Assumptions C151_saved_in_bags_refuted.

(** ** C152 *)

(** A file that holds another kind of classifier is refused.  Missing: see below. *)
Theorem C152_other_kinds_partial : ∀ marshal unmarshal fmt fparse b64 unb64 is_nil attr_order got pg k ar,
  json_faithful marshal unmarshal → float_text fmt fparse → any_order attr_order →
  written marshal fmt b64 is_nil attr_order k ar →
  (k ≠ KTree → k ≠ KRandomTree → tree_file_load unmarshal fparse ar = Err) ∧
  (k ≠ KBayes → nb_file_load unmarshal fparse got pg ar = Err) ∧
  (k ≠ KBag → ∀ n, bag_file_load unmarshal unb64 got pg (tree_load unmarshal fparse) n ar = Err) ∧
  (k ≠ KForest → ∀ size, forest_load unmarshal unb64 got pg (tree_load unmarshal fparse) size ar = Err) ∧
  (k = KTree ∨ k = KBag → knn_file_load unmarshal got pg ar = Err).
Proof.
  intros marshal unmarshal fmt fparse b64 unb64 is_nil attr_order got pg k ar Hf Hfl Ho Hw.
  destruct (other_kinds marshal unmarshal Hf fmt fparse Hfl b64 unb64 is_nil attr_order Ho got pg k ar Hw)
    as (H1 & H2 & H3 & H4). repeat (split; [done|]).
  intros Hk. rewrite (neighbours_load_other marshal unmarshal Hf fmt fparse Hfl b64 is_nil attr_order Ho got pg k ar Hw).
  - by destruct Hk as [-> | ->].
  - by destruct Hk as [-> | ->].
Qed.
Print Assumptions C152_other_kinds_partial.

Example C152_ex : ∃ ar, written toy_marshal toy_fmt toy_b64 never_nil (@rev attr) KTree ar ∧
  nb_file_load toy_unmarshal toy_parse fill_buffer 64 ar = Err ∧ load_forest 2 ar = Err ∧
  knn_file_load toy_unmarshal fill_buffer 64 ar = Err.
Proof.
  eexists. split; [|split; [|split]].
  - eapply written_id3; [exact split_saves|exact sc_saves|vm_compute; reflexivity].
  - vm_compute. reflexivity.
  - vm_compute. reflexivity.
  - vm_compute. reflexivity.
Qed.

(** Files of random trees, naive Bayes and random forests bear the name of nearest
    neighbours: loading them as such is a panic. *)
Theorem C152_neighbours_panic : ∀ marshal unmarshal fmt fparse b64 is_nil attr_order got pg k ar,
  json_faithful marshal unmarshal → float_text fmt fparse → any_order attr_order →
  written marshal fmt b64 is_nil attr_order k ar →
  k = KRandomTree ∨ k = KBayes ∨ k = KForest → knn_file_load unmarshal got pg ar = Panic.
Proof.
  intros marshal unmarshal fmt fparse b64 is_nil attr_order got pg k ar Hf Hfl Ho Hw Hk.
  rewrite (neighbours_load_other marshal unmarshal Hf fmt fparse Hfl b64 is_nil attr_order Ho got pg k ar Hw).
  - by destruct Hk as [-> | [-> | ->]].
  - by destruct Hk as [-> | [-> | ->]].
Qed.
Print Assumptions C152_neighbours_panic.

Theorem C152_refuted : ∃ ar, written toy_marshal toy_fmt toy_b64 never_nil (@rev attr) KBayes ar ∧
  knn_file_load toy_unmarshal fill_buffer 64 ar = Panic.
Proof.
  destruct (C148_bayes toy_marshal toy_unmarshal toy_fmt toy_parse never_nil (@rev attr) fill_buffer 64 some_nb empty_grid
    ser_cell toy_faithful toy_floats rev_order (λ _ _, eq_refl) empty_table) as (ar & d & E & _);
    [vm_compute; reflexivity|exact some_nb_saves|].
  exists ar. assert (written toy_marshal toy_fmt toy_b64 never_nil (@rev attr) KBayes ar) as Hw.
  { eapply written_bayes; [exact empty_table|vm_compute; reflexivity|exact some_nb_saves|exact E]. }
  split; [exact Hw|]. eapply C152_neighbours_panic; [exact toy_faithful|exact toy_floats|apply rev_order|exact Hw|].
  right. by left.
Qed.
Print Assumptions C152_refuted.

(** Files of another version, or that are no classifier files, are refused. *)
Theorem C152_version : ∀ unmarshal fparse unb64 got pg ar,
  get_named_file ar "CLS_MANIFEST" ≠ Ok format_version → get_named_file ar "CLS_MANIFEST" ≠ Panic →
  tree_file_load unmarshal fparse ar = Err ∧ nb_file_load unmarshal fparse got pg ar = Err ∧
  knn_file_load unmarshal got pg ar = Err ∧
  (∀ n, bag_file_load unmarshal unb64 got pg (tree_load unmarshal fparse) n ar = Err) ∧
  (∀ size, forest_load unmarshal unb64 got pg (tree_load unmarshal fparse) size ar = Err).
Proof.
  intros unmarshal fparse unb64 got pg ar H H'.
  assert (read_stub unmarshal ar = Err) as E.
  { unfold read_stub. destruct (get_named_file ar "CLS_MANIFEST") as [b| |]; [|done|done].
    cbn [mbind res_bind]. rewrite bool_decide_eq_false_2; [done|]. congruence. }
  unfold tree_file_load, nb_file_load, knn_file_load, bag_file_load, forest_load. by rewrite E.
Qed.
Print Assumptions C152_version.

Example C152_version_ex : get_named_file [("CLS_MANIFEST", [50%N])] "CLS_MANIFEST" = Ok [50%N] ∧
  [50%N] ≠ format_version ∧
  tree_file_load toy_unmarshal toy_parse [("CLS_MANIFEST", [50%N])] = Err.
Proof. split; [vm_compute; reflexivity|]. split; [done|]. vm_compute. reflexivity. Qed.
