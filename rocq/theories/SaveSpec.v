(** Vocabulary for the properties of saving and loading classifiers. *)
From Verif Require Import Prelude BytesModel AttrModel StoreModel DenseModel GridModel CsvModel
  PredModel SerModel SerSpec Id3Model NbModel BagModel SaveModel.
From Coq Require Import QArith.
From Flocq Require Import IEEE754.Bits IEEE754.Binary.
Local Open Scope nat_scope.

(** ** The trusted facts *)

(** encoding/json writes bytes. *)
Definition json_bytes (marshal : json → list N) : Prop :=
  ∀ j, Forall (λ b, (b < 256)%N) (marshal j).

(** encoding/json writes a finite float64 as a number that strconv.ParseFloat reads back;
    zero is written as 0. *)
Record float_text (fmt : binary64 → string) (fparse : string → option binary64) : Prop := {
  ft_number : ∀ f, is_finite 53 1024 f = true → number (fmt f) = true;
  ft_parse : ∀ f, is_finite 53 1024 f = true → fparse (fmt f) = Some f;
  ft_zero : fmt float_zero = "0"
}.

(** Base64 is ASCII text and can be decoded. *)
Definition base64_text (b64 : list N → string) (unb64 : string → option (list N)) : Prop :=
  ∀ l, Forall (λ b, (b < 256)%N) l → is_text (b64 l) ∧ unb64 (b64 l) = Some l.

(** ** Attributes and counts *)

(** An attribute that survives saving. *)
Definition attr_saves (is_nil : attr → bool) (a : attr) : Prop :=
  attr_sendable a ∧ has_slice (a, is_nil a).

(** A class with a count. *)
Definition count_saves (k : string) (n : nat) : Prop := is_text k ∧ (N.of_nat n <= 2^53)%N.

(** ** Trees *)

(** All text is UTF-8, all thresholds are finite. *)
Inductive tree_saves (is_nil : attr → bool) : tree → Prop :=
| node_saves leaf cs dist class cattr r :
    (∀ l k c, cs = Some l → (k, c) ∈ l → is_text k) →
    (∀ l k c, cs = Some l → (k, c) ∈ l → tree_saves is_nil c) →
    (∀ k n, dist !! k = Some n → count_saves k n) →
    is_text class →
    (∀ ru a, r = Some ru → ru_attr ru = Some a →
       attr_saves is_nil a ∧ is_finite 53 1024 (ru_val ru) = true) →
    tree_saves is_nil (Node leaf cs dist class cattr r).

(** Some node compares an attribute with an infinity or NaN. *)
Inductive unbounded : tree → Prop :=
| unbounded_here leaf cs dist class cattr ru a :
    ru_attr ru = Some a → is_finite 53 1024 (ru_val ru) = false →
    unbounded (Node leaf cs dist class cattr (Some ru))
| unbounded_below leaf l dist class cattr r k c :
    (k, c) ∈ l → unbounded c → unbounded (Node leaf (Some l) dist class cattr r).

(** Both trees give the same predictions and probabilities, on all data and for all
    iteration orders of maps. *)
Definition predict_alike (t t' : tree) : Prop :=
  (∀ show parse cord ao pg wo what,
     predict show parse cord ao pg wo t what = predict show parse cord ao pg wo t' what) ∧
  (∀ show sorter pg cord ao ko wo what,
     predict_proba show sorter pg cord ao ko wo t what =
     predict_proba show sorter pg cord ao ko wo t' what).

(** ** Naive Bayes *)

Record nb_saves (is_nil : attr → bool) (n : nb) (on : grid) : Prop := {
  ns_attrs : ∀ a, a ∈ nb_attrs n → a ∈ gr_all_attrs on;
  ns_classes : ∀ k c, nb_class n !! k = Some c → count_saves k c;
  ns_cond : ∀ k l, nb_cond n !! k = Some l →
    is_text k ∧ Forall (λ f, is_finite 53 1024 f = true) l;
  ns_features : (N.of_nat (nb_features n) < 2^64)%N;
  ns_training : (N.of_nat (nb_training n) < 2^64)%N;
  ns_length : (N.of_nat (length (nb_attrs n)) < 2^64)%N
}.

(** ** Archives *)

(** [ar] has the entries [es]. *)
Definition holds (ar es : archive) : Prop := ∀ k b, (k, b) ∈ es → get_named_file ar k = Ok b.

(** The writer is open and what was written to it is [ar]. *)
Definition opened (s : ser) (ar : archive) : Prop := sr_closed s = false ∧ flushed (sr_tar s) ar.

(** [f] adds the entries [es]. *)
Definition appends (f : ser → res ser) (es : archive) : Prop :=
  ∀ s ar, opened s ar → ∃ s', f s = Ok s' ∧ opened s' (ar ++ es).

(** The entries [es] under a prefix. *)
Definition under (prefix : string) (es : archive) : archive :=
  map (λ e, (tar_prefix prefix e.1, e.2)) es.

(** Whatever the prefix, [save] adds the entries [es] below it, and from them [load]
    makes something that satisfies [R]. *)
Record stored {C} (save : ser → string → res ser) (load : archive → string → res C)
    (es : archive) (R : C → Prop) : Prop := {
  so_writes : ∀ prefix, appends (λ s, save s prefix) (under prefix es);
  so_names : NoDup (map fst es);
  so_reads : ∀ prefix ar, holds ar (under prefix es) → ∃ c, load ar prefix = Ok c ∧ R c
}.

(** ** Files *)

(** The parameters of nearest neighbours: UTF-8, and a number a float64 holds. *)
Definition knn_text (k : knn) : Prop :=
  is_text (kn_dist k) ∧ is_text (kn_alg k) ∧ (N.of_nat (kn_k k) <= 2^53)%N.

(** A fitted tree that can be saved, as a member of an ensemble. *)
Definition tree_member (is_nil : attr → bool) (c : option tree) : Prop :=
  ∃ t, c = Some t ∧ tree_saves is_nil t ∧ attr_saves is_nil (t_class_attr t).

(** An ensemble with what its [Fit] keeps: the chosen attributes are attributes of the
    training data, of which the structure without rows is kept. *)
Record bag_saves (is_nil : attr → bool) {C} (b : bag C) (features : Z) (on : grid)
    (cell : attr → nat → list N) : Prop := {
  bs_table : table is_nil on cell;
  bs_rows : (gr_size on).2 = 0;
  bs_features : (- 2^63 <= features < 2^63)%Z;
  bs_selected : ∀ i l a, bg_selected b !! i = Some l → a ∈ l → a ∈ gr_all_attrs on
}.

(** The same members in the same order, up to [R], and the same choice of attributes. *)
Definition same_bag {C} (R : C → C → Prop) (b b' : bag C) : Prop :=
  Forall2 R (bg_models b) (bg_models b') ∧ bg_selected b' = bg_selected b.

Definition tree_alike (c c' : option tree) : Prop :=
  ∃ t t', c = Some t ∧ c' = Some t' ∧ predict_alike t t'.

(** The kinds of files and what [Save] writes to them. *)
Inductive kind := KTree | KRandomTree | KBayes | KNeighbours | KBag | KForest.

Section written.
  Variable marshal : json → list N.
  Variable fmt : binary64 → string.
  Variable b64 : list N → string.
  Variable is_nil : attr → bool.
  Variable attr_order : list attr → list attr.

  Inductive written : kind → archive → Prop :=
  | written_id3 t ar :
      tree_saves is_nil t → attr_saves is_nil (t_class_attr t) →
      id3_save marshal fmt is_nil (Some t) = Ok ar → written KTree ar
  | written_random_tree t ar :
      tree_saves is_nil t → attr_saves is_nil (t_class_attr t) →
      random_tree_save marshal fmt is_nil (Some t) = Ok ar → written KRandomTree ar
  | written_bayes n on cell ar :
      table is_nil on cell → (gr_size on).2 = 0 → nb_saves is_nil n on →
      nb_file_save marshal fmt is_nil attr_order n on = Ok ar → written KBayes ar
  | written_neighbours k train cell ar :
      table is_nil train cell → knn_text k →
      knn_file_save marshal is_nil attr_order k train = Ok ar → written KNeighbours ar
  | written_bag b features on cell ar :
      bag_saves is_nil b features on cell → Forall (tree_member is_nil) (bg_models b) →
      bag_file_save marshal b64 is_nil attr_order (tree_save marshal fmt is_nil) b features on = Ok ar →
      written KBag ar
  | written_forest b features on cell ar :
      bag_saves is_nil b features on cell → Forall (tree_member is_nil) (bg_models b) →
      forest_save marshal b64 is_nil attr_order (tree_save marshal fmt is_nil) b features on = Ok ar →
      written KForest ar.
End written.
