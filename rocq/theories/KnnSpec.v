(** Vocabulary for the properties of nearest-neighbour predictions. *)
From Coq Require Import QArith.
From Verif Require Import Prelude AttrModel StoreModel DenseModel GridModel GridSpec CsvModel KnnModel.
Local Open Scope nat_scope.

(** [ns] are [k] distinct rows below [n] in ascending order of distance from the
    target, and no other row is closer than any of them. *)
Definition nearest_rows (dist_to : nat → Q) (n k : nat) (ns : list nat) : Prop :=
  length ns = k ∧ NoDup ns ∧ (∀ r, r ∈ ns → r < n) ∧
  StronglySorted (λ a b, dist_to a <= dist_to b)%Q ns ∧
  ∀ r s, r < n → r ∉ ns → s ∈ ns → (dist_to s <= dist_to r)%Q.

(** Number of rows of [ns] labelled [c]. *)
Definition votes (label : nat → string) (ns : list nat) (c : string) : nat :=
  length (filter (λ r, label r = c) ns).

(** [c] is a label of [ns] no other label of which is more frequent. *)
Definition majority (label : nat → string) (ns : list nat) (c : string) : Prop :=
  c ∈ map label ns ∧ ∀ c', votes label ns c' ≤ votes label ns c.

(** Total of the inverse distances of the rows labelled [c]; [None] is infinite. *)
Definition total_weight (label : nat → string) (dist_to : nat → Q) (ns : list nat) (c : string)
    : option Q :=
  let mine := filter (λ r, label r = c) ns in
  if existsb (λ r, Qeq_bool (dist_to r) 0) mine then None
  else Some (foldr (λ r s, / dist_to r + s)%Q 0%Q mine).

Definition at_most (a b : option Q) : Prop :=
  match a, b with
  | _, None => True
  | None, Some _ => False
  | Some x, Some y => (x <= y)%Q
  end.

(** [c] is a label of [ns] no other label of which weighs more. *)
Definition heaviest (label : nat → string) (dist_to : nat → Q) (ns : list nat) (c : string)
    : Prop :=
  c ∈ map label ns ∧
  ∀ c', at_most (total_weight label dist_to ns c') (total_weight label dist_to ns c).

(** The cells [specs] of row [r] of [g], as numbers, are [feat r]. *)
Definition reads_features (num : list N → res Q) (g : grid) (specs : list spec)
    (feat : nat → list Q) : Prop :=
  ∀ r, r < (gr_size g).2 →
    ∃ raws, res_mapM (λ s, gr_get g s r) specs = Ok raws ∧ res_mapM num raws = Ok (feat r).

(** The rows of the training grid have the labels [label], which are values of the
    class attribute. *)
Definition reads_labels (show : nat → N → string) (g : grid) (vs : list string)
    (label : nat → string) : Prop :=
  ∀ r, r < (gr_size g).2 → get_class show g r = Ok (label r) ∧ label r ∈ vs.

(** The label predicted from the neighbours [ns]: a most frequent one, or a heaviest
    one when voting is weighted. *)
Definition elected (weighted : bool) (label : nat → string) (dist_to : nat → Q) (ns : list nat)
    (c : string) : Prop :=
  if weighted then heaviest label dist_to ns c else majority label ns c.

(** The two grids have equal attributes, not all of them numeric; the class of the rows
    to predict is a categorical attribute with values [vs]; the numeric attributes of
    row [i] are [wfeat i] (to predict) and [tfeat i] (training), and training row [i]
    is labelled [label i]. *)
Record knn_inputs (num : list N → res Q) (show : nat → N → string) (train what : grid)
    (vs : list string) (label : nat → string) (tfeat wfeat : nat → list Q) : Prop := {
  ki_size : length (gr_all_attrs what) = length (gr_all_attrs train);
  ki_same : ∀ a, a ∈ gr_all_attrs what → ∃ b, b ∈ gr_all_attrs train ∧ attr_equals a b = true;
  ki_other : ∃ a, a ∈ gr_all_attrs what ∧ is_float a = false;
  ki_class : ∃ name, gr_class_attrs what = [CatA name vs];
  ki_values : (N.of_nat (length vs) < 2^63)%N;
  ki_iter_what : iter_agrees what;
  ki_iter_train : iter_agrees train;
  ki_what : ∃ specs, resolve what (filter (λ a, is_float a = true) (gr_all_attrs what)) = Ok specs ∧
    reads_features num what specs wfeat;
  ki_train : ∃ specs, resolve train (filter (λ a, is_float a = true) (gr_all_attrs what)) = Ok specs ∧
    reads_features num train specs tfeat;
  ki_labels : reads_labels show train vs label
}.

(** Squared Euclidean distance. *)
Fixpoint squared (v w : list Q) : Q :=
  match v, w with
  | x :: v, y :: w => (x - y) * (x - y) + squared v w
  | _, _ => 0
  end%Q.

(** The [cols] values of row [i] of storage laid out row after row. *)
Definition row_of (cols i : nat) (storage : list Q) : list Q := take cols (drop (i * cols) storage).

(** Squared distance between row [i] to predict and training row [r] over all groups. *)
Definition group_distance (groups : list (nat * list Q * list Q)) (i r : nat) : Q :=
  foldr (λ g s, squared (row_of g.1.1 i g.2) (row_of g.1.1 r g.1.2) + s)%Q 0%Q groups.
