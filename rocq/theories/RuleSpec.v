(** Vocabulary for the properties of rule generators. *)
From Coq Require Import QArith.
From Verif Require Import Prelude FloatModel AttrModel StoreModel DenseModel GridModel ConfModel FilterModel RuleModel.
From Flocq Require Import IEEE754.Bits IEEE754.Binary.
Local Open Scope nat_scope.

(** Number of references of each class below [n]. *)
Definition class_counts (n : nat) (l : list (binary64 * nat)) : list nat :=
  map (λ c, length (filter (λ x, x.2 = c) l)) (seq 0 n).

(** The entropy of the class distributions of the references not above the threshold [v]
    and of those above it. *)
Definition threshold_entropy (fast : list nat → list nat → binary64) (n : nat)
    (refs : list (binary64 * nat)) (v : binary64) : binary64 :=
  fast (class_counts n (filter (λ x, float_gt x.1 v = false) refs))
       (class_counts n (filter (λ x, float_gt x.1 v = true) refs)).

(** [v] is the middle of two neighbours. *)
Definition is_middle (refs : list (binary64 * nat)) (v : binary64) : Prop :=
  ∃ k x y, refs !! k = Some x ∧ refs !! S k = Some y ∧ v = middle x.1 y.1.

(** The references are in strictly ascending order and so far apart that the middle of
    two neighbours lies between them. *)
Definition well_apart (refs : list (binary64 * nat)) : Prop :=
  ∀ k x y, refs !! k = Some x → refs !! S k = Some y →
    float_lt x.1 (middle x.1 y.1) = true ∧ float_lt (middle x.1 y.1) y.1 = true.

(** Gini impurity of a class distribution, and its average over the sides of a split,
    weighted by their numbers of rows. *)
Definition impurity (counts : list nat) : Q :=
  let n := inject_Z (Z.of_nat (sum_list counts)) in
  (1 - foldr (λ c s, (inject_Z (Z.of_nat c) / n) * (inject_Z (Z.of_nat c) / n) + s) 0 counts)%Q.

Definition average_impurity (sides : list (list nat)) : Q :=
  let n := inject_Z (Z.of_nat (sum_list (map sum_list sides))) in
  foldr (λ c s, inject_Z (Z.of_nat (sum_list c)) / n * impurity c + s)%Q 0%Q sides.

(** The counts of a split as lists. *)
Definition sides_of (m : gmap string (gmap string nat)) : list (list nat) :=
  map (λ x, map snd (map_to_list x.2)) (map_to_list m).

(** Every index below [n] is drawn again and again, and no other. *)
Definition fair (n : nat) (draw : nat → nat) : Prop :=
  (∀ t, draw t < n) ∧ ∀ i t, i < n → ∃ u, t ≤ u ∧ draw u = i.

(** Row [i] of [g] has the number [val i] in column [s] and the label [label i]. *)
Definition reads_numbers (show : nat → N → string) (g : grid) (s : spec) (val : nat → binary64)
    (label : nat → string) : Prop :=
  ∀ i, i < (gr_size g).2 → get_class show g i = Ok (label i) ∧
    ∃ raw, gr_get g s i = Ok raw ∧ unpack_float raw = Ok (val i).

(** [refs] holds the number and a number for the label of each of the [n] rows: different
    numbers for different labels, all below [k], which is at most [n]. *)
Definition refs_of (n k : nat) (val : nat → binary64) (label : nat → string)
    (refs : list (binary64 * nat)) : Prop :=
  length refs = n ∧ k ≤ n ∧ ∃ code : string → nat,
    (∀ i, i < n → refs !! i = Some (val i, code (label i)) ∧ code (label i) < k) ∧
    ∀ i j, i < n → j < n → code (label i) = code (label j) → label i = label j.

(** The attributes that are not classes. *)
Definition others (g : grid) : list attr := filter (λ a, a ∉ gr_class_attrs g) (gr_all_attrs g).

(** [p] is the entropy after splitting on [a] and the threshold of the split: for a numeric
    attribute those of the best threshold found, for others the entropy of the
    distributions of the classes per value. *)
Definition after_split (fast : list nat → list nat → binary64) (show : nat → N → string)
    (sorter : list (binary64 * nat) → list (binary64 * nat))
    (split_entropy : gmap string (gmap string nat) → binary64) (fuel : nat) (g : grid) (a : attr)
    (p : binary64 * binary64) : Prop :=
  match a with
  | FloatA _ _ => numeric_entropy fast show sorter fuel g a = Ok p
  | _ => ∃ m, distribution_after_split show g a = Ok m ∧ p.1 = split_entropy m ∧ p.2 = B754_zero 53 1024 false
  end.
