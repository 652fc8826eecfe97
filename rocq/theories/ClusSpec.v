(** Vocabulary for the properties of clusterings. *)
From Verif Require Import Prelude FloatModel AttrModel StoreModel DenseModel GridModel KnnModel Id3Model RuleModel CartModel IsoModel ClusModel.
From Flocq Require Import IEEE754.Bits IEEE754.Binary.
Local Open Scope nat_scope.

(** The row [r] of the table has the numbers [feat r] in the columns [attrs]. *)
Definition reads_columns (g : grid) (attrs : list attr) (feat : nat → list binary64) : Prop :=
  ∃ specs, resolve g attrs = Ok specs ∧
    ∀ r, r < (gr_size g).2 → ∃ raws, res_mapM (λ s, gr_get g s r) specs = Ok raws ∧
      res_mapM unpack_float raws = Ok (feat r).

(** The distance of two rows: 0 from a row to itself, and the same in both directions. *)
Definition distance_of (metric : list binary64 → list binary64 → binary64) (feat : nat → list binary64)
    (i j : nat) : binary64 :=
  if i =? j then float_zero
  else if i <? j then metric (feat i) (feat j) else metric (feat j) (feat i).

Section density.
  (** The number of rows and which of them are within eps of each other. *)
  Variable rows : nat.
  Variable near : nat → nat → bool.
  Variable min_count : Z.

  (** At least [min_count] rows are near [x]. *)
  Definition core (x : nat) : Prop :=
    (min_count <= Z.of_nat (length (filter (λ y, near x y = true) (seq 0 rows))))%Z.

  (** One step of a chain: from a core row to a row near it. *)
  Definition step (x y : nat) : Prop := core x ∧ x < rows ∧ y < rows ∧ near x y = true.

  (** [y] can be reached from [x] through core rows. *)
  Definition reaches (x y : nat) : Prop := rtc step x y.

  (** Rows near a core row are core rows. *)
  Definition no_border : Prop := ∀ x y, step x y → core y.
End density.

(** Nearness within [eps] for distances [d]. *)
Definition within (d : nat → nat → binary64) (eps : binary64) (i j : nat) : bool := float_le (d i j) eps.

(** ** Cluster maps *)

(** The points of the clusters, one after the other. *)
Definition points_of (m : cluster_map) : list Z := concat (map snd (map_to_list m)).

(** The cluster [c] lists [p]. *)
Definition listed (m : cluster_map) (p c : Z) : Prop := ∃ l, m !! c = Some l ∧ p ∈ l.

(** Renaming the clusters of [other] by a one-to-one function gives the clusters of [ref]. *)
Definition renamed (ref other : cluster_map) : Prop :=
  ∃ f : Z → Z,
    (∀ c c', is_Some (other !! c) → is_Some (other !! c') → f c = f c' → c = c') ∧
    (∀ c, is_Some (other !! c) → is_Some (ref !! f c)) ∧
    (∀ c, is_Some (ref !! c) → ∃ c', is_Some (other !! c') ∧ f c' = c) ∧
    (∀ c p, is_Some (other !! c) → (listed other p c ↔ listed ref p (f c))).

(** ** Mixtures *)

(** [k] is the first of the components with the greatest log-probability of [x]. *)
Definition most_likely (log_prob : nat → list binary64 → binary64) (comps : nat) (x : list binary64) (k : nat) : Prop :=
  k < comps ∧ (∀ j, j < comps → float_gt (log_prob j x) (log_prob k x) = false) ∧
  (∀ j, j < k → float_gt (log_prob k x) (log_prob j x) = true).
