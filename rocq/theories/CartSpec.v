(** Vocabulary for the properties of CART trees. *)
From Coq Require Import Reals.
From Verif Require Import Prelude FloatModel AttrModel StoreModel DenseModel GridModel GridSpec FilterModel
  KnnModel RuleModel CartModel.
From Flocq Require Import IEEE754.Bits IEEE754.Binary.
Local Open Scope nat_scope.

(** [fsort] sorts numbers; [order] lists the positions of numbers in ascending order of
    the numbers. *)
Definition sorts (fsort : list binary64 → list binary64) : Prop :=
  ∀ l, fsort l ≡ₚ l ∧
    (Forall (λ x, is_nan 53 1024 x = false) l →
     StronglySorted (λ x y, float_lt y x = false) (fsort l)).

Definition sorts_positions (order : list binary64 → list nat) : Prop :=
  ∀ l, order l ≡ₚ seq 0 (length l) ∧
    (Forall (λ x, is_nan 53 1024 x = false) l →
     StronglySorted (λ i j, ∀ x y, l !! i = Some x → l !! j = Some y → float_lt y x = false) (order l)).

(** The [i]-th number of [x] is below [t]. *)
Definition below (i : nat) (t : binary64) (x : sample) : bool :=
  match x !! i with Some v => float_lt v t | None => false end.

Section cart.
  Context {L : Type}.
  Notation point := (sample * L)%type.

  (** The samples on the two sides of a threshold. *)
  Definition low (i : nat) (t : binary64) (pts : list point) : list point :=
    filter (λ p, below i t p.1 = true) pts.
  Definition high (i : nat) (t : binary64) (pts : list point) : list point :=
    filter (λ p, below i t p.1 = false) pts.

  (** Samples of [w] numbers, none of them NaN.  The middle of two different numbers of one
      feature, as binary64 computes it, is above the lesser and not above the greater
      (which fails for neighbouring binary64 numbers and when the sum overflows). *)
  Definition apart (w : nat) (pts : list point) : Prop :=
    (∀ p, p ∈ pts → length p.1 = w) ∧
    ∀ p q i x y, p ∈ pts → q ∈ pts → p.1 !! i = Some x → q.1 !! i = Some y →
      is_nan 53 1024 x = false ∧
      (float_lt x y = true → float_lt x (middle x y) = true ∧ float_lt y (middle x y) = false).

  (** [x] and [y] take the same way through the tree. *)
  Fixpoint together (t : cnode L) (x y : sample) : bool :=
    match t with
    | CNode l r threshold feature _ _ _ =>
        Bool.eqb (below feature threshold x) (below feature threshold y) &&
        match (if below feature threshold x then l else r) with
        | None => true
        | Some t => together t x y
        end
    end.

  (** Number of comparisons on the longest way through the tree. *)
  Fixpoint height (t : cnode L) : nat :=
    match t with
    | CNode l r _ _ _ _ _ =>
        S (Nat.max match l with None => 0 | Some t => height t end
                   match r with None => 0 | Some t => height t end)
    end.

  (** Impurity of a list of labels. *)
  Variable imp : list L → binary64.

  (** Average impurity of the two sides, weighted by their numbers of samples. *)
  Definition split_impurity (pts : list point) (i : nat) (t : binary64) : binary64 :=
    weighted (length pts) (imp (map snd (low i t pts))) (length (low i t pts))
                          (imp (map snd (high i t pts))) (length (high i t pts)).

  (** A split of [pts] in two that lowers the impurity. *)
  Definition useful (pts : list point) (i : nat) (t : binary64) : Prop :=
    low i t pts ≠ [] ∧ high i t pts ≠ [] ∧
    float_lt (split_impurity pts i t) (imp (map snd pts)) = true.

  (** No split in two has less impurity than that by [i] and [t]. *)
  Definition best_split_of (pts : list point) (i : nat) (t : binary64) : Prop :=
    ∀ j u, low j u pts ≠ [] → high j u pts ≠ [] →
      float_lt (split_impurity pts j u) (split_impurity pts i t) = false.

  (** At every node the split is useful and the best for the samples that reach it. *)
  Fixpoint best_everywhere (t : cnode L) (pts : list point) : Prop :=
    match t with
    | CNode l r threshold feature _ _ _ =>
        useful pts feature threshold ∧ best_split_of pts feature threshold ∧
        match l with None => True | Some t => best_everywhere t (low feature threshold pts) end ∧
        match r with None => True | Some t => best_everywhere t (high feature threshold pts) end
    end.
End cart.

(** [l] is the most frequent label of [y]. *)
Definition most_frequent (y : list Z) (l : Z) : Prop :=
  l ∈ y ∧ ∀ l', length (filter (λ v, v = l') y) ≤ length (filter (λ v, v = l) y).

(** The numeric columns that are no class. *)
Definition numeric_columns (g : grid) : list attr :=
  filter (λ a, is_float a = true ∧ Forall (λ c, attr_equals a c = false) (gr_class_attrs g))
    (gr_all_attrs g).

(** Row [r] of [g] holds the numbers [feat r] in its numeric columns that are no class. *)
Definition holds_features (g : grid) (feat : nat → sample) : Prop :=
  iter_agrees g ∧ ∃ specs, resolve g (numeric_columns g) = Ok specs ∧
    ∀ r, r < (gr_size g).2 → ∃ raws, res_mapM (λ s, gr_get g s r) specs = Ok raws ∧
      res_mapM unpack_float raws = Ok (feat r).

(** Besides, it holds the number [label r] in its only class column. *)
Definition holds_samples (g : grid) (feat : nat → sample) (label : nat → binary64) : Prop :=
  holds_features g feat ∧
  ∃ name prec s, gr_class_attrs g = [FloatA name prec] ∧
    gr_get_attribute g (FloatA name prec) = Ok s ∧
    ∀ r, r < (gr_size g).2 → ∃ raw, gr_get g s r = Ok raw ∧ unpack_float raw = Ok (label r).

(** The samples with their labels, in the order of the rows. *)
Definition samples_of {L} (g : grid) (feat : nat → sample) (label : nat → L) : list (sample * L) :=
  map (λ r, (feat r, label r)) (seq 0 (gr_size g).2).

(** The logarithm of a share: [math.Log2] gives a finite number from -1100 to 0 for
    numbers above 0 and up to 1 (the least of them is 2^-1074). *)
Definition log2_sane (log2 : binary64 → binary64) : Prop :=
  ∀ p, is_finite 53 1024 p = true → (0 < B2R 53 1024 p <= 1)%R →
    is_finite 53 1024 (log2 p) = true ∧ (-1100 <= B2R 53 1024 (log2 p) <= 0)%R.

(** The error of the mean for a list of targets. *)
Definition regression_impurity (criterion : string) (y : list binary64) : binary64 :=
  if bool_decide (criterion = "mae") then mean_absolute_error y (average y)
  else mean_squared_error y (average y).

(** The impurity by which a classifier judges a list of labels. *)
Definition class_impurity (log2 : binary64 → binary64) (criterion : string) (labels y : list Z) : binary64 :=
  if bool_decide (criterion = "gini") then gini_impurity y labels else entropy_impurity log2 y labels.

(** Criteria a classifier knows. *)
Definition classifies_by (log2 : binary64 → binary64) (criterion : string) : Prop :=
  criterion = "gini" ∨ criterion = "entropy" ∧ log2_sane log2.

(** The integer labels of the rows. *)
Definition int_label (label : nat → binary64) (r : nat) : Z := int_of_float (label r).

(** Depths without a limit or with a limit of at least one comparison. *)
Definition some_depth (md : Z) : Prop := (md = -1 ∨ 1 <= md)%Z.

(** The labels of the training samples that take the same way through [t] as [x]. *)
Definition same_way {L} (t : cnode L) (x : sample) (pts : list (sample * L)) : list L :=
  map snd (filter (λ p, together t x p.1 = true) pts).

(** The share of the label [l] in [y] and the Gini impurity, as real numbers. *)
Definition label_share (y : list Z) (l : Z) : R :=
  (INR (length (filter (λ v, v = l) y)) / INR (length y))%R.
Definition exact_gini (y labels : list Z) : R :=
  foldr (λ l s, label_share y l * (1 - label_share y l) + s)%R 0%R labels.
