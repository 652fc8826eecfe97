(** Vocabulary for the properties of bagging and of the one-versus-all model. *)
From Verif Require Import Prelude BytesModel FloatModel AttrModel StoreModel DenseModel
  GridModel GridSpec FilterModel BagModel.
From Flocq Require Import IEEE754.Bits IEEE754.Binary.
Local Open Scope nat_scope.

(** The grid [g] shows the predictions [label] for [rows] rows. *)
Definition shows_labels (show : nat → N → string) (g : grid) (rows : nat)
    (label : nat → string) : Prop :=
  iter_agrees g ∧ (gr_size g).2 = rows ∧ (∃ specs, resolve g (gr_class_attrs g) = Ok specs) ∧
  ∀ r, r < rows → get_class show g r = Ok (label r).

(** How many of the [m] models give row [r] the label [c]. *)
Definition votes_for (m : nat) (label : nat → nat → string) (r : nat) (c : string) : nat :=
  length (filter (λ i, label i r = c) (seq 0 m)).

(** The count recorded in a table of votes. *)
Definition recorded (voting : gmap nat (gmap string nat)) (r : nat) (c : string) : nat :=
  match voting !! r with
  | Some counts => match counts !! c with Some k => k | None => 0 end
  | None => 0
  end.

(** [s] can be reached by some schedule. *)
Definition reachable_in (show : nat → N → string) (n m : nat) (answer : nat → res grid)
    (s : pstate) : Prop := rtc (predict_step show n m answer) (predict_init n) s.

(** [ret] is a possible result of Predict: the schedule, and the orders in which the maps are
    gone through, are arbitrary. *)
Definition predicts show n m answer parse pg from (ret : dense) : Prop :=
  ∃ s order ro ko, reachable_in show n m answer s ∧ ps_main s = Done ∧
    (∀ l, order l ≡ₚ l) ∧ (∀ l, ro l ≡ₚ l) ∧ (∀ r l, ko r l ≡ₚ l) ∧
    consensus parse order ro ko pg from (ps_voting s) = Ok ret.

(** The class of row [r] as GetClass reads it from [ret]. *)
Definition reads_class show (ret : dense) (r : nat) (c : string) : Prop :=
  ∀ order, class_order ret order → get_class show (dense_grid order ret) r = Ok c.

(** Comparisons of float64 numbers; both are false when one is NaN. *)
Definition above (x y : binary64) : Prop := Bcompare 53 1024 x y = Some Gt.
Definition zero : binary64 := B754_zero 53 1024 false.

(** [j] is the class of the greatest positive score among those of the classes 0 to [k],
    the first one if there are several; 0 if no score is positive. *)
Definition best_scoring (score : nat → binary64) (k j : nat) : Prop :=
  j ≤ k ∧
  ((∃ i, i ≤ k ∧ above (score i) zero) →
     above (score j) zero ∧ (∀ i, i ≤ k → ¬ above (score i) (score j)) ∧
     (∀ i, i < j → above (score i) zero → above (score j) (score i))) ∧
  ((∀ i, i ≤ k → ¬ above (score i) zero) → j = 0).

(** Each attribute of the grid is found under itself. *)
Definition finds_own (g : grid) : Prop :=
  ∀ a, a ∈ gr_all_attrs g → ∃ s, gr_get_attribute g a = Ok s ∧ sp_attr s = a.

(** [g] is [on] with its class attribute replaced by a number: 1 in the rows whose class
    has the code [i], 0 in the others; everything else is as in [on].  GetAttribute, Get and
    MapOverRows agree on that. *)
Definition relabelled (on g : grid) (class : attr) (i : nat) : Prop :=
  let new := FloatA (attr_name class) 2 in
  gr_class_attrs g = [new] ∧
  gr_all_attrs g = map (λ a, if bool_decide (a = class) then new else a) (gr_all_attrs on) ∧
  gr_size g = gr_size on ∧
  (∀ a s, a ∈ gr_all_attrs on → a ≠ class → gr_get_attribute on a = Ok s →
     ∃ s', gr_get_attribute g a = Ok s' ∧ ∀ r, gr_get g s' r = gr_get on s r) ∧
  (∀ s, gr_get_attribute on class = Ok s →
     ∃ s', gr_get_attribute g new = Ok s' ∧
       ∀ r code, gr_get on s r = Ok (pack_u64 code) → (code < 2^64)%N →
         gr_get g s' r = Ok (pack_float (if bool_decide (code = N.of_nat i)
                                         then b64_of_bits 0x3FF0000000000000 else zero))) ∧
  (iter_agrees on → ∀ attrs asv, attrs ⊆ gr_all_attrs g → resolve g attrs = Ok asv →
     ∃ rows, gr_iter g asv = Ok rows ∧ map fst rows ≡ₚ seq 0 (gr_size g).2 ∧
       ∀ r fetch, (r, fetch) ∈ rows → ∀ buf,
         fetch = Ok buf ↔ res_mapM (λ s, gr_get g s r) asv = Ok buf).
