(** Vocabulary for the properties of grids and views. *)
From Verif Require Import Prelude AttrModel StoreModel DenseModel GridModel.

(** MapOverRows shows each row below the row count exactly once, with the values
    Get returns for it. *)
Definition iter_agrees (g : grid) : Prop :=
  ∀ asv, ∃ rows, gr_iter g asv = Ok rows ∧
    map fst rows ≡ₚ seq 0 (gr_size g).2 ∧
    ∀ i fetch, (i, fetch) ∈ rows → fetch = res_mapM (λ a, gr_get g a i) asv.

(** Same, and in ascending order. *)
Definition iter_in_order (g : grid) : Prop :=
  ∀ asv, gr_iter g asv =
    Ok (map (λ i, (i, res_mapM (λ a, gr_get g a i) asv)) (seq 0 (gr_size g).2)).

(** The rows of [v], in order, are the rows [rows] of [src]; there are no others. *)
Definition shows_rows (v : view) (src : grid) (rows : list nat) : Prop :=
  (view_size v).2 = length rows ∧
  (∀ j r s, rows !! j = Some r → view_get v s j = gr_get src s r) ∧
  (∀ j s, length rows ≤ j → view_get v s j = Panic).

(** [order] rearranges every list it is given (Go map iteration order). *)
Definition any_order {A} (order : list A → list A) : Prop := ∀ l, order l ≡ₚ l.

(** Sum of a function over the values of a map. *)
Definition map_sum {V} (f : V → nat) (m : gmap string V) : nat :=
  sum_list (map (λ kv, f kv.2) (map_to_list m)).

(** Number of rows below [n] satisfying a decidable property. *)
Definition count_rows (n : nat) (P : nat → bool) : nat :=
  length (filter (λ i, P i = true) (seq 0 n)).

(** [m] splits the rows of [g] by [kf]: one view per value taken, showing
    exactly the rows with that value (in ascending order when iteration is), with
    every attribute of [g] but [at_]. *)
Definition decomposes (g : grid) (at_ : attr) (kf : nat → string) (m : gmap string view) : Prop :=
  (∀ k, is_Some (m !! k) ↔ ∃ i, i < (gr_size g).2 ∧ kf i = k) ∧
  ∀ k v, m !! k = Some v →
    ∃ rows, rows ≠ [] ∧ NoDup rows ∧
      (∀ i, i ∈ rows ↔ i < (gr_size g).2 ∧ kf i = k) ∧
      (iter_in_order g → StronglySorted lt rows) ∧
      shows_rows v g rows ∧
      Forall2 (λ a b, ∃ s, gr_get_attribute g a = Ok s ∧ sp_attr s = b)
        (filter (λ a, attr_equals a at_ = false) (gr_all_attrs g)) (view_all_attrs v).

