(** Properties C04 and C05: the two column stores. *)
From Verif Require Import Prelude BytesModel AttrModel StoreModel StoreProofs.

(** C04, fixed-width groups: a successful Set is read back exactly and no
    other cell of a valid column changes (both for reads that succeed and for
    reads that panic). *)
Theorem C04_fixed_set_get : ∀ size g col row val g',
  g_kind g = GFixed size →
  col < length (g_attrs g) →
  group_set g col row val = Ok g' →
  group_get g' col row = Ok val ∧
  ∀ col' row', col' < length (g_attrs g) → (col', row') ≠ (col, row) →
    group_get g' col' row' = group_get g col' row'.
Proof.
  intros size g col row val g' Hk Hc H. split.
  - rewrite (group_set_get _ _ _ _ _ H), Hk. done.
  - intros col' row' Hc' Hne. exact (group_set_frame g col row _ g' col' row' Hc Hc' Hne H).
Qed.
Print Assumptions C04_fixed_set_get.

(** C04, when Set succeeds: exactly when the value has the width of the group
    and the cell lies inside an allocation of [rows] rows; otherwise it panics. *)
Theorem C04_fixed_set_succeeds : ∀ size g rows col row val,
  g_kind g = GFixed size → 0 < size →
  length (g_alloc g) = rows * (length (g_attrs g) * size) →
  col < length (g_attrs g) →
  (length val = size ∧ row < rows → ∃ g', group_set g col row val = Ok g') ∧
  (length val ≠ size ∨ rows ≤ row → group_set g col row val = Panic).
Proof.
  exact fixed_set_succeeds.
Qed.
Print Assumptions C04_fixed_set_succeeds.

Example C04_ex : ∃ g',
  let g := Group (GFixed 2) [FloatA "x" 2; FloatA "y" 2] (replicate 8 0%N) 0 in
  group_set g 1 1 [7%N; 9%N] = Ok g' ∧
  group_get g' 1 1 = Ok [7%N; 9%N] ∧ group_get g' 0 1 = Ok [0%N; 0%N] ∧
  group_set g 1 2 [7%N; 9%N] = Panic ∧ group_set g 1 1 [7%N] = Panic.
Proof. eexists. vm_compute. done. Qed.

(** C05, bit-packed groups: the cell reads 1 or 0 after the write, and every
    other bit cell is unchanged. *)
Theorem C05_bit_set_get : ∀ g col row v vs g',
  g_kind g = GBits →
  col < length (g_attrs g) →
  group_set g col row (v :: vs) = Ok g' →
  group_get g' col row = Ok [if (0 <? v)%N then 1%N else 0%N] ∧
  ∀ col' row', col' < length (g_attrs g) → (col', row') ≠ (col, row) →
    group_get g' col' row' = group_get g col' row'.
Proof.
  intros g col row v vs g' Hk Hc H. split.
  - rewrite (group_set_get _ _ _ _ _ H), Hk. simpl. by destruct (0 <? v)%N.
  - intros col' row' Hc' Hne. exact (group_set_frame g col row _ g' col' row' Hc Hc' Hne H).
Qed.
Print Assumptions C05_bit_set_get.

(** C05, when Set succeeds: for every cell of an allocation of [rows] rows. *)
Theorem C05_bit_set_succeeds : ∀ g rows col row val,
  g_kind g = GBits →
  length (g_alloc g) = rows * ((length (g_attrs g) + 7) / 8) →
  col < length (g_attrs g) →
  (val ≠ [] ∧ row < rows → ∃ g', group_set g col row val = Ok g') ∧
  (val = [] ∨ rows ≤ row → group_set g col row val = Panic).
Proof.
  exact bit_set_succeeds.
Qed.
Print Assumptions C05_bit_set_succeeds.

Example C05_ex : ∃ g',
  let g := Group GBits (replicate 9 (BinA "b")) [255%N; 0%N; 255%N; 0%N] 0 in
  group_set g 2 1 [0%N] = Ok g' ∧
  group_get g' 2 1 = Ok [0%N] ∧ group_get g' 3 1 = Ok [1%N] ∧
  group_get g' 8 1 = Ok [0%N] ∧ group_get g' 2 0 = Ok [1%N].
Proof. eexists. vm_compute. done. Qed.
