(** Model of [ID3DecisionTree.Fit] with its pruning share (trees/id3.go:537-547). *)
From Verif Require Import Prelude FloatModel AttrModel StoreModel DenseModel GridModel KnnModel Id3Model.
From Flocq Require Import IEEE754.BinarySingleNaN IEEE754.Bits IEEE754.Binary.
Local Open Scope nat_scope.

(** 0.001 in trees/id3.go:539 and the 100 of base/util_instances.go:385. *)
Definition least_share : binary64 := b64_of_bits 0x3F50624DD2F1A9FC.
Definition float_hundred : binary64 := b64_of_bits 0x4059000000000000.

(** trees/id3.go:539: whether rows are held back. *)
Definition holds_back (prop : binary64) : bool := float_gt prop least_share.

(** [int(100*prop)] in base/util_instances.go:385.  Go leaves the result open when it
    does not fit: [wild]. *)
Definition share_limit (wild : binary64 → Z) (prop : binary64) : Z :=
  let x := b64_mult mode_NE float_hundred prop in
  let z := Btrunc 53 1024 x in
  if is_finite 53 1024 x && (- 2 ^ 63 <=? z)%Z && (z <? 2 ^ 63)%Z then z else wild x.

Section fit.
  Variable show : nat → N → string.
  Variable parse : string → option binary64.
  (** The rule generator, and the iteration orders of InferID3Tree. *)
  Variable gen : list string → grid → res (option rule).
  Variable ko : list string → list string → list string.
  Variable co : list string → list attr → list attr.
  Variable ro : list string → list nat → list nat.
  (** Iteration orders of Prune and of the predictions it makes; the page size. *)
  Variable cord : list ((nat * nat) * bool) → list ((nat * nat) * bool).
  Variable ao : list attr → list attr.
  Variable pg : nat.
  Variable pko : list string → list string → list string.
  Variable pwo : list string → nat → nat → list string → list string.
  Variable pco : list string → list attr → list attr.
  Variable pro : list string → list nat → list nat.
  (** Iteration orders over the class attributes of the data and over the maps of the
      two views of it. *)
  Variable order : list ((nat * nat) * bool).
  Variable co1 co2 : list attr → list attr.
  Variable ro1 ro2 : list nat → list nat.
  (** The results of [rand.Intn(i+1)] while shuffling and of [rand.Intn(101)] for each
      row, and the conversion of numbers that fit no int. *)
  Variable shuf : nat → nat.
  Variable draws : nat → Z.
  Variable wild : binary64 → Z.

  (** trees/id3.go:537-547 [Fit] of a tree with the given PruneSplit to DenseInstances.
      The result is the data after the call, for it is shuffled in place, and [t.Root]. *)
  Definition id3_fit (prop : binary64) (on : dense) : res (dense * tree) :=
    if holds_back prop then
      '(on, (train, test)) ← train_test_dense order shuf draws (share_limit wild prop) on;
      t ← infer_id3 show gen ko co ro (view_grid co1 ro1 train);
      t ← prune show parse cord ao pg pko pwo pco pro [] t (view_grid co2 ro2 test);
      Ok (on, t)
    else
      t ← infer_id3 show gen ko co ro (dense_grid order on);
      Ok (on, t).
End fit.
