(** Model of base/util_instances.go [Shuffle] on DenseInstances. *)
From Verif Require Import Prelude AttrModel StoreModel DenseModel.

(** base/util_instances.go:415-421.  [draws i] is the result of the
    [rand.Intn(i + 1)] call made for row [i]; [rand.Intn(n)] returns a value
    in [0..n-1], which the theorems assume of [draws]. *)
Definition dense_shuffle (draws : nat → nat) (d : dense) : res dense :=
  res_foldl (λ d i, dense_swap_rows d i (draws i)) d (seq 0 (d_maxrow d)).
