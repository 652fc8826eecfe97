(** Model of the copies of instances in base/dense.go and of the instances over a matrix
    in base/mat.go. *)
From Verif Require Import Prelude BytesModel FloatModel AttrModel StoreModel DenseModel GridModel.
From stdpp Require Import pretty.
From Flocq Require Import IEEE754.Bits IEEE754.Binary.
Local Open Scope nat_scope.

(** ** base/dense.go *)

(** base/dense.go:47-64: the attributes in order, with their places in the source and in
    the copy.  The error of GetAttribute is a panic. *)
Fixpoint copy_attrs (pg : nat) (of : grid) (d : dense) (attrs : list attr)
    : res (dense * list spec * list spec) :=
  match attrs with
  | [] => Ok (d, [], [])
  | a :: attrs =>
      s ← match gr_get_attribute of a with Ok s => Ok s | _ => Panic end;
      r ← dense_add pg d a;
      r' ← copy_attrs pg of r.1 attrs;
      Ok (r'.1.1, s :: r'.1.2, r.2 :: r'.2)
  end.

(** base/dense.go:66-70: the class attributes; errors are ignored. *)
Fixpoint copy_classes (d : dense) (attrs : list attr) : res dense :=
  match attrs with
  | [] => Ok d
  | a :: attrs =>
      d ← match dense_set_class d a true with Err => Ok d | r => r end;
      copy_classes d attrs
  end.

(** base/dense.go:47-71 [copyFixedDataGridStructure]. *)
Definition copy_structure (pg : nat) (of : grid) : res (dense * list spec * list spec) :=
  r ← copy_attrs pg of dense_new (gr_all_attrs of);
  d ← copy_classes r.1.1 (gr_class_attrs of);
  Ok (d, r.1.2, r.2).

(** base/dense.go:74-77 [NewStructuralCopy]. *)
Definition structural_copy (pg : nat) (of : grid) : res dense :=
  r ← copy_structure pg of; Ok r.1.1.

(** base/dense.go:92-94: one row.  DenseInstances.Set panics and returns nothing. *)
Fixpoint copy_cells (specs : list spec) (d : dense) (row : nat) (vals : list (list N)) : res dense :=
  match vals with
  | [] => Ok d
  | c :: vals =>
      match specs with
      | [] => Panic
      | s :: specs => d ← dense_set d s row c; copy_cells specs d row vals
      end
  end.

(** base/dense.go:81-98 [NewDenseCopy]; the error of MapOverRows is ignored. *)
Definition dense_copy (pg : nat) (of : grid) : res dense :=
  r ← copy_structure pg of;
  let d := dense_extend r.1.1 (gr_size of).2 in
  r' ← map_over_rows of r.1.2 (λ d vals row, d ← copy_cells r.2 d row vals; Ok (d, Cont)) d;
  Ok r'.1.

(** ** base/mat.go *)

(** base/mat.go:9-14 [Mat64Instances].  The matrix is a function on the places inside its
    dimensions. *)
Record mat_inst := MatInst {
  mi_attrs : list attr;
  mi_class : gmap nat bool;
  mi_dim : nat * nat;
  mi_data : nat → nat → binary64;
  mi_rows : nat
}.

(** base/mat.go:17-29 [InstancesFromMat64]. *)
Definition mat_instances (rows cols : nat) (dim : nat * nat) (data : nat → nat → binary64) : mat_inst :=
  MatInst (map (λ i, FloatA (pretty i) 2) (seq 0 cols)) ∅ dim data rows.

(** base/mat.go:32-39 [GetAttribute]. *)
Fixpoint mat_find (i : nat) (attrs : list attr) (a : attr) : res spec :=
  match attrs with
  | [] => Err
  | at_ :: attrs => if attr_equals at_ a then Ok (Spec 0 i at_) else mat_find (S i) attrs a
  end.
Definition mat_get_attribute (m : mat_inst) (a : attr) : res spec := mat_find 0 (mi_attrs m) a.

(** base/mat.go:51-70 [AddClassAttribute] and [RemoveClassAttribute]. *)
Definition mat_set_class (m : mat_inst) (a : attr) (on : bool) : res mat_inst :=
  s ← mat_get_attribute m a;
  Ok (MatInst (mi_attrs m) (<[sp_pos s := on]> (mi_class m)) (mi_dim m) (mi_data m) (mi_rows m)).

(** base/mat.go:73-82 [AllClassAttributes]; [order] is the iteration order of the map. *)
Fixpoint mat_class_attrs (m : mat_inst) (order : list (nat * bool)) : list attr :=
  match order with
  | [] => []
  | (i, b) :: order =>
      (if b : bool then match mi_attrs m !! i with Some a => [a] | None => [] end else [])
        ++ mat_class_attrs m order
  end.

(** base/mat.go:85-88 [Get].  [Dense.At] panics outside the matrix. *)
Definition mat_get (m : mat_inst) (s : spec) (row : nat) : res (list N) :=
  if (row <? (mi_dim m).1) && (sp_pos s <? (mi_dim m).2)
  then Ok (pack_float (mi_data m row (sp_pos s))) else Panic.

(** base/mat.go:91-107 [MapOverRows] as the rows that are shown.  Simplification: the
    difference that a callback which returns [true] with an error does not stop the loop
    is left out (no callback of the package does so), and so is the reuse of the buffer. *)
Definition mat_grid (order : list (nat * bool)) (m : mat_inst) : grid :=
  Grid (mat_get_attribute m) (mi_attrs m) (mat_class_attrs m order) (mat_get m)
    (λ asv, Ok (map (λ i, (i, res_mapM (λ a, mat_get m a i) asv)) (seq 0 (mi_rows m))))
    (length (mi_attrs m), mi_rows m).
