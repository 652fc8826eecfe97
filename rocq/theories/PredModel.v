(** Model of the prediction vector: base/util_instances.go [GeneratePredictionVector]
    and [SetClass]. *)
From Verif Require Import Prelude AttrModel StoreModel DenseModel GridModel CsvModel.
From Flocq Require Import IEEE754.Bits IEEE754.Binary.
Local Open Scope nat_scope.

(** base/util_instances.go:13-23 [GeneratePredictionVector]; errors of
    AddClassAttribute are ignored. *)
Definition prediction_vector (pg : nat) (from : grid) : res dense :=
  d ← res_foldl (λ d a,
        r ← dense_add pg d a;
        Ok (match dense_set_class r.1 a true with Ok d' => d' | _ => r.1 end))
      dense_new (gr_class_attrs from);
  Ok (dense_extend d (gr_size from).2).

Section with_parse.
  (** [strconv.ParseFloat]. *)
  Variable parse : string → option binary64.
  (** Iteration order of the map of class attributes. *)
  Variable order : list ((nat * nat) * bool) → list ((nat * nat) * bool).

  (** base/util_instances.go:90-110 [SetClass] on DenseInstances.  The attribute, which
      may gain a category, is updated in the instances; its other owners are not
      modelled.  A number that does not parse is a panic. *)
  Definition set_class (d : dense) (row : nat) (class : string) : res dense :=
    match class_attrs_in_order d (order (map_to_list (d_class d))) with
    | [c] =>
        match dense_get_attribute d c with
        | Ok s =>
            r ← match encode_value parse c class with Err => Panic | r => r end;
            d ← update_attr d s r.1;
            dense_set d s row r.2
        | _ => Panic
        end
    | _ => Panic
    end.
End with_parse.
