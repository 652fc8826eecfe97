(** Model of the writing of CSV files (base/serialize_instances.go:31-80), up to the records:
    encoding/csv is not modelled. *)
From Verif Require Import Prelude BytesModel FloatModel AttrModel StoreModel DenseModel
  GridModel TextModel CsvModel BagModel.
From Flocq Require Import IEEE754.Bits IEEE754.Binary.
Local Open Scope nat_scope.

(** base/serialize_instances.go:51-58: [make] and the two calls of [copy]; a place that is
    not filled is [nil], on which the call of [GetName] panics. *)
Definition csv_columns (n : nat) (normal cls : list attr) : res (list attr) :=
  let all := take n normal ++ take (n - length (take n normal)) cls in
  if length all <? n then Panic else Ok all.

Section write.
  (** [fmt.Sprintf("%.*f")]: precision and bits of the float. *)
  Variable show : nat → N → string.

  (** base/serialize_instances.go:66-73: one row. *)
  Definition csv_row (attrs : list attr) (out : list record) (vals : list (list N)) (_ : nat)
      : res (list record * cb) :=
    fields ← res_mapM (λ '(i, v), a ← idx attrs i; attr_decode show a v) (imap pair vals);
    Ok (out ++ [fields], Cont).

  (** base/serialize_instances.go:46-78 [SerializeInstancesToCSVStream]: the records passed to
      the csv.Writer, which reports no error before Flush, and after Flush none is asked for.
      [ao] is the order of the map in NonClassAttributes. *)
  Definition csv_write (ao : list attr → list attr) (g : grid) : res (list record) :=
    attrs ← csv_columns (gr_size g).1 (non_class_attrs ao g) (gr_class_attrs g);
    specs ← resolve g attrs;
    r ← map_over_rows g specs (csv_row attrs) [map attr_name attrs];
    Ok r.1.
End write.
