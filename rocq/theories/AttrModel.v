(** Model of the three Attribute implementations (base/float.go,
    base/categorical.go, base/binary.go) and of the Attribute set operations
    in base/util_attributes.go. *)
From Verif Require Import Prelude BytesModel.

(** base/float.go:11-14 [FloatAttribute{Name, Precision}],
    base/categorical.go:11-14 [CategoricalAttribute{Name, values}],
    base/binary.go:10-12 [BinaryAttribute{Name}].
    Simplification: an Attribute is the value behind the Go pointer; where
    pointer identity matters (the *References functions) the functions below
    are polymorphic in a type of references. *)
Inductive attr : Type :=
| FloatA (name : string) (prec : nat)
| CatA (name : string) (values : list string)
| BinA (name : string).

Global Instance attr_eq_dec : EqDecision attr.
Proof. solve_decision. Defined.

(** [GetName()] of the three implementations: base/float.go:73-75,
    base/categorical.go:54-56, base/binary.go:36-38. *)
Definition attr_name (a : attr) : string :=
  match a with FloatA n _ => n | CatA n _ => n | BinA n => n end.

(** base/categorical.go:160-164 and 183-187: the loop comparing two value
    slices of the same length element by element. *)
Fixpoint values_loop (a b : list string) : bool :=
  match a, b with
  | x :: a, y :: b => if negb (bool_decide (x = y)) then false else values_loop a b
  | _, _ => true
  end.

(** [Attr.Equals(other)]: base/float.go:59-70, base/categorical.go:144-167,
    base/binary.go:72-78. *)
Definition attr_equals (self other : attr) : bool :=
  match self, other with
  | FloatA n _, FloatA m _ => bool_decide (n = m)
  | CatA n vs, CatA m ws =>
      if negb (bool_decide (n = m)) then false
      else if negb (length ws =? length vs) then false
      else values_loop vs ws
  | BinA n, BinA m => bool_decide (m = n)
  | _, _ => false
  end.

(** [Attr.Compatible(other)]: base/float.go:50-53,
    base/categorical.go:171-190, base/binary.go:82-88. *)
Definition attr_compatible (self other : attr) : bool :=
  match self, other with
  | FloatA _ _, FloatA _ _ => true
  | CatA _ vs, CatA _ ws =>
      if negb (length ws =? length vs) then false else values_loop vs ws
  | BinA _, BinA _ => true
  | _, _ => false
  end.

(** ** CategoricalAttribute encoding *)

(** base/categorical.go:71-75 and 101-107: index of the first equal value. *)
Fixpoint cat_find_from (i : nat) (values : list string) (s : string) : option nat :=
  match values with
  | [] => None
  | v :: vs => if bool_decide (v = s) then Some i else cat_find_from (S i) vs s
  end.
Definition cat_find := cat_find_from 0.

(** base/categorical.go:70-77 [GetSysVal]: [nil] is [None]. *)
Definition cat_get_sysval (values : list string) (s : string) : option (list N) :=
  match cat_find values s with
  | Some i => Some (pack_u64 (N.of_nat i))
  | None => None
  end.

(** base/categorical.go:99-115 [GetSysValFromString]: returns the updated
    value slice and the code. *)
Definition cat_encode (values : list string) (s : string) : list string * list N :=
  match cat_find values s with
  | Some i => (values, pack_u64 (N.of_nat i))
  | None =>
      let values' := values ++ [s] in
      (values', pack_u64 (N.of_nat (length values' - 1)))
  end.

(** base/categorical.go:131-137 [GetStringFromSysVal]; [int(u)] wraps at 2^63
    and a negative index panics. *)
Definition cat_decode (values : list string) (raw : list N) : res string :=
  u ← unpack_u64 raw;
  let conv := if (u <? 2^63)%N then Z.of_N u else (Z.of_N u - 2^64)%Z in
  if (Z.of_nat (length values) <=? conv)%Z then Panic
  else if (conv <? 0)%Z then Panic
  else idx values (Z.to_nat conv).

(** base/categorical.go:82-85 [GetUsrVal]: the same without the explicit
    range check. *)
Definition cat_get_usrval (values : list string) (raw : list N) : res string :=
  u ← unpack_u64 raw;
  idx values (N.to_nat u).

(** A history of [GetSysValFromString] calls on one attribute: final values
    and the codes handed out, in order. *)
Fixpoint cat_encode_all (values : list string) (hist : list string)
    : list string * list (list N) :=
  match hist with
  | [] => (values, [])
  | s :: hist =>
      let '(values1, code) := cat_encode values s in
      let '(values2, codes) := cat_encode_all values1 hist in
      (values2, code :: codes)
  end.

(** base/binary.go:64-69 [GetStringFromSysVal]. *)
Definition bin_decode (val : list N) : res string :=
  match val with
  | [] => Panic
  | b :: _ => Ok (if (0 <? b)%N then "1" else "0")
  end.

(** [GetStringFromSysVal] of any attribute.  Formatting of a float
    (base/float.go:126-130, [fmt.Sprintf] with the precision) is left abstract:
    [show_float prec bits]. *)
Definition attr_decode (show_float : nat → N → string) (a : attr)
    (val : list N) : res string :=
  match a with
  | FloatA _ p => show_float p <$> unpack_u64 val
  | CatA _ vs => cat_decode vs val
  | BinA _ => bin_decode val
  end.

(** ** Attribute set operations (base/util_attributes.go) *)

(** The inner loops of base/util_attributes.go:83-88 and 124-129 (also 21-26
    and many others): does some [b] satisfy [a.Equals(b)]? *)
Fixpoint attr_matched (a : attr) (bs : list attr) : bool :=
  match bs with
  | [] => false
  | b :: bs => if attr_equals a b then true else attr_matched a bs
  end.

(** base/util_attributes.go:79-94 [AttributeIntersect]. *)
Fixpoint attr_intersect (a1 a2 : list attr) : list attr :=
  match a1 with
  | [] => []
  | a :: a1 => if attr_matched a a2 then a :: attr_intersect a1 a2
               else attr_intersect a1 a2
  end.

(** base/util_attributes.go:120-135 [AttributeDifference]. *)
Fixpoint attr_difference (a1 a2 : list attr) : list attr :=
  match a1 with
  | [] => []
  | a :: a1 => if negb (attr_matched a a2) then a :: attr_difference a1 a2
               else attr_difference a1 a2
  end.

(** base/util_attributes.go:12-32 [NonClassFloatAttributes]. *)
Fixpoint nonclass_float_attrs (all cls : list attr) : list attr :=
  match all with
  | [] => []
  | a :: all =>
      match a with
      | FloatA _ _ =>
          if negb (attr_matched a cls) then a :: nonclass_float_attrs all cls
          else nonclass_float_attrs all cls
      | _ => nonclass_float_attrs all cls
      end
  end.

(** base/util_instances.go:443-453 [CheckCompatible], on the results of
    [AllAttributes()] of the two grids; Go [nil] is [None]. *)
Definition check_compatible (s1 s2 : list attr) : option (list attr) :=
  let inter := attr_intersect s1 s2 in
  if negb (length inter =? length s1) then None
  else if negb (length inter =? length s2) then None
  else Some inter.

Section refs.
  (** References (Go pointers), compared by identity. *)
  Context {R : Type} `{EqDecision R}.

  (** base/util_attributes.go:66-72 [buildAttrSet], as the duplicate-free list
      of keys of the map. *)
  Fixpoint build_attr_set (l : list R) : list R :=
    match l with
    | [] => []
    | a :: l => if bool_decide (a ∈ build_attr_set l) then build_attr_set l
                else a :: build_attr_set l
    end.

  (** base/util_attributes.go:102-112 [AttributeIntersectReferences].  [order]
      is the iteration order of the map [a1b]: any permutation of its keys. *)
  Definition intersect_refs (order : list R) (a2 : list R) : list R :=
    filter (λ a, a ∈ build_attr_set a2) order.

  (** base/util_attributes.go:144-154 [AttributeDifferenceReferences], same
      convention. *)
  Definition difference_refs (order : list R) (a2 : list R) : list R :=
    filter (λ a, a ∉ build_attr_set a2) order.

  (** [order] is a possible iteration order over the set built from [l]. *)
  Definition iteration_order (l order : list R) : Prop :=
    order ≡ₚ build_attr_set l.
End refs.
