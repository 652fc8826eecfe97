(** Model of base/dense.go: DenseInstances. *)
From Verif Require Import Prelude BytesModel AttrModel StoreModel.
From stdpp Require Import pretty.
Local Open Scope nat_scope.

(** base/spec.go:10-14 [AttributeSpec]. *)
Record spec := Spec { sp_pond : nat; sp_pos : nat; sp_attr : attr }.

(** base/dense.go:12-26.  Not modelled: the mutex, [attributes] (write-only),
    [tmpAttrAgMap] (nothing in the package ever writes to it, so the loop of
    [realiseAttributeGroups], base/dense.go:349-386, has no iteration).
    [agRevMap] is the list of group names by index.  The keys of [classAttrs]
    are specs; pond and position determine the attribute, so the model keys
    by them. *)
Record dense := Dense {
  d_agmap : gmap string nat;
  d_agrev : list string;
  d_ags : list group;
  d_fixed : bool;
  d_class : gmap (nat * nat) bool;
  d_maxrow : nat;
  d_floatbytes : nat;
  d_catbytes : nat;
  d_binbits : nat
}.

(** base/dense.go:30-45 [NewDenseInstances]. *)
Definition dense_new : dense := Dense ∅ [] [] false ∅ 0 0 0 0.

(** base/dense.go:106-133 [createAttributeGroup]. *)
Definition create_group (d : dense) (name : string) (size : nat) : res dense :=
  if d_fixed d then Panic else
  let g := if negb (size =? 0) then Group (GFixed size) [] [] 0
           else Group GBits [] [] 0 in
  Ok (Dense (<[name := length (d_ags d)]> (d_agmap d)) (d_agrev d ++ [name])
        (d_ags d ++ [g]) (d_fixed d) (d_class d) (d_maxrow d)
        (d_floatbytes d) (d_catbytes d) (d_binbits d)).

(** base/dense.go:139-154 [CreateAttributeGroup]: the panic is recovered and
    returned as an error. *)
Definition dense_create_group (d : dense) (name : string) (size : nat) : res dense :=
  match create_group d name size with Panic => Err | r => r end.

(** base/dense.go:229-232 and 246,253-255: append the attribute to the group
    and build its spec. *)
Definition add_in_group (d : dense) (id : nat) (a : attr) : res (dense * spec) :=
  p ← idx (d_ags d) id;
  let p' := group_add p a in
  Ok (Dense (d_agmap d) (d_agrev d) (<[id := p']> (d_ags d)) (d_fixed d)
        (d_class d) (d_maxrow d) (d_floatbytes d) (d_catbytes d) (d_binbits d),
      Spec id (length (g_attrs p') - 1) a).

(** base/dense.go:197-218: counters and default group name for an attribute;
    [pg] is [os.Getpagesize()].  The result is the updated counters, the name
    and [generatingBinClass]. *)
Definition default_group (pg : nat) (d : dense) (a : attr)
    : (nat * nat * nat) * string * bool :=
  let f := d_floatbytes d in let c := d_catbytes d in let b := d_binbits d in
  match a with
  | CatA _ _ => ((f, c + 8, b), "CAT" +:+ pretty ((c + 8) / pg), false)
  | FloatA _ _ => ((f + 8, c, b), "FLOAT" +:+ pretty ((f + 8) / pg), false)
  | BinA _ => ((f, c, b + 1), "BIN" +:+ pretty ((b + 1) / 8 / pg), true)
  end.

(** base/dense.go:188-233 [AddAttribute]. *)
Definition dense_add (pg : nat) (d : dense) (a : attr) : res (dense * spec) :=
  if d_fixed d then Panic else
  let '((f, c, b), ag, bin) := default_group pg d a in
  let d := Dense (d_agmap d) (d_agrev d) (d_ags d) (d_fixed d) (d_class d)
             (d_maxrow d) f c b in
  d ← match d_agmap d !! ag with
      | None => if negb bin then create_group d ag 8 else create_group d ag 0
      | Some _ => Ok d
      end;
  let id := default 0 (d_agmap d !! ag) in
  add_in_group d id a.

(** base/dense.go:247-251: is some attribute of the group not Compatible with
    the new one? *)
Fixpoint some_incompatible (l : list attr) (new : attr) : bool :=
  match l with
  | [] => false
  | a :: l => if negb (attr_compatible a new) then true else some_incompatible l new
  end.

(** base/dense.go:236-256 [AddAttributeToAttributeGroup]: note that [fixed]
    is not consulted. *)
Definition dense_add_to_group (d : dense) (a : attr) (ag : string)
    : res (dense * spec) :=
  match d_agmap d !! ag with
  | None => Err
  | Some id =>
      p ← idx (d_ags d) id;
      if some_incompatible (g_attrs p) a then Err
      else add_in_group d id a
  end.

(** base/dense.go:268-272: first Equal attribute of one group. *)
Fixpoint find_in_group (i j : nat) (l : list attr) (get : attr) : option spec :=
  match l with
  | [] => None
  | a :: l => if attr_equals a get then Some (Spec i j a)
              else find_in_group i (S j) l get
  end.

(** base/dense.go:267-273: search the groups in order. *)
Fixpoint find_in_groups (i : nat) (gs : list group) (get : attr) : option spec :=
  match gs with
  | [] => None
  | g :: gs => match find_in_group i 0 (g_attrs g) get with
               | Some s => Some s
               | None => find_in_groups (S i) gs get
               end
  end.

(** base/dense.go:263-276 [GetAttribute]. *)
Definition dense_get_attribute (d : dense) (get : attr) : res spec :=
  match find_in_groups 0 (d_ags d) get with Some s => Ok s | None => Err end.

(** base/dense.go:279-291 [AllAttributes]. *)
Definition dense_all_attrs (d : dense) : list attr :=
  concat (map g_attrs (d_ags d)).

(** base/dense.go:294-306 and 309-321: [AddClassAttribute],
    [RemoveClassAttribute]. *)
Definition dense_set_class (d : dense) (a : attr) (on : bool) : res dense :=
  s ← dense_get_attribute d a;
  Ok (Dense (d_agmap d) (d_agrev d) (d_ags d) (d_fixed d)
        (<[(sp_pond s, sp_pos s) := on]> (d_class d)) (d_maxrow d)
        (d_floatbytes d) (d_catbytes d) (d_binbits d)).

(** The attribute a key of [classAttrs] refers to. *)
Definition attr_at (d : dense) (k : nat * nat) : option attr :=
  g ← d_ags d !! k.1; g_attrs g !! k.2.

(** base/dense.go:333-341 [allClassAttributes].  [order] is the iteration
    order over the map: any permutation of its entries. *)
Fixpoint class_attrs_in_order (d : dense) (order : list ((nat * nat) * bool))
    : list attr :=
  match order with
  | [] => []
  | (k, b) :: order =>
      (if b : bool then match attr_at d k with Some a => [a] | None => [] end else [])
        ++ class_attrs_in_order d order
  end.
Definition class_order (d : dense) (order : list ((nat * nat) * bool)) : Prop :=
  order ≡ₚ map_to_list (d_class d).

(** base/dense.go:392-418 [Extend] (never fails, see the remark on
    [tmpAttrAgMap]).  A negative argument is not modelled. *)
Definition dense_extend (d : dense) (rows : nat) : dense :=
  Dense (d_agmap d) (d_agrev d)
    (map (λ p, group_resize p (rows * row_size p)) (d_ags d))
    true (d_class d) (d_maxrow d + rows)
    (d_floatbytes d) (d_catbytes d) (d_binbits d).

(** base/dense.go:430-432 [Set]. *)
Definition dense_set (d : dense) (s : spec) (row : nat) (val : list N) : res dense :=
  g ← idx (d_ags d) (sp_pond s);
  g' ← group_set g (sp_pos s) row val;
  Ok (Dense (d_agmap d) (d_agrev d) (<[sp_pond s := g']> (d_ags d)) (d_fixed d)
        (d_class d) (d_maxrow d) (d_floatbytes d) (d_catbytes d) (d_binbits d)).

(** base/dense.go:437-439 [Get]. *)
Definition dense_get (d : dense) (s : spec) (row : nat) : res (list N) :=
  g ← idx (d_ags d) (sp_pond s);
  group_get g (sp_pos s) row.

(** Result of a MapOverRows callback: [(true, nil)], [(false, nil)] or a
    non-nil error. *)
Inductive cb := Cont | Stop | Fail.

(** base/dense.go:460-476 [MapOverRows].  The callback threads a state [S]
    (its captured variables) and may panic.  The result carries whether
    MapOverRows returned an error.  Simplification: the row buffer is a fresh
    list per call (in Go one buffer is reused). *)
Fixpoint dense_map_from {S} (d : dense) (asv : list spec)
    (f : S → list (list N) → nat → res (S * cb)) (s : S) (i n : nat)
    : res (S * bool) :=
  match n with
  | 0 => Ok (s, false)
  | Datatypes.S n =>
      rowbuf ← res_mapM (λ as_, dense_get d as_ i) asv;
      r ← f s rowbuf i;
      match r with
      | (s, Fail) => Ok (s, true)
      | (s, Stop) => Ok (s, false)
      | (s, Cont) => dense_map_from d asv f s (Datatypes.S i) n
      end
  end.
Definition dense_map_over_rows {S} (d : dense) (asv : list spec)
    (f : S → list (list N) → nat → res (S * cb)) (s : S) : res (S * bool) :=
  dense_map_from d asv f s 0 (d_maxrow d).

(** base/dense.go:480-482 [Size]. *)
Definition dense_size (d : dense) : nat * nat :=
  (length (dense_all_attrs d), d_maxrow d).

(** base/util_attributes.go:44-59 [ResolveAttributes] on DenseInstances.
    The comparison of base/spec.go:24-30 is never true ([iPos] and [jPos] are
    both computed from [i]), and [sort.Sort] with a never-true comparison
    leaves the slice as it is (for at most 12 elements in every Go version,
    for any length since Go 1.19): the order of [attrs] is kept. *)
Definition dense_resolve (d : dense) (attrs : list attr) : res (list spec) :=
  res_mapM (λ a, match dense_get_attribute d a with Ok s => Ok s | _ => Panic end) attrs.

(** base/dense.go:488-493: exchange one attribute of two rows. *)
Definition swap_cell (i j : nat) (d : dense) (a : spec) : res dense :=
  v1 ← dense_get d a i;
  v2 ← dense_get d a j;
  d1 ← dense_set d a j v1;
  dense_set d1 a i v2.

(** base/dense.go:485-495 [swapRows]. *)
Definition dense_swap_rows (d : dense) (i j : nat) : res dense :=
  specs ← dense_resolve d (dense_all_attrs d);
  res_foldl (swap_cell i j) d specs.

(** ** Histories of calls *)

(** The mutating part of the public interface. *)
Inductive dop :=
| DAdd (a : attr)                                (* AddAttribute *)
| DCreateGroup (name : string) (size : nat)      (* CreateAttributeGroup *)
| DAddTo (a : attr) (ag : string)                (* AddAttributeToAttributeGroup *)
| DClass (a : attr) (on : bool)                  (* Add-/RemoveClassAttribute *)
| DExtend (n : nat)                              (* Extend *)
| DSet (s : spec) (row : nat) (val : list N).    (* Set *)

(** One call: a returned error leaves the instances unchanged. *)
Definition dense_step (pg : nat) (d : dense) (o : dop) : res dense :=
  let keep (r : res dense) := match r with Err => Ok d | r => r end in
  match o with
  | DAdd a => keep (r ← dense_add pg d a; Ok r.1)
  | DCreateGroup name size => keep (dense_create_group d name size)
  | DAddTo a ag => keep (r ← dense_add_to_group d a ag; Ok r.1)
  | DClass a on => keep (dense_set_class d a on)
  | DExtend n => Ok (dense_extend d n)
  | DSet s row val => dense_set d s row val
  end.

Definition dense_run (pg : nat) (d : dense) (h : list dop) : res dense :=
  res_foldl (dense_step pg) d h.
