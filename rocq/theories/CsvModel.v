(** Model of base/csv.go from the records on: encoding/csv is not modelled.  It
    returns the records (none empty) or fails; it fails when the records differ in
    length ([FieldsPerRecord] 0). *)
From Verif Require Import Prelude BytesModel FloatModel AttrModel StoreModel DenseModel
  GridModel TextModel.
From Flocq Require Import IEEE754.Bits IEEE754.Binary.
From stdpp Require Import pretty.
Local Open Scope nat_scope.

Notation record := (list string).

(** Do all the records have the length of the first? *)
Definition rectangular (records : list record) : bool :=
  match records with
  | [] => true
  | r :: rest => forallb (λ s, length s =? length r) rest
  end.

(** base/csv.go:14-28 [ParseCSVGetRows]. *)
Definition csv_rows (records : list record) : res nat :=
  if rectangular records then Ok (length records) else Err.

(** base/csv.go:84-105 [ParseCSVSniffAttributeNames]. *)
Definition csv_names (has_headers : bool) (records : list record) : res (list string) :=
  match records with
  | [] => Panic
  | headers :: _ =>
      Ok (if has_headers then map trim_space headers
          else imap (λ i _, pretty i) headers)
  end.

(** base/csv.go:111-156 [ParseCSVSniffAttributeTypes]: the attributes, still without
    a name; [prec] is the precision estimated from the raw file ([csv_precision]). *)
Definition csv_type (prec : nat) (entry : string) : attr :=
  if is_number (trim_blanks entry) then FloatA "" prec else CatA "" [].
Definition csv_types (prec : nat) (has_headers : bool) (records : list record)
    : res (list attr) :=
  let records := if has_headers then drop 1 records else records in
  match records with
  | [] => Panic
  | columns :: _ => Ok (map (csv_type prec) columns)
  end.

(** [SetName] of the attributes. *)
Definition set_name (a : attr) (n : string) : attr :=
  match a with FloatA _ p => FloatA n p | CatA _ vs => CatA n vs | BinA _ => BinA n end.

(** base/csv.go:73-80 [ParseCSVGetAttributes]; the file is read twice. *)
Definition csv_attributes (prec : nat) (has_headers : bool) (records : list record)
    : res (list attr) :=
  attrs ← csv_types prec has_headers records;
  names ← csv_names has_headers records;
  res_mapM (λ '(i, a), n ← idx names i; Ok (set_name a n)) (imap pair attrs).

Section build.
  (** [strconv.ParseFloat(s, 64)]: the float, or an error. *)
  Variable parse : string → option binary64.

  (** [GetSysValFromString] with the updated attribute: base/float.go:113-119,
      base/categorical.go:99-115, base/binary.go:52-62.  The panic of a number that
      does not parse is not a run-time error: it is recovered at base/csv.go:162-169
      and returned as an error. *)
  Definition encode_value (a : attr) (v : string) : res (attr * list N) :=
    match a with
    | FloatA _ _ => match parse v with Some f => Ok (a, pack_float f) | None => Err end
    | CatA n vs => let '(vs', c) := cat_encode vs v in Ok (CatA n vs', c)
    | BinA _ => match parse v with
                | Some f => Ok (a, [if float_gt f (b64_of_bits 0) then 1%N else 0%N])
                | None => Err
                end
    end.

  (** The instances hold a pointer to the attribute: an attribute updated by
      [GetSysValFromString] is updated in the instances, too. *)
  Definition update_attr (d : dense) (s : spec) (a : attr) : res dense :=
    g ← idx (d_ags d) (sp_pond s);
    Ok (Dense (d_agmap d) (d_agrev d)
          (<[sp_pond s := Group (g_kind g) (<[sp_pos s := a]> (g_attrs g)) (g_alloc g)
                            (g_maxrow g)]> (d_ags d))
          (d_fixed d) (d_class d) (d_maxrow d) (d_floatbytes d) (d_catbytes d)
          (d_binbits d)).

  (** base/csv.go:195: one non-empty field. *)
  Definition csv_put (d : dense) (s : spec) (row : nat) (v : string) : res dense :=
    a ← match attr_at d (sp_pond s, sp_pos s) with Some a => Ok a | None => Panic end;
    r ← encode_value a (trim_space v);
    d ← update_attr d s r.1;
    dense_set d s row r.2.

  (** base/csv.go:189-196: one record. *)
  Fixpoint csv_fields (specs : list spec) (row : nat) (d : dense) (fields : record)
      : res dense :=
    match fields with
    | [] => Ok d
    | v :: fields =>
        match specs with
        | [] => match v with EmptyString => csv_fields [] row d fields | _ => Panic end
        | s :: specs =>
            d ← match v with EmptyString => Ok d | _ => csv_put d s row v end;
            csv_fields specs row d fields
        end
    end.

  (** base/csv.go:176-198: the records from [row] on. *)
  Fixpoint csv_records (specs : list spec) (row : nat) (d : dense) (records : list record)
      : res dense :=
    match records with
    | [] => Ok d
    | r :: records => d ← csv_fields specs row d r; csv_records specs (S row) d records
    end.

  (** base/csv.go:159-201 [ParseCSVBuildInstances].  ResolveAttributes panics with an
      error value that is recovered like that of a number.  The reader fails at the
      first record of another length; here at once, which gives the same result but
      for a panic on an earlier record. *)
  Definition csv_build (attrs : list attr) (has_header : bool) (records : list record)
      (d : dense) : res dense :=
    specs ← match dense_resolve d attrs with Panic => Err | r => r end;
    if rectangular records
    then csv_records specs 0 d (if has_header then drop 1 records else records)
    else Err.

  (** [AddAttribute] on each, with the specs returned. *)
  Fixpoint add_all (pg : nat) (d : dense) (attrs : list attr) : res (dense * list spec) :=
    match attrs with
    | [] => Ok (d, [])
    | a :: attrs =>
        r ← dense_add pg d a;
        r' ← add_all pg r.1 attrs;
        Ok (r'.1, r.2 :: r'.2)
    end.

  (** base/csv.go:205-235 [ParseCSVToInstances].  [rowCount] is not negative after
      line 213, since an empty file makes csv_attributes panic before it is used.
      Line 232 designates the attribute [attrs] holds a pointer to: the one at the
      place where AddAttribute put it; its error is ignored. *)
  Definition csv_to_instances (pg prec : nat) (has_headers : bool) (records : list record)
      : res dense :=
    rows ← csv_rows records;
    let rows := if has_headers then rows - 1 else rows in
    attrs ← csv_attributes prec has_headers records;
    r ← add_all pg dense_new attrs;
    d ← csv_build attrs has_headers records (dense_extend r.1 rows);
    match last r.2 with
    | None => Panic
    | Some s =>
        match attr_at d (sp_pond s, sp_pos s) with
        | None => Panic
        | Some a => match dense_set_class d a true with Err => Ok d | r => r end
        end
    end.

  (** base/csv.go:239-249 [ParseMatchAttributes]: the last template attribute that is
      Equal or has the same name. *)
  Definition match_attr (template : list attr) (a : attr) : attr :=
    foldl (λ r b, if attr_equals a b then b
                  else if bool_decide (attr_name a = attr_name b) then b else r) a template.

  (** base/util_instances.go:27-54 [CopyDenseInstances].  [order] is the iteration
      order over the template's map of groups.  Errors of CreateAttributeGroup are
      ignored.  The second component lists where the attributes were put. *)
  Definition copy_groups (t : dense) (order : list (string * nat)) : res dense :=
    res_foldl (λ d '(ag, id),
      g ← idx (d_ags t) id;
      let size := match g_kind g with GBits => 0 | GFixed _ => 8 end in
      match dense_create_group d ag size with Err => Ok d | r => r end) dense_new order.
  Fixpoint copy_attrs (t d : dense) (attrs : list attr) : res (dense * list spec) :=
    match attrs with
    | [] => Ok (d, [])
    | a :: attrs =>
        s ← match dense_get_attribute t a with Ok s => Ok s | _ => Panic end;
        ag ← idx (d_agrev t) (sp_pond s);
        r ← match dense_add_to_group d a ag with Ok r => Ok r | _ => Panic end;
        r' ← copy_attrs t r.1 attrs;
        Ok (r'.1, r.2 :: r'.2)
    end.
  Definition copy_dense (order : list (string * nat)) (t : dense) (attrs : list attr)
      : res (dense * list spec) :=
    d ← copy_groups t order; copy_attrs t d attrs.

  (** The places of the attributes in the order of [AllAttributes]. *)
  Definition all_places (d : dense) : list (nat * nat) :=
    concat (imap (λ i g, map (pair i) (seq 0 (length (g_attrs g)))) (d_ags d)).

  (** base/csv.go:278-283: designate the template's class attributes.  They are the
      same pointers as in the new instances: looked up at the place ([specs], in the
      order of [all_places]) where they were put. *)
  Definition copy_class (t : dense) (specs : list spec) (order : list ((nat * nat) * bool))
      (d : dense) : res dense :=
    res_foldl (λ d '((k, b) : (nat * nat) * bool),
      if b : bool then
        match list_find (λ k', k' = k) (all_places t) with
        | None => Ok d
        | Some (i, _) =>
            s ← idx specs i;
            match attr_at d (sp_pond s, sp_pos s) with
            | None => Panic
            | Some a => dense_set_class d a true
            end
        end
      else Ok d) d order.

  (** base/csv.go:253-286 [ParseCSVToTemplatedInstances]; [order] and [corder] are the
      iteration orders over the template's groups and class attributes. *)
  Definition csv_to_templated (order : list (string * nat))
      (corder : list ((nat * nat) * bool)) (prec : nat) (has_headers : bool) (t : dense)
      (records : list record) : res dense :=
    rows ← csv_rows records;
    let rows := if has_headers then rows - 1 else rows in
    attrs ← csv_attributes prec has_headers records;
    let tattrs := dense_all_attrs t in
    let attrs := map (match_attr tattrs) attrs in
    r ← copy_dense order t tattrs;
    d ← csv_build attrs has_headers records (dense_extend r.1 rows);
    copy_class t r.2 corder d.

  (** base/csv.go:312-332: the groups to create, with their sizes. *)
  Definition group_sizes (groups classes : gmap string string) (attrs : list attr)
      : gmap string nat :=
    let m0 : gmap string nat := list_to_map (map (λ p, (p.2, 0)) (map_to_list groups)) in
    let m1 : gmap string nat := list_to_map (map (λ p, (p.2, 8)) (map_to_list classes)) ∪ m0 in
    foldl (λ m a, match (classes ∪ groups) !! attr_name a with
                  | Some ag => <[ag := match a with BinA _ => 0 | _ => 8 end]> m
                  | None => m
                  end) m1 attrs.

  (** base/csv.go:344-362: add the attributes, to their group if they have one. *)
  Definition add_grouped (pg : nat) (groups classes : gmap string string) (d : dense)
      (a : attr) : res dense :=
    r ← match (classes ∪ groups) !! attr_name a with
        | Some ag => match dense_add_to_group d a ag with Ok r => Ok r | _ => Panic end
        | None => dense_add pg d a
        end;
    match classes !! attr_name a with
    | Some _ => match dense_set_class r.1 a true with Ok d => Ok d | _ => Panic end
    | None => Ok r.1
    end.

  (** base/csv.go:291-373 [ParseCSVToInstancesWithAttributeGroups].  [order] is the
      iteration order over the groups to create.  The row count is not corrected for
      the header. *)
  Definition csv_to_grouped (order : gmap string nat → list (string * nat)) (pg prec : nat)
      (groups classes : gmap string string) (overrides : gmap nat attr)
      (has_headers : bool) (records : list record) : res dense :=
    rows ← csv_rows records;
    attrs ← csv_attributes prec has_headers records;
    let attrs := imap (λ i a, default a (overrides !! i)) attrs in
    d ← res_foldl (λ d '(ag, size),
          match dense_create_group d ag size with Ok d => Ok d | _ => Panic end)
          dense_new (order (group_sizes groups classes attrs));
    d ← res_foldl (add_grouped pg groups classes) d attrs;
    csv_build attrs has_headers records (dense_extend d rows).
End build.
