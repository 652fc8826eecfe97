(** Model of base/serialize.go, base/serialize_attributes.go,
    base/serialize_instances.go and the MarshalJSON / UnmarshalJSON methods of the
    attributes. *)
From Verif Require Import Prelude BytesModel AttrModel StoreModel DenseModel GridModel CsvModel.
From stdpp Require Import pretty.
Local Open Scope nat_scope.

(** ** Tar archives *)

(** The entries of an archive, in order, with their contents. *)
Notation archive := (list (string * list N)).

(** The part of archive/tar's Writer the code relies on: finished entries and the
    entry being written (name, bytes still owed, bytes so far).  The library itself is
    trusted, and the gzip layer around it is taken to be lossless. *)
Record tarw := TarW {
  tw_done : archive;
  tw_cur : option (string * nat * list N)
}.
Definition tar_new : tarw := TarW [] None.

(** archive/tar [Writer.Flush]: an error while the current entry owes bytes. *)
Definition tar_flush (w : tarw) : res tarw :=
  match tw_cur w with
  | None => Ok w
  | Some (name, 0, b) => Ok (TarW (tw_done w ++ [(name, b)]) None)
  | Some (_, S _, _) => Err
  end.
(** A call of [Flush] whose error is ignored. *)
Definition tar_try_flush (w : tarw) : tarw :=
  match tar_flush w with Ok w' => w' | _ => w end.
(** archive/tar [Writer.WriteHeader] flushes first. *)
Definition tar_header (w : tarw) (name : string) (size : nat) : res tarw :=
  w ← tar_flush w;
  Ok (TarW (tw_done w) (Some (name, size, []))).
(** archive/tar [Writer.Write]: an error when more is written than the header
    announced. *)
Definition tar_write (w : tarw) (b : list N) : res tarw :=
  match tw_cur w with
  | None => if length b =? 0 then Ok w else Err
  | Some (name, owed, sofar) =>
      if length b <=? owed
      then Ok (TarW (tw_done w) (Some (name, owed - length b, sofar ++ b)))
      else Err
  end.
(** archive/tar [Writer.Flush] and [Writer.Close]; what a reader then finds. *)
Definition tar_close (w : tarw) : res archive :=
  w ← tar_flush w; Ok (tw_done w).

(** base/serialize.go:35-69 [GetNamedFile]: the loop stops at the first entry with
    that name (line 61).  The archive is complete, so sizes match (line 52). *)
Fixpoint get_named_file (ar : archive) (name : string) : res (list N) :=
  match ar with
  | [] => Err
  | (n, b) :: ar => if bool_decide (n = name) then Ok b else get_named_file ar name
  end.

(** base/serialize.go:71-76 [tarPrefix], 102-107 and 369-374 [Prefix]. *)
Definition tar_prefix (prefix suffix : string) : string :=
  if bool_decide (prefix = "") then suffix else prefix +:+ "/" +:+ suffix.

(** base/serialize.go:17. *)
Definition format_version : list N :=
  [103; 111; 108; 101; 97; 114; 110; 32; 49; 46; 48]%N.

(** base/serialize.go:291-315 [WriteBytesForKey]. *)
Definition write_bytes (w : tarw) (key : string) (b : list N) : res tarw :=
  w ← tar_header w key (length b);
  w ← tar_write w b;
  Ok (tar_try_flush w).

(** base/serialize.go:318-321 [WriteU64ForKey]. *)
Definition write_u64 (w : tarw) (key : string) (v : N) : res tarw :=
  write_bytes w key (pack_u64 v).

(** base/serialize.go:203-209 [GetU64ForKey]. *)
Definition get_u64 (ar : archive) (key : string) : res N :=
  b ← get_named_file ar key; unpack_u64 b.

(** ** JSON *)

(** JSON values; objects as the list of their members.  Natural numbers up to 2^53
    are [JNum], other number literals are kept as text. *)
Inductive json :=
| JNull
| JNum (n : nat)
| JLit (s : string)
| JBool (b : bool)
| JStr (s : string)
| JArr (l : list json)
| JObj (l : list (string * json)).

Fixpoint member (l : list (string * json)) (k : string) : option json :=
  match l with
  | [] => None
  | (n, v) :: l => if bool_decide (n = k) then Some v else member l k
  end.

(** An attribute as it is held in memory: a CategoricalAttribute whose value slice
    is [nil] is not the same as one with an empty slice.  [true] is [nil]; it has no
    meaning for the other attributes and for non-empty slices. *)
Notation held := (attr * bool)%type.

(** base/categorical.go:17-25, base/float.go:18-26, base/binary.go:15-20
    [MarshalJSON]: encoding/json writes the members of a map sorted by key and a [nil]
    slice as [null]. *)
Definition attr_json (h : held) : json :=
  match h.1 with
  | CatA name values =>
      JObj [("attr", JObj [("values",
               match values with
               | [] => if h.2 then JNull else JArr []
               | _ => JArr (map JStr values)
               end)]);
            ("name", JStr name); ("type", JStr "categorical")]
  | FloatA name prec =>
      JObj [("attr", JObj [("precision", JNum prec)]);
            ("name", JStr name); ("type", JStr "float")]
  | BinA name => JObj [("name", JStr name); ("type", JStr "binary")]
  end.

(** Decoding a member into a Go [string]: absent or [null] leaves it empty. *)
Definition json_string (v : option json) : res string :=
  match v with
  | None | Some JNull => Ok ""
  | Some (JStr s) => Ok s
  | _ => Err
  end.

(** base/categorical.go:34 [v.(string)]: panics on anything else. *)
Fixpoint json_strings (l : list json) : res (list string) :=
  match l with
  | [] => Ok []
  | JStr s :: l => r ← json_strings l; Ok (s :: r)
  | _ => Panic
  end.

(** base/categorical.go:28-38 [UnmarshalJSON] on a new attribute: the type assertion on
    an absent or [null] member panics; the slice starts as [nil]. *)
Definition json_values (a : option json) : res (list string) :=
  match a with
  | Some (JObj l) =>
      match member l "values" with Some (JArr vs) => json_strings vs | _ => Panic end
  | Some JNull => Panic
  | _ => Err
  end.

(** base/float.go:29-40 [UnmarshalJSON]. *)
Definition json_precision (a : option json) : res nat :=
  match a with
  | Some (JObj l) =>
      match member l "precision" with
      | Some (JNum p) => Ok p
      | Some _ => Panic
      | None => Err
      end
  | _ => Err
  end.

(** base/serialize_attributes.go:56-90 [DeserializeAttribute] on the parsed text. *)
Definition json_attr (j : json) : res held :=
  l ← match j with JObj l => Ok l | JNull => Ok [] | _ => Err end;
  typ ← json_string (member l "type");
  name ← json_string (member l "name");
  if bool_decide (typ = "binary") then Ok (BinA name, false)
  else if bool_decide (typ = "float") then
    p ← json_precision (member l "attr"); Ok (FloatA name p, false)
  else if bool_decide (typ = "categorical") then
    vs ← json_values (member l "attr"); Ok (CatA name vs, bool_decide (vs = []))
  else Err.

Section with_json.
  (** encoding/json [Marshal] and [Unmarshal]. *)
  Variable marshal : json → list N.
  Variable unmarshal : list N → option json.

  (** base/serialize_attributes.go:47-54 [SerializeAttribute]. *)
  Definition serialize_attribute (h : held) : list N := marshal (attr_json h).

  (** base/serialize_attributes.go:56-90 [DeserializeAttribute]. *)
  Definition deserialize_attribute (b : list N) : res held :=
    match unmarshal b with Some j => json_attr j | None => Err end.

  (** base/serialize_attributes.go:91-110 [DeserializeAttributes]. *)
  Definition deserialize_attributes (b : list N) : res (list held) :=
    match unmarshal b with
    | Some (JArr l) => res_mapM json_attr l
    | Some JNull => Ok []
    | _ => Err
    end.

  (** base/serialize_attributes.go:9-31 [writeAttributesToFilePart].  Simplification:
      a [nil] slice of attributes is written as [\[\]], not as [null]; both read
      back as no attributes. *)
  Definition write_attributes_part (w : tarw) (name : string) (l : list held) : res tarw :=
    let body := marshal (JArr (map attr_json l)) in
    w ← tar_header w name (length body);
    tar_write w body.

  (** base/serialize.go:336-342 [WriteAttributeForKey], 212-222
      [GetAttributeForKey]. *)
  Definition write_attribute (w : tarw) (key : string) (h : held) : res tarw :=
    write_bytes w key (serialize_attribute h).
  Definition get_attribute_for (ar : archive) (key : string) : res held :=
    b ← get_named_file ar key; deserialize_attribute b.

  (** base/serialize.go:351-358: the loop of [WriteAttributesForKey]. *)
  Fixpoint write_attributes_from (w : tarw) (key : string) (i : nat) (l : list held)
      : res tarw :=
    match l with
    | [] => Ok w
    | h :: l =>
        w ← write_attribute w (tar_prefix key (pretty i)) h;
        write_attributes_from w key (S i) l
    end.
  (** base/serialize.go:345-360 [WriteAttributesForKey]. *)
  Definition write_attributes (w : tarw) (key : string) (l : list held) : res tarw :=
    w ← write_u64 w (tar_prefix key "ATTR_COUNT") (N.of_nat (length l));
    write_attributes_from w key 0 l.

  (** base/serialize.go:225-243 [GetAttributesForKey]. *)
  Definition get_attributes (ar : archive) (key : string) : res (list held) :=
    n ← get_u64 ar (tar_prefix key "ATTR_COUNT");
    res_mapM (λ i, get_attribute_for ar (tar_prefix key (pretty i)))
      (seq 0 (N.to_nat n)).

  (** base/serialize.go:383-426 [CreateSerializedClassifierStub]: the two entries every
      classifier archive starts with; [metadata] is the JSON text of the metadata. *)
  Definition classifier_stub (metadata : list N) : res tarw :=
    w ← tar_header tar_new "CLS_MANIFEST" (length format_version);
    w ← tar_write w format_version;
    write_bytes w "METADATA" metadata.

  (** ** Instances *)

  (** Whether the value slice of an attribute is [nil]. *)
  Variable is_nil : attr → bool.
  (** Iteration order of the set built by AttributeDifferenceReferences. *)
  Variable attr_order : list attr → list attr.

  (** base/util_attributes.go:36-40 [NonClassAttributes].  Simplification: attributes of
      one grid are the same pointer exactly when they are the same value. *)
  Definition non_class_attributes (g : grid) : list attr :=
    difference_refs (attr_order (build_attr_set (gr_all_attrs g))) (gr_class_attrs g).

  (** base/serialize_instances.go:298-303: [allAttrs].  Simplification: when the counts do
      not add up, either an index is out of range or a [nil] attribute is left over,
      which ResolveAttributes panics on (apart from surplus normal attributes being
      dropped when there are no class attributes). *)
  Definition columns (n : nat) (normal cls : list attr) : res (list attr) :=
    if length normal + length cls =? n then Ok (normal ++ cls) else Panic.

  (** base/serialize_instances.go:311-317: bytes of one row. *)
  Definition row_length (row : list (list N)) : nat := sum_list (map length row).

  (** base/serialize_instances.go:335-343: the values of one row; [None] after a write
      error. *)
  Definition write_row (w : tarw) (row : list (list N)) : res tarw :=
    res_foldl tar_write w row.

  (** base/serialize_instances.go:250-355 [SerializeInstancesToTarWriter]. *)
  Definition serialize_to_tar (g : grid) (w : tarw) (prefix : string) (include_data : bool)
      : res tarw :=
    (* 257-268 *)
    w ← tar_header w (prefix +:+ "MANIFEST") (length format_version);
    w ← tar_write w format_version;
    let w := tar_try_flush w in
    (* 271-284 *)
    w ← tar_header w (prefix +:+ "DIMS") 16;
    w ← tar_write w (pack_u64 (N.of_nat (gr_size g).1));
    w ← tar_write w (pack_u64 (N.of_nat (gr_size g).2));
    (* 287-294 *)
    let cls := gr_class_attrs g in
    let normal := non_class_attributes g in
    w ← write_attributes_part w (prefix +:+ "CATTRS") (map (λ a, (a, is_nil a)) cls);
    w ← write_attributes_part w (prefix +:+ "ATTRS") (map (λ a, (a, is_nil a)) normal);
    (* 297-306 *)
    all ← columns (gr_size g).1 normal cls;
    specs ← resolve g all;
    (* 309-315 *)
    len ← map_over_rows g specs
            (λ len row (_ : nat), Ok (len + row_length row, Cont)) 0;
    (* 318-329 *)
    w ← tar_header w (prefix +:+ "DATA") len.1;
    let w := tar_try_flush w in
    if negb include_data then Ok w else
    (* 332-349 *)
    out ← map_over_rows g specs
            (λ (st : tarw * nat) row (_ : nat),
               match write_row st.1 row with
               | Ok w => Ok ((w, st.2 + row_length row), Cont)
               | Err => Ok (st, Fail)
               | Panic => Panic
               end) (w, 0);
    if (out.2 : bool) then Err
    else if negb (out.1.2 =? len.1) then Err
    else Ok (tar_try_flush out.1.1).

  (** base/serialize_instances.go:223-247 [SerializeInstances]: the archive written;
      flushing and closing come first, their errors win (226-244). *)
  Definition serialize_instances (g : grid) : res archive :=
    w ← serialize_to_tar g tar_new "" true;
    tar_close w.

  (** [got pos len]: how many bytes a [Read] into a buffer of [len] bytes at position
      [pos] of the entry delivers, when so many are left.  An io.Reader may deliver
      fewer than asked for. *)
  Variable got : nat → nat → nat.

  (** base/serialize_instances.go:160-179: one cell.  [last]: row and column are the last
      ones.  A read that reaches the end of the entry returns io.EOF with its bytes. *)
  Definition read_cell (data : list N) (st : dense * nat) (s : spec) (i : nat) (last : bool)
      : res (dense * nat) :=
    let '(d, pos) := st in
    r ← dense_get d s i;
    let n := Nat.min (got pos (length r)) (Nat.min (length r) (length data - pos)) in
    if negb (n =? length r) then Err else
    d ← dense_set d s i (take n (drop pos data));
    let eof := length data <=? pos + n in
    if eof && negb last then Err else Ok (d, pos + n).

  (** 159-180: the two loops. *)
  Fixpoint read_row (data : list N) (lastrow : bool) (i : nat) (specs : list spec)
      (st : dense * nat) : res (dense * nat) :=
    match specs with
    | [] => Ok st
    | s :: specs =>
        st ← read_cell data st s i (lastrow && (length specs =? 0));
        read_row data lastrow i specs st
    end.
  Definition read_rows (data : list N) (specs : list spec) (rows : nat) (d : dense)
      : res (dense * nat) :=
    res_foldl (λ st i, read_row data (i =? rows - 1) i specs st) (d, 0) (seq 0 rows).

  (** 122-126: adding the normal attributes; errors of AddAttribute are ignored. *)
  Definition add_normal (pg : nat) (d : dense) (l : list attr) : res dense :=
    res_foldl (λ d a, match dense_add pg d a with
                      | Ok r => Ok r.1 | Err => Ok d | Panic => Panic end) d l.
  (** 127-135: the class attributes. *)
  Definition add_classes (pg : nat) (d : dense) (l : list attr) : res dense :=
    res_foldl (λ d a,
      d ← match dense_add pg d a with
          | Ok r => Ok r.1 | Err => Ok d | Panic => Panic end;
      dense_set_class d a true) d l.

  (** base/serialize_instances.go:81-184 [DeserializeInstancesFromTarReader].  Row counts
      from 2^63 are negative as an [int], which Extend panics on. *)
  Definition deserialize_from_tar (pg : nat) (ar : archive) (prefix : string) : res dense :=
    (* 87-94 *)
    manifest ← get_named_file ar (prefix +:+ "MANIFEST");
    if negb (bool_decide (manifest = format_version)) then Err else
    (* 97-105 *)
    dims ← get_named_file ar (prefix +:+ "DIMS");
    if length dims <? 16 then Err else
    ncols ← unpack_u64 (take 8 dims);
    nrows ← unpack_u64 (drop 8 dims);
    (* 108-121 *)
    cbytes ← get_named_file ar (prefix +:+ "CATTRS");
    cls ← deserialize_attributes cbytes;
    abytes ← get_named_file ar (prefix +:+ "ATTRS");
    normal ← deserialize_attributes abytes;
    (* 122-137 *)
    d ← add_normal pg dense_new (map fst normal);
    d ← add_classes pg d (map fst cls);
    all ← columns (N.to_nat ncols) (map fst normal) (map fst cls);
    (* 139-142 *)
    if (2^63 <=? nrows)%N then Panic else
    let d := dense_extend d (N.to_nat nrows) in
    (* 145-156 *)
    data ← get_named_file ar (prefix +:+ "DATA");
    (* 159 *)
    specs ← dense_resolve d all;
    (* 162-180 *)
    st ← read_rows data specs (N.to_nat nrows) d;
    Ok st.1.

  (** base/serialize_instances.go:187-220 [DeserializeInstances], after
      decompression.  The recovery function, which turns panics that are not run-time
      errors into errors, is not modelled. *)
  Definition deserialize_instances (pg : nat) (ar : archive) : res dense :=
    deserialize_from_tar pg ar "".
End with_json.
