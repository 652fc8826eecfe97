(** Model of the FixedDataGrid interface (base/data.go), of InstancesView
    (base/view.go) and of the functions of base/util_instances.go that work
    on any FixedDataGrid. *)
From Verif Require Import Prelude BytesModel FloatModel AttrModel StoreModel DenseModel ShuffleModel.
From Flocq Require Import IEEE754.Bits IEEE754.Binary.
Local Open Scope nat_scope.

(** base/data.go:14-39: the FixedDataGrid interface as the record of its methods,
    so that every function below works on an arbitrary implementation.
    [gr_iter asv] is the sequence of rows that [MapOverRows(asv, f)] presents to
    [f], as (row number, values) pairs, where fetching the values may panic;
    [Err] is an error returned before the first row.  [gr_class_attrs] and
    [gr_iter] of implementations that range over a Go map take the iteration order as
    a parameter.  Simplification: a grid is a value; callbacks that modify the
    grid they iterate over are not covered. *)
Record grid := Grid {
  gr_get_attribute : attr → res spec;
  gr_all_attrs : list attr;
  gr_class_attrs : list attr;
  gr_get : spec → nat → res (list N);
  gr_iter : list spec → res (list (nat * res (list (list N))));
  gr_size : nat * nat
}.

(** The loop every MapOverRows implementation runs over its rows
    (base/dense.go:462-475, base/view.go:210-222): fetch, call, then return on an
    error, leave on [false]. *)
Fixpoint run_rows {S} (f : S → list (list N) → nat → res (S * cb)) (s : S)
    (rows : list (nat * res (list (list N)))) : res (S * bool) :=
  match rows with
  | [] => Ok (s, false)
  | (i, fetch) :: rows =>
      rowbuf ← fetch;
      r ← f s rowbuf i;
      match r with
      | (s, Fail) => Ok (s, true)
      | (s, Stop) => Ok (s, false)
      | (s, Cont) => run_rows f s rows
      end
  end.

Definition map_over_rows {S} (g : grid) (asv : list spec)
    (f : S → list (list N) → nat → res (S * cb)) (s : S) : res (S * bool) :=
  match gr_iter g asv with
  | Ok rows => run_rows f s rows
  | Err => Ok (s, true)
  | Panic => Panic
  end.

(** DenseInstances as a FixedDataGrid (base/dense.go); [order] is the iteration
    order over the [classAttrs] map, see [class_order]. *)
Definition dense_grid (order : list ((nat * nat) * bool)) (d : dense) : grid :=
  Grid (dense_get_attribute d) (dense_all_attrs d) (class_attrs_in_order d order)
    (dense_get d)
    (λ asv, Ok (map (λ i, (i, res_mapM (λ a, dense_get d a i) asv))
                    (seq 0 (d_maxrow d))))
    (dense_size d).

(** base/util_attributes.go:44-59 [ResolveAttributes] (see [dense_resolve] for
    the sort). *)
Definition resolve (g : grid) (attrs : list attr) : res (list spec) :=
  res_mapM (λ a, match gr_get_attribute g a with Ok s => Ok s | _ => Panic end) attrs.

(** base/util_attributes.go:62-64 [ResolveAllAttributes]. *)
Definition resolve_all (g : grid) : res (list spec) := resolve g (gr_all_attrs g).

(** ** InstancesView (base/view.go) *)

(** base/view.go:10-16.  Row numbers are [nat]; a Go row map could also hold
    negative numbers, which no function of the repository puts there. *)
Record view := View {
  v_src : grid;
  v_attrs : option (list spec);
  v_rows : option (gmap nat nat);
  v_class : list attr;
  v_mask : bool
}.

(** base/view.go:23-27. *)
Definition spec_matched (a : attr) (l : list spec) : bool :=
  existsb (λ b, attr_equals (sp_attr b) a) l.

(** base/view.go:18-33 [addClassAttrsFromSrc]: the keys set to [true], as the
    duplicate-free list of keys. *)
Definition class_from_src (src : grid) (attrs : option (list spec)) : list attr :=
  remove_dups (filter (λ a, match attrs with
                            | None => true
                            | Some l => spec_matched a l
                            end = true) (gr_class_attrs src)).

(** base/view.go:35-48 [resolveRow]; [None] is [-1]. *)
Definition resolve_row (v : view) (row : nat) : option nat :=
  match v_rows v with
  | Some m => match m !! row with
              | Some r => Some r
              | None => if v_mask v then None else Some row
              end
  | None => Some row
  end.

(** base/view.go:57-68 [NewInstancesViewFromRows]. *)
Definition view_from_rows (src : grid) (rows : gmap nat nat) : view :=
  View src None (Some rows) (class_from_src src None) false.

(** base/view.go:87-89: the row map of a slice of rows. *)
Definition row_map (rows : list nat) : gmap nat nat :=
  list_to_map (imap (λ i a, (i, a)) rows).

(** base/view.go:78-93 [NewInstancesViewFromVisible]. *)
Definition view_from_visible (src : grid) (rows : list nat) (attrs : list attr)
    : res view :=
  specs ← resolve src attrs;
  Ok (View src (Some specs) (Some (row_map rows))
        (class_from_src src (Some specs)) true).

(** base/view.go:99-110 [NewInstancesViewFromAttrs]. *)
Definition view_from_attrs (src : grid) (attrs : list attr) : res view :=
  specs ← resolve src attrs;
  Ok (View src (Some specs) None (class_from_src src (Some specs)) false).

(** base/view.go:126-131. *)
Fixpoint find_spec (l : list spec) (a : attr) : option spec :=
  match l with
  | [] => None
  | r :: l => if attr_equals (sp_attr r) a then Some r else find_spec l a
  end.

(** base/view.go:117-133 [GetAttribute]. *)
Definition view_get_attribute (v : view) (a : attr) : res spec :=
  match v_attrs v with
  | None => gr_get_attribute (v_src v) a
  | Some l => match find_spec l a with Some s => Ok s | None => Err end
  end.

(** base/view.go:136-149 [AllAttributes]. *)
Definition view_all_attrs (v : view) : list attr :=
  match v_attrs v with
  | None => gr_all_attrs (v_src v)
  | Some l => map sp_attr l
  end.

(** base/view.go:194-201 [Get]. *)
Definition view_get (v : view) (s : spec) (row : nat) : res (list N) :=
  match resolve_row v row with
  | None => Panic
  | Some r => gr_get (v_src v) s r
  end.

(** base/view.go:207-227 [MapOverRows].  [ro] gives the iteration order over
    the row map from its list of keys. *)
Definition view_iter (ro : list nat → list nat) (v : view) (asv : list spec)
    : res (list (nat * res (list (list N)))) :=
  if v_mask v then
    let m := default ∅ (v_rows v) in
    Ok (map (λ r, (r, res_mapM (λ a, gr_get (v_src v) a (default 0 (m !! r))) asv))
            (ro (map fst (map_to_list m))))
  else gr_iter (v_src v) asv.

(** base/view.go:231-247 [Size]. *)
Definition view_size (v : view) : nat * nat :=
  let '(h, n) := gr_size (v_src v) in
  let h := match v_attrs v with Some l => length l | None => h end in
  let n := match v_rows v with
           | Some m => if v_mask v then size m
                       else if n <? size m then size m else n
           | None => n
           end in
  (h, n).

(** base/view.go:178-186 [AllClassAttributes]; [co] gives the iteration order
    over the classAttrs map. *)
Definition view_class_attrs (co : list attr → list attr) (v : view) : list attr :=
  co (v_class v).

(** An InstancesView as a FixedDataGrid. *)
Definition view_grid (co : list attr → list attr) (ro : list nat → list nat)
    (v : view) : grid :=
  Grid (view_get_attribute v) (view_all_attrs v) (view_class_attrs co v)
    (view_get v) (view_iter ro v) (view_size v).

(** base/view.go:153-167 [AddClassAttribute]. *)
Definition view_add_class (v : view) (a : attr) : res view :=
  if negb (existsb (λ r, attr_equals r a) (view_all_attrs v)) then Err
  else Ok (View (v_src v) (v_attrs v) (v_rows v)
             (if bool_decide (a ∈ v_class v) then v_class v else v_class v ++ [a])
             (v_mask v)).

(** base/view.go:171-174 [RemoveClassAttribute]. *)
Definition view_remove_class (v : view) (a : attr) : view :=
  View (v_src v) (v_attrs v) (v_rows v) (filter (λ b, b ≠ a) (v_class v)) (v_mask v).

(** ** Shuffling, sampling, splitting (base/util_instances.go) *)

(** base/util_instances.go:402-407: the row map built by [LazyShuffle];
    [draws i] is the result of [rand.Intn(i + 1)]. *)
Definition lazy_shuffle_rows (draws : nat → nat) (rows : nat) : gmap nat nat :=
  foldl (λ m i, <[draws i := i]> (<[i := draws i]> m)) ∅ (seq 0 rows).

(** base/util_instances.go:400-409 [LazyShuffle]. *)
Definition lazy_shuffle (draws : nat → nat) (from : grid) : view :=
  view_from_rows from (lazy_shuffle_rows draws (gr_size from).2).

(** base/util_instances.go:431-439 [SampleWithReplacement]; [draws i] is the
    result of the [i]-th [rand.Intn(rows)], which panics when [rows = 0]. *)
Definition sample_with_replacement (draws : nat → nat) (from : grid) (n : nat)
    : res view :=
  if (0 <? n) && ((gr_size from).2 =? 0) then Panic
  else Ok (view_from_rows from
             (foldl (λ m i, <[i := draws i]> m) ∅ (seq 0 n))).

(** base/util_instances.go:383-390: the two row lists; [draws i] is the result
    of [rand.Intn(101)] and [t] is [int(100*prop)]. *)
Fixpoint split_rows (draws : nat → Z) (t : Z) (i n : nat) : list nat * list nat :=
  match n with
  | 0 => ([], [])
  | S n => let '(tr, te) := split_rows draws t (S i) n in
           if (t <? draws i)%Z then (i :: tr, te) else (tr, i :: te)
  end.

(** base/util_instances.go:382-394: split of an already shuffled source. *)
Definition train_test_views (draws : nat → Z) (t : Z) (src : grid)
    : res (view * view) :=
  let '(tr, te) := split_rows draws t 0 (gr_size src).2 in
  v1 ← view_from_visible src tr (gr_all_attrs src);
  v2 ← view_from_visible src te (gr_all_attrs src);
  Ok (v1, v2).

(** base/util_instances.go:376-396 [InstancesTrainTestSplit] of DenseInstances
    (shuffled in place, base/util_instances.go:415-421). *)
Definition train_test_dense (order : list ((nat * nat) * bool)) (shuf : nat → nat)
    (draws : nat → Z) (t : Z) (d : dense) : res (dense * (view * view)) :=
  d' ← dense_shuffle shuf d;
  vs ← train_test_views draws t (dense_grid order d');
  Ok (d', vs).

(** The same for any other FixedDataGrid (base/util_instances.go:422-424). *)
Definition train_test_other (co : list attr → list attr) (ro : list nat → list nat)
    (shuf : nat → nat) (draws : nat → Z) (t : Z) (src : grid) : res (view * view) :=
  train_test_views draws t (view_grid co ro (lazy_shuffle shuf src)).

(** ** Class values and distributions (base/util_instances.go) *)

Section with_show.
  (** Formatting of floats, see [attr_decode]. *)
  Variable show : nat → N → string.

  (** base/util_instances.go:61-84 [GetClass]. *)
  Definition get_class (g : grid) (row : nat) : res string :=
    match gr_class_attrs g with
    | [c] =>
        match gr_get_attribute g c with
        | Ok s => v ← gr_get g s row; attr_decode show c v
        | _ => Panic
        end
    | _ => Panic
    end.

  (** [ret[cls]++] on a [map[string]int]. *)
  Definition count_up (m : gmap string nat) (k : string) : gmap string nat :=
    <[k := default 0 (m !! k) + 1]> m.

  (** base/util_instances.go:188-196 [GetClassDistribution]. *)
  Definition class_distribution (g : grid) : res (gmap string nat) :=
    res_foldl (λ m i, cls ← get_class g i; Ok (count_up m cls)) ∅
      (seq 0 (gr_size g).2).

  (** base/util_instances.go:223-228 and 251-256: when the outer key is missing
      the code inserts an empty map and repeats the row, so the second attempt finds
      it; the model does both steps at once. *)
  Definition count_up2 (m : gmap string (gmap string nat)) (k cls : string)
      : gmap string (gmap string nat) :=
    let m := match m !! k with Some _ => m | None => <[k := ∅]> m end in
    <[k := count_up (default ∅ (m !! k)) cls]> m.

  (** Go's [a > b] on float64: false when an operand is NaN. *)
  Definition float_gt (a b : binary64) : bool :=
    match Bcompare 53 1024 a b with Some Gt => true | _ => false end.

  (** base/util_instances.go:217-221, 302-307. *)
  Definition threshold_key (val : binary64) (raw : list N) : res string :=
    f ← unpack_float raw; Ok (if float_gt f val then "1" else "0").

  (** base/util_instances.go:200-232 [GetClassDistributionAfterThreshold]. *)
  Definition distribution_after_threshold (g : grid) (at_ : attr) (val : binary64)
      : res (gmap string (gmap string nat)) :=
    match gr_get_attribute g at_ with
    | Ok s =>
        match at_ with
        | FloatA _ _ =>
            res_foldl (λ m i,
              raw ← gr_get g s i;
              k ← threshold_key val raw;
              cls ← get_class g i;
              Ok (count_up2 m k cls)) ∅ (seq 0 (gr_size g).2)
        | _ => Panic
        end
    | _ => Panic
    end.

  (** base/util_instances.go:236-260 [GetClassDistributionAfterSplit]. *)
  Definition distribution_after_split (g : grid) (at_ : attr)
      : res (gmap string (gmap string nat)) :=
    match gr_get_attribute g at_ with
    | Ok s =>
        res_foldl (λ m i,
          raw ← gr_get g s i;
          k ← attr_decode show at_ raw;
          cls ← get_class g i;
          Ok (count_up2 m k cls)) ∅ (seq 0 (gr_size g).2)
    | _ => Panic
    end.

  (** base/util_instances.go:280-286, 332-338: all attributes but [at_]. *)
  Definition other_attrs (g : grid) (at_ : attr) : list attr :=
    filter (λ a, attr_equals a at_ = false) (gr_all_attrs g).

  (** base/util_instances.go:299-311, 350-361: the callback collecting row
      numbers under the key of the last value of the row. *)
  Definition collect_rows (key : list N → res string)
      (m : gmap string (list nat)) (row : list (list N)) (rowno : nat)
      : res (gmap string (list nat) * cb) :=
    raw ← idx row (length row - 1);
    k ← key raw;
    Ok (<[k := default [] (m !! k) ++ [rowno]]> m, Cont).

  (** base/util_instances.go:313-315, 363-365: one view per key. *)
  Definition views_of (g : grid) (newattrs : list attr) (m : gmap string (list nat))
      : res (gmap string view) :=
    vs ← res_mapM (λ '(k, rows),
           v ← view_from_visible g rows newattrs; Ok (k, v)) (map_to_list m);
    Ok (list_to_map vs).

  (** Common part of the two Decompose functions; MapOverRows' error result is
      ignored by the code. *)
  Definition decompose (g : grid) (at_ : attr) (s : spec)
      (key : list N → res string) : res (gmap string view) :=
    let newattrs := other_attrs g at_ in
    specs ← resolve g newattrs;
    r ← map_over_rows g (specs ++ [s]) (collect_rows key) ∅;
    views_of g newattrs r.1.

  (** base/util_instances.go:269-318 [DecomposeOnNumericAttributeThreshold]. *)
  Definition decompose_threshold (g : grid) (at_ : attr) (val : binary64)
      : res (gmap string view) :=
    match at_ with
    | FloatA _ _ =>
        match gr_get_attribute g at_ with
        | Ok s => decompose g at_ s (threshold_key val)
        | _ => Panic
        end
    | _ => Panic
    end.

  (** base/util_instances.go:325-368 [DecomposeOnAttributeValues]; the value is
      decoded by the attribute of the spec found, line 353. *)
  Definition decompose_values (g : grid) (at_ : attr) : res (gmap string view) :=
    match gr_get_attribute g at_ with
    | Ok s => decompose g at_ s (attr_decode show (sp_attr s))
    | _ => Panic
    end.
End with_show.

(** base/util_instances.go:141-150: the callback of
    [GetClassDistributionByBinaryFloatValue]; [half] is 0.5. *)
Definition count_binary_cb (half : binary64) (ret : list nat) (vals : list (list N))
    (row : nat) : res (list nat * cb) :=
  raw ← idx vals 0;
  f ← unpack_float raw;
  let i := if float_gt f half then 1 else 0 in
  old ← idx ret i;
  Ok (<[i := old + 1]> ret, Stop).

(** base/util_instances.go:125-153 [GetClassDistributionByBinaryFloatValue]. *)
Definition distribution_by_binary_float (half : binary64) (g : grid) : res (list nat) :=
  match gr_class_attrs g with
  | [FloatA n p] =>
      specs ← resolve g [FloatA n p];
      r ← map_over_rows g specs (count_binary_cb half) [0; 0];
      Ok r.1
  | _ => Panic
  end.

(** base/util_instances.go:177-181: the callback of
    [GetClassDistributionByCategoricalValue]. *)
Definition count_categorical_cb (ret : list nat) (vals : list (list N)) (row : nat)
    : res (list nat * cb) :=
  raw ← idx vals 0;
  u ← unpack_u64 raw;
  old ← idx ret (N.to_nat u);
  Ok (<[N.to_nat u := old + 1]> ret, Stop).

(** base/util_instances.go:158-184 [GetClassDistributionByCategoricalValue]. *)
Definition distribution_by_categorical (g : grid) : res (list nat) :=
  match gr_class_attrs g with
  | [CatA n vs] =>
      specs ← resolve g [CatA n vs];
      r ← map_over_rows g specs count_categorical_cb (replicate (length vs) 0);
      Ok r.1
  | _ => Panic
  end.

(** ** Comparing grids *)

(** base/util_instances.go:524-530: the row loop of [InstancesAreEqual]. *)
Fixpoint equal_rows (get1 get2 : nat → res (list N)) (i n : nat) : res bool :=
  match n with
  | 0 => Ok true
  | S n =>
      b1 ← get1 i;
      b2 ← get2 i;
      if negb (byte_seq_equal b1 b2) then Ok false else equal_rows get1 get2 (S i) n
  end.

(** base/util_instances.go:510-531: the attribute loop.  Note lines 515 and
    526: the second spec and value also come from [inst]. *)
Fixpoint equal_attrs (inst : grid) (rows : nat) (attrs : list attr) : res bool :=
  match attrs with
  | [] => Ok true
  | a :: attrs =>
      match gr_get_attribute inst a with
      | Ok s1 =>
          match gr_get_attribute inst a with
          | Ok s2 =>
              if negb (attr_equals (sp_attr s1) (sp_attr s2)) then Ok false
              else
                eq ← equal_rows (gr_get inst s1) (gr_get inst s2) 0 rows;
                if (eq : bool) then equal_attrs inst rows attrs else Ok false
          | _ => Ok false
          end
      | _ => Panic
      end
  end.

(** base/util_instances.go:507-534 [InstancesAreEqual]. *)
Definition instances_are_equal (inst other : grid) : res bool :=
  equal_attrs inst (gr_size inst).2 (gr_all_attrs inst).
