(** Model of the Filter interface (base/filters.go), of LazilyFilteredInstances
    (base/filtered.go) and of the filters package, except for the two numeric
    functions named below. *)
From Verif Require Import Prelude BytesModel FloatModel AttrModel StoreModel DenseModel
  GridModel SortModel.
From Flocq Require Import IEEE754.Bits IEEE754.Binary.
From Coq Require Import QArith.
Local Open Scope nat_scope.

(** base/filters.go:5-24: a trained filter is the list of its FilteredAttributes
    (old, new) and its Transform method. *)
Record filter_t := Filter {
  fl_attrs : list (attr * attr);
  fl_transform : attr → attr → list N → res (list N)
}.

(** ** LazilyFilteredInstances (base/filtered.go) *)

(** base/filtered.go:13-19.  [unfilteredMap] is recomputed from the source and the
    filter, see [lf_unfiltered]; [lf_class] lists the keys of [classAttrs] set to
    [true].  Simplification: a Go map keyed by Attribute compares pointers, the
    model compares the attributes themselves. *)
Record lfiltered := LF {
  lf_filter : filter_t;
  lf_src : grid;
  lf_class : list attr
}.

(** base/filtered.go:29-36 and every use [l.unfilteredMap[a]]. *)
Definition lf_unfiltered (l : lfiltered) (a : attr) : bool :=
  if existsb (λ p, bool_decide (p.1 = a)) (fl_attrs (lf_filter l)) then false
  else existsb (λ b, bool_decide (b = a)) (gr_all_attrs (lf_src l)).

(** [classAttrs[a] = true] and [= false]. *)
Definition class_put (a : attr) (cls : list attr) : list attr :=
  if bool_decide (a ∈ cls) then cls else cls ++ [a].
Definition class_drop (a : attr) (cls : list attr) : list attr :=
  filter (λ b, b ≠ a) cls.

(** base/filtered.go:91-106 [AddClassAttribute]. *)
Definition lf_add_class (l : lfiltered) (c : attr) : res lfiltered :=
  if lf_unfiltered l c then Ok (LF (lf_filter l) (lf_src l) (class_put c (lf_class l)))
  else
    let news := map snd (filter (λ p, attr_equals p.1 c || attr_equals p.2 c = true)
                                (fl_attrs (lf_filter l))) in
    match news with
    | [] => Err
    | _ => Ok (LF (lf_filter l) (lf_src l) (foldl (λ cls n, class_put n cls) (lf_class l) news))
    end.

(** base/filtered.go:116-121: the first filtered attribute that matches. *)
Fixpoint lf_match (l : list (attr * attr)) (c : attr) : option (attr * attr) :=
  match l with
  | [] => None
  | p :: l => if attr_equals p.1 c || attr_equals p.2 c then Some p else lf_match l c
  end.

(** base/filtered.go:110-123 [RemoveClassAttribute]. *)
Definition lf_remove_class (l : lfiltered) (c : attr) : res lfiltered :=
  if lf_unfiltered l c then Ok (LF (lf_filter l) (lf_src l) (class_drop c (lf_class l)))
  else match lf_match (fl_attrs (lf_filter l)) c with
       | Some p => Ok (LF (lf_filter l) (lf_src l) (class_drop p.2 (lf_class l)))
       | None => Err
       end.

(** base/filtered.go:24-52 [NewLazilyFilteredInstances]; the error of
    AddClassAttribute is ignored, line 49. *)
Definition new_lfiltered (src : grid) (f : filter_t) : lfiltered :=
  foldl (λ l c, match lf_add_class l c with Ok l' => l' | _ => l end)
    (LF f src []) (gr_class_attrs src).

(** base/filtered.go:61-67: index of the first new attribute equal to the target. *)
Fixpoint lf_find_new (i : nat) (l : list (attr * attr)) (target : attr) : option nat :=
  match l with
  | [] => None
  | p :: l => if attr_equals p.2 target then Some i else lf_find_new (S i) l target
  end.

(** base/filtered.go:55-69 [GetAttribute].  The spec of a filtered attribute has
    [pond] -1, which no function reads; the model writes 0. *)
Definition lf_get_attribute (l : lfiltered) (target : attr) : res spec :=
  if lf_unfiltered l target then gr_get_attribute (lf_src l) target
  else match lf_find_new 0 (fl_attrs (lf_filter l)) target with
       | Some i => Ok (Spec 0 i target)
       | None => Err
       end.

(** base/filtered.go:73-87 [AllAttributes]. *)
Definition lf_all_attrs (l : lfiltered) : list attr :=
  concat (map (λ a,
    if lf_unfiltered l a then [a]
    else map snd (filter (λ p, attr_equals a p.1 = true) (fl_attrs (lf_filter l))))
    (gr_all_attrs (lf_src l))).

(** base/filtered.go:140-154 [transformNewToOldAttribute]. *)
Definition lf_old (l : lfiltered) (s : spec) : res spec :=
  if lf_unfiltered l (sp_attr s) then Ok s
  else match lf_match (fl_attrs (lf_filter l)) (sp_attr s) with
       | Some p => match gr_get_attribute (lf_src l) p.1 with Ok o => Ok o | _ => Err end
       | None => Err
       end.

(** base/filtered.go:157-168 [Get]. *)
Definition lf_get (l : lfiltered) (s : spec) (row : nat) : res (list N) :=
  match lf_old l s with
  | Ok o =>
      b ← gr_get (lf_src l) o row;
      if lf_unfiltered l (sp_attr s) then Ok b
      else fl_transform (lf_filter l) (sp_attr o) (sp_attr s) b
  | _ => Panic
  end.

(** base/filtered.go:188-191: transforming one row.  The source's rows have as many
    values as specs were asked for. *)
Fixpoint lf_row (f : filter_t) (olds news : list spec) (row : list (list N))
    : res (list (list N)) :=
  match row with
  | [] => Ok []
  | b :: row =>
      match olds, news with
      | o :: olds, n :: news =>
          b' ← fl_transform f (sp_attr o) (sp_attr n) b;
          rest ← lf_row f olds news row;
          Ok (b' :: rest)
      | _, _ => Panic
      end
  end.

(** base/filtered.go:172-194 [MapOverRows]. *)
Definition lf_iter (l : lfiltered) (asv : list spec)
    : res (list (nat * res (list (list N)))) :=
  olds ← res_mapM (lf_old l) asv;
  rows ← gr_iter (lf_src l) olds;
  Ok (map (λ '(i, fetch), (i, buf ← fetch; lf_row (lf_filter l) olds asv buf)) rows).

(** base/filtered.go:219-221 [Size]. *)
Definition lf_size (l : lfiltered) : nat * nat := gr_size (lf_src l).

(** LazilyFilteredInstances as a FixedDataGrid; [co] is the iteration order over
    [classAttrs] (base/filtered.go:130-138). *)
Definition lf_grid (co : list attr → list attr) (l : lfiltered) : grid :=
  Grid (lf_get_attribute l) (lf_all_attrs l) (co (lf_class l)) (lf_get l) (lf_iter l)
    (lf_size l).

(** ** FloatConvertFilter and BinaryConvertFilter *)

(** filters/float.go:16-21, filters/binary.go:16-21.  The two maps are keyed by
    attribute; [cv_many] maps to the new attributes in the order of the codes. *)
Record convert := Convert {
  cv_converted : list (attr * attr);
  cv_two : list attr;
  cv_many : list (attr * list attr)
}.
Definition convert_new : convert := Convert [] [] [].

Fixpoint many_lookup (m : list (attr * list attr)) (a : attr) : option (list attr) :=
  match m with
  | [] => None
  | (b, news) :: m => if bool_decide (b = a) then Some news else many_lookup m a
  end.

(** base/float.go:44-46 [NewFloatAttribute]: precision 2. *)
Definition new_float (name : string) : attr := FloatA name 2.

(** filters/float.go:107-141 [Train]; a fold over [f.attrs].  The [else] case of an
    unknown attribute type does not exist in the model. *)
Definition float_train_one (f : convert) (a : attr) : convert :=
  match a with
  | CatA name vals =>
      if length vals <=? 2
      then Convert (cv_converted f ++ [(a, new_float name)]) (a :: cv_two f) (cv_many f)
      else
        let news := map (λ v, new_float (name +:+ "_" +:+ v)) vals in
        Convert (cv_converted f ++ map (λ n, (a, n)) news) (cv_two f) ((a, news) :: cv_many f)
  | FloatA _ _ => Convert (cv_converted f ++ [(a, a)]) (cv_two f) (cv_many f)
  | BinA name => Convert (cv_converted f ++ [(a, new_float name)]) (cv_two f) (cv_many f)
  end.
Definition float_train (f : convert) (attrs : list attr) : convert :=
  foldl float_train_one f attrs.

Definition float_one : binary64 := b64_of_bits 0x3FF0000000000000.
Definition float_zero : binary64 := b64_of_bits 0.

(** filters/float.go:53-95 [Transform]. *)
Definition float_transform (f : convert) (a n : attr) (bytes : list N) : res (list N) :=
  match a with
  | CatA _ _ =>
      val ← unpack_u64 bytes;
      if bool_decide (a ∈ cv_two f)
      then Ok (pack_float (if (0 <? val)%N then float_one else float_zero))
      else match many_lookup (cv_many f) a with
           | Some an =>
               match an !! N.to_nat val with
               | Some af => Ok (pack_float (if attr_equals af n then float_one else float_zero))
               | None => Panic
               end
           | None => Panic
           end
  | FloatA _ _ => Ok bytes
  | BinA _ =>
      b ← idx bytes 0;
      Ok (pack_float (if (0 <? b)%N then float_one else float_zero))
  end.

Definition float_filter (f : convert) : filter_t :=
  Filter (cv_converted f) (float_transform f).

(** filters/binary.go:117-151 [Train]. *)
Definition binary_train_one (f : convert) (a : attr) : convert :=
  match a with
  | CatA name vals =>
      if length vals <=? 2
      then Convert (cv_converted f ++ [(a, BinA name)]) (a :: cv_two f) (cv_many f)
      else
        let news := map (λ v, BinA (name +:+ "_" +:+ v)) vals in
        Convert (cv_converted f ++ map (λ n, (a, n)) news) (cv_two f) ((a, news) :: cv_many f)
  | BinA _ => Convert (cv_converted f ++ [(a, a)]) (cv_two f) (cv_many f)
  | FloatA name _ => Convert (cv_converted f ++ [(a, BinA name)]) (cv_two f) (cv_many f)
  end.
Definition binary_train (f : convert) (attrs : list attr) : convert :=
  foldl binary_train_one f attrs.

(** filters/binary.go:62-105 [Transform]. *)
Definition binary_transform (f : convert) (a n : attr) (bytes : list N) : res (list N) :=
  match a with
  | CatA _ _ =>
      val ← unpack_u64 bytes;
      if bool_decide (a ∈ cv_two f)
      then Ok [if (0 <? val)%N then 1%N else 0%N]
      else match many_lookup (cv_many f) a with
           | Some an =>
               match an !! N.to_nat val with
               | Some af => Ok [if attr_equals af n then 1%N else 0%N]
               | None => Panic
               end
           | None => Panic
           end
  | BinA _ => Ok bytes
  | FloatA _ _ =>
      val ← unpack_float bytes;
      Ok [if float_gt val float_zero then 1%N else 0%N]
  end.

Definition binary_filter (f : convert) : filter_t :=
  Filter (cv_converted f) (binary_transform f).

(** ** ChiMergeFilter *)

(** filters/chimerge_freq.go:8-11 [FrequencyTableEntry]. *)
Record freq_entry := Freq { fe_value : binary64; fe_freq : gmap string nat }.

(** Go's [==] and [<] on float64. *)
Definition float_eq (a b : binary64) : bool :=
  match Bcompare 53 1024 a b with Some Eq => true | _ => false end.
Definition float_lt (a b : binary64) : bool :=
  match Bcompare 53 1024 a b with Some Lt => true | _ => false end.

(** filters/chimerge_funcs.go:22-39: count one (value, class) pair.  The loop of
    24-29 does not stop at the first match. *)
Definition freq_add (ret : list freq_entry) (v : binary64) (class : string)
    : list freq_entry :=
  if existsb (λ e, float_eq (fe_value e) v) ret
  then map (λ e, if float_eq (fe_value e) v
                 then Freq (fe_value e) (count_up (fe_freq e) class) else e) ret
  else ret ++ [Freq v {[class := 1]}].

(** filters/chimerge_funcs.go:8-42 [ChiMBuildFrequencyTable]; [show] as in
    [get_class].  MapOverRows' error is ignored (line 19 assigns, nothing reads). *)
Definition build_freq (show : nat → N → string) (a : attr) (inst : grid)
    : res (list freq_entry) :=
  match a with
  | FloatA _ _ =>
      match gr_get_attribute inst a with
      | Ok s =>
          r ← map_over_rows inst [s] (λ ret row rowno,
                value ← idx row 0;
                v ← unpack_float value;
                class ← get_class show inst rowno;
                Ok (freq_add ret v class, Cont)) [];
          Ok r.1
      | _ => Panic
      end
  | _ => Panic
  end.

(** filters/chimerge_funcs.go:162-168: the two class counters added up. *)
Definition freq_union (m1 m2 : gmap string nat) : gmap string nat :=
  union_with (λ a b, Some (a + b)) m1 m2.

(** filters/chimerge_funcs.go:159-186 [chiMergeMergeZipAdjacent].  The append of
    lines 178-184 writes into the backing array of the table passed in; its caller
    only keeps the result. *)
Definition merge_adjacent (freq : list freq_entry) (i : nat) : res (list freq_entry) :=
  e1 ← idx freq i;
  e2 ← idx freq (i + 1);
  Ok (take i freq ++ Freq (fe_value e1) (freq_union (fe_freq e1) (fe_freq e2))
        :: drop (i + 2) freq).

Section chi_merge.
  (** [chiComputeStatistic] (filters/chimerge_funcs.go:97-157) and the comparison
      [chiSquaredPercentile(classes - 1, v) < sig] (44-85 and filters/chimerge.go:97-101) are
      floating-point computations left abstract: any statistic with values in the
      rationals and any significance test. *)
  Variable stat : freq_entry → freq_entry → Q.
  Variable significant : Q → bool.

  (** filters/chimerge.go:75-87: the smallest statistic of adjacent entries (None is
      +Inf) and the indexes where it occurs. *)
  Definition min_step (freq : list freq_entry) (acc : option Q * list nat) (i : nat)
      : res (option Q * list nat) :=
    e1 ← idx freq i;
    e2 ← idx freq (i + 1);
    let v := stat e1 e2 in
    let acc := match acc.1 with
               | Some m => if negb (Qle_bool m v) then (Some v, []) else acc
               | None => (Some v, [])
               end in
    Ok (if match acc.1 with Some m => Qeq_bool v m | None => false end
        then (acc.1, acc.2 ++ [i]) else acc).
  Definition min_indexes (freq : list freq_entry) : res (option Q * list nat) :=
    res_foldl (min_step freq) (None, []) (seq 0 (length freq - 1)).

  (** filters/chimerge.go:109-111: merge at all the indexes found; [v-i] is written
      with truncated subtraction. *)
  Fixpoint merge_all (freq : list freq_entry) (i : nat) (idxs : list nat)
      : res (list freq_entry) :=
    match idxs with
    | [] => Ok freq
    | v :: idxs => freq ← merge_adjacent freq (v - i); merge_all freq (S i) idxs
    end.

  (** filters/chimerge.go:71-112: the loop.  [fuel] bounds the iterations, running
      out is [Err]. *)
  Fixpoint chi_loop (fuel : nat) (minrows maxrows : nat) (freq : list freq_entry)
      : res (list freq_entry) :=
    if length freq <=? minrows then Ok freq
    else match fuel with
         | 0 => Err
         | S fuel =>
             m ← min_indexes freq;
             if (maxrows <? length freq)
                || match m.1 with Some v => significant v | None => false end
             then freq ← merge_all freq 0 m.2; chi_loop fuel minrows maxrows freq
             else Ok freq
         end.
End chi_merge.

(** filters/chimerge.go:50-59: the parameter checks. *)
Definition chi_minrows (minrows : nat) : nat := if 2 <=? minrows then minrows else 2.
Definition chi_maxrows (minrows maxrows : nat) : nat :=
  if chi_minrows minrows <? maxrows then maxrows else chi_minrows minrows + 1.

(** filters/chimerge.go:48-114 [chiMerge].  The number of classes used by the
    significance test depends on the table, hence the extra argument. *)
Definition chi_merge show (stat : freq_entry → freq_entry → Q)
    (significant : list freq_entry → Q → bool)
    (inst : grid) (a : attr) (minrows maxrows : nat) : res (list freq_entry) :=
  freq ← build_freq show a inst;
  chi_loop stat (significant freq) (length freq)
    (chi_minrows minrows) (chi_maxrows minrows maxrows) freq.

(** filters/chimerge.go:116-143 [Train], for one attribute. *)
Definition chi_train show stat significant (co : list attr → list attr)
    (ro : list nat → list nat) (train : grid) (a : attr) (minrows maxrows : nat)
    : res (list freq_entry) :=
  match gr_get_attribute train a with
  | Ok s =>
      sorted ← lazy_sort Ascending [s] train;
      chi_merge show stat significant (view_grid co ro sorted) a minrows maxrows
  | _ => Panic
  end.

(** filters/chimerge.go:173-181: the search loop of [Transform]. *)
Fixpoint chi_find (table : list freq_entry) (j dis : nat) (val : binary64) : nat :=
  match table with
  | [] => dis
  | k :: table => if float_lt (fe_value k) val then chi_find table (S j) j val else dis
  end.

(** filters/chimerge.go:166-184 [Transform]. *)
Definition chi_transform (tables : list (attr * list freq_entry)) (a n : attr)
    (field : list N) : res (list N) :=
  match List.find (λ p, bool_decide (p.1 = a)) tables with
  | None => Ok field
  | Some (_, table) =>
      val ← unpack_float field;
      Ok (pack_u64 (N.of_nat (chi_find table 0 0 val)))
  end.

(** filters/chimerge.go:147-163 [GetAttributesAfterFiltering]; [label] is
    [fmt.Sprintf("%f", _)].  Labels are entered with GetSysValFromString, which
    drops repeated ones. *)
Definition chi_labels (label : binary64 → string) (table : list freq_entry) : list string :=
  (cat_encode_all [] (map (λ k, label (fe_value k)) table)).1.
Definition chi_attrs (label : binary64 → string) (tables : list (attr * list freq_entry))
    (train : grid) : list (attr * attr) :=
  map (λ a, (a, match List.find (λ p, bool_decide (p.1 = a)) tables with
                | Some (_, table) => CatA (attr_name a) (chi_labels label table)
                | None => a
                end)) (gr_all_attrs train).
Definition chi_filter label tables (train : grid) : filter_t :=
  Filter (chi_attrs label tables train) (chi_transform tables).
