(** Model of clustering/clustering.go, clustering/dbscan.go, the predictions of
    clustering/em.go and base/conversion.go. *)
From Verif Require Import Prelude FloatModel AttrModel StoreModel DenseModel GridModel FilterModel KnnModel Id3Model RuleModel CartModel IsoModel.
From Flocq Require Import IEEE754.BinarySingleNaN IEEE754.Bits IEEE754.Binary.
Local Open Scope nat_scope.

(** ** Rows as vectors (base/conversion.go) *)

(** base/conversion.go:9-17 [checkAllAttributesAreFloat]; true if there is no error. *)
Definition all_float (attrs : list attr) : bool := forallb is_float attrs.

(** base/conversion.go:22-42 [ConvertRowToMat64]; a matrix of one row is the list of its
    numbers.  [mat.NewDense] panics when a dimension is 0. *)
Definition convert_row (attrs : list attr) (g : grid) (r : nat) : res (list binary64) :=
  if negb (all_float attrs) then Err else
  if length attrs =? 0 then Panic else
  specs ← resolve g attrs;
  res_mapM (λ s, raw ← gr_get g s r; unpack_float raw) specs.

(** base/conversion.go:46-70 [ConvertAllRowsToMat64]. *)
Definition convert_rows (attrs : list attr) (g : grid) : res (list (list binary64)) :=
  if negb (all_float attrs) then Err else
  specs ← resolve g attrs;
  res_mapM (λ r, if length attrs =? 0 then Panic
                 else res_mapM (λ s, raw ← gr_get g s r; unpack_float raw) specs)
    (seq 0 (gr_size g).2).

(** ** Distances (clustering/dbscan.go:36-55) *)

(** A square matrix: [At(i, j)]. *)
Definition matrix := nat → nat → binary64.
(** [mat.NewDense(rows, rows, nil)]. *)
Definition mat_zero : matrix := λ _ _, float_zero.
(** [Set(i, j, v)]. *)
Definition mat_set (m : matrix) (i j : nat) (v : binary64) : matrix :=
  λ a b, if (a =? i) && (b =? j) then v else m a b.

(** clustering/dbscan.go:36-55 [computePairwiseDistances]; the metric is a function of two vectors. *)
Definition pairwise_distances (metric : list binary64 → list binary64 → binary64) (attrs : list attr)
    (g : grid) : res matrix :=
  mats ← convert_rows attrs g;
  let rows := (gr_size g).2 in
  if rows =? 0 then Panic else
  res_foldl (λ m i,
    res_foldl (λ m j,
      a ← idx mats i; b ← idx mats j;
      let d := metric a b in
      Ok (mat_set (mat_set m i j d) j i d)) m (seq (S i) (rows - S i))) mat_zero (seq 0 rows).

(** ** Sets of rows as big integers *)

Definition bit (n : N) (i : nat) : bool := N.testbit n (N.of_nat i).
Definition set_bit (n : N) (i : nat) : N := N.setbit n (N.of_nat i).

(** clustering/dbscan.go:154-188: the table [bitCounts]. *)
Definition bit_counts : list nat :=
  [0; 1; 1; 2; 1; 2; 2; 3;
   1; 2; 2; 3; 2; 3; 3; 4;
   1; 2; 2; 3; 2; 3; 3; 4;
   2; 3; 3; 4; 3; 4; 4; 5;
   1; 2; 2; 3; 2; 3; 3; 4;
   2; 3; 3; 4; 3; 4; 4; 5;
   2; 3; 3; 4; 3; 4; 4; 5;
   3; 4; 4; 5; 4; 5; 5; 6;
   1; 2; 2; 3; 2; 3; 3; 4;
   2; 3; 3; 4; 3; 4; 4; 5;
   2; 3; 3; 4; 3; 4; 4; 5;
   3; 4; 4; 5; 4; 5; 5; 6;
   2; 3; 3; 4; 3; 4; 4; 5;
   3; 4; 4; 5; 4; 5; 5; 6;
   3; 4; 4; 5; 4; 5; 5; 6;
   4; 5; 5; 6; 5; 6; 6; 7;
   1; 2; 2; 3; 2; 3; 3; 4;
   2; 3; 3; 4; 3; 4; 4; 5;
   2; 3; 3; 4; 3; 4; 4; 5;
   3; 4; 4; 5; 4; 5; 5; 6;
   2; 3; 3; 4; 3; 4; 4; 5;
   3; 4; 4; 5; 4; 5; 5; 6;
   3; 4; 4; 5; 4; 5; 5; 6;
   4; 5; 5; 6; 5; 6; 6; 7;
   2; 3; 3; 4; 3; 4; 4; 5;
   3; 4; 4; 5; 4; 5; 5; 6;
   3; 4; 4; 5; 4; 5; 5; 6;
   4; 5; 5; 6; 5; 6; 6; 7;
   3; 4; 4; 5; 4; 5; 5; 6;
   4; 5; 5; 6; 5; 6; 6; 7;
   4; 5; 5; 6; 5; 6; 6; 7;
   5; 6; 6; 7; 6; 7; 7; 8].

(** [n.Bytes()], least significant byte first (the order does not matter for the sum);
    [fuel] is at least the number of bytes. *)
Fixpoint big_bytes (fuel : nat) (n : N) : list N :=
  match fuel with
  | 0 => []
  | S fuel => if (n =? 0)%N then [] else (n mod 256)%N :: big_bytes fuel (n / 256)
  end.

(** clustering/dbscan.go:145-151 [BitCount]. *)
Definition bit_count (n : N) : nat :=
  foldl (λ count b, count + default 0 (bit_counts !! N.to_nat b)) 0 (big_bytes (N.size_nat n) n).

(** clustering/dbscan.go:25-34 [regionQuery], on a fresh set. *)
Definition region_query (p rows : nat) (dist : matrix) (eps : binary64) : N :=
  foldl (λ ret i, if float_le (dist p i) eps then set_bit ret i else ret) 0%N (seq 0 rows).

(** ** DBSCAN (clustering/dbscan.go:58-142) *)

(** The variables the closure shares with the main loop. *)
Record scan := Scan {
  sc_map : gmap nat (list nat);
  sc_visited : N;
  sc_clustered : N
}.

Section dbscan.
  Variable rows : nat.
  Variable dist : matrix.
  Variable eps : binary64.
  Variable min_count : Z.

  (** [BitCount(neighbours) >= params.MinCount]. *)
  Definition enough (n : N) : bool := (min_count <=? Z.of_nat (bit_count n))%Z.

  (** [clusterMap[c] = append(clusterMap[c], i)]. *)
  Definition append_to (c i : nat) (m : gmap nat (list nat)) : gmap nat (list nat) :=
    <[c := default [] (m !! c) ++ [i]]> m.

  (** clustering/dbscan.go:84-109: the loop of expandCluster, from position [i].  [Err] stands for
      more than [fuel] iterations.  After a reset the loop goes on at 1, as [i++] follows
      [i = 0]. *)
  Fixpoint expand_loop (fuel c i : nat) (neighbours : N) (st : scan) : res scan :=
    match fuel with
    | 0 => Err
    | S fuel =>
        if rows <=? i then Ok st
        else if negb (bit neighbours i) then expand_loop fuel c (S i) neighbours st
        else if bit (sc_visited st) i then expand_loop fuel c (S i) neighbours st
        else
          let more := region_query i rows dist eps in
          let reset := enough more in
          let neighbours := if reset then N.lor neighbours more else neighbours in
          let st := Scan (sc_map st) (set_bit (sc_visited st) i) (sc_clustered st) in
          let st := if bit (sc_clustered st) i then st
                    else Scan (append_to c i (sc_map st)) (sc_visited st) (set_bit (sc_clustered st) i) in
          expand_loop fuel c (if reset then 1 else S i) neighbours st
    end.

  (** clustering/dbscan.go:72-110 [expandCluster]. *)
  Definition expand_cluster (fuel p : nat) (neighbours : N) (c : nat) (st : scan) : res scan :=
    if bit (sc_clustered st) p then Panic else
    expand_loop fuel c 0 neighbours
      (Scan (append_to c p (sc_map st)) (set_bit (sc_visited st) p) (set_bit (sc_clustered st) p)).

  (** clustering/dbscan.go:113-127: one iteration of the main loop. *)
  Definition scan_row (fuel : nat) (cs : nat * scan) (i : nat) : res (nat * scan) :=
    let '(c, st) := cs in
    if bit (sc_visited st) i then Ok (c, st) else
    let st := Scan (sc_map st) (set_bit (sc_visited st) i) (sc_clustered st) in
    let neighbours := region_query i rows dist eps in
    if negb (enough neighbours)
    then Ok (c, Scan (sc_map st) (sc_visited st) (N.lor (sc_clustered st) neighbours))
    else st ← expand_cluster fuel i neighbours (S c) st; Ok (S c, st).

  (** clustering/dbscan.go:68-141, given the distances; the order in which the keys are collected for
      removal does not matter. *)
  Definition scan_all (fuel : nat) : res (gmap nat (list nat)) :=
    cs ← res_foldl (scan_row fuel) (0, Scan ∅ 0%N 0%N) (seq 0 rows);
    Ok (filter (λ e, (min_count <=? Z.of_nat (length e.2))%Z = true) (sc_map cs.2)).
End dbscan.

(** clustering/dbscan.go:58-142 [DBSCAN]. *)
Definition dbscan (metric : list binary64 → list binary64 → binary64) (fuel : nat) (attrs : list attr)
    (eps : binary64) (min_count : Z) (g : grid) : res (gmap nat (list nat)) :=
  dist ← pairwise_distances metric attrs g;
  scan_all (gr_size g).2 dist eps min_count fuel.

(** ** Cluster maps (clustering/clustering.go) *)

(** clustering/clustering.go:25.  Identifiers and points are ints. *)
Definition cluster_map := gmap Z (list Z).

(** clustering/clustering.go:29-41 [Invert]; [order] lists the identifiers in the order of the range
    loop. *)
Definition invert (order : list Z) (ref : cluster_map) : res (gmap Z Z) :=
  res_foldl (λ ret c,
    res_foldl (λ ret p,
      match ret !! p with Some _ => Err | None => Ok (<[p := c]> ret) end) ret (default [] (ref !! c)))
    ∅ order.

(** clustering/clustering.go:81-96 [arraysEqual]. *)
Definition arrays_equal (a1 a2 : list Z) : bool :=
  let cnt := foldl (λ cnt a, <[a := tt]> cnt) (∅ : gmap Z unit) a1 in
  forallb (λ a, match cnt !! a with Some _ => true | None => false end) a2.

(** clustering/clustering.go:60-78: the identifiers of [ref] for those of [other]. *)
Definition link_ids (ref_inv other_inv : gmap Z Z) (points : list Z) : res (gmap Z Z) :=
  res_foldl (λ (ids : gmap Z Z) p,
    let c1 := default 0%Z (ref_inv !! p) in
    match other_inv !! p with
    | Some c2 =>
        match ids !! c2 with
        | Some c3 => if (c1 =? c3)%Z then Ok ids else Err
        | None => Ok (<[c2 := c1]> ids)
        end
    | None => Err
    end) ∅ points.

(** clustering/clustering.go:97-106: compare the clusters. *)
Definition same_clusters (ids : gmap Z Z) (ref other : cluster_map) (olds : list Z) : res bool :=
  res_foldl (λ (_ : bool) old,
    let new := default 0%Z (ids !! old) in
    if arrays_equal (default [] (ref !! new)) (default [] (other !! old)) then Ok true else Err)
    true olds.

(** clustering/clustering.go:45-108 [Equals]: [Ok true], or [Err] for false with an error.  The orders
    of the range loops over [ref] and [other] in Invert, over the inverted [ref] and over
    [other] are given. *)
Definition equals (oref oother opoints oold : list Z) (ref other : cluster_map) : res bool :=
  if negb (size ref =? size other) then Err else
  ref_inv ← invert oref ref;
  other_inv ← invert oother other;
  ids ← link_ids ref_inv other_inv opoints;
  same_clusters ids ref other oold.

(** ** Predictions of the mixture model (clustering/em.go) *)

Section em.
  (** [N[k].LogProb(x)] of the fitted normal distributions. *)
  Variable log_prob : nat → list binary64 → binary64.
  (** The number of distributions. *)
  Variable comps : nat.

  (** clustering/em.go:178-187: the most likely component of one observation. *)
  Definition best_component (x : list binary64) : nat :=
    (foldl (λ '(ix, pr) k,
       let p := log_prob k x in if float_gt p pr then (k, p) else (ix, pr))
     (0, float_neg_inf) (seq 0 comps)).1.

  (** clustering/em.go:89-118 [Predict] of a fitted model with the attributes [attrs]; components are
      below 2^53, where the conversions to float64 and back (clustering/em.go:188, 283) are exact. *)
  Definition em_predict (attrs : list attr) (g : grid) : res (gmap nat (list nat)) :=
    specs ← resolve g attrs;
    let rows := (gr_size g).2 in
    if (rows =? 0) || (length attrs =? 0) then Panic else
    r ← map_over_rows g specs (λ (v : list (list binary64)) row i,
          x ← res_mapM unpack_float row;
          Ok (<[i := x]> v, Cont)) (replicate rows (replicate (length attrs) float_zero));
    Ok (foldl (λ m e, <[best_component e.2 := default [] (m !! best_component e.2) ++ [e.1]]> m) ∅
          (imap (λ i x, (i, x)) r.1)).
End em.
