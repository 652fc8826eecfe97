(** Model of knn/knn.go and of utilities/utilities.go [SortIntMap].

    Float64 values are rationals: [num] turns the stored bytes of a cell into one
    (base.UnpackBytesToFloat); NaN and infinite values are not modelled.  The distance
    functions are parameters and may round as they like. *)
From Coq Require Import QArith.
From Verif Require Import Prelude AttrModel StoreModel DenseModel GridModel CsvModel PredModel KdModel.
From Flocq Require Import IEEE754.Bits IEEE754.Binary.
Local Open Scope nat_scope.

(** A weight: a rational, or +Inf ([None]).  The sums of knn/knn.go:310 are exact
    here. *)
Notation weight := (option Q).
(** [1 / length[k]], for lengths that are not negative zero. *)
Definition weight_of (len : Q) : weight := if Qeq_bool len 0 then None else Some (1 / len)%Q.
Definition weight_add (a b : weight) : weight :=
  match a, b with Some x, Some y => Some (x + y)%Q | _, _ => None end.
Definition weight_gt (a b : weight) : bool :=
  match a, b with
  | None, None => false
  | None, Some _ => true
  | Some _, None => false
  | Some x, Some y => qlt y x
  end.

Definition is_float (a : attr) : bool := match a with FloatA _ _ => true | _ => false end.

(** knn/knn.go:122-149: the attributes used as features. *)
Definition knn_features (what train : grid) : res (list attr) :=
  match check_compatible (gr_all_attrs what) (gr_all_attrs train) with
  | None => Err
  | Some all =>
      let nums := filter (λ a, is_float a = true) all in
      if length nums =? length all then
        match nums with [] => Panic | _ => Ok (take (length nums - 1) nums) end
      else Ok nums
  end.

Section knn.
  Variable num : list N → res Q.
  (** Formatting and parsing of floats. *)
  Variable show : nat → N → string.
  Variable parse : string → option binary64.
  (** [sort.Sort]: see KdModel.v. *)
  Variable sorter : (nat → Q) → list nat → list nat.
  (** Iteration orders of Go maps. *)
  Variable io : list nat → list nat.
  Variable vo : list (string * nat) → list (string * nat).
  Variable wo : list (string * weight) → list (string * weight).
  Variable co : list ((nat * nat) * bool) → list ((nat * nat) * bool).
  (** [os.Getpagesize()]. *)
  Variable pg : nat.

  (** utilities/utilities.go:26-38 [SortIntMap]. *)
  Definition sort_int_map (m : gmap nat Q) : list nat :=
    sorter (λ i, default 0%Q (m !! i)) (io (map fst (map_to_list m))).

  (** knn/knn.go:210-220: distances to all training rows, into the map shared by all
      predictions. *)
  Definition linear_distances (dist : list Q → list Q → Q) (train : grid) (tspecs : list spec)
      (target : list Q) (dists : gmap nat Q) : res (gmap nat Q) :=
    r ← map_over_rows train tspecs (λ m row i,
          v ← res_mapM num row; Ok (<[i := dist target v]> m, Cont)) dists;
    Ok r.1.

  (** knn/knn.go:222-223: [sorted[:k]]. *)
  Definition neighbours (k : nat) (dists : gmap nat Q) : res (list nat) :=
    let sorted := sort_int_map dists in
    if k <=? length sorted then Ok (take k sorted) else Panic.

  (** knn/knn.go:289-297: the key with the greatest count. *)
  Definition vote_winner (l : list (string * nat)) : string :=
    (foldl (λ best kv, if (best.2 <? Z.of_nat kv.2)%Z then (kv.1, Z.of_nat kv.2) else best)
       ("", -1)%Z l).1.

  (** knn/knn.go:272-298 [vote]; the map is kept from one row to the next, with its
      counts reset. *)
  Definition vote (train : grid) (m : gmap string nat) (values : list nat)
      : res (gmap string nat * string) :=
    let m := (λ _, 0) <$> m in
    m ← res_foldl (λ m e, label ← get_class show train e; Ok (count_up m label)) m values;
    Ok (m, vote_winner (vo (map_to_list m))).

  (** knn/knn.go:317-325. *)
  Definition weight_winner (l : list (string * weight)) : string :=
    (foldl (λ best kv, if weight_gt kv.2 best.2 then kv else best)
       ("", Some (-1 # 1)) l).1.

  (** knn/knn.go:300-326 [weightedVote]. *)
  Definition weighted_vote (train : grid) (m : gmap string weight) (values : list nat)
      (lengths : list Q) : res (gmap string weight * string) :=
    let m := (λ _, Some 0%Q) <$> m in
    m ← res_foldl (λ m '(k, e),
          label ← get_class show train e;
          len ← idx lengths k;
          Ok (match m !! label with
              | Some w => <[label := weight_add w (weight_of len)]> m
              | None => <[label := weight_of len]> m
              end)) m (imap pair values);
    Ok (m, weight_winner (wo (map_to_list m))).

  (** The variables shared by the predictions of all rows (knn/knn.go:151-163). *)
  Record knn_state := KnnState {
    ks_dists : gmap nat Q;
    ks_votes : gmap string nat;
    ks_weights : gmap string weight;
    ks_ret : dense }.

  (** knn/knn.go:230-236, 251-257. *)
  Definition classify (weighted : bool) (train : grid) (st : knn_state) (row : nat)
      (values : list nat) (lengths : list Q) : res knn_state :=
    if weighted then
      r ← weighted_vote train (ks_weights st) values lengths;
      ret ← set_class parse co (ks_ret st) row r.2;
      Ok (KnnState (ks_dists st) (ks_votes st) r.1 ret)
    else
      r ← vote train (ks_votes st) values;
      ret ← set_class parse co (ks_ret st) row r.2;
      Ok (KnnState (ks_dists st) r.1 (ks_weights st) ret).

  (** knn/knn.go:194-261, "linear": one row to predict. *)
  Definition linear_row (dist : list Q → list Q → Q) (k : nat) (weighted : bool) (train : grid)
      (tspecs : list spec) (st : knn_state) (row : list (list N)) (rowno : nat)
      : res (knn_state * cb) :=
    target ← res_mapM num row;
    dists ← linear_distances dist train tspecs target (ks_dists st);
    values ← neighbours k dists;
    let lengths := map (λ v, default 0%Q (dists !! v)) values in
    st ← classify weighted train (KnnState dists (ks_votes st) (ks_weights st) (ks_ret st))
           rowno values lengths;
    Ok (st, Cont).

  (** knn/knn.go:172-184: the rows in iteration order, with their features. *)
  Definition tree_rows (train : grid) (tspecs : list spec) : res (list nat * list (list Q)) :=
    r ← map_over_rows train tspecs (λ acc row i,
          v ← res_mapM num row; Ok ((acc.1 ++ [i], acc.2 ++ [v]), Cont)) ([], []);
    Ok r.1.

  (** knn/knn.go:194-261, "kdtree": a failing search ends the iteration. *)
  Definition tree_row (dist : list Q → list Q → Q) (k : nat) (weighted : bool) (train : grid)
      (t : kd) (srcs : list nat) (data : list (list Q))
      (st : knn_state) (row : list (list N)) (rowno : nat) : res (knn_state * cb) :=
    target ← res_mapM num row;
    match kd_search dist data t k target with
    | Ok out =>
        values ← res_mapM (λ v, idx srcs v.2) out;
        st ← classify weighted train st rowno values (map fst out);
        Ok (st, Cont)
    | Err => Ok (st, Fail)
    | Panic => Panic
    end.

  (** knn/knn.go:102-266 [Predict], without the optimised path (lines 127-135, taken
      only when [AllowOptimisations] is set).  The error result of MapOverRows is
      ignored by the code (line 187). *)
  Definition knn_predict (distance_of : string → option (list Q → list Q → Q))
      (distfunc algorithm : string) (k : nat) (weighted : bool) (train what : grid) : res dense :=
    match distance_of distfunc with
    | None => Err
    | Some dist =>
        if negb (bool_decide (algorithm = "linear")) && negb (bool_decide (algorithm = "kdtree"))
        then Err
        else
          attrs ← knn_features what train;
          ret ← prediction_vector pg what;
          wspecs ← resolve what attrs;
          tspecs ← resolve train attrs;
          let st := KnnState ∅ ∅ ∅ ret in
          r ← (if bool_decide (algorithm = "kdtree") then
                 rd ← tree_rows train tspecs;
                 t ← kd_build sorter rd.2;
                 map_over_rows what wspecs (tree_row dist k weighted train t rd.1 rd.2) st
               else map_over_rows what wspecs (linear_row dist k weighted train tspecs) st);
          Ok (ks_ret r.1)
    end.

  (** knn/knn.go:428-475 [KNNRegressor.Predict]: [values] and [data] as given to Fit. *)
  Definition knn_regress (dist : list Q → list Q → Q) (k : nat) (values : list Q)
      (data : list (list Q)) (vector : list Q) : res (option Q) :=
    let m := list_to_map (imap (λ i row, (i, dist row vector)) data) : gmap nat Q in
    ns ← neighbours k m;
    vs ← res_mapM (idx values) ns;
    let sum := foldl Qplus 0%Q vs in
    Ok (if k =? 0 then None else Some (sum / inject_Z (Z.of_nat k))%Q).

  (** knn/euclidean.c:9-31 [euclidean_distance]: adds the squared distances over one
      attribute group, stored row after row, to [out]; an access outside the storage
      is [Panic]. *)
  Definition euclidean_distance (max_row max_col row : nat) (train pred : list Q)
      (out : list (nat * Q)) : res (list (nat * Q)) :=
    foldl (λ acc i,
      out ← acc;
      d ← foldl (λ acc j,
            s ← acc;
            p ← idx pred (row * max_col + j);
            t ← idx train (i * max_col + j);
            Ok (s + (p - t) * (p - t))%Q)
          (x ← idx out i; Ok x.2) (seq 0 max_col);
      Ok (<[i := (i, d)]> out)) (Ok out) (seq 0 max_row).

  (** knn/knn_opt_euclidean.go:20-86 [optimisedEuclideanPredict], the choice of the
      class of row [row].  [groups] are the attribute groups without class attributes,
      in the order in which the map yields them: number of columns, training storage,
      storage of the rows to predict.  [out] is the distance vector shared by all
      rows, [m] the shared map of votes. *)
  Definition opt_row (k : nat) (train : grid) (groups : list (nat * list Q * list Q)) (row : nat)
      (st : list (nat * Q) * gmap string nat) : res ((list (nat * Q) * gmap string nat) * string) :=
    let n := (gr_size train).2 in
    out ← foldl (λ acc g, out ← acc;
                  euclidean_distance n g.1.1 row g.1.2 g.2 out)
            (Ok (map (λ x, (x.1, 0%Q)) st.1)) groups;
    let sorted := map (λ i, default (0, 0%Q) (out !! i))
                      (sorter (λ i, (default (0, 0%Q) (out !! i)).2) (seq 0 n)) in
    if k <=? n then
      r ← vote train st.2 (map fst (take k sorted));
      Ok ((sorted, r.1), r.2)
    else Panic.

  (** The loop over the rows to predict; [ret] is the prediction vector. *)
  Definition opt_predict (k : nat) (train : grid) (groups : list (nat * list Q * list Q))
      (rows : nat) (ret : dense) : res dense :=
    r ← foldl (λ acc row,
          s ← acc;
          o ← opt_row k train groups row s.1;
          ret ← set_class parse co s.2 row o.2;
          Ok (o.1, ret))
        (Ok ((replicate (gr_size train).2 (0, 0%Q), ∅), ret)) (seq 0 rows);
    Ok r.2.
End knn.

(** base/util_instances.go:490-499: the comparison of two attribute lists. *)
Fixpoint same_attributes (i : nat) (a1 a2 : list attr) : res bool :=
  match a1 with
  | [] => Ok true
  | a :: a1 => b ← idx a2 i; if attr_equals a b then same_attributes (S i) a1 a2 else Ok false
  end.

(** base/util_instances.go:458-503 [CheckStrictlyCompatible], on the attribute groups
    of two DenseInstances (other grids give [false]); [order] is the order in which
    the last loop (lines 486-500) visits the groups. *)
Definition strictly_compatible (order : list (string * list attr) → list (string * list attr))
    (g1 g2 : gmap string (list attr)) : res bool :=
  if negb (forallb (λ x, bool_decide (is_Some (g2 !! x.1))) (map_to_list g1)) then Ok false
  else if negb (forallb (λ x, bool_decide (is_Some (g1 !! x.1))) (map_to_list g2)) then Ok false
  else
    (fix loop l := match l with
       | [] => Ok true
       | (name, a1) :: l =>
           b ← same_attributes 0 a1 (default [] (g2 !! name));
           if (b : bool) then loop l else Ok false
       end) (order (map_to_list g1)).
