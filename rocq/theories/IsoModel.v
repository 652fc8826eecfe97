(** Model of the isolation forest (trees/isolation.go).  Its trees are regressorNodes. *)
From Verif Require Import Prelude FloatModel AttrModel StoreModel DenseModel GridModel FilterModel
  Id3Model RuleModel CartModel.
From Flocq Require Import IEEE754.BinarySingleNaN IEEE754.Bits IEEE754.Binary.
Local Open Scope nat_scope.

(** [a <= b]. *)
Definition float_le (a b : binary64) : bool :=
  match Bcompare 53 1024 a b with Some Lt | Some Eq => true | _ => false end.

(** The constants 0.000001 and 0.5772156649. *)
Definition float_millionth : binary64 := b64_of_bits 0x3EB0C6F7A0B5ED8D.
Definition float_gamma : binary64 := b64_of_bits 0x3FE2788CFC6F802A.

(** trees/isolation.go:23-39 [minMax]. *)
Definition min_max (feature : nat) (data : list sample) : res (binary64 * binary64) :=
  res_foldl (λ mm x,
    v ← idx x feature;
    Ok (if float_lt v mm.1 then v else mm.1, if float_gt v mm.2 then v else mm.2))
    (float_inf, float_neg_inf) data.

(** trees/isolation.go:42-50 [selectValue]; [r] is [rand.Float64()]. *)
Definition select_value (r min max : binary64) : binary64 :=
  let val := b64_plus mode_NE min (b64_mult mode_NE r (b64_minus mode_NE max min)) in
  if float_eq val min then b64_plus mode_NE val float_millionth
  else if float_eq val max then b64_minus mode_NE val float_millionth
  else val.

(** trees/isolation.go:53-63 [splitData]. *)
Fixpoint split_data (val : binary64) (feature : nat) (data : list sample)
    : res (list sample * list sample) :=
  match data with
  | [] => Ok ([], [])
  | x :: data =>
      v ← idx x feature;
      r ← split_data val feature data;
      Ok (if float_le v val then (x :: r.1, r.2) else (r.1, x :: r.2))
  end.

(** trees/isolation.go:66-75 [checkData]: the first number that differs from that of the
    first sample ends the loops. *)
Fixpoint differs (first x : sample) : res bool :=
  match x with
  | [] => Ok false
  | v :: x =>
      match first with
      | [] => Panic
      | f :: first => if negb (float_eq v f) then Ok true else differs first x
      end
  end.
Definition check_data (data : list sample) : res bool :=
  match data with
  | [] => Ok false
  | first :: _ => res_foldl (λ (b : bool) x, if b then Ok true else differs first x) false data
  end.

Section iso.
  (** The random source: at the node reached by [path] (false: left), the [k]-th feature
      drawn by [rand.Intn] and the [k]-th number drawn by [rand.Float64]. *)
  Variable draw : list bool → nat → nat.
  Variable rand : list bool → nat → binary64.

  (** trees/isolation.go:92-96: draws until the feature is not constant; [Err] if [tries]
      draws are not enough. *)
  Fixpoint pick_split (tries k : nat) (path : list bool) (data : list sample) : res (nat * binary64) :=
    match tries with
    | 0 => Err
    | S tries =>
        mm ← min_max (draw path k) data;
        if float_eq mm.1 mm.2 then pick_split tries (S k) path data
        else Ok (draw path k, select_value (rand path k) mm.1 mm.2)
    end.

  (** trees/isolation.go:78-117 [buildTree]; the zero node is passed as upperNode.  [Err]
      also stands for a recursion deeper than [fuel]. *)
  Fixpoint build_tree (fuel tries : nat) (path : list bool) (data : list sample) (depth max_depth : Z)
      : res (cnode binary64) :=
    match fuel with
    | 0 => Err
    | S fuel =>
        let depth := (depth + 1)%Z in
        if (max_depth <? depth)%Z || (length data <=? 1) then Ok (zero_node float_zero) else
        c ← check_data data;
        if negb c then Ok (zero_node float_zero) else
        s ← pick_split tries 0 path data;
        parts ← split_data s.2 s.1 data;
        l ← build_tree fuel tries (path ++ [false]) parts.1 depth max_depth;
        r ← build_tree fuel tries (path ++ [true]) parts.2 depth max_depth;
        Ok (CNode (if cn_needed l then Some l else None) (if cn_needed r then Some r else None)
              s.2 s.1 (float_of_nat (length parts.1)) (float_of_nat (length parts.2)) true)
    end.
End iso.

(** trees/isolation.go:120-126 [getRandomData]; [pick i] is the [i]-th [rand.Intn]. *)
Definition get_random_data (pick : nat → nat) (data : list sample) (n : nat) : res (list sample) :=
  res_mapM (λ i, idx data (pick i)) (seq 0 n).

(** trees/isolation.go:220-230 [preprocessData]. *)
Definition preprocess (g : grid) : res (list sample) :=
  data ← problem_vec g;
  class ← match label_vec g with Err => Panic | r => r end;
  Ok (zip_with (λ x c, x ++ [c]) data class).

(** trees/isolation.go:138-153 [Fit]; [pick], [draw] and [rand] are given the number of the
    tree. *)
Definition iso_fit (pick : nat → nat → nat) (draw : nat → list bool → nat → nat)
    (rand : nat → list bool → nat → binary64) (fuel tries ntrees : nat) (max_depth : Z) (subspace : nat)
    (g : grid) : res (list (cnode binary64)) :=
  data ← preprocess g;
  res_mapM (λ i,
    sub ← get_random_data (pick i) data subspace;
    build_tree (draw i) (rand i) fuel tries [] sub 0 max_depth) (seq 0 ntrees).

Section score.
  (** [math.Log] and [math.Pow(2, ·)]. *)
  Variable log pow2 : binary64 → binary64.

  (** trees/isolation.go:191-193 [cFactor]. *)
  Definition c_factor (n : Z) : binary64 :=
    b64_minus mode_NE
      (b64_mult mode_NE float_two (b64_plus mode_NE (log (float_of_Z (n - 1))) float_gamma))
      (b64_div mode_NE (float_of_Z (2 * (n - 1))) (float_of_Z n)).

  (** trees/isolation.go:156-179 [pathLength]. *)
  Fixpoint path_length (t : cnode binary64) (x : sample) (path : binary64) : res binary64 :=
    match t with
    | CNode l r threshold feature lpred rpred _ =>
        let path := b64_plus mode_NE path float_one in
        v ← idx x feature;
        if float_le v threshold then
          match l with
          | None => Ok (if float_le lpred float_one then path
                        else b64_plus mode_NE path (c_factor (int_of_float lpred)))
          | Some t => path_length t x path
          end
        else
          match r with
          | None => Ok (if float_le rpred float_one then path
                        else b64_plus mode_NE path (c_factor (int_of_float rpred)))
          | Some t => path_length t x path
          end
    end.

  (** trees/isolation.go:182-188 [evaluateInstance]. *)
  Definition evaluate_instance (x : sample) (forest : list (cnode binary64)) : res (list binary64) :=
    res_mapM (λ t, path_length t x float_zero) forest.

  (** trees/isolation.go:198-202: the average path. *)
  Definition mean_path (paths : list binary64) : binary64 :=
    b64_div mode_NE (foldl (b64_plus mode_NE) float_zero paths) (float_of_nat (length paths)).

  (** trees/isolation.go:196-205 [anomalyScore]. *)
  Definition anomaly_score (x : sample) (forest : list (cnode binary64)) (n : Z) : res binary64 :=
    paths ← evaluate_instance x forest;
    Ok (pow2 (b64_div mode_NE (b64_mult mode_NE (float_of_Z (-1)) (mean_path paths)) (c_factor n))).

  (** trees/isolation.go:208-217 [Predict]. *)
  Definition iso_predict (forest : list (cnode binary64)) (subspace : Z) (g : grid)
      : res (list binary64) :=
    data ← preprocess g;
    res_mapM (λ x, anomaly_score x forest subspace) data.
End score.
