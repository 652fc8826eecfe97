(** Model of Fit in clustering/em.go.  The code is written once over the abstract arithmetic of
    MetricModel, and used with the real numbers.  A matrix is the list of its rows. *)
From Coq Require Import Reals.
From Verif Require Import Prelude FloatModel AttrModel StoreModel DenseModel GridModel KnnModel Id3Model BagModel MetricModel.
From Flocq Require Import IEEE754.Bits IEEE754.Binary.
Local Open Scope nat_scope.

(** clustering/em.go:27-30 [Params]: the mean and the covariances of each component. *)
Notation em_params A := (list (list A * list (list A))).

(** clustering/em.go:19-25 [ExpectationMaximization] without eps, which is always the same;
    [None] stands for a model that was not fitted. *)
Record em_model (A : Type) := Em { em_comps : nat; em_fitted : option (em_params A * list attr) }.
Arguments Em {A}. Arguments em_comps {A}. Arguments em_fitted {A}.

(** clustering/em.go:33-39 [NewExpectationMaximization]. *)
Definition em_new {A} (n : Z) : res (em_model A) :=
  if (n <? 1)%Z then Err else Ok (Em (Z.to_nat n) None).

Section em.
  Context {A : Type} (o : arith A).
  (** [float64(n)], the number in a cell, [<] and [> -Inf]. *)
  Variable of_nat : nat → A.
  Variable of_float : binary64 → A.
  Variable lt : A → A → bool.
  Variable above : A → bool.
  (** clustering/em.go:38: 0.001. *)
  Variable eps : A.
  (** [distmv.NewNormal] (clustering/em.go:168) and its [LogProb]; [None] if it is not ok. *)
  Variable normal : list A → list (list A) → option (list A → A).
  (** The numbers that [rand.Float64] returns. *)
  Variable rnd : nat → A.
  (** The order of the attributes that NonClassAttributes finds. *)
  Variable ao : list attr → list attr.

  Definition em_sum (l : list A) : A := foldl (a_add o) (a_zero o) l.
  Definition em_column (j : nat) (x : list (list A)) : list A := map (λ row, nth j row (a_zero o)) x.

  (** clustering/em.go:289-301 [means]. *)
  Definition em_means (feats : nat) (x : list (list A)) : list A :=
    map (λ j, a_div o (em_sum (em_column j x)) (of_nat (length x))) (seq 0 feats).

  (** gonum's [stat.Variance] without weights: two passes with a correction. *)
  Definition em_variance (l : list A) : A :=
    let n := of_nat (length l) in
    let m := a_div o (em_sum l) n in
    let d := map (λ v, a_sub o v m) l in
    let ss := em_sum (map (λ v, a_mul o v v) d) in
    let comp := em_sum d in
    a_div o (a_sub o ss (a_div o (a_mul o comp comp) n)) (a_sub o n (a_one o)).

  (** clustering/em.go:195-210 [shrunkCovariance]. *)
  Definition em_shrunk (feats : nat) (x : list (list A)) : list (list A) :=
    map (λ a, map (λ b, if a =? b then em_variance (em_column a x) else a_zero o) (seq 0 feats)) (seq 0 feats).

  (** gonum's [stat.CovarianceMatrix] without weights, element by element. *)
  Definition em_covariance (feats : nat) (x : list (list A)) : list (list A) :=
    let n := of_nat (length x) in
    let m j := a_div o (em_sum (em_column j x)) n in
    map (λ a, map (λ b,
      a_div o (em_sum (map (λ row, a_mul o (a_sub o (nth a row (a_zero o)) (m a)) (a_sub o (nth b row (a_zero o)) (m b))) x))
        (a_sub o n (a_one o))) (seq 0 feats)) (seq 0 feats).

  (** clustering/em.go:178-188: the component of one observation; the best so far is [None] for -Inf. *)
  Definition em_best (fs : list (list A → A)) (x : list A) : nat :=
    (foldl (λ '(ix, best) '(k, f),
       let pr := f x in
       if match best with None => above pr | Some b => lt b pr end then (k, Some pr) else (ix, best))
     (0, None) (imap (λ k f, (k, f)) fs)).1.

  (** clustering/em.go:160-192 [estimateLogProb].  The components are below 2^53, where the conversions to
      float64 and back are exact. *)
  Definition em_estimate (x : list (list A)) (p : em_params A) : res (list nat) :=
    fs ← res_mapM (λ c, match normal c.1 c.2 with Some f => Ok f | None => Panic end) p;
    Ok (map (em_best fs) x).

  (** clustering/em.go:304-318 [where]; [NewDense] panics without rows. *)
  Definition em_where (x : list (list A)) (y : list nat) (k : nat) : res (list (list A)) :=
    match map fst (filter (λ xy, xy.2 = k) (zip x y)) with
    | [] => Panic
    | rows => Ok rows
    end.

  (** clustering/em.go:128-157 [maximization]. *)
  Definition em_maximization (feats : nat) (x : list (list A)) (y : list nat) (p : em_params A) : res (em_params A) :=
    res_mapM (λ kc,
      rows ← em_where x y kc.1;
      if length rows <=? 1 then Ok kc.2
      else if length rows <? feats then Ok (em_means feats rows, em_shrunk feats rows)
      else Ok (em_means feats rows, em_covariance feats rows)) (imap (λ k c, (k, c)) p).

  (** clustering/em.go:240-251 [distance]: of the means only; [math.Pow(v, 2)] is taken to be the product. *)
  Definition em_distance (p q : em_params A) : A :=
    a_sqrt o (em_sum (concat (zip_with (λ c d, zip_with (λ v w, a_mul o (a_sub o v w) (a_sub o v w)) c.1 d.1) p q))).

  (** clustering/em.go:72-80: the iterations; [None] if they did not end after [fuel] of them. *)
  Fixpoint em_loop (fuel feats : nat) (x : list (list A)) (p : em_params A) : res (option (em_params A)) :=
    match fuel with
    | 0 => Ok None
    | S fuel =>
        y ← em_estimate x p;
        q ← em_maximization feats x y p;
        if lt (em_distance p q) eps then Ok (Some q) else em_loop fuel feats x q
    end.

  (** clustering/em.go:255-276 [vectorMin], [vectorMax]. *)
  Definition em_min (l : list A) : A := foldl (λ m v, if lt v m then v else m) (hd (a_zero o) l) l.
  Definition em_max (l : list A) : A := foldl (λ m v, if lt m v then v else m) (hd (a_zero o) l) l.

  (** clustering/em.go:213-226 [initMeans], 229-237 [initCovariance], 321-333 [identity]. *)
  Definition em_init (comps feats : nat) (x : list (list A)) : em_params A :=
    map (λ k,
      (map (λ j, a_add o (em_min (em_column j x))
                   (a_mul o (rnd (k * feats + j)) (a_sub o (em_max (em_column j x)) (em_min (em_column j x))))) (seq 0 feats),
       map (λ a, map (λ b, if a =? b then a_one o else a_zero o) (seq 0 feats)) (seq 0 feats))) (seq 0 comps).

  (** clustering/em.go:42-86 [Fit]; [None] if the iterations do not end within [fuel]. *)
  Definition em_fit (fuel : nat) (m : em_model A) (g : grid) : res (option (em_model A)) :=
    let attrs := non_class_attrs ao g in
    specs ← resolve g attrs;
    let rows := (gr_size g).2 in
    let feats := length attrs in
    if rows <? em_comps m then Err
    else if (rows =? 0) || (feats =? 0) then Panic
    else
      r ← map_over_rows g specs (λ (v : list (list binary64)) row i,
            x ← res_mapM unpack_float row;
            Ok (<[i := x]> v, Cont)) (replicate rows (replicate feats float_zero));
      let x := map (map of_float) r.1 in
      p ← em_loop fuel feats x (em_init (em_comps m) feats x);
      Ok (match p with None => None | Some p => Some (Em (em_comps m) (Some (p, attrs))) end).

  (** clustering/em.go:89-118 [Predict]: the component of each row.  The map of the components is modelled in
      ClusModel. *)
  Definition em_components (m : em_model A) (g : grid) : res (list nat) :=
    match em_fitted m with
    | None => Err
    | Some (p, attrs) =>
        specs ← resolve g attrs;
        let rows := (gr_size g).2 in
        if (rows =? 0) || (length attrs =? 0) then Panic
        else
          r ← map_over_rows g specs (λ (v : list (list binary64)) row i,
                x ← res_mapM unpack_float row;
                Ok (<[i := x]> v, Cont)) (replicate rows (replicate (length attrs) float_zero));
          em_estimate (map (map of_float) r.1) p
    end.
End em.
