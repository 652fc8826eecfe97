(** Model of pca/pca.go.  The code is written once over the abstract arithmetic of MetricModel,
    and used with float64 and with the real numbers. *)
From Coq Require Import Reals.
From Verif Require Import Prelude FloatModel MetricModel.
Local Open Scope nat_scope.

(** pca/pca.go:8-11 [PCA].  Of the decomposition only V is used. *)
Record pca (A : Type) := Pca { pc_number : Z; pc_svd : option (mx A) }.
Arguments Pca {A}. Arguments pc_number {A}. Arguments pc_svd {A}.

(** The positions of a matrix, row by row. *)
Definition positions (r c : nat) : list (nat * nat) :=
  concat (map (λ i, map (λ j, (i, j)) (seq 0 c)) (seq 0 r)).

Section pca.
  Context {A : Type} (o : arith A).
  (** [float64(n)]. *)
  Variable of_nat : nat → A.
  (** gonum's [SVD.Factorize] with [SVDThin], and [VTo]: the matrix V, if it succeeds. *)
  Variable svd : mx A → option (mx A).

  (** pca/pca.go:14-16 [NewPCA]. *)
  Definition pca_new (n : Z) : pca A := Pca n None.

  (** A matrix computed element by element. *)
  Definition mx_build (r c : nat) (f : nat → nat → res A) : res (mx A) :=
    data ← res_mapM (λ ij, f ij.1 ij.2) (positions r c); Ok (MX r c data).

  (** pca/pca.go:65-73 [mean]; [NewDense] panics without columns. *)
  Definition pca_mean (x : mx A) : res (list A) :=
    if mx_cols x =? 0 then Panic
    else res_mapM (λ j,
           s ← res_foldl (λ acc i, v ← mx_at x i j; Ok (a_add o acc v)) (a_zero o) (seq 0 (mx_rows x));
           Ok (a_div o s (of_nat (mx_rows x)))) (seq 0 (mx_cols x)).

  (** pca/pca.go:76-88 [matrixSubVector].  The code writes into [x]; each element depends on the
      same element only. *)
  Definition sub_vector (x : mx A) (m : list A) : res (mx A) :=
    if length m =? mx_cols x
    then mx_build (mx_rows x) (mx_cols x) (λ i j, v ← mx_at x i j; mj ← idx m j; Ok (a_sub o v mj))
    else Panic.

  (** pca/pca.go:25-41 [Fit]: the model, and the matrix of the caller as it is afterwards. *)
  Definition pca_fit (p : pca A) (x : mx A) : res (pca A * mx A) :=
    m ← pca_mean x;
    x ← sub_vector x m;
    match svd x with
    | None => Panic
    | Some v => if (pc_number p <? 0)%Z then Panic else Ok (Pca (pc_number p) (Some v), x)
    end.

  (** pca/pca.go:91-95 [compute]: gonum's [Mul]; the order of the additions is taken to be from the
      first to the last element. *)
  Definition mx_mul (x y : mx A) : res (mx A) :=
    if mx_cols x =? mx_rows y then
      mx_build (mx_rows x) (mx_cols y) (λ i j,
        res_foldl (λ acc k, a ← mx_at x i k; b ← mx_at y k j; Ok (a_add o acc (a_mul o a b)))
          (a_zero o) (seq 0 (mx_cols x)))
    else Panic.

  (** pca/pca.go:44-62 [Transform]; [Copy] copies the part that both matrices have, the rest of a new
      matrix is zero; [NewDense] panics on a negative size. *)
  Definition pca_transform (p : pca A) (x : mx A) : res (mx A) :=
    match pc_svd p with
    | None => Panic
    | Some v =>
        y ← mx_mul x v;
        if (pc_number p =? 0)%Z || (Z.of_nat (mx_cols x) <? pc_number p)%Z then Ok y
        else if (pc_number p <? 0)%Z then Panic
        else mx_build (mx_rows x) (Z.to_nat (pc_number p)) (λ i j,
               if j <? mx_cols y then mx_at y i j else Ok (a_zero o))
    end.

  (** pca/pca.go:20-22 [FitTransform]: Transform gets the matrix that Fit has changed.  The results are
      the model, the caller's matrix and the components. *)
  Definition pca_fit_transform (p : pca A) (x : mx A) : res (pca A * mx A * mx A) :=
    r ← pca_fit p x;
    y ← pca_transform r.1 r.2;
    Ok (r, y).
End pca.
