(** Property C70: linear regression. *)
From Coq Require Import Reals Lra.
From Verif Require Import Prelude FloatModel AttrModel StoreModel DenseModel DenseSpec GridModel GridSpec GridProofs KnnModel
  CartModel CartFit CartProps MetricModel MetricSpec MetricReal LinModel LinSpec LinReal LinProofs.
From Flocq Require Import IEEE754.BinarySingleNaN IEEE754.Bits IEEE754.Binary.
Local Open Scope nat_scope.

(** ** Fit, with exact arithmetic *)

(** There is one class, the numbers can be read, and there are more rows than explanatory
    variables: then Fit succeeds, whatever order the variables are taken in.  If none of the
    variables depends on the others, the residuals are orthogonal to the constant and to
    every variable (the normal equations), no other coefficients give a smaller sum of
    squares, and only these give the smallest. *)
Theorem C70_fit qr ao g cls y col :
  (∀ l, ao l ≡ₚ l) → observations g cls y col →
  let n := (gr_size g).2 in let attrs := lin_attrs ao g in
  length attrs < n →
  factors n (length attrs + 1) (design n col attrs) (qr (design n col attrs)).1 (qr (design n col attrs)).2 →
  ∃ d w, lin_fit reals (B2R 53 1024) qr ao g = Ok (Lin true d w attrs (Some cls)) ∧
    NoDup attrs ∧ (∀ a, a ∈ attrs ↔ explanatory g a) ∧ length w = length attrs ∧
    (independent n col attrs →
     let residual r := (B2R 53 1024 (y r) - fits col attrs d w r)%R in
     total n residual = 0%R ∧
     (∀ a, a ∈ attrs → total n (λ r, B2R 53 1024 (col a r) * residual r)%R = 0%R) ∧
     ∀ d' w', length w' = length attrs →
       (squared_error n y col attrs d w <= squared_error n y col attrs d' w')%R ∧
       (squared_error n y col attrs d' w' = squared_error n y col attrs d w → d' = d ∧ w' = w)).
Proof.
  intros Hao Hobs n attrs Hlt Hqr. destruct (fit_ok qr ao Hao g cls y col Hobs Hlt Hqr) as (d & w & Hfit & Hw & Hn).
  exists d, w. split; [exact Hfit|]. split; [by apply lin_attrs_nodup|]. split; [apply (lin_attrs_elem ao Hao)|]. split; [done|].
  intros Hind residual. specialize (Hn Hind). split; [|split].
  - etransitivity; [|exact (Hn 0 ltac:(lia))]. apply total_ext. intros k _. unfold xs, residual. cbn [nth]. symmetry. apply Rmult_1_l.
  - intros a Ha. apply elem_of_list_lookup in Ha as (j & Hj). pose proof (lookup_lt_Some _ _ _ Hj) as Hjl.
    etransitivity; [|exact (Hn (S j) ltac:(unfold attrs in Hjl; lia))]. apply total_ext. intros k _. unfold residual. f_equal. unfold xs. cbn [nth].
    symmetry. apply nth_lookup_Some. change (map (λ b, B2R 53 1024 (col b k)) attrs !! j = Some (B2R 53 1024 (col a k))).
    change (map (λ b, B2R 53 1024 (col b k))) with (fmap (M:=list) (λ b, B2R 53 1024 (col b k))). by rewrite list_lookup_fmap, Hj.
  - intros d' w' Hw'. split.
    + by apply error_minimal.
    + by apply error_unique.
Qed.
Print Assumptions C70_fit.

(** The model does not depend on the order in which the variables were taken: both give the
    same prediction for all values of the variables. *)
Theorem C70_order qr ao ao' g cls y col l l' :
  (∀ k, ao k ≡ₚ k) → (∀ k, ao' k ≡ₚ k) → observations g cls y col →
  let n := (gr_size g).2 in
  let attrs := lin_attrs ao g in let attrs' := lin_attrs ao' g in
  factors n (length attrs + 1) (design n col attrs) (qr (design n col attrs)).1 (qr (design n col attrs)).2 →
  factors n (length attrs' + 1) (design n col attrs') (qr (design n col attrs')).1 (qr (design n col attrs')).2 →
  independent n col attrs →
  lin_fit reals (B2R 53 1024) qr ao g = Ok l → lin_fit reals (B2R 53 1024) qr ao' g = Ok l' →
  ∀ v : attr → R,
    (ln_disturbance l + weighted (ln_coef l) (map v (ln_attrs l)) =
     ln_disturbance l' + weighted (ln_coef l') (map v (ln_attrs l')))%R.
Proof.
  intros Hao Hao' Hobs n attrs attrs' Hqr Hqr' Hind Hl Hl' v.
  pose proof (lin_attrs_perm ao ao' g Hao Hao') as Hp. fold attrs attrs' in Hp.
  assert (length attrs < n) as Hlt.
  { unfold lin_fit in Hl. pose proof Hobs as (_ & Hc & _). rewrite Hc in Hl.
    destruct (resolve g [cls]) as [cs| |]; [|done|done]. cbn [mbind res_bind] in Hl. fold attrs n in Hl.
    destruct (Nat.ltb_spec n (length attrs + 1)); [done|lia]. }
  assert (length attrs' < n) as Hlt' by (rewrite <- Hp; done).
  destruct (C70_fit qr ao g cls y col Hao Hobs Hlt Hqr) as (d & w & Hfit & _ & _ & Hw & H).
  destruct (C70_fit qr ao' g cls y col Hao' Hobs Hlt' Hqr') as (d' & w' & Hfit' & _ & _ & Hw' & H').
  rewrite Hl in Hfit. injection Hfit as ->. rewrite Hl' in Hfit'. injection Hfit' as ->. cbn [ln_disturbance ln_coef ln_attrs].
  fold attrs attrs' n in H, H', Hw, Hw' |- *.
  destruct (H Hind) as (_ & _ & Hmin). destruct (H' (independent_perm n col attrs attrs' Hp Hind)) as (_ & _ & Hmin').
  destruct (reorder attrs' attrs (symmetry Hp) w' Hw') as (u & Hu & _ & Eu).
  destruct (reorder attrs attrs' Hp w Hw) as (u' & Hu' & _ & Eu').
  assert (squared_error n y col attrs d' u = squared_error n y col attrs' d' w') as E1.
  { unfold squared_error, fits. apply total_ext. intros r _. by rewrite (Eu (λ a, B2R 53 1024 (col a r))). }
  assert (squared_error n y col attrs' d u' = squared_error n y col attrs d w) as E2.
  { unfold squared_error, fits. apply total_ext. intros r _. by rewrite (Eu' (λ a, B2R 53 1024 (col a r))). }
  destruct (Hmin d' u Hu) as [H1 H2]. destruct (Hmin' d u' Hu') as [H3 _].
  destruct H2 as [-> <-]; [lra|]. by rewrite Eu.
Qed.
Print Assumptions C70_order.

(** Fit reports an error, and does not fit anything, unless there is exactly one class and
    more rows than explanatory variables.  This is so in every arithmetic. *)
Theorem C70_errors {A} (o : arith A) of_float qr ao g :
  (length (gr_class_attrs g) ≠ 1 → lin_fit o of_float qr ao g = Err) ∧
  (∀ cls s, gr_class_attrs g = [cls] → gr_get_attribute g cls = Ok s →
     (gr_size g).2 <= length (lin_attrs ao g) → lin_fit o of_float qr ao g = Err).
Proof.
  unfold lin_fit. split.
  - intros H. by destruct (gr_class_attrs g) as [|c [|c' l]].
  - intros cls s -> Hs Hn. cbn [resolve res_mapM]. rewrite Hs. cbn [mbind res_bind].
    destruct (Nat.ltb_spec (gr_size g).2 (length (lin_attrs ao g) + 1)); [done|lia].
Qed.
Print Assumptions C70_errors.

(** ** Predict, in float64 *)

(** Before Fit there is an error.  Afterwards the class of every row is the constant, plus
    the products of the row's numbers with the coefficients, added from left to right, each
    operation rounded. *)
Theorem C70_predict pg l g name prec col order :
  lin_predict float64 (λ x, x) pg (λ x, x) (lin_new float64) g = Err ∧
  (ln_fitted l = true → ln_cls l = Some (FloatA name prec) → gr_class_attrs g = [FloatA name prec] →
   length (ln_coef l) = length (ln_attrs l) → iter_agrees g → (∀ a, a ∈ ln_attrs l → column_holds g a (col a)) →
   (∀ k, order k ≡ₚ k) →
   ∃ d, lin_predict float64 (λ x, x) pg (λ x, x) l g = Ok d ∧
     let p := dense_grid (order (map_to_list (d_class d))) d in
     gr_class_attrs p = [FloatA name prec] ∧ (gr_size p).2 = (gr_size g).2 ∧
     column_holds p (FloatA name prec) (λ r,
       foldl (λ sum '(a, w), b64_plus mode_NE sum (b64_mult mode_NE (col a r) w))
         (ln_disturbance l) (zip (ln_attrs l) (ln_coef l)))).
Proof.
  split; [done|]. intros H1 H2 H3 H4 H5 H6 H7.
  destruct (predict_ok float64 (λ x, x) (λ x, x) pg l g name prec col order H1 H2 H3 H4 H5 H6 H7) as (d & Hd & H8 & H9 & H10).
  exists d. split; [done|]. split; [done|]. split; [done|].
  destruct H10 as (s & Hs & Hr). exists s. split; [done|]. intros r Hlt. destruct (Hr r Hlt) as (raw & Hg & Hu). exists raw.
  split; [done|]. rewrite Hu. f_equal. unfold running. cbn [float64 a_add a_mul]. generalize (ln_disturbance l).
  clear. generalize (ln_coef l). induction (ln_attrs l) as [|a attrs IH]; intros [|w ws] acc; try done.
  cbn [map zip_with foldl]. apply IH.
Qed.
Print Assumptions C70_predict.

(** ** A training set *)

Definition lx : attr := FloatA "x" 2.
Definition ly : attr := FloatA "y" 2.
Definition l_dense (rows : list (Z * Z)) : dense :=
  match dense_run 64 dense_new
    ([DAdd lx; DAdd ly; DClass ly true; DExtend (length rows)] ++
     concat (imap (λ i r, [DSet (Spec 0 0 lx) i (pack_float (float_of_Z r.1));
                           DSet (Spec 0 1 ly) i (pack_float (float_of_Z r.2))]) rows)) with
  | Ok d => d | _ => dense_new end.
Definition l_grid (rows : list (Z * Z)) : grid := dense_grid [((0, 1), true)] (l_dense rows).
Definition l_num (rows : list (Z * Z)) (f : Z * Z → Z) (r : nat) : Z := match rows !! r with Some p => f p | None => 0%Z end.
Definition l_y (rows : list (Z * Z)) (r : nat) : binary64 := float_of_Z (l_num rows snd r).
Definition l_col (rows : list (Z * Z)) (a : attr) (r : nat) : binary64 := float_of_Z (l_num rows fst r).

Definition col_check (g : grid) (a : attr) (col : nat → binary64) : bool :=
  match gr_get_attribute g a with
  | Ok s => forallb (λ r, match gr_get g s r with
              | Ok raw => match unpack_float raw with Ok x => same_bits x (col r) | _ => false end
              | _ => false end) (seq 0 (gr_size g).2)
  | _ => false
  end.

Lemma col_check_ok g a col : col_check g a col = true → column_holds g a col.
Proof.
  unfold col_check, column_holds. destruct (gr_get_attribute g a) as [s| |]; [|done|done]. intros H. exists s. split; [done|].
  intros r Hr. rewrite forallb_forall in H. specialize (H r ltac:(apply in_seq; lia)).
  destruct (gr_get g s r) as [raw| |]; [|done|done]. exists raw. split; [done|].
  destruct (unpack_float raw) as [x| |]; [|done|done]. f_equal. by apply same_bits_eq.
Qed.

Lemma l_obs_check (g : grid) (y : nat → binary64) (col : attr → nat → binary64) : iter_agrees g →
  gr_all_attrs g = [lx; ly] → gr_class_attrs g = [ly] → col_check g ly y = true → col_check g lx (col lx) = true →
  observations g ly y col.
Proof.
  intros H1 H2 H3 H4 H5. split; [done|]. split; [done|]. split; [by apply col_check_ok|].
  intros a (Ha & _ & Hn). rewrite H2 in Ha. rewrite H3 in Hn.
  apply elem_of_cons in Ha as [->|Ha]; [by apply col_check_ok|]. done.
Qed.

Definition l_rows : list (Z * Z) := [(0, 1); (0, 3); (4, 6); (4, 8)]%Z.

Lemma l_obs : observations (l_grid l_rows) ly (l_y l_rows) (l_col l_rows).
Proof.
  apply l_obs_check; [apply in_order_agrees, dense_grid_in_order| | | |]; vm_compute; reflexivity.
Qed.

Lemma l_attrs : lin_attrs (λ l, l) (l_grid l_rows) = [lx] ∧ (gr_size (l_grid l_rows)).2 = 4.
Proof. split; vm_compute; reflexivity. Qed.

Lemma l_val z : (Z.abs z <=? 2 ^ 53)%Z = true → B2R 53 1024 (float_of_Z z) = IZR z.
Proof. intros H. apply float_of_Z_exact. by apply Z.leb_le. Qed.

(** A factorisation of the matrix with the rows (1, 0), (1, 0), (1, 4), (1, 4). *)
Definition l_q : mx R := MX 4 4 [1/2; 1/2; 1/2; 1/2;  1/2; 1/2; -1/2; -1/2;
                                 1/2; -1/2; 1/2; -1/2;  1/2; -1/2; -1/2; 1/2]%R.
Definition l_r : mx R := MX 4 2 [2; 4;  0; -4;  0; 0;  0; 0]%R.

Lemma l_design : design 4 (l_col l_rows) [lx] = MX 4 2 [1; 0; 1; 0; 1; 4; 1; 4]%R.
Proof.
  unfold design. cbn [length Nat.add seq map concat app]. unfold l_col, l_num. cbn [l_rows lookup list_lookup fst].
  rewrite !l_val by done. done.
Qed.

Lemma l_factors : factors 4 2 (design 4 (l_col l_rows) [lx]) l_q l_r.
Proof.
  rewrite l_design. split; [done|]. split; [done|]. split; [|split].
  - intros i j Hi Hj. do 4 (destruct i as [|i]; [do 4 (destruct j as [|j]; [cbn; lra|]); lia|]). lia.
  - intros i j Hi Hj. do 4 (destruct i as [|i]; [do 2 (destruct j as [|j]; [cbn; lra|]); lia|]). lia.
  - intros i j Hi Hij Hj. do 4 (destruct i as [|i]; [do 2 (destruct j as [|j]; [try lia; cbn; lra|]); lia|]). lia.
Qed.

Lemma l_independent : independent 4 (l_col l_rows) [lx].
Proof.
  intros d [|w [|]] Hw H; try done. pose proof (H 0 ltac:(lia)) as H0. pose proof (H 2 ltac:(lia)) as H2.
  unfold fits, l_col, l_num in H0, H2. cbn [map weighted l_rows lookup list_lookup fst] in H0, H2.
  rewrite !l_val in H0, H2 by done. split; [lra|]. constructor; [lra|]. constructor.
Qed.

(** The hypotheses of the theorems hold for it; the line found is 2 + 5/4 x, between the two
    averages. *)
Example C70_ex : ∃ d w, lin_fit reals (B2R 53 1024) (λ _, (l_q, l_r)) (λ l, l) (l_grid l_rows) = Ok (Lin true d w [lx] (Some ly)) ∧
  d = 2%R ∧ w = [5 / 4]%R.
Proof.
  destruct l_attrs as [Ha Hn].
  pose proof (C70_fit (λ _, (l_q, l_r)) (λ l, l) (l_grid l_rows) ly (l_y l_rows) (l_col l_rows) (λ l, reflexivity l) l_obs) as H.
  cbv zeta in H. rewrite Ha, Hn in H. destruct (H ltac:(cbn; lia) l_factors) as (d & w & Hfit & _ & _ & Hw & Hopt).
  exists d, w. split; [exact Hfit|]. destruct (Hopt l_independent) as (H0 & H1 & _).
  clear H Hopt Hfit. destruct w as [|w [|]]; [discriminate Hw| |discriminate Hw]. specialize (H1 lx ltac:(left)).
  unfold fits, l_y, l_col, l_num in H0, H1. cbn [map weighted l_rows lookup list_lookup fst snd total] in H0, H1.
  rewrite !l_val in H0, H1 by done.
  assert (w = 5 / 4)%R by lra. split; [lra|by f_equal].
Qed.

Definition l_fq : mx binary64 := MX 4 4 (map (λ z, b64_div mode_NE (float_of_Z z) (float_of_Z 2))
  [1; 1; 1; 1;  1; 1; -1; -1;  1; -1; 1; -1;  1; -1; -1; 1]%Z).
Definition l_fr : mx binary64 := MX 4 2 (map float_of_Z [2; 4;  0; -4;  0; 0;  0; 0]%Z).

(** The same in float64, and the prediction for 8. *)
Example C70_ex_float :
  match lin_fit float64 (λ x, x) (λ _, (l_fq, l_fr)) (λ l, l) (l_grid l_rows) with
  | Ok l => same_bits (ln_disturbance l) (float_of_Z 2) &&
      match lin_predict float64 (λ x, x) 64 (λ x, x) l (l_grid [(8, 0)]%Z) with
      | Ok d => match dense_get d (Spec 0 0 ly) 0 with
                | Ok raw => match unpack_float raw with Ok x => same_bits x (float_of_Z 12) | _ => false end
                | _ => false end
      | _ => false end
  | _ => false end = true.
Proof. vm_compute. reflexivity. Qed.

(** ** C112: variables that depend on each other *)

(** The claim that fails: Fit either reports an error or leaves usable coefficients.  With a
    variable that is always zero, for which the second diagonal element of R is zero, Fit
    reports no error, and all coefficients and all predictions are infinite or not numbers. *)
Definition l_flat : list (Z * Z) := [(0, 1); (0, 3); (0, 6); (0, 8)]%Z.
Definition l_fr0 : mx binary64 := MX 4 2 (map float_of_Z [2; 0;  0; 0;  0; 0;  0; 0]%Z).
Definition usable (x : binary64) : bool := is_finite 53 1024 x.

Theorem C112_dependent_refuted : ∃ qr g l,
  iter_agrees g ∧ length (gr_class_attrs g) = 1 ∧ (gr_size g).2 = 4 ∧ length (lin_attrs (λ l, l) g) = 1 ∧
  lin_fit float64 (λ x, x) qr (λ l, l) g = Ok l ∧ ln_fitted l = true ∧
  usable (ln_disturbance l) = false ∧ Forall (λ w, usable w = false) (ln_coef l) ∧
  match lin_predict float64 (λ x, x) 64 (λ x, x) l (l_grid [(8, 0)]%Z) with
  | Ok d => match dense_get d (Spec 0 0 ly) 0 with
            | Ok raw => match unpack_float raw with Ok x => usable x = false | _ => False end
            | _ => False end
  | _ => False end.
Proof.
  exists (λ _, (l_fq, l_fr0)), (l_grid l_flat).
  assert (∀ (r : res (lin binary64)), match r with Ok l => ln_fitted l && negb (usable (ln_disturbance l)) && forallb (λ w, negb (usable w)) (ln_coef l) &&
      match lin_predict float64 (λ x, x) 64 (λ x, x) l (l_grid [(8, 0)]%Z) with
      | Ok d => match dense_get d (Spec 0 0 ly) 0 with
                | Ok raw => match unpack_float raw with Ok x => negb (usable x) | _ => false end
                | _ => false end
      | _ => false end | _ => false end = true →
    ∃ l, r = Ok l ∧ ln_fitted l = true ∧
    usable (ln_disturbance l) = false ∧ Forall (λ w, usable w = false) (ln_coef l) ∧
    match lin_predict float64 (λ x, x) 64 (λ x, x) l (l_grid [(8, 0)]%Z) with
    | Ok d => match dense_get d (Spec 0 0 ly) 0 with
              | Ok raw => match unpack_float raw with Ok x => usable x = false | _ => False end
              | _ => False end
    | _ => False end) as H.
  { intros [l| |]; [|done|done]. intros H. exists l. split; [done|]. apply andb_prop in H as [H H4]. apply andb_prop in H as [H H3].
    apply andb_prop in H as [H1 H2]. split; [done|]. split; [by apply negb_true_iff|]. split.
    - apply Forall_forall. intros w Hw. rewrite forallb_forall in H3. apply negb_true_iff, H3. by apply elem_of_list_In.
    - destruct lin_predict as [d| |]; [|discriminate H4|discriminate H4]. destruct dense_get as [raw| |]; [|discriminate H4|discriminate H4].
      destruct unpack_float as [x| |]; [|discriminate H4|discriminate H4]. by apply negb_true_iff. }
  destruct (H (lin_fit float64 (λ x, x) (λ _, (l_fq, l_fr0)) (λ l, l) (l_grid l_flat))) as (l & Hl & H1 & H2 & H3 & H4).
  { vm_compute. reflexivity. }
  exists l. split; [apply in_order_agrees, dense_grid_in_order|]. split; [vm_compute; reflexivity|]. split; [vm_compute; reflexivity|].
  split; [vm_compute; reflexivity|]. split; [exact Hl|]. split; [exact H1|]. split; [exact H2|]. split; [exact H3|exact H4].
Qed.
Print Assumptions C112_dependent_refuted.
