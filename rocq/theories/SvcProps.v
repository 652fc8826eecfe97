(** Properties C72, C110 and C111: the parameters of the linear support vector classifiers. *)
From Coq Require Import Reals Lra.
From Verif Require Import Prelude FloatModel AttrModel StoreModel DenseModel GridModel GridSpec GridProofs Id3Model CartModel
  CartProps KnnProps SvcModel.
From Flocq Require Import IEEE754.BinarySingleNaN IEEE754.Bits IEEE754.Binary.
Local Open Scope nat_scope.

(** ** C72: which solver is chosen *)

(** The support vector solvers of liblinear: the loss, the penalty and the form that each
    one solves. *)
Inductive svc_solver : nat → string → string → bool → Prop :=
| s_l2l2_dual : svc_solver 1 "l2" "l2" true
| s_l2l2 : svc_solver 2 "l2" "l2" false
| s_l1l2 : svc_solver 3 "l1" "l2" true
| s_l2l1 : svc_solver 5 "l2" "l1" false.

(** SetKindFromStrings, for all strings and all parameters.  Where liblinear has a solver
    for the loss and the penalty, one is selected, for the form asked for if there is one
    for that; an error is returned exactly where the form had to be changed.  Where it has
    none an error is returned.  Nothing else is touched. *)
Theorem C72_kind loss penalty p :
  let p' := (set_kind loss penalty p).1 in
  let err := (set_kind loss penalty p).2 in
  ((∃ n d, svc_solver n loss penalty d) →
     svc_solver (sv_solver p') loss penalty (sv_dual p') ∧
     (err = None ↔ sv_dual p' = sv_dual p) ∧
     ((∃ n, svc_solver n loss penalty (sv_dual p)) → sv_dual p' = sv_dual p)) ∧
  ((¬ ∃ n d, svc_solver n loss penalty d) → err ≠ None ∧ sv_dual p' = sv_dual p ∧ sv_solver p' = 0) ∧
  sv_weights p' = sv_weights p ∧ sv_c p' = sv_c p ∧ sv_eps p' = sv_eps p ∧ sv_auto p' = sv_auto p.
Proof.
  cbv zeta. unfold set_kind.
  destruct (decide (loss = "l1")) as [->|H1]; [|destruct (decide (loss = "l2")) as [->|H2]].
  - rewrite bool_decide_true by done. cbn [orb negb].
    destruct (decide (penalty = "l2")) as [->|H2]; [|destruct (decide (penalty = "l1")) as [->|H3]].
    + cbn. split; [|split; [|done]].
      * intros _. split; [constructor|]. split; [by destruct (sv_dual p)|]. intros [n H]. by inversion H.
      * intros H. exfalso. apply H. eexists _, _. constructor.
    + cbn. split; [|split; [|done]]; [|done]. intros (n & d & H). inversion H.
    + rewrite !(bool_decide_false (penalty = _)) by done. cbn. split; [|split; [|done]]; [|done].
      intros (n & d & H). by inversion H.
  - rewrite (bool_decide_true ("l2" = "l2")), (bool_decide_false ("l2" = "l1")) by done. cbn [orb negb].
    destruct (decide (penalty = "l2")) as [->|H2]; [|destruct (decide (penalty = "l1")) as [->|H3]].
    + rewrite bool_decide_true by done. destruct p as [n0 w c e a []]; cbn; (split; [|split; [|done]]).
      * intros _. split; [constructor|done].
      * intros H. exfalso. apply H. eexists _, _. constructor.
      * intros _. split; [constructor|done].
      * intros H. exfalso. apply H. eexists _, _. constructor.
    + cbn. split; [|split; [|done]].
      * intros _. split; [constructor|]. split; [by destruct (sv_dual p)|]. intros [n H]. by inversion H.
      * intros H. exfalso. apply H. eexists _, _. constructor.
    + rewrite !(bool_decide_false (penalty = _)) by done. cbn. split; [|split; [|done]]; [|done].
      intros (n & d & H). by inversion H.
  - rewrite !(bool_decide_false (loss = _)) by done. cbn. split; [|split; [|done]]; [|done].
    intros (n & d & H). by inversion H.
Qed.
Print Assumptions C72_kind.

Lemma solver_dec loss penalty : (∃ n d, svc_solver n loss penalty d) ∨ ¬ ∃ n d, svc_solver n loss penalty d.
Proof.
  destruct (decide (loss = "l2")) as [->|H1]; [|destruct (decide (loss = "l1")) as [->|H2]].
  - destruct (decide (penalty = "l2")) as [->|]; [left; eexists _, _; constructor|].
    destruct (decide (penalty = "l1")) as [->|]; [left; eexists _, _; constructor|].
    right. intros (? & ? & Hs). by inversion Hs.
  - destruct (decide (penalty = "l2")) as [->|]; [left; eexists _, _; constructor|].
    right. intros (? & ? & Hs). by inversion Hs.
  - right. intros (? & ? & Hs). by inversion Hs.
Qed.

(** NewLinearSVC succeeds exactly on the combinations that liblinear solves in the form
    asked for, with that solver. *)
Theorem C72_new loss penalty dual C eps :
  (∀ p, new_linear_svc loss penalty dual C eps = Ok p ↔
    ∃ n, svc_solver n loss penalty dual ∧ p = SVC n None C eps false dual) ∧
  (new_linear_svc loss penalty dual C eps = Err ↔ ¬ ∃ n, svc_solver n loss penalty dual).
Proof.
  pose proof (C72_kind loss penalty (SVC 0 None C eps false dual)) as (H1 & H2 & Hw & Hc & He & Ha). cbn [sv_dual sv_weights sv_c sv_eps sv_auto] in *.
  unfold new_linear_svc. destruct (set_kind loss penalty (SVC 0 None C eps false dual)) as [p' err] eqn:E. cbn [fst snd] in *.
  assert (∀ n n', svc_solver n loss penalty dual → svc_solver n' loss penalty dual → n = n') as Huniq
    by (intros n n' A B; inversion A; subst; inversion B; done).
  destruct err as [msg|].
  - assert (¬ ∃ n, svc_solver n loss penalty dual) as Hno.
    { intros [n Hn]. destruct H1 as (_ & H3 & H4); [by exists n, dual|]. destruct H3 as [_ H3].
      specialize (H3 (H4 (ex_intro _ n Hn))). done. }
    split; [|done]. intros p. split; [done|]. intros (n & Hn & _). exfalso. apply Hno. by exists n.
  - assert (∃ n, svc_solver n loss penalty dual ∧ p' = SVC n None C eps false dual) as (n & Hn & ->).
    { destruct (solver_dec loss penalty) as [Hd|Hd].
      - destruct (H1 Hd) as (A & [B _] & _). specialize (B eq_refl). exists (sv_solver p'). rewrite B in A. split; [exact A|].
        destruct p'; cbn in *. congruence.
      - destruct (H2 Hd) as [A _]. done. }
    split.
    + intros p. split; [intros [= <-]; by exists n|]. intros (n' & Hn' & ->). by rewrite (Huniq n n' Hn Hn').
    + split; [done|]. intros H. exfalso. apply H. by exists n.
Qed.
Print Assumptions C72_new.

(** The part of the claim that fails: after a combination is rejected the parameters select
    solver 0, which is the logistic regression that NewLogisticRegression("l2") uses, not a
    support vector classifier. *)
Theorem C72_rejected_refuted : ∃ loss penalty p,
  (set_kind loss penalty p).2 ≠ None ∧
  new_logistic "l2" = Ok (sv_solver (set_kind loss penalty p).1) ∧
  ∀ l r d, ¬ svc_solver (sv_solver (set_kind loss penalty p).1) l r d.
Proof.
  exists "l1", "l1", (SVC 1 None float_one float_one false true). split; [done|]. split; [done|].
  intros l r d H. by inversion H.
Qed.
Print Assumptions C72_rejected_refuted.

Example C72_ex : new_linear_svc "l1" "l2" true float_one float_one = Ok (SVC 3 None float_one float_one false true) ∧
  new_linear_svc "l1" "l2" false float_one float_one = Err ∧
  set_kind "l1" "l2" (SVC 0 None float_one float_one false false) =
    (SVC 3 None float_one float_one false true, Some "Important: changed to dual form").
Proof. done. Qed.

(** ** C110: automatic class weights *)

Lemma dist_cases half g l : distribution_by_binary_float half g = Ok l → l = [0; 0] ∨ l = [1; 0] ∨ l = [0; 1].
Proof.
  unfold distribution_by_binary_float.
  destruct (gr_class_attrs g) as [|a [|b l']]; [done| |by destruct a]. destruct a; try done.
  intros H. destruct (resolve g _) as [specs| |]; try done. cbn [mbind res_bind] in H. unfold map_over_rows in H.
  destruct (gr_iter g specs) as [rows| |]; [|injection H as <-; by left|done].
  destruct rows as [|[i [buf| |]] rows]; cbn [run_rows mbind res_bind] in H; try done.
  - injection H as <-. by left.
  - unfold count_binary_cb in H.
    destruct (idx buf 0) as [raw| |]; cbn [mbind res_bind] in H; try done.
    destruct (unpack_float raw) as [u| |]; cbn [mbind res_bind] in H; try done.
    destruct (float_gt u half); cbn in H; injection H as <-; auto.
Qed.

Lemma one_div_one : b64_div mode_NE float_one (float_of_nat 1) = float_one.
Proof. apply B2FF_inj. vm_compute. reflexivity. Qed.

(** The claim that fails: each class is weighted by the inverse of its number of rows.
    Whatever the training set, automatic weighting gives the two weights 1 and 1, as if it
    were not asked for. *)
Theorem C110_no_effect half C eps n d g w :
  class_weights half (SVC n None C eps true d) g = Ok w →
  w = [float_one; float_one] ∧ class_weights half (SVC n None C eps false d) g = Ok w.
Proof.
  unfold class_weights. cbn [sv_weights sv_auto]. unfold weights_from_dist, weights_from_fixed. intros H.
  destruct (distribution_by_binary_float half g) as [l| |] eqn:E; try done. cbn [mbind res_bind] in H. injection H as <-.
  assert (map (λ c, if c =? 0 then float_one else b64_div mode_NE float_one (float_of_nat c)) l = [float_one; float_one]) as ->.
  { apply dist_cases in E as [-> | [-> | ->] ]; cbn [map Nat.eqb]; by rewrite ?one_div_one. }
  split; [done|]. unfold distribution_by_binary_float in E. by destruct (gr_class_attrs g) as [|[] []].
Qed.
Print Assumptions C110_no_effect.

(** The training set: three rows, two of class 0 and one of class 1. *)
Definition v_rows : list (Z * Z * Z) := [((1, 1), 0); ((2, 1), 0); ((3, 1), 1)]%Z.
Definition v_half : binary64 := b64_of_bits 0x3FE0000000000000.

(** Which of the two classes row [r] has, read with Get. *)
Definition v_class (g : grid) (r : nat) : res bool :=
  raw ← gr_get g (Spec 0 2 cc) r; f ← unpack_float raw; Ok (float_gt f v_half).

Lemma of_ok_check (g : grid) w :
  match class_weights v_half (SVC 3 None float_one float_one true true) g with
  | Ok w' => map bits_of_b64 w' = map bits_of_b64 w | _ => False end →
  ∃ w', class_weights v_half (SVC 3 None float_one float_one true true) g = Ok w' ∧ map bits_of_b64 w' = map bits_of_b64 w.
Proof. destruct class_weights as [w'| |]; [eauto|tauto|tauto]. Qed.

Theorem C110_weights_refuted : ∃ g (n0 n1 : nat) w,
  n0 = length (filter (λ r, v_class g r = Ok false) (seq 0 (gr_size g).2)) ∧
  n1 = length (filter (λ r, v_class g r = Ok true) (seq 0 (gr_size g).2)) ∧
  n0 = 2 ∧ n1 = 1 ∧
  class_weights v_half (SVC 3 None float_one float_one true true) g = Ok w ∧
  w ≠ [b64_div mode_NE float_one (float_of_nat n0); b64_div mode_NE float_one (float_of_nat n1)].
Proof.
  destruct (of_ok_check (c_grid v_rows) [float_one; float_one]) as (w & Hw & Hb).
  { vm_compute. reflexivity. }
  exists (c_grid v_rows), 2, 1, w.
  split; [vm_compute; reflexivity|]. split; [vm_compute; reflexivity|]. split; [reflexivity|]. split; [reflexivity|].
  split; [exact Hw|]. intros ->. vm_compute in Hb. discriminate Hb.
Qed.
Print Assumptions C110_weights_refuted.

(** ** C111: the weights of the classifiers of a MultiLinearSVC *)

(** The classifier for [cls] weights the rows of the class by the weight given for it, zero
    if none is given, and all other rows by the sum of the weights of the other classes.
    Everything else is as in the parameters given. *)
Theorem C111_weights order p ws cls :
  (∀ l, order l ≡ₚ l) →
  ∃ others, others ≡ₚ map_to_list (delete cls ws) ∧
    multi_params order p (Some ws) cls =
    SVC (sv_solver p)
      (Some [foldl (b64_plus mode_NE) float_zero (map snd others);
             match ws !! cls with Some w => w | None => float_zero end])
      (sv_c p) (sv_eps p) (sv_auto p) (sv_dual p).
Proof.
  intros Ho. exists (filter (λ kv, kv.1 ≠ cls) (order (map_to_list ws))). split.
  { rewrite (Ho (map_to_list ws)). apply NoDup_Permutation.
    - apply NoDup_filter, NoDup_map_to_list.
    - apply NoDup_map_to_list.
    - intros [k v]. rewrite elem_of_list_filter, !elem_of_map_to_list, lookup_delete_Some. cbn. naive_solver. }
  unfold multi_params, svc_copy. cbn [sv_solver sv_weights sv_c sv_eps sv_auto sv_dual].
  assert (∀ l w0 w1, NoDup l.*1 → foldl (λ '(w0, w1) kv,
            if bool_decide (kv.1 ≠ cls) then (b64_plus mode_NE w0 kv.2, w1) else (w0, kv.2)) (w0, w1) l =
          (foldl (b64_plus mode_NE) w0 (map snd (filter (λ kv, kv.1 ≠ cls) l)),
           match (list_to_map l : gmap string binary64) !! cls with Some w => w | None => w1 end)) as H.
  { induction l as [|[k v] l IH]; intros w0 w1 Hn; cbn [foldl list_to_map foldr fst snd]; [by rewrite lookup_empty|].
    cbn [fmap list_fmap fst] in Hn. apply NoDup_cons in Hn as [Hk Hn].
    rewrite filter_cons. cbn [fst snd]. case_bool_decide as E.
    - rewrite decide_True by done. cbn [map foldl snd]. rewrite IH by done. f_equal. by rewrite lookup_insert_ne.
    - subst k. rewrite decide_False by auto. rewrite IH by done. f_equal. rewrite lookup_insert.
      by rewrite (not_elem_of_list_to_map_1 (M:=gmap string) l cls). }
  assert (NoDup (order (map_to_list ws)).*1) as Hnd.
  { rewrite (Ho (map_to_list ws)). apply NoDup_fst_map_to_list. }
  rewrite H by done. do 4 f_equal.
  assert ((list_to_map (order (map_to_list ws)) : gmap string binary64) = ws) as ->; [|done].
  rewrite (list_to_map_proper (M:=gmap string) (order (map_to_list ws)) (map_to_list ws)) by done.
  apply list_to_map_to_list.
Qed.
Print Assumptions C111_weights.

(** The weights given are the ones the solver gets, in their order, whatever the data. *)
Theorem C111_used half order p ws cls w g : sv_weights (multi_params order p (Some ws) cls) = Some w →
  class_weights half (multi_params order p (Some ws) cls) g = Ok w.
Proof. intros H. unfold class_weights. by rewrite H. Qed.
Print Assumptions C111_used.

(** Without weights the classifiers have none of their own. *)
Theorem C111_none order p cls : sv_weights (multi_params order p None cls) = None.
Proof. reflexivity. Qed.
Print Assumptions C111_none.

(** The claim that fails: the weights are the same on every run.  The sum is taken in the
    order in which the map is iterated, and rounding makes the result depend on it. *)
Definition v_tiny : binary64 := b64_of_bits 0x3CA0000000000000.
Definition v_ws : gmap string binary64 :=
  {[ "a" := float_one; "b" := v_tiny; "c" := v_tiny; "d" := float_one ]}.
Definition v_small (kv : string * binary64) : bool := float_gt float_one kv.2.

Theorem C111_order_refuted : ∃ order1 order2 p ws cls,
  (∀ l, order1 l ≡ₚ l) ∧ (∀ l, order2 l ≡ₚ l) ∧
  multi_params order1 p (Some ws) cls ≠ multi_params order2 p (Some ws) cls.
Proof.
  assert (∀ (b : bool) (l : list (string * binary64)),
    filter (λ kv, v_small kv = b) l ++ filter (λ kv, ¬ v_small kv = b) l ≡ₚ l) as Hp.
  { intros b l. induction l as [|x l IH]; [done|]. rewrite !filter_cons.
    destruct (decide (v_small x = b)) as [E|E].
    - rewrite decide_False by tauto. cbn. by rewrite IH.
    - rewrite decide_True by done. by rewrite <-Permutation_middle, IH. }
  eexists _, _, (SVC 3 None float_one float_one false true), v_ws, "d".
  split; [exact (Hp true)|]. split; [exact (Hp false)|]. intros E.
  apply (f_equal sv_weights) in E. apply (f_equal (option_map (map bits_of_b64))) in E.
  vm_compute in E. discriminate E.
Qed.
Print Assumptions C111_order_refuted.

Example C111_ex :
  match sv_weights (multi_params (λ l, l) (SVC 3 None float_one float_one false true)
      (Some {[ "a" := float_of_nat 2; "b" := float_of_nat 3; "c" := float_of_nat 4 ]}) "b") with
  | Some w => map bits_of_b64 w = map bits_of_b64 [float_of_nat 6; float_of_nat 3] | None => False end.
Proof. vm_compute. reflexivity. Qed.
