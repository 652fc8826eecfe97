(** Properties C163 to C165: ChiMerge. *)
From Coq Require Import Reals QArith Qminmax Lra.
From Coquelicot Require Import Coquelicot.
From Verif Require Import Prelude BytesModel FloatModel AttrModel StoreModel DenseModel GridModel GridSpec FilterModel FilterSpec
  FilterProofs FloatProofs CartModel ChiModel ChiSpec ChiProofs ChiFloat ChiQuad ChiMergeProofs.
From Flocq Require Import IEEE754.BinarySingleNaN IEEE754.Bits IEEE754.Binary.
Local Open Scope nat_scope.

(** Training data of a numeric column and a class, for the examples. *)
Definition h_x : attr := FloatA "x" 2.
Definition h_c : attr := CatA "c" ["u"; "v"].
Definition h_dense (rows : list (Z * N)) : dense :=
  match dense_run 64 dense_new
    ([DAdd h_x; DAdd h_c; DClass h_c true; DExtend (length rows)] ++
     concat (imap (λ i r, [DSet (Spec 0 0 h_x) i (pack_float (float_of_Z r.1)); DSet (Spec 1 0 h_c) i (pack_u64 r.2)]) rows)) with
  | Ok d => d | _ => dense_new end.
Definition h_grid (rows : list (Z * N)) : grid := dense_grid [((1, 0), true)] (h_dense rows).
Definition h_show (p : nat) (bits : N) : string := "".
Definition h_view (r : res (list freq_entry)) : list (option nat * option nat) :=
  match r with Ok t => map (λ e, (fe_freq e !! "u", fe_freq e !! "v")) t | _ => [] end.
Definition h_entry (v : Z) (m : gmap string nat) : freq_entry := Freq (float_of_Z v) m.

Lemma ins_some (m : gmap string nat) k n c : is_Some (<[k := n]> m !! c) ↔ c = k ∨ is_Some (m !! c).
Proof.
  destruct (decide (k = c)) as [->|N].
  - rewrite lookup_insert. split; [by left|]. intros _. by eexists.
  - rewrite lookup_insert_ne by done. split; [by right|]. by intros [->|H].
Qed.
Lemma sing_some k n c : is_Some (({[k := n]} : gmap string nat) !! c) ↔ c = k.
Proof.
  rewrite <- (insert_empty (M := gmap string)), ins_some, lookup_empty. split; [|by left].
  intros [H|H]; [done|inversion H; discriminate].
Qed.

(** ** C163 *)

(** In exact arithmetic the statistic of two intervals is Pearson's, where less than half a
    row expected is taken as a half in the denominator. *)
Theorem C163_statistic : ∀ ko1 ko2 e1 e2 cs, any_order ko1 → any_order ko2 → classes_of e1 e2 cs →
  (chi_statistic ko1 ko2 e1 e2 == chi_squared cs e1 e2)%Q.
Proof. exact chi_statistic_spec. Qed.
Print Assumptions C163_statistic.

Theorem C163_symmetric : ∀ ko1 ko2 ko3 ko4 e1 e2,
  any_order ko1 → any_order ko2 → any_order ko3 → any_order ko4 →
  (chi_statistic ko1 ko2 e1 e2 == chi_statistic ko3 ko4 e2 e1)%Q.
Proof. exact chi_statistic_sym. Qed.
Print Assumptions C163_symmetric.

Theorem C163_nonneg : ∀ ko1 ko2 e1 e2, any_order ko1 → any_order ko2 → (0 <= chi_statistic ko1 ko2 e1 e2)%Q.
Proof. exact chi_statistic_nonneg. Qed.
Print Assumptions C163_nonneg.

(** It is 0 for intervals of the same shares of classes only. *)
Theorem C163_zero : ∀ ko1 ko2 e1 e2, any_order ko1 → any_order ko2 → rows_in e1 ≠ 0 → rows_in e2 ≠ 0 →
  ((chi_statistic ko1 ko2 e1 e2 == 0)%Q ↔ ∀ c, has e1 c * rows_in e2 = has e2 c * rows_in e1).
Proof. exact chi_statistic_zero. Qed.
Print Assumptions C163_zero.

(** Rows u u u v against u v v v w, and against v v v u u u u u u u u u. *)
Definition h_1 : freq_entry := h_entry 1 {["u" := 3; "v" := 1]}.
Definition h_2 : freq_entry := h_entry 2 {["u" := 1; "v" := 3; "w" := 1]}.
Definition h_3 : freq_entry := h_entry 3 {["u" := 9; "v" := 3]}.
Example C163_ex :
  classes_of h_1 h_2 ["u"; "v"; "w"] ∧ rows_in h_1 = 4 ∧ rows_in h_2 = 5 ∧
  (chi_statistic (λ l, l) (λ l, l) h_1 h_2 == 9317 # 3240)%Q ∧
  (chi_statistic (λ l, l) (λ l, reverse l) h_1 h_3 == 0)%Q.
Proof.
  split; [|split; [|split; [|split]]]; [|vm_compute; reflexivity..].
  split.
  - repeat (constructor; [set_solver|]). constructor.
  - intros c. unfold h_1, h_2, h_entry. cbn [fe_freq].
    rewrite !ins_some, !sing_some. set_solver.
Qed.

(** ** C164 *)

Lemma rows_wanted minrows maxrows : chi_minrows minrows = Nat.max 2 minrows ∧
  chi_maxrows minrows maxrows = Nat.max maxrows (S (Nat.max 2 minrows)).
Proof.
  assert (chi_minrows minrows = Nat.max 2 minrows) as E.
  { unfold chi_minrows. destruct (2 <=? minrows) eqn:H; [apply Nat.leb_le in H|apply Nat.leb_gt in H]; lia. }
  split; [done|]. unfold chi_maxrows. rewrite E.
  destruct (_ <? maxrows) eqn:H; [apply Nat.ltb_lt in H|apply Nat.ltb_ge in H]; lia.
Qed.

(** Merging ends with the least number of intervals, or when the least statistic of
    neighbours is not significant and there are not too many of them; for every statistic and
    test. *)
Theorem C164_stops : ∀ show stat significant inst a minrows maxrows freq freq',
  build_freq show a inst = Ok freq →
  chi_merge show stat significant inst a minrows maxrows = Ok freq' →
  length freq' ≤ Nat.max 2 minrows ∨
  length freq' ≤ Nat.max maxrows (S (Nat.max 2 minrows)) ∧
  ∃ m i e1 e2, freq' !! i = Some e1 ∧ freq' !! S i = Some e2 ∧ (stat e1 e2 == m)%Q ∧
    (∀ j c d, freq' !! j = Some c → freq' !! S j = Some d → (m <= stat c d)%Q) ∧
    significant freq m = false.
Proof.
  intros show stat significant inst a minrows maxrows freq freq' Hb Hm.
  destruct (rows_wanted minrows maxrows) as [<- <-].
  destruct (decide (length freq' ≤ chi_minrows minrows)) as [L|L]; [by left|right].
  unfold chi_merge in Hm. rewrite Hb in Hm. cbn [mbind res_bind] in Hm.
  destruct (chi_rows minrows maxrows) as [H1 H2].
  destruct (loop_stops _ _ _ _ H1 H2 _ _ _ Hm ltac:(lia)) as (m & i & e1 & e2 & A & B & C & D & E & F).
  split; [done|]. exists m, i, e1, e2. done.
Qed.
Print Assumptions C164_stops.

(** Neighbours that are not significantly alike are not merged, unless there are too many. *)
Theorem C164_keeps : ∀ show stat significant inst a minrows maxrows freq,
  build_freq show a inst = Ok freq → length freq ≤ Nat.max maxrows (S (Nat.max 2 minrows)) →
  (∀ m i e1 e2, freq !! i = Some e1 → freq !! S i = Some e2 → (stat e1 e2 == m)%Q →
    (∀ j c d, freq !! j = Some c → freq !! S j = Some d → (m <= stat c d)%Q) → significant freq m = false) →
  chi_merge show stat significant inst a minrows maxrows = Ok freq.
Proof.
  intros show stat significant inst a minrows maxrows freq Hb Hl H.
  destruct (rows_wanted minrows maxrows) as [_ E]. rewrite <- E in Hl.
  unfold chi_merge. rewrite Hb. cbn [mbind res_bind]. destruct (chi_rows minrows maxrows) as [H1 H2].
  by apply loop_keeps.
Qed.
Print Assumptions C164_keeps.

(** With one or two classes nothing is significant: whatever the significance asked for, the
    percentile is +Inf or NaN, and the table is left as it is. *)
Theorem C164_two_classes : ∀ pow exp gamma rnd show ko1 ko2 sig inst a minrows maxrows freq cs,
  go_math pow exp gamma → rounding rnd → any_order ko1 → any_order ko2 →
  build_freq show a inst = Ok freq → table_classes freq cs → 1 ≤ length cs ≤ 2 →
  length freq ≤ Nat.max maxrows (S (Nat.max 2 minrows)) →
  chi_merge show (chi_statistic ko1 ko2) (chi_significant pow exp gamma rnd sig) inst a minrows maxrows = Ok freq.
Proof.
  intros pow exp gamma rnd show ko1 ko2 sig inst a minrows maxrows freq cs M RR K1 K2 Hb Hc Hl Hm.
  apply C164_keeps; [done|done|]. intros m i e1 e2 _ _ Hs _. apply (two_never _ _ _ _ M RR sig freq cs); [done|done|].
  rewrite <- Hs. by apply chi_statistic_nonneg.
Qed.
Print Assumptions C164_two_classes.

(** The intervals of 1, 2 and 3, each with a row of either class, should become two. *)
Definition h_same : grid := h_grid [(1%Z, 0%N); (1%Z, 1%N); (2%Z, 0%N); (2%Z, 1%N); (3%Z, 0%N); (3%Z, 1%N)].
Definition h_result (r : res (list freq_entry)) : list freq_entry := match r with Ok t => t | _ => [] end.
Definition h_is_ok (r : res (list freq_entry)) : bool := match r with Ok _ => true | _ => false end.
Lemma h_ok r : h_is_ok r = true → r = Ok (h_result r).
Proof. by destruct r. Qed.
Lemma h_uv : NoDup ["u"; "v"] ∧ ∀ c, c ∈ ["u"; "v"] ↔ c = "u" ∨ c = "v".
Proof.
  split; [repeat (constructor; [set_solver|]); constructor|]. intros c. set_solver.
Qed.
Definition h_both : gmap string nat := {["u" := 1; "v" := 1]}.
Lemma h_same_entries e : e ∈ h_result (build_freq h_show h_x h_same) → fe_freq e = h_both.
Proof.
  assert (forallb (λ e, bool_decide (fe_freq e = h_both)) (h_result (build_freq h_show h_x h_same)) = true) as H
    by (vm_compute; reflexivity).
  rewrite forallb_forall in H. intros He. apply elem_of_list_In, H in He. by apply bool_decide_eq_true in He.
Qed.
Theorem C164_two_refuted : ∃ show inst a freq,
  build_freq show a inst = Ok freq ∧ length freq = 3 ∧
  (∀ e1 e2 c, e1 ∈ freq → e2 ∈ freq → has e1 c = has e2 c ∧ rows_in e1 = 2) ∧
  ∀ pow exp gamma rnd ko1 ko2 sig, go_math pow exp gamma → rounding rnd → any_order ko1 → any_order ko2 →
    chi_merge show (chi_statistic ko1 ko2) (chi_significant pow exp gamma rnd sig) inst a 2 6 = Ok freq.
Proof.
  exists h_show, h_same, h_x, (h_result (build_freq h_show h_x h_same)).
  assert (build_freq h_show h_x h_same = Ok (h_result (build_freq h_show h_x h_same))) as Hb.
  { apply h_ok. vm_compute. reflexivity. }
  assert (length (h_result (build_freq h_show h_x h_same)) = 3) as Hl by (vm_compute; reflexivity).
  pose proof h_same_entries as Hs. revert Hb Hl Hs. generalize (h_result (build_freq h_show h_x h_same)).
  intros freq Hb Hl Hs. split; [exact Hb|]. split; [exact Hl|]. split.
  - intros e1 e2 c H1 H2. unfold has, rows_in. rewrite (Hs _ H1), (Hs _ H2). split; [done|]. vm_compute. reflexivity.
  - intros pow exp gamma rnd ko1 ko2 sig M RR K1 K2.
    apply (C164_two_classes _ _ _ _ _ _ _ _ _ _ _ _ _ ["u"; "v"] M RR K1 K2 Hb); [|cbn; lia|rewrite Hl; cbn; lia].
    destruct h_uv as [Hu1 Hu2]. split; [exact Hu1|]. intros c. rewrite Hu2.
    assert (is_Some (h_both !! c) ↔ c = "u" ∨ c = "v") as Hc by (unfold h_both; by rewrite ins_some, sing_some).
    rewrite <- Hc. split.
    + intros H. destruct freq as [|e freq]; [discriminate Hl|]. exists e. split; [left|].
      rewrite (Hs e) by left. exact H.
    + intros (e & He & H). rewrite (Hs e He) in H. exact H.
Qed.
Print Assumptions C164_two_refuted.

(** With 4 to 35 classes a large statistic is always significant: the percentile underflows to
    0 at all the nodes of the quadrature. *)
Theorem C164_large : ∀ pow exp gamma rnd sig freq cs v,
  go_math pow exp gamma → rounding rnd → table_classes freq cs → 4 ≤ length cs ≤ 35 →
  (inject_Z (2 ^ 18) <= v)%Q → (v <= inject_Z (2 ^ 40))%Q → f_le (float_of_Z 0) sig →
  chi_significant pow exp gamma rnd sig freq v = true.
Proof. intros pow exp gamma rnd sig freq cs v M RR. by apply large_always. Qed.
Print Assumptions C164_large.

(** Functions that meet the assumptions: constants but for the special cases. *)
Definition h_pow (x y : binary64) : binary64 :=
  if is_nan 53 1024 x then x
  else if float_eq x (float_of_Z 0)
  then if float_lt y (float_of_Z 0) then B754_infinity 53 1024 false else float_of_Z 0
  else float_of_Z 1.
Definition h_exp (x : binary64) : binary64 :=
  match Bcompare 53 1024 x (float_of_Z (-746)) with Some Lt | Some Eq => float_of_Z 0 | _ => float_of_Z 1 end.
Definition h_gamma (x : binary64) : binary64 :=
  if float_eq x (float_of_Z 0) then B754_infinity 53 1024 false else float_of_Z 1.
Definition h_rnd (q : Q) : binary64 :=
  let z := (Qnum q / Z.pos (Qden q))%Z in
  float_of_Z (Z.max (- 2 ^ 53) (Z.min (2 ^ 53) z)).

Lemma f_le_small a b : (Z.abs a <= 2 ^ 53)%Z → (Z.abs b <= 2 ^ 53)%Z → (a <= b)%Z → f_le (float_of_Z a) (float_of_Z b).
Proof.
  intros Ha Hb H. destruct (f_small a Ha) as [F1 V1], (f_small b Hb) as [F2 V2].
  apply f_le_val; [done|done|]. rewrite V1, V2. by apply IZR_le.
Qed.

Lemma h_math : go_math h_pow h_exp h_gamma.
Proof.
  split.
  - intros y _ H. unfold h_pow. rewrite H. vm_compute. reflexivity.
  - intros y _ H. unfold h_pow. assert (float_lt y (float_of_Z 0) = false) as ->.
    { unfold float_lt in *. rewrite Bcompare_swap. destruct (Bcompare 53 1024 (float_of_Z 0) y) as [[]|]; done. }
    vm_compute. reflexivity.
  - intros x y H _. unfold h_pow. by rewrite H.
  - intros x y H _ _ _. unfold h_pow.
    assert (is_nan 53 1024 x = false) as -> by (destruct x; done).
    assert (float_eq x (float_of_Z 0) = false) as ->.
    { small 1%Z. destruct (f_le_pos _ _ H0 ltac:(lra) H) as (S & _ & L).
      unfold float_eq. destruct x as [s|[|]|s pl Hpl|[|] m e He]; try done. }
    split; [vm_compute; reflexivity|]. apply f_le_small; vm_compute; done.
  - intros y _. vm_compute. done.
  - vm_compute. done.
  - apply FloatProofs.pack_float_inj. vm_compute. reflexivity.
  - intros x H _. unfold h_exp. unfold f_le in H. by destruct (Bcompare 53 1024 x (float_of_Z (-746))) as [[]|].
  - intros y H _. unfold h_gamma. assert (float_eq y (float_of_Z 0) = false) as ->.
    { unfold float_eq, float_lt in *. rewrite Bcompare_swap. by destruct (Bcompare 53 1024 (float_of_Z 0) y) as [[]|]. }
    vm_compute. done.
  - vm_compute. reflexivity.
  - vm_compute. done.
Qed.

Lemma h_rounding : rounding h_rnd.
Proof.
  split.
  - intros q H. unfold h_rnd. set (z := (Qnum q / Z.pos (Qden q))%Z).
    assert (0 <= z)%Z as Hz.
    { apply Z.div_pos; [|lia]. unfold Qle in H. cbn in H. lia. }
    assert (Z.abs (Z.max (- 2 ^ 53) (Z.min (2 ^ 53) z)) <= 2 ^ 53)%Z as Ha by lia.
    destruct (f_small _ Ha) as [F V]. split; [by destruct (float_of_Z _)|].
    destruct (Z.eq_dec z 0%Z) as [E|E].
    + rewrite E. vm_compute. reflexivity.
    + assert (f_le (float_of_Z 1) (float_of_Z (Z.max (- 2 ^ 53) (Z.min (2 ^ 53) z)))) as P by (apply f_le_small; lia).
      destruct (f_exact 1 eq_refl) as [F1 V1].
      destruct (f_le_pos _ _ F1 ltac:(rewrite V1; lra) P) as (S & _ & _). exact S.
  - intros q a b Ha Hb Hl Hu. unfold h_rnd. set (z := (Qnum q / Z.pos (Qden q))%Z).
    unfold Qle in Hl, Hu. cbn in Hl, Hu.
    assert (a <= z)%Z. { apply Z.div_le_lower_bound; lia. }
    assert (z <= b)%Z. { apply Z.div_le_upper_bound; lia. }
    split; apply f_le_small; lia.
Qed.

(** Three intervals of [2 n] rows, neighbours having no class in common, become one. *)
Definition h_apart (n : nat) : list freq_entry :=
  [h_entry 1 {["a" := n; "b" := n]}; h_entry 2 {["c" := n; "d" := n]}; h_entry 3 {["a" := n; "b" := n]}].
Lemma h_abcd : NoDup ["a"; "b"; "c"; "d"] ∧ ∀ c, c ∈ ["a"; "b"; "c"; "d"] ↔ (c = "a" ∨ c = "b") ∨ (c = "c" ∨ c = "d").
Proof. split; [repeat (constructor; [set_solver|]); constructor|]. intros c. set_solver. Qed.
Lemma h_pair_some (k l c : string) (n : nat) :
  is_Some (({[k := n; l := n]} : gmap string nat) !! c) ↔ c = k ∨ c = l.
Proof. by rewrite ins_some, sing_some. Qed.

Lemma h_pair_rows (e : freq_entry) (k l : string) (n : nat) : k ≠ l → fe_freq e = {[k := n; l := n]} → rows_in e = n + n.
Proof.
  intros N F. unfold rows_in. rewrite F.
  assert (map_to_list ({[k := n; l := n]} : gmap string nat) ≡ₚ [(k, n); (l, n)]) as P.
  { rewrite map_to_list_insert by (by apply lookup_singleton_ne). by rewrite map_to_list_singleton. }
  assert (∀ l1 l2, l1 ≡ₚ l2 → sum_list l1 = sum_list l2) as S.
  { clear. induction 1; unfold sum_list in *; cbn in *; lia. }
  rewrite (S _ [n; n]); [unfold sum_list; cbn; lia|]. exact (Permutation_map snd P).
Qed.
Lemma h_pair_has (e : freq_entry) (k l c : string) (n : nat) : fe_freq e = {[k := n; l := n]} →
  ((c = k ∨ c = l) → has e c = n) ∧ (c ≠ k → c ≠ l → has e c = 0).
Proof.
  intros F. unfold has. rewrite F. split.
  - intros H. destruct (decide (c = k)) as [->|N]; [by rewrite lookup_insert|].
    destruct H as [->| ->]; [done|]. rewrite lookup_insert_ne by done. by rewrite lookup_singleton.
  - intros N1 N2. rewrite lookup_insert_ne, lookup_singleton_ne by done. done.
Qed.

Lemma h_disjoint (e1 e2 : freq_entry) n ko1 ko2 : any_order ko1 → any_order ko2 → 0 < n →
  fe_freq e1 = {["a" := n; "b" := n]} → fe_freq e2 = {["c" := n; "d" := n]} →
  (chi_statistic ko1 ko2 e1 e2 == q_nat (4 * n))%Q.
Proof.
  intros K1 K2 Hn F1 F2. destruct h_abcd as [Hd Hc].
  rewrite (chi_statistic_spec ko1 ko2 e1 e2 ["a"; "b"; "c"; "d"]); [|done|done|].
  2: { split; [exact Hd|]. intros c. rewrite Hc, F1, F2, !h_pair_some. done. }
  assert (rows_in e1 = n + n) as R1 by (by apply (h_pair_rows e1 "a" "b")).
  assert (rows_in e2 = n + n) as R2 by (by apply (h_pair_rows e2 "c" "d")).
  assert (∀ e c, rows_in e = n + n → has e1 c + has e2 c = n → (expectation e1 e2 e c == q_nat n / 2)%Q) as X.
  { intros e c Hr Hs. unfold expectation. rewrite Hs, Hr, R1, R2, (q_nat_add (n + n) (n + n)). field.
    pose proof (q_nat_pos (n + n) ltac:(lia)) as P. intros E. revert P. generalize dependent (q_nat (n + n)).
    intros d E P. unfold Qeq, Qlt in *. cbn in *. lia. }
  assert (1 <= q_nat n)%Q as Q1.
  { change 1%Q with (inject_Z 1). unfold q_nat. rewrite <- Zle_Qle. lia. }
  assert (∀ e c, rows_in e = n + n → has e1 c + has e2 c = n → has e c = n ∨ has e c = 0 →
            (deviation e1 e2 e c == q_nat n / 2)%Q) as D.
  { intros e c Hr Hs He. unfold deviation. rewrite (X e c Hr Hs). rewrite Q.max_l.
    2: { apply Qle_shift_div_l; [reflexivity|]. setoid_replace ((1 # 2) * 2)%Q with 1%Q by reflexivity. exact Q1. }
    assert (~ q_nat n == 0)%Q as N.
    { intros E. rewrite E in Q1. apply (Qlt_not_le 0 1); [reflexivity|exact Q1]. }
    destruct He as [->|E0]; [field; exact N|]. rewrite E0. change (q_nat 0) with 0%Q. field. exact N. }
  assert (∀ c, c ∈ ["a"; "b"; "c"; "d"] → has e1 c + has e2 c = n ∧ (has e1 c = n ∨ has e1 c = 0) ∧ (has e2 c = n ∨ has e2 c = 0)) as H.
  { intros c Hin. apply Hc in Hin.
    destruct (h_pair_has e1 "a" "b" c n F1) as [A1 A2]. destruct (h_pair_has e2 "c" "d" c n F2) as [B1 B2].
    destruct Hin as [Hin|Hin].
    - rewrite (A1 Hin), B2; [lia| |]; intros ->; by destruct Hin.
    - rewrite (B1 Hin), A2; [lia| |]; intros ->; by destruct Hin. }
  unfold chi_squared.
  rewrite (q_sum_ext _ (λ _, q_nat n)).
  2: { intros c Hin. destruct (H c Hin) as (S & A & B). rewrite (D e1 c R1 S A), (D e2 c R2 S B). field. }
  cbn [q_sum foldr]. replace (4 * n) with (n + n + n + n) by lia. rewrite !q_nat_add. ring.
Qed.

Lemma h_two_steps stat a b c : (stat a b == stat b c)%Q → min_indexes stat [a; b; c] = Ok (Some (stat a b), [0; 1]).
Proof.
  intros H. change (min_indexes stat [a; b; c]) with
    (r ← min_step stat [a; b; c] (None, []) 0; r ← min_step stat [a; b; c] r 1; Ok r).
  change (min_step stat [a; b; c] (None, []) 0) with
    (Ok (if Qeq_bool (stat a b) (stat a b) then (Some (stat a b), [0]) else (Some (stat a b), []))).
  rewrite Qeq_bool_refl. cbn [mbind res_bind].
  change (min_step stat [a; b; c] (Some (stat a b), [0]) 1) with
    (let acc := if negb (Qle_bool (stat a b) (stat b c)) then (Some (stat b c), []) else (Some (stat a b), [0]) in
     Ok (if match acc.1 with Some m => Qeq_bool (stat b c) m | None => false end then (acc.1, acc.2 ++ [1]) else acc)).
  rewrite (proj2 (Qle_bool_iff _ _)) by (rewrite H; apply Qle_refl). cbn [negb fst snd].
  rewrite (proj2 (Qeq_bool_iff _ _)) by (symmetry; exact H). done.
Qed.

Theorem C164_large_refuted : ∃ freq m,
  length freq = 3 ∧
  (∀ i e1 e2 c, freq !! i = Some e1 → freq !! S i = Some e2 → has e1 c = 0 ∨ has e2 c = 0) ∧
  (∀ e, e ∈ freq → 2 ^ 17 ≤ rows_in e) ∧
  ∀ pow exp gamma rnd ko1 ko2 sig, go_math pow exp gamma → rounding rnd → any_order ko1 → any_order ko2 →
    f_le (float_of_Z 0) sig →
    chi_loop (chi_statistic ko1 ko2) (chi_significant pow exp gamma rnd sig freq) 3 2 3 freq = Ok [m].
Proof.
  assert (∃ n, Z.of_nat n = (2 ^ 16)%Z) as [n Hn] by (exists (Z.to_nat (2 ^ 16)); by rewrite Z2Nat.id).
  assert (0 < n) as Hp by lia.
  set (m := Freq (float_of_Z 1) (freq_union (freq_union {["a" := n; "b" := n]} {["c" := n; "d" := n]}) {["a" := n; "b" := n]})).
  exists (h_apart n), m. split; [done|]. split; [|split].
  - intros i e1 e2 c H1 H2. unfold has.
    assert (∀ k l, ({[k := n; l := n]} : gmap string nat) !! c = None ∨ c = k ∨ c = l) as L.
    { intros k l. destruct (({[k := n; l := n]} : gmap string nat) !! c) eqn:E; [right|by left].
      apply (h_pair_some k l c n). by eexists. }
    assert (({["a" := n; "b" := n]} : gmap string nat) !! c = None ∨ ({["c" := n; "d" := n]} : gmap string nat) !! c = None) as D.
    { destruct (L "a" "b") as [?|Ha]; [by left|right]. destruct (L "c" "d") as [?|Hc]; [done|].
      destruct Ha as [->| ->]; by destruct Hc. }
    destruct i as [|[|i]]; cbn in H1, H2; [injection H1 as <-; injection H2 as <-..|by destruct i];
      cbn [fe_freq h_entry]; destruct D as [D|D]; rewrite D; cbn; auto.
  - intros e He. assert (rows_in e = n + n) as ->; [|lia].
    unfold h_apart in He. rewrite !elem_of_cons, elem_of_nil in He.
    destruct He as [->|[->|[->|[]]]];
      [by apply (h_pair_rows _ "a" "b")|by apply (h_pair_rows _ "c" "d")|by apply (h_pair_rows _ "a" "b")].
  - intros pow exp gamma rnd ko1 ko2 sig M RR K1 K2 Hsig.
    set (stat := chi_statistic ko1 ko2). set (significant := chi_significant pow exp gamma rnd sig (h_apart n)).
    assert (stat (h_entry 1 {["a" := n; "b" := n]}) (h_entry 2 {["c" := n; "d" := n]}) == q_nat (4 * n))%Q as S1.
    { by apply h_disjoint. }
    assert (stat (h_entry 2 {["c" := n; "d" := n]}) (h_entry 3 {["a" := n; "b" := n]}) == q_nat (4 * n))%Q as S2.
    { unfold stat. rewrite (chi_statistic_sym ko1 ko2 ko1 ko2) by done. by apply h_disjoint. }
    assert (∀ v, (v == q_nat (4 * n))%Q → significant v = true) as Sg.
    { intros v Hv. destruct h_abcd as [Hd Hc].
      assert (q_nat (4 * n) == inject_Z (2 ^ 18))%Q as Hq.
      { unfold q_nat. rewrite Nat2Z.inj_mul, Hn. reflexivity. }
      apply (large_always _ _ _ _ M RR sig (h_apart n) ["a"; "b"; "c"; "d"]); [|cbn; lia| | |done].
      - split; [exact Hd|]. intros c. rewrite Hc. split.
        + intros [H|H]; [exists (h_entry 1 {["a" := n; "b" := n]})|exists (h_entry 2 {["c" := n; "d" := n]})];
            (split; [unfold h_apart; rewrite !elem_of_cons; auto|]); cbn [fe_freq h_entry]; by apply h_pair_some.
        + intros (e & He & H). unfold h_apart in He. rewrite !elem_of_cons, elem_of_nil in He.
          destruct He as [->|[->|[->|[]]]]; cbn [fe_freq h_entry] in H; apply h_pair_some in H; auto.
      - rewrite Hv, Hq. apply Qle_refl.
      - rewrite Hv, Hq. rewrite <- Zle_Qle. discriminate. }
    clearbody stat significant.
    unfold h_apart. cbn [chi_loop length Nat.leb]. rewrite h_two_steps by (rewrite S1, S2; reflexivity).
    cbn [mbind res_bind fst snd Nat.ltb Nat.leb orb]. rewrite Sg by exact S1. reflexivity.
Qed.
Print Assumptions C164_large_refuted.

(** In exact arithmetic the quadrature is the integral of the density from 0 to the statistic
    where the density is a polynomial of degree 5 or less, *)
Theorem C164_polynomial_partial : ∀ gamma a0 a1 a2 a3 a4 a5 x,
  percentile_of (reals gamma) (λ u, a0 + a1 * u + a2 * u ^ 2 + a3 * u ^ 3 + a4 * u ^ 4 + a5 * u ^ 5)%R x =
  RInt (λ u, a0 + a1 * u + a2 * u ^ 2 + a3 * u ^ 3 + a4 * u ^ 4 + a5 * u ^ 5)%R 0 x.
Proof. intros gamma a0 a1 a2 a3 a4 a5 x. rewrite percentile_exact_eq. apply poly_integral. Qed.
Print Assumptions C164_polynomial_partial.

(** and for three classes, whose chi-squared density is [exp (-u/2) / 2], the percentile is
    never below the integral and, up to 64, at most a millionth of it above.  The rounding of
    the code is left out; there is no such bound here for other numbers of classes. *)
Theorem C164_three_classes_partial : ∀ gamma x, gamma 1%R = 1%R →
  let probability := RInt (λ u, exp (- u / 2) / 2)%R 0 x in
  (0 < x → probability <= exact_percentile gamma 2 x ∧
    (x <= 64 → exact_percentile gamma 2 x <= probability * (1 + / 1000000)))%R.
Proof.
  intros gamma x G probability Hx.
  assert (probability = 1 - exp (- x / 2))%R as ->.
  { unfold probability. apply is_RInt_unique. set (F := (λ u, - exp (- u / 2))%R).
    assert (1 - exp (- x / 2) = F x - F 0)%R as ->.
    { unfold F. replace (- 0 / 2)%R with 0%R by field. rewrite exp_0. ring. }
    apply (is_RInt_derive (V := R_CompleteNormedModule) F).
    - intros u _. unfold F. auto_derive; [done|]. change ((- (- (1) * / 2 * exp (- u * / 2)))%R = (exp (- u / 2) / 2)%R). unfold Rdiv. field.
    - intros u _. apply (ex_derive_continuous (K := R_AbsRing) (V := R_NormedModule)). auto_derive. done. }
  unfold exact_percentile. rewrite percentile_exact_eq.
  rewrite (percentile_nodes _ half_exp) by (lra || intros u Hu; by apply density_two).
  split; [by apply percentile_half_lower|]. intros H. by apply percentile_half_upper.
Qed.
Print Assumptions C164_three_classes_partial.

(** With a test that has everything merged, with one that has nothing merged, and the two
    class case with assumptions that can be met. *)
Definition h_mixed : grid := h_grid [(1%Z, 0%N); (1%Z, 1%N); (2%Z, 0%N); (2%Z, 0%N); (3%Z, 1%N); (3%Z, 1%N)].
Example C164_ex :
  h_view (chi_merge h_show (chi_statistic (λ l, l) (λ l, l)) (λ _ _, false) h_mixed h_x 2 6) =
    [(Some 1, Some 1); (Some 2, None); (None, Some 2)] ∧
  h_view (chi_merge h_show (chi_statistic (λ l, l) (λ l, l)) (λ _ _, true) h_mixed h_x 2 6) =
    [(Some 3, Some 1); (None, Some 2)] ∧
  h_view (chi_merge h_show (chi_statistic (λ l, l) (λ l, l)) (chi_significant h_pow h_exp h_gamma h_rnd (float_of_Z 1))
            h_same h_x 2 6) = [(Some 1, Some 1); (Some 1, Some 1); (Some 1, Some 1)] ∧
  percentile_of (reals (λ x, x)) (λ u, 2 + 3 * u)%R 4%R = 32%R.
Proof.
  split; [vm_compute; reflexivity|]. split; [vm_compute; reflexivity|]. split; [vm_compute; reflexivity|].
  rewrite percentile_exact_eq.
  rewrite (percentile_ext _ (λ u, 2 * u ^ 0 + 3 * u ^ 1)%R) by (intros u; ring).
  rewrite percentile_linear, !percentile_pow by lia. cbn [INR pow]. cbn. field.
Qed.

(** ** C165 *)

(** All the pairs with the least statistic are merged at once: four intervals of one row
    become one, where at least two are asked for and three are allowed. *)
Definition h_four : grid := h_grid [(1%Z, 0%N); (2%Z, 1%N); (3%Z, 0%N); (4%Z, 1%N)].
Theorem C165_minimum_refuted : ∃ show inst a freq,
  build_freq show a inst = Ok freq ∧ length freq = 4 ∧
  ∀ significant, ∃ freq',
    chi_merge show (chi_statistic (λ l, l) (λ l, l)) significant inst a 2 3 = Ok freq' ∧ length freq' = 1.
Proof.
  exists h_show, h_four, h_x, (h_result (build_freq h_show h_x h_four)).
  split; [apply h_ok; vm_compute; reflexivity|]. split; [vm_compute; reflexivity|]. intros significant.
  assert (h_is_ok (chi_merge h_show (chi_statistic (λ l, l) (λ l, l)) significant h_four h_x 2 3) = true) as H1
    by (vm_compute; reflexivity).
  apply h_ok in H1. eexists. split; [exact H1|]. vm_compute. reflexivity.
Qed.
Print Assumptions C165_minimum_refuted.

(** If ties never occur, as many intervals remain as are asked for, or as there were. *)
Theorem C165_minimum_partial : ∀ show stat significant inst a minrows maxrows freq freq',
  build_freq show a inst = Ok freq →
  (∀ f, merged freq f → no_ties stat f) →
  chi_merge show stat significant inst a minrows maxrows = Ok freq' →
  Nat.max 2 minrows ≤ length freq → Nat.max 2 minrows ≤ length freq'.
Proof.
  intros show stat significant inst a minrows maxrows freq freq' Hb Ht Hm.
  destruct (rows_wanted minrows maxrows) as [<- _].
  unfold chi_merge in Hm. rewrite Hb in Hm. cbn [mbind res_bind] in Hm.
  destruct (chi_rows minrows maxrows) as [H1 H2]. by eapply loop_least.
Qed.
Print Assumptions C165_minimum_partial.

(** A statistic without ties: that of the values. *)
Definition h_stat (a b : freq_entry) : Q := inject_Z (Z.of_N (float64bits (fe_value a))).
Lemma h_nodup (l k : list N) : l `sublist_of` k → NoDup k → NoDup l.
Proof.
  induction 1 as [|x l k Hs IH|x l k Hs IH]; intros H; [done| |].
  - apply NoDup_cons in H as [Hx H]. apply NoDup_cons. split; [|by apply IH]. intros Hin. apply Hx.
    eapply elem_of_submseteq; [exact Hin|]. by apply sublist_submseteq.
  - apply NoDup_cons in H as [_ H]. by apply IH.
Qed.
Lemma h_no_ties freq f : NoDup (map (λ e, float64bits (fe_value e)) freq) → merged freq f → no_ties h_stat f.
Proof.
  intros Hn (_ & Hk & _) i j a b c d Ha _ Hc _ He. unfold h_stat in He. apply (proj1 (inject_Z_injective _ _)) in He.
  apply N2Z.inj in He.
  assert (NoDup (map (λ e, float64bits (fe_value e)) f)) as Hf.
  { unfold boundaries_kept in Hk. apply (fmap_sublist float64bits) in Hk. rewrite <- !list_fmap_compose in Hk || idtac.
    rewrite !map_map in Hk || idtac. exact (h_nodup _ _ Hk Hn). }
  eapply (NoDup_lookup _ i j (float64bits (fe_value a)) Hf).
  - rewrite list_lookup_fmap, Ha. done.
  - rewrite list_lookup_fmap, Hc, He. done.
Qed.
Example C165_ex :
  (∀ f, merged (h_result (build_freq h_show h_x h_four)) f → no_ties h_stat f) ∧
  h_view (chi_merge h_show h_stat (λ _ _, true) h_four h_x 2 6) = [(Some 2, Some 1); (None, Some 1)] ∧
  chi_minrows 0 = 2 ∧ chi_maxrows 5 3 = 6.
Proof.
  split; [|split; [vm_compute; reflexivity|split; reflexivity]].
  intros f. apply h_no_ties.
  apply (bool_decide_eq_true_1 (NoDup (map (λ e, float64bits (fe_value e)) (h_result (build_freq h_show h_x h_four))))).
  vm_compute. reflexivity.
Qed.
