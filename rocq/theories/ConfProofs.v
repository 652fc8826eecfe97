(** Proofs about confusion matrices. *)
From Coq Require Import QArith.
From Verif Require Import Prelude AttrModel StoreModel DenseModel DenseProofs GridModel
  GridSpec GridProofs ConfModel ConfSpec.
Local Open Scope nat_scope.

(** Sums over a map. *)
Definition msum {V} (f : string → V → nat) (m : gmap string V) : nat :=
  sum_list (map (λ kv, f kv.1 kv.2) (map_to_list m)).

Lemma sum_list_perm l1 l2 : l1 ≡ₚ l2 → sum_list l1 = sum_list l2.
Proof. induction 1; simpl; lia. Qed.

Lemma msum_empty {V} (f : string → V → nat) : msum f ∅ = 0.
Proof. unfold msum. by rewrite map_to_list_empty. Qed.

Lemma msum_insert_new {V} (f : string → V → nat) m k v :
  m !! k = None → msum f (<[k := v]> m) = f k v + msum f m.
Proof.
  intros Hk. unfold msum.
  rewrite (sum_list_perm _ (map (λ kv, f kv.1 kv.2) ((k, v) :: map_to_list m))).
  { done. }
  apply Permutation_map. by apply map_to_list_insert.
Qed.

Lemma msum_delete {V} (f : string → V → nat) m k v :
  m !! k = Some v → msum f m = f k v + msum f (delete k m).
Proof.
  intros Hk. rewrite <- (insert_delete m k v Hk) at 1.
  rewrite msum_insert_new; [done|]. apply lookup_delete.
Qed.

Lemma msum_update {V} (f : string → V → nat) m k v v' :
  m !! k = Some v → msum f (<[k := v']> m) + f k v = msum f m + f k v'.
Proof.
  intros Hk. rewrite (msum_delete f m k v Hk), (msum_delete f (<[k:=v']> m) k v').
  - rewrite delete_insert_delete. lia.
  - apply lookup_insert.
Qed.

Lemma msum_ext {V} (f g : string → V → nat) m :
  (∀ k v, m !! k = Some v → f k v = g k v) → msum f m = msum g m.
Proof.
  intros H. unfold msum. f_equal. apply map_ext_in.
  intros [k v] Hin. simpl. apply H. apply elem_of_map_to_list.
  by apply elem_of_list_In.
Qed.

Lemma msum_plus {V} (f g : string → V → nat) m :
  msum (λ k v, f k v + g k v) m = msum f m + msum g m.
Proof.
  unfold msum. induction (map_to_list m) as [|x l IH]; simpl; lia.
Qed.

Lemma msum_zero {V} (m : gmap string V) : msum (λ _ _, 0) m = 0.
Proof. unfold msum. induction (map_to_list m); simpl; lia. Qed.

(** A sum only one key contributes to. *)
Lemma msum_single {V} (f : V → nat) (m : gmap string V) c :
  msum (λ k v, if bool_decide (k = c) then f v else 0) m =
  match m !! c with Some v => f v | None => 0 end.
Proof.
  destruct (m !! c) as [v|] eqn:E.
  - rewrite (msum_delete _ m c v E). rewrite bool_decide_eq_true_2 by done.
    rewrite (msum_ext _ (λ _ _, 0)); [rewrite msum_zero; lia|].
    intros k w Hk. apply lookup_delete_Some in Hk as [Hne _].
    by rewrite bool_decide_eq_false_2 by congruence.
  - rewrite (msum_ext _ (λ _ _, 0)); [by rewrite msum_zero|].
    intros k w Hk. rewrite bool_decide_eq_false_2; [done|]. congruence.
Qed.

Lemma sum_over_sum l f : sum_over l f = sum_list (map f l).
Proof.
  unfold sum_over. enough (∀ a, foldl (λ acc k, acc + f k) a l = a + sum_list (map f l)) as H
    by apply H.
  induction l as [|x l IH]; intros a; simpl; [lia|]. rewrite IH. lia.
Qed.

Lemma sum_over_range {V} ko (m : gmap string V) (f : string → nat) :
  any_order ko → sum_over (range ko m) f = msum (λ k _, f k) m.
Proof.
  intros Hko. rewrite sum_over_sum. unfold range.
  rewrite (sum_list_perm _ (map f (map fst (map_to_list m)))).
  { rewrite map_map. done. }
  apply Permutation_map, Hko.
Qed.

(** Sum of the cells satisfying [P]. *)
Definition tot (P : string → string → bool) (c : cmatrix) : nat :=
  msum (λ r row, msum (λ g n, if P r g then n else 0) row) c.

Lemma tot_add P c r g :
  tot P (conf_add c r g) = tot P c + (if P r g then 1 else 0).
Proof.
  unfold conf_add, tot. destruct (c !! r) as [row|] eqn:E.
  - pose proof (msum_update (λ r row, msum (λ g n, if P r g then n else 0) row) c r row
      (<[g:=default 0 (row !! g) + 1]> row) E) as H. simpl in H.
    assert (msum (λ g n, if P r g then n else 0) (<[g:=default 0 (row !! g) + 1]> row)
      = msum (λ g n, if P r g then n else 0) row + (if P r g then 1 else 0)) as H2.
    { destruct (row !! g) as [n|] eqn:Eg; simpl.
      - pose proof (msum_update (λ g n, if P r g then n else 0) row g n (n+1) Eg) as H2.
        simpl in H2. destruct (P r g); lia.
      - rewrite msum_insert_new by done. destruct (P r g); lia. }
    lia.
  - rewrite msum_insert_new by done. simpl.
    rewrite <- (insert_empty g 1), msum_insert_new by apply lookup_empty.
    rewrite msum_empty. destruct (P r g); lia.
Qed.

(** The matrix of a list of (reference, generated) pairs. *)
Definition conf_of (ps : list (string * string)) : cmatrix :=
  foldl (λ m p, conf_add m p.1 p.2) ∅ ps.

Lemma conf_of_snoc ps p : conf_of (ps ++ [p]) = conf_add (conf_of ps) p.1 p.2.
Proof. unfold conf_of. by rewrite foldl_app. Qed.

Definition count_pairs (P : string → string → bool) (ps : list (string * string)) : nat :=
  length (filter (λ p, P p.1 p.2 = true) ps).

Lemma count_pairs_snoc P ps p :
  count_pairs P (ps ++ [p]) = count_pairs P ps + (if P p.1 p.2 then 1 else 0).
Proof.
  unfold count_pairs. rewrite filter_app, app_length. f_equal.
  destruct (P p.1 p.2) eqn:E.
  - by rewrite filter_cons_True.
  - rewrite filter_cons_False by congruence. done.
Qed.

Lemma tot_conf_of P ps : tot P (conf_of ps) = count_pairs P ps.
Proof.
  induction ps as [|p ps IH] using rev_ind.
  - apply msum_empty.
  - by rewrite conf_of_snoc, count_pairs_snoc, tot_add, IH.
Qed.

Lemma cell_add c r g r' g' :
  cell (conf_add c r g) r' g' =
  cell c r' g' + (if bool_decide (r = r' ∧ g = g') then 1 else 0).
Proof.
  unfold conf_add, cell. destruct (decide (r = r')) as [<-|Hr].
  - destruct (decide (g = g')) as [<-|Hg].
    + rewrite (bool_decide_eq_true_2 (r = r ∧ g = g)) by done.
      destruct (c !! r) as [row|] eqn:E; rewrite lookup_insert; simpl.
      * by rewrite lookup_insert.
      * by rewrite lookup_singleton, lookup_empty.
    + rewrite bool_decide_eq_false_2 by naive_solver.
      destruct (c !! r) as [row|] eqn:E; rewrite lookup_insert; simpl.
      * rewrite lookup_insert_ne by done. lia.
      * rewrite lookup_singleton_ne, lookup_empty by done. done.
  - rewrite bool_decide_eq_false_2 by naive_solver.
    destruct (c !! r) as [row|] eqn:E; rewrite lookup_insert_ne by done; lia.
Qed.

Lemma cell_conf_of ps r g :
  cell (conf_of ps) r g =
  count_pairs (λ a b, bool_decide (a = r) && bool_decide (b = g)) ps.
Proof.
  induction ps as [|p ps IH] using rev_ind.
  - unfold conf_of, cell. simpl. rewrite lookup_empty. simpl. by rewrite lookup_empty.
  - rewrite conf_of_snoc, count_pairs_snoc, cell_add, IH. f_equal.
    destruct (bool_decide_reflect (p.1 = r ∧ p.2 = g)) as [[-> ->]|H].
    + by rewrite !bool_decide_eq_true_2.
    + destruct (bool_decide_reflect (p.1 = r)); destruct (bool_decide_reflect (p.2 = g));
        naive_solver.
Qed.

(** The keys of the matrix are the reference labels. *)
Lemma conf_of_dom ps r : is_Some (conf_of ps !! r) ↔ ∃ g, (r, g) ∈ ps.
Proof.
  induction ps as [|[a b] ps IH] using rev_ind.
  - unfold conf_of. simpl. rewrite lookup_empty. split; [by intros []|].
    intros [g H]. by apply elem_of_nil in H.
  - rewrite conf_of_snoc. unfold conf_add. simpl.
    assert (is_Some (conf_of ps !! r) ∨ r = a ↔ ∃ g, (r, g) ∈ ps ++ [(a, b)]) as <-.
    { rewrite IH. split.
      - intros [[g H]| ->]; [exists g|exists b]; apply elem_of_app; [by left|right].
        apply elem_of_list_singleton. done.
      - intros [g H]. apply elem_of_app in H as [H|H]; [left; eauto|right].
        apply elem_of_list_singleton in H. congruence. }
    destruct (conf_of ps !! a) as [row|] eqn:E;
      (destruct (decide (r = a)) as [->|Hne];
        [rewrite lookup_insert; split; eauto
        |rewrite lookup_insert_ne by done; naive_solver]).
Qed.

(** The loop of GetConfusionMatrix. *)
Definition label_pairs (rl gl : nat → string) (n : nat) : list (string * string) :=
  map (λ i, (rl i, gl i)) (seq 0 n).

Lemma conf_loop show ref gen n c :
  res_foldl (λ m i, r ← get_class show ref i; p ← get_class show gen i;
    Ok (conf_add m r p)) ∅ (seq 0 n) = Ok c ↔
  ∃ rl gl, (∀ i, i < n → get_class show ref i = Ok (rl i) ∧ get_class show gen i = Ok (gl i)) ∧
    c = conf_of (label_pairs rl gl n).
Proof.
  revert c. induction n as [|n IH]; intros c.
  { simpl. split.
    - intros [= <-]. exists (λ _, ""), (λ _, ""). split; [lia|done].
    - intros (rl & gl & _ & ->). done. }
  rewrite seq_S, res_foldl_app, bind_Ok. split.
  - intros (m & Hm & H). apply IH in Hm as (rl & gl & Hl & ->).
    simpl in H. rewrite bind_Ok in H. destruct H as (m' & H & [= ->]).
    rewrite bind_Ok in H. destruct H as (r & Hr & H).
    rewrite bind_Ok in H. destruct H as (p & Hp & [= <-]).
    exists (λ i, if i =? n then r else rl i), (λ i, if i =? n then p else gl i). split.
    + intros i Hi. destruct (Nat.eqb_spec i n) as [->|Hne]; [done|]. apply Hl. lia.
    + unfold label_pairs. rewrite seq_S, map_app. cbn [map]. rewrite conf_of_snoc. simpl.
      rewrite Nat.eqb_refl. f_equal. f_equal. apply map_ext_in. intros i Hi.
      apply in_seq in Hi. destruct (Nat.eqb_spec i n); [lia|done].
  - intros (rl & gl & Hl & ->). exists (conf_of (label_pairs rl gl n)). split.
    { apply IH. exists rl, gl. split; [|done]. intros i Hi. apply Hl. lia. }
    destruct (Hl n) as [Hr Hg]; [lia|]. simpl. rewrite Hr. simpl. rewrite Hg. simpl.
    unfold label_pairs. rewrite seq_S, map_app. cbn [map]. by rewrite conf_of_snoc.
Qed.

Lemma confusion_inv show ref gen c :
  confusion_matrix show ref gen = Ok c ↔
  (gr_size ref).2 = (gr_size gen).2 ∧
  ∃ rl gl, (∀ i, i < (gr_size ref).2 →
      get_class show ref i = Ok (rl i) ∧ get_class show gen i = Ok (gl i)) ∧
    c = conf_of (label_pairs rl gl (gr_size ref).2).
Proof.
  unfold confusion_matrix. destruct (Nat.eqb_spec (gr_size ref).2 (gr_size gen).2).
  - rewrite conf_loop. naive_solver.
  - split; [done|]. naive_solver.
Qed.

Lemma count_pairs_rows P rl gl n :
  count_pairs P (label_pairs rl gl n) = count_rows n (λ i, P (rl i) (gl i)).
Proof.
  unfold count_pairs, count_rows, label_pairs.
  induction (seq 0 n) as [|i l IH]; [done|]. simpl map.
  destruct (P (rl i) (gl i)) eqn:E.
  - rewrite filter_cons_True by done.
    rewrite (filter_cons_True (λ i, P (rl i) (gl i) = true)) by done. simpl. by rewrite IH.
  - rewrite filter_cons_False by (simpl; congruence).
    rewrite (filter_cons_False (λ i, P (rl i) (gl i) = true)) by congruence. done.
Qed.

Lemma count_rows_ext n P Q :
  (∀ i, i < n → P i = Q i) → count_rows n P = count_rows n Q.
Proof.
  intros H. unfold count_rows. f_equal. apply list_filter_iff_strong || idtac.
  assert (∀ i, i ∈ seq 0 n → P i = Q i) as H'.
  { intros i Hi. apply elem_of_seq in Hi. apply H. lia. }
  clear H. induction (seq 0 n) as [|i l IH]; [done|].
  assert (P i = Q i) as E by (apply H'; left).
  destruct (Q i) eqn:EQ.
  - rewrite !filter_cons_True by congruence. f_equal. apply IH. intros j Hj. apply H'. by right.
  - rewrite !filter_cons_False by congruence. apply IH. intros j Hj. apply H'. by right.
Qed.

Lemma count_rows_le n P : count_rows n P ≤ n.
Proof.
  unfold count_rows. etrans; [apply filter_length|]. by rewrite seq_length.
Qed.

Lemma count_rows_all n : count_rows n (λ _, true) = n.
Proof.
  unfold count_rows. rewrite <- (seq_length n 0) at 2. f_equal.
  induction (seq 0 n) as [|i l IH]; [done|]. rewrite filter_cons_True by done. by rewrite IH.
Qed.

Lemma count_rows_split n P Q :
  count_rows n P = count_rows n (λ i, P i && Q i) + count_rows n (λ i, P i && negb (Q i)).
Proof.
  unfold count_rows. induction (seq 0 n) as [|i l IH]; [done|].
  destruct (P i) eqn:EP; destruct (Q i) eqn:EQ;
    repeat first [rewrite filter_cons_True by (rewrite ?EP, ?EQ; done)
      | rewrite filter_cons_False by (rewrite ?EP, ?EQ; done)]; simpl; lia.
Qed.

Lemma labelled_eq show g lab c i :
  get_class show g i = Ok lab → labelled show g c i = bool_decide (lab = c).
Proof. intros H. unfold labelled. rewrite H. apply bool_decide_ext. naive_solver. Qed.

Lemma entry_cell c r g : entry c r g = cell c r g.
Proof.
  unfold entry, cell. destruct (c !! r); simpl; [done|]. by rewrite lookup_empty.
Qed.

Lemma map_sum_tot (c : cmatrix) : map_sum (map_sum id) c = tot (λ _ _, true) c.
Proof. reflexivity. Qed.

(** *** C40 *)

Lemma confusion_cells show ref gen c :
  confusion_matrix show ref gen = Ok c →
  (gr_size ref).2 = (gr_size gen).2 ∧
  (∀ r g, entry c r g = count_rows (gr_size ref).2
     (λ i, labelled show ref r i && labelled show gen g i)) ∧
  map_sum (map_sum id) c = (gr_size ref).2.
Proof.
  intros H. apply confusion_inv in H as (Hn & rl & gl & Hl & ->). split; [done|]. split.
  - intros r g. rewrite entry_cell, cell_conf_of, count_pairs_rows. apply count_rows_ext.
    intros i Hi. destruct (Hl i Hi) as [Hr Hg].
    by rewrite (labelled_eq _ _ _ _ _ Hr), (labelled_eq _ _ _ _ _ Hg).
  - by rewrite map_sum_tot, tot_conf_of, count_pairs_rows, count_rows_all.
Qed.

Lemma confusion_total show ref gen :
  (gr_size ref).2 = (gr_size gen).2 →
  (∀ i, i < (gr_size ref).2 → ∃ a b,
     get_class show ref i = Ok a ∧ get_class show gen i = Ok b) →
  ∃ c, confusion_matrix show ref gen = Ok c.
Proof.
  intros Hn H. eexists. apply confusion_inv. split; [done|].
  exists (λ i, match get_class show ref i with Ok a => a | _ => "" end),
    (λ i, match get_class show gen i with Ok a => a | _ => "" end).
  split; [|reflexivity]. intros i Hi. destruct (H i Hi) as (a & b & -> & ->). done.
Qed.

Lemma confusion_mismatch show ref gen :
  (gr_size ref).2 ≠ (gr_size gen).2 → confusion_matrix show ref gen = Err.
Proof.
  intros H. unfold confusion_matrix. by rewrite (proj2 (Nat.eqb_neq _ _) H).
Qed.

(** *** C41: the four counts as sums of cells *)

Section counts.
  Context (ko : list string → list string) (Hko : any_order ko).

  Lemma row_sum (c : cmatrix) k row f :
    c !! k = Some row →
    sum_over (range ko (default ∅ (c !! k))) (λ l, f l (cell c k l)) =
    msum (λ l n, f l n) row.
  Proof.
    intros E. rewrite E. simpl. rewrite sum_over_range by done.
    apply msum_ext. intros l n Hn. unfold cell. rewrite E. simpl. by rewrite Hn.
  Qed.

  Lemma tp_tot class c :
    true_positives class c =
    tot (λ a b, bool_decide (a = class) && bool_decide (b = class)) c.
  Proof.
    unfold true_positives, tot, cell.
    transitivity (msum (λ r row, if bool_decide (r = class)
      then default 0 (row !! class) else 0) c).
    - rewrite (msum_single (λ row : gmap string nat, default 0 (row !! class))).
      destruct (c !! class); simpl; [done|]. by rewrite lookup_empty.
    - apply msum_ext. intros r row Hr. destruct (bool_decide (r = class)); simpl.
      + rewrite (msum_single id). by destruct (row !! class).
      + by rewrite msum_zero.
  Qed.

  Lemma fp_tot class c :
    false_positives ko class c =
    tot (λ a b, negb (bool_decide (a = class)) && bool_decide (b = class)) c.
  Proof.
    unfold false_positives, tot. rewrite sum_over_range by done.
    apply msum_ext. intros r row Hr. destruct (bool_decide (r = class)); simpl.
    - by rewrite msum_zero.
    - rewrite (msum_single id). unfold cell. rewrite Hr. simpl. by destruct (row !! class).
  Qed.

  Lemma fn_tot class c :
    false_negatives ko class c =
    tot (λ a b, bool_decide (a = class) && negb (bool_decide (b = class))) c.
  Proof.
    unfold false_negatives, tot.
    transitivity (msum (λ r row, if bool_decide (r = class)
      then msum (λ l n, if negb (bool_decide (l = class)) then n else 0) row else 0) c).
    - rewrite (msum_single (λ row : gmap string nat,
        msum (λ l n, if negb (bool_decide (l = class)) then n else 0) row)).
      destruct (c !! class) as [row|] eqn:E; simpl.
      + rewrite sum_over_range by done. apply msum_ext. intros l n Hn.
        unfold cell. rewrite E. simpl. rewrite Hn. simpl. by destruct (bool_decide (l = class)).
      + rewrite sum_over_range by done. apply msum_empty.
    - apply msum_ext. intros r row Hr. destruct (bool_decide (r = class)); simpl; [done|].
      by rewrite msum_zero.
  Qed.

  Lemma tn_tot class c :
    true_negatives ko class c =
    tot (λ a b, negb (bool_decide (a = class)) && negb (bool_decide (b = class))) c.
  Proof.
    unfold true_negatives, tot. rewrite sum_over_range by done.
    apply msum_ext. intros r row Hr. destruct (bool_decide (r = class)); simpl.
    - by rewrite msum_zero.
    - rewrite (row_sum c r row (λ l n, if bool_decide (l = class) then 0 else n) Hr).
      apply msum_ext. intros l n _. by destruct (bool_decide (l = class)).
  Qed.

  Lemma correct_tot c :
    sum_over (range ko c) (λ i, sum_over (range ko (default ∅ (c !! i)))
      (λ j, if bool_decide (i = j) then cell c i j else 0)) =
    tot (λ a b, bool_decide (a = b)) c.
  Proof.
    unfold tot. rewrite sum_over_range by done. apply msum_ext. intros r row Hr.
    apply (row_sum c r row (λ l n, if bool_decide (r = l) then n else 0) Hr).
  Qed.

  Lemma total_tot c :
    sum_over (range ko c) (λ i, sum_over (range ko (default ∅ (c !! i)))
      (λ j, cell c i j)) = tot (λ _ _, true) c.
  Proof.
    unfold tot. rewrite sum_over_range by done. apply msum_ext. intros r row Hr.
    apply (row_sum c r row (λ l n, n) Hr).
  Qed.

  Lemma tp_sum c :
    sum_over (range ko c) (λ k, true_positives k c) = tot (λ a b, bool_decide (a = b)) c.
  Proof.
    unfold tot. rewrite sum_over_range by done. apply msum_ext. intros r row Hr.
    unfold true_positives, cell. rewrite Hr. simpl.
    rewrite (msum_ext _ (λ k n, if bool_decide (k = r) then n else 0)).
    - rewrite (msum_single id). by destruct (row !! r).
    - intros k n _. by rewrite (bool_decide_ext (r = k) (k = r)) by (split; congruence).
  Qed.

  Lemma fn_sum c :
    sum_over (range ko c) (λ k, false_negatives ko k c) =
    tot (λ a b, negb (bool_decide (a = b))) c.
  Proof.
    unfold tot. rewrite sum_over_range by done. apply msum_ext. intros r row Hr.
    unfold false_negatives.
    rewrite (row_sum c r row (λ l n, if bool_decide (l = r) then 0 else n) Hr).
    apply msum_ext. intros k n _. rewrite (bool_decide_ext (r = k) (k = r)) by (split; congruence).
    by destruct (bool_decide (k = r)).
  Qed.

  Lemma tot_split P Q c :
    tot P c = tot (λ a b, P a b && Q a b) c + tot (λ a b, P a b && negb (Q a b)) c.
  Proof.
    unfold tot. rewrite <- msum_plus. apply msum_ext. intros r row _.
    rewrite <- msum_plus. apply msum_ext. intros g n _.
    destruct (P r g), (Q r g); simpl; lia.
  Qed.

  Lemma tot_le P c : tot P c ≤ tot (λ _ _, true) c.
  Proof. rewrite (tot_split (λ _ _, true) P). change (λ a b, true && P a b) with P. lia. Qed.
End counts.

Lemma four_counts show ref gen c ko class :
  confusion_matrix show ref gen = Ok c → any_order ko →
  let n := (gr_size ref).2 in
  let is_ref := labelled show ref class in
  let is_gen := labelled show gen class in
  true_positives class c = count_rows n (λ i, is_ref i && is_gen i) ∧
  false_positives ko class c = count_rows n (λ i, negb (is_ref i) && is_gen i) ∧
  false_negatives ko class c = count_rows n (λ i, is_ref i && negb (is_gen i)) ∧
  true_negatives ko class c = count_rows n (λ i, negb (is_ref i) && negb (is_gen i)) ∧
  true_positives class c + false_positives ko class c + false_negatives ko class c +
    true_negatives ko class c = n.
Proof.
  intros H Hko. apply confusion_inv in H as (Hn & rl & gl & Hl & ->). cbv zeta.
  rewrite tp_tot, fp_tot, fn_tot, tn_tot by done. rewrite !tot_conf_of, !count_pairs_rows.
  assert (∀ i, i < (gr_size ref).2 →
    labelled show ref class i = bool_decide (rl i = class) ∧
    labelled show gen class i = bool_decide (gl i = class)) as HL.
  { intros i Hi. destruct (Hl i Hi) as [Hr Hg].
    by rewrite (labelled_eq _ _ _ _ _ Hr), (labelled_eq _ _ _ _ _ Hg). }
  repeat split; try (apply count_rows_ext; intros i Hi; destruct (HL i Hi) as [-> ->]; done).
  pose proof (count_rows_split (gr_size ref).2 (λ i, true) (λ i, bool_decide (rl i = class))) as H1.
  pose proof (count_rows_split (gr_size ref).2 (λ i, bool_decide (rl i = class))
    (λ i, bool_decide (gl i = class))) as H2.
  pose proof (count_rows_split (gr_size ref).2 (λ i, negb (bool_decide (rl i = class)))
    (λ i, bool_decide (gl i = class))) as H3.
  rewrite count_rows_all in H1. simpl in *. lia.
Qed.

(** *** C42 *)

Lemma of_nat_zero n : (of_nat n == 0)%Q ↔ n = 0.
Proof.
  unfold of_nat. change 0%Q with (inject_Z 0). rewrite inject_Z_injective. lia.
Qed.

Lemma of_nat_plus a b : (of_nat a + of_nat b == of_nat (a + b))%Q.
Proof. unfold of_nat. rewrite <- inject_Z_plus. by rewrite Nat2Z.inj_add. Qed.

Lemma quotient_fraction a b q :
  (q == of_nat b)%Q → b ≠ 0 → is_number (quotient (of_nat a) q) (fraction a b).
Proof.
  intros Hq Hb. unfold quotient. destruct (Qeq_bool q 0) eqn:E.
  - apply Qeq_bool_eq in E. rewrite Hq in E. apply (proj1 (of_nat_zero b)) in E. done.
  - eexists. split; [done|]. unfold fraction, of_nat in *. by rewrite Hq.
Qed.

Lemma fraction_unit a b : a ≤ b → b ≠ 0 → in_unit (fraction a b).
Proof.
  intros Hab Hb. unfold in_unit, fraction.
  assert (0 < inject_Z (Z.of_nat b))%Q as Hp.
  { change 0%Q with (inject_Z 0). rewrite <- Zlt_Qlt. lia. }
  split.
  - apply Qle_shift_div_l; [done|]. rewrite Qmult_0_l. change 0%Q with (inject_Z 0).
    rewrite <- Zle_Qle. lia.
  - apply Qle_shift_div_r; [done|]. rewrite Qmult_1_l. rewrite <- Zle_Qle. lia.
Qed.

Lemma accuracy_fraction show ref gen c ko :
  confusion_matrix show ref gen = Ok c → any_order ko → (gr_size ref).2 ≠ 0 →
  let q := fraction (count_rows (gr_size ref).2 (agree show ref gen)) (gr_size ref).2 in
  is_number (accuracy ko c) q ∧ is_number (micro_recall ko c) q ∧ in_unit q.
Proof.
  intros H Hko Hne. apply confusion_inv in H as (Hn & rl & gl & Hl & ->). cbv zeta.
  assert (count_rows (gr_size ref).2 (agree show ref gen) =
    tot (λ a b, bool_decide (a = b)) (conf_of (label_pairs rl gl (gr_size ref).2))) as ->.
  { rewrite tot_conf_of, count_pairs_rows. apply count_rows_ext. intros i Hi.
    destruct (Hl i Hi) as [Hr Hg]. unfold agree. rewrite Hr, Hg.
    apply bool_decide_ext. split; congruence. }
  set (c := conf_of _).
  assert (tot (λ _ _, true) c = (gr_size ref).2) as Ht.
  { unfold c. by rewrite tot_conf_of, count_pairs_rows, count_rows_all. }
  split; [|split].
  - unfold accuracy. rewrite correct_tot, total_tot by done.
    apply quotient_fraction; [|done]. by rewrite Ht.
  - unfold micro_recall. rewrite tp_sum, fn_sum by done. apply quotient_fraction; [|done].
    rewrite of_nat_plus. rewrite <- Ht.
    rewrite (tot_split (λ _ _, true) (λ a b, bool_decide (a = b))). simpl. reflexivity.
  - apply fraction_unit; [|done]. rewrite <- Ht. apply tot_le.
Qed.

(** *** C43 *)

(** Sum over the reference classes of their false positives: the rows whose
    generated label is a reference label other than their own. *)
Lemma msum_swap {V W} (f : string → string → nat) (m : gmap string V) (m' : gmap string W) :
  msum (λ k _, msum (λ l _, f k l) m') m = msum (λ l _, msum (λ k _, f k l) m) m'.
Proof.
  unfold msum. induction (map_to_list m) as [|x l IH]; simpl.
  - symmetry. induction (map_to_list m'); simpl; lia.
  - rewrite IH. clear. induction (map_to_list m') as [|y l' IH]; simpl; [lia|].
    lia.
Qed.

Lemma fp_sum ko c :
  any_order ko →
  sum_over (range ko c) (λ k, false_positives ko k c) =
  tot (λ a b, negb (bool_decide (a = b)) && bool_decide (is_Some (c !! b))) c.
Proof.
  intros Hko. rewrite sum_over_range by done.
  rewrite (msum_ext _ (λ k _, msum (λ r _, if bool_decide (r = k) then 0 else cell c r k) c)).
  2:{ intros k row _. unfold false_positives. by rewrite sum_over_range by done. }
  rewrite msum_swap. unfold tot. apply msum_ext. intros r row Hr.
  transitivity (msum (λ k _, match row !! k with
    | Some n => if bool_decide (r = k) then 0 else n | None => 0 end) c).
  { apply msum_ext. intros k row' Hk. unfold cell. rewrite Hr. simpl.
    destruct (row !! k); simpl; by destruct (bool_decide (r = k)). }
  clear Hr Hko. revert row. apply map_ind.
  { rewrite msum_empty. rewrite (msum_ext _ (λ _ _, 0)), ?msum_zero; [done|].
    intros k v _. by rewrite lookup_empty. }
  intros g n row Hg IH. rewrite msum_insert_new by done. rewrite <- IH. clear IH.
  transitivity (msum (λ k _, (if bool_decide (k = g) then (if bool_decide (r = g) then 0 else n) else 0)
     + match row !! k with Some n => if bool_decide (r = k) then 0 else n | None => 0 end) c).
  { apply msum_ext. intros k row' _. destruct (bool_decide_reflect (k = g)) as [->|Hne].
    - rewrite lookup_insert, Hg. simpl. lia.
    - by rewrite lookup_insert_ne by done. }
  rewrite msum_plus. f_equal.
  rewrite (msum_single (λ _, if bool_decide (r = g) then 0 else n)).
  destruct (c !! g) as [w|] eqn:E.
  - rewrite (bool_decide_eq_true_2 (is_Some (Some w))) by eauto.
    by destruct (bool_decide (r = g)).
  - rewrite (bool_decide_eq_false_2 (is_Some None)) by (by intros []).
    by destruct (bool_decide (r = g)).
Qed.

Lemma micro_precision_fraction show ref gen c ko :
  confusion_matrix show ref gen = Ok c → any_order ko → (gr_size ref).2 ≠ 0 →
  (∀ i lab, i < (gr_size ref).2 → get_class show gen i = Ok lab →
     ∃ j, j < (gr_size ref).2 ∧ get_class show ref j = Ok lab) →
  let q := fraction (count_rows (gr_size ref).2 (agree show ref gen)) (gr_size ref).2 in
  is_number (micro_precision ko c) q.
Proof.
  intros H Hko Hne Hin. pose proof H as H0.
  apply confusion_inv in H as (Hn & rl & gl & Hl & ->). cbv zeta.
  assert (count_rows (gr_size ref).2 (agree show ref gen) =
    tot (λ a b, bool_decide (a = b)) (conf_of (label_pairs rl gl (gr_size ref).2))) as ->.
  { rewrite tot_conf_of, count_pairs_rows. apply count_rows_ext. intros i Hi.
    destruct (Hl i Hi) as [Hr Hg]. unfold agree. rewrite Hr, Hg.
    apply bool_decide_ext. split; congruence. }
  unfold micro_precision. rewrite tp_sum, fp_sum by done. apply quotient_fraction; [|done].
  rewrite of_nat_plus.
  assert (tot (λ _ _, true) (conf_of (label_pairs rl gl (gr_size ref).2)) = (gr_size ref).2) as Ht.
  { by rewrite tot_conf_of, count_pairs_rows, count_rows_all. }
  transitivity (of_nat (tot (λ _ _, true) (conf_of (label_pairs rl gl (gr_size ref).2))));
    [|by rewrite Ht].
  rewrite (tot_split (λ _ _, true) (λ a b, bool_decide (a = b))). simpl.
  match goal with |- (of_nat (_ + ?x) == of_nat (_ + ?y))%Q => assert (x = y) as -> end;
    [|reflexivity].
  rewrite !tot_conf_of, !count_pairs_rows. apply count_rows_ext. intros i Hi.
  rewrite (bool_decide_eq_true_2 (is_Some _)); [by rewrite andb_true_r|].
  apply conf_of_dom. destruct (Hl i Hi) as [_ Hg].
  destruct (Hin i (gl i) Hi Hg) as (j & Hj & Hlj). exists (gl j).
  destruct (Hl j Hj) as [Hrj _]. replace (gl i) with (rl j) by congruence.
  unfold label_pairs. apply elem_of_list_fmap. exists j. split; [done|].
  apply elem_of_seq. lia.
Qed.
