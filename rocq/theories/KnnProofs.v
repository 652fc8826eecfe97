(** Proofs about nearest-neighbour predictions. *)
From Coq Require Import QArith Lqa.
From stdpp Require Import functions.
From Verif Require Import Prelude AttrModel AttrProofs StoreModel DenseModel DenseSpec DenseProofs GridModel GridSpec
  GridProofs CsvModel PredModel PredProofs KdModel KdSpec HeapProofs KdProofs KnnModel KnnSpec.
Local Open Scope nat_scope.

(** ** Neighbours *)

Lemma run_rows_insert num (F : list Q → Q) rows (m : gmap nat Q) (val : nat → Q) :
  (∀ i fetch, (i, fetch) ∈ rows → ∃ buf v, fetch = Ok buf ∧ res_mapM num buf = Ok v ∧ F v = val i) →
  ∃ m', run_rows (λ m row i, v ← res_mapM num row; Ok (<[i := F v]> m, Cont)) m rows
      = Ok (m', false) ∧
    ∀ i, m' !! i = if bool_decide (i ∈ map fst rows) then Some (val i) else m !! i.
Proof.
  revert m. induction rows as [|[j fetch] rows IH]; intros m H.
  - exists m. split; [done|]. intros i. rewrite bool_decide_eq_false_2; [done|]. apply not_elem_of_nil.
  - destruct (H j fetch) as (buf & v & -> & Hv & Hj); [left|].
    cbn [run_rows]. cbn [mbind res_bind]. rewrite Hv. cbn [mbind res_bind].
    destruct (IH (<[j := F v]> m)) as (m' & -> & Hm').
    { intros i f Hi. apply H. by right. }
    exists m'. split; [done|]. intros i. rewrite Hm'. simpl.
    destruct (decide (i ∈ map fst rows)) as [Hi|Hi].
    + rewrite !bool_decide_eq_true_2; [done|by right|done].
    + rewrite (bool_decide_eq_false_2 _ Hi). destruct (decide (i = j)) as [->|Hne].
      * rewrite bool_decide_eq_true_2 by left. rewrite lookup_insert. by rewrite Hj.
      * rewrite bool_decide_eq_false_2 by (apply not_elem_of_cons; done).
        by rewrite lookup_insert_ne.
Qed.

Lemma linear_distances_ok num dist train tspecs target m feat :
  iter_agrees train → reads_features num train tspecs feat →
  (∀ i, is_Some (m !! i) → i < (gr_size train).2) →
  ∃ m', linear_distances num dist train tspecs target m = Ok m' ∧
    ∀ i, m' !! i = if i <? (gr_size train).2 then Some (dist target (feat i)) else None.
Proof.
  intros Hit Hread Hm. destruct (Hit tspecs) as (rows & Hrows & Hfst & Hfetch).
  unfold linear_distances, map_over_rows. rewrite Hrows.
  destruct (run_rows_insert num (dist target) rows m (λ i, dist target (feat i)))
    as (m' & Hrun & Hm').
  { intros i fetch Hi. rewrite (Hfetch i fetch Hi).
    destruct (Hread i) as (raws & -> & Hf); [|eauto].
    apply (elem_of_list_fmap_1 fst) in Hi. rewrite Hfst in Hi.
    apply elem_of_seq in Hi. simpl in Hi. lia. }
  rewrite Hrun. cbn [mbind res_bind]. exists m'. split; [done|]. intros i. rewrite Hm'.
  destruct (Nat.ltb_spec i (gr_size train).2) as [Hlt|Hge].
  - rewrite bool_decide_eq_true_2; [done|]. rewrite Hfst. apply elem_of_seq. lia.
  - rewrite bool_decide_eq_false_2 by (rewrite Hfst, elem_of_seq; lia).
    destruct (m !! i) eqn:E; [|done]. specialize (Hm i). rewrite E in Hm.
    assert (i < (gr_size train).2) by (by apply Hm). lia.
Qed.

Lemma strongly_sorted_app {A} (R : A → A → Prop) l1 l2 :
  StronglySorted R (l1 ++ l2) → StronglySorted R l1 ∧ ∀ x y, x ∈ l1 → y ∈ l2 → R x y.
Proof.
  induction l1 as [|a l1 IH]; simpl; intros H.
  - split; [constructor|]. intros x y Hx. by apply elem_of_nil in Hx.
  - apply StronglySorted_inv in H as [H Ha]. destruct (IH H) as [H1 H2].
    rewrite Forall_app in Ha. destruct Ha as [Ha1 Ha2]. split; [by constructor|].
    intros x y Hx Hy. apply elem_of_cons in Hx as [->|Hx]; [|by apply H2].
    rewrite Forall_forall in Ha2. by apply Ha2.
Qed.

Lemma strongly_sorted_ext {A} (R R' : A → A → Prop) l :
  (∀ x y, x ∈ l → y ∈ l → R x y → R' x y) → StronglySorted R l → StronglySorted R' l.
Proof.
  intros H Hs. induction Hs as [|a l Hs IH Ha]; constructor.
  - apply IH. intros x y Hx Hy. apply H; by right.
  - rewrite Forall_forall in *. intros y Hy. apply H; [left|by right|by apply Ha].
Qed.

Lemma sort_int_map_perm sorter io (m : gmap nat Q) d n :
  sorts sorter → any_order io →
  (∀ i, m !! i = if i <? n then Some (d i) else None) →
  sort_int_map sorter io m ≡ₚ seq 0 n ∧
  StronglySorted (λ a b, d a <= d b)%Q (sort_int_map sorter io m).
Proof.
  intros Hs Hio Hm. unfold sort_int_map.
  destruct (Hs (λ i, default 0%Q (m !! i)) (io (map fst (map_to_list m)))) as [Hp Hso].
  assert (sorter (λ i, default 0%Q (m !! i)) (io (map fst (map_to_list m))) ≡ₚ seq 0 n) as Hp'.
  { rewrite Hp, Hio. apply NoDup_Permutation; [apply NoDup_fst_map_to_list|apply NoDup_seq|].
    intros i. rewrite elem_of_list_fmap, elem_of_seq. split.
    - intros ([j q] & -> & Hj). apply elem_of_map_to_list in Hj. simpl. rewrite Hm in Hj.
      destruct (Nat.ltb_spec j n); [lia|done].
    - intros Hi. exists (i, d i). split; [done|]. apply elem_of_map_to_list. rewrite Hm.
      by rewrite (proj2 (Nat.ltb_lt i n)) by lia. }
  split; [done|]. revert Hso. apply strongly_sorted_ext. intros x y Hx Hy.
  rewrite Hp', elem_of_seq in Hx, Hy. rewrite !Hm.
  rewrite !(proj2 (Nat.ltb_lt _ n)) by lia. done.
Qed.

Lemma neighbours_ok sorter io k (m : gmap nat Q) d n :
  sorts sorter → any_order io →
  (∀ i, m !! i = if i <? n then Some (d i) else None) →
  (k ≤ n → ∃ ns, neighbours sorter io k m = Ok ns ∧ nearest_rows d n k ns) ∧
  (n < k → neighbours sorter io k m = Panic).
Proof.
  intros Hs Hio Hm. destruct (sort_int_map_perm sorter io m d n Hs Hio Hm) as [Hp Hso].
  unfold neighbours. pose proof (Permutation_length Hp) as Hl. rewrite seq_length in Hl.
  split; intros Hk.
  - rewrite (proj2 (Nat.leb_le k _)) by lia. eexists. split; [reflexivity|].
    set (l := sort_int_map sorter io m) in *.
    assert (NoDup l) as Hnd by (rewrite Hp; apply NoDup_seq).
    rewrite <- (take_drop k l) in Hso, Hnd. apply strongly_sorted_app in Hso as [Hso Hle].
    apply NoDup_app in Hnd as (Hnd & _ & _).
    split; [rewrite take_length; lia|]. split; [done|]. split; [|split; [done|]].
    + intros r Hr. assert (r ∈ l) as Hr' by (rewrite <- (take_drop k l); apply elem_of_app; by left).
      rewrite Hp, elem_of_seq in Hr'. lia.
    + intros r s Hr Hnin Hin. apply Hle; [done|].
      assert (r ∈ l) as Hr' by (rewrite Hp, elem_of_seq; lia).
      rewrite <- (take_drop k l) in Hr'. by apply elem_of_app in Hr' as [?|?].
  - by rewrite (proj2 (Nat.leb_gt k _)) by lia.
Qed.

(** ** Votes *)

Lemma vote_winner_spec l :
  l ≠ [] → ∃ n, (vote_winner l, n) ∈ l ∧ ∀ kv, kv ∈ l → kv.2 ≤ n.
Proof.
  intros Hne. unfold vote_winner.
  set (f := λ (best : string * Z) (kv : string * nat), if (best.2 <? Z.of_nat kv.2)%Z then (kv.1, Z.of_nat kv.2) else best).
  assert (∀ l, (foldl f ("", -1)%Z l = ("", -1)%Z ∧ l = []) ∨
    ∃ c n, foldl f ("", -1)%Z l = (c, Z.of_nat n) ∧ (c, n) ∈ l ∧ ∀ kv, kv ∈ l → kv.2 ≤ n) as H.
  { clear l Hne. intros l. induction l as [|[c n] l IH] using rev_ind; [by left|]. right.
    rewrite foldl_app. cbn [foldl].
    destruct IH as [[-> ->]|(c0 & n0 & -> & Hin & Hmax)].
    - exists c, n. unfold f. cbn [fst snd]. rewrite (proj2 (Z.ltb_lt _ _)) by lia.
      split; [done|]. split; [left|]. intros kv Hkv. apply elem_of_list_singleton in Hkv as ->. done.
    - unfold f. cbn [fst snd]. destruct (Z.ltb_spec (Z.of_nat n0) (Z.of_nat n)) as [Hlt|Hge].
      + exists c, n. split; [done|]. split; [apply elem_of_app; right; left|].
        intros kv Hkv. apply elem_of_app in Hkv as [Hkv|Hkv].
        * specialize (Hmax _ Hkv). lia.
        * apply elem_of_list_singleton in Hkv as ->. done.
      + exists c0, n0. split; [done|]. split; [apply elem_of_app; by left|].
        intros kv Hkv. apply elem_of_app in Hkv as [Hkv|Hkv]; [by apply Hmax|].
        apply elem_of_list_singleton in Hkv as ->. simpl. lia. }
  destruct (H l) as [[_ ->]|(c & n & -> & Hin & Hmax)]; [done|]. exists n. done.
Qed.

Lemma votes_cons label r ns c :
  votes label (r :: ns) c = (if bool_decide (label r = c) then 1 else 0) + votes label ns c.
Proof.
  unfold votes. destruct (decide (label r = c)).
  - rewrite filter_cons_True, bool_decide_eq_true_2 by done. done.
  - rewrite filter_cons_False, bool_decide_eq_false_2 by done. done.
Qed.

Lemma votes_in label ns c : 1 ≤ votes label ns c → c ∈ map label ns.
Proof.
  unfold votes. intros H. destruct (filter _ ns) as [|r l] eqn:E; [simpl in H; lia|].
  assert (r ∈ filter (λ r, label r = c) ns) as Hr by (rewrite E; left).
  apply elem_of_list_filter in Hr as [<- Hr]. by apply elem_of_list_fmap_1.
Qed.

Lemma vote_fold show train (label : nat → string) m ns :
  (∀ r, r ∈ ns → get_class show train r = Ok (label r)) →
  ∃ m', res_foldl (λ m e, l ← get_class show train e; Ok (count_up m l)) m ns = Ok m' ∧
    ∀ c, m' !! c = if bool_decide (c ∈ map label ns) || bool_decide (is_Some (m !! c))
                   then Some (default 0 (m !! c) + votes label ns c) else None.
Proof.
  revert m. induction ns as [|r ns IH]; intros m H.
  - exists m. split; [done|]. intros c. cbn [map].
    change (votes label [] c) with 0. rewrite Nat.add_0_r.
    destruct (m !! c) eqn:E.
    + rewrite (bool_decide_eq_true_2 (is_Some _)) by eauto. by rewrite orb_true_r.
    + rewrite (bool_decide_eq_false_2 (is_Some _)) by (by intros [? ?]).
      rewrite bool_decide_eq_false_2 by apply not_elem_of_nil. done.
  - cbn [res_foldl]. rewrite (H r) by left. cbn [mbind res_bind].
    destruct (IH (count_up m (label r))) as (m' & -> & Hm').
    { intros s Hs. apply H. by right. }
    exists m'. split; [done|]. intros c. rewrite Hm', votes_cons. unfold count_up.
    cbn [map]. destruct (decide (c = label r)) as [->|Hne].
    + rewrite lookup_insert. rewrite (bool_decide_eq_true_2 (is_Some _)) by eauto.
      rewrite orb_true_r. rewrite (bool_decide_eq_true_2 (label r = label r)) by done.
      rewrite (bool_decide_eq_true_2 (label r ∈ _)) by left. cbn [orb default]. f_equal. unfold id. lia.
    + rewrite lookup_insert_ne by done. rewrite (bool_decide_eq_false_2 (label r = c)) by done.
      rewrite Nat.add_0_l.
      rewrite (bool_decide_ext (c ∈ label r :: map label ns) (c ∈ map label ns)); [done|].
      rewrite elem_of_cons. naive_solver.
Qed.

Lemma vote_ok show vo train (label : nat → string) m ns :
  any_order vo → ns ≠ [] →
  (∀ r, r ∈ ns → get_class show train r = Ok (label r)) →
  ∃ m' c, vote show vo train m ns = Ok (m', c) ∧ majority label ns c.
Proof.
  intros Hvo Hne H. unfold vote.
  destruct (vote_fold show train label ((λ _, 0) <$> m) ns H) as (m' & -> & Hm').
  cbn [mbind res_bind]. eexists _, _. split; [reflexivity|].
  assert (∀ c, m' !! c = if bool_decide (c ∈ map label ns) || bool_decide (is_Some (m !! c))
    then Some (votes label ns c) else None) as Hv.
  { intros c. rewrite Hm', lookup_fmap.
    destruct (m !! c) eqn:E; cbn [fmap option_fmap option_map default].
    - rewrite !(bool_decide_eq_true_2 (is_Some _)) by eauto. rewrite orb_true_r. done.
    - rewrite !(bool_decide_eq_false_2 (is_Some _)) by (by intros [? ?]). done. }
  assert (∀ r, r ∈ ns → m' !! label r = Some (votes label ns (label r))) as Hin.
  { intros r Hr. rewrite Hv. rewrite bool_decide_eq_true_2 by (by apply elem_of_list_fmap_1). done. }
  destruct (vote_winner_spec (vo (map_to_list m'))) as (n & Hw & Hmax).
  { destruct ns as [|r ns]; [done|]. specialize (Hin r ltac:(left)).
    apply elem_of_map_to_list in Hin. rewrite <- (Hvo (map_to_list m')) in Hin.
    intros E. rewrite E in Hin. by apply elem_of_nil in Hin. }
  apply (perm_in _ _ _ (Hvo (map_to_list m'))), elem_of_map_to_list in Hw.
  rewrite Hv in Hw. destruct (_ || _); [|done]. injection Hw as Hw.
  assert (∀ c', votes label ns c' ≤ votes label ns (vote_winner (vo (map_to_list m')))) as Hall.
  { intros c'. rewrite Hw. destruct (decide (1 ≤ votes label ns c')) as [H1|H1]; [|lia].
    apply votes_in in H1. apply elem_of_list_fmap in H1 as (r & -> & Hr).
    specialize (Hin r Hr). apply elem_of_map_to_list in Hin.
    rewrite <- (Hvo (map_to_list m')) in Hin. by specialize (Hmax _ Hin). }
  split; [|done]. apply votes_in. destruct ns as [|r ns]; [done|].
  specialize (Hall (label r)). rewrite votes_cons, bool_decide_eq_true_2 in Hall by done. lia.
Qed.

(** ** Weighted votes *)

Definition weq (a b : weight) : Prop :=
  match a, b with Some x, Some y => (x == y)%Q | None, None => True | _, _ => False end.

Global Instance weq_equiv : Equivalence weq.
Proof.
  split.
  - intros [x|]; simpl; [apply Qeq_refl|done].
  - intros [x|] [y|]; simpl; try done; try apply Qeq_sym.
  - intros [x|] [y|] [z|]; simpl; try done. intros H1 H2. by rewrite H1.
Qed.

Lemma weight_gt_at_most a b : weight_gt a b = false ↔ at_most a b.
Proof.
  destruct a as [x|], b as [y|]; simpl; try done. apply qlt_false.
Qed.

Lemma at_most_weq a a' b b' : weq a a' → weq b b' → at_most a b → at_most a' b'.
Proof.
  destruct a, a', b, b'; simpl; try done. intros H1 H2. by rewrite H1, H2.
Qed.

Lemma at_most_trans a b c : at_most a b → at_most b c → at_most a c.
Proof. destruct a, b, c; simpl; try done. apply Qle_trans. Qed.

Lemma weight_gt_trans a b c : at_most a b → weight_gt c b = true → at_most a c.
Proof.
  destruct a, b, c; simpl; try done. intros H1 H2. apply qlt_spec in H2. lra.
Qed.

Definition wsum (label : nat → string) (dist_to : nat → Q) (c : string) (ns : list nat) : weight :=
  foldr (λ r w, if bool_decide (label r = c) then weight_add (weight_of (dist_to r)) w else w)
    (Some 0%Q) ns.

Lemma wsum_total label dist_to c ns :
  weq (wsum label dist_to c ns) (total_weight label dist_to ns c).
Proof.
  induction ns as [|r ns IH]; simpl; [done|]. unfold total_weight in *.
  destruct (decide (label r = c)) as [E|E].
  - rewrite bool_decide_eq_true_2, filter_cons_True by done. cbn [existsb foldr].
    unfold weight_of. destruct (Qeq_bool (dist_to r) 0) eqn:Ez; cbn [orb weight_add].
    + done.
    + destruct (wsum _ _ _ _) as [x|]; destruct (existsb _ _); simpl in *; try done.
      rewrite IH. unfold Qdiv. by rewrite Qmult_1_l.
  - by rewrite bool_decide_eq_false_2, filter_cons_False by done.
Qed.

Lemma weight_add_assoc a b c : weq (weight_add (weight_add a b) c) (weight_add a (weight_add b c)).
Proof. destruct a, b, c; simpl; try done. by rewrite Qplus_assoc. Qed.

Lemma weight_add_weq a a' b b' : weq a a' → weq b b' → weq (weight_add a b) (weight_add a' b').
Proof. destruct a, a', b, b'; simpl; try done. intros H1 H2. by rewrite H1, H2. Qed.

Definition wstep (show : nat → N → string) (train : grid) (m : gmap string weight) (e : nat) (len : Q)
    : res (gmap string weight) :=
  label ← get_class show train e;
  Ok (match m !! label with
      | Some w => <[label := weight_add w (weight_of len)]> m
      | None => <[label := weight_of len]> m
      end).

Lemma wstep_eq show train m e len :
  wstep show train m e len =
  (label ← get_class show train e;
   Ok (match m !! label with
       | Some w => <[label := weight_add w (weight_of len)]> m
       | None => <[label := weight_of len]> m
       end)).
Proof. done. Qed.

Lemma wfold_zip show train m values lengths pre lens :
  lens = pre ++ lengths → length values = length lengths →
  res_foldl (λ m '(k, e),
      label ← get_class show train e;
      len ← idx lens k;
      Ok (match m !! label with
          | Some w => <[label := weight_add w (weight_of len)]> m
          | None => <[label := weight_of len]> m
          end)) m (imap (λ i x, (length pre + i, x)) values)
  = res_foldl (λ m '(e, len), wstep show train m e len) m (zip values lengths).
Proof.
  revert pre m lengths. induction values as [|v values IH]; intros pre m lengths -> Hl;
    destruct lengths as [|len lengths]; try done.
  cbn [imap zip zip_with res_foldl]. rewrite Nat.add_0_r.
  rewrite (wstep_eq show train m v len). destruct (get_class show train v) as [lab| |]; cbn [mbind res_bind]; try done.
  assert (idx (pre ++ len :: lengths) (length pre) = Ok len) as ->
    by (by apply idx_some, list_lookup_middle).
  cbn [mbind res_bind].
  specialize (IH (pre ++ [len]) (match m !! lab with
    | Some w => <[lab := weight_add w (weight_of len)]> m
    | None => <[lab := weight_of len]> m end) lengths).
  rewrite <- IH by (by rewrite <- ?app_assoc || (simpl in Hl; lia)).
  f_equal. apply imap_ext. intros i x _. cbn. rewrite app_length. simpl. f_equal. lia.
Qed.

Lemma wfold_ok show train label dist_to m ns :
  (∀ r, r ∈ ns → get_class show train r = Ok (label r)) →
  ∃ m', res_foldl (λ m '(e, len), wstep show train m e len) m (zip ns (map dist_to ns)) = Ok m' ∧
    ∀ c, match m' !! c with
         | Some w => weq w (weight_add (default (Some 0%Q) (m !! c)) (wsum label dist_to c ns)) ∧
             (c ∈ map label ns ∨ is_Some (m !! c))
         | None => c ∉ map label ns ∧ m !! c = None
         end.
Proof.
  revert m. induction ns as [|r ns IH]; intros m H.
  - exists m. split; [done|]. intros c. destruct (m !! c) as [w|] eqn:E; simpl.
    + split; [|right; eauto]. destruct w; simpl; [|done]. ring.
    + split; [apply not_elem_of_nil|done].
  - cbn [map zip zip_with res_foldl]. rewrite (wstep_eq show train m r). rewrite (H r) by left.
    cbn [mbind res_bind].
    set (m1 := match m !! label r with
      | Some w => <[label r := weight_add w (weight_of (dist_to r))]> m
      | None => <[label r := weight_of (dist_to r)]> m end).
    destruct (IH m1) as (m' & -> & Hm').
    { intros s Hs. apply H. by right. }
    exists m'. split; [done|]. intros c. specialize (Hm' c). cbn [map wsum foldr].
    fold (wsum label dist_to c ns).
    pose proof (elem_of_cons (map label ns) c (label r)) as Hcons.
    destruct (decide (c = label r)) as [->|Hne].
    + assert (∃ w, m1 !! label r = Some w ∧
        weq w (weight_add (default (Some 0%Q) (m !! label r)) (weight_of (dist_to r)))) as (w1 & E1 & Hw1).
      { unfold m1. destruct (m !! label r) as [w|] eqn:E; rewrite lookup_insert; eexists;
          (split; [reflexivity|]); simpl.
        - reflexivity.
        - unfold weight_of. destruct (Qeq_bool _ _); simpl; [done|]. ring. }
      rewrite E1 in Hm'. destruct (m' !! label r) as [w|]; [|naive_solver].
      destruct Hm' as [Hw _]. split; [|naive_solver]. rewrite bool_decide_eq_true_2 by done.
      etransitivity; [exact Hw|]. cbn [default]. unfold id.
      etransitivity; [apply weight_add_weq; [exact Hw1|reflexivity]|].
      apply weight_add_assoc.
    + rewrite bool_decide_eq_false_2 by done.
      assert (m1 !! c = m !! c) as E1.
      { unfold m1. destruct (m !! label r); by rewrite lookup_insert_ne. }
      rewrite E1 in Hm'. destruct (m' !! c); naive_solver.
Qed.

Lemma weight_winner_spec l :
  (∃ kv, kv ∈ l ∧ weight_gt kv.2 (Some (-1 # 1)) = true) →
  ∃ w, (weight_winner l, w) ∈ l ∧ ∀ kv, kv ∈ l → at_most kv.2 w.
Proof.
  intros Hex. unfold weight_winner.
  set (f := λ (best kv : string * weight), if weight_gt kv.2 best.2 then kv else best).
  set (init := ("" : string, Some (-1 # 1) : weight)).
  assert (∀ l, (foldl f init l = init ∨ foldl f init l ∈ l) ∧
    (∀ kv, kv ∈ l → at_most kv.2 (foldl f init l).2) ∧ at_most init.2 (foldl f init l).2) as H.
  { clear. intros l. induction l as [|kv l IH] using rev_ind.
    { split; [by left|]. split; [|simpl; lra]. intros kv Hkv. by apply elem_of_nil in Hkv. }
    rewrite foldl_app. cbn [foldl]. destruct IH as (H1 & H2 & H3).
    set (b := foldl f init l) in *.
    assert (f b kv = if weight_gt kv.2 b.2 then kv else b) as -> by done.
    destruct (weight_gt kv.2 b.2) eqn:E.
    - split; [right; apply elem_of_app; right; left|]. split.
      + intros kv' Hkv'. apply elem_of_app in Hkv' as [Hkv'|Hkv'].
        * eapply weight_gt_trans; [by apply H2|done].
        * apply elem_of_list_singleton in Hkv' as ->. by destruct kv.2; simpl; [lra|].
      + eapply weight_gt_trans; [exact H3|done].
    - split; [destruct H1 as [H1|H1]; [by left|right; apply elem_of_app; by left]|].
      split; [|done]. intros kv' Hkv'. apply elem_of_app in Hkv' as [Hkv'|Hkv']; [by apply H2|].
      apply elem_of_list_singleton in Hkv' as ->. by apply weight_gt_at_most. }
  destruct (H l) as (H1 & H2 & H3). destruct H1 as [H1|H1].
  - exfalso. destruct Hex as (kv & Hkv & Hgt). specialize (H2 kv Hkv). rewrite H1 in H2.
    apply weight_gt_at_most in H2. simpl in H2. congruence.
  - exists (foldl f init l).2. rewrite <- surjective_pairing. done.
Qed.

Lemma wsum_positive label dist_to c ns :
  (∀ r, r ∈ ns → (0 <= dist_to r)%Q) →
  at_most (Some 0%Q) (wsum label dist_to c ns) ∧
  (c ∈ map label ns → weight_gt (wsum label dist_to c ns) (Some 0%Q) = true) ∧
  (c ∉ map label ns → wsum label dist_to c ns = Some 0%Q).
Proof.
  induction ns as [|r ns IH]; intros H.
  - split; [simpl; lra|]. split; [intros Hc; by apply elem_of_nil in Hc|done].
  - destruct IH as (H1 & H2 & H3); [intros s Hs; apply H; by right|].
    cbn [map wsum foldr]. fold (wsum label dist_to c ns).
    assert (0 <= dist_to r)%Q as Hr by (apply H; left).
    destruct (decide (label r = c)) as [E|E].
    + rewrite bool_decide_eq_true_2 by done.
      assert (weight_gt (weight_add (weight_of (dist_to r)) (wsum label dist_to c ns)) (Some 0%Q) = true) as Hpos.
      { unfold weight_of. destruct (Qeq_bool (dist_to r) 0) eqn:Ez; [done|].
        assert (0 < dist_to r)%Q as Hlt.
        { apply Qle_lteq in Hr as [?|Hz]; [done|]. symmetry in Hz.
          apply Qeq_eq_bool in Hz. congruence. }
        destruct (wsum label dist_to c ns) as [x|]; simpl in *; [|done].
        apply qlt_spec. unfold Qdiv. rewrite Qmult_1_l.
        pose proof (Qinv_lt_0_compat _ Hlt). lra. }
      split; [|split].
      * destruct (weight_add _ _); simpl in *; [|done]. apply qlt_spec in Hpos. lra.
      * done.
      * intros Hc. exfalso. apply Hc. rewrite E. left.
    + rewrite bool_decide_eq_false_2 by done. split; [done|]. rewrite elem_of_cons. naive_solver.
Qed.

Lemma weighted_vote_ok show wo train label dist_to m ns :
  any_order wo → ns ≠ [] → (∀ r, r ∈ ns → (0 <= dist_to r)%Q) →
  (∀ r, r ∈ ns → get_class show train r = Ok (label r)) →
  ∃ m' c, weighted_vote show wo train m ns (map dist_to ns) = Ok (m', c) ∧
    heaviest label dist_to ns c.
Proof.
  intros Hwo Hne Hpos H. unfold weighted_vote.
  rewrite (imap_ext pair (λ i x, (length (@nil Q) + i, x))) by done.
  rewrite (wfold_zip show train _ ns (map dist_to ns) [] _) by (done || by rewrite map_length).
  destruct (wfold_ok show train label dist_to ((λ _, Some 0%Q) <$> m) ns H) as (m' & -> & Hm').
  cbn [mbind res_bind]. eexists _, _. split; [reflexivity|].
  assert (∀ c, match m' !! c with
    | Some w => weq w (wsum label dist_to c ns)
    | None => c ∉ map label ns end) as Hv.
  { intros c. specialize (Hm' c). rewrite lookup_fmap in Hm'.
    destruct (m' !! c) as [w|]; [|by destruct Hm'].
    destruct Hm' as [Hw _]. etransitivity; [exact Hw|].
    destruct (m !! c); cbn [fmap option_fmap option_map default]; unfold id;
      destruct (wsum label dist_to c ns); simpl; try done; ring. }
  assert (∀ r, r ∈ ns → ∃ w, m' !! label r = Some w ∧ weight_gt w (Some 0%Q) = true) as Hin.
  { intros r Hr. specialize (Hv (label r)).
    assert (label r ∈ map label ns) as Hl by (by apply elem_of_list_fmap_1).
    destruct (m' !! label r) as [w|]; [|done]. exists w. split; [done|].
    pose proof (proj1 (proj2 (wsum_positive label dist_to (label r) ns Hpos)) Hl) as Hg.
    destruct w, (wsum _ _ _ _); simpl in *; try done.
    apply qlt_spec. apply qlt_spec in Hg. by rewrite Hv. }
  destruct (weight_winner_spec (wo (map_to_list m'))) as (w & Hw & Hmax).
  { destruct ns as [|r ns']; [done|]. destruct (Hin r ltac:(left)) as (w & Hw & Hg).
    exists (label r, w). split.
    - rewrite (Hwo (map_to_list m')). by apply elem_of_map_to_list.
    - destruct w; simpl in *; [|done]. apply qlt_spec in Hg. apply qlt_spec.
      assert ((-1 # 1) < 0)%Q by reflexivity. lra. }
  apply (perm_in _ _ _ (Hwo (map_to_list m'))), elem_of_map_to_list in Hw.
  set (c := weight_winner (wo (map_to_list m'))) in *. clearbody c.
  pose proof (Hv c) as Hc. rewrite Hw in Hc.
  assert (∀ c', at_most (wsum label dist_to c' ns) (wsum label dist_to c ns)) as Hall.
  { intros c'. pose proof (Hv c') as Hc'. destruct (m' !! c') as [w'|] eqn:E.
    - assert (at_most w' w) as Hle.
      { apply (Hmax (c', w')). rewrite (Hwo (map_to_list m')). by apply elem_of_map_to_list. }
      by eapply at_most_weq.
    - rewrite (proj2 (proj2 (wsum_positive label dist_to c' ns Hpos)) Hc').
      apply (wsum_positive label dist_to c ns Hpos). }
  split.
  - destruct (decide (c ∈ map label ns)) as [|Hnot]; [done|]. exfalso.
    destruct ns as [|r ns']; [done|]. specialize (Hall (label r)).
    rewrite (proj2 (proj2 (wsum_positive label dist_to c _ Hpos)) Hnot) in Hall.
    apply weight_gt_at_most in Hall.
    rewrite (proj1 (proj2 (wsum_positive label dist_to (label r) _ Hpos))) in Hall; [done|]. left.
  - intros c'. eapply at_most_weq; [apply wsum_total|apply wsum_total|apply Hall].
Qed.

(** ** Predictions *)

Section predict.
  Context (num : list N → res Q) (show : nat → N → string)
    (parse : string → option Bits.binary64)
    (sorter : (nat → Q) → list nat → list nat) (io : list nat → list nat)
    (vo : list (string * nat) → list (string * nat))
    (wo : list (string * weight) → list (string * weight))
    (co : list ((nat * nat) * bool) → list ((nat * nat) * bool)) (pg : nat).
  Context (Hsort : sorts sorter) (Hio : any_order io) (Hvo : any_order vo) (Hwo : any_order wo)
    (Hco : any_order co).
  Context (train what : grid) (name : string) (vs : list string)
    (label : nat → string) (Hlabel : reads_labels show train vs label).
  Let n := (gr_size train).2.
  Let m := (gr_size what).2.

  Lemma classify_ok weighted st lab row ns dist_to :
    labels_predicted pg name vs m lab (ks_ret st) → row < m → ns ≠ [] →
    (∀ r, r ∈ ns → r < n) → (weighted = true → ∀ r, r ∈ ns → (0 <= dist_to r)%Q) →
    ∃ st' c, classify show parse vo wo co weighted train st row ns (map dist_to ns) = Ok st' ∧
      labels_predicted pg name vs m (<[row := Some c]> lab) (ks_ret st') ∧
      ks_dists st' = ks_dists st ∧ elected weighted label dist_to ns c.
  Proof.
    intros Hret Hrow Hne Hlt Hpos. unfold classify.
    assert (∀ r, r ∈ ns → get_class show train r = Ok (label r)) as Hcls.
    { intros r Hr. by apply Hlabel, Hlt. }
    assert (∀ c, c ∈ map label ns → c ∈ vs) as Hvs.
    { intros c Hc. apply elem_of_list_fmap in Hc as (r & -> & Hr). by apply Hlabel, Hlt. }
    destruct weighted.
    - destruct (weighted_vote_ok show wo train label dist_to (ks_weights st) ns Hwo Hne (Hpos eq_refl) Hcls)
        as (m' & c & -> & Hc). cbn [mbind res_bind fst snd].
      destruct (labels_predicted_set parse co pg name vs m lab (ks_ret st) row c Hco Hret Hrow)
        as (d' & -> & Hd'); [apply Hvs, Hc|].
      cbn [mbind res_bind]. eexists _, c. split; [reflexivity|]. done.
    - destruct (vote_ok show vo train label (ks_votes st) ns Hvo Hne Hcls) as (m' & c & -> & Hc).
      cbn [mbind res_bind fst snd].
      destruct (labels_predicted_set parse co pg name vs m lab (ks_ret st) row c Hco Hret Hrow)
        as (d' & -> & Hd'); [apply Hvs, Hc|].
      cbn [mbind res_bind]. eexists _, c. split; [reflexivity|]. done.
  Qed.

  Context (Hclass : gr_class_attrs what = [CatA name vs])
    (Hvs : (N.of_nat (length vs) < 2^63)%N)
    (Hwit : iter_agrees what) (Htit : iter_agrees train).
  Context (attrs : list attr) (wspecs tspecs : list spec)
    (Hattrs : knn_features what train = Ok attrs)
    (Hwspecs : resolve what attrs = Ok wspecs) (Htspecs : resolve train attrs = Ok tspecs)
    (wfeat tfeat : nat → list Q)
    (Hwf : reads_features num what wspecs wfeat) (Htf : reads_features num train tspecs tfeat).
  Context (distance_of : string → option (list Q → list Q → Q)) (distfunc : string)
    (dist : list Q → list Q → Q) (Hdist : distance_of distfunc = Some dist).

  Lemma fetch_row rows i fetch :
    map fst rows ≡ₚ seq 0 m →
    (∀ i fetch, (i, fetch) ∈ rows → fetch = res_mapM (λ a, gr_get what a i) wspecs) →
    (i, fetch) ∈ rows →
    i < m ∧ ∃ raws, fetch = Ok raws ∧ res_mapM num raws = Ok (wfeat i).
  Proof using Hwf.
    clear -Hwf.
    intros Hfst Hf Hi. assert (i < m) as Hlt.
    { apply (elem_of_list_fmap_1 fst) in Hi. rewrite Hfst in Hi. apply elem_of_seq in Hi.
      simpl in Hi. lia. }
    split; [done|]. rewrite (Hf i fetch Hi). destruct (Hwf i Hlt) as (raws & -> & ?). eauto.
  Qed.

  Lemma linear_predict_ok weighted k :
    1 ≤ k ≤ n → (weighted = true → ∀ i r, i < m → r < n → (0 <= dist (wfeat i) (tfeat r))%Q) →
    ∃ ret, knn_predict num show parse sorter io vo wo co pg distance_of distfunc "linear" k
        weighted train what = Ok ret ∧ (dense_size ret).2 = m ∧
      ∀ order i, class_order ret order → i < m →
        ∃ ns c, nearest_rows (λ r, dist (wfeat i) (tfeat r)) n k ns ∧
          elected weighted label (λ r, dist (wfeat i) (tfeat r)) ns c ∧
          get_class show (dense_grid order ret) i = Ok c.
  Proof.
    intros Hk Hpos. unfold knn_predict. rewrite Hdist.
    rewrite (bool_decide_eq_true_2 ("linear" = "linear")), (bool_decide_eq_false_2 ("linear" = "kdtree")) by done.
    cbn [negb andb]. rewrite Hattrs. cbn [mbind res_bind].
    destruct (labels_predicted_new pg what name vs Hclass) as (d0 & -> & Hd0).
    cbn [mbind res_bind]. rewrite Hwspecs, Htspecs. cbn [mbind res_bind].
    destruct (Hwit wspecs) as (rows & Hrows & Hfst & Hfetch).
    unfold map_over_rows. rewrite Hrows.
    destruct (run_rows_labels
      (linear_row num show parse sorter io vo wo co dist k weighted train tspecs)
      (λ st lab, labels_predicted pg name vs m lab (ks_ret st) ∧
         ∀ i, is_Some (ks_dists st !! i) → i < n)
      (λ i c, ∃ ns, nearest_rows (λ r, dist (wfeat i) (tfeat r)) n k ns ∧
          elected weighted label (λ r, dist (wfeat i) (tfeat r)) ns c)
      rows (KnnState ∅ ∅ ∅ d0) (λ _, None)) as (st & lab & -> & [Hret _] & Hin & _).
    { intros i fetch st lab Hi [Hlab Hdom].
      destruct (fetch_row rows i fetch Hfst Hfetch Hi) as (Hlt & raws & -> & Hraws).
      exists raws. unfold linear_row. rewrite Hraws. cbn [mbind res_bind].
      destruct (linear_distances_ok num dist train tspecs (wfeat i) (ks_dists st) tfeat Htit Htf Hdom)
        as (dm & -> & Hdm). cbn [mbind res_bind].
      destruct (neighbours_ok sorter io k dm (λ r, dist (wfeat i) (tfeat r)) n Hsort Hio Hdm) as [Hnb _].
      destruct Hnb as (ns & -> & Hns); [lia|]. cbn [mbind res_bind].
      assert (map (λ v, default 0%Q (dm !! v)) ns = map (λ r, dist (wfeat i) (tfeat r)) ns) as ->.
      { apply map_ext_in. intros r Hr. apply elem_of_list_In in Hr. rewrite Hdm.
        rewrite (proj2 (Nat.ltb_lt r _)); [done|]. by apply Hns. }
      destruct (classify_ok weighted (KnnState dm (ks_votes st) (ks_weights st) (ks_ret st)) lab i ns
        (λ r, dist (wfeat i) (tfeat r))) as (st' & c & -> & Hst' & Hd' & Hc).
      { done. } { done. }
      { destruct Hns as (Hl & _). intros ->. simpl in Hl. lia. }
      { apply Hns. }
      { intros Hw r Hr. apply Hpos; [done..|]. by apply Hns. }
      cbn [mbind res_bind]. exists st', c. split; [done|]. split; [done|]. split; [|eauto].
      split; [done|]. intros j [q Hj]. rewrite Hd' in Hj. cbn [ks_dists] in Hj. rewrite Hdm in Hj.
      destruct (Nat.ltb_spec j (gr_size train).2); [done|congruence]. }
    { split; [done|]. intros j [q Hj]. cbn [ks_dists] in Hj. by rewrite lookup_empty in Hj. }
    cbn [mbind res_bind fst]. exists (ks_ret st). split; [done|]. split.
    { destruct Hret as [(_ & Hmr & _) _]. done. }
    intros order i Ho Hi. destruct (Hin i) as (c & Hc & ns & Hns & Hel).
    { rewrite Hfst. apply elem_of_seq. unfold m in Hi. lia. }
    exists ns, c. split; [done|]. split; [done|]. by eapply labels_predicted_get.
  Qed.

  (** Too many neighbours: no prediction unless there is no row to predict. *)
  Lemma linear_too_many weighted k :
    n < k → m ≠ 0 →
    knn_predict num show parse sorter io vo wo co pg distance_of distfunc "linear" k
        weighted train what = Panic.
  Proof.
    intros Hk Hm. unfold knn_predict. rewrite Hdist.
    rewrite (bool_decide_eq_true_2 ("linear" = "linear")), (bool_decide_eq_false_2 ("linear" = "kdtree")) by done.
    cbn [negb andb]. rewrite Hattrs. cbn [mbind res_bind].
    destruct (labels_predicted_new pg what name vs Hclass) as (d0 & -> & Hd0).
    cbn [mbind res_bind]. rewrite Hwspecs, Htspecs. cbn [mbind res_bind].
    destruct (Hwit wspecs) as (rows & Hrows & Hfst & Hfetch).
    unfold map_over_rows at 1. rewrite Hrows.
    destruct rows as [|[i fetch] rows].
    { apply Permutation_length in Hfst. rewrite seq_length in Hfst. simpl in Hfst. done. }
    destruct (fetch_row _ i fetch Hfst Hfetch) as (Hlt & raws & -> & Hraws); [left|].
    enough (linear_row num show parse sorter io vo wo co dist k weighted train tspecs
      (KnnState ∅ ∅ ∅ d0) raws i = Panic) as Hp.
    { cbn [run_rows]. cbn [mbind res_bind]. by rewrite Hp. }
    unfold linear_row. rewrite Hraws. cbn [mbind res_bind ks_dists].
    destruct (linear_distances_ok num dist train tspecs (wfeat i) ∅ tfeat Htit Htf)
      as (dm & -> & Hdm).
    { intros j [q Hj]. by rewrite lookup_empty in Hj. }
    cbn [mbind res_bind].
    destruct (neighbours_ok sorter io k dm (λ r, dist (wfeat i) (tfeat r)) n Hsort Hio Hdm) as [_ Hnb].
    by rewrite Hnb.
  Qed.

  (** *** With the k-d tree *)

  Lemma run_rows_collect rows acc :
    (∀ i fetch, (i, fetch) ∈ rows → ∃ buf, fetch = Ok buf ∧ res_mapM num buf = Ok (tfeat i)) →
    run_rows (λ (acc : list nat * list (list Q)) row i,
        v ← res_mapM num row; Ok ((acc.1 ++ [i], acc.2 ++ [v]), Cont)) acc rows
    = Ok ((acc.1 ++ map fst rows, acc.2 ++ map tfeat (map fst rows)), false).
  Proof using Type.
    revert acc. induction rows as [|[i fetch] rows IH]; intros acc H.
    - simpl. rewrite !app_nil_r. by destruct acc.
    - destruct (H i fetch) as (buf & -> & Hb); [left|].
      cbn [run_rows]. cbn [mbind res_bind]. rewrite Hb. cbn [mbind res_bind].
      rewrite IH by (intros j f Hj; apply H; by right).
      cbn [fst snd map]. by rewrite <- !app_assoc.
  Qed.

  Lemma tree_rows_ok :
    ∃ srcs, tree_rows num train tspecs = Ok (srcs, map tfeat srcs) ∧ srcs ≡ₚ seq 0 n.
  Proof using Htit Htf.
    clear -Htit Htf.
    destruct (Htit tspecs) as (rows & Hrows & Hfst & Hfetch).
    unfold tree_rows, map_over_rows. rewrite Hrows.
    rewrite run_rows_collect.
    { cbn [mbind res_bind fst snd app]. eauto. }
    intros i fetch Hi. rewrite (Hfetch i fetch Hi).
    destruct (Htf i) as (raws & -> & ?); [|eauto].
    apply (elem_of_list_fmap_1 fst) in Hi. rewrite Hfst in Hi. apply elem_of_seq in Hi.
    simpl in Hi. lia.
  Qed.

  Lemma nearest_to_rows srcs target k out :
    srcs ≡ₚ seq 0 n → nearest dist (map tfeat srcs) target k out →
    ∃ ns, res_mapM (λ v, idx srcs v.2) out = Ok ns ∧
      map fst out = map (λ r, dist target (tfeat r)) ns ∧
      nearest_rows (λ r, dist target (tfeat r)) n k ns.
  Proof.
    intros Hp (Hl & Hnd & Hval & Hso & Hno).
    assert (NoDup srcs) as Hnds by (rewrite Hp; apply NoDup_seq).
    assert (∀ x, x ∈ out → ∃ r, srcs !! x.2 = Some r ∧ x.1 = dist target (tfeat r)) as Hx.
    { intros [l j] Hx. destruct (Hval l j Hx) as (v & Hv & ->).
      rewrite list_lookup_fmap in Hv. destruct (srcs !! j) as [r|] eqn:E; [|done].
      injection Hv as <-. by exists r. }
    assert (∃ ns, Forall2 (λ x r, srcs !! x.2 = Some r ∧ x.1 = dist target (tfeat r)) out ns) as [ns Hns].
    { clear -Hx. induction out as [|x out IH]; [by exists []|].
      destruct (Hx x) as (r & Hr); [left|]. destruct IH as [ns Hns]; [intros y Hy; apply Hx; by right|].
      exists (r :: ns). by constructor. }
    exists ns. split.
    { apply res_mapM_Ok. eapply Forall2_impl; [exact Hns|]. intros x r [Hr _]. by apply idx_Ok. }
    split.
    { clear -Hns. induction Hns as [|x r out ns [_ H] Hns IH]; [done|]. simpl. by f_equal. }
    assert (∀ r, r ∈ ns → ∃ x, x ∈ out ∧ srcs !! x.2 = Some r ∧ x.1 = dist target (tfeat r)) as Hback.
    { intros r Hr. apply elem_of_list_lookup in Hr as [i Hi].
      destruct (Forall2_lookup_r _ _ _ _ _ Hns Hi) as (x & Hxi & Hxr).
      exists x. split; [by eapply elem_of_list_lookup_2|done]. }
    split; [by rewrite <- (Forall2_length _ _ _ Hns)|]. split.
    { clear -Hns Hnd Hnds. induction Hns as [|x r out ns [H _] Hns IH]; [constructor|].
      simpl in Hnd. apply NoDup_cons in Hnd as [Hnot Hnd]. constructor; [|by apply IH].
      intros Hin. apply Hnot. apply elem_of_list_lookup in Hin as [i Hi].
      destruct (Forall2_lookup_r _ _ _ _ _ Hns Hi) as (y & Hy & Hys & _).
      apply elem_of_list_fmap. exists y. split; [|by eapply elem_of_list_lookup_2].
      by eapply NoDup_lookup. }
    split; [|split].
    - intros r Hr. destruct (Hback r Hr) as (x & _ & Hxr & _).
      assert (r ∈ srcs) as Hin by (by eapply elem_of_list_lookup_2).
      rewrite Hp, elem_of_seq in Hin. lia.
    - clear -Hns Hso. induction Hns as [|x r out ns [_ H] Hns IH]; constructor.
      + apply IH. by apply StronglySorted_inv in Hso as [? _].
      + apply StronglySorted_inv in Hso as [_ Hall]. rewrite Forall_forall in *. intros s Hs.
        apply elem_of_list_lookup in Hs as [i Hi].
        destruct (Forall2_lookup_r _ _ _ _ _ Hns Hi) as (y & Hy & _ & Hyd).
        rewrite <- H, <- Hyd. exact (proj1 (Forall_forall _ _) Hall y (elem_of_list_lookup_2 _ _ _ Hy)).
    - intros r s Hr Hnot Hs. destruct (Hback s Hs) as (x & Hx' & Hxs & <-).
      assert (r ∈ srcs) as Hin by (rewrite Hp, elem_of_seq; lia).
      apply elem_of_list_lookup in Hin as [j Hj].
      apply (Hno j (tfeat r)); [by rewrite list_lookup_fmap, Hj| |done].
      intros Hjin. apply elem_of_list_fmap in Hjin as (y & -> & Hy).
      apply Hnot. apply elem_of_list_lookup in Hy as [i Hi].
      destruct (Forall2_lookup_l _ _ _ _ _ Hns Hi) as (r' & Hr' & Hyr & _).
      assert (r' = r) as -> by congruence. by eapply elem_of_list_lookup_2.
  Qed.

  Lemma tree_predict_ok weighted k d :
    1 ≤ k ≤ n → 1 ≤ d → (∀ r, r < n → length (tfeat r) = d) → (∀ i, i < m → length (wfeat i) = d) →
    plane_bound dist d →
    (∀ i r, i < m → r < n → (dist (wfeat i) (tfeat r) < dist (wfeat i) (repeat 0%Q d))%Q) →
    (weighted = true → ∀ i r, i < m → r < n → (0 <= dist (wfeat i) (tfeat r))%Q) →
    ∃ ret, knn_predict num show parse sorter io vo wo co pg distance_of distfunc "kdtree" k
        weighted train what = Ok ret ∧ (dense_size ret).2 = m ∧
      ∀ order i, class_order ret order → i < m →
        ∃ ns c, nearest_rows (λ r, dist (wfeat i) (tfeat r)) n k ns ∧
          elected weighted label (λ r, dist (wfeat i) (tfeat r)) ns c ∧
          get_class show (dense_grid order ret) i = Ok c.
  Proof.
    intros Hk Hd Hlt Hlw Hplane Hfar Hpos. unfold knn_predict. rewrite Hdist.
    rewrite (bool_decide_eq_false_2 ("kdtree" = "linear")), (bool_decide_eq_true_2 ("kdtree" = "kdtree")) by done.
    cbn [negb andb]. rewrite Hattrs. cbn [mbind res_bind].
    destruct (labels_predicted_new pg what name vs Hclass) as (d0 & -> & Hd0).
    cbn [mbind res_bind]. rewrite Hwspecs, Htspecs. cbn [mbind res_bind].
    destruct tree_rows_ok as (srcs & -> & Hsrcs). cbn [mbind res_bind fst snd].
    assert (rectangular_data (map tfeat srcs) d) as Hrect.
    { intros v Hv. apply elem_of_list_fmap in Hv as (r & -> & Hr).
      apply Hlt. rewrite Hsrcs, elem_of_seq in Hr. lia. }
    destruct (kd_build_ok sorter (map tfeat srcs) d Hsort Hrect Hd) as (t & Hb & _).
    { intros E. apply (f_equal length) in E. rewrite map_length, Hsrcs, seq_length in E.
      simpl in E. lia. }
    rewrite Hb. cbn [mbind res_bind].
    destruct (Hwit wspecs) as (rows & Hrows & Hfst & Hfetch).
    unfold map_over_rows. rewrite Hrows.
    destruct (run_rows_labels
      (tree_row num show parse vo wo co dist k weighted train t srcs (map tfeat srcs))
      (λ st lab, labels_predicted pg name vs m lab (ks_ret st))
      (λ i c, ∃ ns, nearest_rows (λ r, dist (wfeat i) (tfeat r)) n k ns ∧
          elected weighted label (λ r, dist (wfeat i) (tfeat r)) ns c)
      rows (KnnState ∅ ∅ ∅ d0) (λ _, None)) as (st & lab & -> & Hret & Hin & _).
    { intros i fetch st lab Hi Hlab.
      destruct (fetch_row rows i fetch Hfst Hfetch Hi) as (Hlti & raws & -> & Hraws).
      exists raws. unfold tree_row. rewrite Hraws. cbn [mbind res_bind].
      destruct (kd_search_nearest sorter dist (map tfeat srcs) d t k (wfeat i) Hsort Hrect Hd Hplane Hb) 
        as (out & -> & Hout).
      { by apply Hlw. }
      { rewrite map_length, Hsrcs, seq_length. done. }
      { right. intros v Hv. apply elem_of_list_fmap in Hv as (r & -> & Hr).
        apply Hfar; [done|]. rewrite Hsrcs, elem_of_seq in Hr. lia. }
      destruct (nearest_to_rows srcs (wfeat i) k out Hsrcs Hout) as (ns & -> & -> & Hns).
      cbn [mbind res_bind].
      destruct (classify_ok weighted st lab i ns
        (λ r, dist (wfeat i) (tfeat r))) as (st' & c & -> & Hst' & Hd' & Hc).
      { done. } { done. }
      { destruct Hns as (Hl & _). intros ->. simpl in Hl. lia. }
      { apply Hns. }
      { intros Hw r Hr. apply Hpos; [done..|]. by apply Hns. }
      cbn [mbind res_bind]. exists st', c. split; [done|]. split; [done|]. split; [done|eauto]. }
    { done. }
    cbn [mbind res_bind fst]. exists (ks_ret st). split; [done|]. split.
    { destruct Hret as [(_ & Hmr & _) _]. done. }
    intros order i Ho Hi. destruct (Hin i) as (c & Hc & ns & Hns & Hel).
    { rewrite Hfst. apply elem_of_seq. unfold m in Hi. lia. }
    exists ns, c. split; [done|]. split; [done|]. by eapply labels_predicted_get.
  Qed.
End predict.

(** ** More about predictions *)

Lemma knn_inputs_features num show train what vs label tfeat wfeat :
  knn_inputs num show train what vs label tfeat wfeat →
  knn_features what train = Ok (filter (λ a, is_float a = true) (gr_all_attrs what)).
Proof.
  intros [Hsize Hsame (a & Ha & Hna) _ _ _ _ _ _ _]. unfold knn_features, check_compatible.
  assert (length (attr_intersect (gr_all_attrs what) (gr_all_attrs train)) = length (gr_all_attrs what))
    as Hl by (by apply attr_intersect_full).
  rewrite Hl, <- Hsize, !Nat.eqb_refl. cbn [negb]. rewrite (attr_intersect_id _ _ Hl).
  destruct (Nat.eqb_spec (length (filter (λ a, is_float a = true) (gr_all_attrs what)))
    (length (gr_all_attrs what))) as [E|E]; [|done].
  exfalso. assert (length (filter (λ a, is_float a = true) (gr_all_attrs what)) < length (gr_all_attrs what)); [|lia].
  clear -Ha Hna. induction Ha as [a l|a b l Ha IH].
  - rewrite filter_cons_False by congruence. pose proof (filter_length (λ a, is_float a = true) l).
    simpl. lia.
  - destruct (decide (is_float b = true)).
    + rewrite filter_cons_True by done. simpl. specialize (IH Hna). lia.
    + rewrite filter_cons_False by done. simpl. specialize (IH Hna). lia.
Qed.

Lemma knn_linear num show parse sorter io vo wo co pg train what vs label tfeat wfeat distance_of
    distfunc dist weighted k :
  sorts sorter → any_order io → any_order vo → any_order wo → any_order co →
  knn_inputs num show train what vs label tfeat wfeat → distance_of distfunc = Some dist →
  let n := (gr_size train).2 in let m := (gr_size what).2 in
  1 ≤ k ≤ n → (weighted = true → ∀ i r, i < m → r < n → (0 <= dist (wfeat i) (tfeat r))%Q) →
  ∃ ret, knn_predict num show parse sorter io vo wo co pg distance_of distfunc "linear" k
      weighted train what = Ok ret ∧ (dense_size ret).2 = m ∧
    ∀ order i, class_order ret order → i < m →
      ∃ ns c, nearest_rows (λ r, dist (wfeat i) (tfeat r)) n k ns ∧
        elected weighted label (λ r, dist (wfeat i) (tfeat r)) ns c ∧
        get_class show (dense_grid order ret) i = Ok c.
Proof.
  intros Hs Hio Hvo Hwo Hco H Hd n m Hk Hpos. pose proof (knn_inputs_features _ _ _ _ _ _ _ _ H).
  destruct H as [_ _ _ [name Hc] Hv Hwit Htit (ws & Hws & Hwf) (ts & Hts & Htf) Hlab].
  by eapply linear_predict_ok.
Qed.

Lemma knn_linear_too_many num show parse sorter io vo wo co pg train what vs label tfeat wfeat distance_of
    distfunc dist weighted k :
  sorts sorter → any_order io →
  knn_inputs num show train what vs label tfeat wfeat → distance_of distfunc = Some dist →
  (gr_size train).2 < k → (gr_size what).2 ≠ 0 →
  knn_predict num show parse sorter io vo wo co pg distance_of distfunc "linear" k
      weighted train what = Panic.
Proof.
  intros Hs Hio H Hd Hk Hpos. pose proof (knn_inputs_features _ _ _ _ _ _ _ _ H).
  destruct H as [_ _ _ [name Hc] Hv Hwit Htit (ws & Hws & Hwf) (ts & Hts & Htf) Hlab].
  by eapply linear_too_many.
Qed.

Lemma knn_tree num show parse sorter io vo wo co pg train what vs label tfeat wfeat distance_of
    distfunc dist weighted k d :
  sorts sorter → any_order vo → any_order wo → any_order co →
  knn_inputs num show train what vs label tfeat wfeat → distance_of distfunc = Some dist →
  let n := (gr_size train).2 in let m := (gr_size what).2 in
  1 ≤ k ≤ n → 1 ≤ d → (∀ r, r < n → length (tfeat r) = d) → (∀ i, i < m → length (wfeat i) = d) →
  plane_bound dist d →
  (∀ i r, i < m → r < n → (dist (wfeat i) (tfeat r) < dist (wfeat i) (repeat 0%Q d))%Q) →
  (weighted = true → ∀ i r, i < m → r < n → (0 <= dist (wfeat i) (tfeat r))%Q) →
  ∃ ret, knn_predict num show parse sorter io vo wo co pg distance_of distfunc "kdtree" k
      weighted train what = Ok ret ∧ (dense_size ret).2 = m ∧
    ∀ order i, class_order ret order → i < m →
      ∃ ns c, nearest_rows (λ r, dist (wfeat i) (tfeat r)) n k ns ∧
        elected weighted label (λ r, dist (wfeat i) (tfeat r)) ns c ∧
        get_class show (dense_grid order ret) i = Ok c.
Proof.
  intros Hs Hvo Hwo Hco H Hd n m Hk Hpos. pose proof (knn_inputs_features _ _ _ _ _ _ _ _ H).
  destruct H as [_ _ _ [name Hc] Hv Hwit Htit (ws & Hws & Hwf) (ts & Hts & Htf) Hlab].
  by eapply tree_predict_ok.
Qed.

(** With the k-d tree, a [k] above the number of training rows ends the iteration at
    the first row: every row keeps the first value of the class attribute. *)
Lemma knn_tree_too_many num show parse sorter io vo wo co pg train what v vs label tfeat wfeat
    distance_of distfunc dist weighted k d :
  sorts sorter →
  knn_inputs num show train what (v :: vs) label tfeat wfeat → distance_of distfunc = Some dist →
  let n := (gr_size train).2 in let m := (gr_size what).2 in
  1 ≤ n → n < k → 1 ≤ d → (∀ r, r < n → length (tfeat r) = d) →
  ∃ ret, knn_predict num show parse sorter io vo wo co pg distance_of distfunc "kdtree" k
      weighted train what = Ok ret ∧ (dense_size ret).2 = m ∧
    ∀ order i, class_order ret order → i < m → get_class show (dense_grid order ret) i = Ok v.
Proof.
  intros Hs H Hdist n m Hn Hk Hd Hlt. pose proof (knn_inputs_features _ _ _ _ _ _ _ _ H) as Hattrs.
  destruct H as [_ _ _ [name Hc] Hv Hwit Htit (ws & Hws & Hwf) (ts & Hts & Htf) Hlab].
  unfold knn_predict. rewrite Hdist.
  rewrite (bool_decide_eq_false_2 ("kdtree" = "linear")), (bool_decide_eq_true_2 ("kdtree" = "kdtree")) by done.
  cbn [negb andb]. rewrite Hattrs. cbn [mbind res_bind].
  destruct (labels_predicted_new pg what name (v :: vs) Hc) as (d0 & -> & Hd0).
  cbn [mbind res_bind]. rewrite Hws, Hts. cbn [mbind res_bind].
  destruct (tree_rows_ok num train Htit ts tfeat Htf) as (srcs & -> & Hsrcs). cbn [mbind res_bind fst snd].
  assert (rectangular_data (map tfeat srcs) d) as Hrect.
  { intros w Hw. apply elem_of_list_fmap in Hw as (r & -> & Hr).
    apply Hlt. rewrite Hsrcs, elem_of_seq in Hr. lia. }
  assert (length (map tfeat srcs) = n) as Hlen by (by rewrite map_length, Hsrcs, seq_length).
  assert (map tfeat srcs ≠ []) as Hne.
  { intros E. rewrite E in Hlen. simpl in Hlen. lia. }
  destruct (kd_build_ok sorter (map tfeat srcs) d Hs Hrect Hd Hne) as (t & Hb & _).
  rewrite Hb. cbn [mbind res_bind].
  destruct (Hwit ws) as (rows & Hrows & Hfst & Hfetch).
  unfold map_over_rows. rewrite Hrows.
  assert (∃ b, run_rows (tree_row num show parse vo wo co dist k weighted train t srcs (map tfeat srcs))
    (KnnState ∅ ∅ ∅ d0) rows = Ok (KnnState ∅ ∅ ∅ d0, b)) as [b ->].
  { destruct rows as [|[i fetch] rows]; [by eexists|].
    destruct (fetch_row num what ws wfeat Hwf _ i fetch Hfst Hfetch) as (Hlti & raws & -> & Hraws); [left|].
    enough (tree_row num show parse vo wo co dist k weighted train t srcs (map tfeat srcs)
      (KnnState ∅ ∅ ∅ d0) raws i = Ok (KnnState ∅ ∅ ∅ d0, Fail)) as Hp.
    { eexists. cbn [run_rows]. cbn [mbind res_bind]. by rewrite Hp. }
    unfold tree_row. rewrite Hraws. cbn [mbind res_bind].
    rewrite (kd_search_errors dist (map tfeat srcs) t k (wfeat i) d); [done..|]. left. lia. }
  cbn [mbind res_bind fst ks_ret]. exists d0. split; [done|]. split.
  { destruct Hd0 as [(_ & Hmr & _) _]. done. }
  intros order i Ho Hi. by eapply labels_predicted_unset.
Qed.

Lemma lookup_imap_list_to_map {A B} (f : A → B) (l : list A) i :
  (list_to_map (imap (λ i x, (i, f x)) l) : gmap nat B) !! i = f <$> l !! i.
Proof.
  assert (∀ (f : nat → A → B) k, (list_to_map (imap (λ i x, (k + i, f (k+i) x)) l) : gmap nat B) !! i =
    if k <=? i then f i <$> l !! (i - k) else None) as H.
  { clear f. induction l as [|x l IH]; intros f k.
    - simpl. rewrite lookup_empty. by destruct (k <=? i).
    - cbn [imap]. rewrite Nat.add_0_r. simpl. unfold compose.
      destruct (Nat.leb_spec k i).
      + destruct (decide (k = i)) as [->|Hne].
        * rewrite lookup_insert, Nat.sub_diag. done.
        * rewrite lookup_insert_ne by done.
          rewrite (imap_ext _ (λ i0 x, (S k + i0, f (S k + i0) x))) by (intros; f_equal; [lia|f_equal; lia]).
          rewrite IH. rewrite (proj2 (Nat.leb_le (S k) i)) by lia.
          replace (i - k) with (S (i - S k)) by lia. done.
      + rewrite lookup_insert_ne by lia.
        rewrite (imap_ext _ (λ i0 x, (S k + i0, f (S k + i0) x))) by (intros; f_equal; [lia|f_equal; lia]).
        rewrite IH. rewrite (proj2 (Nat.leb_gt (S k) i)) by lia. done. }
  specialize (H (λ _, f) 0). simpl in H. rewrite H. by rewrite Nat.sub_0_r.
Qed.

Lemma knn_regress_ok sorter io dist k values data vector :
  sorts sorter → any_order io → length values = length data → 1 ≤ k →
  (k ≤ length data → ∃ ns vs q, knn_regress sorter io dist k values data vector = Ok (Some q) ∧
     nearest_rows (λ r, dist (default [] (data !! r)) vector) (length data) k ns ∧
     Forall2 (λ r v, values !! r = Some v) ns vs ∧
     (q == foldr Qplus 0 vs / inject_Z (Z.of_nat k))%Q) ∧
  (length data < k → knn_regress sorter io dist k values data vector = Panic).
Proof.
  intros Hs Hio Hlen Hk. unfold knn_regress.
  set (m := list_to_map _ : gmap nat Q).
  assert (∀ i, m !! i = if i <? length data then Some (dist (default [] (data !! i)) vector) else None) as Hm.
  { intros i. unfold m. rewrite (lookup_imap_list_to_map (λ row, dist row vector)).
    destruct (Nat.ltb_spec i (length data)) as [Hi|Hi].
    - apply lookup_lt_is_Some in Hi as [x ->]. done.
    - by apply lookup_ge_None in Hi as ->. }
  destruct (neighbours_ok sorter io k m _ _ Hs Hio Hm) as [H1 H2].
  split; intros Hle.
  - destruct (H1 Hle) as (ns & -> & Hns). cbn [mbind res_bind].
    assert (∃ vs, Forall2 (λ r v, values !! r = Some v) ns vs) as [vs Hvs].
    { destruct Hns as (_ & _ & Hlt & _). clear -Hlt Hlen. induction ns as [|r ns IH]; [by exists []|].
      destruct IH as [vs Hvs]; [intros s Hs; apply Hlt; by right|].
      destruct (lookup_lt_is_Some_2 values r) as [v Hv]; [rewrite Hlen; apply Hlt; left|].
      exists (v :: vs). by constructor. }
    assert (res_mapM (idx values) ns = Ok vs) as ->.
    { apply res_mapM_Ok. eapply Forall2_impl; [exact Hvs|]. intros r v Hv. by apply idx_Ok. }
    cbn [mbind res_bind]. rewrite (proj2 (Nat.eqb_neq k 0)) by lia.
    eexists ns, vs, _. split; [reflexivity|]. split; [done|]. split; [done|].
    assert (∀ s, (foldl Qplus s vs == s + foldr Qplus 0 vs)%Q) as Hsum.
    { clear. induction vs as [|v vs IH]; intros s; cbn [foldl foldr]; [ring|]. rewrite IH. ring. }
    rewrite Hsum. by rewrite Qplus_0_l.
  - by rewrite H2.
Qed.

(** ** The optimised path *)

Definition dist_loop (pred train : list Q) (a b : nat) (acc : res Q) (js : list nat) : res Q :=
  foldl (λ acc j, s ← acc; p ← idx pred (a + j); t ← idx train (b + j);
          Ok (s + (p - t) * (p - t))%Q) acc js.

Lemma dist_loop_ok pred train a b c j0 s :
  a + (j0 + c) ≤ length pred → b + (j0 + c) ≤ length train →
  ∃ q, dist_loop pred train a b (Ok s) (seq j0 c) = Ok q ∧
    (q == s + squared (take c (drop (a + j0) pred)) (take c (drop (b + j0) train)))%Q.
Proof.
  revert j0 s. induction c as [|c IH]; intros j0 s Ha Hb.
  - exists s. split; [done|]. rewrite !take_0. cbn [squared]. ring.
  - destruct (lookup_lt_is_Some_2 pred (a + j0)) as [p Hp]; [lia|].
    destruct (lookup_lt_is_Some_2 train (b + j0)) as [t Ht]; [lia|].
    unfold dist_loop. cbn [seq foldl mbind res_bind]. rewrite (idx_some _ _ _ Hp). cbn [mbind res_bind].
    rewrite (idx_some _ _ _ Ht). cbn [mbind res_bind].
    destruct (IH (S j0) (s + (p - t) * (p - t))%Q) as (q & Hq & E); [lia..|].
    exists q. split; [exact Hq|]. rewrite E.
    rewrite (drop_S _ _ _ Hp), (drop_S _ _ _ Ht). rewrite !firstn_cons. cbn [squared].
    rewrite !Nat.add_succ_r. ring.
Qed.

Lemma euclidean_distance_ok n m mc row train pred out :
  length train = n * mc → length pred = m * mc → row < m → length out = n →
  ∃ out', euclidean_distance n mc row train pred out = Ok out' ∧ length out' = n ∧
    ∀ i x, out !! i = Some x → ∃ d, out' !! i = Some (i, d) ∧
      (d == x.2 + squared (row_of mc row pred) (row_of mc i train))%Q.
Proof.
  intros Ht Hp Hrow Hout. unfold euclidean_distance.
  assert (∀ c i0 out1, i0 + c = n → length out1 = n → (∀ i, i0 ≤ i → out1 !! i = out !! i) →
    (∀ i x, i < i0 → out !! i = Some x → ∃ d, out1 !! i = Some (i, d) ∧
      (d == x.2 + squared (row_of mc row pred) (row_of mc i train))%Q) →
    ∃ out', foldl (λ acc i,
      out ← acc;
      d ← dist_loop pred train (row * mc) (i * mc) (x ← idx out i; Ok x.2) (seq 0 mc);
      Ok (<[i := (i, d)]> out)) (Ok out1) (seq i0 c) = Ok out' ∧ length out' = n ∧
    ∀ i x, out !! i = Some x → ∃ d, out' !! i = Some (i, d) ∧
      (d == x.2 + squared (row_of mc row pred) (row_of mc i train))%Q) as H.
  { induction c as [|c IH]; intros i0 out1 Hi Hl Hrest Hdone.
    - exists out1. split; [done|]. split; [done|]. intros i x Hx. apply Hdone; [|done].
      apply lookup_lt_Some in Hx. lia.
    - destruct (lookup_lt_is_Some_2 out i0) as [x Hx]; [lia|].
      cbn [seq foldl mbind res_bind].
      rewrite (idx_some out1 i0 x) by (by rewrite Hrest). cbn [mbind res_bind].
      destruct (dist_loop_ok pred train (row * mc) (i0 * mc) mc 0 x.2) as (q & -> & E).
      { rewrite Hp. simpl. nia. } { rewrite Ht. simpl. nia. }
      cbn [mbind res_bind].
      apply IH; [lia|by rewrite insert_length| |].
      + intros i Hi'. rewrite list_lookup_insert_ne by lia. apply Hrest. lia.
      + intros i y Hi' Hy. destruct (decide (i = i0)) as [->|Hne].
        * exists q. split; [apply list_lookup_insert; lia|]. rewrite E. unfold row_of.
          rewrite !Nat.add_0_r. assert (y = x) as -> by congruence. done.
        * rewrite list_lookup_insert_ne by done. apply Hdone; [lia|done]. }
  apply (H n 0 out); [lia|done|done|]. intros i x Hi. lia.
Qed.

(** The storage of each group covers [n] training rows and [m] rows to predict. *)
Definition groups_fit (groups : list (nat * list Q * list Q)) (n m : nat) : Prop :=
  ∀ g, g ∈ groups → length g.1.2 = n * g.1.1 ∧ length g.2 = m * g.1.1.

Lemma group_distances_ok groups n m row out :
  groups_fit groups n m → row < m → length out = n →
  ∃ out', foldl (λ acc g, out ← acc; euclidean_distance n g.1.1 row g.1.2 g.2 out) (Ok out) groups = Ok out' ∧
    length out' = n ∧
    ∀ i x, out !! i = Some x → ∃ y, out' !! i = Some y ∧ (groups ≠ [] → y.1 = i) ∧
      (y.2 == x.2 + group_distance groups row i)%Q.
Proof.
  revert out. induction groups as [|g groups IH]; intros out Hfit Hrow Hout.
  - exists out. split; [done|]. split; [done|]. intros i x Hx. exists x. split; [done|].
    split; [done|]. cbn [group_distance foldr]. ring.
  - cbn [foldl mbind res_bind]. destruct (Hfit g) as [Ht Hp]; [left|].
    destruct (euclidean_distance_ok n m g.1.1 row g.1.2 g.2 out Ht Hp Hrow Hout) as (o1 & -> & Hl1 & H1).
    destruct (IH o1) as (o2 & Hf2 & Hl2 & H2); [intros h Hh; apply Hfit; by right|done|done|].
    exists o2. split; [exact Hf2|]. split; [done|]. intros i x Hx.
    destruct (H1 i x Hx) as (d & Hd & E1). destruct (H2 i _ Hd) as (y & Hy & Hp2 & E2).
    exists y. split; [done|]. split.
    + intros _. destruct groups; [|by apply Hp2]. simpl in Hf2. injection Hf2 as <-.
      rewrite Hy in Hd. by injection Hd as ->.
    + rewrite E2. cbn [snd]. rewrite E1. cbn [group_distance foldr]. fold (group_distance groups row i). ring.
Qed.

Lemma opt_row_ok show sorter vo k train groups m row label st :
  sorts sorter → any_order vo →
  let n := (gr_size train).2 in
  groups_fit groups n m → groups ≠ [] → row < m → 1 ≤ k →
  (∀ r, r < n → get_class show train r = Ok (label r)) → length st.1 = n →
  (k ≤ n → ∃ st' c ns, opt_row show sorter vo k train groups row st = Ok (st', c) ∧ length st'.1 = n ∧
     nearest_rows (group_distance groups row) n k ns ∧ majority label ns c) ∧
  (n < k → opt_row show sorter vo k train groups row st = Panic).
Proof.
  intros Hs Hvo n Hfit Hne Hrow Hk Hlab Hst. unfold opt_row. cbv zeta. fold n.
  destruct (group_distances_ok groups n m row (map (λ x, (x.1, 0%Q)) st.1) Hfit Hrow) as (out & -> & Hl & Hout).
  { by rewrite map_length. }
  cbn [mbind res_bind]. fold n. split; intros Hle.
  2: { by rewrite (proj2 (Nat.leb_gt k n)). }
  rewrite (proj2 (Nat.leb_le k n)) by done.
  set (key := λ i, (default (0, 0%Q) (out !! i)).2).
  destruct (Hs key (seq 0 n)) as [Hp Hso]. set (srt := sorter key (seq 0 n)) in *.
  assert (∀ i, i < n → (default (0, 0%Q) (out !! i)).1 = i ∧
    (key i == group_distance groups row i)%Q) as Hkey.
  { intros i Hi. destruct (lookup_lt_is_Some_2 st.1 i) as [x Hx]; [lia|].
    destruct (Hout i (x.1, 0%Q)) as (y & Hy & Hy1 & Hy2); [by rewrite list_lookup_fmap, Hx|].
    unfold key. rewrite Hy. cbn [default]. split; [by apply Hy1|]. change (default _ (Some y)) with y.
    rewrite Hy2. cbn [snd]. ring. }
  assert (∀ i, i ∈ srt → i < n) as Hin.
  { intros i Hi. rewrite Hp, elem_of_seq in Hi. lia. }
  assert (map fst (take k (map (λ i, default (0, 0%Q) (out !! i)) srt)) = take k srt) as ->.
  { rewrite firstn_map, map_map. rewrite <- (map_id (take k srt)) at 2. apply map_ext_in.
    intros i Hi. apply Hkey, Hin. apply elem_of_list_In in Hi.
    rewrite <- (take_drop k srt). apply elem_of_app. by left. }
  assert (length srt = n) as Hls by (rewrite Hp; apply seq_length).
  assert (nearest_rows (group_distance groups row) n k (take k srt)) as Hnr.
  { assert (NoDup srt) as Hnd by (rewrite Hp; apply NoDup_seq).
    rewrite <- (take_drop k srt) in Hso, Hnd. 
    apply strongly_sorted_app in Hso as [Hso Hlt].
    apply NoDup_app in Hnd as (Hnd & _ & _).
    assert (∀ i, i ∈ take k srt → i < n) as Hin'.
    { intros i Hi. apply Hin. rewrite <- (take_drop k srt). apply elem_of_app. by left. }
    split; [rewrite take_length; lia|]. split; [done|]. split; [done|]. split.
    - revert Hso Hin'. clear -Hkey. generalize (take k srt). intros l. induction l as [|a l IH]; intros Hso Hin; constructor.
      + apply IH; [by apply StronglySorted_inv in Hso as [? _]|]. intros i Hi. apply Hin. by right.
      + apply StronglySorted_inv in Hso as [_ Hall]. apply Forall_forall. intros b Hb.
        rewrite Forall_forall in Hall.
        destruct (Hkey a) as [_ <-]; [apply Hin; left|]. destruct (Hkey b) as [_ <-]; [apply Hin; by right|].
        by apply Hall.
    - intros r s Hr Hnot Hsin. assert (r ∈ srt) as Hr' by (rewrite Hp, elem_of_seq; lia).
      rewrite <- (take_drop k srt) in Hr'. apply elem_of_app in Hr' as [?|Hr']; [done|].
      destruct (Hkey r Hr) as [_ <-]. destruct (Hkey s) as [_ <-]; [by apply Hin'|]. by apply Hlt. }
  destruct (vote_ok show vo train label st.2 (take k srt) Hvo) as (m' & c & -> & Hc).
  { intros E. apply (f_equal length) in E. rewrite take_length in E. simpl in E. lia. }
  { intros r Hr. by apply Hlab, Hnr. }
  cbn [mbind res_bind fst snd]. eexists _, c, (take k srt). split; [reflexivity|].
  cbn [fst]. split; [by rewrite map_length|]. done.
Qed.

Lemma opt_predict_ok show parse sorter vo co pg k train groups what name vs label ret0 :
  sorts sorter → any_order vo → any_order co →
  let n := (gr_size train).2 in let m := (gr_size what).2 in
  groups_fit groups n m → groups ≠ [] → 1 ≤ k ≤ n →
  gr_class_attrs what = [CatA name vs] → (N.of_nat (length vs) < 2^63)%N →
  reads_labels show train vs label → prediction_vector pg what = Ok ret0 →
  ∃ ret, opt_predict show parse sorter vo co k train groups m ret0 = Ok ret ∧
    ∀ order i, class_order ret order → i < m →
      ∃ ns c, nearest_rows (group_distance groups i) n k ns ∧ majority label ns c ∧
        get_class show (dense_grid order ret) i = Ok c.
Proof.
  intros Hs Hvo Hco n m Hfit Hne Hk Hc Hvs Hlab Hret.
  destruct (labels_predicted_new pg what name vs Hc) as (d0 & Hd0 & Hp0).
  assert (d0 = ret0) as -> by congruence. unfold opt_predict.
  assert (∀ c i0 st ret lab, i0 + c ≤ m → length st.1 = n →
    labels_predicted pg name vs m lab ret →
    (∀ i, i < i0 → ∃ ns c, lab i = Some c ∧ nearest_rows (group_distance groups i) n k ns ∧ majority label ns c) →
    ∃ st' ret' lab', foldl (λ acc row,
          s ← acc;
          o ← opt_row show sorter vo k train groups row s.1;
          ret ← set_class parse co s.2 row o.2;
          Ok (o.1, ret)) (Ok (st, ret)) (seq i0 c) = Ok (st', ret') ∧
      labels_predicted pg name vs m lab' ret' ∧
      ∀ i, i < i0 + c → ∃ ns c, lab' i = Some c ∧ nearest_rows (group_distance groups i) n k ns ∧
        majority label ns c) as H.
  { induction c as [|c IH]; intros i0 st ret lab Hi Hst Hl Hdone.
    - exists st, ret, lab. split; [done|]. split; [done|]. intros i Hi'. apply Hdone. lia.
    - cbn [seq foldl mbind res_bind fst snd].
      destruct (opt_row_ok show sorter vo k train groups m i0 label st Hs Hvo Hfit Hne) as [H _]; 
        [lia|lia|by intros; apply Hlab|done|].
      destruct H as (st' & cl & ns & -> & Hst' & Hns & Hcl); [apply Hk|].
      cbn [mbind res_bind fst snd].
      destruct (labels_predicted_set parse co pg name vs m lab ret i0 cl Hco Hl) as (ret' & -> & Hl').
      { lia. }
      { destruct Hcl as [Hcl _]. apply elem_of_list_fmap in Hcl as (r & -> & Hr). by apply Hlab, Hns. }
      cbn [mbind res_bind].
      destruct (IH (S i0) st' ret' (<[i0 := Some cl]> lab)) as (st2 & ret2 & lab2 & Hf & Hp2 & H2);
        [lia|done|done| |].
      { intros i Hi'. destruct (decide (i = i0)) as [->|].
        - exists ns, cl. by rewrite fn_lookup_insert.
        - rewrite fn_lookup_insert_ne by done. apply Hdone. lia. }
      exists st2, ret2, lab2. split; [exact Hf|]. split; [done|]. intros i Hi'. apply H2. lia. }
  fold n m.
  destruct (H m 0 (replicate n (0, 0%Q), ∅) ret0 (λ _, None)) as (st' & ret' & lab' & -> & Hp & Hall);
    [lia|cbn [fst]; by rewrite replicate_length|done|intros; lia|].
  cbn [mbind res_bind snd]. exists ret'. split; [done|]. intros order i Ho Hi.
  destruct (Hall i Hi) as (ns & c & Hli & Hns & Hcl). exists ns, c. split; [done|]. split; [done|].
  by eapply labels_predicted_get.
Qed.

(** ** CheckStrictlyCompatible *)

Lemma same_attributes_spec a1 a2 i b :
  same_attributes i a1 a2 = Ok b →
  b = true ↔ ∃ l2, take (length a1) (drop i a2) = l2 ∧ length l2 = length a1 ∧
    Forall2 (λ x y, attr_equals x y = true) a1 l2.
Proof.
  revert i. induction a1 as [|x a1 IH]; intros i H.
  - simpl in H. injection H as <-. split; [|done]. intros _. exists []. rewrite take_0. by constructor.
  - cbn [same_attributes] in H. apply bind_Ok in H as (y & Hy & H). apply idx_Ok in Hy.
    rewrite (drop_S _ _ _ Hy). cbn [length]. rewrite firstn_cons.
    destruct (attr_equals x y) eqn:E.
    + rewrite (IH _ H). split.
      * intros (l2 & Hl & Hlen & Hf). exists (y :: l2). rewrite Hl. simpl. split; [done|]. split; [lia|]. by constructor.
      * intros (l2 & <- & Hlen & Hf). eexists. split; [done|]. split; [simpl in Hlen; lia|]. by inversion Hf.
    + injection H as <-. split; [done|]. intros (l2 & <- & _ & Hf). inversion Hf. congruence.
Qed.

Lemma same_attributes_total a1 a2 i :
  i + length a1 ≤ length a2 → ∃ b, same_attributes i a1 a2 = Ok b.
Proof.
  revert i. induction a1 as [|x a1 IH]; intros i H; [by exists true|].
  cbn [same_attributes]. simpl in H. destruct (lookup_lt_is_Some_2 a2 i) as [y Hy]; [lia|].
  rewrite (idx_some _ _ _ Hy). cbn [mbind res_bind]. destruct (attr_equals x y); [|by eexists].
  apply IH. lia.
Qed.

Lemma strictly_compatible_true order g1 g2 :
  any_order order → strictly_compatible order g1 g2 = Ok true →
  ∀ name, match g1 !! name, g2 !! name with
    | Some l1, Some l2 => ∃ l, l `prefix_of` l2 ∧ Forall2 (λ x y, attr_equals x y = true) l1 l
    | None, None => True
    | _, _ => False
    end.
Proof.
  intros Ho. unfold strictly_compatible.
  destruct (forallb (λ x, bool_decide (is_Some (g2 !! x.1))) (map_to_list g1)) eqn:E1; [|done].
  destruct (forallb (λ x, bool_decide (is_Some (g1 !! x.1))) (map_to_list g2)) eqn:E2; [|done].
  cbn [negb]. intros H.
  assert (∀ name a1, (name, a1) ∈ order (map_to_list g1) →
    ∃ l, l `prefix_of` default [] (g2 !! name) ∧ Forall2 (λ x y, attr_equals x y = true) a1 l) as Hall.
  { revert H. generalize (order (map_to_list g1)). clear. induction l as [|[n a] l IH]; intros H name a1 Hin.
    - by apply elem_of_nil in Hin.
    - apply bind_Ok in H as (b & Hb & H). destruct b; [|done].
      apply elem_of_cons in Hin as [[= -> ->]|Hin]; [|by apply IH].
      apply same_attributes_spec in Hb. destruct Hb as [Hb _]. destruct (Hb eq_refl) as (l2 & <- & _ & Hf).
      rewrite drop_0 in Hf. eexists. split; [|exact Hf]. eexists. symmetry. apply take_drop. }
  rewrite forallb_forall in E1, E2. intros name.
  destruct (g1 !! name) as [l1|] eqn:H1, (g2 !! name) as [l2|] eqn:H2; [| | |done].
  - destruct (Hall name l1) as (l & Hl & Hf).
    { rewrite (Ho _). by apply elem_of_map_to_list. }
    rewrite H2 in Hl. eauto.
  - assert (bool_decide (is_Some (g2 !! name)) = true) as E.
    { apply (E1 (name, l1)). apply elem_of_list_In. by apply elem_of_map_to_list. }
    apply bool_decide_eq_true in E. rewrite H2 in E. by destruct E.
  - assert (bool_decide (is_Some (g1 !! name)) = true) as E.
    { apply (E2 (name, l2)). apply elem_of_list_In. by apply elem_of_map_to_list. }
    apply bool_decide_eq_true in E. rewrite H1 in E. by destruct E.
Qed.

(** The groups of the two grids have the same names and equal attributes in the same
    order. *)
Definition same_layout (g1 g2 : gmap string (list attr)) : Prop :=
  ∀ name, match g1 !! name, g2 !! name with
    | Some l1, Some l2 => Forall2 (λ x y, attr_equals x y = true) l1 l2
    | None, None => True
    | _, _ => False
    end.

Lemma strictly_compatible_complete order g1 g2 :
  any_order order → same_layout g1 g2 → strictly_compatible order g1 g2 = Ok true.
Proof.
  intros Ho Hs. unfold strictly_compatible.
  rewrite (proj2 (forallb_forall _ (map_to_list g1))).
  2: { intros [n l] Hx. apply elem_of_list_In, elem_of_map_to_list in Hx. apply bool_decide_eq_true.
       cbn [fst]. specialize (Hs n). rewrite Hx in Hs. by destruct (g2 !! n). }
  rewrite (proj2 (forallb_forall _ (map_to_list g2))).
  2: { intros [n l] Hx. apply elem_of_list_In, elem_of_map_to_list in Hx. apply bool_decide_eq_true.
       cbn [fst]. specialize (Hs n). rewrite Hx in Hs. by destruct (g1 !! n). }
  cbn [negb].
  assert (∀ name a1, (name, a1) ∈ order (map_to_list g1) → g1 !! name = Some a1) as Hin.
  { intros name a1 H. rewrite (Ho _) in H. by apply elem_of_map_to_list in H. }
  revert Hin. generalize (order (map_to_list g1)). intros l. induction l as [|[n a] l IH]; intros Hin; [done|].
  assert (same_attributes 0 a (default [] (g2 !! n)) = Ok true) as ->.
  { specialize (Hs n). rewrite (Hin n a) in Hs by left. destruct (g2 !! n) as [l2|]; [|done]. change (same_attributes 0 a (default [] (Some l2))) with (same_attributes 0 a l2).
    destruct (same_attributes_total a l2 0) as [b Hb]; [by rewrite (Forall2_length _ _ _ Hs)|].
    rewrite Hb. f_equal. apply (same_attributes_spec _ _ _ _ Hb). rewrite drop_0.
    rewrite (Forall2_length _ _ _ Hs), firstn_all. eauto. }
  cbn [mbind res_bind]. apply IH. intros. apply Hin. by right.
Qed.

Lemma strictly_compatible_false order g1 g2 :
  any_order order → (∀ n l1 l2, g1 !! n = Some l1 → g2 !! n = Some l2 → length l1 = length l2) →
  ∃ b, strictly_compatible order g1 g2 = Ok b ∧ (b = true ↔ same_layout g1 g2).
Proof.
  intros Ho Hlen.
  assert (∃ b, strictly_compatible order g1 g2 = Ok b) as [b Hb].
  { unfold strictly_compatible.
    destruct (forallb (λ x, bool_decide (is_Some (g2 !! x.1))) (map_to_list g1)) eqn:E1; [|by eexists].
    destruct (forallb (λ x, bool_decide (is_Some (g1 !! x.1))) (map_to_list g2)) eqn:E2; [|by eexists].
    cbn [negb].
    assert (∀ name a1, (name, a1) ∈ order (map_to_list g1) → g1 !! name = Some a1) as Hin.
    { intros name a1 H. rewrite (Ho _) in H. by apply elem_of_map_to_list in H. }
    revert Hin. generalize (order (map_to_list g1)). intros l. induction l as [|[n a] l IH]; intros Hin; [by eexists|].
    assert (∃ l2, g2 !! n = Some l2) as [l2 H2].
    { rewrite forallb_forall in E1. assert (bool_decide (is_Some (g2 !! n)) = true) as E.
      { apply (E1 (n, a)). apply elem_of_list_In, elem_of_map_to_list, Hin. left. }
      by apply bool_decide_eq_true in E as [? ->]; eexists. }
    rewrite H2. change (same_attributes 0 a (default [] (Some l2))) with (same_attributes 0 a l2).
    destruct (same_attributes_total a l2 0) as [b Hb].
    { rewrite (Hlen n a l2); [done| |done]. apply Hin. left. }
    rewrite Hb. cbn [mbind res_bind]. destruct b; [|by eexists]. apply IH. intros. apply Hin. by right. }
  exists b. split; [done|]. split.
  - intros ->. pose proof (strictly_compatible_true order g1 g2 Ho Hb) as Ht. intros n.
    specialize (Ht n). destruct (g1 !! n) as [l1|] eqn:H1, (g2 !! n) as [l2|] eqn:H2; [|done..].
    destruct Ht as (l & Hpre & Hf). assert (l = l2) as ->; [|done].
    destruct Hpre as [k ->]. pose proof (Hlen n l1 _ H1 H2) as E. pose proof (Forall2_length _ _ _ Hf).
    rewrite app_length in E. assert (k = []) as -> by (apply length_zero_iff_nil; lia). by rewrite app_nil_r.
  - intros Hs. rewrite (strictly_compatible_complete order g1 g2 Ho Hs) in Hb. congruence.
Qed.
