(** Properties C61, C62, C63, C71 and C104 to C108: bagging, random forests and
    one-versus-all. *)
From Verif Require Import Prelude BytesModel FloatModel AttrModel AttrSpec StoreModel DenseModel DenseSpec GridModel
  GridSpec GridProofs FilterModel PredModel TableProofs ConfProps KnnProps Id3Props CartProps RuleSpec BagModel BagSpec BagProofs BagVote
  BagFit BagOva.
From Flocq Require Import IEEE754.BinarySingleNaN IEEE754.Bits IEEE754.Binary.
Local Open Scope nat_scope.

(** ** C61: the votes *)

(** Whatever the schedule, once Predict has collected the votes, the table holds for each
    row and class exactly the number of models that predict the class, and nothing else. *)
Theorem C61_totals show n m answer rows label s :
  0 < n → (∀ i, i < m → ∃ g, answer i = Ok g ∧ shows_labels show g rows (label i)) →
  reachable_in show n m answer s → ps_main s = Done →
  ∀ r c, recorded (ps_voting s) r c = if bool_decide (r < rows) then votes_for m label r c else 0.
Proof. intros Hn Ha Hs Hd. exact (proj1 (done_counted show n m answer rows label Hn Ha s Hs Hd)). Qed.
Print Assumptions C61_totals.

(** The result has the rows of the request, and every row is given a class that no other
    class has more votes than.  The orders of the maps are arbitrary. *)
Theorem C61_prediction show n m answer label parse pg from name vs s order ro ko :
  0 < n → 0 < m →
  (∀ i, i < m → ∃ g, answer i = Ok g ∧ shows_labels show g (gr_size from).2 (label i)) →
  gr_class_attrs from = [CatA name vs] →
  (∀ i r, i < m → r < (gr_size from).2 → label i r ∈ vs) → (N.of_nat (length vs) < 2^63)%N →
  reachable_in show n m answer s → ps_main s = Done →
  any_order order → any_order ro → (∀ r, any_order (ko r)) →
  ∃ ret, consensus parse order ro ko pg from (ps_voting s) = Ok ret ∧ d_maxrow ret = (gr_size from).2 ∧
    ∀ r, r < (gr_size from).2 →
      ∃ c, reads_class show ret r c ∧ ∀ c', votes_for m label r c' ≤ votes_for m label r c.
Proof.
  intros Hn Hm Ha Hc Hv Hl Hs Hd Ho Hr Hk.
  exact (consensus_ok show n m answer label parse pg from name vs Hn Hm Ha Hc Hv Hl s order ro ko Hs Hd Ho Hr Hk).
Qed.
Print Assumptions C61_prediction.

(** Where one class has more votes than every other, the prediction is that class,
    whatever happens. *)
Theorem C61_majority show n m answer label parse pg from name vs ret r c :
  0 < n → 0 < m →
  (∀ i, i < m → ∃ g, answer i = Ok g ∧ shows_labels show g (gr_size from).2 (label i)) →
  gr_class_attrs from = [CatA name vs] →
  (∀ i r, i < m → r < (gr_size from).2 → label i r ∈ vs) → (N.of_nat (length vs) < 2^63)%N →
  predicts show n m answer parse pg from ret → r < (gr_size from).2 →
  (∀ c', c' ≠ c → votes_for m label r c' < votes_for m label r c) →
  reads_class show ret r c.
Proof.
  intros Hn Hm Ha Hc Hv Hl (s & order & ro & ko & Hs & Hd & Ho & Hr & Hk & E) Hlt Hmost.
  destruct (consensus_ok show n m answer label parse pg from name vs Hn Hm Ha Hc Hv Hl s order ro ko Hs Hd Ho Hr Hk)
    as (ret' & E' & _ & H). rewrite E in E'. injection E' as <-.
  destruct (H r Hlt) as (c1 & H1 & H2). destruct (decide (c1 = c)) as [->|Hne]; [done|].
  specialize (H2 c). specialize (Hmost _ Hne). lia.
Qed.
Print Assumptions C61_majority.

(** ** C104: Predict returns *)

(** No goroutine panics, a goroutine can always go on until Predict is done, and no
    execution has more than 5 m + n + 5 steps. *)
Theorem C104_returns show n m answer rows label s k :
  0 < n → (∀ i, i < m → ∃ g, answer i = Ok g ∧ shows_labels show g rows (label i)) →
  nsteps (predict_step show n m answer) k (predict_init n) s →
  k ≤ 5 * m + n + 5 ∧
  (∀ t, act show n m answer t s ≠ Some Panic ∧ act show n m answer t s ≠ Some Err) ∧
  (ps_main s ≠ Done → ∃ s', predict_step show n m answer s s').
Proof.
  intros Hn Ha H.
  assert (reachable_in show n m answer s) as Hr by (apply rtc_nsteps; by exists k).
  split; [|split].
  - pose proof (steps_weight show n m answer rows label Hn Ha k s H). lia.
  - intros t. exact (no_panic show n m answer rows label Hn Ha s t Hr).
  - exact (not_stuck show n m answer rows label Hn Ha s Hr).
Qed.
Print Assumptions C104_returns.

(** The other outcome: a model whose Predict fails takes the process down (its error is
    dropped and the nil result is used). *)
Theorem C104_failing_model_refuted : ∃ show n m answer s t,
  0 < n ∧ reachable_in show n m answer s ∧ answer 0 = Err ∧ act show n m answer t s = Some Panic.
Proof.
  set (answer := λ _ : nat, @Err grid).
  exists t_show, 1, 1, answer. eexists _, Collector. split; [lia|]. split.
  { eapply rtc_l; [exists Main; reflexivity|]. eapply rtc_l; [exists (Worker 0); reflexivity|].
    eapply rtc_l; [exists (Worker 0); reflexivity|]. eapply rtc_l; [exists (Worker 0); reflexivity|].
    apply rtc_refl. }
  split; reflexivity.
Qed.
Print Assumptions C104_failing_model_refuted.

(** *** Examples: three models, three rows *)

Definition b_grid (codes : list N) : grid := t_grid (map (λ c, t_row t_one 0 0 c) codes).
Definition b_answers : list (list N) := [[0;1;1];[0;0;1];[1;0;0]]%N.
Definition b_answer (i : nat) : res grid := Ok (b_grid (nth i b_answers [])).
Definition b_label (i r : nat) : string := nth (N.to_nat (nth r (nth i b_answers []) 0%N)) ["u"; "v"] "".
Definition b_from : grid := b_grid [0;0;0]%N.

Definition shows_labelsb (show : nat → N → string) (g : grid) (rows : nat) (label : nat → string) : bool :=
  ((gr_size g).2 =? rows) && okb (resolve g (gr_class_attrs g)) &&
  forallb (λ r, match get_class show g r with Ok c => bool_decide (c = label r) | _ => false end) (seq 0 rows).

Lemma shows_check show codes rows label :
  shows_labelsb show (b_grid codes) rows label = true → shows_labels show (b_grid codes) rows label.
Proof.
  unfold shows_labelsb. rewrite !andb_true_iff. intros ((H1 & H2) & H3). split.
  - unfold b_grid, t_grid. apply in_order_agrees, dense_grid_in_order.
  - split; [by apply Nat.eqb_eq|]. split.
    + destruct (resolve _ _) as [specs| |]; [eauto|discriminate H2..].
    + intros r Hr. rewrite forallb_forall in H3. specialize (H3 r).
      destruct (get_class show (b_grid codes) r) as [c| |].
      * f_equal. eapply bool_decide_eq_true_1, H3, in_seq. lia.
      * discriminate H3. apply in_seq. lia.
      * discriminate H3. apply in_seq. lia.
Qed.

(** The goroutines in a given order. *)
Fixpoint run_schedule show n m answer (l : list thread) (s : pstate) : option pstate :=
  match l with
  | [] => Some s
  | t :: l => match act show n m answer t s with
              | Some (Ok s') => run_schedule show n m answer l s'
              | _ => None
              end
  end.

Lemma run_reach show n m answer l s s' :
  run_schedule show n m answer l s = Some s' → rtc (predict_step show n m answer) s s'.
Proof.
  revert s. induction l as [|t l IH]; intros s H; cbn [run_schedule] in H.
  - injection H as <-. apply rtc_refl.
  - destruct (act show n m answer t s) as [[s1| |]|] eqn:E; try done.
    eapply rtc_l; [by exists t|]. by apply IH.
Qed.

Definition b_schedule : list thread :=
  [Main; Main; Worker 1; Worker 0; Worker 0; Main; Worker 0; Worker 1; Main; Worker 1; Worker 0;
   Collector; Worker 0; Worker 0; Worker 0; Worker 1; Main; Collector; Main; Collector; Collector; Main].
Definition b_end : pstate := default (predict_init 2) (run_schedule t_show 2 3 b_answer b_schedule (predict_init 2)).

Lemma b_shows : ∀ i, i < 3 → ∃ g, b_answer i = Ok g ∧ shows_labels t_show g 3 (b_label i).
Proof.
  apply below_cases. repeat constructor.
  all: unfold b_answer; eexists; split; [reflexivity|]; apply shows_check; vm_compute; reflexivity.
Qed.

Definition isd (s : pstate) : bool := match ps_main s with Done => true | _ => false end.
Lemma run_default (o : option pstate) d :
  match o with Some s => isd s | None => false end = true → o = Some (default d o) ∧ ps_main (default d o) = Done.
Proof. destruct o as [s|]; [|done]. cbn. unfold isd. by destruct (ps_main s). Qed.

Example b_ends : reachable_in t_show 2 3 b_answer b_end ∧ ps_main b_end = Done.
Proof.
  destruct (run_default (run_schedule t_show 2 3 b_answer b_schedule (predict_init 2)) (predict_init 2)) as [H1 H2].
  - vm_compute. reflexivity.
  - split; [|exact H2]. exact (run_reach _ _ _ _ _ _ _ H1).
Qed.

Example C61_ex :
  (∀ i, i < 3 → ∃ g, b_answer i = Ok g ∧ shows_labels t_show g 3 (b_label i)) ∧
  map (λ r, (recorded (ps_voting b_end) r "u", recorded (ps_voting b_end) r "v")) [0;1;2;3] =
    [(2, 1); (2, 1); (1, 2); (0, 0)] ∧
  map (λ r, (votes_for 3 b_label r "u", votes_for 3 b_label r "v")) [0;1;2] = [(2, 1); (2, 1); (1, 2)].
Proof. split; [apply b_shows|]. split; vm_compute; reflexivity. Qed.

Example C61_prediction_ex :
  (gr_size b_from).2 = 3 ∧ gr_class_attrs b_from = [tc] ∧
  match consensus ex_parse id id (λ _, id) 64 b_from (ps_voting b_end) with
  | Ok ret => map (get_class t_show (dense_grid (map_to_list (d_class ret)) ret)) [0;1;2] = [Ok "u"; Ok "u"; Ok "v"]
  | _ => False
  end.
Proof. split; [vm_compute; reflexivity|]. split; [vm_compute; reflexivity|]. vm_compute. reflexivity. Qed.

(** The schedule above has 22 steps and ends; 5 * 3 + 2 + 5 = 22. *)
Example C104_ex : length b_schedule = 5 * 3 + 2 + 5 ∧ isd b_end = true.
Proof. split; vm_compute; reflexivity. Qed.

(** ** C105: ties *)

(** The documentation says that on a tie the first class that got the tied number of votes
    is output.  One and the same execution can give either class: the order of a map
    decides. *)
Theorem C105_tie_refuted : ∃ show n m answer label parse pg from s order ro ko ko' ret ret',
  0 < n ∧ (∀ i, i < m → ∃ g, answer i = Ok g ∧ shows_labels show g (gr_size from).2 (label i)) ∧
  reachable_in show n m answer s ∧ ps_main s = Done ∧
  any_order order ∧ any_order ro ∧ (∀ r, any_order (ko r)) ∧ (∀ r, any_order (ko' r)) ∧
  consensus parse order ro ko pg from (ps_voting s) = Ok ret ∧
  consensus parse order ro ko' pg from (ps_voting s) = Ok ret' ∧
  votes_for m label 0 "u" = 1 ∧ votes_for m label 0 "v" = 1 ∧
  get_class show (dense_grid (map_to_list (d_class ret)) ret) 0 = Ok "u" ∧
  get_class show (dense_grid (map_to_list (d_class ret')) ret') 0 = Ok "v".
Proof.
  set (ans := λ i : nat, Ok (b_grid [if i =? 0 then 0%N else 1%N])).
  set (lab := λ (i r : nat), if i =? 0 then "u" else "v").
  set (sched := [Main; Worker 0; Worker 0; Worker 0; Main; Worker 0; Worker 0; Main; Collector; Worker 0; Worker 0; Main; Main;
                 Collector; Collector; Main]).
  set (s := default (predict_init 1) (run_schedule t_show 1 2 ans sched (predict_init 1))).
  assert (reachable_in t_show 1 2 ans s ∧ ps_main s = Done) as [Hs Hd].
  { destruct (run_default (run_schedule t_show 1 2 ans sched (predict_init 1)) (predict_init 1)) as [H1 H2].
    - vm_compute. reflexivity.
    - split; [|exact H2]. exact (run_reach _ _ _ _ _ _ _ H1). }
  set (c1 := consensus ex_parse id id (λ _, id) 64 (b_grid [0%N]) (ps_voting s)).
  set (c2 := consensus ex_parse id id (λ _, @rev _) 64 (b_grid [0%N]) (ps_voting s)).
  assert (c1 = Ok (of_ok c1 dense_new)) as E1 by (apply okb_eq; vm_compute; reflexivity).
  assert (c2 = Ok (of_ok c2 dense_new)) as E2 by (apply okb_eq; vm_compute; reflexivity).
  assert (votes_for 2 lab 0 "u" = 1 ∧ votes_for 2 lab 0 "v" = 1) as [Hu Hv] by (split; vm_compute; reflexivity).
  assert (∀ i, i < 2 → ∃ g, ans i = Ok g ∧ shows_labels t_show g (gr_size (b_grid [0%N])).2 (lab i)) as Ha.
  { apply below_cases. repeat constructor.
    all: unfold ans; eexists; split; [reflexivity|]; apply shows_check; vm_compute; reflexivity. }
  assert (∀ A, any_order (@rev A)) as Hrev by (intros A l; by rewrite <- Permutation_rev).
  assert (get_class t_show (dense_grid (map_to_list (d_class (of_ok c1 dense_new))) (of_ok c1 dense_new)) 0 = Ok "v" ∧
          get_class t_show (dense_grid (map_to_list (d_class (of_ok c2 dense_new))) (of_ok c2 dense_new)) 0 = Ok "u")
    as [G1 G2] by (split; vm_compute; reflexivity).
  exists t_show, 1, 2, ans, lab, ex_parse, 64, (b_grid [0%N]), s, id, id, (λ _, @rev _), (λ _, id),
    (of_ok c2 dense_new), (of_ok c1 dense_new).
  split; [lia|]. split; [exact Ha|]. split; [exact Hs|]. split; [exact Hd|].
  split; [exact (λ l, Permutation_refl l)|]. split; [exact (λ l, Permutation_refl l)|].
  split; [exact (λ _, Hrev _)|]. split; [exact (λ _ l, Permutation_refl l)|].
  split; [exact E2|]. split; [exact E1|]. split; [exact Hu|]. split; [exact Hv|]. split; [exact G2|exact G1].
Qed.
Print Assumptions C105_tie_refuted.

(** ** C62: the attributes and rows each model is trained on *)

(** [c'] is [c] after Fit on [g]; an error leaves it as it was. *)
Definition fitted {C} (fit : C → grid → res C) (c : C) (g : grid) (c' : C) : Prop :=
  fit c g = Ok c' ∨ fit c g = Err ∧ c' = c.

Lemma fitted_ok {C} (fit : C → grid → res C) c g c' : fit_ignoring fit c g = Ok c' → fitted fit c g c'.
Proof. unfold fit_ignoring, fitted. destruct (fit c g); [by left|intros [= ->]; by right|done]. Qed.

(** Model [i] is fitted to a grid whose attributes are RandomFeatures distinct non-class
    attributes of the source (all of them if RandomFeatures is 0) and the class attributes,
    and whose row [r] is, read by Get, the drawn row of the source.  [drawr i] and [drawa i]
    are the random numbers drawn for the rows and the attributes. *)
Theorem C62_selected {C} ao co ro (fit : C → grid → res C) fuel drawr drawa want from order b b' i :
  any_order ao → any_order co →
  distinct_attrs (gr_all_attrs from) → finds_own from → gr_class_attrs from ⊆ gr_all_attrs from →
  NoDup (gr_class_attrs from) →
  order ≡ₚ seq 0 (length (bg_models b)) → i < length (bg_models b) →
  bag_fit ao co ro fit order fuel drawr drawa want b from = Ok b' →
  ∃ feats g c c',
    distinct_attrs feats ∧ feats ⊆ others from ∧
    length feats = (if bool_decide (want = 0%Z) then length (others from) else Z.to_nat want) ∧
    gr_all_attrs g = feats ++ gr_class_attrs from ∧ gr_class_attrs g ≡ₚ gr_class_attrs from ∧
    (gr_size g).2 = (gr_size from).2 ∧
    (∀ r s, r < (gr_size from).2 → gr_get g s r = gr_get from s (drawr i r)) ∧
    bg_models b !! i = Some c ∧ fitted fit c g c' ∧ bg_models b' !! i = Some c' ∧
    bg_selected b' !! i = Some (gr_all_attrs g).
Proof.
  intros H1 H2 H3 H4 H5 H6 H7 H8 H9.
  destruct (bag_fit_spec ao co ro fit fuel drawr drawa want from order b b' i H1 H2 H3 H4 H5 H6 H7 H8 H9)
    as (_ & feats & g & c & c' & Hs & Hd & Hsub & Hl & Ha & Hc & Hz & Hg & Hb & Hf & Hb').
  exists feats, g, c, c'. rewrite Ha. apply fitted_ok in Hf. done.
Qed.
Print Assumptions C62_selected.

(** To predict, model [i] is given the attributes it was trained on, with the values of
    the grid to predict. *)
Theorem C62_same_at_prediction {C} ao co ro (fit : C → grid → res C) fuel drawr drawa want from order b b' i what :
  any_order ao → any_order co →
  distinct_attrs (gr_all_attrs from) → finds_own from → gr_class_attrs from ⊆ gr_all_attrs from →
  NoDup (gr_class_attrs from) →
  order ≡ₚ seq 0 (length (bg_models b)) → i < length (bg_models b) →
  bag_fit ao co ro fit order fuel drawr drawa want b from = Ok b' →
  finds_own what → gr_all_attrs from ⊆ gr_all_attrs what →
  ∃ g c c' g',
    bg_models b !! i = Some c ∧ fitted fit c g c' ∧ bg_models b' !! i = Some c' ∧
    prediction_instances co ro (bg_selected b') i what = Ok g' ∧ gr_all_attrs g' = gr_all_attrs g ∧
    (gr_size g').2 = (gr_size what).2 ∧ ∀ s r, gr_get g' s r = gr_get what s r.
Proof.
  intros H1 H2 H3 H4 H5 H6 H7 H8 H9 H10 H11.
  destruct (C62_selected ao co ro fit fuel drawr drawa want from order b b' i H1 H2 H3 H4 H5 H6 H7 H8 H9)
    as (feats & g & c & c' & Hd & Hsub & Hl & Ha & Hc & Hz & Hg & Hb & Hf & Hb' & Hs).
  rewrite Ha in Hs.
  destruct (prediction_instances_spec co ro (bg_selected b') i feats from what Hs H10) as (g' & E & Ha' & Hz' & Hg').
  { intros a Hin. apply H11. apply elem_of_app in Hin as [Hin|Hin]; [|by apply H5].
    apply Hsub in Hin. unfold others in Hin. by apply elem_of_list_filter in Hin as [_ Hin]. }
  exists g, c, c', g'. rewrite Ha, Ha'. done.
Qed.
Print Assumptions C62_same_at_prediction.

(** Fit ends, for every random source that keeps producing every index, if no more
    attributes are asked for than there are. *)
Theorem C62_ends {C} ao co ro (fit : C → grid → res C) order drawr drawa want b from :
  any_order ao → distinct_attrs (gr_all_attrs from) → finds_own from → gr_class_attrs from ⊆ gr_all_attrs from →
  (want ≤ Z.of_nat (length (others from)))%Z →
  order ≡ₚ seq 0 (length (bg_models b)) →
  (∀ i, i < length (bg_models b) → fair (length (others from)) (drawa i)) →
  (∀ c g, fit c g ≠ Panic) →
  ∃ fuel, ∀ extra, ∃ b', bag_fit ao co ro fit order (fuel + extra) drawr drawa want b from = Ok b'.
Proof. exact (bag_fit_ends ao co ro fit order drawr drawa want b from). Qed.
Print Assumptions C62_ends.

(** Asking for more than there are, the selection never ends. *)
Theorem C62_too_many_hangs ao draw want from :
  any_order ao → distinct_attrs (gr_all_attrs from) → others from ≠ [] →
  (Z.of_nat (length (others from)) < want)%Z → (∀ t, draw t < length (others from)) →
  ∀ fuel, training_attrs ao fuel draw want from = Err.
Proof. exact (training_attrs_hangs ao draw want from). Qed.
Print Assumptions C62_too_many_hangs.

(** *** Examples *)

Definition own_check (g : grid) : bool :=
  forallb (λ a, match gr_get_attribute g a with Ok s => bool_decide (sp_attr s = a) | _ => false end) (gr_all_attrs g).
Lemma own_check_ok g : own_check g = true → finds_own g.
Proof.
  unfold own_check. rewrite forallb_forall. intros H a Ha. apply elem_of_list_In, H in Ha.
  destruct (gr_get_attribute g a) as [s| |]; [|discriminate Ha..]. exists s. split; [done|].
  exact (bool_decide_eq_true_1 _ Ha).
Qed.

Definition b_drawr (i r : nat) : nat := (i + 2 * r) mod 6.
Definition b_drawa (i t : nat) : nat := (i + t) mod 3.
Lemma id_order {A} : any_order (@id (list A)).
Proof. intros l. apply Permutation_refl. Qed.

(** "Classifiers" that record the attributes they were fitted to. *)
Definition b_fit (c : list attr) (g : grid) : res (list attr) := Ok (gr_all_attrs g).
Definition b_bag : bag (list attr) := Bag [[]; []; []] ∅.

Example C62_ex :
  distinct_attrs (gr_all_attrs t_train) ∧ finds_own t_train ∧ gr_class_attrs t_train ⊆ gr_all_attrs t_train ∧
  NoDup (gr_class_attrs t_train) ∧ others t_train = [tx; ty; tw] ∧
  (∀ i, i < 3 → fair (length (others t_train)) (b_drawa i)) ∧
  match bag_fit id id id b_fit [2;0;1] 10 b_drawr b_drawa 2 b_bag t_train with
  | Ok b => bg_models b = [[tx; ty; tc]; [ty; tw; tc]; [tw; tx; tc]]
  | _ => False
  end.
Proof.
  split; [apply distinctb_spec; vm_compute; reflexivity|].
  split; [apply own_check_ok; vm_compute; reflexivity|].
  split. { apply (bool_decide_eq_true_1 _). vm_compute. reflexivity. }
  split. { apply (bool_decide_eq_true_1 _). vm_compute. reflexivity. }
  split; [vm_compute; reflexivity|]. split.
  - replace (length (others t_train)) with 3 by (vm_compute; reflexivity). intros i Hi. unfold b_drawa. split.
    + intros t. apply Nat.mod_upper_bound. lia.
    + intros j t Hj. exists (3 * (t + i) + (3 + j - i)). split; [lia|].
      replace (i + (3 * (t + i) + (3 + j - i))) with (j + (t + i + 1) * 3) by lia.
      rewrite Nat.mod_add by lia. by apply Nat.mod_small.
  - vm_compute. reflexivity.
Qed.

(** ** C108: the order of the goroutines of Fit *)

Theorem C108_order {C} ao co ro (fit : C → grid → res C) fuel drawr drawa want from order order' b b' :
  order ≡ₚ order' → NoDup order →
  bag_fit ao co ro fit order fuel drawr drawa want b from = Ok b' →
  bag_fit ao co ro fit order' fuel drawr drawa want b from = Ok b'.
Proof. exact (bag_fit_order ao co ro fit fuel drawr drawa want from order order' b b'). Qed.
Print Assumptions C108_order.

Example C108_ex :
  ([2;0;1] : list nat) ≡ₚ [0;1;2] ∧ NoDup ([2;0;1] : list nat) ∧
  okb (bag_fit id id id b_fit [2;0;1] 10 b_drawr b_drawa 2 b_bag t_train) = true.
Proof.
  split; [eapply bool_decide_eq_true_1; vm_compute; reflexivity|].
  split; [eapply bool_decide_eq_true_1; vm_compute; reflexivity|]. vm_compute. reflexivity.
Qed.

(** ** C106: the rows of the training instances *)

(** Read by Get, the training instances of a model are the drawn rows. *)
Theorem C106_get_partial ao co ro fuel drawr drawa want from sel g :
  any_order ao → any_order co →
  distinct_attrs (gr_all_attrs from) → finds_own from → gr_class_attrs from ⊆ gr_all_attrs from →
  NoDup (gr_class_attrs from) →
  training_instances ao co ro fuel drawr drawa want from = Ok (sel, g) →
  gr_size g = (length sel, (gr_size from).2) ∧
  ∀ r s, r < (gr_size from).2 → gr_get g s r = gr_get from s (drawr r).
Proof.
  intros H1 H2 H3 H4 H5 H6 H7.
  destruct (training_instances_spec ao co ro fuel drawr drawa want from sel g H1 H2 H3 H4 H5 H6 H7)
    as (feats & _ & _ & _ & _ & _ & _ & Hz & Hg). done.
Qed.
Print Assumptions C106_get_partial.

(** Read by MapOverRows, they are the rows of the source: the drawing has no effect. *)
Theorem C106_map_ignores_sample ao co ro fuel drawr drawa want from sel g asv :
  training_instances ao co ro fuel drawr drawa want from = Ok (sel, g) → gr_iter g asv = gr_iter from asv.
Proof. exact (training_instances_iter ao co ro fuel drawr drawa want from sel g asv). Qed.
Print Assumptions C106_map_ignores_sample.

(** So MapOverRows and Get differ.  The source has the classes u, v; row 1 is drawn twice:
    Get reads v, v and MapOverRows u, v. *)
Theorem C106_same_rows_refuted : ∃ ao co ro fuel drawr drawa want from sel g,
  any_order ao ∧ any_order co ∧ any_order ro ∧ iter_agrees from ∧ (∀ r, drawr r < (gr_size from).2) ∧
  training_instances ao co ro fuel drawr drawa want from = Ok (sel, g) ∧ ¬ iter_agrees g.
Proof.
  set (r := training_instances id id id 5 (λ _, 1) (λ _, 0) 0 (b_grid [0;1]%N)).
  assert (okb r = true) as E by (vm_compute; reflexivity).
  set (p := of_ok r ([], b_from)).
  assert (Hr : r = Ok (p.1, p.2)) by (rewrite (okb_eq r ([], b_from) E); by rewrite <- surjective_pairing).
  exists id, id, id, 5, (λ _, 1), (λ _, 0), 0%Z, (b_grid [0;1]%N), p.1, p.2.
  split; [apply id_order|]. split; [apply id_order|]. split; [apply id_order|].
  split; [unfold b_grid, t_grid; apply in_order_agrees, dense_grid_in_order|].
  split; [intros _; vm_compute; lia|]. split; [exact Hr|].
  intros H. destruct (H [Spec 1 2 tc]) as (rows & Hi & _ & Hf).
  assert (gr_iter p.2 [Spec 1 2 tc] = gr_iter (b_grid [0;1]%N) [Spec 1 2 tc]) as Hm
    by (exact (training_instances_iter _ _ _ _ _ _ _ _ _ _ _ Hr)).
  rewrite Hm in Hi.
  assert (match gr_iter (b_grid [0;1]%N) [Spec 1 2 tc] with Ok l => l !! 0 | _ => None end =
          Some (0, Ok [byte8 0])) as E0 by (vm_compute; reflexivity).
  rewrite Hi in E0. apply elem_of_list_lookup_2 in E0. apply Hf in E0.
  assert (match res_mapM (λ a, gr_get p.2 a 0) [Spec 1 2 tc] with
          | Ok l => negb (bool_decide (l = [byte8 0])) | _ => true end = true) as E1 by (vm_compute; reflexivity).
  rewrite <- E0 in E1. rewrite bool_decide_eq_true_2 in E1 by done. discriminate E1.
Qed.
Print Assumptions C106_same_rows_refuted.

(** ** C71: random forests *)

(** More features than non-class attributes: an error, and the forest stays as it was. *)
Theorem C71_rejects {C} ao co ro (fit : C → grid → res C) order fuel drawr drawa tree size features model on :
  any_order ao → distinct_attrs (gr_all_attrs on) → (Z.of_nat (length (others on)) < features)%Z →
  forest_fit ao co ro fit order fuel drawr drawa tree size features model on = Ok (model, true).
Proof.
  intros H1 H2 H3. exact (forest_rejects ao co ro fit drawr drawa tree size features model on H1 H2 order fuel H3).
Qed.
Print Assumptions C71_rejects.

(** Otherwise no error, and the forest holds ForestSize trees, each of them fitted to
    as many attributes as requested. *)
Theorem C71_accepts {C} ao co ro (fit : C → grid → res C) order fuel drawr drawa tree size features model on model' err :
  any_order ao → any_order co → distinct_attrs (gr_all_attrs on) → finds_own on →
  gr_class_attrs on ⊆ gr_all_attrs on → NoDup (gr_class_attrs on) →
  order ≡ₚ seq 0 (Z.to_nat size) → (features ≤ Z.of_nat (length (others on)))%Z →
  forest_fit ao co ro fit order fuel drawr drawa tree size features model on = Ok (model', err) →
  err = false ∧ ∃ b, model' = Some b ∧ length (bg_models b) = Z.to_nat size ∧
    ∀ i, i < Z.to_nat size → ∃ feats g c,
      bg_models b !! i = Some c ∧ fitted fit tree g c ∧
      distinct_attrs feats ∧ feats ⊆ others on ∧
      length feats = (if bool_decide (features = 0%Z) then length (others on) else Z.to_nat features) ∧
      gr_all_attrs g = feats ++ gr_class_attrs on ∧ (gr_size g).2 = (gr_size on).2.
Proof.
  intros H1 H2 H3 H4 H5 H6 Ho Hf H.
  destruct (forest_accepts ao co ro fit drawr drawa tree size features model on H1 H3 order fuel model' err Hf H)
    as (-> & b & -> & Hb).
  split; [done|]. exists b. split; [done|].
  set (b0 := Bag (replicate (Z.to_nat size) tree) ∅) in *.
  assert (length (bg_models b0) = Z.to_nat size) as Hl by apply replicate_length.
  split.
  { rewrite <- Hl. eapply bag_fit_length, Hb. rewrite Ho. apply NoDup_seq. }
  intros i Hi.
  destruct (C62_selected ao co ro fit fuel drawr drawa features on order b0 b i)
    as (feats & g & c & c' & Hd & Hsub & Hn & Ha & Hc & Hz & _ & Hm & Hfit & Hm' & _); try done.
  { by rewrite Hl. }
  { by rewrite Hl. }
  exists feats, g, c'. cbn in Hm. apply lookup_replicate in Hm as [-> _]. done.
Qed.
Print Assumptions C71_accepts.

(** And it does end, for random sources that keep producing every index. *)
Theorem C71_ends {C} ao co ro (fit : C → grid → res C) order drawr drawa tree size features model on :
  any_order ao → distinct_attrs (gr_all_attrs on) → finds_own on → gr_class_attrs on ⊆ gr_all_attrs on →
  order ≡ₚ seq 0 (Z.to_nat size) → (features ≤ Z.of_nat (length (others on)))%Z →
  (∀ i, i < Z.to_nat size → fair (length (others on)) (drawa i)) → (∀ c g, fit c g ≠ Panic) →
  ∃ fuel, ∀ extra, ∃ b,
    forest_fit ao co ro fit order (fuel + extra) drawr drawa tree size features model on = Ok (Some b, false).
Proof.
  intros H1 H2 H3 H4 Ho Hf Hd Hp.
  destruct (bag_fit_ends ao co ro fit order drawr drawa features (Bag (replicate (Z.to_nat size) tree) ∅) on)
    as (fuel & H); try done.
  { cbn [bg_models]. by rewrite replicate_length. }
  { cbn [bg_models]. by rewrite replicate_length. }
  exists fuel. intros extra. destruct (H extra) as (b & Hb). exists b. unfold forest_fit.
  rewrite (others_candidates ao on H1 H2). replace (_ <? _)%Z with false by (symmetry; apply Z.ltb_ge; lia).
  rewrite add_models. cbn [bg_models bg_selected app]. rewrite Hb. done.
Qed.
Print Assumptions C71_ends.

Example C71_ex :
  others t_train = [tx; ty; tw] ∧
  forest_fit id id id b_fit [0;1] 10 b_drawr b_drawa [] 2 4 None t_train = Ok (None, true) ∧
  match forest_fit id id id b_fit [0;1] 10 b_drawr b_drawa [] 2 2 None t_train with
  | Ok (Some b, false) => bg_models b = [[tx; ty; tc]; [ty; tw; tc]]
  | _ => False
  end.
Proof. split; [vm_compute; reflexivity|]. split; vm_compute; reflexivity. Qed.

(** ** C63: one versus all, prediction *)

Theorem C63_best {C} (predict : C → grid → res grid) co pg order show (o : ova C) what name vs score :
  any_order order →
  gr_class_attrs what = [CatA name vs] → (N.of_nat (length vs) < 2^63)%N → ov_max o < length vs →
  (∀ j, j ≤ ov_max o → ∃ f c p a s,
     ov_filters o !! j = Some f ∧ ov_models o !! j = Some c ∧
     predict c (lf_grid co (new_lfiltered what f)) = Ok p ∧
     gr_class_attrs p = [a] ∧ gr_get_attribute p a = Ok s ∧
     ∀ r, r < (gr_size what).2 → ∃ raw, gr_get p s r = Ok raw ∧ unpack_float raw = Ok (score j r)) →
  ∃ ret, ova_predict predict co pg order o what = Ok ret ∧ d_maxrow ret = (gr_size what).2 ∧
    ∀ r, r < (gr_size what).2 → ∃ j c,
      best_scoring (λ i, score i r) (ov_max o) j ∧ vs !! j = Some c ∧ reads_class show ret r c.
Proof.
  intros H1 H2 H3 H4 H5. exact (ova_predict_best predict co pg order show o what name vs score H1 H2 H3 H4 H5).
Qed.
Print Assumptions C63_best.

(** Three classes u, v, w and two rows.  The scores of the first row are 1, 5, 2, of the
    second 3, 3, -1: v and u. *)
Definition o_scores : list (list Z) := [[1;3];[5;3];[2;-1]]%Z.
Definition o_score (j r : nat) : binary64 := c_num (nth r (nth j o_scores []) 0%Z).
Definition o_predict (j : nat) (g : grid) : res grid := Ok (c_grid (map (λ c, (0, 0, c)%Z) (nth j o_scores []))).
Definition o_filter (j : nat) : filter_t := of_ok (attrs ← ova_attrs id ex_what; Ok (ova_filter attrs fc j)) (Filter [] (λ _ _ x, Ok x)).
Definition o_model : ova nat := Ova (map o_filter [0;1;2]) [0;1;2] 2.

Definition o_rowb (raw : res (list N)) (x : binary64) : bool :=
  match raw with Ok l => match unpack_float l with Ok y => same_bits y x | _ => false end | _ => false end.
Lemma o_rowb_ok raw x : o_rowb raw x = true → ∃ l, raw = Ok l ∧ unpack_float l = Ok x.
Proof.
  unfold o_rowb. destruct raw as [l| |]; [|done..]. destruct (unpack_float l) as [y| |] eqn:E; [|done..].
  intros H. exists l. split; [done|]. rewrite E. f_equal. by apply same_bits_eq.
Qed.

Example C63_ex :
  gr_class_attrs ex_what = [fc] ∧ ov_max o_model < 3 ∧
  (∀ j, j ≤ ov_max o_model → ∃ f c p a s,
     ov_filters o_model !! j = Some f ∧ ov_models o_model !! j = Some c ∧
     o_predict c (lf_grid id (new_lfiltered ex_what f)) = Ok p ∧
     gr_class_attrs p = [a] ∧ gr_get_attribute p a = Ok s ∧
     ∀ r, r < (gr_size ex_what).2 → ∃ raw, gr_get p s r = Ok raw ∧ unpack_float raw = Ok (o_score j r)) ∧
  match ova_predict o_predict id 64 id o_model ex_what with
  | Ok ret => map (get_class ex_show (dense_grid (map_to_list (d_class ret)) ret)) [0;1] = [Ok "v"; Ok "u"]
  | _ => False
  end.
Proof.
  split; [vm_compute; reflexivity|]. split; [cbn; lia|]. split; [|vm_compute; reflexivity].
  intros j Hj. cut (j < 3); [|cbn in Hj; lia]. clear Hj. revert j. apply below_cases.
  repeat constructor; eexists _, _, _, cc, (Spec 0 2 cc).
  all: split; [reflexivity|]; split; [reflexivity|]; split; [reflexivity|].
  all: split; [vm_compute; reflexivity|]; split; [vm_compute; reflexivity|].
  all: replace (gr_size ex_what).2 with 2 by (vm_compute; reflexivity); apply below_cases; repeat constructor.
  all: apply o_rowb_ok; vm_compute; reflexivity.
Qed.

(** ** C107: one versus all, training *)

(** After Fit there is a model for each class, made under the name of the class and fitted
    to the training set with the class turned into 1 for its own rows, 0 for others; with
    no rows it is not fitted. *)
Theorem C107_relabelled {C} (make : string → C) fit oo co on name vals o :
  any_order oo → any_order co → distinct_attrs (gr_all_attrs on) → finds_own on →
  CatA name vals ∈ gr_all_attrs on → gr_class_attrs on = [CatA name vals] →
  (∀ p, FloatA name p ∉ gr_all_attrs on) → NoDup vals →
  ova_fit make fit oo co on = Ok o →
  ov_max o + 1 = length vals ∧ length (ov_filters o) = length vals ∧ length (ov_models o) = length vals ∧
  ∀ j v, vals !! j = Some v → ∃ c g,
    ov_models o !! j = Some c ∧ relabelled on g (CatA name vals) j ∧
    if (gr_size on).2 =? 0 then c = make v else fitted fit (make v) g c.
Proof.
  intros H1 H2 H3 H4 H5 H6 H7 H8 H.
  destruct (ova_fit_spec make fit oo co on name vals H1 H2 H3 H4 H5 H6 H7 H8 o H) as (A & B & D & E).
  split; [done|]. split; [done|]. split; [done|]. intros j v Hv.
  destruct (E j v Hv) as (c & g & F1 & F2 & F3). exists c, g. split; [done|]. split; [done|].
  destruct (_ =? 0); [done|]. by apply fitted_ok.
Qed.
Print Assumptions C107_relabelled.

(** Fit succeeds when there is one categorical class with two values or more ... *)
Theorem C107_fits {C} (make : string → C) fit oo co on name vals :
  gr_class_attrs on = [CatA name vals] → NoDup vals → 2 ≤ length vals → (∀ c g, fit c g ≠ Panic) →
  ∃ o, ova_fit make fit oo co on = Ok o.
Proof. exact (ova_fit_total make fit oo co on name vals). Qed.
Print Assumptions C107_fits.

(** ... and panics in every other case. *)
Theorem C107_panics {C} (make : string → C) fit oo co on :
  (∀ name vals, gr_class_attrs on = [CatA name vals] → NoDup vals ∧ length vals ≤ 1) →
  ova_fit make fit oo co on = Panic.
Proof.
  intros H. apply ova_fit_rejects; [intros name vals E _; by apply (H name)|intros name vals E; by apply (H name)].
Qed.
Print Assumptions C107_panics.

Definition o_code (r : res (list N)) : option N := match r with Ok l => match unpack_u64 l with Ok x => Some x | _ => None end | _ => None end.
(** Fitted "classifiers" that record the labels they see. *)
Definition o_fit (c : list (option N)) (g : grid) : res (list (option N)) :=
  match gr_class_attrs g with
  | [a] => s ← gr_get_attribute g a; Ok (map (λ r, o_code (gr_get g s r)) (seq 0 (gr_size g).2))
  | _ => Err
  end.
Example C107_ex :
  distinct_attrs (gr_all_attrs ex_train) ∧ finds_own ex_train ∧ fc ∈ gr_all_attrs ex_train ∧
  gr_class_attrs ex_train = [fc] ∧ (∀ p, FloatA (attr_name fc) p ∉ gr_all_attrs ex_train) ∧
  (let y := Some 0x3FF0000000000000%N in let n := Some 0%N in
   match ova_fit (λ _, []) o_fit id id ex_train with
   | Ok o => ov_models o = [[y;y;n;n;n]; [n;n;y;n;n]; [n;n;n;y;y]]
   | _ => False
   end).
Proof.
  assert (gr_all_attrs ex_train = [fx; fc]) as E by (vm_compute; reflexivity).
  split; [apply distinctb_spec; vm_compute; reflexivity|].
  split; [apply own_check_ok; vm_compute; reflexivity|].
  split; [rewrite E; apply elem_of_list_further, elem_of_list_here|]. split; [vm_compute; reflexivity|].
  split; [|vm_compute; reflexivity].
  rewrite E. clear E. intros p H. apply elem_of_cons in H as [H|H]; [discriminate H|].
  apply elem_of_cons in H as [H|H]; [discriminate H|]. by apply elem_of_nil in H.
Qed.
