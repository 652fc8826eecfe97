(** Properties C66 and C115 to C118: neural networks. *)
From Coq Require Import Reals Lra.
From Coquelicot Require Import Hierarchy Derive AutoDerive.
From Verif Require Import Prelude DenseProofs FloatModel MetricModel MetricSpec MetricReal LinReal NeuralModel NeuralSpec NeuralProofs NeuralReal
  NeuralFloat.
From Flocq Require Import IEEE754.BinarySingleNaN IEEE754.Bits IEEE754.Binary.
Local Open Scope nat_scope.

(** ** C66: the accessors *)

Lemma weight_out {A} (n : network A) s t : sound_net n → ¬ (1 <= s ∧ s <= n_size n ∧ 1 <= t ∧ t <= n_size n) → get_weight n s t = Panic.
Proof.
  intros ((H1 & H2 & _) & _) H. unfold get_weight. destruct s as [|s]; [done|]. destruct t as [|t]; [done|]. cbn [Nat.eqb orb].
  apply mx_at_out. rewrite H1, H2. lia.
Qed.

Lemma bias_out {A} (n : network A) k : sound_net n → ¬ (1 <= k ∧ k <= n_size n) → get_bias n k = Panic.
Proof.
  intros (_ & H & _) Hk. unfold get_bias. destruct k as [|k]; [done|]. cbn [Nat.eqb]. unfold idx.
  by rewrite lookup_ge_None_2 by lia.
Qed.

Theorem C66_new {A} (o : arith A) size input f : 0 < size → input <= size →
  ∃ n, net_new o size input f = Ok n ∧ sound_net n ∧ n_size n = size ∧ n_input n = input ∧ n_orig n = None ∧
    (∀ s t, 1 <= s <= size → 1 <= t <= size →
       get_weight n s t = Ok (if decide (s = t ∧ s <= input) then a_one o else a_zero o)) ∧
    ∀ k, 1 <= k <= size → get_bias n k = Ok (a_zero o).
Proof.
  intros HN HI. destruct (net_new_ok o size input f HN HI) as (n & Hn & Ho & Hh). exists n. split; [done|].
  split; [apply (holds_sound _ _ _ _ _ _ Hh HI); by rewrite Ho|]. destruct (Hh) as (_ & _ & _ & H4 & H5).
  split; [done|]. split; [done|]. split; [done|]. split.
  - intros s t Hs Ht. destruct s as [|s]; [lia|]. destruct t as [|t]; [lia|]. rewrite (get_weight_ok _ _ _ _ _ _ _ _ Hh) by lia.
    f_equal. case_decide as E.
    + assert ((t =? s) && (t <? input) = true) as ->; [|done]. apply andb_true_iff. rewrite Nat.eqb_eq, Nat.ltb_lt. lia.
    + assert ((t =? s) && (t <? input) = false) as ->; [|done]. apply andb_false_iff. rewrite Nat.eqb_neq, Nat.ltb_ge. lia.
  - intros k Hk. destruct k as [|k]; [lia|]. by rewrite (get_bias_ok _ _ _ _ _ _ _ Hh) by lia.
Qed.
Print Assumptions C66_new.

(** SetWeight changes the one weight it names. *)
Theorem C66_weight {A} (o : arith A) (n : network A) src target v : sound_net n → 1 <= src <= n_size n → 1 <= target <= n_size n →
  ∃ n', set_weight n src target v = Ok n' ∧ sound_net n' ∧ get_weight n' src target = Ok v ∧
    (∀ s t, (s, t) ≠ (src, target) → get_weight n' s t = get_weight n s t) ∧
    ∀ k, get_bias n' k = get_bias n k.
Proof.
  intros Hn Hs Ht. destruct (sound_holds o n Hn) as (W & b & f & Hh). pose proof (proj1 (proj2 (proj2 (proj2 Hn)))) as HI.
  destruct src as [|src]; [lia|]. destruct target as [|target]; [lia|].
  destruct (set_weight_ok n _ _ W b f src target v Hh ltac:(lia) ltac:(lia)) as (n' & Hn' & Ho & Hh').
  assert (sound_net n') as Hsn.
  { apply (holds_sound _ _ _ _ _ _ Hh' HI). intros w Hw. rewrite Ho in Hw. by apply Hn in Hw. }
  assert (n_size n' = n_size n) as Hsz by apply Hh'.
  exists n'. split; [done|]. split; [done|]. split; [|split].
  - rewrite (get_weight_ok _ _ _ _ _ _ _ _ Hh') by lia. unfold put. by rewrite !Nat.eqb_refl.
  - intros s t Hne. destruct (decide (1 <= s ∧ s <= n_size n ∧ 1 <= t ∧ t <= n_size n)) as [Hin|Hout].
    + destruct s as [|s]; [lia|]. destruct t as [|t]; [lia|].
      rewrite (get_weight_ok _ _ _ _ _ _ _ _ Hh'), (get_weight_ok _ _ _ _ _ _ _ _ Hh) by lia. unfold put.
      destruct (_ && _) eqn:E; [|done]. apply andb_true_iff in E as [E1 E2]. apply Nat.eqb_eq in E1, E2. by subst.
    + rewrite !weight_out; [done|done|done|done|by rewrite Hsz].
  - intros k. destruct (decide (1 <= k ∧ k <= n_size n)) as [Hin|Hout].
    + destruct k as [|k]; [lia|]. by rewrite (get_bias_ok _ _ _ _ _ _ _ Hh'), (get_bias_ok _ _ _ _ _ _ _ Hh) by lia.
    + rewrite !bias_out; [done|done|done|done|by rewrite Hsz].
Qed.
Print Assumptions C66_weight.

(** SetBias changes the one bias it names, and none if it names an input node. *)
Theorem C66_bias {A} (o : arith A) (n : network A) node v : sound_net n → 1 <= node <= n_size n →
  ∃ n', set_bias n node v = Ok n' ∧ sound_net n' ∧
    get_bias n' node = (if decide (node <= n_input n) then get_bias n node else Ok v) ∧
    (∀ k, k ≠ node → get_bias n' k = get_bias n k) ∧
    ∀ s t, get_weight n' s t = get_weight n s t.
Proof.
  intros Hn Hk. destruct (sound_holds o n Hn) as (W & b & f & Hh). pose proof (proj1 (proj2 (proj2 (proj2 Hn)))) as HI.
  destruct node as [|node]; [lia|].
  destruct (set_bias_ok n _ _ W b f node v Hh ltac:(lia)) as (n' & Hn' & Ho & Hh').
  assert (sound_net n') as Hsn.
  { apply (holds_sound _ _ _ _ _ _ Hh' HI). intros w Hw. rewrite Ho in Hw. by apply Hn in Hw. }
  assert (n_size n' = n_size n) as Hsz by apply Hh'.
  exists n'. split; [done|]. split; [done|]. split; [|split].
  - rewrite (get_bias_ok _ _ _ _ _ _ _ Hh') by lia. case_decide as E.
    + assert (node <? n_input n = true) as -> by (apply Nat.ltb_lt; lia). by rewrite (get_bias_ok _ _ _ _ _ _ _ Hh) by lia.
    + assert (node <? n_input n = false) as -> by (apply Nat.ltb_ge; lia). unfold put1. by rewrite Nat.eqb_refl.
  - intros k Hne. destruct (decide (1 <= k ∧ k <= n_size n)) as [Hin|Hout].
    + destruct k as [|k]; [lia|]. rewrite (get_bias_ok _ _ _ _ _ _ _ Hh'), (get_bias_ok _ _ _ _ _ _ _ Hh) by lia.
      destruct (node <? n_input n); [done|]. unfold put1. by assert (k =? node = false) as -> by (apply Nat.eqb_neq; lia).
    + rewrite !bias_out; [done|done|done|done|by rewrite Hsz].
  - intros s t. destruct (decide (1 <= s ∧ s <= n_size n ∧ 1 <= t ∧ t <= n_size n)) as [Hin|Hout].
    + destruct s as [|s]; [lia|]. destruct t as [|t]; [lia|].
      by rewrite (get_weight_ok _ _ _ _ _ _ _ _ Hh'), (get_weight_ok _ _ _ _ _ _ _ _ Hh) by lia.
    + rewrite !weight_out; [done|done|done|done|by rewrite Hsz].
Qed.
Print Assumptions C66_bias.

(** Steps of training, in any order. *)
Inductive train_step (A : Type) := TrainWeights (out err : mx A) (rate : A) | TrainBiases (err : mx A) (rate : A).
Arguments TrainWeights {A}. Arguments TrainBiases {A}.
Definition train {A} (o : arith A) (gt : A → A → bool) (faint : A) (n : network A) (steps : list (train_step A)) : res (network A) :=
  res_foldl (λ n s, match s with TrainWeights out err rate => update_weights o gt faint n out err rate
                               | TrainBiases err rate => update_bias o n err rate end) n steps.

Lemma tabM_cell {A} r c (f : nat → nat → res A) x i j : tabM r c f = Ok x → i < r → j < c →
  ∃ v, f i j = Ok v ∧ mx_at x i j = Ok v.
Proof.
  intros H Hi Hj. unfold tabM in H. apply bind_Ok in H as (d & Hd & H). injection H as <-.
  apply res_mapM_Ok in Hd. pose proof (cell_lt i j r c Hi Hj) as Hk.
  destruct (Forall2_lookup_l _ _ _ (i * c + j) (i * c + j) Hd) as (v & Hv & E).
  { by rewrite lookup_seq_lt. }
  rewrite cell_div, cell_mod in E by done. exists v. split; [done|]. unfold mx_at. cbn [mx_rows mx_cols mx_data].
  assert ((i <? r) && (j <? c) = true) as -> by (apply andb_true_iff; split; apply Nat.ltb_lt; done).
  unfold idx. by rewrite Hv.
Qed.

Lemma tabM_dims {A} r c (f : nat → nat → res A) x : tabM r c f = Ok x → mx_rows x = r ∧ mx_cols x = c.
Proof. unfold tabM. intros H. apply bind_Ok in H as (d & _ & H). by injection H as <-. Qed.

(** Training never creates a connection: a weight between two nodes that was zero when training
    began is zero after every sequence of training steps. *)
Lemma train_absent {A} (o : arith A) gt faint (n n' : network A) steps s t w : s ≠ t → gt (a_abs o w) faint = false →
  n_orig n = None → get_weight n s t = Ok w → train o gt faint n steps = Ok n' →
  get_weight n' s t = Ok w ∨ get_weight n' s t = Ok (a_zero o).
Proof.
  intros Hne Hw Ho Hg Hrun.
  assert (∀ steps n, get_weight n s t = Ok w ∨ get_weight n s t = Ok (a_zero o) →
    (∃ v, gt (a_abs o v) faint = false ∧
      (if (s =? 0) || (t =? 0) then Panic else mx_at (default (n_weights n) (n_orig n)) (t - 1) (s - 1)) = Ok v) →
    train o gt faint n steps = Ok n' → get_weight n' s t = Ok w ∨ get_weight n' s t = Ok (a_zero o)) as H.
  { clear n Ho Hg steps Hrun. induction steps as [|st steps IH]; intros n Hg Hv Hrun.
    - injection Hrun as <-. done.
    - unfold train in Hrun. cbn [res_foldl] in Hrun. apply bind_Ok in Hrun as (m & Hm & Hrun). apply (IH m); [| |exact Hrun]; clear IH Hrun.
      + destruct Hv as (v & Hv & Hat). unfold get_weight in *. destruct ((s =? 0) || (t =? 0)) eqn:E0; [discriminate|].
        apply orb_false_iff in E0 as [E1 E2]. apply Nat.eqb_neq in E1, E2.
        destruct st as [out err rate|err rate].
        * unfold update_weights in Hm. apply bind_Ok in Hm as (w' & Hw' & Hm). injection Hm as <-. cbn [n_weights].
          unfold mx_apply in Hw'.
          assert (t - 1 < mx_rows (n_weights n) ∧ s - 1 < mx_cols (n_weights n)) as [B1 B2].
          { destruct (decide (t - 1 < mx_rows (n_weights n) ∧ s - 1 < mx_cols (n_weights n))) as [?|B]; [done|].
            rewrite (mx_at_out _ _ _ B) in Hg. by destruct Hg. }
          destruct (tabM_cell _ _ _ _ _ _ Hw' B1 B2) as (u & Hu & ->). right.
          apply bind_Ok in Hu as (z & _ & Hu). assert (t - 1 =? s - 1 = false) as Ets by (apply Nat.eqb_neq; lia).
          rewrite Ets, Hat in Hu. cbn [mbind res_bind] in Hu. rewrite Hv in Hu. by injection Hu as ->.
        * unfold update_bias in Hm. apply bind_Ok in Hm as (b' & _ & Hm). injection Hm as <-. exact Hg.
      + destruct Hv as (v & Hv & Hat). exists v. split; [done|].
        destruct st as [out err rate|err rate].
        * unfold update_weights in Hm. apply bind_Ok in Hm as (w' & _ & Hm). injection Hm as <-. exact Hat.
        * unfold update_bias in Hm. apply bind_Ok in Hm as (b' & _ & Hm). injection Hm as <-. exact Hat. }
  apply (H steps n); [by left| |done]. exists w. split; [done|]. rewrite Ho. cbn [default]. exact Hg.
Qed.

Theorem C66_never_connects (n n' : network binary64) steps s t : s ≠ t → n_orig n = None →
  get_weight n s t = Ok (a_zero float64) → train float64 gt64 faint64 n steps = Ok n' →
  get_weight n' s t = Ok (a_zero float64).
Proof.
  intros Hne Ho Hg Hrun. by destruct (train_absent float64 gt64 faint64 n n' steps s t (a_zero float64) Hne eq_refl Ho Hg Hrun).
Qed.
Print Assumptions C66_never_connects.

(** *** An example: the network of the package's own test, with three inputs. *)
Definition w64 (z : Z) : binary64 := b64_div mode_NE (binary_normalize 53 1024 eq_refl eq_refl mode_NE z 0 false) (b64_of_bits 0x4024000000000000).
Definition ex_net : res (network binary64) :=
  n ← net_new float64 6 3 (linear float64);
  res_foldl (λ n '(s, t, v), set_weight n s t (w64 v)) n
    [(1, 4, 2%Z); (1, 5, (-3)%Z); (2, 4, 4%Z); (2, 5, 1%Z); (3, 4, (-5)%Z); (3, 5, 2%Z); (4, 6, (-3)%Z); (5, 6, (-2)%Z)].
Definition ex_out : mx binary64 := tab 6 1 (λ i _, w64 (Z.of_nat i + 1)).
Definition okn {A} (r : res (network A)) : bool := match r with Ok _ => true | _ => false end.
Lemma okn_ok {A} (r : res (network A)) : okn r = true → ∃ n, r = Ok n.
Proof. destruct r as [n| |]; [by exists n|discriminate|discriminate]. Qed.

Definition bits_are (r : res binary64) (x : binary64) : bool :=
  match r with Ok y => Z.eqb (bits_of_b64 y) (bits_of_b64 x) | _ => false end.
Lemma bits_are_ok r x : bits_are r x = true → r = Ok x.
Proof.
  unfold bits_are. destruct r as [y| |]; [|done|done]. intros E. apply Z.eqb_eq in E. f_equal.
  rewrite <- (binary_float_of_bits_of_binary_float 52 11 eq_refl eq_refl eq_refl x).
  rewrite <- (binary_float_of_bits_of_binary_float 52 11 eq_refl eq_refl eq_refl y).
  f_equal. exact E.
Qed.

(** Two steps on it: nodes 1 and 6 stay unconnected. *)
Example C66_example : ∃ n n', ex_net = Ok n ∧ n_orig n = None ∧
  train float64 gt64 faint64 n [TrainWeights ex_out ex_out (w64 9); TrainBiases ex_out (w64 9); TrainWeights ex_out ex_out (w64 9)] = Ok n' ∧
  get_weight n 1 6 = Ok (a_zero float64) ∧ get_weight n' 1 6 = Ok (a_zero float64).
Proof.
  destruct (okn_ok ex_net) as (n & Hn); [vm_compute; reflexivity|].
  assert (bits_are (n ← ex_net; get_weight n 1 6) (a_zero float64) = true) as H1 by (vm_compute; reflexivity).
  assert (match ex_net with Ok n => match n_orig n with None => true | _ => false end | _ => false end = true) as H2 by (vm_compute; reflexivity).
  assert (okn (n ← ex_net; train float64 gt64 faint64 n [TrainWeights ex_out ex_out (w64 9); TrainBiases ex_out (w64 9); TrainWeights ex_out ex_out (w64 9)])
    = true) as H3 by (vm_compute; reflexivity).
  rewrite Hn in H1, H2, H3. cbn [mbind res_bind] in H1, H3. apply okn_ok in H3 as (n' & H3). apply bits_are_ok in H1.
  assert (n_orig n = None) as H4 by (by destruct (n_orig n)).
  exists n, n'. split; [exact Hn|]. split; [exact H4|]. split; [exact H3|]. split; [exact H1|].
  exact (C66_never_connects n n' _ 1 6 ltac:(lia) H4 H1 H3).
Qed.

(** ** C115: training moves every connection *)

(** What the first UpdateWeights does to a network: connections stronger than 0.005 move by
    rate * output * error, the weights of nodes to themselves stay, everything else becomes zero. *)
Theorem C115_moves (n : network binary64) out err rate : sound_net n → n_orig n = None →
  shaped (n_size n) 1 out → shaped (n_size n) 1 err →
  ∃ n', update_weights float64 gt64 faint64 n out err rate = Ok n' ∧ sound_net n' ∧
    ∀ s t w x e, get_weight n s t = Ok w → mx_at out (s - 1) 0 = Ok x → mx_at err (t - 1) 0 = Ok e →
      get_weight n' s t = Ok (if decide (s = t) then w
                              else if gt64 (b64_abs w) faint64 then b64_plus mode_NE w (b64_mult mode_NE (b64_mult mode_NE rate x) e)
                              else a_zero float64).
Proof.
  intros Hn Ho Hout Herr. destruct (sound_holds float64 n Hn) as (W & b & f & Hh).
  pose proof (proj1 (proj2 (proj2 (proj2 Hn)))) as HI.
  pose proof (shaped_tab _ _ _ (a_zero float64) Hout) as Eo. pose proof (shaped_tab _ _ _ (a_zero float64) Herr) as Ee.
  set (fo := λ i j, nth (i * 1 + j) (mx_data out) (a_zero float64)) in Eo.
  set (fe := λ i j, nth (i * 1 + j) (mx_data err) (a_zero float64)) in Ee.
  destruct (update_weights_ok float64 gt64 faint64 n _ _ W b f W fo fe rate Hh) as (n' & Hn' & Ho' & Hh').
  { rewrite Ho. apply Hh. }
  rewrite <- Eo, <- Ee in Hn'. exists n'. split; [done|]. split.
  { apply (holds_sound _ _ _ _ _ _ Hh' HI). intros w Hw. rewrite Ho' in Hw. injection Hw as <-. apply tab_shaped. }
  intros s t w x e Hw Hx He.
  destruct (decide (1 <= s ∧ s <= n_size n ∧ 1 <= t ∧ t <= n_size n)) as [Hin|Hout'].
  2:{ by rewrite weight_out in Hw. }
  destruct s as [|s]; [lia|]. destruct t as [|t]; [lia|].
  rewrite (get_weight_ok _ _ _ _ _ _ _ _ Hh) in Hw by lia. injection Hw as <-.
  rewrite (get_weight_ok _ _ _ _ _ _ _ _ Hh') by lia. rewrite Eo, Nat.sub_succ, Nat.sub_0_r, mx_at_tab in Hx by lia.
  rewrite Ee, Nat.sub_succ, Nat.sub_0_r, mx_at_tab in He by lia. injection Hx as <-. injection He as <-.
  unfold moved. f_equal. case_decide as E.
  - assert (t =? s = true) as -> by (apply Nat.eqb_eq; lia). done.
  - assert (t =? s = false) as -> by (apply Nat.eqb_neq; lia). done.
Qed.
Print Assumptions C115_moves.

(** A connection of strength 0.004 is cut by the first update, whatever it should have moved by. *)
Theorem C115_weak_refuted : ∃ n n' w, net_new float64 2 1 (linear float64) = Ok n ∧
  (m ← set_weight n 1 2 w; update_weights float64 gt64 faint64 m (tab 2 1 (λ _ _, w64 10)) (tab 2 1 (λ _ _, w64 10)) (w64 9)) = Ok n' ∧
  w = b64_of_bits 0x3F70624DD2F1A9FC ∧ b64_compare w (a_zero float64) = Some Gt ∧
  get_weight n' 1 2 = Ok (a_zero float64).
Proof.
  destruct (okn_ok (net_new float64 2 1 (linear float64))) as (n & Hn); [vm_compute; reflexivity|].
  set (w := b64_of_bits 0x3F70624DD2F1A9FC).
  assert (okn (n ← net_new float64 2 1 (linear float64);
    m ← set_weight n 1 2 w; update_weights float64 gt64 faint64 m (tab 2 1 (λ _ _, w64 10)) (tab 2 1 (λ _ _, w64 10)) (w64 9)) = true) as H1
    by (vm_compute; reflexivity).
  assert (bits_are (n ← net_new float64 2 1 (linear float64);
    m ← set_weight n 1 2 w; m ← update_weights float64 gt64 faint64 m (tab 2 1 (λ _ _, w64 10)) (tab 2 1 (λ _ _, w64 10)) (w64 9);
    get_weight m 1 2) (a_zero float64) = true) as H2 by (vm_compute; reflexivity).
  rewrite Hn in H1, H2. cbn [mbind res_bind] in H1, H2. apply okn_ok in H1 as (n' & H1). apply bits_are_ok in H2.
  exists n, n', w. split; [exact Hn|]. split; [exact H1|]. split; [reflexivity|]. split; [vm_compute; reflexivity|].
  destruct (set_weight n 1 2 w) as [m| |]; [|discriminate|discriminate]. cbn [mbind res_bind] in H1, H2.
  rewrite H1 in H2. exact H2.
Qed.
Print Assumptions C115_weak_refuted.

(** A connection of strength 1 that is set after a first update is cut by the next. *)
Theorem C115_late_refuted : ∃ n1 n2 n3,
  (n ← net_new float64 2 1 (linear float64); update_weights float64 gt64 faint64 n (tab 2 1 (λ _ _, w64 10)) (tab 2 1 (λ _ _, w64 10)) (w64 9)) = Ok n1 ∧
  set_weight n1 1 2 (a_one float64) = Ok n2 ∧ get_weight n2 1 2 = Ok (a_one float64) ∧
  update_weights float64 gt64 faint64 n2 (tab 2 1 (λ _ _, w64 10)) (tab 2 1 (λ _ _, w64 10)) (w64 9) = Ok n3 ∧
  get_weight n3 1 2 = Ok (a_zero float64).
Proof.
  set (v := tab 2 1 (λ _ _, w64 10)). set (r1 := n ← net_new float64 2 1 (linear float64); update_weights float64 gt64 faint64 n v v (w64 9)).
  destruct (okn_ok r1) as (n1 & H1); [vm_compute; reflexivity|].
  destruct (okn_ok (n1 ← r1; set_weight n1 1 2 (a_one float64))) as (n2 & H2); [vm_compute; reflexivity|].
  destruct (okn_ok (n2 ← (n1 ← r1; set_weight n1 1 2 (a_one float64)); update_weights float64 gt64 faint64 n2 v v (w64 9))) as (n3 & H3);
    [vm_compute; reflexivity|].
  assert (bits_are (n2 ← (n1 ← r1; set_weight n1 1 2 (a_one float64)); get_weight n2 1 2) (a_one float64) = true) as H4 by (vm_compute; reflexivity).
  assert (bits_are (n2 ← (n1 ← r1; set_weight n1 1 2 (a_one float64)); n3 ← update_weights float64 gt64 faint64 n2 v v (w64 9); get_weight n3 1 2)
    (a_zero float64) = true) as H5 by (vm_compute; reflexivity).
  rewrite H2 in H3, H4, H5. cbn [mbind res_bind] in H3, H4, H5. rewrite H3 in H5. cbn [mbind res_bind] in H5.
  rewrite H1 in H2. cbn [mbind res_bind] in H2. apply bits_are_ok in H4, H5.
  exists n1, n2, n3. split; [exact H1|]. split; [exact H2|]. split; [exact H4|]. split; [exact H3|exact H5].
Qed.
Print Assumptions C115_late_refuted.

(** ** C116: Activate computes the feed-forward state *)

(** In a network that feeds forward, as many rounds as there are ranks suffice: more rounds change
    nothing, the inputs are still there, every other node holds its function of the weighted
    sum of the nodes before it, and what stood in these nodes before makes no difference. *)
Theorem C116_settles (n : network binary64) N I L rank W b f cols x : I <= N → holds_net n N I W b f →
  feeds_forward float64 N I L rank W b f → (∀ i c, i < I → plain (x i c)) →
  ∃ out, (∀ k, L <= k → activate float64 n (tab N cols x) k = Ok (tab N cols out)) ∧
    (∀ c, c < cols → (∀ i, i < I → out i c = x i c) ∧
      ∀ j, I <= j → j < N → out j c = forward (f j) (b64_plus mode_NE (wsum float64 (W j) (λ s, out s c) N) (b j))) ∧
    ∀ y k, L <= k → (∀ i c, i < I → y i c = x i c) → activate float64 n (tab N cols y) k = Ok (tab N cols out).
Proof.
  intros HIN Hn Hff Hx.
  assert (passes float64 I x) as Hp by (intros i c Hi; by apply plain_passes, Hx).
  assert (a_eqb float64 (a_one float64) (a_zero float64) = false) as Hio by (vm_compute; reflexivity).
  assert (∀ j, j < N → rank j <= L) as Hr.
  { intros j Hj. destruct Hff as [H1 H2]. destruct (decide (j < I)) as [Hi|Hi].
    - destruct (H1 j Hi). lia.
    - destruct (H2 j ltac:(lia) Hj) as (_ & ? & _). done. }
  exists (Nat.iter L (round float64 N W b f) x). split; [|split].
  - intros k Hk. rewrite (activate_ok float64 n N I W b f) by done. f_equal. apply tab_ext. intros i c Hi Hc.
    apply (settled float64 N I L rank W b f Hff Hio x x c HIN Hp (λ _ _, eq_refl) L); [done|by apply Hr| |by apply Hr].
    etransitivity; [by apply Hr|done].
  - intros c Hc. split.
    + intros i Hi. by apply (input_kept float64 N I L rank W b f Hff Hio).
    + intros j HI Hj. rewrite <- (settled float64 N I L rank W b f Hff Hio x x c HIN Hp (λ _ _, eq_refl) L j (S L) L Hj (Hr j Hj)
        ltac:(etransitivity; [by apply Hr|lia]) (Hr j Hj)).
      by rewrite Nat.iter_succ.
  - intros y k Hk Hy. rewrite (activate_ok float64 n N I W b f) by done. f_equal. apply tab_ext. intros i c Hi Hc. symmetry.
    apply (settled float64 N I L rank W b f Hff Hio x y c HIN Hp) with (r := L); [|done|by apply Hr|by apply Hr|].
    + intros i' Hi'. symmetry. by apply Hy.
    + etransitivity; [by apply Hr|done].
Qed.
Print Assumptions C116_settles.

(** *** An example: the shape of the package's own test, three inputs, two nodes between and one
    output, with any weights [v] at its connections, any biases and any function. *)
Definition ex_links : list (nat * nat) := [(1, 4); (1, 5); (2, 4); (2, 5); (3, 4); (3, 5); (4, 6); (5, 6)].
Definition ex_build {A} (o : arith A) (g : nfun A) (v : nat * nat → A) (c : nat → A) : res (network A) :=
  n ← net_new o 6 3 g;
  n ← res_foldl (λ n l, set_weight n l.1 l.2 (v l)) n ex_links;
  res_foldl (λ n k, set_bias n k (c k)) n [4; 5; 6].
Definition ex_rank (j : nat) : nat := if j <? 3 then 0 else if j <? 5 then 1 else 2.

Lemma ex_feeds {A} (o : arith A) g v c : a_eqb o (a_zero o) (a_zero o) = true →
  ∃ n W b f, ex_build o g v c = Ok n ∧ n_orig n = None ∧ holds_net n 6 3 W b f ∧ feeds_forward o 6 3 2 ex_rank W b f ∧
    (∀ j, 3 <= j → f j = g) ∧ W 3 0 = v (1, 4) ∧ b 3 = c 4.
Proof.
  intros Hz. unfold ex_build. destruct (net_new_ok o 6 3 g ltac:(lia) ltac:(lia)) as (n0 & -> & Ho0 & H0). cbn [mbind res_bind].
  cbn [ex_links res_foldl fst snd].
  destruct (set_weight_ok _ _ _ _ _ _ 0 3 (v (1, 4)) H0 ltac:(lia) ltac:(lia)) as (n1 & -> & Ho1 & H1). cbn [mbind res_bind].
  destruct (set_weight_ok _ _ _ _ _ _ 0 4 (v (1, 5)) H1 ltac:(lia) ltac:(lia)) as (n2 & -> & Ho2 & H2). cbn [mbind res_bind].
  destruct (set_weight_ok _ _ _ _ _ _ 1 3 (v (2, 4)) H2 ltac:(lia) ltac:(lia)) as (n3 & -> & Ho3 & H3). cbn [mbind res_bind].
  destruct (set_weight_ok _ _ _ _ _ _ 1 4 (v (2, 5)) H3 ltac:(lia) ltac:(lia)) as (n4 & -> & Ho4 & H4). cbn [mbind res_bind].
  destruct (set_weight_ok _ _ _ _ _ _ 2 3 (v (3, 4)) H4 ltac:(lia) ltac:(lia)) as (n5 & -> & Ho5 & H5). cbn [mbind res_bind].
  destruct (set_weight_ok _ _ _ _ _ _ 2 4 (v (3, 5)) H5 ltac:(lia) ltac:(lia)) as (n6 & -> & Ho6 & H6). cbn [mbind res_bind].
  destruct (set_weight_ok _ _ _ _ _ _ 3 5 (v (4, 6)) H6 ltac:(lia) ltac:(lia)) as (n7 & -> & Ho7 & H7). cbn [mbind res_bind].
  destruct (set_weight_ok _ _ _ _ _ _ 4 5 (v (5, 6)) H7 ltac:(lia) ltac:(lia)) as (n8 & -> & Ho8 & H8). cbn [mbind res_bind].
  destruct (set_bias_ok _ _ _ _ _ _ 3 (c 4) H8 ltac:(lia)) as (n9 & -> & Ho9 & H9). cbn [mbind res_bind].
  destruct (set_bias_ok _ _ _ _ _ _ 4 (c 5) H9 ltac:(lia)) as (n10 & -> & Ho10 & H10). cbn [mbind res_bind].
  destruct (set_bias_ok _ _ _ _ _ _ 5 (c 6) H10 ltac:(lia)) as (n11 & -> & Ho11 & H11). cbn [mbind res_bind].
  eexists n11, _, _, _. split; [reflexivity|]. split; [congruence|]. split; [exact H11|]. clear -Hz.
  split; [split|split; [|split]].
  - intros [|[|[|i]]] Hi; [..|lia]; (split; [reflexivity|]; split; [reflexivity|]; split; [reflexivity|]; split; [reflexivity|];
      intros [|[|[|[|[|[|s]]]]]] Hs Hne; first [lia|exact Hz]).
  - intros [|[|[|[|[|[|j]]]]]] HI Hj; try lia; (split; [vm_compute; lia|]; split; [vm_compute; lia|];
      intros [|[|[|[|[|[|s]]]]]] Hs Hne; first [lia|vm_compute; lia|exfalso; cbn in Hne; congruence]).
  - intros [|[|[|j]]] Hj; try lia. reflexivity.
  - reflexivity.
  - reflexivity.
Qed.

Example C116_example : ∃ n W b f, ex_build float64 (linear float64) (λ l, w64 (Z.of_nat (l.1 + l.2) - 6)) (λ k, w64 (Z.of_nat k)) = Ok n ∧
  holds_net n 6 3 W b f ∧ feeds_forward float64 6 3 2 ex_rank W b f ∧ plain (w64 7).
Proof.
  destruct (ex_feeds float64 (linear float64) (λ l, w64 (Z.of_nat (l.1 + l.2) - 6)) (λ k, w64 (Z.of_nat k)) eq_refl)
    as (n & W & b & f & H1 & _ & H2 & H3 & _). exists n, W, b, f. split; [exact H1|]. split; [exact H2|]. split; [exact H3|].
  split; [vm_compute; reflexivity|]. intros E. apply (f_equal bits_of_b64) in E. vm_compute in E. discriminate E.
Qed.

(** ** C117: back-propagation computes the gradient *)

Lemma el_tab N g j : j < N → el (tab N 1 g) j = g j 0.
Proof.
  intros Hj. unfold el, tab. cbn [mx_data]. rewrite Nat.mul_1_r, (nth_indep _ _ (g 0 0)) by (by rewrite map_length, seq_length).
  rewrite (map_nth (λ k, g (k / 1) (k mod 1)) (seq 0 N) 0), seq_nth by done. cbn [Nat.add].
  rewrite Nat.div_1_r, Nat.mod_1_r. done.
Qed.

(** The derivative of a neural function, where Backward is given the value of Forward. *)
Definition backward_is_derivative (g : nfun R) : Prop := ∀ z, derivable_pt_lim (forward g) z (backward g (forward g z)).

Section c117.
  Context (n : network R) (N I L : nat) (rank : nat → nat) (W : nat → nat → R) (b : nat → R) (f : nat → nfun R).
  Context (HIN : I <= N) (Hn : holds_net n N I W b f) (Hff : feeds_forward reals N I L rank W b f).
  Context (Hf : ∀ j, I <= j → j < N → backward_is_derivative (f j)).
  Context (x out err delta : mx R) (k m : nat) (watched : nat → bool) (goal : nat → R).
  Context (Hx : shaped N 1 x) (Hk : L <= k) (Hm : L <= m).
  Context (Hout : activate reals n x k = Ok out).
  Context (Herr : shaped N 1 err) (Hwatch : ∀ j, j < N → el err j = if watched j then (goal j - el out j)%R else 0%R).
  Context (Hdelta : net_error reals n out err m = Ok delta).

  Lemma all_derive j z : j < N → is_derive (forward (f j)) z (backward (f j) (forward (f j) z)).
  Proof using Hff Hf HIN.
    clear -Hff Hf HIN. intros Hj. apply is_derive_Reals. destruct (decide (j < I)) as [Hi|Hi]; [|apply Hf; lia].
    destruct Hff as [H1 _]. destruct (H1 j Hi) as (_ & -> & _). cbn. apply derivable_pt_lim_id.
  Qed.

  Lemma family_derive (nf : R → network R) Wf bf w0 Wd bd :
    (∀ w, holds_net (nf w) N I (Wf w) (bf w) f) →
    (∀ i j, i < N → j < N → Wf w0 i j = W i j) → (∀ i, i < N → bf w0 i = b i) →
    (∀ i j, i < N → j < N → is_derive (λ w, Wf w i j) w0 (Wd i j)) → (∀ i, i < N → is_derive (λ w, bf w i) w0 (bd i)) →
    (∀ i j, i < N → j < N → Wd i j ≠ 0%R → I <= i ∧ rank j < rank i) → (∀ i, i < N → bd i ≠ 0%R → I <= i) →
    derivable_pt_lim (λ w, loss (nf w) x k N watched goal) w0
      (- total N (λ j, el delta j * (total N (λ s, Wd j s * el out s) + bd j)))%R.
  Proof using All.
    intros Hnf HW0 Hb0 HWd Hbd Hdir Hbdir. apply is_derive_Reals.
    pose proof (shaped_tab _ _ _ 0%R Hx) as Ex. set (fx := λ i j, nth (i * 1 + j) (mx_data x) 0%R) in Ex. rewrite Ex in Hout.
    rewrite (activate_ok reals n N I W b f) in Hout by done. injection Hout as <-.
    pose proof (shaped_tab _ _ _ 0%R Herr) as Ee. set (fe := λ i j, nth (i * 1 + j) (mx_data err) 0%R) in Ee.
    rewrite Ee, (net_error_ok reals n N I W b f) in Hdelta by done. injection Hdelta as <-.
    assert (∀ j, j < N → fe j 0 = if watched j then (goal j - Nat.iter k (round reals N W b f) fx j O)%R else 0%R) as Hfe.
    { intros j Hj. specialize (Hwatch j Hj). rewrite el_tab in Hwatch by done. rewrite <- Hwatch, Ee. by rewrite el_tab. }
    pose proof (loss_derive N I L rank W b f HIN Hff (λ j z Hj, all_derive j z Hj) Wf bf w0 Wd bd HW0 Hb0 HWd Hbd Hdir Hbdir fx k m Hk Hm
      (λ j, fe j O) goal watched Hfe) as H.
    assert (total N (λ j, el (tab N 1 (λ j _, summed reals N W (λ j0, backward (f j0) (Nat.iter k (round reals N W b f) fx j0 O)) (λ j0, fe j0 O) m j)) j *
              (total N (λ s, Wd j s * el (tab N 1 (Nat.iter k (round reals N W b f) fx)) s) + bd j))%R =
            total N (λ j, summed reals N W (slope N W b f fx k) (λ j0, fe j0 O) m j * push N W b f Wd bd fx k j)%R) as ->.
    { apply total_ext. intros j Hj. rewrite el_tab by done. f_equal. unfold push. f_equal. apply total_ext. intros s Hs. by rewrite el_tab. }
    apply (is_derive_ext (λ w, total N (λ j, if watched j then (goal j - Nat.iter k (round reals N (Wf w) (bf w) f) fx j O) ^ 2 / 2 else 0)%R)); [|exact H].
    intros w. unfold loss. rewrite Ex, (activate_ok reals (nf w) N I (Wf w) (bf w) f) by done. unfold half_squares.
    apply total_ext. intros j Hj. by rewrite el_tab.
  Qed.

  (** The derivative of the loss by a weight is minus the output of its source times the error
      that Error reports for its target ... *)
  Lemma weight_gradient s t : s < N → I <= t → t < N → rank s < rank t →
    derivable_pt_lim (λ w, match set_weight n (S s) (S t) w with Ok n' => loss n' x k N watched goal | _ => 0%R end) (W t s)
      (- (el out s * el delta t))%R.
  Proof using All.
    intros Hs Ht HtN Hr.
    set (nf := λ w, match set_weight n (S s) (S t) w with Ok n' => n' | _ => n end).
    assert (∀ w, holds_net (nf w) N I (put W t s w) b f ∧ set_weight n (S s) (S t) w = Ok (nf w)) as Hnf.
    { intros w. destruct (set_weight_ok n N I W b f s t w Hn Hs HtN) as (n' & E & _ & Hh). unfold nf. by rewrite E. }
    assert (derivable_pt_lim (λ w, loss (nf w) x k N watched goal) (W t s)
      (- total N (λ j, el delta j * (total N (λ s', (if (j =? t) && (s' =? s) then 1 else 0) * el out s') + 0)))%R) as H.
    { apply (family_derive nf (λ w, put W t s w) (λ _, b) (W t s) (λ i j, if (i =? t) && (j =? s) then 1%R else 0%R) (λ _, 0%R)).
      - intros w. apply Hnf.
      - intros i j _ _. unfold put. destruct (_ && _) eqn:E; [|done]. apply andb_true_iff in E as [E1 E2].
        apply Nat.eqb_eq in E1, E2. by subst.
      - done.
      - intros i j _ _. unfold put. destruct (_ && _); [apply (is_derive_id (K := R_AbsRing))|apply d_const].
      - intros i _. apply d_const.
      - intros i j _ _ E. destruct (_ && _) eqn:E'; [|done]. apply andb_true_iff in E' as [E1 E2]. apply Nat.eqb_eq in E1, E2. by subst.
      - done. }
    rewrite (total_pick N t) in H.
    - rewrite (total_pick N s) in H by (first [done|intros j _ Hne; rewrite Nat.eqb_refl; cbn [andb];
        assert (j =? s = false) as -> by (by apply Nat.eqb_neq); lra]).
      rewrite !Nat.eqb_refl in H. cbn [andb] in H.
      replace (- (el out s * el delta t))%R with (- (el delta t * (1 * el out s + 0)))%R by lra.
      intros eps Heps. destruct (H eps Heps) as (d & Hd). exists d. intros h H1 H2. specialize (Hd h H1 H2).
      destruct (Hnf (W t s + h)%R) as [_ ->]. destruct (Hnf (W t s)) as [_ ->]. exact Hd.
    - done.
    - intros j Hj Hne. rewrite (total_ext N _ (λ _, 0%R)); [rewrite total_const0; lra|].
      intros s' _. assert (j =? t = false) as -> by (by apply Nat.eqb_neq). cbn [andb]. lra.
  Qed.

  (** ... and by a bias minus the error reported for its node. *)
  Lemma bias_gradient t : I <= t → t < N →
    derivable_pt_lim (λ w, match set_bias n (S t) w with Ok n' => loss n' x k N watched goal | _ => 0%R end) (b t) (- el delta t)%R.
  Proof using All.
    intros Ht HtN.
    set (nf := λ w, match set_bias n (S t) w with Ok n' => n' | _ => n end).
    assert (∀ w, holds_net (nf w) N I W (put1 b t w) f ∧ set_bias n (S t) w = Ok (nf w)) as Hnf.
    { intros w. destruct (set_bias_ok n N I W b f t w Hn HtN) as (n' & E & _ & Hh). unfold nf. rewrite E.
      by assert (t <? I = false) as Et by (apply Nat.ltb_ge; lia); rewrite Et in Hh. }
    assert (derivable_pt_lim (λ w, loss (nf w) x k N watched goal) (b t)
      (- total N (λ j, el delta j * (total N (λ s', 0 * el out s') + (if j =? t then 1 else 0))))%R) as H.
    { apply (family_derive nf (λ _, W) (λ w, put1 b t w) (b t) (λ _ _, 0%R) (λ i, if i =? t then 1%R else 0%R)).
      - intros w. apply Hnf.
      - done.
      - intros i _. unfold put1. destruct (i =? t) eqn:E; [|done]. apply Nat.eqb_eq in E. by subst.
      - intros i j _ _. apply d_const.
      - intros i _. unfold put1. destruct (i =? t); [apply (is_derive_id (K := R_AbsRing))|apply d_const].
      - done.
      - intros i _ E. destruct (i =? t) eqn:E'; [|done]. apply Nat.eqb_eq in E'. by subst. }
    rewrite (total_pick N t) in H.
    - rewrite (total_ext N _ (λ _, 0%R)) in H by (intros; lra). rewrite total_const0, Nat.eqb_refl in H.
      replace (- el delta t)%R with (- (el delta t * (0 + 1)))%R by lra.
      intros eps Heps. destruct (H eps Heps) as (d & Hd). exists d. intros h H1 H2. specialize (Hd h H1 H2).
      destruct (Hnf (b t + h)%R) as [_ ->]. destruct (Hnf (b t)) as [_ ->]. exact Hd.
    - done.
    - intros j Hj Hne. rewrite (total_ext N _ (λ _, 0%R)) by (intros; lra). rewrite total_const0.
      assert (j =? t = false) as -> by (by apply Nat.eqb_neq). lra.
  Qed.
End c117.

(** For a network that feeds forward, whose functions have the Backward they should: the error
    that Error reports is the gradient of half the squared error of the watched nodes, by every
    weight that points forward and by every bias. *)
Theorem C117_gradient (n : network R) N I L rank W b f x out err delta k m (watched : nat → bool) (goal : nat → R) :
  I <= N → holds_net n N I W b f → feeds_forward reals N I L rank W b f →
  (∀ j, I <= j → j < N → backward_is_derivative (f j)) →
  shaped N 1 x → L <= k → L <= m → activate reals n x k = Ok out →
  shaped N 1 err → (∀ j, j < N → el err j = if watched j then (goal j - el out j)%R else 0%R) →
  net_error reals n out err m = Ok delta →
  (∀ s t, s < N → I <= t → t < N → rank s < rank t →
     derivable_pt_lim (λ w, match set_weight n (S s) (S t) w with Ok n' => loss n' x k N watched goal | _ => 0%R end) (W t s)
       (- (el out s * el delta t))%R) ∧
  (∀ t, I <= t → t < N →
     derivable_pt_lim (λ w, match set_bias n (S t) w with Ok n' => loss n' x k N watched goal | _ => 0%R end) (b t) (- el delta t)%R).
Proof.
  intros. split; intros.
  - by apply (weight_gradient n N I L rank W b f) with (err := err) (m := m) (out := out).
  - by apply (bias_gradient n N I L rank W b f) with (err := err) (m := m) (out := out).
Qed.
Print Assumptions C117_gradient.

(** So UpdateWeights and UpdateBias together, on a network trained for the first time, make a step of
    gradient descent: every connection stronger than 0.005 and every bias moves against its
    derivative, by [rate]. *)
Theorem C117_descent (n : network R) N I L rank W b f x out err delta k m (watched : nat → bool) (goal : nat → R) rate :
  I <= N → holds_net n N I W b f → feeds_forward reals N I L rank W b f → n_orig n = None →
  (∀ j, I <= j → j < N → backward_is_derivative (f j)) →
  shaped N 1 x → L <= k → L <= m → activate reals n x k = Ok out →
  shaped N 1 err → (∀ j, j < N → el err j = if watched j then (goal j - el out j)%R else 0%R) →
  net_error reals n out err m = Ok delta →
  ∃ n' n'', update_weights reals gtR faintR n out delta rate = Ok n' ∧ update_bias reals n' delta rate = Ok n'' ∧
  (∀ s t, s < N → t < N → s ≠ t → (faintR < Rabs (W t s))%R → ∃ g,
     derivable_pt_lim (λ w, match set_weight n (S s) (S t) w with Ok n' => loss n' x k N watched goal | _ => 0%R end) (W t s) g ∧
     get_weight n'' (S s) (S t) = Ok (W t s - rate * g)%R) ∧
  (∀ t, I <= t → t < N → ∃ g,
     derivable_pt_lim (λ w, match set_bias n (S t) w with Ok n' => loss n' x k N watched goal | _ => 0%R end) (b t) g ∧
     get_bias n'' (S t) = Ok (b t - rate * g)%R).
Proof.
  intros HIN Hn Hff Ho Hf Hx Hk Hm Hout Herr Hw Hd.
  destruct (C117_gradient n N I L rank W b f x out err delta k m watched goal) as [G1 G2]; try done.
  pose proof (shaped_tab _ _ _ 0%R Hx) as Ex. set (fx := λ i j, nth (i * 1 + j) (mx_data x) 0%R) in Ex. rewrite Ex in Hout.
  rewrite (activate_ok reals n N I W b f) in Hout by done. injection Hout as Eo.
  pose proof (shaped_tab _ _ _ 0%R Herr) as Ee. set (fe := λ i j, nth (i * 1 + j) (mx_data err) 0%R) in Ee.
  rewrite Ee, <- Eo, (net_error_ok reals n N I W b f) in Hd by done. injection Hd as Ed.
  set (fo := Nat.iter k (round reals N W b f) fx) in *. set (fd := λ j (_ : nat), summed reals N W (λ j0, backward (f j0) (fo j0 0)) (λ j0, fe j0 0) m j) in Ed.
  destruct (update_weights_ok reals gtR faintR n N I W b f W fo fd rate Hn) as (n' & E1 & Ho' & Hh').
  { rewrite Ho. apply Hn. }
  destruct (update_bias_ok reals n' N I _ b f fd rate Hh') as (n'' & E2 & _ & Hh'').
  rewrite Eo, Ed in E1. rewrite Ed in E2. exists n', n''. split; [done|]. split; [done|]. split.
  - intros s t Hs Ht Hne Hlt. exists (- (el out s * el delta t))%R.
    assert (W t s ≠ 0%R) as HW.
    { intros E. rewrite E, Rabs_R0 in Hlt. unfold faintR in Hlt. lra. }
    assert (I <= t) as HI.
    { destruct (decide (t < I)) as [Hi|Hi]; [|lia]. destruct Hff as [H1 _]. destruct (H1 t Hi) as (_ & _ & _ & _ & Hz).
      specialize (Hz s Hs Hne). apply eqb_real_true in Hz. done. }
    split.
    + apply G1; [done|done|done|]. destruct Hff as [_ H2]. destruct (H2 t HI Ht) as (_ & _ & H). apply H; [done|]. by apply eqb_real.
    + rewrite (get_weight_ok _ _ _ _ _ _ _ _ Hh'') by done. unfold moved.
      assert (t =? s = false) as -> by (apply Nat.eqb_neq; lia).
      assert (gtR (a_abs reals (W t s)) faintR = true) as ->.
      { unfold gtR. cbn [a_abs reals]. by destruct (Rlt_dec faintR (Rabs (W t s))). }
      rewrite <- Eo, <- Ed, !el_tab by done. cbn [a_add a_mul reals]. f_equal. lra.
  - intros t HI Ht. exists (- el delta t)%R. split; [by apply G2|].
    rewrite (get_bias_ok _ _ _ _ _ _ _ Hh'') by done. assert (t <? I = false) as -> by (apply Nat.ltb_ge; lia).
    rewrite <- Ed, el_tab by done. cbn [a_add a_mul reals]. f_equal. lra.
Qed.
Print Assumptions C117_descent.

(** ** C118: Backward is the derivative of Forward *)

Theorem C118_sigmoid : backward_is_derivative (sigmoid reals exp).
Proof.
  intros z. apply is_derive_Reals. cbn. pose proof (exp_pos (0 - z)) as Hp.
  auto_derive; replace (0 + - z)%R with (0 - z)%R by lra; [lra|]. field. lra.
Qed.
Print Assumptions C118_sigmoid.
Theorem C118_linear : backward_is_derivative (linear reals).
Proof. intros z. cbn. apply derivable_pt_lim_id. Qed.
Print Assumptions C118_linear.

(** The SoftplusRectifier has the Backward of the sigmoid: at zero, the slope of Forward is 1/2
    and Backward gives less than 1/4. *)
Theorem C118_softplus_refuted : ∃ z, derivable_pt_lim (forward (softplus reals exp ln)) z (1 / 2)%R ∧
  (backward (softplus reals exp ln) (forward (softplus reals exp ln) z) <= 1 / 4)%R.
Proof.
  exists 0%R. split.
  - apply is_derive_Reals. cbn. auto_derive; [rewrite exp_0; lra|]. rewrite exp_0. lra.
  - cbn. rewrite exp_0. set (v := ln (1 + 1)). pose proof (Rle_0_sqr (v - 1 / 2)) as Hv. unfold Rsqr in Hv. lra.
Qed.
Print Assumptions C118_softplus_refuted.

(** *** The hypotheses of C117 together, on the network of the package's test with the weights of
    that test (in tenths), sigmoid nodes and the sixth node watched. *)
Definition ex_v (l : nat * nat) : R :=
  match l with
  | (1, 4) => 2 / 10 | (1, 5) => - (3 / 10) | (2, 4) => 4 / 10 | (2, 5) => 1 / 10
  | (3, 4) => - (5 / 10) | (3, 5) => 2 / 10 | (4, 6) => - (3 / 10) | _ => - (2 / 10)
  end%R.
Definition ex_x : mx R := tab 6 1 (λ i _, if (i =? 0) || (i =? 2) then 1%R else 0%R).

Example C117_example : ∃ n W b f out delta, ex_build reals (sigmoid reals exp) ex_v (λ k, INR k / 10)%R = Ok n ∧
  holds_net n 6 3 W b f ∧ feeds_forward reals 6 3 2 ex_rank W b f ∧ n_orig n = None ∧
  (∀ j, 3 <= j → j < 6 → backward_is_derivative (f j)) ∧
  activate reals n ex_x 2 = Ok out ∧
  net_error reals n out (tab 6 1 (λ j _, if j =? 5 then 1 - el out 5 else 0)%R) 2 = Ok delta ∧ W 3 0 = (2 / 10)%R.
Proof.
  destruct (ex_feeds reals (sigmoid reals exp) ex_v (λ k, INR k / 10)%R) as (n & W & b & f & H1 & Ho & H2 & H3 & H4 & H5 & _).
  { apply eqb_real_true. reflexivity. }
  exists n, W, b, f. unfold ex_x.
  set (x := λ (i : nat) (_ : nat), if (i =? 0) || (i =? 2) then 1%R else 0%R).
  pose proof (activate_ok reals n 6 3 W b f 1 x 2 H2) as Ha. eexists _, _.
  split; [exact H1|]. split; [exact H2|]. split; [exact H3|]. split; [exact Ho|].
  split; [intros j Hj _; rewrite (H4 j Hj); exact C118_sigmoid|].
  split; [exact Ha|]. split; [apply (net_error_ok reals n 6 3 W b f _ _ 2 H2)|]. exact H5.
Qed.
