(** Proofs about bagging: the voting protocol. *)
From Verif Require Import Prelude AttrModel StoreModel DenseModel GridModel GridSpec
  DenseProofs GridProofs FilterModel PredModel PredProofs BagModel BagSpec.
Local Open Scope nat_scope.

(** ** Counting *)

Lemma recorded_cast v row c r c' :
  recorded (cast_vote v row c) r c' =
  recorded v r c' + (if bool_decide (r = row ∧ c' = c) then 1 else 0).
Proof.
  unfold recorded, cast_vote, count_up. destruct (decide (r = row)) as [->|Hr].
  - rewrite lookup_insert. destruct (decide (c' = c)) as [->|Hc].
    + rewrite lookup_insert, bool_decide_true by done.
      destruct (v !! row) as [x|]; simpl; [|by rewrite lookup_empty].
      by destruct (x !! c).
    + rewrite lookup_insert_ne by done. rewrite bool_decide_false by naive_solver.
      destruct (v !! row) as [x|]; simpl; [lia|by rewrite lookup_empty].
  - rewrite lookup_insert_ne by done. rewrite bool_decide_false by naive_solver. lia.
Qed.

Lemma dom_cast v row c r : is_Some (cast_vote v row c !! r) ↔ r = row ∨ is_Some (v !! r).
Proof. unfold cast_vote. rewrite lookup_insert_is_Some. destruct (decide (r = row)); naive_solver. Qed.


Lemma run_tally show g (label : nat → string) :
  ∀ its v, (∀ i fetch, (i, fetch) ∈ its → (∃ buf, fetch = Ok buf) ∧ get_class show g i = Ok (label i)) →
  NoDup (map fst its) →
  ∃ v', run_rows (λ v row predRow, class ← get_class show g predRow; Ok (cast_vote v predRow class, Cont)) v its
     = Ok (v', false) ∧
   (∀ r c, recorded v' r c = recorded v r c + (if bool_decide (r ∈ map fst its ∧ label r = c) then 1 else 0)) ∧
   (∀ r, is_Some (v' !! r) ↔ r ∈ map fst its ∨ is_Some (v !! r)).
Proof.
  induction its as [|[i fetch] its IH]; intros v Hits Hnd.
  - exists v. split; [done|]. split.
    + intros r c. cbn [map]. rewrite bool_decide_false; [lia|]. intros [H _]. by apply elem_of_nil in H.
    + intros r. cbn [map]. rewrite elem_of_nil. naive_solver.
  - cbn [map fst] in *. apply NoDup_cons in Hnd as [Hni Hnd].
    destruct (Hits i fetch) as [[buf ->] Hg]; [by left|].
    destruct (IH (cast_vote v i (label i))) as (v' & Hv' & Hr & Hd).
    { intros j f Hj. apply Hits. by right. } { done. }
    exists v'. split; [|split].
    + cbn [run_rows mbind res_bind]. rewrite Hg. cbn [mbind res_bind]. exact Hv'.
    + intros r c. rewrite Hr, recorded_cast. destruct (decide (r = i)) as [->|Hne].
      * rewrite (bool_decide_false (i ∈ map fst its ∧ _)) by naive_solver.
        destruct (decide (label i = c)) as [<-|Hc].
        -- rewrite !bool_decide_true; [lia|split; [by left|done]|done].
        -- rewrite !bool_decide_false; [lia|naive_solver|naive_solver].
      * rewrite (bool_decide_false (r = i ∧ _)) by naive_solver.
        assert (r ∈ i :: map fst its ∧ label r = c ↔ r ∈ map fst its ∧ label r = c) as E.
        { rewrite elem_of_cons. naive_solver. }
        rewrite (bool_decide_ext _ _ E). lia.
    + intros r. rewrite Hd, dom_cast, elem_of_cons. naive_solver.
Qed.

Lemma tally_ok show g rows label v : shows_labels show g rows label →
  ∃ v', tally show g v = Ok v' ∧
   (∀ r c, recorded v' r c = recorded v r c + (if bool_decide (r < rows ∧ label r = c) then 1 else 0)) ∧
   (∀ r, is_Some (v' !! r) ↔ r < rows ∨ is_Some (v !! r)).
Proof.
  intros (Hit & Hsz & (specs & Hspecs) & Hl). unfold tally. rewrite Hspecs. cbn [mbind res_bind].
  unfold map_over_rows. destruct (Hit specs) as (its & Hits & Hperm & Hfetch). rewrite Hits, Hsz in *.
  assert (∀ i, i ∈ map fst its ↔ i < rows) as Hin.
  { intros i. rewrite Hperm, elem_of_seq. lia. }
  destruct (run_tally show g label its v) as (v' & Hv' & Hr & Hd).
  - intros i fetch Hi. assert (i < rows) as Hlt. { apply Hin. apply elem_of_list_fmap. by exists (i, fetch). }
    split; [|by apply Hl]. rewrite (Hfetch _ _ Hi). clear -Hspecs Hl Hlt.
    specialize (Hl i Hlt). unfold get_class in Hl. destruct (gr_class_attrs g) as [|c [|]]; [done| |done].
    cbn [resolve res_mapM] in Hspecs. destruct (gr_get_attribute g c) as [s| |]; [|done|done].
    cbn [mbind res_bind] in Hspecs. injection Hspecs as <-. cbn [res_mapM].
    destruct (gr_get g s i); [|done|done]. by eexists.
  - rewrite Hperm. apply NoDup_seq.
  - exists v'. rewrite Hv'. split; [done|]. split.
    + intros r c. rewrite Hr. f_equal.
      assert (r ∈ map fst its ∧ label r = c ↔ r < rows ∧ label r = c) as E by (rewrite Hin; done).
      by rewrite (bool_decide_ext _ _ E).
    + intros r. by rewrite Hd, Hin.
Qed.

(** ** The protocol *)

Definition in_hand (w : worker) : list nat :=
  match w with Busy i | Ready i => [i] | _ => [] end.
Definition unsent (m : nat) (pc : main_pc) : list nat :=
  match pc with Send k => seq k (m - k) | _ => [] end.

Lemma hand_insert (ws : list worker) w x y : ws !! w = Some x →
  in_hand x ++ concat (map in_hand (<[w := y]> ws)) ≡ₚ in_hand y ++ concat (map in_hand ws).
Proof.
  revert w. induction ws as [|z ws IH]; intros [|w] H; [done|done| |].
  - injection H as ->. cbn. rewrite !app_assoc. apply Permutation_app_tail, Permutation_app_comm.
  - change (ws !! w = Some x) in H. specialize (IH w H).
    change (<[S w := y]> (z :: ws)) with (z :: <[w := y]> ws). cbn [map concat].
    rewrite !app_assoc, (Permutation_app_comm (in_hand x)), (Permutation_app_comm (in_hand y)), <- !app_assoc.
    by apply Permutation_app_head.
Qed.

Definition weigh (w : worker) : nat :=
  match w with Idle => 1 | Busy _ => 4 | Ready _ => 3 | Stopped => 0 end.
Definition weigh_main (m : nat) (pc : main_pc) : nat :=
  match pc with Send k => 5 * (m - k) + 4 | WaitWorkers => 3 | CloseVotes => 2 | WaitVotes => 1 | Done => 0 end.
Definition weight (m : nat) (s : pstate) : nat :=
  weigh_main m (ps_main s) + 4 * length (ps_pipe s) + sum_list (map weigh (ps_workers s)) +
  length (ps_votes s) + (if ps_collected s then 0 else 1).

Lemma weigh_insert (ws : list worker) w x y : ws !! w = Some x →
  weigh x + sum_list (map weigh (<[w := y]> ws)) = weigh y + sum_list (map weigh ws).
Proof.
  revert w. induction ws as [|z ws IH]; intros [|w] H; [done|done| |].
  - injection H as ->. cbn. lia.
  - change (ws !! w = Some x) in H. specialize (IH w H).
    change (<[S w := y]> (z :: ws)) with (z :: <[w := y]> ws). rewrite !map_cons. cbn [sum_list_with] in *. lia.
Qed.

Section protocol.
  Context (show : nat → N → string) (n m : nat) (answer : nat → res grid) (rows : nat)
    (label : nat → nat → string).
  Context (Hn : 0 < n).
  Context (Hans : ∀ i, i < m → ∃ g, answer i = Ok g ∧ shows_labels show g rows (label i)).

  Definition protocol_inv (s : pstate) : Prop :=
    (∃ counted,
      counted ++ ps_votes s ++ concat (map in_hand (ps_workers s)) ++ ps_pipe s ++ unsent m (ps_main s)
        ≡ₚ seq 0 m ∧
      (∀ r c, recorded (ps_voting s) r c =
         if bool_decide (r < rows) then length (filter (λ i, label i r = c) counted) else 0) ∧
      (∀ r, is_Some (ps_voting s !! r) ↔ r < rows ∧ counted ≠ [])) ∧
    match ps_main s with
    | Send k => k ≤ m ∧ ps_pipe_closed s = false ∧ ps_votes_closed s = false
    | WaitWorkers => ps_pipe_closed s = true ∧ ps_votes_closed s = false
    | CloseVotes => ps_pipe_closed s = true ∧ ps_votes_closed s = false ∧
        Forall (λ w, w = Stopped) (ps_workers s)
    | WaitVotes => ps_pipe_closed s = true ∧ ps_votes_closed s = true ∧
        Forall (λ w, w = Stopped) (ps_workers s)
    | Done => ps_pipe_closed s = true ∧ ps_votes_closed s = true ∧ ps_collected s = true ∧
        Forall (λ w, w = Stopped) (ps_workers s)
    end ∧
    (Stopped ∈ ps_workers s → ps_pipe_closed s = true ∧ ps_pipe s = []) ∧
    (ps_collected s = true → ps_votes_closed s = true ∧ ps_votes s = []) ∧
    length (ps_workers s) = n.

  Lemma init_inv : protocol_inv (predict_init n).
  Proof.
    unfold protocol_inv, predict_init. cbn [ps_main ps_pipe ps_pipe_closed ps_workers ps_votes ps_votes_closed ps_collected ps_voting].
    split_and!.
    - exists []. split; [|split].
      + cbn [app unsent]. rewrite Nat.sub_0_r.
        assert (concat (map in_hand (replicate n Idle)) = []) as ->; [|done].
        clear. by induction n.
      + intros r c. cbn [filter]. change (length (filter (λ i, label i r = c) [])) with 0.
        unfold recorded. rewrite lookup_empty. by case_bool_decide.
      + intros r. rewrite lookup_empty. split; [by intros [? ?]|by intros [_ ?]].
    - lia. - done. - done.
    - intros H. apply elem_of_replicate in H as [H _]. done.
    - done.
    - apply replicate_length.
  Qed.

  Lemma all_stopped ws : forallb stopped ws = true ↔ Forall (λ w, w = Stopped) ws.
  Proof.
    rewrite forallb_forall, Forall_forall. split; intros H w Hw.
    - apply elem_of_list_In in Hw. apply H in Hw. by destruct w.
    - apply elem_of_list_In in Hw. by rewrite (H w Hw).
  Qed.

  Lemma stopped_not ws w x : Forall (λ w, w = Stopped) ws → ws !! w = Some x → x = Stopped.
  Proof. intros H Hx. by apply (Forall_lookup_1 _ _ _ _ H Hx). Qed.

  Lemma inv_pending s i : protocol_inv s → i ∈ ps_votes s → i < m.
  Proof.
    intros ((counted & Hp & _) & _) Hi. assert (i ∈ seq 0 m) as H; [|apply elem_of_seq in H; lia].
    rewrite <- Hp. rewrite !elem_of_app. tauto.
  Qed.
  Lemma inv_hand s w i : protocol_inv s → ps_workers s !! w = Some (Busy i) → i < m.
  Proof.
    intros ((counted & Hp & _) & _) Hi. assert (i ∈ seq 0 m) as H; [|apply elem_of_seq in H; lia].
    rewrite <- Hp. rewrite !elem_of_app. right. right. left.
    apply elem_of_list_In, in_concat. exists (in_hand (Busy i)). split; [|by left].
    apply in_map_iff. exists (Busy i). split; [done|]. apply elem_of_list_In. by eapply elem_of_list_lookup_2.
  Qed.

  (** What the collector does with a vote. *)
  Lemma collect_one s i votes : protocol_inv s → ps_votes s = i :: votes →
    ∃ g v', answer i = Ok g ∧ tally show g (ps_voting s) = Ok v' ∧
      (∀ r c, recorded v' r c = recorded (ps_voting s) r c +
         (if bool_decide (r < rows ∧ label i r = c) then 1 else 0)) ∧
      (∀ r, is_Some (v' !! r) ↔ r < rows ∨ is_Some (ps_voting s !! r)).
  Proof.
    intros Hs Hv. assert (i < m) as Hi. { eapply inv_pending; [done|]. rewrite Hv. by left. }
    destruct (Hans i Hi) as (g & Hg & Hl). destruct (tally_ok show g rows (label i) (ps_voting s) Hl) as (v' & H1 & H2 & H3).
    by exists g, v'.
  Qed.

  Lemma main_inv s s' : protocol_inv s → act_main n m s = Some (Ok s') →
    protocol_inv s' ∧ weight m s = S (weight m s').
  Proof.
    destruct s as [pc pipe pcl ws votes vcl col voting]. intros ((counted & Hp & Hrec & Hdom) & Hpc & Hst & Hcol & Hlen).
    cbn [ps_main ps_pipe ps_pipe_closed ps_workers ps_votes ps_votes_closed ps_collected ps_voting] in *.
    unfold act_main. cbn [ps_main ps_pipe ps_pipe_closed ps_workers ps_votes ps_votes_closed ps_collected ps_voting].
    destruct pc as [k| | | |]; [| | | |done].
    - destruct Hpc as (Hk & -> & ->). destruct (k <? m) eqn:E.
      + apply Nat.ltb_lt in E. destruct (length pipe <? n) eqn:El; [|done]. intros [= <-]. split.
        * unfold protocol_inv. cbn [ps_main ps_pipe ps_pipe_closed ps_workers ps_votes ps_votes_closed ps_collected ps_voting].
          split_and!; [|lia|done|done| |done|done].
          -- exists counted. split; [|done]. rewrite <- Hp. cbn [unsent].
             replace (m - k) with (S (m - S k)) by lia. cbn [seq]. by rewrite <- !app_assoc.
          -- intros H. by destruct (Hst H).
        * unfold weight. cbn [ps_main ps_pipe ps_pipe_closed ps_workers ps_votes ps_votes_closed ps_collected ps_voting weigh_main].
          rewrite app_length. cbn [length]. lia.
      + apply Nat.ltb_ge in E. intros [= <-]. split.
        * unfold protocol_inv. cbn [ps_main ps_pipe ps_pipe_closed ps_workers ps_votes ps_votes_closed ps_collected ps_voting].
          split_and!; [|done|done| |done|done].
          -- exists counted. split; [|done]. rewrite <- Hp. cbn [unsent].
             by replace (m - k) with 0 by lia.
          -- intros H. by destruct (Hst H).
        * unfold weight. cbn [ps_main ps_pipe ps_pipe_closed ps_workers ps_votes ps_votes_closed ps_collected ps_voting weigh_main]. lia.
    - destruct Hpc as (-> & ->). destruct (forallb stopped ws) eqn:E; [|done]. apply all_stopped in E.
      intros [= <-]. split; [|unfold weight; cbn; lia].
      unfold protocol_inv. cbn [ps_main ps_pipe ps_pipe_closed ps_workers ps_votes ps_votes_closed ps_collected ps_voting].
      split_and!; try done. by exists counted.
    - destruct Hpc as (-> & -> & Hws). intros [= <-]. split; [|unfold weight; cbn; lia].
      unfold protocol_inv. cbn [ps_main ps_pipe ps_pipe_closed ps_workers ps_votes ps_votes_closed ps_collected ps_voting].
      split_and!; try done; [by exists counted|]. intros H. by destruct (Hcol H).
    - destruct Hpc as (-> & -> & Hws). destruct col; [|done]. intros [= <-]. split; [|unfold weight; cbn; lia].
      unfold protocol_inv. cbn [ps_main ps_pipe ps_pipe_closed ps_workers ps_votes ps_votes_closed ps_collected ps_voting].
      split_and!; try done. by exists counted.
  Qed.

  Lemma worker_keeps pc (ws : list worker) w x y pcl vcl (col : bool) : ws !! w = Some x → x ≠ Stopped →
    (match pc with
    | Send k => k ≤ m ∧ pcl = false ∧ vcl = false
    | WaitWorkers => pcl = true ∧ vcl = false
    | CloseVotes => pcl = true ∧ vcl = false ∧ Forall (λ w, w = Stopped) ws
    | WaitVotes => pcl = true ∧ vcl = true ∧ Forall (λ w, w = Stopped) ws
    | Done => pcl = true ∧ vcl = true ∧ col = true ∧ Forall (λ w, w = Stopped) ws
    end) →
    match pc with
    | Send k => k ≤ m ∧ pcl = false ∧ vcl = false
    | WaitWorkers => pcl = true ∧ vcl = false
    | CloseVotes => pcl = true ∧ vcl = false ∧ Forall (λ w, w = Stopped) (<[w := y]> ws)
    | WaitVotes => pcl = true ∧ vcl = true ∧ Forall (λ w, w = Stopped) (<[w := y]> ws)
    | Done => pcl = true ∧ vcl = true ∧ col = true ∧ Forall (λ w, w = Stopped) (<[w := y]> ws)
    end ∧ vcl = false.
  Proof.
    intros Hx Hne. destruct pc; intros H; [tauto|tauto| | |];
      exfalso; apply Hne; eapply stopped_not; [|exact Hx| |exact Hx| |exact Hx]; tauto.
  Qed.

  Lemma stopped_insert (ws : list worker) w y : y ≠ Stopped → Stopped ∈ <[w := y]> ws → Stopped ∈ ws.
  Proof.
    intros Hy H. apply elem_of_list_lookup in H as (i & Hi). apply list_lookup_insert_Some in Hi as [(_ & Hi & _)|[_ Hi]]; [by subst|].
    by eapply elem_of_list_lookup_2.
  Qed.

  Lemma worker_inv w s s' : protocol_inv s → act_worker n answer w s = Some (Ok s') →
    protocol_inv s' ∧ weight m s = S (weight m s').
  Proof.
    intros Hinv. pose proof (inv_hand s w) as Hhand. revert Hinv Hhand.
    destruct s as [pc pipe pcl ws votes vcl col voting]. intros ((counted & Hp & Hrec & Hdom) & Hpc & Hst & Hcol & Hlen) _.
    cbn [ps_main ps_pipe ps_pipe_closed ps_workers ps_votes ps_votes_closed ps_collected ps_voting] in *.
    unfold act_worker. cbn [ps_main ps_pipe ps_pipe_closed ps_workers ps_votes ps_votes_closed ps_collected ps_voting].
    destruct (ws !! w) as [[|i|i|]|] eqn:Ew; [| | |done|done].
    - destruct (worker_keeps pc ws w _ Stopped pcl vcl col Ew ltac:(done) Hpc) as [Hpc1 Hvcl].
      destruct pipe as [|i pipe].
      + destruct pcl; [|done]. intros [= <-]. pose proof (hand_insert ws w _ Stopped Ew) as Hh.
        pose proof (weigh_insert ws w _ Stopped Ew) as Hw. split.
        * unfold protocol_inv. cbn [ps_main ps_pipe ps_pipe_closed ps_workers ps_votes ps_votes_closed ps_collected ps_voting].
          split_and!; [|exact Hpc1|done|done|by rewrite insert_length].
          exists counted. split; [|done]. rewrite <- Hp. cbn [in_hand app] in Hh. by rewrite Hh.
        * unfold weight. cbn [ps_main ps_pipe ps_pipe_closed ps_workers ps_votes ps_votes_closed ps_collected ps_voting].
          cbn [weigh] in Hw. lia.
      + intros [= <-]. pose proof (hand_insert ws w _ (Busy i) Ew) as Hh.
        pose proof (weigh_insert ws w _ (Busy i) Ew) as Hw.
        destruct (worker_keeps pc ws w _ (Busy i) pcl vcl col Ew ltac:(done) Hpc) as [Hpc2 _]. split.
        * unfold protocol_inv. cbn [ps_main ps_pipe ps_pipe_closed ps_workers ps_votes ps_votes_closed ps_collected ps_voting].
          split_and!; [|exact Hpc2| |done|by rewrite insert_length].
          -- exists counted. split; [|done]. rewrite <- Hp. cbn [in_hand app] in Hh. rewrite Hh.
             apply Permutation_app_head, Permutation_app_head. cbn [app]. by rewrite Permutation_middle.
          -- intros H. apply stopped_insert in H; [|done]. by destruct (Hst H).
        * unfold weight. cbn [ps_main ps_pipe ps_pipe_closed ps_workers ps_votes ps_votes_closed ps_collected ps_voting length].
          cbn [weigh] in Hw. lia.
    - intros H. assert (s' = PS pc pipe pcl (<[w := Ready i]> ws) votes vcl col voting) as ->.
      { destruct (answer i); by simplify_eq. } clear H.
      pose proof (hand_insert ws w _ (Ready i) Ew) as Hh. pose proof (weigh_insert ws w _ (Ready i) Ew) as Hw.
      destruct (worker_keeps pc ws w _ (Ready i) pcl vcl col Ew ltac:(done) Hpc) as [Hpc2 _]. split.
      + unfold protocol_inv. cbn [ps_main ps_pipe ps_pipe_closed ps_workers ps_votes ps_votes_closed ps_collected ps_voting].
        split_and!; [|exact Hpc2| |done|by rewrite insert_length].
        * exists counted. split; [|done]. rewrite <- Hp. cbn [in_hand app] in Hh. apply Permutation_cons_inv in Hh. by rewrite Hh.
        * intros H. apply stopped_insert in H; [|done]. by destruct (Hst H).
      + unfold weight. cbn [ps_main ps_pipe ps_pipe_closed ps_workers ps_votes ps_votes_closed ps_collected ps_voting].
        cbn [weigh] in Hw. lia.
    - destruct (worker_keeps pc ws w _ Idle pcl vcl col Ew ltac:(done) Hpc) as [Hpc2 Hvcl]. rewrite Hvcl.
      destruct (length votes <? n); [|done]. intros [= <-].
      pose proof (hand_insert ws w _ Idle Ew) as Hh. pose proof (weigh_insert ws w _ Idle Ew) as Hw. split.
      + unfold protocol_inv. cbn [ps_main ps_pipe ps_pipe_closed ps_workers ps_votes ps_votes_closed ps_collected ps_voting].
        rewrite Hvcl in Hpc2.
        split_and!; [|exact Hpc2| | |by rewrite insert_length].
        * exists counted. split; [|done]. rewrite <- Hp. cbn [in_hand app] in Hh. rewrite <- Hh. cbn [app]. by rewrite <- !app_assoc.
        * intros H. apply stopped_insert in H; [|done]. by destruct (Hst H).
        * intros H. destruct (Hcol H). congruence.
      + unfold weight. cbn [ps_main ps_pipe ps_pipe_closed ps_workers ps_votes ps_votes_closed ps_collected ps_voting].
        rewrite app_length. cbn [weigh length] in *. lia.
  Qed.

  Lemma collector_inv s s' : protocol_inv s → act_collector show answer s = Some (Ok s') →
    protocol_inv s' ∧ weight m s = S (weight m s').
  Proof.
    intros Hinv. pose proof (collect_one s) as Hone. specialize (λ i votes, Hone i votes Hinv).
    revert Hinv Hone.
    destruct s as [pc pipe pcl ws votes vcl col voting]. intros ((counted & Hp & Hrec & Hdom) & Hpc & Hst & Hcol & Hlen) Hone.
    cbn [ps_main ps_pipe ps_pipe_closed ps_workers ps_votes ps_votes_closed ps_collected ps_voting] in *.
    unfold act_collector. cbn [ps_main ps_pipe ps_pipe_closed ps_workers ps_votes ps_votes_closed ps_collected ps_voting].
    destruct col; [done|]. destruct votes as [|i votes].
    - destruct vcl; [|done]. intros [= <-]. split; [|unfold weight; cbn; lia].
      unfold protocol_inv. cbn [ps_main ps_pipe ps_pipe_closed ps_workers ps_votes ps_votes_closed ps_collected ps_voting].
      split_and!; [by exists counted| |done|done|done]. destruct pc; tauto.
    - destruct (Hone i votes eq_refl) as (g & v' & -> & -> & Hr & Hd). intros [= <-].
      split; [|unfold weight; cbn; lia].
      unfold protocol_inv. cbn [ps_main ps_pipe ps_pipe_closed ps_workers ps_votes ps_votes_closed ps_collected ps_voting].
      split_and!; [|destruct pc; naive_solver|done|done|done].
      exists (counted ++ [i]). split_and!.
      + rewrite <- Hp. by rewrite <- !app_assoc.
      + intros r c. rewrite Hr, Hrec, filter_app, app_length. case_bool_decide as E1.
        * cbn [filter]. destruct (decide (label i r = c)) as [E|E].
          -- rewrite bool_decide_true by done. rewrite filter_cons_True, filter_nil by done. done.
          -- rewrite bool_decide_false by tauto. rewrite filter_cons_False, filter_nil by done. done.
        * by rewrite bool_decide_false by tauto.
      + intros r. rewrite Hd, Hdom. split; [|tauto]. intros H. split; [tauto|]. by destruct counted.
  Qed.

  Lemma step_inv s s' : protocol_inv s → predict_step show n m answer s s' →
    protocol_inv s' ∧ weight m s = S (weight m s').
  Proof.
    intros Hs [[|w|] Ht]; cbn [act] in Ht; [by apply main_inv|by eapply worker_inv|by apply collector_inv].
  Qed.

  Lemma reach_inv s : reachable_in show n m answer s → protocol_inv s.
  Proof.
    intros H. unfold reachable_in in H. remember (predict_init n) as s0 eqn:E.
    assert (protocol_inv s0) as H0 by (subst; apply init_inv). clear E.
    induction H as [|s0 s1 s2 H1 _ IH]; [done|]. apply IH. by eapply step_inv.
  Qed.

  Lemma no_panic s t : reachable_in show n m answer s → act show n m answer t s ≠ Some Panic ∧ act show n m answer t s ≠ Some Err.
  Proof.
    intros Hr. apply reach_inv in Hr. pose proof (collect_one s) as Hone. specialize (λ i votes, Hone i votes Hr).
    pose proof (λ w i, inv_hand s w i Hr) as Hhand.
    destruct Hr as (_ & Hpc & Hst & Hcol & Hlen). destruct t as [|w|]; cbn [act].
    - unfold act_main. destruct (ps_main s).
      + destruct Hpc as (_ & -> & _). destruct (_ <? m); [|done]. by destruct (_ <? n).
      + by destruct (forallb _ _).
      + destruct Hpc as (_ & -> & _). done.
      + by destruct (ps_collected s).
      + done.
    - unfold act_worker. destruct (ps_workers s !! w) as [[|i|i|]|] eqn:Ew; [| | |done|done].
      + destruct (ps_pipe s); [|done]. by destruct (ps_pipe_closed s).
      + destruct (Hans i) as (g & -> & _); [by eapply Hhand|]. done.
      + destruct (worker_keeps _ _ w _ Idle _ _ (ps_collected s) Ew ltac:(done) Hpc) as [_ ->].
        by destruct (_ <? n).
    - unfold act_collector. destruct (ps_collected s); [done|]. destruct (ps_votes s) as [|i votes] eqn:Ev.
      + by destruct (ps_votes_closed s).
      + destruct (Hone i votes eq_refl) as (g & v' & -> & -> & _). done.
  Qed.

  (** Some goroutine can go on. *)
  Lemma goes t s : (∃ s', act show n m answer t s = Some (Ok s')) → ∃ s', predict_step show n m answer s s'.
  Proof. intros [s' H]. by exists s', t. Qed.

  Lemma collector_goes s : protocol_inv s → ps_votes s ≠ [] → ∃ s', predict_step show n m answer s s'.
  Proof.
    intros Hs Hv. pose proof (collect_one s) as Hone. specialize (λ i votes, Hone i votes Hs).
    destruct Hs as (_ & _ & _ & Hcol & _). apply (goes Collector). cbn [act]. unfold act_collector.
    destruct (ps_collected s); [by destruct (Hcol eq_refl)|]. destruct (ps_votes s) as [|i votes]; [done|].
    destruct (Hone i votes eq_refl) as (g & v' & -> & -> & _). by eexists.
  Qed.

  Lemma worker_goes s w x : protocol_inv s → ps_workers s !! w = Some x → x ≠ Stopped →
    (ps_pipe s ≠ [] ∨ ps_pipe_closed s = true) → ∃ s', predict_step show n m answer s s'.
  Proof.
    intros Hs Hx Hne Hp. pose proof (inv_hand s w) as Hhand. specialize (λ i, Hhand i Hs).
    destruct x as [|i|i|]; [| | |done].
    - apply (goes (Worker w)). cbn [act]. unfold act_worker. rewrite Hx.
      destruct (ps_pipe s) as [|i pipe]; [|by eexists]. destruct Hp as [?|Hp]; [done|]. rewrite Hp. by eexists.
    - apply (goes (Worker w)). cbn [act]. unfold act_worker. rewrite Hx.
      destruct (Hans i) as (g & -> & _); [by eapply Hhand|]. by eexists.
    - destruct (length (ps_votes s) <? n) eqn:El.
      + apply (goes (Worker w)). cbn [act]. unfold act_worker. rewrite Hx.
        destruct Hs as (_ & Hpc & _).
        destruct (worker_keeps _ _ w _ Idle _ _ (ps_collected s) Hx ltac:(done) Hpc) as [_ ->]. rewrite El. by eexists.
      + apply Nat.ltb_ge in El. apply collector_goes; [done|]. intros H. rewrite H in El. cbn in El. lia.
  Qed.

  Lemma not_stuck s : reachable_in show n m answer s → ps_main s ≠ Done → ∃ s', predict_step show n m answer s s'.
  Proof.
    intros Hr Hd. apply reach_inv in Hr. pose proof Hr as (_ & Hpc & Hst & Hcol & Hlen).
    destruct (ps_main s) as [k| | | |] eqn:Em; [| | | |done].
    - destruct Hpc as (Hk & Hcl & _). destruct (k <? m) eqn:E.
      + destruct (length (ps_pipe s) <? n) eqn:El.
        * apply (goes Main). cbn [act]. unfold act_main. rewrite Em, Hcl, E, El. by eexists.
        * apply Nat.ltb_ge in El. destruct (lookup_lt_is_Some_2 (ps_workers s) 0) as [x Hx]; [lia|].
          eapply (worker_goes s 0 x); [done|done| |].
          -- intros ->. destruct Hst as [Hst _]; [by eapply elem_of_list_lookup_2|]. congruence.
          -- left. intros H. rewrite H in El. cbn in El. lia.
      + apply (goes Main). cbn [act]. unfold act_main. rewrite Em, Hcl, E. by eexists.
    - destruct Hpc as (Hcl & _). destruct (forallb stopped (ps_workers s)) eqn:E.
      + apply (goes Main). cbn [act]. unfold act_main. rewrite Em, E. by eexists.
      + assert (∃ w x, ps_workers s !! w = Some x ∧ x ≠ Stopped) as (w & x & Hw & Hx).
        { clear -E. induction (ps_workers s) as [|y ws IH]; [done|]. cbn [forallb] in E.
          destruct (stopped y) eqn:Ey.
          - destruct (IH E) as (w & x & ? & ?). by exists (S w), x.
          - exists 0, y. split; [done|]. by intros ->. }
        eapply (worker_goes s w x); [done|done|done|by right].
    - destruct Hpc as (_ & Hv & _). apply (goes Main). cbn [act]. unfold act_main. rewrite Em, Hv. by eexists.
    - destruct (ps_collected s) eqn:Ec.
      + apply (goes Main). cbn [act]. unfold act_main. rewrite Em, Ec. by eexists.
      + destruct (ps_votes s) as [|i votes] eqn:Ev.
        * apply (goes Collector). cbn [act]. unfold act_collector. rewrite Ec, Ev.
          destruct Hpc as (_ & -> & _). by eexists.
        * apply collector_goes; [done|]. by rewrite Ev.
  Qed.

  (** The number of steps of every execution. *)
  Lemma steps_weight k s : nsteps (predict_step show n m answer) k (predict_init n) s →
    k + weight m s = 5 * m + n + 5.
  Proof.
    assert (∀ s0, nsteps (predict_step show n m answer) k s0 s → protocol_inv s0 → k + weight m s = weight m s0) as H.
    { intros s0 H. induction H as [|k s0 s1 s2 H1 H2 IH]; intros Hi; [done|].
      destruct (step_inv _ _ Hi H1) as [Hi1 Hw]. specialize (IH Hi1). lia. }
    intros Hs. rewrite (H _ Hs init_inv). unfold weight, predict_init.
    cbn [ps_main ps_pipe ps_pipe_closed ps_workers ps_votes ps_votes_closed ps_collected ps_voting weigh_main length].
    assert (sum_list (map weigh (replicate n Idle)) = n) as ->; [|lia]. clear. induction n as [|k IH]; [done|].
    cbn in *. lia.
  Qed.

  Lemma done_counted s : reachable_in show n m answer s → ps_main s = Done →
    (∀ r c, recorded (ps_voting s) r c = if bool_decide (r < rows) then votes_for m label r c else 0) ∧
    (∀ r, is_Some (ps_voting s !! r) ↔ r < rows ∧ 0 < m).
  Proof.
    intros Hr Hd. apply reach_inv in Hr. destruct Hr as ((counted & Hp & Hrec & Hdom) & Hpc & Hst & Hcol & Hlen).
    rewrite Hd in *. destruct Hpc as (_ & _ & Hc & Hws). destruct (Hcol Hc) as [_ Hv].
    destruct Hst as [_ Hpipe].
    { destruct (lookup_lt_is_Some_2 (ps_workers s) 0) as [x Hx]; [lia|].
      rewrite (stopped_not _ _ _ Hws Hx) in Hx. by eapply elem_of_list_lookup_2. }
    assert (concat (map in_hand (ps_workers s)) = []) as Hh.
    { clear -Hws. induction Hws as [|w ws -> _ IH]; [done|]. exact IH. }
    rewrite Hv, Hh, Hpipe in Hp. cbn [app unsent] in Hp. rewrite app_nil_r in Hp. split.
    - intros r c. rewrite Hrec. case_bool_decide; [|done]. unfold votes_for. by rewrite Hp.
    - intros r. rewrite Hdom. apply Permutation_length in Hp. rewrite seq_length in Hp.
      destruct counted; cbn in Hp; split; intros [? ?]; split; try done; lia.
  Qed.
End protocol.
