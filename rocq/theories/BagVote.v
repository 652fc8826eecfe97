(** Proofs about bagging: the consensus, the selection of attributes and Fit. *)
From stdpp Require Import functions.
From Verif Require Import Prelude AttrModel AttrProofs StoreModel DenseModel GridModel GridSpec
  DenseProofs GridProofs FilterModel PredModel PredProofs RuleModel RuleSpec RuleProofs
  BagModel BagSpec BagProofs.
Local Open Scope nat_scope.

(** ** The most popular class *)

Lemma popular_fold (l : list (string * nat)) acc :
  let r := foldl (λ acc cv, if acc.2 <? cv.2 then cv else acc) acc l in
  acc.2 ≤ r.2 ∧ (∀ cv, cv ∈ l → cv.2 ≤ r.2) ∧ (r = acc ∨ r ∈ l).
Proof.
  revert acc. induction l as [|cv l IH]; intros acc; cbn [foldl].
  - split; [done|]. split; [|by left]. intros cv H. by apply elem_of_nil in H.
  - destruct (acc.2 <? cv.2) eqn:E; destruct (IH (if acc.2 <? cv.2 then cv else acc)) as (H1 & H2 & H3);
      rewrite E in *.
    + apply Nat.ltb_lt in E. split; [lia|]. split.
      * intros x Hx. apply elem_of_cons in Hx as [->|Hx]; [done|by apply H2].
      * right. destruct H3 as [->|H3]; [by left|by right].
    + apply Nat.ltb_ge in E. split; [done|]. split.
      * intros x Hx. apply elem_of_cons in Hx as [->|Hx]; [lia|by apply H2].
      * destruct H3 as [->|H3]; [by left|right; by right].
Qed.

Lemma popular_max ko (votes : gmap string nat) c k :
  (∀ l, ko l ≡ₚ l) → votes !! c = Some k → 0 < k →
  ∃ k', votes !! popular ko votes = Some k' ∧ ∀ c'' k'', votes !! c'' = Some k'' → k'' ≤ k'.
Proof.
  intros Hko Hc Hk. unfold popular. destruct (popular_fold (ko (map_to_list votes)) ("", 0)) as (H1 & H2 & H3).
  cbv zeta in *. set (r := foldl _ _ _) in *. clearbody r.
  assert (∀ c'' k'', votes !! c'' = Some k'' → k'' ≤ r.2) as Hmax.
  { intros c'' k'' H. apply (H2 (c'', k'')). rewrite (Hko _). by apply elem_of_map_to_list. }
  destruct H3 as [->|H3].
  - pose proof (Hmax _ _ Hc) as H. cbn in H. lia.
  - rewrite (Hko _) in H3. destruct r as [c' k']. apply elem_of_map_to_list in H3. by exists k'.
Qed.

Lemma votes_for_total m label r : 0 < m → ∃ c, 0 < votes_for m label r c.
Proof.
  intros Hm. exists (label 0 r). unfold votes_for. destruct m as [|m]; [lia|]. cbn [seq].
  rewrite filter_cons_True by done. cbn. lia.
Qed.

Lemma votes_for_label m label r c : 0 < votes_for m label r c → ∃ i, i < m ∧ label i r = c.
Proof.
  unfold votes_for. destruct (filter _ _) as [|i l] eqn:E; [cbn; lia|]. intros _.
  assert (i ∈ filter (λ i, label i r = c) (seq 0 m)) as H by (rewrite E; by left).
  apply elem_of_list_filter in H as [H Hi]. apply elem_of_seq in Hi. exists i. split; [lia|done].
Qed.

(** ** The consensus *)

Lemma consensus_fold parse order pg name vs n (best : nat → gmap string nat → string) l : 
  (∀ x, order x ≡ₚ x) → (∀ rv, rv ∈ l → rv.1 < n ∧ best rv.1 rv.2 ∈ vs) → NoDup (map fst l) →
  ∀ d lab, labels_predicted pg name vs n lab d →
  ∃ d' lab', res_foldl (λ ret rv, set_class parse order ret rv.1 (best rv.1 rv.2)) d l = Ok d' ∧
    labels_predicted pg name vs n lab' d' ∧
    (∀ rv, rv ∈ l → lab' rv.1 = Some (best rv.1 rv.2)) ∧
    (∀ r, r ∉ map fst l → lab' r = lab r).
Proof.
  intros Ho. induction l as [|rv l IH]; intros Hl Hnd d lab Hd.
  - exists d, lab. split; [done|]. split; [done|]. split; [|done]. intros rv H. by apply elem_of_nil in H.
  - cbn [map] in Hnd. apply NoDup_cons in Hnd as [Hni Hnd].
    destruct (Hl rv) as [Hlt Hb]; [by left|].
    destruct (labels_predicted_set parse order pg name vs n lab d rv.1 _ Ho Hd Hlt Hb) as (d1 & H1 & Hd1).
    destruct (IH (λ x Hx, Hl x (elem_of_list_further _ _ _ Hx)) Hnd d1 _ Hd1) as (d' & lab' & H' & Hd' & Hin & Hout).
    exists d', lab'. split; [cbn [res_foldl]; rewrite H1; exact H'|]. split; [done|]. split.
    + intros x Hx. apply elem_of_cons in Hx as [->|Hx]; [|by apply Hin].
      rewrite (Hout _ Hni). by rewrite fn_lookup_insert.
    + intros r Hr. apply not_elem_of_cons in Hr as [Hne Hr]. rewrite (Hout _ Hr).
      by rewrite fn_lookup_insert_ne.
Qed.

Section predicted.
  Context (show : nat → N → string) (n m : nat) (answer : nat → res grid) (label : nat → nat → string).
  Context (parse : string → option Flocq.IEEE754.Bits.binary64) (pg : nat) (from : grid) (name : string) (vs : list string).
  Context (Hn : 0 < n) (Hm : 0 < m).
  Context (Hans : ∀ i, i < m → ∃ g, answer i = Ok g ∧ shows_labels show g (gr_size from).2 (label i)).
  Context (Hclass : gr_class_attrs from = [CatA name vs]).
  Context (Hvs : ∀ i r, i < m → r < (gr_size from).2 → label i r ∈ vs).
  Context (Hlen : (N.of_nat (length vs) < 2^63)%N).

  Lemma consensus_ok s order ro ko :
    reachable_in show n m answer s → ps_main s = Done →
    (∀ l, order l ≡ₚ l) → (∀ l, ro l ≡ₚ l) → (∀ r l, ko r l ≡ₚ l) →
    ∃ ret, consensus parse order ro ko pg from (ps_voting s) = Ok ret ∧ d_maxrow ret = (gr_size from).2 ∧
      ∀ r, r < (gr_size from).2 → ∃ c, reads_class show ret r c ∧
        ∀ c', votes_for m label r c' ≤ votes_for m label r c.
  Proof using Hn Hm Hans Hclass Hvs Hlen.
    intros Hr Hd Ho Hro Hko. set (rows := (gr_size from).2) in *.
    destruct (done_counted show n m answer rows label Hn Hans s Hr Hd) as [Hrec Hdom].
    assert (∀ r counts, ps_voting s !! r = Some counts → r < rows ∧
      ∃ c, popular (ko r) counts = c ∧ c ∈ vs ∧ ∀ c', votes_for m label r c' ≤ votes_for m label r c) as Hbest.
    { intros r counts Hc. assert (r < rows) as Hlt by (apply (proj1 (Hdom r)); by eexists). split; [done|].
      assert (∀ c, votes_for m label r c = default 0 (counts !! c)) as Hv.
      { intros c. specialize (Hrec r c). rewrite bool_decide_true in Hrec by done. rewrite <- Hrec.
        unfold recorded. rewrite Hc. by destruct (counts !! c). }
      destruct (votes_for_total m label r Hm) as (c0 & Hc0). rewrite Hv in Hc0.
      destruct (counts !! c0) as [k0|] eqn:E0; [|by cbn in Hc0; lia]. cbn in Hc0.
      destruct (popular_max (ko r) counts c0 k0 (Hko r) E0 Hc0) as (k & Hk & Hmax).
      eexists. split; [done|].
      assert (∀ c', votes_for m label r c' ≤ votes_for m label r (popular (ko r) counts)) as Hall.
      { intros c'. rewrite !Hv, Hk. cbn. destruct (counts !! c') as [k'|] eqn:E'; [|cbn; lia]. by apply (Hmax c'). }
      split; [|exact Hall].
      destruct (votes_for_label m label r (popular (ko r) counts)) as (i & Hi & <-); [|by apply Hvs].
      specialize (Hall c0). rewrite (Hv c0), E0 in Hall. cbn in Hall. lia. }
    unfold consensus. destruct (labels_predicted_new pg from name vs Hclass) as (d0 & -> & Hd0). cbn [mbind res_bind].
    destruct (consensus_fold parse order pg name vs rows (λ r, popular (ko r)) (ro (map_to_list (ps_voting s))) Ho) with (d := d0) (lab := λ _ : nat, @None string)
      as (ret & lab & Hret & Hlab & Hin & _).
    - intros [r counts] H. rewrite (Hro _) in H. apply elem_of_map_to_list in H.
      destruct (Hbest r counts H) as (Hlt & c & <- & Hc & _). by split.
    - rewrite (Hro _). apply NoDup_fst_map_to_list.
    - exact Hd0.
    - exists ret. split; [exact Hret|]. split; [by destruct Hlab as [(_ & ? & _) _]|]. intros r Hlt.
      destruct (proj2 (Hdom r)) as [counts Hc]; [done|].
      destruct (Hbest r counts Hc) as (_ & c & Hpop & _ & Hmax). exists c. split; [|done].
      intros ord Hord. eapply labels_predicted_get; [exact Hlab|done|done| |done].
      rewrite <- Hpop. apply (Hin (r, counts)). rewrite (Hro _). by apply elem_of_map_to_list.
  Qed.
End predicted.
