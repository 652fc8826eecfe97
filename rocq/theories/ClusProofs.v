(** Proofs about clusterings. *)
From Verif Require Import Prelude FloatModel FloatOrder AttrModel StoreModel DenseModel DenseProofs GridModel GridSpec GridProofs
  FilterModel KnnModel Id3Model RuleModel RuleProofs CartModel CartSpec CartProofs CartGrow IsoModel IsoProofs ClusModel ClusSpec.
From Flocq Require Import IEEE754.BinarySingleNaN IEEE754.Bits IEEE754.Binary.
Local Open Scope nat_scope.

(** ** Bits *)

Lemma bit_set n i j : bit (set_bit n i) j = (i =? j) || bit n j.
Proof.
  unfold bit, set_bit. rewrite N.setbit_eqb. f_equal. destruct (Nat.eqb_spec i j) as [->|H]; [apply N.eqb_refl|].
  apply N.eqb_neq. lia.
Qed.
Lemma bit_lor n m j : bit (N.lor n m) j = bit n j || bit m j.
Proof. apply N.lor_spec. Qed.
Lemma bit_zero j : bit 0%N j = false.
Proof. apply N.bits_0. Qed.

Definition count_bits (n : N) (k : nat) : nat := length (filter (λ i, bit n i = true) (seq 0 k)).

Lemma filter_length_app {A} (P : A → Prop) `{!∀ x, Decision (P x)} l k :
  length (filter P (l ++ k)) = length (filter P l) + length (filter P k).
Proof. by rewrite filter_app, app_length. Qed.

Lemma filter_length_ext {A} (P Q : A → Prop) `{!∀ x, Decision (P x)} `{!∀ x, Decision (Q x)} l :
  (∀ x, x ∈ l → P x ↔ Q x) → length (filter P l) = length (filter Q l).
Proof.
  induction l as [|x l IH]; intros Hall; [done|]. rewrite !filter_cons.
  assert (P x ↔ Q x) as Hx by (apply Hall; left). assert (length (filter P l) = length (filter Q l)) as E.
  { apply IH. intros y Hy. apply Hall. by right. }
  repeat case_decide; try tauto; cbn [length]; lia.
Qed.

Lemma filter_length_map {A B} (f : A → B) (P : B → Prop) `{!∀ x, Decision (P x)} l :
  length (filter P (map f l)) = length (filter (λ x, P (f x)) l).
Proof.
  induction l as [|x l IH]; [done|]. cbn [map]. rewrite !filter_cons. repeat case_decide; cbn [length]; lia.
Qed.

Lemma table_check : forallb (λ b, default 0 (bit_counts !! b) =? count_bits (N.of_nat b) 8) (seq 0 256) = true.
Proof. vm_compute. reflexivity. Qed.

Lemma table_bits b : (b < 256)%N → default 0 (bit_counts !! N.to_nat b) = count_bits b 8.
Proof.
  intros Hb. pose proof table_check as H. rewrite forallb_forall in H.
  specialize (H (N.to_nat b)). rewrite N2Nat.id in H. apply Nat.eqb_eq, H. apply in_seq. lia.
Qed.

Lemma count_split n k : count_bits n (8 + k) = count_bits (n mod 256) 8 + count_bits (n / 256) k.
Proof.
  unfold count_bits. rewrite seq_app, filter_length_app. f_equal.
  - apply filter_length_ext. intros i Hi. apply elem_of_seq in Hi. unfold bit.
    change 256%N with (2 ^ 8)%N. rewrite N.mod_pow2_bits_low by lia. done.
  - change (0 + 8) with (8 + 0). rewrite <- (fmap_add_seq 8 0 k), filter_length_map. apply filter_length_ext. intros i Hi. unfold bit.
    change 256%N with (2 ^ 8)%N. rewrite N.div_pow2_bits. replace (N.of_nat (8 + i)) with (N.of_nat i + 8)%N by lia. done.
Qed.

Lemma count_zero k : count_bits 0 k = 0.
Proof.
  unfold count_bits. induction (seq 0 k) as [|i l IH]; [done|]. rewrite filter_cons, decide_False; [done|].
  by rewrite bit_zero.
Qed.

Lemma bytes_sum fuel : ∀ n k acc, (n < 2 ^ N.of_nat fuel)%N → fuel ≤ k →
  foldl (λ count b, count + default 0 (bit_counts !! N.to_nat b)) acc (big_bytes fuel n)
    = acc + count_bits n k.
Proof.
  induction fuel as [|fuel IH]; intros n k acc Hn Hk.
  { change (2 ^ N.of_nat 0)%N with 1%N in Hn. assert (n = 0%N) as -> by lia. rewrite count_zero. cbn. lia. }
  cbn [big_bytes]. destruct (N.eqb_spec n 0) as [->|Hz]; [rewrite count_zero; cbn; lia|].
  cbn [foldl].
  assert (count_bits n (8 + k) = count_bits n k) as Hmore.
  { unfold count_bits. rewrite Nat.add_comm, seq_app, filter_length_app.
    rewrite (filter_length_ext (λ i, bit n i = true) (λ _, False) (seq (0 + k) 8)).
    - clear. generalize (seq (0 + k) 8). intros l. induction l as [|x l IHl]; [cbn; lia|].
      rewrite filter_cons, decide_False by tauto. exact IHl.
    - intros i Hi. apply elem_of_seq in Hi. unfold bit. rewrite N.bits_above_log2; [done|].
      apply N.log2_lt_pow2; [lia|]. eapply N.lt_le_trans; [exact Hn|]. apply N.pow_le_mono_r; lia. }
  rewrite <- Hmore, count_split, <- table_bits by (apply N.mod_lt; lia).
  rewrite (IH _ k); [lia| |lia].
  apply N.div_lt_upper_bound; [lia|]. eapply N.lt_le_trans; [exact Hn|].
  replace (N.of_nat (S fuel)) with (1 + N.of_nat fuel)%N by lia. rewrite N.pow_add_r.
  apply N.mul_le_mono_r. vm_compute. discriminate.
Qed.

Lemma bit_count_bits n k : (n < 2 ^ N.of_nat k)%N → bit_count n = count_bits n k.
Proof.
  intros Hn. unfold bit_count.
  assert (n < 2 ^ N.of_nat (N.size_nat n))%N as Hs.
  { replace (N.of_nat (N.size_nat n)) with (N.size n); [apply N.size_gt|].
    destruct n as [|p]; [done|]. cbn. clear. induction p; cbn; lia. }
  rewrite (bytes_sum _ n (k `max` N.size_nat n)) by (try assumption; lia). cbn [Nat.add].
  set (z := k `max` N.size_nat n). assert (k ≤ z) as Hz by lia. clearbody z.
  replace z with (k + (z - k)) by lia. unfold count_bits. rewrite seq_app, filter_length_app.
  rewrite (filter_length_ext (λ i, bit n i = true) (λ _, False) (seq (0 + k) (z - k))).
  - clear. generalize (seq (0 + k) (z - k)). intros l. induction l as [|x l IHl]; [cbn; lia|].
    rewrite filter_cons, decide_False by tauto. exact IHl.
  - intros i Hi. apply elem_of_seq in Hi. unfold bit. destruct (N.eq_dec n 0) as [->|]; [by rewrite N.bits_0|].
    rewrite N.bits_above_log2; [done|].
    apply N.log2_lt_pow2; [lia|]. eapply N.lt_le_trans; [exact Hn|]. apply N.pow_le_mono_r; lia.
Qed.

(** ** The neighbourhood of a row *)

Lemma query_fold (f : nat → bool) l : ∀ acc j,
  bit (foldl (λ ret i, if f i then set_bit ret i else ret) acc l) j = bit acc j || (bool_decide (j ∈ l) && f j).
Proof.
  induction l as [|i l IH]; intros acc j; cbn [foldl].
  { rewrite bool_decide_eq_false_2 by (by intros ?%elem_of_nil). by rewrite orb_false_r. }
  rewrite IH. destruct (decide (j = i)) as [->|Hne].
  - rewrite (bool_decide_eq_true_2 (i ∈ i :: l)) by left. destruct (f i) eqn:Hf.
    + rewrite bit_set, Nat.eqb_refl. cbn. by rewrite !orb_true_r.
    + by rewrite !andb_false_r.
  - rewrite (bool_decide_ext (j ∈ i :: l) (j ∈ l)) by (rewrite elem_of_cons; naive_solver).
    f_equal. destruct (f i); [|done]. rewrite bit_set. destruct (Nat.eqb_spec i j); [congruence|done].
Qed.

Section scan.
  Variable rows : nat.
  Variable dist : matrix.
  Variable eps : binary64.
  Variable min_count : Z.
  Notation near := (within dist eps).
  Notation core := (core rows near min_count).
  Notation step := (step rows near min_count).
  Notation reaches := (reaches rows near min_count).
  Notation query p := (region_query p rows dist eps).

  Lemma query_bit p j : bit (query p) j = bool_decide (j < rows) && near p j.
  Proof.
    unfold region_query. rewrite (query_fold (λ i, float_le (dist p i) eps)), bit_zero. cbn [orb]. unfold within. f_equal.
    apply bool_decide_ext. rewrite elem_of_seq. lia.
  Qed.

  Lemma query_true p j : bit (query p) j = true ↔ j < rows ∧ near p j = true.
  Proof. rewrite query_bit, andb_true_iff, bool_decide_eq_true. done. Qed.

  Lemma query_bound p : (query p < 2 ^ N.of_nat rows)%N.
  Proof.
    destruct (N.eq_dec (query p) 0) as [E|E].
    - rewrite E. apply N.neq_0_lt_0, N.pow_nonzero. lia.
    - apply N.log2_lt_pow2; [lia|]. destruct (N.lt_ge_cases (N.log2 (query p)) (N.of_nat rows)) as [|Hge]; [done|].
      exfalso. pose proof (N.bit_log2 _ E) as Hb.
      assert (bit (query p) (N.to_nat (N.log2 (query p))) = true) as Hbit by (unfold bit; by rewrite N2Nat.id).
      apply query_true in Hbit as [Hlt _]. lia.
  Qed.

  Lemma enough_core p : enough min_count (query p) = true ↔ core p.
  Proof.
    unfold enough, ClusSpec.core. rewrite Z.leb_le, (bit_count_bits _ rows (query_bound p)).
    replace (count_bits (query p) rows) with (length (filter (λ y, near p y = true) (seq 0 rows))); [done|].
    apply filter_length_ext. intros i Hi. apply elem_of_seq in Hi. rewrite query_true. naive_solver lia.
  Qed.

  (** *** Expanding one cluster *)

  Record grown (p c : nat) (st0 st : scan) (l : list nat) : Prop := Grown {
    gr_map : sc_map st = <[c := p :: l]> (sc_map st0);
    gr_nodup : NoDup (p :: l);
    gr_mem : ∀ q, q ∈ p :: l → q < rows ∧ bit (sc_visited st0) q = false ∧ bit (sc_visited st) q = true ∧
               reaches p q ∧ bit (sc_clustered st0) q = false;
    gr_clustered : ∀ q, bit (sc_clustered st) q = bit (sc_clustered st0) q || bool_decide (q ∈ p :: l);
    gr_new : ∀ q, bit (sc_visited st) q = true → bit (sc_visited st0) q = true ∨
               (q < rows ∧ reaches p q ∧ (q ∈ p :: l ∨ bit (sc_clustered st0) q = true));
    gr_old : ∀ q, bit (sc_visited st0) q = true → bit (sc_visited st) q = true
  }.

  (** What the set of pending neighbours holds. *)
  Record pending (p i : nat) (nb : N) (st0 st : scan) : Prop := Pending {
    pe_reach : ∀ q, bit nb q = true → q < rows ∧ reaches p q;
    pe_all : ∀ x y, bit (sc_visited st) x = true → bit (sc_visited st0) x = false → core x →
               y < rows → near x y = true → bit nb y = true;
    pe_done : ∀ j, j < i → bit nb j = true → bit (sc_visited st) j = true
  }.

  Lemma expand_grown p c st0 : ∀ fuel i nb st st' l,
    bit (sc_visited st) 0 = true →
    grown p c st0 st l → pending p i nb st0 st →
    expand_loop rows dist eps min_count fuel c i nb st = Ok st' →
    ∃ l', grown p c st0 st' l' ∧
      ∀ x y, bit (sc_visited st') x = true → bit (sc_visited st0) x = false → core x →
        y < rows → near x y = true → bit (sc_visited st') y = true.
  Proof.
    induction fuel as [|fuel IH]; intros i nb st st' l H0 HG HP Hrun; [done|].
    cbn [expand_loop] in Hrun. destruct (Nat.leb_spec rows i) as [Hi|Hi].
    { injection Hrun as <-. exists l. split; [exact HG|]. intros x y Hx Hx0 Hc Hy Hn.
      apply (pe_done _ _ _ _ _ HP y); [lia|]. by eapply (pe_all _ _ _ _ _ HP). }
    destruct (bit nb i) eqn:Hb; cbn [negb] in Hrun; cycle 1.
    { eapply IH; [exact H0|exact HG| |exact Hrun]. destruct HP as [P1 P2 P3]. split; [done..|].
      intros j Hj Hjb. destruct (decide (j = i)) as [->|]; [congruence|]. apply P3; [lia|done]. }
    destruct (bit (sc_visited st) i) eqn:Hv.
    { eapply IH; [exact H0|exact HG| |exact Hrun]. destruct HP as [P1 P2 P3]. split; [done..|].
      intros j Hj Hjb. destruct (decide (j = i)) as [->|]; [done|]. apply P3; [lia|done]. }
    destruct HP as [P1 P2 P3]. destruct (P1 i Hb) as [Hir Hreach].
    assert (bit (sc_visited st0) i = false) as Hv0.
    { destruct (bit (sc_visited st0) i) eqn:E; [|done]. apply (gr_old _ _ _ _ _ HG) in E. congruence. }
    set (nb' := if enough min_count (query i) then N.lor nb (query i) else nb) in *.
    set (st1 := Scan (sc_map st) (set_bit (sc_visited st) i) (sc_clustered st)) in *.
    set (st2 := if bit (sc_clustered st1) i then st1
                else Scan (append_to c i (sc_map st1)) (sc_visited st1) (set_bit (sc_clustered st1) i)) in *.
    assert (sc_visited st2 = set_bit (sc_visited st) i) as Evis by (unfold st2; by destruct (bit (sc_clustered st1) i)).
    assert (∀ q, bit nb q = true → bit nb' q = true) as Hmono.
    { intros q Hq. unfold nb'. destruct (enough _ _); [rewrite bit_lor, Hq|]; done. }
    assert (pending p (if enough min_count (query i) then 1 else S i) nb' st0 st2) as HP'.
    { split.
      - intros q. unfold nb'. destruct (enough min_count (query i)) eqn:He; [|apply P1].
        rewrite bit_lor, orb_true_iff. intros [Hq|Hq]; [by apply P1|]. apply query_true in Hq as [Hq1 Hq2].
        split; [done|]. eapply rtc_r; [exact Hreach|]. split; [by apply enough_core|done].
      - intros x y. rewrite Evis, bit_set, orb_true_iff, Nat.eqb_eq. intros Hx Hx0 Hc Hy Hn.
        destruct (decide (x = i)) as [->|Hne].
        + unfold nb'. apply enough_core in Hc. rewrite Hc, bit_lor. assert (bit (query i) y = true) as -> by (by apply query_true).
          apply orb_true_r.
        + apply Hmono. destruct Hx as [Hx|Hx]; [congruence|]. exact (P2 x y Hx Hx0 Hc Hy Hn).
      - intros j Hj Hjb. rewrite Evis, bit_set. destruct (Nat.eqb_spec i j) as [->|Hne]; [done|]. cbn [orb].
        unfold nb' in Hjb. destruct (enough min_count (query i)).
        + assert (j = 0) as -> by lia. done.
        + apply P3; [lia|done]. }
    assert (∃ l2, grown p c st0 st2 l2) as [l2 HG2].
    { destruct HG as [G1 G2 G3 G4 G5 G6]. unfold st2. cbn [st1 sc_clustered]. destruct (bit (sc_clustered st) i) eqn:Hcl.
      - exists l. split; cbn [st1 sc_map sc_visited sc_clustered]; try done.
        + intros q Hq. destruct (G3 q Hq) as (? & ? & Hvq & ? & ?). rewrite bit_set, Hvq, orb_true_r. done.
        + intros q. rewrite bit_set, orb_true_iff, Nat.eqb_eq. intros [<-|Hq]; [|by apply G5]. right.
          split_and!; [done..|]. rewrite G4, orb_true_iff, bool_decide_eq_true in Hcl. tauto.
        + intros q Hq. rewrite bit_set, (G6 q Hq), orb_true_r. done.
      - assert (i ∉ p :: l) as Hnot.
        { intros Hin. rewrite G4, (bool_decide_eq_true_2 _ Hin), orb_true_r in Hcl. done. }
        exists (l ++ [i]). split; cbn [st1 sc_map sc_visited sc_clustered].
        + unfold append_to. rewrite G1, lookup_insert. cbn [default]. rewrite insert_insert. done.
        + rewrite app_comm_cons. apply NoDup_app. split; [done|]. split; [|apply NoDup_singleton].
          intros q Hq Hq'. apply elem_of_list_singleton in Hq' as ->. done.
        + intros q. rewrite app_comm_cons, elem_of_app, elem_of_list_singleton, bit_set. intros [Hq| ->].
          * destruct (G3 q Hq) as (? & ? & Hvq & ? & ?). rewrite Hvq, orb_true_r. done.
          * rewrite Nat.eqb_refl. split_and!; try done. rewrite G4 in Hcl. by apply orb_false_iff in Hcl as [? _].
        + intros q. rewrite bit_set, G4, (bool_decide_ext (q ∈ p :: l ++ [i]) (q ∈ p :: l ∨ i = q)).
          * destruct (Nat.eqb_spec i q) as [->|Hne].
            -- rewrite (bool_decide_eq_true_2 (_ ∨ q = q)) by tauto. by rewrite orb_true_r.
            -- cbn [orb]. f_equal. apply bool_decide_ext. tauto.
          * rewrite app_comm_cons, elem_of_app, elem_of_list_singleton. naive_solver.
        + intros q. rewrite bit_set, orb_true_iff, Nat.eqb_eq, app_comm_cons, elem_of_app, elem_of_list_singleton.
          intros [<-|Hq]; [right; split_and!; [done|done|left; by right]|].
          destruct (G5 q Hq) as [?|(? & ? & [?|?])]; [by left|right..]; split_and!; try done; [left; by left|by right].
        + intros q Hq. rewrite bit_set, (G6 q Hq), orb_true_r. done. }
    eapply IH; [|exact HG2|exact HP'|exact Hrun]. rewrite Evis, bit_set, H0. apply orb_true_r.
  Qed.

  (** *** Termination *)

  Definition unvisited (v : N) : nat := length (filter (λ q, bit v q = false) (seq 0 rows)).

  Lemma count_remove (P Q : nat → Prop) `{!∀ x, Decision (P x)} `{!∀ x, Decision (Q x)} i l :
    NoDup l → i ∈ l → P i → (∀ x, Q x ↔ P x ∧ x ≠ i) → length (filter P l) = S (length (filter Q l)).
  Proof.
    intros Hnd Hi HPi HQ. induction l as [|x l IH]; [by apply elem_of_nil in Hi|].
    apply NoDup_cons in Hnd as [Hx Hnd]. rewrite !filter_cons. apply elem_of_cons in Hi as [<-|Hi].
    - rewrite decide_True by done. rewrite (decide_False (P := Q i)) by (rewrite HQ; tauto). cbn [length]. f_equal.
      apply filter_length_ext. intros y Hy. rewrite HQ. split; [|tauto]. intros; split; [done|]. by intros ->.
    - assert (x ≠ i) by (by intros ->). pose proof (HQ x). repeat case_decide; try tauto; cbn [length]; rewrite (IH Hnd Hi); done.
  Qed.

  Lemma unvisited_set v i : i < rows → bit v i = false → unvisited v = S (unvisited (set_bit v i)).
  Proof.
    intros Hi Hv. unfold unvisited. apply (count_remove _ _ i); [apply NoDup_seq|apply elem_of_seq; lia|done|].
    intros x. rewrite bit_set, orb_false_iff, Nat.eqb_neq. naive_solver.
  Qed.

  Lemma unvisited_le v : unvisited v ≤ rows.
  Proof. unfold unvisited. rewrite filter_length. by rewrite seq_length. Qed.

  Lemma expand_total c : ∀ fuel i nb st,
    unvisited (sc_visited st) * (rows + 1) + (rows - i) < fuel →
    ∃ st', expand_loop rows dist eps min_count fuel c i nb st = Ok st'.
  Proof.
    induction fuel as [|fuel IH]; intros i nb st Hf; [lia|]. cbn [expand_loop].
    destruct (Nat.leb_spec rows i) as [Hi|Hi]; [by eexists|].
    destruct (bit nb i); cbn [negb]; [|apply IH; lia].
    destruct (bit (sc_visited st) i) eqn:Hv; [apply IH; lia|].
    apply IH. pose proof (unvisited_set (sc_visited st) i Hi Hv) as Hu.
    match goal with |- context [unvisited ?v] => assert (v = set_bit (sc_visited st) i) as -> end.
    { cbn [sc_clustered]. by destruct (bit (sc_clustered st) i). }
    rewrite Hu in Hf. destruct (enough _ _); nia.
  Qed.

  (** *** The main loop *)

  (** [k] rows were looked at and [c] clusters started. *)
  Record good (k c : nat) (st : scan) : Prop := Good {
    go_vis : ∀ q, q < k → bit (sc_visited st) q = true;
    go_keys : ∀ c' l, sc_map st !! c' = Some l → c' ≤ c;
    go_mem : ∀ c' l, sc_map st !! c' = Some l → ∃ p l', l = p :: l' ∧ core p ∧ NoDup l ∧
      ∀ q, q ∈ l → q < rows ∧ bit (sc_visited st) q = true ∧ reaches p q ∧ bit (sc_clustered st) q = true;
    go_disj : ∀ c1 c2 l1 l2 q, sc_map st !! c1 = Some l1 → sc_map st !! c2 = Some l2 → q ∈ l1 → q ∈ l2 → c1 = c2;
    go_closed : ∀ x y, bit (sc_visited st) x = true → core x → y < rows → near x y = true →
      bit (sc_visited st) y = true;
    go_apart : ∀ c1 c2 l1 l2 x y, sc_map st !! c1 = Some l1 → sc_map st !! c2 = Some l2 → x ∈ l1 → y ∈ l2 →
      core x → core y → near x y = true → c1 = c2
  }.

  Hypothesis near_sym : ∀ x y, near x y = near y x.

  Lemma good_start : good 0 0 (Scan ∅ 0%N 0%N).
  Proof.
    split; cbn [sc_map sc_visited sc_clustered]; try (intros; by rewrite lookup_empty in *); try lia.
    intros x y. by rewrite bit_zero.
  Qed.

  (** The state in which the loop of expandCluster starts. *)
  Definition seeded (i c : nat) (st : scan) : scan :=
    Scan (append_to (S c) i (sc_map st)) (set_bit (set_bit (sc_visited st) i) i) (set_bit (sc_clustered st) i).

  Lemma seeded_grown i c st : good i c st → i < rows → core i → bit (sc_visited st) i = false →
    bit (sc_clustered st) i = false → grown i (S c) st (seeded i c st) [] ∧ pending i 0 (query i) st (seeded i c st) ∧
      bit (sc_visited (seeded i c st)) 0 = true.
  Proof.
    intros HG Hi Hc Hv Hcl. split_and!.
    - split; unfold seeded; cbn [sc_map sc_visited sc_clustered].
      + unfold append_to. destruct (sc_map st !! S c) as [l|] eqn:E; [apply (go_keys _ _ _ HG) in E; lia|done].
      + apply NoDup_singleton.
      + intros q Hq. apply elem_of_list_singleton in Hq as ->. rewrite !bit_set, Nat.eqb_refl. split_and!; try done. constructor.
      + intros q. rewrite bit_set, orb_comm. f_equal. destruct (Nat.eqb_spec i q) as [->|Hne].
        * by rewrite bool_decide_eq_true_2 by left.
        * rewrite bool_decide_eq_false_2; [done|]. rewrite elem_of_list_singleton. congruence.
      + intros q. rewrite !bit_set, !orb_true_iff, !Nat.eqb_eq. intros [<-|[<-|Hq]]; [right..|by left];
          (split_and!; [done|constructor|left; left]).
      + intros q Hq. by rewrite !bit_set, Hq, !orb_true_r.
    - split; unfold seeded; cbn [sc_map sc_visited sc_clustered].
      + intros q Hq. apply query_true in Hq as [Hq1 Hq2]. split; [done|]. by apply rtc_once.
      + intros x y. rewrite !bit_set, !orb_true_iff, !Nat.eqb_eq. intros Hx Hx0 Hcx Hy Hn.
        assert (x = i) as -> by (destruct Hx as [?|[?|?]]; congruence). by apply query_true.
      + lia.
    - unfold seeded. cbn [sc_visited]. rewrite !bit_set. destruct (decide (i = 0)) as [->|]; [done|].
      rewrite (go_vis _ _ _ HG 0), !orb_true_r by lia. done.
  Qed.

  Lemma good_row fuel i c st c' st' : i < rows → good i c st →
    scan_row rows dist eps min_count fuel (c, st) i = Ok (c', st') → good (S i) c' st'.
  Proof using near_sym.
    intros Hi HG. unfold scan_row. destruct (bit (sc_visited st) i) eqn:Hv.
    { intros [= <- <-]. destruct HG as [G1 G2 G3 G4 G5 G6]. split; try done. intros q Hq.
      destruct (decide (q = i)) as [->|]; [done|]. apply G1. lia. }
    destruct (enough min_count (query i)) eqn:He; cbn [negb]; cycle 1.
    { intros [= <- <-]. destruct HG as [G1 G2 G3 G4 G5 G6].
      assert (¬ core i) as Hnc by (intros Hc; apply enough_core in Hc; congruence).
      split; cbn [sc_map sc_visited sc_clustered]; try done.
      - intros q Hq. rewrite bit_set. destruct (Nat.eqb_spec i q); [done|]. apply G1. lia.
      - intros k l Hl. destruct (G3 k l Hl) as (p & l' & -> & Hp & Hnd & Hq). exists p, l'. split_and!; try done.
        intros q Hin. destruct (Hq q Hin) as (? & Hvq & ? & Hcq). by rewrite bit_set, bit_lor, Hvq, Hcq, orb_true_r.
      - intros x y. rewrite !bit_set, orb_true_iff, Nat.eqb_eq. intros [<-|Hx] Hc Hy Hn; [done|].
        by rewrite (G5 x y Hx Hc Hy Hn), orb_true_r. }
    apply enough_core in He. intros (st2 & Hx & [= <- <-])%bind_Ok. unfold expand_cluster in Hx.
    cbn [sc_map sc_visited sc_clustered] in Hx. destruct (bit (sc_clustered st) i) eqn:Hcl; [done|].
    destruct (seeded_grown i c st HG Hi He Hv Hcl) as (Hgr & Hpe & H0).
    destruct (expand_grown i (S c) st fuel 0 (query i) (seeded i c st) st2 [] H0 Hgr Hpe Hx) as (l & HG2 & Hclosed).
    destruct HG as [G1 G2 G3 G4 G5 G6]. destruct HG2 as [N1 N2 N3 N4 N5 N6].
    assert (∀ k l0 q, sc_map st !! k = Some l0 → q ∈ l0 → q ∈ i :: l → False) as Hfresh.
    { intros k l0 q Hk Hq0 Hq. destruct (G3 k l0 Hk) as (p & l' & -> & _ & _ & Hm).
      destruct (Hm q Hq0) as (_ & Hvq & _). destruct (N3 q Hq) as (_ & Hvq' & _). congruence. }
    assert (∀ k l0 x y, sc_map st !! k = Some l0 → x ∈ l0 → y ∈ i :: l → core x → near x y = true → False) as Hfar.
    { intros k l0 x y Hk Hxl Hy Hcx Hn. destruct (G3 k l0 Hk) as (p & l' & -> & _ & _ & Hm).
      destruct (Hm x Hxl) as (_ & Hvx & _). destruct (N3 y Hy) as (Hyr & Hvy & _).
      rewrite (G5 x y Hvx Hcx Hyr Hn) in Hvy. done. }
    split.
    - intros q Hq. destruct (decide (q = i)) as [->|]; [apply N3; left|]. apply N6, G1. lia.
    - intros k l0. rewrite N1. intros [[<- <-]|[Hne Hk]]%lookup_insert_Some; [lia|]. apply G2 in Hk. lia.
    - intros k l0. rewrite N1. intros [[<- <-]|[Hne Hk]]%lookup_insert_Some.
      + exists i, l. split_and!; try done. intros q Hq. destruct (N3 q Hq) as (? & ? & ? & ? & ?).
        rewrite N4, (bool_decide_eq_true_2 _ Hq), orb_true_r. done.
      + destruct (G3 k l0 Hk) as (p & l' & -> & Hp & Hnd & Hq). exists p, l'. split_and!; try done.
        intros q Hin. destruct (Hq q Hin) as (? & Hvq & ? & Hcq). rewrite N4, Hcq. split_and!; try done. by apply N6.
    - intros c1 c2 l1 l2 q. rewrite N1. intros [[<- <-]|[Hne1 Hk1]]%lookup_insert_Some [[<- <-]|[Hne2 Hk2]]%lookup_insert_Some Hq1 Hq2.
      + done.
      + exfalso. by eapply Hfresh.
      + exfalso. by eapply Hfresh.
      + by eapply G4.
    - intros x y Hvx Hcx Hy Hn. destruct (bit (sc_visited st) x) eqn:Hold; [apply N6; by eapply G5|by eapply Hclosed].
    - intros c1 c2 l1 l2 x y. rewrite N1. intros [[<- <-]|[Hne1 Hk1]]%lookup_insert_Some [[<- <-]|[Hne2 Hk2]]%lookup_insert_Some Hq1 Hq2 Hcx Hcy Hn.
      + done.
      + exfalso. rewrite near_sym in Hn. by eapply Hfar.
      + exfalso. by eapply Hfar.
      + by eapply G6.
  Qed.

  Lemma good_rows fuel n : ∀ i c st c' st', i + n ≤ rows → good i c st →
    res_foldl (scan_row rows dist eps min_count fuel) (c, st) (seq i n) = Ok (c', st') → good (i + n) c' st'.
  Proof using near_sym.
    induction n as [|n IH]; intros i c st c' st' Hi HG; cbn [seq res_foldl].
    { intros [= <- <-]. by rewrite Nat.add_0_r. }
    intros ([c1 st1] & H1 & H2)%bind_Ok. replace (i + S n) with (S i + n) by lia. eapply IH; [lia| |exact H2].
    eapply good_row; [|done|exact H1]. lia.
  Qed.

  Lemma scan_good fuel m : scan_all rows dist eps min_count fuel = Ok m →
    ∃ c st, good rows c st ∧ m = filter (λ e, (min_count <=? Z.of_nat (length e.2))%Z = true) (sc_map st) ∧
      res_foldl (scan_row rows dist eps min_count fuel) (0, Scan ∅ 0%N 0%N) (seq 0 rows) = Ok (c, st).
  Proof using near_sym.
    unfold scan_all. intros ([c st] & Hrun & [= <-])%bind_Ok. exists c, st. split_and!; [|done|done].
    exact (good_rows fuel rows 0 0 (Scan ∅ 0%N 0%N) c st ltac:(lia) good_start Hrun).
  Qed.

  (** *** Never out of fuel *)

  Lemma row_fuel fuel i c st : (rows + 1) * (rows + 1) ≤ fuel → scan_row rows dist eps min_count fuel (c, st) i ≠ Err.
  Proof.
    intros Hf. unfold scan_row. destruct (bit (sc_visited st) i); [done|]. destruct (enough _ _); cbn [negb]; [|done].
    unfold expand_cluster. cbn [sc_map sc_visited sc_clustered]. destruct (bit (sc_clustered st) i); [done|].
    match goal with |- context [expand_loop _ _ _ _ ?f ?c ?i ?nb ?st] => destruct (expand_total c f i nb st) as [st' ->] end; [|done].
    cbn [sc_visited]. pose proof (unvisited_le (set_bit (set_bit (sc_visited st) i) i)). nia.
  Qed.

  Lemma scan_fuel fuel : (rows + 1) * (rows + 1) ≤ fuel → scan_all rows dist eps min_count fuel ≠ Err.
  Proof.
    intros Hf. unfold scan_all.
    assert (∀ l cs, res_foldl (scan_row rows dist eps min_count fuel) cs l ≠ Err) as Hl.
    { induction l as [|i l IH]; intros [c st]; [done|]. cbn [res_foldl]. pose proof (row_fuel fuel i c st Hf) as Hr.
      destruct (scan_row rows dist eps min_count fuel (c, st) i) as [cs'| |]; [apply IH|done|done]. }
    specialize (Hl (seq 0 rows) (0, Scan ∅ 0%N 0%N)). by destruct (res_foldl _ _ _).
  Qed.

  (** *** Without border rows *)

  Section components.
    Hypothesis inner : no_border rows near min_count.

    Record complete (st : scan) : Prop := Complete {
      co_clustered : ∀ q, q < rows → bit (sc_clustered st) q = true → core q → ∃ c l, sc_map st !! c = Some l ∧ q ∈ l;
      co_core : ∀ q, q < rows → bit (sc_visited st) q = true → core q → ∃ c l, sc_map st !! c = Some l ∧ q ∈ l
    }.

    Lemma complete_row fuel i c st : (rows + 1) * (rows + 1) ≤ fuel → i < rows → good i c st → complete st →
      ∃ c' st', scan_row rows dist eps min_count fuel (c, st) i = Ok (c', st') ∧ complete st'.
    Proof using near_sym inner.
      intros Hf Hi HG [C1 C2]. unfold scan_row. destruct (bit (sc_visited st) i) eqn:Hv; [by eexists _, _|].
      destruct (enough min_count (query i)) eqn:He; cbn [negb]; cycle 1.
      { assert (¬ core i) as Hnc by (intros Hc; apply enough_core in Hc; congruence).
        eexists _, _. split; [reflexivity|]. split; cbn [sc_map sc_visited sc_clustered].
        - intros q Hq. rewrite bit_lor, orb_true_iff. intros [Hc|Hn] Hcore; [by apply C1|].
          exfalso. apply query_true in Hn as [_ Hn]. apply Hnc, (inner q i). split_and!; try done. by rewrite near_sym.
        - intros q Hq. rewrite bit_set, orb_true_iff, Nat.eqb_eq. intros [<-|Hvq] Hcore; [done|]. by apply C2. }
      apply enough_core in He. unfold expand_cluster. cbn [sc_map sc_visited sc_clustered].
      destruct (bit (sc_clustered st) i) eqn:Hcl.
      { exfalso. destruct (C1 i Hi Hcl He) as (k & l & Hk & Hin). destruct (go_mem _ _ _ HG k l Hk) as (p & l' & _ & _ & _ & Hm).
        destruct (Hm i Hin) as (_ & ? & _). congruence. }
      destruct (seeded_grown i c st HG Hi He Hv Hcl) as (Hgr & Hpe & H0). fold (seeded i c st).
      destruct (expand_total (S c) fuel 0 (query i) (seeded i c st)) as [st2 Hx].
      { pose proof (unvisited_le (sc_visited (seeded i c st))). nia. }
      rewrite Hx. cbn [mbind res_bind]. eexists _, _. split; [reflexivity|].
      destruct (expand_grown i (S c) st fuel 0 (query i) (seeded i c st) st2 [] H0 Hgr Hpe Hx) as (l & [N1 N2 N3 N4 N5 N6] & Hclosed).
      assert (∀ q, (∃ k l0, sc_map st !! k = Some l0 ∧ q ∈ l0) → ∃ k l0, sc_map st2 !! k = Some l0 ∧ q ∈ l0) as Hkeep.
      { intros q (k & l0 & Hk & Hq). exists k, l0. split; [|done]. rewrite N1, lookup_insert_ne; [done|].
        intros <-. apply (go_keys _ _ _ HG) in Hk. lia. }
      assert (∀ q, q ∈ i :: l → ∃ k l0, sc_map st2 !! k = Some l0 ∧ q ∈ l0) as Hnew.
      { intros q Hq. exists (S c), (i :: l). split; [|done]. by rewrite N1, lookup_insert. }
      split.
      - intros q Hq Hcq Hcore. rewrite N4, orb_true_iff, bool_decide_eq_true in Hcq. destruct Hcq as [Hcq|Hin]; [|by apply Hnew].
        apply Hkeep, C1; done.
      - intros q Hq Hvq Hcore. destruct (N5 q Hvq) as [Hold|(_ & _ & [Hin|Hcq])].
        + apply Hkeep, C2; done.
        + by apply Hnew.
        + apply Hkeep, C1; done.
    Qed.

    Lemma complete_rows fuel n : (rows + 1) * (rows + 1) ≤ fuel → ∀ i c st, i + n ≤ rows → good i c st → complete st →
      ∃ c' st', res_foldl (scan_row rows dist eps min_count fuel) (c, st) (seq i n) = Ok (c', st') ∧ complete st'.
    Proof using near_sym inner.
      intros Hf. induction n as [|n IH]; intros i c st Hi HG HC; cbn [seq res_foldl]; [by eexists _, _|].
      destruct (complete_row fuel i c st Hf ltac:(lia) HG HC) as (c1 & st1 & H1 & HC1). rewrite H1. cbn [mbind res_bind].
      apply IH; [lia| |done]. eapply good_row; [|done|exact H1]. lia.
    Qed.

    Lemma scan_complete fuel : (rows + 1) * (rows + 1) ≤ fuel →
      ∃ m, scan_all rows dist eps min_count fuel = Ok m ∧
        (∀ q, q < rows → core q → ∃ c l, m !! c = Some l ∧ q ∈ l) ∧
        (∀ c l x y, m !! c = Some l → x ∈ l → x < rows → core x → (y ∈ l ↔ reaches x y)).
    Proof using near_sym inner.
      intros Hf. destruct (complete_rows fuel rows Hf 0 0 (Scan ∅ 0%N 0%N) ltac:(lia) good_start) as (c & st & Hrun & [C1 C2]).
      { split; cbn [sc_clustered sc_visited]; intros q _; by rewrite bit_zero. }
      assert (good rows c st) as HG by exact (good_rows fuel rows 0 0 (Scan ∅ 0%N 0%N) c st ltac:(lia) good_start Hrun).
      unfold scan_all. rewrite Hrun. cbn [mbind res_bind snd]. eexists. split; [reflexivity|].
      destruct HG as [G1 G2 G3 G4 G5 G6].
      assert (∀ q, q < rows → core q → ∃ c l, sc_map st !! c = Some l ∧ q ∈ l) as Hall by (intros q Hq Hc; apply C2; auto).
      assert (∀ k l x, sc_map st !! k = Some l → x ∈ l → core x) as Hcores.
      { intros k l x Hk Hx. destruct (G3 k l Hk) as (p & l' & -> & Hp & _ & Hm). destruct (Hm x Hx) as (_ & _ & Hr & _).
        clear - Hr Hp inner. induction Hr as [|a b d Hab _ IH]; [done|]. apply IH. by eapply inner. }
      assert (∀ k l x y, sc_map st !! k = Some l → x ∈ l → step x y → y ∈ l) as Hstep.
      { intros k l x y Hk Hx (Hcx & Hxr & Hyr & Hn).
        assert (core y) as Hcy by (eapply inner; split_and!; eauto).
        destruct (Hall y Hyr Hcy) as (k' & l2 & Hk' & Hy).
        assert (k = k') as <- by (eapply (G6 k k' l l2 x y); eauto). rewrite Hk in Hk'. by injection Hk' as <-. }
      assert (∀ k l, sc_map st !! k = Some l → (min_count <=? Z.of_nat (length l))%Z = true) as Hsize.
      { intros k l Hk. destruct (G3 k l Hk) as (p & l' & Hl & Hp & Hnd & Hm). apply Z.leb_le. etransitivity; [exact Hp|].
        apply inj_le. apply submseteq_length, NoDup_submseteq; [apply NoDup_filter, NoDup_seq|].
        intros y [Hn Hy]%elem_of_list_filter. apply elem_of_seq in Hy. apply (Hstep k l p y Hk); [rewrite Hl; left|].
        split_and!; try done; [|lia]. apply (Hm p). rewrite Hl. left. }
      split.
      - intros q Hq Hc. destruct (Hall q Hq Hc) as (k & l & Hk & Hin). exists k, l. split; [|done].
        apply map_filter_lookup_Some. split; [done|]. cbn [snd]. eauto.
      - intros k l x y [Hk _]%map_filter_lookup_Some Hx Hxr Hcx. split.
        + intros Hy. destruct (G3 k l Hk) as (p & l' & -> & Hp & Hnd & Hm).
          destruct (Hm x Hx) as (_ & _ & Hrx & _), (Hm y Hy) as (_ & _ & Hry & _). unfold ClusSpec.reaches.
          etransitivity; [|exact Hry]. clear - Hrx Hp near_sym inner.
          assert (∀ a b, step a b → step b a) as Hsym.
          { intros a b Hab. pose proof (inner a b Hab). destruct Hab as (? & ? & ? & ?). split_and!; try done. by rewrite near_sym. }
          induction Hrx as [|a b d Hab _ IH]; [constructor|]. eapply rtc_r; [|by apply Hsym]. apply IH. by eapply inner.
        + intros Hr. clear Hxr Hcx. induction Hr as [|a b d Hab _ IH]; [done|]. apply IH. by eapply Hstep.
    Qed.
  End components.
End scan.
