(** Proofs about k-d trees. *)
From Coq Require Import QArith Lqa.
From Verif Require Import Prelude DenseProofs KdModel KdSpec HeapProofs.
Local Open Scope nat_scope.

Lemma idx_some {A} (l : list A) i x : l !! i = Some x → idx l i = Ok x.
Proof. intros H. unfold idx. by rewrite H. Qed.

Lemma perm_in {A} (x : A) l l' : l ≡ₚ l' → x ∈ l → x ∈ l'.
Proof. intros Hp H. by rewrite <- Hp. Qed.

Lemma perm_shuffle {A} (x : A) s p o g :
  ((s ++ p) ++ [x]) ++ (o ++ g) ≡ₚ (x :: s ++ o) ++ p ++ g.
Proof.
  rewrite <- !app_assoc. simpl.
  rewrite (Permutation_app_comm p), <- !app_comm_cons, <- (Permutation_middle s).
  constructor. rewrite <- !app_assoc. apply Permutation_app_head, Permutation_app_head.
  apply Permutation_app_comm.
Qed.

(** ** Construction *)

Lemma advance_ok key q mid div rest :
  (∀ r, r ∈ rest → key r = Ok (q r)) →
  ∃ n, n ≤ length rest ∧ advance key mid (S div) div rest = Ok (div + n) ∧
    (∀ j r, j < n → rest !! j = Some r → (q r == mid)%Q) ∧
    (∀ r, rest !! n = Some r → ¬ (q r == mid)%Q).
Proof.
  revert div. induction rest as [|r rest IH]; intros div H.
  - exists 0. split; [done|]. split; [by rewrite Nat.add_0_r|]. split; [lia|done].
  - cbn [advance]. rewrite (H r) by left. cbn [mbind res_bind].
    destruct (Qeq_bool (q r) mid) eqn:E.
    + apply Qeq_bool_eq in E.
      destruct (IH (S div)) as (n & Hn & -> & H1 & H2).
      { intros s Hs. apply H. by right. }
      exists (S n). split; [simpl; lia|]. split; [f_equal; lia|]. split.
      * intros [|j] s Hj Hs; [by injection Hs as <-|]. apply (H1 j); [lia|done].
      * intros s Hs. by apply H2.
    + exists 0. split; [lia|]. split; [by rewrite Nat.add_0_r|]. split; [lia|].
      intros s [= <-] E2. apply Qeq_eq_bool in E2. congruence.
Qed.

Lemma strongly_sorted_lookup {A} (R : A → A → Prop) l i j x y :
  StronglySorted R l → i < j → l !! i = Some x → l !! j = Some y → R x y.
Proof.
  intros Hs. revert i j. induction Hs as [|a l Hs IH Ha]; intros i j Hij Hi Hj; [done|].
  destruct i as [|i]; destruct j as [|j]; try lia; simpl in *.
  - injection Hi as ->. rewrite Forall_forall in Ha. apply Ha.
    by eapply elem_of_list_lookup_2.
  - eapply IH; [|done..]. lia.
Qed.

Section build.
  Context (sorter : (nat → Q) → list nat → list nat) (Hsort : sorts sorter).
  Context (data : list (list Q)) (d : nat) (Hrect : rectangular_data data d) (Hd : 1 ≤ d).

  Lemma coord_ok r f :
    r < length data → f < d → coord data f r = Ok (coord0 data f r) ∧
      has_coord data r f (coord0 data f r).
  Proof.
    intros Hr Hf. unfold coord0, coord, has_coord.
    destruct (lookup_lt_is_Some_2 data r Hr) as [v Hv].
    assert (length v = d) as Hl by (apply Hrect; by eapply elem_of_list_lookup_2).
    destruct (lookup_lt_is_Some_2 v f) as [x Hx]; [lia|].
    unfold idx. rewrite Hv. cbn [mbind res_bind]. rewrite Hx. eauto.
  Qed.

  Lemma res_mapM_ok {A B} (f : A → res B) l :
    (∀ x, x ∈ l → ∃ y, f x = Ok y) → ∃ ys, res_mapM f l = Ok ys.
  Proof.
    induction l as [|x l IH]; intros H; simpl; [eauto|].
    destruct (H x) as [y ->]; [left|]. cbn [mbind res_bind].
    destruct IH as [ys ->]; [intros z Hz; apply H; by right|]. cbn [mbind res_bind]. eauto.
  Qed.

  Lemma build_ok fuel rows f :
    2 ≤ length rows ≤ fuel → Forall (λ r, r < length data) rows → f < d →
    ∃ t, build sorter data fuel rows f = Ok t ∧ rows_of t ≡ₚ rows ∧ search_tree data t.
  Proof.
    revert rows f. induction fuel as [|fuel IH]; intros rows f Hl Hrows Hf; [lia|].
    cbn [build].
    rewrite Forall_forall in Hrows.
    destruct (res_mapM_ok (coord data f) rows) as [ys ->].
    { intros r Hr. destruct (coord_ok r f (Hrows r Hr) Hf) as [-> _]. eauto. }
    cbn [mbind res_bind].
    destruct (Hsort (coord0 data f) rows) as [Hp Hs].
    set (rs := sorter (coord0 data f) rows) in *. clearbody rs.
    cbv zeta.
    pose proof (Permutation_length Hp) as Hlen.
    assert (∀ r, r ∈ rs → r < length data) as Hrs.
    { intros r Hr. apply Hrows. by rewrite <- Hp. }
    set (mid := length rs / 2) in *.
    assert (1 ≤ mid < length rs) as Hmid.
    { unfold mid. split; [apply Nat.div_le_lower_bound; lia|apply Nat.div_lt; lia]. }
    destruct (lookup_lt_is_Some_2 rs mid) as [m Hm]; [lia|].
    rewrite (idx_some _ _ _ Hm). cbn [mbind res_bind].
    destruct (coord_ok m f) as [-> _]; [apply Hrs; by eapply elem_of_list_lookup_2|done|].
    cbn [mbind res_bind].
    destruct (advance_ok (coord data f) (coord0 data f) (coord0 data f m) mid
      (drop (mid + 1) rs)) as (n & Hn & Hadv & Heq & Hneq).
    { intros r Hr. apply coord_ok; [|done]. apply Hrs.
      apply elem_of_list_lookup in Hr as [i Hi]. rewrite lookup_drop in Hi.
      by eapply elem_of_list_lookup_2. }
    replace (mid + 1) with (S mid) in * by lia. rewrite Hadv. cbn [mbind res_bind].
    rewrite drop_length in Hn. set (div := mid + n) in *.
    assert (1 ≤ div < length rs) as Hdiv by lia.
    destruct (lookup_lt_is_Some_2 rs div) as [row Hrow]; [lia|].
    rewrite (idx_some _ _ _ Hrow). cbn [mbind res_bind].
    assert (row < length data) as Hrowlt by (apply Hrs; by eapply elem_of_list_lookup_2).
    destruct (lookup_lt_is_Some_2 data row) as [value Hvalue]; [done|].
    rewrite (idx_some _ _ _ Hvalue). cbn [mbind res_bind].
    destruct (lookup_lt_is_Some_2 rs 0) as [r0 Hr0]; [lia|].
    rewrite (idx_some _ _ _ Hr0). cbn [mbind res_bind].
    destruct (lookup_lt_is_Some_2 data r0) as [v0 Hv0];
      [apply Hrs; by eapply elem_of_list_lookup_2|].
    rewrite (idx_some _ _ _ Hv0). cbn [mbind res_bind].
    assert (length v0 = d) as Hlv0 by (apply Hrect; by eapply elem_of_list_lookup_2).
    rewrite Hlv0.
    assert ((f + 1) mod d < d) as Hf' by (apply Nat.mod_upper_bound; lia).
    (* the coordinate of the dividing row *)
    assert (coord0 data f row == coord0 data f m)%Q as Erow.
    { destruct n as [|n'].
      - replace div with mid in Hrow by lia. rewrite Hm in Hrow. injection Hrow as ->. lra.
      - apply (Heq n'); [lia|]. rewrite lookup_drop.
        replace (S mid + n') with div by lia. done. }
    assert (∀ s, s ∈ take div rs → (coord0 data f s <= coord0 data f row)%Q) as Hleft.
    { intros s Hs'. apply elem_of_list_lookup in Hs' as [i Hi].
      apply lookup_take_Some in Hi as [Hi Hi'].
      exact (strongly_sorted_lookup _ rs i div s row Hs Hi' Hi Hrow). }
    assert (∀ s, s ∈ drop (div + 1) rs → (coord0 data f row < coord0 data f s)%Q) as Hright.
    { intros s Hs'. apply elem_of_list_lookup in Hs' as [i Hi].
      rewrite lookup_drop in Hi.
      assert (div + 1 + i < length rs) as Hlt by (by eapply lookup_lt_Some).
      destruct (lookup_lt_is_Some_2 rs (div + 1)) as [b Hb]; [lia|].
      assert (coord0 data f b <= coord0 data f s)%Q as H1.
      { destruct i as [|i]; [rewrite Nat.add_0_r in Hi; rewrite Hi in Hb; injection Hb as ->; lra|].
        refine (strongly_sorted_lookup _ rs (div + 1) (div + 1 + S i) b s Hs _ _ _); [lia|done..]. }
      assert (coord0 data f row <= coord0 data f b)%Q as H2.
      { refine (strongly_sorted_lookup _ rs div (div + 1) row b Hs _ _ _); [lia|done..]. }
      assert (¬ (coord0 data f b == coord0 data f m)%Q) as H3.
      { apply Hneq. rewrite lookup_drop. replace (S mid + n) with (div + 1) by lia. done. }
      apply Qle_lteq in H2 as [H2|H2]; [lra|]. exfalso. apply H3. by rewrite <- H2. }
    assert (∃ tl, (if div =? 1 then Ok (KLeaf v0 r0)
        else build sorter data fuel (take div rs) ((f + 1) mod d)) = Ok tl ∧
      rows_of tl ≡ₚ take div rs ∧ search_tree data tl) as (tl & -> & Hpl & Hstl).
    { destruct (Nat.eqb_spec div 1) as [E|Hne].
      - exists (KLeaf v0 r0). split; [done|]. rewrite E. split; [|done].
        destruct rs as [|x rs]; [done|]. injection Hr0 as ->. done.
      - destruct (IH (take div rs) ((f + 1) mod d)) as (t & ? & ? & ?); [..|eauto].
        + rewrite take_length. lia.
        + apply Forall_forall. intros r Hr. apply Hrs. by apply elem_of_take in Hr as (i & Hi & _);
            eapply elem_of_list_lookup_2.
        + done. }
    cbn [mbind res_bind].
    assert (∃ tr, (if div =? length rs - 2 then
          r ← idx rs (div + 1); v ← idx data r; Ok (KLeaf v r)
        else if negb (div =? length rs - 1) then
          build sorter data fuel (drop (div + 1) rs) ((f + 1) mod d)
        else Ok KNil) = Ok tr ∧
      rows_of tr ≡ₚ drop (div + 1) rs ∧ search_tree data tr) as (tr & -> & Hpr & Hstr).
    { destruct (Nat.eqb_spec div (length rs - 2)) as [E|Hne].
      - destruct (lookup_lt_is_Some_2 rs (div + 1)) as [r Hr]; [lia|].
        destruct (lookup_lt_is_Some_2 data r) as [v Hv];
          [apply Hrs; by eapply elem_of_list_lookup_2|].
        exists (KLeaf v r). unfold idx. rewrite Hr. cbn [mbind res_bind]. rewrite Hv.
        split; [done|]. split; [|done]. simpl.
        rewrite (drop_S _ _ _ Hr), drop_ge by lia. done.
      - destruct (Nat.eqb_spec div (length rs - 1)) as [E|Hne2]; cbn [negb].
        + exists KNil. split; [done|]. split; [|done]. rewrite drop_ge by lia. done.
        + destruct (IH (drop (div + 1) rs) ((f + 1) mod d)) as (t & ? & ? & ?); [..|eauto].
          * rewrite drop_length. lia.
          * apply Forall_forall. intros r Hr. apply Hrs.
            apply elem_of_list_lookup in Hr as [i Hi]. rewrite lookup_drop in Hi.
            by eapply elem_of_list_lookup_2.
          * done. }
    cbn [mbind res_bind]. eexists. split; [reflexivity|]. split.
    - simpl. rewrite Hpl, Hpr, <- Hp. rewrite <- (take_drop_middle rs div row Hrow) at 3.
      rewrite Nat.add_1_r. apply Permutation_middle.
    - simpl. split; [done|]. split; [|done].
      destruct (coord_ok row f Hrowlt Hf) as [_ (v & Hv & Hvf)].
      exists (coord0 data f row). split; [congruence|]. split.
      + intros s Hs'. rewrite Hpl in Hs'. exists (coord0 data f s).
        split; [|by apply Hleft]. apply coord_ok; [|done]. apply Hrs.
        apply elem_of_take in Hs' as (i & Hi & _). by eapply elem_of_list_lookup_2.
      + intros s Hs'. rewrite Hpr in Hs'. exists (coord0 data f s).
        split; [|by apply Hright]. apply coord_ok; [|done]. apply Hrs.
        apply elem_of_list_lookup in Hs' as [i Hi]. rewrite lookup_drop in Hi.
        by eapply elem_of_list_lookup_2.
  Qed.
End build.

Lemma kd_build_ok sorter data d :
  sorts sorter → rectangular_data data d → 1 ≤ d → data ≠ [] →
  ∃ t, kd_build sorter data = Ok t ∧ rows_of t ≡ₚ seq 0 (length data) ∧ search_tree data t.
Proof.
  intros Hsort Hrect Hd Hne. unfold kd_build. destruct data as [|d0 ds]; [done|].
  assert (length d0 = d) as Hd0 by (apply Hrect; left).
  assert (forallb (λ v, length v =? length d0) (d0 :: ds) = true) as ->.
  { apply forallb_forall. intros v Hv. apply Nat.eqb_eq. rewrite Hd0. apply Hrect.
    by apply elem_of_list_In. }
  destruct (Nat.eqb_spec (length (d0 :: ds)) 1) as [E1|Hn1].
  - exists (KLeaf d0 0). split; [done|]. simpl in E1. destruct ds; [|done]. done.
  - apply build_ok with (d := d); [done..| | |lia].
    + rewrite seq_length. simpl in *. lia.
    + apply Forall_forall. intros r Hr. apply elem_of_seq in Hr. lia.
Qed.

Lemma kd_build_bad sorter data :
  data = [] ∨ (∀ d, ¬ rectangular_data data d) → kd_build sorter data = Err.
Proof.
  intros [->|H]; [done|]. unfold kd_build. destruct data as [|d0 data]; [done|].
  destruct (forallb _ _) eqn:E; [|done]. exfalso. apply (H (length d0)).
  intros v Hv. rewrite forallb_forall in E. apply Nat.eqb_eq. apply E.
  by apply elem_of_list_In.
Qed.

(** ** Search *)

Section search.
  Context (dist : list Q → list Q → Q) (k : nat) (Hk : 1 ≤ k) (target : list Q).

  (** [h] is a heap of the [k] smallest of [its]. *)
  Definition kbest (its h : list hnode) : Prop :=
    heap_ok h ∧ length h = min k (length its) ∧
    ∃ rest, its ≡ₚ h ++ rest ∧ ∀ x y, x ∈ h → y ∈ rest → (x.1 <= y.1)%Q.

  Lemma kbest_perm its its' h : its ≡ₚ its' → kbest its h → kbest its' h.
  Proof.
    intros Hp (H1 & H2 & rest & H3 & H4). split; [done|].
    split; [by rewrite <- (Permutation_length Hp)|]. exists rest. split; [|done].
    by rewrite <- Hp.
  Qed.

  Lemma kbest_nil : kbest [] [].
  Proof.
    split; [apply heap_ok_nil|]. split; [by rewrite Nat.min_0_r|]. exists [].
    split; [done|]. intros x y Hx. by apply elem_of_nil in Hx.
  Qed.

  Lemma kbest_insert its h x :
    kbest its h → length h < k →
    ∃ h', heap_insert h x.1 x.2 = Ok h' ∧ kbest (its ++ [x]) h'.
  Proof.
    intros (Hok & Hl & rest & Hp & Hle) Hlt.
    destruct (heap_insert_ok h x.1 x.2 Hok) as (h' & Hi & Hok' & Hp').
    rewrite <- surjective_pairing in Hp'. exists h'. split; [done|].
    assert (rest = []) as ->.
    { apply length_zero_iff_nil. apply Permutation_length in Hp. rewrite app_length in Hp. lia. }
    split; [done|]. rewrite app_nil_r in Hp. split.
    - rewrite (Permutation_length Hp'), app_length, (Permutation_length Hp). simpl. lia.
    - exists []. split; [|intros ?? _ H; by apply elem_of_nil in H].
      rewrite app_nil_r, Hp', Hp. symmetry. apply Permutation_cons_append.
  Qed.

  Lemma kbest_full_ne its h : kbest its h → k ≤ length h → length h = k ∧ h ≠ [].
  Proof. intros (_ & Hl & _) H. split; [lia|]. intros ->. simpl in H. lia. Qed.

  Lemma kbest_replace its h x :
    kbest its h → k ≤ length h → (x.1 < (heap_max h).1)%Q →
    ∃ h1 h', heap_extract h = Ok h1 ∧ heap_insert h1 x.1 x.2 = Ok h' ∧ kbest (its ++ [x]) h'.
  Proof.
    intros Hb Hge Hlt. destruct (kbest_full_ne _ _ Hb Hge) as [Hlk Hne].
    destruct Hb as (Hok & Hl & rest & Hp & Hle).
    destruct (heap_extract_ok h Hok Hne) as (h1 & He & Hok1 & Hp1).
    destruct (heap_insert_ok h1 x.1 x.2 Hok1) as (h' & Hi & Hok' & Hp').
    rewrite <- surjective_pairing in Hp'.
    exists h1, h'. split; [done|]. split; [done|]. split; [done|].
    pose proof (Permutation_length Hp1) as L1. pose proof (Permutation_length Hp') as L2.
    simpl in L1, L2. split; [rewrite app_length; simpl; lia|].
    exists (heap_max h :: rest). split.
    - rewrite Hp, Hp'. clear -Hp1. set (mx := heap_max h) in *. clearbody mx.
      rewrite <- Hp1. simpl.
      etransitivity; [symmetry; apply (Permutation_cons_append (mx :: h1 ++ rest))|].
      constructor.
      apply Permutation_middle.
    - intros a b Ha Hb'. rewrite Hp' in Ha.
      assert (heap_max h ∈ h) as Hmax by (eapply perm_in; [exact Hp1|left]).
      apply elem_of_cons in Ha as [->|Ha].
      + apply elem_of_cons in Hb' as [->|Hb']; [lra|].
        specialize (Hle _ _ Hmax Hb'). lra.
      + assert (a ∈ h) as Ha' by (eapply perm_in; [exact Hp1|by right]).
        apply elem_of_cons in Hb' as [->|Hb']; [by apply heap_max_greatest|].
        by apply Hle.
  Qed.

  Lemma kbest_skip its h ys :
    kbest its h → k ≤ length h → (∀ y, y ∈ ys → ((heap_max h).1 <= y.1)%Q) →
    kbest (its ++ ys) h.
  Proof.
    intros Hb Hge Hys. destruct (kbest_full_ne _ _ Hb Hge) as [Hlk Hne].
    destruct Hb as (Hok & Hl & rest & Hp & Hle). split; [done|].
    split; [rewrite app_length; lia|]. exists (rest ++ ys). split.
    - by rewrite Hp, app_assoc.
    - intros a b Ha Hb. apply elem_of_app in Hb as [Hb|Hb]; [by apply Hle|].
      pose proof (heap_max_greatest h a Hok Ha). specialize (Hys b Hb). lra.
  Qed.

  Lemma offer_ok its h x :
    kbest its h → ∃ h', offer k h x.1 x.2 = Ok h' ∧ kbest (its ++ [x]) h'.
  Proof.
    intros Hb. unfold offer. destruct (Nat.ltb_spec (length h) k) as [Hlt|Hge].
    - by apply kbest_insert.
    - destruct (qlt x.1 (heap_max h).1) eqn:E.
      + apply qlt_spec in E. destruct (kbest_replace its h x Hb Hge E) as (h1 & h' & -> & ? & ?).
        cbn [mbind res_bind]. eauto.
      + apply qlt_false in E. exists h. split; [done|]. apply kbest_skip; [done..|].
        intros y Hy. apply elem_of_list_singleton in Hy as ->. done.
  Qed.

  (** The entries of a tree: its rows with their distances; a nil node counts as row
      0 at the origin. *)
  Definition phantom : hnode := (dist target (repeat 0%Q (length target)), 0).
  Fixpoint items (t : kd) : list hnode :=
    match t with
    | KLeaf v r => [(dist target v, r)]
    | KNil => []
    | KNode _ v r a b => (dist target v, r) :: items a ++ items b
    end.
  Fixpoint items_all (t : kd) : list hnode :=
    match t with
    | KLeaf v r => [(dist target v, r)]
    | KNil => [phantom]
    | KNode _ v r a b => (dist target v, r) :: items_all a ++ items_all b
    end.

  Lemma items_all_perm t : items_all t ≡ₚ items t ++ repeat phantom (gaps t).
  Proof.
    induction t as [| |f v r a IHa b IHb]; simpl; [done..|]. f_equiv.
    rewrite IHa, IHb, repeat_app.
    rewrite <- !app_assoc. f_equiv. rewrite !app_assoc. f_equiv. apply Permutation_app_comm.
  Qed.

  Lemma search_all_ok its h t :
    kbest its h → ∃ h', search_all dist k target h t = Ok h' ∧ kbest (its ++ items_all t) h'.
  Proof.
    revert its h. induction t as [v r| |f v r a IHa b IHb]; intros its h Hb; simpl.
    - apply (offer_ok its h (dist target v, r) Hb).
    - apply (offer_ok its h phantom Hb).
    - destruct (offer_ok its h (dist target v, r) Hb) as (h1 & H1 & Hb1). simpl in H1.
      rewrite H1. cbn [mbind res_bind].
      destruct (IHa _ _ Hb1) as (h2 & -> & Hb2). cbn [mbind res_bind].
      destruct (IHb _ _ Hb2) as (h3 & -> & Hb3). exists h3. split; [done|].
      eapply kbest_perm; [|exact Hb3]. by rewrite <- !app_assoc.
  Qed.

  Context (data : list (list Q)) (d : nat) (Hrect : rectangular_data data d)
    (Htarget : length target = d) (Hplane : plane_bound dist d).

  Lemma items_in t x :
    search_tree data t → x ∈ items t →
    x.2 ∈ rows_of t ∧ ∃ v, data !! x.2 = Some v ∧ x.1 = dist target v.
  Proof.
    induction t as [v r| |f v r a IHa b IHb]; simpl; intros Ht Hx.
    - apply elem_of_list_singleton in Hx as ->. split; [left|eauto].
    - by apply elem_of_nil in Hx.
    - destruct Ht as (Hv & _ & Ha & Hb). apply elem_of_cons in Hx as [->|Hx].
      { split; [left|eauto]. }
      apply elem_of_app in Hx as [Hx|Hx].
      + destruct (IHa Ha Hx) as [? ?]. split; [|done]. right. apply elem_of_app. by left.
      + destruct (IHb Hb Hx) as [? ?]. split; [|done]. right. apply elem_of_app. by right.
  Qed.

  Lemma search_ok t :
    search_tree data t →
    ∃ h m, search dist k target [] t = Ok h ∧ m ≤ gaps t ∧
      kbest (items t ++ repeat phantom m) h.
  Proof.
    induction t as [v r| |f v r a IHa b IHb]; intros Ht.
    - simpl. destruct (kbest_insert [] [] (dist target v, r)) as (h & Hh & Hb).
      { apply kbest_nil. } { simpl. lia. }
      exists h, 0. split; [done|]. split; [lia|]. done.
    - exists [], 0. split; [done|]. split; [lia|]. apply kbest_nil.
    - destruct Ht as (Hv & (x & Hx & Hleft & Hright) & Ha & Hb).
      specialize (IHa Ha). specialize (IHb Hb). cbn [search].
      assert (length v = d) as Hlv by (apply Hrect; by eapply elem_of_list_lookup_2).
      assert (f < d) as Hf by (rewrite <- Hlv; by eapply lookup_lt_Some).
      destruct (lookup_lt_is_Some_2 target f) as [tf Htf]; [lia|].
      rewrite (idx_some _ _ _ Htf). cbn [mbind res_bind].
      rewrite (idx_some _ _ _ Hx). cbn [mbind res_bind].
      set (sub := if qle tf x then a else b). set (oth := if qle tf x then b else a).
      assert ((if qle tf x then search dist k target [] a else search dist k target [] b)
        = search dist k target [] sub) as -> by (unfold sub; by destruct (qle tf x)).
      assert (∃ h m, search dist k target [] sub = Ok h ∧ m ≤ gaps sub ∧
        kbest (items sub ++ repeat phantom m) h) as (h & m & -> & Hm & Hkb)
        by (unfold sub; by destruct (qle tf x)).
      assert (∀ y, y ∈ items oth → (dist [tf] [x] <= y.1)%Q) as Hfar.
      { intros y Hy. unfold oth in Hy. destruct (qle tf x) eqn:E.
        - apply qle_spec in E.
          destruct (items_in b y Hb Hy) as (Hin & w & Hw & ->).
          destruct (Hright _ Hin) as (wf & (w' & Hw' & Hwf) & Hlt).
          assert (w' = w) as -> by congruence.
          apply (Hplane target w f tf wf x); [done| |done..|left; split; lra].
          apply Hrect. by eapply elem_of_list_lookup_2.
        - apply qle_false in E.
          destruct (items_in a y Ha Hy) as (Hin & w & Hw & ->).
          destruct (Hleft _ Hin) as (wf & (w' & Hw' & Hwf) & Hlt).
          assert (w' = w) as -> by congruence.
          apply (Hplane target w f tf wf x); [done| |done..|right; split; lra].
          apply Hrect. by eapply elem_of_list_lookup_2. }
      assert (items sub ++ items oth ≡ₚ items a ++ items b ∧ gaps sub + gaps oth = gaps a + gaps b)
        as [Hpi Hpg].
      { unfold sub, oth. destruct (qle tf x); [done|]. split; [apply Permutation_app_comm|lia]. }
      clearbody sub oth. cbn [mbind res_bind].
      (* visiting all of the other side, after the node itself *)
      assert (∀ h1, kbest ((items sub ++ repeat phantom m) ++ [(dist target v, r)]) h1 →
        ∃ h2 m2, search_all dist k target h1 oth = Ok h2 ∧ m2 ≤ gaps a + gaps b ∧
          kbest (((dist target v, r) :: items a ++ items b) ++ repeat phantom m2) h2) as Hall.
      { intros h1 Hb1. destruct (search_all_ok _ h1 oth Hb1) as (h2 & Hs & Hb2).
        exists h2, (m + gaps oth). split; [done|]. split; [lia|].
        eapply kbest_perm; [|exact Hb2]. rewrite items_all_perm, repeat_app.
        rewrite perm_shuffle. by rewrite Hpi. }
      simpl items. simpl gaps.
      destruct (Nat.ltb_spec (length h) k) as [Hlt|Hge].
      + destruct (kbest_insert _ h (dist target v, r) Hkb Hlt) as (h1 & Hi & Hb1).
        simpl in Hi. rewrite Hi. cbn [mbind res_bind].
        destruct (Hall h1 Hb1) as (h2 & m2 & ? & ? & ?). eauto.
      + destruct (qlt (dist target v) (heap_max h).1) eqn:E1.
        * apply qlt_spec in E1.
          destruct (kbest_replace _ h (dist target v, r) Hkb Hge E1) as (h1 & h1' & He & Hi & Hb1).
          simpl in Hi. rewrite He. cbn [mbind res_bind]. rewrite Hi. cbn [mbind res_bind].
          destruct (Hall h1' Hb1) as (h2 & m2 & ? & ? & ?). eauto.
        * apply qlt_false in E1.
          assert (kbest ((items sub ++ repeat phantom m) ++ [(dist target v, r)]) h) as Hb1.
          { apply kbest_skip; [done..|]. intros y Hy. apply elem_of_list_singleton in Hy as ->.
            done. }
          destruct (qlt (dist [tf] [x]) (heap_max h).1) eqn:E2.
          -- destruct (Hall h Hb1) as (h2 & m2 & ? & ? & ?). eauto.
          -- apply qlt_false in E2. exists h, m. split; [done|]. split; [lia|].
             assert (kbest (((items sub ++ repeat phantom m) ++ [(dist target v, r)]) ++ items oth) h)
               as Hb2.
             { apply kbest_skip; [done..|]. intros y Hy. specialize (Hfar y Hy). lra. }
             eapply kbest_perm; [|exact Hb2].
             rewrite <- (app_nil_r (items oth)), perm_shuffle, app_nil_r.
             by rewrite Hpi.
  Qed.
End search.

Lemma drain_ok room h out :
  heap_ok h → length h = room →
  StronglySorted (λ x y, x.1 <= y.1)%Q out →
  (∀ x y, x ∈ h → y ∈ out → (x.1 <= y.1)%Q) →
  ∃ o, drain room h out = Ok o ∧ o ≡ₚ h ++ out ∧ StronglySorted (λ x y, x.1 <= y.1)%Q o.
Proof.
  revert h out. induction room as [|room IH]; intros h out Hok Hl Hs Hle.
  - destruct h; [|done]. exists out. done.
  - destruct h as [|x0 h0] eqn:Eh; [done|]. rewrite <- Eh in *.
    assert (h ≠ []) as Hne by (by rewrite Eh).
    destruct (heap_extract_ok h Hok Hne) as (h1 & He & Hok1 & Hp1).
    assert (drain (S room) h out = drain room h1 (heap_max h :: out)) as ->.
    { rewrite Eh in *. cbn [drain]. rewrite He. done. }
    assert (heap_max h ∈ h) as Hmax by (eapply perm_in; [exact Hp1|left]).
    destruct (IH h1 (heap_max h :: out)) as (o & -> & Hpo & Hso).
    + done.
    + apply Permutation_length in Hp1. simpl in Hp1. lia.
    + constructor; [done|]. apply Forall_forall. intros y Hy. by apply Hle.
    + intros x y Hx Hy. apply elem_of_cons in Hy as [->|Hy].
      * apply heap_max_greatest; [done|]. eapply perm_in; [exact Hp1|by right].
      * apply Hle; [|done]. eapply perm_in; [exact Hp1|by right].
    + exists o. split; [done|]. split; [|done]. rewrite Hpo.
      set (mx := heap_max h) in *. clearbody mx.
      rewrite <- Permutation_middle. by rewrite <- Hp1.
Qed.

(** The rows with their distances. *)
Definition row_items (dist : list Q → list Q → Q) (data : list (list Q)) (target : list Q)
    : list (Q * nat) :=
  imap (λ r v, (dist target v, r)) data.

Lemma items_rows dist target data t :
  search_tree data t →
  items dist target t = map (λ r, (dist target (data !!! r), r)) (rows_of t).
Proof.
  induction t as [v r| |f v r a IHa b IHb]; simpl; intros Ht.
  - by rewrite (list_lookup_total_correct _ _ _ Ht).
  - done.
  - destruct Ht as (Hv & _ & Ha & Hb). rewrite map_app, IHa, IHb by done.
    by rewrite (list_lookup_total_correct _ _ _ Hv).
Qed.

Lemma row_items_seq dist data target :
  row_items dist data target =
  map (λ r, (dist target (data !!! r), r)) (seq 0 (length data)).
Proof.
  apply list_eq. intros i. unfold row_items. rewrite list_lookup_imap.
  change (map ?f ?l) with (f <$> l). rewrite list_lookup_fmap.
  destruct (data !! i) as [v|] eqn:E.
  - rewrite lookup_seq_lt by (by eapply lookup_lt_Some). simpl.
    by rewrite (list_lookup_total_correct _ _ _ E).
  - rewrite lookup_seq_ge by (by apply lookup_ge_None). done.
Qed.

Lemma kd_search_ok sorter dist data d t k target :
  sorts sorter → rectangular_data data d → 1 ≤ d → plane_bound dist d →
  kd_build sorter data = Ok t → length target = d → 1 ≤ k ≤ length data →
  ∃ out m, kd_search dist data t k target = Ok out ∧ m ≤ gaps t ∧
    k_smallest k (row_items dist data target ++
      repeat (dist target (repeat 0%Q d), 0) m) out.
Proof.
  intros Hsort Hrect Hd Hplane Hbuild Ht Hk.
  assert (data ≠ []) as Hne by (intros ->; simpl in Hk; lia).
  destruct (kd_build_ok sorter data d Hsort Hrect Hd Hne) as (t' & Hb' & Hrows & Hst).
  assert (t' = t) as -> by congruence.
  unfold kd_search. rewrite (proj2 (Nat.ltb_ge _ _)) by lia.
  destruct (lookup_lt_is_Some_2 data 0) as [d0 Hd0]; [lia|].
  unfold idx. rewrite Hd0. cbn [mbind res_bind].
  assert (length d0 = d) as -> by (apply Hrect; by eapply elem_of_list_lookup_2).
  rewrite (proj2 (Nat.eqb_eq _ _) Ht). cbn [negb].
  destruct (search_ok dist k (proj1 Hk) target data d Hrect Ht Hplane t Hst)
    as (h & m & -> & Hm & Hok & Hl & rest & Hp & Hle). cbn [mbind res_bind].
  assert (items dist target t ≡ₚ row_items dist data target) as Hit.
  { rewrite (items_rows _ _ _ _ Hst), row_items_seq. by apply Permutation_map. }
  assert (length h = k) as Hlk.
  { rewrite Hl, app_length, (Permutation_length Hit), row_items_seq, map_length, seq_length. lia. }
  destruct (drain_ok k h [] Hok Hlk) as (o & -> & Hpo & Hso).
  { constructor. }
  { intros ?? _ H. by apply elem_of_nil in H. }
  rewrite app_nil_r in Hpo.
  exists o, m. split; [done|]. split; [done|]. split; [by rewrite (Permutation_length Hpo)|].
  split; [done|]. exists rest. split.
  - rewrite Hpo, <- Hp, Hit. unfold phantom. rewrite Ht. done.
  - intros x y Hx. rewrite Hpo in Hx. by apply Hle.
Qed.

Lemma k_smallest_nearest dist data target k out :
  k_smallest k (row_items dist data target) out → nearest dist data target k out.
Proof.
  intros (Hl & Hs & rest & Hp & Hle).
  assert (map snd (out ++ rest) ≡ₚ seq 0 (length data)) as Hrows.
  { rewrite <- Hp, row_items_seq, map_map. simpl. by rewrite map_id. }
  assert (NoDup (map snd (out ++ rest))) as Hnd.
  { rewrite Hrows. apply NoDup_seq. }
  assert (∀ l r, (l, r) ∈ out ++ rest → ∃ v, data !! r = Some v ∧ l = dist target v) as Hin.
  { intros l r H. rewrite <- Hp in H. unfold row_items in H.
    apply elem_of_lookup_imap in H as (i & v & [= -> ->] & Hv). eauto. }
  split; [done|]. rewrite map_app in Hnd, Hrows. apply NoDup_app in Hnd as (Hnd & Hdis & _).
  split; [done|]. split.
  { intros l r H. apply Hin. apply elem_of_app. by left. }
  split; [done|]. intros r v Hv Hr x Hx.
  assert (r ∈ map snd out ++ map snd rest) as Hr'.
  { rewrite Hrows. apply elem_of_seq. pose proof (lookup_lt_Some _ _ _ Hv). lia. }
  apply elem_of_app in Hr' as [?|Hr']; [done|].
  apply elem_of_list_fmap in Hr' as ([l r'] & -> & Hy). simpl in *.
  destruct (Hin l r') as (w & Hw & ->); [apply elem_of_app; by right|].
  assert (w = v) as -> by congruence. exact (Hle _ _ Hx Hy).
Qed.

(** Entries farther away than every row are never among the [k] nearest. *)
Lemma k_smallest_far dist data target k out z m :
  (∀ v, v ∈ data → (dist target v < z)%Q) → k ≤ length data →
  k_smallest k (row_items dist data target ++ repeat (z, 0) m) out →
  k_smallest k (row_items dist data target) out.
Proof.
  intros Hfar Hk (Hl & Hs & rest & Hp & Hle).
  set (near := λ x : Q * nat, qlt x.1 z = true).
  assert (∀ l : list (Q * nat), (∀ x, x ∈ l → near x) → filter near l = l) as Hid.
  { intros l. induction l as [|x l IH]; intros H; [done|].
    rewrite filter_cons_True by (apply H; left). f_equal. apply IH. intros y Hy. apply H. by right. }
  assert (∀ x, x ∈ row_items dist data target → near x) as Hreal.
  { intros x Hx. unfold row_items in Hx. apply elem_of_lookup_imap in Hx as (i & v & -> & Hv).
    unfold near. simpl. apply qlt_spec, Hfar. by eapply elem_of_list_lookup_2. }
  assert (row_items dist data target ≡ₚ filter near out ++ filter near rest) as Hpf.
  { rewrite <- filter_app, <- Hp, filter_app, (Hid _ Hreal).
    assert (filter near (repeat (z, 0) m) = []) as ->; [|by rewrite app_nil_r].
    clear -near. induction m as [|m IH]; [done|]. simpl. rewrite filter_cons_False; [done|].
    unfold near. simpl. rewrite (proj2 (qlt_false z z)) by lra. done. }
  assert (length (row_items dist data target) = length data) as Hlr.
  { rewrite row_items_seq, map_length, seq_length. done. }
  assert (∀ x, x ∈ out → near x) as Hout.
  { intros x Hx. unfold near. destruct (qlt x.1 z) eqn:E; [done|]. exfalso.
    apply qlt_false in E.
    assert (∃ y, y ∈ filter near rest) as [y Hy].
    { destruct (filter near rest) as [|y l] eqn:Er; [|exists y; left]. exfalso.
      apply Permutation_length in Hpf. rewrite app_nil_r in Hpf.
      assert (length (filter near out) < length out) as Hlt; [|lia].
      clear -Hx E near. induction out as [|y out IH]; [by apply elem_of_nil in Hx|].
      apply elem_of_cons in Hx as [<-|Hx].
      - rewrite filter_cons_False; [|unfold near; apply not_true_iff_false, qlt_false, E].
        pose proof (filter_length near out). simpl. lia.
      - specialize (IH Hx). destruct (decide (near y)).
        + rewrite filter_cons_True by done. simpl. lia.
        + rewrite filter_cons_False by done. simpl. lia. }
    apply elem_of_list_filter in Hy as [Hny Hy]. specialize (Hle x y Hx Hy).
    unfold near in Hny. apply qlt_spec in Hny. lra. }
  rewrite (Hid out Hout) in Hpf. split; [done|]. split; [done|]. exists (filter near rest).
  split; [done|]. intros x y Hx Hy. apply elem_of_list_filter in Hy as [_ Hy]. by apply Hle.
Qed.

Lemma kd_search_nearest sorter dist data d t k target :
  sorts sorter → rectangular_data data d → 1 ≤ d → plane_bound dist d →
  kd_build sorter data = Ok t → length target = d → 1 ≤ k ≤ length data →
  gaps t = 0 ∨ (∀ v, v ∈ data → (dist target v < dist target (repeat 0%Q d))%Q) →
  ∃ out, kd_search dist data t k target = Ok out ∧ nearest dist data target k out.
Proof.
  intros Hsort Hrect Hd Hplane Hbuild Ht Hk H.
  destruct (kd_search_ok sorter dist data d t k target Hsort Hrect Hd Hplane Hbuild Ht Hk)
    as (out & m & Hs & Hm & Hks).
  exists out. split; [done|]. apply k_smallest_nearest. destruct H as [Hg|Hfar].
  - assert (m = 0) as -> by lia. by rewrite app_nil_r in Hks.
  - eapply k_smallest_far; [exact Hfar|lia|exact Hks].
Qed.

Lemma kd_search_errors dist data t k target d :
  rectangular_data data d → data ≠ [] →
  length data < k ∨ length target ≠ d → kd_search dist data t k target = Err.
Proof.
  intros Hrect Hne H. unfold kd_search. destruct (Nat.ltb_spec (length data) k); [done|].
  destruct data as [|d0 data]; [done|]. cbn [idx lookup list_lookup mbind res_bind].
  assert (length d0 = d) as -> by (apply Hrect; left).
  destruct (Nat.eqb_spec (length target) d); [|done]. lia.
Qed.
