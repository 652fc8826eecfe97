(** Proofs about the pruning of decision trees. *)
From Coq Require Import QArith.
From Verif Require Import Prelude AttrModel AttrSpec AttrProofs StoreModel DenseModel DenseSpec
  DenseProofs GridModel GridSpec GridProofs CsvModel PredModel PredProofs ConfModel ConfSpec ConfProofs
  TableProofs KnnModel KnnSpec Id3Model Id3Spec Id3Proofs.
From Flocq Require Import IEEE754.Bits IEEE754.Binary.
Local Open Scope nat_scope.

Fixpoint assoc (k : string) (l : list (string * tree)) : option tree :=
  match l with
  | [] => None
  | (k', t) :: l => if bool_decide (k' = k) then Some t else assoc k l
  end.

Lemma assoc_in k l t : assoc k l = Some t → (k, t) ∈ l.
Proof.
  induction l as [|[k' t'] l IH]; cbn [assoc]; [done|].
  destruct (decide (k' = k)) as [->|Hne].
  - rewrite bool_decide_eq_true_2 by done. intros [= ->]. left.
  - rewrite bool_decide_eq_false_2 by done. intros H. right. by apply IH.
Qed.

Lemma assoc_nodup k l t : NoDup (map fst l) → (k, t) ∈ l → assoc k l = Some t.
Proof.
  induction l as [|[k' t'] l IH]; intros Hn H; [by apply elem_of_nil in H|].
  cbn [assoc map fst] in *. apply NoDup_cons in Hn as [Hk Hn].
  apply elem_of_cons in H as [[= -> ->]|H]; [by rewrite bool_decide_eq_true_2|].
  rewrite bool_decide_eq_false_2; [by apply IH|]. intros ->. destruct Hk.
  apply elem_of_list_fmap. by exists (k, t).
Qed.

Section rows.
  Context (show : nat → N → string) (g0 : grid) (c : attr) (label : nat → string).
  Hypothesis T : training show g0 c label.

  Section leaf.
    Variable r : nat.
    (** The childless node to which the values of row [r] lead. *)
    Fixpoint leaf_of (t : tree) : option tree :=
      match t with
      | Node _ None _ _ _ _ => Some t
      | Node _ (Some l) _ _ _ (Some (Rule (Some a) _)) =>
          match value_of show g0 a r with
          | Ok k =>
              (fix go (l : list (string * tree)) : option tree :=
                 match l with
                 | [] => None
                 | (k', t) :: l => if bool_decide (k' = k) then leaf_of t else go l
                 end) l
          | _ => None
          end
      | _ => None
      end.

    Definition leaf_in (a : attr) (l : list (string * tree)) : option tree :=
      match value_of show g0 a r with Ok k => t ← assoc k l; leaf_of t | _ => None end.

    Lemma leaf_of_split leaf l dist class cattr a v :
      leaf_of (Node leaf (Some l) dist class cattr (Some (Rule (Some a) v))) = leaf_in a l.
    Proof.
      cbn [leaf_of]. unfold leaf_in. destruct (value_of show g0 a r) as [k| |]; [|done..].
      induction l as [|[k' t] l IH]; [done|]. cbn [assoc].
      destruct (bool_decide (k' = k)); [done|]. exact IH.
    Qed.
  End leaf.

  Lemma leads_leaf_of vs attrs t r node :
    usable vs attrs t → leads show g0 r t node → leaf_of r t = Some node.
  Proof.
    intros Hu Hl. revert attrs Hu.
    induction Hl as [|leaf l dist class cattr a v k t node Hk Hin Hl IH]; intros attrs Hu; [done|].
    inversion Hu as [|? ? ? ? ? ? ? ? _ _ _ Hn Hch]; subst.
    rewrite leaf_of_split. unfold leaf_in. rewrite Hk, (assoc_nodup k l t Hn Hin). cbn [mbind option_bind].
    by apply (IH _ (Hch k t Hin)).
  Qed.

  Lemma leaf_of_class vs attrs t r node :
    usable vs attrs t → leaf_of r t = Some node → t_class node ∈ vs.
  Proof.
    intros Hu. revert node.
    induction Hu as [attrs leaf dist class cattr ru Hc|attrs leaf l dist class cattr a v Hc Ha Hf Hn Hl IH];
      intros node.
    - cbn [leaf_of]. intros [= <-]. done.
    - rewrite leaf_of_split. unfold leaf_in. destruct (value_of show g0 a r) as [k| |]; [|done..].
      destruct (assoc k l) as [t|] eqn:E; [|done]. cbn [mbind option_bind].
      apply assoc_in in E. by apply (IH k t E).
  Qed.

  (** Walking through a part of the data. *)
  Lemma walk_leaf_of g rows vs attrs t wo j r depth node :
    shows g0 c rows g → usable vs attrs t → attrs ⊆ gr_all_attrs g → rows !! j = Some r →
    r < (gr_size g0).2 → leaf_of r t = Some node → walk show wo g j depth t = Ok node.
  Proof using T.
    intros S Hu Hsub Hj Hr. revert depth node.
    induction Hu as [attrs leaf dist class cattr ru Hc|attrs leaf l dist class cattr a v Hc Ha Hf Hn Hl IH];
      intros depth node.
    - cbn [leaf_of walk]. intros [= <-]. done.
    - rewrite leaf_of_split. unfold leaf_in.
      destruct (value_of show g0 a r) as [k| |] eqn:Ev; [|done..].
      destruct (assoc k l) as [t|] eqn:E; [|done]. cbn [mbind option_bind]. intros Hleaf.
      assert (branch show g j (Rule (Some a) v) = Ok k) as Hb.
      { unfold branch. cbn [ru_attr ru_val].
        destruct (tr_find _ _ _ _ T a (sh_sub _ _ _ _ S a (Hsub a Ha))) as (s & Hs & Es).
        rewrite (sh_find _ _ _ _ S a s (Hsub a Ha) Hs).
        rewrite (sh_get _ _ _ _ S a s j r (sh_sub _ _ _ _ S a (Hsub a Ha)) Hs Hj).
        unfold value_of in Ev. rewrite Hs in Ev. cbn [mbind res_bind] in Ev.
        apply bind_Ok in Ev as (raw & Hraw & Ev). rewrite Hraw. cbn [mbind res_bind]. rewrite Es.
        destruct a; [done|done..]. }
      cbn [walk]. rewrite Hb. cbn [mbind res_bind].
      pose proof (assoc_in _ _ _ E) as Hin.
      assert (k ∈ map fst l) as Hk by (apply elem_of_list_fmap; by exists (k, t)).
      rewrite bool_decide_eq_true_2 by done.
      destruct (pick_some show wo g j k l depth Hk) as (t' & Ht' & Hpick).
      assert (t' = t) as -> by (apply assoc_nodup in Ht'; [congruence|done]).
      etrans; [exact Hpick|]. apply (IH k t Hin); [|done].
      intros b Hb'. apply elem_of_list_filter in Hb' as [_ Hb']. by apply Hsub.
  Qed.

  (** Number of rows of [rows] that [t] gets right. *)
  Definition right_rows (f : nat → option tree) (rows : list nat) : nat :=
    length (filter (λ r, t_class <$> f r = Some (label r)) rows).

  Lemma right_perm f rows rows' : rows ≡ₚ rows' → right_rows f rows = right_rows f rows'.
  Proof. intros H. unfold right_rows. by rewrite H. Qed.

  Lemma right_ext f f' rows : (∀ r, r ∈ rows → f r = f' r) → right_rows f rows = right_rows f' rows.
  Proof.
    intros H. unfold right_rows. f_equal. induction rows as [|r rows IH]; [done|].
    rewrite !filter_cons, (H r) by left. rewrite IH by (intros; apply H; by right). done.
  Qed.

  Lemma count_rows_filter (P : nat → Prop) `{!∀ x, Decision (P x)} rows :
    count_rows (length rows) (λ j, bool_decide (P (default 0 (rows !! j)))) = length (filter P rows).
  Proof.
    induction rows as [|r rows IH] using rev_ind; [done|].
    rewrite filter_app, !app_length. cbn [length].
    rewrite Nat.add_1_r, count_rows_S, lookup_app_r, Nat.sub_diag by lia.
    cbn [lookup list_lookup from_option].
    rewrite (GridProofs.count_rows_ext _ _ (λ j, bool_decide (P (default 0 (rows !! j))))), IH.
    2:{ intros i Hi. by rewrite lookup_app_l. }
    destruct (decide (P r)) as [E|E].
    - rewrite bool_decide_eq_true_2, filter_cons_True by done. cbn. done.
    - rewrite bool_decide_eq_false_2, filter_cons_False by done. cbn. done.
  Qed.

  (** The rows of a child are the rows with its value. *)
  Lemma right_children a k t l rows :
    right_rows (λ r, leaf_in r a ((k, t) :: l)) rows =
    right_rows (λ r, leaf_of r t) (filter (λ r, value_of show g0 a r = Ok k) rows) +
    right_rows (λ r, leaf_in r a l) (filter (λ r, value_of show g0 a r ≠ Ok k) rows).
  Proof.
    unfold right_rows. induction rows as [|r rows IH]; [done|].
    destruct (decide (value_of show g0 a r = Ok k)) as [E|E].
    - rewrite (filter_cons_True (λ r, value_of show g0 a r = Ok k)) by done.
      rewrite (filter_cons_False (λ r, value_of show g0 a r ≠ Ok k)) by naive_solver.
      rewrite !(filter_cons (λ r, _ <$> _ = _)).
      assert (leaf_in r a ((k, t) :: l) = leaf_of r t) as ->.
      { unfold leaf_in. rewrite E. cbn [assoc]. by rewrite bool_decide_eq_true_2. }
      case_decide; cbn [length]; lia.
    - rewrite (filter_cons_False (λ r, value_of show g0 a r = Ok k)) by done.
      rewrite (filter_cons_True (λ r, value_of show g0 a r ≠ Ok k)) by done.
      rewrite !(filter_cons (λ r, _ <$> _ = _)).
      assert (leaf_in r a ((k, t) :: l) = leaf_in r a l) as ->.
      { unfold leaf_in. destruct (value_of show g0 a r) as [k'| |]; [|done..]. cbn [assoc].
        by rewrite bool_decide_eq_false_2 by congruence. }
      case_decide; cbn [length]; lia.
  Qed.

  Lemma right_children_le a l l' rows :
    NoDup (map fst l) →
    Forall2 (λ x y, x.1 = y.1 ∧
      right_rows (λ r, leaf_of r x.2) (filter (λ r, value_of show g0 a r = Ok x.1) rows) ≤
      right_rows (λ r, leaf_of r y.2) (filter (λ r, value_of show g0 a r = Ok x.1) rows)) l l' →
    right_rows (λ r, leaf_in r a l) rows ≤ right_rows (λ r, leaf_in r a l') rows.
  Proof.
    intros Hn H. revert rows H. revert l'.
    induction l as [|[k t] l IH]; intros l' rows H.
    - by inversion H.
    - inversion H as [|? [k' t'] ? ? [E Hle] H']; subst. cbn [fst snd] in *. subst k'.
      apply NoDup_cons in Hn as [Hk Hn]. rewrite !right_children.
      apply Nat.add_le_mono; [done|]. apply IH; [done|].
      apply Forall2_same_length_lookup_2; [by eapply Forall2_length|].
      intros i x y Hx Hy. destruct (Forall2_lookup_lr _ _ _ _ _ _ H' Hx Hy) as [E Hxy].
      split; [done|].
      assert (x.1 ≠ k) as Hne.
      { intros <-. destruct Hk. apply elem_of_list_fmap. exists x. split; [done|].
        by eapply elem_of_list_lookup_2. }
      rewrite list_filter_filter.
      assert (filter (λ r, value_of show g0 a r = Ok x.1 ∧ value_of show g0 a r ≠ Ok k) rows =
        filter (λ r, value_of show g0 a r = Ok x.1) rows) as ->; [|done].
      apply list_filter_iff. intros r. split; [by intros [? _]|]. intros E'. split; [done|].
      rewrite E'. congruence.
  Qed.

  (** ** Accuracy *)

  Section prune.
    Context (name : string) (vs : list string).
    Hypothesis Hc : c = CatA name vs.
    Hypothesis Hvs : (N.of_nat (length vs) < 2^63)%N.
    Context (parse : string → option binary64)
      (cord : list ((nat * nat) * bool) → list ((nat * nat) * bool)) (ao : list attr → list attr)
      (pg : nat).
    Hypothesis Hcord : any_order cord.
    Hypothesis Hao : any_order ao.

    Lemma shows_predictable g rows :
      shows g0 c rows g → (∀ r, r ∈ rows → r < (gr_size g0).2) → predictable show g g vs.
    Proof using T Hc Hvs.
      intros S Hb.
      assert (∀ a, a ∈ gr_all_attrs g → ∃ s, gr_get_attribute g a = Ok s ∧ sp_attr s = a ∧
        ∀ i, i < (gr_size g).2 → ∃ raw v, gr_get g s i = Ok raw ∧ attr_decode show a raw = Ok v) as H.
      { intros a Ha. pose proof (sh_sub _ _ _ _ S a Ha) as Ha0.
        destruct (tr_find _ _ _ _ T a Ha0) as (s & Hs & Es). exists s.
        split; [by apply (sh_find _ _ _ _ S)|]. split; [done|]. intros i Hi.
        rewrite (sh_rows _ _ _ _ S) in Hi. apply lookup_lt_is_Some in Hi as [r Hr].
        rewrite (sh_get _ _ _ _ S a s i r Ha0 Hs Hr).
        destruct (tr_value _ _ _ _ T a r Ha0) as [x Hx]; [apply Hb; by eapply elem_of_list_lookup_2|].
        unfold value_of in Hx. rewrite Hs in Hx. cbn [mbind res_bind] in Hx.
        apply bind_Ok in Hx as (raw & Hraw & Hx). eauto. }
      split.
      - apply S.
      - exists name. rewrite (sh_class _ _ _ _ S). by rewrite Hc.
      - done.
      - intros a Ha. destruct (H a Ha) as (s & Hs & _ & Hi). exists s. split; [done|].
        intros i Hi'. destruct (Hi i Hi') as (raw & v & Hraw & _). eauto.
      - intros a Ha _. destruct (H a Ha) as (s & Hs & Es & Hi). exists s. split; [done|].
        rewrite Es. done.
    Qed.

    Definition all_lead (t : tree) (rows : list nat) : Prop :=
      ∀ r, r ∈ rows → ∃ node, leaf_of r t = Some node.

    Lemma predict_right g rows attrs t wo :
      shows g0 c rows g → (∀ r, r ∈ rows → r < (gr_size g0).2) →
      usable vs attrs t → attrs ⊆ gr_all_attrs g → all_lead t rows →
      ∃ ret, predict show parse cord ao pg wo t g = Ok ret ∧ (dense_size ret).2 = (gr_size g).2 ∧
        ∀ order, class_order ret order →
          (∀ i, i < (gr_size g).2 → ∃ a b, get_class show g i = Ok a ∧
             get_class show (dense_grid order ret) i = Ok b) ∧
          count_rows (gr_size g).2 (agree show g (dense_grid order ret)) =
          right_rows (λ r, leaf_of r t) rows.
    Proof using T Hc Hvs Hcord Hao.
      intros S Hb Hu Hsub Hlead.
      assert (∀ i, i < (gr_size g).2 → ∃ r node, rows !! i = Some r ∧ leaf_of r t = Some node ∧
        walk show wo g i 0 t = Ok node) as Hw.
      { intros i Hi. rewrite (sh_rows _ _ _ _ S) in Hi. apply lookup_lt_is_Some in Hi as [r Hr].
        pose proof (elem_of_list_lookup_2 _ _ _ Hr) as Hin.
        destruct (Hlead r Hin) as [node Hnode]. exists r, node. split; [done|]. split; [done|].
        by apply (walk_leaf_of g rows vs attrs t wo i r); [..|apply Hb|]. }
      destruct (predict_ok show parse cord ao pg g g vs Hcord Hao (shows_predictable g rows S Hb) wo t)
        as (ret & Hret & Hsz & Hget).
      { intros i Hi. destruct (Hw i Hi) as (r & node & _ & Hnode & Hwalk). exists node.
        split; [done|]. by eapply leaf_of_class. }
      exists ret. split; [done|]. split; [done|]. intros order Ho.
      assert (∀ i, i < (gr_size g).2 → ∃ r node, rows !! i = Some r ∧ leaf_of r t = Some node ∧
        get_class show g i = Ok (label r) ∧
        get_class show (dense_grid order ret) i = Ok (t_class node)) as Hcls.
      { intros i Hi. destruct (Hw i Hi) as (r & node & Hr & Hnode & Hwalk).
        exists r, node. split; [done|]. split; [done|].
        split; [by apply (shows_class show g0 c label T g rows)|].
        destruct (Hget order i Ho Hi) as (node' & Hw' & ->). congruence. }
      split.
      { intros i Hi. destruct (Hcls i Hi) as (r & node & _ & _ & H1 & H2). eauto. }
      unfold right_rows. rewrite <- count_rows_filter, (sh_rows _ _ _ _ S).
      apply GridProofs.count_rows_ext. intros i Hi. rewrite <- (sh_rows _ _ _ _ S) in Hi.
      destruct (Hcls i Hi) as (r & node & Hr & Hnode & H1 & H2). unfold agree. rewrite H1, H2, Hr.
      change (default 0 (Some r)) with r. rewrite Hnode. cbn [fmap option_fmap option_map].
      apply bool_decide_ext. split; congruence.
    Qed.

    Lemma accuracy_right g rows attrs t wo ko :
      any_order ko →
      shows g0 c rows g → (∀ r, r ∈ rows → r < (gr_size g0).2) → rows ≠ [] →
      usable vs attrs t → attrs ⊆ gr_all_attrs g → all_lead t rows →
      ∃ q, accuracy_of show parse cord ao pg ko wo t g = Ok (Some q) ∧
        (q == fraction (right_rows (λ r, leaf_of r t) rows) (length rows))%Q.
    Proof using T Hc Hvs Hcord Hao.
      intros Hko S Hb Hne Hu Hsub Hlead.
      destruct (predict_right g rows attrs t wo S Hb Hu Hsub Hlead) as (ret & Hret & Hsz & H).
      unfold accuracy_of. rewrite Hret. cbn [mbind res_bind].
      destruct (H (cord (map_to_list (d_class ret)))) as [Htot Hcount]; [apply Hcord|].
      destruct (confusion_total show g (dense_grid (cord (map_to_list (d_class ret))) ret)) as [cf Hcf].
      { done. } { done. }
      rewrite Hcf.
      destruct (accuracy_fraction show g _ cf ko Hcf Hko) as ((q & Hq & Eq) & _).
      { rewrite (sh_rows _ _ _ _ S). by destruct rows. }
      exists q. split; [by rewrite Hq|]. rewrite Eq, Hcount. by rewrite (sh_rows _ _ _ _ S).
    Qed.

    Context (ko : list string → list string → list string)
      (wo : list string → nat → nat → list string → list string)
      (co : list string → list attr → list attr) (ro : list string → list nat → list nat).
    Hypothesis Hko : ∀ p, any_order (ko p).
    Hypothesis Hco : ∀ p, any_order (co p).
    Hypothesis Hro : ∀ p, any_order (ro p).

    (** The loop over the children. *)
    Definition prune_children (path : list string) (subs : gmap string view)
        : list (string * tree) → res (list (string * tree)) :=
      fix go (l : list (string * tree)) : res (list (string * tree)) :=
        match l with
        | [] => Ok []
        | (k, c) :: l =>
            c ← match (subs : gmap string view) !! k with
                | None => Ok c
                | Some v =>
                    if ((view_size v).1 =? 0) || ((view_size v).2 =? 0) then Ok c
                    else prune show parse cord ao pg ko wo co ro (path ++ [k]) c
                           (view_grid (co (path ++ [k])) (ro (path ++ [k])) v)
                end;
            l ← go l;
            Ok ((k, c) :: l)
        end.

    Lemma prune_split path leaf l dist class cattr ru data :
      prune show parse cord ao pg ko wo co ro path (Node leaf (Some l) dist class cattr (Some ru)) data =
      (a ← match ru_attr ru with Some a => Ok a | None => Panic end;
       subs ← decompose_values show data a;
       cs ← prune_children path subs l;
       baseline ← accuracy_of show parse cord ao pg (ko path) (wo path)
                    (Node leaf (Some cs) dist class cattr (Some ru)) data;
       new ← accuracy_of show parse cord ao pg (ko path) (wo path)
               (Node leaf None dist class cattr (Some ru)) data;
       Ok (if q_lt new baseline then Node leaf (Some cs) dist class cattr (Some ru)
           else Node leaf None dist class cattr (Some ru))).
    Proof. reflexivity. Qed.

    Lemma fraction_le a b n : n ≠ 0 → ¬ (fraction a n < fraction b n)%Q → b ≤ a.
    Proof.
      intros Hn H. apply Qnot_lt_le in H. unfold fraction in H.
      apply Qmult_lt_0_le_reg_r in H.
      - unfold Qle in H. cbn in H. lia.
      - apply Qinv_lt_0_compat. unfold Qlt. cbn. lia.
    Qed.

    Lemma prune_right attrs t path g rows :
      usable vs attrs t → shows g0 c rows g → (∀ r, r ∈ rows → r < (gr_size g0).2) → rows ≠ [] →
      (∀ a, a ∈ attrs → a ∈ gr_all_attrs g ∧ a ≠ c) → all_lead t rows →
      ∃ t', prune show parse cord ao pg ko wo co ro path t g = Ok t' ∧ usable vs attrs t' ∧
        all_lead t' rows ∧
        right_rows (λ r, leaf_of r t) rows ≤ right_rows (λ r, leaf_of r t') rows.
    Proof using T Hc Hvs Hcord Hao Hko Hco Hro.
      intros Hu. revert path g rows.
      induction Hu as [attrs leaf dist class cattr ru Hcl|attrs leaf l dist class cattr a v Hcl Ha Hf Hn Hl IH];
        intros path g rows S Hb Hne Hattrs Hlead.
      { eexists. split; [reflexivity|]. split; [by constructor|]. done. }
      destruct (Hattrs a Ha) as [Hag Hac].
      rewrite prune_split. cbn [ru_attr mbind res_bind].
      destruct (split_on_spec show g0 c label T g rows a v S Hb Hag)
        as (m & kf & order & Hm & Hperm & Hkf & Hk).
      assert (∀ r, side show g0 a v r = value_of show g0 a r) as Hside by (intros r; by destruct a).
      assert (decompose_values show g a = Ok m) as -> by (by destruct a).
      cbn [mbind res_bind].
      pose proof (sh_rows _ _ _ _ S) as Hrn.
      assert (∀ k w, m !! k = Some w →
        ∃ rows', rows' ≡ₚ filter (λ i, value_of show g0 a i = Ok k) rows ∧ rows' ≠ [] ∧
          shows g0 c rows' (view_grid (co (path ++ [k])) (ro (path ++ [k])) w) ∧
          gr_all_attrs (view_grid (co (path ++ [k])) (ro (path ++ [k])) w) = other_attrs g a) as Hchild.
      { intros k w Hkw. specialize (Hk k).
        pose proof (behind_filter show g0 rows kf a v k order _ Hrn Hperm Hkf) as Hp.
        destruct (filter (λ j, kf j = k) order) as [|j js] eqn:Ef; [congruence|].
        destruct Hk as (w' & Hw' & Hw). assert (w' = w) as -> by congruence.
        exists (map (behind rows) (j :: js)).
        split; [rewrite Hp; apply reflexive_eq, list_filter_iff; intros r; by rewrite Hside|].
        split; [done|].
        apply (shows_child show g0 c label T g rows a (j :: js) w (co (path ++ [k])) (ro (path ++ [k])) S Hag Hac);
          [|done|apply Hco|apply Hro].
        intros j' Hj'. rewrite <- Ef in Hj'. apply elem_of_list_filter in Hj' as [_ Hj'].
        rewrite Hperm in Hj'. apply elem_of_seq in Hj'. lia. }
      assert (∃ l', prune_children path m l = Ok l' ∧ map fst l' = map fst l ∧
        (∀ k t, (k, t) ∈ l' → usable vs (filter (λ b, attr_equals b a = false) attrs) t) ∧
        (∀ k t r, (k, t) ∈ l' → r ∈ rows → value_of show g0 a r = Ok k →
           ∃ node, leaf_of r t = Some node) ∧
        Forall2 (λ x y, x.1 = y.1 ∧
          right_rows (λ r, leaf_of r x.2) (filter (λ r, value_of show g0 a r = Ok x.1) rows) ≤
          right_rows (λ r, leaf_of r y.2) (filter (λ r, value_of show g0 a r = Ok x.1) rows)) l l')
        as (l' & -> & Hfst & Hu' & Hl' & Hle).
      { assert (∀ k t r, (k, t) ∈ l → r ∈ rows → value_of show g0 a r = Ok k →
          ∃ node, leaf_of r t = Some node) as Hlead'.
        { intros k t r Hkt Hr Hval. destruct (Hlead r Hr) as [node Hnode].
          rewrite leaf_of_split in Hnode. unfold leaf_in in Hnode.
          rewrite Hval, (assoc_nodup k l t Hn Hkt) in Hnode. eauto. }
        clear Hlead Hn. induction l as [|[k t] l IHl].
        { exists []. split; [done|]. split; [done|]. split; [intros ? ? H; by apply elem_of_nil in H|].
          split; [intros ? ? ? H; by apply elem_of_nil in H|]. constructor. }
        destruct IHl as (l' & Hl'1 & Hl'2 & Hl'3 & Hl'4 & Hl'5).
        { intros k' t' H. apply (Hl k'). by right. }
        { intros k' t' H. apply (IH k'). by right. }
        { intros k' t' r H. apply (Hlead' k' t'). by right. }
        assert (∃ t', match m !! k with
            | None => Ok t
            | Some v =>
                if ((view_size v).1 =? 0) || ((view_size v).2 =? 0) then Ok t
                else prune show parse cord ao pg ko wo co ro (path ++ [k]) t
                       (view_grid (co (path ++ [k])) (ro (path ++ [k])) v)
            end = Ok t' ∧
          usable vs (filter (λ b, attr_equals b a = false) attrs) t' ∧
          (∀ r, r ∈ rows → value_of show g0 a r = Ok k → ∃ node, leaf_of r t' = Some node) ∧
          right_rows (λ r, leaf_of r t) (filter (λ r, value_of show g0 a r = Ok k) rows) ≤
          right_rows (λ r, leaf_of r t') (filter (λ r, value_of show g0 a r = Ok k) rows))
          as (t' & Ht' & Hut' & Hlt' & Hlet').
        { destruct (m !! k) as [w|] eqn:Ek.
          2:{ exists t. split; [done|]. split; [apply (Hl k); left|]. split; [|done].
              intros r Hr Hval. apply (Hlead' k t r); [left|done|done]. }
          destruct (Hchild k w Ek) as (rows' & Hp & Hne' & S' & Hat).
          assert ((view_size w).1 ≠ 0) as Hw1.
          { change (view_size w).1 with (gr_size (view_grid (co (path ++ [k])) (ro (path ++ [k])) w)).1.
            rewrite (sh_cols _ _ _ _ S'). pose proof (sh_class_in _ _ _ _ S') as Hin.
            intros E. apply nil_length_inv in E. rewrite E in Hin. by apply elem_of_nil in Hin. }
          assert ((view_size w).2 ≠ 0) as Hw2.
          { change (view_size w).2 with (gr_size (view_grid (co (path ++ [k])) (ro (path ++ [k])) w)).2.
            rewrite (sh_rows _ _ _ _ S'). by destruct rows'. }
          apply Nat.eqb_neq in Hw1, Hw2. rewrite Hw1, Hw2. cbn [orb].
          destruct (IH k t) with (path := path ++ [k])
            (g := view_grid (co (path ++ [k])) (ro (path ++ [k])) w) (rows := rows')
            as (t' & Ht' & Hut' & Hlt' & Hlet').
          - left.
          - done.
          - intros r Hr. rewrite Hp in Hr. apply elem_of_list_filter in Hr as [_ Hr]. by apply Hb.
          - done.
          - intros b Hb'. rewrite Hat. apply elem_of_list_filter in Hb' as [Hb1 Hb2].
            destruct (Hattrs b Hb2) as [Hbg Hbc]. split; [|done].
            apply elem_of_list_filter. done.
          - intros r Hr. rewrite Hp in Hr. apply elem_of_list_filter in Hr as [Hval Hr].
            apply (Hlead' k t r); [left|done|done].
          - exists t'. split; [done|]. split; [done|]. split.
            + intros r Hr Hval. apply Hlt'. rewrite Hp. by apply elem_of_list_filter.
            + by rewrite !(right_perm _ _ _ Hp) in Hlet'. }
        exists ((k, t') :: l'). split.
        { cbn [prune_children]. fold (prune_children path m). rewrite Ht'. cbn [mbind res_bind].
          rewrite Hl'1. done. }
        split; [cbn [map fst]; by rewrite Hl'2|].
        split; [intros k' t'' H; apply elem_of_cons in H as [[= -> ->]|H]; [done|by apply (Hl'3 k')]|].
        split.
        { intros k' t'' r H. apply elem_of_cons in H as [[= -> ->]|H]; [by apply Hlt'|by apply (Hl'4 k')]. }
        constructor; [done|done]. }
      cbn [mbind res_bind].
      set (kept := Node leaf (Some l') dist class cattr (Some (Rule (Some a) v))).
      set (cut := Node leaf None dist class cattr (Some (Rule (Some a) v))).
      assert (usable vs attrs kept) as Huk by (constructor; try done; by rewrite Hfst).
      assert (usable vs attrs cut) as Huc by (by constructor).
      assert (all_lead kept rows) as Hlk.
      { intros r Hr. destruct (Hlead r Hr) as [node Hnode]. unfold kept. rewrite leaf_of_split in *.
        unfold leaf_in in *. destruct (value_of show g0 a r) as [k| |] eqn:Ev; [|done..].
        destruct (assoc k l) as [t|] eqn:E; [|done].
        apply assoc_in in E. assert (k ∈ map fst l') as Hkin.
        { rewrite Hfst. apply elem_of_list_fmap. by exists (k, t). }
        apply elem_of_list_fmap in Hkin as ([k' t'] & E' & Hin). cbn [fst] in E'. subst k'.
        rewrite (assoc_nodup k l' t'); [|by rewrite Hfst|done]. cbn [mbind option_bind].
        by apply (Hl' k t' r). }
      assert (all_lead cut rows) as Hlc by (intros r Hr; by exists cut).
      assert (attrs ⊆ gr_all_attrs g) as Hsub by (intros b Hb'; by apply Hattrs).
      destruct (accuracy_right g rows attrs kept (wo path) (ko path) (Hko path) S Hb Hne Huk Hsub Hlk)
        as (qk & -> & Ek). cbn [mbind res_bind].
      destruct (accuracy_right g rows attrs cut (wo path) (ko path) (Hko path) S Hb Hne Huc Hsub Hlc)
        as (qc & -> & Ec). cbn [mbind res_bind].
      assert (right_rows (λ r, leaf_of r (Node leaf (Some l) dist class cattr (Some (Rule (Some a) v)))) rows ≤
        right_rows (λ r, leaf_of r kept) rows) as Hkept.
      { rewrite (right_ext (λ r, leaf_of r (Node _ (Some l) _ _ _ _)) (λ r, leaf_in r a l)) by
          (intros r _; apply leaf_of_split).
        rewrite (right_ext (λ r, leaf_of r kept) (λ r, leaf_in r a l')) by
          (intros r _; apply leaf_of_split).
        by apply right_children_le. }
      eexists. split; [reflexivity|].
      destruct (q_lt (Some qc) (Some qk)) eqn:E; [done|].
      split; [done|]. split; [done|]. etrans; [exact Hkept|].
      apply (fraction_le _ _ (length rows)); [by destruct rows|].
      intros Hlt. rewrite <- Ec, <- Ek in Hlt. cbn [q_lt] in E.
      apply negb_false_iff, Qle_bool_iff in E. by apply Qlt_not_le in Hlt.
    Qed.
  End prune.
End rows.

