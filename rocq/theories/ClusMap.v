(** Proofs about cluster maps and about mixture predictions. *)
From Verif Require Import Prelude FloatModel FloatOrder AttrModel StoreModel DenseModel DenseProofs GridModel GridSpec GridProofs
  FilterModel KnnModel Id3Model RuleModel RuleProofs CartModel CartSpec CartProofs CartGrow CartFit IsoModel IsoProofs IsoScore ClusModel ClusSpec ClusProofs ClusGrid.
From Flocq Require Import IEEE754.BinarySingleNaN IEEE754.Bits IEEE754.Binary.
Local Open Scope nat_scope.

(** ** Invert *)

Definition put (ret : gmap Z Z) (e : Z * Z) : res (gmap Z Z) :=
  match ret !! e.1 with Some _ => Err | None => Ok (<[e.1 := e.2]> ret) end.

(** The points with their clusters, in the order of the loops. *)
Definition entries (order : list Z) (ref : cluster_map) : list (Z * Z) :=
  concat (map (λ c, map (λ p, (p, c)) (default [] (ref !! c))) order).

Lemma res_foldl_concat {A B} (f : A → B → res A) ls : ∀ a,
  res_foldl f a (concat ls) = res_foldl (λ a l, res_foldl f a l) a ls.
Proof.
  induction ls as [|l ls IH]; intros a; [done|]. cbn [concat res_foldl]. rewrite res_foldl_app.
  destruct (res_foldl f a l); cbn [mbind res_bind]; [apply IH|done|done].
Qed.

Lemma res_foldl_map {A B C} (f : A → B → res A) (h : C → B) l : ∀ a,
  res_foldl f a (map h l) = res_foldl (λ a x, f a (h x)) a l.
Proof.
  induction l as [|x l IH]; intros a; [done|]. cbn [map res_foldl]. destruct (f a (h x)); cbn [mbind res_bind]; [apply IH|done|done].
Qed.

Lemma res_foldl_ext {A B} (f h : A → B → res A) l : (∀ a b, f a b = h a b) → ∀ a, res_foldl f a l = res_foldl h a l.
Proof.
  intros Hfh. induction l as [|x l IH]; intros a; [done|]. cbn [res_foldl]. rewrite Hfh. destruct (h a x); cbn [mbind res_bind]; [apply IH|done|done].
Qed.

Lemma invert_entries order ref : invert order ref = res_foldl put ∅ (entries order ref).
Proof.
  unfold invert, entries. rewrite res_foldl_concat, res_foldl_map. apply res_foldl_ext. intros a c. by rewrite res_foldl_map.
Qed.

Lemma put_all l : ∀ ret, 
  (NoDup (map fst l) ∧ (∀ p, p ∈ map fst l → ret !! p = None) →
    ∃ m, res_foldl put ret l = Ok m ∧ ∀ p c, m !! p = Some c ↔ (p, c) ∈ l ∨ ret !! p = Some c) ∧
  (¬ (NoDup (map fst l) ∧ (∀ p, p ∈ map fst l → ret !! p = None)) → res_foldl put ret l = Err).
Proof.
  induction l as [|[p c] l IH]; intros ret; cbn [map fst res_foldl].
  { split.
    - intros _. exists ret. split; [done|]. intros p c. rewrite elem_of_nil. tauto.
    - intros []. split; [constructor|]. by intros p ?%elem_of_nil. }
  assert (put ret (p, c) = match ret !! p with Some _ => Err | None => Ok (<[p := c]> ret) end) as -> by done.
  destruct (ret !! p) as [c0|] eqn:Hp; cbn [mbind res_bind].
  { split; [|done]. intros [_ Hn]. rewrite Hn in Hp by left. done. }
  destruct (IH (<[p := c]> ret)) as [IH1 IH2].
  assert (NoDup (p :: map fst l) ∧ (∀ q, q ∈ p :: map fst l → ret !! q = None) ↔
          NoDup (map fst l) ∧ (∀ q, q ∈ map fst l → <[p := c]> ret !! q = None)) as Heq.
  { rewrite NoDup_cons. split.
    - intros [[Hn Hnd] Hq]. split; [done|]. intros q Hin. rewrite lookup_insert_ne; [apply Hq; by right|]. by intros ->.
    - intros [Hnd Hq]. split_and!; [|done|].
      + intros Hin. specialize (Hq p Hin). by rewrite lookup_insert in Hq.
      + intros q [->|Hin]%elem_of_cons; [done|]. specialize (Hq q Hin). by apply lookup_insert_None in Hq as [? _]. }
  rewrite Heq. split; [|exact IH2]. intros H. destruct (IH1 H) as (m & -> & Hm). exists m. split; [done|].
  intros q d. rewrite Hm, elem_of_cons. split.
  - intros [?|[[<- <-]|[_ ?]]%lookup_insert_Some]; auto.
  - intros [[[= -> ->]|?]|Hq]; [right; apply lookup_insert|by left|]. right.
    rewrite lookup_insert_ne; [done|]. intros ->. congruence.
Qed.

Lemma entries_fst order ref : map fst (entries order ref) = concat (map (λ c, default [] (ref !! c)) order).
Proof.
  unfold entries. rewrite concat_map, map_map. f_equal. apply map_ext. intros c. rewrite map_map. apply map_id.
Qed.

Lemma entries_points order ref : order ≡ₚ (map_to_list ref).*1 → map fst (entries order ref) ≡ₚ points_of ref.
Proof.
  intros Ho. rewrite entries_fst. unfold points_of.
  transitivity (concat (map (λ c, default [] (ref !! c)) (map_to_list ref).*1)).
  { assert (∀ l k : list Z, l ≡ₚ k → concat (map (λ c, default [] (ref !! c)) l) ≡ₚ concat (map (λ c, default [] (ref !! c)) k)) as Hp.
    { intros l k Hlk. induction Hlk; cbn [map concat]; [done|by f_equiv| |by etrans].
      rewrite !app_assoc. f_equiv. apply Permutation_app_comm. }
    by apply Hp. }
  replace (map (λ c, default [] (ref !! c)) (map_to_list ref).*1) with (map snd (map_to_list ref)); [done|].
  change ((map_to_list ref).*1) with (map fst (map_to_list ref)). rewrite map_map. apply map_ext_in.
  intros [c l] Hin%elem_of_list_In. apply elem_of_map_to_list in Hin. exact (f_equal (default []) (eq_sym Hin)).
Qed.

Lemma entries_listed order ref p c : order ≡ₚ (map_to_list ref).*1 → (p, c) ∈ entries order ref ↔ listed ref p c.
Proof.
  intros Ho. unfold entries, listed. rewrite elem_of_list_In, in_concat. split.
  - intros (l & Hl & Hin). apply in_map_iff in Hl as (c' & <- & Hc'). apply in_map_iff in Hin as (q & [= <- <-] & Hq).
    destruct (ref !! c') as [l|] eqn:E; [|done]. exists l. split; [done|]. by apply elem_of_list_In.
  - intros (l & Hl & Hin). exists (map (λ p, (p, c)) l). split.
    + apply in_map_iff. exists c. rewrite Hl. split; [done|]. apply elem_of_list_In. rewrite Ho. apply elem_of_list_fmap.
      exists (c, l). split; [done|]. by apply elem_of_map_to_list.
    + apply in_map_iff. exists p. split; [done|]. by apply elem_of_list_In.
Qed.

Lemma invert_spec order ref : order ≡ₚ (map_to_list ref).*1 →
  (NoDup (points_of ref) → ∃ m, invert order ref = Ok m ∧ ∀ p c, m !! p = Some c ↔ listed ref p c) ∧
  (¬ NoDup (points_of ref) → invert order ref = Err).
Proof.
  intros Ho. rewrite invert_entries. destruct (put_all (entries order ref) ∅) as [H1 H2].
  rewrite (entries_points order ref Ho) in H1, H2. split.
  - intros Hnd. destruct H1 as (m & Hm & Hl). { split; [done|]. intros; apply lookup_empty. }
    exists m. split; [done|]. intros p c. rewrite Hl, (entries_listed order ref p c Ho), lookup_empty. naive_solver.
  - intros Hnd. apply H2. tauto.
Qed.

Lemma points_listed ref p : p ∈ points_of ref ↔ ∃ c, listed ref p c.
Proof.
  unfold points_of, listed. rewrite elem_of_list_In, in_concat. split.
  - intros (l & Hl & Hin). apply in_map_iff in Hl as ([c l'] & <- & Hc). apply elem_of_list_In, elem_of_map_to_list in Hc.
    exists c, l'. split; [done|]. by apply elem_of_list_In.
  - intros (c & l & Hl & Hin). exists l. split; [|by apply elem_of_list_In]. apply in_map_iff. exists (c, l). split; [done|].
    by apply elem_of_list_In, elem_of_map_to_list.
Qed.

(** ** Equals *)

Lemma arrays_equal_spec a1 a2 : arrays_equal a1 a2 = true ↔ ∀ a, a ∈ a2 → a ∈ a1.
Proof.
  unfold arrays_equal.
  assert (∀ (m : gmap Z unit) a, is_Some (foldl (λ cnt a, <[a := tt]> cnt) m a1 !! a) ↔ a ∈ a1 ∨ is_Some (m !! a)) as Hf.
  { induction a1 as [|b l IH]; intros m a; cbn [foldl]; [rewrite elem_of_nil; tauto|]. rewrite IH, elem_of_cons.
    rewrite lookup_insert_is_Some. destruct (decide (b = a)); naive_solver. }
  rewrite forallb_forall. split.
  - intros H a Ha. apply elem_of_list_In, H in Ha. destruct (foldl _ _ _ !! a) as [u|] eqn:E; [|done].
    assert (a ∈ a1 ∨ is_Some ((∅ : gmap Z unit) !! a)) as [?|[? E2]] by (apply Hf; eauto); [done|]. by rewrite lookup_empty in E2.
  - intros H a Ha. apply elem_of_list_In, H in Ha. destruct (proj2 (Hf ∅ a) (or_introl Ha)) as [u ->]. done.
Qed.

Definition link_step (ref_inv other_inv ids : gmap Z Z) (p : Z) : res (gmap Z Z) :=
  let c1 := default 0%Z (ref_inv !! p) in
  match other_inv !! p with
  | Some c2 =>
      match ids !! c2 with
      | Some c3 => if (c1 =? c3)%Z then Ok ids else Err
      | None => Ok (<[c2 := c1]> ids)
      end
  | None => Err
  end.

Lemma link_spec (ref_inv other_inv : gmap Z Z) points : ∀ ids0 ids : gmap Z Z,
  res_foldl (link_step ref_inv other_inv) ids0 points = Ok ids → (∀ c d, ids0 !! c = Some d → ids !! c = Some d) ∧
    (∀ p, p ∈ points → ∃ c, other_inv !! p = Some c ∧ ids !! c = Some (default 0%Z (ref_inv !! p))).
Proof.
  induction points as [|p points IH]; intros ids0 ids Hrun; cbn [res_foldl] in Hrun.
  { injection Hrun as <-. split; [done|]. by intros p ?%elem_of_nil. }
  apply bind_Ok in Hrun as (ids1 & H1 & Hrest). unfold link_step in H1. cbv zeta in H1.
  destruct (other_inv !! p) as [c2|] eqn:Hp; [|done].
  assert ((∀ c d, ids0 !! c = Some d → ids1 !! c = Some d) ∧
    ids1 !! c2 = Some (default 0%Z (ref_inv !! p))) as (Hkeep & Hnew).
  { destruct (ids0 !! c2) as [c3|] eqn:Hc.
    - destruct (Z.eqb_spec (default 0%Z (ref_inv !! p)) c3) as [<-|]; [|done]. injection H1 as <-. split_and!; done.
    - injection H1 as <-. split_and!.
      + intros c d Hcd. rewrite lookup_insert_ne; [done|]. intros ->. congruence.
      + apply lookup_insert. }
  destruct (IH ids1 ids Hrest) as [H2 H3]. split; [naive_solver|].
  intros q [->|Hq]%elem_of_cons; [|by apply H3]. exists c2. split; [done|]. by apply H2.
Qed.

Lemma link_total (ref_inv other_inv : gmap Z Z) (f : Z → Z) points : ∀ ids0 : gmap Z Z,
  (∀ p, p ∈ points → ∃ c, other_inv !! p = Some c ∧ ref_inv !! p = Some (f c)) →
  (∀ c d, ids0 !! c = Some d → d = f c) →
  ∃ ids, res_foldl (link_step ref_inv other_inv) ids0 points = Ok ids ∧ (∀ c d, ids !! c = Some d → d = f c).
Proof.
  induction points as [|p points IH]; intros ids0 Hp H0; cbn [res_foldl]; [by exists ids0|].
  destruct (Hp p) as (c & Hc & Hr); [left|].
  assert (∃ ids1, link_step ref_inv other_inv ids0 p = Ok ids1 ∧ ∀ c d, ids1 !! c = Some d → d = f c) as (ids1 & H1 & Hf1).
  { unfold link_step. rewrite Hc, Hr. cbn [default]. destruct (ids0 !! c) as [d|] eqn:Hd.
    - rewrite (H0 c d Hd), Z.eqb_refl. by exists ids0.
    - eexists. split; [reflexivity|]. intros c' d' [[<- <-]|[_ ?]]%lookup_insert_Some; [done|]. by apply H0. }
  rewrite H1. cbn [mbind res_bind]. apply IH; [|done]. intros q Hq. apply Hp. by right.
Qed.

Lemma same_clusters_spec ids ref other olds :
  (same_clusters ids ref other olds = Ok true ↔
    ∀ old, old ∈ olds → ∀ a, a ∈ default [] (other !! old) → a ∈ default [] (ref !! default 0%Z (ids !! old))) ∧
  same_clusters ids ref other olds ≠ Ok false.
Proof.
  unfold same_clusters. induction olds as [|old olds [IH1 IH2]]; cbn [res_foldl].
  { split; [|done]. split; [by intros _ ? ?%elem_of_nil|done]. }
  destruct (arrays_equal _ _) eqn:E; cbn [mbind res_bind].
  - split; [|done]. rewrite IH1. rewrite arrays_equal_spec in E. split; [|intros H ? ?; apply H; by right].
    intros H o [->|Ho]%elem_of_cons; [exact E|by apply H].
  - split; [|done]. split; [done|]. intros H. assert (arrays_equal (default [] (ref !! default 0%Z (ids !! old))) (default [] (other !! old)) = true); [|congruence].
    apply arrays_equal_spec. apply H. left.
Qed.

Lemma NoDup_map_inj {A B} (f : A → B) l x y : NoDup (map f l) → x ∈ l → y ∈ l → f x = f y → x = y.
Proof.
  induction l as [|a l IH]; intros Hnd Hx Hy Hf; [by apply elem_of_nil in Hx|]. cbn [map] in Hnd. apply NoDup_cons in Hnd as [Hn Hnd].
  apply elem_of_cons in Hx as [->|Hx]; apply elem_of_cons in Hy as [->|Hy]; [done| | |by apply IH].
  - destruct Hn. rewrite Hf. by apply (elem_of_list_fmap_1 f).
  - destruct Hn. rewrite <- Hf. by apply (elem_of_list_fmap_1 f).
Qed.

Lemma keys_elem (m : cluster_map) c : c ∈ (map_to_list m).*1 ↔ is_Some (m !! c).
Proof.
  rewrite elem_of_list_fmap. split.
  - intros ([k l] & -> & H%elem_of_map_to_list). by exists l.
  - intros [l Hl]. exists (c, l). split; [done|]. by apply elem_of_map_to_list.
Qed.

Lemma keys_length (m : cluster_map) : length (map_to_list m).*1 = size m.
Proof. by rewrite fmap_length. Qed.

Lemma equals_true ref other oref oother opoints oold :
  oref ≡ₚ (map_to_list ref).*1 → oother ≡ₚ (map_to_list other).*1 → oold ≡ₚ (map_to_list other).*1 →
  opoints ≡ₚ points_of ref →
  NoDup (points_of ref) → NoDup (points_of other) → renamed ref other →
  equals oref oother opoints oold ref other = Ok true.
Proof.
  intros Hor Hoo Hol Hop Hnr Hno (f & Finj & Fdom & Fsur & Flist). unfold equals.
  assert (size ref = size other) as ->.
  { rewrite <- !keys_length. symmetry. rewrite <- (map_length f). apply Permutation_length, NoDup_Permutation.
    - apply NoDup_fmap_2_strong; [|apply NoDup_fst_map_to_list]. intros x y Hx%keys_elem Hy%keys_elem. by apply Finj.
    - apply NoDup_fst_map_to_list.
    - intros x. rewrite keys_elem, elem_of_list_fmap. split.
      + intros (y & -> & Hy%keys_elem). by apply Fdom.
      + intros Hx. destruct (Fsur x Hx) as (y & Hy & <-). exists y. split; [done|]. by apply keys_elem. }
  rewrite Nat.eqb_refl. cbn [negb].
  destruct (proj1 (invert_spec oref ref Hor) Hnr) as (ri & -> & Hri). cbn [mbind res_bind].
  destruct (proj1 (invert_spec oother other Hoo) Hno) as (oi & -> & Hoi). cbn [mbind res_bind].
  assert (∀ p, p ∈ opoints → ∃ c, oi !! p = Some c ∧ ri !! p = Some (f c)) as Hpts.
  { intros p Hp. rewrite Hop, points_listed in Hp. destruct Hp as (c & Hc). destruct (Fsur c) as (c' & Hc' & <-).
    { destruct Hc as (l & Hl & _). eauto. }
    exists c'. split; [apply Hoi; by apply Flist|by apply Hri]. }
  destruct (link_total ri oi f opoints ∅ Hpts) as (ids & Hids & Hf). { intros c d. by rewrite lookup_empty. }
  change (link_ids ri oi opoints) with (res_foldl (link_step ri oi) ∅ opoints). rewrite Hids. cbn [mbind res_bind]. apply same_clusters_spec. intros old Hold a Ha.
  rewrite Hol, keys_elem in Hold. destruct Hold as [l El]. rewrite El in Ha. cbn [default] in Ha.
  assert (listed other a old) as Hlo by (by exists l). pose proof (proj1 (Flist old a ltac:(by eexists)) Hlo) as Hlr.
  destruct (link_spec ri oi opoints ∅ ids Hids) as [_ Hl]. destruct (Hl a) as (c & Hc & Hi).
  { rewrite Hop, points_listed. eauto. }
  apply Hoi in Hlo. rewrite Hlo in Hc. injection Hc as <-. rewrite Hi. cbn [default].
  pose proof (proj2 (Hri a (f old)) Hlr) as ->. cbn [default]. destruct Hlr as (l' & Hl' & Hin).
  exact (eq_rect _ (λ z, a ∈ default [] z) Hin _ (eq_sym Hl')).
Qed.

Lemma equals_renamed ref other oref oother opoints oold b :
  oref ≡ₚ (map_to_list ref).*1 → oother ≡ₚ (map_to_list other).*1 → oold ≡ₚ (map_to_list other).*1 →
  opoints ≡ₚ points_of ref →
  (∀ c, ref !! c ≠ Some []) →
  equals oref oother opoints oold ref other = Ok b →
  b = true ∧ NoDup (points_of ref) ∧ NoDup (points_of other) ∧ renamed ref other.
Proof.
  intros Hor Hoo Hol Hop Hne. unfold equals. destruct (Nat.eqb_spec (size ref) (size other)) as [Hsize|]; [|done]. cbn [negb].
  intros (ri & Hri & (oi & Hoi & (ids & Hids & Hs)%bind_Ok)%bind_Ok)%bind_Ok.
  destruct (decide (NoDup (points_of ref))) as [Hnr|Hnr]; [|rewrite (proj2 (invert_spec oref ref Hor) Hnr) in Hri; done].
  destruct (decide (NoDup (points_of other))) as [Hno|Hno]; [|rewrite (proj2 (invert_spec oother other Hoo) Hno) in Hoi; done].
  destruct (proj1 (invert_spec oref ref Hor) Hnr) as (ri' & Hri' & Lr). rewrite Hri in Hri'. injection Hri' as <-.
  destruct (proj1 (invert_spec oother other Hoo) Hno) as (oi' & Hoi' & Lo). rewrite Hoi in Hoi'. injection Hoi' as <-.
  assert (b = true) as -> by (destruct b; [done|]; by destruct (proj2 (same_clusters_spec ids ref other oold))).
  split_and!; [done..|]. pose proof (proj1 (proj1 (same_clusters_spec ids ref other oold)) Hs) as Hsub.
  destruct (link_spec ri oi opoints ∅ ids Hids) as [_ Hl].
  set (f c := default 0%Z (ids !! c)).
  assert (∀ p c, listed ref p c → ∃ c', listed other p c' ∧ f c' = c) as Hmap.
  { intros p c Hc. destruct (Hl p) as (c' & Hc' & Hi). { rewrite Hop, points_listed. eauto. }
    exists c'. split; [by apply Lo|]. unfold f. rewrite Hi. cbn [default]. apply Lr in Hc. by rewrite Hc. }
  assert ((map_to_list ref).*1 ≡ₚ map f (map_to_list other).*1) as Hperm.
  { apply submseteq_Permutation_length_eq; [rewrite map_length, !keys_length; lia|].
    apply NoDup_submseteq; [apply NoDup_fst_map_to_list|]. intros c Hc%keys_elem. destruct Hc as [l Hc].
    destruct l as [|p l]; [by destruct (Hne c)|]. destruct (Hmap p c) as (c' & (l' & Hl' & _) & <-); [exists (p :: l); split; [done|left]|].
    apply (elem_of_list_fmap_1 f). apply keys_elem. eauto. }
  assert (NoDup (map f (map_to_list other).*1)) as Hnd by (rewrite <- Hperm; apply NoDup_fst_map_to_list).
  assert (∀ c c', is_Some (other !! c) → is_Some (other !! c') → f c = f c' → c = c') as Hinj.
  { intros c c' Hc%keys_elem Hc'%keys_elem. by apply (NoDup_map_inj f (map_to_list other).*1). }
  exists f. split_and!; [exact Hinj| | |].
  - intros c Hc%keys_elem. apply keys_elem. rewrite Hperm. by apply (elem_of_list_fmap_1 f).
  - intros c Hc%keys_elem. rewrite Hperm in Hc. apply elem_of_list_fmap in Hc as (c' & -> & Hc'%keys_elem). eauto.
  - intros c p Hc. split.
    + intros (l & Hl' & Hp). assert (p ∈ default [] (ref !! f c)) as Hin.
      { apply Hsub; [rewrite Hol; by apply keys_elem|]. exact (eq_rect _ (λ z, p ∈ default [] z) Hp _ (eq_sym Hl')). }
      unfold listed. destruct (ref !! f c) as [l'|]; [by exists l'|]. by apply elem_of_nil in Hin.
    + intros Hp. destruct (Hmap p (f c) Hp) as (c' & Hc' & Hf). assert (c' = c) as <-; [|done].
      apply Hinj; [|done|done]. destruct Hc' as (l & Hl' & _). eauto.
Qed.

(** ** Mixture predictions *)

Lemma float_gt_fkey a b : fnan a = false → fnan b = false → float_gt a b = true ↔ (fkey b < fkey a)%Z.
Proof.
  intros Ha Hb. unfold float_gt. rewrite fkey_compare by done. destruct (Z.compare_spec (fkey a) (fkey b)); split; try done; lia.
Qed.

Section mixture.
  Variable log_prob : nat → list binary64 → binary64.
  Variable comps : nat.

  Notation most_likely := (most_likely log_prob comps).

  Lemma best_loop x n : (∀ k, k < n → fnan (log_prob k x) = false) →
    ∃ ix pr, foldl (λ '(ix, pr) k, let p := log_prob k x in if float_gt p pr then (k, p) else (ix, pr))
      (0, float_neg_inf) (seq 0 n) = (ix, pr) ∧ fnan pr = false ∧
      (∀ k, k < n → (fkey (log_prob k x) <= fkey pr)%Z) ∧
      ((ix = 0 ∧ pr = float_neg_inf) ∨ (ix < n ∧ pr = log_prob ix x ∧ ∀ k, k < ix → (fkey (log_prob k x) < fkey pr)%Z)).
  Proof.
    induction n as [|n IH]; intros Hn.
    { exists 0, float_neg_inf. split_and!; [done|done|lia|by left]. }
    destruct IH as (ix & pr & Hf & Hp & Hle & Hcase). { intros k Hk. apply Hn. lia. }
    rewrite seq_S, foldl_app, Hf. cbn [foldl Nat.add]. cbv zeta.
    pose proof (Hn n ltac:(lia)) as Hnn. pose proof (float_gt_fkey (log_prob n x) pr Hnn Hp) as Hgt.
    destruct (float_gt (log_prob n x) pr).
    - exists n, (log_prob n x). assert (fkey pr < fkey (log_prob n x))%Z as Hlt by (by apply Hgt).
      split_and!; [done|done| |].
      + intros k Hk. destruct (decide (k = n)) as [->|]; [lia|]. specialize (Hle k ltac:(lia)). lia.
      + right. split_and!; [lia|done|]. intros k Hk. specialize (Hle k Hk). lia.
    - exists ix, pr. assert (fkey (log_prob n x) <= fkey pr)%Z as Hlt.
      { destruct (Z.le_gt_cases (fkey (log_prob n x)) (fkey pr)) as [|Hc]; [done|]. apply Hgt in Hc. done. }
      split_and!; [done|done| |].
      + intros k Hk. destruct (decide (k = n)) as [->|]; [lia|]. apply Hle. lia.
      + destruct Hcase as [?|(? & ? & ?)]; [by left|right]. split_and!; [lia|done|done].
  Qed.

  Lemma best_most_likely x : 0 < comps → (∀ k, k < comps → fnan (log_prob k x) = false) →
    most_likely x (best_component log_prob comps x).
  Proof.
    intros H0 Hn. destruct (best_loop x comps Hn) as (ix & pr & Hf & Hp & Hle & Hcase).
    assert (best_component log_prob comps x = ix) as -> by exact (f_equal fst Hf).
    assert (ix < comps ∧ (∀ j, j < comps → (fkey (log_prob j x) <= fkey (log_prob ix x))%Z) ∧
      ∀ k, k < ix → (fkey (log_prob k x) < fkey (log_prob ix x))%Z) as (Hix & H1 & H2).
    { destruct Hcase as [[-> ->]|(? & -> & ?)]; [|done]. split_and!; [done| |lia].
      intros j Hj. specialize (Hle j Hj). pose proof (fkey_inf_max (log_prob 0 x) (Hn 0 H0)). lia. }
    split_and!; [done| |].
    - intros j Hj. specialize (H1 j Hj). pose proof (float_gt_fkey (log_prob j x) (log_prob ix x) (Hn j Hj) (Hn ix Hix)) as Hg.
      destruct (float_gt _ _); [|done]. assert (fkey (log_prob ix x) < fkey (log_prob j x))%Z by (by apply Hg). lia.
    - intros j Hj. apply float_gt_fkey; [by apply Hn|apply Hn; lia|]. by apply H2.
  Qed.

  Lemma most_likely_unique x j k : (∀ k, k < comps → fnan (log_prob k x) = false) →
    most_likely x j → most_likely x k → j = k.
  Proof.
    intros Hn (Hj & J1 & J2) (Hk & K1 & K2). destruct (Nat.lt_trichotomy j k) as [H|[H|H]]; [|done|].
    - specialize (K2 j H). rewrite J1 in K2 by done. done.
    - specialize (J2 k H). rewrite K1 in J2 by done. done.
  Qed.

  Definition add_member (m : gmap nat (list nat)) (e : nat * nat) : gmap nat (list nat) :=
    <[e.1 := default [] (m !! e.1) ++ [e.2]]> m.

  Lemma add_members l : ∀ m k, foldl add_member m l !! k =
    match map snd (filter (λ e, e.1 = k) l) with [] => m !! k | r => Some (default [] (m !! k) ++ r) end.
  Proof.
    induction l as [|[c i] l IH]; intros m k; [done|]. cbn [foldl]. rewrite IH. rewrite filter_cons.
    change (((c, i).1 = k)) with (c = k). unfold add_member at 1 2. cbn [fst snd]. destruct (decide (c = k)) as [->|Hne].
    - rewrite !lookup_insert. cbn [map snd default]. destruct (map snd (filter _ l)) as [|r rs]; [done|].
      f_equal. symmetry. apply (assoc_L (++) (default [] (m !! k)) [i] (r :: rs)).
    - rewrite !lookup_insert_ne by done. done.
  Qed.

  Lemma em_predict_spec attrs g feat : iter_agrees g → reads_columns g attrs feat → length attrs ≠ 0 → (gr_size g).2 ≠ 0 →
    ∃ m, em_predict log_prob comps attrs g = Ok m ∧
      ∀ k l, m !! k = Some l ↔ l ≠ [] ∧ l = filter (λ i, best_component log_prob comps (feat i) = k) (seq 0 (gr_size g).2).
  Proof.
    intros Hit (specs & Hs & Hf) Hl Hn. unfold em_predict. rewrite Hs. cbn [mbind res_bind].
    destruct (Nat.eqb_spec (gr_size g).2 0); [done|]. destruct (Nat.eqb_spec (length attrs) 0); [done|]. cbn [orb].
    rewrite (read_rows g specs (res_mapM unpack_float) feat); [|done|exact Hf]. cbn [mbind res_bind fst].
    eexists. split; [reflexivity|]. intros k l.
    set (best := best_component log_prob comps).
    assert (foldl (λ m e, <[best e.2 := default [] (m !! best e.2) ++ [e.1]]> m) (∅ : gmap nat (list nat))
              (imap (λ i x, (i, x)) (map feat (seq 0 (gr_size g).2))) =
            foldl add_member ∅ (map (λ i, (best (feat i), i)) (seq 0 (gr_size g).2))) as ->.
    { assert (imap (λ i x, (i, x)) (map feat (seq 0 (gr_size g).2)) = map (λ i, (i, feat i)) (seq 0 (gr_size g).2)) as ->.
      { change (map feat) with (fmap (M:=list) feat). rewrite imap_fmap.
        apply list_eq. intros i. rewrite list_lookup_imap. change (map ?f ?l) with (fmap (M:=list) f l). rewrite list_lookup_fmap.
        destruct (decide (i < (gr_size g).2)); [by rewrite lookup_seq_lt|]. by rewrite !lookup_seq_ge by lia. }
      generalize (∅ : gmap nat (list nat)). clear. induction (seq 0 (gr_size g).2) as [|i l IH]; intros m; [done|]. cbn [map foldl].
      by rewrite IH. }
    rewrite add_members, lookup_empty. cbn [default app].
    assert (map snd (filter (λ e : nat * nat, e.1 = k) (map (λ i, (best (feat i), i)) (seq 0 (gr_size g).2)))
            = filter (λ i, best (feat i) = k) (seq 0 (gr_size g).2)) as ->.
    { induction (seq 0 (gr_size g).2) as [|i r IH]; [done|]. cbn [map]. rewrite !filter_cons. cbn [fst].
      destruct (decide (best (feat i) = k)); cbn [map snd]; by rewrite IH. }
    destruct (filter _ _) as [|i r]; [naive_solver|]. naive_solver.
  Qed.
End mixture.
