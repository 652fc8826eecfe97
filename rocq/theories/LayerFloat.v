(** Predicting a number with a layered network. *)
From Coq Require Import Reals.
From Verif Require Import Prelude DenseProofs BytesModel BytesProofs FloatModel AttrModel AttrProofs StoreModel DenseModel DenseSpec GridModel GridSpec GridProofs
  FilterModel FilterSpec FilterProofs PredModel PredProofs BagModel FloatProofs
  CartModel MetricModel MetricSpec NeuralModel NeuralSpec NeuralProofs NeuralFloat NeuralProps PercModel LinSpec LinProofs LayerModel LayerSpec LayerProofs LayerTrain LayerPredict.
From Flocq Require Import IEEE754.BinarySingleNaN IEEE754.Bits IEEE754.Binary.
Local Open Scope nat_scope.

(** ** Grids of numbers *)

Section numbers.
  Variable co : list attr → list attr.
  Context (Hco : any_order co) (g : grid) (c : attr).
  Context (Hfl : ∀ a, a ∈ gr_all_attrs g → ∃ nm p, a = FloatA nm p) (Hnd : NoDup (map attr_name (gr_all_attrs g))).
  Context (Hc : gr_class_attrs g = [c]) (Hcin : c ∈ gr_all_attrs g).
  Notation cv := (float_train convert_new (gr_all_attrs g)).
  Notation lf := (new_lfiltered g (float_filter cv)).

  Lemma num_columns a : a ∈ gr_all_attrs g → float_columns a = [a].
  Proof using Hfl. intros Ha. destruct (Hfl a Ha) as (nm & p & ->). done. Qed.

  Lemma num_equal a b : a ∈ gr_all_attrs g → b ∈ gr_all_attrs g → attr_equals a b = true → a = b.
  Proof using Hfl Hnd.
    intros Ha Hb E. destruct (Hfl a Ha) as (n1 & p1 & ->). destruct (Hfl b Hb) as (n2 & p2 & ->). cbn in E. apply bool_decide_eq_true in E as <-.
    apply elem_of_list_lookup in Ha as (i & Hi). apply elem_of_list_lookup in Hb as (j & Hj).
    assert (i = j) as ->; [|congruence]. eapply (NoDup_lookup (map attr_name (gr_all_attrs g))); [done| |];
      change (map ?f) with (fmap (M:=list) f); rewrite list_lookup_fmap; [by rewrite Hi|by rewrite Hj].
  Qed.

  Lemma num_converted p : p ∈ cv_converted cv ↔ p.1 ∈ gr_all_attrs g ∧ p.2 = p.1.
  Proof using Hfl.
    rewrite converted_elem. split; intros [H1 H2]; (split; [done|]); rewrite num_columns in * by done.
    - by apply elem_of_list_singleton in H2.
    - apply elem_of_list_singleton. done.
  Qed.

  Lemma class_put_nodup a l : NoDup l → NoDup (class_put a l).
  Proof using.
    intros H. unfold class_put. destruct (bool_decide (a ∈ l)) eqn:E; [done|]. apply bool_decide_eq_false in E. apply NoDup_app. split; [done|].
    split; [|apply NoDup_singleton]. intros x Hx Hx'. apply elem_of_list_singleton in Hx' as ->. done.
  Qed.

  Lemma lf_class_nodup g' f : NoDup (lf_class (new_lfiltered g' f)).
  Proof using.
    unfold new_lfiltered. assert (∀ l l0, NoDup (lf_class l0) → NoDup (lf_class (foldl (λ l c, match lf_add_class l c with Ok l' => l' | _ => l end) l0 l))) as E.
    { induction l as [|x l IH]; intros l0 H0; [done|]. cbn [foldl]. apply IH. unfold lf_add_class. destruct (lf_unfiltered l0 x).
      - cbn. by apply class_put_nodup.
      - destruct (map snd _) as [|n news]; [done|]. cbn [lf_class]. generalize dependent (lf_class l0). generalize (n :: news).
        clear. induction l as [|y l IH]; intros l0 H0; [done|]. cbn [foldl]. apply IH. by apply class_put_nodup. }
    apply E. constructor.
  Qed.

  Lemma num_class : gr_class_attrs (to_floats co g) = [c].
  Proof using Hfl Hnd Hc Hcin Hco.
    cbn [to_floats lf_grid gr_class_attrs]. assert (lf_class lf = [c]) as ->.
    { assert (c ∈ lf_class lf) as H1.
      { unfold new_lfiltered. rewrite Hc. cbn [foldl]. unfold lf_add_class. rewrite (all_filtered g) by done. cbn [lf_filter lf_src lf_class fl_attrs float_filter].
        set (news := map snd (filter (λ p, attr_equals p.1 c || attr_equals p.2 c = true) (cv_converted cv))).
        assert (c ∈ news) as Hn.
        { unfold news. apply elem_of_list_fmap. exists (c, c). split; [done|]. apply elem_of_list_filter. split; [cbn; by rewrite attr_equals_refl|].
          by apply num_converted. }
        destruct news as [|n l] eqn:En; [by apply elem_of_nil in Hn|]. cbn [lf_class]. rewrite <- En in *. apply class_put_all. by left. }
      assert (∀ a, a ∈ lf_class lf → a = c) as H2.
      { intros a Ha. apply (converted_class g c Hc) in Ha as (p & Hp & Ha & E). rewrite num_columns in Ha by done. apply elem_of_list_singleton in Ha as ->.
        apply num_equal; [done|done|]. by destruct E. }
      pose proof (lf_class_nodup g (float_filter cv)) as H3. destruct (lf_class lf) as [|a [|a' l]] eqn:E.
      - by apply elem_of_nil in H1.
      - f_equal. apply H2. left.
      - exfalso. rewrite (H2 a), (H2 a') in H3 by (left || right; left). apply NoDup_cons in H3 as [H3 _]. apply H3. left. }
    apply Permutation_singleton_r. apply Hco.
  Qed.

  Lemma num_all a : a ∈ gr_all_attrs (to_floats co g) ↔ a ∈ gr_all_attrs g.
  Proof using Hfl Hnd.
    split.
    - cbn [to_floats lf_grid gr_all_attrs]. unfold lf_all_attrs. destruct (lf_parts g) as [H1 H2]. intros Ha. rewrite elem_of_list_In, in_concat in Ha.
      destruct Ha as (l & Hl & Ha). apply in_map_iff in Hl as (b & <- & Hb). rewrite (all_filtered g _ b H1 H2), H2 in Ha. cbn [float_filter fl_attrs] in Ha.
      apply in_map_iff in Ha as (p & Hp & Hin). apply elem_of_list_In, elem_of_list_filter in Hin as [_ Hin]. apply num_converted in Hin as [H3 H4]. congruence.
    - intros Ha. apply (converted_all co g a a); [done|]. rewrite num_columns by done. left.
  Qed.

  Lemma num_inputs ao a : any_order ao → a ∈ non_class_attrs ao (to_floats co g) ↔ a ∈ gr_all_attrs g ∧ a ≠ c.
  Proof using Hfl Hnd Hc Hcin Hco.
    intros Hao. rewrite non_class_elem by done. rewrite num_all, num_class, elem_of_list_singleton. done.
  Qed.

  Context (Hspec : ∀ a s, a ∈ gr_all_attrs g → gr_get_attribute g a = Ok s → sp_attr s = a).

  Lemma num_match a : a ∈ gr_all_attrs g → lf_match (cv_converted cv) a = Some (a, a).
  Proof using Hfl Hnd.
    intros Ha. destruct (lf_match_first (cv_converted cv) a (a, a)) as (q & Hq & Hin); [by apply num_converted|cbn; apply attr_equals_refl|].
    rewrite Hq. f_equal. apply lf_match_Some in Hq as [_ Hq]. apply num_converted in Hin as [H1 H2]. destruct q as [q1 q2]. cbn in *. subst q2.
    assert (q1 = a) as ->; [|done]. apply num_equal; [done|done|]. apply orb_true_iff in Hq. tauto.
  Qed.

  Lemma find_new_some l : ∀ i a p, p ∈ l → attr_equals p.2 a = true → ∃ j, lf_find_new i l a = Some j.
  Proof using.
    induction l as [|q l IH]; intros i a p Hp E; [by apply elem_of_nil in Hp|]. cbn [lf_find_new]. destruct (attr_equals q.2 a) eqn:Eq; [eauto|].
    apply elem_of_cons in Hp as [->|Hp]; [congruence|]. eauto.
  Qed.

  Lemma num_attr a : a ∈ gr_all_attrs g → ∃ i, gr_get_attribute (to_floats co g) a = Ok (Spec 0 i a).
  Proof using Hfl.
    intros Ha. cbn [to_floats lf_grid gr_get_attribute]. unfold lf_get_attribute. destruct (lf_parts g) as [H1 H2]. rewrite (all_filtered g _ a H1 H2), H2.
    cbn [float_filter fl_attrs]. destruct (find_new_some (cv_converted cv) 0 a (a, a)) as (j & ->); [by apply num_converted|cbn; apply attr_equals_refl|]. eauto.
  Qed.

  Lemma num_old a s i : a ∈ gr_all_attrs g → gr_get_attribute g a = Ok s → lf_old lf (Spec 0 i a) = Ok s.
  Proof using Hfl Hnd.
    intros Ha Hs. unfold lf_old. destruct (lf_parts g) as [H1 H2]. cbn [sp_attr]. rewrite (all_filtered g _ a H1 H2), H1, H2. cbn [float_filter fl_attrs].
    rewrite num_match by done. cbn [fst]. by rewrite Hs.
  Qed.

  Lemma num_column a col : a ∈ gr_all_attrs g → column_holds g a col → column_holds (to_floats co g) a col.
  Proof using Hfl Hnd Hspec.
    intros Ha (s & Hs & Hr). destruct (num_attr a Ha) as (i & Hi). exists (Spec 0 i a). split; [done|]. intros r Hlt. destruct (lf_parts g) as [H1 H2].
    assert ((gr_size (to_floats co g)).2 = (gr_size g).2) as E by (cbn [to_floats lf_grid gr_size]; unfold lf_size; by rewrite H1).
    rewrite E in Hlt. destruct (Hr r Hlt) as (raw & Hraw & Hu). exists raw. split; [|done].
    cbn [to_floats lf_grid gr_get]. unfold lf_get. rewrite (num_old a s i Ha Hs), H1, Hraw. cbn [mbind res_bind sp_attr].
    rewrite (all_filtered g _ a H1 H2), H2. cbn [float_filter fl_transform]. rewrite (Hspec a s Ha Hs). destruct (Hfl a Ha) as (nm & p & ->). done.
  Qed.

  Lemma num_iter attrs specs : iter_agrees g → (∀ a, a ∈ attrs → a ∈ gr_all_attrs g ∧ ∃ s, gr_get_attribute g a = Ok s) →
    resolve (to_floats co g) attrs = Ok specs →
    ∃ rows, gr_iter (to_floats co g) specs = Ok rows ∧ map fst rows ≡ₚ seq 0 (gr_size g).2 ∧
      ∀ i fetch, (i, fetch) ∈ rows → ∀ buf, fetch = Ok buf ↔ res_mapM (λ s, gr_get (to_floats co g) s i) specs = Ok buf.
  Proof using Hfl Hnd.
    intros Hit Hs Hres. destruct (lf_parts g) as [H1 H2]. destruct (lf_iter_agrees lf specs) as (rows & Hr & Hp & Hf).
    - by rewrite H1.
    - intros s Hin. pose proof (resolve_attrs co g attrs specs Hres) as E.
      assert (sp_attr s ∈ attrs) as Ha by (rewrite <- E; apply elem_of_list_fmap; eauto). destruct (Hs _ Ha) as [Hall (o & Ho)].
      exists o. unfold lf_old. rewrite (all_filtered g _ _ H1 H2), H1, H2. cbn [float_filter fl_attrs]. rewrite num_match by done. cbn [fst]. by rewrite Ho.
    - intros s _ Hu. rewrite (all_filtered g _ _ H1 H2) in Hu. done.
    - exists rows. split; [done|]. split; [|done]. unfold lf_size in Hp. by rewrite H1 in Hp.
  Qed.
End numbers.

(** ** Looking nodes up *)

Lemma index_of_elem l a j : NoDup (map fst l) → (a, j) ∈ l → index_of l a = Some j.
Proof.
  unfold index_of. induction l as [|[b k] l IH]; intros Hnd Hin; [by apply elem_of_nil in Hin|]. cbn [List.find fst].
  cbn [map fst] in Hnd. apply NoDup_cons in Hnd as [Hb Hnd]. apply elem_of_cons in Hin as [[= <- <-]|Hin].
  - by rewrite bool_decide_eq_true_2.
  - rewrite bool_decide_eq_false_2; [by apply IH|]. intros ->. apply Hb. apply elem_of_list_fmap. by exists (a, j).
Qed.

Lemma index_of_none l a : a ∉ map fst l → index_of l a = None.
Proof.
  unfold index_of. induction l as [|[b k] l IH]; intros Hn; [done|]. cbn [List.find fst]. cbn [map fst] in Hn. apply not_elem_of_cons in Hn as [H1 H2].
  rewrite bool_decide_eq_false_2 by done. by apply IH.
Qed.

Lemma index_of_app l l' a : index_of (l ++ l') a = match index_of l a with Some j => Some j | None => index_of l' a end.
Proof.
  unfold index_of. induction l as [|[b k] l IH]; [done|]. cbn [app List.find fst]. destruct (bool_decide (b = a)); [done|]. exact IH.
Qed.

Lemma index_of_filter l (P : list attr) a : a ∈ P → index_of (List.filter (λ p, bool_decide (p.1 ∈ P)) l) a = index_of l a.
Proof.
  intros Ha. unfold index_of. induction l as [|[b k] l IH]; [done|]. cbn [List.filter fst List.find]. destruct (decide (b = a)) as [->|Hne].
  - rewrite (bool_decide_eq_true_2 (a ∈ P)) by done. cbn [List.find fst]. by rewrite bool_decide_eq_true_2.
  - rewrite (bool_decide_eq_false_2 (b = a)) by done. destruct (bool_decide (b ∈ P)); [|done]. cbn [List.find fst].
    by rewrite (bool_decide_eq_false_2 (b = a)) by done.
Qed.

Lemma imap_fst (f : nat → nat) (l : list attr) : map fst (imap (λ i a, (a, f i)) l) = l.
Proof. revert f. induction l as [|a l IH]; intros f; [done|]. cbn. f_equal. apply (IH (λ i, f (S i))). Qed.

Lemma indexed l (f : nat → nat) a i : NoDup l → l !! i = Some a → index_of (reverse (imap (λ i a, (a, f i)) l)) a = Some (f i).
Proof.
  intros Hnd Hi. apply index_of_elem.
  - change (map fst) with (fmap (M:=list) (fst (A:=attr) (B:=nat))). rewrite fmap_reverse.
    change (fmap (M:=list) (fst (A:=attr) (B:=nat))) with (map (fst (A:=attr) (B:=nat))). rewrite imap_fst. by rewrite reverse_Permutation.
  - apply elem_of_reverse. apply elem_of_list_lookup. exists i. rewrite list_lookup_imap, Hi. done.
Qed.

Lemma unindexed l (f : nat → nat) a : a ∉ l → index_of (reverse (imap (λ i a, (a, f i)) l)) a = None.
Proof.
  intros Ha. apply index_of_none. change (map fst) with (fmap (M:=list) (fst (A:=attr) (B:=nat))). rewrite fmap_reverse.
  change (fmap (M:=list) (fst (A:=attr) (B:=nat))) with (map (fst (A:=attr) (B:=nat))). rewrite imap_fst. by rewrite elem_of_reverse.
Qed.

(** ** The inputs of a row *)

Lemma input_vector_ok same m what N specs raws vals js : length raws = length specs → res_mapM unpack_float raws = Ok vals →
  Forall2 (λ s j, sp_attr s ∈ gr_all_attrs what ∧ same (sp_attr s) = true ∧ index_of (ml_attrs m) (sp_attr s) = Some j ∧ j < N) specs js →
  NoDup js →
  ∃ fx, input_vector same m what N specs raws = Ok (tab N 1 fx) ∧
    (∀ i j v, js !! i = Some j → vals !! i = Some v → fx j 0 = v) ∧ ∀ j, j ∉ js → fx j 0 = float_zero.
Proof.
  intros Hl Hv HF Hnd. unfold input_vector, blank.
  match goal with |- context [res_foldl ?f _ _] => set (step := f) end.
  assert (∀ raws vals js pre post f0, res_mapM unpack_float raws = Ok vals → length raws = length post → specs = pre ++ post →
    Forall2 (λ s j, sp_attr s ∈ gr_all_attrs what ∧ same (sp_attr s) = true ∧ index_of (ml_attrs m) (sp_attr s) = Some j ∧ j < N) post js →
    NoDup js → ∃ fx, res_foldl step (tab N 1 f0) (imap (λ i, pair (length pre + i)) raws) = Ok (tab N 1 fx) ∧
      (∀ i j v, js !! i = Some j → vals !! i = Some v → fx j 0 = v) ∧ ∀ j, j ∉ js → fx j 0 = f0 j 0) as E.
  { clear. induction raws as [|raw raws IH]; intros vals js pre post f0 Hv Hl Hs HF Hnd.
    - destruct post; [|done]. apply Forall2_nil_inv_l in HF as ->. exists f0. split; [done|]. split; [|done]. intros i j v Hi. done.
    - destruct post as [|s post]; [done|]. apply Forall2_cons_inv_l in HF as (j & js' & (H1 & H2 & H3 & H4) & HF & ->).
      cbn [res_mapM] in Hv. apply bind_Ok in Hv as (v & Hraw & Hv). apply bind_Ok in Hv as (vals' & Hvals & [= <-]).
      apply NoDup_cons in Hnd as [Hj Hnd].
      cbn [imap res_foldl]. rewrite Nat.add_0_r. assert (step (tab N 1 f0) (length pre, raw) = Ok (tab N 1 (put f0 j 0 v))) as ->.
      { unfold step. assert (idx specs (length pre) = Ok s) as -> by (unfold idx; by rewrite Hs, lookup_app_r, Nat.sub_diag by lia).
        cbn [mbind res_bind]. rewrite bool_decide_eq_true_2 by done. rewrite H2. cbn [andb]. rewrite H3, Hraw. cbn [mbind res_bind]. apply mx_set_tab; lia. }
      cbn [mbind res_bind].
      destruct (IH vals' js' (pre ++ [s]) post (put f0 j 0 v) Hvals) as (fx & Hrun & Hin & Hout); [by injection Hl|by rewrite <- app_assoc|done|done|].
      exists fx. split; [|split].
      + rewrite <- Hrun. f_equal. apply imap_ext. intros k z _. cbn. rewrite app_length. cbn. f_equal. lia.
      + intros [|i] j' v'; cbn [lookup list_lookup]; [|apply Hin]. intros [= ->] [= ->]. rewrite Hout by done. unfold put. by rewrite !Nat.eqb_refl.
      + intros j' Hj'. apply not_elem_of_cons in Hj' as [Hne Hj']. rewrite Hout by done. unfold put. by assert (j' =? j = false) as -> by (by apply Nat.eqb_neq). }
  destruct (E raws vals js [] specs (λ _ _, float_zero) Hv Hl eq_refl HF Hnd) as (fx & H1 & H2 & H3). exists fx. done.
Qed.

(** ** Predicting *)

(** [out] holds what the nodes say: the first [I] nodes say the inputs, every other node applies
    the sigmoid to its bias and the weighted sum of what the nodes say. *)
Definition layers_say (exp : binary64 → binary64) (N I : nat) (W : nat → nat → binary64) (b : nat → binary64)
    (input out : nat → binary64) : Prop :=
  (∀ i, i < I → out i = input i) ∧
  ∀ j, I <= j → j < N → out j = forward (sigmoid float64 exp) (b64_plus mode_NE (wsum float64 (W j) out N) (b j)).

Lemma exists_for {A} (a0 : A) n (P : nat → A → Prop) : (∀ r, r < n → ∃ y, P r y) → ∃ f, ∀ r, r < n → P r (f r).
Proof.
  induction n as [|n IH]; intros H; [exists (λ _, a0); lia|]. destruct IH as (f & Hf); [intros r Hr; apply H; lia|].
  destruct (H n ltac:(lia)) as (y & Hy). exists (λ r, if r =? n then y else f r). intros r Hr. destruct (Nat.eqb_spec r n) as [->|Hne]; [done|].
  apply Hf. lia.
Qed.

Section predict.
  Context (exp : binary64 → binary64) (draw : nat → binary64) (co ao : list attr → list attr).
  Context (Hco : any_order co) (Hao : any_order ao).

  Lemma num_fit m x m' c :
    (∀ a, a ∈ gr_all_attrs x → ∃ nm p, a = FloatA nm p) → NoDup (map attr_name (gr_all_attrs x)) →
    gr_class_attrs x = [c] → c ∈ gr_all_attrs x → (∃ a, a ∈ gr_all_attrs x ∧ a ≠ c) → ml_fit exp draw co ao m x = Ok m' →
    let inputs := non_class_attrs ao (to_floats co x) in
    let I := length inputs in
    let sizes := I :: ml_layers m ++ [1] in
    ∃ n, ml_network m' = Some n ∧ wired exp sizes (sum_list sizes) I n ∧ ml_layers m' = ml_layers m ∧ 0 < I ∧
      (∀ i a, inputs !! i = Some a → index_of (ml_attrs m') a = Some i) ∧
      index_of (ml_attrs m') c = Some (sum_list sizes - 1).
  Proof using Hao Hco.
    intros Hfl Hnd Hc Hcin (a0 & Ha0 & Hne0) Hfit inputs I sizes.
    destruct (ml_fit_inv _ _ _ _ _ _ _ Hfit) as (n & H1 & H2 & H3 & _ & _ & _ & _ & _ & H8).
    rewrite (num_class co Hco x c Hfl Hnd Hc Hcin) in *. cbn [length] in *. fold inputs in H2, H8. fold I in H2, H8. fold sizes in H2.
    assert (0 < I) as HI.
    { assert (a0 ∈ inputs) as Hin by (by apply (num_inputs co Hco x c Hfl Hnd Hc Hcin)). unfold I. destruct inputs; [by apply elem_of_nil in Hin|cbn; lia]. }
    exists n. split; [done|]. split; [done|]. split; [done|]. split; [done|].
    assert (NoDup inputs) as Hndi by (by apply non_class_nodup).
    assert (∀ a, a ∈ inputs → a ∈ gr_all_attrs x ∧ a ≠ c) as Hin by (intros a; by apply (num_inputs co Hco x c Hfl Hnd Hc Hcin)).
    rewrite H8. split.
    - intros i a Hi. assert (a ∈ inputs) as Ha by (apply elem_of_list_lookup; eauto). destruct (Hin a Ha) as [Hax Hac].
      rewrite !index_of_app. rewrite (index_of_filter _ (gr_all_attrs x)) by done.
      unfold class_index. rewrite (unindexed [c] (λ i, I - 1 + 1 + i + sum_list (ml_layers m)) a) by (by rewrite elem_of_list_singleton).
      rewrite (index_of_filter _ (gr_all_attrs x)) by done. unfold input_index. by rewrite (indexed inputs (λ i, i) a i).
    - rewrite index_of_app. rewrite (index_of_filter _ (gr_all_attrs x)) by done.
      unfold class_index. rewrite (indexed [c] (λ i, I - 1 + 1 + i + sum_list (ml_layers m)) c 0); [|apply NoDup_singleton|done].
      f_equal. unfold sizes. rewrite sum_cons, sum_list_app, sum_cons, sum_nil. lia.
  Qed.

  Context (pg : nat) (order : list ((nat * nat) * bool) → list ((nat * nat) * bool)).

  Lemma num_predict order' same m x m' what nm prec (col : attr → nat → binary64) :
    (∀ k, order k ≡ₚ k) → (∀ k, order' k ≡ₚ k) →
    (∀ a, a ∈ gr_all_attrs x → ∃ nm p, a = FloatA nm p) → NoDup (map attr_name (gr_all_attrs x)) →
    gr_class_attrs x = [FloatA nm prec] → FloatA nm prec ∈ gr_all_attrs x → (∃ a, a ∈ gr_all_attrs x ∧ a ≠ FloatA nm prec) →
    ml_fit exp draw co ao m x = Ok m' →
    gr_all_attrs what ≡ₚ gr_all_attrs x → gr_class_attrs what = [FloatA nm prec] → iter_agrees what →
    (∀ a s, a ∈ gr_all_attrs what → gr_get_attribute what a = Ok s → sp_attr s = a) →
    (∀ a, a ∈ gr_all_attrs what → a ≠ FloatA nm prec → same a = true ∧ column_holds what a (col a) ∧ ∀ r, r < (gr_size what).2 → plain (col a r)) →
    same (FloatA nm prec) = true →
    let inputs := non_class_attrs ao (to_floats co x) in
    let I := length inputs in
    let sizes := I :: ml_layers m ++ [1] in
    let N := sum_list sizes in
    ∃ n W b d say, ml_network m' = Some n ∧ holds_net n N I W b (start_funcs exp I) ∧
      (∀ s t, s < N → t < N → ¬ (s = t ∧ t < I) → a_eqb float64 (W t s) (a_zero float64) = false → next_layer sizes s t) ∧
      (∀ r, r < (gr_size what).2 → layers_say exp N I W b (λ i, default float_zero (a ← inputs !! i; Some (col a r))) (say r)) ∧
      ml_predict co ao order pg same m' what = Ok d ∧
      let p := dense_grid (order' (map_to_list (d_class d))) d in
      gr_class_attrs p = [FloatA nm prec] ∧ (gr_size p).2 = (gr_size what).2 ∧
      column_holds p (FloatA nm prec) (λ r, say r (N - 1)).
  Proof using Hao Hco.
    set (c := FloatA nm prec). intros Ho Ho' Hfl Hnd Hc Hcin Hsome Hfit Hall Hcw Hit Hspec Hcols Hsc inputs I sizes N.
    destruct (num_fit m x m' c Hfl Hnd Hc Hcin Hsome Hfit) as (n & Hn & Hw & Hlay & HI & Hidx & Hidc).
    fold inputs in Hw, HI, Hidx, Hidc. fold I in Hw, HI, Hidc. fold sizes in Hw, Hidc. fold N in Hw, Hidc.
    destruct (wired_feeds exp sizes N I n Hw eq_refl eq_refl) as (W & b & Hh & Hff & Hnext).
    assert (∀ a, a ∈ gr_all_attrs what → ∃ nm p, a = FloatA nm p) as Hflw by (intros a Ha; apply Hfl; by rewrite <- Hall).
    assert (NoDup (map attr_name (gr_all_attrs what))) as Hndw.
    { change (map attr_name) with (fmap (M:=list) attr_name). by rewrite Hall. }
    assert (c ∈ gr_all_attrs what) as Hcinw by (by rewrite Hall).
    set (inw := non_class_attrs ao (to_floats co what)).
    assert (∀ a, a ∈ inw ↔ a ∈ gr_all_attrs what ∧ a ≠ c) as Hinw by (intros a; by apply (num_inputs co Hco what c Hflw Hndw Hcw Hcinw)).
    assert (∀ a, a ∈ inputs ↔ a ∈ gr_all_attrs x ∧ a ≠ c) as Hinx by (intros a; by apply (num_inputs co Hco x c Hfl Hnd Hc Hcin)).
    assert (NoDup inw) as Hndinw by (by apply non_class_nodup).
    destruct (prediction_vector_ok pg what c Hcw) as (d0 & Hd0 & Hp0).
    destruct (resolve_columns (to_floats co what) col inw) as (specs & Hs & Hl & Hrows).
    { intros a Ha. apply Hinw in Ha as [Ha Hne]. destruct (Hcols a Ha Hne) as (_ & Hcol & _). by apply num_column. }
    destruct (num_iter co what Hflw Hndw inw specs Hit) as (rows & Hrows' & Hperm & Hfetch).
    { intros a Ha. apply Hinw in Ha as [Ha Hne]. destruct (Hcols a Ha Hne) as (_ & (s & Hsa & _) & _). eauto. }
    { exact Hs. }
    assert ((gr_size (to_floats co what)).2 = (gr_size what).2) as Esz.
    { cbn [to_floats lf_grid gr_size]. unfold lf_size. destruct (lf_parts what) as [-> _]. done. }
    rewrite Esz in Hrows. pose proof (resolve_attrs co what inw specs Hs) as Hattrs.
    (* where the inputs are *)
    set (js := map (λ a, default 0 (index_of (ml_attrs m') a)) inw).
    assert (∀ a, a ∈ inw → ∃ i, inputs !! i = Some a ∧ index_of (ml_attrs m') a = Some i ∧ i < I) as Hpos.
    { intros a Ha. apply Hinw in Ha as [Ha Hne]. assert (a ∈ inputs) as Hai by (apply Hinx; by rewrite <- Hall).
      apply elem_of_list_lookup in Hai as (i & Hi). exists i. split; [done|]. split; [by apply Hidx|]. by eapply lookup_lt_Some. }
    assert (I <= N) as HIN by (unfold N, sizes; rewrite sum_cons; lia).
    assert (NoDup js) as Hndj.
    { unfold js. change (map ?f) with (fmap (M:=list) f). apply (NoDup_fmap_2_strong _ inw); [|done]. intros a a' Ha Ha' E.
      destruct (Hpos a Ha) as (i & Hi & Hii & _). destruct (Hpos a' Ha') as (i' & Hi' & Hii' & _). rewrite Hii, Hii' in E. cbn in E. congruence. }
    assert (Forall2 (λ s j, sp_attr s ∈ gr_all_attrs what ∧ same (sp_attr s) = true ∧ index_of (ml_attrs m') (sp_attr s) = Some j ∧ j < N) specs js) as HF.
    { unfold js. rewrite <- Hattrs. change (map ?f) with (fmap (M:=list) f). rewrite <- list_fmap_compose. apply Forall2_fmap_r, Forall_Forall2_diag.
      apply Forall_forall. intros s Hin. assert (sp_attr s ∈ inw) as Ha by (rewrite <- Hattrs; apply elem_of_list_fmap; eauto).
      destruct (Hpos _ Ha) as (i & _ & Hii & Hlt). cbn. rewrite Hii. cbn. apply Hinw in Ha as [Ha Hne].
      split; [done|]. split; [by apply Hcols|]. split; [done|lia]. }
    (* one row *)
    set (inp := λ r i, default float_zero (a ← inputs !! i; Some (col a r))).
    assert (∀ r, r < (gr_size what).2 → ∃ out, layers_say exp N I W b (inp r) out ∧
      ∀ raws, res_mapM (λ s, gr_get (to_floats co what) s r) specs = Ok raws →
      ∃ v a, input_vector same m' what N specs raws = Ok v ∧ activate float64 n v (2 + length (ml_layers m')) = Ok a ∧
        ∀ j, j < N → mx_at a j 0 = Ok (out j)) as Hrow.
    { intros r Hr. set (x0 := λ i (k : nat), inp r i).
      assert (∀ i k, i < I → plain (x0 i k)) as Hpl.
      { intros i k Hi. unfold x0, inp. destruct (lookup_lt_is_Some_2 inputs i Hi) as (a & Ha). rewrite Ha. cbn.
        assert (a ∈ inputs) as Hai by (apply elem_of_list_lookup; eauto). apply Hinx in Hai as [Hai Hne].
        apply Hcols; [by rewrite Hall|done|done]. }
      destruct (C116_settles n N I (length sizes - 1) (layer_of sizes) W b (start_funcs exp I) 1 x0 HIN Hh Hff Hpl) as (out & _ & Hout & Hany).
      exists (λ j, out j 0). split.
      - destruct (Hout 0 ltac:(lia)) as [H1 H2]. split; [exact H1|]. intros j Hj1 Hj2. rewrite (H2 j Hj1 Hj2). unfold start_funcs.
        assert (j <? I = false) as -> by (apply Nat.ltb_ge; lia). done.
      - intros raws Hraws. destruct (Hrows r Hr) as (raws' & Hraws' & Hvals). rewrite Hraws in Hraws'. injection Hraws' as <-.
        assert (length raws = length specs) as Hlr by (apply res_mapM_Ok, Forall2_length in Hraws; done).
        destruct (input_vector_ok same m' what N specs raws (map (λ a, col a r) inw) js Hlr Hvals HF Hndj) as (fx & Hv & Hin & _).
        exists (tab N 1 (λ j _, fx j 0)), (tab N 1 out). split; [rewrite Hv; f_equal; apply tab_ext; intros i k _ Hk; by replace k with 0 by lia|]. split.
        + apply Hany; [rewrite Hlay; unfold sizes; cbn [length]; rewrite app_length; cbn; lia|].
          intros i k Hi. unfold x0, inp. destruct (lookup_lt_is_Some_2 inputs i Hi) as (a & Ha). rewrite Ha. cbn.
          assert (a ∈ inputs) as Hai by (apply elem_of_list_lookup; eauto). apply Hinx in Hai as [Hai Hne].
          assert (a ∈ inw) as Haw by (apply Hinw; by rewrite Hall). apply elem_of_list_lookup in Haw as (q & Hq).
          assert (fx i 0 = col a r) as E.
          { apply (Hin q i (col a r)).
            - unfold js. change (map ?f) with (fmap (M:=list) f). rewrite list_lookup_fmap, Hq. cbn. by rewrite (Hidx i a Ha).
            - change (map ?f) with (fmap (M:=list) f). by rewrite list_lookup_fmap, Hq. }
          exact E.
        + intros j Hj. by rewrite (mx_at_tab N 1 out j 0) by lia. }
    destruct (exists_for (λ _, float_zero) (gr_size what).2 _ Hrow) as (say & Hsay).
    exists n, W, b. unfold ml_predict. rewrite Hd0. cbn [mbind res_bind].
    assert (class_attrs_in_order d0 (order (map_to_list (d_class d0))) = [c]) as -> by (apply (predicted_class_attrs _ _ _ _ _ _ Hp0), Ho).
    change (count_modes [c]) with (Ok (1, 0)). cbn [mbind res_bind fst snd Nat.ltb Nat.leb andb].
    rewrite Hn. change (non_class_attrs ao (to_floats co what)) with inw. rewrite Hs. cbn [mbind res_bind res_mapM].
    rewrite (predicted_find _ _ _ _ _ Hp0). cbn [mbind res_bind].
    unfold map_over_rows. rewrite Hrows'. set (bb := λ r, pack_float (say r (N - 1))).
    assert (n_size n = N) as HN by apply Hh.
    match goal with |- context [run_rows ?f d0 rows] => destruct (run_rows_stores pg c (gr_size what).2 f bb rows) with (d := d0) (h := λ _ : nat, @None (list BinNums.N)) as (d' & Hrun & Hp') end.
    { intros i fetch d Hin. assert (i < (gr_size what).2) as Hi.
      { apply (elem_of_list_fmap_1 fst) in Hin. change (fst <$> rows) with (map fst rows) in Hin.
        rewrite Hperm in Hin. apply elem_of_seq in Hin. cbn in Hin. lia. }
      split; [done|]. destruct (Hrows i Hi) as (raws & Hraws & _). exists raws. split; [by apply (Hfetch i fetch Hin)|].
      split; [|done]. destruct (Hsay i Hi) as (_ & Hv). destruct (Hv raws Hraws) as (v & a & H1 & H2 & H3). rewrite HN, H1. cbn [mbind res_bind].
      rewrite H2. cbn [mbind res_bind res_foldl sp_attr]. rewrite Hsc, Hidc. change (default 0 (Some (N - 1))) with (N - 1). rewrite (H3 (N - 1)) by (clear -HI HIN; clearbody N; lia).
      cbn [mbind res_bind]. unfold bb. destruct (dense_set _ _ _ _); done. }
    { exact Hp0. }
    rewrite Hrun. cbn [mbind res_bind fst]. exists d', say. split; [done|]. split; [done|]. split; [exact Hnext|].
    split; [intros r Hr; by apply Hsay|]. split; [done|].
    assert (predicted pg c (gr_size what).2 (λ i, if bool_decide (i ∈ map fst rows) then Some (bb i) else None) d') as Hp by exact Hp'.
    cbn [dense_grid gr_class_attrs gr_size snd gr_get_attribute gr_get].
    split; [apply (predicted_class_attrs _ _ _ _ _ _ Hp), Ho'|].
    split; [destruct Hp as (_ & Hmr & _); exact Hmr|].
    exists (Spec 0 0 c). split; [by apply (predicted_find _ _ _ _ _ Hp)|].
    intros r Hr. assert (r < (gr_size what).2) as Hrn by (destruct Hp as (_ & Hmr & _); cbn in Hr; lia).
    cbn [dense_grid gr_get]. rewrite (predicted_get _ _ _ _ _ _ Hp Hrn).
    rewrite bool_decide_eq_true_2 by (rewrite Hperm; apply elem_of_seq; lia). eexists. split; [reflexivity|].
    cbn [cell_value default_kind c]. unfold bb. apply unpack_pack_float.
  Qed.
End predict.
