(** Predictions of layered networks. *)
From Coq Require Import Reals.
From Verif Require Import Prelude DenseProofs BytesModel BytesProofs FloatModel AttrModel AttrProofs StoreModel DenseModel DenseSpec GridModel GridSpec GridProofs
  FilterModel FilterSpec FilterProofs PredModel PredProofs BagModel
  CartModel MetricModel MetricSpec NeuralModel NeuralSpec NeuralProofs PercModel LinSpec LinProofs LayerModel LayerSpec LayerProofs LayerTrain.
From Flocq Require Import IEEE754.BinarySingleNaN IEEE754.Bits IEEE754.Binary.
Local Open Scope nat_scope.

Lemma map_rows_ext {S} g asv (f f' : S → list (list N) → nat → res (S * cb)) s :
  (∀ s row i, f s row i = f' s row i) → map_over_rows g asv f s = map_over_rows g asv f' s.
Proof.
  intros H. unfold map_over_rows. destruct (gr_iter g asv) as [rows| |]; [|done|done].
  revert s. induction rows as [|[i fetch] rows IH]; intros s; [done|]. cbn [run_rows]. destruct fetch as [buf| |]; [|done|done].
  cbn [mbind res_bind]. rewrite H. destruct (f' s buf i) as [[s1 []]| |]; cbn [mbind res_bind]; [apply IH|done|done|done|done].
Qed.

Section below.
  Notation fl := float64.
  Context (exp : binary64 → binary64) (sizes : list nat) (N I : nat).

  Lemma lower W : (∀ s t, s < N → t < N → ¬ (s = t ∧ t < I) → a_eqb fl (W t s) (a_zero fl) = false → next_layer sizes s t) →
    ∀ s t, s < N → t < N → a_eqb fl (W t s) (a_zero fl) = false → s <= t.
  Proof.
    intros H s t Hs Ht Hz. destruct (decide (s = t)) as [->|Hne]; [done|]. apply H in Hz as (H1 & H2 & H3); [|done|done|by intros [? _]].
    destruct (decide (s <= t)); [done|]. pose proof (layer_mono sizes t s ltac:(lia) H1). lia.
  Qed.

  Lemma activate_below n n2 k x rounds : wired exp sizes N I n → sound_net n2 → agree_below k n n2 → k <= N → shaped N 1 x →
    ∃ y y2, activate fl n x rounds = Ok y ∧ activate fl n2 x rounds = Ok y2 ∧ shaped N 1 y ∧ shaped N 1 y2 ∧
      ∀ i, i < k → mx_at y2 i 0 = mx_at y i 0.
  Proof.
    intros (W & b & Hh & _ & Hc & _) Hs2 (HN2 & HI2 & Hag) Hk Hx.
    assert (n_size n = N) as HN by apply Hh. assert (n_input n = I) as HI by apply Hh.
    destruct (sound_holds fl n2 Hs2) as (W2 & b2 & f2 & Hh2). rewrite HN2, HI2, HN, HI in Hh2.
    destruct (col_tab N x Hx) as [fx ->].
    eexists _, _. split; [by apply (activate_ok fl n N I W b (start_funcs exp I))|]. split; [by apply (activate_ok fl n2 N I W2 b2 f2)|].
    split; [apply tab_shaped|]. split; [apply tab_shaped|]. intros i Hi. rewrite !mx_at_tab by lia. f_equal.
    revert i Hi. induction rounds as [|r IH]; intros i Hi; [done|]. rewrite !Nat.iter_succ. unfold round at 1 3.
    destruct (Hag i Hi) as (Hw & Hb & Hf).
    assert (f2 i = start_funcs exp I i) as ->.
    { destruct Hh as (_ & _ & Hf1 & _). destruct Hh2 as (_ & _ & Hf2 & _). rewrite Hf1, Hf2 in Hf.
      change (map ?g) with (fmap (M:=list) g) in Hf. rewrite !list_lookup_fmap, !lookup_seq_lt in Hf by lia. cbn in Hf. by injection Hf. }
    assert (b2 i = b i) as ->.
    { rewrite (get_bias_ok n2 N I W2 b2 f2), (get_bias_ok n N I W b (start_funcs exp I)) in Hb by (done || lia). by injection Hb. }
    f_equal. f_equal. rewrite (wsum_ext fl (W2 i) (W i) (λ k, Nat.iter r (round fl N W2 b2 f2) fx k 0) (λ k, Nat.iter r (round fl N W2 b2 f2) fx k 0) N).
    - apply wsum_heard. intros s Hs Hz. apply IH. pose proof (lower W Hc s i Hs ltac:(lia) Hz). lia.
    - intros s Hs. specialize (Hw s ltac:(lia)). rewrite (get_weight_ok n2 N I W2 b2 f2), (get_weight_ok n N I W b (start_funcs exp I)) in Hw by (done || lia).
      by injection Hw.
    - done.
  Qed.
End below.

Lemma strongest_ext offset count (a a' : mx binary64) : (∀ i, offset <= i → i < offset + count → mx_at a' i 0 = mx_at a i 0) →
  strongest offset count a' = strongest offset count a.
Proof.
  intros H. unfold strongest. assert (∀ l acc, (∀ i, i ∈ l → mx_at a' i 0 = mx_at a i 0) →
    res_foldl (λ '(mi, mv) i, v ← mx_at a' i 0; if gt64 v mv then Ok (i, v) else Ok (mi, mv)) acc l =
    res_foldl (λ '(mi, mv) i, v ← mx_at a i 0; if gt64 v mv then Ok (i, v) else Ok (mi, mv)) acc l) as E.
  { induction l as [|i l IH]; intros [mi mv] Hl; [done|]. cbn [res_foldl]. rewrite (Hl i) by left. destruct (mx_at a i 0) as [v| |]; [|done|done].
    cbn [mbind res_bind]. destruct (gt64 v mv); cbn [mbind res_bind]; apply IH; intros j Hj; apply Hl; by right. }
  rewrite E; [done|]. intros i Hi. apply elem_of_seq in Hi. apply H; lia.
Qed.

Lemma input_vector_shaped same m what N specs row x : input_vector same m what N specs row = Ok x → shaped N 1 x.
Proof.
  unfold input_vector. intros H.
  match type of H with res_foldl ?f _ _ = _ => assert (∀ l x0 x, shaped N 1 x0 → res_foldl f x0 l = Ok x → shaped N 1 x) as E end.
  { clear. induction l as [|[i vb] l IH]; intros x0 x H0; cbn [res_foldl]; [by intros [= <-]|]. intros H. apply bind_Ok in H as (x1 & H1 & H).
    revert H. apply IH. apply bind_Ok in H1 as (s & _ & H1). destruct (if _ && _ then _ else _); [|done]. apply bind_Ok in H1 as (v & _ & H1).
    exact (mx_set_shaped _ _ _ _ _ _ _ H0 H1). }
  eapply E; [|exact H]. apply tab_shaped.
Qed.

Section categorical.
  Variable co ao : list attr → list attr.
  Variable order : list ((nat * nat) * bool) → list ((nat * nat) * bool).
  Context (Ho : any_order order).
  Context (pg : nat) (same : attr → bool).

  (** One turn of the loop of Predict, for a categorical class. *)
  Definition cat_step (m : mlnet) (n : network binary64) (what : grid) (ispecs : list spec) (s : spec)
      (ret : dense) (row : list (list N)) (rc : nat) : res (dense * cb) :=
    x ← input_vector same m what (n_size n) ispecs row;
    a ← activate float64 n x (2 + length (ml_layers m));
    code ← strongest (ml_offset m) (ml_count m) a;
    ret ← dense_set ret s rc (pack_u64 code);
    Ok (ret, Cont).

  Lemma cat_predict what nm vs : gr_class_attrs what = [CatA nm vs] →
    ∃ d0, predicted pg (CatA nm vs) (gr_size what).2 (λ _, None) d0 ∧ ∀ m,
    ml_predict co ao order pg same m what =
    match ml_network m with
    | None => Panic
    | Some n =>
        ispecs ← resolve (to_floats co what) (non_class_attrs ao (to_floats co what));
        r ← map_over_rows (to_floats co what) ispecs (cat_step m n what ispecs (Spec 0 0 (CatA nm vs))) d0;
        Ok r.1
    end.
  Proof.
    intros Hc. destruct (prediction_vector_ok pg what _ Hc) as (d0 & Hd0 & Hp0). exists d0. split; [done|]. intros m.
    unfold ml_predict. rewrite Hd0. cbn [mbind res_bind].
    assert (class_attrs_in_order d0 (order (map_to_list (d_class d0))) = [CatA nm vs]) as -> by (apply (predicted_class_attrs _ _ _ _ _ _ Hp0), Ho).
    change (count_modes [CatA nm vs]) with (Ok (0, 1)). cbn [mbind res_bind fst snd Nat.ltb Nat.leb andb].
    destruct (ml_network m) as [n|]; [|done]. destruct (resolve _ _) as [ispecs| |]; [|done|done]. cbn [mbind res_bind res_mapM].
    rewrite (predicted_find _ _ _ _ _ Hp0). cbn [mbind res_bind].
    match goal with |- (r ← map_over_rows ?g ?l ?f d0; _) = _ => rewrite (map_rows_ext g l f (cat_step m n what ispecs (Spec 0 0 (CatA nm vs)))); [done|] end.
    intros ret row rc. unfold cat_step. destruct (input_vector _ _ _ _ _ _) as [x| |]; [|done|done]. cbn [mbind res_bind].
    destruct (activate _ _ _ _) as [a| |]; [|done|done]. cbn [mbind res_bind]. destruct (strongest _ _ _) as [code| |]; [|done|done].
    cbn [mbind res_bind]. unfold idx. cbn [lookup list_lookup]. cbn [mbind res_bind]. done.
  Qed.

  (** Nodes that Predict does not read do not matter. *)
  Lemma predict_below exp sizes N I m n n2 what nm vs k : gr_class_attrs what = [CatA nm vs] →
    ml_network m = Some n → wired exp sizes N I n → sound_net n2 → agree_below k n n2 → k <= N → ml_offset m + ml_count m <= k →
    ml_predict co ao order pg same (with_network m n2) what = ml_predict co ao order pg same m what.
  Proof using Ho.
    intros Hc Hn Hw Hs2 Hag Hk Hle. destruct (cat_predict what nm vs Hc) as (d0 & _ & E). rewrite !E, Hn. cbn [with_network ml_network].
    destruct (resolve _ _) as [ispecs| |]; [|done|done]. cbn [mbind res_bind]. f_equal. apply map_rows_ext. intros ret row rc. unfold cat_step.
    cbn [ml_layers ml_offset ml_count with_network].
    change (input_vector same (with_network m n2) what) with (input_vector same m what).
    assert (n_size n2 = n_size n) as -> by apply Hag. assert (n_size n = N) as HN by (destruct Hw as (W & b & Hh & _); apply Hh).
    rewrite HN. destruct (input_vector _ _ _ _ _ _) as [x| |] eqn:Ex; [|done|done]. cbn [mbind res_bind]. apply input_vector_shaped in Ex.
    destruct (activate_below exp sizes N I n n2 k x (2 + length (ml_layers m)) Hw Hs2 Hag Hk Ex) as (y & y2 & -> & -> & _ & _ & Hy).
    cbn [mbind res_bind]. rewrite (strongest_ext _ _ y y2); [done|]. intros i H1 H2. apply Hy. lia.
  Qed.

  (** Reading one node. *)
  Lemma strongest_one offset a code : strongest offset 1 a = Ok code →
    code = 0%N ∨ code = Z.to_N ((- Z.of_nat offset) mod 2 ^ 64).
  Proof using.
    unfold strongest. cbn [seq res_foldl]. intros H. apply bind_Ok in H as ([mi mv] & H & [= <-]). apply bind_Ok in H as (r & H & [= ->]).
    apply bind_Ok in H as (v & _ & H). cbn [fst]. destruct (gt64 v float_zero).
    - injection H as <- <-. left. by rewrite Z.sub_diag.
    - injection H as <- <-. right. done.
  Qed.

  Lemma lf_rows_below l asv rows : iter_agrees (lf_src l) → lf_iter l asv = Ok rows →
    map fst rows ≡ₚ seq 0 (gr_size (lf_src l)).2 ∧
    ∀ i fetch buf, (i, fetch) ∈ rows → fetch = Ok buf → length buf = length asv.
  Proof using.
    intros Hit H. unfold lf_iter in H. apply bind_Ok in H as (olds & Holds & H). apply bind_Ok in H as (rows0 & Hrows & [= <-]).
    destruct (Hit olds) as (rows1 & Hr & Hp & Hf). rewrite Hrows in Hr. injection Hr as <-. split.
    - rewrite map_map. rewrite (map_ext _ fst); [done|]. by intros [i fetch].
    - intros i fetch buf Hin ->. apply elem_of_list_fmap in Hin as ([i' fetch'] & [= -> E] & Hin). rewrite (Hf _ _ Hin) in E.
      symmetry in E. apply bind_Ok in E as (raws & Hraws & E). apply res_mapM_Ok in Holds, Hraws. apply Forall2_length in Holds, Hraws.
      rewrite Holds. rewrite Hraws. clear -E. revert olds asv buf E. induction raws as [|b raws IH]; intros olds asv buf E.
      + destruct olds; by injection E as <-.
      + destruct olds as [|o olds], asv as [|s asv]; [done|done|done|]. apply bind_Ok in E as (b' & _ & E). apply bind_Ok in E as (rest & E & [= <-]).
        cbn. f_equal. by eapply IH.
  Qed.

  (** What the loop did with a row, when it came through. *)
  Lemma cat_rows m n what ispecs s d0 r : iter_agrees what →
    map_over_rows (to_floats co what) ispecs (cat_step m n what ispecs s) d0 = Ok r →
    gr_iter (to_floats co what) ispecs = Err ∨
    ∃ rows, gr_iter (to_floats co what) ispecs = Ok rows ∧ map fst rows ≡ₚ seq 0 (gr_size what).2 ∧
      ∀ i fetch, (i, fetch) ∈ rows → ∃ row x a code, length row = length ispecs ∧ input_vector same m what (n_size n) ispecs row = Ok x ∧
        activate float64 n x (2 + length (ml_layers m)) = Ok a ∧ strongest (ml_offset m) (ml_count m) a = Ok code.
  Proof using.
    intros Hit H. unfold map_over_rows in H. destruct (gr_iter _ ispecs) as [rows| |] eqn:Ei; [|by left|done]. right. exists rows. split; [done|].
    assert (lf_src (new_lfiltered what (float_filter (float_train convert_new (gr_all_attrs what)))) = what) as Hsrc.
    { unfold new_lfiltered. generalize (gr_class_attrs what). assert (∀ l l0, lf_src l0 = what → lf_src (foldl (λ l c, match lf_add_class l c with Ok l' => l' | _ => l end) l0 l) = what) as E.
      { induction l as [|c l IH]; intros l0 H0; [done|]. cbn [foldl]. apply IH. unfold lf_add_class. destruct (lf_unfiltered l0 c); [done|].
        destruct (map snd _); done. }
      intros l. by apply E. }
    destruct (lf_rows_below _ ispecs rows ltac:(by rewrite Hsrc) Ei) as [Hp Hlen]. rewrite Hsrc in Hp. split; [done|].
    clear Hp Ei. revert d0 H Hlen. induction rows as [|[i0 fetch0] rows IH]; intros d0 H Hlen i fetch Hin; [by apply elem_of_nil in Hin|].
    cbn [run_rows] in H. apply bind_Ok in H as (row & Hfetch & H). apply bind_Ok in H as ([d1 c] & H1 & H).
    unfold cat_step in H1. apply bind_Ok in H1 as (x & Hx & H1). apply bind_Ok in H1 as (a & Ha & H1). apply bind_Ok in H1 as (code & Hcode & H1).
    apply bind_Ok in H1 as (d2 & _ & [= <- <-]).
    apply elem_of_cons in Hin as [[= -> ->]|Hin].
    - exists row, x, a, code. split; [|done]. refine (Hlen i0 fetch0 row _ Hfetch). left.
    - eapply IH; [exact H| |exact Hin]. intros i' f' buf Hin'. apply (Hlen i' f'). by right.
  Qed.
End categorical.

(** ** What conversion does to a grid *)

Section convert.
  Variable co : list attr → list attr.
  Context (g : grid).
  Notation cv := (float_train convert_new (gr_all_attrs g)).
  Notation lf := (new_lfiltered g (float_filter cv)).

  Lemma converted_elem p : p ∈ cv_converted cv ↔ p.1 ∈ gr_all_attrs g ∧ p.2 ∈ float_columns p.1.
  Proof.
    rewrite float_converted. cbn [convert_new cv_converted app]. rewrite elem_of_list_In, in_concat. split.
    - intros (l & Hl & Hp). apply in_map_iff in Hl as (a & <- & Ha). apply in_map_iff in Hp as (n & <- & Hn). cbn.
      by rewrite !elem_of_list_In.
    - intros [H1 H2]. destruct p as [a n]. cbn in *. exists (map (λ n, (a, n)) (float_columns a)). split.
      + apply in_map_iff. exists a. split; [done|]. by apply elem_of_list_In.
      + apply in_map_iff. exists n. split; [done|]. by apply elem_of_list_In.
  Qed.

  Lemma columns_nonempty a : float_columns a ≠ [].
  Proof. destruct a as [| n vs|]; cbn; [done| |done]. destruct (decide _) as [H|H]; [done|]. destruct vs; [cbn in H; lia|done]. Qed.

  Lemma lf_parts : lf_src lf = g ∧ lf_filter lf = float_filter cv.
  Proof.
    unfold new_lfiltered. generalize (gr_class_attrs g). assert (∀ f l l0, lf_src l0 = g ∧ lf_filter l0 = f →
      lf_src (foldl (λ l c, match lf_add_class l c with Ok l' => l' | _ => l end) l0 l) = g ∧
      lf_filter (foldl (λ l c, match lf_add_class l c with Ok l' => l' | _ => l end) l0 l) = f) as E.
    { intros f. induction l as [|c l IH]; intros l0 H0; [done|]. cbn [foldl]. apply IH. unfold lf_add_class. destruct (lf_unfiltered l0 c); [done|].
      destruct (map snd _); done. }
    intros l. by apply E.
  Qed.

  Lemma all_filtered l a : lf_src l = g → lf_filter l = float_filter cv → lf_unfiltered l a = false.
  Proof.
    intros H1 H2. unfold lf_unfiltered. rewrite H1, H2. cbn [fl_attrs float_filter].
    destruct (existsb (λ p, bool_decide (p.1 = a)) (cv_converted cv)) eqn:E; [done|].
    destruct (existsb (λ b, bool_decide (b = a)) (gr_all_attrs g)) eqn:E2; [|done]. apply existsb_exists in E2 as (b & Hb & Hd).
    apply bool_decide_eq_true in Hd as ->. exfalso. assert (existsb (λ p, bool_decide (p.1 = a)) (cv_converted cv) = true); [|congruence].
    apply existsb_exists. destruct (float_columns a) as [|n l'] eqn:Ec; [by apply columns_nonempty in Ec|].
    exists (a, n). split; [|by apply bool_decide_eq_true]. apply elem_of_list_In, converted_elem. cbn. split; [by apply elem_of_list_In|]. rewrite Ec. left.
  Qed.

  Lemma converted_attr a : gr_get_attribute (to_floats co g) a = Err ∨ ∃ i, gr_get_attribute (to_floats co g) a = Ok (Spec 0 i a).
  Proof.
    cbn [to_floats lf_grid gr_get_attribute]. unfold lf_get_attribute. destruct lf_parts as [H1 H2]. rewrite (all_filtered _ a H1 H2).
    destruct (lf_find_new _ _ _) as [i|]; [right; eauto|by left].
  Qed.

  Lemma resolve_attrs attrs specs : resolve (to_floats co g) attrs = Ok specs → map sp_attr specs = attrs.
  Proof.
    unfold resolve. revert specs. induction attrs as [|a attrs IH]; intros specs H; cbn [res_mapM] in H; [by injection H as <-|].
    apply bind_Ok in H as (s & Hs & H). apply bind_Ok in H as (ss & Hss & [= <-]). cbn [map]. rewrite (IH ss Hss). f_equal.
    destruct (converted_attr a) as [E|[i E]]; rewrite E in Hs; [done|by injection Hs as <-].
  Qed.

  (** The new columns of a single class. *)
  Lemma converted_class c : gr_class_attrs g = [c] → ∀ a, a ∈ lf_class lf →
    ∃ p, p ∈ gr_all_attrs g ∧ a ∈ float_columns p ∧ (attr_equals p c = true ∨ attr_equals a c = true).
  Proof.
    intros Hc a Ha. unfold new_lfiltered in Ha. rewrite Hc in Ha. cbn [foldl] in Ha. unfold lf_add_class in Ha.
    rewrite all_filtered in Ha by done. cbn [lf_filter lf_src lf_class fl_attrs float_filter] in Ha.
    set (news := map snd (filter (λ p, attr_equals p.1 c || attr_equals p.2 c = true) (cv_converted cv))) in *.
    assert (a ∈ news) as Hn.
    { destruct news as [|n l] eqn:En; [by apply elem_of_nil in Ha|]. cbn [lf_class] in Ha. rewrite <- En in *.
      apply class_put_all in Ha as [Ha|Ha]; [done|by apply elem_of_nil in Ha]. }
    apply elem_of_list_fmap in Hn as (p & -> & Hp). apply elem_of_list_filter in Hp as [Hp1 Hp2]. apply converted_elem in Hp2 as [H1 H2].
    exists p.1. split; [done|]. split; [done|]. by apply orb_true_iff.
  Qed.

  Lemma converted_all a b : b ∈ gr_all_attrs g → a ∈ float_columns b → a ∈ gr_all_attrs (to_floats co g).
  Proof.
    intros Hb Ha. cbn [to_floats lf_grid gr_all_attrs]. unfold lf_all_attrs. destruct lf_parts as [H1 H2]. rewrite elem_of_list_In, in_concat.
    exists (map snd (filter (λ p, attr_equals b p.1 = true) (cv_converted cv))). split.
    - apply in_map_iff. exists b. rewrite (all_filtered _ b H1 H2), H1, H2. split; [done|]. by apply elem_of_list_In.
    - apply in_map_iff. exists (b, a). split; [done|]. apply elem_of_list_In, elem_of_list_filter. split; [apply attr_equals_refl|].
      apply converted_elem. done.
  Qed.
End convert.

Lemma non_class_elem ao g a : any_order ao → a ∈ non_class_attrs ao g ↔ a ∈ gr_all_attrs g ∧ a ∉ gr_class_attrs g.
Proof.
  intros Hao. unfold non_class_attrs. apply (difference_refs_spec (gr_all_attrs g) (gr_class_attrs g)). apply Hao.
Qed.

Lemma non_class_nodup ao g : any_order ao → NoDup (non_class_attrs ao g).
Proof.
  intros Hao. unfold non_class_attrs. apply (difference_refs_spec (gr_all_attrs g) (gr_class_attrs g)). apply Hao.
Qed.

(** Every spec of an input vector that came through is known. *)
Lemma input_vector_known same m what N specs row x : length row = length specs → input_vector same m what N specs row = Ok x →
  ∀ s, s ∈ specs → sp_attr s ∈ gr_all_attrs what.
Proof.
  unfold input_vector. intros Hlen H s Hs. apply elem_of_list_lookup in Hs as (i & Hi).
  match type of H with res_foldl ?f _ _ = _ => assert (∀ row d x0, res_foldl f x0 (imap (λ i, pair (d + i)) row) = Ok x →
    ∀ j s, j < length row → specs !! (d + j) = Some s → sp_attr s ∈ gr_all_attrs what) as E end.
  { clear. induction row as [|vb row IH]; intros d x0 H j s Hj Hs; [cbn in Hj; lia|]. cbn [imap res_foldl] in H. rewrite Nat.add_0_r in H.
    apply bind_Ok in H as (x1 & H1 & H). destruct j as [|j].
    - rewrite Nat.add_0_r in Hs. unfold idx in H1. rewrite Hs in H1. cbn [mbind res_bind] in H1.
      destruct (bool_decide (sp_attr s ∈ gr_all_attrs what)) eqn:E; [by apply bool_decide_eq_true in E|done].
    - apply (IH (S d) x1) with (j := j); [|cbn in Hj; lia|by replace (S d + j) with (d + S j) by lia].
      rewrite <- H. f_equal. apply imap_ext. intros k z _. cbn. by replace (d + S k) with (S d + k) by lia. }
  apply (E row 0 _ H i s); [apply lookup_lt_Some in Hi; lia|done].
Qed.

Section cases.
  Variable co ao : list attr → list attr.
  Variable order : list ((nat * nat) * bool) → list ((nat * nat) * bool).
  Context (Ho : any_order order) (Hao : any_order ao).
  Context (pg : nat) (same : attr → bool) (what : grid).
  Context (Hit : iter_agrees what).

  Lemma converted_readable asv : (∀ s, s ∈ asv → ∃ p o, lf_match (cv_converted (float_train convert_new (gr_all_attrs what))) (sp_attr s) = Some p ∧
    gr_get_attribute what p.1 = Ok o) → ∃ rows, gr_iter (to_floats co what) asv = Ok rows.
  Proof using Hit.
    intros H. cbn [to_floats lf_grid gr_iter]. unfold lf_iter. destruct (lf_parts what) as [H1 H2].
    assert (∃ olds, res_mapM (lf_old (new_lfiltered what (float_filter (float_train convert_new (gr_all_attrs what))))) asv = Ok olds) as (olds & ->).
    { induction asv as [|s asv IH]; [by exists []|]. destruct IH as (olds & Holds); [intros s' Hs'; apply H; by right|].
      destruct (H s) as (p & o & Hp & Hg); [left|]. cbn [res_mapM].
      assert (lf_old (new_lfiltered what (float_filter (float_train convert_new (gr_all_attrs what)))) s = Ok o) as ->.
      { unfold lf_old. rewrite (all_filtered what _ _ H1 H2), H1, H2. cbn [float_filter fl_attrs]. by rewrite Hp, Hg. }
      cbn [mbind res_bind]. rewrite Holds. by eexists. }
    cbn [mbind res_bind]. rewrite H1. destruct (Hit olds) as (rows & -> & _). cbn [mbind res_bind]. by eexists.
  Qed.

  Context (Hres : ∀ a, a ∈ gr_all_attrs what → ∃ s, gr_get_attribute what a = Ok s).

  Lemma lf_match_first l (c : attr) p : p ∈ l → attr_equals p.2 c = true → ∃ q, lf_match l c = Some q ∧ q ∈ l.
  Proof using.
    induction l as [|q l IH]; intros Hp Hc; [by apply elem_of_nil in Hp|]. cbn [lf_match].
    destruct (attr_equals q.1 c || attr_equals q.2 c) eqn:E; [exists q; split; [done|left]|].
    apply elem_of_cons in Hp as [->|Hp]; [by rewrite Hc, orb_true_r in E|]. destruct (IH Hp Hc) as (r & H1 & H2). exists r. split; [done|by right].
  Qed.

  Lemma inputs_readable ispecs : resolve (to_floats co what) (non_class_attrs ao (to_floats co what)) = Ok ispecs →
    ∃ rows, gr_iter (to_floats co what) ispecs = Ok rows.
  Proof using Hit Hres Hao.
    intros H. apply converted_readable. intros s Hs. apply resolve_attrs in H.
    assert (sp_attr s ∈ non_class_attrs ao (to_floats co what)) as Ha by (rewrite <- H; apply elem_of_list_fmap; eauto).
    apply non_class_elem in Ha as [Ha _]; [|done]. cbn [to_floats lf_grid gr_all_attrs] in Ha. unfold lf_all_attrs in Ha.
    destruct (lf_parts what) as [H1 H2]. rewrite elem_of_list_In, in_concat in Ha. destruct Ha as (l & Hl & Ha).
    apply in_map_iff in Hl as (b & <- & Hb). rewrite (all_filtered what _ b H1 H2), H2 in Ha. cbn [float_filter fl_attrs] in Ha.
    apply in_map_iff in Ha as (p & Hp & Hin). apply elem_of_list_In, elem_of_list_filter in Hin as [_ Hin].
    destruct (lf_match_first _ (sp_attr s) p Hin) as (q & Hq & Hqin); [rewrite Hp; apply attr_equals_refl|].
    apply converted_elem in Hqin as [Hq1 _]. destruct (Hres _ Hq1) as (o & Ho'). eauto.
  Qed.

  (** A prediction that came through has treated every row. *)
  Lemma predict_rows m d nm vs : gr_class_attrs what = [CatA nm vs] → (gr_size what).2 ≠ 0 →
    ml_predict co ao order pg same m what = Ok d → ∃ n ispecs row x a code, ml_network m = Some n ∧
      resolve (to_floats co what) (non_class_attrs ao (to_floats co what)) = Ok ispecs ∧
      length row = length ispecs ∧ input_vector same m what (n_size n) ispecs row = Ok x ∧
      activate float64 n x (2 + length (ml_layers m)) = Ok a ∧ strongest (ml_offset m) (ml_count m) a = Ok code.
  Proof using Ho Hit Hres Hao.
    intros Hc Hsz H. destruct (cat_predict co ao order Ho pg same what nm vs Hc) as (d0 & _ & E). rewrite E in H.
    destruct (ml_network m) as [n|]; [|done]. apply bind_Ok in H as (ispecs & Hi & H). apply bind_Ok in H as (r & Hr & [= <-]).
    destruct (inputs_readable ispecs Hi) as (rows & Hrows).
    apply cat_rows in Hr as [Hr|(rows' & Hr & Hp & Hall)]; [congruence| |done]. rewrite Hrows in Hr. injection Hr as <-.
    destruct rows as [|[i fetch] rows].
    - apply Permutation_nil_l in Hp. by destruct ((gr_size what).2).
    - destruct (Hall i fetch) as (row & x & a & code & H1 & H2 & H3 & H4); [left|]. exists n, ispecs, row, x, a, code. done.
  Qed.

  (** Inputs that conversion made are unknown. *)
  Lemma made_inputs_unknown m d nm vs a b : gr_class_attrs what = [CatA nm vs] → (gr_size what).2 ≠ 0 → any_order co →
    b ∈ gr_all_attrs what → a ∈ float_columns b → a ∉ gr_all_attrs what → attr_equals b (CatA nm vs) = false →
    (∀ p, p ∈ gr_all_attrs what → a ∈ float_columns p → p = b) →
    ml_predict co ao order pg same m what ≠ Ok d.
  Proof using Ho Hit Hres Hao.
    intros Hc Hsz Hco Hb Ha Hna Hbc Hown H. destruct (predict_rows m d nm vs Hc Hsz H) as (n & ispecs & row & x & y & code & _ & Hi & Hl & Hx & _).
    assert (a ∈ non_class_attrs ao (to_floats co what)) as Hin.
    { apply non_class_elem; [done|]. split; [by eapply converted_all|]. cbn [to_floats lf_grid gr_class_attrs]. rewrite Hco. intros Hcl.
      apply (converted_class what _ Hc) in Hcl as (p & H1 & H2 & [H3|H3]).
      - rewrite (Hown p H1 H2) in H3. congruence.
      - destruct b as [| n' vs'|]; cbn in Ha; [|destruct (decide _)|].
        + apply elem_of_list_singleton in Ha as ->. done.
        + apply elem_of_list_singleton in Ha as ->. done.
        + apply elem_of_list_In, in_map_iff in Ha as (v & <- & _). done.
        + apply elem_of_list_singleton in Ha as ->. done. }
    apply resolve_attrs in Hi. rewrite <- Hi in Hin. apply elem_of_list_fmap in Hin as (s & -> & Hs).
    apply Hna. eapply input_vector_known; [exact Hl|exact Hx|done].
  Qed.

  (** Reading beyond the last node. *)
  Lemma beyond_unread exp draw co' ao' m x m' d nm vs : gr_class_attrs what = [CatA nm vs] → (gr_size what).2 ≠ 0 →
    ml_fit exp draw co' ao' m x = Ok m' → ml_layers m = [] → 0 < ml_count m →
    ml_predict co ao order pg same m' what ≠ Ok d.
  Proof using Ho Hit Hres Hao.
    intros Hc Hsz Hfit Hlay Hcount H. destruct (predict_rows m' d nm vs Hc Hsz H) as (n & ispecs & row & xv & y & code & Hn & Hi & Hl & Hx & Hy & Hs).
    apply ml_fit_inv in Hfit as (n' & Hn' & Hw & _ & Hoff & Hcnt & _). rewrite Hn in Hn'. injection Hn' as <-. rewrite Hlay in Hw.
    set (I := length (non_class_attrs ao' (to_floats co' x))) in *. set (C := length (gr_class_attrs (to_floats co' x))) in *.
    set (N := sum_list (I :: [] ++ [C])) in *. assert (N = I + C) as HN by (unfold N; cbn [app]; rewrite !sum_cons, sum_nil; lia).
    assert (shaped N 1 y) as Hsh.
    { destruct Hw as (W & b & Hh & _). assert (n_size n = N) as E by apply Hh. rewrite E in Hx. apply input_vector_shaped in Hx.
      destruct (col_tab N xv Hx) as [fx ->]. rewrite (activate_ok float64 n N I W b (start_funcs exp I)) in Hy by done. injection Hy as <-. apply tab_shaped. }
    unfold strongest in Hs. apply bind_Ok in Hs as (r & Hs & _). replace (ml_count m') with (N - ml_offset m' + (1 + (ml_count m' - (N - ml_offset m') - 1))) in Hs by lia.
    rewrite seq_app, res_foldl_app in Hs. apply bind_Ok in Hs as ([mi mv] & _ & Hs). cbn [seq res_foldl Nat.add] in Hs.
    apply bind_Ok in Hs as (q & Hq & _). apply bind_Ok in Hq as (v & Hv & _). rewrite mx_at_out in Hv; [done|].
    destruct Hsh as (-> & -> & _). lia.
  Qed.
End cases.
