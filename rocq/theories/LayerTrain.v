(** Training keeps a layered network layered. *)
From Coq Require Import Reals.
From Verif Require Import Prelude DenseProofs BytesModel FloatModel AttrModel StoreModel DenseModel GridModel GridSpec FilterModel PredModel BagModel
  CartModel MetricModel MetricSpec NeuralModel NeuralSpec NeuralProofs PercModel LayerModel LayerSpec LayerProofs.
From Flocq Require Import IEEE754.BinarySingleNaN IEEE754.Bits IEEE754.Binary.
Local Open Scope nat_scope.

Lemma zero_faint x : a_eqb float64 x (a_zero float64) = true → gt64 (a_abs float64 x) faint64 = false.
Proof. cbn. destruct x as [s|s|s pl H|s m e H]; cbn; [vm_compute; done|by destruct s|done|by destruct s]. Qed.

Lemma zero_zero : a_eqb float64 (a_zero float64) (a_zero float64) = true.
Proof. by vm_compute. Qed.

Lemma mx_set_shaped {A} r c (x : mx A) i j v y : shaped r c x → mx_set x i j v = Ok y → shaped r c y.
Proof.
  unfold mx_set, shaped, well_formed. intros (H1 & H2 & H3). destruct (_ && _); [|done]. intros [= <-]. cbn. rewrite insert_length. done.
Qed.

Lemma run_rows_inv {S} (f : S → list (list N) → nat → res (S * cb)) (P : S → Prop) rows s s' b :
  (∀ s row i s' c, P s → f s row i = Ok (s', c) → P s') → P s → run_rows f s rows = Ok (s', b) → P s'.
Proof.
  intros Hf. revert s. induction rows as [|[i fetch] rows IH]; intros s Hs; cbn [run_rows].
  - by intros [= <- <-].
  - intros H. apply bind_Ok in H as (row & _ & H). apply bind_Ok in H as ([s1 c] & H1 & H).
    assert (P s1) by (by eapply Hf). destruct c; [by eapply IH| |]; by injection H as <- <-.
Qed.

Lemma over_rows_inv {S} g asv (f : S → list (list N) → nat → res (S * cb)) (P : S → Prop) s r :
  (∀ s row i s' c, P s → f s row i = Ok (s', c) → P s') → P s → map_over_rows g asv f s = Ok r → P r.1.
Proof.
  intros Hf Hs. unfold map_over_rows. destruct (gr_iter g asv) as [rows| |]; [|intros [= <-]; done|done].
  destruct r as [s' b]. by apply run_rows_inv.
Qed.

Section train.
  Variable exp : binary64 → binary64.
  Notation fl := float64.
  Context (sizes : list nat) (N I : nat).

  Definition wired (n : network binary64) : Prop := ∃ W b,
    holds_net n N I W b (start_funcs exp I) ∧ (∀ i, i < I → b i = a_zero fl ∧ W i i = a_one fl) ∧
    (∀ s t, s < N → t < N → ¬ (s = t ∧ t < I) → a_eqb fl (W t s) (a_zero fl) = false → next_layer sizes s t) ∧
    (∀ w, n_orig n = Some w → ∃ O, w = tab N N O ∧
       ∀ s t, s < N → t < N → s ≠ t → gt64 (a_abs fl (O t s)) faint64 = true → next_layer sizes s t).

  Lemma wired_step n out err rate : wired n → I <= N →
    ∃ n1 n2, update_weights fl gt64 faint64 n (tab N 1 out) (tab N 1 err) rate = Ok n1 ∧
      update_bias fl n1 (tab N 1 err) rate = Ok n2 ∧ wired n2.
  Proof.
    intros (W & b & Hh & Hi & Hc & Ho) HI.
    assert (∃ O, default (n_weights n) (n_orig n) = tab N N O ∧
      ∀ s t, s < N → t < N → s ≠ t → gt64 (a_abs fl (O t s)) faint64 = true → next_layer sizes s t) as (O & HO & HO').
    { destruct (n_orig n) as [w|] eqn:E.
      - destruct (Ho w eq_refl) as (O & -> & H). by exists O.
      - exists W. split; [apply Hh|]. intros s t Hs Ht Hne Hg. apply Hc; [done|done|by intros [? _]|].
        destruct (a_eqb fl (W t s) (a_zero fl)) eqn:Ez; [|done]. apply zero_faint in Ez. by rewrite Ez in Hg. }
    destruct (update_weights_ok fl gt64 faint64 n N I W b _ O out err rate Hh HO) as (n1 & Hn1 & Ho1 & Hh1).
    destruct (update_bias_ok fl n1 N I _ b _ err rate Hh1) as (n2 & Hn2 & Ho2 & Hh2).
    exists n1, n2. split; [done|]. split; [done|]. eexists _, _. split; [exact Hh2|]. split; [|split].
    - intros i Hii. cbn beta. assert (i <? I = true) as -> by (by apply Nat.ltb_lt). split; [by apply Hi|]. unfold moved.
      rewrite Nat.eqb_refl. by apply Hi.
    - intros s t Hs Ht Hne. unfold moved. destruct (t =? s) eqn:E.
      + by apply Hc.
      + apply Nat.eqb_neq in E. destruct (gt64 (a_abs fl (O t s)) faint64) eqn:G.
        * intros _. apply HO'; auto.
        * rewrite zero_zero. done.
    - intros w Hw. rewrite Ho2, Ho1 in Hw. injection Hw as <-. by exists O.
  Qed.

  Lemma col_tab (x : mx binary64) : shaped N 1 x → ∃ f, x = tab N 1 f.
  Proof. intros H. eexists. by apply (shaped_tab N 1 x (a_zero fl)). Qed.

  Lemma row_vectors_shaped tr cl specs row v : row_vectors N tr cl specs row = Ok v → shaped N 1 v.1 ∧ shaped N 1 v.2.
  Proof.
    unfold row_vectors. intros H.
    assert (∀ l v0 v, shaped N 1 v0.1 ∧ shaped N 1 v0.2 →
      res_foldl (λ '(x, e) '(i, vb), v ← unpack_float vb; s ← idx specs i;
        match index_of tr (sp_attr s) with
        | Some j => x ← mx_set x j 0 v; Ok (x, e)
        | None => match index_of cl (sp_attr s) with Some j => e ← mx_set e j 0 v; Ok (x, e) | None => Panic end
        end) v0 l = Ok v → shaped N 1 v.1 ∧ shaped N 1 v.2) as E.
    { clear v H. induction l as [|[i vb] l IH]; intros [x e] v [H1 H2]; cbn [res_foldl]; [by intros [= <-]|]. intros H.
      apply bind_Ok in H as ([x' e'] & Hs & H). revert H. apply IH. clear IH. cbn [fst snd] in *.
      apply bind_Ok in Hs as (u & _ & Hs). apply bind_Ok in Hs as (s & _ & Hs). destruct (index_of tr (sp_attr s)).
      - apply bind_Ok in Hs as (y & Hy & [= <- <-]). split; [exact (mx_set_shaped _ _ _ _ _ _ _ H1 Hy)|done].
      - destruct (index_of cl (sp_attr s)); [|done]. apply bind_Ok in Hs as (y & Hy & [= <- <-]). split; [done|exact (mx_set_shaped _ _ _ _ _ _ _ H2 Hy)]. }
    eapply E; [|exact H]. split; apply tab_shaped.
  Qed.

  Lemma train_row_wired layers tr cl specs rate n total row r : wired n → I <= N →
    train_row layers N tr cl specs rate n total row = Ok r → wired r.1.
  Proof.
    intros Hw HI H. unfold train_row in H. apply bind_Ok in H as ([x e] & Hv & H). apply row_vectors_shaped in Hv as [Hx He]. cbn [fst snd] in *.
    apply bind_Ok in H as (y & Hy & H). destruct (col_tab x Hx) as [fx ->]. destruct Hw as (W & b & Hh & Hrest).
    rewrite (activate_ok fl n N I W b (start_funcs exp I)) in Hy by done. injection Hy as <-.
    apply bind_Ok in H as (e' & He' & H).
    assert (shaped N 1 e') as Hs.
    { revert He'. generalize dependent e. induction cl as [|[a j] cl IH]; intros e He; cbn [res_foldl]; [by intros [= <-]|]. intros H'.
      apply bind_Ok in H' as (e1 & H1 & H'). revert H'. apply IH. apply bind_Ok in H1 as (? & _ & H1). apply bind_Ok in H1 as (? & _ & H1).
      exact (mx_set_shaped _ _ _ _ _ _ _ He H1). }
    destruct (col_tab e' Hs) as [fe ->].
    rewrite (net_error_ok fl n N I W b (start_funcs exp I)) in H by done. cbn [mbind res_bind] in H.
    destruct (wired_step n (Nat.iter (layers - 1) (round fl N W b (start_funcs exp I)) fx)
      (λ j _, summed fl N W (λ j, backward (start_funcs exp I j) (Nat.iter (layers - 1) (round fl N W b (start_funcs exp I)) fx j 0)) (λ j, fe j 0) layers j) rate)
      as (n1 & n2 & H1 & H2 & Hw2); [by exists W, b|done|].
    rewrite H1 in H. cbn [mbind res_bind] in H. rewrite H2 in H. cbn [mbind res_bind] in H. by injection H as <-.
  Qed.

  Lemma train_passes_wired iterations layers tr cl insts specs rate conv n n' : wired n → I <= N →
    train_passes iterations (train_pass layers N tr cl insts specs rate) conv n = Ok n' → wired n'.
  Proof.
    intros Hw HI. revert n Hw. induction iterations as [|k IH]; intros n Hw; cbn [train_passes]; [by intros [= <-]|]. intros H.
    apply bind_Ok in H as (r & Hr & H).
    assert (wired r.1) as Hr1.
    { unfold train_pass in Hr. apply bind_Ok in Hr as ([[[n1 t1] l1] b1] & Hr & [= <-]). cbn [fst].
      change n1 with ((n1, t1, l1, b1).1.1.1). apply (over_rows_inv insts specs _ (λ s, wired s.1.1) _ _) in Hr; [done| |done].
      intros [[n2 t2] l2] row i s' c Hw2 Hf. apply bind_Ok in Hf as (s & Hf & [= <- <-]). by eapply train_row_wired. }
    destruct (gt64 conv r.2); [by injection H as <-|by eapply IH].
  Qed.

  Lemma wired_feeds n : wired n → N = sum_list sizes → I = hd 0 sizes → ∃ W b, holds_net n N I W b (start_funcs exp I) ∧
    feeds_forward fl N I (length sizes - 1) (layer_of sizes) W b (start_funcs exp I) ∧
    (∀ s t, s < N → t < N → ¬ (s = t ∧ t < I) → a_eqb fl (W t s) (a_zero fl) = false → next_layer sizes s t).
  Proof.
    intros (W & b & Hh & Hi & Hc & _) HN HI. exists W, b. split; [done|]. split; [|done].
    assert (∀ i, i < I → layer_of sizes i = 0) as H0.
    { intros i Hii. destruct sizes as [|x l]; [done|]. cbn in HI. subst. cbn [layer_of]. by assert (i <? x = true) as -> by (by apply Nat.ltb_lt). }
    split.
    - intros i Hii. split; [by apply H0|]. split; [unfold start_funcs; by assert (i <? I = true) as -> by (by apply Nat.ltb_lt)|].
      split; [by apply Hi|]. split; [by apply Hi|]. intros s Hs Hne. destruct (a_eqb fl (W i s) (a_zero fl)) eqn:E; [done|].
      apply Hc in E as (_ & _ & E); [|done| |].
      + rewrite H0 in E by done. done.
      + subst N. destruct sizes as [|x l]; [cbn in HI; lia|]. cbn in HI. rewrite sum_cons. lia.
      + intros [-> _]. done.
    - intros j Hj HjN. split; [|split].
      + destruct sizes as [|x l]; [cbn in *; lia|]. cbn in HI. subst x. cbn [layer_of]. assert (j <? I = false) as -> by (by apply Nat.ltb_ge). lia.
      + subst N. pose proof (layer_ge _ _ HjN). lia.
      + intros s Hs Hz. apply Hc in Hz as (_ & _ & ->); [lia|done|done|lia].
  Qed.
End train.

Lemma input_index_length l : length (input_index l) = length l.
Proof. unfold input_index. by rewrite reverse_length, imap_length. Qed.

(** What Fit leaves behind. *)
Lemma ml_fit_inv exp draw co ao m x m' : ml_fit exp draw co ao m x = Ok m' →
  let I := length (non_class_attrs ao (to_floats co x)) in
  let C := length (gr_class_attrs (to_floats co x)) in
  let sizes := I :: ml_layers m ++ [C] in
  ∃ n, ml_network m' = Some n ∧ wired exp sizes (sum_list sizes) I n ∧ ml_layers m' = ml_layers m ∧
    ml_offset m' = I - 1 + 1 ∧ ml_count m' = ml_count m + C ∧ 0 < sum_list sizes ∧ ml_iterations m' = ml_iterations m ∧
    (ml_iterations m = 0 → ml_init exp draw (ml_layers m) I C = Ok n) ∧
    ml_attrs m' = List.filter (λ p, bool_decide (p.1 ∈ gr_all_attrs x)) (class_index I (sum_list (ml_layers m)) (gr_class_attrs (to_floats co x))) ++
      List.filter (λ p, bool_decide (p.1 ∈ gr_all_attrs x)) (input_index (non_class_attrs ao (to_floats co x))) ++ ml_attrs m.
Proof.
  intros H I C sizes. unfold ml_fit in H. fold I C in H.
  assert (sum_list sizes = I + C + sum_list (ml_layers m)) as HN.
  { unfold sizes. rewrite sum_cons, sum_list_app, sum_cons, sum_nil. lia. }
  apply bind_Ok in H as (n0 & Hn0 & H). apply bind_Ok in H as (specs & Hspecs & H). apply bind_Ok in H as (n1 & Hn1 & [= <-]).
  assert (0 < I + C + sum_list (ml_layers m)) as H0.
  { destruct (decide (I + C + sum_list (ml_layers m) = 0)) as [E|E]; [|lia]. unfold ml_init in Hn0. rewrite E in Hn0. done. }
  exists n1. split; [done|]. rewrite HN. split.
  - eapply train_passes_wired; [|lia|exact Hn1]. destruct (ml_init_ok exp draw (ml_layers m) I C H0) as (n & W & b & Hn & Ho & Hh & H1 & H2 & H3 & _).
    rewrite Hn0 in Hn. injection Hn as <-. exists W, b. split; [done|]. split; [|split].
    + intros i Hi. split; [by apply H3|]. destruct (decide (next_layer sizes i i)) as [Hd|Hd].
      { exfalso. destruct Hd as (_ & _ & E). lia. }
      rewrite H2 by done. rewrite Nat.eqb_refl. by assert (i <? I = true) as -> by (by apply Nat.ltb_lt).
    + intros s t Hs Ht Hne Hz. destruct (decide (next_layer sizes s t)) as [Hd|Hd]; [done|]. rewrite H2 in Hz by done. exfalso.
      destruct ((t =? s) && (t <? I)) eqn:E; [|by rewrite zero_zero in Hz]. apply andb_true_iff in E as [E1 E2].
      apply Nat.eqb_eq in E1. apply Nat.ltb_lt in E2. by apply Hne.
    + rewrite Ho. done.
  - split; [done|]. split; [done|]. split; [done|]. split; [done|]. split; [done|]. split; [|done].
    intros E. rewrite E in Hn1. cbn [train_passes] in Hn1. by injection Hn1 as <-.
Qed.
