(** Properties C67 and C119 to C122: layered networks. *)
From Coq Require Import Reals.
From Verif Require Import Prelude DenseProofs BytesModel BytesProofs FloatModel AttrModel AttrProofs StoreModel DenseModel DenseSpec GridModel GridSpec GridProofs KnnModel KnnProps
  FilterModel FilterSpec FilterProofs PredModel PredProofs BagModel
  CartModel CartFit CartProps MetricModel MetricSpec NeuralModel NeuralSpec NeuralProofs NeuralFloat NeuralProps PercModel LinModel LinSpec LinProofs LinProps
  LayerModel LayerSpec LayerProofs LayerTrain LayerPredict LayerFloat LayerTwo.
From Flocq Require Import IEEE754.BinarySingleNaN IEEE754.Bits IEEE754.Binary.
Local Open Scope nat_scope.

(** ** C119: the layers *)

(** After Fit, whatever was drawn and however long it trained: a connection whose weight is not
    zero goes from a layer to the next, or is that of an input node with itself, which is one.
    The layers are the inputs, the hidden layers as asked for, and the outputs. *)
Theorem C119_layers exp draw co ao m x m' n s t w : ml_fit exp draw co ao m x = Ok m' → ml_network m' = Some n →
  let I := length (non_class_attrs ao (to_floats co x)) in
  let C := length (gr_class_attrs (to_floats co x)) in
  n_size n = I + sum_list (ml_layers m) + C ∧ n_input n = I ∧
  (get_weight n (S s) (S t) = Ok w → s < n_size n → t < n_size n → a_eqb float64 w (a_zero float64) = false →
   (s = t ∧ t < I ∧ w = a_one float64) ∨ next_layer (I :: ml_layers m ++ [C]) s t).
Proof.
  intros Hfit Hn I C. destruct (ml_fit_inv _ _ _ _ _ _ _ Hfit) as (n' & Hn' & Hw & _). rewrite Hn in Hn'. injection Hn' as <-. fold I C in Hw.
  set (sizes := I :: ml_layers m ++ [C]) in *.
  assert (sum_list sizes = I + sum_list (ml_layers m) + C) as Hsum by (unfold sizes; rewrite sum_cons, sum_list_app, sum_cons, sum_nil; lia).
  destruct Hw as (W & b & Hh & Hin & Hnx & _). assert (n_size n = sum_list sizes) as HN by apply Hh.
  split; [lia|]. split; [apply Hh|]. intros Hg Hs Ht Hz. rewrite HN in Hs, Ht. rewrite (get_weight_ok n _ _ W b _ s t Hh Hs Ht) in Hg. injection Hg as <-.
  destruct (decide (s = t ∧ t < I)) as [[-> Ht']|Hne].
  - left. split; [done|]. split; [done|]. by apply Hin.
  - right. by apply Hnx.
Qed.
Print Assumptions C119_layers.

(** Before any training, every node is connected with every node of the next layer, by a number
    drawn at random and divided by ten. *)
Theorem C119_connected exp draw co ao m x m' n s t : ml_fit exp draw co ao m x = Ok m' → ml_network m' = Some n → ml_iterations m = 0 →
  next_layer (length (non_class_attrs ao (to_floats co x)) :: ml_layers m ++ [length (gr_class_attrs (to_floats co x))]) s t →
  ∃ i, get_weight n (S s) (S t) = Ok (b64_mult mode_NE (draw i) tenth).
Proof.
  intros Hfit Hn Hz Hnx. destruct (ml_fit_inv _ _ _ _ _ _ _ Hfit) as (n' & Hn' & Hw & _ & _ & _ & Hpos & _ & Hi & _). rewrite Hn in Hn'. injection Hn' as <-.
  set (I := length (non_class_attrs ao (to_floats co x))) in *. set (C := length (gr_class_attrs (to_floats co x))) in *.
  rewrite sum_cons, sum_list_app, sum_cons, sum_nil in Hpos.
  destruct (ml_init_ok exp draw (ml_layers m) I C ltac:(lia)) as (n' & W & b & Hn' & _ & Hh & Hc & _). rewrite (Hi Hz) in Hn'. injection Hn' as <-.
  destruct (Hc s t Hnx) as (i & Ei). exists i. destruct Hnx as (Hs & Ht & _). rewrite sum_cons, sum_list_app, sum_cons, sum_nil in Hs, Ht.
  rewrite (get_weight_ok n _ _ W b _ s t Hh) by lia. by rewrite Ei.
Qed.
Print Assumptions C119_connected.

(** ** C120: the biases *)

(** Before any training, every node that is no input has a bias drawn at random, except the last
    output: its bias is zero, whatever is drawn. *)
Theorem C120_others_partial exp draw co ao m x m' n j : ml_fit exp draw co ao m x = Ok m' → ml_network m' = Some n → ml_iterations m = 0 →
  n_input n <= j → S j < n_size n → ∃ i, get_bias n (S j) = Ok (b64_mult mode_NE (draw i) tenth).
Proof.
  intros Hfit Hn Hz Hj HjN. destruct (ml_fit_inv _ _ _ _ _ _ _ Hfit) as (n' & Hn' & Hw & _ & _ & _ & Hpos & _ & Hi & _). rewrite Hn in Hn'. injection Hn' as <-.
  set (I := length (non_class_attrs ao (to_floats co x))) in *. set (C := length (gr_class_attrs (to_floats co x))) in *.
  rewrite sum_cons, sum_list_app, sum_cons, sum_nil in Hpos.
  destruct (ml_init_ok exp draw (ml_layers m) I C ltac:(lia)) as (n' & W & b & Hn' & _ & Hh & _ & _ & _ & Hb & _). rewrite (Hi Hz) in Hn'. injection Hn' as <-.
  assert (n_size n = I + C + sum_list (ml_layers m)) as HN by apply Hh. assert (n_input n = I) as HI by apply Hh.
  destruct (Hb j) as (i & Ei); [lia|lia|]. exists i. rewrite (get_bias_ok n _ _ W b _ j Hh) by lia. by rewrite Ei.
Qed.
Print Assumptions C120_others_partial.

Lemma last_bias exp draw co ao m x m' n : ml_fit exp draw co ao m x = Ok m' → ml_network m' = Some n → ml_iterations m = 0 →
  gr_class_attrs (to_floats co x) ≠ [] → get_bias n (n_size n) = Ok (a_zero float64).
Proof.
  intros Hfit Hn Hz Hne. destruct (ml_fit_inv _ _ _ _ _ _ _ Hfit) as (n' & Hn' & Hw & _ & _ & _ & Hpos & _ & Hi & _). rewrite Hn in Hn'. injection Hn' as <-.
  set (I := length (non_class_attrs ao (to_floats co x))) in *. set (C := length (gr_class_attrs (to_floats co x))) in *.
  assert (0 < C) as HC by (unfold C; destruct (gr_class_attrs _); [done|cbn; lia]).
  rewrite sum_cons, sum_list_app, sum_cons, sum_nil in Hpos.
  destruct (ml_init_ok exp draw (ml_layers m) I C ltac:(lia)) as (n' & W & b & Hn' & _ & Hh & _ & _ & _ & _ & Hb). rewrite (Hi Hz) in Hn'. injection Hn' as <-.
  assert (n_size n = S (I + C + sum_list (ml_layers m) - 1)) as HN by (transitivity (I + C + sum_list (ml_layers m)); [apply Hh|lia]).
  rewrite HN. rewrite (get_bias_ok n _ _ W b _ _ Hh) by lia. by rewrite (Hb HC).
Qed.

(** Some data: a number and a class of three values. *)
Definition yx : attr := FloatA "x" 2.
Definition yc : attr := CatA "c" ["a"; "b"; "d"].
Definition y_dense (rows : list (Z * N)) : dense :=
  match dense_run 64 dense_new
    ([DAdd yx; DAdd yc; DClass yc true; DExtend (length rows)] ++
     imap (λ i r, DSet (Spec 0 0 yx) i (pack_float (float_of_Z r.1))) rows ++
     imap (λ i r, DSet (Spec 1 0 yc) i (byte8 r.2)) rows) with
  | Ok d => d | _ => dense_new end.
Definition y_grid (rows : list (Z * N)) : grid := dense_grid [((1, 0), true)] (y_dense rows).
Definition y_data : list (Z * N) := [(1, 0%N); (2, 1%N); (-3, 2%N)]%Z.
Definition untrained (layers : list nat) : mlnet :=
  ML None [] layers 0 0 (ml_convergence (ml_new [])) 0 (ml_rate (ml_new [])).
Definition y_exp (x : binary64) : binary64 := a_one float64.
Definition y_draw (k : nat) : binary64 := float_of_Z (Z.of_nat k + 1).
Definition okm (r : res mlnet) : bool := match r with Ok _ => true | _ => false end.
Lemma okm_ok r : okm r = true → ∃ m, r = Ok m.
Proof. destruct r as [p| |]; [by exists p|discriminate|discriminate]. Qed.

Theorem C120_last_refuted : ∃ draw m x m' n, (∀ i, draw i ≠ a_zero float64) ∧
  ml_fit y_exp draw (λ l, l) (λ l, l) m x = Ok m' ∧ ml_network m' = Some n ∧ ml_iterations m = 0 ∧ n_size n = 6 ∧ n_input n = 1 ∧
  get_bias n 6 = Ok (a_zero float64).
Proof.
  exists (λ _, a_one float64). exists (untrained [2]), (y_grid y_data).
  destruct (okm_ok (ml_fit y_exp (λ _, a_one float64) (λ l, l) (λ l, l) (untrained [2]) (y_grid y_data))) as (m' & Hm'); [vm_compute; reflexivity|].
  destruct (ml_fit_inv _ _ _ _ _ _ _ Hm') as (n & Hn & (W & b & Hh & _) & _).
  exists m', n. split; [intros _ E; apply (f_equal bits_of_b64) in E; vm_compute in E; discriminate E|].
  split; [exact Hm'|]. split; [exact Hn|]. split; [reflexivity|].
  assert (n_size n = 6) as HN by (etransitivity; [apply Hh|vm_compute; reflexivity]).
  split; [exact HN|]. split; [etransitivity; [apply Hh|vm_compute; reflexivity]|]. rewrite <- HN.
  apply (last_bias y_exp (λ _, a_one float64) (λ l, l) (λ l, l) (untrained [2]) (y_grid y_data) m' n Hm' Hn); [reflexivity|].
  intros E. apply (f_equal length) in E. vm_compute in E. discriminate E.
Qed.
Print Assumptions C120_last_refuted.

(** *** C119 and C120 on a network with a hidden layer of two *)
Example C119_example : ∃ m' n, ml_fit y_exp y_draw (λ l, l) (λ l, l) (untrained [2]) (y_grid y_data) = Ok m' ∧ ml_network m' = Some n ∧ n_size n = 6 ∧
  (∃ i, get_weight n 1 2 = Ok (b64_mult mode_NE (y_draw i) tenth)) ∧ (∃ i, get_weight n 3 6 = Ok (b64_mult mode_NE (y_draw i) tenth)) ∧
  (∀ w, get_weight n 1 4 = Ok w → a_eqb float64 w (a_zero float64) = true) ∧ ∃ i, get_bias n 5 = Ok (b64_mult mode_NE (y_draw i) tenth).
Proof.
  destruct (okm_ok (ml_fit y_exp y_draw (λ l, l) (λ l, l) (untrained [2]) (y_grid y_data))) as (m' & Hm'); [vm_compute; reflexivity|].
  destruct (ml_fit_inv _ _ _ _ _ _ _ Hm') as (n & Hn & (W & b & Hh & _) & _).
  assert (n_size n = 6) as HN by (etransitivity; [apply Hh|vm_compute; reflexivity]).
  assert (n_input n = 1) as HI by (etransitivity; [apply Hh|vm_compute; reflexivity]).
  exists m', n. split; [exact Hm'|]. split; [exact Hn|]. split; [exact HN|].
  assert (length (non_class_attrs (λ l, l) (to_floats (λ l, l) (y_grid y_data))) :: [2] ++ [length (gr_class_attrs (to_floats (λ l, l) (y_grid y_data)))] = [1; 2; 3]) as Es by (vm_compute; reflexivity).
  split; [|split; [|split]].
  - apply (C119_connected _ _ _ _ _ _ _ n 0 1 Hm' Hn eq_refl). cbn [untrained ml_layers]. rewrite Es. split_and!; vm_compute; lia.
  - apply (C119_connected _ _ _ _ _ _ _ n 2 5 Hm' Hn eq_refl). cbn [untrained ml_layers]. rewrite Es. split_and!; vm_compute; lia.
  - intros w Hw. destruct (a_eqb float64 w (a_zero float64)) eqn:E; [reflexivity|].
    destruct (C119_layers _ _ _ _ _ _ _ n 0 3 w Hm' Hn) as (_ & _ & H). rewrite HN in H.
    destruct (H Hw ltac:(lia) ltac:(lia) E) as [(H1 & _)|H1]; [lia|]. cbn [untrained ml_layers] in H1. rewrite Es in H1. destruct H1 as (_ & _ & H1). vm_compute in H1. discriminate H1.
  - apply (C120_others_partial _ _ _ _ _ _ _ n 4 Hm' Hn eq_refl); lia.
Qed.

(** ** C67: what Predict reads *)

(** A grid of numbers, one of them the class: Predict gives for each row what the only output
    node says, that is, the result of feeding the row's numbers through the layers that Fit
    trained, each number to the node it had in training — whatever the orders in which the
    attributes are listed.  The numbers must not be NaN nor minus zero. *)
Theorem C67_float_partial exp draw co ao order order' pg same m x m' what nm prec (col : attr → nat → binary64) :
  any_order co → any_order ao → any_order order → any_order order' →
  (∀ a, a ∈ gr_all_attrs x → ∃ nm p, a = FloatA nm p) → NoDup (map attr_name (gr_all_attrs x)) →
  gr_class_attrs x = [FloatA nm prec] → FloatA nm prec ∈ gr_all_attrs x → (∃ a, a ∈ gr_all_attrs x ∧ a ≠ FloatA nm prec) →
  ml_fit exp draw co ao m x = Ok m' →
  gr_all_attrs what ≡ₚ gr_all_attrs x → gr_class_attrs what = [FloatA nm prec] → iter_agrees what →
  (∀ a s, a ∈ gr_all_attrs what → gr_get_attribute what a = Ok s → sp_attr s = a) →
  (∀ a, a ∈ gr_all_attrs what → a ≠ FloatA nm prec → same a = true ∧ column_holds what a (col a) ∧ ∀ r, r < (gr_size what).2 → plain (col a r)) →
  same (FloatA nm prec) = true →
  let inputs := non_class_attrs ao (to_floats co x) in
  let I := length inputs in
  let sizes := I :: ml_layers m ++ [1] in
  let N := sum_list sizes in
  (∀ a, a ∈ inputs ↔ a ∈ gr_all_attrs x ∧ a ≠ FloatA nm prec) ∧ NoDup inputs ∧
  ∃ n W b d say, ml_network m' = Some n ∧
    (∀ s t, s < N → t < N → get_weight n (S s) (S t) = Ok (W t s)) ∧ (∀ t, t < N → get_bias n (S t) = Ok (b t)) ∧
    (∀ s t, s < N → t < N → ¬ (s = t ∧ t < I) → a_eqb float64 (W t s) (a_zero float64) = false → next_layer sizes s t) ∧
    (∀ r, r < (gr_size what).2 → layers_say exp N I W b (λ i, default float_zero (a ← inputs !! i; Some (col a r))) (say r)) ∧
    ml_predict co ao order pg same m' what = Ok d ∧
    let p := dense_grid (order' (map_to_list (d_class d))) d in
    gr_class_attrs p = [FloatA nm prec] ∧ (gr_size p).2 = (gr_size what).2 ∧
    column_holds p (FloatA nm prec) (λ r, say r (N - 1)).
Proof.
  intros Hco Hao Ho Ho' Hfl Hnd Hc Hcin Hsome Hfit Hall Hcw Hit Hspec Hcols Hsc inputs I sizes N.
  split; [intros a; by apply (num_inputs co Hco x _ Hfl Hnd Hc Hcin)|]. split; [by apply non_class_nodup|].
  destruct (num_predict exp draw co ao Hco Hao pg order order' same m x m' what nm prec col Ho Ho' Hfl Hnd Hc Hcin Hsome Hfit Hall Hcw Hit Hspec Hcols Hsc)
    as (n & W & b & d & say & H1 & H2 & H3 & H4 & H5 & H6).
  exists n, W, b, d, say. split; [done|]. split; [intros s t Hs Ht; by apply (get_weight_ok n _ _ _ _ _ s t H2)|].
  split; [intros t Ht; by apply (get_bias_ok n _ _ _ _ _ t H2)|]. done.
Qed.
Print Assumptions C67_float_partial.

(** A class of two values: of the results only the first value can be a right answer; the second
    is never predicted, and where the node says nothing above zero a number outside the class is
    stored.  [offset] is the number of inputs of the net (at least one). *)
Theorem C67_two_values exp draw co ao co' ao' order order' pg same m x m' what d nm vs : any_order co → any_order co' → any_order order → any_order order' →
  gr_class_attrs x = [CatA nm vs] → length vs <= 2 →
  (∀ a, a ∈ gr_all_attrs x → attr_equals a (CatA nm vs) = true → a = CatA nm vs) →
  ml_count m = 0 → ml_fit exp draw co ao m x = Ok m' →
  iter_agrees what → gr_class_attrs what = [CatA nm vs] →
  ml_predict co' ao' order pg same m' what = Ok d →
  let p := dense_grid (order' (map_to_list (d_class d))) d in
  let offset := length (non_class_attrs ao (to_floats co x)) - 1 + 1 in
  gr_class_attrs p = [CatA nm vs] ∧ (gr_size p).2 = (gr_size what).2 ∧
  ∃ s, gr_get_attribute p (CatA nm vs) = Ok s ∧ ∀ r, r < (gr_size what).2 →
    gr_get p s r = Ok (pack_u64 0) ∨ gr_get p s r = Ok (pack_u64 (Z.to_N ((- Z.of_nat offset) mod 2 ^ 64))).
Proof.
  intros Hco Hco' Ho Ho' Hc Hvs Hown Hcnt Hfit Hit Hcw H p offset.
  destruct (ml_fit_inv _ _ _ _ _ _ _ Hfit) as (n & _ & _ & _ & Hoff & Hcount & _).
  pose proof (two_columns co Hco x nm vs Hc Hvs Hown) as Hle. unfold p, offset. rewrite <- Hoff.
  apply (one_node co' ao' order Ho pg same m' what d nm vs order' Hit Hcw); [lia|done|done].
Qed.
Print Assumptions C67_two_values.

(** If the hidden layers have at least as many nodes as there are class columns, Predict never
    looks at the output nodes: whatever weights, biases and functions they have, the
    predictions are the same. *)
Theorem C67_hidden_unread exp draw co ao co' ao' order pg same m x m' n n2 what nm vs : any_order order →
  ml_count m = 0 → ml_fit exp draw co ao m x = Ok m' → ml_network m' = Some n →
  let inputs := length (non_class_attrs ao (to_floats co x)) in
  let classes := length (gr_class_attrs (to_floats co x)) in
  0 < inputs → classes <= sum_list (ml_layers m) → gr_class_attrs what = [CatA nm vs] →
  sound_net n2 → agree_below (inputs + sum_list (ml_layers m)) n n2 →
  ml_predict co' ao' order pg same (with_network m' n2) what = ml_predict co' ao' order pg same m' what.
Proof.
  intros Ho Hcnt Hfit Hn inputs classes Hpos Hle Hc Hs Hag.
  destruct (ml_fit_inv _ _ _ _ _ _ _ Hfit) as (n' & Hn' & Hw & _ & Hoff & Hcount & _). rewrite Hn in Hn'. injection Hn' as <-.
  fold inputs classes in Hw, Hoff, Hcount.
  eapply (predict_below co' ao' order Ho pg same exp _ _ inputs m' n n2 what nm vs (inputs + sum_list (ml_layers m)) Hc Hn Hw Hs Hag).
  - rewrite sum_cons, sum_list_app. lia.
  - lia.
Qed.
Print Assumptions C67_hidden_unread.

(** *** The case exists: another bias of an output node, and still the same predictions *)
Definition codes (r : res dense) : list (list N) :=
  match r with
  | Ok d => map (λ r, match dense_get d (Spec 0 0 yc) r with Ok b => b | _ => [] end) (seq 0 (d_maxrow d))
  | _ => []
  end.
Lemma bind_to {A B} (r : res A) x (f : A → res B) : r = Ok x → (y ← r; f y) = f x.
Proof. intros ->. reflexivity. Qed.
Theorem C67_hidden_refuted : ∃ m' n n2, ml_fit y_exp y_draw (λ l, l) (λ l, l) (untrained [3]) (y_grid y_data) = Ok m' ∧ ml_network m' = Some n ∧
  set_bias n 7 (y_draw 41) = Ok n2 ∧ get_bias n 7 ≠ get_bias n2 7 ∧
  ml_predict (λ l, l) (λ l, l) (λ l, l) 64 (λ _, true) (with_network m' n2) (y_grid y_data) =
  ml_predict (λ l, l) (λ l, l) (λ l, l) 64 (λ _, true) m' (y_grid y_data) ∧
  codes (ml_predict (λ l, l) (λ l, l) (λ l, l) 64 (λ _, true) m' (y_grid y_data)) = [pack_u64 0; pack_u64 0; pack_u64 0].
Proof.
  set (fit := ml_fit y_exp y_draw (λ l, l) (λ l, l) (untrained [3]) (y_grid y_data)).
  destruct (okm_ok fit) as (m' & Hm'); [vm_compute; reflexivity|].
  assert (codes (m ← fit; ml_predict (λ l, l) (λ l, l) (λ l, l) 64 (λ _, true) m (y_grid y_data)) = [pack_u64 0; pack_u64 0; pack_u64 0]) as Hcodes
    by (vm_compute; reflexivity).
  rewrite (bind_to fit m' _ Hm') in Hcodes.
  destruct (ml_fit_inv _ _ _ _ _ _ _ Hm') as (n & Hn & Hw & _ & _ & _ & _ & _ & Hini & _). destruct Hw as (W & b & Hh & _). specialize (Hini eq_refl).
  assert (sum_list (length (non_class_attrs (λ l, l) (to_floats (λ l, l) (y_grid y_data))) :: [3] ++ [length (gr_class_attrs (to_floats (λ l, l) (y_grid y_data)))]) = 7) as Es
    by (vm_compute; reflexivity).
  cbn [untrained ml_layers] in Hh. rewrite Es in Hh.
  assert (length (non_class_attrs (λ l, l) (to_floats (λ l, l) (y_grid y_data))) = 1) as Ei by (vm_compute; reflexivity). rewrite Ei in Hh.
  destruct (set_bias_ok n 7 1 W b _ 6 (y_draw 41) Hh ltac:(lia)) as (n2 & Hn2 & Ho2 & Hh2).
  assert (n_orig n2 = None) as Hnone.
  { rewrite Ho2. cbn [untrained ml_layers] in Hini.
    match type of Hini with ml_init ?e ?d ?l ?i ?c = _ => destruct (ml_init_ok e d l i c) as (n' & W' & b' & Hn' & Ho' & _); [vm_compute; lia|] end.
    rewrite Hini in Hn'. injection Hn' as ->. exact Ho'. }
  clear Hini. assert (get_bias n 7 = Ok (a_zero float64)) as Hb1.
  { assert (n_size n = 7) as HN by apply Hh. rewrite <- HN.
    apply (last_bias y_exp y_draw (λ l, l) (λ l, l) (untrained [3]) (y_grid y_data) m' n Hm' Hn); [reflexivity|].
    intros E. apply (f_equal length) in E. vm_compute in E. discriminate E. }
  exists m', n, n2. split; [exact Hm'|]. split; [exact Hn|]. split; [exact Hn2|]. split.
  { rewrite Hb1, (get_bias_ok n2 _ _ _ _ _ 6 Hh2) by lia. change (6 <? 1) with false. cbn iota. unfold put1. rewrite Nat.eqb_refl. intros E.
    apply (f_equal (λ r, match r with Ok v => bits_of_b64 v | _ => 0%Z end)) in E. vm_compute in E. discriminate E. }
  split; [|exact Hcodes].
  eapply (C67_hidden_unread y_exp y_draw (λ l, l) (λ l, l) (λ l, l) (λ l, l) (λ l, l) 64 (λ _, true) (untrained [3]) (y_grid y_data) m' n n2 (y_grid y_data) "c" ["a"; "b"; "d"]).
  - intros l. reflexivity.
  - reflexivity.
  - exact Hm'.
  - exact Hn.
  - vm_compute. lia.
  - vm_compute. lia.
  - vm_compute. reflexivity.
  - eapply holds_sound; [exact Hh2|lia|]. rewrite Hnone. discriminate.
  - rewrite Ei. cbn [untrained ml_layers]. change (1 + sum_list [3]) with 4.
    split; [transitivity 7; [apply Hh2|symmetry; apply Hh]|]. split; [transitivity 1; [apply Hh2|symmetry; apply Hh]|].
    assert (n_size n = 7) as HN by apply Hh. rewrite HN. intros t Ht. split.
    + intros s Hs. rewrite (get_weight_ok n _ _ _ _ _ s t Hh), (get_weight_ok n2 _ _ _ _ _ s t Hh2) by lia. reflexivity.
    + split.
      * rewrite (get_bias_ok n _ _ _ _ _ t Hh), (get_bias_ok n2 _ _ _ _ _ t Hh2) by lia. change (6 <? 1) with false. cbn iota. unfold put1.
        destruct (Nat.eqb_spec t 6); [lia|reflexivity].
      * destruct Hh as (_ & _ & -> & _), Hh2 as (_ & _ & -> & _). reflexivity.
Qed.
Print Assumptions C67_hidden_refuted.

(** What Fit asks of the output nodes for a row is not what Predict takes for the row's class:
    with the class columns listed in another order, a network that answers exactly as trained
    for a row of the first value is read as saying the third. *)
Theorem C67_order_refuted : ∃ co specs row v, any_order co ∧
  let insts := to_floats co (y_grid y_data) in
  let inputs := non_class_attrs (λ l, l) insts in
  let classes := gr_class_attrs insts in
  resolve_all insts = Ok specs ∧ res_mapM (λ s, gr_get insts s 0) specs = Ok row ∧
  row_vectors 4 (input_index inputs) (class_index (length inputs) 0 classes) specs row = Ok v ∧
  gr_get (y_grid y_data) (Spec 1 0 yc) 0 = Ok (pack_u64 0) ∧
  strongest (length inputs) (length classes) v.2 = Ok 2%N.
Proof.
  exists reverse.
  set (all := specs ← resolve_all (to_floats reverse (y_grid y_data)); row ← res_mapM (λ s, gr_get (to_floats reverse (y_grid y_data)) s 0) specs;
    v ← row_vectors 4 (input_index (non_class_attrs (λ l, l) (to_floats reverse (y_grid y_data))))
          (class_index (length (non_class_attrs (λ l, l) (to_floats reverse (y_grid y_data)))) 0 (gr_class_attrs (to_floats reverse (y_grid y_data)))) specs row;
    strongest (length (non_class_attrs (λ l, l) (to_floats reverse (y_grid y_data)))) (length (gr_class_attrs (to_floats reverse (y_grid y_data)))) v.2).
  assert (all = Ok 2%N) as H by (vm_compute; reflexivity). unfold all in H. clear all.
  apply bind_Ok in H as (specs & H1 & H). apply bind_Ok in H as (row & H2 & H). apply bind_Ok in H as (v & H3 & H).
  exists specs, row, v. split; [intros l; apply reverse_Permutation|]. cbv zeta.
  split; [exact H1|]. split; [exact H2|]. split; [exact H3|]. split; [vm_compute; reflexivity|exact H].
Qed.
Print Assumptions C67_order_refuted.

(** *** The hypotheses of C67_float_partial, together: the numbers of linear regression *)
Definition l_data : list (Z * Z) := [(1, 3); (2, 5); (4, 9)]%Z.
Lemma l_plain z : (0 <? Z.abs z)%Z && (Z.abs z <? 2 ^ 53)%Z = true → plain (float_of_Z z).
Proof.
  intros H. apply andb_true_iff in H as [H1 H2]. apply Z.ltb_lt in H1, H2. destruct (float_of_Z_exact z ltac:(lia)) as [Hf Hv]. split.
  - destruct (float_of_Z z); done.
  - intros E. rewrite E in Hv. cbn in Hv. apply (eq_IZR 0) in Hv. lia.
Qed.
Example C67_float_example : ∃ m' n W b d say, ml_fit y_exp y_draw (λ l, l) (λ l, l) (untrained [2]) (l_grid l_data) = Ok m' ∧ ml_network m' = Some n ∧
  (∀ s t, s < 4 → t < 4 → get_weight n (S s) (S t) = Ok (W t s)) ∧ (∀ t, t < 4 → get_bias n (S t) = Ok (b t)) ∧
  (∀ r, r < 3 → layers_say y_exp 4 1 W b (λ i, default float_zero (a ← [lx] !! i; Some (l_col l_data a r))) (say r)) ∧
  ml_predict (λ l, l) (λ l, l) (λ l, l) 64 (λ _, true) m' (l_grid l_data) = Ok d ∧
  column_holds (dense_grid (map_to_list (d_class d)) d) ly (λ r, say r 3).
Proof.
  destruct (okm_ok (ml_fit y_exp y_draw (λ l, l) (λ l, l) (untrained [2]) (l_grid l_data))) as (m' & Hm'); [vm_compute; reflexivity|].
  assert (∀ A, any_order (λ l : list A, l)) as Hid by (intros A l; reflexivity).
  assert (gr_all_attrs (l_grid l_data) = [lx; ly]) as Hall by (vm_compute; reflexivity).
  assert ((gr_size (l_grid l_data)).2 = 3) as Hsz by (vm_compute; reflexivity).
  assert (non_class_attrs (λ l, l) (to_floats (λ l, l) (l_grid l_data)) = [lx]) as Hin by (vm_compute; reflexivity).
  assert (column_holds (l_grid l_data) lx (l_col l_data lx)) as Hcol by (apply col_check_ok; vm_compute; reflexivity).
  assert (gr_class_attrs (l_grid l_data) = [ly]) as Hcl by (vm_compute; reflexivity).
  assert (gr_get_attribute (l_grid l_data) lx = Ok (Spec 0 0 lx)) as Hgx by (vm_compute; reflexivity).
  assert (gr_get_attribute (l_grid l_data) ly = Ok (Spec 0 1 ly)) as Hgy by (vm_compute; reflexivity).
  assert (iter_agrees (l_grid l_data)) as Hit by (apply in_order_agrees, dense_grid_in_order).
  remember (l_grid l_data) as g eqn:Hg. clear Hg.
  pose proof (C67_float_partial y_exp y_draw (λ l, l) (λ l, l) (λ l, l) (λ l, l) 64 (λ _, true) (untrained [2]) g m' g "y" 2 (l_col l_data)
    (Hid _) (Hid _) (Hid _) (Hid _)) as H. rewrite Hall, Hcl, Hsz, Hin in H.
  destruct H as (_ & _ & n & W & b & d & say & H1 & H2 & H3 & _ & H5 & H6 & _ & _ & H7).
  - intros a Ha. apply elem_of_cons in Ha as [-> | Ha%elem_of_list_singleton]; [by eexists _, _|subst; by eexists _, _].
  - apply NoDup_cons. split; [|apply NoDup_singleton]. intros H. apply elem_of_list_singleton in H. discriminate H.
  - reflexivity.
  - right. left.
  - exists lx. split; [left|]. intros E. discriminate E.
  - exact Hm'.
  - reflexivity.
  - reflexivity.
  - exact Hit.
  - intros a s Ha. apply elem_of_cons in Ha as [-> | Ha%elem_of_list_singleton]; [rewrite Hgx; by intros [= <-]|subst; rewrite Hgy; by intros [= <-]].
  - intros a Ha Hne. apply elem_of_cons in Ha as [-> | Ha%elem_of_list_singleton]; [|by subst]. split; [reflexivity|]. split; [exact Hcol|].
    intros [|[|[|r]]] Hr; [apply l_plain; reflexivity| | |lia]; apply l_plain; reflexivity.
  - reflexivity.
  - exists m', n, W, b, d, say. split; [exact Hm'|]. split; [exact H1|]. split; [exact H2|]. split; [exact H3|]. split; [exact H5|]. split; [exact H6|exact H7].
Qed.

(** *** C67_two_values on data with a class of two values *)
Definition w_c : attr := CatA "c" ["no"; "yes"].
Definition w_dense (rows : list (Z * N)) : dense :=
  match dense_run 64 dense_new
    ([DAdd yx; DAdd w_c; DClass w_c true; DExtend (length rows)] ++
     imap (λ i r, DSet (Spec 0 0 yx) i (pack_float (float_of_Z r.1))) rows ++
     imap (λ i r, DSet (Spec 1 0 w_c) i (byte8 r.2)) rows) with
  | Ok d => d | _ => dense_new end.
Definition w_grid (rows : list (Z * N)) : grid := dense_grid [((1, 0), true)] (w_dense rows).
Definition okd (r : res dense) : bool := match r with Ok _ => true | _ => false end.
Lemma okd_ok r : okd r = true → ∃ d, r = Ok d.
Proof. destruct r as [p| |]; [by exists p|discriminate|discriminate]. Qed.
Theorem C67_two_refuted : ∃ rows m' d, rows = [(1, 1%N); (2, 1%N)]%Z ∧ ml_fit y_exp y_draw (λ l, l) (λ l, l) (untrained []) (w_grid rows) = Ok m' ∧
  ml_predict (λ l, l) (λ l, l) (λ l, l) 64 (λ _, true) m' (w_grid rows) = Ok d ∧
  ∃ s, dense_get_attribute d w_c = Ok s ∧ ∀ r, r < 2 → dense_get d s r = Ok (pack_u64 0) ∨ dense_get d s r = Ok (pack_u64 0xFFFFFFFFFFFFFFFF).
Proof.
  set (rows := [(1, 1%N); (2, 1%N)]%Z). exists rows. set (fit := ml_fit y_exp y_draw (λ l, l) (λ l, l) (untrained []) (w_grid rows)).
  destruct (okm_ok fit) as (m' & Hm'); [vm_compute; reflexivity|].
  assert (okd (m ← fit; ml_predict (λ l, l) (λ l, l) (λ l, l) 64 (λ _, true) m (w_grid rows)) = true) as Hd by (vm_compute; reflexivity).
  rewrite (bind_to fit m' _ Hm') in Hd. apply okd_ok in Hd as (d & Hd). exists m', d. split; [reflexivity|]. split; [exact Hm'|]. split; [exact Hd|].
  assert (∀ A, any_order (λ l : list A, l)) as Hid by (intros A l; reflexivity).
  assert (gr_all_attrs (w_grid rows) = [yx; w_c]) as Hall by (vm_compute; reflexivity).
  assert (gr_class_attrs (w_grid rows) = [w_c]) as Hcl by (vm_compute; reflexivity).
  assert ((gr_size (w_grid rows)).2 = 2) as Hsz by (vm_compute; reflexivity).
  assert (iter_agrees (w_grid rows)) as Hit by (apply in_order_agrees, dense_grid_in_order).
  assert (length (non_class_attrs (λ l, l) (to_floats (λ l, l) (w_grid rows))) = 1) as Hin by (vm_compute; reflexivity).
  unfold fit in Hm'. clear fit. remember (w_grid rows) as g eqn:Hg. clear Hg rows.
  destruct (C67_two_values y_exp y_draw (λ l, l) (λ l, l) (λ l, l) (λ l, l) (λ l, l) (λ l, l) 64 (λ _, true) (untrained []) g m' g d "c" ["no"; "yes"]
    (Hid _) (Hid _) (Hid _) (Hid _)) as (_ & _ & s & H1 & H2).
  - exact Hcl.
  - cbn. lia.
  - intros a Ha. rewrite Hall in Ha. apply elem_of_cons in Ha as [-> | Ha%elem_of_list_singleton]; [intros E; discriminate E|done].
  - reflexivity.
  - exact Hm'.
  - exact Hit.
  - exact Hcl.
  - exact Hd.
  - exists s. split; [exact H1|]. rewrite Hsz, Hin in H2. exact H2.
Qed.
Print Assumptions C67_two_refuted.

(** ** C121: inputs that are no numbers *)

(** A column of [what], not of the class, becomes under the conversion a column that [what] does
    not have (a categorical or binary column always does).  Then Predict never succeeds, however
    the network was trained. *)
Theorem C121_never co ao order pg same m what d nm vs a b : any_order co → any_order ao → any_order order → iter_agrees what →
  (∀ a, a ∈ gr_all_attrs what → ∃ s, gr_get_attribute what a = Ok s) →
  gr_class_attrs what = [CatA nm vs] → (gr_size what).2 ≠ 0 →
  b ∈ gr_all_attrs what → attr_equals b (CatA nm vs) = false →
  a ∈ float_columns b → a ∉ gr_all_attrs what → (∀ p, p ∈ gr_all_attrs what → a ∈ float_columns p → p = b) →
  ml_predict co ao order pg same m what ≠ Ok d.
Proof.
  intros Hco Hao Ho Hit Hres Hc Hsz Hb Hbc Ha Hna Hown.
  exact (made_inputs_unknown co ao order Ho Hao pg same what Hit Hres m d nm vs a b Hc Hsz Hco Hb Ha Hna Hbc Hown).
Qed.
Print Assumptions C121_never.

(** *** A categorical input *)
Definition v_w : attr := CatA "w" ["p"; "q"].
Definition v_dense (rows : list (N * N)) : dense :=
  match dense_run 64 dense_new
    ([DAdd v_w; DAdd yc; DClass yc true; DExtend (length rows)] ++
     concat (imap (λ i r, [DSet (Spec 0 0 v_w) i (byte8 r.1); DSet (Spec 0 1 yc) i (byte8 r.2)]) rows)) with
  | Ok d => d | _ => dense_new end.
Definition v_grid (rows : list (N * N)) : grid := dense_grid [((0, 1), true)] (v_dense rows).
Theorem C121_refuted : ∃ g m', ml_fit y_exp y_draw (λ l, l) (λ l, l) (untrained []) g = Ok m' ∧
  ∀ d, ml_predict (λ l, l) (λ l, l) (λ l, l) 64 (λ _, true) m' g ≠ Ok d.
Proof.
  set (g := v_grid [(0, 1); (1, 2)]%N). exists g.
  destruct (okm_ok (ml_fit y_exp y_draw (λ l, l) (λ l, l) (untrained []) g)) as (m & Hm); [vm_compute; reflexivity|].
  exists m. split; [exact Hm|]. intros d. clear Hm.
  assert (∀ A, any_order (λ l : list A, l)) as Hid by (intros A l; reflexivity).
  assert (gr_all_attrs g = [v_w; yc]) as Hall by (vm_compute; reflexivity).
  assert (gr_class_attrs g = [yc]) as Hcl by (vm_compute; reflexivity).
  assert ((gr_size g).2 = 2) as Hsz by (vm_compute; reflexivity).
  assert (iter_agrees g) as Hit by (apply in_order_agrees, dense_grid_in_order).
  assert (gr_get_attribute g v_w = Ok (Spec 0 0 v_w)) as Hgw by (vm_compute; reflexivity).
  assert (gr_get_attribute g yc = Ok (Spec 0 1 yc)) as Hgc by (vm_compute; reflexivity).
  clearbody g.
  apply (C121_never (λ l, l) (λ l, l) (λ l, l) 64 (λ _, true) m g d "c" ["a"; "b"; "d"] (FloatA "w" 2) v_w (Hid _) (Hid _) (Hid _) Hit).
  - intros a Ha. rewrite Hall in Ha. apply elem_of_cons in Ha as [-> | Ha%elem_of_list_singleton]; [by eexists|subst; by eexists].
  - exact Hcl.
  - rewrite Hsz. lia.
  - rewrite Hall. left.
  - reflexivity.
  - left.
  - rewrite Hall. intros H. apply elem_of_cons in H as [H|H%elem_of_list_singleton]; discriminate H.
  - intros p Hp. rewrite Hall in Hp. apply elem_of_cons in Hp as [-> | Hp%elem_of_list_singleton]; [reflexivity|]. subst p. intros H.
    cbn [float_columns yc] in H. rewrite decide_False in H by (cbn; lia). apply elem_of_list_In, in_map_iff in H as (v & E & _). injection E as E.
    discriminate E.
Qed.
Print Assumptions C121_refuted.

(** ** C122: fitting again *)

(** A network without hidden layers that has been fitted before: after another Fit, Predict never
    succeeds. *)
Theorem C122_never exp draw co ao co' ao' order pg same m0 x0 m x m' what d nm vs : any_order ao' → any_order order → iter_agrees what →
  (∀ a, a ∈ gr_all_attrs what → ∃ s, gr_get_attribute what a = Ok s) →
  ml_fit exp draw co ao m0 x0 = Ok m → gr_class_attrs (to_floats co x0) ≠ [] → ml_layers m0 = [] →
  ml_fit exp draw co ao m x = Ok m' →
  gr_class_attrs what = [CatA nm vs] → (gr_size what).2 ≠ 0 →
  ml_predict co' ao' order pg same m' what ≠ Ok d.
Proof.
  intros Hao Ho Hit Hres H0 Hne Hlay H1 Hc Hsz.
  destruct (ml_fit_inv _ _ _ _ _ _ _ H0) as (n & _ & _ & Hl & _ & Hcnt & _).
  refine (beyond_unread co' ao' order Ho Hao pg same what Hit Hres exp draw co ao m x m' d nm vs Hc Hsz H1 _ _).
  - by rewrite Hl.
  - rewrite Hcnt. destruct (gr_class_attrs (to_floats co x0)); [done|cbn; lia].
Qed.
Print Assumptions C122_never.

(** *** Once, Predict succeeds; twice, it does not *)
Theorem C122_refuted : ∃ m1 m2 d, ml_fit y_exp y_draw (λ l, l) (λ l, l) (untrained []) (y_grid y_data) = Ok m1 ∧
  ml_predict (λ l, l) (λ l, l) (λ l, l) 64 (λ _, true) m1 (y_grid y_data) = Ok d ∧
  ml_fit y_exp y_draw (λ l, l) (λ l, l) m1 (y_grid y_data) = Ok m2 ∧
  ∀ d, ml_predict (λ l, l) (λ l, l) (λ l, l) 64 (λ _, true) m2 (y_grid y_data) ≠ Ok d.
Proof.
  set (fit := ml_fit y_exp y_draw (λ l, l) (λ l, l) (untrained []) (y_grid y_data)).
  destruct (okm_ok fit) as (m1 & Hm1); [vm_compute; reflexivity|].
  assert (okd (m ← fit; ml_predict (λ l, l) (λ l, l) (λ l, l) 64 (λ _, true) m (y_grid y_data)) = true) as Hd by (vm_compute; reflexivity).
  assert (okm (m ← fit; ml_fit y_exp y_draw (λ l, l) (λ l, l) m (y_grid y_data)) = true) as Hm2 by (vm_compute; reflexivity).
  rewrite (bind_to fit m1 _ Hm1) in Hd. rewrite (bind_to fit m1 _ Hm1) in Hm2. apply okd_ok in Hd as (d & Hd). apply okm_ok in Hm2 as (m2 & Hm2).
  exists m1, m2, d. split; [exact Hm1|]. split; [exact Hd|]. split; [exact Hm2|]. intros d'.
  assert (∀ A, any_order (λ l : list A, l)) as Hid by (intros A l; reflexivity).
  assert (gr_all_attrs (y_grid y_data) = [yx; yc]) as Hall by (vm_compute; reflexivity).
  assert (gr_class_attrs (y_grid y_data) = [yc]) as Hcl by (vm_compute; reflexivity).
  assert ((gr_size (y_grid y_data)).2 = 3) as Hsz by (vm_compute; reflexivity).
  assert (iter_agrees (y_grid y_data)) as Hit by (apply in_order_agrees, dense_grid_in_order).
  assert (gr_get_attribute (y_grid y_data) yx = Ok (Spec 0 0 yx)) as Hgw by (vm_compute; reflexivity).
  assert (gr_get_attribute (y_grid y_data) yc = Ok (Spec 1 0 yc)) as Hgc by (vm_compute; reflexivity).
  assert (length (gr_class_attrs (to_floats (λ l, l) (y_grid y_data))) = 3) as Hcols by (vm_compute; reflexivity).
  unfold fit in Hm1. clear fit Hd. remember (y_grid y_data) as g eqn:Hg. clear Hg.
  apply (C122_never y_exp y_draw (λ l, l) (λ l, l) (λ l, l) (λ l, l) (λ l, l) 64 (λ _, true) (untrained []) g m1 g m2 g d' "c" ["a"; "b"; "d"] (Hid _) (Hid _) Hit).
  - intros a Ha. rewrite Hall in Ha. apply elem_of_cons in Ha as [-> | Ha%elem_of_list_singleton]; [by eexists|subst; by eexists].
  - exact Hm1.
  - intros E. rewrite E in Hcols. discriminate Hcols.
  - reflexivity.
  - exact Hm2.
  - exact Hcl.
  - rewrite Hsz. lia.
Qed.
Print Assumptions C122_refuted.
