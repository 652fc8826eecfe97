(** Lemmas about the model of layered networks. *)
From Coq Require Import Reals.
From Verif Require Import Prelude DenseProofs BytesModel FloatModel AttrModel StoreModel DenseModel GridModel GridSpec FilterModel PredModel BagModel
  CartModel MetricModel MetricSpec NeuralModel NeuralSpec NeuralProofs PercModel LayerModel LayerSpec.
From Flocq Require Import IEEE754.BinarySingleNaN IEEE754.Bits IEEE754.Binary.
Local Open Scope nat_scope.

(** ** Layers *)

Lemma sum_cons x l : sum_list (x :: l) = x + sum_list l.
Proof. done. Qed.
Lemma sum_nil : sum_list [] = 0.
Proof. done. Qed.

Lemma layer_ge sizes j : j < sum_list sizes → layer_of sizes j < length sizes.
Proof.
  revert j. induction sizes as [|s sizes IH]; intros j; rewrite ?sum_cons, ?sum_nil; cbn [layer_of length app]; [lia|]. intros H. destruct (j <? s) eqn:E; [lia|].
  apply Nat.ltb_ge in E. specialize (IH (j - s)). lia.
Qed.

Lemma layer_mono sizes i j : i <= j → j < sum_list sizes → layer_of sizes i <= layer_of sizes j.
Proof.
  revert i j. induction sizes as [|s sizes IH]; intros i j; rewrite ?sum_cons, ?sum_nil; cbn [layer_of length app]; [lia|]. intros H Hj.
  destruct (i <? s) eqn:Ei; [lia|]. apply Nat.ltb_ge in Ei.
  assert (j <? s = false) as -> by (apply Nat.ltb_ge; lia). specialize (IH (i - s) (j - s)). lia.
Qed.

Lemma layer_app sizes l j : j < sum_list sizes → layer_of (sizes ++ l) j = layer_of sizes j.
Proof.
  revert j. induction sizes as [|s sizes IH]; intros j; rewrite ?sum_cons, ?sum_nil; cbn [layer_of length app]; [lia|]. intros H. destruct (j <? s) eqn:E; [done|].
  apply Nat.ltb_ge in E. rewrite IH; [done|lia].
Qed.

Lemma layer_last sizes c j : sum_list sizes <= j → j < sum_list sizes + c → layer_of (sizes ++ [c]) j = length sizes.
Proof.
  revert j. induction sizes as [|s sizes IH]; intros j; rewrite ?sum_cons, ?sum_nil; cbn [layer_of length app].
  - intros _ H. by assert (j <? c = true) as -> by (apply Nat.ltb_lt; lia).
  - intros H1 H2. assert (j <? s = false) as -> by (apply Nat.ltb_ge; lia). rewrite IH; lia.
Qed.

Lemma sum_list_app l l' : sum_list (l ++ l') = sum_list l + sum_list l'.
Proof. induction l as [|x l IH]; [done|]. cbn [app]. rewrite !sum_cons, IH. lia. Qed.

(** ** Pairs *)

Lemma fully_elem base l base' l' p : p ∈ fully base l base' l' ↔
  ∃ j k, p = (base + S j, base' + S k) ∧ j < l ∧ k < l'.
Proof.
  unfold fully. rewrite <- flat_map_concat_map. rewrite elem_of_list_In, in_flat_map. split.
  - intros (j & Hj & Hp). apply in_seq in Hj. apply in_map_iff in Hp as (k & <- & Hk). apply in_seq in Hk.
    exists (j - 1), (k - 1). split; [f_equal; lia|lia].
  - intros (j & k & -> & Hj & Hk). exists (S j). split; [apply in_seq; lia|]. apply in_map_iff. exists (S k).
    split; [done|]. apply in_seq. lia.
Qed.

Fixpoint chain_pairs (base : nat) (sizes : list nat) : list (nat * nat) :=
  match sizes with
  | l :: ((l' :: _) as rest) => fully base l (base + l) l' ++ chain_pairs (base + l) rest
  | _ => []
  end.

Lemma chain_elem sizes : ∀ base p, p ∈ chain_pairs base sizes ↔
  ∃ s t, p = (base + S s, base + S t) ∧ next_layer sizes s t.
Proof.
  induction sizes as [|l sizes IH]; intros base p.
  { split; [intros H; by apply elem_of_nil in H|]. intros (s & t & _ & H & _). rewrite sum_nil in H. lia. }
  destruct sizes as [|l' rest].
  { split; [intros H; by apply elem_of_nil in H|]. intros (s & t & _ & H1 & H2 & H3). rewrite sum_cons, sum_nil in *. cbn [layer_of] in H3.
    destruct (t <? l) eqn:E; [done|]. apply Nat.ltb_ge in E. lia. }
  change (chain_pairs base (l :: l' :: rest)) with (fully base l (base + l) l' ++ chain_pairs (base + l) (l' :: rest)).
  rewrite elem_of_app, IH, fully_elem. split.
  - intros [(j & k & -> & Hj & Hk) | (s & t & -> & H1 & H2 & H3)].
    + exists j, (l + k). split; [f_equal; lia|]. split; [|split]; [rewrite !sum_cons; lia|rewrite !sum_cons; lia|].
      cbn [layer_of]. assert (j <? l = true) as -> by (by apply Nat.ltb_lt). assert (l + k <? l = false) as -> by (apply Nat.ltb_ge; lia).
      replace (l + k - l) with k by lia. by assert (k <? l' = true) as -> by (by apply Nat.ltb_lt).
    + exists (l + s), (l + t). split; [f_equal; lia|].
      change (sum_list (l' :: rest)) with (l' + sum_list rest) in *.
      split; [|split]; [rewrite !sum_cons; lia|rewrite !sum_cons; lia|]. change (layer_of (l :: l' :: rest) ?j) with (if j <? l then 0 else S (layer_of (l' :: rest) (j - l))).
      assert (l + t <? l = false) as -> by (apply Nat.ltb_ge; lia). assert (l + s <? l = false) as -> by (apply Nat.ltb_ge; lia).
      replace (l + s - l) with s by lia. replace (l + t - l) with t by lia. by rewrite H3.
  - intros (s & t & -> & H1 & H2 & H3).
    change (layer_of (l :: l' :: rest) ?j) with (if j <? l then 0 else S (layer_of (l' :: rest) (j - l))) in H3.
    rewrite !sum_cons in *. destruct (t <? l) eqn:Et; [done|]. apply Nat.ltb_ge in Et. destruct (s <? l) eqn:Es.
    + apply Nat.ltb_lt in Es. left. exists s, (t - l). split; [f_equal; lia|]. split; [done|]. injection H3 as H3. cbn [layer_of] in H3.
      destruct (t - l <? l') eqn:Ek; [by apply Nat.ltb_lt|done].
    + apply Nat.ltb_ge in Es. right. exists (s - l), (t - l). split; [f_equal; lia|]. split; [rewrite !sum_cons; lia|]. split; [rewrite !sum_cons; lia|].
      by injection H3 as H3.
Qed.

Lemma chain_split layers c : ∀ base p, p ∈ chain_pairs base (layers ++ [c]) ↔ p ∈ hidden_pairs base layers ∨ p ∈ last_pairs base layers c.
Proof.
  induction layers as [|l layers IH]; intros base p.
  { cbn. split; [intros H; by apply elem_of_nil in H|]. intros [H|H]; by apply elem_of_nil in H. }
  destruct layers as [|l' rest].
  { cbn. rewrite app_nil_r. split; [by right|]. intros [H|H]; [by apply elem_of_nil in H|done]. }
  change (chain_pairs base ((l :: l' :: rest) ++ [c])) with (fully base l (base + l) l' ++ chain_pairs (base + l) ((l' :: rest) ++ [c])).
  change (hidden_pairs base (l :: l' :: rest)) with (fully base l (base + l) l' ++ hidden_pairs (base + l) (l' :: rest)).
  change (last_pairs base (l :: l' :: rest) c) with (last_pairs (base + l) (l' :: rest) c).
  rewrite !elem_of_app, IH. tauto.
Qed.

Lemma pairs_all layers inputs outputs p :
  (p ∈ hidden_pairs inputs layers ∨ p ∈ last_pairs inputs layers outputs ∨
   p ∈ fully 0 inputs inputs (match layers with l :: _ => l | [] => outputs end)) ↔
  ∃ s t, p = (S s, S t) ∧ next_layer (inputs :: layers ++ [outputs]) s t.
Proof.
  transitivity (p ∈ chain_pairs 0 (inputs :: layers ++ [outputs])); [|exact (chain_elem _ 0 p)].
  assert (∀ h, p ∈ chain_pairs 0 (inputs :: h) ↔ p ∈ fully 0 inputs inputs (match h with l :: _ => l | [] => 0 end) ∨ p ∈ chain_pairs inputs h) as E.
  { intros [|l h].
    - cbn [chain_pairs]. rewrite fully_elem. split; [intros H; by apply elem_of_nil in H|]. intros [(j & k & _ & _ & H)|H]; [lia|by apply elem_of_nil in H].
    - change (chain_pairs 0 (inputs :: l :: h)) with (fully 0 inputs (0 + inputs) l ++ chain_pairs (0 + inputs) (l :: h)).
      rewrite elem_of_app. done. }
  rewrite E, chain_split. destruct layers as [|l layers]; cbn [app]; tauto.
Qed.

Lemma hidden_nodes_elem layers : ∀ base k, k ∈ hidden_nodes base layers ↔ base < k ∧ k <= base + sum_list layers.
Proof.
  induction layers as [|l layers IH]; intros base k; cbn [hidden_nodes].
  - rewrite sum_nil. split; [intros H; by apply elem_of_nil in H|lia].
  - rewrite elem_of_app, IH, elem_of_list_In, in_map_iff. change (sum_list (l :: layers)) with (l + sum_list layers). split.
    + intros [(j & <- & Hj)|H]; [apply in_seq in Hj|]; lia.
    + intros H. destruct (decide (k <= base + l)); [left; exists (k - base); split; [lia|]; apply in_seq; lia|right; lia].
Qed.

(** ** The network before training *)

Section init.
  Variable exp : binary64 → binary64.
  Variable draw : nat → binary64.
  Notation sm := (small draw).
  Notation fl := float64.

  Lemma set_weights_ok (n : network binary64) N I W b f k pairs : holds_net n N I W b f →
    (∀ p, p ∈ pairs → ∃ s t, p = (S s, S t) ∧ s < N ∧ t < N) →
    ∃ n' W', set_weights draw n k pairs = Ok n' ∧ n_orig n' = n_orig n ∧ holds_net n' N I W' b f ∧
      (∀ s t, (S s, S t) ∈ pairs → ∃ i, W' t s = sm i) ∧ (∀ s t, (S s, S t) ∉ pairs → W' t s = W t s).
  Proof.
    intros Hh Hp. unfold set_weights.
    assert (∀ d, ∃ n' W', res_foldl (λ n '(i, (s, t)), set_weight n s t (sm (k + i))) n (imap (λ i, pair (d + i)) pairs) = Ok n' ∧
      n_orig n' = n_orig n ∧ holds_net n' N I W' b f ∧
      (∀ s t, (S s, S t) ∈ pairs → ∃ i, W' t s = sm i) ∧ (∀ s t, (S s, S t) ∉ pairs → W' t s = W t s)) as E; [|exact (E 0)].
    revert n W Hh Hp. induction pairs as [|p pairs IH]; intros n W Hh Hp d.
    - exists n, W. cbn. repeat split; try apply Hh. intros s t H. by apply elem_of_nil in H.
    - destruct (Hp p) as (s & t & -> & Hs & Ht); [left|]. cbn [imap res_foldl]. rewrite Nat.add_0_r.
      destruct (set_weight_ok n N I W b f s t (sm (k + d)) Hh Hs Ht) as (n1 & Hn1 & Ho1 & Hh1). rewrite Hn1. cbn [mbind res_bind].
      destruct (IH n1 _ Hh1 ltac:(intros q Hq; apply Hp; by right) (S d)) as (n' & W' & Hn' & Ho' & Hh' & H1 & H2).
      exists n', W'. split; [|split; [congruence|split; [done|split]]].
      + rewrite <- Hn'. f_equal. apply imap_ext. intros i q _. cbn. by replace (d + S i) with (S d + i) by lia.
      + intros s' t' Hin. destruct (decide ((S s', S t') ∈ pairs)) as [Hd|Hd]; [by apply H1|].
        apply elem_of_cons in Hin as [[= -> ->]|Hin]; [|done]. exists (k + d). rewrite H2 by done. unfold put. by rewrite !Nat.eqb_refl.
      + intros s' t' Hin. apply not_elem_of_cons in Hin as [Hne Hin]. rewrite H2 by done. unfold put. destruct (_ && _) eqn:E; [|done].
        apply andb_true_iff in E as [E1 E2]. apply Nat.eqb_eq in E1, E2. by subst.
  Qed.

  Lemma set_biases_ok (n : network binary64) N I W b f k nodes : holds_net n N I W b f → (∀ x, x ∈ nodes → x <= N) →
    ∃ n' b', set_biases draw n k nodes = Ok n' ∧ n_orig n' = n_orig n ∧ holds_net n' N I W b' f ∧
      (∀ j, I <= j → S j ∈ nodes → ∃ i, b' j = sm i) ∧ (∀ j, S j ∉ nodes → b' j = b j) ∧ (∀ j, j < I → b' j = b j).
  Proof.
    intros Hh Hp. unfold set_biases.
    assert (∀ d, ∃ n' b', res_foldl (λ n '(i, x), set_bias n x (sm (k + i))) n (imap (λ i, pair (d + i)) nodes) = Ok n' ∧
      n_orig n' = n_orig n ∧ holds_net n' N I W b' f ∧
      (∀ j, I <= j → S j ∈ nodes → ∃ i, b' j = sm i) ∧ (∀ j, S j ∉ nodes → b' j = b j) ∧ (∀ j, j < I → b' j = b j)) as E; [|exact (E 0)].
    revert n b Hh Hp. induction nodes as [|x nodes IH]; intros n b Hh Hp d.
    - exists n, b. cbn. repeat split; try apply Hh. intros j _ H. by apply elem_of_nil in H.
    - cbn [imap res_foldl]. rewrite Nat.add_0_r.
      assert (∃ n1 b1, set_bias n x (sm (k + d)) = Ok n1 ∧ n_orig n1 = n_orig n ∧ holds_net n1 N I W b1 f ∧
        (∀ j, j < I → b1 j = b j) ∧ (∀ j, S j ≠ x → b1 j = b j) ∧ (∀ j, I <= j → S j = x → b1 j = sm (k + d))) as (n1 & b1 & Hn1 & Ho1 & Hh1 & Hb1 & Hb2 & Hb3).
      { destruct x as [|x].
        - exists n, b. split; [done|]. split; [done|]. split; [done|]. split; [done|]. split; [done|]. lia.
        - destruct (set_bias_ok n N I W b f x (sm (k + d)) Hh) as (n1 & H1 & H2 & H3); [apply Nat.lt_le_trans with (S x); [lia|]; apply Hp; left|].
          eexists n1, _. split; [done|]. split; [done|]. split; [exact H3|]. destruct (x <? I) eqn:E.
          + apply Nat.ltb_lt in E. split; [done|]. split; [done|]. intros j Hj [= ->]. lia.
          + apply Nat.ltb_ge in E. unfold put1. split; [|split].
            * intros j Hj. by assert (j =? x = false) as -> by (apply Nat.eqb_neq; lia).
            * intros j Hj. by assert (j =? x = false) as -> by (apply Nat.eqb_neq; lia).
            * intros j Hj [= ->]. by rewrite Nat.eqb_refl. }
      rewrite Hn1. cbn [mbind res_bind].
      destruct (IH n1 b1 Hh1 ltac:(intros q Hq; apply Hp; by right) (S d)) as (n' & b' & Hn' & Ho' & Hh' & H1 & H2 & H3).
      exists n', b'. split; [|split; [congruence|split; [done|split; [|split]]]].
      + rewrite <- Hn'. f_equal. apply imap_ext. intros i q _. cbn. by replace (d + S i) with (S d + i) by lia.
      + intros j Hj Hin. destruct (decide (S j ∈ nodes)) as [Hd|Hd]; [by apply H1|].
        apply elem_of_cons in Hin as [Hx|Hin]; [|done]. exists (k + d). rewrite H2 by done. by apply Hb3.
      + intros j Hin. apply not_elem_of_cons in Hin as [Hne Hin]. rewrite H2 by done. by apply Hb2.
      + intros j Hj. rewrite H3 by done. by apply Hb1.
  Qed.

  Definition start_funcs (I : nat) (j : nat) : nfun binary64 := if j <? I then linear fl else sigmoid fl exp.

  Lemma ml_init_ok layers I C : 0 < I + C + sum_list layers →
    ∃ n W b, ml_init exp draw layers I C = Ok n ∧ n_orig n = None ∧
      holds_net n (I + C + sum_list layers) I W b (start_funcs I) ∧
      (∀ s t, next_layer (I :: layers ++ [C]) s t → ∃ i, W t s = sm i) ∧
      (∀ s t, ¬ next_layer (I :: layers ++ [C]) s t → W t s = if (t =? s) && (t <? I) then a_one fl else a_zero fl) ∧
      (∀ j, j < I → b j = a_zero fl) ∧ (∀ j, I <= j → S j < I + C + sum_list layers → ∃ i, b j = sm i) ∧
      (0 < C → b (I + C + sum_list layers - 1) = a_zero fl).
  Proof.
    intros H0. set (N := I + C + sum_list layers) in *. unfold ml_init. fold N.
    destruct (net_new_ok fl N I (sigmoid fl exp) H0 ltac:(unfold N; lia)) as (n0 & -> & Ho0 & Hh0). cbn [mbind res_bind].
    set (p1 := hidden_pairs I layers). set (b1 := hidden_nodes I layers). set (b2 := map (λ i, I + sum_list layers + i) (seq 0 C)).
    set (p2 := last_pairs I layers C). set (p3 := fully 0 I I (match layers with l :: _ => l | [] => C end)).
    assert (∀ p, (p ∈ p1 ∨ p ∈ p2 ∨ p ∈ p3) ↔ ∃ s t, p = (S s, S t) ∧ next_layer (I :: layers ++ [C]) s t) as HP by (intros p; apply pairs_all).
    assert (∀ p, (p ∈ p1 ∨ p ∈ p2 ∨ p ∈ p3) → ∃ s t, p = (S s, S t) ∧ s < N ∧ t < N) as HR.
    { intros p Hp. apply HP in Hp as (s & t & -> & H1 & H2 & _). rewrite sum_cons, sum_list_app, sum_cons, sum_nil in H1, H2.
      exists s, t. split; [done|]. unfold N. lia. }
    destruct (set_weights_ok n0 N I _ _ _ 0 p1 Hh0 ltac:(intros p Hp; apply HR; by left)) as (n1 & W1 & -> & Ho1 & Hh1 & Hin1 & Hout1). cbn [mbind res_bind].
    destruct (set_biases_ok n1 N I _ _ _ (length p1) b1 Hh1) as (n2 & c1 & -> & Ho2 & Hh2 & Hc1 & Hc2 & Hc3).
    { intros x Hx. apply hidden_nodes_elem in Hx. unfold N. lia. }
    cbn [mbind res_bind].
    destruct (set_biases_ok n2 N I _ _ _ (length p1 + length b1) b2 Hh2) as (n3 & c2 & -> & Ho3 & Hh3 & Hd1 & Hd2 & Hd3).
    { intros x Hx. apply elem_of_list_In, in_map_iff in Hx as (i & <- & Hi). apply in_seq in Hi. unfold N. lia. }
    cbn [mbind res_bind].
    destruct (set_weights_ok n3 N I _ _ _ (length p1 + length b1 + length b2) p2 Hh3 ltac:(intros p Hp; apply HR; by right; left)) as (n4 & W2 & -> & Ho4 & Hh4 & Hin2 & Hout2). cbn [mbind res_bind].
    destruct (set_weights_ok n4 N I _ _ _ (length p1 + length b1 + length b2 + length p2) p3 Hh4 ltac:(intros p Hp; apply HR; by right; right)) as (n5 & W3 & -> & Ho5 & Hh5 & Hin3 & Hout3).
    exists n5, W3, c2. split; [done|]. split; [congruence|]. split; [exact Hh5|]. split; [|split; [|split; [|split]]].
    - intros s t Hn. destruct (decide ((S s, S t) ∈ p3)) as [H3|H3]; [by apply Hin3|]. rewrite Hout3 by done.
      destruct (decide ((S s, S t) ∈ p2)) as [H2|H2]; [by apply Hin2|]. rewrite Hout2 by done. apply Hin1.
      assert ((S s, S t) ∈ p1 ∨ (S s, S t) ∈ p2 ∨ (S s, S t) ∈ p3) by (apply HP; eauto). tauto.
    - intros s t Hn. assert (¬ ((S s, S t) ∈ p1 ∨ (S s, S t) ∈ p2 ∨ (S s, S t) ∈ p3)) as Hno.
      { intros Hx. apply HP in Hx as (s' & t' & [= <- <-] & Hx). by apply Hn. }
      rewrite Hout3, Hout2, Hout1 by tauto. done.
    - intros j Hj. rewrite Hd3, Hc3 by done. done.
    - intros j Hj Hj'. destruct (decide (S j ∈ b2)) as [Hb|Hb]; [by apply Hd1|]. rewrite Hd2 by done. apply Hc1; [done|].
      apply hidden_nodes_elem. destruct (decide (S j <= I + sum_list layers)); [lia|]. exfalso. apply Hb. unfold b2.
      apply elem_of_list_In, in_map_iff. exists (S j - I - sum_list layers). split; [lia|]. apply in_seq. unfold N in Hj'. lia.
    - intros HC. rewrite Hd2, Hc2; [done| |].
      + intros Hb. apply hidden_nodes_elem in Hb. unfold N in Hb. lia.
      + intros Hb. apply elem_of_list_In, in_map_iff in Hb as (i & Hi & Hs). apply in_seq in Hs. unfold N in Hi. lia.
  Qed.
End init.
