(** Predicting a class of two values with a layered network. *)
From Verif Require Import Prelude DenseProofs BytesModel BytesProofs FloatModel AttrModel AttrProofs StoreModel DenseModel DenseSpec GridModel GridSpec GridProofs
  FilterModel FilterSpec FilterProofs PredModel PredProofs BagModel
  CartModel MetricModel MetricSpec NeuralModel NeuralSpec NeuralProofs PercModel LinSpec LinProofs LayerModel LayerSpec LayerProofs LayerTrain LayerPredict LayerFloat.
Local Open Scope nat_scope.

Lemma run_rows_within {S} (f : S → list (list N) → nat → res (S * cb)) (P : S → Prop) rows s s' b n :
  (∀ s row i s' c, i < n → P s → f s row i = Ok (s', c) → P s') → (∀ i fetch, (i, fetch) ∈ rows → i < n) →
  P s → run_rows f s rows = Ok (s', b) → P s'.
Proof.
  intros Hf. revert s. induction rows as [|[i fetch] rows IH]; intros s Hin Hs; cbn [run_rows].
  - by intros [= <- <-].
  - intros H. apply bind_Ok in H as (row & _ & H). apply bind_Ok in H as ([s1 c] & H1 & H).
    assert (P s1). { eapply Hf; [|exact Hs|exact H1]. apply (Hin i fetch). left. }
    destruct c; [|by injection H as <- <-|by injection H as <- <-]. eapply IH; [|done|exact H]. intros j f' Hj. apply (Hin j f'). by right.
Qed.

Section two.
  Context (co ao : list attr → list attr) (order : list ((nat * nat) * bool) → list ((nat * nat) * bool)).
  Context (Ho : any_order order) (Hco : any_order co).
  Context (pg : nat) (same : attr → bool).

  (** A class of two values becomes a single column. *)
  Lemma two_columns g nm vs : gr_class_attrs g = [CatA nm vs] → length vs <= 2 →
    (∀ a, a ∈ gr_all_attrs g → attr_equals a (CatA nm vs) = true → a = CatA nm vs) →
    length (gr_class_attrs (to_floats co g)) <= 1.
  Proof using Hco.
    clear same pg Ho order ao. intros Hc Hvs Hown. cbn [to_floats lf_grid gr_class_attrs].
    set (lf := new_lfiltered g _). rewrite (Permutation_length (Hco (lf_class lf))).
    assert (∀ a, a ∈ lf_class lf → a = FloatA nm 2) as H2.
    { intros a Ha. apply (converted_class g _ Hc) in Ha as (p & Hp & Ha & [E|E]).
      - rewrite (Hown p Hp E) in Ha. cbn [float_columns] in Ha. destruct (decide _); [by apply elem_of_list_singleton in Ha|lia].
      - destruct p as [| n' vs'|]; cbn in Ha; [|destruct (decide _)|].
        + apply elem_of_list_singleton in Ha as ->. done.
        + apply elem_of_list_singleton in Ha as ->. done.
        + apply elem_of_list_In, in_map_iff in Ha as (v & <- & _). done.
        + apply elem_of_list_singleton in Ha as ->. done. }
    pose proof (lf_class_nodup g (float_filter (float_train convert_new (gr_all_attrs g)))) as H3. fold lf in H3.
    destruct (lf_class lf) as [|a [|a' l]]; [cbn; lia|cbn; lia|].
    exfalso. rewrite (H2 a), (H2 a') in H3 by (left || right; left). apply NoDup_cons in H3 as [H3 _]. apply H3. left.
  Qed.

  (** Reading at most one node gives one of two codes. *)
  Lemma one_node m what d nm vs order' : iter_agrees what → gr_class_attrs what = [CatA nm vs] → ml_count m <= 1 → (∀ k, order' k ≡ₚ k) →
    ml_predict co ao order pg same m what = Ok d →
    let p := dense_grid (order' (map_to_list (d_class d))) d in
    gr_class_attrs p = [CatA nm vs] ∧ (gr_size p).2 = (gr_size what).2 ∧
    ∃ s, gr_get_attribute p (CatA nm vs) = Ok s ∧ ∀ r, r < (gr_size what).2 →
      gr_get p s r = Ok (pack_u64 0) ∨ gr_get p s r = Ok (pack_u64 (Z.to_N ((- Z.of_nat (ml_offset m)) mod 2 ^ 64))).
  Proof using Ho.
    intros Hit Hc Hm Ho' H. destruct (cat_predict co ao order Ho pg same what nm vs Hc) as (d0 & Hp0 & E). rewrite E in H.
    destruct (ml_network m) as [n|]; [|done]. apply bind_Ok in H as (ispecs & Hi & H). apply bind_Ok in H as (r & Hr & [= <-]).
    set (off := pack_u64 (Z.to_N ((- Z.of_nat (ml_offset m)) mod 2 ^ 64))).
    set (P := λ d, ∃ f, predicted pg (CatA nm vs) (gr_size what).2 f d ∧ ∀ i, f i = None ∨ f i = Some (pack_u64 0) ∨ f i = Some off).
    assert (P r.1) as (f & Hp & Hf).
    { unfold map_over_rows in Hr. destruct (gr_iter _ ispecs) as [rows| |] eqn:Ei; [| |done].
      2:{ injection Hr as <-. exists (λ _, None). split; [done|]. auto. }
      destruct r as [d1 stop]. cbn [fst]. destruct (lf_parts what) as [Hsrc _].
      destruct (lf_rows_below _ ispecs rows ltac:(by rewrite Hsrc) Ei) as [Hperm _]. rewrite Hsrc in Hperm.
      eapply (run_rows_within _ P rows d0 d1 stop (gr_size what).2); [| | |exact Hr].
      - intros d row i d' c Hi' (f & Hp & Hf) Hs. unfold cat_step in Hs. apply bind_Ok in Hs as (x & _ & Hs). apply bind_Ok in Hs as (a & _ & Hs).
        apply bind_Ok in Hs as (code & Hcode & Hs). apply bind_Ok in Hs as (d2 & Hd2 & [= <- <-]).
        destruct (predicted_set pg (CatA nm vs) _ f d i (pack_u64 code) Hp Hi') as (d3 & Hd3 & Hp3); [done|]. rewrite Hd2 in Hd3. injection Hd3 as <-.
        eexists. split; [exact Hp3|]. intros j. cbn beta. destruct (bool_decide (j = i)); [|apply Hf]. right.
        destruct (ml_count m) as [|[|k]]; [| |lia].
        + unfold strongest in Hcode. cbn in Hcode. injection Hcode as <-. right. done.
        + apply strongest_one in Hcode as [-> | ->]; [by left|by right].
      - intros i fetch Hin. apply (elem_of_list_fmap_1 fst) in Hin. change (fst <$> rows) with (map fst rows) in Hin.
        rewrite Hperm in Hin. apply elem_of_seq in Hin. cbn in Hin. lia.
      - exists (λ _, None). split; [done|]. auto. }
    cbn [dense_grid gr_class_attrs gr_size snd gr_get_attribute gr_get].
    split; [apply (predicted_class_attrs _ _ _ _ _ _ Hp), Ho'|].
    split; [destruct Hp as (_ & Hmr & _); exact Hmr|].
    exists (Spec 0 0 (CatA nm vs)). split; [by apply (predicted_find _ _ _ _ _ Hp)|].
    intros q Hq. rewrite (predicted_get _ _ _ _ _ _ Hp Hq). destruct (Hf q) as [-> | [-> | ->]]; [left; reflexivity|left; reflexivity|right; reflexivity].
  Qed.
End two.
