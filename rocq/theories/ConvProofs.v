(** Proofs about data converted column by column. *)
From Verif Require Import Prelude BytesModel BytesProofs FloatModel AttrModel StoreModel DenseModel DenseProofs GridModel GridSpec
  SortModel FilterModel FilterSpec FilterProofs.
From Flocq Require Import IEEE754.Bits IEEE754.Binary.
Local Open Scope nat_scope.

Lemma new_lf_keeps src f : lf_filter (new_lfiltered src f) = f ∧ lf_src (new_lfiltered src f) = src.
Proof.
  unfold new_lfiltered. generalize (gr_class_attrs src). intros cs.
  assert (∀ l, lf_filter l = f → lf_src l = src →
    let l' := foldl (λ l c, match lf_add_class l c with Ok l' => l' | _ => l end) l cs in lf_filter l' = f ∧ lf_src l' = src) as H;
    [|by apply (H (LF f src []))].
  induction cs as [|c cs IH]; intros l H1 H2; [done|]. cbn. apply IH.
  - unfold lf_add_class. destruct (lf_unfiltered l c); [done|]. by destruct (map snd _).
  - unfold lf_add_class. destruct (lf_unfiltered l c); [done|]. by destruct (map snd _).
Qed.

Section columns.
  (** The columns made of each attribute, of a kind that compares by name. *)
  Context (columns : attr → list attr).
  Definition pairs (attrs : list attr) : list (attr * attr) := concat (map (λ a, map (λ n, (a, n)) (columns a)) attrs).
  Definition same_kind (n m : attr) : Prop := attr_equals n m = true ↔ attr_name n = attr_name m.

  Lemma elem_of_pairs attrs a n : (a, n) ∈ pairs attrs ↔ a ∈ attrs ∧ n ∈ columns a.
  Proof.
    unfold pairs. rewrite elem_of_list_In, in_concat. setoid_rewrite in_map_iff. split.
    - intros (l & (b & <- & Hb) & Hn). apply in_map_iff in Hn as (m & [= <- <-] & Hm).
      by rewrite !elem_of_list_In.
    - rewrite !elem_of_list_In. intros [Ha Hn]. eexists. split; [by exists a|]. apply in_map_iff. by exists n.
  Qed.
  Lemma pairs_names attrs : map attr_name (concat (map columns attrs)) = map (λ p, attr_name p.2) (pairs attrs).
  Proof.
    unfold pairs. induction attrs as [|a attrs IH]; [done|]. cbn. rewrite !map_app, IH. f_equal. by rewrite map_map.
  Qed.

  Lemma pairs_unique attrs a n b m : NoDup (map attr_name (concat (map columns attrs))) →
    (a, n) ∈ pairs attrs → (b, m) ∈ pairs attrs → attr_name n = attr_name m → a = b ∧ n = m.
  Proof.
    rewrite pairs_names. intros Hnd H1 H2 E.
    apply elem_of_list_lookup in H1 as [i Hi]. apply elem_of_list_lookup in H2 as [j Hj].
    assert (i = j) as ->; [|split; congruence].
    apply (NoDup_lookup _ i j (attr_name n) Hnd); change (map ?f ?l) with (f <$> l); rewrite list_lookup_fmap.
    - by rewrite Hi.
    - rewrite Hj. cbn. by rewrite E.
  Qed.

  Lemma find_new_ok l target : (∃ p, p ∈ l ∧ attr_equals p.2 target = true) → ∀ i, ∃ k, lf_find_new i l target = Some k.
  Proof.
    induction l as [|p l IH]; intros (q & Hq & E) i; [by apply elem_of_nil in Hq|]. cbn.
    destruct (attr_equals p.2 target) eqn:E'; [by eexists|]. apply elem_of_cons in Hq as [->|Hq]; [congruence|].
    apply IH. by exists q.
  Qed.

  Lemma own_column src tr attrs a n os row :
    (∀ b m, b ∈ attrs → m ∈ columns b → (∀ o, attr_equals o m = true → o ∈ attrs → o ∈ columns o ∧ attr_name o = attr_name m) ∧
       (∀ b' m', b' ∈ attrs → m' ∈ columns b' → same_kind m' m)) →
    (∀ b, b ∈ gr_all_attrs src → b ∈ attrs) → (∀ b, b ∈ attrs → columns b ≠ []) →
    NoDup (map attr_name (concat (map columns attrs))) →
    a ∈ attrs → n ∈ columns a → gr_get_attribute src a = Ok os → sp_attr os = a →
    let l := new_lfiltered src (Filter (pairs attrs) tr) in
    ∃ s, lf_get_attribute l n = Ok s ∧ sp_attr s = n ∧ lf_get l s row = (b ← gr_get src os row; tr a n b).
  Proof.
    intros Hk Hall Hne Hnd Ha Hn Hos Ea l. destruct (new_lf_keeps src (Filter (pairs attrs) tr)) as [Ef Es]. fold l in Ef, Es.
    assert (¬ untouched l n) as Hu.
    { intros [H1 H2]. rewrite Es in H1. apply Hall in H1. destruct (columns n) as [|m ms] eqn:E; [by apply (Hne n)|].
      apply (H2 m). rewrite Ef. apply elem_of_pairs. rewrite E. split; [done|left]. }
    assert ((a, n) ∈ pairs attrs) as Hp by (by apply elem_of_pairs).
    destruct (Hk a n Ha Hn) as [Ho Hsk].
    destruct (find_new_ok (pairs attrs) n) with (i := 0) as [k Hfind].
    { exists (a, n). split; [done|]. by apply (Hsk a n Ha Hn). }
    exists (Spec 0 k n). split; [|split; [done|]].
    - unfold lf_get_attribute. apply lf_filtered_spec in Hu. rewrite Hu, Ef. cbn [fl_attrs]. by rewrite Hfind.
    - rewrite (lf_get_touched l a n (Spec 0 k n) os row); [by rewrite Es, Ef, Ea|by rewrite Ef|done| |done|by rewrite Es].
      rewrite Ef. cbn [fl_attrs]. intros o m Hom He. destruct (proj1 (elem_of_pairs _ _ _) Hom) as [Hoa Hm].
      destruct He as [He|He].
      + destruct (Ho o He Hoa) as [H1 H2].
        destruct (pairs_unique attrs o o a n Hnd) as [-> _]; [by apply elem_of_pairs|done|done|done].
      + apply (Hsk o m Hoa Hm) in He. by destruct (pairs_unique attrs o m a n Hnd Hom Hp He).
  Qed.
End columns.

Lemma float_pairs attrs : float_filter (float_train convert_new attrs) =
  Filter (pairs float_columns attrs) (float_transform (float_train convert_new attrs)).
Proof. unfold float_filter. by rewrite float_converted. Qed.
Lemma binary_pairs attrs : binary_filter (binary_train convert_new attrs) =
  Filter (pairs binary_columns attrs) (binary_transform (binary_train convert_new attrs)).
Proof. unfold binary_filter. by rewrite binary_converted. Qed.

Lemma float_columns_kind a m : m ∈ float_columns a → ∃ n p, m = FloatA n p.
Proof.
  destruct a as [n p|n vs|n]; cbn.
  - intros ->%elem_of_list_singleton. eauto.
  - destruct (decide _); [intros ->%elem_of_list_singleton; eauto|].
    rewrite elem_of_list_In, in_map_iff. intros (v & <- & _). eauto.
  - intros ->%elem_of_list_singleton. eauto.
Qed.
Lemma binary_columns_kind a m : m ∈ binary_columns a → ∃ n, m = BinA n.
Proof.
  destruct a as [n p|n vs|n]; cbn.
  - intros ->%elem_of_list_singleton. eauto.
  - destruct (decide _); [intros ->%elem_of_list_singleton; eauto|].
    rewrite elem_of_list_In, in_map_iff. intros (v & <- & _). eauto.
  - intros ->%elem_of_list_singleton. eauto.
Qed.
Lemma columns_some a : float_columns a ≠ [] ∧ binary_columns a ≠ [].
Proof.
  destruct a as [n p|n vs|n]; cbn; [done| |done]. destruct (decide (length vs ≤ 2)) as [|H]; [done|].
  destruct vs; [cbn in H; lia|]. done.
Qed.

Lemma float_own src attrs a n os row :
  (∀ b, b ∈ gr_all_attrs src → b ∈ attrs) → NoDup (map attr_name (concat (map float_columns attrs))) →
  a ∈ attrs → n ∈ float_columns a → gr_get_attribute src a = Ok os → sp_attr os = a →
  let f := float_filter (float_train convert_new attrs) in let l := new_lfiltered src f in
  ∃ s, lf_get_attribute l n = Ok s ∧ sp_attr s = n ∧ lf_get l s row = (b ← gr_get src os row; fl_transform f a n b).
Proof.
  intros Hall Hnd Ha Hn Hos Ea f. unfold f. rewrite float_pairs.
  apply own_column; try done; [|intros; apply columns_some].
  intros b m Hb Hm. destruct (float_columns_kind b m Hm) as (x & p & ->). split.
  - intros o He _. destruct o as [y q|y vs|y]; cbn in He; try done. apply bool_decide_eq_true in He. subst y.
    split; [left|done].
  - intros b' m' _ Hm'. destruct (float_columns_kind b' m' Hm') as (y & q & ->). unfold same_kind. cbn.
    by rewrite bool_decide_eq_true.
Qed.
Lemma binary_own src attrs a n os row :
  (∀ b, b ∈ gr_all_attrs src → b ∈ attrs) → NoDup (map attr_name (concat (map binary_columns attrs))) →
  a ∈ attrs → n ∈ binary_columns a → gr_get_attribute src a = Ok os → sp_attr os = a →
  let f := binary_filter (binary_train convert_new attrs) in let l := new_lfiltered src f in
  ∃ s, lf_get_attribute l n = Ok s ∧ sp_attr s = n ∧ lf_get l s row = (b ← gr_get src os row; fl_transform f a n b).
Proof.
  intros Hall Hnd Ha Hn Hos Ea f. unfold f. rewrite binary_pairs.
  apply own_column; try done; [|intros; apply columns_some].
  intros b m Hb Hm. destruct (binary_columns_kind b m Hm) as (x & ->). split.
  - intros o He _. destruct o as [y q|y vs|y]; cbn in He; try done. apply bool_decide_eq_true in He. subst y.
    split; [left|done].
  - intros b' m' _ Hm'. destruct (binary_columns_kind b' m' Hm') as (y & ->). unfold same_kind. cbn.
    rewrite bool_decide_eq_true. done.
Qed.

(** ** Training again *)

Lemma float_again attrs : float_train (float_train convert_new attrs) attrs = float_train convert_new (attrs ++ attrs).
Proof. unfold float_train. by rewrite foldl_app. Qed.
Lemma binary_again attrs : binary_train (binary_train convert_new attrs) attrs = binary_train convert_new (attrs ++ attrs).
Proof. unfold binary_train. by rewrite foldl_app. Qed.

Lemma conv_two news attrs attrs' f f' a : conv_ok news attrs f → conv_ok news attrs' f' → (∀ a, a ∈ attrs ↔ a ∈ attrs') →
  bool_decide (a ∈ cv_two f) = bool_decide (a ∈ cv_two f').
Proof. intros (H & _) (H' & _) E. apply bool_decide_ext. rewrite H, H'. by setoid_rewrite E. Qed.
Lemma conv_many news attrs attrs' f f' n vs : conv_ok news attrs f → conv_ok news attrs' f' → (∀ a, a ∈ attrs ↔ a ∈ attrs') →
  CatA n vs ∈ attrs → bool_decide (CatA n vs ∈ cv_two f) = false →
  many_lookup (cv_many f) (CatA n vs) = many_lookup (cv_many f') (CatA n vs).
Proof.
  intros (H1 & H2 & _) (H1' & H2' & _) E Hin Ht. apply bool_decide_eq_false in Ht. rewrite H1 in Ht.
  destruct (decide (length vs ≤ 2)) as [|L]; [exfalso; eauto 10|].
  rewrite H2, H2'; [done| |lia|done|lia]. by apply E.
Qed.

Lemma float_transform_set attrs attrs' a n b : (∀ a, a ∈ attrs ↔ a ∈ attrs') → a ∈ attrs →
  float_transform (float_train convert_new attrs) a n b = float_transform (float_train convert_new attrs') a n b.
Proof.
  intros E Ha. pose proof (float_train_ok attrs) as H. pose proof (float_train_ok attrs') as H'.
  destruct a as [x p|x vs|x]; [done| |done]. unfold float_transform.
  destruct (unpack_u64 b) as [val| |]; [|done|done]. cbn [mbind res_bind].
  rewrite <- (conv_two _ _ _ _ _ (CatA x vs) H H' E).
  destruct (bool_decide (CatA x vs ∈ cv_two (float_train convert_new attrs))) eqn:Et; [done|].
  by rewrite (conv_many _ _ _ _ _ _ _ H H' E Ha Et).
Qed.
Lemma binary_transform_set attrs attrs' a n b : (∀ a, a ∈ attrs ↔ a ∈ attrs') → a ∈ attrs →
  binary_transform (binary_train convert_new attrs) a n b = binary_transform (binary_train convert_new attrs') a n b.
Proof.
  intros E Ha. pose proof (binary_train_ok attrs) as H. pose proof (binary_train_ok attrs') as H'.
  destruct a as [x p|x vs|x]; [done| |done]. unfold binary_transform.
  destruct (unpack_u64 b) as [val| |]; [|done|done]. cbn [mbind res_bind].
  rewrite <- (conv_two _ _ _ _ _ (CatA x vs) H H' E).
  destruct (bool_decide (CatA x vs ∈ cv_two (binary_train convert_new attrs))) eqn:Et; [done|].
  by rewrite (conv_many _ _ _ _ _ _ _ H H' E Ha Et).
Qed.
