(** Lemmas about filters. *)
From Verif Require Import Prelude BytesModel BytesProofs FloatModel FloatProofs FloatOrder
  AttrModel AttrSpec AttrProofs StoreModel DenseModel DenseSpec DenseProofs
  GridModel GridSpec GridProofs SortModel SortProofs FilterModel FilterSpec.
From Flocq Require Import IEEE754.Bits IEEE754.Binary.
From Coq Require Import QArith.
Local Open Scope nat_scope.

(** ** LazilyFilteredInstances *)

Lemma lf_get_unfiltered l s row :
  lf_unfiltered l (sp_attr s) = true → lf_get l s row = gr_get (lf_src l) s row.
Proof.
  intros H. unfold lf_get, lf_old. rewrite H. by destruct (gr_get (lf_src l) s row).
Qed.

Lemma lf_match_Some l c p : lf_match l c = Some p →
  p ∈ l ∧ attr_equals p.1 c || attr_equals p.2 c = true.
Proof.
  induction l as [|q l IH]; [done|]. cbn [lf_match].
  destruct (attr_equals q.1 c || attr_equals q.2 c) eqn:E.
  - intros [= ->]. split; [left|done].
  - intros H. destruct (IH H) as [H1 H2]. split; [by right|done].
Qed.

Lemma lf_match_None l c : lf_match l c = None →
  ∀ p, p ∈ l → attr_equals p.1 c || attr_equals p.2 c = false.
Proof.
  induction l as [|q l IH]; intros H p Hp; [by apply elem_of_nil in Hp|]. cbn [lf_match] in H.
  destruct (attr_equals q.1 c || attr_equals q.2 c) eqn:E; [done|].
  apply elem_of_cons in Hp as [->|Hp]; [done|by apply IH].
Qed.

Lemma attr_equals_refl a : attr_equals a a = true.
Proof. apply attr_equals_spec. destruct a; done. Qed.

Lemma lf_get_filtered l old new s os row :
  (old, new) ∈ fl_attrs (lf_filter l) → lf_unfiltered l new = false →
  (∀ o n, (o, n) ∈ fl_attrs (lf_filter l) →
     attr_equals o new = true ∨ attr_equals n new = true → o = old) →
  sp_attr s = new → gr_get_attribute (lf_src l) old = Ok os →
  lf_get l s row =
    (b ← gr_get (lf_src l) os row; fl_transform (lf_filter l) (sp_attr os) new b).
Proof.
  intros Hin Hu Hone <- Hos. unfold lf_get, lf_old. rewrite Hu.
  destruct (lf_match _ _) as [[o n]|] eqn:E.
  - apply lf_match_Some in E as [Hin' Heq]. cbn [fst snd] in *.
    apply orb_true_iff in Heq. rewrite (Hone o n Hin' Heq), Hos. done.
  - pose proof (lf_match_None _ _ E _ Hin) as H. cbn [fst snd] in H.
    apply orb_false_iff in H as [_ H]. by rewrite attr_equals_refl in H.
Qed.

Lemma lf_row_spec f olds : ∀ news row buf,
  length olds = length news → length row = length news →
  lf_row f olds news row = Ok buf ↔
  Forall2 (λ '(o, n, b) b', fl_transform f (sp_attr o) (sp_attr n) b = Ok b')
    (zip (zip olds news) row) buf.
Proof.
  induction olds as [|o olds IH]; intros [|n news] [|b row] buf H1 H2; try discriminate.
  - simpl. split; [intros [= <-]; constructor|]. intros H. by apply Forall2_nil_inv_l in H as ->.
  - cbn [lf_row zip]. injection H1 as H1. injection H2 as H2. split.
    + intros H. apply bind_Ok in H as (b' & Hb & H). apply bind_Ok in H as (rest & Hr & H).
      injection H as <-. constructor; [done|]. by apply IH.
    + intros H. apply Forall2_cons_inv_l in H as (b' & rest & Hb & Hr & ->).
      cbn in Hb. rewrite Hb. cbn [mbind res_bind].
      apply IH in Hr; [|done|done]. by rewrite Hr.
Qed.

Lemma lf_cell l s o i b :
  lf_old l s = Ok o →
  (lf_unfiltered l (sp_attr s) = true → leaves_alone (lf_filter l) (sp_attr s)) →
  lf_get l s i = Ok b ↔
    ∃ raw, gr_get (lf_src l) o i = Ok raw ∧
      fl_transform (lf_filter l) (sp_attr o) (sp_attr s) raw = Ok b.
Proof.
  intros Ho Hu. unfold lf_get. rewrite Ho. destruct (lf_unfiltered l (sp_attr s)) eqn:E.
  - assert (o = s) as -> by (unfold lf_old in Ho; rewrite E in Ho; congruence).
    specialize (Hu eq_refl). split.
    + intros H. apply bind_Ok in H as (raw & Hr & [= ->]). exists b. split; [done|apply Hu].
    + intros (raw & -> & H). rewrite Hu in H. injection H as ->. done.
  - split.
    + intros H. apply bind_Ok in H as (raw & Hr & H). by exists raw.
    + intros (raw & -> & H). done.
Qed.

Lemma lf_iter_agrees l asv :
  iter_agrees (lf_src l) →
  (∀ s, s ∈ asv → lf_readable l s) →
  (∀ s, s ∈ asv → lf_unfiltered l (sp_attr s) = true → leaves_alone (lf_filter l) (sp_attr s)) →
  ∃ rows, lf_iter l asv = Ok rows ∧ map fst rows ≡ₚ seq 0 (lf_size l).2 ∧
    ∀ i fetch, (i, fetch) ∈ rows → ∀ buf,
      fetch = Ok buf ↔ res_mapM (λ s, lf_get l s i) asv = Ok buf.
Proof.
  intros Hit Hr Hu.
  assert (∃ olds, res_mapM (lf_old l) asv = Ok olds ∧ Forall2 (λ s o, lf_old l s = Ok o) asv olds)
    as (olds & Holds & HF).
  { clear Hu. induction asv as [|s asv IH]; [by exists []|].
    destruct (Hr s) as [o Ho]; [left|]. destruct IH as (olds & H1 & H2); [intros; apply Hr; by right|].
    exists (o :: olds). split; [|by constructor]. cbn [res_mapM]. rewrite Ho. cbn [mbind res_bind].
    by rewrite H1. }
  unfold lf_iter. rewrite Holds. cbn [mbind res_bind].
  destruct (Hit olds) as (rows & Hrows & Hp & Hf). rewrite Hrows. cbn [mbind res_bind].
  eexists. split; [reflexivity|]. split.
  - rewrite map_map. rewrite (map_ext _ fst); [done|]. by intros [i fetch].
  - intros i fetch Hin buf. apply elem_of_list_fmap in Hin as ([i' fetch'] & [= -> ->] & Hin).
    rewrite (Hf _ _ Hin).
    pose proof (Forall2_length _ _ _ HF) as Hlen.
    split.
    + intros H. apply bind_Ok in H as (raws & Hraws & H).
      apply res_mapM_Ok in Hraws. pose proof (Forall2_length _ _ _ Hraws).
      apply lf_row_spec in H; [|lia|lia]. apply res_mapM_Ok.
      clear Hin Hf Hrows Hp rows Holds Hr.
      revert olds HF Hlen raws buf Hraws H H0.
      induction asv as [|s asv IH]; intros olds HF Hlen raws buf Hraws H Hl.
      * apply Forall2_nil_inv_l in HF as ->. apply Forall2_nil_inv_l in Hraws as ->.
        apply Forall2_nil_inv_l in H as ->. constructor.
      * apply Forall2_cons_inv_l in HF as (o & olds' & Ho & HF & ->).
        apply Forall2_cons_inv_l in Hraws as (raw & raws' & Hraw & Hraws & ->).
        cbn [zip] in H. apply Forall2_cons_inv_l in H as (b & buf' & Hb & Hbuf & ->).
        constructor.
        -- apply (lf_cell l s o i' b Ho); [apply Hu; left|]. by exists raw.
        -- eapply IH; try done; [intros; apply Hu; [by right|done]|by injection Hlen..|by injection Hl].
    + intros H. apply res_mapM_Ok in H.
      assert (∃ raws, Forall2 (λ o raw, gr_get (lf_src l) o i' = Ok raw) olds raws ∧
        Forall2 (λ '(o, n, b) b', fl_transform (lf_filter l) (sp_attr o) (sp_attr n) b = Ok b')
          (zip (zip olds asv) raws) buf) as (raws & H1 & H2).
      { clear Hin Hf Hrows Hp rows Holds Hr. revert olds HF Hlen buf H.
        induction asv as [|s asv IH]; intros olds HF Hlen buf H.
        - apply Forall2_nil_inv_l in HF as ->. apply Forall2_nil_inv_l in H as ->.
          exists []. split; constructor.
        - apply Forall2_cons_inv_l in HF as (o & olds' & Ho & HF & ->).
          apply Forall2_cons_inv_l in H as (b & buf' & Hb & Hbuf & ->).
          apply (lf_cell l s o i' b Ho) in Hb as (raw & Hg & Ht); [|apply Hu; left].
          destruct (IH ltac:(intros; apply Hu; [by right|done]) olds' HF
            ltac:(by injection Hlen) buf' Hbuf) as (raws & H1 & H2).
          exists (raw :: raws). split; [by constructor|]. cbn [zip]. by constructor. }
      assert (res_mapM (λ a, gr_get (lf_src l) a i') olds = Ok raws) as -> by (by apply res_mapM_Ok).
      cbn [mbind res_bind]. pose proof (Forall2_length _ _ _ H1).
      apply lf_row_spec; [lia|lia|done].
Qed.

(** Shape. *)

Lemma lf_columns l :
  (∀ a, a ∈ gr_all_attrs (lf_src l) → lf_unfiltered l a = false →
     length (filter (λ p, attr_equals a p.1 = true) (fl_attrs (lf_filter l))) = 1) →
  length (lf_all_attrs l) = length (gr_all_attrs (lf_src l)).
Proof.
  unfold lf_all_attrs. generalize (gr_all_attrs (lf_src l)) as attrs.
  induction attrs as [|a attrs IH]; intros H; [done|].
  cbn [map concat]. rewrite app_length, IH by (intros; apply H; [by right|done]).
  destruct (lf_unfiltered l a) eqn:E; [done|]. rewrite map_length, (H a); [done|left|done].
Qed.

(** ** FloatConvertFilter, BinaryConvertFilter *)

Lemma string_app_inj (p a b : string) : p +:+ a = p +:+ b → a = b.
Proof. induction p as [|c p IH]; [done|]. cbn. intros [= H]. by apply IH. Qed.

(** What one attribute contributes to a filter trained from scratch. *)
Definition conv_ok (news : string → list string → list attr) (attrs : list attr) (f : convert) : Prop :=
  (∀ a, a ∈ cv_two f ↔ ∃ n vs, a = CatA n vs ∧ length vs ≤ 2 ∧ a ∈ attrs) ∧
  (∀ n vs, CatA n vs ∈ attrs → 2 < length vs →
     many_lookup (cv_many f) (CatA n vs) = Some (news n vs)) ∧
  (∀ n vs m, many_lookup (cv_many f) (CatA n vs) = Some m → m = news n vs).

Definition float_news (n : string) (vs : list string) : list attr :=
  map (λ v, FloatA (n +:+ "_" +:+ v) 2) vs.
Definition binary_news (n : string) (vs : list string) : list attr :=
  map (λ v, BinA (n +:+ "_" +:+ v)) vs.

Lemma many_lookup_cons b m l a :
  many_lookup ((b, m) :: l) a = if bool_decide (b = a) then Some m else many_lookup l a.
Proof. done. Qed.

Lemma conv_ok_step news attrs f a f' :
  conv_ok news attrs f →
  match a with
  | CatA n vs =>
      if length vs <=? 2 then cv_two f' = a :: cv_two f ∧ cv_many f' = cv_many f
      else cv_two f' = cv_two f ∧ cv_many f' = (a, news n vs) :: cv_many f
  | _ => cv_two f' = cv_two f ∧ cv_many f' = cv_many f
  end →
  conv_ok news (attrs ++ [a]) f'.
Proof.
  intros (H1 & H2 & H3) Hs. destruct a as [n p|n vs|n].
  - destruct Hs as [E1 E2]. unfold conv_ok. rewrite E1, E2. split; [|split; [|done]].
    + intros a. rewrite H1. setoid_rewrite elem_of_app. setoid_rewrite elem_of_list_singleton. naive_solver.
    + intros m vs. rewrite elem_of_app, elem_of_list_singleton. intros [H|H]; [by apply H2|done].
  - destruct (length vs <=? 2) eqn:E; destruct Hs as [E1 E2]; unfold conv_ok; rewrite E1, E2.
    + apply Nat.leb_le in E. split; [|split; [|done]].
      * intros a. rewrite elem_of_cons, H1. setoid_rewrite elem_of_app. setoid_rewrite elem_of_list_singleton.
        split; [naive_solver|]. intros (n' & vs' & -> & Hl & [Hin|Hin]); naive_solver.
      * intros m ws. rewrite elem_of_app, elem_of_list_singleton. intros [H|[= -> ->]] Hl; [by apply H2|lia].
    + apply Nat.leb_gt in E. split; [|split].
      * intros a. rewrite H1. setoid_rewrite elem_of_app. setoid_rewrite elem_of_list_singleton.
        split; [naive_solver|]. intros (n' & vs' & -> & Hl & [Hin|[= -> ->]]); [naive_solver|lia].
      * intros m ws. rewrite elem_of_app, elem_of_list_singleton, many_lookup_cons. intros Hin Hl.
        case_bool_decide as Hd; [by injection Hd as -> ->|]. destruct Hin as [Hin|Hin]; [by apply H2|naive_solver].
      * intros m ws r. rewrite many_lookup_cons. case_bool_decide as Hd; [|apply H3].
        injection Hd as -> ->. naive_solver.
  - destruct Hs as [E1 E2]. unfold conv_ok. rewrite E1, E2. split; [|split; [|done]].
    + intros a. rewrite H1. setoid_rewrite elem_of_app. setoid_rewrite elem_of_list_singleton. naive_solver.
    + intros m vs. rewrite elem_of_app, elem_of_list_singleton. intros [H|H]; [by apply H2|done].
Qed.

Lemma conv_ok_new news : conv_ok news [] convert_new.
Proof.
  split; [|split].
  - intros a. simpl. rewrite elem_of_nil. split; [done|]. intros (? & ? & _ & _ & H). by apply elem_of_nil in H.
  - intros n vs H. by apply elem_of_nil in H.
  - done.
Qed.

Lemma float_train_ok attrs : conv_ok float_news attrs (float_train convert_new attrs).
Proof.
  induction attrs as [|a attrs IH] using rev_ind; [apply conv_ok_new|].
  unfold float_train. rewrite foldl_app. cbn [foldl].
  apply (conv_ok_step _ _ _ _ _ IH). unfold float_train_one. destruct a as [| |]; [done| |done].
  destruct (length values <=? 2); done.
Qed.

Lemma binary_train_ok attrs : conv_ok binary_news attrs (binary_train convert_new attrs).
Proof.
  induction attrs as [|a attrs IH] using rev_ind; [apply conv_ok_new|].
  unfold binary_train. rewrite foldl_app. cbn [foldl].
  apply (conv_ok_step _ _ _ _ _ IH). unfold binary_train_one. destruct a as [| |]; [done| |done].
  destruct (length values <=? 2); done.
Qed.

Lemma float_converted attrs f :
  cv_converted (float_train f attrs) =
  cv_converted f ++ concat (map (λ a, map (λ n, (a, n)) (float_columns a)) attrs).
Proof.
  revert f. induction attrs as [|a attrs IH]; intros f; [by rewrite app_nil_r|].
  cbn [float_train foldl map concat]. unfold float_train in IH. rewrite IH, app_assoc. f_equal.
  destruct a as [| |]; cbn [float_train_one float_columns cv_converted map]; [done| |done].
  destruct (length values <=? 2) eqn:E; [apply Nat.leb_le in E|apply Nat.leb_gt in E];
    (case_decide; [|lia]) || (case_decide; [lia|]); done.
Qed.

Lemma binary_converted attrs f :
  cv_converted (binary_train f attrs) =
  cv_converted f ++ concat (map (λ a, map (λ n, (a, n)) (binary_columns a)) attrs).
Proof.
  revert f. induction attrs as [|a attrs IH]; intros f; [by rewrite app_nil_r|].
  cbn [binary_train foldl map concat]. unfold binary_train in IH. rewrite IH, app_assoc. f_equal.
  destruct a as [| |]; cbn [binary_train_one binary_columns cv_converted map]; [done| |done].
  destruct (length values <=? 2) eqn:E; [apply Nat.leb_le in E|apply Nat.leb_gt in E];
    (case_decide; [|lia]) || (case_decide; [lia|]); done.
Qed.

Lemma news_lookup_eq (mk : string → attr) n vs i c v :
  (∀ x y, attr_equals (mk x) (mk y) = bool_decide (x = y)) →
  NoDup vs → vs !! i = Some v → c < length vs →
  ∃ w, map (λ v, mk (n +:+ "_" +:+ v)) vs !! c = Some w ∧
    attr_equals w (mk (n +:+ "_" +:+ v)) = bool_decide (i = c).
Proof.
  intros Hmk Hnd Hi Hc. destruct (lookup_lt_is_Some_2 vs c Hc) as [w Hw].
  exists (mk (n +:+ "_" +:+ w)). rewrite list_lookup_fmap, Hw. split; [done|].
  rewrite Hmk. apply bool_decide_ext. split.
  - intros H. apply string_app_inj, string_app_inj in H. subst w. by apply (NoDup_lookup vs i c v).
  - intros ->. congruence.
Qed.

Lemma float_eq_names x y : attr_equals (FloatA x 2) (FloatA y 2) = bool_decide (x = y).
Proof. done. Qed.
Lemma bin_eq_names x y : attr_equals (BinA x) (BinA y) = bool_decide (x = y).
Proof. cbn. apply bool_decide_ext. done. Qed.

Lemma not_two news attrs f n vs :
  conv_ok news attrs f → 2 < length vs → bool_decide (CatA n vs ∈ cv_two f) = false.
Proof.
  intros (H1 & _) Hl. apply bool_decide_eq_false. rewrite H1.
  intros (n' & vs' & [= -> ->] & Hl' & _). lia.
Qed.
Lemma is_two news attrs f n vs :
  conv_ok news attrs f → CatA n vs ∈ attrs → length vs ≤ 2 →
  bool_decide (CatA n vs ∈ cv_two f) = true.
Proof. intros (H1 & _) Hin Hl. apply bool_decide_eq_true. rewrite H1. eauto. Qed.

Lemma float_one_hot attrs n vs i c v :
  CatA n vs ∈ attrs → NoDup vs → 2 < length vs → (N.of_nat (length vs) < 2^64)%N →
  vs !! i = Some v → c < length vs →
  float_transform (float_train convert_new attrs) (CatA n vs) (FloatA (n +:+ "_" +:+ v) 2)
    (pack_u64 (N.of_nat c)) =
  Ok (pack_float (if decide (i = c) then float_one else float_zero)).
Proof.
  intros Hin Hnd Hl Hb Hi Hc. pose proof (float_train_ok attrs) as Hok.
  unfold float_transform. rewrite unpack_pack_u64 by lia. cbn [mbind res_bind].
  rewrite (not_two _ _ _ _ _ Hok Hl). destruct Hok as (_ & H2 & _).
  rewrite (H2 n vs Hin Hl). rewrite Nat2N.id.
  destruct (news_lookup_eq (λ x, FloatA x 2) n vs i c v float_eq_names Hnd Hi Hc) as (w & Hw & He).
  unfold float_news. rewrite Hw, He. by destruct (decide (i = c)); [rewrite bool_decide_true|rewrite bool_decide_false].
Qed.

Lemma binary_one_hot attrs n vs i c v :
  CatA n vs ∈ attrs → NoDup vs → 2 < length vs → (N.of_nat (length vs) < 2^64)%N →
  vs !! i = Some v → c < length vs →
  binary_transform (binary_train convert_new attrs) (CatA n vs) (BinA (n +:+ "_" +:+ v))
    (pack_u64 (N.of_nat c)) =
  Ok [if decide (i = c) then 1%N else 0%N].
Proof.
  intros Hin Hnd Hl Hb Hi Hc. pose proof (binary_train_ok attrs) as Hok.
  unfold binary_transform. rewrite unpack_pack_u64 by lia. cbn [mbind res_bind].
  rewrite (not_two _ _ _ _ _ Hok Hl). destruct Hok as (_ & H2 & _).
  rewrite (H2 n vs Hin Hl). rewrite Nat2N.id.
  destruct (news_lookup_eq (λ x, BinA x) n vs i c v bin_eq_names Hnd Hi Hc) as (w & Hw & He).
  unfold binary_news. rewrite Hw, He. by destruct (decide (i = c)); [rewrite bool_decide_true|rewrite bool_decide_false].
Qed.

Lemma float_two attrs n vs c m :
  CatA n vs ∈ attrs → length vs ≤ 2 → (c < 2^64)%N →
  float_transform (float_train convert_new attrs) (CatA n vs) m (pack_u64 c) =
  Ok (pack_float (if decide (c = 0%N) then float_zero else float_one)).
Proof.
  intros Hin Hl Hc. pose proof (float_train_ok attrs) as Hok.
  unfold float_transform. rewrite unpack_pack_u64 by lia. cbn [mbind res_bind].
  rewrite (is_two _ _ _ _ _ Hok Hin Hl). case_decide as Hd.
  - by subst.
  - by rewrite (proj2 (N.ltb_lt 0 c)) by lia.
Qed.

Lemma binary_two attrs n vs c m :
  CatA n vs ∈ attrs → length vs ≤ 2 → (c < 2^64)%N →
  binary_transform (binary_train convert_new attrs) (CatA n vs) m (pack_u64 c) =
  Ok [if decide (c = 0%N) then 0%N else 1%N].
Proof.
  intros Hin Hl Hc. pose proof (binary_train_ok attrs) as Hok.
  unfold binary_transform. rewrite unpack_pack_u64 by lia. cbn [mbind res_bind].
  rewrite (is_two _ _ _ _ _ Hok Hin Hl). case_decide as Hd.
  - by subst.
  - by rewrite (proj2 (N.ltb_lt 0 c)) by lia.
Qed.

Lemma binary_float_positive f n p m x :
  binary_transform f (FloatA n p) m (pack_float x) =
  Ok [match Bcompare 53 1024 x float_zero with Some Gt => 1%N | _ => 0%N end].
Proof.
  unfold binary_transform. rewrite unpack_pack_float. cbn [mbind res_bind]. unfold float_gt.
  by destruct (Bcompare 53 1024 x float_zero) as [[]|].
Qed.

(** ** ChiMerge *)

Lemma float_lt_key a b : float_lt a b = true ↔
  is_nan 53 1024 a = false ∧ is_nan 53 1024 b = false ∧ (fkey a < fkey b)%Z.
Proof.
  unfold float_lt. destruct (Bcompare 53 1024 a b) as [c|] eqn:E.
  - apply fcompare_spec in E as (H1 & H2 & H3). rewrite H1, H2.
    pose proof (Z.compare_spec (fkey a) (fkey b)) as Hc. rewrite H3 in Hc.
    destruct c; inversion Hc; naive_solver lia.
  - split; [done|]. intros (H1 & H2 & H3).
    rewrite (fkey_compare a b H1 H2) in E. done.
Qed.

Lemma float_lt_trans a b c : float_lt a b = true → float_lt b c = true → float_lt a c = true.
Proof. rewrite !float_lt_key. naive_solver lia. Qed.

Lemma class_total_app l1 l2 c : class_total (l1 ++ l2) c = class_total l1 c + class_total l2 c.
Proof.
  unfold class_total. rewrite map_app.
  induction (map _ l1) as [|x l IH]; [done|]. simpl in *. rewrite IH. lia.
Qed.
Lemma class_total_cons e l c :
  class_total (e :: l) c = default 0 (fe_freq e !! c) + class_total l c.
Proof. done. Qed.

Lemma freq_union_lookup m1 m2 c :
  default 0 (freq_union m1 m2 !! c) = default 0 (m1 !! c) + default 0 (m2 !! c).
Proof.
  unfold freq_union. rewrite lookup_union_with.
  destruct (m1 !! c) as [x|] eqn:E1, (m2 !! c) as [y|] eqn:E2; rewrite ?E1, ?E2; simpl; lia.
Qed.

Lemma merged_refl l : merged l l.
Proof. split; [done|]. split; [by unfold boundaries_kept|]. split; [done|lia]. Qed.

Lemma merged_trans a b c : merged a b → merged b c → merged a c.
Proof.
  intros (H1 & H2 & H3 & H4) (G1 & G2 & G3 & G4). split; [|split; [|split]].
  - intros k. by rewrite G1, H1.
  - unfold boundaries_kept in *. by etrans.
  - by rewrite G3, H3.
  - lia.
Qed.

Lemma merge_adjacent_spec freq i : i + 1 < length freq →
  ∃ freq', merge_adjacent freq i = Ok freq' ∧ merged freq freq' ∧
    length freq' + 1 = length freq.
Proof.
  intros Hi.
  destruct (lookup_lt_is_Some_2 freq i) as [e1 H1]; [lia|].
  destruct (lookup_lt_is_Some_2 freq (i + 1)) as [e2 H2]; [lia|].
  unfold merge_adjacent, idx. rewrite H1, H2. cbn [mbind res_bind].
  assert (freq = take i freq ++ e1 :: e2 :: drop (i + 2) freq) as Hsplit.
  { rewrite <- (take_drop_middle freq i e1 H1) at 1. do 2 f_equal.
    replace (i + 1) with (S i) in H2 by lia. rewrite (drop_S freq e2 (S i) H2).
    do 2 f_equal. lia. }
  eexists. split; [reflexivity|]. split.
  - split; [|split; [|split]].
    + intros c. rewrite Hsplit at 3. rewrite !class_total_app, !class_total_cons. cbn [fe_freq].
      rewrite freq_union_lookup. lia.
    + unfold boundaries_kept. rewrite Hsplit at 3. rewrite !map_app. cbn [map fe_value].
      apply sublist_app; [done|]. apply sublist_skip. by apply sublist_cons.
    + rewrite Hsplit at 3. by destruct (take i freq).
    + rewrite Hsplit at 3. rewrite !app_length. simpl. lia.
  - rewrite Hsplit at 3. rewrite !app_length. simpl. lia.
Qed.

Lemma merge_all_spec idxs : ∀ freq i,
  StronglySorted lt idxs → (∀ v, v ∈ idxs → i ≤ v ∧ v + 1 < length freq + i) →
  ∃ freq', merge_all freq i idxs = Ok freq' ∧ merged freq freq' ∧
    length freq' + length idxs = length freq.
Proof.
  induction idxs as [|v idxs IH]; intros freq i Hs Hb.
  - exists freq. split; [done|]. split; [apply merged_refl|]. simpl. lia.
  - apply StronglySorted_inv in Hs as [Hs Hv]. rewrite Forall_forall in Hv.
    destruct (Hb v) as [Hb1 Hb2]; [left|].
    destruct (merge_adjacent_spec freq (v - i)) as (f1 & E1 & M1 & L1); [lia|].
    destruct (IH f1 (S i)) as (f2 & E2 & M2 & L2); [done| |].
    { intros w Hw. specialize (Hv w Hw). destruct (Hb w) as [Hw1 Hw2]; [by right|]. lia. }
    exists f2. cbn [merge_all]. rewrite E1. cbn [mbind res_bind]. split; [done|].
    split; [by apply (merged_trans _ f1)|]. simpl. lia.
Qed.

Section chi.
  Variable stat : freq_entry → freq_entry → Q.

  Lemma min_prefix freq n : n < length freq →
    ∃ r, res_foldl (min_step stat freq) (None, []) (seq 0 n) = Ok r ∧
      match r.1 with
      | None => n = 0 ∧ r.2 = []
      | Some m => 0 < n ∧ r.2 ≠ [] ∧ (∀ i, i < n → (m <= stat_at stat freq i)%Q) ∧
                  r.2 = filter (λ i, Qeq_bool (stat_at stat freq i) m = true) (seq 0 n)
      end.
  Proof.
    induction n as [|n IH]; intros Hn; [by exists (None, [])|].
    destruct IH as (r & Hr & Hspec); [lia|].
    rewrite seq_S, res_foldl_app, Hr. cbn [mbind res_bind res_foldl Nat.add].
    destruct (lookup_lt_is_Some_2 freq n) as [e1 H1]; [lia|].
    destruct (lookup_lt_is_Some_2 freq (n + 1)) as [e2 H2]; [lia|].
    assert (stat_at stat freq n = stat e1 e2) as Hst by (unfold stat_at; by rewrite H1, H2).
    unfold min_step, idx. rewrite H1, H2. cbn [mbind res_bind]. rewrite <- Hst. clear H1 H2 Hst e1 e2.
    set (v := stat_at stat freq n) in *.
    assert (Qeq_bool v v = true) as Hvv by (by apply Qeq_bool_iff).
    destruct r as [[m|] l]; cbn [fst snd] in *.
    - destruct Hspec as (H0 & Hne & Hle & ->).
      destruct (Qle_bool m v) eqn:E; cbn [negb fst snd].
      + destruct (Qeq_bool v m) eqn:E2.
        * eexists. split; [reflexivity|]. cbn [fst snd]. split; [lia|]. split; [by destruct (filter _ _)|].
          split.
          -- intros i Hi. destruct (decide (i = n)) as [->|]; [by apply Qle_bool_iff|apply Hle; lia].
          -- rewrite filter_app. f_equal. cbn [filter list_filter Nat.add]. fold v. by rewrite decide_True.
        * eexists. split; [reflexivity|]. cbn [fst snd]. split; [lia|]. split; [done|]. split.
          -- intros i Hi. destruct (decide (i = n)) as [->|]; [by apply Qle_bool_iff|apply Hle; lia].
          -- rewrite filter_app. cbn [filter list_filter Nat.add]. fold v. rewrite decide_False by (rewrite E2; done).
             by rewrite app_nil_r.
      + rewrite Hvv. eexists. split; [reflexivity|]. cbn [fst snd app].
        assert (v < m)%Q as Hlt.
        { apply Qnot_le_lt. intros H. apply Qle_bool_iff in H. congruence. }
        split; [lia|]. split; [done|]. split.
        * intros i Hi. destruct (decide (i = n)) as [->|]; [apply Qle_refl|].
          apply Qlt_le_weak. eapply Qlt_le_trans; [exact Hlt|]. apply Hle. lia.
        * rewrite filter_app. cbn [filter list_filter Nat.add]. fold v. rewrite decide_True by done.
          change [n] with ([] ++ [n]) at 1. f_equal. symmetry.
          assert (∀ l, (∀ i, i ∈ l → i < n) →
            filter (λ i, Qeq_bool (stat_at stat freq i) v = true) l = []) as Hnil.
          { intros l Hl. induction l as [|i l IHl]; [done|]. rewrite filter_cons_False.
            - apply IHl. intros; apply Hl; by right.
            - intros Heq. apply Qeq_bool_iff in Heq.
              specialize (Hle i (Hl i ltac:(left))). rewrite Heq in Hle.
              by apply (Qlt_not_le v m). }
          apply Hnil. intros i Hi. apply elem_of_seq in Hi. lia.
    - destruct Hspec as [-> ->]. rewrite Hvv. eexists. split; [reflexivity|]. cbn [fst snd app].
      split; [lia|]. split; [done|]. split.
      + intros i Hi. replace i with 0 by lia. apply Qle_refl.
      + cbn [seq app filter list_filter Nat.add]. fold v. by rewrite decide_True.
  Qed.

  (** The pairs merged are exactly those with the least statistic. *)
  Lemma min_indexes_spec freq : 2 ≤ length freq →
    ∃ m l, min_indexes stat freq = Ok (Some m, l) ∧ l ≠ [] ∧ StronglySorted lt l ∧
      (∀ i, i + 1 < length freq → (m <= stat_at stat freq i)%Q) ∧
      ∀ i, i ∈ l ↔ i + 1 < length freq ∧ (stat_at stat freq i == m)%Q.
  Proof.
    intros Hl. destruct (min_prefix freq (length freq - 1)) as ([[m|] l] & Hr & Hspec); [lia| |].
    - cbn [fst snd] in Hspec. destruct Hspec as (_ & Hne & Hle & Hfl). exists m, l.
      split; [done|]. split; [done|]. split; [|split].
      + rewrite Hfl. apply StronglySorted_filter, StronglySorted_seq.
      + intros i Hi. apply Hle. lia.
      + intros i. rewrite Hfl, elem_of_list_filter, elem_of_seq, Qeq_bool_iff.
        split; intros [? ?]; split; auto; lia.
    - cbn [fst snd] in Hspec. lia.
  Qed.

  Lemma chi_loop_spec significant fuel minrows maxrows : 0 < minrows → minrows ≤ maxrows → ∀ freq,
    length freq ≤ fuel →
    ∃ freq', chi_loop stat significant fuel minrows maxrows freq = Ok freq' ∧
      merged freq freq' ∧ length freq' ≤ maxrows.
  Proof.
    intros Hmin Hmax. induction fuel as [|fuel IH]; intros freq Hl.
    - cbn [chi_loop]. rewrite (proj2 (Nat.leb_le _ _)) by lia. exists freq.
      split; [done|]. split; [apply merged_refl|lia].
    - cbn [chi_loop]. destruct (length freq <=? minrows) eqn:E.
      { apply Nat.leb_le in E. exists freq. split; [done|]. split; [apply merged_refl|lia]. }
      apply Nat.leb_gt in E.
      destruct (min_indexes_spec freq) as (m & l & Hm & Hne & Hs & _ & Hin); [lia|].
      rewrite Hm. cbn [mbind res_bind fst snd].
      destruct (maxrows <? length freq) eqn:E2; cbn [orb].
      + destruct (merge_all_spec l freq 0) as (f1 & H1 & M1 & L1); [done| |].
        { intros v Hv. apply Hin in Hv. lia. }
        rewrite H1. cbn [mbind res_bind].
        destruct (IH f1) as (f2 & H2 & M2 & L2); [destruct l; [done|simpl in L1; lia]|].
        exists f2. split; [done|]. split; [by apply (merged_trans _ f1)|done].
      + apply Nat.ltb_ge in E2. destruct (significant m).
        * destruct (merge_all_spec l freq 0) as (f1 & H1 & M1 & L1); [done| |].
          { intros v Hv. apply Hin in Hv. lia. }
          rewrite H1. cbn [mbind res_bind].
          destruct (IH f1) as (f2 & H2 & M2 & L2); [destruct l; [done|simpl in L1; lia]|].
          exists f2. split; [done|]. split; [by apply (merged_trans _ f1)|done].
        * exists freq. split; [done|]. split; [apply merged_refl|done].
  Qed.
End chi.

Lemma chi_rows minrows maxrows :
  0 < chi_minrows minrows ∧ chi_minrows minrows ≤ chi_maxrows minrows maxrows.
Proof.
  unfold chi_maxrows, chi_minrows. destruct (2 <=? minrows) eqn:E; [apply Nat.leb_le in E|];
    destruct (_ <? maxrows) eqn:E2; try apply Nat.ltb_lt in E2; lia.
Qed.

Lemma StronglySorted_sublist {A} (R : A → A → Prop) (l k : list A) :
  l `sublist_of` k → StronglySorted R k → StronglySorted R l.
Proof.
  induction 1 as [|x l k Hs IH|x l k Hs IH]; intros H; [constructor| |].
  - apply StronglySorted_inv in H as [H1 H2]. constructor; [by apply IH|].
    rewrite Forall_forall in *. intros y Hy. apply H2. by eapply elem_of_submseteq; [exact Hy|apply sublist_submseteq].
  - apply StronglySorted_inv in H as [H1 H2]. by apply IH.
Qed.

Lemma increase_values freq : boundaries_increase freq ↔
  StronglySorted (λ a b, float_lt a b = true) (map fe_value freq).
Proof.
  unfold boundaries_increase. induction freq as [|e freq IH]; [split; constructor|].
  split; intros H; apply StronglySorted_inv in H as [H1 H2]; constructor; try (by apply IH).
  - by apply List.Forall_map.
  - by apply List.Forall_map in H2.
Qed.

Lemma merged_increase old new : merged old new → boundaries_increase old → boundaries_increase new.
Proof.
  intros (_ & H & _ & _). rewrite !increase_values. by apply StronglySorted_sublist.
Qed.

(** Transform of a ChiMerge filter. *)

Lemma chi_find_bounds table : ∀ j dis val, dis ≤ j →
  dis ≤ chi_find table j dis val ∧
  (chi_find table j dis val = dis ∨
   ∃ k e, chi_find table j dis val = j + k ∧ table !! k = Some e ∧ float_lt (fe_value e) val = true).
Proof.
  induction table as [|e table IH]; intros j dis val Hd; cbn [chi_find]; [split; [done|by left]|].
  destruct (float_lt (fe_value e) val) eqn:E; [|split; [done|by left]].
  destruct (IH (S j) j val) as [H1 H2]; [lia|]. split; [lia|]. right.
  destruct H2 as [H2|(k & e' & H2 & Hk & He)].
  - exists 0, e. split; [lia|]. done.
  - exists (S k), e'. split; [lia|]. done.
Qed.

Lemma chi_find_last table : ∀ j dis val k e,
  boundaries_increase table → table !! k = Some e → float_lt (fe_value e) val = true →
  j + k ≤ chi_find table j dis val.
Proof.
  induction table as [|e0 table IH]; intros j dis val k e Hs Hk He; [done|].
  apply StronglySorted_inv in Hs as [Hs H0]. cbn [chi_find].
  assert (float_lt (fe_value e0) val = true) as E0.
  { destruct k as [|k]; [by injection Hk as ->|]. cbn in Hk.
    eapply Forall_lookup_1 in H0; [|exact Hk]. simpl in H0. by apply (float_lt_trans _ (fe_value e)). }
  rewrite E0. destruct k as [|k].
  - destruct (chi_find_bounds table (S j) j val) as [H1 _]; [lia|]. lia.
  - specialize (IH (S j) j val k e Hs Hk He). lia.
Qed.

Lemma chi_find_spec table val :
  boundaries_increase table →
  let d := chi_find table 0 0 val in
  (table ≠ [] → d < length table) ∧
  (∀ j e, table !! j = Some e → float_lt (fe_value e) val = true → j ≤ d) ∧
  (d = 0 ∨ ∃ e, table !! d = Some e ∧ float_lt (fe_value e) val = true).
Proof.
  intros Hs d. destruct (chi_find_bounds table 0 0 val) as [_ H2]; [lia|].
  split; [|split].
  - intros Hne. destruct H2 as [H2|(k & e & H2 & Hk & _)]; unfold d; rewrite H2.
    + destruct table; [done|simpl; lia].
    + apply lookup_lt_Some in Hk. done.
  - intros j e Hj He. pose proof (chi_find_last table 0 0 val j e Hs Hj He). done.
  - destruct H2 as [H2|(k & e & H2 & Hk & He)]; [by left|]. right. exists e.
    unfold d. rewrite H2. done.
Qed.

Lemma chi_find_mono table : ∀ j dis v1 v2, dis ≤ j →
  is_nan 53 1024 v2 = false → float_lt v2 v1 = false →
  chi_find table j dis v1 ≤ chi_find table j dis v2.
Proof.
  induction table as [|e table IH]; intros j dis v1 v2 Hd Hn Hv; cbn [chi_find]; [done|].
  destruct (float_lt (fe_value e) v1) eqn:E1.
  - assert (float_lt (fe_value e) v2 = true) as ->; [|apply IH; [lia|done|done]].
    apply float_lt_key in E1 as (N1 & N2 & K). apply float_lt_key. split; [done|]. split; [done|].
    apply not_true_iff_false in Hv. rewrite float_lt_key in Hv.
    assert (¬ (fkey v2 < fkey v1)%Z) by naive_solver. lia.
  - destruct (float_lt (fe_value e) v2); [|done].
    destruct (chi_find_bounds table (S j) j v2) as [H _]; [lia|]. lia.
Qed.

(** Building the frequency table. *)

Lemma float_eq_key a b : is_nan 53 1024 a = false → is_nan 53 1024 b = false →
  float_eq a b = bool_decide (fkey a = fkey b).
Proof.
  intros Ha Hb. unfold float_eq. rewrite (fkey_compare a b Ha Hb).
  destruct (Z.compare_spec (fkey a) (fkey b)); case_bool_decide; try done; lia.
Qed.

Definition count_pairs (v : binary64) (c : string) (ps : list (binary64 * string)) : nat :=
  length (filter (λ p, float_eq v p.1 = true ∧ p.2 = c) ps).

Definition freq_inv (ps : list (binary64 * string)) (ret : list freq_entry) : Prop :=
  Forall (λ e, is_nan 53 1024 (fe_value e) = false) ret ∧
  NoDup (map (λ e, fkey (fe_value e)) ret) ∧
  (∀ e c, e ∈ ret → default 0 (fe_freq e !! c) = count_pairs (fe_value e) c ps) ∧
  (∀ p, p ∈ ps → ∃ e, e ∈ ret ∧ float_eq (fe_value e) p.1 = true).

Lemma count_pairs_snoc v c ps w d :
  count_pairs v c (ps ++ [(w, d)]) =
  count_pairs v c ps + (if float_eq v w && bool_decide (d = c) then 1 else 0).
Proof.
  unfold count_pairs. rewrite filter_app, app_length. f_equal.
  destruct (float_eq v w && bool_decide (d = c)) eqn:E.
  - apply andb_true_iff in E as [E1 E2]. apply bool_decide_eq_true in E2.
    rewrite filter_cons_True; [done|]. by split.
  - rewrite filter_cons_False; [done|]. cbn. intros [E1 ->]. rewrite E1 in E. by rewrite bool_decide_true in E.
Qed.

Lemma count_up_lookup m k c :
  default 0 (count_up m k !! c) = default 0 (m !! c) + (if bool_decide (k = c) then 1 else 0).
Proof.
  unfold count_up. case_bool_decide as H.
  - subst. by rewrite lookup_insert.
  - rewrite lookup_insert_ne by done. lia.
Qed.

Lemma freq_inv_step ps ret v c : is_nan 53 1024 v = false →
  Forall (λ p, is_nan 53 1024 p.1 = false) ps →
  freq_inv ps ret → freq_inv (ps ++ [(v, c)]) (freq_add ret v c).
Proof.
  intros Hv Hps (H1 & H2 & H3 & H4). unfold freq_add. rewrite Forall_forall in H1.
  destruct (existsb (λ e, float_eq (fe_value e) v) ret) eqn:E.
  - set (g := λ e, if float_eq (fe_value e) v then Freq (fe_value e) (count_up (fe_freq e) c) else e).
    assert (∀ e, fe_value (g e) = fe_value e) as Hg by (intros e; unfold g; by destruct (float_eq _ _)).
    split; [|split; [|split]].
    + apply List.Forall_map, Forall_forall. intros e He. rewrite Hg. by apply H1.
    + rewrite map_map. rewrite (map_ext _ (λ e, fkey (fe_value e))); [done|]. intros e. by rewrite Hg.
    + intros e' c' He'. apply elem_of_list_fmap in He' as (e & -> & He).
      rewrite count_pairs_snoc, Hg, <- (H3 e c' He). unfold g.
      destruct (float_eq (fe_value e) v); cbn [fe_freq andb]; [by rewrite count_up_lookup|lia].
    + intros p Hp. apply elem_of_app in Hp as [Hp|Hp].
      * destruct (H4 p Hp) as (e & He & Heq). exists (g e). rewrite Hg.
        split; [by apply elem_of_list_fmap_1|done].
      * apply elem_of_list_singleton in Hp as ->. apply existsb_exists in E as (e & He & Heq).
        exists (g e). rewrite Hg. split; [apply elem_of_list_fmap_1; by apply elem_of_list_In|done].
  - assert (∀ e, e ∈ ret → float_eq (fe_value e) v = false) as Hno.
    { intros e He. destruct (float_eq (fe_value e) v) eqn:E2; [|done].
      rewrite <- E. symmetry. apply existsb_exists. exists e. split; [by apply elem_of_list_In|done]. }
    split; [|split; [|split]].
    + apply Forall_app. split; [by apply Forall_forall|]. by rewrite Forall_singleton.
    + rewrite map_app. apply NoDup_app. split; [done|]. split; [|apply NoDup_singleton].
      intros k Hk Hk2. apply elem_of_list_singleton in Hk2 as ->.
      apply elem_of_list_fmap in Hk as (e & Hke & He). specialize (Hno e He).
      rewrite float_eq_key in Hno by (by auto). apply bool_decide_eq_false in Hno. cbn in Hke. congruence.
    + intros e c' He. rewrite count_pairs_snoc. apply elem_of_app in He as [He|He].
      * rewrite (H3 e c' He), (Hno e He). cbn [andb]. lia.
      * apply elem_of_list_singleton in He as ->. cbn [fe_freq fe_value].
        rewrite float_eq_key by done. rewrite bool_decide_true by done. cbn [andb].
        assert (count_pairs v c' ps = 0) as ->.
        { unfold count_pairs. apply length_zero_iff_nil.
          destruct (filter (λ p, float_eq v p.1 = true ∧ p.2 = c') ps) as [|p l] eqn:Ef; [done|].
          assert (p ∈ p :: l) as Hp by left. rewrite <- Ef in Hp.
          apply elem_of_list_filter in Hp as [[Heq _] Hp].
          destruct (H4 p Hp) as (e & He & Hep). specialize (Hno e He).
          rewrite Forall_forall in Hps. pose proof (Hps p Hp) as Np. cbn in Np.
          rewrite float_eq_key in Heq, Hep, Hno by auto.
          apply bool_decide_eq_true in Heq, Hep. apply bool_decide_eq_false in Hno. congruence. }
        case_bool_decide as Hc; [subst; by rewrite lookup_singleton|by rewrite lookup_singleton_ne].
    + intros p Hp. apply elem_of_app in Hp as [Hp|Hp].
      * destruct (H4 p Hp) as (e & He & Heq). exists e. split; [by apply elem_of_app; left|done].
      * apply elem_of_list_singleton in Hp as ->. eexists. split; [apply elem_of_app; right; left|].
        cbn. rewrite float_eq_key by done. by rewrite bool_decide_true.
Qed.

Definition freq_cb show (inst : grid) (ret : list freq_entry) (row : list (list N)) (rowno : nat)
    : res (list freq_entry * cb) :=
  value ← idx row 0; v ← unpack_float value; class ← get_class show inst rowno;
  Ok (freq_add ret v class, Cont).

Lemma freq_cb_one show g ret v i c : get_class show g i = Ok c →
  freq_cb show g ret [pack_float v] i = Ok (freq_add ret v c, Cont).
Proof.
  intros H. unfold freq_cb. change (idx [pack_float v] 0) with (Ok (pack_float v)).
  cbn [mbind res_bind]. rewrite unpack_pack_float. cbn [mbind res_bind]. by rewrite H.
Qed.

Lemma freq_rows show g s n val cls : ∀ rows ps ret,
  (∀ i fetch, (i, fetch) ∈ rows → i < n ∧ fetch = res_mapM (λ a, gr_get g a i) [s]) →
  (∀ i, i < n → gr_get g s i = Ok (pack_float (val i)) ∧ is_nan 53 1024 (val i) = false) →
  (∀ i, i < n → get_class show g i = Ok (cls i)) →
  Forall (λ p, is_nan 53 1024 p.1 = false) ps → freq_inv ps ret →
  ∃ ret', run_rows (freq_cb show g) ret rows = Ok (ret', false) ∧
    freq_inv (ps ++ map (λ r, (val r.1, cls r.1)) rows) ret' ∧
    ret' = foldl (λ t r, freq_add t (val r.1) (cls r.1)) ret rows.
Proof.
  induction rows as [|[i fetch] rows IH]; intros ps ret Hrows Hval Hcls Hps Hinv.
  - exists ret. rewrite app_nil_r. done.
  - destruct (Hrows i fetch) as [Hi Hfetch]; [left|]. destruct (Hval i Hi) as [Hg Hn].
    cbn [run_rows]. rewrite Hfetch. cbn [res_mapM]. rewrite Hg. cbn [mbind res_bind].
    rewrite (freq_cb_one show g ret (val i) i (cls i) (Hcls i Hi)). cbn [mbind res_bind].
    destruct (IH (ps ++ [(val i, cls i)]) (freq_add ret (val i) (cls i))) as (ret' & H1 & H2 & H3).
    { intros j f Hj. apply Hrows. by right. } { done. } { done. }
    { apply Forall_app. split; [done|]. by rewrite Forall_singleton. }
    { by apply freq_inv_step. }
    exists ret'. split; [done|]. split; [|done]. cbn [map fst]. by rewrite <- app_assoc in H2.
Qed.

Lemma build_freq_spec show g n p s val cls :
  iter_agrees g → gr_get_attribute g (FloatA n p) = Ok s →
  (∀ i, i < (gr_size g).2 → gr_get g s i = Ok (pack_float (val i)) ∧ is_nan 53 1024 (val i) = false) →
  (∀ i, i < (gr_size g).2 → get_class show g i = Ok (cls i)) →
  ∃ freq rows, build_freq show (FloatA n p) g = Ok freq ∧
    map fst rows ≡ₚ seq 0 (gr_size g).2 ∧ gr_iter g [s] = Ok rows ∧
    freq_inv (map (λ r, (val r.1, cls r.1)) rows) freq ∧
    freq = foldl (λ t r, freq_add t (val r.1) (cls r.1)) [] rows.
Proof.
  intros Hit Hs Hval Hcls. destruct (Hit [s]) as (rows & Hrows & Hp & Hf).
  destruct (freq_rows show g s (gr_size g).2 val cls rows [] []) as (ret & H1 & H2 & H3).
  - intros i fetch Hin. split; [|by apply Hf].
    assert (i ∈ map fst rows) as Hi by (apply elem_of_list_fmap; by exists (i, fetch)).
    rewrite Hp in Hi. apply elem_of_seq in Hi. lia.
  - done.
  - done.
  - done.
  - split; [done|]. split; [constructor|]. split; [intros e c H|intros q H]; by apply elem_of_nil in H.
  - exists ret, rows. split; [|done]. unfold build_freq. rewrite Hs.
    unfold map_over_rows. rewrite Hrows.
    unfold freq_cb in H1. rewrite H1. done.
Qed.

Lemma count_pairs_rows {X} (val : nat → binary64) (cls : nat → string) (rows : list (nat * X)) v c n :
  map fst rows ≡ₚ seq 0 n →
  count_pairs v c (map (λ r, (val r.1, cls r.1)) rows) =
  count_rows n (λ i, float_eq v (val i) && bool_decide (cls i = c)).
Proof.
  intros Hp. unfold count_rows. rewrite <- (filter_proper _ _ _ Hp) || rewrite <- Hp.
  clear Hp. induction rows as [|[i x] rows IH]; [done|]. cbn [map fst].
  unfold count_pairs in *. 
  destruct (float_eq v (val i) && bool_decide (cls i = c)) eqn:E.
  - rewrite (filter_cons_True (λ i, _ = true)) by done. cbn [length]. rewrite <- IH.
    apply andb_true_iff in E as [E1 E2]. apply bool_decide_eq_true in E2.
    rewrite filter_cons_True; [done|]. by split.
  - rewrite (filter_cons_False (λ i, _ = true)) by (by rewrite E). rewrite <- IH.
    rewrite filter_cons_False; [done|]. cbn. intros [E1 E2]. rewrite E1 in E. by rewrite bool_decide_true in E.
Qed.

Lemma build_freq_counts show g n p s val cls :
  iter_agrees g → gr_get_attribute g (FloatA n p) = Ok s →
  (∀ i, i < (gr_size g).2 → gr_get g s i = Ok (pack_float (val i)) ∧ is_nan 53 1024 (val i) = false) →
  (∀ i, i < (gr_size g).2 → get_class show g i = Ok (cls i)) →
  ∃ freq, build_freq show (FloatA n p) g = Ok freq ∧
    (∀ e c, e ∈ freq → default 0 (fe_freq e !! c) =
       count_rows (gr_size g).2 (λ i, float_eq (fe_value e) (val i) && bool_decide (cls i = c))) ∧
    (∀ i, i < (gr_size g).2 → ∃ k e, freq !! k = Some e ∧ float_eq (fe_value e) (val i) = true ∧
       ∀ k' e', freq !! k' = Some e' → float_eq (fe_value e') (val i) = true → k' = k).
Proof.
  intros Hit Hs Hval Hcls.
  destruct (build_freq_spec show g n p s val cls Hit Hs Hval Hcls)
    as (freq & rows & H1 & Hp & _ & (I1 & I2 & I3 & I4) & _).
  exists freq. split; [done|]. split.
  - intros e c He. rewrite (I3 e c He). by apply count_pairs_rows.
  - intros i Hi. destruct (I4 (val i, cls i)) as (e & He & Heq).
    { assert (i ∈ map fst rows) as Hin by (rewrite Hp; apply elem_of_seq; lia).
      apply elem_of_list_fmap in Hin as (r & -> & Hr). by apply (elem_of_list_fmap_1 (λ r, (val r.1, cls r.1))). }
    apply elem_of_list_lookup in He as [k Hk]. exists k, e. split; [done|]. split; [done|].
    intros k' e' Hk' Heq'.
    pose proof (Forall_lookup_1 _ _ _ _ I1 Hk) as N1. pose proof (Forall_lookup_1 _ _ _ _ I1 Hk') as N2.
    destruct (Hval i Hi) as [_ Hn]. cbn in Heq.
    rewrite float_eq_key in Heq, Heq' by done. apply bool_decide_eq_true in Heq, Heq'.
    apply (NoDup_lookup _ _ _ (fkey (fe_value e)) I2); rewrite list_lookup_fmap.
    + rewrite Hk'. cbn. congruence.
    + by rewrite Hk.
Qed.

Lemma freq_add_increase ret v c : is_nan 53 1024 v = false →
  Forall (λ e, is_nan 53 1024 (fe_value e) = false) ret →
  Forall (λ e, (fkey (fe_value e) ≤ fkey v)%Z) ret →
  boundaries_increase ret →
  boundaries_increase (freq_add ret v c) ∧
  Forall (λ e, is_nan 53 1024 (fe_value e) = false) (freq_add ret v c) ∧
  Forall (λ e, (fkey (fe_value e) ≤ fkey v)%Z) (freq_add ret v c).
Proof.
  intros Hv Hn Hle Hs. unfold freq_add.
  set (g := λ e, if float_eq (fe_value e) v then Freq (fe_value e) (count_up (fe_freq e) c) else e).
  assert (∀ e, fe_value (g e) = fe_value e) as Hg by (intros e; unfold g; by destruct (float_eq _ _)).
  destruct (existsb (λ e, float_eq (fe_value e) v) ret) eqn:E.
  - split; [|split].
    + apply increase_values. rewrite map_map. rewrite (map_ext _ fe_value) by apply Hg. by apply increase_values.
    + apply List.Forall_map. eapply Forall_impl; [exact Hn|]. intros e H. by rewrite Hg.
    + apply List.Forall_map. eapply Forall_impl; [exact Hle|]. intros e H. cbn in *. by rewrite Hg.
  - split; [|split].
    + apply (SortProofs.StronglySorted_app); [done|constructor; [constructor|constructor]|].
      intros e e' He He'. apply elem_of_list_singleton in He' as ->. cbn [fe_value].
      rewrite Forall_forall in Hn, Hle. apply float_lt_key. split; [by apply Hn|]. split; [done|].
      specialize (Hle e He). cbn in Hle.
      assert (float_eq (fe_value e) v = false) as Hne.
      { destruct (float_eq (fe_value e) v) eqn:E2; [|done].
        rewrite <- E. symmetry. apply existsb_exists. exists e. split; [by apply elem_of_list_In|done]. }
      rewrite float_eq_key in Hne by auto. apply bool_decide_eq_false in Hne. lia.
    + apply Forall_app. split; [done|]. by rewrite Forall_singleton.
    + apply Forall_app. split; [done|]. rewrite Forall_singleton. cbn. lia.
Qed.

Lemma build_freq_increase show g n p s val cls :
  iter_in_order g → gr_get_attribute g (FloatA n p) = Ok s →
  (∀ i, i < (gr_size g).2 → gr_get g s i = Ok (pack_float (val i)) ∧ is_nan 53 1024 (val i) = false) →
  (∀ i, i < (gr_size g).2 → get_class show g i = Ok (cls i)) →
  (∀ i j, i ≤ j → j < (gr_size g).2 → float_lt (val j) (val i) = false) →
  ∃ freq, build_freq show (FloatA n p) g = Ok freq ∧ boundaries_increase freq.
Proof.
  intros Hit Hs Hval Hcls Hsort.
  destruct (build_freq_spec show g n p s val cls (in_order_agrees _ Hit) Hs Hval Hcls)
    as (freq & rows & H1 & _ & Hrows & _ & ->).
  eexists. split; [exact H1|]. rewrite (Hit [s]) in Hrows. injection Hrows as <-. clear H1.
  assert (∀ k, k ≤ (gr_size g).2 →
    let t := foldl (λ t r, freq_add t (val r.1) (cls r.1)) []
      (map (λ i, (i, res_mapM (λ a, gr_get g a i) [s])) (seq 0 k)) in
    boundaries_increase t ∧ Forall (λ e, is_nan 53 1024 (fe_value e) = false) t ∧
    ∀ j, k ≤ S j → j < (gr_size g).2 → Forall (λ e, (fkey (fe_value e) ≤ fkey (val j))%Z) t) as Hk.
  { induction k as [|k IH]; intros Hk.
    - split; [constructor|]. split; [constructor|]. intros; constructor.
    - destruct (IH ltac:(lia)) as (I1 & I2 & I3). rewrite seq_S, map_app, foldl_app. cbn [map foldl fst Nat.add].
      destruct (Hval k ltac:(lia)) as [_ Hn].
      assert (∀ i j, i ≤ j → j < (gr_size g).2 → (fkey (val i) ≤ fkey (val j))%Z) as Hkey.
      { intros i j Hij Hj. destruct (Hval i ltac:(lia)) as [_ Ni], (Hval j Hj) as [_ Nj].
        specialize (Hsort i j Hij Hj). apply not_true_iff_false in Hsort. rewrite float_lt_key in Hsort.
        assert (¬ (fkey (val j) < fkey (val i))%Z) by naive_solver. lia. }
      destruct (freq_add_increase (foldl (λ t r, freq_add t (val r.1) (cls r.1)) []
        (map (λ i, (i, res_mapM (λ a, gr_get g a i) [s])) (seq 0 k))) (val k) (cls k))
        as (A1 & A2 & A3); [done|done|apply I3; lia|done|].
      split; [done|]. split; [done|]. intros j Hj1 Hj2.
      eapply Forall_impl; [exact A3|]. cbn. intros e He. specialize (Hkey k j ltac:(lia) Hj2). lia. }
  apply (Hk (gr_size g).2). done.
Qed.

Lemma count_rows_with n val cls v c :
  count_rows n (λ i, float_eq v (val i) && bool_decide (cls i = c)) = rows_with n val cls v c.
Proof.
  unfold count_rows, rows_with. f_equal. apply list_filter_iff. intros i.
  rewrite andb_true_iff, bool_decide_eq_true. unfold float_eq.
  destruct (Bcompare 53 1024 v (val i)) as [[]|]; naive_solver.
Qed.

Lemma build_freq_rows show g n p s val cls :
  iter_agrees g → gr_get_attribute g (FloatA n p) = Ok s →
  (∀ i, i < (gr_size g).2 → gr_get g s i = Ok (pack_float (val i)) ∧ is_nan 53 1024 (val i) = false) →
  (∀ i, i < (gr_size g).2 → get_class show g i = Ok (cls i)) →
  ∃ freq, build_freq show (FloatA n p) g = Ok freq ∧
    (∀ e c, e ∈ freq → default 0 (fe_freq e !! c) =
       rows_with (gr_size g).2 val cls (fe_value e) c) ∧
    (∀ i, i < (gr_size g).2 → ∃ k e, freq !! k = Some e ∧
       Bcompare 53 1024 (fe_value e) (val i) = Some Eq ∧
       ∀ k' e', freq !! k' = Some e' → Bcompare 53 1024 (fe_value e') (val i) = Some Eq → k' = k).
Proof.
  intros Hit Hs Hval Hcls.
  destruct (build_freq_counts show g n p s val cls Hit Hs Hval Hcls) as (freq & H1 & H2 & H3).
  exists freq. split; [done|]. split.
  - intros e c He. rewrite (H2 e c He). apply count_rows_with.
  - intros i Hi. destruct (H3 i Hi) as (k & e & Hk & He & Hu). exists k, e. split; [done|]. split.
    + unfold float_eq in He. by destruct (Bcompare 53 1024 (fe_value e) (val i)) as [[]|].
    + intros k' e' Hk' He'. apply (Hu k' e' Hk'). unfold float_eq. by rewrite He'.
Qed.

Lemma chi_merge_spec show stat significant inst a minrows maxrows freq :
  build_freq show a inst = Ok freq →
  ∃ freq', chi_merge show stat significant inst a minrows maxrows = Ok freq' ∧
    merged freq freq' ∧ length freq' ≤ chi_maxrows minrows maxrows ∧
    (boundaries_increase freq → boundaries_increase freq').
Proof.
  intros Hf. unfold chi_merge. rewrite Hf. cbn [mbind res_bind].
  destruct (chi_rows minrows maxrows) as [H1 H2].
  destruct (chi_loop_spec stat (significant freq) (length freq) _ _ H1 H2 freq) as (f' & E & M & L); [done|].
  exists f'. split; [done|]. split; [done|]. split; [done|]. by apply merged_increase.
Qed.

Lemma chi_transform_spec tables a n table val :
  List.find (λ p, bool_decide (p.1 = a)) tables = Some (a, table) →
  boundaries_increase table → table ≠ [] →
  ∃ d, chi_transform tables a n (pack_float val) = Ok (pack_u64 (N.of_nat d)) ∧
    d < length table ∧
    (∀ j e, table !! j = Some e → Bcompare 53 1024 (fe_value e) val = Some Lt → j ≤ d) ∧
    (d = 0 ∨ ∃ e, table !! d = Some e ∧ Bcompare 53 1024 (fe_value e) val = Some Lt).
Proof.
  intros Hf Hs Hne. exists (chi_find table 0 0 val). unfold chi_transform. rewrite Hf.
  rewrite unpack_pack_float. split; [done|].
  destruct (chi_find_spec table val Hs) as (H1 & H2 & H3).
  assert (∀ e, float_lt (fe_value e) val = true ↔ Bcompare 53 1024 (fe_value e) val = Some Lt) as Hlt.
  { intros e. unfold float_lt. by destruct (Bcompare 53 1024 (fe_value e) val) as [[]|]. }
  split; [by apply H1|]. split.
  - intros j e Hj He. apply (H2 j e Hj). by apply Hlt.
  - destruct H3 as [|(e & He & Hl)]; [by left|]. right. exists e. split; [done|]. by apply Hlt.
Qed.

Lemma chi_transform_mono tables a n table v1 v2 d1 d2 :
  List.find (λ p, bool_decide (p.1 = a)) tables = Some (a, table) →
  is_nan 53 1024 v2 = false → Bcompare 53 1024 v2 v1 ≠ Some Lt →
  (N.of_nat (length table) < 2^64)%N → (d1 < 2^64)%N → (d2 < 2^64)%N →
  chi_transform tables a n (pack_float v1) = Ok (pack_u64 d1) →
  chi_transform tables a n (pack_float v2) = Ok (pack_u64 d2) → (d1 ≤ d2)%N.
Proof.
  intros Hf Hn Hv Hlen Hd1 Hd2. unfold chi_transform. rewrite Hf, !unpack_pack_float.
  cbn [mbind res_bind]. intros E1 E2.
  assert (∀ v, (N.of_nat (chi_find table 0 0 v) < 2^64)%N) as Hb.
  { intros v. destruct (chi_find_bounds table 0 0 v) as [_ [H|(k & e & H & Hk & _)]]; [lia| |].
    - rewrite H. done.
    - apply lookup_lt_Some in Hk. rewrite H. lia. }
  assert (∀ a b, (a < 2^64)%N → (b < 2^64)%N → Ok (pack_u64 a) = Ok (pack_u64 b) → a = b) as Hinj.
  { intros x y Hx Hy H. assert (pack_u64 x = pack_u64 y) as H' by congruence.
    apply (f_equal unpack_u64) in H'. rewrite !unpack_pack_u64 in H' by done. congruence. }
  apply Hinj in E1; [|apply Hb|done]. apply Hinj in E2; [|apply Hb|done]. subst d1 d2.
  assert (chi_find table 0 0 v1 ≤ chi_find table 0 0 v2); [|lia].
  apply chi_find_mono; [lia|done|]. unfold float_lt.
  by destruct (Bcompare 53 1024 v2 v1) as [[]|].
Qed.

Lemma chi_leaves_alone label tables train a :
  List.find (λ p, bool_decide (p.1 = a)) tables = None →
  leaves_alone (chi_filter label tables train) a.
Proof. intros H b. cbn. unfold chi_transform. by rewrite H. Qed.

Lemma merge_step freq i : i + 1 < length freq →
  ∃ freq', merge_adjacent freq i = Ok freq' ∧
    (∀ c, class_total freq' c = class_total freq c) ∧
    map fe_value freq' `sublist_of` map fe_value freq ∧
    fe_value <$> head freq' = fe_value <$> head freq ∧
    length freq' + 1 = length freq.
Proof.
  intros Hi. destruct (merge_adjacent_spec freq i Hi) as (f' & H1 & (M1 & M2 & M3 & _) & H2).
  by exists f'.
Qed.

Lemma lf_columns_size l :
  (gr_size (lf_src l)).1 = length (gr_all_attrs (lf_src l)) →
  (∀ a, a ∈ gr_all_attrs (lf_src l) → lf_unfiltered l a = false →
     length (filter (λ p, attr_equals a p.1 = true) (fl_attrs (lf_filter l))) = 1) →
  (lf_size l).1 = length (lf_all_attrs l).
Proof. intros H1 H2. unfold lf_size. by rewrite H1, lf_columns. Qed.

Lemma float_of_binary attrs n m b :
  fl_transform (float_filter (float_train convert_new attrs)) (BinA n) m [b] =
  Ok (pack_float (if decide (b = 0%N) then float_zero else float_one)).
Proof.
  cbn [fl_transform float_filter float_transform].
  change (idx [b] 0) with (Ok b). cbn [mbind res_bind]. case_decide as H.
  - by subst.
  - by rewrite (proj2 (N.ltb_lt 0 b)) by lia.
Qed.

Lemma class_put_elem a cls b : b ∈ class_put a cls ↔ b = a ∨ b ∈ cls.
Proof.
  unfold class_put. case_bool_decide as H; [naive_solver|].
  rewrite elem_of_app, elem_of_list_singleton. naive_solver.
Qed.
Lemma class_drop_elem a cls b : b ∈ class_drop a cls ↔ b ≠ a ∧ b ∈ cls.
Proof. unfold class_drop. by rewrite elem_of_list_filter. Qed.

Lemma class_put_all news cls b : b ∈ foldl (λ cls n, class_put n cls) cls news ↔ b ∈ news ∨ b ∈ cls.
Proof.
  revert cls. induction news as [|n news IH]; intros cls; cbn [foldl].
  - rewrite elem_of_nil. naive_solver.
  - rewrite IH, class_put_elem, elem_of_cons. naive_solver.
Qed.

Lemma lf_remove_add l c l1 :
  NoDup (lf_class l) →
  (∀ p q, p ∈ fl_attrs (lf_filter l) → q ∈ fl_attrs (lf_filter l) →
     (attr_equals p.1 c || attr_equals p.2 c) = true →
     (attr_equals q.1 c || attr_equals q.2 c) = true → p.2 = q.2) →
  lf_add_class l c = Ok l1 →
  ∃ l2 n, lf_remove_class l1 c = Ok l2 ∧
    (∀ a, a ∈ lf_class l1 ↔ a = n ∨ a ∈ lf_class l) ∧
    (∀ a, a ∈ lf_class l2 ↔ a ≠ n ∧ a ∈ lf_class l).
Proof.
  intros _ Hone. unfold lf_add_class, lf_remove_class.
  destruct (lf_unfiltered l c) eqn:Eu.
  - intros [= <-]. change (lf_unfiltered (LF _ _ _) c) with (lf_unfiltered l c). rewrite Eu.
    eexists _, c. split; [reflexivity|]. cbn [lf_class]. split; intros a.
    + apply class_put_elem.
    + rewrite class_drop_elem, class_put_elem. naive_solver.
  - set (ms := filter (λ p, attr_equals p.1 c || attr_equals p.2 c = true) (fl_attrs (lf_filter l))).
    assert (∀ p, p ∈ ms ↔ p ∈ fl_attrs (lf_filter l) ∧ attr_equals p.1 c || attr_equals p.2 c = true) as Hms.
    { intros p. unfold ms. rewrite elem_of_list_filter. naive_solver. }
    destruct (map snd ms) as [|n news] eqn:Em; [done|]. intros [= <-].
    change (lf_unfiltered (LF _ _ _) c) with (lf_unfiltered l c). rewrite Eu. cbn [lf_filter].
    destruct ms as [|p0 ms'] eqn:Ems; [done|]. cbn [map] in Em. injection Em as <- <-.
    destruct (Hms p0) as [Hp0 _]. destruct Hp0 as [Hp1 Hp2]; [left|].
    destruct (lf_match (fl_attrs (lf_filter l)) c) as [p|] eqn:El.
    + apply lf_match_Some in El as [Hin Heq].
      assert (p.2 = p0.2) as Hpp by (by apply (Hone p p0)).
      assert (∀ a, a ∈ map snd ms' → a = p0.2) as Hall.
      { intros a Ha. apply elem_of_list_fmap in Ha as (q & -> & Hq).
        destruct (Hms q) as [Hq' _]. destruct Hq' as [Hq1 Hq2]; [by right|]. by apply (Hone q p0). }
      eexists _, p0.2. split; [reflexivity|]. cbn [lf_class foldl]. rewrite Hpp. split; intros a.
      * rewrite class_put_all, class_put_elem. naive_solver.
      * rewrite class_drop_elem, class_put_all, class_put_elem. naive_solver.
    + pose proof (lf_match_None _ _ El p0 Hp1). congruence.
Qed.

Lemma lf_unfiltered_spec l a : lf_unfiltered l a = true ↔ untouched l a.
Proof.
  unfold lf_unfiltered, untouched. destruct (existsb (λ p, bool_decide (p.1 = a)) _) eqn:E.
  - split; [done|]. intros [_ H]. apply existsb_exists in E as ([o n] & Hin & Ho).
    apply bool_decide_eq_true_1 in Ho. cbn in Ho. subst o. exfalso. apply (H n).
    by apply elem_of_list_In.
  - rewrite existsb_exists. split.
    + intros (b & Hb & Hba). apply bool_decide_eq_true_1 in Hba. subst b.
      split; [by apply elem_of_list_In|]. intros n Hn.
      assert (existsb (λ p, bool_decide (p.1 = a)) (fl_attrs (lf_filter l)) = true) as H; [|congruence].
      apply existsb_exists. exists (a, n). split; [by apply elem_of_list_In|].
      by apply bool_decide_eq_true_2.
    + intros [Ha _]. exists a. split; [by apply elem_of_list_In|]. by apply bool_decide_eq_true_2.
Qed.
Lemma lf_filtered_spec l a : lf_unfiltered l a = false ↔ ¬ untouched l a.
Proof. rewrite <- lf_unfiltered_spec. by destruct (lf_unfiltered l a). Qed.

Lemma lf_get_untouched l s row :
  untouched l (sp_attr s) → lf_get l s row = gr_get (lf_src l) s row.
Proof. rewrite <- lf_unfiltered_spec. apply lf_get_unfiltered. Qed.

Lemma lf_get_touched l old new s os row :
  (old, new) ∈ fl_attrs (lf_filter l) → ¬ untouched l new →
  (∀ o n, (o, n) ∈ fl_attrs (lf_filter l) →
     attr_equals o new = true ∨ attr_equals n new = true → o = old) →
  sp_attr s = new → gr_get_attribute (lf_src l) old = Ok os →
  lf_get l s row =
    (b ← gr_get (lf_src l) os row; fl_transform (lf_filter l) (sp_attr os) new b).
Proof. rewrite <- lf_filtered_spec. apply lf_get_filtered. Qed.

Lemma lf_iter_agrees_untouched l asv :
  iter_agrees (lf_src l) →
  (∀ s, s ∈ asv → lf_readable l s) →
  (∀ s, s ∈ asv → untouched l (sp_attr s) → leaves_alone (lf_filter l) (sp_attr s)) →
  ∃ rows, lf_iter l asv = Ok rows ∧ map fst rows ≡ₚ seq 0 (lf_size l).2 ∧
    ∀ i fetch, (i, fetch) ∈ rows → ∀ buf,
      fetch = Ok buf ↔ res_mapM (λ s, lf_get l s i) asv = Ok buf.
Proof.
  intros H1 H2 H3. apply lf_iter_agrees; [done|done|].
  intros s Hs Hu. apply H3; [done|]. by apply lf_unfiltered_spec.
Qed.

Lemma lf_columns_untouched l :
  (gr_size (lf_src l)).1 = length (gr_all_attrs (lf_src l)) →
  (∀ a, a ∈ gr_all_attrs (lf_src l) → ¬ untouched l a →
     length (filter (λ p, attr_equals a p.1 = true) (fl_attrs (lf_filter l))) = 1) →
  (lf_size l).1 = length (lf_all_attrs l).
Proof.
  intros H1 H2. apply lf_columns_size; [done|]. intros a Ha Hu. apply H2; [done|].
  by apply lf_filtered_spec.
Qed.
