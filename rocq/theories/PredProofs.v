(** Proofs about prediction vectors. *)
From stdpp Require Import functions.
From Verif Require Import Prelude BytesModel BytesProofs AttrModel AttrProofs StoreModel DenseModel
  DenseSpec DenseProofs GridModel GridSpec GridProofs CsvModel PredModel.
Local Open Scope nat_scope.

(** [d] is the prediction vector of [n] rows for the one class attribute [c], in which
    the bytes [f i] have been stored last in row [i]. *)
Definition predicted (pg : nat) (c : attr) (n : nat) (f : nat → option (list N)) (d : dense)
    : Prop :=
  d_class d = {[(0, 0) := true]} ∧ d_maxrow d = n ∧
  (∃ g, d_ags d = [g] ∧ g_attrs g = [c] ∧ g_kind g = default_kind c) ∧
  ∃ h, reachable pg h d ∧ ∀ i, last_write h 0 0 i = f i.

Lemma predicted_ext pg c n f f' d :
  (∀ i, f i = f' i) → predicted pg c n f d → predicted pg c n f' d.
Proof.
  intros H (H1 & H2 & H3 & h & Hr & Hw). repeat (split; [done|]). exists h.
  split; [done|]. intros i. by rewrite Hw.
Qed.

Lemma prediction_vector_ok pg from c :
  gr_class_attrs from = [c] →
  ∃ d, prediction_vector pg from = Ok d ∧
    predicted pg c (gr_size from).2 (λ _, None) d.
Proof.
  intros Hc. unfold prediction_vector. rewrite Hc. cbn [res_foldl].
  set (n := (gr_size from).2).
  assert (∃ d1 s, dense_add pg dense_new c = Ok (d1, s) ∧
    d_class d1 = ∅ ∧ d_maxrow d1 = 0 ∧
    ∃ g, d_ags d1 = [g] ∧ g_attrs g = [c] ∧ g_kind g = default_kind c) as
    (d1 & s & Hadd & Hcl & Hmr & g & Hags & Hga & Hgk).
  { unfold dense_add. cbn [d_fixed dense_new].
    destruct (default_group pg dense_new c) as [[[[f ca] b] ag] bin] eqn:E.
    assert (bin = match c with BinA _ => true | _ => false end) as ->.
    { unfold default_group in E. destruct c; by injection E as <- <- <- <- <-. }
    unfold dense_new. cbn [d_agmap d_agrev d_ags d_fixed d_class d_maxrow]. rewrite lookup_empty.
    destruct c as [nm p|nm vs|nm];
      cbn [negb create_group d_fixed Nat.eqb mbind res_bind d_agmap d_ags app length];
      rewrite lookup_insert;
      cbn [default add_in_group d_ags idx lookup list_lookup mbind res_bind];
      (eexists _, _; split; [reflexivity|]);
      cbn [d_class d_maxrow d_ags];
      (split; [done|]; split; [done|]; eexists; split; [reflexivity|]; split; reflexivity). }
  rewrite Hadd. cbn [mbind res_bind fst].
  assert (dense_get_attribute d1 c = Ok (Spec 0 0 c)) as Hget.
  { unfold dense_get_attribute. rewrite Hags. cbn [find_in_groups find_in_group].
    rewrite Hga. cbn [find_in_group]. by rewrite attr_equals_refl. }
  assert (∃ d2, dense_set_class d1 c true = Ok d2 ∧ d_class d2 = {[(0, 0) := true]} ∧
    d_maxrow d2 = 0 ∧ d_ags d2 = d_ags d1) as (d2 & Hset & Hcl2 & Hmr2 & Hags2).
  { unfold dense_set_class. rewrite Hget. cbn [mbind res_bind sp_pond sp_pos].
    eexists. split; [reflexivity|]. cbn [d_class d_maxrow d_ags]. by rewrite Hcl. }
  rewrite Hset. cbn [mbind res_bind]. eexists. split; [reflexivity|].
  split; [done|]. split; [cbn [dense_extend d_maxrow]; lia|]. split.
  { cbn [dense_extend d_ags]. rewrite Hags2, Hags. cbn [map]. eexists. split; [reflexivity|].
    unfold group_resize. destruct (g_kind g) eqn:?; repeat case_match; cbn; split; congruence. }
  exists [DAdd c; DClass c true; DExtend n]. split; [|done]. split; [|split].
  - unfold dense_run. cbn [res_foldl dense_step]. rewrite Hadd. cbn [mbind res_bind fst].
    cbn [dense_step]. rewrite Hset. cbn [mbind res_bind]. done.
  - intros h1 s' r v h2 Hh.
    repeat (destruct h1 as [|? h1]; [done|]; injection Hh as _ Hh; try done).
    by destruct h1.
  - intros h1 a ag h2 Hh.
    repeat (destruct h1 as [|? h1]; [done|]; injection Hh as _ Hh; try done).
    by destruct h1.
Qed.

Lemma predicted_set pg c n f d i b :
  predicted pg c n f d → i < n → right_size (default_kind c) b →
  ∃ d', dense_set d (Spec 0 0 c) i b = Ok d' ∧
    predicted pg c n (λ j, if bool_decide (j = i) then Some b else f j) d'.
Proof.
  intros (Hcl & Hmr & (g & Hags & Hga & Hgk) & h & Hr & Hw) Hi Hsz.
  assert (column_of d (Spec 0 0 c) g) as Hcol.
  { split; [by rewrite Hags|]. rewrite Hga. simpl. lia. }
  destruct (dense_set_succeeds pg h d (Spec 0 0 c) g i b Hr Hcol) as [d' Hd'];
    [lia|by rewrite Hgk|].
  exists d'. split; [done|].
  pose proof (dense_set_layout _ _ _ _ _ Hd') as Hlay.
  assert (d_class d' = d_class d ∧ d_maxrow d' = d_maxrow d) as [E1 E2].
  { unfold dense_set in Hd'. apply bind_Ok in Hd' as (g1 & _ & Hd').
    apply bind_Ok in Hd' as (g2 & _ & Hd'). by injection Hd' as <-. }
  split; [congruence|]. split; [congruence|]. split.
  { unfold dense_set in Hd'. rewrite Hags in Hd'. cbn in Hd'.
    apply bind_Ok in Hd' as (g' & Hg' & [= <-]). cbn [d_ags]. exists g'. split; [done|].
    unfold group_set in Hg'. destruct (g_kind g) eqn:Ek.
    - unfold fixed_set in Hg'. repeat (case_match; try done);
        try (injection Hg' as <-; cbn; split; congruence).
      all: apply bind_Ok in Hg' as (? & _ & Hg'); try (injection Hg' as <-; cbn; split; congruence).
    - unfold bit_set in Hg'. repeat (case_match; try done);
        try (injection Hg' as <-; cbn; split; congruence).
      all: repeat (apply bind_Ok in Hg' as (? & _ & Hg')); try (injection Hg' as <-; cbn; split; congruence). }
  exists (h ++ [DSet (Spec 0 0 c) i b]). split.
  - destruct Hr as (Hrun & Hv & Hl). split; [|split].
    + apply dense_run_snoc. eauto.
    + intros h1 s r v h2 Hh d1 Hd1.
      destruct h2 as [|x h2 _] using rev_ind.
      * apply app_inj_tail in Hh as [<- Hh]. injection Hh as <- <- <-.
        assert (d1 = d) as -> by congruence. by exists g.
      * rewrite app_comm_cons, app_assoc in Hh. apply app_inj_tail in Hh as [-> _].
        by eapply Hv.
    + intros h1 a ag h2 Hh k.
      destruct h2 as [|x h2 _] using rev_ind.
      * apply app_inj_tail in Hh as [_ ?]. done.
      * rewrite app_comm_cons, app_assoc in Hh. apply app_inj_tail in Hh as [-> _].
        by eapply Hl.
  - intros j. rewrite last_write_snoc, Hw. cbn [sp_pond sp_pos].
    destruct (decide (j = i)) as [->|Hne].
    + by rewrite !bool_decide_eq_true_2.
    + by rewrite !bool_decide_eq_false_2 by naive_solver.
Qed.

Lemma predicted_class_attrs pg c n f d order :
  predicted pg c n f d → class_order d order → class_attrs_in_order d order = [c].
Proof.
  intros (Hcl & _ & (g & Hags & Hga & _) & _) Ho. unfold class_order in Ho.
  rewrite Hcl, map_to_list_singleton in Ho. apply Permutation_singleton_r in Ho as ->.
  cbn [class_attrs_in_order]. unfold attr_at. rewrite Hags. cbn. by rewrite Hga.
Qed.

Lemma predicted_find pg c n f d :
  predicted pg c n f d → dense_get_attribute d c = Ok (Spec 0 0 c).
Proof.
  intros (_ & _ & (g & Hags & Hga & _) & _). unfold dense_get_attribute. rewrite Hags.
  cbn [find_in_groups]. rewrite Hga. cbn [find_in_group]. by rewrite attr_equals_refl.
Qed.

Lemma predicted_get pg c n f d i :
  predicted pg c n f d → i < n →
  dense_get d (Spec 0 0 c) i = Ok (cell_value (default_kind c) (f i)).
Proof.
  intros (_ & Hmr & (g & Hags & Hga & Hgk) & h & Hr & Hw) Hi.
  rewrite <- Hgk, <- Hw. apply (dense_refines_table pg h d (Spec 0 0 c) g i Hr); [|lia].
  split; [by rewrite Hags|]. rewrite Hga. simpl. lia.
Qed.

Lemma update_attr_same pg c n f d :
  predicted pg c n f d → update_attr d (Spec 0 0 c) c = Ok d.
Proof.
  intros (_ & _ & (g & Hags & Hga & _) & _). unfold update_attr. cbn [sp_pond sp_pos].
  rewrite Hags. cbn. rewrite Hga. cbn. rewrite <- Hga. destruct g, d. simpl in *. by subst.
Qed.

Lemma pack_u64_length x : length (pack_u64 x) = 8.
Proof. done. Qed.

(** Storing a known category. *)
Lemma set_class_ok parse order pg name vs n f d i lab :
  (∀ l, order l ≡ₚ l) → predicted pg (CatA name vs) n f d → i < n → lab ∈ vs →
  ∃ d' k, set_class parse order d i lab = Ok d' ∧ cat_find vs lab = Some k ∧
    predicted pg (CatA name vs) n
      (λ j, if bool_decide (j = i) then Some (pack_u64 (N.of_nat k)) else f j) d'.
Proof.
  intros Ho Hp Hi Hlab. unfold set_class.
  rewrite (predicted_class_attrs pg (CatA name vs) n f d) by (done || apply Ho).
  rewrite (predicted_find _ _ _ _ _ Hp). cbn [encode_value].
  unfold cat_encode. destruct (cat_find vs lab) as [k|] eqn:Ek.
  2:{ by apply cat_find_none in Ek. }
  cbn [mbind res_bind fst snd].
  rewrite (update_attr_same _ _ _ _ _ Hp). cbn [mbind res_bind].
  destruct (predicted_set _ _ _ _ _ i (pack_u64 (N.of_nat k)) Hp Hi) as (d' & Hd' & Hp');
    [done|]. eauto.
Qed.

(** Same, in terms of labels: [lab i] is the label stored last in row [i]. *)
Definition labels_predicted (pg : nat) (name : string) (vs : list string) (n : nat)
    (lab : nat → option string) (d : dense) : Prop :=
  predicted pg (CatA name vs) n
    (λ i, s ← lab i; k ← cat_find vs s; Some (pack_u64 (N.of_nat k))) d ∧
  ∀ i s, lab i = Some s → s ∈ vs.

Lemma labels_predicted_new pg from name vs :
  gr_class_attrs from = [CatA name vs] →
  ∃ d, prediction_vector pg from = Ok d ∧
    labels_predicted pg name vs (gr_size from).2 (λ _, None) d.
Proof.
  intros Hc. destruct (prediction_vector_ok pg from _ Hc) as (d & Hd & Hp).
  exists d. split; [done|]. split; [|done]. done.
Qed.

Lemma labels_predicted_set parse order pg name vs n lab d i s :
  (∀ l, order l ≡ₚ l) → labels_predicted pg name vs n lab d → i < n → s ∈ vs →
  ∃ d', set_class parse order d i s = Ok d' ∧
    labels_predicted pg name vs n (<[i := Some s]> lab) d'.
Proof.
  intros Ho [Hp Hin] Hi Hs.
  destruct (set_class_ok parse order pg name vs n _ d i s Ho Hp Hi Hs)
    as (d' & k & Hd' & Hk & Hp').
  exists d'. split; [done|]. split.
  - eapply predicted_ext; [|exact Hp']. intros j. cbn beta.
    destruct (decide (j = i)) as [->|Hne].
    + rewrite bool_decide_eq_true_2, fn_lookup_insert by done. cbn. by rewrite Hk.
    + by rewrite bool_decide_eq_false_2, fn_lookup_insert_ne by done.
  - intros j t. destruct (decide (j = i)) as [->|Hne].
    + rewrite fn_lookup_insert. by intros [= <-].
    + rewrite fn_lookup_insert_ne by done. apply Hin.
Qed.

Lemma labels_predicted_get show pg name vs n lab d order i s :
  labels_predicted pg name vs n lab d → class_order d order → i < n → lab i = Some s →
  (N.of_nat (length vs) < 2^63)%N →
  get_class show (dense_grid order d) i = Ok s.
Proof.
  intros [Hp Hin] Ho Hi Hl Hlen. unfold get_class. cbn [dense_grid gr_class_attrs gr_get_attribute gr_get].
  rewrite (predicted_class_attrs _ _ _ _ _ _ Hp Ho), (predicted_find _ _ _ _ _ Hp).
  rewrite (predicted_get _ _ _ _ _ _ Hp Hi). rewrite Hl. cbn [mbind option_bind res_bind].
  pose proof (Hin i s Hl) as Hs. destruct (cat_find vs s) as [k|] eqn:Ek.
  2:{ by apply cat_find_none in Ek. }
  apply cat_find_some in Ek. cbn [cell_value default_kind attr_decode].
  by apply cat_decode_ok.
Qed.

(** A row in which nothing was stored reads as the first category. *)
Lemma labels_predicted_unset show pg name v vs n lab d order i :
  labels_predicted pg name (v :: vs) n lab d → class_order d order → i < n → lab i = None →
  (N.of_nat (length (v :: vs)) < 2^63)%N →
  get_class show (dense_grid order d) i = Ok v.
Proof.
  intros [Hp Hin] Ho Hi Hl Hlen. unfold get_class. cbn [dense_grid gr_class_attrs gr_get_attribute gr_get].
  rewrite (predicted_class_attrs _ _ _ _ _ _ Hp Ho), (predicted_find _ _ _ _ _ Hp).
  rewrite (predicted_get _ _ _ _ _ _ Hp Hi). rewrite Hl. cbn [mbind option_bind res_bind].
  cbn [cell_value default_kind attr_decode].
  change (replicate 8 0%N) with (pack_u64 (N.of_nat 0)). by apply cat_decode_ok.
Qed.

(** A loop over rows that stores one label per row. *)
Lemma run_rows_labels {S} (f : S → list (list N) → nat → res (S * cb))
    (Inv : S → (nat → option string) → Prop) (Good : nat → string → Prop) rows s lab :
  (∀ i fetch s lab, (i, fetch) ∈ rows → Inv s lab →
     ∃ buf s' c, fetch = Ok buf ∧ f s buf i = Ok (s', Cont) ∧
       Inv s' (<[i := Some c]> lab) ∧ Good i c) →
  Inv s lab →
  ∃ s' lab', run_rows f s rows = Ok (s', false) ∧ Inv s' lab' ∧
    (∀ i, i ∈ map fst rows → ∃ c, lab' i = Some c ∧ Good i c) ∧
    (∀ i, i ∉ map fst rows → lab' i = lab i).
Proof.
  revert s lab. induction rows as [|[i fetch] rows IH]; intros s lab Hstep Hinv.
  - exists s, lab. split; [done|]. split; [done|]. split; [|done].
    intros i Hi. by apply elem_of_nil in Hi.
  - destruct (Hstep i fetch s lab) as (buf & s1 & c & -> & Hf & Hinv1 & Hgood);
      [left|done|].
    cbn [run_rows]. cbn [mbind res_bind]. rewrite Hf. cbn [mbind res_bind].
    destruct (IH s1 (<[i := Some c]> lab)) as (s' & lab' & Hrun & Hinv' & Hin & Hout).
    { intros j fetch' s2 lab2 Hj. apply Hstep. by right. }
    { done. }
    exists s', lab'. split; [done|]. split; [done|]. split.
    + intros j Hj. destruct (decide (j ∈ map fst rows)) as [Hj'|Hj']; [by apply Hin|].
      simpl in Hj. apply elem_of_cons in Hj as [->|Hj]; [|done].
      exists c. split; [|done]. rewrite Hout by done. apply fn_lookup_insert.
    + intros j Hj. simpl in Hj. apply not_elem_of_cons in Hj as [Hne Hj].
      rewrite Hout by done. by rewrite fn_lookup_insert_ne.
Qed.
