(** Lemmas about writing CSV files. *)
From Verif Require Import Prelude BytesModel FloatModel AttrModel AttrSpec AttrProofs StoreModel DenseModel DenseSpec DenseProofs
  GridModel GridSpec GridProofs TextModel CsvModel CsvSpec CsvProofs BagModel LayerPredict CsvOutModel CsvOutSpec.
From Flocq Require Import IEEE754.Bits IEEE754.Binary.
From Coq Require Import Ascii.
Local Open Scope nat_scope.

Lemma csv_columns_ok normal cls n : n = length normal + length cls → csv_columns n normal cls = Ok (normal ++ cls).
Proof.
  intros ->. unfold csv_columns. rewrite (take_ge normal) by lia.
  replace (length normal + length cls - length normal) with (length cls) by lia. rewrite (take_ge cls) by lia.
  rewrite app_length. destruct (Nat.ltb_spec (length normal + length cls) (length normal + length cls)); [lia|done].
Qed.

Lemma tidy_columns ao g : any_order ao → tidy g →
  non_class_attrs ao g ++ gr_class_attrs g ≡ₚ gr_all_attrs g.
Proof.
  intros Hao [_ Hnd _ [Hc Hin] _]. apply NoDup_Permutation; [|done|].
  - apply NoDup_app. split; [by apply non_class_nodup|]. split; [|done].
    intros x Hx. by apply (non_class_elem ao g x Hao) in Hx as [_ ?].
  - intros x. rewrite elem_of_app, (non_class_elem ao g x Hao).
    destruct (decide (x ∈ gr_class_attrs g)) as [Hx|Hx]; split; intros H; try tauto.
    by apply Hin.
Qed.

Lemma resolve_found g attrs :
  (∀ a, a ∈ attrs → ∃ s, gr_get_attribute g a = Ok s ∧ sp_attr s = a) →
  ∃ specs, resolve g attrs = Ok specs ∧ Forall2 (λ a s, gr_get_attribute g a = Ok s) attrs specs.
Proof.
  intros H. unfold resolve. induction attrs as [|a attrs IH]; [by exists []|].
  destruct (H a) as (s & Hs & _); [left|]. destruct IH as (specs & Hr & Hf); [intros b Hb; apply H; by right|].
  exists (s :: specs). cbn [res_mapM]. rewrite Hs. cbn [mbind res_bind]. rewrite Hr. split; [done|]. by constructor.
Qed.

Lemma row_fields show vals : ∀ attrs n pre fields, length vals = length attrs → length pre = n →
  res_mapM (λ '(i, v), a ← idx (pre ++ attrs) i; attr_decode show a v) (imap (λ i v, (n + i, v)) vals) = Ok fields ↔
  Forall2 (λ '(a, v) t, attr_decode show a v = Ok t) (zip attrs vals) fields.
Proof.
  induction vals as [|v vals IH]; intros [|a attrs] n pre fields Hl Hn; try done.
  - cbn. split; [intros [= <-]; constructor|]. by intros ->%Forall2_nil_inv_l.
  - cbn [imap res_mapM zip zip_with].
    assert (idx (pre ++ a :: attrs) (n + 0) = Ok a) as Hidx.
    { unfold idx. replace (n + 0) with (length pre) by lia. by rewrite list_lookup_middle. }
    rewrite Hidx. cbn [mbind res_bind].
    assert (imap ((λ i v, (n + i, v)) ∘ S) vals = imap (λ i v, (S n + i, v)) vals) as Himap.
    { apply imap_ext. intros i x _. cbn. f_equal. lia. }
    rewrite Himap. specialize (IH attrs (S n) (pre ++ [a])). split.
    + intros H. apply bind_Ok in H as (t & Ht & H). apply bind_Ok in H as (ts & Hts & H). injection H as <-.
      constructor; [done|]. apply IH; [cbn in Hl; lia|rewrite app_length; cbn; lia|]. by rewrite <- app_assoc.
    + intros H. inversion H as [|? t ? ts Ht Hts]; subst. rewrite Ht. cbn [mbind res_bind].
      apply IH in Hts; [|cbn in Hl; lia|rewrite app_length; cbn; lia]. rewrite <- app_assoc in Hts. cbn [app] in Hts.
      replace (length pre + 1) with (S (length pre)) in Hts by lia.
      rewrite Hts. done.
Qed.

Lemma rows_out show g attrs specs :
  Forall2 (λ a s, gr_get_attribute g a = Ok s) attrs specs → ∀ rows out out' b,
  run_rows (csv_row show attrs) out (map (λ i, (i, res_mapM (λ a, gr_get g a i) specs)) rows) = Ok (out', b) →
  ∃ texts, out' = out ++ texts ∧ Forall2 (λ i r, Forall2 (λ a t, text_at show g a i t) attrs r) rows texts.
Proof.
  intros Hsp. induction rows as [|i rows IH]; intros out out' b H.
  - injection H as <- <-. exists []. by rewrite app_nil_r.
  - cbn [map run_rows] in H. apply bind_Ok in H as (vals & Hv & H).
    apply bind_Ok in H as ([o c] & Hr & H). unfold csv_row in Hr.
    apply bind_Ok in Hr as (fields & Hf & Hr). injection Hr as <- <-.
    destruct (IH _ _ _ H) as (texts & -> & Hts). exists (fields :: texts). split; [by rewrite <- app_assoc|].
    constructor; [|done]. apply res_mapM_Ok in Hv.
    assert (length vals = length attrs) as Hl.
    { apply Forall2_length in Hv, Hsp. lia. }
    apply (row_fields show vals attrs 0 []) in Hf; [|done|done].
    clear -Hv Hf Hsp. revert vals fields Hv Hf.
    induction Hsp as [|a s attrs specs Hs Hsp IH]; intros vals fields Hv Hf.
    + apply Forall2_nil_inv_l in Hv as ->. cbn in Hf. by apply Forall2_nil_inv_l in Hf as ->.
    + apply Forall2_cons_inv_l in Hv as (v & vals' & Hv & Hvs & ->). cbn [zip zip_with] in Hf.
      apply Forall2_cons_inv_l in Hf as (t & ts & Ht & Hf & ->). constructor; [|by eapply IH].
      exists s, v. done.
Qed.

Lemma csv_written ao show g records : any_order ao → tidy g → csv_write show ao g = Ok records →
  non_class_attrs ao g ++ gr_class_attrs g ≡ₚ gr_all_attrs g ∧
  table_of show g (non_class_attrs ao g ++ gr_class_attrs g) records.
Proof.
  intros Hao Ht H. pose proof (tidy_columns ao g Hao Ht) as Hp. split; [done|].
  destruct Ht as [Hit Hnd Hfound _ Hw]. unfold csv_write in H.
  rewrite csv_columns_ok in H by (by rewrite Hw, <- Hp, app_length). cbn [mbind res_bind] in H.
  set (attrs := non_class_attrs ao g ++ gr_class_attrs g) in *.
  destruct (resolve_found g attrs) as (specs & Hres & Hsp).
  { intros a Ha. apply Hfound. by rewrite <- Hp. }
  rewrite Hres in H. cbn [mbind res_bind] in H. unfold map_over_rows in H. rewrite Hit in H.
  apply bind_Ok in H as ([out b] & H & Ho). injection Ho as <-.
  destruct (rows_out show g attrs specs Hsp _ _ _ _ H) as (rows & -> & Hrows). exists rows. split; [done|].
  split.
  - apply Forall2_length in Hrows. by rewrite seq_length in Hrows.
  - intros i r Hr. destruct (Forall2_lookup_r _ _ _ _ _ Hrows Hr) as (k & Hk & Hx).
    apply lookup_seq in Hk as [-> _]. exact Hx.
Qed.

Lemma rows_out_total show g attrs specs rows : 
  Forall2 (λ a s, gr_get_attribute g a = Ok s) attrs specs →
  (∀ a i, a ∈ attrs → i ∈ rows → ∃ t, text_at show g a i t) → ∀ out,
  ∃ r, run_rows (csv_row show attrs) out (map (λ i, (i, res_mapM (λ a, gr_get g a i) specs)) rows) = Ok r.
Proof.
  intros Hsp. induction rows as [|i rows IH]; intros Htext out; [by eexists|].
  assert (∃ vals fields, res_mapM (λ a, gr_get g a i) specs = Ok vals ∧ length vals = length attrs ∧
            Forall2 (λ '(a, v) t, attr_decode show a v = Ok t) (zip attrs vals) fields) as (vals & fields & Hv & Hl & Hf).
  { assert (∀ a, a ∈ attrs → ∃ t, text_at show g a i t) as Hi by (intros a Ha; apply Htext; [done|left]).
    clear -Hsp Hi. induction Hsp as [|a s attrs specs Hs Hsp IH]; [exists [], []; split; [done|split; [done|constructor]]|].
    destruct IH as (vals & fields & IH1 & IH2 & IH3); [intros b Hb; apply Hi; by right|].
    destruct (Hi a) as (t & s' & v & Hs' & Hv & Ht); [left|]. assert (s' = s) as -> by congruence.
    exists (v :: vals), (t :: fields). cbn [res_mapM]. rewrite Hv. cbn [mbind res_bind]. rewrite IH1.
    split; [done|]. split; [cbn; lia|]. cbn [zip zip_with]. by constructor. }
  apply (row_fields show vals attrs 0 []) in Hf; [|done|done]. cbn [app] in Hf.
  change (imap (λ i v, (0 + i, v)) vals) with (imap pair vals) in Hf.
  assert (csv_row show attrs out vals i = Ok (out ++ [fields], Cont)) as Hrow by (unfold csv_row; by rewrite Hf).
  cbn [map run_rows]. rewrite Hv. cbn [mbind res_bind]. rewrite Hrow. cbn [mbind res_bind].
  apply IH. intros a j Ha Hj. apply Htext; [done|by right].
Qed.

Lemma csv_write_total ao show g : any_order ao → tidy g →
  (∀ a i, a ∈ gr_all_attrs g → i < (gr_size g).2 → ∃ t, text_at show g a i t) →
  ∃ records, csv_write show ao g = Ok records.
Proof.
  intros Hao Ht Htext. pose proof (tidy_columns ao g Hao Ht) as Hp.
  destruct Ht as [Hit Hnd Hfound _ Hw]. unfold csv_write.
  rewrite csv_columns_ok by (by rewrite Hw, <- Hp, app_length). cbn [mbind res_bind].
  set (attrs := non_class_attrs ao g ++ gr_class_attrs g) in *.
  destruct (resolve_found g attrs) as (specs & Hres & Hsp).
  { intros a Ha. apply Hfound. by rewrite <- Hp. }
  rewrite Hres. cbn [mbind res_bind]. unfold map_over_rows. rewrite Hit.
  destruct (rows_out_total show g attrs specs (seq 0 (gr_size g).2) Hsp) with (out := [map attr_name attrs]) as [r Hr].
  { intros a i Ha Hi. apply Htext; [by rewrite <- Hp|]. apply elem_of_seq in Hi. lia. }
  rewrite Hr. by eexists.
Qed.

(** ** Reading it back *)

Lemma text_at_unique show g a i t t' : text_at show g a i t → text_at show g a i t' → t = t'.
Proof.
  intros (s & v & H1 & H2 & H3) (s' & v' & H1' & H2' & H3').
  assert (s' = s) as -> by congruence. assert (v' = v) as -> by congruence. congruence.
Qed.

Lemma csv_round_trip show parse pg prec g attrs records :
  table_of show g attrs records → attrs ≠ [] → 0 < (gr_size g).2 → (N.of_nat (gr_size g).2 < 2 ^ 63)%N →
  NoDup (map (λ a, trim_space (attr_name a)) attrs) →
  (∀ a, a ∈ attrs → kept_column show parse g a) →
  ∃ d, csv_to_instances parse pg prec true records = Ok d ∧ (∃ h, reachable pg h d) ∧
    dense_size d = (length attrs, (gr_size g).2) ∧
    ∀ j a, attrs !! j = Some a → ∃ a' s, dense_get_attribute d a' = Ok s ∧
      attr_name a' = trim_space (attr_name a) ∧ same_kind a a' ∧
      (∀ i t, i < (gr_size g).2 → text_at show g a i t → reads_back show parse d a a' s i t) ∧
      (S j = length attrs → d_class d = {[ (sp_pond s, sp_pos s) := true ]}).
Proof.
  intros (rows & -> & Hlen & Hrows) Hne Hpos Hbig Hnames Hkept.
  set (records := map attr_name attrs :: rows).
  assert (∀ r, r ∈ records → length r = length attrs) as Hwidth.
  { intros r [->|Hr]%elem_of_cons; [by rewrite map_length|]. apply elem_of_list_lookup in Hr as [i Hi].
    symmetry. eapply Forall2_length. by apply Hrows in Hi. }
  assert (∀ j k n, column_name true records j = Some n → column_name true records k = Some n → j = k) as Hcols.
  { intros j k n Hj Hk. unfold column_name, records in Hj, Hk. cbn [head mbind option_bind] in Hj, Hk.
    rewrite list_lookup_fmap in Hj, Hk.
    destruct (attrs !! j) as [a|] eqn:Ea; [|done]. destruct (attrs !! k) as [b|] eqn:Eb; [|done].
    cbn in Hj, Hk. injection Hj as Hj. injection Hk as Hk.
    eapply (NoDup_lookup _ j k n Hnames); rewrite list_lookup_fmap; [rewrite Ea|rewrite Eb]; cbn; by f_equal. }
  (* the text of a field *)
  assert (∀ i j r v, rows !! i = Some r → r !! j = Some v → ∃ a, attrs !! j = Some a ∧ text_at show g a i v) as Hfield.
  { intros i j r v Hr Hv. destruct (Forall2_lookup_r _ _ _ _ _ (Hrows i r Hr) Hv) as (a & Ha & Ht). eauto. }
  destruct (csv_total parse pg prec true records (length attrs)) as [d Hd]; try done.
  { destruct attrs; [done|cbn; lia]. }
  { unfold data_records, records. cbn [tail]. intros ->. cbn in Hlen. lia. }
  { intros j r1 v1 r v Hr1 Hv1 Hnum Hr Hv _. unfold data_records, records in *. cbn [tail] in *.
    assert (rows !! 0 = Some r1) as Hr0 by (by rewrite <- head_lookup).
    destruct (Hfield 0 j r1 v1 Hr0 Hv1) as (a & Ha & Ht1).
    apply elem_of_list_lookup in Hr as [i Hi]. destruct (Hfield i j r v Hi Hv) as (a' & Ha' & Ht).
    assert (a' = a) as -> by congruence.
    destruct (Hkept a) with (i := i) (t := v) as [[_ ->] Hk]; [by eapply elem_of_list_lookup_2|rewrite <- Hlen; by eapply lookup_lt_Some|done|].
    destruct (Hkept a) with (i := 0) (t := v1) as [_ Hk1]; [by eapply elem_of_list_lookup_2|done|done|].
    destruct a; [apply Hk| |apply Hk]. by destruct (Hk1 eq_refl). }
  exists d. split; [done|]. destruct (csv_reads_distinct parse pg prec true records d Hd Hcols) as [Hreach [w Htab]].
  split; [done|]. destruct Htab as (Hsz & Hw & Hcol & Hcls).
  assert (w = length attrs) as ->.
  { rewrite <- (Hw (map attr_name attrs)); [by rewrite map_length|left]. }
  unfold data_records, records in Hsz. cbn [tail] in Hsz. rewrite Hlen in Hsz. split; [done|].
  intros j a Ha. assert (j < length attrs) as Hj by (by eapply lookup_lt_Some).
  destruct (Hcol j Hj) as (a' & s & Hread). pose proof Hread as [F1 F2 F3 F4 F5]. exists a', s.
  unfold data_records, records in F3, F4, F5. cbn [tail] in F3, F4, F5.
  assert (a ∈ attrs) as Hain by (by eapply elem_of_list_lookup_2).
  (* the first row gives the kind *)
  assert (is_Some (rows !! 0)) as [r0 Hr0] by (apply lookup_lt_is_Some; lia).
  assert (is_Some (r0 !! j)) as [t0 Ht0].
  { apply lookup_lt_is_Some. rewrite (Hwidth r0); [done|]. right. by eapply elem_of_list_lookup_2. }
  destruct (Hfield 0 j r0 t0 Hr0 Ht0) as (a0 & Ha0 & Hat0). assert (a0 = a) as -> by congruence.
  assert (same_kind a a') as Hkind.
  { destruct (F3 r0 t0) as [K1 K2]; [by rewrite head_lookup|done|].
    destruct (Hkept a Hain 0 t0 Hpos Hat0) as [_ Hk].
    destruct a; [apply K1, Hk|apply K2, Hk; done|apply K1, Hk]. }
  split; [done|]. split.
  { unfold column_name, records in F2. cbn [head mbind option_bind] in F2. rewrite list_lookup_fmap, Ha in F2.
    cbn in F2. congruence. }
  split; [done|]. split.
  - intros i t Hi Ht.
    assert (is_Some (rows !! i)) as [r Hr] by (apply lookup_lt_is_Some; lia).
    assert (is_Some (r !! j)) as [t' Ht'].
    { apply lookup_lt_is_Some. rewrite (Hwidth r); [done|]. right. by eapply elem_of_list_lookup_2. }
    destruct (Hfield i j r t' Hr Ht') as (a1 & Ha1 & Hat1). assert (a1 = a) as -> by congruence.
    assert (t' = t) as -> by (by eapply text_at_unique).
    destruct (Hkept a Hain i t Hi Ht) as [[Hnonempty Htrim] Hk].
    destruct (F5 i r t Hr Ht') as [_ F5']. destruct (F5' Hnonempty) as (b & Hb & Hst). rewrite Htrim in Hst.
    exists b. split; [done|]. destruct a as [n p|n vs|n]; cbn [same_kind] in Hkind.
    + destruct Hkind as (n' & p' & ->). exact Hst.
    + destruct Hkind as (n' & vs' & ->). destruct Hst as (k & Hk' & ->). cbn [attr_decode].
      apply cat_decode_ok; [|done].
      destruct (F4 n' vs' eq_refl) as [Hnd Hvs].
      assert (length vs' ≤ length (omap (λ r, (λ v, trim_space v) <$> r !! j) rows)) as Hle.
      { apply submseteq_length, NoDup_submseteq; [done|]. intros x Hx. apply Hvs in Hx as (r' & v & Hr' & Hv & _ & ->).
        apply elem_of_list_omap. exists r'. split; [done|]. by rewrite Hv. }
      assert (length (omap (λ r, (λ v, trim_space v) <$> r !! j) rows) ≤ length rows) as Hle2.
      { clear. induction rows as [|r rows IH]; [done|]. cbn [omap list_omap]. destruct (_ <$> r !! j); cbn; lia. }
      eapply N.le_lt_trans; [|exact Hbig]. lia.
    + destruct Hkind as (n' & p' & ->). exact Hst.
  - intros Hlast. by eapply Hcls.
Qed.
