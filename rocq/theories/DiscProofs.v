(** Proofs about BinningFilter: training, labels and the choice of attributes. *)
From Coq Require Import Reals Lra Lia.
From Verif Require Import Prelude BytesModel BytesProofs FloatModel FloatProofs AttrModel AttrProofs StoreModel DenseModel DenseProofs
  GridModel GridSpec FilterModel RuleModel RuleProofs CartModel CartFit IsoModel DiscModel DiscSpec DiscFloat.
From Flocq Require Import Core.Core IEEE754.BinarySingleNaN IEEE754.Bits IEEE754.Binary.
Local Open Scope nat_scope.

(** ** Training *)

Lemma put_same m a v : put m a v a = v.
Proof. unfold put. by rewrite bool_decide_true. Qed.
Lemma put_other m a v x : x ≠ a → put m a v x = m x.
Proof. intros. unfold put. by rewrite bool_decide_false. Qed.

Lemma start_in l m v a : a ∈ l → foldl (λ m a, put m a v) m l a = v.
Proof.
  revert m. induction l as [|b l IH]; intros m; [by intros ?%elem_of_nil|]. intros [->|H]%elem_of_cons; [|by apply IH].
  cbn. destruct (decide (b ∈ l)) as [Hb|Hb]; [by apply IH|].
  assert (∀ l m, b ∉ l → foldl (λ m a, put m a v) m l b = m b) as Hout.
  { clear. induction l as [|c l IH]; intros m H; [done|]. cbn. rewrite IH by set_solver. apply put_other. set_solver. }
  rewrite Hout by done. apply put_same.
Qed.

(** One value for one column. *)
Definition widen (mm : binary64 * binary64) (v : binary64) : binary64 * binary64 :=
  (if float_lt v mm.1 then v else mm.1, if float_lt mm.2 v then v else mm.2).

Lemma bin_value_spec mm s raw v : (∃ n p, sp_attr s = FloatA n p) → unpack_float raw = Ok v →
  ∃ mm', bin_value mm (s, raw) = Ok mm' ∧
    (mm'.1 (sp_attr s), mm'.2 (sp_attr s)) = widen (mm.1 (sp_attr s), mm.2 (sp_attr s)) v ∧
    ∀ x, x ≠ sp_attr s → mm'.1 x = mm.1 x ∧ mm'.2 x = mm.2 x.
Proof.
  intros (n & p & E) Hv. unfold bin_value. cbn [fst snd]. rewrite E. rewrite Hv. cbn [mbind res_bind]. eexists. split; [done|].
  cbn [fst snd]. unfold widen. cbn [fst snd]. split.
  - destruct (float_lt v _), (float_lt _ v); by rewrite ?put_same.
  - intros x Hx. destruct (float_lt v _), (float_lt _ v); rewrite ?put_other by done; done.
Qed.

(** One row. *)
Lemma bin_row_spec (val : attr → binary64) specs raws : Forall2 (λ s raw, unpack_float raw = Ok (val (sp_attr s))) specs raws →
  (∀ s, s ∈ specs → ∃ n p, sp_attr s = FloatA n p) → NoDup (map sp_attr specs) → ∀ mm,
  ∃ mm', res_foldl bin_value mm (zip specs raws) = Ok mm' ∧
    ∀ a, (mm'.1 a, mm'.2 a) = if bool_decide (a ∈ map sp_attr specs) then widen (mm.1 a, mm.2 a) (val a) else (mm.1 a, mm.2 a).
Proof.
  induction 1 as [|s raw specs raws Hv Hrest IH]; intros Hf Hnd mm.
  { exists mm. split; [done|]. intros a. done. }
  cbn [map] in Hnd. apply NoDup_cons in Hnd as [Hs Hnd].
  destruct (bin_value_spec mm s raw _ (Hf s ltac:(left)) Hv) as (m1 & E1 & H1 & O1).
  destruct (IH (λ s' H, Hf s' (elem_of_list_further _ _ _ H)) Hnd m1) as (m2 & E2 & H2).
  exists m2. split.
  - cbn [zip zip_with res_foldl]. change (zip_with pair specs raws) with (zip specs raws). rewrite E1. cbn [mbind res_bind]. exact E2.
  - intros a. rewrite H2. destruct (decide (a = sp_attr s)) as [->|Hne].
    + rewrite bool_decide_false by done. rewrite bool_decide_true by left. done.
    + destruct (O1 a Hne) as [-> ->]. cbn [map]. destruct (decide (a ∈ map sp_attr specs)) as [Hi|Hi].
      * rewrite !bool_decide_true; [done|by right|done].
      * rewrite !bool_decide_false; [done| |done]. intros [->|?]%elem_of_cons; done.
Qed.

Lemma bin_rows_spec (vals : attr → nat → binary64) specs rows :
  (∀ i fetch, (i, fetch) ∈ rows → ∃ raws, fetch = Ok raws ∧ Forall2 (λ s raw, unpack_float raw = Ok (vals (sp_attr s) i)) specs raws) →
  (∀ s, s ∈ specs → ∃ n p, sp_attr s = FloatA n p) → NoDup (map sp_attr specs) → ∀ mm,
  ∃ mm', run_rows (λ mm row _, mm ← res_foldl bin_value mm (zip specs row); Ok (mm, Cont)) mm rows = Ok (mm', false) ∧
    ∀ a, a ∈ map sp_attr specs → (mm'.1 a, mm'.2 a) = foldl widen (mm.1 a, mm.2 a) (map (vals a) (map fst rows)).
Proof.
  intros Hr Hf Hnd. induction rows as [|[i fetch] rows IH]; intros mm.
  { exists mm. done. }
  destruct (Hr i fetch ltac:(left)) as (raws & -> & H2). cbn [run_rows mbind res_bind].
  destruct (bin_row_spec (λ a, vals a i) specs raws H2 Hf Hnd mm) as (m1 & E1 & H1). rewrite E1. cbn [mbind res_bind].
  destruct (IH (λ j f H, Hr j f (elem_of_list_further _ _ _ H)) m1) as (m2 & E2 & Hm2).
  exists m2. split; [exact E2|]. intros a Ha. rewrite Hm2 by done. rewrite H1, bool_decide_true by done. done.
Qed.

Lemma fin_lt a b : fin a = true → fin b = true → float_lt a b = true ↔ (val a < val b)%R.
Proof.
  intros Ha Hb'. unfold float_lt. rewrite Bcompare_correct by done.
  destruct (Rcompare_spec (val a) (val b)); split; intros; try done; lra.
Qed.

Definition spread (l : list binary64) (mm : binary64 * binary64) : Prop :=
  mm.1 ∈ l ∧ mm.2 ∈ l ∧ ∀ v, v ∈ l → (val mm.1 <= val v <= val mm.2)%R.

Lemma widen_spread l mm v : Forall (λ v, fin v = true) (v :: l) → spread l mm → spread (v :: l) (widen mm v).
Proof.
  intros [Fv Fl]%Forall_cons (H1 & H2 & H3). rewrite Forall_forall in Fl. pose proof (Fl _ H1) as F1. pose proof (Fl _ H2) as F2.
  unfold widen. pose proof (fin_lt v mm.1 Fv F1) as L1. pose proof (fin_lt mm.2 v F2 Fv) as L2.
  pose proof (H3 _ H1) as B1. pose proof (H3 _ H2) as B2.
  split; [|split]; cbn [fst snd].
  - destruct (float_lt v mm.1); [left|by right].
  - destruct (float_lt mm.2 v); [left|by right].
  - intros u Hu. destruct (float_lt v mm.1) eqn:E1, (float_lt mm.2 v) eqn:E2.
    all: try (pose proof (proj1 L1 eq_refl)); try (pose proof (proj1 L2 eq_refl)).
    all: apply elem_of_cons in Hu as [->|Hu]; try (specialize (H3 u Hu)); try lra.
    all: destruct (Rlt_dec (val v) (val mm.1)) as [r|r]; [apply L1 in r; congruence|];
         destruct (Rlt_dec (val mm.2) (val v)) as [r'|r']; [apply L2 in r'; congruence|]; lra.
Qed.

Lemma widen_first v : fin v = true → widen (plus_inf, minus_inf) v = (v, v).
Proof. intros F. unfold widen. destruct v as [s|s|s pl H|s m e H]; try done; by destruct s. Qed.

Lemma fold_spread l : Forall (λ v, fin v = true) l → l ≠ [] → spread l (foldl widen (plus_inf, minus_inf) l).
Proof.
  intros HF Hne. induction l as [|v l IH] using rev_ind; [done|]. rewrite foldl_app. cbn [foldl].
  apply Forall_app in HF as [HF Hv]. apply Forall_cons in Hv as [Hv _].
  assert (∀ mm, spread (v :: l) mm → spread (l ++ [v]) mm) as Hp.
  { intros mm (H1 & H2 & H3). split; [|split].
    - apply elem_of_app. apply elem_of_cons in H1 as [->|]; [right; left|by left].
    - apply elem_of_app. apply elem_of_cons in H2 as [->|]; [right; left|by left].
    - intros u Hu. apply H3. apply elem_of_app in Hu as [Hu|Hu]; [by right|]. apply elem_of_list_singleton in Hu as ->. left. }
  destruct (decide (l = [])) as [->|Hl].
  - cbn [foldl]. rewrite widen_first by done. split; [left|]. split; [left|]. intros u Hu. apply elem_of_list_singleton in Hu as ->. cbn [fst snd]. lra.
  - apply Hp, widen_spread; [|by apply IH]. by constructor.
Qed.

Lemma specs_found g attrs : (∀ a, a ∈ attrs → ∃ s, gr_get_attribute g a = Ok s ∧ sp_attr s = a) → ∀ b, bn_train b = g →
  ∃ specs, attribute_specs b attrs = Ok specs ∧ map sp_attr specs = attrs ∧
    ∀ s, s ∈ specs → gr_get_attribute g (sp_attr s) = Ok s.
Proof.
  intros H b Hb. unfold attribute_specs. rewrite Hb. induction attrs as [|a attrs IH].
  { exists []. split; [done|]. split; [done|]. intros s Hs. by apply elem_of_nil in Hs. }
  destruct (H a ltac:(left)) as (s & Hs & Ha). destruct IH as (specs & E & Hm & Hg); [intros; apply H; by right|].
  exists (s :: specs). cbn [res_mapM]. rewrite Hs. cbn [mbind res_bind]. rewrite E. cbn [mbind res_bind]. split; [done|]. split.
  - cbn. by rewrite Ha, Hm.
  - intros s' [->|Hs']%elem_of_cons; [by rewrite Ha|by apply Hg].
Qed.

Lemma bin_train_spec b order vals : order ≡ₚ bn_attrs b → NoDup (bn_attrs b) → iter_agrees (bn_train b) → 0 < (gr_size (bn_train b)).2 →
  (∀ a, a ∈ bn_attrs b → (∃ n p, a = FloatA n p) ∧ holds_column (bn_train b) a (vals a)) →
  ∃ b', bin_train b order = Ok b' ∧ bn_attrs b' = bn_attrs b ∧ bn_train b' = bn_train b ∧ bn_bins b' = bn_bins b ∧
    ∀ a, a ∈ bn_attrs b → extremes (gr_size (bn_train b)).2 (vals a) (bn_min b' a) (bn_max b' a).
Proof.
  intros Hord Hnd Hit Hpos Hcol. unfold bin_train.
  assert (∀ a, a ∈ order → a ∈ bn_attrs b) as Hin by (intros a; by rewrite Hord).
  destruct (specs_found (bn_train b) order) with (b := b) as (specs & -> & Hm & Hg).
  { intros a Ha. destruct (Hcol a (Hin a Ha)) as (_ & s & H1 & H2 & _). eauto. }
  { done. }
  assert (∀ s, s ∈ specs → sp_attr s ∈ bn_attrs b) as Hsp.
  { intros s Hs. apply Hin. rewrite <- Hm. by apply elem_of_list_fmap_1. }
  cbn [mbind res_bind]. unfold map_over_rows. destruct (Hit specs) as (rows & -> & Hperm & Hfetch).
  destruct (bin_rows_spec vals specs rows) with (mm := (foldl (λ m a, put m a plus_inf) (bn_min b) (bn_attrs b),
    foldl (λ m a, put m a minus_inf) (bn_max b) (bn_attrs b))) as (mm' & -> & Hmm).
  - intros i fetch Hi. rewrite (Hfetch i fetch Hi). assert (i < (gr_size (bn_train b)).2) as Hlt.
    { apply (elem_of_list_fmap_1 fst) in Hi. change (fst <$> rows) with (map fst rows) in Hi. rewrite Hperm in Hi.
      apply elem_of_seq in Hi. cbn in Hi. lia. }
    clear Hm Hfetch. induction specs as [|s specs IH]; [exists []; by split; [|constructor]|].
    destruct IH as (raws & E & H2); [intros; apply Hg; by right|intros; apply Hsp; by right|].
    destruct (Hcol (sp_attr s) (Hsp s ltac:(left))) as (_ & s' & H1 & _ & Hv).
    rewrite (Hg s ltac:(left)) in H1. injection H1 as <-. destruct (Hv i Hlt) as (_ & raw & Hraw & Hu).
    exists (raw :: raws). cbn [res_mapM]. rewrite Hraw. cbn [mbind res_bind]. rewrite E. cbn [mbind res_bind]. split; [done|].
    by apply Forall2_cons_2.
  - intros s Hs. apply (Hcol _ (Hsp s Hs)).
  - rewrite Hm, Hord. done.
  - cbn [mbind res_bind fst snd]. eexists. split; [done|]. cbn [bn_attrs bn_train bn_bins bn_min bn_max].
    split; [done|]. split; [done|]. split; [done|]. intros a Hain.
    pose proof (Hmm a) as Ha. rewrite Hm, Hord in Ha. specialize (Ha Hain). cbn [fst snd] in Ha. rewrite !start_in in Ha by done.
    pose proof (fold_spread (map (vals a) (map fst rows))) as Hs. rewrite <- Ha in Hs.
    destruct (Hcol a Hain) as (_ & s & _ & _ & Hv).
    assert (∀ r, r ∈ map fst rows ↔ r < (gr_size (bn_train b)).2) as Hr by (intros r; rewrite Hperm, elem_of_seq; lia).
    destruct Hs as (S1 & S2 & S3).
    + apply Forall_forall. intros v (r & -> & Hr')%elem_of_list_fmap. apply Hv. by apply Hr.
    + intros E0. apply (f_equal length) in E0. rewrite map_length in E0. rewrite Hperm, seq_length in E0. cbn in E0. lia.
    + cbn [fst snd] in *. split; [|split].
      * apply elem_of_list_fmap in S1 as (r & E & Hr'). exists r. split; [by apply Hr|done].
      * apply elem_of_list_fmap in S2 as (r & E & Hr'). exists r. split; [by apply Hr|done].
      * intros r Hr'. apply S3. apply elem_of_list_fmap_1. by apply Hr.
Qed.

(** ** Bins of a sane range *)

Lemma sane_hyps mn mx : sane_range mn mx →
  fin mn = true ∧ fin mx = true ∧ fin (b64_minus mode_NE mx mn) = true ∧ (bpow radix2 (-900) <= val mx - val mn)%R.
Proof.
  intros (Fn & Fx & H1 & H2). split; [done|]. split; [done|].
  change (bpow radix2 (-900)) with (/ IZR (2 ^ 900))%R. split; [|done].
  unfold b64_minus. pose proof (Bminus_correct 53 1024 eq_refl eq_refl binop_nan_pl64 mode_NE mx mn Fx Fn) as H. cbn [round_mode] in H.
  rewrite Rlt_bool_true in H; [tauto|].
  assert (0 < / IZR (2 ^ 900))%R as H0. { apply Rinv_0_lt_compat, IZR_lt. reflexivity. }
  change (IZR (2 ^ 1023)) with (bpow radix2 1023) in H2.
  apply Rle_lt_trans with (bpow radix2 1023); [|apply bpow_lt; lia]. rewrite Rabs_pos_eq.
  - apply round_le_generic; [apply _|apply _| |lra]. apply generic_format_bpow. unfold SpecFloat.fexp, SpecFloat.emin. lia.
  - rewrite <- (round_0 radix2 (SpecFloat.fexp 53 1024) ZnearestE). apply round_le; [apply _|apply _|lra].
Qed.

Lemma sane_bins wild mn mx bins : sane_range mn mx → (1 <= bins <= 1000000000)%Z →
  (∀ v, fin v = true → (val v <= val mx)%R → (0 <= bin_of wild mn mx bins v <= bins)%Z) ∧
  (∀ u v, fin u = true → fin v = true → (val u <= val v <= val mx)%R → (bin_of wild mn mx bins u <= bin_of wild mn mx bins v)%Z) ∧
  (∀ v, fin v = true → (val mn <= val v <= val mx)%R →
    (IZR (bin_of wild mn mx bins v) - 11 / 100000 <= widths_above mn mx bins v < IZR (bin_of wild mn mx bins v) + 1 - 9 / 100000)%R).
Proof.
  intros Hs Hb. destruct (sane_hyps mn mx Hs) as (Fn & Fx & Fd & HW). split; [|split].
  - intros v Fv Hv. by apply bin_of_range.
  - intros u v Fu Fv Huv. by apply bin_of_mono.
  - intros v Fv [[Hlt|Heq] Hv].
    + by apply (bin_of_near mn mx bins Fn Fx Fd Hb HW wild).
    + assert (bin_of wild mn mx bins v = 0%Z) as ->.
      { unfold bin_of. rewrite (proj2 (fin_le v mn Fv Fn)) by lra. done. }
      unfold widths_above. rewrite Heq. replace (val v - val v)%R with 0%R by lra. unfold Rdiv at 2. rewrite Rmult_0_l. lra.
Qed.

Lemma edge_spec mn mx bins (k : nat) : sane_range mn mx → (1 <= bins <= 1000000000)%Z → (Z.of_nat k <= bins)%Z →
  (Rabs (val mn) <= IZR (2 ^ 1000))%R → (Rabs (val mx) <= IZR (2 ^ 1000))%R →
  fin (bin_edge mn mx bins k) = true ∧
  (Rabs (val (bin_edge mn mx bins k) - (val mn + INR k * ((val mx - val mn) / IZR bins)))
     <= 20 / IZR (2 ^ 53) * (Rabs (val mn) + Rabs (val mx)))%R.
Proof.
  intros Hs Hb Hk H1 H2. destruct (sane_hyps mn mx Hs) as (Fn & Fx & Fd & HW).
  apply (edge_near mn mx bins Fn Fx Fd Hb HW k Hk H1 H2).
Qed.

(** ** Labels *)

Lemma encode_distinct hist vs : NoDup (vs ++ hist) → (cat_encode_all vs hist).1 = vs ++ hist.
Proof.
  revert vs. induction hist as [|s hist IH]; intros vs Hnd; cbn [cat_encode_all]; [by rewrite app_nil_r|].
  assert (s ∉ vs) as Hs. { apply NoDup_app in Hnd as (_ & H & _). intros Hin. apply (H s Hin). left. }
  unfold cat_encode at 1. rewrite (proj2 (cat_find_none vs s) Hs).
  specialize (IH (vs ++ [s])). rewrite <- app_assoc in IH. specialize (IH Hnd).
  destruct (cat_encode_all (vs ++ [s]) hist) as [v2 cs]. cbn in *. done.
Qed.

Lemma labels_distinct show prec mn mx bins : (0 <= bins)%Z →
  distinct_labels (λ i, show prec (float64bits (bin_edge mn mx bins i))) bins →
  ∀ k, (Z.of_nat k <= bins)%Z → bin_labels show prec mn mx bins !! k = Some (show prec (float64bits (bin_edge mn mx bins k))).
Proof.
  intros Hb Hd k Hk. unfold bin_labels. rewrite encode_distinct.
  - cbn [app]. change (map ?f) with (fmap (M:=list) f). rewrite list_lookup_fmap, lookup_seq_lt by lia. done.
  - cbn [app]. apply NoDup_alt. intros i j x. change (map ?f) with (fmap (M:=list) f). rewrite !list_lookup_fmap.
    intros (i' & Hi & Ei)%fmap_Some (j' & Hj & Ej)%fmap_Some.
    apply lookup_seq in Hi as [-> Hi]. apply lookup_seq in Hj as [-> Hj]. rewrite Ei in Ej.
    apply Hd in Ej; cbn in *; lia.
Qed.

Lemma labels_length show prec mn mx bins : length (bin_labels show prec mn mx bins) ≤ Z.to_nat (bins + 1).
Proof.
  unfold bin_labels. destruct (cat_encode_all _ _) as [vs codes] eqn:E.
  apply cat_encode_all_spec in E as (_ & _ & _ & H & _). rewrite map_length, seq_length in H. cbn in *. lia.
Qed.

(** ** Choice of attributes *)

Definition floats_only (b : binning) : Prop := ∀ a, a ∈ bn_attrs b → ∃ n p, a = FloatA n p.

Lemma add_attribute_spec b a : 
  (∀ b', add_attribute b a = Ok b' ↔ (∃ n p, a = FloatA n p) ∧ (∃ s, gr_get_attribute (bn_train b) a = Ok s) ∧
     b' = Binning (if bool_decide (a ∈ bn_attrs b) then bn_attrs b else bn_attrs b ++ [a]) (bn_train b) (bn_bins b) (bn_min b) (bn_max b)).
Proof.
  intros b'. unfold add_attribute. destruct a as [n p|n vs|n].
  - destruct (gr_get_attribute (bn_train b) (FloatA n p)) as [s| |] eqn:E.
    + split; [intros [= <-]; eauto 10|]. intros (_ & _ & ->). done.
    + split; [done|]. intros (_ & (s & Hs) & _). done.
    + split; [done|]. intros (_ & (s & Hs) & _). done.
  - split; [done|]. intros ((? & ? & ?) & _). done.
  - split; [done|]. intros ((? & ? & ?) & _). done.
Qed.

Lemma add_all_spec attrs b b' : res_foldl add_attribute b attrs = Ok b' → NoDup (bn_attrs b) → floats_only b →
  NoDup (bn_attrs b') ∧ floats_only b' ∧ bn_train b' = bn_train b ∧ bn_bins b' = bn_bins b ∧
  ∀ a, a ∈ bn_attrs b' ↔ a ∈ bn_attrs b ∨ a ∈ attrs.
Proof.
  revert b. induction attrs as [|a attrs IH]; intros b; cbn [res_foldl].
  { intros [= <-] ? ?. repeat split; try done; [tauto|]. intros [?|?%elem_of_nil]; done. }
  intros H Hnd Hf. apply bind_Ok in H as (b1 & H1 & H2). apply add_attribute_spec in H1 as (Ha & _ & ->).
  apply IH in H2 as (G1 & G2 & G3 & G4 & G5); cbn [bn_attrs bn_train bn_bins] in *.
  - split; [done|]. split; [done|]. split; [done|]. split; [done|]. intros x. rewrite G5, elem_of_cons.
    case_bool_decide; [|rewrite elem_of_app, elem_of_list_singleton]; [|tauto]. split; [tauto|]. intros [?|[->|?]]; tauto.
  - case_bool_decide; [done|]. apply NoDup_app. split; [done|]. split; [|apply NoDup_singleton].
    intros x Hx ->%elem_of_list_singleton. done.
  - intros x Hx. cbn [bn_attrs] in Hx. case_bool_decide; [by apply Hf|]. apply elem_of_app in Hx as [Hx|Hx]; [by apply Hf|].
    apply elem_of_list_singleton in Hx as ->. done.
Qed.

Lemma bin_train_keeps b order b' : bin_train b order = Ok b' →
  bn_attrs b' = bn_attrs b ∧ bn_train b' = bn_train b ∧ bn_bins b' = bn_bins b.
Proof.
  unfold bin_train. intros H. apply bind_Ok in H as (specs & _ & H). apply bind_Ok in H as (r & _ & H).
  destruct r.2; [done|]. injection H as <-. done.
Qed.

Lemma bin_attrs_spec show b : floats_only b →
  bin_attrs show b = Ok (map (λ a, (a, if bool_decide (a ∈ bn_attrs b) then
    match a with FloatA name prec => CatA name (bin_labels show prec (bn_min b a) (bn_max b a) (bn_bins b)) | _ => a end else a))
    (gr_all_attrs (bn_train b))).
Proof.
  intros Hf. unfold bin_attrs. induction (gr_all_attrs (bn_train b)) as [|a l IH]; [done|]. cbn [res_mapM map].
  case_bool_decide as Ha.
  - destruct (Hf a Ha) as (n & p & ->). cbn [mbind res_bind]. rewrite IH. done.
  - cbn [mbind res_bind]. rewrite IH. done.
Qed.

(** ** The whole of it *)

(** [b] is a new filter over [g] with the attributes [attrs] added, and then trained;
    [order] is the order in which its map of attributes is visited. *)
Definition trained (g : grid) (bins : Z) (attrs order : list attr) (b : binning) : Prop :=
  ∃ b0, res_foldl add_attribute (new_binning g bins) attrs = Ok b0 ∧ order ≡ₚ bn_attrs b0 ∧ bin_train b0 order = Ok b.

Lemma trained_keeps g bins attrs order b : trained g bins attrs order b →
  floats_only b ∧ bn_train b = g ∧ bn_bins b = bins ∧ ∀ a, a ∈ bn_attrs b ↔ a ∈ attrs.
Proof.
  intros (b0 & H0 & _ & Ht). apply add_all_spec in H0 as (_ & Hf & H1 & H2 & H3); [|constructor|intros ? []%elem_of_nil].
  apply bin_train_keeps in Ht as (G1 & G2 & G3). unfold floats_only. rewrite G1, G2, G3. split; [done|]. split; [done|]. split; [done|].
  intros a. rewrite H3. cbn [new_binning bn_attrs]. rewrite elem_of_nil. tauto.
Qed.

Lemma training_succeeds g bins attrs vals : iter_agrees g → 0 < (gr_size g).2 →
  (∀ a, a ∈ attrs → (∃ n p, a = FloatA n p) ∧ holds_column g a (vals a)) →
  ∃ b0, res_foldl add_attribute (new_binning g bins) attrs = Ok b0 ∧
  ∀ order, order ≡ₚ bn_attrs b0 → ∃ b, trained g bins attrs order b ∧
    ∀ a, a ∈ attrs → extremes (gr_size g).2 (vals a) (bn_min b a) (bn_max b a).
Proof.
  intros Hit Hpos Hcol.
  assert (∀ l b, bn_train b = g → (∀ a, a ∈ l → a ∈ attrs) → ∃ b0, res_foldl add_attribute b l = Ok b0) as Hadd.
  { induction l as [|a l IH]; intros b Hb Hl; [eauto|]. cbn [res_foldl].
    destruct (Hcol a) as (Ha & s & Hs & _); [apply Hl; left|].
    destruct (add_attribute b a) as [b1| |] eqn:E.
    - cbn [mbind res_bind]. apply add_attribute_spec in E as (_ & _ & ->). apply IH; [done|]. intros; apply Hl; by right.
    - exfalso. destruct Ha as (n & p & ->). cbn in E. rewrite Hb, Hs in E. done.
    - exfalso. destruct Ha as (n & p & ->). cbn in E. rewrite Hb, Hs in E. done. }
  destruct (Hadd attrs (new_binning g bins) eq_refl (λ _ H, H)) as (b0 & H0). exists b0. split; [done|]. intros order Hord.
  pose proof H0 as H0'. apply add_all_spec in H0' as (G1 & G2 & G3 & G4 & G5); [|constructor|intros ? []%elem_of_nil].
  cbn [new_binning bn_attrs bn_train bn_bins] in *.
  assert (∀ a, a ∈ bn_attrs b0 ↔ a ∈ attrs) as Hin by (intros a; rewrite G5, elem_of_nil; tauto).
  destruct (bin_train_spec b0 order vals) as (b & Hb & K1 & K2 & K3 & K4); rewrite ?G3; try done.
  { intros a Ha. by apply Hcol, Hin. }
  rewrite G3 in K4. exists b. split; [exists b0; done|]. intros a Ha. by apply K4, Hin.
Qed.

Lemma label_read show wild g bins attrs order b name prec field v :
  let a := FloatA name prec in let mn := bn_min b a in let mx := bn_max b a in
  trained g bins attrs order b → a ∈ attrs → a ∈ gr_all_attrs g →
  sane_range mn mx → (1 <= bins <= 1000000000)%Z →
  distinct_labels (λ i, show prec (float64bits (bin_edge mn mx bins i))) bins →
  unpack_float field = Ok v → fin v = true → (val mn <= val v <= val mx)%R →
  ∃ after labels code k, bin_attrs show b = Ok after ∧ (a, CatA name labels) ∈ after ∧
    bin_transform wild b a (CatA name labels) field = Ok code ∧
    attr_decode show (CatA name labels) code = Ok (show prec (float64bits (bin_edge mn mx bins k))) ∧
    k <= Z.to_nat bins ∧ (INR k - 11 / 100000 <= widths_above mn mx bins v < INR k + 1 - 9 / 100000)%R.
Proof.
  intros a mn mx Ht Ha Hall Hs Hb Hd Hu Fv Hv. destruct (trained_keeps _ _ _ _ _ Ht) as (Hf & Hg & Hbn & Hin).
  destruct (sane_bins wild mn mx bins Hs Hb) as (B1 & _ & B3). specialize (B1 v Fv ltac:(lra)). specialize (B3 v Fv Hv).
  set (z := bin_of wild mn mx bins v) in *.
  eexists _, _, (pack_u64 (N.of_nat (Z.to_nat z))), (Z.to_nat z). split; [by apply bin_attrs_spec|]. split; [|split; [|split; [|split]]].
  - rewrite Hg. apply elem_of_list_fmap. exists a. split; [|done]. rewrite bool_decide_true by (by apply Hin). unfold a. reflexivity.
  - unfold bin_transform. rewrite bool_decide_true by (by apply Hin). unfold a at 1. rewrite Hu. cbn [mbind res_bind].
    fold a mn mx. rewrite Hbn. fold z. rewrite Z.mod_small by lia. do 2 f_equal. lia.
  - cbn [attr_decode]. fold a mn mx. rewrite Hbn. apply cat_decode_ok.
    + pose proof (labels_length show prec mn mx bins). lia.
    + apply labels_distinct; [lia|done|]. lia.
  - lia.
  - rewrite INR_IZR_INZ, Z2Nat.id by lia. done.
Qed.

Lemma labels_repeat show prec mn mx bins : (1 <= bins)%Z →
  show prec (float64bits (bin_edge mn mx bins 0)) = show prec (float64bits (bin_edge mn mx bins 1)) →
  length (bin_labels show prec mn mx bins) ≤ Z.to_nat bins.
Proof.
  intros Hb E. unfold bin_labels. replace (Z.to_nat (bins + 1)) with (2 + (Z.to_nat bins - 1)) by lia.
  rewrite seq_app, map_app. rewrite cat_encode_all_app.
  assert ((cat_encode_all [] (map (λ i, show prec (float64bits (bin_edge mn mx bins i))) (seq 0 2))).1 =
    [show prec (float64bits (bin_edge mn mx bins 0))]) as ->.
  { cbn [seq map]. rewrite <- E. cbn. unfold cat_encode, cat_find. cbn [cat_find_from]. by rewrite bool_decide_true. }
  destruct (cat_encode_all _ _) as [vs codes] eqn:E'.
  apply cat_encode_all_spec in E' as (_ & _ & _ & H & _). rewrite map_length, seq_length in H. cbn in *. lia.
Qed.

Lemma decode_beyond show name labels z : (Z.of_nat (length labels) <= z < 2 ^ 64)%Z → (Z.of_nat (length labels) < 2 ^ 63)%Z →
  attr_decode show (CatA name labels) (pack_u64 (Z.to_N z)) = Panic.
Proof.
  intros Hz Hl. cbn [attr_decode]. eapply cat_decode_panic; [|apply unpack_pack_u64| |]; lia.
Qed.

Definition is_ok {A} (r : res A) : bool := match r with Ok _ => true | _ => false end.
Lemma take_ok {A} (r : res A) d : is_ok r = true → r = Ok (match r with Ok x => x | _ => d end).
Proof. by destruct r. Qed.
