(** Property C172: fitting an ID3 tree with rows held back for pruning. *)
From Verif Require Import Prelude BytesModel FloatModel AttrModel AttrSpec StoreModel DenseModel DenseSpec
  DenseProofs DenseCheck ShuffleModel SwapProofs GridModel GridSpec GridProofs PredModel PredProofs ConfModel ConfSpec
  KnnModel KnnSpec KnnProps Id3Model Id3Spec Id3Proofs Id3Props Id3FitModel Id3FitProofs.
From Flocq Require Import IEEE754.Bits IEEE754.Binary.
Local Open Scope nat_scope.

(** Whatever the share and whatever is drawn, if Fit succeeds and some row was not held
    back, every prediction is the most frequent class of some of the rows; the rows of
    the data are kept, possibly in another order. *)
Theorem C172_fit_partial : ∀ show parse gen ko co ro cord ao pg pko pwo pco pro order co1 co2 ro1 ro2
    shuf draws wild c label d wo what vs prop d' t,
  training show (dense_grid order d) c label → reach pg d → sane_rules gen →
  (∀ p, any_order (ko p)) → (∀ p, any_order (co p)) → (∀ p, any_order (ro p)) →
  any_order co1 → any_order ro1 → any_order co2 → any_order ro2 →
  any_order cord → any_order ao → (∀ i j, any_order (wo i j)) →
  (∀ i, i < d_maxrow d → shuf i ≤ i) →
  id3_fit show parse gen ko co ro cord ao pg pko pwo pco pro order co1 co2 ro1 ro2 shuf draws wild prop d = Ok (d', t) →
  (∃ i, i < d_maxrow d ∧ (holds_back prop = true → (share_limit wild prop < draws i)%Z)) →
  predictable show (dense_grid order d) what vs → (∀ r, r < d_maxrow d → label r ∈ vs) →
  (∃ p, row_bijection (d_maxrow d) p ∧ rows_rearranged p d d') ∧
  ∃ ret, predict show parse cord ao pg wo t what = Ok ret ∧ (dense_size ret).2 = (gr_size what).2 ∧
    ∀ order' i, class_order ret order' → i < (gr_size what).2 →
      ∃ rows cl, rows ⊆ seq 0 (d_maxrow d) ∧ majority label rows cl ∧
        get_class show (dense_grid order' ret) i = Ok cl.
Proof.
  intros show parse gen ko co ro cord ao pg pko pwo pco pro order co1 co2 ro1 ro2 shuf draws wild c label d wo
    what vs prop d' t T R Hgen Hko Hco Hro H1 H2 H3 H4 Hcord Hao Hwo Hshuf Hfit (i0 & Hi0 & Hheld) P Hvs.
  destruct (fit_describes show parse gen ko co ro cord ao pg pko pwo pco pro order co1 co2 ro1 ro2 shuf draws wild
    c label d T R Hgen Hko Hco Hro H1 H2 H3 H4 Hshuf prop d' t Hfit) as (p & rows & Hp & Hre & _ & Hrows & _ & Hd & _).
  assert (rows ⊆ seq 0 (d_maxrow d)) as Hsub.
  { intros r Hr. apply Hrows in Hr as (i & [Hi _] & ->). apply elem_of_seq. destruct Hp as [Hp _].
    specialize (Hp i Hi). lia. }
  split; [by exists p|].
  destruct (predict_described show parse cord ao pg wo (dense_grid order d) what vs label rows t
    Hcord Hao Hwo P Hd) as (ret & Hret & Hsz & Hall).
  - intros ->. assert (p i0 ∈ ([] : list nat)) as Hin by (apply Hrows; exists i0; by split).
    by apply elem_of_nil in Hin.
  - intros r Hr. apply Hvs. apply Hsub, elem_of_seq in Hr. lia.
  - exists ret. split; [done|]. split; [done|]. intros order' i Ho Hi.
    destruct (Hall order' i Ho Hi) as (rows' & cl & Hs' & Hm & Hc). exists rows', cl.
    split; [|done]. intros r Hr. by apply Hsub, Hs'.
Qed.
Print Assumptions C172_fit_partial.

(** If rows were to be held back but none was drawn, pruning removes every split: all
    predictions are the most frequent class of the whole data. *)
Theorem C172_collapse : ∀ show parse gen ko co ro cord ao pg pko pwo pco pro order co1 co2 ro1 ro2
    shuf draws wild c label d wo what vs prop d' t,
  training show (dense_grid order d) c label → reach pg d → sane_rules gen →
  (∀ p, any_order (ko p)) → (∀ p, any_order (co p)) → (∀ p, any_order (ro p)) → (∀ p, any_order (pko p)) →
  any_order co1 → any_order ro1 → any_order co2 → any_order ro2 →
  any_order cord → any_order ao → (∀ i j, any_order (wo i j)) →
  (∀ i, i < d_maxrow d → shuf i ≤ i) → d_maxrow d ≠ 0 →
  id3_fit show parse gen ko co ro cord ao pg pko pwo pco pro order co1 co2 ro1 ro2 shuf draws wild prop d = Ok (d', t) →
  holds_back prop = true → (∀ i, i < d_maxrow d → (share_limit wild prop < draws i)%Z) →
  predictable show (dense_grid order d) what vs → (∀ r, r < d_maxrow d → label r ∈ vs) →
  ∃ cl ret, majority label (seq 0 (d_maxrow d)) cl ∧ predict show parse cord ao pg wo t what = Ok ret ∧
    ∀ order' i, class_order ret order' → i < (gr_size what).2 →
      get_class show (dense_grid order' ret) i = Ok cl.
Proof.
  intros show parse gen ko co ro cord ao pg pko pwo pco pro order co1 co2 ro1 ro2 shuf draws wild c label d wo
    what vs prop d' t T R Hgen Hko Hco Hro Hpko H1 H2 H3 H4 Hcord Hao Hwo Hshuf Hn Hfit Hb Hdraw P Hvs.
  destruct (fit_describes show parse gen ko co ro cord ao pg pko pwo pco pro order co1 co2 ro1 ro2 shuf draws wild
    c label d T R Hgen Hko Hco Hro H1 H2 H3 H4 Hshuf prop d' t Hfit) as (p & rows & Hp & _ & _ & Hrows & Hnd & Hd & Hch).
  specialize (Hch Hb Hdraw Hpko).
  assert (rows ≡ₚ seq 0 (d_maxrow d)) as Hperm.
  { apply NoDup_Permutation; [done|apply NoDup_seq|]. intros r. rewrite Hrows, elem_of_seq. split.
    - intros (i & [Hi _] & ->). destruct Hp as [Hp _]. specialize (Hp i Hi). lia.
    - intros Hr. destruct Hp as (_ & _ & Hp). destruct (Hp r) as (i & Hi & E); [lia|].
      exists i. split; [|done]. split; [done|]. intros _. by apply Hdraw. }
  apply (describes_perm show (dense_grid order d) label rows (seq 0 (d_maxrow d)) t Hperm) in Hd.
  assert (seq 0 (d_maxrow d) ≠ []) as Hne by (by destruct (d_maxrow d)).
  pose proof (describes_majority _ _ _ _ _ Hd Hne) as Hm.
  destruct (predict_ok show parse cord ao pg (dense_grid order d) what vs Hcord Hao P wo t) as (ret & Hret & _ & Hget).
  { intros i Hi. exists t. destruct t as [leaf ch dist class cattr ru]. cbn [t_children] in Hch. subst ch.
    split; [done|]. destruct Hm as [Hm _]. apply elem_of_list_fmap in Hm as (r & E & Hr). rewrite E.
    apply Hvs. apply elem_of_seq in Hr. lia. }
  exists (t_class t), ret. split; [done|]. split; [done|]. intros order' i Ho Hi.
  destruct (Hget order' i Ho Hi) as (node & Hnode & Hcl). rewrite Hcl. f_equal.
  destruct t as [leaf ch dist class cattr ru]. cbn [t_children] in Hch. subst ch.
  cbn [walk] in Hnode. by injection Hnode as <-.
Qed.
Print Assumptions C172_collapse.

(** ** Cases *)

(** Six rows.  The class is u if y = p, as w says if y = q, and v if y = z. *)
Definition u_rows : list (list (list N)) :=
  [t_row t_one 0 0 0; t_row t_two 0 1 0; t_row t_one 1 0 0; t_row t_two 1 1 1; t_row t_one 2 0 1; t_row t_one 2 1 1]%N.
Definition u_history : list dop :=
  [DAdd tx; DAdd ty; DAdd tw; DAdd tc; DClass tc true; DExtend 6] ++
  concat (imap (λ i r, zip_with (λ s v, DSet s i v) t_specs r) u_rows).
Definition u_order : list ((nat * nat) * bool) := [((1, 2), true)].
Definition u_fit (shuf : nat → nat) (draws : nat → Z) (prop : binary64) : res (dense * tree) :=
  id3_fit t_show ex_parse (t_gen t_yw) (λ _, id) (λ _, id) (λ _, id) id id 64 (λ _, id) (λ _ _ _, id) (λ _, id) (λ _, id)
    u_order id id id id shuf draws (λ _, 0%Z) prop (t_dense u_rows).
(** The predictions for the six rows. *)
Definition u_labels (r : res (dense * tree)) : res (list string) := r ← r; t_labels r.2 t_train.
Definition half : binary64 := b64_of_bits 0x3FE0000000000000.
Definition whole : binary64 := b64_of_bits 0x3FF0000000000000.

Lemma u_reach : reach 64 (t_dense u_rows).
Proof. exists u_history. apply check_reachable. vm_compute. reflexivity. Qed.
Lemma u_training : training t_show (dense_grid u_order (t_dense u_rows)) tc t_label.
Proof. apply training_check. vm_compute. reflexivity. Qed.

(** The rows third and fourth after shuffling are held back. *)
Definition u_shuf (i : nat) : nat := i - 1.
Definition u_draws (i : nat) : Z := if (i =? 2) || (i =? 3) then 50%Z else 51%Z.

Example C172_ex :
  training t_show (dense_grid u_order (t_dense u_rows)) tc t_label ∧ reach 64 (t_dense u_rows) ∧
  sane_rules (t_gen t_yw) ∧ holds_back half = true ∧ share_limit (λ _, 0%Z) half = 50%Z ∧
  predictable t_show (dense_grid u_order (t_dense u_rows)) t_new ["u"; "v"] ∧
  u_labels (u_fit u_shuf u_draws half) = Ok ["u"; "u"; "u"; "u"; "v"; "v"].
Proof.
  split; [exact u_training|]. split; [exact u_reach|]. split; [apply t_gen_sane|].
  split; [vm_compute; reflexivity|]. split; [vm_compute; reflexivity|].
  split; [apply predictable_check; vm_compute; reflexivity|]. vm_compute. reflexivity.
Qed.

(** 0.002: the limit is 0, so that each row has one chance in 101 of
    being held back. *)
Definition small : binary64 := b64_of_bits 0x3F60624DD2F1A9FC.

Example C172_collapse_ex :
  holds_back small = true ∧ share_limit (λ _, 0%Z) small = 0%Z ∧
  u_labels (u_fit u_shuf (λ _, 1%Z) small) = Ok ["v"; "v"; "v"; "v"; "v"; "v"].
Proof. split; [vm_compute; reflexivity|]. split; vm_compute; reflexivity. Qed.

(** Asking for pruning can lose everything a tree learned: the same data gives a tree
    that is always right without it and one that knows a single class with it. *)
Theorem C172_collapse_refuted : ∃ shuf draws,
  (∀ i, shuf i ≤ i) ∧ (∀ i, 0 ≤ draws i ≤ 100)%Z ∧
  holds_back float_zero = false ∧ holds_back small = true ∧
  u_labels (u_fit shuf draws float_zero) = Ok (map t_label (seq 0 6)) ∧
  u_labels (u_fit shuf draws small) = Ok ["v"; "v"; "v"; "v"; "v"; "v"].
Proof.
  exists u_shuf, (λ _, 1%Z). split; [intros; unfold u_shuf; lia|]. split; [lia|].
  split; [vm_compute; reflexivity|]. split; [vm_compute; reflexivity|]. split; vm_compute; reflexivity.
Qed.
Print Assumptions C172_collapse_refuted.

Lemma split_rows_same draws draws' t i n :
  (∀ j, i ≤ j < i + n → (t <? draws j)%Z = (t <? draws' j)%Z) →
  split_rows draws t i n = split_rows draws' t i n.
Proof.
  revert i. induction n as [|n IH]; intros i H; [done|]. cbn [split_rows].
  rewrite (IH (S i)) by (intros j Hj; apply H; lia). by rewrite (H i) by lia.
Qed.

(** With a share of 1 or when every row happens to be held back, Fit panics. *)
Theorem C172_whole_refuted : ∃ shuf, (∀ i, shuf i ≤ i) ∧
  ∀ draws, (∀ i, 0 ≤ draws i ≤ 100)%Z → u_fit shuf draws whole = Panic.
Proof.
  exists u_shuf. split; [intros; unfold u_shuf; lia|]. intros draws Hd.
  assert (∀ i n, split_rows draws (share_limit (λ _, 0%Z) whole) i n =
    split_rows (λ _, 0%Z) (share_limit (λ _, 0%Z) whole) i n) as E.
  { assert (share_limit (λ _, 0%Z) whole = 100%Z) as -> by (vm_compute; reflexivity).
    intros i n. apply split_rows_same. intros j _. specialize (Hd j).
    rewrite (proj2 (Z.ltb_ge _ _)) by lia. done. }
  transitivity (u_fit u_shuf (λ _, 0%Z) whole); [|vm_compute; reflexivity].
  unfold u_fit, id3_fit, train_test_dense, train_test_views. destruct (holds_back whole); [|done].
  destruct (dense_shuffle u_shuf (t_dense u_rows)) as [d1| |]; [|done..]. cbn [mbind res_bind].
  by rewrite E.
Qed.
Print Assumptions C172_whole_refuted.

(** Every row is held back by half the share, too, if the draws fall that way. *)
Theorem C172_empty_refuted : ∃ shuf draws, (∀ i, shuf i ≤ i) ∧ (∀ i, 0 ≤ draws i ≤ 100)%Z ∧
  share_limit (λ _, 0%Z) half = 50%Z ∧ u_fit shuf draws half = Panic.
Proof.
  exists u_shuf, (λ _, 50%Z). split; [intros; unfold u_shuf; lia|]. split; [lia|].
  split; vm_compute; reflexivity.
Qed.
Print Assumptions C172_empty_refuted.

(** Fit with a share reorders the rows of the caller's data. *)
Theorem C172_order_refuted : ∃ shuf draws d' t raw raw', (∀ i, shuf i ≤ i) ∧ (∀ i, 0 ≤ draws i ≤ 100)%Z ∧
  u_fit shuf draws half = Ok (d', t) ∧
  dense_get (t_dense u_rows) (Spec 1 0 ty) 1 = Ok raw ∧ dense_get d' (Spec 1 0 ty) 1 = Ok raw' ∧ raw ≠ raw'.
Proof.
  exists u_shuf, u_draws.
  destruct (u_fit u_shuf u_draws half) as [[d' t]| |] eqn:E; [|by vm_compute in E..].
  exists d', t.
  assert ((r ← u_fit u_shuf u_draws half; dense_get r.1 (Spec 1 0 ty) 1) = Ok (byte8 1)) as Hr by (vm_compute; reflexivity).
  rewrite E in Hr. cbn [mbind res_bind fst] in Hr.
  exists (byte8 0), (byte8 1). split; [intros; unfold u_shuf; lia|].
  split; [intros i; unfold u_draws; destruct ((i =? 2) || (i =? 3)); lia|].
  split; [done|]. split; [vm_compute; reflexivity|]. split; [done|]. done.
Qed.
Print Assumptions C172_order_refuted.
