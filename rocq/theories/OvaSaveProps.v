(** Properties C158 to C162: saving and loading one-vs-all models and linear support
    vector classifiers. *)
From Coq Require Import Reals Lra.
From Verif Require Import Prelude BytesModel FloatModel AttrModel AttrSpec AttrProofs StoreModel DenseModel
  DenseSpec GridModel GridSpec GridProofs TableProofs CsvModel PredModel SerModel SerSpec SerProofs
  SerCodec SerProps Id3Model NbModel BagModel SvcModel LibModel LibProps SaveModel SaveSpec SaveProofs SaveTrees
  SaveOthers SaveBag SaveFiles SaveCodec SaveProps OvaSaveModel OvaSaveSpec OvaSaveProofs OvaSaveLib OvaSaveFit
  OvaSaveMulti BytesProofs DenseProofs.
From Flocq Require Import Core.Core IEEE754.BinarySingleNaN IEEE754.Bits IEEE754.Binary.
From stdpp Require Import pretty.
Local Open Scope nat_scope.

(** ** C158 *)

(** A fitted one-vs-all model whose members can be saved is the same when it is loaded. *)
Theorem C158_one_vs_all : ∀ marshal unmarshal is_nil attr_order got pg (C : Type) (make : string → C) fit oo co
    class_iter mo save load train on cell m,
  json_faithful marshal unmarshal → any_order attr_order → full_reads got → any_order oo →
  any_order class_iter → (∀ i, any_order (mo i)) →
  ova_kept make fit oo co train = Ok m → structure_of train on → table is_nil on cell →
  NoDup (om_values m) → (N.of_nat (length (om_values m)) < 2^64)%N →
  (∀ j c v, om_models m !! j = Some c → om_values m !! j = Some v →
    ∃ es, stored (save c) (load v) es (λ c', c' = c)) →
  ∃ ar d, ova_file_save marshal is_nil attr_order mo save m on = Ok ar ∧
    ova_file_load unmarshal got pg make fit oo co class_iter load ar = Ok (m, d) ∧
    same_table on cell d.
Proof.
  intros marshal unmarshal is_nil attr_order got pg C make fit oo co class_iter mo save load train on cell m
    Hf Ho Hg Hoo Hci Hmo Hk Hs T Hnd Hlt Hm.
  destruct (kept_files marshal unmarshal Hf is_nil attr_order Ho got Hg pg oo co Hoo class_iter Hci mo Hmo
    make fit save load (λ c c', c' = c) train on cell m Hk Hs T Hnd Hlt Hm)
    as (ar & m' & d & E1 & E2 & F1 & F2 & F3 & F4 & Hd).
  exists ar, d. split; [exact E1|]. split; [|exact Hd]. rewrite E2. f_equal. f_equal.
  destruct m as [fs cs mx vs], m' as [fs' cs' mx' vs']. cbn [om_filters om_max om_values om_models] in *. subst.
  f_equal. clear -F4. induction F4 as [|c c' l l' E H IH]; [done|]. by subst.
Qed.
Print Assumptions C158_one_vs_all.

(** What is saved is what [Fit] gives [Predict] to work on. *)
Theorem C158_fit : ∀ (C : Type) (make : string → C) fit oo co train m,
  any_order oo → ova_kept make fit oo co train = Ok m →
  ∃ fo, any_order fo ∧ ova_fit make fit oo co train = Ok (om_ova fo m).
Proof. intros. by apply kept_is_fit. Qed.
Print Assumptions C158_fit.

(** Members for the example: a classifier that remembers the class and how many rows it
    has seen. *)
Definition count_fit (c : list N) (g : grid) : res (list N) := Ok (c ++ [N.of_nat (gr_size g).2]).
Definition count_make (v : string) : list N := string_bytes v.
Definition count_save (c : list N) (s : ser) (prefix : string) : res ser := put_bytes (tar_prefix prefix "COUNTS") c s.
Definition count_load (v : string) (ar : archive) (prefix : string) : res (list N) :=
  get_named_file ar (tar_prefix prefix "COUNTS").

Lemma count_stored c v : ∃ es, stored (count_save c) (count_load v) es (λ c', c' = c).
Proof.
  exists [("COUNTS", c)]. split.
  - intros p. apply put_bytes_appends.
  - apply NoDup_singleton.
  - intros p ar H. unfold under in H. cbn [map fst snd] in H. apply holds_cons in H as [H _].
    exists c. done.
Qed.

Lemma ser_structure : structure_of ser_grid empty_grid.
Proof. split; vm_compute; reflexivity. Qed.

Definition count_model : ova_model (list N) :=
  match ova_kept count_make count_fit (@rev attr) Datatypes.id ser_grid with Ok m => m | _ => OvaModel [] [] 0 [] end.

Example C158_ex :
  ova_kept count_make count_fit (@rev attr) Datatypes.id ser_grid = Ok count_model ∧
  om_models count_model = map (λ v, string_bytes v ++ [2%N]) (om_values count_model) ∧
  length (om_values count_model) = 3 ∧
  ∃ ar d, ova_file_save toy_marshal never_nil (@rev attr) (λ _, @rev _) count_save count_model empty_grid = Ok ar ∧
    ova_file_load toy_unmarshal fill_buffer 64 count_make count_fit (@rev attr) Datatypes.id (@rev _) count_load ar =
      Ok (count_model, d).
Proof.
  assert (ova_kept count_make count_fit (@rev attr) Datatypes.id ser_grid = Ok count_model) as E.
  { unfold count_model. destruct (ova_kept _ _ _ _ _) eqn:E; [done| |]; vm_compute in E; discriminate E. }
  split; [exact E|]. split; [vm_compute; reflexivity|]. split; [vm_compute; reflexivity|].
  assert (om_values count_model = match sc with CatA _ l => l | _ => [] end) as Hv by (vm_compute; reflexivity).
  destruct (C158_one_vs_all toy_marshal toy_unmarshal never_nil (@rev attr) fill_buffer 64 (list N) count_make count_fit
    (@rev attr) Datatypes.id (@rev _) (λ _, @rev _) count_save count_load ser_grid empty_grid ser_cell count_model
    toy_faithful rev_order (λ _ _, eq_refl) rev_order rev_order (λ _, rev_order) E ser_structure empty_table)
    as (ar & d & H1 & H2 & _).
  - rewrite Hv. apply (bool_decide_unpack _). vm_compute. done.
  - rewrite Hv. vm_compute. reflexivity.
  - intros j c v _ _. apply count_stored.
  - exists ar, d. split; [exact H1|exact H2].
Qed.

(** ** C159 *)

(** One-vs-all models close the file when they are saved, so that no bagged model that has
    them as members can be saved. *)
Theorem C159_one_vs_all_in_bags : ∀ marshal b64 is_nil attr_order (C : Type) (make : string → C) fit oo co mo
    save load (R : C → C → Prop) (b : bag (ova_model C * grid)) features on,
  any_order attr_order → any_order oo → bg_models b ≠ [] →
  (∀ c, c ∈ bg_models b → ∃ train cell,
    ova_kept make fit oo co train = Ok c.1 ∧ structure_of train c.2 ∧ table is_nil c.2 cell ∧
    NoDup (om_values c.1) ∧ (N.of_nat (length (om_values c.1)) < 2^64)%N ∧
    ∀ j x v, om_models c.1 !! j = Some x → om_values c.1 !! j = Some v →
      ∃ es, stored (save x) (load v) es (R x)) →
  bag_file_save marshal b64 is_nil attr_order
    (λ c, ova_save marshal is_nil attr_order mo save c.1 c.2) b features on = Err.
Proof.
  intros marshal b64 is_nil attr_order C make fit oo co mo save load R b features on Ho Hoo Hne H.
  apply bag_of_closing; [done| |].
  - intros c s ar p Hc Hop. destruct (H c Hc) as (train & cell & H1 & H2 & H3 & H4 & H5 & H6).
    by apply (kept_closes marshal is_nil attr_order Ho oo co Hoo mo make fit save load R train c.2 cell c.1 p s ar).
  - intros c s p Hc Hcl. unfold ova_save, put_instances. by rewrite closed_refuses.
Qed.
Print Assumptions C159_one_vs_all_in_bags.

Theorem C159_saved_in_bags_refuted : ∃ ar,
  ova_file_save toy_marshal never_nil (@rev attr) (λ _, @rev _) count_save count_model empty_grid = Ok ar ∧
  bag_file_save toy_marshal toy_b64 never_nil (@rev attr)
    (λ c, ova_save toy_marshal never_nil (@rev attr) (λ _, @rev _) count_save c.1 c.2)
    (Bag [(count_model, empty_grid)] ∅) 2 empty_grid = Err.
Proof.
  destruct C158_ex as (E & _ & _ & ar & d & E1 & _). exists ar. split; [exact E1|].
  apply (C159_one_vs_all_in_bags toy_marshal toy_b64 never_nil (@rev attr) (list N) count_make count_fit (@rev attr) Datatypes.id
    (λ _, @rev _) count_save count_load (λ c c', c' = c)); [apply rev_order|apply rev_order|done|].
  intros c Hc. apply elem_of_list_singleton in Hc as ->. cbn [fst snd].
  assert (om_values count_model = match sc with CatA _ l => l | _ => [] end) as Hv by (vm_compute; reflexivity).
  exists ser_grid, ser_cell. split; [exact E|]. split; [exact ser_structure|]. split; [exact empty_table|].
  rewrite Hv. split; [apply (bool_decide_unpack _); vm_compute; done|]. split; [vm_compute; reflexivity|].
  intros j x v _ _. apply count_stored.
Qed.
Print Assumptions C159_saved_in_bags_refuted.

(** ** C160 *)

(** A fitted linear support vector classifier that is saved and loaded has the parameters
    and classes it had, and its weights are those that its file shows.  Missing: the weights
    need not be the same, see below. *)
Theorem C160_linear_partial : ∀ marshal unmarshal fmt fparse show16 scan_float l sm into,
  json_faithful marshal unmarshal → float_text fmt fparse → lib_text show16 scan_float →
  lsvc_saves l sm →
  ∃ ar l' sm', lsvc_file_save marshal fmt show16 l = Ok ar ∧
    lsvc_file_load unmarshal fparse scan_float into ar = Ok l' ∧
    ls_param l' = ls_param l ∧ ls_model l' = Some sm' ∧ reread show16 scan_float sm sm'.
Proof.
  intros marshal unmarshal fmt fparse show16 scan_float l sm into Hf Hfl Ht Hs.
  destruct (lsvc_files marshal unmarshal Hf fmt fparse Hfl show16 scan_float Ht l sm into Hs)
    as (ar & l' & E1 & E2 & _ & Hp & sm0 & sm' & Em & Em' & Hr).
  rewrite (lv_model _ _ Hs) in Em. injection Em as <-. by exists ar, l', sm'.
Qed.
Print Assumptions C160_linear_partial.

(** If 16 digits are enough for its weights, it predicts the same. *)
Theorem C160_predictions : ∀ marshal unmarshal fmt fparse show16 scan_float l sm into,
  json_faithful marshal unmarshal → float_text fmt fparse → lib_text show16 scan_float →
  lsvc_saves l sm → Forall (survives show16 scan_float) (lm_w sm.2) →
  ∃ ar l', lsvc_file_save marshal fmt show16 l = Ok ar ∧
    lsvc_file_load unmarshal fparse scan_float into ar = Ok l' ∧
    ls_param l' = ls_param l ∧ ∀ pg g, lsvc_predict pg l' g = lsvc_predict pg l g.
Proof.
  intros marshal unmarshal fmt fparse show16 scan_float l sm into Hf Hfl Ht Hs Hw.
  destruct (C160_linear_partial marshal unmarshal fmt fparse show16 scan_float l sm into Hf Hfl Ht Hs)
    as (ar & l' & sm' & E1 & E2 & Hp & Em & Hr).
  exists ar, l'. split; [done|]. split; [done|]. split; [done|]. intros pg g. unfold lsvc_predict.
  rewrite Em, (lv_model _ _ Hs). by rewrite (reread_exact show16 scan_float sm sm' Hw Hr).
Qed.
Print Assumptions C160_predictions.

(** A text of floats that satisfies what is assumed of [fprintf] and [fscanf]. *)
Definition toy_scan (s : string) : option binary64 :=
  if bool_decide (s = "-1") then Some (fz (-1)) else toy_parse s.

Lemma toy_lib : lib_text toy_fmt toy_scan.
Proof.
  assert (∀ f, toy_scan (toy_fmt f) = Some f) as Hs.
  { intros f. assert (toy_parse (toy_fmt f) = Some f) as E.
    { unfold toy_fmt. destruct (Z.eqb _ 0) eqn:E.
      + apply Z.eqb_eq in E. cbn [toy_parse]. by rewrite <- E, bits_back.
      + change (toy_parse ("0." +:+ pretty (Z.to_N (bits_of_b64 f)))) with
          (match read_digits (pretty (Z.to_N (bits_of_b64 f))) 0 with
           | Some v => Some (b64_of_bits (Z.of_N v)) | None => None end).
        rewrite read_digits_pretty, Z2N.id by apply bits_nonneg. by rewrite bits_back. }
    unfold toy_scan. rewrite bool_decide_eq_false_2; [exact E|].
    unfold toy_fmt. destruct (Z.eqb _ 0); discriminate. }
  split.
  - intros f. unfold toy_fmt. destruct (Z.eqb _ 0).
    + split; [done|]. apply (bool_decide_unpack _). vm_compute. done.
    + destruct (digits_word (pretty (Z.to_N (bits_of_b64 f))) 0 (Z.to_N (bits_of_b64 f)))
        as [_ H]; [apply pretty_nonempty|apply read_digits_pretty|].
      split; [done|]. unfold string_bytes in *. cbn [append String.list_ascii_of_string map].
      constructor; [done|]. constructor; [done|]. exact H.
  - intros f. exists f. apply Hs.
  - exists (fz (-1)). split; [reflexivity|]. vm_compute. reflexivity.
Qed.

Lemma toy_survives f : survives toy_fmt toy_scan f.
Proof.
  unfold survives. destruct (OvaSaveSpec.lt_scan _ _ toy_lib f) as (f' & E). rewrite E. f_equal.
  unfold toy_scan in E. destruct (bool_decide _) eqn:Hb.
  - apply bool_decide_eq_true in Hb. exfalso. revert Hb. unfold toy_fmt. destruct (Z.eqb _ 0); discriminate.
  - unfold toy_fmt in E. destruct (Z.eqb _ 0) eqn:E0.
    + apply Z.eqb_eq in E0. cbn [toy_parse] in E. injection E as <-. by rewrite <- E0, bits_back.
    + change (toy_parse ("0." +:+ pretty (Z.to_N (bits_of_b64 f)))) with
        (match read_digits (pretty (Z.to_N (bits_of_b64 f))) 0 with
         | Some v => Some (b64_of_bits (Z.of_N v)) | None => None end) in E.
      rewrite read_digits_pretty, Z2N.id in E by apply bits_nonneg. injection E as <-. by rewrite bits_back.
Qed.

Definition svc_params (c : binary64) : svc := SVC 1 (Some [fz 1; fz 3]) c (fz 1) false true.
Lemma svc_params_save c : is_finite 53 1024 c = true → svc_saves (svc_params c).
Proof.
  intros Hc. split; cbn [svc_params sv_solver sv_weights sv_c sv_eps]; [vm_compute; discriminate| |exact Hc|reflexivity].
  intros w [= <-]. repeat (constructor; [reflexivity|]). constructor.
Qed.

Definition with_weights (w : list binary64) : lsvc :=
  LSvc (Some (1, fz 1, fz 1)) (Some (1, LModel [1%Z; 0%Z] 3 w)) (svc_params (fz 1)).
Lemma with_weights_save a b c : lsvc_saves (with_weights [a; b; c]) (1, LModel [1%Z; 0%Z] 3 [a; b; c]).
Proof. split; [by apply svc_params_save|done|]. split; [split; cbn; lia|reflexivity]. Qed.

Example C160_ex : ∃ ar l',
  lsvc_file_save toy_marshal toy_fmt toy_fmt (with_weights [fz 1; fz 2; fz 0]) = Ok ar ∧
  lsvc_file_load toy_unmarshal toy_parse toy_scan (lsvc_new (svc_params (fz 7))) ar = Ok l' ∧
  ls_param l' = svc_params (fz 1) ∧ ∀ pg g, lsvc_predict pg l' g = lsvc_predict pg (with_weights [fz 1; fz 2; fz 0]) g.
Proof.
  apply (C160_predictions _ _ _ _ _ _ _ _ _ toy_faithful toy_floats toy_lib (with_weights_save _ _ _)).
  apply Forall_forall. intros f _. apply toy_survives.
Qed.

(** 0.3 and the number after it. *)
Definition w_3 : binary64 := b64_of_bits 4599075939470750515.
Definition w_3' : binary64 := b64_of_bits 4599075939470750516.
Definition w_neg3 : binary64 := b64_opp w_3.
Definition one_row : grid := lb_grid false [(fz 1, fz 1, fz 0)].

Lemma nearest_3 : nearest16 (B2R 53 1024 w_3) 3000000000000000 (-16) ∧
  nearest16 (B2R 53 1024 w_3') 3000000000000000 (-16).
Proof.
  assert (B2R 53 1024 w_3 = (5404319552844595 * / 18014398509481984)%R) as ->.
  { change w_3 with (B754_finite 53 1024 false 5404319552844595 (-54) eq_refl) || idtac.
    replace (B2R 53 1024 w_3) with (F2R (Float radix2 5404319552844595 (-54))) by (vm_compute; reflexivity).
    unfold F2R. cbn [Fnum Fexp bpow]. f_equal. }
  assert (B2R 53 1024 w_3' = (5404319552844596 * / 18014398509481984)%R) as ->.
  { replace (B2R 53 1024 w_3') with (F2R (Float radix2 5404319552844596 (-54))) by (vm_compute; reflexivity).
    unfold F2R. cbn [Fnum Fexp bpow]. f_equal. }
  assert (powerRZ 10 (-16) = (/ 10000000000000000)%R) as E16 by (cbn [powerRZ]; rewrite pow_IZR; reflexivity).
  assert (powerRZ 10 (-16 + 15) = (/ 10)%R) as E1 by (change (-16 + 15)%Z with (-1)%Z; cbn [powerRZ]; rewrite pow_1; reflexivity).
  assert (powerRZ 10 (-16 + 16) = 1%R) as E0 by reflexivity.
  unfold nearest16. rewrite E16, E1, E0.
  split; (split; [lra|]; apply Rabs_def1; lra).
Qed.

(** But 16 digits are not enough for all weights: whatever [fprintf] and [fscanf] do with
    16 digits, some classifier predicts another class after it has been loaded. *)
Theorem C160_digits_refuted : ∀ show16 scan_float,
  lib_text show16 scan_float → digits16 show16 →
  ∃ l sm ar l' g, lsvc_saves l sm ∧
    lsvc_file_save toy_marshal toy_fmt show16 l = Ok ar ∧
    lsvc_file_load toy_unmarshal toy_parse scan_float l ar = Ok l' ∧
    lsvc_predict 64 l' g ≠ lsvc_predict 64 l g.
Proof.
  intros show16 scan_float Ht Hd.
  set (l1 := with_weights [w_3; w_neg3; fz 0]). set (l2 := with_weights [w_3'; w_neg3; fz 0]).
  destruct (C160_linear_partial _ _ _ _ _ _ l1 _ l1 toy_faithful toy_floats Ht (with_weights_save _ _ _))
    as (ar & l' & _ & E1 & E2 & _).
  destruct (C160_linear_partial _ _ _ _ _ _ l2 _ l2 toy_faithful toy_floats Ht (with_weights_save _ _ _))
    as (ar2 & l2' & _ & E3 & E4 & _).
  assert (show16 w_3' = show16 w_3) as Es.
  { destruct nearest_3 as [H1 H2]. exact (Hd w_3' w_3 _ _ eq_refl eq_refl H2 H1). }
  assert (ar2 = ar) as ->.
  { assert (lsvc_file_save toy_marshal toy_fmt show16 l2 = lsvc_file_save toy_marshal toy_fmt show16 l1) as E.
    { unfold lsvc_file_save, lsvc_save. change (ls_param l2) with (ls_param l1).
      assert (save_model show16 1 (LModel [1%Z; 0%Z] 3 [w_3'; w_neg3; fz 0]) =
              save_model show16 1 (LModel [1%Z; 0%Z] 3 [w_3; w_neg3; fz 0])) as Em.
      { unfold save_model. cbn [res_mapM seq idx lookup list_lookup mbind res_bind lm_w lm_n lm_labels outputs length Nat.eqb Nat.mul Nat.add map].
        by rewrite Es. }
      unfold l1, l2, with_weights. cbn [ls_model ls_param must mbind res_bind fst snd]. by rewrite Em. }
    rewrite E, E1 in E3. by injection E3. }
  assert (l2' = l') as ->.
  { unfold lsvc_file_load, lsvc_load in E2, E4. change (ls_param l2) with (ls_param l1) in E4.
    change (ls_native l2) with (ls_native l1) in E4. rewrite E2 in E4. by injection E4. }
  assert (lsvc_predict 64 l1 one_row ≠ lsvc_predict 64 l2 one_row) as Hne.
  { intros E. apply (f_equal (λ r, match r with Ok d => dense_get d (Spec 0 0 bc) 0 | _ => Panic end)) in E.
    vm_compute in E. discriminate E. }
  destruct (Classical_Prop.classic (lsvc_predict 64 l' one_row = lsvc_predict 64 l1 one_row)) as [E|E].
  - eexists l2, _, ar, l', one_row. split; [apply with_weights_save|]. split; [exact E3|]. split; [exact E4|].
    rewrite E. exact Hne.
  - eexists l1, _, ar, l', one_row. split; [apply with_weights_save|]. split; [exact E1|]. split; [exact E2|]. exact E.
Qed.
Print Assumptions C160_digits_refuted.

(** A fitted classifier has the solver and the parameters it was made with, and so does its
    file. *)
Theorem C160_fitted : ∀ undef train_one half p g l, lsvc_fit undef train_one half (lsvc_new p) g = Ok l →
  ls_param l = p ∧ ls_native l = Some (sv_solver p, sv_c p, sv_eps p) ∧
  ∃ m, ls_model l = Some (sv_solver p, m) ∧
    svc_fit undef (train_one (sv_solver p) (sv_eps p)) half p g = Ok m.
Proof.
  intros undef train_one half p g l H. unfold lsvc_fit, lsvc_new in H. cbn [ls_native ls_param] in H.
  apply bind_Ok in H as (m & Hm & [= <-]). split; [done|]. split; [done|]. exists m. split; [done|].
  rewrite <- Hm. by destruct p.
Qed.
Print Assumptions C160_fitted.

(** ** C161 *)

(** [Fit] on a classifier that has been loaded uses the weights and switches that were
    saved, and the solver, C and epsilon of the classifier it was loaded into: it does the
    same as before if they agree.  Missing: they need not, see below. *)
Theorem C161_refit_partial : ∀ marshal unmarshal fmt fparse show16 scan_float undef train_one half l sm into,
  json_faithful marshal unmarshal → float_text fmt fparse → lib_text show16 scan_float →
  lsvc_saves l sm → ls_native into = ls_native l →
  ∃ ar l', lsvc_file_save marshal fmt show16 l = Ok ar ∧
    lsvc_file_load unmarshal fparse scan_float into ar = Ok l' ∧
    ∀ g, lsvc_fit undef train_one half l' g = lsvc_fit undef train_one half l g.
Proof.
  intros marshal unmarshal fmt fparse show16 scan_float undef train_one half l sm into Hf Hfl Ht Hs Hn.
  destruct (lsvc_files marshal unmarshal Hf fmt fparse Hfl show16 scan_float Ht l sm into Hs)
    as (ar & l' & E1 & E2 & En & Ep & _).
  exists ar, l'. split; [done|]. split; [done|]. intros g. unfold lsvc_fit. by rewrite En, Hn, Ep.
Qed.
Print Assumptions C161_refit_partial.

Example C161_ex : lsvc_saves (with_weights [fz 1; fz 2; fz 0]) (1, LModel [1%Z; 0%Z] 3 [fz 1; fz 2; fz 0]) ∧
  ls_native (lsvc_new (svc_params (fz 1))) = ls_native (with_weights [fz 1; fz 2; fz 0]).
Proof. split; [apply with_weights_save|reflexivity]. Qed.

(** A classifier made with another C keeps it, and one that was not made with a
    constructor cannot be fitted at all. *)
Definition by_cost (solver : nat) (eps : binary64) (rows : list (list node * bool)) (cp cn : binary64) : list binary64 :=
  [cp; cn; cp].
Definition cost_fit (l : lsvc) : res lsvc := lsvc_fit (λ _, 0%Z) by_cost (fz 0) l (lb_grid false lb_train).
Definition cost_weights (r : res lsvc) : option (list (list N)) :=
  match r with Ok l => option_map (λ sm, map pack_float (lm_w sm.2)) (ls_model l) | _ => None end.

Theorem C161_refit_refuted : ∃ l sm ar l1 l2 w1 w2,
  lsvc_saves l sm ∧ lsvc_file_save toy_marshal toy_fmt toy_fmt l = Ok ar ∧
  lsvc_file_load toy_unmarshal toy_parse toy_scan (lsvc_new (svc_params (fz 7))) ar = Ok l1 ∧
  lsvc_file_load toy_unmarshal toy_parse toy_scan (LSvc None None (svc_params (fz 1))) ar = Ok l2 ∧
  cost_weights (cost_fit l) = Some w1 ∧ cost_weights (cost_fit l1) = Some w2 ∧ w1 ≠ w2 ∧
  cost_fit l2 = Panic.
Proof.
  set (l := with_weights [fz 1; fz 2; fz 0]).
  destruct (lsvc_files _ _ toy_faithful _ _ toy_floats _ _ toy_lib l _ (lsvc_new (svc_params (fz 7))) (with_weights_save _ _ _))
    as (ar & l1 & E1 & E2 & En1 & Ep1 & _).
  destruct (lsvc_files _ _ toy_faithful _ _ toy_floats _ _ toy_lib l _ (LSvc None None (svc_params (fz 1))) (with_weights_save _ _ _))
    as (ar2 & l2 & E3 & E4 & En2 & Ep2 & _).
  rewrite E1 in E3. injection E3 as <-.
  assert (cost_fit l1 = cost_fit (LSvc (ls_native (lsvc_new (svc_params (fz 7)))) None (ls_param l))) as Ec.
  { unfold cost_fit, lsvc_fit. rewrite En1, Ep1. cbn [ls_native ls_param]. reflexivity. }
  exists l, (1, LModel [1%Z; 0%Z] 3 [fz 1; fz 2; fz 0]), ar, l1, l2, (map pack_float [fz 1; fz 3; fz 1]),
    (map pack_float [fz 7; fz 21; fz 7]). split; [apply with_weights_save|]. split; [exact E1|]. split; [exact E2|].
  split; [exact E4|]. split; [vm_compute; reflexivity|]. split; [rewrite Ec; vm_compute; reflexivity|].
  split; [intros E; vm_compute in E; discriminate E|]. unfold cost_fit, lsvc_fit. rewrite En2. reflexivity.
Qed.
Print Assumptions C161_refit_refuted.

(** ** C162 *)

(** A fitted ensemble of linear support vector classifiers that is loaded into one without
    class weights has the parameters, class weights, classes and filters it had; its members
    have their parameters and the weights that the file shows.  Missing: as C160. *)
Theorem C162_ensemble_partial : ∀ marshal unmarshal fmt fparse show16 scan_float undef train_one half pg is_nil
    attr_order got oo co class_iter mo wo p w train m on cell p0 w0,
  json_faithful marshal unmarshal → float_text fmt fparse → lib_text show16 scan_float →
  any_order attr_order → full_reads got → any_order oo → any_order class_iter → (∀ i, any_order (mo i)) →
  multi_fit undef train_one half oo co wo p w train = Ok m → structure_of train on → table is_nil on cell →
  NoDup (om_values (mu_ova m)) → (N.of_nat (length (om_values (mu_ova m))) < 2^64)%N →
  svc_saves p → weights_save w → (∀ c, c ∈ om_models (mu_ova m) → ∃ sm, lsvc_saves c sm) →
  w0 = None ∨ w0 = Some ∅ →
  ∃ ar m' d, multi_file_save marshal fmt show16 is_nil attr_order mo m on = Ok ar ∧
    multi_file_load unmarshal fparse scan_float undef train_one half pg got oo co class_iter wo p0 w0 ar = Ok (m', d) ∧
    mu_params m' = p ∧ mu_weights m' = w ∧
    om_filters (mu_ova m') = om_filters (mu_ova m) ∧ om_max (mu_ova m') = om_max (mu_ova m) ∧
    om_values (mu_ova m') = om_values (mu_ova m) ∧
    Forall2 (λ c c', ls_native c' = ls_native c ∧ ls_param c' = ls_param c ∧
      ∃ sm sm', ls_model c = Some sm ∧ ls_model c' = Some sm' ∧ reread show16 scan_float sm sm')
      (om_models (mu_ova m)) (om_models (mu_ova m')) ∧
    same_table on cell d.
Proof.
  intros marshal unmarshal fmt fparse show16 scan_float undef train_one half pg is_nil attr_order got oo co class_iter
    mo wo p w train m on cell p0 w0 Hf Hfl Ht Ho Hg Hoo Hci Hmo Hfit Hs T Hnd Hlt Hp Hw Hm Hw0.
  destruct (multi_files marshal unmarshal Hf fmt fparse Hfl show16 scan_float Ht undef train_one half pg is_nil attr_order Ho
    got Hg oo co Hoo class_iter Hci mo Hmo wo p w train m on cell p0 w0 Hfit Hs T Hnd Hlt Hp Hw
    ltac:(destruct Hw0 as [H|H]; [by left|by right; left]) Hm)
    as (ar & m' & d & E1 & E2 & R1 & R2 & R3 & R4 & R5 & R6 & R7 & _).
  exists ar, m', d. repeat (split; [assumption|]). exact R7.
Qed.
Print Assumptions C162_ensemble_partial.

Lemma multi_fit_params undef train_one half oo co wo p w train m :
  multi_fit undef train_one half oo co wo p w train = Ok m → mu_params m = p ∧ mu_weights m = w.
Proof. unfold multi_fit. intros H. apply bind_Ok in H as (o & _ & [= <-]). done. Qed.

(** The member of a class is trained with the parameters and weights for that class (C111). *)
Theorem C162_members : ∀ undef train_one half oo co wo p w train m j c v,
  multi_fit undef train_one half oo co wo p w train = Ok m →
  om_models (mu_ova m) !! j = Some c → om_values (mu_ova m) !! j = Some v →
  ls_param c = multi_params wo p w v ∧ ls_native c = Some (sv_solver p, sv_c p, sv_eps p).
Proof.
  intros undef train_one half oo co wo p w train m j c v Hfit Hc Hv.
  destruct (multi_member undef train_one half oo co wo p w train m j c v Hfit Hc Hv) as [-> ->].
  split; [done|]. unfold multi_make, lsvc_new, multi_params, svc_copy. cbn [ls_native]. by destruct w.
Qed.
Print Assumptions C162_members.

(** If 16 digits are enough for the weights of its members, the loaded ensemble is the
    saved one. *)
Theorem C162_same : ∀ marshal unmarshal fmt fparse show16 scan_float undef train_one half pg is_nil
    attr_order got oo co class_iter mo wo p w train m on cell p0 w0,
  json_faithful marshal unmarshal → float_text fmt fparse → lib_text show16 scan_float →
  any_order attr_order → full_reads got → any_order oo → any_order class_iter → (∀ i, any_order (mo i)) →
  multi_fit undef train_one half oo co wo p w train = Ok m → structure_of train on → table is_nil on cell →
  NoDup (om_values (mu_ova m)) → (N.of_nat (length (om_values (mu_ova m))) < 2^64)%N →
  svc_saves p → weights_save w →
  (∀ c, c ∈ om_models (mu_ova m) → ∃ sm, lsvc_saves c sm ∧ Forall (survives show16 scan_float) (lm_w sm.2)) →
  w0 = None ∨ w0 = Some ∅ →
  ∃ ar d, multi_file_save marshal fmt show16 is_nil attr_order mo m on = Ok ar ∧
    multi_file_load unmarshal fparse scan_float undef train_one half pg got oo co class_iter wo p0 w0 ar = Ok (m, d) ∧
    same_table on cell d.
Proof.
  intros marshal unmarshal fmt fparse show16 scan_float undef train_one half pg is_nil attr_order got oo co class_iter
    mo wo p w train m on cell p0 w0 Hf Hfl Ht Ho Hg Hoo Hci Hmo Hfit Hs T Hnd Hlt Hp Hw Hm Hw0.
  destruct (C162_ensemble_partial marshal unmarshal fmt fparse show16 scan_float undef train_one half pg is_nil attr_order
    got oo co class_iter mo wo p w train m on cell p0 w0 Hf Hfl Ht Ho Hg Hoo Hci Hmo Hfit Hs T Hnd Hlt Hp Hw)
    as (ar & m' & d & E1 & E2 & R1 & R2 & R3 & R4 & R5 & R6 & R7); [|exact Hw0|].
  { intros c Hc. destruct (Hm c Hc) as (sm & H & _). by exists sm. }
  exists ar, d. split; [exact E1|]. split; [|exact R7]. rewrite E2. do 2 f_equal.
  destruct (multi_fit_params _ _ _ _ _ _ _ _ _ _ Hfit) as [Ep Ew].
  destruct m as [mp mw [fs cs mx vs]], m' as [mp' mw' [fs' cs' mx' vs']].
  cbn [mu_params mu_weights mu_ova om_filters om_max om_values om_models] in *. subst mp' mw' mp mw fs' mx' vs'. do 2 f_equal.
  clear -R6 Hm. induction R6 as [|c c' l l' (H1 & H2 & sm & sm' & H3 & H4 & H5) H IH]; [done|].
  f_equal; [|apply IH; intros x Hx; apply Hm; by right].
  destruct (Hm c) as (sm0 & Hs & Hsv); [left|]. rewrite (lv_model _ _ Hs) in H3. injection H3 as <-.
  pose proof (reread_exact show16 scan_float _ _ Hsv H5) as ->. pose proof (lv_model _ _ Hs) as H3.
  destruct c as [n1 m1 p1], c' as [n2 m2 p2]. cbn [ls_native ls_param ls_model] in *. congruence.
Qed.
Print Assumptions C162_same.

(** The class weights of the ensemble that is loaded into stay, unless the saved one has
    none or gives the class a weight. *)
Theorem C162_class_weights : ∀ marshal unmarshal fmt fparse show16 scan_float undef train_one half pg is_nil
    attr_order got oo co class_iter mo wo p w train m on cell,
  json_faithful marshal unmarshal → float_text fmt fparse → lib_text show16 scan_float →
  any_order attr_order → full_reads got → any_order oo → any_order class_iter → (∀ i, any_order (mo i)) →
  multi_fit undef train_one half oo co wo p (Some w) train = Ok m → structure_of train on → table is_nil on cell →
  NoDup (om_values (mu_ova m)) → (N.of_nat (length (om_values (mu_ova m))) < 2^64)%N →
  svc_saves p → weights_save (Some w) → (∀ c, c ∈ om_models (mu_ova m) → ∃ sm, lsvc_saves c sm) →
  ∃ ar, multi_file_save marshal fmt show16 is_nil attr_order mo m on = Ok ar ∧
    ∀ p0 w0 m' d,
      multi_file_load unmarshal fparse scan_float undef train_one half pg got oo co class_iter wo p0 (Some w0) ar = Ok (m', d) →
      ∃ w', mu_weights m' = Some w' ∧
        ∀ cls, w' !! cls = match w !! cls with Some f => Some f | None => w0 !! cls end.
Proof.
  intros marshal unmarshal fmt fparse show16 scan_float undef train_one half pg is_nil attr_order got oo co class_iter
    mo wo p w train m on cell Hf Hfl Ht Ho Hg Hoo Hci Hmo Hfit Hs T Hnd Hlt Hp Hw Hm.
  destruct (multi_files marshal unmarshal Hf fmt fparse Hfl show16 scan_float Ht undef train_one half pg is_nil attr_order Ho
    got Hg oo co Hoo class_iter Hci mo Hmo wo p (Some w) train m on cell p None Hfit Hs T Hnd Hlt Hp Hw
    ltac:(by left) Hm)
    as (ar & m' & d & E1 & _ & _ & _ & _ & _ & _ & _ & _ & H).
  exists ar. split; [exact E1|]. intros p0 w0 m1 d1 E. destruct (H _ _ _ _ E) as [_ Ew].
  eexists. split; [exact Ew|]. intros cls. cbn [default from_option]. unfold Datatypes.id.
  destruct (w !! cls) as [f|] eqn:Ec.
  - by apply lookup_union_Some_l.
  - by apply lookup_union_r.
Qed.
Print Assumptions C162_class_weights.

(** An ensemble for the examples: three classes. *)
Definition multi_weights : gmap string binary64 := {["u" := fz 2]}.
Definition sample_fit (w : option (gmap string binary64)) : res multi :=
  multi_fit (λ _, 0%Z) (λ _ _ _ cp cn, [cp; cn]) (fz 0) (@rev attr) Datatypes.id Datatypes.id (svc_params (fz 1)) w ser_grid.
Definition sample_multi : multi :=
  match sample_fit (Some multi_weights) with Ok m => m | _ => Multi (svc_params (fz 1)) None (OvaModel [] [] 0 []) end.
Definition sample_save : res archive :=
  multi_file_save toy_marshal toy_fmt toy_fmt never_nil (@rev attr) (λ _, @rev _) sample_multi empty_grid.
Definition sample_load (w0 : option (gmap string binary64)) (ar : archive) : res (multi * dense) :=
  multi_file_load toy_unmarshal toy_parse toy_scan (λ _, 0%Z) (λ _ _ _ cp cn, [cp; cn]) (fz 0) 64 fill_buffer
    (@rev attr) Datatypes.id (@rev _) Datatypes.id (svc_params (fz 5)) w0 ar.

Lemma is_Ok_eq {A} (r : res A) (d : A) : match r with Ok _ => true | _ => false end = true →
  r = Ok (match r with Ok m => m | _ => d end).
Proof. by destruct r. Qed.
Lemma sample_fitted : sample_fit (Some multi_weights) = Ok sample_multi.
Proof. apply is_Ok_eq. vm_compute. reflexivity. Qed.

Definition member_ok (c : lsvc) : bool :=
  match ls_model c with
  | Some sm => (sm.1 <? 8) && negb (sm.1 =? 4) && (length (lm_w sm.2) =? lm_n sm.2 * outputs sm.2) &&
      (N.of_nat (sv_solver (ls_param c)) <=? 2^53)%N &&
      match sv_weights (ls_param c) with Some w => forallb (is_finite 53 1024) w | None => true end &&
      is_finite 53 1024 (sv_c (ls_param c)) && is_finite 53 1024 (sv_eps (ls_param c))
  | None => false
  end.
Lemma member_ok_saves c : member_ok c = true → ∃ sm, lsvc_saves c sm.
Proof.
  unfold member_ok. destruct (ls_model c) as [sm|] eqn:E; [|done]. rewrite !andb_true_iff.
  intros ((((((H1 & H2) & H3) & H4) & H5) & H6) & H7). exists sm. split; [|done|].
  - split; [by apply N.leb_le| |done|done]. intros w Hw. rewrite Hw in H5. rewrite forallb_forall in H5.
    apply Forall_forall. intros x Hx. apply H5. by apply elem_of_list_In.
  - split; [split; [by apply Nat.ltb_lt|]|by apply Nat.eqb_eq]. apply negb_true_iff in H2. by apply Nat.eqb_neq.
Qed.
Lemma forallb_elem {A} (f : A → bool) l x : forallb f l = true → x ∈ l → f x = true.
Proof. rewrite forallb_forall. intros H Hx. apply H. by apply elem_of_list_In. Qed.
Lemma sample_members c : c ∈ om_models (mu_ova sample_multi) → ∃ sm, lsvc_saves c sm.
Proof.
  intros Hc. apply member_ok_saves.
  assert (forallb member_ok (om_models (mu_ova sample_multi)) = true) as H by (vm_compute; reflexivity).
  exact (forallb_elem _ _ _ H Hc).
Qed.
Lemma multi_weights_save : weights_save (Some multi_weights).
Proof. intros m k f [= <-] H. unfold multi_weights in H. apply lookup_singleton_Some in H as [<- <-]. split; reflexivity. Qed.
Lemma sample_values : om_values (mu_ova sample_multi) = match sc with CatA _ l => l | _ => [] end.
Proof. vm_compute. reflexivity. Qed.

Example C162_ex : length (om_models (mu_ova sample_multi)) = 3 ∧
  ∃ ar d, sample_save = Ok ar ∧ sample_load None ar = Ok (sample_multi, d).
Proof.
  split; [vm_compute; reflexivity|].
  destruct (C162_same _ _ _ _ _ _ (λ _, 0%Z) (λ _ _ _ cp cn, [cp; cn]) (fz 0) 64 never_nil (@rev attr) fill_buffer
    (@rev attr) Datatypes.id (@rev _) (λ _, @rev _) Datatypes.id _ _ ser_grid sample_multi empty_grid ser_cell
    (svc_params (fz 5)) None toy_faithful toy_floats toy_lib rev_order (λ _ _, eq_refl) rev_order rev_order (λ _, rev_order)
    sample_fitted ser_structure empty_table) as (ar & d & H1 & H2 & _).
  - rewrite sample_values. apply (bool_decide_unpack _). vm_compute. done.
  - rewrite sample_values. vm_compute. reflexivity.
  - by apply svc_params_save.
  - exact multi_weights_save.
  - intros c Hc. destruct (sample_members c Hc) as (sm & H). exists sm. split; [exact H|].
    apply Forall_forall. intros f _. apply toy_survives.
  - by left.
  - exists ar, d. split; [exact H1|exact H2].
Qed.

(** So an ensemble that is loaded into one with class weights need not be the saved one. *)
Theorem C162_weights_refuted : ∃ ar m' d,
  sample_save = Ok ar ∧ sample_load (Some {["v" := fz 9]}) ar = Ok (m', d) ∧
  mu_weights sample_multi = Some multi_weights ∧ multi_weights !! "v" = None ∧
  ∃ w', mu_weights m' = Some w' ∧ w' !! "v" = Some (fz 9).
Proof.
  destruct (C162_class_weights _ _ _ _ _ _ (λ _, 0%Z) (λ _ _ _ cp cn, [cp; cn]) (fz 0) 64 never_nil (@rev attr) fill_buffer
    (@rev attr) Datatypes.id (@rev _) (λ _, @rev _) Datatypes.id _ _ ser_grid sample_multi empty_grid ser_cell
    toy_faithful toy_floats toy_lib rev_order (λ _ _, eq_refl) rev_order rev_order (λ _, rev_order)
    sample_fitted ser_structure empty_table) as (ar & H1 & H2).
  - rewrite sample_values. apply (bool_decide_unpack _). vm_compute. done.
  - rewrite sample_values. vm_compute. reflexivity.
  - by apply svc_params_save.
  - exact multi_weights_save.
  - exact sample_members.
  - assert (match (ar ← sample_save; sample_load (Some {["v" := fz 9]}) ar) with Ok _ => true | _ => false end = true) as Hok
      by (vm_compute; reflexivity).
    change (sample_save = Ok ar) in H1. rewrite H1 in Hok. cbn [mbind res_bind] in Hok.
    destruct (sample_load (Some {["v" := fz 9]}) ar) as [[m' d]| |] eqn:E; [|discriminate Hok|discriminate Hok].
    destruct (H2 (svc_params (fz 5)) {["v" := fz 9]} m' d E) as (w' & Ew & Hw').
    exists ar, m', d. split; [exact H1|]. split; [exact E|].
    split; [exact (proj2 (multi_fit_params _ _ _ _ _ _ _ _ _ _ sample_fitted))|].
    split; [by apply lookup_singleton_ne|]. exists w'. split; [exact Ew|]. rewrite Hw'.
    unfold multi_weights. rewrite (lookup_singleton_ne "u" "v") by done. apply lookup_singleton.
Qed.
Print Assumptions C162_weights_refuted.
