(** Proofs about saving and loading linear support vector classifiers. *)
From Coq Require Import Ascii.
From Verif Require Import Prelude BytesModel BytesProofs AttrModel AttrSpec AttrProofs StoreModel
  DenseModel DenseSpec DenseProofs GridModel GridSpec GridProofs CsvModel FilterModel PredModel SerModel SerSpec
  SerProofs TableProofs Id3Model NbModel BagModel BagOva SvcModel LibModel SaveModel SaveSpec SaveProofs SaveTrees
  SaveOthers SaveBag SaveFiles SaveCodec OvaSaveModel OvaSaveSpec OvaSaveProofs.
From Flocq Require Import IEEE754.Bits IEEE754.Binary.
From stdpp Require Import pretty.
Local Open Scope nat_scope.

(** ** Words *)

Lemma byte_string_back s : byte_string (string_bytes s) = s.
Proof.
  unfold byte_string, string_bytes. rewrite map_map.
  rewrite (map_ext _ (λ x, x)) by (intros x; apply ascii_N_embedding). rewrite map_id.
  apply String.string_of_list_ascii_of_string.
Qed.

Lemma bytes_words_word l : ∀ cur rest,
  Forall (λ b, blank b = false) l →
  bytes_words (l ++ rest) cur = bytes_words rest (rev l ++ cur).
Proof.
  induction l as [|b l IH]; intros cur rest H; [done|]. apply Forall_cons in H as [Hb H].
  cbn [app bytes_words]. rewrite Hb, IH by done. cbn [rev]. by rewrite <- app_assoc.
Qed.

Lemma file_words_back ws : Forall word ws → file_words (words_bytes ws) = ws.
Proof.
  intros H. unfold file_words, words_bytes.
  assert (bytes_words (concat (map (λ w, string_bytes w ++ [32%N]) ws)) [] = map string_bytes ws) as E.
  { induction H as [|w ws [Hw Hb] H IH]; [done|].
    cbn [map concat]. rewrite <- app_assoc. rewrite bytes_words_word by done.
    cbn [app bytes_words]. change (blank 32) with true. cbn iota. rewrite app_nil_r, rev_involutive, IH.
    assert (rev (string_bytes w) ≠ []) as Hne.
    { intros E. apply Hw. apply (f_equal (@rev N)) in E. rewrite rev_involutive in E.
      rewrite <- (byte_string_back w), E. done. }
    by destruct (rev (string_bytes w)). }
  change (map (λ w, map N_of_ascii (String.list_ascii_of_string w) ++ [32%N]) ws)
    with (map (λ w, string_bytes w ++ [32%N]) ws). rewrite E.
  rewrite map_map. rewrite (map_ext _ (λ x, x)) by (intros x; apply byte_string_back). apply map_id.
Qed.

Lemma digits_word s : ∀ v u, s ≠ "" → read_digits s v = Some u → word s.
Proof.
  assert (∀ s v u, read_digits s v = Some u → Forall (λ b, blank b = false) (string_bytes s)) as H.
  { clear s. induction s as [|c s IH]; intros v u H; [constructor|]. cbn [read_digits] in H.
    destruct (_ && _) eqn:E; [|done]. apply andb_true_iff in E as [E1%N.leb_le E2%N.leb_le].
    unfold string_bytes. cbn [String.list_ascii_of_string map]. constructor; [|by eapply IH].
    unfold blank. rewrite (proj2 (N.eqb_neq _ 32)) by lia. rewrite (proj2 (N.leb_gt _ 13)) by lia.
    by rewrite andb_false_r. }
  intros v u Hne E. split; [done|]. by eapply H.
Qed.

(** [%d]. *)
Lemma show_int_nonneg (n : N) : show_int (Z.of_N n) = pretty n.
Proof. by destruct n. Qed.

Lemma show_int_neg (p : positive) : show_int (Z.neg p) = String "-" (pretty (N.pos p)).
Proof. done. Qed.

Lemma scan_show_int z : scan_int (show_int z) = Some z.
Proof.
  destruct (decide (0 <= z)%Z) as [Hz|Hz].
  - rewrite <- (Z2N.id z) by done. rewrite show_int_nonneg.
    pose proof (read_digits_pretty (Z.to_N z)) as H. pose proof (pretty_nonempty (Z.to_N z)) as Hn.
    unfold scan_int. destruct (pretty (Z.to_N z)) as [|c s]; [done|].
    assert (c ≠ "-"%char) as Hc.
    { intros ->. discriminate H. }
    revert H. destruct c as [[] [] [] [] [] [] [] []]; try (intros ->; done); intros H; by destruct Hc.
  - destruct z as [|p|p]; [lia|lia|]. rewrite show_int_neg. cbn [scan_int]. rewrite read_digits_pretty. done.
Qed.

Lemma show_int_word z : word (show_int z).
Proof.
  destruct (decide (0 <= z)%Z) as [Hz|Hz].
  - rewrite <- (Z2N.id z) by done. rewrite show_int_nonneg.
    eapply digits_word; [apply pretty_nonempty|apply read_digits_pretty].
  - destruct z as [|p|p]; [lia|lia|]. rewrite show_int_neg.
    destruct (digits_word (pretty (N.pos p)) 0 (N.pos p)) as [_ H]; [apply pretty_nonempty|apply read_digits_pretty|].
    split; [done|]. unfold string_bytes. cbn [String.list_ascii_of_string map]. constructor; [done|exact H].
Qed.

Lemma scan_many_all {A B} (scan : string → option A) (show : B → string) (R : B → A → Prop) l : ∀ rest,
  (∀ b, b ∈ l → ∃ a, scan (show b) = Some a ∧ R b a) →
  ∃ r, scan_many scan (length l) (map show l ++ rest) = Ok (r, rest) ∧ Forall2 R l r.
Proof.
  induction l as [|b l IH]; intros rest H; [by exists []|].
  destruct (H b) as (a & Ea & Ha); [left|]. destruct (IH rest) as (r & Er & Hr); [intros b' Hb; apply H; by right|].
  exists (a :: r). cbn [length map app scan_many]. rewrite Ea, Er. split; [done|by constructor].
Qed.

(** ** Models *)

Section lib.
  Variable show16 : binary64 → string.
  Variable scan_float : string → option binary64.
  Hypothesis text : lib_text show16 scan_float.

  Lemma idx_all {A} (l : list A) : res_mapM (idx l) (seq 0 (length l)) = Ok l.
  Proof using.
    apply res_mapM_Ok, Forall2_same_length_lookup_2; [by rewrite seq_length|].
    intros i j a Hj Ha. apply lookup_seq in Hj as [-> _]. unfold idx. cbn [Nat.add]. by rewrite Ha.
  Qed.

  Lemma solver_word n : n < 8 → n ≠ 4 → ∃ name, solver_names !! n = Some name ∧ word name ∧
    list_find (λ x, x = name) solver_names = Some (n, name).
  Proof using.
    clear text. intros H1 H2.
    do 8 (destruct n as [|n];
      [first [by destruct H2|eexists; split; [reflexivity|]; split;
        [split; [discriminate|apply (bool_decide_unpack _); vm_compute; done]|vm_compute; reflexivity]]|]).
    lia.
  Qed.

  Lemma head_solver k h name n x ws : list_find (λ x, x = name) solver_names = Some (n, x) →
    load_head scan_float (S k) h ("solver_type" :: name :: ws) =
    load_head scan_float k (LHead (Some n) (lh_classes h) (lh_labels h) (lh_features h) (lh_bias h)) ws.
  Proof using. clear text. intros E. change (load_head scan_float (S k) h ("solver_type" :: name :: ws)) with
    (match list_find (λ n, n = name) solver_names with
     | Some (i, _) => load_head scan_float k (LHead (Some i) (lh_classes h) (lh_labels h) (lh_features h) (lh_bias h)) ws
     | None => Err end). by rewrite E. Qed.

  Lemma head_class k h w n ws : scan_int w = Some n →
    load_head scan_float (S k) h ("nr_class" :: w :: ws) =
    load_head scan_float k (LHead (lh_solver h) (Some n) (lh_labels h) (lh_features h) (lh_bias h)) ws.
  Proof using. clear text. intros E. change (load_head scan_float (S k) h ("nr_class" :: w :: ws)) with
    (r ← scan_many scan_int 1 (w :: ws); n ← idx r.1 0;
     load_head scan_float k (LHead (lh_solver h) (Some n) (lh_labels h) (lh_features h) (lh_bias h)) r.2).
    cbn [scan_many]. by rewrite E. Qed.

  Lemma head_feature k h w n ws : scan_int w = Some n →
    load_head scan_float (S k) h ("nr_feature" :: w :: ws) =
    load_head scan_float k (LHead (lh_solver h) (lh_classes h) (lh_labels h) (Some n) (lh_bias h)) ws.
  Proof using. clear text. intros E. change (load_head scan_float (S k) h ("nr_feature" :: w :: ws)) with
    (r ← scan_many scan_int 1 (w :: ws); n ← idx r.1 0;
     load_head scan_float k (LHead (lh_solver h) (lh_classes h) (lh_labels h) (Some n) (lh_bias h)) r.2).
    cbn [scan_many]. by rewrite E. Qed.

  Lemma head_bias k h w f ws : scan_float w = Some f →
    load_head scan_float (S k) h ("bias" :: w :: ws) =
    load_head scan_float k (LHead (lh_solver h) (lh_classes h) (lh_labels h) (lh_features h) (Some f)) ws.
  Proof using. clear text. intros E. change (load_head scan_float (S k) h ("bias" :: w :: ws)) with
    (r ← scan_many scan_float 1 (w :: ws); b ← idx r.1 0;
     load_head scan_float k (LHead (lh_solver h) (lh_classes h) (lh_labels h) (lh_features h) (Some b)) r.2).
    cbn [scan_many]. by rewrite E. Qed.

  Lemma head_label k h n ls ws rest : lh_classes h = Some n → scan_many scan_int (Z.to_nat n) ws = Ok (ls, rest) →
    load_head scan_float (S k) h ("label" :: ws) =
    load_head scan_float k (LHead (lh_solver h) (lh_classes h) (Some ls) (lh_features h) (lh_bias h)) rest.
  Proof using. clear text. intros Ec E. change (load_head scan_float (S k) h ("label" :: ws)) with
    (n ← must (lh_classes h); r ← scan_many scan_int (Z.to_nat n) ws;
     load_head scan_float k (LHead (lh_solver h) (lh_classes h) (Some r.1) (lh_features h) (lh_bias h)) r.2).
    rewrite Ec. cbn [must mbind res_bind]. by rewrite E. Qed.

  Lemma head_w k h ws : load_head scan_float (S k) h ("w" :: ws) = Ok (h, ws).
  Proof using. done. Qed.

  Lemma model_round_trip sm :
    lmodel_saves sm →
    ∃ b sm', save_model show16 sm.1 sm.2 = Ok b ∧ load_model scan_float b = Ok sm' ∧
      reread show16 scan_float sm sm'.
  Proof using text.
    destruct sm as [solver m]. cbn [fst snd]. intros [[H1 H2] Hs]. cbn [fst snd] in *.
    destruct (solver_word solver H1 H2) as (name & En & Hw & Ef).
    set (rest := map show16 (lm_w m)).
    set (ws := ["solver_type"; name; "nr_class"; show_int (Z.of_nat (length (lm_labels m)))] ++
          "label" :: map show_int (lm_labels m) ++
          ["nr_feature"; show_int (Z.of_nat (lm_n m)); "bias"; "-1"; "w"] ++ rest).
    destruct (OvaSaveSpec.lt_minus _ _ text) as (bias & Eb & Hbias).
    assert (Forall word ws) as Hws.
    { assert (∀ s, bool_decide (s ≠ "" ∧ Forall (λ b, blank b = false) (string_bytes s)) = true → word s) as Hc.
      { intros s H. by apply bool_decide_eq_true in H. }
      unfold ws. cbn [app].
      repeat (constructor; [first [exact Hw|apply show_int_word|apply Hc; vm_compute; reflexivity]|]).
      apply Forall_app. split.
      { apply Forall_forall. intros x Hx. apply elem_of_list_fmap in Hx as (z & -> & _). apply show_int_word. }
      repeat (constructor; [first [apply show_int_word|apply Hc; vm_compute; reflexivity]|]).
      apply Forall_forall. intros x Hx. apply elem_of_list_fmap in Hx as (f & -> & _). apply (OvaSaveSpec.lt_word _ _ text). }
    destruct (scan_many_all scan_float show16 (λ f f', scan_float (show16 f) = Some f') (lm_w m) []) as (w' & Ew & Hw').
    { intros f _. destruct (OvaSaveSpec.lt_scan _ _ text f) as (f' & E). exists f'. done. }
    rewrite app_nil_r in Ew.
    destruct (scan_many_all scan_int show_int eq (lm_labels m)
      (["nr_feature"; show_int (Z.of_nat (lm_n m)); "bias"; "-1"; "w"] ++ rest)) as (ls & El & Hls).
    { intros z _. exists z. split; [apply scan_show_int|done]. }
    assert (ls = lm_labels m) as ->.
    { clear -Hls. induction Hls as [|x y l l' E H IH]; [done|]. subst. done. }
    assert (load_head scan_float (length ws) (LHead None None None None None) ws =
      Ok (LHead (Some solver) (Some (Z.of_nat (length (lm_labels m)))) (Some (lm_labels m))
            (Some (Z.of_nat (lm_n m))) (Some bias), rest)) as Eh.
    { assert (∃ k, length ws = S (S (S (S (S (S k)))))) as [k ->].
      { exists (length ws - 6). unfold ws. rewrite app_length. cbn [length]. rewrite app_length. cbn [length].
        rewrite app_length. cbn [length]. lia. }
      unfold ws. cbn [app].
      rewrite (head_solver _ _ _ _ _ _ Ef).
      rewrite (head_class _ _ _ _ _ (scan_show_int _)).
      erewrite head_label; [|reflexivity|rewrite Nat2Z.id; exact El]. cbn [app].
      rewrite (head_feature _ _ _ _ _ (scan_show_int _)).
      rewrite (head_bias _ _ _ _ _ Eb).
      apply head_w. }
    exists (words_bytes ws), (solver, LModel (lm_labels m) (lm_n m) w'). split; [|split].
    - assert (idx solver_names solver = Ok name) as Ei by (unfold idx; by rewrite En).
      unfold save_model. rewrite Ei. cbn [mbind res_bind]. rewrite <- Hs, idx_all. done.
    - unfold load_model. rewrite file_words_back by done. rewrite Eh. cbn [mbind res_bind fst snd lh_solver lh_classes lh_labels lh_features lh_bias must].
      rewrite Hbias. cbn [negb orb]. rewrite (proj2 (Nat.eqb_neq solver 4)) by done.
      rewrite Nat2Z.id.
      assert ((if (Z.of_nat (length (lm_labels m)) =? 2)%Z then 1 else Z.to_nat (Z.of_nat (length (lm_labels m)))) = outputs m) as ->.
      { unfold outputs. rewrite Nat2Z.id. destruct (Nat.eqb_spec (length (lm_labels m)) 2) as [->|E]; [done|].
        rewrite (proj2 (Z.eqb_neq _ _)) by lia. done. }
      rewrite <- Hs. unfold rest. rewrite Ew. done.
    - done.
  Qed.

  Lemma reread_exact sm sm' :
    Forall (survives show16 scan_float) (lm_w sm.2) → reread show16 scan_float sm sm' → sm' = sm.
  Proof using.
    destruct sm as [s [labels n w]], sm' as [s' [labels' n' w']]. unfold reread. cbn [fst snd lm_labels lm_n lm_w].
    intros Hw (-> & -> & -> & H). repeat f_equal.
    clear text. induction H as [|f f' l l' E H IH]; [done|]. apply Forall_cons in Hw as [Hf Hw].
    unfold survives in Hf. rewrite IH by done. congruence.
  Qed.
End lib.

(** ** Classifiers *)

Section lsvc.
  Variable marshal : json → list N.
  Variable unmarshal : list N → option json.
  Hypothesis faithful : json_faithful marshal unmarshal.
  Variable fmt : binary64 → string.
  Variable fparse : string → option binary64.
  Hypothesis floats : float_text fmt fparse.
  Variable show16 : binary64 → string.
  Variable scan_float : string → option binary64.
  Hypothesis text : lib_text show16 scan_float.

  Lemma float_into old f : is_finite 53 1024 f = true →
    ∃ j, float_json fmt f = Ok j ∧ sendable j ∧ json_float_into fparse old (Some j) = Ok f.
  Proof using floats.
    intros H. destruct (float_json_ok fmt fparse floats f H) as (j & E & Hs & Ej). exists j.
    split; [done|]. split; [done|]. unfold json_float_into.
    destruct j; try (by rewrite Ej). discriminate Ej.
  Qed.

  Lemma svc_round_trip p : svc_saves p →
    ∃ l, svc_json fmt p = Ok (JObj l) ∧ sendable (JObj l) ∧ ∀ old, json_svc fparse old (JObj l) = Ok p.
  Proof using floats.
    intros [Hs Hw Hc He]. destruct p as [solver w c eps auto dual]. cbn [sv_solver sv_weights sv_c sv_eps] in *.
    destruct (float_into Id3Model.float_zero c Hc) as (jc & Ec & Sc & _).
    destruct (float_into Id3Model.float_zero eps He) as (je & Ee & Se & _).
    assert (∃ jw, match w with None => Ok JNull | Some w => floats_json fmt w end = Ok jw ∧ sendable jw ∧
      match jw with JNull => Ok None | v => w ← json_floats fparse v; Ok (Some w) end = Ok w) as (jw & Ew & Sw & Rw).
    { destruct w as [w|].
      - destruct (floats_round_trip fmt fparse floats w (Hw w eq_refl)) as (jw & E & S & R). exists jw.
        split; [done|]. split; [done|].
        unfold floats_json in E. destruct (res_mapM (float_json fmt) w); [|done|done]. injection E as <-.
        by rewrite R.
      - exists JNull. split; [done|]. split; [constructor|done]. }
    unfold svc_json. cbn [sv_solver sv_weights sv_c sv_eps sv_auto sv_dual].
    rewrite Ew. cbn [mbind res_bind]. rewrite Ec. cbn [mbind res_bind]. rewrite Ee. cbn [mbind res_bind].
    eexists. split; [reflexivity|]. split.
    - constructor. repeat (constructor; [split; [reflexivity|]|]); try done; by constructor.
    - intros old. unfold json_svc. cbn [mbind res_bind].
      destruct (float_into (sv_c old) c Hc) as (jc' & Ec' & _ & Rc). rewrite Ec in Ec'. injection Ec' as <-.
      destruct (float_into (sv_eps old) eps He) as (je' & Ee' & _ & Re). rewrite Ee in Ee'. injection Ee' as <-.
      match goal with |- context [member ?l "SolverType"] => set (l0 := l) end.
      assert (member l0 "SolverType" = Some (JNum solver)) as -> by done.
      assert (member l0 "ClassWeights" = Some jw) as -> by done.
      assert (member l0 "C" = Some jc) as -> by done.
      assert (member l0 "Eps" = Some je) as -> by done.
      assert (member l0 "WeightClassesAutomatically" = Some (JBool auto)) as -> by done.
      assert (member l0 "Dual" = Some (JBool dual)) as -> by done.
      cbn [mbind res_bind].
      assert (match jw with JNull => Ok None | _ => w0 ← json_floats fparse jw; Ok (Some w0) end = Ok w) as Ew'.
      { by destruct jw. }
      rewrite Ew'. cbn [mbind res_bind]. rewrite Rc. cbn [mbind res_bind]. rewrite Re. done.
  Qed.

  Notation lsvc_save := (lsvc_save marshal fmt show16).
  Notation lsvc_load := (lsvc_load unmarshal fparse scan_float).

  (** The loaded classifier: the parameters are those saved, what is passed to liblinear is
      that of the classifier loaded into. *)
  Definition reloaded (into l l' : lsvc) : Prop :=
    ls_native l' = ls_native into ∧ ls_param l' = ls_param l ∧
    ∃ sm sm', ls_model l = Some sm ∧ ls_model l' = Some sm' ∧ reread show16 scan_float sm sm'.

  Lemma lsvc_stored l sm :
    lsvc_saves l sm →
    ∃ j b, svc_json fmt (ls_param l) = Ok j ∧ save_model show16 sm.1 sm.2 = Ok b ∧
      ∀ into, stored (lsvc_save l) (lsvc_load into) [("PARAMETERS", marshal j); ("MODEL", b)] (reloaded into l).
  Proof using faithful floats text.
    intros [Hp Hm Hok].
    destruct (svc_round_trip _ Hp) as (jl & Ej & Hs & Hr).
    destruct (model_round_trip show16 scan_float text sm Hok) as (b & sm' & Eb & El & Hre).
    exists (JObj jl), b. split; [done|]. split; [done|]. intros into. split.
    - intros p. unfold under. cbn [map fst snd].
      intros s ar Ho. unfold OvaSaveModel.lsvc_save. rewrite Ej. cbn [mbind res_bind]. rewrite Hm.
      cbn [must mbind res_bind]. rewrite Eb. cbn [mbind res_bind].
      destruct (put_bytes_appends (tar_prefix p "PARAMETERS") (marshal (JObj jl)) s ar Ho) as (s1 & -> & H1).
      cbn [mbind res_bind].
      destruct (put_bytes_appends (tar_prefix p "MODEL") b s1 _ H1) as (s2 & -> & H2).
      exists s2. split; [done|]. by rewrite <- app_assoc in H2.
    - apply (bool_decide_unpack _). vm_compute. done.
    - intros p ar H. unfold under in H. cbn [map fst snd] in H.
      apply holds_cons in H as [H1 H]. apply holds_cons in H as [H2 _].
      unfold OvaSaveModel.lsvc_load, get_json, parse_json. rewrite H1. cbn [mbind res_bind].
      rewrite (faithful _ Hs). cbn [mbind res_bind]. rewrite Hr. cbn [mbind res_bind]. rewrite H2.
      cbn [mbind res_bind]. rewrite El. cbn [mbind res_bind]. eexists. split; [done|].
      split; [done|]. split; [done|]. by exists sm, sm'.
  Qed.

  Lemma lsvc_files l sm into :
    lsvc_saves l sm →
    ∃ ar l', lsvc_file_save marshal fmt show16 l = Ok ar ∧
      lsvc_file_load unmarshal fparse scan_float into ar = Ok l' ∧ reloaded into l l'.
  Proof using faithful floats text.
    intros H. destruct (lsvc_stored l sm H) as (j & b & Ej & Eb & Hst).
    destruct (svc_round_trip _ (lv_param _ _ H)) as (jl & Ej' & Hs & _). rewrite Ej in Ej'. injection Ej' as ->.
    assert (meta_sendable (Meta 1 "LinearSVC" "1.0" (Some jl))) as Hm.
    { unfold meta_sendable, meta_json. cbn [md_format md_name md_version md_params]. constructor.
      repeat (constructor; [split; [reflexivity|]|]); try done; by constructor. }
    assert (∀ k, k ∈ map fst [("PARAMETERS", marshal (JObj jl)); ("MODEL", b)] → k ∉ reserved) as Hres.
    { cbn [map fst]. intros k Hk. repeat (apply elem_of_cons in Hk as [->|Hk];
        [apply (bool_decide_unpack _); vm_compute; done|]). by apply elem_of_nil in Hk. }
    destruct (single_file marshal unmarshal faithful _ (Meta 1 "LinearSVC" "1.0" (Some jl)) _ _ _ Hm eq_refl Hres
      (Hst into)) as (s & s' & E1 & E2 & E3 & E4 & l' & E5 & Hl').
    eexists _, l'. split; [|split; [|exact Hl']].
    - unfold lsvc_file_save. rewrite Ej. cbn [mbind res_bind]. rewrite E1. cbn [mbind res_bind].
      rewrite E2. cbn [mbind res_bind]. by rewrite (try_close_file _ _ E3).
    - unfold lsvc_file_load. rewrite E4. cbn [mbind res_bind]. exact E5.
  Qed.

  Lemma weights_round_trip w : weights_save w →
    ∃ j, weights_json fmt w = Ok j ∧ sendable j ∧
      ∀ old, json_weights fparse old j = Ok (match w with None => None | Some m => Some (m ∪ default ∅ old) end).
  Proof using floats.
    intros H. destruct w as [m|].
    2:{ exists JNull. split; [done|]. split; [constructor|done]. }
    assert (∀ ml : list (string * binary64),
      (∀ k f, (k, f) ∈ ml → is_text k ∧ is_finite 53 1024 f = true) →
      ∃ jl, res_mapM (λ kv, j ← float_json fmt kv.2; Ok (kv.1, j)) ml = Ok jl ∧
        Forall (λ x, is_text x.1 ∧ sendable x.2) jl ∧
        res_mapM (λ kv, v ← json_float_into fparse Id3Model.float_zero (Some kv.2); Ok (kv.1, v)) jl = Ok ml) as G.
    { clear H. induction ml as [|[k f] ml IH]; intros H; [by exists []|].
      destruct (H k f) as [Hk Hf]; [left|]. destruct IH as (jl & E & Hs & Hr); [intros k' f' Hin; apply H; by right|].
      destruct (float_into Id3Model.float_zero f Hf) as (j & Ej & Sj & Rj).
      exists ((k, j) :: jl). cbn [res_mapM fst snd]. rewrite Ej. cbn [mbind res_bind]. rewrite E. cbn [mbind res_bind].
      split; [done|]. split; [by constructor|]. cbn [res_mapM fst snd]. rewrite Rj. cbn [mbind res_bind]. by rewrite Hr. }
    destruct (G (map_to_list m)) as (jl & E & Hs & Hr).
    { intros k f Hin. apply elem_of_map_to_list in Hin. by eapply H. }
    exists (JObj jl). unfold weights_json. rewrite E. split; [done|]. split; [by constructor|].
    intros old. cbn [json_weights]. rewrite Hr. cbn [mbind res_bind]. by rewrite list_to_map_to_list.
  Qed.
End lsvc.
