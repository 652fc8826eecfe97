(** Proofs about saving and loading classifiers. *)
From Coq Require Import Ascii.
From Verif Require Import Prelude BytesModel BytesProofs AttrModel AttrSpec AttrProofs StoreModel DenseModel
  DenseSpec DenseProofs GridModel GridSpec GridProofs CsvModel PredModel SerModel SerSpec SerProofs Id3Model NbModel
  BagModel SaveModel SaveSpec.
From Flocq Require Import IEEE754.Bits IEEE754.Binary.
From stdpp Require Import pretty.
Local Open Scope nat_scope.

(** ** Numbers as text *)

Lemma read_digits_go x : ∀ s acc,
  ∃ k, read_digits (pretty_N_go x s) acc = read_digits s (acc * k + x)%N.
Proof.
  induction (N.lt_wf_0 x) as [x _ IH]; intros s acc.
  assert (x = 0 ∨ 0 < x)%N as [->|Hx] by lia.
  { exists 1%N. rewrite pretty_N_go_0. f_equal. lia. }
  rewrite pretty_N_go_step by done.
  destruct (IH (x / 10)%N (N.div_lt x 10 Hx eq_refl) (String (pretty_N_char (x mod 10)) s) acc) as (k & ->).
  exists (k * 10)%N. cbn [read_digits].
  assert (x mod 10 < 10)%N as Hm by (by apply N.mod_lt).
  assert (N_of_ascii (pretty_N_char (x mod 10)) = 48 + x mod 10)%N as ->.
  { generalize dependent (x mod 10)%N. intros d Hd. clear -Hd.
    destruct d as [|p]; [reflexivity|]. do 4 (destruct p as [p|p|]; try reflexivity; try (exfalso; lia)). }
  rewrite (proj2 (N.leb_le 48 (48 + x mod 10))) by lia.
  rewrite (proj2 (N.leb_le (48 + x mod 10) 57)) by lia. cbn [andb]. f_equal.
  pose proof (N.div_mod x 10). lia.
Qed.

Lemma read_digits_pretty (v : N) : read_digits (pretty v) 0 = Some v.
Proof.
  unfold pretty, pretty_N. case_decide as Hv; [by rewrite Hv|].
  destruct (read_digits_go v "" 0) as (k & ->). done.
Qed.

Lemma read_nat_pretty (n : nat) : read_nat (pretty n) = Some n.
Proof.
  unfold read_nat. change (pretty n) with (pretty (N.of_nat n)).
  rewrite read_digits_pretty. cbn. by rewrite Nat2N.id.
Qed.

Lemma lit_text_lit s : lit_text (json_lit s) = Some s.
Proof.
  unfold json_lit. destruct (read_digits s 0) as [v|]; [|done].
  case_bool_decide as E; cbn [andb]; [|done]. destruct (v <=? 2^53)%N; [|done].
  cbn [lit_text]. change (pretty (N.to_nat v)) with (pretty (N.of_nat (N.to_nat v))).
  by rewrite N2Nat.id, E.
Qed.

Lemma json_lit_sendable s : number s = true → sendable (json_lit s).
Proof.
  intros Hs. unfold json_lit. destruct (read_digits s 0) as [v|] eqn:E.
  - case_bool_decide as Ep; cbn [andb].
    + destruct (v <=? 2^53)%N eqn:El.
      * constructor. rewrite N2Nat.id. by apply N.leb_le.
      * constructor; [done|]. intros n Hn ->. change (pretty n) with (pretty (N.of_nat n)) in E.
        rewrite read_digits_pretty in E. injection E as <-. apply N.leb_gt in El.
        by destruct (N.lt_irrefl _ (N.lt_le_trans _ _ _ El Hn)).
    + constructor; [done|]. intros n Hn ->. change (pretty n) with (pretty (N.of_nat n)) in *.
      rewrite read_digits_pretty in E. by injection E as <-.
  - constructor; [done|]. intros n Hn ->. change (pretty n) with (pretty (N.of_nat n)) in *.
    by rewrite read_digits_pretty in E.
Qed.

(** ** The writer *)

Lemma appends_ret : appends (λ s, Ok s) [].
Proof. intros s ar H. exists s. by rewrite app_nil_r. Qed.

Lemma appends_bind f g es es' :
  appends f es → appends g es' → appends (λ s, f s ≫= g) (es ++ es').
Proof.
  intros Hf Hg s ar H. destruct (Hf s ar H) as (s1 & E1 & H1).
  destruct (Hg s1 _ H1) as (s2 & E2 & H2). exists s2. rewrite E1. cbn [mbind res_bind].
  split; [done|]. by rewrite app_assoc.
Qed.

Lemma appends_do f es :
  (∀ w ar, flushed w ar → ∃ w', f w = Ok w' ∧ flushed w' (ar ++ es)) → appends (ser_do f) es.
Proof.
  intros H [w c] ar [Hc Hw]. cbn in Hc, Hw. subst c. destruct (H w ar Hw) as (w' & E & Hw').
  exists (Ser w' false). unfold ser_do. cbn [sr_closed sr_tar]. rewrite E. done.
Qed.

Lemma put_bytes_appends k b : appends (put_bytes k b) [(k, b)].
Proof. apply appends_do. intros w ar. apply write_bytes_flushed. Qed.

Lemma put_u64_appends k v : appends (put_u64 k v) [(k, pack_u64 v)].
Proof. apply appends_do. intros w ar. apply write_bytes_flushed. Qed.

(** Nothing is owed after WriteBytesForKey. *)
Lemma put_bytes_done k b s ar :
  opened s ar → put_bytes k b s = Ok (Ser (TarW (ar ++ [(k, b)]) None) false).
Proof.
  destruct s as [w c]. intros [Hc Hw]. cbn in Hc, Hw. subst c. unfold put_bytes, ser_do.
  cbn [sr_closed sr_tar]. unfold write_bytes. rewrite (header_flushed _ _ _ _ Hw).
  cbn [mbind res_bind]. rewrite write_owed by lia. cbn [mbind res_bind].
  rewrite Nat.sub_diag. done.
Qed.

Lemma close_opened s ar : opened s ar → ser_close s = Ok (Ser (TarW ar None) true).
Proof.
  destruct s as [w c]. intros [Hc Hw]. cbn in Hc, Hw. subst c. unfold ser_close.
  cbn [sr_closed sr_tar]. unfold tar_close. by rewrite Hw.
Qed.

Lemma try_close_file s ar : opened s ar → ser_file (ser_try_close s) = ar.
Proof. intros H. unfold ser_try_close. by rewrite (close_opened s ar H). Qed.

Lemma closed_refuses f s : sr_closed s = true → ser_do f s = Err.
Proof. unfold ser_do. by intros ->. Qed.

(** ** Names *)

Lemma append_assoc' (x y z : string) : (x +:+ y) +:+ z = x +:+ y +:+ z.
Proof. induction x as [|c x IH]; [done|]. exact (f_equal (String c) IH). Qed.

Lemma prefix_prefix p q x : q ≠ "" → tar_prefix (tar_prefix p q) x = tar_prefix p (tar_prefix q x).
Proof.
  intros Hq. unfold tar_prefix. destruct (decide (p = "")) as [->|Hp].
  - rewrite !(bool_decide_eq_true_2 ("" = "")) by done. done.
  - rewrite (bool_decide_eq_false_2 (p = "")) by done.
    rewrite (bool_decide_eq_false_2 (q = "")) by done.
    rewrite bool_decide_eq_false_2; [by rewrite !append_assoc'|].
    destruct p; [done|discriminate].
Qed.

Lemma under_under p q es : q ≠ "" → under p (under q es) = under (tar_prefix p q) es.
Proof.
  intros Hq. unfold under. rewrite map_map. apply map_ext. intros [k b]. cbn [fst snd].
  by rewrite prefix_prefix.
Qed.

Lemma under_app p es es' : under p (es ++ es') = under p es ++ under p es'.
Proof. apply map_app. Qed.

Lemma under_empty es : under "" es = es.
Proof. unfold under. rewrite <- (map_id es) at 2. apply map_ext. by intros [k b]. Qed.

Lemma under_names p es : map fst (under p es) = map (tar_prefix p) (map fst es).
Proof. unfold under. by rewrite !map_map. Qed.

Lemma under_NoDup p es : NoDup (map fst es) → NoDup (map fst (under p es)).
Proof.
  intros H. rewrite under_names. apply NoDup_fmap_2; [|done]. intros x y. apply tar_prefix_inj.
Qed.

Lemma prefix_append p x y : tar_prefix p x +:+ y = tar_prefix p (x +:+ y).
Proof. unfold tar_prefix. case_bool_decide; [done|]. by rewrite !append_assoc'. Qed.

Lemma holds_app ar es es' : holds ar (es ++ es') ↔ holds ar es ∧ holds ar es'.
Proof.
  unfold holds. setoid_rewrite elem_of_app. naive_solver.
Qed.

Lemma holds_cons ar k b es : holds ar ((k, b) :: es) ↔ get_named_file ar k = Ok b ∧ holds ar es.
Proof.
  unfold holds. setoid_rewrite elem_of_cons. split.
  - intros H. split; [apply H; by left|]. intros k' b' H'. apply H. by right.
  - intros [H1 H2] k' b' [[= -> ->]|H']; [done|]. by apply H2.
Qed.

Lemma holds_distinct es : NoDup (map fst es) → holds es es.
Proof. intros H k b Hin. rewrite <- (app_nil_r es). by apply get_named_elem. Qed.

(** ** The start of every file *)

Definition stub_entries (marshal : json → list N) (m : meta) : archive :=
  [("CLS_MANIFEST", format_version); ("METADATA", marshal (meta_json m))].

(** Metadata that survives encoding/json. *)
Definition meta_sendable (m : meta) : Prop := sendable (meta_json m).

Section stub.
  Variable marshal : json → list N.
  Variable unmarshal : list N → option json.
  Hypothesis faithful : json_faithful marshal unmarshal.

  Lemma create_stub_opened m :
    ∃ s, create_stub marshal m = Ok s ∧ opened s (stub_entries marshal m).
  Proof.
    unfold create_stub. destruct (stub_written (marshal (meta_json m))) as (w & E & F).
    rewrite E. cbn [mbind res_bind]. exists (Ser w false). by split.
  Qed.

  Lemma json_meta_json m : json_meta (meta_json m) = Ok m.
  Proof. destruct m as [f n v [p|]]; reflexivity. Qed.

  Lemma read_metadata_stub m es :
    meta_sendable m → read_metadata unmarshal (stub_entries marshal m ++ es) "" = Ok m.
  Proof using faithful.
    intros Hm. unfold read_metadata, parse_json. cbn [get_named_file stub_entries app tar_prefix].
    rewrite bool_decide_eq_false_2 by done. rewrite bool_decide_eq_true_2 by done.
    cbn [mbind res_bind]. rewrite (faithful _ Hm). cbn [mbind res_bind]. apply json_meta_json.
  Qed.

  Lemma read_stub_stub m es :
    meta_sendable m → md_format m = 1 → read_stub unmarshal (stub_entries marshal m ++ es) = Ok m.
  Proof using faithful.
    intros Hm Hf. unfold read_stub.
    assert (get_named_file (stub_entries marshal m ++ es) "CLS_MANIFEST" = Ok format_version) as ->.
    { reflexivity. }
    cbn [mbind res_bind]. rewrite bool_decide_eq_true_2 by done. cbn [negb].
    rewrite (read_metadata_stub m es Hm). cbn [mbind res_bind]. by rewrite Hf.
  Qed.

  Lemma plain_meta_sendable n v : is_text n → is_text v → meta_sendable (Meta 1 n v None).
  Proof.
    intros Hn Hv. constructor. repeat (constructor; [split; [reflexivity|]|]); try constructor; try done.
  Qed.
End stub.

(** ** Trees *)

Section fix_tree_ind.
  Variable P : tree → Prop.
  Hypothesis step : ∀ leaf cs dist class cattr r,
    (∀ l k c, cs = Some l → (k, c) ∈ l → P c) → P (Node leaf cs dist class cattr r).
  Fixpoint tree_children_ind (t : tree) : P t.
  Proof.
    destruct t as [leaf cs dist class cattr r]. apply step.
    destruct cs as [l|]; [|intros ? ? ? [=]].
    assert (Forall (λ kc, P kc.2) l) as H.
    { induction l as [|kc l IH]; [constructor|]. constructor; [apply tree_children_ind|exact IH]. }
    intros l' k c E Hin. injection E as <-. rewrite Forall_forall in H. exact (H (k, c) Hin).
  Defined.
End fix_tree_ind.

(** What is loaded for a tree, apart from the class attribute of the root. *)
Definition reload_rule (r : rule) : rule :=
  match ru_attr r with None => Rule None float_zero | Some a => Rule (Some a) (ru_val r) end.
Fixpoint reload (t : tree) : tree :=
  match t with
  | Node leaf cs dist class _ r =>
      Node leaf
        (match cs with None => None | Some l => Some (map (λ kc, (kc.1, reload kc.2)) l) end)
        dist class nil_attr (match r with None => None | Some ru => Some (reload_rule ru) end)
  end.

Section tree.
  Variable marshal : json → list N.
  Variable unmarshal : list N → option json.
  Hypothesis faithful : json_faithful marshal unmarshal.
  Variable fmt : binary64 → string.
  Variable fparse : string → option binary64.
  Hypothesis floats : float_text fmt fparse.
  Variable is_nil : attr → bool.

  Lemma float_json_ok f :
    is_finite 53 1024 f = true →
    ∃ j, float_json fmt f = Ok j ∧ sendable j ∧ json_float fparse j = Ok f.
  Proof using floats.
    intros Hf. unfold float_json. rewrite Hf. eexists. split; [done|].
    split; [apply json_lit_sendable; by apply (ft_number _ _ floats)|].
    unfold json_float. rewrite lit_text_lit, (ft_parse _ _ floats) by done. done.
  Qed.

  Lemma json_zero : json_float fparse (JNum 0) = Ok float_zero.
  Proof using floats.
    unfold json_float. cbn [lit_text]. change (pretty 0) with "0".
    rewrite <- (ft_zero _ _ floats), (ft_parse _ _ floats) by done. done.
  Qed.

  Lemma rule_round_trip r :
    (∀ a, ru_attr r = Some a → attr_saves is_nil a ∧ is_finite 53 1024 (ru_val r) = true) →
    ∃ j, rule_json fmt is_nil r = Ok j ∧ sendable j ∧ json_rule fparse j = Ok (reload_rule r) ∧
      j ≠ JNull.
  Proof using floats.
    intros H. unfold rule_json, reload_rule. destruct r as [[a|] v]; cbn [ru_attr ru_val].
    - destruct (H a eq_refl) as [[Ha Hs] Hv]. cbn [ru_val] in Hv.
      destruct (float_json_ok v Hv) as (j & -> & Hj & Hp). cbn [mbind res_bind].
      eexists. split; [done|]. split; [|split; [|done]].
      + constructor. constructor; [split; [done|]|constructor; [by split|constructor]].
        by apply attr_json_sendable.
      + unfold json_rule. cbn [mbind res_bind member]. 
        rewrite (bool_decide_eq_false_2 ("split_attribute" = "split_val")) by done.
        rewrite !bool_decide_eq_true_2 by done. rewrite Hp. cbn [mbind res_bind default].
        assert (json_attr (attr_json (a, is_nil a)) = Ok (a, match a with CatA _ vs => bool_decide (vs = []) | _ => false end)) as E.
        { by apply json_attr_json. }
        cbn [id].
        destruct (attr_json (a, is_nil a)) eqn:Ej; try (by destruct a). unfold id. rewrite E. done.
    - eexists. split; [done|]. split; [|split; [|done]].
      + constructor. constructor; [split; [done|by constructor]|]. constructor; [|constructor].
        split; [done|]. by constructor.
      + unfold json_rule. cbn [mbind res_bind member].
        rewrite (bool_decide_eq_false_2 ("split_attribute" = "split_val")) by done.
        rewrite !bool_decide_eq_true_2 by done. rewrite json_zero. cbn [mbind res_bind default id].
        done.
  Qed.

  Lemma counts_sendable (m : gmap string nat) :
    (∀ k n, m !! k = Some n → count_saves k n) →
    sendable (JObj (map (λ kv, (kv.1, JNum kv.2)) (map_to_list m))).
  Proof.
    intros H. constructor. apply Forall_fmap, Forall_forall. intros [k n] Hin.
    apply elem_of_map_to_list in Hin. cbn. destruct (H k n Hin). split; [done|by constructor].
  Qed.

  Lemma counts_read (m : gmap string nat) :
    json_counts (Some (JObj (map (λ kv, (kv.1, JNum kv.2)) (map_to_list m)))) = Ok m.
  Proof.
    cbn [json_counts].
    assert (∀ l : list (string * nat), res_mapM (λ kv, n ← json_int (Some kv.2); Ok (kv.1, n))
      (map (λ kv, (kv.1, JNum kv.2)) l) = Ok l) as E.
    { intros l. apply res_mapM_Ok, Forall2_fmap_l, Forall_Forall2_diag, Forall_forall. by intros [k n] _. }
    rewrite E. cbn [mbind res_bind]. by rewrite list_to_map_to_list.
  Qed.

  Lemma tree_round_trip t :
    tree_saves is_nil t →
    ∃ j, tree_json fmt is_nil t = Ok j ∧ sendable j ∧ json_node fparse j = Ok (reload t).
  Proof using floats.
    induction t as [leaf cs dist class cattr r IH] using tree_children_ind.
    intros Hs. inversion_clear Hs as [? ? ? ? ? ? Hk Hc Hd Ht Hr].
    assert (∃ jc, match cs with
      | None => Ok JNull
      | Some l =>
          l ← (fix go (l : list (string * tree)) : res (list (string * json)) :=
                 match l with
                 | [] => Ok []
                 | (k, t) :: l => j ← tree_json fmt is_nil t; l ← go l; Ok ((k, j) :: l)
                 end) l;
          Ok (JObj l)
      end = Ok jc ∧ sendable jc ∧
      match jc with
      | JNull => Ok None
      | JObj cl =>
          cs ← (fix go (cl : list (string * json)) : res (list (string * tree)) :=
                  match cl with
                  | [] => Ok []
                  | (k, c) :: cl => t ← json_node fparse c; cs ← go cl; Ok ((k, t) :: cs)
                  end) cl;
          Ok (Some cs)
      | _ => Err
      end = Ok (match cs with None => None | Some l => Some (map (λ kc, (kc.1, reload kc.2)) l) end))
      as (jc & Ec & Hjc & Ejc).
    { destruct cs as [l|].
      2:{ exists JNull. split; [done|]. split; [constructor|done]. }
      assert (∃ jl, (fix go (l : list (string * tree)) : res (list (string * json)) :=
                 match l with
                 | [] => Ok []
                 | (k, t) :: l => j ← tree_json fmt is_nil t; l ← go l; Ok ((k, j) :: l)
                 end) l = Ok jl ∧
        Forall (λ m, is_text m.1 ∧ sendable m.2) jl ∧
        (fix go (cl : list (string * json)) : res (list (string * tree)) :=
                  match cl with
                  | [] => Ok []
                  | (k, c) :: cl => t ← json_node fparse c; cs ← go cl; Ok ((k, t) :: cs)
                  end) jl = Ok (map (λ kc, (kc.1, reload kc.2)) l)) as (jl & E1 & E2 & E3).
      { assert (∀ k c, (k, c) ∈ l → is_text k ∧ tree_saves is_nil c ∧ (tree_saves is_nil c →
          ∃ j, tree_json fmt is_nil c = Ok j ∧ sendable j ∧ json_node fparse j = Ok (reload c))) as H.
        { intros k c Hin. split; [by eapply Hk|]. split; [by eapply Hc|]. by eapply IH. }
        clear -H. induction l as [|[k c] l IHl]; [by exists []|].
        destruct IHl as (jl & E1 & E2 & E3).
        { intros k' c' Hin. apply H. by right. }
        destruct (H k c) as (Hk & Hc & Hj); [left|]. destruct (Hj Hc) as (j & F1 & F2 & F3).
        exists ((k, j) :: jl). rewrite F1. cbn [mbind res_bind]. rewrite E1.
        split; [done|]. split; [by constructor|]. rewrite F3. cbn [mbind res_bind].
        rewrite E3. done. }
      exists (JObj jl). rewrite E1. split; [done|]. split; [by constructor|]. rewrite E3. done. }
    assert (∃ jr, match r with None => Ok JNull | Some r => rule_json fmt is_nil r end = Ok jr ∧
      sendable jr ∧
      match jr with
      | JNull => Ok None
      | v => r ← json_rule fparse v; Ok (Some r)
      end = Ok (match r with None => None | Some ru => Some (reload_rule ru) end)) as (jr & Er & Hjr & Ejr).
    { destruct r as [ru|].
      - destruct (rule_round_trip ru) as (j & E1 & E2 & E3 & E4);
        [intros a Ha; exact (Hr ru a eq_refl Ha)|].
        exists j. split; [done|]. split; [done|]. rewrite E3. by destruct j.
      - exists JNull. split; [done|]. split; [constructor|done]. }
    eexists. cbn [tree_json]. rewrite Ec. cbn [mbind res_bind]. rewrite Er. cbn [mbind res_bind].
    split; [done|]. split.
    - constructor. constructor; [split; [done|]; constructor; by destruct leaf|].
      constructor; [by split|]. constructor; [split; [done|by apply counts_sendable]|].
      constructor; [split; [done|by constructor]|]. constructor; [by split|constructor].
    - cbn [json_node]. cbn [member].
      rewrite !(bool_decide_eq_true_2 ("node_type" = "node_type")) by done.
      rewrite !(bool_decide_eq_true_2 ("children" = "children")) by done.
      rewrite !(bool_decide_eq_true_2 ("class_dist" = "class_dist")) by done.
      rewrite !(bool_decide_eq_true_2 ("class_string" = "class_string")) by done.
      rewrite !(bool_decide_eq_true_2 ("decision_tree_rule" = "decision_tree_rule")) by done.
      rewrite !bool_decide_eq_false_2 by done.
      cbn [json_int mbind res_bind].
      rewrite Ejc. cbn [mbind res_bind].
      rewrite counts_read. cbn [mbind res_bind json_string].
      rewrite Ejr. cbn [mbind res_bind reload]. by destruct leaf.
  Qed.

  (** Infinite thresholds are refused. *)
  Lemma tree_json_no_panic t : tree_json fmt is_nil t ≠ Panic.
  Proof.
    induction t as [leaf cs dist class cattr r IH] using tree_children_ind. cbn [tree_json].
    set (c := match cs with None => _ | Some l => _ end).
    assert (c ≠ Panic) as Hc.
    { subst c. destruct cs as [l|]; [|done].
      assert (∀ k c, (k, c) ∈ l → tree_json fmt is_nil c ≠ Panic) as H by (intros; by eapply IH).
      clear IH. set (x := (fix go (l : list (string * tree)) := _) l).
      assert (x ≠ Panic) as Hx; [|by destruct x].
      subst x. induction l as [|[k c] l IHl]; [done|].
      pose proof (H k c ltac:(left)). destruct (tree_json fmt is_nil c); cbn [mbind res_bind]; [|done|done].
      assert ((fix go (l : list (string * tree)) : res (list (string * json)) :=
         match l with
         | [] => Ok []
         | (k, t) :: l => j ← tree_json fmt is_nil t; l ← go l; Ok ((k, j) :: l)
         end) l ≠ Panic) as Hl by (apply IHl; intros; eapply H; by right).
      revert Hl. by destruct ((fix go (l : list (string * tree)) := _) l). }
    destruct c; cbn [mbind res_bind]; [|done|done].
    assert (match r with None => Ok JNull | Some r => rule_json fmt is_nil r end ≠ Panic) as Hr.
    { destruct r as [[[b|] v]|]; [|done|done]. cbn. unfold float_json. by destruct is_finite. }
    destruct (match r with None => Ok JNull | Some r => rule_json fmt is_nil r end); [|done|done].
    done.
  Qed.

  Lemma unbounded_refused t : unbounded t → tree_json fmt is_nil t = Err.
  Proof.
    intros H. pose proof (tree_json_no_panic t) as Hp.
    assert (∀ j, tree_json fmt is_nil t ≠ Ok j) as Ho.
    { clear Hp. induction H as [leaf cs dist class cattr ru a Ha Hf|leaf l dist class cattr r k c Hin Hu IH];
        intros j; cbn [tree_json].
      - set (x := match cs with None => _ | Some l => _ end). destruct x; cbn [mbind res_bind]; [|done|done].
        destruct ru as [o v]. cbn in Ha, Hf. subst o. cbn. unfold float_json. by rewrite Hf.
      - set (x := (fix go (l : list (string * tree)) := _) l).
        assert (∀ jl, x ≠ Ok jl) as Hx.
        { subst x. clear -Hin IH. induction l as [|[k' c'] l IHl]; [by apply elem_of_nil in Hin|].
          intros jl. apply elem_of_cons in Hin as [E|Hin].
          - injection E as <- <-. destruct (tree_json fmt is_nil c) as [j| |] eqn:Ej; [|done|done].
            by destruct (IH j).
          - destruct (tree_json fmt is_nil c'); [|done|done]. cbn [mbind res_bind].
            pose proof (IHl Hin) as Hl.
            destruct ((fix go (l : list (string * tree)) := _) l) as [l'| |]; [|done|done].
            by destruct (Hl l'). }
        destruct x as [jl| |]; [|done|done]. by destruct (Hx jl). }
    destruct (tree_json fmt is_nil t) as [j| |]; [by destruct (Ho j)|done|done].
  Qed.
End tree.
