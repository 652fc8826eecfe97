(** Lemmas about writing ARFF files. *)
From Verif Require Import Prelude BytesModel BytesProofs FloatModel AttrModel AttrSpec AttrProofs
  DenseModel DenseSpec DenseProofs GridModel GridSpec TextModel TextProofs CsvModel CsvSpec
  ArffModel ArffSpec ArffText ArffProofs.
From Flocq Require Import IEEE754.Bits IEEE754.Binary.
From Coq Require Import Ascii.
Local Open Scope nat_scope.

Lemma chars_join l : chars (join "," l) = separated (map chars l).
Proof.
  induction l as [|x l IH]; [done|]. destruct l as [|y l]; [done|].
  change (join "," (x :: y :: l)) with (x +:+ "," +:+ join "," (y :: l)).
  rewrite !chars_app, IH. done.
Qed.

Lemma chars_join_spaced l : l ≠ [] → spaced (map chars l) (chars (join ", " l)).
Proof.
  induction l as [|x l IH]; [done|]. intros _. destruct l as [|y l]; [constructor|].
  change (join ", " (x :: y :: l)) with (x +:+ ", " +:+ join ", " (y :: l)).
  rewrite !chars_app.
  change (spaced (chars x :: map chars (y :: l)) (chars x ++ comma :: [" "%char] ++ chars (join ", " (y :: l)))).
  constructor; [by repeat constructor|done|by apply IH].
Qed.

Definition newlines (ls : list (list ascii)) : list ascii := concat (map (λ l, l ++ [newline]) ls).
Lemma newlines_app a b : newlines (a ++ b) = newlines a ++ newlines b.
Proof. unfold newlines. by rewrite map_app, concat_app. Qed.
Lemma newlines_cons a b : newlines (a :: b) = a ++ newline :: newlines b.
Proof. unfold newlines. cbn. by rewrite <- app_assoc. Qed.

(** The line of a declaration. *)
Definition declare_line (a : attr) : list ascii :=
  chars ("@attribute " +:+ attr_name a +:+ " " +:+
    match a with CatA _ vs => "{" +:+ join ", " vs +:+ "}" | _ => "real" end).

Lemma chars_declare a : chars (arff_declare a) = declare_line a ++ [newline].
Proof.
  unfold arff_declare, declare_line. rewrite !chars_app. rewrite <- !app_assoc. done.
Qed.

Lemma chars_concat l : chars (String.concat "" l) = concat (map chars l).
Proof.
  induction l as [|x l IH]; [done|]. destruct l as [|y l].
  - cbn [String.concat map concat]. by rewrite app_nil_r.
  - change (String.concat "" (x :: y :: l)) with (x +:+ "" +:+ String.concat "" (y :: l)).
    rewrite !chars_app, IH. done.
Qed.

(** ** The rows *)

Lemma row_texts show specs vals : length vals = length specs → ∀ n pre fields, length pre = n →
  res_mapM (λ '(i, v), s ← idx (pre ++ specs) i; attr_decode show (sp_attr s) v)
    (imap (λ i v, (n + i, v)) vals) = Ok fields →
  Forall2 (λ '(s, v) t, attr_decode show (sp_attr s) v = Ok t) (zip specs vals) fields.
Proof.
  revert specs. induction vals as [|v vals IH]; intros [|s specs] Hl n pre fields Hn H; try done.
  - injection H as <-. constructor.
  - cbn [imap res_mapM] in H. apply bind_Ok in H as (t & Ht & H). apply bind_Ok in H as (ts & Hts & H).
    injection H as <-. apply bind_Ok in Ht as (s' & Hs' & Ht). cbn [zip zip_with]. constructor.
    + unfold idx in Hs'. replace (n + 0) with (length pre) in Hs' by lia.
      rewrite list_lookup_middle in Hs' by done. congruence.
    + apply (IH specs) with (n := S n) (pre := pre ++ [s]); [cbn in Hl; lia|rewrite app_length; cbn; lia|].
      rewrite <- app_assoc. cbn [app]. rewrite <- Hts. f_equal. 
      apply imap_ext. intros i x _. cbn. f_equal. lia.
Qed.

Lemma rows_written show g specs out out' rows b :
  run_rows (arff_row show specs) out (map (λ i, (i, res_mapM (λ a, gr_get g a i) specs)) rows) = Ok (out', b) →
  ∃ texts, chars out' = chars out ++ newlines (map (λ r, separated (map chars r)) texts) ∧
    Forall2 (λ i r, Forall2 (λ s t, ∃ v, gr_get g s i = Ok v ∧ attr_decode show (sp_attr s) v = Ok t) specs r)
      rows texts.
Proof.
  revert out. induction rows as [|i rows IH]; intros out H.
  - injection H as <- <-. exists []. cbn. by rewrite app_nil_r.
  - cbn [map run_rows] in H. apply bind_Ok in H as (vals & Hv & H).
    apply bind_Ok in H as ([o c] & Hr & H). unfold arff_row in Hr.
    apply bind_Ok in Hr as (fields & Hf & Hr). injection Hr as <- <-.
    destruct (IH _ H) as (texts & Ht & Hts). exists (fields :: texts). split.
    + rewrite Ht, !chars_app, chars_join. cbn [map]. rewrite newlines_cons. rewrite <- !app_assoc. done.
    + constructor; [|done]. apply res_mapM_Ok in Hv.
      assert (length vals = length specs) as Hl by (symmetry; by eapply Forall2_length).
      pose proof (row_texts show specs vals Hl 0 [] fields eq_refl Hf) as Hrow.
      clear -Hv Hrow. revert fields Hrow. induction Hv as [|s v specs vals Hv Hvs IH]; intros fields Hrow;
        cbn [zip zip_with] in Hrow; inversion Hrow; subst; constructor; eauto.
Qed.

Lemma write_text show g attrs relation specs file :
  iter_in_order g → resolve g attrs = Ok specs → arff_write show g attrs relation = Ok file →
  ∃ rows, cell_texts show g specs rows ∧
    file = written false
      (((chars "@relation " ++ chars relation) :: [] :: map (λ s, declare_line (sp_attr s)) specs ++ [[]]) ++
       chars "@data" :: map (λ r, separated (map chars r)) rows).
Proof.
  intros Hit Hres H. unfold arff_write in H. rewrite Hres in H. cbn [mbind res_bind] in H.
  unfold map_over_rows in H. rewrite Hit in H. apply bind_Ok in H as ([out b] & H & Ho).
  injection Ho as <-. apply rows_written in H as (rows & Hout & Hrows). exists rows. split.
  - split.
    + apply Forall2_length in Hrows. by rewrite seq_length in Hrows.
    + intros i r Hr. destruct (Forall2_lookup_r _ _ _ _ _ Hrows Hr) as (k & Hk & Hx).
      apply lookup_seq in Hk as [-> _]. exact Hx.
  - apply chars_inj. cbn [fst]. rewrite Hout. unfold written. rewrite chars_text.
    change (concat _) with (newlines (((chars "@relation " ++ chars relation) :: [] :: map (λ s, declare_line (sp_attr s)) specs ++ [[]]) ++
       chars "@data" :: map (λ r, separated (map chars r)) rows)).
    rewrite newlines_app, !newlines_cons, newlines_app, !newlines_cons.
    rewrite !chars_app, chars_concat, map_map.
    assert (concat (map (λ s, chars (arff_declare (sp_attr s))) specs) =
            newlines (map (λ s, declare_line (sp_attr s)) specs)) as ->.
    { unfold newlines. rewrite map_map. f_equal. apply map_ext. intros s. apply chars_declare. }
    change (chars eol) with [newline]. unfold newlines at 2. cbn [map concat app].
    repeat (rewrite <- app_assoc; cbn [app]). done.
Qed.

(** ** The file is well formed *)

Lemma declare_declares a : plain_attr a → declares (declare_line a) (decl_of a).
Proof.
  intros [Hn Hc]. unfold declare_line. rewrite !chars_app.
  change (chars "@attribute ") with (chars "@attribute" ++ [" "%char]).
  change (chars " ") with [" "%char].
  destruct a as [n p|n vs|n]; cbn [attr_name decl_of] in *.
  - rewrite <- app_assoc.
    replace (chars "real") with (chars "real" ++ []) by apply app_nil_r.
    replace n with (text (chars n)) at 2 by apply text_chars.
    apply declares_real; try done; by repeat constructor.
  - destruct (Hc n vs eq_refl) as (Hne & Hnd & Hv). rewrite !chars_app.
    change (chars "{") with [opening]. change (chars "}") with (closing :: []).
    rewrite <- app_assoc. cbn [app].
    replace (Nominal n vs) with (Nominal (text (chars n)) (map text (map chars vs))).
    2:{ rewrite text_chars, map_map. f_equal. rewrite <- (map_id vs) at 2. apply map_ext, text_chars. }
    apply (declares_nominal (chars "@attribute") [" "%char] (chars n) [" "%char] (map chars vs)
             (chars (join ", " vs)) []); try done.
    + by repeat constructor.
    + by repeat constructor.
    + by repeat constructor.
    + apply Forall_map, Forall_forall. intros v Hin. by apply Hv.
    + apply NoDup_fmap_2; [|done]. intros x y. apply chars_inj.
    + split; [by destruct vs|]. right. by apply chars_join_spaced.
  - rewrite <- app_assoc.
    replace (chars "real") with (chars "real" ++ []) by apply app_nil_r.
    replace n with (text (chars n)) at 2 by apply text_chars.
    apply declares_real; try done; by repeat constructor.
Qed.

Lemma declarations_header specs : Forall (λ s, plain_attr (sp_attr s)) specs → ∀ rest ds, header rest ds →
  header (map (λ s, declare_line (sp_attr s)) specs ++ rest) (map (λ s, decl_of (sp_attr s)) specs ++ ds).
Proof.
  intros H rest ds Hr. induction H as [|s specs Hs H IH]; [done|]. cbn [map app].
  constructor; [by apply declare_declares|done].
Qed.

Lemma word_plain l : word l → newline ∉ l ∧ last l ≠ Some carriage.
Proof.
  intros [_ H]. rewrite Forall_forall in H. split.
  - intros Hin. by apply H in Hin.
  - intros Hl. apply last_Some_elem_of in Hl. by apply H in Hl.
Qed.

Lemma decode_plain show parse a v t :
  plain_numbers show parse → plain_attr a → attr_decode show a v = Ok t →
  plain_text t ∧ field_valid parse (decl_of a) t.
Proof.
  intros [Hnum [H0 H1]] [_ Hc] H.
  assert (plain_text t → trim_space t = t) as Htrim.
  { intros (((_ & Hw) & _) & _). unfold trim_space. rewrite trim_word by done. apply text_chars. }
  destruct a as [n p|n vs|n]; cbn [attr_decode] in H; cbn [decl_of field_valid].
  - destruct (unpack_u64 v) as [b| |]; try done. injection H as <-.
    destruct (Hnum p b) as [Hp Hs]. rewrite Htrim; done.
  - destruct (Hc n vs eq_refl) as (_ & _ & Hv). unfold cat_decode in H.
    assert (t ∈ vs) as Hin.
    { apply bind_Ok in H as (k & _ & H). repeat case_match; try done;
        unfold idx in *; repeat case_match; simplify_eq; by eapply elem_of_list_lookup_2. }
    rewrite Htrim; auto.
  - assert (plain_text "0" ∧ plain_text "1") as [P0 P1].
    { split; (split; [split; [split; [done|by repeat constructor]|]|]);
        repeat split; try done; apply (bool_decide_unpack _); vm_compute; done. }
    unfold bin_decode in H. destruct v as [|b v]; [done|]. destruct (0 <? b)%N; injection H as <-;
      cbn [attr_name]; (split; [done|]); rewrite Htrim; done.
Qed.

Lemma separated_elem c ls : c ∈ separated ls → c = comma ∨ ∃ l, l ∈ ls ∧ c ∈ l.
Proof.
  induction ls as [|l ls IH]; [by intros ?%elem_of_nil|]. destruct ls as [|l2 ls].
  - intros H. right. exists l. split; [left|done].
  - change (separated (l :: l2 :: ls)) with (l ++ comma :: separated (l2 :: ls)).
    rewrite elem_of_app, elem_of_cons. intros [H|[H|H]]; [right; exists l; split; [left|done]|by left|].
    destruct (IH H) as [?|(x & ? & ?)]; [by left|]. right. exists x. split; [by right|done].
Qed.

Lemma arff_round_trip show parse nil pg g attrs relation specs file :
  iter_in_order g → resolve g attrs = Ok specs → arff_write show g attrs relation = Ok file →
  plain_numbers show parse → specs ≠ [] → Forall (λ s, plain_attr (sp_attr s)) specs →
  NoDup (map (λ s, attr_name (sp_attr s)) specs) →
  newline ∉ chars relation → carriage ∉ chars relation → short_lines file →
  ∃ rows d, cell_texts show g specs rows ∧ arff_to_instances parse nil pg file = Ok d ∧
    (∃ h, reachable pg h d) ∧
    arff_table parse (map (λ s, decl_of (sp_attr s)) specs) rows d.
Proof.
  intros Hit Hres Hw Hnum Hne Hplain Hnd Hrn Hrc Hshort.
  destruct (write_text _ _ _ _ _ _ Hit Hres Hw) as (rows & Hcells & Hfile).
  set (ls := ((chars "@relation " ++ chars relation) :: [] :: map (λ s, declare_line (sp_attr s)) specs ++ [[]]) ++
       chars "@data" :: map (λ r, separated (map chars r)) rows) in *.
  assert (∀ r, r ∈ rows → Forall2 (λ s t, plain_text t ∧ field_valid parse (decl_of (sp_attr s)) t) specs r) as Hrows.
  { intros r Hr. apply elem_of_list_lookup in Hr as [i Hi]. destruct Hcells as [_ Hc].
    specialize (Hc i r Hi). rewrite Forall_forall in Hplain.
    apply Forall2_same_length_lookup. split; [by eapply Forall2_length|]. intros j s t Hs Ht.
    destruct (Forall2_lookup_lr _ _ _ _ _ _ Hc Hs Ht) as (v & _ & Hv).
    eapply decode_plain; [done| |exact Hv]. apply Hplain. by eapply elem_of_list_lookup_2. }
  assert (∀ r t, r ∈ rows → t ∈ r → plain_text t) as Hplainr.
  { intros r t Hr Ht. apply elem_of_list_lookup in Ht as [j Hj].
    destruct (Forall2_lookup_r _ _ _ _ _ (Hrows r Hr) Hj) as (s & _ & ? & _). done. }
  assert (Forall (λ l, newline ∉ l ∧ carriage ∉ l) ls) as Hlines.
  { unfold ls. rewrite Forall_app, !Forall_cons, Forall_app, Forall_singleton. split_and!.
    - rewrite not_elem_of_app. split; [|done]. apply (bool_decide_unpack _). vm_compute. done.
    - rewrite not_elem_of_app. split; [|done]. apply (bool_decide_unpack _). vm_compute. done.
    - apply not_elem_of_nil.
    - apply not_elem_of_nil.
    - apply Forall_map. eapply Forall_impl; [exact Hplain|]. intros s [[_ Hn] Hc].
      assert (∀ c, is_space c = true → c ≠ " "%char → c ∉ declare_line (sp_attr s)) as Hx.
      { intros c Hsp Hc1 Hin. unfold declare_line in Hin. rewrite !chars_app, !elem_of_app in Hin.
        rewrite Forall_forall in Hn.
        assert (∀ k, forallb (λ x, negb (is_space x) || Ascii.eqb x " ") (chars k) = true → c ∉ chars k) as Hk.
        { intros k Hk Hin2. rewrite forallb_forall in Hk. apply elem_of_list_In, Hk in Hin2.
          rewrite Hsp in Hin2. cbn in Hin2. by apply Ascii.eqb_eq in Hin2. }
        destruct Hin as [Hin|[Hin|[Hin|Hin]]].
        - by apply (Hk "@attribute ") in Hin.
        - apply Hn in Hin. congruence.
        - by apply (Hk " ") in Hin.
        - destruct (sp_attr s) as [n p|n vs|n]; [by apply (Hk "real") in Hin| |by apply (Hk "real") in Hin].
          rewrite !chars_app, !elem_of_app in Hin.
          destruct Hin as [Hin|[Hin|Hin]]; [by apply (Hk "{") in Hin| |by apply (Hk "}") in Hin].
          destruct (Hc n vs eq_refl) as (_ & _ & Hv). clear -Hv Hin Hsp Hc1 Hk. revert Hv Hin.
          induction vs as [|x vs IH]; intros Hv Hin; [by apply elem_of_nil in Hin|].
          destruct (Hv x ltac:(left)) as (((_ & Hxw) & _) & _). rewrite Forall_forall in Hxw.
          destruct vs as [|y vs].
          + apply Hxw in Hin. congruence.
          + change (join ", " (x :: y :: vs)) with (x +:+ ", " +:+ join ", " (y :: vs)) in Hin.
            rewrite !chars_app, !elem_of_app in Hin. destruct Hin as [Hin|[Hin|Hin]].
            * apply Hxw in Hin. congruence.
            * by apply (Hk ", ") in Hin.
            * apply IH; [|done]. intros v Hvin. apply Hv. by right. }
      split; apply Hx; done.
    - apply not_elem_of_nil.
    - apply not_elem_of_nil.
    - apply (bool_decide_unpack _). vm_compute. done.
    - apply (bool_decide_unpack _). vm_compute. done.
    - apply Forall_map, Forall_forall. intros r Hr. 
      assert (∀ c, is_space c = true → c ∉ separated (map chars r)) as Hx.
      { intros c Hsp Hin. apply separated_elem in Hin as [->|(l & Hl & Hin)]; [done|].
        apply elem_of_list_fmap in Hl as (t & -> & Ht).
        destruct (Hplainr r t Hr Ht) as (((_ & Hxw) & _) & _). rewrite Forall_forall in Hxw.
        apply Hxw in Hin. congruence. }
      split; by apply Hx. }
  assert (arff_file false file (map (λ s, decl_of (sp_attr s)) specs) rows) as Haf.
  { split.
    - eexists _, _, _. split; [exact Hfile|]. split_and!.
      + change (chars "@relation " ++ chars relation) with (chars "@relation" ++ [" "%char] ++ chars relation).
        apply header_relation; [done|by repeat constructor|done|]. apply header_empty.
        rewrite <- (app_nil_r (map (λ s, decl_of (sp_attr s)) specs)).
        apply declarations_header; [done|]. repeat constructor.
      + done.
      + clear -Hplainr Hrows Hne. induction rows as [|r rows IH]; [constructor|]. cbn [map].
        constructor.
        2:{ apply IH; intros; [eapply Hrows|eapply Hplainr]; try done; by right. }
        pose proof (Hrows r ltac:(left)) as Hr. destruct r as [|t r].
        { apply Forall2_length in Hr. by destruct specs. }
        destruct (Hplainr (t :: r) t ltac:(left) ltac:(left)) as (((Hn & _) & _) & _ & Hat & Hpc).
        assert (∃ c l, chars t = c :: l ∧ ∃ l', separated (map chars (t :: r)) = c :: l') as (c & l & Hcl & l' & Hl').
        { destruct (chars t) as [|c l] eqn:E; [done|]. exists c, l. split; [done|].
          cbn [map separated]. rewrite E. destruct (map chars r); eexists; done. }
        split; [done|]. rewrite Hl'. rewrite Hcl in Hat, Hpc. split_and!; try done.
        apply Forall_forall. intros f Hf. destruct (Hplainr (t :: r) f ltac:(left) Hf) as ((_ & ?) & ? & _). done.
      + fold ls. apply Forall_forall. intros l Hl. rewrite Forall_forall in Hlines.
        destruct (Hlines l Hl) as [Hn Hc]. split_and!; [done| |].
        * intros Hx. apply last_Some_elem_of in Hx. done.
        * apply Hshort. rewrite Hfile. unfold written. rewrite chars_text.
          change (l ∈ split_on newline (newlines ls)).
          unfold newlines. rewrite split_newlines; [apply elem_of_app; by left|].
          apply Forall_forall. intros x Hx. by apply Hlines.
    - by destruct specs.
    - rewrite map_map. replace (map (λ s, decl_name (decl_of (sp_attr s))) specs) with (map (λ s, attr_name (sp_attr s)) specs); [done|].
      apply map_ext. intros s. by destruct (sp_attr s).
    - intros r Hr. rewrite map_length. symmetry. eapply Forall2_length, Hrows; done. }
  destruct (arff_reads parse nil pg false file _ rows Haf) as (d & Hd & Hre & Htab).
  { intros r j f dc Hr Hf Hdc. rewrite list_lookup_fmap in Hdc.
    destruct (specs !! j) as [s|] eqn:Es; [|done]. injection Hdc as <-.
    by destruct (Forall2_lookup_lr _ _ _ _ _ _ (Hrows r Hr) Es Hf) as [_ ?]. }
  eauto 10.
Qed.
