(** Lemmas about the texts of ARFF files. *)
From Verif Require Import Prelude BytesModel FloatModel AttrModel DenseModel GridModel TextModel
  TextProofs CsvModel CsvSpec ArffModel ArffSpec.
From Flocq Require Import IEEE754.Bits IEEE754.Binary.
From Coq Require Import Ascii.
Local Open Scope nat_scope.

Lemma chars_text l : chars (text l) = l.
Proof. apply String.list_ascii_of_string_of_list_ascii. Qed.
Lemma text_chars s : text (chars s) = s.
Proof. apply String.string_of_list_ascii_of_string. Qed.
Lemma chars_app a b : chars (a +:+ b) = chars a ++ chars b.
Proof. induction a as [|c a IH]; [done|].
  change (c :: chars (a +:+ b) = c :: chars a ++ chars b). by rewrite IH.
Qed.
Lemma text_inj a b : text a = text b → a = b.
Proof. intros H. rewrite <- (chars_text a), <- (chars_text b). by rewrite H. Qed.
Global Instance text_Inj : Inj (=) (=) text := text_inj.
Lemma chars_inj a b : chars a = chars b → a = b.
Proof. intros H. rewrite <- (text_chars a), <- (text_chars b). by rewrite H. Qed.

(** ** Splitting *)

Lemma split_on_cons sep a r : sep ∉ a → split_on sep (a ++ sep :: r) = a :: split_on sep r.
Proof.
  intros H. induction a as [|c a IH]; cbn.
  - by rewrite bool_decide_true.
  - apply not_elem_of_cons in H as [Hc H]. rewrite bool_decide_false by congruence.
    by rewrite IH.
Qed.

Lemma split_separated items :
  items ≠ [] → Forall (λ v, comma ∉ v) items → split_on comma (separated items) = items.
Proof.
  induction items as [|v items IH]; intros Hne H; [done|].
  inversion_clear H as [|?? Hv H']. destruct items as [|w items].
  - cbn. by apply split_on_none.
  - change (separated (v :: w :: items)) with (v ++ comma :: separated (w :: items)).
    rewrite split_on_cons by done. by rewrite IH.
Qed.

Lemma split_newlines ls :
  Forall (λ l, newline ∉ l) ls →
  split_on newline (concat (map (λ l, l ++ [newline]) ls)) = ls ++ [[]].
Proof.
  induction ls as [|l ls IH]; intros H; [done|]. inversion_clear H as [|?? Hl H'].
  cbn [map concat]. rewrite <- app_assoc. cbn [app]. rewrite split_on_cons by done. by rewrite IH.
Qed.

Lemma removelast_snoc {A} (l : list A) x : removelast (l ++ [x]) = l.
Proof. apply removelast_last. Qed.

Lemma raw_lines_newlines ls :
  Forall (λ l, newline ∉ l) ls → raw_lines (concat (map (λ l, l ++ [newline]) ls)) = ls.
Proof. intros H. unfold raw_lines. rewrite split_newlines by done. by rewrite last_snoc, removelast_snoc. Qed.

Lemma drop_cr_none l : last l ≠ Some carriage → drop_cr l = l.
Proof.
  intros H. unfold drop_cr. destruct (last l) as [c|]; [|done].
  rewrite bool_decide_false; [done|]. congruence.
Qed.
Lemma drop_cr_snoc l : drop_cr (l ++ [carriage]) = l.
Proof. unfold drop_cr. rewrite last_snoc, bool_decide_true by done. apply removelast_snoc. Qed.

Lemma scan_written crlf ls : Forall fitting ls → scan_lines (written crlf ls) = ls.
Proof.
  intros H. unfold scan_lines, written. rewrite chars_text.
  assert (concat (map (λ l, l ++ (if crlf then [carriage] else []) ++ [newline]) ls) =
    concat (map (λ l, l ++ [newline]) (map (λ l, l ++ if crlf then [carriage] else []) ls))) as ->.
  { rewrite map_map. f_equal. apply map_ext. intros l. by rewrite <- app_assoc. }
  rewrite raw_lines_newlines.
  - induction H as [|l ls (Hn & Hc & Hl) H IH]; [done|]. cbn [map scan_fitting].
    rewrite app_length.
    assert ((N.of_nat (length l + length (if crlf then [carriage] else [])) <=? line_limit)%N = true) as ->.
    { apply N.leb_le. destruct crlf; cbn [length]; lia. }
    rewrite IH. f_equal. destruct crlf; [apply drop_cr_snoc|]. rewrite app_nil_r. by apply drop_cr_none.
  - apply Forall_map. eapply Forall_impl; [exact H|]. intros l (Hn & _). cbn.
    rewrite not_elem_of_app. split; [done|]. destruct crlf; [|apply not_elem_of_nil].
    rewrite not_elem_of_cons. split; [done|apply not_elem_of_nil].
Qed.

(** ** Words *)

Lemma words_blanks b l : blanks b → words (b ++ l) = words l.
Proof. intros H. induction H as [|c b Hc H IH]; [done|]. cbn. by rewrite Hc. Qed.

Lemma words_from_word acc w l :
  Forall (λ c, is_space c = false) w → acc ++ w ≠ [] →
  (l = [] ∨ ∃ c r, l = c :: r ∧ is_space c = true) →
  words_from acc (w ++ l) = (rev acc ++ w) :: words l.
Proof.
  intros Hw. revert acc. induction Hw as [|c w Hc Hw IH]; intros acc Hne Hl.
  - rewrite app_nil_r in Hne. rewrite app_nil_r. cbn [app]. destruct Hl as [->|(c & r & -> & Hc)].
    + cbn. by destruct acc.
    + unfold words. cbn [words_from]. rewrite Hc. by destruct acc.
  - cbn [app words_from]. rewrite Hc. rewrite IH; [|done|done]. cbn [rev]. by rewrite <- app_assoc.
Qed.

Lemma words_word w l :
  word w → (l = [] ∨ ∃ c r, l = c :: r ∧ is_space c = true) → words (w ++ l) = w :: words l.
Proof. intros [Hne Hw] Hl. unfold words at 1. by rewrite words_from_word. Qed.

Lemma blanks_start b l : blanks b → b ≠ [] → ∃ c r, b ++ l = c :: r ∧ is_space c = true.
Proof. intros H Hb. destruct H as [|c b Hc H]; [done|]. by exists c, (b ++ l). Qed.

Lemma words_word_blanks w b l : word w → blanks b → b ≠ [] → words (w ++ b ++ l) = w :: words l.
Proof.
  intros Hw Hb Hne. rewrite words_word; [|done|right; by apply blanks_start].
  by rewrite words_blanks.
Qed.

Lemma words_end w b : word w → blanks b → words (w ++ b) = [w].
Proof.
  intros Hw Hb. destruct b as [|c b].
  - rewrite app_nil_r. rewrite <- (app_nil_r w) at 1. rewrite words_word; [done|done|by left].
  - rewrite <- (app_nil_r (c :: b)). rewrite words_word_blanks; done.
Qed.

Lemma lower_word w kw : lower w = chars kw → forallb (λ c, negb (is_space c)) (chars kw) = true →
  chars kw ≠ [] → word w.
Proof.
  intros H Hk Hne. split; [intros ->; by rewrite <- H in Hne|].
  apply Forall_forall. intros c Hc. destruct (is_space c) eqn:E; [|done].
  assert (lower_char c ∈ chars kw) as Hin.
  { rewrite <- H. unfold lower. by apply elem_of_list_fmap_1. }
  apply elem_of_list_In in Hin. rewrite forallb_forall in Hk. specialize (Hk _ Hin).
  assert (lower_char c = c) as Hl.
  { unfold lower_char. unfold is_space in E.
    destruct (65 <=? code c) eqn:E1; [|done]. cbn. apply Nat.leb_le in E1.
    exfalso. apply orb_true_iff in E as [E|E]; [apply Nat.eqb_eq in E; lia|].
    apply andb_true_iff in E as [_ E]. apply Nat.leb_le in E. lia. }
  by rewrite Hl, E in Hk.
Qed.

(** ** Trimming *)

Lemma drop_while_none p l : head l = None ∨ (∃ c, head l = Some c ∧ p c = false) → drop_while p l = l.
Proof. destruct l as [|c l]; [done|]. intros [H|(x & [= <-] & H)]; [done|]. cbn. by rewrite H. Qed.
Lemma trim_word w : Forall (λ c, is_space c = false) w → trim_list is_space w = w.
Proof.
  intros H. unfold trim_list.
  assert (∀ l, Forall (λ c, is_space c = false) l → drop_while is_space l = l) as Hd.
  { intros l Hl. apply drop_while_none. destruct Hl; [by left|]. right. eauto. }
  rewrite (Hd w) by done. rewrite Hd; [apply rev_involutive|]. apply Forall_forall. intros c Hc.
  rewrite Forall_forall in H. apply H. apply elem_of_list_In, in_rev, elem_of_list_In, Hc.
Qed.

(** ** A line of data *)

Lemma csv_scan_bare f : comma ∉ f → quote ∉ f → ∀ acc,
  csv_scan InBare acc f = Ok [rev acc ++ f] ∧
  ∀ r, csv_scan InBare acc (f ++ comma :: r) =
    (fs ← csv_scan AtStart [] r; Ok ((rev acc ++ f) :: fs)).
Proof.
  induction f as [|c f IH]; intros Hc Hq acc.
  - rewrite app_nil_r. split; [done|]. intros r. cbn [app csv_scan]. by rewrite bool_decide_true.
  - apply not_elem_of_cons in Hc as [Hc1 Hc], Hq as [Hq1 Hq].
    destruct (IH Hc Hq (c :: acc)) as [IH1 IH2]. cbn [app csv_scan].
    rewrite bool_decide_false by congruence. rewrite bool_decide_false by congruence.
    cbn [rev] in IH1, IH2. rewrite <- app_assoc in IH1, IH2. cbn [app] in IH1, IH2. split; [exact IH1|].
    exact IH2.
Qed.

Lemma csv_scan_start f : comma ∉ f → quote ∉ f →
  csv_scan AtStart [] f = Ok [f] ∧
  ∀ r, csv_scan AtStart [] (f ++ comma :: r) = (fs ← csv_scan AtStart [] r; Ok (f :: fs)).
Proof.
  intros Hc Hq. destruct f as [|c f].
  - split; [done|]. intros r. cbn [app csv_scan]. by rewrite bool_decide_true.
  - apply not_elem_of_cons in Hc as [Hc1 Hc], Hq as [Hq1 Hq].
    destruct (csv_scan_bare f Hc Hq [c]) as [H1 H2]. cbn [app csv_scan].
    rewrite bool_decide_false by congruence. rewrite bool_decide_false by congruence.
    split; [exact H1|]. exact H2.
Qed.

Lemma csv_scan_separated fs :
  fs ≠ [] → Forall (λ f, comma ∉ f ∧ quote ∉ f) fs → csv_scan AtStart [] (separated fs) = Ok fs.
Proof.
  induction fs as [|f fs IH]; intros Hne H; [done|].
  inversion_clear H as [|?? [Hc Hq] H']. destruct (csv_scan_start f Hc Hq) as [H1 H2].
  destruct fs as [|g fs]; [exact H1|].
  change (separated (f :: g :: fs)) with (f ++ comma :: separated (g :: fs)). rewrite H2.
  rewrite IH by done. done.
Qed.

Lemma csv_data_line l r :
  data_line l r → last l ≠ Some carriage → csv_line l = Ok (Some (map chars r)).
Proof.
  intros (-> & Hne & Hf & _) Hl. unfold csv_line. rewrite drop_cr_none by done.
  destruct (separated (map chars r)) as [|c l] eqn:E; [done|]. rewrite <- E.
  rewrite csv_scan_separated; [done| |].
  - intros E0. by rewrite E0 in E.
  - by apply Forall_map.
Qed.

(** ** Declarations *)

Lemma cat_find_none_from vs v : ∀ i, cat_find_from i vs v = None ↔ v ∉ vs.
Proof.
  induction vs as [|w vs IH]; intros i; cbn; [split; [intros _; apply not_elem_of_nil|done]|].
  rewrite not_elem_of_cons. case_bool_decide as E.
  - split; [done|]. intros [H _]. congruence.
  - rewrite IH. split; [|by intros [_ ?]]. intros ?. split; [congruence|done].
Qed.

Lemma encode_all_fresh hist : ∀ vs,
  NoDup hist → (∀ v, v ∈ hist → v ∉ vs) → (cat_encode_all vs hist).1 = vs ++ hist.
Proof.
  induction hist as [|v hist IH]; intros vs Hn Hf; cbn; [by rewrite app_nil_r|].
  apply NoDup_cons in Hn as [Hv Hn].
  assert (cat_encode vs v = (vs ++ [v], pack_u64 (N.of_nat (length (vs ++ [v]) - 1)))) as ->.
  { unfold cat_encode. unfold cat_find.
    rewrite (proj2 (cat_find_none_from vs v 0)); [done|]. apply Hf. left. }
  specialize (IH (vs ++ [v]) Hn). destruct (cat_encode_all (vs ++ [v]) hist) as [v2 c2]. cbn in *.
  rewrite IH; [by rewrite <- app_assoc|]. intros w Hw. rewrite not_elem_of_app, elem_of_list_singleton.
  split; [apply Hf; by right|]. congruence.
Qed.

Lemma strip_comma_none v : comma ∉ v → strip_comma v = v.
Proof.
  intros H. unfold strip_comma. destruct (last v) as [c|] eqn:E; [|done].
  rewrite bool_decide_false; [done|]. intros ->. apply H. by apply last_Some_elem_of.
Qed.
Lemma strip_comma_snoc v : strip_comma (v ++ [comma]) = v.
Proof. unfold strip_comma. rewrite last_snoc, bool_decide_true by done. apply removelast_snoc. Qed.

Lemma clean_category v : category v → text (strip_comma (trim_list is_space v)) = text v.
Proof. intros [[Hne Hw] Hc]. rewrite trim_word by done. by rewrite strip_comma_none. Qed.
Lemma clean_category_comma v : category v → text (strip_comma (trim_list is_space (v ++ [comma]))) = text v.
Proof.
  intros [[Hne Hw] Hc]. rewrite trim_word; [by rewrite strip_comma_snoc|].
  apply Forall_app. split; [done|]. repeat constructor.
Qed.

Lemma on_last_snoc f l x : on_last f (l ++ [x]) = l ++ [f x].
Proof. unfold on_last. by rewrite last_snoc, removelast_snoc. Qed.

(** The pieces of [{a,b,c}]. *)
Lemma separated_cons v vs : vs ≠ [] → separated (v :: vs) = v ++ comma :: separated vs.
Proof. by destruct vs. Qed.
Lemma separated_snoc vs v x : separated (vs ++ [v]) ++ [x] = separated (vs ++ [v ++ [x]]).
Proof.
  induction vs as [|w vs IH]; [done|]. cbn [app].
  rewrite !separated_cons by (by destruct vs). rewrite <- app_assoc. cbn [app]. by rewrite IH.
Qed.
Lemma separated_open v vs x : x :: separated (v :: vs) = separated ((x :: v) :: vs).
Proof. by destruct vs. Qed.

Definition open_first (l : list (list ascii)) : list (list ascii) :=
  match l with [] => [] | c :: cs => (opening :: c) :: cs end.

Lemma categories_brackets pre x (f : list ascii → list ascii) :
  category x → (∀ w, w ∈ pre → text (strip_comma (trim_list is_space (f w))) = text w) →
  arff_categories (open_first (map f pre ++ [x ++ [closing]])) = map text (pre ++ [x]).
Proof.
  intros Hx Hf. rewrite map_app. cbn [map]. rewrite <- (clean_category x Hx).
  destruct pre as [|p pre].
  - cbn [map app open_first arff_categories tail]. change [x ++ [closing]] with ([] ++ [x ++ [closing]]).
    rewrite on_last_snoc. cbn [app map]. by rewrite removelast_snoc.
  - cbn [map app open_first arff_categories tail]. rewrite app_comm_cons, on_last_snoc.
    rewrite removelast_snoc. rewrite map_app. cbn [map app]. rewrite Hf by left.
    rewrite map_map. f_equal. f_equal. apply map_ext_in. intros w Hw. apply Hf. right.
    by apply elem_of_list_In.
Qed.

Lemma lower_real_not_open ty : lower ty = chars "real" → head ty ≠ Some opening.
Proof. intros H E. destruct ty as [|c ty]; [done|]. injection E as ->. discriminate H. Qed.
Lemma open_not_real l : lower (opening :: l) ≠ chars "real".
Proof. discriminate. Qed.

Lemma keyword_start kw k l :
  lower kw = "@"%char :: k → ∃ c r, kw ++ l = c :: r ∧ c = at_sign.
Proof.
  destruct kw as [|c kw]; [done|]. intros [= Hc Hk]. exists c, (kw ++ l). split; [done|].
  unfold lower_char in Hc. destruct ((65 <=? code c) && (code c <=? 90)) eqn:E; [|done].
  exfalso. apply andb_true_iff in E as [E1 E2]. apply Nat.leb_le in E1, E2.
  apply (f_equal code) in Hc. unfold code in *. rewrite nat_ascii_embedding in Hc by lia.
  change (nat_of_ascii "@"%char) with 64 in Hc. lia.
Qed.

(** The words of the categories with white space between them. *)
Lemma spaced_words vs l b3 : spaced vs l → Forall category vs → blanks b3 →
  ∃ pre x, vs = pre ++ [x] ∧ ∀ p, Forall (λ c, is_space c = false) p →
    words (p ++ l ++ closing :: b3) =
      match map (λ v, v ++ [comma]) pre ++ [x ++ [closing]] with
      | [] => [] | w :: ws => (p ++ w) :: ws end.
Proof.
  assert (is_space closing = false ∧ is_space comma = false) as [Hcl Hcm] by done.
  assert (∀ v p x, category v → Forall (λ c, is_space c = false) p → is_space x = false →
    word (p ++ v ++ [x])) as Hw.
  { intros v p x [[_ Hv] _] Hp Hx. split; [by destruct p, v|]. apply Forall_app. split; [done|].
    apply Forall_app. split; [done|]. by constructor. }
  intros H. induction H as [v|v b vs l Hb Hne H IH]; intros Hf H3.
  - inversion_clear Hf as [|?? Hv _]. exists [], v. split; [done|]. intros p Hp. cbn [map app].
    replace (p ++ v ++ closing :: b3) with ((p ++ v ++ [closing]) ++ b3).
    2:{ by rewrite <- !app_assoc. }
    apply words_end; [by apply Hw|done].
  - inversion_clear Hf as [|?? Hv Hf']. destruct (IH Hf' H3) as (pre & x & -> & Hws).
    exists (v :: pre), x. split; [done|]. intros p Hp. cbn [map app].
    replace (p ++ (v ++ comma :: b ++ l) ++ closing :: b3)
      with ((p ++ v ++ [comma]) ++ b ++ ([] ++ l ++ closing :: b3)).
    2:{ rewrite <- !app_assoc. cbn [app]. by rewrite <- !app_assoc. }
    rewrite words_word_blanks; [|by apply Hw|done|done]. f_equal.
    rewrite Hws by constructor. by destruct (map _ pre ++ _).
Qed.

Lemma separated_pieces vs : vs ≠ [] →
  ∃ pre x, vs = pre ++ [x] ∧ opening :: separated vs ++ [closing] =
    separated (open_first (pre ++ [x ++ [closing]])).
Proof.
  intros Hne. destruct vs as [|x pre _] using rev_ind; [done|]. exists pre, x. split; [done|].
  rewrite separated_snoc. destruct pre as [|p pre]; [done|]. cbn [app open_first].
  by rewrite separated_open.
Qed.

Lemma last_closing (pre : list (list ascii)) x w :
  last (List.last (pre ++ [x ++ [closing]]) w) = Some closing.
Proof. rewrite List.last_last. apply last_snoc. Qed.

(** The attribute of a declaration, before its precision is known. *)
Lemma declaration_real l n : declares l (Real n) → arff_declaration l = Ok (Some (FloatA n 0)).
Proof.
  intros H. inversion H as [kw b1 name b2 ty b3 Hkw Hty Hname Hb1 Hn1 Hb2 Hn2 Hb3|]; subst.
  destruct (keyword_start kw _ (b1 ++ name ++ b2 ++ ty ++ b3) Hkw) as (c & r & E & ->).
  unfold arff_declaration. rewrite E, <- E. rewrite bool_decide_true by done. cbn [negb].
  rewrite words_word_blanks; [|by apply (lower_word kw "@attribute")|done|done].
  rewrite words_word_blanks by done.
  rewrite words_end; [|by apply (lower_word ty "real")|done].
  rewrite bool_decide_true by done. cbn [negb]. by rewrite bool_decide_true.
Qed.

Lemma declaration_nominal l n vs :
  declares l (Nominal n vs) → arff_declaration l = Ok (Some (CatA n vs)).
Proof.
  intros H. inversion H as [|kw b1 name b2 cs l' b3 Hkw Hname Hb1 Hn1 Hb2 Hn2 Hb3 Hcs Hnd [Hne Hl] Ek En]; subst.
  destruct (keyword_start kw _ (b1 ++ name ++ b2 ++ opening :: l' ++ closing :: b3) Hkw) as (c & r & E & ->).
  unfold arff_declaration. rewrite E, <- E. rewrite bool_decide_true by done. cbn [negb].
  rewrite words_word_blanks; [|by apply (lower_word kw "@attribute")|done|done].
  rewrite words_word_blanks by done.
  assert (∃ ty more pre x f, words (opening :: l' ++ closing :: b3) = ty :: more ∧
    cs = pre ++ [x] ∧ head ty = Some opening ∧ last (List.last more ty) = Some closing ∧
    (match more with [] => split_on comma ty | _ => ty :: more end) =
      open_first (map f pre ++ [x ++ [closing]]) ∧
    ∀ w, w ∈ pre → text (strip_comma (trim_list is_space (f w))) = text w)
    as (ty & more & pre & x & f & Hw & Hpre & Hty & Hlast & Hcats & Hf).
  { destruct Hl as [->|Hl].
    - destruct (separated_pieces cs Hne) as (pre & x & Hpre & Hsep).
      exists (opening :: separated cs ++ [closing]), [], pre, x, id.
      assert (Forall category (pre ++ [x])) as Hc by congruence.
      split; [|split; [done|split; [done|split; [|split]]]].
      + replace (opening :: separated cs ++ closing :: b3)
          with ((opening :: separated cs ++ [closing]) ++ b3) by (cbn; by rewrite <- app_assoc).
        apply words_end; [|done]. split; [done|]. constructor; [done|]. apply Forall_app.
        split; [|by repeat constructor]. clear -Hcs. induction Hcs as [|v vs [[_ Hv] _] Hvs IH]; [constructor|].
        destruct vs as [|v2 vs]; [done|]. rewrite separated_cons by done. apply Forall_app.
        split; [done|]. constructor; [done|]. exact IH.
      + cbn [List.last]. rewrite app_comm_cons. apply last_snoc.
      + rewrite map_id. rewrite Hsep. apply split_separated; [by destruct pre|].
        assert (Forall (λ v, comma ∉ v) (pre ++ [x ++ [closing]])) as Hnc.
        { apply Forall_app in Hc as [Hc1 Hc2]. apply Forall_app. split.
          - eapply Forall_impl; [exact Hc1|]. by intros v [_ ?].
          - inversion_clear Hc2 as [|?? [_ Hx] _]. constructor; [|done]. rewrite not_elem_of_app.
            split; [done|]. rewrite not_elem_of_cons. split; [done|apply not_elem_of_nil]. }
        destruct (pre ++ [x ++ [closing]]) as [|w ws]; [done|]. inversion_clear Hnc. cbn.
        constructor; [|done]. rewrite not_elem_of_cons. done.
      + intros w Hin. apply clean_category. rewrite Forall_forall in Hc. apply Hc. set_solver.
    - destruct (spaced_words cs l' b3 Hl Hcs Hb3) as (pre & x & Hpre & Hws).
      specialize (Hws [opening]). cbn [app] in Hws.
      assert (Forall category (pre ++ [x])) as Hc by congruence.
      destruct pre as [|p pre].
      + exists (opening :: x ++ [closing]), [], [], x, id. cbn [map app open_first] in Hws |- *.
        split; [apply Hws; by repeat constructor|]. split; [done|]. split; [done|]. split; [|split].
        * cbn [List.last]. rewrite app_comm_cons. apply last_snoc.
        * apply split_on_none. inversion_clear Hc as [|?? [_ Hx] _]. 
          rewrite not_elem_of_cons, not_elem_of_app, not_elem_of_cons.
          split; [done|]. split; [done|]. split; [done|apply not_elem_of_nil].
        * intros w Hin. by apply elem_of_nil in Hin.
      + cbn [map app] in Hws.
        eexists _, _, (p :: pre), x, (λ v, v ++ [comma]).
        split; [apply Hws; by repeat constructor|]. split; [done|]. split; [done|]. split; [|split].
        * apply last_closing.
        * cbn [map app open_first]. by destruct (map (λ v, v ++ [comma]) pre).
        * intros w Hin. apply clean_category_comma. rewrite Forall_forall in Hc. apply Hc. set_solver. }
  rewrite Hw. rewrite bool_decide_true by done. cbn [negb].
  rewrite bool_decide_false.
  2:{ intros Hr. by apply lower_real_not_open in Hr. }
  rewrite bool_decide_true by done. rewrite bool_decide_true by done. do 2 f_equal.
  rewrite Hcats. rewrite Hpre in *. rewrite categories_brackets.
  - rewrite encode_all_fresh; [by rewrite app_nil_l| |].
    + by apply (NoDup_fmap_2 text).
    + intros v _. apply not_elem_of_nil.
  - rewrite Forall_forall in Hcs. apply Hcs. set_solver.
  - done.
Qed.

Lemma declaration_ok l dc : declares l dc →
  ∃ a, arff_declaration l = Ok (Some a) ∧ ∀ p, declared dc (with_precision p a).
Proof.
  destruct dc as [n|n vs]; intros H.
  - rewrite (declaration_real l n H). eexists. split; [done|]. intros p. cbn. eauto.
  - rewrite (declaration_nominal l n vs H). eexists. split; [done|]. done.
Qed.

Lemma declares_start l dc : declares l dc → ∃ r, l = at_sign :: r.
Proof.
  intros H. inversion H as [kw b1 name b2 ty b3 Hkw|kw b1 name b2 vs l' b3 Hkw]; subst;
    eapply keyword_start in Hkw as (c & r & -> & ->); eauto.
Qed.

(** ** The header *)

Lemma relation_declaration kw b l :
  lower kw = chars "@relation" → blanks b → b ≠ [] → arff_declaration (kw ++ b ++ l) = Ok None.
Proof.
  intros Hkw Hb Hn. destruct (keyword_start kw _ (b ++ l) Hkw) as (c & r & E & ->).
  unfold arff_declaration. rewrite E, <- E. rewrite bool_decide_true by done. cbn [negb].
  rewrite words_word_blanks; [|by apply (lower_word kw "@relation")|done|done].
  destruct (words l) as [|w [|w2 ws]]; try done.
  rewrite bool_decide_false; [done|]. rewrite Hkw. discriminate.
Qed.

Lemma header_attributes h decls : header h decls →
  ∃ os, res_mapM arff_declaration h = Ok os ∧
    ∀ p, Forall2 declared decls (map (with_precision p) (omap id os)).
Proof.
  intros H. induction H as [|ls ds H (os & Hos & IH)|l ls ds H (os & Hos & IH)
    |kw b l ls ds Hkw Hb Hn H (os & Hos & IH)|l dc ls ds Hd H (os & Hos & IH)].
  - exists []. split; [done|]. intros p. constructor.
  - exists (None :: os). cbn [res_mapM]. rewrite Hos. done.
  - exists (None :: os). cbn [res_mapM]. rewrite Hos. done.
  - exists (None :: os). cbn [res_mapM]. rewrite relation_declaration by done.
    cbn [mbind res_bind]. rewrite Hos. done.
  - destruct (declaration_ok l dc Hd) as (a & Ha & Hdc). exists (Some a :: os).
    cbn [res_mapM]. rewrite Ha. cbn [mbind res_bind]. rewrite Hos. split; [done|].
    intros p. cbn. constructor; [apply Hdc|apply IH].
Qed.

Lemma body_declarations b rows : body b rows → res_mapM arff_declaration b = Ok (replicate (length b) None).
Proof.
  intros H. induction H as [|ls rows H IH|l ls rows H IH|l r ls rows Hl H IH]; [done|..];
    cbn [res_mapM length replicate]; rewrite IH; try done.
  destruct Hl as (_ & Hne & _ & Hat & _). destruct l as [|c l]; [done|]. unfold arff_declaration.
  rewrite bool_decide_false; [done|]. intros ->. done.
Qed.

Lemma lower_at mark k : lower mark = at_sign :: k → ∃ l, mark = at_sign :: l.
Proof.
  intros H. destruct (keyword_start mark k [] H) as (c & r & E & ->). rewrite app_nil_r in E. eauto.
Qed.

Lemma mark_declaration mark : lower mark = chars "@data" → arff_declaration mark = Ok None.
Proof.
  intros H. destruct (lower_at _ _ H) as [l E]. unfold arff_declaration. rewrite E, <- E.
  rewrite bool_decide_true by done. cbn [negb].
  assert (word mark) as Hw by (by apply (lower_word mark "@data")).
  rewrite <- (app_nil_r mark). rewrite words_end; [done|done|constructor].
Qed.

Lemma file_attributes h mark b decls rows :
  header h decls → lower mark = chars "@data" → body b rows →
  ∃ attrs, arff_attributes (h ++ mark :: b) = Ok attrs ∧ Forall2 declared decls attrs.
Proof.
  intros Hh Hm Hb. destruct (header_attributes h decls Hh) as (os & Hos & Hd).
  assert (∀ l1 l2 o1 o2, res_mapM arff_declaration l1 = Ok o1 → res_mapM arff_declaration l2 = Ok o2 →
    res_mapM arff_declaration (l1 ++ l2) = Ok (o1 ++ o2)) as Happ.
  { clear. induction l1 as [|x l1 IH]; intros l2 o1 o2 H1 H2; cbn in H1 |- *; [by injection H1 as <-|].
    destruct (arff_declaration x); try done. cbn [mbind res_bind] in H1 |- *.
    destruct (res_mapM arff_declaration l1) as [o| |] eqn:E; try done. cbn in H1. injection H1 as <-.
    by rewrite (IH l2 o o2). }
  unfold arff_attributes.
  rewrite (Happ h (mark :: b) os (None :: replicate (length b) None)); [|done|].
  2:{ cbn [res_mapM]. rewrite mark_declaration by done. cbn [mbind res_bind].
      by rewrite (body_declarations b rows). }
  cbn [mbind res_bind]. eexists. split; [done|].
  assert (∀ k, omap id (replicate k (@None attr)) = []) as Hnil by (intros k; induction k; done).
  rewrite omap_app. change (None :: replicate (length b) (@None attr)) with (replicate (S (length b)) (@None attr)).
  rewrite Hnil, app_nil_r. apply Hd.
Qed.

(** ** The number of rows *)

Lemma count_body b rows : body b rows → arff_count true b = length rows.
Proof.
  intros H. induction H as [|ls rows H IH|l ls rows H IH|l r ls rows Hl H IH]; cbn [arff_count length]; try done.
  destruct Hl as (_ & Hne & _ & Hat & Hpc). destruct l as [|c l]; [done|].
  rewrite bool_decide_false; [by rewrite IH|]. intros [-> | ->]; done.
Qed.

Lemma count_header h decls ls : header h decls → arff_count false (h ++ ls) = arff_count false ls.
Proof.
  intros H. induction H as [|hs ds H IH|l hs ds H IH|kw b l hs ds Hkw Hb Hn H IH|l dc hs ds Hd H IH];
    cbn [app arff_count]; try done.
  - destruct (keyword_start kw _ (b ++ l) Hkw) as (c & r & E & ->). rewrite E.
    rewrite bool_decide_true by done. rewrite bool_decide_false; [done|].
    intros E2. rewrite <- E in E2. unfold lower in E2. rewrite map_app in E2. fold (lower kw) in E2. rewrite Hkw in E2. discriminate.
  - destruct (declares_start l dc Hd) as [r E]. rewrite E.
    rewrite bool_decide_true by done. rewrite bool_decide_false; [done|].
    intros E2. rewrite <- E in E2. clear E. inversion Hd as [kw b1 name b2 ty b3 Hkw|kw b1 name b2 vs l' b3 Hkw]; subst;
    unfold lower in E2; rewrite map_app in E2; fold (lower kw) in E2; rewrite Hkw in E2; discriminate.
Qed.

Lemma count_file h mark b decls rows :
  header h decls → lower mark = chars "@data" → body b rows →
  arff_count false (h ++ mark :: b) = length rows.
Proof.
  intros Hh Hm Hb. rewrite (count_header h decls) by done. destruct (lower_at _ _ Hm) as [l E].
  cbn [arff_count]. rewrite E. rewrite bool_decide_true by done.
  rewrite bool_decide_true by (by rewrite <- E). by apply count_body.
Qed.

(** ** Reaching the data *)

Lemma drop_while_length p l : length (drop_while p l) ≤ length l.
Proof. induction l as [|c l IH]; cbn; [lia|]. destruct (p c); cbn; lia. Qed.

(** A line that starts with a keyword other than [@data] is not taken for it. *)
Lemma trim_keyword kw l k : lower kw = at_sign :: k → 5 < S (length k) →
  Forall (λ c, is_space c = false) (at_sign :: k) →
  trim_list is_space (lower (kw ++ l)) ≠ data_mark.
Proof.
  intros Hk Hlen Hns E. unfold lower in E. rewrite map_app in E. fold (lower kw) in E. rewrite Hk in E.
  unfold trim_list in E. cbn [app] in E.
  assert (drop_while is_space (at_sign :: k ++ map lower_char l) = at_sign :: k ++ map lower_char l) as Hd by done.
  rewrite Hd in E.
  assert (∀ m, 5 < length (drop_while is_space (rev (map lower_char m ++ []) ++ rev (at_sign :: k)))) as Hl.
  { intros m. generalize (rev (map lower_char m ++ [])) as x. intros x. induction x as [|c x IH]; cbn [app].
    - assert (drop_while is_space (rev (at_sign :: k)) = rev (at_sign :: k)) as ->.
      { apply drop_while_none. right. destruct (rev (at_sign :: k)) as [|c r] eqn:Er.
        - apply (f_equal length) in Er. rewrite rev_length in Er. done.
        - exists c. split; [done|]. rewrite Forall_forall in Hns. apply Hns.
          apply elem_of_list_In, in_rev. rewrite Er. by left. }
      rewrite rev_length. done.
    - cbn [drop_while]. destruct (is_space c); [done|]. cbn [length]. 
      rewrite app_length, rev_length. cbn [length]. lia. }
  specialize (Hl l). rewrite app_nil_r in Hl. rewrite <- rev_app_distr in Hl. cbn [app] in Hl.
  apply (f_equal length) in E. rewrite rev_length in E. rewrite E in Hl. cbn in Hl. lia.
Qed.

Section lines.
  Context (parse : string → option binary64).

  Lemma lines_header h decls specs d ls :
    header h decls → arff_lines parse specs false 0 d (h ++ ls) = arff_lines parse specs false 0 d ls.
  Proof.
    assert (∀ l k w, lower w = at_sign :: k → 5 < S (length k) →
      Forall (λ c, is_space c = false) (at_sign :: k) →
      ∀ ls, arff_lines parse specs false 0 d ((w ++ l) :: ls) = arff_lines parse specs false 0 d ls) as Hkw.
    { intros l k w Hw Hlen Hns ls'. cbn [arff_lines]. destruct (keyword_start w k l Hw) as (c & r & E & ->).
      rewrite bool_decide_false by (rewrite E; done).
      rewrite bool_decide_false; [done|]. by eapply trim_keyword. }
    intros H. induction H as [|hs ds H IH|l hs ds H IH|kw b l hs ds Hk Hb Hn H IH|l dc hs ds Hd H IH].
    - done.
    - exact IH.
    - exact IH.
    - cbn [app]. rewrite (Hkw _ _ _ Hk); [done|cbn; lia|]. by repeat constructor.
    - cbn [app]. inversion Hd as [kw b1 name b2 ty b3 Hk|kw b1 name b2 vs l' b3 Hk]; subst;
        (rewrite (Hkw _ _ _ Hk); [done|cbn; lia|]); by repeat constructor.
  Qed.

  Lemma lines_mark mark specs d ls :
    lower mark = chars "@data" →
    arff_lines parse specs false 0 d (mark :: ls) = arff_lines parse specs true 0 d ls.
  Proof.
    intros Hm. destruct (lower_at _ _ Hm) as [l E]. cbn [arff_lines].
    rewrite bool_decide_false by (rewrite E; done). rewrite Hm. rewrite bool_decide_true; [done|].
    apply trim_word. by repeat constructor.
  Qed.

  (** The records of the data, one after the other. *)
  Fixpoint read_records (specs : list spec) (row : nat) (d : dense) (rows : list (list string))
      : dense * ending :=
    match rows with
    | [] => (d, Finished)
    | r :: rows =>
        match arff_fields parse specs row d (map chars r) with
        | (d, Finished) => read_records specs (S row) d rows
        | r => r
        end
    end.

  Lemma lines_body b rows specs : body b rows → Forall (λ l, last l ≠ Some carriage) b → ∀ row d,
    arff_lines parse specs true row d b = read_records specs row d rows.
  Proof.
    intros H. induction H as [|ls rows H IH|l ls rows H IH|l r ls rows Hl H IH]; intros Hc row d;
      [done|inversion_clear Hc as [|?? Hc1 Hc2]..].
    - cbn [arff_lines]. exact (IH Hc2 row d).
    - cbn [arff_lines]. rewrite bool_decide_true by done. by apply IH.
    - cbn [arff_lines read_records]. rewrite bool_decide_false by apply Hl.
      rewrite (csv_data_line l r) by done.
      destruct (arff_fields parse specs row d (map chars r)) as [d' []]; try done. by apply IH.
  Qed.
End lines.
