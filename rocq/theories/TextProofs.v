(** Proofs about the regular expressions of base/csv.go. *)
From Verif Require Import Prelude FloatModel TextModel CsvModel CsvSpec.
From Coq Require Import Ascii.
Local Open Scope nat_scope.

Lemma take_drop_while p l : take_while p l ++ drop_while p l = l.
Proof. induction l as [|c l IH]; cbn; [done|]. destruct (p c); [|done]. cbn. by rewrite IH. Qed.

Lemma take_while_all p l : Forall (λ c, p c = true) (take_while p l).
Proof. induction l as [|c l IH]; cbn; [constructor|]. destruct (p c) eqn:E; by constructor. Qed.

Lemma drop_while_head p l x : head (drop_while p l) = Some x → p x = false.
Proof.
  induction l as [|c l IH]; cbn; [done|]. destruct (p c) eqn:E; [done|]. by intros [= ->].
Qed.

Lemma take_while_app p a b :
  Forall (λ c, p c = true) a → (∀ x, head b = Some x → p x = false) →
  take_while p (a ++ b) = a ∧ drop_while p (a ++ b) = b.
Proof.
  intros Ha Hb. induction Ha as [|c a Hc Ha [IH1 IH2]]; cbn.
  - destruct b as [|x b]; [done|]. cbn. by rewrite (Hb x).
  - by rewrite Hc, IH1, IH2.
Qed.

Lemma digit_not_dot c : is_digit c = true → c ≠ "."%char.
Proof. intros H ->. done. Qed.
Lemma digit_not_sign c : is_digit c = true → ¬ (c = "+"%char ∨ c = "-"%char).
Proof. intros H [-> | ->]; done. Qed.
Lemma digit_not_exp c : is_digit c = true → ¬ (c = "e"%char ∨ c = "E"%char).
Proof. intros H [-> | ->]; done. Qed.

Lemma drop_sign_spec s l :
  sign s → (∀ x, head l = Some x → ¬ (x = "+"%char ∨ x = "-"%char)) → drop_sign (s ++ l) = l.
Proof.
  intros [-> |[-> | ->]] Hl; cbn.
  - destruct l as [|c l]; [done|]. cbn. by rewrite bool_decide_false by (by apply Hl).
  - done.
  - done.
Qed.

Lemma drop_sign_inv l : ∃ s, sign s ∧ l = s ++ drop_sign l.
Proof.
  destruct l as [|c l]; [by exists []; split; [left|]|]. cbn. case_bool_decide as H.
  - exists [c]. split; [|done]. destruct H as [-> | ->]; [by right; left|by right; right].
  - exists []. split; [by left|done].
Qed.

Lemma all_digits_spec l : all_digits l = true ↔ digits l ∧ l ≠ [].
Proof.
  unfold all_digits, digits. destruct l as [|c l]; [split; [done|by intros [_ ?]]|].
  rewrite forallb_forall, Forall_forall. split.
  - intros H. split; [|done]. intros x Hx. apply H. by apply elem_of_list_In.
  - intros [H _] x Hx. apply H. by apply elem_of_list_In.
Qed.

Lemma exponent_ok_spec l : exponent_ok l = true ↔ exponent l.
Proof.
  unfold exponent_ok, exponent. destruct l as [|c l]; [split; [by left|done]|].
  case_bool_decide as Hc.
  - rewrite all_digits_spec. split.
    + intros [Hd Hne]. right. destruct (drop_sign_inv l) as (s & Hs & Hl).
      exists c, s, (drop_sign l). by rewrite <- Hl.
    + intros [?|(c' & s & d & [= <- ->] & _ & Hs & Hd & Hne)]; [done|].
      rewrite drop_sign_spec; [done|done|]. intros x Hx. apply digit_not_sign.
      destruct d; [done|]. injection Hx as ->. by inversion Hd.
  - split; [done|]. intros [?|(c' & s & d & [= <- ->] & Hc' & _)]; done.
Qed.

Lemma exponent_head e x : exponent e → head e = Some x → is_digit x = false ∧ x ≠ "."%char.
Proof.
  intros [-> |(c & s & d & -> & [-> | ->] & _)]; cbn; [done|..]; intros [= <-]; done.
Qed.

Lemma number_list_spec l : number_list l = true ↔ number l.
Proof.
  unfold number_list, number. split.
  - destruct (drop_sign_inv l) as (s & Hs & Hl). set (m := drop_sign l) in *.
    pose proof (take_drop_while is_digit m) as Hm. pose proof (take_while_all is_digit m) as Hd.
    destruct (drop_while is_digit m) as [|c r] eqn:Er.
    + destruct (take_while is_digit m) as [|d0 ds] eqn:Et; [done|]. intros _.
      exists s, [], [], (d0 :: ds), []. rewrite Hl, <- Hm. split; [done|]. split; [done|].
      split; [constructor|]. split; [by left|]. split; [done|]. split; [done|by left].
    + case_bool_decide as Hc.
      * subst c. pose proof (take_drop_while is_digit r) as Hr. pose proof (take_while_all is_digit r) as Hd2.
        destruct (take_while is_digit r) as [|d0 ds] eqn:Et; [done|]. rewrite exponent_ok_spec. intros He.
        exists s, (take_while is_digit m), ["."%char], (d0 :: ds), (drop_while is_digit r).
        split; [rewrite Hl; f_equal; etrans; [symmetry; exact Hm|]; f_equal; cbn; f_equal; symmetry; exact Hr|].
        split; [done|]. split; [done|]. split; [by right|].
        split; [done|]. done.
      * destruct (take_while is_digit m) as [|d0 ds] eqn:Et; [done|]. rewrite exponent_ok_spec. intros He.
        exists s, [], [], (d0 :: ds), (c :: r). rewrite Hl, <- Hm. split; [done|]. split; [done|].
        split; [constructor|]. split; [by left|]. done.
  - intros (s & i & p & f & e & -> & Hs & Hi & Hp & Hf & Hfne & He).
    assert (∀ x, head (i ++ p ++ f ++ e) = Some x → ¬ (x = "+"%char ∨ x = "-"%char)) as Hh.
    { intros x. destruct i as [|i0 i]; [destruct Hp as [-> | ->]|]; cbn.
      - destruct f as [|f0 f]; [done|]. cbn. intros [= <-]. apply digit_not_sign. by inversion Hf.
      - intros [= <-] [?|?]; done.
      - intros [= <-]. apply digit_not_sign. by inversion Hi. }
    rewrite drop_sign_spec by done. destruct Hp as [-> | ->]; cbn [app].
    + rewrite app_assoc. destruct (take_while_app is_digit (i ++ f) e) as [-> ->].
      { by apply Forall_app. }
      { intros x Hx. by eapply exponent_head. }
      destruct (i ++ f) as [|d0 ds] eqn:Eif; [by apply app_eq_nil in Eif as [_ ->]|].
      destruct e as [|c e]; [done|]. rewrite bool_decide_false; [by apply exponent_ok_spec|].
      by eapply exponent_head in He as [_ ?].
    + destruct (take_while_app is_digit i ("."%char :: f ++ e)) as [-> ->]; [done|by intros x [= <-]|].
      rewrite bool_decide_true by done.
      destruct (take_while_app is_digit f e) as [-> ->]; [done|intros x Hx; by eapply exponent_head|].
      destruct f; [done|]. by apply exponent_ok_spec.
Qed.

Lemma is_number_spec s : is_number s = true ↔ number (chars s).
Proof. apply number_list_spec. Qed.

(** ** The precision *)

Lemma split_on_none sep l : sep ∉ l → split_on sep l = [l].
Proof.
  induction l as [|c l IH]; intros H; cbn; [done|].
  rewrite bool_decide_false by (intros ->; apply H; left). rewrite IH; [done|].
  intros Hin. apply H. by right.
Qed.

Lemma split_on_one sep a b : sep ∉ a → sep ∉ b → split_on sep (a ++ sep :: b) = [a; b].
Proof.
  intros Ha Hb. induction a as [|c a IH]; cbn.
  - rewrite bool_decide_true by done. by rewrite split_on_none.
  - rewrite bool_decide_false by (intros ->; apply Ha; left). rewrite IH; [done|].
    intros Hin. apply Ha. by right.
Qed.

Lemma digits_no_dot l : Forall (λ c, is_digit c = true) l → "."%char ∉ l.
Proof. rewrite Forall_forall. intros H Hin. apply H in Hin. done. Qed.

Lemma has_decimals_app pre l k : has_decimals l k → has_decimals (pre ++ l) k.
Proof.
  intros (p & c & ds & post & -> & H). exists (pre ++ p), c, ds, post. by rewrite <- app_assoc.
Qed.

Lemma number_matches_spec fuel : ∀ l p x d,
  p ∈ number_matches fuel l → split_on "."%char p = [x; d] → has_decimals l (length d).
Proof.
  induction fuel as [|fuel IH]; intros l p x d Hp Hs; [by apply elem_of_nil in Hp|].
  destruct l as [|c r]; [by apply elem_of_nil in Hp|]. cbn [number_matches] in Hp.
  destruct (is_digit c) eqn:Ec.
  - pose proof (take_drop_while is_digit (c :: r)) as Hl. pose proof (take_while_all is_digit (c :: r)) as Hd1.
    pose proof (drop_while_head is_digit (c :: r)) as Hh.
    assert (take_while is_digit (c :: r) ≠ []) as Hne by (cbn; by rewrite Ec).
    destruct (drop_while is_digit (c :: r)) as [|x0 r2] eqn:Er.
    + apply elem_of_list_singleton in Hp as ->. rewrite split_on_none in Hs by (by apply digits_no_dot). done.
    + specialize (Hh x0 eq_refl). pose proof (take_drop_while is_digit r2) as Hr2.
      pose proof (take_while_all is_digit r2) as Hd2.
      destruct (take_while is_digit r2) as [|y ys] eqn:Et.
      * apply elem_of_cons in Hp as [-> |Hp].
        -- rewrite split_on_none in Hs by (by apply digits_no_dot). done.
        -- rewrite <- Hl. apply has_decimals_app. by eapply IH.
      * apply elem_of_cons in Hp as [-> |Hp].
        -- destruct (decide (x0 = "."%char)) as [-> |Hx].
           ++ rewrite split_on_one in Hs by (by apply digits_no_dot). injection Hs as <- <-.
              destruct (take_while is_digit (c :: r)) as [|z zs] eqn:Ez using rev_ind; [done|].
              rewrite <- Hl, <- Hr2. clear IHzs.
              exists zs, z, (y :: ys), (drop_while is_digit r2). rewrite <- app_assoc. split; [done|].
              apply Forall_app in Hd1 as [_ Hz]. split; [by inversion Hz|]. split; [done|].
              split; [done|]. split; [cbn; lia|]. intros u. apply drop_while_head.
           ++ rewrite split_on_none in Hs; [done|]. rewrite elem_of_app, elem_of_cons.
              intros [H|[H|H]]; [exact (digits_no_dot _ Hd1 H)|by apply Hx|exact (digits_no_dot _ Hd2 H)].
        -- rewrite <- Hl, <- Hr2. apply has_decimals_app.
           change (x0 :: (y :: ys) ++ drop_while is_digit r2)
             with ((x0 :: y :: ys) ++ drop_while is_digit r2).
           apply has_decimals_app. by eapply IH.
  - change (c :: r) with ([c] ++ r). apply has_decimals_app. by eapply IH.
Qed.

Lemma line_precision_spec maxl line :
  line_precision maxl line = maxl ∨ has_decimals line (line_precision maxl line).
Proof.
  unfold line_precision. set (g := λ m p, _).
  assert (∀ ps m, (∀ p, p ∈ ps → p ∈ number_matches (length line) line) →
    foldl g m ps = m ∨ has_decimals line (foldl g m ps)) as Hgen; [|by apply Hgen].
  induction ps as [|p ps IH]; intros m Hin; [by left|]. cbn [foldl].
  destruct (IH (g m p)) as [H|H]; [intros; apply Hin; by right| |by right].
  rewrite H. unfold g. destruct (split_on "."%char p) as [|x [|d [|]]] eqn:E; try by left.
  destruct (m <? length d); [|by left]. right. eapply number_matches_spec; [|exact E]. apply Hin. left.
Qed.

Lemma file_precision_spec lines : ∀ count maxl,
  file_precision count maxl lines = maxl ∨
  ∃ line, line ∈ lines ∧ has_decimals line (file_precision count maxl lines).
Proof.
  induction lines as [|line lines IH]; intros count maxl; [by left|]. cbn [file_precision].
  destruct (5 <? count); [by left|].
  assert (∀ count' maxl', (file_precision count' maxl' lines = maxl' ∨
    ∃ l, l ∈ line :: lines ∧ has_decimals l (file_precision count' maxl' lines))) as IH'.
  { intros count' maxl'. destruct (IH count' maxl') as [?|(l & Hl & ?)]; [by left|].
    right. exists l. split; [by right|done]. }
  destruct line as [|c line]; [apply IH'|]. case_bool_decide; [apply IH'|].
  destruct (IH' (S count) (line_precision maxl (c :: line))) as [H1|H1]; [|by right].
  rewrite H1. destruct (line_precision_spec maxl (c :: line)) as [?|?]; [by left|].
  right. exists (c :: line). split; [left|done].
Qed.

Lemma csv_precision_attained lines :
  csv_precision lines = 0 ∨ ∃ line, line ∈ lines ∧ has_decimals (chars line) (csv_precision lines).
Proof.
  unfold csv_precision. destruct (file_precision_spec (map chars lines) 0 0) as [?|(l & Hl & Hd)]; [by left|].
  right. apply elem_of_list_fmap in Hl as (line & -> & Hin). eauto.
Qed.
