(** Concrete texts of floats and bytes that satisfy the assumptions made about
    encoding/json, strconv and encoding/base64. *)
From Coq Require Import Ascii.
From Verif Require Import Prelude BytesModel SerModel SerSpec Id3Model SaveModel SaveSpec SaveProofs
  SaveTrees SaveOthers SaveBag.
From Flocq Require Import IEEE754.Bits IEEE754.Binary.
From stdpp Require Import pretty countable.
Local Open Scope nat_scope.

Definition toy_fmt (f : binary64) : string :=
  if (bits_of_b64 f =? 0)%Z then "0" else "0." +:+ pretty (Z.to_N (bits_of_b64 f)).
Definition toy_parse (s : string) : option binary64 :=
  match s with
  | "0" => Some (b64_of_bits 0)
  | String _ (String _ s) =>
      match read_digits s 0 with Some v => Some (b64_of_bits (Z.of_N v)) | None => None end
  | _ => None
  end.

Lemma digits_after s : ∀ v u, read_digits s v = Some u →
  after_digits (String.list_ascii_of_string s) = [] ∧
  match String.list_ascii_of_string s with c :: _ => digit c = true | [] => True end.
Proof.
  induction s as [|c s IH]; intros v u H; [done|]. cbn [read_digits] in H.
  destruct (_ && _) eqn:E in H; [|done]. cbn [String.list_ascii_of_string after_digits].
  change (digit c = true) in E. rewrite E. split; [|done]. by destruct (IH _ _ H).
Qed.

Lemma fraction_digits s v u : s ≠ "" → read_digits s v = Some u → number ("0." +:+ s) = true.
Proof.
  intros Hs H. destruct (digits_after s v u H) as [H1 H2].
  change (digits_then (String.list_ascii_of_string s) exponent = true).
  destruct (String.list_ascii_of_string s) as [|c l] eqn:E.
  - destruct s; [done|discriminate E].
  - cbn [digits_then]. by rewrite H2, H1.
Qed.

Lemma pretty_nonempty (v : N) : pretty v ≠ "".
Proof.
  intros E. pose proof (read_digits_pretty v) as H. rewrite E in H. cbn in H.
  injection H as <-. discriminate E.
Qed.

Lemma bits_back f : b64_of_bits (bits_of_b64 f) = f.
Proof. exact (binary_float_of_bits_of_binary_float 52 11 eq_refl eq_refl eq_refl f). Qed.

Lemma bits_nonneg f : (0 <= bits_of_b64 f)%Z.
Proof. exact (proj1 (bits_of_binary_float_range 52 11 eq_refl eq_refl f)). Qed.

Lemma toy_floats : float_text toy_fmt toy_parse.
Proof.
  split.
  - intros f _. unfold toy_fmt. destruct (Z.eqb _ 0); [reflexivity|].
    eapply fraction_digits; [apply pretty_nonempty|apply read_digits_pretty].
  - intros f _. unfold toy_fmt. destruct (Z.eqb _ 0) eqn:E.
    + apply Z.eqb_eq in E. cbn [toy_parse]. by rewrite <- E, bits_back.
    + change (toy_parse ("0." +:+ pretty (Z.to_N (bits_of_b64 f)))) with
        (match read_digits (pretty (Z.to_N (bits_of_b64 f))) 0 with
         | Some v => Some (b64_of_bits (Z.of_N v)) | None => None end).
      rewrite read_digits_pretty, Z2N.id by apply bits_nonneg. by rewrite bits_back.
  - reflexivity.
Qed.

Definition toy_b64 (l : list N) : string := pretty (N.pos (encode l)).
Definition toy_unb64 (s : string) : option (list N) :=
  match read_digits s 0 with Some (N.pos p) => decode p | _ => None end.

Lemma toy_base64 : base64_text toy_b64 toy_unb64.
Proof.
  intros l _. split.
  - eapply digits_text, read_digits_pretty.
  - unfold toy_unb64, toy_b64. rewrite read_digits_pretty. apply decode_encode.
Qed.
