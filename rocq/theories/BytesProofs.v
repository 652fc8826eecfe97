(** Lemmas about the byte packing model. *)
From Verif Require Import Prelude BytesModel.
Local Open Scope N_scope.

Lemma pack_byte_spec val s : pack_byte val s = (val / 2^s) mod 256.
Proof.
  unfold pack_byte.
  change 0xFF with (N.ones 8).
  rewrite N.land_ones. change (2^8) with 256.
  rewrite N.shiftr_land, N.shiftr_shiftl_l by lia.
  rewrite N.sub_diag, N.shiftl_0_r.
  rewrite N.land_ones, N.shiftr_div_pow2.
  change (2^8) with 256.
  rewrite N.mod_mod by lia. reflexivity.
Qed.

Lemma pack_u64_eq val :
  pack_u64 val = [pack_byte val 0; pack_byte val 8; pack_byte val 16;
    pack_byte val 24; pack_byte val 32; pack_byte val 40; pack_byte val 48;
    pack_byte val 56].
Proof. reflexivity. Qed.

Lemma pack_u64_length val : length (pack_u64 val) = 8%nat.
Proof. reflexivity. Qed.

Lemma pack_byte_lt val s : pack_byte val s < 256.
Proof. rewrite pack_byte_spec. apply N.mod_lt. lia. Qed.

Lemma pack_u64_bytes val : Forall (λ b, b < 256) (pack_u64 val).
Proof.
  rewrite pack_u64_eq.
  repeat (constructor; [apply pack_byte_lt|]). constructor.
Qed.

Lemma unpack_pack_u64 val : val < 2^64 → unpack_u64 (pack_u64 val) = Ok val.
Proof.
  intros Hv. rewrite pack_u64_eq. unfold unpack_u64. f_equal.
  rewrite !pack_byte_spec.
  change (2^56) with (256*256*256*256*256*256*256).
  change (2^48) with (256*256*256*256*256*256).
  change (2^40) with (256*256*256*256*256).
  change (2^32) with (256*256*256*256).
  change (2^24) with (256*256*256).
  change (2^16) with (256*256).
  change (2^8) with 256. change (2^0) with 1.
  rewrite N.div_1_r. rewrite <- !N.div_div by lia.
  assert (val / 256 / 256 / 256 / 256 / 256 / 256 / 256 < 256) as Hlt.
  { rewrite !N.div_div by lia.
    apply N.div_lt_upper_bound; [lia|]. exact Hv. }
  rewrite (N.mod_small _ 256 Hlt).
  set (q1 := val / 256) in *. set (q2 := q1 / 256) in *.
  set (q3 := q2 / 256) in *. set (q4 := q3 / 256) in *.
  set (q5 := q4 / 256) in *. set (q6 := q5 / 256) in *.
  set (q7 := q6 / 256) in *.
  assert (∀ q, q mod 256 + 256 * (q / 256) = q) as Hdm.
  { intros q. rewrite N.add_comm. symmetry. apply N.div_mod. lia. }
  unfold q7. rewrite Hdm. unfold q6. rewrite Hdm. unfold q5. rewrite Hdm.
  unfold q4. rewrite Hdm. unfold q3. rewrite Hdm. unfold q2. rewrite Hdm.
  unfold q1. rewrite Hdm. reflexivity.
Qed.

Lemma div_mod_cons b r : b < 256 →
  (b + 256 * r) mod 256 = b ∧ (b + 256 * r) / 256 = r.
Proof.
  intros Hb. rewrite (N.mul_comm 256 r). split.
  - rewrite N.mod_add by lia. by apply N.mod_small.
  - rewrite N.div_add by lia. rewrite N.div_small; lia.
Qed.

Lemma pack_unpack_u64 bs :
  length bs = 8%nat → Forall (λ b, b < 256) bs →
  ∃ v, unpack_u64 bs = Ok v ∧ v < 2^64 ∧ pack_u64 v = bs.
Proof.
  intros Hl Hb.
  do 8 (destruct bs as [|? bs]; [discriminate Hl|]).
  destruct bs; [|discriminate Hl].
  repeat match goal with H : Forall _ (_ :: _) |- _ =>
    apply Forall_cons in H; destruct H as [? ?] end.
  eexists. split; [reflexivity|].
  change (2^8) with 256. split.
  { change (2^64) with 18446744073709551616. lia. }
  rewrite pack_u64_eq, !pack_byte_spec.
  change (2^56) with (256*256*256*256*256*256*256).
  change (2^48) with (256*256*256*256*256*256).
  change (2^40) with (256*256*256*256*256).
  change (2^32) with (256*256*256*256).
  change (2^24) with (256*256*256).
  change (2^16) with (256*256).
  change (2^8) with 256. change (2^0) with 1.
  rewrite N.div_1_r. rewrite <- !N.div_div by lia.
  repeat match goal with
  | H : ?b < 256 |- context [(?b + 256 * ?r) / 256] =>
      rewrite (proj2 (div_mod_cons b r H))
  | H : ?b < 256 |- context [(?b + 256 * ?r) mod 256] =>
      rewrite (proj1 (div_mod_cons b r H))
  end.
  rewrite N.mod_small by done. reflexivity.
Qed.

Lemma pack_inline_spec val (buf : list N) :
  (8 ≤ length buf)%nat →
  pack_u64_inline val buf = Ok (pack_u64 val ++ drop 8 buf).
Proof.
  intros Hl. unfold pack_u64_inline.
  destruct (length buf <? 8)%nat eqn:E; [lia|].
  do 8 (destruct buf as [|? buf]; [simpl in *; lia|]).
  reflexivity.
Qed.

Lemma pack_inline_short val (buf : list N) :
  (length buf < 8)%nat → pack_u64_inline val buf = Panic.
Proof.
  intros Hl. unfold pack_u64_inline.
  destruct (length buf <? 8)%nat eqn:E; [done|lia].
Qed.

Lemma pack_u64_inj v w : v < 2^64 → w < 2^64 → pack_u64 v = pack_u64 w → v = w.
Proof.
  intros Hv Hw Heq. pose proof (unpack_pack_u64 v Hv) as H1.
  rewrite Heq, unpack_pack_u64 in H1 by done. congruence.
Qed.

Lemma unpack_u64_spec bs v :
  length bs = 8%nat →
  unpack_u64 bs = Ok v ↔
  v = foldr (λ b acc, b + 256 * acc) 0 bs.
Proof.
  intros Hl.
  do 8 (destruct bs as [|? bs]; [discriminate Hl|]).
  destruct bs; [|discriminate Hl].
  unfold unpack_u64. change (2^8) with 256. cbn [foldr].
  rewrite N.mul_0_r, N.add_0_r.
  split; [intros [= <-]; reflexivity | intros ->; reflexivity].
Qed.

(** ** byteSeqEqual *)

Lemma byte_seq_equal_spec a b : byte_seq_equal a b = true ↔ a = b.
Proof.
  unfold byte_seq_equal.
  revert b. induction a as [|x a IH]; intros [|y b]; simpl; try done.
  destruct (N.eqb_spec x y) as [->|Hne]; simpl.
  - specialize (IH b). simpl in IH.
    destruct (length a =? length b)%nat eqn:E; simpl in *.
    + rewrite IH. split; [by intros ->|by intros [= ->]].
    + split; [done|]. intros [= ->]. rewrite Nat.eqb_refl in E. done.
  - destruct (length a =? length b)%nat; simpl;
      (split; [done| intros [= ??]; done]).
Qed.
