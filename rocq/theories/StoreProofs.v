(** Lemmas about attribute groups. *)
From Verif Require Import Prelude BytesModel AttrModel StoreModel.

(** ** Overwriting a range of a list *)

Definition overwrite {A} (l : list A) (off : nat) (v : list A) : list A :=
  take off l ++ v ++ drop (off + length v) l.

Lemma overwrite_length {A} (l : list A) off v :
  off + length v ≤ length l → length (overwrite l off v) = length l.
Proof.
  intros. unfold overwrite. rewrite !app_length, take_length, drop_length. lia.
Qed.

Lemma overwrite_lookup_in {A} (l : list A) off v i :
  off + length v ≤ length l → off ≤ i < off + length v →
  overwrite l off v !! i = v !! (i - off).
Proof.
  intros. unfold overwrite.
  rewrite lookup_app_r by (rewrite take_length; lia).
  rewrite take_length, Nat.min_l by lia.
  rewrite lookup_app_l by lia. done.
Qed.

Lemma overwrite_lookup_out {A} (l : list A) off v i :
  off + length v ≤ length l → (i < off ∨ off + length v ≤ i) →
  overwrite l off v !! i = l !! i.
Proof.
  intros Hl [Hi|Hi]; unfold overwrite.
  - rewrite lookup_app_l by (rewrite take_length; lia). by apply lookup_take.
  - rewrite lookup_app_r by (rewrite take_length; lia).
    rewrite take_length, Nat.min_l by lia.
    rewrite lookup_app_r by lia. rewrite lookup_drop. f_equal. lia.
Qed.

Lemma overwrite_read_same {A} (l : list A) off v :
  off + length v ≤ length l →
  take (length v) (drop off (overwrite l off v)) = v.
Proof.
  intros Hl. unfold overwrite.
  rewrite drop_app_alt by (rewrite take_length; lia).
  by rewrite take_app.
Qed.

Lemma overwrite_read_other {A} (l : list A) off v off' n :
  off + length v ≤ length l →
  (off' + n ≤ off ∨ off + length v ≤ off') →
  take n (drop off' (overwrite l off v)) = take n (drop off' l).
Proof.
  intros Hl Hd. apply list_eq. intros i.
  destruct (decide (i < n)) as [Hi|Hi].
  - rewrite !lookup_take, !lookup_drop by done.
    apply overwrite_lookup_out; [done|]. lia.
  - rewrite !lookup_take_ge by lia. done.
Qed.

(** ** Fixed groups *)

Lemma cell_index_inj n c c' r r' :
  c < n → c' < n → r * n + c = r' * n + c' → r = r' ∧ c = c'.
Proof.
  intros Hc Hc' He.
  assert (r = r') as ->; [|lia].
  destruct (lt_eq_lt_dec r r') as [[Hlt| ->]|Hlt]; [|done|]; exfalso.
  - assert (S r * n ≤ r' * n) by (apply Nat.mul_le_mono_r; lia). lia.
  - assert (S r' * n ≤ r * n) by (apply Nat.mul_le_mono_r; lia). lia.
Qed.

Lemma cell_ranges_disjoint n size c c' r r' :
  c < n → c' < n → (c, r) ≠ (c', r') →
  (r' * (n * size) + c' * size) + size ≤ r * (n * size) + c * size ∨
  (r * (n * size) + c * size) + size ≤ r' * (n * size) + c' * size.
Proof.
  intros Hc Hc' Hne.
  assert (r * n + c ≠ r' * n + c') as Hk.
  { intros He. apply (cell_index_inj n) in He as [-> ->]; done. }
  replace (r' * (n * size) + c' * size) with ((r' * n + c') * size) by nia.
  replace (r * (n * size) + c * size) with ((r * n + c) * size) by nia.
  revert Hk. generalize (r * n + c) (r' * n + c'). intros k k' Hk.
  assert (k < k' ∨ k' < k) as [Hlt|Hlt] by lia; [right|left].
  - assert (S k * size ≤ k' * size) by (apply Nat.mul_le_mono_r; lia). lia.
  - assert (S k' * size ≤ k * size) by (apply Nat.mul_le_mono_r; lia). lia.
Qed.

Lemma fixed_set_inv g size col row val g' :
  fixed_set g size col row val = Ok g' →
  length val = size ∧
  fixed_offset g size col row + size ≤ length (g_alloc g) ∧
  g' = Group (g_kind g) (g_attrs g)
         (overwrite (g_alloc g) (fixed_offset g size col row) val)
         (bump_maxrow (g_maxrow g) row).
Proof.
  unfold fixed_set. intros H.
  destruct (length val =? size) eqn:E1; cbn [negb] in H; [|done].
  destruct (length (g_alloc g) <? fixed_offset g size col row) eqn:E2; [done|].
  destruct (Nat.min _ _ =? size) eqn:E3 in H; cbn [negb] in H; [|done].
  injection H as <-.
  assert (Nat.min (length val) (length (g_alloc g) - fixed_offset g size col row)
          = length val) as Hm by lia.
  split; [lia|]. split; [lia|].
  rewrite Hm. rewrite (take_ge val) by lia. reflexivity.
Qed.

Lemma fixed_set_ok g size col row val :
  length val = size →
  fixed_offset g size col row + size ≤ length (g_alloc g) →
  fixed_set g size col row val =
  Ok (Group (g_kind g) (g_attrs g)
         (overwrite (g_alloc g) (fixed_offset g size col row) val)
         (bump_maxrow (g_maxrow g) row)).
Proof.
  intros Hl Ho. unfold fixed_set. rewrite Hl, Nat.eqb_refl. cbn [negb].
  destruct (length (g_alloc g) <? fixed_offset g size col row) eqn:E2; [lia|].
  rewrite Nat.min_l by lia. rewrite Nat.eqb_refl. cbn [negb].
  rewrite (take_ge val) by lia. unfold overwrite. by rewrite Hl.
Qed.

Lemma fixed_set_panic g size col row val :
  ¬ (length val = size ∧ fixed_offset g size col row + size ≤ length (g_alloc g)) →
  fixed_set g size col row val = Panic.
Proof.
  intros Hn. unfold fixed_set.
  destruct (length val =? size) eqn:E1; cbn [negb]; [|done].
  destruct (length (g_alloc g) <? fixed_offset g size col row) eqn:E2; [done|].
  destruct (Nat.min _ _ =? size) eqn:E3; cbn [negb]; [|done]. exfalso. apply Hn. lia.
Qed.

Lemma fixed_get_eq g size col row :
  fixed_get g size col row =
  if decide (fixed_offset g size col row + size ≤ length (g_alloc g))
  then Ok (take size (drop (fixed_offset g size col row) (g_alloc g)))
  else Panic.
Proof.
  unfold fixed_get.
  destruct (_ <? _) eqn:E; destruct (decide _); try done; lia.
Qed.

Lemma fixed_offset_same g al mr size col row :
  fixed_offset (Group (g_kind g) (g_attrs g) al mr) size col row
  = fixed_offset g size col row.
Proof. reflexivity. Qed.

Lemma byte_offset_same g al mr col row :
  byte_offset (Group (g_kind g) (g_attrs g) al mr) col row = byte_offset g col row.
Proof. reflexivity. Qed.

Lemma fixed_set_get g size col row val g' :
  fixed_set g size col row val = Ok g' →
  fixed_get g' size col row = Ok val.
Proof.
  intros H. apply fixed_set_inv in H as (Hl & Ho & ->).
  rewrite fixed_get_eq, fixed_offset_same. cbn [g_alloc].
  rewrite overwrite_length by lia.
  rewrite decide_True by done.
  rewrite <-Hl at 1. rewrite overwrite_read_same by lia. done.
Qed.

Lemma fixed_set_frame g size col row val g' col' row' :
  g_kind g = GFixed size →
  col < length (g_attrs g) → col' < length (g_attrs g) →
  (col', row') ≠ (col, row) →
  fixed_set g size col row val = Ok g' →
  fixed_get g' size col' row' = fixed_get g size col' row'.
Proof.
  intros Hk Hc Hc' Hne H. apply fixed_set_inv in H as (Hl & Ho & ->).
  rewrite !fixed_get_eq, fixed_offset_same. cbn [g_alloc].
  rewrite overwrite_length by lia.
  destruct (decide _) as [Hd|Hd]; [|done]. f_equal.
  apply overwrite_read_other; [lia|].
  unfold fixed_offset, row_size. rewrite Hk.
  pose proof (cell_ranges_disjoint (length (g_attrs g)) size col' col row' row
    Hc' Hc Hne). lia.
Qed.

(** ** Bit groups *)

Lemma bit_mask_testbit col i :
  N.testbit (bit_mask col) i = bool_decide (i = N.of_nat (col mod 8)).
Proof.
  unfold bit_mask.
  destruct (decide (i = N.of_nat (col mod 8))) as [->|Hne].
  - rewrite N.shiftl_spec_high' by lia. rewrite N.sub_diag.
    rewrite bool_decide_eq_true_2; done.
  - rewrite bool_decide_eq_false_2 by done.
    destruct (decide (i < N.of_nat (col mod 8))%N).
    + by rewrite N.shiftl_spec_low.
    + rewrite N.shiftl_spec_high' by lia.
      destruct (i - N.of_nat (col mod 8))%N eqn:E; [lia|].
      simpl. destruct p; done.
Qed.

Lemma land_mask_pos b col :
  (0 <? N.land b (bit_mask col))%N = N.testbit b (N.of_nat (col mod 8)).
Proof.
  destruct (N.testbit b (N.of_nat (col mod 8))) eqn:E.
  - apply N.ltb_lt. apply N.neq_0_lt_0. intros H0.
    assert (N.testbit (N.land b (bit_mask col)) (N.of_nat (col mod 8)) = true) as Ht.
    { rewrite N.land_spec, E, bit_mask_testbit, bool_decide_eq_true_2; done. }
    rewrite H0 in Ht. by rewrite N.bits_0 in Ht.
  - apply N.ltb_ge. apply N.le_0_r. apply N.bits_inj_0. intros i.
    rewrite N.land_spec, bit_mask_testbit.
    case_bool_decide; subst; [by rewrite E|]. by rewrite andb_false_r.
Qed.

Lemma bit_get_eq g col row :
  bit_get g col row =
  match g_alloc g !! byte_offset g col row with
  | Some b => Ok (if N.testbit b (N.of_nat (col mod 8)) then [1%N] else [0%N])
  | None => Panic
  end.
Proof.
  unfold bit_get, idx. destruct (g_alloc g !! _) as [b|]; [|done].
  simpl. by rewrite land_mask_pos.
Qed.

Lemma byte_ff_testbit i : (i < 8)%N → N.testbit 0xFF i = true.
Proof. intros. change 0xFF%N with (N.ones 8). by apply N.ones_spec_low. Qed.

Lemma bit_set_cons g col row v vs :
  bit_set g col row (v :: vs) =
  match g_alloc g !! byte_offset g col row with
  | Some old =>
      Ok (Group (g_kind g) (g_attrs g)
           (<[byte_offset g col row :=
                if (0 <? v)%N then N.lor old (bit_mask col)
                else N.land old (N.lxor (bit_mask col) 0xFF)]> (g_alloc g))
           (bump_maxrow (g_maxrow g) row))
  | None => Panic
  end.
Proof. unfold bit_set, idx. by destruct (g_alloc g !! _). Qed.

Lemma bit_set_inv g col row val g' :
  bit_set g col row val = Ok g' →
  ∃ v vs old, val = v :: vs ∧ g_alloc g !! byte_offset g col row = Some old ∧
  ∃ new, g' = Group (g_kind g) (g_attrs g)
                (<[byte_offset g col row := new]> (g_alloc g))
                (bump_maxrow (g_maxrow g) row) ∧
    (∀ i, (i < 8)%N → N.testbit new i =
       if decide (i = N.of_nat (col mod 8)) then (0 <? v)%N else N.testbit old i).
Proof.
  intros H. destruct val as [|v vs]; [done|]. rewrite bit_set_cons in H.
  destruct (g_alloc g !! byte_offset g col row) as [old|] eqn:Eo; [|done].
  exists v, vs, old. split; [done|]. split; [done|].
  exists (if (0 <? v)%N then N.lor old (bit_mask col)
                else N.land old (N.lxor (bit_mask col) 0xFF)).
  split; [by inversion H|]. clear H. intros i Hi.
  destruct (0 <? v)%N.
  - rewrite N.lor_spec, bit_mask_testbit.
    destruct (decide _); case_bool_decide; try done.
    + by rewrite orb_true_r.
    + by rewrite orb_false_r.
  - rewrite N.land_spec, N.lxor_spec, bit_mask_testbit, byte_ff_testbit by done.
    destruct (decide _); case_bool_decide; try done; simpl.
    + by rewrite andb_false_r.
    + by rewrite andb_true_r.
Qed.

Lemma bit_set_ok g col row v vs :
  byte_offset g col row < length (g_alloc g) →
  ∃ g', bit_set g col row (v :: vs) = Ok g'.
Proof.
  intros Hl. rewrite bit_set_cons.
  destruct (lookup_lt_is_Some_2 _ _ Hl) as [old ->]. eauto.
Qed.

Lemma bit_set_panic g col row val :
  val = [] ∨ length (g_alloc g) ≤ byte_offset g col row →
  bit_set g col row val = Panic.
Proof.
  intros H. destruct val as [|v vs]; [done|]. rewrite bit_set_cons.
  destruct H as [?|H]; [done|]. by rewrite lookup_ge_None_2.
Qed.

Lemma col_mod_lt col : (N.of_nat (col mod 8) < 8)%N.
Proof. pose proof (Nat.mod_upper_bound col 8). lia. Qed.

Lemma bit_set_get g col row val g' :
  bit_set g col row val = Ok g' →
  bit_get g' col row =
  Ok (match val with v :: _ => if (0 <? v)%N then [1%N] else [0%N] | [] => [] end).
Proof.
  intros H. apply bit_set_inv in H as (v & vs & old & -> & Ho & new & -> & Hb).
  rewrite bit_get_eq, byte_offset_same. cbn [g_alloc].
  rewrite list_lookup_insert by by eapply lookup_lt_Some.
  rewrite Hb by apply col_mod_lt. by rewrite decide_True.
Qed.

Lemma byte_offset_inj n c c' r r' :
  c < n → c' < n →
  r * ((n + 7) / 8) + c / 8 = r' * ((n + 7) / 8) + c' / 8 →
  c mod 8 = c' mod 8 → r = r' ∧ c = c'.
Proof.
  intros Hc Hc' Ho Hm.
  assert (c / 8 < (n + 7) / 8) as H1.
  { apply Nat.div_le_lower_bound; [lia|].
    pose proof (Nat.mul_div_le c 8). lia. }
  assert (c' / 8 < (n + 7) / 8) as H2.
  { apply Nat.div_le_lower_bound; [lia|].
    pose proof (Nat.mul_div_le c' 8). lia. }
  destruct (cell_index_inj ((n+7)/8) (c/8) (c'/8) r r' H1 H2 Ho) as [-> Hd].
  split; [done|].
  rewrite (Nat.div_mod c 8), (Nat.div_mod c' 8) by lia. lia.
Qed.

Lemma bit_set_frame g col row val g' col' row' :
  g_kind g = GBits →
  col < length (g_attrs g) → col' < length (g_attrs g) →
  (col', row') ≠ (col, row) →
  bit_set g col row val = Ok g' →
  bit_get g' col' row' = bit_get g col' row'.
Proof.
  intros Hk Hc Hc' Hne H.
  apply bit_set_inv in H as (v & vs & old & -> & Ho & new & -> & Hb).
  rewrite !bit_get_eq, byte_offset_same. cbn [g_alloc].
  destruct (decide (byte_offset g col row = byte_offset g col' row')) as [He|He].
  - rewrite <- He, list_lookup_insert by by eapply lookup_lt_Some.
    rewrite Ho. rewrite Hb by apply col_mod_lt.
    destruct (decide _) as [Hm|Hm]; [|done].
    exfalso. apply Hne. unfold byte_offset, row_size in He. rewrite Hk in He.
    destruct (byte_offset_inj (length (g_attrs g)) col col' row row');
      try done; [lia|]. by subst.
  - by rewrite list_lookup_insert_ne by done.
Qed.

(** ** Any group *)

(** What a cell of this group holds after writing [val]. *)
Definition stored (k : gkind) (val : list N) : list N :=
  match k with
  | GFixed _ => val
  | GBits => match val with v :: _ => if (0 <? v)%N then [1%N] else [0%N] | [] => [] end
  end.

Lemma group_set_kind g col row val g' :
  group_set g col row val = Ok g' →
  g_kind g' = g_kind g ∧ g_attrs g' = g_attrs g ∧
  length (g_alloc g') = length (g_alloc g).
Proof.
  unfold group_set. destruct (g_kind g) eqn:Hk; intros H.
  - apply fixed_set_inv in H as (Hl & Ho & ->). simpl.
    rewrite overwrite_length by lia. done.
  - apply bit_set_inv in H as (v & vs & old & -> & Ho & new & -> & Hb).
    simpl. by rewrite insert_length.
Qed.

Lemma group_set_get g col row val g' :
  group_set g col row val = Ok g' →
  group_get g' col row = Ok (stored (g_kind g) val).
Proof.
  intros H. pose proof (group_set_kind _ _ _ _ _ H) as (Hk & _).
  unfold group_get, group_set in *. rewrite Hk. destruct (g_kind g) eqn:Hkg.
  - by eapply fixed_set_get.
  - by eapply bit_set_get.
Qed.

Lemma group_set_frame g col row val g' col' row' :
  col < length (g_attrs g) → col' < length (g_attrs g) →
  (col', row') ≠ (col, row) →
  group_set g col row val = Ok g' →
  group_get g' col' row' = group_get g col' row'.
Proof.
  intros Hc Hc' Hne H. pose proof (group_set_kind _ _ _ _ _ H) as (Hk & _).
  unfold group_get, group_set in *. rewrite Hk. destruct (g_kind g) eqn:Hkg.
  - by eapply (fixed_set_frame g size col row val).
  - by eapply (bit_set_frame g col row val).
Qed.

(** A value the group accepts for one cell. *)
Definition fits (k : gkind) (val : list N) : Prop :=
  match k with GFixed size => length val = size | GBits => val ≠ [] end.

Definition group_rows_ok (g : group) (rows : nat) : Prop :=
  length (g_alloc g) = rows * row_size g.

Lemma fixed_offset_bound g size col row rows :
  g_kind g = GFixed size → col < length (g_attrs g) → row < rows →
  fixed_offset g size col row + size ≤ rows * row_size g.
Proof.
  intros Hk Hc Hr. unfold fixed_offset, row_size. rewrite Hk.
  set (n := length (g_attrs g)) in *.
  assert (S row * (n * size) ≤ rows * (n * size)) by (apply Nat.mul_le_mono_r; lia).
  assert (S col * size ≤ n * size) by (apply Nat.mul_le_mono_r; lia). lia.
Qed.

Lemma byte_offset_bound g col row rows :
  g_kind g = GBits → col < length (g_attrs g) → row < rows →
  byte_offset g col row < rows * row_size g.
Proof.
  intros Hk Hc Hr. unfold byte_offset, row_size. rewrite Hk.
  assert (col / 8 < (length (g_attrs g) + 7) / 8).
  { apply Nat.div_le_lower_bound; [lia|].
    pose proof (Nat.mul_div_le col 8). lia. }
  set (rs := (length (g_attrs g) + 7) / 8) in *.
  assert (S row * rs ≤ rows * rs) by (apply Nat.mul_le_mono_r; lia). lia.
Qed.

Lemma group_set_ok g rows col row val :
  group_rows_ok g rows → col < length (g_attrs g) → row < rows →
  fits (g_kind g) val →
  ∃ g', group_set g col row val = Ok g'.
Proof.
  intros Hg Hc Hr Hf. unfold group_set, group_rows_ok in *.
  destruct (g_kind g) eqn:Hk.
  - eexists. apply fixed_set_ok; [done|].
    rewrite Hg. by apply fixed_offset_bound.
  - simpl in Hf. destruct val as [|v vs]; [done|]. apply bit_set_ok.
    rewrite Hg. by apply byte_offset_bound.
Qed.

Lemma group_get_ok g rows col row :
  group_rows_ok g rows → col < length (g_attrs g) → row < rows →
  ∃ v, group_get g col row = Ok v.
Proof.
  intros Hg Hc Hr. unfold group_get, group_rows_ok in *.
  destruct (g_kind g) eqn:Hk.
  - rewrite fixed_get_eq. rewrite decide_True; [eauto|].
    rewrite Hg. by apply fixed_offset_bound.
  - rewrite bit_get_eq.
    destruct (lookup_lt_is_Some_2 (g_alloc g) (byte_offset g col row)) as [b ->].
    + rewrite Hg. by apply byte_offset_bound.
    + eauto.
Qed.

(** The zero value of a cell. *)
Definition zero_cell (k : gkind) : list N :=
  match k with GFixed size => replicate size 0%N | GBits => [0%N] end.

Lemma group_resize_old g rows add col row :
  group_rows_ok g rows → col < length (g_attrs g) → row < rows →
  group_get (group_resize g add) col row = group_get g col row.
Proof.
  intros Hg Hc Hr. unfold group_get, group_rows_ok in *. simpl.
  destruct (g_kind g) eqn:Hk.
  - pose proof (fixed_offset_bound g size col row rows Hk Hc Hr) as Hb.
    rewrite !fixed_get_eq. unfold group_resize. rewrite fixed_offset_same.
    cbn [g_alloc]. rewrite app_length.
    rewrite !decide_True by lia. f_equal.
    rewrite drop_app_le by lia. rewrite take_app_le; [done|].
    rewrite drop_length. lia.
  - pose proof (byte_offset_bound g col row rows Hk Hc Hr) as Hb.
    rewrite !bit_get_eq. unfold group_resize. rewrite byte_offset_same.
    cbn [g_alloc]. by rewrite lookup_app_l by lia.
Qed.

Lemma group_resize_new g rows n col row :
  group_rows_ok g rows → col < length (g_attrs g) → rows ≤ row < rows + n →
  group_get (group_resize g (n * row_size g)) col row = Ok (zero_cell (g_kind g)).
Proof.
  intros Hg Hc Hr. unfold group_get, group_rows_ok in *. simpl.
  destruct (g_kind g) eqn:Hk.
  - pose proof (fixed_offset_bound g size col row (rows + n) Hk Hc ltac:(lia)) as Hb.
    assert (rows * row_size g ≤ fixed_offset g size col row) as Hge
      by (unfold fixed_offset; pose proof (Nat.mul_le_mono_r rows row (row_size g)); lia).
    rewrite !fixed_get_eq. unfold group_resize. rewrite fixed_offset_same.
    cbn [g_alloc]. rewrite app_length, replicate_length.
    rewrite !decide_True by lia. f_equal.
    apply list_eq. intros i. destruct (decide (i < size)) as [Hi|Hi].
    + rewrite lookup_take, lookup_drop by done.
      rewrite lookup_app_r by lia. rewrite lookup_replicate_2 by lia. cbn [zero_cell]. by rewrite lookup_replicate_2.
    + rewrite lookup_take_ge by lia.
      symmetry. apply lookup_ge_None_2. cbn [zero_cell]. rewrite replicate_length. lia.
  - pose proof (byte_offset_bound g col row (rows + n) Hk Hc ltac:(lia)) as Hb.
    assert (rows * row_size g ≤ byte_offset g col row) as Hge
      by (unfold byte_offset; pose proof (Nat.mul_le_mono_r rows row (row_size g)); lia).
    rewrite !bit_get_eq. unfold group_resize. rewrite byte_offset_same.
    cbn [g_alloc]. rewrite lookup_app_r by lia.
    rewrite lookup_replicate_2 by lia. done.
Qed.

Lemma group_resize_rows g rows n :
  group_rows_ok g rows → group_rows_ok (group_resize g (n * row_size g)) (rows + n).
Proof.
  unfold group_rows_ok. intros Hg. simpl. rewrite app_length, replicate_length, Hg.
  unfold row_size. simpl. nia.
Qed.

(** Exactly the in-range writes of the right size succeed. *)
Lemma group_set_row_lt g rows col row val g' :
  group_rows_ok g rows → col < length (g_attrs g) →
  g_kind g ≠ GFixed 0 →
  group_set g col row val = Ok g' → row < rows.
Proof.
  intros Hg Hc Hk0 H. unfold group_set, group_rows_ok in *.
  destruct (g_kind g) as [size|] eqn:Hk.
  - apply fixed_set_inv in H as (Hl & Ho & _). rewrite Hg in Ho.
    unfold fixed_offset, row_size in Ho. rewrite Hk in Ho.
    set (n := length (g_attrs g)) in *.
    destruct (decide (row < rows)); [done|]. exfalso.
    assert (rows * (n * size) ≤ row * (n * size)) by (apply Nat.mul_le_mono_r; lia).
    assert (size ≠ 0) by congruence. nia.
  - apply bit_set_inv in H as (v & vs & old & -> & Ho & _).
    apply lookup_lt_Some in Ho. rewrite Hg in Ho.
    unfold byte_offset, row_size in Ho. rewrite Hk in Ho.
    set (rs := (length (g_attrs g) + 7) / 8) in *.
    destruct (decide (row < rows)); [done|]. exfalso.
    assert (rows * rs ≤ row * rs) by (apply Nat.mul_le_mono_r; lia).
    lia.
Qed.

Lemma group_set_fits g col row val g' :
  group_set g col row val = Ok g' → fits (g_kind g) val.
Proof.
  unfold group_set. destruct (g_kind g) eqn:Hk; intros H; simpl.
  - apply fixed_set_inv in H. naive_solver.
  - apply bit_set_inv in H as (v & vs & old & -> & _). done.
Qed.

Lemma group_set_no_err g col row val : group_set g col row val ≠ Err.
Proof.
  intros E. unfold group_set, fixed_set, bit_set, idx in E.
  destruct (g_kind g).
  - repeat case_match; done.
  - destruct val; simpl in E; [done|]. repeat case_match; done.
Qed.

Lemma group_set_panics g rows col row val :
  group_rows_ok g rows → col < length (g_attrs g) → g_kind g ≠ GFixed 0 →
  (rows ≤ row ∨ ¬ fits (g_kind g) val) → group_set g col row val = Panic.
Proof.
  intros Hg Hc Hk Hbad.
  destruct (group_set g col row val) as [g'| |] eqn:E; [|by apply group_set_no_err in E|done].
  exfalso. destruct Hbad as [Hge|Hsz].
  - assert (row < rows) by by eapply group_set_row_lt. lia.
  - by apply Hsz, group_set_fits in E || apply Hsz; eapply group_set_fits.
Qed.

Lemma fixed_set_succeeds size g rows col row val :
  g_kind g = GFixed size → 0 < size →
  length (g_alloc g) = rows * (length (g_attrs g) * size) →
  col < length (g_attrs g) →
  (length val = size ∧ row < rows → ∃ g', group_set g col row val = Ok g') ∧
  (length val ≠ size ∨ rows ≤ row → group_set g col row val = Panic).
Proof.
  intros Hk Hs Hl Hc.
  assert (group_rows_ok g rows) as Hg by (unfold group_rows_ok, row_size; by rewrite Hk).
  split.
  - intros [Hv Hr]. eapply group_set_ok; [done..|]. by rewrite Hk.
  - intros Hbad. apply (group_set_panics g rows); [done|done| |].
    + rewrite Hk. intros [= ->]. lia.
    + rewrite Hk. simpl. tauto.
Qed.

Lemma bit_set_succeeds g rows col row val :
  g_kind g = GBits →
  length (g_alloc g) = rows * ((length (g_attrs g) + 7) / 8) →
  col < length (g_attrs g) →
  (val ≠ [] ∧ row < rows → ∃ g', group_set g col row val = Ok g') ∧
  (val = [] ∨ rows ≤ row → group_set g col row val = Panic).
Proof.
  intros Hk Hl Hc.
  assert (group_rows_ok g rows) as Hg by (unfold group_rows_ok, row_size; by rewrite Hk).
  split.
  - intros [Hv Hr]. eapply group_set_ok; [done..|]. by rewrite Hk.
  - intros Hbad. apply (group_set_panics g rows); [done|done|by rewrite Hk|].
    rewrite Hk. simpl. destruct Hbad as [->|]; [right; tauto|tauto].
Qed.
