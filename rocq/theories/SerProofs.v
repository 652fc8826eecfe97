(** Proofs about serialisation. *)
From Verif Require Import Prelude BytesModel BytesProofs AttrModel AttrSpec AttrProofs StoreModel
  DenseModel DenseSpec DenseProofs GridModel GridSpec GridProofs CsvModel CsvProofs TableProofs
  SerModel SerSpec.
From stdpp Require Import pretty.
Local Open Scope nat_scope.

(** ** Attributes *)

Lemma text_attr : is_text "attr". Proof. done. Qed.
Lemma text_name : is_text "name". Proof. done. Qed.
Lemma text_type : is_text "type". Proof. done. Qed.

Lemma attr_json_sendable h : attr_sendable h.1 → sendable (attr_json h).
Proof.
  destruct h as [a b]. unfold attr_json. cbn [fst snd].
  destruct a as [n p|n vs|n]; cbn [attr_sendable].
  - intros [Hn Hp]. repeat constructor; try done.
  - intros [Hn Hvs]. constructor. constructor; [|repeat constructor; done].
    split; [done|]. cbn [snd]. constructor. constructor; [|constructor]. split; [done|]. cbn [snd].
    assert (sendable (JArr (map JStr vs))) as Hs.
    { constructor. apply Forall_fmap. eapply Forall_impl; [exact Hvs|]. intros x Hx. by constructor. }
    destruct vs; [|done]. destruct b; [constructor|done].
  - intros Hn. repeat constructor; done.
Qed.

Lemma json_strings_map vs : json_strings (map JStr vs) = Ok vs.
Proof. induction vs as [|v vs IH]; cbn [map json_strings]; [done|]. by rewrite IH. Qed.

Lemma json_attr_json a b :
  has_slice (a, b) →
  json_attr (attr_json (a, b)) =
  Ok (a, match a with CatA _ vs => bool_decide (vs = []) | _ => false end).
Proof.
  destruct a as [n p|n vs|n]; intros Hs; [reflexivity| |reflexivity].
  unfold attr_json. cbn [fst snd].
  set (v := match vs with [] => if b then JNull else JArr [] | _ => JArr (map JStr vs) end).
  assert (v = JArr (map JStr vs)) as ->.
  { unfold v. destruct vs; [|done]. cbn in Hs. by rewrite Hs. }
  clear Hs.
  transitivity (vs0 ← json_strings (map JStr vs); Ok (CatA n vs0, bool_decide (vs0 = [])));
    [reflexivity|]. by rewrite json_strings_map.
Qed.

Section codec.
  Variable marshal : json → list N.
  Variable unmarshal : list N → option json.
  Hypothesis faithful : json_faithful marshal unmarshal.

  Lemma attribute_round_trip a b :
    attr_sendable a → has_slice (a, b) →
    deserialize_attribute unmarshal (serialize_attribute marshal (a, b)) =
    Ok (a, match a with CatA _ vs => bool_decide (vs = []) | _ => false end).
  Proof using faithful.
    intros Ha Hs. unfold deserialize_attribute, serialize_attribute.
    rewrite faithful by (by apply attr_json_sendable). by apply json_attr_json.
  Qed.

  Lemma attributes_round_trip l :
    (∀ h, h ∈ l → attr_sendable h.1 ∧ has_slice h) →
    ∃ l', deserialize_attributes unmarshal (marshal (JArr (map attr_json l))) = Ok l' ∧
      map fst l' = map fst l.
  Proof using faithful.
    intros Hl. unfold deserialize_attributes. rewrite faithful.
    2:{ constructor. apply Forall_fmap, Forall_forall. intros h Hh. apply attr_json_sendable.
        by apply Hl. }
    induction l as [|[a b] l IH]; cbn [map res_mapM]; [by exists []|].
    destruct IH as (l' & Hl' & Hf); [intros; apply Hl; by right|].
    destruct (Hl (a, b)) as [Ha Hs]; [left|].
    rewrite (json_attr_json a b Hs), Hl'. cbn [mbind res_bind]. eexists. split; [done|].
    cbn. by f_equal.
  Qed.
End codec.

Lemma attribute_again marshal unmarshal name :
  json_faithful marshal unmarshal → is_text name →
  deserialize_attribute unmarshal (serialize_attribute marshal (CatA name [], true)) = Panic.
Proof.
  intros Hf Hn. unfold deserialize_attribute, serialize_attribute.
  rewrite Hf; [done|]. apply attr_json_sendable. cbn. split; [done|constructor].
Qed.

(** ** Writing archives *)

Lemma flushed_new : flushed tar_new []. Proof. done. Qed.

Lemma flushed_try w ar : flushed w ar → flushed (tar_try_flush w) ar.
Proof. unfold flushed. intros H. unfold tar_try_flush. by rewrite H. Qed.

Lemma header_flushed w ar name n :
  flushed w ar → tar_header w name n = Ok (TarW ar (Some (name, n, []))).
Proof. intros H. unfold tar_header. by rewrite H. Qed.

Lemma write_owed ar name n sofar b :
  length b ≤ n →
  tar_write (TarW ar (Some (name, n, sofar))) b =
  Ok (TarW ar (Some (name, n - length b, sofar ++ b))).
Proof.
  intros H. unfold tar_write. cbn [tw_cur tw_done]. by rewrite (proj2 (Nat.leb_le _ _) H).
Qed.

Lemma flushed_entry ar name b : flushed (TarW ar (Some (name, 0, b))) (ar ++ [(name, b)]).
Proof. done. Qed.

(** One entry written in one go. *)
Lemma entry_written w ar name b :
  flushed w ar →
  ∃ w1 w2, tar_header w name (length b) = Ok w1 ∧ tar_write w1 b = Ok w2 ∧
    flushed w2 (ar ++ [(name, b)]).
Proof.
  intros H. eexists _, _. split; [by apply header_flushed|].
  split; [apply write_owed; lia|]. rewrite Nat.sub_diag. apply flushed_entry.
Qed.

Lemma write_bytes_flushed w ar k b :
  flushed w ar → ∃ w', write_bytes w k b = Ok w' ∧ flushed w' (ar ++ [(k, b)]).
Proof.
  intros H. destruct (entry_written w ar k b H) as (w1 & w2 & H1 & H2 & H3).
  unfold write_bytes. rewrite H1. cbn [mbind res_bind]. rewrite H2. cbn [mbind res_bind].
  eexists. split; [done|]. by apply flushed_try.
Qed.

(** ** Reading archives *)

Lemma get_named_app_l ar ar' k b :
  get_named_file ar k = Ok b → get_named_file (ar ++ ar') k = Ok b.
Proof.
  induction ar as [|[n c] ar IH]; cbn [get_named_file app]; [done|].
  case_bool_decide; [done|]. apply IH.
Qed.

Lemma get_named_app_r ar ar' k :
  k ∉ map fst ar → get_named_file (ar ++ ar') k = get_named_file ar' k.
Proof.
  induction ar as [|[n c] ar IH]; cbn [get_named_file app map]; intros H; [done|].
  rewrite bool_decide_eq_false_2.
  - apply IH. intros Hk. apply H. by right.
  - intros ->. apply H. left.
Qed.

Lemma get_named_absent ar k : k ∉ map fst ar → get_named_file ar k = Err.
Proof. intros H. rewrite <- (app_nil_r ar), get_named_app_r by done. done. Qed.

Lemma get_named_here k b ar : get_named_file ((k, b) :: ar) k = Ok b.
Proof. cbn [get_named_file]. by rewrite bool_decide_eq_true_2. Qed.

Lemma get_named_next n b ar k : n ≠ k → get_named_file ((n, b) :: ar) k = get_named_file ar k.
Proof. intros H. cbn [get_named_file]. by rewrite bool_decide_eq_false_2. Qed.

(** ** Sequences of writes *)

Lemma pretty_go_ne_A x s s' : s ≠ "A" +:+ s' → pretty_N_go x s ≠ "A" +:+ s'.
Proof.
  revert s. induction (N.lt_wf_0 x) as [x _ IH]; intros s Hs.
  assert (x = 0 ∨ 0 < x)%N as [->|Hx] by lia; [by rewrite pretty_N_go_0|].
  rewrite pretty_N_go_step by done. apply IH; [by apply N.div_lt|].
  unfold pretty_N_char. by repeat case_match.
Qed.

Lemma pretty_ne_count (i : nat) : pretty i ≠ "ATTR_COUNT".
Proof.
  unfold pretty, pretty_nat, pretty, pretty_N. case_decide; [done|].
  by apply (pretty_go_ne_A _ "" "TTR_COUNT").
Qed.

Lemma tar_prefix_inj k x y : tar_prefix k x = tar_prefix k y → x = y.
Proof.
  unfold tar_prefix. case_bool_decide; [done|]. intros E.
  by apply (inj (String.append k)), (inj (String.append "/")) in E.
Qed.

(** ** Writing instances *)

(** The last entry of [w] still owes [owed] bytes. *)
Definition pending (w : tarw) (ar : archive) (name : string) (owed : nat) (sofar : list N) : Prop :=
  w = TarW ar (Some (name, owed, sofar)) ∨
  (owed = 0 ∧ w = TarW (ar ++ [(name, sofar)]) None).

Lemma pending_write w ar name owed sofar b :
  pending w ar name owed sofar → length b ≤ owed →
  ∃ w', tar_write w b = Ok w' ∧ pending w' ar name (owed - length b) (sofar ++ b).
Proof.
  intros [->|[-> ->]] Hb.
  - eexists. split; [by apply write_owed|]. by left.
  - assert (b = []) as -> by (apply nil_length_inv; lia). eexists. split; [done|].
    right. by rewrite app_nil_r.
Qed.

Lemma pending_try w ar name owed sofar :
  pending w ar name owed sofar → pending (tar_try_flush w) ar name owed sofar.
Proof.
  intros [->|[-> ->]].
  - destruct owed; [right; done|left; done].
  - right. done.
Qed.

Lemma pending_flushed w ar name sofar :
  pending w ar name 0 sofar → flushed w (ar ++ [(name, sofar)]).
Proof. by intros [->|[_ ->]]. Qed.

Lemma row_length_concat row : row_length row = length (concat row).
Proof.
  unfold row_length. induction row as [|v row IH]; cbn; [done|]. rewrite app_length. lia.
Qed.

Lemma write_row_pending row : ∀ w ar name owed sofar,
  pending w ar name owed sofar → length (concat row) ≤ owed →
  ∃ w', write_row w row = Ok w' ∧
    pending w' ar name (owed - length (concat row)) (sofar ++ concat row).
Proof.
  unfold write_row. induction row as [|v row IH]; intros w ar name owed sofar Hp Hl.
  - exists w. cbn. rewrite Nat.sub_0_r, app_nil_r. done.
  - cbn [concat] in *. rewrite app_length in Hl.
    destruct (pending_write w ar name owed sofar v Hp) as (w1 & H1 & Hp1); [lia|].
    destruct (IH w1 ar name _ _ Hp1) as (w2 & H2 & Hp2); [lia|].
    exists w2. cbn [res_foldl]. rewrite H1. cbn [mbind res_bind]. split; [done|].
    rewrite app_length, Nat.sub_add_distr, app_assoc. done.
Qed.

Definition fetched (rows : list (nat * list (list N))) : list (nat * res (list (list N))) :=
  map (λ r, (r.1, Ok r.2)) rows.
Definition rows_bytes (rows : list (nat * list (list N))) : list N :=
  concat (map (λ r, concat r.2) rows).

Lemma run_rows_length rows : ∀ k,
  run_rows (λ len row (_ : nat), Ok (len + row_length row, Cont)) k (fetched rows) =
  Ok (k + length (rows_bytes rows), false).
Proof.
  induction rows as [|[i row] rows IH]; intros k; cbn [fetched map run_rows fst snd].
  - cbn. by rewrite Nat.add_0_r.
  - cbn [mbind res_bind]. fold (fetched rows). rewrite IH. unfold rows_bytes.
    cbn [map concat snd]. rewrite app_length, row_length_concat. by rewrite Nat.add_assoc.
Qed.

Lemma run_rows_write rows : ∀ w k ar name owed sofar,
  pending w ar name owed sofar → length (rows_bytes rows) ≤ owed →
  ∃ w', run_rows (λ (st : tarw * nat) row (_ : nat),
               match write_row st.1 row with
               | Ok w => Ok ((w, st.2 + row_length row), Cont)
               | Err => Ok (st, Fail)
               | Panic => Panic
               end) (w, k) (fetched rows) = Ok ((w', k + length (rows_bytes rows)), false) ∧
    pending w' ar name (owed - length (rows_bytes rows)) (sofar ++ rows_bytes rows).
Proof.
  induction rows as [|[i row] rows IH]; intros w k ar name owed sofar Hp Hl.
  - exists w. unfold rows_bytes. cbn. rewrite Nat.sub_0_r, app_nil_r, Nat.add_0_r. done.
  - unfold rows_bytes in Hl. cbn [map concat snd] in Hl. rewrite app_length in Hl.
    fold (rows_bytes rows) in Hl.
    destruct (write_row_pending row w ar name owed sofar Hp) as (w1 & H1 & Hp1); [lia|].
    destruct (IH w1 (k + row_length row) ar name _ _ Hp1) as (w2 & H2 & Hp2); [lia|].
    exists w2. cbn [fetched map run_rows fst snd]. cbn [mbind res_bind]. rewrite H1.
    cbn [mbind res_bind]. fold (fetched rows). rewrite H2.
    unfold rows_bytes. cbn [map concat snd]. fold (rows_bytes rows).
    rewrite app_length, row_length_concat. split; [by rewrite Nat.add_assoc|].
    rewrite Nat.sub_add_distr, app_assoc. done.
Qed.

Section instances.
  Variable marshal : json → list N.
  Variable unmarshal : list N → option json.
  Hypothesis faithful : json_faithful marshal unmarshal.
  Variable is_nil : attr → bool.
  Variable attr_order : list attr → list attr.
  Hypothesis order_ok : any_order attr_order.

  Notation normal g := (non_class_attributes attr_order g).
  Notation cols g := (normal g ++ gr_class_attrs g).

  Lemma columns_perm g cell : table is_nil g cell → cols g ≡ₚ gr_all_attrs g.
  Proof using order_ok.
    intros T. pose proof (distinct_NoDup _ (tb_attrs _ _ _ T)) as Hnd.
    destruct (difference_refs_spec (gr_all_attrs g) (gr_class_attrs g)
      (attr_order (build_attr_set (gr_all_attrs g)))) as [Hn Hin].
    { apply order_ok. }
    apply NoDup_Permutation; [|done|].
    - apply NoDup_app. split; [done|]. split; [|by eapply tb_class_once].
      intros a Ha. by apply Hin in Ha as [_ ?].
    - intros a. rewrite elem_of_app. unfold non_class_attributes. rewrite Hin. split.
      + intros [[? _]|H]; [done|]. by eapply tb_class.
      + intros H. destruct (decide (a ∈ gr_class_attrs g)); [by right|by left].
  Qed.

  Definition grid_rows (g : grid) (cell : attr → nat → list N) : list (nat * list (list N)) :=
    map (λ i, (i, map (λ a, cell a i) (cols g))) (seq 0 (gr_size g).2).

  Lemma table_resolves g cell :
    table is_nil g cell →
    ∃ specs, resolve g (cols g) = Ok specs ∧ gr_iter g specs = Ok (fetched (grid_rows g cell)).
  Proof using order_ok.
    intros T.
    assert (∀ l, (∀ a, a ∈ l → a ∈ gr_all_attrs g) → ∃ specs, resolve g l = Ok specs ∧
      ∀ i, i < (gr_size g).2 →
        res_mapM (λ s, gr_get g s i) specs = Ok (map (λ a, cell a i) l)) as H.
    { induction l as [|a l IH]; intros Hl; [by exists []|].
      destruct IH as (specs & Hs & Hi); [intros; apply Hl; by right|].
      destruct (tb_cells _ _ _ T a) as (s & Hget & Hc); [apply Hl; left|].
      exists (s :: specs). unfold resolve in *. cbn [res_mapM]. rewrite Hget.
      cbn [mbind res_bind]. rewrite Hs. split; [done|]. intros i Hlt. cbn [res_mapM map].
      rewrite (proj1 (Hc i Hlt)). cbn [mbind res_bind]. by rewrite Hi. }
    destruct (H (cols g)) as (specs & Hs & Hi).
    { intros a Ha. by rewrite (columns_perm g cell T) in Ha. }
    exists specs. split; [done|]. rewrite (tb_iter _ _ _ T). f_equal. unfold fetched, grid_rows.
    rewrite map_map. cbn [fst snd]. apply map_ext_in. intros i Hin. apply in_seq in Hin.
    rewrite Hi by lia. done.
  Qed.

  Definition part (g : grid) (l : list attr) : list N :=
    marshal (JArr (map attr_json (map (λ a, (a, is_nil a)) l))).

  Definition head_entries (g : grid) (key : string) : archive :=
    [(key +:+ "MANIFEST", format_version);
     (key +:+ "DIMS", pack_u64 (N.of_nat (gr_size g).1) ++ pack_u64 (N.of_nat (gr_size g).2));
     (key +:+ "CATTRS", part g (gr_class_attrs g));
     (key +:+ "ATTRS", part g (normal g))].

  Lemma serialize_head g cell w ar key include :
    table is_nil g cell → flushed w ar →
    ∃ w1 specs, resolve g (cols g) = Ok specs ∧
      gr_iter g specs = Ok (fetched (grid_rows g cell)) ∧
      pending w1 (ar ++ head_entries g key) (key +:+ "DATA")
        (length (rows_bytes (grid_rows g cell))) [] ∧
      serialize_to_tar marshal is_nil attr_order g w key include =
      if negb include then Ok w1 else
        out ← run_rows (λ (st : tarw * nat) row (_ : nat),
               match write_row st.1 row with
               | Ok w => Ok ((w, st.2 + row_length row), Cont)
               | Err => Ok (st, Fail)
               | Panic => Panic
               end) (w1, 0) (fetched (grid_rows g cell));
        if (out.2 : bool) then Err
        else if negb (out.1.2 =? length (rows_bytes (grid_rows g cell))) then Err
        else Ok (tar_try_flush out.1.1).
  Proof using order_ok.
    intros T Hw. destruct (table_resolves g cell T) as (specs & Hs & Hi).
    destruct (entry_written w ar (key +:+ "MANIFEST") format_version Hw) as (w1 & w2 & H1 & H2 & F2).
    apply flushed_try in F2.
    pose proof (header_flushed _ _ (key +:+ "DIMS") 16 F2) as H3.
    set (c1 := pack_u64 (N.of_nat (gr_size g).1)). set (c2 := pack_u64 (N.of_nat (gr_size g).2)).
    assert (length c1 = 8 ∧ length c2 = 8) as [L1 L2] by (split; apply pack_u64_length).
    pose proof (write_owed (ar ++ [(key +:+ "MANIFEST", format_version)]) (key +:+ "DIMS") 16 [] c1
      ltac:(lia)) as H4.
    rewrite L1 in H4. cbn [app Nat.sub] in H4.
    pose proof (write_owed (ar ++ [(key +:+ "MANIFEST", format_version)]) (key +:+ "DIMS") 8 c1 c2
      ltac:(lia)) as H5.
    rewrite L2 in H5. cbn [Nat.sub] in H5.
    pose proof (flushed_entry (ar ++ [(key +:+ "MANIFEST", format_version)]) (key +:+ "DIMS") (c1 ++ c2)) as F5.
    destruct (entry_written _ _ (key +:+ "CATTRS") (part g (gr_class_attrs g)) F5)
      as (w6 & w7 & H6 & H7 & F7).
    destruct (entry_written _ _ (key +:+ "ATTRS") (part g (normal g)) F7)
      as (w8 & w9 & H8 & H9 & F9).
    pose proof (header_flushed _ _ (key +:+ "DATA") (length (rows_bytes (grid_rows g cell))) F9) as H10.
    eexists _, specs. split; [done|]. split; [done|]. split.
    2:{ unfold serialize_to_tar. rewrite H1. cbn [mbind res_bind]. rewrite H2.
        cbn [mbind res_bind]. rewrite H3. cbn [mbind res_bind]. fold c1 c2. rewrite H4.
        cbn [mbind res_bind]. rewrite H5. cbn [mbind res_bind].
        unfold write_attributes_part. fold (part g (gr_class_attrs g)) (part g (normal g)).
        rewrite H6. cbn [mbind res_bind]. rewrite H7. cbn [mbind res_bind].
        rewrite H8. cbn [mbind res_bind]. rewrite H9. cbn [mbind res_bind].
        unfold columns.
        rewrite (proj2 (Nat.eqb_eq _ _)).
        2:{ rewrite (tb_size _ _ _ T), <- (Permutation_length (columns_perm g cell T)).
            by rewrite app_length. }
        cbn [mbind res_bind]. rewrite Hs. cbn [mbind res_bind]. unfold map_over_rows. rewrite Hi.
        rewrite run_rows_length. cbn [mbind res_bind fst snd Nat.add]. rewrite H10.
        cbn [mbind res_bind]. reflexivity. }
    apply pending_try. left. f_equal. unfold head_entries. fold c1 c2. by rewrite <- !app_assoc.
  Qed.

  Definition instance_entries (g : grid) (cell : attr → nat → list N) (key : string) : archive :=
    head_entries g key ++ [(key +:+ "DATA", rows_bytes (grid_rows g cell))].

  Lemma serialize_writes g cell w ar key :
    table is_nil g cell → flushed w ar →
    ∃ w', serialize_to_tar marshal is_nil attr_order g w key true = Ok w' ∧
      flushed w' (ar ++ instance_entries g cell key).
  Proof using order_ok.
    intros T Hw.
    destruct (serialize_head g cell w ar key true T Hw) as (w1 & specs & _ & _ & Hp & E).
    destruct (run_rows_write (grid_rows g cell) w1 0 _ _ _ _ Hp) as (w2 & H2 & Hp2); [lia|].
    rewrite E, H2. cbn [negb mbind res_bind fst snd Nat.add]. rewrite Nat.eqb_refl. cbn [negb].
    eexists. split; [done|]. apply flushed_try. rewrite Nat.sub_diag in Hp2.
    apply pending_flushed in Hp2. cbn [app] in Hp2. unfold instance_entries.
    by rewrite app_assoc.
  Qed.

  Lemma serialize_structure g cell w ar key :
    table is_nil g cell → flushed w ar →
    ∃ w', serialize_to_tar marshal is_nil attr_order g w key false = Ok w' ∧
      pending w' (ar ++ head_entries g key) (key +:+ "DATA")
        (length (rows_bytes (grid_rows g cell))) [].
  Proof using order_ok.
    intros T Hw.
    destruct (serialize_head g cell w ar key false T Hw) as (w1 & specs & _ & _ & Hp & E).
    exists w1. by rewrite E.
  Qed.
End instances.

(** ** Reading instances *)

Lemma proper_right_size a v : proper_cell a v → right_size (default_kind a) v.
Proof. destruct a; cbn; try done. intros [->| ->]; done. Qed.

Lemma proper_cell_value a v : proper_cell a v → cell_value (default_kind a) (Some v) = v.
Proof. destruct a; cbn; try done. by intros [->| ->]. Qed.

Definition cell_size (k : gkind) : nat := match k with GFixed n => n | GBits => 1 end.

Lemma proper_size a v : proper_cell a v → length v = cell_size (default_kind a).
Proof. destruct a; cbn; try done. by intros [->| ->]. Qed.

Lemma proper_nonempty a v : proper_cell a v → v ≠ [].
Proof. destruct a; cbn; try (intros H ->; done). by intros [->| ->]. Qed.

Lemma dense_get_length pg h d s g i :
  reachable pg h d → column_of d s g → i < d_maxrow d →
  ∃ r, dense_get d s i = Ok r ∧ length r = cell_size (g_kind g).
Proof.
  intros Hr Hc Hi. pose proof (dense_refines_table _ _ _ _ _ _ Hr Hc Hi) as Hget.
  revert Hget. generalize (cell_value (g_kind g) (last_write h (sp_pond s) (sp_pos s) i)).
  intros r Hget. exists r. split; [exact Hget|].
  unfold dense_get in Hget. destruct Hc as [Hg _]. unfold idx in Hget. rewrite Hg in Hget.
  cbn [mbind res_bind] in Hget. unfold group_get in Hget. destruct (g_kind g) as [size|].
  - unfold fixed_get in Hget.
    destruct (length (g_alloc g) <? _) eqn:E; [done|]. injection Hget as <-.
    rewrite take_length, drop_length. cbn. lia.
  - unfold bit_get in Hget. destruct (idx _ _); [|done..]. cbn [mbind res_bind] in Hget.
    injection Hget as <-. by destruct (0 <? _)%N.
Qed.

Section reading.
  Variable got : nat → nat → nat.
  Hypothesis full : full_reads got.
  Variable pg : nat.

  (** The columns to read into. *)
  Definition readable (d : dense) (rows : nat) (s : spec) (v : list N) : Prop :=
    rows ≤ d_maxrow d ∧ ∃ g, column_of d s g ∧ right_size (g_kind g) v ∧
      length v = cell_size (g_kind g) ∧ v ≠ [].

  Lemma readable_layout d d' rows s v :
    layout d' = layout d → d_maxrow d' = d_maxrow d → readable d rows s v → readable d' rows s v.
  Proof.
    intros Hl Hm (Hr & g & Hc & Hs & Hlen & Hv). split; [lia|].
    destruct (column_of_layout d' d s g (eq_sym Hl) Hc) as (g' & Hc' & Hk & _).
    exists g'. by rewrite Hk.
  Qed.

  Lemma read_cell_ok h d pos data s i last v rest rows :
    length v ≤ got pos (length v) → reachable pg h d → i < rows → readable d rows s v → drop pos data = v ++ rest →
    (rest = [] → last = true) →
    ∃ d', dense_set d s i v = Ok d' ∧ read_cell got data (d, pos) s i last = Ok (d', pos + length v) ∧
      reachable pg (h ++ [DSet s i v]) d' ∧ layout d' = layout d ∧ d_maxrow d' = d_maxrow d.
  Proof.
    intros Hfull Hr Hi (Hrows & g & Hc & Hsz & Hlen & Hv) Hdata Hlast.
    assert (i < d_maxrow d) as Him by lia.
    destruct (dense_get_length _ _ _ _ _ _ Hr Hc Him) as (r & Hget & Hrl).
    destruct (set_step pg h d s g i v Hr Hc Him Hsz) as (d' & Hset & Hr' & Hl' & Hm').
    exists d'. split; [done|]. split; [|done].
    assert (length data = pos + length v + length rest ∧ pos ≤ length data) as [Hdl Hpl].
    { apply (f_equal length) in Hdata. rewrite drop_length, app_length in Hdata.
      assert (length v ≠ 0) by (by destruct v). lia. }
    unfold read_cell. rewrite Hget. cbn [mbind res_bind].
    assert (length r = length v) as Hrv by lia.
    assert (Nat.min (got pos (length r)) (Nat.min (length r) (length data - pos)) = length v) as -> by (rewrite Hrv; lia).
    assert (length v =? length r = true) as -> by (apply Nat.eqb_eq; lia). cbn [negb].
    rewrite Hdata, take_app. rewrite Hset. cbn [mbind res_bind].
    destruct (length data <=? pos + length v) eqn:E; [|done].
    apply Nat.leb_le in E. rewrite Hlast by (apply nil_length_inv; lia). done.
  Qed.

  Lemma read_row_ok data lastrow i rows : ∀ specs vs h d pos rest,
    reachable pg h d → i < rows → Forall2 (readable d rows) specs vs →
    drop pos data = concat vs ++ rest → (specs ≠ [] → rest = [] → lastrow = true) →
    ∃ h' d', dense_run pg d (zip_with (λ s v, DSet s i v) specs vs) = Ok d' ∧
      read_row got data lastrow i specs (d, pos) = Ok (d', pos + length (concat vs)) ∧
      reachable pg h' d' ∧ layout d' = layout d ∧ d_maxrow d' = d_maxrow d.
  Proof using full.
    induction specs as [|s specs IH]; intros vs h d pos rest Hr Hi Hf Hdata Hlast.
    - apply Forall2_nil_inv_l in Hf as ->. exists h, d. cbn. by rewrite Nat.add_0_r.
    - apply Forall2_cons_inv_l in Hf as (v & vs' & Hv & Hf & ->).
      cbn [concat] in *. rewrite <- app_assoc in Hdata.
      destruct (read_cell_ok h d pos data s i (lastrow && (length specs =? 0)) v (concat vs' ++ rest) rows
        (Nat.eq_le_incl _ _ (eq_sym (full _ _))) Hr Hi Hv Hdata) as (d1 & Hset & Hread & Hr1 & Hl1 & Hm1).
      { intros E. apply app_eq_nil in E as [E1 E2].
        assert (vs' = []) as ->.
        { destruct vs' as [|v' vs']; [done|]. cbn in E1. apply app_eq_nil in E1 as [-> _].
          apply Forall2_cons_inv_r in Hf as (s' & specs' & (_ & g & _ & _ & _ & Hne) & _). done. }
        apply Forall2_nil_inv_r in Hf as ->. rewrite Hlast by done. done. }
      destruct (IH vs' _ d1 (pos + length v) rest Hr1 Hi) as (h' & d' & Hrun & Hrd & Hr' & Hl' & Hm').
      { eapply Forall2_impl; [exact Hf|]. intros s' v'. by apply readable_layout. }
      { rewrite <- drop_drop, Hdata. apply drop_app. }
      { intros Hne. apply Hlast. done. }
      exists h', d'. cbn [zip_with]. unfold dense_run in *. cbn [res_foldl dense_step].
      rewrite Hset. cbn [mbind res_bind]. split; [done|]. cbn [read_row]. rewrite Hread.
      cbn [mbind res_bind]. rewrite Hrd, app_length. split; [by rewrite Nat.add_assoc|].
      split; [done|]. split; congruence.
  Qed.

  Lemma read_rows_ok data specs rows (vss : nat → list (list N)) h d :
    reachable pg h d →
    (∀ i, i < rows → Forall2 (readable d rows) specs (vss i)) →
    data = concat (map (λ i, concat (vss i)) (seq 0 rows)) →
    ∃ d', dense_run pg d (concat (map (λ i, zip_with (λ s v, DSet s i v) specs (vss i)) (seq 0 rows))) = Ok d' ∧
      read_rows got data specs rows d = Ok (d', length data).
  Proof using full.
    intros Hr Hf Hdata. unfold read_rows.
    assert (∀ m k pos h d, k + m = rows → reachable pg h d →
      (∀ i, i < rows → Forall2 (readable d rows) specs (vss i)) →
      drop pos data = concat (map (λ i, concat (vss i)) (seq k m)) →
      pos + length (concat (map (λ i, concat (vss i)) (seq k m))) = length data →
      ∃ d', dense_run pg d (concat (map (λ i, zip_with (λ s v, DSet s i v) specs (vss i)) (seq k m))) = Ok d' ∧
      res_foldl (λ st i, read_row got data (i =? rows - 1) i specs st) (d, pos) (seq k m) =
        Ok (d', length data)) as H.
    { clear h d Hr Hf Hdata. induction m as [|m IH]; intros k pos h d Hk Hr Hf Hd Hpos.
      - exists d. cbn [seq map concat res_foldl]. cbn in Hpos. split; [done|]. by rewrite <- Hpos, Nat.add_0_r.
      - cbn [seq map concat res_foldl] in *. rewrite app_length in Hpos.
        destruct (read_row_ok data (k =? rows - 1) k rows specs (vss k) h d pos
          (concat (map (λ i, concat (vss i)) (seq (S k) m))) Hr ltac:(lia) (Hf k ltac:(lia)) Hd)
          as (h1 & d1 & Hrun & Hread & Hr1 & Hl1 & Hm1).
        { intros Hne' E. destruct m as [|m]; [apply Nat.eqb_eq; lia|].
          cbn [seq map concat] in E. apply app_eq_nil in E as [E _].
          destruct specs as [|s specs']; [done|].
          pose proof (Hf (S k) ltac:(lia)) as Hf'.
          apply Forall2_cons_inv_l in Hf' as (v & vs' & (_ & g & _ & _ & _ & Hne) & _ & Heq).
          rewrite Heq in E. cbn in E. by apply app_eq_nil in E as [-> _]. }
        destruct (IH (S k) (pos + length (concat (vss k))) h1 d1 ltac:(lia) Hr1) as (d' & Hrun' & Hfold).
        { intros i Hi. eapply Forall2_impl; [by apply Hf|]. intros s v. by apply readable_layout. }
        { rewrite <- drop_drop, Hd. apply drop_app. }
        { lia. }
        exists d'. rewrite Hread. cbn [mbind res_bind]. split; [|done].
        unfold dense_run in *. rewrite res_foldl_app, Hrun. done. }
    apply (H rows 0 0 h d); [done|done|done|done|]. by rewrite <- Hdata.
  Qed.

  (** The reader comes up short in some cell of the row. *)
  Fixpoint short_row (pos : nat) (vs : list (list N)) : Prop :=
    match vs with
    | [] => False
    | v :: vs => got pos (length v) < length v ∨ short_row (pos + length v) vs
    end.

  Lemma read_row_either data lastrow i rows : ∀ specs vs h d pos rest,
    reachable pg h d → i < rows → Forall2 (readable d rows) specs vs →
    drop pos data = concat vs ++ rest → (specs ≠ [] → rest = [] → lastrow = true) →
    read_row got data lastrow i specs (d, pos) = Err ∨
    (¬ short_row pos vs ∧ ∃ h' d',
      read_row got data lastrow i specs (d, pos) = Ok (d', pos + length (concat vs)) ∧
      reachable pg h' d' ∧ layout d' = layout d ∧ d_maxrow d' = d_maxrow d).
  Proof.
    induction specs as [|s specs IH]; intros vs h d pos rest Hr Hi Hf Hdata Hlast.
    - right. apply Forall2_nil_inv_l in Hf as ->. split; [intros []|]. exists h, d. cbn.
      by rewrite Nat.add_0_r.
    - apply Forall2_cons_inv_l in Hf as (v & vs' & Hv & Hf & ->).
      cbn [concat] in *. rewrite <- app_assoc in Hdata. cbn [read_row short_row].
      destruct (decide (length v ≤ got pos (length v))) as [Hfull|Hshort].
      + destruct (read_cell_ok h d pos data s i (lastrow && (length specs =? 0)) v (concat vs' ++ rest) rows
          Hfull Hr Hi Hv Hdata) as (d1 & Hset & Hread & Hr1 & Hl1 & Hm1).
        { intros E. apply app_eq_nil in E as [E1 E2].
          assert (vs' = []) as ->.
          { destruct vs' as [|v' vs']; [done|]. cbn in E1. apply app_eq_nil in E1 as [-> _].
            apply Forall2_cons_inv_r in Hf as (s' & specs' & (_ & g & _ & _ & _ & Hne) & _). done. }
          apply Forall2_nil_inv_r in Hf as ->. rewrite Hlast by done. done. }
        rewrite Hread. cbn [mbind res_bind].
        destruct (IH vs' _ d1 (pos + length v) rest Hr1 Hi) as [H|(Hns & h' & d' & Hrd & Hr' & Hl' & Hm')].
        { eapply Forall2_impl; [exact Hf|]. intros s' v'. by apply readable_layout. }
        { rewrite <- drop_drop, Hdata. apply drop_app. }
        { intros Hne. apply Hlast. done. }
        { by left. }
        right. split; [intros [H|H]; [lia|done]|]. exists h', d'. rewrite Hrd, app_length.
        split; [by rewrite Nat.add_assoc|]. split; [done|]. split; congruence.
      + left. destruct Hv as (Hrows & g & Hc & Hsz & Hlen & Hv).
        destruct (dense_get_length _ _ _ _ _ i Hr Hc ltac:(lia)) as (r & Hget & Hrl).
        unfold read_cell. rewrite Hget. cbn [mbind res_bind].
        assert (length r = length v) as Hrv by lia.
        rewrite (proj2 (Nat.eqb_neq _ _)); [done|]. rewrite Hrv. lia.
  Qed.

  Fixpoint short_rows (pos : nat) (vss : list (list (list N))) : Prop :=
    match vss with
    | [] => False
    | vs :: vss => short_row pos vs ∨ short_rows (pos + length (concat vs)) vss
    end.

  Lemma read_rows_short data specs rows (vss : nat → list (list N)) h d :
    reachable pg h d →
    (∀ i, i < rows → Forall2 (readable d rows) specs (vss i)) →
    data = concat (map (λ i, concat (vss i)) (seq 0 rows)) →
    short_rows 0 (map vss (seq 0 rows)) →
    read_rows got data specs rows d = Err.
  Proof.
    intros Hr Hf Hdata Hshort. unfold read_rows.
    assert (∀ m k pos h d, k + m = rows → reachable pg h d →
      (∀ i, i < rows → Forall2 (readable d rows) specs (vss i)) →
      drop pos data = concat (map (λ i, concat (vss i)) (seq k m)) →
      short_rows pos (map vss (seq k m)) →
      res_foldl (λ st i, read_row got data (i =? rows - 1) i specs st) (d, pos) (seq k m) = Err) as H.
    { clear h d Hr Hf Hdata Hshort. induction m as [|m IH]; intros k pos h d Hk Hr Hf Hd Hs; [done|].
      cbn [seq map concat res_foldl short_rows] in *.
      destruct (read_row_either data (k =? rows - 1) k rows specs (vss k) h d pos
        (concat (map (λ i, concat (vss i)) (seq (S k) m))) Hr ltac:(lia) (Hf k ltac:(lia)) Hd)
        as [H|(Hns & h1 & d1 & Hread & Hr1 & Hl1 & Hm1)].
      { intros Hne' E. destruct m as [|m]; [apply Nat.eqb_eq; lia|].
        cbn [seq map concat] in E. apply app_eq_nil in E as [E _].
        destruct specs as [|s specs']; [done|].
        pose proof (Hf (S k) ltac:(lia)) as Hf'.
        apply Forall2_cons_inv_l in Hf' as (v & vs' & (_ & g & _ & _ & _ & Hne) & _ & Heq).
        rewrite Heq in E. cbn in E. by apply app_eq_nil in E as [-> _]. }
      { by rewrite H. }
      rewrite Hread. cbn [mbind res_bind]. destruct Hs as [Hs|Hs]; [done|].
      apply (IH (S k) _ h1 d1 ltac:(lia) Hr1).
      { intros i Hi. eapply Forall2_impl; [by apply Hf|]. intros s v. by apply readable_layout. }
      { rewrite <- drop_drop, Hd. apply drop_app. }
      { done. } }
    by apply (H rows 0 0 h d).
  Qed.
End reading.

Lemma add_normal_blank pg l : ∀ h d attrs cls,
  blank pg h d attrs cls →
  ∃ h' d', add_normal pg d l = Ok d' ∧ blank pg h' d' (attrs ++ l) cls.
Proof.
  unfold add_normal. induction l as [|a l IH]; intros h d attrs cls Hb.
  - exists h, d. by rewrite app_nil_r.
  - destruct (blank_add _ _ _ _ _ a Hb) as (d1 & s & Hadd & Hb1).
    destruct (IH _ _ _ _ Hb1) as (h' & d' & H & Hb'). exists h', d'. cbn [res_foldl].
    rewrite Hadd. cbn [mbind res_bind fst]. split; [done|]. by rewrite <- app_assoc in Hb'.
Qed.

Lemma add_classes_blank pg l : ∀ h d attrs cls,
  distinct_attrs (attrs ++ l) → blank pg h d attrs cls →
  ∃ h' d', add_classes pg d l = Ok d' ∧ blank pg h' d' (attrs ++ l) (cls ++ l).
Proof.
  unfold add_classes. induction l as [|a l IH]; intros h d attrs cls Hd Hb.
  - exists h, d. by rewrite !app_nil_r.
  - destruct (blank_add _ _ _ _ _ a Hb) as (d1 & s & Hadd & Hb1).
    change (a :: l) with ([a] ++ l) in Hd. rewrite app_assoc in Hd.
    destruct (blank_class _ _ _ _ _ a Hb1) as (d2 & Hset & Hb2).
    { by eapply distinct_app_l. }
    { apply elem_of_app. right. left. }
    destruct (IH _ _ _ _ Hd Hb2) as (h' & d' & H & Hb'). exists h', d'. cbn [res_foldl].
    rewrite Hadd. cbn [mbind res_bind fst]. rewrite Hset. cbn [mbind res_bind].
    split; [done|]. by rewrite <- !app_assoc in Hb'.
Qed.

Lemma imap_zip specs (vs : nat → list N) i :
  imap (λ j s, DSet s i (vs j)) specs =
  zip_with (λ s v, DSet s i v) specs (imap (λ j _, vs j) specs).
Proof.
  revert vs. induction specs as [|s specs IH]; intros vs; cbn; [done|]. f_equal.
  exact (IH (λ j, vs (S j))).
Qed.

Section deserialize.
  Variable marshal : json → list N.
  Variable unmarshal : list N → option json.
  Hypothesis faithful : json_faithful marshal unmarshal.
  Variable is_nil : attr → bool.
  Variable attr_order : list attr → list attr.
  Hypothesis order_ok : any_order attr_order.
  Variable got : nat → nat → nat.
  Variable pg : nat.

  Notation normal g := (non_class_attributes attr_order g).
  Notation cols g := (normal g ++ gr_class_attrs g).

  Lemma part_reads g cell l :
    table is_nil g cell → (∀ a, a ∈ l → a ∈ gr_all_attrs g) →
    ∃ l', deserialize_attributes unmarshal (part marshal is_nil g l) = Ok l' ∧ map fst l' = l.
  Proof using faithful.
    intros T Hl. destruct (attributes_round_trip marshal unmarshal faithful
      (map (λ a, (a, is_nil a)) l)) as (l' & H & Hf).
    { intros h Hh. apply elem_of_list_fmap in Hh as (a & -> & Ha). cbn [fst].
      by apply (tb_text _ _ _ T), Hl. }
    exists l'. split; [done|]. rewrite Hf, map_map. cbn. apply map_id.
  Qed.

  Lemma deserialize_front g cell ar key :
    table is_nil g cell →
    (∀ k b, (k, b) ∈ instance_entries marshal is_nil attr_order g cell key →
       get_named_file ar k = Ok b) →
    ∃ hx dx specs vss d,
      deserialize_from_tar unmarshal got pg ar key =
        (st ← read_rows got (rows_bytes (grid_rows attr_order g cell)) specs (gr_size g).2 dx; Ok st.1) ∧
      reachable pg hx dx ∧
      (∀ i, i < (gr_size g).2 → Forall2 (readable dx (gr_size g).2) specs (vss i)) ∧
      (∀ i, i < (gr_size g).2 → vss i = map (λ a, cell a i) (cols g)) ∧
      dense_run pg dx (concat (map (λ i, zip_with (λ s v, DSet s i v) specs (vss i))
        (seq 0 (gr_size g).2))) = Ok d ∧
      same_table g cell d.
  Proof using faithful order_ok.
    intros T Hget.
    assert (∀ i k b, instance_entries marshal is_nil attr_order g cell key !! i = Some (k, b) →
      get_named_file ar k = Ok b) as Hat.
    { intros i k b Hi. apply Hget. by eapply elem_of_list_lookup_2. }
    pose proof (Hat 0 _ _ eq_refl) as G0. pose proof (Hat 1 _ _ eq_refl) as G1.
    pose proof (Hat 2 _ _ eq_refl) as G2. pose proof (Hat 3 _ _ eq_refl) as G3.
    pose proof (Hat 4 _ _ eq_refl) as G4. clear Hat Hget.
    pose proof (columns_perm is_nil attr_order order_ok g cell T) as Hperm.
    pose proof (tb_cols _ _ _ T) as Hnc. pose proof (tb_rows _ _ _ T) as Hnr.
    unfold deserialize_from_tar.
    rewrite G0. cbn [mbind res_bind].
    rewrite bool_decide_eq_true_2 by done. cbn [negb].
    rewrite G1. cbn [mbind res_bind].
    set (c1 := pack_u64 (N.of_nat (gr_size g).1)). set (c2 := pack_u64 (N.of_nat (gr_size g).2)).
    assert (length c1 = 8 ∧ length c2 = 8) as [L1 L2] by (split; apply pack_u64_length).
    rewrite app_length, L1, L2. cbn [Nat.add Nat.ltb Nat.leb].
    rewrite (take_app_alt c1 c2 8) by done. rewrite (drop_app_alt c1 c2 8) by done.
    unfold c1, c2. rewrite !unpack_pack_u64 by (transitivity (2^63)%N; [done|reflexivity]).
    cbn [mbind res_bind].
    rewrite G2. cbn [mbind res_bind].
    destruct (part_reads g cell (gr_class_attrs g) T) as (lc & Hlc & Hfc); [by apply (tb_class _ _ _ T)|].
    rewrite Hlc. cbn [mbind res_bind].
    rewrite G3. cbn [mbind res_bind].
    destruct (part_reads g cell (normal g) T) as (ln & Hln & Hfn).
    { intros a Ha. rewrite <- Hperm. apply elem_of_app. by left. }
    rewrite Hln. cbn [mbind res_bind]. rewrite Hfc, Hfn.
    assert (distinct_attrs (cols g)) as Hdist.
    { eapply distinct_perm; [symmetry; exact Hperm|]. apply (tb_attrs _ _ _ T). }
    destruct (add_normal_blank pg (normal g) [] dense_new [] [] (blank_new pg)) as (h1 & d1 & Hadd1 & Hb1).
    cbn [app] in Hb1. rewrite Hadd1. cbn [mbind res_bind].
    destruct (add_classes_blank pg (gr_class_attrs g) _ _ _ _ Hdist Hb1) as (h2 & d2 & Hadd2 & Hb2).
    cbn [app] in Hb2. rewrite Hadd2. cbn [mbind res_bind].
    rewrite !Nat2N.id. unfold columns.
    rewrite (proj2 (Nat.eqb_eq _ _)).
    2:{ rewrite (tb_size _ _ _ T), <- (Permutation_length Hperm). by rewrite app_length. }
    cbn [mbind res_bind].
    rewrite (proj2 (N.leb_gt _ _) Hnr).
    rewrite G4. cbn [mbind res_bind].
    set (n := (gr_size g).2) in *. set (dx := dense_extend d2 n).
    (* the columns *)
    assert (∃ specs, dense_resolve dx (cols g) = Ok specs ∧
      Forall2 (λ a s, dense_get_attribute d2 a = Ok s) (cols g) specs) as (specs & Hres & Hspecs).
    { assert (∀ l, (∀ a, a ∈ l → a ∈ cols g) → ∃ specs, dense_resolve dx l = Ok specs ∧
        Forall2 (λ a s, dense_get_attribute d2 a = Ok s) l specs) as H; [|by apply H].
      induction l as [|a l IH]; intros Hl; [exists []; split; [done|constructor]|].
      destruct IH as (specs & Hs & Hf); [intros; apply Hl; by right|].
      destruct (dense_get_attribute_finds d2 a) as [s Ha].
      { rewrite (bl_attrs _ _ _ _ _ Hb2). apply Hl. left. }
      exists (s :: specs). unfold dense_resolve in *. cbn [res_mapM].
      rewrite (get_attribute_layout d2 dx) by apply dense_extend_layout.
      rewrite Ha. cbn [mbind res_bind]. rewrite Hs. split; [done|]. by constructor. }
    rewrite Hres. cbn [mbind res_bind].
    set (val := λ i j, match cols g !! j with Some a => cell a i | None => [] end).
    assert (∀ i j a, i < n → cols g !! j = Some a → val i j = cell a i ∧ proper_cell a (cell a i)) as Hval.
    { intros i j a Hi Hj. unfold val. rewrite Hj. split; [done|].
      destruct (tb_cells _ _ _ T a) as (s & _ & Hc).
      { rewrite <- Hperm. by eapply elem_of_list_lookup_2. }
      by apply Hc. }
    destruct (fill_table pg h2 d2 (cols g) (gr_class_attrs g) (cols g) specs n val dx Hb2 Hdist
      (tb_class_once _ _ _ T) eq_refl (Permutation_refl _) Hspecs) as (Hm0 & d & Hrun & (Hall & Hsize & Hcls) & Hcells).
    { intros i j a Hi Hj. destruct (Hval i j a Hi Hj) as [-> Hp]. by apply proper_right_size. }
    assert (reachable pg (h2 ++ [DExtend n]) dx) as Hrx.
    { apply reachable_plain.
      - apply dense_run_snoc. exists d2. split; [apply (bl_run _ _ _ _ _ Hb2)|done].
      - intros o Ho. apply elem_of_app in Ho as [Ho|Ho].
        + pose proof (bl_ops _ _ _ _ _ Hb2 o Ho). by destruct o.
        + by apply elem_of_list_singleton in Ho as ->. }
    assert (length (cols g) = length specs) as Hlen by (by eapply Forall2_length).
    exists (h2 ++ [DExtend n]), dx, specs, (λ i, imap (λ j _, val i j) specs), d.
    split; [done|]. split; [done|]. split; [|split; [|split]].
    { intros i Hi. apply Forall2_same_length_lookup. split; [by rewrite imap_length|].
      intros j s v Hs Hv. rewrite list_lookup_imap, Hs in Hv. cbn in Hv. injection Hv as <-.
      destruct (lookup_lt_is_Some_2 (cols g) j) as [a Ha].
      { rewrite Hlen. by eapply lookup_lt_Some. }
      destruct (Hval i j a Hi Ha) as [-> Hp]. split; [unfold dx, dense_extend; cbn; lia|].
      pose proof (Forall2_lookup_lr _ _ _ _ _ _ Hspecs Ha Hs) as Hga.
      destruct (blank_column pg h2 d2 (cols g) (gr_class_attrs g) a s n Hb2 Hdist) as (_ & _ & gr & Hgr & _ & Hk);
        [by eapply elem_of_list_lookup_2|done|].
      exists gr. split; [done|]. rewrite Hk. split; [by apply proper_right_size|].
      split; [by apply proper_size|by eapply proper_nonempty]. }
    { intros i Hi. apply list_eq. intros j. rewrite list_lookup_imap, list_lookup_fmap.
      unfold val. destruct (cols g !! j) as [a|] eqn:Ha.
      - destruct (lookup_lt_is_Some_2 specs j) as [s Hs]; [|by rewrite Hs].
        rewrite <- Hlen. by eapply lookup_lt_Some.
      - rewrite (lookup_ge_None_2 specs); [done|]. rewrite <- Hlen. by apply lookup_ge_None. }
    { rewrite <- Hrun. f_equal. unfold fill. f_equal. apply map_ext. intros i.
      by rewrite imap_zip. }
    split; [by rewrite Hall|done|done|].
    intros a i Ha Hi. rewrite <- Hperm in Ha. apply elem_of_list_lookup in Ha as [j Hj].
    destruct (Hcells i j a Hi Hj) as (s & Hs & Hsa & Hg). exists s. split; [done|]. split; [done|].
    rewrite Hg. destruct (Hval i j a Hi Hj) as [-> Hp]. by rewrite proper_cell_value.
  Qed.

  Lemma rows_bytes_cells g cell (vss : nat → list (list N)) :
    (∀ i, i < (gr_size g).2 → vss i = map (λ a, cell a i) (cols g)) →
    rows_bytes (grid_rows attr_order g cell) = concat (map (λ i, concat (vss i)) (seq 0 (gr_size g).2)).
  Proof.
    intros H. unfold rows_bytes, grid_rows. rewrite map_map. cbn [snd]. f_equal. apply map_ext_in.
    intros i Hi. apply in_seq in Hi. by rewrite H by lia.
  Qed.

  Lemma deserialize_ok g cell ar key :
    table is_nil g cell → full_reads got →
    (∀ k b, (k, b) ∈ instance_entries marshal is_nil attr_order g cell key →
       get_named_file ar k = Ok b) →
    ∃ d, deserialize_from_tar unmarshal got pg ar key = Ok d ∧ same_table g cell d.
  Proof using faithful order_ok.
    intros T full Hget.
    destruct (deserialize_front g cell ar key T Hget) as (hx & dx & specs & vss & d & E & Hr & Hf & Hv & Hrun & Hst).
    destruct (read_rows_ok got full pg _ specs _ vss hx dx Hr Hf (rows_bytes_cells g cell vss Hv))
      as (d' & Hrun' & Hread).
    assert (d' = d) as -> by congruence.
    exists d. rewrite E, Hread. done.
  Qed.

  Lemma deserialize_short g cell ar key :
    table is_nil g cell →
    (∀ k b, (k, b) ∈ instance_entries marshal is_nil attr_order g cell key →
       get_named_file ar k = Ok b) →
    short_rows got 0 (map (λ i, map (λ a, cell a i) (cols g)) (seq 0 (gr_size g).2)) →
    deserialize_from_tar unmarshal got pg ar key = Err.
  Proof using faithful order_ok.
    intros T Hget Hs.
    destruct (deserialize_front g cell ar key T Hget) as (hx & dx & specs & vss & d & E & Hr & Hf & Hv & Hrun & Hst).
    rewrite E, (read_rows_short got pg _ specs _ vss hx dx Hr Hf (rows_bytes_cells g cell vss Hv)); [done|].
    erewrite map_ext_in; [exact Hs|]. intros i Hi. apply in_seq in Hi. cbn. apply Hv. lia.
  Qed.
End deserialize.

(** ** Archives *)

Lemma get_named_elem es post k b :
  NoDup (map fst es) → (k, b) ∈ es → get_named_file (es ++ post) k = Ok b.
Proof.
  induction es as [|[n c] es IH]; intros Hnd Hin; [by apply elem_of_nil in Hin|].
  cbn [map fst] in Hnd. apply NoDup_cons in Hnd as [Hn Hnd].
  apply elem_of_cons in Hin as [[= -> ->]|Hin]; [apply get_named_here|].
  cbn [app]. rewrite get_named_next; [by apply IH|]. intros ->. apply Hn.
  by apply (elem_of_list_fmap_1 fst) in Hin.
Qed.

Section archives.
  Variable marshal : json → list N.
  Variable unmarshal : list N → option json.
  Hypothesis faithful : json_faithful marshal unmarshal.
  Variable is_nil : attr → bool.
  Variable attr_order : list attr → list attr.
  Hypothesis order_ok : any_order attr_order.

  Notation wrun1 := (wrun1 marshal is_nil attr_order).
  Notation written := (written marshal is_nil attr_order).

  Definition creates (o : wop) (es : archive) : Prop :=
    map fst es = wkeys o ∧
    ∀ w ar, flushed w ar → ∃ w', wrun1 w o = Ok w' ∧ flushed w' (ar ++ es).

  Lemma creates_bytes k b : creates (WBytes k b) [(k, b)].
  Proof. split; [done|]. intros w ar. apply write_bytes_flushed. Qed.

  Lemma creates_u64 k v : creates (WU64 k v) [(k, pack_u64 v)].
  Proof. split; [done|]. intros w ar. apply write_bytes_flushed. Qed.

  Lemma creates_attr k h : creates (WAttr k h) [(k, serialize_attribute marshal h)].
  Proof. split; [done|]. intros w ar. apply write_bytes_flushed. Qed.

  Definition attrs_entries (k : string) (l : list held) : archive :=
    (tar_prefix k "ATTR_COUNT", pack_u64 (N.of_nat (length l))) ::
    imap (λ i h, (tar_prefix k (pretty i), serialize_attribute marshal h)) l.

  Lemma creates_attrs k l : creates (WAttrs k l) (attrs_entries k l).
  Proof.
    split.
    - unfold attrs_entries. cbn [map fst wkeys]. f_equal. apply list_eq. intros i.
      rewrite !list_lookup_fmap, list_lookup_imap. destruct (l !! i) eqn:E; cbn.
      + rewrite lookup_seq_lt by (by eapply lookup_lt_Some). done.
      + rewrite lookup_seq_ge by (by apply lookup_ge_None). done.
    - intros w ar Hw. cbn [wrun1]. unfold write_attributes, write_u64.
      destruct (write_bytes_flushed w ar (tar_prefix k "ATTR_COUNT")
        (pack_u64 (N.of_nat (length l))) Hw) as (w1 & H1 & F1).
      rewrite H1. cbn [mbind res_bind]. unfold attrs_entries.
      change (ar ++ (?x :: ?y)) with (ar ++ [x] ++ y). rewrite (app_assoc ar [_]).
      clear H1 Hw. revert F1. generalize (ar ++ [(tar_prefix k "ATTR_COUNT", pack_u64 (N.of_nat (length l)))]).
      clear ar w. intros ar F.
      assert (∀ l j w ar, flushed w ar → ∃ w', write_attributes_from marshal w k j l = Ok w' ∧
        flushed w' (ar ++ imap (λ i h, (tar_prefix k (pretty (j + i)), serialize_attribute marshal h)) l)) as H.
      { clear. induction l as [|h l IH]; intros j w ar F.
        - exists w. cbn. by rewrite app_nil_r.
        - cbn [write_attributes_from]. unfold write_attribute.
          destruct (write_bytes_flushed w ar (tar_prefix k (pretty j)) (serialize_attribute marshal h) F)
            as (w1 & H1 & F1).
          rewrite H1. cbn [mbind res_bind].
          destruct (IH (S j) w1 _ F1) as (w2 & H2 & F2). exists w2. split; [done|].
          rewrite <- app_assoc in F2. cbn [imap app] in *. rewrite Nat.add_0_r.
          erewrite imap_ext; [exact F2|]. intros i x _. cbn. by rewrite Nat.add_succ_r. }
      apply (H l 0 w1 ar F).
  Qed.

  Lemma creates_instances k g cell :
    table is_nil g cell → creates (WInstances k g) (instance_entries marshal is_nil attr_order g cell k).
  Proof using order_ok.
    intros T. split; [done|]. intros w ar Hw. cbn [wrun1]. by apply serialize_writes.
  Qed.

  Lemma creates_some o :
    (∀ k g, o = WInstances k g → ∃ cell, table is_nil g cell) → ∃ es, creates o es.
  Proof using order_ok.
    intros H. destruct o as [k b|k v|k h|k l|k g].
    - eexists. apply creates_bytes.
    - eexists. apply creates_u64.
    - eexists. apply creates_attr.
    - eexists. apply creates_attrs.
    - destruct (H k g eq_refl) as [cell T]. eexists. by apply creates_instances.
  Qed.

  Lemma run_ops ops : ∀ w ar,
    writes_tables is_nil ops → flushed w ar →
    ∃ w' es, res_foldl wrun1 w ops = Ok w' ∧ flushed w' (ar ++ es) ∧
      ∀ k, k ∈ map fst es ↔ ∃ o, o ∈ ops ∧ k ∈ wkeys o.
  Proof using order_ok.
    induction ops as [|o ops IH]; intros w ar Ht Hw.
    - exists w, []. rewrite app_nil_r. split; [done|]. split; [done|]. intros k. split.
      + intros H. by apply elem_of_nil in H.
      + intros (o & H & _). by apply elem_of_nil in H.
    - destruct (creates_some o) as (e1 & Hk1 & Hc1).
      { intros k g ->. apply (Ht k g). left. }
      destruct (Hc1 w ar Hw) as (w1 & H1 & F1).
      destruct (IH w1 (ar ++ e1)) as (w2 & e2 & H2 & F2 & Hk2); [|exact F1|].
      { intros k g Hin. apply (Ht k g). by right. }
      exists w2, (e1 ++ e2). cbn [res_foldl]. rewrite H1. cbn [mbind res_bind]. split; [done|].
      split; [by rewrite app_assoc|]. intros k. rewrite map_app, elem_of_app, Hk1, Hk2. split.
      + intros [H|(o' & Ho & H)]; [exists o; split; [left|done]|exists o'; split; [by right|done]].
      + intros (o' & Ho & H). apply elem_of_cons in Ho as [->|Ho]; [by left|right; eauto].
  Qed.

  Lemma stub_written metadata :
    ∃ w, classifier_stub metadata = Ok w ∧
      flushed w [("CLS_MANIFEST", format_version); ("METADATA", metadata)].
  Proof.
    unfold classifier_stub.
    destruct (entry_written tar_new [] "CLS_MANIFEST" format_version flushed_new) as (w1 & w2 & H1 & H2 & F2).
    rewrite H1. cbn [mbind res_bind]. rewrite H2. cbn [mbind res_bind].
    destruct (write_bytes_flushed w2 _ "METADATA" metadata F2) as (w3 & H3 & F3). eauto.
  Qed.

  Lemma written_all metadata ops :
    writes_tables is_nil ops →
    ∃ es, written metadata ops =
        Ok ([("CLS_MANIFEST", format_version); ("METADATA", metadata)] ++ es) ∧
      ∀ k, k ∈ map fst es ↔ ∃ o, o ∈ ops ∧ k ∈ wkeys o.
  Proof using order_ok.
    intros Ht. destruct (stub_written metadata) as (w & H & F).
    destruct (run_ops ops w _ Ht F) as (w' & es & H' & F' & Hk). exists es.
    unfold SerSpec.written. rewrite H. cbn [mbind res_bind]. rewrite H'. cbn [mbind res_bind].
    unfold tar_close. rewrite F'. done.
  Qed.

  Lemma written_around metadata pre o post es :
    writes_tables is_nil pre → writes_tables is_nil post → creates o es → NoDup (wkeys o) →
    untouched o pre →
    ∃ ar, written metadata (pre ++ o :: post) = Ok ar ∧
      ∀ k b, (k, b) ∈ es → get_named_file ar k = Ok b.
  Proof using order_ok.
    intros Ht1 Ht2 [Hk Hc] Hnd Hun. destruct (stub_written metadata) as (w & H & F).
    destruct (run_ops pre w _ Ht1 F) as (w1 & e1 & H1 & F1 & Hk1).
    destruct (Hc w1 _ F1) as (w2 & H2 & F2).
    destruct (run_ops post w2 _ Ht2 F2) as (w3 & e3 & H3 & F3 & Hk3).
    eexists. unfold SerSpec.written. rewrite H. cbn [mbind res_bind].
    rewrite res_foldl_app, H1. cbn [mbind res_bind res_foldl]. rewrite H2. cbn [mbind res_bind].
    rewrite H3. cbn [mbind res_bind]. unfold tar_close. rewrite F3. split; [reflexivity|].
    intros k b Hin. cbn [tw_done]. rewrite <- !app_assoc.
    assert (k ∈ wkeys o) as Hko.
    { rewrite <- Hk. by apply (elem_of_list_fmap_1 fst) in Hin. }
    destruct (Hun k Hko) as [Hres Hpre].
    rewrite get_named_app_r by exact Hres.
    rewrite get_named_app_r.
    2:{ rewrite Hk1. intros (o' & Ho & Ho'). by apply (Hpre o'). }
    apply get_named_elem; [by rewrite Hk|done].
  Qed.

  Lemma written_absent metadata ops k :
    writes_tables is_nil ops → k ∉ reserved → (∀ o, o ∈ ops → k ∉ wkeys o) →
    ∃ ar, written metadata ops = Ok ar ∧ get_named_file ar k = Err.
  Proof using order_ok.
    intros Ht Hr Hk. destruct (written_all metadata ops Ht) as (es & H & Hes).
    eexists. split; [exact H|]. apply get_named_absent. rewrite map_app, elem_of_app.
    intros [Hin|Hin]; [by apply Hr|]. apply Hes in Hin as (o & Ho & Hin). by eapply Hk.
  Qed.

  Lemma wkeys_attrs_NoDup k l : NoDup (wkeys (WAttrs k l)).
  Proof.
    cbn [wkeys]. apply NoDup_cons. split.
    - intros Hin. apply elem_of_list_fmap in Hin as (i & E & _). apply tar_prefix_inj in E.
      by eapply pretty_ne_count.
    - apply NoDup_fmap_2_strong; [|apply NoDup_seq]. intros i j _ _ E.
      apply tar_prefix_inj in E. by apply (inj pretty) in E.
  Qed.

  Lemma wkeys_instances_NoDup k g : NoDup (wkeys (WInstances k g)).
  Proof.
    change (wkeys (WInstances k g)) with
      (map (String.append k) ["MANIFEST"; "DIMS"; "CATTRS"; "ATTRS"; "DATA"]).
    apply NoDup_fmap_2; [apply _|]. apply (bool_decide_unpack _). vm_compute. done.
  Qed.

  Lemma attrs_read ar k l :
    (∀ h, h ∈ l → attr_sendable h.1 ∧ has_slice h) → (N.of_nat (length l) < 2^64)%N →
    (∀ n b, (n, b) ∈ attrs_entries k l → get_named_file ar n = Ok b) →
    ∃ l', get_attributes unmarshal ar k = Ok l' ∧ map fst l' = map fst l.
  Proof using faithful.
    intros Hl Hlen Hget. unfold get_attributes, get_u64.
    rewrite (Hget _ (pack_u64 (N.of_nat (length l)))) by left. cbn [mbind res_bind].
    rewrite unpack_pack_u64 by done. cbn [mbind res_bind]. rewrite Nat2N.id.
    set (flag := λ h : held, match h.1 with CatA _ vs => bool_decide (vs = []) | _ => false end).
    exists (map (λ h, (h.1, flag h)) l). split.
    2:{ rewrite map_map. done. }
    apply res_mapM_Ok. apply Forall2_same_length_lookup. split.
    { by rewrite seq_length, map_length. }
    intros i j h' Hi Hh. rewrite list_lookup_fmap in Hh.
    destruct (l !! i) as [[a b]|] eqn:E; [|done]. cbn in Hh. injection Hh as <-.
    apply lookup_seq in Hi as [-> _]. cbn [Nat.add].
    unfold get_attribute_for. rewrite (Hget _ (serialize_attribute marshal (a, b))).
    2:{ right. apply elem_of_lookup_imap. eauto. }
    cbn [mbind res_bind]. destruct (Hl (a, b)) as [Ha Hs]; [by eapply elem_of_list_lookup_2|].
    by rewrite (attribute_round_trip _ _ faithful).
  Qed.
End archives.

(** ** DenseInstances are consistent tables *)

Lemma dense_table pg h d order is_nil :
  reachable pg h d → (∀ a ag, DAddTo a ag ∉ h) → (∀ n z, DCreateGroup n z ∉ h) →
  distinct_attrs (dense_all_attrs d) → class_order d order →
  (N.of_nat (dense_size d).1 < 2^63)%N → (N.of_nat (dense_size d).2 < 2^63)%N →
  (∀ a, a ∈ dense_all_attrs d → attr_sendable a ∧ has_slice (a, is_nil a)) →
  table is_nil (dense_grid order d)
    (λ a i, match dense_get_attribute d a with
            | Ok s => match dense_get d s i with Ok v => v | _ => [] end
            | _ => []
            end).
Proof.
  intros Hr Hh1 Hh2 Hd Ho Hc Hn Ht. split; cbn [dense_grid gr_all_attrs gr_class_attrs gr_size].
  - apply dense_grid_in_order.
  - done.
  - intros a Ha. apply elem_class_attrs in Ha as (k & _ & Hk).
    unfold dense_all_attrs. unfold attr_at in Hk.
    apply bind_Some in Hk as (g & Hg & Ha). apply elem_of_list_In, in_concat.
    exists (g_attrs g). split; apply elem_of_list_In.
    + apply elem_of_list_fmap. exists g. split; [done|]. by eapply elem_of_list_lookup_2.
    + by eapply elem_of_list_lookup_2.
  - apply class_attrs_NoDup; [done|]. unfold class_order in Ho. rewrite Ho.
    apply NoDup_fst_map_to_list.
  - done.
  - done.
  - done.
  - done.
  - intros a Ha. cbn [gr_get_attribute gr_get].
    destruct (dense_get_attribute_finds d a Ha) as [s Hs]. exists s. split; [done|].
    intros i Hi. rewrite Hs.
    assert (sp_attr s = a) as Hsa by (by eapply get_attribute_exact).
    destruct (dense_get_attribute_ok _ _ _ Hs) as (Hat & _ & g & Hg).
    destruct (dense_get_length _ _ _ _ _ _ Hr Hg Hi) as (r & Hget & Hlen). rewrite Hget.
    split; [done|].
    assert (g_kind g = default_kind a) as Hk.
    { destruct Hr as [Hrun _]. apply (default_column_kind pg h d s g a Hrun Hh1 Hh2 Hg).
      rewrite Hsa in Hat. unfold attr_at in Hat. cbn [fst snd] in Hat.
      destruct Hg as [Hg _]. by rewrite Hg in Hat. }
    rewrite Hk in Hlen. destruct a as [| |n]; try exact Hlen. cbn [proper_cell default_kind] in *.
    destruct Hg as [Hg _]. unfold dense_get, idx in Hget. rewrite Hg in Hget.
    cbn [mbind res_bind] in Hget. unfold group_get in Hget. rewrite Hk in Hget.
    unfold bit_get in Hget. destruct (idx _ _); [|done..]. cbn [mbind res_bind] in Hget.
    injection Hget as <-. destruct (0 <? _)%N; [by right|by left].
Qed.

(** ** Whole round trips *)

Lemma instances_round_trip marshal unmarshal is_nil attr_order got pg g cell :
  json_faithful marshal unmarshal → any_order attr_order → full_reads got → table is_nil g cell →
  ∃ ar d, serialize_instances marshal is_nil attr_order g = Ok ar ∧
    deserialize_instances unmarshal got pg ar = Ok d ∧ same_table g cell d.
Proof.
  intros Hf Ho Hfull T. unfold serialize_instances, deserialize_instances.
  destruct (serialize_writes marshal is_nil attr_order Ho g cell tar_new [] "" T flushed_new) as (w & H & F).
  exists (instance_entries marshal is_nil attr_order g cell "").
  destruct (deserialize_ok marshal unmarshal Hf is_nil attr_order Ho got pg g cell
    (instance_entries marshal is_nil attr_order g cell "") "" T Hfull) as (d & Hd & Hs).
  { intros k b Hin. rewrite <- (app_nil_r (instance_entries _ _ _ _ _ _)).
    apply get_named_elem; [|done]. apply (wkeys_instances_NoDup "" g). }
  exists d. rewrite H. cbn [mbind res_bind]. unfold tar_close. rewrite F. done.
Qed.

Lemma instances_short marshal unmarshal is_nil attr_order got pg g cell :
  json_faithful marshal unmarshal → any_order attr_order → table is_nil g cell →
  short_rows got 0 (map (λ i, map (λ a, cell a i)
    (non_class_attributes attr_order g ++ gr_class_attrs g)) (seq 0 (gr_size g).2)) →
  ∃ ar, serialize_instances marshal is_nil attr_order g = Ok ar ∧
    deserialize_instances unmarshal got pg ar = Err.
Proof.
  intros Hf Ho T Hs. unfold serialize_instances, deserialize_instances.
  destruct (serialize_writes marshal is_nil attr_order Ho g cell tar_new [] "" T flushed_new) as (w & H & F).
  exists (instance_entries marshal is_nil attr_order g cell "").
  rewrite H. cbn [mbind res_bind]. unfold tar_close. rewrite F. split; [done|].
  apply (deserialize_short marshal unmarshal Hf is_nil attr_order Ho got pg g cell _ "" T); [|done].
  intros k b Hin. rewrite <- (app_nil_r (instance_entries _ _ _ _ _ _)).
  apply get_named_elem; [|done]. apply (wkeys_instances_NoDup "" g).
Qed.

Lemma archive_instances marshal unmarshal is_nil attr_order got pg metadata pre post k g cell :
  json_faithful marshal unmarshal → any_order attr_order → full_reads got →
  writes_tables is_nil pre → writes_tables is_nil post → table is_nil g cell →
  untouched (WInstances k g) (pre ++ post) →
  ∃ ar d, written marshal is_nil attr_order metadata (pre ++ WInstances k g :: post) = Ok ar ∧
    deserialize_from_tar unmarshal got pg ar k = Ok d ∧ same_table g cell d.
Proof.
  intros Hf Ho Hfull H1 H2 T Hu.
  destruct (written_around marshal is_nil attr_order Ho metadata pre (WInstances k g) post _ H1 H2
    (creates_instances marshal is_nil attr_order Ho k g cell T) (wkeys_instances_NoDup k g))
    as (ar & Hw & Hget).
  { intros n Hn. destruct (Hu n Hn) as [Hr Ho']. split; [done|]. intros o' Hin. apply Ho'.
    apply elem_of_app. by left. }
  destruct (deserialize_ok marshal unmarshal Hf is_nil attr_order Ho got pg g cell ar k T Hfull Hget)
    as (d & Hd & Hs). eauto 10.
Qed.

Lemma untouched_l o pre post : untouched o (pre ++ post) → untouched o pre.
Proof.
  intros Hu n Hn. destruct (Hu n Hn) as [Hr Ho']. split; [done|]. intros o' Hin. apply Ho'.
  apply elem_of_app. by left.
Qed.

Lemma archive_bytes marshal is_nil attr_order metadata pre post k b :
  any_order attr_order → writes_tables is_nil pre → writes_tables is_nil post →
  untouched (WBytes k b) (pre ++ post) →
  ∃ ar, written marshal is_nil attr_order metadata (pre ++ WBytes k b :: post) = Ok ar ∧
    get_named_file ar k = Ok b.
Proof.
  intros Ho H1 H2 Hu.
  destruct (written_around marshal is_nil attr_order Ho metadata pre (WBytes k b) post _ H1 H2
    (creates_bytes marshal is_nil attr_order k b) (NoDup_singleton k)) as (ar & Hw & Hget).
  { by eapply untouched_l. }
  exists ar. split; [done|]. apply Hget. left.
Qed.

Lemma archive_u64 marshal is_nil attr_order metadata pre post k v :
  any_order attr_order → writes_tables is_nil pre → writes_tables is_nil post → (v < 2^64)%N →
  untouched (WU64 k v) (pre ++ post) →
  ∃ ar, written marshal is_nil attr_order metadata (pre ++ WU64 k v :: post) = Ok ar ∧
    get_u64 ar k = Ok v.
Proof.
  intros Ho H1 H2 Hv Hu.
  destruct (written_around marshal is_nil attr_order Ho metadata pre (WU64 k v) post _ H1 H2
    (creates_u64 marshal is_nil attr_order k v) (NoDup_singleton k)) as (ar & Hw & Hget).
  { by eapply untouched_l. }
  exists ar. split; [done|]. unfold get_u64. rewrite (Hget k (pack_u64 v)) by left.
  cbn [mbind res_bind]. by apply unpack_pack_u64.
Qed.

Lemma archive_attribute marshal unmarshal is_nil attr_order metadata pre post k h :
  json_faithful marshal unmarshal → any_order attr_order →
  writes_tables is_nil pre → writes_tables is_nil post →
  attr_sendable h.1 → has_slice h → untouched (WAttr k h) (pre ++ post) →
  ∃ ar h', written marshal is_nil attr_order metadata (pre ++ WAttr k h :: post) = Ok ar ∧
    get_attribute_for unmarshal ar k = Ok h' ∧ h'.1 = h.1.
Proof.
  intros Hf Ho H1 H2 Ha Hs Hu. destruct h as [a b].
  destruct (written_around marshal is_nil attr_order Ho metadata pre (WAttr k (a, b)) post _ H1 H2
    (creates_attr marshal is_nil attr_order k (a, b)) (NoDup_singleton k)) as (ar & Hw & Hget).
  { by eapply untouched_l. }
  eexists ar, _. split; [done|]. unfold get_attribute_for.
  rewrite (Hget k (serialize_attribute marshal (a, b))) by left.
  cbn [mbind res_bind]. rewrite (attribute_round_trip _ _ Hf) by done. done.
Qed.

Lemma archive_attributes marshal unmarshal is_nil attr_order metadata pre post k l :
  json_faithful marshal unmarshal → any_order attr_order →
  writes_tables is_nil pre → writes_tables is_nil post →
  (∀ h, h ∈ l → attr_sendable h.1 ∧ has_slice h) → (N.of_nat (length l) < 2^64)%N →
  untouched (WAttrs k l) (pre ++ post) →
  ∃ ar l', written marshal is_nil attr_order metadata (pre ++ WAttrs k l :: post) = Ok ar ∧
    get_attributes unmarshal ar k = Ok l' ∧ map fst l' = map fst l.
Proof.
  intros Hf Ho H1 H2 Hl Hn Hu.
  destruct (written_around marshal is_nil attr_order Ho metadata pre (WAttrs k l) post _ H1 H2
    (creates_attrs marshal is_nil attr_order k l) (wkeys_attrs_NoDup k l)) as (ar & Hw & Hget).
  { by eapply untouched_l. }
  destruct (attrs_read marshal unmarshal Hf ar k l Hl Hn Hget) as (l' & H & Hl'). eauto.
Qed.

(** ** Structure without data *)

Lemma structure_then_write marshal is_nil attr_order g cell w ar key k b :
  any_order attr_order → table is_nil g cell → flushed w ar →
  gr_all_attrs g ≠ [] → 0 < (gr_size g).2 →
  ∃ w', serialize_to_tar marshal is_nil attr_order g w key false = Ok w' ∧
    write_bytes w' k b = Err ∧ tar_close w' = Err.
Proof.
  intros Ho T Hw Hne Hn.
  destruct (serialize_structure marshal is_nil attr_order Ho g cell w ar key T Hw) as (w' & H & Hp).
  exists w'. split; [done|].
  assert (length (rows_bytes (grid_rows attr_order g cell)) ≠ 0) as Hl.
  { unfold rows_bytes, grid_rows. rewrite map_map. cbn [snd].
    destruct (gr_size g).2 as [|n] eqn:En; [lia|]. cbn [seq map concat]. rewrite app_length.
    pose proof (columns_perm is_nil attr_order Ho g cell T) as Hperm.
    destruct (non_class_attributes attr_order g ++ gr_class_attrs g) as [|a l] eqn:E.
    { by apply Permutation_nil in Hperm. }
    cbn [map concat]. rewrite app_length.
    destruct (tb_cells _ _ _ T a) as (s & _ & Hc); [rewrite <- Hperm; left|].
    destruct (Hc 0) as [_ Hp']; [lia|]. apply proper_nonempty in Hp'.
    destruct (cell a 0); [done|]. cbn. lia. }
  destruct Hp as [->|[E _]]; [|done].
  destruct (length (rows_bytes (grid_rows attr_order g cell))); [done|]. done.
Qed.

Lemma structure_empty marshal unmarshal is_nil attr_order got pg g cell metadata key :
  json_faithful marshal unmarshal → any_order attr_order → full_reads got → table is_nil g cell →
  (gr_size g).2 = 0 → untouched (WInstances key g) [] →
  ∃ w w1 ar d, classifier_stub metadata = Ok w ∧
    serialize_to_tar marshal is_nil attr_order g w key false = Ok w1 ∧ tar_close w1 = Ok ar ∧
    deserialize_from_tar unmarshal got pg ar key = Ok d ∧ same_table g cell d.
Proof.
  intros Hf Ho Hfull T Hn Hu. destruct (stub_written metadata) as (w & H & F).
  destruct (serialize_structure marshal is_nil attr_order Ho g cell w _ key T F) as (w1 & H1 & Hp).
  assert (rows_bytes (grid_rows attr_order g cell) = []) as E.
  { unfold rows_bytes, grid_rows. by rewrite Hn. }
  rewrite E in Hp. apply pending_flushed in Hp. rewrite <- app_assoc in Hp.
  destruct (deserialize_ok marshal unmarshal Hf is_nil attr_order Ho got pg g cell
    ([("CLS_MANIFEST", format_version); ("METADATA", metadata)] ++ 
     instance_entries marshal is_nil attr_order g cell key ++ []) key T Hfull) as (d & Hd & Hs).
  { intros k b Hin. rewrite get_named_app_r.
    - apply get_named_elem; [apply (wkeys_instances_NoDup key g)|done].
    - apply Hu. change (k ∈ map fst (instance_entries marshal is_nil attr_order g cell key)).
      by apply (elem_of_list_fmap_1 fst) in Hin. }
  exists w, w1. eexists. exists d. split; [done|]. split; [done|]. split.
  { unfold tar_close. rewrite Hp. done. }
  split; [|done]. rewrite app_nil_r in Hd. unfold instance_entries in Hd. by rewrite E in Hd.
Qed.
