(** ARFF files: C123 - C130. *)
From Verif Require Import Prelude BytesModel FloatModel AttrModel AttrProofs StoreModel DenseModel DenseSpec
  DenseProofs GridModel GridSpec GridProofs TextModel CsvModel CsvSpec BagModel ArffModel ArffSpec ArffText
  ArffProofs ArffWrite CsvProps.
From Flocq Require Import IEEE754.Bits IEEE754.Binary.
From Coq Require Import Ascii.
Local Open Scope nat_scope.

(** A file of the examples, and what a reader that knows the numbers "1", "2" and "2.5"
    makes of it. *)
Definition f_file (lines : list string) : string := written false (map chars lines).
Definition f_read (file : string) : res dense := arff_to_instances cv_parse true 64 file.
(** What is seen of the result: the attributes, and the bytes in each row. *)
Definition f_seen (r : res dense) : res (list attr * list (list (res (list N)))) :=
  d ← r;
  specs ← dense_resolve d (dense_all_attrs d);
  Ok (dense_all_attrs d, map (λ i, map (λ s, dense_get d s i) specs) (seq 0 (dense_size d).2)).
Lemma f_seen_ok r x : f_seen r = Ok x → ∃ d, r = Ok d.
Proof. destruct r as [d| |]; [by exists d|done|done]. Qed.

Definition f_ok (r : res dense) : bool := match r with Ok _ => true | _ => false end.
Lemma f_ok_ok r : f_ok r = true → ∃ d, r = Ok d.
Proof. destruct r as [d| |]; [by exists d|done|done]. Qed.

(** ** C123 *)

(** A well-formed file is read as its table, whatever the case of the keywords, the
    white space, the comments and the empty lines. *)
Theorem C123_read : ∀ parse nil pg crlf file decls rows,
  arff_file crlf file decls rows →
  (∀ r j f dc, r ∈ rows → r !! j = Some f → decls !! j = Some dc → field_valid parse dc f) →
  ∃ d, arff_to_instances parse nil pg file = Ok d ∧ (∃ h, reachable pg h d) ∧
    arff_table parse decls rows d.
Proof. exact arff_reads. Qed.
Print Assumptions C123_read.

(** A file of that form. *)
Definition f_lines : list string :=
  ["% flowers"; "@RELATION iris flowers"; ""; "@attribute length  Real"; "@Attribute kind {red, blue}";
   "@attribute size {s,m}"; "@DATA"; "1, red ,s"; "% a remark"; ""; " 2.5,blue,m"].
Definition f_decls : list decl := [Real "length"; Nominal "kind" ["red"; "blue"]; Nominal "size" ["s"; "m"]].
Definition f_rows : list (list string) := [["1"; " red "; "s"]; [" 2.5"; "blue"; "m"]].

Ltac in_chars := apply (bool_decide_unpack _); vm_compute; exact I.

Lemma f_wf : arff_file true (written true (map chars f_lines)) f_decls f_rows.
Proof.
  split.
  - exists (map chars (take 6 f_lines)), (chars "@DATA"), (map chars (drop 7 f_lines)).
    split; [reflexivity|]. split; [|split; [reflexivity|split]].
    + unfold f_lines, f_decls. cbn [take map]. apply (header_comment (chars " flowers")).
      apply (header_relation (chars "@RELATION") [" "%char] (chars "iris flowers")); [reflexivity|by repeat constructor|done|].
      apply header_empty. apply header_declaration.
      { apply (declares_real (chars "@attribute") [" "%char] (chars "length") [" "%char; " "%char] (chars "Real") []);
          try reflexivity; try done; by repeat constructor. }
      apply header_declaration.
      { apply (declares_nominal (chars "@Attribute") [" "%char] (chars "kind") [" "%char] [chars "red"; chars "blue"]
          (chars "red, blue") []); try reflexivity; try done; try (by repeat constructor).
        - repeat (constructor; [split; [split; [done|by repeat constructor]|in_chars]|]). constructor.
        - in_chars.
        - split; [done|]. right. apply (spaced_more (chars "red") [" "%char] [chars "blue"] (chars "blue"));
            [by repeat constructor|done|constructor]. }
      apply header_declaration; [|constructor].
      apply (declares_nominal (chars "@attribute") [" "%char] (chars "size") [" "%char] [chars "s"; chars "m"]
          (chars "s,m") []); try reflexivity; try done; try (by repeat constructor).
      * repeat (constructor; [split; [split; [done|by repeat constructor]|in_chars]|]). constructor.
      * in_chars.
    + unfold f_lines, f_rows. cbn [drop map]. apply body_row.
      { split; [reflexivity|]. split; [done|]. split; [|done].
        repeat (constructor; [split; in_chars|]). constructor. }
      apply (body_comment (chars " a remark")). apply body_empty. apply body_row; [|constructor].
      split; [reflexivity|]. split; [done|]. split; [|done].
      repeat (constructor; [split; in_chars|]). constructor.
    + cbn [f_lines take drop map app].
      repeat (apply Forall_cons; split; [split; [in_chars|split; [done|vm_compute; reflexivity]]|]). constructor.
  - done.
  - in_chars.
  - intros r [->|[->|Hr]%elem_of_cons]%elem_of_cons; [done|done|]. by apply elem_of_nil in Hr.
Qed.

Example C123_ex : arff_file true (written true (map chars f_lines)) f_decls f_rows ∧
  (∀ r j f dc, r ∈ f_rows → r !! j = Some f → f_decls !! j = Some dc → field_valid cv_parse dc f) ∧
  f_seen (f_read (written true (map chars f_lines))) =
    Ok ([FloatA "length" 1; CatA "kind" ["red"; "blue"]; CatA "size" ["s"; "m"]],
        [[Ok (pack_float (b64_of_bits 0x3FF0000000000000)); Ok (pack_u64 0); Ok (pack_u64 0)];
         [Ok (pack_float (b64_of_bits 0x4004000000000000)); Ok (pack_u64 1); Ok (pack_u64 1)]]).
Proof.
  split; [exact f_wf|]. split.
  - intros r j f dc Hr Hf Hdc.
    apply elem_of_cons in Hr as [->|[->|Hr]%elem_of_cons]; [| |by apply elem_of_nil in Hr];
      (destruct j as [|[|[|j]]]; [| | |done]); cbn in Hf, Hdc; simplify_eq; cbn [field_valid].
    + exists (b64_of_bits 0x3FF0000000000000). reflexivity.
    + in_chars.
    + in_chars.
    + exists (b64_of_bits 0x4004000000000000). reflexivity.
    + in_chars.
    + in_chars.
  - vm_compute. reflexivity.
Qed.

(** ** C124 *)

(** Instances written to a file and read back, when the names are words, the categories
    plain words, numbers are written plainly and no line is too long: the columns in the
    order written, and in each cell the value that its text stands for.  Missing, since
    false: other names and categories. *)
Theorem C124_round_trip_partial : ∀ show parse nil pg g attrs relation specs file,
  iter_in_order g → resolve g attrs = Ok specs → arff_write show g attrs relation = Ok file →
  plain_numbers show parse → specs ≠ [] → Forall (λ s, plain_attr (sp_attr s)) specs →
  NoDup (map (λ s, attr_name (sp_attr s)) specs) →
  newline ∉ chars relation → carriage ∉ chars relation → short_lines file →
  ∃ rows d, cell_texts show g specs rows ∧ arff_to_instances parse nil pg file = Ok d ∧
    (∃ h, reachable pg h d) ∧
    arff_table parse (map (λ s, decl_of (sp_attr s)) specs) rows d.
Proof. exact arff_round_trip. Qed.
Print Assumptions C124_round_trip_partial.

(** Instances of the examples: read from records, the class last. *)
Definition f_dense (records : list record) : dense :=
  match csv_to_instances cv_parse 64 1 true records with Ok d => d | _ => dense_new end.
Definition f_grid (records : list record) : grid :=
  let d := f_dense records in dense_grid (map_to_list (d_class d)) d.
(** A Sprintf that writes every number as "1". *)
Definition f_show (_ : nat) (_ : N) : string := "1".
Definition f_write (records : list record) : res string :=
  arff_write f_show (f_grid records) (gr_all_attrs (f_grid records)) "r".

(** A value with a blank: the file written cannot be read. *)
Theorem C124_blank_value_refuted : ∃ records file,
  records = [["size"; "city"]; ["1"; "New York"]; ["1"; "Paris"]] ∧
  f_write records = Ok file ∧
  file = f_file ["@relation r"; ""; "@attribute size real"; "@attribute city {New York, Paris}"; "";
                 "@data"; "1,New York"; "1,Paris"] ∧
  f_read file = Err.
Proof.
  exists [["size"; "city"]; ["1"; "New York"]; ["1"; "Paris"]],
    (f_file ["@relation r"; ""; "@attribute size real"; "@attribute city {New York, Paris}"; "";
                 "@data"; "1,New York"; "1,Paris"]).
  split; [reflexivity|]. split; [vm_compute; reflexivity|]. split; [reflexivity|]. vm_compute. reflexivity.
Qed.
Print Assumptions C124_blank_value_refuted.

(** A name with a blank: the same. *)
Theorem C124_blank_name_refuted : ∃ records file,
  records = [["petal length"; "kind"]; ["1"; "red"]] ∧
  f_write records = Ok file ∧ f_read file = Err.
Proof.
  exists [["petal length"; "kind"]; ["1"; "red"]],
    (f_file ["@relation r"; ""; "@attribute petal length real"; "@attribute kind {red}"; ""; "@data"; "1,red"]).
  split; [reflexivity|]. split; vm_compute; reflexivity.
Qed.
Print Assumptions C124_blank_name_refuted.

(** A first value that starts with a percent sign: the row is lost without an error. *)
Theorem C124_percent_refuted : ∃ records file d,
  records = [["share"; "kind"]; ["%1"; "red"]; ["2%"; "red"]] ∧
  (gr_size (f_grid records)).2 = 2 ∧
  f_write records = Ok file ∧ f_read file = Ok d ∧ (dense_size d).2 = 1.
Proof.
  set (records := [["share"; "kind"]; ["%1"; "red"]; ["2%"; "red"]]).
  set (file := f_file ["@relation r"; ""; "@attribute share {%1, 2%}"; "@attribute kind {red}"; ""; "@data"; "%1,red"; "2%,red"]).
  assert (f_seen (f_read file) = Ok ([CatA "share" ["%1"; "2%"]; CatA "kind" ["red"]], [[Ok (pack_u64 1); Ok (pack_u64 0)]])) as Hs
    by (vm_compute; reflexivity).
  destruct (f_seen_ok _ _ Hs) as [d Hd].
  exists records, file, d. split; [reflexivity|]. split; [vm_compute; reflexivity|].
  split; [vm_compute; reflexivity|]. split; [exact Hd|].
  destruct (arff_any _ _ _ _ _ Hd) as (attrs & _ & _ & -> & _). vm_compute. reflexivity.
Qed.
Print Assumptions C124_percent_refuted.

Definition f_plain : list record := [["size"; "kind"]; ["1"; "red"]; ["1"; "blue"]].
Example C124_ex : ∃ specs file,
  iter_in_order (f_grid f_plain) ∧ resolve (f_grid f_plain) (gr_all_attrs (f_grid f_plain)) = Ok specs ∧
  f_write f_plain = Ok file ∧ plain_numbers f_show (λ s, if bool_decide (s = "0" ∨ s = "1") then Some (b64_of_bits 0) else None) ∧
  specs ≠ [] ∧ Forall (λ s, plain_attr (sp_attr s)) specs ∧
  NoDup (map (λ s, attr_name (sp_attr s)) specs) ∧ short_lines file.
Proof.
  eexists _, (f_file ["@relation r"; ""; "@attribute size real"; "@attribute kind {red, blue}"; ""; "@data"; "1,red"; "1,blue"]).
  split; [apply dense_grid_in_order|]. split; [vm_compute; reflexivity|]. split; [vm_compute; reflexivity|].
  assert (plain_text "1" ∧ plain_text "red" ∧ plain_text "blue") as (P1 & P2 & P3).
  { split_and!; (split; [split; [split; [done|by repeat constructor]|in_chars]|split; [in_chars|done]]). }
  split.
  { split; [intros p b; split; [exact P1|]|split]; eexists; vm_compute; reflexivity. }
  split; [done|]. split.
  { apply Forall_cons. split; [|apply Forall_singleton].
    - split; [split; [done|by repeat constructor]|]. by intros n vs [=].
    - split; [split; [done|by repeat constructor]|]. intros n vs [= _ <-]. split; [done|]. split; [in_chars|].
      intros v [->|[->|Hv]%elem_of_cons]%elem_of_cons; [done|done|by apply elem_of_nil in Hv]. }
  split; [in_chars|].
  unfold short_lines. intros l Hl. vm_compute in Hl.
  repeat (apply elem_of_cons in Hl as [->|Hl]; [vm_compute; reflexivity|]). by apply elem_of_nil in Hl.
Qed.

(** ** C125 *)

(** Categories with blanks after all the commas or after none.  Missing, since false:
    other white space. *)
Theorem C125_listing_partial : ∀ l n vs,
  declares l (Nominal n vs) → arff_attributes [l] = Ok [CatA n vs].
Proof.
  intros l n vs H. apply (declaration_nominal l n vs) in H. unfold arff_attributes. cbn [res_mapM].
  by rewrite H.
Qed.
Print Assumptions C125_listing_partial.

(** A blank after one comma only: two categories are taken for one. *)
Theorem C125_mixed_refuted : ∃ l, l = "@attribute a {x,y, z}" ∧
  arff_attributes [chars l] = Ok [CatA "a" ["x,y"; "z"]].
Proof. eexists. split; [reflexivity|]. vm_compute. reflexivity. Qed.
Print Assumptions C125_mixed_refuted.

(** Blanks inside the brackets: a category that is not there. *)
Theorem C125_brackets_refuted : ∃ l, l = "@attribute a { x, y }" ∧
  arff_attributes [chars l] = Ok [CatA "a" [""; "x"; "y"]].
Proof. eexists. split; [reflexivity|]. vm_compute. reflexivity. Qed.
Print Assumptions C125_brackets_refuted.

Example C125_ex : declares (chars "@Attribute kind {red, blue}") (Nominal "kind" ["red"; "blue"]).
Proof.
  apply (declares_nominal (chars "@Attribute") [" "%char] (chars "kind") [" "%char] [chars "red"; chars "blue"]
          (chars "red, blue") []); try reflexivity; try done; try (by repeat constructor).
  - repeat (constructor; [split; [split; [done|by repeat constructor]|in_chars]|]). constructor.
  - in_chars.
  - split; [done|]. right. apply (spaced_more (chars "red") [" "%char] [chars "blue"] (chars "blue"));
      [by repeat constructor|done|constructor].
Qed.

(** ** C126 *)

(** A file with a value that is not one of its attribute's is rejected. *)
Theorem C126_invalid_partial : ∀ parse nil pg crlf file decls rows r j f dc,
  arff_file crlf file decls rows →
  r ∈ rows → r !! j = Some f → decls !! j = Some dc → ¬ field_valid parse dc f →
  arff_to_instances parse nil pg file = Err.
Proof. exact arff_rejects. Qed.
Print Assumptions C126_invalid_partial.

(** Declarations of other types than real and a list in brackets are rejected as well, wherever
    they are. *)
Theorem C126_type : ∀ parse nil pg crlf lines kw b1 name b2 ty b3,
  Forall fitting lines → kw ++ b1 ++ name ++ b2 ++ ty ++ b3 ∈ lines →
  lower kw = chars "@attribute" → word name → word ty → blanks b1 → b1 ≠ [] → blanks b2 → b2 ≠ [] → blanks b3 →
  lower ty ≠ chars "real" → head ty ≠ Some opening →
  arff_attributes lines = Err ∧ arff_to_instances parse nil pg (written crlf lines) = Err.
Proof.
  intros parse nil pg crlf lines kw b1 name b2 ty b3 Hfit Hin Hkw Hname Hty Hb1 Hn1 Hb2 Hn2 Hb3 Hreal Hopen.
  assert (arff_declaration (kw ++ b1 ++ name ++ b2 ++ ty ++ b3) = Err) as Hd.
  { destruct (keyword_start kw _ (b1 ++ name ++ b2 ++ ty ++ b3) Hkw) as (c & r & E & ->).
    unfold arff_declaration. rewrite E, <- E. rewrite bool_decide_true by done. cbn [negb].
    rewrite words_word_blanks; [|by apply (lower_word kw "@attribute")|done|done].
    rewrite words_word_blanks by done. rewrite words_end by done.
    rewrite bool_decide_true by done. cbn [negb]. rewrite bool_decide_false by done. by rewrite bool_decide_false. }
  assert (arff_attributes lines = Err) as Ha.
  { unfold arff_attributes. assert (res_mapM arff_declaration lines = Err) as ->; [|done].
    assert (∀ l, arff_declaration l ≠ Panic) as Hnp.
    { intros l. unfold arff_declaration. destruct l; [done|]. destruct (negb _); [done|]. destruct (words _) as [|? [|? [|? ?]]]; try done.
      repeat case_match; done. }
    clear Hfit. induction lines as [|l lines IH]; [by apply elem_of_nil in Hin|]. cbn [res_mapM].
    apply elem_of_cons in Hin as [<- |Hin]; [by rewrite Hd|]. specialize (Hnp l). destruct (arff_declaration l); [|done|done].
    cbn [mbind res_bind]. by rewrite (IH Hin). }
  split; [done|]. unfold arff_to_instances. rewrite scan_written by done. by rewrite Ha.
Qed.
Print Assumptions C126_type.

Example C126_type_ex : arff_attributes [chars "@attribute x real"; chars "@attribute y numeric"] = Err.
Proof.
  apply (C126_type (λ _, None) true 64 false _ (chars "@attribute") [" "%char] (chars "y") [" "%char] (chars "numeric") []);
    try done; try (by repeat constructor).
  repeat (apply Forall_cons; split; [split; [in_chars|split; [done|vm_compute; reflexivity]]|]). constructor.
Qed.

(** A row with too few fields: zeros and first categories are made up. *)
Theorem C126_short_row_refuted : ∃ lines,
  lines = ["@attribute x real"; "@attribute kind {red, blue}"; "@data"; "1,blue"; "2"] ∧
  f_seen (f_read (f_file lines)) =
    Ok ([FloatA "x" 0; CatA "kind" ["red"; "blue"]],
        [[Ok (pack_float (b64_of_bits 0x3FF0000000000000)); Ok (pack_u64 1)];
         [Ok (pack_float (b64_of_bits 0x4000000000000000)); Ok (pack_u64 0)]]).
Proof. eexists. split; [reflexivity|]. vm_compute. reflexivity. Qed.
Print Assumptions C126_short_row_refuted.

(** A row with too many fields: reading stops there, without an error, and the rows
    that follow are all zeros and first categories. *)
Theorem C126_long_row_refuted : ∃ lines,
  lines = ["@attribute x real"; "@attribute kind {red, blue}"; "@data"; "1,blue,3"; "2,blue"] ∧
  f_seen (f_read (f_file lines)) =
    Ok ([FloatA "x" 0; CatA "kind" ["red"; "blue"]],
        [[Ok (pack_float (b64_of_bits 0x3FF0000000000000)); Ok (pack_u64 1)];
         [Ok (pack_u64 0); Ok (pack_u64 0)]]).
Proof. eexists. split; [reflexivity|]. vm_compute. reflexivity. Qed.
Print Assumptions C126_long_row_refuted.

(** A value that is no category of its attribute. *)
Definition f_bad : list string :=
  ["@attribute x real"; "@attribute kind {red, blue}"; "@data"; "1,green"].
Example C126_ex : ∃ decls rows, arff_file false (f_file f_bad) decls rows ∧
  rows = [["1"; "green"]] ∧ decls !! 1 = Some (Nominal "kind" ["red"; "blue"]) ∧
  ¬ field_valid cv_parse (Nominal "kind" ["red"; "blue"]) "green" ∧ f_read (f_file f_bad) = Err.
Proof.
  exists [Real "x"; Nominal "kind" ["red"; "blue"]], [["1"; "green"]].
  split; [|split; [reflexivity|split; [reflexivity|split; [cbn [field_valid]; in_chars|vm_compute; reflexivity]]]].
  split.
  - exists (map chars (take 2 f_bad)), (chars "@data"), (map chars (drop 3 f_bad)).
    split; [reflexivity|]. split; [|split; [reflexivity|split]].
    + unfold f_bad. cbn [take map]. apply header_declaration.
      { apply (declares_real (chars "@attribute") [" "%char] (chars "x") [" "%char] (chars "real") []);
          try reflexivity; try done; by repeat constructor. }
      apply header_declaration; [|constructor].
      apply (declares_nominal (chars "@attribute") [" "%char] (chars "kind") [" "%char] [chars "red"; chars "blue"]
          (chars "red, blue") []); try reflexivity; try done; try (by repeat constructor).
      * repeat (constructor; [split; [split; [done|by repeat constructor]|in_chars]|]). constructor.
      * in_chars.
      * split; [done|]. right. apply (spaced_more (chars "red") [" "%char] [chars "blue"] (chars "blue"));
            [by repeat constructor|done|constructor].
    + unfold f_bad. cbn [drop map]. apply body_row; [|constructor].
      split; [reflexivity|]. split; [done|]. split; [|done].
      repeat (constructor; [split; in_chars|]). constructor.
    + cbn [f_bad take drop map app].
      repeat (apply Forall_cons; split; [split; [in_chars|split; [done|vm_compute; reflexivity]]|]). constructor.
  - done.
  - in_chars.
  - intros r Hr. apply elem_of_list_singleton in Hr as ->. done.
Qed.

(** ** C127 *)

(** Whatever the text, instances that are read have the attributes that
    ParseARFFGetAttributes finds and the rows that ParseARFFGetRows counts, and hold in
    each categorical cell the code of one of the attribute's values. *)
Theorem C127_any_text : ∀ parse nil pg file d,
  arff_to_instances parse nil pg file = Ok d →
  ∃ attrs, arff_attributes (scan_lines file) = Ok attrs ∧
    dense_all_attrs d ≡ₚ attrs ∧ (dense_size d).2 = arff_count false (scan_lines file) ∧
    (∃ h, reachable pg h d) ∧
    ∀ s n vs i, attr_at d (sp_pond s, sp_pos s) = Some (CatA n vs) → i < (dense_size d).2 →
      ∃ k v, vs !! k = Some v ∧ dense_get d s i = Ok (pack_u64 (N.of_nat k)).
Proof. exact arff_any. Qed.
Print Assumptions C127_any_text.

Example C127_ex : ∃ lines d, lines = ["no key word"; "@attribute kind {red, blue}"; "@data"; "blue"; "blue,2,7"] ∧
  f_read (f_file lines) = Ok d ∧ (dense_size d).2 = 2.
Proof.
  set (lines := ["no key word"; "@attribute kind {red, blue}"; "@data"; "blue"; "blue,2,7"]).
  destruct (f_ok_ok (f_read (f_file lines))) as [d E]; [vm_compute; reflexivity|].
  exists lines, d. split; [reflexivity|]. split; [exact E|].
  destruct (arff_any _ _ _ _ _ E) as (attrs & _ & _ & -> & _). vm_compute. reflexivity.
Qed.

(** ** C128 *)

(** From a well-formed file no row is lost.  Missing, since false: other files. *)
Theorem C128_rows_partial : ∀ parse nil pg crlf file decls rows d,
  arff_file crlf file decls rows → arff_to_instances parse nil pg file = Ok d →
  (dense_size d).2 = length rows.
Proof.
  intros parse nil pg crlf file decls rows d [(hd & mark & b & -> & Hh & Hm & Hb & Hfit) _ _ _] H.
  destruct (arff_any _ _ _ _ _ H) as (attrs & _ & _ & -> & _). rewrite scan_written by done.
  by eapply count_file.
Qed.
Print Assumptions C128_rows_partial.

(** A line of 65536 letters in the data: the row after it is lost, without an error. *)
Definition f_long : list string :=
  ["@attribute x real"; "@data"; "1"; text (percent :: replicate (N.to_nat 65535) "x"%char); "2"].
Theorem C128_long_line_refuted : ∃ lines, lines = f_long ∧
  f_seen (f_read (f_file lines)) = Ok ([FloatA "x" 0], [[Ok (pack_float (b64_of_bits 0x3FF0000000000000))]]).
Proof. exists f_long. split; [reflexivity|]. vm_compute. reflexivity. Qed.
Print Assumptions C128_long_line_refuted.

(** A blank after [@data]: the rows are not counted, and reading the first is neither
    done nor an error, but a panic. *)
Theorem C128_blank_refuted : ∃ lines, lines = ["@attribute x real"; "@data "; "1"; "2"] ∧
  f_read (f_file lines) = Panic.
Proof. eexists. split; [reflexivity|]. vm_compute. reflexivity. Qed.
Print Assumptions C128_blank_refuted.

Example C128_ex : ∃ d, f_read (written true (map chars f_lines)) = Ok d ∧ (dense_size d).2 = 2.
Proof.
  destruct C123_ex as (Hwf & Hv & _). destruct (C123_read cv_parse true 64 _ _ _ _ Hwf Hv) as (d & Hd & _).
  exists d. split; [exact Hd|]. exact (C128_rows_partial _ _ _ _ _ _ _ _ Hwf Hd).
Qed.

(** ** C129 *)

(** Over an existing file that is not longer, the file holds what was written.
    Missing, since false: longer files, and files that do not exist. *)
Theorem C129_overwrite_partial : ∀ show old g attrs relation new,
  arff_write show g attrs relation = Ok new → length (chars old) ≤ length (chars new) →
  arff_write_file show (Some old) g attrs relation = Ok new.
Proof.
  intros show old g attrs relation new H Hl. unfold arff_write_file. rewrite H. cbn [mbind res_bind].
  unfold overwrite. rewrite drop_ge by done. rewrite app_nil_r, text_chars. done.
Qed.
Print Assumptions C129_overwrite_partial.

(** Over a longer file the rows of the old instances stay. *)
Theorem C129_longer_refuted : ∃ records old file d,
  records = [["x"; "kind"]; ["1"; "red"]] ∧
  f_write [["x"; "kind"]; ["1"; "red"]; ["2"; "red"]; ["1"; "red"]] = Ok old ∧
  arff_write_file f_show (Some old) (f_grid records) (gr_all_attrs (f_grid records)) "r" = Ok file ∧
  f_read file = Ok d ∧ (gr_size (f_grid records)).2 = 1 ∧ (dense_size d).2 = 3.
Proof.
  set (records := [["x"; "kind"]; ["1"; "red"]]).
  set (old := f_file ["@relation r"; ""; "@attribute x real"; "@attribute kind {red}"; ""; "@data"; "1,red"; "1,red"; "1,red"]).
  destruct (f_ok_ok (f_read old)) as [d E]; [vm_compute; reflexivity|].
  exists records, old, old, d. split; [reflexivity|]. split; [vm_compute; reflexivity|].
  split; [vm_compute; reflexivity|]. split; [exact E|]. split; [vm_compute; reflexivity|].
  destruct (arff_any _ _ _ _ _ E) as (attrs & _ & _ & -> & _). vm_compute. reflexivity.
Qed.
Print Assumptions C129_longer_refuted.

(** A file that does not exist is not created. *)
Theorem C129_new_refuted : ∃ g new, arff_write f_show g (gr_all_attrs g) "r" = Ok new ∧
  arff_write_file f_show None g (gr_all_attrs g) "r" = Err.
Proof.
  exists (f_grid f_plain), (f_file ["@relation r"; ""; "@attribute size real"; "@attribute kind {red, blue}"; ""; "@data"; "1,red"; "1,blue"]).
  split; vm_compute; reflexivity.
Qed.
Print Assumptions C129_new_refuted.

Example C129_ex : ∃ new, f_write f_plain = Ok new ∧
  arff_write_file f_show (Some "@relation r") (f_grid f_plain) (gr_all_attrs (f_grid f_plain)) "r" = Ok new.
Proof.
  exists (f_file ["@relation r"; ""; "@attribute size real"; "@attribute kind {red, blue}"; ""; "@data"; "1,red"; "1,blue"]).
  split; vm_compute; reflexivity.
Qed.

(** ** C130 *)

(** SerializeInstancesToDenseARFF writes each attribute once, the class attributes last,
    whatever the order of the map; with one class attribute, what is read back has it as
    its class. *)
Theorem C130_class_partial : ∀ show parse nil pg ao g c relation file,
  (∀ l, ao l ≡ₚ l) → iter_in_order g → gr_class_attrs g = [c] → c ∈ gr_all_attrs g → NoDup (gr_all_attrs g) →
  (∀ a, a ∈ gr_all_attrs g → ∃ s, gr_get_attribute g a = Ok s ∧ sp_attr s = a) →
  arff_save show ao (Some "") g relation = Ok file →
  plain_numbers show parse → Forall plain_attr (gr_all_attrs g) →
  NoDup (map attr_name (gr_all_attrs g)) →
  newline ∉ chars relation → carriage ∉ chars relation → short_lines file →
  ∃ attrs specs rows d, attrs ++ [c] ≡ₚ gr_all_attrs g ∧
    resolve g (attrs ++ [c]) = Ok specs ∧ cell_texts show g specs rows ∧
    arff_to_instances parse nil pg file = Ok d ∧
    arff_table parse (map decl_of (attrs ++ [c])) rows d ∧
    ∃ a s, declared (decl_of c) a ∧ dense_get_attribute d a = Ok s ∧
      d_class d = {[ (sp_pond s, sp_pos s) := true ]}.
Proof.
  intros show parse nil pg ao g c relation file Hao Hit Hcls Hc Hnd Hget Hsave Hnum Hplain Hnames Hrn Hrc Hshort.
  set (attrs := non_class_attrs ao g). exists attrs.
  assert (attrs ++ [c] ≡ₚ gr_all_attrs g) as Hperm.
  { unfold attrs, non_class_attrs. rewrite Hcls.
    destruct (difference_refs_spec (gr_all_attrs g) [c] (ao (build_attr_set (gr_all_attrs g)))) as [Hn He].
    { apply Hao. }
    apply NoDup_Permutation; [|done|].
    - apply NoDup_app. split; [done|]. split; [|apply NoDup_singleton].
      intros x Hx. apply He in Hx as [_ Hx]. done.
    - intros x. rewrite elem_of_app, He, elem_of_list_singleton. 
      destruct (decide (x = c)) as [->|Hne]; split; intros Hx; tauto. }
  assert (∃ specs, resolve g (attrs ++ [c]) = Ok specs ∧ map sp_attr specs = attrs ++ [c]) as (specs & Hres & Hsa).
  { assert (Forall (λ a, ∃ s, gr_get_attribute g a = Ok s ∧ sp_attr s = a) (attrs ++ [c])) as Hf.
    { apply Forall_forall. intros a Ha. apply Hget. by rewrite <- Hperm. }
    clear -Hf. unfold resolve. induction Hf as [|a l (s & Hs & Hsa) Hf (ss & IH & IH2)]; [by exists []|]. 
    exists (s :: ss). cbn [res_mapM]. rewrite Hs. cbn [mbind res_bind]. rewrite IH. cbn. split; [done|]. by f_equal. }
  unfold arff_save, arff_write_file in Hsave. apply bind_Ok in Hsave as (new & Hnew & Hfile).
  injection Hfile as <-. rewrite Hcls in Hnew. fold attrs in Hnew.
  assert (overwrite "" new = new) as Eo.
  { unfold overwrite. change (chars "") with ([] : list ascii). rewrite drop_nil, app_nil_r. apply text_chars. }
  rewrite Eo in *.
  assert (map (λ s, decl_of (sp_attr s)) specs = map decl_of (attrs ++ [c])) as Hdecls.
  { rewrite <- Hsa, map_map. done. }
  assert (map (λ s, attr_name (sp_attr s)) specs = map attr_name (attrs ++ [c])) as Hns.
  { rewrite <- Hsa, map_map. done. }
  destruct (arff_round_trip show parse nil pg g (attrs ++ [c]) relation specs new) as (rows & d & Hcells & Hd & Hre & Htab);
    try done.
  - intros ->. by destruct attrs.
  - apply Forall_forall. intros s Hs. rewrite Forall_forall in Hplain. apply Hplain. rewrite <- Hperm, <- Hsa.
    by apply elem_of_list_fmap_1.
  - rewrite Hns, Hperm. done.
  - exists specs, rows, d. rewrite Hdecls in Htab. split_and!; try done.
    destruct Htab as [Hsz Htab].
    destruct (Htab (length attrs) (decl_of c)) as (a & s & Ha & Hs & _ & Hclass).
    { rewrite map_app, lookup_app_r by (by rewrite map_length). rewrite map_length, Nat.sub_diag. done. }
    exists a, s. split_and!; try done. apply Hclass. rewrite map_length, app_length. cbn. lia.
Qed.
Print Assumptions C130_class_partial.

(** The order of the other columns is that of a map: two calls may write the columns in
    different orders. *)
Theorem C130_order_refuted : ∃ g f1 f2,
  gr_all_attrs g = [FloatA "x" 1; FloatA "y" 1; CatA "kind" ["red"]] ∧
  arff_save f_show (λ l, l) (Some "") g "r" = Ok f1 ∧ arff_save f_show (@rev _) (Some "") g "r" = Ok f2 ∧
  arff_attributes (scan_lines f1) = Ok [FloatA "x" 0; FloatA "y" 0; CatA "kind" ["red"]] ∧
  arff_attributes (scan_lines f2) = Ok [FloatA "y" 0; FloatA "x" 0; CatA "kind" ["red"]].
Proof.
  exists (f_grid [["x"; "y"; "kind"]; ["1"; "2"; "red"]]),
    (f_file ["@relation r"; ""; "@attribute x real"; "@attribute y real"; "@attribute kind {red}"; ""; "@data"; "1,1,red"]),
    (f_file ["@relation r"; ""; "@attribute y real"; "@attribute x real"; "@attribute kind {red}"; ""; "@data"; "1,1,red"]).
  split_and!; vm_compute; reflexivity.
Qed.
Print Assumptions C130_order_refuted.

Example C130_ex : ∃ file, arff_save f_show (@rev _) (Some "") (f_grid f_plain) "r" = Ok file ∧
  gr_class_attrs (f_grid f_plain) = [CatA "kind" ["red"; "blue"]] ∧
  CatA "kind" ["red"; "blue"] ∈ gr_all_attrs (f_grid f_plain) ∧ NoDup (map attr_name (gr_all_attrs (f_grid f_plain))).
Proof.
  exists (f_file ["@relation r"; ""; "@attribute size real"; "@attribute kind {red, blue}"; ""; "@data"; "1,red"; "1,blue"]).
  split; [vm_compute; reflexivity|]. split; [vm_compute; reflexivity|].
  assert (gr_all_attrs (f_grid f_plain) = [FloatA "size" 1; CatA "kind" ["red"; "blue"]]) as -> by (vm_compute; reflexivity).
  split; in_chars.
Qed.
