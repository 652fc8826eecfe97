(** Reading CSV files: C35, C36, C75. *)
From Verif Require Import Prelude BytesModel FloatModel AttrModel StoreModel DenseModel DenseSpec
  GridModel TextModel CsvModel CsvSpec TextProofs CsvProofs.
From Flocq Require Import IEEE754.Bits IEEE754.Binary.
From Coq Require Import Ascii.
Local Open Scope nat_scope.

(** ** C35 *)

(** A ParseFloat that knows the numbers of the examples. *)
Definition cv_parse (s : string) : option binary64 :=
  if bool_decide (s = "1") then Some (b64_of_bits 0x3FF0000000000000)
  else if bool_decide (s = "2") then Some (b64_of_bits 0x4000000000000000)
  else if bool_decide (s = "2.5") then Some (b64_of_bits 0x4004000000000000)
  else None.

(** Two columns with the same name: the second overwrites the first, the field "1"
    is nowhere in the instances. *)
Theorem C35_duplicate_names_refuted : ∃ parse f records d,
  records = [["a"; "a"]; ["1"; "2"]] ∧ parse "1" = Some f ∧
  csv_to_instances parse 64 0 true records = Ok d ∧
  ∀ s g, column_of d s g → dense_get d s 0 ≠ Ok (pack_float f).
Proof.
  exists cv_parse, (b64_of_bits 0x3FF0000000000000), [["a"; "a"]; ["1"; "2"]]. eexists.
  split; [reflexivity|]. split; [reflexivity|]. split; [vm_compute; reflexivity|].
  intros [i j a] g [Hg Hp]. cbn [sp_pond sp_pos] in Hg, Hp.
  destruct i as [|i]; [|destruct i; discriminate]. cbn in Hg. injection Hg as <-. cbn in Hp.
  destruct j as [|[|j]]; [vm_compute; discriminate|vm_compute; discriminate|exfalso; cbn in Hp; lia].
Qed.
Print Assumptions C35_duplicate_names_refuted.

(** With distinct column names every field is where it belongs, for any ParseFloat.
    Missing, since false: columns with the same name. *)
Theorem C35_fields_partial : ∀ parse pg prec has_headers records d,
  csv_to_instances parse pg prec has_headers records = Ok d →
  (∀ j k n, column_name has_headers records j = Some n →
            column_name has_headers records k = Some n → j = k) →
  (∃ h, reachable pg h d) ∧ ∃ w, table_read parse has_headers records w d.
Proof. exact csv_reads_distinct. Qed.
Print Assumptions C35_fields_partial.

(** Without headers the names are distinct. *)
Theorem C35_fields_no_header : ∀ parse pg prec records d,
  csv_to_instances parse pg prec false records = Ok d →
  (∃ h, reachable pg h d) ∧ ∃ w, table_read parse false records w d.
Proof. exact csv_reads_numbered. Qed.
Print Assumptions C35_fields_no_header.

(** The parser succeeds on a rectangular file with a data record whose number
    columns parse. *)
Theorem C35_total : ∀ parse pg prec has_headers records w,
  0 < w → (∀ r, r ∈ records → length r = w) → data_records has_headers records ≠ [] →
  (∀ j k n, column_name has_headers records j = Some n →
            column_name has_headers records k = Some n → j = k) →
  (∀ j r1 v1 r v, head (data_records has_headers records) = Some r1 → r1 !! j = Some v1 →
     number (chars (trim_blanks v1)) → r ∈ data_records has_headers records →
     r !! j = Some v → v ≠ EmptyString → is_Some (parse (trim_space v))) →
  ∃ d, csv_to_instances parse pg prec has_headers records = Ok d.
Proof. exact csv_total. Qed.
Print Assumptions C35_total.

(** What counts as a number. *)
Theorem C35_number : ∀ s, is_number s = true ↔ number (chars s).
Proof. exact is_number_spec. Qed.
Print Assumptions C35_number.

Definition cv_records : list record :=
  [["x "; "kind"]; ["1"; " red"]; ["2.5"; "blue"]; [""; "red"]].

Example C35_ex : ∃ d, csv_to_instances cv_parse 64 1 true cv_records = Ok d ∧
  dense_all_attrs d = [FloatA "x" 1; CatA "kind" ["red"; "blue"]] ∧
  map (λ i, dense_get d (Spec 0 0 (FloatA "x" 1)) i) [0; 1; 2] =
    [Ok (pack_float (b64_of_bits 0x3FF0000000000000));
     Ok (pack_float (b64_of_bits 0x4004000000000000)); Ok (replicate 8 0%N)] ∧
  map (λ i, dense_get d (Spec 1 0 (CatA "kind" ["red"; "blue"])) i) [0; 1; 2] =
    [Ok (pack_u64 0); Ok (pack_u64 1); Ok (pack_u64 0)].
Proof.
  eexists. split; [vm_compute; reflexivity|]. split; [vm_compute; reflexivity|].
  split; vm_compute; reflexivity.
Qed.

Example C35_number_ex :
  is_number "-12.5e+3" = true ∧ is_number ".5" = true ∧ is_number "5." = false ∧
  is_number "1e" = false ∧ is_number "NaN" = false.
Proof. vm_compute. done. Qed.

(** ** C36 *)

Theorem C36_plain_rows : ∀ parse pg prec has_headers records d,
  csv_to_instances parse pg prec has_headers records = Ok d →
  (dense_size d).2 = length (data_records has_headers records).
Proof. exact csv_to_instances_rows. Qed.
Print Assumptions C36_plain_rows.

Theorem C36_templated_rows : ∀ parse order corder prec has_headers t records d,
  csv_to_templated parse order corder prec has_headers t records = Ok d →
  (dense_size d).2 = length (data_records has_headers records).
Proof. exact csv_to_templated_rows. Qed.
Print Assumptions C36_templated_rows.

(** With attribute groups and a header there is a row too many. *)
Theorem C36_grouped_refuted : ∃ parse order pg prec groups classes overrides records d,
  csv_to_grouped parse order pg prec groups classes overrides true records = Ok d ∧
  (dense_size d).2 ≠ length (data_records true records).
Proof.
  exists cv_parse, map_to_list, 64, 1, {["x" := "G"]}, {["kind" := "C"]}, ∅, cv_records.
  eexists. split; [vm_compute; reflexivity|]. vm_compute. discriminate.
Qed.
Print Assumptions C36_grouped_refuted.

(** Missing, since false: the header is not counted. *)
Theorem C36_grouped_partial : ∀ parse order pg prec groups classes overrides has_headers records d,
  csv_to_grouped parse order pg prec groups classes overrides has_headers records = Ok d →
  (dense_size d).2 = length records.
Proof. exact csv_to_grouped_rows. Qed.
Print Assumptions C36_grouped_partial.

Example C36_ex : ∃ t d,
  csv_to_instances cv_parse 64 1 true cv_records = Ok t ∧ (dense_size t).2 = 3 ∧
  csv_to_templated cv_parse (map_to_list (d_agmap t)) (map_to_list (d_class t)) 1 true t
    (take 3 cv_records) = Ok d ∧ (dense_size d).2 = 2.
Proof.
  eexists _, _. split; [vm_compute; reflexivity|]. split; [vm_compute; reflexivity|].
  split; [vm_compute; reflexivity|]. vm_compute. reflexivity.
Qed.

(** ** C75 *)

(** 2.345 has three digits after the dot; the estimate is 0, since the dot of the
    regular expression also matches the comma before it. *)
Theorem C75_precision_refuted : ∃ line,
  has_decimals (chars line) 3 ∧ csv_precision [line] = 0.
Proof.
  exists "1,2.345". split; [|vm_compute; reflexivity].
  exists (chars "1,"), "2"%char, (chars "345"), []. split; [reflexivity|].
  split; [reflexivity|]. split; [repeat constructor|]. split; [reflexivity|]. split; [lia|done].
Qed.
Print Assumptions C75_precision_refuted.

(** A positive estimate is the precision of some number in the file.  Missing, since
    false: that it is the largest one. *)
Theorem C75_precision_partial : ∀ lines,
  csv_precision lines = 0 ∨
  ∃ line, line ∈ lines ∧ has_decimals (chars line) (csv_precision lines).
Proof. exact csv_precision_attained. Qed.
Print Assumptions C75_precision_partial.

Example C75_ex : csv_precision ["x, y"; "1.25, a"; "2.5, b"] = 2.
Proof. vm_compute. reflexivity. Qed.
