(** Model of base/arff.go: reading and writing dense ARFF files.  Texts are ASCII. *)
From Verif Require Import Prelude BytesModel FloatModel AttrModel StoreModel DenseModel
  GridModel TextModel CsvModel BagModel.
From Flocq Require Import IEEE754.Bits IEEE754.Binary.
From Coq Require Import Ascii.
Local Open Scope nat_scope.

(** ** The standard library *)

Definition newline : ascii := "010"%char.
Definition carriage : ascii := "013"%char.
Definition comma : ascii := ","%char.
Definition quote : ascii := """"%char.
Definition at_sign : ascii := "@"%char.
Definition percent : ascii := "%"%char.
Definition opening : ascii := "{"%char.
Definition closing : ascii := "}"%char.

(** [strings.ToLower] on ASCII. *)
Definition lower_char (c : ascii) : ascii :=
  if (65 <=? code c) && (code c <=? 90) then ascii_of_nat (code c + 32) else c.
Definition lower (l : list ascii) : list ascii := map lower_char l.

(** [strings.Fields]: the words between white space; [acc] holds the letters of the
    current word, last first. *)
Fixpoint words_from (acc : list ascii) (l : list ascii) : list (list ascii) :=
  match l with
  | [] => match acc with [] => [] | _ => [rev acc] end
  | c :: r =>
      if is_space c
      then match acc with [] => words_from [] r | _ => rev acc :: words_from [] r end
      else words_from (c :: acc) r
  end.
Definition words : list ascii → list (list ascii) := words_from [].

(** [bufio.Scanner] with [ScanLines]: the lines, without a trailing carriage return
    and without an empty last one.  The scanner stops at a line that does not fit
    into its buffer of [bufio.MaxScanTokenSize] = 65536 bytes; its error is reported by
    [Err()], which the callers below do not ask for. *)
Definition line_limit : N := 65535.
Definition drop_cr (l : list ascii) : list ascii :=
  match last l with
  | Some c => if bool_decide (c = carriage) then removelast l else l
  | None => l
  end.
Definition raw_lines (t : list ascii) : list (list ascii) :=
  let ps := split_on newline t in
  match last ps with Some [] => removelast ps | _ => ps end.
Fixpoint scan_fitting (ls : list (list ascii)) : list (list ascii) :=
  match ls with
  | [] => []
  | l :: ls => if (N.of_nat (length l) <=? line_limit)%N then drop_cr l :: scan_fitting ls
               else []
  end.
Definition scan_lines (t : string) : list (list ascii) := scan_fitting (raw_lines (chars t)).

(** [csv.Reader.Read] on a text of one line: the fields, or an error for a misplaced
    quote.  [acc] holds the letters of the current field, last first. *)
Inductive csv_state := AtStart | InBare | InQuoted | AfterQuote.
Fixpoint csv_scan (st : csv_state) (acc : list ascii) (l : list ascii)
    : res (list (list ascii)) :=
  match l with
  | [] => match st with InQuoted => Err | _ => Ok [rev acc] end
  | c :: r =>
      match st with
      | InQuoted => if bool_decide (c = quote) then csv_scan AfterQuote acc r
                    else csv_scan InQuoted (c :: acc) r
      | _ =>
          if bool_decide (c = comma) then fs ← csv_scan AtStart [] r; Ok (rev acc :: fs)
          else match st with
               | AtStart => if bool_decide (c = quote) then csv_scan InQuoted [] r
                            else csv_scan InBare [c] r
               | InBare => if bool_decide (c = quote) then Err else csv_scan InBare (c :: acc) r
               | _ => if bool_decide (c = quote) then csv_scan InQuoted (c :: acc) r else Err
               end
      end
  end.
(** The reader drops a carriage return at the end and skips an empty line: there is at
    most one record. *)
Definition csv_line (l : list ascii) : res (option (list (list ascii))) :=
  match drop_cr l with
  | [] => Ok None
  | l => fs ← csv_scan AtStart [] l; Ok (Some fs)
  end.

(** ** Reading *)

Definition data_mark : list ascii := chars "@data".

(** base/arff.go:77-111 [ParseARFFGetRows], on the lines. *)
Fixpoint arff_count (counting : bool) (lines : list (list ascii)) : nat :=
  match lines with
  | [] => 0
  | [] :: lines => arff_count counting lines
  | (c :: l) :: lines =>
      if counting : bool then
        if bool_decide (c = at_sign ∨ c = percent) then arff_count counting lines
        else S (arff_count counting lines)
      else if bool_decide (c = at_sign)
      then arff_count (bool_decide (lower (c :: l) = data_mark)) lines
      else arff_count counting lines
  end.

(** base/arff.go:158-166: the categories of a declaration.  [cats] is not empty and
    neither is its first element; [x[1:]] and [x[:len(x)-1]] of the code are [tail] and
    [removelast]. *)
Definition strip_comma (l : list ascii) : list ascii :=
  match last l with
  | Some c => if bool_decide (c = comma) then removelast l else l
  | None => l
  end.
Definition on_last (f : list ascii → list ascii) (l : list (list ascii)) : list (list ascii) :=
  match last l with Some x => removelast l ++ [f x] | None => l end.
Definition arff_categories (cats : list (list ascii)) : list string :=
  match cats with
  | [] => []
  | c :: cats => map (λ v, text (strip_comma (trim_list is_space v)))
                   (on_last (@removelast ascii) (tail c :: cats))
  end.

(** base/arff.go:126-183: the attribute a line declares, if any; its precision is
    filled in later.  The panics are error values, recovered at line 255 and
    returned. *)
Definition arff_declaration (line : list ascii) : res (option attr) :=
  match line with
  | [] => Ok None
  | c :: _ =>
      if negb (bool_decide (c = at_sign)) then Ok None else
      match words line with
      | kw :: name :: ty :: more =>
          if negb (bool_decide (lower kw = chars "@attribute")) then Ok None else
          if bool_decide (lower ty = chars "real") then Ok (Some (FloatA (text name) 0)) else
          if bool_decide (head ty = Some opening) then
            if bool_decide (last (List.last more ty) = Some closing) then
              let cats := match more with [] => split_on comma ty | _ => ty :: more end in
              Ok (Some (CatA (text name)
                    (cat_encode_all [] (arff_categories cats)).1))
            else Err
          else Err
      | _ => Ok None
      end
  end.

(** base/arff.go:124-195 [ParseARFFGetAttributes]. *)
Definition with_precision (prec : nat) (a : attr) : attr :=
  match a with FloatA n _ => FloatA n prec | a => a end.
Definition arff_attributes (lines : list (list ascii)) : res (list attr) :=
  attrs ← res_mapM arff_declaration lines;
  Ok (map (with_precision (file_precision 0 0 lines)) (omap id attrs)).

(** How the reading of the data ends: at the end of the text, with an error, with a
    run-time error, or with the panic that fixed.go raises with a string. *)
Inductive ending := Finished | Failed | RuntimeError | TextPanic.

Section read.
  (** [strconv.ParseFloat(s, 64)]: the float, or an error. *)
  Variable parse : string → option binary64.
  (** Does [recover()] swallow a [panic(nil)]?  It does before Go 1.21, and later in a
      module that, like this one, asks for an older version. *)
  Variable nil_swallowed : bool.

  (** base/arff.go:231-236: one field.  [GetSysValFromString] finds a category that
      [GetSysVal] has found. *)
  Definition arff_put (d : dense) (s : spec) (row : nat) (v : list ascii) : dense * ending :=
    match (match sp_attr s with
           | CatA _ vs => cat_get_sysval vs (text v)
           | FloatA _ _ => pack_float <$> parse (text v)
           | BinA _ => (λ f, [if float_gt f (b64_of_bits 0) then 1%N else 0%N]) <$> parse (text v)
           end) with
    | None => (d, Failed)
    | Some b =>
        match dense_set d s row b with
        | Ok d => (d, Finished)
        | _ => (d, match d_ags d !! sp_pond s with
                   | Some g => match g_kind g with
                               | GFixed size =>
                                   if length (g_alloc g) <? fixed_offset g size (sp_pos s) row
                                   then RuntimeError else TextPanic
                               | GBits => RuntimeError
                               end
                   | None => RuntimeError
                   end)
        end
    end.

  (** base/arff.go:229-237: one record; [specs[i]] is a run-time error if there are more
      fields than attributes. *)
  Fixpoint arff_fields (specs : list spec) (row : nat) (d : dense) (fields : list (list ascii))
      : dense * ending :=
    match fields with
    | [] => (d, Finished)
    | v :: fields =>
        match specs with
        | [] => (d, RuntimeError)
        | s :: specs =>
            match arff_put d s row (trim_list is_space v) with
            | (d, Finished) => arff_fields specs row d fields
            | r => r
            end
        end
    end.

  (** base/arff.go:214-247: the lines. *)
  Fixpoint arff_lines (specs : list spec) (reading : bool) (row : nat) (d : dense)
      (lines : list (list ascii)) : dense * ending :=
    match lines with
    | [] => (d, Finished)
    | l :: lines =>
        if bool_decide (head l = Some percent) then arff_lines specs reading row d lines
        else if reading : bool then
          match csv_line l with
          | Ok None => arff_lines specs reading row d lines
          | Ok (Some fields) =>
              match arff_fields specs row d fields with
              | (d, Finished) => arff_lines specs reading (S row) d lines
              | r => r
              end
          | _ => (d, Failed)
          end
        else arff_lines specs (bool_decide (trim_list is_space (lower l) = data_mark)) row d lines
    end.

  (** base/arff.go:199-250 [ParseDenseARFFBuildInstancesFromReader] with the recover of
      its caller, lines 253-261: a run-time error becomes a [panic(nil)], the others
      panic in the deferred function, where [r.(error)] fails.  ResolveAttributes
      panics with an error value. *)
  Definition arff_build (attrs : list attr) (lines : list (list ascii)) (d : dense) : res dense :=
    specs ← match dense_resolve d attrs with Panic => Err | r => r end;
    match arff_lines specs false 0 d lines with
    | (d, Finished) => Ok d
    | (_, Failed) => Err
    | (d, RuntimeError) => if nil_swallowed then Ok d else Panic
    | (_, TextPanic) => Panic
    end.

  (** base/arff.go:253-297 [ParseDenseARFFToInstances] on the contents of the file. *)
  Definition arff_to_instances (pg : nat) (file : string) : res dense :=
    let lines := scan_lines file in
    attrs ← arff_attributes lines;
    r ← add_all pg dense_new attrs;
    match last attrs with
    | None => Panic
    | Some a =>
        d ← match dense_set_class r.1 a true with Err => Ok r.1 | d => d end;
        arff_build attrs lines (dense_extend d (arff_count false lines))
    end.
End read.

(** ** Writing *)

(** [strings.Join]. *)
Fixpoint join (sep : string) (l : list string) : string :=
  match l with
  | [] => ""
  | [x] => x
  | x :: l => x +:+ sep +:+ join sep l
  end.

Definition eol : string := String newline "".

(** base/arff.go:52-60: the declaration of an attribute. *)
Definition arff_declare (a : attr) : string :=
  "@attribute " +:+ attr_name a +:+ " " +:+
  match a with CatA _ vs => "{" +:+ join ", " vs +:+ "}" | _ => "real" end +:+ eol.

Section write.
  (** [fmt.Sprintf("%.*f")]: precision and bits of the float. *)
  Variable show : nat → N → string.

  (** base/arff.go:63-71: one row. *)
  Definition arff_row (specs : list spec) (out : string) (vals : list (list N)) (_ : nat)
      : res (string * cb) :=
    fields ← res_mapM (λ '(i, v), s ← idx specs i; attr_decode show (sp_attr s) v)
               (imap pair vals);
    Ok (out +:+ join "," fields +:+ eol, Cont).

  (** base/arff.go:44-74 [SerializeInstancesToWriterDenseARFFWithAttributes]: what is
      written.  Errors of the writer are ignored by the code. *)
  Definition arff_write (g : grid) (attrs : list attr) (relation : string) : res string :=
    specs ← resolve g attrs;
    let header := "@relation " +:+ relation +:+ eol +:+ eol +:+
      String.concat "" (map (λ s, arff_declare (sp_attr s)) specs) +:+
      eol +:+ "@data" +:+ eol in
    r ← map_over_rows g specs (arff_row specs) header;
    Ok r.1.

  (** base/arff.go:31-42 [SerializeInstancesToDenseARFFWithAttributes] onto a file with
      the given contents: the file is opened without being created or truncated, so that
      the end of a longer file stays. *)
  Definition overwrite (old new : string) : string :=
    text (chars new ++ drop (length (chars new)) (chars old)).
  Definition arff_write_file (old : option string) (g : grid) (attrs : list attr)
      (relation : string) : res string :=
    match old with
    | None => Err
    | Some old => new ← arff_write g attrs relation; Ok (overwrite old new)
    end.

  (** base/arff.go:16-27 [SerializeInstancesToDenseARFF]: the class attributes last;
      [ao] is the order of the map of attributes. *)
  Definition arff_save (ao : list attr → list attr) (old : option string) (g : grid)
      (relation : string) : res string :=
    arff_write_file old g (non_class_attrs ao g ++ gr_class_attrs g) relation.
End write.
