(** The string functions of Go's standard library used by the parsers, on ASCII
    text: [strings] and the two regular expressions of base/csv.go. *)
From Verif Require Import Prelude.
From Coq Require Import Ascii.
Local Open Scope nat_scope.

Definition code (c : ascii) : nat := nat_of_ascii c.

(** [strings.TrimSpace] removes \t \n \v \f \r and space at both ends (also U+0085
    and U+00A0, which are not ASCII). *)
Definition is_space (c : ascii) : bool := (code c =? 32) || ((9 <=? code c) && (code c <=? 13)).
Definition is_blank (c : ascii) : bool := code c =? 32.
Definition is_digit (c : ascii) : bool := (48 <=? code c) && (code c <=? 57).

Fixpoint drop_while (p : ascii → bool) (l : list ascii) : list ascii :=
  match l with
  | [] => []
  | c :: r => if p c then drop_while p r else l
  end.
Fixpoint take_while (p : ascii → bool) (l : list ascii) : list ascii :=
  match l with
  | [] => []
  | c :: r => if p c then c :: take_while p r else []
  end.
Definition trim_list (p : ascii → bool) (l : list ascii) : list ascii :=
  rev (drop_while p (rev (drop_while p l))).
Definition chars : string → list ascii := String.list_ascii_of_string.
Definition text : list ascii → string := String.string_of_list_ascii.

Definition trim_space (s : string) : string := text (trim_list is_space (chars s)).
(** [strings.Trim(s, " ")]. *)
Definition trim_blanks (s : string) : string := text (trim_list is_blank (chars s)).

(** [strings.Split(s, sep)] for a single character. *)
Fixpoint split_on (sep : ascii) (l : list ascii) : list (list ascii) :=
  match l with
  | [] => [[]]
  | c :: r =>
      if bool_decide (c = sep) then [] :: split_on sep r
      else match split_on sep r with
           | p :: ps => (c :: p) :: ps
           | [] => [[c]]
           end
  end.

(** base/csv.go:133: does the string match
    [^[-+]?[0-9]*\.?[0-9]+([eE][-+]?[0-9]+)?$]? *)
Definition drop_sign (l : list ascii) : list ascii :=
  match l with
  | c :: r => if bool_decide (c = "+"%char ∨ c = "-"%char) then r else l
  | [] => []
  end.
Definition all_digits (l : list ascii) : bool :=
  match l with [] => false | _ => forallb is_digit l end.
Definition exponent_ok (l : list ascii) : bool :=
  match l with
  | [] => true
  | c :: r => if bool_decide (c = "e"%char ∨ c = "E"%char) then all_digits (drop_sign r) else false
  end.
Definition number_list (l : list ascii) : bool :=
  let l := drop_sign l in
  let int := take_while is_digit l in
  match drop_while is_digit l with
  | c :: r =>
      if bool_decide (c = "."%char)
      then match take_while is_digit r with
           | [] => false
           | _ => exponent_ok (drop_while is_digit r)
           end
      else match int with [] => false | _ => exponent_ok (c :: r) end
  | [] => match int with [] => false | _ => true end
  end.
Definition is_number (s : string) : bool := number_list (chars s).

(** base/csv.go:34 and 56: [FindAllString] of [[0-9]+(.[0-9]+)?] on one line.  The
    dot of the expression stands for any character.  [fuel] bounds the search, the
    length of the line is enough. *)
Fixpoint number_matches (fuel : nat) (l : list ascii) : list (list ascii) :=
  match fuel with
  | 0 => []
  | S fuel =>
      match l with
      | [] => []
      | c :: r =>
          if is_digit c then
            let d1 := take_while is_digit l in
            match drop_while is_digit l with
            | [] => [d1]
            | x :: r2 =>
                match take_while is_digit r2 with
                | [] => d1 :: number_matches fuel (x :: r2)
                | d2 => (d1 ++ x :: d2) :: number_matches fuel (drop_while is_digit r2)
                end
            end
          else number_matches fuel r
      end
  end.

(** base/csv.go:57-65: the longest part after the dot, at least [maxl]. *)
Definition line_precision (maxl : nat) (line : list ascii) : nat :=
  foldl (λ m p, match split_on "."%char p with
                | [_; d] => if m <? length d then length d else m
                | _ => m
                end) maxl (number_matches (length line) line).

(** base/csv.go:39-69 [ParseCSVEstimateFilePrecisionFromReader], on the lines of the
    file. *)
Fixpoint file_precision (count maxl : nat) (lines : list (list ascii)) : nat :=
  match lines with
  | [] => maxl
  | line :: lines =>
      if 5 <? count then maxl
      else match line with
           | [] => file_precision count maxl lines
           | c :: _ =>
               if bool_decide (c = "@"%char ∨ c = "%"%char) then file_precision count maxl lines
               else file_precision (S count) (line_precision maxl line) lines
           end
  end.
Definition csv_precision (lines : list string) : nat := file_precision 0 0 (map chars lines).
