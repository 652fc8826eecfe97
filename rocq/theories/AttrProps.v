(** Property theorems C03, C25, C26, C27: attributes and attribute sets. *)
From Verif Require Import Prelude BytesModel AttrModel AttrSpec AttrProofs.

(** ** C03 *)

(** Any history [hist] of encode calls, started from distinct known values
    [vs0], ends in [vs'] and hands out [codes].  Every code handed out
    decodes, at the end, to the string it was given for; equal strings have
    equal codes and different strings different codes. *)
Theorem C03_history_decodes (hist vs0 vs' : list string) (codes : list (list N)) :
  NoDup vs0 →
  (N.of_nat (length vs0 + length hist) < 2^63)%N →
  cat_encode_all vs0 hist = (vs', codes) →
  length codes = length hist ∧
  (∀ i s c, hist !! i = Some s → codes !! i = Some c → cat_decode vs' c = Ok s) ∧
  (∀ i j s t c d, hist !! i = Some s → hist !! j = Some t →
     codes !! i = Some c → codes !! j = Some d → (s = t ↔ c = d)).
Proof. exact (cat_history hist vs0 vs' codes). Qed.
Print Assumptions C03_history_decodes.

(** The value list only ever grows at its end (so numbering follows the order
    of first appearance), holds exactly the strings seen so far, once each. *)
Theorem C03_values_grow (h1 h2 vs0 : list string) :
  (cat_encode_all vs0 h1).1 `prefix_of` (cat_encode_all vs0 (h1 ++ h2)).1 ∧
  (∀ t, t ∈ (cat_encode_all vs0 h1).1 ↔ t ∈ vs0 ∨ t ∈ h1) ∧
  (NoDup vs0 → NoDup (cat_encode_all vs0 h1).1).
Proof. exact (cat_history_values h1 h2 vs0). Qed.
Print Assumptions C03_values_grow.

(** A code is the packed position of its string in the value list. *)
Theorem C03_codes_are_positions (hist vs0 vs' : list string) codes :
  cat_encode_all vs0 hist = (vs', codes) →
  ∀ i s c, hist !! i = Some s → codes !! i = Some c →
  ∃ k, c = pack_u64 (N.of_nat k) ∧ vs' !! k = Some s.
Proof. exact (cat_codes_index hist vs0 vs' codes). Qed.
Print Assumptions C03_codes_are_positions.

(** Decoding a number that is not the position of a known value panics. *)
Theorem C03_unknown_code_panics (vs : list string) (raw : list N) (v : N) :
  (N.of_nat (length vs) < 2^63)%N →
  unpack_u64 raw = Ok v → (v < 2^64)%N → (N.of_nat (length vs) ≤ v)%N →
  cat_decode vs raw = Panic.
Proof. exact (cat_decode_panic vs raw v). Qed.
Print Assumptions C03_unknown_code_panics.

(** The non-inserting lookup: a code of a known value, or nothing if and only
    if the value is unknown. *)
Theorem C03_get_sysval (vs : list string) (s : string) :
  match cat_get_sysval vs s with
  | Some c => ∃ k, c = pack_u64 (N.of_nat k) ∧ vs !! k = Some s
  | None => s ∉ vs
  end.
Proof. exact (cat_get_sysval_spec vs s). Qed.
Print Assumptions C03_get_sysval.

Example C03_ex :
  cat_encode_all ["setosa"] ["virginica"; "setosa"; "versicolor"; "virginica"]
  = (["setosa"; "virginica"; "versicolor"],
     [pack_u64 1; pack_u64 0; pack_u64 2; pack_u64 1])
  ∧ cat_decode ["setosa"; "virginica"; "versicolor"] (pack_u64 1) = Ok "virginica"
  ∧ cat_decode ["setosa"] (pack_u64 (2^64 - 1)) = Panic.
Proof. vm_compute. done. Qed.

(** ** C27 *)

Theorem C27_equals_equivalence (a b c : attr) :
  attr_equals a a = true ∧
  (attr_equals a b = true → attr_equals b a = true) ∧
  (attr_equals a b = true → attr_equals b c = true → attr_equals a c = true).
Proof.
  exact (conj (attr_equals_refl a)
           (conj (attr_equals_sym a b) (attr_equals_trans a b c))).
Qed.
Print Assumptions C27_equals_equivalence.

(** Equal is exactly: compatible and of the same name; in particular Equal
    attributes are Compatible. *)
Theorem C27_equals_compatible (a b : attr) :
  attr_equals a b = true ↔ attr_compatible a b = true ∧ attr_name a = attr_name b.
Proof. exact (attr_compatible_name a b). Qed.
Print Assumptions C27_equals_compatible.

(** What Equals compares, per kind. *)
Theorem C27_equals_meaning (a b : attr) :
  attr_equals a b = true ↔
  match a, b with
  | FloatA n _, FloatA m _ => n = m
  | CatA n vs, CatA m ws => n = m ∧ vs = ws
  | BinA n, BinA m => n = m
  | _, _ => False
  end.
Proof. exact (attr_equals_spec a b). Qed.
Print Assumptions C27_equals_meaning.

Example C27_ex :
  attr_equals (CatA "c" ["x"; "y"]) (CatA "c" ["x"; "y"]) = true
  ∧ attr_equals (CatA "c" ["x"; "y"]) (CatA "c" ["y"; "x"]) = false
  ∧ attr_equals (FloatA "f" 2) (FloatA "f" 5) = true
  ∧ attr_equals (FloatA "f" 2) (BinA "f") = false.
Proof. vm_compute. done. Qed.

(** ** C26 *)

(** [splits P l l1 l2] (AttrSpec.v): [l1] and [l2] are the elements of [l]
    that do and do not satisfy [P], in the order of [l], each element of [l]
    going to exactly one side. *)
Theorem C26_intersect_difference_split (a1 a2 : list attr) :
  splits (λ a, ∃ b, b ∈ a2 ∧ attr_equals a b = true) a1
    (attr_intersect a1 a2) (attr_difference a1 a2).
Proof. exact (attr_ops_split a1 a2). Qed.
Print Assumptions C26_intersect_difference_split.

(** The reference-based variants, for every map iteration order.
    [NonClassAttributes(d)] is [difference_refs] of all and class
    attributes. *)
Theorem C26_nonclass_attributes {R : Type} `{EqDecision R}
    (all cls order : list R) :
  iteration_order all order →
  NoDup (difference_refs order cls) ∧
  (∀ a, a ∈ difference_refs order cls ↔ a ∈ all ∧ a ∉ cls).
Proof. exact (difference_refs_spec all cls order). Qed.
Print Assumptions C26_nonclass_attributes.

Theorem C26_refs_partition {R : Type} `{EqDecision R} (a1 a2 o1 o2 : list R) :
  NoDup a1 → iteration_order a1 o1 → iteration_order a1 o2 →
  intersect_refs o1 a2 ++ difference_refs o2 a2 ≡ₚ a1.
Proof. exact (refs_partition a1 a2 o1 o2). Qed.
Print Assumptions C26_refs_partition.

Theorem C26_nonclass_float_attributes (all cls : list attr) (a : attr) :
  a ∈ nonclass_float_attrs all cls ↔
  a ∈ all ∧ (∃ n p, a = FloatA n p) ∧ ∀ c, c ∈ cls → attr_equals a c = false.
Proof. exact (nonclass_float_elem all cls a). Qed.
Print Assumptions C26_nonclass_float_attributes.

Example C26_ex :
  attr_intersect [FloatA "a" 2; BinA "b"; FloatA "c" 2] [FloatA "c" 7; BinA "b"]
    = [BinA "b"; FloatA "c" 2]
  ∧ attr_difference [FloatA "a" 2; BinA "b"; FloatA "c" 2] [FloatA "c" 7; BinA "b"]
    = [FloatA "a" 2]
  ∧ iteration_order [1; 2; 3] [3; 1; 2]
  ∧ difference_refs [3; 1; 2] [2] = [3; 1].
Proof.
  split; [vm_compute; done|]. split; [vm_compute; done|].
  split; [|vm_compute; done].
  unfold iteration_order. simpl. apply (NoDup_Permutation [3;1;2] [1;2;3]).
  - by apply (bool_decide_unpack (NoDup [3; 1; 2])).
  - by apply (bool_decide_unpack (NoDup [1; 2; 3])).
  - intros x. rewrite !elem_of_cons. naive_solver.
Qed.

(** ** C25 *)

(** For tables without two Equal attributes: [CheckCompatible] returns the
    attributes when each side's attributes all have an Equal on the other
    side, and nil otherwise. *)
Theorem C25_check_compatible (s1 s2 : list attr) :
  distinct_attrs s1 → distinct_attrs s2 →
  ((∀ a, a ∈ s1 → ∃ b, b ∈ s2 ∧ attr_equals a b = true) ∧
   (∀ b, b ∈ s2 → ∃ a, a ∈ s1 ∧ attr_equals b a = true) →
   check_compatible s1 s2 = Some s1) ∧
  (¬ ((∀ a, a ∈ s1 → ∃ b, b ∈ s2 ∧ attr_equals a b = true) ∧
      (∀ b, b ∈ s2 → ∃ a, a ∈ s1 ∧ attr_equals b a = true)) →
   check_compatible s1 s2 = None).
Proof. exact (check_compatible_spec s1 s2). Qed.
Print Assumptions C25_check_compatible.

Theorem C25_check_compatible_symmetric (s1 s2 : list attr) :
  distinct_attrs s1 → distinct_attrs s2 →
  is_Some (check_compatible s1 s2) ↔ is_Some (check_compatible s2 s1).
Proof. exact (check_compatible_symm s1 s2). Qed.
Print Assumptions C25_check_compatible_symmetric.

(** Without the distinctness hypothesis the check accepts tables with
    different attributes: [b] has no counterpart in the first table. *)
Theorem C25_check_compatible_duplicates_refuted :
  ∃ s1 s2 b, check_compatible s1 s2 = Some s1 ∧
    b ∈ s2 ∧ ∀ a, a ∈ s1 → attr_equals b a = false.
Proof.
  exists [FloatA "x" 2; FloatA "x" 2], [FloatA "x" 2; FloatA "y" 2], (FloatA "y" 2).
  split; [vm_compute; done|]. split; [right; left|].
  intros a Ha. repeat (apply elem_of_cons in Ha as [->|Ha]; [vm_compute; done|]).
  by apply not_elem_of_nil in Ha.
Qed.
Print Assumptions C25_check_compatible_duplicates_refuted.

Example C25_ex :
  check_compatible [FloatA "x" 2; BinA "y"] [BinA "y"; FloatA "x" 3]
    = Some [FloatA "x" 2; BinA "y"]
  ∧ check_compatible [FloatA "x" 2] [BinA "y"; FloatA "x" 3] = None.
Proof. vm_compute. done. Qed.
