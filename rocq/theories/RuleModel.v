(** Model of the rule generators of decision trees: trees/entropy.go, trees/gr.go,
    trees/gini.go and trees/random.go. *)
From Coq Require Import QArith.
From Verif Require Import Prelude FloatModel AttrModel StoreModel DenseModel GridModel ConfModel FilterModel Id3Model.
From Flocq Require Import IEEE754.BinarySingleNaN IEEE754.Bits IEEE754.Binary.
Local Open Scope nat_scope.

Definition float_inf : binary64 := B754_infinity 53 1024 false.
Definition float_neg_inf : binary64 := B754_infinity 53 1024 true.
Definition float_nan : binary64 := b64_of_bits 0x7FF8000000000001.
Definition float_two : binary64 := b64_of_bits 0x4000000000000000.

(** ** The threshold of a numeric attribute *)

(** trees/entropy.go:84-87 [numericSplitRef]. *)
Notation split_ref := (binary64 * nat)%type.

(** trees/entropy.go:136-137: the middle of two neighbours. *)
Definition middle (x y : binary64) : binary64 :=
  b64_div mode_NE (b64_plus mode_NE x y) float_two.

(** [s[c]++] and [s[c]--] on a slice of counts. *)
Definition up (c : nat) (s : list nat) : list nat := alter S c s.
Definition down (c : nat) (s : list nat) : list nat := alter pred c s.

(** trees/entropy.go:144-149: the inner loop, on the references from [prevInd].  Returns
    how many it passed and the two slices of counts. *)
Fixpoint advance (refs : list split_ref) (val : binary64) (s0 s1 : list nat)
    : nat * (list nat * list nat) :=
  match refs with
  | [] => (0, (s0, s1))
  | (v, c) :: refs =>
      if float_lt v val then
        let r := advance refs val (up c s0) (down c s1) in (S r.1, r.2)
      else (0, (s0, s1))
  end.

(** The variables of the loop of trees/entropy.go:135-156. *)
Record search_state := Search {
  ss_i : nat; ss_ind : nat; ss_prev : binary64; ss_s0 : list nat; ss_s1 : list nat;
  ss_best : binary64; ss_val : binary64
}.

Section entropy.
  (** trees/entropy.go:165-186 [getSplitEntropyFast]; see EntModel.v. *)
  Variable fast : list nat → list nat → binary64.

  (** trees/entropy.go:135-156: one turn of the loop, [None] when its condition fails. *)
  Definition search_step (refs : list split_ref) (st : search_state) : option search_state :=
    match refs !! ss_i st, refs !! S (ss_i st) with
    | Some (x, _), Some (y, _) =>
        let val := middle x y in
        if float_eq val (ss_prev st) then
          Some (Search (S (ss_i st)) (ss_ind st) (ss_prev st) (ss_s0 st) (ss_s1 st) (ss_best st) (ss_val st))
        else
          let r := advance (drop (ss_ind st) refs) val (ss_s0 st) (ss_s1 st) in
          let e := fast r.2.1 r.2.2 in
          Some (if float_lt e (ss_best st)
                then Search (ss_i st + r.1) (ss_ind st + r.1) val r.2.1 r.2.2 e val
                else Search (ss_i st + r.1) (ss_ind st + r.1) val r.2.1 r.2.2 (ss_best st) (ss_val st))
    | _, _ => None
    end.

  (** trees/entropy.go:135-158.  [None]: not finished after [fuel] turns. *)
  Fixpoint search (fuel : nat) (refs : list split_ref) (st : search_state)
      : option (binary64 * binary64) :=
    match fuel with
    | 0 => None
    | S fuel =>
        match search_step refs st with
        | None => Some (ss_best st, ss_val st)
        | Some st => search fuel refs st
        end
    end.

  (** trees/entropy.go:123-132: before the loop, all references are on side 1. *)
  Definition search_start (classes : nat) (refs : list split_ref) : search_state :=
    Search 0 0 float_nan (replicate classes 0) (foldl (λ s x, up x.2 s) (replicate classes 0) refs)
      float_inf float_inf.

  Definition best_threshold (fuel classes : nat) (refs : list split_ref)
      : option (binary64 * binary64) :=
    search fuel refs (search_start classes refs).

  Variable show : nat → N → string.
  (** [sort.Sort] by value. *)
  Variable sorter : list split_ref → list split_ref.

  (** trees/entropy.go:108-119: the callback numbering the classes and filling [refs]. *)
  Definition collect_ref (g : grid) (st : gmap string nat * list split_ref) (row : list (list N))
      (rowno : nat) : res ((gmap string nat * list split_ref) * cb) :=
    cls ← get_class show g rowno;
    let k := default (size st.1) (st.1 !! cls) in
    raw ← idx row 0;
    v ← unpack_float raw;
    Ok ((<[cls := k]> st.1, <[rowno := (v, k)]> st.2), Cont).

  (** trees/entropy.go:95-159 [getNumericAttributeEntropy].  [Err] stands for a search
      that does not end within [fuel] turns. *)
  Definition numeric_entropy (fuel : nat) (g : grid) (a : attr) : res (binary64 * binary64) :=
    s ← match gr_get_attribute g a with Ok s => Ok s | _ => Panic end;
    r ← map_over_rows g [s] (collect_ref g) (∅, replicate (gr_size g).2 (float_zero, 0));
    match best_threshold fuel (size r.1.1) (sorter r.1.2) with
    | Some p => Ok p
    | None => Err
    end.

  (** trees/entropy.go:190-223 [getSplitEntropy] and [getBaseEntropy]; see EntModel.v. *)
  Variable split_entropy : gmap string (gmap string nat) → binary64.
  Variable base_entropy : gmap string nat → binary64.

  (** trees/entropy.go:56-74, trees/gr.go:55-72: the loop over the attributes with its
      comparison [>]; [score] gives the gain and the threshold. *)
  Fixpoint pick_max (score : attr → res (binary64 * binary64)) (l : list attr)
      (best : binary64) (r : rule) : res rule :=
    match l with
    | [] => Ok r
    | a :: l =>
        p ← score a;
        if float_gt p.1 best then pick_max score l p.1 (Rule (Some a) p.2)
        else pick_max score l best r
    end.

  (** trees/entropy.go:59-67: entropy after splitting on [a], and the threshold. *)
  Definition entropy_after (fuel : nat) (g : grid) (a : attr) : res (binary64 * binary64) :=
    match a with
    | FloatA _ _ => numeric_entropy fuel g a
    | _ => m ← distribution_after_split show g a; Ok (split_entropy m, float_zero)
    end.

  (** trees/entropy.go:36-78 [InformationGainRuleGenerator.GetSplitRuleFromSelection]. *)
  Definition info_gain (fuel : nat) (l : list attr) (g : grid) : res rule :=
    match l with
    | [] => Panic
    | _ =>
        m ← class_distribution show g;
        pick_max (λ a, p ← entropy_after fuel g a;
                       Ok (b64_minus mode_NE (base_entropy m) p.1, p.2))
          l float_neg_inf (Rule None float_inf)
    end.

  (** trees/gr.go:35-76 [InformationGainRatioRuleGenerator.GetSplitRuleFromSelection]. *)
  Definition gain_ratio (fuel : nat) (l : list attr) (g : grid) : res rule :=
    match l with
    | [] => Panic
    | _ =>
        m ← class_distribution show g;
        pick_max (λ a, p ← entropy_after fuel g a;
                       Ok (b64_div mode_NE (b64_minus mode_NE (base_entropy m) p.1) p.1, p.2))
          l float_neg_inf (Rule None float_zero)
    end.

  (** ** Gini *)

  (** trees/gini.go:72-88 [computeGini].  The map [p] is empty, so [p[i] == 0] holds for
      every key and nothing is ever added to it. *)
  Definition compute_gini (s : gmap string nat) : Q :=
    let p : gmap string Q := foldl (λ p i,
      if Qeq_bool (default 0%Q (p !! i)) 0 then p
      else <[i := (1 / default 0%Q (p !! i))%Q]> p) ∅ (map fst (map_to_list s)) in
    (1 - foldl (λ sum x, sum + x.2 * x.2)%Q 0%Q (map_to_list p))%Q.

  (** A sum of ints over the entries of a map (trees/gini.go:96-100, 105-107). *)
  Definition total_of {A} (l : list A) (f : A → nat) : nat := foldl (λ n x, n + f x) 0 l.

  (** trees/gini.go:92-113 [computeAverageGiniIndex].  Sums are exact here, so the
      order of the maps does not matter; [None] is NaN. *)
  Definition average_gini (s : gmap string (gmap string nat)) : option Q :=
    let total := total_of (map_to_list s) (λ x, total_of (map_to_list x.2) snd) in
    if (total =? 0) && negb (size s =? 0) then None else
    Some (foldl (λ sum x,
      sum + (of_nat (total_of (map_to_list x.2) snd) / of_nat total) * compute_gini x.2)%Q
      0%Q (map_to_list s)).

  (** trees/gini.go:46-62: the loop over the attributes; [None] as the best so far is
      +Inf. *)
  Fixpoint pick_min (score : attr → res (option Q * binary64)) (l : list attr)
      (best : option Q) (r : rule) : res rule :=
    match l with
    | [] => Ok r
    | a :: l =>
        p ← score a;
        match p.1 with
        | Some q =>
            if match best with Some b => negb (Qle_bool b q) | None => true end
            then pick_min score l (Some q) (Rule (Some a) p.2)
            else pick_min score l best r
        | None => pick_min score l best r
        end
    end.

  (** trees/gini.go:48-55. *)
  Definition gini_after (fuel : nat) (g : grid) (a : attr)
      : res (gmap string (gmap string nat) * binary64) :=
    match a with
    | FloatA _ _ =>
        p ← numeric_entropy fuel g a;
        m ← distribution_after_threshold show g a p.2;
        Ok (m, p.2)
    | _ => m ← distribution_after_split show g a; Ok (m, float_zero)
    end.

  (** trees/gini.go:35-65 [GiniCoefficientRuleGenerator.GetSplitRuleFromSelection]. *)
  Definition gini (fuel : nat) (l : list attr) (g : grid) : res rule :=
    match l with
    | [] => Panic
    | _ => pick_min (λ a, p ← gini_after fuel g a; Ok (average_gini p.1, p.2)) l None
             (Rule None float_zero)
    end.

  (** trees/entropy.go:23-30, trees/gr.go:22-29, trees/gini.go:22-29
      [GenerateSplitRule]: all attributes but the classes, in the order [ao] of a map. *)
  Definition candidates (ao : list attr → list attr) (g : grid) : list attr :=
    difference_refs (ao (build_attr_set (gr_all_attrs g))) (gr_class_attrs g).

  Definition generate (select : list attr → grid → res rule) (ao : list attr → list attr) (g : grid)
      : res (option rule) :=
    r ← select (candidates ao g) g; Ok (Some r).
End entropy.

(** ** Random trees *)

(** trees/random.go:23-45: drawing attributes.  [draw t] is the [t]-th result of
    [rand.Intn].  [None]: not finished after [fuel] turns. *)
Fixpoint draw_attrs (fuel : nat) (draw : nat → nat) (t : nat) (all : list attr) (k : nat)
    (acc : list attr) : option (res (list attr)) :=
  match fuel with
  | 0 => None
  | S fuel =>
      if k <=? length acc then Some (Ok acc)
      else match all with
           | [] => Some Panic
           | _ =>
               match all !! draw t with
               | None => Some Panic
               | Some a =>
                   if existsb (λ b, attr_equals b a) acc
                   then draw_attrs fuel draw (S t) all k acc
                   else draw_attrs fuel draw (S t) all k (acc ++ [a])
               end
           end
  end.

(** trees/random.go:17-49 [GenerateSplitRule]; [select] is [info_gain].  [Err] stands
    for not finishing within [fuel] turns. *)
Definition random_rule (select : list attr → grid → res rule) (draw : nat → nat) (fuel k : nat)
    (ao : list attr → list attr) (g : grid) : res (option rule) :=
  match draw_attrs fuel draw 0 (candidates ao g) k [] with
  | None => Err
  | Some r => l ← r; x ← select l g; Ok (Some x)
  end.
