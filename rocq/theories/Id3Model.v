(** Model of trees/id3.go: construction, prediction and pruning of decision trees. *)
From Coq Require Import QArith.
From Verif Require Import Prelude AttrModel StoreModel DenseModel GridModel CsvModel PredModel
  ConfModel.
From Flocq Require Import IEEE754.Bits IEEE754.Binary.
Local Open Scope nat_scope.

(** trees/id3.go:31-34 [DecisionTreeRule]; [None] is a nil SplitAttr. *)
Record rule := Rule { ru_attr : option attr; ru_val : binary64 }.

(** trees/id3.go:106-113 [DecisionTreeNode].  [leaf] tells LeafNode from RuleNode.  The
    map of children is the list of its entries, in no particular order ([None] is the nil
    map); a nil SplitRule is [None]. *)
Inductive tree :=
| Node (leaf : bool) (children : option (list (string * tree))) (dist : gmap string nat)
    (class : string) (cattr : attr) (r : option rule).

Definition t_leaf (t : tree) : bool := match t with Node l _ _ _ _ _ => l end.
Definition t_children (t : tree) : option (list (string * tree)) :=
  match t with Node _ cs _ _ _ _ => cs end.
Definition t_dist (t : tree) : gmap string nat := match t with Node _ _ d _ _ _ => d end.
Definition t_class (t : tree) : string := match t with Node _ _ _ c _ _ => c end.
Definition t_rule (t : tree) : option rule := match t with Node _ _ _ _ _ r => r end.

Definition float_zero : binary64 := B754_zero 53 1024 false.

(** trees/id3.go:212-219: the loop choosing the majority class; [order] lists the keys
    of the distribution. *)
Definition max_class (order : list string) (m : gmap string nat) : nat * string :=
  foldl (λ acc i, if acc.1 <? default 0 (m !! i) then (default 0 (m !! i), i) else acc)
    (0, "") order.

(** trees/id3.go:199-201. *)
Definition only_class (order : list string) : string := foldl (λ _ i, i) "" order.

Section with_show.
  (** Formatting of floats, see [attr_decode]. *)
  Variable show : nat → N → string.

  (** trees/id3.go:255-261: a float attribute is split by the threshold, any other by its
      values. *)
  Definition split_on (g : grid) (a : attr) (v : binary64) : res (gmap string view) :=
    match a with
    | FloatA _ _ => decompose_threshold g a v
    | _ => decompose_values show g a
    end.

  Section infer.
    (** The RuleGenerator.  It may be random, so its answer may depend on the node, given
        by the path of keys that leads to it. *)
    Variable gen : list string → grid → res (option rule).
    (** Iteration orders of Go maps at a node: over the class distribution, and over the
        maps of the views made for its children. *)
    Variable ko : list string → list string → list string.
    Variable co : list string → list attr → list attr.
    Variable ro : list string → list nat → list nat.

    (** trees/id3.go:191-271 [InferID3Tree].  The fuel bounds the depth. *)
    Fixpoint infer (fuel : nat) (path : list string) (g : grid) : res tree :=
      match fuel with
      | 0 => Panic
      | S fuel =>
          (* 193-194, [getClassAttr] 115-118 *)
          classes ← class_distribution show g;
          cattr ← idx (gr_class_attrs g) 0;
          let order := ko path (map fst (map_to_list classes)) in
          (* 197-210 *)
          if size classes =? 1 then
            Ok (Node true None classes (only_class order) cattr (Some (Rule None float_zero)))
          else
          (* 212-219 *)
          let mc := (max_class order classes).2 in
          (* 223-234 *)
          if (gr_size g).1 =? 2 then
            Ok (Node true None classes mc cattr (Some (Rule None float_zero)))
          else
          (* 247-251 *)
          r ← gen path g;
          match r with
          | None => Ok (Node false None classes mc cattr None)
          | Some ru =>
              match ru_attr ru with
              | None => Ok (Node false None classes mc cattr None)
              | Some a =>
                  (* 254-261 *)
                  subs ← split_on g a (ru_val ru);
                  (* 263-267 *)
                  children ← res_mapM (λ '(k, v),
                      t ← infer fuel (path ++ [k])
                            (view_grid (co (path ++ [k])) (ro (path ++ [k])) v);
                      Ok (k, t)) (map_to_list subs);
                  Ok (Node false (Some children) classes mc cattr r)
              end
          end
      end.

    (** Every split removes a column, so the number of columns bounds the depth. *)
    Definition infer_id3 (g : grid) : res tree := infer (S (gr_size g).1) [] g.
  End infer.

  (** trees/id3.go:400-406: the child taken for a value without a child. *)
  Fixpoint best_child (order : list string) (v best : string) : string :=
    match order with
    | [] => best
    | c :: order => if String.ltb v c then c else best_child order v c
    end.

  (** trees/id3.go:372-395: the key of the child for a row.  A nil SplitAttr panics. *)
  Definition branch (what : grid) (row : nat) (ru : rule) : res string :=
    match ru_attr ru with
    | None => Panic
    | Some a =>
        match gr_get_attribute what a with
        | Ok s =>
            raw ← gr_get what s row;
            match sp_attr s with
            | FloatA _ _ => threshold_key (ru_val ru) raw
            | a' => attr_decode show a' raw
            end
        | _ => Panic
        end
    end.

  (** trees/id3.go:366-409, 444-495: from the root to the node that decides about a row.
      [wo row depth] is the iteration order over the children met at that depth. *)
  Fixpoint walk (wo : nat → nat → list string → list string) (what : grid) (row depth : nat)
      (t : tree) : res tree :=
    match t with
    | Node _ None _ _ _ _ => Ok t
    | Node _ (Some cs) _ _ _ None => Panic
    | Node _ (Some cs) _ _ _ (Some ru) =>
        v ← branch what row ru;
        let keys := map fst cs in
        let k := if bool_decide (v ∈ keys) then v
                 else best_child (wo row depth keys) v "" in
        (fix go (l : list (string * tree)) : res tree :=
           match l with
           | [] => Panic
           | (k', t') :: l =>
               if bool_decide (k' = k) then walk wo what row (S depth) t' else go l
           end) cs
    end.

  Section predict.
    Variable parse : string → option binary64.
    (** Iteration orders of the map of class attributes of the predictions and of the set
        of attributes of the rows to predict. *)
    Variable cord : list ((nat * nat) * bool) → list ((nat * nat) * bool).
    Variable ao : list attr → list attr.
    (** [os.Getpagesize()]. *)
    Variable pg : nat.

    (** trees/id3.go:366-411: the callback.  The state is the predictions and the class
        attribute, which gains a category when a class is unknown to it. *)
    Definition predict_row (wo : nat → nat → list string → list string) (t : tree)
        (what : grid) (s : spec) (st : dense * attr) (row : list (list N)) (rowno : nat)
        : res ((dense * attr) * cb) :=
      node ← walk wo what rowno 0 t;
      r ← match encode_value parse st.2 (t_class node) with Err => Panic | r => r end;
      d ← update_attr st.1 s r.1;
      d ← dense_set d s rowno r.2;
      Ok ((d, r.1), Cont).

    (** trees/id3.go:356-412 [Predict]. *)
    Definition predict (wo : nat → nat → list string → list string) (t : tree) (what : grid)
        : res dense :=
      d ← prediction_vector pg what;
      let cls := class_attrs_in_order d (cord (map_to_list (d_class d))) in
      c ← idx cls 0;
      s ← match dense_get_attribute d c with Ok s => Ok s | _ => Panic end;
      specs ← resolve what (difference_refs (ao (build_attr_set (gr_all_attrs what))) cls);
      r ← map_over_rows what specs (predict_row wo t what s) (d, c);
      Ok r.1.1.

    (** trees/id3.go:310-313 [computeAccuracy] of the predictions of a tree; the error of
        GetConfusionMatrix is ignored.  [None] is NaN.  Accuracies are exact here; below
        2^53 rows rounding does not change how they compare. *)
    Definition accuracy_of (ko : list string → list string)
        (wo : nat → nat → list string → list string) (t : tree) (data : grid)
        : res (option Q) :=
      d ← predict wo t data;
      match confusion_matrix show data (dense_grid (cord (map_to_list (d_class d))) d) with
      | Ok cf => Ok (accuracy ko cf)
      | Err => Ok (accuracy ko ∅)
      | Panic => Panic
      end.

    Definition q_lt (a b : option Q) : bool :=
      match a, b with Some x, Some y => negb (Qle_bool y x) | _, _ => false end.

    Section prune.
      (** Iteration orders at the node reached by a path: over the confusion matrix, over
          children while predicting, and over the maps of its view of the data. *)
      Variable ko : list string → list string → list string.
      Variable wo : list string → nat → nat → list string → list string.
      Variable co : list string → list attr → list attr.
      Variable ro : list string → list nat → list nat.

      (** trees/id3.go:316-353 [Prune], as a function from the tree to the pruned one. *)
      Fixpoint prune (path : list string) (t : tree) (data : grid) : res tree :=
        match t with
        | Node _ None _ _ _ _ | Node _ (Some _) _ _ _ None => Ok t
        | Node leaf (Some cs) dist class cattr (Some ru) =>
            (* 326-336 *)
            a ← match ru_attr ru with Some a => Ok a | None => Panic end;
            subs ← decompose_values show data a;
            cs ← (fix go (l : list (string * tree)) : res (list (string * tree)) :=
                    match l with
                    | [] => Ok []
                    | (k, c) :: l =>
                        c ← match (subs : gmap string view) !! k with
                            | None => Ok c
                            | Some v =>
                                if ((view_size v).1 =? 0) || ((view_size v).2 =? 0) then Ok c
                                else prune (path ++ [k]) c
                                       (view_grid (co (path ++ [k])) (ro (path ++ [k])) v)
                            end;
                        l ← go l;
                        Ok ((k, c) :: l)
                    end) cs;
            (* 338-340 *)
            let kept := Node leaf (Some cs) dist class cattr (Some ru) in
            baseline ← accuracy_of (ko path) (wo path) kept data;
            (* 342-347 *)
            let cut := Node leaf None dist class cattr (Some ru) in
            new ← accuracy_of (ko path) (wo path) cut data;
            (* 349-352 *)
            Ok (if q_lt new baseline then kept else cut)
        end.
    End prune.
  End predict.

  (** ** PredictProba *)

  (** [sort.Sort] by descending probability (trees/id3.go:427-429). *)
  Variable sorter : list (string * Q) → list (string * Q).

  (** trees/id3.go:446-456: the classes of a node with their share of its rows.
      [order] lists the keys of the distribution.  Shares are exact; a node without rows
      has no classes, so nothing is divided by zero. *)
  Definition node_proba (order : list string) (t : tree) : list (string * Q) :=
    let dist := t_dist t in
    let total := sum_over order (λ c, default 0 (dist !! c)) in
    sorter (map (λ c, (c, of_nat (default 0%nat (dist !! c)) / of_nat total)%Q) order).

  (** trees/id3.go:432-498 [PredictProba].  [ko] is the iteration order over the
      distribution; the prediction vector made on line 434 serves only its class
      attributes. *)
  Definition predict_proba (pg : nat) (cord : list ((nat * nat) * bool) → list ((nat * nat) * bool))
      (ao : list attr → list attr) (ko : list string → list string)
      (wo : nat → nat → list string → list string) (t : tree) (what : grid)
      : res (list (string * Q)) :=
    d ← prediction_vector pg what;
    let cls := class_attrs_in_order d (cord (map_to_list (d_class d))) in
    specs ← resolve what (difference_refs (ao (build_attr_set (gr_all_attrs what))) cls);
    if 1 <? (gr_size what).2 then Panic else
    r ← map_over_rows what specs
          (λ (st : list (string * Q)) (_ : list (list N)) rowno,
             node ← walk wo what rowno 0 t;
             Ok (node_proba (ko (map fst (map_to_list (t_dist node)))) node, Cont)) [];
    Ok r.1.
End with_show.
