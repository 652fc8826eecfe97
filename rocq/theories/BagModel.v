(** Model of bagging (meta/bagging.go), of the one-versus-all model
    (meta/one_v_all.go) and of random forests (ensemble/randomforest.go).  Not modelled:
    String, GetMetadata, Save, Load. *)
From Verif Require Import Prelude BytesModel FloatModel AttrModel StoreModel DenseModel
  GridModel FilterModel PredModel.
From Flocq Require Import IEEE754.Bits IEEE754.Binary.
Local Open Scope nat_scope.

(** base/util_attributes.go:34-40 [NonClassAttributes]; [ao] is the order of the map. *)
Definition non_class_attrs (ao : list attr → list attr) (g : grid) : list attr :=
  difference_refs (ao (build_attr_set (gr_all_attrs g))) (gr_class_attrs g).

(** A call [c.Fit(g)] whose error is ignored (meta/bagging.go:90,
    meta/one_v_all.go:80).  Simplification: a classifier whose Fit fails stays as it was. *)
Definition fit_ignoring {C} (fit : C → grid → res C) (c : C) (g : grid) : res C :=
  match fit c g with Err => Ok c | r => r end.

(** ** Training *)

(** meta/bagging.go:31-47: drawing attributes.  [draw t] is the [t]-th result of
    [rand.Intn], which panics on an empty list.  [None]: not finished after [fuel]
    turns. *)
Fixpoint bag_draw (fuel : nat) (draw : nat → nat) (t : nat) (attrs : list attr) (want : Z)
    (ret : list attr) : option (res (list attr)) :=
  match fuel with
  | 0 => None
  | S fuel =>
      if (want <=? Z.of_nat (length ret))%Z then Some (Ok ret)
      else match attrs with
           | [] => Some Panic
           | _ =>
               match attrs !! draw t with
               | None => Some Panic
               | Some a =>
                   if existsb (λ b, attr_equals b a) ret
                   then bag_draw fuel draw (S t) attrs want ret
                   else bag_draw fuel draw (S t) attrs want (ret ++ [a])
               end
           end
  end.

(** meta/bagging.go:25-56 [generateTrainingAttrs], the list it returns and records.
    [Err] stands for not finishing within [fuel] turns. *)
Definition training_attrs (ao : list attr → list attr) (fuel : nat) (draw : nat → nat)
    (want : Z) (from : grid) : res (list attr) :=
  let attrs := non_class_attrs ao from in
  feats ← (if (want =? 0)%Z then Ok attrs
           else match bag_draw fuel draw 0 attrs want [] with None => Err | Some r => r end);
  Ok (feats ++ gr_class_attrs from).

Section bag.
  (** The iteration orders of the maps involved: attributes, class attributes, rows. *)
  Variable ao co : list attr → list attr.
  Variable ro : list nat → list nat.

  (** meta/bagging.go:69-74 [generateTrainingInstances], with the attributes it
      records; [drawr] are the rows drawn, [drawa] the attributes. *)
  Definition training_instances (fuel : nat) (drawr drawa : nat → nat) (want : Z) (from : grid)
      : res (list attr * grid) :=
    insts ← sample_with_replacement drawr from (gr_size from).2;
    selected ← training_attrs ao fuel drawa want from;
    v ← view_from_attrs (view_grid co ro insts) selected;
    Ok (selected, view_grid co ro v).

  (** meta/bagging.go:61-64 [generatePredictionInstances]. *)
  Definition prediction_instances (selected : gmap nat (list attr)) (model : nat) (from : grid)
      : res grid :=
    v ← view_from_attrs from (default [] (selected !! model));
    Ok (view_grid co ro v).

  (** Classifiers of any type [C]; [fit c g] is the classifier after [c.Fit(g)]. *)
  Context {C : Type}.
  Variable fit : C → grid → res C.

  (** meta/bagging.go:14-21 BaggedModel. *)
  Record bag := Bag { bg_models : list C; bg_selected : gmap nat (list attr) }.

  (** meta/bagging.go:77-79 [AddModel]. *)
  Definition add_model (b : bag) (c : C) : bag := Bag (bg_models b ++ [c]) (bg_selected b).

  (** meta/bagging.go:88-92: the goroutine of one model. *)
  Definition fit_model (fuel : nat) (drawr drawa : nat → nat → nat) (want : Z) (from : grid)
      (b : bag) (i : nat) : res bag :=
    c ← idx (bg_models b) i;
    l ← training_instances fuel (drawr i) (drawa i) want from;
    c' ← fit_ignoring fit c l.2;
    Ok (Bag (<[i := c']> (bg_models b)) (<[i := l.1]> (bg_selected b))).

  (** meta/bagging.go:83-96 [Fit].  [order] is the order in which the goroutines run;
      simplification: they run one after another, each with its own random source.
      They share only the locked map of selected attributes. *)
  Definition bag_fit (order : list nat) (fuel : nat) (drawr drawa : nat → nat → nat) (want : Z)
      (b : bag) (from : grid) : res bag :=
    res_foldl (fit_model fuel drawr drawa want from) (Bag (bg_models b) ∅) order.

  (** ensemble/randomforest.go:14-19 RandomForest and 35-53 [Fit]; [tree] is
      [trees.NewID3DecisionTree(0.00)].  The result is the model and whether an error is
      returned. *)
  Definition forest_fit (order : list nat) (fuel : nat) (drawr drawa : nat → nat → nat)
      (tree : C) (size features : Z) (model : option bag) (on : grid)
      : res (option bag * bool) :=
    if (Z.of_nat (length (non_class_attrs ao on)) <? features)%Z then Ok (model, true)
    else
      let b := foldl (λ b _, add_model b tree) (Bag [] ∅) (seq 0 (Z.to_nat size)) in
      b ← bag_fit order fuel drawr drawa features b on;
      Ok (Some b, false).
End bag.
Arguments bag : clear implicits.
Arguments Bag {C}.

(** ** Voting *)

(** meta/bagging.go:120-125. *)
Definition cast_vote (voting : gmap nat (gmap string nat)) (row : nat) (class : string)
    : gmap nat (gmap string nat) :=
  <[row := count_up (default ∅ (voting !! row)) class]> voting.

(** meta/bagging.go:117-127: counting one prediction. *)
Definition tally (show : nat → N → string) (incoming : grid)
    (voting : gmap nat (gmap string nat)) : res (gmap nat (gmap string nat)) :=
  specs ← resolve incoming (gr_class_attrs incoming);
  r ← map_over_rows incoming specs (λ v row predRow,
        class ← get_class show incoming predRow; Ok (cast_vote v predRow class, Cont)) voting;
  Ok r.1.

(** The main goroutine of [Predict]: sending the index [k] of a model (or, past the last
    one, closing the pipe), waiting for the workers, closing the votes, waiting for the
    collector, past line 162. *)
Inductive main_pc := Send (k : nat) | WaitWorkers | CloseVotes | WaitVotes | Done.

(** A worker: before line 142, before line 145, before line 146, after line 148. *)
Inductive worker := Idle | Busy (i : nat) | Ready (i : nat) | Stopped.

Definition stopped (w : worker) : bool := match w with Stopped => true | _ => false end.

(** The state shared by the goroutines.  A prediction in the channel [votes] is
    represented by the index of the model it comes from. *)
Record pstate := PS {
  ps_main : main_pc;
  ps_pipe : list nat;
  ps_pipe_closed : bool;
  ps_workers : list worker;
  ps_votes : list nat;
  ps_votes_closed : bool;
  ps_collected : bool;
  ps_voting : gmap nat (gmap string nat)
}.

Inductive thread := Main | Worker (w : nat) | Collector.

Section predict.
  Variable show : nat → N → string.
  (** [runtime.NumCPU()] and the number of models. *)
  Variable n m : nat.
  (** The prediction of each model: each is asked at most once.  [Err] is a nil
      prediction, whose error is ignored (line 145). *)
  Variable answer : nat → res grid.

  (** meta/bagging.go:155-162. *)
  Definition act_main (s : pstate) : option (res pstate) :=
    match ps_main s with
    | Send k =>
        if ps_pipe_closed s then Some Panic
        else if k <? m then
          if length (ps_pipe s) <? n
          then Some (Ok (PS (Send (S k)) (ps_pipe s ++ [k]) false (ps_workers s)
                           (ps_votes s) (ps_votes_closed s) (ps_collected s) (ps_voting s)))
          else None
        else Some (Ok (PS WaitWorkers (ps_pipe s) true (ps_workers s)
                         (ps_votes s) (ps_votes_closed s) (ps_collected s) (ps_voting s)))
    | WaitWorkers =>
        if forallb stopped (ps_workers s)
        then Some (Ok (PS CloseVotes (ps_pipe s) (ps_pipe_closed s) (ps_workers s)
                         (ps_votes s) (ps_votes_closed s) (ps_collected s) (ps_voting s)))
        else None
    | CloseVotes =>
        if ps_votes_closed s then Some Panic
        else Some (Ok (PS WaitVotes (ps_pipe s) (ps_pipe_closed s) (ps_workers s)
                         (ps_votes s) true (ps_collected s) (ps_voting s)))
    | WaitVotes =>
        if ps_collected s
        then Some (Ok (PS Done (ps_pipe s) (ps_pipe_closed s) (ps_workers s)
                         (ps_votes s) (ps_votes_closed s) (ps_collected s) (ps_voting s)))
        else None
    | Done => None
    end.

  (** meta/bagging.go:140-152: worker [w]. *)
  Definition act_worker (w : nat) (s : pstate) : option (res pstate) :=
    match ps_workers s !! w with
    | Some Idle =>
        match ps_pipe s with
        | i :: pipe =>
            Some (Ok (PS (ps_main s) pipe (ps_pipe_closed s) (<[w := Busy i]> (ps_workers s))
                        (ps_votes s) (ps_votes_closed s) (ps_collected s) (ps_voting s)))
        | [] =>
            if ps_pipe_closed s
            then Some (Ok (PS (ps_main s) [] true (<[w := Stopped]> (ps_workers s))
                             (ps_votes s) (ps_votes_closed s) (ps_collected s) (ps_voting s)))
            else None
        end
    | Some (Busy i) =>
        match answer i with
        | Panic => Some Panic
        | _ => Some (Ok (PS (ps_main s) (ps_pipe s) (ps_pipe_closed s)
                           (<[w := Ready i]> (ps_workers s))
                           (ps_votes s) (ps_votes_closed s) (ps_collected s) (ps_voting s)))
        end
    | Some (Ready i) =>
        if ps_votes_closed s then Some Panic
        else if length (ps_votes s) <? n
        then Some (Ok (PS (ps_main s) (ps_pipe s) (ps_pipe_closed s)
                         (<[w := Idle]> (ps_workers s))
                         (ps_votes s ++ [i]) false (ps_collected s) (ps_voting s)))
        else None
    | _ => None
    end.

  (** meta/bagging.go:113-133: the collector. *)
  Definition act_collector (s : pstate) : option (res pstate) :=
    if ps_collected s then None
    else match ps_votes s with
         | i :: votes =>
             match answer i with
             | Ok g =>
                 match tally show g (ps_voting s) with
                 | Ok voting =>
                     Some (Ok (PS (ps_main s) (ps_pipe s) (ps_pipe_closed s) (ps_workers s)
                                 votes (ps_votes_closed s) false voting))
                 | _ => Some Panic
                 end
             | _ => Some Panic
             end
         | [] =>
             if ps_votes_closed s
             then Some (Ok (PS (ps_main s) (ps_pipe s) (ps_pipe_closed s) (ps_workers s)
                              [] true true (ps_voting s)))
             else None
         end.

  (** A step of the chosen goroutine; [None]: it is blocked or has ended. *)
  Definition act (t : thread) (s : pstate) : option (res pstate) :=
    match t with
    | Main => act_main s
    | Worker w => act_worker w s
    | Collector => act_collector s
    end.

  (** meta/bagging.go:104-153: after creating the channels and the goroutines. *)
  Definition predict_init : pstate :=
    PS (Send 0) [] false (replicate n Idle) [] false false ∅.

  (** Any goroutine that can go on may be the next to run. *)
  Definition predict_step (s s' : pstate) : Prop := ∃ t, act t s = Some (Ok s').
End predict.

(** meta/bagging.go:167-176: the most popular class, in the order [ko] of the map. *)
Definition popular (ko : list (string * nat) → list (string * nat)) (votes : gmap string nat)
    : string :=
  (foldl (λ acc cv, if acc.2 <? cv.2 then cv else acc) ("", 0) (ko (map_to_list votes))).1.

(** meta/bagging.go:164-179: the consensus.  [ro] is the order of the rows, [ko row] that
    of the classes voted for in the row. *)
Definition consensus (parse : string → option binary64)
    (order : list ((nat * nat) * bool) → list ((nat * nat) * bool))
    (ro : list (nat * gmap string nat) → list (nat * gmap string nat))
    (ko : nat → list (string * nat) → list (string * nat))
    (pg : nat) (from : grid) (voting : gmap nat (gmap string nat)) : res dense :=
  ret ← prediction_vector pg from;
  res_foldl (λ ret rv, set_class parse order ret rv.1 (popular (ko rv.1) rv.2)) ret
    (ro (map_to_list voting)).

(** ** One versus all *)

(** meta/one_v_all.go:330-347 [generateAttributes]; [oo] is the order of the map. *)
Definition ova_attrs (oo : list attr → list attr) (from : grid) : res (list (attr * attr)) :=
  match gr_class_attrs from with
  | [b] => Ok (map (λ a, (a, if attr_equals a b then new_float (attr_name b) else a))
                   (oo (build_attr_set (gr_all_attrs from))))
  | _ => Panic
  end.

(** meta/one_v_all.go:352-389 oneVsAllFilter: the filter of class [i]. *)
Definition ova_filter (attrs : list (attr * attr)) (class : attr) (i : nat) : filter_t :=
  Filter attrs (λ old to seq,
    if negb (attr_equals old class) then Ok seq
    else
      val ← unpack_u64 seq;
      Ok (pack_float (if (val =? N.of_nat i)%N then float_one else float_zero))).

(** meta/one_v_all.go:50-58: the highest code of a value. *)
Definition ova_max (vals : list string) : nat :=
  foldl (λ val s, let cur := default 0 (cat_find vals s) in if val <? cur then cur else val)
    0 vals.

Section ova.
  Context {C : Type}.
  (** [NewClassifierFunction], [Fit] and [Predict] of the wrapped classifiers. *)
  Variable make : string → C.
  Variable fit : C → grid → res C.
  Variable predict : C → grid → res grid.
  Variable oo co : list attr → list attr.

  (** meta/one_v_all.go:12-19 OneVsAllModel. *)
  Record ova := Ova { ov_filters : list filter_t; ov_models : list C; ov_max : nat }.

  (** meta/one_v_all.go:72-81: the model of class [i]. *)
  Definition ova_fit_one (attrs : list (attr * attr)) (class : attr) (vals : list string)
      (on : grid) (i : nat) : res (filter_t * C) :=
    let f := ova_filter attrs class i in
    v ← idx vals i;
    if (gr_size on).2 =? 0 then Ok (f, make v)
    else c ← fit_ignoring fit (make v) (lf_grid co (new_lfiltered on f)); Ok (f, c).

  (** meta/one_v_all.go:37-88 [Fit]. *)
  Definition ova_fit (on : grid) : res ova :=
    match gr_class_attrs on with
    | [CatA name vals] =>
        attrs ← ova_attrs oo on;
        let val := ova_max vals in
        if val =? 0 then Panic
        else
          l ← res_mapM (ova_fit_one attrs (CatA name vals) vals on) (seq 0 (val + 1));
          Ok (Ova (map fst l) (map snd l) val)
    | _ => Panic
    end.

  (** meta/one_v_all.go:106-113: the prediction of the model of class [i] and the spec of
      its class. *)
  Definition ova_scores (o : ova) (what : grid) (i : nat) : res (grid * spec) :=
    f ← idx (ov_filters o) i;
    c ← idx (ov_models o) i;
    p ← predict c (lf_grid co (new_lfiltered what f));
    specs ← resolve p (gr_class_attrs p);
    s ← idx specs 0;
    Ok (p, s).

  (** meta/one_v_all.go:118-126: the class of one row. *)
  Definition ova_class (vecs : list (grid * spec)) (row max : nat) : res nat :=
    r ← res_foldl (λ cb j,
          v ← idx vecs j;
          raw ← gr_get v.1 v.2 row;
          val ← unpack_float raw;
          Ok (if float_gt val cb.2 then (j, val) else cb)) (0, float_zero) (seq 0 (max + 1));
    Ok r.1.

  (** meta/one_v_all.go:95-130 [Predict]. *)
  Definition ova_predict (pg : nat)
      (order : list ((nat * nat) * bool) → list ((nat * nat) * bool)) (o : ova) (what : grid)
      : res dense :=
    ret ← prediction_vector pg what;
    if (length (ov_filters o) <? ov_max o) || ((ov_max o =? 0) && (length (ov_filters o) =? 0))
    then Err
    else
      vecs ← res_mapM (ova_scores o what) (seq 0 (ov_max o + 1));
      specs ← resolve (dense_grid (order (map_to_list (d_class ret))) ret)
                (class_attrs_in_order ret (order (map_to_list (d_class ret))));
      s ← idx specs 0;
      res_foldl (λ ret i,
        class ← ova_class vecs i (ov_max o);
        dense_set ret s i (pack_u64 (N.of_nat class))) ret (seq 0 (dense_size ret).2).
End ova.
Arguments ova : clear implicits.
Arguments Ova {C}.
