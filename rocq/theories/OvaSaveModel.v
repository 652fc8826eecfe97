(** Model of saving and loading one-vs-all models and linear support vector classifiers:
    meta/one_v_all.go, linear_models/linearsvc.go, liblinear.go, ensemble/multisvc.go, and
    [save_model] and [load_model] of liblinear (linear_models/linear.cpp). *)
From Coq Require Import Ascii.
From Verif Require Import Prelude BytesModel AttrModel StoreModel DenseModel GridModel CsvModel
  FilterModel PredModel SerModel Id3Model NbModel BagModel SvcModel LibModel SaveModel.
From Flocq Require Import IEEE754.Bits IEEE754.Binary.
From stdpp Require Import pretty countable.
Local Open Scope nat_scope.

Global Instance attr_countable : Countable attr.
Proof.
  refine (inj_countable' (λ a, match a with
      | FloatA n p => inl (n, p) | CatA n v => inr (inl (n, v)) | BinA n => inr (inr n) end)
    (λ s : (string * nat) + ((string * list string) + string), match s with
      | inl (n, p) => FloatA n p | inr (inl (n, v)) => CatA n v | inr (inr n) => BinA n end) _).
  by intros [].
Defined.

(** ** One-vs-all models *)

(** meta/one_v_all.go:352-356 oneVsAllFilter.  The keys of [attrs] are pointers in the
    code; here they are attributes. *)
Record ofilter := OFilter { of_attrs : gmap attr attr; of_class : attr; of_val : N }.

(** meta/one_v_all.go:12-19 OneVsAllModel without [fitOn]. *)
Record ova_model (C : Type) := OvaModel {
  om_filters : list ofilter;
  om_models : list C;
  om_max : nat;
  om_values : list string
}.
Arguments OvaModel {C}. Arguments om_filters {C}. Arguments om_models {C}.
Arguments om_max {C}. Arguments om_values {C}.

(** The model of BagModel.v, on which [Predict] is defined; [fo] is the order in which the
    map of a filter is iterated over. *)
Definition om_ova {C} (fo : list (attr * attr) → list (attr * attr)) (m : ova_model C) : ova C :=
  Ova (map (λ f, ova_filter (fo (map_to_list (of_attrs f))) (of_class f) (N.to_nat (of_val f)))
           (om_filters m)) (om_models m) (om_max m).

Section ova_save.
  Variable marshal : json → list N.
  Variable unmarshal : list N → option json.
  Variable is_nil : attr → bool.
  Variable attr_order : list attr → list attr.
  Variable got : nat → nat → nat.
  Variable pg : nat.
  Context {C : Type}.
  (** [NewClassifierFunction] and [Fit]; see BagModel.v. *)
  Variable make : string → C.
  Variable fit : C → grid → res C.
  Variable oo co : list attr → list attr.
  (** The order of the class attributes of a loaded structure. *)
  Variable class_iter : list ((nat * nat) * bool) → list ((nat * nat) * bool).
  (** The order in which the map of filter [i] is written. *)
  Variable mo : nat → list (attr * attr) → list (attr * attr).
  (** [SaveWithPrefix] of a member; [LoadWithPrefix] on the classifier that
      [NewClassifierFunction] makes for a class. *)
  Variable save : C → ser → string → res ser.
  Variable load : string → archive → string → res C.

  (** meta/one_v_all.go:37-88 [Fit]: what is kept besides [fitOn]. *)
  Definition ova_kept (on : grid) : res (ova_model C) :=
    match gr_class_attrs on with
    | [CatA name vals] =>
        attrs ← ova_attrs oo on;
        o ← ova_fit make fit oo co on;
        Ok (OvaModel (map (λ i, OFilter (list_to_map attrs) (CatA name vals) (N.of_nat i))
                          (seq 0 (ov_max o + 1)))
              (ov_models o) (ov_max o) vals)
    | _ => Panic
    end.

  (** meta/one_v_all.go:145-147 and 262-264 [pI]. *)
  Definition numbered (prefix name : string) (i : nat) : string :=
    tar_prefix prefix (tar_prefix name (pretty i)).

  (** meta/one_v_all.go:291-305: entry [j] of the map of a filter. *)
  Definition tuple_save (mp : string) (s : ser) (jkv : nat * (attr * attr)) : res ser :=
    let tuple := tar_prefix mp (pretty jkv.1) in
    s ← put_attr marshal is_nil (tar_prefix tuple "KEY") jkv.2.1 s;
    put_attr marshal is_nil (tar_prefix tuple "VAL") jkv.2.2 s.

  (** meta/one_v_all.go:283-316: filter [i]. *)
  Definition filter_save (prefix : string) (s : ser) (i : nat) (f : ofilter) : res ser :=
    let mp := numbered prefix "FILTER" i in
    s ← put_u64 (tar_prefix mp "COUNT") (N.of_nat (size (of_attrs f))) s;
    s ← res_foldl (tuple_save mp) s (imap pair (mo i (map_to_list (of_attrs f))));
    s ← put_attr marshal is_nil (tar_prefix mp "CLASS_ATTR") (of_class f) s;
    put_u64 (tar_prefix mp "CLASS_VAL") (of_val f) s.

  (** meta/one_v_all.go:260-328 [SaveWithPrefix]; [on] is [fitOn]. *)
  Definition ova_save (m : ova_model C) (on : grid) (s : ser) (prefix : string) : res ser :=
    s ← put_instances marshal is_nil attr_order (tar_prefix prefix "INSTANCE_STRUCTURE") on false s;
    s ← put_json marshal (tar_prefix prefix "CLASS_VALUES") (JArr (map JStr (om_values m))) s;
    s ← put_u64 (tar_prefix prefix "FILTER_COUNT") (N.of_nat (length (om_filters m))) s;
    s ← res_foldl (λ s jf, filter_save prefix s jf.1 jf.2) s (imap pair (om_filters m));
    s ← res_foldl (λ s jc, save jc.2 s (numbered prefix "CLASSIFIERS" jc.1)) s
          (imap pair (om_models m));
    ser_close s.

  (** meta/one_v_all.go:178-198. *)
  Definition tuple_load (ar : archive) (mp : string) (all : list attr) (j : nat)
      : res (attr * attr) :=
    let tuple := tar_prefix mp (pretty j) in
    key ← get_attribute_for unmarshal ar (tar_prefix tuple "KEY");
    val ← get_attribute_for unmarshal ar (tar_prefix tuple "VAL");
    key ← replace_attr key.1 all;
    Ok (key, val.1).

  (** meta/one_v_all.go:166-218: filter [i]. *)
  Definition filter_load (ar : archive) (prefix : string) (all : list attr) (i : nat)
      : res ofilter :=
    let mp := numbered prefix "FILTER" i in
    n ← get_u64 ar (tar_prefix mp "COUNT");
    attrs ← res_foldl (λ m j, kv ← tuple_load ar mp all j; Ok (<[kv.1 := kv.2]> m))
              (∅ : gmap attr attr) (seq 0 (N.to_nat n));
    cls ← get_attribute_for unmarshal ar (tar_prefix mp "CLASS_ATTR");
    cls ← replace_attr cls.1 all;
    v ← get_u64 ar (tar_prefix mp "CLASS_VAL");
    Ok (OFilter attrs cls v).

  (** Decoding a [\[\]string]. *)
  Definition json_string_list (j : json) : res (list string) :=
    match j with
    | JNull => Ok []
    | JArr l => res_mapM (λ v, json_string (Some v)) l
    | _ => Err
    end.

  (** meta/one_v_all.go:143-241 [LoadWithPrefix]: the model and [fitOn], which is a copy of
      the structure of the loaded instances (see C132). *)
  Definition ova_load (ar : archive) (prefix : string) : res (ova_model C * dense) :=
    on ← get_instances unmarshal got pg ar (tar_prefix prefix "INSTANCE_STRUCTURE");
    o ← ova_fit make fit oo co (dense_grid (class_iter (map_to_list (d_class on))) on);
    n ← get_u64 ar (tar_prefix prefix "FILTER_COUNT");
    filters ← res_mapM (filter_load ar prefix (dense_all_attrs on)) (seq 0 (N.to_nat n));
    j ← get_json unmarshal ar (tar_prefix prefix "CLASS_VALUES");
    vals ← json_string_list j;
    models ← res_mapM (λ iv, load iv.2 ar (numbered prefix "CLASSIFIERS" iv.1)) (imap pair vals);
    Ok (OvaModel filters models (ov_max o) vals, on).

  (** meta/one_v_all.go:243-258 [GetMetadata], [Save] and 132-141 [Load]. *)
  Definition ova_file_save (m : ova_model C) (on : grid) : res archive :=
    s ← create_stub marshal (Meta 1 "OneVsAllModel" "1.0" None);
    s ← ova_save m on s "";
    Ok (ser_file s).
  Definition ova_file_load (ar : archive) : res (ova_model C * dense) :=
    _ ← read_stub unmarshal ar; ova_load ar "".
End ova_save.

(** ** The files of liblinear *)

(** linear.cpp: solver_type_table. *)
Definition solver_names : list string :=
  ["L2R_LR"; "L2R_L2LOSS_SVC_DUAL"; "L2R_L2LOSS_SVC"; "L2R_L1LOSS_SVC_DUAL"; "MCSVM_CS";
   "L1R_L2LOSS_SVC"; "L1R_LR"; "L2R_LR_DUAL"; ""; ""; "";
   "L2R_L2LOSS_SVR"; "L2R_L2LOSS_SVR_DUAL"; "L2R_L1LOSS_SVR_DUAL"].

(** White space in C. *)
Definition blank (b : N) : bool := (b =? 32)%N || ((9 <=? b)%N && (b <=? 13)%N).

(** A file of words.  Simplification: the words are separated by single spaces, also where
    the code starts a new line. *)
Definition words_bytes (ws : list string) : list N :=
  concat (map (λ w, map N_of_ascii (String.list_ascii_of_string w) ++ [32%N]) ws).

(** The words of a file, as [fscanf] with %s finds them; the code reads at most 80
    characters at a time, which is not modelled. *)
Fixpoint bytes_words (l cur : list N) : list (list N) :=
  match l with
  | [] => match cur with [] => [] | _ => [rev cur] end
  | b :: l =>
      if blank b then
        match cur with [] => bytes_words l [] | _ => rev cur :: bytes_words l [] end
      else bytes_words l (b :: cur)
  end.
Definition byte_string (l : list N) : string := String.string_of_list_ascii (map ascii_of_N l).
Definition file_words (b : list N) : list string := map byte_string (bytes_words b []).

(** [%d] in [fprintf] and [fscanf]. *)
Definition show_int (z : Z) : string := pretty z.
Definition scan_int (s : string) : option Z :=
  match s with
  | String "-" s => (λ v, (- Z.of_N v)%Z) <$> read_digits s 0
  | _ => Z.of_N <$> read_digits s 0
  end.

(** linear.h:40-48 struct model: with the solver.  The numbers [lm_n] and [nr_class] are
    C ints. *)
Definition outputs (m : lmodel) : nat :=
  if length (lm_labels m) =? 2 then 1 else length (lm_labels m).

Section liblinear_files.
  (** [%.16g] in [fprintf] and [%lf] in [fscanf]. *)
  Variable show16 : binary64 → string.
  Variable scan_float : string → option binary64.

  (** linear.cpp:2587-2640 [save_model] for the solvers of LibModel.v.  Weights that are
      not in the array are not defined. *)
  Definition save_model (solver : nat) (m : lmodel) : res (list N) :=
    name ← idx solver_names solver;
    w ← res_mapM (idx (lm_w m)) (seq 0 (lm_n m * outputs m));
    Ok (words_bytes (["solver_type"; name; "nr_class"; show_int (Z.of_nat (length (lm_labels m)))] ++
          "label" :: map show_int (lm_labels m) ++
          ["nr_feature"; show_int (Z.of_nat (lm_n m)); "bias"; "-1"; "w"] ++ map show16 w)).

  (** The state of [load_model]: fields that have not been read are not defined. *)
  Record lhead := LHead {
    lh_solver : option nat;
    lh_classes : option Z;
    lh_labels : option (list Z);
    lh_features : option Z;
    lh_bias : option binary64
  }.

  (** [fscanf] of [n] numbers; a word that is no number leaves the variable as it was,
      which is not defined. *)
  Fixpoint scan_many {A} (scan : string → option A) (n : nat) (ws : list string)
      : res (list A * list string) :=
    match n, ws with
    | 0, _ => Ok ([], ws)
    | S n, w :: ws =>
        match scan w with
        | Some a => r ← scan_many scan n ws; Ok (a :: r.1, r.2)
        | None => Panic
        end
    | S _, [] => Panic
    end.
  Definition must {A} (o : option A) : res A := match o with Some a => Ok a | None => Panic end.

  (** linear.cpp:2660-2717: the loop over the commands; [fuel] is at least the number of
      words.  At the end of the file the code loops for ever or reads the last command
      again; this is not modelled. *)
  Fixpoint load_head (fuel : nat) (h : lhead) (ws : list string) : res (lhead * list string) :=
    match fuel, ws with
    | S fuel, cmd :: ws =>
        if bool_decide (cmd = "solver_type") then
          match ws with
          | name :: ws =>
              match list_find (λ n, n = name) solver_names with
              | Some (i, _) =>
                  load_head fuel (LHead (Some i) (lh_classes h) (lh_labels h) (lh_features h) (lh_bias h)) ws
              | None => Err
              end
          | [] => Panic
          end
        else if bool_decide (cmd = "nr_class") then
          r ← scan_many scan_int 1 ws;
          n ← idx r.1 0;
          load_head fuel (LHead (lh_solver h) (Some n) (lh_labels h) (lh_features h) (lh_bias h)) r.2
        else if bool_decide (cmd = "nr_feature") then
          r ← scan_many scan_int 1 ws;
          n ← idx r.1 0;
          load_head fuel (LHead (lh_solver h) (lh_classes h) (lh_labels h) (Some n) (lh_bias h)) r.2
        else if bool_decide (cmd = "bias") then
          r ← scan_many scan_float 1 ws;
          b ← idx r.1 0;
          load_head fuel (LHead (lh_solver h) (lh_classes h) (lh_labels h) (lh_features h) (Some b)) r.2
        else if bool_decide (cmd = "w") then Ok (h, ws)
        else if bool_decide (cmd = "label") then
          n ← must (lh_classes h);
          r ← scan_many scan_int (Z.to_nat n) ws;
          load_head fuel (LHead (lh_solver h) (lh_classes h) (Some r.1) (lh_features h) (lh_bias h)) r.2
        else Err
    | _, _ => Panic
    end.

  (** linear.cpp:2642-2750 [load_model]; a bias that is not negative and the solver
      MCSVM_CS, which the package never writes, are not modelled. *)
  Definition load_model (b : list N) : res (nat * lmodel) :=
    let ws := file_words b in
    r ← load_head (length ws) (LHead None None None None None) ws;
    let h := r.1 in
    n ← must (lh_features h);
    bias ← must (lh_bias h);
    solver ← must (lh_solver h);
    nr ← must (lh_classes h);
    if negb (float_gt Id3Model.float_zero bias) || (solver =? 4) then Panic else
    labels ← must (lh_labels h);
    let nr_w := if (nr =? 2)%Z then 1 else Z.to_nat nr in
    w ← scan_many scan_float (Z.to_nat n * nr_w) r.2;
    Ok (solver, LModel labels (Z.to_nat n) w.1).
End liblinear_files.

(** ** Linear support vector classifiers *)

(** linear_models/linearsvc.go:111-115 LinearSVC.  [ls_native] is [param]: the solver, C
    and eps that are passed to liblinear; the model comes with the solver it was trained
    by.  [None] is a nil pointer. *)
Record lsvc := LSvc {
  ls_native : option (nat * binary64 * binary64);
  ls_model : option (nat * lmodel);
  ls_param : svc
}.

(** linear_models/linearsvc.go:139-146 [NewLinearSVCFromParams]. *)
Definition lsvc_new (p : svc) : lsvc := LSvc (Some (sv_solver p, sv_c p, sv_eps p)) None p.

Section lsvc.
  Variable marshal : json → list N.
  Variable unmarshal : list N → option json.
  Variable fmt : binary64 → string.
  Variable fparse : string → option binary64.
  Variable show16 : binary64 → string.
  Variable scan_float : string → option binary64.
  Variable undef : binary64 → Z.
  (** See LibModel.v; for a solver and epsilon. *)
  Variable train_one : nat → binary64 → list (list node * bool) → binary64 → binary64 → list binary64.
  Variable half : binary64.
  Variable pg : nat.

  (** linear_models/linearsvc.go:150-184 [Fit]: the weights are those of [Param], the rest
      comes from [param]. *)
  Definition lsvc_fit (l : lsvc) (g : grid) : res lsvc :=
    let p := ls_param l in
    match ls_native l with
    | None => Panic
    | Some (solver, c, eps) =>
        m ← svc_fit undef (train_one solver eps) half
              (SVC solver (sv_weights p) c eps (sv_auto p) (sv_dual p)) g;
        Ok (LSvc (ls_native l) (Some (solver, m)) p)
    end.

  (** linear_models/linearsvc.go:187-215 [Predict]. *)
  Definition lsvc_predict (l : lsvc) (g : grid) : res dense :=
    linear_predict pg (snd <$> ls_model l) g.

  (** LinearSVCParams as JSON, and decoding into one: a member that is absent or [null]
      leaves the field as it was, except that [null] makes a slice nil. *)
  Definition svc_json (p : svc) : res json :=
    w ← match sv_weights p with None => Ok JNull | Some w => floats_json fmt w end;
    c ← float_json fmt (sv_c p);
    eps ← float_json fmt (sv_eps p);
    Ok (JObj [("SolverType", JNum (sv_solver p)); ("ClassWeights", w); ("C", c); ("Eps", eps);
              ("WeightClassesAutomatically", JBool (sv_auto p)); ("Dual", JBool (sv_dual p))]).
  Definition json_float_into (old : binary64) (v : option json) : res binary64 :=
    match v with
    | None | Some JNull => Ok old
    | Some v => match json_float fparse v with Ok f => Ok f | _ => Err end
    end.
  Definition json_bool_into (old : bool) (v : option json) : res bool :=
    match v with
    | None | Some JNull => Ok old
    | Some (JBool b) => Ok b
    | _ => Err
    end.
  Definition json_svc (old : svc) (j : json) : res svc :=
    l ← match j with JObj l => Ok l | JNull => Ok [] | _ => Err end;
    solver ← match member l "SolverType" with
             | None | Some JNull => Ok (sv_solver old)
             | Some (JNum n) => Ok n
             | _ => Err
             end;
    w ← match member l "ClassWeights" with
        | None => Ok (sv_weights old)
        | Some JNull => Ok None
        | Some v => w ← json_floats fparse v; Ok (Some w)
        end;
    c ← json_float_into (sv_c old) (member l "C");
    eps ← json_float_into (sv_eps old) (member l "Eps");
    auto ← json_bool_into (sv_auto old) (member l "WeightClassesAutomatically");
    dual ← json_bool_into (sv_dual old) (member l "Dual");
    Ok (SVC solver w c eps auto dual).

  (** linear_models/linearsvc.go:251-292 [SaveWithPrefix], linear_models/liblinear.go:68-74 [Export]. *)
  Definition lsvc_save (l : lsvc) (s : ser) (prefix : string) : res ser :=
    j ← svc_json (ls_param l);
    m ← must (ls_model l);
    b ← save_model show16 m.1 m.2;
    s ← put_bytes (tar_prefix prefix "PARAMETERS") (marshal j) s;
    put_bytes (tar_prefix prefix "MODEL") b s.

  (** linear_models/linearsvc.go:306-331 [LoadWithPrefix] on [l], linear_models/liblinear.go:76-82 [Load];
      [param] is not changed. *)
  Definition lsvc_load (l : lsvc) (ar : archive) (prefix : string) : res lsvc :=
    j ← get_json unmarshal ar (tar_prefix prefix "PARAMETERS");
    p ← json_svc (ls_param l) j;
    b ← get_named_file ar (tar_prefix prefix "MODEL");
    m ← load_model scan_float b;
    Ok (LSvc (ls_native l) (Some m) p).

  (** linear_models/linearsvc.go:217-249 [GetMetadata], [Save] and 294-304 [Load]. *)
  Definition lsvc_file_save (l : lsvc) : res archive :=
    j ← match svc_json (ls_param l) with Ok j => Ok j | _ => Panic end;
    params ← match j with JObj o => Ok o | _ => Panic end;
    s ← create_stub marshal (Meta 1 "LinearSVC" "1.0" (Some params));
    s ← lsvc_save l s "";
    Ok (ser_file (ser_try_close s)).
  Definition lsvc_file_load (l : lsvc) (ar : archive) : res lsvc :=
    _ ← read_stub unmarshal ar; lsvc_load l ar "".

  (** ** The ensemble of them *)

  (** ensemble/multisvc.go:13-17 MultiLinearSVC. *)
  Record multi := Multi {
    mu_params : svc;
    mu_weights : option (gmap string binary64);
    mu_ova : ova_model lsvc
  }.

  Variable is_nil : attr → bool.
  Variable attr_order : list attr → list attr.
  Variable got : nat → nat → nat.
  Variable oo co : list attr → list attr.
  Variable class_iter : list ((nat * nat) * bool) → list ((nat * nat) * bool).
  Variable mo : nat → list (attr * attr) → list (attr * attr).
  (** The order in which the map of weights is iterated over. *)
  Variable wo : list (string * binary64) → list (string * binary64).

  (** ensemble/multisvc.go:43-66 [initializeOneVsAllModel]: NewClassifierFunction. *)
  Definition multi_make (p : svc) (weights : option (gmap string binary64)) (cls : string) : lsvc :=
    lsvc_new (multi_params wo p weights cls).

  (** ensemble/multisvc.go:70-73 [Fit]; 80-82 [Predict]: [linear_predict] on the members. *)
  Definition multi_fit (p : svc) (weights : option (gmap string binary64)) (on : grid) : res multi :=
    o ← ova_kept (multi_make p weights) lsvc_fit oo co on;
    Ok (Multi p weights o).
  Definition multi_predict (fo : list (attr * attr) → list (attr * attr)) (m : multi) (what : grid)
      : res dense :=
    ova_predict (λ l g, d ← lsvc_predict l g; Ok (dense_grid (class_iter (map_to_list (d_class d))) d))
      co pg class_iter (om_ova fo (mu_ova m)) what.

  (** The map of weights as JSON; decoding into a map keeps the entries it has. *)
  Definition weights_json (w : option (gmap string binary64)) : res json :=
    match w with
    | None => Ok JNull
    | Some w =>
        l ← res_mapM (λ kv, j ← float_json fmt kv.2; Ok (kv.1, j)) (map_to_list w); Ok (JObj l)
    end.
  Definition json_weights (old : option (gmap string binary64)) (j : json)
      : res (option (gmap string binary64)) :=
    match j with
    | JNull => Ok None
    | JObj l =>
        l ← res_mapM (λ kv, v ← json_float_into Id3Model.float_zero (Some kv.2); Ok (kv.1, v)) l;
        Ok (Some (list_to_map l ∪ default ∅ old))
    | _ => Err
    end.

  (** ensemble/multisvc.go:106-127 [SaveWithPrefix]. *)
  Definition multi_save (m : multi) (on : grid) (s : ser) (prefix : string) : res ser :=
    j ← svc_json (mu_params m);
    s ← put_json marshal (prefix +:+ "/" +:+ "params") j s;
    j ← weights_json (mu_weights m);
    s ← put_json marshal (prefix +:+ "/" +:+ "weights") j s;
    ova_save marshal is_nil attr_order mo lsvc_save (mu_ova m) on s (prefix +:+ "/" +:+ "one-vs-all").

  (** ensemble/multisvc.go:152-176 [LoadWithPrefix] on a classifier with parameters [p] and
      weights [w]. *)
  Definition multi_load (p : svc) (w : option (gmap string binary64)) (ar : archive) (prefix : string)
      : res (multi * dense) :=
    j ← get_json unmarshal ar (prefix +:+ "/" +:+ "params");
    p ← json_svc p j;
    j ← get_json unmarshal ar (prefix +:+ "/" +:+ "weights");
    w ← json_weights w j;
    o ← ova_load unmarshal got pg (multi_make p w) lsvc_fit oo co class_iter
          (λ cls, lsvc_load (multi_make p w cls)) ar (prefix +:+ "/" +:+ "one-vs-all");
    Ok (Multi p w o.1, o.2).

  (** ensemble/multisvc.go:84-104 [GetClassifierMetadata], [Save] and 138-150 [Load]. *)
  Definition multi_file_save (m : multi) (on : grid) : res archive :=
    s ← create_stub marshal (Meta 1 "MultiLinearSVC" "1" None);
    s ← multi_save m on s "";
    Ok (ser_file (ser_try_close s)).
  Definition multi_file_load (p : svc) (w : option (gmap string binary64)) (ar : archive)
      : res (multi * dense) :=
    _ ← read_stub unmarshal ar; multi_load p w ar "".
End lsvc.
