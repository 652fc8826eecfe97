(** Model of saving and loading classifiers: base/serialize.go and the Save, Load,
    SaveWithPrefix and LoadWithPrefix methods of trees/id3.go, trees/random.go,
    naive/bernoulli_nb.go, knn/knn.go, meta/bagging.go and ensemble/randomforest.go.
    Files are the archives of SerModel.v; errors of the operating system and the
    compression are not modelled. *)
From Coq Require Import Ascii.
From Verif Require Import Prelude BytesModel AttrModel StoreModel DenseModel GridModel CsvModel
  PredModel SerModel Id3Model NbModel BagModel.
From Flocq Require Import IEEE754.Bits IEEE754.Binary.
From stdpp Require Import pretty.
Local Open Scope nat_scope.

(** ** The writer *)

(** base/serialize.go:251-257 [ClassifierSerializer]: the tar writer, and whether it
    has been closed. *)
Record ser := Ser { sr_tar : tarw; sr_closed : bool }.

(** Anything written to a closed archive/tar writer is refused. *)
Definition ser_do (f : tarw → res tarw) (s : ser) : res ser :=
  if sr_closed s then Err else w ← f (sr_tar s); Ok (Ser w false).

(** base/serialize.go:260-288 [Close]. *)
Definition ser_close (s : ser) : res ser :=
  if sr_closed s then Err else ar ← tar_close (sr_tar s); Ok (Ser (TarW ar None) true).
(** A call of [Close] whose error is ignored. *)
Definition ser_try_close (s : ser) : ser :=
  match ser_close s with Ok s' => s' | _ => s end.

(** What a reader finds in the file: the entries completed so far.  Also before
    [Close], as WriteBytesForKey flushes all layers (base/serialize.go:311-313). *)
Definition ser_file (s : ser) : archive := tw_done (sr_tar s).

(** ** JSON *)

(** The number a literal stands for, when it is a natural number in decimal. *)
Fixpoint read_digits (s : string) (acc : N) : option N :=
  match s with
  | EmptyString => Some acc
  | String c s =>
      let d := N_of_ascii c in
      if (48 <=? d)%N && (d <=? 57)%N then read_digits s (acc * 10 + (d - 48)) else None
  end.
Definition read_nat (s : string) : option nat := N.to_nat <$> read_digits s 0.

(** A number literal as a JSON value, and its text. *)
Definition json_lit (s : string) : json :=
  match read_digits s 0 with
  | Some v => if bool_decide (pretty v = s) && (v <=? 2^53)%N then JNum (N.to_nat v) else JLit s
  | None => JLit s
  end.
Definition lit_text (j : json) : option string :=
  match j with JNum n => Some (pretty n) | JLit s => Some s | _ => None end.

(** Decoding into an [int]: absent or [null] leaves it 0. *)
Definition json_int (v : option json) : res nat :=
  match v with
  | None | Some JNull => Ok 0
  | Some (JNum n) => Ok n
  | _ => Err
  end.

(** base/serialize.go:80-91 [ClassifierMetadataV1]; [None] is a nil map. *)
Record meta := Meta {
  md_format : nat;
  md_name : string;
  md_version : string;
  md_params : option (list (string * json))
}.

(** The tag of ClassifierVersion is malformed, so its key is the name of the field. *)
Definition meta_json (m : meta) : json :=
  JObj [("format_version", JNum (md_format m)); ("classifier", JStr (md_name m));
        ("ClassifierVersion", JStr (md_version m));
        ("classifier_metadata", match md_params m with None => JNull | Some l => JObj l end)].

Definition json_meta (j : json) : res meta :=
  l ← match j with JObj l => Ok l | JNull => Ok [] | _ => Err end;
  f ← json_int (member l "format_version");
  n ← json_string (member l "classifier");
  v ← json_string (member l "ClassifierVersion");
  p ← match member l "classifier_metadata" with
      | None | Some JNull => Ok None
      | Some (JObj p) => Ok (Some p)
      | _ => Err
      end;
  Ok (Meta f n v p).

Section save.
  (** encoding/json. *)
  Variable marshal : json → list N.
  Variable unmarshal : list N → option json.
  (** The text encoding/json writes for a finite float64, and [strconv.ParseFloat]. *)
  Variable fmt : binary64 → string.
  Variable fparse : string → option binary64.
  (** The text encoding/json writes for a [\[\]byte] (base64), and its inverse. *)
  Variable b64 : list N → string.
  Variable unb64 : string → option (list N).
  (** See SerModel.v. *)
  Variable is_nil : attr → bool.
  Variable attr_order : list attr → list attr.
  Variable got : nat → nat → nat.
  (** [os.Getpagesize()]. *)
  Variable pg : nat.

  Definition parse_json (b : list N) : res json :=
    match unmarshal b with Some j => Ok j | None => Err end.

  (** base/serialize.go:383-426 [CreateSerializedClassifierStub]. *)
  Definition create_stub (m : meta) : res ser :=
    w ← classifier_stub (marshal (meta_json m)); Ok (Ser w false).

  (** base/serialize.go:110-114 [ReadMetadataAtPrefix]. *)
  Definition read_metadata (ar : archive) (prefix : string) : res meta :=
    b ← get_named_file ar (tar_prefix prefix "METADATA");
    j ← parse_json b;
    json_meta j.

  (** base/serialize.go:119-173 [ReadSerializedClassifierStub]. *)
  Definition read_stub (ar : archive) : res meta :=
    b ← get_named_file ar "CLS_MANIFEST";
    if negb (bool_decide (b = format_version)) then Err else
    m ← read_metadata ar "";
    if md_format m =? 1 then Ok m else Err.

  (** base/serialize.go:291-315 [WriteBytesForKey], 318-321 [WriteU64ForKey], 324-333
      [WriteJSONForKey], 336-342 [WriteAttributeForKey], 345-360
      [WriteAttributesForKey], 363-366 [WriteInstancesForKey]. *)
  Definition put_bytes (key : string) (b : list N) : ser → res ser :=
    ser_do (λ w, write_bytes w key b).
  Definition put_u64 (key : string) (v : N) : ser → res ser := ser_do (λ w, write_u64 w key v).
  Definition put_json (key : string) (j : json) : ser → res ser := put_bytes key (marshal j).
  Definition put_attr (key : string) (a : attr) : ser → res ser :=
    ser_do (λ w, write_attribute marshal w key (a, is_nil a)).
  Definition put_attrs (key : string) (l : list attr) : ser → res ser :=
    ser_do (λ w, write_attributes marshal w key (map (λ a, (a, is_nil a)) l)).
  Definition put_instances (key : string) (g : grid) (data : bool) : ser → res ser :=
    ser_do (λ w, serialize_to_tar marshal is_nil attr_order g w key data).

  (** base/serialize.go:189-195 [GetJSONForKey], 198-200 [GetInstancesForKey]. *)
  Definition get_json (ar : archive) (key : string) : res json :=
    b ← get_named_file ar key; parse_json b.
  Definition get_instances (ar : archive) (key : string) : res dense :=
    deserialize_from_tar unmarshal got pg ar key.

  (** base/serialize_attributes.go:115-122
      [ReplaceDeserializedAttributeWithVersionFromInstances]. *)
  Definition replace_attr (a : attr) (with_ : list attr) : res attr :=
    match list_find (λ b, attr_equals b a = true) with_ with
    | Some (_, b) => Ok b
    | None => Err
    end.

  (** A float64 in JSON: NaN and the infinities are refused. *)
  Definition float_json (f : binary64) : res json :=
    if is_finite 53 1024 f then Ok (json_lit (fmt f)) else Err.
  (** [v.(float64)] of a parsed value; a literal out of range is refused earlier. *)
  Definition json_float (j : json) : res binary64 :=
    match lit_text j with
    | Some s => match fparse s with Some f => Ok f | None => Err end
    | None => Panic
    end.

  (** ** Trees *)

  (** trees/id3.go:35-54 [DecisionTreeRule.MarshalJSON]. *)
  Definition rule_json (r : rule) : res json :=
    match ru_attr r with
    | None => Ok (JObj [("split_attribute", JStr "unknown"); ("split_val", JNum 0)])
    | Some a =>
        v ← float_json (ru_val r);
        Ok (JObj [("split_attribute", attr_json (a, is_nil a)); ("split_val", v)])
    end.

  (** trees/id3.go:56-84 [unmarshalJSON] on a new rule. *)
  Definition json_rule (j : json) : res rule :=
    l ← match j with JObj l => Ok l | JNull => Ok [] | _ => Err end;
    v ← match member l "split_val" with
        | Some v => json_float v
        | None => Ok Id3Model.float_zero
        end;
    match default JNull (member l "split_attribute") with
    | JStr s => if bool_decide (s = "unknown") then Ok (Rule None v) else Err
    | split => h ← json_attr split; Ok (Rule (Some h.1) v)
    end.

  (** trees/id3.go:105-112: [DecisionTreeNode] as JSON; ClassAttr is left out.
      Simplification: encoding/json sorts the members of a map, here they come in the
      order of the list. *)
  Fixpoint tree_json (t : tree) : res json :=
    match t with
    | Node leaf cs dist class _ r =>
        c ← match cs with
            | None => Ok JNull
            | Some l =>
                l ← (fix go (l : list (string * tree)) : res (list (string * json)) :=
                       match l with
                       | [] => Ok []
                       | (k, t) :: l => j ← tree_json t; l ← go l; Ok ((k, j) :: l)
                       end) l;
                Ok (JObj l)
            end;
        r ← match r with None => Ok JNull | Some r => rule_json r end;
        Ok (JObj [("node_type", JNum (if leaf then 1 else 2)); ("children", c);
                  ("class_dist", JObj (map (λ kv, (kv.1, JNum kv.2)) (map_to_list dist)));
                  ("class_string", JStr class); ("decision_tree_rule", r)])
    end.

  (** Decoding into a [map\[string\]int]. *)
  Definition json_counts (v : option json) : res (gmap string nat) :=
    match v with
    | None | Some JNull => Ok ∅
    | Some (JObj l) =>
        l ← res_mapM (λ kv, n ← json_int (Some kv.2); Ok (kv.1, n)) l;
        Ok (list_to_map l)
    | _ => Err
    end.

  (** The value of ClassAttr in a loaded node other than the root, which is nil; no
      code looks at it. *)
  Definition nil_attr : attr := BinA "".

  (** Decoding a [DecisionTreeNode].  Simplification: a child that is [null], which
      would become a nil pointer, is refused. *)
  Fixpoint json_node (j : json) : res tree :=
    match j with
    | JObj l =>
        n ← json_int (member l "node_type");
        cs ← (fix find (l : list (string * json)) : res (option (list (string * tree))) :=
                match l with
                | [] => Ok None
                | (k, v) :: l =>
                    if bool_decide (k = "children") then
                      match v with
                      | JNull => Ok None
                      | JObj cl =>
                          cs ← (fix go (cl : list (string * json)) : res (list (string * tree)) :=
                                  match cl with
                                  | [] => Ok []
                                  | (k, c) :: cl =>
                                      t ← json_node c; cs ← go cl; Ok ((k, t) :: cs)
                                  end) cl;
                          Ok (Some cs)
                      | _ => Err
                      end
                    else find l
                end) l;
        dist ← json_counts (member l "class_dist");
        class ← json_string (member l "class_string");
        r ← match member l "decision_tree_rule" with
            | None | Some JNull => Ok None
            | Some v => r ← json_rule v; Ok (Some r)
            end;
        Ok (Node (n =? 1) cs dist class nil_attr r)
    | _ => Err
    end.

  Definition t_class_attr (t : tree) : attr := match t with Node _ _ _ _ a _ => a end.
  Definition set_class_attr (t : tree) (a : attr) : tree :=
    match t with Node l cs d c _ r => Node l cs d c a r end.

  (** trees/id3.go:137-153 [DecisionTreeNode.SaveWithPrefix], 577-579 and
      trees/random.go:105-107 [SaveWithPrefix]; [None] is a tree that was not fitted. *)
  Definition tree_save (t : option tree) (s : ser) (prefix : string) : res ser :=
    match t with
    | None => Panic
    | Some t =>
        j ← tree_json t;
        s ← put_json (tar_prefix prefix "tree") j s;
        put_attr (tar_prefix prefix "treeClassAttr") (t_class_attr t) s
    end.

  (** trees/id3.go:167-187 [DecisionTreeNode.LoadWithPrefix], 589-592 and
      trees/random.go:119-122 [LoadWithPrefix]. *)
  Definition tree_load (ar : archive) (prefix : string) : res (option tree) :=
    j ← get_json ar (tar_prefix prefix "tree");
    t ← json_node j;
    a ← get_attribute_for unmarshal ar (tar_prefix prefix "treeClassAttr");
    Ok (Some (set_class_attr t a.1)).

  (** trees/id3.go:559-575 [GetMetadata], [Save] (which does not close the file). *)
  Definition id3_save (t : option tree) : res archive :=
    s ← create_stub (Meta 1 "ID3" "1.0" None);
    s ← tree_save t s "";
    Ok (ser_file s).

  (** trees/random.go:93-102 [Save], 125-132 [GetMetadata]. *)
  Definition random_tree_save (t : option tree) : res archive :=
    s ← create_stub (Meta 1 "KNN" "1.0" None);
    s ← tree_save t s "";
    Ok (ser_file (ser_try_close s)).

  (** trees/id3.go:581-587, trees/random.go:110-116 [Load]. *)
  Definition tree_file_load (ar : archive) : res (option tree) :=
    _ ← read_stub ar; tree_load ar "".

  (** ** Naive Bayes *)

  (** A [\[\]float64] and a [map\[string\]\[\]float64] in JSON. *)
  Definition floats_json (l : list binary64) : res json :=
    l ← res_mapM float_json l; Ok (JArr l).
  Definition cond_json (m : gmap string (list binary64)) : res json :=
    l ← res_mapM (λ kv, j ← floats_json kv.2; Ok (kv.1, j)) (map_to_list m); Ok (JObj l).

  (** Decoding them: here a value that is not a number is an error. *)
  Definition json_floats (j : json) : res (list binary64) :=
    match j with
    | JArr l => res_mapM (λ v, match json_float v with Ok f => Ok f | _ => Err end) l
    | JNull => Ok []
    | _ => Err
    end.
  Definition json_cond (j : json) : res (gmap string (list binary64)) :=
    match j with
    | JNull => Ok ∅
    | JObj l =>
        l ← res_mapM (λ kv, v ← json_floats kv.2; Ok (kv.1, v)) l;
        Ok (list_to_map l)
    | _ => Err
    end.

  (** naive/bernoulli_nb.go:138-175 [SaveWithPrefix]; [on] is [fitOn]. *)
  Definition nb_save (n : nb) (on : grid) (s : ser) (prefix : string) : res ser :=
    s ← put_instances (tar_prefix prefix "INSTANCE_STRUCTURE") on false s;
    s ← put_attrs (tar_prefix prefix "TRAINING_ATTRIBUTES") (nb_attrs n) s;
    s ← put_u64 (tar_prefix prefix "NUM_FEATURES") (N.of_nat (nb_features n)) s;
    s ← put_u64 (tar_prefix prefix "NUM_TRAINING_INSTANCES") (N.of_nat (nb_training n)) s;
    s ← put_json (tar_prefix prefix "CLASS_INSTANCES")
          (JObj (map (λ kv, (kv.1, JNum kv.2)) (map_to_list (nb_class n)))) s;
    c ← cond_json (nb_cond n);
    put_json (tar_prefix prefix "COND_MAP") c s.

  (** naive/bernoulli_nb.go:91-136 [LoadWithPrefix]: the classifier and its [fitOn]. *)
  Definition nb_load (ar : archive) (prefix : string) : res (nb * dense) :=
    on ← get_instances ar (tar_prefix prefix "INSTANCE_STRUCTURE");
    raw ← get_attributes unmarshal ar (tar_prefix prefix "TRAINING_ATTRIBUTES");
    attrs ← res_mapM (λ h, replace_attr h.1 (dense_all_attrs on)) raw;
    features ← get_u64 ar (tar_prefix prefix "NUM_FEATURES");
    training ← get_u64 ar (tar_prefix prefix "NUM_TRAINING_INSTANCES");
    j ← get_json ar (tar_prefix prefix "CLASS_INSTANCES");
    classes ← json_counts (Some j);
    j ← get_json ar (tar_prefix prefix "COND_MAP");
    cond ← json_cond j;
    Ok (NB cond classes (N.to_nat training) (N.to_nat features) attrs, on).

  (** naive/bernoulli_nb.go:63-89 [GetMetadata], [Save], [Load]. *)
  Definition nb_file_save (n : nb) (on : grid) : res archive :=
    s ← create_stub (Meta 1 "KNN" "1.0" None);
    s ← nb_save n on s "";
    Ok (ser_file (ser_try_close s)).
  Definition nb_file_load (ar : archive) : res (nb * dense) :=
    _ ← read_stub ar; nb_load ar "".

  (** ** Nearest neighbours *)

  (** knn/knn.go:24-32 KNNClassifier without its training data.  Simplification: the
      number of neighbours is not negative. *)
  Record knn := Knn {
    kn_dist : string; kn_alg : string; kn_k : nat; kn_weighted : bool; kn_opt : bool }.

  (** knn/knn.go:329-344 [GetMetadata]. *)
  Definition knn_meta (k : knn) : meta :=
    Meta 1 "KNN" "1.0" (Some
      [("algorithm", JStr (kn_alg k)); ("allow_optimizations", JBool (kn_opt k));
       ("distance_func", JStr (kn_dist k)); ("neighbours", JNum (kn_k k));
       ("weighted", JBool (kn_weighted k))]).

  (** knn/knn.go:357-364 [SaveWithPrefix]. *)
  Definition knn_save (train : grid) (s : ser) (prefix : string) : res ser :=
    s ← put_instances (tar_prefix prefix "TrainingInstances") train true s;
    ser_close s.

  (** knn/knn.go:347-354 [Save]. *)
  Definition knn_file_save (k : knn) (train : grid) : res archive :=
    s ← create_stub (knn_meta k);
    s ← knn_save train s "";
    Ok (ser_file s).

  (** knn/knn.go:392-400: the type assertions. *)
  Definition param_string (l : list (string * json)) (key : string) : res string :=
    match member l key with Some (JStr s) => Ok s | _ => Panic end.
  Definition param_bool (l : list (string * json)) (key : string) : res bool :=
    match member l key with Some (JBool b) => Ok b | _ => Panic end.
  (** Simplification: only natural numbers up to 2^53. *)
  Definition param_nat (l : list (string * json)) (key : string) : res nat :=
    match member l key with Some (JNum n) => Ok n | _ => Panic end.

  (** knn/knn.go:377-405 [LoadWithPrefix]. *)
  Definition knn_load (ar : archive) (prefix : string) : res (knn * dense) :=
    m ← read_metadata ar prefix;
    if negb (bool_decide (md_name m = "KNN")) then Err else
    if negb (bool_decide (md_version m = "1.0")) then Err else
    let l := default [] (md_params m) in
    dist ← param_string l "distance_func";
    alg ← param_string l "algorithm";
    weighted ← param_bool l "weighted";
    opt ← param_bool l "allow_optimizations";
    k ← param_nat l "neighbours";
    train ← get_instances ar (tar_prefix prefix "TrainingInstances");
    Ok (Knn dist alg k weighted opt, train).

  (** knn/knn.go:367-374 [Load]. *)
  Definition knn_file_load (ar : archive) : res (knn * dense) :=
    _ ← read_stub ar; knn_load ar "".

  (** ** Bagging *)

  (** An [int] as a uint64 and back. *)
  Definition int_u64 (z : Z) : N := Z.to_N (z mod 2 ^ 64).
  Definition u64_int (v : N) : Z :=
    if (v <? 2 ^ 63)%N then Z.of_N v else (Z.of_N v - 2 ^ 64)%Z.

  Section ensemble.
    (** [SaveWithPrefix] and [LoadWithPrefix] of the members. *)
    Context {C : Type}.
    Variable save : C → ser → string → res ser.
    Variable load : archive → string → res C.

    (** meta/bagging.go:236-238, 256, 296-298 and 311. *)
    Definition member_key (prefix : string) (i : nat) : string :=
      tar_prefix prefix (tar_prefix "CLASSIFIERS" (pretty i)) +:+ "/".

    (** meta/bagging.go:254-261. *)
    Fixpoint members_save (prefix : string) (i : nat) (l : list C) (s : ser) : res ser :=
      match l with
      | [] => Ok s
      | c :: l =>
          s ← save c s (member_key prefix i);
          members_save prefix (S i) l s
      end.

    (** meta/bagging.go:269-281: a [map\[int\]\[\]\[\]byte]. *)
    Definition selected_json (sel : gmap nat (list attr)) : json :=
      JObj (map (λ kv, (pretty kv.1,
        JArr (map (λ a, JStr (b64 (serialize_attribute marshal (a, is_nil a)))) kv.2)))
        (map_to_list sel)).

    (** meta/bagging.go:232-289 [SaveWithPrefix]; [features] is RandomFeatures. *)
    Definition bag_save (b : bag C) (features : Z) (on : grid) (s : ser) (prefix : string)
        : res ser :=
      s ← put_u64 (tar_prefix prefix "NUM_RANDOM_FEATURES") (int_u64 features) s;
      s ← put_u64 (tar_prefix prefix "NUM_CLASSIFIERS") (N.of_nat (length (bg_models b))) s;
      s ← members_save prefix 0 (bg_models b) s;
      s ← put_instances (tar_prefix prefix "REFERENCE_INSTANCES") on false s;
      put_json (tar_prefix prefix "SELECTED_ATTRIBUTES") (selected_json (bg_selected b)) s.

    (** Decoding a [\[\]\[\]byte] and the attributes in it (meta/bagging.go:336-347). *)
    Definition json_selected1 (all : list attr) (j : json) : res (list attr) :=
      l ← match j with JArr l => Ok l | JNull => Ok [] | _ => Err end;
      res_mapM (λ v,
        s ← match v with JStr s => Ok s | _ => Err end;
        b ← match unb64 s with Some b => Ok b | None => Err end;
        h ← deserialize_attribute unmarshal b;
        replace_attr h.1 all) l.
    (** meta/bagging.go:325-348. *)
    Definition json_selected (all : list attr) (j : json) : res (gmap nat (list attr)) :=
      match j with
      | JNull => Ok ∅
      | JObj l =>
          l ← res_mapM (λ kv,
                i ← match read_nat kv.1 with Some i => Ok i | None => Err end;
                v ← json_selected1 all kv.2;
                Ok (i, v)) l;
          Ok (list_to_map l)
      | _ => Err
      end.

    (** meta/bagging.go:292-350 [LoadWithPrefix] on a model with [n] members: the
        models, RandomFeatures and [fitOn].  The number of classifiers in the file is
        not read. *)
    Definition bag_load (n : nat) (ar : archive) (prefix : string) : res (bag C * Z * dense) :=
      features ← get_u64 ar (tar_prefix prefix "NUM_RANDOM_FEATURES");
      models ← res_mapM (λ i, load ar (member_key prefix i)) (seq 0 n);
      on ← get_instances ar (tar_prefix prefix "REFERENCE_INSTANCES");
      j ← get_json ar (tar_prefix prefix "SELECTED_ATTRIBUTES");
      sel ← json_selected (dense_all_attrs on) j;
      Ok (Bag models sel, u64_int features, on).

    (** meta/bagging.go:193-223 [GetMetadata], [Save], [Load]. *)
    Definition bag_file_save (b : bag C) (features : Z) (on : grid) : res archive :=
      s ← create_stub (Meta 1 "BaggedModel" "1.0" None);
      s ← bag_save b features on s "";
      Ok (ser_file (ser_try_close s)).
    Definition bag_file_load (n : nat) (ar : archive) : res (bag C * Z * dense) :=
      _ ← read_stub ar; bag_load n ar "".

    (** ensemble/randomforest.go:65-87 [GetMetadata], [Save], [SaveWithPrefix]. *)
    Definition forest_save (b : bag C) (features : Z) (on : grid) : res archive :=
      s ← create_stub (Meta 1 "KNN" "1.0" None);
      s ← bag_save b features on s "model";
      Ok (ser_file (ser_try_close s)).

    (** ensemble/randomforest.go:89-105 [Load], [LoadWithPrefix]: [size] is the
        ForestSize of the forest that is loaded into. *)
    Definition forest_load (size : Z) (ar : archive) : res (bag C * Z * dense) :=
      _ ← read_stub ar; bag_load (Z.to_nat size) ar "model".
  End ensemble.
End save.
