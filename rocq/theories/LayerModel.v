(** Model of neural/layered.go.  Layer sizes are natural numbers. *)
From Verif Require Import Prelude BytesModel FloatModel AttrModel StoreModel DenseModel GridModel FilterModel PredModel BagModel
  CartModel MetricModel NeuralModel PercModel.
From Flocq Require Import IEEE754.BinarySingleNaN IEEE754.Bits IEEE754.Binary.
Local Open Scope nat_scope.

(** neural/layered.go:21-30 [MultiLayerNet].  [attrs] is keyed by pointer: [ml_attrs] has the
    attributes that conversion passes on as they are; those it makes are new objects in each
    call, so their entries are never found again and are left out.  The first entry of an
    attribute counts. *)
Record mlnet := ML {
  ml_network : option (network binary64);
  ml_attrs : list (attr * nat);
  ml_layers : list nat;
  ml_offset : nat;
  ml_count : nat;
  ml_convergence : binary64;
  ml_iterations : nat;
  ml_rate : binary64
}.

Definition with_network (m : mlnet) (n : network binary64) : mlnet :=
  ML (Some n) (ml_attrs m) (ml_layers m) (ml_offset m) (ml_count m) (ml_convergence m) (ml_iterations m) (ml_rate m).

(** neural/layered.go:37-48 [NewMultiLayerNet]; the literals 0.001 and 0.90. *)
Definition ml_new (layers : list nat) : mlnet :=
  ML None [] layers 0 0 (b64_of_bits 0x3F50624DD2F1A9FC) 500 (b64_of_bits 0x3FECCCCCCCCCCCCD).

(** Looking an attribute up in a map. *)
Definition index_of (l : list (attr * nat)) (a : attr) : option nat := snd <$> List.find (λ p, bool_decide (p.1 = a)) l.

(** neural/layered.go:55-65 [convertToFloatInsts]; [co] is the order in which a
    LazilyFilteredInstances lists its class attributes. *)
Definition to_floats (co : list attr → list attr) (x : grid) : grid :=
  lf_grid co (new_lfiltered x (float_filter (float_train convert_new (gr_all_attrs x)))).

(** neural/layered.go:220-228 (and 253-259, 265-277): every node of the [l] that follow node [base],
    with every node of the next [l']. *)
Definition fully (base l base' l' : nat) : list (nat * nat) :=
  concat (map (λ j, map (λ k, (base + j, base' + k)) (seq 1 l')) (seq 1 l)).
(** neural/layered.go:212-231: between the hidden layers. *)
Fixpoint hidden_pairs (base : nat) (layers : list nat) : list (nat * nat) :=
  match layers with
  | l :: ((l' :: _) as rest) => fully base l (base + l) l' ++ hidden_pairs (base + l) rest
  | _ => []
  end.
(** neural/layered.go:234-241. *)
Fixpoint hidden_nodes (base : nat) (layers : list nat) : list nat :=
  match layers with
  | [] => []
  | l :: rest => map (λ j, base + j) (seq 1 l) ++ hidden_nodes (base + l) rest
  end.
(** neural/layered.go:250-262: from the last hidden layer to the outputs. *)
Fixpoint last_pairs (base : nat) (layers : list nat) (outputs : nat) : list (nat * nat) :=
  match layers with
  | [] => []
  | [l] => fully base l (base + l) outputs
  | l :: rest => last_pairs (base + l) rest outputs
  end.

Section layered.
  (** [math.Exp]; the [k]-th result of [rand.NormFloat64]; the orders in which
      LazilyFilteredInstances lists its class attributes, NonClassAttributes its result, and
      DenseInstances its class attributes. *)
  Variable exp : binary64 → binary64.
  Variable draw : nat → binary64.
  Variable co : list attr → list attr.
  Variable ao : list attr → list attr.
  Variable order : list ((nat * nat) * bool) → list ((nat * nat) * bool).

  (** A small random number. *)
  Definition small (k : nat) : binary64 := a_mul float64 (draw k) tenth.

  (** Runs of SetWeight and SetBias; the numbers drawn start with [k]. *)
  Definition set_weights (n : network binary64) (k : nat) (pairs : list (nat * nat)) : res (network binary64) :=
    res_foldl (λ n '(i, (s, t)), set_weight n s t (small (k + i))) n (imap pair pairs).
  Definition set_biases (n : network binary64) (k : nat) (nodes : list nat) : res (network binary64) :=
    res_foldl (λ n '(i, x), set_bias n x (small (k + i))) n (imap pair nodes).

  (** neural/layered.go:208-277: the network before training.  With no inputs or no outputs loops
      run over nothing. *)
  Definition ml_init (layers : list nat) (inputs outputs : nat) : res (network binary64) :=
    let hidden := sum_list layers in
    n ← net_new float64 (inputs + outputs + hidden) inputs (sigmoid float64 exp);
    let p1 := hidden_pairs inputs layers in
    let b1 := hidden_nodes inputs layers in
    let b2 := map (λ i, inputs + hidden + i) (seq 0 outputs) in
    let p2 := last_pairs inputs layers outputs in
    let p3 := fully 0 inputs inputs (match layers with l :: _ => l | [] => outputs end) in
    n ← set_weights n 0 p1;
    n ← set_biases n (length p1) b1;
    n ← set_biases n (length p1 + length b1) b2;
    n ← set_weights n (length p1 + length b1 + length b2) p2;
    set_weights n (length p1 + length b1 + length b2 + length p2) p3.

  (** neural/layered.go:194-199, 201-206: which node stands for which attribute.  [attrCounter] stays
      0 without inputs. *)
  Definition input_index (inputs : list attr) : list (attr * nat) := reverse (imap (λ i a, (a, i)) inputs).
  Definition class_index (inputs hidden : nat) (classes : list attr) : list (attr * nat) :=
    reverse (imap (λ i a, (a, (inputs - 1) + 1 + i + hidden)) classes).

  (** neural/layered.go:296-313: the inputs of a row and what the outputs should be. *)
  Definition blank (size : nat) : mx binary64 := tab size 1 (λ _ _, float_zero).
  Definition row_vectors (size : nat) (tr cl : list (attr * nat)) (specs : list spec) (row : list (list N))
      : res (mx binary64 * mx binary64) :=
    res_foldl (λ '(x, e) '(i, vb),
      v ← unpack_float vb;
      s ← idx specs i;
      match index_of tr (sp_attr s) with
      | Some j => x ← mx_set x j 0 v; Ok (x, e)
      | None =>
          match index_of cl (sp_attr s) with
          | Some j => e ← mx_set e j 0 v; Ok (x, e)
          | None => Panic
          end
      end) (blank size, blank size) (imap pair row).

  (** neural/layered.go:315-334: one training step; also the total error so far.  The loop of 319-322
      runs over a map with distinct nodes, so its order does not matter. *)
  Definition train_row (layers size : nat) (tr cl : list (attr * nat)) (specs : list spec) (rate : binary64)
      (n : network binary64) (total : binary64) (row : list (list N)) : res (network binary64 * binary64) :=
    v ← row_vectors size tr cl specs row;
    x ← activate float64 n v.1 (layers - 1);
    e ← res_foldl (λ e '(_, j), want ← mx_at e j 0; is ← mx_at x j 0; mx_set e j 0 (a_sub float64 want is)) v.2 cl;
    b ← net_error float64 n x e layers;
    n ← update_weights float64 gt64 faint64 n x b rate;
    n ← update_bias float64 n b rate;
    Ok (n, a_add float64 total (a_abs float64 (mx_sum float64 e))).

  (** neural/layered.go:290-339: one pass over the rows. *)
  Definition train_pass (layers size : nat) (tr cl : list (attr * nat)) (insts : grid) (specs : list spec) (rate : binary64)
      (n : network binary64) : res (network binary64 * binary64) :=
    r ← map_over_rows insts specs (λ '(n, total, _) row i,
          s ← train_row layers size tr cl specs rate n total row;
          Ok ((s, i), Cont)) (n, float_zero, 0);
    let '(n, total, last) := r.1 in
    Ok (n, a_div float64 total (float_of_nat last)).

  (** neural/layered.go:289-344. *)
  Fixpoint train_passes (iterations : nat) (pass : network binary64 → res (network binary64 * binary64)) (convergence : binary64)
      (n : network binary64) : res (network binary64) :=
    match iterations with
    | 0 => Ok n
    | S iterations =>
        r ← pass n;
        if gt64 convergence r.2 then Ok r.1 else train_passes iterations pass convergence r.1
    end.

  (** neural/layered.go:164-345 [Fit]. *)
  Definition ml_fit (m : mlnet) (x : grid) : res mlnet :=
    let insts := to_floats co x in
    let inputs := non_class_attrs ao insts in
    let classes := gr_class_attrs insts in
    let layers := 2 + length (ml_layers m) in
    let hidden := sum_list (ml_layers m) in
    let size := length inputs + length classes + hidden in
    let tr := input_index inputs in
    let cl := class_index (length inputs) hidden classes in
    let own := λ l : list (attr * nat), List.filter (λ p, bool_decide (p.1 ∈ gr_all_attrs x)) l in
    n ← ml_init (ml_layers m) (length inputs) (length classes);
    specs ← resolve_all insts;
    n ← train_passes (ml_iterations m) (train_pass layers size tr cl insts specs (ml_rate m)) (ml_convergence m) n;
    Ok (ML (Some n) (own cl ++ own tr ++ ml_attrs m) (ml_layers m) (length inputs - 1 + 1)
          (ml_count m + length classes) (ml_convergence m) (ml_iterations m) (ml_rate m)).

  (** neural/layered.go:89-105: the kinds of output, (float, categorical). *)
  Definition count_modes (outputs : list attr) : res (nat * nat) :=
    res_foldl (λ '(f, c) a,
      match a with CatA _ _ => Ok (f, S c) | FloatA _ _ => Ok (S f, c) | BinA _ => Panic end) (0, 0) outputs.

  (** neural/layered.go:140-150: the answer; the difference of two ints becomes a uint64. *)
  Definition strongest (offset count : nat) (a : mx binary64) : res N :=
    r ← res_foldl (λ '(mi, mv) i, v ← mx_at a i 0; if gt64 v mv then Ok (i, v) else Ok (mi, mv)) (0, float_zero) (seq offset count);
    Ok (Z.to_N ((Z.of_nat r.1 - Z.of_nat offset) mod 2 ^ 64)).

  (** neural/layered.go:118-129: the inputs of a row.  [same a]: the grid has the very attribute
      object [a] that Fit saw. *)
  Definition input_vector (same : attr → bool) (m : mlnet) (what : grid) (size : nat) (specs : list spec) (row : list (list N))
      : res (mx binary64) :=
    res_foldl (λ x '(i, vb),
      s ← idx specs i;
      match (if bool_decide (sp_attr s ∈ gr_all_attrs what) && same (sp_attr s) then index_of (ml_attrs m) (sp_attr s) else None) with
      | None => Panic
      | Some j => v ← unpack_float vb; mx_set x j 0 v
      end) (blank size) (imap pair row).

  (** neural/layered.go:73-157 [Predict]; [pg] is the page size. *)
  Definition ml_predict (pg : nat) (same : attr → bool) (m : mlnet) (what : grid) : res dense :=
    ret ← prediction_vector pg what;
    let insts := to_floats co what in
    let inputs := non_class_attrs ao insts in
    let outputs := class_attrs_in_order ret (order (map_to_list (d_class ret))) in
    modes ← count_modes outputs;
    if (0 <? modes.1) && (0 <? modes.2) then Panic
    else if 1 <? modes.2 then Panic
    else
      match ml_network m with
      | None => Panic
      | Some n =>
          ispecs ← resolve insts inputs;
          ospecs ← res_mapM (λ a, match dense_get_attribute ret a with Ok s => Ok s | _ => Panic end) outputs;
          r ← map_over_rows insts ispecs (λ ret row rc,
                x ← input_vector same m what (n_size n) ispecs row;
                a ← activate float64 n x (2 + length (ml_layers m));
                ret ← (if 0 <? modes.1 then
                         res_foldl (λ ret s,
                           let j := default 0 (if same (sp_attr s) then index_of (ml_attrs m) (sp_attr s) else None) in
                           v ← mx_at a j 0;
                           dense_set ret s rc (pack_float v)) ret ospecs
                       else
                         code ← strongest (ml_offset m) (ml_count m) a;
                         s ← idx ospecs 0;
                         dense_set ret s rc (pack_u64 code));
                Ok (ret, Cont)) ret;
          Ok r.1
      end.
End layered.
