(** Vocabulary for the properties of layered networks. *)
From Verif Require Import Prelude NeuralModel.
Local Open Scope nat_scope.

(** The layer of node [j], counted from zero, when the layers have the given sizes. *)
Fixpoint layer_of (sizes : list nat) (j : nat) : nat :=
  match sizes with
  | [] => 0
  | s :: rest => if j <? s then 0 else S (layer_of rest (j - s))
  end.

(** Node [t] is in the layer after that of [s]. *)
Definition next_layer (sizes : list nat) (s t : nat) : Prop :=
  s < sum_list sizes ∧ t < sum_list sizes ∧ layer_of sizes t = S (layer_of sizes s).

(** The two networks have the same first [k] nodes: the same weights into them, the same
    biases and functions.  What they have in their other nodes does not matter. *)
Definition agree_below {A} (k : nat) (n1 n2 : network A) : Prop :=
  n_size n2 = n_size n1 ∧ n_input n2 = n_input n1 ∧
  ∀ t, t < k → (∀ s, s < n_size n1 → get_weight n2 (S s) (S t) = get_weight n1 (S s) (S t)) ∧
    get_bias n2 (S t) = get_bias n1 (S t) ∧ n_funcs n2 !! t = n_funcs n1 !! t.
