(** Vocabulary for the properties of neural networks. *)
From Coq Require Import Reals.
From Verif Require Import Prelude MetricModel MetricSpec NeuralModel.
Local Open Scope nat_scope.

(** A network as its constructor makes them: one weight for every pair of nodes, a bias and a
    function for every node, and no more input nodes than nodes. *)
Definition sound_net {A} (n : network A) : Prop :=
  shaped (n_size n) (n_size n) (n_weights n) ∧ length (n_biases n) = n_size n ∧ length (n_funcs n) = n_size n ∧
  n_input n <= n_size n ∧ ∀ w, n_orig n = Some w → shaped (n_size n) (n_size n) w.

(** The first [I] of [N] nodes are inputs, which only repeat themselves, and every other node
    [j] has a rank from 1 to [L] above the ranks of the nodes it listens to.  Here [W t s] is
    the weight from node [s] to node [t], counted from zero. *)
Definition feeds_forward {A} (o : arith A) (N I L : nat) (rank : nat → nat) (W : nat → nat → A) (b : nat → A) (f : nat → nfun A) : Prop :=
  (∀ i, i < I → rank i = 0 ∧ f i = linear o ∧ b i = a_zero o ∧ W i i = a_one o ∧
     ∀ s, s < N → s ≠ i → a_eqb o (W i s) (a_zero o) = true) ∧
  (∀ j, I <= j → j < N → 1 <= rank j ∧ rank j <= L ∧
     ∀ s, s < N → a_eqb o (W j s) (a_zero o) = false → rank s < rank j).

(** Everything a network holds: [W t s] is the weight from node [s] to node [t], counted from zero. *)
Definition holds_net {A} (n : network A) (N I : nat) (W : nat → nat → A) (b : nat → A) (f : nat → nfun A) : Prop :=
  n_weights n = tab N N W ∧ n_biases n = map b (seq 0 N) ∧ n_funcs n = map f (seq 0 N) ∧ n_size n = N ∧ n_input n = I.

(** The weighted sum of [x], from the first to the last; a weight of zero contributes nothing. *)
Definition wsum {A} (o : arith A) (w x : nat → A) (n : nat) : A :=
  foldl (λ acc k, if a_eqb o (w k) (a_zero o) then acc else a_add o acc (a_mul o (w k) (x k))) (a_zero o) (seq 0 n).

(** Half the sum of the squared differences between what the watched nodes say and what they
    should say. *)
Definition half_squares (N : nat) (watched : nat → bool) (goal : nat → R) (y : mx R) : R :=
  total N (λ j, if watched j then (goal j - el y j) ^ 2 / 2 else 0)%R.
(** That of a network after [k] rounds on [x]. *)
Definition loss (n : network R) (x : mx R) (k N : nat) (watched : nat → bool) (goal : nat → R) : R :=
  match activate reals n x k with Ok y => half_squares N watched goal y | _ => 0%R end.
