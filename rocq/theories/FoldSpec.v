(** Vocabulary for cross-fold validation. *)
From Verif Require Import Prelude AttrModel StoreModel DenseModel GridModel GridSpec ConfModel.
Local Open Scope nat_scope.

(** [v] shows the rows [rows] of [data], with all its attributes. *)
Definition whole_view (v : view) (data : grid) (rows : list nat) : Prop :=
  shows_rows v data rows ∧
  Forall2 (λ a b, ∃ s, gr_get_attribute data a = Ok s ∧ sp_attr s = b)
    (gr_all_attrs data) (view_all_attrs v).

(** [validated data s parts ms s']: starting from classifier state [s], for each
    pair (test rows, training rows) of [parts] in turn, the classifier was fitted to
    the training rows of [data], asked to predict the test rows, and the prediction
    compared with the test rows, giving the matrices [ms] and final state [s']. *)
Inductive validated {S} (cls : classifier S) (show : nat → N → string)
    (co : list attr → list attr) (ro : list nat → list nat) (data : grid) :
    S → list (list nat * list nat) → list (gmap string (gmap string nat)) → S → Prop :=
| validated_nil s : validated cls show co ro data s [] [] s
| validated_cons s s1 s2 s' test train vtest vtrain pred m parts ms :
    whole_view vtest data test →
    whole_view vtrain data train →
    cl_fit cls s (view_grid co ro vtrain) = Ok s1 →
    cl_predict cls s1 (view_grid co ro vtest) = Ok (s2, pred) →
    confusion_matrix show (view_grid co ro vtest) pred = Ok m →
    validated cls show co ro data s2 parts ms s' →
    validated cls show co ro data s ((test, train) :: parts) (m :: ms) s'.
