(** Vocabulary used to state the properties of DenseInstances. *)
From Verif Require Import Prelude AttrModel StoreModel DenseModel.

(** The specification [s] denotes column [sp_pos s] of group number
    [sp_pond s], a group [g] of [d]. *)
Definition column_of (d : dense) (s : spec) (g : group) : Prop :=
  d_ags d !! sp_pond s = Some g ∧ sp_pos s < length (g_attrs g).

(** The last value written to a cell in a history of calls, if any. *)
Definition last_write (h : list dop) (pond pos row : nat) : option (list N) :=
  foldl (λ acc o,
    match o with
    | DSet s r v => if bool_decide (sp_pond s = pond ∧ sp_pos s = pos ∧ r = row)
                    then Some v else acc
    | _ => acc
    end) None h.

(** What a cell reads as: the last value written (a bit cell keeps only
    whether the byte was > 0), zero bytes if nothing was written. *)
Definition cell_value (k : gkind) (w : option (list N)) : list N :=
  match k, w with
  | GFixed n, None => replicate n 0%N
  | GFixed _, Some v => v
  | GBits, Some (b :: _) => if (0 <? b)%N then [1%N] else [0%N]
  | GBits, _ => [0%N]
  end.

(** Total number of rows asked for by the [Extend] calls of a history. *)
Definition rows_extended (h : list dop) : nat :=
  foldr (λ o n, match o with DExtend k => k + n | _ => n end) 0 h.

(** Every [Set] used a specification of the instances it was called on. *)
Definition sets_use_valid_specs (pg : nat) (h : list dop) : Prop :=
  ∀ h1 s r v h2, h = h1 ++ DSet s r v :: h2 →
  ∀ d1, dense_run pg dense_new h1 = Ok d1 → ∃ g, column_of d1 s g.

(** No attribute is added to a named group after an [Extend]. *)
Definition no_late_addto (h : list dop) : Prop :=
  ∀ h1 a ag h2, h = h1 ++ DAddTo a ag :: h2 → ∀ n, DExtend n ∉ h1.

(** The instances [d] are reachable by a well-behaved history [h]. *)
Definition reachable (pg : nat) (h : list dop) (d : dense) : Prop :=
  dense_run pg dense_new h = Ok d ∧ sets_use_valid_specs pg h ∧ no_late_addto h.

(** A value of the right size for a cell of a group of kind [k]. *)
Definition right_size (k : gkind) (val : list N) : Prop :=
  match k with GFixed size => length val = size | GBits => val ≠ [] end.

(** The attributes passed to [AddAttribute] in a history. *)
Fixpoint added_attrs (h : list dop) : list attr :=
  match h with
  | [] => []
  | DAdd a :: h => a :: added_attrs h
  | _ :: h => added_attrs h
  end.

(** The storage of an attribute added with [AddAttribute]. *)
Definition default_kind (a : attr) : gkind :=
  match a with BinA _ => GBits | _ => GFixed 8 end.

(** ** Iteration: what it means for a loop to visit rows [i], [i+1], ...,
    [n-1], presenting [row i], until the callback stops it. *)
Inductive visits {S : Type} (row : nat → list (list N)) (n : nat)
    (f : S → list (list N) → nat → res (S * cb)) : nat → S → S → bool → Prop :=
| visits_done s : visits row n f n s s false
| visits_next i s s1 s' e :
    i < n → f s (row i) i = Ok (s1, Cont) → visits row n f (i + 1) s1 s' e →
    visits row n f i s s' e
| visits_stop i s s' :
    i < n → f s (row i) i = Ok (s', Stop) → visits row n f i s s' false
| visits_fail i s s' :
    i < n → f s (row i) i = Ok (s', Fail) → visits row n f i s s' true.

(** ** Rearranging rows *)

(** [p] is a bijection of the row numbers [0..n-1]. *)
Definition row_bijection (n : nat) (p : nat → nat) : Prop :=
  (∀ i, i < n → p i < n) ∧
  (∀ i j, i < n → j < n → p i = p j → i = j) ∧
  (∀ j, j < n → ∃ i, i < n ∧ p i = j).

(** [d'] has the columns and row count of [d], and its row [i] is row [p i]
    of [d], in every column. *)
Definition rows_rearranged (p : nat → nat) (d d' : dense) : Prop :=
  d_maxrow d' = d_maxrow d ∧
  map g_attrs (d_ags d') = map g_attrs (d_ags d) ∧
  map g_kind (d_ags d') = map g_kind (d_ags d) ∧
  d_class d' = d_class d ∧
  ∀ s g i, column_of d s g → i < d_maxrow d →
    dense_get d' s i = dense_get d s (p i).
