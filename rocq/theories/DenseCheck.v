(** A computable check that a concrete history is well behaved, used to build
    the examples. *)
From Verif Require Import Prelude AttrModel StoreModel DenseModel DenseSpec DenseProofs.

Definition valid_specb (d : dense) (s : spec) : bool :=
  match d_ags d !! sp_pond s with
  | Some g => sp_pos s <? length (g_attrs g)
  | None => false
  end.

Fixpoint check_from (pg : nat) (ext : bool) (d : dense) (h : list dop) : option dense :=
  match h with
  | [] => Some d
  | o :: h =>
    if match o with
       | DSet s _ _ => valid_specb d s
       | DAddTo _ _ => negb ext
       | _ => true
       end
    then match dense_step pg d o with
         | Ok d' => check_from pg (match o with DExtend _ => true | _ => ext end) d' h
         | _ => None
         end
    else None
  end.

Lemma check_from_run pg ext d h d' :
  check_from pg ext d h = Some d' → dense_run pg d h = Ok d'.
Proof.
  revert ext d. induction h as [|o h IH]; intros ext d; simpl.
  - intros [= ->]. done.
  - destruct (match o with DSet s _ _ => _ | _ => _ end); [|done].
    unfold dense_run. simpl. destruct (dense_step pg d o); [|done..].
    simpl. intros H. by apply IH in H.
Qed.

Lemma check_from_sets pg ext d h d' :
  check_from pg ext d h = Some d' →
  ∀ h1 s r v h2, h = h1 ++ DSet s r v :: h2 →
  ∀ d1, dense_run pg d h1 = Ok d1 → ∃ g, column_of d1 s g.
Proof.
  intros H h1. revert ext d h H. induction h1 as [|o h1 IH]; intros ext d h H s r v h2 Heq d1 Hd1.
  - injection Hd1 as <-. subst h. simpl in H. unfold valid_specb in H.
    destruct (d_ags d !! sp_pond s) as [g|] eqn:E; [|done].
    destruct (sp_pos s <? length (g_attrs g)) eqn:E2; [|done].
    exists g. split; [done|]. by apply Nat.ltb_lt.
  - subst h. simpl in H.
    destruct (match o with DSet s _ _ => _ | _ => _ end); [|done].
    unfold dense_run in Hd1. simpl in Hd1.
    destruct (dense_step pg d o); [|done..]. simpl in Hd1.
    by eapply IH.
Qed.

Lemma check_from_addto pg ext d h d' :
  check_from pg ext d h = Some d' →
  ∀ h1 a ag h2, h = h1 ++ DAddTo a ag :: h2 →
  ext = false ∧ ∀ n, DExtend n ∉ h1.
Proof.
  intros H h1. revert ext d h H. induction h1 as [|o h1 IH]; intros ext d h H a ag h2 Heq.
  - subst h. simpl in H. destruct ext; [done|]. split; [done|].
    intros n Hin. by apply not_elem_of_nil in Hin.
  - subst h. simpl in H.
    destruct (match o with DSet s _ _ => _ | _ => _ end); [|done].
    destruct (dense_step pg d o) as [d1| |]; [|done..].
    destruct (IH _ _ _ H a ag h2 eq_refl) as [He Hno].
    destruct o; try done;
      (split; [done|]; intros n' Hin; apply elem_of_cons in Hin as [Hin|Hin];
       [done|by apply (Hno n')]).
Qed.

Lemma check_reachable pg h d :
  check_from pg false dense_new h = Some d → reachable pg h d.
Proof.
  intros H. split; [by eapply check_from_run|]. split.
  - intros h1 s r v h2 Heq d1 Hd1. by eapply check_from_sets.
  - intros h1 a ag h2 Heq. by eapply check_from_addto.
Qed.

(** A computable check of [distinct_attrs]. *)
Fixpoint distinctb (l : list attr) : bool :=
  match l with
  | [] => true
  | a :: l => forallb (λ b, negb (attr_equals a b) && negb (attr_equals b a)) l && distinctb l
  end.

Lemma distinctb_ok l : distinctb l = true → AttrSpec.distinct_attrs l.
Proof.
  induction l as [|a l IH]; simpl; intros H i j x y Hi Hj He; [done|].
  apply andb_prop in H as [H1 H2]. rewrite forallb_forall in H1.
  destruct i as [|i], j as [|j]; simpl in Hi, Hj.
  - done.
  - injection Hi as ->. exfalso.
    assert (In y l) as Hin by (eapply elem_of_list_In, elem_of_list_lookup_2; done).
    specialize (H1 y Hin). rewrite He in H1. done.
  - injection Hj as ->. exfalso.
    assert (In x l) as Hin by (eapply elem_of_list_In, elem_of_list_lookup_2; done).
    specialize (H1 x Hin). rewrite He in H1. by destruct (attr_equals y x).
  - f_equal. by eapply IH.
Qed.
