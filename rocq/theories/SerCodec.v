(** A concrete codec satisfying the assumption made about encoding/json, so that the
    hypotheses of the theorems about serialisation are met by something. *)
From Verif Require Import Prelude SerModel SerSpec.
From stdpp Require Import countable.
Local Open Scope nat_scope.

Fixpoint json_gen (j : json) : gen_tree (string + nat) :=
  match j with
  | JNull => GenNode 0 []
  | JNum n => GenNode 1 [GenLeaf (inr n)]
  | JLit s => GenNode 6 [GenLeaf (inl s)]
  | JBool b => GenNode (if b then 7 else 8) []
  | JStr s => GenNode 2 [GenLeaf (inl s)]
  | JArr l => GenNode 3 (map json_gen l)
  | JObj l => GenNode 4 (map (λ m, match m with (k, v) => GenNode 5 [GenLeaf (inl k); json_gen v] end) l)
  end.

Fixpoint gen_json (t : gen_tree (string + nat)) : json :=
  match t with
  | GenNode 1 [GenLeaf (inr n)] => JNum n
  | GenNode 6 [GenLeaf (inl s)] => JLit s
  | GenNode 7 [] => JBool true
  | GenNode 8 [] => JBool false
  | GenNode 2 [GenLeaf (inl s)] => JStr s
  | GenNode 3 l => JArr (map gen_json l)
  | GenNode 4 l =>
      JObj (map (λ t, match t with
                      | GenNode 5 [GenLeaf (inl k); v] => (k, gen_json v)
                      | _ => ("", JNull)
                      end) l)
  | _ => JNull
  end.

Fixpoint gen_json_gen (j : json) : gen_json (json_gen j) = j.
Proof.
  destruct j as [|n|s|[]|s|l|l]; cbn [json_gen gen_json]; [done..| |].
  - f_equal. induction l as [|j l IH]; cbn [map]; [done|]. f_equal; [apply gen_json_gen|apply IH].
  - f_equal. induction l as [|[k v] l IH]; cbn [map]; [done|].
    f_equal; [f_equal; apply gen_json_gen|apply IH].
Qed.

(** The bits of a number, and the number. *)
Fixpoint pos_bits (p : positive) : list N :=
  match p with xH => [] | xO p => 0%N :: pos_bits p | xI p => 1%N :: pos_bits p end.
Fixpoint bits_pos (l : list N) : positive :=
  match l with [] => xH | 0%N :: l => xO (bits_pos l) | _ :: l => xI (bits_pos l) end.

Lemma bits_pos_bits p : bits_pos (pos_bits p) = p.
Proof. induction p as [p IH|p IH|]; cbn; congruence. Qed.

Definition toy_marshal (j : json) : list N := pos_bits (encode (json_gen j)).
Definition toy_unmarshal (b : list N) : option json :=
  match decode (bits_pos b) with Some t => Some (gen_json t) | None => None end.

Lemma toy_faithful : json_faithful toy_marshal toy_unmarshal.
Proof.
  intros j _. unfold toy_unmarshal, toy_marshal.
  by rewrite bits_pos_bits, decode_encode, gen_json_gen.
Qed.

Lemma toy_bytes j : Forall (λ b, (b < 256)%N) (toy_marshal j).
Proof.
  unfold toy_marshal. induction (encode (json_gen j)) as [p IH|p IH|]; cbn [pos_bits]; [| |constructor];
    (constructor; [reflexivity|exact IH]).
Qed.
