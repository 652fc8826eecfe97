(** Model of package kdtree.  Coordinates and distances are rationals: every
    finite float64 is one, and the code only compares them; NaN and infinities are
    not modelled.  The distance function is an argument of the model. *)
From Coq Require Import QArith.
From Verif Require Import Prelude.
Local Open Scope nat_scope.

Definition qlt (a b : Q) : bool := negb (Qle_bool b a).
Definition qle (a b : Q) : bool := Qle_bool a b.

(** ** kdtree/heap.go *)

(** kdtree/heap.go:3-7 [heapNode]: length and source row.  The copy of the row's
    values is never read and left out. *)
Notation hnode := (Q * nat)%type.
Notation heap := (list (Q * nat)).

(** kdtree/heap.go:21-27 [maximum]; the zero node when empty. *)
Definition heap_max (h : heap) : hnode :=
  match h with [] => (0%Q, 0) | x :: _ => x end.

(** [h.tree[i], h.tree[j] = h.tree[j], h.tree[i]]. *)
Definition heap_swap (h : heap) (i j : nat) : res heap :=
  x ← idx h i; y ← idx h j; Ok (<[j := x]> (<[i := y]> h)).

(** kdtree/heap.go:72-78: the loop of [insert], [target] counted from 1.  The
    target halves each turn, so [fuel] = the first target suffices. *)
Fixpoint sift_up (fuel : nat) (h : heap) (target : nat) : res heap :=
  match fuel with
  | 0 => Panic
  | S fuel =>
      if target =? 1 then Ok h
      else
        p ← idx h (target / 2 - 1);
        c ← idx h (target - 1);
        if qle c.1 p.1 then Ok h
        else h ← heap_swap h (target - 1) (target / 2 - 1); sift_up fuel h (target / 2)
  end.

(** kdtree/heap.go:63-79 [insert]. *)
Definition heap_insert (h : heap) (length_ : Q) (row : nat) : res heap :=
  let h := h ++ [(length_, row)] in sift_up (length h) h (length h).

(** kdtree/heap.go:39-59: the loop of [extractMax].  The target at least doubles
    each turn. *)
Fixpoint sift_down (fuel : nat) (h : heap) (target : nat) : res heap :=
  match fuel with
  | 0 => Panic
  | S fuel =>
      if length h <=? target * 2 - 1 then Ok h
      else
        l ← idx h (target * 2 - 1);
        t ← idx h (target - 1);
        let largest := if qlt t.1 l.1 then target * 2 else target in
        largest ← (if target * 2 <? length h then
                     r ← idx h (target * 2);
                     m ← idx h (largest - 1);
                     Ok (if qlt m.1 r.1 then target * 2 + 1 else largest)
                   else Ok largest);
        if largest =? target then Ok h
        else h ← heap_swap h (largest - 1) (target - 1); sift_down fuel h largest
  end.

(** kdtree/heap.go:30-60 [extractMax]. *)
Definition heap_extract (h : heap) : res heap :=
  match h with
  | [] => Ok []
  | _ =>
      l ← idx h (length h - 1);
      let h := take (length h - 1) (<[0 := l]> h) in
      sift_down (S (length h)) h 1
  end.

(** ** kdtree/kdtree.go *)

(** kdtree/kdtree.go:10-16 [node]: leaf (feature -1), nil (feature -2, no value and
    source row 0), or inner node. *)
Inductive kd : Type :=
| KLeaf (value : list Q) (row : nat)
| KNil
| KNode (feature : nat) (value : list Q) (row : nat) (left right : kd).

(** kdtree/kdtree.go:79-86: advance over rows equal to the middle one. *)
Fixpoint advance (key : nat → res Q) (mid : Q) (i div : nat) (rest : list nat) : res nat :=
  match rest with
  | [] => Ok div
  | r :: rest =>
      v ← key r;
      if Qeq_bool v mid then advance key mid (S i) i rest else Ok div
  end.

Section build.
  (** [sort.Sort]: the rows rearranged so that their keys ascend. *)
  Variable sorter : (nat → Q) → list nat → list nat.
  Variable data : list (list Q).

  (** [t.data[r][f]]. *)
  Definition coord (f r : nat) : res Q := v ← idx data r; idx v f.
  Definition coord0 (f r : nat) : Q :=
    match coord f r with Ok q => q | _ => 0%Q end.

  (** kdtree/kdtree.go:72-112 [buildHandle].  Every call is on a shorter slice, so
      [fuel] = the length suffices.  Sorting looks at the coordinate of every row, so
      it panics when there is none. *)
  Fixpoint build (fuel : nat) (rows : list nat) (feature : nat) : res kd :=
    match fuel with
    | 0 => Panic
    | S fuel =>
        _ ← res_mapM (coord feature) rows;
        let rows := sorter (coord0 feature) rows in
        let middle := length rows / 2 in
        m ← idx rows middle;
        mid ← coord feature m;
        div ← advance (coord feature) mid (middle + 1) middle (drop (middle + 1) rows);
        row ← idx rows div;
        value ← idx data row;
        r0 ← idx rows 0;
        v0 ← idx data r0;
        left ← (if div =? 1 then Ok (KLeaf v0 r0)
                else build fuel (take div rows) ((feature + 1) mod length v0));
        right ← (if div =? length rows - 2 then
                   r ← idx rows (div + 1); v ← idx data r; Ok (KLeaf v r)
                 else if negb (div =? length rows - 1) then
                   build fuel (drop (div + 1) rows) ((feature + 1) mod length v0)
                 else Ok KNil);
        Ok (KNode feature value row left right)
    end.

  (** kdtree/kdtree.go:42-69 [Build]. *)
  Definition kd_build : res kd :=
    match data with
    | [] => Err
    | d0 :: _ =>
        if forallb (λ v, length v =? length d0) data then
          if length data =? 1 then Ok (KLeaf d0 0)
          else build (length data) (seq 0 (length data)) 0
        else Err
    end.
End build.

Section search.
  (** The distance of two vectors ([disType.Distance]). *)
  Variable dist : list Q → list Q → Q.
  Variable k : nat.
  Variable target : list Q.

  (** kdtree/kdtree.go:199-204: keep a candidate if it is among the best. *)
  Definition offer (h : heap) (len : Q) (row : nat) : res heap :=
    if length h <? k then heap_insert h len row
    else if qlt len (heap_max h).1 then h ← heap_extract h; heap_insert h len row
    else Ok h.

  (** kdtree/kdtree.go:194-212 [searchAllNodes].  [mat.NewDense] of a nil slice is the
      zero vector, so a nil node counts as row 0 placed at the origin. *)
  Fixpoint search_all (h : heap) (n : kd) : res heap :=
    match n with
    | KLeaf v row => offer h (dist target v) row
    | KNil => offer h (dist target (repeat 0%Q (length target))) 0
    | KNode _ v row l r =>
        h ← offer h (dist target v) row;
        h ← search_all h l;
        search_all h r
    end.

  (** kdtree/kdtree.go:141-192 [searchHandle]. *)
  Fixpoint search (h : heap) (n : kd) : res heap :=
    match n with
    | KLeaf v row => heap_insert h (dist target v) row
    | KNil => Ok h
    | KNode f v row l r =>
        tf ← idx target f;
        vf ← idx v f;
        let dir := qle tf vf in
        h ← (if dir then search h l else search h r);
        let other := if dir then r else l in
        let len := dist target v in
        if length h <? k then
          h ← heap_insert h len row; search_all h other
        else if qlt len (heap_max h).1 then
          h ← heap_extract h; h ← heap_insert h len row; search_all h other
        else if qlt (dist [tf] [vf]) (heap_max h).1 then search_all h other
        else Ok h
    end.
End search.

(** kdtree/kdtree.go:128-136: empty the heap into the results, last to first;
    [out] holds the entries written so far, [room] the number of places left. *)
Fixpoint drain (room : nat) (h : heap) (out : list (Q * nat)) : res (list (Q * nat)) :=
  match h with
  | [] => Ok (repeat (0%Q, 0) room ++ out)
  | _ =>
      match room with
      | 0 => Panic
      | S room => h' ← heap_extract h; drain room h' (heap_max h :: out)
      end
  end.

(** kdtree/kdtree.go:116-139 [Search] of a built tree: the rows with their
    distances.  A negative [k] is not modelled. *)
Definition kd_search (dist : list Q → list Q → Q) (data : list (list Q)) (t : kd)
    (k : nat) (target : list Q) : res (list (Q * nat)) :=
  if length data <? k then Err
  else
    d0 ← idx data 0;
    if negb (length target =? length d0) then Err
    else
      h ← search dist k target [] t;
      drain k h [].
