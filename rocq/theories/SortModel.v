(** Model of base/sort.go. *)
From Verif Require Import Prelude BytesModel AttrModel StoreModel DenseModel GridModel.
Local Open Scope nat_scope.

(** base/sort.go:8-13 [sortXorOp]: flips the top bit of the first byte; panics
    on an empty slice. *)
Definition sort_xor (b : list N) : res (list N) :=
  match b with [] => Panic | x :: b => Ok (N.lxor x 0x80 :: b) end.

(** base/sort.go:49-55: the bytes written to the buffer for one row. *)
Definition sort_row_bytes (row : list (list N)) : res (list N) :=
  match row with
  | [] => Ok []
  | r :: rest => x ← sort_xor r; Ok (x ++ concat rest)
  end.

(** The variables captured by the callback of base/sort.go:39-61. *)
Record sort_state := SortState {
  ss_rowsize : nat;
  ss_buf : list N;
  ss_ds : list (list N);
  ss_rs : list nat
}.

(** base/sort.go:39-61: the callback.  [buf.Read] takes up to [rowSize] bytes,
    the rest of [byteBuf] stays zero. *)
Definition sort_cb (s : sort_state) (row : list (list N)) (rowno : nat)
    : res (sort_state * cb) :=
  let rowsize := if ss_rowsize s =? 0 then sum_list (map length row) else ss_rowsize s in
  w ← sort_row_bytes row;
  let buf := ss_buf s ++ w in
  let bytebuf := take rowsize buf ++ replicate (rowsize - length buf) 0%N in
  if rowno <? length (ss_ds s)
  then Ok (SortState rowsize (drop rowsize buf) (<[rowno := bytebuf]> (ss_ds s))
             (<[rowno := rowno]> (ss_rs s)), Cont)
  else Panic.

(** base/sort.go:67-72: distribute the rows over 256 bins by their [i]-th byte.
    Simplification: [valueBins] and [rowBins] are one list of bins of
    (key, row) pairs, since both are always updated together; a byte beyond
    255, impossible in Go, panics. *)
Definition bin_row (i : nat) (bins : list (list (list N * nat))) (p : list N * nat)
    : res (list (list (list N * nat))) :=
  b ← idx p.1 i;
  old ← idx bins (N.to_nat b);
  Ok (<[N.to_nat b := old ++ [p]]> bins).

(** base/sort.go:66-83: one pass; lines 73-82 copy the bins back in order. *)
Definition radix_pass (l : list (list N * nat)) (i : nat) : res (list (list N * nat)) :=
  bins ← res_foldl (bin_row i) (replicate 256 []) l;
  Ok (concat bins).

(** base/sort.go:91-99: follow one cycle from [index].  [fuel] bounds the loop;
    running out (shown impossible) is [Err]. *)
Fixpoint follow_cycle (fuel : nat) (rs : list nat) (index j : nat)
    (done : list bool) (acc : list (nat * nat)) : res (list bool * list (nat * nat)) :=
  match fuel with
  | 0 => Err
  | S fuel =>
      _ ← idx done j;
      let done := <[j := true]> done in
      r ← idx rs j;
      if negb (r =? index)
      then follow_cycle fuel rs index r done (acc ++ [(j, r)])
      else Ok (done, acc)
  end.

(** base/sort.go:86-89: one iteration of the outer loop. *)
Definition cycle_step (rs : list nat) (st : list bool * list (nat * nat)) (index : nat)
    : res (list bool * list (nat * nat)) :=
  let '(done, acc) := st in
  b ← idx done index;
  if (b : bool) then Ok (done, acc)
  else follow_cycle (S (length rs)) rs index index done acc.

(** base/sort.go:85-101. *)
Definition cycle_swaps (rs : list nat) : res (list (nat * nat)) :=
  st ← res_foldl (cycle_step rs) (replicate (length rs) false, [])
         (seq 0 (length rs));
  Ok st.2.

(** base/sort.go:23-83: the order of the rows after the radix sort.  The error
    result of MapOverRows is ignored by the code. *)
Definition sort_order (g : grid) (attrs : list spec) : res (list nat) :=
  let rows := (gr_size g).2 in
  r ← map_over_rows g (rev attrs) sort_cb
        (SortState 0 [] (replicate rows []) (replicate rows 0));
  l ← res_foldl radix_pass (zip (ss_ds r.1) (ss_rs r.1)) (seq 0 (ss_rowsize r.1));
  Ok (map snd l).

(** base/sort.go:21-102 [createSortSpec]. *)
Definition create_sort_spec (g : grid) (attrs : list spec) : res (list (nat * nat)) :=
  rs ← sort_order g attrs; cycle_swaps rs.

(** base/sort.go:120-122, 151-155: the exchanges that reverse [rows] rows. *)
Definition reverse_swaps (rows : nat) : list (nat * nat) :=
  map (λ i, (i, rows - 1 - i)) (seq 0 (rows / 2)).

Inductive direction := Ascending | Descending.

(** base/sort.go:110-128 [Sort] on DenseInstances (any other grid panics, line
    125). *)
Definition dense_sort (order : list ((nat * nat) * bool)) (dir : direction)
    (attrs : list spec) (d : dense) : res dense :=
  instr ← create_sort_spec (dense_grid order d) attrs;
  d1 ← res_foldl (λ d p, dense_swap_rows d p.1 p.2) d instr;
  match dir with
  | Descending => res_foldl (λ d p, dense_swap_rows d p.1 p.2) d1 (reverse_swaps (d_maxrow d1))
  | Ascending => Ok d1
  end.

(** base/sort.go:144-148: exchange two entries of [rowArr]. *)
Definition swap_entries (arr : list nat) (p : nat * nat) : res (list nat) :=
  r1 ← idx arr p.1;
  r2 ← idx arr p.2;
  Ok (<[p.2 := r1]> (<[p.1 := r2]> arr)).

(** base/sort.go:158-164: the row map, without the fixed points. *)
Definition sort_row_map (arr : list nat) : gmap nat nat :=
  foldl (λ m p, if p.1 =? p.2 then m else <[p.1 := p.2]> m) ∅ (imap pair arr).

(** base/sort.go:133-168 [LazySort]. *)
Definition lazy_sort (dir : direction) (attrs : list spec) (g : grid) : res view :=
  instr ← create_sort_spec g attrs;
  let rows := (gr_size g).2 in
  arr ← res_foldl swap_entries (seq 0 rows) instr;
  arr ← match dir with
        | Descending => res_foldl swap_entries arr (reverse_swaps rows)
        | Ascending => Ok arr
        end;
  Ok (view_from_rows g (sort_row_map arr)).
