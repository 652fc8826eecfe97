(** Proofs about linear regression. *)
From Coq Require Import Reals Lra.
From Verif Require Import Prelude FloatModel FloatProofs AttrModel AttrProofs StoreModel DenseModel DenseSpec DenseProofs PredModel PredProofs GridModel GridSpec
  GridProofs KnnModel CartGrow CartFit MetricModel MetricSpec MetricReal LinModel LinSpec LinReal.
From Flocq Require Import IEEE754.BinarySingleNaN IEEE754.Bits IEEE754.Binary.
Local Open Scope nat_scope.

Lemma idx_nth {A} (l : list A) i d : i < length l → idx l i = Ok (nth i l d).
Proof. intros H. unfold idx. destruct (nth_lookup_or_length l i d) as [-> |]; [done|lia]. Qed.

Lemma at_entry m n x i j : shaped m n x → i < m → j < n → mx_at x i j = Ok (entry x i j).
Proof.
  intros (Hr & Hc & Hw) Hi Hj. unfold mx_at, entry, el. rewrite Hr, Hc.
  destruct (Nat.ltb_spec i m); [|lia]. destruct (Nat.ltb_spec j n); [|lia]. cbn [andb].
  apply idx_nth. unfold well_formed in Hw. rewrite Hw, Hr, Hc. nia.
Qed.

(** ** Back substitution *)

Section back.
  Context (m n : nat) (r : mx R) (qty : list R).
  Context (Hr : shaped m n r) (Hnm : n <= m) (Hq : n <= length qty).

  Lemma inner_loop c i : i < n → length c = n → ∀ l s v, S i <= s → s + l <= n →
    res_foldl (λ v j, cj ← idx c j; rij ← mx_at r i j; Ok (a_sub reals v (a_mul reals cj rij))) v (seq s l) =
    Ok (v - total l (λ k, entry r i (s + k) * nth (s + k) c 0))%R.
  Proof using Hr Hnm.
    clear Hq. intros Hi Hc. induction l as [|l IH]; intros s v Hs Hl; cbn [seq res_foldl total]; [f_equal; lra|].
    rewrite (idx_nth c s 0%R) by lia. cbn [mbind res_bind]. rewrite (at_entry m n r i s Hr) by lia. cbn [mbind res_bind].
    rewrite IH by lia. f_equal. cbn [reals a_sub a_mul].
    pose proof (total_first l (λ k, entry r i (s + k)%nat * nth (s + k)%nat c 0)%R) as E. cbn [total] in E. rewrite E.
    rewrite Nat.add_0_r. rewrite (total_ext l (λ k, entry r i (S s + k)%nat * nth (S s + k)%nat c 0)%R
      (λ k, entry r i (s + S k)%nat * nth (s + S k)%nat c 0)%R); [ring|].
    intros k _. by replace (S s + k)%nat with (s + S k)%nat by lia.
  Qed.

  Definition row_solved (c : list R) (i : nat) : Prop :=
    (entry r i i * nth i c 0 + total (n - S i) (λ k, entry r i (S i + k)%nat * nth (S i + k)%nat c 0) = nth i qty 0)%R.

  Lemma back_rows c0 : length c0 = n → ∀ k, k <= n →
    ∃ c, res_foldl (back_step reals qty r n) c0 (rev (seq (n - k) k)) = Ok c ∧ length c = n ∧
      ∀ i, n - k <= i → i < n → entry r i i ≠ 0%R → row_solved c i.
  Proof using Hr Hnm Hq.
    intros H0 k. induction k as [|k IH]; intros Hk.
    - exists c0. split; [done|]. split; [done|]. intros; lia.
    - destruct IH as (c & Hrun & Hl & Hs); [lia|].
      replace (seq (n - S k) (S k)) with ((n - S k) :: seq (n - k) k).
      2:{ cbn [seq]. by replace (S (n - S k)) with (n - k) by lia. }
      cbn [rev]. rewrite res_foldl_app, Hrun. cbn [mbind res_bind res_foldl].
      set (i := n - S k). assert (i < n) as Hi by (unfold i; lia). unfold back_step at 1.
      rewrite (idx_nth qty i 0%R) by lia. cbn [mbind res_bind].
      rewrite (inner_loop c i Hi Hl (n - S i) (S i)) by lia. cbn [mbind res_bind].
      rewrite (at_entry m n r i i Hr) by lia. cbn [mbind res_bind].
      eexists. split; [reflexivity|]. split; [by rewrite insert_length|].
      intros j Hj Hjn Hd. cbn [reals a_div].
      assert (∀ k' x, k' ≠ i → nth k' (<[i:=x]> c) 0%R = nth k' c 0%R) as Hne.
      { intros k' x Hk'. destruct (decide (k' < n)).
        - pose proof (idx_nth (<[i:=x]> c) k' 0%R) as E. rewrite insert_length in E. specialize (E ltac:(lia)).
          pose proof (idx_nth c k' 0%R ltac:(lia)) as E'. unfold idx in E, E'. rewrite list_lookup_insert_ne in E by done.
          destruct (c !! k'); congruence.
        - rewrite !nth_overflow; [done|lia|rewrite insert_length; lia]. }
      unfold row_solved. rewrite (total_ext (n - S j) _ (λ k, entry r j (S j + k)%nat * nth (S j + k)%nat c 0)%R).
      2:{ intros k' Hk'. rewrite Hne by (unfold i in *; lia). done. }
      destruct (decide (j = i)) as [->|Hji].
      + assert (∀ x, nth i (<[i:=x]> c) 0%R = x) as ->.
        { intros x. pose proof (idx_nth (<[i:=x]> c) i 0%R) as E. rewrite insert_length in E. specialize (E ltac:(lia)).
          unfold idx in E. rewrite list_lookup_insert in E by lia. congruence. }
        field. done.
      + rewrite Hne by done. apply Hs; [unfold i in *; lia|done|done].
  Qed.

  Lemma back_solves : ∃ c, back_substitution reals qty r n = Ok c ∧ length c = n ∧
    ((∀ i j, i < m → j < i → j < n → entry r i j = 0%R) → (∀ i, i < n → entry r i i ≠ 0%R) →
     ∀ i, i < n → total n (λ j, entry r i j * nth j c 0)%R = nth i qty 0%R).
  Proof using Hr Hnm Hq.
    destruct (back_rows (replicate n 0%R) (replicate_length _ _) n ltac:(lia)) as (c & Hc & Hl & Hs).
    rewrite Nat.sub_diag in Hc. exists c. split; [exact Hc|]. split; [done|]. intros Ht Hd i Hi.
    rewrite (total_split n i) by lia. rewrite (total_ext i _ (λ _, 0%R)), total_const0.
    2:{ intros j Hj. rewrite Ht by lia. ring. }
    replace (n - i) with (S (n - S i)) by lia. rewrite total_first. rewrite Nat.add_0_r.
    specialize (Hs i ltac:(lia) Hi (Hd i Hi)). unfold row_solved in Hs. rewrite <- Hs, Rplus_0_l. f_equal. apply total_ext.
    intros k _. by replace (S i + k)%nat with (i + S k)%nat by lia.
  Qed.
End back.

(** ** The product with the transpose *)

Lemma q_times_real m q y : shaped m m q → length y = m →
  q_times reals q y = Ok (map (λ i, total m (λ k, entry q k i * nth k y 0)%R) (seq 0 m)).
Proof.
  intros Hq Hy. unfold q_times. pose proof Hq as (Hr & Hc & _). rewrite Hr, Hc, Hy, Nat.eqb_refl.
  apply res_mapM_some. intros i Hi. apply elem_of_seq in Hi. cbn in Hi.
  assert (∀ l k acc, k + length l <= m → res_foldl (λ acc kv, qki ← mx_at q kv.1 i; Ok (a_add reals acc (a_mul reals qki kv.2))) acc
      (imap (λ j, pair (k + j)) l) = Ok (acc + total (length l) (λ j, entry q (k + j) i * nth j l 0))%R) as H.
  { induction l as [|x l IH]; intros k acc Hk; cbn [imap res_foldl length total]; [f_equal; lra|].
    cbn [length] in Hk. cbn [fst snd]. rewrite Nat.add_0_r. rewrite (at_entry m m q k i Hq) by lia. cbn [mbind res_bind].
    rewrite (imap_ext _ (λ j, pair (S k + j))).
    2:{ intros j z _. cbn. by replace (k + S j) with (S k + j) by lia. }
    rewrite IH by lia. f_equal. cbn [reals a_add a_mul].
    pose proof (total_first (length l) (λ j, entry q (k + j)%nat i * nth j (x :: l) 0)%R) as E. cbn [total] in E. rewrite E.
    rewrite Nat.add_0_r. cbn [nth].
    rewrite (total_ext (length l) (λ j, entry q (S k + j)%nat i * nth j l 0)%R (λ j, entry q (k + S j)%nat i * nth j l 0)%R); [ring|].
    intros j _. by replace (S k + j) with (k + S j) by lia. }
  specialize (H y 0 0%R ltac:(lia)). cbn [Nat.add] in H. change (a_zero reals) with 0%R. change (imap pair y) with (imap (λ j, pair j) y). rewrite H. f_equal. rewrite Hy. lra.
Qed.

(** ** Reading the rows *)

Lemma read_rows_into {A} g specs (f : list (list N) → res A) (h : nat → A) (a0 : A) :
  iter_agrees g →
  (∀ r, r < (gr_size g).2 → ∃ row, res_mapM (λ s, gr_get g s r) specs = Ok row ∧ f row = Ok (h r)) →
  map_over_rows g specs (λ v row r, x ← f row; _ ← idx v r; Ok (<[r := x]> v, Cont)) (replicate (gr_size g).2 a0) =
  Ok (map h (seq 0 (gr_size g).2), false).
Proof.
  intros Hit H. rewrite <- (read_rows g specs f h a0 Hit H). unfold map_over_rows.
  destruct (Hit specs) as (rows & -> & Hperm & Hfetch).
  assert (∀ i fetch, (i, fetch) ∈ rows → i < (gr_size g).2) as Hin.
  { intros i fetch Hin. apply (elem_of_list_fmap_1 fst) in Hin. change (fst <$> rows) with (map fst rows) in Hin.
    rewrite Hperm in Hin. apply elem_of_seq in Hin. cbn in Hin. lia. }
  assert (length (replicate (gr_size g).2 a0) = (gr_size g).2) as Hl by apply replicate_length.
  revert Hl. generalize (replicate (gr_size g).2 a0). clear -Hin.
  induction rows as [|[i fetch] rows IH]; intros v Hl; [done|]. cbn [run_rows].
  destruct fetch as [row| |]; [|done|done]. cbn [mbind res_bind]. destruct (f row) as [x| |]; [|done|done]. cbn [mbind res_bind].
  rewrite (idx_nth v i x). 2:{ rewrite Hl. apply (Hin i (Ok row)). left. }
  cbn [mbind res_bind]. apply IH; [|by rewrite insert_length].
  intros j fetch Hj. apply (Hin j fetch). by right.
Qed.

Section reading.
  Context {A : Type} (o : arith A) (of_float : binary64 → A) (ao : list attr → list attr) (Hao : ∀ l, ao l ≡ₚ l).
  Context (g : grid) (cls : attr) (y : nat → binary64) (col : attr → nat → binary64).
  Context (Hobs : observations g cls y col).
  Notation n := (gr_size g).2.

  Lemma lin_attrs_elem a : a ∈ lin_attrs ao g ↔ explanatory g a.
  Proof using Hao.
    unfold lin_attrs, difference_refs, explanatory. rewrite !elem_of_list_filter, build_attr_set_elem, Hao, build_attr_set_elem.
    tauto.
  Qed.

  Lemma lin_attrs_nodup : NoDup (lin_attrs ao g).
  Proof using Hao. apply NoDup_filter, NoDup_filter. rewrite Hao. apply build_attr_set_nodup. Qed.

  Lemma resolve_class : ∃ s, resolve g [cls] = Ok [s] ∧
    ∀ r, r < n → ∃ raw, gr_get g s r = Ok raw ∧ unpack_float raw = Ok (y r).
  Proof using Hobs.
    destruct Hobs as (_ & _ & (s & Hs & Hr) & _). exists s. unfold resolve. cbn [res_mapM]. by rewrite Hs.
  Qed.

  Lemma observed_ok : ∀ s, resolve g [cls] = Ok [s] →
    lin_observed o of_float g [s] = Ok (map (λ r, of_float (y r)) (seq 0 n)).
  Proof using Hobs.
    intros s Hs. destruct resolve_class as (s' & Hs' & Hr). rewrite Hs in Hs'. injection Hs' as <-.
    pose proof Hobs as (Hit & _). unfold lin_observed.
    pose proof (read_rows_into g [s] (λ row, x ← (raw ← idx row 0; unpack_float raw); Ok (of_float x))
      (λ r, of_float (y r)) (a_zero o) Hit) as H.
    match type of H with ?P → _ => assert P as HP end.
    { intros r Hlt. destruct (Hr r Hlt) as (raw & Hg & Hu). exists [raw]. cbn [res_mapM]. rewrite Hg. cbn. by rewrite Hu. }
    specialize (H HP). clear HP.
    match goal with |- (r ← ?m; Ok r.1) = _ => assert (m = Ok (map (λ r, of_float (y r)) (seq 0 n), false)) as -> end; [|done].
    rewrite <- H. clear.
    unfold map_over_rows. destruct (gr_iter g [s]) as [rows| |]; [|done|done].
    generalize (replicate n (a_zero o)). induction rows as [|[i fetch] rows IH]; intros v; [done|].
    cbn [run_rows]. destruct fetch as [row| |]; [|done|done]. cbn [mbind res_bind].
    destruct (idx row 0) as [raw| |]; [|done|done]. cbn [mbind res_bind].
    destruct (unpack_float raw); [|done|done]. cbn [mbind res_bind]. destruct (idx v i); [|done|done]. cbn [mbind res_bind]. apply IH.
  Qed.

  Lemma resolve_columns attrs : (∀ a, a ∈ attrs → column_holds g a (col a)) →
    ∃ specs, resolve g attrs = Ok specs ∧ length specs = length attrs ∧
    ∀ r, r < n → ∃ raws, res_mapM (λ s, gr_get g s r) specs = Ok raws ∧
      res_mapM unpack_float raws = Ok (map (λ a, col a r) attrs).
  Proof using.
    clear Hobs Hao ao. induction attrs as [|a attrs IH]; intros H.
    - exists []. split; [done|]. split; [done|]. intros r _. exists []. done.
    - destruct IH as (specs & Hs & Hl & Hr). { intros b Hb. apply H. by right. }
      destruct (H a ltac:(left)) as (s & Ha & Hra). exists (s :: specs).
      unfold resolve in *. cbn [res_mapM]. rewrite Ha. cbn [mbind res_bind]. rewrite Hs. cbn [mbind res_bind].
      split; [done|]. split; [cbn; lia|]. intros r Hlt.
      destruct (Hr r Hlt) as (raws & H1 & H2). destruct (Hra r Hlt) as (raw & H3 & H4). exists (raw :: raws).
      rewrite H3. cbn [mbind res_bind]. rewrite H1. cbn [mbind res_bind res_mapM]. rewrite H4. cbn [mbind res_bind].
      rewrite H2. done.
  Qed.

  Lemma design_ok attrs specs cols : resolve g attrs = Ok specs →
    (∀ r, r < n → ∃ raws, res_mapM (λ s, gr_get g s r) specs = Ok raws ∧ res_mapM unpack_float raws = Ok (map (λ a, col a r) attrs)) →
    lin_design o of_float g specs cols = Ok (map (λ r, a_one o :: map (λ a, of_float (col a r)) attrs) (seq 0 n)).
  Proof using Hobs.
    intros Hs Hr. pose proof Hobs as (Hit & _). unfold lin_design.
    pose proof (read_rows_into g specs (λ row, x ← res_mapM unpack_float row; Ok (a_one o :: map of_float x))
      (λ r, a_one o :: map (λ a, of_float (col a r)) attrs) (replicate cols (a_zero o)) Hit) as H.
    match type of H with ?P → _ => assert P as HP end.
    { intros r Hlt. destruct (Hr r Hlt) as (raws & Hg & Hu). exists raws. rewrite Hg. split; [done|]. rewrite Hu. cbn [mbind res_bind].
      by rewrite map_map. }
    specialize (H HP). clear HP.
    match goal with |- (r ← ?m; Ok r.1) = _ => assert (m = Ok (map (λ r, a_one o :: map (λ a, of_float (col a r)) attrs) (seq 0 n), false)) as -> end; [|done].
    rewrite <- H. clear.
    unfold map_over_rows. destruct (gr_iter g specs) as [rows| |]; [|done|done].
    generalize (replicate n (replicate cols (a_zero o))). induction rows as [|[i fetch] rows IH]; intros v; [done|].
    cbn [run_rows]. destruct fetch as [row| |]; [|done|done]. cbn [mbind res_bind].
    destruct (res_mapM unpack_float row) as [raw| |]; [|done|done]. cbn [mbind res_bind].
    destruct (idx v i); [|done|done]. cbn [mbind res_bind]. apply IH.
  Qed.
End reading.

(** ** The whole fit *)

Lemma nth_map_seq {A} (f : nat → A) n k d : k < n → nth k (map f (seq 0 n)) d = f k.
Proof.
  intros H. rewrite (nth_indep _ d (f 0)) by (rewrite map_length, seq_length; lia).
  rewrite (map_nth f). by rewrite seq_nth.
Qed.

Lemma nth_concat {A} (rows : list (list A)) c i j d : Forall (λ r, length r = c) rows → i < length rows → j < c →
  nth (i * c + j) (concat rows) d = nth j (nth i rows []) d.
Proof.
  intros H. revert i. induction rows as [|r rows IH]; intros i Hi Hj; cbn [length] in Hi; [lia|].
  apply Forall_cons in H as [Hr H]. cbn [concat]. destruct i as [|i]; cbn [nth].
  - rewrite app_nth1 by lia. done.
  - rewrite app_nth2 by nia. rewrite Hr. replace (S i * c + j - c) with (i * c + j) by nia. apply IH; [done|lia|done].
Qed.

Lemma length_concat {A} (rows : list (list A)) c : Forall (λ r, length r = c) rows → length (concat rows) = length rows * c.
Proof. induction 1 as [|r rows Hr _ IH]; [done|]. cbn. rewrite app_length. lia. Qed.

Lemma weighted_total w x : length w = length x → weighted w x = total (length x) (λ j, nth j w 0 * nth j x 0)%R.
Proof.
  revert x. induction w as [|a w IH]; intros [|b x] H; try done. cbn [weighted length]. rewrite total_first. cbn [nth].
  rewrite IH by (injection H; done). done.
Qed.

Section fit.
  Context (qr : mx R → mx R * mx R) (ao : list attr → list attr) (Hao : ∀ l, ao l ≡ₚ l).
  Context (g : grid) (cls : attr) (y : nat → binary64) (col : attr → nat → binary64).
  Context (Hobs : observations g cls y col).
  Notation n := (gr_size g).2.
  Notation B2R64 := (B2R 53 1024).

  Definition xs (attrs : list attr) (i j : nat) : R := nth j (1%R :: map (λ a, B2R64 (col a i)) attrs) 0%R.
  Definition bs (d : R) (w : list R) (j : nat) : R := nth j (d :: w) 0%R.

  Lemma fits_total attrs d w r : length w = length attrs →
    fits col attrs d w r = total (length attrs + 1) (λ j, xs attrs r j * bs d w j)%R.
  Proof using.
    clear. intros H. unfold fits. rewrite Nat.add_1_r, total_first. unfold xs, bs. cbn [nth].
    rewrite weighted_total by (by rewrite map_length). rewrite map_length.
    rewrite (total_ext (length attrs) (λ j, nth j w 0 * nth j (map (λ a, B2R64 (col a r)) attrs) 0)%R
      (λ k, nth k (map (λ a, B2R64 (col a r)) attrs) 0 * nth k w 0)%R) by (intros; ring). ring.
  Qed.

  Lemma fit_ok : let attrs := lin_attrs ao g in length attrs < n →
    factors n (length attrs + 1) (design n col attrs) (qr (design n col attrs)).1 (qr (design n col attrs)).2 →
    ∃ d w, lin_fit reals B2R64 qr ao g = Ok (Lin true d w attrs (Some cls)) ∧ length w = length attrs ∧
      (independent n col attrs →
       ∀ j, j < length attrs + 1 → total n (λ i, xs attrs i j * (B2R64 (y i) - fits col attrs d w i))%R = 0%R).
  Proof using Hao Hobs.
    intros attrs Hlt Hqr. unfold lin_fit. pose proof Hobs as (Hit & Hc & _ & Hcols). rewrite Hc.
    destruct (resolve_class g cls y col Hobs) as (s & Hs & _). rewrite Hs. cbn [mbind res_bind]. fold attrs.
    destruct (Nat.ltb_spec n (length attrs + 1)); [lia|].
    destruct (resolve_columns g col attrs) as (specs & Hspecs & Hl & Hrows).
    { intros a Ha. apply Hcols. by apply (lin_attrs_elem ao Hao g). }
    rewrite Hspecs. cbn [mbind res_bind]. rewrite (observed_ok reals B2R64 g cls y col Hobs s Hs). cbn [mbind res_bind].
    rewrite (design_ok reals B2R64 g cls y col Hobs attrs specs _ Hspecs Hrows). cbn [mbind res_bind].
    set (rows := map _ (seq 0 n)).
    set (X := MX n (length attrs + 1) (concat rows)).
    assert (Forall (λ r, length r = length attrs + 1) rows) as Hlen.
    { apply Forall_forall. intros r Hr. unfold rows in Hr. apply elem_of_list_fmap in Hr as (i & -> & _).
      cbn [length]. rewrite map_length. lia. }
    assert (length rows = n) as Hn by (unfold rows; by rewrite map_length, seq_length).
    assert (shaped n (length attrs + 1) X) as HX.
    { split; [done|]. split; [done|]. unfold well_formed. cbn [X mx_data mx_rows mx_cols]. rewrite (length_concat rows _ Hlen). by rewrite Hn. }
    change (design n col attrs) with X in Hqr. destruct Hqr as (Hq & Hr & Horth & Hprod & Htri).
    destruct (qr X) as [q r] eqn:E. cbn [fst snd] in *.
    rewrite (q_times_real n q) by (done || by rewrite map_length, seq_length). cbn [mbind res_bind].
    set (qt := map _ (seq 0 n)).
    destruct (back_solves n (length attrs + 1) r qt Hr) as (c & Hback & Hcl & Hsolve); [lia|unfold qt; rewrite map_length, seq_length; lia|].
    rewrite Hback. cbn [mbind res_bind]. destruct c as [|d w]; [cbn in Hcl; lia|].
    exists d, w. split; [done|]. cbn [length] in Hcl. split; [lia|]. intros Hind j Hj.
    assert (∀ i j, i < n → j < length attrs + 1 → entry X i j = xs attrs i j) as HXe.
    { intros i k Hi Hk. unfold entry, el. cbn [X mx_data mx_cols]. rewrite (nth_concat rows) by (done || lia).
      unfold rows. rewrite nth_map_seq by done. done. }
    assert (∀ k, k < length attrs + 1 → entry r k k ≠ 0%R) as Hdiag.
    { apply (diagonal n (length attrs + 1) (entry X) (entry q) (entry r) (λ _, 0%R) (λ _, 0%R)); [lia|done|done|done|].
      intros c Hz k Hk. destruct (Hind (c 0) (map (λ k, c (S k)) (seq 0 (length attrs)))) as [H0 H1].
      - by rewrite map_length, seq_length.
      - intros i Hi. rewrite fits_total by (by rewrite map_length, seq_length). etransitivity; [|exact (Hz i Hi)]. apply total_ext.
        intros l Hll. rewrite HXe by done. f_equal. unfold bs. destruct l as [|l]; [done|]. cbn [nth]. rewrite (nth_map_seq (λ k, c (S k))); [done|lia].
      - destruct k as [|k]; [done|]. rewrite Forall_forall in H1. apply H1.
        apply (elem_of_list_fmap_1 (λ k, c (S k))). apply elem_of_seq. lia. }
    pose proof (normal n (length attrs + 1) (entry X) (entry q) (entry r) (λ i, nth i (map (λ r, B2R64 (y r)) (seq 0 n)) 0%R)
      (bs d w) ltac:(lia) Horth Hprod Htri) as Hnorm.
    etransitivity; [|apply (Hnorm) with (j := j); [|done]].
    2:{ intros k Hk. unfold bs. rewrite (Hsolve Htri Hdiag k Hk). unfold qt. rewrite nth_map_seq by lia. done. }
    apply total_ext. intros i Hi. rewrite HXe by done. f_equal. unfold resid. rewrite nth_map_seq by done. f_equal.
    rewrite fits_total by lia. apply total_ext. intros k Hk. by rewrite HXe.
  Qed.
End fit.

(** ** Consequences *)

Section optimal.
  Context (n : nat) (y : nat → binary64) (col : attr → nat → binary64) (attrs : list attr) (d : R) (w : list R).
  Context (Hw : length w = length attrs).
  Context (Hnorm : ∀ j, j < length attrs + 1 →
    total n (λ i, xs col attrs i j * (B2R 53 1024 (y i) - fits col attrs d w i))%R = 0%R).

  Lemma error_split d' w' : length w' = length attrs →
    squared_error n y col attrs d' w' =
    (squared_error n y col attrs d w + total n (λ i, (fits col attrs d' w' i - fits col attrs d w i) ^ 2))%R.
  Proof using Hw Hnorm.
    intros Hw'. unfold squared_error.
    pose proof (error_grows n (length attrs + 1) (xs col attrs) (λ i, B2R 53 1024 (y i)) (bs d w)) as H.
    assert (∀ d w i, length w = length attrs → resid (length attrs + 1) (xs col attrs) (λ i, B2R 53 1024 (y i)) (bs d w) i =
      (B2R 53 1024 (y i) - fits col attrs d w i)%R) as E.
    { clear. intros d w i Hw. unfold resid. by rewrite fits_total. }
    specialize (H ltac:(intros j Hj; rewrite <- (Hnorm j Hj); apply total_ext; intros i _; by rewrite E) (bs d' w')).
    rewrite (total_ext n (λ r, (B2R 53 1024 (y r) - fits col attrs d' w' r) ^ 2)%R
      (λ i, resid (length attrs + 1) (xs col attrs) (λ i, B2R 53 1024 (y i)) (bs d' w') i ^ 2)%R) by (intros i _; by rewrite E).
    rewrite H. f_equal; apply total_ext; intros i _.
    - by rewrite E.
    - rewrite !fits_total by done. rewrite <- total_minus. f_equal. apply total_ext. intros j _. ring.
  Qed.

  Lemma error_minimal d' w' : length w' = length attrs →
    (squared_error n y col attrs d w <= squared_error n y col attrs d' w')%R.
  Proof using Hw Hnorm.
    intros Hw'. rewrite (error_split d' w' Hw').
    assert (0 <= total n (λ i, (fits col attrs d' w' i - fits col attrs d w i) ^ 2))%R; [|lra].
    apply total_nonneg. intros k _. apply pow2_ge_0.
  Qed.

  Lemma error_unique d' w' : independent n col attrs → length w' = length attrs →
    squared_error n y col attrs d' w' = squared_error n y col attrs d w → d' = d ∧ w' = w.
  Proof using Hw Hnorm.
    intros Hind Hw' He. rewrite (error_split d' w' Hw') in He.
    assert (total n (λ i, (fits col attrs d' w' i - fits col attrs d w i) ^ 2)%R = 0%R) as H0 by lra.
    rewrite total_zero in H0 by (intros k _; apply pow2_ge_0).
    destruct (Hind (d' - d)%R (zip_with Rminus w' w)) as [H1 H2].
    { rewrite zip_with_length. lia. }
    { intros r Hr. specialize (H0 r Hr). cbv beta in H0.
      assert (fits col attrs d' w' r - fits col attrs d w r = 0)%R as E.
      { destruct (Req_EM_T (fits col attrs d' w' r - fits col attrs d w r) 0) as [|Hne]; [done|].
        by apply (pow_nonzero _ 2) in Hne. }
      rewrite <- E. unfold fits.
      assert (∀ l : list R, length l = length attrs → weighted (zip_with Rminus w' w) l = weighted w' l - weighted w l)%R as E'.
      { clear -Hw Hw'. revert w w' Hw Hw'. induction attrs as [|a l' IH]; intros [|u w] [|u' w'] H1 H2 [|z l] H3; cbn in *; try lra; try lia.
        rewrite IH by lia. ring. }
      rewrite E' by (by rewrite map_length). ring. }
    split; [lra|]. clear -H2 Hw Hw'. revert w w' Hw Hw' H2. induction attrs as [|a l IH]; intros [|u w] [|u' w'] H1 H2 H3; try done.
    cbn in *. apply Forall_cons in H3 as [H3 H4]. f_equal; [lra|]. apply IH; [lia|lia|done].
  Qed.
End optimal.

(** Coefficients for another order of the same variables. *)
Lemma reorder attrs attrs' : attrs ≡ₚ attrs' → ∀ w, length w = length attrs →
  ∃ w', length w' = length attrs' ∧ w' ≡ₚ w ∧ ∀ v : attr → R, weighted w' (map v attrs') = weighted w (map v attrs).
Proof.
  induction 1 as [|a l l' _ IH|a b l|l1 l2 l3 _ IH1 _ IH2]; intros w Hw.
  - exists w. done.
  - destruct w as [|u w]; [done|]. destruct (IH w) as (w' & H1 & Hp & H2); [by injection Hw|].
    exists (u :: w'). split; [cbn; by f_equal|]. split; [by rewrite Hp|]. intros v. cbn. by rewrite H2.
  - destruct w as [|u [|u' w]]; [done|done|]. exists (u' :: u :: w). split; [done|]. split; [apply Permutation_swap|]. intros v. cbn. ring.
  - destruct (IH1 w Hw) as (w2 & H1 & Hp & H2). destruct (IH2 w2 H1) as (w3 & H3 & Hp' & H4). exists w3. split; [done|].
    split; [by rewrite Hp'|]. intros v. by rewrite H4, H2.
Qed.

Lemma lin_attrs_perm ao ao' g : (∀ l, ao l ≡ₚ l) → (∀ l, ao' l ≡ₚ l) → lin_attrs ao g ≡ₚ lin_attrs ao' g.
Proof.
  intros H H'. apply NoDup_Permutation; [by apply lin_attrs_nodup|by apply lin_attrs_nodup|].
  intros a. by rewrite (lin_attrs_elem ao H), (lin_attrs_elem ao' H').
Qed.

Lemma independent_perm n col attrs attrs' : attrs ≡ₚ attrs' → independent n col attrs → independent n col attrs'.
Proof.
  intros Hp H d w Hw Hz. destruct (reorder attrs' attrs (symmetry Hp) w Hw) as (w' & Hw' & Hpw & E).
  destruct (H d w' Hw') as [H0 H1].
  { intros r Hr. rewrite <- (Hz r Hr). unfold fits. by rewrite (E (λ a, B2R 53 1024 (col a r))). }
  split; [done|]. by rewrite <- Hpw.
Qed.

(** ** Predictions *)

Lemma run_rows_stores pg c n (f : dense → list (list N) → nat → res (dense * cb)) (b : nat → list N) rows :
  (∀ i fetch d, (i, fetch) ∈ rows → i < n ∧
     ∃ buf, fetch = Ok buf ∧ f d buf i = (d' ← dense_set d (Spec 0 0 c) i (b i); Ok (d', Cont)) ∧ right_size (default_kind c) (b i)) →
  ∀ d h, predicted pg c n h d →
  ∃ d', run_rows f d rows = Ok (d', false) ∧
    predicted pg c n (λ i, if bool_decide (i ∈ map fst rows) then Some (b i) else h i) d'.
Proof.
  induction rows as [|[i fetch] rows IH]; intros Hf d h Hp.
  - exists d. split; [done|]. eapply predicted_ext; [|exact Hp]. intros i. by rewrite bool_decide_eq_false_2 by apply not_elem_of_nil.
  - destruct (Hf i fetch d) as (Hi & buf & -> & Hstep & Hsz); [left|].
    destruct (predicted_set pg c n h d i (b i) Hp Hi Hsz) as (d1 & Hd1 & Hp1).
    cbn [run_rows]. cbn [mbind res_bind]. rewrite Hstep, Hd1. cbn [mbind res_bind].
    destruct (IH ltac:(intros j fetch d2 Hj; apply Hf; by right) d1 _ Hp1) as (d' & Hrun & Hp').
    exists d'. split; [done|]. eapply predicted_ext; [|exact Hp']. intros j. cbn beta. cbn [map fst].
    destruct (decide (j ∈ map fst rows)) as [Hj|Hj].
    + by rewrite !bool_decide_eq_true_2 by (done || by right).
    + rewrite (bool_decide_eq_false_2 (j ∈ map fst rows)) by done. destruct (decide (j = i)) as [->|Hne].
      * by rewrite !bool_decide_eq_true_2 by (done || left).
      * rewrite !bool_decide_eq_false_2; [done| |done]. by intros [?|?]%elem_of_cons.
Qed.

(** [d] and the products, added from left to right. *)
Definition running {A} (o : arith A) (d : A) (w x : list A) : A :=
  foldl (a_add o) d (zip_with (a_mul o) x w).

Section predict.
  Context {A : Type} (o : arith A) (of_float : binary64 → A) (to_float : A → binary64) (pg : nat).

  Lemma value_ok l raws xs : length (ln_coef l) = length xs → res_mapM unpack_float raws = Ok xs →
    lin_value o of_float l raws = Ok (running o (ln_disturbance l) (ln_coef l) (map of_float xs)).
  Proof.
    intros Hl Hx. unfold lin_value, running.
    assert (∀ w raws xs k acc pre, length w = length xs → length pre = k → ln_coef l = pre ++ w → res_mapM unpack_float raws = Ok xs →
      res_foldl (λ p '(j, raw), x ← unpack_float raw; w ← idx (ln_coef l) j; Ok (a_add o p (a_mul o (of_float x) w))) acc
        (imap (λ j, pair (k + j)) raws) = Ok (foldl (a_add o) acc (zip_with (a_mul o) (map of_float xs) w))) as H.
    { clear. induction w as [|u w IH]; intros raws xs k acc pre Hl Hk Hc Hx.
      - destruct xs; [|done]. destruct raws as [|raw raws]; [done|]. cbn [res_mapM] in Hx. apply bind_Ok in Hx as (? & _ & Hx).
        by apply bind_Ok in Hx as (? & _ & Hx).
      - destruct xs as [|x xs]; [done|]. destruct raws as [|raw raws]; [done|]. cbn [res_mapM] in Hx.
        apply bind_Ok in Hx as (x' & Hraw & Hx). apply bind_Ok in Hx as (xs' & Hraws & [= -> ->]).
        cbn [imap res_foldl]. rewrite Hraw. cbn [mbind res_bind]. rewrite Nat.add_0_r.
        assert (idx (ln_coef l) k = Ok u) as ->.
        { unfold idx. rewrite Hc, lookup_app_r, Hk, Nat.sub_diag by lia. done. }
        cbn [mbind res_bind]. rewrite (imap_ext _ (λ j, pair (S k + j))).
        2:{ intros j z _. cbn. by replace (k + S j) with (S k + j) by lia. }
        rewrite (IH raws xs (S k) _ (pre ++ [u])); [done|by injection Hl|rewrite app_length; cbn; lia|by rewrite <- app_assoc|done]. }
    apply (H (ln_coef l) raws xs 0 (ln_disturbance l) []); done.
  Qed.

  Lemma predict_ok l g name prec (col : attr → nat → binary64) order :
    ln_fitted l = true → ln_cls l = Some (FloatA name prec) → gr_class_attrs g = [FloatA name prec] →
    length (ln_coef l) = length (ln_attrs l) → iter_agrees g → (∀ a, a ∈ ln_attrs l → column_holds g a (col a)) →
    (∀ k, order k ≡ₚ k) →
    ∃ d, lin_predict o of_float pg to_float l g = Ok d ∧
      let p := dense_grid (order (map_to_list (d_class d))) d in
      gr_class_attrs p = [FloatA name prec] ∧ (gr_size p).2 = (gr_size g).2 ∧
      column_holds p (FloatA name prec)
        (λ r, to_float (running o (ln_disturbance l) (ln_coef l) (map (λ a, of_float (col a r)) (ln_attrs l)))).
  Proof.
    intros Hfit Hcls Hc Hlen Hit Hcols Ho. unfold lin_predict. rewrite Hfit. cbn [negb].
    set (cls := FloatA name prec) in *. set (n := (gr_size g).2).
    destruct (prediction_vector_ok pg g cls Hc) as (d0 & Hd0 & Hp0). rewrite Hd0. cbn [mbind res_bind].
    destruct (resolve_columns g col (ln_attrs l) Hcols) as (specs & Hs & Hl & Hrows). rewrite Hs. cbn [mbind res_bind].
    rewrite Hcls, (predicted_find _ _ _ _ _ Hp0). cbn [mbind res_bind].
    unfold map_over_rows. destruct (Hit specs) as (rows & -> & Hperm & Hfetch).
    set (b := λ r, pack_float (to_float (running o (ln_disturbance l) (ln_coef l) (map (λ a, of_float (col a r)) (ln_attrs l))))).
    match goal with |- context [run_rows ?f d0 rows] => destruct (run_rows_stores pg cls n f b rows) with (d := d0) (h := λ _ : nat, @None (list N)) as (d' & Hrun & Hp') end.
    { intros i fetch d Hin. assert (i < n) as Hi.
      { apply (elem_of_list_fmap_1 fst) in Hin. change (fst <$> rows) with (map fst rows) in Hin.
        rewrite Hperm in Hin. apply elem_of_seq in Hin. cbn in Hin. lia. }
      split; [done|]. destruct (Hrows i Hi) as (raws & H1 & H2). exists raws. split; [by rewrite (Hfetch i fetch Hin)|].
      split; [|done]. rewrite (value_ok l raws (map (λ a, col a i) (ln_attrs l))); [|by rewrite map_length|done].
      cbn [mbind res_bind]. rewrite map_map. done. }
    { exact Hp0. }
    rewrite Hrun. cbn [mbind res_bind fst]. exists d'. split; [done|].
    assert (predicted pg cls n (λ i, if bool_decide (i ∈ map fst rows) then Some (b i) else None) d') as Hp by exact Hp'.
    cbn [dense_grid gr_class_attrs gr_size snd gr_get_attribute gr_get].
    split; [apply (predicted_class_attrs _ _ _ _ _ _ Hp), Ho|].
    split; [destruct Hp as (_ & Hmr & _); exact Hmr|].
    exists (Spec 0 0 cls). split; [by apply (predicted_find _ _ _ _ _ Hp)|].
    intros r Hr. assert (r < n) as Hrn by (destruct Hp as (_ & Hmr & _); cbn in Hr; lia).
    cbn [dense_grid gr_get]. rewrite (predicted_get _ _ _ _ _ _ Hp Hrn).
    rewrite bool_decide_eq_true_2 by (rewrite Hperm; apply elem_of_seq; lia). eexists. split; [reflexivity|].
    cbn [cell_value default_kind cls]. unfold b. apply unpack_pack_float.
  Qed.
End predict.
