(** The loops of the distance functions, and the real numbers. *)
From Coq Require Import Reals Lra.
From Verif Require Import Prelude DenseProofs MetricModel MetricSpec.
Local Open Scope nat_scope.

(** ** The nested loops visit the elements in order *)

Section loops.
  Context {A : Type}.

  Lemma cells_index (x : mx A) :
    map (λ ij, ij.1 * mx_cols x + ij.2) (cells x) = seq 0 (mx_rows x * mx_cols x).
  Proof.
    unfold cells. rewrite concat_map, map_map.
    assert (∀ n, concat (map (λ i, map (λ ij : nat * nat, ij.1 * mx_cols x + ij.2) (map (λ j, (i, j)) (seq 0 (mx_cols x)))) (seq 0 n))
      = seq 0 (n * mx_cols x)) as H; [|apply H].
    induction n as [|n IH]; [done|]. rewrite seq_S, map_app, concat_app, IH. cbn [map concat Nat.add].
    rewrite app_nil_r, map_map. cbn [fst snd].
    replace (S n * mx_cols x) with (n * mx_cols x + mx_cols x) by lia. rewrite seq_app. f_equal. cbn [Nat.add].
    generalize (n * mx_cols x) as b. generalize (mx_cols x) as k. clear. intros k b.
    assert (∀ s, map (λ j, b + j) (seq s k) = seq (b + s) k) as H; [|rewrite (H 0); f_equal; lia].
    induction k as [|k IH]; intros s; [done|]. cbn [seq map]. f_equal. rewrite IH. f_equal. lia.
  Qed.

  Lemma cells_range (x : mx A) ij : ij ∈ cells x → ij.1 < mx_rows x ∧ ij.2 < mx_cols x.
  Proof.
    unfold cells. rewrite elem_of_list_In, in_concat. intros (l & Hl & Hin).
    apply in_map_iff in Hl as (i & <- & Hi). apply in_map_iff in Hin as (j & <- & Hj). apply in_seq in Hi, Hj. cbn. lia.
  Qed.

  Lemma at_ok (x : mx A) i j v : i < mx_rows x → j < mx_cols x → mx_data x !! (i * mx_cols x + j) = Some v →
    mx_at x i j = Ok v.
  Proof.
    intros Hi Hj Hv. unfold mx_at. apply Nat.ltb_lt in Hi, Hj. rewrite Hi, Hj. cbn [andb]. unfold idx. by rewrite Hv.
  Qed.

  Lemma loop_ok {B} (step : B → A → A → B) r c (x y : mx A) a : shaped r c x → shaped r c y →
    res_foldl (λ acc ij, p ← mx_at x ij.1 ij.2; q ← mx_at y ij.1 ij.2; Ok (step acc p q)) a (cells x) =
    Ok (foldl (λ acc pq, step acc pq.1 pq.2) a (zip (mx_data x) (mx_data y))).
  Proof.
    intros (Hrx & Hcx & Hwx) (Hry & Hcy & Hwy). unfold well_formed in *.
    pose proof (cells_index x) as Hi. pose proof (λ ij, cells_range x ij) as Hr.
    rewrite Hrx, Hcx in *. rewrite Hry, Hcy in *.
    assert (∀ l k dx dy a, map (λ ij, ij.1 * c + ij.2) l = seq k (length dx) →
      (∀ ij, ij ∈ l → ij.1 < r ∧ ij.2 < c) → drop k (mx_data x) = dx → drop k (mx_data y) = dy → length dx = length dy →
      res_foldl (λ acc ij, p ← mx_at x ij.1 ij.2; q ← mx_at y ij.1 ij.2; Ok (step acc p q)) a l =
      Ok (foldl (λ acc pq, step acc pq.1 pq.2) a (zip dx dy))) as H.
    { clear Hi Hr. induction l as [|ij l IH]; intros k dx dy a0 Hl Hr Hdx Hdy Hlen.
      - destruct dx; [|discriminate Hl]. done.
      - destruct dx as [|p dx]; [discriminate Hl|]. destruct dy as [|q dy]; [discriminate Hlen|].
        cbn [map length seq] in Hl. injection Hl as Hk Hl.
        cbn [res_foldl]. destruct (Hr ij ltac:(left)) as [H1 H2].
        rewrite (at_ok x _ _ p), (at_ok y _ _ q); cbn [mbind res_bind]; try lia.
        + cbn [zip zip_with foldl]. apply (IH (S k)); [done| | | |by injection Hlen].
          * intros ij' Hin. apply Hr. by right.
          * replace (S k) with (k + 1) by lia. rewrite <- drop_drop, Hdx. done.
          * replace (S k) with (k + 1) by lia. rewrite <- drop_drop, Hdy. done.
        + rewrite Hcy, Hk, <- (Nat.add_0_r k), <- lookup_drop, Hdy. done.
        + rewrite Hcx, Hk, <- (Nat.add_0_r k), <- lookup_drop, Hdx. done. }
    apply (H _ 0); [by rewrite Hwx|exact Hr|done|done|congruence].
  Qed.

  Lemma shaped_same r c (x y : mx A) : shaped r c x → shaped r c y → same_shape x y = true.
  Proof.
    intros (H1 & H2 & _) (H3 & H4 & _). unfold same_shape. rewrite H1, H2, H3, H4, !Nat.eqb_refl. done.
  Qed.
End loops.

Section folds.
  Context {A : Type} (o : arith A) (r c : nat) (x y : mx A) (Hx : shaped r c x) (Hy : shaped r c y).

  Lemma manhattan_fold : manhattan o x y =
    Ok (foldl (λ acc pq, a_add o acc (a_abs o (a_sub o pq.1 pq.2))) (a_zero o) (zip (mx_data x) (mx_data y))).
  Proof using Hx Hy.
    unfold manhattan. rewrite (shaped_same r c x y Hx Hy). cbn [negb].
    apply (loop_ok (λ acc p q, a_add o acc (a_abs o (a_sub o p q))) r c); done.
  Qed.
  Lemma chebyshev_fold : chebyshev o x y =
    Ok (foldl (λ acc pq, a_max o acc (a_abs o (a_sub o pq.1 pq.2))) (a_zero o) (zip (mx_data x) (mx_data y))).
  Proof using Hx Hy.
    unfold chebyshev. rewrite (shaped_same r c x y Hx Hy). cbn [negb].
    apply (loop_ok (λ acc p q, a_max o acc (a_abs o (a_sub o p q))) r c); done.
  Qed.
  Lemma cranberra_fold : cranberra o x y =
    Ok (foldl (λ acc pq, a_add o acc (cranberra_step o (a_abs o (a_sub o pq.1 pq.2))
          (a_add o (a_abs o pq.1) (a_abs o pq.2)))) (a_zero o) (zip (mx_data x) (mx_data y))).
  Proof using Hx Hy.
    unfold cranberra. rewrite (shaped_same r c x y Hx Hy). cbn [negb].
    apply (loop_ok (λ acc p q, a_add o acc (cranberra_step o (a_abs o (a_sub o p q)) (a_add o (a_abs o p) (a_abs o q)))) r c); done.
  Qed.

  Lemma map2_shaped f : ∃ m, mx_map2 f x y = Ok m ∧ shaped r c m ∧ mx_data m = zip_with f (mx_data x) (mx_data y).
  Proof using Hx Hy.
    unfold mx_map2. rewrite (shaped_same r c x y Hx Hy). eexists. split; [done|]. split; [|done].
    destruct Hx as (H1 & H2 & H3), Hy as (H4 & H5 & H6). unfold shaped, well_formed in *. cbn [mx_rows mx_cols mx_data].
    split; [done|]. split; [done|]. rewrite zip_with_length, H3, H6, H1, H2, H4, H5. lia.
  Qed.

  Lemma inner_fold : inner_product o x y =
    Ok (foldl (λ acc pq, a_add o acc (a_mul o pq.1 pq.2)) (a_zero o) (zip (mx_data x) (mx_data y))).
  Proof using Hx Hy.
    unfold inner_product. destruct (map2_shaped (a_mul o)) as (m & -> & _ & Hd). cbn [mbind res_bind].
    unfold mx_sum. rewrite Hd. apply (f_equal Ok). clear. generalize (a_zero o). generalize (mx_data y).
    induction (mx_data x) as [|p l IH]; intros [|q l'] a; [done|done|done|]. cbn [zip zip_with foldl]. apply IH.
  Qed.

  Lemma euclidean_fold : euclidean o x y =
    Ok (a_sqrt o (foldl (λ acc pq, a_add o acc (a_mul o (a_sub o pq.1 pq.2) (a_sub o pq.1 pq.2))) (a_zero o)
      (zip (mx_data x) (mx_data y)))).
  Proof using Hx Hy.
    unfold euclidean. destruct (map2_shaped (a_sub o)) as (m & -> & Hm & Hd). cbn [mbind res_bind].
    assert (inner_product o m m = Ok (foldl (λ acc pq, a_add o acc (a_mul o (a_sub o pq.1 pq.2) (a_sub o pq.1 pq.2))) (a_zero o)
      (zip (mx_data x) (mx_data y)))) as ->; [|done].
    unfold inner_product, mx_map2. rewrite (shaped_same r c m m Hm Hm). cbn [mbind res_bind]. unfold mx_sum. cbn [mx_data].
    rewrite Hd. apply (f_equal Ok). clear. generalize (a_zero o). generalize (mx_data y).
    induction (mx_data x) as [|p l IH]; intros [|q l'] a; [done|done|done|]. cbn [zip zip_with foldl]. apply IH.
  Qed.
End folds.
