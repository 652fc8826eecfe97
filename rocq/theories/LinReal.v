(** Least squares over the real numbers. *)
From Coq Require Import Reals Lra.
From Verif Require Import Prelude MetricModel MetricSpec MetricReal.
Local Open Scope nat_scope.

Lemma total_const0 n : total n (λ _, 0%R) = 0%R.
Proof. induction n as [|n IH]; [done|]. cbn. rewrite IH. lra. Qed.

Lemma total_swap n m f : total n (λ i, total m (λ j, f i j)) = total m (λ j, total n (λ i, f i j)).
Proof.
  induction n as [|n IH]; cbn [total]; [by rewrite total_const0|]. rewrite IH. by rewrite <- total_plus.
Qed.

Lemma total_scale_r n a f : total n (λ k, f k * a)%R = (total n f * a)%R.
Proof. induction n as [|n IH]; cbn; [lra|]. rewrite IH. lra. Qed.

Lemma total_minus n f g : total n (λ k, f k - g k)%R = (total n f - total n g)%R.
Proof. induction n as [|n IH]; cbn [total]; [lra|]. rewrite IH. lra. Qed.

Lemma total_pick n k f : k < n → (∀ j, j < n → j ≠ k → f j = 0%R) → total n f = f k.
Proof.
  induction n as [|n IH]; intros Hk H; [lia|]. cbn. destruct (decide (k = n)) as [->|Hne].
  - rewrite (total_ext n f (λ _, 0%R)), total_const0; [lra|]. intros j Hj. apply H; lia.
  - rewrite IH, (H n); [lra|lia|lia|lia|]. intros j Hj. apply H; lia.
Qed.

Lemma total_split n k f : k <= n → total n f = (total k f + total (n - k)%nat (λ j, f (k + j)%nat))%R.
Proof.
  induction n as [|n IH]; intros Hk; [replace k with 0 by lia; cbn; lra|].
  destruct (decide (k = S n)) as [->|Hne]; [rewrite Nat.sub_diag; cbn; lra|].
  replace (S n - k) with (S (n - k)) by lia. cbn [total]. rewrite IH by lia. replace (k + (n - k)) with n by lia. lra.
Qed.

Lemma total_first n f : total (S n) f = (f 0%nat + total n (λ k, f (S k)))%R.
Proof. rewrite (total_split (S n) 1) by lia. cbn [total]. replace (S n - 1) with n by lia. cbn. lra. Qed.

Section least_squares.
  Context (m n : nat) (X Q T : nat → nat → R) (y b : nat → R).
  Context (Hnm : n <= m).
  Context (Horth : ∀ i j, i < m → j < m → total m (λ k, Q k i * Q k j)%R = if i =? j then 1%R else 0%R).
  Context (Hprod : ∀ i j, i < m → j < n → X i j = total m (λ k, Q i k * T k j)%R).
  Context (Htri : ∀ i j, i < m → j < i → j < n → T i j = 0%R).

  Definition qty (k : nat) : R := total m (λ i, Q i k * y i)%R.
  Definition resid (c : nat → R) (i : nat) : R := (y i - total n (λ j, X i j * c j))%R.

  (** The product of the transpose of Q with X is T. *)
  Lemma q_x k j : k < m → j < n → total m (λ i, Q i k * X i j)%R = T k j.
  Proof.
    intros Hk Hj. rewrite (total_ext m _ (λ i, total m (λ h, Q i k * Q i h * T h j)%R)).
    2:{ intros i Hi. rewrite Hprod by done. rewrite <- total_scale. apply total_ext. intros. ring. }
    rewrite total_swap. rewrite (total_ext m _ (λ h, (if k =? h then 1 else 0) * T h j)%R).
    2:{ intros h Hh. rewrite total_scale_r. by rewrite Horth. }
    rewrite (total_pick m k); [rewrite Nat.eqb_refl; lra|done|].
    intros h Hh Hne. destruct (Nat.eqb_spec k h); [congruence|lra].
  Qed.

  (** The normal equations. *)
  Lemma normal : (∀ k, k < n → total n (λ j, T k j * b j)%R = qty k) →
    ∀ j, j < n → total m (λ i, X i j * resid b i)%R = 0%R.
  Proof.
    intros Hb j Hj. rewrite (total_ext m _ (λ i, total m (λ k, T k j * (Q i k * resid b i))%R)).
    2:{ intros i Hi. rewrite Hprod by done. rewrite <- total_scale_r. apply total_ext. intros. ring. }
    rewrite total_swap. rewrite (total_ext m _ (λ _, 0%R)); [apply total_const0|].
    intros k Hk. rewrite total_scale. destruct (decide (k < n)) as [Hkn|Hkn].
    2:{ rewrite Htri by lia. lra. }
    assert (total m (λ i, Q i k * resid b i)%R = 0%R) as ->; [|lra].
    unfold resid. rewrite (total_ext m _ (λ i, Q i k * y i - total n (λ l, Q i k * X i l * b l))%R).
    2:{ intros i Hi. rewrite Rmult_minus_distr_l. f_equal. rewrite <- total_scale. apply total_ext. intros. ring. }
    rewrite total_minus, total_swap. rewrite (total_ext n _ (λ l, T k l * b l)%R).
    2:{ intros l Hl. rewrite total_scale_r. by rewrite q_x by lia. }
    rewrite Hb by done. unfold qty. lra.
  Qed.

  (** The squared error of any other coefficients. *)
  Lemma error_grows : (∀ j, j < n → total m (λ i, X i j * resid b i)%R = 0%R) → ∀ c,
    total m (λ i, resid c i ^ 2)%R =
    (total m (λ i, resid b i ^ 2) + total m (λ i, (total n (λ j, X i j * (c j - b j))) ^ 2))%R.
  Proof.
    intros Hn c. assert (∀ i, resid c i = resid b i - total n (λ j, X i j * (c j - b j)))%R as E.
    { intros i. unfold resid. rewrite (total_ext n (λ j, X i j * (c j - b j))%R (λ j, X i j * c j - X i j * b j)%R) by (intros; ring).
      rewrite total_minus. ring. }
    rewrite (total_ext m _ (λ i, (resid b i ^ 2 + (total n (λ j, X i j * (c j - b j))) ^ 2)
                               - 2 * (total n (λ j, X i j * (c j - b j)) * resid b i))%R).
    2:{ intros i Hi. rewrite E. ring. }
    rewrite total_minus, total_plus, total_scale.
    assert (total m (λ i, total n (λ j, X i j * (c j - b j)) * resid b i)%R = 0%R) as ->; [|lra].
    rewrite (total_ext m _ (λ i, total n (λ j, (c j - b j) * (X i j * resid b i)))%R).
    2:{ intros i Hi. rewrite <- total_scale_r. apply total_ext. intros. ring. }
    rewrite total_swap. rewrite (total_ext n _ (λ _, 0%R)); [apply total_const0|].
    intros j Hj. rewrite total_scale, Hn by done. lra.
  Qed.

  (** Independent columns leave no zero on the diagonal. *)
  Lemma solve_triangular k : k <= n → (∀ i, i < k → T i i ≠ 0%R) → ∀ rhs : nat → R,
    ∃ c, ∀ i, i < k → total k (λ j, T i j * c j)%R = rhs i.
  Proof.
    induction k as [|k IH]; intros Hk Hd rhs; [exists (λ _, 0%R); intros; lia|].
    set (ck := (rhs k / T k k)%R).
    destruct (IH ltac:(lia) (λ i Hi, Hd i ltac:(lia)) (λ i, rhs i - T i k * ck)%R) as [c Hc].
    exists (λ j, if j =? k then ck else c j). intros i Hi. cbn [total]. rewrite Nat.eqb_refl.
    rewrite (total_ext k _ (λ j, T i j * c j)%R).
    2:{ intros j Hj. destruct (Nat.eqb_spec j k); [lia|done]. }
    destruct (decide (i = k)) as [->|Hne].
    - rewrite (total_ext k _ (λ _, 0%R)), total_const0; [unfold ck; field; apply Hd; lia|].
      intros j Hj. rewrite Htri by lia. lra.
    - rewrite Hc by lia. lra.
  Qed.

  Lemma diagonal : (∀ c, (∀ i, i < m → total n (λ j, X i j * c j)%R = 0%R) → ∀ j, j < n → c j = 0%R) →
    ∀ k, k < n → T k k ≠ 0%R.
  Proof.
    intros Hind k. induction (lt_wf k) as [k _ IH]. intros Hk H0.
    destruct (solve_triangular k ltac:(lia) (λ i Hi, IH i Hi ltac:(lia)) (λ i, - T i k)%R) as [c Hc].
    set (c' j := if j <? k then c j else if j =? k then 1%R else 0%R).
    assert (∀ i, i < m → total n (λ j, T i j * c' j)%R = 0%R) as HT.
    { intros i Hi. rewrite (total_split n (S k)) by lia.
      rewrite (total_ext (n - S k) _ (λ _, 0%R)), total_const0.
      2:{ intros j Hj. unfold c'. destruct (Nat.ltb_spec (S k + j) k); [lia|].
          destruct (Nat.eqb_spec (S k + j) k); [lia|]. lra. }
      cbn [total]. unfold c' at 2. rewrite Nat.ltb_irrefl, Nat.eqb_refl.
      rewrite (total_ext k _ (λ j, T i j * c j)%R).
      2:{ intros j Hj. unfold c'. destruct (Nat.ltb_spec j k); [done|lia]. }
      destruct (decide (i < k)) as [Hik|Hik]; [rewrite Hc by done; lra|].
      rewrite (total_ext k _ (λ _, 0%R)), total_const0.
      2:{ intros j Hj. rewrite Htri by lia. lra. }
      destruct (decide (i = k)) as [->|Hne]; [rewrite H0; lra|]. rewrite Htri by lia. lra. }
    assert (c' k = 0%R) as E.
    { apply Hind; [|done]. intros i Hi.
      rewrite (total_ext n _ (λ j, total m (λ h, Q i h * (T h j * c' j))%R)).
      2:{ intros j Hj. rewrite Hprod by done. rewrite <- total_scale_r. apply total_ext. intros. ring. }
      rewrite total_swap. rewrite (total_ext m _ (λ _, 0%R)); [apply total_const0|].
      intros h Hh. rewrite total_scale, HT by done. lra. }
    unfold c' in E. rewrite Nat.ltb_irrefl, Nat.eqb_refl in E. lra.
  Qed.
End least_squares.
