(** * Growth with magnitude of the published equations of C03, TP05, PZT11, ASB14, AGA16 and COP14 *)
From Coquelicot Require Import Coquelicot.
From Interval Require Import Tactic.
From Coq Require Import List.
From Verif Require Import FrameworkProofs Anal Nga GmmLib Spec_east Data_c03 Data_tp05 Data_pzt11.
Open Scope R_scope.
Open Scope list_scope.

(** ** Campbell (2003) *)
Lemma lnsq_growth r k a m1 m2 : 0 < k -> 0 <= a -> m1 <= m2 ->
  0 <= ln (sqrt (r ^ 2 + (k * exp (a * m2)) ^ 2)) - ln (sqrt (r ^ 2 + (k * exp (a * m1)) ^ 2)) <= a * (m2 - m1).
Proof.
  intros Hk Ha Hm. set (h1 := k * exp (a * m1)). set (h2 := k * exp (a * m2)).
  assert (H1 : 0 < h1) by (apply Rmult_lt_0_compat; [exact Hk|apply exp_pos]).
  assert (E : h2 = h1 * exp (a * (m2 - m1))). { unfold h1, h2. rewrite Rmult_assoc, <- exp_plus. f_equal. f_equal. ring. }
  assert (A0 : 0 <= a * (m2 - m1)) by (apply Rmult_le_pos; lra).
  set (q := exp (a * (m2 - m1))) in *. assert (Q : 1 <= q) by (apply exp_ge_1; exact A0).
  assert (S1 : 0 < h1 ^ 2) by (apply pow_lt; exact H1). assert (R2 : 0 <= r ^ 2) by (apply pow2_ge_0).
  assert (H12 : h1 ^ 2 <= h2 ^ 2) by (apply pow_incr; rewrite E; split; nra).
  rewrite !ln_sqrt by lra. split.
  - assert (ln (r ^ 2 + h1 ^ 2) <= ln (r ^ 2 + h2 ^ 2)) by (apply ln_le_mono; lra). lra.
  - assert (B : r ^ 2 + h2 ^ 2 <= (r ^ 2 + h1 ^ 2) * (q * q)).
    { rewrite E. replace ((h1 * q) ^ 2) with (h1 ^ 2 * (q * q)) by ring. assert (1 <= q * q) by nra. nra. }
    assert (C : ln (r ^ 2 + h2 ^ 2) <= ln ((r ^ 2 + h1 ^ 2) * (q * q))) by (apply ln_le_mono; lra).
    rewrite ln_mult in C by nra. rewrite ln_mult in C by lra. unfold q in C at 1 2. rewrite ln_exp in C. lra.
Qed.
Lemma c03_grows c m1 m2 r : In c c03_coeff -> 0 <= r -> m1 < m2 -> m2 <= 8.1 -> c03_pub c m1 r < c03_pub c m2 r.
Proof.
  intros Hc Hr H H2. row_pos Hc (fun c => c03_c_7 c) as C7. row_pos Hc (fun c => c03_c_8 c) as C8. row_lt Hc (fun c => c03_c_4 c) (fun _ : c03_row => (0#1)%Q) as C4.
  row_lt Hc (fun c => c03_c_3 c) (fun _ : c03_row => (0#1)%Q) as C3. row_pos Hc (fun c => c03_c_6 c) as C6.
  row_lt Hc (fun _ : c03_row => (0#1)%Q) (fun c => c03_c_2 c + c03_c_4 c * c03_c_8 c - c03_c_3 c * (8#10))%Q as D.
  unfold c03_pub. cbv zeta. destruct (lnsq_growth r (Q2R (c03_c_7 c)) (Q2R (c03_c_8 c)) m1 m2) as [L1 L2]; [lra|lra|lra|].
  revert L1 L2. generalize (ln (sqrt (r ^ 2 + (Q2R (c03_c_7 c) * exp (Q2R (c03_c_8 c) * m1)) ^ 2))). intros l1.
  generalize (ln (sqrt (r ^ 2 + (Q2R (c03_c_7 c) * exp (Q2R (c03_c_8 c) * m2)) ^ 2))). intros l2 L1 L2.
  set (k2 := Q2R (c03_c_2 c)) in *. set (k3 := Q2R (c03_c_3 c)) in *. set (k4 := Q2R (c03_c_4 c)) in *. set (k8 := Q2R (c03_c_8 c)) in *. set (k6 := Q2R (c03_c_6 c)) in *.
  assert (P : k4 * (k8 * (m2 - m1)) <= k4 * (l2 - l1)) by (apply Rmult_le_compat_neg_l; lra).
  assert (Q : 0 <= k6 * r * (m2 - m1)) by (apply Rmult_le_pos; [apply Rmult_le_pos; lra|lra]).
  assert (V : k3 * (8.5 - m2) ^ 2 - k3 * (8.5 - m1) ^ 2 = - k3 * (m2 - m1) * (17 - m1 - m2)) by (replace 17 with (8.5 + 8.5) by lra; generalize 8.5; intros; ring).
  assert (W : - k3 * (m2 - m1) * 0.8 <= - k3 * (m2 - m1) * (17 - m1 - m2)) by (apply Rmult_le_compat_l; [apply Rmult_le_pos; lra|lra]).
  assert (Z : 0 < (m2 - m1) * (k2 + k4 * k8 - k3 * 0.8)) by (apply Rmult_lt_0_compat; lra).
  lra.
Qed.

(** ** Pezeshk et al. (2011) *)
Definition pzt11_log_k (c : pzt11_row) (s : R) : R := log10 (sqrt (s + Q2R (pzt11_c_11 c) ^ 2)).
Lemma pzt11_diff c m1 m2 r : pzt11_pub c m2 r - pzt11_pub c m1 r =
  (m2 - m1) * (Q2R (pzt11_c_2 c) + Q2R (pzt11_c_3 c) * (m1 + m2)
    + Q2R (pzt11_c_5 c) * log10 (Rmin (sqrt (r ^ 2 + Q2R (pzt11_c_11 c) ^ 2)) 70)
    + Q2R (pzt11_c_7 c) * log10 (Rmax 70 (Rmin (sqrt (r ^ 2 + Q2R (pzt11_c_11 c) ^ 2)) 140) / 70)
    + Q2R (pzt11_c_9 c) * log10 (Rmax (sqrt (r ^ 2 + Q2R (pzt11_c_11 c) ^ 2)) 140 / 140)).
Proof. unfold pzt11_pub. cbv zeta. ring. Qed.
Lemma log10_mono x y : 0 < x -> x <= y -> log10 x <= log10 y.
Proof. intros. unfold log10, Rdiv. apply Rmult_le_compat_r; [left; apply Rinv_0_lt_compat, ln10_pos|apply ln_le_mono; lra]. Qed.
Lemma log10_1' : log10 1 = 0. Proof. unfold log10. rewrite ln_1. unfold Rdiv. ring. Qed.
(** With the near-source distance at least [k]. *)
Lemma pzt11_grows_if c m1 m2 r k M : In c pzt11_coeff -> m1 < m2 -> m2 <= M ->
  0 < k -> k <= 70 -> k <= sqrt (r ^ 2 + Q2R (pzt11_c_11 c) ^ 2) ->
  0 < Q2R (pzt11_c_2 c) + Q2R (pzt11_c_3 c) * (2 * M) + Q2R (pzt11_c_5 c) * log10 k ->
  0 < Q2R (pzt11_c_2 c) + Q2R (pzt11_c_3 c) * (2 * M) + Q2R (pzt11_c_5 c) * 1.84 + Q2R (pzt11_c_7 c) * 0.302 ->
  pzt11_pub c m1 r < pzt11_pub c m2 r.
Proof.
  intros Hc H H2 K0 K70 HK D1 D2. row_pos Hc (fun c => pzt11_c_5 c) as C5. row_pos Hc (fun c => pzt11_c_9 c) as C9.
  row_lt Hc (fun c => pzt11_c_3 c) (fun _ : pzt11_row => (0#1)%Q) as C3. row_lt Hc (fun c => pzt11_c_7 c) (fun _ : pzt11_row => (0#1)%Q) as C7.
  apply Rminus_gt_0_lt. rewrite pzt11_diff. apply Rmult_lt_0_compat; [lra|].
  set (R' := sqrt _) in *. set (k5 := Q2R (pzt11_c_5 c)) in *. set (k7 := Q2R (pzt11_c_7 c)) in *. set (k9 := Q2R (pzt11_c_9 c)) in *. set (k3 := Q2R (pzt11_c_3 c)) in *. set (k2 := Q2R (pzt11_c_2 c)) in *.
  assert (A3 : k3 * (2 * M) <= k3 * (m1 + m2)) by (apply Rmult_le_compat_neg_l; lra).
  assert (A9 : 0 <= k9 * log10 (Rmax R' 140 / 140)).
  { apply Rmult_le_pos; [lra|]. rewrite <- log10_1'. apply log10_mono; [lra|]. apply Rmult_le_reg_r with 140; [lra|]. unfold Rdiv. rewrite Rmult_assoc, Rinv_l, Rmult_1_r by lra. pose proof (Rmax_r R' 140). lra. }
  destruct (Rle_dec R' 70) as [N|N].
  - rewrite (Rmin_left R' 70), (Rmin_left R' 140), (Rmax_left 70 R') by lra. replace (70 / 70) with 1 by field. rewrite log10_1'.
    assert (k5 * log10 k <= k5 * log10 R') by (apply Rmult_le_compat_l; [lra|apply log10_mono; lra]). lra.
  - rewrite (Rmin_right R' 70) by lra.
    assert (B5 : k5 * 1.84 <= k5 * log10 70). { apply Rmult_le_compat_l; [lra|]. clear. unfold log10. interval with (i_prec 40). }
    assert (B7 : k7 * 0.302 <= k7 * log10 (Rmax 70 (Rmin R' 140) / 70)).
    { apply Rmult_le_compat_neg_l; [lra|]. apply Rle_trans with (log10 2); [|clear; unfold log10; interval with (i_prec 40)].
      assert (X : 70 <= Rmax 70 (Rmin R' 140) <= 140). { split; [apply Rmax_l|]. apply Rmax_lub; [lra|apply Rmin_r]. }
      apply log10_mono; [apply Rdiv_lt_0_compat; lra|]. apply Rmult_le_reg_r with 70; [lra|]. unfold Rdiv. rewrite Rmult_assoc, Rinv_l by lra. lra. }
    lra.
Qed.
Lemma sqrt_ge k s : 0 < k -> k * k <= s -> k <= sqrt s.
Proof. intros K H. rewrite <- (sqrt_square k) by lra. apply sqrt_le_1_alt. exact H. Qed.
(** Constants: 5.9 < c_11 < 7.4 in every row. *)
Lemma log10_chord x : 5.9 <= x <= 7.4 -> 0.77 + 0.065 * (x - 5.9) <= log10 x.
Proof. intros H. apply Rminus_le_0. unfold log10. interval with (i_prec 40, i_bisect x, i_taylor x). Qed.
Lemma pzt11_grows_any c m1 m2 r : In c pzt11_coeff -> m1 < m2 -> m2 <= 6.6 -> pzt11_pub c m1 r < pzt11_pub c m2 r.
Proof.
  intros Hc H H2. row_lt Hc (fun _ : pzt11_row => (59#10)%Q) (fun c => pzt11_c_11 c) as K. row_lt Hc (fun c => pzt11_c_11 c) (fun _ : pzt11_row => (74#10)%Q) as K2.
  row_lt Hc (fun _ : pzt11_row => (0#1)%Q) (fun c => pzt11_c_2 c + pzt11_c_3 c * (132#10) + pzt11_c_5 c * ((77#100) + (65#1000) * (pzt11_c_11 c - (59#10))))%Q as D1.
  row_lt Hc (fun _ : pzt11_row => (0#1)%Q) (fun c => pzt11_c_2 c + pzt11_c_3 c * (132#10) + pzt11_c_5 c * (184#100) + pzt11_c_7 c * (302#1000))%Q as D2.
  row_pos Hc (fun c => pzt11_c_5 c) as C5.
  apply (pzt11_grows_if c m1 m2 r (Q2R (pzt11_c_11 c)) 6.6); try assumption; try lra.
  - apply sqrt_ge; [lra|]. pose proof (pow2_ge_0 r). nra.
  - pose proof (log10_chord (Q2R (pzt11_c_11 c)) ltac:(lra)) as L. apply (Rmult_le_compat_l (Q2R (pzt11_c_5 c))) in L; [|lra]. lra.
Qed.
Lemma pzt11_grows_far c m1 m2 r : In c pzt11_coeff -> 15 <= r -> m1 < m2 -> m2 <= 8 -> pzt11_pub c m1 r < pzt11_pub c m2 r.
Proof.
  intros Hc Hr H H2. row_lt Hc (fun _ : pzt11_row => (59#10)%Q) (fun c => pzt11_c_11 c) as K.
  row_lt Hc (fun _ : pzt11_row => (0#1)%Q) (fun c => pzt11_c_2 c + pzt11_c_3 c * (16#1) + pzt11_c_5 c * (120#100))%Q as D1.
  row_lt Hc (fun _ : pzt11_row => (0#1)%Q) (fun c => pzt11_c_2 c + pzt11_c_3 c * (16#1) + pzt11_c_5 c * (184#100) + pzt11_c_7 c * (302#1000))%Q as D2.
  row_pos Hc (fun c => pzt11_c_5 c) as C5.
  apply (pzt11_grows_if c m1 m2 r 16 8); try assumption; try lra.
  - apply sqrt_ge; [lra|]. nra.
  - assert (L : 1.20 <= log10 16) by (clear; unfold log10; interval with (i_prec 40)).
    assert (Q2R (pzt11_c_5 c) * 1.20 <= Q2R (pzt11_c_5 c) * log10 16) by (apply Rmult_le_compat_l; lra). lra.
Qed.

(** ** Tavakoli & Pezeshk (2005) *)
Section TP05.
Variable c : tp05_row.
Local Notation k2 := (Q2R (tp05_c_2 c)). Local Notation k3 := (Q2R (tp05_c_3 c)). Local Notation k4 := (Q2R (tp05_c_4 c)).
Local Notation k5 := (Q2R (tp05_c_5 c)). Local Notation k6 := (Q2R (tp05_c_6 c)). Local Notation k7 := (Q2R (tp05_c_7 c)).
Local Notation k8 := (Q2R (tp05_c_8 c)). Local Notation k12 := (Q2R (tp05_c_12 c)). Local Notation k13 := (Q2R (tp05_c_13 c)).
(** square of the near-source term and its logarithmic slope *)
Definition tp_h2 (m : R) : R := (k5 * exp (k6 * m + k7 * ((8.5 - m) ^ 2 * sqrt (8.5 - m)))) ^ 2.
Definition tp_k (m : R) : R := k6 - 2.5 * k7 * ((8.5 - m) * sqrt (8.5 - m)).
(** derivative against the magnitude; [s]: square of the effective distance *)
Definition tp_slope (m s : R) : R :=
  k2 - 2.5 * k3 * ((8.5 - m) * sqrt (8.5 - m)) + k13 * ln (sqrt s) + k12 * sqrt s
  + tp_k m * (k4 + k13 * m) * (tp_h2 m / s) + tp_k m * (k8 + k12 * m) * (tp_h2 m / sqrt s).
Definition tp_big (m : R) : R := (8.5 - m) ^ 2 * sqrt (8.5 - m).
Lemma tp_big_derive m : m < 8.5 -> is_derive tp_big m (- (2.5 * ((8.5 - m) * sqrt (8.5 - m)))).
Proof.
  intros H. assert (S : 0 < sqrt (8.5 - m)) by (apply sqrt_lt_R0; lra). unfold tp_big. revert H S. generalize 8.5 as a. intros a H S.
  auto_derive; [lra|]. replace (a + - m) with (a - m) by ring.
  assert (E : a - m = sqrt (a - m) * sqrt (a - m)) by (symmetry; apply sqrt_sqrt; lra).
  replace 2.5 with (5 / 2) by lra. revert E S. generalize (sqrt (a - m)) as q. intros q E S. rewrite E. field. lra.
Qed.
Lemma tp_derive r m : m < 8.5 -> k5 < 0 ->
  is_derive (fun m => tp05_pub c m r) m (tp_slope m (r ^ 2 + tp_h2 m)).
Proof.
  intros H H5. unfold tp05_pub, tp_slope, tp_h2, tp_k. cbv zeta. fold (tp_big m).
  replace (2.5 * k3 * ((8.5 - m) * sqrt (8.5 - m))) with (k3 * (2.5 * ((8.5 - m) * sqrt (8.5 - m)))) by ring.
  replace (2.5 * k7 * ((8.5 - m) * sqrt (8.5 - m))) with (k7 * (2.5 * ((8.5 - m) * sqrt (8.5 - m)))) by ring.
  pose proof (tp_big_derive m H) as D. revert D. generalize (2.5 * ((8.5 - m) * sqrt (8.5 - m))) as q. intros q D.
  assert (X : ex_derive tp_big m) by (eexists; exact D). apply is_derive_unique in D.
  apply (is_derive_ext (fun m => Q2R (tp05_c_1 c) + k2 * m + k3 * tp_big m + Q2R (tp05_c_9 c) * ln (r + 4.5) + Q2R (tp05_c_10 c) * ln (Rmax r 70 / 70) + Q2R (tp05_c_11 c) * ln (Rmax r 130 / 130)
    + (k4 + k13 * m) * ln (sqrt (r ^ 2 + (k5 * exp (k6 * m + k7 * tp_big m)) ^ 2)) + (k8 + k12 * m) * sqrt (r ^ 2 + (k5 * exp (k6 * m + k7 * tp_big m)) ^ 2))).
  { intros t. reflexivity. }
  assert (P : 0 < (k5 * exp (k6 * m + k7 * tp_big m)) ^ 2). { pose proof (exp_pos (k6 * m + k7 * tp_big m)). assert (k5 * exp (k6 * m + k7 * tp_big m) < 0) by nra. nra. }
  pose proof (pow2_ge_0 r) as R2.
  assert (S : 0 < sqrt (r ^ 2 + (k5 * exp (k6 * m + k7 * tp_big m)) ^ 2)) by (apply sqrt_lt_R0; lra).
  assert (SS : sqrt (r ^ 2 + (k5 * exp (k6 * m + k7 * tp_big m)) ^ 2) * sqrt (r ^ 2 + (k5 * exp (k6 * m + k7 * tp_big m)) ^ 2) = r ^ 2 + (k5 * exp (k6 * m + k7 * tp_big m)) ^ 2) by (apply sqrt_sqrt; lra).
  auto_derive.
  { simpl in *. repeat split; try assumption; try lra. }
  change (Derive (fun x => tp_big x) m) with (Derive tp_big m). rewrite D.
  cbn [pow] in *. rewrite !Rmult_1_r in *.
  revert S SS P. generalize (exp (k6 * m + k7 * tp_big m)) as e. intros e. generalize (sqrt (r * r + k5 * e * (k5 * e))) as t. intros t S SS P.
  rewrite <- SS. field. lra.
Qed.
(** The slope at distance [r] is at least that at any smaller distance. *)
Lemma tp_slope_mono m s0 s : 0 < s0 -> s0 <= s -> 0 < k13 -> 0 < k12 -> k4 + k13 * m <= 0 -> k8 + k12 * m <= 0 -> 0 <= tp_k m ->
  tp_slope m s0 <= tp_slope m s.
Proof.
  intros S0 S K13 K12 N4 N8 K. unfold tp_slope.
  assert (Q0 : 0 < sqrt s0) by (apply sqrt_lt_R0; lra). assert (Q : sqrt s0 <= sqrt s) by (apply sqrt_le_1_alt; lra).
  assert (A : k13 * ln (sqrt s0) <= k13 * ln (sqrt s)) by (apply Rmult_le_compat_l; [lra|apply ln_le_mono; lra]).
  assert (B : k12 * sqrt s0 <= k12 * sqrt s) by (apply Rmult_le_compat_l; lra).
  assert (H : 0 <= tp_h2 m) by apply pow2_ge_0.
  assert (C1 : tp_h2 m / s <= tp_h2 m / s0) by (unfold Rdiv; apply Rmult_le_compat_l; [exact H|apply Rinv_le_contravar; lra]).
  assert (C2 : tp_h2 m / sqrt s <= tp_h2 m / sqrt s0) by (unfold Rdiv; apply Rmult_le_compat_l; [exact H|apply Rinv_le_contravar; lra]).
  assert (D1 : tp_k m * (k4 + k13 * m) * (tp_h2 m / s0) <= tp_k m * (k4 + k13 * m) * (tp_h2 m / s)).
  { rewrite !(Rmult_assoc (tp_k m)). apply Rmult_le_compat_l; [exact K|]. apply Rmult_le_compat_neg_l; assumption. }
  assert (D2 : tp_k m * (k8 + k12 * m) * (tp_h2 m / sqrt s0) <= tp_k m * (k8 + k12 * m) * (tp_h2 m / sqrt s)).
  { rewrite !(Rmult_assoc (tp_k m)). apply Rmult_le_compat_l; [exact K|]. apply Rmult_le_compat_neg_l; assumption. }
  lra.
Qed.
End TP05.
Lemma tp_k_pos c m : In c tp05_coeff -> 5 <= m <= 8.2 -> 0 <= tp_k c m.
Proof.
  intros Hc Hm. row_pos Hc (fun c => tp05_c_6 c) as C6. row_lt Hc (fun _ : tp05_row => (0#1)%Q) (fun c => tp05_c_6 c - tp05_c_7 c * (165#10))%Q as D.
  unfold tp_k. assert (0 <= (8.5 - m) * sqrt (8.5 - m) <= 6.6) by (split; interval with (i_prec 40)).
  set (q := (8.5 - m) * sqrt (8.5 - m)) in *. set (k7 := Q2R (tp05_c_7 c)) in *. destruct (Rle_dec 0 k7); nra.
Qed.
Lemma tp_near c m : In c tp05_coeff -> 5 <= m <= 7.1 -> 0 < tp_slope c m (tp_h2 c m).
Proof.
  intros Hc Hm. unfold tp_slope, tp_h2, tp_k. unfold tp05_coeff in Hc. cbn [In] in Hc.
  repeat (destruct Hc as [<-|Hc];
    [cbn [tp05_c_2 tp05_c_3 tp05_c_4 tp05_c_5 tp05_c_6 tp05_c_7 tp05_c_8 tp05_c_12 tp05_c_13]; unfold Q2R; cbn [Qnum Qden];
     interval with (i_prec 40, i_bisect m, i_taylor m, i_degree 3)|]). destruct Hc.
Qed.
Lemma tp_far c m : In c tp05_coeff -> 5 <= m <= 8.2 -> 0 < tp_slope c m (400 + tp_h2 c m).
Proof.
  intros Hc Hm. unfold tp_slope, tp_h2, tp_k. unfold tp05_coeff in Hc. cbn [In] in Hc.
  repeat (destruct Hc as [<-|Hc];
    [cbn [tp05_c_2 tp05_c_3 tp05_c_4 tp05_c_5 tp05_c_6 tp05_c_7 tp05_c_8 tp05_c_12 tp05_c_13]; unfold Q2R; cbn [Qnum Qden];
     interval with (i_prec 40, i_bisect m, i_taylor m, i_degree 3)|]). destruct Hc.
Qed.
Lemma tp05_grows c m1 m2 r : In c tp05_coeff -> 0 <= r -> 5 <= m1 -> m1 < m2 -> m2 <= 7.1 \/ 20 <= r /\ m2 <= 8.2 ->
  tp05_pub c m1 r < tp05_pub c m2 r.
Proof.
  intros Hc Hr H1 H H2. row_lt Hc (fun c => tp05_c_5 c) (fun _ : tp05_row => (0#1)%Q) as C5. row_pos Hc (fun c => tp05_c_12 c) as C12. row_pos Hc (fun c => tp05_c_13 c) as C13.
  row_lt Hc (fun c => tp05_c_4 c + tp05_c_13 c * (82#10))%Q (fun _ : tp05_row => (0#1)%Q) as C4. row_lt Hc (fun c => tp05_c_8 c + tp05_c_12 c * (82#10))%Q (fun _ : tp05_row => (0#1)%Q) as C8.
  apply (incr_by_derive (fun m => tp05_pub c m r) (fun m => tp_slope c m (r ^ 2 + tp_h2 c m))); [exact H| |].
  - intros m Hm. apply tp_derive; [destruct H2; lra|lra].
  - intros m Hm. assert (M : m <= 8.2) by (destruct H2; lra).
    assert (P : 0 < tp_h2 c m). { unfold tp_h2. match goal with |- context [exp ?x] => pose proof (exp_pos x) as E; set (e := exp x) in * end. assert (Q2R (tp05_c_5 c) * e < 0) by nra. nra. }
    assert (N4 : Q2R (tp05_c_4 c) + Q2R (tp05_c_13 c) * m <= 0) by (assert (Q2R (tp05_c_13 c) * m <= Q2R (tp05_c_13 c) * 8.2) by (apply Rmult_le_compat_l; lra); lra).
    assert (N8 : Q2R (tp05_c_8 c) + Q2R (tp05_c_12 c) * m <= 0) by (assert (Q2R (tp05_c_12 c) * m <= Q2R (tp05_c_12 c) * 8.2) by (apply Rmult_le_compat_l; lra); lra).
    pose proof (tp_k_pos c m Hc ltac:(lra)) as K. destruct H2 as [H2|[R20 H2]].
    + apply Rlt_le_trans with (tp_slope c m (tp_h2 c m)); [apply tp_near; [exact Hc|lra]|]. apply tp_slope_mono; try assumption; try lra. pose proof (pow2_ge_0 r). lra.
    + apply Rlt_le_trans with (tp_slope c m (400 + tp_h2 c m)); [apply tp_far; [exact Hc|lra]|]. apply tp_slope_mono; try assumption; try lra. nra.
Qed.
