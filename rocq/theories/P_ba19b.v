(** * Bayless & Abrahamson (2019): derived facts *)
From Coquelicot Require Import Coquelicot.
From Interval Require Import Tactic.
From Coq Require Import List.
From Verif Require Import M_ba19 FrameworkProofs Anal Nga NpProofs Spec_hkr14 Spec_cms P_k17 P_cy14 Spec_ba19 P_ba19.
Open Scope R_scope.
Open Scope string_scope.
Open Scope list_scope.

Lemma nth_error_map_some {A B} (f : A -> B) l k x : nth_error l k = Some x -> nth_error (map f l) k = Some (f x).
Proof. intros H. rewrite nth_error_map, H. reflexivity. Qed.
Lemma combine_nth_error {A B} (l : list A) (l' : list B) k x y : nth_error l k = Some x -> nth_error l' k = Some y -> nth_error (combine l l') k = Some (x, y).
Proof. revert l l'; induction k as [|k IH]; intros [|a l] [|b l']; cbn; try discriminate; [congruence|apply IH]. Qed.
Lemma lows_at a k c : nth_error low_rows k = Some c -> nth_error (lows a) k = Some (ln_eas_linear c a + smoothed (raws a) (i_of a) k).
Proof.
  intros H. assert (k < 239)%nat as L by (rewrite <- low_len; apply nth_error_Some; congruence).
  unfold lows. apply nth_error_map_some with (f := fun '(c, x) => ln_eas_linear c a + x) (x := (c, smoothed (raws a) (i_of a) k)).
  apply combine_nth_error; [exact H|]. apply nth_error_map_some. rewrite (nth_error_nth' _ 0%nat) by (rewrite seq_length; exact L).
  f_equal. apply seq_nth. exact L.
Qed.
Lemma last_low_at : nth_error low_rows 238 = Some last_low. Proof. vm_compute. reflexivity. Qed.
Lemma lows_last a : nth 238 (lows a) 0 = ln_eas_linear last_low a + smoothed (raws a) (i_of a) 238.
Proof. apply nth_error_nth. apply lows_at. exact last_low_at. Qed.
Lemma low_at a k c : nth_error low_rows k = Some c -> nth_error (map Fin (lows a ++ highs a)) k = Some (Fin (ln_eas_linear c a + smoothed (raws a) (i_of a) k)).
Proof.
  intros H. apply nth_error_map_some. rewrite nth_error_app1; [apply lows_at; exact H|].
  rewrite lows_len, <- low_len. apply nth_error_Some. congruence.
Qed.
Lemma high_at a k c : nth_error high_rows k = Some c -> nth_error (map Fin (lows a ++ highs a)) (239 + k) =
  Some (Fin (ln_eas_linear last_low a + smoothed (raws a) (i_of a) 238 - PI * kappa_of (e_v a) * (Q2R (ba19_freq_hz c) - Q2R (ba19_freq_hz last_low)))).
Proof.
  intros H. apply nth_error_map_some. rewrite nth_error_app2 by (rewrite lows_len; lia). rewrite lows_len. replace (239 + k - 239)%nat with k by lia.
  unfold highs. rewrite (nth_error_map_some _ _ _ _ H), lows_last. reflexivity.
Qed.
Lemma all_len a : List.length (map Fin (lows a ++ highs a)) = 301%nat.
Proof. rewrite map_length, app_length, lows_len. unfold highs. rewrite map_length, high_len. reflexivity. Qed.
Lemma coeff_len : List.length ba19_coeff = 301%nat. Proof. vm_compute. reflexivity. Qed.

(** The non-linear term. *)
Lemma raw_nonpos a c : In c low_rows -> raw_nl a c <= 0.
Proof.
  intros Hc. pose proof (row_bounds c Hc) as B. pose proof (bf3 c B) as F3. pose proof (bf4 c B) as F4. pose proof (bf5 c B) as F5. unfold raw_nl.
  assert (exp (Q2R (ba19_f5 c) * (760 - 360)) <= exp (Q2R (ba19_f5 c) * (Rmin (e_v a) 760 - 360))).
  { apply exp_le_mono, Rmult_le_compat_neg_l; [lra|]. pose proof (Rmin_r (e_v a) 760). lra. }
  assert (0 <= ln ((exp (1.238 + 0.846 * ln_eas_5hz_rock a) + Q2R (ba19_f3 c)) / Q2R (ba19_f3 c))).
  { apply ln_nonneg. apply Rmult_le_reg_r with (Q2R (ba19_f3 c)); [exact F3|]. unfold Rdiv. rewrite Rmult_assoc, Rinv_l by lra.
    pose proof (exp_pos (1.238 + 0.846 * ln_eas_5hz_rock a)). lra. }
  generalize dependent (ln ((exp (1.238 + 0.846 * ln_eas_5hz_rock a) + Q2R (ba19_f3 c)) / Q2R (ba19_f3 c))). intros L HL.
  generalize dependent (exp (Q2R (ba19_f5 c) * (760 - 360))). generalize (exp (Q2R (ba19_f5 c) * (Rmin (e_v a) 760 - 360))). intros x y Hxy.
  assert (Q2R (ba19_f4 c) * (x - y) <= 0) by nra. nra.
Qed.
Lemma raw_zero a c : 760 <= e_v a -> raw_nl a c = 0.
Proof. intros H. unfold raw_nl. rewrite Rmin_right by lra. lra. Qed.
Lemma raws_in a k : (k < 239)%nat -> exists c, In c low_rows /\ nth k (raws a) 0 = raw_nl a c.
Proof.
  intros H. destruct (nth_error low_rows k) as [c|] eqn:E; [|apply nth_error_None in E; rewrite low_len in E; lia].
  exists c. split; [apply nth_error_In with k; exact E|]. apply nth_error_nth, nth_error_map_some. exact E.
Qed.
Lemma raws_nonpos a k : nth k (raws a) 0 <= 0.
Proof.
  destruct (Nat.lt_ge_cases k 239) as [H|H]; [|rewrite nth_overflow by (rewrite raws_len; exact H); lra].
  destruct (raws_in a k H) as (c & Hc & ->). apply raw_nonpos. exact Hc.
Qed.
Lemma padded_range x i lo : (i < List.length x)%nat -> (forall k, (k < List.length x)%nat -> lo <= nth k x 0 <= 0) -> lo <= 0 -> forall k, lo <= padded x i k <= 0.
Proof.
  intros Hi H Hlo k. unfold padded, flat. destruct (k <? 3)%nat; [lra|]. destruct (Nat.ltb_spec (k - 3) (List.length x)); [|lra].
  destruct (k - 3 <=? i)%nat; apply H; lia.
Qed.
Lemma smoothed_range x i lo : (i < List.length x)%nat -> (forall k, (k < List.length x)%nat -> lo <= nth k x 0 <= 0) -> lo <= 0 -> forall k, lo <= smoothed x i k <= 0.
Proof.
  intros Hi H Hlo k. pose proof (padded_range x i lo Hi H Hlo) as P.
  assert (forall j, lo <= mean7 x i j <= 0) as M.
  { intros j. unfold mean7. pose proof (P j). pose proof (P (j + 1)%nat). pose proof (P (j + 2)%nat). pose proof (P (j + 3)%nat).
    pose proof (P (j + 4)%nat). pose proof (P (j + 5)%nat). pose proof (P (j + 6)%nat). lra. }
  unfold smoothed. destruct (k <? _)%nat; apply M.
Qed.
Lemma nl_range a k : nth (i_of a) (raws a) 0 <= smoothed (raws a) (i_of a) k <= 0.
Proof.
  destruct (i_of_min a) as (L & M & _). apply smoothed_range; [exact L| |apply raws_nonpos].
  intros j Hj. split; [apply M; exact Hj|apply raws_nonpos].
Qed.
Lemma nl_zero a k : 760 <= e_v a -> smoothed (raws a) (i_of a) k = 0.
Proof.
  intros H. destruct (i_of_min a) as (L & _). rewrite raws_len in L. pose proof (nl_range a k) as R.
  destruct (raws_in a (i_of a) L) as (c & _ & E). rewrite E, raw_zero in R by exact H. lra.
Qed.

(** Magnitude and distance. *)
Lemma cosh_le_exp x y : x <= y -> cosh y <= exp (y - x) * cosh x.
Proof.
  intros H. unfold cosh. replace (exp (y - x) * ((exp x + exp (- x)) / 2)) with ((exp (y - x) * exp x + exp (y - x) * exp (- x)) / 2) by lra.
  rewrite <- !exp_plus. replace (y - x + x) with y by ring. assert (exp (- y) <= exp (y - x + - x)) by (apply exp_le_mono; lra). lra.
Qed.
Lemma path_mag c m m' r : In c low_rows -> 0 <= r -> m <= m' -> t_path c m r - 0.91 * (m' - m) <= t_path c m' r.
Proof.
  intros Hc Hr Hm. pose proof (row_bounds c Hc) as B. destruct (b6 c B) as [B6 B6']. destruct (b5 c B) as [B5 _]. unfold t_path. rewrite (b4 c B).
  set (x := cell (ba19_c6 c) * Rmax (m - cell (ba19_chm c)) 0). set (y := cell (ba19_c6 c) * Rmax (m' - cell (ba19_chm c)) 0).
  assert (0 <= Rmax (m' - cell (ba19_chm c)) 0 - Rmax (m - cell (ba19_chm c)) 0 <= m' - m).
  { unfold Rmax. destruct (Rle_dec (m - cell (ba19_chm c)) 0), (Rle_dec (m' - cell (ba19_chm c)) 0); lra. }
  assert (x <= y /\ y - x <= 0.489 * (m' - m)) as [X1 X2] by (unfold x, y; nra).
  pose proof (cosh_ge1 x). pose proof (cosh_ge1 y). pose proof (cosh_le_exp x y X1). assert (1 <= exp (y - x)) by (apply exp_ge_1; lra).
  assert (ln (r + cell (ba19_c5 c) * cosh y) <= ln (r + cell (ba19_c5 c) * cosh x) + (y - x)).
  { rewrite <- (ln_exp (y - x)) at 1. rewrite <- ln_mult by (try apply exp_pos; nra). apply ln_le_mono; [nra|].
    generalize dependent (cosh x). generalize dependent (cosh y). generalize dependent (exp (y - x)). intros E HE cy Hy cx Hx Hxy.
    assert (cell (ba19_c5 c) * cy <= cell (ba19_c5 c) * (E * cx)) by (apply Rmult_le_compat_l; lra). nra. }
  lra.
Qed.
Lemma mag_mag c m m' : In c low_rows -> m <= m' -> t_mag c m + 1.27 * (m' - m) <= t_mag c m'.
Proof.
  intros Hc Hm. pose proof (row_bounds c Hc) as B. pose proof (b23 c B). pose proof (bn c B). unfold t_mag. rewrite (b2 c B) in *.
  assert (ln (1 + exp (cell (ba19_cn c) * (cell (ba19_cM c) - m'))) <= ln (1 + exp (cell (ba19_cn c) * (cell (ba19_cM c) - m)))).
  { apply ln_le_mono; [pose proof (exp_pos (cell (ba19_cn c) * (cell (ba19_cM c) - m'))); lra|]. apply Rplus_le_compat_l, exp_le_mono. nra. }
  assert ((1.27 - cell (ba19_c3 c)) / cell (ba19_cn c) <= 0) by (apply Rmult_le_reg_r with (cell (ba19_cn c)); [lra|]; unfold Rdiv; rewrite Rmult_assoc, Rinv_l; lra).
  nra.
Qed.
Lemma h_bound c m : In c low_rows -> m <= 8.5 -> cell (ba19_c5 c) * cosh (cell (ba19_c6 c) * Rmax (m - cell (ba19_chm c)) 0) < 70.
Proof.
  intros Hc Hm. pose proof (row_bounds c Hc) as B. destruct (b6 c B) as [B6 B6']. destruct (b5 c B) as [B5 B5']. destruct (bh c B) as [Bh _].
  assert (0 <= Rmax (m - cell (ba19_chm c)) 0 <= 5.5) by (unfold Rmax; destruct (Rle_dec (m - cell (ba19_chm c)) 0); lra).
  assert (cosh (cell (ba19_c6 c) * Rmax (m - cell (ba19_chm c)) 0) <= cosh 2.7) by (apply cosh_le_mono; nra).
  assert (cosh 2.7 < 9) by (unfold cosh; clear; interval with (i_prec 40)).
  pose proof (cosh_ge1 (cell (ba19_c6 c) * Rmax (m - cell (ba19_chm c)) 0)). nra.
Qed.
Lemma div_lt_div a b A B : 0 < A -> 0 < B -> a * B < b * A -> a / A < b / B.
Proof. intros HA HB H. apply Rmult_lt_reg_r with (A * B); [nra|]. replace (a / A * (A * B)) with (a * B) by (field; lra). replace (b / B * (A * B)) with (b * A) by (field; lra). exact H. Qed.
Lemma path_dist c m r r' : In c low_rows -> m <= 8.5 -> 0 <= r -> r < r' -> t_path c m r' < t_path c m r.
Proof.
  intros Hc Hm Hr Hrr. pose proof (row_bounds c Hc) as B. pose proof (h_bound c m Hc Hm) as Hh. unfold t_path.
  rewrite (b4 c B). pose proof (b7 c B) as B7. destruct (b5 c B) as [B5 _].
  pose proof (cosh_ge1 (cell (ba19_c6 c) * Rmax (m - cell (ba19_chm c)) 0)) as C1.
  set (h := cell (ba19_c5 c) * cosh (cell (ba19_c6 c) * Rmax (m - cell (ba19_chm c)) 0)) in *. assert (6 < h) by (unfold h; nra).
  assert (forall x, 0 <= x -> ln (sqrt (x ^ 2 + 50 ^ 2)) = / 2 * ln (x ^ 2 + 2500)) as S by (intros x Hx; rewrite ln_sqrt by nra; do 2 f_equal; lra).
  rewrite !S by lra.
  apply (decr_by_derive (fun x => -1.86 * ln (x + h) + (-0.5 - -1.86) * (/ 2 * ln (x ^ 2 + 2500)) + cell (ba19_c7 c) * x)
    (fun x => -1.86 / (x + h) + 1.36 * (x / (x ^ 2 + 2500)) + cell (ba19_c7 c)) r r' Hrr).
  - intros x Hx. auto_derive; [split; [lra|split; [nra|exact I]]|]. change (x ^ 2) with (x * (x * 1)). unfold Rdiv. generalize (/ (x * (x * 1) + 2500)) (/ (x + h)). intros; lra.
  - intros x Hx. assert (1.36 * (x / (x ^ 2 + 2500)) < 1.86 / (x + h)); [|lra].
    replace (1.36 * (x / (x ^ 2 + 2500))) with (1.36 * x / (x ^ 2 + 2500)) by (unfold Rdiv; lra). apply div_lt_div; [nra|lra|].
    assert (h * x <= 70 * x) by nra. pose proof (pow2_ge_0 (5 * x - 476)) as Q. replace ((5 * x - 476) ^ 2) with (25 * x ^ 2 - 4760 * x + 226576) in Q by ring.
    replace (x * (x + h)) with (x ^ 2 + h * x) by ring. replace (1.36 * x * (x + h)) with (1.36 * (x ^ 2 + h * x)) by lra.
    assert (x ^ 2 * 0.5 + 4650 > 1.36 * (70 * x)); [|lra]. lra.
Qed.

(** The standard deviation. *)
Definition comp (at4 at6 m : R) : R := Rmin (Rmax (at4 + (at6 - at4) / 2 * (m - 4)) at4) at6.
Lemma comp_rising a b m : a < b -> comp a b m = between_4_and_6 a b m.
Proof.
  intros H. unfold comp, between_4_and_6. destruct (Rle_dec m 4); [|destruct (Rle_dec m 6)].
  - rewrite (Rmax_right m 4) by lra. rewrite (Rmin_left 4 6) by lra. rewrite Rmax_right by nra. rewrite Rmin_left by lra. lra.
  - rewrite (Rmax_left m 4) by lra. rewrite (Rmin_left m 6) by lra. rewrite Rmax_left by nra. rewrite Rmin_left by nra. lra.
  - rewrite (Rmax_left m 4) by lra. rewrite (Rmin_right m 6) by lra. rewrite Rmax_left by nra. rewrite Rmin_right by nra. lra.
Qed.
Lemma comp_falling a b m : b <= a -> comp a b m = b.
Proof. intros H. unfold comp. apply Rmin_right. pose proof (Rmax_r (a + (b - a) / 2 * (m - 4)) a). lra. Qed.
Lemma comp_6 a b m : 6 <= m -> comp a b m = b /\ between_4_and_6 a b m = b.
Proof.
  intros H. unfold between_4_and_6. rewrite Rmax_left, Rmin_right by lra. split; [|lra].
  destruct (Rlt_le_dec a b); [|apply comp_falling; assumption]. rewrite comp_rising by assumption. unfold between_4_and_6. rewrite Rmax_left, Rmin_right by lra. lra.
Qed.
Lemma std_fin c m : In c low_rows -> ba19_ln_std c (Fin m) = Fin (sqrt (comp (Q2R (ba19_s1 c)) (Q2R (ba19_s2 c)) m ^ 2 +
  comp (Q2R (ba19_s3 c)) (Q2R (ba19_s4 c)) m ^ 2 + comp (Q2R (ba19_s5 c)) (Q2R (ba19_s6 c)) m ^ 2 + cell (ba19_c1a c) ^ 2)).
Proof.
  intros H. unfold ba19_ln_std, qf. rewrite (r1a c (row_okI c H)). fcbn. rewrite !fdiv_fin by lra. fcbn. rewrite !fclip_fin. fcbn.
  rewrite fsqrt_fin by nra. apply (f_equal Fin), (f_equal sqrt). unfold comp. ring.
Qed.
Lemma std_nan c m : In c high_rows -> ba19_ln_std c m = NaN.
Proof.
  assert (forallb (fun c => match ba19_c1a c with None => true | _ => false end) high_rows = true) as F by (vm_compute; reflexivity).
  intros H. rewrite forallb_forall in F. specialize (F c H). unfold ba19_ln_std. destruct (ba19_c1a c); [discriminate|]. cbn [qo].
  match goal with |- fsqrt (fadd ?x (fsq NaN)) = NaN => generalize x end. intros x. destruct x; reflexivity.
Qed.
