(** * Proofs for Pinilla-Ramos et al. (2023) *)
From Coquelicot Require Import Coquelicot.
From Interval Require Import Tactic.
From Coq Require Import List.
From Verif Require Import M_pr23 FrameworkProofs Anal Nga Spec_hkr14 Spec_pr23 P_hkr14 Cont Cont1.
Open Scope R_scope.
Open Scope string_scope.
Open Scope list_scope.

Lemma bnum_lt a b : bnum (fltb (Fin a) (Fin b)) = Fin (if Rlt_dec a b then 1 else 0).
Proof. cbn [fltb]. unfold Rltb. destruct (Rlt_dec a b); reflexivity. Qed.
Lemma bnum_le a b : bnum (fleb (Fin a) (Fin b)) = Fin (if Rle_dec a b then 1 else 0).
Proof. cbn [fleb]. unfold Rleb. destruct (Rle_dec a b); reflexivity. Qed.
Ltac decs := repeat match goal with |- context [Rle_dec ?x ?y] => destruct (Rle_dec x y) | |- context [Rlt_dec ?x ?y] => destruct (Rlt_dec x y) end.

Lemma slope_fin r : pr23_c2 (Fin r) = Fin (slope23 r).
Proof.
  unfold pr23_c2. rewrite !bnum_lt, !bnum_le. fcbn. rewrite !fdiv_fin by lra. fcbn. apply (f_equal Fin). unfold slope23. decs; lra.
Qed.
Lemma source_fin m r : pr23_source (Fin m) (Fin r) = Fin (source23 m r).
Proof.
  unfold pr23_source. rewrite slope_fin, bnum_lt, bnum_le. fcbn. rewrite !fpowf_fin by lra. fcbn. apply (f_equal Fin). unfold source23. decs; lra.
Qed.
Lemma path_fin r : pr23_path (Fin r) = Fin (path23 r).
Proof. unfold pr23_path. rewrite !bnum_lt, !bnum_le. fcbn. apply (f_equal Fin). unfold path23. decs; lra. Qed.
Lemma ln1900 : ln 1900 < ln 2000. Proof. apply ln_increasing; lra. Qed.
Lemma ln275 : ln 200 < ln 275. Proof. apply ln_increasing; lra. Qed.
Lemma soft_fin v : 0 < v -> pr23_sigma_vs30 (Fin v) = Fin (soft23 v).
Proof.
  intros Hv. pose proof ln1900. pose proof ln275. unfold pr23_sigma_vs30.
  replace (fmul (Fin 2000) (Fin 0.95)) with (Fin 1900) by (cbn [fmul]; apply (f_equal Fin); lra). rewrite !flog_fin by lra. rewrite !bnum_lt, !bnum_le. fcbn. rewrite !fdiv_fin by lra. fcbn. apply (f_equal Fin).
  unfold soft23. replace (1.11 - 0.565) with 0.545 by lra. unfold Rdiv. decs; lra.
Qed.
Lemma site_fin v : 0 < v -> pr23_site (Fin v) = Fin (site23 v).
Proof.
  intros Hv. unfold pr23_site. rewrite soft_fin by exact Hv. rewrite fdiv_fin by lra. rewrite flog_fin by (apply Rdiv_lt_0_compat; lra). fcbn.
  apply (f_equal Fin). unfold site23. replace (ln (2000 / v)) with (- ln (v / 2000)); [lra|].
  unfold Rdiv. rewrite !ln_mult, !ln_Rinv by (try apply Rinv_0_lt_compat; lra). lra.
Qed.
Lemma median_fin a : 0 < q_v a -> pr23_median (Fin (q_m a)) (Fin (q_r a)) (Fin (q_v a)) = Fin (median23 a).
Proof. intros H. unfold pr23_median. rewrite source_fin, path_fin, site_fin by exact H. reflexivity. Qed.
Lemma sigma_fin a : 0 < q_v a -> pr23_sigma (Fin (q_m a)) (Fin (q_r a)) (Fin (q_v a)) = Fin (sigma23 a).
Proof.
  intros H. unfold pr23_sigma. rewrite (fdiv_fin 200) by lra. rewrite fpow_fin by (apply Rdiv_lt_0_compat; lra). rewrite fdiv_fin by lra. fcbn.
  apply (f_equal Fin). unfold sigma23. lra.
Qed.

(** Ranges *)
Lemma slope_range r : 0 <= r -> 0.41 <= slope23 r.
Proof. intros H. unfold slope23. decs; lra. Qed.
Lemma slope_mono r r' : r <= r' -> slope23 r <= slope23 r'.
Proof. intros H. unfold slope23. decs; lra. Qed.
Lemma pow10 x y : x <= y -> Rpower 10 x <= Rpower 10 y.
Proof. intros H. unfold Rpower. apply exp_le_mono. pose proof ln10_pos. nra. Qed.
Lemma pow10_lt x y : x < y -> Rpower 10 x < Rpower 10 y.
Proof. intros H. unfold Rpower. apply exp_increasing. pose proof ln10_pos. nra. Qed.
Lemma source_pos m r : 0 < source23 m r.
Proof. unfold source23. apply Rmult_lt_0_compat; [lra|apply Rpower_pos]. Qed.
Lemma source_mag m m' r : 0 <= r -> m < m' -> source23 m r < source23 m' r.
Proof.
  intros Hr Hm. pose proof (slope_range r Hr). unfold source23. apply Rmult_lt_compat_l; [lra|]. apply pow10_lt.
  destruct (Rlt_dec m 6.75), (Rlt_dec m' 6.75); nra.
Qed.
Lemma source_dist m r r' : r <= r' -> source23 m r <= source23 m r'.
Proof.
  intros H. pose proof (slope_mono r r' H). unfold source23. apply Rmult_le_compat_l; [lra|]. apply pow10. destruct (Rlt_dec m 6.75); nra.
Qed.
Lemma path_mono r r' : r < r' -> path23 r < path23 r'.
Proof. intros H. unfold path23. decs; lra. Qed.
Lemma path_nonneg r : 0 <= r -> 0 <= path23 r.
Proof. intros H. unfold path23. decs; lra. Qed.
Lemma soft_mono v v' : 0 < v -> v <= v' -> soft23 v' <= soft23 v.
Proof.
  intros H0 H. pose proof ln1900 as A. pose proof ln275 as B. pose proof (ln_le_mono v v' H0 H) as L.
  assert (forall x, 0 < x -> x < 275 -> ln x < ln 275) as X1 by (intros; apply ln_increasing; lra).
  assert (forall x, 200 <= x -> ln 200 <= ln x) as X2 by (intros; apply ln_le_mono; lra).
  assert (forall x, 0 < x -> x < 2000 -> ln x < ln 2000) as X3 by (intros; apply ln_increasing; lra).
  assert (forall x, 1900 <= x -> ln 1900 <= ln x) as X4 by (intros; apply ln_le_mono; lra).
  assert (forall x, 200 <= x < 275 -> 0 <= (ln 275 - ln x) / (ln 275 - ln 200) <= 1) as Y1.
  { intros x Hx. specialize (X1 x ltac:(lra) ltac:(lra)). specialize (X2 x ltac:(lra)).
    split; [apply Rmult_le_pos; [lra|left; apply Rinv_0_lt_compat; lra]|]. apply Rmult_le_reg_r with (ln 275 - ln 200); [lra|]. unfold Rdiv. rewrite Rmult_assoc, Rinv_l; lra. }
  assert (forall x, 1900 <= x < 2000 -> 0 <= (ln 2000 - ln x) / (ln 2000 - ln 1900) <= 1) as Y2.
  { intros x Hx. specialize (X3 x ltac:(lra) ltac:(lra)). specialize (X4 x ltac:(lra)).
    split; [apply Rmult_le_pos; [lra|left; apply Rinv_0_lt_compat; lra]|]. apply Rmult_le_reg_r with (ln 2000 - ln 1900); [lra|]. unfold Rdiv. rewrite Rmult_assoc, Rinv_l; lra. }
  assert ((ln 275 - ln v') / (ln 275 - ln 200) <= (ln 275 - ln v) / (ln 275 - ln 200)) as Z1 by (apply Rmult_le_compat_r; [left; apply Rinv_0_lt_compat; lra|lra]).
  assert ((ln 2000 - ln v') / (ln 2000 - ln 1900) <= (ln 2000 - ln v) / (ln 2000 - ln 1900)) as Z2 by (apply Rmult_le_compat_r; [left; apply Rinv_0_lt_compat; lra|lra]).
  unfold soft23. replace (0.545 * (ln 275 - ln v) / (ln 275 - ln 200)) with (0.545 * ((ln 275 - ln v) / (ln 275 - ln 200))) by (unfold Rdiv; lra).
  replace (0.545 * (ln 275 - ln v') / (ln 275 - ln 200)) with (0.545 * ((ln 275 - ln v') / (ln 275 - ln 200))) by (unfold Rdiv; lra).
  replace (0.565 * (ln 2000 - ln v) / (ln 2000 - ln 1900)) with (0.565 * ((ln 2000 - ln v) / (ln 2000 - ln 1900))) by (unfold Rdiv; lra).
  replace (0.565 * (ln 2000 - ln v') / (ln 2000 - ln 1900)) with (0.565 * ((ln 2000 - ln v') / (ln 2000 - ln 1900))) by (unfold Rdiv; lra).
  pose proof (Y1 v). pose proof (Y1 v'). pose proof (Y2 v). pose proof (Y2 v'). decs; lra.
Qed.
Lemma site_nonneg v : 0 < v <= 2000 -> 0 <= site23 v.
Proof.
  intros H. unfold site23. apply Rmult_le_pos; [|left; apply exp_pos]. apply Rmult_le_pos; [lra|]. apply ln_nonneg.
  apply Rmult_le_reg_r with v; [lra|]. unfold Rdiv. rewrite Rmult_assoc, Rinv_l; lra.
Qed.
Lemma site_mono v v' : 0 < v -> v < v' -> v' <= 2000 -> site23 v' < site23 v.
Proof.
  intros H0 H H1. pose proof (soft_mono v v' H0 ltac:(lra)) as S. unfold site23.
  assert (ln (2000 / v') < ln (2000 / v)) as L.
  { unfold Rdiv. apply ln_increasing; [apply Rmult_lt_0_compat; [lra|apply Rinv_0_lt_compat; lra]|]. apply Rmult_lt_compat_l; [lra|]. apply Rinv_lt_contravar; nra. }
  assert (0 <= ln (2000 / v')) as P by (apply ln_nonneg, Rmult_le_reg_r with v'; [lra|unfold Rdiv; rewrite Rmult_assoc, Rinv_l; lra]).
  assert (exp (0.278 * soft23 v') <= exp (0.278 * soft23 v)) as E by (apply exp_le_mono; lra).
  pose proof (exp_pos (0.278 * soft23 v')). pose proof (exp_pos (0.278 * soft23 v)). nra.
Qed.
Lemma median_low a : eq23_ok a -> 0.139 < median23 a /\ 0.139 + site23 (q_v a) < median23 a.
Proof.
  intros ((M1 & M2) & (R1 & R2) & (V1 & V2)). pose proof (site_nonneg (q_v a) ltac:(lra)). pose proof (path_nonneg (q_r a) R1). unfold median23.
  assert (0.139 < source23 (q_m a) (q_r a)); [|lra]. pose proof (slope_range (q_r a) R1). unfold source23.
  apply Rlt_le_trans with (3.655 * Rpower 10 (-2.75 * 0.515)); [unfold Rpower; clear; interval with (i_prec 40)|].
  apply Rmult_le_compat_l; [lra|]. apply pow10. destruct (Rlt_dec (q_m a) 6.75); nra.
Qed.
Lemma median_pos a : eq23_ok a -> 0 < median23 a. Proof. intros H. pose proof (median_low a H). lra. Qed.
Lemma sigma_range a : eq23_ok a -> 0.2 < sigma23 a < 0.46 /\ (300 <= q_v a -> sigma23 a < 0.426).
Proof.
  intros ((M1 & M2) & (R1 & R2) & (V1 & V2)). unfold sigma23.
  replace (0.537 - 0.093 * (q_r a / 100) + 0.0278 * (q_r a / 100) ^ 2 - 0.0372 * q_m a + 0.00179 * q_m a ^ 2 + Rmin (0.0206 * Rpower (200 / q_v a) 2.401) 0.0419)
    with (0.537 + (q_r a / 100) * (-0.093 + 0.0278 * (q_r a / 100)) + q_m a * (-0.0372 + 0.00179 * q_m a) + Rmin (0.0206 * Rpower (200 / q_v a) 2.401) 0.0419) by lra.
  assert (forall x, 0 <= x <= 3 -> -0.1 <= x * (-0.093 + 0.0278 * x) <= 0) as X.
  { clear. intros x Hx. split; [interval with (i_prec 40, i_bisect x)|]. replace 0 with (x * 0) by ring. apply Rmult_le_compat_l; lra. }
  assert (forall m, 4 <= m <= 8 -> -0.2 <= m * (-0.0372 + 0.00179 * m) <= -0.1201) as Y.
  { clear. intros m Hm. split; interval with (i_prec 40, i_bisect m, i_autodiff m). }
  specialize (X (q_r a / 100) ltac:(lra)). specialize (Y (q_m a) ltac:(lra)). pose proof (Rmin_r (0.0206 * Rpower (200 / q_v a) 2.401) 0.0419) as Z1.
  assert (0 < Rmin (0.0206 * Rpower (200 / q_v a) 2.401) 0.0419) as Z2 by (apply Rmin_glb_lt; [apply Rmult_lt_0_compat; [lra|apply Rpower_pos]|lra]).
  split; [lra|]. intros Hv. pose proof (Rmin_l (0.0206 * Rpower (200 / q_v a) 2.401) 0.0419) as Z3.
  assert (Rpower (200 / q_v a) 2.401 <= Rpower (2 / 3) 2.401) as P.
  { apply Rle_Rpower_l; [lra|]. split; [apply Rdiv_lt_0_compat; lra|]. apply Rmult_le_reg_r with (q_v a); [lra|]. unfold Rdiv at 1. rewrite Rmult_assoc, Rinv_l; lra. }
  assert (Rpower (2 / 3) 2.401 < 0.38) by (unfold Rpower; clear; interval with (i_prec 40)). lra.
Qed.

(** ** Construction and evaluation *)
Definition pr23_start (a : eq23) : scen := Scen [("mag", PNum (Fin (q_m a))); ("dist_rup", PNum (Fin (q_r a))); ("v_s30", PNum (Fin (q_v a)))] [].
Lemma pr23_init src a : eq23_gives src a -> result (model_init pr23_params src) = Ok (pr23_start a).
Proof.
  intros (G1 & G2 & G3). rewrite model_init_result' by reflexivity. unfold has_num in *.
  let x := eval cbv [pr23_params NumP] in pr23_params in change pr23_params with x. run_checks. reflexivity.
Qed.
Lemma pr23_eval_ok a e : pr23_eval (pr23_start a) e = ret (pr23_calc (Fin (q_m a)) (Fin (q_r a)) (Fin (q_v a)) e).
Proof.
  unfold pr23_eval, pr23_start. rewrite (num_hit _ "mag" (Fin (q_m a))), bind_ret_l by reflexivity.
  rewrite (num_hit _ "dist_rup" (Fin (q_r a))), bind_ret_l by reflexivity. rewrite (num_hit _ "v_s30" (Fin (q_v a))), bind_ret_l by reflexivity. reflexivity.
Qed.
Lemma pr23_make src a : eq23_gives src a -> result (pr23 src) = Ok (Pr23 (pr23_start a) (pr23_calc (Fin (q_m a)) (Fin (q_r a)) (Fin (q_v a)) (Fin 0.75))).
Proof. intros G. unfold pr23. rewrite result_bind, (pr23_init src a G), pr23_eval_ok, bind_ret_l. reflexivity. Qed.
Definition near75 (e : R) : Prop := Rabs (e - 0.75) <= 1 / 10 ^ 8 + 1 / 10 ^ 5 * 0.75.
Lemma isclose75 e : np_isclose (Fin e) (Fin 0.75) = true <-> near75 e.
Proof. unfold near75. cbn [np_isclose]. rewrite (Rabs_right 0.75) by lra. destruct (Rleb_spec (Rabs (e - 0.75)) (1 / 10 ^ 8 + 1 / 10 ^ 5 * 0.75)); split; intros; try reflexivity; try assumption; try discriminate; lra. Qed.
Lemma near75_refl : near75 0.75. Proof. unfold near75. rewrite Rminus_eq_0, Rabs_R0. lra. Qed.
Lemma m03_gt a : eq23_ok a -> 0.55 < Rpower (median23 a) 0.3.
Proof.
  intros H. destruct (median_low a H) as (L & _). apply Rlt_le_trans with (Rpower 0.139 0.3); [unfold Rpower; clear; interval with (i_prec 40)|].
  apply Rle_Rpower_l; lra.
Qed.
Lemma base_fin a e : eq23_ok a -> near75 e -> pr23_calc (Fin (q_m a)) (Fin (q_r a)) (Fin (q_v a)) (Fin e) =
  (Fin (median23 a), Fin (plus23 (median23 a) (sigma23 a)), Fin (minus23 (median23 a) (sigma23 a))).
Proof.
  intros K N. unfold pr23_calc. rewrite (proj2 (isclose75 e) N). pose proof K as (_ & _ & K3). rewrite median_fin, sigma_fin by lra.
  pose proof (median_pos a K). pose proof (m03_gt a K). destruct (sigma_range a K) as (S & _).
  rewrite (fpow_fin (median23 a)) by assumption. fcbn. rewrite !fpow_fin by lra. reflexivity.
Qed.
Lemma power_le_back x y p : 0 < p -> 0 < x -> x <= Rpower y p -> 0 < y -> Rpower x (1 / p) <= y.
Proof.
  intros Hp Hx H Hy. replace y with (Rpower (Rpower y p) (1 / p)); [apply Rle_Rpower_l; [apply Rlt_le, Rdiv_lt_0_compat; lra|split; assumption]|].
  rewrite Rpower_mult. replace (p * (1 / p)) with 1 by (field; lra). apply Rpower_1; exact Hy.
Qed.
Lemma power_lt_mono x y p : 0 < p -> 0 < x -> x < y -> Rpower x p < Rpower y p.
Proof. intros Hp Hx H. unfold Rpower. apply exp_increasing, Rmult_lt_compat_l; [exact Hp|]. apply ln_increasing; assumption. Qed.
Lemma power_back y p : 0 < p -> 0 < y -> Rpower (Rpower y p) (1 / p) = y.
Proof. intros Hp Hy. rewrite Rpower_mult. replace (p * (1 / p)) with 1 by (field; lra). apply Rpower_1; exact Hy. Qed.
Lemma plus_gt med s : 0 < med -> 0 < s -> med < plus23 med s.
Proof. intros H Hs. unfold plus23. rewrite <- (power_back med 0.3) at 1 by lra. apply power_lt_mono; [lra|apply Rpower_pos|lra]. Qed.
Lemma minus_lt med s : 0 < med -> 0 < s -> s < Rpower med 0.3 -> 0 < minus23 med s < med.
Proof.
  intros H Hs Hm. split; [apply Rpower_pos|]. unfold minus23. rewrite <- (power_back med 0.3) at 2 by lra. apply power_lt_mono; lra.
Qed.

(** ** Other energy ratios *)
Definition x75 : ratio23 := Ratio23 0.75 2 0 0 0 0.
Definition ratio_of (c : pr23_row) : ratio23 :=
  Ratio23 (Q2R (p_energy c)) (Q2R (p_cmed c) + Q2R (p_a0 c)) (Q2R (p_r1x c)) (Q2R (p_v1x c)) (Q2R (p_std_c c)) (Q2R (p_r c)).
Lemma ratio_eq a b : x_e a = x_e b -> x_c a = x_c b -> x_r a = x_r b -> x_v a = x_v b -> x_s a = x_s b -> x_rho a = x_rho b -> a = b.
Proof. destruct a, b; cbn. congruence. Qed.
Definition order23 : list ratio23 := firstn 13 ratios23 ++ x75 :: skipn 13 ratios23.
Lemma rows_are : map ratio_of (tl pr23_table) = order23.
Proof.
  unfold order23, ratios23, pr23_table. cbn [firstn skipn app tl map]. repeat apply f_equal2; try reflexivity;
  apply ratio_eq; unfold ratio_of; cbn [x_e x_c x_r x_v x_s x_rho p_energy p_cmed p_a0 p_r1x p_v1x p_std_c p_r x75]; unfold Q2R; cbn [Qnum Qden]; lra.
Qed.
Lemma order_in x : In x order23 <-> x = x75 \/ In x ratios23.
Proof.
  unfold order23. rewrite in_app_iff. cbn [In]. rewrite <- (firstn_skipn 13 ratios23) at 3. rewrite in_app_iff. intuition congruence.
Qed.
Lemma nearest_row e : 0.10 <= e <= 0.95 ->
  exists c, nth (argmin (map (fun c => fabs (qf (p_energy c) - Fin e)%flt) pr23_table)) pr23_table (Pr23Row 0 0 0 0 0 0 0) = c /\
    In (ratio_of c) order23 /\ forall y, In y order23 -> Rabs (x_e (ratio_of c) - e) <= Rabs (x_e y - e).
Proof.
  intros He. replace (map (fun c => fabs (qf (p_energy c) - Fin e)%flt) pr23_table) with (map Fin (map (fun c => Rabs (Q2R (p_energy c) - e)) pr23_table))
    by (rewrite map_map; reflexivity).
  destruct (argmin_spec (map (fun c => Rabs (Q2R (p_energy c) - e)) pr23_table)) as (L & M & _); [discriminate|].
  set (k := argmin _) in *. rewrite map_length in L, M. eexists. split; [reflexivity|].
  set (d := Pr23Row 0 0 0 0 0 0 0).
  assert (forall j, (j < 19)%nat -> nth j (map (fun c => Rabs (Q2R (p_energy c) - e)) pr23_table) 0 = Rabs (Q2R (p_energy (nth j pr23_table d)) - e)) as N.
  { intros j Hj. rewrite (nth_indep _ 0 (Rabs (Q2R (p_energy d) - e))) by (rewrite map_length; exact Hj). apply (map_nth (fun c => Rabs (Q2R (p_energy c) - e))). }
  change (List.length pr23_table) with 19%nat in L, M.
  assert (k <> 0)%nat as K0.
  { intros E. specialize (M 1%nat ltac:(lia)). rewrite !N in M by lia. rewrite E in M. cbn [nth pr23_table p_energy] in M. unfold Q2R in M. cbn [Qnum Qden] in M.
    rewrite (Rabs_left (_ - e)) in M by lra. unfold Rabs in M. destruct (Rcase_abs _) in M; lra. }
  split.
  - rewrite <- rows_are. apply in_map. destruct k as [|k]; [contradiction|]. change (nth (S k) pr23_table d) with (nth k (tl pr23_table) d). apply nth_In. cbn; lia.
  - intros y Hy. rewrite <- rows_are in Hy. apply in_map_iff in Hy as (c & <- & Hc). cbn [ratio_of x_e].
    destruct (In_nth _ _ d Hc) as (j & Hj & <-). specialize (M (S j)). change (List.length (tl pr23_table)) with 18%nat in Hj. specialize (M ltac:(lia)). rewrite !N in M by lia. exact M.
Qed.
Lemma cond_fin a e c : eq23_ok a -> ~ near75 e -> nth (argmin (map (fun c => fabs (qf (p_energy c) - Fin e)%flt) pr23_table)) pr23_table (Pr23Row 0 0 0 0 0 0 0) = c ->
  0 < factor23 (ratio_of c) a -> -1 <= x_rho (ratio_of c) <= 1 ->
  let x := ratio_of c in let M := factor23 x a * median23 a in
  pr23_calc (Fin (q_m a)) (Fin (q_r a)) (Fin (q_v a)) (Fin e) =
  (Fin M, Fin (plus23 M (sigma_cond23 x a)), fpow (Fin (Rpower M 0.3 - sigma_cond23 x a)) (1 / 0.3)).
Proof.
  intros K N E P Rho. cbv zeta. unfold pr23_calc. destruct (np_isclose (Fin e) (Fin 0.75)) eqn:I; [apply isclose75 in I; contradiction|]. rewrite E. pose proof K as (_ & _ & K3).
  rewrite median_fin, sigma_fin by lra. pose proof (median_pos a K) as HM. unfold qf. rewrite fdiv_fin by lra. rewrite flog_fin by (apply Rdiv_lt_0_compat; lra). fcbn.
  change (Q2R (p_cmed c) + Q2R (p_a0 c) + Q2R (p_r1x c) * q_r a + Q2R (p_v1x c) * ln (q_v a / 2000)) with (factor23 (ratio_of c) a).
  assert (0 < factor23 (ratio_of c) a * median23 a) as HP by (apply Rmult_lt_0_compat; assumption).
  rewrite !fpow_fin by assumption. fcbn. set (x := ratio_of c) in *. change (Q2R (p_std_c c)) with (x_s x). change (Q2R (p_r c)) with (x_rho x).
  replace (0.3 - 1) with (-0.7) by lra.
  set (da := Rpower (factor23 x a) 0.3 * sigma23 a). set (dc := Rpower (median23 a) 0.3 * 0.3 * Rpower (factor23 x a) (-0.7) * x_s x).
  replace (da * da + dc * dc + 2 * x_rho x * Rpower (factor23 x a) 0.3 * (Rpower (median23 a) 0.3 * 0.3 * Rpower (factor23 x a) (-0.7)) * sigma23 a * x_s x)
    with (da ^ 2 + dc ^ 2 + 2 * x_rho x * (da * dc)) by (unfold da, dc; lra).
  assert (0 <= da ^ 2 + dc ^ 2 + 2 * x_rho x * (da * dc)) as Q.
  { replace (da ^ 2 + dc ^ 2 + 2 * x_rho x * (da * dc)) with ((da + x_rho x * dc) ^ 2 + (1 - x_rho x) * (1 + x_rho x) * dc ^ 2) by ring.
    pose proof (pow2_ge_0 (da + x_rho x * dc)). pose proof (pow2_ge_0 dc). assert (0 <= (1 - x_rho x) * (1 + x_rho x)) by nra. nra. }
  rewrite fsqrt_fin by exact Q. fcbn. replace (sqrt (da ^ 2 + dc ^ 2 + 2 * x_rho x * (da * dc))) with (sigma_cond23 x a) by reflexivity.
  pose proof (sqrt_pos (da ^ 2 + dc ^ 2 + 2 * x_rho x * (da * dc))) as SP. change (sqrt _) with (sigma_cond23 x a) in SP.
  rewrite (fpow_fin (_ + _)) by (pose proof (Rpower_pos (factor23 x a * median23 a) 0.3); lra). reflexivity.
Qed.
Lemma ln_range a : eq23_ok a -> -2.5904 <= ln (q_v a / 2000) <= 0 /\ (q_v a <= 300 -> ln (q_v a / 2000) <= -1.897) /\ (300 <= q_v a -> -1.8972 <= ln (q_v a / 2000)).
Proof.
  intros (_ & _ & V). split; [split|split; intros Hv].
  - apply Rle_trans with (ln (150 / 2000)); [clear; interval with (i_prec 40)|apply ln_le_mono; lra].
  - apply ln_nonpos. lra.
  - apply Rle_trans with (ln (300 / 2000)); [apply ln_le_mono; lra|clear; interval with (i_prec 40)].
  - apply Rle_trans with (ln (300 / 2000)); [clear; interval with (i_prec 40)|apply ln_le_mono; lra].
Qed.
Ltac each_ratio H := unfold ratios23 in H; cbn [In] in H; repeat (destruct H as [<-|H]); [..|contradiction].
Lemma factor_pos x a : eq23_ok a -> x = x75 \/ In x ratios23 -> 0.045 < factor23 x a /\ -1 <= x_rho x <= 1 /\ 0 <= x_s x.
Proof.
  intros K H. destruct (ln_range a K) as (L & _). destruct K as (_ & R & _). unfold factor23.
  destruct H as [->|H]; [cbn [x_c x_r x_v x_rho x_s x75]; lra|]. each_ratio H; cbn [x_c x_r x_v x_rho x_s]; lra.
Qed.

(** ** Plus and minus *)
Lemma split_power x a : eq23_ok a -> 0 < factor23 x a ->
  let F := Rpower (factor23 x a) 0.3 * Rpower (median23 a) 0.3 in
  let u := sigma23 a / Rpower (median23 a) 0.3 in let w := 0.3 * x_s x / factor23 x a in
  Rpower (factor23 x a * median23 a) 0.3 = F /\ 0 < F /\ sigma_cond23 x a = sqrt (F ^ 2 * (u ^ 2 + w ^ 2 + 2 * x_rho x * (u * w))).
Proof.
  intros K P. cbv zeta. pose proof (median_pos a K) as HM. pose proof (Rpower_pos (median23 a) 0.3) as M3. pose proof (Rpower_pos (factor23 x a) 0.3) as F3.
  split; [rewrite Rpower_mult_distr by assumption; reflexivity|]. split; [apply Rmult_lt_0_compat; assumption|].
  unfold sigma_cond23. cbv zeta. apply (f_equal sqrt). replace (Rpower (factor23 x a) (-0.7)) with (Rpower (factor23 x a) 0.3 / factor23 x a).
  - generalize dependent (Rpower (median23 a) 0.3). generalize dependent (Rpower (factor23 x a) 0.3). intros F F3 M M3. replace 0.3 with (3 / 10) by lra. field. lra.
  - replace (-0.7) with (0.3 + - (1)) by lra. rewrite Rpower_plus, Rpower_Ropp, Rpower_1 by exact P. reflexivity.
Qed.
Lemma u_range a : eq23_ok a -> let u := sigma23 a / Rpower (median23 a) 0.3 in 0 < u /\ (q_v a <= 300 -> u <= 0.41) /\ (300 <= q_v a -> u <= 0.775).
Proof.
  intros K. cbv zeta. destruct (sigma_range a K) as (S & S'). pose proof (m03_gt a K). split; [apply Rdiv_lt_0_compat; lra|]. split; intros Hv.
  - assert (1.122 < Rpower (median23 a) 0.3).
    { apply Rlt_le_trans with (Rpower 1.5 0.3); [unfold Rpower; clear; interval with (i_prec 40)|]. apply Rle_Rpower_l; [lra|]. split; [lra|].
      destruct (median_low a K) as (_ & L). destruct K as (_ & _ & V). assert (1.37 < site23 (q_v a)); [|lra]. unfold site23.
      assert (0.565 <= soft23 (q_v a)).
      { pose proof (soft_mono (q_v a) 300 ltac:(lra) Hv) as Q. assert (soft23 300 = 0.565) as E by (unfold soft23; decs; lra). lra. }
      apply Rlt_le_trans with (0.619 * ln (2000 / 300) * exp (0.278 * 0.565)); [clear; interval with (i_prec 40)|].
      assert (ln (2000 / 300) <= ln (2000 / q_v a)).
      { apply ln_le_mono; [lra|]. apply Rmult_le_compat_l; [lra|]. apply Rinv_le_contravar; lra. }
      assert (0 < ln (2000 / 300)) by (clear; interval with (i_prec 40)).
      apply Rmult_le_compat; [lra|left; apply exp_pos|lra|apply exp_le_mono; lra]. }
    apply Rmult_le_reg_r with (Rpower (median23 a) 0.3); [lra|]. unfold Rdiv. rewrite Rmult_assoc, Rinv_l by lra. nra.
  - specialize (S' Hv). apply Rmult_le_reg_r with (Rpower (median23 a) 0.3); [lra|]. unfold Rdiv. rewrite Rmult_assoc, Rinv_l by lra. nra.
Qed.
Lemma w_range x a : eq23_ok a -> x = x75 \/ In x (tl ratios23) ->
  0 <= 0.3 * x_s x / factor23 x a /\ (q_v a <= 300 -> 0.3 * x_s x / factor23 x a <= 0.75) /\ (300 <= q_v a -> 0.3 * x_s x / factor23 x a <= 0.47) /\ x_rho x <= 0.21.
Proof.
  intros K H. assert (x = x75 \/ In x ratios23) as H0 by (destruct H as [->|H]; [left; reflexivity|right; right; exact H]).
  destruct (factor_pos x a K H0) as (P & _ & S). split; [apply Rmult_le_pos; [lra|left; apply Rinv_0_lt_compat; lra]|].
  assert ((q_v a <= 300 -> 0.3 * x_s x <= 0.75 * factor23 x a) /\ (300 <= q_v a -> 0.3 * x_s x <= 0.47 * factor23 x a) /\ x_rho x <= 0.21) as (A & B & C).
  { destruct (ln_range a K) as (L & LA & LB). destruct K as (_ & R & _). unfold factor23 in *.
    destruct H as [->|H]; [cbn [x_c x_r x_v x_rho x_s x75] in *; lra|]. unfold ratios23 in H; cbn [tl In] in H; repeat (destruct H as [<-|H]); [..|contradiction];
    cbn [x_c x_r x_v x_rho x_s] in *; (split; [intros Hv; specialize (LA Hv); lra|split; [intros Hv; specialize (LB Hv); lra|lra]]). }
  split; [|split; [|exact C]]; intros Hv; apply Rmult_le_reg_r with (factor23 x a); try lra; unfold Rdiv; rewrite Rmult_assoc, Rinv_l by lra; [specialize (A Hv)|specialize (B Hv)]; lra.
Qed.
Lemma minus_ok x a : eq23_ok a -> x = x75 \/ In x (tl ratios23) -> sigma_cond23 x a < Rpower (factor23 x a * median23 a) 0.3.
Proof.
  intros K H. assert (x = x75 \/ In x ratios23) as H0 by (destruct H as [->|H]; [left; reflexivity|right; right; exact H]).
  destruct (factor_pos x a K H0) as (P & Rho & S). destruct (split_power x a K ltac:(lra)) as (-> & HF & ->).
  destruct (w_range x a K H) as (W0 & WA & WB & R2). destruct (u_range a K) as (U0 & UA & UB).
  set (F := Rpower (factor23 x a) 0.3 * Rpower (median23 a) 0.3) in *.
  generalize dependent (0.3 * x_s x / factor23 x a). intros w W0 WA WB. generalize dependent (sigma23 a / Rpower (median23 a) 0.3). intros u U0 UA UB.
  assert (u ^ 2 + w ^ 2 + 2 * x_rho x * (u * w) < 1) as Q.
  { assert (forall U W, u <= U -> w <= W -> u ^ 2 + w ^ 2 + 2 * x_rho x * (u * w) <= U ^ 2 + W ^ 2 + 0.42 * (U * W)) as G.
    { intros U W HU HW. assert (u ^ 2 <= U ^ 2) by nra. assert (w ^ 2 <= W ^ 2) by nra. assert (0 <= u * w <= U * W) by nra. nra. }
    destruct (Rle_dec (q_v a) 300) as [V|V].
    - specialize (G 0.41 0.75 (UA V) (WA V)). lra.
    - specialize (G 0.775 0.47 (UB ltac:(lra)) (WB ltac:(lra))). lra. }
  rewrite <- (sqrt_pow2 F) at 2 by lra. assert (0 < F ^ 2) as F2 by (apply pow_lt; exact HF). apply sqrt_lt_1_alt.
  split; [|rewrite <- (Rmult_1_r (F ^ 2)) at 2; apply Rmult_lt_compat_l; assumption].
  assert (0 <= u ^ 2 + w ^ 2 + 2 * x_rho x * (u * w)); [|apply Rmult_le_pos; lra].
  replace (u ^ 2 + w ^ 2 + 2 * x_rho x * (u * w)) with ((u + x_rho x * w) ^ 2 + (1 - x_rho x) * (1 + x_rho x) * w ^ 2) by ring.
  pose proof (pow2_ge_0 (u + x_rho x * w)). pose proof (pow2_ge_0 w). assert (0 <= (1 - x_rho x) * (1 + x_rho x)) by nra. nra.
Qed.
Lemma sigma_cond_pos x a : eq23_ok a -> x = x75 \/ In x ratios23 -> 0 < sigma_cond23 x a.
Proof.
  intros K H. destruct (factor_pos x a K H) as (P & _ & S). destruct (split_power x a K ltac:(lra)) as (_ & HF & ->). destruct (u_range a K) as (U0 & _).
  assert (-0.5 <= x_rho x <= 0.5) as Rho by (destruct H as [->|H]; [cbn; lra|each_ratio H; cbn [x_rho]; lra]).
  generalize dependent (0.3 * x_s x / factor23 x a). intros w. generalize dependent (sigma23 a / Rpower (median23 a) 0.3). intros u U0.
  apply sqrt_lt_R0, Rmult_lt_0_compat; [apply pow_lt; exact HF|]. generalize dependent (x_rho x). intros r Rho.
  replace (u ^ 2 + w ^ 2 + 2 * r * (u * w)) with ((r * u + w) ^ 2 + (1 - r) * (1 + r) * u ^ 2) by ring.
  pose proof (pow2_ge_0 (r * u + w)). assert (0 < u ^ 2) by (apply pow_lt; exact U0). assert (0 < (1 - r) * (1 + r)) by nra. nra.
Qed.
Definition x10 : ratio23 := nth 0 ratios23 x75.
Lemma minus_bad a : 4 <= q_m a <= 4.1 -> 0 <= q_r a <= 1 -> 150 <= q_v a <= 155 -> Rpower (factor23 x10 a * median23 a) 0.3 < sigma_cond23 x10 a.
Proof.
  intros M R V. assert (eq23_ok a) as K by (unfold eq23_ok; lra).
  assert (0.045 < factor23 x10 a < 0.0472) as F.
  { split; [apply (factor_pos x10 a K); right; left; reflexivity|]. unfold factor23, x10. cbn [nth ratios23 x_c x_r x_v].
    assert (ln (q_v a / 2000) <= ln (155 / 2000)) by (apply ln_le_mono; lra). assert (ln (155 / 2000) < -2.557) by (clear; interval with (i_prec 40)). lra. }
  destruct (split_power x10 a K ltac:(lra)) as (-> & HF & ->). set (G := Rpower (factor23 x10 a) 0.3 * Rpower (median23 a) 0.3) in *.
  assert (0.99 <= 0.3 * x_s x10 / factor23 x10 a <= 1.04) as W.
  { unfold x10 at 1 3. cbn [nth ratios23 x_s]. split; apply Rmult_le_reg_r with (factor23 x10 a); try lra; unfold Rdiv; rewrite Rmult_assoc, Rinv_l by lra; lra. }
  assert (median23 a < 2.5) as ML.
  { unfold median23. assert (source23 (q_m a) (q_r a) < 0.16).
    { unfold source23. destruct (Rlt_dec (q_m a) 6.75); [|lra]. apply Rle_lt_trans with (3.655 * Rpower 10 (-2.65 * 0.515)); [|unfold Rpower; clear; interval with (i_prec 40)].
      apply Rmult_le_compat_l; [lra|]. apply pow10. lra. }
    assert (path23 (q_r a) < 0.11) by (unfold path23; decs; lra).
    assert (site23 (q_v a) < 2.19); [|lra]. apply Rle_lt_trans with (site23 150).
    - destruct (Req_dec (q_v a) 150) as [->|]; [lra|]. left. apply site_mono; lra.
    - unfold site23. assert (soft23 150 = 1.11) as -> by (unfold soft23; decs; lra). clear; interval with (i_prec 40). }
  assert (0.33 <= sigma23 a / Rpower (median23 a) 0.3 <= 0.41) as U.
  { split; [|apply (u_range a K); lra].
    assert (Rpower (median23 a) 0.3 <= 1.32).
    { apply Rle_trans with (Rpower 2.5 0.3); [apply Rle_Rpower_l; [lra|]; split; [apply median_pos; exact K|lra]|unfold Rpower; clear; interval with (i_prec 40)]. }
    pose proof (m03_gt a K). apply Rmult_le_reg_r with (Rpower (median23 a) 0.3); [lra|]. unfold Rdiv. rewrite Rmult_assoc, Rinv_l by lra.
    assert (0.44 <= sigma23 a); [|nra]. unfold sigma23.
    assert (0.037 <= Rmin (0.0206 * Rpower (200 / q_v a) 2.401) 0.0419).
    { apply Rmin_glb; [|lra]. apply Rle_trans with (0.0206 * Rpower (200 / 155) 2.401); [unfold Rpower; clear; interval with (i_prec 40)|].
      apply Rmult_le_compat_l; [lra|]. apply Rle_Rpower_l; [lra|]. split; [lra|]. apply Rmult_le_compat_l; [lra|]. apply Rinv_le_contravar; lra. }
    assert (-0.001 <= -0.093 * (q_r a / 100)) by lra. pose proof (pow2_ge_0 (q_r a / 100)).
    assert (16 <= q_m a ^ 2) by nra. lra. }
  change (x_rho x10) with (-0.083).
  generalize dependent (0.3 * x_s x10 / factor23 x10 a). intros w W. generalize dependent (sigma23 a / Rpower (median23 a) 0.3). intros u U.
  assert (1 < u ^ 2 + w ^ 2 + 2 * -0.083 * (u * w)) as Q.
  { assert (0.108 <= u ^ 2) by nra. assert (0.98 <= w ^ 2) by nra. assert (u * w <= 0.43) by nra. lra. }
  rewrite <- (sqrt_pow2 G) at 1 by lra. assert (0 < G ^ 2) as G2 by (apply pow_lt; exact HF). apply sqrt_lt_1_alt.
  split; [lra|rewrite <- (Rmult_1_r (G ^ 2)) at 1; apply Rmult_lt_compat_l; assumption].
Qed.
(** Order of the factors. *)
Lemma factor_order a : eq23_ok a -> q_r a <= 140 ->
  forall i j x y, nth_error ratios23 i = Some x -> nth_error ratios23 j = Some y -> (i < j)%nat -> factor23 x a < factor23 y a /\ (x_e x < 0.75 -> factor23 x a < 1) /\ (0.75 < x_e y -> 1 < factor23 y a).
Proof.
  intros K HR. destruct (ln_range a K) as (L & _). destruct K as (_ & R & _).
  assert (forall i x y, nth_error ratios23 i = Some x -> nth_error ratios23 (S i) = Some y -> factor23 x a < factor23 y a) as Step.
  { intros i x y Hx Hy. unfold factor23. do 17 (destruct i as [|i]; [injection Hx as <-; try discriminate Hy; injection Hy as <-; cbn [x_c x_r x_v]; lra|]). destruct i; discriminate Hx. }
  assert (forall n i x y, nth_error ratios23 i = Some x -> nth_error ratios23 (S n + i) = Some y -> factor23 x a < factor23 y a) as Many.
  { induction n as [|n IH]; intros i x y Hx Hy; [apply Step with i; assumption|].
    destruct (nth_error ratios23 (S n + i)) as [z|] eqn:E.
    - apply Rlt_trans with (factor23 z a); [apply IH with i; assumption|]. apply Step with (S n + i)%nat; assumption.
    - apply nth_error_None in E. assert (nth_error ratios23 (S (S n) + i) <> None) as E2 by congruence. apply nth_error_Some in E2. lia. }
  intros i j x y Hx Hy Hij. split; [apply Many with (j - i - 1)%nat i; [exact Hx|replace (S (j - i - 1) + i)%nat with j by lia; exact Hy]|].
  split.
  - clear Hy Step Many. apply nth_error_In in Hx. each_ratio Hx; unfold factor23; cbn [x_e x_c x_r x_v]; intros; lra.
  - clear Hx Step Many. apply nth_error_In in Hy. each_ratio Hy; unfold factor23; cbn [x_e x_c x_r x_v]; intros; lra.
Qed.
(** ** Continuity *)
Lemma slope_cont r0 : continuous slope23 r0.
Proof.
  apply (cext (fun r => 0.41 + 0.0045 * Rmin r 10 + 0.085 / 32 * Rmax (Rmin r 42 - 10) 0 + 0.035 / 158 * Rmax (r - 42) 0)).
  - intros r. unfold slope23, Rmin, Rmax. decs; lra.
  - cont.
Qed.
Lemma source_cont_m r m0 : continuous (fun m => source23 m r) m0.
Proof.
  apply (cext (fun m => 3.655 * exp ((0.515 * Rmin (m - 6.75) 0 + slope23 r * Rmax (m - 6.75) 0) * ln 10))).
  - intros m. unfold source23, Rpower, Rmin, Rmax. destruct (Rlt_dec m 6.75), (Rle_dec (m - 6.75) 0); try lra.
    + do 3 f_equal. lra.
    + replace (m - 6.75) with 0 by lra. do 3 f_equal. lra.
    + do 3 f_equal. lra.
  - cont.
Qed.
Lemma source_cont_r m r0 : continuous (fun r => source23 m r) r0.
Proof.
  unfold source23, Rpower. destruct (Rlt_dec m 6.75); cont. apply slope_cont.
Qed.
Lemma path_cont r0 : continuous path23 r0.
Proof.
  apply (cext (fun r => 0.041 * r + 0.063 * Rmin r 44 + 0.034 * Rmax (Rmin r 130 - 44) 0 + 0.083 * Rmax (r - 130) 0)).
  - intros r. unfold path23, Rmin, Rmax. destruct (Rlt_dec r 44), (Rlt_dec r 130), (Rle_dec r 44), (Rle_dec r 130); decs; lra.
  - cont.
Qed.
Lemma soft_cont v0 : 0 < v0 -> continuous soft23 v0.
Proof.
  intros H0. pose proof ln1900 as A. pose proof ln275 as B.
  apply (cext_near (fun v => 1.11 - 0.545 / (ln 275 - ln 200) * Rmax (Rmin (ln v) (ln 275) - ln 200) 0 - 0.565 / (ln 2000 - ln 1900) * Rmax (Rmin (ln v) (ln 2000) - ln 1900) 0) _ _ v0 H0).
  - intros v Hv. assert (0 < v) as P by (apply Rabs_def2 in Hv; lra).
    assert (forall x y, 0 < x -> x < y -> ln x < ln y) as X by (intros; apply ln_increasing; lra).
    assert (forall x y, 0 < x -> x <= y -> ln x <= ln y) as Y by (intros; apply ln_le_mono; lra).
    pose proof (X 275 1900 ltac:(lra) ltac:(lra)). 
    assert (0.545 / (ln 275 - ln 200) * (ln 275 - ln 200) = 0.545) as E1 by (unfold Rdiv; rewrite Rmult_assoc, Rinv_l; lra).
    assert (0.565 / (ln 2000 - ln 1900) * (ln 2000 - ln 1900) = 0.565) as E2 by (unfold Rdiv; rewrite Rmult_assoc, Rinv_l; lra).
    unfold soft23. replace (0.545 * (ln 275 - ln v) / (ln 275 - ln 200)) with (0.545 / (ln 275 - ln 200) * (ln 275 - ln v)) by (unfold Rdiv; lra).
    replace (0.565 * (ln 2000 - ln v) / (ln 2000 - ln 1900)) with (0.565 / (ln 2000 - ln 1900) * (ln 2000 - ln v)) by (unfold Rdiv; lra).
    generalize dependent (0.545 / (ln 275 - ln 200)). generalize dependent (0.565 / (ln 2000 - ln 1900)). intros k2 E2 k1 E1.
    destruct (Rlt_dec v 200) as [C1|C1]; [|destruct (Rlt_dec v 275) as [C2|C2]; [|destruct (Rlt_dec v 1900) as [C3|C3]; [|destruct (Rlt_dec v 2000) as [C4|C4]]]].
    + pose proof (X v 200 P C1). rewrite (Rmin_left (ln v) (ln 275)), (Rmin_left (ln v) (ln 2000)) by lra. rewrite !Rmax_right by lra. lra.
    + pose proof (X v 275 P C2). pose proof (Y 200 v ltac:(lra) ltac:(lra)). rewrite (Rmin_left (ln v) (ln 275)), (Rmin_left (ln v) (ln 2000)) by lra. rewrite (Rmax_left (ln v - ln 200)), (Rmax_right (ln v - ln 1900)) by lra. lra.
    + pose proof (X v 1900 P C3). pose proof (Y 275 v ltac:(lra) ltac:(lra)). rewrite (Rmin_right (ln v) (ln 275)), (Rmin_left (ln v) (ln 2000)) by lra. rewrite (Rmax_left (ln 275 - ln 200)), (Rmax_right (ln v - ln 1900)) by lra. lra.
    + pose proof (X v 2000 P C4). pose proof (Y 1900 v ltac:(lra) ltac:(lra)). rewrite (Rmin_right (ln v) (ln 275)), (Rmin_left (ln v) (ln 2000)) by lra. rewrite (Rmax_left (ln 275 - ln 200)), (Rmax_left (ln v - ln 1900)) by lra. lra.
    + pose proof (Y 2000 v ltac:(lra) ltac:(lra)). rewrite (Rmin_right (ln v) (ln 275)), (Rmin_right (ln v) (ln 2000)) by lra. rewrite (Rmax_left (ln 275 - ln 200)), (Rmax_left (ln 2000 - ln 1900)) by lra. lra.
  - cont; try exact H0; try lra.
Qed.
Lemma site_cont v0 : 0 < v0 -> continuous site23 v0.
Proof.
  intros H. unfold site23. cont; try lra; [apply Rdiv_lt_0_compat; lra|]. apply soft_cont. exact H.
Qed.
