(** * Proofs for Stafford (2017) *)
From Coquelicot Require Import Coquelicot.
From Interval Require Import Tactic.
From Coq Require Import List.
From Verif Require Import M_pjs17 FrameworkProofs Anal GmmLib Spec_ba18 P_ba18 Spec_pjs17.
Open Scope R_scope.
Open Scope list_scope.

Lemma sig_fin f a b c : 0 < f -> 0 < b -> pjs17_sigmoid (Fin f) (Fin a) (Fin b) (Fin c) = Fin (sigmoid a b c f).
Proof.
  intros Hf Hb. unfold pjs17_sigmoid. rewrite fdiv_fin by lra. rewrite flog_fin by (apply Rdiv_lt_0_compat; assumption). fcbn.
  pose proof (exp_pos (- c * ln (f / b))). rewrite fdiv_fin by lra. reflexivity.
Qed.
Lemma sig_range a b c f : 0 <= a -> 0 <= sigmoid a b c f <= a.
Proof.
  intros Ha. unfold sigmoid. pose proof (exp_pos (- c * ln (f / b))). split.
  - apply Rmult_le_pos; [exact Ha|left; apply Rinv_0_lt_compat; lra].
  - apply Rmult_le_reg_r with (1 + exp (- c * ln (f / b))); [lra|]. unfold Rdiv. rewrite Rmult_assoc, Rinv_l by lra. nra.
Qed.
Lemma sig_range_lt a b c f : 0 < a -> 0 < sigmoid a b c f < a.
Proof.
  intros Ha. unfold sigmoid. pose proof (exp_pos (- c * ln (f / b))). split.
  - apply Rdiv_lt_0_compat; lra.
  - apply Rmult_lt_reg_r with (1 + exp (- c * ln (f / b))); [lra|]. unfold Rdiv. rewrite Rmult_assoc, Rinv_l by lra. nra.
Qed.
Lemma sig_neg a b c f : sigmoid (- a) b c f = - sigmoid a b c f.
Proof. unfold sigmoid, Rdiv. ring. Qed.
Lemma sig_incr a b c f f' : 0 < a -> 0 < b -> 0 < c -> 0 < f -> f < f' -> sigmoid a b c f < sigmoid a b c f'.
Proof.
  intros Ha Hb Hc Hf H. unfold sigmoid. pose proof (exp_pos (- c * ln (f / b))). pose proof (exp_pos (- c * ln (f' / b))).
  apply Rmult_lt_compat_l; [exact Ha|]. apply Rinv_lt_contravar; [apply Rmult_lt_0_compat; lra|]. apply Rplus_lt_compat_l, exp_increasing.
  assert (ln (f / b) < ln (f' / b)); [|nra]. apply ln_increasing; [apply Rdiv_lt_0_compat; lra|]. apply Rmult_lt_compat_r; [apply Rinv_0_lt_compat; lra|exact H].
Qed.
Lemma corner_pos m : 0 < corner m. Proof. apply Rpower_pos. Qed.
Lemma corner_fin m : pjs17_corner (Fin m) = Fin (corner m).
Proof. unfold pjs17_corner. fcbn. rewrite fpowf_fin by lra. reflexivity. Qed.
Lemma gammaE_fin f m : 0 < f -> pjs17_gamma_E (Fin f) (Fin m) = Fin (gammaE (f / corner m)).
Proof.
  intros Hf. pose proof (corner_pos m). unfold pjs17_gamma_E. rewrite corner_fin, fdiv_fin by lra. cbv zeta.
  assert (0 < f / corner m) by (apply Rdiv_lt_0_compat; lra). rewrite sig_fin by lra. rewrite fdiv_fin by lra. rewrite flog_fin by (apply Rdiv_lt_0_compat; lra). reflexivity.
Qed.
Lemma min_pos a b : 0 < a -> 0 < b -> 0 < Rmin a b. Proof. intros. apply Rmin_glb_lt; assumption. Qed.
Lemma between_event_fin f1 f2 m : 0 < f1 -> 0 < f2 ->
  pjs17_between_event (Fin f1) (Fin f2) (Fin m) = Fin (rhoE (gammaE (Rmin f1 f2 / corner m / corner m)) m f1 f2).
Proof.
  intros H1 H2. pose proof (corner_pos m) as C. pose proof (min_pos f1 f2 H1 H2) as P. assert (0 < Rmax f1 f2) as Q by (apply Rlt_le_trans with f1; [exact H1|apply Rmax_l]).
  unfold pjs17_between_event. rewrite corner_fin. fcbn. rewrite !(fdiv_fin _ (corner m)) by lra.
  assert (0 < Rmin f1 f2 / corner m) as P1 by (apply Rdiv_lt_0_compat; lra). assert (0 < Rmax f1 f2 / corner m) as Q1 by (apply Rdiv_lt_0_compat; lra).
  rewrite gammaE_fin by lra. rewrite fdiv_fin by lra. rewrite flog_fin by (apply Rdiv_lt_0_compat; lra). fcbn. apply (f_equal Fin). unfold rhoE. do 3 f_equal. field. lra.
Qed.
Lemma etaA_fin f : 0 < f -> pjs17_eta_A (Fin f) = Fin (etaA f).
Proof. intros H. unfold pjs17_eta_A. rewrite !sig_fin by lra. reflexivity. Qed.
Lemma gammaA_fin f : 0 < f -> pjs17_gamma_A (Fin f) = Fin (gammaA f).
Proof.
  intros H. unfold pjs17_gamma_A. fcbn. assert (0 < Rmin f 10) by (apply min_pos; lra). pose proof (Rmin_r f 10). pose proof (Rmax_r f 10).
  rewrite !(fdiv_fin _ 10) by lra. rewrite flog_fin by (apply Rdiv_lt_0_compat; lra). fcbn. rewrite fdiv_fin by lra. fcbn. apply (f_equal Fin). unfold gammaA. lra.
Qed.
Lemma etaS_fin f : 0 < f -> pjs17_eta_S (Fin f) = Fin (etaS f).
Proof.
  intros H. unfold pjs17_eta_S. fcbn. pose proof (Rmax_r (Rmin f 4) 0.25). pose proof (Rmax_r f 4).
  rewrite !fdiv_fin by lra. rewrite !flog_fin by (apply Rdiv_lt_0_compat; lra). fcbn. apply (f_equal Fin). unfold etaS. lra.
Qed.
Lemma gammaS_fin f : 0 < f -> pjs17_gamma_S (Fin f) = Fin (gammaS f).
Proof. intros H. unfold pjs17_gamma_S. rewrite !sig_fin by lra. reflexivity. Qed.
Lemma sdE_fin f : 0 < f -> pjs17_sigma_E (Fin f) = Fin (sdE f).
Proof. intros H. unfold pjs17_sigma_E. rewrite !sig_fin by lra. reflexivity. Qed.
Lemma sdS_fin f : 0 < f -> pjs17_sigma_S (Fin f) = Fin (sdS f).
Proof. intros H. unfold pjs17_sigma_S. rewrite !sig_fin by lra. reflexivity. Qed.
Lemma sdA_fin f : 0 < f -> pjs17_sigma_A (Fin f) = Fin (sdA f).
Proof. intros H. unfold pjs17_sigma_A. fcbn. pose proof (Rmax_r f 5). rewrite fdiv_fin by lra. rewrite flog_fin by (apply Rdiv_lt_0_compat; lra). fcbn. apply (f_equal Fin). unfold sdA. lra. Qed.
Definition close_dec f1 f2 : {close f1 f2} + {~ close f1 f2} := Rle_dec _ _.
Lemma isclose_dec f1 f2 : np_isclose (Fin f1) (Fin f2) = if close_dec f1 f2 then true else false.
Proof. cbn [np_isclose]. unfold Rleb, close_dec. destruct (Rle_dec _ _); reflexivity. Qed.
Definition val (g : R -> R -> R) (f1 f2 : R) : R := if close_dec f1 f2 then 1 else g f1 f2.
Definition gA (f1 f2 : R) := rho_nugget (etaA (Rmin f1 f2)) (gammaA (Rmin f1 f2)) f1 f2.
Definition gS (f1 f2 : R) := rho_nugget (etaS (Rmin f1 f2)) (gammaS (Rmin f1 f2)) f1 f2.
Lemma nugget_fin eta gamma f1 f2 : 0 < f1 -> 0 < f2 ->
  pjs17_with_nugget (Fin eta) (Fin gamma) (Fin f1) (Fin f2) = Fin (if close_dec f1 f2 then 1 else rho_nugget eta gamma f1 f2).
Proof.
  intros H1 H2. pose proof (min_pos f1 f2 H1 H2) as P. assert (0 < Rmax f1 f2) as Q by (apply Rlt_le_trans with f1; [exact H1|apply Rmax_l]).
  unfold pjs17_with_nugget. rewrite isclose_dec. destruct (close_dec f1 f2); [cbn; reflexivity|]. fcbn. rewrite fdiv_fin by lra.
  rewrite flog_fin by (apply Rdiv_lt_0_compat; lra). fcbn. apply (f_equal Fin). unfold rho_nugget. cbv zeta. reflexivity.
Qed.
Lemma within_fin f1 f2 : 0 < f1 -> 0 < f2 -> pjs17_within_event (Fin f1) (Fin f2) = Fin (val gA f1 f2).
Proof. intros H1 H2. pose proof (min_pos f1 f2 H1 H2). unfold pjs17_within_event. fcbn. rewrite etaA_fin, gammaA_fin, nugget_fin by assumption. reflexivity. Qed.
Lemma site_fin f1 f2 : 0 < f1 -> 0 < f2 -> pjs17_between_site (Fin f1) (Fin f2) = Fin (val gS f1 f2).
Proof. intros H1 H2. pose proof (min_pos f1 f2 H1 H2). unfold pjs17_between_site. fcbn. rewrite etaS_fin, gammaS_fin, nugget_fin by assumption. reflexivity. Qed.
Lemma val_rhoA f1 f2 : rhoA f1 f2 (val gA f1 f2).
Proof. unfold val, rhoA. destruct (close_dec f1 f2); split; intros; try contradiction; reflexivity. Qed.
Lemma val_rhoS f1 f2 : rhoS f1 f2 (val gS f1 f2).
Proof. unfold val, rhoS. destruct (close_dec f1 f2); split; intros; try contradiction; reflexivity. Qed.
Lemma nugget_sym eta gamma f1 f2 : rho_nugget eta gamma f1 f2 = rho_nugget eta gamma f2 f1.
Proof. unfold rho_nugget. rewrite (Rmin_comm f1), (Rmax_comm f1). reflexivity. Qed.
Lemma gA_sym f1 f2 : gA f1 f2 = gA f2 f1. Proof. unfold gA. rewrite nugget_sym, (Rmin_comm f1). reflexivity. Qed.
Lemma gS_sym f1 f2 : gS f1 f2 = gS f2 f1. Proof. unfold gS. rewrite nugget_sym, (Rmin_comm f1). reflexivity. Qed.
Lemma rhoE_sym g m f1 f2 : rhoE g m f1 f2 = rhoE g m f2 f1.
Proof. unfold rhoE. rewrite (Rmin_comm f1), (Rmax_comm f1). reflexivity. Qed.
Lemma close_refl f : close f f. Proof. unfold close. rewrite Rminus_eq_0, Rabs_R0. pose proof (Rabs_pos f). lra. Qed.
Lemma rhoE_refl g m f : 0 < f -> rhoE g m f f = 1.
Proof. intros H. unfold rhoE. rewrite Rmin_left, Rmax_left by lra. replace (f / f) with 1 by (field; lra). rewrite ln_1, Rmult_0_r. apply exp_0. Qed.
(** Standard deviations *)
Lemma sdE_pos f : 0.54 < sdE f < 1.4.
Proof.
  unfold sdE. replace (-0.3309) with (- (0.3309)) by lra. rewrite sig_neg. pose proof (sig_range 0.3309 0.5871 5.4264 f ltac:(lra)). pose proof (sig_range 0.5177 16.357 1.4689 f ltac:(lra)). lra.
Qed.
Lemma sdS_pos f : 0.46 < sdS f < 0.99.
Proof.
  unfold sdS. replace (-0.1495) with (- (0.1495)) by lra. rewrite sig_neg. pose proof (sig_range 0.1495 0.7248 3.6985 f ltac:(lra)). pose proof (sig_range 0.3640 13.457 2.2497 f ltac:(lra)). lra.
Qed.
Lemma sdA_pos f : 0.726 <= sdA f.
Proof. unfold sdA. pose proof (pow2_ge_0 (ln (Rmax f 5 / 5))). lra. Qed.

(** Between events *)
Lemma gammaE_incr x y : 0 < x -> x < y -> gammaE x < gammaE y.
Proof.
  intros Hx H. unfold gammaE. pose proof (sig_incr 0.1275 0.7793 3.0324 x y ltac:(lra) ltac:(lra) ltac:(lra) Hx H).
  assert (ln (x / 0.7793) < ln (y / 0.7793)); [|lra]. apply ln_increasing; [apply Rdiv_lt_0_compat; lra|lra].
Qed.
Lemma gammaE_neg x : 0 < x -> x <= 10 ^ 13 -> gammaE x < 0.
Proof.
  intros Hx H. unfold gammaE. pose proof (sig_range 0.1275 0.7793 3.0324 x ltac:(lra)).
  assert (ln (x / 0.7793) <= ln (10 ^ 13 / 0.7793)) by (apply ln_le_mono; [apply Rdiv_lt_0_compat; lra|lra]).
  assert (ln (10 ^ 13 / 0.7793) < 31) by (clear; interval with (i_prec 40)). lra.
Qed.
Lemma corner_low m : m <= 10 -> 0.0016 <= corner m.
Proof.
  intros H. unfold corner. apply Rle_trans with (Rpower 10 (-2.779)); [unfold Rpower; clear; interval with (i_prec 40)|].
  unfold Rpower. apply exp_le_mono. pose proof ln10_pos. apply Rmult_le_compat_r; lra.
Qed.
Lemma corner_one m : (2.181 < 0.496 * m -> corner m < 1) /\ (0.496 * m < 2.181 -> 1 < corner m).
Proof.
  pose proof ln10_pos. unfold corner, Rpower. split; intros.
  - rewrite <- exp_0. apply exp_increasing. nra.
  - rewrite <- exp_0 at 1. apply exp_increasing. nra.
Qed.
Lemma norm_range f m : 0 < f <= 10 ^ 6 -> m <= 10 -> 0 < f / corner m / corner m <= 10 ^ 13.
Proof.
  intros (H0 & H1) Hm. pose proof (corner_low m Hm) as C. split; [apply Rdiv_lt_0_compat; [apply Rdiv_lt_0_compat; lra|lra]|].
  assert (f / corner m <= 10 ^ 6 * 625) as A.
  { apply Rmult_le_reg_r with (corner m); [lra|]. unfold Rdiv. rewrite Rmult_assoc, Rinv_l by lra. nra. }
  apply Rmult_le_reg_r with (corner m); [lra|]. unfold Rdiv at 1. rewrite Rmult_assoc, Rinv_l by lra. nra.
Qed.
Lemma ratio_ln f1 f2 : 0 < f1 -> f1 < f2 -> 0 < ln (f2 / f1).
Proof. intros H0 H. rewrite <- ln_1. apply ln_increasing; [lra|]. apply Rmult_lt_reg_r with f1; [exact H0|]. unfold Rdiv. rewrite Rmult_assoc, Rinv_l; lra. Qed.
Lemma rhoE_range g m f1 f2 : g < 0 -> 0 < f1 -> f1 < f2 -> 0 < rhoE g m f1 f2 < 1.
Proof.
  intros Hg H0 H. unfold rhoE. split; [apply exp_pos|]. rewrite Rmin_left, Rmax_right by lra. rewrite <- exp_0. apply exp_increasing.
  pose proof (ratio_ln f1 f2 H0 H). assert (0 < f1 / corner m) by (apply Rdiv_lt_0_compat; [lra|apply corner_pos]). 
  assert (0 < f1 / corner m * ln (f2 / f1)) by (apply Rmult_lt_0_compat; lra). rewrite Rmult_assoc. nra.
Qed.
Lemma ratio_mono f1 f2 f3 : 0 < f1 -> 0 < f2 -> f2 < f3 -> ln (f2 / f1) < ln (f3 / f1).
Proof. intros. apply ln_increasing; [apply Rdiv_lt_0_compat; lra|]. apply Rmult_lt_compat_r; [apply Rinv_0_lt_compat; lra|lra]. Qed.
Lemma rhoE_decr g m f1 f2 f3 : g < 0 -> 0 < f1 -> f1 <= f2 -> f2 < f3 -> rhoE g m f1 f3 < rhoE g m f1 f2.
Proof.
  intros Hg H0 H12 H. unfold rhoE. rewrite !Rmin_left, !Rmax_right by lra. apply exp_increasing.
  pose proof (ratio_mono f1 f2 f3 H0 ltac:(lra) H). assert (0 < f1 / corner m) by (apply Rdiv_lt_0_compat; [lra|apply corner_pos]). assert (g * (f1 / corner m) < 0) by nra. nra.
Qed.
Lemma rhoE_gamma g g' m f1 f2 : g < g' -> 0 < f1 -> f1 < f2 -> rhoE g m f1 f2 < rhoE g' m f1 f2.
Proof.
  intros Hg H0 H. unfold rhoE. rewrite !Rmin_left, !Rmax_right by lra. apply exp_increasing.
  pose proof (ratio_ln f1 f2 H0 H). assert (0 < f1 / corner m) by (apply Rdiv_lt_0_compat; [lra|apply corner_pos]).
  apply Rmult_lt_compat_r; [assumption|]. apply Rmult_lt_compat_r; assumption.
Qed.
(** Sites *)
Lemma gammaS_range f : -1 < gammaS f < -0.12.
Proof.
  unfold gammaS. replace (-0.2963) with (- (0.2963)) by lra. rewrite sig_neg. pose proof (sig_range 0.2963 0.3326 5.0078 f ltac:(lra)). pose proof (sig_range 0.5703 2.3973 3.5779 f ltac:(lra)). lra.
Qed.
Lemma etaS_range f : 0 < f <= 70 -> 0 <= etaS f <= 0.32.
Proof.
  intros H. unfold etaS. assert (forall x, 1 <= x -> 0 <= ln x) as L by (intros; apply ln_nonneg; lra).
  destruct (Rle_dec f 4) as [C|C].
  - rewrite (Rmax_right f 4), (Rmin_left f 4) by lra. replace (4 / 4) with 1 by lra. rewrite ln_1.
    assert (0.25 <= Rmax f 0.25 <= 4) by (split; [apply Rmax_r|apply Rmax_lub; lra]).
    pose proof (L (Rmax f 0.25 / 0.25) ltac:(lra)). assert (ln (Rmax f 0.25 / 0.25) <= ln 16) by (apply ln_le_mono; lra).
    assert (ln 16 < 2.8) by (clear; interval with (i_prec 40)). lra.
  - rewrite (Rmax_left f 4), (Rmin_right f 4), (Rmax_left 4 0.25) by lra. replace (4 / 0.25) with 16 by lra.
    pose proof (L (f / 4) ltac:(lra)). assert (ln (f / 4) <= ln (70 / 4)) by (apply ln_le_mono; lra).
    assert (2.77 < ln 16 < 2.8) by (clear; split; interval with (i_prec 40)). assert (ln (70 / 4) < 2.87) by (clear; interval with (i_prec 40)). lra.
Qed.
Lemma nug_parts r : 0 < ln r -> 0 < 1 - exp (- 50 * ln r) < 1 /\ 1 - exp (- 50 * ln r) <= 50 * ln r.
Proof.
  intros H. split; [split|].
  - assert (exp (- 50 * ln r) < 1); [|lra]. rewrite <- exp_0. apply exp_increasing. lra.
  - pose proof (exp_pos (- 50 * ln r)). lra.
  - pose proof (exp_ineq1_le (- 50 * ln r)). lra.
Qed.
Lemma gS_range f1 f2 : 0 < f1 <= 70 -> f1 < f2 -> 0 < gS f1 f2 < 1.
Proof.
  intros H H2. unfold gS, rho_nugget. rewrite Rmin_left, Rmax_right by lra. cbv zeta. pose proof (ratio_ln f1 f2 ltac:(lra) H2) as L.
  destruct (nug_parts _ L) as (N & _). pose proof (etaS_range f1 H) as E. pose proof (gammaS_range f1) as G.
  assert (0 < exp (gammaS f1 * ln (f2 / f1)) < 1) as X by (split; [apply exp_pos|rewrite <- exp_0; apply exp_increasing; nra]).
  generalize dependent (1 - exp (- 50 * ln (f2 / f1))). intros n N. generalize dependent (exp (gammaS f1 * ln (f2 / f1))). intros x X.
  assert (0 < (1 - etaS f1) * x < 1) by nra. nra.
Qed.
Lemma gS_near f1 f2 : 0 < f1 <= 70 -> f1 < f2 -> f2 <= 1.0005 * f1 -> gS f1 f2 < 0.025.
Proof.
  intros H H2 H3. unfold gS, rho_nugget. rewrite Rmin_left, Rmax_right by lra. cbv zeta. pose proof (ratio_ln f1 f2 ltac:(lra) H2) as L.
  destruct (nug_parts _ L) as (N & N2). pose proof (etaS_range f1 H) as E. pose proof (gammaS_range f1) as G.
  assert (0 < exp (gammaS f1 * ln (f2 / f1)) < 1) as X by (split; [apply exp_pos|rewrite <- exp_0; apply exp_increasing; nra]).
  assert (ln (f2 / f1) < 0.0005) as L2.
  { apply Rle_lt_trans with (ln 1.0005); [apply ln_le_mono; [apply Rdiv_lt_0_compat; lra|]|clear; interval with (i_prec 60)].
    apply Rmult_le_reg_r with f1; [lra|]. unfold Rdiv. rewrite Rmult_assoc, Rinv_l; lra. }
  generalize dependent (1 - exp (- 50 * ln (f2 / f1))). intros n N N2. generalize dependent (exp (gammaS f1 * ln (f2 / f1))). intros x X.
  assert (0 < (1 - etaS f1) * x < 1) by nra. nra.
Qed.
(** Within events *)
Lemma etaA_range f : 0 <= etaA f <= 0.7606.
Proof.
  unfold etaA. replace (-0.5094) with (- (0.5094)) by lra. rewrite sig_neg. pose proof (sig_range 0.5094 24.579 2.3518 f ltac:(lra)). pose proof (sig_range 0.7606 0.2993 1.5837 f ltac:(lra)).
  generalize dependent (sigmoid 0.5094 24.579 2.3518 f). generalize dependent (sigmoid 0.7606 0.2993 1.5837 f). intros. nra.
Qed.
Lemma gammaA_low f : 0 < f <= 10 -> 0.9515 <= gammaA f.
Proof.
  intros H. unfold gammaA. rewrite Rmin_left, Rmax_right by lra. replace (10 / 10) with 1 by lra. rewrite ln_1.
  assert (0 <= f / (f + 1.4802 * (1 - f / 10))) by (apply Rmult_le_pos; [lra|left; apply Rinv_0_lt_compat; lra]). lra.
Qed.
Lemma gA_grows f1 f2 f3 : 0 < f1 <= 10 -> f1 < f2 -> f2 < f3 -> 0 < gA f1 f2 < gA f1 f3.
Proof.
  intros H H12 H23. unfold gA, rho_nugget. rewrite !Rmin_left, !Rmax_right by lra. cbv zeta. pose proof (ratio_ln f1 f2 ltac:(lra) H12) as L.
  pose proof (ratio_mono f1 f2 f3 ltac:(lra) ltac:(lra) H23) as L2. pose proof (etaA_range f1) as E. pose proof (gammaA_low f1 H) as G.
  destruct (nug_parts _ L) as (N & _). assert (exp (- 50 * ln (f3 / f1)) < exp (- 50 * ln (f2 / f1))) as N2 by (apply exp_increasing; lra).
  assert (exp (gammaA f1 * ln (f2 / f1)) < exp (gammaA f1 * ln (f3 / f1))) as X by (apply exp_increasing; nra). pose proof (exp_pos (gammaA f1 * ln (f2 / f1))) as X0.
  generalize dependent (exp (- 50 * ln (f2 / f1))). generalize dependent (exp (- 50 * ln (f3 / f1))). generalize dependent (exp (gammaA f1 * ln (f2 / f1))). generalize dependent (exp (gammaA f1 * ln (f3 / f1))).
  intros x3 x2 X X0 n3 n2 N N2. rewrite !Rmult_assoc. split; [repeat apply Rmult_lt_0_compat; lra|]. apply Rmult_lt_compat_l; [lra|]. apply Rle_lt_trans with (x2 * (1 - n3)); [apply Rmult_le_compat_l; lra|apply Rmult_lt_compat_r; lra].
Qed.
Lemma gA_large k f1 f2 : 0 < f1 <= 10 -> 1 < k -> k * f1 <= f2 -> 0.2394 * exp (0.9515 * ln k) * (1 - exp (- 50 * ln k)) <= gA f1 f2.
Proof.
  intros H K H2. assert (k <= f2 / f1) as Q by (apply Rmult_le_reg_r with f1; [lra|]; unfold Rdiv; rewrite Rmult_assoc, Rinv_l; lra).
  assert (f1 < f2) as Hlt by nra. unfold gA, rho_nugget. rewrite !Rmin_left, !Rmax_right by lra. cbv zeta.
  assert (0 < ln k) as L0 by (rewrite <- ln_1; apply ln_increasing; lra). pose proof (ln_le_mono k (f2 / f1) ltac:(lra) Q) as L.
  pose proof (etaA_range f1) as E. pose proof (gammaA_low f1 H) as G. destruct (nug_parts _ L0) as (N & _).
  assert (exp (- 50 * ln (f2 / f1)) <= exp (- 50 * ln k)) as N2 by (apply exp_le_mono; lra).
  assert (exp (0.9515 * ln k) <= exp (gammaA f1 * ln (f2 / f1))) as X by (apply exp_le_mono; nra). pose proof (exp_pos (0.9515 * ln k)) as X0.
  generalize dependent (exp (- 50 * ln (f2 / f1))). generalize dependent (exp (- 50 * ln k)). generalize dependent (exp (0.9515 * ln k)). generalize dependent (exp (gammaA f1 * ln (f2 / f1))).
  intros x3 x2 X X0 n3 N n2 N2. apply Rmult_le_compat; [apply Rmult_le_pos; lra|lra|apply Rmult_le_compat; lra|lra].
Qed.
Lemma gA_over_one f1 f2 : 0 < f1 <= 10 -> 5 * f1 <= f2 -> 1 < gA f1 f2.
Proof.
  intros H H2. apply Rlt_le_trans with (2 := gA_large 5 f1 f2 H ltac:(lra) H2). clear. interval with (i_prec 40).
Qed.
Lemma gA_forty f1 f2 : 0 < f1 <= 10 -> 40 * f1 <= f2 -> 7.9 < gA f1 f2.
Proof.
  intros H H2. apply Rlt_le_trans with (2 := gA_large 40 f1 f2 H ltac:(lra) H2). clear. interval with (i_prec 40).
Qed.

(** ** Matrices *)
(** Covariance of two frequencies with their standard deviations. *)
Definition cov_of (m f1 f2 e1 e2 s1 s2 a1 a2 : R) : R :=
  rhoE (gammaE (Rmin f1 f2 / corner m / corner m)) m f1 f2 * e1 * e2 + val gS f1 f2 * s1 * s2 + val gA f1 f2 * a1 * a2.
Lemma cov_entry fs eE eS eA m i j f1 f2 e1 e2 s1 s2 a1 a2 : Forall (fun f => 0 < f) fs ->
  List.length eE = List.length fs -> List.length eS = List.length fs -> List.length eA = List.length fs ->
  nth_error fs i = Some f1 -> nth_error fs j = Some f2 -> nth_error eE i = Some e1 -> nth_error eE j = Some e2 ->
  nth_error eS i = Some s1 -> nth_error eS j = Some s2 -> nth_error eA i = Some a1 -> nth_error eA j = Some a2 ->
  exists c, pjs17_cov (map Fin fs) (Some (map Fin eE)) (Some (map Fin eS)) (Some (map Fin eA)) (Fin m) = Ok c /\ square (List.length fs) c /\
    entry c i j = Some (Fin (cov_of m f1 f2 e1 e2 s1 s2 a1 a2)).
Proof.
  intros P L1 L2 L3 F1 F2 E1 E2 S1 S2 A1 A2. unfold pjs17_cov. rewrite !map_length, L1, L2, L3, Nat.eqb_refl. cbn [negb orb].
  eexists. split; [reflexivity|]. split; [apply square_mtab|].
  rewrite entry_mtab by (apply nth_error_Some; congruence).
  rewrite (proj1 (nth_Fin _ _ _ F1)), (proj1 (nth_Fin _ _ _ F2)), (proj1 (nth_Fin _ _ _ E1)), (proj1 (nth_Fin _ _ _ E2)),
    (proj1 (nth_Fin _ _ _ S1)), (proj1 (nth_Fin _ _ _ S2)), (proj1 (nth_Fin _ _ _ A1)), (proj1 (nth_Fin _ _ _ A2)).
  rewrite Forall_forall in P. pose proof (P _ (nth_error_In _ _ F1)). pose proof (P _ (nth_error_In _ _ F2)).
  rewrite between_event_fin, site_fin, within_fin by assumption. reflexivity.
Qed.
Lemma cov_default fs m e s a : e = None \/ s = None \/ a = None -> Forall (fun f => 0 < f) fs ->
  pjs17_cov (map Fin fs) e s a (Fin m) = pjs17_cov (map Fin fs) (Some (map Fin (map sdE fs))) (Some (map Fin (map sdS fs))) (Some (map Fin (map sdA fs))) (Fin m).
Proof.
  intros H P. assert (pjs17_cov (map Fin fs) e s a (Fin m) = pjs17_cov (map Fin fs) None None None (Fin m)) as ->
    by (unfold pjs17_cov; destruct e, s, a; try reflexivity; destruct H as [H|[H|H]]; discriminate).
  unfold pjs17_cov. unfold pjs17_variances. rewrite !map_map.
  replace (map (fun x => pjs17_sigma_E (Fin x)) fs) with (map (fun x => Fin (sdE x)) fs) by (apply map_ext_in; intros x Hx; rewrite sdE_fin; [reflexivity|rewrite Forall_forall in P; apply P; exact Hx]).
  replace (map (fun x => pjs17_sigma_S (Fin x)) fs) with (map (fun x => Fin (sdS x)) fs) by (apply map_ext_in; intros x Hx; rewrite sdS_fin; [reflexivity|rewrite Forall_forall in P; apply P; exact Hx]).
  replace (map (fun x => pjs17_sigma_A (Fin x)) fs) with (map (fun x => Fin (sdA x)) fs) by (apply map_ext_in; intros x Hx; rewrite sdA_fin; [reflexivity|rewrite Forall_forall in P; apply P; exact Hx]).
  reflexivity.
Qed.
Lemma cov_diag m f e s a : 0 < f -> cov_of m f f e e s s a a = e * e + s * s + a * a.
Proof.
  intros H. unfold cov_of, val. destruct (close_dec f f) as [_|N]; [|exfalso; apply N, close_refl]. rewrite rhoE_refl by exact H. ring.
Qed.
Lemma entry_get c i j x : entry c i j = Some x -> nth j (nth i c []) NaN = x.
Proof.
  unfold entry. destruct (nth_error c i) as [r|] eqn:R; [|discriminate]. intros E. rewrite (nth_error_nth _ _ _ R). apply (nth_error_nth _ _ _ E).
Qed.
Lemma cor_entry fs eE eS eA m c i j x d1 d2 : pjs17_cov fs eE eS eA m = Ok c -> (i < List.length fs)%nat -> (j < List.length fs)%nat ->
  entry c i j = Some (Fin x) -> entry c i i = Some (Fin d1) -> entry c j j = Some (Fin d2) -> 0 < d1 -> 0 < d2 ->
  exists r, pjs17_cor fs eE eS eA m = Ok r /\ square (List.length fs) r /\ entry r i j = Some (Fin (x / (sqrt d1 * sqrt d2))).
Proof.
  intros E Hi Hj X D1 D2 P1 P2. unfold pjs17_cor. rewrite E. eexists. split; [reflexivity|]. split; [apply square_mtab|].
  rewrite entry_mtab by assumption. rewrite (entry_get _ _ _ _ X), (entry_get _ _ _ _ D1), (entry_get _ _ _ _ D2).
  rewrite !fsqrt_fin by lra. fcbn. rewrite fdiv_fin; [reflexivity|]. pose proof (sqrt_lt_R0 d1 P1). pose proof (sqrt_lt_R0 d2 P2). nra.
Qed.
