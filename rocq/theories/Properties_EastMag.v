(** * C156: Atkinson & Boore (2006): larger earthquakes shake harder, except close to the largest

    [ab06_scenario src m r v]: the mapping gives magnitude m, rupture distance r and v_s30 = v. *)
From Coquelicot Require Import Coquelicot.
From Interval Require Import Tactic.
From Coq Require Import List.
From Verif Require Import M_ab06 FrameworkProofs NpProofs Anal P_ab06 Properties_East Properties_Deep.
Open Scope R_scope.
Open Scope string_scope.
Open Scope list_scope.

(** The stress adjustment at a period: a fixed convex combination of two table rows. *)
Definition sfR (c : ab06f_row) (m : R) : R := unfin (ab06_sf_row (Fin m) c).
Lemma stress_comb t : exists c1 c2 w, In c1 ab06_sf_coeff /\ In c2 ab06_sf_coeff /\ 0 <= w <= 1 /\
  forall m, ab06_stressR m t = sfR c1 m + w * (sfR c2 m - sfR c1 m).
Proof.
  destruct (np_interp_rows (fun c => Q2R (ab06f_period c)) ab06_sf_coeff t) as (c1 & c2 & w & H1 & H2 & Hw & HF).
  - discriminate.
  - rewrite <- (map_map ab06f_period Q2R). apply incrQ_incr. vm_compute. reflexivity.
  - exists c1, c2, w. split; [exact H1|]. split; [exact H2|]. split; [exact Hw|]. intros m.
    Transparent ab06_stressR. unfold ab06_stressR, ab06_stress, qf. Opaque ab06_stressR.
    rewrite (HF (ab06_sf_row (Fin m)) (fun c => sfR c m)); [reflexivity|].
    intros c Hc. apply unfin_finite, ab06_sf_fin, Hc.
Qed.

(** The capped stress-drop ratio of the adjustment. *)
Definition drop (m : R) : R := Rmin 2 (exp (ln 10 * (3.45 - 0.2 * m)) / 140).
Lemma drop_pos m : 0 < drop m <= 2.
Proof. split; [apply Rmin_glb_lt; [lra|apply Rdiv_lt_0_compat; [apply exp_pos|lra]]|apply Rmin_l]. Qed.
Lemma drop_decr m1 m2 : m1 <= m2 -> drop m2 <= drop m1.
Proof.
  intros H. apply Rle_min_compat_l. apply Rmult_le_compat_r; [lra|]. apply exp_le_mono. pose proof ln10_pos. nra.
Qed.
(** Between two magnitudes the capped ratio falls by at most ln 10 / 5 of its value per unit. *)
Lemma drop_slope m1 m2 : m1 <= m2 -> drop m1 - drop m2 <= drop m1 * (0.2 * ln 10 * (m2 - m1)).
Proof.
  intros H. pose proof ln10_pos as L. set (d := 0.2 * ln 10 * (m2 - m1)). assert (Hd : 0 <= d) by (unfold d; apply Rmult_le_pos; lra).
  assert (E : exp (ln 10 * (3.45 - 0.2 * m2)) = exp (ln 10 * (3.45 - 0.2 * m1)) * exp (- d)) by (rewrite <- exp_plus; f_equal; unfold d; ring).
  assert (X : 1 - d <= exp (- d)) by (pose proof (exp_ineq1_le (- d)); lra).
  pose proof (drop_pos m1) as [P _].
  assert (K : drop m1 * (1 - d) <= drop m2); [|lra].
  apply Rle_trans with (drop m1 * exp (- d)); [apply Rmult_le_compat_l; lra|].
  assert (Y : exp (- d) <= 1) by (rewrite <- exp_0; apply exp_le_mono; lra). pose proof (exp_pos (- d)) as Y0.
  unfold drop at 2. apply Rmin_glb.
  - pose proof (proj2 (drop_pos m1)). nra.
  - rewrite E. unfold Rdiv. rewrite Rmult_assoc, (Rmult_comm (exp (- d))), <- Rmult_assoc. apply Rmult_le_compat_r; [lra|apply Rmin_r].
Qed.

Lemma sf_eq c m : In c ab06_sf_coeff -> sfR c m = drop m * Rmin (Q2R (ab06f_delta c) + 0.05)
  (0.05 + Q2R (ab06f_delta c) * Rmax (m - Q2R (ab06f_m_1 c)) 0 / (Q2R (ab06f_m_h c) - Q2R (ab06f_m_1 c))).
Proof.
  intros Hin. row_lt Hin (fun c => ab06f_m_1 c) (fun c => ab06f_m_h c) as H.
  unfold sfR, ab06_sf_row, pow10. fcbn. rewrite !fdiv_fin by lra. fcbn. cbn [unfin]. unfold drop.
  replace 2.0 with 2 by lra. replace 140.0 with 140 by lra. reflexivity.
Qed.
Lemma sf_slope c m1 m2 : In c ab06_sf_coeff -> m1 <= m2 -> - (0.2 * (drop m1 * (0.2 * ln 10 * (m2 - m1)))) <= sfR c m2 - sfR c m1.
Proof.
  intros Hin H. rewrite !sf_eq by exact Hin. row_lt Hin (fun c => ab06f_m_1 c) (fun c => ab06f_m_h c) as G.
  row_lt Hin (fun _ : ab06f_row => 0#1) (fun c => ab06f_delta c) as H1. row_le Hin (fun c => ab06f_delta c) (fun _ : ab06f_row => 15#100) as H2.
  set (B := fun m => Rmin (Q2R (ab06f_delta c) + 0.05) (0.05 + Q2R (ab06f_delta c) * Rmax (m - Q2R (ab06f_m_1 c)) 0 / (Q2R (ab06f_m_h c) - Q2R (ab06f_m_1 c)))).
  fold (B m1) (B m2).
  assert (I : 0 < / (Q2R (ab06f_m_h c) - Q2R (ab06f_m_1 c))) by (apply Rinv_0_lt_compat; lra).
  assert (M : B m1 <= B m2).
  { unfold B. apply Rle_min_compat_l. apply Rplus_le_compat_l. apply Rmult_le_compat_r; [lra|]. apply Rmult_le_compat_l; [lra|]. apply Rle_max_compat_r. lra. }
  assert (U : B m2 <= 0.2) by (eapply Rle_trans; [apply Rmin_l|lra]).
  assert (Z : 0 <= B m2).
  { unfold B. apply Rmin_glb; [lra|]. assert (0 <= Q2R (ab06f_delta c) * Rmax (m2 - Q2R (ab06f_m_1 c)) 0 / (Q2R (ab06f_m_h c) - Q2R (ab06f_m_1 c))); [|lra].
    apply Rmult_le_pos; [apply Rmult_le_pos; [lra|apply Rmax_r]|lra]. }
  pose proof (drop_slope m1 m2 H). pose proof (drop_decr m1 m2 H). pose proof (drop_pos m1). pose proof (drop_pos m2).
  set (s := drop m1 * (0.2 * ln 10 * (m2 - m1))) in *. nra.
Qed.
Lemma stress_slope t m1 m2 : m1 <= m2 -> - (0.2 * (drop m1 * (0.2 * ln 10 * (m2 - m1)))) <= ab06_stressR m2 t - ab06_stressR m1 t.
Proof.
  intros H. destruct (stress_comb t) as (c1 & c2 & w & H1 & H2 & Hw & E). rewrite !E.
  pose proof (sf_slope c1 m1 m2 H1 H). pose proof (sf_slope c2 m1 m2 H2 H).
  set (s := 0.2 * (drop m1 * (0.2 * ln 10 * (m2 - m1)))) in *. nra.
Qed.
Lemma stress_upper t m : ab06_stressR m t <= 0.2 * drop m.
Proof.
  destruct (stress_comb t) as (c1 & c2 & w & H1 & H2 & Hw & E). rewrite E.
  assert (U : forall c, In c ab06_sf_coeff -> sfR c m <= 0.2 * drop m).
  { intros c Hc. rewrite sf_eq by exact Hc. row_le Hc (fun c => ab06f_delta c) (fun _ : ab06f_row => 15#100) as K.
    pose proof (drop_pos m). pose proof (Rmin_l (Q2R (ab06f_delta c) + 0.05) (0.05 + Q2R (ab06f_delta c) * Rmax (m - Q2R (ab06f_m_1 c)) 0 / (Q2R (ab06f_m_h c) - Q2R (ab06f_m_1 c)))).
    set (b := Rmin _ _) in *. nra. }
  pose proof (U c1 H1). pose proof (U c2 H2). nra.
Qed.

(** Two intervals of magnitude. *)
Lemma ab06_mag_step c r m1 m2 t lo hi : In c ab06_bc_coeff -> 20 <= r -> 3 <= m1 -> m1 < m2 -> m2 <= hi -> lo <= m1 ->
  0.2 * (drop lo * (0.2 * ln 10)) < Q2R (ab06_c_2 c) + Q2R (ab06_c_3 c) * (2 * hi) + Q2R (ab06_c_5 c) * 1.3 ->
  ab06_refR c m1 r + ab06_stressR m1 t < ab06_refR c m2 r + ab06_stressR m2 t.
Proof.
  intros Hin Hr H3 H12 Hh Hl K. pose proof (stress_slope t m1 m2 ltac:(lra)) as S. pose proof (drop_decr lo m1 Hl) as D. pose proof (drop_pos m1) as P.
  pose proof ln10_pos as HL. assert (I : 0 < / ln 10) by (apply Rinv_0_lt_compat; exact HL).
  Transparent ab06_refR. unfold ab06_refR. Opaque ab06_refR.
  row_lt Hin (fun _ : ab06_row => 0#1) (fun c => ab06_c_5 c) as C5. row_lt Hin (fun _ : ab06_row => 0#1) (fun c => ab06_c_7 c) as C7.
  row_lt Hin (fun c => ab06_c_3 c) (fun _ : ab06_row => 0#1) as C3.
  assert (F0 : Rmax (ln (10 / r) / ln 10) 0 = 0).
  { apply Rmax_right. assert (ln (10 / r) <= 0) by (apply ln_nonpos; split; [apply Rdiv_lt_0_compat; lra|apply (Rmult_le_reg_r r); [lra|]; unfold Rdiv; rewrite Rmult_assoc, Rinv_l by lra; lra]).
    unfold Rdiv at 1. nra. }
  rewrite F0.
  assert (F1 : 1.3 <= Rmin (ln r / ln 10) (ln 70 / ln 10)).
  { apply Rmin_glb; [|interval]. apply Rle_trans with (ln 20 / ln 10); [interval|]. apply Rmult_le_compat_r; [lra|]. apply ln_le_mono; lra. }
  pose proof (Rmax_r (ln (r / 140) / ln 10) 0) as F2.
  set (f1 := Rmin _ _) in *. set (f2 := Rmax (ln (r / 140) / ln 10) 0) in *.
  assert (G1 : Q2R (ab06_c_5 c) * 1.3 <= Q2R (ab06_c_5 c) * f1) by (apply Rmult_le_compat_l; lra).
  assert (G2 : 0 <= Q2R (ab06_c_7 c) * f2) by (apply Rmult_le_pos; lra).
  assert (G3 : Q2R (ab06_c_3 c) * (2 * hi) <= Q2R (ab06_c_3 c) * (m1 + m2)) by nra.
  assert (G4 : 0.2 * (drop m1 * (0.2 * ln 10)) <= 0.2 * (drop lo * (0.2 * ln 10))) by nra.
  set (s := 0.2 * (drop m1 * (0.2 * ln 10))) in *.
  replace (0.2 * (drop m1 * (0.2 * ln 10 * (m2 - m1)))) with (s * (m2 - m1)) in S by (unfold s; ring).
  assert (G : s < Q2R (ab06_c_2 c) + Q2R (ab06_c_3 c) * (m1 + m2) + Q2R (ab06_c_5 c) * f1 + Q2R (ab06_c_7 c) * f2) by lra.
  apply (Rmult_lt_compat_r (m2 - m1)) in G; [|lra]. rewrite !Rmult_0_r. lra.
Qed.
Lemma drop_725 : drop 7.25 <= 0.7144.
Proof. eapply Rle_trans; [apply Rmin_r|]. interval. Qed.
Lemma drop_85 : drop 8.5 <= 0.402.
Proof. eapply Rle_trans; [apply Rmin_r|]. interval. Qed.
Lemma ab06_mag c r m1 m2 t : In c ab06_bc_coeff -> 20 <= r -> 3 <= m1 -> m1 < m2 -> m2 <= 8 ->
  ab06_refR c m1 r + ab06_stressR m1 t < ab06_refR c m2 r + ab06_stressR m2 t.
Proof.
  intros Hin Hr H3 H12 H8.
  row_lt Hin (fun _ : ab06_row => (7#100)%Q) (fun c => ab06_c_2 c + ab06_c_3 c * (16#1) + ab06_c_5 c * (13#10))%Q as A.
  row_lt Hin (fun _ : ab06_row => (19#100)%Q) (fun c => ab06_c_2 c + ab06_c_3 c * (145#10) + ab06_c_5 c * (13#10))%Q as B.
  assert (LN : 0 < ln 10 < 2.3026) by (split; interval).
  assert (LO : forall a b, 3 <= a -> a < b -> b <= 7.25 -> ab06_refR c a r + ab06_stressR a t < ab06_refR c b r + ab06_stressR b t).
  { intros a b Ha Hab Hb. apply (ab06_mag_step c r a b t a 7.25 Hin Hr); try lra. pose proof (drop_pos a). nra. }
  assert (HI : forall a b, 7.25 <= a -> a < b -> b <= 8 -> ab06_refR c a r + ab06_stressR a t < ab06_refR c b r + ab06_stressR b t).
  { intros a b Ha Hab Hb. apply (ab06_mag_step c r a b t 7.25 8 Hin Hr); try lra. pose proof (drop_pos 7.25). pose proof drop_725. nra. }
  destruct (Rle_dec m2 7.25); [apply LO; lra|]. destruct (Rle_dec 7.25 m1); [apply HI; lra|].
  eapply Rlt_trans; [apply (LO m1 7.25); lra|apply HI; lra].
Qed.

(** On rock the site term does not depend on the motion. *)
Lemma ab06_rock_ln c m1 m2 r1 r2 v : 760 <= v ->
  ab06_refR c m1 r1 + ab06_stressR m1 (Q2R (ab06_period c)) < ab06_refR c m2 r2 + ab06_stressR m2 (Q2R (ab06_period c)) ->
  flt_lt (fexp (Fin (ab06_ln m1 r1 v c))) (fexp (Fin (ab06_ln m2 r2 v c))).
Proof.
  intros Hv H. apply flt_lt_exp, flt_lt_fin. unfold ab06_ln. destruct (ab06_l10_above c) as (B & _ & HB).
  rewrite (HB m1 r1 v Hv), (HB m2 r2 v Hv), !ab06_l10_760. pose proof ln10_pos. nra.
Qed.

(** On rock, from 20 km and up to magnitude 8, the larger event gives the larger motion at every period. *)
Theorem C156_grows_on_rock : forall src1 src2 m1 m2 r v, ab06_scenario src1 m1 r v -> ab06_scenario src2 m2 r v ->
  3 <= m1 -> m1 < m2 -> m2 <= 8 -> 20 <= r -> 760 <= v ->
  exists g1 g2 sa1 sa2 a1 a2 b1 b2 d1 d2, result (ab06 src1) = Ok g1 /\ result (ab06 src2) = Ok g2 /\
    result (g_spec_accels g1) = Ok sa1 /\ result (g_spec_accels g2) = Ok sa2 /\ Forall2 flt_lt sa1 sa2 /\
    result (g_pga g1) = Ok a1 /\ result (g_pga g2) = Ok a2 /\ flt_lt a1 a2 /\
    result (g_pgv g1) = Ok b1 /\ result (g_pgv g2) = Ok b2 /\ flt_lt b1 b2 /\
    result (g_pgd g1) = Ok d1 /\ result (g_pgd g2) = Ok d2 /\ flt_lt d1 d2.
Proof.
  intros src1 src2 m1 m2 r v S1 S2 H3 H12 H8 Hr Hv.
  destruct (ab06_api src1 m1 r v S1 ltac:(lra) ltac:(lra)) as (g1 & G1 & A1 & P1 & V1 & D1 & _).
  destruct (ab06_api src2 m2 r v S2 ltac:(lra) ltac:(lra)) as (g2 & G2 & A2 & P2 & V2 & D2 & _).
  assert (U : forall c, In c ab06_bc_coeff -> flt_lt (fexp (Fin (ab06_ln m1 r v c))) (fexp (Fin (ab06_ln m2 r v c)))).
  { intros c Hc. apply ab06_rock_ln; [exact Hv|]. apply ab06_mag; assumption. }
  exists g1, g2. do 8 eexists. repeat (split; [eassumption|]).
  split; [apply Forall2_map_intro; intros c Hc; apply U, (ab06_skip_in c 3), Hc|]. split; [eassumption|]. split; [eassumption|].
  split; [apply U; right; right; left; reflexivity|]. split; [eassumption|]. split; [eassumption|].
  split; [apply U; right; left; reflexivity|]. split; [eassumption|]. split; [eassumption|]. apply U; left; reflexivity.
Qed.
Print Assumptions C156_grows_on_rock.

(** PGA does so on every soil: the nonlinear site term takes back less than it is given. *)
Theorem C156_pga_grows_on_every_site : forall src1 src2 m1 m2 r v, ab06_scenario src1 m1 r v -> ab06_scenario src2 m2 r v ->
  3 <= m1 -> m1 < m2 -> m2 <= 8 -> 20 <= r -> 0 < v ->
  exists g1 g2 p1 p2, result (ab06 src1) = Ok g1 /\ result (ab06 src2) = Ok g2 /\
    result (g_pga g1) = Ok p1 /\ result (g_pga g2) = Ok p2 /\ flt_lt p1 p2.
Proof.
  intros src1 src2 m1 m2 r v S1 S2 H3 H12 H8 Hr Hv.
  destruct (ab06_pga_ln src1 m1 r v S1 ltac:(lra) Hv) as (g1 & G1 & P1).
  destruct (ab06_pga_ln src2 m2 r v S2 ltac:(lra) Hv) as (g2 & G2 & P2).
  exists g1, g2. do 2 eexists. split; [exact G1|]. split; [exact G2|]. split; [exact P1|]. split; [exact P2|].
  apply flt_lt_fin. pose proof (ab06_mag ab06_pga_row r m1 m2 0 ltac:(right; right; left; reflexivity) Hr H3 H12 H8) as D.
  pose proof ln10_pos as HL. pose proof (ab06_bnl_bound v Hv) as [K1 K2].
  set (k := ab06_bnlR v ab06_site_pga) in *. set (X := Q2R (ab06s_b_lin ab06_site_pga) * ln (v / 760)).
  set (l2 := ln 10 * (ab06_refR ab06_pga_row m1 r + ab06_stressR m1 0)).
  set (l1 := ln 10 * (ab06_refR ab06_pga_row m2 r + ab06_stressR m2 0)).
  assert (Hl : l2 < l1) by (unfold l1, l2; nra).
  unfold ab06_pga_bc. fold l1 l2. set (q := fun l => ln (Rmax (exp l) 60 / 100)).
  assert (Q2 : q l1 - q l2 <= l1 - l2).
  { unfold q. assert (M : Rmax (exp l1) 60 <= Rmax (exp l2) 60 * exp (l1 - l2)).
    { assert (1 <= exp (l1 - l2)) by (apply exp_ge_1; lra). pose proof (Rmax_r (exp l2) 60). pose proof (Rmax_l (exp l2) 60).
      apply Rmax_lub; [|nra]. replace (exp l1) with (exp l2 * exp (l1 - l2)) by (rewrite <- exp_plus; f_equal; ring).
      apply Rmult_le_compat_r; [left; apply exp_pos|assumption]. }
    pose proof (Rmax_r (exp l1) 60) as Q5. pose proof (Rmax_r (exp l2) 60). pose proof (exp_pos (l1 - l2)).
    assert (T : ln (Rmax (exp l1) 60 / 100) <= ln (Rmax (exp l2) 60 / 100 * exp (l1 - l2))) by (apply ln_le_mono; lra).
    rewrite ln_mult, ln_exp in T by lra. lra. }
  assert (Q1 : q l2 <= q l1).
  { unfold q. apply ln_le_mono; [pose proof (Rmax_r (exp l2) 60); lra|].
    apply Rmult_le_compat_r; [lra|]. apply Rle_max_compat_r, exp_le_mono; lra. }
  assert (E : forall l, exp l / 980.665 * exp (X + k * q l) = exp (l + X + k * q l) / 980.665).
  { intros l. rewrite !exp_plus. field; lra. }
  fold (q l1) (q l2). rewrite !E. apply Rmult_lt_compat_r; [lra|]. apply exp_increasing. nra.
Qed.
Print Assumptions C156_pga_grows_on_every_site.

(** One kilometre from the rupture, magnitude 8.5 gives less than magnitude 7.5 (violation). *)
Lemma ab06_one_km c t : In c ab06_bc_coeff -> Q2R (ab06_c_2 c) + Q2R (ab06_c_3 c) * 16 + Q2R (ab06_c_9 c) < -0.0805 ->
  ab06_refR c 8.5 1 + ab06_stressR 8.5 t < ab06_refR c 7.5 1 + ab06_stressR 7.5 t.
Proof.
  intros Hin H. pose proof (stress_upper t 8.5) as U. pose proof drop_85. pose proof (proj1 (ab06_stress_bounds 7.5 t)).
  Transparent ab06_refR. unfold ab06_refR. Opaque ab06_refR.
  rewrite ln_1. replace (10 / 1) with 10 by lra. pose proof ln10_pos as HL. replace (ln 10 / ln 10) with 1 by (field; lra).
  rewrite (Rmin_left (0 / ln 10)) by (replace (0 / ln 10) with 0 by (field; lra); left; interval).
  rewrite (Rmax_right (ln (1 / 140) / ln 10)) by interval. rewrite (Rmax_left 1 0) by lra. replace (0 / ln 10) with 0 by (field; lra). lra.
Qed.
Lemma ab06_periods_of src m r v g : ab06_scenario src m r v -> 0 < r -> 0 < v -> result (ab06 src) = Ok g ->
  result (g_periods g) = Ok (map Fin (map (fun c => Q2R (ab06_period c)) (skipn 3 ab06_bc_coeff))).
Proof.
  intros S Hr Hv E. pose proof (ab06_construct src m r v _ S (ab06_ln_resp_pos m r v Hr Hv)) as K.
  rewrite E in K. injection K as ->. reflexivity.
Qed.
Theorem C156_falls_at_one_km : forall src1 src2 v, ab06_scenario src1 7.5 1 v -> ab06_scenario src2 8.5 1 v -> 760 <= v ->
  exists g1 g2 T sa1 sa2 a1 a2, result (ab06 src1) = Ok g1 /\ result (ab06 src2) = Ok g2 /\
    result (g_periods g1) = Ok (map Fin T) /\ result (g_periods g2) = Ok (map Fin T) /\
    result (g_spec_accels g1) = Ok sa1 /\ result (g_spec_accels g2) = Ok sa2 /\
    (forall k t x y, nth_error T k = Some t -> 0.06 <= t <= 2.5 -> nth_error sa1 k = Some x -> nth_error sa2 k = Some y -> flt_lt y x) /\
    result (g_pga g1) = Ok a1 /\ result (g_pga g2) = Ok a2 /\ flt_lt a2 a1.
Proof.
  intros src1 src2 v S1 S2 Hv.
  destruct (ab06_api src1 7.5 1 v S1 ltac:(lra) ltac:(lra)) as (g1 & G1 & A1 & P1 & _).
  destruct (ab06_api src2 8.5 1 v S2 ltac:(lra) ltac:(lra)) as (g2 & G2 & A2 & P2 & _).
  exists g1, g2, (map (fun c => Q2R (ab06_period c)) (skipn 3 ab06_bc_coeff)). do 4 eexists.
  split; [exact G1|]. split; [exact G2|].
  split; [eapply ab06_periods_of; [exact S1|lra|lra|exact G1]|]. split; [eapply ab06_periods_of; [exact S2|lra|lra|exact G2]|].
  split; [exact A1|]. split; [exact A2|].
  split; [|split; [exact P1|split; [exact P2|]]].
  - intros k t x y HT Ht HX HY. rewrite nth_error_map in HT, HX, HY.
    destruct (nth_error (skipn 3 ab06_bc_coeff) k) as [c|] eqn:K; [|discriminate]. cbn in HT, HX, HY.
    injection HT as <-. injection HX as <-. injection HY as <-.
    pose proof (nth_error_In _ _ K) as Hc. apply ab06_rock_ln; [exact Hv|]. apply ab06_one_km; [apply (ab06_skip_in c 3), Hc|].
    pose proof (sel (skipn 3 ab06_bc_coeff) (fun c => Qle_bool (6#100) (ab06_period c) && Qle_bool (ab06_period c) (25#10))%bool (fun c => Qltb (ab06_c_2 c + ab06_c_3 c * (16#1) + ab06_c_9 c) (-805#10000)) ltac:(vm_compute; reflexivity) c Hc) as Q.
    assert (Q' : Q2R (ab06_c_2 c + ab06_c_3 c * (16#1) + ab06_c_9 c) < Q2R (-805#10000)) by (apply Qltb_R, Q, andb_true_intro; split; apply Qle_of_R; [unfold Q2R at 1|unfold Q2R at 2]; cbn [Qnum Qden]; lra).
    rewrite !Qreals.Q2R_plus, Qreals.Q2R_mult in Q'. unfold Q2R at 3 5 in Q'; cbn [Qnum Qden] in Q'. lra.
  - apply ab06_rock_ln; [exact Hv|]. apply ab06_one_km; [right; right; left; reflexivity|]. unfold Q2R; cbn; lra.
Qed.
Print Assumptions C156_falls_at_one_km.

Example C156_nonvacuous :
  (exists g1 g2 p1 p2, result (ab06 (ex_mrv 5 30 300)) = Ok g1 /\ result (ab06 (ex_mrv 7.5 30 300)) = Ok g2 /\
    result (g_pga g1) = Ok p1 /\ result (g_pga g2) = Ok p2 /\ flt_lt p1 p2) /\
  (exists g1 g2 sa1 sa2, result (ab06 (ex_mrv 5 30 900)) = Ok g1 /\ result (ab06 (ex_mrv 7.5 30 900)) = Ok g2 /\
    result (g_spec_accels g1) = Ok sa1 /\ result (g_spec_accels g2) = Ok sa2 /\ Forall2 flt_lt sa1 sa2) /\
  (exists g1 g2 a1 a2, result (ab06 (ex_mrv 7.5 1 900)) = Ok g1 /\ result (ab06 (ex_mrv 8.5 1 900)) = Ok g2 /\
    result (g_pga g1) = Ok a1 /\ result (g_pga g2) = Ok a2 /\ flt_lt a2 a1).
Proof.
  split; [|split].
  - apply (C156_pga_grows_on_every_site _ _ 5 7.5 30 300); try apply ex_ab06_ok; lra.
  - destruct (C156_grows_on_rock _ _ 5 7.5 30 900 (ex_ab06_ok _ _ _) (ex_ab06_ok _ _ _)) as (g1 & g2 & sa1 & sa2 & a1 & a2 & b1 & b2 & d1 & d2 & K); try lra.
    exists g1, g2, sa1, sa2. tauto.
  - destruct (C156_falls_at_one_km _ _ 900 (ex_ab06_ok _ _ _) (ex_ab06_ok _ _ _)) as (g1 & g2 & T & sa1 & sa2 & a1 & a2 & K); try lra.
    exists g1, g2, a1, a2. tauto.
Qed.
