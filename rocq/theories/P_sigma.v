(** * How the standard deviations of the NGA-West2 models change with magnitude *)
From Coquelicot Require Import Coquelicot.
From Interval Require Import Tactic.
From Coq Require Import List.
From Verif Require Import M_cy14 M_bssa14 M_cb14 M_ask14 FrameworkProofs Anal Nga Outs Cont Cont1 SpecNga P_cy14 P_bssa14 P_cb14 P_cb14b P_ask14 P_ask14b P_ngaspec
  Spec_cy14 Spec_bssa14 Spec_cb14 Spec_ask14 Properties_NGA Properties_NGAPub Properties_NGAPub2 Properties_NGAPub3 P_ngamag P_ngamag2 P_ngacont P_hw P_mech Spec_basin P_basin Spec_sigma.
Open Scope R_scope.
Open Scope string_scope.
Open Scope list_scope.

Lemma rep_std {A} r1 r2 (rows : list A) ca cv per med1 sd1 med2 sd2 (sd : R -> R -> R -> Prop) (pga pgv : R -> R -> Prop) :
  reports r1 rows ca cv per med1 sd1 -> reports r2 rows ca cv per med2 sd2 ->
  (forall c, In c rows -> sd (Q2R (per c)) (sd1 c) (sd2 c)) -> pga (sd1 ca) (sd2 ca) -> pgv (sd1 cv) (sd2 cv) -> compares_std r1 r2 sd pga pgv.
Proof.
  intros (g1 & E1 & P1 & _ & _ & _ & S1 & A1 & V1) (g2 & E2 & P2 & _ & _ & _ & S2 & A2 & V2) H HA HV.
  exists g1, g2, (map (fun c => (Q2R (per c), (sd1 c, sd2 c))) rows), (sd1 ca), (sd2 ca), (sd1 cv), (sd2 cv).
  rewrite !map_map. cbn [fst snd]. repeat (split; [assumption|]). split; [|split; assumption].
  intros T y1 y2 HI. apply in_map_iff in HI as (c & Ec & Hc). injection Ec as <- <- <-. apply H, Hc.
Qed.
Lemma clip01_mono x y : x <= y -> clip01 x <= clip01 y.
Proof. intros H. unfold clip01. apply Rle_min_compat_r, Rle_max_compat_r, H. Qed.
Lemma clip01_lt x y : x < 1 -> 0 < y -> x < y -> clip01 x < clip01 y.
Proof. intros H1 H2 H. unfold clip01. unfold Rmin, Rmax. destruct (Rle_dec x 0), (Rle_dec y 0); repeat match goal with |- context [Rle_dec ?a ?b] => destruct (Rle_dec a b) end; lra. Qed.
Lemma ramp_between x0 y0 x1 y1 x : x0 < x1 -> Rmin y0 y1 <= ramp x0 y0 x1 y1 x <= Rmax y0 y1.
Proof.
  intros H. rewrite <- clip01_ramp by exact H. pose proof (clip01_range ((x - x0) / (x1 - x0))) as [L U]. set (u := clip01 _) in *. clearbody u.
  unfold Rmin, Rmax. destruct (Rle_dec y0 y1); nra.
Qed.
(** The sum of the squares of two linear pieces falls on [0,1] when its slope at 1 is not positive. *)
Lemma squares_fall t1 t2 p1 p2 d u1 u2 : (t2 - t1) * t2 + (p2 - p1) * (p2 + d) <= 0 -> 0 <= u1 <= u2 -> u2 <= 1 ->
  (t1 + (t2 - t1) * u2) ^ 2 + (p1 + (p2 - p1) * u2 + d) ^ 2 <= (t1 + (t2 - t1) * u1) ^ 2 + (p1 + (p2 - p1) * u1 + d) ^ 2.
Proof.
  intros H H1 H2.
  assert (E : (t1 + (t2 - t1) * u2) ^ 2 + (p1 + (p2 - p1) * u2 + d) ^ 2 - ((t1 + (t2 - t1) * u1) ^ 2 + (p1 + (p2 - p1) * u1 + d) ^ 2) =
    (u2 - u1) * (2 * ((t2 - t1) * t2 + (p2 - p1) * (p2 + d)) - ((t2 - t1) ^ 2 + (p2 - p1) ^ 2) * (2 - u1 - u2))) by ring.
  assert (0 <= ((t2 - t1) ^ 2 + (p2 - p1) ^ 2) * (2 - u1 - u2)).
  { apply Rmult_le_pos; [|lra]. pose proof (pow2_ge_0 (t2 - t1)). pose proof (pow2_ge_0 (p2 - p1)). lra. }
  assert ((u2 - u1) * (2 * ((t2 - t1) * t2 + (p2 - p1) * (p2 + d)) - ((t2 - t1) ^ 2 + (p2 - p1) ^ 2) * (2 - u1 - u2)) <= 0); [|lra].
  set (X := 2 * ((t2 - t1) * t2 + (p2 - p1) * (p2 + d)) - ((t2 - t1) ^ 2 + (p2 - p1) ^ 2) * (2 - u1 - u2)) in *. assert (X <= 0) by (unfold X; lra). clearbody X. nra.
Qed.
Lemma squares_fall_lt t1 t2 p1 p2 d u1 u2 : (t2 - t1) * t2 + (p2 - p1) * (p2 + d) < 0 -> 0 <= u1 < u2 -> u2 <= 1 ->
  (t1 + (t2 - t1) * u2) ^ 2 + (p1 + (p2 - p1) * u2 + d) ^ 2 < (t1 + (t2 - t1) * u1) ^ 2 + (p1 + (p2 - p1) * u1 + d) ^ 2.
Proof.
  intros H H1 H2.
  assert (E : (t1 + (t2 - t1) * u2) ^ 2 + (p1 + (p2 - p1) * u2 + d) ^ 2 - ((t1 + (t2 - t1) * u1) ^ 2 + (p1 + (p2 - p1) * u1 + d) ^ 2) =
    (u2 - u1) * (2 * ((t2 - t1) * t2 + (p2 - p1) * (p2 + d)) - ((t2 - t1) ^ 2 + (p2 - p1) ^ 2) * (2 - u1 - u2))) by ring.
  assert (0 <= ((t2 - t1) ^ 2 + (p2 - p1) ^ 2) * (2 - u1 - u2)).
  { apply Rmult_le_pos; [|lra]. pose proof (pow2_ge_0 (t2 - t1)). pose proof (pow2_ge_0 (p2 - p1)). lra. }
  assert ((u2 - u1) * (2 * ((t2 - t1) * t2 + (p2 - p1) * (p2 + d)) - ((t2 - t1) ^ 2 + (p2 - p1) ^ 2) * (2 - u1 - u2)) < 0); [|lra].
  set (X := 2 * ((t2 - t1) * t2 + (p2 - p1) * (p2 + d)) - ((t2 - t1) ^ 2 + (p2 - p1) ^ 2) * (2 - u1 - u2)) in *. assert (X < 0) by (unfold X; lra). clearbody X. nra.
Qed.

(** ** Boore et al. (2014) *)
Definition bs_dphi (c : bssa14_row) (r v : R) : R :=
  ramp (ln (Q2R (bssa14_R_1 c))) 0 (ln (Q2R (bssa14_R_2 c))) (Q2R (bssa14_dphi_R c)) (ln (Rmax r 0.1)) - ramp (ln (Q2R (bssa14_V_1 c))) (Q2R (bssa14_dphi_V c)) (ln (Q2R (bssa14_V_2 c))) 0 (ln v).
Lemma bs_dphi_in c r v : In c bssa14_coeff -> - Q2R (bssa14_dphi_V c) <= bs_dphi c r v <= Q2R (bssa14_dphi_R c).
Proof.
  intros H. row_lt H bssa14_R_1 bssa14_R_2 as H1. row_pos H bssa14_R_1 as H2. row_lt H bssa14_V_1 bssa14_V_2 as H3. row_pos H bssa14_V_1 as H4.
  row_ge H (0#1)%Q bssa14_dphi_V as H5. row_ge H (0#1)%Q bssa14_dphi_R as H6. unfold bs_dphi.
  pose proof (ramp_between (ln (Q2R (bssa14_R_1 c))) 0 (ln (Q2R (bssa14_R_2 c))) (Q2R (bssa14_dphi_R c)) (ln (Rmax r 0.1)) ltac:(apply ln_increasing; lra)) as B1.
  pose proof (ramp_between (ln (Q2R (bssa14_V_1 c))) (Q2R (bssa14_dphi_V c)) (ln (Q2R (bssa14_V_2 c))) 0 (ln v) ltac:(apply ln_increasing; lra)) as B2.
  set (X := ln (Rmax r 0.1)) in *. clearbody X. rewrite Rmin_left, Rmax_right in B1 by lra. rewrite Rmin_right, Rmax_left in B2 by lra. lra.
Qed.
Definition bs_var (c : bssa14_row) (d m : R) : R :=
  let u := clip01 ((m - 4.5) / (5.5 - 4.5)) in
  (Q2R (bssa14_tau_1 c) + (Q2R (bssa14_tau_2 c) - Q2R (bssa14_tau_1 c)) * u) ^ 2 + (Q2R (bssa14_phi_1 c) + (Q2R (bssa14_phi_2 c) - Q2R (bssa14_phi_1 c)) * u + d) ^ 2.
Lemma bs_sd_mag c a m : bs_sd c (with_mag a m) = sqrt (bs_var c (bs_dphi c (n_jb a) (n_v a)) m).
Proof.
  destruct a. unfold bs_sd, bs_var, bs_dphi, bssa14_tau_spec, bssa14_phi_spec. cbn [with_mag Nga.n_mag Nga.n_jb Nga.n_v]. cbv zeta. rewrite !clip01_ramp by lra.
  f_equal. f_equal. f_equal. lra.
Qed.
Lemma bs_slope c : In c bssa14_coeff -> Q2R (bssa14_period c) <= 5 -> forall d, - Q2R (bssa14_dphi_V c) <= d <= Q2R (bssa14_dphi_R c) ->
  (Q2R (bssa14_tau_2 c) - Q2R (bssa14_tau_1 c)) * Q2R (bssa14_tau_2 c) + (Q2R (bssa14_phi_2 c) - Q2R (bssa14_phi_1 c)) * (Q2R (bssa14_phi_2 c) + d) < 0.
Proof.
  intros H HT d Hd. assert (P : Qle_bool (bssa14_period c) (5#1) = true) by (apply Rle_Qleb; rq).
  pose proof (rows_when_lt bssa14_coeff (fun c => Qle_bool (bssa14_period c) (5#1))
    (fun c => ((bssa14_tau_2 c - bssa14_tau_1 c) * bssa14_tau_2 c + (bssa14_phi_2 c - bssa14_phi_1 c) * (bssa14_phi_2 c - bssa14_dphi_V c))%Q) (fun _ => (0#1)%Q) ltac:(vm_compute; reflexivity) c H P) as A.
  pose proof (rows_when_lt bssa14_coeff (fun c => Qle_bool (bssa14_period c) (5#1))
    (fun c => ((bssa14_tau_2 c - bssa14_tau_1 c) * bssa14_tau_2 c + (bssa14_phi_2 c - bssa14_phi_1 c) * (bssa14_phi_2 c + bssa14_dphi_R c))%Q) (fun _ => (0#1)%Q) ltac:(vm_compute; reflexivity) c H P) as B.
  cbv beta in A, B. qnorm_in A. qnorm_in B.
  set (t1 := Q2R (bssa14_tau_1 c)) in *. set (t2 := Q2R (bssa14_tau_2 c)) in *. set (p1 := Q2R (bssa14_phi_1 c)) in *. set (p2 := Q2R (bssa14_phi_2 c)) in *.
  set (dv := Q2R (bssa14_dphi_V c)) in *. set (dr := Q2R (bssa14_dphi_R c)) in *. clearbody t1 t2 p1 p2 dv dr. clear - A B Hd.
  destruct (Rle_dec p1 p2); nra.
Qed.
Lemma bs_std_falls src1 src2 a m1 m2 : nga_gives src1 (with_mag a m1) -> nga_gives src2 (with_mag a m2) -> 0 < n_v a -> m1 < m2 ->
  let falls s1 s2 := s2 <= s1 /\ (m1 < 5.5 -> 4.5 < m2 -> s2 < s1) in
  compares_std (bssa14 src1) (bssa14 src2) (fun T s1 s2 => T <= 5 -> falls s1 s2) falls falls.
Proof.
  intros G1 G2 Hv H12 falls.
  assert (K : forall c, In c bssa14_coeff -> Q2R (bssa14_period c) <= 5 -> falls (bs_sd c (with_mag a m1)) (bs_sd c (with_mag a m2))).
  { intros c Hc HT. rewrite !bs_sd_mag. pose proof (bs_dphi_in c (n_jb a) (n_v a) Hc) as D. set (d := bs_dphi _ _ _) in *. clearbody d.
    pose proof (bs_slope c Hc HT d D) as S. unfold bs_var. cbv zeta.
    set (u1 := clip01 ((m1 - 4.5) / (5.5 - 4.5))). set (u2 := clip01 ((m2 - 4.5) / (5.5 - 4.5))).
    assert (U1 : 0 <= u1 <= 1) by apply clip01_range. assert (U2 : 0 <= u2 <= 1) by apply clip01_range.
    split.
    - apply sqrt_le_1_alt, squares_fall; [lra| |lra]. split; [lra|]. apply clip01_mono. lra.
    - intros L1 L2. apply sqrt_lt_1_alt. split; [|apply squares_fall_lt; [exact S| |lra]].
      + match goal with |- 0 <= ?x ^ 2 + ?y ^ 2 => pose proof (pow2_ge_0 x); pose proof (pow2_ge_0 y); lra end.
      + split; [lra|]. apply clip01_lt; lra. }
  eapply rep_std; [apply (bs_reports _ _ G1); destruct a; exact Hv|apply (bs_reports _ _ G2); destruct a; exact Hv|..]; cbv beta.
  - intros c Hc HT. apply K; [apply bs_rows; right; right; exact Hc|exact HT].
  - apply K; [apply bssa14_pga_in|cbn; rq].
  - apply K; [apply bssa14_pgv_in|cbn; rq].
Qed.
(** Above 5 s: small against large earthquakes, and a rise just below magnitude 5.5. *)
Lemma bs_ends c : In c bssa14_coeff -> forall d, - Q2R (bssa14_dphi_V c) <= d <= Q2R (bssa14_dphi_R c) ->
  Q2R (bssa14_tau_2 c) ^ 2 + (Q2R (bssa14_phi_2 c) + d) ^ 2 < Q2R (bssa14_tau_1 c) ^ 2 + (Q2R (bssa14_phi_1 c) + d) ^ 2.
Proof.
  intros H d Hd.
  pose proof (rows_lt bssa14_coeff (fun c => (bssa14_tau_2 c * bssa14_tau_2 c + (bssa14_phi_2 c - bssa14_dphi_V c) * (bssa14_phi_2 c - bssa14_dphi_V c))%Q)
    (fun c => (bssa14_tau_1 c * bssa14_tau_1 c + (bssa14_phi_1 c - bssa14_dphi_V c) * (bssa14_phi_1 c - bssa14_dphi_V c))%Q) ltac:(vm_compute; reflexivity) c H) as A.
  pose proof (rows_lt bssa14_coeff (fun c => (bssa14_tau_2 c * bssa14_tau_2 c + (bssa14_phi_2 c + bssa14_dphi_R c) * (bssa14_phi_2 c + bssa14_dphi_R c))%Q)
    (fun c => (bssa14_tau_1 c * bssa14_tau_1 c + (bssa14_phi_1 c + bssa14_dphi_R c) * (bssa14_phi_1 c + bssa14_dphi_R c))%Q) ltac:(vm_compute; reflexivity) c H) as B.
  cbv beta in A, B. qnorm_in A. qnorm_in B.
  set (t1 := Q2R (bssa14_tau_1 c)) in *. set (t2 := Q2R (bssa14_tau_2 c)) in *. set (p1 := Q2R (bssa14_phi_1 c)) in *. set (p2 := Q2R (bssa14_phi_2 c)) in *.
  set (dv := Q2R (bssa14_dphi_V c)) in *. set (dr := Q2R (bssa14_dphi_R c)) in *. clearbody t1 t2 p1 p2 dv dr. clear - A B Hd.
  destruct (Rle_dec p1 p2); nra.
Qed.
Lemma bs_std_ends src1 src2 a m1 m2 : nga_gives src1 (with_mag a m1) -> nga_gives src2 (with_mag a m2) -> 0 < n_v a -> m1 <= 4.5 -> 5.5 <= m2 ->
  compares_std (bssa14 src1) (bssa14 src2) (fun _ s1 s2 => s2 < s1) (fun s1 s2 => s2 < s1) (fun s1 s2 => s2 < s1).
Proof.
  intros G1 G2 Hv H1 H2.
  assert (K : forall c, In c bssa14_coeff -> bs_sd c (with_mag a m2) < bs_sd c (with_mag a m1)).
  { intros c Hc. rewrite !bs_sd_mag. pose proof (bs_dphi_in c (n_jb a) (n_v a) Hc) as D. set (d := bs_dphi _ _ _) in *. clearbody d.
    pose proof (bs_ends c Hc d D) as S. unfold bs_var. cbv zeta.
    replace (clip01 ((m1 - 4.5) / (5.5 - 4.5))) with 0 by (unfold clip01; rewrite Rmax_right, Rmin_left by lra; reflexivity).
    replace (clip01 ((m2 - 4.5) / (5.5 - 4.5))) with 1 by (unfold clip01; rewrite (Rmax_left _ 0), Rmin_right by lra; reflexivity).
    rewrite !Rmult_0_r, !Rmult_1_r, !Rplus_0_r. rewrite !Rplus_minus. apply sqrt_lt_1_alt. split; [|exact S].
    match goal with |- 0 <= ?x ^ 2 + ?y ^ 2 => pose proof (pow2_ge_0 x); pose proof (pow2_ge_0 y); lra end. }
  eapply rep_std; [apply (bs_reports _ _ G1); destruct a; exact Hv|apply (bs_reports _ _ G2); destruct a; exact Hv|..]; cbv beta.
  - intros c Hc. apply K, bs_rows. right; right; exact Hc.
  - apply K, bssa14_pga_in.
  - apply K, bssa14_pgv_in.
Qed.
Lemma bs_std_rises src1 src2 a : nga_gives src1 (with_mag a 5.4) -> nga_gives src2 (with_mag a 5.5) -> 0 < n_v a ->
  compares_std (bssa14 src1) (bssa14 src2) (fun T s1 s2 => 6.5 <= T <= 8 -> s1 < s2) (fun _ _ => True) (fun _ _ => True).
Proof.
  intros G1 G2 Hv. eapply rep_std; [apply (bs_reports _ _ G1); destruct a; exact Hv|apply (bs_reports _ _ G2); destruct a; exact Hv|..]; cbv beta; try exact I.
  intros c Hc HT. assert (Hc' : In c bssa14_coeff) by (apply bs_rows; right; right; exact Hc). rewrite !bs_sd_mag.
  pose proof (bs_dphi_in c (n_jb a) (n_v a) Hc') as D. set (d := bs_dphi _ _ _) in *. clearbody d.
  assert (P : andb (Qle_bool (65#10) (bssa14_period c)) (Qle_bool (bssa14_period c) (8#1)) = true) by (apply andb_true_intro; split; apply Rle_Qleb; rq).
  pose proof (rows_when_le bssa14_coeff (fun c => andb (Qle_bool (65#10) (bssa14_period c)) (Qle_bool (bssa14_period c) (8#1)))
    bssa14_dphi_V (fun _ => (0#1)%Q) ltac:(vm_compute; reflexivity) c Hc' P) as A0.
  pose proof (rows_when_lt bssa14_coeff (fun c => andb (Qle_bool (65#10) (bssa14_period c)) (Qle_bool (bssa14_period c) (8#1)))
    bssa14_phi_1 bssa14_phi_2 ltac:(vm_compute; reflexivity) c Hc' P) as A1.
  pose proof (rows_when_lt bssa14_coeff (fun c => andb (Qle_bool (65#10) (bssa14_period c)) (Qle_bool (bssa14_period c) (8#1))) (fun _ => (0#1)%Q)
    (fun c => ((bssa14_tau_2 c - bssa14_tau_1 c) * (bssa14_tau_1 c + bssa14_tau_2 c * (19#1)) + (bssa14_phi_2 c - bssa14_phi_1 c) * (bssa14_phi_1 c + bssa14_phi_2 c * (19#1)))%Q) ltac:(vm_compute; reflexivity) c Hc' P) as A2.
  cbv beta in A0, A1, A2. qnorm_in A0. qnorm_in A2.
  unfold bs_var. cbv zeta.
  replace (clip01 ((5.4 - 4.5) / (5.5 - 4.5))) with 0.9 by (unfold clip01; rewrite (Rmax_left _ 0), Rmin_left by lra; lra).
  replace (clip01 ((5.5 - 4.5) / (5.5 - 4.5))) with 1 by (unfold clip01; rewrite (Rmax_left _ 0), Rmin_right by lra; lra).
  set (t1 := Q2R (bssa14_tau_1 c)) in *. set (t2 := Q2R (bssa14_tau_2 c)) in *. set (p1 := Q2R (bssa14_phi_1 c)) in *. set (p2 := Q2R (bssa14_phi_2 c)) in *.
  set (dv := Q2R (bssa14_dphi_V c)) in *. set (dr := Q2R (bssa14_dphi_R c)) in *. clearbody t1 t2 p1 p2 dv dr. clear - A0 A1 A2 D.
  apply sqrt_lt_1_alt. split; [match goal with |- 0 <= ?x ^ 2 + ?y ^ 2 => pose proof (pow2_ge_0 x); pose proof (pow2_ge_0 y); lra end|]. nra.
Qed.

(** ** Chiou & Youngs (2014) *)
Definition cy_var (k b y phi4 tau s : R) : R := let q := (1 + b * (y / (y + phi4))) ^ 2 in q * tau ^ 2 + (s * sqrt (k + q)) ^ 2.
Lemma cy_q b y1 y2 phi4 : -1 < b <= 0 -> 0 < phi4 -> 0 < y1 <= y2 -> 0 < (1 + b * (y2 / (y2 + phi4))) ^ 2 <= (1 + b * (y1 / (y1 + phi4))) ^ 2.
Proof.
  intros Hb Hp Hy. assert (0 < y1 / (y1 + phi4)) by (apply Rdiv_lt_0_compat; lra).
  assert (y2 / (y2 + phi4) < 1) by (apply (Rmult_lt_reg_r (y2 + phi4)); [lra|]; unfold Rdiv; rewrite Rmult_assoc, Rinv_l by lra; lra).
  assert (y1 / (y1 + phi4) <= y2 / (y2 + phi4)).
  { apply (Rmult_le_reg_r ((y1 + phi4) * (y2 + phi4))); [apply Rmult_lt_0_compat; lra|].
    replace (y1 / (y1 + phi4) * ((y1 + phi4) * (y2 + phi4))) with (y1 * (y2 + phi4)) by (field; lra).
    replace (y2 / (y2 + phi4) * ((y1 + phi4) * (y2 + phi4))) with (y2 * (y1 + phi4)) by (field; lra). nra. }
  set (w1 := y1 / _) in *. set (w2 := y2 / _) in *. clearbody w1 w2. split; [apply pow_lt; nra|]. apply pow_incr. split; nra.
Qed.
Lemma cy_var_le k b y1 y2 phi4 t1 t2 s1 s2 : 0 <= k -> -1 < b <= 0 -> 0 < phi4 -> 0 < y1 <= y2 -> 0 < t2 <= t1 -> 0 <= s2 <= s1 ->
  0 <= cy_var k b y2 phi4 t2 s2 /\ cy_var k b y2 phi4 t2 s2 <= cy_var k b y1 phi4 t1 s1 /\ (t2 < t1 -> cy_var k b y2 phi4 t2 s2 < cy_var k b y1 phi4 t1 s1).
Proof.
  intros Hk Hb Hp Hy Ht Hs. unfold cy_var. cbv zeta. pose proof (cy_q b y1 y2 phi4 Hb Hp Hy) as Q.
  set (q1 := (1 + b * (y1 / _)) ^ 2) in *. set (q2 := (1 + b * (y2 / _)) ^ 2) in *. clearbody q1 q2.
  rewrite !Rpow_mult_distr, !pow2_sqrt by lra.
  assert (S0 : 0 <= s2 ^ 2) by apply pow2_ge_0. assert (S1 : s2 ^ 2 <= s1 ^ 2) by (apply pow_incr; lra).
  assert (T1 : t2 ^ 2 <= t1 ^ 2) by (apply pow_incr; lra). assert (T0 : 0 < t2 ^ 2) by (apply pow_lt; lra).
  assert (A : q2 * t2 ^ 2 <= q1 * t1 ^ 2) by (apply Rmult_le_compat; lra). assert (B : s2 ^ 2 * (k + q2) <= s1 ^ 2 * (k + q1)) by (apply Rmult_le_compat; lra).
  assert (0 <= q2 * t2 ^ 2) by (apply Rmult_le_pos; lra). assert (0 <= s2 ^ 2 * (k + q2)) by (apply Rmult_le_pos; lra).
  split; [lra|]. split; [lra|]. intros L. assert (T2 : t2 ^ 2 < t1 ^ 2) by nra.
  assert (q2 * t2 ^ 2 < q1 * t1 ^ 2); [|lra]. apply Rlt_le_trans with (q2 * t1 ^ 2); [apply Rmult_lt_compat_l; lra|apply Rmult_le_compat_r; lra].
Qed.
Definition cy_dm (m : R) : R := Rmin (Rmax m 5) 6.5 - 5.
Lemma cy_dm_in m : 0 <= cy_dm m <= 1.5.
Proof. unfold cy_dm. unfold Rmax; repeat match goal with |- context [Rle_dec ?a ?b] => destruct (Rle_dec a b) end; unfold Rmin; repeat match goal with |- context [Rle_dec ?a ?b] => destruct (Rle_dec a b) end; lra. Qed.
Lemma cy_dm_le m1 m2 : m1 <= m2 -> cy_dm m1 <= cy_dm m2 /\ (m1 < 6.5 -> 5 < m2 -> m1 < m2 -> cy_dm m1 < cy_dm m2).
Proof. intros H. unfold cy_dm. split; intros; unfold Rmax; repeat match goal with |- context [Rle_dec ?a ?b] => destruct (Rle_dec a b) end; unfold Rmin; repeat match goal with |- context [Rle_dec ?a ?b] => destruct (Rle_dec a b) end; lra. Qed.
Definition cy_slope (a b dm : R) : R := a + (b - a) / 1.5 * dm.
Lemma cy_slope_le a b m1 m2 : 0 <= b <= a -> m1 <= m2 -> 0 <= cy_slope a b (cy_dm m2) <= cy_slope a b (cy_dm m1).
Proof.
  intros H Hm. unfold cy_slope. pose proof (cy_dm_in m1). pose proof (cy_dm_in m2). destruct (cy_dm_le m1 m2 Hm) as [L _].
  set (d1 := cy_dm m1) in *. set (d2 := cy_dm m2) in *. clearbody d1 d2. replace ((b - a) / 1.5) with (- ((a - b) / 1.5)) by (unfold Rdiv; ring).
  assert (0 <= (a - b) / 1.5) by lra. assert (K : (a - b) / 1.5 * 1.5 = a - b) by lra. set (k := (a - b) / 1.5) in *. clearbody k.
  split; nra.
Qed.
Lemma cy_slope_lt a b m1 m2 : 0 < b < a -> m1 < m2 -> m1 < 6.5 -> 5 < m2 -> 0 < cy_slope a b (cy_dm m2) < cy_slope a b (cy_dm m1).
Proof.
  intros H Hm M1 M2. unfold cy_slope. pose proof (cy_dm_in m1). pose proof (cy_dm_in m2). destruct (cy_dm_le m1 m2 ltac:(lra)) as [_ L]. specialize (L M1 M2 Hm).
  set (d1 := cy_dm m1) in *. set (d2 := cy_dm m2) in *. clearbody d1 d2. replace ((b - a) / 1.5) with (- ((a - b) / 1.5)) by (unfold Rdiv; ring).
  assert (0 < (a - b) / 1.5) by (apply Rdiv_lt_0_compat; lra). assert (K : (a - b) / 1.5 * 1.5 = a - b) by lra. set (k := (a - b) / 1.5) in *. clearbody k.
  split; nra.
Qed.
Definition cy_s2 (c : cy14_row) (a : nga) : R := if String.eqb (cy_reg a) "japan" then Q2R (cy14_sigma_2jp c) else Q2R (cy14_sigma_2 c).
Definition cy_k (c : cy14_row) (a : nga) : R := if cy_measured a then 0.7 else Q2R (cy14_sigma_3 c).
Lemma cy_sd_mag c x a m : cy_sd c x (with_mag a m) = sqrt (cy_var (cy_k c a) (cy_b c (n_v a)) (exp (cy_ref c x (with_mag a m))) (Q2R (cy14_phi_4 c))
  (cy_slope (Q2R (cy14_tau_1 c)) (Q2R (cy14_tau_2 c)) (cy_dm m)) (cy_slope (Q2R (cy14_sigma_1 c)) (cy_s2 c a) (cy_dm m))).
Proof. destruct a. reflexivity. Qed.
Lemma cy_sd_falls c x a m1 m2 : In c cy14_coeff -> hw_off a -> n_tor a = None -> n_dpp a = None -> 180 <= n_v a -> 0 <= n_rup a -> cy_same a m1 m2 -> m1 < m2 -> m2 <= 10 ->
  cy_s2 c a <= Q2R (cy14_sigma_1 c) -> let s1 := cy_sd c x (with_mag a m1) in let s2 := cy_sd c x (with_mag a m2) in s2 <= s1 /\ (m1 < 6.5 -> 5 < m2 -> s2 < s1).
Proof.
  intros Hc Hw Ht Hd Hv Hr Hs H12 H10 HS. cbv zeta. rewrite !cy_sd_mag. pose proof (cy_ref_grows c x a m1 m2 Hc Hw Ht Hd Hr Hs H12 H10) as G.
  pose proof (cy14_f2_bound c (n_v a) Hc Hv) as B. replace 1130.0 with 1130 in B by lra. replace 360.0 with 360 in B by lra. fold (cy_b c (n_v a)) in B.
  row_pos Hc cy14_phi_4 as P. row_lt Hc cy14_tau_2 cy14_tau_1 as T1. row_pos Hc cy14_tau_2 as T2. row_pos Hc cy14_sigma_2 as S1. row_pos Hc cy14_sigma_2jp as S2. row_pos Hc cy14_sigma_3 as S3.
  assert (K : 0 <= cy_k c a) by (unfold cy_k; destruct (cy_measured a); lra). assert (S0 : 0 <= cy_s2 c a) by (unfold cy_s2; destruct (String.eqb _ _); lra).
  pose proof (exp_pos (cy_ref c x (with_mag a m1))) as Y1. pose proof (exp_increasing _ _ G) as Y2.
  pose proof (cy_slope_le _ _ m1 m2 (conj S0 HS) ltac:(lra)) as SS.
  pose proof (cy_slope_le (Q2R (cy14_tau_1 c)) (Q2R (cy14_tau_2 c)) m1 m2 ltac:(lra) ltac:(lra)) as TT.
  assert (TP : 0 < cy_slope (Q2R (cy14_tau_1 c)) (Q2R (cy14_tau_2 c)) (cy_dm m2)).
  { unfold cy_slope. pose proof (cy_dm_in m2). assert (K' : (Q2R (cy14_tau_2 c) - Q2R (cy14_tau_1 c)) / 1.5 * 1.5 = Q2R (cy14_tau_2 c) - Q2R (cy14_tau_1 c)) by lra.
    set (k := (Q2R (cy14_tau_2 c) - Q2R (cy14_tau_1 c)) / 1.5) in *. clearbody k. nra. }
  pose proof (cy_var_le (cy_k c a) (cy_b c (n_v a)) (exp (cy_ref c x (with_mag a m1))) (exp (cy_ref c x (with_mag a m2))) (Q2R (cy14_phi_4 c))
    (cy_slope (Q2R (cy14_tau_1 c)) (Q2R (cy14_tau_2 c)) (cy_dm m1)) (cy_slope (Q2R (cy14_tau_1 c)) (Q2R (cy14_tau_2 c)) (cy_dm m2))
    (cy_slope (Q2R (cy14_sigma_1 c)) (cy_s2 c a) (cy_dm m1)) (cy_slope (Q2R (cy14_sigma_1 c)) (cy_s2 c a) (cy_dm m2)) K B ltac:(lra) ltac:(lra) ltac:(lra) SS) as (V0 & V1 & V2).
  split; [apply sqrt_le_1_alt, V1|]. intros M1 M2. apply sqrt_lt_1_alt. split; [exact V0|]. apply V2, cy_slope_lt; lra.
Qed.
Lemma cy_std_falls src1 src2 a x m1 m2 : nga_gives src1 (with_mag a m1) -> nga_gives src2 (with_mag a m2) ->
  n_x a = Some x -> hw_off a -> n_tor a = None -> n_dpp a = None -> 180 <= n_v a -> 0 <= n_rup a -> cy_same a m1 m2 -> m1 < m2 -> m2 <= 10 ->
  let falls s1 s2 := s2 <= s1 /\ (m1 < 6.5 -> 5 < m2 -> s2 < s1) in
  compares_std (cy14 src1) (cy14 src2) (fun T s1 s2 => cy_reg a <> "japan" \/ T <= 0.1 \/ 0.15 <= T <= 0.5 \/ 5 <= T -> falls s1 s2) falls falls.
Proof.
  intros G1 G2 Hx Hw Ht Hd Hv Hr Hs H12 H10 falls.
  assert (K : forall c, In c cy14_coeff -> cy_reg a <> "japan" \/ Q2R (cy14_period c) <= 0.1 \/ 0.15 <= Q2R (cy14_period c) <= 0.5 \/ 5 <= Q2R (cy14_period c) -> falls (cy_sd c x (with_mag a m1)) (cy_sd c x (with_mag a m2))).
  { intros c Hc HP. apply cy_sd_falls; try assumption. unfold cy_s2. row_le Hc cy14_sigma_2 cy14_sigma_1 as S.
    destruct (String.eqb (cy_reg a) "japan") eqn:EJ; [|exact S]. destruct HP as [HP|HP]; [apply String.eqb_eq in EJ; contradiction|].
    apply (rows_when_le cy14_coeff (fun c => orb (Qle_bool (cy14_period c) (1#10)) (orb (andb (Qle_bool (15#100) (cy14_period c)) (Qle_bool (cy14_period c) (5#10))) (Qle_bool (5#1) (cy14_period c))))
      cy14_sigma_2jp cy14_sigma_1 ltac:(vm_compute; reflexivity) c Hc). apply Bool.orb_true_iff. destruct HP as [HP|HP]; [left; apply Rle_Qleb; rq|right].
    apply Bool.orb_true_iff. destruct HP as [HP|HP]; [left; apply andb_true_intro; split; apply Rle_Qleb; rq|right; apply Rle_Qleb; rq]. }
  eapply rep_std; [apply (cy_reports _ _ x G1); destruct a; cbn in *; (assumption || lra)|apply (cy_reports _ _ x G2); destruct a; cbn in *; (assumption || lra)|..]; cbv beta.
  - intros c Hc HP. apply K; [apply cy_rows; right; right; exact Hc|exact HP].
  - apply K; [apply cy14_pga_in|right; left; cbn; rq].
  - apply K; [apply cy14_pgv_in|right; left; cbn; rq].
Qed.
Lemma cy_std_japan_rises src1 src2 a x : nga_gives src1 (with_mag a 6.3) -> nga_gives src2 (with_mag a 6.5) -> n_x a = Some x -> 1130 <= n_v a -> 0 <= n_rup a -> n_region a = Some "japan" ->
  compares_std (cy14 src1) (cy14 src2) (fun T s1 s2 => 1.5 <= T <= 2 -> s1 < s2) (fun _ _ => True) (fun _ _ => True).
Proof.
  intros G1 G2 Hx Hv Hr HJ.
  eapply rep_std; [apply (cy_reports _ _ x G1); destruct a; cbn in *; (assumption || lra)|apply (cy_reports _ _ x G2); destruct a; cbn in *; (assumption || lra)|..]; cbv beta; try exact I.
  intros c Hc HT. pose proof (cy_rows c (or_intror (or_intror Hc))) as Hc'. rewrite !cy_sd_mag.
  assert (EB : cy_b c (n_v a) = 0) by (unfold cy_b; rewrite Rmin_right by lra; ring). rewrite EB. unfold cy_var. cbv zeta. rewrite !Rmult_0_l, !Rplus_0_r, !pow1, !Rmult_1_l.
  replace (cy_s2 c a) with (Q2R (cy14_sigma_2jp c)) by (unfold cy_s2, cy_reg; rewrite HJ; reflexivity).
  assert (D1 : cy_dm 6.3 = 1.3) by (unfold cy_dm; rewrite Rmax_left, Rmin_left by lra; lra). assert (D2 : cy_dm 6.5 = 1.5) by (unfold cy_dm; rewrite Rmax_left, Rmin_left by lra; lra). rewrite D1, D2.
  assert (K : 0.7 <= cy_k c a). { unfold cy_k. row_ge Hc' (7#10)%Q cy14_sigma_3 as S3. destruct (cy_measured a); lra. }
  assert (P : andb (Qle_bool (15#10) (cy14_period c)) (Qle_bool (cy14_period c) (2#1)) = true) by (apply andb_true_intro; split; apply Rle_Qleb; rq).
  pose proof (rows_when_lt cy14_coeff (fun c => andb (Qle_bool (15#10) (cy14_period c)) (Qle_bool (cy14_period c) (2#1))) cy14_sigma_1 cy14_sigma_2jp ltac:(vm_compute; reflexivity) c Hc' P) as A1.
  pose proof (rows_when_lt cy14_coeff (fun c => andb (Qle_bool (15#10) (cy14_period c)) (Qle_bool (cy14_period c) (2#1)))
    (fun c => (let t := (2#1) * cy14_tau_1 c + (13#1) * cy14_tau_2 c in let s := (2#1) * cy14_sigma_1 c + (13#1) * cy14_sigma_2jp c in t * t + s * s * (17#10))%Q)
    (fun c => (let t := (15#1) * cy14_tau_2 c in let s := (15#1) * cy14_sigma_2jp c in t * t + s * s * (17#10))%Q) ltac:(vm_compute; reflexivity) c Hc' P) as A2.
  cbv beta zeta in A2. qnorm_in A2. row_pos Hc' cy14_sigma_1 as A3.
  unfold cy_slope. set (t1 := Q2R (cy14_tau_1 c)) in *. set (t2 := Q2R (cy14_tau_2 c)) in *. set (p1 := Q2R (cy14_sigma_1 c)) in *. set (p2 := Q2R (cy14_sigma_2jp c)) in *. set (k := cy_k c a) in *.
  clearbody t1 t2 p1 p2 k. clear - A1 A2 A3 K.
  replace (t1 + (t2 - t1) / 1.5 * 1.5) with t2 by lra. replace (p1 + (p2 - p1) / 1.5 * 1.5) with p2 by lra.
  replace (t1 + (t2 - t1) / 1.5 * 1.3) with ((2 * t1 + 13 * t2) / 15) by lra. replace (p1 + (p2 - p1) / 1.5 * 1.3) with ((2 * p1 + 13 * p2) / 15) by lra.
  rewrite !Rpow_mult_distr, !pow2_sqrt by lra.
  set (t := (2 * t1 + 13 * t2) / 15). set (p := (2 * p1 + 13 * p2) / 15). assert (ET : 2 * t1 + 13 * t2 = 15 * t) by (unfold t; field). assert (EP : 2 * p1 + 13 * p2 = 15 * p) by (unfold p; field).
  assert (A2' : (15 * t) * (15 * t) + (15 * p) * (15 * p) * 1.7 < (15 * t2) * (15 * t2) + (15 * p2) * (15 * p2) * 1.7) by (rewrite <- ET, <- EP; lra). assert (0 < p < p2) by lra. clear A2. clearbody t p.
  assert (X : t ^ 2 + p ^ 2 * 1.7 < t2 ^ 2 + p2 ^ 2 * 1.7) by lra. assert (Y : p ^ 2 <= p2 ^ 2) by (apply pow_incr; lra). pose proof (pow2_ge_0 t). pose proof (pow2_ge_0 p).
  assert (Z : p ^ 2 * (k - 0.7) <= p2 ^ 2 * (k - 0.7)) by (apply Rmult_le_compat_r; lra). assert (0 <= p ^ 2 * (k + 1)) by (apply Rmult_le_pos; lra).
  apply sqrt_lt_1_alt. split; lra.
Qed.

(** ** Abrahamson et al. (2014) on rock *)
Definition as_phi (c : ask14_row) (a : nga) (m : R) : R := ask14_phi_spec c (String.eqb (as_reg a) "japan") (as_measured a) m (n_rup a).
Lemma as_sd_mag c a m : In c ask14_coeff -> 960 <= n_v a -> as_sd c (with_mag a m) = sqrt (ask14_tau_spec c m ^ 2 + Rmax (as_phi c a m ^ 2) (0.4 ^ 2)).
Proof.
  intros Hc Hv. row_upto Hc ask14_v_lin (960#1)%Q as K. unfold as_sd, as_phi. cbv zeta.
  replace (n_v (with_mag a m)) with (n_v a) by (destruct a; reflexivity). replace (n_mag (with_mag a m)) with m by (destruct a; reflexivity).
  replace (as_reg (with_mag a m)) with (as_reg a) by (destruct a; reflexivity). replace (as_measured (with_mag a m)) with (as_measured a) by (destruct a; reflexivity).
  replace (n_rup (with_mag a m)) with (n_rup a) by (destruct a; reflexivity).
  unfold as_d at 1 2. destruct (Rle_dec (Q2R (ask14_v_lin c)) _) as [_|N]; [|exfalso; lra].
  f_equal. rewrite Rplus_0_r, pow1, !Rmult_1_r. f_equal. set (q := ask14_phi_spec _ _ _ _ _ ^ 2). clearbody q. unfold Rmax. destruct (Rle_dec (q - _) 0), (Rle_dec q _); lra.
Qed.
Lemma ramp_fall x0 y0 x1 y1 u w : x0 < x1 -> y1 <= y0 -> u <= w -> y1 <= ramp x0 y0 x1 y1 w <= ramp x0 y0 x1 y1 u.
Proof.
  intros Hx Hy H. rewrite <- !clip01_ramp by exact Hx. pose proof (clip01_range ((w - x0) / (x1 - x0))) as [L U].
  assert (clip01 ((u - x0) / (x1 - x0)) <= clip01 ((w - x0) / (x1 - x0))).
  { apply clip01_mono. unfold Rdiv. apply Rmult_le_compat_r; [left; apply Rinv_0_lt_compat; lra|lra]. }
  set (p := clip01 ((u - x0) / _)) in *. set (q := clip01 _) in *. clearbody p q. split; nra.
Qed.
Lemma ramp_fall_lt x0 y0 x1 y1 u w : x0 < x1 -> y1 < y0 -> u < w -> u < x1 -> x0 < w -> ramp x0 y0 x1 y1 w < ramp x0 y0 x1 y1 u.
Proof.
  intros Hx Hy H H1 H2. rewrite <- !clip01_ramp by exact Hx.
  assert (clip01 ((u - x0) / (x1 - x0)) < clip01 ((w - x0) / (x1 - x0))).
  { apply clip01_lt; [|apply Rdiv_lt_0_compat; lra|unfold Rdiv; apply Rmult_lt_compat_r; [apply Rinv_0_lt_compat; lra|lra]].
    apply (Rmult_lt_reg_r (x1 - x0)); [lra|]. unfold Rdiv. rewrite Rmult_assoc, Rinv_l by lra. lra. }
  set (p := clip01 ((u - x0) / _)) in *. set (q := clip01 _) in *. clearbody p q. nra.
Qed.
Lemma sq_le x y : 0 <= x <= y -> x ^ 2 <= y ^ 2.
Proof. intros H. apply pow_incr, H. Qed.
Lemma as_phi_falls c a m1 m2 : In c ask14_coeff -> as_reg a = "japan" \/ Q2R (ask14_period c) <= 0.75 -> m1 <= m2 -> 0 <= as_phi c a m2 <= as_phi c a m1.
Proof.
  intros Hc HP H. unfold as_phi, ask14_phi_spec. destruct (String.eqb (as_reg a) "japan") eqn:EJ.
  - row_pos Hc ask14_s5 as A5. row_pos Hc ask14_s6 as A6. pose proof (ramp_between 30 (Q2R (ask14_s5 c)) 80 (Q2R (ask14_s6 c)) (n_rup a) ltac:(lra)) as B.
    split; [|lra]. apply Rle_trans with (2 := proj1 B). apply Rmin_glb; lra.
  - destruct HP as [HP|HP]; [apply String.eqb_neq in EJ; contradiction|]. row_pos Hc ask14_s2m as A2m. row_pos Hc ask14_s2e as A2e.
    assert (P : Qle_bool (ask14_period c) (75#100) = true) by (apply Rle_Qleb; rq).
    pose proof (rows_when_le ask14_coeff (fun c => Qle_bool (ask14_period c) (75#100)) ask14_s2m ask14_s1m ltac:(vm_compute; reflexivity) c Hc P) as B1.
    pose proof (rows_when_le ask14_coeff (fun c => Qle_bool (ask14_period c) (75#100)) ask14_s2e ask14_s1e ltac:(vm_compute; reflexivity) c Hc P) as B2.
    destruct (as_measured a).
    + pose proof (ramp_fall 4 (Q2R (ask14_s1m c)) 6 (Q2R (ask14_s2m c)) m1 m2 ltac:(lra) B1 H). lra.
    + pose proof (ramp_fall 4 (Q2R (ask14_s1e c)) 6 (Q2R (ask14_s2e c)) m1 m2 ltac:(lra) B2 H). lra.
Qed.
Lemma as_side src a t m : nga_gives src (with_mag a m) -> n_mech a = Some t -> as_geom a -> match n_z1 a with Some z => 0 <= z | None => True end -> 960 <= n_v a ->
  reports (ask14 src) ask14_psa ask14_pga_row ask14_pgv_row ask14_period (fun c => as_med c (with_mag a m)) (fun c => as_sd c (with_mag a m)).
Proof. intros G Ht HG Hz Hv. apply (as_reports _ _ t G); destruct a; [exact Ht|cbn in *; lra|exact HG|exact Hz]. Qed.
Lemma as_std_falls src1 src2 a t m1 m2 : nga_gives src1 (with_mag a m1) -> nga_gives src2 (with_mag a m2) -> n_mech a = Some t -> as_geom a ->
  match n_z1 a with Some z => 0 <= z | None => True end -> 960 <= n_v a -> m1 < m2 ->
  let falls s1 s2 := s2 <= s1 /\ (m1 < 7 -> 5 < m2 -> s2 < s1) in
  compares_std (ask14 src1) (ask14 src2) (fun T s1 s2 => as_reg a = "japan" \/ T <= 0.75 -> falls s1 s2) falls (fun s1 s2 => s2 <= s1).
Proof.
  intros G1 G2 Ht HG Hz Hv H12 falls.
  assert (K : forall c, In c ask14_coeff -> as_reg a = "japan" \/ Q2R (ask14_period c) <= 0.75 ->
    as_sd c (with_mag a m2) <= as_sd c (with_mag a m1) /\ (Q2R (ask14_s4 c) < Q2R (ask14_s3 c) -> m1 < 7 -> 5 < m2 -> as_sd c (with_mag a m2) < as_sd c (with_mag a m1))).
  { intros c Hc HP. rewrite !as_sd_mag by assumption. pose proof (sq_le _ _ (as_phi_falls c a m1 m2 Hc HP ltac:(lra))) as P. row_le Hc ask14_s4 ask14_s3 as S34. row_pos Hc ask14_s4 as S4.
    pose proof (ramp_fall 5 (Q2R (ask14_s3 c)) 7 (Q2R (ask14_s4 c)) m1 m2 ltac:(lra) ltac:(lra) ltac:(lra)) as T. fold (ask14_tau_spec c m1) (ask14_tau_spec c m2) in T.
    pose proof (Rle_max_compat_r (as_phi c a m2 ^ 2) (as_phi c a m1 ^ 2) (0.4 ^ 2) P) as M. pose proof (Rmax_r (as_phi c a m2 ^ 2) (0.4 ^ 2)) as M2.
    set (X2 := Rmax (as_phi c a m2 ^ 2) _) in *. set (X1 := Rmax (as_phi c a m1 ^ 2) _) in *.
    split.
    - apply sqrt_le_1_alt, Rplus_le_compat; [apply sq_le; lra|exact M].
    - intros L1 L2 L3. pose proof (ramp_fall_lt 5 (Q2R (ask14_s3 c)) 7 (Q2R (ask14_s4 c)) m1 m2 ltac:(lra) L1 H12 L2 L3) as T'. fold (ask14_tau_spec c m1) (ask14_tau_spec c m2) in T'.
      clearbody X1 X2. set (t1 := ask14_tau_spec c m1) in *. set (t2 := ask14_tau_spec c m2) in *. clearbody t1 t2. apply sqrt_lt_1_alt. split; nra. }
  eapply rep_std; [exact (as_side _ _ _ _ G1 Ht HG Hz Hv)|exact (as_side _ _ _ _ G2 Ht HG Hz Hv)|..]; cbv beta.
  - intros c Hc HP. pose proof (as_rows c (or_intror (or_intror Hc))) as Hc'. destruct (K c Hc' HP) as [K1 K2]. split; [exact K1|]. apply K2.
    apply (rows_lt ask14_psa ask14_s4 ask14_s3 ltac:(vm_compute; reflexivity) c Hc).
  - destruct (K _ ask14_pga_in ltac:(right; cbn; rq)) as [K1 K2]. split; [exact K1|]. apply K2. cbn. rq.
  - apply (K _ ask14_pgv_in). right. cbn. rq.
Qed.
Lemma as_std_rises src1 src2 a t : nga_gives src1 (with_mag a 4) -> nga_gives src2 (with_mag a 5) -> n_mech a = Some t -> as_geom a ->
  match n_z1 a with Some z => 0 <= z | None => True end -> 960 <= n_v a -> as_reg a <> "japan" ->
  compares_std (ask14 src1) (ask14 src2) (fun T s1 s2 => 1 <= T -> s1 < s2) (fun _ _ => True) (fun _ _ => True).
Proof.
  intros G1 G2 Ht HG Hz Hv HJ.
  eapply rep_std; [exact (as_side _ _ _ _ G1 Ht HG Hz Hv)|exact (as_side _ _ _ _ G2 Ht HG Hz Hv)|..]; cbv beta; try exact I.
  intros c Hc HT. pose proof (as_rows c (or_intror (or_intror Hc))) as Hc'. rewrite !as_sd_mag by assumption.
  assert (E : ask14_tau_spec c 4 = ask14_tau_spec c 5).
  { unfold ask14_tau_spec, ramp. destruct (Rle_dec 4 5) as [_|?]; [|exfalso; lra]. destruct (Rle_dec 5 5) as [_|?]; [reflexivity|exfalso; lra]. }
  assert (P : Qle_bool (1#1) (ask14_period c) = true) by (apply Rle_Qleb; rq).
  pose proof (rows_when_lt ask14_coeff (fun c => Qle_bool (1#1) (ask14_period c)) ask14_s1m ask14_s2m ltac:(vm_compute; reflexivity) c Hc' P) as B1.
  pose proof (rows_when_lt ask14_coeff (fun c => Qle_bool (1#1) (ask14_period c)) ask14_s1e ask14_s2e ltac:(vm_compute; reflexivity) c Hc' P) as B2.
  pose proof (rows_when_lt ask14_coeff (fun c => Qle_bool (1#1) (ask14_period c)) (fun _ => (8#10)%Q) (fun c => (ask14_s1m c + ask14_s2m c)%Q) ltac:(vm_compute; reflexivity) c Hc' P) as B3.
  pose proof (rows_when_lt ask14_coeff (fun c => Qle_bool (1#1) (ask14_period c)) (fun _ => (8#10)%Q) (fun c => (ask14_s1e c + ask14_s2e c)%Q) ltac:(vm_compute; reflexivity) c Hc' P) as B4.
  cbv beta in B3, B4. qnorm_in B3. qnorm_in B4. row_pos Hc' ask14_s1m as B5. row_pos Hc' ask14_s1e as B6.
  assert (L : 0 <= as_phi c a 4 < as_phi c a 5 /\ 0.4 < as_phi c a 5).
  { unfold as_phi, ask14_phi_spec. apply String.eqb_neq in HJ. rewrite HJ. unfold ramp. destruct (Rle_dec 4 4) as [_|?]; [|exfalso; lra]. destruct (Rle_dec 5 4) as [?|_]; [exfalso; lra|].
    destruct (Rle_dec 6 5) as [?|_]; [exfalso; lra|]. destruct (as_measured a); lra. }
  rewrite E. apply sqrt_lt_1_alt. pose proof (pow2_ge_0 (ask14_tau_spec c 5)). pose proof (Rmax_r (as_phi c a 4 ^ 2) (0.4 ^ 2)). set (p := as_phi c a 4) in *. set (q := as_phi c a 5) in *. clearbody p q.
  split; [lra|]. apply Rplus_lt_compat_l. apply Rlt_le_trans with (2 := Rmax_l _ _). apply Rmax_lub_lt; nra.
Qed.

(** ** Campbell & Bozorgnia (2014) on rock *)
Lemma squares_rise_lt t1 t2 p1 p2 u1 u2 : 0 <= (t2 - t1) * t1 + (p2 - p1) * p1 -> p1 < p2 -> 0 <= u1 < u2 ->
  (t1 + (t2 - t1) * u1) ^ 2 + (p1 + (p2 - p1) * u1) ^ 2 < (t1 + (t2 - t1) * u2) ^ 2 + (p1 + (p2 - p1) * u2) ^ 2.
Proof.
  intros H Hp H1.
  assert (E : (t1 + (t2 - t1) * u2) ^ 2 + (p1 + (p2 - p1) * u2) ^ 2 - ((t1 + (t2 - t1) * u1) ^ 2 + (p1 + (p2 - p1) * u1) ^ 2) =
    (u2 - u1) * (2 * ((t2 - t1) * t1 + (p2 - p1) * p1) + ((t2 - t1) ^ 2 + (p2 - p1) ^ 2) * (u1 + u2))) by ring.
  assert (0 < ((t2 - t1) ^ 2 + (p2 - p1) ^ 2) * (u1 + u2)).
  { apply Rmult_lt_0_compat; [|lra]. pose proof (pow2_ge_0 (t2 - t1)). assert (0 < (p2 - p1) ^ 2) by (apply pow_lt; lra). lra. }
  assert (0 < (u2 - u1) * (2 * ((t2 - t1) * t1 + (p2 - p1) * p1) + ((t2 - t1) ^ 2 + (p2 - p1) ^ 2) * (u1 + u2))) by (apply Rmult_lt_0_compat; lra). lra.
Qed.
Definition cb_u (m : R) : R := clip01 ((m - 4.5) / (5.5 - 4.5)).
Lemma cb_sd_mag c x a m : In c cb14_coeff -> 1086 <= n_v a -> cb_sd cb14_pga_row c x (with_mag a m) =
  sqrt ((Q2R (cb14_tau_1 c) + (Q2R (cb14_tau_2 c) - Q2R (cb14_tau_1 c)) * cb_u m) ^ 2 + (Q2R (cb14_phi_1 c) + (Q2R (cb14_phi_2 c) - Q2R (cb14_phi_1 c)) * cb_u m) ^ 2).
Proof.
  intros Hc Hv. row_upto Hc cb14_k_1 (1086#1)%Q as K. unfold cb_sd. cbv zeta.
  replace (n_v (with_mag a m)) with (n_v a) by (destruct a; reflexivity). replace (n_mag (with_mag a m)) with m by (destruct a; reflexivity).
  assert (EA : forall p, cb_al c (n_v a) p = 0) by (intros p; unfold cb_al; cbv zeta; destruct (Rlt_dec (n_v a) (Q2R (cb14_k_1 c))); [exfalso; lra|reflexivity]). rewrite EA.
  row_le Hc cb14_phi_lnAF cb14_phi_1 as F1. row_le Hc cb14_phi_lnAF cb14_phi_2 as F2. row_ge Hc (0#1)%Q cb14_phi_lnAF as F0.
  pose proof (ramp_between 4.5 (Q2R (cb14_phi_1 c)) 5.5 (Q2R (cb14_phi_2 c)) m ltac:(lra)) as B. fold (cb14_phi_spec c m) in B.
  assert (LB : Q2R (cb14_phi_lnAF c) <= cb14_phi_spec c m) by (apply Rle_trans with (2 := proj1 B), Rmin_glb; lra).
  rewrite pow2_sqrt by (assert (Q2R (cb14_phi_lnAF c) ^ 2 <= cb14_phi_spec c m ^ 2) by (apply sq_le; lra); lra).
  unfold cb_u. rewrite !clip01_ramp by lra. fold (cb14_phi_spec c m) (cb14_tau_spec c m). f_equal. ring.
Qed.
Lemma cb_side src a x t m : nga_gives src (with_mag a m) -> n_x a = Some x -> n_mech a = Some t -> cb_geom x (with_mag a m) -> 1086 <= n_v a ->
  reports (cb14 src) cb14_psa cb14_pga_row cb14_pgv_row cb14_period (fun c => cb_med cb14_pga_row c x (with_mag a m)) (fun c => cb_sd cb14_pga_row c x (with_mag a m)).
Proof. intros G Hx Ht (D & Z & H) Hv. apply (cb_reports _ _ x t G); try assumption; destruct a; [exact Hx|exact Ht|cbn in *; lra]. Qed.
Lemma cb_std_falls src1 src2 a x t m1 m2 : nga_gives src1 (with_mag a m1) -> nga_gives src2 (with_mag a m2) -> n_x a = Some x -> n_mech a = Some t ->
  cb_geom x (with_mag a m1) -> cb_geom x (with_mag a m2) -> 1086 <= n_v a -> m1 < m2 ->
  let falls s1 s2 := s2 <= s1 /\ (m1 < 5.5 -> 4.5 < m2 -> s2 < s1) in
  compares_std (cb14 src1) (cb14 src2) (fun T s1 s2 => (T <= 5 -> falls s1 s2) /\ (T = 10 -> m1 < 5.5 -> 4.5 < m2 -> s1 < s2)) falls falls.
Proof.
  intros G1 G2 Hx Ht C1 C2 Hv H12 falls.
  assert (U1 : 0 <= cb_u m1 <= 1) by apply clip01_range. assert (U2 : 0 <= cb_u m2 <= 1) by apply clip01_range.
  assert (UL : cb_u m1 <= cb_u m2) by (apply clip01_mono; lra). assert (UL' : m1 < 5.5 -> 4.5 < m2 -> cb_u m1 < cb_u m2) by (intros; apply clip01_lt; lra).
  assert (K : forall c, In c cb14_coeff -> Q2R (cb14_period c) <= 5 -> falls (cb_sd cb14_pga_row c x (with_mag a m1)) (cb_sd cb14_pga_row c x (with_mag a m2))).
  { intros c Hc HT. rewrite !cb_sd_mag by assumption. assert (P : Qle_bool (cb14_period c) (5#1) = true) by (apply Rle_Qleb; rq).
    pose proof (rows_when_lt cb14_coeff (fun c => Qle_bool (cb14_period c) (5#1)) (fun c => ((cb14_tau_2 c - cb14_tau_1 c) * cb14_tau_2 c + (cb14_phi_2 c - cb14_phi_1 c) * cb14_phi_2 c)%Q) (fun _ => (0#1)%Q)
      ltac:(vm_compute; reflexivity) c Hc P) as S. cbv beta in S. qnorm_in S.
    pose proof (squares_fall (Q2R (cb14_tau_1 c)) (Q2R (cb14_tau_2 c)) (Q2R (cb14_phi_1 c)) (Q2R (cb14_phi_2 c)) 0 (cb_u m1) (cb_u m2) ltac:(lra) ltac:(lra) ltac:(lra)) as S1.
    pose proof (fun H => squares_fall_lt (Q2R (cb14_tau_1 c)) (Q2R (cb14_tau_2 c)) (Q2R (cb14_phi_1 c)) (Q2R (cb14_phi_2 c)) 0 (cb_u m1) (cb_u m2) ltac:(lra) (conj (proj1 U1) H) ltac:(lra)) as S2.
    rewrite !Rplus_0_r in S1, S2. split; [apply sqrt_le_1_alt, S1|]. intros L1 L2. apply sqrt_lt_1_alt. split; [|apply S2, UL'; assumption].
    match goal with |- 0 <= ?x ^ 2 + ?y ^ 2 => pose proof (pow2_ge_0 x); pose proof (pow2_ge_0 y); lra end. }
  eapply rep_std; [exact (cb_side _ _ _ _ _ G1 Hx Ht C1 Hv)|exact (cb_side _ _ _ _ _ G2 Hx Ht C2 Hv)|..]; cbv beta.
  - intros c Hc. pose proof (cb_rows c (or_intror (or_intror Hc))) as Hc'. split; [apply K, Hc'|]. intros HT L1 L2. rewrite !cb_sd_mag by assumption.
    assert (P : Qle_bool (10#1) (cb14_period c) = true) by (apply Rle_Qleb; rq).
    pose proof (rows_when_le cb14_coeff (fun c => Qle_bool (10#1) (cb14_period c)) (fun _ => (0#1)%Q) (fun c => ((cb14_tau_2 c - cb14_tau_1 c) * cb14_tau_1 c + (cb14_phi_2 c - cb14_phi_1 c) * cb14_phi_1 c)%Q)
      ltac:(vm_compute; reflexivity) c Hc' P) as S. cbv beta in S. qnorm_in S.
    pose proof (rows_when_lt cb14_coeff (fun c => Qle_bool (10#1) (cb14_period c)) cb14_phi_1 cb14_phi_2 ltac:(vm_compute; reflexivity) c Hc' P) as S1.
    apply sqrt_lt_1_alt. split; [match goal with |- 0 <= ?x ^ 2 + ?y ^ 2 => pose proof (pow2_ge_0 x); pose proof (pow2_ge_0 y); lra end|].
    apply squares_rise_lt; [lra|exact S1|]. split; [lra|apply UL'; assumption].
  - apply K; [apply cb14_pga_in|cbn; rq].
  - apply K; [apply cb14_pgv_in|cbn; rq].
Qed.
