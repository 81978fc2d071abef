(** * Property C133: short-period accelerations and PGA in CB14 *)
From Coquelicot Require Import Coquelicot.
From Interval Require Import Tactic.
From Coq Require Import List.
From Verif Require Import FrameworkProofs SpecNga Nga M_cb14 P_cb14 Outs Spec_cy14 Spec_cb14 Properties_NGAPub Properties_NGAPub2 P_ngacont Properties_NGACont.
Open Scope R_scope.
Open Scope string_scope.
Open Scope list_scope.
Definition cb14_015 : cb14_row := nth 6 cb14_psa cb14_row0.
Lemma floor_num m r v : 8 <= m <= 8.5 -> 270 <= r <= 300 -> 1100 <= v <= 1500 ->
  cb_fmag cb14_015 m + cb_fdis cb14_015 m r + cb_fatn cb14_015 "global" r + cb_fsite cb14_015 "global" v 1 + 0.11
  <= cb_fmag cb14_pga_row m + cb_fdis cb14_pga_row m r + cb_fatn cb14_pga_row "global" r + cb_fsite cb14_pga_row "global" v 1.
Proof.
  intros Hm Hr Hv. unfold cb_fmag, cb_fdis, cb_fatn, cb_fsite. cbv zeta.
  change cb14_015 with ltac:(let x := eval cbv in cb14_015 in exact x).
  change cb14_pga_row with ltac:(let x := eval cbv in cb14_pga_row in exact x).
  cbn [String.eqb Ascii.eqb Bool.eqb orb cb14_c_0 cb14_c_1 cb14_c_2 cb14_c_3 cb14_c_4 cb14_c_5 cb14_c_6 cb14_c_7 cb14_c_11 cb14_k_1 cb14_k_2 cb14_c_20 cb14_dc_20ca]. unfold Q2R. cbn [Qnum Qden].
  destruct (Rle_dec v _) as [NL|NL]; [lra|]. destruct (Rle_dec v _) as [NM|NM]; [lra|].
  rewrite !Rmax_left by lra.
  match goal with |- ?a <= ?b => cut (0 <= b - a); [lra|] end.
  set (L1 := ln (sqrt (r ^ 2 + (6768 * / 1000) ^ 2))). set (L2 := ln (sqrt (r ^ 2 + (8031 * / 1000) ^ 2))).
  assert (B1 : 5.598 <= L1) by (unfold L1; interval with (i_prec 50)).
  assert (B2 : L2 - L1 <= 0.0003).
  { unfold L1, L2. rewrite <- Rcomplements.ln_div by (apply sqrt_lt_R0; nra). rewrite <- sqrt_div_alt by nra. interval with (i_bisect r, i_prec 50). }
  assert (B3 : 5.598 - 0.0001 <= L2 <= 5.71) by (unfold L2; interval with (i_prec 50)).
  assert (B4 : L1 <= L2). { unfold L1, L2. apply Rcomplements.ln_le; [apply sqrt_lt_R0; nra|]. apply sqrt_le_1_alt. lra. }
  set (V1 := ln (v / (865 * / 1))). set (V2 := ln (v / (878 * / 1))).
  assert (S1 : V1 = ln v - ln 865) by (unfold V1; rewrite Rcomplements.ln_div by lra; f_equal; f_equal; lra).
  assert (S2 : V2 = ln v - ln 878) by (unfold V2; rewrite Rcomplements.ln_div by lra; f_equal; f_equal; lra).
  assert (S3 : 7.003 <= ln v) by (interval with (i_prec 50)). assert (S4 : 6.7626 <= ln 865 <= 6.7628) by (interval with (i_prec 50)). assert (S5 : 6.7776 <= ln 878 <= 6.7777) by (interval with (i_prec 50)).
  clearbody L1 L2 V1 V2. rewrite S1, S2. clear S1 S2. generalize dependent (ln v). intros lv S3. generalize dependent (ln 865). intros l1 S4. generalize dependent (ln 878). intros l2 S5. clear V1 V2 NL NM Hv.
  assert (0 <= (m - 8) * (L1 - 5.598)) by nra. assert (0 <= (8.5 - m) * (L2 - L1)) by nra. 
  nra.
Qed.
Lemma floor_med c x a h z : n_region a = Some "global" -> n_mech a = Some "SS" -> n_dip a = 90 -> n_hyp a = Some h -> h <= 7 -> n_z25 a = Some z -> 1 <= z <= 3 ->
  8 <= n_mag a -> 1100 <= n_v a -> In c cb14_coeff ->
  cb_med cb14_pga_row c x a = cb_fmag c (n_mag a) + cb_fdis c (n_mag a) (n_rup a) + cb_fatn c "global" (n_rup a) + cb_fsite c "global" (n_v a) 1.
Proof.
  intros Hr Hm Hd Hh H7 Hz Z Hg Hv Hc. unfold cb_med, cb_source_path, cb_fhng, cb_hyp, cb_reg, cb_mech. rewrite Hr, Hm, Hd, Hh, Hz.
  change (option_of "global" ["global"; "california"; "japan"; "italy"; "china"] (Some "global")) with "global".
  change (option_of "none" ["SS"; "NS"; "RS"] (Some "SS")) with "SS". cbn [or_else].
  replace (cb_fflt c "SS" (n_mag a)) with 0 by (unfold cb_fflt; cbn; lra).
  replace (cb_fhyp c (n_mag a) h) with 0 by (unfold cb_fhyp, cb_clip; rewrite (Rmax_right (h - 7)) by lra; rewrite Rmin_left by lra; lra).
  replace (cb_fdip c (n_mag a) 90) with 0 by (unfold cb_fdip, cb_clip; rewrite (Rmax_right (5.5 - _)) by lra; rewrite Rmin_left by lra; lra).
  replace (cb_fsed c "global" z) with 0.
  2:{ unfold cb_fsed. destruct (Rle_dec z 1); [replace z with 1 by lra; lra|]. destruct (Rle_dec z 3); lra. }
  replace (cb_fsite c "global" (n_v a) (cb_rock_pga cb14_pga_row x a)) with (cb_fsite c "global" (n_v a) 1).
  2:{ unfold cb_fsite. cbv zeta. row_upto Hc cb14_k_1 (1086#1)%Q as K. destruct (Rle_dec (n_v a) (Q2R (cb14_k_1 c))); [lra|]. reflexivity. }
  replace ((90 - 90) / 45) with 0 by lra. rewrite Rmult_0_r. lra.
Qed.
(** ** C133: large distant earthquakes on rock: the ordinate at 0.15 s is more than 10 percent below PGA. *)
Theorem C133_short_period_below_pga : forall src a x h z, nga_gives src a ->
  n_region a = Some "global" -> n_mech a = Some "SS" -> n_dip a = 90 -> n_x a = Some x -> x <> 0 -> n_hyp a = Some h -> h <= 7 -> n_z25 a = Some z -> 1 <= z <= 3 ->
  8 <= n_mag a <= 8.5 -> 270 <= n_rup a <= 300 -> 1100 <= n_v a <= 1500 ->
  exists g ps sa y p, result (cb14 src) = Ok g /\ result (g_periods g) = Ok ps /\ result (g_spec_accels g) = Ok sa /\ result (g_pga g) = Ok (Fin p) /\
    nth_error ps 6 = Some (Fin 0.15) /\ nth_error sa 6 = Some (Fin y) /\ 0 < y < 0.9 * p.
Proof.
  intros src a x h z G Hr Hm Hd Hx X0 Hh H7 Hz Z M R V.
  destruct (cb_reports src a x "SS" G Hx Hm) as (g & E & Ep & Es & Ea & _); [lra|split; lra|intros ?; contradiction|rewrite Hh; discriminate|].
  exists g. do 4 eexists. split; [exact E|]. split; [exact Ep|]. split; [exact Es|]. split; [exact Ea|].
  split; [change (map _ cb14_psa) with (map (fun c => Fin (Q2R (cb14_period c))) cb14_psa); rewrite nth_error_map; change (nth_error cb14_psa 6) with (Some cb14_015); cbn [option_map]; do 2 f_equal; unfold Q2R; cbn; lra|].
  split; [rewrite nth_error_map; change (nth_error cb14_psa 6) with (Some cb14_015); cbn [option_map]; reflexivity|].
  split; [apply exp_pos|].
  assert (I : In cb14_015 cb14_coeff) by (apply cb14_psa_in, (nth_error_In _ 6); reflexivity).
  pose proof (floor_med cb14_015 x a h z Hr Hm Hd Hh H7 Hz Z (proj1 M) (proj1 V) I) as F1. pose proof (floor_med cb14_pga_row x a h z Hr Hm Hd Hh H7 Hz Z (proj1 M) (proj1 V) cb14_pga_in) as F2.
  rewrite F1, F2.
  pose proof (floor_num (n_mag a) (n_rup a) (n_v a) M R V) as L.
  match goal with |- exp ?u < _ * exp ?w => assert (L' : u + 0.11 <= w) by exact L; clear L; revert L'; generalize u w end. intros u w L'.
  apply Rle_lt_trans with (exp (w - 0.11)). { destruct (Req_dec u (w - 0.11)) as [->|N]; [lra|]. left. apply exp_increasing. lra. }
  unfold Rminus. rewrite exp_plus. pose proof (exp_pos w). assert (exp (Ropp 0.11) < 0.9) by (interval with (i_prec 40)). rewrite Rmult_comm. apply Rmult_lt_compat_r; assumption.
Qed.
Print Assumptions C133_short_period_below_pga.
Definition ex_floor : nga := Nga 8 300 300 (Some 300) None None 90 1100 (Some 2) None None (Some 7) (Some 10) None (Some 1.0) None (Some "SS") (Some "global") None None None.
Example C133_nonvacuous : exists g ps sa y p, result (cb14 (nga_src ex_floor)) = Ok g /\ result (g_periods g) = Ok ps /\ result (g_spec_accels g) = Ok sa /\ result (g_pga g) = Ok (Fin p) /\
    nth_error ps 6 = Some (Fin 0.15) /\ nth_error sa 6 = Some (Fin y) /\ 0 < y < 0.9 * p.
Proof. apply (C133_short_period_below_pga _ ex_floor 300 7 1.0); [apply nga_src_gives|..]; try reflexivity; cbn; lra. Qed.
