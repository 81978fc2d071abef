(** * Soft soil in CB14: a more distant or a smaller earthquake can shake harder (C61, C117) *)
From Coquelicot Require Import Coquelicot.
From Interval Require Import Tactic.
From Coq Require Import List.
From Verif Require Import FrameworkProofs Anal SpecNga Nga M_cb14 P_cb14 Outs Spec_cy14 Spec_cb14 Properties_NGAPub Properties_NGAPub2 P_ngacont Properties_NGACont P_ngamag.
Open Scope R_scope.
Open Scope string_scope.
Open Scope list_scope.
Definition cb14_02 : cb14_row := nth 7 cb14_psa cb14_row0.
Definition cb14_03 : cb14_row := nth 9 cb14_psa cb14_row0.
(** PGA on rock, logarithm, strike slip, within 80 km. *)
Definition cs_rock (m r : R) : R :=
  cb_fmag cb14_pga_row m + cb_fdis cb14_pga_row m r + cb_fsite cb14_pga_row "global" 1100 0 + cb_fsed cb14_pga_row "global" (cb_z25 "global" 1100).
Definition cs_med (c : cb14_row) (v m r : R) : R := cb_fmag c m + cb_fdis c m r + cb_fsite c "global" v (exp (cs_rock m r)).
Lemma cs_med_ok c x a h : n_region a = None \/ n_region a = Some "global" -> n_mech a = Some "SS" -> x < 0 -> n_hyp a = Some h -> h <= 7 ->
  5.5 <= n_mag a -> n_rup a <= 80 -> 
  cb_med cb14_pga_row c x a = cs_med c (n_v a) (n_mag a) (n_rup a) + cb_fsed c "global" (or_else (n_z25 a) (cb_z25 "global" (n_v a))).
Proof.
  intros Hr Hm Hx Hh H7 Hg H8. unfold cb_med, cb_rock_pga.
  assert (E : cb_reg a = "global") by (unfold cb_reg; destruct Hr as [-> | ->]; reflexivity). rewrite E.
  assert (S : forall c', cb_source_path c' x a = cb_fmag c' (n_mag a) + cb_fdis c' (n_mag a) (n_rup a)).
  { intros c'. unfold cb_source_path, cb_fhng, cb_fhng_x, cb_hyp, cb_mech. rewrite Hm, Hh. cbv zeta.
    destruct (Rlt_dec x 0); [|lra]. change (option_of "none" ["SS"; "NS"; "RS"] (Some "SS")) with "SS". cbn [or_else].
    replace (cb_fflt c' "SS" (n_mag a)) with 0 by (unfold cb_fflt; cbn; lra).
    replace (cb_fhyp c' (n_mag a) h) with 0 by (unfold cb_fhyp, cb_clip; rewrite (Rmax_right (h - 7)) by lra; rewrite Rmin_left by lra; lra).
    replace (cb_fdip c' (n_mag a) (n_dip a)) with 0 by (unfold cb_fdip, cb_clip; rewrite (Rmax_right (5.5 - _)) by lra; rewrite Rmin_left by lra; lra).
    replace (cb_fatn c' (cb_reg a) (n_rup a)) with 0 by (unfold cb_fatn; rewrite (Rmax_right (n_rup a - 80)) by lra; lra).
    lra. }
  rewrite !S. unfold cs_med, cs_rock. lra.
Qed.
Ltac cs_rows := cbv beta zeta;
  change cb14_02 with ltac:(let x := eval cbv in cb14_02 in exact x) in *;
  change cb14_03 with ltac:(let x := eval cbv in cb14_03 in exact x) in *;
  change cb14_pga_row with ltac:(let x := eval cbv in cb14_pga_row in exact x) in *;
  cbn [String.eqb Ascii.eqb Bool.eqb orb cb14_c_0 cb14_c_1 cb14_c_2 cb14_c_3 cb14_c_4 cb14_c_5 cb14_c_6 cb14_c_7 cb14_c_11 cb14_k_1 cb14_k_2 cb14_c_14 cb14_c_15];
  unfold Q2R; cbn [Qnum Qden].
Lemma cs_z : cb_z25 "global" 1100 <= 1 /\ cb_z25 "global" 1100 <= 0.398 /\ 0.397 <= cb_z25 "global" 1100.
Proof. unfold cb_z25. cbn [String.eqb Ascii.eqb Bool.eqb]. repeat split; interval with (i_prec 50). Qed.
Ltac cs_open :=
  unfold cs_med, cs_rock, cb_fmag, cb_fdis, cb_fsite, cb_fsed;
  destruct (Rle_dec (cb_z25 "global" 1100) 1) as [Z|Z]; [|destruct cs_z; contradiction];
  pose proof cs_z as (_ & Z1 & Z2); revert Z Z1 Z2; generalize (cb_z25 "global" 1100); intros z Z Z1 Z2;
  cs_rows; repeat match goal with |- context [Rle_dec ?u ?w] => destruct (Rle_dec u w) as [?|?]; try lra end;
  rewrite ?(Rmax_left (6.5 - _)), ?(Rmax_left (5.5 - 4.5)), ?(Rmax_left (5.5 - 5.5)), ?(Rmax_right (5.5 - 6.5)) by lra.
Lemma cs_dist v : 150 <= v <= 155 -> cs_med cb14_02 v 6.5 0 + 0.0345 <= cs_med cb14_02 v 6.5 6.
Proof.
  intros Hv. cs_open. match goal with |- ?a <= ?b => cut (0 <= b - a); [lra|] end.
  unfold Rpower. interval with (i_prec 50, i_bisect v, i_autodiff v).
Qed.
Lemma cs_mag v r : 150 <= v <= 155 -> 0 <= r <= 2 -> cs_med cb14_03 v 6.5 r + 0.055 <= cs_med cb14_03 v 5.5 r.
Proof.
  intros Hv Hr. cs_open. unfold Rpower.
  match goal with |- context [exp (118 * / 100 * ln (v / ?k))] => assert (HS : 0.1997 <= exp (118 * / 100 * ln (v / k)) <= 0.2078) by (split; interval with (i_prec 30));
     generalize dependent (exp (118 * / 100 * ln (v / k))) end. intros s HS.
  match goal with |- context [?u * ln (v / ?k)] => generalize (u * ln (v / k)) end. intros t.
  match goal with |- context [ln (1100 / ?k)] => let H := fresh in interval_intro (ln (1100 / k)) with (i_prec 30) as H; generalize dependent (ln (1100 / k)) end. intros w Hw.
  match goal with |- ?A + (t + ?X + ?B) + 55 * / 1000 <= ?A2 + (t + ?X2 + ?B) => cut (0 <= A2 - A + (X2 - X) - 0.055); [clear; intros H; lra|] end.
  interval with (i_prec 30, i_bisect s, i_bisect r, i_depth 20).
Qed.
Lemma cs_reports src a x h : nga_gives src a -> n_region a = None \/ n_region a = Some "global" -> n_mech a = Some "SS" -> n_x a = Some x -> x < 0 -> 0 < n_dip a <= 90 ->
  n_hyp a = Some h -> h <= 7 -> 5.5 <= n_mag a -> n_rup a <= 80 -> 0 < n_v a -> forall i T c, nth_error cb14_psa i = Some c -> Q2R (cb14_period c) = T ->
  exists g ps sa, result (cb14 src) = Ok g /\ result (g_periods g) = Ok ps /\ result (g_spec_accels g) = Ok sa /\ ps = map (fun c => Fin (Q2R (cb14_period c))) cb14_psa /\ nth_error ps i = Some (Fin T) /\
    nth_error sa i = Some (Fin (exp (cs_med c (n_v a) (n_mag a) (n_rup a) + cb_fsed c "global" (or_else (n_z25 a) (cb_z25 "global" (n_v a)))))).
Proof.
  intros G Hr Hm Hx X0 Hd Hh H7 Hg H8 V i T c Hc HT.
  destruct (cb_reports src a x "SS" G Hx Hm V Hd) as (g & E & Ep & Es & _ & _); [intros ->; lra|rewrite Hh; discriminate|].
  exists g. do 2 eexists. split; [exact E|]. split; [exact Ep|]. split; [exact Es|]. split; [reflexivity|].
  split; rewrite nth_error_map, Hc; cbn [option_map]; do 2 f_equal; [exact HT|].
  f_equal. apply (cs_med_ok c x a h); assumption.
Qed.
Lemma cb14_soft_rises src1 src2 a x h : nga_gives src1 (with_rup a 0) -> nga_gives src2 (with_rup a 6) ->
  n_region a = None \/ n_region a = Some "global" -> n_mech a = Some "SS" -> n_x a = Some x -> x < 0 -> 0 < n_dip a <= 90 ->
  n_hyp a = Some h -> h <= 7 -> n_mag a = 6.5 -> 150 <= n_v a <= 155 ->
  exists g1 g2 ps y1 y2 sa1 sa2, result (cb14 src1) = Ok g1 /\ result (cb14 src2) = Ok g2 /\
    result (g_periods g1) = Ok ps /\ result (g_periods g2) = Ok ps /\ nth_error ps 7 = Some (Fin 0.2) /\
    result (g_spec_accels g1) = Ok sa1 /\ result (g_spec_accels g2) = Ok sa2 /\ nth_error sa1 7 = Some (Fin y1) /\ nth_error sa2 7 = Some (Fin y2) /\
    0 < y1 /\ 1.03 * y1 < y2.
Proof.
  intros G1 G2 Hr Hm Hx X0 Hd Hh H7 Hg V. destruct a; cbn in *.
  destruct (cs_reports _ _ x h G1) with (i := 7%nat) (T := 0.2) (c := cb14_02) as (g1 & ps1 & sa1 & E1 & P1 & S1 & Q1 & T1 & Y1); try (cbn; first [assumption|lra]); [reflexivity|].
  destruct (cs_reports _ _ x h G2) with (i := 7%nat) (T := 0.2) (c := cb14_02) as (g2 & ps2 & sa2 & E2 & P2 & S2 & Q2 & T2 & Y2); try (cbn; first [assumption|lra]); [reflexivity|].
  subst ps1 ps2. do 7 eexists. split; [exact E1|]. split; [exact E2|]. split; [exact P1|]. split; [exact P2|]. split; [exact T1|]. split; [exact S1|]. split; [exact S2|]. split; [exact Y1|]. split; [exact Y2|].
  split; [apply exp_pos|]. cbn [Nga.n_v Nga.n_mag Nga.n_rup Nga.n_z25]. rewrite Hg. pose proof (cs_dist _ V) as L.
  match goal with |- _ * exp (?u + ?s) < exp (?w + ?s) => revert L; generalize u w s end. intros u w s L.
  apply Rlt_le_trans with (exp (0.0345 + (u + s))).
  - rewrite (exp_plus _ (_ + s)). apply Rmult_lt_compat_r; [apply exp_pos|]. interval with (i_prec 40).
  - apply exp_le_mono. lra.
Qed.
Lemma cb14_soft_falls src1 src2 a x h : nga_gives src1 (with_mag a 5.5) -> nga_gives src2 (with_mag a 6.5) ->
  n_region a = None \/ n_region a = Some "global" -> n_mech a = Some "SS" -> n_x a = Some x -> x < 0 -> 0 < n_dip a <= 90 ->
  n_hyp a = Some h -> h <= 7 -> 0 <= n_rup a <= 2 -> 150 <= n_v a <= 155 ->
  exists g1 g2 ps y1 y2 sa1 sa2, result (cb14 src1) = Ok g1 /\ result (cb14 src2) = Ok g2 /\
    result (g_periods g1) = Ok ps /\ result (g_periods g2) = Ok ps /\ nth_error ps 9 = Some (Fin 0.3) /\
    result (g_spec_accels g1) = Ok sa1 /\ result (g_spec_accels g2) = Ok sa2 /\ nth_error sa1 9 = Some (Fin y1) /\ nth_error sa2 9 = Some (Fin y2) /\
    0 < y2 < 0.95 * y1.
Proof.
  intros G1 G2 Hr Hm Hx X0 Hd Hh H7 Hg V. destruct a; cbn in *.
  destruct (cs_reports _ _ x h G1) with (i := 9%nat) (T := 0.3) (c := cb14_03) as (g1 & ps1 & sa1 & E1 & P1 & S1 & Q1 & T1 & Y1); try (cbn; first [assumption|lra]); [reflexivity|].
  destruct (cs_reports _ _ x h G2) with (i := 9%nat) (T := 0.3) (c := cb14_03) as (g2 & ps2 & sa2 & E2 & P2 & S2 & Q2 & T2 & Y2); try (cbn; first [assumption|lra]); [reflexivity|].
  subst ps1 ps2. do 7 eexists. split; [exact E1|]. split; [exact E2|]. split; [exact P1|]. split; [exact P2|]. split; [exact T1|]. split; [exact S1|]. split; [exact S2|]. split; [exact Y1|]. split; [exact Y2|].
  split; [apply exp_pos|]. cbn [Nga.n_v Nga.n_mag Nga.n_rup Nga.n_z25]. pose proof (cs_mag _ _ V Hg) as L.
  match goal with |- exp (?u + ?s) < _ * exp (?w + ?s) => revert L; generalize u w s end. intros u w s L.
  apply Rle_lt_trans with (exp (Ropp 0.055 + (w + s))).
  - apply exp_le_mono. lra.
  - rewrite (exp_plus _ (_ + s)). apply Rmult_lt_compat_r; [apply exp_pos|]. interval with (i_prec 40).
Qed.
