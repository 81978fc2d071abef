(** * C155: attenuation in the regions of the NGA-West2 models

    [with_region a re] (Nga.v): the scenario [a] with region = re. *)
From Coquelicot Require Import Coquelicot.
From Interval Require Import Tactic.
From Coq Require Import List.
From Verif Require Import M_cy14 M_bssa14 M_cb14 M_ask14 FrameworkProofs Anal Nga Outs Cont Cont1 SpecNga P_cy14 P_bssa14 P_cb14 P_cb14b P_ask14 P_ask14b P_ngaspec
  Spec_cy14 Spec_bssa14 Spec_cb14 Spec_ask14 Properties_NGA Properties_NGAPub Properties_NGAPub2 Properties_NGAPub3 P_ngamag P_ngacont P_hw P_mech Properties_Deep.
Open Scope R_scope.
Open Scope string_scope.
Open Scope list_scope.

(** The second result has larger PGA and PGV; its ordinates are larger at the periods in [more], smaller at those in [less] and
    equal at those in [same]. *)
Definition raised (r1 r2 : M gmm) (more less same : R -> Prop) : Prop :=
  exists g1 g2 T y1 y2 a1 a2 v1 v2, result r1 = Ok g1 /\ result r2 = Ok g2 /\
    result (g_periods g1) = Ok (map Fin T) /\ result (g_periods g2) = Ok (map Fin T) /\
    result (g_spec_accels g1) = Ok (map Fin y1) /\ result (g_spec_accels g2) = Ok (map Fin y2) /\
    List.length y1 = List.length T /\ List.length y2 = List.length T /\
    (forall k t u v, nth_error T k = Some t -> nth_error y1 k = Some u -> nth_error y2 k = Some v ->
       (more t -> u < v) /\ (less t -> v < u) /\ (same t -> u = v)) /\
    result (g_pga g1) = Ok (Fin a1) /\ result (g_pga g2) = Ok (Fin a2) /\ a1 < a2 /\
    result (g_pgv g1) = Ok (Fin v1) /\ result (g_pgv g2) = Ok (Fin v2) /\ v1 < v2.
Definition every (t : R) : Prop := True.
Definition nowhere (t : R) : Prop := False.

Lemma raised_intro {A} r1 r2 (rows : list A) ca cv per med1 sd1 med2 sd2 (more less same : R -> Prop) :
  reports r1 rows ca cv per med1 sd1 -> reports r2 rows ca cv per med2 sd2 ->
  (forall c, In c rows -> more (Q2R (per c)) -> med1 c < med2 c) -> (forall c, In c rows -> less (Q2R (per c)) -> med2 c < med1 c) ->
  (forall c, In c rows -> same (Q2R (per c)) -> med1 c = med2 c) ->
  med1 ca < med2 ca -> med1 cv < med2 cv -> raised r1 r2 more less same.
Proof.
  intros (g1 & E1 & P1 & S1 & A1 & V1 & _) (g2 & E2 & P2 & S2 & A2 & V2 & _) HM HL HS HA HV.
  exists g1, g2, (map (fun c => Q2R (per c)) rows), (map (fun c => exp (med1 c)) rows), (map (fun c => exp (med2 c)) rows).
  do 4 eexists. rewrite !map_map, !map_length.
  split; [exact E1|]. split; [exact E2|]. split; [exact P1|]. split; [exact P2|]. split; [exact S1|]. split; [exact S2|]. split; [reflexivity|]. split; [reflexivity|].
  split; [|split; [exact A1|split; [exact A2|split; [apply exp_increasing, HA|split; [exact V1|split; [exact V2|apply exp_increasing, HV]]]]]].
  intros k x u v Hx Hu Hv. rewrite !nth_error_map in *. destruct (nth_error rows k) as [c|] eqn:N; [|discriminate].
  apply nth_error_In in N. injection Hx as <-. injection Hu as <-. injection Hv as <-.
  split; [|split]; intros W; [apply exp_increasing, HM|apply exp_increasing, HL|f_equal; apply HS]; assumption.
Qed.

(** ** BSSA14 *)
Definition bs_far (c : bssa14_row) (a : nga) : R := sqrt (n_jb a * n_jb a + Q2R (bssa14_h c) * Q2R (bssa14_h c)) - 1.
Lemma bs_far_pos c a : In c bssa14_coeff -> 0 < bs_far c a.
Proof.
  intros Hc. row_lt Hc (fun _ : bssa14_row => (1#1)%Q) (fun c => bssa14_h c) as H. unfold bs_far.
  assert (1 < sqrt (n_jb a * n_jb a + Q2R (bssa14_h c) * Q2R (bssa14_h c))); [|lra].
  rewrite <- sqrt_1 at 1. apply sqrt_lt_1; [lra| |].
  - assert (0 <= n_jb a * n_jb a) by apply Rle_0_sqr. assert (0 <= Q2R (bssa14_h c) * Q2R (bssa14_h c)) by apply Rle_0_sqr. lra.
  - assert (0 <= n_jb a * n_jb a) by apply Rle_0_sqr. nra.
Qed.
Lemma bs_region_rock c a re1 re2 : In re1 [None; Some "global"; Some "california"] -> In re2 ["china"; "turkey"; "italy"; "japan"] ->
  bs_rock c (with_region a (Some re2)) = bs_rock c (with_region a re1)
    + ((if String.eqb re2 "china" || String.eqb re2 "turkey" then Q2R (bssa14_dc_3ct c) else Q2R (bssa14_dc_3ij c)) - Q2R (bssa14_dc_3global c)) * bs_far c a.
Proof.
  intros H1 H2. nga_split a. unfold bs_rock, bs_mech_of, bs_region_of, bssa14_path_spec, bs_far. cbn [with_region n_mag n_jb n_mech n_region]. cbv zeta.
  destruct H1 as [<-|[<-|[<-|[]]]]; destruct H2 as [<-|[<-|[<-|[<-|[]]]]]; cbn [option_of existsb String.eqb Ascii.eqb Bool.eqb orb]; ring.
Qed.
Lemma bs_med_760 c a re : 760 <= n_v a -> bs_med bssa14_pga_row c (with_region a re) = bs_rock c (with_region a re) + bs_lin c (n_v a) + bs_basin c (n_v a) (n_z1 a).
Proof.
  intros Hv. unfold bs_med, bs_nonlin. replace (n_v (with_region a re)) with (n_v a) by (destruct a; reflexivity). replace (n_z1 (with_region a re)) with (n_z1 a) by (destruct a; reflexivity).
  rewrite Rmin_right by lra. ring.
Qed.
Lemma bs_region_rep src a re : nga_gives src (with_region a re) -> 760 <= n_v a ->
  reports (bssa14 src) bssa14_psa bssa14_pga_row bssa14_pgv_row bssa14_period (fun c => bs_med bssa14_pga_row c (with_region a re)) (fun c => bs_sd c (with_region a re)).
Proof. intros G Hv. apply (bs_reports _ _ G). destruct a; cbn in *; lra. Qed.
(** China and Turkey: slower attenuation, hence larger responses everywhere. *)
Theorem C155_bssa14_slow : forall src1 src2 a re1 re2, nga_gives src1 (with_region a re1) -> nga_gives src2 (with_region a (Some re2)) ->
  In re1 [None; Some "global"; Some "california"] -> In re2 ["china"; "turkey"] -> 760 <= n_v a -> raised (bssa14 src1) (bssa14 src2) every nowhere nowhere.
Proof.
  intros src1 src2 a re1 re2 G1 G2 I1 I2 Hv.
  assert (U : forall c, In c bssa14_coeff -> bs_med bssa14_pga_row c (with_region a re1) < bs_med bssa14_pga_row c (with_region a (Some re2))).
  { intros c Hc. rewrite !bs_med_760 by exact Hv. rewrite (bs_region_rock c a re1 re2) by (exact I1 || (destruct I2 as [<-|[<-|[]]]; cbn; tauto)).
    row_lt Hc bssa14_dc_3global bssa14_dc_3ct as L. pose proof (bs_far_pos c a Hc) as F.
    assert (E : (String.eqb re2 "china" || String.eqb re2 "turkey")%bool = true) by (destruct I2 as [<-|[<-|[]]]; reflexivity). rewrite E. nra. }
  eapply raised_intro; [apply bs_region_rep; eassumption|apply bs_region_rep; eassumption| |intros c _ []|intros c _ []| |].
  - intros c Hc _. apply U, bs_rows. right. right. exact Hc.
  - apply U, bs_rows. left. reflexivity.
  - apply U, bs_rows. right. left. reflexivity.
Qed.
Print Assumptions C155_bssa14_slow.
(** Italy and Japan: faster attenuation up to 6.5 s, slower from 7 s. *)
Theorem C155_bssa14_fast : forall src1 src2 a re1 re2, nga_gives src1 (with_region a re1) -> nga_gives src2 (with_region a (Some re2)) ->
  In re1 [None; Some "global"; Some "california"] -> In re2 ["italy"; "japan"] -> 760 <= n_v a -> raised (bssa14 src2) (bssa14 src1) (fun T => T <= 6.5) (fun T => 7 <= T) nowhere.
Proof.
  intros src1 src2 a re1 re2 G1 G2 I1 I2 Hv.
  assert (D : forall c, In c bssa14_coeff -> bs_med bssa14_pga_row c (with_region a (Some re2)) = bs_med bssa14_pga_row c (with_region a re1) + (Q2R (bssa14_dc_3ij c) - Q2R (bssa14_dc_3global c)) * bs_far c a).
  { intros c Hc. rewrite !bs_med_760 by exact Hv. rewrite (bs_region_rock c a re1 re2) by (exact I1 || (destruct I2 as [<-|[<-|[]]]; cbn; tauto)).
    assert (E : (String.eqb re2 "china" || String.eqb re2 "turkey")%bool = false) by (destruct I2 as [<-|[<-|[]]]; reflexivity). rewrite E. ring. }
  assert (S : forall c, In c bssa14_coeff -> Q2R (bssa14_period c) <= 6.5 -> bs_med bssa14_pga_row c (with_region a (Some re2)) < bs_med bssa14_pga_row c (with_region a re1)).
  { intros c Hc T. rewrite (D c Hc). pose proof (bs_far_pos c a Hc) as F.
    pose proof (sel bssa14_coeff (fun c => Qle_bool (bssa14_period c) (13#2)) (fun c => Qltb (bssa14_dc_3ij c) (bssa14_dc_3global c)) ltac:(vm_compute; reflexivity) c Hc) as Q.
    assert (L : Q2R (bssa14_dc_3ij c) < Q2R (bssa14_dc_3global c)) by (apply Qltb_R, Q, Qle_of_R; unfold Q2R at 2; cbn [Qnum Qden]; lra). nra. }
  eapply raised_intro; [apply bs_region_rep; eassumption|apply bs_region_rep; eassumption| | |intros c _ []| |].
  - intros c Hc T. apply S; [apply bs_rows; right; right; exact Hc|exact T].
  - intros c Hc T. assert (Hc' : In c bssa14_coeff) by (apply bs_rows; right; right; exact Hc). cbv beta; rewrite (D c Hc'). pose proof (bs_far_pos c a Hc') as F.
    pose proof (sel bssa14_coeff (fun c => Qle_bool (7#1) (bssa14_period c)) (fun c => Qltb (bssa14_dc_3global c) (bssa14_dc_3ij c)) ltac:(vm_compute; reflexivity) c Hc') as Q.
    assert (L : Q2R (bssa14_dc_3global c) < Q2R (bssa14_dc_3ij c)) by (apply Qltb_R, Q, Qle_of_R; unfold Q2R at 1; cbn [Qnum Qden]; lra). nra.
  - apply S; [apply bs_rows; left; reflexivity|]. unfold Q2R; cbn; lra.
  - apply S; [apply bs_rows; right; left; reflexivity|]. unfold Q2R; cbn; lra.
Qed.
Print Assumptions C155_bssa14_fast.

(** ** CB14: Italy, beyond 80 km *)
Definition jp (s : string) : bool := String.eqb s "japan".
Lemma cb_rock_reg c x a1 a2 : In c cb14_coeff -> 1086 < n_v a1 -> n_v a1 = n_v a2 -> n_z25 a1 = n_z25 a2 -> jp (cb_reg a1) = false -> jp (cb_reg a2) = false ->
  cb_med cb14_pga_row c x a2 - cb_med cb14_pga_row c x a1 = cb_source_path c x a2 - cb_source_path c x a1.
Proof.
  intros Hc Hv E1 E2 J1 J2. unfold cb_med, cb_fsite, cb_fsed, cb_z25. unfold jp in *. rewrite J1, J2, <- E1, <- E2. cbv zeta.
  row_upto Hc cb14_k_1 (1086#1)%Q as K. destruct (Rle_dec (n_v a1) (Q2R (cb14_k_1 c))); [lra|]. lra.
Qed.
Lemma cb_region_path c x a re1 : In re1 [None; Some "california"] ->
  cb_source_path c x (with_region a (Some "italy")) = cb_source_path c x (with_region a re1) + (Q2R (cb14_dc_20jp c) - Q2R (cb14_dc_20ca c)) * Rmax (n_rup a - 80) 0.
Proof.
  intros H. nga_split a. unfold cb_source_path.
  set (F := cb_fhng c x _) at 1. set (G := cb_fhng c x _). assert (E : F = G) by reflexivity. rewrite E. clearbody F G. clear E.
  unfold cb_hyp, cb_bor, cb_wid, cb_tor, cb_mech, cb_reg, cb_rad, cb_fatn, cb_mech, cb_tor. cbn [with_region n_mag n_rup n_dip n_mech n_region n_hyp n_bor n_width n_tor n_bot or_else].
  destruct H as [<-|[<-|[]]]; cbn [option_of existsb String.eqb Ascii.eqb Bool.eqb orb]; ring.
Qed.
Lemma cb_region_rep src a re x t : nga_gives src (with_region a re) -> n_x a = Some x -> n_mech a = Some t -> 0 < n_v a -> 0 < n_dip a <= 90 ->
  (x = 0 -> n_dip a < 90 /\ match n_width a with Some w => w <> 0 | None => n_tor a = None /\ n_bot a = None end) -> (n_hyp a = None -> cb_tor a < cb_bor a) ->
  reports (cb14 src) cb14_psa cb14_pga_row cb14_pgv_row cb14_period (fun c => cb_med cb14_pga_row c x (with_region a re)) (fun c => cb_sd cb14_pga_row c x (with_region a re)).
Proof. intros G Hx Ht Hv Hd Hg Hh. apply (cb_reports _ _ _ t G); destruct a; cbn in *; assumption. Qed.
Theorem C155_cb14 : forall src1 src2 a x t re1, nga_gives src1 (with_region a re1) -> nga_gives src2 (with_region a (Some "italy")) -> In re1 [None; Some "california"] ->
  n_x a = Some x -> n_mech a = Some t -> 1086 < n_v a -> 0 < n_dip a <= 90 ->
  (x = 0 -> n_dip a < 90 /\ match n_width a with Some w => w <> 0 | None => n_tor a = None /\ n_bot a = None end) -> (n_hyp a = None -> cb_tor a < cb_bor a) ->
  80 < n_rup a -> raised (cb14 src2) (cb14 src1) (fun T => T <= 2) nowhere (fun T => 3 <= T).
Proof.
  intros src1 src2 a x t re1 G1 G2 I1 Hx Ht Hv Hd Hg Hh Hr.
  assert (D : forall c, In c cb14_coeff -> cb_med cb14_pga_row c x (with_region a (Some "italy")) = cb_med cb14_pga_row c x (with_region a re1) + (Q2R (cb14_dc_20jp c) - Q2R (cb14_dc_20ca c)) * (n_rup a - 80)).
  { intros c Hc. pose proof (cb_rock_reg c x (with_region a re1) (with_region a (Some "italy")) Hc) as K.
    rewrite (cb_region_path c x a re1 I1) in K. rewrite Rmax_left in K by lra.
    assert (K' : cb_med cb14_pga_row c x (with_region a (Some "italy")) - cb_med cb14_pga_row c x (with_region a re1) = (Q2R (cb14_dc_20jp c) - Q2R (cb14_dc_20ca c)) * (n_rup a - 80)); [|lra].
    rewrite K; [ring|..]; try (destruct a; reflexivity); [destruct a; exact Hv|]. destruct I1 as [<-|[<-|[]]]; destruct a; reflexivity. }
  assert (S : forall c, In c cb14_coeff -> Q2R (cb14_period c) <= 2 -> cb_med cb14_pga_row c x (with_region a (Some "italy")) < cb_med cb14_pga_row c x (with_region a re1)).
  { intros c Hc T. rewrite (D c Hc).
    pose proof (sel cb14_coeff (fun c => Qle_bool (cb14_period c) (2#1)) (fun c => Qltb (cb14_dc_20jp c) (cb14_dc_20ca c)) ltac:(vm_compute; reflexivity) c Hc) as Q.
    assert (L : Q2R (cb14_dc_20jp c) < Q2R (cb14_dc_20ca c)) by (apply Qltb_R, Q, Qle_of_R; unfold Q2R at 2; cbn [Qnum Qden]; lra). nra. }
  eapply raised_intro; [eapply (cb_region_rep _ a _ x t); eassumption || lra|eapply (cb_region_rep _ a _ x t); eassumption || lra| |intros c _ []| | |].
  - intros c Hc T. apply S; [apply cb14_psa_in, Hc|exact T].
  - intros c Hc T. assert (Hc' : In c cb14_coeff) by (apply cb14_psa_in, Hc). cbv beta; rewrite (D c Hc').
    pose proof (sel cb14_coeff (fun c => Qle_bool (3#1) (cb14_period c)) (fun c => Qeq_bool (cb14_dc_20jp c) (cb14_dc_20ca c)) ltac:(vm_compute; reflexivity) c Hc') as Q.
    assert (L : Q2R (cb14_dc_20jp c) = Q2R (cb14_dc_20ca c)) by (apply Qeqb_R, Q, Qle_of_R; unfold Q2R at 1; cbn [Qnum Qden]; lra). rewrite L. ring.
  - apply S; [apply cb14_pga_in|]. unfold Q2R; cbn; lra.
  - apply S; [apply cb14_pgv_in|]. unfold Q2R; cbn; lra.
Qed.
Print Assumptions C155_cb14.
(** Within 80 km Italy is California, on any soil. *)
Theorem C155_cb14_near : forall src1 src2 a x t re1, nga_gives src1 (with_region a re1) -> nga_gives src2 (with_region a (Some "italy")) -> In re1 [None; Some "california"] ->
  n_x a = Some x -> n_mech a = Some t -> 0 < n_v a -> 0 < n_dip a <= 90 ->
  (x = 0 -> n_dip a < 90 /\ match n_width a with Some w => w <> 0 | None => n_tor a = None /\ n_bot a = None end) -> (n_hyp a = None -> cb_tor a < cb_bor a) ->
  n_rup a <= 80 -> exists o, gmm_out (cb14 src1) o /\ gmm_out (cb14 src2) o.
Proof.
  intros src1 src2 a x t re1 G1 G2 I1 Hx Ht Hv Hd Hg Hh Hr.
  eapply rep_eq; [eapply (cb_region_rep _ a _ x t); eassumption|eapply (cb_region_rep _ a _ x t); eassumption|].
  assert (E : forall c, cb_source_path c x (with_region a (Some "italy")) = cb_source_path c x (with_region a re1)).
  { intros c. rewrite (cb_region_path c x a re1 I1). rewrite Rmax_right by lra. ring. }
  assert (J2 : jp (cb_reg (with_region a (Some "italy"))) = false) by (destruct a; reflexivity).
  assert (J1 : jp (cb_reg (with_region a re1)) = false) by (destruct I1 as [<-|[<-|[]]]; destruct a; reflexivity). unfold jp in J1, J2.
  assert (RP : cb_rock_pga cb14_pga_row x (with_region a re1) = cb_rock_pga cb14_pga_row x (with_region a (Some "italy"))).
  { unfold cb_rock_pga, cb_fsite, cb_fsed, cb_z25. rewrite J1, J2, E. reflexivity. }
  intros c _. split.
  - unfold cb_med, cb_fsite, cb_fsed, cb_z25. rewrite J1, J2, RP, E. destruct a; reflexivity.
  - unfold cb_sd. rewrite RP. destruct a; reflexivity.
Qed.
Print Assumptions C155_cb14_near.

(** ** CY14 *)
Lemma cy_reg_lt c x a1 a2 : In c cy14_coeff -> 180 <= n_v a1 -> n_v a1 = n_v a2 -> n_z1 a1 = n_z1 a2 -> jp (cy_reg a1) = false -> jp (cy_reg a2) = false ->
  cy_ref c x a1 < cy_ref c x a2 -> cy_med c x a1 < cy_med c x a2.
Proof.
  intros Hc Hv E1 E3 J1 J2 L. unfold cy_med, cy_dz1, cy_mean_z1. unfold jp in *. rewrite J1, J2, <- E1, <- E3. cbv zeta.
  pose proof (cy14_f2_bound c (n_v a1) Hc Hv) as B. row_pos Hc cy14_phi_4 as P.
  pose proof (site_incr _ _ (Q2R (cy14_phi_4 c)) (cy_b c (n_v a1)) ltac:(lra) ltac:(unfold cy_b; replace 1130 with 1130.0 by lra; replace 360 with 360.0 by lra; exact B) L). lra.
Qed.
Definition cy_anel (c : cy14_row) (a : nga) : R := (Q2R (cy14_c_gamma1 c) + Q2R (cy14_c_gamma2 c) / cosh (Rmax (n_mag a - Q2R (cy14_c_gamma3 c)) 0)) * n_rup a.
Lemma cy_anel_neg c a : In c cy14_coeff -> 0 < n_rup a -> cy_anel c a < 0.
Proof.
  intros Hc Hr. unfold cy_anel. row_lt Hc (fun c => cy14_c_gamma1 c) (fun _ : cy14_row => (0#1)%Q) as G1. row_le Hc (fun c => cy14_c_gamma2 c) (fun _ : cy14_row => (0#1)%Q) as G2.
  pose proof (cosh_ge1 (Rmax (n_mag a - Q2R (cy14_c_gamma3 c)) 0)) as C. set (h := cosh _) in *. clearbody h.
  assert (0 < / h) by (apply Rinv_0_lt_compat; lra). unfold Rdiv.
  assert (Q2R (cy14_c_gamma2 c) * / h <= 0) by (assert (0 <= - Q2R (cy14_c_gamma2 c) * / h) by (apply Rmult_le_pos; lra); lra).
  assert (0 < (- (Q2R (cy14_c_gamma1 c) + Q2R (cy14_c_gamma2 c) * / h)) * n_rup a) by (apply Rmult_lt_0_compat; lra). lra.
Qed.
Lemma cy_region_ref c x a re1 re2 : In re1 [None; Some "california"] -> (re2 = "china" \/ (re2 = "italy" /\ 6 < n_mag a < 6.9)) ->
  cy_ref c x (with_region a (Some re2)) = cy_ref c x (with_region a re1) + ((if String.eqb re2 "china" then Q2R (cy14_gamma_c c) else Q2R (cy14_gamma_ji c)) - 1) * cy_anel c a.
Proof.
  intros H1 H2. nga_split a. unfold cy_ref, cy_on_hw, cy_reg, cy_tor, cy_mech, cy_anel.
  cbn [with_region n_mag n_rup n_jb n_dip n_tor n_dpp n_mech n_region n_hw or_else] in *. cbv zeta.
  destruct H1 as [<-|[<-|[]]]; destruct H2 as [->|[-> M]]; cbn [option_of existsb String.eqb Ascii.eqb Bool.eqb orb]; try ring;
    (destruct (Rlt_dec 6 a_m); [|lra]; destruct (Rlt_dec a_m 6.9); [|lra]; ring).
Qed.
Lemma cy_region_rep src a re x : nga_gives src (with_region a re) -> n_x a = Some x -> 0 <= n_rup a -> 0 < n_v a ->
  reports (cy14 src) cy14_psa cy14_pga_row cy14_pgv_row cy14_period (fun c => cy_med c x (with_region a re)) (fun c => cy_sd c x (with_region a re)).
Proof. intros G Hx Hr Hv. apply (cy_reports _ _ x G); destruct a; cbn in *; assumption. Qed.

(** China: slower attenuation, hence larger responses everywhere. *)
Theorem C155_cy14_china : forall src1 src2 a x re1, nga_gives src1 (with_region a re1) -> nga_gives src2 (with_region a (Some "china")) -> In re1 [None; Some "california"] ->
  n_x a = Some x -> 0 < n_rup a -> 180 <= n_v a -> raised (cy14 src1) (cy14 src2) every nowhere nowhere.
Proof.
  intros src1 src2 a x re1 G1 G2 I1 Hx Hr Hv.
  assert (U : forall c, In c cy14_coeff -> cy_med c x (with_region a re1) < cy_med c x (with_region a (Some "china"))).
  { intros c Hc. apply cy_reg_lt; try (destruct a; reflexivity); [exact Hc|destruct a; exact Hv|destruct I1 as [<-|[<-|[]]]; destruct a; reflexivity|].
    rewrite (cy_region_ref c x a re1 "china" I1 (or_introl eq_refl)). cbn [String.eqb Ascii.eqb Bool.eqb].
    row_lt Hc (fun c => cy14_gamma_c c) (fun _ : cy14_row => (1#1)%Q) as L. pose proof (cy_anel_neg c a Hc Hr) as N. nra. }
  eapply raised_intro; [apply cy_region_rep; eassumption || lra|apply cy_region_rep; eassumption || lra| |intros c _ []|intros c _ []| |].
  - intros c Hc _. apply U, cy14_psa_in, Hc.
  - apply U, cy14_pga_in.
  - apply U, cy14_pgv_in.
Qed.
Print Assumptions C155_cy14_china.
(** Italy between magnitudes 6 and 6.9: faster attenuation, hence smaller responses everywhere. *)
Theorem C155_cy14_italy : forall src1 src2 a x re1, nga_gives src1 (with_region a re1) -> nga_gives src2 (with_region a (Some "italy")) -> In re1 [None; Some "california"] ->
  n_x a = Some x -> 0 < n_rup a -> 180 <= n_v a -> 6 < n_mag a < 6.9 -> raised (cy14 src2) (cy14 src1) every nowhere nowhere.
Proof.
  intros src1 src2 a x re1 G1 G2 I1 Hx Hr Hv Hm.
  assert (U : forall c, In c cy14_coeff -> cy_med c x (with_region a (Some "italy")) < cy_med c x (with_region a re1)).
  { intros c Hc. apply cy_reg_lt; try (destruct a; reflexivity); [exact Hc|destruct a; exact Hv|destruct I1 as [<-|[<-|[]]]; destruct a; reflexivity|].
    rewrite (cy_region_ref c x a re1 "italy" I1 (or_intror (conj eq_refl Hm))). cbn [String.eqb Ascii.eqb Bool.eqb].
    row_lt Hc (fun _ : cy14_row => (1#1)%Q) (fun c => cy14_gamma_ji c) as L. pose proof (cy_anel_neg c a Hc Hr) as N. nra. }
  eapply raised_intro; [apply cy_region_rep; eassumption || lra|apply cy_region_rep; eassumption || lra| |intros c _ []|intros c _ []| |].
  - intros c Hc _. apply U, cy14_psa_in, Hc.
  - apply U, cy14_pga_in.
  - apply U, cy14_pgv_in.
Qed.
Print Assumptions C155_cy14_italy.

(** ** ASK14: China *)
Lemma as_region_path c a re : as_source_path c (with_region a re) = as_source_path c a.
Proof. nga_split a. reflexivity. Qed.
Lemma as_china_med c a re1 : In re1 [None; Some "global"; Some "california"; Some "italy"] ->
  exists K B, (as_med c (with_region a re1) = as_source_path c a + as_f5 c (n_v a) (exp (as_source_path c a + K)) + B) /\
    (as_med c (with_region a (Some "china")) = as_source_path c a + Q2R (ask14_a28 c) * n_rup a + as_f5 c (n_v a) (exp (as_source_path c a + Q2R (ask14_a28 c) * n_rup a + K)) + B).
Proof.
  intros H. exists ((Q2R (ask14_a10 c) + Q2R (ask14_b c) * Q2R (ask14_n c)) * ln (as_vstar c 1180 / Q2R (ask14_v_lin c))), (as_f10 c "global" (n_v a) (n_z1 a)).
  unfold as_med, as_rock. rewrite !as_region_path.
  replace (n_v (with_region a re1)) with (n_v a) by (destruct a; reflexivity). replace (n_rup (with_region a re1)) with (n_rup a) by (destruct a; reflexivity). replace (n_z1 (with_region a re1)) with (n_z1 a) by (destruct a; reflexivity).
  replace (n_v (with_region a (Some "china"))) with (n_v a) by (destruct a; reflexivity). replace (n_rup (with_region a (Some "china"))) with (n_rup a) by (destruct a; reflexivity). replace (n_z1 (with_region a (Some "china"))) with (n_z1 a) by (destruct a; reflexivity).
  assert (R2 : as_reg (with_region a (Some "china")) = "china") by (destruct a; reflexivity). rewrite R2.
  change (as_regional c "china" (n_v a) (n_rup a)) with (Q2R (ask14_a28 c) * n_rup a). change (as_regional c "china" 1180 (n_rup a)) with (Q2R (ask14_a28 c) * n_rup a).
  assert (F : forall re, jp re = false -> as_f10 c re (n_v a) (n_z1 a) = as_f10 c "global" (n_v a) (n_z1 a)) by (intros re J; unfold as_f10, as_z1; unfold jp in J; rewrite J; reflexivity).
  assert (Z : as_regional c (as_reg (with_region a re1)) (n_v a) (n_rup a) = 0 /\ as_regional c (as_reg (with_region a re1)) 1180 (n_rup a) = 0 /\ jp (as_reg (with_region a re1)) = false)
    by (destruct H as [<-|[<-|[<-|[<-|[]]]]]; destruct a; repeat split; reflexivity).
  destruct Z as (Z1 & Z2 & Z3). rewrite Z1, Z2, (F _ Z3), (F "china" eq_refl). rewrite !Rplus_0_r. split; reflexivity.
Qed.
Lemma as_region_rep src a re t : nga_gives src (with_region a re) -> n_mech a = Some t -> as_geom a -> 180 <= n_v a -> match n_z1 a with Some z => 0 <= z | None => True end ->
  reports (ask14 src) ask14_psa ask14_pga_row ask14_pgv_row ask14_period (fun c => as_med c (with_region a re)) (fun c => as_sd c (with_region a re)).
Proof. intros G Ht HG Hv Hz. apply (as_reports _ _ t G); destruct a; cbn in *; try assumption; lra. Qed.
Theorem C155_ask14_china : forall src1 src2 a t re1, nga_gives src1 (with_region a re1) -> nga_gives src2 (with_region a (Some "china")) ->
  In re1 [None; Some "global"; Some "california"; Some "italy"] -> n_mech a = Some t ->
  (n_hw a = Some true -> exists x, n_x a = Some x /\ 0 <= x /\ 0 < n_dip a <= 90) -> 180 <= n_v a -> match n_z1 a with Some z => 0 <= z | None => True end -> 0 < n_rup a ->
  raised (ask14 src1) (ask14 src2) (fun T => T <= 2) nowhere (fun T => 3 <= T).
Proof.
  intros src1 src2 a t re1 G1 G2 I1 Ht HG Hv Hz Hr.
  assert (U : forall c, In c ask14_coeff -> 0 < Q2R (ask14_a28 c) -> as_med c (with_region a re1) < as_med c (with_region a (Some "china"))).
  { intros c Hc L. destruct (as_china_med c a re1 I1) as (K & B & E1 & E2). rewrite E1, E2.
    assert (L' : as_source_path c a < as_source_path c a + Q2R (ask14_a28 c) * n_rup a) by (assert (0 < Q2R (ask14_a28 c) * n_rup a) by (apply Rmult_lt_0_compat; assumption); lra).
    pose proof (as_site_incr c (n_v a) K _ _ Hc Hv L'). lra. }
  eapply raised_intro; [eapply as_region_rep; eassumption|eapply as_region_rep; eassumption| |intros c _ []| | |].
  - intros c Hc T. apply U; [apply ask14_psa_in, Hc|].
    pose proof (sel ask14_psa (fun c => Qle_bool (ask14_period c) (2#1)) (fun c => Qltb 0 (ask14_a28 c)) ltac:(vm_compute; reflexivity) c Hc) as Q.
    apply Qpos_R, Q, Qle_of_R. unfold Q2R at 2; cbn [Qnum Qden]; lra.
  - intros c Hc T. cbv beta.
    pose proof (sel ask14_psa (fun c => Qle_bool (3#1) (ask14_period c)) (fun c => Qeq_bool (ask14_a28 c) (0#1)) ltac:(vm_compute; reflexivity) c Hc) as Q.
    assert (L : Q2R (ask14_a28 c) = 0) by (transitivity (Q2R (0#1)); [apply Qeqb_R, Q, Qle_of_R; unfold Q2R at 1; cbn [Qnum Qden]; lra|unfold Q2R; cbn; lra]).
    destruct (as_china_med c a re1 I1) as (K & B & E1 & E2). rewrite E1, E2, L, Rmult_0_l, Rplus_0_r. reflexivity.
  - apply U; [apply ask14_pga_in|]. unfold Q2R; cbn; lra.
  - apply U; [apply ask14_pgv_in|]. unfold Q2R; cbn; lra.
Qed.
Print Assumptions C155_ask14_china.

Example C155_nonvacuous : let a := ex_nga 6.5 100 1200 None in let b re := nga_src (with_region a re) in let d re := nga_src (with_region (hyp_at a 10) re) in
  raised (bssa14 (b None)) (bssa14 (b (Some "turkey"))) every nowhere nowhere /\
  raised (bssa14 (b (Some "japan"))) (bssa14 (b None)) (fun T => T <= 6.5) (fun T => 7 <= T) nowhere /\
  raised (cb14 (d (Some "italy"))) (cb14 (d None)) (fun T => T <= 2) nowhere (fun T => 3 <= T) /\
  raised (cy14 (b None)) (cy14 (b (Some "china"))) every nowhere nowhere /\
  raised (cy14 (b (Some "italy"))) (cy14 (b (Some "california"))) every nowhere nowhere /\
  raised (ask14 (b None)) (ask14 (b (Some "china"))) (fun T => T <= 2) nowhere (fun T => 3 <= T).
Proof.
  intros a b d. split; [|split; [|split; [|split; [|split]]]].
  - apply (C155_bssa14_slow _ _ a None "turkey"); try apply nga_src_gives; cbn; try tauto; lra.
  - apply (C155_bssa14_fast _ _ a None "japan"); try apply nga_src_gives; cbn; try tauto; lra.
  - apply (C155_cb14 _ _ (hyp_at a 10) (-5) "SS" None); try apply nga_src_gives; try reflexivity; cbn; try tauto; try lra.
    discriminate.
  - apply (C155_cy14_china _ _ a (-5) None); try apply nga_src_gives; try reflexivity; cbn; try tauto; lra.
  - apply (C155_cy14_italy _ _ a (-5) (Some "california")); try apply nga_src_gives; try reflexivity; cbn; try tauto; lra.
  - apply (C155_ask14_china _ _ a "SS" None); try apply nga_src_gives; try reflexivity; cbn; try tauto; try lra. discriminate.
Qed.
