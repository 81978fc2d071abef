(** * The published equations of the NGA-West2 models: C112-C115

    Vocabulary: Spec_cy14.v, Spec_bssa14.v, Spec_cb14.v, Spec_ask14.v. *)
From Coquelicot Require Import Coquelicot.
From Interval Require Import Tactic.
From Coq Require Import List.
From Verif Require Import M_cy14 M_bssa14 M_cb14 M_ask14 FrameworkProofs Anal Nga Outs SpecNga P_cy14 P_bssa14 P_cb14 P_cb14b P_ask14 P_ask14b P_ngaspec Spec_cy14 Spec_bssa14.
Open Scope R_scope.
Open Scope string_scope.
Open Scope list_scope.

Lemma choice_opt opts d o : choice opts (PStr d) o = PStr (option_of d opts o).
Proof. unfold choice, option_of. destruct o as [t|]; [|reflexivity]. destruct (existsb _ _); reflexivity. Qed.
Lemma cosh_pos x : 0 < cosh x. Proof. pose proof (cosh_ge_1 x). lra. Qed.

(** [reports r rows ca cv period med sd]: the construction succeeds; the spectrum has one value exp(med) and one
    standard deviation sd per row of [rows], at the period of the row; PGA and PGV are those of [ca] and [cv]. *)
Definition reports {A} (r : M gmm) (rows : list A) (ca cv : A) (period : A -> Q) (med sd : A -> R) : Prop :=
  exists g, result r = Ok g /\
    result (g_periods g) = Ok (map (fun c => Fin (Q2R (period c))) rows) /\
    result (g_spec_accels g) = Ok (map (fun c => Fin (exp (med c))) rows) /\
    result (g_pga g) = Ok (Fin (exp (med ca))) /\ result (g_pgv g) = Ok (Fin (exp (med cv))) /\
    result (g_ln_stds g) = Ok (map (fun c => Fin (sd c)) rows) /\
    result (g_ln_std_pga g) = Ok (Fin (sd ca)) /\ result (g_ln_std_pgv g) = Ok (Fin (sd cv)).
Lemma reports_rows {A} (r : M gmm) cls s (f h : A -> flt) all psa i j ca cv period (med sd : A -> R) :
  result r = Ok (GMM cls s (map f all) (Some (map h all))) ->
  take_idx all (gc_psa cls) = Some psa ->
  gc_pga cls = Some i -> py_nth all i = Some ca -> gc_pgv cls = Some j -> py_nth all j = Some cv -> gc_pgv_scale cls = Fin 1 ->
  gc_periods cls = map (fun c => qf (period c)) all ->
  (forall c, In c all -> f c = Fin (med c)) -> (forall c, In c all -> h c = Fin (sd c)) ->
  forall J : incl (ca :: cv :: psa) all, reports r psa ca cv period med sd.
Proof.
  intros E Hp Hi Ha Hj Hv Hsc Hper Hf Hh J.
  destruct (gmm_out_rows r cls s f h all psa i j ca cv E Hp Hi Ha Hj Hv) as (g & G & A1 & A2 & A3 & A4 & A5 & A6).
  cbn [o_sa o_pga o_pgv o_sd o_sd_pga o_sd_pgv row_outs] in A1, A2, A3, A4, A5, A6.
  exists g. split; [exact G|]. rewrite A1, A2, A3, A4, A5, A6, Hsc. 
  rewrite (Hf ca), (Hf cv), (Hh ca), (Hh cv) by (apply J; cbn; auto). cbn [fexp fmul]. rewrite Rmult_1_r.
  split. { rewrite E in G. injection G as <-. unfold g_periods. cbn [g_class]. rewrite Hper. unfold arr_take. rewrite take_idx_map, Hp. reflexivity. }
  split; [apply (f_equal Ok), map_ext_in; intros c Hc; rewrite Hf by (apply J; cbn; auto); reflexivity|].
  split; [reflexivity|]. split; [reflexivity|].
  split; [apply (f_equal Ok), map_ext_in; intros c Hc; apply Hh; apply J; cbn; auto|]. split; reflexivity.
Qed.

(** ** C112: Chiou & Youngs (2014) *)
Lemma cy_mean_tor_ok m mech : cy14_calc_depth_tor (Fin m) (PStr mech) = Fin (cy_mean_tor mech m).
Proof.
  unfold cy14_calc_depth_tor, cy_mean_tor, is_str. cbn [pyeq]. destruct (String.eqb mech "RS"); fin; apply (f_equal Fin); ring.
Qed.
Lemma cy_mean_z1_ok v re : cy14_calc_depth_1_0 (Fin v) (PStr re) = Fin (cy_mean_z1 re v / 1000).
Proof.
  unfold cy14_calc_depth_1_0, cy_mean_z1. cbn [pyin existsb pyeq]. rewrite Bool.orb_false_r. destruct (String.eqb re "japan").
  - fcbn. rewrite fdiv_fin by lra. rewrite flog_fin by (apply Rdiv_lt_0_compat; nra). fcbn. rewrite fdiv_fin by lra. apply (f_equal Fin).
    apply (f_equal (fun t => t / 1000)). apply (f_equal exp). apply (f_equal2 Rmult); [lra|]. apply (f_equal ln). apply (f_equal2 Rdiv); lra.
  - fcbn. rewrite fdiv_fin by lra. rewrite flog_fin by (apply Rdiv_lt_0_compat; nra). fcbn. rewrite fdiv_fin by lra. apply (f_equal Fin).
    apply (f_equal (fun t => t / 1000)). apply (f_equal exp). apply (f_equal2 Rmult); [lra|]. apply (f_equal ln). apply (f_equal2 Rdiv); lra.
Qed.
Lemma cy_tor_ok x a : cy_depth_tor (cy14_input x a) = Fin (cy_tor a).
Proof. unfold cy14_input, cy_tor, or_else, cy14_mech. cy14_fields. rewrite choice_opt, cy_mean_tor_ok. destruct (n_tor a); reflexivity. Qed.
Definition cy_z1 (a : nga) : R := match n_z1 a with Some z => z | None => cy_mean_z1 (cy_reg a) (n_v a) / 1000 end.
Lemma cy_z1_ok x a : cy_depth_1_0 (cy14_input x a) = Fin (cy_z1 a).
Proof. unfold cy14_input, cy_z1, cy14_region. cy14_fields. rewrite choice_opt, cy_mean_z1_ok. destruct (n_z1 a); reflexivity. Qed.

Definition cy_src (c : cy14_row) (a : nga) : R :=
  let m := n_mag a in let mech := cy_mech a in let dip := n_dip a * (PI / 180) in
  let ch := cosh (2 * Rmax (m - 4.5) 0) in
  Q2R (cy14_c_1 c)
  + (if String.eqb mech "RS" then Q2R (cy14_c_1a c) + Q2R (cy14_c_1c c) / ch else 0)
  + (if String.eqb mech "NS" then Q2R (cy14_c_1b c) + Q2R (cy14_c_1d c) / ch else 0)
  + (Q2R (cy14_c_7 c) + Q2R (cy14_c_7b c) / ch) * (cy_tor a - cy_mean_tor mech m)
  + (Q2R (cy14_c_11 c) + Q2R (cy14_c_11b c) / ch) * (cos dip) ^ 2
  + Q2R (cy14_c_2 c) * (m - 6)
  + (Q2R (cy14_c_2 c) - Q2R (cy14_c_3 c)) / Q2R (cy14_c_n c) * ln (1 + exp (Q2R (cy14_c_n c) * (Q2R (cy14_c_m c) - m))).
Lemma cy_src_ok c x a : In c cy14_coeff -> cy14_ln_source c (cy14_input x a) = Fin (cy_src c a).
Proof.
  intros Hc. row_pos Hc cy14_c_n as Hn. unfold cy14_ln_source. rewrite cy_tor_ok. unfold cy14_input, cy14_mech. cy14_fields. rewrite choice_opt.
  fold (cy_mech a). rewrite cy_mean_tor_ok. unfold cy_src, is_str, fradians. cbv zeta. cbn [pyeq]. fcbn. rewrite pymax_fin. fcbn. unfold qf.
  set (ch := cosh _). assert (0 < ch) by apply cosh_pos. clearbody ch.
  rewrite !fdiv_fin by lra. fcbn. rewrite flog_fin by (match goal with |- context [exp ?t] => pose proof (exp_pos t) end; lra).
  destruct (String.eqb (cy_mech a) "RS") eqn:E1; [apply String.eqb_eq in E1; rewrite E1; cbn [String.eqb Ascii.eqb Bool.eqb]|destruct (String.eqb (cy_mech a) "NS")];
  fcbn; apply (f_equal Fin); ring.
Qed.
Lemma cy_ref_ok c x a : In c cy14_coeff -> 0 <= n_rup a -> cy14_ln_ref c (cy14_input x a) = Fin (cy_ref c x a).
Proof.
  intros Hc Hr. row_pos Hc cy14_c_5 as H5. row_pos Hc cy14_c_rb as Hrb. row_pos Hc cy14_c_9b as H9.
  unfold cy14_ln_ref. rewrite cy_src_ok by exact Hc. rewrite cy_tor_ok. unfold cy14_input, cy14_region. cy14_fields. rewrite choice_opt. fold (cy_reg a).
  unfold cy_ref. cbv zeta.
  set (src := cy_src c a). 
  set (sc := if (_ && _)%bool then qf _ else _).
  assert (SC : sc = Fin (if (String.eqb (cy_reg a) "japan" || String.eqb (cy_reg a) "italy")%bool
     then if Rlt_dec 6 (n_mag a) then if Rlt_dec (n_mag a) 6.9 then Q2R (cy14_gamma_ji c) else 1 else 1
     else if String.eqb (cy_reg a) "china" then Q2R (cy14_gamma_c c) else 1)).
  { unfold sc. cbn [pyin existsb pyeq]. rewrite !Bool.orb_false_r. fcbn.
    destruct (String.eqb (cy_reg a) "japan") eqn:E1; [|destruct (String.eqb (cy_reg a) "italy") eqn:E2]; cbn [orb andb];
    try (destruct (String.eqb (cy_reg a) "china"); reflexivity);
    [apply String.eqb_eq in E1; rewrite E1|apply String.eqb_eq in E2; rewrite E2]; cbn [String.eqb Ascii.eqb Bool.eqb];
    destruct (Rltb_spec 6 (n_mag a)), (Rlt_dec 6 (n_mag a)); try lra; cbn [andb]; try reflexivity;
    destruct (Rltb_spec (n_mag a) 6.9), (Rlt_dec (n_mag a) 6.9); try lra; reflexivity. }
  rewrite SC. clear sc SC. set (sc := if (_ || _)%bool then _ else _). clearbody sc.
  assert (DP : odef (n_dpp a) (Fin 0) = Fin (or_else (n_dpp a) 0)) by (destruct (n_dpp a); reflexivity). rewrite DP. clear DP.
  unfold cy_on_hw. unfold qf, fradians. fcbn. rewrite !pymax_fin. fcbn.
  set (ch1 := cosh (Q2R (cy14_c_6 c) * _)). set (ch2 := cosh (Rmax (n_mag a - Q2R (cy14_c_gamma3 c)) 0)).
  assert (0 < ch1) by apply cosh_pos. assert (0 < ch2) by apply cosh_pos. clearbody ch1 ch2.
  assert (0 < sqrt (n_rup a * n_rup a + Q2R (cy14_c_rb c) * Q2R (cy14_c_rb c))) by (apply sqrt_lt_R0; nra).
  rewrite !fdiv_fin by lra. fcbn. rewrite !pymax_fin, !pymin_fin. rewrite !fsqrt_fin by nra. rewrite !flog_fin by (assumption || nra). fcbn.
  rewrite !fdiv_fin by lra.
  replace (n_rup a ^ 2 + Q2R (cy14_c_rb c) ^ 2) with (n_rup a * n_rup a + Q2R (cy14_c_rb c) * Q2R (cy14_c_rb c)) by ring.
  replace (n_jb a ^ 2 + cy_tor a ^ 2) with (n_jb a * n_jb a + cy_tor a * cy_tor a) by ring.
  replace ((n_mag a - Q2R (cy14_c_8b c)) ^ 2) with ((n_mag a - Q2R (cy14_c_8b c)) * (n_mag a - Q2R (cy14_c_8b c))) by ring.
  destruct (match n_hw a with Some b => b | None => false end); fcbn; apply (f_equal Fin); unfold src, cy_src; cbv zeta; ring.
Qed.

Lemma cy_b_eq c v : Q2R (cy14_phi_2 c) * (exp (Q2R (cy14_phi_3 c) * (Rmin v 1130.0 - 360.0)) - exp (Q2R (cy14_phi_3 c) * (1130.0 - 360.0))) = cy_b c v.
Proof. unfold cy_b. replace 1130.0 with 1130 by lra. replace 360.0 with 360 by lra. reflexivity. Qed.
Lemma cy_med_ok c x a : In c cy14_coeff -> 0 <= n_rup a -> 0 < n_v a -> cy14_ln_resp c (cy14_input x a) = Fin (cy_med c x a).
Proof.
  intros Hc Hr Hv. row_pos Hc cy14_phi_4 as H4. row_pos Hc cy14_phi_6 as H6. row_pos Hc cy14_phi_6jp as H6j.
  unfold cy14_ln_resp. rewrite cy_ref_ok by assumption. rewrite cy_z1_ok. unfold cy14_input, cy14_region. cy14_fields. rewrite choice_opt. fold (cy_reg a).
  unfold cy14_site_term. rewrite cy_mean_z1_ok. unfold cy_med. cbv zeta. cbn [pyin existsb pyeq]. rewrite Bool.orb_false_r. unfold qf. fcbn.
  set (y := cy_ref c x a). pose proof (exp_pos y) as Py. rewrite flog_fin by exact Py. fcbn. rewrite (fdiv_fin (n_v a)) by lra.
  rewrite flog_fin by (apply Rdiv_lt_0_compat; lra). rewrite ln_exp. rewrite !fdiv_fin by lra. rewrite flog_fin by (apply Rdiv_lt_0_compat; lra).
  rewrite !pymin_fin. fcbn. rewrite cy_b_eq. replace 1130.0 with 1130 by lra.
  assert (DZ : 1000 * (cy_z1 a - cy_mean_z1 (cy_reg a) (n_v a) / 1000) = cy_dz1 a) by (unfold cy_z1, cy_dz1; destruct (n_z1 a); lra).
  rewrite DZ. destruct (String.eqb (cy_reg a) "japan"); rewrite fdiv_fin by lra; fcbn; apply (f_equal Fin); ring.
Qed.
Lemma cy_sd_ok c x a : In c cy14_coeff -> 0 <= n_rup a ->
  cy14_ln_std c (fexp (cy14_ln_ref c (cy14_input x a))) (cy14_input x a) = Fin (cy_sd c x a).
Proof.
  intros Hc Hr. row_pos Hc cy14_phi_4 as H4. row_pos Hc cy14_sigma_3 as S3.
  rewrite cy_ref_ok by assumption. unfold cy14_ln_std, cy14_input, cy14_region. cy14_fields. rewrite !choice_opt. fold (cy_reg a).
  unfold cy_sd. cbv zeta. unfold cy_measured, is_str. cbn [pyin existsb pyeq]. rewrite Bool.orb_false_r. unfold qf. fcbn. rewrite fclip_fin, pymin_fin. fcbn.
  set (y := cy_ref c x a). pose proof (exp_pos y) as Py. rewrite cy_b_eq.
  rewrite !(fdiv_fin (exp y)) by lra. fcbn. replace 5.0 with 5 by lra.
  set (nl := 1 + cy_b c (n_v a) * (exp y / (exp y + Q2R (cy14_phi_4 c)))). set (dm := Rmin (Rmax (n_mag a) 5) 6.5 - 5).
  assert (SQ : forall u w : R, 0 <= u * u * (w * w)) by (intros; apply Rmult_le_pos; apply Rle_0_sqr).
  destruct (String.eqb (cy_reg a) "japan"), (String.eqb (option_of _ _ (n_source a)) "measured"); fcbn; rewrite !fdiv_fin by lra; fcbn;
  (rewrite fsqrt_fin by nra; fcbn; rewrite fsqrt_fin by (apply Rplus_le_le_0_compat; [apply SQ|apply Rle_0_sqr]); apply (f_equal Fin); 
   match goal with |- sqrt (_ + _ * sqrt ?p * _) = sqrt (_ + (_ * sqrt ?q) ^ 2) => replace q with p by ring end; apply (f_equal sqrt); ring).
Qed.
Theorem C112_published : forall src a x, nga_gives src a -> n_x a = Some x -> 0 <= n_rup a -> 0 < n_v a ->
  exists rows pga_row pgv_row, cy14_coeff = rows ++ [pga_row; pgv_row] /\
    reports (cy14 src) rows pga_row pgv_row cy14_period (fun c => cy_med c x a) (fun c => cy_sd c x a).
Proof.
  intros src a x H Hx Hr Hv. exists cy14_psa, cy14_pga_row, cy14_pgv_row. split; [reflexivity|].
  destruct (cy14_construct src a x H Hx) as [s E]. eapply reports_rows; [exact E|reflexivity..| | |].
  - intros c Hc. apply cy_med_ok; assumption.
  - intros c Hc. apply cy_sd_ok; assumption.
  - intros c [<-|[<-|Hc]]; [apply cy14_pga_in|apply cy14_pgv_in|apply cy14_psa_in, Hc].
Qed.
Print Assumptions C112_published.

(** ** C113: Boore et al. (2014) *)
Lemma bs_rock_ok c a : In c bssa14_coeff -> bssa14_ln_ref c (bssa14_input a) = Fin (bs_rock c a).
Proof. intros Hc. rewrite bssa14_ref_spec by exact Hc. reflexivity. Qed.
Lemma bs_pga_ok a : bssa14_pga_ref a = Fin (exp (bs_rock bssa14_pga_row a)).
Proof. rewrite bssa14_pga_ref_form, bs_rock_ok by apply bssa14_pga_in. fcbn. rewrite Rplus_0_r. reflexivity. Qed.
Lemma bs_med_ok c a : In c bssa14_coeff -> 0 < n_v a -> bssa14_resp a c = Fin (bs_med bssa14_pga_row c a).
Proof.
  intros Hc Hv. rewrite bssa14_resp_eq, bs_rock_ok by exact Hc. rewrite bs_pga_ok. unfold bs_med. set (p := exp (bs_rock bssa14_pga_row a)).
  assert (Pp : 0 < p) by apply exp_pos. clearbody p. row_pos Hc bssa14_V_c as HV. row_is Hc bssa14_V_ref (760#1)%Q as HR. row_is Hc bssa14_f_3 (1#10)%Q as H3. row_is Hc bssa14_f_1 (0#1)%Q as H1.
  row_ge Hc (0#1)%Q (fun c => if Qle_bool (65#100)%Q (bssa14_period c) then bssa14_f_7 c else 0%Q) as H7.
  assert (H7' : 0.65 <= Q2R (bssa14_period c) -> 0 <= Q2R (bssa14_f_7 c)).
  { intros L. destruct (Qle_bool (65#100)%Q (bssa14_period c)) eqn:E; [lra|]. exfalso. assert (Q2R (bssa14_period c) < Q2R (65#100)); [|unfold Q2R in *; cbn in *; lra].
    apply Qlt_Rlt, Qnot_le_lt. intros W. apply Qle_bool_iff in W. congruence. }
  clear H7.
  unfold bssa14_site_term.
  assert (Z : cy14_calc_depth_1_0 (Fin (n_v a)) (onum (n_z1 a)) = Fin (cy_mean_z1 "california" (n_v a) / 1000)).
  { rewrite <- cy_mean_z1_ok. unfold onum. destruct (n_z1 a); reflexivity. }
  rewrite Z. clear Z. set (z0 := cy_mean_z1 "california" (n_v a) / 1000). assert (Pz : 0 < z0) by (unfold z0, cy_mean_z1; cbn [String.eqb Ascii.eqb Bool.eqb]; apply Rdiv_lt_0_compat; [apply exp_pos|lra]).
  rewrite (flog_fin z0) by exact Pz. unfold qf. fcbn. rewrite HR, H3, H1. 
  assert (Pm : 0 < Rmin (n_v a) (Q2R (bssa14_V_c c))) by (apply Rmin_glb_lt; lra).
  rewrite !fdiv_fin by lra. rewrite !flog_fin by (apply Rdiv_lt_0_compat; lra). rewrite pymin_fin. fcbn. rewrite exp_ln by exact Pz.
  unfold bs_lin, bs_nonlin, bs_basin, bssa14_depth. fold z0.
  replace (760 * / 1) with 760 by lra. replace (1 * / 10) with 0.1 by lra. replace (0 * / 1) with 0 by lra.
  replace 760.0 with 760 by lra. replace 360.0 with 360 by lra.
  destruct (n_z1 a); cbn [option_map]; fcbn; destruct (Rleb_spec 0.65 (Q2R (bssa14_period c))), (Rlt_dec (Q2R (bssa14_period c)) 0.65); try lra;
  fcbn; apply (f_equal Fin); try ring.
  - replace 0.0 with 0 by lra. rewrite Rmult_0_r, (Rmin_left 0) by (apply H7'; lra). ring.
Qed.

Lemma rss_value t p s : rss t p s -> s = Fin (sqrt (t ^ 2 + p ^ 2)).
Proof. intros (x & -> & Hx & E). apply (f_equal Fin). replace (t ^ 2 + p ^ 2) with (x * x) by (rewrite E; ring). rewrite sqrt_square by lra. reflexivity. Qed.
Lemma bs_sd_ok c a : In c bssa14_coeff -> 0 < n_v a -> bssa14_ln_std c (bssa14_input a) = Fin (bs_sd c a).
Proof.
  intros Hc Hv. apply rss_value. pose proof (bssa14_sigma_range c (n_mag a) (n_jb a) (n_v a) Hc) as B. rewrite bssa14_std_form by assumption.
  rewrite <- bssa14_phi_eq, <- bssa14_tau_eq by assumption. apply rss_sqrt; [reflexivity|]. lra.
Qed.
Theorem C113_published : forall src a, nga_gives src a -> 0 < n_v a ->
  exists pgv_row pga_row rows, bssa14_coeff = pgv_row :: pga_row :: rows /\
    reports (bssa14 src) rows pga_row pgv_row bssa14_period (fun c => bs_med pga_row c a) (fun c => bs_sd c a).
Proof.
  intros src a H Hv. exists bssa14_pgv_row, bssa14_pga_row, bssa14_psa. split; [reflexivity|].
  destruct (bssa14_construct src a H) as [s E]. eapply reports_rows; [exact E|reflexivity..| | |].
  - intros c Hc. apply bs_med_ok; assumption.
  - intros c Hc. apply bs_sd_ok; assumption.
  - intros c [<-|[<-|Hc]]; [apply bssa14_pga_in|apply bssa14_pgv_in|apply bssa14_psa_in, Hc].
Qed.
Print Assumptions C113_published.

(** The hypotheses of C112 and C113 are met by a reverse rupture in Japan below a soft site. *)
Definition pub_nga : nga :=
  Nga 6.7 18 12 (Some 8) (Some 3) None 45 270 (Some 2) None None (Some 9) (Some 14) (Some 0.4) (Some 2) (Some 0.2)
      (Some "RS") (Some "japan") (Some "measured") (Some true) None.
Example C112_nonvacuous : exists rows a v, cy14_coeff = rows ++ [a; v] /\ List.length rows = 24%nat /\
  reports (cy14 (nga_src pub_nga)) rows a v cy14_period (fun c => cy_med c 8 pub_nga) (fun c => cy_sd c 8 pub_nga).
Proof.
  destruct (C112_published (nga_src pub_nga) pub_nga 8) as (rows & a & v & E & H); [apply nga_src_gives|reflexivity|cbn; lra|cbn; lra|].
  exists rows, a, v. split; [exact E|]. split; [|exact H]. apply (f_equal (@List.length _)) in E. rewrite app_length in E. cbn in E. lia.
Qed.
Example C113_nonvacuous : exists v a rows, bssa14_coeff = v :: a :: rows /\
  reports (bssa14 (nga_src pub_nga)) rows a v bssa14_period (fun c => bs_med a c pub_nga) (fun c => bs_sd c pub_nga).
Proof. apply C113_published; [apply nga_src_gives|cbn; lra]. Qed.
