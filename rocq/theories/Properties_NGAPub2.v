(** * The published equations of CB14: C114

    Vocabulary: Spec_cb14.v. *)
From Coquelicot Require Import Coquelicot.
From Interval Require Import Tactic.
From Coq Require Import List.
From Verif Require Import M_cy14 M_bssa14 M_cb14 M_ask14 FrameworkProofs Anal Nga Outs SpecNga P_cy14 P_cb14 P_cb14b P_ngaspec Spec_cy14 Spec_cb14 Properties_NGA Properties_NGAPub.
Open Scope R_scope.
Open Scope string_scope.
Open Scope list_scope.

Lemma is_mech_ok a s : In s ["SS"; "NS"; "RS"] -> is_str (cb14_mech a) s = String.eqb (cb_mech a) s.
Proof.
  intros H. unfold cb14_mech, cb_mech, option_of, choice, is_str. destruct (n_mech a) as [t|]; [destruct (existsb _ _); [reflexivity|]|];
  destruct H as [<-|[<-|[<-|[]]]]; reflexivity.
Qed.
Lemma is_reg_ok a s : is_str (cb14_region a) s = String.eqb (cb_reg a) s.
Proof. unfold cb14_region, cb_reg. rewrite choice_opt. reflexivity. Qed.
Lemma odef_fin o d x : d = Fin x -> odef o d = Fin (or_else o x).
Proof. intros ->. destruct o; reflexivity. Qed.
Lemma cb_tor_ok a : cb14_tor a = Fin (cb_tor a).
Proof.
  unfold cb14_tor, cb_tor. apply odef_fin. unfold cy14_calc_depth_tor. rewrite is_mech_ok by (cbn; auto). unfold cy_mean_tor.
  destruct (String.eqb (cb_mech a) "RS"); fin; apply (f_equal Fin); ring.
Qed.
Lemma cb_width_ok a : 0 < n_dip a <= 90 -> cb14_width a = Fin (cb_wid a).
Proof.
  intros Hd. unfold cb14_width, cb_wid. apply odef_fin. rewrite cb_tor_ok.
  rewrite (odef_fin (n_bot a) (Fin 15.0) 15) by (apply (f_equal Fin); lra).
  unfold cb14_calc_width, fradians, cb_rad. fcbn. pose proof (sin_dip_pos _ Hd) as S. rewrite !fdiv_fin by lra. fcbn.
  match goal with |- context [exp ?y] => pose proof (exp_pos y) end. rewrite fsqrt_fin by lra. rewrite pymin_fin. reflexivity.
Qed.
Lemma cb_bor_ok a : 0 < n_dip a <= 90 -> cb14_bor a = Fin (cb_bor a).
Proof.
  intros Hd. unfold cb14_bor, cb_bor. apply odef_fin. rewrite cb_tor_ok, cb_width_ok by exact Hd. reflexivity.
Qed.
Lemma cb_hyp_ok a : 0 < n_dip a <= 90 -> (n_hyp a = None -> cb_tor a < cb_bor a) -> cb14_hyp a = Fin (cb_hyp a).
Proof.
  intros Hd Hh. unfold cb14_hyp, cb_hyp. destruct (n_hyp a); [reflexivity|]. specialize (Hh eq_refl). cbn [odef or_else].
  rewrite cb_tor_ok, cb_bor_ok by exact Hd. unfold cb14_calc_depth_hyp. fcbn. rewrite !pymin_fin. rewrite flog_fin by lra. fcbn. rewrite pymin_fin. fcbn.
  replace (-4.317) with (-(4.317)) by lra. reflexivity.
Qed.
Lemma cb_z25_ok v a : 0 < v -> cb14_z25 v (cb14_region a) = Fin (cb_z25 (cb_reg a) v).
Proof. intros Hv. unfold cb14_z25, cb_z25. rewrite is_reg_ok. rewrite flog_fin by exact Hv. destruct (String.eqb _ _); reflexivity. Qed.
Lemma fpow_fin_pos x y : 0 < x -> fpow (Fin x) y = Fin (Rpower x y).
Proof. intros H. fcbn. unfold fpow. rewrite Rltb_true by exact H. reflexivity. Qed.
Lemma cb_hng_ok c x a : In c cb14_coeff -> geom_ok x a -> cb14_f_hng c (cb14_input x a) = Fin (cb_fhng c x a).
Proof.
  intros Hc HG. unfold cb14_f_hng, cb14_input; cb14_fields. pose proof (cb_width_ok a (proj1 HG)) as EW. 
  pose proof (cb14_R1_nonzero x a (cb_wid a) HG) as HR. rewrite cb_tor_ok, EW. specialize (fun Z => HR Z EW).
  row_lt Hc cb14_h_5 (fun _ : cb14_row => (0#1)%Q) as H5. row_lt Hc cb14_h_6 (fun _ : cb14_row => (0#1)%Q) as H6.
  set (hrx := if ($x <? $0)%flt then _ else _).
  assert (F1 : hrx = Fin (cb_fhng_x c x a)).
  { unfold hrx, fradians, cb_fhng_x. cbv zeta. fold (cb_rad a). fcbn. fold (cb_rad a). set (R1 := cb_wid a * cos (cb_rad a)) in *.
    destruct (Rltb_spec x 0), (Rlt_dec x 0); try lra; [reflexivity|].
    destruct (Rleb_spec x R1), (Rle_dec x R1); try lra.
    - assert (R1 <> 0) by (destruct (Req_dec x 0); [apply HR; assumption|lra]).
      rewrite fdiv_fin by assumption. unfold qf. fcbn. apply (f_equal Fin). ring.
    - set (R2 := 62 * n_mag a - 350). destruct (Req_EM_T R2 R1) as [Z|Z].
      + unfold qf. unfold fdiv. rewrite Reqb_true by lra. unfold inf_signed. rewrite Rltb_true by lra.
        unfold fsq, fmul, inf_signed. rewrite !(Rltb_false 0) by lra. rewrite !Rltb_true by lra. reflexivity.
      + rewrite fdiv_fin by lra. unfold qf. fcbn. rewrite ?fmax_fin. apply (f_equal Fin), (f_equal (Rmax 0)). ring. }
  rewrite F1. clear hrx F1. unfold cb_fhng, qf. fcbn. 
  destruct (Reqb_spec (n_rup a) 0), (Req_EM_T (n_rup a) 0); try contradiction; try rewrite (fdiv_fin (n_rup a - n_jb a)) by assumption;
  destruct (Rleb_spec (n_mag a) 5.5), (Rle_dec (n_mag a) 5.5); try lra; 
  destruct (Rltb_spec 16.66 (cb_tor a)), (Rle_dec (cb_tor a) 16.66); try lra; fcbn; rewrite ?fdiv_fin by lra; fcbn; reflexivity.
Qed.
Lemma cb_site_ok c a p v : In c cb14_coeff -> 0 < v -> (0 < p \/ 1086 < v) -> forall d z rd, (0 < p -> d = Fin z) -> (p = 0 -> rd = Fin z) -> 0 <= p ->
  cb14_site_term c (if Rlt_dec 0 p then Fin p else NaN) (Fin v) d (cb14_region a) rd = Fin (cb_fsite c (cb_reg a) v p + cb_fsed c (cb_reg a) z).
Proof.
  intros Hc Hv Hp d z rd Hd Hrd P0. row_pos Hc cb14_k_1 as K. row_upto Hc cb14_k_1 (1086#1)%Q as K2.
  assert (V : 0 < v / Q2R (cb14_k_1 c)) by (apply Rdiv_lt_0_compat; lra).
  assert (V2 : 0 < 200 / Q2R (cb14_k_1 c)) by (apply Rdiv_lt_0_compat; lra).
  unfold cb14_site_term. rewrite !is_reg_ok. unfold cb_fsite, cb_fsed, qf. cbv zeta. rewrite (fdiv_fin v), (fdiv_fin 200) by lra. 
  rewrite !(flog_fin (v / _)), (flog_fin (200 / _)), fpow_fin_pos by assumption.
  set (dd := if fisnan _ then rd else d).
  assert (DD : dd = Fin z). { unfold dd. destruct (Rlt_dec 0 p); cbn [fisnan]; [apply Hd; assumption|apply Hrd; lra]. }
  rewrite DD. clear dd DD.
  assert (N : 0 < Rpower (v / Q2R (cb14_k_1 c)) 1.18) by apply exp_pos.
  set (pw := Rpower _ _) in *. fcbn.
  assert (D3 : exp (-0.75) = exp (- (0.75))) by (f_equal; lra).
  destruct (Rleb_spec v (Q2R (cb14_k_1 c))), (Rle_dec v (Q2R (cb14_k_1 c))); try lra;
  [destruct (Rlt_dec 0 p); [|lra]; fcbn; rewrite !flog_fin by lra; fcbn|];
  destruct (String.eqb (cb_reg a) "japan");
  destruct (Rleb_spec v 200), (Rle_dec v 200); try lra;
  destruct (Rleb_spec z 1), (Rle_dec z 1); try lra; fcbn;
  try (destruct (Rleb_spec z 3), (Rle_dec z 3); try lra); fcbn; apply (f_equal Fin); try ring; rewrite ?D3; replace (- (0.25)) with (-0.25) by lra; ring.
Qed.
Lemma fclip_clip x lo hi : lo <= hi -> fclip (Fin x) (Fin lo) (Fin hi) = Fin (cb_clip lo hi x).
Proof. intros H. rewrite fclip_fin. reflexivity. Qed.
Lemma cb_mag_ok c m : cb14_f_mag c (Fin m) = Fin (cb_fmag c m).
Proof.
  unfold cb14_f_mag, cb_fmag, qf. fcbn.
  destruct (Rltb_spec 4.5 m); [rewrite (Rmax_left (m - 4.5)) by lra|rewrite (Rmax_right (m - 4.5)), (Rmax_right (m - 5.5)), (Rmax_right (m - 6.5)) by lra; apply (f_equal Fin); ring].
  destruct (Rltb_spec 5.5 m); [rewrite (Rmax_left (m - 5.5)) by lra|rewrite (Rmax_right (m - 5.5)), (Rmax_right (m - 6.5)) by lra; apply (f_equal Fin); ring].
  destruct (Rltb_spec 6.5 m); [rewrite (Rmax_left (m - 6.5)) by lra|rewrite (Rmax_right (m - 6.5)) by lra; apply (f_equal Fin); ring].
  reflexivity.
Qed.
Lemma cb_resp_ok c x a p v : In c cb14_coeff -> geom_ok x a -> (n_hyp a = None -> cb_tor a < cb_bor a) -> 0 < n_v a -> 0 < v -> (0 < p \/ 1086 < v) -> 0 <= p ->
  forall z rd, (0 < p -> z = or_else (n_z25 a) (cb_z25 (cb_reg a) (n_v a))) -> (p = 0 -> rd = Fin z) ->
  cb14_ln_resp c (cb14_input x a) (if Rlt_dec 0 p then Fin p else NaN) (Fin v) rd
  = Fin (cb_source_path c x a + (cb_fsite c (cb_reg a) v p + cb_fsed c (cb_reg a) z)).
Proof.
  intros Hc HG Hh Hv Hv2 Hp P0 z rd Hz Hrd. row_pos Hc cb14_c_7 as H7. unfold cb14_ln_resp. rewrite cb_hng_ok by assumption.
  unfold cb14_input; cb14_fields. rewrite cb_mag_ok. rewrite (cb_hyp_ok a (proj1 HG) Hh).
  rewrite (odef_fin (n_z25 a) _ _ (cb_z25_ok (n_v a) a Hv)).
  rewrite (cb_site_ok c a p v Hc Hv2 Hp _ z rd) by (assumption || (intros; rewrite Hz by assumption; reflexivity)).
  rewrite !is_mech_ok by (cbn; auto). unfold cb14_region. rewrite choice_opt. fold (cb_reg a). unfold pyeq_list. cbn [pyin existsb pyeq]. rewrite Bool.orb_false_r.
  unfold cb_source_path, cb_fdis, cb_fflt, cb_fhyp, cb_fdip, cb_fatn, qf. fcbn. rewrite !fclip_fin, pymax_fin. fcbn. rewrite fsqrt_fin by nra.
  rewrite flog_fin by (apply sqrt_lt_R0; nra). fcbn. unfold cb_clip.
  replace (n_rup a ^ 2 + Q2R (cb14_c_7 c) ^ 2) with (n_rup a * n_rup a + Q2R (cb14_c_7 c) * Q2R (cb14_c_7 c)) by ring.
  destruct (String.eqb (cb_mech a) "RS"); [|destruct (String.eqb (cb_mech a) "NS")];
  (destruct (String.eqb (cb_reg a) "japan"); [|destruct (String.eqb (cb_reg a) "italy")]); cbn [orb]; fcbn; apply (f_equal Fin); ring.
Qed.
Lemma cb_pga_ok x a : geom_ok x a -> (n_hyp a = None -> cb_tor a < cb_bor a) -> 0 < n_v a -> cb14_pga_ref_of x a = Fin (cb_rock_pga cb14_pga_row x a).
Proof.
  intros HG Hh Hv. unfold cb14_pga_ref_of, cb14_pga_ref.
  pose proof (cb_resp_ok cb14_pga_row x a 0 1100 cb14_pga_in HG Hh Hv ltac:(lra) ltac:(lra) ltac:(lra) (cb_z25 (cb_reg a) 1100) (cb14_z25 1100 (cb14_region a))
    ltac:(lra) ltac:(intros; apply cb_z25_ok; lra)) as E.
  destruct (Rlt_dec 0 0); [lra|]. rewrite E. unfold cb_rock_pga. cbn [fexp]. apply (f_equal Fin), (f_equal exp). ring.
Qed.
Lemma cb_med_ok c x a : In c cb14_coeff -> geom_ok x a -> (n_hyp a = None -> cb_tor a < cb_bor a) -> 0 < n_v a ->
  cb14_resp x a c = Fin (cb_med cb14_pga_row c x a).
Proof.
  intros Hc HG Hh Hv. unfold cb14_resp, cb14_ref2. rewrite cb_pga_ok by assumption. cbn [fisnan]. unfold cb_med.
  assert (P : 0 < cb_rock_pga cb14_pga_row x a) by apply exp_pos. set (p := cb_rock_pga _ _ _) in *. clearbody p.
  pose proof (cb_resp_ok c x a p (n_v a) Hc HG Hh Hv Hv ltac:(lra) ltac:(lra) _ NaN ltac:(reflexivity) ltac:(lra)) as E.
  destruct (Rlt_dec 0 p); [|lra]. rewrite E. apply (f_equal Fin). ring.
Qed.
Lemma cb_al_ok c v p : In c cb14_coeff -> 0 < v -> 0 < p -> cb14_alpha c (Fin p) (Fin v) = Fin (cb_al c v p).
Proof.
  intros Hc Hv Hp. row_pos Hc cb14_k_1 as K. assert (V : 0 < v / Q2R (cb14_k_1 c)) by (apply Rdiv_lt_0_compat; lra).
  unfold cb14_alpha, cb_al, qf. cbv zeta. rewrite (fdiv_fin v) by lra. rewrite fpow_fin_pos by exact V.
  assert (N : 0 < Rpower (v / Q2R (cb14_k_1 c)) 1.18) by apply exp_pos. set (pw := Rpower _ _) in *. clearbody pw. fcbn.
  rewrite !fdiv_fin by lra. fcbn. destruct (Rltb_spec v (Q2R (cb14_k_1 c))), (Rlt_dec v (Q2R (cb14_k_1 c))); try lra; [|reflexivity].
  apply (f_equal Fin). unfold Rdiv. rewrite !Rmult_1_l. reflexivity.
Qed.
Lemma cb_sd_ok c x a : In c cb14_coeff -> geom_ok x a -> (n_hyp a = None -> cb_tor a < cb_bor a) -> 0 < n_v a ->
  cb14_std x a c = Fin (cb_sd cb14_pga_row c x a).
Proof.
  intros Hc HG Hh Hv. unfold cb14_std. rewrite cb_pga_ok by assumption. unfold cb_sd. cbv zeta.
  assert (P : 0 < cb_rock_pga cb14_pga_row x a) by apply exp_pos. set (p := cb_rock_pga _ _ _) in *. clearbody p.
  pose proof (cb14_phi_low c (n_mag a) Hc) as P1. pose proof (cb14_phi_low _ (n_mag a) cb14_pga_in) as P2.
  row_is Hc cb14_phi_lnAF (3#10)%Q as A1. pose proof cb14_pga_in as Hg. row_is Hg cb14_phi_lnAF (3#10)%Q as A2.
  row_ge Hc (0#1)%Q cb14_rho_lnPGAlnY as R1. row_upto Hc cb14_rho_lnPGAlnY (1#1)%Q as R2.
  unfold cb14_ln_std. rewrite !cb14_tau_eq, !cb14_phi_eq, (cb_al_ok c (n_v a) p Hc Hv P). unfold qf. rewrite A1, A2.
  unfold cb14_tau_spec, cb14_phi_spec. rewrite <- !clipd_ramp. fold (cb14_tauR c (n_mag a)) (cb14_tauR cb14_pga_row (n_mag a)) (cb14_phiR c (n_mag a)) (cb14_phiR cb14_pga_row (n_mag a)).
  set (ty := cb14_tauR c (n_mag a)) in *. set (tp := cb14_tauR cb14_pga_row (n_mag a)) in *. set (py := cb14_phiR c (n_mag a)) in *. set (pp := cb14_phiR cb14_pga_row (n_mag a)) in *.
  set (rho := Q2R (cb14_rho_lnPGAlnY c)) in *. set (al := cb_al c (n_v a) p) in *. clearbody ty tp py pp rho al.
  fcbn. set (q := 3 * / 10). assert (Q : q = 0.3) by (unfold q; lra). clearbody q. subst q.
  replace (pp ^ 2 - 0.3 ^ 2) with (pp * pp - 0.3 * 0.3) by ring. replace (py ^ 2 - 0.3 ^ 2) with (py * py - 0.3 * 0.3) by ring.
  rewrite (fsqrt_fin (pp * pp - _)) by nra. rewrite (fsqrt_fin (py * py - _)) by nra.
  set (yb := sqrt (py * py - _)). set (pb := sqrt (pp * pp - _)).
  assert (YB : yb * yb = py * py - 0.3 * 0.3) by (apply sqrt_sqrt; nra). assert (PB : pb * pb = pp * pp - 0.3 * 0.3) by (apply sqrt_sqrt; nra).
  clearbody yb pb.
  fcbn. pose proof (quad_nonneg ty tp al rho ltac:(lra)) as Q1. rewrite (fsqrt_fin (ty * ty + _ + _)) by lra.
  pose proof (quad_nonneg yb pb al rho ltac:(lra)) as Q2. rewrite PB in Q2.
  rewrite (fsqrt_fin (yb * yb + _ + _ + _)) by lra. fcbn. rewrite !sqrt_sqrt by lra. rewrite fsqrt_fin by lra. cbn [fst].
  apply (f_equal Fin), (f_equal sqrt). rewrite <- PB. ring.
Qed.
Theorem C114_published : forall src a x t, nga_gives src a -> n_x a = Some x -> n_mech a = Some t -> 0 < n_v a ->
  0 < n_dip a <= 90 ->
  (x = 0 -> n_dip a < 90 /\ match n_width a with Some w => w <> 0 | None => n_tor a = None /\ n_bot a = None end) ->
  (n_hyp a = None -> cb_tor a < cb_bor a) ->
  exists rows pga_row pgv_row, cb14_coeff = rows ++ [pga_row; pgv_row] /\
    reports (cb14 src) rows pga_row pgv_row cb14_period (fun c => cb_med pga_row c x a) (fun c => cb_sd pga_row c x a).
Proof.
  intros src a x t H Hx Ht Hv Hd HG Hh. exists cb14_psa, cb14_pga_row, cb14_pgv_row. split; [reflexivity|].
  assert (G : geom_ok x a) by (split; assumption).
  destruct (cb14_construct src a x t H Hx Ht ltac:(lra)) as [s E]. eapply reports_rows; [exact E|reflexivity..| | |].
  - intros c Hc. apply cb_med_ok; assumption.
  - intros c Hc. apply cb_sd_ok; assumption.
  - intros c [<-|[<-|Hc]]; [apply cb14_pga_in|apply cb14_pgv_in|apply cb14_psa_in, Hc].
Qed.
Print Assumptions C114_published.
Example C114_nonvacuous : exists rows a v, cb14_coeff = rows ++ [a; v] /\
  reports (cb14 (nga_src pub_nga)) rows a v cb14_period (fun c => cb_med a c 8 pub_nga) (fun c => cb_sd a c 8 pub_nga).
Proof. apply (C114_published _ _ _ "RS"); [apply nga_src_gives|reflexivity|reflexivity|cbn; lra|cbn; lra|lra|discriminate]. Qed.
(** ... and with every depth left to the library: a vertical fault without a given hypocentre. *)
Example C114_nonvacuous2 : exists rows a v, cb14_coeff = rows ++ [a; v] /\
  reports (cb14 (ex 7 20 270 None)) rows a v cb14_period (fun c => cb_med a c (-5) (ex_nga 7 20 270 None)) (fun c => cb_sd a c (-5) (ex_nga 7 20 270 None)).
Proof.
  apply (C114_published _ _ _ "SS"); [apply ex_ok|reflexivity|reflexivity|cbn; lra|cbn; lra|lra|intros _].
  unfold cb_bor, cb_wid, cb_tor, or_else, cb_rad, ex_nga; cbn [n_bor n_tor n_width n_bot n_dip n_mag n_mech].
  unfold cy_mean_tor, cb_mech, option_of; cbn [n_mech existsb String.eqb Ascii.eqb Bool.eqb orb].
  rewrite (Rmax_left (7 - 4.970)), (Rmax_left (2.673 - _)) by lra.
  replace (90 * (PI / 180)) with (PI / 2) by lra. rewrite sin_PI2, Rmult_1_r.
  match goal with |- _ < _ + ?m => assert (0 < m); [|lra] end.
  apply Rmin_glb_lt; [apply sqrt_lt_R0, exp_pos|lra].
Qed.
