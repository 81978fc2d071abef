(** * The published equations of ASK14: C115

    Vocabulary: Spec_ask14.v. *)
From Coquelicot Require Import Coquelicot.
From Interval Require Import Tactic.
From Coq Require Import List.
From Verif Require Import M_cy14 M_bssa14 M_cb14 M_ask14 FrameworkProofs Anal NpProofs Nga Outs SpecNga P_cy14 P_bssa14 P_cb14 P_cb14b P_ask14 P_ask14b P_ngaspec Spec_cy14 Spec_ask14 Properties_NGA Properties_NGAPub.
Open Scope R_scope.
Open Scope string_scope.
Open Scope list_scope.

Definition fpt (p : R * R) : flt * flt := (Fin (fst p), Fin (snd p)).
Lemma seg_polyline rest : forall x0 y0 x, incr (x0 :: map fst rest) -> x0 <= x -> x <= fst (last rest (x0, y0)) ->
  seg_interp (Fin x0) (Fin y0) (map fpt rest) (Fin x) = Fin (polyline x0 y0 rest x).
Proof.
  assert (LINE : forall x0 y0 x1 y1 x, x0 < x1 -> line (Fin x0) (Fin y0) (Fin x1) (Fin y1) (Fin x) = Fin (y0 + (y1 - y0) / (x1 - x0) * (x - x0))).
  { intros. unfold line. fcbn. rewrite fdiv_fin by lra. fcbn. apply (f_equal Fin). ring. }
  induction rest as [|[x1 y1] rest IH]; intros x0 y0 x Hi H0 H1; [reflexivity|].
  assert (L : x0 < x1) by (cbn in Hi; tauto).
  assert (E0 : x <= x0 -> y0 + (y1 - y0) / (x1 - x0) * (x - x0) = y0) by (intros; replace x with x0 by lra; rewrite Rminus_eq_0, Rmult_0_r; lra).
  destruct rest as [|[x2 y2] rest].
  - cbn [map fpt fst snd seg_interp polyline last] in *. rewrite LINE by exact L. destruct (Rle_dec x x0); [rewrite E0 by lra; reflexivity|]. destruct (Rle_dec x x1); [reflexivity|lra].
  - change (seg_interp (Fin x0) (Fin y0) (map fpt ((x1, y1) :: (x2, y2) :: rest)) (Fin x)) with
      (if (Fin x <=? Fin x1)%flt then line (Fin x0) (Fin y0) (Fin x1) (Fin y1) (Fin x) else seg_interp (Fin x1) (Fin y1) (map fpt ((x2, y2) :: rest)) (Fin x)).
    change (polyline x0 y0 ((x1, y1) :: (x2, y2) :: rest) x) with
      (if Rle_dec x x0 then y0 else if Rle_dec x x1 then y0 + (y1 - y0) / (x1 - x0) * (x - x0) else polyline x1 y1 ((x2, y2) :: rest) x).
    rewrite LINE by exact L. fcbn. destruct (Rleb_spec x x1), (Rle_dec x x1); try lra.
    + destruct (Rle_dec x x0); [rewrite E0 by lra; reflexivity|]. reflexivity.
    + destruct (Rle_dec x x0); [lra|]. apply IH; [cbn in Hi; cbn; tauto|lra|]. rewrite last_step in H1. exact H1.
Qed.
Lemma polyline_right rest : forall x0 y0 x, incr (x0 :: map fst rest) -> fst (last rest (x0, y0)) < x -> polyline x0 y0 rest x = snd (last rest (x0, y0)).
Proof.
  induction rest as [|[x1 y1] rest IH]; intros x0 y0 x Hi H; [reflexivity|]. rewrite last_step in H |- *.
  assert (L : x0 < x1) by (cbn in Hi; tauto).
  assert (M : forall l a b, incr (a :: map (@fst R R) l) -> a <= fst (last l (a, b))).
  { induction l as [|[p q] l IHl]; intros u w Hu; [cbn; lra|]. rewrite last_step. cbn in Hu. specialize (IHl p q ltac:(cbn; tauto)). lra. }
  pose proof (M rest x1 y1 ltac:(cbn in Hi; cbn; tauto)) as M1.
  cbn [polyline]. destruct (Rle_dec x x0); [lra|]. destruct (Rle_dec x x1); [lra|]. apply IH; [cbn in Hi; cbn; tauto|exact H].
Qed.
Lemma np_interp_polyline xs ys x0 y0 rest x : combine xs ys = map fpt ((x0, y0) :: rest) -> incr (x0 :: map fst rest) ->
  np_interp xs ys (Fin x) = Fin (polyline x0 y0 rest x).
Proof.
  intros E Hi. unfold np_interp, np_interp_lr. rewrite E. cbn [map fpt fst snd].
  assert (LS : forall l (p : R * R), last (map fpt l) (fpt p) = fpt (last l p)).
  { clear. induction l as [|a l IH]; intros p; [reflexivity|]. cbn [map]. rewrite !last_step. apply IH. }
  change (Fin x0, Fin y0) with (fpt (x0, y0)). rewrite LS. destruct (last rest (x0, y0)) as [xl yl] eqn:EL. cbn [fpt fst snd]. fcbn.
  destruct (Rltb_spec x x0).
  - destruct rest as [|[x1 y1] rest]; [reflexivity|]. cbn [polyline]. destruct (Rle_dec x x0); [reflexivity|lra].
  - destruct (Rltb_spec xl x); [rewrite polyline_right by (try assumption; rewrite EL; cbn; lra); rewrite EL; reflexivity|].
    apply seg_polyline; [assumption|lra|rewrite EL; cbn; lra].
Qed.
Lemma as_is_mech a s : In s ["SS"; "NS"; "RS"] -> is_str (ask14_mech a) s = String.eqb (as_mech a) s.
Proof.
  intros H. unfold ask14_mech, as_mech, option_of, choice, is_str. destruct (n_mech a) as [t|]; [destruct (existsb _ _); [reflexivity|]|];
  destruct H as [<-|[<-|[<-|[]]]]; reflexivity.
Qed.
Lemma as_region_ok a : ask14_region a = PStr (as_reg a).
Proof. unfold ask14_region, as_reg. apply choice_opt. Qed.
Lemma odef_fin' o d x : d = Fin x -> odef o d = Fin (or_else o x).
Proof. intros ->. destruct o; reflexivity. Qed.
Lemma as_tor_ok a : odef (n_tor a) (ask14_calc_depth_tor (Fin (n_mag a))) = Fin (as_tor a).
Proof.
  unfold as_tor. apply odef_fin'. unfold ask14_calc_depth_tor. apply np_interp_polyline; [|cbn; lra]. cbn. unfold fpt. cbn. replace 5.0 with 5 by lra. reflexivity.
Qed.
Lemma as_wid_ok a : 0 < n_dip a <= 90 -> odef (n_width a) (ask14_calc_width (Fin (n_mag a)) (Fin (n_dip a))) = Fin (as_wid a).
Proof.
  intros Hd. unfold as_wid. apply odef_fin'. unfold ask14_calc_width, fradians, as_rad. fcbn. pose proof (sin_dip_pos _ Hd) as S. rewrite fdiv_fin by lra. fcbn. rewrite pymin_fin. reflexivity.
Qed.
Lemma as_z1_ok v re : ask14_calc_depth_1_0 (Fin v) (PStr re) = Fin (as_z1 re v).
Proof.
  unfold ask14_calc_depth_1_0, as_z1. cbn [pyin existsb pyeq]. rewrite Bool.orb_false_r. destruct (String.eqb re "japan").
  - fcbn. rewrite !fdiv_fin by lra. rewrite flog_fin by (apply Rdiv_lt_0_compat; nra). fcbn. rewrite fdiv_fin by lra. apply (f_equal Fin).
    apply (f_equal (fun t => t / 1000)). apply (f_equal exp). apply (f_equal2 Rmult); [lra|]. apply (f_equal ln). apply (f_equal2 Rdiv); lra.
  - fcbn. rewrite !fdiv_fin by lra. rewrite flog_fin by (apply Rdiv_lt_0_compat; nra). fcbn. rewrite fdiv_fin by lra. apply (f_equal Fin).
    apply (f_equal (fun t => t / 1000)). apply (f_equal exp). apply (f_equal2 Rmult); [lra|]. apply (f_equal ln). apply (f_equal2 Rdiv); lra.
Qed.
Lemma as_v1_ok c : ask14_v1 c = Fin (as_v1 c).
Proof.
  unfold ask14_v1, as_v1, qf. rewrite fclip_fin. fcbn. set (p := Rmin (Rmax (Q2R (ask14_period c)) 0.5) 3).
  assert (Hp : 0.5 <= p <= 3) by (unfold p; split; [apply Rmin_glb; [apply Rmax_r|lra]|apply Rmin_r]).
  rewrite fdiv_fin by lra. rewrite !flog_fin by lra. fcbn. apply (f_equal Fin). rewrite exp_plus, exp_ln by lra. ring.
Qed.
Lemma as_f1_ok c a : In c ask14_coeff -> ask14_f1 c (ask14_input a) = Fin (as_f1 c (n_mag a) (n_rup a)).
Proof.
  intros Hc. row_ge Hc (1#1)%Q ask14_c4 as C4. unfold ask14_f1, ask14_input; ask14_fields. unfold as_f1, qf. cbv zeta. fcbn. rewrite fclip_fin. fcbn.
  fold (as_clip (5 - n_mag a)). set (h := Q2R (ask14_c4 c) - _ * _).
  assert (H : 0 < h). { assert (0 <= as_clip (5 - n_mag a) <= 1) by (unfold as_clip; split; [apply Rmin_glb; [apply Rmax_r|lra]|apply Rmin_r]). unfold h. nra. }
  rewrite fsqrt_fin by nra. rewrite !flog_fin by (apply sqrt_lt_R0; nra). fcbn. replace (n_rup a ^ 2 + h ^ 2) with (n_rup a * n_rup a + h * h) by ring.
  destruct (Rleb_spec (n_mag a) (Q2R (ask14_m2 c))), (Rle_dec (n_mag a) (Q2R (ask14_m2 c))); try lra;
  [|destruct (Rleb_spec (n_mag a) (Q2R (ask14_m1 c))), (Rle_dec (n_mag a) (Q2R (ask14_m1 c))); try lra]; apply (f_equal Fin); ring.
Qed.
Lemma as_f4_ok c a x : n_x a = Some x -> 0 <= x -> 0 < n_dip a <= 90 -> ask14_f4 c (ask14_input a) = Fin (as_f4 c x a).
Proof.
  intros Ex Hx Hd. unfold ask14_f4, ask14_input; ask14_fields. rewrite Ex, as_tor_ok, as_wid_ok by exact Hd. cbn [option_map].
  unfold as_f4, qf. cbv zeta. unfold fradians. fcbn. rewrite pymin_fin. fold (as_rad a). set (r1 := as_wid a * cos (as_rad a)). rewrite (fdiv_fin _ 45), (fdiv_fin _ 100) by lra. fcbn.
  rewrite !fclip_fin. fcbn. 
  set (t3 := if Rltb x r1 then _ else _ : flt). 
  assert (F3 : t3 = Fin (if Rlt_dec x r1 then 0.25 + 1.5 * (x / r1) - 0.75 * (x / r1) ^ 2
            else if Rlt_dec x (3 * r1) then 1 - (x - r1) / (2 * r1) else 0)).
  { unfold t3. destruct (Rltb_spec x r1), (Rlt_dec x r1); try lra; [rewrite !fdiv_fin by lra; fcbn; apply (f_equal Fin); lra|].
    destruct (Rltb_spec x (3 * r1)), (Rlt_dec x (3 * r1)); try lra; [|reflexivity].
    replace (3 * r1 - r1) with (2 * r1) by lra. rewrite fdiv_fin by lra. fcbn. reflexivity. }
  rewrite F3. clear t3 F3. fcbn.
  replace (as_tor a ^ 2) with (as_tor a * as_tor a) by ring. replace ((n_mag a - 6.5) ^ 2) with ((n_mag a - 6.5) * (n_mag a - 6.5)) by ring.
  destruct (Rleb_spec (n_mag a) 5.5), (Rle_dec (n_mag a) 5.5); try lra; 
  [|destruct (Rltb_spec (n_mag a) 6.5), (Rlt_dec (n_mag a) 6.5); try lra];
  destruct (n_y0 a); cbn [option_map]; fcbn; rewrite ?fdiv_fin by lra; fcbn; rewrite ?fclip_fin; fcbn; reflexivity.
Qed.
Lemma fclip01 x : fclip (Fin x) (Fin 0) (Fin 1) = Fin (as_clip x).
Proof. rewrite fclip_fin. reflexivity. Qed.
Lemma as_source_ok c a : In c ask14_coeff -> ask14_geom a -> ask14_src_terms c (ask14_input a) = Fin (as_source_path c a).
Proof.
  intros Hc HG. unfold ask14_src_terms. rewrite as_f1_ok by exact Hc.
  assert (F4 : (if as_hw (ask14_input a) then ask14_f4 c (ask14_input a) else $0%flt) = Fin (match n_hw a, n_x a with Some true, Some x => as_f4 c x a | _, _ => 0 end)).
  { cbn [as_hw ask14_input]. destruct (n_hw a) as [[]|] eqn:E; cbn [obool_def]; try reflexivity. destruct (HG E) as (x & Ex & Hx & Hd). rewrite Ex. apply as_f4_ok; assumption. }
  rewrite F4. unfold ask14_input; ask14_fields. rewrite as_tor_ok. rewrite (odef_fin' (n_crjb a) (Fin 15) 15 eq_refl). rewrite !as_is_mech by (cbn; auto).
  unfold as_source_path, qf. fcbn. rewrite !fdiv_fin by lra. fcbn. rewrite !fclip01. fcbn.
  destruct (String.eqb (as_mech a) "RS") eqn:E1; [apply String.eqb_eq in E1; rewrite E1; cbn [String.eqb Ascii.eqb Bool.eqb]|destruct (String.eqb (as_mech a) "NS")];
  destruct (n_after a) as [[]|]; cbn [obool_def]; fcbn; apply (f_equal Fin); ring.
Qed.
Lemma as_vstar_pos c v : In c ask14_coeff -> 0 < v -> 0 < as_vstar c v /\ 0 < Q2R (ask14_v_lin c).
Proof.
  intros Hc Hv. destruct (ask14_v1_form c) as (v1 & E & B & _). rewrite as_v1_ok in E. injection E as E. row_pos Hc ask14_v_lin as V.
  split; [|lra]. unfold as_vstar. rewrite E. apply Rmin_glb_lt; lra.
Qed.
Lemma as_regional_ok c a v : In c ask14_coeff -> 0 < v -> ask14_freg c (ask14_input a) (Fin v) = Fin (as_regional c (as_reg a) v (n_rup a)).
Proof.
  intros Hc Hv. destruct (as_vstar_pos c v Hc Hv) as [V1 V2]. unfold ask14_freg, ask14_input; ask14_fields. rewrite as_region_ok, as_v1_ok. unfold is_str, as_regional. cbn [pyeq].
  rewrite (np_interp_polyline _ _ 150 (Q2R (ask14_a36 c)) [(250, Q2R (ask14_a37 c)); (350, Q2R (ask14_a38 c)); (450, Q2R (ask14_a39 c)); (600, Q2R (ask14_a40 c)); (850, Q2R (ask14_a41 c)); (1150, Q2R (ask14_a42 c))] v)
    by (reflexivity || (cbn; lra)).
  unfold qf. fcbn. fold (as_vstar c v). rewrite fdiv_fin by lra. rewrite flog_fin by (apply Rdiv_lt_0_compat; lra). fcbn.
  repeat destruct (String.eqb _ _); reflexivity.
Qed.
Lemma as_f5_ok c v p : In c ask14_coeff -> 0 < v -> (0 < p \/ 1180 <= v) -> 
  (let vs_ratio := fmin (Fin v) (ask14_v1 c) / qf (ask14_v_lin c) in
   let n := Q2R (ask14_n c) in
   let q := if Rlt_dec 0 p then Fin p else NaN in
   if vs_ratio <? $1 then
        qf (ask14_a10 c) * flog vs_ratio
        - qf (ask14_b c) * flog (q + qf (ask14_c c))
        + qf (ask14_b c) * flog (q + qf (ask14_c c) * fpow vs_ratio n)
      else (qf (ask14_a10 c) + qf (ask14_b c) * qf (ask14_n c)) * flog vs_ratio)%flt = Fin (as_f5 c v p).
Proof.
  intros Hc Hv Hp. destruct (as_vstar_pos c v Hc Hv) as [V1 V2]. pose proof (ask14_vlin c _ Hc (as_v1_ok c)) as L. rewrite as_v1_ok. unfold as_f5. cbv zeta. row_pos Hc ask14_c as C.
  unfold qf. fcbn. fold (as_vstar c v). rewrite fdiv_fin by lra. set (z := as_vstar c v / Q2R (ask14_v_lin c)).
  assert (Z : 0 < z) by (apply Rdiv_lt_0_compat; lra). rewrite flog_fin by exact Z. fcbn.
  destruct (Rltb_spec z 1) as [W|W], (Rlt_dec z 1); try lra; [|reflexivity].
  destruct (Rlt_dec 0 p).
  - rewrite fpow_fin by exact Z. assert (0 < Rpower z (Q2R (ask14_n c))) by apply exp_pos. fcbn. rewrite !flog_fin by nra. fcbn. reflexivity.
  - exfalso. assert (1 <= z); [|lra]. unfold z. apply (Rmult_le_reg_r (Q2R (ask14_v_lin c))); [lra|].
    replace (as_vstar c v / Q2R (ask14_v_lin c) * Q2R (ask14_v_lin c)) with (as_vstar c v) by (field; lra). rewrite Rmult_1_l.
    destruct L as [_ L]. eapply Rle_trans; [exact L|]. apply Rle_min_compat_r. lra.
Qed.
Lemma as_site_ok c p v z1 re : In c ask14_coeff -> 0 < v -> (0 < p \/ 1180 <= v) -> match z1 with Some z => 0 <= z | None => True end ->
  ask14_site_term c (if Rlt_dec 0 p then Fin p else NaN) (Fin v) (option_map Fin z1) (PStr re) = Fin (as_f5 c v p + as_f10 c re v z1).
Proof.
  intros Hc Hv Hp Hz. unfold ask14_site_term. pose proof (as_f5_ok c v p Hc Hv Hp) as F5. cbv zeta in F5 |- *. rewrite F5. unfold as_f10. fcbn. replace 1180.0 with 1180 by lra.
  destruct (Reqb_spec v 1180), (Req_EM_T v 1180); try contradiction; [reflexivity|]. destruct z1 as [z|]; cbn [option_map]; [|reflexivity].
  rewrite (np_interp_polyline _ _ 150 (Q2R (ask14_a43 c)) [(250, Q2R (ask14_a44 c)); (400, Q2R (ask14_a45 c)); (700, Q2R (ask14_a46 c))] v)
    by (reflexivity || (cbn; lra)).
  rewrite as_z1_ok. assert (P : 0 < as_z1 re v) by (unfold as_z1; destruct (String.eqb re "japan"); apply Rdiv_lt_0_compat; (apply exp_pos || lra)).
  fcbn. rewrite fdiv_fin by lra. rewrite flog_fin by (apply Rdiv_lt_0_compat; lra). reflexivity.
Qed.
Lemma as_rock_ok c a : In c ask14_coeff -> ask14_geom a -> depth_ok a -> ask14_ln_ref c (ask14_input a) = Fin (as_rock c a).
Proof.
  intros Hc HG Hd. unfold ask14_ln_ref. rewrite ask14_ln_resp_parts. rewrite as_source_ok by assumption. replace 1180.0 with 1180 by lra. rewrite as_regional_ok by (assumption || lra).
  cbn [as_depth_1_0 as_region ask14_input]. rewrite as_region_ok.
  pose proof (as_site_ok c 0 1180 (n_z1 a) (as_reg a) Hc ltac:(lra) ltac:(lra) Hd) as E. destruct (Rlt_dec 0 0); [lra|]. rewrite E. clear E.
  unfold as_rock, as_f10, as_f5. cbv zeta. destruct (Req_EM_T 1180 1180); [|lra].
  destruct (Rlt_dec (as_vstar c 1180 / Q2R (ask14_v_lin c)) 1) as [W|W]; [|fcbn; apply (f_equal Fin); ring].
  exfalso. destruct (as_vstar_pos c 1180 Hc ltac:(lra)) as [V1 V2]. pose proof (ask14_vlin c _ Hc (as_v1_ok c)) as [_ L].
  replace 1180.0 with 1180 in L by lra. fold (as_vstar c 1180) in L. apply (Rmult_lt_compat_r (Q2R (ask14_v_lin c))) in W; [|lra].
  replace (as_vstar c 1180 / Q2R (ask14_v_lin c) * Q2R (ask14_v_lin c)) with (as_vstar c 1180) in W by (field; lra). lra.
Qed.
Lemma as_med_ok c a : In c ask14_coeff -> ask14_geom a -> depth_ok a -> 0 < n_v a -> ask14_resp a c = Fin (as_med c a).
Proof.
  intros Hc HG Hd Hv. unfold ask14_resp. rewrite as_rock_ok by assumption. rewrite ask14_ln_resp_parts, as_source_ok, as_regional_ok by assumption.
  cbn [as_depth_1_0 as_region ask14_input]. rewrite as_region_ok. unfold as_med. cbn [fexp]. set (p := exp (as_rock c a)). assert (P : 0 < p) by apply exp_pos. clearbody p.
  pose proof (as_site_ok c p (n_v a) (n_z1 a) (as_reg a) Hc Hv ltac:(lra) Hd) as E. destruct (Rlt_dec 0 p); [|lra]. rewrite E. fcbn. apply (f_equal Fin). ring.
Qed.
Lemma as_sd_ok c a : In c ask14_coeff -> ask14_geom a -> depth_ok a -> 0 < n_v a -> ask14_std a c = Fin (as_sd c a).
Proof.
  intros Hc HG Hd Hv. unfold ask14_std. rewrite as_rock_ok by assumption. cbn [fexp]. unfold as_sd. cbv zeta. set (p := exp (as_rock c a)). assert (P : 0 < p) by apply exp_pos. clearbody p.
  row_pos Hc ask14_v_lin as V. row_pos Hc ask14_c as C.
  assert (Z0 : 0 < n_v a / Q2R (ask14_v_lin c)) by (apply Rdiv_lt_0_compat; lra).
  unfold ask14_tau_spec, ask14_phi_spec. rewrite <- !clip01_ramp by lra. replace (80 - 30) with 50 by lra. replace (6 - 4) with 2 by lra. replace (7 - 5) with 2 by lra.
  unfold ask14_ln_std, ask14_input; ask14_fields. rewrite as_region_ok. unfold ask14_source. rewrite choice_opt. unfold as_measured, as_d, is_str, qf. cbn [pyeq].
  fcbn. rewrite !(fdiv_fin (n_v a)) by lra. rewrite fpow_fin by exact Z0. 
  set (z := Rpower (n_v a / Q2R (ask14_v_lin c)) (Q2R (ask14_n c))). assert (Z : 0 < z) by apply Rpower_pos.
  assert (KZ : 0 < Q2R (ask14_c c) * z) by (apply Rmult_lt_0_compat; lra).
  fcbn. rewrite !(fdiv_fin _ (p + _)) by lra. rewrite !(fdiv_fin (_ - _)) by lra. fcbn. rewrite !fclip_fin. fcbn.
  unfold clip01.
  match goal with |- context [if Rleb (Q2R (ask14_v_lin c)) (n_v a) then Fin 0 else Fin ?D] =>
    replace (if Rleb (Q2R (ask14_v_lin c)) (n_v a) then Fin 0 else Fin D) with (Fin (if Rle_dec (Q2R (ask14_v_lin c)) (n_v a) then 0 else D))
      by (destruct (Rleb_spec (Q2R (ask14_v_lin c)) (n_v a)), (Rle_dec (Q2R (ask14_v_lin c)) (n_v a)); try lra; reflexivity) end.
  set (d := if Rle_dec _ _ then 0 else _). clearbody d.
  assert (X0 : forall x, 0 <= Rmax x 0) by (intros; apply Rmax_r).
  assert (SQ : forall u, 0 <= u * u) by (intros; apply Rle_0_sqr).
  destruct (String.eqb (as_reg a) "japan"); [|destruct (String.eqb _ "measured")]; fcbn;
  (rewrite (fsqrt_fin (Rmax _ 0)) by apply X0; fcbn; rewrite (fsqrt_fin (_ * _ * _ + _)) by (apply Rplus_le_le_0_compat; [apply Rmult_le_pos; apply SQ|lra]);
   fcbn; rewrite fsqrt_fin by (apply Rplus_le_le_0_compat; apply SQ); cbn [fst]; apply (f_equal Fin), (f_equal sqrt);
   rewrite !sqrt_sqrt by (try apply X0; rewrite ?sqrt_sqrt by apply X0; apply Rplus_le_le_0_compat; [apply Rmult_le_pos; [apply X0|apply SQ]|lra]);
   match goal with |- context [Rmax (?x * ?x - 0.4 * 0.4) 0] => replace (x ^ 2 - 0.4 ^ 2) with (x * x - 0.4 * 0.4) by ring end; rewrite (sqrt_sqrt (Rmax _ 0)) by apply X0; ring).
Qed.
Theorem C115_published : forall src a t, nga_gives src a -> n_mech a = Some t -> 0 < n_v a ->
  (n_hw a = Some true -> exists x, n_x a = Some x /\ 0 <= x /\ 0 < n_dip a <= 90) ->
  match n_z1 a with Some z => 0 <= z | None => True end ->
  exists rows pga_row pgv_row, ask14_coeff = rows ++ [pga_row; pgv_row] /\
    reports (ask14 src) rows pga_row pgv_row ask14_period (fun c => as_med c a) (fun c => as_sd c a).
Proof.
  intros src a t H Ht Hv HG Hd. exists ask14_psa, ask14_pga_row, ask14_pgv_row. split; [reflexivity|].
  destruct (ask14_run src a t H Ht) as (s & _ & E & Rd).
  replace (obool_def (n_hw a) && match n_x a with None => true | Some _ => false end)%bool with false in Rd.
  2:{ pose proof (ask14_geom_x a HG) as Hx. unfold hw_has_x in Hx. destruct (n_hw a) as [[]|]; cbn; try reflexivity. destruct (n_x a); [reflexivity|exfalso; apply Hx; reflexivity]. }
  rewrite Rd in E. 
  eapply (reports_rows (ask14 src) ask14_class s (ask14_resp a) (ask14_std a) ask14_coeff ask14_psa (-2) (-1)); [exact E|reflexivity..| | |].
  - intros c Hc. apply as_med_ok; assumption.
  - intros c Hc. apply as_sd_ok; assumption.
  - intros c [<-|[<-|Hc]]; [apply ask14_pga_in|apply ask14_pgv_in|apply ask14_psa_in, Hc].
Qed.
Print Assumptions C115_published.
Example C115_nonvacuous : exists rows a v, ask14_coeff = rows ++ [a; v] /\
  reports (ask14 (nga_src pub_nga)) rows a v ask14_period (fun c => as_med c pub_nga) (fun c => as_sd c pub_nga).
Proof. apply (C115_published _ _ "RS"); [apply nga_src_gives|reflexivity|cbn; lra| |cbn; lra]. intros _. exists 8. cbn. repeat split; lra. Qed.
