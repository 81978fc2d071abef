(** * Proofs for Chiou & Youngs (2014) *)
From Coquelicot Require Import Coquelicot.
From Interval Require Import Tactic.
From Coq Require Import List.
From Verif Require Import M_cy14 FrameworkProofs Anal Nga Outs.
Open Scope R_scope.
Open Scope string_scope.
Open Scope list_scope.

Definition cy14_mech (a : nga) : pyval := choice ["U"; "SS"; "NS"; "RS"] (PStr "U") (n_mech a).
Definition cy14_region (a : nga) : pyval := choice ["california"; "china"; "italy"; "japan"] (PStr "california") (n_region a).
Definition cy14_input (x : R) (a : nga) : cy14_in :=
  CY14In (Fin (n_mag a)) (Fin (n_rup a)) (Fin x) (Fin (n_jb a)) (Fin (n_v a))
    (odef (n_tor a) (cy14_calc_depth_tor (Fin (n_mag a)) (cy14_mech a)))
    (odef (n_z1 a) (cy14_calc_depth_1_0 (Fin (n_v a)) (cy14_region a)))
    (odef (n_dpp a) (Fin 0)) (Fin (n_dip a)) (cy14_mech a)
    (match n_hw a with Some b => b | None => false end) (cy14_region a)
    (choice ["measured"; "inferred"] (PStr "measured") (n_source a)).

Lemma cy14_construct src a x : nga_gives src a -> n_x a = Some x -> exists s,
  result (cy14 src) = Ok (GMM cy14_class s (map (fun c => cy14_ln_resp c (cy14_input x a)) cy14_coeff)
    (Some (map (fun c => cy14_ln_std c (fexp (cy14_ln_ref c (cy14_input x a))) (cy14_input x a)) cy14_coeff))).
Proof.
  intros H Hx. unfold nga_gives, has_num, gives_num, gives_str, gives_bool in H.
  rewrite Hx in H. cbn [onum] in H. repeat (destruct H as [? H]).
  unfold cy14. rewrite gmm_make_prep_result by reflexivity.
  let x := eval cbv [gc_params cy14_class NumP CatP CatBoolP map] in (gc_params cy14_class) in change (gc_params cy14_class) with x.
  run_checks_nga.
  fold (cy14_mech a) (cy14_region a).
  assert (P : exists s, result (cy14_prep (Scen [("dist_rup", PNum (Fin (n_rup a))); ("dist_x", PNum (Fin x));
     ("dist_jb", PNum (Fin (n_jb a))); ("mag", PNum (Fin (n_mag a))); ("v_s30", PNum (Fin (n_v a)));
     ("depth_tor", onum (n_tor a)); ("depth_1_0", onum (n_z1 a)); ("dpp_centered", PNum (odef (n_dpp a) $0%flt));
     ("dip", PNum (Fin (n_dip a))); ("mechanism", cy14_mech a);
     ("on_hanging_wall", PBool match n_hw a with Some b => b | None => false end);
     ("region", cy14_region a); ("vs_source", choice ["measured"; "inferred"] (PStr "measured") (n_source a))] []))
     = Ok s /\ result (cy14_read s) = Ok (cy14_input x a)).
  { unfold cy14_prep, cy14_input. generalize (cy14_mech a) (cy14_region a); intros me re.
    read_nums. destruct (andb _ _).
    all: rewrite ?bind_ret_l; cbn [dget_none dget s_data String.eqb Ascii.eqb Bool.eqb].
    all: destruct (n_tor a), (n_z1 a); eexists; split; reflexivity. }
  destruct P as (s & P1 & P2). exists s. rewrite P1. rewrite result_bind, P2. reflexivity.
Qed.

(** ** Finiteness and positivity *)
Lemma fin_tor m me : finite (cy14_calc_depth_tor (Fin m) me).
Proof. unfold cy14_calc_depth_tor. auto 20 with fltdb. Qed.
Lemma fpos_z1 v re : fpos (cy14_calc_depth_1_0 (Fin v) re).
Proof.
  unfold cy14_calc_depth_1_0. destruct (pyin _ _); apply fpos_div; auto with fltdb; apply fpos_fexp;
  apply finite_fmul; auto with fltdb; apply finite_flog, fpos_div; fcbn; apply fpos_fin; nra.
Qed.
#[local] Hint Resolve fin_tor fpos_z1 : fltdb.

Lemma fin_radians x : finite (fradians (Fin x)).
Proof. unfold fradians. auto with fltdb. Qed.
#[local] Hint Resolve fin_radians : fltdb.

Ltac cy14_fields := cbn [cy_mag cy_dist_rup cy_dist_x cy_dist_jb cy_v_s30 cy_depth_tor cy_depth_1_0 cy_dpp cy_dip cy_mechanism cy_hw cy_region cy_vs_source
    n_mag n_rup n_jb n_x n_y0 n_crjb n_dip n_v n_tor n_bor n_bot n_hyp n_width n_z1 n_z25 n_dpp n_mech n_region n_source n_hw n_after].
Lemma cy14_source_finite x a c : In c cy14_coeff -> finite (cy14_ln_source c (cy14_input x a)).
Proof.
  intros Hc. unfold cy14_ln_source, cy14_input. cy14_fields.
  row_pos Hc cy14_c_n as Hn.
  assert (C : fpos (fcosh ($2 * pymax (Fin (n_mag a) - $4.5) $0)%flt)) by auto with fltdb.
  set (cm := fcosh _) in *. clearbody cm.
  fsplit; auto with fltdb.
Qed.
Lemma cy14_ref_finite x a c : In c cy14_coeff -> 0 <= n_rup a -> finite (cy14_ln_ref c (cy14_input x a)).
Proof.
  intros Hc Hr. unfold cy14_ln_ref. pose proof (cy14_source_finite x a c Hc) as S.
  set (src := cy14_ln_source _ _) in *. clearbody src. unfold cy14_input. cy14_fields.
  row_pos Hc cy14_c_5 as H5. row_pos Hc cy14_c_rb as Hrb. row_pos Hc cy14_c_9b as H9.
  fsplit; auto with fltdb.
  all: try (apply fpos_add_nn; fsplit).
  all: try (apply fpos_sq; fsplit).
Qed.
Lemma cy14_site_finite c y v z re : In c cy14_coeff -> 0 < v -> finite y -> finite z -> finite (cy14_site_term c (fexp y) (Fin v) z re).
Proof.
  intros Hc Hv Hy Hz. row_pos Hc cy14_phi_4 as H4. row_pos Hc cy14_phi_6 as H6. row_pos Hc cy14_phi_6jp as H6j.
  unfold cy14_site_term. fsplit; auto with fltdb.
  destruct (pyin _ _); fsplit.
Qed.
Lemma cy14_resp_finite x a c : In c cy14_coeff -> 0 <= n_rup a -> 0 < n_v a -> finite (cy14_ln_resp c (cy14_input x a)).
Proof.
  intros Hc Hr Hv. unfold cy14_ln_resp. pose proof (cy14_ref_finite x a c Hc Hr) as S.
  set (ref := cy14_ln_ref _ _) in *. clearbody ref. unfold cy14_input; cy14_fields.
  apply finite_fadd; [exact S|]. apply cy14_site_finite; auto. fsplit; auto with fltdb.
Qed.

(** Standard deviation *)
Lemma cy14_std_pos x a c y : In c cy14_coeff -> finite y -> fpos (cy14_ln_std c (fexp y) (cy14_input x a)).
Proof.
  intros Hc [r ->]. unfold cy14_ln_std, cy14_input; cy14_fields.
  row_pos Hc cy14_phi_4 as H4. row_pos Hc cy14_tau_1 as T1. row_pos Hc cy14_tau_2 as T2.
  row_pos Hc cy14_sigma_1 as S1. row_pos Hc cy14_sigma_2 as S2. row_pos Hc cy14_sigma_2jp as S2j. row_pos Hc cy14_sigma_3 as S3.
  assert (E : exists q, ((fexp (Fin r) / (fexp (Fin r) + qf (cy14_phi_4 c))) = Fin q)%flt).
  { change (finite ((fexp (Fin r) / (fexp (Fin r) + qf (cy14_phi_4 c))))%flt). fsplit. apply fpos_add; fsplit. }
  destruct E as [q ->]. rewrite !fclip_fin, !pymin_fin.
  set (m := Rmin (Rmax (n_mag a) 5.0) 6.5).
  assert (Hm : 5 <= m <= 6.5).
  { unfold m. split; [apply Rmin_glb; [eapply Rle_trans; [|apply Rmax_r]; lra | lra] | eapply Rle_trans; [apply Rmin_r|lra]]. }
  clearbody m.
  set (s2 := if pyin _ _ then _ else _).
  assert (Hs2 : exists s, s2 = Fin s /\ 0 < s) by (unfold s2; destruct (pyin _ _); fcbn; eexists; split; [reflexivity|lra | reflexivity|lra]).
  destruct Hs2 as (s & -> & Hs).
  fcbn. rewrite fdiv_fin by lra. fcbn.
  set (nl := 1 + _ * q). 
  set (fl := if is_str _ _ then _ else _).
  assert (Hfl : exists f, fl = Fin f /\ (f = 0 \/ f = 1)) by (unfold fl; destruct (is_str _ _); eauto).
  destruct Hfl as (f & -> & Hf). fcbn.
  assert (Hw : 0 < Q2R (cy14_sigma_3 c) * (1 - f) + 0.7 * f + nl * nl) by (destruct Hf as [-> | ->]; nra).
  rewrite fsqrt_fin by lra. fcbn. rewrite fdiv_fin by lra. fcbn.
  set (sg := Q2R (cy14_sigma_1 c) + _). set (w := sqrt _).
  assert (0 < sg).
  { unfold sg. replace (Q2R (cy14_sigma_1 c) + (s - Q2R (cy14_sigma_1 c)) / 1.5 * (m - 5.0))
      with (Q2R (cy14_sigma_1 c) * ((6.5 - m) / 1.5) + s * ((m - 5) / 1.5)) by lra.
    destruct (Rle_dec m 5.5); [apply Rplus_lt_le_0_compat | apply Rplus_le_lt_0_compat];
    first [apply Rmult_lt_0_compat; lra | apply Rmult_le_pos; lra]. }
  assert (0 < w) by (apply sqrt_lt_R0; exact Hw).
  assert (0 < sg * w) by (apply Rmult_lt_0_compat; assumption).
  set (tt := Q2R (cy14_tau_1 c) + _).
  rewrite fsqrt_fin.
  - eexists; split; [reflexivity|]. apply sqrt_lt_R0. nra.
  - nra.
Qed.

(** ** Decay with distance *)
Lemma cosh_le_mono a b : 0 <= a -> a <= b -> cosh a <= cosh b.
Proof.
  intros Ha Hab. unfold cosh. pose proof (exp_pos a). pose proof (exp_pos b).
  assert (E : exp a <= exp b) by (apply exp_le_mono; exact Hab).
  assert (1 <= exp a) by (apply exp_ge_1; exact Ha).
  assert (D : (exp b + exp (- b)) - (exp a + exp (- a)) = (exp b - exp a) * (1 - / (exp a * exp b))).
  { rewrite !exp_Ropp. field. lra. }
  assert (I : / (exp a * exp b) <= 1). { rewrite <- Rinv_1. apply Rinv_le_contravar; nra. }
  assert (0 <= (exp b - exp a) * (1 - / (exp a * exp b))) by (apply Rmult_le_pos; lra). lra.
Qed.
Lemma cosh_ge_1 a : 1 <= cosh a.
Proof.
  unfold cosh. pose proof (exp_ineq1_le a). pose proof (exp_ineq1_le (- a)). lra.
Qed.

Lemma path_decr h r1 r2 : 0 < h <= 60 -> 0 <= r1 -> r1 < r2 ->
  -2.1 * ln (r2 + h) + 1.6 * ln (sqrt (r2 * r2 + 2500)) < -2.1 * ln (r1 + h) + 1.6 * ln (sqrt (r1 * r1 + 2500)).
Proof.
  intros Hh H1 H2.
  apply (decr_by_derive (fun r => -2.1 * ln (r + h) + 1.6 * ln (sqrt (r * r + 2500)))
    (fun r => -2.1 / (r + h) + 1.6 * r / (r * r + 2500)) r1 r2 H2).
  - intros r Hr. assert (0 < r * r + 2500) by nra. assert (0 < sqrt (r * r + 2500)) by (apply sqrt_lt_R0; lra).
    auto_derive; [repeat split; lra|].
    assert (E : sqrt (r * r + 2500) * sqrt (r * r + 2500) = r * r + 2500) by (apply sqrt_sqrt; lra).
    set (q := sqrt (r * r + 2500)) in *. rewrite <- E. field. lra.
  - intros r Hr. assert (0 < r * r + 2500) by nra.
    replace (-2.1) with (-21/10) by lra. replace 1.6 with (16/10) by lra.
    replace (-21/10 / (r + h) + 16/10 * r / (r * r + 2500))
      with (- ((21/10 * (r * r + 2500) - 16/10 * r * (r + h)) / ((r + h) * (r * r + 2500)))) by (field; lra).
    apply Ropp_lt_gt_0_contravar. apply Rdiv_lt_0_compat; [|apply Rmult_lt_0_compat; lra].
    assert (r * h <= r * 60) by (apply Rmult_le_compat_l; lra).
    pose proof (Rle_0_sqr (r - 96)) as Hq. unfold Rsqr in Hq. lra.
Qed.

Definition hw_off (a : nga) : Prop := n_hw a = None \/ n_hw a = Some false.
Definition dpp_nonneg (a : nga) : Prop := match n_dpp a with Some d => 0 <= d | None => True end.

Lemma cy14_ref_form c x a : In c cy14_coeff -> hw_off a -> dpp_nonneg a -> n_mag a <= 8.5 ->
  exists K h g d, 0 < h <= 60 /\ g <= 0 /\ 0 <= d /\ forall r, 0 <= r ->
    cy14_ln_ref c (cy14_input x (with_rup a r)) =
    Fin (K + (-2.1 * ln (r + h) + 1.6 * ln (sqrt (r * r + 2500))) + g * r + d * Rmax (1 - Rmax (r - 40) 0 / 30) 0).
Proof.
  intros Hc Hhw Hd Hm.
  destruct (cy14_source_finite x a c Hc) as [K HK].
  row_pos Hc cy14_c_5 as H5. row_is Hc cy14_c_rb (50#1)%Q as Hrb. row_is Hc cy14_c_4 (-21#10)%Q as H4. row_is Hc cy14_c_4a (-5#10)%Q as H4a.
  row_upto Hc cy14_c_5 (758180#100000)%Q as H5u. row_pos Hc cy14_c_6 as H6.
  row_upto Hc (fun c => cy14_c_6 c * ((85#10) - cy14_c_hm c))%Q (2726#1000)%Q as Ht.
  row_upto Hc (fun c => cy14_c_gamma1 c)%Q (0#1)%Q as G1. row_upto Hc (fun c => cy14_c_gamma2 c)%Q (0#1)%Q as G2.
  row_ge Hc (0#1)%Q cy14_gamma_ji as Gj. row_ge Hc (0#1)%Q cy14_gamma_c as Gc. row_ge Hc (0#1)%Q cy14_c_8 as H8.
  set (m := n_mag a) in *.
  set (t := Q2R (cy14_c_6 c) * Rmax (m - Q2R (cy14_c_hm c)) 0).
  assert (Ht0 : 0 <= t <= 2.726).
  { unfold t. split; [apply Rmult_le_pos; [lra|apply Rmax_r]|].
    destruct (Rle_dec 0 (m - Q2R (cy14_c_hm c))); [rewrite Rmax_left by lra|rewrite Rmax_right by lra; lra].
    eapply Rle_trans; [apply Rmult_le_compat_l with (r2 := 8.5 - Q2R (cy14_c_hm c)); lra|]. lra. }
  set (h := Q2R (cy14_c_5 c) * cosh t).
  assert (Hch : 1 <= cosh t <= 7.7).
  { split; [apply cosh_ge_1|]. eapply Rle_trans; [apply cosh_le_mono with (b := 2.726); lra|]. unfold cosh. interval with (i_prec 40). }
  assert (Hh : 0 < h <= 60) by (unfold h; nra).
  set (rg := cy14_region a).
  set (sc := if pyin rg [PStr "japan"; PStr "italy"] && (Rltb 6 m && Rltb m 6.9) then Q2R (cy14_gamma_ji c)
             else if pyin rg [PStr "china"] then Q2R (cy14_gamma_c c) else 1).
  assert (Hsc : 0 <= sc) by (unfold sc; destruct (_ && _); [lra|destruct (pyin _ _); lra]).
  set (gm := Q2R (cy14_c_gamma1 c) + Q2R (cy14_c_gamma2 c) / cosh (Rmax (m - Q2R (cy14_c_gamma3 c)) 0)).
  assert (Hgm : gm <= 0).
  { unfold gm. set (ch := cosh (Rmax (m - Q2R (cy14_c_gamma3 c)) 0)). assert (1 <= ch) by apply cosh_ge_1.
    assert (Q2R (cy14_c_gamma2 c) / ch <= 0); [|lra].
    apply Rmult_le_reg_r with ch; [lra|]. field_simplify; lra. }
  set (dpp := match n_dpp a with Some z => z | None => 0 end).
  assert (Hdpp : 0 <= dpp) by (unfold dpp, dpp_nonneg in *; destruct (n_dpp a); lra).
  set (e8 := Rmin (Rmax (m - 5.5) 0 / 0.8) 1 * exp (- Q2R (cy14_c_8a c) * ((m - Q2R (cy14_c_8b c)) * (m - Q2R (cy14_c_8b c))))).
  assert (He8 : 0 <= e8).
  { unfold e8. apply Rmult_le_pos; [|left; apply exp_pos]. apply Rmin_glb; [|lra].
    apply Rmult_le_pos; [apply Rmax_r|lra]. }
  exists K, h, (sc * gm), (Q2R (cy14_c_8 c) * e8 * dpp).
  split; [exact Hh|]. split; [nra|]. split; [apply Rmult_le_pos; [apply Rmult_le_pos; lra|lra]|].
  intros r Hr. unfold cy14_ln_ref.
  replace (cy14_ln_source c (cy14_input x (with_rup a r))) with (Fin K) by (rewrite <- HK; destruct a; reflexivity).
  replace (cy_region (cy14_input x (with_rup a r))) with rg by (destruct a; reflexivity).
  replace (cy_mag (cy14_input x (with_rup a r))) with (Fin m) by (destruct a; reflexivity).
  replace (cy_dist_rup (cy14_input x (with_rup a r))) with (Fin r) by (destruct a; reflexivity).
  replace (cy_dpp (cy14_input x (with_rup a r))) with (Fin dpp) by (unfold dpp; destruct a as [? ? ? ? ? ? ? ? ? ? ? ? ? ? ? []]; reflexivity).
  replace (cy_hw (cy14_input x (with_rup a r))) with false by (unfold hw_off in Hhw; destruct a; cbn in *; destruct Hhw as [-> | ->]; reflexivity).
  fcbn. rewrite !pymax_fin. fcbn. rewrite !fdiv_fin by lra. fcbn. rewrite !pymin_fin, !pymax_fin. fcbn.
  fold t. fold h.
  rewrite flog_fin by lra. rewrite fsqrt_fin by nra. rewrite flog_fin by (apply sqrt_lt_R0; rewrite Hrb; nra).
  match goal with |- context [(if ?b then qf _ else if ?b2 then qf _ else _)] =>
    replace (if b then qf (cy14_gamma_ji c) else if b2 then qf (cy14_gamma_c c) else Fin 1) with (Fin sc) by (unfold sc; destruct b; [reflexivity|destruct b2; reflexivity]) end.

  unfold qf. rewrite fdiv_fin by (pose proof (cosh_ge_1 (Rmax (m - Q2R (cy14_c_gamma3 c)) 0)); lra).
  fcbn. fold gm. f_equal. unfold e8. rewrite H4, H4a, Hrb.
  replace (IZR 50 * / 1 * (IZR 50 * / 1)) with 2500 by lra. lra.

Qed.

(** ** Outputs *)
Definition cy14_psa : list cy14_row := firstn 24 cy14_coeff.
Definition cy14_pga_row : cy14_row := ltac:(let x := eval cbv in (nth_error cy14_coeff 24) in match x with Some ?c => exact c end).
Definition cy14_pgv_row : cy14_row := ltac:(let x := eval cbv in (nth_error cy14_coeff 25) in match x with Some ?c => exact c end).
Lemma cy14_pga_in : In cy14_pga_row cy14_coeff.
Proof. apply (nth_error_In cy14_coeff 24). reflexivity. Qed.
Lemma cy14_pgv_in : In cy14_pgv_row cy14_coeff.
Proof. apply (nth_error_In cy14_coeff 25). reflexivity. Qed.
Lemma cy14_psa_in : incl cy14_psa cy14_coeff.
Proof. intros c Hc. rewrite <- (firstn_skipn 24 cy14_coeff). apply in_or_app; left; exact Hc. Qed.

Definition cy14_outs (x : R) (a : nga) : outs :=
  row_outs cy14_psa cy14_pga_row cy14_pgv_row (Fin 1) (fun c => cy14_ln_resp c (cy14_input x a))
    (fun c => cy14_ln_std c (fexp (cy14_ln_ref c (cy14_input x a))) (cy14_input x a)).
Lemma cy14_out src a x : nga_gives src a -> n_x a = Some x -> gmm_out (cy14 src) (cy14_outs x a).
Proof.
  intros H Hx. destruct (cy14_construct src a x H Hx) as [s E].
  eapply gmm_out_rows in E; [exact E | reflexivity..].
Qed.

Lemma cy14_positive src a x : nga_gives src a -> n_x a = Some x -> 0 <= n_rup a -> 0 < n_v a ->
  exists o, gmm_out (cy14 src) o /\ List.length (o_sa o) = 24%nat /\ List.length (o_sd o) = 24%nat /\
    all_resp fpos o /\ all_std fpos o.
Proof.
  intros H Hx Hr Hv. exists (cy14_outs x a). split; [apply cy14_out; assumption|].
  split; [reflexivity|]. split; [reflexivity|].
  apply row_outs_fpos with (rows := cy14_coeff); [apply cy14_psa_in | apply cy14_pga_in | apply cy14_pgv_in | |].
  - intros c Hc. apply cy14_resp_finite; assumption.
  - intros c Hc. apply cy14_std_pos; [assumption|]. apply cy14_ref_finite; assumption.
Qed.

(** The response as a function of the reference response. *)
Lemma site_incr y1 y2 p f : 0 < p -> -1 < f <= 0 -> y1 < y2 ->
  y1 + f * ln ((exp y1 + p) / p) < y2 + f * ln ((exp y2 + p) / p).
Proof.
  intros Hp Hf Hy. pose proof (exp_pos y1) as P1. pose proof (exp_pos y2) as P2.
  pose proof (exp_increasing y1 y2 Hy) as E.
  rewrite !ln_div by lra.
  assert (L : ln (exp y2 + p) - ln (exp y1 + p) <= y2 - y1).
  { rewrite <- ln_div by lra. rewrite <- (ln_exp (y2 - y1)). apply ln_le_mono; [apply Rdiv_lt_0_compat; lra|].
    apply Rmult_le_reg_r with (exp y1 + p); [lra|]. unfold Rdiv. rewrite Rmult_assoc, Rinv_l, Rmult_1_r by lra.
    replace (exp (y2 - y1) * (exp y1 + p)) with (exp y2 + exp (y2 - y1) * p).
    - assert (1 <= exp (y2 - y1)) by (apply exp_ge_1; lra). nra.
    - rewrite Rmult_plus_distr_l, <- exp_plus. f_equal. f_equal. lra. }
  assert (0 <= ln (exp y2 + p) - ln (exp y1 + p)).
  { assert (ln (exp y1 + p) <= ln (exp y2 + p)) by (apply ln_le_mono; lra). lra. }
  nra.
Qed.

Lemma exp_nat n x : exp (INR n * x) = exp x ^ n.
Proof. induction n as [|n IH]; [cbn; rewrite Rmult_0_l; apply exp_0|]. rewrite S_INR, Rmult_plus_distr_r, exp_plus, IH. cbn. rewrite Rmult_1_l. ring. Qed.
Lemma exp_ge_pow16 t : t <= 1 -> (1 - t) ^ 16 <= exp (- (16 * t)).
Proof.
  intros H. pose proof (exp_ineq1_le (- t)) as E.
  replace (exp (- (16 * t))) with (exp (- t) ^ 16).
  - apply pow_incr. lra.
  - rewrite <- exp_nat. f_equal. simpl INR. lra.
Qed.

Definition q16 (c : cy14_row) : Q := (((1#1) + (45#4) * cy14_phi_3 c) * ((1#1) + (45#4) * cy14_phi_3 c) * ((1#1) + (45#4) * cy14_phi_3 c) * ((1#1) + (45#4) * cy14_phi_3 c) * ((1#1) + (45#4) * cy14_phi_3 c) * ((1#1) + (45#4) * cy14_phi_3 c) * ((1#1) + (45#4) * cy14_phi_3 c) * ((1#1) + (45#4) * cy14_phi_3 c) * ((1#1) + (45#4) * cy14_phi_3 c) * ((1#1) + (45#4) * cy14_phi_3 c) * ((1#1) + (45#4) * cy14_phi_3 c) * ((1#1) + (45#4) * cy14_phi_3 c) * ((1#1) + (45#4) * cy14_phi_3 c) * ((1#1) + (45#4) * cy14_phi_3 c) * ((1#1) + (45#4) * cy14_phi_3 c) * ((1#1) + (45#4) * cy14_phi_3 c))%Q.
Lemma q16_R c : Q2R (q16 c) = (1 + 45 / 4 * Q2R (cy14_phi_3 c)) ^ 16.
Proof.
  unfold q16. rewrite !Q2R_mult, !Q2R_plus, !Q2R_mult. 
  change (Q2R (1#1)) with (1 * / 1). change (Q2R (45#4)) with (45 * / 4). rewrite Rinv_1, Rmult_1_l. cbn [pow]. unfold Rdiv. ring.
Qed.
Lemma cy14_f2_bound c v : In c cy14_coeff -> 180 <= v ->
  -1 < Q2R (cy14_phi_2 c) * (exp (Q2R (cy14_phi_3 c) * (Rmin v 1130.0 - 360.0)) - exp (Q2R (cy14_phi_3 c) * (1130.0 - 360.0))) <= 0.
Proof.
  intros Hc Hv. row_upto Hc cy14_phi_2 (0#1)%Q as P2. row_upto Hc cy14_phi_3 (0#1)%Q as P3. row_ge Hc (-1#100)%Q cy14_phi_3 as P3'.
  assert (K : - Q2R (cy14_phi_2 c) < exp (180 * Q2R (cy14_phi_3 c))).
  { pose proof (rows_lt cy14_coeff (fun c => (- cy14_phi_2 c)%Q) q16 ltac:(vm_compute; reflexivity) c Hc) as Hq. cbv beta in Hq.
    rewrite q16_R, Q2R_opp in Hq. set (p3 := Q2R (cy14_phi_3 c)) in *.
    eapply Rlt_le_trans; [exact Hq|]. clear Hq.
    replace (1 + 45 / 4 * p3) with (1 - (- (45/4*p3))) by lra.
    replace (180 * p3) with (- (16 * (- (45/4*p3)))) by lra.
    apply exp_ge_pow16. lra. }
  set (p2 := Q2R (cy14_phi_2 c)) in *. set (p3 := Q2R (cy14_phi_3 c)) in *.
  assert (Hm : 180 <= Rmin v 1130.0 <= 1130) by (split; [apply Rmin_glb; lra|eapply Rle_trans; [apply Rmin_r|lra]]).
  set (w := Rmin v 1130.0) in *. clearbody w p2 p3. clear Hc Hv c.
  assert (E1 : exp (p3 * (1130.0 - 360.0)) <= exp (p3 * (w - 360.0))) by (apply exp_le_mono; nra).
  assert (E2 : exp (p3 * (w - 360.0)) <= exp (p3 * (180 - 360.0))) by (apply exp_le_mono; nra).
  pose proof (exp_pos (p3 * (1130.0 - 360.0))) as E3.
  assert (E5 : exp (180 * p3) * exp (p3 * (180 - 360.0)) = 1).
  { rewrite <- exp_plus. replace (180 * p3 + p3 * (180 - 360.0)) with 0 by lra. apply exp_0. }
  pose proof (exp_pos (p3 * (180 - 360.0))) as E6.
  set (a := exp (p3 * (1130.0 - 360.0))) in *. set (b := exp (p3 * (w - 360.0))) in *. set (d := exp (p3 * (180 - 360.0))) in *.
  set (e := exp (180 * p3)) in *. clearbody a b d e.
  split; [|nra].
  assert ((- p2) * d < 1); [|nra].
  rewrite <- E5. apply Rmult_lt_compat_r; lra.
Qed.

Lemma cy14_site_form c v z re : In c cy14_coeff -> 180 <= v -> finite z ->
  exists A f, -1 < f <= 0 /\ forall y,
    cy14_site_term c (fexp (Fin y)) (Fin v) z re = Fin (A + f * ln ((exp y + Q2R (cy14_phi_4 c)) / Q2R (cy14_phi_4 c))).
Proof.
  intros Hc Hv Hz. row_pos Hc cy14_phi_4 as H4. row_pos Hc cy14_phi_6 as H6. row_pos Hc cy14_phi_6jp as H6j.
  pose proof (cy14_f2_bound c v Hc Hv) as Hf.
  set (f := Q2R (cy14_phi_2 c) * (exp (Q2R (cy14_phi_3 c) * (Rmin v 1130.0 - 360.0)) - exp (Q2R (cy14_phi_3 c) * (1130.0 - 360.0)))) in *.
  unfold cy14_site_term.
  set (phi_1 := if pyin re _ then qf (cy14_phi_1jp c) else _).
  assert (E1 : finite (phi_1 * pymin (flog (Fin v / $1130.0)) $0)%flt) by (unfold phi_1; fsplit).
  set (zz := (_ * ($1 - fexp _))%flt).
  assert (E2 : finite zz).
  { unfold zz. fsplit; auto with fltdb. all: destruct (pyin _ _); fsplit. }
  clearbody zz. destruct E1 as [A1 ->]. destruct E2 as [A2 ->].
  exists (A1 + A2), f. split; [exact Hf|]. intros y. pose proof (exp_pos y). rewrite pymin_fin.
  fcbn. rewrite flog_fin by (apply exp_pos). fcbn. rewrite ln_exp. unfold qf. fcbn. rewrite fdiv_fin by lra.
  rewrite flog_fin by (apply Rdiv_lt_0_compat; lra). fcbn. fold f. f_equal. lra.
Qed.

Lemma cy14_resp_lt c i1 i2 y1 y2 v : In c cy14_coeff -> 180 <= v ->
  cy14_ln_ref c i1 = Fin y1 -> cy14_ln_ref c i2 = Fin y2 -> y1 < y2 ->
  cy_v_s30 i1 = Fin v -> cy_v_s30 i2 = Fin v ->
  cy_depth_1_0 i1 = cy_depth_1_0 i2 -> finite (cy_depth_1_0 i1) -> 
  pyin (cy_region i1) [PStr "japan"] = pyin (cy_region i2) [PStr "japan"] ->
  flt_lt (cy14_ln_resp c i1) (cy14_ln_resp c i2).
Proof.
  intros Hc Hv R1 R2 L V1 V2 D F J.
  destruct (cy14_site_form c v _ (cy_region i1) Hc Hv F) as (A & f & Hf & E).
  row_pos Hc cy14_phi_4 as H4.
  unfold cy14_ln_resp. rewrite R1, R2, V1, V2, <- D.
  replace (cy14_site_term c (fexp (Fin y2)) (Fin v) (cy_depth_1_0 i1) (cy_region i2))
    with (cy14_site_term c (fexp (Fin y2)) (Fin v) (cy_depth_1_0 i1) (cy_region i1)).
  2:{ unfold cy14_site_term, cy14_calc_depth_1_0. rewrite J. reflexivity. }
  rewrite !E. exists (y1 + (A + f * ln ((exp y1 + Q2R (cy14_phi_4 c)) / Q2R (cy14_phi_4 c)))),
    (y2 + (A + f * ln ((exp y2 + Q2R (cy14_phi_4 c)) / Q2R (cy14_phi_4 c)))).
  split; [reflexivity|]. split; [reflexivity|].
  pose proof (site_incr y1 y2 (Q2R (cy14_phi_4 c)) f) as S. lra.
Qed.

Theorem cy14_decay src1 src2 a x r1 r2 : nga_gives src1 (with_rup a r1) -> nga_gives src2 (with_rup a r2) ->
  n_x a = Some x -> hw_off a -> dpp_nonneg a -> n_mag a <= 8.5 -> 180 <= n_v a -> 0 <= r1 -> r1 < r2 ->
  exists o1 o2, gmm_out (cy14 src1) o1 /\ gmm_out (cy14 src2) o2 /\ resp2 flt_lt o2 o1.
Proof.
  intros G1 G2 Hx Hhw Hd Hm Hv H1 H2. exists (cy14_outs x (with_rup a r1)), (cy14_outs x (with_rup a r2)).
  split; [apply cy14_out; [exact G1|destruct a; exact Hx]|]. split; [apply cy14_out; [exact G2|destruct a; exact Hx]|].
  apply row_resp_lt with (rows := cy14_coeff); [apply cy14_psa_in | apply cy14_pga_in | apply cy14_pgv_in |].
  intros c Hc. destruct (cy14_ref_form c x a Hc Hhw Hd Hm) as (K & h & g & d & Hh & Hg & Hd' & E).
  eapply cy14_resp_lt with (v := n_v a); [exact Hc | exact Hv | apply E; lra | apply E; lra | | destruct a; reflexivity | destruct a; reflexivity | destruct a; reflexivity | | destruct a; reflexivity].
  - pose proof (path_decr h r1 r2 Hh H1 H2).
    assert (T : Rmax (1 - Rmax (r2 - 40) 0 / 30) 0 <= Rmax (1 - Rmax (r1 - 40) 0 / 30) 0).
    { apply Rmax_case; [|apply Rmax_r]. eapply Rle_trans; [|apply Rmax_l].
      assert (Rmax (r1 - 40) 0 <= Rmax (r2 - 40) 0); [|lra]. apply Rmax_case; [eapply Rle_trans; [|apply Rmax_l]; lra | apply Rmax_r]. }
    assert (g * r2 <= g * r1) by nra.
    assert (d * Rmax (1 - Rmax (r2 - 40) 0 / 30) 0 <= d * Rmax (1 - Rmax (r1 - 40) 0 / 30) 0) by (apply Rmult_le_compat_l; assumption).
    lra.
  - destruct a as [? ? ? ? ? ? ? ? ? ? ? ? ? [] ? ? ? ? ? ? ?]; cbn; [eexists; reflexivity|]. apply fpos_finite, fpos_z1.
Qed.

(** ** Very stiff sites *)
Lemma cy14_stiff c i v : 0 < v -> In c cy14_coeff -> 1130 <= v -> cy_v_s30 i = Fin v -> finite (cy14_ln_ref c i) ->
  cy_depth_1_0 i = cy14_calc_depth_1_0 (Fin v) (cy_region i) -> cy14_ln_resp c i = cy14_ln_ref c i.
Proof.
  intros Hv0 Hc Hv V [y E] D. row_pos Hc cy14_phi_4 as H4. row_pos Hc cy14_phi_6 as H6. row_pos Hc cy14_phi_6jp as H6j.
  unfold cy14_ln_resp. rewrite E, V, D. unfold cy14_site_term.
  destruct (fpos_z1 v (cy_region i)) as (z & -> & Hz). pose proof (exp_pos y).
  assert (L : 0 <= ln (v / 1130.0)) by (apply ln_nonneg; apply Rmult_le_reg_r with 1130; [lra|]; field_simplify; lra).
  rewrite fdiv_fin by lra. rewrite flog_fin by (apply Rdiv_lt_0_compat; lra). rewrite !pymin_fin.
  rewrite (Rmin_right (ln _)) by lra. rewrite (Rmin_right v) by lra.
  fcbn. rewrite flog_fin by (apply exp_pos). fcbn. rewrite ln_exp. unfold qf. fcbn. rewrite fdiv_fin by lra.
  rewrite flog_fin by (apply Rdiv_lt_0_compat; lra). replace (1000 * (z - z)) with 0 by lra.
  destruct (pyin _ _); fcbn; rewrite fdiv_fin by lra; fcbn; f_equal; unfold Rdiv; rewrite Ropp_0, Rmult_0_l, exp_0; lra.
Qed.
Lemma cy14_ref_v c x a v : cy14_ln_ref c (cy14_input x (with_v a v)) = cy14_ln_ref c (cy14_input x a).
Proof. destruct a; reflexivity. Qed.
Lemma cy14_std_v c x a v y : 1130 <= v -> 1130 <= n_v a ->
  cy14_ln_std c y (cy14_input x (with_v a v)) = cy14_ln_std c y (cy14_input x a).
Proof.
  intros H1 H2. unfold cy14_ln_std. destruct a as [m ru jb xx y0 cr di vv to bo bt hy wi z1 z25 dp me re so hw af]; cbn [with_v] in *. cbn [n_v] in H2. unfold cy14_input; cy14_fields.
  rewrite !pymin_fin, !Rmin_right by lra. reflexivity.
Qed.
Theorem cy14_stiff_same src1 src2 a x v : nga_gives src1 a -> nga_gives src2 (with_v a v) -> n_x a = Some x ->
  n_z1 a = None -> 0 <= n_rup a -> 1130 <= n_v a -> 1130 <= v ->
  exists o, gmm_out (cy14 src1) o /\ gmm_out (cy14 src2) o.
Proof.
  intros G1 G2 Hx Hz Hr H1 H2. exists (cy14_outs x a). split; [apply cy14_out; assumption|].
  replace (cy14_outs x a) with (cy14_outs x (with_v a v)); [apply cy14_out; [exact G2|destruct a; exact Hx]|].
  apply row_outs_ext with (rows := cy14_coeff); [apply cy14_psa_in | apply cy14_pga_in | apply cy14_pgv_in | |].
  - intros c Hc. pose proof (cy14_ref_finite x a c Hc Hr) as F.
    rewrite (cy14_stiff c (cy14_input x (with_v a v)) v), (cy14_stiff c (cy14_input x a) (n_v a)); try assumption; try lra; try reflexivity.
    + apply cy14_ref_v.
    + cbn. rewrite Hz. reflexivity.
    + destruct a; reflexivity.
    + rewrite cy14_ref_v; exact F.
    + destruct a; cbn in Hz |- *; subst; reflexivity.
  - intros c Hc. rewrite cy14_ref_v, cy14_std_v by assumption. reflexivity.
Qed.

(** ** Italy and California *)
Definition cy14_italy (x : R) (a : nga) := cy14_input x (with_region a (Some "italy")).
Definition cy14_calif (x : R) (a : nga) := cy14_input x (with_region a (Some "california")).
Lemma cy14_site_it c y v z : cy14_site_term c y v z (PStr "italy") = cy14_site_term c y v z (PStr "california").
Proof. reflexivity. Qed.
Lemma cy14_source_it c x a : cy14_ln_source c (cy14_italy x a) = cy14_ln_source c (cy14_calif x a).
Proof. destruct a; reflexivity. Qed.
Lemma cy14_ref_it c x a : n_mag a <= 6 \/ 6.9 <= n_mag a -> cy14_ln_ref c (cy14_italy x a) = cy14_ln_ref c (cy14_calif x a).
Proof.
  intros H. unfold cy14_ln_ref. rewrite cy14_source_it.
  generalize (cy14_ln_source c (cy14_calif x a)); intros src.
  unfold cy14_italy, cy14_calif. destruct a as [m ru jb xx y0 cr di vv to bo bt hy wi z1 z25 dp me re so hw af]; cbn [n_mag] in H; cbn [with_region]; unfold cy14_input; cy14_fields.
  change (cy14_region _) with (PStr "italy") at 1. cbn [pyin existsb pyeq].
  assert (E : ((($6 <? $m) && ($m <? $6.9))%flt) = false).
  { fcbn. destruct H; [rewrite Rltb_false by lra; reflexivity | rewrite (Rltb_false m) by lra; apply andb_false_r]. }
  rewrite E. reflexivity.
Qed.
Theorem cy14_italy_same src1 src2 a x : nga_gives src1 (with_region a (Some "italy")) -> nga_gives src2 (with_region a (Some "california")) ->
  n_x a = Some x -> n_mag a <= 6 \/ 6.9 <= n_mag a ->
  exists o, gmm_out (cy14 src1) o /\ gmm_out (cy14 src2) o.
Proof.
  intros G1 G2 Hx H. exists (cy14_outs x (with_region a (Some "italy"))). split; [apply cy14_out; [exact G1|destruct a; exact Hx]|].
  replace (cy14_outs x (with_region a (Some "italy"))) with (cy14_outs x (with_region a (Some "california"))); [apply cy14_out; [exact G2|destruct a; exact Hx]|].
  apply row_outs_ext with (rows := cy14_coeff); [apply cy14_psa_in | apply cy14_pga_in | apply cy14_pgv_in | |].
  - intros c Hc. unfold cy14_ln_resp. fold (cy14_italy x a) (cy14_calif x a). rewrite (cy14_ref_it c x a H).
    destruct a; reflexivity.
  - intros c Hc. fold (cy14_italy x a) (cy14_calif x a). rewrite (cy14_ref_it c x a H). destruct a; reflexivity.
Qed.

Lemma cy14_ref_it_lt c x a : In c cy14_coeff -> 6 < n_mag a < 6.9 -> 0 < n_rup a ->
  exists y1 y2, cy14_ln_ref c (cy14_italy x a) = Fin y1 /\ cy14_ln_ref c (cy14_calif x a) = Fin y2 /\ y1 < y2.
Proof.
  intros Hc Hm Hr. destruct (cy14_ref_finite x (with_region a (Some "california")) c Hc ltac:(destruct a; cbn in *; lra)) as [y2 E2].
  fold (cy14_calif x a) in E2.
  destruct (cy14_ref_finite x (with_region a (Some "italy")) c Hc ltac:(destruct a; cbn in *; lra)) as [y1 E1].
  fold (cy14_italy x a) in E1. exists y1, y2. split; [exact E1|]. split; [exact E2|].
  revert E1 E2. unfold cy14_ln_ref. rewrite cy14_source_it.
  destruct (cy14_source_finite x (with_region a (Some "california")) c Hc) as [K HK]. fold (cy14_calif x a) in HK. rewrite HK. clear HK.
  unfold cy14_italy, cy14_calif. destruct a as [m ru jb xx y0 cr di vv to bo bt hy wi z1 z25 dp me re so hw af]; cbn [n_mag n_rup] in *; cbn [with_region]; unfold cy14_input, cy14_mech; cy14_fields.
  change (cy14_region _) with (PStr "italy") at 1.
  assert (E : ((($6 <? $m) && ($m <? $6.9))%flt) = true) by (fcbn; rewrite !Rltb_true by lra; reflexivity).
  rewrite E. cbn [pyin existsb pyeq andb orb String.eqb Ascii.eqb Bool.eqb].
  change (pyin (PStr "italy") [PStr "japan"; PStr "italy"]) with true.
  change (pyin (cy14_region _) [PStr "japan"; PStr "italy"]) with false.
  change (pyin (cy14_region _) [PStr "china"]) with false. cbn [andb].
  change (cy14_region _) with (PStr "italy") at 1.
  row_ge Hc (129#100)%Q cy14_gamma_ji as Gj.
  row_upto Hc (fun c => cy14_c_gamma1 c)%Q (0#1)%Q as G1. row_upto Hc (fun c => cy14_c_gamma2 c)%Q (0#1)%Q as G2.
  row_lt Hc (fun c => cy14_c_gamma1 c + cy14_c_gamma2 c)%Q (fun _ : cy14_row => (0#1)%Q) as G3.
  row_pos Hc cy14_c_5 as H5. row_pos Hc cy14_c_rb as Hrb. row_pos Hc cy14_c_9b as H9.
  set (g := (qf (cy14_c_gamma1 c) + qf (cy14_c_gamma2 c) / _)%flt).
  assert (Hg : exists t, g = Fin t /\ t < 0).
  { unfold g. fcbn. set (ch := cosh _). assert (1 <= ch) by apply cosh_ge_1. unfold qf. rewrite fdiv_fin by lra. fcbn.
    eexists; split; [reflexivity|].
    destruct (Req_dec (Q2R (cy14_c_gamma2 c)) 0) as [Z|Z]; [rewrite Z; unfold Rdiv; rewrite Rmult_0_l; lra|].
    assert (Q2R (cy14_c_gamma2 c) / ch < 0); [|lra]. apply Rmult_lt_reg_r with ch; [lra|]. unfold Rdiv. rewrite Rmult_assoc, Rinv_l; lra. }
  destruct Hg as (t & -> & Ht).
  match goal with |- context [(Fin K + ?A + ?B + qf (cy14_gamma_ji c) * Fin t * Fin ru + ?D)%flt] =>
    assert (FA : finite A) by (fsplit; auto with fltdb; apply fpos_add_nn; fsplit);
    assert (FB : finite B) by (fsplit; auto with fltdb; try (apply fpos_add_nn; fsplit); try (apply fpos_sq; fsplit));
    assert (FD : finite D) by (fsplit; auto with fltdb);
    set (A0 := A) in *; set (B0 := B) in *; set (D0 := D) in * end.
  clearbody A0 B0 D0. destruct FA as [A1 ->]. destruct FB as [B1 ->]. destruct FD as [D1 ->].
  match goal with |- (if ?b then (_ + ?H)%flt else _) = _ -> _ =>
    assert (FH : finite H); [|set (H0 := H) in *; set (bb := b) in *] end.
  { fsplit; auto with fltdb. }
  clearbody H0 bb. destruct FH as [H1 ->].
  assert (0 < (Q2R (cy14_gamma_ji c) - 1) * ((- t) * ru)) by (apply Rmult_lt_0_compat; [lra|apply Rmult_lt_0_compat; lra]).
  unfold qf; destruct bb; fcbn; intros X1 X2; injection X1 as X1; injection X2 as X2; subst; lra.
Qed.
Theorem cy14_italy_lower src1 src2 a x : nga_gives src1 (with_region a (Some "italy")) -> nga_gives src2 (with_region a (Some "california")) ->
  n_x a = Some x -> 6 < n_mag a < 6.9 -> 0 < n_rup a -> 180 <= n_v a ->
  exists o1 o2, gmm_out (cy14 src1) o1 /\ gmm_out (cy14 src2) o2 /\ resp2 flt_lt o1 o2.
Proof.
  intros G1 G2 Hx Hm Hr Hv. exists (cy14_outs x (with_region a (Some "italy"))), (cy14_outs x (with_region a (Some "california"))).
  split; [apply cy14_out; [exact G1|destruct a; exact Hx]|]. split; [apply cy14_out; [exact G2|destruct a; exact Hx]|].
  apply row_resp_lt with (rows := cy14_coeff); [apply cy14_psa_in | apply cy14_pga_in | apply cy14_pgv_in |].
  intros c Hc. destruct (cy14_ref_it_lt c x a Hc Hm Hr) as (y1 & y2 & E1 & E2 & L).
  fold (cy14_italy x a) (cy14_calif x a).
  apply (cy14_resp_lt c _ _ y1 y2 (n_v a) Hc Hv E1 E2 L); try (destruct a; reflexivity).
  apply (finite_odef _ _ (fpos_finite _ (fpos_z1 _ _))).
Qed.

(** ** Default depths *)
Theorem cy14_depth_1_0_spec v1 v2 re : 0 < v1 -> v1 < v2 ->
  exists z1 z2, cy14_calc_depth_1_0 (Fin v1) re = Fin z1 /\ cy14_calc_depth_1_0 (Fin v2) re = Fin z2 /\ 0 < z2 < z1.
Proof.
  intros H1 H2. destruct (fpos_z1 v1 re) as (z1 & E1 & P1). destruct (fpos_z1 v2 re) as (z2 & E2 & P2).
  exists z1, z2. split; [exact E1|]. split; [exact E2|]. split; [exact P2|].
  revert E1 E2. unfold cy14_calc_depth_1_0. 
  assert (S : v1 * v1 < v2 * v2) by nra. assert (0 < v1 * v1) by nra.
  assert (v1 * v1 * (v1 * v1) < v2 * v2 * (v2 * v2)) by nra.
  assert (G : forall k A B D E, 0 < A -> A < B -> 0 < E -> 0 < D -> 0 < k -> exp (- k * ln ((B + D) / E)) / 1000 < exp (- k * ln ((A + D) / E)) / 1000).
  { intros k A B D E HA HB HE HD Hk. assert (ln ((A + D) / E) < ln ((B + D) / E)).
    { apply ln_increasing; [apply Rdiv_lt_0_compat; lra|]. apply Rmult_lt_compat_r; [apply Rinv_0_lt_compat; lra|lra]. }
    assert (exp (- k * ln ((B + D) / E)) < exp (- k * ln ((A + D) / E))) by (apply exp_increasing; nra). lra. }
  assert (P : forall a d, 0 < a -> 0 < d -> 0 < a / d) by (intros; apply Rdiv_lt_0_compat; lra).
  destruct (pyin _ _); fcbn; rewrite !fdiv_fin by lra; rewrite !flog_fin by (apply P; nra); fcbn; rewrite !fdiv_fin by lra;
  intros X1 X2; injection X1 as <-; injection X2 as <-.
  - replace (-5.23 / 2) with (- (5.23 / 2)) by lra. apply G; nra.
  - replace (-7.15 / 4) with (- (7.15 / 4)) by lra. apply G; nra.
Qed.
