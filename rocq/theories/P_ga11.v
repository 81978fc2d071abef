(** * Proofs for Gulerce & Abrahamson (2011) *)
From Coquelicot Require Import Coquelicot.
From Interval Require Import Tactic.
From Coq Require Import List.
From Verif Require Import M_ga11 FrameworkProofs NpProofs Anal Nga Outs Cont Cont1 Spec_ga11.
Open Scope R_scope.
Open Scope string_scope.
Open Scope list_scope.

Lemma vh_src_gives a : vh_gives (vh_src a) a.
Proof. repeat split. Qed.

Definition vh_mech (a : vh) : pyval := choice ["SS"; "NS"; "RS"] PNone (Some (h_mech a)).
Definition vh_scen (a : vh) : scen :=
  Scen [("dist_rup", PNum (Fin (h_rup a))); ("mag", PNum (Fin (h_mag a))); ("v_s30", PNum (Fin (h_v a)));
        ("pga_ref", PNum (Fin (h_pga a))); ("mechanism", vh_mech a)] [].
Definition vh_row (a : vh) (c : ga11_row) : flt :=
  ga11_ln_ratio c (Fin (h_mag a)) (Fin (h_rup a)) (Fin (h_v a)) (Fin (h_pga a)) (vh_mech a).
Definition vh_obj (a : vh) : ga11_obj :=
  Ga11 (vh_scen a) (map (vh_row a) ga11_coeff) (map (fun c => ga11_row_std c (Fin (h_mag a))) ga11_coeff).

Lemma ga11_construct src a : vh_gives src a -> result (ga11 src) = Ok (vh_obj a).
Proof.
  intros (G1 & G2 & G3 & G4 & G5). unfold ga11.
  rewrite result_bind, model_init_result' by reflexivity.
  let x := eval cbv [ga11_params NumP CatP CatBoolP map] in ga11_params in change ga11_params with x.
  unfold has_num, has_str in *.
  cbn [checks p_name]. rewrite G1, G2, G3, G4, G5.
  repeat (rewrite ?chk_num; cbn [checks p_name]).
  change [PStr "SS"; PStr "NS"; PStr "RS"] with (map PStr ["SS"; "NS"; "RS"]).
  rewrite chk_str_req. cbn [checks p_name]. reflexivity.
Qed.

(** *** C39 *)
Lemma ga11_no_pga src : absent src "pga_ref" -> exists e, result (ga11 src) = Raise e.
Proof.
  intros H. unfold ga11. rewrite result_bind, model_init_result' by reflexivity.
  let x := eval cbv [ga11_params NumP CatP CatBoolP map] in ga11_params in change ga11_params with x.
  unfold absent in H. cbn [checks p_name]. rewrite H.
  destruct (result (check _ (dget_none src "dist_rup"))); [|eauto].
  destruct (result (check _ (dget_none src "mag"))); [|eauto].
  destruct (result (check _ (dget_none src "v_s30"))); [|eauto].
  rewrite chk_required. eauto.
Qed.
Lemma ga11_no_pga_value src r m v : absent src "pga_ref" ->
  gives_num src "dist_rup" r -> gives_num src "mag" m -> gives_num src "v_s30" v ->
  result (ga11 src) = Raise EValue.
Proof.
  intros H H1 H2 H3. unfold ga11. rewrite result_bind, model_init_result' by reflexivity.
  let x := eval cbv [ga11_params NumP CatP CatBoolP map] in ga11_params in change ga11_params with x.
  unfold absent, gives_num in *. cbn [checks p_name]. rewrite H, H1, H2, H3.
  destruct r; cbn [onum]; rewrite ?chk_num, ?chk_required; [|reflexivity].
  destruct m; cbn [onum]; rewrite ?chk_num, ?chk_required; [|reflexivity].
  destruct v; cbn [onum]; rewrite ?chk_num, ?chk_required; [|reflexivity]. reflexivity.
Qed.

(** *** Real values *)
Lemma vh_v1_pos T : 0 < vh_v1 T.
Proof.
  unfold vh_v1. destruct (Rlt_dec T 0); [lra|]. destruct (Rle_dec T 0.5); [lra|]. destruct (Rle_dec T 1); [apply exp_pos|].
  destruct (Rle_dec T 2); [apply exp_pos|lra].
Qed.
Lemma ga11_v1_fin T : T <= 10 -> ga11_v_1 (Fin T) = Fin (vh_v1 T).
Proof.
  intros H. unfold ga11_v_1, vh_v1. fcbn. cbn [np_select]. unfold Rltb at 1, Rleb.
  destruct (Rlt_dec T 0); [reflexivity|]. destruct (Rle_dec T 0.5); [reflexivity|].
  rewrite (Rmax_right 0.001 T) by lra.
  destruct (Rle_dec T 1). { rewrite fdiv_fin by (apply Rgt_not_eq; lra). rewrite flog_fin by (apply Rdiv_lt_0_compat; lra). reflexivity. }
  destruct (Rle_dec T 2). { rewrite flog_fin by lra. reflexivity. }
  destruct (Rle_dec T 10); [reflexivity|lra].
Qed.
Lemma ga11_f1_fin c m d : In c ga11_coeff -> ga11_f1 c (Fin m) (Fin d) = Fin (vh_source_val c m d).
Proof.
  intros Hc. row_pos Hc (fun c => ga11_c4 c) as C4.
  assert (P : 0 < d * d + Q2R (ga11_c4 c) * Q2R (ga11_c4 c)) by (apply sq2_pos; lra).
  unfold ga11_f1, vh_source_val, qf. fcbn. rewrite fsqrt_fin by lra. rewrite flog_fin by (apply sqrt_lt_R0; exact P).
  fcbn. unfold Rltb. destruct (Rlt_dec m (Q2R (ga11_c1 c))) as [H|H]; cbn [np_select]; fcbn.
  - destruct (Rle_dec m (Q2R (ga11_c1 c))); [reflexivity|lra].
  - destruct (Rle_dec m (Q2R (ga11_c1 c))); [|reflexivity].
    assert (E : m - Q2R (ga11_c1 c) = 0) by lra. rewrite E. f_equal. ring.
Qed.
Lemma ga11_f5_fin c v p : In c ga11_coeff -> 0 < v -> 0 <= p -> ga11_f5 c (Fin v) (Fin p) = Fin (vh_site_val c p v).
Proof.
  intros Hc Hv Hp. row_pos Hc (fun c => ga11_v_lin c) as VL. row_pos Hc (fun c => ga11_c c) as CC.
  row_upto Hc (fun c => ga11_period c) (10#1)%Q as T10.
  unfold ga11_f5, vh_site_val, qf. rewrite ga11_v1_fin by lra. rewrite fmin_fin.
  pose proof (vh_v1_pos (Q2R (ga11_period c))) as V1. set (v1 := vh_v1 _) in *.
  set (w := Rmin v v1). assert (W : 0 < w) by (apply Rmin_pos; assumption).
  rewrite fdiv_fin by (apply Rgt_not_eq; lra).
  assert (R0 : 0 < w / Q2R (ga11_v_lin c)) by (apply Rdiv_lt_0_compat; lra).
  set (r := w / Q2R (ga11_v_lin c)) in *.
  assert (U : 0 < Rpower r (Q2R (ga11_n c))) by apply exp_pos.
  assert (CU : 0 < Q2R (ga11_c c) * Rpower r (Q2R (ga11_n c))) by (apply Rmult_lt_0_compat; lra).
  rewrite (flog_fin r R0), (fpow_fin r _ R0). fcbn.
  rewrite (flog_fin (p + Q2R (ga11_c c))) by lra. rewrite (flog_fin (p + _ * _)) by lra. fcbn.
  unfold Rltb. destruct (Rlt_dec w (Q2R (ga11_v_lin c))); cbn [np_select]; fcbn; f_equal; ring.
Qed.
Lemma vh_row_fin a c : In c ga11_coeff -> 0 < h_v a -> 0 <= h_pga a -> vh_row a c = Fin (vh_val a c).
Proof.
  intros Hc Hv Hp. unfold vh_row, ga11_ln_ratio, vh_val. rewrite ga11_f1_fin, ga11_f5_fin by assumption.
  assert (M : is_str (vh_mech a) "NS" = String.eqb (h_mech a) "NS" /\ is_str (vh_mech a) "RS" = String.eqb (h_mech a) "RS").
  { unfold vh_mech, choice. cbn [existsb]. destruct (String.eqb_spec (h_mech a) "SS") as [E|E]; [rewrite E; split; reflexivity|].
    destruct (String.eqb_spec (h_mech a) "NS") as [E2|E2]; [rewrite E2; split; reflexivity|].
    destruct (String.eqb_spec (h_mech a) "RS") as [E3|E3]; [rewrite E3; split; reflexivity|]. split; reflexivity. }
  destruct M as [-> ->]. unfold qf.
  destruct (String.eqb (h_mech a) "RS"); [|destruct (String.eqb (h_mech a) "NS")]; fcbn; f_equal; ring.
Qed.
Lemma ga11_part_fin lo hi m : ga11_std_part lo hi (Fin m) = Fin (vh_ramp lo hi m).
Proof.
  unfold ga11_std_part, vh_ramp, qf. fcbn. cbn [np_select]. unfold Rltb, Rleb.
  destruct (Rlt_dec m 5). { rewrite (Rmin_left m 7) by lra. rewrite (Rmax_left 5 m) by lra. f_equal. lra. }
  destruct (Rle_dec m 7). { rewrite (Rmin_left m 7) by lra. rewrite (Rmax_right 5 m) by lra. reflexivity. }
  rewrite (Rmin_right m 7) by lra. rewrite (Rmax_right 5 7) by lra. f_equal. lra.
Qed.
Lemma vh_ramp_bounds lo hi a b m : a <= Q2R lo <= b -> a <= Q2R hi <= b -> a <= vh_ramp lo hi m <= b.
Proof.
  intros H1 H2. unfold vh_ramp. assert (K : 0 <= 0.5 * (Rmax 5 (Rmin m 7) - 5) <= 1).
  { split; unfold Rmax, Rmin; destruct (Rle_dec m 7); destruct (Rle_dec 5 _); lra. }
  set (t := Rmax 5 (Rmin m 7)) in *.
  replace (Q2R lo + 0.5 * (Q2R hi - Q2R lo) * (t - 5)) with ((1 - 0.5 * (t - 5)) * Q2R lo + 0.5 * (t - 5) * Q2R hi) by lra.
  set (w := 0.5 * (t - 5)) in *. nra.
Qed.
Lemma vh_row_std_fin c m : ga11_row_std c (Fin m) = Fin (vh_sd c m).
Proof. unfold ga11_row_std, vh_sd. rewrite !ga11_part_fin. fcbn. apply fsqrt_fin. apply sq2_nonneg. Qed.
Lemma vh_sd_bounds c m : In c ga11_coeff -> 0.36 <= vh_sd c m <= 0.87.
Proof.
  intros Hc.
  row_ge Hc (373#1000)%Q (fun c => ga11_s1 c) as A1. row_upto Hc (fun c => ga11_s1 c) (7#10)%Q as B1.
  row_ge Hc (33#100)%Q (fun c => ga11_s2 c) as A2. row_upto Hc (fun c => ga11_s2 c) (52#100)%Q as B2.
  row_ge Hc (213#1000)%Q (fun c => ga11_s3 c) as A3. row_upto Hc (fun c => ga11_s3 c) (5#10)%Q as B3.
  row_ge Hc (15#100)%Q (fun c => ga11_s4 c) as A4. row_upto Hc (fun c => ga11_s4 c) (4#10)%Q as B4.
  unfold vh_sd. pose proof (vh_ramp_bounds (ga11_s1 c) (ga11_s2 c) 0.33 0.7 m ltac:(lra) ltac:(lra)) as H1.
  pose proof (vh_ramp_bounds (ga11_s3 c) (ga11_s4 c) 0.15 0.5 m ltac:(lra) ltac:(lra)) as H2.
  set (x := vh_ramp (ga11_s3 c) _ m) in *. set (y := vh_ramp (ga11_s1 c) _ m) in *.
  split.
  - rewrite <- (sqrt_square 0.36) by lra. apply sqrt_le_1; nra.
  - rewrite <- (sqrt_square 0.87) by lra. apply sqrt_le_1; nra.
Qed.

(** Published values. *)
Lemma ga11_published src a : vh_gives src a -> 0 < h_v a -> 0 <= h_pga a ->
  exists o, result (ga11 src) = Ok o /\
    ga11_ratio o = map (fun c => Fin (exp (vh_val a c))) ga11_coeff /\
    ga11_ln_std o = map (fun c => Fin (vh_sd c (h_mag a))) ga11_coeff.
Proof.
  intros G Hv Hp. exists (vh_obj a). split; [apply ga11_construct; exact G|]. split.
  - unfold ga11_ratio, vh_obj; cbn [ga_ln_ratio]. rewrite map_map. apply map_ext_in. intros c Hc. rewrite vh_row_fin by assumption. reflexivity.
  - unfold ga11_ln_std, vh_obj; cbn [ga_ln_std]. apply map_ext_in. intros c Hc. apply vh_row_std_fin.
Qed.
Lemma ga11_sigma_bounds src a o : vh_gives src a -> result (ga11 src) = Ok o ->
  Forall (fun s => exists x, s = Fin x /\ 0.36 <= x <= 0.87) (ga11_ln_std o).
Proof.
  intros G H. rewrite (ga11_construct src a G) in H. injection H as <-.
  unfold ga11_ln_std, vh_obj; cbn [ga_ln_std]. apply Forall_map_intro. intros c Hc.
  exists (vh_sd c (h_mag a)). split; [apply vh_row_std_fin|apply vh_sd_bounds, Hc].
Qed.

(** *** Continuity *)
Lemma ramp_min_max lo hi m0 : continuous (fun m => vh_ramp lo hi m) m0.
Proof. unfold vh_ramp. cont. Qed.
Lemma hinge_min_max k p q m : (if Rle_dec m k then p else q) * (m - k) = p * Rmin (m - k) 0 + q * Rmax (m - k) 0.
Proof.
  destruct (Rle_dec m k).
  - rewrite Rmin_left, Rmax_right by lra. ring.
  - rewrite Rmin_right, Rmax_left by lra. ring.
Qed.
Lemma vh_source_cont c d m0 : continuous (fun m => vh_source_val c m d) m0.
Proof.
  unfold vh_source_val.
  apply (cext (fun m => Q2R (ga11_a1 c) + Q2R (ga11_a8 c) * ((8.5 - m) * (8.5 - m))
  + (Q2R (ga11_a2 c) + Q2R (ga11_a3 c) * (m - Q2R (ga11_c1 c))) * ln (sqrt (d * d + Q2R (ga11_c4 c) * Q2R (ga11_c4 c)))
  + (Q2R (ga11_a4 c) * Rmin (m - Q2R (ga11_c1 c)) 0 + Q2R (ga11_a5 c) * Rmax (m - Q2R (ga11_c1 c)) 0))).
  { intros m. rewrite <- hinge_min_max. reflexivity. }
  cont.
Qed.
(** The site term as one expression without case distinction. *)
Lemma vh_site_join c p v : In c ga11_coeff -> 0 < v -> 0 <= p ->
  let w := Rmin v (vh_v1 (Q2R (ga11_period c))) in
  let r := w / Q2R (ga11_v_lin c) in
  vh_site_val c p v = Q2R (ga11_a10 c) * ln r + Q2R (ga11_b c) * ln (p + Q2R (ga11_c c))
    - Q2R (ga11_b c) * ln (p + Q2R (ga11_c c) * Rpower (Rmin r 1) (Q2R (ga11_n c)))
    - Q2R (ga11_b c) * Q2R (ga11_n c) * ln (Rmax r 1).
Proof.
  intros Hc Hv Hp w r. row_pos Hc (fun c => ga11_v_lin c) as VL. row_pos Hc (fun c => ga11_c c) as CC.
  assert (VL' : 0 < Q2R (ga11_v_lin c)) by lra.
  assert (W : 0 < w) by (apply Rmin_pos; [exact Hv|apply vh_v1_pos]).
  unfold vh_site_val. fold w. fold r. destruct (Rlt_dec w (Q2R (ga11_v_lin c))) as [L|L].
  - assert (r < 1) by (unfold r; apply (Rmult_lt_reg_r (Q2R (ga11_v_lin c))); [exact VL'|]; unfold Rdiv; rewrite Rmult_assoc, Rinv_l by lra; lra).
    rewrite Rmin_left, Rmax_right by lra. rewrite ln_1. ring.
  - assert (1 <= r) by (unfold r; apply (Rmult_le_reg_r (Q2R (ga11_v_lin c))); [exact VL'|]; unfold Rdiv; rewrite Rmult_assoc, Rinv_l by lra; lra).
    rewrite Rmin_right, Rmax_left by lra.
    replace (Rpower 1 (Q2R (ga11_n c))) with 1 by (unfold Rpower; rewrite ln_1, Rmult_0_r, exp_0; reflexivity).
    rewrite Rmult_1_r. ring.
Qed.
Lemma near_pos x x0 : 0 < x0 -> Rabs (x - x0) < x0 -> 0 < x.
Proof. intros H1 H2. apply Rabs_def2 in H2. lra. Qed.
Lemma vh_site_cont c p v0 : In c ga11_coeff -> 0 <= p -> 0 < v0 -> continuous (fun v => vh_site_val c p v) v0.
Proof.
  intros Hc Hp Hv. row_pos Hc (fun c => ga11_v_lin c) as VL. row_pos Hc (fun c => ga11_c c) as CC.
  pose proof (vh_v1_pos (Q2R (ga11_period c))) as V1. set (v1 := vh_v1 _) in *.
  apply (cext_near (fun v => Q2R (ga11_a10 c) * ln (Rmin v v1 * / Q2R (ga11_v_lin c)) + Q2R (ga11_b c) * ln (p + Q2R (ga11_c c))
    - Q2R (ga11_b c) * ln (p + Q2R (ga11_c c) * Rpower (Rmin (Rmin v v1 * / Q2R (ga11_v_lin c)) 1) (Q2R (ga11_n c)))
    - Q2R (ga11_b c) * Q2R (ga11_n c) * ln (Rmax (Rmin v v1 * / Q2R (ga11_v_lin c)) 1))) with (e := v0); [exact Hv| |].
  { intros v Hx. rewrite (vh_site_join c p v) by (try assumption; apply (near_pos v v0); assumption). reflexivity. }
  assert (R0 : 0 < Rmin v0 v1 * / Q2R (ga11_v_lin c)).
  { apply Rmult_lt_0_compat; [apply Rmin_pos; assumption|apply Rinv_0_lt_compat; lra]. }
  cont; try lra; try (apply Rmin_pos; lra); try (apply Rlt_le_trans with 1; [lra|apply Rmax_r]).
  apply Rplus_le_lt_0_compat; [exact Hp|]. apply Rmult_lt_0_compat; [lra|apply exp_pos].
Qed.
Lemma ga11_cont_mag a m0 : 0 < h_v a -> 0 <= h_pga a ->
  vec_continuous ln_close (fun m l => exists src o, vh_gives src (vh_with_m a m) /\ result (ga11 src) = Ok o /\ l = ga11_ratio o) m0.
Proof.
  intros Hv Hp. apply (vec_cont_ln ga11_coeff (fun m c => vh_val (vh_with_m a m) c)) with (r := 1); [lra| |].
  - intros m l _ (src & o & G & E & ->). destruct (ga11_published src _ G) as (o' & E' & R1 & _); [exact Hv|exact Hp|].
    rewrite E in E'. injection E' as <-. exact R1.
  - intros c Hc. unfold vh_val, vh_with_m; cbn [h_mag h_rup h_v h_pga h_mech].
    apply (cplus (fun m => _ + _) (fun _ => _)); [|apply cconst]. apply (cplus (fun m => vh_source_val c m _) (fun _ => _)); [apply vh_source_cont|apply cconst].
Qed.
Lemma ga11_cont_vs a v0 : 0 < v0 -> 0 <= h_pga a ->
  vec_continuous ln_close (fun v l => exists src o, vh_gives src (vh_with_v a v) /\ result (ga11 src) = Ok o /\ l = ga11_ratio o) v0.
Proof.
  intros Hv Hp. apply (vec_cont_ln ga11_coeff (fun v c => vh_val (vh_with_v a v) c)) with (r := v0); [lra| |].
  - intros v l Hx (src & o & G & E & ->). destruct (ga11_published src _ G) as (o' & E' & R1 & _); [cbn; apply (near_pos v v0); assumption|exact Hp|].
    rewrite E in E'. injection E' as <-. exact R1.
  - intros c Hc. unfold vh_val, vh_with_v; cbn [h_mag h_rup h_v h_pga h_mech].
    apply (cplus (fun m => _ + _) (fun _ => _)); [|apply cconst]. apply (cplus (fun _ => _) (fun v => vh_site_val c _ v)); [apply cconst|apply vh_site_cont; assumption].
Qed.
Lemma ga11_cont_sigma a m0 :
  vec_continuous num_close (fun m l => exists src o, vh_gives src (vh_with_m a m) /\ result (ga11 src) = Ok o /\ l = ga11_ln_std o) m0.
Proof.
  apply (vec_cont_num ga11_coeff (fun m c => vh_sd c m)) with (r := 1); [lra| |].
  - intros m l _ (src & o & G & E & ->). rewrite (ga11_construct src _ G) in E. injection E as <-.
    unfold ga11_ln_std, vh_obj; cbn [ga_ln_std]. apply map_ext_in. intros c Hc. apply vh_row_std_fin.
  - intros c Hc. pose proof (vh_sd_bounds c m0 Hc) as B. unfold vh_sd in *. unfold vh_ramp in *. cont.
Qed.

(** *** Dependence on the rock PGA *)
Lemma vh_site_pga c p1 p2 v : In c ga11_coeff -> 0 < v -> 0 <= p1 -> p1 <= p2 -> vh_site_val c p1 v <= vh_site_val c p2 v.
Proof.
  intros Hc Hv H0 H. row_pos Hc (fun c => ga11_v_lin c) as VL. row_pos Hc (fun c => ga11_c c) as CC.
  row_pos Hc (fun c => ga11_n c) as NN. row_upto Hc (fun c => ga11_b c) (0#1)%Q as B.
  assert (VL' : 0 < Q2R (ga11_v_lin c)) by lra.
  unfold vh_site_val. set (w := Rmin v _). assert (W : 0 < w) by (apply Rmin_pos; [exact Hv|apply vh_v1_pos]).
  destruct (Rlt_dec w (Q2R (ga11_v_lin c))) as [L|L]; [|lra].
  set (u := Rpower _ _). assert (U : 0 < u) by apply exp_pos.
  assert (R1 : 0 < w / Q2R (ga11_v_lin c) < 1).
  { split; [apply Rdiv_lt_0_compat; lra|]. apply (Rmult_lt_reg_r (Q2R (ga11_v_lin c))); [exact VL'|]. unfold Rdiv; rewrite Rmult_assoc, Rinv_l by lra; lra. }
  assert (U1 : u < 1).
  { unfold u, Rpower. rewrite <- exp_0. apply exp_increasing. pose proof (ln_neg_lt _ R1). nra. }
  set (k := Q2R (ga11_c c)) in *. assert (K : 0 < k) by lra. assert (KU : 0 < k * u < k) by nra.
  assert (M : ln (p1 + k) - ln (p1 + k * u) >= ln (p2 + k) - ln (p2 + k * u)).
  { rewrite <- !ln_div by lra. apply Rle_ge. apply ln_le_mono; [apply Rdiv_lt_0_compat; lra|].
    apply Rmult_le_reg_r with ((p1 + k * u) * (p2 + k * u)); [apply Rmult_lt_0_compat; lra|]. 
    replace ((p2 + k) / (p2 + k * u) * ((p1 + k * u) * (p2 + k * u))) with ((p2 + k) * (p1 + k * u)) by (field; lra).
    replace ((p1 + k) / (p1 + k * u) * ((p1 + k * u) * (p2 + k * u))) with ((p1 + k) * (p2 + k * u)) by (field; lra). nra. }
  set (b := Q2R (ga11_b c)) in *. assert (b <= 0) by lra. nra.
Qed.
Lemma ga11_pga_effect src1 src2 a p1 p2 : vh_gives src1 (vh_with_p a p1) -> vh_gives src2 (vh_with_p a p2) ->
  0 < h_v a -> 0 <= p1 -> p1 <= p2 ->
  exists o1 o2, result (ga11 src1) = Ok o1 /\ result (ga11 src2) = Ok o2 /\ Forall2 flt_le (ga11_ratio o1) (ga11_ratio o2).
Proof.
  intros G1 G2 Hv H0 H.
  destruct (ga11_published _ _ G1) as (o1 & E1 & R1 & _); [exact Hv|exact H0|].
  destruct (ga11_published _ _ G2) as (o2 & E2 & R2 & _); [exact Hv|cbn; lra|].
  exists o1, o2. split; [exact E1|]. split; [exact E2|]. rewrite R1, R2. apply Forall2_map_intro. intros c Hc.
  apply flt_le_fin, exp_le_mono. unfold vh_val, vh_with_p; cbn [h_mag h_rup h_v h_pga h_mech].
  pose proof (vh_site_pga c p1 p2 (h_v a) Hc Hv H0 H). lra.
Qed.
(** *** Interpolation *)
Definition ga11_psa_rows : list ga11_row := skipn 2 ga11_coeff.
Lemma ga11_psa_take : take_idx ga11_coeff ga11_psa = Some ga11_psa_rows.
Proof. reflexivity. Qed.
Lemma ga11_psa_incl c : In c ga11_psa_rows -> In c ga11_coeff.
Proof. intros H. unfold ga11_psa_rows in H. rewrite <- (firstn_skipn 2 ga11_coeff). apply in_or_app. right; exact H. Qed.
Lemma ga11_T_pos c : In c ga11_psa_rows -> 0 < Q2R (ga11_period c).
Proof. intros Hc. row_pos Hc (fun c => ga11_period c) as P. lra. Qed.
Lemma ln_incr_map {A} (l : list A) (f : A -> R) : (forall c, In c l -> 0 < f c) -> incr (map f l) -> incr (map (fun c => ln (f c)) l).
Proof.
  induction l as [|x [|y l] IH]; intros P H; cbn; auto. destruct H as [H1 H2]. split.
  - apply ln_increasing; [apply P; left; reflexivity|exact H1].
  - apply IH; [intros c Hc; apply P; right; exact Hc|exact H2].
Qed.
Lemma ga11_T_incr : incr (map (fun c => ln (Q2R (ga11_period c))) ga11_psa_rows).
Proof.
  apply ln_incr_map; [exact ga11_T_pos|]. rewrite <- map_map with (f := ga11_period) (g := Q2R). apply incrQ_incr. vm_compute. reflexivity.
Qed.
Lemma ga11_interp_eq (f : ga11_row -> flt) ts : result (ga11_interp (map f ga11_coeff) ts) =
  Ok (map (fun t => fexp (np_interp (map (fun c => Fin (ln (Q2R (ga11_period c)))) ga11_psa_rows) (map f ga11_psa_rows) (flog t))) ts).
Proof.
  unfold ga11_interp, ga11_periods, arr_take. rewrite !take_idx_map, ga11_psa_take. cbn [option_map].
  rewrite !bind_ret_l, result_ret. rewrite map_map.
  replace (map (fun c => flog (qf (ga11_period c))) ga11_psa_rows) with (map (fun c => Fin (ln (Q2R (ga11_period c)))) ga11_psa_rows); [reflexivity|].
  apply map_ext_in. intros c Hc. unfold qf. rewrite flog_fin by (apply ga11_T_pos; exact Hc). reflexivity.
Qed.
Lemma ga11_interp_knot src a c : vh_gives src a -> 0 < h_v a -> 0 <= h_pga a -> In c ga11_psa_rows ->
  exists o, result (ga11 src) = Ok o /\
    result (ga11_interp_ratio o [qf (ga11_period c)]) = Ok [Fin (exp (vh_val a c))] /\
    result (ga11_interp_ln_std o [qf (ga11_period c)]) = Ok [Fin (exp (vh_sd c (h_mag a)))].
Proof.
  intros G Hv Hp Hc. exists (vh_obj a). split; [apply ga11_construct; exact G|].
  unfold ga11_interp_ratio, ga11_interp_ln_std, vh_obj; cbn [ga_ln_ratio ga_ln_std]. rewrite !ga11_interp_eq. cbn [map].
  unfold qf. rewrite flog_fin by (apply ga11_T_pos; exact Hc). split.
  - rewrite (np_interp_knot (fun c => ln (Q2R (ga11_period c))) ga11_psa_rows c _ (vh_val a) ga11_T_incr Hc); [reflexivity|].
    intros c' Hc'. apply vh_row_fin; [apply ga11_psa_incl; exact Hc'|assumption|assumption].
  - rewrite (np_interp_knot (fun c => ln (Q2R (ga11_period c))) ga11_psa_rows c _ (fun c => vh_sd c (h_mag a)) ga11_T_incr Hc); [reflexivity|].
    intros c' Hc'. apply vh_row_std_fin.
Qed.
Lemma ga11_interp_std_bug src a t : vh_gives src a -> 0 < t ->
  exists o x, result (ga11 src) = Ok o /\ result (ga11_interp_ln_std o [Fin t]) = Ok [Fin x] /\ 1.43 <= x <= 2.39.
Proof.
  intros G Ht. exists (vh_obj a).
  destruct (np_interp_rows (fun c => ln (Q2R (ga11_period c))) ga11_psa_rows (ln t)) as (c1 & c2 & w & H1 & H2 & Hw & HF); [discriminate|exact ga11_T_incr|].
  specialize (HF (fun c => ga11_row_std c (Fin (h_mag a))) (fun c => vh_sd c (h_mag a)) (fun c _ => vh_row_std_fin c (h_mag a))).
  exists (exp (vh_sd c1 (h_mag a) + w * (vh_sd c2 (h_mag a) - vh_sd c1 (h_mag a)))).
  split; [apply ga11_construct; exact G|]. split.
  - unfold ga11_interp_ln_std, vh_obj; cbn [ga_ln_std]. rewrite ga11_interp_eq. cbn [map]. rewrite flog_fin by exact Ht.
    rewrite HF. reflexivity.
  - pose proof (vh_sd_bounds c1 (h_mag a) (ga11_psa_incl _ H1)) as B1. pose proof (vh_sd_bounds c2 (h_mag a) (ga11_psa_incl _ H2)) as B2.
    set (x := vh_sd c1 _) in *. set (y := vh_sd c2 _) in *.
    assert (Z : 0.36 <= x + w * (y - x) <= 0.87) by nra. set (z := x + w * (y - x)) in *.
    clearbody z. clear -Z. split; interval with (i_prec 40).
Qed.
Lemma ga11_interp_between src a t : vh_gives src a -> 0 < h_v a -> 0 <= h_pga a -> 0 < t ->
  exists o c1 c2 w, result (ga11 src) = Ok o /\ In c1 ga11_psa_rows /\ In c2 ga11_psa_rows /\ 0 <= w <= 1 /\
    result (ga11_interp_ratio o [Fin t]) = Ok [Fin (exp ((1 - w) * vh_val a c1 + w * vh_val a c2))].
Proof.
  intros G Hv Hp Ht. exists (vh_obj a).
  destruct (np_interp_rows (fun c => ln (Q2R (ga11_period c))) ga11_psa_rows (ln t)) as (c1 & c2 & w & H1 & H2 & Hw & HF); [discriminate|exact ga11_T_incr|].
  specialize (HF (vh_row a) (vh_val a) (fun c H => vh_row_fin a c (ga11_psa_incl c H) Hv Hp)).
  exists c1, c2, w. split; [apply ga11_construct; exact G|]. split; [exact H1|]. split; [exact H2|]. split; [exact Hw|].
  unfold ga11_interp_ratio, vh_obj; cbn [ga_ln_ratio]. rewrite ga11_interp_eq. cbn [map]. rewrite flog_fin by exact Ht.
  rewrite HF. cbn [fexp]. do 4 f_equal. ring.
Qed.
