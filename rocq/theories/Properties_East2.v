(** * C16, continued: magnitudes above 8.5 given as Python floats *)
From Coquelicot Require Import Coquelicot.
From Interval Require Import Tactic.
From Coq Require Import List.
From Verif Require Import M_tp05 M_tp05c M_ab06 M_ab06z FrameworkProofs Anal P_tp05 P_ab06.
Open Scope R_scope.
Open Scope string_scope.
Open Scope list_scope.

Lemma cos25 : cos (2.5 * PI) = 0.
Proof. replace (2.5 * PI) with (PI / 2 + 2 * INR 1 * PI) by (cbn; lra). rewrite cos_period. apply cos_PI2. Qed.
Lemma sin25 : sin (2.5 * PI) = 1.
Proof. replace (2.5 * PI) with (PI / 2 + 2 * INR 1 * PI) by (cbn; lra). rewrite sin_period. apply sin_PI2. Qed.

Lemma mvt0 (f df : R -> R) : f 0 = 0 -> (forall x, is_derive f x (df x)) -> (forall x, Rabs (df x) <= 1) -> forall x, Rabs (f x) <= Rabs x.
Proof.
  intros F0 D B x. destruct (MVT_gen f 0 x df) as (c & _ & E).
  - intros y _. apply D.
  - intros y _. apply continuity_pt_filterlim. apply (ex_derive_continuous f). eexists. apply D.
  - rewrite F0, !Rminus_0_r in E. rewrite E, Rabs_mult. pose proof (B c). pose proof (Rabs_pos x). pose proof (Rabs_pos (df c)). nra.
Qed.
Lemma atan_lip x : Rabs (atan x) <= Rabs x.
Proof.
  apply (mvt0 atan (fun x => / (1 + x²))); [apply atan_0| |].
  - intros y. auto_derive; [exact I|]. unfold Rsqr. field. pose proof (Rle_0_sqr y). unfold Rsqr in *. nra.
  - intros y. pose proof (Rle_0_sqr y). rewrite Rabs_pos_eq by (left; apply Rinv_0_lt_compat; lra). rewrite <- Rinv_1. apply Rinv_le_contravar; lra.
Qed.
Lemma sin_lip x : Rabs (sin x) <= Rabs x.
Proof.
  apply (mvt0 sin cos); [apply sin_0| |].
  - intros y. apply is_derive_Reals. apply derivable_pt_lim_sin.
  - intros y. apply Rabs_le. apply COS_bound.
Qed.
Lemma cos_low x : Rabs x <= 0.05 -> 0.998 <= cos x.
Proof. intros H. apply Rabs_le_between in H. interval with (i_prec 40, i_bisect x). Qed.

(** The argument and root of r^2 + h^2 e^{i phi}. *)
Lemma arg_small x y e : 0 < x -> Rabs y <= e * x -> Rabs (c_arg (x, y)) <= e.
Proof.
  intros Hx Hy. unfold c_arg. cbn [Re Im fst snd]. rewrite Rltb_true by exact Hx.
  apply Rle_trans with (1 := atan_lip _). unfold Rdiv. rewrite Rabs_mult, (Rabs_pos_eq (/ x)) by (left; apply Rinv_0_lt_compat; exact Hx).
  apply (Rmult_le_reg_r x); [exact Hx|]. rewrite Rmult_assoc, Rinv_l by lra. lra.
Qed.
Lemma root r H phi : 0 <= r -> 0 < H -> Rabs phi <= 0.05 ->
  let z := (r * r + H * H * cos phi, H * H * sin phi) in
  0 < Re z /\ Rabs (c_arg z) <= 1.01 * Rabs phi /\ Rabs (sqrt (c_abs z) * sin (c_arg z / 2)) <= 0.51 * H * Rabs phi.
Proof.
  intros Hr HH Hp z. pose proof (cos_low phi Hp) as HC. pose proof (sin_lip phi) as HS. pose proof (COS_bound phi) as (_ & HC1). pose proof (Rabs_pos phi) as P0.
  assert (0.998 * (r * r + H * H) <= Re z) as A by (unfold z; cbn [Re fst]; nra).
  assert (0 < Re z) as A0 by nra.
  assert (Rabs (Im z) <= H * H * Rabs phi) as B.
  { unfold z. cbn [Im snd]. rewrite Rabs_mult, (Rabs_pos_eq (H * H)) by nra. apply Rmult_le_compat_l; [nra|exact HS]. }
  assert (Re z <= r * r + H * H) as A1 by (unfold z; cbn [Re fst]; nra).
  assert (c_abs z <= r * r + H * H) as N.
  { unfold c_abs, z. cbn [Re Im fst snd]. apply Rsqr_incr_0_var; [|nra]. rewrite Rsqr_sqrt by (apply Rplus_le_le_0_compat; apply pow2_ge_0). unfold Rsqr.
    pose proof (sin2_cos2 phi) as SC. unfold Rsqr in SC. assert (0 <= r * r * (H * H)) as P4 by (apply Rmult_le_pos; nra).
    replace ((r * r + H * H * cos phi) ^ 2 + (H * H * sin phi) ^ 2) with (r * r * (r * r) + 2 * (r * r * (H * H)) * cos phi + H * H * (H * H) * (sin phi * sin phi + cos phi * cos phi)) by ring.
    rewrite SC. assert (r * r * (H * H) * cos phi <= r * r * (H * H) * 1) by (apply Rmult_le_compat_l; assumption). nra. }
  set (S := sqrt (r * r + H * H)). assert (S * S = r * r + H * H) as SS by (apply sqrt_sqrt; nra). assert (H <= S) as HSle.
  { unfold S. rewrite <- (sqrt_square H) at 1 by lra. apply sqrt_le_1_alt. nra. }
  (* |arg z| <= H H |phi| / Re z <= 1.01 |phi| H H / (S S) *)
  assert (Rabs (c_arg z) * (S * S) <= 1.01 * (H * H) * Rabs phi) as G.
  { rewrite SS. set (e := H * H * Rabs phi / Re z).
    assert (Rabs (c_arg z) <= e) as E1.
    { apply (arg_small (Re z) (Im z) e A0). unfold e. unfold Rdiv. rewrite Rmult_assoc, Rinv_l by lra. lra. }
    assert (e * Re z = H * H * Rabs phi) as E2 by (unfold e, Rdiv; rewrite Rmult_assoc, Rinv_l by lra; ring).
    assert (0 <= e) by (apply Rle_trans with (2 := E1), Rabs_pos). clearbody e.
    assert (0.998 * (e * (r * r + H * H)) <= H * H * Rabs phi) by (rewrite <- E2; replace (0.998 * (e * (r * r + H * H))) with (e * (0.998 * (r * r + H * H))) by ring; apply Rmult_le_compat_l; assumption).
    assert (Rabs (c_arg z) * (r * r + H * H) <= e * (r * r + H * H)) by (apply Rmult_le_compat_r; [nra|exact E1]).
    assert (0 <= H * H * Rabs phi) by (apply Rmult_le_pos; nra). lra. }
  split; [exact A0|]. pose proof (Rabs_pos (c_arg z)) as C0. split.
  - apply (Rmult_le_reg_r (S * S)); [nra|]. apply Rle_trans with (1 := G). assert (H * H <= S * S) by nra. nra.
  - rewrite Rabs_mult, (Rabs_pos_eq (sqrt _)) by apply sqrt_pos.
    assert (sqrt (c_abs z) <= S) as Q by (apply sqrt_le_1_alt; exact N).
    assert (Rabs (sin (c_arg z / 2)) <= Rabs (c_arg z) / 2) as W.
    { apply Rle_trans with (1 := sin_lip _). unfold Rdiv. rewrite Rabs_mult, (Rabs_pos_eq (/ 2)) by lra. lra. }
    apply Rle_trans with (S * (Rabs (c_arg z) / 2)); [apply Rmult_le_compat; [apply sqrt_pos|apply Rabs_pos|exact Q|exact W]|].
    apply (Rmult_le_reg_r S); [lra|]. replace (S * (Rabs (c_arg z) / 2) * S) with (Rabs (c_arg z) * (S * S) / 2) by field.
    assert (H * H * Rabs phi <= S * H * Rabs phi) by (apply Rmult_le_compat_r; [exact P0|nra]). nra.
Qed.

(** The imaginary part of the log response. *)
Lemma row_imag c m r : In c tp05_coeff -> 8.5 < m <= 9.5 -> 0 <= r -> -1 < Im (tp05_ln_resp_c c m r) < 0.
Proof.
  intros Hin Hm Hr. set (t := Rpower (m - 8.5) 2.5).
  assert (0 < t <= 1) as Ht.
  { split; [apply exp_pos|]. unfold t, Rpower. destruct (Req_dec m 9.5) as [->|N].
    - replace (9.5 - 8.5) with 1 by lra. rewrite ln_1, Rmult_0_r, exp_0. lra.
    - rewrite <- exp_0. left. apply exp_increasing. assert (ln (m - 8.5) < 0) by (rewrite <- ln_1; apply ln_increasing; lra). lra. }
  assert (py_neg_pow (8.5 - m) 2.5 = (0, t)) as EB.
  { unfold py_neg_pow. rewrite cos25, sin25. replace (- (8.5 - m)) with (m - 8.5) by ring. fold t. f_equal; ring. }
  unfold tp05_ln_resp_c. rewrite EB. cbv zeta.
  set (f2 := if Rltb 130 r then _ else _). clearbody f2.
  row_lt Hin (fun c => tp05_c_5 c) (fun _ : tp05_row => 0 # 1) as H5.
  row_lt Hin (fun _ : tp05_row => (-1#1))%Q (fun c => tp05_c_5 c) as H5b.
  row_lt Hin (fun c => tp05_c_6 c) (fun _ : tp05_row => 47 # 100) as H6.
  row_lt Hin (fun c => tp05_c_7 c) (fun _ : tp05_row => 21 # 1000) as H7.
  row_lt Hin (fun c => - tp05_c_7 c)%Q (fun _ : tp05_row => 21 # 1000) as H7b.
  row_lt Hin (fun c => tp05_c_3 c + (245#100) * tp05_c_7 c)%Q (fun _ : tp05_row => 0 # 1) as H3.
  row_lt Hin (fun c => tp05_c_3 c - (245#100) * tp05_c_7 c)%Q (fun _ : tp05_row => 0 # 1) as H3b.
  row_lt Hin (fun _ : tp05_row => (-2#10))%Q (fun c => tp05_c_3 c) as H3c.
  row_lt Hin (fun _ : tp05_row => (-185#100))%Q (fun c => tp05_c_4 c) as H4.
  row_lt Hin (fun c => tp05_c_4 c) (fun _ : tp05_row => (-1#1))%Q as H4b.
  row_lt Hin (fun c => tp05_c_13 c) (fun _ : tp05_row => (1#1000))%Q as H13.
  row_lt Hin (fun _ : tp05_row => (0#1000))%Q (fun c => tp05_c_13 c) as H13b.
  row_lt Hin (fun c => tp05_c_12 c) (fun _ : tp05_row => (6#10000))%Q as H12.
  row_lt Hin (fun _ : tp05_row => (0#1000))%Q (fun c => tp05_c_12 c) as H12b.
  row_lt Hin (fun c => tp05_c_8 c) (fun _ : tp05_row => (-1#1000))%Q as H8b.
  row_lt Hin (fun _ : tp05_row => (-6#1000))%Q (fun c => tp05_c_8 c) as H8.
  row_lt Hin (fun _ : tp05_row => (0#1000))%Q (fun c => tp05_c_6 c) as H6b.
  set (c3 := Q2R (tp05_c_3 c)) in *. set (c4 := Q2R (tp05_c_4 c)) in *. set (c5 := Q2R (tp05_c_5 c)) in *. set (c6 := Q2R (tp05_c_6 c)) in *. set (c7 := Q2R (tp05_c_7 c)) in *.
  set (c8 := Q2R (tp05_c_8 c)) in *. set (c12 := Q2R (tp05_c_12 c)) in *. set (c13 := Q2R (tp05_c_13 c)) in *.
  set (c1 := Q2R (tp05_c_1 c)). set (c2 := Q2R (tp05_c_2 c)). clearbody c1 c2 c3 c4 c5 c6 c7 c8 c12 c13. clear Hin EB.
  set (H := - c5 * exp (c6 * m)). set (phi := 2 * (c7 * t)).
  assert (0 < H <= 90) as HH.
  { unfold H. pose proof (exp_pos (c6 * m)). split; [nra|]. assert (exp (c6 * m) <= 90); [|nra].
    apply Rle_trans with (exp 4.465); [|interval with (i_prec 40)]. assert (c6 * m <= 4.465) as [L|L] by nra; [left; apply exp_increasing; exact L|rewrite L; lra]. }
  assert (Rabs phi <= 0.05) as HP by (unfold phi; apply Rabs_le; nra).
  match goal with |- context [c_sqrt ?z] => assert (z = (r * r + H * H * cos phi, H * H * sin phi)) as EZ end.
  { unfold c_exp, Cplus, Cmult, RtoC. cbn [Re Im fst snd]. replace (0 * 0 - c7 * t * 0) with 0 by ring.
    replace (c7 * 0 - 0 * t) with 0 by ring. replace (c7 * t + 0 * 0) with (c7 * t) by ring. rewrite !Rplus_0_l, !Rplus_0_r, !Rmult_0_l, !Rminus_0_r, ?Rplus_0_r.
    unfold phi. rewrite (cos_2a (c7 * t)), (sin_2a (c7 * t)). unfold H. f_equal; ring. }
  rewrite EZ. destruct (root r H phi Hr (proj1 HH) HP) as (RP & RA & RS). set (z := (r * r + H * H * cos phi, H * H * sin phi)) in *.
  assert (0 < c_abs z) as ZP by (unfold c_abs; apply sqrt_lt_R0; nra).
  (* log of the root: half the argument *)
  assert (c_arg (c_sqrt z) = c_arg z / 2) as AL.
  { assert (- 0.2 < c_arg z < 0.2) as RB by (apply Rabs_le_between in RA; lra). unfold c_arg at 1. unfold c_sqrt. cbn [Re Im fst snd].
    assert (0 < cos (c_arg z / 2)) as CP by (apply cos_gt_0; pose proof PI_RGT_0; pose proof PI2_3_2; lra).
    pose proof (sqrt_lt_R0 _ ZP) as SP. rewrite Rltb_true by (apply Rmult_lt_0_compat; assumption).
    replace (sqrt (c_abs z) * sin (c_arg z / 2) / (sqrt (c_abs z) * cos (c_arg z / 2))) with (tan (c_arg z / 2)) by (unfold tan; field; lra).
    apply atan_tan. pose proof PI2_3_2. lra. }
  unfold c_log, Cplus, Cmult, RtoC. cbn [Re Im fst snd]. rewrite AL. set (th := c_arg z) in *. set (im := sqrt (c_abs z) * sin (th / 2)) in *.
  unfold c_sqrt. cbn [Re Im fst snd]. fold th. fold im. clearbody th im. clear EZ AL ZP RP. clearbody z.
  match goal with |- -1 < ?e < 0 => replace e with (c3 * t + (c4 + c13 * m) * (th / 2) + (c8 + c12 * m) * im) by ring end.
  assert (Rabs phi = 2 * (Rabs c7 * t)) as EP by (unfold phi; rewrite !Rabs_mult, (Rabs_pos_eq 2), (Rabs_pos_eq t) by lra; ring).
  rewrite EP in RA, RS. clear EP HP phi. pose proof (Rabs_pos c7) as C0. set (a := Rabs c7) in *.
  assert (c3 + 2.45 * a < 0 /\ a < 0.021) as (K & Ka) by (unfold a, Rabs; destruct (Rcase_abs c7); lra).
  assert (Rabs (c4 + c13 * m) <= 1.85) as B4 by (apply Rabs_le; nra). assert (Rabs (c8 + c12 * m) <= 0.006) as B8 by (apply Rabs_le; nra).
  assert (Rabs (th / 2) <= 1.01 * (a * t)) as Bt by (unfold Rdiv; rewrite Rabs_mult, (Rabs_pos_eq (/ 2)) by lra; lra).
  assert (0 <= a * t) as P by nra.
  assert (Rabs im <= 91.8 * (a * t)) as Bi by nra.
  assert (Rabs ((c4 + c13 * m) * (th / 2)) <= 1.85 * (1.01 * (a * t))) as T1 by (rewrite Rabs_mult; apply Rmult_le_compat; try apply Rabs_pos; assumption).
  assert (Rabs ((c8 + c12 * m) * im) <= 0.006 * (91.8 * (a * t))) as T2 by (rewrite Rabs_mult; apply Rmult_le_compat; try apply Rabs_pos; assumption).
  apply Rabs_le_between in T1. apply Rabs_le_between in T2. assert (c3 * t + 2.45 * (a * t) < 0) as Z1 by (replace (c3 * t + 2.45 * (a * t)) with (- (- (c3 + 2.45 * a) * t)) by ring; apply Ropp_lt_gt_0_contravar, Rmult_lt_0_compat; lra).
  assert (-0.2 <= c3 * t) as Z2 by (apply Rle_trans with (-0.2 * t); [lra|apply Rmult_le_compat_r; lra]). assert (a * t <= 0.021) as Z3 by (apply Rle_trans with (0.021 * t); [apply Rmult_le_compat_r; lra|lra]).
  split; lra.
Qed.

(** ** C16, Python floats *)
(** Up to 8.5 nothing changes ... *)
Theorem C16_python_floats_up_to_8_5 : forall src m r, has_num src "mag" m -> has_num src "dist_rup" r -> m <= 8.5 ->
  exists g, result (tp05 src) = Ok g /\ result (tp05_py src) = Ok (TReal g).
Proof.
  intros src m r Hm Hr L. exists (tp05_inst m r). rewrite (tp05_construct src m r Hm Hr). split; [reflexivity|].
  unfold tp05_py. rewrite result_bind, (tp05_construct src m r Hm Hr). cbv beta iota. unfold tp05_inst. cbn [g_scen]. read_nums. rewrite Rltb_false by lra. reflexivity.
Qed.
Print Assumptions C16_python_floats_up_to_8_5.
(** ... above, a Python float magnitude silently turns every response into a complex number, with a
    non-zero imaginary part up to magnitude 9.5, while the standard deviations stay real. *)
Theorem C16_python_floats_above_8_5 : forall src m r, has_num src "mag" m -> has_num src "dist_rup" r -> 8.5 < m <= 9.5 -> 0 <= r ->
  exists g pga, result (tp05_py src) = Ok (TComplex g) /\
    List.length (cg_spec_accels g) = 13%nat /\ Forall (fun z => Im z < 0) (cg_spec_accels g) /\
    cg_pga g = Some pga /\ Im pga < 0 /\ List.length (cg_ln_stds g) = 13%nat /\ Forall fpos (cg_ln_stds g).
Proof.
  intros src m r Hm Hr L R0.
  assert (forall c, In c tp05_coeff -> Im (c_exp (tp05_ln_resp_c c m r)) < 0) as A.
  { intros c Hc. pose proof (row_imag c m r Hc L R0) as (B1 & B2). unfold c_exp. cbn [Im snd]. change (snd (tp05_ln_resp_c c m r)) with (Im (tp05_ln_resp_c c m r)).
    set (y := Im (tp05_ln_resp_c c m r)) in *. match goal with |- exp ?x * _ < 0 => pose proof (exp_pos x) as X; set (ex := exp x) in * end.
    assert (sin y < 0); [|nra]. apply sin_lt_0_var; [pose proof PI2_3_2; lra|exact B2]. }
  do 2 eexists. split.
  { unfold tp05_py. rewrite result_bind, (tp05_construct src m r Hm Hr). cbv beta iota. unfold tp05_inst. cbn [g_scen]. read_nums. rewrite Rltb_true by lra. reflexivity. }
  split; [reflexivity|]. split.
  { unfold cg_spec_accels. cbn [cg_ln_resp]. rewrite Forall_forall. intros z Hz. apply in_map_iff in Hz as (w & <- & Hw).
    change (In w (map (fun c => tp05_ln_resp_c c m r) (tl tp05_coeff))) in Hw. apply in_map_iff in Hw as (c & <- & Hc). apply A. right. exact Hc. }
  split; [reflexivity|]. split; [apply A; left; reflexivity|]. split; [reflexivity|].
  unfold cg_ln_stds. cbn [cg_ln_std]. change (Forall fpos (map (fun c => tp05_ln_std c (Fin m)) (tl tp05_coeff))).
  apply Forall_map_intro. intros c Hc. apply tp05_std_pos. right. exact Hc.
Qed.
Print Assumptions C16_python_floats_above_8_5.
Example C16_nonvacuous_python : exists src, has_num src "mag" 8.6 /\ has_num src "dist_rup" 20 /\ exists g, result (tp05_py src) = Ok (TComplex g).
Proof.
  exists [("mag", PNum (Fin 8.6)); ("dist_rup", PNum (Fin 20))]. split; [reflexivity|]. split; [reflexivity|].
  destruct (C16_python_floats_above_8_5 [("mag", PNum (Fin 8.6)); ("dist_rup", PNum (Fin 20))] 8.6 20) as (g & _ & H & _); try reflexivity; [lra|lra|]. exists g. exact H.
Qed.

(** ** C125: Atkinson & Boore (2006) at zero distance *)
Lemma Reqb_refl x : Reqb x x = true. Proof. unfold Reqb. destruct (Req_EM_T x x); [reflexivity|contradiction]. Qed.
Definition no_number (x : flt) : Prop := forall a, x <> Fin a.
Lemma nn_add_l x y : no_number x -> no_number (fadd x y).
Proof. intros H a. destruct x; [exfalso; apply (H r); reflexivity| | |]; destruct y; discriminate. Qed.
Lemma nn_add_r x y : no_number y -> no_number (fadd x y).
Proof. intros H a. destruct y; [exfalso; apply (H r); reflexivity| | |]; destruct x; discriminate. Qed.
Lemma nn_sub_l x b : no_number x -> no_number (fsub x (Fin b)).
Proof. intros H a. destruct x; [exfalso; apply (H r); reflexivity| | |]; discriminate. Qed.
Lemma nn_mul_inf x : no_number (fmul x NInf).
Proof. intros a. destruct x; cbn; try discriminate. unfold inf_signed. destruct (Rltb _ _); [discriminate|]. destruct (Rltb _ _); discriminate. Qed.
Lemma nn_log_pow x : no_number x -> no_number (flog (pow10 x)).
Proof.
  intros H a. pose proof ln10_pos as L. unfold pow10. destruct x; [exfalso; apply (H r); reflexivity| | |]; cbn; unfold inf_signed.
  - rewrite Rltb_true by lra. discriminate.
  - rewrite Rltb_false, Rltb_true by lra. cbn. rewrite Rltb_false by lra. rewrite Reqb_refl. discriminate.
  - discriminate.
Qed.
Lemma nn_not_pos x : no_number x -> ~ fpos (fexp x).
Proof. intros H (a & E & P). destruct x; [exact (H r eq_refl)|discriminate E| |discriminate E]. cbn in E. injection E as <-. lra. Qed.
Lemma ab06_ref_zero c m : no_number (ab06_ref c (Fin m) (Fin 0)).
Proof.
  unfold ab06_ref. cbv zeta. do 3 apply nn_add_l. apply nn_add_r.
  replace (fmin (flog10 (Fin 0)) (flog10 (Fin 70.0))) with NInf; [apply nn_mul_inf|].
  unfold flog10. rewrite Rltb_false by lra. rewrite Reqb_refl. rewrite Rltb_true by lra. reflexivity.
Qed.

(** A Python zero: ZeroDivisionError, whatever the rest. *)
Theorem C125_python_zero_distance_raises : forall src m v, ab06_scenario src m 0 v -> result (ab06_py src) = Ok ZeroDivisionError.
Proof.
  intros src m v (Hm & Hr & Hv). unfold ab06_py. rewrite result_bind.
  assert (result (model_init (gc_params ab06_class) src) = Ok (Scen [("mag", PNum (Fin m)); ("dist_rup", PNum (Fin 0)); ("v_s30", PNum (Fin v))] [])) as ->.
  { rewrite model_init_result' by reflexivity. unfold has_num in *. unfold ab06_class, NumP. cbn [gc_params checks p_name]. rewrite Hm, Hr, Hv, !chk_num. reflexivity. }
  cbv beta iota. read_nums. unfold py_div. cbn. rewrite Reqb_refl. reflexivity.
Qed.
Print Assumptions C125_python_zero_distance_raises.
(** Away from zero Python numbers and numpy scalars agree. *)
Theorem C125_elsewhere_the_same : forall src m r v g, ab06_scenario src m r v -> r <> 0 -> result (ab06 src) = Ok g -> result (ab06_py src) = Ok (Value g).
Proof.
  intros src m r v g (Hm & Hr & Hv) N E. unfold ab06_py. rewrite result_bind.
  assert (result (model_init (gc_params ab06_class) src) = Ok (Scen [("mag", PNum (Fin m)); ("dist_rup", PNum (Fin r)); ("v_s30", PNum (Fin v))] [])) as ->.
  { rewrite model_init_result' by reflexivity. unfold has_num in *. unfold ab06_class, NumP. cbn [gc_params checks p_name]. rewrite Hm, Hr, Hv, !chk_num. reflexivity. }
  cbv beta iota. read_nums. unfold py_div. cbn [feqb]. rewrite Reqb_false by exact N. rewrite result_bind, E. reflexivity.
Qed.
Print Assumptions C125_elsewhere_the_same.
(** A numpy zero: the model is built, and no acceleration, velocity or displacement is a positive number. *)
Theorem C125_numpy_zero_distance_gives_no_number : forall src m v, ab06_scenario src m 0 v ->
  exists g sa a b d, result (ab06 src) = Ok g /\ result (g_spec_accels g) = Ok sa /\ List.length sa = 24%nat /\ Forall (fun x => ~ fpos x) sa /\
    result (g_pga g) = Ok a /\ ~ fpos a /\ result (g_pgv g) = Ok b /\ ~ fpos b /\ result (g_pgd g) = Ok d /\ ~ fpos d.
Proof.
  intros src m v S.
  assert (exists resp, ab06_ln_resp (Fin m) (Fin 0) (Fin v) = ret resp /\ List.length resp = 27%nat /\ Forall no_number resp) as (resp & E & L & F).
  { unfold ab06_ln_resp. cbv zeta. set (rows := combine (if nonzero (Fin v) then ab06_bc_coeff else ab06_rock_coeff) ab06_periods).
    set (lr := map (ab06_log10_ref (Fin m) (Fin 0)) rows).
    assert (List.length lr = 27%nat) as Ll by (unfold lr, rows; rewrite map_length, combine_length; destruct (nonzero (Fin v)); reflexivity).
    assert (Forall no_number lr) as Fl.
    { unfold lr. rewrite Forall_forall. intros x Hx. apply in_map_iff in Hx as ((c & p) & <- & _). unfold ab06_log10_ref. cbn [fst snd]. apply nn_add_l, ab06_ref_zero. }
    clearbody lr. clear rows.
    assert (exists site, (if nonzero (Fin v) then bind (arr_get lr 2) (fun p => ret (map (ab06_site (Fin v) (pow10 p)) ab06_periods)) else ret (map (fun _ : flt => Fin 0) ab06_periods)) = ret site
       /\ List.length site = 27%nat) as (site & -> & Ls).
    { destruct (nonzero (Fin v)); [|eexists; split; [reflexivity|reflexivity]]. do 3 (destruct lr as [|? lr]; [discriminate Ll|]). eexists. split; [reflexivity|]. rewrite map_length. reflexivity. }
    eexists. split; [reflexivity|]. split; [rewrite map_length, combine_length, Ll, Ls; reflexivity|].
    rewrite Forall_forall in *. intros x Hx. apply in_map_iff in Hx as ((p & q) & <- & Hpq). apply in_combine_l in Hpq. cbn [fst snd].
    apply nn_log_pow. assert (exists b, flog10 (Fin 980.665) = Fin b) as (b & ->) by (eexists; unfold flog10; rewrite Rltb_true by lra; reflexivity).
    apply nn_sub_l, nn_add_l, Fl, Hpq. }
  assert (forall x, In x resp -> ~ fpos (fexp x)) as P by (intros x Hx; apply nn_not_pos; rewrite Forall_forall in F; apply F, Hx).
  exists (ab06_inst m 0 v resp). pose proof (ab06_construct src m 0 v resp S E) as E0. clear F E S.
  do 27 (destruct resp as [|? resp]; [discriminate L|]). destruct resp; [|discriminate L]. clear L.
  do 4 eexists. split; [exact E0|]. split; [reflexivity|]. split; [reflexivity|].
  split; [repeat (constructor; [apply P; cbn; tauto|]); constructor|]. split; [reflexivity|]. split; [apply P; cbn; tauto|].
  assert (forall x, In x [f; f0; f1] -> ~ fpos (fmul (fexp x) (Fin 1))) as P1.
  { intros x Hx (a & Ea & Pa). apply (P x); [cbn in *; tauto|]. destruct (fexp x) as [y| | |] eqn:Ey; cbn in Ea.
    - injection Ea as <-. exists y. split; [reflexivity|]. lra.
    - unfold inf_signed in Ea. rewrite Rltb_true in Ea by lra. discriminate Ea.
    - unfold inf_signed in Ea. rewrite Rltb_false, Rltb_true in Ea by lra. discriminate Ea.
    - discriminate Ea. }
  split; [reflexivity|]. split; [|split; [reflexivity|]].
  all: cbn [gc_pgv_scale gc_pgd_scale ab06_class g_class ab06_inst]; try (apply P1; cbn; tauto).
Qed.
Print Assumptions C125_numpy_zero_distance_gives_no_number.
Example C125_nonvacuous : ab06_scenario [("mag", PNum (Fin 6)); ("dist_rup", PNum (Fin 0)); ("v_s30", PNum (Fin 760))] 6 0 760.
Proof. repeat split. Qed.
