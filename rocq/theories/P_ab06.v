(** * Proofs for Atkinson & Boore (2006) *)
From Coquelicot Require Import Coquelicot.
From Interval Require Import Tactic.
From Coq Require Import List.
From Verif Require Import M_ab06 FrameworkProofs NpProofs Anal.
Open Scope R_scope.
Open Scope string_scope.
Open Scope list_scope.

Definition unfin (x : flt) : R := match x with Fin r => r | _ => 0 end.
Lemma unfin_finite x : finite x -> x = Fin (unfin x). Proof. intros [r ->]; reflexivity. Qed.

(** ** Real-valued specification *)
(** log10 of the response at the reference condition, Atkinson & Boore (2006) eq. 5. *)
Definition ab06_refR (c : ab06_row) (m r : R) : R :=
  Q2R (ab06_c_1 c) + Q2R (ab06_c_2 c) * m + Q2R (ab06_c_3 c) * (m * m)
  + (Q2R (ab06_c_4 c) + Q2R (ab06_c_5 c) * m) * Rmin (ln r / ln 10) (ln 70 / ln 10)
  + (Q2R (ab06_c_6 c) + Q2R (ab06_c_7 c) * m) * Rmax (ln (r / 140) / ln 10) 0
  + (Q2R (ab06_c_8 c) + Q2R (ab06_c_9 c) * m) * Rmax (ln (10 / r) / ln 10) 0
  + Q2R (ab06_c_10 c) * r.
(** slope of the non-linear site term as coded *)
Definition ab06_bnlR (v : R) (c : ab06s_row) : R :=
  if Rleb v 180 then Q2R (ab06s_b_1 c)
  else if Rleb v 300 then (Q2R (ab06s_b_1 c) - Q2R (ab06s_b_2 c)) * ln (v / 300) / ln (180 / 300)
  else if Rleb v 760 then Q2R (ab06s_b_2 c) * ln (v / 760) / ln (300 / 760)
  else 0.
Definition ab06_siteR (v p : R) (c : ab06s_row) : R :=
  (Q2R (ab06s_b_lin c) * ln (v / 760) + ab06_bnlR v c * ln (Rmax p 60 / 100)) / ln 10.
Definition ab06_stressR (m t : R) : R := unfin (ab06_stress (Fin m) (Fin t)).
Definition ab06_siteT (v p t : R) : R := unfin (ab06_site (Fin v) (Fin p) (Fin t)).

Lemma pow10_fin x : pow10 (Fin x) = Fin (exp (ln 10 * x)). Proof. reflexivity. Qed.
Lemma flog_pow10 x : flog (pow10 (Fin x)) = Fin (ln 10 * x).
Proof. rewrite pow10_fin, flog_fin by apply exp_pos. rewrite ln_exp. reflexivity. Qed.

Lemma ab06_ref_fin c m r : 0 < r -> ab06_ref c (Fin m) (Fin r) = Fin (ab06_refR c m r).
Proof.
  intros Hr. unfold ab06_ref, ab06_refR. fcbn. rewrite !fdiv_fin by lra.
  replace 10.0 with 10 by lra. replace 70.0 with 70 by lra. replace 140.0 with 140 by lra.
  rewrite !flog10_fin by (try lra; apply Rdiv_lt_0_compat; lra). fcbn. f_equal; ring.
Qed.

Lemma ab06_sf_fin c m : In c ab06_sf_coeff -> finite (ab06_sf_row (Fin m) c).
Proof.
  intros Hin. row_lt Hin (fun c => ab06f_m_1 c) (fun c => ab06f_m_h c) as H.
  unfold ab06_sf_row. unfold pow10. fcbn. rewrite !fdiv_fin by lra. fcbn. apply finite_fin.
Qed.
Lemma ab06_stress_fin m t : ab06_stress (Fin m) (Fin t) = Fin (ab06_stressR m t).
Proof.
  apply unfin_finite. unfold ab06_stress.
  destruct (np_interp_rows (fun c => Q2R (ab06f_period c)) ab06_sf_coeff t) as (c1 & c2 & w & _ & _ & _ & HF).
  - discriminate.
  - rewrite <- (map_map ab06f_period Q2R). apply incrQ_incr. vm_compute. reflexivity.
  - eexists. apply (HF (ab06_sf_row (Fin m)) (fun c => unfin (ab06_sf_row (Fin m) c))).
    intros c Hc. apply unfin_finite, ab06_sf_fin, Hc.
Qed.

Lemma ab06_site_row_fin v p c : 0 < v -> ab06_site_row (Fin v) (Fin p) c = Fin (ab06_siteR v p c).
Proof.
  intros Hv. unfold ab06_site_row, ab06_siteR, ab06_bnlR. fcbn.
  replace 180.0 with 180 by lra. replace 300.0 with 300 by lra. replace 760.0 with 760 by lra.
  replace 60.0 with 60 by lra. replace 100.0 with 100 by lra.
  rewrite pymax_fin. rewrite !fdiv_fin by lra.
  assert (0 < Rmax p 60 / 100) by (pose proof (Rmax_r p 60); lra).
  rewrite !flog_fin by (try lra; try assumption; apply Rdiv_lt_0_compat; lra).
  assert (L1 : ln (180/300) <> 0) by (pose proof (ln_neg_lt (180/300) ltac:(lra)); lra).
  assert (L2 : ln (300/760) <> 0) by (pose proof (ln_neg_lt (300/760) ltac:(lra)); lra).
  destruct (Rleb_spec v 180).
  - fcbn. rewrite flog10_fin by apply exp_pos. rewrite ln_exp. reflexivity.
  - rewrite (Rltb_true 180 v) by lra. destruct (Rleb_spec v 300); cbn [andb].
    + fcbn. rewrite fdiv_fin by exact L1. fcbn. rewrite flog10_fin by apply exp_pos. rewrite ln_exp. reflexivity.
    + rewrite (Rltb_true 300 v) by lra. destruct (Rleb_spec v 760); cbn [andb].
      * fcbn. rewrite fdiv_fin by exact L2. fcbn. rewrite flog10_fin by apply exp_pos. rewrite ln_exp. reflexivity.
      * fcbn. rewrite flog10_fin by apply exp_pos. rewrite ln_exp. reflexivity.
Qed.

(** At each period the site term is a fixed convex combination of two table rows. *)
Lemma ab06_site_comb t : exists c1 c2 w, In c1 ab06_site_coeff /\ In c2 ab06_site_coeff /\ 0 <= w <= 1 /\
  forall v p, 0 < v ->
    ab06_site (Fin v) (Fin p) (Fin t) = Fin (ab06_siteR v p c1 + w * (ab06_siteR v p c2 - ab06_siteR v p c1)).
Proof.
  destruct (np_interp_rows (fun c => Q2R (ab06s_period c)) ab06_site_coeff t) as (c1 & c2 & w & H1 & H2 & Hw & HF).
  - discriminate.
  - rewrite <- (map_map ab06s_period Q2R). apply incrQ_incr. vm_compute. reflexivity.
  - exists c1, c2, w. split; [exact H1|]. split; [exact H2|]. split; [exact Hw|].
    intros v p Hv. apply HF. intros c _. apply ab06_site_row_fin; exact Hv.
Qed.
Lemma ab06_site_fin v p t : 0 < v -> ab06_site (Fin v) (Fin p) (Fin t) = Fin (ab06_siteT v p t).
Proof.
  intros Hv. apply unfin_finite. destruct (ab06_site_comb t) as (c1 & c2 & w & _ & _ & _ & H).
  rewrite H by exact Hv. apply finite_fin.
Qed.
(** Exact at a period of the site table. *)
Lemma ab06_site_knot v p c : 0 < v -> In c ab06_site_coeff -> ab06_siteT v p (Q2R (ab06s_period c)) = ab06_siteR v p c.
Proof.
  intros Hv Hc. unfold ab06_siteT, ab06_site.
  rewrite (np_interp_knot (fun c => Q2R (ab06s_period c)) ab06_site_coeff c _ (ab06_siteR v p)).
  - reflexivity.
  - rewrite <- (map_map ab06s_period Q2R). apply incrQ_incr. vm_compute. reflexivity.
  - exact Hc.
  - intros c' _. apply ab06_site_row_fin; exact Hv.
Qed.

(** ** The response *)
Definition ab06_pga_row : ab06_row := nth 2 ab06_bc_coeff (Mk_ab06_row 0 0 0 0 0 0 0 0 0 0 0).
(** B/C peak acceleration, cm/s2 *)
Definition ab06_pga_bc (m r : R) : R := exp (ln 10 * (ab06_refR ab06_pga_row m r + ab06_stressR m 0)).
(** log10 of the response in cm/s2 (cm/s, cm for PGV, PGD) at v_s30 > 0 *)
Definition ab06_l10 (m r v : R) (c : ab06_row) : R :=
  ab06_refR c m r + ab06_stressR m (Q2R (ab06_period c)) + ab06_siteT v (ab06_pga_bc m r) (Q2R (ab06_period c)).

Lemma combine_map_self {A B} (f : A -> B) l : combine l (map f l) = map (fun x => (x, f x)) l.
Proof. induction l; cbn; congruence. Qed.
Lemma combine_map2 {A B C} (f : A -> B) (g : A -> C) l : combine (map f l) (map g l) = map (fun x => (f x, g x)) l.
Proof. induction l; cbn; congruence. Qed.

Lemma ab06_ln_resp_pos m r v : 0 < r -> 0 < v ->
  ab06_ln_resp (Fin m) (Fin r) (Fin v) =
  ret (map (fun c => Fin (ln 10 * (ab06_l10 m r v c - ln 980.665 / ln 10))) ab06_bc_coeff).
Proof.
  intros Hr Hv. unfold ab06_ln_resp.
  replace (nonzero (Fin v)) with true by (unfold nonzero; cbn; rewrite Reqb_false by lra; reflexivity).
  unfold ab06_periods. rewrite combine_map_self, !map_map.
  assert (E : map (fun x => ab06_log10_ref (Fin m) (Fin r) (x, qf (ab06_period x))) ab06_bc_coeff
        = map (fun x => Fin (ab06_refR x m r + ab06_stressR m (Q2R (ab06_period x)))) ab06_bc_coeff).
  { apply map_ext. intros c. unfold ab06_log10_ref; cbn [fst snd]. unfold qf.
    rewrite ab06_ref_fin, ab06_stress_fin by exact Hr. reflexivity. }
  rewrite E. clear E.
  assert (P : arr_get (map (fun x => Fin (ab06_refR x m r + ab06_stressR m (Q2R (ab06_period x)))) ab06_bc_coeff) 2
     = ret (Fin (ab06_refR ab06_pga_row m r + ab06_stressR m 0))).
  { unfold arr_get. rewrite py_nth_map. change (py_nth ab06_bc_coeff 2) with (Some ab06_pga_row). cbn [option_map].
    replace (Q2R (ab06_period ab06_pga_row)) with 0 by (unfold Q2R; cbn; lra). reflexivity. }
  rewrite P, bind_ret_l, bind_ret_l. rewrite (map_map _ (ab06_site _ _)), combine_map2, map_map. f_equal.
  apply map_ext. intros c. cbn [fst snd]. rewrite pow10_fin. fold (ab06_pga_bc m r).
  unfold qf. rewrite ab06_site_fin by exact Hv. rewrite flog10_fin by lra. fcbn. rewrite flog_pow10. reflexivity.
Qed.

(** v_s30 = 0 selects the hard-rock table and no site term. *)
Lemma ab06_ln_resp_zero m r : 0 < r ->
  ab06_ln_resp (Fin m) (Fin r) (Fin 0) =
  ret (map (fun c => Fin (ln 10 * (ab06_refR c m r + ab06_stressR m (Q2R (ab06_period c)) - ln 980.665 / ln 10))) ab06_rock_coeff).
Proof.
  intros Hr. unfold ab06_ln_resp.
  replace (nonzero (Fin 0)) with false by (unfold nonzero; cbn; rewrite Reqb_true by lra; reflexivity).
  rewrite bind_ret_l.
  replace ab06_periods with (map (fun c => qf (ab06_period c)) ab06_rock_coeff) by reflexivity.
  rewrite combine_map_self, !map_map. rewrite combine_map2, map_map. f_equal.
  apply map_ext. intros c. cbn [fst snd]. unfold ab06_log10_ref; cbn [fst snd]. unfold qf.
  rewrite ab06_ref_fin, ab06_stress_fin by exact Hr. rewrite flog10_fin by lra. fcbn. rewrite flog_pow10. f_equal. ring.
Qed.

Definition ab06_scenario (src : dict) (m r v : R) : Prop :=
  has_num src "mag" m /\ has_num src "dist_rup" r /\ has_num src "v_s30" v.
Definition ab06_inst (m r v : R) (resp : list flt) : gmm :=
  GMM ab06_class (Scen [("mag", PNum (Fin m)); ("dist_rup", PNum (Fin r)); ("v_s30", PNum (Fin v))] [])
    resp (Some (map (fun _ => Fin 0.30) ab06_periods)).

Lemma ab06_construct src m r v resp : ab06_scenario src m r v ->
  ab06_ln_resp (Fin m) (Fin r) (Fin v) = ret resp -> result (ab06 src) = Ok (ab06_inst m r v resp).
Proof.
  intros (Hm & Hr & Hv) H. unfold ab06. construct ab06_class. read_nums. rewrite H. reflexivity.
Qed.

Definition ab06_ln (m r v : R) (c : ab06_row) : R := ln 10 * (ab06_l10 m r v c - ln 980.665 / ln 10).
Definition ab06_row0 := Mk_ab06_row 0 0 0 0 0 0 0 0 0 0 0.
Lemma ab06_api src m r v : ab06_scenario src m r v -> 0 < r -> 0 < v ->
  exists g, result (ab06 src) = Ok g /\
    result (g_spec_accels g) = Ok (map (fun c => fexp (Fin (ab06_ln m r v c))) (skipn 3 ab06_bc_coeff)) /\
    result (g_pga g) = Ok (fexp (Fin (ab06_ln m r v ab06_pga_row))) /\
    result (g_pgv g) = Ok (fexp (Fin (ab06_ln m r v (nth 1 ab06_bc_coeff ab06_row0)))) /\
    result (g_pgd g) = Ok (fexp (Fin (ab06_ln m r v (nth 0 ab06_bc_coeff ab06_row0)))) /\
    result (g_ln_stds g) = Ok (map (fun _ => Fin 0.30) (skipn 3 ab06_bc_coeff)).
Proof.
  intros S Hr Hv.
  exists (ab06_inst m r v (map (fun c => Fin (ab06_ln m r v c)) ab06_bc_coeff)).
  split; [apply ab06_construct; [exact S|]; apply ab06_ln_resp_pos; assumption|].
  split; [apply (spec_accels_map ab06_class _ (fun c => Fin (ab06_ln m r v c))); reflexivity|].
  split; [apply (pga_map ab06_class _ (fun c => Fin (ab06_ln m r v c))) with (i := 2%Z); reflexivity|].
  split.
  { unfold ab06_inst. rewrite (pgv_map ab06_class _ (fun c => Fin (ab06_ln m r v c)) ab06_bc_coeff _ 1%Z (nth 1 ab06_bc_coeff ab06_row0) eq_refl eq_refl).
    cbn [gc_pgv_scale ab06_class fexp fmul]. do 2 f_equal. ring. }
  split.
  { unfold g_pgd, g_resp, arr_get; cbn [g_ln_resp g_class ab06_inst]. cbn [gc_pgd ab06_class]. rewrite py_nth_map.
    change (py_nth ab06_bc_coeff 0) with (Some (nth 0 ab06_bc_coeff ab06_row0)). cbn. do 2 f_equal. ring. }
  reflexivity.
Qed.

Lemma ab06_api_zero src m r : ab06_scenario src m r 0 -> 0 < r ->
  exists g, result (ab06 src) = Ok g /\
    result (g_spec_accels g) = Ok (map (fun c => fexp (Fin (ln 10 * (ab06_refR c m r + ab06_stressR m (Q2R (ab06_period c)) - ln 980.665 / ln 10)))) (skipn 3 ab06_rock_coeff)) /\
    result (g_pga g) = Ok (fexp (Fin (ln 10 * (ab06_refR (nth 2 ab06_rock_coeff ab06_row0) m r + ab06_stressR m (Q2R 0) - ln 980.665 / ln 10)))).
Proof.
  intros S Hr. eexists.
  split; [eapply ab06_construct; [exact S|]; apply ab06_ln_resp_zero; assumption|].
  split; [apply (spec_accels_map ab06_class _ (fun c => Fin (ln 10 * (ab06_refR c m r + ab06_stressR m (Q2R (ab06_period c)) - ln 980.665 / ln 10)))); reflexivity|].
  unfold ab06_inst. rewrite (pga_map ab06_class _ (fun c => Fin (ln 10 * (ab06_refR c m r + ab06_stressR m (Q2R (ab06_period c)) - ln 980.665 / ln 10))) ab06_rock_coeff _ 2%Z (nth 2 ab06_rock_coeff ab06_row0) eq_refl eq_refl).
  reflexivity.
Qed.

(** ** Consequences *)
Lemma ab06_positive src m r v : ab06_scenario src m r v -> 0 < r -> 0 < v ->
  exists g sa sd a b d, result (ab06 src) = Ok g /\
    result (g_spec_accels g) = Ok sa /\ List.length sa = 24%nat /\ Forall fpos sa /\
    result (g_pga g) = Ok a /\ fpos a /\ result (g_pgv g) = Ok b /\ fpos b /\ result (g_pgd g) = Ok d /\ fpos d /\
    result (g_ln_stds g) = Ok sd /\ sd = repeat (Fin 0.30) 24.
Proof.
  intros S Hr Hv. destruct (ab06_api src m r v S Hr Hv) as (g & Hg & Hsa & Ha & Hb & Hd & Hsd).
  exists g. do 5 eexists. split; [exact Hg|]. split; [exact Hsa|]. split; [reflexivity|].
  split; [apply Forall_map_intro; intros c _; apply fpos_exp, finite_fin|].
  split; [exact Ha|]. split; [apply fpos_exp, finite_fin|].
  split; [exact Hb|]. split; [apply fpos_exp, finite_fin|].
  split; [exact Hd|]. split; [apply fpos_exp, finite_fin|]. split; [exact Hsd|]. reflexivity.
Qed.

Lemma ab06_siteR_760 p c : ab06_siteR 760 p c = 0.
Proof.
  unfold ab06_siteR, ab06_bnlR. rewrite (Rleb_false 760 180), (Rleb_false 760 300), (Rleb_true 760 760) by lra.
  replace (760/760) with 1 by lra. rewrite ln_1. field.
  pose proof (ln_neg_lt (300/760) ltac:(lra)). pose proof ln10_pos. split; lra.
Qed.
Lemma ab06_siteT_760 p t : ab06_siteT 760 p t = 0.
Proof.
  unfold ab06_siteT. destruct (ab06_site_comb t) as (c1 & c2 & w & _ & _ & _ & H).
  rewrite H by lra. cbn [unfin]. rewrite !ab06_siteR_760. ring.
Qed.
Lemma ab06_siteR_above v p c : 760 <= v -> ab06_siteR v p c = Q2R (ab06s_b_lin c) * (ln (v / 760) / ln 10).
Proof.
  intros Hv. destruct (Req_dec v 760) as [->|Hne].
  - rewrite ab06_siteR_760. replace (760/760) with 1 by lra. rewrite ln_1. pose proof ln10_pos. field. lra.
  - unfold ab06_siteR, ab06_bnlR. rewrite !Rleb_false by lra. pose proof ln10_pos. field. lra.
Qed.
(** Interpolated linear site slope. *)
Lemma ab06_siteT_above t : exists B, -0.8 <= B <= -0.2 /\ forall v p, 760 <= v -> ab06_siteT v p t = B * (ln (v / 760) / ln 10).
Proof.
  destruct (ab06_site_comb t) as (c1 & c2 & w & H1 & H2 & Hw & H).
  exists (Q2R (ab06s_b_lin c1) + w * (Q2R (ab06s_b_lin c2) - Q2R (ab06s_b_lin c1))). split.
  - row_le H1 (fun c => ab06s_b_lin c) (fun _ : ab06s_row => -2 # 10) as A1.
    row_le H2 (fun c => ab06s_b_lin c) (fun _ : ab06s_row => -2 # 10) as A2.
    row_le H1 (fun _ : ab06s_row => -8 # 10) (fun c => ab06s_b_lin c) as A3.
    row_le H2 (fun _ : ab06s_row => -8 # 10) (fun c => ab06s_b_lin c) as A4.
    split; nra.
  - intros v p Hv. unfold ab06_siteT. rewrite H by lra. cbn [unfin]. rewrite !ab06_siteR_above by exact Hv. ring.
Qed.

(** Stress adjustment: between 0 and 0.4 log10 units. *)
Lemma ab06_sf_bounds c m : In c ab06_sf_coeff -> 0 <= unfin (ab06_sf_row (Fin m) c) <= 0.4.
Proof.
  intros Hin. row_lt Hin (fun c => ab06f_m_1 c) (fun c => ab06f_m_h c) as H.
  row_lt Hin (fun _ : ab06f_row => 0#1) (fun c => ab06f_delta c) as H1.
  row_le Hin (fun c => ab06f_delta c) (fun _ : ab06f_row => 15#100) as H2.
  unfold ab06_sf_row, pow10. fcbn. rewrite !fdiv_fin by lra. fcbn. cbn [unfin].
  set (e := exp _). assert (He : 0 < e) by apply exp_pos.
  set (q := _ / (Q2R (ab06f_m_h c) - _)).
  assert (Hq : 0 <= q).
  { unfold q. apply Rmult_le_pos; [apply Rmult_le_pos; [lra|apply Rmax_r]|left; apply Rinv_0_lt_compat; lra]. }
  assert (A : 0 <= Rmin 2.0 (e / 140.0) <= 2).
  { split; [apply Rmin_glb; [lra|left; apply Rdiv_lt_0_compat; lra]|eapply Rle_trans; [apply Rmin_l|lra]]. }
  assert (B : 0 <= Rmin (Q2R (ab06f_delta c) + 0.05) (0.05 + q) <= 0.2).
  { split; [apply Rmin_glb; lra|eapply Rle_trans; [apply Rmin_l|lra]]. }
  nra.
Qed.
Lemma ab06_stress_bounds m t : 0 <= ab06_stressR m t <= 0.4.
Proof.
  unfold ab06_stressR, ab06_stress.
  destruct (np_interp_rows (fun c => Q2R (ab06f_period c)) ab06_sf_coeff t) as (c1 & c2 & w & H1 & H2 & Hw & HF).
  - discriminate.
  - rewrite <- (map_map ab06f_period Q2R). apply incrQ_incr. vm_compute. reflexivity.
  - unfold qf. rewrite (HF (ab06_sf_row (Fin m)) (fun c => unfin (ab06_sf_row (Fin m) c)))
      by (intros c Hc; apply unfin_finite, ab06_sf_fin, Hc).
    cbn [unfin]. pose proof (ab06_sf_bounds c1 m H1). pose proof (ab06_sf_bounds c2 m H2).
    set (a := unfin (ab06_sf_row (Fin m) c1)) in *. set (b := unfin (ab06_sf_row (Fin m) c2)) in *. split; nra.
Qed.

Lemma exp_l10 x : exp (ln 10 * (x - ln 980.665 / ln 10)) = Rpower 10 x / 980.665.
Proof.
  pose proof ln10_pos. replace (ln 10 * (x - ln 980.665 / ln 10)) with (x * ln 10 + - ln 980.665) by (field; lra).
  rewrite exp_plus, exp_Ropp, exp_ln by lra. reflexivity.
Qed.

Lemma ab06_l10_760 m r c : ab06_l10 m r 760 c = ab06_refR c m r + ab06_stressR m (Q2R (ab06_period c)).
Proof.
  unfold ab06_l10. pose proof (ab06_siteT_760 (ab06_pga_bc m r) (Q2R (ab06_period c))) as E. rewrite E. ring.
Qed.
Lemma ab06_l10_above c : exists B, -0.8 <= B <= -0.2 /\ forall m r v, 760 <= v -> ab06_l10 m r v c = ab06_l10 m r 760 c + B * (ln (v / 760) / ln 10).
Proof.
  destruct (ab06_siteT_above (Q2R (ab06_period c))) as (B & HB & H). exists B. split; [exact HB|].
  intros m r v Hv. rewrite ab06_l10_760. unfold ab06_l10.
  specialize (H v (ab06_pga_bc m r) Hv). rewrite H. ring.
Qed.
Opaque ab06_siteT ab06_stressR ab06_refR ab06_l10.
(** Peak values at the reference velocity: all three divided by gravity in cm/s2. *)
Lemma ab06_peaks_over_gravity : exists S : R -> R -> R, (forall m t, 0 <= S m t <= 0.4) /\
  forall src m r, ab06_scenario src m r 760 -> 0 < r ->
  exists g, result (ab06 src) = Ok g /\
   result (g_pga g) = Ok (Fin (Rpower 10 (ab06_refR (nth 2 ab06_bc_coeff ab06_row0) m r + S m 0) / 980.665)) /\
   result (g_pgv g) = Ok (Fin (Rpower 10 (ab06_refR (nth 1 ab06_bc_coeff ab06_row0) m r + S m (-1)) / 980.665)) /\
   result (g_pgd g) = Ok (Fin (Rpower 10 (ab06_refR (nth 0 ab06_bc_coeff ab06_row0) m r + S m (-2)) / 980.665)).
Proof.
  exists ab06_stressR. split; [apply ab06_stress_bounds|]. intros src m r HS Hr.
  destruct (ab06_api src m r 760 HS Hr ltac:(lra)) as (g & Hg & _ & Ha & Hb & Hd & _).
  exists g. split; [exact Hg|]. rewrite Ha, Hb, Hd. cbn [fexp]. unfold ab06_ln. clear Ha Hb Hd Hg HS.
  split; [|split]; rewrite exp_l10, ab06_l10_760.
  - replace (Q2R (ab06_period ab06_pga_row)) with 0 by (unfold Q2R; cbn; lra). reflexivity.
  - replace (Q2R (ab06_period (nth 1 ab06_bc_coeff ab06_row0))) with (-1) by (unfold Q2R; cbn; lra). reflexivity.
  - replace (Q2R (ab06_period (nth 0 ab06_bc_coeff ab06_row0))) with (-2) by (unfold Q2R; cbn; lra). reflexivity.
Qed.

(** Hard-rock coefficients only for v_s30 = 0; at v_s30 >= 760 the B/C table with a linear slope. *)
Lemma ab06_velocity_above : exists B : list R, List.length B = 24%nat /\ Forall (fun b => -0.8 <= b <= -0.2) B /\
  forall src src0 m r v, ab06_scenario src m r v -> ab06_scenario src0 m r 760 -> 0 < r -> 760 <= v ->
  exists g g0 sa sa0, result (ab06 src) = Ok g /\ result (ab06 src0) = Ok g0 /\
    result (g_spec_accels g) = Ok sa /\ result (g_spec_accels g0) = Ok sa0 /\
    sa = map (fun ab => fmul (fst ab) (Fin (exp (snd ab * ln (v / 760))))) (combine sa0 B).
Proof.
  assert (E : exists f : ab06_row -> R, forall c, -0.8 <= f c <= -0.2 /\ forall m r v, 760 <= v -> ab06_l10 m r v c = ab06_l10 m r 760 c + f c * (ln (v / 760) / ln 10)).
  { exists (fun c => ab06_l10 0 1 (760 * 10) c - ab06_l10 0 1 760 c). intros c. destruct (ab06_l10_above c) as (B & HB & H).
    assert (EB : ab06_l10 0 1 (760 * 10) c - ab06_l10 0 1 760 c = B).
    { rewrite (H 0 1 (760 * 10)) by lra. replace (760 * 10 / 760) with 10 by lra. pose proof ln10_pos. field. lra. }
    rewrite EB. split; [exact HB|exact H]. }
  destruct E as (f & Hf).
  exists (map f (skipn 3 ab06_bc_coeff)).
  split; [reflexivity|]. split; [apply Forall_map_intro; intros c _; apply Hf|].
  intros src src0 m r v HS HS0 Hr Hv.
  destruct (ab06_api src m r v HS Hr ltac:(lra)) as (g & Hg & Hsa & _).
  destruct (ab06_api src0 m r 760 HS0 Hr ltac:(lra)) as (g0 & Hg0 & Hsa0 & _).
  exists g, g0. do 2 eexists. split; [exact Hg|]. split; [exact Hg0|]. split; [exact Hsa|]. split; [exact Hsa0|].
  rewrite combine_map2, map_map. apply map_ext. intros c. cbn [fst snd fexp fmul]. f_equal.
  rewrite <- exp_plus. f_equal. unfold ab06_ln.
  destruct (Hf c) as [_ E]. rewrite (E m r v) by exact Hv. pose proof ln10_pos. field. lra.
Qed.

Lemma ab06_zero_is_rock : exists S : R -> R -> R, (forall m t, 0 <= S m t <= 0.4) /\
  forall src src0 m r, ab06_scenario src m r 0 -> ab06_scenario src0 m r 760 -> 0 < r ->
  exists g g0, result (ab06 src) = Ok g /\ result (ab06 src0) = Ok g0 /\
   result (g_spec_accels g) = Ok (map (fun c => Fin (Rpower 10 (ab06_refR c m r + S m (Q2R (ab06_period c))) / 980.665)) (skipn 3 ab06_rock_coeff)) /\
   result (g_spec_accels g0) = Ok (map (fun c => Fin (Rpower 10 (ab06_refR c m r + S m (Q2R (ab06_period c))) / 980.665)) (skipn 3 ab06_bc_coeff)).
Proof.
  exists ab06_stressR. split; [apply ab06_stress_bounds|]. intros src src0 m r HS HS0 Hr.
  destruct (ab06_api_zero src m r HS Hr) as (g & Hg & Hsa & _).
  destruct (ab06_api src0 m r 760 HS0 Hr ltac:(lra)) as (g0 & Hg0 & Hsa0 & _).
  exists g, g0. split; [exact Hg|]. split; [exact Hg0|]. rewrite Hsa, Hsa0. split; f_equal; apply map_ext; intros c.
  - cbn [fexp]. rewrite exp_l10. reflexivity.
  - cbn [fexp]. unfold ab06_ln. rewrite exp_l10, ab06_l10_760. reflexivity.
Qed.

Lemma ab06_missing_vs30 src m r : has_num src "mag" m -> has_num src "dist_rup" r -> absent src "v_s30" ->
  result (ab06 src) = Raise EValue.
Proof. intros Hm Hr Hv. unfold ab06. construct ab06_class. reflexivity. Qed.

(** ** Jumps of the PGA in v_s30 *)
Definition ab06_site_pga : ab06s_row := nth 1 ab06_site_coeff (Mk_ab06s_row 0 0 0 0).
Lemma ab06_pga_ln src m r v : ab06_scenario src m r v -> 0 < r -> 0 < v ->
  exists g, result (ab06 src) = Ok g /\
    result (g_pga g) = Ok (Fin (ab06_pga_bc m r / 980.665 *
      exp (Q2R (ab06s_b_lin ab06_site_pga) * ln (v / 760)
           + ab06_bnlR v ab06_site_pga * ln (Rmax (ab06_pga_bc m r) 60 / 100)))).
Proof.
  intros HS Hr Hv. destruct (ab06_api src m r v HS Hr Hv) as (g & Hg & _ & Ha & _).
  exists g. split; [exact Hg|]. rewrite Ha. cbn [fexp]. do 2 f_equal.
  unfold ab06_ln. Transparent ab06_l10. unfold ab06_l10. Opaque ab06_l10.
  replace (Q2R (ab06_period ab06_pga_row)) with (Q2R (ab06s_period ab06_site_pga)) by (unfold Q2R; cbn; lra).
  rewrite ab06_site_knot by (try exact Hv; right; left; reflexivity).
  unfold ab06_siteR. replace (Q2R (ab06s_period ab06_site_pga)) with 0 by (unfold Q2R; cbn; lra).
  set (X := _ * ln (v/760) + _).
  replace (ln 10 * (_ - ln 980.665 / ln 10))
    with (ln 10 * (ab06_refR ab06_pga_row m r + ab06_stressR m 0) + (X + - ln 980.665)) by (pose proof ln10_pos; field; lra).
  rewrite !exp_plus, exp_Ropp, exp_ln by lra. unfold ab06_pga_bc. field. lra.
Qed.

Lemma jump_dist a K t : 0 <= t -> t * (Rabs K + 1) <= Rabs a / 2 -> Rabs a / 2 <= Rabs (a + t * K).
Proof.
  intros Ht H. assert (Rabs (t * K) <= Rabs a / 2).
  { rewrite Rabs_mult, (Rabs_pos_eq t) by exact Ht. pose proof (Rabs_pos K). nra. }
  pose proof (Rabs_triang_inv a (- (t * K))) as T. rewrite Rabs_Ropp in T.
  replace (a - - (t * K)) with (a + t * K) in T by ring. lra.
Qed.

(** A limit point argument common to both hinges. *)
Lemma ab06_jump (h top : R) (a K : R) (D : R -> R) : 0 < h -> h < top -> a <> 0 ->
  (forall t, 0 < t -> h * exp t <= top -> D (h * exp t) = a + t * K) ->
  exists e, 0 < e /\ forall d, 0 < d -> exists v, h < v < h + d /\ v <= top /\ e <= Rabs (D v).
Proof.
  intros Hh Htop Ha HD. assert (0 < Rabs a) by (apply Rabs_pos_lt; exact Ha).
  exists (Rabs a / 2). split; [lra|]. intros d Hd.
  assert (L1 : 0 < ln (1 + d / h)) by (apply ln_pos_lt; pose proof (Rdiv_lt_0_compat d h Hd Hh); lra).
  assert (L2 : 0 < ln (top / h)).
  { apply ln_pos_lt. apply Rmult_lt_reg_r with h; [exact Hh|]. unfold Rdiv. rewrite Rmult_assoc, Rinv_l by lra. lra. }
  pose proof (Rabs_pos K) as HK.
  set (t0 := Rabs a / 2 / (Rabs K + 1)).
  assert (T0 : 0 < t0) by (apply Rdiv_lt_0_compat; lra).
  set (t := Rmin t0 (Rmin (ln (1 + d / h) / 2) (ln (top / h) / 2))).
  assert (Ht : 0 < t) by (unfold t; repeat apply Rmin_glb_lt; lra).
  assert (B0 : t <= t0) by apply Rmin_l.
  assert (B1 : t <= ln (1 + d/h) / 2) by (eapply Rle_trans; [apply Rmin_r|apply Rmin_l]).
  assert (B2 : t <= ln (top / h) / 2) by (eapply Rle_trans; [apply Rmin_r|apply Rmin_r]).
  assert (E1 : h * exp t < h + d).
  { replace (h + d) with (h * (1 + d / h)) by (field; lra). apply Rmult_lt_compat_l; [exact Hh|].
    rewrite <- (exp_ln (1 + d/h)) by (pose proof (Rdiv_lt_0_compat d h Hd Hh); lra). apply exp_increasing. lra. }
  assert (E2 : h * exp t <= top).
  { replace top with (h * (top / h)) by (field; lra). apply Rmult_le_compat_l; [lra|].
    rewrite <- (exp_ln (top / h)) by (apply Rdiv_lt_0_compat; lra). apply exp_le_mono. lra. }
  exists (h * exp t). split; [split|split].
  - rewrite <- (Rmult_1_r h) at 1. apply Rmult_lt_compat_l; [exact Hh|]. rewrite <- exp_0. apply exp_increasing; lra.
  - exact E1.
  - exact E2.
  - rewrite HD by assumption. apply jump_dist; [lra|].
    apply Rle_trans with (t0 * (Rabs K + 1)); [apply Rmult_le_compat_r; lra|]. right. unfold t0. field. lra.
Qed.

Lemma ab06_pga_diff m r v1 v2 src1 src2 : ab06_scenario src1 m r v1 -> ab06_scenario src2 m r v2 -> 0 < r -> 0 < v1 -> 0 < v2 ->
  exists g1 g2 p1 p2, result (ab06 src1) = Ok g1 /\ result (ab06 src2) = Ok g2 /\
    result (g_pga g1) = Ok (Fin p1) /\ result (g_pga g2) = Ok (Fin p2) /\ 0 < p1 /\ 0 < p2 /\
    ln p2 - ln p1 = Q2R (ab06s_b_lin ab06_site_pga) * (ln (v2 / 760) - ln (v1 / 760))
       + (ab06_bnlR v2 ab06_site_pga - ab06_bnlR v1 ab06_site_pga) * ln (Rmax (ab06_pga_bc m r) 60 / 100).
Proof.
  intros S1 S2 Hr H1 H2.
  destruct (ab06_pga_ln src1 m r v1 S1 Hr H1) as (g1 & G1 & P1).
  destruct (ab06_pga_ln src2 m r v2 S2 Hr H2) as (g2 & G2 & P2).
  assert (B : 0 < ab06_pga_bc m r / 980.665) by (apply Rdiv_lt_0_compat; [apply exp_pos|lra]).
  exists g1, g2. do 2 eexists. split; [exact G1|]. split; [exact G2|]. split; [exact P1|]. split; [exact P2|].
  split; [apply Rmult_lt_0_compat; [exact B|apply exp_pos]|].
  split; [apply Rmult_lt_0_compat; [exact B|apply exp_pos]|].
  rewrite !ln_mult by (exact B || apply exp_pos). rewrite !ln_exp. ring.
Qed.

Lemma ln_scale h t x : 0 < h -> 0 < x -> ln (h * exp t / x) = ln (h / x) + t.
Proof.
  intros Hh Hx. replace (h * exp t / x) with (h / x * exp t) by (field; lra).
  rewrite ln_mult, ln_exp by (try apply exp_pos; apply Rdiv_lt_0_compat; lra). reflexivity.
Qed.
Lemma exp_gt_1 t : 0 < t -> 1 < exp t.
Proof. intros H. rewrite <- exp_0. apply exp_increasing; lra. Qed.

Lemma ab06_jump_300 m r : 0 < r -> ln (Rmax (ab06_pga_bc m r) 60 / 100) <> 0 ->
  exists e, 0 < e /\ forall d, 0 < d -> exists v, 300 < v < 300 + d /\
    forall src1 src2, ab06_scenario src1 m r 300 -> ab06_scenario src2 m r v ->
    exists g1 g2 p1 p2, result (ab06 src1) = Ok g1 /\ result (ab06 src2) = Ok g2 /\
      result (g_pga g1) = Ok (Fin p1) /\ result (g_pga g2) = Ok (Fin p2) /\ 0 < p1 /\ 0 < p2 /\ e <= Rabs (ln p2 - ln p1).
Proof.
  intros Hr HL. set (L := ln (Rmax (ab06_pga_bc m r) 60 / 100)) in *.
  set (bl := Q2R (ab06s_b_lin ab06_site_pga)). set (b1 := Q2R (ab06s_b_1 ab06_site_pga)). set (b2 := Q2R (ab06s_b_2 ab06_site_pga)).
  assert (Hb2 : b2 <> 0) by (unfold b2, Q2R; cbn; lra).
  pose proof (ln_neg_lt (300/760) ltac:(lra)) as N1. pose proof (ln_neg_lt (180/300) ltac:(lra)) as N2.
  destruct (ab06_jump 300 760 (b2 * L) (bl + b2 * L / ln (300/760))
    (fun v => bl * (ln (v / 760) - ln (300 / 760)) + (ab06_bnlR v ab06_site_pga - ab06_bnlR 300 ab06_site_pga) * L))
    as (e & He & H); try lra.
  { apply Rmult_integral_contrapositive_currified; assumption. }
  { intros t Ht Hle. pose proof (exp_gt_1 t Ht). unfold ab06_bnlR.
    rewrite (Rleb_false (300 * exp t) 180), (Rleb_false (300 * exp t) 300), (Rleb_true (300 * exp t) 760) by lra.
    rewrite (Rleb_false 300 180), (Rleb_true 300 300) by lra.
    rewrite (ln_scale 300 t 760) by lra. replace (300/300) with 1 by lra. rewrite ln_1. fold b1 b2. field. lra. }
  exists e. split; [exact He|]. intros d Hd. destruct (H d Hd) as (v & Hv & Hv7 & HD). exists v. split; [exact Hv|].
  intros src1 src2 S1 S2. destruct (ab06_pga_diff m r 300 v src1 src2 S1 S2 Hr ltac:(lra) ltac:(lra)) as (g1 & g2 & p1 & p2 & A1 & A2 & A3 & A4 & A5 & A6 & A7).
  exists g1, g2, p1, p2. rewrite A7. repeat (split; [assumption|]). exact HD.
Qed.

Lemma ab06_jump_180 m r : 0 < r -> ln (Rmax (ab06_pga_bc m r) 60 / 100) <> 0 ->
  exists e, 0 < e /\ forall d, 0 < d -> exists v, 180 < v < 180 + d /\
    forall src1 src2, ab06_scenario src1 m r 180 -> ab06_scenario src2 m r v ->
    exists g1 g2 p1 p2, result (ab06 src1) = Ok g1 /\ result (ab06 src2) = Ok g2 /\
      result (g_pga g1) = Ok (Fin p1) /\ result (g_pga g2) = Ok (Fin p2) /\ 0 < p1 /\ 0 < p2 /\ e <= Rabs (ln p2 - ln p1).
Proof.
  intros Hr HL. set (L := ln (Rmax (ab06_pga_bc m r) 60 / 100)) in *.
  set (bl := Q2R (ab06s_b_lin ab06_site_pga)). set (b1 := Q2R (ab06s_b_1 ab06_site_pga)). set (b2 := Q2R (ab06s_b_2 ab06_site_pga)).
  assert (Hb2 : b2 <> 0) by (unfold b2, Q2R; cbn; lra).
  pose proof (ln_neg_lt (300/760) ltac:(lra)) as N1. pose proof (ln_neg_lt (180/300) ltac:(lra)) as N2.
  destruct (ab06_jump 180 300 (- b2 * L) (bl + (b1 - b2) * L / ln (180/300))
    (fun v => bl * (ln (v / 760) - ln (180 / 760)) + (ab06_bnlR v ab06_site_pga - ab06_bnlR 180 ab06_site_pga) * L))
    as (e & He & H); try lra.
  { apply Rmult_integral_contrapositive_currified; lra. }
  { intros t Ht Hle. pose proof (exp_gt_1 t Ht). unfold ab06_bnlR.
    rewrite (Rleb_false (180 * exp t) 180), (Rleb_true (180 * exp t) 300) by lra.
    rewrite (Rleb_true 180 180) by lra.
    rewrite !(ln_scale 180 t) by lra. fold b1 b2. field. lra. }
  exists e. split; [exact He|]. intros d Hd. destruct (H d Hd) as (v & Hv & Hv7 & HD). exists v. split; [exact Hv|].
  intros src1 src2 S1 S2. destruct (ab06_pga_diff m r 180 v src1 src2 S1 S2 Hr ltac:(lra) ltac:(lra)) as (g1 & g2 & p1 & p2 & A1 & A2 & A3 & A4 & A5 & A6 & A7).
  exists g1, g2, p1, p2. rewrite A7. repeat (split; [assumption|]). exact HD.
Qed.

(** ** Decay with distance *)
Lemma ab06_ref_decr c m r1 r2 : In c ab06_bc_coeff -> 2 <= m <= 8.5 -> 0 < r1 -> r1 < r2 ->
  ab06_refR c m r2 < ab06_refR c m r1.
Proof.
  intros Hin Hm H1 H12. Transparent ab06_refR. unfold ab06_refR. Opaque ab06_refR. pose proof ln10_pos as HL.
  assert (I : 0 < / ln 10) by (apply Rinv_0_lt_compat; exact HL).
  set (x1 := ln r1 / ln 10). set (x2 := ln r2 / ln 10). set (x7 := ln 70 / ln 10).
  assert (Hx : x1 < x2) by (apply Rmult_lt_compat_r; [exact I|apply ln_increasing; lra]).
  assert (H7 : 1 < x7) by (unfold x7; interval).
  assert (E0 : forall r, 0 < r -> ln (10 / r) / ln 10 = 1 - ln r / ln 10).
  { intros r Hr. unfold Rdiv at 2. rewrite ln_mult, ln_Rinv by (try apply Rinv_0_lt_compat; lra). field. lra. }
  rewrite !E0 by lra. fold x1 x2.
  assert (E2 : Rmax (ln (r1 / 140) / ln 10) 0 <= Rmax (ln (r2 / 140) / ln 10) 0).
  { apply Rle_max_compat_r. apply Rmult_le_compat_r; [lra|]. apply ln_le_mono; [apply Rdiv_lt_0_compat; lra|lra]. }
  row_lt Hin (fun c => ab06_c_4 c + ab06_c_5 c * (2#1))%Q (fun _ : ab06_row => 0 # 1) as A1.
  row_lt Hin (fun c => ab06_c_4 c + ab06_c_5 c * (85#10))%Q (fun _ : ab06_row => 0 # 1) as A2.
  row_lt Hin (fun c => ab06_c_6 c + ab06_c_7 c * (2#1))%Q (fun _ : ab06_row => 0 # 1) as B1.
  row_lt Hin (fun c => ab06_c_6 c + ab06_c_7 c * (85#10))%Q (fun _ : ab06_row => 0 # 1) as B2.
  row_lt Hin (fun c => (ab06_c_4 c - ab06_c_8 c) + (ab06_c_5 c - ab06_c_9 c) * (2#1))%Q (fun _ : ab06_row => 0 # 1) as C1.
  row_lt Hin (fun c => (ab06_c_4 c - ab06_c_8 c) + (ab06_c_5 c - ab06_c_9 c) * (85#10))%Q (fun _ : ab06_row => 0 # 1) as C2.
  row_lt Hin (fun c => ab06_c_10 c) (fun _ : ab06_row => 0 # 1) as D.
  assert (A : Q2R (ab06_c_4 c) + Q2R (ab06_c_5 c) * m < 0) by (apply (lin_neg _ _ 2 8.5); lra).
  assert (B : Q2R (ab06_c_6 c) + Q2R (ab06_c_7 c) * m < 0) by (apply (lin_neg _ _ 2 8.5); lra).
  assert (C : (Q2R (ab06_c_4 c) - Q2R (ab06_c_8 c)) + (Q2R (ab06_c_5 c) - Q2R (ab06_c_9 c)) * m < 0) by (apply (lin_neg _ _ 2 8.5); lra).
  set (a := Q2R (ab06_c_4 c) + Q2R (ab06_c_5 c) * m) in *. set (b := Q2R (ab06_c_6 c) + Q2R (ab06_c_7 c) * m) in *.
  set (cc := Q2R (ab06_c_8 c) + Q2R (ab06_c_9 c) * m).
  assert (C' : a - cc < 0) by (unfold a, cc; lra).
  assert (E3 : a * Rmin x2 x7 + cc * Rmax (1 - x2) 0 <= a * Rmin x1 x7 + cc * Rmax (1 - x1) 0).
  { destruct (Rle_dec x2 1); [|destruct (Rle_dec x1 1)].
    - rewrite !Rmin_left, !Rmax_left by lra. nra.
    - rewrite (Rmax_right (1 - x2)), (Rmin_left x1), (Rmax_left (1 - x1)) by lra.
      assert (1 <= Rmin x2 x7) by (apply Rmin_glb; lra). nra.
    - rewrite !Rmax_right by lra. assert (Rmin x1 x7 <= Rmin x2 x7) by (apply Rle_min_compat_r; lra). nra. }
  assert (E4 : b * Rmax (ln (r2 / 140) / ln 10) 0 <= b * Rmax (ln (r1 / 140) / ln 10) 0) by nra.
  assert (E5 : Q2R (ab06_c_10 c) * r2 < Q2R (ab06_c_10 c) * r1) by nra.
  lra.
Qed.

Lemma ab06_skip_in c n : In c (skipn n ab06_bc_coeff) -> In c ab06_bc_coeff.
Proof. intros H. rewrite <- (firstn_skipn n ab06_bc_coeff). apply in_or_app; right; exact H. Qed.

Lemma ab06_decr_rock src1 src2 m r1 r2 v : ab06_scenario src1 m r1 v -> ab06_scenario src2 m r2 v ->
  2 <= m <= 8.5 -> 0 < r1 -> r1 < r2 -> 760 <= v ->
  exists g1 g2 sa1 sa2, result (ab06 src1) = Ok g1 /\ result (ab06 src2) = Ok g2 /\
    result (g_spec_accels g1) = Ok sa1 /\ result (g_spec_accels g2) = Ok sa2 /\ Forall2 flt_lt sa2 sa1.
Proof.
  intros S1 S2 Hm H1 H12 Hv.
  destruct (ab06_api src1 m r1 v S1 H1 ltac:(lra)) as (g1 & G1 & A1 & _).
  destruct (ab06_api src2 m r2 v S2 ltac:(lra) ltac:(lra)) as (g2 & G2 & A2 & _).
  exists g1, g2. do 2 eexists. split; [exact G1|]. split; [exact G2|]. split; [exact A1|]. split; [exact A2|].
  apply Forall2_map_intro. intros c Hc. apply flt_lt_exp, flt_lt_fin. unfold ab06_ln.
  destruct (ab06_l10_above c) as (B & _ & HB). rewrite (HB m r1 v Hv), (HB m r2 v Hv), !ab06_l10_760.
  pose proof (ab06_ref_decr c m r1 r2 (ab06_skip_in c 3 Hc) Hm H1 H12). pose proof ln10_pos. nra.
Qed.

(** PGA decays for every site velocity: the non-linear slope never reaches -1. *)
Lemma ab06_bnl_bound v : 0 < v -> -0.65 <= ab06_bnlR v ab06_site_pga <= 0.
Proof.
  intros Hv. unfold ab06_bnlR.
  replace (Q2R (ab06s_b_1 ab06_site_pga)) with (-0.641) by (unfold Q2R; cbn; lra).
  replace (Q2R (ab06s_b_2 ab06_site_pga)) with (-0.144) by (unfold Q2R; cbn; lra).
  pose proof (ln_neg_lt (300/760) ltac:(lra)) as N1. pose proof (ln_neg_lt (180/300) ltac:(lra)) as N2.
  assert (Q : forall a b, b < 0 -> b <= a -> a <= 0 -> 0 <= a / b <= 1).
  { intros a b Hb Hab Ha. split.
    - replace (a / b) with ((-a) / (-b)) by (field; lra). apply Rmult_le_pos; [lra|left; apply Rinv_0_lt_compat; lra].
    - replace (a / b) with ((-a) / (-b)) by (field; lra). apply Rmult_le_reg_r with (-b); [lra|].
      unfold Rdiv. rewrite Rmult_assoc, Rinv_l by lra. lra. }
  destruct (Rleb_spec v 180); [lra|]. destruct (Rleb_spec v 300); [|destruct (Rleb_spec v 760); [|lra]].
  - pose proof (Q (ln (v / 300)) (ln (180/300)) N2) as K.
    assert (ln (180/300) <= ln (v/300)) by (apply ln_le_mono; lra).
    assert (ln (v/300) <= 0) by (apply ln_nonpos; split; [apply Rdiv_lt_0_compat|]; lra).
    replace ((-0.641 - -0.144) * ln (v / 300) / ln (180 / 300)) with ((-0.497) * (ln (v/300) / ln (180/300))) by (unfold Rdiv; lra).
    destruct (K ltac:(lra) ltac:(lra)); nra.
  - pose proof (Q (ln (v / 760)) (ln (300/760)) N1) as K.
    assert (ln (300/760) <= ln (v/760)) by (apply ln_le_mono; lra).
    assert (ln (v/760) <= 0) by (apply ln_nonpos; split; [apply Rdiv_lt_0_compat|]; lra).
    replace (-0.144 * ln (v / 760) / ln (300 / 760)) with ((-0.144) * (ln (v/760) / ln (300/760))) by (unfold Rdiv; lra).
    destruct (K ltac:(lra) ltac:(lra)); nra.
Qed.
Lemma ab06_decr_pga src1 src2 m r1 r2 v : ab06_scenario src1 m r1 v -> ab06_scenario src2 m r2 v ->
  2 <= m <= 8.5 -> 0 < r1 -> r1 < r2 -> 0 < v ->
  exists g1 g2 p1 p2, result (ab06 src1) = Ok g1 /\ result (ab06 src2) = Ok g2 /\
    result (g_pga g1) = Ok p1 /\ result (g_pga g2) = Ok p2 /\ flt_lt p2 p1.
Proof.
  intros S1 S2 Hm H1 H12 Hv.
  destruct (ab06_pga_ln src1 m r1 v S1 H1 Hv) as (g1 & G1 & P1).
  destruct (ab06_pga_ln src2 m r2 v S2 ltac:(lra) Hv) as (g2 & G2 & P2).
  exists g1, g2. do 2 eexists. split; [exact G1|]. split; [exact G2|]. split; [exact P1|]. split; [exact P2|].
  apply flt_lt_fin.
  pose proof (ab06_ref_decr ab06_pga_row m r1 r2 ltac:(right; right; left; reflexivity) Hm H1 H12) as D.
  pose proof ln10_pos as HL. pose proof (ab06_bnl_bound v Hv) as [K1 K2].
  set (k := ab06_bnlR v ab06_site_pga) in *. set (X := Q2R (ab06s_b_lin ab06_site_pga) * ln (v / 760)).
  set (l1 := ln 10 * (ab06_refR ab06_pga_row m r1 + ab06_stressR m 0)).
  set (l2 := ln 10 * (ab06_refR ab06_pga_row m r2 + ab06_stressR m 0)).
  assert (Hl : l2 < l1) by (unfold l1, l2; nra).
  unfold ab06_pga_bc. fold l1 l2.
  set (q := fun l => ln (Rmax (exp l) 60 / 100)).
  assert (Q1 : q l2 <= q l1).
  { unfold q. apply ln_le_mono; [pose proof (Rmax_r (exp l2) 60); lra|].
    apply Rmult_le_compat_r; [lra|]. apply Rle_max_compat_r, exp_le_mono; lra. }
  assert (Q2 : q l1 - q l2 <= l1 - l2).
  { unfold q. assert (M : Rmax (exp l1) 60 <= Rmax (exp l2) 60 * exp (l1 - l2)).
    { assert (1 <= exp (l1 - l2)) by (apply exp_ge_1; lra). pose proof (Rmax_r (exp l2) 60). pose proof (Rmax_l (exp l2) 60).
      apply Rmax_lub; [|nra]. replace (exp l1) with (exp l2 * exp (l1 - l2)) by (rewrite <- exp_plus; f_equal; ring).
      apply Rmult_le_compat_r; [left; apply exp_pos|assumption]. }
    pose proof (Rmax_r (exp l1) 60). pose proof (Rmax_r (exp l2) 60). pose proof (exp_pos (l1 - l2)).
    assert (ln (Rmax (exp l1) 60 / 100) <= ln (Rmax (exp l2) 60 / 100 * exp (l1 - l2))) by (apply ln_le_mono; lra).
    rewrite ln_mult, ln_exp in H3 by lra. lra. }
  assert (E : forall l, exp l / 980.665 * exp (X + k * q l) = exp (l + X + k * q l) / 980.665).
  { intros l. rewrite !exp_plus. field; lra. }
  fold (q l1) (q l2). rewrite !E. apply Rmult_lt_compat_r; [lra|]. apply exp_increasing. nra.
Qed.
