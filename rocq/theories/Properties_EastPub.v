(** * The published equations of C03, TP05, PZT11, I14 and AB06: C107-C111

    Vocabulary: Spec_east.v. *)
From Coquelicot Require Import Coquelicot.
From Interval Require Import Tactic.
From Coq Require Import List.
From Verif Require Import M_c03 M_tp05 M_pzt11 M_i14 M_ab06 FrameworkProofs NpProofs Anal P_c03 P_tp05 P_pzt11 P_i14 P_ab06 P_bj08 Spec_cms Spec_east.
Open Scope R_scope.
Open Scope string_scope.
Open Scope list_scope.

(** [outputs g periods sa sd]: what the accessors [periods], [spec_accels] and [ln_stds] return. *)
Definition outputs (g : gmm) (periods sa sd : list R) : Prop :=
  result (g_periods g) = Ok (map Fin periods) /\ result (g_spec_accels g) = Ok (map Fin sa) /\ result (g_ln_stds g) = Ok (map Fin sd).
Lemma map_rows {A} (f : A -> flt) (g : A -> R) l : (forall c, In c l -> f c = Fin (g c)) -> map f l = map Fin (map g l).
Proof. intros H. rewrite map_map. apply map_ext_in. exact H. Qed.

Lemma ln_over a b : 0 < a -> 0 < b -> ln (a / b) = ln a - ln b.
Proof. intros Ha Hb. unfold Rdiv. rewrite ln_mult, ln_Rinv by (try apply Rinv_0_lt_compat; assumption). lra. Qed.

Lemma lnmax r k : 0 < k -> ln (Rmax r k / k) = if Rle_dec r k then 0 else ln r - ln k.
Proof.
  intros H. destruct (Rle_dec r k); [rewrite Rmax_right by lra|rewrite Rmax_left by lra; apply ln_over; lra].
  unfold Rdiv. rewrite Rinv_r, ln_1 by lra. reflexivity.
Qed.

(** ** C107: Campbell (2003) *)
Lemma c03_pub_row c m r : In c c03_coeff -> 0 <= r -> c03_ln_resp c (Fin m) (Fin r) = Fin (c03_pub c m r).
Proof.
  intros Hin Hr. row_lt Hin (fun _ : c03_row => 0 # 1) (fun c => c03_c_7 c) as H7'. assert (H7 : 0 < Q2R (c03_c_7 c)) by lra. rewrite c03_row_fin by assumption.
  apply (f_equal Fin). unfold c03_pub, c03_near, c03_geo. cbv zeta. pose proof (c03_h2_pos c m H7) as Hh. unfold c03_h2 in *.
  replace (r ^ 2 + (Q2R (c03_c_7 c) * exp (Q2R (c03_c_8 c) * m)) ^ 2) with (r * r + (Q2R (c03_c_7 c) * exp (Q2R (c03_c_8 c) * m)) * (Q2R (c03_c_7 c) * exp (Q2R (c03_c_8 c) * m))) by ring.
  rewrite ln_sqrt by nra. rewrite !lnmax by lra. destruct (Rleb_spec r 70), (Rle_dec r 70); try lra; destruct (Rltb_spec 130 r), (Rle_dec r 130); try lra.
Qed.
Lemma c03_sigma_row c m : c03_ln_std c (Fin m) = Fin (c03_sigma c m).
Proof. unfold c03_ln_std, c03_sigma. fcbn. destruct (Rltb_spec m 7.16), (Rlt_dec m 7.16); try lra; reflexivity. Qed.
Theorem C107_published : forall src m r, has_num src "mag" m -> has_num src "dist_rup" r -> 0 <= r ->
  exists g, result (c03 src) = Ok g /\
    outputs g (map (fun c => Q2R (c03_period c)) c03_coeff) (map (fun c => exp (c03_pub c m r)) c03_coeff) (map (fun c => c03_sigma c m) c03_coeff).
Proof.
  intros src m r Hm Hr H0. eexists. split; [apply c03_construct; eassumption|]. split; [reflexivity|]. split.
  - rewrite c03_spec_accels. apply (f_equal Ok). apply map_rows. intros c Hc. rewrite c03_pub_row by assumption. reflexivity.
  - transitivity (Ok (map (fun c => c03_ln_std c (Fin m)) c03_coeff)); [reflexivity|]. apply (f_equal Ok). apply map_rows. intros c _. apply c03_sigma_row.
Qed.
Print Assumptions C107_published.

(** ** C108: Tavakoli & Pezeshk (2005) *)
Lemma pow25 x : 0 <= x -> fpow (Fin x) 2.5 = Fin (x ^ 2 * sqrt x).
Proof.
  intros [H|<-].
  - rewrite fpow_fin by exact H. apply (f_equal Fin). replace 2.5 with (2 + / 2) by lra. rewrite Rpower_plus, Rpower_sqrt by exact H.
    replace 2 with (INR 2) at 1 by (cbn; lra). rewrite Rpower_pow by exact H. reflexivity.
  - rewrite fpow_zero by lra. apply (f_equal Fin). ring.
Qed.
Lemma tp05_pub_row c m r : In c tp05_coeff -> m <= 8.5 -> 0 <= r -> tp05_ln_resp c (Fin m) (Fin r) = Fin (tp05_pub c m r).
Proof.
  intros Hin Hm Hr. row_lt Hin (fun c => tp05_c_5 c) (fun _ : tp05_row => 0 # 1) as H5.
  unfold tp05_ln_resp. fcbn. rewrite pow25 by lra. fcbn. unfold tp05_pub. cbv zeta. set (big := (8.5 - m) ^ 2 * sqrt (8.5 - m)).
  set (h := Q2R (tp05_c_5 c) * exp _).
  assert (Hh : h < 0). { unfold h. match goal with |- context [exp ?x] => pose proof (exp_pos x) end. nra. }
  replace (r ^ 2 + h ^ 2) with (r * r + h * h) by ring. assert (0 < r * r + h * h) as HP by nra. assert (0 < sqrt (r * r + h * h)) by (apply sqrt_lt_R0; exact HP).
  rewrite fsqrt_fin by lra. fcbn. rewrite (flog_fin (sqrt _)) by assumption. rewrite (flog_fin (r + 4.5)) by lra. rewrite !lnmax by lra. rewrite !fdiv_fin by lra.
  destruct (Rltb_spec 70 r), (Rle_dec r 70); try lra; destruct (Rltb_spec 130 r), (Rle_dec r 130); try lra; fcbn;
  rewrite ?flog_fin by (apply Rdiv_lt_0_compat; lra); rewrite ?ln_over by lra; fcbn; apply (f_equal Fin); ring.
Qed.
Lemma tp05_sigma_row c m : tp05_ln_std c (Fin m) = Fin (tp05_sigma c m).
Proof. unfold tp05_ln_std, tp05_sigma. fcbn. destruct (Rltb_spec m 7.2), (Rlt_dec m 7.2); try lra; reflexivity. Qed.
Theorem C108_published : forall src m r, has_num src "mag" m -> has_num src "dist_rup" r -> m <= 8.5 -> 0 <= r ->
  exists g pga_row rows, result (tp05 src) = Ok g /\ tp05_coeff = pga_row :: rows /\ Q2R (tp05_period pga_row) = 0 /\
    result (g_pga g) = Ok (Fin (exp (tp05_pub pga_row m r))) /\ result (g_ln_std_pga g) = Ok (Fin (tp05_sigma pga_row m)) /\
    outputs g (map (fun c => Q2R (tp05_period c)) rows) (map (fun c => exp (tp05_pub c m r)) rows) (map (fun c => tp05_sigma c m) rows).
Proof.
  intros src m r Hm Hr Hm8 H0. exists (tp05_inst m r), (hd (Mk_tp05_row 0 0 0 0 0 0 0 0 0 0 0 0 0 0 0 0 0) tp05_coeff), (tl tp05_coeff).
  destruct (tp05_accessors src m r Hm Hr) as (g & Hg & Hsa & Hp & Hsd & _). rewrite (tp05_construct src m r Hm Hr) in *. injection Hg as <-.
  split; [reflexivity|]. split; [reflexivity|]. split; [unfold Q2R; cbn; lra|].
  split; [rewrite Hp, tp05_pub_row by (try assumption; left; reflexivity); reflexivity|].
  split; [transitivity (Ok (tp05_ln_std (hd (Mk_tp05_row 0 0 0 0 0 0 0 0 0 0 0 0 0 0 0 0 0) tp05_coeff) (Fin m))); [reflexivity|rewrite tp05_sigma_row; reflexivity]|].
  split; [reflexivity|]. split; [rewrite Hsa|rewrite Hsd]; apply (f_equal Ok); apply map_rows; intros c Hc.
  - rewrite tp05_pub_row by (try assumption; apply tp05_tl; exact Hc). reflexivity.
  - apply tp05_sigma_row.
Qed.
Print Assumptions C108_published.

(** ** C109: Pezeshk et al. (2011) *)
Lemma log10_min x y : 0 < x -> 0 < y -> Rmin (ln x / ln 10) (ln y / ln 10) = log10 (Rmin x y).
Proof.
  intros Hx Hy. pose proof ln10_pos. unfold log10, Rdiv. unfold Rmin at 2. destruct (Rle_dec x y) as [L|L].
  - apply Rmin_left. apply Rmult_le_compat_r; [left; apply Rinv_0_lt_compat; lra|apply ln_le_mono; lra].
  - apply Rmin_right. apply Rmult_le_compat_r; [left; apply Rinv_0_lt_compat; lra|apply ln_le_mono; lra].
Qed.
Lemma log10_max x y : 0 < x -> 0 < y -> Rmax (ln x / ln 10) (ln y / ln 10) = log10 (Rmax x y).
Proof.
  intros Hx Hy. pose proof ln10_pos. unfold log10, Rdiv. unfold Rmax at 2. destruct (Rle_dec x y) as [L|L].
  - apply Rmax_right. apply Rmult_le_compat_r; [left; apply Rinv_0_lt_compat; lra|apply ln_le_mono; lra].
  - apply Rmax_left. apply Rmult_le_compat_r; [left; apply Rinv_0_lt_compat; lra|apply ln_le_mono; lra].
Qed.
Lemma log10_1 : ln 1 / ln 10 = 0. Proof. rewrite ln_1. unfold Rdiv. ring. Qed.
Lemma max_div x k : 0 < k -> Rmax (x / k) 1 = Rmax x k / k.
Proof. intros H. replace 1 with (k / k) at 1 by (field; lra). unfold Rdiv. rewrite !(Rmult_comm _ (/ k)). apply RmaxRmult. left. apply Rinv_0_lt_compat. exact H. Qed.
Lemma pzt11_pub_row c m r : In c pzt11_coeff -> pzt11_ln_resp c (Fin m) (Fin r) = Fin (ln 10 * pzt11_pub c m r).
Proof.
  intros Hin. pose proof (pzt11_k11 c Hin) as K. rewrite pzt11_row_fin by lra. pose proof (pzt11_dist_pos c r ltac:(lra)) as HD. apply (f_equal Fin). unfold pzt11_pub. cbv zeta.
  replace (r ^ 2 + Q2R (pzt11_c_11 c) ^ 2) with (r * r + Q2R (pzt11_c_11 c) * Q2R (pzt11_c_11 c)) by ring. fold (pzt11_dist c r).
  set (d := pzt11_dist c r) in *. unfold pzt11_geo. assert (0 < d / 70) by (apply Rdiv_lt_0_compat; lra). assert (0 < d / 140) by (apply Rdiv_lt_0_compat; lra).
  rewrite <- log10_1, !log10_min by lra. unfold log10 at 2. rewrite !log10_max by (try lra; apply Rmin_pos; lra). rewrite max_div by lra.
  replace (Rmax (Rmin (d / 70) (140 / 70)) 1) with (Rmax 70 (Rmin d 140) / 70).
  2: { rewrite (Rmax_comm 70), <- max_div by lra. apply (f_equal (fun t => Rmax t 1)). unfold Rmin. repeat destruct (Rle_dec _ _); lra. }
  ring.
Qed.
Lemma exp_ln10 x : exp (ln 10 * x) = Rpower 10 x. Proof. unfold Rpower. rewrite Rmult_comm. reflexivity. Qed.
Lemma pzt11_sigma_row c m : pzt11_ln_std c (Fin m) = Fin (pzt11_sigma c m).
Proof.
  unfold pzt11_ln_std, pzt11_sigma. fcbn. replace 7.0 with 7 by lra. destruct (Rleb_spec m 7), (Rle_dec m 7); try lra; fcbn; cbv zeta;
  (match goal with |- fsqrt (Fin ?t) = Fin (sqrt ?u) => replace u with t by lra end); apply fsqrt_fin; apply Rplus_le_le_0_compat; (apply Rle_0_sqr || apply pow2_ge_0 || nra).
Qed.
Theorem C109_published : forall src m r, has_num src "mag" m -> has_num src "dist_rup" r ->
  exists g pga_row rows, result (pzt11 src) = Ok g /\ pzt11_coeff = pga_row :: rows /\ Q2R (pzt11_period pga_row) = 0 /\
    result (g_pga g) = Ok (Fin (Rpower 10 (pzt11_pub pga_row m r))) /\ result (g_ln_std_pga g) = Ok (Fin (pzt11_sigma pga_row m)) /\
    outputs g (map (fun c => Q2R (pzt11_period c)) rows) (map (fun c => Rpower 10 (pzt11_pub c m r)) rows) (map (fun c => pzt11_sigma c m) rows).
Proof.
  intros src m r Hm Hr. exists (pzt11_inst m r). pose proof (eq_refl pzt11_coeff) as E. unfold pzt11_coeff at 2 in E. do 2 eexists.
  split; [apply pzt11_construct; assumption|]. split; [exact E|].
  destruct (pzt11_accessors src m r Hm Hr) as (g & Hg & Hsa & Hp & Hsd & _). rewrite (pzt11_construct src m r Hm Hr) in Hg. injection Hg as <-.
  split; [unfold Q2R; cbn; lra|].
  split; [rewrite Hp, pzt11_pub_row by (left; reflexivity); cbn [fexp]; rewrite exp_ln10; reflexivity|].
  split; [transitivity (Ok (pzt11_ln_std (hd (nth 0 pzt11_coeff (nth 1 pzt11_coeff (Mk_pzt11_row 0 0 0 0 0 0 0 0 0 0 0 0 0 0 0 0))) pzt11_coeff) (Fin m))); [reflexivity|rewrite pzt11_sigma_row; reflexivity]|].
  split; [reflexivity|]. split; [rewrite Hsa|rewrite Hsd]; apply (f_equal Ok); apply (map_rows _ _ (tl pzt11_coeff)); intros c Hc.
  - rewrite pzt11_pub_row by (apply pzt11_tl; exact Hc). cbn [fexp]. rewrite exp_ln10. reflexivity.
  - apply pzt11_sigma_row.
Qed.
Print Assumptions C109_published.

(** ** C110: Idriss (2014) *)
Lemma i14_table_rows m : i14_table (Fin m) = i14_rows m.
Proof. unfold i14_table, i14_rows. fcbn. destruct (Rleb_spec m 6.75), (Rle_dec m 6.75); try lra; reflexivity. Qed.
Lemma i14_pub_row c m r v rs : -10 < r -> 0 < v -> i14_ln_resp c (Fin m) (Fin r) (Fin v) rs = Fin (i14_pub c m r v rs).
Proof. intros. rewrite i14_row_fin by assumption. apply (f_equal Fin). unfold i14_val, i14_pub. destruct rs; ring. Qed.
Lemma i14_sigma_row c m : i14_ln_std (qf (i14_period c)) (Fin m) = Fin (i14_sigma c m).
Proof.
  unfold i14_ln_std, i14_sigma. unfold qf. fcbn. replace 3.0 with 3 by lra. replace 5.0 with 5 by lra. unfold fclip. fcbn. replace 3.0 with 3 by lra. replace 5.0 with 5 by lra.
  rewrite flog_fin by (unfold Rmin, Rmax; repeat destruct (Rle_dec _ _); lra). reflexivity.
Qed.
Theorem C110_published : forall src m r v mech, i14_scenario src m r v mech -> 0 <= r -> 0 < v -> mech = "SS" \/ mech = "RS" ->
  exists g pga_row, result (i14 src) = Ok g /\ nth_error (i14_rows m) 0 = Some pga_row /\
    result (g_pga g) = Ok (Fin (exp (i14_pub pga_row m r v (String.eqb mech "RS")))) /\
    outputs g (map (fun c => Q2R (i14_period c)) (i14_rows m)) (map (fun c => exp (i14_pub c m r v (String.eqb mech "RS"))) (i14_rows m))
      (map (fun c => i14_sigma c m) (i14_rows m)).
Proof.
  intros src m r v mech S Hr Hv Hmech. exists (i14_inst m r v mech).
  pose (d := Mk_i14_row 0 0 0 0 0 0 0 0 0). exists (hd d (i14_rows m)).
  split; [apply i14_construct'; assumption|].
  assert (N : nth_error (i14_rows m) 0 = Some (hd d (i14_rows m))) by (unfold i14_rows; destruct (Rle_dec m 6.75); reflexivity).
  split; [exact N|].
  assert (RS : is_str (PStr mech) "RS" = String.eqb mech "RS") by reflexivity.
  split.
  { unfold i14_inst. rewrite (pga_map i14_class _ (fun c => i14_ln_resp c (Fin m) (Fin r) (Fin v) (is_str (PStr mech) "RS")) (i14_table (Fin m)) _ 0%Z (hd d (i14_rows m)) eq_refl).
    - rewrite i14_pub_row by lra. reflexivity.
    - rewrite i14_table_rows. unfold i14_rows. destruct (Rle_dec m 6.75); reflexivity. }
  assert (P : gc_periods i14_class = map (fun c => qf (i14_period c)) (i14_rows m)) by (unfold i14_rows; destruct (Rle_dec m 6.75); reflexivity).
  split; [|split].
  - transitivity (Ok (gc_periods i14_class)); [reflexivity|]. rewrite P. apply (f_equal Ok), map_rows. reflexivity.
  - rewrite i14_spec, i14_table_rows. apply (f_equal Ok), map_rows. intros c _. rewrite i14_pub_row by lra. reflexivity.
  - rewrite i14_stds, P, map_map. apply (f_equal Ok), map_rows. intros c _. apply i14_sigma_row.
Qed.
Print Assumptions C110_published.

(** ** C111: Atkinson & Boore (2006) *)
Lemma ab06_hard_eq c m r : 0 < r -> ab06_refR c m r = ab06_hard c m r.
Proof.
  intros Hr. unfold ab06_refR, ab06_hard. assert (0 < r / 140) by (apply Rdiv_lt_0_compat; lra). assert (0 < 10 / r) by (apply Rdiv_lt_0_compat; lra).
  rewrite <- log10_1 at 1 2. rewrite log10_min, !log10_max by lra. rewrite max_div by lra.
  replace (Rmax (10 / r) 1) with (10 / Rmin r 10); [ring|].
  unfold Rmin, Rmax. destruct (Rle_dec r 10) as [L|L], (Rle_dec (10 / r) 1) as [L'|L']; try reflexivity.
  - apply Rmult_le_compat_r with (r := r) in L'; [|lra]. unfold Rdiv in L'. rewrite Rmult_assoc, Rinv_l in L' by lra. replace r with 10 by lra. field.
  - field.
  - exfalso. apply L'. apply Rmult_le_reg_r with r; [lra|]. unfold Rdiv. rewrite Rmult_assoc, Rinv_l by lra. lra.
Qed.
Lemma ab06_adj_row m c : In c ab06_sf_coeff -> ab06_sf_row (Fin m) c = Fin (ab06_adj m c).
Proof.
  intros Hin. row_lt Hin (fun c => ab06f_m_1 c) (fun c => ab06f_m_h c) as H.
  unfold ab06_sf_row. unfold pow10. fcbn. rewrite !fdiv_fin by lra. fcbn. apply (f_equal Fin). unfold ab06_adj.
  rewrite exp_ln10. replace 2.0 with 2 by lra. replace 140.0 with 140 by lra.
  apply (f_equal2 Rmult); [reflexivity|]. unfold Rmin. repeat destruct (Rle_dec _ _); lra.
Qed.
Lemma ab06_stress_at m t : at_period_f (ab06_adj m) t (ab06_stressR m t).
Proof.
  destruct (np_interp_linear (fun c => Q2R (ab06f_period c)) (ab06_adj m) ab06_sf_coeff t) as (y & L & E).
  - discriminate.
  - rewrite <- (map_map ab06f_period Q2R). apply incrQ_incr. vm_compute. reflexivity.
  - replace (ab06_stressR m t) with y; [exact L|]. unfold ab06_stressR, ab06_stress.
    replace (map (ab06_sf_row (Fin m)) ab06_sf_coeff) with (col (ab06_adj m) ab06_sf_coeff); [unfold col in E; unfold qf; unfold col; rewrite E; reflexivity|].
    symmetry. apply map_ext_in. intros c Hc. apply ab06_adj_row. exact Hc.
Qed.
Lemma ab06_amp_row v p c : 0 < v -> ab06_site_row (Fin v) (Fin p) c = Fin (ab06_amp v p c).
Proof.
  intros Hv. rewrite ab06_site_row_fin by exact Hv. apply (f_equal Fin). unfold ab06_siteR, ab06_amp, log10. rewrite ln_exp. unfold ab06_bnlR, ab06_bnl.
  destruct (Rleb_spec v 180), (Rle_dec v 180); try lra; destruct (Rleb_spec v 300), (Rle_dec v 300); try lra; destruct (Rleb_spec v 760), (Rle_dec v 760); try lra; reflexivity.
Qed.
Lemma ab06_amp_at v p t : 0 < v -> at_period_s (ab06_amp v p) t (ab06_siteT v p t).
Proof.
  intros Hv. destruct (np_interp_linear (fun c => Q2R (ab06s_period c)) (ab06_amp v p) ab06_site_coeff t) as (y & L & E).
  - discriminate.
  - rewrite <- (map_map ab06s_period Q2R). apply incrQ_incr. vm_compute. reflexivity.
  - replace (ab06_siteT v p t) with y; [exact L|]. unfold ab06_siteT, ab06_site.
    replace (map (ab06_site_row (Fin v) (Fin p)) ab06_site_coeff) with (col (ab06_amp v p) ab06_site_coeff); [unfold col in E; unfold qf; unfold col; rewrite E; reflexivity|].
    symmetry. apply map_ext_in. intros c Hc. apply ab06_amp_row. exact Hv.
Qed.
Lemma exp_l10' x : exp (ln 10 * (x - ln 980.665 / ln 10)) = Rpower 10 x / 980.665. Proof. apply exp_l10. Qed.
Transparent ab06_l10 ab06_siteT ab06_stressR ab06_refR.
Lemma ab06_soil_row m r v c : 0 < r -> 0 < v -> ab06_soil_is ab06_pga_row c m r v (exp (ab06_ln m r v c)).
Proof.
  intros Hr Hv. exists (ab06_stressR m 0), (ab06_stressR m (Q2R (ab06_period c))), (ab06_siteT v (ab06_pga_bc m r) (Q2R (ab06_period c))).
  split; [apply ab06_stress_at|]. split; [apply ab06_stress_at|]. split.
  - rewrite <- exp_ln10, <- ab06_hard_eq by exact Hr. apply ab06_amp_at. exact Hv.
  - unfold ab06_ln. rewrite exp_l10'. unfold ab06_l10. rewrite ab06_hard_eq by exact Hr. reflexivity.
Qed.
Lemma ab06_rock_row m r c : 0 < r ->
  ab06_rock_is c m r (exp (ln 10 * (ab06_refR c m r + ab06_stressR m (Q2R (ab06_period c)) - ln 980.665 / ln 10))).
Proof.
  intros Hr. exists (ab06_stressR m (Q2R (ab06_period c))). split; [apply ab06_stress_at|]. rewrite exp_l10', ab06_hard_eq by exact Hr. reflexivity.
Qed.
Lemma rows_forall2 {A} (P : A -> R -> Prop) (f : A -> R) l : (forall c, P c (f c)) -> Forall2 P l (map f l).
Proof. intros H. induction l; cbn; constructor; auto. Qed.

(** On soil ([v_s30] > 0): the B/C table and the site term; rows 0, 1 and 2 are PGD, PGV and PGA. *)
Theorem C111_soil : forall src m r v, ab06_scenario src m r v -> 0 < r -> 0 < v ->
  exists g d p a rows pga pgv pgd sa, result (ab06 src) = Ok g /\ ab06_bc_coeff = d :: p :: a :: rows /\
    map (fun c => Q2R (ab06_period c)) [d; p; a] = [-2; -1; 0] /\
    result (g_pga g) = Ok (Fin pga) /\ ab06_soil_is a a m r v pga /\
    result (g_pgv g) = Ok (Fin pgv) /\ ab06_soil_is a p m r v pgv /\
    result (g_pgd g) = Ok (Fin pgd) /\ ab06_soil_is a d m r v pgd /\
    Forall2 (fun c x => ab06_soil_is a c m r v x) rows sa /\
    outputs g (map (fun c => Q2R (ab06_period c)) rows) sa (map (fun _ => 0.30) rows).
Proof.
  intros src m r v S Hr Hv.
  pose proof (ab06_construct src m r v _ S (ab06_ln_resp_pos m r v Hr Hv)) as Hg.
  assert (Hper : forall resp, result (g_periods (ab06_inst m r v resp)) = Ok (map Fin (map (fun c => Q2R (ab06_period c)) (skipn 3 ab06_bc_coeff)))) by reflexivity.
  destruct (ab06_api src m r v S Hr Hv) as (g & Hg' & Hsa & Hpga & Hpgv & Hpgd & Hsd). rewrite Hg in Hg'. assert (Eg := f_equal (fun o => match o with Ok x => x | _ => g end) Hg'). cbv beta iota in Eg.
  exists g, (nth 0 ab06_bc_coeff ab06_row0), (nth 1 ab06_bc_coeff ab06_row0), ab06_pga_row, (skipn 3 ab06_bc_coeff).
  exists (exp (ab06_ln m r v ab06_pga_row)), (exp (ab06_ln m r v (nth 1 ab06_bc_coeff ab06_row0))), (exp (ab06_ln m r v (nth 0 ab06_bc_coeff ab06_row0))), (map (fun c => exp (ab06_ln m r v c)) (skipn 3 ab06_bc_coeff)).
  split; [rewrite <- Eg; exact Hg|]. split; [reflexivity|]. split; [cbn [map]; unfold Q2R; cbn; repeat (apply (f_equal2 cons); [lra|]); reflexivity|].
  split; [exact Hpga|]. split; [apply ab06_soil_row; assumption|].
  split; [exact Hpgv|]. split; [apply ab06_soil_row; assumption|].
  split; [exact Hpgd|]. split; [apply ab06_soil_row; assumption|].
  split; [apply rows_forall2; intros; apply ab06_soil_row; assumption|].
  split; [rewrite <- Eg; apply Hper|]. split; [rewrite Hsa, map_map; reflexivity|rewrite Hsd, map_map; reflexivity].
Qed.
Print Assumptions C111_soil.
(** With [v_s30] = 0: the hard-rock table, no site term. *)
Theorem C111_rock : forall src m r, ab06_scenario src m r 0 -> 0 < r ->
  exists g d p a rows pga pgv pgd sa, result (ab06 src) = Ok g /\ ab06_rock_coeff = d :: p :: a :: rows /\
    map (fun c => Q2R (ab06_period c)) [d; p; a] = [-2; -1; 0] /\
    result (g_pga g) = Ok (Fin pga) /\ ab06_rock_is a m r pga /\
    result (g_pgv g) = Ok (Fin pgv) /\ ab06_rock_is p m r pgv /\
    result (g_pgd g) = Ok (Fin pgd) /\ ab06_rock_is d m r pgd /\
    Forall2 (fun c x => ab06_rock_is c m r x) rows sa /\
    outputs g (map (fun c => Q2R (ab06_period c)) rows) sa (map (fun _ => 0.30) rows).
Proof.
  intros src m r S Hr.
  pose proof (ab06_construct src m r 0 _ S (ab06_ln_resp_zero m r Hr)) as Hg.
  set (F := fun c => ln 10 * (ab06_refR c m r + ab06_stressR m (Q2R (ab06_period c)) - ln 980.665 / ln 10)) in *.
  change (map (fun c : ab06_row => Fin _) ab06_rock_coeff) with (map (fun c => Fin (F c)) ab06_rock_coeff) in Hg.
  assert (K : forall c, ab06_rock_is c m r (exp (F c))) by (intros c; apply ab06_rock_row; exact Hr).
  exists (ab06_inst m r 0 (map (fun c => Fin (F c)) ab06_rock_coeff)), (nth 0 ab06_rock_coeff ab06_row0), (nth 1 ab06_rock_coeff ab06_row0), (nth 2 ab06_rock_coeff ab06_row0), (skipn 3 ab06_rock_coeff).
  exists (exp (F (nth 2 ab06_rock_coeff ab06_row0))), (exp (F (nth 1 ab06_rock_coeff ab06_row0))), (exp (F (nth 0 ab06_rock_coeff ab06_row0))), (map (fun c => exp (F c)) (skipn 3 ab06_rock_coeff)).
  split; [exact Hg|]. split; [reflexivity|]. split; [cbn [map]; unfold Q2R; cbn; repeat (apply (f_equal2 cons); [lra|]); reflexivity|].
  split; [apply (pga_map ab06_class _ (fun c => Fin (F c))) with (i := 2%Z); reflexivity|]. split; [apply K|].
  split.
  { unfold ab06_inst. rewrite (pgv_map ab06_class _ (fun c => Fin (F c)) ab06_rock_coeff _ 1%Z (nth 1 ab06_rock_coeff ab06_row0) eq_refl eq_refl).
    cbn [gc_pgv_scale ab06_class fexp fmul]. do 2 f_equal. ring. }
  split; [apply K|]. split.
  { unfold g_pgd, g_resp, arr_get; cbn [g_ln_resp g_class ab06_inst]. cbn [gc_pgd ab06_class]. rewrite py_nth_map.
    change (py_nth ab06_rock_coeff 0) with (Some (nth 0 ab06_rock_coeff ab06_row0)). cbn. do 2 f_equal. ring. }
  split; [apply K|]. split; [apply rows_forall2; exact K|].
  split; [reflexivity|]. split; [|reflexivity].
  unfold ab06_inst. rewrite (spec_accels_map ab06_class _ (fun c => Fin (F c)) ab06_rock_coeff (skipn 3 ab06_rock_coeff)) by reflexivity.
  rewrite map_map. reflexivity.
Qed.
Print Assumptions C111_rock.

(** ** Concrete scenarios *)
Example C107_nonvacuous : exists src, has_num src "mag" 6.5 /\ has_num src "dist_rup" 95 /\ (0 <= 95).
Proof. exists [("mag", PNum (Fin 6.5)); ("dist_rup", PNum (Fin 95))]. repeat split; lra. Qed.
Example C108_nonvacuous : exists src, has_num src "mag" 6.5 /\ has_num src "dist_rup" 95 /\ 6.5 <= 8.5 /\ 0 <= 95.
Proof. exists [("mag", PNum (Fin 6.5)); ("dist_rup", PNum (Fin 95))]. repeat split; lra. Qed.
Example C109_nonvacuous : exists src, has_num src "mag" 6.5 /\ has_num src "dist_rup" 95.
Proof. exists [("mag", PNum (Fin 6.5)); ("dist_rup", PNum (Fin 95))]. repeat split. Qed.
Example C110_nonvacuous : exists s1 s2, i14_scenario s1 6.5 20 700 "RS" /\ i14_scenario s2 7 20 700 "SS".
Proof.
  exists [("mag", PNum (Fin 6.5)); ("dist_rup", PNum (Fin 20)); ("v_s30", PNum (Fin 700)); ("mechanism", PStr "RS")],
    [("mag", PNum (Fin 7)); ("dist_rup", PNum (Fin 20)); ("v_s30", PNum (Fin 700)); ("mechanism", PStr "SS")]. repeat split.
Qed.
Example C111_nonvacuous : exists s1 s2, ab06_scenario s1 6.5 50 400 /\ ab06_scenario s2 6.5 50 0.
Proof.
  exists [("mag", PNum (Fin 6.5)); ("dist_rup", PNum (Fin 50)); ("v_s30", PNum (Fin 400))], [("mag", PNum (Fin 6.5)); ("dist_rup", PNum (Fin 50)); ("v_s30", PNum (Fin 0))].
  repeat split.
Qed.
