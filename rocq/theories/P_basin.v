(** * Basin depth: how the NGA-West2 medians change with depth_1_0 and depth_2_5 *)
From Coquelicot Require Import Coquelicot.
From Interval Require Import Tactic.
From Coq Require Import List.
From Verif Require Import M_cy14 M_bssa14 M_cb14 M_ask14 FrameworkProofs Anal Nga Outs Cont Cont1 SpecNga P_cy14 P_bssa14 P_cb14 P_cb14b P_ask14 P_ask14b P_ngaspec
  Spec_cy14 Spec_bssa14 Spec_cb14 Spec_ask14 Properties_NGA Properties_NGAPub Properties_NGAPub2 Properties_NGAPub3 P_ngamag P_ngacont P_hw P_mech Spec_basin.
Open Scope R_scope.
Open Scope string_scope.
Open Scope list_scope.

Lemma rep_compares {A} r1 r2 (rows : list A) ca cv per med1 sd1 med2 sd2 (sa : R -> R -> R -> Prop) (pga pgv : R -> R -> Prop) :
  reports r1 rows ca cv per med1 sd1 -> reports r2 rows ca cv per med2 sd2 ->
  (forall c, In c rows -> sa (Q2R (per c)) (exp (med1 c)) (exp (med2 c))) ->
  pga (exp (med1 ca)) (exp (med2 ca)) -> pgv (exp (med1 cv)) (exp (med2 cv)) -> compares r1 r2 sa pga pgv.
Proof.
  intros (g1 & E1 & P1 & S1 & A1 & V1 & _) (g2 & E2 & P2 & S2 & A2 & V2 & _) H HA HV.
  exists g1, g2, (map (fun c => (Q2R (per c), (exp (med1 c), exp (med2 c)))) rows), (exp (med1 ca)), (exp (med2 ca)), (exp (med1 cv)), (exp (med2 cv)).
  rewrite !map_map. cbn [fst snd]. repeat (split; [assumption|]). split; [|split; assumption].
  intros T y1 y2 HI. apply in_map_iff in HI as (c & Ec & Hc). injection Ec as <- <- <-. apply H, Hc.
Qed.
Lemma compares_weaken r1 r2 (sa sa' : R -> R -> R -> Prop) (p p' v v' : R -> R -> Prop) : (forall T y1 y2, sa T y1 y2 -> sa' T y1 y2) ->
  (forall y1 y2, p y1 y2 -> p' y1 y2) -> (forall y1 y2, v y1 y2 -> v' y1 y2) -> compares r1 r2 sa p v -> compares r1 r2 sa' p' v'.
Proof.
  intros HS HP HV (g1 & g2 & rows & a1 & a2 & v1 & v2 & C1 & C2 & C3 & C4 & C5 & C6 & C7 & C8 & C9 & C10 & CS & CA & CV).
  exists g1, g2, rows, a1, a2, v1, v2. repeat (split; [assumption|]). split; [|split; auto]. intros. apply HS, CS. assumption.
Qed.
(** Rows with a condition. *)
Lemma rows_when_lt {A} (l : list A) (p : A -> bool) (f g : A -> Q) :
  forallb (fun c => orb (negb (p c)) (Qltb (f c) (g c))) l = true -> forall c, In c l -> p c = true -> Q2R (f c) < Q2R (g c).
Proof. intros H c Hc Hp. rewrite forallb_forall in H. specialize (H c Hc). rewrite Hp in H. cbn in H. apply Qltb_R, H. Qed.
Lemma rows_when_le {A} (l : list A) (p : A -> bool) (f g : A -> Q) :
  forallb (fun c => orb (negb (p c)) (Qle_bool (f c) (g c))) l = true -> forall c, In c l -> p c = true -> Q2R (f c) <= Q2R (g c).
Proof. intros H c Hc Hp. rewrite forallb_forall in H. specialize (H c Hc). rewrite Hp in H. cbn in H. apply Qleb_R, H. Qed.
Lemma Rle_Qleb a b : Q2R a <= Q2R b -> Qle_bool a b = true.
Proof. intros H. apply Qle_bool_iff, Rle_Qle, H. Qed.
Lemma Rlt_Qltb a b : Q2R a < Q2R b -> Qltb a b = true.
Proof. intros H. unfold Qltb. destruct (Qle_bool b a) eqn:E; [|reflexivity]. apply Qleb_R in E. lra. Qed.
Ltac rq := qlit; try lra.

(** ** BSSA14 *)
Lemma bs_z1 ca c a o : bs_med ca c (with_z1 a o) = bs_rock c a + bs_lin c (n_v a) + bs_nonlin c (n_v a) (exp (bs_rock ca a)) + bs_basin c (n_v a) o.
Proof. nga_split a. reflexivity. Qed.
Lemma bs_short_basin c v o : Q2R (bssa14_period c) < 0.65 -> bs_basin c v o = 0.
Proof. intros H. unfold bs_basin. destruct o; [|reflexivity]. destruct (Rlt_dec _ _); [reflexivity|lra]. Qed.
Lemma bs_basin_le c v z1 z2 : In c bssa14_coeff -> z1 <= z2 -> bs_basin c v (Some z1) <= bs_basin c v (Some z2).
Proof.
  intros Hc H. unfold bs_basin. destruct (Rlt_dec _ _) as [L|L]; [lra|]. set (m := cy_mean_z1 "california" v / 1000). clearbody m.
  pose proof (rows_when_lt bssa14_coeff (fun c => Qle_bool (65 # 100) (bssa14_period c)) (fun _ => 0 # 1)%Q bssa14_f_6 ltac:(vm_compute; reflexivity) c Hc) as F.
  cbv beta in F. rewrite Rle_Qleb in F by rq. specialize (F eq_refl). qnorm_in F.
  apply Rle_min_compat_r. apply Rmult_le_compat_l; lra.
Qed.
Lemma cy_mean_z1_upto v : 0 < v -> cy_mean_z1 "california" v <= 535.
Proof.
  intros Hv. unfold cy_mean_z1. cbn [String.eqb Ascii.eqb Bool.eqb].
  apply Rle_trans with (exp (- 7.15 / 4 * ln ((0 + 570.94 ^ 4) / (1360 ^ 4 + 570.94 ^ 4)))); [|interval with (i_prec 40)].
  apply exp_le_mono.
  assert (L : ln ((0 + 570.94 ^ 4) / (1360 ^ 4 + 570.94 ^ 4)) <= ln ((v ^ 4 + 570.94 ^ 4) / (1360 ^ 4 + 570.94 ^ 4))).
  { apply ln_le_mono; [lra|]. apply Rmult_le_compat_r; [left; apply Rinv_0_lt_compat; lra|]. pose proof (pow_lt v 4 Hv). lra. }
  revert L. generalize (ln ((0 + 570.94 ^ 4) / (1360 ^ 4 + 570.94 ^ 4))). generalize (ln ((v ^ 4 + 570.94 ^ 4) / (1360 ^ 4 + 570.94 ^ 4))). intros l2 l1 L. lra.
Qed.
Lemma bs_basin_sat c v z : In c bssa14_coeff -> 0 < v -> 1.2 <= z -> 0.65 <= Q2R (bssa14_period c) -> bs_basin c v (Some z) = Q2R (bssa14_f_7 c).
Proof.
  intros Hc Hv H Hp. unfold bs_basin. destruct (Rlt_dec _ _) as [L|L]; [lra|]. pose proof (cy_mean_z1_upto v Hv) as M. set (m := cy_mean_z1 "california" v) in *. clearbody m.
  pose proof (rows_when_lt bssa14_coeff (fun c => Qle_bool (65 # 100) (bssa14_period c)) (fun _ => 0 # 1)%Q bssa14_f_6 ltac:(vm_compute; reflexivity) c Hc) as F.
  pose proof (rows_when_le bssa14_coeff (fun c => Qle_bool (65 # 100) (bssa14_period c)) bssa14_f_7 (fun c => (66 # 100) * bssa14_f_6 c)%Q ltac:(vm_compute; reflexivity) c Hc) as K.
  cbv beta in F, K. rewrite Rle_Qleb in F, K by rq. specialize (F eq_refl). specialize (K eq_refl). qnorm_in F. qnorm_in K.
  apply Rmin_right. set (f6 := Q2R (bssa14_f_6 c)) in *. set (f7 := Q2R (bssa14_f_7 c)) in *. clearbody f6 f7.
  apply Rle_trans with (0.66 * f6); [lra|]. assert (0.66 <= z - m / 1000) by lra. nra.
Qed.
Lemma bs_deeper src1 src2 a z1 z2 : nga_gives src1 (with_z1 a (Some z1)) -> nga_gives src2 (with_z1 a (Some z2)) -> 0 < n_v a -> z1 <= z2 ->
  compares (bssa14 src1) (bssa14 src2) (fun T y1 y2 => y1 <= y2 /\ (T < 0.65 -> y1 = y2)) eq eq.
Proof.
  intros G1 G2 Hv H. eapply rep_compares; [apply (bs_reports _ _ G1); destruct a; exact Hv|apply (bs_reports _ _ G2); destruct a; exact Hv|..]; cbv beta.
  - intros c Hc. rewrite !bs_z1. pose proof (bs_basin_le c (n_v a) z1 z2 (bs_rows c (or_intror (or_intror Hc))) H).
    split; [apply exp_le_mono; lra|]. intros L. rewrite !bs_short_basin by exact L. reflexivity.
  - rewrite !bs_z1, !bs_short_basin by (cbn; rq). reflexivity.
  - rewrite !bs_z1, !bs_short_basin by (cbn; rq). reflexivity.
Qed.
Lemma bs_saturates src1 src2 a z1 z2 : nga_gives src1 (with_z1 a (Some z1)) -> nga_gives src2 (with_z1 a (Some z2)) -> 0 < n_v a -> 1.2 <= z1 -> 1.2 <= z2 ->
  exists o, gmm_out (bssa14 src1) o /\ gmm_out (bssa14 src2) o.
Proof.
  intros G1 G2 Hv H1 H2. eapply P_mech.rep_eq; [apply (bs_reports _ _ G1); destruct a; exact Hv|apply (bs_reports _ _ G2); destruct a; exact Hv|].
  intros c Hc. apply bs_rows in Hc. cbv beta. rewrite !bs_z1. split; [|nga_split a; reflexivity]. f_equal.
  destruct (Rlt_dec (Q2R (bssa14_period c)) 0.65) as [L|L]; [rewrite !bs_short_basin by exact L; reflexivity|].
  rewrite !bs_basin_sat by (assumption || lra). reflexivity.
Qed.

(** ** CY14 *)
Definition cy_basin (c : cy14_row) (jp : bool) (d : R) : R :=
  (if jp then Q2R (cy14_phi_5jp c) else Q2R (cy14_phi_5 c)) * (1 - exp (- d / (if jp then Q2R (cy14_phi_6jp c) else Q2R (cy14_phi_6 c)))).
Definition cy_base (c : cy14_row) (x : R) (a : nga) : R :=
  cy_ref c x a + (if String.eqb (cy_reg a) "japan" then Q2R (cy14_phi_1jp c) else Q2R (cy14_phi_1 c)) * Rmin (ln (n_v a / 1130)) 0
  + cy_b c (n_v a) * ln ((exp (cy_ref c x a) + Q2R (cy14_phi_4 c)) / Q2R (cy14_phi_4 c)).
Lemma cy_z1 c x a z : cy_med c x (with_z1 a (Some z)) = cy_base c x a + cy_basin c (String.eqb (cy_reg a) "japan") (1000 * z - cy_mean_z1 (cy_reg a) (n_v a)).
Proof. nga_split a. reflexivity. Qed.
Lemma cy_basin_lt (p5 p6 d1 d2 : R) : 0 < p5 -> 0 < p6 -> d1 < d2 -> p5 * (1 - exp (- d1 / p6)) < p5 * (1 - exp (- d2 / p6)).
Proof.
  intros H5 H6 H. apply Rmult_lt_compat_l; [exact H5|]. assert (exp (- d2 / p6) < exp (- d1 / p6)); [|lra].
  apply exp_increasing. unfold Rdiv. apply Rmult_lt_compat_r; [apply Rinv_0_lt_compat, H6|lra].
Qed.
Lemma cy_long c z1 z2 : In c cy14_coeff -> 0.25 < Q2R (cy14_period c) \/ Q2R (cy14_period c) < 0 -> z1 < z2 -> cy_basin c false z1 < cy_basin c false z2.
Proof.
  intros Hc Hp H. row_pos Hc cy14_phi_6 as P6.
  pose proof (rows_when_lt cy14_coeff (fun c => orb (Qltb (1 # 4) (cy14_period c)) (Qltb (cy14_period c) 0)) (fun _ => 0 # 1)%Q cy14_phi_5 ltac:(vm_compute; reflexivity) c Hc) as F.
  cbv beta in F. replace (orb _ _) with true in F. 2:{ symmetry. apply orb_true_iff. destruct Hp as [Hp|Hp]; [left|right]; apply Rlt_Qltb; change (Q2R 0) with (Q2R (0 # 1)); rq. }
  specialize (F eq_refl). qnorm_in F. apply cy_basin_lt; lra.
Qed.
Lemma cy_short c z : In c cy14_coeff -> 0 <= Q2R (cy14_period c) <= 0.25 -> cy_basin c false z = 0.
Proof.
  intros Hc Hp. unfold cy_basin.
  pose proof (rows_when_le cy14_coeff (fun c => andb (Qle_bool 0 (cy14_period c)) (Qle_bool (cy14_period c) (1 # 4))) cy14_phi_5 (fun _ => 0 # 1)%Q ltac:(vm_compute; reflexivity) c Hc) as F.
  row_ge Hc (0 # 1)%Q cy14_phi_5 as F2.
  cbv beta in F. replace (andb _ _) with true in F. 2:{ symmetry. apply andb_true_iff. split; apply Rle_Qleb; change (Q2R 0) with (Q2R (0 # 1)); rq. }
  specialize (F eq_refl). qnorm_in F. replace (Q2R (cy14_phi_5 c)) with 0 by lra. ring.
Qed.
Lemma cy_jp c z1 z2 : In c cy14_coeff -> z1 < z2 -> cy_basin c true z1 < cy_basin c true z2.
Proof. intros Hc H. row_pos Hc cy14_phi_5jp as P5. row_pos Hc cy14_phi_6jp as P6. apply cy_basin_lt; lra. Qed.
Ltac nga_side a := destruct a; cbn in *; first [assumption|reflexivity|lra].
Lemma cy_psa_pos c : In c cy14_psa -> 0 < Q2R (cy14_period c).
Proof. intros Hc. row_pos Hc cy14_period as P. lra. Qed.
Lemma cy_deeper src1 src2 a x z1 z2 : nga_gives src1 (with_z1 a (Some z1)) -> nga_gives src2 (with_z1 a (Some z2)) -> n_x a = Some x -> 0 <= n_rup a -> 0 < n_v a ->
  cy_reg a <> "japan" -> z1 < z2 ->
  compares (cy14 src1) (cy14 src2) (fun T y1 y2 => (T <= 0.25 -> y1 = y2) /\ (0.25 < T -> y1 < y2)) eq Rlt.
Proof.
  intros G1 G2 Hx Hr Hv HJ H. 
  assert (J : String.eqb (cy_reg a) "japan" = false) by (apply String.eqb_neq, HJ).
  eapply rep_compares; [apply (cy_reports _ _ x G1); nga_side a|apply (cy_reports _ _ x G2); nga_side a|..]; cbv beta.
  - intros c Hc. pose proof (cy_rows c (or_intror (or_intror Hc))) as Hc'. pose proof (cy_psa_pos c Hc). rewrite !cy_z1, J. split; intros L.
    + rewrite !(cy_short c) by (assumption || lra). reflexivity.
    + apply exp_increasing, Rplus_lt_compat_l, cy_long; [exact Hc'|left; exact L|lra].
  - rewrite !cy_z1, J, !(cy_short _) by (apply cy14_pga_in || (cbn; rq)). reflexivity.
  - rewrite !cy_z1, J. apply exp_increasing, Rplus_lt_compat_l, cy_long; [apply cy14_pgv_in|right; cbn; rq|lra].
Qed.
Lemma cy_deeper_jp src1 src2 a x z1 z2 : nga_gives src1 (with_z1 a (Some z1)) -> nga_gives src2 (with_z1 a (Some z2)) -> n_x a = Some x -> 0 <= n_rup a -> 0 < n_v a ->
  n_region a = Some "japan" -> z1 < z2 -> compares (cy14 src1) (cy14 src2) (fun _ => Rlt) Rlt Rlt.
Proof.
  intros G1 G2 Hx Hr Hv HJ H.
  assert (J : String.eqb (cy_reg a) "japan" = true) by (unfold cy_reg; rewrite HJ; reflexivity).
  eapply rep_compares; [apply (cy_reports _ _ x G1); nga_side a|apply (cy_reports _ _ x G2); nga_side a|..]; cbv beta.
  - intros c Hc. rewrite !cy_z1, J. apply exp_increasing, Rplus_lt_compat_l, cy_jp; [apply cy_rows; right; right; exact Hc|lra].
  - rewrite !cy_z1, J. apply exp_increasing, Rplus_lt_compat_l, cy_jp; [apply cy14_pga_in|lra].
  - rewrite !cy_z1, J. apply exp_increasing, Rplus_lt_compat_l, cy_jp; [apply cy14_pgv_in|lra].
Qed.

(** ** ASK14 *)
Definition as_slope (c : ask14_row) (v : R) : R :=
  polyline 150 (Q2R (ask14_a43 c)) [(250, Q2R (ask14_a44 c)); (400, Q2R (ask14_a45 c)); (700, Q2R (ask14_a46 c))] v.
Definition as_base (c : ask14_row) (a : nga) : R := as_source_path c a + as_regional c (as_reg a) (n_v a) (n_rup a) + as_f5 c (n_v a) (exp (as_rock c a)).
Lemma as_z1_med c a z : as_med c (with_z1 a (Some z)) = as_base c a + as_f10 c (as_reg a) (n_v a) (Some z).
Proof. nga_split a. reflexivity. Qed.
Lemma as_f10_eq c re v z : v <> 1180 -> as_f10 c re v (Some z) = as_slope c v * ln ((z + 0.01) / (as_z1 re v + 0.01)).
Proof. intros H. unfold as_f10. destruct (Req_EM_T v 1180); [contradiction|reflexivity]. Qed.
Lemma as_ln_lt re v z1 z2 : 0 <= z1 -> z1 < z2 -> ln ((z1 + 0.01) / (as_z1 re v + 0.01)) < ln ((z2 + 0.01) / (as_z1 re v + 0.01)).
Proof.
  intros H0 H. pose proof (as_z1_pos re v) as P. assert (I : 0 < / (as_z1 re v + 0.01)) by (apply Rinv_0_lt_compat; lra).
  apply ln_increasing; [apply Rmult_lt_0_compat; lra|]. apply Rmult_lt_compat_r; lra.
Qed.
Ltac poly := unfold as_slope, polyline; repeat destruct (Rle_dec _ _); try lra.
Lemma seg_pos (x0 x1 y0 y1 x : R) : x0 < x1 -> x0 < x -> x < x1 -> 0 <= y0 -> 0 <= y1 -> 0 < y0 \/ 0 < y1 -> 0 < y0 + (y1 - y0) / (x1 - x0) * (x - x0).
Proof.
  intros H L1 L2 P0 P1 P. replace (y0 + (y1 - y0) / (x1 - x0) * (x - x0)) with ((y0 * (x1 - x) + y1 * (x - x0)) * / (x1 - x0)) by (field; lra).
  apply Rmult_lt_0_compat; [|apply Rinv_0_lt_compat; lra].
  pose proof (Rmult_le_pos y0 (x1 - x) P0 ltac:(lra)). pose proof (Rmult_le_pos y1 (x - x0) P1 ltac:(lra)).
  destruct P as [P|P]; [pose proof (Rmult_lt_0_compat y0 (x1 - x) P ltac:(lra))|pose proof (Rmult_lt_0_compat y1 (x - x0) P ltac:(lra))]; lra.
Qed.
Lemma as_slope_soft c v : In c ask14_coeff -> v < 400 -> 0 < as_slope c v.
Proof.
  intros Hc H. row_pos Hc ask14_a43 as A. row_pos Hc ask14_a44 as B. row_ge Hc (0 # 1)%Q ask14_a45 as D. poly.
  - destruct (Req_dec v 250) as [->|N]; [|apply seg_pos; lra]. replace (_ + _) with (Q2R (ask14_a44 c)) by field. lra.
  - apply seg_pos; lra.
Qed.
Lemma as_slope_long c v : In c ask14_coeff -> 0.25 < Q2R (ask14_period c) \/ Q2R (ask14_period c) < 0 -> 0 < as_slope c v.
Proof.
  intros Hc Hp. destruct (Rlt_le_dec v 400) as [L|L]; [apply as_slope_soft; assumption|].
  pose proof (rows_when_lt ask14_coeff (fun c => orb (Qltb (1 # 4) (ask14_period c)) (Qltb (ask14_period c) 0)) (fun _ => 0 # 1)%Q ask14_a45 ltac:(vm_compute; reflexivity) c Hc) as F.
  pose proof (rows_when_lt ask14_coeff (fun c => orb (Qltb (1 # 4) (ask14_period c)) (Qltb (ask14_period c) 0)) (fun _ => 0 # 1)%Q ask14_a46 ltac:(vm_compute; reflexivity) c Hc) as K.
  cbv beta in F, K. replace (orb _ _) with true in F, K by (symmetry; apply orb_true_iff; destruct Hp as [Hp|Hp]; [left|right]; apply Rlt_Qltb; change (Q2R 0) with (Q2R (0 # 1)); rq).
  specialize (F eq_refl). specialize (K eq_refl). qnorm_in F. qnorm_in K. poly.
  - replace v with 400 by lra. replace (_ + _) with (Q2R (ask14_a45 c)) by field. lra.
  - destruct (Req_dec v 700) as [->|N]; [|apply seg_pos; lra]. replace (_ + _) with (Q2R (ask14_a46 c)) by field. lra.
Qed.
Lemma as_slope_short c v : In c ask14_coeff -> 0 <= Q2R (ask14_period c) <= 0.2 -> 400 < v -> as_slope c v < 0.
Proof.
  intros Hc Hp L.
  pose proof (rows_when_le ask14_coeff (fun c => andb (Qle_bool 0 (ask14_period c)) (Qle_bool (ask14_period c) (1 # 5))) ask14_a45 (fun _ => 0 # 1)%Q ltac:(vm_compute; reflexivity) c Hc) as F.
  pose proof (rows_when_lt ask14_coeff (fun c => andb (Qle_bool 0 (ask14_period c)) (Qle_bool (ask14_period c) (1 # 5))) ask14_a46 (fun _ => 0 # 1)%Q ltac:(vm_compute; reflexivity) c Hc) as K.
  row_ge Hc (0 # 1)%Q ask14_a45 as D.
  cbv beta in F, K. replace (andb _ _) with true in F, K by (symmetry; apply andb_true_iff; split; apply Rle_Qleb; change (Q2R 0) with (Q2R (0 # 1)); rq).
  specialize (F eq_refl). specialize (K eq_refl). qnorm_in F. qnorm_in K. poly.
  - replace (Q2R (ask14_a45 c)) with 0 by lra. replace (0 + _) with (Q2R (ask14_a46 c) * ((v - 400) / 300)) by field.
    apply Ropp_lt_cancel. rewrite Ropp_0, <- Ropp_mult_distr_l_reverse. apply Rmult_lt_0_compat; lra.
Qed.
Lemma as_psa_pos c : In c ask14_psa -> 0 < Q2R (ask14_period c).
Proof. intros Hc. row_pos Hc ask14_period as P. lra. Qed.
Lemma as_up c a z1 z2 : n_v a <> 1180 -> 0 <= z1 -> z1 < z2 -> 0 < as_slope c (n_v a) -> exp (as_med c (with_z1 a (Some z1))) < exp (as_med c (with_z1 a (Some z2))).
Proof.
  intros Hv H0 H S. rewrite !as_z1_med, !as_f10_eq by exact Hv. apply exp_increasing, Rplus_lt_compat_l, Rmult_lt_compat_l; [exact S|apply as_ln_lt; assumption].
Qed.
Lemma as_down c a z1 z2 : n_v a <> 1180 -> 0 <= z1 -> z1 < z2 -> as_slope c (n_v a) < 0 -> exp (as_med c (with_z1 a (Some z2))) < exp (as_med c (with_z1 a (Some z1))).
Proof.
  intros Hv H0 H S. rewrite !as_z1_med, !as_f10_eq by exact Hv. apply exp_increasing, Rplus_lt_compat_l.
  pose proof (as_ln_lt (as_reg a) (n_v a) z1 z2 H0 H) as L. revert L S. generalize (as_slope c (n_v a)).
  generalize (ln ((z1 + 0.01) / (as_z1 (as_reg a) (n_v a) + 0.01))). generalize (ln ((z2 + 0.01) / (as_z1 (as_reg a) (n_v a) + 0.01))). intros. nra.
Qed.
Lemma as_z1_rep src a t z : nga_gives src (with_z1 a (Some z)) -> n_mech a = Some t -> 0 < n_v a -> as_geom a -> 0 <= z ->
  reports (ask14 src) ask14_psa ask14_pga_row ask14_pgv_row ask14_period (fun c => as_med c (with_z1 a (Some z))) (fun c => as_sd c (with_z1 a (Some z))).
Proof. intros G Ht Hv Hg Hz. apply (as_reports _ _ t G); nga_side a. Qed.
Lemma as_deeper_soft src1 src2 a t z1 z2 : nga_gives src1 (with_z1 a (Some z1)) -> nga_gives src2 (with_z1 a (Some z2)) -> n_mech a = Some t -> as_geom a ->
  0 < n_v a < 400 -> 0 <= z1 -> z1 < z2 -> compares (ask14 src1) (ask14 src2) (fun _ => Rlt) Rlt Rlt.
Proof.
  intros G1 G2 Ht Hg Hv H0 H.
  assert (K : forall c, In c ask14_coeff -> exp (as_med c (with_z1 a (Some z1))) < exp (as_med c (with_z1 a (Some z2)))).
  { intros c Hc. apply as_up; try lra. apply as_slope_soft; [exact Hc|lra]. }
  eapply rep_compares; [apply (as_z1_rep _ a t z1); (assumption || lra)|apply (as_z1_rep _ a t z2); (assumption || lra)|..]; cbv beta.
  - intros c Hc. apply K, as_rows. right. right. exact Hc.
  - apply K, ask14_pga_in.
  - apply K, ask14_pgv_in.
Qed.
Lemma as_deeper_stiff src1 src2 a t z1 z2 : nga_gives src1 (with_z1 a (Some z1)) -> nga_gives src2 (with_z1 a (Some z2)) -> n_mech a = Some t -> as_geom a ->
  400 < n_v a -> n_v a <> 1180 -> 0 <= z1 -> z1 < z2 ->
  compares (ask14 src1) (ask14 src2) (fun T y1 y2 => (T <= 0.2 -> y2 < y1) /\ (0.25 < T -> y1 < y2)) (fun y1 y2 => y2 < y1) Rlt.
Proof.
  intros G1 G2 Ht Hg Hv Hn H0 H.
  eapply rep_compares; [apply (as_z1_rep _ a t z1); (assumption || lra)|apply (as_z1_rep _ a t z2); (assumption || lra)|..]; cbv beta.
  - intros c Hc. pose proof (as_psa_pos c Hc). pose proof (as_rows c (or_intror (or_intror Hc))) as Hc'. split; intros L.
    + apply as_down; try assumption. apply as_slope_short; (assumption || lra).
    + apply as_up; try assumption. apply as_slope_long; [exact Hc'|left; exact L].
  - apply as_down; try assumption. apply as_slope_short; [apply ask14_pga_in|cbn; rq|exact Hv].
  - apply as_up; try assumption. apply as_slope_long; [apply ask14_pgv_in|right; cbn; rq].
Qed.
Lemma as_depth_1180 src1 src2 a t z1 z2 : nga_gives src1 (with_z1 a (Some z1)) -> nga_gives src2 (with_z1 a (Some z2)) -> n_mech a = Some t -> as_geom a ->
  n_v a = 1180 -> 0 <= z1 -> 0 <= z2 -> exists o, gmm_out (ask14 src1) o /\ gmm_out (ask14 src2) o.
Proof.
  intros G1 G2 Ht Hg Hv H1 H2.
  eapply P_mech.rep_eq; [apply (as_z1_rep _ a t z1); (assumption || lra)|apply (as_z1_rep _ a t z2); (assumption || lra)|].
  intros c _. cbv beta. rewrite !as_z1_med. split; [|nga_split a; reflexivity]. f_equal. unfold as_f10. rewrite Hv. destruct (Req_EM_T 1180 1180); [reflexivity|lra].
Qed.

(** ** CB14 *)
Definition cb_base (c : cb14_row) (x : R) (a : nga) : R := cb_source_path c x a + cb_fsite c (cb_reg a) (n_v a) (cb_rock_pga cb14_pga_row x a).
Lemma cb_z25_med c x a z : cb_med cb14_pga_row c x (with_z25 a (Some z)) = cb_base c x a + cb_fsed c (cb_reg a) z.
Proof. nga_split a. reflexivity. Qed.
Lemma cb_z25_rep src a x t z : nga_gives src (with_z25 a (Some z)) -> n_x a = Some x -> n_mech a = Some t -> 0 < n_v a -> 0 < n_dip a <= 90 ->
  (x = 0 -> n_dip a < 90 /\ match n_width a with Some w => w <> 0 | None => n_tor a = None /\ n_bot a = None end) -> (n_hyp a = None -> cb_tor a < cb_bor a) ->
  reports (cb14 src) cb14_psa cb14_pga_row cb14_pgv_row cb14_period (fun c => cb_med cb14_pga_row c x (with_z25 a (Some z))) (fun c => cb_sd cb14_pga_row c x (with_z25 a (Some z))).
Proof. intros G Hx Ht Hv Hd Hw Hh. apply (cb_reports _ _ x t G); nga_split a; cbn in *; try assumption. Qed.
Lemma cb_deep_pos c re z : In c cb14_coeff -> 3 < z -> 0 < cb_fsed c re z.
Proof.
  intros Hc H. unfold cb_fsed. destruct (Rle_dec z 1); [lra|]. destruct (Rle_dec z 3); [lra|]. row_pos Hc cb14_c_16 as A. row_pos Hc cb14_k_3 as B.
  pose proof (exp_pos (- 0.75)). assert (exp (- 0.25 * (z - 3)) < 1) by (rewrite <- exp_0; apply exp_increasing; lra).
  apply Rmult_lt_0_compat; [|lra]. apply Rmult_lt_0_compat; [|assumption]. apply Rmult_lt_0_compat; lra.
Qed.
Lemma cb_deep_lt c re z1 z2 : In c cb14_coeff -> 1 <= z1 -> z1 < z2 -> 3 < z2 -> cb_fsed c re z1 < cb_fsed c re z2.
Proof.
  intros Hc H1 H H3. destruct (Rle_dec z1 3) as [L|L].
  - pose proof (cb_deep_pos c re z2 Hc H3). assert (cb_fsed c re z1 = 0); [|lra]. unfold cb_fsed. destruct (Rle_dec z1 1); [replace z1 with 1 by lra; ring|]. destruct (Rle_dec z1 3); lra.
  - unfold cb_fsed. destruct (Rle_dec z1 1); [lra|]. destruct (Rle_dec z1 3); [lra|]. destruct (Rle_dec z2 1); [lra|]. destruct (Rle_dec z2 3); [lra|].
    row_pos Hc cb14_c_16 as A. row_pos Hc cb14_k_3 as B. apply Rmult_lt_compat_l.
    + apply Rmult_lt_0_compat; [|apply exp_pos]. apply Rmult_lt_0_compat; lra.
    + assert (exp (- 0.25 * (z2 - 3)) < exp (- 0.25 * (z1 - 3))) by (apply exp_increasing; lra). lra.
Qed.
Lemma cb_flat c re z : 1 <= z <= 3 -> cb_fsed c re z = 0.
Proof. intros H. unfold cb_fsed. destruct (Rle_dec z 1); [replace z with 1 by lra; ring|]. destruct (Rle_dec z 3); lra. Qed.
Lemma cb_deeper src1 src2 a x t z1 z2 : nga_gives src1 (with_z25 a (Some z1)) -> nga_gives src2 (with_z25 a (Some z2)) -> n_x a = Some x -> n_mech a = Some t ->
  cb_geom x a -> 0 < n_v a -> 1 <= z1 -> z1 < z2 ->
  compares (cb14 src1) (cb14 src2) (fun _ y1 y2 => (z2 <= 3 -> y1 = y2) /\ (3 < z2 -> y1 < y2)) (fun y1 y2 => (z2 <= 3 -> y1 = y2) /\ (3 < z2 -> y1 < y2)) (fun y1 y2 => (z2 <= 3 -> y1 = y2) /\ (3 < z2 -> y1 < y2)).
Proof.
  intros G1 G2 Hx Ht (Hg1 & Hg2 & Hg3) Hv H0 H.
  assert (K : forall c, In c cb14_coeff -> (z2 <= 3 -> exp (cb_med cb14_pga_row c x (with_z25 a (Some z1))) = exp (cb_med cb14_pga_row c x (with_z25 a (Some z2)))) /\
     (3 < z2 -> exp (cb_med cb14_pga_row c x (with_z25 a (Some z1))) < exp (cb_med cb14_pga_row c x (with_z25 a (Some z2))))).
  { intros c Hc. rewrite !cb_z25_med. split; intros L; [rewrite !cb_flat by lra; reflexivity|]. apply exp_increasing, Rplus_lt_compat_l, cb_deep_lt; assumption. }
  eapply rep_compares; [apply (cb_z25_rep _ a x t z1); assumption|apply (cb_z25_rep _ a x t z2); assumption|..]; cbv beta.
  - intros c Hc. apply K, cb_rows. right. right. exact Hc.
  - apply K, cb14_pga_in.
  - apply K, cb14_pgv_in.
Qed.
Lemma cb_shallow c x a z : z <= 1 -> cb_med cb14_pga_row c x (with_z25 a (Some z)) = cb_base c x a + (Q2R (cb14_c_14 c) + (if String.eqb (cb_reg a) "japan" then Q2R (cb14_c_15 c) else 0)) * (z - 1).
Proof. intros H. rewrite cb_z25_med. f_equal. unfold cb_fsed. destruct (Rle_dec z 1); [reflexivity|lra]. Qed.
Lemma cb_psa_pos c : In c cb14_psa -> 0 < Q2R (cb14_period c).
Proof. intros Hc. row_pos Hc cb14_period as P. lra. Qed.
Lemma lin_up B k z1 z2 : 0 < k -> z1 < z2 -> exp (B + k * (z1 - 1)) < exp (B + k * (z2 - 1)).
Proof. intros. apply exp_increasing. nra. Qed.
Lemma lin_down B k z1 z2 : k < 0 -> z1 < z2 -> exp (B + k * (z2 - 1)) < exp (B + k * (z1 - 1)).
Proof. intros. apply exp_increasing. nra. Qed.
(** Below the level [T] (and at zero) the shallow coefficient is negative, above it (and for PGV) positive. *)
Lemma cb_shallow_cmp src1 src2 a x t z1 z2 (q1 q2 : Q) : nga_gives src1 (with_z25 a (Some z1)) -> nga_gives src2 (with_z25 a (Some z2)) -> n_x a = Some x -> n_mech a = Some t ->
  cb_geom x a -> 0 < n_v a -> z1 < z2 -> z2 <= 1 ->
  (let k c := Q2R (cb14_c_14 c) + (if String.eqb (cb_reg a) "japan" then Q2R (cb14_c_15 c) else 0) in
   (forall c, In c cb14_coeff -> 0 <= Q2R (cb14_period c) <= Q2R q1 -> k c < 0) /\ (forall c, In c cb14_coeff -> Q2R q2 <= Q2R (cb14_period c) \/ Q2R (cb14_period c) < 0 -> 0 < k c)) ->
  0 <= Q2R q1 ->
  compares (cb14 src1) (cb14 src2) (fun T y1 y2 => (T <= Q2R q1 -> y2 < y1) /\ (Q2R q2 <= T -> y1 < y2)) (fun y1 y2 => y2 < y1) Rlt.
Proof.
  intros G1 G2 Hx Ht (Hg1 & Hg2 & Hg3) Hv H H1 [KS KL] Hq.
  eapply rep_compares; [apply (cb_z25_rep _ a x t z1); assumption|apply (cb_z25_rep _ a x t z2); assumption|..]; cbv beta.
  - intros c Hc. pose proof (cb_psa_pos c Hc). pose proof (cb_rows c (or_intror (or_intror Hc))) as Hc'. rewrite !cb_shallow by lra. split; intros L.
    + apply lin_down; [|exact H]. apply KS; [exact Hc'|lra].
    + apply lin_up; [|exact H]. apply KL; [exact Hc'|left; exact L].
  - rewrite !cb_shallow by lra. apply lin_down; [|exact H]. apply KS; [apply cb14_pga_in|]. change (cb14_period cb14_pga_row) with (0 # 1)%Q. rq.
  - rewrite !cb_shallow by lra. apply lin_up; [|exact H]. apply KL; [apply cb14_pgv_in|right; cbn; rq].
Qed.
Lemma cb_shallow_world src1 src2 a x t z1 z2 : nga_gives src1 (with_z25 a (Some z1)) -> nga_gives src2 (with_z25 a (Some z2)) -> n_x a = Some x -> n_mech a = Some t ->
  cb_geom x a -> 0 < n_v a -> cb_reg a <> "japan" -> z1 < z2 -> z2 <= 1 ->
  compares (cb14 src1) (cb14 src2) (fun T y1 y2 => (T <= 0.1 -> y2 < y1) /\ (0.15 <= T -> y1 < y2)) (fun y1 y2 => y2 < y1) Rlt.
Proof.
  intros G1 G2 Hx Ht Hg Hv HJ H H1. apply String.eqb_neq in HJ.
  assert (C : compares (cb14 src1) (cb14 src2) (fun T y1 y2 => (T <= Q2R (1 # 10) -> y2 < y1) /\ (Q2R (15 # 100) <= T -> y1 < y2)) (fun y1 y2 => y2 < y1) Rlt).
  { apply (cb_shallow_cmp src1 src2 a x t z1 z2); try assumption; [|rq]. cbv zeta. rewrite HJ. split; intros c Hc Hp.
    - pose proof (rows_when_lt cb14_coeff (fun c => andb (Qle_bool 0 (cb14_period c)) (Qle_bool (cb14_period c) (1 # 10))) cb14_c_14 (fun _ => 0 # 1)%Q ltac:(vm_compute; reflexivity) c Hc) as F.
      cbv beta in F. replace (andb _ _) with true in F by (symmetry; apply andb_true_iff; split; apply Rle_Qleb; change (Q2R 0) with (Q2R (0 # 1)); rq).
      specialize (F eq_refl). qnorm_in F. lra.
    - pose proof (rows_when_lt cb14_coeff (fun c => orb (Qle_bool (15 # 100) (cb14_period c)) (Qltb (cb14_period c) 0)) (fun _ => 0 # 1)%Q cb14_c_14 ltac:(vm_compute; reflexivity) c Hc) as F.
      cbv beta in F. replace (orb _ _) with true in F by (symmetry; apply orb_true_iff; destruct Hp as [Hp|Hp]; [left; apply Rle_Qleb|right; apply Rlt_Qltb; change (Q2R 0) with (Q2R (0 # 1))]; rq).
      specialize (F eq_refl). qnorm_in F. lra. }
  revert C. apply compares_weaken; [|auto..]. intros T y1 y2 [S1 S2]. split; intros; [apply S1|apply S2]; rq.
Qed.
Lemma cb_shallow_japan src1 src2 a x t z1 z2 : nga_gives src1 (with_z25 a (Some z1)) -> nga_gives src2 (with_z25 a (Some z2)) -> n_x a = Some x -> n_mech a = Some t ->
  cb_geom x a -> 0 < n_v a -> n_region a = Some "japan" -> z1 < z2 -> z2 <= 1 ->
  compares (cb14 src1) (cb14 src2) (fun T y1 y2 => (T <= 0.25 -> y2 < y1) /\ (0.3 <= T -> y1 < y2)) (fun y1 y2 => y2 < y1) Rlt.
Proof.
  intros G1 G2 Hx Ht Hg Hv HJ H H1. assert (J : String.eqb (cb_reg a) "japan" = true) by (unfold cb_reg; rewrite HJ; reflexivity).
  assert (C : compares (cb14 src1) (cb14 src2) (fun T y1 y2 => (T <= Q2R (1 # 4) -> y2 < y1) /\ (Q2R (3 # 10) <= T -> y1 < y2)) (fun y1 y2 => y2 < y1) Rlt).
  { apply (cb_shallow_cmp src1 src2 a x t z1 z2); try assumption; [|rq]. cbv zeta. rewrite J. split; intros c Hc Hp.
    - pose proof (rows_when_lt cb14_coeff (fun c => andb (Qle_bool 0 (cb14_period c)) (Qle_bool (cb14_period c) (1 # 4))) (fun c => cb14_c_14 c + cb14_c_15 c)%Q (fun _ => 0 # 1)%Q ltac:(vm_compute; reflexivity) c Hc) as F.
      cbv beta in F. replace (andb _ _) with true in F by (symmetry; apply andb_true_iff; split; apply Rle_Qleb; change (Q2R 0) with (Q2R (0 # 1)); rq).
      specialize (F eq_refl). qnorm_in F. lra.
    - pose proof (rows_when_lt cb14_coeff (fun c => orb (Qle_bool (3 # 10) (cb14_period c)) (Qltb (cb14_period c) 0)) (fun _ => 0 # 1)%Q (fun c => cb14_c_14 c + cb14_c_15 c)%Q ltac:(vm_compute; reflexivity) c Hc) as F.
      cbv beta in F. replace (orb _ _) with true in F by (symmetry; apply orb_true_iff; destruct Hp as [Hp|Hp]; [left; apply Rle_Qleb|right; apply Rlt_Qltb; change (Q2R 0) with (Q2R (0 # 1))]; rq).
      specialize (F eq_refl). qnorm_in F. lra. }
  revert C. apply compares_weaken; [|auto..]. intros T y1 y2 [S1 S2]. split; intros; [apply S1|apply S2]; rq.
Qed.
