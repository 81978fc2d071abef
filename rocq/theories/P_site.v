(** * Site response: the NGA-West2 medians as functions of v_s30 *)
From Coquelicot Require Import Coquelicot.
From Interval Require Import Tactic.
From Coq Require Import List.
From Verif Require Import M_cy14 M_bssa14 M_cb14 M_ask14 FrameworkProofs Anal Nga Outs Cont Cont1 SpecNga P_cy14 P_bssa14 P_cb14 P_cb14b P_ask14 P_ask14b P_ngaspec
  Spec_cy14 Spec_bssa14 Spec_cb14 Spec_ask14 Properties_NGA Properties_NGAPub Properties_NGAPub2 Properties_NGAPub3 P_ngamag P_ngacont P_hw P_mech Spec_basin P_basin P_bsmag Spec_site.
Open Scope R_scope.
Open Scope string_scope.
Open Scope list_scope.

(** ** Rational upper bounds of exponentials *)
Lemma rup_ok n q : Q2R q <= Q2R (rup n q).
Proof.
  apply Qle_Rle. unfold rup, Qle. cbn [Qnum Qden]. destruct q as [a b]. cbn [Qnum Qden].
  pose proof (Z.div_mod (a * Zpos n) (Zpos b) ltac:(lia)) as D. pose proof (Z.mod_pos_bound (a * Zpos n) (Zpos b) ltac:(lia)) as M.
  set (q := (a * Zpos n / Zpos b)%Z) in *. nia.
Qed.
Definition rsq (q : Q) : Q := rup 100000 (q * q).
Definition cub (x : Q) : Q := (1 + x * (1 + x * ((1#2) + x * (1#4))))%Q.
Definition expub (x : Q) : Q := rsq (rsq (rsq (rsq (rup 100000 (cub (x * (1#16))))))).
Lemma rsq_ok x q : exp x <= Q2R q -> exp (x + x) <= Q2R (rsq q).
Proof. intros H. eapply Rle_trans; [|apply rup_ok]. rewrite Q2R_mult, exp_plus. pose proof (exp_pos x). apply Rmult_le_compat; lra. Qed.
Lemma expub_ok x : 0 <= Q2R x <= 16 -> exp (Q2R x) <= Q2R (expub x).
Proof.
  intros H. unfold expub. set (y := Q2R x / 16). assert (E : exp y <= Q2R (rup 100000 (cub (x * (1#16))))).
  { eapply Rle_trans; [apply (exp_cubic y); unfold y; lra|]. eapply Rle_trans; [|apply rup_ok]. unfold cub. 
    rewrite !Q2R_plus, !Q2R_mult, !Q2R_plus, !Q2R_mult, !Q2R_plus, !Q2R_mult. change (Q2R 1) with (Q2R (1#1)). qlit. unfold y. lra. }
  apply rsq_ok, rsq_ok, rsq_ok, rsq_ok in E. replace (Q2R x) with (y + y + (y + y) + (y + y + (y + y)) + (y + y + (y + y) + (y + y + (y + y)))) by (unfold y; lra). exact E.
Qed.

(** ** Chiou-Youngs form: c ln v + f4 (exp (f5 (v - 360)) - const) L *)
Lemma u_exp_u k u : 0 <= k -> 0 < u -> k * exp (- k * (u - 360)) * u <= exp (360 * k - 1).
Proof.
  intros Hk Hu. assert (E : k * u <= exp (k * u - 1)) by (pose proof (exp_ineq1_le (k * u - 1)); lra).
  replace (exp (360 * k - 1)) with (exp (k * u - 1) * exp (- k * (u - 360))) by (rewrite <- exp_plus; f_equal; ring).
  pose proof (exp_pos (- k * (u - 360))). nra.
Qed.
Lemma exp_vs_ln k S u1 u2 : 0 <= k -> exp (360 * k - 1) <= S -> 0 < u1 -> u1 <= u2 -> exp (- k * (u1 - 360)) - exp (- k * (u2 - 360)) <= S * (ln u2 - ln u1).
Proof.
  intros Hk HS H1 [H12|<-]; [|lra].
  set (h := fun u => exp (- k * (u - 360)) + S * ln u).
  destruct (MVT_gen h u1 u2 (fun u => - k * exp (- k * (u - 360)) + S / u)) as (c & Hc & E).
  - intros t Ht. rewrite Rmin_left, Rmax_right in Ht by lra. unfold h. auto_derive; [lra|]. unfold Rminus. field. lra.
  - intros t Ht. rewrite Rmin_left, Rmax_right in Ht by lra. apply continuity_pt_filterlim. apply (ex_derive_continuous h). unfold h. auto_derive. lra.
  - rewrite Rmin_left, Rmax_right in Hc by lra. unfold h in E.
    assert (0 <= (- k * exp (- k * (c - 360)) + S / c) * (u2 - u1)); [|lra].
    apply Rmult_le_pos; [|lra]. pose proof (u_exp_u k c Hk ltac:(lra)) as U.
    replace (- k * exp (- k * (c - 360)) + S / c) with ((S - k * exp (- k * (c - 360)) * c) / c) by (field; lra).
    apply Rmult_le_pos; [lra|]. left; apply Rinv_0_lt_compat; lra.
Qed.
Lemma min_incr f w v1 v2 : f <= w -> 0 < v1 -> 0 < f -> v1 <= v2 -> ln (Rmin v2 f) - ln (Rmin v1 f) <= ln (Rmin v2 w) - ln (Rmin v1 w).
Proof.
  intros Hf H1 H0 H12. assert (A : ln (Rmin v1 f) <= ln (Rmin v1 w)) by (apply ln_le_mono; unfold Rmin; repeat destruct (Rle_dec _ _); lra).
  assert (B : ln (Rmin v2 f) <= ln (Rmin v2 w)) by (apply ln_le_mono; unfold Rmin; repeat destruct (Rle_dec _ _); lra).
  destruct (Rle_dec v1 f) as [L|L].
  - replace (Rmin v1 f) with v1 by (rewrite Rmin_left; lra). replace (Rmin v1 w) with v1 by (rewrite Rmin_left; lra). lra.
  - replace (Rmin v1 f) with f by (rewrite Rmin_right; lra). replace (Rmin v2 f) with f by (rewrite Rmin_right; lra).
    assert (ln (Rmin v1 w) <= ln (Rmin v2 w)); [|lra]. apply ln_le_mono; unfold Rmin; repeat destruct (Rle_dec _ _); lra.
Qed.
(** The whole change between two velocities; [vc]: cap of the linear term, [vn]: cap of the nonlinear one. *)
Lemma cy_form c f4 n4 k S L vn vc v1 v2 : 0 <= n4 -> - n4 <= f4 -> 0 <= k -> exp (360 * k - 1) <= S -> 0 <= L -> 0 < vn -> vn <= vc -> 0 < v1 -> v1 <= v2 ->
  c * (ln (Rmin v2 vc) - ln (Rmin v1 vc)) + f4 * (exp (- k * (Rmin v2 vn - 360)) - exp (- k * (Rmin v1 vn - 360))) * L
  <= (c + n4 * S * L) * (ln (Rmin v2 vc) - ln (Rmin v1 vc)).
Proof.
  intros Hn Hf Hk HS HL Hvn Hvc H1 H12.
  pose proof (min_incr vn vc v1 v2 Hvc H1 Hvn H12) as I. 
  assert (M : Rmin v1 vn <= Rmin v2 vn) by (apply Rle_min_compat_r; lra). assert (P : 0 < Rmin v1 vn) by (apply Rmin_pos; lra).
  pose proof (exp_vs_ln k S _ _ Hk HS P M) as X.
  assert (Z : exp (- k * (Rmin v2 vn - 360)) <= exp (- k * (Rmin v1 vn - 360))) by (apply exp_le_mono; nra).
  assert (S0 : 0 < S) by (pose proof (exp_pos (360 * k - 1)); lra).
  set (e1 := exp (- k * (Rmin v1 vn - 360))) in *. set (e2 := exp (- k * (Rmin v2 vn - 360))) in *. set (l := ln (Rmin v2 vc) - ln (Rmin v1 vc)) in *. set (l' := ln (Rmin v2 vn) - ln (Rmin v1 vn)) in *.
  clearbody e1 e2 l l'. assert (Y : e1 - e2 <= S * l) by nra.
  assert (f4 * (e2 - e1) <= n4 * (S * l)).
  { assert (0 <= (f4 + n4) * (e1 - e2)) by (apply Rmult_le_pos; lra). assert (0 <= n4 * (S * l - (e1 - e2))) by (apply Rmult_le_pos; lra). lra. }
  assert (f4 * (e2 - e1) * L <= n4 * (S * l) * L) by (apply Rmult_le_compat_r; lra). lra.
Qed.
Lemma cy_form_le c f4 n4 k S L Lm vn vc v1 v2 : 0 <= n4 -> - n4 <= f4 -> 0 <= k -> exp (360 * k - 1) <= S -> 0 <= L <= Lm -> 0 < vn -> vn <= vc -> 0 < v1 -> v1 < v2 ->
  c + n4 * S * Lm < 0 ->
  let d := c * (ln (Rmin v2 vc) - ln (Rmin v1 vc)) + f4 * (exp (- k * (Rmin v2 vn - 360)) - exp (- k * (Rmin v1 vn - 360))) * L in
  d <= 0 /\ (v1 < vc -> d < 0).
Proof.
  intros Hn Hf Hk HS HL Hvn Hvc H1 H12 HC d. pose proof (cy_form c f4 n4 k S L vn vc v1 v2 Hn Hf Hk HS ltac:(lra) Hvn Hvc H1 ltac:(lra)) as F. fold d in F.
  assert (S0 : 0 < S) by (pose proof (exp_pos (360 * k - 1)); lra).
  assert (C : c + n4 * S * L < 0). { assert (0 <= n4 * S * (Lm - L)) by (repeat apply Rmult_le_pos; lra). lra. }
  split.
  - assert (ln (Rmin v1 vc) <= ln (Rmin v2 vc)); [|nra]. apply ln_le_mono; [apply Rmin_pos; lra|apply Rle_min_compat_r; lra].
  - intros Hv. assert (ln (Rmin v1 vc) < ln (Rmin v2 vc)); [|nra]. apply ln_increasing; [apply Rmin_pos; lra|unfold Rmin; repeat destruct (Rle_dec _ _); lra].
Qed.

(** ** BSSA14 *)
Lemma bs_v ca c a v : n_z1 a = None -> bs_med ca c (with_v a v) = bs_rock c a + bs_lin c v + bs_nonlin c v (exp (bs_rock ca a)).
Proof. intros H. nga_split a. cbn in H. subst. unfold bs_med. cbn [Nga.n_z1 Nga.n_v with_v bs_basin]. rewrite Rplus_0_r. reflexivity. Qed.
Lemma bs_760 ca c a : In c bssa14_coeff -> n_z1 a = None -> bs_med ca c (with_v a 760) = bs_rock c a.
Proof.
  intros Hc H. rewrite bs_v by exact H. unfold bs_lin, bs_nonlin. row_ge Hc (760#1)%Q bssa14_V_c as V. rewrite !Rmin_left by lra.
  replace (760 / 760) with 1 by field. rewrite ln_1. ring.
Qed.
Definition bs_S (c : bssa14_row) : Q := rup 100000 ((36788#100000) * expub (- (360#1) * bssa14_f_5 c)).
Lemma S_ok k (q : Q) : 0 <= k -> 360 * k = Q2R q -> 360 * k <= 16 -> exp (360 * k - 1) <= Q2R (rup 100000 ((36788#100000) * expub q)).
Proof.
  intros H1 H2 H3. eapply Rle_trans; [|apply rup_ok]. rewrite Q2R_mult. replace (360 * k - 1) with (360 * k + - (1)) by ring. rewrite exp_plus, H2, Rmult_comm.
  pose proof (exp_pos (-(1))). pose proof (exp_pos (Q2R q)). pose proof (expub_ok q ltac:(lra)).
  assert (exp (-(1)) <= Q2R (36788#100000)). { qlit. interval with (i_prec 40). }
  apply Rmult_le_compat; lra.
Qed.
Lemma bs_down c (Lm : Q) v1 v2 p : In c bssa14_coeff -> Q2R (bssa14_c c) + Q2R (bs_n4 c) * Q2R (bs_S c) * Q2R Lm < 0 -> 0 < p -> ln ((p + 0.1) / 0.1) <= Q2R Lm -> 0 < v1 -> v1 < v2 ->
  let d := bs_lin c v2 + bs_nonlin c v2 p - (bs_lin c v1 + bs_nonlin c v1 p) in d <= 0 /\ (v1 < 760 -> d < 0).
Proof.
  intros Hc HC Hp HL H1 H12 d. row_ge Hc (7608#10)%Q bssa14_V_c as V. row_ge Hc (0#1)%Q bs_n4 as F4. row_ge Hc (0#1)%Q (fun c => bs_n4 c + bssa14_f_4 c)%Q as F4'.
  row_upto Hc bssa14_f_5 (0#1)%Q as F5. row_ge Hc (-85#10000)%Q bssa14_f_5 as F5'.
  assert (L0 : 0 <= ln ((p + 0.1) / 0.1)). { rewrite <- ln_1. apply ln_le_mono; [lra|]. apply Rmult_le_reg_r with 0.1; [lra|]. unfold Rdiv. rewrite Rmult_assoc, Rinv_l by lra. lra. }
  assert (HS : exp (360 * - Q2R (bssa14_f_5 c) - 1) <= Q2R (bs_S c)).
  { apply S_ok; [lra|rewrite Q2R_mult, Q2R_opp; qlit; lra|lra]. }
  pose proof (cy_form_le (Q2R (bssa14_c c)) (Q2R (bssa14_f_4 c)) (Q2R (bs_n4 c)) (- Q2R (bssa14_f_5 c)) (Q2R (bs_S c)) _ (Q2R Lm) 760 (Q2R (bssa14_V_c c)) v1 v2
    ltac:(lra) ltac:(lra) ltac:(lra) HS (conj L0 HL) ltac:(lra) ltac:(lra) H1 H12 HC) as [A B]. clear HS HC HL L0.
  assert (E : d = Q2R (bssa14_c c) * (ln (Rmin v2 (Q2R (bssa14_V_c c))) - ln (Rmin v1 (Q2R (bssa14_V_c c)))) +
     Q2R (bssa14_f_4 c) * (exp (- - Q2R (bssa14_f_5 c) * (Rmin v2 760 - 360)) - exp (- - Q2R (bssa14_f_5 c) * (Rmin v1 760 - 360))) * ln ((p + 0.1) / 0.1)).
  { unfold d, bs_lin, bs_nonlin. rewrite !Ropp_involutive, !(ln_div (Rmin _ _)) by (try apply Rmin_pos; lra). ring. }
  rewrite E. split; [exact A|]. intros K. apply B. lra.
Qed.
Lemma ln_under p m : 0 < p -> p <= m -> ln ((p + 0.1) / 0.1) <= ln ((m + 0.1) / 0.1).
Proof. intros. apply ln_le_mono; [apply Rdiv_lt_0_compat; lra|]. unfold Rdiv. apply Rmult_le_compat_r; [|lra]. left; apply Rinv_0_lt_compat; lra. Qed.
Lemma bs_weak c v1 v2 p : In c bssa14_coeff -> 0 < p -> p <= 0.08 \/ 1.5 <= Q2R (bssa14_period c) /\ p <= 1 \/ 2 <= Q2R (bssa14_period c) /\ p <= 1000 -> 0 < v1 -> v1 < v2 ->
  let d := bs_lin c v2 + bs_nonlin c v2 p - (bs_lin c v1 + bs_nonlin c v1 p) in d <= 0 /\ (v1 < 760 -> d < 0).
Proof.
  intros Hc Hp H H1 H12. destruct H as [H|[[HT H]|[HT H]]].
  - apply (bs_down c (5878#10000)%Q); try assumption.
    + row_lt Hc (fun c => bssa14_c c + bs_n4 c * bs_S c * (5878#10000))%Q (fun _ : bssa14_row => 0#1)%Q as K. qlit. lra.
    + eapply Rle_trans; [apply (ln_under p 0.08); assumption|]. qlit. interval with (i_prec 40).
  - apply (bs_down c (2398#1000)%Q); try assumption.
    + pose proof (rows_when_lt bssa14_coeff (fun c => Qle_bool (15#10) (bssa14_period c)) (fun c => bssa14_c c + bs_n4 c * bs_S c * (2398#1000))%Q (fun _ => 0 # 1)%Q ltac:(vm_compute; reflexivity) c Hc) as K.
      cbv beta in K. rewrite Rle_Qleb in K by rq. specialize (K eq_refl). qnorm_in K. qlit. lra.
    + eapply Rle_trans; [apply (ln_under p 1); assumption|]. qlit. interval with (i_prec 40).
  - apply (bs_down c (9211#1000)%Q); try assumption.
    + pose proof (rows_when_lt bssa14_coeff (fun c => Qle_bool (2#1) (bssa14_period c)) (fun c => bssa14_c c + bs_n4 c * bs_S c * (9211#1000))%Q (fun _ => 0 # 1)%Q ltac:(vm_compute; reflexivity) c Hc) as K.
      cbv beta in K. rewrite Rle_Qleb in K by rq. specialize (K eq_refl). qnorm_in K. qlit. lra.
    + eapply Rle_trans; [apply (ln_under p 1000); assumption|]. qlit. interval with (i_prec 40).
Qed.
Lemma rep_pga {A} r (rows : list A) ca cv per med sd p : reports r rows ca cv per med sd -> pga_is r p -> p = exp (med ca).
Proof. intros (g & E & _ & _ & P & _) (g' & E' & P'). rewrite E in E'. injection E' as <-. rewrite P in P'. injection P' as <-. reflexivity. Qed.
Lemma with_v_v a v : n_v (with_v a v) = v. Proof. destruct a; reflexivity. Qed.
Lemma bs_softer src1 src2 rock a v1 v2 p : nga_gives src1 (with_v a v1) -> nga_gives src2 (with_v a v2) -> nga_gives rock (with_v a 760) -> n_z1 a = None -> 0 < v1 -> v1 < v2 ->
  pga_is (bssa14 rock) p ->
  compares (bssa14 src1) (bssa14 src2)
    (fun T y1 y2 => p <= 0.08 \/ 1.5 <= T /\ p <= 1 \/ 2 <= T /\ p <= 1000 -> y2 <= y1 /\ (v1 < 760 -> y2 < y1))
    (fun y1 y2 => p <= 0.08 -> y2 <= y1 /\ (v1 < 760 -> y2 < y1)) (fun y1 y2 => p <= 0.08 -> y2 <= y1 /\ (v1 < 760 -> y2 < y1)).
Proof.
  intros G1 G2 G0 Hz H1 H12 HP.
  apply (rep_pga _ _ _ _ _ _ _ _ (bs_reports _ _ G0 ltac:(rewrite with_v_v; lra))) in HP. cbv beta in HP. rewrite bs_760 in HP by (apply bssa14_pga_in || exact Hz).
  assert (Pp : 0 < p) by (rewrite HP; apply exp_pos).
  assert (K : forall c, In c bssa14_coeff -> p <= 0.08 \/ 1.5 <= Q2R (bssa14_period c) /\ p <= 1 \/ 2 <= Q2R (bssa14_period c) /\ p <= 1000 ->
     exp (bs_med bssa14_pga_row c (with_v a v2)) <= exp (bs_med bssa14_pga_row c (with_v a v1)) /\ (v1 < 760 -> exp (bs_med bssa14_pga_row c (with_v a v2)) < exp (bs_med bssa14_pga_row c (with_v a v1)))).
  { intros c Hc H. rewrite !bs_v, <- HP by exact Hz. destruct (bs_weak c v1 v2 p Hc Pp H H1 H12) as [A B]. clear H. split; [apply exp_le_mono; lra|intros L; apply exp_increasing; specialize (B L); lra]. }
  eapply rep_compares; [apply (bs_reports _ _ G1); rewrite with_v_v; lra|apply (bs_reports _ _ G2); rewrite with_v_v; lra|..]; cbv beta.
  - intros c Hc H. apply K; [apply bs_rows; right; right; exact Hc|exact H].
  - intros H. apply K; [apply bssa14_pga_in|left; exact H].
  - intros H. apply K; [apply bssa14_pgv_in|left; exact H].
Qed.
(** Under strong shaking the nonlinear term wins. *)
Lemma exp_vs_ln_lo k u1 u2 : 1 / 180 <= k -> 180 <= u1 -> u1 < u2 -> u2 <= 360 -> 360 * k * (ln u2 - ln u1) <= exp (- k * (u1 - 360)) - exp (- k * (u2 - 360)).
Proof.
  intros Hk H1 H12 H2. set (h := fun u => exp (- k * (u - 360)) + 360 * k * ln u).
  destruct (MVT_gen h u1 u2 (fun u => - k * exp (- k * (u - 360)) + 360 * k / u)) as (c & Hc & E).
  - intros t Ht. rewrite Rmin_left, Rmax_right in Ht by lra. unfold h. auto_derive; [lra|]. unfold Rminus. field. lra.
  - intros t Ht. rewrite Rmin_left, Rmax_right in Ht by lra. apply continuity_pt_filterlim. apply (ex_derive_continuous h). unfold h. auto_derive. lra.
  - rewrite Rmin_left, Rmax_right in Hc by lra. unfold h in E.
    assert (0 <= - (- k * exp (- k * (c - 360)) + 360 * k / c) * (u2 - u1)); [|lra].
    apply Rmult_le_pos; [|lra]. replace (- (- k * exp (- k * (c - 360)) + 360 * k / c)) with (k * (exp (- k * (c - 360)) * c - 360) / c) by (field; lra).
    apply Rmult_le_pos; [|left; apply Rinv_0_lt_compat; lra]. apply Rmult_le_pos; [lra|].
    pose proof (exp_ineq1_le (- k * (c - 360))) as X. assert (360 <= (1 + k * (360 - c)) * c); [|nra].
    assert (0 <= (k - 1 / 180) * ((360 - c) * c)) by (repeat apply Rmult_le_pos; lra). assert (0 <= (360 - c) * (c - 180)) by (apply Rmult_le_pos; lra). lra.
Qed.
Lemma bs_softer_strong src1 src2 rock a v1 v2 p : nga_gives src1 (with_v a v1) -> nga_gives src2 (with_v a v2) -> nga_gives rock (with_v a 760) -> n_z1 a = None ->
  180 <= v1 -> v1 < v2 -> v2 <= 360 -> pga_is (bssa14 rock) p -> 0.45 <= p ->
  compares (bssa14 src1) (bssa14 src2) (fun _ _ _ => True) Rlt (fun _ _ => True).
Proof.
  intros G1 G2 G0 Hz H1 H12 H2 HP Hp.
  apply (rep_pga _ _ _ _ _ _ _ _ (bs_reports _ _ G0 ltac:(rewrite with_v_v; lra))) in HP. cbv beta in HP. rewrite bs_760 in HP by (apply bssa14_pga_in || exact Hz).
  eapply rep_compares; [apply (bs_reports _ _ G1); rewrite with_v_v; lra|apply (bs_reports _ _ G2); rewrite with_v_v; lra|..]; cbv beta; try exact I; [intros; exact I|].
  rewrite !bs_v, <- HP by exact Hz. apply exp_increasing. clear HP. 
  assert (L : 1.7 <= ln ((p + 0.1) / 0.1)).
  { apply Rle_trans with (ln ((0.45 + 0.1) / 0.1)); [replace ((0.45 + 0.1) / 0.1) with 5.5 by lra; clear; interval with (i_prec 40)|]. apply ln_le_mono; lra. }
  pose proof (exp_vs_ln_lo 0.00701 v1 v2 ltac:(lra) H1 H12 H2) as X. assert (D : ln v1 < ln v2) by (apply ln_increasing; lra).
  unfold bs_lin, bs_nonlin. generalize (bs_rock bssa14_pga_row a). intros rk. set (L' := ln ((p + 0.1) / 0.1)) in *. clearbody L'. cbn [bssa14_pga_row bssa14_coeff nth bssa14_c bssa14_V_c bssa14_f_4 bssa14_f_5]. qlit. rewrite !Rmin_left by lra. rewrite !(ln_div v1), !(ln_div v2) by lra.
  replace (-701 * / 100000 * (v1 - 360)) with (Ropp 0.00701 * (v1 - 360)) by lra. replace (-701 * / 100000 * (v2 - 360)) with (Ropp 0.00701 * (v2 - 360)) by lra.
  generalize (exp (-701 * / 100000 * (760 - 360))). intros z.
  set (l1 := ln v1) in *. set (l2 := ln v2) in *. set (e1 := exp (Ropp 0.00701 * (v1 - 360))) in *. set (e2 := exp (Ropp 0.00701 * (v2 - 360))) in *. clearbody l1 l2 e1 e2.
  assert (0.6 * (l2 - l1) < 0.15 * (e1 - e2) * L'); [|lra].
  assert (0.15 * (e1 - e2) * 1.7 <= 0.15 * (e1 - e2) * L') by (apply Rmult_le_compat_l; lra). lra.
Qed.

(** ** CY14 *)
Definition cy_p1 (c : cy14_row) (jp : bool) : Q := if jp then cy14_phi_1jp c else cy14_phi_1 c.
Definition cy_site (c : cy14_row) (jp : bool) (v y : R) : R :=
  Q2R (cy_p1 c jp) * Rmin (ln (v / 1130)) 0 + cy_b c v * ln ((y + Q2R (cy14_phi_4 c)) / Q2R (cy14_phi_4 c)).
Lemma cy_v c x a v : n_z1 a = None -> cy_med c x (with_v a v) = cy_ref c x a + cy_site c (String.eqb (cy_reg a) "japan") v (exp (cy_ref c x a)).
Proof.
  intros H. unfold cy_med. replace (cy_ref c x (with_v a v)) with (cy_ref c x a) by (destruct a; reflexivity).
  replace (cy_reg (with_v a v)) with (cy_reg a) by (destruct a; reflexivity). rewrite with_v_v.
  replace (cy_dz1 (with_v a v)) with 0 by (unfold cy_dz1; replace (n_z1 (with_v a v)) with (n_z1 a) by (destruct a; reflexivity); rewrite H; reflexivity).
  generalize (cy_ref c x a). intros rf. unfold cy_site, cy_p1. replace (- 0) with 0 by ring. unfold Rdiv at 3. unfold Rdiv. rewrite Rmult_0_l, exp_0. cbv zeta. destruct (String.eqb _ _); ring.
Qed.
Lemma cy_1130 c jp y : cy_site c jp 1130 y = 0.
Proof. unfold cy_site, cy_b. replace (1130 / 1130) with 1 by field. rewrite ln_1, !Rmin_left by lra. ring. Qed.
Lemma cy_lnmin v : 0 < v -> Rmin (ln (v / 1130)) 0 = ln (Rmin v 1130) - ln 1130.
Proof.
  intros H. rewrite ln_div by lra. destruct (Rle_dec v 1130) as [L|L].
  - rewrite (Rmin_left v) by lra. apply Rmin_left. assert (ln v <= ln 1130) by (apply ln_le_mono; lra). lra.
  - rewrite (Rmin_right v) by lra. rewrite Rminus_eq_0. apply Rmin_right. assert (ln 1130 <= ln v) by (apply ln_le_mono; lra). lra.
Qed.
Definition cy_S (c : cy14_row) : Q := rup 100000 ((36788#100000) * expub (- (360#1) * cy14_phi_3 c)).
(** ln (1 + t) lies under its tangent at s - 1. *)
Lemma ln_tangent s t : 0 < s -> 0 < 1 + t -> ln (1 + t) <= ln s + (1 + t) / s - 1.
Proof.
  intros Hs Ht. assert (H : ln ((1 + t) / s) <= (1 + t) / s - 1).
  { assert (P : 0 < (1 + t) / s) by (apply Rdiv_lt_0_compat; lra). pose proof (exp_ineq1_le (ln ((1 + t) / s))) as E. rewrite exp_ln in E by exact P. lra. }
  rewrite ln_div in H by lra. lra.
Qed.
Lemma cy_down c jp (Lm : R) v1 v2 y : In c cy14_coeff -> Q2R (cy_p1 c jp) + - Q2R (cy14_phi_2 c) * Q2R (cy_S c) * Lm < 0 -> 0 < y ->
  ln ((y + Q2R (cy14_phi_4 c)) / Q2R (cy14_phi_4 c)) <= Lm -> 0 < v1 -> v1 < v2 ->
  let d := cy_site c jp v2 y - cy_site c jp v1 y in d <= 0 /\ (v1 < 1130 -> d < 0).
Proof.
  intros Hc HC Hy HL H1 H12 d. row_upto Hc cy14_phi_2 (0#1)%Q as F4. row_upto Hc cy14_phi_3 (0#1)%Q as F5. row_ge Hc (-1#100)%Q cy14_phi_3 as F5'. row_pos Hc cy14_phi_4 as F6.
  assert (L0 : 0 <= ln ((y + Q2R (cy14_phi_4 c)) / Q2R (cy14_phi_4 c))).
  { rewrite <- ln_1. apply ln_le_mono; [lra|]. apply Rmult_le_reg_r with (Q2R (cy14_phi_4 c)); [lra|]. unfold Rdiv. rewrite Rmult_assoc, Rinv_l by lra. lra. }
  assert (HS : exp (360 * - Q2R (cy14_phi_3 c) - 1) <= Q2R (cy_S c)).
  { apply S_ok; [lra|rewrite Q2R_mult, Q2R_opp; qlit; lra|lra]. }
  pose proof (cy_form_le (Q2R (cy_p1 c jp)) (Q2R (cy14_phi_2 c)) (- Q2R (cy14_phi_2 c)) (- Q2R (cy14_phi_3 c)) (Q2R (cy_S c)) _ Lm 1130 1130 v1 v2
    ltac:(lra) ltac:(lra) ltac:(lra) HS (conj L0 HL) ltac:(lra) ltac:(lra) H1 H12 HC) as [A B]. clear HS HC HL L0.
  assert (E : d = Q2R (cy_p1 c jp) * (ln (Rmin v2 1130) - ln (Rmin v1 1130)) +
     Q2R (cy14_phi_2 c) * (exp (- - Q2R (cy14_phi_3 c) * (Rmin v2 1130 - 360)) - exp (- - Q2R (cy14_phi_3 c) * (Rmin v1 1130 - 360))) * ln ((y + Q2R (cy14_phi_4 c)) / Q2R (cy14_phi_4 c))).
  { unfold d, cy_site, cy_b. rewrite !Ropp_involutive, !cy_lnmin by lra. ring. }
  rewrite E. split; [exact A|]. intros K. apply B. lra.
Qed.
(** Rock response above which "weak" ends: 0.08 g, and 10 cm/s for the PGV. *)
Definition cy_ymax (c : cy14_row) : Q := if Qltb (cy14_period c) 0 then 10#1 else 8#100.
Definition cy_t (y : Q) (c : cy14_row) : Q := rup 1000 (y / cy14_phi_4 c).
Definition cy_L2 (c : cy14_row) : Q := ((69315#100000) + (1 + cy_t (cy_ymax c) c) * (1#2) - 1)%Q.
Definition cy_L10 (c : cy14_row) : Q := ((69315#10000) + (1 + cy_t (10#1) c) * (1#1024) - 1)%Q.
Lemma cy_Lm c (y s l t : R) : 0 < s -> 0 < Q2R (cy14_phi_4 c) -> ln s <= l -> 0 < y -> y <= t * Q2R (cy14_phi_4 c) ->
  ln ((y + Q2R (cy14_phi_4 c)) / Q2R (cy14_phi_4 c)) <= l + (1 + t) / s - 1.
Proof.
  intros Hs Hp Hl Hy Ht. set (ph := Q2R (cy14_phi_4 c)) in *. clearbody ph.
  replace ((y + ph) / ph) with (1 + y / ph) by (field; lra). assert (P : 0 < y / ph) by (apply Rdiv_lt_0_compat; lra).
  assert (Q : y / ph <= t). { apply Rmult_le_reg_r with ph; [lra|]. unfold Rdiv. rewrite Rmult_assoc, Rinv_l by lra. lra. }
  eapply Rle_trans; [apply (ln_tangent s); lra|]. assert ((1 + y / ph) / s <= (1 + t) / s); [|lra]. unfold Rdiv at 1 3. apply Rmult_le_compat_r; [left; apply Rinv_0_lt_compat; lra|lra].
Qed.
Lemma cy_weak c jp v1 v2 y : In c cy14_coeff -> 0 < y -> y <= Q2R (cy_ymax c) \/ 2 <= Q2R (cy14_period c) /\ y <= 10 \/ 5 <= Q2R (cy14_period c) -> 0 < v1 -> v1 < v2 ->
  let d := cy_site c jp v2 y - cy_site c jp v1 y in d <= 0 /\ (v1 < 1130 -> d < 0).
Proof.
  intros Hc Hy H H1 H12. row_pos Hc cy14_phi_4 as F6. destruct H as [H|[[HT H]|HT]].
  - apply (cy_down c jp (Q2R (cy_L2 c))); try assumption.
    + destruct jp; [row_lt Hc (fun c => cy14_phi_1jp c + - cy14_phi_2 c * cy_S c * cy_L2 c)%Q (fun _ : cy14_row => 0#1)%Q as K|row_lt Hc (fun c => cy14_phi_1 c + - cy14_phi_2 c * cy_S c * cy_L2 c)%Q (fun _ : cy14_row => 0#1)%Q as K]; unfold cy_p1; lra.
    + row_le Hc cy_ymax (fun c => cy_t (cy_ymax c) c * cy14_phi_4 c)%Q as K. unfold cy_L2. rewrite Q2R_minus, Q2R_plus, Q2R_mult, Q2R_plus. change (Q2R 1) with (Q2R (1#1)).
      eapply Rle_trans; [apply (cy_Lm c y 2 (69315 * / 100000) (Q2R (cy_t (cy_ymax c) c))); try lra; interval with (i_prec 40)|]. qlit. lra.
  - apply (cy_down c jp (Q2R (cy_L10 c))); try assumption.
    + destruct jp.
      * pose proof (rows_when_lt cy14_coeff (fun c => Qle_bool (2#1) (cy14_period c)) (fun c => cy14_phi_1jp c + - cy14_phi_2 c * cy_S c * cy_L10 c)%Q (fun _ => 0 # 1)%Q ltac:(vm_compute; reflexivity) c Hc) as K.
        cbv beta in K. rewrite Rle_Qleb in K by rq. specialize (K eq_refl). qnorm_in K. unfold cy_p1. lra.
      * pose proof (rows_when_lt cy14_coeff (fun c => Qle_bool (2#1) (cy14_period c)) (fun c => cy14_phi_1 c + - cy14_phi_2 c * cy_S c * cy_L10 c)%Q (fun _ => 0 # 1)%Q ltac:(vm_compute; reflexivity) c Hc) as K.
        cbv beta in K. rewrite Rle_Qleb in K by rq. specialize (K eq_refl). qnorm_in K. unfold cy_p1. lra.
    + row_le Hc (fun _ : cy14_row => 10#1) (fun c => cy_t (10#1) c * cy14_phi_4 c)%Q as K. unfold cy_L10. rewrite Q2R_minus, Q2R_plus, Q2R_mult, Q2R_plus. change (Q2R 1) with (Q2R (1#1)).
      eapply Rle_trans; [apply (cy_Lm c y 1024 (69315 * / 10000) (Q2R (cy_t (10#1) c))); try lra; interval with (i_prec 40)|]. qlit. lra.
  - pose proof (rows_when_le cy14_coeff (fun c => Qle_bool (5#1) (cy14_period c)) (fun _ => 0 # 1)%Q cy14_phi_2 ltac:(vm_compute; reflexivity) c Hc) as K.
    cbv beta in K. rewrite Rle_Qleb in K by rq. specialize (K eq_refl). qnorm_in K. row_upto Hc cy14_phi_2 (0#1)%Q as F4.
    apply (cy_down c jp (ln ((y + Q2R (cy14_phi_4 c)) / Q2R (cy14_phi_4 c)))); try assumption; [|lra].
    replace (Q2R (cy14_phi_2 c)) with 0 by lra. unfold cy_p1. destruct jp; [row_upto Hc cy14_phi_1jp (-1#100)%Q as P|row_upto Hc cy14_phi_1 (-1#100)%Q as P]; lra.
Qed.
Lemma rep_compares3 {A} r0 r1 r2 (rows : list A) ca cv per med0 sd0 med1 sd1 med2 sd2 (sa : R -> R -> R -> R -> Prop) (pga pgv : R -> R -> R -> Prop) :
  reports r0 rows ca cv per med0 sd0 -> reports r1 rows ca cv per med1 sd1 -> reports r2 rows ca cv per med2 sd2 ->
  (forall c, In c rows -> sa (Q2R (per c)) (exp (med0 c)) (exp (med1 c)) (exp (med2 c))) ->
  pga (exp (med0 ca)) (exp (med1 ca)) (exp (med2 ca)) -> pgv (exp (med0 cv)) (exp (med1 cv)) (exp (med2 cv)) -> compares3 r0 r1 r2 sa pga pgv.
Proof.
  intros (g0 & E0 & P0 & S0 & A0 & V0 & _) (g1 & E1 & P1 & S1 & A1 & V1 & _) (g2 & E2 & P2 & S2 & A2 & V2 & _) H HA HV.
  exists g0, g1, g2, (map (fun c => (Q2R (per c), (exp (med0 c), exp (med1 c), exp (med2 c)))) rows), (exp (med0 ca)), (exp (med1 ca)), (exp (med2 ca)), (exp (med0 cv)), (exp (med1 cv)), (exp (med2 cv)).
  rewrite !map_map. cbn [fst snd]. repeat (split; [assumption|]). split; [|split; assumption].
  intros T y0 y1 y2 HI. apply in_map_iff in HI as (c & Ec & Hc). injection Ec as <- <- <- <-. apply H, Hc.
Qed.
Lemma cy_softer rock src1 src2 a x v1 v2 : nga_gives rock (with_v a 1130) -> nga_gives src1 (with_v a v1) -> nga_gives src2 (with_v a v2) -> n_x a = Some x -> 0 <= n_rup a ->
  n_z1 a = None -> 0 < v1 -> v1 < v2 ->
  compares3 (cy14 rock) (cy14 src1) (cy14 src2)
    (fun T y0 y1 y2 => y0 <= 0.08 \/ 2 <= T /\ y0 <= 10 \/ 5 <= T -> y2 <= y1 /\ (v1 < 1130 -> y2 < y1))
    (fun y0 y1 y2 => y0 <= 0.08 -> y2 <= y1 /\ (v1 < 1130 -> y2 < y1)) (fun y0 y1 y2 => y0 <= 10 -> y2 <= y1 /\ (v1 < 1130 -> y2 < y1)).
Proof.
  intros G0 G1 G2 Hx Hr Hz H1 H12.
  assert (K : forall c, In c cy14_coeff -> exp (cy_med c x (with_v a 1130)) <= Q2R (cy_ymax c) \/ 2 <= Q2R (cy14_period c) /\ exp (cy_med c x (with_v a 1130)) <= 10 \/ 5 <= Q2R (cy14_period c) ->
     exp (cy_med c x (with_v a v2)) <= exp (cy_med c x (with_v a v1)) /\ (v1 < 1130 -> exp (cy_med c x (with_v a v2)) < exp (cy_med c x (with_v a v1)))).
  { intros c Hc H. rewrite !cy_v, ?cy_1130, ?Rplus_0_r in * by exact Hz. destruct (cy_weak c (String.eqb (cy_reg a) "japan") v1 v2 _ Hc (exp_pos _) H H1 H12) as [A B]. clear H.
    split; [apply exp_le_mono; lra|intros L; apply exp_increasing; specialize (B L); lra]. }
  assert (N : forall v, n_x (with_v a v) = Some x /\ 0 <= n_rup (with_v a v)) by (intros v; destruct a; split; assumption).
  eapply rep_compares3; [apply (cy_reports _ _ x G0)|apply (cy_reports _ _ x G1)|apply (cy_reports _ _ x G2)|..]; try apply N; try (rewrite with_v_v; lra); cbv beta.
  - intros c Hc H. apply K; [apply cy_rows; right; right; exact Hc|]. pose proof (cy_psa_pos c Hc) as T.
    assert (E : cy_ymax c = 8#100). { unfold cy_ymax. destruct (Qltb _ _) eqn:F; [|reflexivity]. apply Qltb_R in F. change (Q2R 0) with (Q2R (0#1)) in F. qlit_in F. lra. }
    rewrite E. qlit. destruct H as [H|H]; [left; lra|right; exact H].
  - intros H. apply K; [apply cy14_pga_in|left]. change (cy_ymax cy14_pga_row) with (8#100). qlit. lra.
  - intros H. apply K; [apply cy14_pgv_in|left]. change (cy_ymax cy14_pgv_row) with (10#1). qlit. lra.
Qed.
Lemma cy_softer_strong rock src1 src2 a x v1 v2 : nga_gives rock (with_v a 1130) -> nga_gives src1 (with_v a v1) -> nga_gives src2 (with_v a v2) -> n_x a = Some x -> 0 <= n_rup a ->
  n_z1 a = None -> cy_reg a <> "japan" -> 180 <= v1 -> v1 < v2 -> v2 <= 360 ->
  compares3 (cy14 rock) (cy14 src1) (cy14 src2) (fun _ _ _ _ => True) (fun y0 y1 y2 => 0.35 <= y0 -> y1 < y2) (fun _ _ _ => True).
Proof.
  intros G0 G1 G2 Hx Hr Hz HJ H1 H12 H2.
  assert (N : forall v, n_x (with_v a v) = Some x /\ 0 <= n_rup (with_v a v)) by (intros v; destruct a; split; assumption).
  eapply rep_compares3; [apply (cy_reports _ _ x G0)|apply (cy_reports _ _ x G1)|apply (cy_reports _ _ x G2)|..]; try apply N; try (rewrite with_v_v; lra); cbv beta; [intros; exact I| |exact I].
  rewrite !cy_v, cy_1130, Rplus_0_r by exact Hz. rewrite (proj2 (String.eqb_neq _ _) HJ). generalize (cy_ref cy14_pga_row x a). intros rf Hy. set (y := exp rf) in *. clearbody y.
  apply exp_increasing, Rplus_lt_compat_l. unfold cy_site, cy_b, cy_p1. rewrite !cy_lnmin, !(Rmin_left _ 1130) by lra.
  replace (Q2R (cy14_phi_4 cy14_pga_row)) with 0.102151 by (unfold Q2R; cbn; lra). replace (Q2R (cy14_phi_1 cy14_pga_row)) with (-0.521) by (unfold Q2R; cbn; lra).
  replace (Q2R (cy14_phi_2 cy14_pga_row)) with (-0.1417) by (unfold Q2R; cbn; lra). replace (Q2R (cy14_phi_3 cy14_pga_row)) with (Ropp 0.00701) by (unfold Q2R; cbn; lra).
  assert (L : 1.48 <= ln ((y + 0.102151) / 0.102151)).
  { apply Rle_trans with (ln 4.42); [clear; interval with (i_prec 40)|]. apply ln_le_mono; lra. }
  pose proof (exp_vs_ln_lo 0.00701 v1 v2 ltac:(lra) H1 H12 H2) as X. assert (D : ln v1 < ln v2) by (apply ln_increasing; lra).
  generalize (exp (Ropp 0.00701 * (1130 - 360))). intros z. set (l1 := ln v1) in *. set (l2 := ln v2) in *. set (e1 := exp (Ropp 0.00701 * (v1 - 360))) in *. set (e2 := exp (Ropp 0.00701 * (v2 - 360))) in *. set (L' := ln ((y + _) / _)) in *. clearbody l1 l2 e1 e2 L'.
  assert (0.521 * (l2 - l1) < 0.1417 * (e1 - e2) * L'); [|lra].
  assert (0.1417 * (e1 - e2) * 1.48 <= 0.1417 * (e1 - e2) * L') by (apply Rmult_le_compat_l; lra). lra.
Qed.

(** ** Walling form (ASK14, CB14): the slope A + b n w of the soil part grows from its value at w = 1 as w falls with the velocity *)
Definition walling (A b n c p z : R) : R :=
  if Rlt_dec z 1 then A * ln z + b * (ln (p + c * Rpower z n) - ln (p + c)) else (A + b * n) * ln z.
Lemma exp_jensen w d : 0 <= w <= 1 -> exp (w * d) <= 1 - w + w * exp d.
Proof.
  intros H. pose proof (exp_ineq1_le (- (w * d))) as A. pose proof (exp_ineq1_le (d - w * d)) as B. pose proof (exp_pos (w * d)) as P.
  assert (EA : exp (- (w * d)) * exp (w * d) = 1) by (rewrite <- exp_plus, Rplus_opp_l; apply exp_0).
  assert (EB : exp (d - w * d) * exp (w * d) = exp d) by (rewrite <- exp_plus; f_equal; ring).
  set (e := exp (w * d)) in *. set (u := exp (- (w * d))) in *. set (v := exp (d - w * d)) in *. rewrite <- EB. clearbody e u v. clear EB.
  assert ((1 - w) * ((1 + - (w * d)) * e) <= (1 - w) * (u * e)) by (apply Rmult_le_compat_l; [lra|apply Rmult_le_compat_r; lra]).
  assert (w * ((1 + (d - w * d)) * e) <= w * (v * e)) by (apply Rmult_le_compat_l; [lra|apply Rmult_le_compat_r; lra]).
  rewrite EA in *. lra.
Qed.
(** The logarithm grows at least by w d, w the share of the moving part at the start. *)
Lemma ln_share p q d : 0 < p -> 0 < q -> q / (p + q) * d <= ln (p + q * exp d) - ln (p + q).
Proof.
  intros Hp Hq. set (w := q / (p + q)). assert (W : 0 <= w <= 1).
  { unfold w. split; [apply Rlt_le, Rdiv_lt_0_compat; lra|]. apply Rmult_le_reg_r with (p + q); [lra|]. unfold Rdiv. rewrite Rmult_assoc, Rinv_l by lra. lra. }
  pose proof (exp_pos d) as P. assert (P' : 0 < q * exp d) by (apply Rmult_lt_0_compat; lra).
  rewrite <- ln_div by lra. rewrite <- (ln_exp (w * d)). apply ln_le_mono; [apply exp_pos|].
  eapply Rle_trans; [apply exp_jensen, W|]. right. unfold w. field. lra.
Qed.
Lemma wall_term n c p z1 z2 : 0 < c -> 0 < p -> 0 < z1 -> 0 < z2 ->
  c * Rpower z1 n / (p + c * Rpower z1 n) * (n * (ln z2 - ln z1)) <= ln (p + c * Rpower z2 n) - ln (p + c * Rpower z1 n).
Proof.
  intros Hc Hp H1 H2. assert (Q : 0 < c * Rpower z1 n) by (apply Rmult_lt_0_compat; [lra|apply exp_pos]).
  pose proof (ln_share p (c * Rpower z1 n) (n * (ln z2 - ln z1)) Hp Q) as S.
  replace (c * Rpower z2 n) with (c * Rpower z1 n * exp (n * (ln z2 - ln z1))); [exact S|].
  unfold Rpower. rewrite Rmult_assoc, <- exp_plus. f_equal. f_equal. ring.
Qed.
Lemma wall_decr A b n c p w z1 z2 : b <= 0 -> 0 < n -> 0 < c -> 0 < p -> 0 <= w <= 1 -> A + b * n * w < 0 -> b = 0 \/ w * (p + c * Rpower z1 n) <= c * Rpower z1 n -> 0 < z1 -> z1 < z2 ->
  walling A b n c p z2 < walling A b n c p z1.
Proof.
  intros Hb Hn Hc Hp Hw HA HW H1 H12.
  assert (LIN : forall u v, 0 < u -> u < v -> (A + b * n) * ln v < (A + b * n) * ln u).
  { intros u v Hu Huv. assert (A + b * n < 0). { assert (0 <= - (b * n) * (1 - w)) by (apply Rmult_le_pos; [|lra]; assert (0 <= - b * n) by (apply Rmult_le_pos; lra); lra). lra. }
    assert (ln u < ln v) by (apply ln_increasing; lra). nra. }
  set (f := fun z => A * ln z + b * (ln (p + c * Rpower z n) - ln (p + c))).
  assert (SOFT : forall v, z1 < v -> f v < f z1).
  { intros v Hv. unfold f. assert (D : ln z1 < ln v) by (apply ln_increasing; lra). destruct HW as [->|HW]; [nra|].
    pose proof (wall_term n c p z1 v Hc Hp H1 ltac:(lra)) as T. assert (Q : 0 < c * Rpower z1 n) by (apply Rmult_lt_0_compat; [lra|apply exp_pos]).
    set (q := c * Rpower z1 n) in *. set (g := ln (p + c * Rpower v n)) in *. set (g1 := ln (p + q)) in *. clearbody q g g1. set (l := ln v - ln z1) in *.
    assert (W : w <= q / (p + q)). { apply Rmult_le_reg_r with (p + q); [lra|]. unfold Rdiv. rewrite Rmult_assoc, Rinv_l by lra. lra. }
    assert (L : 0 < l) by (unfold l; lra). set (w1 := q / (p + q)) in *. clearbody w1.
    assert (X : w * (n * l) <= g - g1). { eapply Rle_trans; [|exact T]. apply Rmult_le_compat_r; [apply Rmult_le_pos; lra|exact W]. }
    assert (Y : 0 <= - b * (g - g1 - w * (n * l))) by (apply Rmult_le_pos; lra).
    assert (Z : (A + b * n * w) * l < 0) by nra. unfold l in *. lra. }
  assert (ONE : f 1 = 0). { unfold f. rewrite ln_1. unfold Rpower. rewrite ln_1, !Rmult_0_r, exp_0, Rmult_1_r. ring. }
  unfold walling. fold (f z1) (f z2). destruct (Rlt_dec z2 1) as [L2|L2]; destruct (Rlt_dec z1 1) as [L1|L1]; try lra.
  - apply SOFT, H12.
  - destruct (Req_dec z2 1) as [->|N]; [rewrite ln_1, Rmult_0_r, <- ONE; apply SOFT; lra|].
    apply Rlt_trans with 0; [pose proof (LIN 1 z2 ltac:(lra) ltac:(lra)) as X; rewrite ln_1 in X; lra|rewrite <- ONE; apply SOFT; lra].
  - apply LIN; lra.
Qed.
(** On the soil side, when the share at the upper end is small, the response grows instead. *)
Lemma wall_incr A b n c p w z1 z2 : b <= 0 -> 0 < n -> 0 < c -> 0 < p -> 0 < A + b * n * w -> c * Rpower z2 n <= w * (p + c * Rpower z2 n) -> 0 < z1 -> z1 < z2 -> z2 < 1 ->
  walling A b n c p z1 < walling A b n c p z2.
Proof.
  intros Hb Hn Hc Hp HA HW H1 H12 H2. unfold walling. destruct (Rlt_dec z1 1); [|lra]. destruct (Rlt_dec z2 1); [|lra].
  pose proof (wall_term n c p z2 z1 Hc Hp ltac:(lra) H1) as T. assert (Q : 0 < c * Rpower z2 n) by (apply Rmult_lt_0_compat; [lra|apply exp_pos]). assert (D : ln z1 < ln z2) by (apply ln_increasing; lra).
  set (q := c * Rpower z2 n) in *. set (g := ln (p + c * Rpower z1 n)) in *. set (g1 := ln (p + q)) in *. clearbody q g g1. set (l := ln z2 - ln z1).
  assert (W : q / (p + q) <= w). { apply Rmult_le_reg_r with (p + q); [lra|]. unfold Rdiv. rewrite Rmult_assoc, Rinv_l by lra. lra. }
  assert (L : 0 < l) by (unfold l; lra). set (w1 := q / (p + q)) in *. clearbody w1.
  assert (X : g1 - g <= w * (n * l)). { assert (w1 * (n * l) <= w * (n * l)) by (apply Rmult_le_compat_r; [apply Rmult_le_pos; lra|exact W]). unfold l in *. lra. }
  assert (Y : 0 <= - b * (w * (n * l) - (g1 - g))) by (apply Rmult_le_pos; lra).
  assert (Z : 0 < (A + b * n * w) * l) by (apply Rmult_lt_0_compat; lra). unfold l in *. lra.
Qed.
Lemma share_from w p q pm z : 0 <= w <= 1 -> 0 < p <= pm -> w * (pm + z) <= z -> z <= q -> w * (p + q) <= q.
Proof.
  intros Hw Hp H Hz. assert (w * p <= w * pm) by (apply Rmult_le_compat_l; lra). assert ((1 - w) * z <= (1 - w) * q) by (apply Rmult_le_compat_l; lra). lra.
Qed.

(** ** ASK14 *)
Definition as_a31 (c : ask14_row) (tw : bool) : Q := if tw then ask14_a31 c else 0.
Definition as_site (c : ask14_row) (tw : bool) (v p : R) : R :=
  walling (Q2R (ask14_a10 c) + Q2R (as_a31 c tw)) (Q2R (ask14_b c)) (Q2R (ask14_n c)) (Q2R (ask14_c c)) p (as_vstar c v / Q2R (ask14_v_lin c)).
Lemma as_v c a : n_z1 a = None -> as_reg a <> "japan" -> exists K, (forall v, as_med c (with_v a v) = K + as_site c (String.eqb (as_reg a) "taiwan") v (exp (as_rock c a))) .
Proof.
  intros Hz HJ. exists (as_source_path c a + (if String.eqb (as_reg a) "taiwan" then Q2R (ask14_a25 c) * n_rup a else if String.eqb (as_reg a) "china" then Q2R (ask14_a28 c) * n_rup a else 0)).
  intros v'. unfold as_med. replace (as_source_path c (with_v a v')) with (as_source_path c a) by (destruct a; reflexivity).
  replace (as_rock c (with_v a v')) with (as_rock c a) by (destruct a; reflexivity). replace (as_reg (with_v a v')) with (as_reg a) by (destruct a; reflexivity).
  replace (n_rup (with_v a v')) with (n_rup a) by (destruct a; reflexivity). replace (n_z1 (with_v a v')) with (n_z1 a) by (destruct a; reflexivity). rewrite with_v_v, Hz.
  generalize (as_source_path c a) (exp (as_rock c a)). intros sp p. unfold as_f10. replace (if Req_EM_T v' 1180 then 0 else 0) with 0 by (destruct (Req_EM_T _ _); reflexivity).
  unfold as_regional, as_f5, as_site, walling, as_a31. cbv zeta. rewrite (proj2 (String.eqb_neq _ _) HJ). destruct (String.eqb (as_reg a) "taiwan"); [|replace (Q2R 0) with 0 by (unfold Q2R; cbn; ring); destruct (String.eqb (as_reg a) "china")]; destruct (Rlt_dec _ _); ring.
Qed.
Lemma as_v1_lo c : 800 <= as_v1 c.
Proof.
  unfold as_v1. assert (M : 0.5 <= Rmin (Rmax (Q2R (ask14_period c)) 0.5) 3 <= 3).
  { unfold Rmax, Rmin. destruct (Rle_dec _ 0.5); destruct (Rle_dec _ 3); lra. }
  set (x := Rmin _ _) in *. clearbody x. assert (L : ln (x / 0.5) <= ln 6) by (apply ln_le_mono; lra).
  apply Rle_trans with (1500 * exp (- 0.35 * ln 6)); [clear; interval with (i_prec 40)|]. apply Rmult_le_compat_l; [lra|]. apply exp_le_mono. lra.
Qed.
Lemma as_vlin c : In c ask14_coeff -> 330 <= Q2R (ask14_v_lin c) <= Rmin 1180 (as_v1 c).
Proof. intros Hc. pose proof (ask14_vlin c (as_v1 c) Hc (as_v1_ok c)) as H. replace 1180.0 with 1180 in H by lra. exact H. Qed.
(** At 1180 m/s the site term is the linear one, so that the median is the rock response. *)
Lemma as_1180 c a : In c ask14_coeff -> n_z1 a = None -> as_med c (with_v a 1180) = as_rock c a.
Proof.
  intros Hc Hz. pose proof (as_vlin c Hc) as V. unfold as_med, as_rock.
  replace (as_source_path c (with_v a 1180)) with (as_source_path c a) by (destruct a; reflexivity).
  replace (as_reg (with_v a 1180)) with (as_reg a) by (destruct a; reflexivity). replace (n_rup (with_v a 1180)) with (n_rup a) by (destruct a; reflexivity).
  rewrite with_v_v. unfold as_f10. destruct (Req_EM_T 1180 1180) as [_|N]; [|lra]. unfold as_f5. cbv zeta. fold (as_vstar c 1180) in V.
  destruct (Rlt_dec _ _) as [L|L]; [|ring]. exfalso. apply (Rmult_lt_compat_r (Q2R (ask14_v_lin c))) in L; [|lra]. unfold Rdiv in L. rewrite Rmult_assoc, Rinv_l in L by lra. lra.
Qed.
(** Row constants: [as_zeta] bounds (180 / v_lin)^1.5 from below, [as_w] the share of the soil part at [as_ymax]. *)
Definition as_ymax (c : ask14_row) : Q := if Qltb (ask14_period c) 0 then 250#1 else 7#100.
Definition as_zeta (c : ask14_row) : Q := let v := ask14_v_lin c in let q := ((5832000#1) / (v * v * v))%Q in Z.sqrt (Qnum q * 10000000000 / Zpos (Qden q)) # 100000.
Definition as_w (c : ask14_row) : Q := let s := (ask14_c c * as_zeta c)%Q in let q := (s / (as_ymax c + s))%Q in (Qnum q * 100000 / Zpos (Qden q))%Z # 100000.
Lemma as_zeta_ok c v : In c ask14_coeff -> 180 <= v -> Q2R (as_zeta c) <= Rpower (v / Q2R (ask14_v_lin c)) 1.5.
Proof.
  intros Hc Hv. row_ge Hc (0#1)%Q as_zeta as Z0. row_upto Hc (fun c => as_zeta c * as_zeta c * (ask14_v_lin c * ask14_v_lin c * ask14_v_lin c))%Q (5832000#1)%Q as Z1. pose proof (as_vlin c Hc) as [V _].
  set (z := Q2R (as_zeta c)) in *. set (l := Q2R (ask14_v_lin c)) in *. clearbody z l.
  assert (P : 0 < v / l) by (apply Rdiv_lt_0_compat; lra). apply Rsqr_incr_0; [|lra|left; apply exp_pos]. unfold Rsqr. rewrite <- Rpower_plus.
  replace (1.5 + 1.5) with (INR 3) by (cbn; lra). rewrite Rpower_pow by exact P.
  assert (L3 : 0 < l * l * l) by (repeat apply Rmult_lt_0_compat; lra).
  apply Rmult_le_reg_r with (l * l * l); [exact L3|]. replace ((v / l) ^ 3 * (l * l * l)) with (v * v * v) by (field; lra).
  assert (180 * 180 * 180 <= v * v * v); [|lra]. apply Rmult_le_compat; try lra. apply Rmult_le_compat; lra.
Qed.
Lemma as_weak c tw v1 v2 y : In c ask14_coeff -> 0 < y -> 180 <= v1 /\ y <= Q2R (as_ymax c) \/ 3 <= Q2R (ask14_period c) -> 0 < v1 -> v1 < v2 ->
  let d := as_site c tw v2 y - as_site c tw v1 y in d <= 0 /\ (v1 < 800 -> d < 0).
Proof.
  intros Hc Hy H H1 H12. pose proof (as_v1_lo c) as V1. pose proof (as_vlin c Hc) as [VL _]. row_upto Hc ask14_b (0#1)%Q as B0. row_pos Hc ask14_c as C0.
  row_le Hc ask14_n (fun _ : ask14_row => 15#10) as N1. row_ge Hc (15#10)%Q ask14_n as N2. assert (N : Q2R (ask14_n c) = 1.5) by lra. clear N1 N2.
  assert (K : forall u1 u2, 0 < u1 -> (180 <= v1 -> 180 <= u1) -> u1 < u2 ->
    walling (Q2R (ask14_a10 c) + Q2R (as_a31 c tw)) (Q2R (ask14_b c)) (Q2R (ask14_n c)) (Q2R (ask14_c c)) y (u2 / Q2R (ask14_v_lin c))
    < walling (Q2R (ask14_a10 c) + Q2R (as_a31 c tw)) (Q2R (ask14_b c)) (Q2R (ask14_n c)) (Q2R (ask14_c c)) y (u1 / Q2R (ask14_v_lin c))).
  { intros u1 u2 U1 U180 U. rewrite N. destruct H as [[Hv H]|HT].
    - row_ge Hc (0#1)%Q as_w as W0. row_upto Hc as_w (1#1)%Q as W1. row_le Hc (fun c => as_w c * (as_ymax c + ask14_c c * as_zeta c))%Q (fun c => ask14_c c * as_zeta c)%Q as W2.
      assert (A : Q2R (ask14_a10 c) + Q2R (as_a31 c tw) + Q2R (ask14_b c) * 1.5 * Q2R (as_w c) < 0).
      { destruct tw; [row_lt Hc (fun c => ask14_a10 c + ask14_a31 c + ask14_b c * (15#10) * as_w c)%Q (fun _ : ask14_row => 0#1)%Q as A|row_lt Hc (fun c => ask14_a10 c + 0 + ask14_b c * (15#10) * as_w c)%Q (fun _ : ask14_row => 0#1)%Q as A]; unfold as_a31; change (Q2R 0) with (Q2R (0#1)) in *; qlit; qlit_in A; lra. }
      apply (wall_decr _ _ _ _ _ (Q2R (as_w c))); try lra; try (unfold Rdiv; apply Rmult_lt_compat_r; [apply Rinv_0_lt_compat; lra|exact U]); try (apply Rdiv_lt_0_compat; lra).
      right. apply (share_from _ _ _ (Q2R (as_ymax c)) (Q2R (ask14_c c) * Q2R (as_zeta c))); try lra. apply Rmult_le_compat_l; [lra|]. apply as_zeta_ok; [exact Hc|apply U180, Hv].
    - pose proof (rows_when_le ask14_coeff (fun c => Qle_bool (3#1) (ask14_period c)) (fun _ => 0 # 1)%Q ask14_b ltac:(vm_compute; reflexivity) c Hc) as Z.
      pose proof (rows_when_lt ask14_coeff (fun c => Qle_bool (3#1) (ask14_period c)) (fun c => ask14_a10 c + ask14_a31 c)%Q (fun _ => 0 # 1)%Q ltac:(vm_compute; reflexivity) c Hc) as Z1.
      pose proof (rows_when_lt ask14_coeff (fun c => Qle_bool (3#1) (ask14_period c)) (fun c => ask14_a10 c)%Q (fun _ => 0 # 1)%Q ltac:(vm_compute; reflexivity) c Hc) as Z2.
      cbv beta in Z, Z1, Z2. rewrite Rle_Qleb in Z, Z1, Z2 by rq. specialize (Z eq_refl). specialize (Z1 eq_refl). specialize (Z2 eq_refl). qnorm_in Z. qnorm_in Z1. qnorm_in Z2.
      apply (wall_decr _ _ _ _ _ 0); try lra; try (unfold Rdiv; apply Rmult_lt_compat_r; [apply Rinv_0_lt_compat; lra|exact U]); try (apply Rdiv_lt_0_compat; lra).
      unfold as_a31; destruct tw; change (Q2R 0) with (Q2R (0#1)); qlit; lra. }
  assert (P1 : 0 < as_vstar c v1) by (apply Rmin_pos; lra). assert (Q1 : 180 <= v1 -> 180 <= as_vstar c v1) by (intros; apply Rmin_glb; lra).
  unfold as_site. destruct (Rle_dec (as_v1 c) v1) as [L|L].
  - replace (as_vstar c v1) with (as_v1 c) by (symmetry; apply Rmin_right; lra). replace (as_vstar c v2) with (as_v1 c) by (symmetry; apply Rmin_right; lra). split; [lra|intros; lra].
  - assert (S : as_vstar c v1 < as_vstar c v2) by (unfold as_vstar, Rmin; repeat destruct (Rle_dec _ _); lra).
    pose proof (K _ _ P1 Q1 S). split; [lra|intros; lra].
Qed.
Lemma as_softer rock src1 src2 a t v1 v2 : nga_gives rock (with_v a 1180) -> nga_gives src1 (with_v a v1) -> nga_gives src2 (with_v a v2) -> n_mech a = Some t -> as_geom a ->
  n_z1 a = None -> as_reg a <> "japan" -> 0 < v1 -> v1 < v2 ->
  compares3 (ask14 rock) (ask14 src1) (ask14 src2)
    (fun T y0 y1 y2 => 180 <= v1 /\ y0 <= 0.07 \/ 3 <= T -> y2 <= y1 /\ (v1 < 800 -> y2 < y1))
    (fun y0 y1 y2 => 180 <= v1 /\ y0 <= 0.07 -> y2 <= y1 /\ (v1 < 800 -> y2 < y1)) (fun y0 y1 y2 => 180 <= v1 /\ y0 <= 250 -> y2 <= y1 /\ (v1 < 800 -> y2 < y1)).
Proof.
  intros G0 G1 G2 Ht HG Hz HJ H1 H12.
  assert (K : forall c, In c ask14_coeff -> 180 <= v1 /\ exp (as_med c (with_v a 1180)) <= Q2R (as_ymax c) \/ 3 <= Q2R (ask14_period c) ->
     exp (as_med c (with_v a v2)) <= exp (as_med c (with_v a v1)) /\ (v1 < 800 -> exp (as_med c (with_v a v2)) < exp (as_med c (with_v a v1)))).
  { intros c Hc H. rewrite as_1180 in H by assumption. destruct (as_v c a Hz HJ) as [k E]. rewrite !E. destruct (as_weak c (String.eqb (as_reg a) "taiwan") v1 v2 _ Hc (exp_pos _) H H1 H12) as [A B]. clear H.
    split; [apply exp_le_mono; lra|intros L; apply exp_increasing; specialize (B L); lra]. }
  assert (N : forall v, n_mech (with_v a v) = Some t /\ as_geom (with_v a v) /\ match n_z1 (with_v a v) with Some z => 0 <= z | None => True end).
  { intros v. split; [destruct a; exact Ht|]. split; [destruct a; exact HG|]. replace (n_z1 (with_v a v)) with (n_z1 a) by (destruct a; reflexivity). rewrite Hz. exact I. }
  eapply rep_compares3; [apply (as_reports _ _ t G0)|apply (as_reports _ _ t G1)|apply (as_reports _ _ t G2)|..]; try apply N; try (rewrite with_v_v; lra); cbv beta.
  - intros c Hc H. apply K; [apply as_rows; right; right; exact Hc|]. pose proof (as_psa_pos c Hc) as T.
    assert (E : as_ymax c = 7#100). { unfold as_ymax. destruct (Qltb _ _) eqn:F; [|reflexivity]. apply Qltb_R in F. change (Q2R 0) with (Q2R (0#1)) in F. qlit_in F. lra. }
    rewrite E. qlit. destruct H as [H|H]; [left; lra|right; exact H].
  - intros H. apply K; [apply ask14_pga_in|left]. change (as_ymax ask14_pga_row) with (7#100). qlit. lra.
  - intros H. apply K; [apply ask14_pgv_in|left]. change (as_ymax ask14_pgv_row) with (250#1). qlit. lra.
Qed.
Lemma as_softer_strong rock src1 src2 a t v1 v2 : nga_gives rock (with_v a 1180) -> nga_gives src1 (with_v a v1) -> nga_gives src2 (with_v a v2) -> n_mech a = Some t -> as_geom a ->
  n_z1 a = None -> as_reg a <> "japan" -> 0 < v1 -> v1 < v2 -> v2 <= 360 ->
  compares3 (ask14 rock) (ask14 src1) (ask14 src2) (fun _ _ _ _ => True) (fun y0 y1 y2 => 0.4 <= y0 -> y1 < y2) (fun _ _ _ => True).
Proof.
  intros G0 G1 G2 Ht HG Hz HJ H1 H12 H2.
  assert (N : forall v, n_mech (with_v a v) = Some t /\ as_geom (with_v a v) /\ match n_z1 (with_v a v) with Some z => 0 <= z | None => True end).
  { intros v. split; [destruct a; exact Ht|]. split; [destruct a; exact HG|]. replace (n_z1 (with_v a v)) with (n_z1 a) by (destruct a; reflexivity). rewrite Hz. exact I. }
  eapply rep_compares3; [apply (as_reports _ _ t G0)|apply (as_reports _ _ t G1)|apply (as_reports _ _ t G2)|..]; try apply N; try (rewrite with_v_v; lra); cbv beta; [intros; exact I| |exact I].
  rewrite as_1180 by (assumption || apply ask14_pga_in). destruct (as_v ask14_pga_row a Hz HJ) as [k E]. rewrite !E. clear E. generalize (exp (as_rock ask14_pga_row a)). intros y Hy.
  apply exp_increasing, Rplus_lt_compat_l. unfold as_site. pose proof (as_v1_lo ask14_pga_row) as V. unfold as_vstar. rewrite !Rmin_left by lra. clear V.
  replace (Q2R (ask14_n ask14_pga_row)) with 1.5 by (unfold Q2R; cbn; lra). replace (Q2R (ask14_b ask14_pga_row)) with (-1.47) by (unfold Q2R; cbn; lra).
  replace (Q2R (ask14_c ask14_pga_row)) with 2.4 by (unfold Q2R; cbn; lra). replace (Q2R (ask14_v_lin ask14_pga_row)) with 660 by (unfold Q2R; cbn; lra).
  assert (A : 1.5847 <= Q2R (ask14_a10 ask14_pga_row) + Q2R (as_a31 ask14_pga_row (String.eqb (as_reg a) "taiwan"))) by (destruct (String.eqb _ _); unfold Q2R; cbn; lra).
  set (A' := _ + _) in *. clearbody A'.
  apply (wall_incr _ _ _ _ _ 0.71); try lra.
  assert (P : Rpower (v2 / 660) 1.5 <= 0.403).
  { unfold Rpower. apply Rle_trans with (exp (1.5 * ln (360 / 660))); [apply exp_le_mono, Rmult_le_compat_l; [lra|]; apply ln_le_mono; lra|]. clear; interval with (i_prec 40). }
  lra.
Qed.

(** ** CB14 *)
Definition cb_site (c : cb14_row) (v p : R) : R := walling (Q2R (cb14_c_11 c)) (Q2R (cb14_k_2 c)) 1.18 1.88 p (v / Q2R (cb14_k_1 c)).
Lemma cb_site_eq c re v p : In c cb14_coeff -> re <> "japan" -> cb_fsite c re v p = cb_site c v p.
Proof.
  intros Hc HJ. unfold cb_fsite, cb_site, walling. cbv zeta. rewrite (proj2 (String.eqb_neq _ _) HJ), Rplus_0_r. row_pos Hc cb14_k_1 as K. set (k := Q2R (cb14_k_1 c)) in *. clearbody k.
  destruct (Rle_dec v k) as [L|L]; destruct (Rlt_dec (v / k) 1) as [M|M]; try reflexivity.
  - assert (v / k <= 1). { apply Rmult_le_reg_r with k; [lra|]. unfold Rdiv. rewrite Rmult_assoc, Rinv_l by lra. lra. }
    replace (v / k) with 1 by lra. unfold Rpower. rewrite ln_1, !Rmult_0_r, exp_0, !Rmult_1_r. ring.
  - exfalso. apply (Rmult_lt_compat_r k) in M; [|lra]. unfold Rdiv in M. rewrite Rmult_assoc, Rinv_l in M by lra. lra.
Qed.
Lemma cb_v c x a v : In c cb14_coeff -> cb_reg a <> "japan" ->
  cb_med cb14_pga_row c x (with_v a v) = cb_source_path c x a + cb_site c v (cb_rock_pga cb14_pga_row x a) + cb_fsed c (cb_reg a) (or_else (n_z25 a) (cb_z25 (cb_reg a) v)).
Proof.
  intros Hc HJ. rewrite <- (cb_site_eq c (cb_reg a)) by assumption. unfold cb_med.
  replace (cb_source_path c x (with_v a v)) with (cb_source_path c x a) by (destruct a; reflexivity). replace (cb_rock_pga cb14_pga_row x (with_v a v)) with (cb_rock_pga cb14_pga_row x a) by (destruct a; reflexivity).
  replace (cb_reg (with_v a v)) with (cb_reg a) by (destruct a; reflexivity). replace (n_z25 (with_v a v)) with (n_z25 a) by (destruct a; reflexivity). rewrite with_v_v. reflexivity.
Qed.
Lemma cb_1100 x a : exp (cb_med cb14_pga_row cb14_pga_row x (with_z25 (with_v a 1100) None)) = cb_rock_pga cb14_pga_row x a.
Proof.
  unfold cb_med. set (b := with_z25 (with_v a 1100) None).
  replace (cb_source_path cb14_pga_row x b) with (cb_source_path cb14_pga_row x a) by (destruct a; reflexivity). replace (cb_reg b) with (cb_reg a) by (destruct a; reflexivity).
  replace (n_v b) with 1100 by (destruct a; reflexivity). replace (n_z25 b) with (@None R) by (destruct a; reflexivity). generalize (cb_rock_pga cb14_pga_row x b). intros q. clear b.
  unfold cb_rock_pga. f_equal. f_equal. f_equal. unfold cb_fsite. cbv zeta. replace (Q2R (cb14_k_1 cb14_pga_row)) with 865 by (unfold Q2R; cbn; lra). destruct (Rle_dec 1100 865); [lra|]. reflexivity.
Qed.
Lemma cb_weak c v1 v2 p : In c cb14_coeff -> 0 < p -> 180 <= v1 /\ p <= 0.02 \/ 2 <= Q2R (cb14_period c) -> 0 < v1 -> v1 < v2 -> cb_site c v2 p < cb_site c v1 p.
Proof.
  intros Hc Hp H H1 H12. row_pos Hc cb14_k_1 as K. row_upto Hc cb14_k_2 (0#1)%Q as B0. row_upto Hc cb14_k_1 (1086#1)%Q as K1.
  assert (D : v1 / Q2R (cb14_k_1 c) < v2 / Q2R (cb14_k_1 c)) by (unfold Rdiv; apply Rmult_lt_compat_r; [apply Rinv_0_lt_compat; lra|lra]).
  assert (P : 0 < v1 / Q2R (cb14_k_1 c)) by (apply Rdiv_lt_0_compat; lra). unfold cb_site. destruct H as [[Hv H]|HT].
  - row_lt Hc (fun c => cb14_c_11 c + cb14_k_2 c * (118#100) * (9182#10000))%Q (fun _ : cb14_row => 0#1)%Q as A.
    apply (wall_decr _ _ _ _ _ 0.9182); try assumption; try lra. right. apply (share_from _ _ _ 0.02 (1.88 * 0.1195)); try lra. apply Rmult_le_compat_l; [lra|].
    unfold Rpower. apply Rle_trans with (exp (1.18 * ln (180 / 1086))); [clear; interval with (i_prec 40)|]. apply exp_le_mono, Rmult_le_compat_l; [lra|]. apply ln_le_mono; [lra|].
    apply Rmult_le_reg_r with (Q2R (cb14_k_1 c)); [lra|]. unfold Rdiv. rewrite (Rmult_assoc v1), Rinv_l by lra. lra.
  - pose proof (rows_when_lt cb14_coeff (fun c => Qle_bool (2#1) (cb14_period c)) cb14_c_11 (fun _ => 0 # 1)%Q ltac:(vm_compute; reflexivity) c Hc) as Z.
    cbv beta in Z. rewrite Rle_Qleb in Z by rq. specialize (Z eq_refl). qnorm_in Z.
    apply (wall_decr _ _ _ _ _ 0); try assumption; try lra. right. pose proof (exp_pos (1.18 * ln (v1 / Q2R (cb14_k_1 c)))). unfold Rpower. lra.
Qed.
Lemma cb_sed_up c re z1 z2 : In c cb14_coeff -> re <> "japan" -> 0 < Q2R (cb14_c_14 c) -> z1 <= z2 -> cb_fsed c re z1 <= cb_fsed c re z2.
Proof.
  intros Hc HJ H14 [H|<-]; [|lra]. destruct (Rle_dec z2 1) as [L2|L2].
  - unfold cb_fsed. destruct (Rle_dec z1 1); [|lra]. destruct (Rle_dec z2 1); [|lra]. rewrite (proj2 (String.eqb_neq _ _) HJ), Rplus_0_r. apply Rmult_le_compat_l; lra.
  - assert (N : 0 <= cb_fsed c re z2). { destruct (Rle_dec z2 3) as [L3|L3]; [rewrite cb_flat by lra; lra|left; apply cb_deep_pos; [exact Hc|lra]]. }
    destruct (Rle_dec z1 1) as [L1|L1].
    + assert (cb_fsed c re z1 <= 0); [|lra]. unfold cb_fsed. destruct (Rle_dec z1 1); [|lra]. rewrite (proj2 (String.eqb_neq _ _) HJ), Rplus_0_r. nra.
    + destruct (Rle_dec z2 3) as [L3|L3]; [rewrite !cb_flat by lra; lra|]. left. apply cb_deep_lt; [exact Hc|lra..].
Qed.
Lemma cb_z25_down re v1 v2 : 0 < v1 -> v1 <= v2 -> cb_z25 re v2 <= cb_z25 re v1.
Proof. intros H1 H. assert (ln v1 <= ln v2) by (apply ln_le_mono; lra). unfold cb_z25. destruct (String.eqb _ _); apply exp_le_mono; lra. Qed.
Lemma cb_softer src1 src2 rock a x t v1 v2 p : nga_gives src1 (with_v a v1) -> nga_gives src2 (with_v a v2) -> nga_gives rock (with_z25 (with_v a 1100) None) ->
  n_x a = Some x -> n_mech a = Some t -> cb_geom x a -> cb_reg a <> "japan" -> 0 < v1 -> v1 < v2 -> pga_is (cb14 rock) p ->
  compares (cb14 src1) (cb14 src2)
    (fun T y1 y2 => n_z25 a <> None \/ 0.15 <= T -> 180 <= v1 /\ p <= 0.02 \/ 2 <= T -> y2 < y1)
    (fun y1 y2 => n_z25 a <> None -> 180 <= v1 /\ p <= 0.02 -> y2 < y1) (fun y1 y2 => 180 <= v1 /\ p <= 0.02 -> y2 < y1).
Proof.
  intros G1 G2 G0 Hx Ht HG HJ H1 H12 HP.
  assert (N : forall v, n_x (with_v a v) = Some x /\ n_mech (with_v a v) = Some t /\ cb_geom x (with_v a v)) by (intros v; destruct a; repeat split; try assumption; apply HG; assumption).
  assert (HP' : p = exp (cb_med cb14_pga_row cb14_pga_row x (with_z25 (with_v a 1100) None))).
  { refine (rep_pga _ _ _ _ _ _ _ _ (cb_reports _ _ x t G0 _ _ _ _ _ _) HP); destruct a; cbn in *; try assumption; try lra; apply HG. }
  rewrite cb_1100 in HP'. clear HP. assert (Pp : 0 < p) by (rewrite HP'; apply exp_pos).
  assert (K : forall c, In c cb14_coeff -> n_z25 a <> None \/ 0 < Q2R (cb14_c_14 c) -> 180 <= v1 /\ p <= 0.02 \/ 2 <= Q2R (cb14_period c) ->
     exp (cb_med cb14_pga_row c x (with_v a v2)) < exp (cb_med cb14_pga_row c x (with_v a v1))).
  { intros c Hc HZ H. rewrite !cb_v, <- HP' by assumption. pose proof (cb_weak c v1 v2 p Hc Pp H H1 H12) as A. apply exp_increasing.
    assert (F : cb_fsed c (cb_reg a) (or_else (n_z25 a) (cb_z25 (cb_reg a) v2)) <= cb_fsed c (cb_reg a) (or_else (n_z25 a) (cb_z25 (cb_reg a) v1))); [|lra].
    destruct (n_z25 a) as [z|]; cbn [or_else]; [lra|]. destruct HZ as [HZ|HZ]; [congruence|]. apply cb_sed_up; try assumption. apply cb_z25_down; lra. }
  eapply rep_compares; [apply (cb_reports _ _ x t G1); try apply N; rewrite with_v_v; lra|apply (cb_reports _ _ x t G2); try apply N; rewrite with_v_v; lra|..]; cbv beta.
  - intros c Hc HZ H. pose proof (cb_rows c (or_intror (or_intror Hc))) as Hc'. apply K; [exact Hc'| |exact H]. destruct HZ as [HZ|HZ]; [left; exact HZ|right].
    pose proof (rows_when_lt cb14_coeff (fun c => Qle_bool (15#100) (cb14_period c)) (fun _ => 0#1)%Q cb14_c_14 ltac:(vm_compute; reflexivity) c Hc') as Z.
    cbv beta in Z. rewrite Rle_Qleb in Z by rq. specialize (Z eq_refl). qnorm_in Z. lra.
  - intros HZ H. apply K; [apply cb14_pga_in|left; exact HZ|left; exact H].
  - intros H. apply K; [apply cb14_pgv_in|right; unfold Q2R; cbn; lra|left; exact H].
Qed.
Lemma cb_softer_strong src1 src2 rock a x t v1 v2 p : nga_gives src1 (with_v a v1) -> nga_gives src2 (with_v a v2) -> nga_gives rock (with_z25 (with_v a 1100) None) ->
  n_x a = Some x -> n_mech a = Some t -> cb_geom x a -> cb_reg a <> "japan" -> n_z25 a <> None -> 0 < v1 -> v1 < v2 -> v2 <= 360 -> pga_is (cb14 rock) p -> 0.2 <= p ->
  compares (cb14 src1) (cb14 src2) (fun _ _ _ => True) Rlt (fun _ _ => True).
Proof.
  intros G1 G2 G0 Hx Ht HG HJ HZ H1 H12 H2 HP Hp.
  assert (N : forall v, n_x (with_v a v) = Some x /\ n_mech (with_v a v) = Some t /\ cb_geom x (with_v a v)) by (intros v; destruct a; repeat split; try assumption; apply HG; assumption).
  assert (HP' : p = exp (cb_med cb14_pga_row cb14_pga_row x (with_z25 (with_v a 1100) None))).
  { refine (rep_pga _ _ _ _ _ _ _ _ (cb_reports _ _ x t G0 _ _ _ _ _ _) HP); destruct a; cbn in *; try assumption; try lra; apply HG. }
  rewrite cb_1100 in HP'. clear HP.
  eapply rep_compares; [apply (cb_reports _ _ x t G1); try apply N; rewrite with_v_v; lra|apply (cb_reports _ _ x t G2); try apply N; rewrite with_v_v; lra|..]; cbv beta; try exact I; [intros; exact I|].
  rewrite !cb_v, <- HP' by (assumption || apply cb14_pga_in). clear HP'. destruct (n_z25 a) as [z|]; [|congruence]. cbn [or_else]. apply exp_increasing, Rplus_lt_compat_r, Rplus_lt_compat_l.
  unfold cb_site. replace (Q2R (cb14_k_1 cb14_pga_row)) with 865 by (unfold Q2R; cbn; lra). replace (Q2R (cb14_k_2 cb14_pga_row)) with (-1.186) by (unfold Q2R; cbn; lra).
  replace (Q2R (cb14_c_11 cb14_pga_row)) with 1.09 by (unfold Q2R; cbn; lra).
  apply (wall_incr _ _ _ _ _ 0.772); try lra.
  assert (P : Rpower (v2 / 865) 1.18 <= 0.357).
  { unfold Rpower. apply Rle_trans with (exp (1.18 * ln (360 / 865))); [apply exp_le_mono, Rmult_le_compat_l; [lra|]; apply ln_le_mono; lra|]. clear; interval with (i_prec 40). }
  lra.
Qed.
