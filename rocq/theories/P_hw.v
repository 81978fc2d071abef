(** * Hanging wall and mechanism: monotonicity of the NGA-West2 medians in the source term *)
From Coquelicot Require Import Coquelicot.
From Interval Require Import Tactic.
From Coq Require Import List.
From Verif Require Import M_cy14 M_bssa14 M_cb14 M_ask14 FrameworkProofs Anal Nga Outs Cont Cont1 SpecNga P_cy14 P_bssa14 P_cb14 P_cb14b P_ask14 P_ask14b P_ngaspec
  Spec_cy14 Spec_bssa14 Spec_cb14 Spec_ask14 Properties_NGA Properties_NGAPub Properties_NGAPub2 Properties_NGAPub3 P_ngamag P_ngacont.
Open Scope R_scope.
Open Scope string_scope.
Open Scope list_scope.

(** The same scenario with another hanging-wall flag, another dist_x, another mechanism. *)
Definition with_hw (a : nga) (hw : option bool) : nga :=
  let '(Nga m r jb x y0 cr dip v tor bor bot hyp w z1 z25 dpp me re so _ af) := a in
  Nga m r jb x y0 cr dip v tor bor bot hyp w z1 z25 dpp me re so hw af.
Definition with_x (a : nga) (x : option R) : nga :=
  let '(Nga m r jb _ y0 cr dip v tor bor bot hyp w z1 z25 dpp me re so hw af) := a in
  Nga m r jb x y0 cr dip v tor bor bot hyp w z1 z25 dpp me re so hw af.

(** Rows compared. *)
Lemma rep_le {A} r1 r2 (rows : list A) ca cv per med1 sd1 med2 sd2 : reports r1 rows ca cv per med1 sd1 -> reports r2 rows ca cv per med2 sd2 ->
  (forall c, In c (ca :: cv :: rows) -> med1 c <= med2 c) ->
  exists o1 o2, gmm_out r1 o1 /\ gmm_out r2 o2 /\ resp2 flt_le o1 o2.
Proof.
  intros R1 R2 H. exists (rep_outs rows ca cv med1 sd1), (rep_outs rows ca cv med2 sd2).
  split; [eapply reports_out; exact R1|]. split; [eapply reports_out; exact R2|].
  assert (K : forall c, In c (ca :: cv :: rows) -> flt_le (Fin (exp (med1 c))) (Fin (exp (med2 c)))).
  { intros c Hc. apply flt_le_fin, exp_le_mono, H, Hc. }
  unfold resp2, rep_outs; cbn [o_sa o_pga o_pgv]. split; [apply Forall2_map_intro; intros c Hc|split]; apply K; cbn; auto.
Qed.

(** ** ASK14: the median grows with the source and path terms *)
Lemma as_site_incr c v K1 S1 S2 : In c ask14_coeff -> 180 <= v -> S1 < S2 ->
  S1 + as_f5 c v (exp (S1 + K1)) < S2 + as_f5 c v (exp (S2 + K1)).
Proof.
  intros Hc Hv H. unfold as_f5. cbv zeta. row_pos Hc ask14_v_lin as V. row_pos Hc ask14_c as C.
  destruct (ask14_v1_form c) as (v1 & E & B & _). rewrite as_v1_ok in E. injection E as E.
  assert (Z : 180 / Q2R (ask14_v_lin c) <= as_vstar c v / Q2R (ask14_v_lin c)).
  { apply Rmult_le_compat_r; [left; apply Rinv_0_lt_compat; lra|]. unfold as_vstar. rewrite E. apply Rmin_glb; lra. }
  destruct (Rlt_dec _ 1) as [L|L]; [|lra].
  destruct (ask14_soil c (as_vstar c v / Q2R (ask14_v_lin c)) Hc ltac:(lra)) as (s & Hs & -> & Hb & B0).
  pose proof (nl_incr (- Q2R (ask14_b c)) (Q2R (ask14_c c)) s (S1 + K1) (S2 + K1) ltac:(lra) ltac:(lra) Hs Hb ltac:(lra)). lra.
Qed.
Definition as_same (a1 a2 : nga) : Prop := n_v a1 = n_v a2 /\ n_rup a1 = n_rup a2 /\ n_region a1 = n_region a2 /\ n_z1 a1 = n_z1 a2.
Lemma as_med_lt c a1 a2 : In c ask14_coeff -> 180 <= n_v a1 -> as_same a1 a2 -> as_source_path c a1 < as_source_path c a2 -> as_med c a1 < as_med c a2.
Proof.
  intros Hc Hv (E1 & E2 & E3 & E4) L. unfold as_med, as_rock, as_reg. rewrite <- E1, <- E2, <- E3, <- E4.
  set (re := option_of _ _ _). 
  pose proof (as_site_incr c (n_v a1) (as_regional c re 1180 (n_rup a1) + (Q2R (ask14_a10 c) + Q2R (ask14_b c) * Q2R (ask14_n c)) * ln (as_vstar c 1180 / Q2R (ask14_v_lin c))) _ _ Hc Hv L) as H.
  rewrite !Rplus_assoc in *. lra.
Qed.
Lemma as_med_le c a1 a2 : In c ask14_coeff -> 180 <= n_v a1 -> as_same a1 a2 -> as_source_path c a1 <= as_source_path c a2 -> as_med c a1 <= as_med c a2.
Proof.
  intros Hc Hv S [L|L]; [left; apply as_med_lt; assumption|]. right. destruct S as (E1 & E2 & E3 & E4).
  unfold as_med, as_rock, as_reg. rewrite <- E1, <- E2, <- E3, <- E4, L. reflexivity.
Qed.
(** ** CY14: the median grows with the reference response *)
Definition cy_same_site (a1 a2 : nga) : Prop := n_v a1 = n_v a2 /\ n_region a1 = n_region a2 /\ n_z1 a1 = n_z1 a2.
Lemma cy_med_lt c x1 x2 a1 a2 : In c cy14_coeff -> 180 <= n_v a1 -> cy_same_site a1 a2 -> cy_ref c x1 a1 < cy_ref c x2 a2 -> cy_med c x1 a1 < cy_med c x2 a2.
Proof.
  intros Hc Hv (E1 & E2 & E3) L. unfold cy_med, cy_dz1, cy_reg. rewrite <- E1, <- E2, <- E3. cbv zeta.
  pose proof (cy14_f2_bound c (n_v a1) Hc Hv) as B. row_pos Hc cy14_phi_4 as P.
  pose proof (site_incr _ _ (Q2R (cy14_phi_4 c)) (cy_b c (n_v a1)) ltac:(lra) ltac:(unfold cy_b; replace 1130 with 1130.0 by lra; replace 360 with 360.0 by lra; exact B) L). lra.
Qed.
Lemma cy_med_le c x1 x2 a1 a2 : In c cy14_coeff -> 180 <= n_v a1 -> cy_same_site a1 a2 -> cy_ref c x1 a1 <= cy_ref c x2 a2 -> cy_med c x1 a1 <= cy_med c x2 a2.
Proof.
  intros Hc Hv S [L|L]; [left; apply cy_med_lt; assumption|]. right. destruct S as (E1 & E2 & E3).
  unfold cy_med, cy_dz1, cy_reg. rewrite <- E1, <- E2, <- E3, L. reflexivity.
Qed.
(** ** CB14: on rock, and PGA everywhere *)
Definition cb_same_site (a1 a2 : nga) : Prop := n_v a1 = n_v a2 /\ n_region a1 = n_region a2 /\ n_z25 a1 = n_z25 a2.
Lemma cb_rock_le c x1 x2 a1 a2 : In c cb14_coeff -> 1086 < n_v a1 -> cb_same_site a1 a2 -> cb_source_path c x1 a1 <= cb_source_path c x2 a2 ->
  cb_med cb14_pga_row c x1 a1 <= cb_med cb14_pga_row c x2 a2.
Proof.
  intros Hc Hv (E1 & E2 & E3) L. unfold cb_med, cb_reg. rewrite <- E1, <- E2, <- E3.
  row_upto Hc cb14_k_1 (1086#1)%Q as K. unfold cb_fsite. cbv zeta. destruct (Rle_dec (n_v a1) (Q2R (cb14_k_1 c))); [lra|]. lra.
Qed.
Lemma cb_pga_lt x1 x2 a1 a2 : 150 <= n_v a1 -> cb_same_site a1 a2 -> cb_source_path cb14_pga_row x1 a1 < cb_source_path cb14_pga_row x2 a2 ->
  cb_med cb14_pga_row cb14_pga_row x1 a1 < cb_med cb14_pga_row cb14_pga_row x2 a2.
Proof.
  intros Hv (E1 & E2 & E3) L. unfold cb_med, cb_rock_pga, cb_reg. rewrite <- E1, <- E2, <- E3. apply cb_pga_med_incr; assumption.
Qed.
Lemma cb_pga_le x1 x2 a1 a2 : 150 <= n_v a1 -> cb_same_site a1 a2 -> cb_source_path cb14_pga_row x1 a1 <= cb_source_path cb14_pga_row x2 a2 ->
  cb_med cb14_pga_row cb14_pga_row x1 a1 <= cb_med cb14_pga_row cb14_pga_row x2 a2.
Proof.
  intros Hv S [L|L]; [left; apply cb_pga_lt; assumption|]. right. destruct S as (E1 & E2 & E3).
  unfold cb_med, cb_rock_pga, cb_reg. rewrite <- E1, <- E2, <- E3, L. reflexivity.
Qed.

(** ** The hanging-wall terms are not negative *)
Lemma as_clip_ge0 x : 0 <= as_clip x. Proof. unfold as_clip. apply Rmin_glb; [apply Rmax_r|lra]. Qed.
Lemma cos_dip_nonneg d : 0 <= d <= 90 -> 0 <= cos (d * (PI / 180)).
Proof. intros H. pose proof PI_RGT_0. apply cos_ge_0; nra. Qed.
Definition as_shape (m x r1 : R) : R :=
  (if Rle_dec m 5.5 then 0 else if Rlt_dec m 6.5 then 1 + 0.2 * (m - 6.5) - (1 - 0.2) * (m - 6.5) ^ 2 else 1 + 0.2 * (m - 6.5))
  * (if Rlt_dec x r1 then 0.25 + 1.5 * (x / r1) - 0.75 * (x / r1) ^ 2 else if Rlt_dec x (3 * r1) then 1 - (x - r1) / (2 * r1) else 0).
Lemma as_shape_pos m x r1 : 0 <= x -> 5.5 < m -> x < 3 * r1 -> 0 < as_shape m x r1.
Proof.
  intros Hx Hm H. unfold as_shape. apply Rmult_lt_0_compat.
  - destruct (Rle_dec m 5.5); [lra|]. destruct (Rlt_dec m 6.5); nra.
  - destruct (Rlt_dec x r1) as [L|L].
    + assert (U : 0 <= x / r1 <= 1). { split; [apply Rdiv_le_0_compat; lra|]. apply Rmult_le_reg_r with r1; [lra|]. unfold Rdiv. rewrite Rmult_assoc, Rinv_l; lra. }
      set (u := x / r1) in *. nra.
    + destruct (Rlt_dec x (3 * r1)); [|lra]. assert (P : 0 < r1) by lra.
      replace (1 - (x - r1) / (2 * r1)) with ((3 * r1 - x) / (2 * r1)) by (field; lra). apply Rdiv_lt_0_compat; lra.
Qed.
Lemma as_shape_ge0 m x r1 : 0 <= x -> 0 <= as_shape m x r1.
Proof.
  intros Hx. destruct (Rle_dec m 5.5) as [M|M]; [unfold as_shape; destruct (Rle_dec m 5.5); [lra|contradiction]|].
  destruct (Rlt_dec x (3 * r1)) as [L|L]; [left; apply as_shape_pos; lra|].
  unfold as_shape. destruct (Rlt_dec x (3 * r1)); [contradiction|]. destruct (Rlt_dec x r1); lra.
Qed.
Definition as_t5 (a : nga) (x : R) : R := match n_y0 a with Some y0 => as_clip (1 - (y0 - x * tan (20 * (PI / 180))) / 5) | None => as_clip (1 - n_jb a / 30) end.
Lemma as_f4_eq c x a : as_f4 c x a = Q2R (ask14_a13 c) * (Rmin (90 - n_dip a) 60 / 45) * as_shape (n_mag a) x (as_wid a * cos (as_rad a)) * as_clip (1 - as_tor a ^ 2 / 100) * as_t5 a x.
Proof. unfold as_f4, as_shape, as_t5. cbv zeta. rewrite <- !Rmult_assoc. reflexivity. Qed.
Lemma as_f4_ge0 c x a : In c ask14_coeff -> 0 <= x -> n_dip a <= 90 -> 0 <= as_f4 c x a.
Proof.
  intros Hc Hx Hd. row_ge Hc (0#1)%Q ask14_a13 as A. rewrite as_f4_eq.
  assert (0 <= Rmin (90 - n_dip a) 60) by (apply Rmin_glb; lra).
  pose proof (as_shape_ge0 (n_mag a) x (as_wid a * cos (as_rad a)) Hx). pose proof (as_clip_ge0 (1 - as_tor a ^ 2 / 100)).
  assert (0 <= as_t5 a x) by (unfold as_t5; destruct (n_y0 a); apply as_clip_ge0).
  set (k := Q2R (ask14_a13 c)) in *. set (u := as_shape _ _ _) in *. set (w := as_clip _) in *. set (t5 := as_t5 _ _) in *. clearbody k u w t5.
  repeat apply Rmult_le_pos; lra.
Qed.
Lemma as_hw_path c a x : n_x a = Some x ->
  as_source_path c (with_hw a (Some true)) = as_source_path c (with_hw a (Some false)) + as_f4 c x a.
Proof.
  intros Hx. nga_split a. cbn in Hx. subst. unfold as_source_path. cbn [with_hw n_mag n_rup n_hw n_x n_after n_crjb].
  change (as_f4 c x (Nga _ _ _ _ _ _ _ _ _ _ _ _ _ _ _ _ _ _ _ (Some true) _)) with (as_f4 c x (Nga a_m a_r a_j (Some x) a_y0 a_cr a_dip a_v a_tor a_bor a_bot a_hyp a_w a_z1 a_z25 a_dpp a_me a_re a_so a_hw a_af)).
  unfold as_tor, as_mech. cbn [n_tor n_mag n_mech]. ring.
Qed.
Lemma as_hw src1 src2 a t x : nga_gives src1 (with_hw a (Some false)) -> nga_gives src2 (with_hw a (Some true)) ->
  n_mech a = Some t -> n_x a = Some x -> 0 <= x -> 0 < n_dip a <= 90 -> 180 <= n_v a -> match n_z1 a with Some z => 0 <= z | None => True end ->
  exists o1 o2, gmm_out (ask14 src1) o1 /\ gmm_out (ask14 src2) o2 /\ resp2 flt_le o1 o2.
Proof.
  intros G1 G2 Ht Hx X0 Hd Hv Hz.
  eapply rep_le; [apply (as_reports _ _ t G1)|apply (as_reports _ _ t G2)|]; try (destruct a; cbn in *; assumption || lra).
  - destruct a; cbn; discriminate.
  - intros _. exists x. destruct a; cbn in *; auto.
  - intros c Hc. assert (I : In c ask14_coeff) by (destruct Hc as [<-|[<-|Hc]]; [apply ask14_pga_in|apply ask14_pgv_in|apply ask14_psa_in, Hc]).
    apply as_med_le; [exact I|destruct a; exact Hv|destruct a; repeat split|]. rewrite (as_hw_path c a x Hx). pose proof (as_f4_ge0 c x a I X0 (proj2 Hd)). lra.
Qed.
Lemma as_hw_pga src1 src2 a t x : nga_gives src1 (with_hw a (Some false)) -> nga_gives src2 (with_hw a (Some true)) ->
  n_mech a = Some t -> n_x a = Some x -> 0 <= x -> 0 < n_dip a < 90 -> 180 <= n_v a -> match n_z1 a with Some z => 0 <= z | None => True end ->
  5.5 < n_mag a -> x < 3 * (as_wid a * cos (n_dip a * (PI / 180))) -> -10 < as_tor a < 10 -> n_y0 a = None -> n_jb a < 30 ->
  exists o1 o2, gmm_out (ask14 src1) o1 /\ gmm_out (ask14 src2) o2 /\ flt_lt (o_pga o1) (o_pga o2).
Proof.
  intros G1 G2 Ht Hx X0 Hd Hv Hz Hm Hw Hto Hy Hj.
  eexists. eexists.
  split; [eapply reports_out, (as_reports _ _ t G1); [destruct a; exact Ht|destruct a; cbn in *; lra|destruct a; intros W; discriminate W|destruct a; exact Hz]|].
  split; [eapply reports_out, (as_reports _ _ t G2); [destruct a; exact Ht|destruct a; cbn in *; lra|intros _; exists x; destruct a; cbn in *; repeat split; (assumption || lra)|destruct a; exact Hz]|].
  cbn [o_pga rep_outs]. do 2 eexists. split; [reflexivity|]. split; [reflexivity|]. apply exp_increasing, as_med_lt; [exact ask14_pga_in|destruct a; exact Hv|destruct a; repeat split|].
  rewrite (as_hw_path _ a x Hx). cut (0 < as_f4 ask14_pga_row x a); [lra|]. rewrite as_f4_eq.
  assert (0 < Q2R (ask14_a13 ask14_pga_row)) by (unfold Q2R; cbn; lra).
  assert (0 < Rmin (90 - n_dip a) 60) by (apply Rmin_glb_lt; lra).
  assert (CP : forall y, 0 < y -> 0 < as_clip y) by (intros y Y; unfold as_clip; apply Rmin_glb_lt; [apply Rlt_le_trans with y; [exact Y|apply Rmax_l]|lra]).
  pose proof (as_shape_pos (n_mag a) x (as_wid a * cos (as_rad a)) X0 Hm Hw). pose proof (CP (1 - as_tor a ^ 2 / 100) ltac:(nra)).
  assert (0 < as_t5 a x) by (unfold as_t5; rewrite Hy; apply CP; lra).
  set (k := Q2R (ask14_a13 ask14_pga_row)) in *. set (u := as_shape _ _ _) in *. set (w := as_clip _) in *. set (t5 := as_t5 _ _) in *. clearbody k u w t5.
  repeat apply Rmult_lt_0_compat; lra.
Qed.
(** CY14 *)
Definition cy_hw (c : cy14_row) (x : R) (a : nga) : R :=
  Q2R (cy14_c_9 c) * cos (n_dip a * (PI / 180)) * (Q2R (cy14_c_9a c) + (1 - Q2R (cy14_c_9a c)) * tanh (x / Q2R (cy14_c_9b c))) * (1 - sqrt (n_jb a ^ 2 + cy_tor a ^ 2) / (n_rup a + 1)).
Lemma cy_hw_path c x a : cy_ref c x (with_hw a (Some true)) = cy_ref c x (with_hw a (Some false)) + cy_hw c x a.
Proof. nga_split a. unfold cy_ref, cy_hw, cy_on_hw, cy_reg, cy_mech, cy_tor, cy_mech. cbn [with_hw n_mag n_rup n_jb n_dip n_tor n_dpp n_mech n_region n_hw]. cbv zeta. ring. Qed.
Lemma tanh_ge0 x : 0 <= x -> 0 <= tanh x.
Proof.
  intros H. unfold tanh, sinh. pose proof (cosh_pos x) as P. apply Rmult_le_pos; [|left; apply Rinv_0_lt_compat; exact P].
  assert (exp (- x) <= exp x) by (apply exp_le_mono; lra). lra.
Qed.
Lemma cy_hw_ge0 c x a : In c cy14_coeff -> 0 <= x -> 0 <= n_dip a <= 90 -> 0 <= n_rup a -> sqrt (n_jb a ^ 2 + cy_tor a ^ 2) <= n_rup a + 1 -> 0 <= cy_hw c x a.
Proof.
  intros Hc Hx Hd Hr Hg. row_ge Hc (0#1)%Q cy14_c_9 as A. row_ge Hc (0#1)%Q cy14_c_9a as B. row_upto Hc cy14_c_9a (1#1)%Q as B'. row_pos Hc cy14_c_9b as C.
  unfold cy_hw. pose proof (cos_dip_nonneg _ Hd). pose proof (tanh_ge0 (x / Q2R (cy14_c_9b c)) ltac:(apply Rdiv_le_0_compat; lra)).
  assert (sqrt (n_jb a ^ 2 + cy_tor a ^ 2) / (n_rup a + 1) <= 1). { apply Rmult_le_reg_r with (n_rup a + 1); [lra|]. unfold Rdiv. rewrite Rmult_assoc, Rinv_l by lra. lra. }
  set (k9 := Q2R (cy14_c_9 c)) in *. set (ka := Q2R (cy14_c_9a c)) in *. set (th := tanh _) in *. clearbody k9 ka th.
  repeat apply Rmult_le_pos; try lra. apply Rplus_le_le_0_compat; [lra|]. apply Rmult_le_pos; lra.
Qed.
Lemma cy_hw_le src1 src2 a x : nga_gives src1 (with_hw a (Some false)) -> nga_gives src2 (with_hw a (Some true)) ->
  n_x a = Some x -> 0 <= x -> 0 <= n_dip a <= 90 -> 180 <= n_v a -> 0 <= n_rup a -> sqrt (n_jb a ^ 2 + cy_tor a ^ 2) <= n_rup a + 1 ->
  exists o1 o2, gmm_out (cy14 src1) o1 /\ gmm_out (cy14 src2) o2 /\ resp2 flt_le o1 o2.
Proof.
  intros G1 G2 Hx X0 Hd Hv Hr Hg.
  eapply rep_le; [apply (cy_reports _ _ x G1)|apply (cy_reports _ _ x G2)|]; try (destruct a; cbn in *; assumption || lra).
  intros c Hc. assert (I : In c cy14_coeff) by (destruct Hc as [<-|[<-|Hc]]; [apply cy14_pga_in|apply cy14_pgv_in|apply cy14_psa_in, Hc]).
  apply cy_med_le; [exact I|destruct a; exact Hv|destruct a; repeat split|]. rewrite cy_hw_path. pose proof (cy_hw_ge0 c x a I X0 Hd Hr Hg). lra.
Qed.
(** ... and larger than one of an inconsistent geometry can lower it. *)
(** CB14 *)
Lemma cb_fhng_ge0 c x a : In c cb14_coeff -> 0 < x -> 0 < n_dip a <= 90 -> 0 <= n_jb a <= n_rup a -> 0 <= cb_fhng c x a.
Proof.
  intros Hc Hx Hd Hj. unfold cb_fhng. row_ge Hc (0#1)%Q cb14_c_10 as A. row_ge Hc (0#1)%Q cb14_a_2 as B. row_upto Hc cb14_a_2 (1#1)%Q as B'.
  row_ge Hc (0#1)%Q cb14_h_1 as H1. row_ge Hc (0#1)%Q cb14_h_2 as H2. row_upto Hc cb14_h_3 (0#1)%Q as H3.
  row_ge Hc (1#1)%Q cb14_h_2 as H2'. row_ge Hc (-1#1)%Q cb14_h_3 as H3'.
  assert (F1 : 0 <= cb_fhng_x c x a).
  { unfold cb_fhng_x. cbv zeta. destruct (Rlt_dec x 0); [lra|]. set (r1 := cb_wid a * cos (cb_rad a)).
    destruct (Rle_dec x r1) as [L|L].
    - assert (U : 0 <= x / r1 <= 1). { split; [apply Rdiv_le_0_compat; lra|]. apply Rmult_le_reg_r with r1; [lra|]. unfold Rdiv. rewrite Rmult_assoc, Rinv_l; lra. }
      set (u := x / r1) in *. assert (0 <= Q2R (cb14_h_2 c) * u + Q2R (cb14_h_3 c) * u ^ 2); [|lra].
      assert (u ^ 2 <= u) by nra. nra.
    - destruct (Req_EM_T _ _); [lra|apply Rmax_l]. }
  assert (F2 : 0 <= (if Req_EM_T (n_rup a) 0 then 1 else (n_rup a - n_jb a) / n_rup a)).
  { destruct (Req_EM_T (n_rup a) 0); [lra|]. apply Rdiv_le_0_compat; lra. }
  assert (F3 : 0 <= (if Rle_dec (n_mag a) 5.5 then 0 else Rmin (n_mag a - 5.5) 1 * (1 + Q2R (cb14_a_2 c) * (n_mag a - 6.5)))).
  { destruct (Rle_dec (n_mag a) 5.5); [lra|]. apply Rmult_le_pos; [apply Rmin_glb; lra|]. set (k := Q2R (cb14_a_2 c)) in *. nra. }
  assert (F4 : 0 <= (if Rle_dec (cb_tor a) 16.66 then 1 - 0.06 * cb_tor a else 0)) by (destruct (Rle_dec (cb_tor a) 16.66); lra).
  set (k := Q2R (cb14_c_10 c)) in *. clearbody k.
  repeat apply Rmult_le_pos; try assumption; lra.
Qed.
Lemma cb_x_path c x y a : y < 0 -> cb_source_path c x (with_x a (Some x)) = cb_source_path c y (with_x a (Some y)) + cb_fhng c x a.
Proof.
  intros Hy. nga_split a. unfold cb_source_path, cb_fhng, cb_fhng_x, cb_hyp, cb_bor, cb_wid, cb_tor, cb_mech, cb_reg, cb_rad, cb_tor, cb_mech. 
  cbn [with_x n_mag n_rup n_jb n_dip n_tor n_mech n_region n_hyp n_bor n_width n_bot]. cbv zeta. destruct (Rlt_dec y 0); [|lra].
  match goal with |- ?p + ?q = _ => idtac end. rewrite Rmult_0_r, !Rmult_0_l. lra.
Qed.
Lemma cb_hw_rock src1 src2 a t x y : nga_gives src1 (with_x a (Some y)) -> nga_gives src2 (with_x a (Some x)) ->
  n_mech a = Some t -> y < 0 < x -> 0 < n_dip a <= 90 -> 0 <= n_jb a <= n_rup a -> (n_hyp a = None -> cb_tor a < cb_bor a) -> 1086 < n_v a ->
  exists o1 o2, gmm_out (cb14 src1) o1 /\ gmm_out (cb14 src2) o2 /\ resp2 flt_le o1 o2.
Proof.
  intros G1 G2 Ht Hxy Hd Hj Hh Hv.
  eapply rep_le; [apply (cb_reports _ _ y t G1)|apply (cb_reports _ _ x t G2)|]; try (destruct a; cbn in *; first [assumption|reflexivity|lra]).
  intros c Hc. apply cb_rows in Hc. apply cb_rock_le; [exact Hc|destruct a; exact Hv|destruct a; repeat split|].
  rewrite (cb_x_path c x y a (proj1 Hxy)). pose proof (cb_fhng_ge0 c x a Hc (proj2 Hxy) Hd Hj). lra.
Qed.
Lemma cb_hw_pga src1 src2 a t x y : nga_gives src1 (with_x a (Some y)) -> nga_gives src2 (with_x a (Some x)) ->
  n_mech a = Some t -> y < 0 < x -> 0 < n_dip a <= 90 -> 0 <= n_jb a <= n_rup a -> (n_hyp a = None -> cb_tor a < cb_bor a) -> 150 <= n_v a ->
  exists o1 o2, gmm_out (cb14 src1) o1 /\ gmm_out (cb14 src2) o2 /\ flt_le (o_pga o1) (o_pga o2).
Proof.
  intros G1 G2 Ht Hxy Hd Hj Hh Hv. eexists. eexists.
  split; [eapply reports_out, (cb_reports _ _ y t G1); destruct a; cbn in *; first [assumption|reflexivity|lra]|].
  split; [eapply reports_out, (cb_reports _ _ x t G2); destruct a; cbn in *; first [assumption|reflexivity|lra]|].
  cbn [o_pga rep_outs]. apply flt_le_fin, exp_le_mono, cb_pga_le; [destruct a; exact Hv|destruct a; repeat split|].
  rewrite (cb_x_path _ x y a (proj1 Hxy)). pose proof (cb_fhng_ge0 _ x a cb14_pga_in (proj2 Hxy) Hd Hj). lra.
Qed.
(** CY14 with the top of the rupture deeper than the distance to it: the hanging wall lowers the response. *)
Lemma cy_hw_lowers src1 src2 a x : nga_gives src1 (with_hw a (Some false)) -> nga_gives src2 (with_hw a (Some true)) ->
  n_x a = Some x -> 0 <= x -> 0 <= n_dip a < 90 -> 180 <= n_v a -> 0 <= n_rup a -> n_rup a + 1 < sqrt (n_jb a ^ 2 + cy_tor a ^ 2) ->
  exists o1 o2, gmm_out (cy14 src1) o1 /\ gmm_out (cy14 src2) o2 /\ flt_lt (o_pga o2) (o_pga o1).
Proof.
  intros G1 G2 Hx X0 Hd Hv Hr Hg. eexists. eexists.
  split; [eapply reports_out, (cy_reports _ _ x G1); destruct a; cbn in *; first [assumption|reflexivity|lra]|].
  split; [eapply reports_out, (cy_reports _ _ x G2); destruct a; cbn in *; first [assumption|reflexivity|lra]|].
  cbn [o_pga rep_outs]. do 2 eexists. split; [reflexivity|]. split; [reflexivity|]. apply exp_increasing, cy_med_lt; [exact cy14_pga_in|destruct a; exact Hv|destruct a; repeat split|].
  rewrite cy_hw_path. cut (cy_hw cy14_pga_row x a < 0); [lra|]. unfold cy_hw.
  assert (A : 0 < Q2R (cy14_c_9 cy14_pga_row)) by (unfold Q2R; cbn; lra).
  assert (B : 0 < Q2R (cy14_c_9a cy14_pga_row) < 1) by (unfold Q2R; cbn; lra).
  assert (C : 0 < Q2R (cy14_c_9b cy14_pga_row)) by (unfold Q2R; cbn; lra).
  pose proof PI_RGT_0. assert (0 < cos (n_dip a * (PI / 180))) by (apply cos_gt_0; nra).
  pose proof (tanh_ge0 (x / Q2R (cy14_c_9b cy14_pga_row)) ltac:(apply Rdiv_le_0_compat; lra)) as T.
  assert (1 < sqrt (n_jb a ^ 2 + cy_tor a ^ 2) / (n_rup a + 1)). { apply Rmult_lt_reg_r with (n_rup a + 1); [lra|]. unfold Rdiv. rewrite Rmult_assoc, Rinv_l by lra. lra. }
  set (k9 := Q2R (cy14_c_9 _)) in *. set (ka := Q2R (cy14_c_9a _)) in *. set (th := tanh _) in *. set (cd := cos _) in *. set (q := sqrt _ / _) in *. clearbody k9 ka th cd q.
  assert (0 < k9 * cd) by (apply Rmult_lt_0_compat; lra). assert (W : 0 < ka + (1 - ka) * th) by (pose proof (Rmult_le_pos (1 - ka) th ltac:(lra) T); lra).
  pose proof (Rmult_lt_0_compat _ _ H2 W) as Z. set (z := k9 * cd * (ka + (1 - ka) * th)) in *. clearbody z. nra.
Qed.
