(** * Growth of the CY14 median with magnitude: lemmas for C118 *)
From Coquelicot Require Import Coquelicot.
From Interval Require Import Tactic.
From Coq Require Import List.
From Verif Require Import M_cy14 M_bssa14 M_cb14 M_ask14 FrameworkProofs Anal Nga Outs SpecNga P_cy14 P_bssa14 P_cb14 P_cb14b P_ask14 P_ask14b P_ngaspec P_ba18 Spec_cy14 Spec_bssa14 Properties_NGAPub P_ngamag.
Open Scope R_scope.
Open Scope string_scope.
Open Scope list_scope.

Lemma tanh_exp z : tanh z = 1 - 2 / (exp (2 * z) + 1).
Proof.
  unfold tanh, sinh, cosh. rewrite exp_Ropp. pose proof (exp_pos z). replace (exp (2 * z)) with (exp z * exp z) by (rewrite <- exp_plus; f_equal; lra).
  field. split; nra.
Qed.
Lemma cy_key m : 4.5 <= m <= 10 ->
  0.51 * (sinh (2 * (m - 4.5)) / (cosh (2 * (m - 4.5)) * cosh (2 * (m - 4.5)))) < 1.06 - 1.06008 * tanh (0.5048 * (m - 3.0514)).
Proof.
  intros H. rewrite tanh_exp. unfold sinh, cosh.
  match goal with |- ?l < ?r => cut (0 < r - l); [lra|] end. interval with (i_bisect m, i_prec 40, i_depth 30).
Qed.
Lemma cy_key0 m : m <= 10 -> 1.06008 * tanh (0.5048 * (m - 3.0514)) < 1.06.
Proof.
  intros H. apply Rle_lt_trans with (1.06008 * tanh (0.5048 * (10 - 3.0514))).
  - apply Rmult_le_compat_l; [lra|]. apply tanh_le. lra.
  - rewrite tanh_exp. interval with (i_prec 40).
Qed.
(** Slope of the near-source saturation. *)
Lemma cy_sat r c5 c6 chm m : 0 <= r -> 0 < c5 -> 0 < c6 <= 0.5048 -> 3.0514 <= chm -> chm <= m ->
  2.1 * (c5 * (sinh (c6 * (m - chm)) * c6) / (r + c5 * cosh (c6 * (m - chm)))) <= 1.06008 * tanh (0.5048 * (m - 3.0514)).
Proof.
  intros Hr H5 H6 Hh Hm. set (z := c6 * (m - chm)).
  assert (Z0 : 0 <= z) by (apply Rmult_le_pos; lra).
  assert (Z1 : z <= 0.5048 * (m - 3.0514)) by (apply Rmult_le_compat; lra).
  assert (S0 : 0 <= sinh z) by (destruct (Req_dec z 0) as [->|]; [rewrite sinh_0; lra|left; rewrite <- sinh_0; apply sinh_lt; lra]).
  pose proof (cosh_pos z) as Cp. pose proof (tanh_le _ _ Z1) as T.
  assert (T0 : 0 <= tanh z) by (unfold tanh; apply Rmult_le_pos; [exact S0|left; apply Rinv_0_lt_compat; exact Cp]).
  assert (E : c5 * (sinh z * c6) / (r + c5 * cosh z) <= c6 * tanh z).
  { assert (P : 0 < c5 * cosh z) by (apply Rmult_lt_0_compat; lra).
    apply Rle_trans with (c5 * (sinh z * c6) / (c5 * cosh z)).
    - apply Rmult_le_compat_l; [apply Rmult_le_pos; [lra|apply Rmult_le_pos; lra]|]. apply Rinv_le_contravar; lra.
    - right. unfold tanh. field. split; lra. }
  assert (c6 * tanh z <= 0.5048 * tanh (0.5048 * (m - 3.0514))) by (apply Rmult_le_compat; lra). lra.
Qed.
Definition cy_g (r c5 c6 chm D m : R) : R :=
  1.06 * m + -2.1 * ln (r + c5 * cosh (c6 * Rmax (m - chm) 0)) + D / cosh (2 * Rmax (m - 4.5) 0).
Lemma cy_g_grows r c5 c6 chm D m1 m2 : 0 <= r -> 0 < c5 -> 0 < c6 <= 0.5048 -> 3.0514 <= chm <= 4.5 -> 0 <= D <= 0.255 -> m1 < m2 -> m2 <= 10 ->
  cy_g r c5 c6 chm D m1 < cy_g r c5 c6 chm D m2.
Proof.
  intros Hr H5 H6 Hh HD H12 H10. set (f := cy_g r c5 c6 chm D).
  assert (PP : forall z, 0 < r + c5 * cosh z) by (intros z; pose proof (cosh_pos z); nra).
  apply (incr_join (fun m => m <= m2) f chm); try lra; try (intros; lra).
  - intros u w _ _ Huw Hw. unfold f, cy_g. rewrite !(Rmax_right (_ - chm)), !(Rmax_right (_ - 4.5)) by lra. lra.
  - intros u w Hu0 Hw0 Hu Huw. apply (incr_join (fun m => chm <= m <= m2) f 4.5); try lra; try (intros; lra).
    + clear u w Hu0 Hw0 Hu Huw. intros u w Hu Hw Huw H45. unfold f, cy_g. rewrite !(Rmax_left (_ - chm)), !(Rmax_right (_ - 4.5)) by lra. apply Rplus_lt_compat_r.
      apply (incr_by_derive (fun m => 1.06 * m + -2.1 * ln (r + c5 * cosh (c6 * (m - chm))))
         (fun m => 1.06 - 2.1 * (c5 * (sinh (c6 * (m - chm)) * c6) / (r + c5 * cosh (c6 * (m - chm)))))); [exact Huw| |].
      * intros m _. pose proof (PP (c6 * (m - chm))). unfold cosh, sinh in *. auto_derive; [repeat split; assumption|]. unfold cosh, sinh. 
        replace (m + - chm) with (m - chm) by lra. replace (-2.1) with (- (2.1)) by lra. set (e1 := exp (c6 * _)) in *. set (e2 := exp (- (c6 * _))) in *. clearbody e1 e2.
        generalize 1.06, 2.1; intros k1 k2. field. lra.
      * intros m Hm. pose proof (cy_sat r c5 c6 chm m Hr H5 H6 ltac:(lra) ltac:(lra)). pose proof (cy_key0 m ltac:(lra)). lra.
    + clear u w Hu0 Hw0 Hu Huw. intros u w Hu Hw H45 Huw. unfold f, cy_g. rewrite !(Rmax_left (_ - chm)), !(Rmax_left (_ - 4.5)) by lra.
      apply (incr_by_derive (fun m => 1.06 * m + -2.1 * ln (r + c5 * cosh (c6 * (m - chm))) + D / cosh (2 * (m - 4.5)))
         (fun m => 1.06 - 2.1 * (c5 * (sinh (c6 * (m - chm)) * c6) / (r + c5 * cosh (c6 * (m - chm))))
            - 2 * D * (sinh (2 * (m - 4.5)) / (cosh (2 * (m - 4.5)) * cosh (2 * (m - 4.5)))))); [exact Huw| |].
      * intros m _. pose proof (PP (c6 * (m - chm))). pose proof (cosh_pos (2 * (m - 4.5))). unfold cosh, sinh in *. auto_derive; [unfold Rminus, Rdiv in *; repeat split; lra|]. unfold cosh, sinh.
        replace (m + - chm) with (m - chm) by lra. replace (m + - 4.5) with (m - 4.5) by lra. replace (-2.1) with (- (2.1)) by lra.
        set (e1 := exp (c6 * _)) in *. set (e2 := exp (- (c6 * _))) in *. set (e3 := exp (2 * _)) in *. set (e4 := exp (- (2 * _))) in *. clearbody e1 e2 e3 e4.
        generalize 1.06, 2.1; intros k1 k2. field. repeat split; lra.
      * intros m Hm. pose proof (cy_sat r c5 c6 chm m Hr H5 H6 ltac:(lra) ltac:(lra)). pose proof (cy_key m ltac:(lra)).
        set (q := sinh (2 * (m - 4.5)) / (cosh (2 * (m - 4.5)) * cosh (2 * (m - 4.5)))) in *.
        assert (0 <= q). { unfold q. pose proof (cosh_pos (2 * (m - 4.5))). apply Rmult_le_pos; [|left; apply Rinv_0_lt_compat; nra].
          rewrite <- sinh_0. left. apply sinh_lt. lra. }
        assert (2 * D * q <= 0.51 * q) by (apply Rmult_le_compat_r; lra). lra.
Qed.
Definition cy_sc (c : cy14_row) (reg : string) (m : R) : R :=
  if (String.eqb reg "japan" || String.eqb reg "italy")%bool
  then if Rlt_dec 6 m then if Rlt_dec m 6.9 then Q2R (cy14_gamma_ji c) else 1 else 1
  else if String.eqb reg "china" then Q2R (cy14_gamma_c c) else 1.
Definition cy_rest (c : cy14_row) (mech reg : string) (dip r m : R) : R :=
  let ch := cosh (2 * Rmax (m - 4.5) 0) in
  (if String.eqb mech "RS" then Q2R (cy14_c_1c c) else 0) / ch + Q2R (cy14_c_11b c) * cos (dip * (PI / 180)) ^ 2 / ch
  + (Q2R (cy14_c_2 c) - Q2R (cy14_c_3 c)) / Q2R (cy14_c_n c) * ln (1 + exp (Q2R (cy14_c_n c) * (Q2R (cy14_c_m c) - m)))
  + cy_sc c reg m * (Q2R (cy14_c_gamma1 c) + Q2R (cy14_c_gamma2 c) / cosh (Rmax (m - Q2R (cy14_c_gamma3 c)) 0)) * r.
Lemma cy_ref_mag c x a : In c cy14_coeff -> hw_off a -> n_tor a = None -> n_dpp a = None -> exists K, forall m,
  cy_ref c x (with_mag a m) = K + cy_g (n_rup a) (Q2R (cy14_c_5 c)) (Q2R (cy14_c_6 c)) (Q2R (cy14_c_hm c)) (if String.eqb (cy_mech a) "NS" then Q2R (cy14_c_1d c) else 0) m
    + cy_rest c (cy_mech a) (cy_reg a) (n_dip a) (n_rup a) m.
Proof.
  intros Hc Hw Ht Hd. row_is Hc cy14_c_2 (106#100)%Q as E2. row_is Hc cy14_c_4 (-21#10)%Q as E4.
  destruct a as [mm ru jb xx y0 cr di vv to bo bt hy wi z1 z25 dp me re so hw af]. cbn [n_tor n_dpp] in Ht, Hd. subst to dp.
  unfold cy_ref, cy_g, cy_rest, cy_sc, cy_tor, or_else, cy_on_hw. cbn [with_mag n_mag n_rup n_dip n_tor n_dpp n_hw n_jb].
  assert (HW : match hw with Some b => b | None => false end = false) by (destruct Hw as [H|H]; cbn in H; subst hw; reflexivity). rewrite HW.
  rewrite E2, E4.
  exists (Q2R (cy14_c_1 c) + (if String.eqb (cy_mech (Nga mm ru jb xx y0 cr di vv None bo bt hy wi z1 z25 None me re so hw af)) "RS" then Q2R (cy14_c_1a c) else 0)
     + (if String.eqb (cy_mech (Nga mm ru jb xx y0 cr di vv None bo bt hy wi z1 z25 None me re so hw af)) "NS" then Q2R (cy14_c_1b c) else 0)
     + Q2R (cy14_c_11 c) * cos (di * (PI / 180)) ^ 2 - 1.06 * 6 + (Q2R (cy14_c_4a c) - (-21 * / 10)) * ln (sqrt (ru ^ 2 + Q2R (cy14_c_rb c) ^ 2))).
  intros m.
  change (cy_mech (Nga m ru jb xx y0 cr di vv None bo bt hy wi z1 z25 None me re so hw af)) with (cy_mech (Nga mm ru jb xx y0 cr di vv None bo bt hy wi z1 z25 None me re so hw af)).
  change (cy_reg (Nga m ru jb xx y0 cr di vv None bo bt hy wi z1 z25 None me re so hw af)) with (cy_reg (Nga mm ru jb xx y0 cr di vv None bo bt hy wi z1 z25 None me re so hw af)).
  set (mech := cy_mech _). set (reg := cy_reg _). set (sc := if (_ || _)%bool then _ else _). cbv zeta. set (co := cos _ ^ 2). set (l1 := ln (sqrt _)). set (l2 := ln (ru + _)). set (l3 := ln (1 + _)).
  set (ch2 := cosh (Rmax (m - Q2R (cy14_c_gamma3 c)) 0)).
  set (ch := cosh _). clearbody sc co l1 l2 l3 ch ch2. clear.
  replace (106 * / 100) with 1.06 by lra. replace (-21 * / 10) with (-2.1) by lra. generalize 1.06, (-2.1). intros k1 k2.
  destruct (String.eqb mech "RS") eqn:E1; [apply String.eqb_eq in E1; rewrite E1; cbn [String.eqb Ascii.eqb Bool.eqb]|destruct (String.eqb mech "NS")]; unfold Rdiv; ring.
Qed.
Lemma inv_cosh_decr k s u w : k <= 0 -> 0 < s -> u <= w -> forall b, k / cosh (s * Rmax (u - b) 0) <= k / cosh (s * Rmax (w - b) 0).
Proof.
  intros Hk Hs H b. assert (0 <= Rmax (u - b) 0) by apply Rmax_r. assert (Rmax (u - b) 0 <= Rmax (w - b) 0) by (apply Rle_max_compat_r; lra).
  pose proof (cosh_le_mono (s * Rmax (u - b) 0) (s * Rmax (w - b) 0) ltac:(nra) ltac:(apply Rmult_le_compat_l; lra)) as C.
  pose proof (cosh_pos (s * Rmax (u - b) 0)) as C0.
  pose proof (Rinv_le_contravar _ _ C0 C). unfold Rdiv. nra.
Qed.
Lemma cy_rest_grows c mech reg dip r m1 m2 : In c cy14_coeff -> 0 <= r -> m1 <= m2 -> cy_sc c reg m1 = cy_sc c reg m2 ->
  cy_rest c mech reg dip r m1 <= cy_rest c mech reg dip r m2.
Proof.
  intros Hc Hr H12 Hs. unfold cy_rest. cbv zeta. rewrite Hs.
  row_upto Hc cy14_c_1c (0#1)%Q as A1. row_upto Hc cy14_c_11b (0#1)%Q as A2. row_le Hc cy14_c_2 cy14_c_3 as A3. row_pos Hc cy14_c_n as A4. row_upto Hc cy14_c_gamma2 (0#1)%Q as A5.
  row_ge Hc (0#1)%Q cy14_gamma_ji as A6. row_ge Hc (0#1)%Q cy14_gamma_c as A7.
  assert (S0 : 0 <= cy_sc c reg m2) by (unfold cy_sc; destruct (_ || _)%bool; [destruct (Rlt_dec 6 m2); [destruct (Rlt_dec m2 6.9)|]|destruct (String.eqb reg "china")]; lra).
  set (sc := cy_sc c reg m2) in *. clearbody sc.
  assert (K1 : (if String.eqb mech "RS" then Q2R (cy14_c_1c c) else 0) <= 0) by (destruct (String.eqb mech "RS"); lra).
  assert (K2 : Q2R (cy14_c_11b c) * cos (dip * (PI / 180)) ^ 2 <= 0).
  { replace (cos (dip * (PI / 180)) ^ 2) with (cos (dip * (PI / 180)) * cos (dip * (PI / 180))) by ring. pose proof (Rle_0_sqr (cos (dip * (PI / 180)))) as Q. unfold Rsqr in Q. nra. }
  pose proof (inv_cosh_decr _ 2 m1 m2 K1 ltac:(lra) H12 4.5) as T1. pose proof (inv_cosh_decr _ 2 m1 m2 K2 ltac:(lra) H12 4.5) as T2.
  pose proof (inv_cosh_decr (Q2R (cy14_c_gamma2 c)) 1 m1 m2 ltac:(lra) ltac:(lra) H12 (Q2R (cy14_c_gamma3 c))) as T3. rewrite !Rmult_1_l in T3.
  assert (T4 : (Q2R (cy14_c_2 c) - Q2R (cy14_c_3 c)) / Q2R (cy14_c_n c) * ln (1 + exp (Q2R (cy14_c_n c) * (Q2R (cy14_c_m c) - m1))) <=
     (Q2R (cy14_c_2 c) - Q2R (cy14_c_3 c)) / Q2R (cy14_c_n c) * ln (1 + exp (Q2R (cy14_c_n c) * (Q2R (cy14_c_m c) - m2)))).
  { assert (KK : 0 <= (Q2R (cy14_c_3 c) - Q2R (cy14_c_2 c)) / Q2R (cy14_c_n c)) by (apply Rmult_le_pos; [lra|left; apply Rinv_0_lt_compat; lra]).
    assert (LL : ln (1 + exp (Q2R (cy14_c_n c) * (Q2R (cy14_c_m c) - m2))) <= ln (1 + exp (Q2R (cy14_c_n c) * (Q2R (cy14_c_m c) - m1)))).
    { pose proof (exp_pos (Q2R (cy14_c_n c) * (Q2R (cy14_c_m c) - m2))). apply ln_le_mono; [lra|]. apply Rplus_le_compat_l, exp_le_mono. apply Rmult_le_compat_l; lra. }
    replace ((Q2R (cy14_c_2 c) - Q2R (cy14_c_3 c)) / Q2R (cy14_c_n c)) with (- ((Q2R (cy14_c_3 c) - Q2R (cy14_c_2 c)) / Q2R (cy14_c_n c))) by (unfold Rdiv; ring).
    apply (Rmult_le_compat_l _ _ _ KK) in LL. lra. }
  apply Rplus_le_compat; [lra|]. apply Rmult_le_compat_r; [exact Hr|]. apply Rmult_le_compat_l; [exact S0|lra].
Qed.
Definition cy_same (a : nga) (m1 m2 : R) : Prop :=
  n_region a = None \/ n_region a = Some "california" \/ n_region a = Some "china" \/ m2 <= 6 \/ (6 < m1 /\ m2 < 6.9) \/ 6.9 <= m1.
Lemma cy_sc_same c a m1 m2 : cy_same a m1 m2 -> m1 < m2 -> cy_sc c (cy_reg a) m1 = cy_sc c (cy_reg a) m2.
Proof.
  intros H H12. unfold cy_sc, cy_reg. destruct H as [->|[->|[->|H]]]; try reflexivity.
  destruct (_ || _)%bool; [|reflexivity]. destruct (Rlt_dec 6 m1), (Rlt_dec 6 m2), (Rlt_dec m1 6.9), (Rlt_dec m2 6.9); try reflexivity; exfalso; destruct H as [H|[H|H]]; lra.
Qed.
Lemma cy_ref_grows c x a m1 m2 : In c cy14_coeff -> hw_off a -> n_tor a = None -> n_dpp a = None -> 0 <= n_rup a -> cy_same a m1 m2 -> m1 < m2 -> m2 <= 10 ->
  cy_ref c x (with_mag a m1) < cy_ref c x (with_mag a m2).
Proof.
  intros Hc Hw Ht Hd Hr Hs H12 H10. destruct (cy_ref_mag c x a Hc Hw Ht Hd) as [K E]. rewrite !E.
  row_pos Hc cy14_c_5 as A5. row_pos Hc cy14_c_6 as A6. row_upto Hc cy14_c_6 (5048#10000)%Q as A6'. row_ge Hc (30514#10000)%Q cy14_c_hm as A7. row_upto Hc cy14_c_hm (4#1)%Q as A7'.
  row_ge Hc (0#1)%Q cy14_c_1d as A8. row_upto Hc cy14_c_1d (255#1000)%Q as A8'.
  assert (D : 0 <= (if String.eqb (cy_mech a) "NS" then Q2R (cy14_c_1d c) else 0) <= 0.255) by (destruct (String.eqb (cy_mech a) "NS"); lra).
  pose proof (cy_g_grows (n_rup a) (Q2R (cy14_c_5 c)) (Q2R (cy14_c_6 c)) (Q2R (cy14_c_hm c)) _ m1 m2 Hr ltac:(lra) ltac:(lra) ltac:(lra) D H12 H10).
  pose proof (cy_rest_grows c (cy_mech a) (cy_reg a) (n_dip a) (n_rup a) m1 m2 Hc Hr ltac:(lra) (cy_sc_same c a m1 m2 Hs H12)). lra.
Qed.
Lemma cy14_resp_mag c x a m1 m2 : In c cy14_coeff -> 180 <= n_v a -> 0 <= n_rup a -> cy_ref c x (with_mag a m1) < cy_ref c x (with_mag a m2) ->
  flt_lt (cy14_ln_resp c (cy14_input x (with_mag a m1))) (cy14_ln_resp c (cy14_input x (with_mag a m2))).
Proof.
  intros Hc Hv Hr L.
  eapply cy14_resp_lt with (v := n_v a); [exact Hc | exact Hv | apply cy_ref_ok; [exact Hc|destruct a; exact Hr] | apply cy_ref_ok; [exact Hc|destruct a; exact Hr] |exact L
    | destruct a; reflexivity | destruct a; reflexivity | destruct a; reflexivity | | destruct a; reflexivity].
  rewrite cy_z1_ok. apply finite_fin.
Qed.
Lemma cy14_grows src1 src2 a x m1 m2 : nga_gives src1 (with_mag a m1) -> nga_gives src2 (with_mag a m2) ->
  n_x a = Some x -> hw_off a -> n_tor a = None -> n_dpp a = None -> 180 <= n_v a -> 0 <= n_rup a -> cy_same a m1 m2 -> m1 < m2 -> m2 <= 10 ->
  exists o1 o2, gmm_out (cy14 src1) o1 /\ gmm_out (cy14 src2) o2 /\ resp2 flt_lt o1 o2.
Proof.
  intros G1 G2 Hx Hw Ht Hd Hv Hr Hs H12 H10. exists (cy14_outs x (with_mag a m1)), (cy14_outs x (with_mag a m2)).
  split; [apply cy14_out; [exact G1|destruct a; exact Hx]|]. split; [apply cy14_out; [exact G2|destruct a; exact Hx]|].
  apply row_resp_lt with (rows := cy14_coeff); [apply cy14_psa_in | apply cy14_pga_in | apply cy14_pgv_in |].
  intros c Hc. apply cy14_resp_mag; try assumption. apply cy_ref_grows; assumption.
Qed.
(** Japan and Italy: a magnitude 6.3 event shakes distant sites less than a magnitude 6. *)
Lemma cy14_japan_falls src1 src2 a x : nga_gives src1 (with_mag a 6) -> nga_gives src2 (with_mag a 6.3) ->
  n_x a = Some x -> hw_off a -> n_tor a = None -> n_dpp a = None -> 180 <= n_v a -> 100 <= n_rup a -> n_region a = Some "japan" \/ n_region a = Some "italy" ->
  exists o1 o2, gmm_out (cy14 src1) o1 /\ gmm_out (cy14 src2) o2 /\ flt_lt (o_pga o2) (o_pga o1).
Proof.
  intros G1 G2 Hx Hw Ht Hd Hv Hr Hre. exists (cy14_outs x (with_mag a 6)), (cy14_outs x (with_mag a 6.3)).
  split; [apply cy14_out; [exact G1|destruct a; exact Hx]|]. split; [apply cy14_out; [exact G2|destruct a; exact Hx]|].
  cbn [o_pga cy14_outs row_outs]. apply flt_lt_exp. pose proof cy14_pga_in as Hc. apply cy14_resp_mag; [exact Hc|exact Hv|lra|].
  destruct (cy_ref_mag cy14_pga_row x a Hc Hw Ht Hd) as [K E]. rewrite !E. clear E.
  row_pos Hc cy14_c_5 as A5. row_pos Hc cy14_c_6 as A6. row_pos Hc cy14_c_hm as A7.
  assert (RG : (String.eqb (cy_reg a) "japan" || String.eqb (cy_reg a) "italy")%bool = true) by (unfold cy_reg; destruct Hre as [-> | ->]; reflexivity).
  unfold cy_rest, cy_sc. rewrite RG. destruct (Rlt_dec 6 6); [lra|]. destruct (Rlt_dec 6 6.3); [|lra]. destruct (Rlt_dec 6.3 6.9); [|lra]. cbv zeta.
  unfold cy_g.
  assert (L1 : ln (n_rup a + Q2R (cy14_c_5 cy14_pga_row) * cosh (Q2R (cy14_c_6 cy14_pga_row) * Rmax (6 - Q2R (cy14_c_hm cy14_pga_row)) 0)) <=
               ln (n_rup a + Q2R (cy14_c_5 cy14_pga_row) * cosh (Q2R (cy14_c_6 cy14_pga_row) * Rmax (6.3 - Q2R (cy14_c_hm cy14_pga_row)) 0))).
  { match goal with |- ln (_ + _ * cosh ?z) <= _ => pose proof (cosh_pos z) end.
    apply ln_le_mono; [nra|]. apply Rplus_le_compat_l, Rmult_le_compat_l; [lra|]. apply cosh_le_mono; [apply Rmult_le_pos; [lra|apply Rmax_r]|].
    apply Rmult_le_compat_l; [lra|]. apply Rle_max_compat_r. lra. }
  set (c := cy14_pga_row) in *.
  rewrite !(Rmax_left (_ - 4.5)) by lra.
  assert (M6 : 0 < cosh (2 * (6 - 4.5))) by apply cosh_pos. assert (M63 : cosh (2 * (6 - 4.5)) <= cosh (2 * (6.3 - 4.5))) by (apply cosh_le_mono; lra).
  assert (C6 : 10 <= cosh (2 * (6 - 4.5))) by (unfold cosh; interval with (i_prec 40)).
  pose proof (Rinv_le_contravar _ _ M6 M63) as I. assert (I2 : / cosh (2 * (6 - 4.5)) <= / 10) by (apply Rinv_le_contravar; lra).
  assert (I3 : 0 < / cosh (2 * (6.3 - 4.5))) by (apply Rinv_0_lt_compat; lra).
  set (i6 := / cosh (2 * (6 - 4.5))) in *. set (i63 := / cosh (2 * (6.3 - 4.5))) in *.
  assert (I4 : i6 - i63 <= 0.05) by (unfold i6, i63, cosh; interval with (i_prec 40)). 
  assert (V1 : Q2R (cy14_c_1c c) = -0.165 /\ Q2R (cy14_c_1d c) = 0.255 /\ Q2R (cy14_c_11b c) = -0.4536 /\ Q2R (cy14_c_2 c) = 1.06 /\ Q2R (cy14_c_3 c) = 1.9636 /\
     Q2R (cy14_c_n c) = 16.0875 /\ Q2R (cy14_c_m c) = 4.9993 /\ Q2R (cy14_c_gamma1 c) = -0.007146 /\ Q2R (cy14_c_gamma2 c) = -0.006758 /\ Q2R (cy14_c_gamma3 c) = 4.2542 /\ Q2R (cy14_gamma_ji c) = 1.5817).
  { repeat split; cbn; unfold Q2R; cbn; lra. }
  destruct V1 as (-> & -> & -> & -> & -> & -> & -> & -> & -> & -> & ->).
  rewrite !(Rmax_left (_ - 4.2542)) by lra.
  set (co := cos _ ^ 2).
  assert (CO : 0 <= co <= 1). { unfold co. set (t := n_dip a * _). pose proof (COS_bound t). split; [apply pow2_ge_0|]. replace (cos t ^ 2) with (cos t * cos t) by ring. nra. }
  assert (N1 : (1.06 - 1.9636) / 16.0875 * ln (1 + exp (16.0875 * (4.9993 - 6.3))) - (1.06 - 1.9636) / 16.0875 * ln (1 + exp (16.0875 * (4.9993 - 6))) <= 0.001) by interval with (i_prec 40).
  assert (N2 : 1.5817 * (-0.007146 + -0.006758 / cosh (6.3 - 4.2542)) <= -0.0138) by (unfold cosh; interval with (i_prec 40)).
  assert (N3 : -0.0096 <= -0.007146 + -0.006758 / cosh (6 - 4.2542)) by (unfold cosh; interval with (i_prec 40)).
  set (l63 := ln (1 + exp (16.0875 * (4.9993 - 6.3)))) in *. set (l6 := ln (1 + exp (16.0875 * (4.9993 - 6)))) in *.
  set (g63 := 1.5817 * _) in *. set (g6 := -0.007146 + -0.006758 / cosh (6 - 4.2542)) in *. set (k := (1.06 - 1.9636) / 16.0875) in *.
  assert (R1 : g63 * n_rup a <= -0.0138 * n_rup a) by (apply Rmult_le_compat_r; lra). assert (R2 : -0.0096 * n_rup a <= g6 * n_rup a) by (apply Rmult_le_compat_r; lra).
  unfold Rdiv. fold i6 i63. clearbody co l63 l6 g63 g6 k i6 i63. 
  set (l1 := ln _) in *. match type of L1 with _ <= ?t => set (l2 := t) in * end. clearbody l1 l2. set (rr := n_rup a) in *. clearbody rr.
  assert (CI : co * (i6 - i63) <= 1 * 0.05) by (apply Rmult_le_compat; lra).
  destruct (String.eqb (cy_mech a) "NS"), (String.eqb (cy_mech a) "RS"); lra.
Qed.
