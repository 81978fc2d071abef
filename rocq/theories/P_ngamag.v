(** * Growth of the NGA-West2 medians with magnitude: lemmas for C116-C119 *)
From Coquelicot Require Import Coquelicot.
From Interval Require Import Tactic.
From Coq Require Import List.
From Verif Require Import M_cy14 M_bssa14 M_cb14 M_ask14 FrameworkProofs Anal Nga Outs SpecNga P_cy14 P_bssa14 P_cb14 P_cb14b P_ask14 P_ask14b P_ngaspec Spec_cy14 Spec_bssa14 Spec_cb14 Spec_ask14 Properties_NGAPub Properties_NGAPub2.
Open Scope R_scope.
Open Scope string_scope.
Open Scope list_scope.

(** ** BSSA14 *)
Lemma bs_rock_grows c a m1 m2 : In c bssa14_coeff -> 0 <= n_jb a -> 0 <= m1 -> m1 < m2 ->
  bs_rock c (with_mag a m1) < bs_rock c (with_mag a m2).
Proof.
  intros Hc Hj H0 H12. unfold bs_rock, bssa14_event_spec, bssa14_path_spec, bs_mech_of, bs_region_of.
  destruct a as [m ru jb xx y0 cr di vv to bo bt hy wi z1 z25 dp me re so hw af]. cbn [with_mag n_mag n_jb n_mech n_region] in *.
  set (mc := option_of _ _ me). set (rg := option_of _ _ re).
  set (ev := if String.eqb mc "SS" then _ else _). set (k := (_ + (if (_ || _)%bool then _ else _))). clearbody mc rg ev k. cbv zeta.
  row_ge Hc (402#100)%Q bssa14_h as Hh. set (h := Q2R (bssa14_h c)) in *.
  set (S := sqrt (jb * jb + h * h)).
  assert (HS : 4 <= S). { unfold S. rewrite <- (sqrt_square 4) by lra. apply sqrt_le_1_alt. nra. }
  assert (HL : 1.3 <= ln S). { apply Rle_trans with (ln 4); [interval with (i_prec 40)|]. apply ln_le_mono; lra. }
  set (L := ln S) in *. clearbody L. clearbody S h.
  row_ge Hc (0#1)%Q bssa14_c_2 as C2.
  row_ge Hc (1#100)%Q (fun c => bssa14_e_6 c + bssa14_c_2 c * (13#10))%Q as E6.
  row_ge Hc (1#100)%Q (fun c => bssa14_e_4 c + bssa14_c_2 c * (13#10))%Q as E4.
  row_ge Hc (1#100)%Q (fun c => bssa14_e_4 c - 2 * bssa14_e_5 c * bssa14_M_h c + bssa14_c_2 c * (13#10))%Q as E5.
  set (c2 := Q2R (bssa14_c_2 c)) in *. set (e4 := Q2R (bssa14_e_4 c)) in *. set (e5 := Q2R (bssa14_e_5 c)) in *. set (e6 := Q2R (bssa14_e_6 c)) in *.
  set (Mh := Q2R (bssa14_M_h c)) in *. set (c1 := Q2R (bssa14_c_1 c)) in *. clearbody c2 e4 e5 e6 Mh c1.
  assert (Q : forall u w, 0 <= u <= Mh -> w <= Mh -> u < w ->
    e4 * (u - Mh) + e5 * ((u - Mh) * (u - Mh)) + c2 * u * 1.3 < e4 * (w - Mh) + e5 * ((w - Mh) * (w - Mh)) + c2 * w * 1.3).
  { intros u w Hu Hw Huw.
    assert (0 < (w - u) * (e4 + e5 * ((u - Mh) + (w - Mh)) + c2 * 1.3)); [|lra].
    apply Rmult_lt_0_compat; [lra|]. destruct (Rle_dec 0 e5).
    - assert (e5 * (-2 * Mh) <= e5 * (u - Mh + (w - Mh))) by (apply Rmult_le_compat_l; lra). lra.
    - assert (0 <= (- e5) * (- (u - Mh + (w - Mh)))) by (apply Rmult_le_pos; lra). lra. }
  assert (Ln : forall u w, u < w -> e6 * u + c2 * u * 1.3 < e6 * w + c2 * w * 1.3).
  { intros u w Huw. assert (0 < (w - u) * (e6 + c2 * 1.3)); [|lra]. apply Rmult_lt_0_compat; lra. }
  assert (X : c2 * (m2 - m1) * 1.3 <= c2 * (m2 - m1) * L). { apply Rmult_le_compat_l; [apply Rmult_le_pos; lra|lra]. }
  destruct (Rle_dec m1 Mh), (Rle_dec m2 Mh); try lra.
  - specialize (Q m1 m2 ltac:(lra) ltac:(lra) ltac:(lra)). lra.
  - specialize (Ln Mh m2 ltac:(lra)). destruct (Req_dec m1 Mh) as [->|]; [lra|]. specialize (Q m1 Mh ltac:(lra) ltac:(lra) ltac:(lra)). lra.
  - specialize (Ln m1 m2 ltac:(lra)). lra.
Qed.
Lemma bssa14_mag_other a m : n_v (with_mag a m) = n_v a /\ n_z1 (with_mag a m) = n_z1 a /\ bssa14_depth (with_mag a m) = bssa14_depth a.
Proof. destruct a; repeat split. Qed.
Lemma bssa14_grows_rock src1 src2 a m1 m2 : nga_gives src1 (with_mag a m1) -> nga_gives src2 (with_mag a m2) ->
  760 <= n_v a -> 0 <= n_jb a -> 0 <= m1 -> m1 < m2 ->
  exists o1 o2, gmm_out (bssa14 src1) o1 /\ gmm_out (bssa14 src2) o2 /\ resp2 flt_lt o1 o2.
Proof.
  intros G1 G2 Hv Hj H0 H12. exists (bssa14_outs (with_mag a m1)), (bssa14_outs (with_mag a m2)).
  split; [apply bssa14_out; exact G1|]. split; [apply bssa14_out; exact G2|].
  bssa14_lt. intros c Hc. rewrite !bssa14_resp_eq.
  destruct (bssa14_pga_ref_pos (with_mag a m1)) as (p1 & -> & P1). destruct (bssa14_pga_ref_pos (with_mag a m2)) as (p2 & -> & P2).
  destruct (bssa14_mag_other a m1) as (-> & -> & ->). destruct (bssa14_mag_other a m2) as (-> & -> & ->).
  rewrite (bssa14_site_rock c p2 p1) by assumption.
  apply flt_lt_add.
  - apply bssa14_site_finite; [assumption|lra|apply fpos_fin; lra|]. unfold bssa14_depth. destruct (n_z1 a); cbn; [apply finite_fin|exact I].
  - rewrite !bs_rock_ok by exact Hc. do 2 eexists. split; [reflexivity|]. split; [reflexivity|]. apply bs_rock_grows; assumption.
Qed.
Lemma bssa14_grows_pga src1 src2 a m1 m2 : nga_gives src1 (with_mag a m1) -> nga_gives src2 (with_mag a m2) ->
  150 <= n_v a -> 0 <= n_jb a -> 0 <= m1 -> m1 < m2 ->
  exists o1 o2, gmm_out (bssa14 src1) o1 /\ gmm_out (bssa14 src2) o2 /\ flt_lt (o_pga o1) (o_pga o2).
Proof.
  intros G1 G2 Hv Hj H0 H12. exists (bssa14_outs (with_mag a m1)), (bssa14_outs (with_mag a m2)).
  split; [apply bssa14_out; exact G1|]. split; [apply bssa14_out; exact G2|].
  cbn [o_pga bssa14_outs row_outs]. apply flt_lt_exp. rewrite !bssa14_resp_eq, !bssa14_pga_ref_form, !bs_rock_ok by apply bssa14_pga_in.
  destruct (bssa14_mag_other a m1) as (-> & -> & ->). destruct (bssa14_mag_other a m2) as (-> & -> & ->).
  pose proof (bs_rock_grows bssa14_pga_row a m1 m2 bssa14_pga_in Hj H0 H12) as L.
  destruct (bssa14_pga_site (n_v a) (bssa14_depth a) (onum (n_z1 a)) Hv) as (A & f & Hf & E).
  { unfold bssa14_depth. destruct (n_z1 a); cbn; [apply finite_fin|exact I]. }
  rewrite !E. do 2 eexists. split; [reflexivity|]. split; [reflexivity|].
  pose proof (site_incr _ _ 0.1 f ltac:(lra) Hf L). lra.
Qed.
(** ** Joining pieces *)
Lemma incr_join (P : R -> Prop) (f : R -> R) b : 
  (forall u w, P u -> P w -> u < w -> w <= b -> f u < f w) -> (forall u w, P u -> P w -> b <= u -> u < w -> f u < f w) ->
  (forall u w, P u -> P w -> u < b -> b < w -> P b) ->
  forall u w, P u -> P w -> u < w -> f u < f w.
Proof.
  intros H1 H2 Hb u w Pu Pw Huw. destruct (Rle_dec w b); [apply H1; assumption|]. destruct (Rle_dec b u); [apply H2; assumption|].
  assert (P b) by (apply (Hb u w); try assumption; lra).
  apply Rlt_trans with (f b); [apply H1|apply H2]; try assumption; lra.
Qed.
Lemma ln_tangent y0 y : 0 < y0 -> 0 < y -> ln y0 + 1 - y0 / y <= ln y.
Proof.
  intros H0 H. assert (0 < y0 / y) by (apply Rdiv_lt_0_compat; assumption).
  pose proof (exp_ineq1_le (ln (y0 / y))) as E. rewrite exp_ln in E by assumption. rewrite ln_div in E by assumption. lra.
Qed.
Lemma ln_sqrt_half y : 0 < y -> ln (sqrt y) = ln y / 2.
Proof. intros H. assert (0 < sqrt y) by (apply sqrt_lt_R0; exact H). rewrite <- (sqrt_sqrt y) at 2 by lra. rewrite ln_mult by assumption. lra. Qed.

(** ** CB14 *)
(** [lo]: squared distance. *)
Lemma cb_dist_low c r lo : In c cb14_coeff -> 0 <= lo <= r * r ->
  2.5126 - 28 / (lo + Q2R (cb14_c_7 c) ^ 2) <= ln (sqrt (r ^ 2 + Q2R (cb14_c_7 c) ^ 2)).
Proof.
  intros Hc Hl. row_pos Hc cb14_c_7 as H7. set (k := Q2R (cb14_c_7 c)) in *. clearbody k.
  assert (0 < k ^ 2) by (apply pow_lt; lra). replace (r ^ 2) with (r * r) by ring. rewrite ln_sqrt_half by lra.
  pose proof (ln_tangent 56 (r * r + k ^ 2) ltac:(lra) ltac:(lra)) as T.
  assert (4.02535 <= ln 56) by interval with (i_prec 40).
  assert (56 / (r * r + k ^ 2) <= 56 / (lo + k ^ 2)) by (apply Rmult_le_compat_l; [lra|]; apply Rinv_le_contravar; lra). lra.
Qed.
(** The part of the median that depends on magnitude: [H] the hypocentral-depth factor, [L] the log distance. *)
Definition cb_m (c : cb14_row) (mech : string) (dip H L m : R) : R :=
  cb_fmag c m + (Q2R (cb14_c_5 c) + Q2R (cb14_c_6 c) * m) * L + cb_fflt c mech m
  + H * (Q2R (cb14_c_17 c) + (Q2R (cb14_c_18 c) - Q2R (cb14_c_17 c)) * cb_clip 0 1 (m - 5.5)) + cb_fdip c m dip.
Lemma clip_lo x : x <= 0 -> cb_clip 0 1 x = 0.
Proof. intros H. unfold cb_clip. rewrite Rmax_right, Rmin_left by lra. reflexivity. Qed.
Lemma clip_hi x : 1 <= x -> cb_clip 0 1 x = 1.
Proof. intros H. unfold cb_clip. rewrite Rmax_left, Rmin_right by lra. reflexivity. Qed.
Lemma clip_id x : 0 <= x <= 1 -> cb_clip 0 1 x = x.
Proof. intros H. unfold cb_clip. rewrite Rmax_left, Rmin_left by lra. reflexivity. Qed.
Lemma lin_incr s u w : 0 < s -> u < w -> s * u < s * w.
Proof. intros. apply Rmult_lt_compat_l; assumption. Qed.
Lemma cb_m_grows c mech dip H L lo m1 m2 : In c cb14_coeff -> 0 <= dip <= 90 -> 0 <= H <= 5 ->
  2.5126 - 28 / (lo + Q2R (cb14_c_7 c) ^ 2) <= L -> 0 <= lo -> (9 <= lo \/ m2 <= 6.5) -> m1 < m2 ->
  cb_m c mech dip H L m1 < cb_m c mech dip H L m2.
Proof.
  intros Hc Hd HH HL Hlo Hm H12. row_pos Hc cb14_c_7 as H7. row_pos Hc cb14_c_6 as H6.
  assert (HL' : 9 <= lo -> 2.5126 - 28 / (9 + Q2R (cb14_c_7 c) ^ 2) <= L).
  { intros Hlo'. assert (28 / (lo + Q2R (cb14_c_7 c) ^ 2) <= 28 / (9 + Q2R (cb14_c_7 c) ^ 2)); [|lra].
    assert (0 < Q2R (cb14_c_7 c) ^ 2) by (apply pow_lt; lra). apply Rmult_le_compat_l; [lra|]; apply Rinv_le_contravar; lra. }
  assert (HL0 : 1.5 <= L).
  { row_ge Hc (55#10)%Q cb14_c_7 as W. assert (28 / (lo + Q2R (cb14_c_7 c) ^ 2) <= 28 / 30); [|lra].
    apply Rmult_le_compat_l; [lra|]; apply Rinv_le_contravar; [lra|]. replace (Q2R (cb14_c_7 c) ^ 2) with (Q2R (cb14_c_7 c) * Q2R (cb14_c_7 c)) by ring. nra. }
  row_ge Hc (1#10)%Q cb14_c_1 as S0.
  row_ge Hc (1#10)%Q (fun c => cb14_c_1 c + cb14_c_2 c - cb14_c_19 c * 90)%Q as S1a.
  row_ge Hc (1#10)%Q (fun c => cb14_c_1 c + cb14_c_2 c + cb14_c_8 c - cb14_c_19 c * 90)%Q as S1b.
  row_ge Hc (1#10)%Q (fun c => cb14_c_1 c + cb14_c_2 c + cb14_c_9 c - cb14_c_19 c * 90)%Q as S1c.
  row_ge Hc (0#1)%Q cb14_c_19 as P19.
  row_ge Hc (1#100)%Q (fun c => cb14_c_1 c + cb14_c_2 c + cb14_c_3 c + cb14_c_6 c * (15#10))%Q as S2a.
  row_ge Hc (1#100)%Q (fun c => cb14_c_1 c + cb14_c_2 c + cb14_c_3 c + cb14_c_6 c * (15#10) + (cb14_c_18 c - cb14_c_17 c) * 5)%Q as S2b.
  assert (S3 : 9 <= lo -> 0 < Q2R (cb14_c_1 c) + Q2R (cb14_c_2 c) + Q2R (cb14_c_3 c) + Q2R (cb14_c_4 c) + Q2R (cb14_c_6 c) * L).
  { intros Hlo'. specialize (HL' Hlo').
    row_ge Hc (0#1)%Q (fun c => (cb14_c_1 c + cb14_c_2 c + cb14_c_3 c + cb14_c_4 c + cb14_c_6 c * (25126#10000) - (1#1000)) * (9 + cb14_c_7 c * cb14_c_7 c) - cb14_c_6 c * 28)%Q as W.
    set (k := Q2R (cb14_c_1 c) + Q2R (cb14_c_2 c) + Q2R (cb14_c_3 c) + Q2R (cb14_c_4 c)) in *. set (c7 := Q2R (cb14_c_7 c)) in *. set (c6 := Q2R (cb14_c_6 c)) in *.
    assert (P7 : 0 < 9 + c7 ^ 2) by (assert (0 < c7 ^ 2) by (apply pow_lt; lra); lra).
    assert (c6 * (2.5126 - 28 / (9 + c7 ^ 2)) <= c6 * L) by (apply Rmult_le_compat_l; lra).
    assert (0 < k + c6 * (2.5126 - 28 / (9 + c7 ^ 2))); [|lra].
    apply (Rmult_lt_reg_r (9 + c7 ^ 2)); [exact P7|]. rewrite Rmult_0_l.
    replace ((k + c6 * (2.5126 - 28 / (9 + c7 ^ 2))) * (9 + c7 ^ 2)) with ((k + c6 * 2.5126) * (9 + c7 ^ 2) - c6 * 28) by (field; lra).
    replace (c7 ^ 2) with (c7 * c7) in * by ring. lra. }
  clear HL HL' H7. unfold cb_m, cb_fmag, cb_fflt, cb_fdip.
  set (fl := if String.eqb mech "RS" then _ else _).
  assert (Fl : 0.1 <= Q2R (cb14_c_1 c) + Q2R (cb14_c_2 c) + fl - Q2R (cb14_c_19 c) * dip).
  { assert (Q2R (cb14_c_19 c) * dip <= Q2R (cb14_c_19 c) * 90) by (apply Rmult_le_compat_l; lra).
    unfold fl. destruct (String.eqb mech "RS"); [lra|destruct (String.eqb mech "NS"); lra]. }
  clearbody fl.
  set (c1 := Q2R (cb14_c_1 c)) in *. set (c2 := Q2R (cb14_c_2 c)) in *. set (c3 := Q2R (cb14_c_3 c)) in *. set (c4 := Q2R (cb14_c_4 c)) in *.
  set (c6 := Q2R (cb14_c_6 c)) in *. set (c19 := Q2R (cb14_c_19 c)) in *. set (c17 := Q2R (cb14_c_17 c)) in *. set (c18 := Q2R (cb14_c_18 c)) in *.
  assert (HcL : c6 * 1.5 <= c6 * L) by (apply Rmult_le_compat_l; lra).
  assert (S2 : 0 < c1 + c2 + c3 + c6 * L + (c18 - c17) * H).
  { destruct (Rle_dec 0 (c18 - c17)); [assert (0 <= (c18 - c17) * H) by (apply Rmult_le_pos; lra); lra|].
    assert (0 <= (c17 - c18) * (5 - H)) by (apply Rmult_le_pos; lra). lra. }
  clearbody c1 c2 c3 c4 c6 c19 c17 c18.
  set (f := fun m => Q2R (cb14_c_0 c) + c1 * m + c2 * Rmax (m - 4.5) 0 + c3 * Rmax (m - 5.5) 0 + c4 * Rmax (m - 6.5) 0
    + (Q2R (cb14_c_5 c) + c6 * m) * L + fl * cb_clip 0 1 (m - 4.5) + H * (c17 + (c18 - c17) * cb_clip 0 1 (m - 5.5)) + c19 * dip * cb_clip 0 1 (5.5 - m)).
  change (f m1 < f m2).
  apply (incr_join (fun m => m <= m2) f 4.5); try lra; try (intros; lra).
  - intros u w _ _ Huw Hw. unfold f. rewrite !(Rmax_right (_ - 4.5)), !(Rmax_right (_ - 5.5)), !(Rmax_right (_ - 6.5)) by lra.
    rewrite !(clip_lo (_ - 4.5)), !(clip_lo (_ - 5.5)), !(clip_hi (5.5 - _)) by lra.
    pose proof (lin_incr (c1 + c6 * L) u w ltac:(lra) Huw). lra.
  - intros u w Hu0 Hw0 Hu Huw. apply (incr_join (fun m => 4.5 <= m <= m2) f 5.5); try lra; try (intros; lra).
    + clear u w Hu0 Hw0 Hu Huw. intros u w Hu Hw Huw H5. unfold f. rewrite !(Rmax_left (_ - 4.5)), !(Rmax_right (_ - 5.5)), !(Rmax_right (_ - 6.5)) by lra.
      rewrite !(clip_id (_ - 4.5)), !(clip_lo (_ - 5.5)), !(clip_id (5.5 - _)) by lra.
      pose proof (lin_incr (c1 + c2 + fl - c19 * dip + c6 * L) u w ltac:(lra) Huw). lra.
    + clear u w Hu0 Hw0 Hu Huw. intros u w Hu0 Hw0 Hu Huw. apply (incr_join (fun m => 5.5 <= m <= m2) f 6.5); try lra; try (intros; lra).
      * clear u w Hu0 Hw0 Hu Huw. intros u w Hu Hw Huw H5. unfold f. rewrite !(Rmax_left (_ - 4.5)), !(Rmax_left (_ - 5.5)), !(Rmax_right (_ - 6.5)) by lra.
        rewrite !(clip_hi (_ - 4.5)), !(clip_id (_ - 5.5)), !(clip_lo (5.5 - _)) by lra.
        pose proof (lin_incr (c1 + c2 + c3 + c6 * L + (c18 - c17) * H) u w ltac:(lra) Huw). lra.
      * clear u w Hu0 Hw0 Hu Huw. intros u w Hu Hw Hu6 Huw. unfold f. rewrite !(Rmax_left (_ - 4.5)), !(Rmax_left (_ - 5.5)), !(Rmax_left (_ - 6.5)) by lra.
        rewrite !(clip_hi (_ - 4.5)), !(clip_hi (_ - 5.5)), !(clip_lo (5.5 - _)) by lra.
        pose proof (lin_incr (c1 + c2 + c3 + c4 + c6 * L) u w ltac:(apply S3; lra) Huw). lra.
Qed.
Lemma cb_path_mag c x a h m : x < 0 -> n_hyp a = Some h ->
  cb_source_path c x (with_mag a m) =
  cb_m c (cb_mech a) (n_dip a) (cb_clip 0 13 (h - 7)) (ln (sqrt (n_rup a ^ 2 + Q2R (cb14_c_7 c) ^ 2))) m + cb_fatn c (cb_reg a) (n_rup a).
Proof.
  intros Hx Hh. destruct a as [mm ru jb xx y0 cr di vv to bo bt hy wi z1 z25 dp me re so hw af]. cbn [n_hyp] in Hh. subst hy.
  unfold cb_source_path, cb_m, cb_fhyp, cb_fdis, cb_fhng, cb_fhng_x, cb_hyp, or_else. cbn [with_mag n_mag n_dip n_rup n_hyp].
  destruct (Rlt_dec x 0); [|lra].
  change (cb_mech (Nga m ru jb xx y0 cr di vv to bo bt (Some h) wi z1 z25 dp me re so hw af)) with (cb_mech (Nga mm ru jb xx y0 cr di vv to bo bt (Some h) wi z1 z25 dp me re so hw af)).
  change (cb_reg (Nga m ru jb xx y0 cr di vv to bo bt (Some h) wi z1 z25 dp me re so hw af)) with (cb_reg (Nga mm ru jb xx y0 cr di vv to bo bt (Some h) wi z1 z25 dp me re so hw af)).
  cbv zeta. ring.
Qed.
Lemma cb_clip13 h : h <= 12 -> 0 <= cb_clip 0 13 (h - 7) <= 5.
Proof. intros H. unfold cb_clip. split; [apply Rmin_glb; [apply Rmax_r|lra]|]. eapply Rle_trans; [apply Rmin_l|]. apply Rmax_lub; lra. Qed.
Lemma cb_path_grows c x a h m1 m2 : In c cb14_coeff -> x < 0 -> n_hyp a = Some h -> h <= 12 -> 0 <= n_dip a <= 90 -> 0 <= n_rup a ->
  (3 <= n_rup a \/ m2 <= 6.5) -> m1 < m2 -> cb_source_path c x (with_mag a m1) < cb_source_path c x (with_mag a m2).
Proof.
  intros Hc Hx Hh H12 Hd Hr Hm Hmm. rewrite !(cb_path_mag c x a h) by assumption. apply Rplus_lt_compat_r.
  apply cb_m_grows with (lo := n_rup a * n_rup a); try assumption; [apply cb_clip13; exact H12| |nra|destruct Hm; [left; nra|right; lra]].
  apply cb_dist_low; [exact Hc|nra].
Qed.
Lemma mag_other a m : n_v (with_mag a m) = n_v a /\ n_z25 (with_mag a m) = n_z25 a /\ n_dip (with_mag a m) = n_dip a /\ n_hyp (with_mag a m) = n_hyp a /\
  cb_reg (with_mag a m) = cb_reg a /\ n_x (with_mag a m) = n_x a /\ n_mech (with_mag a m) = n_mech a.
Proof. destruct a; repeat split. Qed.
Lemma cb_mag_med c x a h m : In c cb14_coeff -> x < 0 -> n_hyp a = Some h -> 0 < n_dip a <= 90 -> 0 < n_v a ->
  cb14_resp x (with_mag a m) c = Fin (cb_med cb14_pga_row c x (with_mag a m)).
Proof.
  intros Hc Hx Hh Hd Hv. destruct (mag_other a m) as (E1 & E2 & E3 & E4 & E5 & E6 & E7).
  apply cb_med_ok; [exact Hc|split; [rewrite E3; exact Hd|intros ->; lra]|rewrite E4, Hh; discriminate|rewrite E1; exact Hv].
Qed.
Lemma cb_mag_out src a x t m : nga_gives src (with_mag a m) -> n_x a = Some x -> n_mech a = Some t -> 0 < n_v a ->
  gmm_out (cb14 src) (cb14_outs x (with_mag a m)).
Proof.
  intros G Hx Ht Hd. destruct (mag_other a m) as (E1 & E2 & E3 & E4 & E5 & E6 & E7). apply (cb14_out _ _ _ t); [exact G|congruence|congruence|rewrite ?E1; lra].
Qed.
Lemma cb14_grows_rock src1 src2 a x t h m1 m2 : nga_gives src1 (with_mag a m1) -> nga_gives src2 (with_mag a m2) ->
  n_x a = Some x -> x < 0 -> n_mech a = Some t -> 0 < n_dip a <= 90 -> n_hyp a = Some h -> h <= 12 -> 1086 < n_v a -> 0 <= n_rup a ->
  (3 <= n_rup a \/ m2 <= 6.5) -> m1 < m2 ->
  exists o1 o2, gmm_out (cb14 src1) o1 /\ gmm_out (cb14 src2) o2 /\ resp2 flt_lt o1 o2.
Proof.
  intros G1 G2 Ex Hx Et Hd Hh H12 Hv Hr Hm Hmm. exists (cb14_outs x (with_mag a m1)), (cb14_outs x (with_mag a m2)).
  split; [apply (cb_mag_out _ _ _ t); (assumption || lra)|]. split; [apply (cb_mag_out _ _ _ t); (assumption || lra)|].
  apply (row_resp_lt cb14_coeff); [exact cb14_psa_in|exact cb14_pga_in|exact cb14_pgv_in|].
  intros c Hc. rewrite !(cb_mag_med c x a h) by (assumption || lra). do 2 eexists. split; [reflexivity|]. split; [reflexivity|].
  unfold cb_med. destruct (mag_other a m1) as (-> & -> & _ & _ & -> & _). destruct (mag_other a m2) as (-> & -> & _ & _ & -> & _).
  pose proof (cb_path_grows c x a h m1 m2 Hc Hx Hh H12 ltac:(lra) Hr Hm Hmm).
  row_upto Hc cb14_k_1 (1086#1)%Q as K. unfold cb_fsite. cbv zeta. destruct (Rle_dec (n_v a) (Q2R (cb14_k_1 c))); [lra|]. lra.
Qed.
(** The PGA of any site is a strictly increasing function of the path term. *)
Lemma cb_pga_med_incr v re z S1 S2 : 150 <= v -> S1 < S2 ->
  let K := cb_fsite cb14_pga_row re 1100 0 + cb_fsed cb14_pga_row re (cb_z25 re 1100) in
  S1 + cb_fsite cb14_pga_row re v (exp (S1 + cb_fsite cb14_pga_row re 1100 0 + cb_fsed cb14_pga_row re (cb_z25 re 1100))) + cb_fsed cb14_pga_row re z <
  S2 + cb_fsite cb14_pga_row re v (exp (S2 + cb_fsite cb14_pga_row re 1100 0 + cb_fsed cb14_pga_row re (cb_z25 re 1100))) + cb_fsed cb14_pga_row re z.
Proof.
  intros Hv H K. rewrite !Rplus_assoc. fold K. clearbody K. unfold cb_fsite. cbv zeta. destruct cb14_pga_k as [K1 K2]. rewrite !K1, !K2.
  destruct (Rle_dec v 865) as [L|L]; [|lra].
  pose proof (cb14_pga_site_incr (Rpower (v / 865) 1.18) (S1 + K) (S2 + K) (ratio_pow v Hv L) ltac:(lra)). lra.
Qed.
Lemma cb14_grows_pga src1 src2 a x t h m1 m2 : nga_gives src1 (with_mag a m1) -> nga_gives src2 (with_mag a m2) ->
  n_x a = Some x -> x < 0 -> n_mech a = Some t -> 0 < n_dip a <= 90 -> n_hyp a = Some h -> h <= 12 -> 150 <= n_v a -> 0 <= n_rup a ->
  (3 <= n_rup a \/ m2 <= 6.5) -> m1 < m2 ->
  exists o1 o2, gmm_out (cb14 src1) o1 /\ gmm_out (cb14 src2) o2 /\ flt_lt (o_pga o1) (o_pga o2).
Proof.
  intros G1 G2 Ex Hx Et Hd Hh H12 Hv Hr Hm Hmm. exists (cb14_outs x (with_mag a m1)), (cb14_outs x (with_mag a m2)).
  split; [apply (cb_mag_out _ _ _ t); (assumption || lra)|]. split; [apply (cb_mag_out _ _ _ t); (assumption || lra)|].
  cbn [o_pga cb14_outs row_outs]. apply flt_lt_exp. pose proof cb14_pga_in as Hc.
  rewrite !(cb_mag_med _ x a h) by (assumption || lra). do 2 eexists. split; [reflexivity|]. split; [reflexivity|].
  unfold cb_med, cb_rock_pga. destruct (mag_other a m1) as (-> & -> & _ & _ & -> & _). destruct (mag_other a m2) as (-> & -> & _ & _ & -> & _).
  apply cb_pga_med_incr; [exact Hv|]. apply (cb_path_grows _ x a h); try assumption; lra.
Qed.
(** A deep hypocentre: the larger event shakes less. *)
Lemma cb14_deep_falls src1 src2 a x t h : nga_gives src1 (with_mag a 5.5) -> nga_gives src2 (with_mag a 6.5) ->
  n_x a = Some x -> x < 0 -> n_mech a = Some t -> 0 < n_dip a <= 90 -> n_hyp a = Some h -> 20 <= h -> 150 <= n_v a -> 0 <= n_rup a <= 10 ->
  exists o1 o2, gmm_out (cb14 src1) o1 /\ gmm_out (cb14 src2) o2 /\ flt_lt (o_pga o2) (o_pga o1).
Proof.
  intros G1 G2 Ex Hx Et Hd Hh H12 Hv Hr. exists (cb14_outs x (with_mag a 5.5)), (cb14_outs x (with_mag a 6.5)).
  split; [apply (cb_mag_out _ _ _ t); (assumption || lra)|]. split; [apply (cb_mag_out _ _ _ t); (assumption || lra)|].
  cbn [o_pga cb14_outs row_outs]. apply flt_lt_exp. pose proof cb14_pga_in as Hc.
  rewrite !(cb_mag_med _ x a h) by (assumption || lra). do 2 eexists. split; [reflexivity|]. split; [reflexivity|].
  unfold cb_med, cb_rock_pga. destruct (mag_other a 5.5) as (-> & -> & _ & _ & -> & _). destruct (mag_other a 6.5) as (-> & -> & _ & _ & -> & _).
  apply cb_pga_med_incr; [exact Hv|]. rewrite !(cb_path_mag _ x a h) by assumption. apply Rplus_lt_compat_r.
  unfold cb_m, cb_fmag, cb_fflt, cb_fdip. rewrite (clip_hi (6.5 - 4.5)), (clip_hi (5.5 - 4.5)), (clip_hi (6.5 - 5.5)), (clip_lo (5.5 - 5.5)), (clip_lo (5.5 - 6.5)) by lra.
  rewrite !Rmax_left by lra. rewrite (Rmax_right (5.5 - 6.5)) by lra.
  replace (cb_clip 0 13 (h - 7)) with 13 by (unfold cb_clip; rewrite Rmax_left, Rmin_right by lra; reflexivity).
  assert (EL : ln (sqrt (n_rup a ^ 2 + Q2R (cb14_c_7 cb14_pga_row) ^ 2)) <= 2.5).
  { row_pos Hc cb14_c_7 as H7. assert (B7 : Q2R (cb14_c_7 cb14_pga_row) <= 6.768) by (cbn; unfold Q2R; cbn; lra).
    replace (n_rup a ^ 2) with (n_rup a * n_rup a) by ring. set (k := Q2R _) in *. clearbody k. replace (k ^ 2) with (k * k) by ring.
    apply Rle_trans with (ln (sqrt (100 + 46))); [apply ln_le_mono; [apply sqrt_lt_R0; nra|apply sqrt_le_1_alt; nra]|interval with (i_prec 40)]. }
  set (L := ln _) in *. clearbody L. set (mm := cb_mech a). set (fl := if String.eqb mm "RS" then _ else _). clearbody fl.
  set (c := cb14_pga_row) in *.
  assert (D : Q2R (cb14_c_1 c) + Q2R (cb14_c_2 c) + Q2R (cb14_c_3 c) + Q2R (cb14_c_6 c) * 2.5 + 13 * (Q2R (cb14_c_18 c) - Q2R (cb14_c_17 c)) < 0) by (cbn; unfold Q2R; cbn; lra).
  row_pos Hc cb14_c_6 as H6. assert (Q2R (cb14_c_6 c) * L <= Q2R (cb14_c_6 c) * 2.5) by (apply Rmult_le_compat_l; lra). clearbody c. lra.
Qed.
