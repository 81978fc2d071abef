(** * Growth of the ASK14 median with magnitude: lemmas for C119 *)
From Coquelicot Require Import Coquelicot.
From Interval Require Import Tactic.
From Coq Require Import List.
From Verif Require Import M_cy14 M_bssa14 M_cb14 M_ask14 FrameworkProofs Anal Nga Outs SpecNga P_cy14 P_bssa14 P_cb14 P_cb14b P_ask14 P_ask14b P_ngaspec Spec_cy14 Spec_ask14 Properties_NGAPub Properties_NGAPub3 P_ngamag.
Open Scope R_scope.
Open Scope string_scope.
Open Scope list_scope.

Lemma as_clip_lo x : x <= 0 -> as_clip x = 0.
Proof. intros H. unfold as_clip. rewrite Rmax_right, Rmin_left by lra. reflexivity. Qed.
Lemma as_clip_hi x : 1 <= x -> as_clip x = 1.
Proof. intros H. unfold as_clip. rewrite Rmax_left, Rmin_right by lra. reflexivity. Qed.
Lemma as_clip_id x : 0 <= x <= 1 -> as_clip x = x.
Proof. intros H. unfold as_clip. rewrite Rmax_left, Rmin_left by lra. reflexivity. Qed.
Lemma as_dk a6 K k q F t r m : 0 < r * r + (k * m - q) * (k * m - q) ->
  is_derive (fun m => a6 * m + K * (ln (r * r + (k * m - q) * (k * m - q)) / 2) + F * m - t * m) m (a6 + K * (k * (k * m - q) / (r * r + (k * m - q) * (k * m - q))) + F - t).
Proof. intros PP. auto_derive; [exact PP|]. replace (k * m + - q) with (k * m - q) in * by ring. field. lra. Qed.
Definition as_L (r : R) : R := ln (sqrt (r ^ 2 + 4.5 ^ 2)).
Definition as_h (c : ask14_row) (F r t m : R) : R := as_f1 c m r + F * as_clip (m - 4) - t * m.
Lemma as_h_grows c F r t m1 m2 : In c ask14_coeff -> 2 <= r -> -0.2 <= F <= 0 -> 0 <= t <= 0.195 -> 0.41 + t < 0.275 * as_L r -> m1 < m2 -> m2 <= 8.5 ->
  as_h c F r t m1 < as_h c F r t m2.
Proof.
  intros Hc Hr HF Ht HL H12 H85. unfold as_h, as_f1.
  row_is Hc ask14_m2 (5#1)%Q as E1. row_is Hc ask14_a3 (275#1000)%Q as E2. row_is Hc ask14_a4 (-1#10)%Q as E3. row_is Hc ask14_a5 (-41#100)%Q as E4.
  row_is Hc ask14_c4 (45#10)%Q as E5. row_is Hc ask14_a7 (0#1)%Q as E6. row_ge Hc (2#1)%Q ask14_a6 as B6. row_upto Hc ask14_a8 (0#1)%Q as B8.
  row_ge Hc (675#100)%Q ask14_m1 as B1. row_upto Hc (fun c => - (ask14_a2 c + ask14_a3 c * (5 - ask14_m1 c)))%Q (16#10)%Q as BK. row_upto Hc (fun c => (ask14_a2 c + ask14_a3 c * (5 - ask14_m1 c)))%Q (0#1)%Q as BK0.
  rewrite E2 in BK, BK0. rewrite E1, E2, E3, E4, E5, E6.
  set (M1 := Q2R (ask14_m1 c)) in *. set (a1 := Q2R (ask14_a1 c)). set (a2 := Q2R (ask14_a2 c)) in *. set (a6 := Q2R (ask14_a6 c)) in *. set (a8 := Q2R (ask14_a8 c)) in *. set (a17 := Q2R (ask14_a17 c)).
  clearbody M1 a1 a2 a6 a8 a17. clear Hc E1 E2 E3 E4 E5 E6 c. cbv zeta.
  replace (5 * / 1) with 5 in * by lra. replace (275 * / 1000) with 0.275 in * by lra. replace (-1 * / 10) with (-0.1) in * by lra. replace (-41 * / 100) with (-0.41) in * by lra.
  replace (45 * / 10) with 4.5 in * by lra. replace (0 * / 1) with 0 in * by lra. replace (16 * / 10) with 1.6 in * by lra. replace (2 * / 1) with 2 in * by lra. replace (675 * / 100) with 6.75 in * by lra.
  set (f := fun m => a1 + a17 * r +
    (if Rle_dec m 5 then -0.1 * (5 - M1) + a8 * (8.5 - 5) ^ 2 + a6 * (m - 5) + 0 * (m - 5) ^ 2 + (a2 + 0.275 * (5 - M1)) * ln (sqrt (r ^ 2 + (4.5 - (4.5 - 1) * as_clip (5 - m)) ^ 2))
     else (if Rle_dec m M1 then -0.1 else -0.41) * (m - M1) + a8 * (8.5 - m) ^ 2 + (a2 + 0.275 * (m - M1)) * ln (sqrt (r ^ 2 + (4.5 - (4.5 - 1) * as_clip (5 - m)) ^ 2)))
    + F * as_clip (m - 4) - t * m).
  change (f m1 < f m2).
  assert (F4 : forall m, m <= 4 -> f m = f 4 + (a6 - t) * (m - 4)).
  { intros m Hm. unfold f. destruct (Rle_dec m 5); [|lra]. destruct (Rle_dec 4 5); [|lra]. rewrite !(as_clip_hi (5 - _)), !(as_clip_lo (_ - 4)) by lra. ring. }
  assert (F5 : forall m, 4 <= m <= 5 -> f m = a1 + a17 * r + (-0.1 * (5 - M1) + a8 * (8.5 - 5) ^ 2 + a6 * (m - 5) + (a2 + 0.275 * (5 - M1)) * (ln (r * r + (3.5 * m - 13) * (3.5 * m - 13)) / 2)) + F * (m - 4) - t * m).
  { intros m Hm. unfold f. destruct (Rle_dec m 5); [|lra]. rewrite (as_clip_id (5 - m)), (as_clip_id (m - 4)) by lra. replace (4.5 - (4.5 - 1) * (5 - m)) with (3.5 * m - 13) by lra.
    replace (r ^ 2 + (3.5 * m - 13) ^ 2) with (r * r + (3.5 * m - 13) * (3.5 * m - 13)) by ring. rewrite ln_sqrt_half by (pose proof (Rle_0_sqr (3.5 * m - 13)) as Q; unfold Rsqr in Q; nra). ring. }
  assert (F6 : forall m, 5 <= m -> f m = a1 + a17 * r + ((if Rle_dec m M1 then -0.1 else -0.41) * (m - M1) + a8 * (8.5 - m) ^ 2 + (a2 + 0.275 * (m - M1)) * as_L r) + F - t * m).
  { intros m Hm. unfold f, as_L. rewrite (as_clip_lo (5 - m)), (as_clip_hi (m - 4)) by lra. rewrite Rmult_0_r, Rminus_0_r, Rmult_1_r.
    destruct (Rle_dec m 5); [|reflexivity]. assert (m = 5) by lra. subst m. destruct (Rle_dec 5 M1); [ring|lra]. }
  clearbody f. set (L := as_L r) in *. clearbody L.
  apply (incr_join (fun m => m <= m2) f 4); try lra; try (intros; lra).
  - intros u w _ _ Huw Hw. rewrite (F4 u), (F4 w) by lra. pose proof (lin_incr (a6 - t) u w ltac:(lra) Huw). lra.
  - intros u w Hu0 Hw0 Hu Huw. apply (incr_join (fun m => 4 <= m <= m2) f 5); try lra; try (intros; lra).
    + clear u w Hu0 Hw0 Hu Huw. intros u w Hu Hw Huw H5. rewrite (F5 u), (F5 w) by lra. set (K := a2 + 0.275 * (5 - M1)) in *. 
      assert (PP : forall m, 0 < r * r + (3.5 * m - 13) * (3.5 * m - 13)) by (intros m; pose proof (Rle_0_sqr (3.5 * m - 13)) as Q; unfold Rsqr in Q; nra).
      cut (a6 * u + K * (ln (r * r + (3.5 * u - 13) * (3.5 * u - 13)) / 2) + F * u - t * u < a6 * w + K * (ln (r * r + (3.5 * w - 13) * (3.5 * w - 13)) / 2) + F * w - t * w); [lra|].
      apply (incr_by_derive (fun m => a6 * m + K * (ln (r * r + (3.5 * m - 13) * (3.5 * m - 13)) / 2) + F * m - t * m)
        (fun m => a6 + K * (3.5 * (3.5 * m - 13) / (r * r + (3.5 * m - 13) * (3.5 * m - 13))) + F - t)); [exact Huw| |].
      * intros m _. apply (as_dk a6 K 3.5 13 F t r m (PP m)).
      * intros m Hm. specialize (PP m). set (q := 3.5 * m - 13) in *.
        assert (Q0 : 0 <= q) by (unfold q; lra).
        assert (QQ : 3.5 * q / (r * r + q * q) <= 0.875). { apply (Rmult_le_reg_r (r * r + q * q)); [exact PP|]. unfold Rdiv. rewrite Rmult_assoc, Rinv_l, Rmult_1_r by lra.
          pose proof (Rle_0_sqr (r - q)) as Q; unfold Rsqr in Q. nra. }
        assert (Q1 : 0 <= 3.5 * q / (r * r + q * q)) by (apply Rmult_le_pos; [lra|left; apply Rinv_0_lt_compat; exact PP]).
        set (z := 3.5 * q / (r * r + q * q)) in *.
        assert (-1.6 * 0.875 <= K * z) by nra. lra.
    + clear u w Hu0 Hw0 Hu Huw. 
      assert (QD : forall u w, u <= w -> w <= 8.5 -> a8 * (8.5 - u) ^ 2 <= a8 * (8.5 - w) ^ 2). { intros u w Hu Hw. simpl. rewrite !Rmult_1_r. assert ((8.5 - w) * (8.5 - w) <= (8.5 - u) * (8.5 - u)) by (apply Rmult_le_compat; lra). nra. }
      intros u w Hu0 Hw0 Hu Huw. apply (incr_join (fun m => 5 <= m <= m2) f M1); try lra; try (intros; lra).
      * clear u w Hu0 Hw0 Hu Huw. intros u w Hu Hw Huw H5. rewrite (F6 u), (F6 w) by lra. destruct (Rle_dec u M1); [|lra]. destruct (Rle_dec w M1); [|lra].
        pose proof (QD u w ltac:(lra) ltac:(lra)). pose proof (lin_incr (-0.1 + 0.275 * L - t) u w ltac:(lra) Huw). lra.
      * clear u w Hu0 Hw0 Hu Huw. intros u w Hu Hw Hu6 Huw. rewrite (F6 u), (F6 w) by lra. destruct (Rle_dec w M1); [lra|].
        assert (X : (if Rle_dec u M1 then -0.1 else -0.41) * (u - M1) = -0.41 * (u - M1)) by (destruct (Rle_dec u M1); [replace u with M1 by lra; lra|reflexivity]). rewrite X.
        pose proof (QD u w ltac:(lra) ltac:(lra)). pose proof (lin_incr (-0.41 + 0.275 * L - t) u w ltac:(lra) Huw). lra.
Qed.
Lemma ask14_resp_mag c a m1 m2 : In c ask14_coeff -> n_hw a <> Some true -> depth_ok a -> 180 <= n_v a ->
  as_source_path c (with_mag a m1) < as_source_path c (with_mag a m2) -> flt_lt (ask14_resp (with_mag a m1) c) (ask14_resp (with_mag a m2) c).
Proof.
  intros Hc Hw Hd Hv L.
  assert (DD : match option_map Fin (n_z1 a) with Some x => fnonneg x | None => True end).
  { unfold depth_ok in Hd. destruct (n_z1 a); cbn; [apply fnonneg_fin; exact Hd|exact I]. }
  destruct (ask14_site_finite c NaN 1180.0 (option_map Fin (n_z1 a)) (ask14_region a) Hc ltac:(lra) ltac:(right; lra) DD) as [S' ES'].
  destruct (ask14_site_p c (n_v a) (option_map Fin (n_z1 a)) (ask14_region a) Hc Hv DD) as (S & B & k & s & HB & Hk & Hs & Hbs & ES).
  assert (HG : forall m, ask14_geom (with_mag a m)) by (intros m W; destruct a; cbn in *; congruence).
  assert (EF : forall m v, ask14_freg c (ask14_input (with_mag a m)) v = ask14_freg c (ask14_input a) v) by (intros m v; destruct a; reflexivity).
  destruct (ask14_freg_finite c a (n_v a) Hc ltac:(lra)) as [G EG]. destruct (ask14_freg_finite c a 1180.0 Hc ltac:(lra)) as [G' EG'].
  assert (Q : forall m, ask14_resp (with_mag a m) c = let y := as_source_path c (with_mag a m) + G' + S' in
    Fin (as_source_path c (with_mag a m) + G + (S + (B * ln (exp y + k) - B * ln (exp y + k * (s * s)))))).
  { intros m. cbv zeta. unfold ask14_resp, ask14_ln_ref. rewrite !ask14_ln_resp_parts.
    replace (as_depth_1_0 (ask14_input (with_mag a m))) with (option_map Fin (n_z1 a)) by (destruct a; reflexivity).
    replace (as_region (ask14_input (with_mag a m))) with (ask14_region a) by (destruct a; reflexivity).
    replace (n_v (with_mag a m)) with (n_v a) by (destruct a; reflexivity).
    rewrite !EF, as_source_ok by (try apply HG; exact Hc). rewrite EG, EG', ES'. fcbn. rewrite ES. fcbn. reflexivity. }
  rewrite !Q. cbv zeta. do 2 eexists; split; [reflexivity|split; [reflexivity|]].
  pose proof (nl_incr B k s (as_source_path c (with_mag a m1) + G' + S') (as_source_path c (with_mag a m2) + G' + S') HB Hk Hs Hbs ltac:(lra)). lra.
Qed.
Definition as_F (c : ask14_row) (a : nga) : R := if String.eqb (as_mech a) "RS" then Q2R (ask14_a11 c) else if String.eqb (as_mech a) "NS" then Q2R (ask14_a12 c) else 0.
Definition as_aft (c : ask14_row) (a : nga) : R := match n_after a with Some true => Q2R (ask14_a14 c) * as_clip (1 - (or_else (n_crjb a) 15 - 5) / 10) | _ => 0 end.
Lemma as_source_mag c a t m : n_hw a <> Some true ->
  as_source_path c (with_mag a m) = as_h c (as_F c a) (n_rup a) t m + (t * m + Q2R (ask14_a15 c) * as_clip (as_tor (with_mag a m) / 20)) + as_aft c a.
Proof.
  intros Hw. unfold as_source_path, as_h, as_F, as_aft. destruct a as [mm ru jb xx y0 cr di vv tor bo bt hy wi z1 z25 dpp me re so hw af]. cbn [n_hw] in Hw.
  unfold as_mech. cbn [n_mag n_rup n_hw n_x n_after n_crjb n_mech with_mag].
  set (f1 := as_f1 _ _ _). set (tt := as_clip (as_tor _ / 20)). set (F := if String.eqb _ "RS" then _ else _). set (cm := as_clip (m - 4)). set (aff := match af with Some _ => _ | None => _ end).
  assert (E : match hw with Some true => match xx with Some x => as_f4 c x (Nga m ru jb xx y0 cr di vv tor bo bt hy wi z1 z25 dpp me re so hw af) | None => 0 end | _ => 0 end = 0).
  { destruct hw as [[]|]; [congruence|reflexivity|reflexivity]. }
  rewrite E. ring.
Qed.
Lemma as_F_range c a : In c ask14_coeff -> -0.2 <= as_F c a <= 0.
Proof.
  intros Hc. unfold as_F. row_is Hc ask14_a11 (0#1)%Q as A. row_ge Hc (-2#10)%Q ask14_a12 as B. row_upto Hc ask14_a12 (0#1)%Q as C.
  destruct (String.eqb (as_mech a) "RS"); [lra|]. destruct (String.eqb (as_mech a) "NS"); lra.
Qed.
Lemma as_L_ge r q : 0 <= q <= r -> ln (sqrt (q ^ 2 + 4.5 ^ 2)) <= as_L r.
Proof. intros H. unfold as_L. apply ln_le_mono; [apply sqrt_lt_R0; nra|]. apply sqrt_le_1_alt. nra. Qed.
Lemma as_source_grows c a m1 m2 : In c ask14_coeff -> n_hw a <> Some true -> m1 < m2 -> m2 <= 8.5 -> (n_tor a <> None /\ 2 <= n_rup a \/ 8 <= n_rup a) ->
  as_source_path c (with_mag a m1) < as_source_path c (with_mag a m2).
Proof.
  intros Hc Hw H12 H85 HR. destruct HR as [[Ht Hr]|Hr].
  - rewrite !(as_source_mag c a 0) by exact Hw.
    replace (as_tor (with_mag a m1)) with (as_tor (with_mag a m2)) by (unfold as_tor; destruct a; cbn in *; destruct n_tor; [reflexivity|congruence]).
    pose proof (as_h_grows c (as_F c a) (n_rup a) 0 m1 m2 Hc Hr (as_F_range c a Hc) ltac:(lra)) as G.
    pose proof (as_L_ge (n_rup a) 2 ltac:(lra)). assert (1.55 <= ln (sqrt (2 ^ 2 + 4.5 ^ 2))) by interval with (i_prec 40). specialize (G ltac:(lra) H12 H85). lra.
  - rewrite !(as_source_mag c a 0.195) by exact Hw.
    pose proof (as_h_grows c (as_F c a) (n_rup a) 0.195 m1 m2 Hc ltac:(lra) (as_F_range c a Hc) ltac:(lra)) as G.
    pose proof (as_L_ge (n_rup a) 8 ltac:(lra)). assert (2.21 <= ln (sqrt (8 ^ 2 + 4.5 ^ 2))) by interval with (i_prec 40). specialize (G ltac:(lra) H12 H85).
    cut (0.195 * m1 + Q2R (ask14_a15 c) * as_clip (as_tor (with_mag a m1) / 20) <= 0.195 * m2 + Q2R (ask14_a15 c) * as_clip (as_tor (with_mag a m2) / 20)); [lra|].
    row_upto Hc ask14_a15 (11#10)%Q as A15. set (k := Q2R (ask14_a15 c)) in *. clearbody k. unfold as_tor. destruct a as [mm ru jb xx y0 cr di vv tor bo bt hy wi z1 z25 dpp me re so hw af]; cbn [n_tor n_mag with_mag].
    destruct tor as [z|]; [cbn [or_else]; lra|]. cbn [or_else polyline].
    assert (X : forall m, as_clip ((if Rle_dec m 5 then 7.8 else if Rle_dec m 7.2 then 7.8 + (0 - 7.8) / (7.2 - 5) * (m - 5) else 0) / 20) =
       (if Rle_dec m 5 then 7.8 else if Rle_dec m 7.2 then 7.8 + (0 - 7.8) / (7.2 - 5) * (m - 5) else 0) / 20).
    { intros m. apply as_clip_id. destruct (Rle_dec m 5); [lra|]. destruct (Rle_dec m 7.2); lra. }
    rewrite !X. 
    destruct (Rle_dec m1 5), (Rle_dec m2 5), (Rle_dec m1 7.2), (Rle_dec m2 7.2); try lra; nra.
Qed.
Lemma ask14_grows src1 src2 a t m1 m2 : nga_gives src1 (with_mag a m1) -> nga_gives src2 (with_mag a m2) ->
  n_mech a = Some t -> n_hw a <> Some true -> depth_ok a -> 180 <= n_v a -> (n_tor a <> None /\ 2 <= n_rup a \/ 8 <= n_rup a) -> m1 < m2 -> m2 <= 8.5 ->
  exists o1 o2, gmm_out (ask14 src1) o1 /\ gmm_out (ask14 src2) o2 /\ resp2 flt_lt o1 o2.
Proof.
  intros G1 G2 Ht Hw Hd Hv Hr H12 H85. exists (ask14_outs (with_mag a m1)), (ask14_outs (with_mag a m2)).
  assert (P : forall src m, nga_gives src (with_mag a m) -> gmm_out (ask14 src) (ask14_outs (with_mag a m))).
  { intros src m G. apply (ask14_out _ _ t); [exact G|destruct a; exact Ht|]. intros W. destruct a; cbn in *; congruence. }
  split; [apply P; exact G1|]. split; [apply P; exact G2|].
  apply (row_resp_lt ask14_coeff); [exact ask14_psa_in|exact ask14_pga_in|exact ask14_pgv_in|].
  intros c Hc. apply ask14_resp_mag; try assumption. apply as_source_grows; assumption.
Qed.
Lemma ask14_falls_by src1 src2 a t m1 m2 : nga_gives src1 (with_mag a m1) -> nga_gives src2 (with_mag a m2) ->
  n_mech a = Some t -> n_hw a <> Some true -> depth_ok a -> 180 <= n_v a -> as_source_path ask14_pga_row (with_mag a m2) < as_source_path ask14_pga_row (with_mag a m1) ->
  exists o1 o2, gmm_out (ask14 src1) o1 /\ gmm_out (ask14 src2) o2 /\ flt_lt (o_pga o2) (o_pga o1).
Proof.
  intros G1 G2 Ht Hw Hd Hv H. exists (ask14_outs (with_mag a m1)), (ask14_outs (with_mag a m2)).
  assert (P : forall src m, nga_gives src (with_mag a m) -> gmm_out (ask14 src) (ask14_outs (with_mag a m))).
  { intros src m G. apply (ask14_out _ _ t); [exact G|destruct a; exact Ht|]. intros W. destruct a; cbn in *; congruence. }
  split; [apply P; exact G1|]. split; [apply P; exact G2|].
  cbn [o_pga ask14_outs row_outs]. apply flt_lt_exp. apply ask14_resp_mag; [exact ask14_pga_in|assumption|assumption|assumption|exact H].
Qed.
Lemma ask14_pga_vals : Q2R (ask14_m1 ask14_pga_row) = 6.75 /\ Q2R (ask14_m2 ask14_pga_row) = 5 /\ Q2R (ask14_c4 ask14_pga_row) = 4.5 /\ Q2R (ask14_a2 ask14_pga_row) = -0.79 /\ 
  Q2R (ask14_a3 ask14_pga_row) = 0.275 /\ Q2R (ask14_a4 ask14_pga_row) = -0.1 /\ Q2R (ask14_a5 ask14_pga_row) = -0.41 /\ Q2R (ask14_a6 ask14_pga_row) = 2.1541 /\ Q2R (ask14_a7 ask14_pga_row) = 0 /\
  Q2R (ask14_a8 ask14_pga_row) = -0.015 /\ Q2R (ask14_a15 ask14_pga_row) = 1.1.
Proof. unfold Q2R; cbn. repeat split; lra. Qed.
Lemma ask14_near_falls src1 src2 a t : nga_gives src1 (with_mag a 7) -> nga_gives src2 (with_mag a 7.2) ->
  n_mech a = Some t -> n_hw a <> Some true -> depth_ok a -> 180 <= n_v a -> n_tor a = None -> 0 <= n_rup a <= 5 ->
  exists o1 o2, gmm_out (ask14 src1) o1 /\ gmm_out (ask14 src2) o2 /\ flt_lt (o_pga o2) (o_pga o1).
Proof.
  intros G1 G2 Ht Hw Hd Hv Hto Hr. apply (ask14_falls_by _ _ a t 7 7.2); try assumption.
  rewrite !(as_source_mag ask14_pga_row a 0) by exact Hw.
  replace (as_tor (with_mag a 7)) with (7.8 / 11). 2:{ unfold as_tor. destruct a; cbn in *. rewrite Hto. cbn [or_else polyline]. destruct (Rle_dec 7 5); [lra|]. destruct (Rle_dec 7 7.2); lra. }
  replace (as_tor (with_mag a 7.2)) with 0. 2:{ unfold as_tor. destruct a; cbn in *. rewrite Hto. cbn [or_else polyline]. destruct (Rle_dec 7.2 5); [lra|]. destruct (Rle_dec 7.2 7.2); lra. }
  unfold as_h, as_f1. destruct ask14_pga_vals as (-> & -> & -> & -> & -> & -> & -> & -> & -> & -> & ->). cbv zeta.
  destruct (Rle_dec 7.2 5); [lra|]. destruct (Rle_dec 7 5); [lra|]. destruct (Rle_dec 7.2 6.75); [lra|]. destruct (Rle_dec 7 6.75); [lra|].
  rewrite !(as_clip_lo (5 - _)), !(as_clip_hi (_ - 4)) by lra. rewrite !as_clip_id by lra. rewrite Rmult_0_r, Rminus_0_r. fold (as_L (n_rup a)).
  assert (L : as_L (n_rup a) <= ln (sqrt (5 ^ 2 + 4.5 ^ 2))) by (unfold as_L; apply ln_le_mono; [apply sqrt_lt_R0; nra|]; apply sqrt_le_1_alt; nra).
  assert (ln (sqrt (5 ^ 2 + 4.5 ^ 2)) <= 1.907) by interval with (i_prec 40). set (l := as_L _) in *. clearbody l. lra.
Qed.
Lemma ask14_small_falls src1 src2 a t : nga_gives src1 (with_mag a 4) -> nga_gives src2 (with_mag a 4.2) ->
  n_mech a = Some t -> n_hw a <> Some true -> depth_ok a -> 180 <= n_v a -> 0 <= n_rup a <= 0.5 ->
  exists o1 o2, gmm_out (ask14 src1) o1 /\ gmm_out (ask14 src2) o2 /\ flt_lt (o_pga o2) (o_pga o1).
Proof.
  intros G1 G2 Ht Hw Hd Hv Hr. apply (ask14_falls_by _ _ a t 4 4.2); try assumption.
  rewrite !(as_source_mag ask14_pga_row a 0) by exact Hw.
  replace (as_tor (with_mag a 4.2)) with (as_tor (with_mag a 4)). 2:{ unfold as_tor. destruct a; cbn in *. destruct n_tor; [reflexivity|]. cbn [or_else polyline]. destruct (Rle_dec 4 5); [|lra]. destruct (Rle_dec 4.2 5); lra. }
  pose proof (as_F_range ask14_pga_row a ask14_pga_in) as FR. 
  unfold as_h, as_f1. destruct ask14_pga_vals as (-> & -> & -> & -> & -> & -> & -> & -> & -> & -> & ->). cbv zeta.
  destruct (Rle_dec 4.2 5); [|lra]. destruct (Rle_dec 4 5); [|lra].
  rewrite !(as_clip_id (5 - _)), !(as_clip_id (_ - 4)) by lra.
  clear -Hr FR; set (rr := n_rup a) in *; clearbody rr; set (FF := as_F _ _) in *; clearbody FF.
  assert (L : 0.4 <= ln (sqrt (rr ^ 2 + (4.5 - (4.5 - 1) * (5 - 4.2)) ^ 2)) - ln (sqrt (rr ^ 2 + (4.5 - (4.5 - 1) * (5 - 4)) ^ 2))) by (replace (4.5 - (4.5 - 1) * (5 - 4.2)) with 1.7 by lra; replace (4.5 - (4.5 - 1) * (5 - 4)) with 1 by lra; clear -Hr; interval with (i_prec 40, i_bisect rr)).
  set (l1 := ln (sqrt (rr ^ 2 + (4.5 - (4.5 - 1) * (5 - 4.2)) ^ 2))) in *. set (l2 := ln (sqrt (rr ^ 2 + (4.5 - (4.5 - 1) * (5 - 4)) ^ 2))) in *. clearbody l1 l2. lra.
Qed.
