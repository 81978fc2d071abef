(** * CB14 on soil: growth with magnitude (C117) *)
From Coquelicot Require Import Coquelicot.
From Interval Require Import Tactic.
From Coq Require Import List.
From Verif Require Import M_cb14 FrameworkProofs Anal Nga Outs SpecNga P_cy14 P_bssa14 P_cb14 P_cb14b P_ngaspec Spec_cy14 Spec_cb14 Properties_NGAPub Properties_NGAPub2 P_ngamag P_cbsoil.
Open Scope R_scope.
Open Scope string_scope.
Open Scope list_scope.
Lemma lin_pos2 A B lo hi t : lo <= t <= hi -> 0 < A + B * lo -> 0 < A + B * hi -> 0 < A + B * t.
Proof.
  intros Ht H0 H1. destruct (Rle_dec 0 B).
  - assert (0 <= B * (t - lo)) by (apply Rmult_le_pos; lra). lra.
  - assert (0 <= - B * (hi - t)) by (apply Rmult_le_pos; lra). lra.
Qed.
Lemma cs_m_comp c p F g big mech dip H L Lp m1 m2 : cs_slopes c p F g big -> g <= Q2R (cb14_c_6 c) * L - F * Q2R (cb14_c_6 p) * Lp ->
  0 <= dip <= 90 -> 0 <= H <= 5 -> big = true \/ m2 <= 6.5 -> m1 < m2 ->
  F * (cb_m p mech dip H Lp m2 - cb_m p mech dip H Lp m1) < cb_m c mech dip H L m2 - cb_m c mech dip H L m1.
Proof.
  intros (S1 & (S2a & S2b) & (S2c & S2d) & (S2e & S2f) & (S3a & S3b) & S4) Hg Hd HH Hb H12.
  unfold cb_m, cb_fmag, cb_fflt, cb_fdip.
  set (flc := if String.eqb mech "RS" then Q2R (cb14_c_8 c) else _) in *. set (flp := if String.eqb mech "RS" then Q2R (cb14_c_8 p) else _) in *.
  set (c0 := Q2R (cb14_c_0 c)) in *. set (c1 := Q2R (cb14_c_1 c)) in *. set (c2 := Q2R (cb14_c_2 c)) in *. set (c3 := Q2R (cb14_c_3 c)) in *. set (c4 := Q2R (cb14_c_4 c)) in *. set (c5 := Q2R (cb14_c_5 c)) in *.
  set (c6 := Q2R (cb14_c_6 c)) in *. set (c19 := Q2R (cb14_c_19 c)) in *. set (c17 := Q2R (cb14_c_17 c)) in *. set (c18 := Q2R (cb14_c_18 c)) in *.
  set (p0 := Q2R (cb14_c_0 p)) in *. set (p1 := Q2R (cb14_c_1 p)) in *. set (p2 := Q2R (cb14_c_2 p)) in *. set (p3 := Q2R (cb14_c_3 p)) in *. set (p4 := Q2R (cb14_c_4 p)) in *. set (p5 := Q2R (cb14_c_5 p)) in *.
  set (p6 := Q2R (cb14_c_6 p)) in *. set (p19 := Q2R (cb14_c_19 p)) in *. set (p17 := Q2R (cb14_c_17 p)) in *. set (p18 := Q2R (cb14_c_18 p)) in *.
  set (G := c6 * L - F * p6 * Lp) in *.
  assert (T2 : 0 < c1 - F * p1 + (c2 - F * p2) + (flc - F * flp) - (c19 - F * p19) * dip + G).
  { assert (0 < (c1 - F * p1 + (c2 - F * p2) + (flc - F * flp) + G) + - (c19 - F * p19) * dip); [|lra].
    unfold flc, flp. apply (lin_pos2 _ _ 0 90); [lra|..]; destruct (String.eqb mech "RS"); [lra|destruct (String.eqb mech "NS"); lra|lra|destruct (String.eqb mech "NS"); lra]. }
  assert (T3 : 0 < c1 - F * p1 + (c2 - F * p2) + (c3 - F * p3) + G + (c18 - F * p18 - (c17 - F * p17)) * H) by (apply (lin_pos2 _ _ 0 5); lra).
  clearbody flc flp c0 c1 c2 c3 c4 c5 c19 c17 c18 p0 p1 p2 p3 p4 p5 p19 p17 p18.
  clear S2a S2b S2c S2d S2e S2f S3a S3b.
  set (f := fun m => (c1 - F * p1) * m + (c2 - F * p2) * Rmax (m - 4.5) 0 + (c3 - F * p3) * Rmax (m - 5.5) 0 + (c4 - F * p4) * Rmax (m - 6.5) 0
    + G * m + (flc - F * flp) * cb_clip 0 1 (m - 4.5) + H * ((c18 - F * p18 - (c17 - F * p17)) * cb_clip 0 1 (m - 5.5)) + (c19 - F * p19) * dip * cb_clip 0 1 (5.5 - m)).
  assert (Q : f m1 < f m2); [|unfold f, G in Q; lra].
  apply (incr_join (fun m => m <= m2) f 4.5); try lra; try (intros; lra).
  - intros u w _ _ Huw Hw. unfold f. rewrite !(Rmax_right (_ - 4.5)), !(Rmax_right (_ - 5.5)), !(Rmax_right (_ - 6.5)) by lra.
    rewrite !(clip_lo (_ - 4.5)), !(clip_lo (_ - 5.5)), !(clip_hi (5.5 - _)) by lra.
    pose proof (lin_incr (c1 - F * p1 + G) u w ltac:(lra) Huw). lra.
  - intros u w Hu0 Hw0 Hu Huw. apply (incr_join (fun m => 4.5 <= m <= m2) f 5.5); try lra; try (intros; lra).
    + clear u w Hu0 Hw0 Hu Huw. intros u w Hu Hw Huw H5. unfold f. rewrite !(Rmax_left (_ - 4.5)), !(Rmax_right (_ - 5.5)), !(Rmax_right (_ - 6.5)) by lra.
      rewrite !(clip_id (_ - 4.5)), !(clip_lo (_ - 5.5)), !(clip_id (5.5 - _)) by lra.
      pose proof (lin_incr _ u w T2 Huw). lra.
    + clear u w Hu0 Hw0 Hu Huw. intros u w Hu0 Hw0 Hu Huw. apply (incr_join (fun m => 5.5 <= m <= m2) f 6.5); try lra; try (intros; lra).
      * clear u w Hu0 Hw0 Hu Huw. intros u w Hu Hw Huw H5. unfold f. rewrite !(Rmax_left (_ - 4.5)), !(Rmax_left (_ - 5.5)), !(Rmax_right (_ - 6.5)) by lra.
        rewrite !(clip_hi (_ - 4.5)), !(clip_id (_ - 5.5)), !(clip_lo (5.5 - _)) by lra.
        pose proof (lin_incr _ u w T3 Huw). lra.
      * clear u w Hu0 Hw0 Hu Huw. intros u w Hu Hw Hu6 Huw. unfold f. rewrite !(Rmax_left (_ - 4.5)), !(Rmax_left (_ - 5.5)), !(Rmax_left (_ - 6.5)) by lra.
        rewrite !(clip_hi (_ - 4.5)), !(clip_hi (_ - 5.5)), !(clip_lo (5.5 - _)) by lra.
        destruct Hb as [->|]; [|lra]. specialize (S4 eq_refl).
        pose proof (lin_incr (c1 - F * p1 + (c2 - F * p2) + (c3 - F * p3) + (c4 - F * p4) + G) u w ltac:(lra) Huw). lra.
Qed.
Lemma cs_site_nl c re v : exists A, forall y, cb_fsite c re v (exp y) = A + cs_nl c v y.
Proof.
  unfold cb_fsite, cs_nl. cbv zeta. set (J := if String.eqb re "japan" then _ else _).
  destruct (Rle_dec v (Q2R (cb14_k_1 c))); eexists; intros y.
  - match goal with |- ?u + ?w + J = _ => instantiate (1 := u + J); ring end.
  - rewrite Rplus_0_r. reflexivity.
Qed.
Lemma cb14_grows_stiff src1 src2 a x t h m1 m2 : nga_gives src1 (with_mag a m1) -> nga_gives src2 (with_mag a m2) ->
  n_x a = Some x -> x < 0 -> n_mech a = Some t -> 0 < n_dip a <= 90 -> n_hyp a = Some h -> h <= 12 -> 0 <= n_rup a ->
  (400 <= n_v a /\ 3 <= n_rup a) \/ (300 <= n_v a /\ m2 <= 6.5) -> m1 < m2 ->
  exists o1 o2, gmm_out (cb14 src1) o1 /\ gmm_out (cb14 src2) o2 /\ resp2 flt_lt o1 o2.
Proof.
  intros G1 G2 Ex Hx Et Hd Hh H12 Hr Hm Hmm. exists (cb14_outs x (with_mag a m1)), (cb14_outs x (with_mag a m2)).
  assert (Hv : 300 <= n_v a) by (destruct Hm; lra).
  split; [apply (cb_mag_out _ _ _ t); (assumption || lra)|]. split; [apply (cb_mag_out _ _ _ t); (assumption || lra)|].
  apply (row_resp_lt cb14_coeff); [exact cb14_psa_in|exact cb14_pga_in|exact cb14_pgv_in|].
  intros c Hc. rewrite !(cb_mag_med c x a h) by (assumption || lra). do 2 eexists. split; [reflexivity|]. split; [reflexivity|].
  unfold cb_med, cb_rock_pga. destruct (mag_other a m1) as (-> & -> & _ & _ & -> & _). destruct (mag_other a m2) as (-> & -> & _ & _ & -> & _).
  assert (Hm' : 3 <= n_rup a \/ m2 <= 6.5) by (destruct Hm; [left|right]; lra).
  pose proof (cb_path_grows cb14_pga_row x a h m1 m2 cb14_pga_in Hx Hh H12 ltac:(lra) Hr Hm' Hmm) as PG.
  set (K := fun S => S + cb_fsite cb14_pga_row (cb_reg a) 1100 0 + cb_fsed cb14_pga_row (cb_reg a) (cb_z25 (cb_reg a) 1100)).
  change (exp (cb_source_path cb14_pga_row x (with_mag a m1) + _ + _)) with (exp (K (cb_source_path cb14_pga_row x (with_mag a m1)))).
  change (exp (cb_source_path cb14_pga_row x (with_mag a m2) + _ + _)) with (exp (K (cb_source_path cb14_pga_row x (with_mag a m2)))).
  destruct (cs_site_nl c (cb_reg a) (n_v a)) as [A HA]. rewrite !HA.
  set (s := cb_fsed c _ _). clearbody s.
  assert (KD : K (cb_source_path cb14_pga_row x (with_mag a m2)) - K (cb_source_path cb14_pga_row x (with_mag a m1)) = cb_source_path cb14_pga_row x (with_mag a m2) - cb_source_path cb14_pga_row x (with_mag a m1)) by (unfold K; ring).
  assert (C : exists v0, 0 < v0 <= 400 /\ v0 <= n_v a /\ cs_F c v0 * (cb_source_path cb14_pga_row x (with_mag a m2) - cb_source_path cb14_pga_row x (with_mag a m1)) < cb_source_path c x (with_mag a m2) - cb_source_path c x (with_mag a m1)).
  { destruct (cs_rows_mag c Hc) as [R1 R2].
    assert (LL : forall e, ln (sqrt (n_rup a ^ 2 + Q2R (cb14_c_7 e) ^ 2)) = / 2 * ln (n_rup a * n_rup a + Q2R (cb14_c_7 e) * Q2R (cb14_c_7 e)) \/ ~ In e cb14_coeff).
    { intros e. destruct (Rlt_dec 0 (Q2R (cb14_c_7 e))) as [P|P]; [left|right; intros He; row_pos He cb14_c_7 as Q; lra].
      replace (n_rup a ^ 2 + Q2R (cb14_c_7 e) ^ 2) with (n_rup a * n_rup a + Q2R (cb14_c_7 e) * Q2R (cb14_c_7 e)) by ring. rewrite ln_sqrt_half; [lra|].
      assert (0 <= n_rup a * n_rup a) by (apply Rmult_le_pos; lra). assert (0 < Q2R (cb14_c_7 e) * Q2R (cb14_c_7 e)) by (apply Rmult_lt_0_compat; lra). lra. }
    destruct (LL c) as [Lc|]; [|contradiction]. destruct (LL cb14_pga_row) as [La|Na]; [|elim Na; exact cb14_pga_in].
    assert (M : forall v0 q0 big, cs_good c cb14_pga_row (cs_F c v0) q0 big -> q0 <= n_rup a * n_rup a -> big = true \/ m2 <= 6.5 ->
      cs_F c v0 * (cb_source_path cb14_pga_row x (with_mag a m2) - cb_source_path cb14_pga_row x (with_mag a m1)) < cb_source_path c x (with_mag a m2) - cb_source_path c x (with_mag a m1)).
    { intros v0 q0 big (g & Hg & S) Hq Hb. rewrite !(cb_path_mag _ x a h) by assumption.
      pose proof (cs_m_comp c cb14_pga_row (cs_F c v0) g big (cb_mech a) (n_dip a) (cb_clip 0 13 (h - 7)) (ln (sqrt (n_rup a ^ 2 + Q2R (cb14_c_7 c) ^ 2))) (ln (sqrt (n_rup a ^ 2 + Q2R (cb14_c_7 cb14_pga_row) ^ 2))) m1 m2 S) as X.
      set (F := cs_F c v0) in *. clearbody F.
      assert (Y : F * (cb_m cb14_pga_row (cb_mech a) (n_dip a) (cb_clip 0 13 (h - 7)) (ln (sqrt (n_rup a ^ 2 + Q2R (cb14_c_7 cb14_pga_row) ^ 2))) m2 - cb_m cb14_pga_row (cb_mech a) (n_dip a) (cb_clip 0 13 (h - 7)) (ln (sqrt (n_rup a ^ 2 + Q2R (cb14_c_7 cb14_pga_row) ^ 2))) m1)
        < cb_m c (cb_mech a) (n_dip a) (cb_clip 0 13 (h - 7)) (ln (sqrt (n_rup a ^ 2 + Q2R (cb14_c_7 c) ^ 2))) m2 - cb_m c (cb_mech a) (n_dip a) (cb_clip 0 13 (h - 7)) (ln (sqrt (n_rup a ^ 2 + Q2R (cb14_c_7 c) ^ 2))) m1).
      { apply X; clear X; [rewrite Lc, La; apply Hg, Hq|lra|apply cb_clip13; exact H12|exact Hb|exact Hmm]. }
      clear - Y. revert Y. generalize (cb_m cb14_pga_row (cb_mech a) (n_dip a) (cb_clip 0 13 (h - 7)) (ln (sqrt (n_rup a ^ 2 + Q2R (cb14_c_7 cb14_pga_row) ^ 2)))) (cb_m c (cb_mech a) (n_dip a) (cb_clip 0 13 (h - 7)) (ln (sqrt (n_rup a ^ 2 + Q2R (cb14_c_7 c) ^ 2)))).
      intros u w. generalize (cb_fatn cb14_pga_row (cb_reg a) (n_rup a)) (cb_fatn c (cb_reg a) (n_rup a)). intros. lra. }
    destruct Hm as [[V Q]|[V Q]].
    - exists 400. split; [lra|]. split; [exact V|]. apply (M 400 9 true R1); [apply Rle_trans with (3 * 3); [lra|apply Rmult_le_compat; lra]|left; reflexivity].
    - exists 300. split; [lra|]. split; [exact V|]. apply (M 300 0 false R2); [apply Rmult_le_pos; lra|right; exact Q]. }
  destruct C as (v0 & V0 & V1 & C).
  destruct (cs_nl_lip c v0 (n_v a) (K (cb_source_path cb14_pga_row x (with_mag a m1))) (K (cb_source_path cb14_pga_row x (with_mag a m2))) Hc V0 V1) as (_ & N & _); [unfold K; lra|].
  rewrite KD in N. lra.
Qed.
