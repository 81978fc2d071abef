(** * ASB14 on every site: growth with magnitude, decay with distance *)
From Coquelicot Require Import Coquelicot.
From Interval Require Import Tactic.
From Coq Require Import List.
From Verif Require Import M_asb14 FrameworkProofs Anal Nga Outs Cont Spec_asb14 P_asb14.
Open Scope R_scope.
Open Scope string_scope.
Open Scope list_scope.

(** The site term of any row falls by at most |b_2| times the rise of the rock PGA (in logs). *)
Lemma asb_site_change c x1 x2 v : In c asb_all -> 0 < v -> x1 <= x2 ->
  Q2R (asb14_b_2 c) * (x2 - x1) <= asb_site_val c (exp x2) v - asb_site_val c (exp x1) v <= 0.
Proof.
  intros Hc Hv H. row_lt Hc (fun c => asb14_b_2 c) (fun _ : asb14_row => (0#1)%Q) as B2.
  assert (B0 : Q2R (asb14_b_2 c) * (x2 - x1) <= 0) by nra.
  unfold asb_site_val. destruct (Rle_dec v 750) as [V|V]; [|lra].
  row_pos Hc (fun c => asb14_c c) as AC. assert (AC' : 0 < Q2R (asb14_c c)) by lra. row_pos Hc (fun c => asb14_n c) as AN.
  set (u := Rpower _ _). set (k := Q2R (asb14_c c)) in *. set (b := Q2R (asb14_b_2 c)) in *.
  assert (U : 0 < u) by apply exp_pos.
  assert (U1 : u <= 1).
  { unfold u, Rpower. rewrite <- exp_0. apply exp_le_mono. assert (ln (v / 750) <= 0).
    { apply ln_nonpos. split; [apply Rdiv_lt_0_compat; lra|]. apply Rmult_le_reg_r with 750; [lra|]. unfold Rdiv. rewrite Rmult_assoc, Rinv_l by lra. lra. }
    nra. }
  assert (KU : 0 < k * u) by (apply Rmult_lt_0_compat; assumption). assert (KU1 : k * u <= k) by nra.
  assert (E : forall x, ln ((exp x + k * u) / ((exp x + k) * u)) = ln (exp x + k * u) - ln (exp x + k) - ln u).
  { intros x. pose proof (exp_pos x).
    unfold Rdiv. rewrite ln_mult; [|lra|apply Rinv_0_lt_compat, Rmult_lt_0_compat; lra].
    rewrite ln_Rinv by (apply Rmult_lt_0_compat; lra). rewrite ln_mult by lra. ring. }
  rewrite !E.
  assert (G : exists y, 0 <= y <= x2 - x1 /\ (ln (exp x2 + k * u) - ln (exp x2 + k)) - (ln (exp x1 + k * u) - ln (exp x1 + k)) = y).
  { eexists. split; [|reflexivity].
    assert (L : forall t, 0 <= t -> 0 <= ln (exp x2 + t) - ln (exp x1 + t) <= x2 - x1).
    { intros t Ht. pose proof (exp_pos x1). pose proof (exp_pos x2). pose proof (exp_le_mono x1 x2 H) as Le.
      split; [assert (ln (exp x1 + t) <= ln (exp x2 + t)) by (apply ln_le_mono; lra); lra|].
      assert (Q : exp x2 = exp x1 * exp (x2 - x1)) by (rewrite <- exp_plus; f_equal; ring). pose proof (exp_ge_1 (x2 - x1) ltac:(lra)) as Q1.
      assert (ln (exp x2 + t) <= ln ((exp x1 + t) * exp (x2 - x1))). { apply ln_le_mono; [lra|]. rewrite Q. nra. }
      rewrite ln_mult, ln_exp in H2 by (try apply exp_pos; lra). lra. }
    pose proof (L (k * u) ltac:(lra)) as [A1 A2]. pose proof (L k ltac:(lra)) as [A3 A4].
    assert (M : ln (exp x2 + k) - ln (exp x1 + k) <= ln (exp x2 + k * u) - ln (exp x1 + k * u)).
    { pose proof (exp_pos x1). pose proof (exp_pos x2). pose proof (exp_le_mono x1 x2 H) as Le.
      assert (ln ((exp x2 + k) * (exp x1 + k * u)) <= ln ((exp x2 + k * u) * (exp x1 + k))). { apply ln_le_mono; [apply Rmult_lt_0_compat; lra|]. nra. }
      rewrite !ln_mult in H2 by lra. lra. }
    split; lra. }
  destruct G as (y & Y & EY).
  assert (b * (x2 - x1) <= b * y <= 0) by nra. 
  replace (Q2R (asb14_b_1 c) * ln (v / 750) + b * (ln (exp x2 + k * u) - ln (exp x2 + k) - ln u) - (Q2R (asb14_b_1 c) * ln (v / 750) + b * (ln (exp x1 + k * u) - ln (exp x1 + k) - ln u)))
    with (b * ((ln (exp x2 + k * u) - ln (exp x2 + k)) - (ln (exp x1 + k * u) - ln (exp x1 + k)))) by ring.
  rewrite EY. lra.
Qed.

(** What the rows of one table share, and how each row compares with the PGA row [c0] of its table. *)
Definition asb_shared (c0 c : asb14_row) : bool :=
  (Qeq_bool (asb14_c_1 c) (675#100) && Qeq_bool (asb14_a_5 c) (asb14_a_5 c0) && Qeq_bool (asb14_a_6 c) (75#10) && Qltb 0 (asb14_a_5 c)
   && Qeq_bool (asb14_a_2 c) (asb14_a_2 c0) && Qeq_bool (asb14_a_7 c) (asb14_a_7 c0)
   && Qltb (-1#1) (asb14_b_2 c) && Qltb (asb14_b_2 c) 0
   (* slope of row c plus b_2 times the slope of the PGA row, with ln of the effective distance at least 2.0149 *)
   && Qltb 0 ((1 + asb14_b_2 c) * (asb14_a_2 c + asb14_a_5 c * (20149#10000)) - (asb14_a_3 c + asb14_b_2 c * asb14_a_3 c0) * (17 - (8#1)))
   && Qltb 0 ((1 + asb14_b_2 c) * (asb14_a_2 c + asb14_a_5 c * (20149#10000)) - (asb14_a_3 c + asb14_b_2 c * asb14_a_3 c0) * (17 - (135#10)))
   && Qltb 0 ((1 + asb14_b_2 c) * (asb14_a_7 c + asb14_a_5 c * (20149#10000)) - (asb14_a_3 c + asb14_b_2 c * asb14_a_3 c0) * (17 - (135#10)))
   && Qltb 0 ((1 + asb14_b_2 c) * (asb14_a_7 c + asb14_a_5 c * (20149#10000)) - (asb14_a_3 c + asb14_b_2 c * asb14_a_3 c0) * (17 - (16#1)))
   && Qltb 0 (asb14_a_2 c0 + asb14_a_5 c0 * (20149#10000) - asb14_a_3 c0 * 1) && Qltb 0 (asb14_a_7 c0 + asb14_a_5 c0 * (20149#10000) - asb14_a_3 c0 * 1) && Qltb (asb14_a_3 c0) 0
   (* decay *)
   && Qltb (asb14_a_4 c + asb14_b_2 c * asb14_a_4 c0 + (1 + asb14_b_2 c) * asb14_a_5 c * (8 - (675#100))) 0
   && Qltb (asb14_a_4 c0 + asb14_a_5 c0 * (8 - (675#100))) 0)%bool.
Lemma asb_shared_all : forallb (fun t => match t with c0 :: _ => forallb (asb_shared c0) t | [] => false end) [asb14_jb_coeff; asb14_hyp_coeff; asb14_epi_coeff] = true.
Proof. vm_compute. reflexivity. Qed.
Lemma asb_shared_in t c0 l : In t asb_tables -> t = c0 :: l -> forall c, In c t -> asb_shared c0 c = true.
Proof.
  intros T E c Hc. pose proof asb_shared_all as A. cbn [forallb] in A. rewrite !Bool.andb_true_iff in A. destruct A as (A1 & A2 & A3 & _).
  assert (K : match t with c0 :: _ => forallb (asb_shared c0) t | [] => false end = true).
  { destruct T as [<-|[<-|[<-|[]]]]; assumption. }
  rewrite E in K. rewrite forallb_forall in K. apply K. rewrite <- E. exact Hc.
Qed.
Ltac qb H := repeat match type of H with (_ && _)%bool = true => let H' := fresh "S" in apply andb_prop in H as [H H'] end.
(** Real form of the shared facts. *)
Lemma asb_shared_R c0 c : asb_shared c0 c = true ->
  Q2R (asb14_c_1 c) = 6.75 /\ Q2R (asb14_a_5 c) = Q2R (asb14_a_5 c0) /\ Q2R (asb14_a_6 c) = 7.5 /\ 0 < Q2R (asb14_a_5 c) /\
  Q2R (asb14_a_2 c) = Q2R (asb14_a_2 c0) /\ Q2R (asb14_a_7 c) = Q2R (asb14_a_7 c0) /\ -1 < Q2R (asb14_b_2 c) < 0 /\
  (let k := Q2R (asb14_a_3 c) + Q2R (asb14_b_2 c) * Q2R (asb14_a_3 c0) in
   let lo := (1 + Q2R (asb14_b_2 c)) * (Q2R (asb14_a_2 c) + Q2R (asb14_a_5 c) * 2.0149) in
   let hi := (1 + Q2R (asb14_b_2 c)) * (Q2R (asb14_a_7 c) + Q2R (asb14_a_5 c) * 2.0149) in
   0 < lo - k * 9 /\ 0 < lo - k * 3.5 /\ 0 < hi - k * 3.5 /\ 0 < hi - k * 1) /\
  0 < Q2R (asb14_a_2 c0) + Q2R (asb14_a_5 c0) * 2.0149 - Q2R (asb14_a_3 c0) /\ 0 < Q2R (asb14_a_7 c0) + Q2R (asb14_a_5 c0) * 2.0149 - Q2R (asb14_a_3 c0) /\ Q2R (asb14_a_3 c0) < 0 /\
  Q2R (asb14_a_4 c) + Q2R (asb14_b_2 c) * Q2R (asb14_a_4 c0) + (1 + Q2R (asb14_b_2 c)) * Q2R (asb14_a_5 c) * 1.25 < 0 /\
  Q2R (asb14_a_4 c0) + Q2R (asb14_a_5 c0) * 1.25 < 0.
Proof.
  intros H. unfold asb_shared in H. repeat (apply andb_prop in H as [H ?]).
  repeat match goal with
  | X : Qeq_bool _ _ = true |- _ => apply Qeqb_R in X
  | X : Qltb _ _ = true |- _ => apply Qltb_R in X end.
  repeat match goal with
  | X : _ = _ :> R |- _ => progress (qnorm_in X) 
  | X : _ < _ |- _ => progress (rewrite ?Q2R_plus, ?Q2R_minus, ?Q2R_mult in X; change (inject_Z 0) with (0#1)%Q in X; qlit_in X) end.
  cbv zeta. repeat match goal with |- _ /\ _ => split end; lra.
Qed.
Lemma asb_ref_diff c mech m1 m2 d a : m1 <= m2 ->
  (m2 <= Q2R (asb14_c_1 c) /\ a = Q2R (asb14_a_2 c)) \/ (Q2R (asb14_c_1 c) <= m1 /\ a = Q2R (asb14_a_7 c)) ->
  asb_ref_val c mech m2 d - asb_ref_val c mech m1 d =
  (m2 - m1) * (a - Q2R (asb14_a_3 c) * (17 - m1 - m2) + Q2R (asb14_a_5 c) * ln (sqrt (d * d + Q2R (asb14_a_6 c) * Q2R (asb14_a_6 c)))).
Proof.
  intros H K. unfold asb_ref_val. replace 17 with (8.5 + 8.5) by lra. generalize 8.5. intros e. generalize (ln (sqrt (d * d + Q2R (asb14_a_6 c) * Q2R (asb14_a_6 c)))). intros L.
  destruct K as [[K ->]|[K ->]].
  - rewrite !Rmin_left, !Rmax_right by lra. ring.
  - rewrite !Rmin_right, !Rmax_left by lra. ring.
Qed.
Lemma asb_step c0 c mech v d m1 m2 : asb_shared c0 c = true -> asb_shared c0 c0 = true -> In c asb_all -> 0 < v -> 4 <= m1 -> m1 < m2 ->
  m2 <= 6.75 \/ 6.75 <= m1 /\ m2 <= 8 ->
  asb_ref_val c mech m1 d + asb_site_val c (exp (asb_ref_val c0 mech m1 d)) v < asb_ref_val c mech m2 d + asb_site_val c (exp (asb_ref_val c0 mech m2 d)) v.
Proof.
  intros S S0 Hc Hv H1 H H2. apply asb_shared_R in S as (E1 & E5 & E6 & P5 & E2 & E7 & B & K & G1 & G2 & A3 & _). apply asb_shared_R in S0 as (F1 & _ & F6 & _).
  set (L := ln (sqrt (d * d + 7.5 * 7.5))).
  assert (HL : 2.0149 <= L).
  { apply Rle_trans with (ln 7.5); [clear; interval with (i_prec 40)|]. apply ln_le_mono; [lra|]. rewrite <- (sqrt_square 7.5) at 1 by lra. apply sqrt_le_1_alt. nra. }
  assert (X : exists a0, a0 = (if Rle_dec m2 6.75 then Q2R (asb14_a_2 c) else Q2R (asb14_a_7 c)) /\
    asb_ref_val c mech m2 d - asb_ref_val c mech m1 d = (m2 - m1) * (a0 - Q2R (asb14_a_3 c) * (17 - m1 - m2) + Q2R (asb14_a_5 c) * L) /\
    asb_ref_val c0 mech m2 d - asb_ref_val c0 mech m1 d = (m2 - m1) * (a0 - Q2R (asb14_a_3 c0) * (17 - m1 - m2) + Q2R (asb14_a_5 c) * L)).
  { eexists. split; [reflexivity|]. unfold L. rewrite <- E6 at 1 2. rewrite E5 at 2. rewrite <- F6. split; apply asb_ref_diff; try lra; rewrite ?E1, ?F1; destruct (Rle_dec m2 6.75); try (left; split; [lra|congruence]); right; (split; [lra|congruence]). }
  destruct X as (a0 & Ea & D & D0).
  cbv zeta in K. destruct K as (K1 & K2 & K3 & K4).
  set (a5 := Q2R (asb14_a_5 c)) in *. set (a3 := Q2R (asb14_a_3 c)) in *. set (z3 := Q2R (asb14_a_3 c0)) in *. set (b := Q2R (asb14_b_2 c)) in *.
  assert (AL : a5 * 2.0149 <= a5 * L) by (apply Rmult_le_compat_l; lra).
  assert (P0 : 0 < a0 - z3 * (17 - m1 - m2) + a5 * L).
  { assert (- z3 * 1 <= - z3 * (17 - m1 - m2)) by (apply Rmult_le_compat_l; [lra|]; destruct H2; lra). rewrite <- E5, <- E2, <- E7 in *. fold a5 in G1, G2. rewrite Ea. destruct (Rle_dec m2 6.75); lra. }
  assert (R0 : asb_ref_val c0 mech m1 d <= asb_ref_val c0 mech m2 d). { assert (0 < (m2 - m1) * (a0 - z3 * (17 - m1 - m2) + a5 * L)) by (apply Rmult_lt_0_compat; lra). lra. }
  pose proof (asb_site_change c _ _ v Hc Hv R0) as [C _]. fold b in C.
  assert (T : 0 < (m2 - m1) * ((1 + b) * (a0 + a5 * L) - (a3 + b * z3) * (17 - m1 - m2))).
  { apply Rmult_lt_0_compat; [lra|].
    assert (M1 : (1 + b) * (a0 + a5 * 2.0149) <= (1 + b) * (a0 + a5 * L)) by (apply Rmult_le_compat_l; lra).
    assert (M2 : 0 < (1 + b) * (a0 + a5 * 2.0149) - (a3 + b * z3) * (17 - m1 - m2)); [|lra].
    set (k := a3 + b * z3) in *. set (q := (1 + b) * (a0 + a5 * 2.0149)) in *.
    assert (q + (- k) * (17 - m1 - m2) > 0); [|lra]. apply Rlt_gt. destruct (Rle_dec m2 6.75) as [N|N].
    - apply (lin_pos q (- k) 3.5 9); try lra; unfold q; rewrite Ea; lra.
    - apply (lin_pos q (- k) 1 3.5); try lra; unfold q; rewrite Ea; lra. }
  rewrite D0 in C. assert (Z : (m2 - m1) * ((1 + b) * (a0 + a5 * L) - (a3 + b * z3) * (17 - m1 - m2))
    = (m2 - m1) * (a0 - a3 * (17 - m1 - m2) + a5 * L) + b * ((m2 - m1) * (a0 - z3 * (17 - m1 - m2) + a5 * L))) by ring.
  lra.
Qed.
Lemma asb_grows c0 c mech v d m1 m2 : asb_shared c0 c = true -> asb_shared c0 c0 = true -> In c asb_all -> 0 < v -> 4 <= m1 -> m1 < m2 -> m2 <= 8 ->
  asb_ref_val c mech m1 d + asb_site_val c (exp (asb_ref_val c0 mech m1 d)) v < asb_ref_val c mech m2 d + asb_site_val c (exp (asb_ref_val c0 mech m2 d)) v.
Proof.
  intros S S0 Hc Hv H1 H H2. destruct (Rle_dec m2 6.75); [apply asb_step; auto; lra|]. destruct (Rle_dec 6.75 m1); [apply asb_step; auto; lra|].
  apply Rlt_trans with (asb_ref_val c mech 6.75 d + asb_site_val c (exp (asb_ref_val c0 mech 6.75 d)) v); apply asb_step; auto; lra.
Qed.
Lemma asb_decays c0 c mech v m d1 d2 : asb_shared c0 c = true -> asb_shared c0 c0 = true -> In c asb_all -> 0 < v -> m <= 8 -> 0 <= d1 -> d1 < d2 ->
  asb_ref_val c mech m d2 + asb_site_val c (exp (asb_ref_val c0 mech m d2)) v < asb_ref_val c mech m d1 + asb_site_val c (exp (asb_ref_val c0 mech m d1)) v.
Proof.
  intros S S0 Hc Hv Hm H1 H2. apply asb_shared_R in S as (E1 & E5 & E6 & P5 & _ & _ & B & _ & _ & _ & _ & N & N0). apply asb_shared_R in S0 as (F1 & _ & F6 & _).
  set (L1 := ln (sqrt (d1 * d1 + 7.5 * 7.5))). set (L2 := ln (sqrt (d2 * d2 + 7.5 * 7.5))).
  assert (HL : L1 < L2). { apply ln_increasing; [apply sqrt_lt_R0; nra|apply sqrt_lt_1; nra]. }
  assert (D : asb_ref_val c mech m d2 - asb_ref_val c mech m d1 = (Q2R (asb14_a_4 c) + Q2R (asb14_a_5 c) * (m - 6.75)) * (L2 - L1)).
  { unfold asb_ref_val, L1, L2. rewrite E6, E1. ring. }
  assert (D0 : asb_ref_val c0 mech m d2 - asb_ref_val c0 mech m d1 = (Q2R (asb14_a_4 c0) + Q2R (asb14_a_5 c) * (m - 6.75)) * (L2 - L1)).
  { unfold asb_ref_val, L1, L2. rewrite F6, F1, E5. ring. }
  rewrite <- E5 in N0. set (a4 := Q2R (asb14_a_4 c)) in *. set (z4 := Q2R (asb14_a_4 c0)) in *. set (a5 := Q2R (asb14_a_5 c)) in *. set (b := Q2R (asb14_b_2 c)) in *.
  assert (A : a5 * (m - 6.75) <= a5 * 1.25) by (apply Rmult_le_compat_l; lra).
  assert (K0 : z4 + a5 * (m - 6.75) < 0) by lra.
  assert (R0 : asb_ref_val c0 mech m d2 <= asb_ref_val c0 mech m d1) by nra.
  pose proof (asb_site_change c _ _ v Hc Hv R0) as [C _]. fold b in C.
  assert (T : (a4 + b * z4 + (1 + b) * a5 * (m - 6.75)) * (L2 - L1) < 0).
  { assert (a4 + b * z4 + (1 + b) * a5 * (m - 6.75) < 0); [|nra].
    assert ((1 + b) * (a5 * (m - 6.75)) <= (1 + b) * (a5 * 1.25)) by (apply Rmult_le_compat_l; lra). lra. }
  replace (asb_ref_val c0 mech m d1 - asb_ref_val c0 mech m d2) with (- ((z4 + a5 * (m - 6.75)) * (L2 - L1))) in C by lra.
  assert (Z : (a4 + b * z4 + (1 + b) * a5 * (m - 6.75)) * (L2 - L1) = (a4 + a5 * (m - 6.75)) * (L2 - L1) + b * ((z4 + a5 * (m - 6.75)) * (L2 - L1))) by ring.
  lra.
Qed.

(** The reported responses. *)
Lemma asb14_grows src1 src2 a d m1 m2 : asb_gives src1 (asb_with_m a m1) -> asb_gives src2 (asb_with_m a m2) ->
  (exists t, asb_choice a = Some (d, t)) -> 0 < a_v a -> 4 <= m1 -> m1 < m2 -> m2 <= 8 ->
  exists o1 o2, gmm_out (asb14 src1) o1 /\ gmm_out (asb14 src2) o2 /\ resp2 flt_lt o1 o2.
Proof.
  intros G1 G2 (t & E) Hv H1 H H2.
  exists (asb_outs (asb_with_m a m1) d t), (asb_outs (asb_with_m a m2) d t).
  split; [apply asb14_out; assumption|]. split; [apply asb14_out; assumption|].
  pose proof (asb_choice_in _ _ _ E) as T. destruct (asb_shape t T) as (c0 & c1 & l & -> & L & _).
  assert (I : incl (c0 :: c1 :: l) asb_all) by (apply asb_incl; exact T).
  pose proof (asb_shared_in _ c0 (c1 :: l) T eq_refl) as SH.
  cbn [asb_outs]. apply (row_resp_lt (c0 :: c1 :: l)); [intros c Hc; right; right; exact Hc|left; reflexivity|right; left; reflexivity|].
  intros c Hc. rewrite !asb_row_fin by (try apply I; auto; left; reflexivity). apply flt_lt_fin. unfold asb_val. cbn [asb_with_m a_m a_v a_mech].
  apply asb_grows; auto. apply SH. left; reflexivity.
Qed.
Lemma asb14_decays src1 src2 a d1 d2 : asb_gives src1 (asb_dist a d1) -> asb_gives src2 (asb_dist a d2) ->
  a_m a <= 8 -> 0 < a_v a -> 0 <= d1 -> d1 < d2 ->
  exists o1 o2, gmm_out (asb14 src1) o1 /\ gmm_out (asb14 src2) o2 /\ resp2 flt_lt o2 o1.
Proof.
  intros G1 G2 Hm Hv H1 H2. destruct (asb_dist_choice a d1) as (t & E1 & E). specialize (E d2).
  exists (asb_outs (asb_dist a d1) d1 t), (asb_outs (asb_dist a d2) d2 t).
  split; [apply asb14_out; assumption|]. split; [apply asb14_out; assumption|].
  pose proof (asb_choice_in _ _ _ E) as T. destruct (asb_shape t T) as (c0 & c1 & l & -> & L & _).
  assert (I : incl (c0 :: c1 :: l) asb_all) by (apply asb_incl; exact T).
  pose proof (asb_shared_in _ c0 (c1 :: l) T eq_refl) as SH.
  destruct (asb_dist_fields a d1) as (A1 & A2 & A3). destruct (asb_dist_fields a d2) as (B1 & B2 & B3).
  cbn [asb_outs]. apply (row_resp_lt (c0 :: c1 :: l)); [intros c Hc; right; right; exact Hc|left; reflexivity|right; left; reflexivity|].
  intros c Hc. rewrite !asb_row_fin by (try apply I; auto; try lra; left; reflexivity). apply flt_lt_fin. unfold asb_val. rewrite A1, A2, A3, B1, B2, B3.
  apply asb_decays; auto. apply SH. left; reflexivity.
Qed.
