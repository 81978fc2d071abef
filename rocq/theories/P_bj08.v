(** * Proofs for Baker & Jayaram (2008) *)
From Coquelicot Require Import Coquelicot.
From Interval Require Import Tactic.
From Coq Require Import List.
From Verif Require Import M_bj08 Anal Spec_cms Cont.
Open Scope R_scope.
Open Scope list_scope.

Lemma sin_le_1 x : sin x <= 1. Proof. apply SIN_bound. Qed.
Lemma sin_ge_m1 x : -1 <= sin x. Proof. apply SIN_bound. Qed.
Lemma cos_le_1 x : cos x <= 1. Proof. apply COS_bound. Qed.
Lemma cos_ge_m1 x : -1 <= cos x. Proof. apply COS_bound. Qed.
Lemma Rmax_109_pos x : 0 < Rmax x 0.109.
Proof. apply Rlt_le_trans with 0.109; [lra|apply Rmax_r]. Qed.
Lemma c1_nonneg lo hi : 0 <= bj_c1 lo hi.
Proof. unfold bj_c1. pose proof (sin_le_1 (0.366 * ln (hi / Rmax lo 0.109))). lra. Qed.
Lemma cos_quarter x : cos (PI / 2 - x) = sin x.
Proof. rewrite <- sin_shift. f_equal. lra. Qed.

Lemma bj_order t tc : Rmin t tc <= Rmax t tc.
Proof. unfold Rmin, Rmax; destruct (Rle_dec t tc); lra. Qed.
Lemma bj_correl_fin t tc : bj_ok t tc -> bj08_correl (Fin t) (Fin tc) = Fin (bj_rho t tc).
Proof.
  intros (H1 & H2 & H3). unfold bj08_correl. fcbn. pose proof (bj_order t tc) as O.
  assert (L : 0 <= Rmin t tc) by (unfold Rmin; destruct (Rle_dec t tc); lra).
  unfold bj_rho. set (lo := Rmin t tc) in *. set (hi := Rmax t tc) in *. cbv zeta.
  cbn [np_select].
  assert (X : forall z, 1 + exp z <> 0) by (intros z; pose proof (exp_pos z); lra).
  assert (C2 : hi < 0.2 -> (Fin 1 - Fin 0.105 * (Fin 1 - Fin 1 / Fin (1 + exp (100 * Rmin hi 0.2 - 5))) * Fin (hi - lo) / Fin (hi - 0.0099))%flt = Fin (bj_c2 lo hi)).
  { intros h. rewrite Rmin_left by lra. rewrite fdiv_fin by apply X. fcbn.
    rewrite fdiv_fin by lra. fcbn. unfold bj_c2. apply (f_equal Fin). unfold Rdiv. lra. }
  assert (C1 : 0 < hi -> (Fin 1 - fcos (Fin (PI / 2) - Fin 0.366 * flog (Fin hi / Fin (Rmax lo 0.109))))%flt = Fin (bj_c1 lo hi)).
  { intros h. pose proof (Rmax_109_pos lo) as P. rewrite fdiv_fin by lra. rewrite flog_fin by (apply Rdiv_lt_0_compat; lra).
    fcbn. unfold bj_c1. rewrite cos_quarter. reflexivity. }
  assert (C4 : (Fin (bj_c1 lo hi) + Fin 0.5 * (fsqrt (Fin (bj_c1 lo hi)) - Fin (bj_c1 lo hi)) * (Fin 1 + fcos (Fin (PI * lo) / Fin 0.109)))%flt = Fin (bj_c4 lo hi)).
  { rewrite fsqrt_fin by apply c1_nonneg. rewrite fdiv_fin by lra. fcbn. reflexivity. }
  destruct (Rlt_dec hi 0.109) as [A|A].
  - rewrite (Rltb_true hi 0.109) by lra. rewrite (Rltb_true hi 0.2) by lra. fcbn_in C2. apply C2; lra.
  - rewrite (Rltb_false hi 0.109) by lra. 
    assert (A' : 0 < hi) by lra. specialize (C1 A'). fcbn_in C1. rewrite !C1.
    destruct (Rlt_dec 0.109 lo) as [B|B]; [rewrite (Rltb_true 0.109 lo) by lra; reflexivity|].
    rewrite (Rltb_false 0.109 lo) by lra. fcbn_in C4. rewrite C4.
    destruct (Rlt_dec hi 0.2) as [D|D]; [rewrite (Rltb_true hi 0.2) by lra|rewrite (Rltb_false hi 0.2) by lra; reflexivity].
    specialize (C2 D). fcbn_in C2. rewrite C2. reflexivity.
Qed.

Lemma bj_rho_sym t1 t2 : bj_rho t1 t2 = bj_rho t2 t1.
Proof. unfold bj_rho. rewrite (Rmin_comm t1 t2), (Rmax_comm t1 t2). reflexivity. Qed.
Lemma fmin_comm x y : fmin x y = fmin y x.
Proof. destruct x, y; cbn; try reflexivity. rewrite Rmin_comm; reflexivity. Qed.
Lemma fmax_comm x y : fmax x y = fmax y x.
Proof. destruct x, y; cbn; try reflexivity. rewrite Rmax_comm; reflexivity. Qed.
Lemma bj_correl_sym x y : bj08_correl x y = bj08_correl y x.
Proof. unfold bj08_correl. rewrite (fmin_comm x y), (fmax_comm x y). reflexivity. Qed.
Lemma ln_ratio_same x : 0 < x -> ln (x / x) = 0.
Proof. intros H. replace (x / x) with 1 by (field; lra). apply ln_1. Qed.
Lemma bj_rho_diag t : bj_rho t t = 1.
Proof.
  unfold bj_rho. rewrite Rmin_left, Rmax_left by lra. cbv zeta.
  assert (C2 : bj_c2 t t = 1) by (unfold bj_c2; unfold Rdiv; rewrite Rminus_eq_0, Rmult_0_l, Rmult_0_r; lra).
  destruct (Rlt_dec t 0.109) as [A|A]; [exact C2|].
  assert (C1 : bj_c1 t t = 1) by (unfold bj_c1; rewrite Rmax_left, ln_ratio_same, Rmult_0_r, sin_0 by lra; lra).
  destruct (Rlt_dec 0.109 t); [exact C1|].
  assert (C4 : bj_c4 t t = 1) by (unfold bj_c4; rewrite C1, sqrt_1; lra).
  rewrite C2, C4. destruct (Rlt_dec t 0.2); [apply Rmin_left; lra|reflexivity].
Qed.
(** range *)
Lemma c2_range lo hi : 0.0099 <= lo -> lo <= hi -> 0.0099 < hi -> 0.895 <= bj_c2 lo hi <= 1.
Proof.
  intros H1 H2 H3. unfold bj_c2. pose proof (exp_pos (100 * hi - 5)) as P.
  set (e := exp (100 * hi - 5)) in *.
  assert (Q : 0 <= 1 - 1 / (1 + e) <= 1).
  { assert (1 / (1 + e) <= 1) by (apply Rmult_le_reg_r with (1 + e); [lra|]; unfold Rdiv; rewrite Rmult_assoc, Rinv_l by lra; lra).
    assert (0 < 1 / (1 + e)) by (apply Rdiv_lt_0_compat; lra). lra. }
  assert (T : 0 <= (hi - lo) / (hi - 0.0099) <= 1).
  { split; [apply Rmult_le_pos; [lra|left; apply Rinv_0_lt_compat; lra]|].
    apply Rmult_le_reg_r with (hi - 0.0099); [lra|]. unfold Rdiv. rewrite Rmult_assoc, Rinv_l by lra. lra. }
  set (q := 1 - 1 / (1 + e)) in *. set (u := (hi - lo) / (hi - 0.0099)) in *. nra.
Qed.
Lemma c1_range lo hi : lo <= hi -> 0.109 <= hi -> hi <= 500 -> 0 <= bj_c1 lo hi <= 1.
Proof.
  intros H1 H2 H3. split; [apply c1_nonneg|]. unfold bj_c1.
  assert (P := Rmax_109_pos lo). assert (M : Rmax lo 0.109 <= hi) by (apply Rmax_lub; lra).
  assert (M2 : 0.109 <= Rmax lo 0.109) by apply Rmax_r.
  assert (0 <= ln (hi / Rmax lo 0.109)).
  { apply ln_nonneg. apply Rmult_le_reg_r with (Rmax lo 0.109); [lra|]. unfold Rdiv. rewrite Rmult_assoc, Rinv_l by lra. lra. }
  assert (ln (hi / Rmax lo 0.109) <= ln (500 / 0.109)).
  { apply ln_le_mono; [apply Rdiv_lt_0_compat; lra|]. unfold Rdiv. apply Rmult_le_compat; try lra.
    left; apply Rinv_0_lt_compat; lra. apply Rinv_le_contravar; lra. }
  assert (0.366 * ln (500 / 0.109) <= PI) by (clear; interval with (i_prec 40)).
  pose proof (sin_ge_0 (0.366 * ln (hi / Rmax lo 0.109))) as S. assert (0 <= sin (0.366 * ln (hi / Rmax lo 0.109))) by (apply S; lra). lra.
Qed.
Lemma c4_range lo hi : lo <= hi -> 0.109 <= hi -> hi <= 500 -> bj_c1 lo hi <= bj_c4 lo hi <= 1.
Proof.
  intros H1 H2 H3. destruct (c1_range lo hi H1 H2 H3) as [A B]. unfold bj_c4.
  set (c := bj_c1 lo hi) in *. pose proof (cos_le_1 (PI * lo / 0.109)) as C1. pose proof (cos_ge_m1 (PI * lo / 0.109)) as C2.
  set (k := cos (PI * lo / 0.109)) in *.
  assert (S1 : sqrt c <= 1) by (rewrite <- sqrt_1; apply sqrt_le_1_alt; exact B).
  pose proof (sqrt_pos c) as S2. assert (S3 := sqrt_sqrt c A).
  assert (c <= sqrt c) by nra. nra.
Qed.
Lemma bj_rho_range t1 t2 : 0.0099 <= t1 <= 500 -> 0.0099 <= t2 <= 500 -> Rmax t1 t2 <> 0.0099 -> 0 <= bj_rho t1 t2 <= 1.
Proof.
  intros H1 H2 H3. unfold bj_rho. pose proof (bj_order t1 t2) as O.
  assert (L : 0.0099 <= Rmin t1 t2) by (unfold Rmin; destruct (Rle_dec t1 t2); lra).
  assert (U : Rmax t1 t2 <= 500) by (unfold Rmax; destruct (Rle_dec t1 t2); lra).
  set (lo := Rmin t1 t2) in *. set (hi := Rmax t1 t2) in *. cbv zeta.
  assert (C2 := c2_range lo hi L O ltac:(lra)).
  destruct (Rlt_dec hi 0.109); [lra|].
  assert (C1 := c1_range lo hi O ltac:(lra) U). assert (C4 := c4_range lo hi O ltac:(lra) U).
  destruct (Rlt_dec 0.109 lo); [lra|]. destruct (Rlt_dec hi 0.2); [|lra].
  unfold Rmin. destruct (Rle_dec (bj_c2 lo hi) (bj_c4 lo hi)); lra.
Qed.

(** *** Continuity: one formula for all branches *)
Definition bj_c4' (lo hi : R) : R :=
  bj_c1 lo hi + 0.5 * (sqrt (bj_c1 lo hi) - bj_c1 lo hi) * (1 + cos (PI * Rmin lo 0.109 / 0.109)).
Lemma sin_lower x : 0 <= x <= PI / 2 -> 2 / PI * x <= sin x.
Proof.
  intros [H1 H2]. pose proof PI_RGT_0 as P.
  destruct (Req_dec x 0) as [->|N]; [rewrite sin_0; lra|].
  destruct (Req_dec x (PI/2)) as [->|N2]; [rewrite sin_PI2; right; field; lra|].
  (* sin x / x is decreasing: x cos x < sin x *)
  assert (D : forall y, 0 < y < PI / 2 -> y * cos y < sin y).
  { intros y [Y1 Y2]. assert (Hc : 0 < cos y) by (apply cos_gt_0; lra).
    assert (K : 0 * cos 0 - sin 0 > y * cos y - sin y).
    { apply Rlt_gt. apply (decr_by_derive (fun t => t * cos t - sin t) (fun t => - t * sin t)); [lra| |].
      - intros t Ht. auto_derive; [exact I|]. ring.
      - intros t Ht. assert (0 < sin t) by (apply sin_gt_0; lra). nra. }
    rewrite sin_0, Rmult_0_l in K. lra. }
  assert (K : sin (PI/2) / (PI/2) < sin x / x).
  { apply (decr_by_derive (fun t => sin t / t) (fun t => (t * cos t - sin t) / (t * t))); [lra| |].
    - intros t Ht. auto_derive; [lra|]. field. lra.
    - intros t Ht. specialize (D t ltac:(lra)). assert (0 < / (t * t)) by (apply Rinv_0_lt_compat; nra). unfold Rdiv. nra. }
  rewrite sin_PI2 in K. replace (1 / (PI / 2)) with (2 / PI) in K by (field; lra).
  apply Rmult_le_reg_r with (/ x); [apply Rinv_0_lt_compat; lra|]. rewrite Rmult_assoc, Rinv_r by lra. unfold Rdiv in *. lra.
Qed.
Lemma c1_le_c2 lo hi : 0.109 <= lo -> lo <= hi -> hi <= 300 -> bj_c1 lo hi <= bj_c2 lo hi.
Proof.
  intros H1 H2 H3. unfold bj_c1, bj_c2. rewrite Rmax_left by lra.
  pose proof (exp_pos (100 * hi - 5)) as P. set (e := exp (100 * hi - 5)) in *.
  assert (Q : 0 <= 1 - 1 / (1 + e) <= 1).
  { assert (1 / (1 + e) <= 1) by (apply Rmult_le_reg_r with (1 + e); [lra|]; unfold Rdiv; rewrite Rmult_assoc, Rinv_l by lra; lra).
    assert (0 < 1 / (1 + e)) by (apply Rdiv_lt_0_compat; lra). lra. }
  set (q := 1 - 1 / (1 + e)) in *. clearbody q. clear e P.
  assert (T : 0 <= (hi - lo) / (hi - 0.0099) <= 1).
  { split; [apply Rmult_le_pos; [lra|left; apply Rinv_0_lt_compat; lra]|].
    apply Rmult_le_reg_r with (hi - 0.0099); [lra|]. unfold Rdiv. rewrite Rmult_assoc, Rinv_l by lra. lra. }
  assert (L0 : 0 <= ln (hi / lo)).
  { apply ln_nonneg. apply Rmult_le_reg_r with lo; [lra|]. unfold Rdiv. rewrite Rmult_assoc, Rinv_l by lra. lra. }
  assert (L1 : ln (hi / lo) <= ln (300 / 0.109)).
  { apply ln_le_mono; [apply Rdiv_lt_0_compat; lra|]. unfold Rdiv. apply Rmult_le_compat; try lra.
    left; apply Rinv_0_lt_compat; lra. apply Rinv_le_contravar; lra. }
  assert (L2 : (hi - lo) / (hi - 0.0099) <= 1.1 * ln (hi / lo)).
  { assert (A : (hi - lo) / hi <= ln (hi / lo)).
    { pose proof (exp_ineq1_le (ln (lo / hi))) as X. rewrite exp_ln in X by (apply Rdiv_lt_0_compat; lra).
      replace (ln (lo / hi)) with (- ln (hi / lo)) in X.
      2:{ rewrite <- ln_Rinv by (apply Rdiv_lt_0_compat; lra). f_equal. field. lra. }
      replace ((hi - lo) / hi) with (1 - lo / hi) by (field; lra). lra. }
    apply Rle_trans with (1.1 * ((hi - lo) / hi)); [|lra].
    replace (1.1 * ((hi - lo) / hi)) with ((hi - lo) * (1.1 * / hi)) by (unfold Rdiv; ring).
    apply Rmult_le_compat_l; [lra|].
    apply Rmult_le_reg_r with (hi * (hi - 0.0099)); [nra|].
    replace (/ (hi - 0.0099) * (hi * (hi - 0.0099))) with hi by (field; lra).
    replace (1.1 * / hi * (hi * (hi - 0.0099))) with (1.1 * (hi - 0.0099)) by (field; lra). lra. }
  set (u := (hi - lo) / (hi - 0.0099)) in *. set (x := 0.366 * ln (hi / lo)).
  assert (0.105 * q * u <= 0.105 * u) by nra.
  assert (S : 0.105 * u <= sin x); [|lra].
  assert (B : 0.366 * ln (300 / 0.109) <= PI - 0.2) by (clear; interval with (i_prec 40)).
  destruct (Rle_dec x (PI / 2)) as [C|C].
  - apply Rle_trans with (2 / PI * x); [|apply sin_lower; unfold x in *; lra].
    assert (0.63 <= 2 / PI) by (clear; interval with (i_prec 40)). unfold x in *. nra.
  - rewrite <- sin_PI_x. assert (PI - x >= 0.2) by (unfold x in *; lra).
    apply Rle_trans with (2 / PI * (PI - x)); [|apply sin_lower; lra].
    assert (0.63 <= 2 / PI) by (clear; interval with (i_prec 40)). nra.
Qed.
Lemma c4_short lo hi : 0.0099 < hi -> lo <= hi -> hi < 0.109 -> 1 <= bj_c4 lo hi.
Proof.
  intros H0 H1 H2. unfold bj_c4. assert (C : 1 <= bj_c1 lo hi).
  { unfold bj_c1. rewrite Rmax_right by lra.
    assert (ln (hi / 0.109) <= 0).
    { apply ln_nonpos. split; [apply Rdiv_lt_0_compat; lra|]. apply Rmult_le_reg_r with 0.109; [lra|]. unfold Rdiv. rewrite Rmult_assoc, Rinv_l by lra. lra. }
    assert (ln (0.0099 / 0.109) <= ln (hi / 0.109)) by (apply ln_le_mono; unfold Rdiv; lra).
    assert (-3 <= 0.366 * ln (0.0099 / 0.109)) by (clear; interval with (i_prec 40)).
    assert (3 < PI) by (clear; interval with (i_prec 40)).
    assert (0 <= sin (- (0.366 * ln (hi / 0.109)))) by (apply sin_ge_0; lra). rewrite sin_neg in *. lra. }
  set (c := bj_c1 lo hi) in *. pose proof (cos_le_1 (PI * lo / 0.109)) as C1. pose proof (cos_ge_m1 (PI * lo / 0.109)) as C2.
  set (k := cos (PI * lo / 0.109)) in *.
  assert (S1 : 1 <= sqrt c) by (rewrite <- sqrt_1; apply sqrt_le_1_alt; exact C).
  assert (S3 := sqrt_sqrt c ltac:(lra)). assert (sqrt c <= c) by nra. nra.
Qed.
Lemma c4_long lo hi : lo <= 0.109 -> 0.2 <= hi -> hi <= 300 -> bj_c4 lo hi <= 0.89.
Proof.
  intros H1 H2 H3. unfold bj_c4.
  assert (C : bj_c1 lo hi <= 0.79).
  { unfold bj_c1. rewrite Rmax_right by lra.
    assert (A : ln (0.2 / 0.109) <= ln (hi / 0.109)) by (apply ln_le_mono; unfold Rdiv; lra).
    assert (B : ln (hi / 0.109) <= ln (300 / 0.109)) by (apply ln_le_mono; unfold Rdiv; lra).
    assert (B1 : 0.366 * ln (300 / 0.109) <= 2.91) by (clear; interval with (i_prec 40)).
    assert (A1 : 0.221 <= 0.366 * ln (0.2 / 0.109)) by (clear; interval with (i_prec 40)).
    set (x := 0.366 * ln (hi / 0.109)) in *. assert (0.221 <= x <= 2.91) by (unfold x in *; lra). clearbody x.
    assert (0.21 <= sin x); [|lra]. clear - H. interval with (i_prec 40, i_bisect x). }
  assert (C0 := c1_nonneg lo hi).
  set (c := bj_c1 lo hi) in *. pose proof (cos_le_1 (PI * lo / 0.109)) as K1. pose proof (cos_ge_m1 (PI * lo / 0.109)) as K2.
  set (k := cos (PI * lo / 0.109)) in *.
  assert (S1 : sqrt c <= 0.889).
  { apply Rle_trans with (sqrt 0.79); [apply sqrt_le_1_alt; exact C|clear; interval with (i_prec 40)]. }
  pose proof (sqrt_pos c) as S2. assert (S3 := sqrt_sqrt c C0). assert (c <= sqrt c) by nra. nra.
Qed.
Lemma bj_rho_one t1 t2 : 0.0099 <= t1 <= 300 -> 0.0099 <= t2 <= 300 -> Rmax t1 t2 <> 0.0099 ->
  bj_rho t1 t2 = Rmin (bj_c2 (Rmin t1 t2) (Rmax t1 t2)) (bj_c4' (Rmin t1 t2) (Rmax t1 t2)).
Proof.
  intros H1 H2 H3. unfold bj_rho. pose proof (bj_order t1 t2) as O.
  assert (L : 0.0099 <= Rmin t1 t2) by (unfold Rmin; destruct (Rle_dec t1 t2); lra).
  assert (U : Rmax t1 t2 <= 300) by (unfold Rmax; destruct (Rle_dec t1 t2); lra).
  set (lo := Rmin t1 t2) in *. set (hi := Rmax t1 t2) in *. cbv zeta.
  assert (C2 := c2_range lo hi L O ltac:(lra)).
  assert (E4 : lo <= 0.109 -> bj_c4' lo hi = bj_c4 lo hi) by (intros h; unfold bj_c4', bj_c4; rewrite Rmin_left by lra; reflexivity).
  destruct (Rlt_dec hi 0.109).
  - rewrite E4 by lra. symmetry. apply Rmin_left. pose proof (c4_short lo hi). lra.
  - destruct (Rlt_dec 0.109 lo).
    + replace (bj_c4' lo hi) with (bj_c1 lo hi).
      * symmetry. apply Rmin_right. apply c1_le_c2; lra.
      * unfold bj_c4'. rewrite Rmin_right by lra. replace (PI * 0.109 / 0.109) with PI by (field; lra). rewrite cos_PI. lra.
    + rewrite E4 by lra. destruct (Rlt_dec hi 0.2); [reflexivity|]. symmetry. apply Rmin_right. pose proof (c4_long lo hi). lra.
Qed.
Lemma csin (f : R -> R) (x : R) : continuous f x -> continuous (fun t => sin (f t)) x.
Proof. intros H. apply (continuous_comp f sin); [exact H|]. apply continuous_sin. Qed.
Lemma ccos (f : R -> R) (x : R) : continuous f x -> continuous (fun t => cos (f t)) x.
Proof. intros H. apply (continuous_comp f cos); [exact H|]. apply continuous_cos. Qed.
Ltac cont_trig := repeat first [cont1 | match goal with
  | |- continuous (fun t => sin (@?f t)) _ => apply (csin f)
  | |- continuous (fun t => cos (@?f t)) _ => apply (ccos f) end]; cbv beta.
Lemma bj_rho_continuous t0 tc : 0.0099 < t0 < 300 -> 0.0099 <= tc <= 300 -> continuous (fun t => bj_rho t tc) t0.
Proof.
  intros H0 H1.
  apply (cext_near (fun t => Rmin (bj_c2 (Rmin t tc) (Rmax t tc)) (bj_c4' (Rmin t tc) (Rmax t tc))) _ _ (Rmin (t0 - 0.0099) (300 - t0))).
  - apply Rmin_pos; lra.
  - intros t Ht. symmetry.
    assert (A : Rabs (t - t0) < t0 - 0.0099) by (apply Rlt_le_trans with (1 := Ht), Rmin_l).
    assert (B : Rabs (t - t0) < 300 - t0) by (apply Rlt_le_trans with (1 := Ht), Rmin_r).
    apply Rabs_def2 in A. apply Rabs_def2 in B. apply bj_rho_one; try lra. unfold Rmax; destruct (Rle_dec t tc); lra.
  - unfold bj_c2, bj_c4', bj_c1.
    assert (P : Rmax t0 tc > 0.0099) by (unfold Rmax; destruct (Rle_dec t0 tc); lra).
    cont_trig; try lra; try (pose proof (exp_pos (100 * Rmax t0 tc - 5)); lra);
    try (pose proof (Rmax_109_pos (Rmin t0 tc)); first [lra | apply Rdiv_lt_0_compat; lra]).
Qed.

(** *** Decay with separation *)
Lemma c1_decay lo1 hi1 lo2 hi2 : 0 < hi1 -> 0 < hi2 -> hi1 / Rmax lo1 0.109 < hi2 / Rmax lo2 0.109 ->
  1 <= hi1 / Rmax lo1 0.109 -> hi2 / Rmax lo2 0.109 <= 73 -> bj_c1 lo2 hi2 < bj_c1 lo1 hi1.
Proof.
  intros P1 P2 H H1 H2. unfold bj_c1.
  set (u := hi1 / Rmax lo1 0.109) in *. set (v := hi2 / Rmax lo2 0.109) in *. clearbody u v.
  assert (0.366 * ln 73 <= PI / 2) by (clear; interval with (i_prec 40)).
  assert (ln u < ln v) by (apply ln_increasing; lra). assert (ln v <= ln 73) by (apply ln_le_mono; lra).
  assert (0 <= ln u) by (apply ln_nonneg; lra).
  assert (sin (0.366 * ln u) < sin (0.366 * ln v)) by (apply sin_increasing_1; lra). lra.
Qed.
Lemma c4_mono lo hi1 hi2 : bj_c1 lo hi2 < bj_c1 lo hi1 -> lo <= 0.109 -> 0 <= lo -> bj_c4 lo hi2 < bj_c4 lo hi1.
Proof.
  intros H Hl H0. unfold bj_c4. pose proof (c1_nonneg lo hi2) as P. pose proof (c1_nonneg lo hi1) as P'.
  set (c := bj_c1 lo hi2) in *. set (d := bj_c1 lo hi1) in *.
  pose proof (cos_le_1 (PI * lo / 0.109)) as K1. pose proof (cos_ge_m1 (PI * lo / 0.109)) as K2.
  set (k := cos (PI * lo / 0.109)) in *.
  assert (sqrt c < sqrt d) by (apply sqrt_lt_1_alt; lra).
  assert ((d - c) * (1 - 0.5 * (1 + k)) + 0.5 * (1 + k) * (sqrt d - sqrt c) > 0); [|lra].
  assert (0 <= 0.5 * (1 + k) <= 1) by lra. set (w := 0.5 * (1 + k)) in *. clearbody w.
  destruct (Req_dec w 0) as [->|]; [lra|]. nra.
Qed.
Lemma rho_longer tc t1 t2 : 0 <= tc -> 0.2 <= t1 -> tc <= t1 -> t1 < t2 -> t2 <= 73 * Rmax tc 0.109 -> bj_rho t2 tc < bj_rho t1 tc.
Proof.
  intros H0 H1 H2 H3 H4. assert (P := Rmax_109_pos tc).
  assert (C : bj_c1 tc t2 < bj_c1 tc t1).
  { apply c1_decay; try lra; unfold Rdiv.
    - apply Rmult_lt_compat_r; [apply Rinv_0_lt_compat; lra|lra].
    - apply Rmult_le_reg_r with (Rmax tc 0.109); [lra|]. rewrite Rmult_assoc, Rinv_l by lra. rewrite Rmult_1_l, Rmult_1_r. apply Rmax_lub; lra.
    - apply Rmult_le_reg_r with (Rmax tc 0.109); [lra|]. rewrite Rmult_assoc, Rinv_l by lra. lra. }
  unfold bj_rho. rewrite (Rmin_right t2), (Rmin_right t1), (Rmax_left t2), (Rmax_left t1) by lra. cbv zeta.
  destruct (Rlt_dec t2 0.109); [lra|]. destruct (Rlt_dec t1 0.109); [lra|].
  destruct (Rlt_dec 0.109 tc); [exact C|].
  destruct (Rlt_dec t2 0.2); [lra|]. destruct (Rlt_dec t1 0.2); [lra|]. apply c4_mono; lra.
Qed.
Lemma rho_shorter tc t1 t2 : 0.109 < t1 -> t1 < t2 -> t2 <= tc -> tc <= 73 * t1 -> bj_rho t1 tc < bj_rho t2 tc.
Proof.
  intros H1 H2 H3 H4.
  assert (C : bj_c1 t1 tc < bj_c1 t2 tc).
  { apply c1_decay; try lra; rewrite ?(Rmax_left t1), ?(Rmax_left t2) by lra; unfold Rdiv.
    - apply Rmult_lt_compat_l; [lra|]. apply Rinv_lt_contravar; [nra|lra].
    - apply Rmult_le_reg_r with t2; [lra|]. rewrite Rmult_assoc, Rinv_l by lra. lra.
    - apply Rmult_le_reg_r with t1; [lra|]. rewrite Rmult_assoc, Rinv_l by lra. lra. }
  unfold bj_rho. rewrite (Rmin_left t2), (Rmin_left t1), (Rmax_right t2), (Rmax_right t1) by lra. cbv zeta.
  destruct (Rlt_dec tc 0.109); [lra|]. destruct (Rlt_dec 0.109 t1); [|lra]. destruct (Rlt_dec 0.109 t2); [|lra]. exact C.
Qed.
Lemma rho_rises : bj_rho 9 0.12 < bj_rho 10 0.12.
Proof.
  unfold bj_rho. rewrite (Rmin_right 9), (Rmin_right 10), (Rmax_left 9), (Rmax_left 10) by lra. cbv zeta.
  repeat (destruct (Rlt_dec _ _); try lra). unfold bj_c1. rewrite !Rmax_left by lra. clear. interval with (i_prec 40).
Qed.
Lemma rho_above_one : bj_rho 0.005 0.0098 > 1.
Proof.
  unfold bj_rho. rewrite Rmin_left, Rmax_right by lra. cbv zeta. destruct (Rlt_dec _ _); [|lra].
  unfold bj_c2. apply Rlt_gt. clear. interval with (i_prec 40).
Qed.

(** *** Interpolation *)
From Verif Require Import FrameworkProofs NpProofs.
Lemma increasing_incr l : increasing l -> incr l.
Proof. induction l as [|x [|y l] IH]; cbn; auto. Qed.
Section Interp.
  Context {A0 : Type}.
  Variables kx ky : A0 -> R.
  Notation knot := (fun c => Fin (kx c)). Notation val := (fun c => Fin (ky c)).
  Lemma seg_linear : forall rest c0 x, incr (map kx (c0 :: rest)) -> kx c0 <= x -> x <= kx (last rest c0) ->
    exists y, ((exists c, In c (c0 :: rest) /\ kx c = x /\ y = ky c) \/
               (exists pre c d post, c0 :: rest = pre ++ c :: d :: post /\ kx c < x < kx d /\
                  y = ky c + (ky d - ky c) * ((x - kx c) / (kx d - kx c)))) /\
      seg_interp (Fin (kx c0)) (Fin (ky c0)) (combine (map knot rest) (map val rest)) (Fin x) = Fin y.
  Proof.
    induction rest as [|c1 rest IH]; intros c0 x Hinc Hlo Hhi.
    - exists (ky c0). split; [left; exists c0; split; [left; reflexivity|]; split; [cbn in Hhi; lra|reflexivity]|reflexivity].
    - destruct Hinc as [H01 Hinc].
      destruct (Rle_dec x (kx c1)) as [Hx|Hx].
      + assert (E : line (Fin (kx c0)) (Fin (ky c0)) (Fin (kx c1)) (Fin (ky c1)) (Fin x) =
          Fin (ky c0 + (ky c1 - ky c0) * ((x - kx c0) / (kx c1 - kx c0)))).
        { unfold line. fcbn. rewrite fdiv_fin by lra. fcbn. f_equal. field. lra. }
        exists (ky c0 + (ky c1 - ky c0) * ((x - kx c0) / (kx c1 - kx c0))). split.
        * destruct (Req_dec x (kx c0)) as [->|N0].
          { left. exists c0. split; [left; reflexivity|]. split; [reflexivity|]. unfold Rdiv. rewrite Rminus_eq_0. lra. }
          destruct (Req_dec x (kx c1)) as [->|N1].
          { left. exists c1. split; [right; left; reflexivity|]. split; [reflexivity|]. field. lra. }
          right. exists [], c0, c1, rest. split; [reflexivity|]. split; [lra|reflexivity].
        * destruct rest as [|c2 rest]; cbn [map combine seg_interp]; [exact E|].
          rewrite fleb_fin, Rleb_true by lra. exact E.
      + destruct rest as [|c2 rest]; [cbn in Hhi; lra|].
        destruct (IH c1 x Hinc ltac:(lra)) as (y & Hy & HF).
        { rewrite last_step in Hhi. exact Hhi. }
        exists y. split.
        * destruct Hy as [(c & Hc & K & ->)|(pre & c & d & post & Ea & K & ->)].
          { left. exists c. split; [right; exact Hc|]. split; [exact K|reflexivity]. }
          right. exists (c0 :: pre), c, d, post. split; [rewrite Ea; reflexivity|]. split; [exact K|reflexivity].
        * cbn [map combine seg_interp]. rewrite fleb_fin, Rleb_false by lra. exact HF.
  Qed.
  Lemma last_app_end (rest : list A0) : forall c0, exists pre, c0 :: rest = pre ++ [last rest c0].
  Proof.
    induction rest as [|c1 rest IH]; intros c0; [exists []; reflexivity|].
    destruct (IH c1) as (pre & E). exists (c0 :: pre). rewrite last_step, E. reflexivity.
  Qed.
  Lemma np_interp_linear l t : l <> [] -> incr (map kx l) ->
    exists y, linear_at kx ky l t y /\ np_interp (col kx l) (col ky l) (Fin t) = Fin y.
  Proof.
    intros N Hinc. destruct l as [|c0 rest]; [contradiction|]. unfold np_interp, np_interp_lr, col. cbn [map combine].
    pose proof (last_combine_map kx val rest c0) as LC. cbv beta in LC. rewrite LC. rewrite !fltb_fin.
    destruct (Rltb_spec t (kx c0)) as [A|A].
    { exists (ky c0). split; [|reflexivity]. right; right; left. exists c0, rest. auto. }
    destruct (Rltb_spec (kx (last rest c0)) t) as [B|B].
    { exists (ky (last rest c0)). split; [|reflexivity]. right; right; right. destruct (last_app_end rest c0) as (pre & E).
      exists pre, (last rest c0). auto. }
    destruct (seg_linear rest c0 t Hinc A B) as (y & Hy & HF). exists y. split; [|exact HF].
    destruct Hy as [H|H]; [left; exact H|right; left; exact H].
  Qed.
End Interp.

(** *** Conditional mean spectrum *)
Lemma combine_map2 {A B C} (f : A -> B) (g : A -> C) l : combine (map f l) (map g l) = map (fun a => (f a, g a)) l.
Proof. induction l as [|a l IH]; cbn; [reflexivity|rewrite IH; reflexivity]. Qed.
Definition cms_eps (l : list ordinate) (tc target : R) : flt :=
  ((Fin target - np_interp (col o_t l) (col o_m l) (Fin tc)) / np_interp (col o_t l) (col o_s l) (Fin tc))%flt.
Definition cms_mean (tc : R) (e : flt) (c : ordinate) : flt := (Fin (o_m c) + Fin (o_s c) * bj08_correl (Fin (o_t c)) (Fin tc) * e)%flt.
Definition cms_std (tc : R) (c : ordinate) : flt := fsqrt (fsq (Fin (o_s c)) * (Fin 1 - fsq (bj08_correl (Fin (o_t c)) (Fin tc))))%flt.
Lemma cms_rows l tc target : l <> [] ->
  bj08_cms (col o_t l) (col o_m l) (col o_s l) (Fin tc) (Fin target) =
  Ok (map (cms_mean tc (cms_eps l tc target)) l, map (cms_std tc) l).
Proof.
  intros N. unfold bj08_cms, bj08_correls, col. rewrite !map_length.
  destruct (Nat.eqb_spec (List.length l) 0) as [E|E]; [destruct l; [contradiction|discriminate]|].
  rewrite Nat.eqb_refl. cbn [orb negb]. rewrite map_map. rewrite !combine_map2, !map_map. reflexivity.
Qed.
Lemma cms_std_fin tc c : 0.0099 <= o_t c <= 500 -> 0.0099 <= tc <= 500 -> Rmax (o_t c) tc <> 0.0099 -> 0 <= o_s c ->
  cms_std tc c = Fin (o_s c * sqrt (1 - bj_rho (o_t c) tc ^ 2)).
Proof.
  intros H1 H2 H3 H4. unfold cms_std. rewrite bj_correl_fin by (split; [|split]; lra || assumption). fcbn.
  pose proof (bj_rho_range _ _ H1 H2 H3) as B. set (r := bj_rho (o_t c) tc) in *.
  assert (X1 : 0 <= o_s c * o_s c) by (apply Rmult_le_pos; lra). assert (X2 : 0 <= 1 - r * r) by (clear - B; nra). rewrite fsqrt_fin by (apply Rmult_le_pos; lra). apply (f_equal Fin). rewrite sqrt_mult by lra. rewrite sqrt_square by lra. f_equal. f_equal. ring.
Qed.
Lemma cms_published l tc target : l <> [] -> spectrum_ok l -> 0.01 <= tc <= 300 ->
  exists mc sc, linear_at o_t o_m l tc mc /\ linear_at o_t o_s l tc sc /\
    (sc <> 0 -> bj08_cms (col o_t l) (col o_m l) (col o_s l) (Fin tc) (Fin target) =
       Ok (map (fun c => Fin (o_m c + o_s c * bj_rho (o_t c) tc * ((target - mc) / sc))) l,
           map (fun c => Fin (o_s c * sqrt (1 - bj_rho (o_t c) tc ^ 2))) l)).
Proof.
  intros N [I F] T. apply increasing_incr in I.
  destruct (np_interp_linear o_t o_m l tc N I) as (mc & L1 & E1). destruct (np_interp_linear o_t o_s l tc N I) as (sc & L2 & E2).
  exists mc, sc. split; [exact L1|]. split; [exact L2|]. intros Z. rewrite cms_rows by exact N.
  rewrite Forall_forall in F.
  f_equal. f_equal; apply map_ext_in; intros c Hc; destruct (F c Hc) as [Ft Fs];
    assert (Rmax (o_t c) tc <> 0.0099) by (unfold Rmax; destruct (Rle_dec (o_t c) tc); lra).
  - unfold cms_mean, cms_eps. rewrite E1, E2. rewrite bj_correl_fin by (split; [|split]; lra || assumption).
    fcbn. rewrite fdiv_fin by exact Z. reflexivity.
  - apply cms_std_fin; lra || assumption.
Qed.
Lemma Forall_In_map {A B} (f : A -> B) (P : B -> Prop) l c : Forall P (map f l) -> In c l -> P (f c).
Proof. intros H Hc. rewrite Forall_forall in H. apply H, in_map, Hc. Qed.
Lemma cms_target l tc target j c : increasing (map o_t l) -> nth_error l j = Some c -> o_t c = tc -> 0 <= tc -> tc <> 0.0099 -> o_s c <> 0 ->
  exists means stds, bj08_cms (col o_t l) (col o_m l) (col o_s l) (Fin tc) (Fin target) = Ok (means, stds) /\
    nth_error means j = Some (Fin target) /\ nth_error stds j = Some (Fin 0).
Proof.
  intros I Hj <- H0 H9 Hs. apply increasing_incr in I. assert (Hc := nth_error_In _ _ Hj).
  assert (N : l <> []) by (intros ->; destruct Hc).
  eexists _, _. split; [apply cms_rows, N|]. rewrite !nth_error_map, Hj. cbn [option_map].
  assert (D : bj08_correl (Fin (o_t c)) (Fin (o_t c)) = Fin 1).
  { rewrite bj_correl_fin by (split; [|split]; try lra; rewrite Rmax_left by lra; exact H9). rewrite bj_rho_diag. reflexivity. }
  unfold cms_mean, cms_std, cms_eps, col. rewrite D.
  rewrite !(np_interp_knot o_t l c _ _ I Hc (fun _ _ => eq_refl)). fcbn. rewrite fdiv_fin by exact Hs. fcbn. split.
  - f_equal. apply (f_equal Fin). field. exact Hs.
  - rewrite fsqrt_fin by (right; ring). f_equal. apply (f_equal Fin). replace (_ * _) with 0 by ring. apply sqrt_0.
Qed.
Lemma cms_reduces l tc target means stds : spectrum_ok l -> 0.01 <= tc <= 300 ->
  bj08_cms (col o_t l) (col o_m l) (col o_s l) (Fin tc) (Fin target) = Ok (means, stds) ->
  Forall2 (fun y c => exists x, y = Fin x /\ 0 <= x <= o_s c) stds l.
Proof.
  intros [I F] T E. destruct l as [|c0 l0] eqn:El; [discriminate|]. rewrite <- El in *.
  rewrite cms_rows in E by (rewrite El; discriminate). injection E as _ <-.
  rewrite Forall_forall in F. clear - F T. induction l as [|c l IH]; cbn; constructor.
  - destruct (F c (or_introl eq_refl)) as [Ft Fs].
    assert (M : Rmax (o_t c) tc <> 0.0099) by (unfold Rmax; destruct (Rle_dec (o_t c) tc); lra).
    eexists. split; [apply cms_std_fin; lra || assumption|].
    pose proof (bj_rho_range (o_t c) tc ltac:(lra) ltac:(lra) M) as B. set (r := bj_rho (o_t c) tc) in *.
    assert (sqrt (1 - r ^ 2) <= 1) by (rewrite <- sqrt_1 at 2; apply sqrt_le_1_alt; nra).
    pose proof (sqrt_pos (1 - r ^ 2)). nra.
  - apply IH. intros x Hx; apply F; right; exact Hx.
Qed.
Lemma cms_shape ps ms ss tc target : ps = [] \/ List.length ms <> List.length ps \/ List.length ss <> List.length ps ->
  bj08_cms ps ms ss tc target = Raise EValue.
Proof.
  intros H. unfold bj08_cms. destruct (Nat.eqb_spec (List.length ps) 0) as [E|E]; [reflexivity|]. cbn [orb].
  destruct (Nat.eqb_spec (List.length ms) (List.length ps)); [|reflexivity]. destruct (Nat.eqb_spec (List.length ss) (List.length ps)); [|reflexivity].
  destruct H as [->|[H|H]]; [exfalso; apply E; reflexivity|contradiction|contradiction].
Qed.
