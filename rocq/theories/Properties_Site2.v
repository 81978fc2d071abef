(** * C148: softer sites in ASB14, AGA16 and COP14

    Vocabulary: Spec_asb14.v, Spec_sub.v, Outs.v, Outs1.v. *)
From Coquelicot Require Import Coquelicot.
From Coq Require Import List Lia.
From Interval Require Import Tactic.
From Verif Require Import M_asb14 M_aga16 Anal Nga Outs Outs1 Cont Cont1 Spec_asb14 Spec_sub P_asb14 P_aga16 P_aga16b.
Open Scope R_scope.
Open Scope string_scope.
Open Scope list_scope.

(** At every period of at least [T0], the second list lies below the first. *)
Definition lower_from (T0 : R) (periods : list R) (l1 l2 : list flt) : Prop :=
  forall i T y1 y2, nth_error periods i = Some T -> nth_error l1 i = Some y1 -> nth_error l2 i = Some y2 -> T0 <= T -> flt_lt y2 y1.
Lemma lower_map {A} (period : A -> R) rows (f1 f2 : A -> flt) T0 : (forall c, In c rows -> T0 <= period c -> flt_lt (f2 c) (f1 c)) -> lower_from T0 (map period rows) (map f1 rows) (map f2 rows).
Proof.
  intros H i T y1 y2. rewrite !nth_error_map. destruct (nth_error rows i) as [c|] eqn:E; [|discriminate]. cbn [option_map].
  intros P1 P2 P3 HT. injection P1 as <-. injection P2 as <-. injection P3 as <-. apply H; [apply nth_error_In in E; exact E|exact HT].
Qed.

(** ** The common site function of x = ln(v / reference) *)
Definition sitef (t b n c p x : R) : R := t * x + b * ln (p + c * exp (n * x)).
Lemma sitef_d t b n c p x : 0 < p -> 0 < c -> is_derive (sitef t b n c p) x (t + b * (n * c * exp (n * x)) / (p + c * exp (n * x))).
Proof.
  intros Hp Hc. unfold sitef. pose proof (exp_pos (n * x)). assert (0 < c * exp (n * x)) by (apply Rmult_lt_0_compat; lra). auto_derive; [lra|]. field. lra.
Qed.
Lemma slope_eq t b n c p e : 0 < p + c * e -> t + b * (n * c * e) / (p + c * e) = (t * p + (t + b * n) * (c * e)) / (p + c * e).
Proof. intros H. field. lra. Qed.
Lemma sitef_decr t b n c p x1 x2 : 0 < p -> 0 < c -> 0 < n -> t + b * n <= 0 -> t * p + (t + b * n) * (c * exp (n * x1)) < 0 -> x1 < x2 -> sitef t b n c p x2 < sitef t b n c p x1.
Proof.
  intros Hp Hc Hn K N H. apply (decr_by_derive (sitef t b n c p) (fun x => t + b * (n * c * exp (n * x)) / (p + c * exp (n * x)))); [exact H|intros; apply sitef_d; assumption|].
  intros x [X1 X2]. pose proof (exp_pos (n * x)). assert (0 < c * exp (n * x)) by (apply Rmult_lt_0_compat; lra). rewrite slope_eq by lra.
  assert (E : c * exp (n * x1) <= c * exp (n * x)). { apply Rmult_le_compat_l; [lra|]. apply exp_le_mono. apply Rmult_le_compat_l; lra. }
  assert (t * p + (t + b * n) * (c * exp (n * x)) < 0). { generalize dependent (c * exp (n * x)). generalize dependent (c * exp (n * x1)). intros; nra. }
  apply (Rmult_lt_reg_r (p + c * exp (n * x))); [lra|]. unfold Rdiv. rewrite Rmult_assoc, Rinv_l by lra. lra.
Qed.
Lemma sitef_incr t b n c p x1 x2 : 0 < p -> 0 < c -> 0 < n -> t + b * n <= 0 -> 0 < t * p + (t + b * n) * (c * exp (n * x2)) -> x1 < x2 -> sitef t b n c p x1 < sitef t b n c p x2.
Proof.
  intros Hp Hc Hn K N H. apply (incr_by_derive (sitef t b n c p) (fun x => t + b * (n * c * exp (n * x)) / (p + c * exp (n * x)))); [exact H|intros; apply sitef_d; assumption|].
  intros x [X1 X2]. pose proof (exp_pos (n * x)). assert (0 < c * exp (n * x)) by (apply Rmult_lt_0_compat; lra). rewrite slope_eq by lra.
  assert (E : c * exp (n * x) <= c * exp (n * x2)). { apply Rmult_le_compat_l; [lra|]. apply exp_le_mono. apply Rmult_le_compat_l; lra. }
  assert (0 < t * p + (t + b * n) * (c * exp (n * x))). { generalize dependent (c * exp (n * x)). generalize dependent (c * exp (n * x2)). intros; nra. }
  apply Rdiv_lt_0_compat; lra.
Qed.
Lemma ln_div_lt v1 v2 w : 0 < v1 -> v1 < v2 -> 0 < w -> ln (v1 / w) < ln (v2 / w).
Proof. intros. apply ln_increasing; [apply Rdiv_lt_0_compat; lra|]. apply Rmult_lt_compat_r; [apply Rinv_0_lt_compat; lra|lra]. Qed.

(** ** ASB14 *)
Lemma asb_site_f c p v : In c asb_all -> 0 < p -> 0 < v -> v <= 750 ->
  asb_site_val c p v = sitef (Q2R (asb14_b_1 c) - Q2R (asb14_b_2 c) * Q2R (asb14_n c)) (Q2R (asb14_b_2 c)) (Q2R (asb14_n c)) (Q2R (asb14_c c)) p (ln (v / 750)) - Q2R (asb14_b_2 c) * ln (p + Q2R (asb14_c c)).
Proof.
  intros Hc Hp Hv L. row_pos Hc (fun c => asb14_c c) as AC. assert (AC' : 0 < Q2R (asb14_c c)) by lra. unfold asb_site_val, sitef. destruct (Rle_dec v 750); [|contradiction].
  unfold Rpower. set (x := ln (v / 750)). set (n := Q2R (asb14_n c)). pose proof (exp_pos (n * x)) as E. assert (0 < Q2R (asb14_c c) * exp (n * x)) by (apply Rmult_lt_0_compat; lra).
  unfold Rdiv. rewrite ln_mult; [|lra|apply Rinv_0_lt_compat, Rmult_lt_0_compat; lra]. rewrite ln_Rinv by (apply Rmult_lt_0_compat; lra). rewrite ln_mult by lra. rewrite ln_exp. ring.
Qed.
Lemma asb_site_softer c p v1 v2 : In c asb_all -> 0 < p -> 180 <= v1 -> v1 < v2 -> v2 <= 1000 ->
  p <= 0.008 \/ Q2R (asb14_b_1 c) - Q2R (asb14_b_2 c) * Q2R (asb14_n c) < 0 -> asb_site_val c p v2 < asb_site_val c p v1.
Proof.
  intros Hc Hp H1 H12 H2 W. row_is Hc (fun c => asb14_n c) (32#10)%Q as N. row_is Hc (fun c => asb14_c c) (25#10)%Q as C. row_is Hc (fun c => asb14_v_con c) (1000#1)%Q as VC.
  row_lt Hc (fun c => asb14_b_1 c) (fun _ : asb14_row => (0#1)%Q) as B1.
  (** the slope is negative at the slowest site *)
  row_lt Hc (fun c => Qminus (Qmult (8#1000) (Qminus (asb14_b_1 c) (Qmult (asb14_b_2 c) (32#10)))) (Qmult (Qopp (asb14_b_1 c)) (2575#100000)))%Q (fun _ : asb14_row => (0#1)%Q) as SL.
  rewrite ?Q2R_minus, ?Q2R_mult, ?Q2R_opp, ?Q2R_minus, ?Q2R_mult in SL.
  assert (NP : forall v, 0 < v -> v <= 750 -> asb_site_val c p v = sitef (Q2R (asb14_b_1 c) - Q2R (asb14_b_2 c) * Q2R (asb14_n c)) (Q2R (asb14_b_2 c)) (Q2R (asb14_n c)) (Q2R (asb14_c c)) p (ln (v / 750)) - Q2R (asb14_b_2 c) * ln (p + Q2R (asb14_c c))) by (intros; apply asb_site_f; auto).
  assert (SD : forall v v', 180 <= v -> v < v' -> v' <= 750 -> asb_site_val c p v' < asb_site_val c p v).
  { intros v v' L1 L2 L3. rewrite !NP by lra. apply Rplus_lt_compat_r. apply sitef_decr; [lra|lra|lra|lra| |apply ln_div_lt; lra].
    assert (E : 0.0103 <= exp (Q2R (asb14_n c) * ln (v / 750))).
    { apply Rle_trans with (exp (3.2 * ln (180 / 750))); [clear; interval with (i_prec 40)|]. apply exp_le_mono. replace (Q2R (asb14_n c)) with 3.2 by lra. apply Rmult_le_compat_l; [lra|].
      destruct (Req_dec v 180) as [->|]; [lra|left; apply ln_div_lt; lra]. }
    set (e := exp (Q2R (asb14_n c) * ln (v / 750))) in *. replace (Q2R (asb14_c c)) with 2.5 by lra. replace (Q2R (asb14_n c)) with 3.2 in * by lra.
    replace (Q2R (asb14_b_1 c) - Q2R (asb14_b_2 c) * 3.2 + Q2R (asb14_b_2 c) * 3.2) with (Q2R (asb14_b_1 c)) by ring.
    destruct W as [W|W].
    - clearbody e. set (b1 := Q2R (asb14_b_1 c)) in *. set (b2 := Q2R (asb14_b_2 c)) in *. clearbody b1 b2.
      destruct (Rle_dec (b1 - b2 * 3.2) 0); [nra|].
      assert ((b1 - b2 * 3.2) * p <= (b1 - b2 * 3.2) * 0.008) by (apply Rmult_le_compat_l; lra). assert (b1 * (2.5 * e) <= b1 * 0.02575) by nra. lra.
    - clearbody e. set (b1 := Q2R (asb14_b_1 c)) in *. set (b2 := Q2R (asb14_b_2 c)) in *. clearbody b1 b2. nra. }
  assert (SR : forall v v', 750 <= v -> v < v' -> v' <= 1000 -> Q2R (asb14_b_1 c) * ln (v' / 750) < Q2R (asb14_b_1 c) * ln (v / 750)).
  { intros v v' L1 L2 L3. pose proof (ln_div_lt v v' 750 ltac:(lra) L2 ltac:(lra)). nra. }
  assert (HI : forall v, 750 <= v <= 1000 -> asb_site_val c p v = Q2R (asb14_b_1 c) * ln (v / 750)).
  { intros v Hv. rewrite asb_site_as_min by (auto; lra). rewrite (Rmin_left v (Q2R (asb14_v_con c))), (Rmin_right v 750) by lra. replace (750 / 750) with 1 by lra.
    unfold Rpower. rewrite ln_1, Rmult_0_r, exp_0, !Rmult_1_r. unfold Rdiv at 2. rewrite Rinv_r by lra. rewrite ln_1. ring. }
  destruct (Rle_dec v2 750) as [L2|L2]; [apply SD; lra|]. destruct (Rle_dec 750 v1) as [L1|L1].
  - rewrite !HI by lra. apply SR; lra.
  - apply Rlt_trans with (asb_site_val c p 750); [|apply SD; lra]. rewrite (HI v2), (HI 750) by lra. apply SR; lra.
Qed.
Lemma asb_site_harder c p v1 v2 : In c asb_all -> asb14_b_1 c = (-41997 # 100000)%Q -> asb14_b_2 c = (-28846 # 100000)%Q -> 0.25 <= p -> 180 <= v1 -> v1 < v2 -> v2 <= 360 ->
  asb_site_val c p v1 < asb_site_val c p v2.
Proof.
  intros Hc E1 E2 Hp H1 H12 H2. row_is Hc (fun c => asb14_n c) (32#10)%Q as N. row_is Hc (fun c => asb14_c c) (25#10)%Q as C.
  rewrite !asb_site_f by (auto; lra). apply Rplus_lt_compat_r. assert (B1 : Q2R (asb14_b_1 c) = -0.41997) by (rewrite E1; unfold Q2R; cbn; lra). assert (B2 : Q2R (asb14_b_2 c) = -0.28846) by (rewrite E2; unfold Q2R; cbn; lra).
  rewrite B1, B2. apply sitef_incr; [lra|lra|lra|lra| |apply ln_div_lt; lra].
  assert (E : exp (Q2R (asb14_n c) * ln (v2 / 750)) <= 0.0956).
  { apply Rle_trans with (exp (3.2 * ln (360 / 750))); [|clear; interval with (i_prec 40)]. apply exp_le_mono. replace (Q2R (asb14_n c)) with 3.2 by lra. apply Rmult_le_compat_l; [lra|].
    destruct (Req_dec v2 360) as [->|]; [lra|left; apply ln_div_lt; lra]. }
  set (e := exp (Q2R (asb14_n c) * ln (v2 / 750))) in *. replace (Q2R (asb14_c c)) with 2.5 by lra. replace (Q2R (asb14_n c)) with 3.2 by lra. clearbody e. nra.
Qed.
Theorem C148_asb14 : forall rock src1 src2 a d t v1 v2, asb_gives rock (asb_with_v a 750) -> asb_gives src1 (asb_with_v a v1) -> asb_gives src2 (asb_with_v a v2) ->
  asb_choice a = Some (d, t) -> 180 <= v1 -> v1 < v2 -> v2 <= 1000 ->
  exists o0 o1 o2 p, gmm_out (asb14 rock) o0 /\ gmm_out (asb14 src1) o1 /\ gmm_out (asb14 src2) o2 /\ o_pga o0 = Fin p /\
    (p <= 0.008 -> resp2 flt_lt o2 o1) /\ flt_lt (o_pgv o2) (o_pgv o1) /\
    lower_from 0.65 (map (fun c => Q2R (asb14_period c)) (skipn 2 t)) (o_sa o1) (o_sa o2) /\
    (v2 <= 360 -> 0.25 <= p -> flt_lt (o_pga o1) (o_pga o2)).
Proof.
  intros rock src1 src2 a d t v1 v2 G0 G1 G2 E H1 H12 H2. pose proof (asb_choice_in _ _ _ E) as T. destruct (asb_shape t T) as (c0 & c1 & l & -> & L & _).
  assert (I : incl (c0 :: c1 :: l) asb_all) by (apply asb_incl; exact T).
  assert (K : asb14_b_1 c0 = (-41997 # 100000)%Q /\ asb14_b_2 c0 = (-28846 # 100000)%Q /\ Q2R (asb14_b_1 c1) - Q2R (asb14_b_2 c1) * Q2R (asb14_n c1) < 0).
  { clear - T. destruct T as [T|[T|[T|[]]]]; injection T as <- <- _; (split; [reflexivity|]; split; [reflexivity|]; cbn [asb14_b_1 asb14_b_2 asb14_n]; unfold Q2R; cbn; lra). }
  destruct K as (K1 & K2 & K3). pose (p := exp (asb_ref_val c0 (a_mech a) (a_m a) d)). assert (Pp : 0 < p) by apply exp_pos.
  assert (I0 : In c0 asb_all) by (apply I; left; reflexivity). assert (I1 : In c1 asb_all) by (apply I; right; left; reflexivity).
  exists (asb_outs (asb_with_v a 750) d (c0 :: c1 :: l)), (asb_outs (asb_with_v a v1) d (c0 :: c1 :: l)), (asb_outs (asb_with_v a v2) d (c0 :: c1 :: l)), p.
  assert (F : forall v c, 0 < v -> In c asb_all -> asb_row (asb_with_v a v) d (asb_pga (asb_with_v a v) d c0) c = Fin (asb_ref_val c (a_mech a) (a_m a) d + asb_site_val c p v)).
  { intros v c Hv Hc. rewrite asb_row_fin by auto. reflexivity. }
  assert (D : forall c, In c asb_all -> p <= 0.008 \/ Q2R (asb14_b_1 c) - Q2R (asb14_b_2 c) * Q2R (asb14_n c) < 0 ->
     flt_lt (fexp (asb_row (asb_with_v a v2) d (asb_pga (asb_with_v a v2) d c0) c)) (fexp (asb_row (asb_with_v a v1) d (asb_pga (asb_with_v a v1) d c0) c))).
  { intros c Hc W. rewrite !F by (auto; lra). apply flt_lt_exp, flt_lt_fin, Rplus_lt_compat_l. apply asb_site_softer; auto. }
  split; [apply asb14_out; [exact G0|exact E]|]. split; [apply asb14_out; [exact G1|exact E]|]. split; [apply asb14_out; [exact G2|exact E]|].
  split; [cbn [asb_outs row_outs o_pga]; rewrite F by (auto; lra); cbn [fexp]; rewrite asb_site_ref by auto; rewrite Rplus_0_r; reflexivity|].
  assert (V : flt_lt (o_pgv (asb_outs (asb_with_v a v2) d (c0 :: c1 :: l))) (o_pgv (asb_outs (asb_with_v a v1) d (c0 :: c1 :: l)))).
  { cbn [asb_outs row_outs o_pgv]. rewrite !F by (auto; lra). cbn [fexp fmul]. do 2 eexists. split; [reflexivity|]. split; [reflexivity|]. apply Rmult_lt_compat_r; [lra|]. apply exp_increasing, Rplus_lt_compat_l.
    apply asb_site_softer; auto. }
  split; [|split; [exact V|split]].
  - intros W. split; [|split; [apply D; auto|exact V]].
    cbn [asb_outs row_outs o_sa]. apply Forall2_map_intro. intros c Hc. apply D; [apply I; right; right; exact Hc|left; exact W].
  - cbn [asb_outs row_outs o_sa skipn]. apply lower_map. intros c Hc HT. assert (Ic : In c asb_all) by (apply I; right; right; exact Hc). apply D; [exact Ic|]. right.
    assert (X : forallb (fun c => negb (Qle_bool (65#100) (asb14_period c)) || negb (Qle_bool 0 (Qminus (asb14_b_1 c) (Qmult (asb14_b_2 c) (asb14_n c)))))%bool asb_all = true) by (vm_compute; reflexivity).
    rewrite forallb_forall in X. specialize (X c Ic). apply Bool.orb_true_iff in X as [X|X]; apply Bool.negb_true_iff in X.
    + exfalso. assert (Y : Qle_bool (65#100) (asb14_period c) = true). { apply QArith_base.Qle_bool_iff, Qreals.Rle_Qle. unfold Q2R at 1. cbn. lra. } congruence.
    + assert (Y : QArith_base.Qlt (Qminus (asb14_b_1 c) (Qmult (asb14_b_2 c) (asb14_n c))) 0). { apply QArith_base.Qnot_le_lt. intros Z. apply QArith_base.Qle_bool_iff in Z. congruence. }
      apply Qreals.Qlt_Rlt in Y. rewrite Q2R_minus, Q2R_mult in Y. unfold Q2R at 4 in Y. cbn in Y. lra.
  - intros L3 W. cbn [asb_outs row_outs o_pga]. rewrite !F by (auto; lra). apply flt_lt_exp, flt_lt_fin, Rplus_lt_compat_l. apply asb_site_harder; auto.
Qed.
Print Assumptions C148_asb14.

(** ** The subduction site term *)
Lemma sub_site_f vl b n c t12 p v : 0 < v -> v < Q2R vl -> v <= 1000 ->
  sub_site_val vl b n c t12 p v = sitef (Q2R t12) (Q2R b) (Q2R n) (Q2R c) p (ln (v / Q2R vl)) - Q2R b * ln (p + Q2R c).
Proof. intros Hv L L2. unfold sub_site_val, sitef, Rpower. cbv zeta. rewrite (Rmin_left v 1000) by lra. destruct (Rlt_dec v (Q2R vl)); [|contradiction]. ring. Qed.
Lemma sub_site_softer vl b n c t12 p P v1 v2 : Q2R n = 1.18 -> Q2R c = 1.88 -> 0 < Q2R vl <= 1086 -> Q2R b <= 0 -> Q2R t12 + Q2R b * 1.18 < 0 ->
  0 < p -> 0 <= P -> P * Q2R t12 * Q2R vl < - (Q2R t12 + Q2R b * 1.18) * 244 -> p <= P \/ Q2R t12 < 0 ->
  180 <= v1 -> v1 < v2 -> v2 <= 1000 -> sub_site_val vl b n c t12 p v2 < sub_site_val vl b n c t12 p v1.
Proof.
  intros N C [W0 W1] B K Hp HP SL W H1 H12 H2. set (w := Q2R vl) in *.
  assert (SD : forall v v', 180 <= v -> v < v' -> v' <= 1000 -> v' <= w ->
    sitef (Q2R t12) (Q2R b) (Q2R n) (Q2R c) p (ln (v' / w)) < sitef (Q2R t12) (Q2R b) (Q2R n) (Q2R c) p (ln (v / w))).
  { intros v v' L1 L2 L3 L4. apply sitef_decr; [lra|lra|lra|rewrite N; lra| |apply ln_div_lt; lra].
    assert (R0 : 0.1657 <= v / w). { apply (Rmult_le_reg_r w); [lra|]. unfold Rdiv. rewrite Rmult_assoc, Rinv_l by lra. lra. }
    assert (E : 0.7232 * (v / w) <= exp (Q2R n * ln (v / w))).
    { rewrite N. replace (1.18 * ln (v / w)) with (ln (v / w) + 0.18 * ln (v / w)) by lra. rewrite exp_plus, exp_ln by lra. rewrite Rmult_comm. apply Rmult_le_compat_l; [lra|].
      apply Rle_trans with (exp (0.18 * ln 0.1657)); [clear; interval with (i_prec 40)|]. apply exp_le_mono, Rmult_le_compat_l; [lra|]. apply ln_le_mono; lra. }
    assert (E2 : 130.17 <= w * exp (Q2R n * ln (v / w))).
    { apply Rle_trans with (w * (0.7232 * (v / w))); [|apply Rmult_le_compat_l; lra]. replace (w * (0.7232 * (v / w))) with (0.7232 * v) by (field; lra). lra. }
    set (e := exp (Q2R n * ln (v / w))) in *. rewrite C, N. clearbody e. set (t := Q2R t12) in *. set (bb := Q2R b) in *. clearbody t bb w. clear - K Hp HP SL W E2 W0.
    assert (M : w * (t * p + (t + bb * 1.18) * (1.88 * e)) < 0).
    { assert (T2 : (t + bb * 1.18) * (1.88 * (w * e)) <= (t + bb * 1.18) * 244) by (assert (244 <= 1.88 * (w * e)) by lra; nra).
      assert (T1 : w * (t * p) <= P * t * w \/ w * (t * p) < 0). { destruct W as [W|W]; [destruct (Rle_dec t 0)|]; [destruct (Req_dec t 0) as [->|]; [left; lra|right; assert (0 < w * p) by (apply Rmult_lt_0_compat; lra); nra]|left; assert (0 < w * t) by (apply Rmult_lt_0_compat; lra); nra|right; assert (0 < w * p) by (apply Rmult_lt_0_compat; lra); nra]. }
      replace (w * (t * p + (t + bb * 1.18) * (1.88 * e))) with (w * (t * p) + (t + bb * 1.18) * (1.88 * (w * e))) by ring.
      destruct T1; lra. }
    apply (Rmult_lt_reg_l w); lra. }
  assert (HI : forall v, 180 <= v -> w <= v -> v <= 1000 -> sub_site_val vl b n c t12 p v = (Q2R t12 + Q2R b * 1.18) * ln (v / w)).
  { intros v A1 A2 A3. unfold sub_site_val. cbv zeta. fold w. rewrite (Rmin_left v 1000) by lra. destruct (Rlt_dec v w); [lra|]. rewrite N. reflexivity. }
  assert (LO : forall v, 180 <= v -> v < w -> v <= 1000 -> sub_site_val vl b n c t12 p v = sitef (Q2R t12) (Q2R b) (Q2R n) (Q2R c) p (ln (v / w)) - Q2R b * ln (p + Q2R c)) by (intros; apply sub_site_f; auto; lra).
  assert (SR : forall v v', 0 < v -> v < v' -> (Q2R t12 + Q2R b * 1.18) * ln (v' / w) < (Q2R t12 + Q2R b * 1.18) * ln (v / w)).
  { intros v v' A1 A2. pose proof (ln_div_lt v v' w A1 A2 ltac:(lra)). nra. }
  destruct (Rlt_dec v2 w) as [L2|L2].
  - rewrite !LO by lra. apply Rplus_lt_compat_r, SD; lra.
  - destruct (Rlt_dec v1 w) as [L1|L1]; [|rewrite !HI by lra; apply SR; lra].
    rewrite (LO v1), (HI v2) by lra. pose proof (SD v1 w H1 L1 ltac:(lra) ltac:(lra)) as D. unfold sitef at 1 in D. replace (w / w) with 1 in D by (field; lra). rewrite ln_1, Rmult_0_r, Rmult_0_r, exp_0, Rmult_1_r in D.
    assert ((Q2R t12 + Q2R b * 1.18) * ln (v2 / w) <= 0).
    { assert (0 <= ln (v2 / w)). { rewrite <- ln_1. apply ln_le_mono; [lra|]. apply (Rmult_le_reg_r w); [lra|]. unfold Rdiv. rewrite Rmult_assoc, Rinv_l by lra. lra. } nra. }
    lra.
Qed.
Lemma sub_site_harder vl b n c t12 p v1 v2 : Q2R n = 1.18 -> Q2R c = 1.88 -> Q2R vl = 865.1 -> Q2R b = -1.186 -> Q2R t12 = 0.98 -> 0.3 <= p -> 180 <= v1 -> v1 < v2 -> v2 <= 360 ->
  sub_site_val vl b n c t12 p v1 < sub_site_val vl b n c t12 p v2.
Proof.
  intros N C W B T Hp H1 H12 H2. rewrite !sub_site_f by lra. apply Rplus_lt_compat_r. rewrite N, C, W, B, T. apply sitef_incr; [lra|lra|lra|lra| |apply ln_div_lt; lra].
  assert (E : exp (1.18 * ln (v2 / 865.1)) <= 0.356).
  { apply Rle_trans with (exp (1.18 * ln (360 / 865.1))); [|clear; interval with (i_prec 40)]. apply exp_le_mono, Rmult_le_compat_l; [lra|]. destruct (Req_dec v2 360) as [->|]; [lra|left; apply ln_div_lt; lra]. }
  lra.
Qed.
Lemma row_cond {A} (rows : list A) (period t12 : A -> Q) c : forallb (fun c => negb (Qle_bool (2#1) (period c)) || negb (Qle_bool 0 (t12 c)))%bool rows = true ->
  In c rows -> 2 <= Q2R (period c) -> Q2R (t12 c) < 0.
Proof.
  intros X Ic HT. rewrite forallb_forall in X. specialize (X c Ic). apply Bool.orb_true_iff in X as [X|X]; apply Bool.negb_true_iff in X.
  - exfalso. assert (Y : Qle_bool (2#1) (period c) = true). { apply QArith_base.Qle_bool_iff, Qreals.Rle_Qle. unfold Q2R at 1. cbn. lra. } congruence.
  - assert (Y : QArith_base.Qlt (t12 c) 0). { apply QArith_base.Qnot_le_lt. intros Z. apply QArith_base.Qle_bool_iff in Z. congruence. }
    apply Qreals.Qlt_Rlt in Y. unfold Q2R at 2 in Y. cbn in Y. lra.
Qed.
Lemma aga16_softer c p v1 v2 : In c aga16_coeff -> 0 < p -> p <= 0.035 \/ 2 <= Q2R (aga16_period c) -> 180 <= v1 -> v1 < v2 -> v2 <= 1000 -> aga16_site c p v2 < aga16_site c p v1.
Proof.
  intros Hc Hp W H1 H12 H2. row_is Hc (fun c => aga16_n c) (118#100)%Q as N. row_is Hc (fun c => aga16_c c) (188#100)%Q as C.
  row_le Hc (fun c => aga16_v_lin c) (fun _ : aga16_row => (1086#1)%Q) as W1. row_pos Hc (fun c => aga16_v_lin c) as W0. row_le Hc (fun c => aga16_b c) (fun _ : aga16_row => (0#1)%Q) as B.
  row_lt Hc (fun c => aga16_t_12 c + aga16_b c * (118#100))%Q (fun _ : aga16_row => (0#1)%Q) as K.
  row_lt Hc (fun c => (35#1000) * aga16_t_12 c * aga16_v_lin c)%Q (fun c => Qopp (aga16_t_12 c + aga16_b c * (118#100)) * (244#1))%Q as SL.
  assert (X : p <= 0.035 \/ Q2R (aga16_t_12 c) < 0) by (destruct W as [W|W]; [left; exact W|right; apply (row_cond aga16_coeff aga16_period aga16_t_12 c); [vm_compute; reflexivity|exact Hc|exact W]]).
  unfold aga16_site. apply (sub_site_softer _ _ _ _ _ p 0.035); lra.
Qed.
Theorem C148_aga16 : forall rock src1 src2 u a l scale d z v1 v2, sub_gives rock (sub_with_v u 1000) -> sub_gives src1 (sub_with_v u v1) -> sub_gives src2 (sub_with_v u v2) ->
  sub_ready u d z -> adj_vals a (slab u) (map (fun c => Q2R (aga16_period c)) aga16_coeff) = Some l -> 0 <= d -> 180 <= v1 -> v1 < v2 -> v2 <= 1000 ->
  exists o0 o1 o2 p, gmm_out1 (aga16 rock (adj_of a) (Fin scale)) o0 /\ gmm_out1 (aga16 src1 (adj_of a) (Fin scale)) o1 /\ gmm_out1 (aga16 src2 (adj_of a) (Fin scale)) o2 /\
    q_pga o0 = Fin p /\ (p <= 0.035 -> resp21 flt_lt o2 o1) /\
    lower_from 2 (map (fun c => Q2R (aga16_period c)) (tl aga16_coeff)) (q_sa o1) (q_sa o2) /\
    (v2 <= 360 -> 0.3 <= p -> flt_lt (q_pga o1) (q_pga o2)).
Proof.
  intros rock src1 src2 u a l scale d z v1 v2 G0 G1 G2 Rd A Hd H1 H12 H2. destruct (adj_fin u a l A) as (_ & L).
  destruct (combine aga16_coeff l) as [|cs0 rest] eqn:C.
  { exfalso. assert (E : List.length (combine aga16_coeff l) = 23%nat) by (rewrite combine_length, L; reflexivity). rewrite C in E. discriminate. }
  destruct (aga16_hd _ _ _ C) as (V0 & B0 & N0 & I0 & I).
  pose (p := aga16_pga1000 u scale d z (fst cs0) (snd cs0)). assert (Pp : 0 < p) by apply exp_pos.
  pose (O v := row_outs1 rest cs0 (aga16_rowR (sub_with_v u v) scale d z (fexp (aga16_rowR (sub_with_v u v) scale d z NaN cs0))) aga16_std).
  assert (RO : forall v src, sub_gives src (sub_with_v u v) -> gmm_out1 (aga16 src (adj_of a) (Fin scale)) (O v)) by (intros v src G; apply (aga16_out src (sub_with_v u v) a l); auto).
  exists (O 1000), (O v1), (O v2), p. split; [apply RO, G0|]. split; [apply RO, G1|]. split; [apply RO, G2|].
  assert (F : forall v cs, 0 < v -> In cs (cs0 :: rest) -> aga16_rowR (sub_with_v u v) scale d z (fexp (aga16_rowR (sub_with_v u v) scale d z NaN cs0)) cs =
     Fin (aga16_rock (slab u) (backarc u) (fst cs) (snd cs) scale (u_mag u) d z + aga16_site (fst cs) p v)).
  { intros v cs Hv Hc. rewrite (aga16_row_fin (sub_with_v u v) scale d z cs0 rest l cs C Hc Hd Hv (proj2 (proj2 Rd))). reflexivity. }
  assert (D : forall cs, In cs (cs0 :: rest) -> p <= 0.035 \/ 2 <= Q2R (aga16_period (fst cs)) ->
    flt_lt (fexp (aga16_rowR (sub_with_v u v2) scale d z (fexp (aga16_rowR (sub_with_v u v2) scale d z NaN cs0)) cs)) (fexp (aga16_rowR (sub_with_v u v1) scale d z (fexp (aga16_rowR (sub_with_v u v1) scale d z NaN cs0)) cs))).
  { intros cs Hc W. rewrite !F by (auto; lra). apply flt_lt_exp, flt_lt_fin, Rplus_lt_compat_l. apply aga16_softer; auto. }
  split; [|split; [|split]].
  - unfold O, row_outs1; cbn [q_pga]. rewrite F by (auto using in_eq; lra). cbn [fexp]. apply (f_equal Fin). unfold p, aga16_pga1000. apply (f_equal exp), (f_equal (Rplus _)).
    unfold aga16_site, sub_site_val. cbv zeta. destruct (Rlt_dec 1000 (Q2R (aga16_v_lin (fst cs0)))); [lra|reflexivity].
  - intros W. unfold O. apply (row_outs1_resp2 (cs0 :: rest)); [intros c Hc; right; exact Hc|left; reflexivity|]. intros cs Hc. apply D; auto.
  - unfold O, row_outs1; cbn [q_sa]. assert (E : tl aga16_coeff = map fst rest).
    { transitivity (tl (map fst (combine aga16_coeff l))); [rewrite combine_fst by (symmetry; exact (eq_sym L)); reflexivity|rewrite C; reflexivity]. }
    rewrite E, map_map. apply (lower_map (fun cs => Q2R (aga16_period (fst cs)))). intros cs Hc HT. apply D; [right; exact Hc|right; exact HT].
  - intros L3 W. unfold O, row_outs1; cbn [q_pga]. rewrite !F by (auto using in_eq; lra). apply flt_lt_exp, flt_lt_fin, Rplus_lt_compat_l.
    assert (T12 : Q2R (aga16_t_12 (fst cs0)) = 0.98).
    { assert (E : fst cs0 = hd (fst cs0) aga16_coeff). { rewrite <- (combine_fst aga16_coeff l L), C. reflexivity. } rewrite E. cbn. unfold Q2R; cbn; lra. }
    row_is I0 (fun c => aga16_c c) (188#100)%Q as CC. unfold aga16_site. apply sub_site_harder; lra.
Qed.
Print Assumptions C148_aga16.

(** ** COP14 *)
Lemma cop14_softer c p v1 v2 : In c cop14_coeff -> 0 < p -> p <= 0.035 \/ 2 <= Q2R (cop14_period c) -> 180 <= v1 -> v1 < v2 -> v2 <= 1000 -> cop14_site c p v2 < cop14_site c p v1.
Proof.
  intros Hc Hp W H1 H12 H2. row_is Hc (fun c => cop14_n c) (118#100)%Q as N. row_is Hc (fun c => cop14_c c) (188#100)%Q as C.
  row_le Hc (fun c => cop14_v_lin c) (fun _ : cop14_row => (1086#1)%Q) as W1. row_pos Hc (fun c => cop14_v_lin c) as W0. row_le Hc (fun c => cop14_b c) (fun _ : cop14_row => (0#1)%Q) as B.
  row_lt Hc (fun c => cop14_t_12 c + cop14_b c * (118#100))%Q (fun _ : cop14_row => (0#1)%Q) as K.
  row_lt Hc (fun c => (35#1000) * cop14_t_12 c * cop14_v_lin c)%Q (fun c => Qopp (cop14_t_12 c + cop14_b c * (118#100)) * (244#1))%Q as SL.
  assert (X : p <= 0.035 \/ Q2R (cop14_t_12 c) < 0) by (destruct W as [W|W]; [left; exact W|right; apply (row_cond cop14_coeff cop14_period cop14_t_12 c); [vm_compute; reflexivity|exact Hc|exact W]]).
  unfold cop14_site. apply (sub_site_softer _ _ _ _ _ p 0.035); lra.
Qed.
Theorem C148_cop14 : forall rock src1 src2 u scale d v1 v2, cop_gives rock (sub_with_v u 1000) -> cop_gives src1 (sub_with_v u v1) -> cop_gives src2 (sub_with_v u v2) ->
  u_rup u = Some d -> 0 <= d -> 180 <= v1 -> v1 < v2 -> v2 <= 1000 ->
  exists o0 o1 o2 p, gmm_out1 (cop14 rock (Fin scale)) o0 /\ gmm_out1 (cop14 src1 (Fin scale)) o1 /\ gmm_out1 (cop14 src2 (Fin scale)) o2 /\
    q_pga o0 = Fin p /\ (p <= 0.035 -> resp21 flt_lt o2 o1) /\
    lower_from 2 (map (fun c => Q2R (cop14_period c)) cop14_coeff) (q_sa o1) (q_sa o2) /\
    (v2 <= 360 -> 0.3 <= p -> flt_lt (q_pga o1) (q_pga o2)).
Proof.
  intros rock src1 src2 u scale d v1 v2 G0 G1 G2 Ed Hd H1 H12 H2. destruct cop14_hd as (V0 & B0 & N0 & I0).
  set (sh c := dc1_default (slab u) (Q2R (cop14_period c))).
  pose (p := exp (cop14_rock cop14_c0 (sh cop14_c0) scale (u_mag u) d + cop14_site cop14_c0 0 1000)). assert (Pp : 0 < p) by apply exp_pos.
  pose (O v := row_outs1 cop14_coeff cop14_c0 (cop14_rowf (sub_with_v u v) scale d (fexp (cop14_rowf (sub_with_v u v) scale d NaN cop14_c0))) cop14_std).
  assert (RO : forall v src, cop_gives src (sub_with_v u v) -> gmm_out1 (cop14 src (Fin scale)) (O v)) by (intros v src G; apply (cop14_out src (sub_with_v u v)); auto).
  exists (O 1000), (O v1), (O v2), p. split; [apply RO, G0|]. split; [apply RO, G1|]. split; [apply RO, G2|].
  assert (F : forall v c, 0 < v -> In c cop14_coeff -> cop14_rowf (sub_with_v u v) scale d (fexp (cop14_rowf (sub_with_v u v) scale d NaN cop14_c0)) c =
     Fin (cop14_rock c (sh c) scale (u_mag u) d + cop14_site c p v)) by (intros v c Hv Hc; rewrite cop14_row_fin by auto; reflexivity).
  assert (D : forall c, In c cop14_coeff -> p <= 0.035 \/ 2 <= Q2R (cop14_period c) ->
    flt_lt (fexp (cop14_rowf (sub_with_v u v2) scale d (fexp (cop14_rowf (sub_with_v u v2) scale d NaN cop14_c0)) c)) (fexp (cop14_rowf (sub_with_v u v1) scale d (fexp (cop14_rowf (sub_with_v u v1) scale d NaN cop14_c0)) c))).
  { intros c Hc W. rewrite !F by (auto; lra). apply flt_lt_exp, flt_lt_fin, Rplus_lt_compat_l. apply cop14_softer; auto. }
  split; [|split; [|split]].
  - unfold O, row_outs1; cbn [q_pga]. rewrite F by (auto; lra). cbn [fexp]. apply (f_equal Fin). unfold p at 2. apply (f_equal exp), (f_equal (Rplus _)).
    unfold cop14_site, sub_site_val. cbv zeta. destruct (Rlt_dec 1000 (Q2R (cop14_v_lin cop14_c0))); [lra|reflexivity].
  - intros W. unfold O. apply (row_outs1_resp2 cop14_coeff); [intros c Hc; exact Hc|exact I0|]. intros c Hc. apply D; auto.
  - unfold O, row_outs1; cbn [q_sa]. apply (lower_map (fun c => Q2R (cop14_period c))). intros c Hc HT. apply D; [exact Hc|right; exact HT].
  - intros L3 W. unfold O, row_outs1; cbn [q_pga]. rewrite !F by (auto; lra). apply flt_lt_exp, flt_lt_fin, Rplus_lt_compat_l.
    assert (T12 : Q2R (cop14_t_12 cop14_c0) = 0.98) by (cbn; unfold Q2R; cbn; lra).
    row_is I0 (fun c => cop14_c c) (188#100)%Q as CC. unfold cop14_site. apply sub_site_harder; lra.
Qed.
Print Assumptions C148_cop14.

(** The scenarios exist, and both sides of the thresholds are reached: a distant M5 earthquake and a close M7.5 one. *)
From Verif Require Properties_Active.
Example C148_nonvacuous :
  (exists o p, gmm_out (asb14 (asb_src (Asb (Some 120) None None 5 750 "SS"))) o /\ o_pga o = Fin p /\ p <= 0.008) /\
  (exists o p, gmm_out (asb14 (asb_src (Asb (Some 0) None None 7.5 750 "SS"))) o /\ o_pga o = Fin p /\ 0.25 <= p) /\
  (let u := Sub 7 (Some 60) None (Some 30) 400 "interface" (Some "forearc") in
   sub_ready u 60 30 /\ sub_gives (sub_src (sub_with_v u 1000)) (sub_with_v u 1000) /\ cop_gives (sub_src (sub_with_v u 1000)) (sub_with_v u 1000) /\
   exists l, adj_vals AdjDefault (slab u) (map (fun c => Q2R (aga16_period c)) aga16_coeff) = Some l).
Proof.
  split; [|split].
  - destruct (Properties_Active.C34_reference_site _ (Asb (Some 120) None None 5 750 "SS") 120 asb14_jb_coeff (asb_src_gives _) eq_refl eq_refl) as (o & O & _ & P & _).
    exists o. eexists. split; [exact O|]. split; [apply P; reflexivity|]. clear. unfold asb_ref_val; cbn -[Rmin Rmax]. unfold Q2R; cbn -[Rmin Rmax].
    rewrite Rmin_left, Rmax_right by lra. interval with (i_prec 40).
  - destruct (Properties_Active.C34_reference_site _ (Asb (Some 0) None None 7.5 750 "SS") 0 asb14_jb_coeff (asb_src_gives _) eq_refl eq_refl) as (o & O & _ & P & _).
    exists o. eexists. split; [exact O|]. split; [apply P; reflexivity|]. clear. unfold asb_ref_val; cbn -[Rmin Rmax]. unfold Q2R; cbn -[Rmin Rmax].
    rewrite Rmin_right, Rmax_left by lra. interval with (i_prec 40).
  - cbv zeta. split; [split; [reflexivity|]; split; [discriminate|discriminate]|]. split; [apply sub_src_gives|]. split; [apply cop_src_gives|]. eexists. reflexivity.
Qed.
