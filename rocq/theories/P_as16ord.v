(** * Order of the three AS16 durations *)
From Coquelicot Require Import Coquelicot.
From Interval Require Import Tactic.
From Coq Require Import List.
From Verif Require Import M_as16 FrameworkProofs Anal Nga Spec_dur P_dur P_as16.
Open Scope R_scope.
Open Scope string_scope.
Open Scope list_scope.

Ltac by_mech_cases t := unfold by_mech in *; destruct (String.eqb t "NS"); [|destruct (String.eqb t "RS"); [|destruct (String.eqb t "SS")]].
Ltac case_minmax := unfold Rmin, Rmax; repeat match goal with |- context [Rle_dec ?x ?y] => lazymatch x with context [Rle_dec] => fail | _ => destruct (Rle_dec x y) end end.

Lemma source_ratio s1 s2 c m : s2 + c <= s1 -> exp (c / 3) * source_dur s1 m <= source_dur s2 m.
Proof.
  intros H. rewrite !source_closed.
  assert (L : exp (c / 3 + (ln 10 * (1.5 * m + 16.05) - s1) / 3) <= exp ((ln 10 * (1.5 * m + 16.05) - s2) / 3)) by (apply exp_le_mono; lra).
  rewrite exp_plus in L. unfold Rdiv at 2 3. lra.
Qed.
(** Below and at the hinge the 5-95 % source duration is at least (nearly) its constant. *)
Lemma source95_low t m : 0.999 * k_b0 k5t95 t <= source16 k5t95 t m.
Proof.
  assert (Hk : In k5t95 ks16) by (cbn; auto).
  assert (S0 : source16 k5t95 t (k_m1 k5t95) = k_b0 k5t95 t) by (unfold source16; destruct (Rle_dec (k_m1 k5t95) (k_m1 k5t95)); [reflexivity|lra]).
  assert (P : 0 < k_b0 k5t95 t) by (rewrite <- S0; apply source16_pos, Hk).
  assert (N : ~ (k_m1 k5t95 = k_m1 k20t80 /\ k_c4 k5t95 = k_c4 k20t80 /\ t = "RS")) by (cbn; intros (_ & C & _); lra).
  destruct (Rle_dec m 5.2) as [H|H]; [unfold source16; destruct (Rle_dec m (k_m1 k5t95)); [lra|cbn in *; lra]|].
  destruct (Rle_dec m 5.204) as [H2|H2].
  - destruct (hinge16 k5t95 t m Hk N) as (A & _); try (cbn; lra). rewrite S0 in A. exact A.
  - destruct (hinge16 k5t95 t 5.204 Hk N) as (A & _); try (cbn; lra). rewrite S0 in A.
    pose proof (source16_incr k5t95 t 5.204 m Hk ltac:(cbn; lra) ltac:(lra)). lra.
Qed.
Lemma source_75_95 t m : 1.3 * source16 k5t75 t m <= source16 k5t95 t m.
Proof.
  pose proof (source95_low t m) as L. pose proof (source16_pos k5t95 t m ltac:(cbn; auto)) as P.
  unfold source16 at 1. destruct (Rle_dec m (k_m1 k5t75)) as [H|H].
  - set (x := source16 _ _ _) in *. clearbody x. cbn [k_b0 k5t75 k5t95] in *. by_mech_cases t; lra.
  - unfold source16. cbn [k_m1 k5t75 k5t95] in *. destruct (Rle_dec m 5.2); [lra|]. cbn [k_b1 k_b2 k_b3 k_m2 k5t75 k5t95].
    assert (E : 1.3 <= exp (1 / 3)) by interval.
    refine (Rle_trans _ _ _ (Rmult_le_compat_r _ _ _ (Rlt_le _ _ (source_pos _ _)) E) (source_ratio _ _ 1 m _)).
    by_mech_cases t; case_minmax; lra.
Qed.
Lemma source_80_95 t m : 1.5 * source16 k20t80 t m <= source16 k5t95 t m.
Proof.
  unfold source16. cbn [k_m1 k20t80 k5t95] in *. destruct (Rle_dec m 5.2); cbn [k_b0 k_b1 k_b2 k_b3 k_m2 k20t80 k5t95].
  - by_mech_cases t; lra.
  - assert (E : 1.5 <= exp (1.3 / 3)) by interval.
    refine (Rle_trans _ _ _ (Rmult_le_compat_r _ _ _ (Rlt_le _ _ (source_pos _ _)) E) (source_ratio _ _ 1.3 m _)).
    by_mech_cases t; case_minmax; lra.
Qed.
Lemma path_ratio k c r : 0 <= r -> c * k_c1 k <= k_c1 k5t95 -> c * k_c2 k <= k_c2 k5t95 -> c * k_c3 k <= k_c3 k5t95 -> c * path16 k r <= path16 k5t95 r.
Proof.
  intros Hr A1 A2 A3. unfold path16.
  pose proof (Rmax_r (Rmin r 50 - 10) 0) as B2. pose proof (Rmax_r (r - 50) 0) as B3. assert (B1 : 0 <= Rmin r 10) by (apply Rmin_glb; lra).
  generalize dependent (Rmin r 10). generalize dependent (Rmax (Rmin r 50 - 10) 0). generalize dependent (Rmax (r - 50) 0). intros x Hx y Hy z Hz.
  pose proof (Rmult_le_compat_r _ _ _ Hz A1). pose proof (Rmult_le_compat_r _ _ _ Hy A2). pose proof (Rmult_le_compat_r _ _ _ Hx A3). lra.
Qed.
(** The site factors: [w] is the (capped) velocity. *)
Lemma site_75_95 w : 0 < w -> w <= 600 -> 0.95 * Rpower (w / 368.2) (-0.2246) <= Rpower (w / 369.9) (-0.3183).
Proof.
  intros H1 H2. unfold Rpower. rewrite !ln_div by lra. assert (L : ln w <= ln 600) by (destruct H2 as [H2| ->]; [left; apply ln_increasing; lra|lra]).
  set (l := ln w) in *. replace (-0.3183 * (l - ln 369.9)) with (0.0937 * (ln 600 - l) + (0.3183 * ln 369.9 - 0.2246 * ln 368.2 - 0.0937 * ln 600) + -0.2246 * (l - ln 368.2)) by (unfold l; lra).
  rewrite exp_plus. apply Rmult_le_compat_r; [left; apply exp_pos|]. rewrite exp_plus.
  assert (1 <= exp (0.0937 * (ln 600 - l))) by (rewrite <- exp_0; apply exp_le_mono; lra).
  assert (0.95 <= exp (0.3183 * ln 369.9 - 0.2246 * ln 368.2 - 0.0937 * ln 600)) by (clear; interval with (i_prec 40)). nra.
Qed.
Lemma site_80_95 w : 100 <= w -> 0.8 * Rpower (w / 369.6) (-0.4237) <= Rpower (w / 369.9) (-0.3183).
Proof.
  intros H1. unfold Rpower. rewrite !ln_div by lra. assert (L : ln 100 <= ln w) by (destruct H1 as [H1|H1]; [left; apply ln_increasing; lra|rewrite H1; lra]).
  set (l := ln w) in *. replace (-0.3183 * (l - ln 369.9)) with (0.1054 * (l - ln 100) + (0.3183 * ln 369.9 - 0.4237 * ln 369.6 + 0.1054 * ln 100) + -0.4237 * (l - ln 369.6)) by (unfold l; lra).
  rewrite exp_plus. apply Rmult_le_compat_r; [left; apply exp_pos|]. rewrite exp_plus.
  assert (1 <= exp (0.1054 * (l - ln 100))) by (rewrite <- exp_0; apply exp_le_mono; lra).
  assert (0.8 <= exp (0.3183 * ln 369.9 - 0.4237 * ln 369.6 + 0.1054 * ln 100)) by (clear; interval with (i_prec 40)). nra.
Qed.
Lemma z_ref_le v : z_ref v <= 1.
Proof.
  unfold z_ref. assert (0 <= v ^ 4) by (replace (v ^ 4) with ((v * v) * (v * v)) by ring; apply Rle_0_sqr).
  assert (L : -3.6 <= ln ((v ^ 4 + 570.94 ^ 4) / (1360 ^ 4 + 570.94 ^ 4))).
  { apply Rle_trans with (ln (570.94 ^ 4 / (1360 ^ 4 + 570.94 ^ 4))); [interval with (i_prec 40)|].
    set (u := v ^ 4) in *. clearbody u. assert (0 < 1360 ^ 4 + 570.94 ^ 4) by interval. assert (0 < 570.94 ^ 4) by interval.
    set (d := 1360 ^ 4 + _) in *. set (e := 570.94 ^ 4) in *. clearbody d e.
    assert (e / d <= (u + e) / d) by (apply Rmult_le_compat_r; [left; apply Rinv_0_lt_compat; lra|lra]).
    assert (0 < e / d) by (apply Rdiv_lt_0_compat; lra).
    destruct (Rle_lt_or_eq_dec _ _ H2) as [Q| <-]; [left; apply ln_increasing; lra|lra]. }
  set (l := ln _) in *. clearbody l.
  assert (exp (-7.15 / 4 * l) <= exp 6.5) by (apply exp_le_mono; lra).
  assert (exp 6.5 <= 1000) by interval. lra.
Qed.
Lemma basin_80_95 v z : match z with Some z => 0 <= z | None => True end -> 0.99 * exp (basin16 k20t80 v z) <= exp (basin16 k5t95 v z).
Proof.
  intros Hz. destruct z as [z|]; unfold basin16; cbn [k_c5 k20t80 k5t95].
  - pose proof (z_ref_le v). assert (Q : -1 <= Rmin (z - z_ref v) 200) by (apply Rmin_glb; lra). set (x := Rmin _ _) in *. clearbody x.
    replace (0.0006 * x) with (0.0001 * x + 0.0005 * x) by lra. rewrite exp_plus. apply Rmult_le_compat_r; [left; apply exp_pos|].
    apply Rle_trans with (exp (-0.0001)); [interval|apply exp_le_mono; lra].
  - rewrite exp_0. lra.
Qed.
Lemma med16_75_95 a : 0 <= d16_r a -> 0 < d16_v a -> 1.2 * med16 k5t75 a <= med16 k5t95 a.
Proof.
  intros Hr Hv. unfold med16. replace (basin16 k5t75) with (basin16 k5t95) by reflexivity.
  pose proof (exp_pos (basin16 k5t95 (d16_v a) (d16_z a))) as P. set (e := exp _) in *. clearbody e.
  assert (W : 0.95 * Rpower (Rmin (d16_v a) 600 / k_vr k5t75) (k_c4 k5t75) <= Rpower (Rmin (d16_v a) 600 / k_vr k5t95) (k_c4 k5t95)).
  { apply site_75_95; [apply Rmin_pos; lra|apply Rmin_r]. }
  pose proof (Rpower_pos (Rmin (d16_v a) 600 / k_vr k5t75) (k_c4 k5t75)) as P1. set (s1 := Rpower _ (k_c4 k5t75)) in *. set (s2 := Rpower _ (k_c4 k5t95)) in *. clearbody s1 s2.
  pose proof (source_75_95 (d16_mech a) (d16_m a)) as A. pose proof (source16_pos k5t75 (d16_mech a) (d16_m a) ltac:(cbn; auto)) as A0.
  pose proof (path_ratio k5t75 1.3 (d16_r a) Hr ltac:(cbn; lra) ltac:(cbn; lra) ltac:(cbn; lra)) as B. pose proof (path16_nonneg k5t75 (d16_r a) ltac:(cbn; auto) Hr) as B0.
  set (x1 := source16 k5t75 _ _) in *. set (x2 := source16 k5t95 _ _) in *. set (y1 := path16 k5t75 _) in *. set (y2 := path16 k5t95 _) in *. clearbody x1 x2 y1 y2.
  rewrite <- Rmult_assoc. apply Rmult_le_compat_r; [lra|].
  apply Rle_trans with ((1.3 * (x1 + y1)) * (0.95 * s1)); [nra|]. apply Rmult_le_compat; lra.
Qed.
Lemma med16_80_95 a : 0 <= d16_r a -> 100 <= d16_v a -> match d16_z a with Some z => 0 <= z | None => True end -> 1.15 * med16 k20t80 a <= med16 k5t95 a.
Proof.
  intros Hr Hv Hz. unfold med16. pose proof (basin_80_95 (d16_v a) (d16_z a) Hz) as E.
  pose proof (exp_pos (basin16 k20t80 (d16_v a) (d16_z a))) as P. set (e1 := exp (basin16 k20t80 _ _)) in *. set (e2 := exp (basin16 k5t95 _ _)) in *. clearbody e1 e2.
  assert (W : 0.8 * Rpower (Rmin (d16_v a) 600 / k_vr k20t80) (k_c4 k20t80) <= Rpower (Rmin (d16_v a) 600 / k_vr k5t95) (k_c4 k5t95)).
  { apply site_80_95. apply Rmin_glb; lra. }
  pose proof (Rpower_pos (Rmin (d16_v a) 600 / k_vr k20t80) (k_c4 k20t80)) as P1. set (s1 := Rpower _ (k_c4 k20t80)) in *. set (s2 := Rpower _ (k_c4 k5t95)) in *. clearbody s1 s2.
  pose proof (source_80_95 (d16_mech a) (d16_m a)) as A. pose proof (source16_pos k20t80 (d16_mech a) (d16_m a) ltac:(cbn; auto)) as A0.
  pose proof (path_ratio k20t80 1.5 (d16_r a) Hr ltac:(cbn; lra) ltac:(cbn; lra) ltac:(cbn; lra)) as B. pose proof (path16_nonneg k20t80 (d16_r a) ltac:(cbn; auto) Hr) as B0.
  set (x1 := source16 k20t80 _ _) in *. set (x2 := source16 k5t95 _ _) in *. set (y1 := path16 k20t80 _) in *. set (y2 := path16 k5t95 _) in *. clearbody x1 x2 y1 y2.
  assert (S : 1.2 * ((x1 + y1) * s1) <= (x2 + y2) * s2).
  { apply Rle_trans with ((1.5 * (x1 + y1)) * (0.8 * s1)); [nra|]. apply Rmult_le_compat; lra. }
  assert (0 < (x1 + y1) * s1) by (apply Rmult_lt_0_compat; lra). set (u := (x1 + y1) * s1) in *. set (w := (x2 + y2) * s2) in *. clearbody u w.
  apply Rle_trans with ((1.2 * u) * (0.99 * e1)); [nra|]. apply Rmult_le_compat. all: lra.
Qed.
Lemma as16_ordered src a : dur16_gives src a -> 0 <= d16_r a -> 0 < d16_v a ->
  exists m x75 x95 x80, result (as16 src) = Ok m /\ as16_duration m = As16Rec (Fin x75) (Fin x95) (Fin x80) /\
    1.2 * x75 <= x95 /\ (100 <= d16_v a -> match d16_z a with Some z => 0 <= z | None => True end -> 1.15 * x80 <= x95).
Proof.
  intros G Hr Hv. destruct (as16_published _ _ G Hr Hv) as (m & E & D & _). exists m, (med16 k5t75 a), (med16 k5t95 a), (med16 k20t80 a).
  split; [exact E|]. split; [exact D|]. split; [apply med16_75_95; assumption|]. intros. apply med16_80_95; assumption.
Qed.
