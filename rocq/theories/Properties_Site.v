(** * C141: softer sites shake harder, except under strong shaking

    [with_v a v] is the scenario [a] with v_s30 = v.  [pga_is r p]: the construction [r] succeeds and its PGA is [p] g.
    [compares] (Spec_basin.v) relates the results of two scenarios period by period, [compares3] (Spec_site.v) those of
    three: [sa T y0 y1 y2] holds at every reported period T, [pga] of the PGAs, [pgv] of the PGVs (cm/s). *)
From Coquelicot Require Import Coquelicot.
From Interval Require Import Tactic.
From Coq Require Import List.
From Verif Require Import M_cy14 M_bssa14 M_cb14 M_ask14 FrameworkProofs Nga Outs SpecNga Spec_cy14 Spec_bssa14 Spec_cb14 Spec_ask14 P_cy14 P_bssa14 P_cb14 P_ask14 Properties_NGAPub P_ngacont Spec_basin Spec_site P_basin P_site.
Open Scope R_scope.
Open Scope string_scope.
Open Scope list_scope.

(** ** BSSA14, relative to 760 m/s *)
Theorem C141_bssa14_weak : forall src1 src2 rock a v1 v2 p, nga_gives src1 (with_v a v1) -> nga_gives src2 (with_v a v2) -> nga_gives rock (with_v a 760) -> n_z1 a = None ->
  0 < v1 -> v1 < v2 -> pga_is (bssa14 rock) p ->
  compares (bssa14 src1) (bssa14 src2)
    (fun T y1 y2 => p <= 0.08 \/ 1.5 <= T /\ p <= 1 \/ 2 <= T /\ p <= 1000 -> y2 <= y1 /\ (v1 < 760 -> y2 < y1))
    (fun y1 y2 => p <= 0.08 -> y2 <= y1 /\ (v1 < 760 -> y2 < y1)) (fun y1 y2 => p <= 0.08 -> y2 <= y1 /\ (v1 < 760 -> y2 < y1)).
Proof. exact bs_softer. Qed.
Print Assumptions C141_bssa14_weak.
Theorem C141_bssa14_strong : forall src1 src2 rock a v1 v2 p, nga_gives src1 (with_v a v1) -> nga_gives src2 (with_v a v2) -> nga_gives rock (with_v a 760) -> n_z1 a = None ->
  180 <= v1 -> v1 < v2 -> v2 <= 360 -> pga_is (bssa14 rock) p -> 0.45 <= p ->
  compares (bssa14 src1) (bssa14 src2) (fun _ _ _ => True) Rlt (fun _ _ => True).
Proof. exact bs_softer_strong. Qed.
Print Assumptions C141_bssa14_strong.

(** ** CY14, relative to 1130 m/s at the same period *)
Theorem C141_cy14_weak : forall rock src1 src2 a x v1 v2, nga_gives rock (with_v a 1130) -> nga_gives src1 (with_v a v1) -> nga_gives src2 (with_v a v2) -> n_x a = Some x -> 0 <= n_rup a ->
  n_z1 a = None -> 0 < v1 -> v1 < v2 ->
  compares3 (cy14 rock) (cy14 src1) (cy14 src2)
    (fun T y0 y1 y2 => y0 <= 0.08 \/ 2 <= T /\ y0 <= 10 \/ 5 <= T -> y2 <= y1 /\ (v1 < 1130 -> y2 < y1))
    (fun y0 y1 y2 => y0 <= 0.08 -> y2 <= y1 /\ (v1 < 1130 -> y2 < y1)) (fun y0 y1 y2 => y0 <= 10 -> y2 <= y1 /\ (v1 < 1130 -> y2 < y1)).
Proof. exact cy_softer. Qed.
Print Assumptions C141_cy14_weak.
Theorem C141_cy14_strong : forall rock src1 src2 a x v1 v2, nga_gives rock (with_v a 1130) -> nga_gives src1 (with_v a v1) -> nga_gives src2 (with_v a v2) -> n_x a = Some x -> 0 <= n_rup a ->
  n_z1 a = None -> cy_reg a <> "japan" -> 180 <= v1 -> v1 < v2 -> v2 <= 360 ->
  compares3 (cy14 rock) (cy14 src1) (cy14 src2) (fun _ _ _ _ => True) (fun y0 y1 y2 => 0.35 <= y0 -> y1 < y2) (fun _ _ _ => True).
Proof. exact cy_softer_strong. Qed.
Print Assumptions C141_cy14_strong.

(** ** ASK14, relative to 1180 m/s at the same period *)
Theorem C141_ask14_weak : forall rock src1 src2 a t v1 v2, nga_gives rock (with_v a 1180) -> nga_gives src1 (with_v a v1) -> nga_gives src2 (with_v a v2) -> n_mech a = Some t -> as_geom a ->
  n_z1 a = None -> as_reg a <> "japan" -> 0 < v1 -> v1 < v2 ->
  compares3 (ask14 rock) (ask14 src1) (ask14 src2)
    (fun T y0 y1 y2 => 180 <= v1 /\ y0 <= 0.07 \/ 3 <= T -> y2 <= y1 /\ (v1 < 800 -> y2 < y1))
    (fun y0 y1 y2 => 180 <= v1 /\ y0 <= 0.07 -> y2 <= y1 /\ (v1 < 800 -> y2 < y1)) (fun y0 y1 y2 => 180 <= v1 /\ y0 <= 250 -> y2 <= y1 /\ (v1 < 800 -> y2 < y1)).
Proof. exact as_softer. Qed.
Print Assumptions C141_ask14_weak.
Theorem C141_ask14_strong : forall rock src1 src2 a t v1 v2, nga_gives rock (with_v a 1180) -> nga_gives src1 (with_v a v1) -> nga_gives src2 (with_v a v2) -> n_mech a = Some t -> as_geom a ->
  n_z1 a = None -> as_reg a <> "japan" -> 0 < v1 -> v1 < v2 -> v2 <= 360 ->
  compares3 (ask14 rock) (ask14 src1) (ask14 src2) (fun _ _ _ _ => True) (fun y0 y1 y2 => 0.4 <= y0 -> y1 < y2) (fun _ _ _ => True).
Proof. exact as_softer_strong. Qed.
Print Assumptions C141_ask14_strong.

(** ** CB14, relative to the PGA at 1100 m/s with the depth to 2.5 km/s that goes with it *)
Theorem C141_cb14_weak : forall src1 src2 rock a x t v1 v2 p, nga_gives src1 (with_v a v1) -> nga_gives src2 (with_v a v2) -> nga_gives rock (with_z25 (with_v a 1100) None) ->
  n_x a = Some x -> n_mech a = Some t -> cb_geom x a -> cb_reg a <> "japan" -> 0 < v1 -> v1 < v2 -> pga_is (cb14 rock) p ->
  compares (cb14 src1) (cb14 src2)
    (fun T y1 y2 => n_z25 a <> None \/ 0.15 <= T -> 180 <= v1 /\ p <= 0.02 \/ 2 <= T -> y2 < y1)
    (fun y1 y2 => n_z25 a <> None -> 180 <= v1 /\ p <= 0.02 -> y2 < y1) (fun y1 y2 => 180 <= v1 /\ p <= 0.02 -> y2 < y1).
Proof. exact cb_softer. Qed.
Print Assumptions C141_cb14_weak.
Theorem C141_cb14_strong : forall src1 src2 rock a x t v1 v2 p, nga_gives src1 (with_v a v1) -> nga_gives src2 (with_v a v2) -> nga_gives rock (with_z25 (with_v a 1100) None) ->
  n_x a = Some x -> n_mech a = Some t -> cb_geom x a -> cb_reg a <> "japan" -> n_z25 a <> None -> 0 < v1 -> v1 < v2 -> v2 <= 360 -> pga_is (cb14 rock) p -> 0.2 <= p ->
  compares (cb14 src1) (cb14 src2) (fun _ _ _ => True) Rlt (fun _ _ => True).
Proof. exact cb_softer_strong. Qed.
Print Assumptions C141_cb14_strong.

(** ** Concrete cases: weak and strong rock motion both occur *)
Definition site_ex (m r jb : R) (z25 : option R) : nga :=
  Nga m r jb (Some (-1)) None None 90 300 (Some 0) (Some 14) (Some 15) (Some 9) (Some 14) None z25 None (Some "SS") None None None None.
Definition far := site_ex 5 100 100 (Some 2).
Definition near := site_ex 7.9 1 0 (Some 2).
Lemma rep_pga_is {A} r (rows : list A) ca cv per med sd : reports r rows ca cv per med sd -> pga_is r (exp (med ca)).
Proof. intros (g & E & _ & _ & P & _). exists g. split; assumption. Qed.
Example C141_bssa14_nonvacuous : (exists p, pga_is (bssa14 (nga_src (with_v far 760))) p /\ p <= 0.08) /\ (exists p, pga_is (bssa14 (nga_src (with_v near 760))) p /\ 0.45 <= p).
Proof.
  split; (eexists; split; [eapply rep_pga_is, bs_reports; [apply nga_src_gives|cbn; lra]|cbv beta]); rewrite bs_760 by (apply bssa14_pga_in || reflexivity);
  unfold bs_rock, bssa14_event_spec, bssa14_path_spec, bs_mech_of, bs_region_of, option_of; cbn; unfold Q2R; cbn.
  - destruct (Rle_dec _ _); [|lra]. interval with (i_prec 40).
  - destruct (Rle_dec _ _); [lra|]. interval with (i_prec 40).
Qed.
Ltac minmax := repeat match goal with
  | |- context [Rmax ?a ?b] => first [rewrite (Rmax_left a b) by lra | rewrite (Rmax_right a b) by lra]
  | |- context [Rmin ?a ?b] => first [rewrite (Rmin_left a b) by lra | rewrite (Rmin_right a b) by lra] end.
Example C141_cy14_nonvacuous : (exists p, pga_is (cy14 (nga_src (with_v far 1130))) p /\ p <= 0.08) /\ (exists p, pga_is (cy14 (nga_src (with_v near 1130))) p /\ 0.35 <= p).
Proof.
  split; (eexists; split; [eapply rep_pga_is, (cy_reports _ _ (-1)); [apply nga_src_gives|reflexivity|cbn; lra|cbn; lra]|cbv beta]); rewrite cy_v, cy_1130, Rplus_0_r by reflexivity;
  unfold cy_ref, cy_tor, cy_mean_tor, cy_mech, option_of; cbn; unfold Q2R; cbn; minmax; unfold cosh; interval with (i_prec 40).
Qed.
Lemma as_vstar_pga : as_vstar ask14_pga_row 1180 = 1180.
Proof.
  unfold as_vstar, as_v1. replace (Q2R (ask14_period ask14_pga_row)) with 0 by (unfold Q2R; cbn; lra). rewrite Rmax_right, (Rmin_left 0.5) by lra.
  replace (0.5 / 0.5) with 1 by lra. rewrite ln_1, Rmult_0_r, exp_0. apply Rmin_left. lra.
Qed.
Example C141_ask14_nonvacuous : (exists p, pga_is (ask14 (nga_src (with_v far 1180))) p /\ p <= 0.07) /\ (exists p, pga_is (ask14 (nga_src (with_v near 1180))) p /\ 0.4 <= p).
Proof.
  split; (eexists; split; [eapply rep_pga_is, (as_reports _ _ "SS"); [apply nga_src_gives|reflexivity|cbn; lra|intros H; discriminate H|exact I]|cbv beta]); rewrite as_1180 by (apply ask14_pga_in || reflexivity);
  unfold as_rock; rewrite as_vstar_pga; unfold as_source_path, as_f1, as_clip, as_regional, as_tor, as_reg, as_mech, option_of; cbn; unfold Q2R; cbn.
  - minmax; repeat destruct (Rle_dec _ _); try lra; interval with (i_prec 40).
  - minmax; repeat destruct (Rle_dec _ _); try lra; interval with (i_prec 40).
Qed.
Lemma site_cb v m r jb z : cb_geom (-1) (with_z25 (with_v (site_ex m r jb z) v) None). Proof. repeat split; try (cbn; lra); discriminate. Qed.
Example C141_cb14_nonvacuous : (exists p, pga_is (cb14 (nga_src (with_z25 (with_v far 1100) None))) p /\ p <= 0.02) /\ (exists p, pga_is (cb14 (nga_src (with_z25 (with_v near 1100) None))) p /\ 0.2 <= p).
Proof.
  split; (eexists; split; [eapply rep_pga_is, (cb_reports _ _ (-1) "SS"); [apply nga_src_gives|reflexivity|reflexivity|cbn; lra|apply site_cb..]|cbv beta]); rewrite cb_1100;
  unfold cb_rock_pga, cb_source_path, cb_fmag, cb_fdis, cb_fflt, cb_fhng, cb_fhng_x, cb_fhyp, cb_fdip, cb_fatn, cb_fsite, cb_fsed, cb_z25, cb_tor, cb_hyp, cb_clip, cb_mech, cb_reg, option_of; cbn; unfold Q2R; cbn.
  all: assert (Z : exp (7089 * / 1000 - 1144 * / 1000 * ln 1100) <= 1) by interval with (i_prec 40).
  all: repeat match goal with |- context [if ?d then _ else _] => destruct d; try lra end; minmax; interval with (i_prec 40).
Qed.
Example C141_bssa14_case : compares (bssa14 (nga_src (with_v far 200))) (bssa14 (nga_src (with_v far 500))) (fun _ y1 y2 => y2 < y1) (fun y1 y2 => y2 < y1) (fun y1 y2 => y2 < y1).
Proof.
  destruct C141_bssa14_nonvacuous as [(p & HP & Hp) _].
  refine (compares_weaken _ _ _ _ _ _ _ _ _ _ _ (C141_bssa14_weak _ _ _ far 200 500 p (nga_src_gives _) (nga_src_gives _) (nga_src_gives _) eq_refl _ _ HP)); try lra.
  - intros T y1 y2 H. apply H; [left; exact Hp|lra].
  - intros y1 y2 H. apply H; [exact Hp|lra].
  - intros y1 y2 H. apply H; [exact Hp|lra].
Qed.
