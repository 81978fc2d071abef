(** * C137: how basin depth changes the NGA-West2 medians

    [with_z1 a (Some z)] is the scenario [a] with depth_1_0 = z km, [with_z25 a (Some z)] with depth_2_5 = z km.
    [compares r1 r2 sa pga pgv] (Spec_basin.v): both constructions succeed with the same reported periods, [sa T y1 y2]
    holds of the two spectral accelerations at every reported period T, [pga] of the PGAs, [pgv] of the PGVs. *)
From Coquelicot Require Import Coquelicot.
From Interval Require Import Tactic.
From Coq Require Import List.
From Verif Require Import M_cy14 M_bssa14 M_cb14 M_ask14 FrameworkProofs Nga Outs Spec_cy14 Spec_cb14 P_ngacont Spec_basin P_basin.
Open Scope R_scope.
Open Scope string_scope.
Open Scope list_scope.

(** ** BSSA14: nothing below 0.65 s, never less above, and no further change from 1.2 km down *)
Theorem C137_bssa14 : forall src1 src2 a z1 z2, nga_gives src1 (with_z1 a (Some z1)) -> nga_gives src2 (with_z1 a (Some z2)) -> 0 < n_v a -> z1 <= z2 ->
  compares (bssa14 src1) (bssa14 src2) (fun T y1 y2 => y1 <= y2 /\ (T < 0.65 -> y1 = y2)) eq eq.
Proof. exact bs_deeper. Qed.
Print Assumptions C137_bssa14.
Theorem C137_bssa14_saturates : forall src1 src2 a z1 z2, nga_gives src1 (with_z1 a (Some z1)) -> nga_gives src2 (with_z1 a (Some z2)) -> 0 < n_v a -> 1.2 <= z1 -> 1.2 <= z2 ->
  exists o, gmm_out (bssa14 src1) o /\ gmm_out (bssa14 src2) o.
Proof. exact bs_saturates. Qed.
Print Assumptions C137_bssa14_saturates.

(** ** CY14: outside Japan nothing up to 0.25 s and more above; in Japan more everywhere *)
Theorem C137_cy14 : forall src1 src2 a x z1 z2, nga_gives src1 (with_z1 a (Some z1)) -> nga_gives src2 (with_z1 a (Some z2)) -> n_x a = Some x -> 0 <= n_rup a -> 0 < n_v a ->
  cy_reg a <> "japan" -> z1 < z2 ->
  compares (cy14 src1) (cy14 src2) (fun T y1 y2 => (T <= 0.25 -> y1 = y2) /\ (0.25 < T -> y1 < y2)) eq Rlt.
Proof. exact cy_deeper. Qed.
Print Assumptions C137_cy14.
Theorem C137_cy14_japan : forall src1 src2 a x z1 z2, nga_gives src1 (with_z1 a (Some z1)) -> nga_gives src2 (with_z1 a (Some z2)) -> n_x a = Some x -> 0 <= n_rup a -> 0 < n_v a ->
  n_region a = Some "japan" -> z1 < z2 -> compares (cy14 src1) (cy14 src2) (fun _ => Rlt) Rlt Rlt.
Proof. exact cy_deeper_jp. Qed.
Print Assumptions C137_cy14_japan.

(** ** ASK14: more everywhere below 400 m/s; above, less at short periods and more at long ones; nothing at 1180 m/s *)
Theorem C137_ask14_soft : forall src1 src2 a t z1 z2, nga_gives src1 (with_z1 a (Some z1)) -> nga_gives src2 (with_z1 a (Some z2)) -> n_mech a = Some t -> as_geom a ->
  0 < n_v a < 400 -> 0 <= z1 -> z1 < z2 -> compares (ask14 src1) (ask14 src2) (fun _ => Rlt) Rlt Rlt.
Proof. exact as_deeper_soft. Qed.
Print Assumptions C137_ask14_soft.
Theorem C137_ask14_stiff : forall src1 src2 a t z1 z2, nga_gives src1 (with_z1 a (Some z1)) -> nga_gives src2 (with_z1 a (Some z2)) -> n_mech a = Some t -> as_geom a ->
  400 < n_v a -> n_v a <> 1180 -> 0 <= z1 -> z1 < z2 ->
  compares (ask14 src1) (ask14 src2) (fun T y1 y2 => (T <= 0.2 -> y2 < y1) /\ (0.25 < T -> y1 < y2)) (fun y1 y2 => y2 < y1) Rlt.
Proof. exact as_deeper_stiff. Qed.
Print Assumptions C137_ask14_stiff.
Theorem C137_ask14_1180 : forall src1 src2 a t z1 z2, nga_gives src1 (with_z1 a (Some z1)) -> nga_gives src2 (with_z1 a (Some z2)) -> n_mech a = Some t -> as_geom a ->
  n_v a = 1180 -> 0 <= z1 -> 0 <= z2 -> exists o, gmm_out (ask14 src1) o /\ gmm_out (ask14 src2) o.
Proof. exact as_depth_1180. Qed.
Print Assumptions C137_ask14_1180.

(** ** CB14: nothing between 1 and 3 km, more below; above 1 km less at short periods and more at long ones *)
Theorem C137_cb14_deep : forall src1 src2 a x t z1 z2, nga_gives src1 (with_z25 a (Some z1)) -> nga_gives src2 (with_z25 a (Some z2)) -> n_x a = Some x -> n_mech a = Some t ->
  cb_geom x a -> 0 < n_v a -> 1 <= z1 -> z1 < z2 ->
  compares (cb14 src1) (cb14 src2) (fun _ y1 y2 => (z2 <= 3 -> y1 = y2) /\ (3 < z2 -> y1 < y2)) (fun y1 y2 => (z2 <= 3 -> y1 = y2) /\ (3 < z2 -> y1 < y2)) (fun y1 y2 => (z2 <= 3 -> y1 = y2) /\ (3 < z2 -> y1 < y2)).
Proof. exact cb_deeper. Qed.
Print Assumptions C137_cb14_deep.
Theorem C137_cb14_shallow : forall src1 src2 a x t z1 z2, nga_gives src1 (with_z25 a (Some z1)) -> nga_gives src2 (with_z25 a (Some z2)) -> n_x a = Some x -> n_mech a = Some t ->
  cb_geom x a -> 0 < n_v a -> cb_reg a <> "japan" -> z1 < z2 -> z2 <= 1 ->
  compares (cb14 src1) (cb14 src2) (fun T y1 y2 => (T <= 0.1 -> y2 < y1) /\ (0.15 <= T -> y1 < y2)) (fun y1 y2 => y2 < y1) Rlt.
Proof. exact cb_shallow_world. Qed.
Print Assumptions C137_cb14_shallow.
Theorem C137_cb14_shallow_japan : forall src1 src2 a x t z1 z2, nga_gives src1 (with_z25 a (Some z1)) -> nga_gives src2 (with_z25 a (Some z2)) -> n_x a = Some x -> n_mech a = Some t ->
  cb_geom x a -> 0 < n_v a -> n_region a = Some "japan" -> z1 < z2 -> z2 <= 1 ->
  compares (cb14 src1) (cb14 src2) (fun T y1 y2 => (T <= 0.25 -> y2 < y1) /\ (0.3 <= T -> y1 < y2)) (fun y1 y2 => y2 < y1) Rlt.
Proof. exact cb_shallow_japan. Qed.
Print Assumptions C137_cb14_shallow_japan.

(** ** Concrete cases *)
Definition basin_ex (re : option string) (v : R) : nga :=
  Nga 6.5 20 18 (Some (-5)) None None 90 v None None (Some 15) (Some 9) None None None None (Some "SS") re None None None.
Definition src_z1 re v z := nga_src (with_z1 (basin_ex re v) (Some z)).
Definition src_z25 re v z := nga_src (with_z25 (basin_ex re v) (Some z)).
Lemma basin_geom re v : as_geom (basin_ex re v). Proof. intros H. discriminate H. Qed.
Lemma basin_cb re v : cb_geom (-5) (basin_ex re v). Proof. repeat split; try (cbn; lra); discriminate. Qed.
Example C137_bssa14_nonvacuous : compares (bssa14 (src_z1 None 250 0.1)) (bssa14 (src_z1 None 250 0.8)) (fun T y1 y2 => y1 <= y2 /\ (T < 0.65 -> y1 = y2)) eq eq /\
  exists o, gmm_out (bssa14 (src_z1 None 250 1.3)) o /\ gmm_out (bssa14 (src_z1 None 250 4)) o.
Proof. split; [apply (C137_bssa14 _ _ (basin_ex None 250) 0.1 0.8)|apply (C137_bssa14_saturates _ _ (basin_ex None 250) 1.3 4)]; try apply nga_src_gives; cbn; lra. Qed.
Example C137_cy14_nonvacuous :
  compares (cy14 (src_z1 (Some "california") 250 0.1)) (cy14 (src_z1 (Some "california") 250 0.8)) (fun T y1 y2 => (T <= 0.25 -> y1 = y2) /\ (0.25 < T -> y1 < y2)) eq Rlt /\
  compares (cy14 (src_z1 (Some "japan") 250 0.1)) (cy14 (src_z1 (Some "japan") 250 0.8)) (fun _ => Rlt) Rlt Rlt.
Proof.
  split; [apply (C137_cy14 _ _ (basin_ex (Some "california") 250) (-5) 0.1 0.8)|apply (C137_cy14_japan _ _ (basin_ex (Some "japan") 250) (-5) 0.1 0.8)];
  try apply nga_src_gives; cbn; try reflexivity; try lra; discriminate.
Qed.
Example C137_ask14_nonvacuous :
  compares (ask14 (src_z1 None 250 0.1)) (ask14 (src_z1 None 250 0.8)) (fun _ => Rlt) Rlt Rlt /\
  compares (ask14 (src_z1 None 600 0.1)) (ask14 (src_z1 None 600 0.8)) (fun T y1 y2 => (T <= 0.2 -> y2 < y1) /\ (0.25 < T -> y1 < y2)) (fun y1 y2 => y2 < y1) Rlt /\
  exists o, gmm_out (ask14 (src_z1 None 1180 0.1)) o /\ gmm_out (ask14 (src_z1 None 1180 0.8)) o.
Proof.
  split; [|split]; [apply (C137_ask14_soft _ _ (basin_ex None 250) "SS" 0.1 0.8)|apply (C137_ask14_stiff _ _ (basin_ex None 600) "SS" 0.1 0.8)|apply (C137_ask14_1180 _ _ (basin_ex None 1180) "SS" 0.1 0.8)];
  try apply nga_src_gives; try apply basin_geom; cbn; try reflexivity; lra.
Qed.
Example C137_cb14_nonvacuous :
  compares (cb14 (src_z25 None 250 2)) (cb14 (src_z25 None 250 5)) (fun _ => Rlt) Rlt Rlt /\
  compares (cb14 (src_z25 None 250 0.2)) (cb14 (src_z25 None 250 0.9)) (fun T y1 y2 => (T <= 0.1 -> y2 < y1) /\ (0.15 <= T -> y1 < y2)) (fun y1 y2 => y2 < y1) Rlt /\
  compares (cb14 (src_z25 (Some "japan") 250 0.2)) (cb14 (src_z25 (Some "japan") 250 0.9)) (fun T y1 y2 => (T <= 0.25 -> y2 < y1) /\ (0.3 <= T -> y1 < y2)) (fun y1 y2 => y2 < y1) Rlt.
Proof.
  split; [|split].
  - refine (compares_weaken _ _ _ _ _ _ _ _ _ _ _ (C137_cb14_deep _ _ (basin_ex None 250) (-5) "SS" 2 5 _ _ _ _ _ _ _ _));
      try apply nga_src_gives; try apply basin_cb; cbn; try reflexivity; try lra; intros; destruct H as [_ H]; apply H; lra.
  - apply (C137_cb14_shallow _ _ (basin_ex None 250) (-5) "SS" 0.2 0.9); try apply nga_src_gives; try apply basin_cb; cbn; try reflexivity; try lra; discriminate.
  - apply (C137_cb14_shallow_japan _ _ (basin_ex (Some "japan") 250) (-5) "SS" 0.2 0.9); try apply nga_src_gives; try apply basin_cb; cbn; try reflexivity; lra.
Qed.
