(** * NGA-West2 models: how the predicted shaking changes with magnitude (C116-C119)

    [with_mag a m] is the scenario [a] with magnitude [m]; [resp2 flt_lt o1 o2] says every reported response
    (every spectral ordinate, PGA and PGV) of [o1] is smaller than that of [o2]. *)
From Coquelicot Require Import Coquelicot.
From Interval Require Import Tactic.
From Coq Require Import List.
From Verif Require Import M_cy14 M_bssa14 M_cb14 M_ask14 FrameworkProofs Anal Nga Outs P_cy14 P_bssa14 P_cb14 P_cb14b P_ask14 P_ask14b P_ngamag P_ngamag2 P_ngamag3 Spec_bssa14 P_bsmag P_bsdist P_cbsoft P_cbsoil P_cbsoil2.
Open Scope R_scope.
Open Scope string_scope.
Open Scope list_scope.

Definition mag_ex (re : option string) (r v : R) (h : option R) : nga :=
  Nga 6 r r (Some (-5)) None None 90 v None None (Some 15) h None None None None (Some "SS") re None None None.
Definition mag_src (re : option string) (r v : R) (h : option R) (m : R) : dict := nga_src (with_mag (mag_ex re r v h) m).

(** ** C116: BSSA14 *)
(** Every ordinate on rock and stiff soil. *)
Theorem C116_grows_stiff : forall src1 src2 a m1 m2, nga_gives src1 (with_mag a m1) -> nga_gives src2 (with_mag a m2) ->
  300 <= n_v a -> 0 <= n_jb a -> 0 <= m1 -> m1 < m2 ->
  exists o1 o2, gmm_out (bssa14 src1) o1 /\ gmm_out (bssa14 src2) o2 /\ resp2 flt_lt o1 o2.
Proof. exact bs_grows_300. Qed.
Print Assumptions C116_grows_stiff.
(** On soft soil near the fault the ordinate at 0.15 s of a magnitude 8 is more than one percent below that of a magnitude 7. *)
Theorem C116_soft_falls : forall src1 src2 a, nga_gives src1 (with_mag a 7) -> nga_gives src2 (with_mag a 8) -> 150 <= n_v a <= 200 -> 0 <= n_jb a <= 1 ->
  exists g1 g2 ps y1 y2 sa1 sa2, result (bssa14 src1) = Ok g1 /\ result (bssa14 src2) = Ok g2 /\
    result (g_periods g1) = Ok ps /\ result (g_periods g2) = Ok ps /\ nth_error ps 32 = Some (Fin 0.15) /\
    result (g_spec_accels g1) = Ok sa1 /\ result (g_spec_accels g2) = Ok sa2 /\ nth_error sa1 32 = Some (Fin y1) /\ nth_error sa2 32 = Some (Fin y2) /\
    0 < y2 < 0.99 * y1.
Proof. exact bs_soft_falls. Qed.
Print Assumptions C116_soft_falls.
Example C116_soft_falls_nonvacuous : exists g1 g2 ps y1 y2 sa1 sa2, result (bssa14 (mag_src None 1 180 None 7)) = Ok g1 /\ result (bssa14 (mag_src None 1 180 None 8)) = Ok g2 /\
    result (g_periods g1) = Ok ps /\ result (g_periods g2) = Ok ps /\ nth_error ps 32 = Some (Fin 0.15) /\
    result (g_spec_accels g1) = Ok sa1 /\ result (g_spec_accels g2) = Ok sa2 /\ nth_error sa1 32 = Some (Fin y1) /\ nth_error sa2 32 = Some (Fin y2) /\
    0 < y2 < 0.99 * y1.
Proof. apply (C116_soft_falls _ _ (mag_ex None 1 180 None)); try apply nga_src_gives; cbn; lra. Qed.
Theorem C116_grows_pga : forall src1 src2 a m1 m2, nga_gives src1 (with_mag a m1) -> nga_gives src2 (with_mag a m2) ->
  150 <= n_v a -> 0 <= n_jb a -> 0 <= m1 -> m1 < m2 ->
  exists o1 o2, gmm_out (bssa14 src1) o1 /\ gmm_out (bssa14 src2) o2 /\ flt_lt (o_pga o1) (o_pga o2).
Proof. exact bssa14_grows_pga. Qed.
Print Assumptions C116_grows_pga.
Example C116_nonvacuous :
  (exists o1 o2, gmm_out (bssa14 (mag_src None 10 310 None 5)) o1 /\ gmm_out (bssa14 (mag_src None 10 310 None 6.8)) o2 /\ resp2 flt_lt o1 o2) /\
  (exists o1 o2, gmm_out (bssa14 (mag_src None 10 250 None 5)) o1 /\ gmm_out (bssa14 (mag_src None 10 250 None 6.8)) o2 /\ flt_lt (o_pga o1) (o_pga o2)).
Proof.
  split; [apply (C116_grows_stiff _ _ (mag_ex None 10 310 None) 5 6.8)|apply (C116_grows_pga _ _ (mag_ex None 10 250 None) 5 6.8)]; try apply nga_src_gives; cbn; lra.
Qed.

(** ** C59: BSSA14, every ordinate falls with distance on soil too *)
Theorem C59_decay_soil : forall src1 src2 a r1 r2, nga_gives src1 (with_jb a r1) -> nga_gives src2 (with_jb a r2) ->
  3 <= n_mag a <= 8.5 -> 180 <= n_v a -> 0 <= r1 -> r1 < r2 ->
  r2 <= 230 \/ (In (bs_region_of a) ["global"; "california"; "new_zealand"; "taiwan"] /\ r2 <= 300) ->
  exists o1 o2, gmm_out (bssa14 src1) o1 /\ gmm_out (bssa14 src2) o2 /\ resp2 flt_lt o2 o1.
Proof.
  intros src1 src2 a r1 r2 G1 G2 Hm Hv H1 H12 H2. apply (bs_decay_180 src1 src2 a r1 r2); try assumption.
  destruct H2 as [H2|[H2 H3]]; [left; exact H2|right; split; [apply bs_grp_global, H2|exact H3]].
Qed.
Print Assumptions C59_decay_soil.
Example C59_decay_soil_nonvacuous : exists o1 o2,
  gmm_out (bssa14 (nga_src (with_jb (mag_ex (Some "global") 10 200 None) 12))) o1 /\ gmm_out (bssa14 (nga_src (with_jb (mag_ex (Some "global") 10 200 None) 290))) o2 /\ resp2 flt_lt o2 o1.
Proof. apply (C59_decay_soil _ _ (mag_ex (Some "global") 10 200 None) 12 290); try apply nga_src_gives; cbn; try lra. right. split; [auto|lra]. Qed.

(** ** C61: CB14, every ordinate falls with distance from 300 m/s; on soft soil it need not *)
Theorem C61_decay_stiff : forall src1 src2 a x t r1 r2, nga_gives src1 (with_rup a r1) -> nga_gives src2 (with_rup a r2) ->
  n_x a = Some x -> x < 0 -> n_mech a = Some t -> 0 < n_dip a <= 90 -> 3.3 <= n_mag a <= 8.5 -> 300 <= n_v a ->
  0 <= r1 -> r1 < r2 -> r2 <= 300 ->
  exists o1 o2, gmm_out (cb14 src1) o1 /\ gmm_out (cb14 src2) o2 /\ resp2 flt_lt o2 o1.
Proof. exact cb14_decay_stiff. Qed.
Print Assumptions C61_decay_stiff.
Example C61_decay_stiff_nonvacuous : exists o1 o2, gmm_out (cb14 (nga_src (with_rup (mag_ex (Some "japan") 10 310 None) 10))) o1 /\ gmm_out (cb14 (nga_src (with_rup (mag_ex (Some "japan") 10 310 None) 290))) o2 /\ resp2 flt_lt o2 o1.
Proof. apply (C61_decay_stiff _ _ (mag_ex (Some "japan") 10 310 None) (-5) "SS" 10 290); try apply nga_src_gives; cbn; try reflexivity; lra. Qed.
Theorem C61_soft_rises : forall src1 src2 a x h, nga_gives src1 (with_rup a 0) -> nga_gives src2 (with_rup a 6) ->
  n_region a = None \/ n_region a = Some "global" -> n_mech a = Some "SS" -> n_x a = Some x -> x < 0 -> 0 < n_dip a <= 90 ->
  n_hyp a = Some h -> h <= 7 -> n_mag a = 6.5 -> 150 <= n_v a <= 155 ->
  exists g1 g2 ps y1 y2 sa1 sa2, result (cb14 src1) = Ok g1 /\ result (cb14 src2) = Ok g2 /\
    result (g_periods g1) = Ok ps /\ result (g_periods g2) = Ok ps /\ nth_error ps 7 = Some (Fin 0.2) /\
    result (g_spec_accels g1) = Ok sa1 /\ result (g_spec_accels g2) = Ok sa2 /\ nth_error sa1 7 = Some (Fin y1) /\ nth_error sa2 7 = Some (Fin y2) /\
    0 < y1 /\ 1.03 * y1 < y2.
Proof. exact cb14_soft_rises. Qed.
Print Assumptions C61_soft_rises.
Example C61_soft_rises_nonvacuous : exists g1 g2 ps y1 y2 sa1 sa2, result (cb14 (nga_src (with_rup (with_mag (mag_ex None 10 152 (Some 6)) 6.5) 0))) = Ok g1 /\ result (cb14 (nga_src (with_rup (with_mag (mag_ex None 10 152 (Some 6)) 6.5) 6))) = Ok g2 /\
    result (g_periods g1) = Ok ps /\ result (g_periods g2) = Ok ps /\ nth_error ps 7 = Some (Fin 0.2) /\
    result (g_spec_accels g1) = Ok sa1 /\ result (g_spec_accels g2) = Ok sa2 /\ nth_error sa1 7 = Some (Fin y1) /\ nth_error sa2 7 = Some (Fin y2) /\
    0 < y1 /\ 1.03 * y1 < y2.
Proof. apply (C61_soft_rises _ _ (with_mag (mag_ex None 10 152 (Some 6)) 6.5) (-5) 6); try apply nga_src_gives; cbn; try reflexivity; try lra. left; reflexivity. Qed.

(** ** C117: CB14 *)
Theorem C117_grows_stiff : forall src1 src2 a x t h m1 m2, nga_gives src1 (with_mag a m1) -> nga_gives src2 (with_mag a m2) ->
  n_x a = Some x -> x < 0 -> n_mech a = Some t -> 0 < n_dip a <= 90 -> n_hyp a = Some h -> h <= 12 -> 0 <= n_rup a ->
  (400 <= n_v a /\ 3 <= n_rup a) \/ (300 <= n_v a /\ m2 <= 6.5) -> m1 < m2 ->
  exists o1 o2, gmm_out (cb14 src1) o1 /\ gmm_out (cb14 src2) o2 /\ resp2 flt_lt o1 o2.
Proof. exact cb14_grows_stiff. Qed.
Print Assumptions C117_grows_stiff.
Theorem C117_soft_falls : forall src1 src2 a x h, nga_gives src1 (with_mag a 5.5) -> nga_gives src2 (with_mag a 6.5) ->
  n_region a = None \/ n_region a = Some "global" -> n_mech a = Some "SS" -> n_x a = Some x -> x < 0 -> 0 < n_dip a <= 90 ->
  n_hyp a = Some h -> h <= 7 -> 0 <= n_rup a <= 2 -> 150 <= n_v a <= 155 ->
  exists g1 g2 ps y1 y2 sa1 sa2, result (cb14 src1) = Ok g1 /\ result (cb14 src2) = Ok g2 /\
    result (g_periods g1) = Ok ps /\ result (g_periods g2) = Ok ps /\ nth_error ps 9 = Some (Fin 0.3) /\
    result (g_spec_accels g1) = Ok sa1 /\ result (g_spec_accels g2) = Ok sa2 /\ nth_error sa1 9 = Some (Fin y1) /\ nth_error sa2 9 = Some (Fin y2) /\
    0 < y2 < 0.95 * y1.
Proof. exact cb14_soft_falls. Qed.
Print Assumptions C117_soft_falls.
Example C117_soft_falls_nonvacuous : exists g1 g2 ps y1 y2 sa1 sa2, result (cb14 (mag_src None 1 152 (Some 6) 5.5)) = Ok g1 /\ result (cb14 (mag_src None 1 152 (Some 6) 6.5)) = Ok g2 /\
    result (g_periods g1) = Ok ps /\ result (g_periods g2) = Ok ps /\ nth_error ps 9 = Some (Fin 0.3) /\
    result (g_spec_accels g1) = Ok sa1 /\ result (g_spec_accels g2) = Ok sa2 /\ nth_error sa1 9 = Some (Fin y1) /\ nth_error sa2 9 = Some (Fin y2) /\
    0 < y2 < 0.95 * y1.
Proof. apply (C117_soft_falls _ _ (mag_ex None 1 152 (Some 6)) (-5) 6); try apply nga_src_gives; cbn; try reflexivity; try lra. left; reflexivity. Qed.
Theorem C117_grows_pga : forall src1 src2 a x t h m1 m2, nga_gives src1 (with_mag a m1) -> nga_gives src2 (with_mag a m2) ->
  n_x a = Some x -> x < 0 -> n_mech a = Some t -> 0 < n_dip a <= 90 -> n_hyp a = Some h -> h <= 12 -> 150 <= n_v a -> 0 <= n_rup a ->
  (3 <= n_rup a \/ m2 <= 6.5) -> m1 < m2 ->
  exists o1 o2, gmm_out (cb14 src1) o1 /\ gmm_out (cb14 src2) o2 /\ flt_lt (o_pga o1) (o_pga o2).
Proof. exact cb14_grows_pga. Qed.
Print Assumptions C117_grows_pga.
Theorem C117_deep_falls : forall src1 src2 a x t h, nga_gives src1 (with_mag a 5.5) -> nga_gives src2 (with_mag a 6.5) ->
  n_x a = Some x -> x < 0 -> n_mech a = Some t -> 0 < n_dip a <= 90 -> n_hyp a = Some h -> 20 <= h -> 150 <= n_v a -> 0 <= n_rup a <= 10 ->
  exists o1 o2, gmm_out (cb14 src1) o1 /\ gmm_out (cb14 src2) o2 /\ flt_lt (o_pga o2) (o_pga o1).
Proof. exact cb14_deep_falls. Qed.
Print Assumptions C117_deep_falls.
Example C117_nonvacuous :
  (exists o1 o2, gmm_out (cb14 (mag_src None 10 420 (Some 9) 5)) o1 /\ gmm_out (cb14 (mag_src None 10 420 (Some 9) 6.8)) o2 /\ resp2 flt_lt o1 o2) /\
  (exists o1 o2, gmm_out (cb14 (mag_src None 10 250 (Some 9) 5)) o1 /\ gmm_out (cb14 (mag_src None 10 250 (Some 9) 6.8)) o2 /\ flt_lt (o_pga o1) (o_pga o2)) /\
  (exists o1 o2, gmm_out (cb14 (mag_src None 8 250 (Some 20) 5.5)) o1 /\ gmm_out (cb14 (mag_src None 8 250 (Some 20) 6.5)) o2 /\ flt_lt (o_pga o2) (o_pga o1)).
Proof.
  repeat split.
  - apply (C117_grows_stiff _ _ (mag_ex None 10 420 (Some 9)) (-5) "SS" 9 5 6.8); try apply nga_src_gives; cbn; try reflexivity; lra.
  - apply (C117_grows_pga _ _ (mag_ex None 10 250 (Some 9)) (-5) "SS" 9 5 6.8); try apply nga_src_gives; cbn; try reflexivity; lra.
  - apply (C117_deep_falls _ _ (mag_ex None 8 250 (Some 20)) (-5) "SS" 20); try apply nga_src_gives; cbn; try reflexivity; lra.
Qed.

(** ** C118: CY14 *)
Theorem C118_grows : forall src1 src2 a x m1 m2, nga_gives src1 (with_mag a m1) -> nga_gives src2 (with_mag a m2) ->
  n_x a = Some x -> (n_hw a = None \/ n_hw a = Some false) -> n_tor a = None -> n_dpp a = None -> 180 <= n_v a -> 0 <= n_rup a ->
  (n_region a = None \/ n_region a = Some "california" \/ n_region a = Some "china" \/ m2 <= 6 \/ (6 < m1 /\ m2 < 6.9) \/ 6.9 <= m1) ->
  m1 < m2 -> m2 <= 10 ->
  exists o1 o2, gmm_out (cy14 src1) o1 /\ gmm_out (cy14 src2) o2 /\ resp2 flt_lt o1 o2.
Proof. exact cy14_grows. Qed.
Print Assumptions C118_grows.
Theorem C118_japan_falls : forall src1 src2 a x, nga_gives src1 (with_mag a 6) -> nga_gives src2 (with_mag a 6.3) ->
  n_x a = Some x -> (n_hw a = None \/ n_hw a = Some false) -> n_tor a = None -> n_dpp a = None -> 180 <= n_v a -> 100 <= n_rup a ->
  n_region a = Some "japan" \/ n_region a = Some "italy" ->
  exists o1 o2, gmm_out (cy14 src1) o1 /\ gmm_out (cy14 src2) o2 /\ flt_lt (o_pga o2) (o_pga o1).
Proof. exact cy14_japan_falls. Qed.
Print Assumptions C118_japan_falls.
Example C118_nonvacuous :
  (exists o1 o2, gmm_out (cy14 (mag_src None 10 400 None 4.5)) o1 /\ gmm_out (cy14 (mag_src None 10 400 None 7.5)) o2 /\ resp2 flt_lt o1 o2) /\
  (exists o1 o2, gmm_out (cy14 (mag_src (Some "japan") 10 400 None 6.2)) o1 /\ gmm_out (cy14 (mag_src (Some "japan") 10 400 None 6.8)) o2 /\ resp2 flt_lt o1 o2) /\
  (exists o1 o2, gmm_out (cy14 (mag_src (Some "japan") 150 400 None 6)) o1 /\ gmm_out (cy14 (mag_src (Some "japan") 150 400 None 6.3)) o2 /\ flt_lt (o_pga o2) (o_pga o1)).
Proof.
  repeat split.
  - apply (C118_grows _ _ (mag_ex None 10 400 None) (-5) 4.5 7.5); try apply nga_src_gives; cbn; try reflexivity; try lra; try (left; reflexivity).
  - apply (C118_grows _ _ (mag_ex (Some "japan") 10 400 None) (-5) 6.2 6.8); try apply nga_src_gives; cbn; try reflexivity; try lra; try (left; reflexivity).
  - apply (C118_japan_falls _ _ (mag_ex (Some "japan") 150 400 None) (-5)); try apply nga_src_gives; cbn; try reflexivity; try lra; try (left; reflexivity).
Qed.

(** ** C119: ASK14 *)
Theorem C119_grows : forall src1 src2 a t m1 m2, nga_gives src1 (with_mag a m1) -> nga_gives src2 (with_mag a m2) ->
  n_mech a = Some t -> n_hw a <> Some true -> match n_z1 a with Some z => 0 <= z | None => True end -> 180 <= n_v a ->
  (n_tor a <> None /\ 2 <= n_rup a \/ 8 <= n_rup a) -> m1 < m2 -> m2 <= 8.5 ->
  exists o1 o2, gmm_out (ask14 src1) o1 /\ gmm_out (ask14 src2) o2 /\ resp2 flt_lt o1 o2.
Proof. exact ask14_grows. Qed.
Print Assumptions C119_grows.
Theorem C119_near_falls : forall src1 src2 a t, nga_gives src1 (with_mag a 7) -> nga_gives src2 (with_mag a 7.2) ->
  n_mech a = Some t -> n_hw a <> Some true -> match n_z1 a with Some z => 0 <= z | None => True end -> 180 <= n_v a -> n_tor a = None -> 0 <= n_rup a <= 5 ->
  exists o1 o2, gmm_out (ask14 src1) o1 /\ gmm_out (ask14 src2) o2 /\ flt_lt (o_pga o2) (o_pga o1).
Proof. exact ask14_near_falls. Qed.
Print Assumptions C119_near_falls.
Theorem C119_small_falls : forall src1 src2 a t, nga_gives src1 (with_mag a 4) -> nga_gives src2 (with_mag a 4.2) ->
  n_mech a = Some t -> n_hw a <> Some true -> match n_z1 a with Some z => 0 <= z | None => True end -> 180 <= n_v a -> 0 <= n_rup a <= 0.5 ->
  exists o1 o2, gmm_out (ask14 src1) o1 /\ gmm_out (ask14 src2) o2 /\ flt_lt (o_pga o2) (o_pga o1).
Proof. exact ask14_small_falls. Qed.
Print Assumptions C119_small_falls.
Example C119_nonvacuous :
  (exists o1 o2, gmm_out (ask14 (mag_src (Some "japan") 10 400 None 4.5)) o1 /\ gmm_out (ask14 (mag_src (Some "japan") 10 400 None 7.5)) o2 /\ resp2 flt_lt o1 o2) /\
  (exists o1 o2, gmm_out (ask14 (mag_src None 3 400 None 7)) o1 /\ gmm_out (ask14 (mag_src None 3 400 None 7.2)) o2 /\ flt_lt (o_pga o2) (o_pga o1)) /\
  (exists o1 o2, gmm_out (ask14 (mag_src None 0.3 400 None 4)) o1 /\ gmm_out (ask14 (mag_src None 0.3 400 None 4.2)) o2 /\ flt_lt (o_pga o2) (o_pga o1)).
Proof.
  repeat split.
  - apply (C119_grows _ _ (mag_ex (Some "japan") 10 400 None) "SS" 4.5 7.5); try apply nga_src_gives; cbn; try reflexivity; try discriminate; lra.
  - apply (C119_near_falls _ _ (mag_ex None 3 400 None) "SS"); try apply nga_src_gives; cbn; try reflexivity; try discriminate; try exact I; lra.
  - apply (C119_small_falls _ _ (mag_ex None 0.3 400 None) "SS"); try apply nga_src_gives; cbn; try reflexivity; try discriminate; try exact I; lra.
Qed.
