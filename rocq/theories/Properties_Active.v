(** * European and subduction models: properties C33, C34, C37, C38, C70-C73 *)
From Coquelicot Require Import Coquelicot.
From Interval Require Import Tactic.
From Coq Require Import List.
From Verif Require Import M_asb14 M_aga16 FrameworkProofs Anal Nga Outs Outs1 Cont Spec_asb14 P_asb14 Spec_sub P_aga16 P_aga16b.
Open Scope R_scope.
Open Scope string_scope.
Open Scope list_scope.

(** A magnitude 6.5 event 30 km away. *)
Definition ex_asb (v : R) : asb := Asb None (Some 30) (Some 25) 6.5 v "NS".

(** ** C33: ASB14 distance metric precedence *)
Theorem C33_no_metric_rejected : forall src a, asb_gives src a -> a_jb a = None -> a_hyp a = None -> a_epi a = None ->
  result (asb14 src) = Raise ENotImpl.
Proof. exact asb14_none. Qed.
Print Assumptions C33_no_metric_rejected.
Theorem C33_any_metric_accepted : forall src a, asb_gives src a -> a_jb a <> None \/ a_hyp a <> None \/ a_epi a <> None ->
  exists o, gmm_out (asb14 src) o.
Proof. exact asb14_some. Qed.
Print Assumptions C33_any_metric_accepted.
Theorem C33_precedence : forall src1 src2 a1 a2, asb_gives src1 a1 -> asb_gives src2 a2 ->
  a_m a1 = a_m a2 -> a_v a1 = a_v a2 -> a_mech a1 = a_mech a2 ->
  (exists d, a_jb a1 = Some d /\ a_jb a2 = Some d) \/
  (a_jb a1 = None /\ a_jb a2 = None /\ exists d, a_hyp a1 = Some d /\ a_hyp a2 = Some d) ->
  exists o, gmm_out (asb14 src1) o /\ gmm_out (asb14 src2) o.
Proof. exact asb14_precedence. Qed.
Print Assumptions C33_precedence.
Theorem C33_published_median : forall src a d t c0, asb_gives src a -> asb_choice a = Some (d, t) -> nth_error t 0 = Some c0 -> 0 < a_v a ->
  exists o, gmm_out (asb14 src) o /\
    Forall2 (fun c s => s = Fin (exp (asb_val a d c0 c))) (skipn 2 t) (o_sa o) /\
    (forall c, nth_error t 0 = Some c -> o_pga o = Fin (exp (asb_val a d c0 c))) /\
    (forall c, nth_error t 1 = Some c -> o_pgv o = Fin (exp (asb_val a d c0 c))).
Proof. exact asb14_median. Qed.
Print Assumptions C33_published_median.
Example C33_nonvacuous : exists o, gmm_out (asb14 (asb_src (ex_asb 400))) o /\
  gmm_out (asb14 (asb_src (Asb None (Some 30) (Some 999) 6.5 400 "NS"))) o.
Proof. apply (C33_precedence _ _ (ex_asb 400) (Asb None (Some 30) (Some 999) 6.5 400 "NS")); try apply asb_src_gives; try reflexivity. right. repeat split. exists 30; split; reflexivity. Qed.

(** ** C34: ASB14 reference site; continuity in magnitude and velocity *)
Theorem C34_reference_site : forall src a d t, asb_gives src a -> asb_choice a = Some (d, t) -> a_v a = 750 ->
  exists o, gmm_out (asb14 src) o /\
    Forall2 (fun c s => s = Fin (exp (asb_ref_val c (a_mech a) (a_m a) d))) (skipn 2 t) (o_sa o) /\
    (forall c, nth_error t 0 = Some c -> o_pga o = Fin (exp (asb_ref_val c (a_mech a) (a_m a) d))) /\
    (forall c, nth_error t 1 = Some c -> o_pgv o = Fin (exp (asb_ref_val c (a_mech a) (a_m a) d))).
Proof. exact asb14_reference. Qed.
Print Assumptions C34_reference_site.
Theorem C34_continuous_in_magnitude : forall a m0, 0 < a_v a ->
  resp_continuous (fun m o => exists src, asb_gives src (asb_with_m a m) /\ gmm_out (asb14 src) o) m0.
Proof. exact asb14_cont_mag. Qed.
Print Assumptions C34_continuous_in_magnitude.
Theorem C34_continuous_in_velocity : forall a v0, 0 < v0 ->
  resp_continuous (fun v o => exists src, asb_gives src (asb_with_v a v) /\ gmm_out (asb14 src) o) v0.
Proof. exact asb14_cont_vs. Qed.
Print Assumptions C34_continuous_in_velocity.
Example C34_nonvacuous : exists o, gmm_out (asb14 (asb_src (asb_with_m (ex_asb 750) 6.75))) o.
Proof. apply (C33_any_metric_accepted _ _ (asb_src_gives _)). right; left; cbn; discriminate. Qed.

(** ** C70: ASB14 finite, positive, sigma bounded, decays with the chosen distance *)
Theorem C70_finite_positive : forall src a, asb_gives src a -> a_jb a <> None \/ a_hyp a <> None \/ a_epi a <> None -> 0 < a_v a ->
  exists o, gmm_out (asb14 src) o /\ List.length (o_sa o) = 62%nat /\ List.length (o_sd o) = 62%nat /\
   all_resp fpos o /\ all_std (fun s => exists x, s = Fin x /\ 0.68 <= x <= 0.84) o.
Proof. exact asb14_positive. Qed.
Print Assumptions C70_finite_positive.
Theorem C70_decay : forall src1 src2 a d1 d2, asb_gives src1 (asb_dist a d1) -> asb_gives src2 (asb_dist a d2) ->
  4 <= a_m a <= 8 -> 0 < a_v a -> 0 <= d1 -> d1 < d2 ->
  exists o1 o2, gmm_out (asb14 src1) o1 /\ gmm_out (asb14 src2) o2 /\ flt_lt (o_pga o2) (o_pga o1) /\ (750 <= a_v a -> resp2 flt_lt o2 o1).
Proof. exact asb14_decay. Qed.
Print Assumptions C70_decay.
Theorem C70_published_sigma : forall src a d t, asb_gives src a -> asb_choice a = Some (d, t) ->
  exists o, gmm_out (asb14 src) o /\
    o_sd o = map (fun c => Fin (Q2R (asb14_sd_total c))) (skipn 2 t) /\
    (forall c, nth_error t 0 = Some c -> o_sd_pga o = Fin (Q2R (asb14_sd_total c))) /\
    (forall c, nth_error t 1 = Some c -> o_sd_pgv o = Fin (Q2R (asb14_sd_total c))).
Proof. exact asb14_sigma. Qed.
Print Assumptions C70_published_sigma.
Example C70_nonvacuous : exists o1 o2, gmm_out (asb14 (asb_src (asb_dist (ex_asb 800) 10))) o1 /\ gmm_out (asb14 (asb_src (asb_dist (ex_asb 800) 20))) o2 /\ resp2 flt_lt o2 o1.
Proof.
  destruct (C70_decay _ _ (ex_asb 800) 10 20 (asb_src_gives _) (asb_src_gives _)) as (o1 & o2 & O1 & O2 & _ & D); try (cbn; lra).
  exists o1, o2. split; [exact O1|]. split; [exact O2|]. apply D. cbn; lra.
Qed.

(** ** Subduction: AGA16 *)
Definition ex_sub (ev : string) (v : R) : sub := Sub 7.9 (Some 60) (Some 80) (Some 50) v ev (Some "backarc").
Example ex_sub_ready v : sub_ready (ex_sub "interface" v) 60 50 /\ sub_ready (ex_sub "intraslab" v) 80 50.
Proof. unfold sub_ready. cbn. repeat split; auto; discriminate. Qed.

(** ** C37: AGA16 published median, continuous in magnitude *)
Theorem C37_published_median : forall src u a l scale d z cs0 rest, sub_gives src u -> sub_ready u d z ->
  adj_vals a (slab u) (map (fun c => Q2R (aga16_period c)) aga16_coeff) = Some l ->
  combine aga16_coeff l = cs0 :: rest -> 0 <= d -> 0 < u_v u ->
  exists o, gmm_out1 (aga16 src (adj_of a) (Fin scale)) o /\
    Forall2 (fun cs s => s = Fin (exp (aga16_val u scale d z (fst cs0) (snd cs0) cs))) rest (q_sa o) /\
    q_pga o = Fin (exp (aga16_val u scale d z (fst cs0) (snd cs0) cs0)).
Proof. exact aga16_median. Qed.
Print Assumptions C37_published_median.
Theorem C37_continuous_in_magnitude : forall u a l scale d z m0, sub_ready u d z ->
  adj_vals a (slab u) (map (fun c => Q2R (aga16_period c)) aga16_coeff) = Some l -> 0 <= d -> 0 < u_v u ->
  resp_continuous1 (fun m o => exists src, sub_gives src (sub_with_m u m) /\ gmm_out1 (aga16 src (adj_of a) (Fin scale)) o) m0.
Proof. exact aga16_cont_mag. Qed.
Print Assumptions C37_continuous_in_magnitude.
Example C37_nonvacuous : exists o, gmm_out1 (aga16 (sub_src (ex_sub "interface" 400)) AdjNone (Fin 1)) o.
Proof.
  destruct (C37_published_median (sub_src (ex_sub "interface" 400)) (ex_sub "interface" 400) AdjDefault _ 1 60 50 _ _ (sub_src_gives _) (proj1 (ex_sub_ready 400)) eq_refl eq_refl) as (o & O & _); [lra|cbn; lra|].
  exists o. exact O.
Qed.

(** ** C38: AGA16 is continuous in v_s30 except at the v_lin above 1000 m/s *)
Theorem C38_continuous_in_velocity : forall u a l scale d z v0, sub_ready u d z ->
  adj_vals a (slab u) (map (fun c => Q2R (aga16_period c)) aga16_coeff) = Some l -> 0 <= d -> 0 < v0 ->
  (forall c, In c aga16_coeff -> 1000 < Q2R (aga16_v_lin c) -> v0 <> Q2R (aga16_v_lin c)) ->
  resp_continuous1 (fun v o => exists src, sub_gives src (sub_with_v u v) /\ gmm_out1 (aga16 src (adj_of a) (Fin scale)) o) v0.
Proof. exact aga16_cont_vs. Qed.
Print Assumptions C38_continuous_in_velocity.
Theorem C38_discontinuous_above_1000 : forall u a l scale d z c, sub_ready u d z ->
  adj_vals a (slab u) (map (fun c => Q2R (aga16_period c)) aga16_coeff) = Some l -> 0 <= d ->
  In c aga16_coeff -> 1000 < Q2R (aga16_v_lin c) ->
  ~ resp_continuous1 (fun v o => exists src, sub_gives src (sub_with_v u v) /\ gmm_out1 (aga16 src (adj_of a) (Fin scale)) o) (Q2R (aga16_v_lin c)).
Proof. exact aga16_not_cont. Qed.
Print Assumptions C38_discontinuous_above_1000.
(** There are such rows: 0.05, 0.075 and 0.1 s. *)
Example C38_nonvacuous : exists c, In c aga16_coeff /\ Q2R (aga16_period c) = 0.05 /\ 1000 < Q2R (aga16_v_lin c).
Proof.
  assert (E : exists c, nth_error aga16_coeff 2 = Some c /\ aga16_period c = (5#100)%Q /\ aga16_v_lin c = (10535#10)%Q) by (eexists; repeat split; reflexivity).
  destruct E as (c & H & E1 & E2). exists c. split; [eapply nth_error_In; exact H|]. rewrite E1, E2. unfold Q2R; cbn. split; lra.
Qed.

(** ** C71: AGA16 finite, positive, constant sigma, decay *)
Theorem C71_finite_positive : forall src u a l scale d z, sub_gives src u -> sub_ready u d z ->
  adj_vals a (slab u) (map (fun c => Q2R (aga16_period c)) aga16_coeff) = Some l -> 0 <= d -> 0 < u_v u ->
  exists o, gmm_out1 (aga16 src (adj_of a) (Fin scale)) o /\ List.length (q_sa o) = 22%nat /\ List.length (q_sd o) = 22%nat /\
    all_resp1 fpos o /\ all_std1 (fun s => exists x, s = Fin x /\ x * x = 0.6 * 0.6 + 0.43 * 0.43 /\ 0.738 <= x <= 0.739) o.
Proof. exact aga16_positive. Qed.
Print Assumptions C71_finite_positive.
Theorem C71_decay : forall src1 src2 u a l scale d0 z d1 d2, sub_gives src1 (sub_with_d u d1) -> sub_gives src2 (sub_with_d u d2) ->
  sub_ready u d0 z -> adj_vals a (slab u) (map (fun c => Q2R (aga16_period c)) aga16_coeff) = Some l ->
  (slab u = true -> backarc u = false) -> 0 <= scale -> u_mag u <= 8.5 -> 150 <= u_v u -> 0 <= d1 -> d1 < d2 ->
  exists o1 o2, gmm_out1 (aga16 src1 (adj_of a) (Fin scale)) o1 /\ gmm_out1 (aga16 src2 (adj_of a) (Fin scale)) o2 /\
    flt_lt (q_pga o2) (q_pga o1) /\ (1086 <= u_v u -> resp21 flt_lt o2 o1).
Proof. exact aga16_decay. Qed.
Print Assumptions C71_decay.
Example C71_nonvacuous : exists o1 o2, gmm_out1 (aga16 (sub_src (sub_with_d (ex_sub "interface" 400) 60)) AdjNone (Fin 1)) o1 /\
  gmm_out1 (aga16 (sub_src (sub_with_d (ex_sub "interface" 400) 90)) AdjNone (Fin 1)) o2 /\ flt_lt (q_pga o2) (q_pga o1).
Proof.
  destruct (C71_decay (sub_src (sub_with_d (ex_sub "interface" 400) 60)) (sub_src (sub_with_d (ex_sub "interface" 400) 90)) (ex_sub "interface" 400) AdjDefault _ 1 60 50 60 90
    (sub_src_gives _) (sub_src_gives _) (proj1 (ex_sub_ready 400)) eq_refl) as (o1 & o2 & O1 & O2 & D & _); try (cbn; lra); try (cbn; discriminate).
  exists o1, o2; repeat split; assumption.
Qed.

(** ** C72: AGA16 metrics by event type and rejected scenarios *)
Theorem C72_other_metrics_ignored : forall src1 src2 u1 u2 a l scale d z, sub_gives src1 u1 -> sub_gives src2 u2 -> sub_ready u1 d z -> sub_ready u2 d z ->
  u_mag u1 = u_mag u2 -> u_v u1 = u_v u2 -> u_event u1 = u_event u2 -> u_region u1 = u_region u2 ->
  adj_vals a (slab u1) (map (fun c => Q2R (aga16_period c)) aga16_coeff) = Some l ->
  exists o, gmm_out1 (aga16 src1 (adj_of a) (Fin scale)) o /\ gmm_out1 (aga16 src2 (adj_of a) (Fin scale)) o.
Proof. exact aga16_metric. Qed.
Print Assumptions C72_other_metrics_ignored.
Theorem C72_missing_distance : forall src u adj scale, sub_gives src u -> sub_dist u = None -> result (aga16 src adj scale) = Raise EType.
Proof. exact aga16_no_dist. Qed.
Print Assumptions C72_missing_distance.
Theorem C72_missing_depth : forall src u a l scale d, sub_gives src u -> slab u = true -> u_hyp u = Some d -> u_depth u = None ->
  adj_vals a (slab u) (map (fun c => Q2R (aga16_period c)) aga16_coeff) = Some l -> result (aga16 src (adj_of a) scale) = Raise EType.
Proof. exact aga16_no_depth. Qed.
Print Assumptions C72_missing_depth.
Theorem C72_unknown_event_backarc : forall src u a l scale d, sub_gives src u -> u_event u <> "interface" -> u_event u <> "intraslab" -> backarc u = true ->
  u_rup u = Some d -> adj_vals a (slab u) (map (fun c => Q2R (aga16_period c)) aga16_coeff) = Some l -> result (aga16 src (adj_of a) scale) = Raise ENotImpl.
Proof. exact aga16_bad_event. Qed.
Print Assumptions C72_unknown_event_backarc.
Theorem C72_wrong_number_of_adjustments : forall src u l scale d, sub_gives src u -> sub_dist u = Some d -> List.length l <> 23%nat -> List.length l <> 1%nat ->
  result (aga16 src (adj_of (AdjRows l)) scale) = Raise EValue.
Proof. exact aga16_bad_length. Qed.
Print Assumptions C72_wrong_number_of_adjustments.
Example C72_nonvacuous : result (aga16 (sub_src (Sub 7 (Some 60) None (Some 50) 400 "intraslab" None)) AdjNone (Fin 1)) = Raise EType
  /\ result (aga16 (sub_src (Sub 7 (Some 60) None None 400 "crustal" (Some "backarc"))) AdjNone (Fin 1)) = Raise ENotImpl.
Proof.
  split; [exact (C72_missing_distance _ (Sub 7 (Some 60) None (Some 50) 400 "intraslab" None) _ _ (sub_src_gives _) eq_refl)|].
  eapply (C72_unknown_event_backarc _ (Sub 7 (Some 60) None None 400 "crustal" (Some "backarc")) AdjDefault _ _ 60 (sub_src_gives _)); [discriminate|discriminate|reflexivity|reflexivity|reflexivity].
Qed.

(** ** C73: Coppersmith & Bommer (2014) *)
Theorem C73_published_median : forall src u scale d, cop_gives src u -> u_rup u = Some d -> 0 <= d -> 0 < u_v u ->
  exists o, gmm_out1 (cop14 src (Fin scale)) o /\
    forall c0 rest, cop14_coeff = c0 :: rest ->
    Forall2 (fun c s => s = Fin (exp (cop14_val u scale d c0 c))) cop14_coeff (q_sa o) /\
    q_pga o = Fin (exp (cop14_val u scale d c0 c0)).
Proof. exact cop14_median. Qed.
Print Assumptions C73_published_median.
Theorem C73_finite_positive : forall src u scale d, cop_gives src u -> u_rup u = Some d -> 0 <= d -> 0 < u_v u ->
  exists o, gmm_out1 (cop14 src (Fin scale)) o /\ List.length (q_sa o) = 14%nat /\ List.length (q_sd o) = 14%nat /\
    all_resp1 fpos o /\ all_std1 (fun s => exists x, s = Fin x /\ x * x = 0.6 * 0.6 + 0.43 * 0.43 /\ 0.738 <= x <= 0.739) o.
Proof. exact cop14_positive. Qed.
Print Assumptions C73_finite_positive.
Theorem C73_continuous_in_magnitude : forall u scale d m0, u_rup u = Some d -> 0 <= d -> 0 < u_v u ->
  resp_continuous1 (fun m o => exists src, cop_gives src (sub_with_m u m) /\ gmm_out1 (cop14 src (Fin scale)) o) m0.
Proof. exact cop14_cont_mag. Qed.
Print Assumptions C73_continuous_in_magnitude.
Theorem C73_continuous_in_velocity : forall u scale d v0, u_rup u = Some d -> 0 <= d -> 0 < v0 ->
  (forall c, In c cop14_coeff -> 1000 < Q2R (cop14_v_lin c) -> v0 <> Q2R (cop14_v_lin c)) ->
  resp_continuous1 (fun v o => exists src, cop_gives src (sub_with_v u v) /\ gmm_out1 (cop14 src (Fin scale)) o) v0.
Proof. exact cop14_cont_vs. Qed.
Print Assumptions C73_continuous_in_velocity.
Theorem C73_decay : forall src1 src2 u scale d1 d2, cop_gives src1 (sub_with_rup u d1) -> cop_gives src2 (sub_with_rup u d2) ->
  0 <= scale -> u_mag u <= 8.5 -> 150 <= u_v u -> 0 <= d1 -> d1 < d2 ->
  exists o1 o2, gmm_out1 (cop14 src1 (Fin scale)) o1 /\ gmm_out1 (cop14 src2 (Fin scale)) o2 /\
    flt_lt (q_pga o2) (q_pga o1) /\ (1086 <= u_v u -> resp21 flt_lt o2 o1).
Proof. exact cop14_decay. Qed.
Print Assumptions C73_decay.
Theorem C73_missing_distance : forall src u scale, cop_gives src u -> u_rup u = None -> result (cop14 src (Fin scale)) = Raise EType.
Proof. exact cop14_no_dist. Qed.
Print Assumptions C73_missing_distance.
Example C73_nonvacuous : exists o, gmm_out1 (cop14 (sub_src (ex_sub "interface" 400)) (Fin 1)) o /\ all_resp1 fpos o.
Proof.
  destruct (C73_finite_positive (sub_src (ex_sub "interface" 400)) (ex_sub "interface" 400) 1 60 (cop_src_gives _) eq_refl) as (o & O & _ & _ & P & _); [lra|cbn; lra|].
  exists o; split; assumption.
Qed.
