(** * NGA-West2 models: properties C23-C32, C57-C70 *)
From Coquelicot Require Import Coquelicot.
From Interval Require Import Tactic.
From Coq Require Import List.
From Verif Require Import M_cy14 M_bssa14 M_cb14 M_ask14 FrameworkProofs Anal NpProofs Nga Outs P_cy14 P_bssa14 P_cb14 P_cb14b P_ask14 P_ask14b SpecNga P_ngaspec.
Open Scope R_scope.
Open Scope string_scope.
Open Scope list_scope.

(** A strike-slip scenario used by the non-vacuity checks. *)
Definition ex_nga (m r v : R) (re : option string) : nga :=
  Nga m r r (Some (-5)) None None 90 v None None (Some 15) None None None None None (Some "SS") re None None None.
Definition ex (m r v : R) (re : option string) : dict := nga_src (ex_nga m r v re).
Example ex_ok m r v re : nga_gives (ex m r v re) (ex_nga m r v re).
Proof. apply nga_src_gives. Qed.
Example ex_geom m r v re : geom_ok (-5) (ex_nga m r v re).
Proof. unfold geom_ok, ex_nga; cbn. split; [lra|]. repeat split; intros; lra. Qed.
Example ex_ask m r v re : ask14_geom (ex_nga m r v re) /\ depth_ok (ex_nga m r v re).
Proof. split; [intros H; discriminate H|exact I]. Qed.

(** ** C23: CB14 ignores the China attenuation *)
Theorem C23_china_is_global : forall src1 src2 a x t r2, In r2 ["global"; "california"] ->
  nga_gives src1 (with_region a (Some "china")) -> nga_gives src2 (with_region a (Some r2)) ->
  n_x a = Some x -> n_mech a = Some t -> n_v a <> 0 ->
  exists o, gmm_out (cb14 src1) o /\ gmm_out (cb14 src2) o.
Proof. exact cb14_china_same. Qed.
Print Assumptions C23_china_is_global.
(** ... although the table has a different attenuation for China for PGA, PGV and every period up to 1 s. *)
Theorem C23_china_coefficient_differs : forall c, In c cb14_coeff -> Q2R (cb14_period c) <= 1 -> Q2R (cb14_dc_20ca c) < Q2R (cb14_dc_20ch c).
Proof.
  intros c Hc H. assert (Q : forallb (fun c => negb (Qle_bool (cb14_dc_20ch c) (cb14_dc_20ca c)) || negb (Qle_bool (cb14_period c) 1))%bool cb14_coeff = true) by (vm_compute; reflexivity).
  rewrite forallb_forall in Q. specialize (Q c Hc). apply Bool.orb_true_iff in Q. destruct Q as [Q|Q]; apply Bool.negb_true_iff in Q.
  - apply Qlt_Rlt, Qnot_le_lt. intros W. apply Qle_bool_iff in W. congruence.
  - exfalso. assert (W : (1 < cb14_period c)%Q) by (apply Qnot_le_lt; intros W; apply Qle_bool_iff in W; congruence).
    apply Qlt_Rlt in W. replace (Q2R 1) with 1 in W by (unfold Q2R; cbn; lra). lra.
Qed.
Print Assumptions C23_china_coefficient_differs.
Example C23_nonvacuous : exists o, gmm_out (cb14 (ex 7 150 760 (Some "china"))) o /\ gmm_out (cb14 (ex 7 150 760 (Some "california"))) o.
Proof. apply (C23_china_is_global _ _ (ex_nga 7 150 760 None) (-5) "SS" "california"); [right; left; reflexivity|apply ex_ok|apply ex_ok|reflexivity|reflexivity|cbn; lra]. Qed.

(** ** C24: CB14 standard deviation *)
Theorem C24_sigma_linear_sites : forall src a x t, nga_gives src a -> n_x a = Some x -> n_mech a = Some t -> geom_ok x a -> 1086 <= n_v a ->
  exists o, gmm_out (cb14 src) o /\
    Forall2 (fun c s => rss (cb14_tau_spec c (n_mag a)) (cb14_phi_spec c (n_mag a)) s) (firstn 21 cb14_coeff) (o_sd o) /\
    (forall c, nth_error cb14_coeff 21 = Some c -> rss (cb14_tau_spec c (n_mag a)) (cb14_phi_spec c (n_mag a)) (o_sd_pga o)) /\
    (forall c, nth_error cb14_coeff 22 = Some c -> rss (cb14_tau_spec c (n_mag a)) (cb14_phi_spec c (n_mag a)) (o_sd_pgv o)).
Proof. exact cb14_sigma_spec. Qed.
Print Assumptions C24_sigma_linear_sites.
Theorem C24_finite_positive : forall src a x t, nga_gives src a -> n_x a = Some x -> n_mech a = Some t -> geom_ok x a -> 0 < n_v a ->
  exists o, gmm_out (cb14 src) o /\ List.length (o_sa o) = 21%nat /\ List.length (o_sd o) = 21%nat /\
    all_resp fpos o /\ all_std (fun s => exists r, s = Fin r /\ 0.3 <= r) o.
Proof. exact cb14_positive. Qed.
Print Assumptions C24_finite_positive.
Theorem C24_sigma_same_on_rock : forall src1 src2 a1 a2 x1 x2 t1 t2, nga_gives src1 a1 -> nga_gives src2 a2 ->
  n_x a1 = Some x1 -> n_x a2 = Some x2 -> n_mech a1 = Some t1 -> n_mech a2 = Some t2 -> geom_ok x1 a1 -> geom_ok x2 a2 ->
  1086 <= n_v a1 -> 1086 <= n_v a2 -> n_mag a1 = n_mag a2 \/ (5.5 <= n_mag a1 /\ 5.5 <= n_mag a2) ->
  exists o1 o2, gmm_out (cb14 src1) o1 /\ gmm_out (cb14 src2) o2 /\ std2 eq o1 o2.
Proof. exact cb14_sigma_rock. Qed.
Print Assumptions C24_sigma_same_on_rock.
Example C24_nonvacuous : exists o, gmm_out (cb14 (ex 7 20 270 None)) o /\ all_resp fpos o.
Proof.
  destruct (C24_finite_positive (ex 7 20 270 None) (ex_nga 7 20 270 None) (-5) "SS") as (o & H & _ & _ & P & _);
    [apply ex_ok|reflexivity|reflexivity|apply ex_geom|cbn; lra|]. exists o; auto.
Qed.

(** ** C25: BSSA14 regions differ only through the anelastic attenuation groups *)
Theorem C25_regions_indistinguishable : forall src1 src2 a re1 re2,
  nga_gives src1 (with_region a (Some re1)) -> nga_gives src2 (with_region a (Some re2)) ->
  (In re1 ["italy"; "japan"] /\ In re2 ["italy"; "japan"]) \/ (In re1 ["china"; "turkey"] /\ In re2 ["china"; "turkey"]) \/
  (In re1 ["global"; "california"; "new_zealand"; "taiwan"] /\ In re2 ["global"; "california"; "new_zealand"; "taiwan"]) ->
  exists o, gmm_out (bssa14 src1) o /\ gmm_out (bssa14 src2) o.
Proof. exact bssa14_region_same. Qed.
Print Assumptions C25_regions_indistinguishable.
Example C25_nonvacuous : exists o, gmm_out (bssa14 (ex 7 20 270 (Some "japan"))) o /\ gmm_out (bssa14 (ex 7 20 270 (Some "italy"))) o.
Proof. apply (C25_regions_indistinguishable _ _ (ex_nga 7 20 270 None) "japan" "italy"); [apply ex_ok|apply ex_ok|left; cbn; auto]. Qed.

(** ** C26: BSSA14 on the reference rock is the published event and path model *)
Theorem C26_reference_rock : forall src a, nga_gives src a -> n_v a = 760 -> n_z1 a = None ->
  exists o, gmm_out (bssa14 src) o /\
    Forall2 (fun c s => s = Fin (exp (bssa14_event_spec c (mech_of a) (n_mag a) + bssa14_path_spec c (region_of a) (n_mag a) (n_jb a)))) (skipn 2 bssa14_coeff) (o_sa o) /\
    (forall c, nth_error bssa14_coeff 1 = Some c -> o_pga o = Fin (exp (bssa14_event_spec c (mech_of a) (n_mag a) + bssa14_path_spec c (region_of a) (n_mag a) (n_jb a)))) /\
    (forall c, nth_error bssa14_coeff 0 = Some c -> o_pgv o = Fin (exp (bssa14_event_spec c (mech_of a) (n_mag a) + bssa14_path_spec c (region_of a) (n_mag a) (n_jb a)))).
Proof. exact bssa14_rock_spec. Qed.
Print Assumptions C26_reference_rock.
Example C26_nonvacuous : exists o, gmm_out (bssa14 (ex 7 20 760 None)) o /\ List.length (o_sa o) = 105%nat.
Proof.
  destruct (C26_reference_rock (ex 7 20 760 None) (ex_nga 7 20 760 None)) as (o & H & F & _); [apply ex_ok|reflexivity|reflexivity|].
  exists o. split; [exact H|]. apply F2_len in F. rewrite <- F. reflexivity.
Qed.

(** ** C27: BSSA14 standard deviation: published form, bounded, Lipschitz *)
Theorem C27_sigma_published : forall src a, nga_gives src a -> 0 < n_v a ->
  exists o, gmm_out (bssa14 src) o /\
    Forall2 (fun c s => rss (bssa14_tau_spec c (n_mag a)) (bssa14_phi_spec c (n_mag a) (n_jb a) (n_v a)) s) (skipn 2 bssa14_coeff) (o_sd o) /\
    (forall c, nth_error bssa14_coeff 1 = Some c -> rss (bssa14_tau_spec c (n_mag a)) (bssa14_phi_spec c (n_mag a) (n_jb a) (n_v a)) (o_sd_pga o)) /\
    (forall c, nth_error bssa14_coeff 0 = Some c -> rss (bssa14_tau_spec c (n_mag a)) (bssa14_phi_spec c (n_mag a) (n_jb a) (n_v a)) (o_sd_pgv o)).
Proof. exact bssa14_sigma_spec. Qed.
Print Assumptions C27_sigma_published.
Theorem C27_sigma_continuous : forall src1 src2 a1 a2, nga_gives src1 a1 -> nga_gives src2 a2 -> 0 < n_v a1 -> 0 < n_v a2 ->
  exists o1 o2, gmm_out (bssa14 src1) o1 /\ gmm_out (bssa14 src2) o2 /\
    std2 (fun s1 s2 => exists x1 x2, s1 = Fin x1 /\ s2 = Fin x2 /\
      Rabs (x1 - x2) <= 0.476 * Rabs (n_mag a1 - n_mag a2) + 0.003 * Rabs (n_jb a1 - n_jb a2) + 0.002 * Rabs (n_v a1 - n_v a2)) o1 o2.
Proof. exact bssa14_sigma_continuous. Qed.
Print Assumptions C27_sigma_continuous.
Theorem C27_positive_bounded : forall src a, nga_gives src a -> 0 < n_v a ->
  exists o, gmm_out (bssa14 src) o /\ List.length (o_sa o) = 105%nat /\ List.length (o_sd o) = 105%nat /\
    all_resp fpos o /\ all_std (fun s => exists x, s = Fin x /\ 0.46 <= x <= 1.05) o.
Proof. exact bssa14_positive. Qed.
Print Assumptions C27_positive_bounded.
Example C27_nonvacuous : exists o, gmm_out (bssa14 (ex 5 100 250 None)) o /\ all_resp fpos o.
Proof.
  destruct (C27_positive_bounded (ex 5 100 250 None) (ex_nga 5 100 250 None)) as (o & H & _ & _ & P & _); [apply ex_ok|cbn; lra|]. exists o; auto.
Qed.

(** ** C28: ASK14 is finite and positive, so the NaN reference never propagates *)
Theorem C28_finite_positive : forall src a t, nga_gives src a -> n_mech a = Some t -> ask14_geom a -> depth_ok a -> 0 < n_v a ->
  exists o, gmm_out (ask14 src) o /\ List.length (o_sa o) = 22%nat /\ List.length (o_sd o) = 22%nat /\
    all_resp fpos o /\ all_std (fun s => exists x, s = Fin x /\ 0.4 <= x) o.
Proof. exact ask14_positive. Qed.
Print Assumptions C28_finite_positive.
Example C28_nonvacuous : exists o, gmm_out (ask14 (ex 7 20 250 (Some "japan"))) o /\ all_resp fpos o.
Proof.
  destruct (C28_finite_positive (ex 7 20 250 (Some "japan")) (ex_nga 7 20 250 (Some "japan")) "SS") as (o & H & _ & _ & P & _); [apply ex_ok|reflexivity|apply ex_ask|apply ex_ask|cbn; lra|]. exists o; auto.
Qed.

(** ** C29: ASK14 standard deviation *)
Theorem C29_sigma_linear_sites : forall src a t, nga_gives src a -> n_mech a = Some t -> ask14_geom a -> depth_ok a -> 960 <= n_v a ->
  let jp := String.eqb (str_def "global" ["global"; "california"; "china"; "italy"; "japan"; "taiwan"] (n_region a)) "japan" in
  let me := String.eqb (str_def "measured" ["measured"; "inferred"] (n_source a)) "measured" in
  let ok c s := rss (ask14_tau_spec c (n_mag a)) (Rmax (ask14_phi_spec c jp me (n_mag a) (n_rup a)) 0.4) s in
  exists o, gmm_out (ask14 src) o /\ Forall2 ok (firstn 22 ask14_coeff) (o_sd o) /\
    (forall c, nth_error ask14_coeff 22 = Some c -> ok c (o_sd_pga o)) /\ (forall c, nth_error ask14_coeff 23 = Some c -> ok c (o_sd_pgv o)).
Proof. exact ask14_sigma_spec. Qed.
Print Assumptions C29_sigma_linear_sites.
Theorem C29_soil_lowers_sigma : forall src1 src2 a v t, nga_gives src1 a -> nga_gives src2 (with_v a v) -> n_mech a = Some t -> ask14_geom a -> depth_ok a ->
  180 <= n_v a -> 960 <= v ->
  exists o1 o2, gmm_out (ask14 src1) o1 /\ gmm_out (ask14 src2) o2 /\ std2 (fun s1 s2 => exists x1 x2, s1 = Fin x1 /\ s2 = Fin x2 /\ x1 <= x2) o1 o2.
Proof. exact ask14_sigma_soil. Qed.
Print Assumptions C29_soil_lowers_sigma.
Example C29_nonvacuous : exists o, gmm_out (ask14 (ex 7 20 1000 None)) o /\ List.length (o_sd o) = 22%nat.
Proof.
  destruct (C29_sigma_linear_sites (ex 7 20 1000 None) (ex_nga 7 20 1000 None) "SS") as (o & H & F & _); [apply ex_ok|reflexivity|apply ex_ask|apply ex_ask|cbn; lra|].
  exists o. split; [exact H|]. apply F2_len in F. rewrite <- F. reflexivity.
Qed.

(** ** C30: CY14 does not depend on v_s30 above 1130 m/s *)
Theorem C30_stiff_sites : forall src1 src2 a x v, nga_gives src1 a -> nga_gives src2 (with_v a v) -> n_x a = Some x ->
  n_z1 a = None -> 0 <= n_rup a -> 1130 <= n_v a -> 1130 <= v ->
  exists o, gmm_out (cy14 src1) o /\ gmm_out (cy14 src2) o.
Proof. exact cy14_stiff_same. Qed.
Print Assumptions C30_stiff_sites.
Example C30_nonvacuous : exists o, gmm_out (cy14 (ex 7 20 1200 None)) o /\ gmm_out (cy14 (ex 7 20 1400 None)) o.
Proof. apply (C30_stiff_sites _ _ (ex_nga 7 20 1200 None) (-5) 1400); [apply ex_ok|apply ex_ok|reflexivity|reflexivity|cbn; lra|cbn; lra|lra]. Qed.

(** ** C31: CY14 Italy differs from California exactly for 6 < M < 6.9 *)
Theorem C31_italy_same : forall src1 src2 a x, nga_gives src1 (with_region a (Some "italy")) -> nga_gives src2 (with_region a (Some "california")) ->
  n_x a = Some x -> n_mag a <= 6 \/ 6.9 <= n_mag a ->
  exists o, gmm_out (cy14 src1) o /\ gmm_out (cy14 src2) o.
Proof. exact cy14_italy_same. Qed.
Print Assumptions C31_italy_same.
Theorem C31_italy_lower : forall src1 src2 a x, nga_gives src1 (with_region a (Some "italy")) -> nga_gives src2 (with_region a (Some "california")) ->
  n_x a = Some x -> 6 < n_mag a < 6.9 -> 0 < n_rup a -> 180 <= n_v a ->
  exists o1 o2, gmm_out (cy14 src1) o1 /\ gmm_out (cy14 src2) o2 /\ resp2 flt_lt o1 o2.
Proof. exact cy14_italy_lower. Qed.
Print Assumptions C31_italy_lower.
Example C31_nonvacuous : exists o1 o2, gmm_out (cy14 (ex 6.5 20 400 (Some "italy"))) o1 /\ gmm_out (cy14 (ex 6.5 20 400 (Some "california"))) o2 /\ resp2 flt_lt o1 o2.
Proof. apply (C31_italy_lower _ _ (ex_nga 6.5 20 400 None) (-5)); [apply ex_ok|apply ex_ok|reflexivity|cbn; lra|cbn; lra|cbn; lra]. Qed.

(** ** C32: CY14 is finite and positive, with positive sigma *)
Theorem C32_finite_positive : forall src a x, nga_gives src a -> n_x a = Some x -> 0 <= n_rup a -> 0 < n_v a ->
  exists o, gmm_out (cy14 src) o /\ List.length (o_sa o) = 24%nat /\ List.length (o_sd o) = 24%nat /\
    all_resp fpos o /\ all_std fpos o.
Proof. exact cy14_positive. Qed.
Print Assumptions C32_finite_positive.
Example C32_nonvacuous : exists o, gmm_out (cy14 (ex 6.5 0 180 None)) o /\ all_resp fpos o /\ all_std fpos o.
Proof.
  destruct (C32_finite_positive (ex 6.5 0 180 None) (ex_nga 6.5 0 180 None) (-5)) as (o & H & _ & _ & P & Q); [apply ex_ok|reflexivity|cbn; lra|cbn; lra|]. exists o; auto.
Qed.

(** ** C57: CY14 decays with distance *)
Theorem C57_decay : forall src1 src2 a x r1 r2, nga_gives src1 (with_rup a r1) -> nga_gives src2 (with_rup a r2) ->
  n_x a = Some x -> n_hw a = None \/ n_hw a = Some false -> (match n_dpp a with Some d => 0 <= d | None => True end) ->
  n_mag a <= 8.5 -> 180 <= n_v a -> 0 <= r1 -> r1 < r2 ->
  exists o1 o2, gmm_out (cy14 src1) o1 /\ gmm_out (cy14 src2) o2 /\ resp2 flt_lt o2 o1.
Proof. exact cy14_decay. Qed.
Print Assumptions C57_decay.
Example C57_nonvacuous : exists o1 o2, gmm_out (cy14 (nga_src (with_rup (ex_nga 7 0 300 None) 10))) o1 /\ gmm_out (cy14 (nga_src (with_rup (ex_nga 7 0 300 None) 20))) o2 /\ resp2 flt_lt o2 o1.
Proof. apply (C57_decay _ _ (ex_nga 7 0 300 None) (-5) 10 20); [apply nga_src_gives|apply nga_src_gives|reflexivity|left; reflexivity|exact I|cbn; lra|cbn; lra|lra|lra]. Qed.

(** ** C58: default basin depths are positive and strictly decreasing in v_s30 *)
Theorem C58_cy14_depth : forall v1 v2 re, 0 < v1 -> v1 < v2 ->
  exists z1 z2, cy14_calc_depth_1_0 (Fin v1) re = Fin z1 /\ cy14_calc_depth_1_0 (Fin v2) re = Fin z2 /\ 0 < z2 < z1.
Proof. exact cy14_depth_1_0_spec. Qed.
Print Assumptions C58_cy14_depth.
Theorem C58_ask14_depth : forall re v1 v2, 0 < v1 -> v1 < v2 ->
  exists z1 z2, ask14_calc_depth_1_0 (Fin v1) re = Fin z1 /\ ask14_calc_depth_1_0 (Fin v2) re = Fin z2 /\ 0 < z2 < z1.
Proof. exact ask14_depth_1_0. Qed.
Print Assumptions C58_ask14_depth.

(** ** C59: BSSA14 decays with distance on rock, PGA everywhere *)
Theorem C59_decay_rock : forall src1 src2 a r1 r2, nga_gives src1 (with_jb a r1) -> nga_gives src2 (with_jb a r2) ->
  3 <= n_mag a <= 8.5 -> 760 <= n_v a -> 0 <= r1 -> r1 < r2 -> r2 <= 230 \/ In (region_of a) ["global"; "california"; "new_zealand"; "taiwan"] ->
  exists o1 o2, gmm_out (bssa14 src1) o1 /\ gmm_out (bssa14 src2) o2 /\ resp2 flt_lt o2 o1.
Proof.
  intros src1 src2 a r1 r2 G1 G2 Hm Hv H1 H2 D. apply (bssa14_decay_rock src1 src2 a r1 r2); try assumption.
  destruct D as [D|D]; [left; exact D|right]. unfold bssa14_region. rewrite choice_str. apply in_map. exact D.
Qed.
Print Assumptions C59_decay_rock.
Theorem C59_decay_pga : forall src1 src2 a r1 r2, nga_gives src1 (with_jb a r1) -> nga_gives src2 (with_jb a r2) ->
  3 <= n_mag a <= 8.5 -> 150 <= n_v a -> 0 <= r1 -> r1 < r2 -> r2 <= 230 \/ In (region_of a) ["global"; "california"; "new_zealand"; "taiwan"] ->
  exists o1 o2, gmm_out (bssa14 src1) o1 /\ gmm_out (bssa14 src2) o2 /\ flt_lt (o_pga o2) (o_pga o1).
Proof.
  intros src1 src2 a r1 r2 G1 G2 Hm Hv H1 H2 D. apply (bssa14_decay_pga src1 src2 a r1 r2); try assumption.
  destruct D as [D|D]; [left; exact D|right]. unfold bssa14_region. rewrite choice_str. apply in_map. exact D.
Qed.
Print Assumptions C59_decay_pga.
Example C59_nonvacuous : exists o1 o2, gmm_out (bssa14 (nga_src (with_jb (ex_nga 7 0 800 None) 10))) o1 /\ gmm_out (bssa14 (nga_src (with_jb (ex_nga 7 0 800 None) 290))) o2 /\ resp2 flt_lt o2 o1.
Proof. apply (C59_decay_rock _ _ (ex_nga 7 0 800 None) 10 290); [apply nga_src_gives|apply nga_src_gives|cbn; lra|cbn; lra|lra|lra|right; left; reflexivity]. Qed.

(** ** C60: BSSA14 in Turkey grows with distance at 10 s *)
Theorem C60_turkey_grows : forall src1 src2 a, nga_gives src1 (with_jb (with_region a (Some "turkey")) 240) ->
  nga_gives src2 (with_jb (with_region a (Some "turkey")) 300) -> n_mag a = 8.5 -> 760 <= n_v a ->
  exists o1 o2 x1 x2, gmm_out (bssa14 src1) o1 /\ gmm_out (bssa14 src2) o2 /\
    nth_error (o_sa o1) 104 = Some x1 /\ nth_error (o_sa o2) 104 = Some x2 /\ flt_lt x1 x2.
Proof. exact bssa14_turkey_grows. Qed.
Print Assumptions C60_turkey_grows.
Example C60_nonvacuous : exists o1 o2 x1 x2, gmm_out (bssa14 (nga_src (with_jb (ex_nga 8.5 0 760 (Some "turkey")) 240))) o1 /\
  gmm_out (bssa14 (nga_src (with_jb (ex_nga 8.5 0 760 (Some "turkey")) 300))) o2 /\
    nth_error (o_sa o1) 104 = Some x1 /\ nth_error (o_sa o2) 104 = Some x2 /\ flt_lt x1 x2.
Proof. apply (C60_turkey_grows _ _ (ex_nga 8.5 0 760 None)); [apply nga_src_gives|apply nga_src_gives|reflexivity|cbn; lra]. Qed.

(** ** C61: CB14 decays with distance on rock, PGA everywhere (footwall sites) *)
Theorem C61_decay_rock : forall src1 src2 a x t r1 r2, nga_gives src1 (with_rup a r1) -> nga_gives src2 (with_rup a r2) ->
  n_x a = Some x -> x < 0 -> n_mech a = Some t -> 0 < n_dip a <= 90 -> 3.3 <= n_mag a <= 8.5 -> 1086 < n_v a ->
  0 <= r1 -> r1 < r2 ->
  exists o1 o2, gmm_out (cb14 src1) o1 /\ gmm_out (cb14 src2) o2 /\ resp2 flt_lt o2 o1.
Proof. exact cb14_decay_rock. Qed.
Print Assumptions C61_decay_rock.
Theorem C61_decay_pga : forall src1 src2 a x t r1 r2, nga_gives src1 (with_rup a r1) -> nga_gives src2 (with_rup a r2) ->
  n_x a = Some x -> x < 0 -> n_mech a = Some t -> 0 < n_dip a <= 90 -> 3.3 <= n_mag a <= 8.5 -> 150 <= n_v a ->
  0 <= r1 -> r1 < r2 ->
  exists o1 o2, gmm_out (cb14 src1) o1 /\ gmm_out (cb14 src2) o2 /\ flt_lt (o_pga o2) (o_pga o1).
Proof. exact cb14_decay_pga. Qed.
Print Assumptions C61_decay_pga.
Example C61_nonvacuous : exists o1 o2, gmm_out (cb14 (nga_src (with_rup (ex_nga 7 0 300 None) 10))) o1 /\ gmm_out (cb14 (nga_src (with_rup (ex_nga 7 0 300 None) 20))) o2 /\ flt_lt (o_pga o2) (o_pga o1).
Proof. apply (C61_decay_pga _ _ (ex_nga 7 0 300 None) (-5) "SS" 10 20); [apply nga_src_gives|apply nga_src_gives|reflexivity|lra|reflexivity|cbn; lra|cbn; lra|cbn; lra|lra|lra]. Qed.

(** ** C62: CB14 in Japan jumps at v_s30 = 200 m/s *)
Theorem C62_japan_step : forall src1 src2 a x t d v,
  nga_gives src1 (with_v a 200) -> nga_gives src2 (with_v a v) -> 200 < v <= 200.1 ->
  n_region a = Some "japan" -> n_z25 a = Some d -> n_x a = Some x -> n_mech a = Some t -> geom_ok x a ->
  exists o1 o2 y1 y2 z1 z2, gmm_out (cb14 src1) o1 /\ gmm_out (cb14 src2) o2 /\
    nth_error (o_sa o1) 6 = Some (Fin y1) /\ nth_error (o_sa o2) 6 = Some (Fin y2) /\ 0 < y1 /\ 1.18 * y1 < y2 /\
    nth_error (o_sa o1) 16 = Some (Fin z1) /\ nth_error (o_sa o2) 16 = Some (Fin z2) /\ 0 < z2 /\ 1.28 * z2 < z1.
Proof. exact cb14_japan_step. Qed.
Print Assumptions C62_japan_step.
Definition ex_jp : nga := Nga 7 20 20 (Some (-5)) None None 90 200 None None (Some 15) None None None (Some 1) None (Some "SS") (Some "japan") None None None.
Example C62_nonvacuous : exists o1 o2 y1 y2, gmm_out (cb14 (nga_src (with_v ex_jp 200))) o1 /\ gmm_out (cb14 (nga_src (with_v ex_jp 200.01))) o2 /\
    nth_error (o_sa o1) 6 = Some (Fin y1) /\ nth_error (o_sa o2) 6 = Some (Fin y2) /\ 1.18 * y1 < y2.
Proof.
  destruct (C62_japan_step (nga_src (with_v ex_jp 200)) (nga_src (with_v ex_jp 200.01)) ex_jp (-5) "SS" 1 200.01) as (o1 & o2 & y1 & y2 & _ & _ & A & B & C & D & _ & E & _);
    [apply nga_src_gives|apply nga_src_gives|lra|reflexivity|reflexivity|reflexivity|reflexivity|unfold geom_ok, ex_jp; cbn; split; [lra|]; repeat split; intros; lra|].
  exists o1, o2, y1, y2. auto.
Qed.

(** ** C63: CB14 inputs without effect *)
Theorem C63_depth_1_0_unused : forall src1 src2 a z x t, nga_gives src1 a -> nga_gives src2 (with_z1 a z) ->
  n_x a = Some x -> n_mech a = Some t -> n_v a <> 0 ->
  exists o, gmm_out (cb14 src1) o /\ gmm_out (cb14 src2) o.
Proof. exact cb14_depth_1_0_unused. Qed.
Print Assumptions C63_depth_1_0_unused.
Theorem C63_unknown_mechanism : forall src1 src2 a x t, ~ In t ["SS"; "NS"; "RS"] ->
  nga_gives src1 (with_mech a (Some t)) -> nga_gives src2 (with_mech a (Some "SS")) -> n_x a = Some x -> n_v a <> 0 ->
  exists o, gmm_out (cb14 src1) o /\ gmm_out (cb14 src2) o.
Proof.
  intros src1 src2 a x t H. apply cb14_unknown_mechanism. destruct (existsb _ _) eqn:E; [|reflexivity]. exfalso; apply H.
  apply existsb_exists in E. destruct E as (y & Hy & E). apply String.eqb_eq in E. subst; exact Hy.
Qed.
Print Assumptions C63_unknown_mechanism.
Example C63_nonvacuous : exists o, gmm_out (cb14 (nga_src (with_mech (ex_nga 7 20 400 None) (Some "thrust")))) o /\ gmm_out (cb14 (ex 7 20 400 None)) o.
Proof. apply (C63_unknown_mechanism _ _ (ex_nga 7 20 400 None) (-5) "thrust"); [cbn; intuition discriminate|apply nga_src_gives|apply ex_ok|reflexivity|cbn; lra]. Qed.

(** ** C64: ASK14 on the hanging wall needs dist_x *)
Theorem C64_hanging_wall_needs_dist_x : forall src a t, nga_gives src a -> n_mech a = Some t -> n_hw a = Some true -> n_x a = None ->
  result (ask14 src) = Raise EType.
Proof. exact ask14_hw_needs_x. Qed.
Print Assumptions C64_hanging_wall_needs_dist_x.
Definition ex_hw : nga := Nga 7 20 20 None None None 45 400 None None None None None None None None (Some "RS") None None (Some true) None.
Example C64_nonvacuous : result (ask14 (nga_src ex_hw)) = Raise EType.
Proof. apply (C64_hanging_wall_needs_dist_x _ ex_hw "RS"); [apply nga_src_gives|reflexivity..]. Qed.

(** ** C65: ASK14 decays with distance, every region, period and site *)
Theorem C65_decay : forall src1 src2 a t r1 r2, nga_gives src1 (with_rup a r1) -> nga_gives src2 (with_rup a r2) ->
  n_mech a = Some t -> n_hw a <> Some true -> depth_ok a -> n_mag a <= 8.5 -> 180 <= n_v a -> 0 <= r1 -> r1 < r2 ->
  exists o1 o2, gmm_out (ask14 src1) o1 /\ gmm_out (ask14 src2) o2 /\ resp2 flt_lt o2 o1.
Proof. exact ask14_decay. Qed.
Print Assumptions C65_decay.
Example C65_nonvacuous : exists o1 o2, gmm_out (ask14 (nga_src (with_rup (ex_nga 7 0 200 (Some "taiwan")) 10))) o1 /\ gmm_out (ask14 (nga_src (with_rup (ex_nga 7 0 200 (Some "taiwan")) 20))) o2 /\ resp2 flt_lt o2 o1.
Proof. apply (C65_decay _ _ (ex_nga 7 0 200 (Some "taiwan")) "SS" 10 20); [apply nga_src_gives|apply nga_src_gives|reflexivity|discriminate|exact I|cbn; lra|cbn; lra|lra|lra]. Qed.

(** ** C66: ASK14 regions without regional terms agree *)
Theorem C66_region_same : forall src1 src2 a t re1 re2,
  nga_gives src1 (with_region a (Some re1)) -> nga_gives src2 (with_region a (Some re2)) -> n_mech a = Some t -> hw_has_x a ->
  In re1 ["global"; "california"; "italy"] -> In re2 ["global"; "california"; "italy"] ->
  exists o, gmm_out (ask14 src1) o /\ gmm_out (ask14 src2) o.
Proof. exact ask14_region_same. Qed.
Print Assumptions C66_region_same.
Example C66_nonvacuous : exists o, gmm_out (ask14 (ex 7 20 400 (Some "italy"))) o /\ gmm_out (ask14 (ex 7 20 400 (Some "global"))) o.
Proof. apply (C66_region_same _ _ (ex_nga 7 20 400 None) "SS" "italy" "global"); [apply ex_ok|apply ex_ok|reflexivity|intros H; discriminate H|cbn; auto|cbn; auto]. Qed.

(** ** C67: ASK14 does not depend on v_s30 from 1500 m/s *)
Theorem C67_stiff_sites : forall src1 src2 a t v, nga_gives src1 a -> nga_gives src2 (with_v a v) -> n_mech a = Some t -> hw_has_x a ->
  n_z1 a = None -> 1500 <= n_v a -> 1500 <= v -> exists o, gmm_out (ask14 src1) o /\ gmm_out (ask14 src2) o.
Proof. exact ask14_stiff_same. Qed.
Print Assumptions C67_stiff_sites.
Example C67_nonvacuous : exists o, gmm_out (ask14 (ex 7 20 1500 None)) o /\ gmm_out (ask14 (ex 7 20 2500 None)) o.
Proof. apply (C67_stiff_sites _ _ (ex_nga 7 20 1500 None) "SS" 2500); [apply ex_ok|apply ex_ok|reflexivity|intros H; discriminate H|reflexivity|cbn; lra|lra]. Qed.

(** ** C68: ASK14 drops the basin term at exactly v_s30 = 1180 m/s *)
Theorem C68_basin_term_dropped_at_1180 : forall src1 src2 a t d v,
  nga_gives src1 (with_v a 1180) -> nga_gives src2 (with_v a v) -> n_mech a = Some t -> ask14_geom a ->
  n_region a = Some "global" -> n_z1 a = Some d -> 0.5 <= d -> 1100 <= v -> v <> 1180 ->
  exists o1 o2 y1 y2, gmm_out (ask14 src1) o1 /\ gmm_out (ask14 src2) o2 /\
    nth_error (o_sa o1) 14 = Some (Fin y1) /\ nth_error (o_sa o2) 14 = Some (Fin y2) /\ 0 < y1 /\ 1.75 * y1 < y2.
Proof. exact ask14_basin_drop. Qed.
Print Assumptions C68_basin_term_dropped_at_1180.
Definition ex_basin : nga := Nga 7 20 20 None None None 90 1180 None None None None None (Some 0.6) None None (Some "SS") (Some "global") None None None.
Example C68_nonvacuous : exists o1 o2 y1 y2, gmm_out (ask14 (nga_src (with_v ex_basin 1180))) o1 /\ gmm_out (ask14 (nga_src (with_v ex_basin 1180.5))) o2 /\
    nth_error (o_sa o1) 14 = Some (Fin y1) /\ nth_error (o_sa o2) 14 = Some (Fin y2) /\ 0 < y1 /\ 1.75 * y1 < y2.
Proof. apply (C68_basin_term_dropped_at_1180 _ _ ex_basin "SS" 0.6 1180.5); [apply nga_src_gives|apply nga_src_gives|reflexivity|intros H; discriminate H|reflexivity|reflexivity|lra|lra|apply Rgt_not_eq; lra]. Qed.

(** ** C69: ASK14 ignores is_aftershock unless dist_crjb < 15 km is given *)
Theorem C69_aftershock_ignored : forall src1 src2 a t b1 b2, nga_gives src1 (with_after a b1) -> nga_gives src2 (with_after a b2) ->
  n_mech a = Some t -> ask14_geom a -> match n_crjb a with Some r => 15 <= r | None => True end ->
  exists o, gmm_out (ask14 src1) o /\ gmm_out (ask14 src2) o.
Proof. exact ask14_after_ignored. Qed.
Print Assumptions C69_aftershock_ignored.
Example C69_nonvacuous : exists o, gmm_out (ask14 (nga_src (with_after (ex_nga 7 20 400 None) (Some true)))) o /\ gmm_out (ask14 (ex 7 20 400 None)) o.
Proof. apply (C69_aftershock_ignored _ _ (ex_nga 7 20 400 None) "SS" (Some true) None); [apply nga_src_gives|apply ex_ok|reflexivity|intros H; discriminate H|exact I]. Qed.
