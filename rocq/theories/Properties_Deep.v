(** * C154: deeper earthquakes

    [tor_at a z], [hyp_at a h]: the scenario [a] with depth_tor = z, or depth_hyp = h; [sub_deep u z]: [u] with depth_hyp = z. *)
From Coquelicot Require Import Coquelicot.
From Interval Require Import Tactic.
From Coq Require Import List.
From Verif Require Import M_cy14 M_bssa14 M_cb14 M_ask14 FrameworkProofs Anal Nga Outs Cont Cont1 SpecNga P_cy14 P_bssa14 P_cb14 P_cb14b P_ask14 P_ask14b P_ngaspec
  Spec_cy14 Spec_bssa14 Spec_cb14 Spec_ask14 Properties_NGA Properties_NGAPub Properties_NGAPub2 Properties_NGAPub3 P_ngamag P_ngacont P_hw P_mech
  M_aga16 Outs1 Spec_sub P_aga16 P_aga16b Properties_Active Properties_Back.
Open Scope R_scope.
Open Scope string_scope.
Open Scope list_scope.

Definition tor_at (a : nga) (z : R) : nga :=
  let '(Nga m r jb x y0 cr dip v _ bor bot hyp w z1 z25 dpp me re so hw af) := a in
  Nga m r jb x y0 cr dip v (Some z) bor bot hyp w z1 z25 dpp me re so hw af.
Definition hyp_at (a : nga) (h : R) : nga :=
  let '(Nga m r jb x y0 cr dip v tor bor bot _ w z1 z25 dpp me re so hw af) := a in
  Nga m r jb x y0 cr dip v tor bor bot (Some h) w z1 z25 dpp me re so hw af.

(** The second result has larger PGA and PGV; its ordinates are larger at the periods in [more] and smaller at those in [less]. *)
Definition stronger (r1 r2 : M gmm) (more less : R -> Prop) : Prop :=
  exists g1 g2 T y1 y2 a1 a2 v1 v2, result r1 = Ok g1 /\ result r2 = Ok g2 /\
    result (g_periods g1) = Ok (map Fin T) /\ result (g_periods g2) = Ok (map Fin T) /\
    result (g_spec_accels g1) = Ok (map Fin y1) /\ result (g_spec_accels g2) = Ok (map Fin y2) /\
    List.length y1 = List.length T /\ List.length y2 = List.length T /\
    (forall k t u v, nth_error T k = Some t -> nth_error y1 k = Some u -> nth_error y2 k = Some v ->
       (more t -> u < v) /\ (less t -> v < u)) /\
    result (g_pga g1) = Ok (Fin a1) /\ result (g_pga g2) = Ok (Fin a2) /\ a1 < a2 /\
    result (g_pgv g1) = Ok (Fin v1) /\ result (g_pgv g2) = Ok (Fin v2) /\ v1 < v2.

Lemma stronger_intro {A} r1 r2 (rows : list A) ca cv per med1 sd1 med2 sd2 (more less : R -> Prop) :
  reports r1 rows ca cv per med1 sd1 -> reports r2 rows ca cv per med2 sd2 ->
  (forall c, In c rows -> more (Q2R (per c)) -> med1 c < med2 c) -> (forall c, In c rows -> less (Q2R (per c)) -> med2 c < med1 c) ->
  med1 ca < med2 ca -> med1 cv < med2 cv -> stronger r1 r2 more less.
Proof.
  intros (g1 & E1 & P1 & S1 & A1 & V1 & _) (g2 & E2 & P2 & S2 & A2 & V2 & _) HM HL HA HV.
  exists g1, g2, (map (fun c => Q2R (per c)) rows), (map (fun c => exp (med1 c)) rows), (map (fun c => exp (med2 c)) rows).
  do 4 eexists. rewrite !map_map, !map_length.
  split; [exact E1|]. split; [exact E2|]. split; [exact P1|]. split; [exact P2|]. split; [exact S1|]. split; [exact S2|]. split; [reflexivity|]. split; [reflexivity|].
  split; [|split; [exact A1|split; [exact A2|split; [apply exp_increasing, HA|split; [exact V1|split; [exact V2|apply exp_increasing, HV]]]]]].
  intros k x u v Hx Hu Hv. rewrite !nth_error_map in *. destruct (nth_error rows k) as [c|] eqn:N; [|discriminate].
  apply nth_error_In in N. injection Hx as <-. injection Hu as <-. injection Hv as <-.
  split; intros W; apply exp_increasing; [apply HM|apply HL]; assumption.
Qed.
(** [sel l p q]: rows selected by [p] satisfy [q]. *)
Lemma sel {A} (l : list A) (p q : A -> bool) : forallb (fun c => (negb (p c) || q c)%bool) l = true -> forall c, In c l -> p c = true -> q c = true.
Proof. rewrite forallb_forall. intros H c Hc Hp. specialize (H c Hc). rewrite Hp in H. exact H. Qed.
Lemma Qle_of_R x y : Q2R x <= Q2R y -> Qle_bool x y = true.
Proof. intros H. apply Qle_bool_iff. apply Qreals.Rle_Qle. exact H. Qed.
Lemma Qlt_of_bool x y : (negb (Qle_bool y x)) = true -> Q2R x < Q2R y.
Proof. apply Qltb_R. Qed.

(** ** ASK14: depth to the top of the rupture, off the hanging wall *)
Lemma as_tor_path c a z : n_hw a <> Some true -> as_source_path c (tor_at a z) = as_source_path c (tor_at a 0) + Q2R (ask14_a15 c) * as_clip (z / 20).
Proof.
  intros Hh. nga_split a. cbn in Hh. unfold as_source_path, as_tor, as_mech. cbn [tor_at n_mag n_rup n_hw n_x n_after n_crjb n_mech n_tor or_else].
  assert (Z : as_clip (0 / 20) = 0) by (unfold as_clip; rewrite Rmax_right by lra; rewrite Rmin_left; lra). rewrite Z.
  destruct a_hw as [[]|]; [congruence| |]; destruct a_x; ring.
Qed.
Lemma as_tor_rep src a t z : nga_gives src (tor_at a z) -> n_mech a = Some t -> n_hw a <> Some true -> 180 <= n_v a ->
  match n_z1 a with Some z => 0 <= z | None => True end ->
  reports (ask14 src) ask14_psa ask14_pga_row ask14_pgv_row ask14_period (fun c => as_med c (tor_at a z)) (fun c => as_sd c (tor_at a z)).
Proof.
  intros G Ht Hh Hv Hz. assert (HG : as_geom (tor_at a z)) by (intros W; destruct a; cbn in *; congruence).
  apply (as_reports _ _ t G); [destruct a; cbn in *; assumption|destruct a; cbn in *; lra|exact HG|destruct a; cbn in *; assumption].
Qed.
Lemma as_tor_up c a z1 z2 : In c ask14_coeff -> n_hw a <> Some true -> 180 <= n_v a -> 0 < Q2R (ask14_a15 c) * (as_clip (z2 / 20) - as_clip (z1 / 20)) ->
  as_med c (tor_at a z1) < as_med c (tor_at a z2).
Proof.
  intros Hc Hh Hv L. apply as_med_lt; [exact Hc|destruct a; exact Hv|destruct a; repeat split|]. rewrite (as_tor_path c a z1), (as_tor_path c a z2) by assumption. lra.
Qed.
Theorem C154_ask14 : forall src1 src2 a t z1 z2, nga_gives src1 (tor_at a z1) -> nga_gives src2 (tor_at a z2) -> n_mech a = Some t -> n_hw a <> Some true ->
  180 <= n_v a -> match n_z1 a with Some z => 0 <= z | None => True end -> 0 <= z1 -> z1 < z2 -> z2 <= 20 ->
  stronger (ask14 src1) (ask14 src2) (fun T => T <= 4) (fun T => 5 <= T).
Proof.
  intros src1 src2 a t z1 z2 G1 G2 Ht Hh Hv Hz H1 H2 H3.
  assert (D : 0 < as_clip (z2 / 20) - as_clip (z1 / 20)). { unfold as_clip. rewrite !Rmax_left by lra. rewrite !Rmin_left by lra. lra. }
  eapply stronger_intro; [eapply as_tor_rep; eassumption|eapply as_tor_rep; eassumption| | | |].
  - intros c Hc T. apply ask14_psa_in in Hc as Hc'. apply as_tor_up; try assumption. apply Rmult_lt_0_compat; [|exact D].
    pose proof (sel ask14_psa (fun c => Qle_bool (ask14_period c) (4#1)) (fun c => Qltb 0 (ask14_a15 c)) ltac:(vm_compute; reflexivity) c Hc) as S.
    cbv beta in S. assert (P : Qle_bool (ask14_period c) (4#1) = true) by (apply Qle_of_R; unfold Q2R at 2; cbn [Qnum Qden]; lra).
    specialize (S P). apply Qltb_R in S. change (Q2R 0) with (Q2R (0#1)) in S. unfold Q2R at 1 in S. cbn [Qnum Qden] in S. lra.
  - intros c Hc T. apply ask14_psa_in in Hc as Hc'. apply as_med_lt; [exact Hc'|destruct a; exact Hv|destruct a; repeat split|].
    rewrite (as_tor_path c a z1), (as_tor_path c a z2) by assumption.
    pose proof (sel ask14_psa (fun c => Qle_bool (5#1) (ask14_period c)) (fun c => Qltb (ask14_a15 c) 0) ltac:(vm_compute; reflexivity) c Hc) as S.
    cbv beta in S. assert (P : Qle_bool (5#1) (ask14_period c) = true) by (apply Qle_of_R; unfold Q2R at 1; cbn [Qnum Qden]; lra).
    specialize (S P). apply Qltb_R in S. change (Q2R 0) with (Q2R (0#1)) in S. unfold Q2R at 2 in S. cbn [Qnum Qden] in S. nra.
  - apply as_tor_up; try assumption; [apply ask14_pga_in|]. apply Rmult_lt_0_compat; [|exact D]. cbn. unfold Q2R; cbn. lra.
  - apply as_tor_up; try assumption; [apply ask14_pgv_in|]. apply Rmult_lt_0_compat; [|exact D]. cbn. unfold Q2R; cbn. lra.
Qed.
Print Assumptions C154_ask14.
(** Below 20 km it makes no difference how deep. *)
Theorem C154_ask14_beyond : forall src1 src2 a t z1 z2, nga_gives src1 (tor_at a z1) -> nga_gives src2 (tor_at a z2) -> n_mech a = Some t -> n_hw a <> Some true ->
  180 <= n_v a -> match n_z1 a with Some z => 0 <= z | None => True end -> 20 <= z1 -> 20 <= z2 -> exists o, gmm_out (ask14 src1) o /\ gmm_out (ask14 src2) o.
Proof.
  intros src1 src2 a t z1 z2 G1 G2 Ht Hh Hv Hz H1 H2. eapply rep_eq; [eapply as_tor_rep; eassumption|eapply as_tor_rep; eassumption|].
  intros c _. assert (E : as_source_path c (tor_at a z1) = as_source_path c (tor_at a z2)).
  { rewrite (as_tor_path c a z1), (as_tor_path c a z2) by assumption. unfold as_clip. rewrite !Rmax_left by lra. rewrite !Rmin_right by lra. reflexivity. }
  assert (R0 : as_rock c (tor_at a z1) = as_rock c (tor_at a z2)) by (unfold as_rock; rewrite E; destruct a; reflexivity).
  split; [unfold as_med|unfold as_sd]; rewrite ?E, R0; destruct a; reflexivity.
Qed.
Print Assumptions C154_ask14_beyond.

(** ** CB14: depth of the hypocentre *)
Definition cb_slope (c : cb14_row) (m : R) : R := Q2R (cb14_c_17 c) + (Q2R (cb14_c_18 c) - Q2R (cb14_c_17 c)) * cb_clip 0 1 (m - 5.5).
Definition below (h : R) : R := cb_clip 0 13 (h - 7).
Lemma cb_hyp_path c x a h : cb_source_path c x (hyp_at a h) = cb_source_path c x (hyp_at a 0) + (below h - below 0) * cb_slope c (n_mag a).
Proof.
  nga_split a. unfold cb_source_path.
  set (F := cb_fhng c x _) at 1. set (G := cb_fhng c x _). assert (E : F = G) by reflexivity. rewrite E. clearbody F G. clear E.
  unfold cb_hyp, cb_mech, cb_reg, cb_fhyp. cbn [hyp_at n_mag n_rup n_dip n_mech n_region n_hyp or_else].
  unfold below, cb_slope. ring.
Qed.
Lemma cb_hyp_rep src a x t h : nga_gives src (hyp_at a h) -> n_x a = Some x -> n_mech a = Some t -> 0 < n_v a -> 0 < n_dip a <= 90 ->
  (x = 0 -> n_dip a < 90 /\ match n_width a with Some w => w <> 0 | None => n_tor a = None /\ n_bot a = None end) ->
  reports (cb14 src) cb14_psa cb14_pga_row cb14_pgv_row cb14_period (fun c => cb_med cb14_pga_row c x (hyp_at a h)) (fun c => cb_sd cb14_pga_row c x (hyp_at a h)).
Proof. intros G Hx Ht Hv Hd Hg. apply (cb_reports _ _ _ t G); destruct a; cbn in *; try assumption. discriminate. Qed.
Lemma cb_rock_lt c x a1 a2 : In c cb14_coeff -> 1086 < n_v a1 -> cb_same_site a1 a2 -> cb_source_path c x a1 < cb_source_path c x a2 ->
  cb_med cb14_pga_row c x a1 < cb_med cb14_pga_row c x a2.
Proof.
  intros Hc Hv (E1 & E2 & E3) L. unfold cb_med, cb_reg. rewrite <- E1, <- E2, <- E3.
  row_upto Hc cb14_k_1 (1086#1)%Q as K. unfold cb_fsite. cbv zeta. destruct (Rle_dec (n_v a1) (Q2R (cb14_k_1 c))); [lra|]. lra.
Qed.
Lemma below_lt h1 h2 : 7 <= h1 -> h1 < h2 -> h2 <= 20 -> below h1 < below h2.
Proof. intros. unfold below, cb_clip. rewrite !Rmax_left by lra. rewrite !Rmin_left by lra. lra. Qed.
Lemma clip01 x : 0 <= cb_clip 0 1 x <= 1.
Proof. unfold cb_clip. split; [apply Rmin_glb; [apply Rmax_r|lra]|apply Rmin_r]. Qed.
Lemma slope_pos c m : 0 < Q2R (cb14_c_17 c) -> 0 < Q2R (cb14_c_18 c) -> 0 < cb_slope c m.
Proof. intros A B. unfold cb_slope. pose proof (clip01 (m - 5.5)). set (k := cb_clip _ _ _) in *. clearbody k. nra. Qed.
Lemma slope_big c m : 0 < Q2R (cb14_c_18 c) -> 6.5 <= m -> 0 < cb_slope c m.
Proof. intros A B. unfold cb_slope, cb_clip. rewrite Rmax_left by lra. rewrite Rmin_right by lra. lra. Qed.
Lemma slope_small c m : Q2R (cb14_c_17 c) < 0 -> m <= 5.5 -> cb_slope c m < 0.
Proof. intros A B. unfold cb_slope, cb_clip. rewrite Rmax_right by lra. rewrite Rmin_left by lra. lra. Qed.
Lemma Qpos_R q : Qltb 0 q = true -> 0 < Q2R q.
Proof. intros H. apply Qltb_R in H. change (Q2R 0) with (Q2R (0#1)) in H. unfold Q2R at 1 in H. cbn [Qnum Qden] in H. lra. Qed.
Lemma Qneg_R q : Qltb q 0 = true -> Q2R q < 0.
Proof. intros H. apply Qltb_R in H. change (Q2R 0) with (Q2R (0#1)) in H. unfold Q2R at 2 in H. cbn [Qnum Qden] in H. lra. Qed.
Lemma cb_18 c : In c cb14_coeff -> 0 < Q2R (cb14_c_18 c).
Proof. intros Hc. row_pos Hc (fun c => cb14_c_18 c) as P. lra. Qed.
Theorem C154_cb14 : forall src1 src2 a x t h1 h2, nga_gives src1 (hyp_at a h1) -> nga_gives src2 (hyp_at a h2) -> n_x a = Some x -> n_mech a = Some t ->
  1086 < n_v a -> 0 < n_dip a <= 90 -> (x = 0 -> n_dip a < 90 /\ match n_width a with Some w => w <> 0 | None => n_tor a = None /\ n_bot a = None end) ->
  7 <= h1 -> h1 < h2 -> h2 <= 20 ->
  stronger (cb14 src1) (cb14 src2) (fun T => T <= 0.5 \/ 6.5 <= n_mag a) (fun T => 0.75 <= T <= 7.5 /\ n_mag a <= 5.5).
Proof.
  intros src1 src2 a x t h1 h2 G1 G2 Hx Ht Hv Hd Hg H1 H2 H3. pose proof (below_lt _ _ H1 H2 H3) as B.
  assert (U : forall c, In c cb14_coeff -> 0 < cb_slope c (n_mag a) -> cb_med cb14_pga_row c x (hyp_at a h1) < cb_med cb14_pga_row c x (hyp_at a h2)).
  { intros c Hc S. apply cb_rock_lt; [exact Hc|destruct a; exact Hv|destruct a; repeat split|]. rewrite (cb_hyp_path c x a h1), (cb_hyp_path c x a h2). nra. }
  assert (D : forall c, In c cb14_coeff -> cb_slope c (n_mag a) < 0 -> cb_med cb14_pga_row c x (hyp_at a h2) < cb_med cb14_pga_row c x (hyp_at a h1)).
  { intros c Hc S. apply cb_rock_lt; [exact Hc|destruct a; exact Hv|destruct a; repeat split|]. rewrite (cb_hyp_path c x a h1), (cb_hyp_path c x a h2). nra. }
  eapply stronger_intro; [eapply (cb_hyp_rep _ a x t); eassumption || lra|eapply (cb_hyp_rep _ a x t); eassumption || lra| | | |].
  - intros c Hc T. apply cb14_psa_in in Hc as Hc'. apply U; [exact Hc'|]. destruct T as [T|T]; [|apply slope_big; [apply cb_18, Hc'|exact T]].
    apply slope_pos; [|apply cb_18, Hc'].
    pose proof (sel cb14_psa (fun c => Qle_bool (cb14_period c) (1#2)) (fun c => Qltb 0 (cb14_c_17 c)) ltac:(vm_compute; reflexivity) c Hc) as S.
    apply Qpos_R, S, Qle_of_R. unfold Q2R at 2; cbn [Qnum Qden]; lra.
  - intros c Hc (T & M). apply cb14_psa_in in Hc as Hc'. apply D; [exact Hc'|]. apply slope_small; [|exact M].
    pose proof (sel cb14_psa (fun c => Qle_bool (3#4) (cb14_period c) && Qle_bool (cb14_period c) (15#2))%bool (fun c => Qltb (cb14_c_17 c) 0) ltac:(vm_compute; reflexivity) c Hc) as S.
    apply Qneg_R, S. apply andb_true_intro. split; apply Qle_of_R; [unfold Q2R at 1|unfold Q2R at 2]; cbn [Qnum Qden]; lra.
  - apply U; [apply cb14_pga_in|]. apply slope_pos; [|apply cb_18, cb14_pga_in]. cbn. unfold Q2R; cbn. lra.
  - apply U; [apply cb14_pgv_in|]. apply slope_pos; [|apply cb_18, cb14_pgv_in]. cbn. unfold Q2R; cbn. lra.
Qed.
Print Assumptions C154_cb14.
(** On any soil from 150 m/s PGA rises; above 7 km and below 20 km the depth makes no difference. *)
Theorem C154_cb14_pga : forall src1 src2 a x t h1 h2, nga_gives src1 (hyp_at a h1) -> nga_gives src2 (hyp_at a h2) -> n_x a = Some x -> n_mech a = Some t ->
  150 <= n_v a -> 0 < n_dip a <= 90 -> (x = 0 -> n_dip a < 90 /\ match n_width a with Some w => w <> 0 | None => n_tor a = None /\ n_bot a = None end) ->
  7 <= h1 -> h1 < h2 -> h2 <= 20 ->
  exists o1 o2, gmm_out (cb14 src1) o1 /\ gmm_out (cb14 src2) o2 /\ flt_lt (o_pga o1) (o_pga o2).
Proof.
  intros src1 src2 a x t h1 h2 G1 G2 Hx Ht Hv Hd Hg H1 H2 H3. pose proof (below_lt _ _ H1 H2 H3) as B. do 2 eexists.
  split; [eapply reports_out, (cb_hyp_rep _ a x t); eassumption || lra|]. split; [eapply reports_out, (cb_hyp_rep _ a x t); eassumption || lra|].
  cbn [o_pga rep_outs]. apply (flt_lt_exp (Fin _) (Fin _)), flt_lt_fin, cb_pga_lt; [destruct a; exact Hv|destruct a; repeat split|].
  rewrite (cb_hyp_path _ x a h1), (cb_hyp_path _ x a h2).
  assert (0 < cb_slope cb14_pga_row (n_mag a)); [|nra]. apply slope_pos; [|apply cb_18, cb14_pga_in]. cbn. unfold Q2R; cbn. lra.
Qed.
Print Assumptions C154_cb14_pga.
Theorem C154_cb14_outside : forall src1 src2 a x t h1 h2, nga_gives src1 (hyp_at a h1) -> nga_gives src2 (hyp_at a h2) -> n_x a = Some x -> n_mech a = Some t ->
  0 < n_v a -> 0 < n_dip a <= 90 -> (x = 0 -> n_dip a < 90 /\ match n_width a with Some w => w <> 0 | None => n_tor a = None /\ n_bot a = None end) ->
  (h1 <= 7 /\ h2 <= 7) \/ (20 <= h1 /\ 20 <= h2) -> exists o, gmm_out (cb14 src1) o /\ gmm_out (cb14 src2) o.
Proof.
  intros src1 src2 a x t h1 h2 G1 G2 Hx Ht Hv Hd Hg H.
  eapply rep_eq; [eapply (cb_hyp_rep _ a x t); eassumption|eapply (cb_hyp_rep _ a x t); eassumption|].
  assert (BB : below h1 = below h2).
  { unfold below, cb_clip. destruct H as [[A B]|[A B]]; [rewrite !Rmax_right by lra; reflexivity|]. rewrite !Rmax_left by lra. rewrite !Rmin_right by lra. reflexivity. }
  assert (E : forall c, cb_source_path c x (hyp_at a h1) = cb_source_path c x (hyp_at a h2)).
  { intros c. rewrite (cb_hyp_path c x a h1), (cb_hyp_path c x a h2), BB. reflexivity. }
  intros c _.
  assert (R0 : cb_rock_pga cb14_pga_row x (hyp_at a h1) = cb_rock_pga cb14_pga_row x (hyp_at a h2)) by (unfold cb_rock_pga; rewrite (E cb14_pga_row); destruct a; reflexivity).
  split; [unfold cb_med|unfold cb_sd]; rewrite ?(E c), R0; destruct a; reflexivity.
Qed.
Print Assumptions C154_cb14_outside.

(** ** CY14: depth to the top of the rupture, off the hanging wall *)
Definition cy_slope (c : cy14_row) (m : R) : R := Q2R (cy14_c_7 c) + Q2R (cy14_c_7b c) / cosh (2 * Rmax (m - 4.5) 0).
Lemma cy_tor_ref c x a z : n_hw a <> Some true -> cy_ref c x (tor_at a z) = cy_ref c x (tor_at a 0) + cy_slope c (n_mag a) * z.
Proof.
  intros Hh. nga_split a. cbn in Hh. unfold cy_ref, cy_slope, cy_on_hw, cy_reg, cy_tor, cy_mech.
  cbn [tor_at n_mag n_rup n_jb n_dip n_tor n_dpp n_mech n_region n_hw or_else]. cbv zeta.
  destruct a_hw as [[]|]; [congruence| |]; ring.
Qed.
Lemma cosh_mono x y : 0 <= x -> x <= y -> cosh x <= cosh y.
Proof.
  intros H0 [H|H]; [|rewrite H; lra]. left. apply (incr_by_derive cosh sinh); [exact H| |].
  - intros u _. unfold cosh, sinh. auto_derive; [exact I|field].
  - intros u Hu. unfold sinh. assert (exp (- u) < exp u) by (apply exp_increasing; lra). lra.
Qed.
Lemma cy_slope_big c m : 0 < Q2R (cy14_c_7 c) -> 0 < Q2R (cy14_c_7 c) * 110 + Q2R (cy14_c_7b c) -> 7.2 <= m -> 0 < cy_slope c m.
Proof.
  intros A B M. unfold cy_slope. assert (C : 110 <= cosh (2 * Rmax (m - 4.5) 0)).
  { apply Rle_trans with (cosh (2 * (7.2 - 4.5))); [clear; unfold cosh; interval with (i_prec 40)|]. apply cosh_mono; [lra|]. assert (m - 4.5 <= Rmax (m - 4.5) 0) by apply Rmax_l. lra. }
  set (h := cosh _) in *. clearbody h. replace (Q2R (cy14_c_7 c) + Q2R (cy14_c_7b c) / h) with ((Q2R (cy14_c_7 c) * h + Q2R (cy14_c_7b c)) / h) by (field; lra).
  apply Rdiv_lt_0_compat; [nra|lra].
Qed.
Lemma cy_slope_any c m : 0 < Q2R (cy14_c_7 c) -> 0 < Q2R (cy14_c_7 c) + Q2R (cy14_c_7b c) -> 0 < cy_slope c m.
Proof.
  intros A B. unfold cy_slope. pose proof (cosh_ge1 (2 * Rmax (m - 4.5) 0)) as C.
  set (h := cosh _) in *. clearbody h. replace (Q2R (cy14_c_7 c) + Q2R (cy14_c_7b c) / h) with ((Q2R (cy14_c_7 c) * h + Q2R (cy14_c_7b c)) / h) by (field; lra).
  apply Rdiv_lt_0_compat; [nra|lra].
Qed.
Lemma cy_slope_small c m : Q2R (cy14_c_7 c) + Q2R (cy14_c_7b c) < 0 -> m <= 4.5 -> cy_slope c m < 0.
Proof. intros B M. unfold cy_slope. rewrite Rmax_right by lra. rewrite Rmult_0_r. rewrite cosh_0. lra. Qed.
Theorem C154_cy14 : forall src1 src2 a x z1 z2, nga_gives src1 (tor_at a z1) -> nga_gives src2 (tor_at a z2) -> n_x a = Some x -> n_hw a <> Some true ->
  0 <= n_rup a -> 180 <= n_v a -> z1 < z2 ->
  stronger (cy14 src1) (cy14 src2) (fun T => T <= 0.5 \/ 7.2 <= n_mag a) (fun T => 0.75 <= T /\ n_mag a <= 4.5).
Proof.
  intros src1 src2 a x z1 z2 G1 G2 Hx Hh Hr Hv H.
  assert (U : forall c, In c cy14_coeff -> 0 < cy_slope c (n_mag a) -> cy_med c x (tor_at a z1) < cy_med c x (tor_at a z2)).
  { intros c Hc S. apply cy_med_lt; [exact Hc|destruct a; exact Hv|destruct a; repeat split|]. rewrite (cy_tor_ref c x a z1), (cy_tor_ref c x a z2) by assumption. nra. }
  assert (D : forall c, In c cy14_coeff -> cy_slope c (n_mag a) < 0 -> cy_med c x (tor_at a z2) < cy_med c x (tor_at a z1)).
  { intros c Hc S. apply cy_med_lt; [exact Hc|destruct a; exact Hv|destruct a; repeat split|]. rewrite (cy_tor_ref c x a z1), (cy_tor_ref c x a z2) by assumption. nra. }
  assert (C7 : forall c, In c cy14_coeff -> 0 < Q2R (cy14_c_7 c)) by (intros c Hc; row_pos Hc (fun c => cy14_c_7 c) as P; lra).
  assert (R : forall z src, nga_gives src (tor_at a z) -> reports (cy14 src) cy14_psa cy14_pga_row cy14_pgv_row cy14_period (fun c => cy_med c x (tor_at a z)) (fun c => cy_sd c x (tor_at a z)))
    by (intros z src G; apply (cy_reports _ _ x G); destruct a; cbn in *; first [assumption|lra]).
  eapply stronger_intro; [apply R, G1|apply R, G2| | | |].
  - intros c Hc T. apply cy14_psa_in in Hc as Hc'. apply U; [exact Hc'|]. destruct T as [T|T].
    + apply cy_slope_any; [apply C7, Hc'|].
      pose proof (sel cy14_psa (fun c => Qle_bool (cy14_period c) (1#2)) (fun c => Qltb 0 (cy14_c_7 c + cy14_c_7b c)) ltac:(vm_compute; reflexivity) c Hc) as S.
      rewrite <- Qreals.Q2R_plus. apply Qpos_R, S, Qle_of_R. unfold Q2R at 2; cbn [Qnum Qden]; lra.
    + apply cy_slope_big; [apply C7, Hc'| |exact T].
      row_pos Hc' (fun c => cy14_c_7 c * (110#1) + cy14_c_7b c)%Q as P. lra.
  - intros c Hc (T & M). apply cy14_psa_in in Hc as Hc'. apply D; [exact Hc'|]. apply cy_slope_small; [|exact M].
    pose proof (sel cy14_psa (fun c => Qle_bool (3#4) (cy14_period c)) (fun c => Qltb (cy14_c_7 c + cy14_c_7b c) 0) ltac:(vm_compute; reflexivity) c Hc) as S.
    rewrite <- Qreals.Q2R_plus. apply Qneg_R, S, Qle_of_R. unfold Q2R at 1; cbn [Qnum Qden]; lra.
  - apply U; [apply cy14_pga_in|]. apply cy_slope_any; [apply C7, cy14_pga_in|]. cbn. unfold Q2R; cbn. lra.
  - apply U; [apply cy14_pgv_in|]. apply cy_slope_any; [apply C7, cy14_pgv_in|]. cbn. unfold Q2R; cbn. lra.
Qed.
Print Assumptions C154_cy14.

(** ** AGA16: depth of an intraslab hypocentre *)
Definition sub_deep (u : sub) (z : R) : sub := Sub (u_mag u) (u_rup u) (u_hyp u) (Some z) (u_v u) (u_event u) (u_region u).
Theorem C154_aga16 : forall src1 src2 u a l scale d z1 z2, sub_gives src1 (sub_deep u z1) -> sub_gives src2 (sub_deep u z2) -> u_event u = "intraslab" -> u_hyp u = Some d ->
  adj_vals a (slab u) (map (fun c => Q2R (aga16_period c)) aga16_coeff) = Some l -> 150 <= u_v u -> 0 <= d -> z1 < z2 -> z2 <= 120 ->
  compared (Some true) (fun T => T <= 5) (fun T => 6 <= T) src1 src2 a scale (u_v u).
Proof.
  intros src1 src2 u a l scale d z1 z2 G1 G2 HE HH A Hv Hd H1 H2. assert (SL : slab u = true) by (unfold slab; rewrite HE; reflexivity).
  assert (R : forall z, sub_ready (sub_deep u z) d z).
  { intros z. unfold sub_ready, sub_dist. change (slab (sub_deep u z)) with (slab u). rewrite SL. repeat split; [exact HH|]. intros _. right. exact HE. }
  destruct (sub_core src1 src2 (sub_deep u z1) (sub_deep u z2) a l scale d z1 z2 (fun c => Q2R (aga16_t_11 c) * (z2 - z1)) G1 G2 (R z1) (R z2) eq_refl eq_refl eq_refl A Hv Hd)
    as (o1 & o2 & O1 & O2 & L1 & L2 & PU & _ & S).
  { intros c x. change (slab (sub_deep u z1)) with (slab u). change (backarc (sub_deep u z1)) with (backarc u). change (backarc (sub_deep u z2)) with (backarc u).
    unfold aga16_rock. rewrite SL. rewrite !Rmin_left by lra. destruct (backarc u); ring. }
  assert (P : forall c, In c aga16_coeff -> Q2R (aga16_period c) <= 5 -> 0 < Q2R (aga16_t_11 c)).
  { intros c Hc T. pose proof (sel aga16_coeff (fun c => Qle_bool (aga16_period c) (5#1)) (fun c => Qltb 0 (aga16_t_11 c)) ltac:(vm_compute; reflexivity) c Hc) as Q.
    apply Qpos_R, Q, Qle_of_R. unfold Q2R at 2; cbn [Qnum Qden]; lra. }
  assert (N : forall c, In c aga16_coeff -> 6 <= Q2R (aga16_period c) -> Q2R (aga16_t_11 c) < 0).
  { intros c Hc T. pose proof (sel aga16_coeff (fun c => Qle_bool (6#1) (aga16_period c)) (fun c => Qltb (aga16_t_11 c) 0) ltac:(vm_compute; reflexivity) c Hc) as Q.
    apply Qneg_R, Q, Qle_of_R. unfold Q2R at 1; cbn [Qnum Qden]; lra. }
  exists o1, o2. split; [exact O1|]. split; [exact O2|]. split; [exact L1|]. split; [exact L2|]. split.
  - apply PU. intros c Hc T. apply Rmult_lt_0_compat; [apply P; [exact Hc|lra]|lra].
  - intros W k t y1 y2 Ht Y1 Y2. destruct (S W k t y1 y2 Ht Y1 Y2) as (c & Hc & E & Q1 & Q2). subst t. split; intros X.
    + apply Q1. apply Rmult_lt_0_compat; [apply P; [exact Hc|exact X]|lra].
    + apply Q2. specialize (N c Hc X). nra.
Qed.
Print Assumptions C154_aga16.

Example C154_nonvacuous : let a := ex_nga 6 20 1200 None in let u := Sub 7 (Some 90) (Some 100) None 1100 "intraslab" None in
  stronger (ask14 (nga_src (tor_at a 2))) (ask14 (nga_src (tor_at a 9))) (fun T => T <= 4) (fun T => 5 <= T) /\
  stronger (cb14 (nga_src (hyp_at a 8))) (cb14 (nga_src (hyp_at a 14))) (fun T => T <= 0.5 \/ 6.5 <= 6) (fun T => 0.75 <= T <= 7.5 /\ 6 <= 5.5) /\
  stronger (cy14 (nga_src (tor_at a 2))) (cy14 (nga_src (tor_at a 9))) (fun T => T <= 0.5 \/ 7.2 <= 6) (fun T => 0.75 <= T /\ 6 <= 4.5) /\
  compared (Some true) (fun T => T <= 5) (fun T => 6 <= T) (sub_src (sub_deep u 60)) (sub_src (sub_deep u 90)) AdjDefault 1 1100 /\
  (exists o, gmm_out (ask14 (nga_src (tor_at a 20))) o /\ gmm_out (ask14 (nga_src (tor_at a 25))) o) /\
  (exists o, gmm_out (cb14 (nga_src (hyp_at a 3))) o /\ gmm_out (cb14 (nga_src (hyp_at a 7))) o).
Proof.
  intros a u. split; [|split; [|split; [|split; [|split]]]].
  - apply (C154_ask14 _ _ a "SS" 2 9); try apply nga_src_gives; try reflexivity; try exact I; try discriminate; cbn; lra.
  - apply (C154_cb14 _ _ a (-5) "SS" 8 14); try apply nga_src_gives; try reflexivity; cbn; lra.
  - apply (C154_cy14 _ _ a (-5) 2 9); try apply nga_src_gives; try reflexivity; try discriminate; cbn; lra.
  - apply (C154_aga16 _ _ u AdjDefault (map (dc1_default true) aga16_T) 1 100 60 90); try apply sub_src_gives; try reflexivity; cbn; lra.
  - apply (C154_ask14_beyond _ _ a "SS" 20 25); try apply nga_src_gives; try reflexivity; try exact I; try discriminate; cbn; lra.
  - apply (C154_cb14_outside _ _ a (-5) "SS" 3 7); try apply nga_src_gives; try reflexivity; cbn; lra.
Qed.
