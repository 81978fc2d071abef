(** * Stable-continent models and Idriss (2014): properties C14-C22, C55-C57 *)
From Coquelicot Require Import Coquelicot.
From Interval Require Import Tactic.
From Coq Require Import List.
From Verif Require Import M_c03 M_tp05 M_pzt11 M_i14 M_ab06 FrameworkProofs Anal P_c03 P_tp05 P_pzt11 P_i14 P_ab06.
Open Scope R_scope.
Open Scope string_scope.
Open Scope list_scope.

(** Example scenarios used by the non-vacuity checks. *)
Definition ex_mr (m r : R) : dict := [("mag", PNum (Fin m)); ("dist_rup", PNum (Fin r))].
Definition ex_mrv (m r v : R) : dict := [("mag", PNum (Fin m)); ("dist_rup", PNum (Fin r)); ("v_s30", PNum (Fin v)); ("mechanism", PStr "SS")].
Example ex_mr_ok : forall m r, has_num (ex_mr m r) "mag" m /\ has_num (ex_mr m r) "dist_rup" r.
Proof. intros; split; reflexivity. Qed.
Example ex_i14_ok : forall m r v, i14_scenario (ex_mrv m r v) m r v "SS".
Proof. intros; repeat split. Qed.
Example ex_ab06_ok : forall m r v, ab06_scenario (ex_mrv m r v) m r v.
Proof. intros; repeat split. Qed.

(** ** C14: Campbell (2003) is finite and positive everywhere *)
Theorem C14_finite_positive : forall src m r, has_num src "mag" m -> has_num src "dist_rup" r -> 0 <= r ->
  exists g sa sd, result (c03 src) = Ok g /\
    result (g_spec_accels g) = Ok sa /\ List.length sa = 16%nat /\ Forall fpos sa /\
    result (g_ln_stds g) = Ok sd /\ List.length sd = 16%nat /\ (m <= 8.2 -> Forall fpos sd) /\
    result (g_pga g) = Raise ENotImpl /\ result (g_pgv g) = Raise ENotImpl /\ result (g_pgd g) = Raise ENotImpl.
Proof. exact c03_positive. Qed.
Print Assumptions C14_finite_positive.
Example C14_nonvacuous : exists g sa, result (c03 (ex_mr 6.5 20)) = Ok g /\ result (g_spec_accels g) = Ok sa /\ Forall fpos sa.
Proof.
  destruct (C14_finite_positive (ex_mr 6.5 20) 6.5 20) as (g & sa & _ & H1 & H2 & _ & H3 & _); try reflexivity; [lra|].
  exists g, sa. auto.
Qed.

(** ** C15: decay with distance up to magnitude 7.3, and failure above *)
Theorem C15_decays_with_distance : forall src1 src2 m r1 r2,
  has_num src1 "mag" m -> has_num src1 "dist_rup" r1 ->
  has_num src2 "mag" m -> has_num src2 "dist_rup" r2 ->
  m <= 7.3 -> 0 <= r1 -> r1 < r2 ->
  exists g1 g2 sa1 sa2, result (c03 src1) = Ok g1 /\ result (c03 src2) = Ok g2 /\
    result (g_spec_accels g1) = Ok sa1 /\ result (g_spec_accels g2) = Ok sa2 /\
    Forall2 flt_lt sa2 sa1.
Proof. exact c03_decreasing. Qed.
Print Assumptions C15_decays_with_distance.

(** Inside the recommended range, at 0.05 s (third period): M 8.2, 0 km against 0.1 km. *)
Theorem C15_decay_refuted_above_7_3 : forall src1 src2,
  has_num src1 "mag" 8.2 -> has_num src1 "dist_rup" 0 ->
  has_num src2 "mag" 8.2 -> has_num src2 "dist_rup" 0.1 ->
  exists g1 g2 sa1 sa2 a1 a2, result (c03 src1) = Ok g1 /\ result (c03 src2) = Ok g2 /\
    result (g_spec_accels g1) = Ok sa1 /\ result (g_spec_accels g2) = Ok sa2 /\
    nth_error sa1 2 = Some a1 /\ nth_error sa2 2 = Some a2 /\ flt_lt a1 a2.
Proof.
  intros src1 src2 H1 H2 H3 H4. exists (c03_inst 8.2 0), (c03_inst 8.2 0.1). do 4 eexists.
  split; [apply c03_construct; assumption|]. split; [apply c03_construct; assumption|].
  split; [apply c03_spec_accels|]. split; [apply c03_spec_accels|].
  split; [rewrite nth_error_map; reflexivity|]. split; [rewrite nth_error_map; reflexivity|].
  apply flt_lt_exp. exact c03_not_decreasing.
Qed.
Print Assumptions C15_decay_refuted_above_7_3.

(** ** C16: Tavakoli & Pezeshk (2005) is finite exactly up to magnitude 8.5 *)
Theorem C16_finite_up_to_8_5 : forall src m r, has_num src "mag" m -> has_num src "dist_rup" r -> m <= 8.5 -> 0 <= r ->
  exists g sa pga sd, result (tp05 src) = Ok g /\
    result (g_spec_accels g) = Ok sa /\ List.length sa = 13%nat /\ Forall fpos sa /\
    result (g_pga g) = Ok pga /\ fpos pga /\
    result (g_ln_stds g) = Ok sd /\ List.length sd = 13%nat /\ Forall fpos sd.
Proof. exact tp05_finite. Qed.
Print Assumptions C16_finite_up_to_8_5.
Theorem C16_nan_above_8_5 : forall src m r, has_num src "mag" m -> has_num src "dist_rup" r -> 8.5 < m ->
  exists g sa sd, result (tp05 src) = Ok g /\
    result (g_spec_accels g) = Ok sa /\ List.length sa = 13%nat /\ Forall (eq NaN) sa /\
    result (g_pga g) = Ok NaN /\
    result (g_ln_stds g) = Ok sd /\ List.length sd = 13%nat /\ Forall fpos sd.
Proof. exact tp05_nan. Qed.
Print Assumptions C16_nan_above_8_5.

(** ** C55: the 0.5 s standard deviation of Tavakoli & Pezeshk (2005) *)
(** [near a b e]: finite numbers at most [e] apart. *)
Definition near (e : R) (a b : flt) : Prop := exists x y, a = Fin x /\ b = Fin y /\ Rabs (x - y) <= e.
Theorem C55_sigma_hinge : forall src1 src2 m r, has_num src1 "mag" m -> has_num src1 "dist_rup" r ->
  has_num src2 "mag" 7.2 -> has_num src2 "dist_rup" r -> 7.19 <= m < 7.2 ->
  exists g1 g2 sd1 sd2, result (tp05 src1) = Ok g1 /\ result (tp05 src2) = Ok g2 /\
    result (g_ln_stds g1) = Ok sd1 /\ result (g_ln_stds g2) = Ok sd2 /\
    (** all periods except the 7th, 0.5 s, agree within 0.01 ... *)
    Forall2 (near 0.01) (firstn 6 sd1) (firstn 6 sd2) /\ Forall2 (near 0.01) (skipn 7 sd1) (skipn 7 sd2) /\
    (** ... and there the standard deviation jumps from below 0.04 to above 0.5 *)
    nth_error (gc_periods tp05_class) 7 = Some (Fin (Q2R (5#10))) /\
    exists a b, nth_error sd1 6 = Some (Fin a) /\ nth_error sd2 6 = Some (Fin b) /\ a < 0.04 /\ 0.5 < b.
Proof.
  intros src1 src2 m r H1 H2 H3 H4 Hm.
  destruct (tp05_accessors src1 m r H1 H2) as (g1 & G1 & _ & _ & S1 & _).
  destruct (tp05_accessors src2 7.2 r H3 H4) as (g2 & G2 & _ & _ & S2 & _).
  exists g1, g2. do 2 eexists. split; [exact G1|]. split; [exact G2|]. split; [exact S1|]. split; [exact S2|].
  assert (N : forall c, In c tp05_coeff -> tp05_period c <> (5#10)%Q -> near 0.01 (tp05_ln_std c (Fin m)) (tp05_ln_std c (Fin 7.2))).
  { intros c Hc Hp. destruct (tp05_sigma_hinge c m Hc Hp Hm) as (a & b & Ea & Eb & Hab). exists a, b. auto. }
  assert (F : forall l, (forall c, In c l -> In c tp05_coeff /\ tp05_period c <> (5#10)%Q) ->
     Forall2 (near 0.01) (map (fun c => tp05_ln_std c (Fin m)) l) (map (fun c => tp05_ln_std c (Fin 7.2)) l)).
  { intros l Hl. apply Forall2_map_intro. intros c Hc. destruct (Hl c Hc). apply N; assumption. }
  split; [rewrite !firstn_map; apply F|].
  { intros c Hc. split; [apply tp05_tl; rewrite <- (firstn_skipn 6 (tl tp05_coeff)); apply in_or_app; left; exact Hc|].
    cbn [tl tp05_coeff firstn In] in Hc.
    repeat (destruct Hc as [<-|Hc]; [discriminate|]). destruct Hc. }
  split; [rewrite !skipn_map; apply F|].
  { intros c Hc. split; [apply tp05_tl; rewrite <- (firstn_skipn 7 (tl tp05_coeff)); apply in_or_app; right; exact Hc|].
    cbn [tl tp05_coeff skipn In] in Hc.
    repeat (destruct Hc as [<-|Hc]; [discriminate|]). destruct Hc. }
  split; [reflexivity|].
  do 2 eexists. split; [rewrite nth_error_map; cbn [nth_error tl tp05_coeff option_map]; unfold tp05_ln_std; fcbn; rewrite Rltb_true by lra; reflexivity|].
  split; [rewrite nth_error_map; cbn [nth_error tl tp05_coeff option_map]; unfold tp05_ln_std; fcbn; rewrite Rltb_false by lra; reflexivity|].
  cbn [tp05_c_14 tp05_c_15 tp05_c_16]. qlit. lra.
Qed.
Print Assumptions C55_sigma_hinge.

(** ** C17: Pezeshk et al. (2011) *)
Theorem C17_finite_positive : forall src m r, has_num src "mag" m -> has_num src "dist_rup" r ->
  exists g sa pga sd, result (pzt11 src) = Ok g /\
    result (g_spec_accels g) = Ok sa /\ List.length sa = 22%nat /\ Forall fpos sa /\
    result (g_pga g) = Ok pga /\ fpos pga /\
    result (g_ln_stds g) = Ok sd /\ List.length sd = 22%nat /\ Forall fpos sd.
Proof. exact pzt11_finite. Qed.
Print Assumptions C17_finite_positive.
Theorem C17_decays_near_and_far : forall src1 src2 m r1 r2,
  has_num src1 "mag" m -> has_num src1 "dist_rup" r1 ->
  has_num src2 "mag" m -> has_num src2 "dist_rup" r2 ->
  4 <= m <= 9 -> 0 <= r1 -> r1 < r2 -> r2 <= 69.5 \/ 140 <= r1 ->
  exists g1 g2 sa1 sa2 p1 p2, result (pzt11 src1) = Ok g1 /\ result (pzt11 src2) = Ok g2 /\
    result (g_spec_accels g1) = Ok sa1 /\ result (g_spec_accels g2) = Ok sa2 /\
    Forall2 flt_lt sa2 sa1 /\
    result (g_pga g1) = Ok p1 /\ result (g_pga g2) = Ok p2 /\ flt_lt p2 p1.
Proof. exact pzt11_decreasing. Qed.
Print Assumptions C17_decays_near_and_far.
(** Between 70 and 140 km the nine longest periods (0.75 s and more) grow with distance. *)
Theorem C17_growth_between_75_and_139_km : forall src1 src2 m,
  has_num src1 "mag" m -> has_num src1 "dist_rup" 75 ->
  has_num src2 "mag" m -> has_num src2 "dist_rup" 139 -> 5 <= m <= 8 ->
  exists g1 g2 sa1 sa2, result (pzt11 src1) = Ok g1 /\ result (pzt11 src2) = Ok g2 /\
    result (g_spec_accels g1) = Ok sa1 /\ result (g_spec_accels g2) = Ok sa2 /\
    Forall2 flt_lt (skipn 13 sa1) (skipn 13 sa2) /\ List.length (skipn 13 sa1) = 9%nat.
Proof. exact pzt11_bounce. Qed.
Print Assumptions C17_growth_between_75_and_139_km.

(** ** C18: Idriss (2014) *)
Theorem C18_finite_positive : forall src m r v mech, i14_scenario src m r v mech -> 0 <= r -> 0 < v ->
  exists g sa sd p, result (i14 src) = Ok g /\
    result (g_spec_accels g) = Ok sa /\ List.length sa = 22%nat /\ Forall fpos sa /\
    result (g_pga g) = Ok p /\ fpos p /\ nth_error sa 0 = Some p /\
    result (g_ln_stds g) = Ok sd /\ List.length sd = 22%nat /\ Forall fpos sd.
Proof. exact i14_positive. Qed.
Print Assumptions C18_finite_positive.
Theorem C18_decays_with_distance : forall src1 src2 m r1 r2 v mech,
  i14_scenario src1 m r1 v mech -> i14_scenario src2 m r2 v mech ->
  mech = "SS" \/ mech = "RS" -> 0 <= m <= 9 -> 0 < v -> 0 <= r1 -> r1 < r2 ->
  exists g1 g2 sa1 sa2, result (i14 src1) = Ok g1 /\ result (i14 src2) = Ok g2 /\
    result (g_spec_accels g1) = Ok sa1 /\ result (g_spec_accels g2) = Ok sa2 /\ Forall2 flt_lt sa2 sa1.
Proof. exact i14_decr_dist. Qed.
Print Assumptions C18_decays_with_distance.
Theorem C18_stiffer_site_shakes_less : forall src1 src2 m r v1 v2 mech,
  i14_scenario src1 m r v1 mech -> i14_scenario src2 m r v2 mech ->
  mech = "SS" \/ mech = "RS" -> 0 <= r -> 0 < v1 -> v1 < v2 ->
  exists g1 g2 sa1 sa2, result (i14 src1) = Ok g1 /\ result (i14 src2) = Ok g2 /\
    result (g_spec_accels g1) = Ok sa1 /\ result (g_spec_accels g2) = Ok sa2 /\ Forall2 flt_lt sa2 sa1.
Proof. exact i14_decr_vs. Qed.
Print Assumptions C18_stiffer_site_shakes_less.
Theorem C18_reverse_not_lower : forall src1 src2 m r v, i14_scenario src1 m r v "SS" -> i14_scenario src2 m r v "RS" ->
  0 <= r -> 0 < v ->
  exists g1 g2 sa1 sa2, result (i14 src1) = Ok g1 /\ result (i14 src2) = Ok g2 /\
    result (g_spec_accels g1) = Ok sa1 /\ result (g_spec_accels g2) = Ok sa2 /\ Forall2 flt_le sa1 sa2.
Proof. exact i14_mech. Qed.
Print Assumptions C18_reverse_not_lower.
Theorem C18_grows_with_magnitude : forall src1 src2 m1 m2 r v mech,
  i14_scenario src1 m1 r v mech -> i14_scenario src2 m2 r v mech ->
  mech = "SS" \/ mech = "RS" -> 0 <= r -> 0 < v ->
  m1 < m2 -> (4 <= m1 /\ m2 <= 6.75) \/ (6.75 < m1 /\ m2 <= 9) ->
  exists g1 g2 sa1 sa2, result (i14 src1) = Ok g1 /\ result (i14 src2) = Ok g2 /\
    result (g_spec_accels g1) = Ok sa1 /\ result (g_spec_accels g2) = Ok sa2 /\ Forall2 flt_lt sa1 sa2.
Proof. exact i14_incr_mag. Qed.
Print Assumptions C18_grows_with_magnitude.
Theorem C18_sigma_not_increasing : forall src1 src2 m1 m2 r v mech,
  i14_scenario src1 m1 r v mech -> i14_scenario src2 m2 r v mech -> m1 <= m2 ->
  exists g1 g2 sd1 sd2, result (i14 src1) = Ok g1 /\ result (i14 src2) = Ok g2 /\
    result (g_ln_stds g1) = Ok sd1 /\ result (g_ln_stds g2) = Ok sd2 /\ Forall2 flt_le sd2 sd1.
Proof. exact i14_sigma_mag. Qed.
Print Assumptions C18_sigma_not_increasing.

(** ** C19: the two magnitude branches join at 6.75 within 0.1 % *)
Theorem C19_branches_join : forall src1 src2 m2 r v mech,
  i14_scenario src1 6.75 r v mech -> i14_scenario src2 m2 r v mech ->
  mech = "SS" \/ mech = "RS" -> 6.75 < m2 <= 7 -> 0 <= r <= 150 -> 0 < v ->
  exists g1 g2 sa1 sa2, result (i14 src1) = Ok g1 /\ result (i14 src2) = Ok g2 /\
    result (g_spec_accels g1) = Ok sa1 /\ result (g_spec_accels g2) = Ok sa2 /\
    Forall2 (ln_close (0.001 + 4 * (m2 - 6.75))) sa1 sa2.
Proof. exact i14_join. Qed.
Print Assumptions C19_branches_join.

(** ** C20: Atkinson & Boore (2006), PGA jumps in v_s30 at 180 and 300 m/s *)
Lemma ab06_bc_from_760 src m r g p : ab06_scenario src m r 760 -> 0 < r ->
  result (ab06 src) = Ok g -> result (g_pga g) = Ok (Fin p) -> ab06_pga_bc m r = 980.665 * p.
Proof.
  intros HS Hr Hg Hp. destruct (ab06_pga_ln src m r 760 HS Hr ltac:(lra)) as (g' & Hg' & Hp').
  rewrite Hg in Hg'. injection Hg' as <-. rewrite Hp in Hp'. injection Hp' as ->.
  unfold ab06_bnlR. rewrite (Rleb_false 760 180), (Rleb_false 760 300), (Rleb_true 760 760) by lra.
  replace (760/760) with 1 by lra. rewrite ln_1.
  match goal with |- context [exp ?x] => replace x with 0 by (unfold Rdiv; ring) end.
  rewrite exp_0. field; lra.
Qed.

Definition jumps_at (h m r : R) : Prop :=
  exists e, 0 < e /\ forall d, 0 < d -> exists v, h < v < h + d /\
    forall src1 src2, ab06_scenario src1 m r h -> ab06_scenario src2 m r v ->
    exists g1 g2 p1 p2, result (ab06 src1) = Ok g1 /\ result (ab06 src2) = Ok g2 /\
      result (g_pga g1) = Ok (Fin p1) /\ result (g_pga g2) = Ok (Fin p2) /\ 0 < p1 /\ 0 < p2 /\
      e <= Rabs (ln p2 - ln p1).
(** [p] is the PGA (g) the model gives for the same event at the reference velocity. *)
Theorem C20_pga_jumps_at_300_and_180 : forall src m r g p, ab06_scenario src m r 760 -> 0 < r ->
  result (ab06 src) = Ok g -> result (g_pga g) = Ok (Fin p) -> Rmax (980.665 * p) 60 <> 100 ->
  jumps_at 300 m r /\ jumps_at 180 m r.
Proof.
  intros src m r g p HS Hr Hg Hp Hne. rewrite <- (ab06_bc_from_760 src m r g p HS Hr Hg Hp) in Hne.
  assert (L : ln (Rmax (ab06_pga_bc m r) 60 / 100) <> 0).
  { pose proof (Rmax_r (ab06_pga_bc m r) 60) as H6. intros E. apply Hne.
    assert (Rmax (ab06_pga_bc m r) 60 / 100 = 1) by (apply ln_inv; [lra|lra|rewrite ln_1; exact E]). lra. }
  split; [apply ab06_jump_300|apply ab06_jump_180]; assumption.
Qed.
Print Assumptions C20_pga_jumps_at_300_and_180.

(** Away from the two hinges nothing jumps: at and above 760 m/s the site term is linear in ln v_s30. *)
Theorem C21_no_hard_rock_set_for_stiff_sites : exists B : list R, List.length B = 24%nat /\ Forall (fun b => -0.8 <= b <= -0.2) B /\
  forall src src0 m r v, ab06_scenario src m r v -> ab06_scenario src0 m r 760 -> 0 < r -> 760 <= v ->
  exists g g0 sa sa0, result (ab06 src) = Ok g /\ result (ab06 src0) = Ok g0 /\
    result (g_spec_accels g) = Ok sa /\ result (g_spec_accels g0) = Ok sa0 /\
    sa = map (fun ab => fmul (fst ab) (Fin (exp (snd ab * ln (v / 760))))) (combine sa0 B).
Proof. exact ab06_velocity_above. Qed.
Print Assumptions C21_no_hard_rock_set_for_stiff_sites.
Theorem C21_zero_velocity_selects_hard_rock : exists S : R -> R -> R, (forall m t, 0 <= S m t <= 0.4) /\
  forall src src0 m r, ab06_scenario src m r 0 -> ab06_scenario src0 m r 760 -> 0 < r ->
  exists g g0, result (ab06 src) = Ok g /\ result (ab06 src0) = Ok g0 /\
   result (g_spec_accels g) = Ok (map (fun c => Fin (Rpower 10 (ab06_refR c m r + S m (Q2R (ab06_period c))) / 980.665)) (skipn 3 ab06_rock_coeff)) /\
   result (g_spec_accels g0) = Ok (map (fun c => Fin (Rpower 10 (ab06_refR c m r + S m (Q2R (ab06_period c))) / 980.665)) (skipn 3 ab06_bc_coeff)).
Proof. exact ab06_zero_is_rock. Qed.
Print Assumptions C21_zero_velocity_selects_hard_rock.
Theorem C21_missing_velocity_rejected : forall src m r, has_num src "mag" m -> has_num src "dist_rup" r ->
  absent src "v_s30" -> result (ab06 src) = Raise EValue.
Proof. exact ab06_missing_vs30. Qed.
Print Assumptions C21_missing_velocity_rejected.

(** ** C22: PGV (cm/s) and PGD (cm) divided by gravity; [ab06_refR] is the published log10 relation *)
Theorem C22_peaks_divided_by_gravity : exists S : R -> R -> R, (forall m t, 0 <= S m t <= 0.4) /\
  forall src m r, ab06_scenario src m r 760 -> 0 < r ->
  exists g, result (ab06 src) = Ok g /\
   result (g_pga g) = Ok (Fin (Rpower 10 (ab06_refR (nth 2 ab06_bc_coeff ab06_row0) m r + S m 0) / 980.665)) /\
   result (g_pgv g) = Ok (Fin (Rpower 10 (ab06_refR (nth 1 ab06_bc_coeff ab06_row0) m r + S m (-1)) / 980.665)) /\
   result (g_pgd g) = Ok (Fin (Rpower 10 (ab06_refR (nth 0 ab06_bc_coeff ab06_row0) m r + S m (-2)) / 980.665)).
Proof. exact ab06_peaks_over_gravity. Qed.
Print Assumptions C22_peaks_divided_by_gravity.

(** ** C56: Atkinson & Boore (2006) is finite and positive; it decays with distance *)
Theorem C56_finite_positive : forall src m r v, ab06_scenario src m r v -> 0 < r -> 0 < v ->
  exists g sa sd a b d, result (ab06 src) = Ok g /\
    result (g_spec_accels g) = Ok sa /\ List.length sa = 24%nat /\ Forall fpos sa /\
    result (g_pga g) = Ok a /\ fpos a /\ result (g_pgv g) = Ok b /\ fpos b /\ result (g_pgd g) = Ok d /\ fpos d /\
    result (g_ln_stds g) = Ok sd /\ sd = repeat (Fin 0.30) 24.
Proof. exact ab06_positive. Qed.
Print Assumptions C56_finite_positive.
Theorem C56_decays_on_rock : forall src1 src2 m r1 r2 v, ab06_scenario src1 m r1 v -> ab06_scenario src2 m r2 v ->
  2 <= m <= 8.5 -> 0 < r1 -> r1 < r2 -> 760 <= v ->
  exists g1 g2 sa1 sa2, result (ab06 src1) = Ok g1 /\ result (ab06 src2) = Ok g2 /\
    result (g_spec_accels g1) = Ok sa1 /\ result (g_spec_accels g2) = Ok sa2 /\ Forall2 flt_lt sa2 sa1.
Proof. exact ab06_decr_rock. Qed.
Print Assumptions C56_decays_on_rock.
Theorem C56_pga_decays_on_all_sites : forall src1 src2 m r1 r2 v, ab06_scenario src1 m r1 v -> ab06_scenario src2 m r2 v ->
  2 <= m <= 8.5 -> 0 < r1 -> r1 < r2 -> 0 < v ->
  exists g1 g2 p1 p2, result (ab06 src1) = Ok g1 /\ result (ab06 src2) = Ok g2 /\
    result (g_pga g1) = Ok p1 /\ result (g_pga g2) = Ok p2 /\ flt_lt p2 p1.
Proof. exact ab06_decr_pga. Qed.
Print Assumptions C56_pga_decays_on_all_sites.

(** The hypothesis of C20 is met, e.g. by every far event: M 5 at 500 km. *)
Example C20_nonvacuous : exists g p, result (ab06 (ex_mrv 5 500 760)) = Ok g /\ result (g_pga g) = Ok (Fin p) /\
  Rmax (980.665 * p) 60 <> 100.
Proof.
  destruct C22_peaks_divided_by_gravity as (S & HS & H).
  destruct (H (ex_mrv 5 500 760) 5 500 (ex_ab06_ok _ _ _) ltac:(lra)) as (g & Hg & Hp & _).
  exists g. eexists. split; [exact Hg|]. split; [exact Hp|].
  set (x := _ + S 5 0). assert (Hx : x <= 1).
  { unfold x. specialize (HS 5 0). Transparent ab06_refR. unfold ab06_refR. Opaque ab06_refR.
    rewrite (Rmin_right (ln 500 / ln 10)) by interval. rewrite (Rmax_left (ln (500/140) / ln 10)) by interval.
    rewrite (Rmax_right (ln (10/500) / ln 10)) by interval.
    cbn [nth ab06_bc_coeff ab06_c_1 ab06_c_2 ab06_c_3 ab06_c_4 ab06_c_5 ab06_c_6 ab06_c_7 ab06_c_8 ab06_c_9 ab06_c_10]. qlit.
    match goal with |- ?a + S 5 0 <= 1 => assert (a <= 0.5) by (interval with (i_prec 40)) end. lra. }
  assert (Rpower 10 x <= 10).
  { unfold Rpower. rewrite <- (exp_ln 10) at 2 by lra. apply exp_le_mono. pose proof ln10_pos. nra. }
  replace (980.665 * (Rpower 10 x / 980.665)) with (Rpower 10 x) by (field; lra).
  rewrite Rmax_right by lra. lra.
Qed.
