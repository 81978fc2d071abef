(** * Duration models AS96, KS06, AS16: properties C41-C43, C79-C84 *)
From Coq Require Import List.
From Verif Require Import M_as96 M_ks06 M_as16 Nga Spec_dur P_dur P_as16 P_as16ord.
Open Scope R_scope.
Open Scope string_scope.
Open Scope list_scope.

Definition ex96 : dur96 := Dur96 6.5 30 "soil".
Definition ex06 : dur06 := Dur06 6.5 30 400.
Definition ex16 : dur16 := Dur16 6.5 30 400 "RS" None.

(** ** C41: increments, interp, and the caller's arrays *)
Theorem C41_increment : forall h nias, Forall2 (banded arias_incr) (aread h nias) (fst (as96_calc_incr h nias)).
Proof. exact calc_incr_ok. Qed.
Print Assumptions C41_increment.
Theorem C41_increment_grows : forall q1 q2, 0.10 <= q1 -> q1 < q2 -> q2 <= 0.95 -> arias_incr q1 < arias_incr q2.
Proof. exact arias_mono. Qed.
Print Assumptions C41_increment_grows.
(** The value of the caller's array afterwards: entries outside the band are gone. *)
Theorem C41_interp_overwrites_argument : forall h m p l stds, nth_error h p = Some l ->
  exists l', nth_error (snd (as96_interp h m (ARef p) stds)) p = Some l' /\ Forall2 masked l l' /\
    forall p', p' <> p -> nth_error (snd (as96_interp h m (ARef p) stds)) p' = nth_error h p'.
Proof. exact interp_mutates. Qed.
Print Assumptions C41_interp_overwrites_argument.
Theorem C41_increment_overwrites_argument : forall h p l, nth_error h p = Some l ->
  exists l', nth_error (snd (as96_calc_incr h (ARef p))) p = Some l' /\ Forall2 masked l l' /\
    forall p', p' <> p -> nth_error (snd (as96_calc_incr h (ARef p))) p' = nth_error h p'.
Proof. exact calc_incr_mutates. Qed.
Print Assumptions C41_increment_overwrites_argument.
Theorem C41_list_argument_untouched : forall h m l stds, snd (as96_interp h m (ADup l) stds) = h.
Proof. exact interp_list_pure. Qed.
Print Assumptions C41_list_argument_untouched.
Theorem C41_second_call_agrees : forall h m p stds, (p < List.length h)%nat ->
  as96_interp (snd (as96_interp h m (ARef p) stds)) m (ARef p) stds = as96_interp h m (ARef p) stds.
Proof. exact interp_again. Qed.
Print Assumptions C41_second_call_agrees.
Example C41_nonvacuous : exists m, result (as96 (dur96_src ex96)) = Ok m /\
  snd (as96_interp [[Fin 0.5; Fin 0.99]; [Fin 0.01]] m (ARef 0) None) = [[Fin 0.5; NaN]; [Fin 0.01]].
Proof.
  eexists. split; [apply as96_construct, dur96_src_gives|].
  rewrite as96_interp_eq by (cbn; auto with arith). cbn [snd awrite aread nth map aset].
  rewrite mask_in by lra. unfold as96_mask1. cbn [fltb]. rewrite Rltb_false by lra. rewrite Rltb_true by lra. reflexivity.
Qed.

(** ** C79: AS96 durations *)
Theorem C79_published : forall src a, dur96_gives src a ->
  exists m, result (as96 src) = Ok m /\ as96_duration m = Fin (base96 a * exp (arias_incr 0.75)) /\ as96_std_err m = Fin 0.55.
Proof. exact as96_published. Qed.
Print Assumptions C79_published.
Theorem C79_longer_for_larger_farther_softer : forall src1 src2 a b, dur96_gives src1 a -> dur96_gives src2 b ->
  d96_m a <= d96_m b -> d96_r a <= d96_r b -> (d96_site a = "soil" -> d96_site b = "soil") ->
  exists m1 m2, result (as96 src1) = Ok m1 /\ result (as96 src2) = Ok m2 /\
    flt_le (as96_duration m1) (as96_duration m2) /\
    (d96_m a < d96_m b \/ (10 <= d96_r a /\ d96_r a < d96_r b) \/ (d96_site a <> "soil" /\ d96_site b = "soil") ->
     flt_lt (as96_duration m1) (as96_duration m2)).
Proof. exact as96_effects. Qed.
Print Assumptions C79_longer_for_larger_farther_softer.
Theorem C79_more_deviations_longer : forall src a m h nias s1 s2, dur96_gives src a -> result (as96 src) = Ok m ->
  (match nias with ADup _ => True | ARef p => (p < List.length h)%nat end) -> s1 < s2 ->
  exists lo hi, fst (as96_interp h m nias (Some [Fin s1; Fin s2])) = [lo; hi] /\
    Forall2 (fun x y => (y = NaN /\ ~ (exists q, x = Fin q /\ 0.10 <= q <= 0.95)) \/ (fpos y /\ exists q, x = Fin q /\ 0.10 <= q <= 0.95)) (aread h nias) lo /\
    Forall2 (fun y z => (y = NaN /\ z = NaN) \/ flt_lt y z) lo hi.
Proof. exact interp_stds. Qed.
Print Assumptions C79_more_deviations_longer.
Example C79_nonvacuous : exists m1 m2, result (as96 (dur96_src (Dur96 6.5 30 "rock"))) = Ok m1 /\ result (as96 (dur96_src ex96)) = Ok m2 /\
  flt_lt (as96_duration m1) (as96_duration m2).
Proof.
  destruct (C79_longer_for_larger_farther_softer _ _ (Dur96 6.5 30 "rock") ex96 (dur96_src_gives _) (dur96_src_gives _)) as (m1 & m2 & E1 & E2 & _ & L); try (cbn; lra).
  - intros _; reflexivity.
  - exists m1, m2. split; [exact E1|]. split; [exact E2|]. apply L. right; right. split; [discriminate|reflexivity].
Qed.

(** ** C80: interp counts the 75 % increment twice *)
Theorem C80_interp_values : forall src a m h nias, dur96_gives src a -> result (as96 src) = Ok m ->
  (match nias with ADup _ => True | ARef p => (p < List.length h)%nat end) ->
  exists row, fst (as96_interp h m nias None) = [row] /\
    Forall2 (banded (fun q => base96 a * exp (arias_incr 0.75) * exp (arias_incr q))) (aread h nias) row.
Proof. exact interp_values. Qed.
Print Assumptions C80_interp_values.
Theorem C80_interp_075_is_not_duration : forall src a m, dur96_gives src a -> result (as96 src) = Ok m ->
  exists d x, as96_duration m = Fin d /\ fst (as96_interp [] m (ADup [Fin 0.75]) None) = [[Fin x]] /\ 1.0085 * d < x < 1.0087 * d.
Proof.
  intros src a m G E. destruct (as96_published src a G) as (m' & E' & D & _). assert (m' = m) by congruence; subst m'.
  destruct (interp_values src a m [] (ADup [Fin 0.75]) G E I) as (row & F & B).
  inversion B as [|? y ? l' H T]; subst. inversion T; subst. destruct H as [(q & Eq & Hq & ->)|[N _]].
  - injection Eq as <-. eexists _, _. split; [exact D|]. split; [exact F|].
    pose proof (base96_pos a) as P. pose proof (exp_pos (arias_incr 0.75)) as P2. destruct arias_075 as [L U].
    assert (X : 1.0085 < exp (arias_incr 0.75) < 1.0087).
    { split.
      - apply Rlt_le_trans with (exp 0.0085); [|left; apply exp_increasing; exact L]. pose proof (exp_ineq1 0.0085 ltac:(lra)). lra.
      - apply Rlt_trans with (exp 0.0086); [apply exp_increasing; exact U|].
        pose proof (exp_ineq1 (Ropp 0.0086) ltac:(lra)) as Q. rewrite exp_Ropp in Q. pose proof (exp_pos 0.0086) as R0.
        assert ((1 + Ropp 0.0086) * exp 0.0086 < 1) by (apply Rmult_lt_reg_r with (/ exp 0.0086); [apply Rinv_0_lt_compat; lra|]; rewrite Rmult_assoc, Rinv_r by lra; lra). lra. }
    assert (0 < base96 a * exp (arias_incr 0.75)) by nra. nra.
  - exfalso. apply N. exists 0.75. split; [reflexivity|lra].
Qed.
Print Assumptions C80_interp_075_is_not_duration.
Example C80_nonvacuous : exists m, result (as96 (dur96_src ex96)) = Ok m /\ dur96_gives (dur96_src ex96) ex96.
Proof. eexists. split; [apply as96_construct, dur96_src_gives|apply dur96_src_gives]. Qed.

(** ** C42: KS06 durations and their NaN *)
Theorem C42_published : forall src a, dur06_gives src a ->
  exists m, result (ks06 src) = Ok m /\
    ks06_duration m = Ks06Rec (shown (t75a a)) (shown (t95a a)) (shown (t75v a)) (shown (t95v a)) /\
    ks06_std_err m = Ks06Rec (Fin 0.57) (Fin 0.47) (Fin 0.66) (Fin 0.52).
Proof. exact ks06_published. Qed.
Print Assumptions C42_published.
Theorem C42_in_limits : forall src a, dur06_gives src a -> 5 <= d06_m a -> 0 <= d06_r a -> d06_v a <= 1000 ->
  exists m, result (ks06 src) = Ok m /\ fpos (D_5t75a (ks06_duration m)) /\ fpos (D_5t95a (ks06_duration m)) /\ fpos (D_5t95v (ks06_duration m)) /\
    (5.08 <= d06_m a \/ 0.7 <= d06_r a \/ d06_v a <= 965 -> fpos (D_5t75v (ks06_duration m))).
Proof. exact ks06_finite. Qed.
Print Assumptions C42_in_limits.
Theorem C42_nan_refuted_in_limits : forall src a, dur06_gives src a -> d06_m a <= 5.02 -> d06_r a <= 0.1 -> 990 <= d06_v a ->
  exists m, result (ks06 src) = Ok m /\ D_5t75v (ks06_duration m) = NaN.
Proof. exact ks06_nan. Qed.
Print Assumptions C42_nan_refuted_in_limits.
Example C42_nonvacuous : exists m, result (ks06 (dur06_src (Dur06 5 0 1000))) = Ok m /\ D_5t75v (ks06_duration m) = NaN.
Proof. apply (C42_nan_refuted_in_limits _ (Dur06 5 0 1000)); [apply dur06_src_gives|cbn; lra..]. Qed.

(** ** C81: KS06 effects *)
Theorem C81_longer_for_larger_farther_softer : forall src1 src2 a b, dur06_gives src1 a -> dur06_gives src2 b ->
  d06_m a <= d06_m b -> d06_r a <= d06_r b -> d06_v b <= d06_v a -> a <> b ->
  exists m1 m2, result (ks06 src1) = Ok m1 /\ result (ks06 src2) = Ok m2 /\
    forall f, In f [D_5t75a; D_5t95a; D_5t75v; D_5t95v] -> fpos (f (ks06_duration m1)) ->
      flt_lt (f (ks06_duration m1)) (f (ks06_duration m2)).
Proof. exact ks06_effects. Qed.
Print Assumptions C81_longer_for_larger_farther_softer.
Example C81_nonvacuous : exists m1 m2, result (ks06 (dur06_src ex06)) = Ok m1 /\ result (ks06 (dur06_src (Dur06 7 30 300))) = Ok m2 /\
  flt_lt (D_5t75v (ks06_duration m1)) (D_5t75v (ks06_duration m2)).
Proof.
  destruct (C81_longer_for_larger_farther_softer _ _ ex06 (Dur06 7 30 300) (dur06_src_gives _) (dur06_src_gives _)) as (m1 & m2 & E1 & E2 & F); try (cbn; lra).
  - intros C. injection C as C _. lra.
  - exists m1, m2. split; [exact E1|]. split; [exact E2|]. apply F; [cbn; auto|].
    destruct (C42_in_limits _ ex06 (dur06_src_gives _)) as (m & E & _ & _ & _ & P); try (cbn; lra).
    assert (m = m1) by congruence; subst m. apply P. left. cbn; lra.
Qed.

(** ** C43: AS16 durations and standard deviations *)
Theorem C43_published : forall src a, dur16_gives src a -> 0 <= d16_r a -> 0 < d16_v a ->
  exists m, result (as16 src) = Ok m /\
    as16_duration m = As16Rec (Fin (med16 k5t75 a)) (Fin (med16 k5t95 a)) (Fin (med16 k20t80 a)) /\
    as16_std_err m = As16Rec (Fin (sd16 k5t75 (d16_m a))) (Fin (sd16 k5t95 (d16_m a))) (Fin (sd16 k20t80 (d16_m a))).
Proof. exact as16_published. Qed.
Print Assumptions C43_published.
Theorem C43_finite_positive : forall src a, dur16_gives src a -> 0 <= d16_r a -> 0 < d16_v a ->
  exists m, result (as16 src) = Ok m /\ forall f, In f [D_5t75; D_5t95; D_20t80] ->
    fpos (f (as16_duration m)) /\ exists s, f (as16_std_err m) = Fin s /\ 0.39 <= s <= 0.64.
Proof. exact as16_finite. Qed.
Print Assumptions C43_finite_positive.
Theorem C43_sigma_shrinks_with_magnitude : forall src1 src2 a m1 m2, dur16_gives src1 (with16_m a m1) -> dur16_gives src2 (with16_m a m2) ->
  0 <= d16_r a -> 0 < d16_v a -> m1 <= m2 ->
  exists o1 o2, result (as16 src1) = Ok o1 /\ result (as16 src2) = Ok o2 /\
    forall f, In f [D_5t75; D_5t95; D_20t80] -> flt_le (f (as16_std_err o2)) (f (as16_std_err o1)).
Proof.
  intros src1 src2 a m1 m2 G1 G2 Hr Hv H.
  destruct (as16_published _ _ G1 Hr Hv) as (o1 & E1 & _ & S1). destruct (as16_published _ _ G2 Hr Hv) as (o2 & E2 & _ & S2).
  exists o1, o2. split; [exact E1|]. split; [exact E2|]. intros f Hf. rewrite S1, S2.
  destruct Hf as [<-|[<-|[<-|[]]]]; cbn [D_5t75 D_5t95 D_20t80]; apply flt_le_fin, sd16_mono; cbn; auto.
Qed.
Print Assumptions C43_sigma_shrinks_with_magnitude.
(** The 5-95 % duration exceeds both others; the basin depth, when given, is not negative. *)
Theorem C43_medians_ordered : forall src a, dur16_gives src a -> 0 <= d16_r a -> 0 < d16_v a ->
  exists m x75 x95 x80, result (as16 src) = Ok m /\ as16_duration m = As16Rec (Fin x75) (Fin x95) (Fin x80) /\
    1.2 * x75 <= x95 /\ (100 <= d16_v a -> match d16_z a with Some z => 0 <= z | None => True end -> 1.15 * x80 <= x95).
Proof. exact as16_ordered. Qed.
Print Assumptions C43_medians_ordered.
Example C43_nonvacuous : exists m, result (as16 (dur16_src ex16)) = Ok m /\ fpos (D_20t80 (as16_duration m)).
Proof. destruct (C43_finite_positive _ ex16 (dur16_src_gives _)) as (m & E & F); try (cbn; lra). exists m. split; [exact E|]. apply F; cbn; auto. Qed.

(** ** C82: AS16 effects of distance, velocity and magnitude *)
Theorem C82_longer_when_farther : forall src1 src2 a r1 r2, dur16_gives src1 (with16_r a r1) -> dur16_gives src2 (with16_r a r2) ->
  0 < d16_v a -> 0 <= r1 -> r1 < r2 ->
  exists m1 m2, result (as16 src1) = Ok m1 /\ result (as16 src2) = Ok m2 /\
    forall f, In f [D_5t75; D_5t95; D_20t80] -> flt_lt (f (as16_duration m1)) (f (as16_duration m2)).
Proof. exact as16_distance. Qed.
Print Assumptions C82_longer_when_farther.
Theorem C82_shorter_on_stiffer_sites : forall src1 src2 a v1 v2, dur16_gives src1 (with16_v a v1) -> dur16_gives src2 (with16_v a v2) ->
  d16_z a = None -> 0 <= d16_r a -> 0 < v1 -> v1 < v2 ->
  exists m1 m2, result (as16 src1) = Ok m1 /\ result (as16 src2) = Ok m2 /\
    forall f, In f [D_5t75; D_5t95; D_20t80] ->
      (v1 < 600 -> flt_lt (f (as16_duration m2)) (f (as16_duration m1))) /\ (600 <= v1 -> f (as16_duration m1) = f (as16_duration m2)).
Proof. exact as16_velocity. Qed.
Print Assumptions C82_shorter_on_stiffer_sites.
Theorem C82_longer_for_larger_magnitude : forall src1 src2 a m1 m2, dur16_gives src1 (with16_m a m1) -> dur16_gives src2 (with16_m a m2) ->
  0 <= d16_r a -> 0 < d16_v a -> m1 < m2 ->
  exists o1 o2, result (as16 src1) = Ok o1 /\ result (as16 src2) = Ok o2 /\
    forall f, In f [D_5t75; D_5t95; D_20t80] ->
      (5.35 < m1 -> flt_lt (f (as16_duration o1)) (f (as16_duration o2))) /\ (m2 <= 5.2 -> f (as16_duration o1) = f (as16_duration o2)).
Proof. exact as16_magnitude. Qed.
Print Assumptions C82_longer_for_larger_magnitude.
Example C82_nonvacuous : exists m1 m2, result (as16 (dur16_src (with16_r ex16 10))) = Ok m1 /\ result (as16 (dur16_src (with16_r ex16 20))) = Ok m2 /\
  flt_lt (D_5t95 (as16_duration m1)) (D_5t95 (as16_duration m2)).
Proof.
  destruct (C82_longer_when_farther _ _ ex16 10 20 (dur16_src_gives _) (dur16_src_gives _)) as (m1 & m2 & E1 & E2 & F); try (cbn; lra).
  exists m1, m2. split; [exact E1|]. split; [exact E2|]. apply F; cbn; auto.
Qed.

(** ** C83: AS16 at the lower magnitude hinge *)
Theorem C83_nearly_continuous : forall src1 src2 a f m1 m, dur16_gives src1 (with16_m a m1) -> dur16_gives src2 (with16_m a m) ->
  0 <= d16_r a -> 0 < d16_v a ->
  In (f, m1) [(D_5t75, 5.35); (D_5t95, 5.2); (D_20t80, 5.2)] -> ~ (f = D_20t80 /\ d16_mech a = "RS") -> m1 < m -> m <= m1 + 0.004 ->
  exists o1 o2 x1 x2, result (as16 src1) = Ok o1 /\ result (as16 src2) = Ok o2 /\
    f (as16_duration o1) = Fin x1 /\ f (as16_duration o2) = Fin x2 /\ 0.999 * x1 <= x2 <= 1.005 * x1.
Proof. exact as16_hinge. Qed.
Print Assumptions C83_nearly_continuous.
Theorem C83_reverse_20t80_jumps : forall src1 src2 a m, dur16_gives src1 (with16_m a 5.2) -> dur16_gives src2 (with16_m a m) ->
  d16_mech a = "RS" -> 0 <= d16_r a <= 10 -> 0 < d16_v a -> 5.2 < m -> m <= 7.4 ->
  exists o1 o2 x1 x2, result (as16 src1) = Ok o1 /\ result (as16 src2) = Ok o2 /\
    D_20t80 (as16_duration o1) = Fin x1 /\ D_20t80 (as16_duration o2) = Fin x2 /\ 1.07 * x1 < x2.
Proof. exact as16_jump. Qed.
Print Assumptions C83_reverse_20t80_jumps.
Theorem C83_reverse_equals_strike_slip : forall src1 src2 a m, dur16_gives src1 (Dur16 m (d16_r a) (d16_v a) "RS" (d16_z a)) ->
  dur16_gives src2 (Dur16 m (d16_r a) (d16_v a) "SS" (d16_z a)) -> 0 <= d16_r a -> 0 < d16_v a -> 5.2 < m ->
  exists o1 o2, result (as16 src1) = Ok o1 /\ result (as16 src2) = Ok o2 /\ D_20t80 (as16_duration o1) = D_20t80 (as16_duration o2).
Proof. exact as16_rs_is_ss. Qed.
Print Assumptions C83_reverse_equals_strike_slip.
Example C83_nonvacuous : exists o1 o2 x1 x2, result (as16 (dur16_src (with16_m (with16_r ex16 5) 5.2))) = Ok o1 /\ result (as16 (dur16_src (with16_m (with16_r ex16 5) 5.2001))) = Ok o2 /\
    D_20t80 (as16_duration o1) = Fin x1 /\ D_20t80 (as16_duration o2) = Fin x2 /\ 1.07 * x1 < x2.
Proof. apply (C83_reverse_20t80_jumps _ _ (with16_r ex16 5) 5.2001); try apply dur16_src_gives; try reflexivity; cbn; lra. Qed.

(** ** C84: AS16 basin depth *)
Theorem C84_basin_depth_in_km_has_no_effect : forall src1 src2 a z1 z2, dur16_gives src1 (with16_z a z1) -> dur16_gives src2 (with16_z a z2) ->
  0 <= d16_r a -> 0 < d16_v a -> 0 <= z1 <= 1 -> 0 <= z2 <= 1 ->
  exists o1 o2, result (as16 src1) = Ok o1 /\ result (as16 src2) = Ok o2 /\
    forall f, In f [D_5t75; D_5t95; D_20t80] -> exists x1 x2, f (as16_duration o1) = Fin x1 /\ f (as16_duration o2) = Fin x2 /\ x1 <= 1.001 * x2.
Proof. exact as16_basin. Qed.
Print Assumptions C84_basin_depth_in_km_has_no_effect.
Example C84_nonvacuous : exists o1 o2, result (as16 (dur16_src (with16_z ex16 0.1))) = Ok o1 /\ result (as16 (dur16_src (with16_z ex16 1))) = Ok o2.
Proof.
  destruct (C84_basin_depth_in_km_has_no_effect _ _ ex16 0.1 1 (dur16_src_gives _) (dur16_src_gives _)) as (o1 & o2 & E1 & E2 & _); try (cbn; lra).
  exists o1, o2. split; assumption.
Qed.
