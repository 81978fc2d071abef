(** * Properties of the duration model PR23: C44, C45, C98, C99

    Vocabulary: Spec_pr23.v. *)
From Coquelicot Require Import Coquelicot.
From Interval Require Import Tactic.
From Coq Require Import List.
From Verif Require Import M_pr23 FrameworkProofs Anal Nga Spec_hkr14 Spec_pr23 P_pr23 Cont Cont1.
Open Scope R_scope.
Open Scope string_scope.
Open Scope list_scope.

Definition src23 (m r v : R) : dict := [("mag", PNum (Fin m)); ("dist_rup", PNum (Fin r)); ("v_s30", PNum (Fin v))].
Lemma src23_gives a : eq23_gives (src23 (q_m a) (q_r a) (q_v a)) a. Proof. repeat split. Qed.
Definition ex23 : eq23 := Eq23 6.5 30 400.
Lemma ex23_ok : eq23_ok ex23. Proof. unfold eq23_ok; cbn; lra. Qed.

(** ** C44: the D5-75 duration *)
Theorem C44_published : forall src a, eq23_gives src a -> eq23_ok a -> exists m, result (pr23 src) = Ok m /\
  pr23_duration m = Fin (median23 a) /\ pr23_plus m = Fin (plus23 (median23 a) (sigma23 a)) /\ pr23_minus m = Fin (minus23 (median23 a) (sigma23 a)).
Proof.
  intros src a G K. rewrite (pr23_make src a G). eexists. split; [reflexivity|]. unfold pr23_duration, pr23_plus, pr23_minus. cbn [pr23_dur].
  rewrite (base_fin a 0.75 K near75_refl). repeat split.
Qed.
Print Assumptions C44_published.
Theorem C44_ordered : forall src a, eq23_gives src a -> eq23_ok a -> exists m d lo hi, result (pr23 src) = Ok m /\
  pr23_duration m = Fin d /\ pr23_plus m = Fin hi /\ pr23_minus m = Fin lo /\ 0 < lo < d /\ d < hi.
Proof.
  intros src a G K. destruct (C44_published src a G K) as (m & E & A & B & C). do 4 eexists. split; [exact E|]. split; [exact A|]. split; [exact B|]. split; [exact C|].
  pose proof (median_pos a K). destruct (sigma_range a K) as (S & _). pose proof (m03_gt a K). split; [apply minus_lt; lra|apply plus_gt; lra].
Qed.
Print Assumptions C44_ordered.
Definition dur23_lt (src src' : dict) : Prop := exists m m' d d', result (pr23 src) = Ok m /\ result (pr23 src') = Ok m' /\
  pr23_duration m = Fin d /\ pr23_duration m' = Fin d' /\ d < d'.
Lemma dur23_ltI src src' a b : eq23_gives src a -> eq23_gives src' b -> eq23_ok a -> eq23_ok b -> median23 a < median23 b -> dur23_lt src src'.
Proof.
  intros G G' K K' H. destruct (C44_published src a G K) as (m & E & A & _). destruct (C44_published src' b G' K') as (m' & E' & A' & _).
  exists m, m'. do 2 eexists. split; [exact E|]. split; [exact E'|]. split; [exact A|]. split; [exact A'|exact H].
Qed.
Theorem C44_grows_with_magnitude : forall src src' a m', eq23_gives src a -> eq23_gives src' (Eq23 m' (q_r a) (q_v a)) -> eq23_ok a -> eq23_ok (Eq23 m' (q_r a) (q_v a)) ->
  q_m a < m' -> dur23_lt src src'.
Proof.
  intros src src' a m' G G' K K' H. apply (dur23_ltI _ _ _ _ G G' K K'). unfold median23. cbn [q_m q_r q_v].
  pose proof (source_mag (q_m a) m' (q_r a) ltac:(apply K) H). lra.
Qed.
Print Assumptions C44_grows_with_magnitude.
Theorem C44_grows_with_distance : forall src src' a r', eq23_gives src a -> eq23_gives src' (Eq23 (q_m a) r' (q_v a)) -> eq23_ok a -> eq23_ok (Eq23 (q_m a) r' (q_v a)) ->
  q_r a < r' -> dur23_lt src src'.
Proof.
  intros src src' a r' G G' K K' H. apply (dur23_ltI _ _ _ _ G G' K K'). unfold median23. cbn [q_m q_r q_v].
  pose proof (source_dist (q_m a) (q_r a) r' ltac:(lra)). pose proof (path_mono (q_r a) r' H). lra.
Qed.
Print Assumptions C44_grows_with_distance.
Theorem C44_longer_on_softer_sites : forall src src' a v', eq23_gives src a -> eq23_gives src' (Eq23 (q_m a) (q_r a) v') -> eq23_ok a -> eq23_ok (Eq23 (q_m a) (q_r a) v') ->
  v' < q_v a -> dur23_lt src src'.
Proof.
  intros src src' a v' G G' K K' H. apply (dur23_ltI _ _ _ _ G G' K K'). unfold median23. cbn [q_m q_r q_v].
  destruct K as (_ & _ & V). destruct K' as (_ & _ & V'). cbn [q_v] in V'. pose proof (site_mono v' (q_v a) ltac:(lra) H ltac:(lra)). lra.
Qed.
Print Assumptions C44_longer_on_softer_sites.
(** Continuity: [run23 f x y]: for the input value x the model constructs with duration y. *)
Definition run23 (f : R -> eq23) (x : R) (y : flt) : Prop := exists src m, eq23_gives src (f x) /\ result (pr23 src) = Ok m /\ pr23_duration m = y.
Lemma run23_val f x y : 0 < q_v (f x) -> run23 f x y -> y = Fin (median23 (f x)).
Proof.
  intros V (src & m & G & E & <-). rewrite (pr23_make src _ G) in E. injection E as <-. unfold pr23_duration, pr23_calc. cbn [pr23_dur].
  rewrite (proj2 (isclose75 0.75) near75_refl). cbn [fst]. apply median_fin. exact V.
Qed.
Theorem C44_continuous_in_magnitude : forall r v m0, 0 < v -> val_continuous num_close (run23 (fun m => Eq23 m r v)) m0.
Proof.
  intros r v m0 V. apply (val_cont_num (fun m => median23 (Eq23 m r v)) _ _ 1); [lra| |].
  - intros x y _ H. apply run23_val in H; [exact H|exact V].
  - unfold median23. cbn [q_m q_r q_v]. cont. apply source_cont_m.
Qed.
Print Assumptions C44_continuous_in_magnitude.
Theorem C44_continuous_in_distance : forall m v r0, 0 < v -> val_continuous num_close (run23 (fun r => Eq23 m r v)) r0.
Proof.
  intros m v r0 V. apply (val_cont_num (fun r => median23 (Eq23 m r v)) _ _ 1); [lra| |].
  - intros x y _ H. apply run23_val in H; [exact H|exact V].
  - unfold median23. cbn [q_m q_r q_v]. cont; [apply source_cont_r|apply path_cont].
Qed.
Print Assumptions C44_continuous_in_distance.
Theorem C44_continuous_in_velocity : forall m r v0, 0 < v0 -> val_continuous num_close (run23 (fun v => Eq23 m r v)) v0.
Proof.
  intros m r v0 V. apply (val_cont_num (fun v => median23 (Eq23 m r v)) _ _ v0); [lra| |].
  - intros x y X H. apply run23_val in H; [exact H|]. apply Rabs_def2 in X. cbn [q_v]. lra.
  - unfold median23. cbn [q_m q_r q_v]. cont. apply site_cont. exact V.
Qed.
Print Assumptions C44_continuous_in_velocity.
Example C44_nonvacuous : dur23_lt (src23 6.5 30 400) (src23 7 30 400) /\ dur23_lt (src23 6.5 30 400) (src23 6.5 60 400) /\ dur23_lt (src23 6.5 30 400) (src23 6.5 30 250).
Proof.
  split; [|split].
  - apply (C44_grows_with_magnitude _ _ ex23 7); try (repeat split); cbn; lra.
  - apply (C44_grows_with_distance _ _ ex23 60); try (repeat split); cbn; lra.
  - apply (C44_longer_on_softer_sites _ _ ex23 250); try (repeat split); cbn; lra.
Qed.
Example C44_nonvacuous_run : exists y, run23 (fun v => Eq23 6 10 v) 275 y.
Proof. eexists. exists (src23 6 10 275). eexists. split; [repeat split|]. split; [apply (pr23_make _ (Eq23 6 10 275)); repeat split|reflexivity]. Qed.

(** ** C98: duration_for_energy *)
Theorem C98_rejects : forall m e, e < 0.10 \/ 0.95 < e -> result (pr23_for_energy m (Fin e)) = Raise EValue.
Proof.
  intros m e H. unfold pr23_for_energy. cbn [fltb]. destruct H as [H|H]; rewrite (Rltb_true _ _ H); [reflexivity|]. rewrite orb_true_r. reflexivity.
Qed.
Print Assumptions C98_rejects.
Lemma for_energy_in src a m e : eq23_gives src a -> result (pr23 src) = Ok m -> 0.10 <= e <= 0.95 ->
  result (pr23_for_energy m (Fin e)) = Ok (pr23_calc (Fin (q_m a)) (Fin (q_r a)) (Fin (q_v a)) (Fin e)).
Proof.
  intros G E H. rewrite (pr23_make src a G) in E. injection E as <-. unfold pr23_for_energy. cbn [fltb pr23_scen]. rewrite !Rltb_false by lra. cbn [orb].
  rewrite pr23_eval_ok. reflexivity.
Qed.
Theorem C98_accepts_the_rest : forall src a m e, eq23_gives src a -> result (pr23 src) = Ok m -> 0.10 <= e <= 0.95 -> exists d, result (pr23_for_energy m (Fin e)) = Ok d.
Proof. intros src a m e G E H. eexists. apply (for_energy_in src a m e G E H). Qed.
Print Assumptions C98_accepts_the_rest.
Theorem C98_same_as_stored_at_75 : forall src a m e, eq23_gives src a -> eq23_ok a -> result (pr23 src) = Ok m ->
  Rabs (e - 0.75) <= 1 / 10 ^ 8 + 1 / 10 ^ 5 * 0.75 -> result (pr23_for_energy m (Fin e)) = Ok (pr23_duration m, pr23_plus m, pr23_minus m).
Proof.
  intros src a m e G K E H. assert (0.10 <= e <= 0.95) as R by (apply Rabs_le_between in H; lra).
  rewrite (for_energy_in src a m e G E R). destruct (C44_published src a G K) as (m' & E' & A & B & C). rewrite E in E'. injection E' as <-.
  rewrite A, B, C. rewrite (base_fin a e K H). reflexivity.
Qed.
Print Assumptions C98_same_as_stored_at_75.
(** At any other ratio: the row of the nearest tabulated ratio is used, where the row of 0.75 itself doubles the duration. *)
Theorem C98_nearest_ratio : forall src a m e, eq23_gives src a -> eq23_ok a -> result (pr23 src) = Ok m -> 0.10 <= e <= 0.95 ->
  1 / 10 ^ 8 + 1 / 10 ^ 5 * 0.75 < Rabs (e - 0.75) ->
  exists x med minus, (x = Ratio23 0.75 2 0 0 0 0 \/ In x ratios23) /\ (forall y, In y ratios23 -> Rabs (x_e x - e) <= Rabs (x_e y - e)) /\ Rabs (x_e x - e) <= Rabs (0.75 - e) /\
    med = factor23 x a * median23 a /\ 0 < med /\ 0 <= sigma_cond23 x a /\
    result (pr23_for_energy m (Fin e)) = Ok (Fin med, Fin (plus23 med (sigma_cond23 x a)), minus) /\
    (sigma_cond23 x a < Rpower med 0.3 -> minus = Fin (minus23 med (sigma_cond23 x a))) /\ (Rpower med 0.3 < sigma_cond23 x a -> minus = NaN).
Proof.
  intros src a m e G K E R N. destruct (nearest_row e R) as (c & Ec & Ic & Near). pose proof (proj1 (order_in _) Ic) as I.
  destruct (factor_pos _ a K I) as (P & Rho & _). rewrite (for_energy_in src a m e G E R). rewrite (cond_fin a e c K ltac:(unfold near75; lra) Ec ltac:(lra) Rho).
  exists (ratio_of c). do 2 eexists. split; [exact I|]. split; [intros y Hy; apply Near, order_in; right; exact Hy|].
  split; [apply (Near x75), order_in; left; reflexivity|]. split; [reflexivity|]. split; [apply Rmult_lt_0_compat; [lra|apply median_pos; exact K]|].
  split; [apply sqrt_pos|]. split; [reflexivity|]. split; intros H.
  - apply fpow_fin. lra.
  - apply fpow_neg. lra.
Qed.
Print Assumptions C98_nearest_ratio.
Example C98_nonvacuous : exists m, result (pr23 (src23 6.5 30 400)) = Ok m /\ result (pr23_for_energy m (Fin 0.05)) = Raise EValue /\
  (exists d, result (pr23_for_energy m (Fin 0.35)) = Ok d) /\ result (pr23_for_energy m (Fin 0.75)) = Ok (pr23_duration m, pr23_plus m, pr23_minus m).
Proof.
  destruct (C44_published (src23 6.5 30 400) ex23 (src23_gives ex23) ex23_ok) as (m & E & _). exists m. split; [exact E|].
  split; [apply C98_rejects; lra|]. split; [apply (C98_accepts_the_rest (src23 6.5 30 400) ex23 m 0.35 (src23_gives ex23) E); lra|].
  apply (C98_same_as_stored_at_75 (src23 6.5 30 400) ex23 m 0.75 (src23_gives ex23) ex23_ok E). rewrite Rminus_eq_0, Rabs_R0. lra.
Qed.

(** ** C45: monotone in the energy ratio? *)
Lemma at_ratio src a m e x : eq23_gives src a -> eq23_ok a -> result (pr23 src) = Ok m -> 0.10 <= e <= 0.95 -> ~ near75 e ->
  x = x75 \/ In x ratios23 -> Rabs (x_e x - e) < 0.025 ->
  exists minus, result (pr23_for_energy m (Fin e)) = Ok (Fin (factor23 x a * median23 a), Fin (plus23 (factor23 x a * median23 a) (sigma_cond23 x a)), minus) /\
    (sigma_cond23 x a < Rpower (factor23 x a * median23 a) 0.3 -> minus = Fin (minus23 (factor23 x a * median23 a) (sigma_cond23 x a))) /\
    (Rpower (factor23 x a * median23 a) 0.3 < sigma_cond23 x a -> minus = NaN).
Proof.
  intros G K E R N I C. destruct (C98_nearest_ratio src a m e G K E R ltac:(unfold near75 in N; lra)) as (y & med & minus & Iy & Ny & N75 & -> & _ & _ & Er & M1 & M2).
  assert (x = y) as ->; [|exists minus; auto].
  assert (Rabs (x_e y - e) <= Rabs (x_e x - e)) as Q by (destruct I as [->|I]; [exact N75|apply Ny; exact I]).
  apply Rabs_def2 in C. unfold Rabs in Q. clear M1 M2 Er N75 Ny.
  assert (-0.025 < x_e y - e < 0.025) as Cy by (destruct (Rcase_abs (x_e y - e)), (Rcase_abs (x_e x - e)); lra). clear Q.
  assert (-0.05 < x_e y - x_e x < 0.05) as D by lra. clear - I Iy D.
  destruct I as [->|I]; destruct Iy as [->|Iy]; [reflexivity|each_ratio Iy; cbn [x_e x75] in D; exfalso; lra|each_ratio I; cbn [x_e x75] in D; exfalso; lra|].
  each_ratio I; each_ratio Iy; cbn [x_e] in D; solve [reflexivity | exfalso; lra].
Qed.
(** [dur_at m e d]: duration_for_energy returns the median d for the ratio e. *)
Definition dur_at (m : pr23_obj) (e : R) (d : flt) : Prop := exists p q, result (pr23_for_energy m (Fin e)) = Ok (d, p, q).
Lemma e_range x : In x ratios23 -> 0.10 <= x_e x <= 0.95 /\ ~ near75 (x_e x).
Proof.
  intros H. assert (0.10 <= x_e x <= 0.95 /\ (x_e x <= 0.70 \/ 0.80 <= x_e x)) as (A & B) by (each_ratio H; cbn [x_e]; lra).
  split; [exact A|]. unfold near75. intros C. apply Rabs_le_between in C. lra.
Qed.
Lemma dur_at_row src a m x : eq23_gives src a -> eq23_ok a -> result (pr23 src) = Ok m -> In x ratios23 -> dur_at m (x_e x) (Fin (factor23 x a * median23 a)).
Proof.
  intros G K E I. destruct (e_range x I) as (A & B). destruct (at_ratio src a m (x_e x) x G K E A B (or_intror I)) as (mi & Er & _);
    [rewrite Rminus_eq_0, Rabs_R0; lra|]. eexists _, _. exact Er.
Qed.
(** On the tabulated ratios, within 140 km: longer for a larger ratio, and D5-75 lies between its neighbours. *)
Theorem C45_monotone_on_the_table : forall src a m i j x y, eq23_gives src a -> eq23_ok a -> result (pr23 src) = Ok m -> q_r a <= 140 ->
  nth_error ratios23 i = Some x -> nth_error ratios23 j = Some y -> (i < j)%nat ->
  exists d d' d75, dur_at m (x_e x) (Fin d) /\ dur_at m (x_e y) (Fin d') /\ pr23_duration m = Fin d75 /\ d < d' /\ (x_e x < 0.75 -> d < d75) /\ (0.75 < x_e y -> d75 < d').
Proof.
  intros src a m i j x y G K E R Hx Hy Hij. destruct (factor_order a K R i j x y Hx Hy Hij) as (F1 & F2 & F3). pose proof (median_pos a K) as P.
  destruct (C44_published src a G K) as (m' & E' & A & _). rewrite E in E'. injection E' as <-.
  do 3 eexists. split; [apply (dur_at_row src a m x G K E); apply nth_error_In in Hx; exact Hx|]. split; [apply (dur_at_row src a m y G K E); apply nth_error_In in Hy; exact Hy|].
  split; [exact A|]. split; [apply Rmult_lt_compat_r; assumption|].
  split; intros H; [specialize (F2 H)|specialize (F3 H)].
  - rewrite <- (Rmult_1_l (median23 a)) at 2. apply Rmult_lt_compat_r; assumption.
  - rewrite <- (Rmult_1_l (median23 a)) at 1. apply Rmult_lt_compat_r; assumption.
Qed.
Print Assumptions C45_monotone_on_the_table.
(** VIOLATED between the tabulated ratios: next to 0.75 the row of 0.75 itself is used, whose two constants are both 1. *)
Theorem C45_doubled_next_to_75 : forall src a m e, eq23_gives src a -> eq23_ok a -> result (pr23 src) = Ok m -> 0.725 < e < 0.775 ->
  1 / 10 ^ 8 + 1 / 10 ^ 5 * 0.75 < Rabs (e - 0.75) -> exists d, pr23_duration m = Fin d /\ 0 < d /\ dur_at m e (Fin (2 * d)).
Proof.
  intros src a m e G K E He N. destruct (C44_published src a G K) as (m' & E' & A & _). rewrite E in E'. injection E' as <-.
  exists (median23 a). split; [exact A|]. split; [apply median_pos; exact K|].
  destruct (at_ratio src a m e x75 G K E ltac:(lra) ltac:(unfold near75; lra) (or_introl eq_refl)) as (mi & Er & _); [cbn [x_e x75]; apply Rabs_def1; lra|].
  replace (factor23 x75 a) with 2 in Er by (unfold factor23; cbn [x75 x_c x_r x_v]; lra). eexists _, _. exact Er.
Qed.
Print Assumptions C45_doubled_next_to_75.
Theorem C45_shorter_from_76_to_80 : forall src a m, eq23_gives src a -> eq23_ok a -> result (pr23 src) = Ok m ->
  exists d d', dur_at m 0.76 (Fin d) /\ dur_at m 0.80 (Fin d') /\ d' < d.
Proof.
  intros src a m G K E. destruct (C45_doubled_next_to_75 src a m 0.76 G K E) as (d & A & P & D); [lra|rewrite Rabs_right; lra|].
  destruct (C44_published src a G K) as (m' & E' & A' & _). rewrite E in E'. injection E' as <-. rewrite A in A'. injection A' as ->.
  assert (exists y, nth_error ratios23 13 = Some y) as (y & Hy) by (eexists; reflexivity).
  pose proof (dur_at_row src a m y G K E (nth_error_In _ _ Hy)) as D'. do 2 eexists. split; [exact D|]. split; [|apply Rmult_lt_compat_r; [exact P|]].
  - injection Hy as <-. exact D'.
  - injection Hy as <-. unfold factor23. cbn [x_c x_r x_v]. destruct (ln_range a K) as (L & _). destruct K as (_ & R & _). lra.
Qed.
Print Assumptions C45_shorter_from_76_to_80.
(** VIOLATED on the table too, far away on rock. *)
Theorem C45_shorter_far_away_on_rock : forall src a m, eq23_gives src a -> eq23_ok a -> result (pr23 src) = Ok m -> 185 <= q_r a -> 1900 <= q_v a ->
  exists d d', dur_at m 0.50 (Fin d) /\ dur_at m 0.55 (Fin d') /\ d' < d.
Proof.
  intros src a m G K E R V. assert (exists x, nth_error ratios23 8 = Some x) as (x & Hx) by (eexists; reflexivity).
  assert (exists y, nth_error ratios23 9 = Some y) as (y & Hy) by (eexists; reflexivity).
  pose proof (dur_at_row src a m x G K E (nth_error_In _ _ Hx)) as D. pose proof (dur_at_row src a m y G K E (nth_error_In _ _ Hy)) as D'.
  injection Hx as <-. injection Hy as <-. do 2 eexists. split; [exact D|]. split; [exact D'|]. apply Rmult_lt_compat_r; [apply median_pos; exact K|].
  unfold factor23. cbn [x_c x_r x_v]. assert (-0.06 <= ln (q_v a / 2000) <= 0).
  { split; [|apply (ln_range a K)]. apply Rle_trans with (ln (1900 / 2000)); [clear; interval with (i_prec 40)|]. apply ln_le_mono; lra. }
  lra.
Qed.
Print Assumptions C45_shorter_far_away_on_rock.
Example C45_nonvacuous : exists m, result (pr23 (src23 6.5 30 400)) = Ok m /\ exists d d' d'', dur_at m 0.30 (Fin d) /\ dur_at m 0.90 (Fin d') /\ d < d' /\ dur_at m 0.76 (Fin d'') /\ d' < d''.
Proof.
  destruct (C44_published (src23 6.5 30 400) ex23 (src23_gives ex23) ex23_ok) as (m & E & A & _). exists m. split; [exact E|].
  assert (exists x, nth_error ratios23 4 = Some x) as (x & Hx) by (eexists; reflexivity).
  assert (exists y, nth_error ratios23 15 = Some y) as (y & Hy) by (eexists; reflexivity).
  destruct (C45_monotone_on_the_table _ ex23 m 4 15 x y (src23_gives ex23) ex23_ok E ltac:(cbn; lra) Hx Hy ltac:(lia)) as (_ & _ & _ & _ & _ & _ & _).
  pose proof (dur_at_row _ ex23 m x (src23_gives ex23) ex23_ok E (nth_error_In _ _ Hx)) as D. pose proof (dur_at_row _ ex23 m y (src23_gives ex23) ex23_ok E (nth_error_In _ _ Hy)) as D'.
  destruct (C45_doubled_next_to_75 _ ex23 m 0.76 (src23_gives ex23) ex23_ok E) as (d & A' & P & D2); [lra|rewrite Rabs_right; lra|]. rewrite A in A'. injection A' as <-.
  injection Hx as <-. injection Hy as <-. do 3 eexists. split; [exact D|]. split; [exact D'|].
  destruct (ln_range ex23 ex23_ok) as (L & _). unfold factor23. cbn [x_c x_r x_v q_r q_v ex23] in *.
  split; [apply Rmult_lt_compat_r; [exact P|lra]|]. split; [exact D2|apply Rmult_lt_compat_r; [exact P|]].
  assert (-1.7 <= ln (400 / 2000)) by (clear; interval with (i_prec 40)). lra.
Qed.
Example C45_nonvacuous_far : eq23_ok (Eq23 6 200 1950) /\ exists m, result (pr23 (src23 6 200 1950)) = Ok m.
Proof. split; [unfold eq23_ok; cbn; lra|]. eexists. apply (pr23_make _ (Eq23 6 200 1950)). repeat split. Qed.

(** ** C99: plus and minus one standard deviation for other energy ratios *)
Theorem C99_ordered : forall src a m e, eq23_gives src a -> eq23_ok a -> result (pr23 src) = Ok m -> 0.125 < e <= 0.95 ->
  exists d lo hi, result (pr23_for_energy m (Fin e)) = Ok (Fin d, Fin hi, Fin lo) /\ 0 < lo < d /\ d < hi.
Proof.
  intros src a m e G K E He. destruct (Rle_dec (Rabs (e - 0.75)) (1 / 10 ^ 8 + 1 / 10 ^ 5 * 0.75)) as [N|N].
  - destruct (C44_ordered src a G K) as (m' & d & lo & hi & E' & A & B & C & O). rewrite E in E'. injection E' as <-. exists d, lo, hi.
    split; [|exact O]. rewrite (C98_same_as_stored_at_75 src a m e G K E N), A, B, C. reflexivity.
  - destruct (C98_nearest_ratio src a m e G K E ltac:(lra) ltac:(lra)) as (x & med & mi & Ix & Nx & N75 & -> & P & S & Er & M1 & _).
    assert (x = x75 \/ In x (tl ratios23)) as I.
    { destruct Ix as [->|Ix]; [left; reflexivity|]. right. destruct Ix as [<-|Ix]; [|exact Ix]. exfalso.
      pose proof (Nx _ (or_intror (or_introl eq_refl))) as Q. cbn [x_e] in Q. clear - He Q. unfold Rabs in Q.
      destruct (Rcase_abs (0.10 - e)), (Rcase_abs (0.15 - e)); lra. }
    pose proof (minus_ok x a K I) as O. rewrite (M1 O) in Er. do 3 eexists. split; [exact Er|].
    assert (0 < sigma_cond23 x a) as SP by (apply sigma_cond_pos; [exact K|destruct I as [->|I]; [left; reflexivity|right; right; exact I]]).
    split; [apply minus_lt; assumption|apply plus_gt; assumption].
Qed.
Print Assumptions C99_ordered.
(** VIOLATED at the ratio 0.10: not a number for small events nearby on soft sites, all within the limits of the model. *)
Theorem C99_nan_at_10_percent : forall src a m e, eq23_gives src a -> result (pr23 src) = Ok m -> 4 <= q_m a <= 4.1 -> 0 <= q_r a <= 1 -> 150 <= q_v a <= 155 ->
  0.10 <= e < 0.125 -> exists d hi, result (pr23_for_energy m (Fin e)) = Ok (Fin d, Fin hi, NaN) /\ 0 < d.
Proof.
  intros src a m e G E M R V He. assert (eq23_ok a) as K by (unfold eq23_ok; lra).
  destruct (at_ratio src a m e x10 G K E ltac:(lra)) as (mi & Er & _ & M2).
  - unfold near75. intros C. apply Rabs_le_between in C. lra.
  - right; left; reflexivity.
  - unfold x10. cbn [nth ratios23 x_e]. apply Rabs_def1; lra.
  - rewrite (M2 (minus_bad a M R V)) in Er. do 2 eexists. split; [exact Er|]. apply Rmult_lt_0_compat; [|apply median_pos; exact K].
    destruct (factor_pos x10 a K) as (F & _); [right; left; reflexivity|lra].
Qed.
Print Assumptions C99_nan_at_10_percent.
Example C99_nonvacuous : (exists m d lo hi, result (pr23 (src23 6.5 30 400)) = Ok m /\ result (pr23_for_energy m (Fin 0.95)) = Ok (Fin d, Fin hi, Fin lo) /\ 0 < lo < d /\ d < hi) /\
  (exists m d hi, result (pr23 (src23 4 0 150)) = Ok m /\ result (pr23_for_energy m (Fin 0.10)) = Ok (Fin d, Fin hi, NaN) /\ 0 < d).
Proof.
  split.
  - eexists. destruct (C99_ordered _ ex23 _ 0.95 (src23_gives ex23) ex23_ok (pr23_make _ _ (src23_gives ex23)) ltac:(lra)) as (d & lo & hi & A & B).
    exists d, lo, hi. split; [exact (pr23_make _ _ (src23_gives ex23))|]. split; [exact A|exact B].
  - set (b := Eq23 4 0 150). eexists. destruct (C99_nan_at_10_percent _ b _ 0.10 (src23_gives b) (pr23_make _ _ (src23_gives b))) as (d & hi & A & B); try (cbn; lra).
    exists d, hi. split; [exact (pr23_make _ _ (src23_gives b))|]. split; [exact A|exact B].
Qed.
