(** * Properties of the Fourier amplitude model BA19: C51, C52, C94-C97

    Vocabulary: Spec_ba19.v. *)
From Coquelicot Require Import Coquelicot.
From Interval Require Import Tactic.
From Coq Require Import List.
From Verif Require Import M_ba19 FrameworkProofs Anal Nga Spec_hkr14 Spec_ba19 P_ba19 P_ba19b.
Open Scope R_scope.
Open Scope string_scope.
Open Scope list_scope.

(** A concrete scenario: M 6.5 at 20 km on a 400 m/s site, depth to rock not given, strike slip. *)
Definition ex19 : eq19 := Eq19 6.5 20 5 400 None None.
Definition ex19_src : dict := [("mag", PNum (Fin 6.5)); ("dist_rup", PNum (Fin 20)); ("depth_tor", PNum (Fin 5)); ("v_s30", PNum (Fin 400))].
Lemma ex19_gives : eq19_gives ex19_src ex19. Proof. repeat split. Qed.
Lemma ex19_ok : eq19_ok ex19. Proof. unfold eq19_ok, ex19; cbn [e_r e_v e_d]. lra. Qed.

(** ** C52: the spectrum is the published one *)
Theorem C52_published : forall src a, eq19_gives src a -> eq19_ok a ->
  exists m i, result (ba19 src) = Ok m /\ first_min (map (raw_nl a) low_rows) i /\
    List.length (ba19_p_ln_eas m) = 301%nat /\
    (forall k c, nth_error low_rows k = Some c ->
       nth_error (ba19_p_ln_eas m) k = Some (Fin (ln_eas_linear c a + smoothed (map (raw_nl a) low_rows) i k))) /\
    (forall k c, nth_error high_rows k = Some c ->
       nth_error (ba19_p_ln_eas m) (239 + k) =
       Some (Fin (ln_eas_linear last_low a + smoothed (map (raw_nl a) low_rows) i 238 -
                  PI * exp (-0.4 * ln (e_v a / 760) - 3.5) * (Q2R (ba19_freq_hz c) - Q2R (ba19_freq_hz last_low))))) /\
    ba19_p_eas m = map fexp (ba19_p_ln_eas m).
Proof.
  intros src a G K. rewrite (ba19_make src a G K). do 2 eexists. split; [reflexivity|]. split; [apply i_of_min|].
  cbn [ba19_p_ln_eas ba19_eas_ln]. split; [apply all_len|]. split; [apply low_at|]. split; [apply high_at|reflexivity].
Qed.
Print Assumptions C52_published.
Theorem C52_lengths_agree : forall src m, result (ba19 src) = Ok m ->
  List.length ba19_p_freqs = 301%nat /\ List.length (ba19_p_ln_std m) = 301%nat.
Proof.
  intros src m H. split; [unfold ba19_p_freqs; rewrite map_length; exact coeff_len|].
  unfold ba19 in H. rewrite result_bind in H. destruct (result (model_init _ _)) as [s0|] eqn:E0; [|discriminate].
  rewrite result_bind in H. destruct (result (ba19_prep s0)) as [s|]; [|discriminate].
  rewrite result_bind in H. destruct (result (num s "mag")) as [x1|]; [|discriminate].
  rewrite result_bind in H. destruct (result (num s "dist_rup")) as [x2|]; [|discriminate].
  rewrite result_bind in H. destruct (result (num s "depth_tor")) as [x3|]; [|discriminate].
  rewrite result_bind in H. destruct (result (sc_attr s "mechanism")) as [x4|]; [|discriminate].
  rewrite result_bind in H. destruct (result (num s "v_s30")) as [x5|]; [|discriminate].
  rewrite result_bind in H. destruct (result (num s "depth_1_0")) as [x6|]; [|discriminate].
  rewrite result_ret in H. apply (f_equal (fun r => match r with Ok o => ba19_std_ln o | Raise _ => [] end)) in H. cbv beta iota in H. cbn [ba19_std_ln] in H.
  unfold ba19_p_ln_std. rewrite <- H, map_length. exact coeff_len.
Qed.
Print Assumptions C52_lengths_agree.
Theorem C52_finite_positive : forall src a, eq19_gives src a -> eq19_ok a -> exists m, result (ba19 src) = Ok m /\
  Forall (fun x => exists y, x = Fin y) (ba19_p_ln_eas m) /\ Forall (fun x => exists y, x = Fin y /\ 0 < y) (ba19_p_eas m).
Proof.
  intros src a G K. rewrite (ba19_make src a G K). eexists. split; [reflexivity|]. unfold ba19_p_eas. cbn [ba19_p_ln_eas ba19_eas_ln].
  split; [apply Forall_map_intro; intros x _; eexists; reflexivity|]. rewrite map_map. apply Forall_map_intro. intros x _. exists (exp x). split; [reflexivity|apply exp_pos].
Qed.
Print Assumptions C52_finite_positive.
(** The non-linear term never amplifies, is at most the largest raw de-amplification, and vanishes from 760 m/s. *)
Theorem C52_nonlinear_term : forall src a, eq19_gives src a -> eq19_ok a -> exists m, result (ba19 src) = Ok m /\
  forall k c, nth_error low_rows k = Some c -> exists nl, nth_error (ba19_p_ln_eas m) k = Some (Fin (ln_eas_linear c a + nl)) /\
    nl <= 0 /\ (760 <= e_v a -> nl = 0) /\ exists c', In c' low_rows /\ raw_nl a c' <= nl.
Proof.
  intros src a G K. rewrite (ba19_make src a G K). eexists. split; [reflexivity|]. intros k c Hk. cbn [ba19_p_ln_eas ba19_eas_ln].
  exists (smoothed (raws a) (i_of a) k). split; [apply low_at; exact Hk|]. pose proof (nl_range a k) as R. split; [lra|]. split; [apply nl_zero|].
  destruct (i_of_min a) as (L & _). rewrite raws_len in L. destruct (raws_in a (i_of a) L) as (c' & Hc' & E). exists c'. split; [exact Hc'|]. rewrite <- E. lra.
Qed.
Print Assumptions C52_nonlinear_term.
Definition set19_v (a : eq19) (v : R) : eq19 := Eq19 (e_m a) (e_r a) (e_z a) v (e_d a) (e_mech a).
Theorem C52_same_above_1000 : forall src src' a v, eq19_gives src a -> eq19_gives src' (set19_v a v) -> eq19_ok a -> 1000 <= e_v a -> 1000 <= v -> e_d a = None ->
  exists m m', result (ba19 src) = Ok m /\ result (ba19 src') = Ok m' /\ firstn 239 (ba19_p_ln_eas m') = firstn 239 (ba19_p_ln_eas m).
Proof.
  intros src src' a v G G' K H1 H2 D. assert (eq19_ok (set19_v a v)) as K' by (destruct K as (K1 & K2 & K3); split; [exact K1|]; split; [cbn; lra|exact K3]).
  rewrite (ba19_make src a G K), (ba19_make src' _ G' K'). do 2 eexists. split; [reflexivity|]. split; [reflexivity|]. cbn [ba19_p_ln_eas ba19_eas_ln].
  rewrite !map_app. assert (forall b, firstn 239 (map Fin (lows b) ++ map Fin (highs b)) = map Fin (lows b)) as F.
  { intros b. rewrite firstn_app, map_length, lows_len, Nat.sub_diag, firstn_O, app_nil_r. rewrite <- (lows_len b), <- (map_length Fin (lows b)). apply firstn_all. }
  rewrite !F. apply (f_equal (map Fin)). unfold lows.
  replace (map (smoothed (raws (set19_v a v)) _) (seq 0 239)) with (map (smoothed (raws a) (i_of a)) (seq 0 239)).
  - apply map_ext. intros [c x]. f_equal. unfold ln_eas_linear. cbn [set19_v e_m e_r e_z e_v e_d e_mech]. rewrite D. cbn [t_basin].
    unfold t_linear_site. rewrite !Rmin_right by lra. reflexivity.
  - apply map_ext. intros k. rewrite !nl_zero; [reflexivity|cbn; lra|lra].
Qed.
Print Assumptions C52_same_above_1000.
Example C52_nonvacuous : exists m, result (ba19 ex19_src) = Ok m /\ List.length (ba19_p_ln_eas m) = 301%nat /\
  nth_error low_rows 100 = Some (nth 100 low_rows last_low) /\ nth_error high_rows 61 = Some (nth 61 high_rows last_low).
Proof.
  destruct (C52_published ex19_src ex19 ex19_gives ex19_ok) as (m & i & E & _ & L & _). exists m. split; [exact E|]. split; [exact L|].
  split; apply nth_error_nth'; rewrite ?low_len, ?high_len; lia.
Qed.

(** ** C51: the standard deviation *)
(** Violation: no standard deviation at the 62 frequencies above 24 Hz, whatever the scenario. *)
Theorem C51_nan_above_24hz : forall src a, eq19_gives src a -> eq19_ok a -> exists m, result (ba19 src) = Ok m /\
  forall k, (239 <= k < 301)%nat -> nth_error (ba19_p_ln_std m) k = Some NaN.
Proof.
  intros src a G K. rewrite (ba19_make src a G K). eexists. split; [reflexivity|]. cbn [ba19_p_ln_std ba19_std_ln]. intros k Hk.
  destruct (nth_error ba19_coeff k) as [c|] eqn:E; [|apply nth_error_None in E; rewrite coeff_len in E; lia].
  rewrite (nth_error_map_some _ _ _ _ E). f_equal. apply std_nan.
  replace k with (239 + (k - 239))%nat in E by lia. rewrite <- (firstn_skipn 239 ba19_coeff) in E. fold low_rows high_rows in E.
  rewrite nth_error_app2 in E by (rewrite low_len; lia). apply nth_error_In in E. exact E.
Qed.
Print Assumptions C51_nan_above_24hz.
Lemma low_nth k c : nth_error low_rows k = Some c -> nth_error ba19_coeff k = Some c /\ In c low_rows.
Proof.
  intros H. split; [|apply nth_error_In with k; exact H]. rewrite <- (firstn_skipn 239 ba19_coeff). fold low_rows high_rows.
  rewrite nth_error_app1; [exact H|]. apply nth_error_Some. congruence.
Qed.
Lemma std_at src a k c : eq19_gives src a -> eq19_ok a -> nth_error low_rows k = Some c -> exists m, result (ba19 src) = Ok m /\
  nth_error (ba19_p_ln_std m) k = Some (Fin (sqrt (comp (Q2R (ba19_s1 c)) (Q2R (ba19_s2 c)) (e_m a) ^ 2 +
    comp (Q2R (ba19_s3 c)) (Q2R (ba19_s4 c)) (e_m a) ^ 2 + comp (Q2R (ba19_s5 c)) (Q2R (ba19_s6 c)) (e_m a) ^ 2 + cell (ba19_c1a c) ^ 2))).
Proof.
  intros G K H. rewrite (ba19_make src a G K). eexists. split; [reflexivity|]. cbn [ba19_p_ln_std ba19_std_ln]. destruct (low_nth k c H) as (H1 & H2).
  rewrite (nth_error_map_some _ _ _ _ H1), std_fin by exact H2. reflexivity.
Qed.
(** The components that do rise with magnitude follow the publication; from M 6 on, so does the whole. *)
Theorem C51_published_from_magnitude_6 : forall src a k c, eq19_gives src a -> eq19_ok a -> nth_error low_rows k = Some c -> 6 <= e_m a ->
  exists m, result (ba19 src) = Ok m /\ nth_error (ba19_p_ln_std m) k = Some (Fin (sigma_published c (e_m a))) /\ 0 < sigma_published c (e_m a).
Proof.
  intros src a k c G K H Hm. destruct (std_at src a k c G K H) as (m & E & S). exists m. split; [exact E|]. rewrite S. unfold sigma_published.
  destruct (comp_6 (Q2R (ba19_s1 c)) (Q2R (ba19_s2 c)) (e_m a) Hm) as (-> & ->). destruct (comp_6 (Q2R (ba19_s3 c)) (Q2R (ba19_s4 c)) (e_m a) Hm) as (-> & ->).
  destruct (comp_6 (Q2R (ba19_s5 c)) (Q2R (ba19_s6 c)) (e_m a) Hm) as (-> & ->). split; [reflexivity|]. apply sqrt_lt_R0.
  destruct (low_nth k c H) as (_ & Hc). Transparent low_rows ba19_coeff. row_pos Hc ba19_s2 as P. Opaque low_rows ba19_coeff.
  pose proof (pow2_ge_0 (Q2R (ba19_s4 c))). pose proof (pow2_ge_0 (Q2R (ba19_s6 c))). pose proof (pow2_ge_0 (cell (ba19_c1a c))). nra.
Qed.
Print Assumptions C51_published_from_magnitude_6.
(** Rows whose three components do not rise from M 4 to M 6. *)
Definition falling (c : ba19_row) : bool :=
  Qle_bool (ba19_s2 c) (ba19_s1 c) && Qle_bool (ba19_s4 c) (ba19_s3 c) && Qle_bool (ba19_s6 c) (ba19_s5 c).
Theorem C51_magnitude_ignored : forall src a k c, eq19_gives src a -> eq19_ok a -> nth_error low_rows k = Some c -> falling c = true ->
  exists m, result (ba19 src) = Ok m /\ nth_error (ba19_p_ln_std m) k = Some (Fin (sigma_published c 6)).
Proof.
  intros src a k c G K H F. destruct (std_at src a k c G K H) as (m & E & S). exists m. split; [exact E|]. rewrite S. unfold sigma_published.
  apply andb_true_iff in F as [F F3]. apply andb_true_iff in F as [F1 F2]. apply Qleb_R in F1, F2, F3.
  rewrite !comp_falling by assumption. do 3 f_equal.
  destruct (comp_6 (Q2R (ba19_s1 c)) (Q2R (ba19_s2 c)) 6) as (_ & ->); [lra|]. destruct (comp_6 (Q2R (ba19_s3 c)) (Q2R (ba19_s4 c)) 6) as (_ & ->); [lra|].
  destruct (comp_6 (Q2R (ba19_s5 c)) (Q2R (ba19_s6 c)) 6) as (_ & ->); [lra|]. reflexivity.
Qed.
Print Assumptions C51_magnitude_ignored.
(** This concerns 124 of the 239 frequencies. *)
Theorem C51_how_many : List.length (filter falling low_rows) = 124%nat /\ List.length low_rows = 239%nat.
Proof. split; vm_compute; reflexivity. Qed.
Print Assumptions C51_how_many.
(** At those, below magnitude 6, the returned value is smaller than the published one as soon as tau really falls. *)
Theorem C51_too_small_below_magnitude_6 : forall src a k c, eq19_gives src a -> eq19_ok a -> nth_error low_rows k = Some c -> falling c = true ->
  Q2R (ba19_s2 c) < Q2R (ba19_s1 c) -> e_m a < 6 ->
  exists m s, result (ba19 src) = Ok m /\ nth_error (ba19_p_ln_std m) k = Some (Fin s) /\ s < sigma_published c (e_m a).
Proof.
  intros src a k c G K H F Hs Hm. destruct (C51_magnitude_ignored src a k c G K H F) as (m & E & S). exists m, (sigma_published c 6). split; [exact E|]. split; [exact S|].
  apply andb_true_iff in F as [F F3]. apply andb_true_iff in F as [F1 F2]. apply Qleb_R in F1, F2, F3. unfold sigma_published.
  destruct (low_nth k c H) as (_ & Hc). Transparent low_rows ba19_coeff. row_pos Hc ba19_s2 as P2. row_pos Hc ba19_s4 as P4. row_pos Hc ba19_s6 as P6. Opaque low_rows ba19_coeff.
  rewrite Rmult_0_l in P2, P4, P6.
  destruct (comp_6 (Q2R (ba19_s1 c)) (Q2R (ba19_s2 c)) 6) as (_ & ->); [lra|]. destruct (comp_6 (Q2R (ba19_s3 c)) (Q2R (ba19_s4 c)) 6) as (_ & ->); [lra|].
  destruct (comp_6 (Q2R (ba19_s5 c)) (Q2R (ba19_s6 c)) 6) as (_ & ->); [lra|].
  assert (forall x y, 0 < y -> y <= x -> y <= between_4_and_6 x y (e_m a) /\ (y < x -> y < between_4_and_6 x y (e_m a))) as B.
  { intros x y Hy Hxy. unfold between_4_and_6. assert (4 <= Rmin (Rmax (e_m a) 4) 6 < 6).
    { unfold Rmin, Rmax. destruct (Rle_dec (e_m a) 4); destruct (Rle_dec _ 6); lra. }
    split; [nra|intros; nra]. }
  destruct (B _ _ P2 F1) as (_ & B1). destruct (B _ _ P4 F2) as (B2 & _). destruct (B _ _ P6 F3) as (B3 & _). specialize (B1 Hs).
  pose proof (pow2_ge_0 (cell (ba19_c1a c))). apply sqrt_lt_1; try nra.
Qed.
Print Assumptions C51_too_small_below_magnitude_6.
Theorem C51_rising_components_published : forall src a k c, eq19_gives src a -> eq19_ok a -> nth_error low_rows k = Some c ->
  exists m t1 t2 t3, result (ba19 src) = Ok m /\ nth_error (ba19_p_ln_std m) k = Some (Fin (sqrt (t1 ^ 2 + t2 ^ 2 + t3 ^ 2 + cell (ba19_c1a c) ^ 2))) /\
    let rule at4 at6 t := (at4 < at6 -> t = between_4_and_6 at4 at6 (e_m a)) /\ (at6 <= at4 -> t = at6) in
    rule (Q2R (ba19_s1 c)) (Q2R (ba19_s2 c)) t1 /\ rule (Q2R (ba19_s3 c)) (Q2R (ba19_s4 c)) t2 /\ rule (Q2R (ba19_s5 c)) (Q2R (ba19_s6 c)) t3.
Proof.
  intros src a k c G K H. destruct (std_at src a k c G K H) as (m & E & S). exists m. do 3 eexists. split; [exact E|]. split; [exact S|].
  split; [|split]; split; intros; first [apply comp_rising|apply comp_falling]; assumption.
Qed.
Print Assumptions C51_rising_components_published.
Example C51_nonvacuous : exists k c, nth_error low_rows k = Some c /\ falling c = true /\ Q2R (ba19_s2 c) < Q2R (ba19_s1 c).
Proof. exists 12%nat, (nth 12 low_rows last_low). split; [apply nth_error_nth'; rewrite low_len; lia|]. split; [vm_compute; reflexivity|]. apply Qltb_R. vm_compute. reflexivity. Qed.

(** ** C94: above 24 Hz the amplitude decays exponentially, faster on softer sites *)
Theorem C94_decay_with_frequency : forall src a k k' c c', eq19_gives src a -> eq19_ok a ->
  nth_error high_rows k = Some c -> nth_error high_rows k' = Some c' -> (k < k')%nat ->
  exists m x x', result (ba19 src) = Ok m /\ nth_error (ba19_p_ln_eas m) (239 + k) = Some (Fin x) /\ nth_error (ba19_p_ln_eas m) (239 + k') = Some (Fin x') /\ x' < x /\
    x - x' = PI * exp (-0.4 * ln (e_v a / 760) - 3.5) * (Q2R (ba19_freq_hz c') - Q2R (ba19_freq_hz c)).
Proof.
  intros src a k k' c c' G K H H' Hk. destruct (C52_published src a G K) as (m & i & E & _ & _ & _ & T & _).
  exists m. do 2 eexists. split; [exact E|]. split; [apply T; exact H|]. split; [apply T; exact H'|].
  assert (Q2R (ba19_freq_hz c) < Q2R (ba19_freq_hz c')) as F.
  { assert (forall l : list Q, Sorted.StronglySorted Qlt l -> forall i j x y, nth_error l i = Some x -> nth_error l j = Some y -> (i < j)%nat -> (x < y)%Q) as S.
    { induction 1 as [|q l HS IH HF]; intros [|i1] [|j1] x y Hx Hy Hij; try discriminate; try lia; cbn in Hx, Hy.
      - injection Hx as <-. rewrite Forall_forall in HF. apply HF. apply nth_error_In with j1. exact Hy.
      - apply IH with i1 j1; try assumption. lia. }
    apply Qlt_Rlt. apply (S (map ba19_freq_hz high_rows)) with k k'; try apply nth_error_map_some; try assumption.
    apply Sorted.Sorted_StronglySorted; [intros x y z; apply Qlt_trans|].
    assert (forall l : list Q, (fix up l := match l with x :: (y :: _) as l' => Qltb x y && up l' | _ => true end) l = true -> Sorted.Sorted Qlt l) as U.
    { induction l as [|x [|y l] IH]; intros A; [constructor|constructor; constructor|]. apply andb_true_iff in A as [A1 A2].
      constructor; [apply IH; exact A2|]. constructor. apply Rlt_Qlt, Qltb_R. exact A1. }
    apply U. vm_compute. reflexivity. }
  pose proof PI_RGT_0. pose proof (exp_pos (-0.4 * ln (e_v a / 760) - 3.5)) as P. assert (0 < PI * exp (-0.4 * ln (e_v a / 760) - 3.5)) by (apply Rmult_lt_0_compat; assumption).
  split; [nra|lra].
Qed.
Print Assumptions C94_decay_with_frequency.
Theorem C94_faster_on_soft_sites : forall v v', 0 < v -> v < v' -> exp (-0.4 * ln (v' / 760) - 3.5) < exp (-0.4 * ln (v / 760) - 3.5).
Proof. intros v v' H H'. apply exp_increasing. assert (ln (v / 760) < ln (v' / 760)) by (apply ln_increasing; lra). lra. Qed.
Print Assumptions C94_faster_on_soft_sites.
Example C94_nonvacuous : exists m x x', result (ba19 ex19_src) = Ok m /\ nth_error (ba19_p_ln_eas m) 239 = Some (Fin x) /\ nth_error (ba19_p_ln_eas m) 300 = Some (Fin x') /\ x' < x.
Proof.
  destruct (C94_decay_with_frequency ex19_src ex19 0 61 (nth 0 high_rows last_low) (nth 61 high_rows last_low) ex19_gives ex19_ok) as (m & x & x' & E & A & B & L & _);
    [apply nth_error_nth'; rewrite high_len; lia|apply nth_error_nth'; rewrite high_len; lia|lia|]. exists m, x, x'. auto.
Qed.

(** ** C95: on sites of 760 m/s or more the amplitude grows with magnitude and decays with distance, at every frequency *)
Definition set19_m (a : eq19) (m : R) : eq19 := Eq19 m (e_r a) (e_z a) (e_v a) (e_d a) (e_mech a).
Definition set19_r (a : eq19) (r : R) : eq19 := Eq19 (e_m a) r (e_z a) (e_v a) (e_d a) (e_mech a).
Definition fin_lt (x y : flt) : Prop := exists u v, x = Fin u /\ y = Fin v /\ u < v.
Lemma spectra_lt a b : 760 <= e_v a -> e_v b = e_v a -> (forall c, In c low_rows -> ln_eas_linear c a < ln_eas_linear c b) ->
  Forall2 fin_lt (map Fin (lows a ++ highs a)) (map Fin (lows b ++ highs b)).
Proof.
  intros Ha Hb H. rewrite !map_app. apply Forall2_app.
  - unfold lows. replace (map (smoothed (raws a) (i_of a)) (seq 0 239)) with (map (fun _ : nat => 0) (seq 0 239)) by (apply map_ext; intros; rewrite nl_zero; [reflexivity|exact Ha]).
    replace (map (smoothed (raws b) (i_of b)) (seq 0 239)) with (map (fun _ : nat => 0) (seq 0 239)) by (apply map_ext; intros; rewrite nl_zero; [reflexivity|lra]).
    rewrite !map_map. apply Forall2_map_intro. intros [c x] Hx. do 2 eexists. split; [reflexivity|]. split; [reflexivity|].
    apply Rplus_lt_compat_r, H. apply in_combine_l in Hx. exact Hx.
  - unfold highs. rewrite !map_map. apply Forall2_map_intro. intros c _. do 2 eexists. split; [reflexivity|]. split; [reflexivity|].
    rewrite !lows_last, !nl_zero by lra. rewrite Hb. specialize (H last_low last_in). lra.
Qed.
Theorem C95_grows_with_magnitude : forall src src' a m', eq19_gives src a -> eq19_gives src' (set19_m a m') -> eq19_ok a -> 760 <= e_v a -> e_m a < m' ->
  exists o o', result (ba19 src) = Ok o /\ result (ba19 src') = Ok o' /\ Forall2 fin_lt (ba19_p_ln_eas o) (ba19_p_ln_eas o').
Proof.
  intros src src' a m' G G' K Hv Hm. assert (eq19_ok (set19_m a m')) as K' by exact K.
  rewrite (ba19_make src a G K), (ba19_make src' _ G' K'). do 2 eexists. split; [reflexivity|]. split; [reflexivity|]. cbn [ba19_p_ln_eas ba19_eas_ln].
  apply spectra_lt; [exact Hv|reflexivity|]. intros c Hc. unfold ln_eas_linear. cbn [set19_m e_m e_r e_z e_v e_d e_mech]. change (e_ns (set19_m a m')) with (e_ns a).
  pose proof (mag_mag c (e_m a) m' Hc ltac:(lra)). pose proof (path_mag c (e_m a) m' (e_r a) Hc (proj1 K) ltac:(lra)). lra.
Qed.
Print Assumptions C95_grows_with_magnitude.
Theorem C95_decays_with_distance : forall src src' a r', eq19_gives src a -> eq19_gives src' (set19_r a r') -> eq19_ok a -> 760 <= e_v a -> e_m a <= 8.5 -> e_r a < r' ->
  exists o o', result (ba19 src) = Ok o /\ result (ba19 src') = Ok o' /\ Forall2 fin_lt (ba19_p_ln_eas o') (ba19_p_ln_eas o).
Proof.
  intros src src' a r' G G' K Hv Hm Hr. assert (eq19_ok (set19_r a r')) as K' by (destruct K as (K1 & K2 & K3); split; [cbn; lra|split; [exact K2|exact K3]]).
  rewrite (ba19_make src a G K), (ba19_make src' _ G' K'). do 2 eexists. split; [reflexivity|]. split; [reflexivity|]. cbn [ba19_p_ln_eas ba19_eas_ln].
  apply spectra_lt; [exact Hv|reflexivity|]. intros c Hc. unfold ln_eas_linear. cbn [set19_r e_m e_r e_z e_v e_d e_mech]. change (e_ns (set19_r a r')) with (e_ns a).
  pose proof (path_dist c (e_m a) (e_r a) r' Hc Hm (proj1 K) Hr). lra.
Qed.
Print Assumptions C95_decays_with_distance.
Definition ex19r : eq19 := Eq19 6.5 20 5 800 (Some 0.03) (Some "RS").
Definition ex19r_src (m r : R) : dict := [("mag", PNum (Fin m)); ("dist_rup", PNum (Fin r)); ("depth_tor", PNum (Fin 5)); ("v_s30", PNum (Fin 800)); ("depth_1_0", PNum (Fin 0.03)); ("mechanism", PStr "RS")].
Lemma ex19r_ok : eq19_ok ex19r. Proof. unfold eq19_ok, ex19r; cbn [e_r e_v e_d]. lra. Qed.
Example C95_nonvacuous : exists o o', result (ba19 (ex19r_src 6.5 20)) = Ok o /\ result (ba19 (ex19r_src 7 20)) = Ok o' /\ Forall2 fin_lt (ba19_p_ln_eas o) (ba19_p_ln_eas o').
Proof. apply (C95_grows_with_magnitude _ _ ex19r 7); [repeat split|repeat split|exact ex19r_ok|cbn; lra|cbn; lra]. Qed.
Example C95_nonvacuous_distance : exists o o', result (ba19 (ex19r_src 6.5 20)) = Ok o /\ result (ba19 (ex19r_src 6.5 90)) = Ok o' /\ Forall2 fin_lt (ba19_p_ln_eas o') (ba19_p_ln_eas o).
Proof. apply (C95_decays_with_distance _ _ ex19r 90); [repeat split|repeat split|exact ex19r_ok|cbn; lra|cbn; lra|cbn; lra]. Qed.

(** ** C96: mechanism *)
Definition set19_mech (a : eq19) (t : option string) : eq19 := Eq19 (e_m a) (e_r a) (e_z a) (e_v a) (e_d a) t.
(** Reverse, strike-slip, an unrecognised mechanism and none at all give the same spectrum and standard deviation. *)
Theorem C96_only_normal_matters : forall src src' a t, eq19_gives src a -> eq19_gives src' (set19_mech a t) -> eq19_ok a ->
  e_mech a <> Some "NS" -> t <> Some "NS" ->
  exists o o', result (ba19 src) = Ok o /\ result (ba19 src') = Ok o' /\ ba19_p_ln_eas o' = ba19_p_ln_eas o /\ ba19_p_ln_std o' = ba19_p_ln_std o.
Proof.
  intros src src' a t G G' K N N'. assert (eq19_ok (set19_mech a t)) as K' by exact K.
  rewrite (ba19_make src a G K), (ba19_make src' _ G' K'). do 2 eexists. split; [reflexivity|]. split; [reflexivity|]. cbn [ba19_p_ln_eas ba19_eas_ln ba19_p_ln_std ba19_std_ln].
  split; [|reflexivity]. assert (e_ns (set19_mech a t) = e_ns a) as E.
  { unfold e_ns. cbn [set19_mech e_mech]. destruct t as [t|], (e_mech a) as [u|]; repeat match goal with |- context [String.eqb ?x ?y] => destruct (String.eqb_spec x y) end; congruence. }
  assert (forall c, ln_eas_linear c (set19_mech a t) = ln_eas_linear c a) as EL by (intros c; unfold ln_eas_linear; rewrite E; reflexivity).
  assert (raws (set19_mech a t) = raws a) as ER.
  { unfold raws. apply map_ext. intros c. unfold raw_nl, ln_eas_5hz_rock. rewrite E. reflexivity. }
  assert (lows (set19_mech a t) = lows a) as ELo by (unfold lows, i_of; rewrite ER; apply map_ext; intros [c x]; rewrite EL; reflexivity).
  unfold highs. rewrite ELo. reflexivity.
Qed.
Print Assumptions C96_only_normal_matters.
Theorem C96_normal_lower : forall src src' a, eq19_gives src a -> eq19_gives src' (set19_mech a (Some "NS")) -> eq19_ok a -> e_mech a <> Some "NS" -> 760 <= e_v a ->
  exists o o', result (ba19 src) = Ok o /\ result (ba19 src') = Ok o' /\
    Forall2 (fun x x' => exists u v, x = Fin u /\ x' = Fin v /\ v = u - 0.2) (ba19_p_ln_eas o) (ba19_p_ln_eas o').
Proof.
  intros src src' a G G' K N Hv. assert (eq19_ok (set19_mech a (Some "NS"))) as K' by exact K.
  rewrite (ba19_make src a G K), (ba19_make src' _ G' K'). do 2 eexists. split; [reflexivity|]. split; [reflexivity|]. cbn [ba19_p_ln_eas ba19_eas_ln].
  assert (forall c, In c low_rows -> ln_eas_linear c (set19_mech a (Some "NS")) = ln_eas_linear c a - 0.2) as EL.
  { intros c Hc. unfold ln_eas_linear. assert (e_ns a = false) as -> by (unfold e_ns; destruct (e_mech a) as [u|]; [destruct (String.eqb_spec u "NS"); congruence|reflexivity]).
    change (e_ns (set19_mech a (Some "NS"))) with true. cbn [set19_mech e_m e_r e_z e_v e_d t_normal]. rewrite (b10 c (row_bounds c Hc)). lra. }
  set (b := set19_mech a (Some "NS")) in *. rewrite !map_app. apply Forall2_app.
  - unfold lows. replace (map (smoothed (raws a) (i_of a)) (seq 0 239)) with (map (fun _ : nat => 0) (seq 0 239)) by (apply map_ext; intros; rewrite nl_zero; [reflexivity|exact Hv]).
    replace (map (smoothed (raws b) (i_of b)) (seq 0 239)) with (map (fun _ : nat => 0) (seq 0 239)) by (apply map_ext; intros; rewrite nl_zero; [reflexivity|exact Hv]).
    rewrite !map_map. apply Forall2_map_intro. intros [c x] Hx. do 2 eexists. split; [reflexivity|]. split; [reflexivity|].
    apply in_combine_l in Hx. rewrite EL by exact Hx. lra.
  - unfold highs. rewrite !map_map. apply Forall2_map_intro. intros c _. do 2 eexists. split; [reflexivity|]. split; [reflexivity|].
    rewrite !lows_last, !nl_zero by (try exact Hv; exact Hv). rewrite EL by exact last_in. change (e_v b) with (e_v a). lra.
Qed.
Print Assumptions C96_normal_lower.
Example C96_nonvacuous : exists o o', result (ba19 (ex19r_src 6.5 20)) = Ok o /\
  result (ba19 [("mag", PNum (Fin 6.5)); ("dist_rup", PNum (Fin 20)); ("depth_tor", PNum (Fin 5)); ("v_s30", PNum (Fin 800)); ("depth_1_0", PNum (Fin 0.03)); ("mechanism", PStr "NS")]) = Ok o' /\
  Forall2 (fun x x' => exists u v, x = Fin u /\ x' = Fin v /\ v = u - 0.2) (ba19_p_ln_eas o) (ba19_p_ln_eas o').
Proof. apply (C96_normal_lower _ _ ex19r); [repeat split|repeat split|exact ex19r_ok|discriminate|cbn; lra]. Qed.

(** ** C97: an absent depth to rock means the default depth for the velocity *)
Theorem C97_default_depth : forall src src' m r z v t, 
  eq19_gives src (Eq19 m r z v None t) -> eq19_gives src' (Eq19 m r z v (Some (z1_default v)) t) -> 0 <= r -> 0 < v -> result (ba19 src) = result (ba19 src').
Proof.
  intros src src' m r z v t G G' Hr Hv. unfold ba19. rewrite !result_bind, (ba19_init _ _ G), (ba19_init _ _ G'), !result_bind, !ba19_prep_ok. reflexivity.
Qed.
Print Assumptions C97_default_depth.
Theorem C97_default_depth_range : forall v v', 0 < v -> v < v' -> 0 < z1_default v' /\ z1_default v' < z1_default v /\ z1_default v < 0.51.
Proof.
  intros v v' H H'. pose proof (z1_range v). pose proof (z1_range v'). split; [lra|]. split; [|lra]. unfold z1_default.
  assert (v ^ 4 < v' ^ 4) by (assert (v ^ 2 < v' ^ 2) by nra; replace (v ^ 4) with (v ^ 2 * v ^ 2) by ring; replace (v' ^ 4) with (v' ^ 2 * v' ^ 2) by ring; nra).
  assert (0 < v ^ 4) by (apply pow_lt; exact H).
  assert (ln ((v ^ 4 + 610 ^ 4) / (1360 ^ 4 + 610 ^ 4)) < ln ((v' ^ 4 + 610 ^ 4) / (1360 ^ 4 + 610 ^ 4))).
  { apply ln_increasing; [apply Rdiv_lt_0_compat; lra|]. apply Rmult_lt_compat_r; lra. }
  apply Rmult_lt_compat_r; [lra|]. apply exp_increasing. lra.
Qed.
Print Assumptions C97_default_depth_range.
Example C97_nonvacuous : eq19_gives ex19_src ex19 /\ result (ba19 ex19_src) = result (ba19 (ex19_src ++ [("depth_1_0", PNum (Fin (z1_default 400)))])).
Proof. split; [exact ex19_gives|]. apply (C97_default_depth _ _ 6.5 20 5 400 None); [repeat split|repeat split|lra|lra]. Qed.
