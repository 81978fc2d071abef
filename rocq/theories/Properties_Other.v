(** * Properties of BA18, HKR14 and AB20: C36, C50, C54, C89-C93

    Vocabulary: Spec_ba18.v, Spec_hkr14.v. *)
From Coquelicot Require Import Coquelicot.
From Interval Require Import Tactic.
From Coq Require Import List.
From Verif Require Import M_ba18 M_hkr14 M_ab20 Anal Nga Outs Spec_cms Spec_ba18 P_ba18 Spec_hkr14 P_hkr14.
Open Scope R_scope.
Open Scope string_scope.
Open Scope list_scope.

(** ** C50: BA18 correlation and covariance matrices *)
Theorem C50_published : forall freqs i j fi fj, Forall (fun f => 0 < f) freqs -> nth_error freqs i = Some fi -> nth_error freqs j = Some fj ->
  exists r, entry (ba18_corr (map Fin freqs)) i j = Some (Fin r) /\ (i = j -> r = 1) /\ (i <> j -> ba_rho fi fj r).
Proof. exact ba_corr_entry. Qed.
Print Assumptions C50_published.
Theorem C50_within_0_1 : forall freqs i j fi fj, Forall (fun f => 0 < f) freqs -> nth_error freqs i = Some fi -> nth_error freqs j = Some fj ->
  exists r, entry (ba18_corr (map Fin freqs)) i j = Some (Fin r) /\ 0 < r <= 1 /\ (i <> j -> r < 0.9987).
Proof.
  intros freqs i j fi fj F Hi Hj. destruct (ba_corr_entry freqs i j fi fj F Hi Hj) as (r & E & D & O). exists r. split; [exact E|].
  destruct (Nat.eq_dec i j) as [e|n]; [rewrite (D e); split; [lra|intros N; contradiction]|].
  pose proof (ba_rho_range _ _ _ (O n)). split; [lra|intros _; lra].
Qed.
Print Assumptions C50_within_0_1.
Theorem C50_square_and_symmetric : forall freqs, square (List.length freqs) (ba18_corr freqs) /\
  forall i j, entry (ba18_corr freqs) i j = entry (ba18_corr freqs) j i.
Proof. intros freqs. split; [apply ba_corr_square|intros; apply ba_corr_sym]. Qed.
Print Assumptions C50_square_and_symmetric.
Theorem C50_covariance_of_given_std : forall freqs stds comp, Forall (fun f => 0 < f) freqs -> List.length stds = List.length freqs ->
  exists m, ba18_cov (map Fin freqs) (SArr (map Fin stds)) comp = Ok m /\ square (List.length freqs) m /\
    forall i j fi fj si sj, nth_error freqs i = Some fi -> nth_error freqs j = Some fj -> nth_error stds i = Some si -> nth_error stds j = Some sj ->
      exists r, entry (ba18_corr (map Fin freqs)) i j = Some (Fin r) /\ entry m i j = Some (Fin (r * si * sj)).
Proof. exact ba_cov_arr. Qed.
Print Assumptions C50_covariance_of_given_std.
Theorem C50_covariance_of_one_std : forall freqs s comp, Forall (fun f => 0 < f) freqs ->
  exists m, ba18_cov (map Fin freqs) (SNum (Fin s)) comp = Ok m /\ square (List.length freqs) m /\
    forall i j fi fj, nth_error freqs i = Some fi -> nth_error freqs j = Some fj ->
      exists r, entry (ba18_corr (map Fin freqs)) i j = Some (Fin r) /\ entry m i j = Some (Fin (r * s ^ 2)).
Proof. exact ba_cov_num. Qed.
Print Assumptions C50_covariance_of_one_std.
Theorem C50_covariance_of_published_std : forall freqs name column,
  In (name, column) [("tau", ba18_tau); ("phi_s2s", ba18_phi_s2s); ("phi_s", ba18_phi_s); ("sigma", ba18_sigma)] ->
  exists stds, Forall2 (ba_table column) freqs stds /\
    ba18_cov (map Fin freqs) SNone (Some name) = ba18_cov (map Fin freqs) (SArr (map Fin stds)) None.
Proof.
  intros freqs name column H. apply ba_cov_component.
  destruct H as [H|[H|[H|[H|[]]]]]; injection H as <- <-; reflexivity.
Qed.
Print Assumptions C50_covariance_of_published_std.
Theorem C50_errors : forall freqs,
  ba18_cov freqs SNone None = Raise ENotImpl /\
  (forall l comp, List.length l <> List.length freqs -> List.length l <> 1%nat -> ba18_cov freqs (SArr l) comp = Raise EValue) /\
  (forall name, ~ In name ["freq_hz"; "A"; "B"; "C"; "D"; "tau"; "phi_s2s"; "phi_s"; "sigma"] -> ba18_cov freqs SNone (Some name) = Raise EAttr).
Proof.
  intros freqs. split; [reflexivity|]. split.
  - intros l comp H1 H2. unfold ba18_cov. replace (match comp with Some _ => _ | None => _ end) with (Ok (SArr l)) by (destruct comp; reflexivity).
    cbn [ba18_full]. destruct (Nat.eqb_spec (List.length l) (List.length freqs)); [contradiction|].
    destruct (Nat.eqb_spec (List.length l) 1); [contradiction|]. reflexivity.
  - intros name H. unfold ba18_cov. replace (ba18_column name) with (@None (ba18_row -> Q)); [reflexivity|].
    unfold ba18_column. cbn [In] in H.
    repeat match goal with |- context [String.eqb name ?t] => destruct (String.eqb_spec name t); [exfalso; apply H; subst; tauto|] end. reflexivity.
Qed.
Print Assumptions C50_errors.
Example C50_nonvacuous : exists m, ba18_cov (map Fin [0.5; 2; 30]) (SArr (map Fin [0.6; 0.7; 0.8])) None = Ok m /\ square 3 m /\
  entry m 1 1 = Some (Fin (1 * 0.7 * 0.7)).
Proof.
  assert (F : Forall (fun f => 0 < f) [0.5; 2; 30]) by (repeat constructor; lra).
  destruct (C50_covariance_of_given_std [0.5; 2; 30] [0.6; 0.7; 0.8] None F eq_refl) as (m & E & S & X). exists m. split; [exact E|]. split; [exact S|].
  destruct (X 1%nat 1%nat 2 2 0.7 0.7 eq_refl eq_refl eq_refl eq_refl) as (r & R & Q).
  destruct (C50_published [0.5; 2; 30] 1 1 2 2 F eq_refl eq_refl) as (r' & R' & D & _). rewrite R in R'. injection R' as <-. rewrite Q, (D eq_refl). reflexivity.
Qed.

(** ** C89: BA18 correlations decay with the ratio of the frequencies *)
Theorem C89_decays : forall freqs i j k f g1 g2, Forall (fun f => 0 < f) freqs ->
  nth_error freqs i = Some f -> nth_error freqs j = Some g1 -> nth_error freqs k = Some g2 -> f <= g1 -> g1 < g2 ->
  exists r1 r2, entry (ba18_corr (map Fin freqs)) i j = Some (Fin r1) /\ entry (ba18_corr (map Fin freqs)) i k = Some (Fin r2) /\ r2 < r1.
Proof. exact ba_decay. Qed.
Print Assumptions C89_decays.
Example C89_nonvacuous : exists r1 r2, entry (ba18_corr (map Fin [5; 1; 40])) 1 0 = Some (Fin r1) /\ entry (ba18_corr (map Fin [5; 1; 40])) 1 2 = Some (Fin r2) /\ r2 < r1.
Proof. apply (C89_decays [5; 1; 40] 1 0 2 1 5 40); try reflexivity; try lra. repeat constructor; lra. Qed.

(** ** C90: a frequency listed twice *)
Theorem C90_duplicate_not_fully_correlated : forall freqs i j f, Forall (fun f => 0 < f) freqs -> nth_error freqs i = Some f -> nth_error freqs j = Some f -> i <> j ->
  exists r, entry (ba18_corr (map Fin freqs)) i j = Some (Fin r) /\ 0.95 < r < 0.9987.
Proof. exact ba_twice. Qed.
Print Assumptions C90_duplicate_not_fully_correlated.
Example C90_nonvacuous : exists r, entry (ba18_corr (map Fin [5; 5])) 0 1 = Some (Fin r) /\ 0.95 < r < 0.9987.
Proof. apply (C90_duplicate_not_fully_correlated [5; 5] 0 1 5); try reflexivity; [repeat constructor; lra|discriminate]. Qed.

(** ** C36: HKR14 does not depend on the history *)
Theorem C36_history_independent : forall nearest data h, Forall (fun x => fst x = Some data) h ->
  snd (hkr14_history nearest None h) = map (fun x => snd (hkr14 nearest (Some data) None (snd x))) h.
Proof. exact hk_history. Qed.
Print Assumptions C36_history_independent.
Theorem C36_loaded_once : forall nearest h1 h2 data, fst (hkr14_history nearest None h1) = Some data ->
  In (Some data) (map fst h1) /\
  hkr14_history nearest None (h1 ++ h2) =
    (Some data, snd (hkr14_history nearest None h1) ++ map (fun x => snd (hkr14 nearest (Some data) None (snd x))) h2).
Proof. intros nearest h1 h2 data H. split; [exact (hk_from_file nearest h1 data H)|exact (hk_loaded nearest h1 h2 data H)]. Qed.
Print Assumptions C36_loaded_once.
Definition ex_hk : hk := Hk 6 None 30 500 "RS".
Definition ex_hk_src : dict := [("mag", PNum (Fin 6)); ("dist_jb", PNum (Fin 30)); ("v_s30", PNum (Fin 500)); ("mechanism", PStr "RS")].
Lemma ex_hk_gives : hk_gives ex_hk_src ex_hk. Proof. repeat split. Qed.
Definition ex_hk_data : hkdata :=
  [([6; 15; 1; 0; 0; 30; 500], [1; 2; 3; 4; 5; 6; 7; 8; 9; 10; 11; 12]); ([7; 15; 0; 1; 0; 10; 760], [1; 2; 3; 4; 5; 6; 7; 8; 9; 10; 11; 13])].
Example C36_nonvacuous : exists nearest, nearest_spec nearest /\ exists g,
  map result (snd (hkr14_history nearest None [(Some ex_hk_data, ex_hk_src); (Some ex_hk_data, ex_hk_src)])) = [Ok g; Ok g].
Proof.
  destruct nearest_exists as (nearest & N). exists nearest. split; [exact N|].
  rewrite (C36_history_independent nearest ex_hk_data) by (repeat constructor). cbn [map snd].
  rewrite (hk_run nearest (Some ex_hk_data) None ex_hk_data ex_hk_src ex_hk eq_refl ex_hk_gives). eexists. reflexivity.
Qed.

(** ** C91: HKR14 returns the prediction of a nearest event *)
Theorem C91_nearest_event : forall nearest d src a, nearest_spec nearest -> d <> [] -> Forall (fun ep => List.length (snd ep) = 12%nat) d -> hk_gives src a ->
  exists e p, In (e, p) d /\ (forall e' p', In (e', p') d -> dist2 e (hk_point a) <= dist2 e' (hk_point a)) /\
    gmm_out (snd (hkr14 nearest (Some d) None src)) (hk_outs p).
Proof. exact hk_nearest. Qed.
Print Assumptions C91_nearest_event.
(** The distance mixes units: an event 5 m/s off in velocity loses to one 4 magnitude units off. *)
Theorem C91_velocity_outweighs_magnitude : forall nearest d src a e p, nearest_spec nearest -> Forall (fun ep => List.length (snd ep) = 12%nat) d ->
  hk_gives src a -> In (hk_point (Hk (hk_m a - 4) (hk_z a) (hk_jb a) (hk_v a) (hk_mech a)), p) d ->
  gmm_out (snd (hkr14 nearest (Some d) None src)) (hk_outs e) ->
  exists pt p', In (pt, p') d /\ hk_outs p' = hk_outs e /\ Rabs (nth 6 pt (hk_v a) - hk_v a) <= 4.
Proof. exact hk_velocity. Qed.
Print Assumptions C91_velocity_outweighs_magnitude.
Example C91_nonvacuous : exists nearest, nearest_spec nearest /\ exists p, gmm_out (snd (hkr14 nearest (Some ex_hk_data) None ex_hk_src)) (hk_outs p).
Proof.
  destruct nearest_exists as (nearest & N). exists nearest. split; [exact N|].
  destruct (C91_nearest_event nearest ex_hk_data ex_hk_src ex_hk N) as (e & p & _ & _ & O); [discriminate|repeat constructor|apply ex_hk_gives|].
  exists p. exact O.
Qed.

(** ** C92: HKR14 reproduces its database *)
Theorem C92_exact_at_events : forall nearest d src a p, nearest_spec nearest ->
  Forall (fun ep => List.length (fst ep) = 7%nat /\ List.length (snd ep) = 12%nat) d -> NoDup (map fst d) ->
  hk_gives src a -> In (hk_point a, p) d -> gmm_out (snd (hkr14 nearest (Some d) None src)) (hk_outs p).
Proof. exact hk_exact. Qed.
Print Assumptions C92_exact_at_events.
Example C92_nonvacuous : exists nearest, nearest_spec nearest /\ gmm_out (snd (hkr14 nearest (Some ex_hk_data) None ex_hk_src)) (hk_outs [1; 2; 3; 4; 5; 6; 7; 8; 9; 10; 11; 12]).
Proof.
  destruct nearest_exists as (nearest & N). exists nearest. split; [exact N|].
  apply (C92_exact_at_events nearest ex_hk_data ex_hk_src ex_hk _ N); [repeat constructor| |apply ex_hk_gives|left; reflexivity].
  constructor; [|constructor; [intros []|constructor]]. intros [H|[]]. injection H. intros. lra.
Qed.

(** ** C93: HKR14 without a distance *)
Theorem C93_optional_distance_raises : forall nearest d src m v t, has_num src "mag" m -> has_num src "v_s30" v -> has_str src "mechanism" t ->
  absent src "dist_jb" -> absent src "depth_hyp" -> result (snd (hkr14 nearest (Some d) None src)) = Raise EType.
Proof. exact hk_missing. Qed.
Print Assumptions C93_optional_distance_raises.
Example C93_nonvacuous : result (snd (hkr14 (fun _ _ => []) (Some ex_hk_data) None [("mag", PNum (Fin 6)); ("v_s30", PNum (Fin 500)); ("mechanism", PStr "RS")])) = Raise EType.
Proof. apply (C93_optional_distance_raises _ _ _ 6 500 "RS"); reflexivity. Qed.

(** ** C54: AB20 cannot be constructed *)
Theorem C54_never_succeeds : forall src psa pga psa_1s, exists e, result (ab20 src psa pga psa_1s) = Raise e.
Proof. exact ab20_fails. Qed.
Print Assumptions C54_never_succeeds.
Theorem C54_default_is_not_none : forall src m r v pga psa_1s, has_num src "mag" m -> has_num src "dist_rup" r -> has_num src "v_s30" v ->
  result (ab20 src ADefault pga psa_1s) = Raise ENotImpl.
Proof. exact ab20_default. Qed.
Print Assumptions C54_default_is_not_none.
Theorem C54_pga_key_error : forall src m r v x psa_1s, has_num src "mag" m -> has_num src "dist_rup" r -> has_num src "v_s30" v ->
  result (ab20 src ANone (ANum (Fin x)) psa_1s) = Raise (EKey "v_s30").
Proof. exact ab20_pga_fails. Qed.
Print Assumptions C54_pga_key_error.
(** The class method for the conditioning period needs no construction: 1 s at magnitude 409/66, and a factor e^0.66 per unit of magnitude. *)
Theorem C54_conditioning_period : forall m, exists l, ab20_ln_period_pgv (Fin m) = Fin l /\ exp l = exp (0.66 * (m - 409 / 66)).
Proof. intros m. eexists. split; [reflexivity|]. f_equal. lra. Qed.
Print Assumptions C54_conditioning_period.
(** With `pga=None` and a spectral acceleration at 1 s the same error; with `psa=None` alone, or `pga=None` and nothing else, the logarithm of a non-number. *)
Theorem C54_other_arguments : forall src m r v x a, has_num src "mag" m -> has_num src "dist_rup" r -> has_num src "v_s30" v ->
  result (ab20 src ANone ANone (ANum (Fin x))) = Raise (EKey "v_s30") /\ result (ab20 src ANone ADefault a) = Raise EType /\
  result (ab20 src ANone ANone ADefault) = Raise EType /\ result (ab20 src ANone ANone ANone) = Raise EType.
Proof. exact ab20_others. Qed.
Print Assumptions C54_other_arguments.
Example C54_nonvacuous : result (ab20 [("mag", PNum (Fin 6)); ("dist_rup", PNum (Fin 20)); ("v_s30", PNum (Fin 500))] ANone (ANum (Fin 0.1)) ADefault) = Raise (EKey "v_s30").
Proof. apply (C54_pga_key_error _ 6 20 500); reflexivity. Qed.
