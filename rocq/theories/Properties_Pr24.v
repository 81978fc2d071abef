(** * Properties of the duration model PR24: C46, C103-C106

    Vocabulary: Spec_pr24.v. *)
From Coquelicot Require Import Coquelicot.
From Interval Require Import Tactic.
From Coq Require Import List.
From Verif Require P_pr23.
From Verif Require Import M_pr24 FrameworkProofs Anal Nga Spec_hkr14 Spec_pr24 P_hkr14 Cont Cont1 P_pr24 P_pr24b.
Open Scope R_scope.
Open Scope string_scope.
Open Scope list_scope.

Definition src24 (a : eq24) : dict :=
  [("mag", PNum (Fin (k_m a))); ("dist_rup", PNum (Fin (k_r a))); ("v_s30", PNum (Fin (k_v a))); ("event_type", PStr (ev_name (k_ev a))); ("region", PStr (k_re a))].
Lemma src24_gives a : eq24_gives (src24 a) a. Proof. repeat split. Qed.
Definition ex24 : eq24 := Eq24 Slab "Taiwan" 6.5 80 400.
Lemma ex24_ok : eq24_ok ex24. Proof. split; [discriminate|]. cbn. lra. Qed.
Definition ex24i : eq24 := Eq24 Interface "Japan" 7.5 100 300.
Lemma ex24i_ok : eq24_ok ex24i. Proof. split; [discriminate|]. cbn. lra. Qed.

(** ** C46: which inputs are accepted *)
(** The seven supported pairs. *)
Definition supported (ev re : pyval) : Prop :=
  (ev = PStr "interface" /\ (re = PStr "Japan" \/ re = PStr "New Zealand" \/ re = PStr "South America")) \/
  (ev = PStr "slab" /\ (re = PStr "Japan" \/ re = PStr "New Zealand" \/ re = PStr "South America" \/ re = PStr "Taiwan")).
Lemma pyin_strs v l : pyin v (map PStr l) = true -> exists s, v = PStr s /\ In s l.
Proof.
  unfold pyin. rewrite existsb_exists. intros (x & I & E). apply in_map_iff in I as (s & <- & I). destruct v; try discriminate. cbn [pyeq] in E. apply String.eqb_eq in E. subst. eauto.
Qed.
Lemma supported_iff ev re : supported ev re <->
  pyin ev (map PStr ["interface"; "slab"]) && pyin re (map PStr pr24_regions) && negb (pyeq ev (PStr "interface") && pyeq re (PStr "Taiwan")) = true.
Proof.
  split.
  - intros [(-> & [->|[->| ->]])|(-> & [->|[->|[->| ->]]])]; reflexivity.
  - intros H. apply andb_true_iff in H as (H & T). apply andb_true_iff in H as (E & R). apply pyin_strs in E as (s & -> & E). apply pyin_strs in R as (t & -> & R).
    destruct E as [<-|[<-|[]]]; destruct R as [<-|[<-|[<-|[<-|[]]]]]; try discriminate T; unfold supported; tauto.
Qed.
Theorem C46_accepted_pairs : forall src m r v ev re,
  dget_none src "mag" = PNum m -> dget_none src "dist_rup" = PNum r -> dget_none src "v_s30" = PNum v -> dget_none src "event_type" = ev -> dget_none src "region" = re ->
  (supported ev re -> exists o, result (pr24 src) = Ok o) /\ (~ supported ev re -> result (pr24 src) = Raise EValue).
Proof.
  intros src m r v ev re G1 G2 G3 G4 G5. rewrite (pr24_run src m r v ev re G1 G2 G3 G4 G5), supported_iff. destruct (_ && _ && _).
  - split; [intros _; eexists; reflexivity|intros N; contradiction N; reflexivity].
  - split; [discriminate|reflexivity].
Qed.
Print Assumptions C46_accepted_pairs.
(** A missing number raises ValueError as well, whatever else is given. *)
Lemma dget_some_none src k : dget src k = None -> dget_none src k = PNone. Proof. intros H. unfold dget_none. rewrite H. reflexivity. Qed.
Theorem C46_missing_magnitude : forall src, dget_none src "mag" = PNone -> result (pr24 src) = Raise EValue.
Proof.
  intros src H. unfold pr24. rewrite result_bind, model_init_result' by reflexivity. unfold pr24_params. cbn [checks p_name NumP CatP]. rewrite H. reflexivity.
Qed.
Print Assumptions C46_missing_magnitude.
Example C46_nonvacuous : supported (PStr "slab") (PStr "Taiwan") /\ (exists o, result (pr24 (src24 ex24)) = Ok o) /\
  result (pr24 (src24 (Eq24 Interface "Taiwan" 6.5 80 400))) = Raise EValue /\ result (pr24 (src24 (Eq24 Slab "Chile" 6.5 80 400))) = Raise EValue /\
  result (pr24 [("mag", PNum (Fin 6)); ("dist_rup", PNum (Fin 20)); ("v_s30", PNum (Fin 300)); ("region", PStr "Japan")]) = Raise EValue.
Proof.
  split; [unfold supported; tauto|]. split; [eapply (C46_accepted_pairs (src24 ex24)); try reflexivity; unfold supported; tauto|].
  split; [|split]; (eapply C46_accepted_pairs; try reflexivity; unfold supported; cbn; intuition discriminate).
Qed.

(** ** C103: the D5-75 duration *)
Theorem C103_published : forall src a, eq24_gives src a -> eq24_ok a -> exists o, result (pr24 src) = Ok o /\
  pr24_duration o = Fin (median24 a) /\ pr24_plus o = Fin (plus24 (n24 (k_ev a)) (median24 a) (sigma24 a)) /\ pr24_minus o = Fin (minus24 (n24 (k_ev a)) (median24 a) (sigma24 a)) /\
  result (pr24_d575_median o) = Ok (Fin (median24 a)) /\ result (pr24_d575_sigma o) = Ok (Fin (sigma24 a)).
Proof.
  intros src a G K. rewrite (pr24_make src a G (proj1 K)). eexists. split; [reflexivity|]. unfold pr24_duration, pr24_plus, pr24_minus, pr24_d575_median, pr24_d575_sigma. cbn [pr24_dur pr24_scen].
  rewrite (base_fin a 0.75 K P_pr23.near75_refl). pose proof (eq24_v a K). rewrite !pr24_eval_ok, sigma_fin, median_fin by (try apply K; assumption). repeat split.
Qed.
Print Assumptions C103_published.
Theorem C103_ordered : forall src a, eq24_gives src a -> eq24_ok a -> exists o d lo hi s, result (pr24 src) = Ok o /\
  pr24_duration o = Fin d /\ pr24_plus o = Fin hi /\ pr24_minus o = Fin lo /\ 0 < lo < d /\ d < hi /\ result (pr24_d575_sigma o) = Ok (Fin s) /\ 0.05 < s < 0.26.
Proof.
  intros src a G K. destruct (C103_published src a G K) as (m & E & A & B & C & _ & S). do 5 eexists. split; [exact E|]. split; [exact A|]. split; [exact B|]. split; [exact C|].
  pose proof (median_low a K). pose proof (sigma_range a K) as SR. pose proof (mn_gt a K). pose proof (n_pos (k_ev a)).
  split; [apply minus_lt; lra|]. split; [apply plus_gt; lra|]. split; [exact S|exact SR].
Qed.
Print Assumptions C103_ordered.
Definition dur24_lt (src src' : dict) : Prop := exists m m' d d', result (pr24 src) = Ok m /\ result (pr24 src') = Ok m' /\
  pr24_duration m = Fin d /\ pr24_duration m' = Fin d' /\ d < d'.
Lemma dur24_ltI src src' a b : eq24_gives src a -> eq24_gives src' b -> eq24_ok a -> eq24_ok b -> median24 a < median24 b -> dur24_lt src src'.
Proof.
  intros G G' K K' H. destruct (C103_published src a G K) as (m & E & A & _). destruct (C103_published src' b G' K') as (m' & E' & A' & _).
  exists m, m'. do 2 eexists. split; [exact E|]. split; [exact E'|]. split; [exact A|]. split; [exact A'|exact H].
Qed.
Theorem C103_grows_with_magnitude : forall src src' ev re m m' r v, let a := Eq24 ev re m r v in let b := Eq24 ev re m' r v in
  eq24_gives src a -> eq24_gives src' b -> eq24_ok a -> eq24_ok b -> m < m' -> dur24_lt src src'.
Proof.
  intros src src' ev re m m' r v a b G G' K K' H. apply (dur24_ltI _ _ _ _ G G' K K'). destruct (region_cases a (proj1 K)) as (rate & site & E & _).
  subst a b. unfold median24. cbn [k_ev k_re k_m k_r k_v] in *. rewrite E. pose proof (source_mono ev m m' H). lra.
Qed.
Print Assumptions C103_grows_with_magnitude.
Theorem C103_grows_with_distance : forall src src' ev re m r r' v, let a := Eq24 ev re m r v in let b := Eq24 ev re m r' v in
  eq24_gives src a -> eq24_gives src' b -> eq24_ok a -> eq24_ok b -> r < r' -> dur24_lt src src'.
Proof.
  intros src src' ev re m r r' v a b G G' K K' H. apply (dur24_ltI _ _ _ _ G G' K K'). destruct (region_cases a (proj1 K)) as (rate & site & E & R & _).
  subst a b. unfold median24. cbn [k_ev k_re k_m k_r k_v] in *. rewrite E. pose proof (path_mono ev r r' ltac:(lra)). assert (rate * r < rate * r') by (apply Rmult_lt_compat_l; lra). lra.
Qed.
Print Assumptions C103_grows_with_distance.
Theorem C103_longer_on_softer_sites : forall src src' ev re m r v v', let a := Eq24 ev re m r v in let b := Eq24 ev re m r v' in
  eq24_gives src a -> eq24_gives src' b -> eq24_ok a -> eq24_ok b -> v' < v -> dur24_lt src src'.
Proof.
  intros src src' ev re m r v v' a b G G' K K' H. apply (dur24_ltI _ _ _ _ G G' K K'). destruct (region_cases a (proj1 K)) as (rate & site & E & _ & T & _).
  pose proof (eq24_v _ K') as V'. subst a b. unfold median24. cbn [k_ev k_re k_m k_r k_v] in *. rewrite E.
  assert (ln (3100 / v) < ln (3100 / v')).
  { apply ln_increasing; [apply Rdiv_lt_0_compat; lra|]. apply Rmult_lt_compat_l; [lra|]. apply Rinv_lt_contravar; [apply Rmult_lt_0_compat; lra|exact H]. }
  assert (site * ln (3100 / v) < site * ln (3100 / v')) by (apply Rmult_lt_compat_l; lra). lra.
Qed.
Print Assumptions C103_longer_on_softer_sites.
(** Continuity, including the breaks at magnitude 6 and at 250 km. *)
Definition run24 (f : R -> eq24) (x : R) (y : flt) : Prop := exists src m, eq24_gives src (f x) /\ result (pr24 src) = Ok m /\ pr24_duration m = y.
Lemma run24_val f x y : served (f x) -> 0 < k_v (f x) -> run24 f x y -> y = Fin (median24 (f x)).
Proof.
  intros S V (src & m & G & E & <-). rewrite (pr24_make src _ G S) in E. injection E as <-. unfold pr24_duration, pr24_calc. cbn [pr24_dur].
  rewrite (proj2 (P_pr23.isclose75 0.75) P_pr23.near75_refl). cbn [fst]. apply median_fin; assumption.
Qed.
Lemma source24_cont e m0 : continuous (source24 e) m0.
Proof.
  destruct e.
  - change (source24 Interface) with (fun m => 5.268 * Rpower 10 (0.275 * (m - 7))). unfold Rpower. cont.
  - apply cext with (f := fun m => 0.340 * exp (0.5 * (Rmin m 6 - 4.25) * ln 10) + 2.770 * ((Rmax m 6 - 6) / 2.5)).
    + intros m. cbn [source24]. unfold Rpower. destruct (Rlt_dec m 6); [rewrite Rmin_left, Rmax_right by lra|rewrite Rmin_right, Rmax_left by lra]; [unfold Rdiv; rewrite (Rminus_eq_0 6), Rmult_0_l; lra|].
      replace (0.5 * (6 - 4.25)) with (0.5 * 1.75) by lra. reflexivity.
    + unfold Rdiv. cont.
Qed.
Lemma path24_cont e r0 : continuous (path24 e) r0.
Proof.
  destruct e; [change (path24 Interface) with (fun r => 0.031 * Rmin r 250 + 0.029 * Rmax (r - 250) 0)|change (path24 Slab) with (fun r => 0.013 * Rmin r 250 + 0.020 * Rmax (r - 250) 0)]; cont.
Qed.
Theorem C103_continuous_in_magnitude : forall ev re r v m0, region24 ev re <> None -> 0 < v -> val_continuous num_close (run24 (fun m => Eq24 ev re m r v)) m0.
Proof.
  intros ev re r v m0 S V. apply (val_cont_num (fun m => median24 (Eq24 ev re m r v)) _ _ 1); [lra| |].
  - intros x y _ H. apply run24_val in H; [exact H|exact S|exact V].
  - unfold median24. cbn [k_ev k_re k_m k_r k_v]. destruct (region24 ev re) as [[rate site]|]; [|contradiction]. cont. apply source24_cont.
Qed.
Print Assumptions C103_continuous_in_magnitude.
Theorem C103_continuous_in_distance : forall ev re m v r0, region24 ev re <> None -> 0 < v -> val_continuous num_close (run24 (fun r => Eq24 ev re m r v)) r0.
Proof.
  intros ev re m v r0 S V. apply (val_cont_num (fun r => median24 (Eq24 ev re m r v)) _ _ 1); [lra| |].
  - intros x y _ H. apply run24_val in H; [exact H|exact S|exact V].
  - unfold median24. cbn [k_ev k_re k_m k_r k_v]. destruct (region24 ev re) as [[rate site]|]; [|contradiction]. cont. apply path24_cont.
Qed.
Print Assumptions C103_continuous_in_distance.
Example C103_nonvacuous : dur24_lt (src24 ex24) (src24 (Eq24 Slab "Taiwan" 6.6 80 400)) /\ dur24_lt (src24 ex24i) (src24 (Eq24 Interface "Japan" 7.5 260 300)) /\
  dur24_lt (src24 ex24) (src24 (Eq24 Slab "Taiwan" 6.5 80 200)) /\ (exists y, run24 (fun m => Eq24 Slab "Taiwan" m 80 400) 6 y).
Proof.
  split; [|split; [|split]].
  - apply (C103_grows_with_magnitude _ _ Slab "Taiwan" 6.5 6.6 80 400); try apply src24_gives; try apply ex24_ok; try (split; [discriminate|]; cbn); lra.
  - apply (C103_grows_with_distance _ _ Interface "Japan" 7.5 100 260 300); try apply src24_gives; try apply ex24i_ok; try (split; [discriminate|]; cbn); lra.
  - apply (C103_longer_on_softer_sites _ _ Slab "Taiwan" 6.5 80 400 200); try apply src24_gives; try apply ex24_ok; try (split; [discriminate|]; cbn); lra.
  - eexists. exists (src24 (Eq24 Slab "Taiwan" 6 80 400)). eexists. split; [apply src24_gives|]. split; [apply (pr24_make _ (Eq24 Slab "Taiwan" 6 80 400)); [apply src24_gives|discriminate]|reflexivity].
Qed.

(** ** C104: duration_for_energy *)
Theorem C104_rejects : forall m e, e < 0.10 \/ 0.95 < e -> result (pr24_for_energy m (Fin e)) = Raise EValue.
Proof.
  intros m e H. unfold pr24_for_energy. cbn [fltb]. destruct H as [H|H]; rewrite (Rltb_true _ _ H); [reflexivity|]. rewrite orb_true_r. reflexivity.
Qed.
Print Assumptions C104_rejects.
(** The values belong to the nearest tabulated energy. *)
Theorem C104_nearest_threshold : forall src a m e, eq24_gives src a -> eq24_ok a -> result (pr24 src) = Ok m -> 0.10 <= e <= 0.95 ->
  exists x, In x (rows24 (k_ev a)) /\ (forall y, In y (rows24 (k_ev a)) -> Rabs (Q2R (f_energy x) - e) <= Rabs (Q2R (f_energy y) - e)) /\ Rabs (Q2R (f_energy x) - e) <= 0.025 /\
    let med := ratio24 x a * median24 a in let s := sigma_cond24 x a in
    result (pr24_for_energy m (Fin e)) = Ok (Fin med, Fin (plus24 (n24 (k_ev a)) med s), Fin (minus24 (n24 (k_ev a)) med s)).
Proof.
  intros src a m e G K E H. rewrite (pr24_make src a G (proj1 K)) in E. injection E as <-. rewrite (for_energy_in a _ e K H).
  destruct (amin_spec e) as (N & _). pose proof N as (L & M). exists (row a (amin (Fin e))). split; [apply nth_In; rewrite rows_len; exact L|].
  rewrite (row_thr _ _ L). split; [|split; [apply near_dist; assumption|reflexivity]].
  intros y Hy. destruct (In_nth _ _ pr24_row0 Hy) as (j & Hj & <-). rewrite rows_len in Hj. rewrite (row_thr _ _ Hj). apply M. exact Hj.
Qed.
Print Assumptions C104_nearest_threshold.
(** The tabulated energies are 0.10, 0.15, ..., 0.95. *)
Theorem C104_thresholds : forall ev, map (fun x => Q2R (f_energy x)) (rows24 ev) = map (fun k => 0.10 + 0.05 * INR k) (seq 0 18).
Proof.
  intros ev. apply nth_ext with (d := Q2R (f_energy pr24_row0)) (d' := 0.10 + 0.05 * INR 0); [rewrite !map_length, seq_length; apply rows_len|].
  intros k Hk. rewrite map_length, rows_len in Hk. rewrite (map_nth (fun x => Q2R (f_energy x))), (row_thr ev k Hk).
  rewrite (map_nth (fun k => 0.10 + 0.05 * INR k) _ 0%nat), seq_nth by exact Hk. reflexivity.
Qed.
Print Assumptions C104_thresholds.
Theorem C104_ordered : forall src a m e, eq24_gives src a -> eq24_ok a -> result (pr24 src) = Ok m -> 0.10 <= e <= 0.95 ->
  exists d hi lo, result (pr24_for_energy m (Fin e)) = Ok (Fin d, Fin hi, Fin lo) /\ 0 < lo < d /\ d < hi.
Proof.
  intros src a m e G K E H. rewrite (pr24_make src a G (proj1 K)) in E. injection E as <-. rewrite (for_energy_in a _ e K H). do 3 eexists. split; [reflexivity|].
  destruct (amin_spec e) as ((L & _) & _). destruct (row_ratio a _ K L) as (P & _). pose proof (minus_ok a _ K L) as Q. cbv zeta in *. pose proof (median_low a K).
  assert (0 < ratio24 (row a (amin (Fin e))) a * median24 a) by (apply Rmult_lt_0_compat; lra). pose proof (n_pos (k_ev a)).
  split; [apply minus_lt; lra|apply plus_gt; lra].
Qed.
Print Assumptions C104_ordered.
Theorem C104_same_as_stored_at_75 : forall src a m e, eq24_gives src a -> eq24_ok a -> result (pr24 src) = Ok m -> 0.7251 <= e <= 0.7749 ->
  result (pr24_for_energy m (Fin e)) = Ok (pr24_duration m, pr24_plus m, pr24_minus m).
Proof.
  intros src a m e G K E H. destruct (C103_published src a G K) as (m' & E' & A & B & C & _). rewrite E in E'. injection E' as <-. rewrite A, B, C.
  rewrite (pr24_make src a G (proj1 K)) in E. injection E as <-. rewrite (for_energy_in a _ e K) by lra.
  assert (amin (Fin e) = 13%nat) as ->.
  { destruct (amin_spec e) as (N & _). pose proof (near_dist e _ N ltac:(lra)) as D. apply thr_inj. destruct N as (L & _). set (k := amin (Fin e)) in *. clearbody k.
    apply Rabs_le_between in D. assert (0.70 < thr k < 0.80) as B' by lra. unfold thr in *. assert (12 < k < 14)%nat as Q.
    { split; apply INR_lt; cbn [INR]; lra. }
    replace k with 13%nat by lia. reflexivity. }
  unfold triple24. destruct (row75 a K) as (-> & ->). rewrite Rmult_1_l. reflexivity.
Qed.
Print Assumptions C104_same_as_stored_at_75.
(** More energy, longer duration: never shorter, and strictly longer when the two are more than a table step apart or both in the table. *)
Theorem C104_grows_with_energy : forall src a m e e', eq24_gives src a -> eq24_ok a -> result (pr24 src) = Ok m -> 0.10 <= e -> e <= e' -> e' <= 0.95 ->
  exists d hi lo d' hi' lo', result (pr24_for_energy m (Fin e)) = Ok (Fin d, hi, lo) /\ result (pr24_for_energy m (Fin e')) = Ok (Fin d', hi', lo') /\
    d <= d' /\ (e + 0.05 < e' -> d < d') /\
    (forall j k, (j < k < 18)%nat -> e = 0.10 + 0.05 * INR j -> e' = 0.10 + 0.05 * INR k -> d < d').
Proof.
  intros src a m e e' G K E H H' H''. rewrite (pr24_make src a G (proj1 K)) in E. injection E as <-. rewrite (for_energy_in a _ e K) by lra. rewrite (for_energy_in a _ e' K) by lra.
  unfold triple24. do 6 eexists. split; [reflexivity|]. split; [reflexivity|].
  destruct (amin_spec e) as (N & _). destruct (amin_spec e') as (N' & _). pose proof (median_low a K).
  assert ((amin (Fin e) < amin (Fin e'))%nat -> ratio24 (row a (amin (Fin e))) a * median24 a < ratio24 (row a (amin (Fin e'))) a * median24 a) as LT.
  { intros C. apply Rmult_lt_compat_r; [lra|]. apply ratio_lt; [exact K|exact C|apply N']. }
  assert (amin (Fin e) <= amin (Fin e'))%nat as LE by (destruct H' as [H'| ->]; [apply (near_le e e'); assumption|lia]).
  split; [|split].
  - destruct (Nat.eq_dec (amin (Fin e)) (amin (Fin e'))) as [->|]; [lra|]. left. apply LT. lia.
  - intros Q. apply LT. apply thr_lt. pose proof (near_dist e _ N ltac:(lra)) as D. pose proof (near_dist e' _ N' ltac:(lra)) as D'.
    apply Rabs_le_between in D. apply Rabs_le_between in D'. lra.
  - intros j k Q -> ->. apply LT. fold (thr j) (thr k). rewrite !amin_thr by lia. lia.
Qed.
Print Assumptions C104_grows_with_energy.
Example C104_nonvacuous : exists m, result (pr24 (src24 ex24)) = Ok m /\ result (pr24_for_energy m (Fin 0.96)) = Raise EValue /\
  (exists d hi lo, result (pr24_for_energy m (Fin 0.33)) = Ok (Fin d, Fin hi, Fin lo) /\ 0 < lo < d /\ d < hi).
Proof.
  destruct (C103_published (src24 ex24) ex24 (src24_gives ex24) ex24_ok) as (m & E & _). exists m. split; [exact E|].
  split; [apply C104_rejects; lra|]. apply (C104_ordered (src24 ex24) ex24 m 0.33 (src24_gives ex24) ex24_ok E). lra.
Qed.

(** ** C105: durations by name *)
Definition by_name : list (string * R) :=
  [("D5-10", 0.25); ("D5-20", 0.35); ("D5-30", 0.50); ("D5-40", 0.65); ("D5-50", 0.75); ("D5-60", 0.85); ("D5-70", 0.95); ("D5-75", 1);
   ("D5-80", 1.10); ("D5-85", 1.25); ("D5-90", 1.45); ("D5-95", 1.80)].
Theorem C105_by_name : forall src a m s, eq24_gives src a -> eq24_ok a -> result (pr24 src) = Ok m ->
  (forall f, In (s, f) by_name -> result (pr24_d5x_median m s) = Ok (Fin (f * median24 a))) /\ (~ In s (map fst by_name) -> result (pr24_d5x_median m s) = Raise EValue) /\
  result (pr24_d5x_sigma m s) = Ok (Fin (sigma24 a)).
Proof.
  intros src a m s G K E. destruct (C103_published src a G K) as (m' & E' & _ & _ & _ & A & B). rewrite E in E'. injection E' as <-.
  unfold pr24_d5x_median, pr24_d5x_sigma. rewrite result_bind, A. split; [|split; [|exact B]].
  - intros f I. unfold by_name in I. cbn [In] in I. repeat (destruct I as [I|I]; [injection I as <- <-; cbn [pr24_lookup pr24_scaling String.eqb Ascii.eqb Bool.eqb result ret fmul]; apply (f_equal (fun r => Ok (Fin r))); lra|]). contradiction.
  - intros N. unfold by_name in N. cbn [map fst In] in N. unfold pr24_scaling. cbn [pr24_lookup].
    repeat match goal with |- context [String.eqb s ?t] => destruct (String.eqb_spec s t) as [Z|_]; [exfalso; apply N; rewrite Z; tauto|] end. reflexivity.
Qed.
Print Assumptions C105_by_name.
(** Against [duration_for_energy]: below 75 % the named duration is the longer one in every scenario; at 10 % by a factor above 4. *)
Definition below_75 : list (string * nat) := [("D5-10", 0); ("D5-20", 2); ("D5-30", 4); ("D5-40", 6); ("D5-50", 8); ("D5-60", 10); ("D5-70", 12)]%nat.
Lemma below_range s k : In (s, k) below_75 -> (k < 18 /\ k <= 12)%nat.
Proof. unfold below_75. cbn [In]. intros I. repeat (destruct I as [I|I]; [injection I as _ <-; split; repeat constructor|]). contradiction. Qed.
Theorem C105_names_disagree_violation : forall src a m s k, eq24_gives src a -> eq24_ok a -> result (pr24 src) = Ok m -> In (s, k) below_75 ->
  exists d d' hi lo, result (pr24_d5x_median m s) = Ok (Fin d) /\ result (pr24_for_energy m (Fin (0.10 + 0.05 * INR k))) = Ok (Fin d', hi, lo) /\ d' < d /\ (s = "D5-10" -> 4 * d' < d).
Proof.
  intros src a m s k G K E I. destruct (C105_by_name src a m s G K E) as (N & _ & _). rewrite (pr24_make src a G (proj1 K)) in E. injection E as <-.
  destruct (below_range s k I) as (L & L').
  apply le_INR in L'. replace (INR 12) with 12 in L' by (cbn [INR]; lra).
  pose proof (pos_INR k). fold (thr k). rewrite (for_energy_in a _ (thr k) K) by (unfold thr; lra). rewrite (amin_thr _ L).
  assert (exists f, In (s, f) by_name /\ ratio24 (row a k) a < f /\ (s = "D5-10" -> 4 * ratio24 (row a k) a < f)) as (f & F & R & R4).
  { destruct (ln_range a K) as (B & _). destruct K as (_ & M & D & _). unfold ratio24. generalize dependent (ln (k_v a / 3100)). intros l B. generalize dependent (k_m a). intros mm M. intros. generalize dependent (k_r a). intros r D. intros. clear - I B M D.
    unfold below_75 in I. cbn [In] in I.
    repeat (destruct I as [I|I]; [injection I as <- <-; eexists; split; [unfold by_name; cbn [In]; tauto|];
      destruct (k_ev a); cbn [nth rows24 pr24_interface pr24_slab f_energy f_c_median f_a0 f_m1 f_r1 f_v1]; unfold Q2R; cbn [Qnum Qden]; (split; [lra|intros Z; first [discriminate Z|lra]])|]). contradiction. }
  specialize (N f F). pose proof (median_low a K). unfold triple24. do 4 eexists. split; [exact N|]. split; [reflexivity|].
  split; [apply Rmult_lt_compat_r; lra|]. intros Z. specialize (R4 Z). rewrite <- Rmult_assoc. apply Rmult_lt_compat_r; lra.
Qed.
Print Assumptions C105_names_disagree_violation.
Example C105_nonvacuous : In ("D5-10", 0%nat) below_75 /\ ~ In "D5-15" (map fst by_name).
Proof. split; [left; reflexivity|]. cbn. intuition discriminate. Qed.

(** ** C106: the array function [duration_model] *)
Definition first_of (l : list flt) : option flt := match l with x :: _ => Some x | [] => None end.
Theorem C106_uses_first_elements_only : forall mag rrup vs30 mag' rrup' vs30' region eq_type e,
  first_of mag = first_of mag' -> first_of rrup = first_of rrup' -> first_of vs30 = first_of vs30' ->
  pr24_legacy mag rrup vs30 region eq_type e = pr24_legacy mag' rrup' vs30' region eq_type e.
Proof.
  intros mag rrup vs30 mag' rrup' vs30' region eq_type e H1 H2 H3.
  destruct mag, mag'; try discriminate H1; destruct rrup, rrup'; try discriminate H2; destruct vs30, vs30'; try discriminate H3; try reflexivity.
  injection H1 as <-. injection H2 as <-. injection H3 as <-. reflexivity.
Qed.
Print Assumptions C106_uses_first_elements_only.
Theorem C106_agrees_with_the_class : forall a ms rs vs e, eq24_ok a -> 0.10 <= e <= 0.95 -> exists m d hi lo, result (pr24 (src24 a)) = Ok m /\
  result (pr24_for_energy m (Fin e)) = Ok (d, hi, lo) /\
  result (pr24_legacy (Fin (k_m a) :: ms) (Fin (k_r a) :: rs) (Fin (k_v a) :: vs) (k_re a) (ev_name (k_ev a)) (Fin e)) = Ok ([d], [hi], [lo]).
Proof.
  intros a ms rs vs e K H. pose proof (pr24_make (src24 a) a (src24_gives a) (proj1 K)) as E. eexists. do 3 eexists. split; [exact E|].
  split; [apply (for_energy_in a _ e K H)|]. unfold pr24_legacy. rewrite result_bind. unfold src24 in E. rewrite E.
  destruct (near75_dec e) as [N|N].
  - rewrite (proj2 (P_pr23.isclose75 e) N), bind_ret_l. cbn [pr24_dur]. rewrite (calc_triple a _ K).
    rewrite (proj2 (near75_idx e N)), (proj2 (near75_idx 0.75 P_pr23.near75_refl)). reflexivity.
  - destruct (np_isclose (Fin e) (Fin 0.75)) eqn:I; [apply P_pr23.isclose75 in I; contradiction|]. rewrite result_bind, (for_energy_in a _ e K H). reflexivity.
Qed.
Print Assumptions C106_agrees_with_the_class.
Theorem C106_empty_arrays : forall mag rrup vs30 region eq_type e, mag = [] \/ rrup = [] \/ vs30 = [] -> result (pr24_legacy mag rrup vs30 region eq_type e) = Raise EIndex.
Proof. intros [|] [|] [|] region eq_type e; cbn; try reflexivity. intros [H|[H|H]]; discriminate. Qed.
Print Assumptions C106_empty_arrays.
(** Violation: one result, however many scenarios are passed. *)
Theorem C106_drops_the_rest_violation : forall mag rrup vs30 region eq_type e d hi lo, result (pr24_legacy mag rrup vs30 region eq_type e) = Ok (d, hi, lo) ->
  List.length d = 1%nat /\ List.length hi = 1%nat /\ List.length lo = 1%nat.
Proof.
  intros mag rrup vs30 region eq_type e d hi lo. unfold pr24_legacy. destruct mag, rrup, vs30; try discriminate. rewrite result_bind. destruct (result (pr24 _)) as [m|]; [|discriminate].
  rewrite result_bind. destruct (result _) as [[[x y] z]|]; [|discriminate]. cbn. intros H. injection H as <- <- <-. repeat split.
Qed.
Print Assumptions C106_drops_the_rest_violation.
Example C106_nonvacuous : exists d hi lo, result (pr24_legacy [Fin 6.5; Fin 8] [Fin 80; Fin 10] [Fin 400] "Taiwan" "slab" (Fin 0.4)) = Ok (d, hi, lo).
Proof.
  destruct (C106_agrees_with_the_class ex24 [Fin 8] [Fin 10] [] 0.4 ex24_ok ltac:(lra)) as (m & d & hi & lo & _ & _ & E). exists [d], [hi], [lo]. exact E.
Qed.
