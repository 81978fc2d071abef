(** * Properties of the inter-frequency correlation of Stafford (2017): C53, C100-C102

    Vocabulary: Spec_pjs17.v, and [entry] and [square] of Spec_ba18.v. *)
From Coquelicot Require Import Coquelicot.
From Interval Require Import Tactic.
From Coq Require Import List.
From Verif Require Import M_pjs17 FrameworkProofs Anal GmmLib Spec_ba18 P_ba18 Spec_pjs17 P_pjs17.
Open Scope R_scope.
Open Scope list_scope.

(** ** C53: the covariance and correlation matrices *)
(** Supplied standard deviations, in frequency order. *)
Definition positive (l : list R) : Prop := Forall (fun x => 0 < x) l.
Theorem C53_covariance : forall fs eE eS eA m, positive fs -> List.length eE = List.length fs -> List.length eS = List.length fs -> List.length eA = List.length fs ->
  exists c, pjs17_cov (map Fin fs) (Some (map Fin eE)) (Some (map Fin eS)) (Some (map Fin eA)) (Fin m) = Ok c /\ square (List.length fs) c /\
    forall i j f1 f2 e1 e2 s1 s2 a1 a2, nth_error fs i = Some f1 -> nth_error fs j = Some f2 -> nth_error eE i = Some e1 -> nth_error eE j = Some e2 ->
      nth_error eS i = Some s1 -> nth_error eS j = Some s2 -> nth_error eA i = Some a1 -> nth_error eA j = Some a2 ->
      exists rS rA, rhoS f1 f2 rS /\ rhoA f1 f2 rA /\
        entry c i j = Some (Fin (rhoE (gammaE (Rmin f1 f2 / corner m / corner m)) m f1 f2 * e1 * e2 + rS * s1 * s2 + rA * a1 * a2)).
Proof.
  intros fs eE eS eA m P L1 L2 L3. unfold pjs17_cov. rewrite !map_length, L1, L2, L3, Nat.eqb_refl. cbn [negb orb]. eexists. split; [reflexivity|].
  split; [apply square_mtab|]. intros i j f1 f2 e1 e2 s1 s2 a1 a2 F1 F2 E1 E2 S1 S2 A1 A2.
  destruct (cov_entry fs eE eS eA m i j f1 f2 e1 e2 s1 s2 a1 a2 P L1 L2 L3 F1 F2 E1 E2 S1 S2 A1 A2) as (c & C & _ & En).
  unfold pjs17_cov in C. rewrite !map_length, L1, L2, L3, Nat.eqb_refl in C. cbn [negb orb] in C. injection C as C. rewrite C.
  exists (val gS f1 f2), (val gA f1 f2). split; [apply val_rhoS|]. split; [apply val_rhoA|exact En].
Qed.
Print Assumptions C53_covariance.
Theorem C53_rejects_other_lengths : forall fs eE eS eA m, ~ (List.length eE = List.length fs /\ List.length eS = List.length fs /\ List.length eA = List.length fs) ->
  pjs17_cov fs (Some eE) (Some eS) (Some eA) m = Raise EValue /\ pjs17_cor fs (Some eE) (Some eS) (Some eA) m = Raise EValue.
Proof.
  intros fs eE eS eA m H. assert (pjs17_cov fs (Some eE) (Some eS) (Some eA) m = Raise EValue) as E.
  { unfold pjs17_cov. destruct (Nat.eqb_spec (List.length eE) (List.length fs)), (Nat.eqb_spec (List.length eS) (List.length fs)), (Nat.eqb_spec (List.length eA) (List.length fs)); cbn [negb orb]; try reflexivity. tauto. }
  split; [exact E|]. unfold pjs17_cor. rewrite E. reflexivity.
Qed.
Print Assumptions C53_rejects_other_lengths.
(** VIOLATED: one missing array makes the other two be ignored (whatever their length). *)
Theorem C53_one_missing_discards_all : forall fs e s a m, e = None \/ s = None \/ a = None -> positive fs ->
  pjs17_cov (map Fin fs) e s a (Fin m) =
  pjs17_cov (map Fin fs) (Some (map Fin (map sdE fs))) (Some (map Fin (map sdS fs))) (Some (map Fin (map sdA fs))) (Fin m).
Proof. intros fs e s a m H P. apply cov_default; assumption. Qed.
Print Assumptions C53_one_missing_discards_all.
(** The correlation: unit diagonal, symmetric except for pairs in the one-sided band of np.isclose. *)
Theorem C53_unit_diagonal_symmetric : forall fs eE eS eA m, positive fs -> positive eE -> List.length eE = List.length fs -> List.length eS = List.length fs -> List.length eA = List.length fs ->
  exists r, pjs17_cor (map Fin fs) (Some (map Fin eE)) (Some (map Fin eS)) (Some (map Fin eA)) (Fin m) = Ok r /\ square (List.length fs) r /\
    (forall i, (i < List.length fs)%nat -> entry r i i = Some (Fin 1)) /\
    (forall i j f1 f2, nth_error fs i = Some f1 -> nth_error fs j = Some f2 -> (close f1 f2 <-> close f2 f1) -> entry r i j = entry r j i /\ exists x, entry r i j = Some (Fin x)).
Proof.
  intros fs eE eS eA m P PE L1 L2 L3.
  destruct (C53_covariance fs eE eS eA m P L1 L2 L3) as (c & C & _ & _).
  assert (forall l i, List.length l = List.length fs -> (i < List.length fs)%nat -> exists x : R, nth_error l i = Some x) as G.
  { intros l i L Hi. destruct (nth_error l i) as [x|] eqn:E; [exists x; reflexivity|]. apply nth_error_None in E. lia. }
  assert (forall i j, (i < List.length fs)%nat -> (j < List.length fs)%nat -> exists r f1 f2 x, pjs17_cor (map Fin fs) (Some (map Fin eE)) (Some (map Fin eS)) (Some (map Fin eA)) (Fin m) = Ok r /\ 
    square (List.length fs) r /\ entry r i j = Some (Fin x) /\ nth_error fs i = Some f1 /\ nth_error fs j = Some f2 /\ (i = j -> x = 1) /\ ((close f1 f2 <-> close f2 f1) -> entry r j i = Some (Fin x))) as K.
  { intros i j Hi Hj. destruct (G fs i eq_refl Hi) as (f1 & F1). destruct (G fs j eq_refl Hj) as (f2 & F2). destruct (G eE i L1 Hi) as (e1 & E1). destruct (G eE j L1 Hj) as (e2 & E2).
    destruct (G eS i L2 Hi) as (s1 & S1). destruct (G eS j L2 Hj) as (s2 & S2). destruct (G eA i L3 Hi) as (a1 & A1). destruct (G eA j L3 Hj) as (a2 & A2).
    pose proof P as P'. pose proof PE as PE'. unfold positive in P', PE'. rewrite Forall_forall in P', PE'. pose proof (P' _ (nth_error_In _ _ F1)) as Q1. pose proof (P' _ (nth_error_In _ _ F2)) as Q2.
    pose proof (PE' _ (nth_error_In _ _ E1)) as Q3. pose proof (PE' _ (nth_error_In _ _ E2)) as Q4.
    destruct (cov_entry fs eE eS eA m i j f1 f2 e1 e2 s1 s2 a1 a2 P L1 L2 L3 F1 F2 E1 E2 S1 S2 A1 A2) as (c1 & C1 & _ & N1). rewrite C in C1. injection C1 as <-.
    destruct (cov_entry fs eE eS eA m i i f1 f1 e1 e1 s1 s1 a1 a1 P L1 L2 L3 F1 F1 E1 E1 S1 S1 A1 A1) as (c1 & C1 & _ & N2). rewrite C in C1. injection C1 as <-.
    destruct (cov_entry fs eE eS eA m j j f2 f2 e2 e2 s2 s2 a2 a2 P L1 L2 L3 F2 F2 E2 E2 S2 S2 A2 A2) as (c1 & C1 & _ & N3). rewrite C in C1. injection C1 as <-.
    destruct (cov_entry fs eE eS eA m j i f2 f1 e2 e1 s2 s1 a2 a1 P L1 L2 L3 F2 F1 E2 E1 S2 S1 A2 A1) as (c1 & C1 & _ & N4). rewrite C in C1. injection C1 as <-.
    rewrite cov_diag in N2, N3 by assumption.
    assert (0 < e1 * e1 + s1 * s1 + a1 * a1) as D1 by nra. assert (0 < e2 * e2 + s2 * s2 + a2 * a2) as D2 by nra.
    rewrite <- (map_length Fin) in Hi, Hj.
    destruct (cor_entry _ _ _ _ _ _ i j _ _ _ C Hi Hj N1 N2 N3 D1 D2) as (r & R & Sq & X). rewrite map_length in Sq.
    destruct (cor_entry _ _ _ _ _ _ j i _ _ _ C Hj Hi N4 N3 N2 D2 D1) as (r' & R' & _ & X'). rewrite R in R'. injection R' as <-.
    exists r, f1, f2. eexists. split; [exact R|]. split; [exact Sq|]. split; [exact X|]. split; [exact F1|]. split; [exact F2|]. split.
    - intros <-. rewrite F1 in F2. injection F2 as <-. rewrite E1 in E2. injection E2 as <-. rewrite S1 in S2. injection S2 as <-. rewrite A1 in A2. injection A2 as <-.
      rewrite cov_diag by assumption. rewrite sqrt_sqrt by lra. field. lra.
    - intros B. rewrite X'. apply (f_equal Some), (f_equal Fin). rewrite (Rmult_comm (sqrt _)). apply (f_equal (fun y => y / _)).
      unfold cov_of. rewrite (rhoE_sym _ m f2 f1), (Rmin_comm f2 f1). unfold val. destruct (close_dec f1 f2) as [B1|B1], (close_dec f2 f1) as [B2|B2]; try tauto; rewrite ?(gS_sym f2 f1), ?(gA_sym f2 f1); ring. }
  assert (exists r, pjs17_cor (map Fin fs) (Some (map Fin eE)) (Some (map Fin eS)) (Some (map Fin eA)) (Fin m) = Ok r /\ square (List.length fs) r) as (r & R & Sq).
  { unfold pjs17_cor. rewrite C, map_length. eexists. split; [reflexivity|apply square_mtab]. }
  exists r. split; [exact R|]. split; [exact Sq|]. split.
  - intros i Hi. destruct (K i i Hi Hi) as (r' & f1 & f2 & x & R' & _ & X & _ & _ & One & _). rewrite R in R'. injection R' as <-. rewrite X, (One eq_refl). reflexivity.
  - intros i j f1 f2 F1 F2 B. assert (i < List.length fs)%nat as Hi by (apply nth_error_Some; congruence). assert (j < List.length fs)%nat as Hj by (apply nth_error_Some; congruence).
    destruct (K i j Hi Hj) as (r' & g1 & g2 & x & R' & _ & X & G1 & G2 & _ & Sy). rewrite R in R'. injection R' as <-. rewrite F1 in G1. injection G1 as <-. rewrite F2 in G2. injection G2 as <-.
    rewrite X, (Sy B). split; [reflexivity|exists x; reflexivity].
Qed.
Print Assumptions C53_unit_diagonal_symmetric.
(** VIOLATED in that band: both orders of the same pair, for every frequency. *)
Lemma band f : 0 < f -> let f' := (f + 1 / 10 ^ 8) / (1 - 1 / 10 ^ 5) in f < f' /\ close f f' /\ ~ close f' f /\ f' <= f * (1 + 2 / 10 ^ 5) + 2 / 10 ^ 8.
Proof.
  intros H f'. assert (f' * (1 - 1 / 10 ^ 5) = f + 1 / 10 ^ 8) as E by (unfold f', Rdiv; rewrite Rmult_assoc, Rinv_l; lra).
  assert (f < f') as L by lra. split; [exact L|]. unfold close. rewrite (Rabs_left (f - f')), (Rabs_right (f' - f)), (Rabs_right f'), (Rabs_right f) by lra. lra.
Qed.
Theorem C53_asymmetric_in_the_band : forall f, 0.001 <= f <= 70 -> exists f', f < f' /\
  pjs17_between_site (Fin f) (Fin f') = Fin 1 /\ exists rho, pjs17_between_site (Fin f') (Fin f) = Fin rho /\ rho < 0.025.
Proof.
  intros f H. destruct (band f ltac:(lra)) as (L & C1 & C2 & U). set (f' := (f + 1 / 10 ^ 8) / (1 - 1 / 10 ^ 5)) in *. exists f'. split; [exact L|].
  rewrite !site_fin by lra. unfold val. destruct (close_dec f f') as [_|N]; [|contradiction]. destruct (close_dec f' f) as [N|_]; [contradiction|].
  split; [reflexivity|]. eexists. split; [reflexivity|]. rewrite gS_sym. apply gS_near; lra.
Qed.
Print Assumptions C53_asymmetric_in_the_band.
(** VIOLATED: with the model's own standard deviations correlations exceed 1, for every pair a factor 40 apart. *)
Theorem C53_exceeds_one : forall f1 f2 m, 0.001 <= f1 -> 40 * f1 <= f2 -> f2 <= 50 ->
  exists r x, pjs17_cor [Fin f1; Fin f2] None None None (Fin m) = Ok r /\ entry r 0 1 = Some (Fin x) /\ 1 < x.
Proof.
  intros f1 f2 m H0 H40 H50. assert (positive [f1; f2]) as P by (repeat constructor; lra).
  pose proof (cov_default [f1; f2] m None None None (or_introl eq_refl) P) as D. cbn [map] in D.
  set (A := [sdE f1; sdE f2]) in *. set (B := [sdS f1; sdS f2]) in *. set (Z := [sdA f1; sdA f2]) in *.
  destruct (cov_entry [f1; f2] A B Z m 0 1 f1 f2 _ _ _ _ _ _ P eq_refl eq_refl eq_refl eq_refl eq_refl eq_refl eq_refl eq_refl eq_refl eq_refl eq_refl) as (c & C & _ & N1). cbn [map] in C.
  destruct (cov_entry [f1; f2] A B Z m 0 0 f1 f1 _ _ _ _ _ _ P eq_refl eq_refl eq_refl eq_refl eq_refl eq_refl eq_refl eq_refl eq_refl eq_refl eq_refl) as (c' & C' & _ & N2). cbn [map] in C'. rewrite C in C'. injection C' as <-.
  destruct (cov_entry [f1; f2] A B Z m 1 1 f2 f2 _ _ _ _ _ _ P eq_refl eq_refl eq_refl eq_refl eq_refl eq_refl eq_refl eq_refl eq_refl eq_refl eq_refl) as (c' & C' & _ & N3). cbn [map] in C'. rewrite C in C'. injection C' as <-.
  rewrite cov_diag in N2, N3 by lra. unfold A, B, Z in C. cbn [map] in C. rewrite <- D in C.
  pose proof (sdE_pos f1) as E1. pose proof (sdE_pos f2) as E2. pose proof (sdS_pos f1) as S1. pose proof (sdS_pos f2) as S2. pose proof (sdA_pos f1) as A1. pose proof (sdA_pos f2) as A2.
  assert (forall f, 0 < f <= 50 -> sdA f <= 0.9) as AU.
  { clear. intros f H. unfold sdA. assert (0 <= ln (Rmax f 5 / 5) <= 2.303) as L.
    { assert (5 <= Rmax f 5 <= 50) by (split; [apply Rmax_r|apply Rmax_lub; lra]). split; [apply ln_nonneg; lra|].
      apply Rle_trans with (ln 10); [apply ln_le_mono; lra|clear; interval with (i_prec 40)]. }
    assert (ln (Rmax f 5 / 5) ^ 2 <= 5.304) by nra. lra. }
  pose proof (AU f1 ltac:(lra)) as AU1. pose proof (AU f2 ltac:(lra)) as AU2.
  assert (0 < sdE f1 * sdE f1 + sdS f1 * sdS f1 + sdA f1 * sdA f1 <= 3.8) as D1 by nra.
  assert (0 < sdE f2 * sdE f2 + sdS f2 * sdS f2 + sdA f2 * sdA f2 <= 3.8) as D2 by nra.
  destruct (cor_entry _ _ _ _ _ _ 0 1 _ _ _ C ltac:(cbn; lia) ltac:(cbn; lia) N1 N2 N3 (proj1 D1) (proj1 D2)) as (r & R & _ & X).
  exists r. eexists. split; [exact R|]. split; [exact X|].
  assert (3.9 < cov_of m f1 f2 (sdE f1) (sdE f2) (sdS f1) (sdS f2) (sdA f1) (sdA f2)) as V.
  { unfold cov_of, val. destruct (close_dec f1 f2) as [Cl|_].
    { exfalso. unfold close in Cl. rewrite Rabs_left, Rabs_right in Cl by lra. lra. }
    pose proof (gA_forty f1 f2 ltac:(lra) H40) as GA. destruct (gS_range f1 f2 ltac:(lra) ltac:(lra)) as (GS & _).
    assert (0 < rhoE (gammaE (Rmin f1 f2 / corner m / corner m)) m f1 f2) as RE by apply exp_pos.
    assert (0 < rhoE (gammaE (Rmin f1 f2 / corner m / corner m)) m f1 f2 * sdE f1 * sdE f2) by (apply Rmult_lt_0_compat; [apply Rmult_lt_0_compat|]; lra).
    assert (0 < gS f1 f2 * sdS f1 * sdS f2) by (apply Rmult_lt_0_compat; [apply Rmult_lt_0_compat|]; lra).
    assert (0.52 <= sdA f1 * sdA f2) by nra. assert (7.9 * 0.52 < gA f1 f2 * (sdA f1 * sdA f2)) by nra. lra. }
  pose proof (sqrt_lt_R0 _ (proj1 D1)) as Q1. pose proof (sqrt_lt_R0 _ (proj1 D2)) as Q2.
  assert (sqrt (sdE f1 * sdE f1 + sdS f1 * sdS f1 + sdA f1 * sdA f1) <= 1.95) as U1 by (rewrite <- (sqrt_square 1.95) by lra; apply sqrt_le_1_alt; lra).
  assert (sqrt (sdE f2 * sdE f2 + sdS f2 * sdS f2 + sdA f2 * sdA f2) <= 1.95) as U2 by (rewrite <- (sqrt_square 1.95) by lra; apply sqrt_le_1_alt; lra).
  unfold A, B, Z in *. cbn [nth_error] in *.
  match goal with |- 1 < ?n / (?u * ?v) => assert (0 < u * v <= 3.81) by nra; apply Rmult_lt_reg_r with (u * v); [lra|]; unfold Rdiv; rewrite Rmult_assoc, Rinv_l by lra; lra end.
Qed.
Print Assumptions C53_exceeds_one.
(** VIOLATED: no covariance matrix. With the model's own standard deviations, a frequency list of
    any length with two members a factor 40 apart gets a matrix for which the variance of the
    difference of these two ordinates is negative; it cannot be factored or sampled from. *)
Lemma cov_far f1 f2 m : 0.001 <= f1 -> 40 * f1 <= f2 -> f2 <= 50 ->
  sdE f1 * sdE f1 + sdS f1 * sdS f1 + sdA f1 * sdA f1 <= 3.8 /\ sdE f2 * sdE f2 + sdS f2 * sdS f2 + sdA f2 * sdA f2 <= 3.8 /\
  3.9 < cov_of m f1 f2 (sdE f1) (sdE f2) (sdS f1) (sdS f2) (sdA f1) (sdA f2) /\ 3.9 < cov_of m f2 f1 (sdE f2) (sdE f1) (sdS f2) (sdS f1) (sdA f2) (sdA f1).
Proof.
  intros H0 H40 H50.
  pose proof (sdE_pos f1) as E1. pose proof (sdE_pos f2) as E2. pose proof (sdS_pos f1) as S1. pose proof (sdS_pos f2) as S2. pose proof (sdA_pos f1) as A1. pose proof (sdA_pos f2) as A2.
  assert (forall f, 0 < f <= 50 -> sdA f <= 0.9) as AU.
  { clear. intros f H. unfold sdA. assert (0 <= ln (Rmax f 5 / 5) <= 2.303) as L.
    { assert (5 <= Rmax f 5 <= 50) by (split; [apply Rmax_r|apply Rmax_lub; lra]). split; [apply ln_nonneg; lra|].
      apply Rle_trans with (ln 10); [apply ln_le_mono; lra|clear; interval with (i_prec 40)]. }
    assert (ln (Rmax f 5 / 5) ^ 2 <= 5.304) by nra. lra. }
  pose proof (AU f1 ltac:(lra)) as AU1. pose proof (AU f2 ltac:(lra)) as AU2.
  split; [nra|]. split; [nra|].
  pose proof (gA_forty f1 f2 ltac:(lra) H40) as GA. destruct (gS_range f1 f2 ltac:(lra) ltac:(lra)) as (GS & _).
  assert (0 < rhoE (gammaE (Rmin f1 f2 / corner m / corner m)) m f1 f2) as RE by apply exp_pos.
  assert (0 < rhoE (gammaE (Rmin f1 f2 / corner m / corner m)) m f1 f2 * sdE f1 * sdE f2) by (apply Rmult_lt_0_compat; [apply Rmult_lt_0_compat|]; lra).
  assert (0 < gS f1 f2 * sdS f1 * sdS f2) by (apply Rmult_lt_0_compat; [apply Rmult_lt_0_compat|]; lra).
  assert (0.52 <= sdA f1 * sdA f2) by nra. assert (7.9 * 0.52 < gA f1 f2 * (sdA f1 * sdA f2)) by nra.
  unfold cov_of, val. destruct (close_dec f1 f2) as [Cl|_].
  { exfalso. unfold close in Cl. rewrite Rabs_left, Rabs_right in Cl by lra. lra. }
  destruct (close_dec f2 f1) as [Cl|_].
  { exfalso. unfold close in Cl. rewrite (Rabs_right (f2 - f1)), (Rabs_right f1) in Cl by lra. lra. }
  rewrite (gA_sym f2 f1), (gS_sym f2 f1), (rhoE_sym _ m f2 f1), (Rmin_comm f2 f1). split; lra.
Qed.
Theorem C53_not_a_covariance : forall fs m i j f1 f2, positive fs -> nth_error fs i = Some f1 -> nth_error fs j = Some f2 ->
  0.001 <= f1 -> 40 * f1 <= f2 -> f2 <= 50 ->
  exists c v1 v2 c12 c21, pjs17_cov (map Fin fs) None None None (Fin m) = Ok c /\
    entry c i i = Some (Fin v1) /\ entry c j j = Some (Fin v2) /\ entry c i j = Some (Fin c12) /\ entry c j i = Some (Fin c21) /\
    v1 + v2 - c12 - c21 < 0.
Proof.
  intros fs m i j f1 f2 P F1 F2 H0 H40 H50.
  pose proof (cov_default fs m None None None (or_introl eq_refl) P) as D.
  assert (N : forall g k f, nth_error fs k = Some f -> nth_error (map g fs) k = Some (g f : R)) by (intros g k f E; rewrite nth_error_map, E; reflexivity).
  assert (L : forall g : R -> R, List.length (map g fs) = List.length fs) by (intros; apply map_length).
  assert (K : forall k l x y, nth_error fs k = Some x -> nth_error fs l = Some y ->
    exists c, pjs17_cov (map Fin fs) None None None (Fin m) = Ok c /\ entry c k l = Some (Fin (cov_of m x y (sdE x) (sdE y) (sdS x) (sdS y) (sdA x) (sdA y)))).
  { intros k l x y Hx Hy. rewrite D.
    destruct (cov_entry fs (map sdE fs) (map sdS fs) (map sdA fs) m k l x y _ _ _ _ _ _ P (L sdE) (L sdS) (L sdA) Hx Hy (N sdE _ _ Hx) (N sdE _ _ Hy) (N sdS _ _ Hx) (N sdS _ _ Hy) (N sdA _ _ Hx) (N sdA _ _ Hy)) as (c & C & _ & E).
    exists c. split; [exact C|exact E]. }
  destruct (K i i _ _ F1 F1) as (c & C & E1). destruct (K j j _ _ F2 F2) as (c' & C' & E2). rewrite C in C'. injection C' as <-.
  destruct (K i j _ _ F1 F2) as (c' & C' & E3). rewrite C in C'. injection C' as <-. destruct (K j i _ _ F2 F1) as (c' & C' & E4). rewrite C in C'. injection C' as <-.
  rewrite cov_diag in E1, E2 by lra. destruct (cov_far f1 f2 m H0 H40 H50) as (B1 & B2 & B3 & B4).
  do 5 eexists. split; [exact C|]. split; [exact E1|]. split; [exact E2|]. split; [exact E3|]. split; [exact E4|]. lra.
Qed.
Print Assumptions C53_not_a_covariance.
Example C53_nonvacuous_negative_variance : exists c v1 v2 c12 c21, pjs17_cov (map Fin [0.1; 1; 10]) None None None (Fin 6) = Ok c /\
    entry c 0 0 = Some (Fin v1) /\ entry c 2 2 = Some (Fin v2) /\ entry c 0 2 = Some (Fin c12) /\ entry c 2 0 = Some (Fin c21) /\ v1 + v2 - c12 - c21 < 0.
Proof. apply (C53_not_a_covariance [0.1; 1; 10] 6 0 2 0.1 10); try lra; [repeat constructor; lra|reflexivity..]. Qed.
Example C53_nonvacuous : exists c, pjs17_cov [Fin 1; Fin 3] (Some [Fin 0.5; Fin 0.6]) (Some [Fin 0.4; Fin 0.4]) (Some [Fin 0.7; Fin 0.7]) (Fin 6) = Ok c /\ entry c 0 0 = Some (Fin 0.9).
Proof.
  assert (positive [1; 3]) as P by (repeat constructor; lra).
  destruct (C53_covariance [1; 3] [0.5; 0.6] [0.4; 0.4] [0.7; 0.7] 6 P eq_refl eq_refl eq_refl) as (c & C & _ & N). exists c. split; [exact C|].
  destruct (N 0%nat 0%nat _ _ _ _ _ _ _ _ eq_refl eq_refl eq_refl eq_refl eq_refl eq_refl eq_refl eq_refl) as (rS & rA & (S & _) & (A & _) & E).
  rewrite E, (S (close_refl 1)), (A (close_refl 1)), rhoE_refl by lra. do 2 f_equal. lra.
Qed.
Example C53_nonvacuous_over : exists r x, pjs17_cor [Fin 0.1; Fin 20] None None None (Fin 6) = Ok r /\ entry r 0 1 = Some (Fin x) /\ 1 < x.
Proof. apply C53_exceeds_one; lra. Qed.

(** ** C100: between-event correlation *)
Theorem C100_range : forall f1 f2 m, 0 < f1 -> f1 < f2 -> f1 <= 10 ^ 6 -> m <= 10 ->
  exists rho, pjs17_between_event (Fin f1) (Fin f2) (Fin m) = Fin rho /\ pjs17_between_event (Fin f2) (Fin f1) (Fin m) = Fin rho /\ 0 < rho < 1.
Proof.
  intros f1 f2 m H0 H H6 Hm. rewrite !between_event_fin by lra. eexists. split; [reflexivity|]. rewrite (rhoE_sym _ m f2 f1), (Rmin_comm f2 f1). split; [reflexivity|].
  rewrite Rmin_left by lra. apply rhoE_range; [|lra..]. destruct (norm_range f1 m ltac:(lra) Hm). apply gammaE_neg; assumption.
Qed.
Print Assumptions C100_range.
Theorem C100_same_frequency : forall f m, 0 < f -> pjs17_between_event (Fin f) (Fin f) (Fin m) = Fin 1.
Proof. intros f m H. rewrite between_event_fin, rhoE_refl by exact H. reflexivity. Qed.
Print Assumptions C100_same_frequency.
Theorem C100_falls_with_separation : forall f1 f2 f3 m, 0 < f1 -> f1 <= f2 -> f2 < f3 -> f1 <= 10 ^ 6 -> m <= 10 ->
  exists a b, pjs17_between_event (Fin f1) (Fin f2) (Fin m) = Fin a /\ pjs17_between_event (Fin f1) (Fin f3) (Fin m) = Fin b /\ b < a.
Proof.
  intros f1 f2 f3 m H0 H12 H23 H6 Hm. rewrite !between_event_fin by lra. do 2 eexists. split; [reflexivity|]. split; [reflexivity|].
  rewrite !Rmin_left by lra. apply rhoE_decr; [|lra..]. destruct (norm_range f1 m ltac:(lra) Hm). apply gammaE_neg; assumption.
Qed.
Print Assumptions C100_falls_with_separation.
(** VIOLATED: the published value has the decay rate at the frequency over the corner frequency; the code divides twice. *)
Theorem C100_divided_twice : forall f1 f2 m, 0 < f1 -> f1 < f2 ->
  exists rho, pjs17_between_event (Fin f1) (Fin f2) (Fin m) = Fin rho /\
    (2.181 < 0.496 * m -> rhoE (gammaE (f1 / corner m)) m f1 f2 < rho) /\ (0.496 * m < 2.181 -> rho < rhoE (gammaE (f1 / corner m)) m f1 f2).
Proof.
  intros f1 f2 m H0 H. rewrite between_event_fin by lra. eexists. split; [reflexivity|]. rewrite Rmin_left by lra. pose proof (corner_pos m) as C. destruct (corner_one m) as (C1 & C2).
  assert (0 < f1 / corner m) as P by (apply Rdiv_lt_0_compat; lra). assert (f1 / corner m / corner m * corner m = f1 / corner m) as E by (unfold Rdiv; rewrite Rmult_assoc, Rinv_l; lra).
  assert (0 < f1 / corner m / corner m) as P2 by (apply Rdiv_lt_0_compat; lra).
  split; intros Hm; apply rhoE_gamma; try lra; apply gammaE_incr; try assumption; [specialize (C1 Hm)|specialize (C2 Hm)]; nra.
Qed.
Print Assumptions C100_divided_twice.
Example C100_nonvacuous : exists rho, pjs17_between_event (Fin 1) (Fin 3) (Fin 6) = Fin rho /\ 0 < rho < 1 /\ rhoE (gammaE (1 / corner 6)) 6 1 3 < rho.
Proof.
  destruct (C100_range 1 3 6) as (rho & A & _ & B); try lra. exists rho. split; [exact A|]. split; [exact B|].
  destruct (C100_divided_twice 1 3 6) as (rho' & A' & C & _); try lra. rewrite A in A'. injection A' as <-. apply C. lra.
Qed.

(** ** C101: between-site correlation *)
Theorem C101_published : forall f1 f2, 0 < f1 -> 0 < f2 -> exists rho, pjs17_between_site (Fin f1) (Fin f2) = Fin rho /\ rhoS f1 f2 rho.
Proof. intros f1 f2 H1 H2. rewrite site_fin by assumption. eexists. split; [reflexivity|apply val_rhoS]. Qed.
Print Assumptions C101_published.
Theorem C101_range : forall f1 f2, 0 < f1 -> 0 < f2 -> Rmin f1 f2 <= 70 ->
  exists rho, pjs17_between_site (Fin f1) (Fin f2) = Fin rho /\ 0 < rho <= 1 /\ (~ close f1 f2 -> rho < 1).
Proof.
  intros f1 f2 H1 H2 H70. rewrite site_fin by assumption. eexists. split; [reflexivity|]. unfold val. destruct (close_dec f1 f2) as [C|C]; [split; [lra|contradiction]|].
  assert (0 < gS f1 f2 < 1) as G; [|split; [lra|intros; lra]].
  destruct (Rtotal_order f1 f2) as [L|[->|L]]; [|exfalso; apply C, close_refl|rewrite gS_sym]; apply gS_range; try lra.
  - rewrite Rmin_left in H70 by lra. lra.
  - rewrite Rmin_right in H70 by lra. lra.
Qed.
Print Assumptions C101_range.
(** VIOLATED: correlation vanishes, instead of tending to 1, when the two frequencies approach each other. *)
Theorem C101_nearby_uncorrelated : forall f1 f2, 0 < f1 <= 70 -> f1 < f2 -> f2 <= 1.0005 * f1 -> ~ close f1 f2 ->
  exists rho, pjs17_between_site (Fin f1) (Fin f2) = Fin rho /\ rho < 0.025 /\ pjs17_between_site (Fin f1) (Fin f1) = Fin 1.
Proof.
  intros f1 f2 H1 H2 H3 C. rewrite !site_fin by lra. eexists. split; [reflexivity|]. unfold val. destruct (close_dec f1 f2); [contradiction|].
  destruct (close_dec f1 f1) as [_|N]; [|exfalso; apply N, close_refl]. split; [apply gS_near; assumption|reflexivity].
Qed.
Print Assumptions C101_nearby_uncorrelated.
Example C101_nonvacuous : exists rho, pjs17_between_site (Fin 2) (Fin 2.001) = Fin rho /\ rho < 0.025.
Proof.
  destruct (C101_nearby_uncorrelated 2 2.001) as (rho & A & B & _); try lra; [|exists rho; split; assumption].
  unfold close. rewrite Rabs_left, Rabs_right by lra. lra.
Qed.

(** ** C102: within-event correlation *)
Theorem C102_published : forall f1 f2, 0 < f1 -> 0 < f2 -> exists rho, pjs17_within_event (Fin f1) (Fin f2) = Fin rho /\ rhoA f1 f2 rho.
Proof. intros f1 f2 H1 H2. rewrite within_fin by assumption. eexists. split; [reflexivity|apply val_rhoA]. Qed.
Print Assumptions C102_published.
(** VIOLATED: not a correlation; above 1 for every pair a factor 5 apart, and growing with the separation. *)
Theorem C102_exceeds_one : forall f1 f2, 0.001 <= f1 <= 10 -> 5 * f1 <= f2 -> exists rho, pjs17_within_event (Fin f1) (Fin f2) = Fin rho /\ 1 < rho.
Proof.
  intros f1 f2 H1 H2. rewrite within_fin by lra. eexists. split; [reflexivity|]. unfold val. destruct (close_dec f1 f2) as [C|_]; [|apply gA_over_one; lra].
  exfalso. unfold close in C. rewrite Rabs_left, Rabs_right in C by lra. lra.
Qed.
Print Assumptions C102_exceeds_one.
Theorem C102_grows_with_separation : forall f1 f2 f3, 0 < f1 <= 10 -> f1 < f2 -> f2 < f3 -> ~ close f1 f2 -> ~ close f1 f3 ->
  exists a b, pjs17_within_event (Fin f1) (Fin f2) = Fin a /\ pjs17_within_event (Fin f1) (Fin f3) = Fin b /\ 0 < a < b.
Proof.
  intros f1 f2 f3 H H12 H23 C2 C3. rewrite !within_fin by lra. do 2 eexists. split; [reflexivity|]. split; [reflexivity|].
  unfold val. destruct (close_dec f1 f2); [contradiction|]. destruct (close_dec f1 f3); [contradiction|]. apply gA_grows; assumption.
Qed.
Print Assumptions C102_grows_with_separation.
Example C102_nonvacuous : exists a b, pjs17_within_event (Fin 1) (Fin 6) = Fin a /\ pjs17_within_event (Fin 1) (Fin 10) = Fin b /\ 1 < a < b.
Proof.
  assert (forall f, 2 <= f -> ~ close 1 f) as N by (intros f Hf; unfold close; rewrite Rabs_left, Rabs_right by lra; lra).
  destruct (C102_grows_with_separation 1 6 10) as (a & b & A & B & L); try lra; try (apply N; lra). exists a, b. split; [exact A|]. split; [exact B|].
  destruct (C102_exceeds_one 1 6) as (a' & A' & G); try lra. rewrite A in A'. injection A' as <-. lra.
Qed.
