(** * Proofs for Pezeshk, Zandieh & Tavakoli (2011) *)
From Coquelicot Require Import Coquelicot.
From Interval Require Import Tactic.
From Coq Require Import List.
From Verif Require Import M_pzt11 FrameworkProofs Anal.
Open Scope R_scope.
Open Scope string_scope.
Open Scope list_scope.

Definition pzt11_inst (m r : R) : gmm :=
  GMM pzt11_class (Scen [("mag", PNum (Fin m)); ("dist_rup", PNum (Fin r))] [])
    (map (fun c => pzt11_ln_resp c (Fin m) (Fin r)) pzt11_coeff)
    (Some (map (fun c => pzt11_ln_std c (Fin m)) pzt11_coeff)).
Lemma pzt11_construct src m r : has_num src "mag" m -> has_num src "dist_rup" r ->
  result (pzt11 src) = Ok (pzt11_inst m r).
Proof. intros Hm Hr. unfold pzt11. construct pzt11_class. read_nums. reflexivity. Qed.

Section Row.
  Variable c : pzt11_row.
  Local Notation k1 := (Q2R (pzt11_c_1 c)). Local Notation k2 := (Q2R (pzt11_c_2 c)).
  Local Notation k3 := (Q2R (pzt11_c_3 c)). Local Notation k4 := (Q2R (pzt11_c_4 c)).
  Local Notation k5 := (Q2R (pzt11_c_5 c)). Local Notation k6 := (Q2R (pzt11_c_6 c)).
  Local Notation k7 := (Q2R (pzt11_c_7 c)). Local Notation k8 := (Q2R (pzt11_c_8 c)).
  Local Notation k9 := (Q2R (pzt11_c_9 c)). Local Notation k10 := (Q2R (pzt11_c_10 c)).
  Local Notation k11 := (Q2R (pzt11_c_11 c)).

  Definition pzt11_dist (r : R) : R := sqrt (r * r + k11 * k11).
  (** distance part of log10 of the response *)
  Definition pzt11_geo (m d : R) : R :=
    (k4 + k5 * m) * Rmin (ln d / ln 10) (ln 70 / ln 10)
    + (k6 + k7 * m) * Rmax (Rmin (ln (d / 70) / ln 10) (ln (140 / 70) / ln 10)) 0
    + (k8 + k9 * m) * Rmax (ln (d / 140) / ln 10) 0
    + k10 * d.

  Lemma pzt11_dist_pos r : 0 < k11 -> 0 < pzt11_dist r.
  Proof. intros H. apply sqrt_lt_R0. nra. Qed.

  Lemma pzt11_row_fin m r : 0 < k11 ->
    pzt11_ln_resp c (Fin m) (Fin r) =
    Fin (ln 10 * (k1 + k2 * m + k3 * (m * m) + pzt11_geo m (pzt11_dist r))).
  Proof.
    intros H. pose proof (pzt11_dist_pos r H) as Hd. unfold pzt11_ln_resp, pow10. fcbn.
    rewrite fsqrt_fin by nra. fold (pzt11_dist r).
    rewrite !fdiv_fin by lra.
    rewrite (flog10_fin (pzt11_dist r)) by lra. rewrite (flog10_fin 70) by lra.
    rewrite (flog10_fin (pzt11_dist r / 70)) by (apply Rdiv_lt_0_compat; lra).
    rewrite (flog10_fin (pzt11_dist r / 140)) by (apply Rdiv_lt_0_compat; lra).
    rewrite (flog10_fin (140 / 70)) by lra. fcbn.
    rewrite flog_fin by apply exp_pos. rewrite ln_exp. f_equal. unfold pzt11_geo. ring.
  Qed.

  Lemma pzt11_dist_mono r1 r2 : 0 <= r1 -> r1 < r2 -> pzt11_dist r1 < pzt11_dist r2.
  Proof. intros H1 H2. apply sqrt_lt_1; nra. Qed.

  (** below 70 km and above 140 km (effective distance) *)
  Lemma pzt11_near m d1 d2 : k4 + k5 * m < 0 -> k10 < 0 -> 0 < d1 -> d1 < d2 -> d2 <= 70 ->
    pzt11_geo m d2 < pzt11_geo m d1.
  Proof.
    intros H4 H10 Hd H12 H70. unfold pzt11_geo. pose proof ln10_pos as HL.
    assert (Z : forall d, 0 < d -> d <= 70 -> Rmin (ln d / ln 10) (ln 70 / ln 10) = ln d / ln 10
              /\ Rmax (Rmin (ln (d / 70) / ln 10) (ln (140 / 70) / ln 10)) 0 = 0
              /\ Rmax (ln (d / 140) / ln 10) 0 = 0).
    { intros d Hd0 Hd70. assert (ln d <= ln 70) by (apply ln_le_mono; lra).
      assert (A : ln (d/70) <= 0) by (apply ln_nonpos; split; [apply Rdiv_lt_0_compat|]; lra).
      assert (B : ln (d/140) <= 0) by (apply ln_nonpos; split; [apply Rdiv_lt_0_compat|]; lra).
      assert (I : 0 < / ln 10) by (apply Rinv_0_lt_compat; exact HL).
      split; [apply Rmin_left; unfold Rdiv; nra|]. split.
      - apply Rmax_right. eapply Rle_trans; [apply Rmin_l|]. unfold Rdiv; nra.
      - apply Rmax_right. unfold Rdiv; nra. }
    destruct (Z d1) as (-> & -> & ->); [lra|lra|]. destruct (Z d2) as (-> & -> & ->); [lra|lra|].
    assert (ln d1 < ln d2) by (apply ln_increasing; lra).
    assert (ln d1 / ln 10 < ln d2 / ln 10) by (apply Rmult_lt_compat_r; [apply Rinv_0_lt_compat|]; lra).
    nra.
  Qed.
  Lemma pzt11_far m d1 d2 : k8 + k9 * m < 0 -> k10 < 0 -> 140 <= d1 -> d1 < d2 ->
    pzt11_geo m d2 < pzt11_geo m d1.
  Proof.
    intros H8 H10 Hd H12. unfold pzt11_geo. pose proof ln10_pos as HL.
    assert (I : 0 < / ln 10) by (apply Rinv_0_lt_compat; exact HL).
    assert (Z : forall d, 140 <= d -> Rmin (ln d / ln 10) (ln 70 / ln 10) = ln 70 / ln 10
              /\ Rmax (Rmin (ln (d / 70) / ln 10) (ln (140 / 70) / ln 10)) 0 = ln (140/70) / ln 10
              /\ Rmax (ln (d / 140) / ln 10) 0 = ln (d / 140) / ln 10).
    { intros d Hd1. assert (ln 70 <= ln d) by (apply ln_le_mono; lra).
      assert (A : ln (140/70) <= ln (d/70)) by (apply ln_le_mono; lra).
      assert (A' : 0 < ln (140/70)) by (apply ln_pos_lt; lra).
      assert (B : 0 <= ln (d/140)) by (apply ln_nonneg; lra).
      split; [apply Rmin_right; unfold Rdiv; nra|]. split.
      - rewrite Rmin_right by (unfold Rdiv; apply Rmult_le_compat_r; [lra|exact A]). apply Rmax_left.
        apply Rmult_le_pos; lra.
      - apply Rmax_left. apply Rmult_le_pos; lra. }
    destruct (Z d1) as (-> & -> & ->); [lra|]. destruct (Z d2) as (-> & -> & ->); [lra|].
    assert (ln (d1/140) < ln (d2/140)) by (apply ln_increasing; [apply Rdiv_lt_0_compat|]; lra).
    assert (ln (d1/140) / ln 10 < ln (d2/140) / ln 10) by (apply Rmult_lt_compat_r; lra).
    nra.
  Qed.
End Row.

Lemma pzt11_k11 c : In c pzt11_coeff -> 0 < Q2R (pzt11_c_11 c) < 7.5.
Proof.
  intros Hin. row_lt Hin (fun _ : pzt11_row => 0 # 1) (fun c => pzt11_c_11 c) as H1.
  row_lt Hin (fun c => pzt11_c_11 c) (fun _ : pzt11_row => 75 # 10) as H2. split; lra.
Qed.
Lemma pzt11_row_finite c m r : In c pzt11_coeff -> finite (pzt11_ln_resp c (Fin m) (Fin r)).
Proof. intros Hin. rewrite pzt11_row_fin by apply (pzt11_k11 c Hin). apply finite_fin. Qed.
Lemma pzt11_std_pos c m : In c pzt11_coeff -> fpos (pzt11_ln_std c (Fin m)).
Proof.
  intros Hin. row_lt Hin (fun _ : pzt11_row => 0 # 1) (fun c => pzt11_sigma_reg c) as H1.
  assert (H1' : 0 < Q2R (pzt11_sigma_reg c)) by lra.
  unfold pzt11_ln_std. fcbn.
  destruct (Rleb_spec m 7.0); fcbn; (rewrite fsqrt_fin by (left; apply sq2_pos; exact H1')); eexists; (split; [reflexivity|]);
    apply sqrt_lt_R0, sq2_pos, H1'.
Qed.

Lemma pzt11_accessors src m r : has_num src "mag" m -> has_num src "dist_rup" r ->
  exists g, result (pzt11 src) = Ok g /\
    result (g_spec_accels g) = Ok (map (fun c => fexp (pzt11_ln_resp c (Fin m) (Fin r))) (tl pzt11_coeff)) /\
    result (g_pga g) = Ok (fexp (pzt11_ln_resp (hd (Mk_pzt11_row 0 0 0 0 0 0 0 0 0 0 0 0 0 0 0 0) pzt11_coeff) (Fin m) (Fin r))) /\
    result (g_ln_stds g) = Ok (map (fun c => pzt11_ln_std c (Fin m)) (tl pzt11_coeff)) /\
    result (g_pgv g) = Raise ENotImpl /\ result (g_pgd g) = Raise ENotImpl.
Proof.
  intros Hm Hr. exists (pzt11_inst m r). split; [apply pzt11_construct; assumption|].
  split; [apply (spec_accels_map pzt11_class _ (fun c => pzt11_ln_resp c (Fin m) (Fin r))); reflexivity|].
  split; [apply (pga_map pzt11_class _ (fun c => pzt11_ln_resp c (Fin m) (Fin r))) with (i := 0%Z); reflexivity|].
  split; [apply ln_stds_map; reflexivity|]. split; reflexivity.
Qed.
Lemma pzt11_tl c : In c (tl pzt11_coeff) -> In c pzt11_coeff.
Proof. intros H; right; exact H. Qed.

Lemma pzt11_finite src m r : has_num src "mag" m -> has_num src "dist_rup" r ->
  exists g sa pga sd, result (pzt11 src) = Ok g /\
    result (g_spec_accels g) = Ok sa /\ List.length sa = 22%nat /\ Forall fpos sa /\
    result (g_pga g) = Ok pga /\ fpos pga /\
    result (g_ln_stds g) = Ok sd /\ List.length sd = 22%nat /\ Forall fpos sd.
Proof.
  intros Hm Hr. destruct (pzt11_accessors src m r Hm Hr) as (g & Hg & Hsa & Hp & Hsd & _).
  exists g. do 3 eexists. split; [exact Hg|]. split; [exact Hsa|]. split; [reflexivity|].
  split; [apply Forall_map_intro; intros c Hc; apply fpos_exp, pzt11_row_finite; apply pzt11_tl, Hc|].
  split; [exact Hp|]. split; [apply fpos_exp, pzt11_row_finite; left; reflexivity|].
  split; [exact Hsd|]. split; [reflexivity|].
  apply Forall_map_intro; intros c Hc; apply pzt11_std_pos, pzt11_tl, Hc.
Qed.

Lemma pzt11_row_decr c m r1 r2 : In c pzt11_coeff -> 4 <= m <= 9 -> 0 <= r1 -> r1 < r2 ->
  r2 <= 69.5 \/ 140 <= r1 ->
  flt_lt (pzt11_ln_resp c (Fin m) (Fin r2)) (pzt11_ln_resp c (Fin m) (Fin r1)).
Proof.
  intros Hin Hm H1 H12 Hreg.
  destruct (pzt11_k11 c Hin) as [K1 K2].
  row_lt Hin (fun c => pzt11_c_4 c + pzt11_c_5 c * (4#1))%Q (fun _ : pzt11_row => 0 # 1) as A1.
  row_lt Hin (fun c => pzt11_c_4 c + pzt11_c_5 c * (9#1))%Q (fun _ : pzt11_row => 0 # 1) as A2.
  row_lt Hin (fun c => pzt11_c_8 c + pzt11_c_9 c * (4#1))%Q (fun _ : pzt11_row => 0 # 1) as B1.
  row_lt Hin (fun c => pzt11_c_8 c + pzt11_c_9 c * (9#1))%Q (fun _ : pzt11_row => 0 # 1) as B2.
  row_lt Hin (fun c => pzt11_c_10 c) (fun _ : pzt11_row => 0 # 1) as H10.
  rewrite !pzt11_row_fin by lra. apply flt_lt_fin.
  pose proof (pzt11_dist_mono c r1 r2 H1 H12) as HD.
  pose proof (pzt11_dist_pos c r1 K1) as HP.
  assert (G : pzt11_geo c m (pzt11_dist c r2) < pzt11_geo c m (pzt11_dist c r1)).
  { destruct Hreg as [Hr|Hr].
    - apply pzt11_near; try lra; [apply (lin_neg _ _ 4 9); lra|].
      unfold pzt11_dist. rewrite <- (sqrt_square 70) by lra. apply sqrt_le_1; nra.
    - apply pzt11_far; try lra; [apply (lin_neg _ _ 4 9); lra|].
      unfold pzt11_dist. rewrite <- (sqrt_square 140) by lra. apply sqrt_le_1; nra. }
  pose proof ln10_pos. nra.
Qed.

Lemma pzt11_decreasing src1 src2 m r1 r2 :
  has_num src1 "mag" m -> has_num src1 "dist_rup" r1 ->
  has_num src2 "mag" m -> has_num src2 "dist_rup" r2 ->
  4 <= m <= 9 -> 0 <= r1 -> r1 < r2 -> r2 <= 69.5 \/ 140 <= r1 ->
  exists g1 g2 sa1 sa2 p1 p2, result (pzt11 src1) = Ok g1 /\ result (pzt11 src2) = Ok g2 /\
    result (g_spec_accels g1) = Ok sa1 /\ result (g_spec_accels g2) = Ok sa2 /\
    Forall2 flt_lt sa2 sa1 /\
    result (g_pga g1) = Ok p1 /\ result (g_pga g2) = Ok p2 /\ flt_lt p2 p1.
Proof.
  intros Hm1 Hr1 Hm2 Hr2 Hm H1 H12 Hreg.
  destruct (pzt11_accessors src1 m r1 Hm1 Hr1) as (g1 & G1 & S1 & P1 & _).
  destruct (pzt11_accessors src2 m r2 Hm2 Hr2) as (g2 & G2 & S2 & P2 & _).
  exists g1, g2. do 4 eexists. split; [exact G1|]. split; [exact G2|]. split; [exact S1|]. split; [exact S2|].
  split; [apply Forall2_map_intro; intros c Hc; apply flt_lt_exp, pzt11_row_decr; try assumption; apply pzt11_tl, Hc|].
  split; [exact P1|]. split; [exact P2|]. apply flt_lt_exp, pzt11_row_decr; try assumption. left; reflexivity.
Qed.

Lemma pzt11_mid c m d : 70 <= d <= 140 ->
  pzt11_geo c m d = (Q2R (pzt11_c_4 c) + Q2R (pzt11_c_5 c) * m) * (ln 70 / ln 10)
    + (Q2R (pzt11_c_6 c) + Q2R (pzt11_c_7 c) * m) * (ln (d / 70) / ln 10) + Q2R (pzt11_c_10 c) * d.
Proof.
  intros Hd. unfold pzt11_geo. pose proof ln10_pos as HL.
  assert (I : 0 < / ln 10) by (apply Rinv_0_lt_compat; exact HL).
  assert (ln 70 <= ln d) by (apply ln_le_mono; lra).
  assert (A : ln (d/70) <= ln (140/70)) by (apply ln_le_mono; lra).
  assert (A' : 0 <= ln (d/70)) by (apply ln_nonneg; lra).
  assert (B : ln (d/140) <= 0) by (apply ln_nonpos; lra).
  rewrite (Rmin_right (ln d / ln 10)) by (unfold Rdiv; nra).
  rewrite (Rmin_left (ln (d/70) / ln 10)) by (unfold Rdiv; apply Rmult_le_compat_r; lra).
  rewrite (Rmax_left (ln (d/70) / ln 10)) by (apply Rmult_le_pos; lra).
  rewrite (Rmax_right (ln (d/140) / ln 10)) by (unfold Rdiv; nra). ring.
Qed.
Lemma pzt11_dist_bounds c r : In c pzt11_coeff -> 75 <= r <= 139 -> 70 <= pzt11_dist c r <= 140.
Proof.
  intros Hin Hr. destruct (pzt11_k11 c Hin) as [K1 K2]. unfold pzt11_dist.
  rewrite <- (sqrt_square 70), <- (sqrt_square 140) by lra. split; apply sqrt_le_1; nra.
Qed.
Lemma pzt11_row_bounce c m : In c pzt11_coeff -> 5 <= m <= 8 ->
  let d1 := pzt11_dist c 75 in let d2 := pzt11_dist c 139 in
  (0 < (Q2R (pzt11_c_6 c) + Q2R (pzt11_c_7 c) * 5) * (ln (d2 / d1) / ln 10) + Q2R (pzt11_c_10 c) * (d2 - d1)) /\
  (0 < (Q2R (pzt11_c_6 c) + Q2R (pzt11_c_7 c) * 8) * (ln (d2 / d1) / ln 10) + Q2R (pzt11_c_10 c) * (d2 - d1)) ->
  flt_lt (pzt11_ln_resp c (Fin m) (Fin 75)) (pzt11_ln_resp c (Fin m) (Fin 139)).
Proof.
  intros Hin Hm d1 d2 (H5 & H8).
  pose proof (pzt11_dist_bounds c 75 Hin ltac:(lra)) as B1. pose proof (pzt11_dist_bounds c 139 Hin ltac:(lra)) as B2.
  rewrite !pzt11_row_fin by apply (pzt11_k11 c Hin). apply flt_lt_fin.
  apply Rmult_lt_compat_l; [apply ln10_pos|]. apply Rplus_lt_compat_l.
  rewrite !pzt11_mid by assumption. fold d1 d2 in B1, B2 |- *.
  assert (E : ln (d2 / d1) = ln (d2 / 70) - ln (d1 / 70)).
  { unfold Rdiv. rewrite !ln_mult, !ln_Rinv; try lra; try (apply Rinv_0_lt_compat; lra). }
  rewrite E in H5, H8. set (l1 := ln (d1/70)) in *. set (l2 := ln (d2/70)) in *.
  set (q := / ln 10) in *. unfold Rdiv in *. fold q in H5, H8 |- *.
  set (k6 := Q2R (pzt11_c_6 c)) in *. set (k7 := Q2R (pzt11_c_7 c)) in *. set (k10 := Q2R (pzt11_c_10 c)) in *.
  pose proof (lin_pos (k6 * ((l2 - l1) * q) + k10 * (d2 - d1)) (k7 * ((l2 - l1) * q)) 5 8 m) as L.
  assert (0 < (k6 * ((l2 - l1) * q) + k10 * (d2 - d1)) + (k7 * ((l2 - l1) * q)) * m) by (apply L; lra).
  lra.
Qed.

(** Between 70 and 140 km the long-period response grows with distance. *)
Lemma pzt11_bounce src1 src2 m :
  has_num src1 "mag" m -> has_num src1 "dist_rup" 75 ->
  has_num src2 "mag" m -> has_num src2 "dist_rup" 139 -> 5 <= m <= 8 ->
  exists g1 g2 sa1 sa2, result (pzt11 src1) = Ok g1 /\ result (pzt11 src2) = Ok g2 /\
    result (g_spec_accels g1) = Ok sa1 /\ result (g_spec_accels g2) = Ok sa2 /\
    Forall2 flt_lt (skipn 13 sa1) (skipn 13 sa2) /\ List.length (skipn 13 sa1) = 9%nat.
Proof.
  intros Hm1 Hr1 Hm2 Hr2 Hm.
  destruct (pzt11_accessors src1 m 75 Hm1 Hr1) as (g1 & G1 & S1 & _).
  destruct (pzt11_accessors src2 m 139 Hm2 Hr2) as (g2 & G2 & S2 & _).
  exists g1, g2. do 2 eexists. split; [exact G1|]. split; [exact G2|]. split; [exact S1|]. split; [exact S2|].
  split; [|reflexivity].
  cbn [tl pzt11_coeff map skipn].
  do 9 (constructor; [apply flt_lt_exp, pzt11_row_bounce; [vm_compute; tauto|assumption|];
     unfold pzt11_dist; cbn [pzt11_c_6 pzt11_c_7 pzt11_c_10 pzt11_c_11]; qlit; split; interval with (i_prec 50)|]).
  constructor.
Qed.

(** Sigma is continuous (within rounding of the table) at magnitude 7. *)
Lemma pzt11_mean_hinge c m : In c pzt11_coeff -> 7 <= m <= 7.01 ->
  Rabs (Q2R (pzt11_c_12 c) * 7 + Q2R (pzt11_c_13 c) - (-0.00695 * m + Q2R (pzt11_c_14 c))) <= 0.00015.
Proof.
  intros Hin Hm.
  repeat (destruct Hin as [<-|Hin];
    [cbn [pzt11_c_12 pzt11_c_13 pzt11_c_14]; qlit; apply Rabs_le; lra|]).
  destruct Hin.
Qed.
