(** * Proofs for Campbell (2003) *)
From Coquelicot Require Import Coquelicot.
From Interval Require Import Tactic.
From Coq Require Import List.
From Verif Require Import M_c03 FrameworkProofs Anal.
Open Scope R_scope.
Open Scope string_scope.
Open Scope list_scope.

Section Row.
  Variable c : c03_row.
  Local Notation k1 := (Q2R (c03_c_1 c)). Local Notation k2 := (Q2R (c03_c_2 c)).
  Local Notation k3 := (Q2R (c03_c_3 c)). Local Notation k4 := (Q2R (c03_c_4 c)).
  Local Notation k5 := (Q2R (c03_c_5 c)). Local Notation k6 := (Q2R (c03_c_6 c)).
  Local Notation k7 := (Q2R (c03_c_7 c)). Local Notation k8 := (Q2R (c03_c_8 c)).
  Local Notation k9 := (Q2R (c03_c_9 c)). Local Notation k10 := (Q2R (c03_c_10 c)).

  (** square of the magnitude-dependent near-source term *)
  Definition c03_h2 (m : R) : R := (k7 * exp (k8 * m)) * (k7 * exp (k8 * m)).
  (** distance-dependent part *)
  Definition c03_near (m r : R) : R := k4 * (/ 2 * ln (r * r + c03_h2 m)) + (k5 + k6 * m) * r.
  Definition c03_geo (r : R) : R :=
    if Rleb r 70 then 0
    else k9 * (ln r - ln 70) + (if Rltb 130 r then k10 * (ln r - ln 130) else 0).

  Lemma c03_h2_pos m : 0 < k7 -> 0 < c03_h2 m.
  Proof. intros H. unfold c03_h2. pose proof (exp_pos (k8 * m)). assert (0 < k7 * exp (k8*m)) by nra. nra. Qed.

  Lemma c03_row_fin m r : 0 < k7 -> 0 <= r ->
    c03_ln_resp c (Fin m) (Fin r) =
    Fin (k1 + (k2 * m + k3 * ((8.5 - m) * (8.5 - m))) + c03_near m r + c03_geo r).
  Proof.
    intros H7 Hr. pose proof (c03_h2_pos m H7) as Hh. unfold c03_h2 in Hh.
    unfold c03_ln_resp, c03_near, c03_geo, c03_h2. fcbn.
    rewrite fsqrt_fin by nra.
    rewrite flog_fin by (apply sqrt_lt_R0; nra).
    rewrite ln_sqrt by nra.
    destruct (Rleb_spec r 70) as [H|H].
    - fcbn. f_equal; ring.
    - rewrite !flog_fin by lra. destruct (Rltb_spec 130 r); fcbn; f_equal; ring.
  Qed.

  (** decay near the source and far away *)
  Lemma c03_near_decr m r1 r2 : 0 < k7 -> k4 < 0 -> k5 + k6 * m < 0 -> 0 <= r1 -> r1 < r2 ->
    c03_near m r2 < c03_near m r1.
  Proof.
    intros H7 H4 H56 H1 H2. pose proof (c03_h2_pos m H7) as Hh. unfold c03_near.
    assert (ln (r1 * r1 + c03_h2 m) <= ln (r2 * r2 + c03_h2 m)) by (apply ln_le_mono; nra).
    nra.
  Qed.

  (** beyond 70 km the geometric term is dominated *)
  Lemma c03_far_decr m r1 r2 : 0 < k7 -> k4 < 0 -> k5 + k6 * m < 0 -> k10 <= 0 ->
    (k4 + k9 + 70 * (k5 + k6 * m)) * 4900 + k9 * c03_h2 m <= 0 -> 0 <= k9 ->
    70 <= r1 -> r1 < r2 ->
    c03_near m r2 + c03_geo r2 < c03_near m r1 + c03_geo r1.
  Proof.
    intros H7 H4 H56 H10 Hdom H9 H1 H2. pose proof (c03_h2_pos m H7) as Hh.
    set (h := c03_h2 m) in *.
    set (g := fun r => k4 * (/ 2 * ln (r * r + h)) + (k5 + k6 * m) * r + k9 * ln r).
    assert (Hg : g r2 < g r1).
    { apply (decr_by_derive g (fun r => k4 * (/ 2 * ((r + r) / (r * r + h))) + (k5 + k6 * m) + k9 / r)); [exact H2| |].
      - intros x Hx. unfold g. auto_derive; [split; [nra|split; [lra|exact I]]|]. field. split; [lra|nra].
      - intros x Hx.
        assert (Hxh : 0 < x * x + h) by nra.
        set (A := k5 + k6 * m) in *.
        assert (E : k4 * (/ 2 * ((x + x) / (x * x + h))) + A + k9 / x
               = (k4 * (x * x) + k9 * (x * x + h) + A * (x * (x * x + h))) / (x * (x * x + h))) by (field; nra).
        rewrite E. clear E.
        assert (Hden : 0 < x * (x * x + h)) by nra.
        apply Rmult_lt_reg_r with (x * (x * x + h)); [exact Hden|].
        unfold Rdiv. rewrite Rmult_assoc, Rinv_l by lra. rewrite Rmult_0_l, Rmult_1_r.
        assert (Hxx : 4900 <= x * x) by nra.
        assert (Hxx3 : 0 <= (x - 70) * (x * x)) by (apply Rmult_le_pos; lra).
        assert (Hxh' : 0 < x * h) by (apply Rmult_lt_0_compat; lra).
        assert (HP : 70 * (x * x) < x * (x * x + h)) by lra.
        assert (HA : A * (x * (x * x + h)) < A * (70 * (x * x))).
        { apply Ropp_lt_cancel. rewrite <- !Ropp_mult_distr_l_reverse. apply Rmult_lt_compat_l; lra. }
        assert (HB : 0 <= k9 * h) by nra.
        assert (HC : k4 + k9 + 70 * A <= 0) by nra.
        assert (HD : 0 <= - (k4 + k9 + 70 * A) * (x * x - 4900)) by (apply Rmult_le_pos; lra).
        lra. }
    assert (G1 : forall r, 70 <= r -> c03_geo r = k9 * (ln r - ln 70) + (if Rltb 130 r then k10 * (ln r - ln 130) else 0)).
    { intros r Hr. unfold c03_geo. destruct (Rleb_spec r 70); [|reflexivity].
      assert (r = 70) by lra. subst r. rewrite Rltb_false by lra. lra. }
    rewrite !G1 by lra.
    assert (Hk10 : (if Rltb 130 r2 then k10 * (ln r2 - ln 130) else 0) <= (if Rltb 130 r1 then k10 * (ln r1 - ln 130) else 0)).
    { destruct (Rltb_spec 130 r2) as [Ha|Ha], (Rltb_spec 130 r1) as [Hb|Hb]; try lra.
      - assert (ln r1 < ln r2) by (apply ln_increasing; lra). nra.
      - assert (ln 130 < ln r2) by (apply ln_increasing; lra). nra. }
    unfold g in Hg. unfold c03_near. fold h. lra.
  Qed.

  Lemma c03_decr m r1 r2 : 0 < k7 -> k4 < 0 -> k5 + k6 * m < 0 -> k10 <= 0 ->
    (k4 + k9 + 70 * (k5 + k6 * m)) * 4900 + k9 * c03_h2 m <= 0 -> 0 <= k9 ->
    0 <= r1 -> r1 < r2 ->
    c03_near m r2 + c03_geo r2 < c03_near m r1 + c03_geo r1.
  Proof.
    intros H7 H4 H56 H10 Hdom H9 H1 H2.
    assert (G0 : forall r, r <= 70 -> c03_geo r = 0) by (intros r Hr; unfold c03_geo; rewrite Rleb_true by lra; reflexivity).
    destruct (Rle_dec r2 70) as [Ha|Ha].
    - rewrite !G0 by lra. pose proof (c03_near_decr m r1 r2 H7 H4 H56 H1 H2). lra.
    - destruct (Rle_dec 70 r1) as [Hb|Hb].
      + apply c03_far_decr; assumption || lra.
      + pose proof (c03_near_decr m r1 70 H7 H4 H56 H1 ltac:(lra)) as A.
        pose proof (c03_far_decr m 70 r2 H7 H4 H56 H10 Hdom H9 ltac:(lra) ltac:(lra)) as B.
        rewrite (G0 r1) by lra. rewrite (G0 70) in B by lra. lra.
  Qed.
End Row.

(** Table-wide sign conditions *)
Definition c03_signs (c : c03_row) : bool :=
  Qltb 0 (c03_c_7 c) && Qltb (c03_c_4 c) 0 && Qltb (c03_c_5 c + c03_c_6 c * (73#10)) 0 && Qle_bool 0 (c03_c_6 c) && Qle_bool 0 (c03_c_8 c)
  && Qle_bool (c03_c_10 c) 0 && Qle_bool 0 (c03_c_9 c)
  && Qltb 0 (c03_c_11 c + c03_c_12 c * (82#10)) && Qle_bool (c03_c_12 c) 0 && Qltb 0 (c03_c_13 c).
Lemma c03_signs_all : forallb c03_signs c03_coeff = true.
Proof. vm_compute. reflexivity. Qed.
Lemma c03_signs_R c : In c c03_coeff ->
  0 < Q2R (c03_c_7 c) /\ Q2R (c03_c_4 c) < 0 /\ Q2R (c03_c_5 c) + Q2R (c03_c_6 c) * 7.3 < 0 /\ 0 <= Q2R (c03_c_6 c) /\ 0 <= Q2R (c03_c_8 c)
  /\ Q2R (c03_c_10 c) <= 0 /\ 0 <= Q2R (c03_c_9 c) /\
  0 < Q2R (c03_c_11 c) + Q2R (c03_c_12 c) * 8.2 /\ Q2R (c03_c_12 c) <= 0 /\ 0 < Q2R (c03_c_13 c).
Proof.
  intros Hin. pose proof c03_signs_all as H. rewrite forallb_forall in H. specialize (H c Hin).
  unfold c03_signs in H. rewrite !andb_true_iff in H.
  destruct H as (((((((((H1 & H2) & H3) & H4) & H5) & H6) & H7) & H8) & H9) & H10).
  apply Qltb_R in H1, H2, H3, H8, H10. apply Qleb_R in H4, H5, H6, H7, H9.
  rewrite Q2R_plus, Q2R_mult in H3, H8.
  replace (Q2R 0) with 0 in * by (unfold Q2R; cbn; lra).
  replace (Q2R (73#10)) with 7.3 in H3 by (unfold Q2R; cbn; lra).
  replace (Q2R (82#10)) with 8.2 in H8 by (unfold Q2R; cbn; lra).
  tauto.
Qed.
(** The near-source term never outweighs the geometric attenuation. *)
Lemma c03_dominates c m : In c c03_coeff -> m <= 7.3 ->
  (Q2R (c03_c_4 c) + Q2R (c03_c_9 c) + 70 * (Q2R (c03_c_5 c) + Q2R (c03_c_6 c) * m)) * 4900
  + Q2R (c03_c_9 c) * c03_h2 c m <= 0.
Proof.
  intros Hin Hm. destruct (c03_signs_R c Hin) as (H7 & H4 & _ & H6 & H8 & _ & H9 & _).
  assert (Hmono : c03_h2 c m <= c03_h2 c 7.3).
  { unfold c03_h2. assert (exp (Q2R (c03_c_8 c) * m) <= exp (Q2R (c03_c_8 c) * 7.3)) by (apply exp_le_mono; nra).
    pose proof (exp_pos (Q2R (c03_c_8 c) * m)). apply Rmult_le_compat; nra. }
  assert (Hb : (Q2R (c03_c_4 c) + Q2R (c03_c_9 c) + 70 * (Q2R (c03_c_5 c) + Q2R (c03_c_6 c) * 7.3)) * 4900
    + Q2R (c03_c_9 c) * c03_h2 c 7.3 <= 0).
  { clear -Hin. unfold c03_h2.
    repeat (destruct Hin as [<-|Hin];
      [unfold Q2R; cbn [c03_c_4 c03_c_5 c03_c_6 c03_c_7 c03_c_8 c03_c_9 Qnum Qden]; interval with (i_prec 40)|]).
    destruct Hin. }
  nra.
Qed.

(** ** Construction *)
Definition c03_inst (m r : R) : gmm :=
  GMM c03_class (Scen [("mag", PNum (Fin m)); ("dist_rup", PNum (Fin r))] [])
    (map (fun c => c03_ln_resp c (Fin m) (Fin r)) c03_coeff)
    (Some (map (fun c => c03_ln_std c (Fin m)) c03_coeff)).

Lemma c03_construct src m r : has_num src "mag" m -> has_num src "dist_rup" r ->
  result (c03 src) = Ok (c03_inst m r).
Proof.
  intros Hm Hr. unfold c03. construct c03_class. read_nums. reflexivity.
Qed.

Lemma c03_spec_accels m r :
  result (g_spec_accels (c03_inst m r)) = Ok (map (fun c => fexp (c03_ln_resp c (Fin m) (Fin r))) c03_coeff).
Proof. apply spec_accels_map. reflexivity. Qed.
Lemma c03_ln_stds m r :
  result (g_ln_stds (c03_inst m r)) = Ok (map (fun c => c03_ln_std c (Fin m)) c03_coeff).
Proof. apply ln_stds_map. reflexivity. Qed.

Lemma c03_row_finite c m r : In c c03_coeff -> 0 <= r -> finite (c03_ln_resp c (Fin m) (Fin r)).
Proof.
  intros Hin Hr. destruct (c03_signs_R c Hin) as (H7 & _). rewrite c03_row_fin by assumption. apply finite_fin.
Qed.
Lemma c03_std_pos c m : In c c03_coeff -> m <= 8.2 -> fpos (c03_ln_std c (Fin m)).
Proof.
  intros Hin Hm. destruct (c03_signs_R c Hin) as (_ & _ & _ & _ & _ & _ & _ & H11 & H12 & H13).
  unfold c03_ln_std. fcbn. destruct (Rltb_spec m 7.16).
  - eexists; split; [reflexivity|]. nra.
  - eexists; split; [reflexivity|]. exact H13.
Qed.

Lemma c03_positive src m r : has_num src "mag" m -> has_num src "dist_rup" r -> 0 <= r ->
  exists g sa sd, result (c03 src) = Ok g /\
    result (g_spec_accels g) = Ok sa /\ List.length sa = 16%nat /\ Forall fpos sa /\
    result (g_ln_stds g) = Ok sd /\ List.length sd = 16%nat /\ (m <= 8.2 -> Forall fpos sd) /\
    result (g_pga g) = Raise ENotImpl /\ result (g_pgv g) = Raise ENotImpl /\ result (g_pgd g) = Raise ENotImpl.
Proof.
  intros Hm Hr Hr0. exists (c03_inst m r). eexists _, _.
  split; [apply c03_construct; assumption|].
  split; [apply c03_spec_accels|]. split; [reflexivity|].
  split; [apply Forall_map_intro; intros c Hc; apply fpos_exp, c03_row_finite; assumption|].
  split; [apply c03_ln_stds|]. split; [reflexivity|].
  split; [intros Hm8; apply Forall_map_intro; intros c Hc; apply c03_std_pos; assumption|].
  repeat split.
Qed.

Lemma c03_decreasing src1 src2 m r1 r2 :
  has_num src1 "mag" m -> has_num src1 "dist_rup" r1 ->
  has_num src2 "mag" m -> has_num src2 "dist_rup" r2 ->
  m <= 7.3 -> 0 <= r1 -> r1 < r2 ->
  exists g1 g2 sa1 sa2, result (c03 src1) = Ok g1 /\ result (c03 src2) = Ok g2 /\
    result (g_spec_accels g1) = Ok sa1 /\ result (g_spec_accels g2) = Ok sa2 /\
    Forall2 flt_lt sa2 sa1.
Proof.
  intros Hm1 Hr1 Hm2 Hr2 Hm H1 H12. exists (c03_inst m r1), (c03_inst m r2). eexists _, _.
  split; [apply c03_construct; assumption|]. split; [apply c03_construct; assumption|].
  split; [apply c03_spec_accels|]. split; [apply c03_spec_accels|].
  apply Forall2_map_intro. intros c Hc. apply flt_lt_exp.
  destruct (c03_signs_R c Hc) as (H7 & H4 & H56 & H6 & H8 & H10 & H9 & _).
  rewrite !c03_row_fin by (assumption || lra). apply flt_lt_fin.
  pose proof (c03_decr c m r1 r2 H7 H4) as D.
  assert (A : Q2R (c03_c_5 c) + Q2R (c03_c_6 c) * m < 0) by nra.
  specialize (D A H10 (c03_dominates c m Hc ltac:(lra)) H9 H1 H12). lra.
Qed.

(** Inside the recommended range (mag <= 8.2) decay fails close to the fault. *)
Definition c03_row2 : c03_row := nth 2 c03_coeff (Mk_c03_row 0 0 0 0 0 0 0 0 0 0 0 0 0 0).
Lemma c03_not_decreasing :
  flt_lt (c03_ln_resp c03_row2 (Fin 8.2) (Fin 0)) (c03_ln_resp c03_row2 (Fin 8.2) (Fin 0.1)).
Proof.
  rewrite !c03_row_fin; try lra; try (unfold c03_row2, Q2R; cbn; lra).
  apply flt_lt_fin. unfold c03_near, c03_geo, c03_h2. rewrite !Rleb_true by lra.
  unfold c03_row2, Q2R; cbn. interval with (i_prec 60).
Qed.
