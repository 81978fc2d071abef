(** * C157: ASK14 on firm sites in Taiwan and Japan

    [with_region a re]: the scenario [a] with region = re; [raised r1 r2 more less same] (C155): the second result has larger PGA
    and PGV, larger ordinates at the periods in [more], smaller at those in [less], equal at those in [same]. *)
From Coquelicot Require Import Coquelicot.
From Interval Require Import Tactic.
From Coq Require Import List.
From Verif Require Import M_cy14 M_bssa14 M_cb14 M_ask14 FrameworkProofs Anal Nga Outs Cont Cont1 SpecNga P_cy14 P_bssa14 P_cb14 P_cb14b P_ask14 P_ask14b P_ngaspec
  Spec_cy14 Spec_bssa14 Spec_cb14 Spec_ask14 Properties_NGA Properties_NGAPub Properties_NGAPub2 Properties_NGAPub3 P_ngamag P_ngacont P_hw P_mech Properties_Deep NpProofs Properties_Region.
Open Scope R_scope.
Open Scope string_scope.
Open Scope list_scope.

(** From 960 m/s the site response does not depend on the shaking. *)
Lemma as_firm c v : In c ask14_coeff -> 960 <= v -> 1 <= as_vstar c v / Q2R (ask14_v_lin c) /\ (Q2R (ask14_v_lin c) < 800 -> 1 < as_vstar c v / Q2R (ask14_v_lin c)).
Proof.
  intros Hc Hv. pose proof (ask14_vlin c _ Hc (as_v1_ok c)) as [L1 L2]. row_le Hc ask14_v_lin (fun _ : ask14_row => 960#1) as L.
  destruct (ask14_v1_form c) as (v1 & E & B & _). rewrite as_v1_ok in E. injection E as E. rewrite <- E in B.
  pose proof (Rmin_r 1180.0 (as_v1 c)) as M.
  assert (K : Q2R (ask14_v_lin c) <= as_vstar c v) by (unfold as_vstar; apply Rmin_glb; lra).
  split.
  - apply (Rmult_le_reg_r (Q2R (ask14_v_lin c))); [lra|]. unfold Rdiv. rewrite Rmult_assoc, Rinv_l by lra. lra.
  - intros H. apply (Rmult_lt_reg_r (Q2R (ask14_v_lin c))); [lra|]. unfold Rdiv. rewrite Rmult_assoc, Rinv_l by lra.
    rewrite Rmult_1_l, Rmult_1_r. unfold as_vstar. apply Rmin_glb_lt; lra.
Qed.
Lemma as_firm_f5 c v p q : In c ask14_coeff -> 960 <= v -> as_f5 c v p = as_f5 c v q.
Proof. intros Hc Hv. unfold as_f5. cbv zeta. destruct (as_firm c v Hc Hv) as [K _]. destruct (Rlt_dec _ 1); [lra|reflexivity]. Qed.

Lemma as_other c a re1 re2 : In c ask14_coeff -> In re1 [None; Some "global"; Some "california"; Some "italy"] -> 960 <= n_v a ->
  as_f10 c (as_reg (with_region a re2)) (n_v a) (n_z1 a) = as_f10 c "global" (n_v a) (n_z1 a) ->
  as_med c (with_region a re2) = as_med c (with_region a re1) + as_regional c (as_reg (with_region a re2)) (n_v a) (n_rup a).
Proof.
  intros Hc H Hv F. unfold as_med. rewrite !as_region_path.
  replace (n_v (with_region a re1)) with (n_v a) by (destruct a; reflexivity). replace (n_rup (with_region a re1)) with (n_rup a) by (destruct a; reflexivity). replace (n_z1 (with_region a re1)) with (n_z1 a) by (destruct a; reflexivity).
  replace (n_v (with_region a re2)) with (n_v a) by (destruct a; reflexivity). replace (n_rup (with_region a re2)) with (n_rup a) by (destruct a; reflexivity). replace (n_z1 (with_region a re2)) with (n_z1 a) by (destruct a; reflexivity).
  rewrite F. rewrite (as_firm_f5 c (n_v a) (exp (as_rock c (with_region a re2))) (exp (as_rock c (with_region a re1))) Hc Hv).
  assert (Z : as_regional c (as_reg (with_region a re1)) (n_v a) (n_rup a) = 0 /\ jp (as_reg (with_region a re1)) = false)
    by (destruct H as [<-|[<-|[<-|[<-|[]]]]]; destruct a; split; reflexivity).
  destruct Z as [Z J]. rewrite Z. unfold as_f10, as_z1. unfold jp in J. rewrite J. cbn [String.eqb Ascii.eqb Bool.eqb]. ring.
Qed.

(** Taiwan: lower at short and at long periods. *)
Theorem C157_ask14_taiwan : forall src1 src2 a t re1, nga_gives src1 (with_region a re1) -> nga_gives src2 (with_region a (Some "taiwan")) ->
  In re1 [None; Some "global"; Some "california"; Some "italy"] -> n_mech a = Some t ->
  (n_hw a = Some true -> exists x, n_x a = Some x /\ 0 <= x /\ 0 < n_dip a <= 90) -> 960 <= n_v a -> match n_z1 a with Some z => 0 <= z | None => True end -> 0 < n_rup a ->
  raised (ask14 src2) (ask14 src1) (fun T => T <= 0.1 \/ 1.5 <= T) nowhere nowhere.
Proof.
  intros src1 src2 a t re1 G1 G2 I1 Ht HG Hv Hz Hr.
  assert (U : forall c, In c ask14_coeff -> (Qltb (ask14_a31 c) 0 && (Qltb (ask14_a25 c) 0 || (Qle_bool (ask14_a25 c) 0 && Qle_bool (ask14_v_lin c) (700#1))))%bool = true ->
    as_med c (with_region a (Some "taiwan")) < as_med c (with_region a re1)).
  { intros c Hc B. apply andb_prop in B. destruct B as [B1 B2]. apply Qltb_R in B1.
    rewrite (as_other c a re1 (Some "taiwan") Hc I1 Hv) by (destruct a; unfold as_f10, as_z1; reflexivity).
    replace (as_reg (with_region a (Some "taiwan"))) with "taiwan" by (destruct a; reflexivity).
    change (as_regional c "taiwan" (n_v a) (n_rup a)) with (Q2R (ask14_a31 c) * ln (as_vstar c (n_v a) / Q2R (ask14_v_lin c)) + Q2R (ask14_a25 c) * n_rup a).
    destruct (as_firm c (n_v a) Hc Hv) as [K1 K2]. pose proof (ln_nonneg _ K1) as L1. replace (Q2R 0) with 0 in B1 by (unfold Q2R; cbn; lra).
    apply Bool.orb_true_iff in B2. destruct B2 as [B2|B2].
    - apply Qltb_R in B2. replace (Q2R 0) with 0 in B2 by (unfold Q2R; cbn; lra). nra.
    - apply andb_prop in B2. destruct B2 as [B2 B3]. apply Qleb_R in B2. apply Qleb_R in B3. replace (Q2R 0) with 0 in B2 by (unfold Q2R; cbn; lra).
      assert (L3 : Q2R (ask14_v_lin c) < 800) by (unfold Q2R at 2 in B3; cbn [Qnum Qden] in B3; lra). pose proof (ln_increasing 1 _ ltac:(lra) (K2 L3)) as L2. rewrite ln_1 in L2. nra. }
  eapply raised_intro; [eapply as_region_rep; try eassumption; lra|eapply as_region_rep; try eassumption; lra| |intros c _ []|intros c _ []| |].
  - intros c Hc T. apply U; [apply ask14_psa_in, Hc|].
    apply (sel ask14_psa (fun c => Qle_bool (ask14_period c) (1#10) || Qle_bool (15#10) (ask14_period c))%bool (fun c => Qltb (ask14_a31 c) 0 && (Qltb (ask14_a25 c) 0 || (Qle_bool (ask14_a25 c) 0 && Qle_bool (ask14_v_lin c) (700#1))))%bool ltac:(vm_compute; reflexivity) c Hc).
    apply Bool.orb_true_iff. destruct T as [T|T]; [left|right]; apply Qle_of_R; [unfold Q2R at 2|unfold Q2R at 1]; cbn [Qnum Qden]; lra.
  - apply U; [apply ask14_pga_in|reflexivity].
  - apply U; [apply ask14_pgv_in|reflexivity].
Qed.
Print Assumptions C157_ask14_taiwan.

(** Japan: lower at every period beyond 180 km. *)
Theorem C157_ask14_japan_far : forall src1 src2 a t re1, nga_gives src1 (with_region a re1) -> nga_gives src2 (with_region a (Some "japan")) ->
  In re1 [None; Some "global"; Some "california"; Some "italy"] -> n_mech a = Some t ->
  (n_hw a = Some true -> exists x, n_x a = Some x /\ 0 <= x /\ 0 < n_dip a <= 90) -> 1150 < n_v a -> n_z1 a = None -> 180 <= n_rup a ->
  raised (ask14 src2) (ask14 src1) every nowhere nowhere.
Proof.
  intros src1 src2 a t re1 G1 G2 I1 Ht HG Hv Hz Hr.
  assert (U : forall c, In c ask14_coeff -> as_med c (with_region a (Some "japan")) < as_med c (with_region a re1)).
  { intros c Hc.
    rewrite (as_other c a re1 (Some "japan") Hc I1) by (lra || (unfold as_f10; rewrite Hz; reflexivity)).
    replace (as_reg (with_region a (Some "japan"))) with "japan" by (destruct a; reflexivity). unfold as_regional. cbn [String.eqb Ascii.eqb Bool.eqb].
    rewrite polyline_right by (cbn; repeat split; lra). cbn [last snd].
    row_lt Hc (fun c => ask14_a42 c + ask14_a29 c * (180#1))%Q (fun _ : ask14_row => 0#1) as A. row_lt Hc ask14_a29 (fun _ : ask14_row => 0#1) as B. nra. }
  assert (Z : match n_z1 a with Some z => 0 <= z | None => True end) by (rewrite Hz; exact I).
  eapply raised_intro; [eapply as_region_rep; try eassumption; lra|eapply as_region_rep; try eassumption; lra| |intros c _ []|intros c _ []| |].
  - intros c Hc _. apply U, ask14_psa_in, Hc.
  - apply U, ask14_pga_in.
  - apply U, ask14_pgv_in.
Qed.
Print Assumptions C157_ask14_japan_far.

Example C157_nonvacuous : let a := ex_nga 6.5 200 1200 None in let b re := nga_src (with_region a re) in
  raised (ask14 (b (Some "taiwan"))) (ask14 (b (Some "california"))) (fun T => T <= 0.1 \/ 1.5 <= T) nowhere nowhere /\
  raised (ask14 (b (Some "japan"))) (ask14 (b None)) every nowhere nowhere.
Proof.
  intros a b. split.
  - apply (C157_ask14_taiwan _ _ a "SS" (Some "california")); try apply nga_src_gives; try reflexivity; cbn; try tauto; try lra. discriminate.
  - apply (C157_ask14_japan_far _ _ a "SS" None); try apply nga_src_gives; try reflexivity; cbn; try tauto; try lra. discriminate.
Qed.
