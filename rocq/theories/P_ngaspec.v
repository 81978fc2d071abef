(** * Proofs tying the NGA-West2 models to [SpecNga] *)
From Coquelicot Require Import Coquelicot.
From Interval Require Import Tactic.
From Coq Require Import List.
From Verif Require Import M_bssa14 M_cb14 M_ask14 FrameworkProofs Anal NpProofs Nga Outs P_cy14 P_bssa14 P_cb14 P_cb14b P_ask14 P_ask14b SpecNga.
Open Scope R_scope.
Open Scope string_scope.
Open Scope list_scope.

Lemma clip01_ramp x0 y0 x1 y1 x : x0 < x1 -> y0 + (y1 - y0) * clip01 ((x - x0) / (x1 - x0)) = ramp x0 y0 x1 y1 x.
Proof.
  intros H. unfold ramp, clip01. set (k := x1 - x0). assert (Hk : 0 < k) by (unfold k; lra).
  destruct (Rle_dec x x0) as [A|A].
  - assert ((x - x0) / k <= 0). { apply Rmult_le_reg_r with k; [exact Hk|]. unfold Rdiv. rewrite Rmult_assoc, Rinv_l by lra. lra. }
    rewrite Rmax_right by lra. rewrite Rmin_left by lra. ring.
  - assert (0 <= (x - x0) / k) by (apply Rmult_le_pos; [lra|left; apply Rinv_0_lt_compat; exact Hk]).
    rewrite Rmax_left by lra. destruct (Rle_dec x1 x) as [B|B].
    + assert (1 <= (x - x0) / k). { apply Rmult_le_reg_r with k; [exact Hk|]. unfold Rdiv. rewrite Rmult_assoc, Rinv_l by lra. unfold k; lra. }
      rewrite Rmin_right by lra. ring.
    + rewrite Rmin_left; [reflexivity|]. apply Rmult_le_reg_r with k; [exact Hk|]. unfold Rdiv. rewrite Rmult_assoc, Rinv_l by lra. unfold k; lra.
Qed.
Lemma clipm_ramp y0 y1 x : y0 + (y1 - y0) * clipm x = ramp 4.5 y0 5.5 y1 x.
Proof.
  rewrite <- clip01_ramp by lra. do 2 f_equal. unfold clipm, clip01. replace ((x - 4.5) / (5.5 - 4.5)) with (x - 4.5) by lra.
  unfold Rmin, Rmax. repeat destruct (Rle_dec _ _); lra.
Qed.
Lemma clipd_ramp y0 y1 x : y1 + (y0 - y1) * clipd x = ramp 4.5 y0 5.5 y1 x.
Proof.
  rewrite <- clip01_ramp by lra. replace ((x - 4.5) / (5.5 - 4.5)) with (x - 4.5) by lra.
  assert (E : clipd x = 1 - clip01 (x - 4.5)) by (unfold clipd, clip01, Rmin, Rmax; repeat destruct (Rle_dec _ _); lra).
  rewrite E. ring.
Qed.

(** ** BSSA14 sigma *)
Lemma bssa14_phi_eq c m r v : In c bssa14_coeff -> 0 < v -> bssa14_phi c m r v = bssa14_phi_spec c m r v.
Proof.
  intros Hc Hv. row_pos Hc bssa14_R_1 as R1. row_pos Hc bssa14_V_1 as V1.
  row_lt Hc bssa14_R_1 bssa14_R_2 as R12. row_lt Hc bssa14_V_1 bssa14_V_2 as V12.
  assert (0 < Rmax r 0.1) by (eapply Rlt_le_trans; [|apply Rmax_r]; lra).
  unfold bssa14_phi, bssa14_phi_spec. rewrite clipm_ramp.
  rewrite !ln_div by lra.
  assert (LR : ln (Q2R (bssa14_R_1 c)) < ln (Q2R (bssa14_R_2 c))) by (apply ln_increasing; lra).
  assert (LV : ln (Q2R (bssa14_V_1 c)) < ln (Q2R (bssa14_V_2 c))) by (apply ln_increasing; lra).
  rewrite <- (clip01_ramp (ln (Q2R (bssa14_R_1 c)))) by exact LR. rewrite <- (clip01_ramp (ln (Q2R (bssa14_V_1 c)))) by exact LV.
  set (lv := ln v). set (v1 := ln (Q2R (bssa14_V_1 c))) in *. set (v2 := ln (Q2R (bssa14_V_2 c))) in *.
  assert (E : clip01 ((v2 - lv) / (v2 - v1)) = 1 - clip01 ((lv - v1) / (v2 - v1))).
  { replace ((v2 - lv) / (v2 - v1)) with (1 - (lv - v1) / (v2 - v1)) by (field; lra). unfold clip01, Rmin, Rmax. repeat destruct (Rle_dec _ _); lra. }
  rewrite E. ring.
Qed.
Lemma bssa14_tau_eq c m : bssa14_tau c m = bssa14_tau_spec c m.
Proof. unfold bssa14_tau, bssa14_tau_spec. apply clipm_ramp. Qed.
Lemma F2_map {A} (P : A -> flt -> Prop) (l : list A) f : (forall c, In c l -> P c (f c)) -> Forall2 P l (map f l).
Proof. induction l as [|x l IH]; intros H; constructor; [apply H; left; reflexivity|apply IH; intros; apply H; right; assumption]. Qed.

Lemma rss_sqrt t p x : x = sqrt (p * p + t * t) -> 0 < x -> rss t p (Fin x).
Proof. intros -> H. exists (sqrt (p * p + t * t)). split; [reflexivity|]. split; [exact H|]. rewrite sqrt_sqrt by nra. ring. Qed.
Theorem bssa14_sigma_spec src a : nga_gives src a -> 0 < n_v a ->
  exists o, gmm_out (bssa14 src) o /\
    Forall2 (fun c s => rss (bssa14_tau_spec c (n_mag a)) (bssa14_phi_spec c (n_mag a) (n_jb a) (n_v a)) s) (skipn 2 bssa14_coeff) (o_sd o) /\
    (forall c, nth_error bssa14_coeff 1 = Some c -> rss (bssa14_tau_spec c (n_mag a)) (bssa14_phi_spec c (n_mag a) (n_jb a) (n_v a)) (o_sd_pga o)) /\
    (forall c, nth_error bssa14_coeff 0 = Some c -> rss (bssa14_tau_spec c (n_mag a)) (bssa14_phi_spec c (n_mag a) (n_jb a) (n_v a)) (o_sd_pgv o)).
Proof.
  intros G Hv. exists (bssa14_outs a). split; [apply bssa14_out; exact G|].
  assert (S : forall c, In c bssa14_coeff -> rss (bssa14_tau_spec c (n_mag a)) (bssa14_phi_spec c (n_mag a) (n_jb a) (n_v a)) (bssa14_ln_std c (bssa14_input a))).
  { intros c Hc. pose proof (bssa14_sigma_range c (n_mag a) (n_jb a) (n_v a) Hc) as B. rewrite bssa14_std_form by assumption. rewrite <- bssa14_phi_eq, <- bssa14_tau_eq by assumption.
    apply rss_sqrt; [reflexivity|]. lra. }
  unfold bssa14_outs, row_outs; cbn [o_sd o_sd_pga o_sd_pgv].
  split; [|split].
  - change (skipn 2 bssa14_coeff) with bssa14_psa. apply F2_map. intros c Hc. apply S, bssa14_psa_in, Hc.
  - intros c E. injection E as <-. apply S, bssa14_pga_in.
  - intros c E. injection E as <-. apply S, bssa14_pgv_in.
Qed.

(** Small changes of the inputs change sigma little. *)
Theorem bssa14_sigma_continuous src1 src2 a1 a2 : nga_gives src1 a1 -> nga_gives src2 a2 -> 0 < n_v a1 -> 0 < n_v a2 ->
  exists o1 o2, gmm_out (bssa14 src1) o1 /\ gmm_out (bssa14 src2) o2 /\
    std2 (fun s1 s2 => exists x1 x2, s1 = Fin x1 /\ s2 = Fin x2 /\
      Rabs (x1 - x2) <= 0.476 * Rabs (n_mag a1 - n_mag a2) + 0.003 * Rabs (n_jb a1 - n_jb a2) + 0.002 * Rabs (n_v a1 - n_v a2)) o1 o2.
Proof.
  intros G1 G2 H1 H2. exists (bssa14_outs a1), (bssa14_outs a2). split; [apply bssa14_out; exact G1|]. split; [apply bssa14_out; exact G2|].
  assert (S : forall c, In c bssa14_coeff -> exists x1 x2, bssa14_ln_std c (bssa14_input a1) = Fin x1 /\ bssa14_ln_std c (bssa14_input a2) = Fin x2 /\
      Rabs (x1 - x2) <= 0.476 * Rabs (n_mag a1 - n_mag a2) + 0.003 * Rabs (n_jb a1 - n_jb a2) + 0.002 * Rabs (n_v a1 - n_v a2)).
  { intros c Hc. rewrite !bssa14_std_form by assumption. do 2 eexists. split; [reflexivity|]. split; [reflexivity|]. apply bssa14_sigma_lip; assumption. }
  unfold std2, bssa14_outs, row_outs; cbn [o_sd o_sd_pga o_sd_pgv].
  split; [apply Forall2_map_intro; intros c Hc; apply S, bssa14_psa_in, Hc|]. split; apply S; [apply bssa14_pga_in|apply bssa14_pgv_in].
Qed.

(** ** BSSA14 on the reference rock *)
Definition str_def (d : string) (opts : list string) (o : option string) : string :=
  match o with Some t => if existsb (String.eqb t) opts then t else d | None => d end.
Lemma choice_str opts d o : choice opts (PStr d) o = PStr (str_def d opts o).
Proof. unfold choice, str_def. destruct o as [t|]; [|reflexivity]. destruct (existsb _ _); reflexivity. Qed.
Definition mech_of (a : nga) : string := str_def "U" ["U"; "SS"; "NS"; "RS"] (n_mech a).
Definition region_of (a : nga) : string := str_def "global" ["global"; "california"; "china"; "italy"; "japan"; "new_zealand"; "taiwan"; "turkey"] (n_region a).
Definition bssa14_rock (c : bssa14_row) (a : nga) : R :=
  bssa14_event_spec c (mech_of a) (n_mag a) + bssa14_path_spec c (region_of a) (n_mag a) (n_jb a).
Lemma bssa14_ref_spec c a : In c bssa14_coeff -> bssa14_ln_ref c (bssa14_input a) = Fin (bssa14_rock c a).
Proof.
  intros Hc. row_pos Hc bssa14_h as Hh. row_is Hc bssa14_R_ref (1#1)%Q as HR. row_is Hc bssa14_M_ref (45#10)%Q as HM.
  unfold bssa14_ln_ref, bssa14_input, bssa14_rock, bssa14_event_spec, bssa14_path_spec, bssa14_mech, bssa14_region. bssa14_fields.
  rewrite !choice_str. fold (mech_of a) (region_of a). cbv zeta. unfold is_str. cbn [pyeq].
  set (ev := if String.eqb (mech_of a) "SS" then qf _ else _ : flt).
  assert (EV : ev = Fin (if String.eqb (mech_of a) "SS" then Q2R (bssa14_e_1 c) else if String.eqb (mech_of a) "NS" then Q2R (bssa14_e_2 c)
   else if String.eqb (mech_of a) "RS" then Q2R (bssa14_e_3 c) else Q2R (bssa14_e_0 c))) by (unfold ev; repeat destruct (String.eqb _ _); reflexivity).
  rewrite EV. clear ev EV. set (e0 := if String.eqb (mech_of a) "SS" then Q2R _ else _).
  change [PStr "china"; PStr "turkey"] with (map PStr ["china"; "turkey"]). change [PStr "italy"; PStr "japan"] with (map PStr ["italy"; "japan"]).
  rewrite !pyin_str. cbn [existsb]. rewrite !Bool.orb_false_r.
  set (dc := if (_ || _)%bool then qf _ else _ : flt).
  assert (DC : dc = Fin (if (String.eqb (region_of a) "china" || String.eqb (region_of a) "turkey")%bool then Q2R (bssa14_dc_3ct c)
      else if (String.eqb (region_of a) "italy" || String.eqb (region_of a) "japan")%bool then Q2R (bssa14_dc_3ij c) else Q2R (bssa14_dc_3global c)))
    by (unfold dc; repeat destruct (_ || _)%bool; reflexivity).
  rewrite DC. clear dc DC. set (dc := if (_ || _)%bool then Q2R _ else _).
  unfold qf. fcbn. rewrite fsqrt_fin by apply sq2_nonneg. rewrite fdiv_fin by lra. rewrite HR, HM.
  assert (0 < sqrt (n_jb a * n_jb a + Q2R (bssa14_h c) * Q2R (bssa14_h c))) by (apply sqrt_lt_R0, sq2_pos; lra).
  rewrite flog_fin by (apply Rdiv_lt_0_compat; lra). fcbn.
  set (r' := sqrt _) in *. replace (r' / (1 * / 1)) with r' by lra. replace (45 * / 10) with 4.5 by lra. replace (1 * / 1) with 1 by lra.
  destruct (Rle_dec (n_mag a) (Q2R (bssa14_M_h c))); [rewrite Rleb_true by lra|rewrite Rleb_false by lra]; fcbn; reflexivity.
Qed.
Theorem bssa14_rock_spec src a : nga_gives src a -> n_v a = 760 -> n_z1 a = None ->
  exists o, gmm_out (bssa14 src) o /\
    Forall2 (fun c s => s = Fin (exp (bssa14_rock c a))) (skipn 2 bssa14_coeff) (o_sa o) /\
    (forall c, nth_error bssa14_coeff 1 = Some c -> o_pga o = Fin (exp (bssa14_rock c a))) /\
    (forall c, nth_error bssa14_coeff 0 = Some c -> o_pgv o = Fin (exp (bssa14_rock c a))).
Proof.
  intros G Hv Hz. exists (bssa14_outs a). split; [apply bssa14_out; exact G|].
  assert (S : forall c, In c bssa14_coeff -> bssa14_resp a c = Fin (bssa14_rock c a)).
  { intros c Hc. rewrite bssa14_resp_eq, bssa14_ref_spec by exact Hc. destruct (bssa14_pga_ref_pos a) as (p & -> & P).
    unfold bssa14_depth. rewrite Hv, Hz. cbn [option_map]. rewrite bssa14_site_760 by assumption. fcbn. f_equal. lra. }
  unfold bssa14_outs, row_outs; cbn [o_sa o_pga o_pgv]. split; [|split].
  - change (skipn 2 bssa14_coeff) with bssa14_psa. apply F2_map. intros c Hc. rewrite S by (apply bssa14_psa_in, Hc). reflexivity.
  - intros c E. injection E as <-. change (Mk_bssa14_row _ _ _ _ _ _ _ _ _ _ _ _ _ _ _ _ _ _ _ _ _ _ _ _ _ _ _ _ _ _ _ _ _ _ _ _ _) with bssa14_pga_row.
    rewrite S by apply bssa14_pga_in. reflexivity.
  - intros c E. injection E as <-. change (Mk_bssa14_row _ _ _ _ _ _ _ _ _ _ _ _ _ _ _ _ _ _ _ _ _ _ _ _ _ _ _ _ _ _ _ _ _ _ _ _ _) with bssa14_pgv_row.
    rewrite S by apply bssa14_pgv_in. unfold fmul, fexp. f_equal. lra.
Qed.

(** ** CB14 sigma on linear sites *)
Lemma cb14_alpha_rock c p v : In c cb14_coeff -> 1086 <= v -> cb14_alpha c p (Fin v) = Fin 0.
Proof.
  intros Hc Hv. row_upto Hc cb14_k_1 (1086#1)%Q as K. unfold cb14_alpha, qf. fcbn. rewrite Rltb_false by lra. reflexivity.
Qed.
Theorem cb14_sigma_spec src a x t : nga_gives src a -> n_x a = Some x -> n_mech a = Some t -> geom_ok x a -> 1086 <= n_v a ->
  exists o, gmm_out (cb14 src) o /\
    Forall2 (fun c s => rss (cb14_tau_spec c (n_mag a)) (cb14_phi_spec c (n_mag a)) s) (firstn 21 cb14_coeff) (o_sd o) /\
    (forall c, nth_error cb14_coeff 21 = Some c -> rss (cb14_tau_spec c (n_mag a)) (cb14_phi_spec c (n_mag a)) (o_sd_pga o)) /\
    (forall c, nth_error cb14_coeff 22 = Some c -> rss (cb14_tau_spec c (n_mag a)) (cb14_phi_spec c (n_mag a)) (o_sd_pgv o)).
Proof.
  intros G Ex Et HG Hv. exists (cb14_outs x a). split; [apply (cb14_out _ _ _ t); auto; lra|].
  assert (S : forall c, In c cb14_coeff -> rss (cb14_tau_spec c (n_mag a)) (cb14_phi_spec c (n_mag a)) (cb14_std x a c)).
  { intros c Hc. unfold cb14_std. destruct (cb14_std_form c (n_mag a) (n_v a) (cb14_pga_ref_of x a) Hc ltac:(lra) (cb14_pga_ref_pos x a HG ltac:(lra)))
      as (al & sg & tau & phi & Ea & -> & T & P & E & L & _ & Z).
    rewrite cb14_alpha_rock in Ea by assumption. injection Ea as <-. destruct (Z eq_refl) as [Z1 Z2]. cbn [fst].
    unfold cb14_tau_spec, cb14_phi_spec. rewrite <- !clipd_ramp. fold (cb14_tauR c (n_mag a)) (cb14_phiR c (n_mag a)). rewrite <- Z1, <- Z2.
    exists sg. split; [reflexivity|]. split; [lra|exact E]. }
  unfold cb14_outs, row_outs; cbn [o_sd o_sd_pga o_sd_pgv].
  split; [|split].
  - fold cb14_psa. apply F2_map. intros c Hc. apply S, cb14_psa_in, Hc.
  - intros c E. injection E as <-. apply S, cb14_pga_in.
  - intros c E. injection E as <-. apply S, cb14_pgv_in.
Qed.

(** ** ASK14 sigma on linear sites *)
Theorem ask14_sigma_spec src a t : nga_gives src a -> n_mech a = Some t -> ask14_geom a -> depth_ok a -> 960 <= n_v a ->
  let jp := String.eqb (str_def "global" ["global"; "california"; "china"; "italy"; "japan"; "taiwan"] (n_region a)) "japan" in
  let me := String.eqb (str_def "measured" ["measured"; "inferred"] (n_source a)) "measured" in
  let ok c s := rss (ask14_tau_spec c (n_mag a)) (Rmax (ask14_phi_spec c jp me (n_mag a) (n_rup a)) 0.4) s in
  exists o, gmm_out (ask14 src) o /\ Forall2 ok (firstn 22 ask14_coeff) (o_sd o) /\
    (forall c, nth_error ask14_coeff 22 = Some c -> ok c (o_sd_pga o)) /\ (forall c, nth_error ask14_coeff 23 = Some c -> ok c (o_sd_pgv o)).
Proof.
  intros G Ht HG Hd Hv jp me ok.
  destruct (ask14_sigma_rock src a t G Ht HG Hd Hv) as (o & Ho & S1 & S2 & S3). exists o. split; [exact Ho|].
  assert (E : forall c s, ask14_rock_sd c a s -> ok c s).
  { intros c s (y & -> & P & Q). exists y. split; [reflexivity|]. split; [exact P|]. rewrite Q. unfold ask14_tau_spec. rewrite <- clip01_ramp by lra.
    replace (7 - 5) with 2 by lra. fold (ask14_tauR c (n_mag a)).
    replace (ask14_phi_spec c jp me (n_mag a) (n_rup a)) with (ask14_phi_of c a); [reflexivity|].
    unfold ask14_phi_of, ask14_phiR, ask14_phi_spec, ask14_jp, ask14_measured, ask14_region, ask14_source.
    rewrite !choice_str. unfold is_str. cbn [pyeq]. fold jp me. rewrite <- !clip01_ramp by lra.
    replace (80 - 30) with 50 by lra. replace (6 - 4) with 2 by lra. reflexivity. }
  split; [|split].
  - revert S1. generalize (firstn 22 ask14_coeff) (o_sd o). induction 1; constructor; auto.
  - intros c Q. apply E. replace c with (nth 22 ask14_coeff ask14_pga_row) by (apply nth_error_nth with (d := ask14_pga_row) in Q; exact Q). exact S2.
  - intros c Q. apply E. replace c with (nth 23 ask14_coeff ask14_pga_row) by (apply nth_error_nth with (d := ask14_pga_row) in Q; exact Q). exact S3.
Qed.
Lemma F2_len {A B} (P : A -> B -> Prop) l1 l2 : Forall2 P l1 l2 -> List.length l1 = List.length l2.
Proof. induction 1; cbn; congruence. Qed.
