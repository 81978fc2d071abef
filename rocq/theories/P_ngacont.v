(** * Continuity of the NGA-West2 medians and standard deviations *)
From Coquelicot Require Import Coquelicot.
From Interval Require Import Tactic.
From Coq Require Import List.
From Verif Require Import M_cy14 M_bssa14 M_cb14 M_ask14 FrameworkProofs Anal Nga Outs Cont Cont1 SpecNga P_cy14 P_bssa14 P_cb14 P_cb14b P_ask14 P_ask14b P_ngaspec
  Spec_cy14 Spec_bssa14 Spec_cb14 Spec_ask14 Properties_NGA Properties_NGAPub Properties_NGAPub2 Properties_NGAPub3.
Open Scope R_scope.
Open Scope string_scope.
Open Scope list_scope.

(** Specification vocabulary.  [run x o]: with the value [x] for the input the model can return [o].  The outputs depend
    continuously on the input at [x0]: for every tolerance there is a neighbourhood of [x0] in which the model returns
    values and the logarithms of all responses and all standard deviations are within the tolerance of those at [x0]. *)
Definition outs_continuous (run : R -> outs -> Prop) (x0 : R) : Prop :=
  forall eps, 0 < eps -> exists delta, 0 < delta /\ forall x, Rabs (x - x0) < delta ->
    (exists o, run x o) /\
    forall o0 o, run x0 o0 -> run x o -> resp2 (ln_close eps) o0 o /\ std2 (num_close eps) o0 o.

Definition rep_outs {A} (rows : list A) (ca cv : A) (med sd : A -> R) : outs :=
  Outs (map (fun c => Fin (exp (med c))) rows) (Fin (exp (med ca))) (Fin (exp (med cv)))
       (map (fun c => Fin (sd c)) rows) (Fin (sd ca)) (Fin (sd cv)).
Lemma reports_out {A} r (rows : list A) ca cv per med sd : reports r rows ca cv per med sd -> gmm_out r (rep_outs rows ca cv med sd).
Proof. intros (g & G & _ & H1 & H2 & H3 & H4 & H5 & H6). exists g. repeat split; assumption. Qed.

Lemma reports_continuous {A} (rows : list A) ca cv per (med sd : R -> A -> R) (model : dict -> M gmm) (inp : R -> nga) x0 r :
  0 < r ->
  (forall x src, Rabs (x - x0) < r -> nga_gives src (inp x) -> reports (model src) rows ca cv per (med x) (sd x)) ->
  (forall c, In c (ca :: cv :: rows) -> continuous (fun x => med x c) x0) ->
  (forall c, In c (ca :: cv :: rows) -> continuous (fun x => sd x c) x0) ->
  outs_continuous (fun x o => exists src, nga_gives src (inp x) /\ gmm_out (model src) o) x0.
Proof.
  intros Hr Hrep Cm Cs eps He.
  destruct (uniform_delta _ med x0 Cm eps He) as (d1 & P1 & U1). destruct (uniform_delta _ sd x0 Cs eps He) as (d2 & P2 & U2).
  exists (Rmin r (Rmin d1 d2)). split; [repeat apply Rmin_pos; assumption|]. intros x Hx.
  assert (X0 : Rabs (x - x0) < r) by (apply Rlt_le_trans with (1 := Hx), Rmin_l).
  assert (X : Rabs (x - x0) < Rmin d1 d2) by (apply Rlt_le_trans with (1 := Hx), Rmin_r).
  assert (X1 : Rabs (x - x0) < d1) by (apply Rlt_le_trans with (1 := X), Rmin_l).
  assert (X2 : Rabs (x - x0) < d2) by (apply Rlt_le_trans with (1 := X), Rmin_r).
  assert (Z0 : Rabs (x0 - x0) < r) by (rewrite Rminus_eq_0, Rabs_R0; exact Hr).
  split.
  - eexists. exists (nga_src (inp x)). split; [apply nga_src_gives|]. eapply reports_out, Hrep; [exact X0|apply nga_src_gives].
  - intros o0 o (s0 & G0 & O0) (s & G & O).
    rewrite (gmm_out_fun _ _ _ O0 (reports_out _ _ _ _ _ _ _ (Hrep _ _ Z0 G0))).
    rewrite (gmm_out_fun _ _ _ O (reports_out _ _ _ _ _ _ _ (Hrep _ _ X0 G))).
    assert (K : forall c, In c (ca :: cv :: rows) -> ln_close eps (Fin (exp (med x0 c))) (Fin (exp (med x c)))).
    { intros c Hc. apply (ln_close_exp eps (med x0 c) (med x c)). apply U1; assumption. }
    assert (L : forall c, In c (ca :: cv :: rows) -> num_close eps (Fin (sd x0 c)) (Fin (sd x c))).
    { intros c Hc. exists (sd x0 c), (sd x c). repeat split. apply U2; assumption. }
    unfold resp2, std2, rep_outs; cbn [o_sa o_pga o_pgv o_sd o_sd_pga o_sd_pgv].
    split; (split; [apply Forall2_map_intro; intros c Hc | split]); first [apply K|apply L]; cbn; auto.
Qed.

(** ** More continuity rules *)
Lemma cpow (f : R -> R) n x : continuous f x -> continuous (fun t => f t ^ n) x.
Proof.
  intros H. induction n as [|n IH]; [apply cconst|]. apply (cext (fun t => f t * f t ^ n)); [reflexivity|]. apply cmult; assumption.
Qed.
Lemma ccosh (f : R -> R) x : continuous f x -> continuous (fun t => cosh (f t)) x.
Proof. intros H. unfold cosh. apply cdiv; [|apply cconst|lra]. apply cplus; [apply cexp, H|]. apply cexp, copp, H. Qed.
Lemma near_lt (f g : R -> R) x : continuous f x -> continuous g x -> f x < g x -> exists e, 0 < e /\ forall t, Rabs (t - x) < e -> f t < g t.
Proof.
  intros Cf Cg L. pose proof (cminus g f x Cg Cf) as C. set (h := (g x - f x) / 2).
  assert (P : 0 < h) by (unfold h; lra).
  destruct (proj1 (filterlim_locally _ _) C (mkposreal h P)) as (d & Hd). exists d. split; [apply cond_pos|].
  intros t Ht. specialize (Hd t Ht). cbv beta in Hd. unfold ball in Hd; cbn in Hd. unfold AbsRing_ball, abs, minus, plus, opp in Hd; cbn in Hd.
  unfold h in Hd. apply Rabs_def2 in Hd. lra.
Qed.
(** Two continuous pieces that agree where they meet. *)
Lemma cif_le (u w f g : R -> R) x : continuous u x -> continuous w x -> (u x <= w x -> continuous f x) -> (w x <= u x -> continuous g x) ->
  (u x = w x -> f x = g x) -> continuous (fun t => if Rle_dec (u t) (w t) then f t else g t) x.
Proof.
  intros Cu Cw Cf Cg E. destruct (Rtotal_order (u x) (w x)) as [L|[Q|L]].
  - destruct (near_lt u w x Cu Cw L) as (e & P & N). apply (cext_near f) with (e := e); [exact P| |apply Cf; lra].
    intros t Ht. specialize (N t Ht). destruct (Rle_dec (u t) (w t)); [reflexivity|lra].
  - specialize (E Q). specialize (Cf (Req_le _ _ Q)). specialize (Cg (Req_le _ _ (eq_sym Q))). apply filterlim_locally. intros eps.
    destruct (proj1 (filterlim_locally _ _) Cf eps) as (d1 & H1). destruct (proj1 (filterlim_locally _ _) Cg eps) as (d2 & H2).
    assert (P : 0 < Rmin d1 d2) by (apply Rmin_pos; apply cond_pos). exists (mkposreal _ P). intros t Ht.
    assert (T1 : ball x d1 t) by (apply Rlt_le_trans with (1 := Ht); apply Rmin_l).
    assert (T2 : ball x d2 t) by (apply Rlt_le_trans with (1 := Ht); apply Rmin_r).
    specialize (H1 t T1). specialize (H2 t T2). cbv beta in *.
    destruct (Rle_dec (u x) (w x)); [|lra]. destruct (Rle_dec (u t) (w t)); [exact H1|]. rewrite E. exact H2.
  - destruct (near_lt w u x Cw Cu L) as (e & P & N). apply (cext_near g) with (e := e); [exact P| |apply Cg; lra].
    intros t Ht. specialize (N t Ht). destruct (Rle_dec (u t) (w t)); [lra|reflexivity].
Qed.
Lemma cif_lt (u w f g : R -> R) x : continuous u x -> continuous w x -> (u x <= w x -> continuous f x) -> (w x <= u x -> continuous g x) ->
  (u x = w x -> f x = g x) -> continuous (fun t => if Rlt_dec (u t) (w t) then f t else g t) x.
Proof.
  intros Cu Cw Cf Cg E. apply (cext (fun t => if Rle_dec (w t) (u t) then g t else f t)).
  - intros t. destruct (Rle_dec (w t) (u t)), (Rlt_dec (u t) (w t)); try lra; reflexivity.
  - apply cif_le; auto. intros; symmetry; apply E; symmetry; assumption.
Qed.
Lemma cramp x0 y0 x1 y1 (f : R -> R) x : x0 < x1 -> continuous f x -> continuous (fun t => ramp x0 y0 x1 y1 (f t)) x.
Proof.
  intros L C. unfold ramp. apply (cif_le f (fun _ => x0)); [exact C|apply cconst|intros _; apply cconst| |].
  - intros _. apply (cif_le (fun _ => x1) f); [apply cconst|exact C|intros _; apply cconst| |].
    + intros _. apply cplus; [apply cconst|]. apply cmult; [apply cconst|]. apply cdiv; [|apply cconst|lra]. apply cminus; [exact C|apply cconst].
    + intros <-. field. lra.
  - intros ->. destruct (Rle_dec x1 x0); [lra|]. field. lra.
Qed.
Lemma cpoly (f : R -> R) x : continuous f x -> forall rest x0 y0, 
  (fix inc (x0 : R) (l : list (R * R)) := match l with [] => True | (x1, _) :: l' => x0 < x1 /\ inc x1 l' end) x0 rest ->
  continuous (fun t => polyline x0 y0 rest (f t)) x.
Proof.
  intros C. induction rest as [|[x1 y1] rest IH]; intros x0 y0 H; cbn [polyline]; [apply cconst|]. destruct H as [L H].
  apply (cif_le f (fun _ => x0)); [exact C|apply cconst|intros _; apply cconst| |].
  - intros _. apply (cif_le f (fun _ => x1)); [exact C|apply cconst| |intros _; apply IH; exact H|].
    + intros _. apply cplus; [apply cconst|]. apply cmult; [apply cconst|]. apply cminus; [exact C|apply cconst].
    + intros ->. destruct rest as [|[x2 y2] rest]; cbn [polyline].
      * field. lra.
      * destruct (Rle_dec x1 x1); [|lra]. field. lra.
  - intros ->. destruct (Rle_dec x0 x1); [|lra]. lra.
Qed.
Ltac cont2 := first [cont1 | match goal with
  | |- continuous (fun t => (@?f t) ^ ?n) _ => apply (cpow f n)
  | |- continuous (fun t => cosh (@?f t)) _ => apply (ccosh f)
  | |- continuous (fun t => if Rle_dec (@?u t) (@?w t) then @?f t else @?g t) _ => apply (cif_le u w f g); [| |intro|intro|intro]
  | |- continuous (fun t => if Rlt_dec (@?u t) (@?w t) then @?f t else @?g t) _ => apply (cif_lt u w f g); [| |intro|intro|intro]
  | |- continuous (fun t => ramp ?a ?b ?c ?d (@?f t)) _ => apply (cramp a b c d f)
  | |- continuous (fun t => if ?b then @?f t else @?g t) _ => destruct b
  end].
Ltac contc := repeat (cbv beta; cont2); cbv beta.
(** The scenario with another magnitude, rupture distance, Joyner-Boore distance and velocity. *)
Definition at_ (a : nga) (m r j v : R) : nga := with_mag (with_rup (with_jb (with_v a v) j) r) m.

(** ** BSSA14 *)
Lemma bs_reports src a : nga_gives src a -> 0 < n_v a ->
  reports (bssa14 src) bssa14_psa bssa14_pga_row bssa14_pgv_row bssa14_period (fun c => bs_med bssa14_pga_row c a) (fun c => bs_sd c a).
Proof.
  intros H Hv. destruct (bssa14_construct src a H) as [s E]. eapply reports_rows; [exact E|reflexivity..| | |].
  - intros c Hc. apply bs_med_ok; assumption.
  - intros c Hc. apply bs_sd_ok; assumption.
  - intros c [<-|[<-|Hc]]; [apply bssa14_pga_in|apply bssa14_pgv_in|apply bssa14_psa_in, Hc].
Qed.
Lemma bs_rows c : In c (bssa14_pga_row :: bssa14_pgv_row :: bssa14_psa) -> In c bssa14_coeff.
Proof. intros [<-|[<-|Hc]]; [apply bssa14_pga_in|apply bssa14_pgv_in|apply bssa14_psa_in, Hc]. Qed.
Lemma bs_event_c c me (m : R -> R) x : continuous m x -> continuous (fun t => bssa14_event_spec c me (m t)) x.
Proof. intros Cm. unfold bssa14_event_spec. cbv zeta. apply cplus; [apply cconst|]. contc; try assumption. replace (m x - Q2R (bssa14_M_h c)) with 0 by lra. ring. Qed.
Lemma bs_path_c c re (m r : R -> R) x : In c bssa14_coeff -> continuous m x -> continuous r x -> continuous (fun t => bssa14_path_spec c re (m t) (r t)) x.
Proof.
  intros Hc Cm Cr. row_pos Hc bssa14_h as H. unfold bssa14_path_spec. cbv zeta. contc; try assumption. 
  apply sqrt_lt_R0. pose proof (Rle_0_sqr (r x)). unfold Rsqr in *. nra.
Qed.
Lemma cy_z1_c re (v : R -> R) x : continuous v x -> 0 < v x -> continuous (fun t => cy_mean_z1 re (v t)) x.
Proof.
  intros Cv Pv. pose proof (pow_lt (v x) 2 Pv). pose proof (pow_lt (v x) 4 Pv). unfold cy_mean_z1. contc; try assumption; first [apply Rdiv_lt_0_compat; lra|lra].
Qed.
Lemma bs_rock_c c a (m r j v : R -> R) x : In c bssa14_coeff -> continuous m x -> continuous j x ->
  continuous (fun t => bs_rock c (at_ a (m t) (r t) (j t) (v t))) x.
Proof.
  intros Hc Cm Cj. destruct a as [a_m a_r a_j a_x a_y0 a_cr a_dip a_v a_tor a_bor a_bot a_hyp a_w a_z1 a_z25 a_dpp a_me a_re a_so a_hw a_af]. unfold bs_rock, at_, bs_mech_of, bs_region_of. cbn [with_mag with_rup with_jb with_v n_mag n_jb n_mech n_region].
  apply cplus; [apply bs_event_c; assumption|apply bs_path_c; assumption].
Qed.
Lemma bs_med_c c a (m r j v : R -> R) x : In c bssa14_coeff -> continuous m x -> continuous j x -> continuous v x -> 0 < v x ->
  continuous (fun t => bs_med bssa14_pga_row c (at_ a (m t) (r t) (j t) (v t))) x.
Proof.
  intros Hc Cm Cj Cv Pv. row_pos Hc bssa14_V_c as HV. pose proof (bs_rock_c c a m r j v x Hc Cm Cj) as C1. pose proof (bs_rock_c _ a m r j v x bssa14_pga_in Cm Cj) as C2.
  destruct a as [a_m a_r a_j a_x a_y0 a_cr a_dip a_v a_tor a_bor a_bot a_hyp a_w a_z1 a_z25 a_dpp a_me a_re a_so a_hw a_af]. unfold bs_med. set (rk := bs_rock) in *. unfold at_ in *. cbn [with_mag with_rup with_jb with_v n_mag n_jb n_mech n_region n_v n_z1] in *.
  apply cplus; [apply cplus; [apply cplus|]|].
  - exact C1.
  - unfold bs_lin. contc; try assumption; try lra. apply Rdiv_lt_0_compat; [apply Rmin_glb_lt|]; lra.
  - unfold bs_nonlin. contc; try assumption; try lra. apply Rdiv_lt_0_compat; [|lra]. match goal with |- context [exp ?y] => pose proof (exp_pos y) end. lra.
  - unfold bs_basin. destruct a_z1; [|apply cconst]. destruct (Rlt_dec _ _); [apply cconst|]. contc; try assumption; try lra. apply cy_z1_c; assumption.
Qed.
Lemma bs_sd_c c a (m r j v : R -> R) x : In c bssa14_coeff -> continuous m x -> continuous j x -> continuous v x -> 0 < v x ->
  continuous (fun t => bs_sd c (at_ a (m t) (r t) (j t) (v t))) x.
Proof.
  intros Hc Cm Cj Cv Pv. destruct a as [a_m a_r a_j a_x a_y0 a_cr a_dip a_v a_tor a_bor a_bot a_hyp a_w a_z1 a_z25 a_dpp a_me a_re a_so a_hw a_af]. unfold bs_sd, at_. cbn [with_mag with_rup with_jb with_v n_mag n_jb n_mech n_region n_v n_z1] in *.
  unfold bssa14_tau_spec, bssa14_phi_spec. row_pos Hc bssa14_R_1 as R1. row_lt Hc bssa14_R_1 bssa14_R_2 as R2. row_pos Hc bssa14_V_1 as V1. row_lt Hc bssa14_V_1 bssa14_V_2 as V2.
  contc; try assumption; try lra; try (apply ln_increasing; lra). pose proof (Rmax_r (j x) 0.1). lra.
Qed.
Lemma near_pos (v : R -> R) x : continuous v x -> 0 < v x -> exists e, 0 < e /\ forall t, Rabs (t - x) < e -> 0 < v t.
Proof. intros C P. apply (near_lt (fun _ => 0) v x (cconst x 0) C P). Qed.
Lemma at_v a m r j v : n_v (at_ a m r j v) = v. Proof. destruct a; reflexivity. Qed.
Lemma bs_continuous a (m r j v : R -> R) x : continuous m x -> continuous j x -> continuous v x -> 0 < v x ->
  outs_continuous (fun t o => exists src, nga_gives src (at_ a (m t) (r t) (j t) (v t)) /\ gmm_out (bssa14 src) o) x.
Proof.
  intros Cm Cj Cv Pv. destruct (near_pos v x Cv Pv) as (e & Pe & N).
  apply (reports_continuous bssa14_psa bssa14_pga_row bssa14_pgv_row bssa14_period (fun t c => bs_med bssa14_pga_row c (at_ a (m t) (r t) (j t) (v t)))
    (fun t c => bs_sd c (at_ a (m t) (r t) (j t) (v t))) bssa14 (fun t => at_ a (m t) (r t) (j t) (v t)) x e Pe).
  - intros t src Ht G. apply bs_reports; [exact G|]. rewrite at_v. apply N, Ht.
  - intros c Hc. apply bs_med_c; [apply bs_rows|..]; assumption.
  - intros c Hc. apply bs_sd_c; [apply bs_rows|..]; assumption.
Qed.

(** ** CY14 *)
Ltac nga_split a := destruct a as [a_m a_r a_j a_x a_y0 a_cr a_dip a_v a_tor a_bor a_bot a_hyp a_w a_z1 a_z25 a_dpp a_me a_re a_so a_hw a_af].
Ltac nga_cbn := unfold at_ in *; cbn [with_mag with_rup with_jb with_v n_mag n_rup n_jb n_x n_y0 n_crjb n_dip n_v n_tor n_bor n_bot n_hyp n_width n_z1 n_z25 n_dpp n_mech n_region n_source n_hw n_after] in *.
Lemma cosh_gt0 y : 0 < cosh y.
Proof. unfold cosh. pose proof (exp_pos y). pose proof (exp_pos (- y)). lra. Qed.
Lemma cy_tor_c mech (m : R -> R) x : continuous m x -> continuous (fun t => cy_mean_tor mech (m t)) x.
Proof. intros C. unfold cy_mean_tor. contc; assumption. Qed.
Definition cy_off_bracket (a : nga) (m : R) : Prop := ~ In (cy_reg a) ["japan"; "italy"] \/ (m <> 6 /\ m <> 6.9).
Lemma cy_ref_c c X a (m r j v : R -> R) x : In c cy14_coeff -> cy_off_bracket a (m x) -> continuous m x -> continuous r x -> continuous j x -> 0 <= r x ->
  continuous (fun t => cy_ref c X (at_ a (m t) (r t) (j t) (v t))) x.
Proof.
  intros Hc OB Cm Cr Cj Pr. row_pos Hc cy14_c_5 as P5. row_pos Hc cy14_c_rb as Prb0. assert (P5' : 0 < Q2R (cy14_c_5 c)) by lra. assert (Prb : 0 < Q2R (cy14_c_rb c)) by lra.
  assert (RG : cy_reg (at_ a (m x) (r x) (j x) (v x)) = cy_reg a) by (destruct a; reflexivity). 
  unfold cy_off_bracket in OB. nga_split a. unfold cy_ref, cy_reg, cy_mech, cy_tor, cy_on_hw in *. nga_cbn. cbv zeta.
  set (re := option_of _ _ a_re) in *. set (me := option_of _ _ a_me) in *.
  repeat match goal with |- continuous (fun t => @?f t + @?g t) _ => apply (cplus f g) end.
  all: try solve [contc; try assumption; try lra; try (pose proof (cosh_gt0 (2 * Rmax (m x - 4.5) 0)); lra)].
  - destruct a_tor; cbn [or_else]; contc; try assumption; try apply cy_tor_c; try assumption; pose proof (cosh_gt0 (2 * Rmax (m x - 4.5) 0)); lra.
  - contc; try assumption. match goal with |- context [exp ?y] => pose proof (exp_pos y) end. lra.
  - contc; try assumption. pose proof (Rmult_lt_0_compat _ _ P5' (cosh_gt0 (Q2R (cy14_c_6 c) * Rmax (m x - Q2R (cy14_c_hm c)) 0))). lra.
  - contc; try assumption. apply sqrt_lt_R0. pose proof (pow2_ge_0 (r x)). pose proof (pow_lt (Q2R (cy14_c_rb c)) 2 Prb). lra.
  - apply cmult; [apply cmult|exact Cr].
    + destruct (_ || _)%bool eqn:E; [|apply cconst]. destruct OB as [OB|[N1 N2]].
      * exfalso. apply OB. apply Bool.orb_true_iff in E. rewrite !String.eqb_eq in E. destruct E as [->| ->]; cbn; auto.
      * contc; try assumption; exfalso; lra.
    + contc; try assumption. match goal with |- context [cosh ?y] => pose proof (cosh_gt0 y) end. lra.
  - destruct a_hw as [[]|]; [|apply cconst|apply cconst]. destruct a_tor; cbn [or_else]; contc; try assumption; try apply cy_tor_c; try assumption; lra.
Qed.
Lemma cy_med_c c X a (m r j v : R -> R) x : In c cy14_coeff -> cy_off_bracket a (m x) -> continuous m x -> continuous r x -> continuous j x -> continuous v x ->
  0 <= r x -> 0 < v x -> continuous (fun t => cy_med c X (at_ a (m t) (r t) (j t) (v t))) x.
Proof.
  intros Hc OB Cm Cr Cj Cv Pr Pv. pose proof (cy_ref_c c X a m r j v x Hc OB Cm Cr Cj Pr) as CR. row_pos Hc cy14_phi_4 as P4.
  row_pos Hc cy14_phi_6 as P6. row_pos Hc cy14_phi_6jp as P6j.
  unfold cy_med. set (rk := cy_ref) in *. nga_split a. unfold cy_b, cy_dz1, cy_reg, cy_mech in *. nga_cbn. cbv zeta.
  apply cplus; [apply cplus; [apply cplus; [exact CR|]|]|].
  - contc; try assumption; try lra.
  - contc; try assumption; try lra. apply Rdiv_lt_0_compat; [|lra]. match goal with |- context [exp ?y] => pose proof (exp_pos y) end. lra.
  - destruct a_z1; [|apply cconst]. destruct (String.eqb _ _); contc; try assumption; try lra; apply cy_z1_c; assumption.
Qed.
Lemma cy_sd_c c X a (m r j v : R -> R) x : In c cy14_coeff -> cy_off_bracket a (m x) -> continuous m x -> continuous r x -> continuous j x -> continuous v x ->
  0 <= r x -> 0 < v x -> continuous (fun t => cy_sd c X (at_ a (m t) (r t) (j t) (v t))) x.
Proof.
  intros Hc OB Cm Cr Cj Cv Pr Pv. pose proof (cy_ref_c c X a m r j v x Hc OB Cm Cr Cj Pr) as CR. row_pos Hc cy14_phi_4 as P4.
  unfold cy_sd. set (rk := cy_ref) in *. nga_split a. unfold cy_b, cy_reg, cy_measured in *. nga_cbn. cbv zeta.
  contc; try assumption; try lra; match goal with |- context [exp (rk ?a ?b ?c)] => pose proof (exp_pos (rk a b c)) end; lra.
Qed.
Lemma cy_reports src a X : nga_gives src a -> n_x a = Some X -> 0 <= n_rup a -> 0 < n_v a ->
  reports (cy14 src) cy14_psa cy14_pga_row cy14_pgv_row cy14_period (fun c => cy_med c X a) (fun c => cy_sd c X a).
Proof.
  intros H Hx Hr Hv. destruct (cy14_construct src a X H Hx) as [s E]. eapply reports_rows; [exact E|reflexivity..| | |].
  - intros c Hc. apply cy_med_ok; assumption.
  - intros c Hc. apply cy_sd_ok; assumption.
  - intros c [<-|[<-|Hc]]; [apply cy14_pga_in|apply cy14_pgv_in|apply cy14_psa_in, Hc].
Qed.
Lemma cy_rows c : In c (cy14_pga_row :: cy14_pgv_row :: cy14_psa) -> In c cy14_coeff.
Proof. intros [<-|[<-|Hc]]; [apply cy14_pga_in|apply cy14_pgv_in|apply cy14_psa_in, Hc]. Qed.
Lemma at_x a m r j v : n_x (at_ a m r j v) = n_x a. Proof. destruct a; reflexivity. Qed.
Lemma at_rup a m r j v : n_rup (at_ a m r j v) = r. Proof. destruct a; reflexivity. Qed.
Lemma cy_continuous a X (m r j v : R -> R) x : n_x a = Some X -> cy_off_bracket a (m x) -> continuous m x -> continuous r x -> continuous j x -> continuous v x ->
  (forall t, 0 <= r t) -> 0 < v x ->
  outs_continuous (fun t o => exists src, nga_gives src (at_ a (m t) (r t) (j t) (v t)) /\ gmm_out (cy14 src) o) x.
Proof.
  intros Hx OB Cm Cr Cj Cv Pr Pv. destruct (near_pos v x Cv Pv) as (e & Pe & N).
  apply (reports_continuous cy14_psa cy14_pga_row cy14_pgv_row cy14_period (fun t c => cy_med c X (at_ a (m t) (r t) (j t) (v t)))
    (fun t c => cy_sd c X (at_ a (m t) (r t) (j t) (v t))) cy14 (fun t => at_ a (m t) (r t) (j t) (v t)) x e Pe).
  - intros t src Ht G. apply cy_reports; [exact G|rewrite at_x; exact Hx|rewrite at_rup; apply Pr|]. rewrite at_v. apply N, Ht.
  - intros c Hc. apply cy_med_c; [apply cy_rows|..]; auto.
  - intros c Hc. apply cy_sd_c; [apply cy_rows|..]; auto.
Qed.

(** ** ASK14 *)
Lemma clip_c (f : R -> R) x : continuous f x -> continuous (fun t => as_clip (f t)) x.
Proof. intros C. unfold as_clip. contc; assumption. Qed.
Lemma as_f1_c c (m r : R -> R) x : In c ask14_coeff -> continuous m x -> continuous r x -> continuous (fun t => as_f1 c (m t) (r t)) x.
Proof.
  intros Hc Cm Cr. row_lt Hc (fun _ : ask14_row => 1%Q) ask14_c4 as H4. 
  assert (D : 0 < sqrt (r x ^ 2 + (Q2R (ask14_c4 c) - (Q2R (ask14_c4 c) - 1) * as_clip (5 - m x)) ^ 2)).
  { apply sqrt_lt_R0. pose proof (pow2_ge_0 (r x)). unfold as_clip. pose proof (Rmin_r (Rmax (5 - m x) 0) 1).
    set (k := Rmin _ _) in *. assert (0 < Q2R (ask14_c4 c) - (Q2R (ask14_c4 c) - 1) * k) by nra. pose proof (pow_lt _ 2 H1). lra. }
  unfold as_f1. cbv zeta. 
  apply cplus; [contc; assumption|]. 
  assert (CL : continuous (fun t => ln (sqrt (r t ^ 2 + (Q2R (ask14_c4 c) - (Q2R (ask14_c4 c) - 1) * as_clip (5 - m t)) ^ 2))) x).
  { unfold as_clip in *. contc; assumption. }
  set (L := fun t => ln (sqrt (r t ^ 2 + (Q2R (ask14_c4 c) - (Q2R (ask14_c4 c) - 1) * as_clip (5 - m t)) ^ 2))) in *.
  row_lt Hc ask14_m2 ask14_m1 as H12.
  apply (cif_le m (fun _ => Q2R (ask14_m2 c))); [exact Cm|apply cconst| | |].
  - intros _. apply cplus; [contc; assumption|]. apply cmult; [apply cconst|exact CL].
  - intros _. apply cplus; [|apply cmult; [contc; assumption|exact CL]]. 
    apply cplus; [|contc; assumption].
    apply (cext (fun t => if Rle_dec (m t) (Q2R (ask14_m1 c)) then Q2R (ask14_a4 c) * (m t - Q2R (ask14_m1 c)) else Q2R (ask14_a5 c) * (m t - Q2R (ask14_m1 c)))).
    { intros t. destruct (Rle_dec (m t) (Q2R (ask14_m1 c))); reflexivity. }
    contc; try assumption. replace (m x - Q2R (ask14_m1 c)) with 0 by lra. ring.
  - intros E. destruct (Rle_dec (m x) (Q2R (ask14_m1 c))); [|lra]. rewrite E. ring.
Qed.
Lemma as_tor_c o (m : R -> R) x : continuous m x -> continuous (fun t => or_else o (polyline 5 7.8 [(7.2, 0)] (m t))) x.
Proof. intros C. destruct o; cbn [or_else]; [apply cconst|]. apply (cpoly m x C). cbn. split; [lra|exact I]. Qed.
Lemma as_f4_c c X a (m r j v : R -> R) x : In c ask14_coeff -> 0 <= X -> 0 < n_dip a <= 90 -> continuous m x -> continuous j x ->
  continuous (fun t => as_f4 c X (at_ a (m t) (r t) (j t) (v t))) x.
Proof.
  intros Hc HX Hd Cm Cj. nga_split a. unfold as_f4, as_wid, as_rad, as_tor. nga_cbn. cbv zeta.
  destruct (Req_dec a_dip 90) as [->|ND].
  { apply (cext (fun _ => 0)); [|apply cconst]. intros t. rewrite (Rmin_left (90 - 90)) by lra. unfold Rdiv at 1. rewrite Rminus_eq_0, Rmult_0_l, Rmult_0_r, !Rmult_0_l. reflexivity. }
  set (rad := a_dip * (PI / 180)).
  assert (RB : 0 < rad < PI / 2) by (unfold rad; pose proof PI_RGT_0; split; nra).
  assert (CO : 0 < cos rad) by (apply cos_gt_0; lra). assert (SI : 0 < sin rad) by (apply sin_gt_0; pose proof PI_RGT_0; lra).
  repeat match goal with |- continuous (fun _ => ?k) _ => exact (cconst _ k) | |- continuous (fun t => @?f t * @?g t) _ => apply (cmult f g) end.
  - contc; try assumption; try lra.
    + rewrite H0. ring.
    + destruct (Rlt_dec (m x) 6.5); [|lra]. rewrite H. lra.
  - destruct a_w as [w|]; cbn [or_else]; [apply cconst|].
    set (r1 := fun t => Rmin (18 / sin rad) (exp ((- (1.75) + 0.45 * m t) * ln 10)) * cos rad).
    assert (C1 : continuous r1 x) by (unfold r1; contc; assumption).
    assert (P1 : 0 < r1 x). { unfold r1. apply Rmult_lt_0_compat; [|exact CO]. apply Rmin_glb_lt; [apply Rdiv_lt_0_compat; lra|apply exp_pos]. }
    change (continuous (fun t => if Rlt_dec X (r1 t) then 0.25 + 1.5 * (X / r1 t) - 0.75 * (X / r1 t) ^ 2 else if Rlt_dec X (3 * r1 t) then 1 - (X - r1 t) / (2 * r1 t) else 0) x).
    contc; try assumption; try lra.
    + rewrite H0. field. lra.
    + destruct (Rlt_dec X (3 * r1 x)); [|lra]. replace (X / r1 x) with 1 by (rewrite H; field; lra). replace (X - r1 x) with 0 by lra. lra.
  - apply clip_c. apply cminus; [apply cconst|]. apply cdiv; [|apply cconst|lra]. apply cpow, as_tor_c, Cm.
  - destruct a_y0; apply clip_c; contc; try assumption; lra.
Qed.
Definition as_geom (a : nga) : Prop := n_hw a = Some true -> exists X, n_x a = Some X /\ 0 <= X /\ 0 < n_dip a <= 90.
Lemma as_sp_c c a (m r j v : R -> R) x : In c ask14_coeff -> as_geom a -> continuous m x -> continuous r x -> continuous j x ->
  continuous (fun t => as_source_path c (at_ a (m t) (r t) (j t) (v t))) x.
Proof.
  intros Hc G Cm Cr Cj.
  assert (C4 : continuous (fun t => match n_hw a, n_x a with Some true, Some X => as_f4 c X (at_ a (m t) (r t) (j t) (v t)) | _, _ => 0 end) x).
  { unfold as_geom in G. destruct (n_hw a) as [[]|]; try apply cconst. destruct (G eq_refl) as (X & -> & HX & Hd). apply as_f4_c; assumption. }
  clear G. pose proof (as_f1_c c m r x Hc Cm Cr) as C1. unfold as_source_path. set (f4 := as_f4) in *. nga_split a. unfold as_tor, as_mech. nga_cbn.
  apply cplus; [apply cplus; [apply cplus; [apply cplus|]|]|].
  - exact C1.
  - exact C4.
  - apply cmult; [apply cconst|]. apply clip_c. apply cdiv; [apply as_tor_c, Cm|apply cconst|lra].
  - apply cmult; [apply cconst|]. apply clip_c. contc; assumption.
  - apply cconst.
Qed.
Lemma as_v1_pos c : 0 < as_v1 c.
Proof. unfold as_v1. apply Rmult_lt_0_compat; [lra|apply exp_pos]. Qed.
Lemma as_vstar_c c (v : R -> R) x : continuous v x -> continuous (fun t => as_vstar c (v t)) x.
Proof. intros C. unfold as_vstar. contc; assumption. Qed.
Lemma as_vstar_pos c v : 0 < v -> 0 < as_vstar c v.
Proof. intros P. unfold as_vstar. apply Rmin_glb_lt; [exact P|apply as_v1_pos]. Qed.
Lemma as_reg_c c re (v r : R -> R) x : In c ask14_coeff -> continuous v x -> continuous r x -> 0 < v x ->
  continuous (fun t => as_regional c re (v t) (r t)) x.
Proof.
  intros Hc Cv Cr Pv. row_pos Hc ask14_v_lin as HL. unfold as_regional. pose proof (as_vstar_c c v x Cv). pose proof (as_vstar_pos c (v x) Pv).
  contc; try assumption; try lra.
  - apply Rdiv_lt_0_compat; lra.
  - apply (cpoly v x Cv). cbn. repeat split; lra.
Qed.
Lemma as_rock_c c a (m r j v : R -> R) x : In c ask14_coeff -> as_geom a -> continuous m x -> continuous r x -> continuous j x ->
  continuous (fun t => as_rock c (at_ a (m t) (r t) (j t) (v t))) x.
Proof.
  intros Hc G Cm Cr Cj. pose proof (as_sp_c c a m r j v x Hc G Cm Cr Cj) as C1. unfold as_rock. set (sp := as_source_path) in *.
  pose proof (as_reg_c c (as_reg a) (fun _ => 1180) r x Hc (cconst x 1180) Cr ltac:(lra)) as C2. 
  apply cplus; [|apply cconst]. apply cplus; [exact C1|]. nga_split a. exact C2.
Qed.
Lemma as_f5_c c (v p : R -> R) x : In c ask14_coeff -> continuous v x -> continuous p x -> 0 < v x -> 0 < p x -> continuous (fun t => as_f5 c (v t) (p t)) x.
Proof.
  intros Hc Cv Cp Pv Pp. row_pos Hc ask14_v_lin as HL. row_pos Hc ask14_c as HC. unfold as_f5. cbv zeta. pose proof (as_vstar_c c v x Cv). pose proof (as_vstar_pos c (v x) Pv).
  assert (Z : 0 < as_vstar c (v x) / Q2R (ask14_v_lin c)) by (apply Rdiv_lt_0_compat; lra).
  contc; try assumption; try lra.
  - pose proof (exp_pos (Q2R (ask14_n c) * ln (as_vstar c (v x) / Q2R (ask14_v_lin c)))). unfold Rpower. nra.
  - rewrite H1, ln_1. replace (Rpower 1 (Q2R (ask14_n c))) with 1 by (unfold Rpower; rewrite ln_1, Rmult_0_r, exp_0; reflexivity).
    rewrite Rmult_1_r. ring.
Qed.
Lemma as_z1_c re (v : R -> R) x : continuous v x -> 0 < v x -> continuous (fun t => as_z1 re (v t)) x.
Proof.
  intros Cv Pv. pose proof (pow_lt (v x) 2 Pv). pose proof (pow_lt (v x) 4 Pv). unfold as_z1. contc; try assumption; first [apply Rdiv_lt_0_compat; lra|lra].
Qed.
Lemma as_z1_pos re v : 0 < as_z1 re v.
Proof. unfold as_z1. destruct (String.eqb _ _); apply Rdiv_lt_0_compat; try lra; apply exp_pos. Qed.
Lemma as_f10_c c re z (v : R -> R) x : continuous v x -> 0 < v x -> match z with Some z => 0 <= z /\ v x <> 1180 | None => True end ->
  continuous (fun t => as_f10 c re (v t) z) x.
Proof.
  intros Cv Pv Hz. unfold as_f10. destruct z as [z|].
  - destruct Hz as [Hz N].
    assert (E : exists e, 0 < e /\ forall t, Rabs (t - x) < e -> v t <> 1180).
    { destruct (Rdichotomy _ _ N) as [L|L]; [destruct (near_lt v (fun _ => 1180) x Cv (cconst x 1180) L) as (e & P & K)|destruct (near_lt (fun _ => 1180) v x (cconst x 1180) Cv L) as (e & P & K)];
      exists e; (split; [exact P|]); intros t Ht; specialize (K t Ht); cbv beta in K; lra. }
    destruct E as (e & Pe & K).
    apply (cext_near (fun t => polyline 150 (Q2R (ask14_a43 c)) [(250, Q2R (ask14_a44 c)); (400, Q2R (ask14_a45 c)); (700, Q2R (ask14_a46 c))] (v t)
              * ln ((z + 0.01) / (as_z1 re (v t) + 0.01)))) with (e := e); [exact Pe| |].
    + intros t Ht. destruct (Req_EM_T (v t) 1180) as [Q|Q]; [exfalso; exact (K t Ht Q)|reflexivity].
    + pose proof (as_z1_pos re (v x)). apply cmult; [apply (cpoly v x Cv); cbn; repeat split; lra|].
      contc; try (apply as_z1_c; assumption); try lra. apply Rdiv_lt_0_compat; lra.
  - apply (cext (fun _ => 0)); [|apply cconst]. intros t. destruct (Req_EM_T _ _); reflexivity.
Qed.
Lemma as_med_c c a (m r j v : R -> R) x : In c ask14_coeff -> as_geom a -> continuous m x -> continuous r x -> continuous j x -> continuous v x -> 0 < v x ->
  match n_z1 a with Some z => 0 <= z /\ v x <> 1180 | None => True end ->
  continuous (fun t => as_med c (at_ a (m t) (r t) (j t) (v t))) x.
Proof.
  intros Hc G Cm Cr Cj Cv Pv Hz. pose proof (as_sp_c c a m r j v x Hc G Cm Cr Cj) as C1. pose proof (as_rock_c c a m r j v x Hc G Cm Cr Cj) as C2.
  pose proof (as_reg_c c (as_reg a) v r x Hc Cv Cr Pv) as C3.
  pose proof (as_f5_c c v (fun t => exp (as_rock c (at_ a (m t) (r t) (j t) (v t)))) x Hc Cv (cexp _ _ C2) Pv (exp_pos _)) as C5.
  pose proof (as_f10_c c (as_reg a) (n_z1 a) v x Cv Pv Hz) as C10. 
  unfold as_med. set (sp := as_source_path) in *. set (rk := as_rock) in *.
  apply cplus; [apply cplus; [apply cplus|]|]; [exact C1| | |]; nga_split a; [exact C3|exact C5|exact C10].
Qed.
Lemma as_sd_c c a (m r j v : R -> R) x : In c ask14_coeff -> as_geom a -> continuous m x -> continuous r x -> continuous j x -> continuous v x -> 0 < v x ->
  continuous (fun t => as_sd c (at_ a (m t) (r t) (j t) (v t))) x.
Proof.
  intros Hc G Cm Cr Cj Cv Pv. pose proof (as_rock_c c a m r j v x Hc G Cm Cr Cj) as C2. clear G. row_pos Hc ask14_v_lin as HL. row_pos Hc ask14_c as HC.
  unfold as_sd. set (rk := as_rock) in *.
  assert (CD : continuous (fun t => as_d c (v t) (exp (rk c (at_ a (m t) (r t) (j t) (v t))))) x).
  { unfold as_d. set (R := fun t => rk c (at_ a (m t) (r t) (j t) (v t))) in *. change (continuous (fun t => if Rle_dec (Q2R (ask14_v_lin c)) (v t) then 0
      else - Q2R (ask14_b c) * exp (R t) / (exp (R t) + Q2R (ask14_c c)) + Q2R (ask14_b c) * exp (R t) / (exp (R t) + Q2R (ask14_c c) * Rpower (v t / Q2R (ask14_v_lin c)) (Q2R (ask14_n c)))) x).
    pose proof (exp_pos (R x)). assert (0 < v x / Q2R (ask14_v_lin c)) by (apply Rdiv_lt_0_compat; lra).
    contc; try assumption; try lra.
    - pose proof (exp_pos (Q2R (ask14_n c) * ln (v x / Q2R (ask14_v_lin c)))). unfold Rpower. nra.
    - replace (v x / Q2R (ask14_v_lin c)) with 1 by (rewrite H1; field; lra). replace (Rpower 1 (Q2R (ask14_n c))) with 1 by (unfold Rpower; rewrite ln_1, Rmult_0_r, exp_0; reflexivity).
      rewrite Rmult_1_r. field. lra. }
  cbv zeta. set (D := fun t => as_d c (v t) (exp (rk c (at_ a (m t) (r t) (j t) (v t))))) in *.
  apply (cext (fun t => sqrt ((ask14_tau_spec c (m t) * (1 + D t)) ^ 2 +
     (Rmax (ask14_phi_spec c (String.eqb (as_reg a) "japan") (as_measured a) (m t) (r t) ^ 2 - 0.4 ^ 2) 0 * (1 + D t) ^ 2 + 0.4 ^ 2)))).
  { intros t. unfold D. nga_split a. reflexivity. }
  unfold ask14_tau_spec, ask14_phi_spec. contc; try assumption; lra.
Qed.
Lemma as_reports src a t : nga_gives src a -> n_mech a = Some t -> 0 < n_v a -> as_geom a ->
  match n_z1 a with Some z => 0 <= z | None => True end ->
  reports (ask14 src) ask14_psa ask14_pga_row ask14_pgv_row ask14_period (fun c => as_med c a) (fun c => as_sd c a).
Proof.
  intros H Ht Hv HG Hd. destruct (ask14_run src a t H Ht) as (s & _ & E & Rd).
  replace (obool_def (n_hw a) && match n_x a with None => true | Some _ => false end)%bool with false in Rd.
  2:{ pose proof (ask14_geom_x a HG) as Hx. unfold hw_has_x in Hx. destruct (n_hw a) as [[]|]; cbn; try reflexivity. destruct (n_x a); [reflexivity|exfalso; apply Hx; reflexivity]. }
  rewrite Rd in E.
  eapply (reports_rows (ask14 src) ask14_class s (ask14_resp a) (ask14_std a) ask14_coeff ask14_psa (-2) (-1)); [exact E|reflexivity..| | |].
  - intros c Hc. apply as_med_ok; assumption.
  - intros c Hc. apply as_sd_ok; assumption.
  - intros c [<-|[<-|Hc]]; [apply ask14_pga_in|apply ask14_pgv_in|apply ask14_psa_in, Hc].
Qed.
Lemma as_rows c : In c (ask14_pga_row :: ask14_pgv_row :: ask14_psa) -> In c ask14_coeff.
Proof. intros [<-|[<-|Hc]]; [apply ask14_pga_in|apply ask14_pgv_in|apply ask14_psa_in, Hc]. Qed.
Lemma as_continuous a mech (m r j v : R -> R) x : n_mech a = Some mech -> as_geom a ->
  continuous m x -> continuous r x -> continuous j x -> continuous v x -> 0 < v x ->
  match n_z1 a with Some z => 0 <= z /\ v x <> 1180 | None => True end ->
  outs_continuous (fun t o => exists src, nga_gives src (at_ a (m t) (r t) (j t) (v t)) /\ gmm_out (ask14 src) o) x.
Proof.
  intros Hm HG Cm Cr Cj Cv Pv Hz. destruct (near_pos v x Cv Pv) as (e & Pe & N).
  apply (reports_continuous ask14_psa ask14_pga_row ask14_pgv_row ask14_period (fun t c => as_med c (at_ a (m t) (r t) (j t) (v t)))
    (fun t c => as_sd c (at_ a (m t) (r t) (j t) (v t))) ask14 (fun t => at_ a (m t) (r t) (j t) (v t)) x e Pe).
  - intros t src Ht G. apply (as_reports src _ mech G).
    + destruct a; exact Hm.
    + rewrite at_v. apply N, Ht.
    + destruct a; exact HG.
    + destruct a; cbn in Hz |- *. destruct n_z1; [apply Hz|exact I].
  - intros c Hc. apply as_med_c; [apply as_rows|..]; auto.
  - intros c Hc. apply as_sd_c; [apply as_rows|..]; auto.
Qed.

(** ** CB14 *)
Lemma cbclip_c lo hi (f : R -> R) x : continuous f x -> continuous (fun t => cb_clip lo hi (f t)) x.
Proof. intros C. unfold cb_clip. contc; assumption. Qed.
Lemma or_c o (f : R -> R) x : continuous f x -> continuous (fun t => or_else o (f t)) x.
Proof. intros C. destruct o; cbn [or_else]; [apply cconst|exact C]. Qed.
Lemma cbtor_c a (m r j v : R -> R) x : continuous m x -> continuous (fun t => cb_tor (at_ a (m t) (r t) (j t) (v t))) x.
Proof. intros C. nga_split a. unfold cb_tor, cb_mech. nga_cbn. apply or_c, cy_tor_c, C. Qed.
Lemma cbwid_c a (m r j v : R -> R) x : 0 < n_dip a <= 90 -> continuous m x -> continuous (fun t => cb_wid (at_ a (m t) (r t) (j t) (v t))) x.
Proof.
  intros Hd C. pose proof (cbtor_c a m r j v x C) as CT. pose proof (sin_dip_pos _ Hd) as S. unfold cb_wid, cb_rad. set (tor := cb_tor) in *. nga_split a. nga_cbn. apply or_c.
  contc; try assumption; lra.
Qed.
Lemma cbbor_c a (m r j v : R -> R) x : 0 < n_dip a <= 90 -> continuous m x -> continuous (fun t => cb_bor (at_ a (m t) (r t) (j t) (v t))) x.
Proof.
  intros Hd C. pose proof (cbtor_c a m r j v x C) as CT. pose proof (cbwid_c a m r j v x Hd C) as CW. unfold cb_bor, cb_rad. set (tor := cb_tor) in *. set (wid := cb_wid) in *. nga_split a. nga_cbn. apply or_c.
  contc; assumption.
Qed.
Lemma cbhyp_c a (m r j v : R -> R) x : 0 < n_dip a <= 90 -> continuous m x ->
  (n_hyp a = None -> cb_tor (at_ a (m x) (r x) (j x) (v x)) < cb_bor (at_ a (m x) (r x) (j x) (v x))) ->
  continuous (fun t => cb_hyp (at_ a (m t) (r t) (j t) (v t))) x.
Proof.
  intros Hd C L. pose proof (cbtor_c a m r j v x C) as CT. pose proof (cbbor_c a m r j v x Hd C) as CB. unfold cb_hyp. set (tor := cb_tor) in *. set (bor := cb_bor) in *. nga_split a. nga_cbn.
  destruct a_hyp; cbn [or_else]; [apply cconst|]. specialize (L eq_refl). contc; try assumption. lra.
Qed.
Lemma cb_shape_c h4 h5 h6 d (s : R -> R) x : h6 < 0 -> 0 < d -> continuous s x ->
  continuous (fun t => if Req_EM_T (s t) 0 then 0 else Rmax 0 (h4 + h5 * (d / s t) + h6 * (d / s t) ^ 2)) x.
Proof.
  intros H6 Hd Cs. destruct (Req_dec (s x) 0) as [Z|Z].
  - assert (C : continuous (fun t => h4 * s t ^ 2 + h5 * d * s t + h6 * d ^ 2) x) by (contc; assumption).
    assert (L : h4 * s x ^ 2 + h5 * d * s x + h6 * d ^ 2 < 0) by (rewrite Z; pose proof (pow_lt d 2 Hd); nra).
    destruct (near_lt _ (fun _ => 0) x C (cconst x 0) L) as (e & Pe & N). apply (cext_near (fun _ => 0)) with (e := e); [exact Pe| |apply cconst].
    intros t Ht. specialize (N t Ht). cbv beta in N. destruct (Req_EM_T (s t) 0) as [Q|Q]; [reflexivity|]. symmetry. apply Rmax_left.
    assert (P : 0 < s t ^ 2) by (apply pow2_gt_0; exact Q).
    replace (h4 + h5 * (d / s t) + h6 * (d / s t) ^ 2) with ((h4 * s t ^ 2 + h5 * d * s t + h6 * d ^ 2) / s t ^ 2) by (field; exact Q).
    set (nn := h4 * s t ^ 2 + h5 * d * s t + h6 * d ^ 2) in *. unfold Rdiv. pose proof (Rinv_0_lt_compat _ P) as IP. nra.
  - assert (E : exists e, 0 < e /\ forall t, Rabs (t - x) < e -> s t <> 0).
    { destruct (Rdichotomy _ _ Z) as [L|L]; [destruct (near_lt s (fun _ => 0) x Cs (cconst x 0) L) as (e & P & K)|destruct (near_lt (fun _ => 0) s x (cconst x 0) Cs L) as (e & P & K)];
      exists e; (split; [exact P|]); intros t Ht; specialize (K t Ht); cbv beta in K; lra. }
    destruct E as (e & Pe & K). apply (cext_near (fun t => Rmax 0 (h4 + h5 * (d / s t) + h6 * (d / s t) ^ 2))) with (e := e); [exact Pe| |contc; assumption].
    intros t Ht. destruct (Req_EM_T (s t) 0) as [Q|Q]; [exfalso; exact (K t Ht Q)|reflexivity].
Qed.
Lemma cb_hngx_c c X a (m r j v : R -> R) x : In c cb14_coeff -> continuous m x -> n_width a <> None -> 
  continuous (fun t => cb_fhng_x c X (at_ a (m t) (r t) (j t) (v t))) x.
Proof.
  intros Hc Cm W. row_lt Hc cb14_h_6 (fun _ : cb14_row => (0#1)%Q) as H6. nga_split a. unfold cb_fhng_x, cb_wid, cb_rad. nga_cbn. destruct a_w as [w|]; [|contradiction]. cbn [or_else]. cbv zeta.
  set (r1 := w * cos (a_dip * (PI / 180))). destruct (Rlt_dec X 0); [apply cconst|]. destruct (Rle_dec X r1) as [L|L]; [apply cconst|].
  apply (cext (fun t => if Req_EM_T (62 * m t - 350 - r1) 0 then 0
     else Rmax 0 (Q2R (cb14_h_4 c) + Q2R (cb14_h_5 c) * ((X - r1) / (62 * m t - 350 - r1)) + Q2R (cb14_h_6 c) * ((X - r1) / (62 * m t - 350 - r1)) ^ 2))).
  - intros t. destruct (Req_EM_T (62 * m t - 350 - r1) 0), (Req_EM_T (62 * m t - 350) r1); try lra; reflexivity.
  - apply cb_shape_c; [lra|lra|]. contc; assumption.
Qed.
Lemma cb_hng_c c X a (m r j v : R -> R) x : In c cb14_coeff -> continuous m x -> continuous r x -> continuous j x ->
  X < 0 \/ (n_width a <> None /\ 0 < r x) ->
  continuous (fun t => cb_fhng c X (at_ a (m t) (r t) (j t) (v t))) x.
Proof.
  intros Hc Cm Cr Cj HX. destruct HX as [HX|[W P]].
  - apply (cext (fun _ => 0)); [|apply cconst]. intros t. unfold cb_fhng, cb_fhng_x. cbv zeta. destruct (Rlt_dec X 0); [|lra]. rewrite Rmult_0_r, !Rmult_0_l. reflexivity.
  - pose proof (cb_hngx_c c X a m r j v x Hc Cm W) as C1.
    assert (CZ : continuous (fun t => if Rle_dec (cb_tor (at_ a (m t) (r t) (j t) (v t))) 16.66 then 1 - 0.06 * cb_tor (at_ a (m t) (r t) (j t) (v t)) else 0) x).
    { pose proof (cbtor_c a m r j v x Cm) as CT. nga_split a. unfold cb_tor, cb_mech in *. nga_cbn. destruct a_tor; cbn [or_else] in *; [apply cconst|].
      apply (cext (fun t => 1 - 0.06 * cy_mean_tor (option_of "none" ["SS"; "NS"; "RS"] a_me) (m t))); [|contc; exact CT].
      intros t. assert (B : cy_mean_tor (option_of "none" ["SS"; "NS"; "RS"] a_me) (m t) <= 16.66).
      { unfold cy_mean_tor. pose proof (Rmax_r (m t - 5.849) 0). pose proof (Rmax_r (m t - 4.970) 0).
        assert (Q : forall y, 0 <= y <= 4 -> y ^ 2 <= 16.66) by (intros; nra). apply Q. destruct (String.eqb _ _); (split; [apply Rmax_r|apply Rmax_lub; lra]). }
      destruct (Rle_dec _ _); [reflexivity|contradiction]. }
    assert (CR : continuous (fun t => if Req_EM_T (r t) 0 then 1 else (r t - j t) / r t) x).
    { destruct (near_pos r x Cr P) as (e & Pe & N). apply (cext_near (fun t => (r t - j t) / r t)) with (e := e); [exact Pe| |contc; try assumption; lra].
      intros t Ht. specialize (N t Ht). destruct (Req_EM_T (r t) 0); [lra|reflexivity]. }
    unfold cb_fhng. set (tor := cb_tor) in *. set (sh := cb_fhng_x) in *. nga_split a. nga_cbn.
    repeat match goal with |- continuous (fun _ => ?k) _ => exact (cconst _ k) | |- continuous (fun t => @?f t * @?g t) _ => apply (cmult f g) end; try assumption.
    contc; try assumption. rewrite H. rewrite (Rmin_left (5.5 - 5.5)) by lra. lra.
Qed.
Lemma cb_dis_c c (m r : R -> R) x : In c cb14_coeff -> continuous m x -> continuous r x -> continuous (fun t => cb_fdis c (m t) (r t)) x.
Proof.
  intros Hc Cm Cr. row_pos Hc cb14_c_7 as P. assert (P' : 0 < Q2R (cb14_c_7 c)) by lra. unfold cb_fdis. contc; try assumption.
  apply sqrt_lt_R0. pose proof (pow2_ge_0 (r x)). pose proof (pow_lt _ 2 P'). lra.
Qed.
(** Where the geometry keeps the terms continuous. *)
Definition cb_smooth (a : nga) (X : R) : Prop :=
  0 < n_dip a <= 90 /\ (X = 0 -> n_dip a < 90 /\ match n_width a with Some w => w <> 0 | None => False end) /\
  (n_hyp a = None -> cb_tor a < cb_bor a) /\ (X < 0 \/ (n_width a <> None /\ 0 < n_rup a)).
Lemma cb_sp_c c X a (m r j v : R -> R) x : In c cb14_coeff -> cb_smooth (at_ a (m x) (r x) (j x) (v x)) X -> continuous m x -> continuous r x -> continuous j x ->
  continuous (fun t => cb_source_path c X (at_ a (m t) (r t) (j t) (v t))) x.
Proof.
  intros Hc (Hd & _ & Hh & HX) Cm Cr Cj.
  assert (Hd' : 0 < n_dip a <= 90) by (destruct a; exact Hd).
  assert (C1 := cbhyp_c a m r j v x Hd' Cm). assert (C2 := cb_hng_c c X a m r j v x Hc Cm Cr Cj). pose proof (cb_dis_c c m r x Hc Cm Cr) as C3.
  specialize (C1 ltac:(destruct a; exact Hh)). specialize (C2 ltac:(destruct a; exact HX)). clear Hd Hh HX Hd'.
  unfold cb_source_path. set (hg := cb_fhng) in *. set (hy := cb_hyp) in *. set (ds := cb_fdis) in *. nga_split a. unfold cb_mech, cb_reg. nga_cbn.
  repeat match goal with |- continuous (fun t => @?f t + @?g t) _ => apply (cplus f g) end; try assumption.
  - unfold cb_fmag. contc; assumption.
  - unfold cb_fflt. contc; apply cbclip_c; contc; assumption.
  - unfold cb_fhyp. contc; try apply cbclip_c; contc; assumption.
  - unfold cb_fdip. contc; apply cbclip_c; contc; assumption.
  - unfold cb_fatn. contc; assumption.
Qed.
Lemma cb_rock_c X a (m r j v : R -> R) x : cb_smooth (at_ a (m x) (r x) (j x) (v x)) X -> continuous m x -> continuous r x -> continuous j x ->
  continuous (fun t => cb_rock_pga cb14_pga_row X (at_ a (m t) (r t) (j t) (v t))) x.
Proof.
  intros G Cm Cr Cj. pose proof (cb_sp_c _ X a m r j v x cb14_pga_in G Cm Cr Cj) as C1. unfold cb_rock_pga. set (sp := cb_source_path) in *. nga_split a. unfold cb_reg. nga_cbn.
  apply cexp. apply cplus; [|apply cconst]. apply cplus; [exact C1|apply cconst].
Qed.
Lemma pw1 y : Rpower 1 y = 1. Proof. unfold Rpower. rewrite ln_1, Rmult_0_r, exp_0. reflexivity. Qed.
Lemma cb_site_c c re (v p : R -> R) x : In c cb14_coeff -> continuous v x -> continuous p x -> 0 < v x -> 0 < p x -> (re = "japan" -> v x <> 200) ->
  continuous (fun t => cb_fsite c re (v t) (p t)) x.
Proof.
  intros Hc Cv Cp Pv Pp N. row_pos Hc cb14_k_1 as K. unfold cb_fsite. cbv zeta. assert (Z : 0 < v x / Q2R (cb14_k_1 c)) by (apply Rdiv_lt_0_compat; lra).
  apply cplus.
  - contc; try assumption; try lra.
    + pose proof (exp_pos (1.18 * ln (v x / Q2R (cb14_k_1 c)))). unfold Rpower. lra.
    + replace (v x / Q2R (cb14_k_1 c)) with 1 by (rewrite H; field; lra). rewrite pw1, ln_1. replace (p x + 1.88 * 1) with (p x + 1.88) by ring. ring.
  - destruct (String.eqb re "japan") eqn:E; [|apply cconst]. apply String.eqb_eq in E. specialize (N E).
    contc; try assumption; try lra.
Qed.
Lemma cb_z25_c re (v : R -> R) x : continuous v x -> 0 < v x -> continuous (fun t => cb_z25 re (v t)) x.
Proof. intros C P. unfold cb_z25. contc; assumption. Qed.
Lemma cb_sed_c c re (z : R -> R) x : continuous z x -> continuous (fun t => cb_fsed c re (z t)) x.
Proof.
  intros C. unfold cb_fsed. contc; try assumption.
  - rewrite H0. replace (- 0.25 * (3 - 3)) with 0 by lra. rewrite exp_0. lra.
  - destruct (Rle_dec (z x) 3); [|lra]. rewrite H. lra.
Qed.
Lemma cb_med_c c X a (m r j v : R -> R) x : In c cb14_coeff -> cb_smooth (at_ a (m x) (r x) (j x) (v x)) X -> continuous m x -> continuous r x -> continuous j x ->
  continuous v x -> 0 < v x -> (cb_reg a = "japan" -> v x <> 200) ->
  continuous (fun t => cb_med cb14_pga_row c X (at_ a (m t) (r t) (j t) (v t))) x.
Proof.
  intros Hc G Cm Cr Cj Cv Pv N. pose proof (cb_sp_c c X a m r j v x Hc G Cm Cr Cj) as C1. pose proof (cb_rock_c X a m r j v x G Cm Cr Cj) as C2.
  pose proof (cb_site_c c (cb_reg a) v _ x Hc Cv C2 Pv (exp_pos _) N) as C3.
  pose proof (cb_sed_c c (cb_reg a) _ x (or_c (n_z25 a) _ x (cb_z25_c (cb_reg a) v x Cv Pv))) as C4.
  unfold cb_med. set (sp := cb_source_path) in *. set (rk := cb_rock_pga) in *. apply cplus; [apply cplus; [exact C1|]|]; nga_split a; [exact C3|exact C4].
Qed.
Lemma cb_sd_c c X a (m r j v : R -> R) x : In c cb14_coeff -> cb_smooth (at_ a (m x) (r x) (j x) (v x)) X -> continuous m x -> continuous r x -> continuous j x ->
  continuous v x -> 0 < v x ->
  continuous (fun t => cb_sd cb14_pga_row c X (at_ a (m t) (r t) (j t) (v t))) x.
Proof.
  intros Hc G Cm Cr Cj Cv Pv. pose proof (cb_rock_c X a m r j v x G Cm Cr Cj) as C2. row_pos Hc cb14_k_1 as K.
  assert (CA : continuous (fun t => cb_al c (v t) (cb_rock_pga cb14_pga_row X (at_ a (m t) (r t) (j t) (v t)))) x).
  { pose proof (exp_pos (cb_source_path cb14_pga_row X (at_ a (m x) (r x) (j x) (v x)) + cb_fsite cb14_pga_row (cb_reg (at_ a (m x) (r x) (j x) (v x))) 1100 0
       + cb_fsed cb14_pga_row (cb_reg (at_ a (m x) (r x) (j x) (v x))) (cb_z25 (cb_reg (at_ a (m x) (r x) (j x) (v x))) 1100))) as P.
    fold (cb_rock_pga cb14_pga_row X (at_ a (m x) (r x) (j x) (v x))) in P. unfold cb_al. cbv zeta.
    set (p := fun t => cb_rock_pga cb14_pga_row X (at_ a (m t) (r t) (j t) (v t))) in *. change (0 < p x) in P.
    change (continuous (fun t => if Rlt_dec (v t) (Q2R (cb14_k_1 c)) then Q2R (cb14_k_2 c) * p t * (/ (p t + 1.88 * Rpower (v t / Q2R (cb14_k_1 c)) 1.18) - / (p t + 1.88)) else 0) x).
    assert (Z : 0 < v x / Q2R (cb14_k_1 c)) by (apply Rdiv_lt_0_compat; lra).
    contc; try assumption; try lra.
    - pose proof (exp_pos (1.18 * ln (v x / Q2R (cb14_k_1 c)))). unfold Rpower. lra.
    - replace (v x / Q2R (cb14_k_1 c)) with 1 by (rewrite H; field; lra). rewrite pw1. replace (p x + 1.88 * 1) with (p x + 1.88) by ring. ring. }
  unfold cb_sd. cbv zeta. set (AL := fun t => cb_al c (v t) (cb_rock_pga cb14_pga_row X (at_ a (m t) (r t) (j t) (v t)))) in *.
  set (ca := cb14_pga_row) in *. set (rho := Q2R (cb14_rho_lnPGAlnY c)).
  apply (cext (fun t => sqrt (cb14_tau_spec c (m t) ^ 2 + AL t ^ 2 * cb14_tau_spec ca (m t) ^ 2 + 2 * AL t * rho * cb14_tau_spec c (m t) * cb14_tau_spec ca (m t) +
     (sqrt (cb14_phi_spec c (m t) ^ 2 - Q2R (cb14_phi_lnAF c) ^ 2) ^ 2 + Q2R (cb14_phi_lnAF c) ^ 2 + AL t ^ 2 * sqrt (cb14_phi_spec ca (m t) ^ 2 - Q2R (cb14_phi_lnAF ca) ^ 2) ^ 2 +
      2 * AL t * rho * sqrt (cb14_phi_spec c (m t) ^ 2 - Q2R (cb14_phi_lnAF c) ^ 2) * sqrt (cb14_phi_spec ca (m t) ^ 2 - Q2R (cb14_phi_lnAF ca) ^ 2))))).
  { intros t. unfold AL. nga_split a. reflexivity. }
  unfold cb14_tau_spec, cb14_phi_spec. contc; try assumption; lra.
Qed.
Lemma cb_reports src a X t : nga_gives src a -> n_x a = Some X -> n_mech a = Some t -> 0 < n_v a ->
  0 < n_dip a <= 90 ->
  (X = 0 -> n_dip a < 90 /\ match n_width a with Some w => w <> 0 | None => n_tor a = None /\ n_bot a = None end) ->
  (n_hyp a = None -> cb_tor a < cb_bor a) ->
  reports (cb14 src) cb14_psa cb14_pga_row cb14_pgv_row cb14_period (fun c => cb_med cb14_pga_row c X a) (fun c => cb_sd cb14_pga_row c X a).
Proof.
  intros H Hx Ht Hv Hd HG Hh. assert (G : geom_ok X a) by (split; assumption).
  destruct (cb14_construct src a X t H Hx Ht ltac:(lra)) as [s E]. eapply reports_rows; [exact E|reflexivity..| | |].
  - intros c Hc. apply cb_med_ok; assumption.
  - intros c Hc. apply cb_sd_ok; assumption.
  - intros c [<-|[<-|Hc]]; [apply cb14_pga_in|apply cb14_pgv_in|apply cb14_psa_in, Hc].
Qed.
Lemma cb_rows c : In c (cb14_pga_row :: cb14_pgv_row :: cb14_psa) -> In c cb14_coeff.
Proof. intros [<-|[<-|Hc]]; [apply cb14_pga_in|apply cb14_pgv_in|apply cb14_psa_in, Hc]. Qed.
Lemma cb_continuous a X mech (m r j v : R -> R) x : n_x a = Some X -> n_mech a = Some mech -> cb_smooth (at_ a (m x) (r x) (j x) (v x)) X ->
  continuous m x -> continuous r x -> continuous j x -> continuous v x -> 0 < v x -> (cb_reg a = "japan" -> v x <> 200) ->
  outs_continuous (fun t o => exists src, nga_gives src (at_ a (m t) (r t) (j t) (v t)) /\ gmm_out (cb14 src) o) x.
Proof.
  intros Hx Hm G Cm Cr Cj Cv Pv N. destruct (near_pos v x Cv Pv) as (e1 & Pe1 & N1).
  assert (E2 : exists e2, 0 < e2 /\ forall t, Rabs (t - x) < e2 -> n_hyp a = None -> cb_tor (at_ a (m t) (r t) (j t) (v t)) < cb_bor (at_ a (m t) (r t) (j t) (v t))).
  { destruct (n_hyp a) eqn:E; [exists 1; split; [lra|discriminate]|]. destruct G as (Hd & _ & Hh & _).
    destruct (near_lt _ _ x (cbtor_c a m r j v x Cm) (cbbor_c a m r j v x ltac:(destruct a; exact Hd) Cm)) as (e & P & K).
    - apply Hh. destruct a; exact E.
    - exists e. split; [exact P|]. intros t Ht _. exact (K t Ht). }
  destruct E2 as (e2 & Pe2 & N2).
  apply (reports_continuous cb14_psa cb14_pga_row cb14_pgv_row cb14_period (fun t c => cb_med cb14_pga_row c X (at_ a (m t) (r t) (j t) (v t)))
    (fun t c => cb_sd cb14_pga_row c X (at_ a (m t) (r t) (j t) (v t))) cb14 (fun t => at_ a (m t) (r t) (j t) (v t)) x (Rmin e1 e2)); [apply Rmin_pos; assumption| | |].
  - intros t src Ht H. pose proof (Rlt_le_trans _ _ _ Ht (Rmin_l e1 e2)) as T1. pose proof (Rlt_le_trans _ _ _ Ht (Rmin_r e1 e2)) as T2.
    specialize (N1 t T1). specialize (N2 t T2). destruct G as (Hd & Hz & _ & _). apply (cb_reports src _ X mech H).
    + rewrite at_x. exact Hx.
    + destruct a; exact Hm.
    + rewrite at_v. exact N1.
    + destruct a; exact Hd.
    + destruct a; cbn in Hz |- *. intros Z. specialize (Hz Z). destruct n_width; [exact Hz|destruct Hz as [_ []]].
    + intros Q. apply N2. destruct a; exact Q.
  - intros c Hc. apply cb_med_c; [apply cb_rows|..]; auto.
  - intros c Hc. apply cb_sd_c; [apply cb_rows|..]; auto.
Qed.
