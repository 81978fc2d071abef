(** * Continuity of the NGA-West2 models: C127-C130

    Vocabulary: [outs_continuous] and [at_] in P_ngacont.v ([at_ a m r j v] is the scenario [a] with magnitude m, rupture
    distance r, Joyner-Boore distance j and velocity v).  The four inputs move together along any continuous path
    (constant functions keep an input fixed). *)
From Coquelicot Require Import Coquelicot.
From Interval Require Import Tactic.
From Coq Require Import List.
From Verif Require Import M_cy14 M_bssa14 M_cb14 M_ask14 FrameworkProofs Anal Nga Outs Cont Cont1 SpecNga P_cy14 P_bssa14 P_cb14 P_cb14b P_ask14 P_ask14b P_ngaspec
  Spec_cy14 Spec_bssa14 Spec_cb14 Spec_ask14 Properties_NGA Properties_NGAPub Properties_NGAPub2 Properties_NGAPub3 P_ngacont.
Open Scope R_scope.
Open Scope string_scope.
Open Scope list_scope.

(** ** C127: BSSA14 *)
Theorem C127_continuous : forall a (m r j v : R -> R) t0, continuous m t0 -> continuous j t0 -> continuous v t0 -> 0 < v t0 ->
  outs_continuous (fun t o => exists src, nga_gives src (at_ a (m t) (r t) (j t) (v t)) /\ gmm_out (bssa14 src) o) t0.
Proof. exact bs_continuous. Qed.
Print Assumptions C127_continuous.
(** ... in the magnitude at 5.5, where the magnitude scaling of many rows changes its slope. *)
Example C127_nonvacuous : outs_continuous (fun m o => exists src, nga_gives src (at_ pub_nga m 18 12 270) /\ gmm_out (bssa14 src) o) 5.5.
Proof. apply (C127_continuous pub_nga (fun t => t) (fun _ => 18) (fun _ => 12) (fun _ => 270)); [apply cid|apply cconst|apply cconst|lra]. Qed.

(** ** C128: CB14.  [cb_smooth] and the exception of Japan at 200 m/s: P_ngacont.v and C62. *)
Theorem C128_continuous : forall a x mech (m r j v : R -> R) t0, n_x a = Some x -> n_mech a = Some mech ->
  0 < n_dip a <= 90 -> (x = 0 -> n_dip a < 90 /\ match n_width a with Some w => w <> 0 | None => False end) ->
  (let a0 := at_ a (m t0) (r t0) (j t0) (v t0) in n_hyp a = None -> cb_tor a0 < cb_bor a0) ->
  (x < 0 \/ (n_width a <> None /\ 0 < r t0)) ->
  continuous m t0 -> continuous r t0 -> continuous j t0 -> continuous v t0 -> 0 < v t0 ->
  (n_region a = Some "japan" -> v t0 <> 200) ->
  outs_continuous (fun t o => exists src, nga_gives src (at_ a (m t) (r t) (j t) (v t)) /\ gmm_out (cb14 src) o) t0.
Proof.
  intros a x mech m r j v t0 Hx Hm Hd Hz Hh HX Cm Cr Cj Cv Pv N. apply (cb_continuous a x mech); try assumption.
  - split; [destruct a; exact Hd|]. split; [destruct a; exact Hz|]. split; [intros E; apply Hh; destruct a; exact E|destruct a; exact HX].
  - intros E. apply N. unfold cb_reg, option_of in E. destruct (n_region a) as [s|]; [|discriminate]. destruct (existsb _ _); [subst; reflexivity|discriminate].
Qed.
Print Assumptions C128_continuous.
Lemma close_ratio eps l1 l2 k y1 y2 : Forall2 (ln_close eps) l1 l2 -> nth_error l1 k = Some (Fin y1) -> nth_error l2 k = Some (Fin y2) ->
  0 < y1 /\ 0 < y2 /\ Rabs (ln y2 - ln y1) <= eps.
Proof.
  intros F. revert k. induction F as [|a b l1 l2 H F IH]; intros [|k] E1 E2; cbn in E1, E2; try discriminate.
  - injection E1 as ->. injection E2 as ->. destruct H as (u & w & Hu & Hw & P1 & P2 & L). injection Hu as <-. injection Hw as <-. auto.
  - apply (IH k); assumption.
Qed.
Lemma with_v_at a v : at_ a (n_mag a) (n_rup a) (n_jb a) v = with_v a v. Proof. destruct a; reflexivity. Qed.
Theorem C128_japan_not_continuous_at_200 : forall a x t d, n_region a = Some "japan" -> n_z25 a = Some d -> n_x a = Some x -> n_mech a = Some t -> geom_ok x a ->
  ~ outs_continuous (fun v o => exists src, nga_gives src (at_ a (n_mag a) (n_rup a) (n_jb a) v) /\ gmm_out (cb14 src) o) 200.
Proof.
  intros a x t d Hr Hd Hx Ht HG C. destruct (C (ln 1.1) ltac:(rewrite <- ln_1; apply ln_increasing; lra)) as (e & Pe & H).
  set (v := 200 + Rmin (e / 2) 0.1).
  assert (V : 200 < v <= 200.1). { unfold v. pose proof (Rmin_r (e / 2) 0.1). assert (0 < Rmin (e / 2) 0.1) by (apply Rmin_glb_lt; lra). lra. }
  assert (D : Rabs (v - 200) < e). { rewrite Rabs_right by lra. unfold v. pose proof (Rmin_l (e / 2) 0.1). lra. }
  destruct (H v D) as [_ K]. clear H.
  destruct (C62_japan_step (nga_src (with_v a 200)) (nga_src (with_v a v)) a x t d v) as (o1 & o2 & y1 & y2 & z1 & z2 & O1 & O2 & E1 & E2 & P & L & _);
    [apply nga_src_gives|apply nga_src_gives|exact V|exact Hr|exact Hd|exact Hx|exact Ht|exact HG|].
  destruct (K o1 o2) as [(F & _) _]; [exists (nga_src (with_v a 200)); rewrite with_v_at; split; [apply nga_src_gives|exact O1]|exists (nga_src (with_v a v)); rewrite with_v_at; split; [apply nga_src_gives|exact O2]|].
  destruct (close_ratio _ _ _ _ _ _ F E1 E2) as (P1 & P2 & Q).
  assert (B : ln (1.18 * y1) < ln y2) by (apply ln_increasing; lra). rewrite ln_mult in B by lra. apply Rabs_le_between in Q.
  assert (ln 1.1 < ln 1.18) by (apply ln_increasing; lra). lra.
Qed.
Print Assumptions C128_japan_not_continuous_at_200.
Example C128_nonvacuous : outs_continuous (fun m o => exists src, nga_gives src (at_ pub_nga m 18 12 270) /\ gmm_out (cb14 src) o) 6.5 /\
  ~ outs_continuous (fun v o => exists src, nga_gives src (at_ ex_jp 7 20 20 v) /\ gmm_out (cb14 src) o) 200.
Proof.
  split.
  - apply (C128_continuous pub_nga 8 "RS" (fun t => t) (fun _ => 18) (fun _ => 12) (fun _ => 270)); try reflexivity; try apply cconst; try apply cid; cbn; try lra; try discriminate.
    right. split; [discriminate|lra].
  - apply (C128_japan_not_continuous_at_200 ex_jp (-5) "SS" 1); try reflexivity. unfold geom_ok, ex_jp; cbn; split; [lra|]; repeat split; intros; lra.
Qed.

(** ** C129: CY14.  The regional attenuation of Japan and Italy applies between magnitudes 6 and 6.9 only (C31). *)
Theorem C129_continuous : forall a x (m r j v : R -> R) t0, n_x a = Some x ->
  (n_region a = Some "japan" \/ n_region a = Some "italy" -> m t0 <> 6 /\ m t0 <> 6.9) ->
  continuous m t0 -> continuous r t0 -> continuous j t0 -> continuous v t0 -> (forall t, 0 <= r t) -> 0 < v t0 ->
  outs_continuous (fun t o => exists src, nga_gives src (at_ a (m t) (r t) (j t) (v t)) /\ gmm_out (cy14 src) o) t0.
Proof.
  intros a x m r j v t0 Hx OB. apply (cy_continuous a x m r j v t0 Hx). unfold cy_off_bracket.
  destruct (Req_dec (m t0) 6) as [E|E]; [|destruct (Req_dec (m t0) 6.9) as [E'|E']; [|right; split; assumption]]; left; intros I;
  (assert (Q : n_region a = Some "japan" \/ n_region a = Some "italy");
   [unfold cy_reg, option_of in I; destruct (n_region a) as [s|]; [destruct (existsb _ _)|]; destruct I as [I|[I|[]]]; try discriminate; subst; auto|];
   destruct (OB Q); contradiction).
Qed.
Print Assumptions C129_continuous.
Lemma with_mag_at a m : at_ a m (n_rup a) (n_jb a) (n_v a) = with_mag a m. Proof. destruct a; reflexivity. Qed.
Lemma cy_b_rock c v : 1130 <= v -> cy_b c v = 0.
Proof. intros H. unfold cy_b. rewrite Rmin_right by lra. ring. Qed.
Definition cy_gamma (c : cy14_row) (m : R) : R := Q2R (cy14_c_gamma1 c) + Q2R (cy14_c_gamma2 c) / cosh (Rmax (m - Q2R (cy14_c_gamma3 c)) 0).
Lemma cy_italy_ref c x a m :
  cy_ref c x (with_mag (with_region a (Some "italy")) m) = cy_ref c x (with_mag (with_region a (Some "california")) m)
    + (if Rlt_dec 6 m then if Rlt_dec m 6.9 then (Q2R (cy14_gamma_ji c) - 1) * cy_gamma c m * n_rup a else 0 else 0).
Proof.
  unfold cy_ref, cy_gamma. cbv zeta.
  replace (cy_reg (with_mag (with_region a (Some "italy")) m)) with "italy" by (destruct a; reflexivity). replace (cy_reg (with_mag (with_region a (Some "california")) m)) with "california" by (destruct a; reflexivity).
  replace (cy_mech (with_mag (with_region a (Some "italy")) m)) with (cy_mech a) by (destruct a; reflexivity). replace (cy_mech (with_mag (with_region a (Some "california")) m)) with (cy_mech a) by (destruct a; reflexivity).
  replace (cy_on_hw (with_mag (with_region a (Some "italy")) m)) with (cy_on_hw a) by (destruct a; reflexivity). replace (cy_on_hw (with_mag (with_region a (Some "california")) m)) with (cy_on_hw a) by (destruct a; reflexivity).
  replace (cy_tor (with_mag (with_region a (Some "italy")) m)) with (cy_tor (with_mag a m)) by (destruct a; reflexivity). replace (cy_tor (with_mag (with_region a (Some "california")) m)) with (cy_tor (with_mag a m)) by (destruct a; reflexivity).
  generalize (cy_mech a) (cy_on_hw a) (cy_tor (with_mag a m)). intros me hw tor. nga_split a. cbn [with_mag with_region n_mag n_rup n_jb n_dip n_dpp String.eqb Ascii.eqb Bool.eqb orb].
  rename a_r into r. 
  match goal with |- ?p + ?k * ?g * r + ?x1 + ?y1 = _ => generalize p g x1 y1; intros p0 g0 x0 y0 end.
  destruct (Rlt_dec 6 m); [destruct (Rlt_dec m 6.9)|]; ring.
Qed.
Lemma cy_italy_med c x a m : 1130 <= n_v a ->
  cy_med c x (with_mag (with_region a (Some "italy")) m) = cy_med c x (with_mag (with_region a (Some "california")) m)
    + (if Rlt_dec 6 m then if Rlt_dec m 6.9 then (Q2R (cy14_gamma_ji c) - 1) * cy_gamma c m * n_rup a else 0 else 0).
Proof.
  intros Hv. unfold cy_med. replace (n_v (with_mag (with_region a (Some "italy")) m)) with (n_v a) by (destruct a; reflexivity). replace (n_v (with_mag (with_region a (Some "california")) m)) with (n_v a) by (destruct a; reflexivity).
  rewrite cy_b_rock by exact Hv. rewrite cy_italy_ref.
  replace (cy_reg (with_mag (with_region a (Some "italy")) m)) with "italy" by (destruct a; reflexivity). replace (cy_reg (with_mag (with_region a (Some "california")) m)) with "california" by (destruct a; reflexivity).
  replace (cy_dz1 (with_mag (with_region a (Some "italy")) m)) with (cy_dz1 (with_mag (with_region a (Some "california")) m)) by (destruct a; reflexivity).
  cbv zeta. cbn [String.eqb Ascii.eqb Bool.eqb]. rewrite !Rmult_0_l. lra.
Qed.
Theorem C129_italy_not_continuous_at_6 : forall a x, n_region a = Some "italy" -> n_x a = Some x -> 0 < n_rup a -> 1130 <= n_v a ->
  ~ outs_continuous (fun m o => exists src, nga_gives src (at_ a m (n_rup a) (n_jb a) (n_v a)) /\ gmm_out (cy14 src) o) 6.
Proof.
  intros a x Hre Hx Hr Hv C. pose proof cy14_pga_in as Hc. set (c := cy14_pga_row) in *.
  row_lt Hc (fun _ : cy14_row => 1%Q) cy14_gamma_ji as HJ. row_lt Hc cy14_c_gamma1 (fun _ : cy14_row => 0%Q) as G1. row_lt Hc cy14_c_gamma2 (fun _ : cy14_row => 0%Q) as G2.
  assert (A : with_region a (Some "italy") = a) by (destruct a; cbn in Hre; subst; reflexivity).
  set (k := fun m => (Q2R (cy14_gamma_ji c) - 1) * cy_gamma c m * n_rup a).
  assert (K6 : k 6 < 0).
  { unfold k, cy_gamma. pose proof (cosh_gt0 (Rmax (6 - Q2R (cy14_c_gamma3 c)) 0)) as P. pose proof (Rinv_0_lt_compat _ P).
    unfold Rdiv. assert (Q2R (cy14_c_gamma1 c) + Q2R (cy14_c_gamma2 c) * / cosh (Rmax (6 - Q2R (cy14_c_gamma3 c)) 0) < 0) by nra.
    assert (0 < (Q2R (cy14_gamma_ji c) - 1) * n_rup a) by (apply Rmult_lt_0_compat; lra). nra. }
  assert (Ck : continuous k 6). { unfold k, cy_gamma. contc. match goal with |- context [cosh ?y] => pose proof (cosh_gt0 y) end. lra. }
  assert (Ch : continuous (fun m => cy_med c x (at_ (with_region a (Some "california")) m (n_rup a) (n_jb a) (n_v a)) + k m) 6).
  { apply cplus; [|exact Ck]. apply (cy_med_c c x (with_region a (Some "california")) (fun m => m) (fun _ => n_rup a) (fun _ => n_jb a) (fun _ => n_v a)); try apply cconst; try apply cid; try lra; try assumption.
    left. destruct a; cbn. intros [I|[I|[]]]; discriminate. }
  set (eps := - k 6 / 4). assert (He : 0 < eps) by (unfold eps; lra).
  destruct (C eps He) as (d1 & P1 & N1). destruct (proj1 (filterlim_locally _ _) Ch (mkposreal eps He)) as (d2 & N2).
  set (m := 6 + Rmin (Rmin d1 d2 / 2) 0.5).
  assert (Pd : 0 < Rmin d1 d2) by (apply Rmin_pos; [exact P1|apply cond_pos]).
  assert (M : 6 < m < 6.9). { unfold m. pose proof (Rmin_r (Rmin d1 d2 / 2) 0.5). assert (0 < Rmin (Rmin d1 d2 / 2) 0.5) by (apply Rmin_glb_lt; lra). lra. }
  assert (D : Rabs (m - 6) < Rmin d1 d2). { rewrite Rabs_right by lra. unfold m. pose proof (Rmin_l (Rmin d1 d2 / 2) 0.5). lra. }
  destruct (N1 m (Rlt_le_trans _ _ _ D (Rmin_l _ _))) as [_ N]. specialize (N2 m (Rlt_le_trans _ _ _ D (Rmin_r _ _))). clear N1 C.
  cbv beta in N2. unfold ball in N2; cbn in N2. unfold AbsRing_ball, abs, minus, plus, opp in N2; cbn in N2. apply Rabs_def2 in N2.
  assert (R : forall m', reports (cy14 (nga_src (at_ a m' (n_rup a) (n_jb a) (n_v a)))) cy14_psa cy14_pga_row cy14_pgv_row cy14_period
     (fun c => cy_med c x (at_ a m' (n_rup a) (n_jb a) (n_v a))) (fun c => cy_sd c x (at_ a m' (n_rup a) (n_jb a) (n_v a)))).
  { intros m'. apply cy_reports; [apply nga_src_gives|rewrite at_x; exact Hx|rewrite at_rup; lra|rewrite at_v; lra]. }
  destruct (N _ _ (ex_intro _ _ (conj (nga_src_gives _) (reports_out _ _ _ _ _ _ _ (R 6)))) (ex_intro _ _ (conj (nga_src_gives _) (reports_out _ _ _ _ _ _ _ (R m))))) as [(_ & L & _) _].
  cbn [o_pga rep_outs] in L. destruct L as (u & w & Eu & Ew & _ & _ & L). injection Eu as <-. injection Ew as <-. rewrite !ln_exp in L. apply Rabs_le_between in L.
  fold c in L. rewrite !with_mag_at in L. replace (at_ (with_region a (Some "california")) m (n_rup a) (n_jb a) (n_v a)) with (with_mag (with_region a (Some "california")) m) in N2 by (destruct a; reflexivity).
  replace (at_ (with_region a (Some "california")) 6 (n_rup a) (n_jb a) (n_v a)) with (with_mag (with_region a (Some "california")) 6) in N2 by (destruct a; reflexivity).
  rewrite <- A in L. rewrite !cy_italy_med in L by (destruct a; exact Hv). 
  destruct (Rlt_dec 6 6); [lra|]. destruct (Rlt_dec 6 m); [|lra]. destruct (Rlt_dec m 6.9); [|lra].
  change ((Q2R (cy14_gamma_ji c) - 1) * cy_gamma c m * n_rup a) with (k m) in L. unfold eps in *. lra.
Qed.
Print Assumptions C129_italy_not_continuous_at_6.
Example C129_nonvacuous : outs_continuous (fun m o => exists src, nga_gives src (at_ pub_nga m 18 12 270) /\ gmm_out (cy14 src) o) 5.5 /\
  outs_continuous (fun m o => exists src, nga_gives src (at_ (ex_nga 7 20 1200 None) m 20 20 1200) /\ gmm_out (cy14 src) o) 6 /\
  ~ outs_continuous (fun m o => exists src, nga_gives src (at_ (ex_nga 7 20 1200 (Some "italy")) m 20 20 1200) /\ gmm_out (cy14 src) o) 6.
Proof.
  repeat split.
  - apply (C129_continuous pub_nga 8 (fun t => t) (fun _ => 18) (fun _ => 12) (fun _ => 270)); try reflexivity; try apply cconst; try apply cid; intros; lra.
  - apply (C129_continuous (ex_nga 7 20 1200 None) (-5) (fun t => t) (fun _ => 20) (fun _ => 20) (fun _ => 1200)); try reflexivity; try apply cconst; try apply cid; try (intros; lra).
    cbn. intros [H|H]; discriminate.
  - apply (C129_italy_not_continuous_at_6 (ex_nga 7 20 1200 (Some "italy")) (-5)); try reflexivity; cbn; lra.
Qed.

(** ** C130: ASK14.  With a given basin depth the term vanishes at exactly 1180 m/s (C68). *)
Theorem C130_continuous : forall a mech (m r j v : R -> R) t0, n_mech a = Some mech ->
  (n_hw a = Some true -> exists x, n_x a = Some x /\ 0 <= x /\ 0 < n_dip a <= 90) ->
  continuous m t0 -> continuous r t0 -> continuous j t0 -> continuous v t0 -> 0 < v t0 ->
  match n_z1 a with Some z => 0 <= z /\ v t0 <> 1180 | None => True end ->
  outs_continuous (fun t o => exists src, nga_gives src (at_ a (m t) (r t) (j t) (v t)) /\ gmm_out (ask14 src) o) t0.
Proof. exact as_continuous. Qed.
Print Assumptions C130_continuous.
Theorem C130_basin_not_continuous_at_1180 : forall a t d, n_mech a = Some t -> ask14_geom a -> n_region a = Some "global" -> n_z1 a = Some d -> 0.5 <= d ->
  ~ outs_continuous (fun v o => exists src, nga_gives src (at_ a (n_mag a) (n_rup a) (n_jb a) v) /\ gmm_out (ask14 src) o) 1180.
Proof.
  intros a t d Ht HG Hr Hd D5 C. destruct (C (ln 1.1) ltac:(rewrite <- ln_1; apply ln_increasing; lra)) as (e & Pe & H).
  set (v := 1180 + e / 2).
  assert (D : Rabs (v - 1180) < e). { unfold v. rewrite Rabs_right; lra. }
  destruct (H v D) as [_ K]. clear H.
  destruct (C68_basin_term_dropped_at_1180 (nga_src (with_v a 1180)) (nga_src (with_v a v)) a t d v) as (o1 & o2 & y1 & y2 & O1 & O2 & E1 & E2 & P & L);
    [apply nga_src_gives|apply nga_src_gives|exact Ht|exact HG|exact Hr|exact Hd|exact D5|unfold v; lra|unfold v; lra|].
  destruct (K o1 o2) as [(F & _) _]; [exists (nga_src (with_v a 1180)); rewrite with_v_at; split; [apply nga_src_gives|exact O1]|exists (nga_src (with_v a v)); rewrite with_v_at; split; [apply nga_src_gives|exact O2]|].
  destruct (close_ratio _ _ _ _ _ _ F E1 E2) as (P1 & P2 & Q).
  assert (B : ln (1.75 * y1) < ln y2) by (apply ln_increasing; lra). rewrite ln_mult in B by lra. apply Rabs_le_between in Q.
  assert (ln 1.1 < ln 1.75) by (apply ln_increasing; lra). lra.
Qed.
Print Assumptions C130_basin_not_continuous_at_1180.
Example C130_nonvacuous : outs_continuous (fun m o => exists src, nga_gives src (at_ pub_nga m 18 12 270) /\ gmm_out (ask14 src) o) 6.75 /\
  ~ outs_continuous (fun v o => exists src, nga_gives src (at_ ex_basin 7 20 20 v) /\ gmm_out (ask14 src) o) 1180.
Proof.
  split.
  - apply (C130_continuous pub_nga "RS" (fun t => t) (fun _ => 18) (fun _ => 12) (fun _ => 270)); try reflexivity; try apply cconst; try apply cid; cbn; try lra.
    intros _. exists 8. split; [reflexivity|lra].
  - apply (C130_basin_not_continuous_at_1180 ex_basin "SS" 0.6); try reflexivity; try lra. unfold ask14_geom, ex_basin; cbn; discriminate.
Qed.
