(** * Abrahamson, Silva & Kamai (2014): distance, regions, site *)
From Coquelicot Require Import Coquelicot.
From Interval Require Import Tactic.
From Coq Require Import List.
From Verif Require Import M_ask14 FrameworkProofs Anal NpProofs Nga Outs P_cy14 P_bssa14 P_cb14 P_cb14b P_ask14.
Open Scope R_scope.
Open Scope string_scope.
Open Scope list_scope.

Definition ask14_kreg (c : ask14_row) (a : nga) : R :=
  if is_str (ask14_region a) "taiwan" then Q2R (ask14_a25 c) else if is_str (ask14_region a) "china" then Q2R (ask14_a28 c)
  else if is_str (ask14_region a) "japan" then Q2R (ask14_a29 c) else 0.
Definition ask14_h (c : ask14_row) (m : R) : R := Q2R (ask14_c4 c) - (Q2R (ask14_c4 c) - 1) * clip01 (5 - m).
Definition ask14_g (c : ask14_row) (a : nga) (r : R) : R :=
  (Q2R (ask14_a2 c) + Q2R (ask14_a3 c) * (Rmax (n_mag a) (Q2R (ask14_m2 c)) - Q2R (ask14_m1 c))) * ln (sqrt (r * r + ask14_h c (n_mag a) * ask14_h c (n_mag a)))
  + (Q2R (ask14_a17 c) + ask14_kreg c a) * r.
Lemma ask14_h_pos c m : In c ask14_coeff -> 1 <= ask14_h c m.
Proof. intros Hc. row_ge Hc (1#1)%Q ask14_c4 as C4. unfold ask14_h. pose proof (clip01_range (5 - m)). nra. Qed.
Lemma ask14_g_decr c a r1 r2 : In c ask14_coeff -> n_mag a <= 8.5 -> 0 <= r1 -> r1 < r2 -> ask14_g c a r2 < ask14_g c a r1.
Proof.
  intros Hc Hm H1 H2. pose proof (ask14_h_pos c (n_mag a) Hc) as H. unfold ask14_g. set (h := ask14_h _ _) in *. clearbody h.
  row_upto Hc (fun c => ask14_a2 c + ask14_a3 c * ((85#10) - ask14_m1 c))%Q (-1#10)%Q as G1.
  row_ge Hc (0#1)%Q ask14_a3 as A3. row_upto Hc ask14_m2 (85#10)%Q as M2. row_upto Hc ask14_a17 (0#1)%Q as K0.
  row_upto Hc (fun c => ask14_a17 c + ask14_a25 c)%Q (0#1)%Q as K1. row_upto Hc (fun c => ask14_a17 c + ask14_a28 c)%Q (0#1)%Q as K2.
  row_upto Hc (fun c => ask14_a17 c + ask14_a29 c)%Q (0#1)%Q as K3.
  assert (K : Q2R (ask14_a17 c) + ask14_kreg c a <= 0) by (unfold ask14_kreg; repeat destruct (is_str _ _); lra).
  assert (X : Rmax (n_mag a) (Q2R (ask14_m2 c)) <= 8.5) by (apply Rmax_lub; lra). set (mm := Rmax _ _) in *. clearbody mm.
  assert (G : Q2R (ask14_a2 c) + Q2R (ask14_a3 c) * (mm - Q2R (ask14_m1 c)) < 0).
  { assert (Q2R (ask14_a3 c) * mm <= Q2R (ask14_a3 c) * 8.5) by (apply Rmult_le_compat_l; lra). lra. }
  assert (L : ln (sqrt (r1 * r1 + h * h)) < ln (sqrt (r2 * r2 + h * h))).
  { apply ln_increasing; [apply sqrt_lt_R0; nra|]. apply sqrt_lt_1; nra. }
  set (k := Q2R (ask14_a2 c) + _) in *. clearbody k. nra.
Qed.
Lemma ask14_dist_form c a v : In c ask14_coeff -> n_hw a <> Some true -> 0 < v ->
  exists K, forall r, (ask14_src_terms c (ask14_input (with_rup a r)) + ask14_freg c (ask14_input (with_rup a r)) (Fin v))%flt = Fin (K + ask14_g c a r).
Proof.
  intros Hc Hw Hv.
  assert (F1 : exists K1, forall r, ask14_f1 c (ask14_input (with_rup a r)) = Fin (K1 + ((Q2R (ask14_a2 c) + Q2R (ask14_a3 c) * (Rmax (n_mag a) (Q2R (ask14_m2 c)) - Q2R (ask14_m1 c))) * ln (sqrt (r * r + ask14_h c (n_mag a) * ask14_h c (n_mag a))) + Q2R (ask14_a17 c) * r))).
  { pose proof (ask14_h_pos c (n_mag a) Hc) as HH.
    assert (N : forall r, 0 < sqrt (r * r + ask14_h c (n_mag a) * ask14_h c (n_mag a))) by (intros; apply sqrt_lt_R0; nra).
    assert (E : forall r, fsqrt (fsq (Fin r) + fsq (qf (ask14_c4 c) - (qf (ask14_c4 c) - $1) * fclip ($5 - Fin (n_mag a)) $0 $1))%flt = Fin (sqrt (r * r + ask14_h c (n_mag a) * ask14_h c (n_mag a)))).
    { intros r. unfold qf. fcbn. rewrite fclip_fin. fcbn. fold (clip01 (5 - n_mag a)). fold (ask14_h c (n_mag a)). rewrite fsqrt_fin by nra. reflexivity. }
    destruct (Rle_dec (n_mag a) (Q2R (ask14_m2 c))) as [L|L]; [|destruct (Rle_dec (n_mag a) (Q2R (ask14_m1 c))) as [L1|L1]].
    all: eexists; intros r; unfold ask14_f1;
      replace (as_mag (ask14_input (with_rup a r))) with (Fin (n_mag a)) by (destruct a; reflexivity);
      replace (as_dist_rup (ask14_input (with_rup a r))) with (Fin r) by (destruct a; reflexivity);
      rewrite E; unfold qf; cbv zeta; fcbn; rewrite (flog_fin _ (N r)); fcbn.
    - rewrite Rleb_true by lra. rewrite Rmax_right by lra. f_equal.
      match goal with |- ?A = ?B + ?C => instantiate (1 := _) end.
      match goal with |- ?a1 + (?X + ?Y + ?Z) = _ => transitivity ((a1 + X) + (Y + Z)); [ring|reflexivity] end.
    - rewrite Rleb_false by lra. rewrite Rleb_true by lra. rewrite Rmax_left by lra. f_equal.
      match goal with |- ?a1 + (?X + ?Y + ?Z) + ?W = _ => transitivity ((a1 + X + W) + (Y + Z)); [ring|reflexivity] end.
    - rewrite Rleb_false by lra. rewrite Rleb_false by lra. rewrite Rmax_left by lra. f_equal.
      match goal with |- ?a1 + (?X + ?Y + ?Z) + ?W = _ => transitivity ((a1 + X + W) + (Y + Z)); [ring|reflexivity] end. }
  destruct F1 as [K1 F1].
  assert (F2 : exists K2, forall r, ask14_freg c (ask14_input (with_rup a r)) (Fin v) = Fin (K2 + ask14_kreg c a * r)).
  { destruct (ask14_v1_form c) as (v1 & E1 & B & _). pose proof (ask14_vlin c v1 Hc E1) as L.
    unfold ask14_freg, ask14_kreg.
    assert (A : forall r, as_region (ask14_input (with_rup a r)) = ask14_region a /\ as_dist_rup (ask14_input (with_rup a r)) = Fin r) by (intros; destruct a; split; reflexivity).
    destruct (is_str (ask14_region a) "taiwan") eqn:T; [|destruct (is_str (ask14_region a) "china") eqn:C; [|destruct (is_str (ask14_region a) "japan") eqn:J]].
    - eexists; intros r. destruct (A r) as [-> ->]. rewrite T, E1. unfold qf. fcbn. rewrite fdiv_fin by lra.
      rewrite flog_fin by (apply Rdiv_lt_0_compat; [apply Rmin_glb_lt; lra|lra]). fcbn. reflexivity.
    - exists 0; intros r. destruct (A r) as [-> ->]. rewrite T, C. unfold qf. fcbn. f_equal; lra.
    - destruct (finite_interp7 v (qf (ask14_a36 c)) (qf (ask14_a37 c)) (qf (ask14_a38 c)) (qf (ask14_a39 c)) (qf (ask14_a40 c)) (qf (ask14_a41 c)) (qf (ask14_a42 c))) as [y Hy]; try apply finite_qf.
      exists y; intros r. destruct (A r) as [-> ->]. rewrite T, C, J, Hy. unfold qf. fcbn. reflexivity.
    - exists 0; intros r. destruct (A r) as [-> ->]. rewrite T, C, J. f_equal; lra. }
  destruct F2 as [K2 F2].
  assert (F3 : exists K3, forall r, ask14_src_terms c (ask14_input (with_rup a r)) = (ask14_f1 c (ask14_input (with_rup a r)) + Fin K3)%flt).
  { pose (k3 := (qf (ask14_a15 c) * fclip (as_depth_tor (ask14_input a) / $20) $0 $1
      + (if is_str (as_mechanism (ask14_input a)) "RS" then qf (ask14_a11 c) * fclip (as_mag (ask14_input a) - $4) $0 $1 else $0)
      + (if is_str (as_mechanism (ask14_input a)) "NS" then qf (ask14_a12 c) * fclip (as_mag (ask14_input a) - $4) $0 $1 else $0)
      + (if as_aftershock (ask14_input a) then qf (ask14_a14 c) * fclip ($1 - (as_dist_crjb (ask14_input a) - $5) / $10) $0 $1 else $0))%flt).
    assert (K : finite k3).
    { unfold k3, ask14_input; ask14_fields. assert (T : finite (odef (n_tor a) (ask14_calc_depth_tor (Fin (n_mag a))))) by (apply finite_odef, fin_ask14_tor). fsplit; auto using fin_ask14_tor. }
    destruct K as [z Hz]. exists z. intros r. rewrite <- Hz. unfold ask14_src_terms, k3.
    replace (as_hw (ask14_input (with_rup a r))) with false by (destruct a as [m ru jb xx y0 cr di vv to bo bt hy wi z1 z25 dp me re so hw af]; destruct hw as [[]|]; cbn in *; congruence).
    rewrite F1.
    replace (as_depth_tor (ask14_input (with_rup a r))) with (as_depth_tor (ask14_input a)) by (destruct a; reflexivity).
    replace (as_mechanism (ask14_input (with_rup a r))) with (as_mechanism (ask14_input a)) by (destruct a; reflexivity).
    replace (as_mag (ask14_input (with_rup a r))) with (as_mag (ask14_input a)) by (destruct a; reflexivity).
    replace (as_aftershock (ask14_input (with_rup a r))) with (as_aftershock (ask14_input a)) by (destruct a; reflexivity).
    replace (as_dist_crjb (ask14_input (with_rup a r))) with (as_dist_crjb (ask14_input a)) by (destruct a; reflexivity).
    unfold k3 in Hz.
    assert (A1 : finite (qf (ask14_a15 c) * fclip (as_depth_tor (ask14_input a) / $20) $0 $1)%flt).
    { unfold ask14_input; ask14_fields. fsplit; auto using fin_ask14_tor. }
    assert (A2 : finite (if is_str (as_mechanism (ask14_input a)) "RS" then qf (ask14_a11 c) * fclip (as_mag (ask14_input a) - $4) $0 $1 else $0)%flt) by (unfold ask14_input; ask14_fields; fsplit).
    assert (A3 : finite (if is_str (as_mechanism (ask14_input a)) "NS" then qf (ask14_a12 c) * fclip (as_mag (ask14_input a) - $4) $0 $1 else $0)%flt) by (unfold ask14_input; ask14_fields; fsplit).
    assert (A4 : finite (if as_aftershock (ask14_input a) then qf (ask14_a14 c) * fclip ($1 - (as_dist_crjb (ask14_input a) - $5) / $10) $0 $1 else $0)%flt) by (unfold ask14_input; ask14_fields; fsplit).
    destruct A1 as [x1 ->], A2 as [x2 ->], A3 as [x3 ->], A4 as [x4 ->]. fcbn. f_equal. lra. }
  destruct F3 as [K3 F3].
  exists (K1 + K2 + K3). intros r. rewrite F3, F1, F2. fcbn. f_equal. unfold ask14_g. ring.
Qed.
Lemma ask14_site_p c v d re : In c ask14_coeff -> 180 <= v -> match d with Some x => fnonneg x | None => True end ->
  exists S B k s, 0 <= B /\ 0 < k /\ 0 < s <= 1 /\ B * (1 - s) < 1 + s /\
   forall y, ask14_site_term c (Fin (exp y)) (Fin v) d re = Fin (S + (B * ln (exp y + k) - B * ln (exp y + k * (s * s)))).
Proof.
  intros Hc Hv Hd. destruct (ask14_v1_form c) as (v1 & E & B & _). pose proof (ask14_vlin c v1 Hc E) as L.
  row_pos Hc ask14_c as C.
  assert (M : 180 <= Rmin v v1) by (apply Rmin_glb; lra).
  set (f10 := if (Fin v =? $1180.0)%flt then $0%flt else match d with | None => $0%flt | Some d =>
          (np_interp [$150; $250; $400; $700] [qf (ask14_a43 c); qf (ask14_a44 c); qf (ask14_a45 c); qf (ask14_a46 c)] (Fin v)
            * flog ((d + $0.01) / (ask14_calc_depth_1_0 (Fin v) re + $0.01)))%flt end).
  assert (F : finite f10).
  { unfold f10. fcbn. destruct (Reqb v 1180.0); [apply finite_fin|]. destruct d as [d|]; [|apply finite_fin].
    apply finite_fmul; [apply finite_interp4; apply finite_qf|]. apply finite_flog. apply fpos_div.
    + destruct Hd as (x & -> & Hx). apply fpos_fin. lra.
    + apply fpos_add; [apply fpos_ask14_z1; lra|fsplit]. }
  destruct F as [f Hf].
  assert (EQ : forall p, ask14_site_term c p (Fin v) d re = 
    ((let vs_ratio := fmin (Fin v) (ask14_v1 c) / qf (ask14_v_lin c) in
    if vs_ratio <? $1 then qf (ask14_a10 c) * flog vs_ratio - qf (ask14_b c) * flog (p + qf (ask14_c c))
        + qf (ask14_b c) * flog (p + qf (ask14_c c) * fpow vs_ratio (Q2R (ask14_n c)))
      else (qf (ask14_a10 c) + qf (ask14_b c) * qf (ask14_n c)) * flog vs_ratio) + Fin f)%flt) by (intros; rewrite <- Hf; reflexivity).
  rewrite E in EQ. clearbody f10. unfold qf in EQ. 
  assert (VL : Q2R (ask14_v_lin c) <> 0) by lra.
  set (z := Rmin v v1 / Q2R (ask14_v_lin c)).
  assert (Z : 180 / Q2R (ask14_v_lin c) <= z) by (unfold z; apply Rmult_le_compat_r; [left; apply Rinv_0_lt_compat; lra|exact M]).
  assert (Z0 : 0 < z) by (assert (0 < 180 / Q2R (ask14_v_lin c)) by (apply Rdiv_lt_0_compat; lra); lra).
  destruct (Rlt_dec z 1) as [Hz|Hz].
  - destruct (ask14_soil c z Hc ltac:(lra)) as (s & Hs & Es & Hb & B0).
    exists (Q2R (ask14_a10 c) * ln z + f), (- Q2R (ask14_b c)), (Q2R (ask14_c c)), s.
    split; [lra|]. split; [lra|]. split; [exact Hs|]. split; [exact Hb|]. intros y. rewrite EQ. cbv zeta.
    replace (fmin (Fin v) (Fin v1)) with (Fin (Rmin v v1)) by reflexivity. rewrite fdiv_fin by exact VL. fold z. fcbn.
    rewrite Rltb_true by exact Hz. pose proof (exp_pos y). assert (0 < Q2R (ask14_c c) * (s * s)) by (apply Rmult_lt_0_compat; nra).
    rewrite fpow_fin by exact Z0. rewrite Es. fcbn. rewrite !flog_fin by lra. fcbn. f_equal. ring.
  - exists ((Q2R (ask14_a10 c) + Q2R (ask14_b c) * Q2R (ask14_n c)) * ln z + f), 0, 1, 1.
    split; [lra|]. split; [lra|]. split; [lra|]. split; [lra|]. intros y. rewrite EQ. cbv zeta.
    replace (fmin (Fin v) (Fin v1)) with (Fin (Rmin v v1)) by reflexivity. rewrite fdiv_fin by exact VL. fold z. fcbn.
    rewrite Rltb_false by lra. rewrite flog_fin by exact Z0. fcbn. f_equal. ring.
Qed.
(** Strict decay with distance, every region, period and site class. *)
Theorem ask14_decay src1 src2 a t r1 r2 : nga_gives src1 (with_rup a r1) -> nga_gives src2 (with_rup a r2) ->
  n_mech a = Some t -> n_hw a <> Some true -> depth_ok a -> n_mag a <= 8.5 -> 180 <= n_v a -> 0 <= r1 -> r1 < r2 ->
  exists o1 o2, gmm_out (ask14 src1) o1 /\ gmm_out (ask14 src2) o2 /\ resp2 flt_lt o2 o1.
Proof.
  intros G1 G2 Ht Hw Hd Hm Hv H1 H2. exists (ask14_outs (with_rup a r1)), (ask14_outs (with_rup a r2)).
  assert (P : forall src r, nga_gives src (with_rup a r) -> gmm_out (ask14 src) (ask14_outs (with_rup a r))).
  { intros src r G. apply (ask14_out _ _ t); [exact G|destruct a; exact Ht|]. intros W. destruct a; cbn in *; congruence. }
  split; [apply P; exact G1|]. split; [apply P; exact G2|].
  apply (row_resp_lt ask14_coeff); [exact ask14_psa_in|exact ask14_pga_in|exact ask14_pgv_in|].
  intros c Hc.
  destruct (ask14_dist_form c a (n_v a) Hc Hw ltac:(lra)) as [K FK].
  destruct (ask14_dist_form c a 1180.0 Hc Hw ltac:(lra)) as [K' FK'].
  assert (DD : match option_map Fin (n_z1 a) with Some x => fnonneg x | None => True end).
  { unfold depth_ok in Hd. destruct (n_z1 a); cbn; [apply fnonneg_fin; exact Hd|exact I]. }
  destruct (ask14_site_finite c NaN 1180.0 (option_map Fin (n_z1 a)) (ask14_region a) Hc ltac:(lra) ltac:(right; lra) DD) as [S' ES'].
  destruct (ask14_site_p c (n_v a) (option_map Fin (n_z1 a)) (ask14_region a) Hc Hv DD) as (S & B & k & s & HB & Hk & Hs & Hbs & ES).
  assert (Q : forall r, ask14_resp (with_rup a r) c = Fin (K + ask14_g c a r + (S + (B * ln (exp (K' + ask14_g c a r + S') + k) - B * ln (exp (K' + ask14_g c a r + S') + k * (s * s)))))).
  { intros r. unfold ask14_resp, ask14_ln_ref. rewrite !ask14_ln_resp_parts.
    replace (as_depth_1_0 (ask14_input (with_rup a r))) with (option_map Fin (n_z1 a)) by (destruct a; reflexivity).
    replace (as_region (ask14_input (with_rup a r))) with (ask14_region a) by (destruct a; reflexivity).
    replace (n_v (with_rup a r)) with (n_v a) by (destruct a; reflexivity).
    rewrite FK, FK', ES'. fcbn. rewrite ES. fcbn. reflexivity. }
  rewrite !Q. do 2 eexists; split; [reflexivity|split; [reflexivity|]].
  pose proof (ask14_g_decr c a r1 r2 Hc Hm H1 H2) as D.
  pose proof (nl_incr B k s (K' + ask14_g c a r2 + S') (K' + ask14_g c a r1 + S') HB Hk Hs Hbs ltac:(lra)). lra.
Qed.

(** ** Regions without their own coefficients *)
Theorem ask14_region_same src1 src2 a t re1 re2 :
  nga_gives src1 (with_region a (Some re1)) -> nga_gives src2 (with_region a (Some re2)) -> n_mech a = Some t -> hw_has_x a ->
  In re1 ["global"; "california"; "italy"] -> In re2 ["global"; "california"; "italy"] ->
  exists o, gmm_out (ask14 src1) o /\ gmm_out (ask14 src2) o.
Proof.
  intros G1 G2 Ht Hx I1 I2.
  assert (P : forall src re, nga_gives src (with_region a (Some re)) -> gmm_out (ask14 src) (ask14_outs (with_region a (Some re)))).
  { intros src re G. apply (ask14_out _ _ t); [exact G|destruct a; exact Ht|destruct a; exact Hx]. }
  assert (E : forall re, In re ["global"; "california"; "italy"] -> ask14_outs (with_region a (Some re)) = ask14_outs (with_region a (Some "global"))).
  { intros re I. cbn [In] in I. apply row_outs_ext with (rows := ask14_coeff); [exact ask14_psa_in|exact ask14_pga_in|exact ask14_pgv_in| |];
      intros c _; destruct a; repeat (destruct I as [<-|I]; [reflexivity|]); destruct I. }
  exists (ask14_outs (with_region a (Some "global"))). split; [rewrite <- (E re1 I1)|rewrite <- (E re2 I2)]; apply P; assumption.
Qed.

(** ** Velocities of 1500 m/s and more *)
Theorem ask14_stiff_same src1 src2 a t v : nga_gives src1 a -> nga_gives src2 (with_v a v) -> n_mech a = Some t -> hw_has_x a ->
  n_z1 a = None -> 1500 <= n_v a -> 1500 <= v -> exists o, gmm_out (ask14 src1) o /\ gmm_out (ask14 src2) o.
Proof.
  intros G1 G2 Ht Hx Hz H1 H2.
  exists (ask14_outs a). split; [apply (ask14_out _ _ t); assumption|].
  replace (ask14_outs a) with (ask14_outs (with_v a v)); [apply (ask14_out _ _ t); [exact G2|destruct a; exact Ht|destruct a; exact Hx]|].
  assert (I : forall c, ask14_ln_ref c (ask14_input (with_v a v)) = ask14_ln_ref c (ask14_input a)) by (intros; destruct a; reflexivity).
  apply row_outs_ext with (rows := ask14_coeff); [exact ask14_psa_in|exact ask14_pga_in|exact ask14_pgv_in| |].
  - intros c Hc. unfold ask14_resp. rewrite I. rewrite !ask14_ln_resp_parts.
    destruct (ask14_v1_form c) as (v1 & E1 & B & _).
    replace (n_v (with_v a v)) with v by (destruct a; reflexivity).
    replace (ask14_src_terms c (ask14_input (with_v a v))) with (ask14_src_terms c (ask14_input a)) by (destruct a; reflexivity).
    replace (as_depth_1_0 (ask14_input (with_v a v))) with (@None flt) by (destruct a; cbn in *; subst; reflexivity).
    replace (as_depth_1_0 (ask14_input a)) with (@None flt) by (cbn; rewrite Hz; reflexivity).
    replace (as_region (ask14_input (with_v a v))) with (ask14_region a) by (destruct a; reflexivity).
    change (as_region (ask14_input a)) with (ask14_region a).
    f_equal; [f_equal|].
    + unfold ask14_freg. replace (as_region (ask14_input (with_v a v))) with (ask14_region a) by (destruct a; reflexivity).
      change (as_region (ask14_input a)) with (ask14_region a).
      replace (as_dist_rup (ask14_input (with_v a v))) with (as_dist_rup (ask14_input a)) by (destruct a; reflexivity).
      rewrite E1. cbn [fmin]. rewrite (Rmin_right v v1), (Rmin_right (n_v a) v1) by lra.
      destruct (is_str _ _); [reflexivity|]. destruct (is_str _ _); [reflexivity|]. destruct (is_str _ _); [|reflexivity].
      f_equal. unfold np_interp. fcbn. cbn. rewrite !(Rltb_true 1150), ?(Rleb_true 1150), (Rltb_false v 150), (Rltb_false (n_v a) 150) by lra. reflexivity.
    + unfold ask14_site_term. rewrite E1. cbn [fmin]. rewrite (Rmin_right v v1), (Rmin_right (n_v a) v1) by lra.
      cbn [fltb feqb]. destruct (Reqb v 1180.0), (Reqb (n_v a) 1180.0); reflexivity.
  - intros c Hc. unfold ask14_std. rewrite I. row_upto Hc ask14_v_lin (960#1)%Q as VL. unfold ask14_ln_std.
    replace (as_v_s30 (ask14_input (with_v a v))) with (Fin v) by (destruct a; reflexivity).
    change (as_v_s30 (ask14_input a)) with (Fin (n_v a)).
    unfold qf at 15 30. 
    assert (T : forall w, 1500 <= w -> (qf (ask14_v_lin c) <=? Fin w)%flt = true) by (intros; unfold qf; fcbn; apply Rleb_true; lra).
    rewrite (T v H2), (T (n_v a) H1). cbn [fst]. destruct a; reflexivity.
Qed.

(** ** The basin term is dropped at exactly 1180 m/s *)
Lemma Rmult_div_cancel x y : y <> 0 -> x / y * y = x.
Proof. intros; field; assumption. Qed.
Lemma ask14_z1_calif v : 1100 <= v -> exists z, ask14_calc_depth_1_0 (Fin v) (PStr "global") = Fin z /\ 0 < z <= 0.005.
Proof.
  intros Hv. unfold ask14_calc_depth_1_0. replace (pyin (PStr "global") [PStr "japan"]) with false by reflexivity.
  assert (V2 : 1100 * 1100 <= v * v) by nra. assert (V4 : 1100 * 1100 * (1100 * 1100) <= v * v * (v * v)) by nra.
  fcbn. rewrite !fdiv_fin by lra.
  assert (X : 0.45 <= (v * v * (v * v) + 610 * 610 * (610 * 610)) / (1360.0 * 1360.0 * (1360.0 * 1360.0) + 610 * 610 * (610 * 610))).
  { apply (Rmult_le_reg_r (1360.0 * 1360.0 * (1360.0 * 1360.0) + 610 * 610 * (610 * 610))); [lra|]. rewrite Rmult_div_cancel by (apply Rgt_not_eq; lra). lra. }
  match type of X with _ <= ?t => set (q := t) in * end. clearbody q. rewrite flog_fin by lra. fcbn. rewrite ?fdiv_fin by lra. fcbn. rewrite ?fdiv_fin by lra.
  eexists; split; [reflexivity|].
  assert (L : ln 0.45 <= ln q) by (apply ln_le_mono; lra).
  split; [apply Rdiv_lt_0_compat; [apply exp_pos|lra]|].
  assert (exp (- (7.67) / 4 * ln q) <= exp (- (7.67) / 4 * ln 0.45)) by (apply exp_le_mono; lra).
  assert (exp (- (7.67) / 4 * ln 0.45) <= 5) by (clear; interval with (i_prec 40)). lra.
Qed.

Definition ask14_15s : ask14_row := ltac:(let x := eval cbv in (nth_error ask14_coeff 14) in match x with Some ?c => exact c end).
Lemma ask14_15s_in : In ask14_15s ask14_coeff. Proof. apply (nth_error_In _ 14); reflexivity. Qed.
Lemma ask14_15s_v1 : exists v1, ask14_v1 ask14_15s = Fin v1 /\ 1000 <= v1 <= 1100.
Proof.
  unfold ask14_v1, qf. rewrite fclip_fin. fcbn. set (p := Rmin _ _).
  assert (p = 1.5) as -> by (unfold p; cbn; unfold Q2R; cbn; rewrite Rmax_left by lra; rewrite Rmin_left by lra; lra).
  rewrite fdiv_fin by lra. rewrite !flog_fin by lra. fcbn. eexists; split; [reflexivity|]. split; interval with (i_prec 40).
Qed.
Theorem ask14_basin_drop src1 src2 a t d v :
  nga_gives src1 (with_v a 1180) -> nga_gives src2 (with_v a v) -> n_mech a = Some t -> ask14_geom a ->
  n_region a = Some "global" -> n_z1 a = Some d -> 0.5 <= d -> 1100 <= v -> v <> 1180 ->
  exists o1 o2 y1 y2, gmm_out (ask14 src1) o1 /\ gmm_out (ask14 src2) o2 /\
    nth_error (o_sa o1) 14 = Some (Fin y1) /\ nth_error (o_sa o2) 14 = Some (Fin y2) /\ 0 < y1 /\ 1.75 * y1 < y2.
Proof.
  intros G1 G2 Ht HG Er Ez Hd Hv Hne.
  assert (HGv : forall w, ask14_geom (with_v a w)) by (intros w; destruct a; exact HG).
  assert (P : forall src w, nga_gives src (with_v a w) -> gmm_out (ask14 src) (ask14_outs (with_v a w))).
  { intros src w G. apply (ask14_out _ _ t); [exact G|destruct a; exact Ht|apply ask14_geom_x, HGv]. }
  assert (DO : depth_ok a) by (unfold depth_ok; rewrite Ez; lra).
  destruct ask14_15s_v1 as (v1 & E1 & B1). destruct (ask14_z1_calif v Hv) as (z & Hz & Z0).
  assert (S : exists K, ask14_resp (with_v a 1180) ask14_15s = Fin K /\ ask14_resp (with_v a v) ask14_15s = Fin (K + 0.16 * ln ((d + 0.01) / (z + 0.01)))).
  { pose proof (ask14_src_finite ask14_15s a ask14_15s_in HG) as [x Hx].
    exists (x + (-1) * ln (v1 / 330)).
    assert (SP : forall p, ask14_site_term ask14_15s p (Fin 1180) (Some (Fin d)) (PStr "global") = Fin ((-1) * ln (v1 / 330)) /\
                           ask14_site_term ask14_15s p (Fin v) (Some (Fin d)) (PStr "global") = Fin ((-1) * ln (v1 / 330) + 0.16 * ln ((d + 0.01) / (z + 0.01)))).
    { intros p. unfold ask14_site_term. rewrite E1, Hz. unfold qf. cbn [fmin]. rewrite (Rmin_right v v1), (Rmin_right 1180 v1) by lra.
      replace (Q2R (ask14_v_lin ask14_15s)) with 330 by (cbn; unfold Q2R; cbn; lra).
      rewrite !(fdiv_fin v1) by lra. fcbn.
      assert (W : 1 <= v1 / 330) by lra.
      rewrite !(Rltb_false (v1 / 330)) by lra. rewrite !flog_fin by lra. fcbn.
      rewrite (Reqb_true 1180 1180.0) by lra. rewrite (Reqb_false v 1180.0) by (intros W0; apply Hne; lra). rewrite fdiv_fin by lra.
      rewrite flog_fin by (apply Rdiv_lt_0_compat; lra).
      replace (np_interp _ _ (Fin v)) with (Fin 0.16).
      2:{ unfold np_interp. fcbn. cbn. rewrite ?(Rltb_true 700), ?(Rleb_true 700), ?(Rltb_false v 150) by lra. unfold qf. f_equal. }
      fcbn. replace (Q2R (ask14_a10 ask14_15s) + Q2R (ask14_b ask14_15s) * Q2R (ask14_n ask14_15s)) with (-1) by (cbn; unfold Q2R; cbn; lra).
      split; f_equal. ring. }
    unfold ask14_resp. rewrite !ask14_ln_resp_parts.
    assert (Q : forall w, ask14_src_terms ask14_15s (ask14_input (with_v a w)) = Fin x) by (intros; rewrite <- Hx; destruct a; reflexivity).
    assert (Q1 : forall w, as_depth_1_0 (ask14_input (with_v a w)) = Some (Fin d)) by (intros; destruct a; cbn in *; subst; reflexivity).
    assert (Q2 : forall w, as_region (ask14_input (with_v a w)) = PStr "global") by (intros; destruct a; cbn in *; subst; reflexivity).
    assert (Q3 : forall w u, ask14_freg ask14_15s (ask14_input (with_v a w)) u = Fin 0) by (intros; unfold ask14_freg; rewrite Q2; reflexivity).
    assert (Q4 : forall w, n_v (with_v a w) = w) by (intros; destruct a; reflexivity).
    rewrite !Q, !Q1, !Q2, !Q3, !Q4. 
    destruct (SP (fexp (ask14_ln_ref ask14_15s (ask14_input (with_v a 1180))))) as [-> _].
    destruct (SP (fexp (ask14_ln_ref ask14_15s (ask14_input (with_v a v))))) as [_ ->]. fcbn.
    split; f_equal; ring. }
  destruct S as (K & S1 & S2).
  exists (ask14_outs (with_v a 1180)), (ask14_outs (with_v a v)). do 2 eexists. split; [apply P; exact G1|]. split; [apply P; exact G2|].
  split; [unfold ask14_outs, row_outs; cbn [o_sa]; rewrite nth_error_map; change (nth_error ask14_psa 14) with (Some ask14_15s); cbn [option_map]; rewrite S1; reflexivity|].
  split; [unfold ask14_outs, row_outs; cbn [o_sa]; rewrite nth_error_map; change (nth_error ask14_psa 14) with (Some ask14_15s); cbn [option_map]; rewrite S2; reflexivity|].
  split; [apply exp_pos|]. rewrite exp_plus, Rmult_comm. apply Rmult_lt_compat_l; [apply exp_pos|].
  assert (34 <= (d + 0.01) / (z + 0.01)). { apply (Rmult_le_reg_r (z + 0.01)); [lra|]. rewrite Rmult_div_cancel by (apply Rgt_not_eq; lra). lra. }
  assert (L : ln 34 <= ln ((d + 0.01) / (z + 0.01))) by (apply ln_le_mono; lra).
  apply Rlt_le_trans with (exp (0.16 * ln 34)); [clear; interval with (i_prec 40)|]. apply exp_le_mono. lra.
Qed.

(** ** Aftershocks: without dist_crjb < 15 km the flag has no effect *)
Definition with_after (a : nga) (af : option bool) : nga :=
  let '(Nga m r jb x y0 cr dip v tor bor bot hyp w z1 z25 dpp me re so hw _) := a in
  Nga m r jb x y0 cr dip v tor bor bot hyp w z1 z25 dpp me re so hw af.
Theorem ask14_after_ignored src1 src2 a t b1 b2 : nga_gives src1 (with_after a b1) -> nga_gives src2 (with_after a b2) ->
  n_mech a = Some t -> ask14_geom a -> match n_crjb a with Some r => 15 <= r | None => True end ->
  exists o, gmm_out (ask14 src1) o /\ gmm_out (ask14 src2) o.
Proof.
  intros G1 G2 Ht HG Hr. exists (ask14_outs (with_after a b1)).
  assert (P : forall src b, nga_gives src (with_after a b) -> gmm_out (ask14 src) (ask14_outs (with_after a b))).
  { intros src b G. apply (ask14_out _ _ t); [exact G|destruct a; exact Ht|apply ask14_geom_x; destruct a; exact HG]. }
  split; [apply P; exact G1|].
  assert (E : forall b c v p, In c ask14_coeff -> ask14_ln_resp c (ask14_input (with_after a b)) v p = ask14_ln_resp c (ask14_input (with_after a None)) v p).
  { intros b c v p Hc. rewrite !ask14_ln_resp_parts.
    replace (ask14_src_terms c (ask14_input (with_after a b))) with (ask14_src_terms c (ask14_input (with_after a None))); [destruct a; reflexivity|].
    unfold ask14_src_terms. f_equal; [destruct a; reflexivity|].
    replace (as_dist_crjb (ask14_input (with_after a b))) with (odef (n_crjb a) (Fin 15)) by (destruct a; reflexivity).
    assert (X : exists r, odef (n_crjb a) (Fin 15) = Fin r /\ 15 <= r) by (destruct (n_crjb a) as [r|]; [exists r|exists 15]; cbn; split; try reflexivity; lra).
    destruct X as (r & -> & X). replace (as_aftershock (ask14_input (with_after a None))) with false by (destruct a; reflexivity).
    destruct (as_aftershock _); [|reflexivity]. fcbn. rewrite fdiv_fin by lra. fcbn. rewrite fclip_fin. unfold qf. fcbn. f_equal.
    rewrite Rmax_right by lra. rewrite Rmin_left by lra. ring. }
  replace (ask14_outs (with_after a b1)) with (ask14_outs (with_after a b2)); [apply P; exact G2|].
  apply row_outs_ext with (rows := ask14_coeff); [exact ask14_psa_in|exact ask14_pga_in|exact ask14_pgv_in| |]; intros c Hc.
  - unfold ask14_resp, ask14_ln_ref. rewrite !(E b1), !(E b2) by exact Hc. destruct a; reflexivity.
  - unfold ask14_std, ask14_ln_ref. rewrite !(E b1), !(E b2) by exact Hc. destruct a; reflexivity.
Qed.

(** ** [calc_depth_1_0] *)
Theorem ask14_depth_1_0 re v1 v2 : 0 < v1 -> v1 < v2 ->
  exists z1 z2, ask14_calc_depth_1_0 (Fin v1) re = Fin z1 /\ ask14_calc_depth_1_0 (Fin v2) re = Fin z2 /\ 0 < z2 < z1.
Proof.
  intros H1 H2. assert (V2 : v1 * v1 < v2 * v2) by nra. assert (V4 : v1 * v1 * (v1 * v1) < v2 * v2 * (v2 * v2)) by nra.
  unfold ask14_calc_depth_1_0. destruct (pyin _ _); fcbn.
  - assert (0 < v1 * v1) by nra. set (u1 := v1 * v1) in *. set (u2 := v2 * v2) in *. clearbody u1 u2.
    rewrite !(fdiv_fin _ (1360.0 * 1360.0 + 412 * 412)) by lra.
    rewrite !flog_fin by (apply Rdiv_lt_0_compat; lra). fcbn. rewrite ?fdiv_fin by lra. fcbn. rewrite ?fdiv_fin by lra.
    do 2 eexists; split; [reflexivity|split; [reflexivity|]].
    split; [apply Rdiv_lt_0_compat; [apply exp_pos|lra]|]. apply Rmult_lt_compat_r; [lra|]. apply exp_increasing.
    rewrite !ln_div by lra. assert (ln (u1 + 412 * 412) < ln (u2 + 412 * 412)) by (apply ln_increasing; lra). lra.
  - assert (U0 : 0 < v1 * v1) by nra. assert (0 < v1 * v1 * (v1 * v1)) by (apply Rmult_lt_0_compat; exact U0). set (u1 := v1 * v1 * (v1 * v1)) in *. set (u2 := v2 * v2 * (v2 * v2)) in *. clearbody u1 u2.
    rewrite !(fdiv_fin _ (1360.0 * 1360.0 * (1360.0 * 1360.0) + 610 * 610 * (610 * 610))) by lra.
    rewrite !flog_fin by (apply Rdiv_lt_0_compat; lra). fcbn. rewrite ?fdiv_fin by lra. fcbn. rewrite ?fdiv_fin by lra.
    do 2 eexists; split; [reflexivity|split; [reflexivity|]].
    split; [apply Rdiv_lt_0_compat; [apply exp_pos|lra]|]. apply Rmult_lt_compat_r; [lra|]. apply exp_increasing.
    rewrite !ln_div by lra. assert (ln (u1 + 610 * 610 * (610 * 610)) < ln (u2 + 610 * 610 * (610 * 610))) by (apply ln_increasing; lra). lra.
Qed.
