(** * AGA16: decay with distance; Coppersmith & Bommer (2014) *)
From Coquelicot Require Import Coquelicot.
From Interval Require Import Tactic.
From Coq Require Import List.
From Verif Require Import M_aga16 FrameworkProofs Anal Nga Outs1 Cont Spec_sub P_aga16.
Open Scope R_scope.
Open Scope string_scope.
Open Scope list_scope.

Lemma site_mono vl b n c t12 v x1 x2 : 0 < Q2R c -> -1.2 <= Q2R b <= 0 ->
  (v < Q2R vl -> 0.1 <= Rpower (Rmin v 1000 / Q2R vl) (Q2R n)) -> x1 < x2 ->
  x1 + sub_site_val vl b n c t12 (exp x1) v < x2 + sub_site_val vl b n c t12 (exp x2) v.
Proof.
  intros Hc Hb Hr H. unfold sub_site_val. destruct (Rlt_dec v (Q2R vl)) as [Hv|_]; [|lra]. specialize (Hr Hv).
  set (u := Rpower _ _) in *. set (k := Q2R c) in *. set (B := Q2R b) in *. set (l := ln (Rmin v 1000 / Q2R vl)).
  assert (M : x1 + B * (ln (exp x1 + k * u) - ln (exp x1 + k)) < x2 + B * (ln (exp x2 + k * u) - ln (exp x2 + k))).
  { apply (incr_by_derive (fun x => x + B * (ln (exp x + k * u) - ln (exp x + k)))
      (fun x => 1 + B * (exp x / (exp x + k * u) - exp x / (exp x + k)))); [exact H| |].
    - intros x _. pose proof (exp_pos x). assert (0 < k * u) by (apply Rmult_lt_0_compat; lra). auto_derive; [repeat split; lra|]. field. split; lra.
    - intros x _. pose proof (exp_pos x) as X. set (E := exp x) in *. assert (KU : 0 < k * u) by (apply Rmult_lt_0_compat; lra).
      assert (EK : 0 < E * k) by (apply Rmult_lt_0_compat; lra).
      replace (1 + B * (E / (E + k * u) - E / (E + k))) with (((E + k * u) * (E + k) + B * (E * k) * (1 - u)) / ((E + k * u) * (E + k))) by (field; split; lra).
      apply Rdiv_lt_0_compat; [|apply Rmult_lt_0_compat; lra].
      assert (P1 : 0 < E * E) by (apply Rmult_lt_0_compat; lra).
      assert (P2 : 0 < k * k * u) by (apply Rmult_lt_0_compat; [apply Rmult_lt_0_compat; lra|lra]).
      assert (P3 : 0 <= (1 + u + B * (1 - u))).
      { destruct (Rle_dec u 1) as [U|U].
        - assert (-1.2 * (1 - u) <= B * (1 - u)) by (apply Rmult_le_compat_r; lra). lra.
        - assert (0 <= (- B) * (u - 1)) by (apply Rmult_le_pos; lra). lra. }
      assert (0 <= E * k * (1 + u + B * (1 - u))) by (apply Rmult_le_pos; lra).
      replace ((E + k * u) * (E + k) + B * (E * k) * (1 - u)) with (E * E + k * k * u + E * k * (1 + u + B * (1 - u))) by ring. lra. }
  lra.
Qed.
(** The PGA row from 150 m/s. *)
Lemma rho_150 v : 150 <= v -> v < 865.1 -> 0.1 <= Rpower (Rmin v 1000 / 865.1) 1.18.
Proof.
  intros H1 H2. rewrite Rmin_left by lra. apply Rle_trans with (Rpower (150 / 865.1) 1.18).
  - clear. unfold Rpower. interval with (i_prec 40).
  - apply Rle_Rpower_l; [lra|]. split; [lra|]. unfold Rdiv. apply Rmult_le_compat_r; lra.
Qed.
Lemma ln_mono_mult k a b : k <= 0 -> 0 < a -> a <= b -> k * ln b <= k * ln a.
Proof. intros K A B. apply Rmult_le_compat_neg_l; [exact K|]. apply ln_le_iff; lra. Qed.
Lemma aga16_rock_decr sl bk c x scale m d1 d2 z : In c aga16_coeff -> (sl = true -> bk = false) -> 0 <= scale -> m <= 8.5 -> 0 <= d1 -> d1 < d2 ->
  aga16_rock sl bk c x scale m d2 z < aga16_rock sl bk c x scale m d1 z.
Proof.
  intros Hc Hb Hs Hm H1 H2. row_pos Hc (fun c => aga16_c_4 c) as C4.
  row_lt Hc (fun c => aga16_t_2 c + aga16_t_3 c * (7#10))%Q (fun _ : aga16_row => (0#1)%Q) as T2.
  row_pos Hc (fun c => aga16_t_3 c) as T3. row_le Hc (fun c => aga16_t_14 c) (fun _ : aga16_row => (0#1)%Q) as T14.
  row_le Hc (fun c => aga16_t_6 c) (fun _ : aga16_row => (0#1)%Q) as T6. row_le Hc (fun c => aga16_t_16 c) (fun _ : aga16_row => (0#1)%Q) as T16.
  unfold aga16_rock. set (f := if sl then 1 else 0). assert (F : 0 <= f <= 1) by (unfold f; destruct sl; lra).
  set (e := Q2R (aga16_c_4 c) * exp _). assert (E0 : 0 < e) by (apply Rmult_lt_0_compat; [lra|apply exp_pos]).
  assert (K : Q2R (aga16_t_2 c) + Q2R (aga16_t_14 c) * f + Q2R (aga16_t_3 c) * (m - 7.8) < 0).
  { assert (Q2R (aga16_t_3 c) * (m - 7.8) <= Q2R (aga16_t_3 c) * 0.7) by (apply Rmult_le_compat_l; lra).
    assert (0 <= (- Q2R (aga16_t_14 c)) * f) by (apply Rmult_le_pos; lra). lra. }
  assert (L : ln (d1 + e) < ln (d2 + e)) by (apply ln_increasing; lra).
  pose proof (Rmult_lt_gt_compat_neg_l _ _ _ K L) as KL.
  assert (A : scale * Q2R (aga16_t_6 c) * d2 <= scale * Q2R (aga16_t_6 c) * d1).
  { apply Rmult_le_compat_neg_l; [|lra]. assert (0 <= scale * (- Q2R (aga16_t_6 c))) by (apply Rmult_le_pos; lra). lra. }
  destruct bk; [destruct sl; [specialize (Hb eq_refl); discriminate|]|]; [|lra].
  assert (W : Q2R (aga16_t_16 c) * ln (Rmax d2 100 / 40) <= Q2R (aga16_t_16 c) * ln (Rmax d1 100 / 40)).
  { apply ln_mono_mult; [lra| |].
    - apply Rdiv_lt_0_compat; [|lra]. apply Rlt_le_trans with 100; [lra|apply Rmax_r].
    - unfold Rdiv. apply Rmult_le_compat_r; [lra|]. apply Rmax_case; [apply Rle_trans with d2; [lra|apply Rmax_l]|apply Rmax_r]. }
  lra.
Qed.
Lemma sub_with_d_slab u d : slab (sub_with_d u d) = slab u /\ backarc (sub_with_d u d) = backarc u /\ u_mag (sub_with_d u d) = u_mag u /\ u_v (sub_with_d u d) = u_v u.
Proof. unfold sub_with_d. destruct (slab u) eqn:E; repeat split; unfold slab in *; cbn; assumption. Qed.
Lemma sub_with_d_ready u d0 z d : sub_ready u d0 z -> sub_ready (sub_with_d u d) d z.
Proof.
  intros (R1 & R2 & R3). unfold sub_ready. destruct (sub_with_d_slab u d) as (E1 & E2 & _). rewrite E1, E2.
  unfold sub_dist. rewrite E1. unfold sub_with_d. destruct (slab u) eqn:E; cbn; repeat split; auto.
Qed.
Lemma aga16_decay src1 src2 u a l scale d0 z d1 d2 : sub_gives src1 (sub_with_d u d1) -> sub_gives src2 (sub_with_d u d2) ->
  sub_ready u d0 z -> adj_vals a (slab u) aga16_T = Some l -> (slab u = true -> backarc u = false) -> 0 <= scale ->
  u_mag u <= 8.5 -> 150 <= u_v u -> 0 <= d1 -> d1 < d2 ->
  exists o1 o2, gmm_out1 (aga16 src1 (adj_of a) (Fin scale)) o1 /\ gmm_out1 (aga16 src2 (adj_of a) (Fin scale)) o2 /\
    flt_lt (q_pga o2) (q_pga o1) /\ (1086 <= u_v u -> resp21 flt_lt o2 o1).
Proof.
  intros G1 G2 Rd A Hb Hs Hm Hv H1 H2. destruct (adj_fin u a l A) as (_ & L).
  destruct (combine aga16_coeff l) as [|cs0 rest] eqn:C.
  { exfalso. assert (E : List.length (combine aga16_coeff l) = 23%nat) by (rewrite combine_length, L; reflexivity). rewrite C in E. discriminate. }
  destruct (aga16_hd _ _ _ C) as (V0 & B0 & N0 & I0 & I).
  destruct (sub_with_d_slab u d1) as (S1 & K1 & M1 & W1). destruct (sub_with_d_slab u d2) as (S2 & K2 & M2 & W2).
  pose proof (sub_with_d_ready u d0 z d1 Rd) as R1. pose proof (sub_with_d_ready u d0 z d2 Rd) as R2.
  eexists _, _. split; [apply (aga16_out src1 _ a l scale d1 z cs0 rest G1 R1); [rewrite S1; exact A|exact C]|].
  split; [apply (aga16_out src2 _ a l scale d2 z cs0 rest G2 R2); [rewrite S2; exact A|exact C]|].
  assert (F1 : forall cs, In cs (cs0 :: rest) -> aga16_rowR (sub_with_d u d1) scale d1 z (fexp (aga16_rowR (sub_with_d u d1) scale d1 z NaN cs0)) cs = Fin (aga16_val (sub_with_d u d1) scale d1 z (fst cs0) (snd cs0) cs)).
  { intros cs Hc. apply (aga16_row_fin _ _ _ _ cs0 rest l cs C Hc); [lra|rewrite W1; lra|exact (proj2 (proj2 R1))]. }
  assert (F2 : forall cs, In cs (cs0 :: rest) -> aga16_rowR (sub_with_d u d2) scale d2 z (fexp (aga16_rowR (sub_with_d u d2) scale d2 z NaN cs0)) cs = Fin (aga16_val (sub_with_d u d2) scale d2 z (fst cs0) (snd cs0) cs)).
  { intros cs Hc. apply (aga16_row_fin _ _ _ _ cs0 rest l cs C Hc); [lra|rewrite W2; lra|exact (proj2 (proj2 R2))]. }
  unfold aga16_val, aga16_pga1000 in F1, F2. rewrite S1, K1, M1, W1 in F1. rewrite S2, K2, M2, W2 in F2.
  split.
  - unfold row_outs1; cbn [q_pga]. rewrite F1, F2 by (left; reflexivity). apply flt_lt_exp, flt_lt_fin.
    assert (D : aga16_rock (slab u) (backarc u) (fst cs0) (snd cs0) scale (u_mag u) d2 z < aga16_rock (slab u) (backarc u) (fst cs0) (snd cs0) scale (u_mag u) d1 z)
      by (apply aga16_rock_decr; auto).
    set (r2 := aga16_rock _ _ _ _ _ _ d2 _) in *. set (r1 := aga16_rock _ _ _ _ _ _ d1 _) in *.
    set (k := aga16_site (fst cs0) 0 1000).
    row_pos I0 (fun c => aga16_c c) as CC.
    pose proof (site_mono (aga16_v_lin (fst cs0)) (aga16_b (fst cs0)) (aga16_n (fst cs0)) (aga16_c (fst cs0)) (aga16_t_12 (fst cs0)) (u_v u) (r2 + k) (r1 + k)) as SM.
    rewrite V0, B0, N0 in SM. unfold aga16_site. cut (r2 + k + sub_site_val (aga16_v_lin (fst cs0)) (aga16_b (fst cs0)) (aga16_n (fst cs0)) (aga16_c (fst cs0)) (aga16_t_12 (fst cs0)) (exp (r2 + k)) (u_v u) < r1 + k + sub_site_val (aga16_v_lin (fst cs0)) (aga16_b (fst cs0)) (aga16_n (fst cs0)) (aga16_c (fst cs0)) (aga16_t_12 (fst cs0)) (exp (r1 + k)) (u_v u)); [lra|].
    apply SM; [lra|lra|intros W; apply rho_150; assumption|lra].
  - intros Hr. apply (row_outs1_resp2 (cs0 :: rest)); [intros c Hc; right; exact Hc|left; reflexivity|].
    intros cs Hc. rewrite F1, F2 by exact Hc. apply flt_lt_exp, flt_lt_fin. specialize (I cs Hc).
    row_lt I (fun c => aga16_v_lin c) (fun _ : aga16_row => (1086#1)%Q) as VL.
    assert (D : aga16_rock (slab u) (backarc u) (fst cs) (snd cs) scale (u_mag u) d2 z < aga16_rock (slab u) (backarc u) (fst cs) (snd cs) scale (u_mag u) d1 z)
      by (apply aga16_rock_decr; auto).
    unfold aga16_site, sub_site_val. destruct (Rlt_dec (u_v u) (Q2R (aga16_v_lin (fst cs)))); [lra|]. lra.
Qed.

(** ** Coppersmith & Bommer (2014) *)
Lemma cop_src_gives u : cop_gives (sub_src u) u.
Proof. repeat split. Qed.
Definition cop_scen (u : sub) : scen :=
  Scen [("mag", PNum (Fin (u_mag u))); ("dist_rup", onum (u_rup u)); ("v_s30", PNum (Fin (u_v u))); ("event_type", sub_ev u)] [].
Definition cop14_rowf (u : sub) (scale d : R) (p : flt) (c : cop14_row) : flt :=
  cop14_row_resp c (Fin (u_mag u)) (Fin d) (Fin (u_v u)) (Fin scale) (aga16_default_c1 (sub_ev u) (qf (cop14_period c))) p.
Definition cop14_std (c : cop14_row) : flt := aga16_ln_std (cop14_phi c) (cop14_tau c).
Definition cop14_c0 : cop14_row := hd (Mk_cop14_row 0 0 0 0 0 0 0 0 0 0 0 0 0 0 0 0 0 0 0) cop14_coeff.
Lemma cop14_check src u scale : cop_gives src u ->
  result (cop14 src (Fin scale)) = match u_rup u with
  | None => Raise EType
  | Some d => Ok (GMM cop14_class (cop_scen u) (map (cop14_rowf u scale d (fexp (cop14_rowf u scale d NaN cop14_c0))) cop14_coeff) (Some (map cop14_std cop14_coeff)))
  end.
Proof.
  intros (G1 & G2 & G3 & G4). unfold cop14.
  rewrite gmm_make_result by reflexivity.
  let x := eval cbv [gc_params cop14_class NumP CatP CatBoolP map] in (gc_params cop14_class) in change (gc_params cop14_class) with x.
  unfold has_num, has_str, gives_num, gives_str in *.
  cbn [checks p_name]. rewrite G1, G2, G3, G4.
  repeat (rewrite ?chk_num, ?chk_onum_none; cbn [checks p_name]).
  change [PStr "interface"; PStr "intraslab"] with (map PStr ["interface"; "intraslab"]).
  rewrite chk_str_req. cbn [checks p_name]. fold (sub_ev u). fold (cop_scen u).
  change (sc_attr (cop_scen u) "event_type") with (ret (sub_ev u)). rewrite bind_ret_l.
  change (num (cop_scen u) "mag") with (ret (Fin (u_mag u))). rewrite bind_ret_l.
  destruct (u_rup u) as [d|] eqn:E.
  - assert (N : num (cop_scen u) "dist_rup" = ret (Fin d)) by (unfold num, cop_scen; rewrite (attr_hit _ "dist_rup" (PNum (Fin d))) by (cbn; rewrite E; reflexivity); reflexivity).
    rewrite N, bind_ret_l. change (num (cop_scen u) "v_s30") with (ret (Fin (u_v u))). rewrite bind_ret_l. cbv zeta.
    change (arr_get _ 0%Z) with (ret (cop14_rowf u scale d NaN cop14_c0)). rewrite bind_ret_l. rewrite map_map.
    cbn [result snd ret]. reflexivity.
  - rewrite (num_none (cop_scen u) "dist_rup"); [reflexivity|]. unfold cop_scen. apply attr_hit. cbn. rewrite E. reflexivity.
Qed.
Lemma cop14_out src u scale d : cop_gives src u -> u_rup u = Some d ->
  gmm_out1 (cop14 src (Fin scale)) (row_outs1 cop14_coeff cop14_c0 (cop14_rowf u scale d (fexp (cop14_rowf u scale d NaN cop14_c0))) cop14_std).
Proof.
  intros G D. pose proof (cop14_check src u scale G) as K. rewrite D in K.
  eapply (gmm_out1_rows _ cop14_class _ _ _ cop14_coeff cop14_coeff 0%Z cop14_c0); [exact K|reflexivity|reflexivity|reflexivity|reflexivity].
Qed.
Lemma cop14_no_dist src u scale : cop_gives src u -> u_rup u = None -> result (cop14 src (Fin scale)) = Raise EType.
Proof. intros G D. rewrite (cop14_check src u scale G), D. reflexivity. Qed.
Definition cop_shift (u : sub) (c : cop14_row) : R := dc1_default (slab u) (Q2R (cop14_period c)).
Lemma cop14_row_eq u scale d p c s : In c cop14_coeff -> 0 <= d ->
  aga16_f_site (cop14_v_lin c) (cop14_b c) (cop14_n c) (cop14_c c) (cop14_t_12 c) p (Fin (u_v u)) = Fin s ->
  cop14_rowf u scale d p c = Fin (cop14_rock c (cop_shift u c) scale (u_mag u) d + s).
Proof.
  intros Hc Hd Hs. row_pos Hc (fun c => cop14_c_4 c) as C4. row_pos Hc (fun c => cop14_period c) as CT.
  set (m := u_mag u). set (k := Q2R (cop14_c_4 c) * exp (Q2R (cop14_t_9 c) * (m - 6))).
  assert (K : 0 < k) by (unfold k; apply Rmult_lt_0_compat; [lra|apply exp_pos]).
  unfold cop14_rowf, cop14_row_resp, cop14_rock, cop_shift. change (qf (cop14_period c)) with (Fin (Q2R (cop14_period c))). rewrite default_c1_fin by lra. rewrite ev_slab. fold m. rewrite f_mag_fin, Hs.
  unfold qf. fcbn. fold k.
  assert (P40 : 0 < Rmax d 40 / 40) by (apply Rdiv_lt_0_compat; [|lra]; apply Rlt_le_trans with 40; [lra|apply Rmax_r]).
  rewrite (fdiv_fin _ 40) by lra. rewrite !flog_fin by lra. fcbn. f_equal. ring.
Qed.
Lemma cop14_site_ok c p v : In c cop14_coeff -> 0 < p -> 0 < v ->
  aga16_f_site (cop14_v_lin c) (cop14_b c) (cop14_n c) (cop14_c c) (cop14_t_12 c) (Fin p) (Fin v) = Fin (cop14_site c p v).
Proof.
  intros Hc Hp Hv. row_pos Hc (fun c => cop14_v_lin c) as V. row_pos Hc (fun c => cop14_c c) as C. apply f_site_fin; lra.
Qed.
Lemma cop14_hd : Q2R (cop14_v_lin cop14_c0) = 865.1 /\ Q2R (cop14_b cop14_c0) = -1.186 /\ Q2R (cop14_n cop14_c0) = 1.18 /\ In cop14_c0 cop14_coeff.
Proof. repeat split; try (cbn [cop14_c0 hd cop14_coeff cop14_v_lin cop14_b cop14_n]; unfold Q2R; cbn; lra). left; reflexivity. Qed.
Lemma cop14_row_fin u scale d c : In c cop14_coeff -> 0 <= d -> 0 < u_v u ->
  cop14_rowf u scale d (fexp (cop14_rowf u scale d NaN cop14_c0)) c = Fin (cop14_val u scale d cop14_c0 c).
Proof.
  intros Hc Hd Hv. destruct cop14_hd as (V & _ & _ & I0).
  rewrite (cop14_row_eq u scale d NaN cop14_c0 (cop14_site cop14_c0 0 1000) I0 Hd) by (apply f_site_nan; lra).
  cbn [fexp].
  rewrite (cop14_row_eq u scale d _ c (cop14_site c (exp (cop14_rock cop14_c0 (cop_shift u cop14_c0) scale (u_mag u) d + cop14_site cop14_c0 0 1000)) (u_v u)) Hc Hd).
  - reflexivity.
  - apply cop14_site_ok; [exact Hc|apply exp_pos|exact Hv].
Qed.
Lemma cop14_median src u scale d : cop_gives src u -> u_rup u = Some d -> 0 <= d -> 0 < u_v u ->
  exists o, gmm_out1 (cop14 src (Fin scale)) o /\
    forall c0 rest, cop14_coeff = c0 :: rest ->
    Forall2 (fun c s => s = Fin (exp (cop14_val u scale d c0 c))) cop14_coeff (q_sa o) /\
    q_pga o = Fin (exp (cop14_val u scale d c0 c0)).
Proof.
  intros G D Hd Hv. eexists. split; [apply (cop14_out src u scale d G D)|].
  intros c0 rest E. assert (c0 = cop14_c0) as -> by (unfold cop14_c0; rewrite E; reflexivity). clear E rest.
  destruct cop14_hd as (_ & _ & _ & I0).
  unfold row_outs1; cbn [q_sa q_pga]. split.
  - assert (F : Forall2 (fun c s => s = Fin (exp (cop14_val u scale d cop14_c0 c))) (map (fun x => x) cop14_coeff)
      (map (fun c => fexp (cop14_rowf u scale d (fexp (cop14_rowf u scale d NaN cop14_c0)) c)) cop14_coeff)).
    { apply Forall2_map_intro. intros c Hc. rewrite (cop14_row_fin u scale d c) by auto. reflexivity. }
    rewrite map_id in F. exact F.
  - rewrite (cop14_row_fin u scale d cop14_c0) by auto. reflexivity.
Qed.
Lemma cop14_positive src u scale d : cop_gives src u -> u_rup u = Some d -> 0 <= d -> 0 < u_v u ->
  exists o, gmm_out1 (cop14 src (Fin scale)) o /\ List.length (q_sa o) = 14%nat /\ List.length (q_sd o) = 14%nat /\
    all_resp1 fpos o /\ all_std1 (fun s => exists x, s = Fin x /\ x * x = 0.6 * 0.6 + 0.43 * 0.43 /\ 0.738 <= x <= 0.739) o.
Proof.
  intros G D Hd Hv. destruct cop14_hd as (_ & _ & _ & I0). eexists. split; [apply (cop14_out src u scale d G D)|].
  unfold row_outs1 at 1 2; cbn [q_sa q_sd]. rewrite !map_length. split; [reflexivity|]. split; [reflexivity|].
  split.
  - apply (row_outs1_resp cop14_coeff); [intros c Hc; exact Hc|exact I0|].
    intros c Hc. rewrite (cop14_row_fin u scale d c) by auto. apply fpos_exp. eexists; reflexivity.
  - apply (row_outs1_std cop14_coeff); [intros c Hc; exact Hc|exact I0|].
    intros c I. row_is I (fun c => cop14_phi c) (6#10)%Q as P. row_is I (fun c => cop14_tau c) (43#100)%Q as T.
    apply sd_738; lra.
Qed.
Lemma cop14_rock_cont c a scale d m0 : In c cop14_coeff -> 0 <= d -> continuous (fun m => cop14_rock c a scale m d) m0.
Proof.
  intros Hc Hd. row_pos Hc (fun c => cop14_c_4 c) as C4. unfold cop14_rock.
  assert (0 < Q2R (cop14_c_4 c) * exp (Q2R (cop14_t_9 c) * (m0 - 6))) by (apply Rmult_lt_0_compat; [lra|apply exp_pos]).
  repeat cont1; cbv beta; try apply sub_mag_cont; try lra.
Qed.
Lemma cop14_cont_mag u scale d m0 : u_rup u = Some d -> 0 <= d -> 0 < u_v u ->
  resp_continuous1 (fun m o => exists src, cop_gives src (sub_with_m u m) /\ gmm_out1 (cop14 src (Fin scale)) o) m0.
Proof.
  intros D Hd Hv. destruct cop14_hd as (_ & _ & _ & I0).
  apply (rows_continuous1 cop14_coeff cop14_coeff cop14_c0
     (fun m => cop14_rowf (sub_with_m u m) scale d (fexp (cop14_rowf (sub_with_m u m) scale d NaN cop14_c0)))
     (fun m => cop14_std) (fun m => cop14_val (sub_with_m u m) scale d cop14_c0)) with (r := 1);
    [intros c Hc; exact Hc|exact I0|lra| | |].
  - intros m o (src & G & O). apply (gmm_out1_fun _ _ _ O). apply (cop14_out src (sub_with_m u m)); auto.
  - intros m c Hc _. apply cop14_row_fin; auto.
  - intros c I. unfold cop14_val, sub_with_m, slab; cbn [u_mag u_v u_event]. cbv zeta.
    row_pos I (fun c => cop14_c c) as CC.
    apply cplus; [apply cop14_rock_cont; assumption|]. unfold cop14_site at 1. apply site_cont_p; [lra| |apply exp_pos].
    apply cexp. apply cplus; [apply cop14_rock_cont; assumption|apply cconst].
Qed.
Lemma cop14_cont_vs u scale d v0 : u_rup u = Some d -> 0 <= d -> 0 < v0 ->
  (forall c, In c cop14_coeff -> 1000 < Q2R (cop14_v_lin c) -> v0 <> Q2R (cop14_v_lin c)) ->
  resp_continuous1 (fun v o => exists src, cop_gives src (sub_with_v u v) /\ gmm_out1 (cop14 src (Fin scale)) o) v0.
Proof.
  intros D Hd Hv N. destruct cop14_hd as (_ & _ & _ & I0).
  apply (rows_continuous1 cop14_coeff cop14_coeff cop14_c0
     (fun m => cop14_rowf (sub_with_v u m) scale d (fexp (cop14_rowf (sub_with_v u m) scale d NaN cop14_c0)))
     (fun m => cop14_std) (fun m => cop14_val (sub_with_v u m) scale d cop14_c0)) with (r := v0);
    [intros c Hc; exact Hc|exact I0|lra| | |].
  - intros m o (src & G & O). apply (gmm_out1_fun _ _ _ O). apply (cop14_out src (sub_with_v u m)); auto.
  - intros v c Hc Hn. apply cop14_row_fin; auto. apply Rabs_def2 in Hn. cbn [sub_with_v u_v]. lra.
  - intros c I. unfold cop14_val; cbn [sub_with_v u_mag u_v]. cbv zeta.
    row_pos I (fun c => cop14_c c) as CC. row_pos I (fun c => cop14_v_lin c) as CV.
    apply cplus; [apply cconst|]. unfold cop14_site at 1. apply site_cont_v; [lra|lra|apply exp_pos|exact Hv|apply N; exact I].
Qed.
Lemma cop14_decay src1 src2 u scale d1 d2 : cop_gives src1 (sub_with_rup u d1) -> cop_gives src2 (sub_with_rup u d2) ->
  0 <= scale -> u_mag u <= 8.5 -> 150 <= u_v u -> 0 <= d1 -> d1 < d2 ->
  exists o1 o2, gmm_out1 (cop14 src1 (Fin scale)) o1 /\ gmm_out1 (cop14 src2 (Fin scale)) o2 /\
    flt_lt (q_pga o2) (q_pga o1) /\ (1086 <= u_v u -> resp21 flt_lt o2 o1).
Proof.
  intros G1 G2 Hs Hm Hv H1 H2. destruct cop14_hd as (V0 & B0 & N0 & I0).
  assert (D : forall c x, In c cop14_coeff -> cop14_rock c x scale (u_mag u) d2 < cop14_rock c x scale (u_mag u) d1).
  { intros c x Hc. row_pos Hc (fun c => cop14_c_4 c) as C4.
    row_lt Hc (fun c => cop14_t_2 c + cop14_t_3 c * (7#10))%Q (fun _ : cop14_row => (0#1)%Q) as T2.
    row_pos Hc (fun c => cop14_t_3 c) as T3. row_le Hc (fun c => cop14_t_6 c) (fun _ : cop14_row => (0#1)%Q) as T6.
    row_le Hc (fun c => cop14_t_16 c) (fun _ : cop14_row => (0#1)%Q) as T16.
    unfold cop14_rock. set (e := Q2R (cop14_c_4 c) * exp _). assert (E0 : 0 < e) by (apply Rmult_lt_0_compat; [lra|apply exp_pos]).
    set (m := u_mag u) in *.
    assert (K : Q2R (cop14_t_2 c) + Q2R (cop14_t_3 c) * (m - 7.8) < 0).
    { assert (Q2R (cop14_t_3 c) * (m - 7.8) <= Q2R (cop14_t_3 c) * 0.7) by (apply Rmult_le_compat_l; lra). lra. }
    assert (L : ln (d1 + e) < ln (d2 + e)) by (apply ln_increasing; lra).
    pose proof (Rmult_lt_gt_compat_neg_l _ _ _ K L) as KL.
    assert (A : scale * Q2R (cop14_t_6 c) * d2 <= scale * Q2R (cop14_t_6 c) * d1).
    { apply Rmult_le_compat_neg_l; [|lra]. assert (0 <= scale * (- Q2R (cop14_t_6 c))) by (apply Rmult_le_pos; lra). lra. }
    assert (W : Q2R (cop14_t_16 c) * ln (Rmax d2 40 / 40) <= Q2R (cop14_t_16 c) * ln (Rmax d1 40 / 40)).
    { apply ln_mono_mult; [lra| |].
      - apply Rdiv_lt_0_compat; [|lra]. apply Rlt_le_trans with 40; [lra|apply Rmax_r].
      - unfold Rdiv. apply Rmult_le_compat_r; [lra|]. apply Rmax_case; [apply Rle_trans with d2; [lra|apply Rmax_l]|apply Rmax_r]. }
    lra. }
  eexists _, _. split; [apply (cop14_out src1 _ scale d1 G1); reflexivity|]. split; [apply (cop14_out src2 _ scale d2 G2); reflexivity|].
  assert (F : forall d c, In c cop14_coeff -> 0 <= d -> cop14_rowf (sub_with_rup u d) scale d (fexp (cop14_rowf (sub_with_rup u d) scale d NaN cop14_c0)) c = Fin (cop14_val u scale d cop14_c0 c)).
  { intros d c Hc Hd. rewrite (cop14_row_fin (sub_with_rup u d) scale d c Hc Hd); [reflexivity|]. cbn. lra. }
  split.
  - unfold row_outs1; cbn [q_pga]. rewrite !F by (auto; lra). apply flt_lt_exp, flt_lt_fin.
    unfold cop14_val. cbv zeta. fold (cop_shift u cop14_c0). set (k := cop14_site cop14_c0 0 1000).
    specialize (D cop14_c0 (cop_shift u cop14_c0) I0).
    set (r2 := cop14_rock _ _ _ _ d2) in *. set (r1 := cop14_rock _ _ _ _ d1) in *.
    row_pos I0 (fun c => cop14_c c) as CC.
    pose proof (site_mono (cop14_v_lin cop14_c0) (cop14_b cop14_c0) (cop14_n cop14_c0) (cop14_c cop14_c0) (cop14_t_12 cop14_c0) (u_v u) (r2 + k) (r1 + k)) as SM.
    rewrite V0, B0, N0 in SM.
    cut (r2 + k + cop14_site cop14_c0 (exp (r2 + k)) (u_v u) < r1 + k + cop14_site cop14_c0 (exp (r1 + k)) (u_v u)); [lra|].
    apply SM; [lra|lra|intros W; apply rho_150; assumption|lra].
  - intros Hr. apply (row_outs1_resp2 cop14_coeff); [intros c Hc; exact Hc|exact I0|].
    intros c Hc. rewrite !F by (auto; lra). apply flt_lt_exp, flt_lt_fin.
    row_lt Hc (fun c => cop14_v_lin c) (fun _ : cop14_row => (1086#1)%Q) as VL.
    unfold cop14_val. cbv zeta. specialize (D c (cop_shift u c) Hc). fold (cop_shift u c).
    unfold cop14_site at 1 3, sub_site_val. destruct (Rlt_dec (u_v u) (Q2R (cop14_v_lin c))); [lra|]. lra.
Qed.
