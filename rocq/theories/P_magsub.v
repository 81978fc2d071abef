(** * Subduction models: the median grows with magnitude on rock *)
From Coquelicot Require Import Coquelicot.
From Interval Require Import Tactic.
From Coq Require Import List.
From Verif Require Import M_aga16 FrameworkProofs Anal Nga Outs1 Cont Spec_sub P_aga16 P_aga16b.
Open Scope R_scope.
Open Scope string_scope.
Open Scope list_scope.

Definition sub_path (k d m : R) : R := (k + 0.1 * (m - 7.8)) * ln (d + 10 * exp (0.4 * (m - 6))).
Definition sub_d (k t13 d m : R) : R :=
  0.1 * ln (d + 10 * exp (0.4 * (m - 6))) + (k + 0.1 * (m - 7.8)) * (0.4 * (10 * exp (0.4 * (m - 6))) / (d + 10 * exp (0.4 * (m - 6))))
  - 2 * t13 * (10 - m).
Lemma sub_der k t13 q d m : 0 <= d -> is_derive (fun m => sub_path k d m + q * m + t13 * ((10 - m) * (10 - m))) m (sub_d k t13 d m + q).
Proof.
  intros Hd. unfold sub_path, sub_d. pose proof (exp_pos (0.4 * (m - 6))). auto_derive; replace (m + Ropp 6) with (m - 6) by ring; [lra|].
  set (e := exp _) in *. generalize 0.4 0.1 7.8. intros. field. lra.
Qed.
(** Below the break: for any distance. *)
Lemma sub_d_low k t13 d m : -1.85 <= k -> k <= 0 -> t13 <= 0 -> 0 <= d -> 3 <= m <= 10 -> 0 < sub_d k t13 d m + 0.9.
Proof.
  intros K K0 T Hd Hm. unfold sub_d. pose proof (exp_pos (0.4 * (m - 6))) as E0.
  assert (E3 : 3 < 10 * exp (0.4 * (m - 6))).
  { apply Rlt_le_trans with (10 * exp (0.4 * (3 - 6))); [clear; interval with (i_prec 40)|]. apply Rmult_le_compat_l; [lra|]. apply exp_le_mono. lra. }
  set (e := 10 * exp _) in *.
  assert (L : 1 < ln (d + e)).
  { apply Rlt_le_trans with (ln 3); [clear; interval with (i_prec 40)|]. apply ln_le_mono; lra. }
  assert (W : 0 < 0.4 * e / (d + e) <= 0.4).
  { split; [apply Rdiv_lt_0_compat; lra|]. apply Rmult_le_reg_r with (d + e); [lra|]. unfold Rdiv. rewrite Rmult_assoc, Rinv_l by lra. nra. }
  set (w := 0.4 * e / (d + e)) in *. assert (T2 : 0 <= - t13 * (10 - m)) by (apply Rmult_le_pos; lra).
  assert (A : (-2.33) * 0.4 <= (k + 0.1 * (m - 7.8)) * w).
  { destruct (Rle_dec 0 (k + 0.1 * (m - 7.8))) as [P|P].
    - assert (0 <= (k + 0.1 * (m - 7.8)) * w) by (apply Rmult_le_pos; lra). lra.
    - assert (X : (k + 0.1 * (m - 7.8)) * 0.4 <= (k + 0.1 * (m - 7.8)) * w) by (apply Rmult_le_compat_neg_l; lra).
      assert (Y : -2.33 <= k + 0.1 * (m - 7.8)) by lra. lra. }
  lra.
Qed.
(** Above the break: from 20 km. *)
Lemma sub_d_high k t13 d m : -1.85 <= k -> t13 <= -0.0135 -> 20 <= d -> 6.8 <= m <= 8.5 -> 0 < sub_d k t13 d m.
Proof.
  intros K T Hd Hm. unfold sub_d. pose proof (exp_pos (0.4 * (m - 6))) as E0.
  assert (T2 : 0.0135 * (10 - m) <= - t13 * (10 - m)) by (apply Rmult_le_compat_r; lra).
  assert (F : 0 < 0.1 * ln (20 + 10 * exp (0.4 * (m - 6))) + (-1.85 + 0.1 * (m - 7.8)) * (0.4 * (10 * exp (0.4 * (m - 6))) / (20 + 10 * exp (0.4 * (m - 6)))) + 2 * 0.0135 * (10 - m)).
  { clear - Hm. interval with (i_prec 40, i_bisect m, i_taylor m, i_depth 20). }
  set (e := 10 * exp _) in *. assert (E : 0 < e) by (unfold e; lra).
  assert (L : ln (20 + e) <= ln (d + e)) by (apply ln_le_mono; lra).
  assert (W : 0 < 0.4 * e / (d + e) <= 0.4 * e / (20 + e)).
  { split; [apply Rdiv_lt_0_compat; lra|]. unfold Rdiv. apply Rmult_le_compat_l; [lra|]. apply Rinv_le_contravar; lra. }
  set (w := 0.4 * e / (d + e)) in *. set (w0 := 0.4 * e / (20 + e)) in *.
  assert (A : (-1.85 + 0.1 * (m - 7.8)) * w0 <= (k + 0.1 * (m - 7.8)) * w).
  { apply Rle_trans with ((-1.85 + 0.1 * (m - 7.8)) * w); [apply Rmult_le_compat_neg_l; lra|apply Rmult_le_compat_r; lra]. }
  lra.
Qed.
Lemma sub_core k t13 a d m1 m2 : -1.85 <= k -> k <= 0 -> t13 <= -0.0135 -> 0 <= d -> 3 <= m1 -> m1 < m2 ->
  (m2 <= 7.8 + a /\ m2 <= 10 \/ 20 <= d /\ -1 <= a /\ m2 <= 8.5) ->
  sub_path k d m1 + ((if Rle_dec m1 (7.8 + a) then 0.9 else 0) * (m1 - (7.8 + a)) + t13 * ((10 - m1) * (10 - m1)))
  < sub_path k d m2 + ((if Rle_dec m2 (7.8 + a) then 0.9 else 0) * (m2 - (7.8 + a)) + t13 * ((10 - m2) * (10 - m2))).
Proof.
  intros K K0 T Hd Hm H C.
  assert (Lo : forall x y, 3 <= x -> x < y -> y <= 10 -> sub_path k d x + 0.9 * x + t13 * ((10 - x) * (10 - x)) < sub_path k d y + 0.9 * y + t13 * ((10 - y) * (10 - y))).
  { intros x y Hx Hxy Hy. apply (incr_by_derive (fun m => sub_path k d m + 0.9 * m + t13 * ((10 - m) * (10 - m))) (fun m => sub_d k t13 d m + 0.9)); [exact Hxy| |].
    - intros m _. apply sub_der; exact Hd.
    - intros m Hb. apply sub_d_low; lra. }
  destruct (Rle_dec m2 (7.8 + a)) as [B2|B2].
  - destruct (Rle_dec m1 (7.8 + a)) as [B1|B1]; [|lra].
    assert (M10 : m2 <= 10) by (destruct C as [C|C]; lra). specialize (Lo m1 m2 Hm H M10). lra.
  - destruct C as [C|(D & A & M)]; [lra|].
    assert (Hi : forall x y, 6.8 <= x -> x < y -> y <= 8.5 -> sub_path k d x + t13 * ((10 - x) * (10 - x)) < sub_path k d y + t13 * ((10 - y) * (10 - y))).
    { intros x y Hx Hxy Hy.
      assert (X : sub_path k d x + 0 * x + t13 * ((10 - x) * (10 - x)) < sub_path k d y + 0 * y + t13 * ((10 - y) * (10 - y))); [|lra].
      apply (incr_by_derive (fun m => sub_path k d m + 0 * m + t13 * ((10 - m) * (10 - m))) (fun m => sub_d k t13 d m + 0)); [exact Hxy| |].
      - intros m _. apply sub_der; exact Hd.
      - intros m Hb. pose proof (sub_d_high k t13 d m K T D). lra. }
    destruct (Rle_dec m1 (7.8 + a)) as [B1|B1].
    + specialize (Hi (7.8 + a) m2 ltac:(lra) ltac:(lra) M).
      destruct B1 as [B1|B1].
      * specialize (Lo m1 (7.8 + a) Hm B1 ltac:(lra)). lra.
      * rewrite <- B1 in *. lra.
    + specialize (Hi m1 m2 ltac:(lra) H M). lra.
Qed.

Lemma aga16_rock_grow sl bk c x scale m1 m2 d z : In c aga16_coeff -> 0 <= d -> 3 <= m1 -> m1 < m2 ->
  (m2 <= 7.8 + x /\ m2 <= 10 \/ 20 <= d /\ -1 <= x /\ m2 <= 8.5) ->
  aga16_rock sl bk c x scale m1 d z < aga16_rock sl bk c x scale m2 d z.
Proof.
  intros Hc Hd Hm H C. row_is Hc (fun c => aga16_c_4 c) (10#1)%Q as C4. row_is Hc (fun c => aga16_t_3 c) (1#10)%Q as T3.
  row_is Hc (fun c => aga16_t_4 c) (9#10)%Q as T4. row_is Hc (fun c => aga16_t_5 c) (0#1)%Q as T5. row_is Hc (fun c => aga16_t_9 c) (4#10)%Q as T9.
  row_le Hc (fun _ : aga16_row => (-185#100)%Q) (fun c => aga16_t_2 c + aga16_t_14 c)%Q as TA.
  row_le Hc (fun c => aga16_t_14 c) (fun _ : aga16_row => (0#1)%Q) as T14. row_le Hc (fun c => aga16_t_2 c) (fun _ : aga16_row => (0#1)%Q) as T2.
  row_le Hc (fun c => aga16_t_13 c) (fun _ : aga16_row => (-135#10000)%Q) as T13.
  unfold aga16_rock, sub_mag_val. replace (10 * / 1) with 10 in C4 by lra. replace (1 * / 10) with 0.1 in T3 by lra. replace (9 * / 10) with 0.9 in T4 by lra. replace (0 * / 1) with 0 in T5 by lra. replace (4 * / 10) with 0.4 in T9 by lra.
  replace (10 * / 1) with 10 in C4 by lra. replace (1 * / 10) with 0.1 in T3 by lra. replace (9 * / 10) with 0.9 in T4 by lra. replace (0 * / 1) with 0 in T5 by lra. replace (4 * / 10) with 0.4 in T9 by lra.
  rewrite C4, T3, T4, T5, T9. set (f := if sl then 1 else 0). assert (F : 0 <= f <= 1) by (unfold f; destruct sl; lra).
  assert (FT : Q2R (aga16_t_14 c) <= Q2R (aga16_t_14 c) * f <= 0) by (split; [|]; assert (0 <= - Q2R (aga16_t_14 c) * (1 - f)) by (apply Rmult_le_pos; lra); assert (0 <= - Q2R (aga16_t_14 c) * f) by (apply Rmult_le_pos; lra); lra).
  pose proof (sub_core (Q2R (aga16_t_2 c) + Q2R (aga16_t_14 c) * f) (Q2R (aga16_t_13 c)) x d m1 m2 ltac:(lra) ltac:(lra) ltac:(lra) Hd Hm H C) as S.
  unfold sub_path in S. lra.
Qed.
Lemma sub_with_m_ready u d z m : sub_ready u d z -> sub_ready (sub_with_m u m) d z.
Proof. intros R. exact R. Qed.
Lemma aga16_grows src1 src2 u a l scale d z m1 m2 : sub_gives src1 (sub_with_m u m1) -> sub_gives src2 (sub_with_m u m2) ->
  sub_ready u d z -> adj_vals a (slab u) aga16_T = Some l -> 150 <= u_v u -> 0 <= d -> 3 <= m1 -> m1 < m2 ->
  Forall (fun x => m2 <= 7.8 + x /\ m2 <= 10 \/ 20 <= d /\ -1 <= x /\ m2 <= 8.5) l ->
  exists o1 o2, gmm_out1 (aga16 src1 (adj_of a) (Fin scale)) o1 /\ gmm_out1 (aga16 src2 (adj_of a) (Fin scale)) o2 /\
    flt_lt (q_pga o1) (q_pga o2) /\ (1086 <= u_v u -> resp21 flt_lt o1 o2).
Proof.
  intros G1 G2 Rd A Hv Hd Hm H Hl. destruct (adj_fin u a l A) as (_ & L).
  destruct (combine aga16_coeff l) as [|cs0 rest] eqn:C.
  { exfalso. assert (E : List.length (combine aga16_coeff l) = 23%nat) by (rewrite combine_length, L; reflexivity). rewrite C in E. discriminate. }
  destruct (aga16_hd _ _ _ C) as (V0 & B0 & N0 & I0 & I).
  assert (S : forall cs, In cs (cs0 :: rest) -> In (snd cs) l).
  { intros [c s] Hc. rewrite <- C in Hc. exact (in_combine_r _ _ _ _ Hc). }
  rewrite Forall_forall in Hl.
  eexists _, _. split; [apply (aga16_out src1 _ a l scale d z cs0 rest G1 Rd); [exact A|exact C]|].
  split; [apply (aga16_out src2 _ a l scale d z cs0 rest G2 Rd); [exact A|exact C]|].
  assert (F : forall m cs, In cs (cs0 :: rest) -> aga16_rowR (sub_with_m u m) scale d z (fexp (aga16_rowR (sub_with_m u m) scale d z NaN cs0)) cs = Fin (aga16_val (sub_with_m u m) scale d z (fst cs0) (snd cs0) cs)).
  { intros m cs Hc. apply (aga16_row_fin _ _ _ _ cs0 rest l cs C Hc); [lra|cbn; lra|exact (proj2 (proj2 Rd))]. }
  unfold aga16_val, aga16_pga1000, sub_with_m, slab, backarc in F; cbn [u_mag u_v u_event u_region] in F.
  assert (D : forall cs, In cs (cs0 :: rest) -> aga16_rock (slab u) (backarc u) (fst cs) (snd cs) scale m1 d z < aga16_rock (slab u) (backarc u) (fst cs) (snd cs) scale m2 d z).
  { intros cs Hc. apply aga16_rock_grow; auto. }
  fold (slab u) (backarc u) in F.
  split.
  - unfold row_outs1; cbn [q_pga]. unfold sub_with_m. rewrite !F by (left; reflexivity). apply flt_lt_exp, flt_lt_fin.
    specialize (D cs0 (or_introl eq_refl)).
    set (r1 := aga16_rock _ _ _ _ _ m1 _ _) in *. set (r2 := aga16_rock _ _ _ _ _ m2 _ _) in *.
    set (k := aga16_site (fst cs0) 0 1000).
    row_pos I0 (fun c => aga16_c c) as CC.
    pose proof (site_mono (aga16_v_lin (fst cs0)) (aga16_b (fst cs0)) (aga16_n (fst cs0)) (aga16_c (fst cs0)) (aga16_t_12 (fst cs0)) (u_v u) (r1 + k) (r2 + k)) as SM.
    rewrite V0, B0, N0 in SM. unfold aga16_site. cut (r1 + k + sub_site_val (aga16_v_lin (fst cs0)) (aga16_b (fst cs0)) (aga16_n (fst cs0)) (aga16_c (fst cs0)) (aga16_t_12 (fst cs0)) (exp (r1 + k)) (u_v u) < r2 + k + sub_site_val (aga16_v_lin (fst cs0)) (aga16_b (fst cs0)) (aga16_n (fst cs0)) (aga16_c (fst cs0)) (aga16_t_12 (fst cs0)) (exp (r2 + k)) (u_v u)); [lra|].
    apply SM; [lra|lra|intros W; apply rho_150; assumption|lra].
  - intros Hr. apply (row_outs1_resp2 (cs0 :: rest)); [intros c Hc; right; exact Hc|left; reflexivity|].
    intros cs Hc. unfold sub_with_m. rewrite !F by exact Hc. apply flt_lt_exp, flt_lt_fin. specialize (D cs Hc). specialize (I cs Hc).
    row_lt I (fun c => aga16_v_lin c) (fun _ : aga16_row => (1086#1)%Q) as VL.
    unfold aga16_site, sub_site_val. destruct (Rlt_dec (u_v u) (Q2R (aga16_v_lin (fst cs)))); [lra|]. lra.
Qed.
Lemma cop14_rock_grow c x scale m1 m2 d : In c cop14_coeff -> 0 <= d -> 3 <= m1 -> m1 < m2 ->
  (m2 <= 7.8 + x /\ m2 <= 10 \/ 20 <= d /\ -1 <= x /\ m2 <= 8.5) ->
  cop14_rock c x scale m1 d < cop14_rock c x scale m2 d.
Proof.
  intros Hc Hd Hm H C. row_is Hc (fun c => cop14_c_4 c) (10#1)%Q as C4. row_is Hc (fun c => cop14_t_3 c) (1#10)%Q as T3.
  row_is Hc (fun c => cop14_t_4 c) (9#10)%Q as T4. row_is Hc (fun c => cop14_t_5 c) (0#1)%Q as T5. row_is Hc (fun c => cop14_t_9 c) (4#10)%Q as T9.
  row_le Hc (fun _ : cop14_row => (-185#100)%Q) (fun c => cop14_t_2 c)%Q as TA.
  row_le Hc (fun c => cop14_t_2 c) (fun _ : cop14_row => (0#1)%Q) as T2.
  row_le Hc (fun c => cop14_t_13 c) (fun _ : cop14_row => (-135#10000)%Q) as T13.
  unfold cop14_rock, sub_mag_val. replace (10 * / 1) with 10 in C4 by lra. replace (1 * / 10) with 0.1 in T3 by lra. replace (9 * / 10) with 0.9 in T4 by lra. replace (0 * / 1) with 0 in T5 by lra. replace (4 * / 10) with 0.4 in T9 by lra.
  rewrite C4, T3, T4, T5, T9.
  pose proof (sub_core (Q2R (cop14_t_2 c)) (Q2R (cop14_t_13 c)) x d m1 m2 ltac:(lra) ltac:(lra) ltac:(lra) Hd Hm H C) as S.
  unfold sub_path in S. lra.
Qed.
Lemma dc1_range sl T : -0.3 <= dc1_default sl T <= 0.2.
Proof.
  unfold dc1_default. destruct sl; [lra|]. unfold dc1_interface.
  assert (L1 : 0.5 < ln 0.5 - ln 0.3) by (clear; interval with (i_prec 40)).
  assert (L2 : 0.6 < ln 1 - ln 0.5) by (clear; interval with (i_prec 40)).
  assert (L3 : 0.6 < ln 2 - ln 1) by (clear; interval with (i_prec 40)).
  assert (L4 : 0.4 < ln 3 - ln 2) by (clear; interval with (i_prec 40)).
  assert (Q : forall a b x, a <= x <= b -> 0 < a -> 0 < ln b - ln a -> 0 <= 0.1 * (ln x - ln a) / (ln b - ln a) <= 0.1).
  { intros a b x Hx Ha Hl. assert (ln a <= ln x <= ln b) by (split; apply ln_le_mono; lra). split.
    - apply Rmult_le_pos; [lra|]. left. apply Rinv_0_lt_compat; lra.
    - apply Rmult_le_reg_r with (ln b - ln a); [lra|]. unfold Rdiv. rewrite Rmult_assoc, Rinv_l by lra. lra. }
  destruct (Rle_dec T 0.3); [lra|]. destruct (Rle_dec T 0.5); [specialize (Q 0.3 0.5 T); lra|].
  destruct (Rle_dec T 1); [specialize (Q 0.5 1 T); lra|].
  destruct (Rle_dec T 2); [|destruct (Rle_dec T 3); [specialize (Q 2 3 T); lra|lra]].
  assert (X : - 0.1 * (ln T - ln 1) / (ln 2 - ln 1) = Ropp (0.1 * (ln T - ln 1) / (ln 2 - ln 1))) by (replace (-0.1) with (Ropp 0.1) by lra; unfold Rdiv; generalize 0.1; intros; ring).
  rewrite X. specialize (Q 1 2 T). lra.
Qed.
Lemma cop14_grows src1 src2 u scale d m1 m2 : cop_gives src1 (sub_with_m u m1) -> cop_gives src2 (sub_with_m u m2) -> u_rup u = Some d ->
  150 <= u_v u -> 0 <= d -> 3 <= m1 -> m1 < m2 -> (m2 <= 7.5 \/ 20 <= d /\ m2 <= 8.5) ->
  exists o1 o2, gmm_out1 (cop14 src1 (Fin scale)) o1 /\ gmm_out1 (cop14 src2 (Fin scale)) o2 /\
    flt_lt (q_pga o1) (q_pga o2) /\ (1086 <= u_v u -> resp21 flt_lt o1 o2).
Proof.
  intros G1 G2 E Hv Hd Hm H Hc'. destruct cop14_hd as (V0 & B0 & N0 & I0).
  assert (D : forall c, In c cop14_coeff -> cop14_rock c (cop_shift u c) scale m1 d < cop14_rock c (cop_shift u c) scale m2 d).
  { intros c Hc. apply cop14_rock_grow; auto.
    pose proof (dc1_range (slab u) (Q2R (cop14_period c))) as R. fold (cop_shift u c) in R.
    destruct Hc' as [?|(? & ?)]; [left; lra|right; lra]. }
  eexists _, _. split; [apply (cop14_out src1 _ scale d G1); exact E|]. split; [apply (cop14_out src2 _ scale d G2); exact E|].
  assert (F : forall m c, In c cop14_coeff -> cop14_rowf (sub_with_m u m) scale d (fexp (cop14_rowf (sub_with_m u m) scale d NaN cop14_c0)) c = Fin (cop14_val (sub_with_m u m) scale d cop14_c0 c)).
  { intros m c Hc. apply (cop14_row_fin (sub_with_m u m) scale d c Hc Hd). cbn. lra. }
  split.
  - unfold row_outs1; cbn [q_pga]. rewrite !F by auto. apply flt_lt_exp, flt_lt_fin.
    unfold cop14_val. cbv zeta. unfold sub_with_m, slab. cbn [u_mag u_v u_event]. fold (slab u). fold (cop_shift u cop14_c0). set (k := cop14_site cop14_c0 0 1000).
    specialize (D cop14_c0 I0).
    set (r2 := cop14_rock _ _ _ m2 d) in *. set (r1 := cop14_rock _ _ _ m1 d) in *.
    row_pos I0 (fun c => cop14_c c) as CC.
    pose proof (site_mono (cop14_v_lin cop14_c0) (cop14_b cop14_c0) (cop14_n cop14_c0) (cop14_c cop14_c0) (cop14_t_12 cop14_c0) (u_v u) (r1 + k) (r2 + k)) as SM.
    rewrite V0, B0, N0 in SM.
    cut (r1 + k + cop14_site cop14_c0 (exp (r1 + k)) (u_v u) < r2 + k + cop14_site cop14_c0 (exp (r2 + k)) (u_v u)); [lra|].
    apply SM; [lra|lra|intros W; apply rho_150; assumption|lra].
  - intros Hr. apply (row_outs1_resp2 cop14_coeff); [intros c Hc; exact Hc|exact I0|].
    intros c Hc. rewrite !F by auto. apply flt_lt_exp, flt_lt_fin.
    row_lt Hc (fun c => cop14_v_lin c) (fun _ : cop14_row => (1086#1)%Q) as VL.
    unfold cop14_val. cbv zeta. unfold sub_with_m, slab. cbn [u_mag u_v u_event]. fold (slab u). specialize (D c Hc). fold (cop_shift u c).
    unfold cop14_site at 1 3, sub_site_val. destruct (Rlt_dec (u_v u) (Q2R (cop14_v_lin c))); [lra|]. lra.
Qed.
