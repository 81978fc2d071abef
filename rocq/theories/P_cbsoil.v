(** * CB14 on soil: every ordinate grows with magnitude and decays with distance on stiff soil (C61, C117) *)
From Coquelicot Require Import Coquelicot.
From Interval Require Import Tactic.
From Coq Require Import List.
From Verif Require Import M_cb14 FrameworkProofs Anal Nga Outs SpecNga P_cy14 P_bssa14 P_cb14 P_cb14b P_ngaspec Spec_cy14 Spec_cb14 Properties_NGAPub Properties_NGAPub2 P_ngamag.
Open Scope R_scope.
Open Scope string_scope.
Open Scope list_scope.

(** The nonlinear part of the site response; [y]: logarithm of the rock PGA. *)
Definition cs_nl (c : cb14_row) (v y : R) : R :=
  if Rle_dec v (Q2R (cb14_k_1 c)) then Q2R (cb14_k_2 c) * (ln (exp y + 1.88 * Rpower (v / Q2R (cb14_k_1 c)) 1.18) - ln (exp y + 1.88)) else 0.
(** Its largest sensitivity at velocities of [v0] and above. *)
Definition cs_F (c : cb14_row) (v0 : R) : R :=
  let q := Rpower (v0 / Q2R (cb14_k_1 c)) 0.59 in - Q2R (cb14_k_2 c) * ((1 - q) / (1 + q)).
Lemma nl_sens b q y1 y2 : 0 < b -> 0 < q <= 1 -> y1 <= y2 ->
  0 <= (ln (exp y2 + b * (q * q)) - ln (exp y2 + b)) - (ln (exp y1 + b * (q * q)) - ln (exp y1 + b)) <= (1 - q) / (1 + q) * (y2 - y1).
Proof.
  intros Hb Hq [H|<-]; [|split; lra].
  set (g := fun y => ln (exp y + b * (q * q)) - ln (exp y + b)).
  assert (Bq : 0 < b * (q * q)) by (repeat apply Rmult_lt_0_compat; lra).
  destruct (MVT_gen g y1 y2 (fun y => exp y * / (exp y + b * (q * q)) - exp y * / (exp y + b))) as (y & _ & E).
  - intros y _. pose proof (exp_pos y). unfold g. auto_derive; [repeat split; lra|]. ring.
  - intros y _. pose proof (exp_pos y). apply continuity_pt_filterlim, (ex_derive_continuous g). unfold g. auto_derive. repeat split; lra.
  - change (0 <= g y2 - g y1 <= (1 - q) / (1 + q) * (y2 - y1)). rewrite E. pose proof (exp_pos y) as P. set (p := exp y) in *. clearbody p.
    assert (A : p * / (p + b * (q * q)) - p * / (p + b) = (p * (b * (1 - q * q))) / ((p + b * (q * q)) * (p + b))) by (field; split; lra).
    assert (D : 0 < (p + b * (q * q)) * (p + b)) by (apply Rmult_lt_0_compat; lra).
    rewrite A. clear A E g. split.
    + apply Rmult_le_pos; [|lra]. apply Rmult_le_pos; [|left; apply Rinv_0_lt_compat, D]. repeat (apply Rmult_le_pos; try lra). nra.
    + apply Rmult_le_compat_r; [lra|]. apply (Rmult_le_reg_r ((p + b * (q * q)) * (p + b))); [exact D|].
      unfold Rdiv at 1. rewrite Rmult_assoc, Rinv_l, Rmult_1_r by lra.
      apply (Rmult_le_reg_r (1 + q)); [lra|]. replace ((1 - q) / (1 + q) * ((p + b * (q * q)) * (p + b)) * (1 + q)) with ((1 - q) * ((p + b * (q * q)) * (p + b))) by (field; lra).
      assert (0 <= (1 - q) * ((p - b * q) * (p - b * q))) by (apply Rmult_le_pos; [lra|apply Rle_0_sqr]). lra.
Qed.
Lemma cs_nl_lip c v0 v y1 y2 : In c cb14_coeff -> 0 < v0 <= 400 -> v0 <= v -> y1 <= y2 ->
  0 <= cs_F c v0 /\ - cs_F c v0 * (y2 - y1) <= cs_nl c v y2 - cs_nl c v y1 <= 0.
Proof.
  intros Hc H0 Hv Hy. row_upto Hc cb14_k_2 (0#1)%Q as K2. row_ge Hc (400#1)%Q cb14_k_1 as K1. unfold cs_F, cs_nl. cbv zeta.
  set (k := Q2R (cb14_k_1 c)) in *. set (k2 := Q2R (cb14_k_2 c)) in *. clearbody k k2.
  assert (Rp : forall w, 0 < w <= k -> 0 < Rpower (w / k) 0.59 <= 1).
  { intros w Hw. split; [apply Rpower_pos|]. unfold Rpower. rewrite <- exp_0. apply exp_le_mono. assert (ln (w / k) <= 0); [|lra]. apply ln_nonpos.
    split; [apply Rdiv_lt_0_compat; lra|]. apply (Rmult_le_reg_r k); [lra|]. unfold Rdiv. rewrite Rmult_assoc, Rinv_l by lra. lra. }
  set (q0 := Rpower (v0 / k) 0.59). assert (Q0 : 0 < q0 <= 1) by (apply Rp; lra).
  assert (G0 : 0 <= (1 - q0) / (1 + q0)) by (apply Rmult_le_pos; [lra|left; apply Rinv_0_lt_compat; lra]).
  assert (F0 : 0 <= - k2 * ((1 - q0) / (1 + q0))) by (apply Rmult_le_pos; lra). split; [exact F0|].
  destruct (Rle_dec v k) as [Hk|Hk]; [|split; [|lra]; assert (0 <= - k2 * ((1 - q0) / (1 + q0)) * (y2 - y1)) by (apply Rmult_le_pos; lra); lra].
  set (q := Rpower (v / k) 0.59). assert (Qq : 0 < q <= 1) by (apply Rp; lra).
  assert (QQ : Rpower (v / k) 1.18 = q * q) by (unfold q; rewrite <- Rpower_plus; f_equal; lra). rewrite QQ.
  assert (Q1 : q0 <= q).
  { unfold q0, q, Rpower. apply exp_le_mono, Rmult_le_compat_l; [lra|]. apply ln_le_mono; [apply Rdiv_lt_0_compat; lra|]. apply Rmult_le_compat_r; [left; apply Rinv_0_lt_compat; lra|lra]. }
  clearbody q0 q. destruct (nl_sens 1.88 q y1 y2 ltac:(lra) Qq Hy) as [N1 N2].
  assert (G : (1 - q) / (1 + q) <= (1 - q0) / (1 + q0)).
  { apply (Rmult_le_reg_r ((1 + q) * (1 + q0))); [apply Rmult_lt_0_compat; lra|].
    replace ((1 - q) / (1 + q) * ((1 + q) * (1 + q0))) with ((1 - q) * (1 + q0)) by (field; lra).
    replace ((1 - q0) / (1 + q0) * ((1 + q) * (1 + q0))) with ((1 - q0) * (1 + q)) by (field; lra). lra. }
  set (g := (1 - q) / (1 + q)) in *. set (g0 := (1 - q0) / (1 + q0)) in *. clearbody g g0.
  set (A := ln (exp y2 + 1.88 * (q * q)) - ln (exp y2 + 1.88)) in *. set (B := ln (exp y1 + 1.88 * (q * q)) - ln (exp y1 + 1.88)) in *. clearbody A B.
  split.
  - assert (0 <= - k2 * (g0 * (y2 - y1) - (A - B))); [|lra]. apply Rmult_le_pos; [lra|].
    assert (0 <= (g0 - g) * (y2 - y1)) by (apply Rmult_le_pos; lra). lra.
  - assert (0 <= - k2 * (A - B)) by (apply Rmult_le_pos; lra). lra.
Qed.
(** The site term of the model is its linear part plus [cs_nl]. *)
Lemma cb14_site_any c v d re : In c cb14_coeff -> 0 < v -> finite d -> exists A, forall y rd,
  cb14_site_term c (fexp (Fin y)) (Fin v) d re rd = Fin (A + cs_nl c v y).
Proof.
  intros Hc Hv [z ->]. row_ge Hc (400#1)%Q cb14_k_1 as K1.
  unfold cb14_site_term, cs_nl. cbv zeta. cbn [fexp fisnan].
  set (fs := (if Fin z <=? $1 then _ else _ : flt)%flt). assert (F : finite fs) by (unfold fs; fsplit). clearbody fs. destruct F as [f ->].
  unfold qf. fcbn. set (k := Q2R (cb14_k_1 c)) in *. clearbody k.
  assert (V : 0 < v / k) by (apply Rdiv_lt_0_compat; lra). assert (V2 : 0 < 200 / k) by (apply Rdiv_lt_0_compat; lra).
  destruct (Rle_dec v k) as [L|L]; [rewrite (Rleb_true v k) by exact L|rewrite (Rleb_false v k) by lra].
  - pose proof (Rpower_pos (v / k) 1.18) as P. set (x := Rpower (v / k) 1.18) in *. 
    destruct (is_str re "japan") eqn:J; [destruct (Rleb v 200)|]; eexists;
    intros y rd; fcbn; pose proof (exp_pos y); rewrite ?fdiv_fin by lra;
    (rewrite fpow_fin by exact V); fold x; fcbn; rewrite (flog_fin (v / k)) by exact V; rewrite ?(flog_fin (200 / k)) by exact V2;
    rewrite (flog_fin (exp y + _ * x)) by (assert (0 < 1.88 * x) by (apply Rmult_lt_0_compat; lra); lra); rewrite (flog_fin (exp y + 1.88)) by lra; fcbn; f_equal.
    + match goal with |- ?u + ?k2 * ?w + ?s + ?f = _ => instantiate (1 := u + s + f); ring end.
    + match goal with |- ?u + ?k2 * ?w + ?s + ?f = _ => instantiate (1 := u + s + f); ring end.
    + match goal with |- ?u + ?k2 * ?w + ?f = _ => instantiate (1 := u + f); ring end.
  - destruct (is_str re "japan") eqn:J; [destruct (Rleb v 200)|]; eexists;
    intros y rd; fcbn; rewrite ?fdiv_fin by lra; rewrite (flog_fin (v / k)) by exact V; rewrite ?(flog_fin (200 / k)) by exact V2; fcbn; f_equal;
    rewrite Rplus_0_r; reflexivity.
Qed.
Lemma cs_pga_vals : Q2R (cb14_c_5 cb14_pga_row) = -2.773 /\ Q2R (cb14_c_6 cb14_pga_row) = 0.248 /\ Q2R (cb14_c_7 cb14_pga_row) = 6.768 /\
  Q2R (cb14_c_20 cb14_pga_row) = Ropp 0.0055 /\ Q2R (cb14_dc_20jp cb14_pga_row) = Ropp 0.0035 /\ Q2R (cb14_dc_20ca cb14_pga_row) = 0.
Proof. repeat split; unfold Q2R; cbn; lra. Qed.
Ltac cs_each Hc tac := unfold cb14_coeff in Hc; cbn [In] in Hc; repeat (destruct Hc as [<-|Hc]; [tac|]); contradiction.
Lemma cs_rows_decay c m : In c cb14_coeff -> m = 3.3 \/ m = 8.5 ->
  let F := cs_F c 300 in let ec := Q2R (cb14_c_5 c) + Q2R (cb14_c_6 c) * m in let ea := -2.773 + 0.248 * m in
  ec - F * ea < 0 /\ ec * (6.768 * 6.768) - F * ea * (Q2R (cb14_c_7 c) * Q2R (cb14_c_7 c)) < 0 /\ 0.988 * ec - F * ea < 0 /\
  0.988 * ec - F * ea + 300 * (Q2R (cb14_c_20 c) + Q2R (cb14_dc_20jp c) - F * (Ropp 0.009)) < 0 /\
  0.988 * ec - F * ea + 300 * (Q2R (cb14_c_20 c) + Q2R (cb14_dc_20ca c) - F * (Ropp 0.0055)) < 0.
Proof.
  intros Hc Hm. cbv zeta. unfold cs_F. cbv zeta.
  assert (forall P : R -> Prop, P 3.3 -> P 8.5 -> P m) as D by (intros P P1 P2; destruct Hm; subst; assumption).
  pattern m. apply D; clear m D Hm;
  cs_each Hc ltac:(cbn [cb14_c_5 cb14_c_6 cb14_c_7 cb14_k_1 cb14_k_2 cb14_c_20 cb14_dc_20jp cb14_dc_20ca]; unfold Q2R, Rpower; cbn [Qnum Qden]; repeat split; interval with (i_prec 40)).
Qed.
Lemma cs_dist_comp a b ec ea kc ka F r1 r2 : 0 < a -> a * a <= 77 -> 0 < b -> ec < 0 -> F * ea <= 0 -> 
  ec - F * ea < 0 -> ec * (b * b) - F * ea * (a * a) < 0 -> 0.988 * ec - F * ea < 0 -> 0.988 * ec - F * ea + 300 * (kc - F * ka) < 0 ->
  0 <= r1 -> r1 < r2 -> r2 <= 300 ->
  ec * ln (sqrt (r2 * r2 + a * a)) + kc * Rmax (r2 - 80) 0 - (ec * ln (sqrt (r1 * r1 + a * a)) + kc * Rmax (r1 - 80) 0)
  < F * ((ea * ln (sqrt (r2 * r2 + b * b)) + ka * Rmax (r2 - 80) 0) - (ea * ln (sqrt (r1 * r1 + b * b)) + ka * Rmax (r1 - 80) 0)).
Proof.
  intros Ha Ha7 Hb Hec HFe C1 C2 C3 C4 H1 H12 H2.
  set (f := fun r => - (ec * ln (sqrt (r * r + a * a)) + kc * Rmax (r - 80) 0) + F * (ea * ln (sqrt (r * r + b * b)) + ka * Rmax (r - 80) 0)).
  assert (Q : f r1 < f r2); [|unfold f in Q; lra].
  assert (PA : 0 < a * a) by (apply Rmult_lt_0_compat; lra). assert (PB : 0 < b * b) by (apply Rmult_lt_0_compat; lra).
  set (A := a * a) in *. set (B := b * b) in *. set (fe := F * ea) in *.
  assert (LS : forall r X, 0 < X -> ln (sqrt (r * r + X)) = / 2 * ln (r * r + X)).
  { intros r X HX. rewrite ln_sqrt_half; [lra|]. pose proof (Rle_0_sqr r) as S. unfold Rsqr in S. lra. }
  assert (GD : forall r, 0 <= r -> is_derive (fun r => - (ec * (/ 2 * ln (r * r + A))) + fe * (/ 2 * ln (r * r + B))) r (r * (- ec * / (r * r + A) + fe * / (r * r + B)))).
  { intros r Hr. assert (0 <= r * r) by (apply Rmult_le_pos; lra). auto_derive; [repeat split; lra|]. field. split; lra. }
  apply (incr_join (fun r => 0 <= r <= 300) f 80); try lra; try (intros; lra).
  - intros u w Hu Hw Huw Hb8. unfold f. rewrite !Rmax_right by lra. rewrite !LS by assumption.
    pose proof (incr_by_derive (fun r => - (ec * (/ 2 * ln (r * r + A))) + fe * (/ 2 * ln (r * r + B))) (fun r => r * (- ec * / (r * r + A) + fe * / (r * r + B))) u w Huw) as I.
    cbv beta in I. enough (X : - (ec * (/ 2 * ln (u * u + A))) + fe * (/ 2 * ln (u * u + B)) < - (ec * (/ 2 * ln (w * w + A))) + fe * (/ 2 * ln (w * w + B))) by (unfold fe in X; lra).
    apply I; [intros x Hx; apply GD; lra|]. intros x Hx. assert (0 < x) by lra. apply Rmult_lt_0_compat; [lra|].
    assert (0 < x * x) by (apply Rmult_lt_0_compat; lra). set (q := x * x) in *. clearbody q.
    replace (- ec * / (q + A) + fe * / (q + B)) with ((- (ec - fe) * q - (ec * B - fe * A)) / ((q + A) * (q + B))) by (field; split; lra).
    apply Rdiv_lt_0_compat; [|apply Rmult_lt_0_compat; lra]. assert (0 < - (ec - fe) * q) by (apply Rmult_lt_0_compat; lra). lra.
  - intros u w Hu Hw Hb8 Huw. unfold f. rewrite !Rmax_left by lra. rewrite !LS by assumption.
    pose proof (incr_by_derive (fun r => - (ec * (/ 2 * ln (r * r + A))) + fe * (/ 2 * ln (r * r + B)) + (F * ka - kc) * (r - 80)) (fun r => r * (- ec * / (r * r + A) + fe * / (r * r + B)) + (F * ka - kc)) u w Huw) as I.
    cbv beta in I. enough (X : - (ec * (/ 2 * ln (u * u + A))) + fe * (/ 2 * ln (u * u + B)) + (F * ka - kc) * (u - 80) < - (ec * (/ 2 * ln (w * w + A))) + fe * (/ 2 * ln (w * w + B)) + (F * ka - kc) * (w - 80)) by (unfold fe in X; lra).
    apply I; [intros x Hx|]; clear I.
    + apply (is_derive_plus (fun r => - (ec * (/ 2 * ln (r * r + A))) + fe * (/ 2 * ln (r * r + B))) (fun r => (F * ka - kc) * (r - 80)) x (x * (- ec * / (x * x + A) + fe * / (x * x + B))) (F * ka - kc)); [apply GD; lra|].
      auto_derive; [trivial|]. ring.
    + intros x Hx. assert (X0 : 80 < x < 300) by lra. clear - X0 Ha7 PA PB Hec HFe C3 C4.
      assert (XX : 6400 <= x * x) by (apply Rle_trans with (80 * 80); [lra|apply Rmult_le_compat; lra]).
      assert (E1 : 0.988 * - ec <= x * x * (- ec * / (x * x + A))).
      { replace (x * x * (- ec * / (x * x + A))) with (- ec * (x * x / (x * x + A))) by (field; lra).
        assert (0.988 <= x * x / (x * x + A)). { apply (Rmult_le_reg_r (x * x + A)); [lra|]. unfold Rdiv. rewrite Rmult_assoc, Rinv_l by lra. lra. }
        rewrite (Rmult_comm 0.988). apply Rmult_le_compat_l; lra. }
      assert (E2 : fe <= x * x * (fe * / (x * x + B))).
      { replace (x * x * (fe * / (x * x + B))) with (fe + - fe * (B / (x * x + B))) by (field; lra).
        assert (0 <= - fe * (B / (x * x + B))) by (apply Rmult_le_pos; [lra|]; left; apply Rdiv_lt_0_compat; lra). lra. }
      assert (E3 : 0 < 0.988 * - ec + fe + x * (F * ka - kc)).
      { destruct (Rle_dec 0 (F * ka - kc)); [assert (0 <= x * (F * ka - kc)) by (apply Rmult_le_pos; lra); lra|].
        assert (0 <= (300 - x) * - (F * ka - kc)) by (apply Rmult_le_pos; lra). lra. }
      apply (Rmult_lt_reg_l x); [lra|]. rewrite Rmult_0_r. 
      replace (x * (x * (- ec * / (x * x + A) + fe * / (x * x + B)) + (F * ka - kc))) with (x * x * (- ec * / (x * x + A)) + x * x * (fe * / (x * x + B)) + x * (F * ka - kc)) by ring. lra.
Qed.
Definition cs_D (c : cb14_row) (m : R) (re : pyval) (r : R) : R :=
  (Q2R (cb14_c_5 c) + Q2R (cb14_c_6 c) * m) * ln (sqrt (r * r + Q2R (cb14_c_7 c) * Q2R (cb14_c_7 c)))
         + (Q2R (cb14_c_20 c) + cb14_dc20 c re) * Rmax (r - 80) 0.
Lemma cs_D_comp c m re r1 r2 : In c cb14_coeff -> 3.3 <= m <= 8.5 -> 0 <= r1 -> r1 < r2 -> r2 <= 300 ->
  cs_D c m re r2 - cs_D c m re r1 < cs_F c 300 * (cs_D cb14_pga_row m re r2 - cs_D cb14_pga_row m re r1).
Proof.
  intros Hc Hm H1 H12 H2. destruct (cs_rows_decay c 3.3 Hc (or_introl eq_refl)) as (A1 & A2 & A3 & A4 & A5).
  destruct (cs_rows_decay c 8.5 Hc (or_intror eq_refl)) as (B1 & B2 & B3 & B4 & B5).
  destruct (cs_nl_lip c 300 300 0 0 Hc ltac:(lra) ltac:(lra) ltac:(lra)) as [F0 _].
  row_pos Hc cb14_c_7 as H7. row_upto Hc cb14_c_7 (87#10)%Q as H7'.
  row_upto Hc (fun c => cb14_c_5 c + cb14_c_6 c * (33#10))%Q (-1#10)%Q as G1.
  row_upto Hc (fun c => cb14_c_5 c + cb14_c_6 c * (85#10))%Q (-1#10)%Q as G2.
  assert (G : Q2R (cb14_c_5 c) + Q2R (cb14_c_6 c) * m < 0) by (apply (lin_neg _ _ 3.3 8.5); lra).
  unfold cs_D, cb14_dc20. destruct cs_pga_vals as (-> & -> & -> & -> & -> & ->).
  set (F := cs_F c 300) in *. clearbody F. set (c5 := Q2R (cb14_c_5 c)) in *. set (c6 := Q2R (cb14_c_6 c)) in *. set (c7 := Q2R (cb14_c_7 c)) in *. set (k := Q2R (cb14_c_20 c)) in *.
  set (dj := Q2R (cb14_dc_20jp c)) in *. set (dca := Q2R (cb14_dc_20ca c)) in *. clearbody c5 c6 c7 k dj dca.
  assert (LN : forall u w, u + w * 3.3 < 0 -> u + w * 8.5 < 0 -> u + w * m < 0) by (intros; apply (lin_neg _ _ 3.3 8.5); lra).
  apply cs_dist_comp; try assumption; try lra.
  - assert (c7 * c7 <= 8.7 * 8.7) by (apply Rmult_le_compat; lra). lra.
  - assert (0 <= F * (2.773 - 0.248 * m)) by (apply Rmult_le_pos; lra). lra.
  - pose proof (LN (c5 - F * -2.773) (c6 - F * 0.248) ltac:(lra) ltac:(lra)). lra.
  - set (A := c7 * c7) in *. clearbody A. pose proof (LN (c5 * (6.768 * 6.768) - F * -2.773 * A) (c6 * (6.768 * 6.768) - F * 0.248 * A) ltac:(lra) ltac:(lra)). lra.
  - pose proof (LN (0.988 * c5 - F * -2.773) (0.988 * c6 - F * 0.248) ltac:(lra) ltac:(lra)). lra.
  - destruct (pyin _ _).
    + pose proof (LN (0.988 * c5 - F * -2.773 + 300 * (k + dj - F * Ropp 0.009)) (0.988 * c6 - F * 0.248) ltac:(lra) ltac:(lra)). lra.
    + pose proof (LN (0.988 * c5 - F * -2.773 + 300 * (k + dca - F * Ropp 0.0055)) (0.988 * c6 - F * 0.248) ltac:(lra) ltac:(lra)). lra.
Qed.
Lemma cb14_decay_stiff src1 src2 a x t r1 r2 : nga_gives src1 (with_rup a r1) -> nga_gives src2 (with_rup a r2) ->
  n_x a = Some x -> x < 0 -> n_mech a = Some t -> 0 < n_dip a <= 90 -> 3.3 <= n_mag a <= 8.5 -> 300 <= n_v a ->
  0 <= r1 -> r1 < r2 -> r2 <= 300 ->
  exists o1 o2, gmm_out (cb14 src1) o1 /\ gmm_out (cb14 src2) o2 /\ resp2 flt_lt o2 o1.
Proof.
  intros G1 G2 Ex Hx Et Hd Hm Hv H1 H12 H2. exists (cb14_outs x (with_rup a r1)), (cb14_outs x (with_rup a r2)).
  assert (P : forall src r, nga_gives src (with_rup a r) -> gmm_out (cb14 src) (cb14_outs x (with_rup a r))).
  { intros src r G. apply (cb14_out _ _ _ t); [exact G|rewrite with_rup_x; exact Ex|destruct a; exact Et|destruct a; cbn in *; lra]. }
  split; [apply P; exact G1|]. split; [apply P; exact G2|].
  apply (row_resp_lt cb14_coeff); [exact cb14_psa_in|exact cb14_pga_in|exact cb14_pgv_in|].
  assert (D : finite (odef (n_z25 a) (cb14_z25 (n_v a) (cb14_region a)))) by (apply finite_odef, fin_z25; lra).
  assert (S : finite (cb14_site_term cb14_pga_row NaN (Fin 1100) (odef (n_z25 a) (cb14_z25 (n_v a) (cb14_region a))) (cb14_region a) (cb14_z25 1100 (cb14_region a)))).
  { apply cb14_site_finite; try assumption; [exact cb14_pga_in|lra|lra|left; reflexivity|left; apply fin_z25; lra]. }
  destruct S as [s Es].
  destruct (cb14_resp_form cb14_pga_row x a cb14_pga_in Hx Hd) as [Ea HEa].
  assert (Rf : forall r, cb14_pga_ref_of x (with_rup a r) = fexp (Fin (Ea + cs_D cb14_pga_row (n_mag a) (cb14_region a) r + s))).
  { intros r. unfold cb14_pga_ref_of, cb14_pga_ref. destruct (with_rup_same a r) as (_ & _ & _ & -> & _). rewrite (HEa r _ _ _ s Es). reflexivity. }
  intros c Hc. destruct (cb14_resp_form c x a Hc Hx Hd) as [E HE].
  destruct (cb14_site_any c (n_v a) _ (cb14_region a) Hc ltac:(lra) D) as (A & HS).
  unfold cb14_resp, cb14_ref2. rewrite !Rf. 
  destruct (with_rup_same a r1) as (_ & -> & _). destruct (with_rup_same a r2) as (_ & -> & _).
  rewrite (HE r1 _ _ _ _ (HS (Ea + cs_D cb14_pga_row (n_mag a) (cb14_region a) r1 + s) _)). rewrite (HE r2 _ _ _ _ (HS (Ea + cs_D cb14_pga_row (n_mag a) (cb14_region a) r2 + s) _)).
  do 2 eexists. split; [reflexivity|]. split; [reflexivity|].
  fold (cs_D c (n_mag a) (cb14_region a) r1) (cs_D c (n_mag a) (cb14_region a) r2).
  pose proof (cb14_dist_decr cb14_pga_row (n_mag a) (cb14_region a) r1 r2 cb14_pga_in Hm H1 H12) as L. fold (cs_D cb14_pga_row (n_mag a) (cb14_region a) r1) (cs_D cb14_pga_row (n_mag a) (cb14_region a) r2) in L.
  pose proof (cs_D_comp c (n_mag a) (cb14_region a) r1 r2 Hc Hm H1 H12 H2) as C.
  destruct (cs_nl_lip c 300 (n_v a) (Ea + cs_D cb14_pga_row (n_mag a) (cb14_region a) r2 + s) (Ea + cs_D cb14_pga_row (n_mag a) (cb14_region a) r1 + s) Hc ltac:(lra) Hv ltac:(lra)) as (_ & N & _).
  lra.
Qed.
(** ** Magnitude *)
Definition cs_slopes (c p : cb14_row) (F g : R) (big : bool) : Prop :=
  let d := fun f : cb14_row -> Q => Q2R (f c) - F * Q2R (f p) in
  0 < d cb14_c_1 + g /\
  (0 < d cb14_c_1 + d cb14_c_2 + g /\ 0 < d cb14_c_1 + d cb14_c_2 + g - d cb14_c_19 * 90) /\
  (0 < d cb14_c_1 + d cb14_c_2 + d cb14_c_8 + g /\ 0 < d cb14_c_1 + d cb14_c_2 + d cb14_c_8 + g - d cb14_c_19 * 90) /\
  (0 < d cb14_c_1 + d cb14_c_2 + d cb14_c_9 + g /\ 0 < d cb14_c_1 + d cb14_c_2 + d cb14_c_9 + g - d cb14_c_19 * 90) /\
  (0 < d cb14_c_1 + d cb14_c_2 + d cb14_c_3 + g /\ 0 < d cb14_c_1 + d cb14_c_2 + d cb14_c_3 + g + 5 * (d cb14_c_18 - d cb14_c_17)) /\
  (big = true -> 0 < d cb14_c_1 + d cb14_c_2 + d cb14_c_3 + d cb14_c_4 + g).
Definition cs_g (c p : cb14_row) (F q : R) : R :=
  Q2R (cb14_c_6 c) * (/ 2 * ln (q + Q2R (cb14_c_7 c) * Q2R (cb14_c_7 c))) - F * Q2R (cb14_c_6 p) * (/ 2 * ln (q + Q2R (cb14_c_7 p) * Q2R (cb14_c_7 p))).
Lemma cs_g_low c6 A F p6 B q0 q : 0 < A -> 0 < B -> 0 <= q0 -> q0 <= q -> 0 <= c6 -> 0 <= F * p6 ->
  0 <= c6 - F * p6 -> 
  (0 <= c6 * B - F * p6 * A -> c6 * (/ 2 * ln (q0 + A)) - F * p6 * (/ 2 * ln (q0 + B)) <= c6 * (/ 2 * ln (q + A)) - F * p6 * (/ 2 * ln (q + B))) /\
  (B <= A -> (c6 - F * p6) * (/ 2 * ln (q0 + B)) <= c6 * (/ 2 * ln (q + A)) - F * p6 * (/ 2 * ln (q + B))).
Proof.
  intros HA HB H0 Hq H6 Hp Hd. set (f := F * p6) in *. clearbody f. split.
  - intros Hm. destruct Hq as [Hq|<-]; [|lra].
    destruct (MVT_gen (fun q => c6 * (/ 2 * ln (q + A)) - f * (/ 2 * ln (q + B))) q0 q (fun q => / 2 * (c6 * / (q + A) - f * / (q + B)))) as (y & Hy & E).
    + intros y Hy. rewrite Rmin_left, Rmax_right in Hy by lra. auto_derive; [repeat split; lra|]. ring.
    + intros y Hy. rewrite Rmin_left, Rmax_right in Hy by lra. apply continuity_pt_filterlim, (ex_derive_continuous (fun q => c6 * (/ 2 * ln (q + A)) - f * (/ 2 * ln (q + B)))). auto_derive. repeat split; lra.
    + rewrite Rmin_left, Rmax_right in Hy by lra. cbv beta in E.
      assert (0 <= / 2 * (c6 * / (y + A) - f * / (y + B)) * (q - q0)); [|lra]. apply Rmult_le_pos; [|lra]. apply Rmult_le_pos; [lra|].
      replace (c6 * / (y + A) - f * / (y + B)) with (((c6 - f) * y + (c6 * B - f * A)) / ((y + A) * (y + B))) by (field; split; lra).
      apply Rmult_le_pos; [|left; apply Rinv_0_lt_compat, Rmult_lt_0_compat; lra]. assert (0 <= (c6 - f) * y) by (apply Rmult_le_pos; lra). lra.
  - intros HBA. assert (ln (q0 + B) <= ln (q + B)) by (apply ln_le_mono; lra). assert (ln (q + B) <= ln (q + A)) by (apply ln_le_mono; lra).
    assert (0 <= (c6 - f) * (ln (q + B) - ln (q0 + B))) by (apply Rmult_le_pos; lra). assert (0 <= c6 * (ln (q + A) - ln (q + B))) by (apply Rmult_le_pos; lra). lra.
Qed.
(** A lower bound of the distance part valid from [sqrt q0] km on, good enough for every slope. *)
Definition cs_good (c p : cb14_row) (F q0 : R) (big : bool) : Prop :=
  exists g, (forall q, q0 <= q -> g <= cs_g c p F q) /\ cs_slopes c p F g big.
Lemma cs_good_mono c p F q0 big : 0 < Q2R (cb14_c_7 c) -> 0 < Q2R (cb14_c_7 p) -> 0 <= q0 -> 0 <= Q2R (cb14_c_6 c) -> 0 <= F * Q2R (cb14_c_6 p) ->
  0 <= Q2R (cb14_c_6 c) - F * Q2R (cb14_c_6 p) ->
  0 <= Q2R (cb14_c_6 c) * (Q2R (cb14_c_7 p) * Q2R (cb14_c_7 p)) - F * Q2R (cb14_c_6 p) * (Q2R (cb14_c_7 c) * Q2R (cb14_c_7 c)) ->
  cs_slopes c p F (cs_g c p F q0) big -> cs_good c p F q0 big.
Proof.
  intros H7 H7' H0 H6 H6' Hd Hm S. exists (cs_g c p F q0). split; [|exact S]. intros q Hq. unfold cs_g.
  apply cs_g_low; try assumption; apply Rmult_lt_0_compat; assumption.
Qed.
Lemma cs_good_above c p F q0 big : 0 < Q2R (cb14_c_7 c) -> 0 < Q2R (cb14_c_7 p) -> 0 <= q0 -> 0 <= Q2R (cb14_c_6 c) -> 0 <= F * Q2R (cb14_c_6 p) ->
  0 <= Q2R (cb14_c_6 c) - F * Q2R (cb14_c_6 p) ->
  Q2R (cb14_c_7 p) * Q2R (cb14_c_7 p) <= Q2R (cb14_c_7 c) * Q2R (cb14_c_7 c) ->
  cs_slopes c p F ((Q2R (cb14_c_6 c) - F * Q2R (cb14_c_6 p)) * (/ 2 * ln (q0 + Q2R (cb14_c_7 p) * Q2R (cb14_c_7 p)))) big -> cs_good c p F q0 big.
Proof.
  intros H7 H7' H0 H6 H6' Hd Hm S. eexists. split; [|exact S]. intros q Hq. unfold cs_g.
  apply cs_g_low; try assumption; apply Rmult_lt_0_compat; assumption.
Qed.
Ltac cs_Fvar := match goal with |- context [cs_F ?c ?v] =>
    let e := eval cbv beta zeta delta [cs_F] in (cs_F c v) in
    let e := eval cbn [cb14_k_1 cb14_k_2] in e in let e := eval unfold Q2R, Rpower in e in let e := eval cbn [Qnum Qden] in e in
    let HF := fresh "HF" in interval_intro e with (i_prec 60) as HF; change e with (cs_F c v) in HF; revert HF; generalize (cs_F c v); intros F HF end.
Ltac cs_row := cbv beta zeta; unfold cs_slopes, cs_g; cbv beta zeta;
  change cb14_pga_row with ltac:(let x := eval cbv in cb14_pga_row in exact x) in *;
  cbn [cb14_c_1 cb14_c_2 cb14_c_3 cb14_c_4 cb14_c_6 cb14_c_7 cb14_c_8 cb14_c_9 cb14_c_17 cb14_c_18 cb14_c_19];
  unfold Q2R; cbn [Qnum Qden].
Ltac cs_logs := repeat match goal with |- context [ln ?e] => let H := fresh in interval_intro (ln e) with (i_prec 60) as H; revert H; generalize (ln e); intros ? H end.
Ltac cs_conc := lazymatch goal with
  | |- context [ln] => cs_logs
  | |- _ => idtac end; repeat split; try (intros ?; try discriminate); first [interval with (i_prec 60)|lra].
Lemma cs_rows_mag c : In c cb14_coeff -> cs_good c cb14_pga_row (cs_F c 400) 9 true /\ cs_good c cb14_pga_row (cs_F c 300) 0 false.
Proof.
  intros Hc.
  cs_each Hc ltac:(split; cs_Fvar; first [apply cs_good_mono; cs_row; solve [cs_conc]|apply cs_good_above; cs_row; solve [cs_conc]]).
Qed.
