(** * BSSA14 and distance on soil: lemmas for C59 *)
From Coquelicot Require Import Coquelicot.
From Interval Require Import Tactic.
From Coq Require Import List.
From Verif Require Import M_cy14 M_bssa14 FrameworkProofs Anal Nga Outs SpecNga P_cy14 P_bssa14 P_ngaspec Spec_cy14 Spec_bssa14 Properties_NGAPub P_ngacont P_ngamag P_bsmag.
Open Scope R_scope.
Open Scope string_scope.
Open Scope list_scope.

Lemma lin_neg2 a b A B t : a <= t <= b -> A + B * a < 0 -> A + B * b < 0 -> A + B * t < 0.
Proof.
  intros Ht Ha Hb. destruct (Rle_dec 0 B).
  - assert (B * t <= B * b) by (apply Rmult_le_compat_l; lra). lra.
  - assert (0 <= - B * (t - a)) by (apply Rmult_le_pos; lra). lra.
Qed.
(** Slope of an ordinate with distance against [G] times the slope of PGA, on one zone [a, b] of distances. *)
Lemma bs_zone c1 c2 k h q1 q2 kp G rho lo hi a b m r :
  0 <= a <= r -> r <= b -> 0 < h -> 3 <= m <= 8.5 -> 0 <= G -> 1 <= rho -> a * a + h * h <= rho * (a * a + 4.5 * 4.5) ->
  0 <= lo -> lo * lo <= a * a + h * h -> 0 <= hi -> b * b + h * h <= hi * hi -> q1 + q2 * (m - 4.5) <= 0 -> kp <= 0 ->
  (forall M D, (M = 3 \/ M = 8.5) -> (D = lo \/ D = hi) -> c1 + c2 * (M - 4.5) + k * D - G * ((q1 + q2 * (M - 4.5)) * rho + kp * ((1 + rho) / 2) * D) < 0) ->
  let S := sqrt (r * r + h * h) in let P := sqrt (r * r + 4.5 * 4.5) in
  (c1 + c2 * (m - 4.5)) / (S * S) + k / S - G * ((q1 + q2 * (m - 4.5)) / (P * P) + kp / P) < 0.
Proof.
  intros Ha Hb Hh Hm HG Hr Hrho Hlo Hlo2 Hhi Hhi2 Hq Hkp C S P.
  assert (Rr : a * a <= r * r <= b * b) by (split; apply Rmult_le_compat; lra).
  assert (Hh2 : 0 < h * h) by (apply Rmult_lt_0_compat; assumption).
  assert (R0 : 0 <= a * a) by (apply Rmult_le_pos; lra).
  assert (S2 : S * S = r * r + h * h) by (unfold S; rewrite sqrt_sqrt; lra).
  assert (P2 : P * P = r * r + 4.5 * 4.5) by (unfold P; rewrite sqrt_sqrt; lra).
  assert (S0 : 0 < S) by (unfold S; apply sqrt_lt_R0; lra). assert (P0 : 0 < P) by (unfold P; apply sqrt_lt_R0; lra).
  assert (SL : lo <= S <= hi).
  { split; unfold S; [rewrite <- (sqrt_square lo) by assumption|rewrite <- (sqrt_square hi) by assumption]; apply sqrt_le_1_alt; lra. }
  clearbody S P.
  assert (E1 : S * S <= rho * (P * P)).
  { rewrite S2, P2. assert (0 <= (rho - 1) * (r * r - a * a)) by (apply Rmult_le_pos; lra). lra. }
  assert (E2 : S <= (1 + rho) / 2 * P).
  { apply Rsqr_incr_0; [|lra|apply Rmult_le_pos; lra]. unfold Rsqr.
    assert (0 <= (rho - 1) * (rho - 1) * (P * P)) by (apply Rmult_le_pos; [apply Rle_0_sqr|apply Rle_0_sqr]). lra. }
  set (A := c1 + c2 * (m - 4.5)). set (Q := q1 + q2 * (m - 4.5)) in *.
  assert (N : A + k * S - G * (Q * rho + kp * ((1 + rho) / 2) * S) < 0).
  { unfold A, Q. 
    assert (X : forall D, D = lo \/ D = hi -> c1 + c2 * (m - 4.5) + k * D - G * ((q1 + q2 * (m - 4.5)) * rho + kp * ((1 + rho) / 2) * D) < 0).
    { intros D HD. pose proof (C 3 D (or_introl eq_refl) HD) as X3. pose proof (C 8.5 D (or_intror eq_refl) HD) as X8. clear - X3 X8 Hm.
      assert (Y : (c1 - 4.5 * c2 + k * D - G * ((q1 - 4.5 * q2) * rho + kp * ((1 + rho) / 2) * D)) + (c2 - G * q2 * rho) * m < 0); [|lra].
      apply (lin_neg2 3 8.5); lra. }
    pose proof (X lo (or_introl eq_refl)) as Xl. pose proof (X hi (or_intror eq_refl)) as Xh. clear X C.
    assert (Y : (c1 + c2 * (m - 4.5) - G * ((q1 + q2 * (m - 4.5)) * rho)) + (k - G * (kp * ((1 + rho) / 2))) * S < 0); [|lra].
    apply (lin_neg2 lo hi); [assumption|lra|lra]. }
  clear C. clearbody A Q.
  assert (I1 : 0 < / (S * S)) by (apply Rinv_0_lt_compat, Rmult_lt_0_compat; assumption).
  assert (F1 : Q * rho * / (S * S) <= Q / (P * P)).
  { unfold Rdiv. rewrite Rmult_assoc. apply Rmult_le_compat_neg_l; [exact Hq|].
    assert (PP : 0 < P * P) by (apply Rmult_lt_0_compat; assumption).
    apply Rmult_le_reg_r with ((P * P) * (S * S)); [apply Rmult_lt_0_compat; [exact PP|apply Rmult_lt_0_compat; assumption]|].
    replace (/ (P * P) * (P * P * (S * S))) with (S * S) by (field; lra). replace (rho * / (S * S) * (P * P * (S * S))) with (rho * (P * P)) by (field; lra). exact E1. }
  assert (F2 : kp * ((1 + rho) / 2) * / S <= kp / P).
  { unfold Rdiv at 2. rewrite Rmult_assoc. apply Rmult_le_compat_neg_l; [exact Hkp|].
    apply Rmult_le_reg_r with (P * S); [apply Rmult_lt_0_compat; assumption|].
    replace (/ P * (P * S)) with S by (field; lra). replace ((1 + rho) / 2 * / S * (P * S)) with ((1 + rho) / 2 * P) by (field; lra). exact E2. }
  assert (F3 : G * (Q * rho * / (S * S) + kp * ((1 + rho) / 2) * / S) <= G * (Q / (P * P) + kp / P)) by (apply Rmult_le_compat_l; lra).
  apply Rle_lt_trans with (A / (S * S) + k / S - G * (Q * rho * / (S * S) + kp * ((1 + rho) / 2) * / S)); [lra|].
  replace (A / (S * S) + k / S - G * (Q * rho * / (S * S) + kp * ((1 + rho) / 2) * / S)) with ((A + k * S - G * (Q * rho + kp * ((1 + rho) / 2) * S)) * / (S * S)) by (field; lra).
  assert (0 < - (A + k * S - G * (Q * rho + kp * ((1 + rho) / 2) * S)) * / (S * S)) by (apply Rmult_lt_0_compat; lra). lra.
Qed.
(** One ordinate as a function of distance. *)
Definition bs_r (c1 k h x : R) : R := c1 * ln (sqrt (x * x + h * h)) + k * (sqrt (x * x + h * h) - 1).
Lemma bs_r_derive c1 k h x : 0 < h -> is_derive (bs_r c1 k h) x (x * (c1 / (sqrt (x * x + h * h) * sqrt (x * x + h * h)) + k / sqrt (x * x + h * h))).
Proof.
  intros Hh. assert (H2 : 0 < x * x + h * h) by nra. assert (S0 : 0 < sqrt (x * x + h * h)) by (apply sqrt_lt_R0; exact H2).
  unfold bs_r. auto_derive; [repeat split; assumption|]. field. lra.
Qed.
Lemma bs_tot_derive c1 k h q1 kp f2 E E' x : 0 < h ->
  is_derive (fun x => E + bs_r c1 k h x + f2 * ln ((exp (E' + bs_r q1 kp 4.5 x) + 0.1) / 0.1)) x
   (x * ((c1 / (sqrt (x * x + h * h) * sqrt (x * x + h * h)) + k / sqrt (x * x + h * h))
         + f2 * (exp (E' + bs_r q1 kp 4.5 x) / (exp (E' + bs_r q1 kp 4.5 x) + 0.1)) * (q1 / (sqrt (x * x + 4.5 * 4.5) * sqrt (x * x + 4.5 * 4.5)) + kp / sqrt (x * x + 4.5 * 4.5)))).
Proof.
  intros Hh. pose proof (bs_r_derive c1 k h x Hh) as D1. pose proof (bs_r_derive q1 kp 4.5 x ltac:(lra)) as D2.
  set (u := c1 / _ + _) in *. set (w := q1 / _ + _) in *. clearbody u w.
  set (g := bs_r c1 k h) in *. set (g' := bs_r q1 kp 4.5) in *. clearbody g g'.
  pose proof (exp_pos (E' + g' x)) as P.
  evar_last.
  { apply (is_derive_plus (fun x => E + g x) (fun x => f2 * ln ((exp (E' + g' x) + 0.1) / 0.1))).
    - apply (is_derive_plus (fun _ => E) g); [apply is_derive_const|exact D1].
    - apply is_derive_scal. apply (is_derive_comp (fun y => ln ((exp (E' + y) + 0.1) / 0.1)) g').
      + auto_derive; [apply Rdiv_lt_0_compat; lra|reflexivity].
      + exact D2. }
  unfold plus, scal, zero; cbn; unfold mult; cbn. set (e := exp (E' + g' x)) in *. clearbody e. field. lra.
Qed.
Lemma bs_zone_decr c1 c2 k h q1 q2 kp F phi f2 E E' rho lo hi a b m :
  0 <= a -> 0 < h -> 3 <= m <= 8.5 -> 0 <= F -> - F <= f2 -> 0 <= phi -> 1 <= rho -> a * a + h * h <= rho * (a * a + 4.5 * 4.5) ->
  0 <= lo -> lo * lo <= a * a + h * h -> 0 <= hi -> b * b + h * h <= hi * hi -> q1 + q2 * (m - 4.5) <= 0 -> kp <= 0 ->
  (forall M D, (M = 3 \/ M = 8.5) -> (D = lo \/ D = hi) -> c1 + c2 * (M - 4.5) + k * D - (F * phi) * ((q1 + q2 * (M - 4.5)) * rho + kp * ((1 + rho) / 2) * D) < 0) ->
  (forall r, a <= r -> exp (E' + bs_r (q1 + q2 * (m - 4.5)) kp 4.5 r) * (1 - phi) <= phi * 0.1) ->
  let f := fun x => E + bs_r (c1 + c2 * (m - 4.5)) k h x + f2 * ln ((exp (E' + bs_r (q1 + q2 * (m - 4.5)) kp 4.5 x) + 0.1) / 0.1) in
  forall r1 r2, a <= r1 -> r1 < r2 -> r2 <= b -> f r2 < f r1.
Proof.
  intros Ha Hh Hm HF Hf2 Hphi Hr Hrho Hlo Hlo2 Hhi Hhi2 Hq Hkp C HP f.
  assert (MV : forall r1 r2, a <= r1 -> r1 < r2 -> r2 <= b -> exists x y, r1 <= x <= r2 /\ 0 < y /\ f r1 - f r2 = x * y);
  [|intros r1 r2 H1 H12 H2; destruct (MV r1 ((r1 + r2) / 2)) as (x1 & y1 & X1 & Y1 & E1); try lra; destruct (MV ((r1 + r2) / 2) r2) as (x2 & y2 & X2 & Y2 & E2); try lra;
    assert (0 <= x1 * y1) by (apply Rmult_le_pos; lra); assert (0 < x2 * y2) by (apply Rmult_lt_0_compat; lra); lra].
  intros r1 r2 H1 H12 H2.
  destruct (MVT_gen f r1 r2 (fun x => x * ((((c1 + c2 * (m - 4.5)) / (sqrt (x * x + h * h) * sqrt (x * x + h * h)) + k / sqrt (x * x + h * h)))
         + f2 * (exp (E' + bs_r (q1 + q2 * (m - 4.5)) kp 4.5 x) / (exp (E' + bs_r (q1 + q2 * (m - 4.5)) kp 4.5 x) + 0.1)) * ((q1 + q2 * (m - 4.5)) / (sqrt (x * x + 4.5 * 4.5) * sqrt (x * x + 4.5 * 4.5)) + kp / sqrt (x * x + 4.5 * 4.5))))) as (x & Hx & V).
  - intros x _. apply bs_tot_derive. exact Hh.
  - intros x _. apply continuity_pt_filterlim. apply (ex_derive_continuous f). eexists. apply bs_tot_derive. exact Hh.
  - rewrite Rmin_left, Rmax_right in Hx by lra.
    assert (X0 : 0 <= x) by lra.
    pose proof (bs_zone c1 c2 k h q1 q2 kp (F * phi) rho lo hi a b m x ltac:(lra) ltac:(lra) Hh Hm ltac:(apply Rmult_le_pos; assumption) Hr Hrho Hlo Hlo2 Hhi Hhi2 Hq Hkp C) as Z. cbv zeta in Z.
    assert (W : (q1 + q2 * (m - 4.5)) / (sqrt (x * x + 4.5 * 4.5) * sqrt (x * x + 4.5 * 4.5)) + kp / sqrt (x * x + 4.5 * 4.5) <= 0).
    { assert (0 < sqrt (x * x + 4.5 * 4.5)) by (apply sqrt_lt_R0; nra). set (s := sqrt (x * x + 4.5 * 4.5)) in *.
      assert (0 < / (s * s)) by (apply Rinv_0_lt_compat, Rmult_lt_0_compat; assumption). assert (0 < / s) by (apply Rinv_0_lt_compat; assumption).
      unfold Rdiv. assert (0 <= - (q1 + q2 * (m - 4.5)) * / (s * s)) by (apply Rmult_le_pos; lra). assert (0 <= - kp * / s) by (apply Rmult_le_pos; lra). lra. }
    pose proof (HP x ltac:(lra)) as PX. pose proof (exp_pos (E' + bs_r (q1 + q2 * (m - 4.5)) kp 4.5 x)) as PE.
    set (p := exp (E' + bs_r (q1 + q2 * (m - 4.5)) kp 4.5 x)) in *. clearbody p.
    assert (T : 0 <= p / (p + 0.1) <= phi).
    { split; [apply Rlt_le, Rdiv_lt_0_compat; lra|]. apply Rmult_le_reg_r with (p + 0.1); [lra|]. unfold Rdiv. rewrite Rmult_assoc, Rinv_l by lra. lra. }
    set (t := p / (p + 0.1)) in *. clearbody t. set (w := _ + kp / _) in *. set (u := _ + k / sqrt (x * x + h * h)) in *. clearbody u w.
    assert (L : u + f2 * t * w < 0).
    { assert (- (F * phi) <= f2 * t). { assert (0 <= (f2 + F) * t) by (apply Rmult_le_pos; lra). assert (0 <= F * (phi - t)) by (apply Rmult_le_pos; lra). lra. }
      assert (0 <= (f2 * t + F * phi) * - w) by (apply Rmult_le_pos; lra). lra. }
    assert (V2 : 0 < (- (u + f2 * t * w)) * (r2 - r1)) by (apply Rmult_lt_0_compat; lra).
    exists x, (- (u + f2 * t * w) * (r2 - r1)). split; [exact Hx|]. split; [exact V2|]. lra.
Qed.
(** Row constants: [bs_G] bounds the strength of nonlinearity at 180 m/s, [bs_rho], [bs_lo], [bs_hi] the distances of a zone. *)
Definition q8 (q : Q) : Q := let a := (q * q)%Q in let b := (a * a)%Q in (b * b)%Q.
Lemma q8_R q : Q2R (q8 q) = Q2R q ^ 8. Proof. unfold q8. cbv zeta. rewrite !Q2R_mult. ring. Qed.
Definition bs_p3' (c : bssa14_row) : Q := (let x := - (225#10) * bssa14_f_5 c in (1#1) + x + x * x * (1#2) + x * x * x * (1#4))%Q.
Definition bs_x3 (c : bssa14_row) : Z := Qnum (rup 10000 (- (225#10) * bssa14_f_5 c)).
Definition bs_p3 (c : bssa14_row) : Z := (let k := bs_x3 c in (4000000000000 + k * (400000000 + k * (20000 + k))) / 400000000 + 1)%Z.
Definition zsq (k : Z) : Z := (k * k / 10000 + 1)%Z.
Definition bs_p8 (c : bssa14_row) : Q := zsq (zsq (zsq (bs_p3 c))) # 10000.
Definition bs_G (c : bssa14_row) : Q := rup 10000 (bs_n4 c * (bs_p8 c - (3#100))).
Definition bs_rho (a : Q) (c : bssa14_row) : Q := if Qle_bool (bssa14_h c) (45#10) then 1#1 else rup 10000 ((a * a + bssa14_h c * bssa14_h c) / (a * a + (45#10) * (45#10))).
Definition bs_lo (a : Q) (c : bssa14_row) : Q := if Qle_bool a (bssa14_h c) then bssa14_h c else a.
Definition bs_hi (b : Q) (c : bssa14_row) : Q := rup 1000 (b + bssa14_h c * bssa14_h c / (2 * b)).
Lemma bs_G_ok c v : In c bssa14_coeff -> 180 <= v -> 0 <= Q2R (bs_G c) /\
  - Q2R (bs_G c) <= Q2R (bssa14_f_4 c) * (exp (Q2R (bssa14_f_5 c) * (Rmin v 760 - 360)) - exp (Q2R (bssa14_f_5 c) * (760 - 360))).
Proof.
  intros Hc Hv. row_ge Hc (0#1)%Q bs_n4 as F4. row_ge Hc (0#1)%Q (fun c => bs_n4 c + bssa14_f_4 c)%Q as F4'. row_upto Hc bssa14_f_5 (0#1)%Q as F5. row_ge Hc (-85#10000)%Q bssa14_f_5 as F5'.
  row_ge Hc (0#1)%Q bs_G as G0. row_le Hc bs_p3' (fun c => bs_p3 c # 10000) as G1. row_le Hc (fun c => q8 (bs_p3 c # 10000)) bs_p8 as G2. row_le Hc (fun c => bs_n4 c * (bs_p8 c - (3#100)))%Q bs_G as G3.
  assert (M : 180 <= Rmin v 760 <= 760) by (split; [apply Rmin_glb; lra|apply Rmin_r]). set (w := Rmin v 760) in *. clearbody w.
  split; [lra|]. clear G0. rewrite q8_R in G2.
  set (g := Q2R (bs_G c)) in *. set (y8 := Q2R (bs_p8 c)) in *. clearbody g y8. change (Q2R (bs_p3 c # 10000)) with (IZR (bs_p3 c) * / IZR 10000) in *. set (y0 := IZR (bs_p3 c) * / IZR 10000) in *. clearbody y0. unfold bs_p3' in G1. cbv zeta in G1. rewrite !Q2R_plus, !Q2R_mult, !Q2R_opp in G1. revert G1.
  replace (Q2R (225#10)) with 22.5 by (unfold Q2R; cbn; lra).
  replace (Q2R (1#2)) with 0.5 by (unfold Q2R; cbn; lra). replace (Q2R (1#4)) with 0.25 by (unfold Q2R; cbn; lra). replace (Q2R (1#1)) with 1 by (unfold Q2R; cbn; lra).
  set (f4 := Q2R (bssa14_f_4 c)) in *. set (n4 := Q2R (bs_n4 c)) in *. set (f5 := Q2R (bssa14_f_5 c)) in *. clearbody f4 n4 f5. set (x := Ropp 22.5 * f5) in *. intros G1.
  assert (X : 0 <= x <= 1) by (unfold x; lra). pose proof (exp_cubic x X) as C.
  assert (E2 : exp (f5 * (760 - 360)) <= exp (f5 * (w - 360))) by (apply exp_le_mono; clear C G1; nra).
  assert (E3 : 0.03 <= exp (f5 * (760 - 360))) by (apply Rle_trans with (exp (-3.4)); [interval with (i_prec 40)|apply exp_le_mono; lra]).
  assert (E1 : exp (f5 * (w - 360)) <= y0 ^ 8).
  { apply Rle_trans with (exp (8 * x)); [apply exp_le_mono; clear C G1; unfold x; nra|].
    replace (8 * x) with (x + x + x + x + x + x + x + x) by ring. rewrite !exp_plus.
    replace (exp x * exp x * exp x * exp x * exp x * exp x * exp x * exp x) with (exp x ^ 8) by ring. apply pow_incr. pose proof (exp_pos x). lra. }
  set (a := exp (f5 * (760 - 360))) in *. set (b := exp (f5 * (w - 360))) in *. set (y := _ ^ 8) in *. clearbody a b y.
  assert (0 <= n4 * (y8 - 0.03 - (b - a))) by (apply Rmult_le_pos; lra).
  assert (0 <= (n4 + f4) * (b - a)) by (apply Rmult_le_pos; lra). lra.
Qed.
Lemma bs_pga_upper a r : 0 <= n_mag a <= 8.5 -> 0 <= r ->
  bs_rock bssa14_pga_row (with_jb a r) <= - 0.013 - 0.3672 * ln (sqrt (r * r + 4.5 * 4.5)) - 0.0052 * (sqrt (r * r + 4.5 * 4.5) - 1).
Proof.
  intros Hm Hr. 
  assert (B : bs_rock bssa14_pga_row (with_jb a r) <= bs_rock bssa14_pga_row (with_mag (with_jb a r) 8.5)).
  { destruct (Req_dec (n_mag a) 8.5) as [E|N]; [right; f_equal; destruct a; cbn in *; rewrite E; reflexivity|].
    left. replace (with_jb a r) with (with_mag (with_jb a r) (n_mag a)) at 1 by (destruct a; reflexivity).
    apply bs_rock_grows; [apply bssa14_pga_in|destruct a; exact Hr|lra|lra]. }
  eapply Rle_trans; [exact B|]. clear B.
  unfold bs_rock, bssa14_event_spec, bssa14_path_spec, bs_mech_of, bs_region_of. nga_split a. nga_cbn.
  set (mc := option_of _ _ a_me). set (rg := option_of _ _ a_re). cbv zeta.
  replace (Q2R (bssa14_h bssa14_pga_row)) with 4.5 by (unfold Q2R; cbn; lra).
  replace (Q2R (bssa14_M_h bssa14_pga_row)) with 5.5 by (unfold Q2R; cbn; lra).
  replace (Q2R (bssa14_e_6 bssa14_pga_row)) with (-0.1662) by (unfold Q2R; cbn; lra).
  replace (Q2R (bssa14_c_2 bssa14_pga_row)) with 0.1917 by (unfold Q2R; cbn; lra).
  replace (Q2R (bssa14_c_1 bssa14_pga_row)) with (-1.134) by (unfold Q2R; cbn; lra).
  destruct (Rle_dec 8.5 5.5); [lra|].
  set (k1 := (_ + (if (_ || _)%bool then _ else _))). set (ev1 := if String.eqb mc "SS" then Q2R (bssa14_e_1 bssa14_pga_row) else _).
  assert (K1 : k1 <= -0.0052) by (unfold k1; destruct (_ || _)%bool; [|destruct (_ || _)%bool]; unfold Q2R; cbn; lra).
  assert (E1 : ev1 <= 0.4856) by (unfold ev1; destruct (String.eqb mc "SS"); [|destruct (String.eqb mc "NS"); [|destruct (String.eqb mc "RS")]]; unfold Q2R; cbn; lra).
  clearbody k1 ev1.
  assert (S0 : 4.5 <= sqrt (r * r + 4.5 * 4.5)) by (rewrite <- (sqrt_square 4.5) at 1 by lra; apply sqrt_le_1_alt; nra).
  set (S := sqrt _) in *. clearbody S. assert (0 <= (-0.0052 - k1) * (S - 1)) by (apply Rmult_le_pos; lra). lra.
Qed.
Lemma bs_pga_zone a r al s L p phi : 0 <= n_mag a <= 8.5 -> 0 <= al <= r -> 0 < s -> s * s <= al * al + 4.5 * 4.5 -> L <= ln s -> 0 <= phi <= 1 ->
  exp (- 0.013 - 0.3672 * L - 0.0052 * (s - 1)) <= p -> p * (1 - phi) <= phi * 0.1 ->
  exp (bs_rock bssa14_pga_row (with_jb a r)) * (1 - phi) <= phi * 0.1.
Proof.
  intros Hm Hr Hs Hs2 HL Hphi Hp Hz. 
  apply Rle_trans with (p * (1 - phi)); [|exact Hz]. apply Rmult_le_compat_r; [lra|]. eapply Rle_trans; [|exact Hp].
  apply exp_le_mono. eapply Rle_trans; [apply bs_pga_upper; lra|].
  assert (al * al <= r * r) by (apply Rmult_le_compat; lra).
  assert (Q : s <= sqrt (r * r + 4.5 * 4.5)) by (rewrite <- (sqrt_square s) at 1 by lra; apply sqrt_le_1_alt; lra).
  assert (ln s <= ln (sqrt (r * r + 4.5 * 4.5))) by (apply ln_le; lra).
  set (S := sqrt _) in *. clearbody S. lra.
Qed.
(** The function of distance in one region group [dc]. *)
Definition bs_grp (a : nga) : bssa14_row -> Q :=
  let re := bs_region_of a in
  if (String.eqb re "china" || String.eqb re "turkey")%bool then bssa14_dc_3ct else if (String.eqb re "italy" || String.eqb re "japan")%bool then bssa14_dc_3ij else bssa14_dc_3global.
Lemma bs_rock_form c a : exists E, forall r, bs_rock c (with_jb a r) = E + bs_r (Q2R (bssa14_c_1 c) + Q2R (bssa14_c_2 c) * (n_mag a - 4.5)) (Q2R (bssa14_c_3 c) + Q2R (bs_grp a c)) (Q2R (bssa14_h c)) r.
Proof.
  nga_split a. unfold bs_rock, bssa14_path_spec, bs_grp, bs_region_of, bs_mech_of, bs_r. nga_cbn. cbv zeta.
  eexists. intros r.
  destruct (_ || _)%bool; [|destruct (_ || _)%bool]; reflexivity.
Qed.

(** One zone for the groups whose anelastic terms are at most [dc] and whose reference term is at least [kp0]. *)
Definition zone_ok (dc : bssa14_row -> Q) (kp0 phi a b : R) : Prop := forall c k kp m f2 E E' r1 r2,
  In c bssa14_coeff -> k <= Q2R (bssa14_c_3 c) + Q2R (dc c) -> kp0 <= kp <= 0 -> 3 <= m <= 8.5 -> - Q2R (bs_G c) <= f2 -> 0 <= Q2R (bs_G c) ->
  (forall r, a <= r -> exp (E' + bs_r (-1.134 + 0.1917 * (m - 4.5)) kp 4.5 r) * (1 - phi) <= phi * 0.1) -> a <= r1 -> r1 < r2 -> r2 <= b ->
  let f := fun x => E + bs_r (Q2R (bssa14_c_1 c) + Q2R (bssa14_c_2 c) * (m - 4.5)) k (Q2R (bssa14_h c)) x + f2 * ln ((exp (E' + bs_r (-1.134 + 0.1917 * (m - 4.5)) kp 4.5 x) + 0.1) / 0.1) in
  f r2 < f r1.
Definition bs_dgi (c : bssa14_row) : Q := if Qle_bool (bssa14_dc_3ij c) 0 then 0#1 else bssa14_dc_3ij c.
Lemma zone_worst A q k k0 kp kp0 g rho D : k <= k0 -> kp0 <= kp -> 0 <= g -> 1 <= rho -> 0 <= D ->
  A + k0 * D - g * (q * rho + kp0 * ((1 + rho) / 2) * D) < 0 -> A + k * D - g * (q * rho + kp * ((1 + rho) / 2) * D) < 0.
Proof.
  intros Hk Hp Hg Hr HD H. assert (0 <= (k0 - k) * D) by (apply Rmult_le_pos; lra).
  assert (0 <= g * ((kp - kp0) * ((1 + rho) / 2) * D)) by (repeat apply Rmult_le_pos; lra). lra.
Qed.
Lemma zone_1 : zone_ok bssa14_dc_3ct (-0.0106380) 0.85 0 20.
Proof.
  intros c k kp m f2 E E' r1 r2 Hc Hk Hkp Hm Hf HG HP H1 H12 H2 f. unfold f. clear f.
  row_pos Hc bssa14_h as Zh. row_ge Hc (1#1)%Q (bs_rho (0#1)) as Zr. row_le Hc (fun c => (0#1) * (0#1) + bssa14_h c * bssa14_h c)%Q (fun c => bs_rho (0#1) c * ((0#1) * (0#1) + (45#10) * (45#10)))%Q as Zr2.
  row_ge Hc (0#1)%Q (bs_lo (0#1)) as Zl. row_le Hc (fun c => bs_lo (0#1) c * bs_lo (0#1) c)%Q (fun c => (0#1) * (0#1) + bssa14_h c * bssa14_h c)%Q as Zl2.
  row_ge Hc (0#1)%Q (bs_hi (20#1)) as Zu. row_le Hc (fun c => (20#1) * (20#1) + bssa14_h c * bssa14_h c)%Q (fun c => bs_hi (20#1) c * bs_hi (20#1) c)%Q as Zu2.
  row_upto Hc (fun c => bssa14_c_1 c + bssa14_c_2 c * (-15#10) + (bssa14_c_3 c + bssa14_dc_3ct c) * bs_lo (0#1) c - bs_G c * ((-483327#400000) * bs_rho (0#1) c + (-90423#20000000) * ((1#1) + bs_rho (0#1) c) * bs_lo (0#1) c))%Q (-1#1000)%Q as Z1.
  row_upto Hc (fun c => bssa14_c_1 c + bssa14_c_2 c * (-15#10) + (bssa14_c_3 c + bssa14_dc_3ct c) * bs_hi (20#1) c - bs_G c * ((-483327#400000) * bs_rho (0#1) c + (-90423#20000000) * ((1#1) + bs_rho (0#1) c) * bs_hi (20#1) c))%Q (-1#1000)%Q as Z2.
  row_upto Hc (fun c => bssa14_c_1 c + bssa14_c_2 c * (4#1) + (bssa14_c_3 c + bssa14_dc_3ct c) * bs_lo (0#1) c - bs_G c * ((-7803#25000) * bs_rho (0#1) c + (-90423#20000000) * ((1#1) + bs_rho (0#1) c) * bs_lo (0#1) c))%Q (-1#1000)%Q as Z3.
  row_upto Hc (fun c => bssa14_c_1 c + bssa14_c_2 c * (4#1) + (bssa14_c_3 c + bssa14_dc_3ct c) * bs_hi (20#1) c - bs_G c * ((-7803#25000) * bs_rho (0#1) c + (-90423#20000000) * ((1#1) + bs_rho (0#1) c) * bs_hi (20#1) c))%Q (-1#1000)%Q as Z4.
  set (G := Q2R (bs_G c)) in *. set (rho := Q2R (bs_rho (0#1) c)) in *. set (lo := Q2R (bs_lo (0#1) c)) in *. set (hi := Q2R (bs_hi (20#1) c)) in *.
  set (h := Q2R (bssa14_h c)) in *. set (c1 := Q2R (bssa14_c_1 c)) in *. set (c2 := Q2R (bssa14_c_2 c)) in *. set (k0 := Q2R (bssa14_c_3 c) + Q2R (bssa14_dc_3ct c)) in *.
  clearbody G rho lo hi h c1 c2 k0.
  apply (bs_zone_decr c1 c2 k h (-1.134) 0.1917 kp G 0.85 f2 E E' rho lo hi 0 20 m); try assumption; try lra.
  clear HP Zr2 Zl2 Zu2. intros M D HM HD. apply (zone_worst _ _ k k0 kp (-0.0106380)); try assumption; [lra|lra|lra|destruct HD; subst D; lra|].
  destruct HM as [HM|HM], HD as [HD|HD]; rewrite HM, HD; lra.
Qed.
Lemma zone_2 : zone_ok bssa14_dc_3ct (-0.0106380) 0.748 20 100.
Proof.
  intros c k kp m f2 E E' r1 r2 Hc Hk Hkp Hm Hf HG HP H1 H12 H2 f. unfold f. clear f.
  row_pos Hc bssa14_h as Zh. row_ge Hc (1#1)%Q (bs_rho (20#1)) as Zr. row_le Hc (fun c => (20#1) * (20#1) + bssa14_h c * bssa14_h c)%Q (fun c => bs_rho (20#1) c * ((20#1) * (20#1) + (45#10) * (45#10)))%Q as Zr2.
  row_ge Hc (0#1)%Q (bs_lo (20#1)) as Zl. row_le Hc (fun c => bs_lo (20#1) c * bs_lo (20#1) c)%Q (fun c => (20#1) * (20#1) + bssa14_h c * bssa14_h c)%Q as Zl2.
  row_ge Hc (0#1)%Q (bs_hi (100#1)) as Zu. row_le Hc (fun c => (100#1) * (100#1) + bssa14_h c * bssa14_h c)%Q (fun c => bs_hi (100#1) c * bs_hi (100#1) c)%Q as Zu2.
  row_upto Hc (fun c => bssa14_c_1 c + bssa14_c_2 c * (-15#10) + (bssa14_c_3 c + bssa14_dc_3ct c) * bs_lo (20#1) c - bs_G c * ((-5316597#5000000) * bs_rho (20#1) c + (-994653#250000000) * ((1#1) + bs_rho (20#1) c) * bs_lo (20#1) c))%Q (-1#1000)%Q as Z1.
  row_upto Hc (fun c => bssa14_c_1 c + bssa14_c_2 c * (-15#10) + (bssa14_c_3 c + bssa14_dc_3ct c) * bs_hi (100#1) c - bs_G c * ((-5316597#5000000) * bs_rho (20#1) c + (-994653#250000000) * ((1#1) + bs_rho (20#1) c) * bs_hi (100#1) c))%Q (-1#1000)%Q as Z2.
  row_upto Hc (fun c => bssa14_c_1 c + bssa14_c_2 c * (4#1) + (bssa14_c_3 c + bssa14_dc_3ct c) * bs_lo (20#1) c - bs_G c * ((-85833#312500) * bs_rho (20#1) c + (-994653#250000000) * ((1#1) + bs_rho (20#1) c) * bs_lo (20#1) c))%Q (-1#1000)%Q as Z3.
  row_upto Hc (fun c => bssa14_c_1 c + bssa14_c_2 c * (4#1) + (bssa14_c_3 c + bssa14_dc_3ct c) * bs_hi (100#1) c - bs_G c * ((-85833#312500) * bs_rho (20#1) c + (-994653#250000000) * ((1#1) + bs_rho (20#1) c) * bs_hi (100#1) c))%Q (-1#1000)%Q as Z4.
  set (G := Q2R (bs_G c)) in *. set (rho := Q2R (bs_rho (20#1) c)) in *. set (lo := Q2R (bs_lo (20#1) c)) in *. set (hi := Q2R (bs_hi (100#1) c)) in *.
  set (h := Q2R (bssa14_h c)) in *. set (c1 := Q2R (bssa14_c_1 c)) in *. set (c2 := Q2R (bssa14_c_2 c)) in *. set (k0 := Q2R (bssa14_c_3 c) + Q2R (bssa14_dc_3ct c)) in *.
  clearbody G rho lo hi h c1 c2 k0.
  apply (bs_zone_decr c1 c2 k h (-1.134) 0.1917 kp G 0.748 f2 E E' rho lo hi 20 100 m); try assumption; try lra.
  clear HP Zr2 Zl2 Zu2. intros M D HM HD. apply (zone_worst _ _ k k0 kp (-0.0106380)); try assumption; [lra|lra|lra|destruct HD; subst D; lra|].
  destruct HM as [HM|HM], HD as [HD|HD]; rewrite HM, HD; lra.
Qed.
Lemma zone_3 : zone_ok bssa14_dc_3ct (-0.0106380) 0.521 100 150.
Proof.
  intros c k kp m f2 E E' r1 r2 Hc Hk Hkp Hm Hf HG HP H1 H12 H2 f. unfold f. clear f.
  row_pos Hc bssa14_h as Zh. row_ge Hc (1#1)%Q (bs_rho (100#1)) as Zr. row_le Hc (fun c => (100#1) * (100#1) + bssa14_h c * bssa14_h c)%Q (fun c => bs_rho (100#1) c * ((100#1) * (100#1) + (45#10) * (45#10)))%Q as Zr2.
  row_ge Hc (0#1)%Q (bs_lo (100#1)) as Zl. row_le Hc (fun c => bs_lo (100#1) c * bs_lo (100#1) c)%Q (fun c => (100#1) * (100#1) + bssa14_h c * bssa14_h c)%Q as Zl2.
  row_ge Hc (0#1)%Q (bs_hi (150#1)) as Zu. row_le Hc (fun c => (150#1) * (150#1) + bssa14_h c * bssa14_h c)%Q (fun c => bs_hi (150#1) c * bs_hi (150#1) c)%Q as Zu2.
  row_upto Hc (fun c => bssa14_c_1 c + bssa14_c_2 c * (-15#10) + (bssa14_c_3 c + bssa14_dc_3ct c) * bs_lo (100#1) c - bs_G c * ((-14812551#20000000) * bs_rho (100#1) c + (-2771199#1000000000) * ((1#1) + bs_rho (100#1) c) * bs_lo (100#1) c))%Q (-1#1000)%Q as Z1.
  row_upto Hc (fun c => bssa14_c_1 c + bssa14_c_2 c * (-15#10) + (bssa14_c_3 c + bssa14_dc_3ct c) * bs_hi (150#1) c - bs_G c * ((-14812551#20000000) * bs_rho (100#1) c + (-2771199#1000000000) * ((1#1) + bs_rho (100#1) c) * bs_hi (150#1) c))%Q (-1#1000)%Q as Z2.
  row_upto Hc (fun c => bssa14_c_1 c + bssa14_c_2 c * (4#1) + (bssa14_c_3 c + bssa14_dc_3ct c) * bs_lo (100#1) c - bs_G c * ((-239139#1250000) * bs_rho (100#1) c + (-2771199#1000000000) * ((1#1) + bs_rho (100#1) c) * bs_lo (100#1) c))%Q (-1#1000)%Q as Z3.
  row_upto Hc (fun c => bssa14_c_1 c + bssa14_c_2 c * (4#1) + (bssa14_c_3 c + bssa14_dc_3ct c) * bs_hi (150#1) c - bs_G c * ((-239139#1250000) * bs_rho (100#1) c + (-2771199#1000000000) * ((1#1) + bs_rho (100#1) c) * bs_hi (150#1) c))%Q (-1#1000)%Q as Z4.
  set (G := Q2R (bs_G c)) in *. set (rho := Q2R (bs_rho (100#1) c)) in *. set (lo := Q2R (bs_lo (100#1) c)) in *. set (hi := Q2R (bs_hi (150#1) c)) in *.
  set (h := Q2R (bssa14_h c)) in *. set (c1 := Q2R (bssa14_c_1 c)) in *. set (c2 := Q2R (bssa14_c_2 c)) in *. set (k0 := Q2R (bssa14_c_3 c) + Q2R (bssa14_dc_3ct c)) in *.
  clearbody G rho lo hi h c1 c2 k0.
  apply (bs_zone_decr c1 c2 k h (-1.134) 0.1917 kp G 0.521 f2 E E' rho lo hi 100 150 m); try assumption; try lra.
  clear HP Zr2 Zl2 Zu2. intros M D HM HD. apply (zone_worst _ _ k k0 kp (-0.0106380)); try assumption; [lra|lra|lra|destruct HD; subst D; lra|].
  destruct HM as [HM|HM], HD as [HD|HD]; rewrite HM, HD; lra.
Qed.
Lemma zone_ct4 : zone_ok bssa14_dc_3ct (-0.0052304) 0.42 150 230.
Proof.
  intros c k kp m f2 E E' r1 r2 Hc Hk Hkp Hm Hf HG HP H1 H12 H2 f. unfold f. clear f.
  row_pos Hc bssa14_h as Zh. row_ge Hc (1#1)%Q (bs_rho (150#1)) as Zr. row_le Hc (fun c => (150#1) * (150#1) + bssa14_h c * bssa14_h c)%Q (fun c => bs_rho (150#1) c * ((150#1) * (150#1) + (45#10) * (45#10)))%Q as Zr2.
  row_ge Hc (0#1)%Q (bs_lo (150#1)) as Zl. row_le Hc (fun c => bs_lo (150#1) c * bs_lo (150#1) c)%Q (fun c => (150#1) * (150#1) + bssa14_h c * bssa14_h c)%Q as Zl2.
  row_ge Hc (0#1)%Q (bs_hi (230#1)) as Zu. row_le Hc (fun c => (230#1) * (230#1) + bssa14_h c * bssa14_h c)%Q (fun c => bs_hi (230#1) c * bs_hi (230#1) c)%Q as Zu2.
  row_upto Hc (fun c => bssa14_c_1 c + bssa14_c_2 c * (-15#10) + (bssa14_c_3 c + bssa14_dc_3ct c) * bs_lo (150#1) c - bs_G c * ((-597051#1000000) * bs_rho (150#1) c + (-68649#62500000) * ((1#1) + bs_rho (150#1) c) * bs_lo (150#1) c))%Q (-1#1000)%Q as Z1.
  row_upto Hc (fun c => bssa14_c_1 c + bssa14_c_2 c * (-15#10) + (bssa14_c_3 c + bssa14_dc_3ct c) * bs_hi (230#1) c - bs_G c * ((-597051#1000000) * bs_rho (150#1) c + (-68649#62500000) * ((1#1) + bs_rho (150#1) c) * bs_hi (230#1) c))%Q (-1#1000)%Q as Z2.
  row_upto Hc (fun c => bssa14_c_1 c + bssa14_c_2 c * (4#1) + (bssa14_c_3 c + bssa14_dc_3ct c) * bs_lo (150#1) c - bs_G c * ((-9639#62500) * bs_rho (150#1) c + (-68649#62500000) * ((1#1) + bs_rho (150#1) c) * bs_lo (150#1) c))%Q (-1#1000)%Q as Z3.
  row_upto Hc (fun c => bssa14_c_1 c + bssa14_c_2 c * (4#1) + (bssa14_c_3 c + bssa14_dc_3ct c) * bs_hi (230#1) c - bs_G c * ((-9639#62500) * bs_rho (150#1) c + (-68649#62500000) * ((1#1) + bs_rho (150#1) c) * bs_hi (230#1) c))%Q (-1#1000)%Q as Z4.
  set (G := Q2R (bs_G c)) in *. set (rho := Q2R (bs_rho (150#1) c)) in *. set (lo := Q2R (bs_lo (150#1) c)) in *. set (hi := Q2R (bs_hi (230#1) c)) in *.
  set (h := Q2R (bssa14_h c)) in *. set (c1 := Q2R (bssa14_c_1 c)) in *. set (c2 := Q2R (bssa14_c_2 c)) in *. set (k0 := Q2R (bssa14_c_3 c) + Q2R (bssa14_dc_3ct c)) in *.
  clearbody G rho lo hi h c1 c2 k0.
  apply (bs_zone_decr c1 c2 k h (-1.134) 0.1917 kp G 0.42 f2 E E' rho lo hi 150 230 m); try assumption; try lra.
  clear HP Zr2 Zl2 Zu2. intros M D HM HD. apply (zone_worst _ _ k k0 kp (-0.0052304)); try assumption; [lra|lra|lra|destruct HD; subst D; lra|].
  destruct HM as [HM|HM], HD as [HD|HD]; rewrite HM, HD; lra.
Qed.
Lemma zone_gl4 : zone_ok bs_dgi (-0.0106380) 0.42 150 300.
Proof.
  intros c k kp m f2 E E' r1 r2 Hc Hk Hkp Hm Hf HG HP H1 H12 H2 f. unfold f. clear f.
  row_pos Hc bssa14_h as Zh. row_ge Hc (1#1)%Q (bs_rho (150#1)) as Zr. row_le Hc (fun c => (150#1) * (150#1) + bssa14_h c * bssa14_h c)%Q (fun c => bs_rho (150#1) c * ((150#1) * (150#1) + (45#10) * (45#10)))%Q as Zr2.
  row_ge Hc (0#1)%Q (bs_lo (150#1)) as Zl. row_le Hc (fun c => bs_lo (150#1) c * bs_lo (150#1) c)%Q (fun c => (150#1) * (150#1) + bssa14_h c * bssa14_h c)%Q as Zl2.
  row_ge Hc (0#1)%Q (bs_hi (300#1)) as Zu. row_le Hc (fun c => (300#1) * (300#1) + bssa14_h c * bssa14_h c)%Q (fun c => bs_hi (300#1) c * bs_hi (300#1) c)%Q as Zu2.
  row_upto Hc (fun c => bssa14_c_1 c + bssa14_c_2 c * (-15#10) + (bssa14_c_3 c + bs_dgi c) * bs_lo (150#1) c - bs_G c * ((-597051#1000000) * bs_rho (150#1) c + (-111699#50000000) * ((1#1) + bs_rho (150#1) c) * bs_lo (150#1) c))%Q (-1#1000)%Q as Z1.
  row_upto Hc (fun c => bssa14_c_1 c + bssa14_c_2 c * (-15#10) + (bssa14_c_3 c + bs_dgi c) * bs_hi (300#1) c - bs_G c * ((-597051#1000000) * bs_rho (150#1) c + (-111699#50000000) * ((1#1) + bs_rho (150#1) c) * bs_hi (300#1) c))%Q (-1#1000)%Q as Z2.
  row_upto Hc (fun c => bssa14_c_1 c + bssa14_c_2 c * (4#1) + (bssa14_c_3 c + bs_dgi c) * bs_lo (150#1) c - bs_G c * ((-9639#62500) * bs_rho (150#1) c + (-111699#50000000) * ((1#1) + bs_rho (150#1) c) * bs_lo (150#1) c))%Q (-1#1000)%Q as Z3.
  row_upto Hc (fun c => bssa14_c_1 c + bssa14_c_2 c * (4#1) + (bssa14_c_3 c + bs_dgi c) * bs_hi (300#1) c - bs_G c * ((-9639#62500) * bs_rho (150#1) c + (-111699#50000000) * ((1#1) + bs_rho (150#1) c) * bs_hi (300#1) c))%Q (-1#1000)%Q as Z4.
  set (G := Q2R (bs_G c)) in *. set (rho := Q2R (bs_rho (150#1) c)) in *. set (lo := Q2R (bs_lo (150#1) c)) in *. set (hi := Q2R (bs_hi (300#1) c)) in *.
  set (h := Q2R (bssa14_h c)) in *. set (c1 := Q2R (bssa14_c_1 c)) in *. set (c2 := Q2R (bssa14_c_2 c)) in *. set (k0 := Q2R (bssa14_c_3 c) + Q2R (bs_dgi c)) in *.
  clearbody G rho lo hi h c1 c2 k0.
  apply (bs_zone_decr c1 c2 k h (-1.134) 0.1917 kp G 0.42 f2 E E' rho lo hi 150 300 m); try assumption; try lra.
  clear HP Zr2 Zl2 Zu2. intros M D HM HD. apply (zone_worst _ _ k k0 kp (-0.0106380)); try assumption; [lra|lra|lra|destruct HD; subst D; lra|].
  destruct HM as [HM|HM], HD as [HD|HD]; rewrite HM, HD; lra.
Qed.
Lemma bs_join (f : R -> R) b1 b2 b3 b4 : 0 < b1 -> b1 < b2 -> b2 < b3 -> b3 < b4 ->
  (forall u w, 0 <= u -> u < w -> w <= b1 -> f w < f u) -> (forall u w, b1 <= u -> u < w -> w <= b2 -> f w < f u) ->
  (forall u w, b2 <= u -> u < w -> w <= b3 -> f w < f u) -> (forall u w, b3 <= u -> u < w -> w <= b4 -> f w < f u) ->
  forall u w, 0 <= u -> u < w -> w <= b4 -> f w < f u.
Proof.
  intros B1 B2 B3 B4 H1 H2 H3 H4.
  assert (J : forall a b c, a < b -> b < c -> (forall u w, a <= u -> u < w -> w <= b -> f w < f u) -> (forall u w, b <= u -> u < w -> w <= c -> f w < f u) ->
    forall u w, a <= u -> u < w -> w <= c -> f w < f u).
  { intros a b c Hab Hbc K1 K2 u w Hu Huw Hw. destruct (Rle_dec w b); [apply K1; assumption|]. destruct (Rle_dec b u); [apply K2; assumption|].
    apply Rlt_trans with (f b); [apply K2|apply K1]; lra. }
  apply (J 0 b1 b4); try lra; [exact H1|]. apply (J b1 b2 b4); try lra; [exact H2|]. apply (J b2 b3 b4); try lra; assumption.
Qed.
Lemma bs_med_decr c a r1 r2 : In c bssa14_coeff -> 3 <= n_mag a <= 8.5 -> 180 <= n_v a -> 0 <= r1 -> r1 < r2 ->
  (r2 <= 230 \/ (bs_grp a = bssa14_dc_3global /\ r2 <= 300)) ->
  bs_med bssa14_pga_row c (with_jb a r2) < bs_med bssa14_pga_row c (with_jb a r1).
Proof.
  intros Hc Hm Hv H1 H12 H2. destruct (bs_G_ok c (n_v a) Hc Hv) as [G0 G1].
  destruct (bs_rock_form c a) as [E HE]. destruct (bs_rock_form bssa14_pga_row a) as [E' HE'].
  assert (P : forall r al s L p phi, 0 <= al <= r -> 0 < s -> s * s <= al * al + 4.5 * 4.5 -> L <= ln s -> 0 <= phi <= 1 ->
    exp (- 0.013 - 0.3672 * L - 0.0052 * (s - 1)) <= p -> p * (1 - phi) <= phi * 0.1 -> exp (bs_rock bssa14_pga_row (with_jb a r)) * (1 - phi) <= phi * 0.1).
  { intros. apply (bs_pga_zone a r al s L p); try assumption; lra. }
  assert (P1 : forall r, 0 <= r -> exp (bs_rock bssa14_pga_row (with_jb a r)) * (1 - 0.85) <= 0.85 * 0.1).
  { intros r Hr. apply (P r 0 4.5 1.504 0.558 0.85); try lra; interval with (i_prec 40). }
  assert (P2 : forall r, 20 <= r -> exp (bs_rock bssa14_pga_row (with_jb a r)) * (1 - 0.748) <= 0.748 * 0.1).
  { intros r Hr. apply (P r 20 20.49 3.0199 0.2965 0.748); try lra; interval with (i_prec 40). }
  assert (P3 : forall r, 100 <= r -> exp (bs_rock bssa14_pga_row (with_jb a r)) * (1 - 0.521) <= 0.521 * 0.1).
  { intros r Hr. apply (P r 100 100.1 4.606 0.1087 0.521); try lra; interval with (i_prec 40). }
  assert (P4 : forall r, 150 <= r -> exp (bs_rock bssa14_pga_row (with_jb a r)) * (1 - 0.42) <= 0.42 * 0.1).
  { intros r Hr. apply (P r 150 150.06 5.01 0.0724 0.42); try lra; interval with (i_prec 40). }
  clear P.
  unfold bs_med, bs_nonlin.
  replace (n_v (with_jb a r1)) with (n_v a) by (destruct a; reflexivity). replace (n_v (with_jb a r2)) with (n_v a) by (destruct a; reflexivity).
  replace (n_z1 (with_jb a r1)) with (n_z1 a) by (destruct a; reflexivity). replace (n_z1 (with_jb a r2)) with (n_z1 a) by (destruct a; reflexivity).
  set (f2 := Q2R (bssa14_f_4 c) * _) in *.
  assert (K : bs_rock c (with_jb a r2) + f2 * ln ((exp (bs_rock bssa14_pga_row (with_jb a r2)) + 0.1) / 0.1) < bs_rock c (with_jb a r1) + f2 * ln ((exp (bs_rock bssa14_pga_row (with_jb a r1)) + 0.1) / 0.1));
  [|generalize (bs_lin c (n_v a)) (bs_basin c (n_v a) (n_z1 a)); intros; lra].
  clearbody f2. rewrite !HE, !HE'.
  assert (Ps : forall r, bs_rock bssa14_pga_row (with_jb a r) = E' + bs_r (-1.134 + 0.1917 * (n_mag a - 4.5)) (-0.008088 + Q2R (bs_grp a bssa14_pga_row)) 4.5 r).
  { intros r. rewrite HE'. replace (Q2R (bssa14_c_1 bssa14_pga_row)) with (-1.134) by (unfold Q2R; cbn; lra). replace (Q2R (bssa14_c_2 bssa14_pga_row)) with 0.1917 by (unfold Q2R; cbn; lra).
    replace (Q2R (bssa14_c_3 bssa14_pga_row)) with (-0.008088) by (unfold Q2R; cbn; lra). replace (Q2R (bssa14_h bssa14_pga_row)) with 4.5 by (unfold Q2R; cbn; lra). reflexivity. }
  replace (Q2R (bssa14_c_1 bssa14_pga_row)) with (-1.134) by (unfold Q2R; cbn; lra). replace (Q2R (bssa14_c_2 bssa14_pga_row)) with 0.1917 by (unfold Q2R; cbn; lra).
  replace (Q2R (bssa14_c_3 bssa14_pga_row)) with (-0.008088) by (unfold Q2R; cbn; lra). replace (Q2R (bssa14_h bssa14_pga_row)) with 4.5 by (unfold Q2R; cbn; lra).
  assert (Gr : bs_grp a = bssa14_dc_3ct \/ bs_grp a = bssa14_dc_3ij \/ bs_grp a = bssa14_dc_3global).
  { unfold bs_grp. cbv zeta. destruct (_ || _)%bool; [auto|]. destruct (_ || _)%bool; auto. }
  assert (J : forall dc kp b4, bs_grp a = dc -> -0.008088 + Q2R (dc bssa14_pga_row) = kp -> 150 < b4 -> r2 <= b4 ->
    -0.0106380 <= kp <= 0 -> Q2R (dc c) <= Q2R (bssa14_dc_3ct c) -> (exists dc4 kp4, zone_ok dc4 kp4 0.42 150 b4 /\ kp4 <= kp /\ Q2R (dc c) <= Q2R (dc4 c)) ->
    E + bs_r (Q2R (bssa14_c_1 c) + Q2R (bssa14_c_2 c) * (n_mag a - 4.5)) (Q2R (bssa14_c_3 c) + Q2R (bs_grp a c)) (Q2R (bssa14_h c)) r2 + f2 * ln ((exp (E' + bs_r (-1.134 + 0.1917 * (n_mag a - 4.5)) (-0.008088 + Q2R (bs_grp a bssa14_pga_row)) 4.5 r2) + 0.1) / 0.1)
    < E + bs_r (Q2R (bssa14_c_1 c) + Q2R (bssa14_c_2 c) * (n_mag a - 4.5)) (Q2R (bssa14_c_3 c) + Q2R (bs_grp a c)) (Q2R (bssa14_h c)) r1 + f2 * ln ((exp (E' + bs_r (-1.134 + 0.1917 * (n_mag a - 4.5)) (-0.008088 + Q2R (bs_grp a bssa14_pga_row)) 4.5 r1) + 0.1) / 0.1)).
  { intros dc kp b4 Hdc Hk Hb4 Hr2 Hkp Hct (dc4 & kp4 & Z4 & Hkp4 & Hct4). rewrite Hdc in *. rewrite Hk in *.
    apply (bs_join (fun x => E + bs_r (Q2R (bssa14_c_1 c) + Q2R (bssa14_c_2 c) * (n_mag a - 4.5)) (Q2R (bssa14_c_3 c) + Q2R (dc c)) (Q2R (bssa14_h c)) x + f2 * ln ((exp (E' + bs_r (-1.134 + 0.1917 * (n_mag a - 4.5)) kp 4.5 x) + 0.1) / 0.1)) 20 100 150 b4); try lra.
    - intros u w U W B. apply (zone_1 c (Q2R (bssa14_c_3 c) + Q2R (dc c)) kp (n_mag a) f2 E E' u w); try assumption; try lra. intros r Hr. rewrite <- Ps. apply P1, Hr.
    - intros u w U W B. apply (zone_2 c (Q2R (bssa14_c_3 c) + Q2R (dc c)) kp (n_mag a) f2 E E' u w); try assumption; try lra. intros r Hr. rewrite <- Ps. apply P2, Hr.
    - intros u w U W B. apply (zone_3 c (Q2R (bssa14_c_3 c) + Q2R (dc c)) kp (n_mag a) f2 E E' u w); try assumption; try lra. intros r Hr. rewrite <- Ps. apply P3, Hr.
    - intros u w U W B. apply (Z4 c (Q2R (bssa14_c_3 c) + Q2R (dc c)) kp (n_mag a) f2 E E' u w); try assumption; try lra. intros r Hr. rewrite <- Ps. apply P4, Hr. }
  row_le Hc bssa14_dc_3ij bssa14_dc_3ct as B1. row_le Hc bssa14_dc_3global bssa14_dc_3ct as B2. row_le Hc bssa14_dc_3ij bs_dgi as B3. row_le Hc bssa14_dc_3global bs_dgi as B4.
  destruct Gr as [Gr|[Gr|Gr]].
  - refine (J _ (-0.0052304) 230 Gr _ _ _ _ _ _); [unfold Q2R; cbn; lra|lra| |lra|lra|exists bssa14_dc_3ct, (-0.0052304); split; [exact zone_ct4|split; lra]].
    destruct H2 as [H2|[H2 _]]; [exact H2|]. rewrite H2 in Gr. exfalso. apply (f_equal (fun g => Qeq_bool (g bssa14_pga_row) 0)) in Gr. vm_compute in Gr. discriminate.
  - refine (J _ (-0.0106380) 300 Gr _ _ _ _ _ _); [unfold Q2R; cbn; lra|lra| |lra|lra|exists bs_dgi, (-0.0106380); split; [exact zone_gl4|split; lra]].
    destruct H2 as [H2|[_ H2]]; lra.
  - refine (J _ (-0.0080880) 300 Gr _ _ _ _ _ _); [unfold Q2R; cbn; lra|lra| |lra|lra|exists bs_dgi, (-0.0106380); split; [exact zone_gl4|split; lra]].
    destruct H2 as [H2|[_ H2]]; lra.
Qed.
Lemma bs_decay_180 src1 src2 a r1 r2 : nga_gives src1 (with_jb a r1) -> nga_gives src2 (with_jb a r2) ->
  3 <= n_mag a <= 8.5 -> 180 <= n_v a -> 0 <= r1 -> r1 < r2 -> (r2 <= 230 \/ (bs_grp a = bssa14_dc_3global /\ r2 <= 300)) ->
  exists o1 o2, gmm_out (bssa14 src1) o1 /\ gmm_out (bssa14 src2) o2 /\ resp2 flt_lt o2 o1.
Proof.
  intros G1 G2 Hm Hv H1 H12 H2. do 2 eexists. split; [eapply reports_out, (bs_reports _ _ G1); destruct a; cbn in *; lra|]. split; [eapply reports_out, (bs_reports _ _ G2); destruct a; cbn in *; lra|].
  assert (K : forall c, In c bssa14_coeff -> flt_lt (Fin (exp (bs_med bssa14_pga_row c (with_jb a r2)))) (Fin (exp (bs_med bssa14_pga_row c (with_jb a r1))))).
  { intros c Hc. do 2 eexists. split; [reflexivity|]. split; [reflexivity|]. apply exp_increasing, bs_med_decr; assumption. }
  unfold resp2, rep_outs; cbn [o_sa o_pga o_pgv]. split; [apply Forall2_map_intro; intros c Hc|split]; apply K, bs_rows; [right; right; exact Hc|left; reflexivity|right; left; reflexivity].
Qed.
Lemma bs_grp_global a : In (bs_region_of a) ["global"; "california"; "new_zealand"; "taiwan"] -> bs_grp a = bssa14_dc_3global.
Proof. unfold bs_grp. cbn [In]. intros H. repeat destruct H as [<-|H]; try reflexivity. destruct H. Qed.
