(** * BSSA14 and magnitude on soil: lemmas for C116 *)
From Coquelicot Require Import Coquelicot.
From Interval Require Import Tactic.
From Coq Require Import List.
From Verif Require Import M_cy14 M_bssa14 FrameworkProofs Anal Nga Outs SpecNga P_cy14 P_bssa14 P_ngaspec Spec_cy14 Spec_bssa14 Properties_NGAPub P_ngacont P_ngamag.
Open Scope R_scope.
Open Scope string_scope.
Open Scope list_scope.

Definition bs_ev (h4 h5 h6 Mh m : R) : R := if Rle_dec m Mh then h4 * (m - Mh) + h5 * ((m - Mh) * (m - Mh)) else h6 * (m - Mh).
Lemma ev_lo h4 h5 h6 Mh m : m <= Mh -> bs_ev h4 h5 h6 Mh m = h4 * (m - Mh) + h5 * ((m - Mh) * (m - Mh)).
Proof. intros H. unfold bs_ev. destruct (Rle_dec m Mh); [reflexivity|lra]. Qed.
Lemma ev_hi h4 h5 h6 Mh m : Mh <= m -> bs_ev h4 h5 h6 Mh m = h6 * (m - Mh).
Proof. intros H. unfold bs_ev. destruct (Rle_dec m Mh); [replace (m - Mh) with 0 by lra; ring|reflexivity]. Qed.
Lemma lin_pos a b A B t : a < b -> a <= t <= b -> 0 < A + B * a -> 0 < A + B * b -> 0 < A + B * t.
Proof.
  intros Hab Ht Ha Hb. destruct (Rle_dec 0 B).
  - assert (B * a <= B * t) by (apply Rmult_le_compat_l; lra). lra.
  - assert (0 <= - B * (b - t)) by (apply Rmult_le_pos; lra). lra.
Qed.
Lemma lin_pos' a b A B t : a <= b -> a <= t <= b -> 0 < A + B * a -> 0 < A + B * b -> 0 < A + B * t.
Proof. intros Hab Ht Ha Hb. destruct (Req_dec a b) as [->|]; [replace t with b by lra; exact Hb|apply (lin_pos a b); try assumption; lra]. Qed.
(** The growth of an ordinate on rock exceeds [F] times that of PGA. *)
Lemma bs_comp e4 e5 e6 Mh c2 p4 p5 p6 q2 F Lr Lp lam m1 m2 :
  0 <= F -> Lp + lam <= Lr -> 1.504 <= Lp -> 0 <= c2 -> 0 <= c2 - F * q2 -> 5.5 <= Mh ->
  let K := (c2 - F * q2) * 1.504 + c2 * lam in
  0 < e4 + e5 * (- 2 * Mh) - F * (p4 - 11 * p5) + K -> 0 < e4 + e5 * (11 - 2 * Mh) - F * p4 + K ->
  0 < e4 + e5 * (11 - 2 * Mh) - F * p6 + K -> 0 < e4 - F * p6 + K -> 0 < e6 - F * p6 + K ->
  0 <= m1 -> m1 < m2 ->
  F * (bs_ev p4 p5 p6 5.5 m2 - bs_ev p4 p5 p6 5.5 m1 + q2 * (m2 - m1) * Lp)
  < bs_ev e4 e5 e6 Mh m2 - bs_ev e4 e5 e6 Mh m1 + c2 * (m2 - m1) * Lr.
Proof.
  intros HF HL HLp Hc Hcq HM K A1 A2 B1 B2 C1 H0 H12.
  set (K' := c2 * Lr - F * q2 * Lp).
  assert (HK : K <= K').
  { unfold K, K'. assert (c2 * (Lp + lam) <= c2 * Lr) by (apply Rmult_le_compat_l; lra).
    assert (0 <= (c2 - F * q2) * (Lp - 1.504)) by (apply Rmult_le_pos; lra). lra. }
  set (f := fun m => bs_ev e4 e5 e6 Mh m - F * bs_ev p4 p5 p6 5.5 m + K' * m).
  assert (Q : f m1 < f m2); [|unfold f, K' in Q; clear - Q; lra].
  clearbody K'. clear HL HLp. 
  apply (incr_join (fun m => 0 <= m) f 5.5); try (lra || assumption || (intros; lra)).
  - intros u w Hu Hw Huw Hb. unfold f. rewrite !ev_lo by lra.
    assert (0 < (w - u) * ((e4 - e5 * (2 * Mh) - F * (p4 - 11 * p5) + K') + (e5 - F * p5) * (u + w))).
    { apply Rmult_lt_0_compat; [lra|]. apply (lin_pos 0 11); lra. } lra.
  - intros u w Hu Hw Hb Huw. 
    apply (incr_join (fun m => 5.5 <= m) f Mh); try (lra || (intros; lra)); clear u w Hu Hw Hb Huw.
    + intros u w Hu Hw Huw Hb. unfold f. rewrite !(ev_lo e4) by lra. rewrite !(ev_hi p4) by lra.
      assert (0 < (w - u) * ((e4 - e5 * (2 * Mh) - F * p6 + K') + e5 * (u + w))).
      { apply Rmult_lt_0_compat; [lra|]. apply (lin_pos' 11 (2 * Mh)); lra. } lra.
    + intros u w Hu Hw Hb Huw. unfold f. rewrite !ev_hi by lra.
      assert (0 < (w - u) * (e6 - F * p6 + K')) by (apply Rmult_lt_0_compat; lra). lra.
Qed.
Lemma exp_cubic x : 0 <= x <= 1 -> exp x <= 1 + x + x * x / 2 + x * x * x / 4.
Proof.
  intros Hx. set (g := fun x => (1 + x + x * x / 2 + x * x * x / 4) * exp (- x)).
  assert (G : g 0 <= g x).
  { destruct (Req_dec x 0) as [->|N]; [lra|].
    destruct (MVT_gen g 0 x (fun x => (x * x / 4) * (1 - x) * exp (- x))) as (c & Hc & E).
    - intros t _. unfold g. auto_derive; [trivial|]. field.
    - intros t _. unfold g. apply continuity_pt_filterlim. apply (ex_derive_continuous (fun x => (1 + x + x * x / 2 + x * x * x / 4) * exp (- x))). auto_derive. trivial.
    - rewrite Rmin_left, Rmax_right in Hc by lra.
      assert (0 <= (c * c / 4) * (1 - c) * exp (- c) * (x - 0)); [|lra].
      repeat apply Rmult_le_pos; try lra. left; apply exp_pos. }
  unfold g in G. replace ((1 + 0 + 0 * 0 / 2 + 0 * 0 * 0 / 4) * exp (- 0)) with 1 in G by (rewrite Ropp_0, exp_0; lra).
  apply (Rmult_le_compat_r (exp x)) in G; [|left; apply exp_pos]. rewrite Rmult_assoc, <- exp_plus in G. replace (- x + x) with 0 in G by ring. rewrite exp_0 in G. lra.
Qed.
(** Row constants: [bs_lam] bounds ln (h / 4.5) from below, [bs_F] the strength of nonlinearity at 300 m/s from above. *)
Definition bs_lam (c : bssa14_row) : Q := if Qle_bool (45#10) (bssa14_h c) then 0 else let q := ((bssa14_h c - (45#10)) / bssa14_h c)%Q in ((Qnum q * 10000 / Zpos (Qden q)) # 10000)%Z.
Definition bs_n4 (c : bssa14_row) : Q := (if Qle_bool (bssa14_f_4 c) 0 then - bssa14_f_4 c else 0)%Q.
(** [rup n q] rounds up to a multiple of 1/n, which keeps the denominators small. *)
Definition rup (n : positive) (q : Q) : Q := ((Qnum q * Zpos n / Zpos (Qden q) + 1) # n)%Z.
Definition bs_F' (c : bssa14_row) : Q :=
  (let x := - (60#1) * bssa14_f_5 c in bs_n4 c * ((97#100) + x + x * x * (1#2) + x * x * x * (1#4)))%Q.
Definition bs_F (c : bssa14_row) : Q := rup 10000 (bs_F' c).
Definition bs_K (c : bssa14_row) : Q := ((bssa14_c_2 c - bs_F c * (1917#10000)) * (1504#1000) + bssa14_c_2 c * bs_lam c)%Q.
Lemma bs_dist c r : In c bssa14_coeff -> 0 <= r ->
  1.504 <= ln (sqrt (r * r + 4.5 * 4.5)) /\ ln (sqrt (r * r + 4.5 * 4.5)) + Q2R (bs_lam c) <= ln (sqrt (r * r + Q2R (bssa14_h c) * Q2R (bssa14_h c))).
Proof.
  intros Hc Hr. assert (B : 0 <= r * r) by (apply Rmult_le_pos; exact Hr). row_ge Hc (4#1)%Q bssa14_h as Hh.
  row_upto Hc bs_lam (0#1)%Q as L0. row_le Hc (fun c => bs_lam c * bssa14_h c)%Q (fun c => bssa14_h c - (45#10))%Q as L1.
  set (h := Q2R (bssa14_h c)) in *. set (l := Q2R (bs_lam c)) in *. clearbody h l.
  rewrite !ln_sqrt_half by nra. split.
  - assert (ln (4.5 * 4.5) <= ln (r * r + 4.5 * 4.5)) by (apply ln_le; lra). assert (3.008 <= ln (4.5 * 4.5)) by interval with (i_prec 40). lra.
  - destruct (Rle_dec 4.5 h).
    + assert (ln (r * r + 4.5 * 4.5) <= ln (r * r + h * h)) by (apply ln_le; nra). lra.
    + assert (P : 0 < r * r + h * h) by nra. 
      assert (T : ln (r * r + 4.5 * 4.5) <= ln ((r * r + h * h) * ((4.5 / h) * (4.5 / h)))).
      { apply ln_le; [nra|]. assert (E : (4.5 / h) * (4.5 / h) = (4.5 * 4.5) / (h * h)) by (field; lra). rewrite E.
        apply Rmult_le_reg_r with (h * h); [nra|]. unfold Rdiv. replace ((r * r + h * h) * (4.5 * 4.5 * / (h * h)) * (h * h)) with ((r * r + h * h) * (4.5 * 4.5)) by (field; lra).
        assert (0 <= (r * r) * (4.5 * 4.5 - h * h)) by (apply Rmult_le_pos; nra). lra. }
      assert (P4 : 0 < 4.5 / h) by (apply Rdiv_lt_0_compat; lra).
      rewrite ln_mult in T by (try apply Rmult_lt_0_compat; assumption). rewrite ln_mult in T by assumption.
      assert (ln (4.5 / h) <= 4.5 / h - 1). { pose proof (exp_ineq1_le (ln (4.5 / h))) as E. rewrite exp_ln in E by assumption. lra. }
      assert (4.5 / h - 1 <= - l).
      { apply Rmult_le_reg_r with h; [lra|]. replace ((4.5 / h - 1) * h) with (4.5 - h) by (field; lra). lra. }
      lra.
Qed.
Lemma bs_F_ok c v : In c bssa14_coeff -> 300 <= v -> 0 <= Q2R (bs_F c) /\
  - Q2R (bs_F c) <= Q2R (bssa14_f_4 c) * (exp (Q2R (bssa14_f_5 c) * (Rmin v 760 - 360)) - exp (Q2R (bssa14_f_5 c) * (760 - 360))).
Proof.
  intros Hc Hv. row_ge Hc (0#1)%Q bs_n4 as F4. row_ge Hc (0#1)%Q (fun c => bs_n4 c + bssa14_f_4 c)%Q as F4'. row_upto Hc bssa14_f_5 (0#1)%Q as F5. row_ge Hc (-85#10000)%Q bssa14_f_5 as F5'.
  assert (M : 300 <= Rmin v 760 <= 760) by (split; [apply Rmin_glb; lra|apply Rmin_r]). set (w := Rmin v 760) in *. clearbody w.
  row_le Hc bs_F' bs_F as FF. set (FF1 := Q2R (bs_F c)) in *. clearbody FF1.
  match goal with |- _ /\ _ <= ?z => cut (0 <= Q2R (bs_F' c) /\ - Q2R (bs_F' c) <= z); [clear - FF; intros [? ?]; split; lra|] end. clear FF.
  unfold bs_F'. cbv zeta. rewrite !Q2R_mult, !Q2R_plus, !Q2R_mult, !Q2R_opp. 
  replace (Q2R (97#100)) with 0.97 by (unfold Q2R; cbn; lra). replace (Q2R (60#1)) with 60 by (unfold Q2R; cbn; lra).
  replace (Q2R (1#2)) with 0.5 by (unfold Q2R; cbn; lra). replace (Q2R (1#4)) with 0.25 by (unfold Q2R; cbn; lra).
  set (f4 := Q2R (bssa14_f_4 c)) in *. set (n4 := Q2R (bs_n4 c)) in *. set (f5 := Q2R (bssa14_f_5 c)) in *. clearbody f4 n4 f5. set (x := Ropp 60 * f5) in *.
  assert (X : 0 <= x <= 1) by (unfold x; lra). pose proof (exp_cubic x X) as C.
  assert (E1 : exp (f5 * (w - 360)) <= exp x) by (apply exp_le_mono; unfold x; nra).
  assert (E2 : exp (f5 * (760 - 360)) <= exp (f5 * (w - 360))) by (apply exp_le_mono; nra).
  assert (E3 : 0.03 <= exp (f5 * (760 - 360))) by (apply Rle_trans with (exp (-3.4)); [interval with (i_prec 40)|apply exp_le_mono; lra]).
  set (a := exp (f5 * (760 - 360))) in *. set (b := exp (f5 * (w - 360))) in *. 
  assert (0 <= x * x) by (apply Rmult_le_pos; lra). assert (0 <= x * x * x) by (apply Rmult_le_pos; lra).
  clearbody a b. set (y := exp x) in *. clearbody y. split.
  - apply Rmult_le_pos; lra.
  - assert (0 <= n4 * ((0.97 + x + x * x * 0.5 + x * x * x * 0.25) - (b - a))) by (apply Rmult_le_pos; lra).
    assert (0 <= (n4 + f4) * (b - a)) by (apply Rmult_le_pos; lra). lra.
Qed.
Lemma bs_med_grows c a m1 m2 : In c bssa14_coeff -> 300 <= n_v a -> 0 <= n_jb a -> 0 <= m1 -> m1 < m2 ->
  bs_med bssa14_pga_row c (with_mag a m1) < bs_med bssa14_pga_row c (with_mag a m2).
Proof.
  intros Hc Hv Hj H0 H12. pose proof bssa14_pga_in as Hp. pose proof (bs_rock_grows _ a m1 m2 Hp Hj H0 H12) as G.
  destruct (bs_F_ok c (n_v a) Hc Hv) as [F0 F1]. destruct (bs_dist c (n_jb a) Hc Hj) as [D0 D1].
  assert (B : Q2R (bs_F c) * (bs_rock bssa14_pga_row (with_mag a m2) - bs_rock bssa14_pga_row (with_mag a m1)) < bs_rock c (with_mag a m2) - bs_rock c (with_mag a m1)).
  { clear F1 G. unfold bs_rock, bssa14_event_spec, bssa14_path_spec, bs_mech_of, bs_region_of. nga_split a. nga_cbn.
    set (mc := option_of _ _ a_me). set (rg := option_of _ _ a_re).
    set (k1 := (_ + (if (_ || _)%bool then _ else _))). set (k2 := (Q2R (bssa14_c_3 c) + (if (_ || _)%bool then _ else _))).
    set (ev1 := if String.eqb mc "SS" then Q2R (bssa14_e_1 c) else _). set (ev2 := if String.eqb mc "SS" then Q2R (bssa14_e_1 bssa14_pga_row) else _).
    clearbody mc rg ev1 ev2 k1 k2. cbv zeta.
    replace (Q2R (bssa14_h bssa14_pga_row)) with 4.5 by (unfold Q2R; cbn; lra).
    replace (Q2R (bssa14_M_h bssa14_pga_row)) with 5.5 by (unfold Q2R; cbn; lra).
    replace (Q2R (bssa14_e_4 bssa14_pga_row)) with 1.431 by (unfold Q2R; cbn; lra).
    replace (Q2R (bssa14_e_5 bssa14_pga_row)) with 0.05053 by (unfold Q2R; cbn; lra).
    replace (Q2R (bssa14_e_6 bssa14_pga_row)) with (-0.1662) by (unfold Q2R; cbn; lra).
    replace (Q2R (bssa14_c_2 bssa14_pga_row)) with 0.1917 by (unfold Q2R; cbn; lra).
    set (Lr := ln (sqrt (_ + Q2R (bssa14_h c) * _))) in *. set (Lp := ln (sqrt (_ + 4.5 * _))) in *. clearbody Lr Lp.
    generalize (sqrt (a_j * a_j + 4.5 * 4.5)) (sqrt (a_j * a_j + Q2R (bssa14_h c) * Q2R (bssa14_h c))) (Q2R (bssa14_c_1 bssa14_pga_row)) (Q2R (bssa14_c_1 c)).
    row_ge Hc (0#1)%Q bssa14_c_2 as C2. row_ge Hc (0#1)%Q (fun c => bssa14_c_2 c - bs_F c * (1917#10000))%Q as C3. row_ge Hc (55#10)%Q bssa14_M_h as M5.
    row_ge Hc (1#10000)%Q (fun c => bssa14_e_4 c + bssa14_e_5 c * (- (2#1) * bssa14_M_h c) - bs_F c * ((1431#1000) - (11#1) * (5053#100000)) + ((bssa14_c_2 c - bs_F c * (1917#10000)) * (1504#1000) + bssa14_c_2 c * bs_lam c))%Q as A1.
    row_ge Hc (1#10000)%Q (fun c => bssa14_e_4 c + bssa14_e_5 c * ((11#1) - (2#1) * bssa14_M_h c) - bs_F c * (1431#1000) + ((bssa14_c_2 c - bs_F c * (1917#10000)) * (1504#1000) + bssa14_c_2 c * bs_lam c))%Q as A2.
    row_ge Hc (1#10000)%Q (fun c => bssa14_e_4 c + bssa14_e_5 c * ((11#1) - (2#1) * bssa14_M_h c) + bs_F c * (1662#10000) + ((bssa14_c_2 c - bs_F c * (1917#10000)) * (1504#1000) + bssa14_c_2 c * bs_lam c))%Q as B1.
    row_ge Hc (1#10000)%Q (fun c => bssa14_e_4 c + bs_F c * (1662#10000) + ((bssa14_c_2 c - bs_F c * (1917#10000)) * (1504#1000) + bssa14_c_2 c * bs_lam c))%Q as B2.
    row_ge Hc (1#10000)%Q (fun c => bssa14_e_6 c + bs_F c * (1662#10000) + ((bssa14_c_2 c - bs_F c * (1917#10000)) * (1504#1000) + bssa14_c_2 c * bs_lam c))%Q as C1.
    intros s1 s2 c1 c1'.
    set (F := Q2R (bs_F c)) in *. set (e4 := Q2R (bssa14_e_4 c)) in *. set (e5 := Q2R (bssa14_e_5 c)) in *. set (e6 := Q2R (bssa14_e_6 c)) in *.
    set (c2 := Q2R (bssa14_c_2 c)) in *. set (Mh := Q2R (bssa14_M_h c)) in *. set (lam := Q2R (bs_lam c)) in *. clearbody F e4 e5 e6 c2 Mh lam.
    pose proof (bs_comp e4 e5 e6 Mh c2 1.431 0.05053 (-0.1662) 0.1917 F Lr Lp lam m1 m2) as X. cbv zeta in X.
    assert (Y : F * (bs_ev 1.431 0.05053 (-0.1662) 5.5 m2 - bs_ev 1.431 0.05053 (-0.1662) 5.5 m1 + 0.1917 * (m2 - m1) * Lp) <
      bs_ev e4 e5 e6 Mh m2 - bs_ev e4 e5 e6 Mh m1 + c2 * (m2 - m1) * Lr) by (apply X; clear X; lra). clear - Y.
    unfold bs_ev in Y. lra. }
  unfold bs_med, bs_nonlin.
  replace (n_v (with_mag a m1)) with (n_v a) by (destruct a; reflexivity). replace (n_v (with_mag a m2)) with (n_v a) by (destruct a; reflexivity).
  replace (n_z1 (with_mag a m1)) with (n_z1 a) by (destruct a; reflexivity). replace (n_z1 (with_mag a m2)) with (n_z1 a) by (destruct a; reflexivity).
  set (f2 := Q2R (bssa14_f_4 c) * _) in *. set (F := Q2R (bs_F c)) in *.
  set (p1 := bs_rock bssa14_pga_row (with_mag a m1)) in *. set (p2 := bs_rock bssa14_pga_row (with_mag a m2)) in *.
  set (r1 := bs_rock c (with_mag a m1)) in *. set (r2 := bs_rock c (with_mag a m2)) in *.
  generalize (bs_lin c (n_v a)) (bs_basin c (n_v a) (n_z1 a)). clearbody f2 F p1 p2 r1 r2. clear - F0 F1 G B. intros x y.
  assert (D : 0 <= ln ((exp p2 + 0.1) / 0.1) - ln ((exp p1 + 0.1) / 0.1) <= p2 - p1).
  { pose proof (site_incr p1 p2 0.1 0 ltac:(lra) ltac:(lra) G). pose proof (exp_pos p1). pose proof (exp_increasing p1 p2 G).
    rewrite !ln_div by lra. split.
    - assert (ln (exp p1 + 0.1) <= ln (exp p2 + 0.1)) by (apply ln_le; lra). lra.
    - assert (L : ln (exp p2 + 0.1) <= ln ((exp p1 + 0.1) * exp (p2 - p1))).
      { apply ln_le; [lra|]. rewrite Rmult_plus_distr_r, <- exp_plus. replace (p1 + (p2 - p1)) with p2 by lra. pose proof (exp_ineq1_le (p2 - p1)). lra. }
      rewrite ln_mult, ln_exp in L by (lra || apply exp_pos). lra. }
  set (l1 := ln ((exp p1 + 0.1) / 0.1)) in *. set (l2 := ln ((exp p2 + 0.1) / 0.1)) in *. clearbody l1 l2.
  assert (0 <= (f2 + F) * (l2 - l1)) by (apply Rmult_le_pos; lra). assert (0 <= F * ((p2 - p1) - (l2 - l1))) by (apply Rmult_le_pos; lra). lra.
Qed.
Lemma bs_grows_300 src1 src2 a m1 m2 : nga_gives src1 (with_mag a m1) -> nga_gives src2 (with_mag a m2) ->
  300 <= n_v a -> 0 <= n_jb a -> 0 <= m1 -> m1 < m2 ->
  exists o1 o2, gmm_out (bssa14 src1) o1 /\ gmm_out (bssa14 src2) o2 /\ resp2 flt_lt o1 o2.
Proof.
  intros G1 G2 Hv Hj H0 H12. do 2 eexists. split; [eapply reports_out, (bs_reports _ _ G1); destruct a; cbn in *; lra|]. split; [eapply reports_out, (bs_reports _ _ G2); destruct a; cbn in *; lra|].
  assert (K : forall c, In c bssa14_coeff -> flt_lt (Fin (exp (bs_med bssa14_pga_row c (with_mag a m1)))) (Fin (exp (bs_med bssa14_pga_row c (with_mag a m2))))).
  { intros c Hc. do 2 eexists. split; [reflexivity|]. split; [reflexivity|]. apply exp_increasing, bs_med_grows; assumption. }
  unfold resp2, rep_outs; cbn [o_sa o_pga o_pgv]. split; [apply Forall2_map_intro; intros c Hc|split]; apply K, bs_rows; [right; right; exact Hc|left; reflexivity|right; left; reflexivity].
Qed.
Definition bssa14_015 : bssa14_row := nth 32 bssa14_psa bssa14_pga_row.
Lemma bs_soft_med a : 150 <= n_v a <= 200 -> 0 <= n_jb a <= 1 ->
  bs_med bssa14_pga_row bssa14_015 (with_mag a 8) + 0.011 <= bs_med bssa14_pga_row bssa14_015 (with_mag a 7).
Proof.
  intros Hv Hj.
  assert (P : exists p, 0.35 <= exp p /\ bs_rock bssa14_pga_row (with_mag a 7) = p /\
     bs_rock bssa14_pga_row (with_mag a 8) = p + (-0.1662 + 0.1917 * ln (sqrt (n_jb a * n_jb a + 4.5 * 4.5)))).
  { unfold bs_rock, bssa14_event_spec, bssa14_path_spec, bs_mech_of, bs_region_of. nga_split a. nga_cbn.
    set (mc := option_of _ _ a_me). set (rg := option_of _ _ a_re). cbv zeta.
    replace (Q2R (bssa14_h bssa14_pga_row)) with 4.5 by (unfold Q2R; cbn; lra).
    replace (Q2R (bssa14_M_h bssa14_pga_row)) with 5.5 by (unfold Q2R; cbn; lra).
    replace (Q2R (bssa14_e_6 bssa14_pga_row)) with (-0.1662) by (unfold Q2R; cbn; lra).
    replace (Q2R (bssa14_c_2 bssa14_pga_row)) with 0.1917 by (unfold Q2R; cbn; lra).
    replace (Q2R (bssa14_c_1 bssa14_pga_row)) with (-1.134) by (unfold Q2R; cbn; lra).
    destruct (Rle_dec 7 5.5); [lra|]. destruct (Rle_dec 8 5.5); [lra|].
    set (k1 := (_ + (if (_ || _)%bool then _ else _))). set (ev1 := if String.eqb mc "SS" then Q2R (bssa14_e_1 bssa14_pga_row) else _).
    assert (K1 : -0.01065 <= k1) by (unfold k1; destruct (_ || _)%bool; [|destruct (_ || _)%bool]; unfold Q2R; cbn; lra).
    assert (E1 : 0.2459 <= ev1) by (unfold ev1; destruct (String.eqb mc "SS"); [|destruct (String.eqb mc "NS"); [|destruct (String.eqb mc "RS")]]; unfold Q2R; cbn; lra).
    clearbody k1 ev1. set (S := sqrt _). assert (HS : 4.5 <= S <= 4.61) by (unfold S; split; interval with (i_prec 40)). clearbody S.
    eexists. split; [|split; [reflexivity|ring]].
    apply Rle_trans with (exp (ln 0.35)); [rewrite exp_ln; lra|]. apply exp_le_mono.
    assert (HL : 1.504 <= ln S <= 1.5283) by (split; interval with (i_prec 40)). assert (ln 0.35 <= -1.0498) by interval with (i_prec 40).
    assert (-0.0387 <= k1 * (S - 1)) by nra. set (L := ln S) in *. clearbody L. lra. }
  destruct P as (p & P0 & P1 & P2).
  assert (Rk : bs_rock bssa14_015 (with_mag a 8) = bs_rock bssa14_015 (with_mag a 7) + (-0.18234 + 0.15401 * ln (sqrt (n_jb a * n_jb a + 4.39 * 4.39)))).
  { unfold bs_rock, bssa14_event_spec, bssa14_path_spec, bs_mech_of, bs_region_of. nga_split a. nga_cbn.
    set (mc := option_of _ _ a_me). set (rg := option_of _ _ a_re). cbv zeta.
    change bssa14_015 with ltac:(let x := eval cbv in bssa14_015 in exact x). cbn [bssa14_M_h bssa14_h bssa14_c_1 bssa14_c_2 bssa14_e_4 bssa14_e_5 bssa14_e_6].
    replace (Q2R (574#100)) with 5.74 by (unfold Q2R; cbn; lra). replace (Q2R (439#100)) with 4.39 by (unfold Q2R; cbn; lra).
    replace (Q2R (-18234#100000)) with (-0.18234) by (unfold Q2R; cbn; lra). replace (Q2R (15401#100000)) with 0.15401 by (unfold Q2R; cbn; lra).
    destruct (Rle_dec 7 5.74); [lra|]. destruct (Rle_dec 8 5.74); [lra|]. ring. }
  unfold bs_med. rewrite Rk, P1, P2. unfold bs_nonlin.
  replace (n_v (with_mag a 7)) with (n_v a) by (destruct a; reflexivity). replace (n_v (with_mag a 8)) with (n_v a) by (destruct a; reflexivity).
  replace (n_z1 (with_mag a 7)) with (n_z1 a) by (destruct a; reflexivity). replace (n_z1 (with_mag a 8)) with (n_z1 a) by (destruct a; reflexivity).
  generalize (bs_lin bssa14_015 (n_v a)) (bs_basin bssa14_015 (n_v a) (n_z1 a)) (bs_rock bssa14_015 (with_mag a 7)). intros x y z.
  replace (Q2R (bssa14_f_4 bssa14_015)) with (-0.25713) by (unfold Q2R; cbn; lra). replace (Q2R (bssa14_f_5 bssa14_015)) with (-0.00585) by (unfold Q2R; cbn; lra).
  rewrite Rmin_left by lra. set (v := n_v a) in *. set (j := n_jb a) in *. clearbody v j. clear a P1 P2 Rk.
  assert (F2 : -0.25713 * (exp (-0.00585 * (v - 360)) - exp (-0.00585 * (760 - 360))) <= -0.6307).
  { assert (exp (-0.00585 * (200 - 360)) <= exp (-0.00585 * (v - 360))) by (apply exp_le_mono; lra).
    assert (2.5497 <= exp (-0.00585 * (200 - 360))) by interval with (i_prec 40). assert (exp (-0.00585 * (760 - 360)) <= 0.0964) by interval with (i_prec 40). lra. }
  set (f2 := -0.25713 * _) in *. clearbody f2.
  set (Lp := ln (sqrt (j * j + 4.5 * 4.5))). set (Lr := ln (sqrt (j * j + 4.39 * 4.39))).
  assert (HP : 1.504 <= Lp <= 1.5283) by (unfold Lp; split; interval with (i_prec 40)).
  assert (HR : Lr <= 1.5049) by (unfold Lr; interval with (i_prec 40)). clearbody Lp Lr.
  set (d := -0.1662 + 0.1917 * Lp) in *.
  assert (D : 0.096 <= ln ((exp (p + d) + 0.1) / 0.1) - ln ((exp p + 0.1) / 0.1)).
  { rewrite !ln_div by (pose proof (exp_pos p); pose proof (exp_pos (p + d)); lra). rewrite exp_plus. set (q := exp p) in *. clearbody q.
    assert (Ed : 1.1298 <= exp d) by (apply Rle_trans with (exp 0.1221); [interval with (i_prec 40)|apply exp_le_mono; unfold d; lra]).
    assert (L : ln ((q + 0.1) * exp 0.096) <= ln (q * exp d + 0.1)).
    { apply ln_le; [apply Rmult_lt_0_compat; [lra|apply exp_pos]|]. assert (exp 0.096 <= 1.1008) by interval with (i_prec 40).
      assert (0 <= (q + 0.1) * (1.1008 - exp 0.096)) by (apply Rmult_le_pos; lra). assert (0 <= q * (exp d - 1.1298)) by (apply Rmult_le_pos; lra). lra. }
    rewrite ln_mult, ln_exp in L by (lra || apply exp_pos). lra. }
  set (l2 := ln ((exp (p + d) + 0.1) / 0.1)) in *. set (l1 := ln ((exp p + 0.1) / 0.1)) in *. clearbody l1 l2 d.
  assert (0 <= (-0.6307 - f2) * (l2 - l1)) by (apply Rmult_le_pos; lra). lra.
Qed.
Lemma bs_soft_falls src1 src2 a : nga_gives src1 (with_mag a 7) -> nga_gives src2 (with_mag a 8) -> 150 <= n_v a <= 200 -> 0 <= n_jb a <= 1 ->
  exists g1 g2 ps y1 y2 sa1 sa2, result (bssa14 src1) = Ok g1 /\ result (bssa14 src2) = Ok g2 /\
    result (g_periods g1) = Ok ps /\ result (g_periods g2) = Ok ps /\ nth_error ps 32 = Some (Fin 0.15) /\
    result (g_spec_accels g1) = Ok sa1 /\ result (g_spec_accels g2) = Ok sa2 /\ nth_error sa1 32 = Some (Fin y1) /\ nth_error sa2 32 = Some (Fin y2) /\
    0 < y2 < 0.99 * y1.
Proof.
  intros G1 G2 Hv Hj.
  destruct (bs_reports _ _ G1) as (g1 & E1 & Ep1 & Es1 & _); [destruct a; cbn in *; lra|].
  destruct (bs_reports _ _ G2) as (g2 & E2 & Ep2 & Es2 & _); [destruct a; cbn in *; lra|].
  exists g1, g2. do 5 eexists. split; [exact E1|]. split; [exact E2|]. split; [exact Ep1|]. split; [exact Ep2|].
  split; [rewrite nth_error_map; change (nth_error bssa14_psa 32) with (Some bssa14_015); cbn [option_map]; do 2 f_equal; unfold Q2R; cbn; lra|].
  split; [exact Es1|]. split; [exact Es2|].
  split; [rewrite nth_error_map; change (nth_error bssa14_psa 32) with (Some bssa14_015); cbn [option_map]; reflexivity|].
  split; [rewrite nth_error_map; change (nth_error bssa14_psa 32) with (Some bssa14_015); cbn [option_map]; reflexivity|].
  split; [apply exp_pos|]. pose proof (bs_soft_med a Hv Hj) as M.
  set (u := bs_med bssa14_pga_row bssa14_015 (with_mag a 8)) in *. set (w := bs_med bssa14_pga_row bssa14_015 (with_mag a 7)) in *. clearbody u w.
  apply Rle_lt_trans with (exp (w - 0.011)); [apply exp_le_mono; lra|].
  unfold Rminus. rewrite exp_plus. pose proof (exp_pos w). assert (exp (Ropp 0.011) < 0.99) by (interval with (i_prec 40)). rewrite Rmult_comm. apply Rmult_lt_compat_r; assumption.
Qed.
