(** * Proofs for Pinilla-Ramos et al. (2024), continued *)
From Coquelicot Require Import Coquelicot.
From Interval Require Import Tactic.
From Coq Require Import List.
From Verif Require P_pr23.
From Verif Require Import M_pr24 FrameworkProofs Anal Nga Spec_pr24 P_hkr14 Cont Cont1 P_pr24.
Open Scope R_scope.
Open Scope string_scope.
Open Scope list_scope.

Notation row a k := (nth k (rows24 (k_ev a)) pr24_row0).
Lemma coeff_is a e : pr24_coeff (pev a) e = row a (amin e).
Proof. unfold pr24_coeff, pev, amin. generalize (argmin (map (fun c => fabs (qf (f_energy c) - e)%flt) pr24_interface)). intros k. destruct (k_ev a); reflexivity. Qed.
Lemma split_power x a : eq24_ok a -> 0 < ratio24 x a -> let n := n24 (k_ev a) in
  let F := Rpower (ratio24 x a) n * Rpower (median24 a) n in
  let u := sigma24 a / Rpower (median24 a) n in let w := n * Q2R (f_sigma_c x) / ratio24 x a in
  Rpower (ratio24 x a * median24 a) n = F /\ 0 < F /\ sigma_cond24 x a = sqrt (F ^ 2 * (u ^ 2 + w ^ 2 + 2 * Q2R (f_rho x) * (u * w))).
Proof.
  intros K P. cbv zeta. pose proof (median_low a K) as HM. set (n := n24 (k_ev a)). pose proof (Rpower_pos (median24 a) n) as M3. pose proof (Rpower_pos (ratio24 x a) n) as F3.
  split; [rewrite Rpower_mult_distr by lra; reflexivity|]. split; [apply Rmult_lt_0_compat; assumption|].
  unfold sigma_cond24. fold n. cbv zeta. apply (f_equal sqrt). replace (Rpower (ratio24 x a) (n - 1)) with (Rpower (ratio24 x a) n / ratio24 x a).
  - generalize dependent (Rpower (median24 a) n). generalize dependent (Rpower (ratio24 x a) n). intros F F3 M M3. field. lra.
  - unfold Rminus. rewrite Rpower_plus, Rpower_Ropp, Rpower_1 by exact P. reflexivity.
Qed.
Lemma minus_ok a k : eq24_ok a -> (k < 18)%nat -> let x := row a k in 0 < sigma_cond24 x a < Rpower (ratio24 x a * median24 a) (n24 (k_ev a)).
Proof.
  intros K H. cbv zeta. destruct (row_ratio a k K H) as (P & W & Rho & _). set (x := row a k) in *. cbv zeta in *.
  destruct (split_power x a K ltac:(lra)) as (-> & HF & ->). pose proof (mn_gt a K) as HM. pose proof (sigma_range a K) as S.
  set (n := n24 (k_ev a)) in *. set (F := Rpower (ratio24 x a) n * Rpower (median24 a) n) in *.
  assert (0 < sigma24 a / Rpower (median24 a) n <= 0.27) as U.
  { split; [apply Rdiv_lt_0_compat; lra|]. apply Rmult_le_reg_r with (Rpower (median24 a) n); [lra|]. unfold Rdiv. rewrite Rmult_assoc, Rinv_l by lra. nra. }
  assert (0 <= n * Q2R (f_sigma_c x) / ratio24 x a <= 0.25) as W'.
  { split; [apply Rmult_le_pos; [lra|left; apply Rinv_0_lt_compat; lra]|]. apply Rmult_le_reg_r with (ratio24 x a); [lra|]. unfold Rdiv. rewrite Rmult_assoc, Rinv_l by lra. lra. }
  generalize dependent (n * Q2R (f_sigma_c x) / ratio24 x a). intros w W'. generalize dependent (sigma24 a / Rpower (median24 a) n). intros u U.
  generalize dependent (Q2R (f_rho x)). intros rho Rho. clearbody F. clear - U W' Rho HF.
  assert (0 <= u * w) by nra.
  assert (- (0.61 * (u * w)) <= rho * (u * w) <= 0.61 * (u * w)) by nra.
  assert (u ^ 2 + w ^ 2 + 2 * (rho * (u * w)) < 1) as Hi by nra.
  assert (0 < u ^ 2 + w ^ 2 + 2 * (rho * (u * w))) as Lo.
  { pose proof (pow2_ge_0 (u - w)). assert (0 < u ^ 2) by nra. pose proof (pow2_ge_0 w). nra. }
  replace (u ^ 2 + w ^ 2 + 2 * rho * (u * w)) with (u ^ 2 + w ^ 2 + 2 * (rho * (u * w))) by ring.
  assert (0 < F ^ 2) as F2 by nra. split.
  - apply sqrt_lt_R0. apply Rmult_lt_0_compat; assumption.
  - rewrite <- (sqrt_pow2 F) at 2 by lra. apply sqrt_lt_1; [|lra|]; nra.
Qed.
Lemma cond_fin a e : eq24_ok a -> ~ near75 e -> let x := row a (amin (Fin e)) in let n := n24 (k_ev a) in let M := ratio24 x a * median24 a in
  calc a (Fin e) = (Fin M, Fin (plus24 n M (sigma_cond24 x a)), Fin (minus24 n M (sigma_cond24 x a))).
Proof.
  intros K N. cbv zeta. unfold pr24_calc. destruct (np_isclose (Fin e) (Fin 0.75)) eqn:I; [apply P_pr23.isclose75 in I; contradiction|].
  pose proof (eq24_v a K). rewrite median_fin, sigma_fin by (try apply K; assumption). rewrite coeff_is, n_is. destruct (amin_spec e) as ((L & _) & _).
  set (k := amin (Fin e)) in *. clearbody k. destruct (row_ratio a k K L) as (P & W & Rho & _). pose proof (minus_ok a k K L) as Q. cbv zeta in *. set (x := row a k) in *.
  unfold qf. rewrite fdiv_fin by lra. rewrite flog_fin by (apply Rdiv_lt_0_compat; lra). fcbn. rewrite fdiv_100. fcbn. set (n := n24 (k_ev a)) in *.
  replace (Q2R (f_c_median x) + Q2R (f_a0 x) + Q2R (f_m1 x) * k_m a + Q2R (f_r1 x) * k_r a / 100 + Q2R (f_v1 x) * ln (k_v a / 3100)) with (ratio24 x a) by (unfold ratio24; lra).
  pose proof (median_low a K) as HM. assert (0 < ratio24 x a * median24 a) as HP by (apply Rmult_lt_0_compat; lra).
  rewrite !(Rmult_comm (median24 a) (ratio24 x a)). rewrite !fpow_fin by lra. fcbn.
  match goal with |- context [fsqrt (Fin ?t)] => assert (sigma_cond24 x a = sqrt t) as V end.
  { unfold sigma_cond24. fold n. cbv zeta. apply (f_equal sqrt). replace (2 * n) with (n + n) by ring.
    replace (n + n - 2) with ((n - 1) + (n - 1)) by ring. replace (n + n - 1) with (n + (n - 1)) by ring. rewrite !Rpower_plus. ring. }
  match goal with |- context [fsqrt (Fin ?t)] => assert (0 <= t) as V0 end.
  { match goal with |- 0 <= ?t => destruct (Rle_dec 0 t) as [|C]; [assumption|] end. exfalso. rewrite sqrt_neg_0 in V by lra. lra. }
  rewrite fsqrt_fin by exact V0. rewrite <- V. fcbn. pose proof (Rpower_pos (ratio24 x a * median24 a) n).
  rewrite !fpow_fin by lra. reflexivity.
Qed.
Lemma row75 a : eq24_ok a -> let x := row a 13 in ratio24 x a = 1 /\ sigma_cond24 x a = sigma24 a.
Proof.
  intros K. cbv zeta. assert (ratio24 (row a 13) a = 1) as E.
  { unfold ratio24. destruct (k_ev a); cbn [nth rows24 pr24_interface pr24_slab f_energy f_c_median f_a0 f_m1 f_r1 f_v1]; unfold Q2R; cbn [Qnum Qden]; lra. }
  split; [exact E|]. unfold sigma_cond24. cbv zeta. rewrite E.
  replace (Q2R (f_sigma_c (row a 13))) with 0 by (destruct (k_ev a); cbn [nth rows24 pr24_interface pr24_slab f_sigma_c]; unfold Q2R; cbn [Qnum Qden]; lra).
  replace (Rpower 1 (n24 (k_ev a))) with 1 by (unfold Rpower; rewrite ln_1, Rmult_0_r, exp_0; reflexivity).
  match goal with |- sqrt ?t = _ => replace t with (sigma24 a ^ 2) by ring end. apply sqrt_pow2. pose proof (sigma_range a K). lra.
Qed.
Definition triple24 (a : eq24) (x : pr24_row) : flt * flt * flt :=
  (Fin (ratio24 x a * median24 a), Fin (plus24 (n24 (k_ev a)) (ratio24 x a * median24 a) (sigma_cond24 x a)), Fin (minus24 (n24 (k_ev a)) (ratio24 x a * median24 a) (sigma_cond24 x a))).
Lemma near75_dec e : near75 e \/ ~ near75 e.
Proof. unfold P_pr23.near75. lra. Qed.
Lemma calc_triple a e : eq24_ok a -> calc a (Fin e) = triple24 a (row a (amin (Fin e))).
Proof.
  intros K. destruct (near75_dec e) as [N|N]; [|apply cond_fin; assumption].
  rewrite (base_fin a e K N). destruct (near75_idx e N) as (_ & ->). unfold triple24. destruct (row75 a K) as (-> & ->). rewrite Rmult_1_l. reflexivity.
Qed.
Lemma qf_thr k : (k < 18)%nat -> qf (f_energy (nth k pr24_interface pr24_row0)) = Fin (thr k).
Proof. intros H. unfold qf. rewrite <- (row_thr Interface k H). reflexivity. Qed.
Lemma for_energy_in a d e : eq24_ok a -> 0.10 <= e <= 0.95 ->
  result (pr24_for_energy (Pr24 (pr24_start (Fin (k_m a)) (Fin (k_r a)) (Fin (k_v a)) (pev a) (pre a)) d) (Fin e)) = Ok (triple24 a (row a (amin (Fin e)))).
Proof.
  intros K H. unfold pr24_for_energy. cbn [fltb pr24_scen]. rewrite !Rltb_false by lra. cbn [orb]. rewrite pr24_eval_ok. cbn [result ret].
  destruct (existsb _ pr24_interface); [rewrite (calc_triple a e K); reflexivity|]. destruct (amin_spec e) as ((L & _) & _).
  assert (A : argmin (map (fun c => fabs (qf (f_energy c) - Fin e)%flt) pr24_interface) = amin (Fin e)) by (unfold amin; exact eq_refl). rewrite A. clear A. generalize dependent (amin (Fin e)). intros k L.
  rewrite (qf_thr _ L), (calc_triple a _ K), (amin_thr _ L). reflexivity.
Qed.
