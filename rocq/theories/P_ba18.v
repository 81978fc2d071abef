(** * Proofs for Bayless & Abrahamson (2018) *)
From Coquelicot Require Import Coquelicot.
From Interval Require Import Tactic.
From Coq Require Import List.
From Verif Require Import M_ba18 FrameworkProofs Anal GmmLib Spec_cms Spec_ba18 P_bj08 P_k17b P_dbc14 P_dbc14b.
Open Scope R_scope.
Open Scope list_scope.

Lemma ba_incr : incr (map (fun c => Q2R (ba18_freq_hz c)) ba18_coeff).
Proof. rewrite <- (map_map ba18_freq_hz Q2R). apply NpProofs.incrQ_incr. vm_compute. reflexivity. Qed.
Lemma ba_interp col f : exists y, ba_table col f y /\ ba18_interp col (Fin f) = Fin y.
Proof.
  destruct (np_interp_linear (fun c => Q2R (ba18_freq_hz c)) (fun c => Q2R (col c)) ba18_coeff f ltac:(discriminate) ba_incr) as (y & L & E).
  exists y. split; [exact L|exact E].
Qed.
Lemma between_bounds col lo hi f y : forallb (fun c => Qle_bool lo (col c) && Qle_bool (col c) hi) ba18_coeff = true ->
  ba_table col f y -> Q2R lo <= y <= Q2R hi.
Proof.
  intros H L. apply (linear_between _ _ _ _ _ (fun y => Q2R lo <= y <= Q2R hi)) with (3 := L).
  - intros a b k A B K. nra.
  - apply Forall_forall. intros c Hc. rewrite forallb_forall in H. specialize (H c Hc). apply andb_true_iff in H. destruct H as [H1 H2].
    apply Qle_bool_iff in H1, H2. split; apply Qle_Rle; assumption.
Qed.
Ltac ba_bound H := apply between_bounds in H; [|vm_compute; reflexivity].
Lemma q2r_dec n d : Q2R (n # d) = IZR n / IZR (Zpos d). Proof. reflexivity. Qed.
Lemma ba_A f y : ba_table ba18_A f y -> 1.04 <= y <= 1.97.
Proof. intros H. apply (between_bounds _ (104 # 100) (197 # 100)) in H; [|vm_compute; reflexivity]. rewrite !q2r_dec in H. lra. Qed.
Lemma ba_B f y : ba_table ba18_B f y -> -1.17 <= y <= -0.54.
Proof. intros H. apply (between_bounds _ (-117 # 100) (-54 # 100)) in H; [|vm_compute; reflexivity]. rewrite !q2r_dec in H. lra. Qed.
Lemma ba_C f y : ba_table ba18_C f y -> 0.89 <= y <= 1.69.
Proof. intros H. apply (between_bounds _ (89 # 100) (169 # 100)) in H; [|vm_compute; reflexivity]. rewrite !q2r_dec in H. lra. Qed.
Lemma ba_D f y : ba_table ba18_D f y -> -53.3 <= y <= -10.4.
Proof. intros H. apply (between_bounds _ (-533 # 10) (-104 # 10)) in H; [|vm_compute; reflexivity]. rewrite !q2r_dec in H. lra. Qed.

Lemma tanh_pos x : 0 < x -> 0 < tanh x.
Proof.
  intros H. unfold tanh, sinh, cosh. pose proof (exp_pos x). pose proof (exp_pos (- x)).
  assert (exp (- x) < exp x) by (apply exp_increasing; lra). apply Rdiv_lt_0_compat; lra.
Qed.
Lemma tanh_incr x y : x < y -> tanh x < tanh y.
Proof.
  intros H. unfold tanh, sinh, cosh. pose proof (exp_pos x). pose proof (exp_pos (- x)). pose proof (exp_pos y). pose proof (exp_pos (- y)).
  assert (exp x < exp y) by (apply exp_increasing; lra). assert (exp (- y) < exp (- x)) by (apply exp_increasing; lra).
  apply Rminus_gt_0_lt.
  replace (_ - _) with ((exp y * exp (- x) - exp x * exp (- y)) * 2 / ((exp x + exp (- x)) * (exp y + exp (- y)))) by (field; lra).
  apply Rdiv_lt_0_compat; [|nra]. nra.
Qed.
Lemma tanh_le x y : x <= y -> tanh x <= tanh y.
Proof. intros [H| ->]; [left; apply tanh_incr, H|right; reflexivity]. Qed.

(** One entry. *)
Definition ba_val (a b c d f1 f2 : R) : R := tanh (a * exp (b * Rabs (ln (f1 / f2))) + c * exp (d * Rabs (ln (f1 / f2)))).
Lemma abs_ln_sym f1 f2 : 0 < f1 -> 0 < f2 -> Rabs (ln (f1 / f2)) = Rabs (ln (f2 / f1)).
Proof.
  intros H1 H2. rewrite <- Rabs_Ropp. f_equal. unfold Rdiv. rewrite !ln_mult, !ln_Rinv by (assumption || apply Rinv_0_lt_compat; assumption). ring.
Qed.
Lemma ba_entry_fin f1 f2 : 0 < f1 -> 0 < f2 -> exists r, ba_rho f1 f2 r /\ ba18_entry (Fin f1) (Fin f2) = Fin r.
Proof.
  intros H1 H2. unfold ba18_entry. rewrite fdiv_fin by lra. rewrite flog_fin by (apply Rdiv_lt_0_compat; assumption). fcbn.
  destruct (ba_interp ba18_A (Rmin f1 f2)) as (a & TA & ->). destruct (ba_interp ba18_B (Rmin f1 f2)) as (b & TB & ->).
  destruct (ba_interp ba18_C (Rmin f1 f2)) as (c & TC & ->). destruct (ba_interp ba18_D (Rmin f1 f2)) as (d & TD & ->).
  fcbn. eexists. split; [exists a, b, c, d; repeat split; eassumption|]. reflexivity.
Qed.
Lemma ba_entry_sym f1 f2 : 0 < f1 -> 0 < f2 -> ba18_entry (Fin f1) (Fin f2) = ba18_entry (Fin f2) (Fin f1).
Proof.
  intros H1 H2. unfold ba18_entry. rewrite !fdiv_fin by lra. rewrite !flog_fin by (apply Rdiv_lt_0_compat; assumption).
  fcbn. rewrite (abs_ln_sym f1 f2), (Rmin_comm f1 f2) by assumption. reflexivity.
Qed.
Lemma ba_rho_range f1 f2 r : ba_rho f1 f2 r -> 0 < r < 0.9987.
Proof.
  intros (a & b & c & d & A & B & C & D & ->). apply ba_A in A. apply ba_B in B. apply ba_C in C. apply ba_D in D.
  set (x := Rabs _). assert (X : 0 <= x) by apply Rabs_pos. clearbody x.
  assert (E1 : 0 < exp (b * x) <= 1) by (split; [apply exp_pos|rewrite <- exp_0; apply exp_le_mono; nra]).
  assert (E2 : 0 < exp (d * x) <= 1) by (split; [apply exp_pos|rewrite <- exp_0; apply exp_le_mono; nra]).
  split; [apply tanh_pos; nra|]. eapply Rle_lt_trans; [apply (tanh_le _ 3.66); nra|].
  unfold tanh, sinh, cosh. clear; interval with (i_prec 40).
Qed.

(** Tables. *)
Lemma nth_error_seq n i : (i < n)%nat -> nth_error (seq 0 n) i = Some i.
Proof. intros H. rewrite (nth_error_nth' _ 0%nat) by (rewrite seq_length; exact H). f_equal. rewrite seq_nth by exact H. reflexivity. Qed.
Lemma entry_mtab n f i j : (i < n)%nat -> (j < n)%nat -> entry (mtab n f) i j = Some (f i j).
Proof.
  intros Hi Hj. unfold entry, mtab. rewrite nth_error_map, nth_error_seq by exact Hi. cbn [option_map].
  rewrite nth_error_map, nth_error_seq by exact Hj. reflexivity.
Qed.
Lemma nth_mtab n f i j : (i < n)%nat -> (j < n)%nat -> nth j (nth i (mtab n f) []) NaN = f i j.
Proof.
  intros Hi Hj. pose proof (entry_mtab n f i j Hi Hj) as E. unfold entry in E.
  destruct (nth_error (mtab n f) i) as [r|] eqn:R; [|discriminate]. rewrite (nth_error_nth _ _ _ R). apply (nth_error_nth _ _ _ E).
Qed.
Lemma square_mtab n f : square n (mtab n f).
Proof.
  unfold square, mtab. rewrite map_length, seq_length. split; [reflexivity|].
  apply Forall_map_intro. intros i _. rewrite map_length, seq_length. reflexivity.
Qed.
Lemma half_sum x : ((Fin x + Fin x) / Fin 2)%flt = Fin x.
Proof. fcbn. rewrite fdiv_fin by lra. apply (f_equal Fin). field. Qed.

Lemma nth_Fin (freqs : list R) i f : nth_error freqs i = Some f -> nth i (map Fin freqs) NaN = Fin f /\ (i < List.length freqs)%nat.
Proof.
  intros H. split; [apply (nth_error_nth (map Fin freqs) i); rewrite nth_error_map, H; reflexivity|].
  apply nth_error_Some. rewrite H. discriminate.
Qed.
Lemma ba_corr_square freqs : square (List.length freqs) (ba18_corr freqs).
Proof. apply square_mtab. Qed.
Lemma ba_corr_entry freqs i j fi fj : Forall (fun f => 0 < f) freqs -> nth_error freqs i = Some fi -> nth_error freqs j = Some fj ->
  exists r, entry (ba18_corr (map Fin freqs)) i j = Some (Fin r) /\ (i = j -> r = 1) /\ (i <> j -> ba_rho fi fj r).
Proof.
  intros F Hi Hj. rewrite Forall_forall in F. pose proof (F _ (nth_error_In _ _ Hi)) as Pi. pose proof (F _ (nth_error_In _ _ Hj)) as Pj.
  destruct (nth_Fin _ _ _ Hi) as [Ni Li]. destruct (nth_Fin _ _ _ Hj) as [Nj Lj].
  unfold ba18_corr. rewrite entry_mtab by (rewrite map_length; assumption). rewrite (Nat.eqb_sym j i), Ni, Nj.
  destruct (Nat.eqb_spec i j) as [E|E].
  - exists 1. rewrite half_sum. split; [reflexivity|]. split; [reflexivity|]. intros N; contradiction.
  - rewrite (ba_entry_sym fj fi) by assumption. destruct (ba_entry_fin fi fj Pi Pj) as (r & R & ->). exists r.
    rewrite half_sum. split; [reflexivity|]. split; [intros N; contradiction|]. intros _; exact R.
Qed.
Lemma fadd_comm x y : fadd x y = fadd y x.
Proof. destruct x, y; cbn; try reflexivity. apply (f_equal Fin). ring. Qed.
Lemma ba_corr_sym freqs i j : entry (ba18_corr freqs) i j = entry (ba18_corr freqs) j i.
Proof.
  destruct (ba_corr_square freqs) as [L F].
  assert (G : forall i j, (List.length freqs <= i)%nat \/ (List.length freqs <= j)%nat -> entry (ba18_corr freqs) i j = None).
  { clear i j. intros i j H. unfold entry. destruct (nth_error (ba18_corr freqs) i) as [r|] eqn:E; [|reflexivity].
    assert (Hi : (i < List.length (ba18_corr freqs))%nat) by (apply nth_error_Some; rewrite E; discriminate). rewrite L in Hi.
    apply nth_error_None. rewrite Forall_forall in F. rewrite (F r (nth_error_In _ _ E)). lia. }
  destruct (le_lt_dec (List.length freqs) i); [rewrite !G by auto; reflexivity|].
  destruct (le_lt_dec (List.length freqs) j); [rewrite !G by auto; reflexivity|].
  unfold ba18_corr. rewrite !entry_mtab by assumption. rewrite fadd_comm. reflexivity.
Qed.

(** Decay with separation at a fixed lower frequency. *)
Lemma ba_entry_decay f g1 g2 : 0 < f -> f <= g1 -> g1 < g2 -> exists r1 r2,
  ba18_entry (Fin f) (Fin g1) = Fin r1 /\ ba18_entry (Fin f) (Fin g2) = Fin r2 /\ r2 < r1.
Proof.
  intros H0 H1 H2. unfold ba18_entry. rewrite !fdiv_fin by lra. rewrite !flog_fin by (apply Rdiv_lt_0_compat; lra). fcbn.
  rewrite !Rmin_left by lra.
  destruct (ba_interp ba18_A f) as (a & A & ->). destruct (ba_interp ba18_B f) as (b & B & ->).
  destruct (ba_interp ba18_C f) as (c & C & ->). destruct (ba_interp ba18_D f) as (d & D & ->).
  apply ba_A in A. apply ba_B in B. apply ba_C in C. apply ba_D in D. fcbn. eexists _, _. split; [reflexivity|]. split; [reflexivity|].
  rewrite (abs_ln_sym f g1), (abs_ln_sym f g2) by lra.
  assert (1 <= g1 / f) by (apply Rmult_le_reg_r with f; [lra|]; unfold Rdiv; rewrite Rmult_assoc, Rinv_l by lra; lra).
  assert (g1 / f < g2 / f) by (apply Rmult_lt_compat_r; [apply Rinv_0_lt_compat; lra|lra]).
  assert (0 <= ln (g1 / f)) by (rewrite <- ln_1; apply ln_le; lra).
  assert (ln (g1 / f) < ln (g2 / f)) by (apply ln_increasing; lra).
  rewrite !Rabs_pos_eq by lra. apply tanh_incr.
  assert (exp (b * ln (g2 / f)) < exp (b * ln (g1 / f))) by (apply exp_increasing; nra).
  assert (exp (d * ln (g2 / f)) < exp (d * ln (g1 / f))) by (apply exp_increasing; nra).
  nra.
Qed.
Lemma ba_decay freqs i j k f g1 g2 : Forall (fun f => 0 < f) freqs -> nth_error freqs i = Some f -> nth_error freqs j = Some g1 -> nth_error freqs k = Some g2 ->
  f <= g1 -> g1 < g2 -> exists r1 r2, entry (ba18_corr (map Fin freqs)) i j = Some (Fin r1) /\ entry (ba18_corr (map Fin freqs)) i k = Some (Fin r2) /\ r2 < r1.
Proof.
  intros F Hi Hj Hk H1 H2. pose proof F as F'. rewrite Forall_forall in F'. pose proof (F' _ (nth_error_In _ _ Hi)) as Pi.
  destruct (nth_Fin _ _ _ Hi) as [Ni Li]. destruct (nth_Fin _ _ _ Hj) as [Nj Lj]. destruct (nth_Fin _ _ _ Hk) as [Nk Lk].
  destruct (ba_entry_decay f g1 g2 Pi H1 H2) as (r1 & r2 & E1 & E2 & R).
  assert (NK : i <> k) by (intros ->; rewrite Hi in Hk; injection Hk; lra).
  assert (EK : entry (ba18_corr (map Fin freqs)) i k = Some (Fin r2)).
  { unfold ba18_corr. rewrite entry_mtab by (rewrite map_length; assumption). rewrite (Nat.eqb_sym k i), Ni, Nk.
    destruct (Nat.eqb_spec i k); [contradiction|]. rewrite (ba_entry_sym g2 f) by lra. rewrite E2, half_sum. reflexivity. }
  destruct (Nat.eq_dec i j) as [->|NJ].
  - exists 1, r2. destruct (ba_corr_entry freqs j j _ _ F Hj Hj) as (r & E & X & _). rewrite E, (X eq_refl). split; [reflexivity|]. split; [exact EK|].
    destruct (ba_corr_entry freqs j k _ _ F Hj Hk) as (r' & E' & _ & X'). rewrite EK in E'. injection E' as <-. pose proof (ba_rho_range _ _ _ (X' NK)). lra.
  - exists r1, r2. split; [|split; [exact EK|exact R]].
    unfold ba18_corr. rewrite entry_mtab by (rewrite map_length; assumption). rewrite (Nat.eqb_sym j i), Ni, Nj.
    destruct (Nat.eqb_spec i j); [contradiction|]. rewrite (ba_entry_sym g1 f) by lra. rewrite E1, half_sum. reflexivity.
Qed.

(** A frequency listed twice. *)
Lemma ba_twice freqs i j f : Forall (fun f => 0 < f) freqs -> nth_error freqs i = Some f -> nth_error freqs j = Some f -> i <> j ->
  exists r, entry (ba18_corr (map Fin freqs)) i j = Some (Fin r) /\ 0.95 < r < 0.9987.
Proof.
  intros F Hi Hj N. destruct (ba_corr_entry freqs i j f f F Hi Hj) as (r & E & _ & X). specialize (X N). exists r. split; [exact E|].
  split; [|apply (ba_rho_range f f), X]. rewrite Forall_forall in F. pose proof (F _ (nth_error_In _ _ Hi)) as P.
  destruct X as (a & b & c & d & A & _ & C & _ & ->). apply ba_A in A. apply ba_C in C.
  replace (f / f) with 1 by (field; lra). rewrite ln_1, Rabs_R0, !Rmult_0_r, exp_0.
  eapply Rlt_le_trans; [|apply (tanh_le 1.93); lra]. unfold tanh, sinh, cosh. clear; interval with (i_prec 40).
Qed.

(** *** Covariance *)
Lemma ba_cov_arr freqs stds comp : Forall (fun f => 0 < f) freqs -> List.length stds = List.length freqs ->
  exists m, ba18_cov (map Fin freqs) (SArr (map Fin stds)) comp = Ok m /\ square (List.length freqs) m /\
    forall i j fi fj si sj, nth_error freqs i = Some fi -> nth_error freqs j = Some fj -> nth_error stds i = Some si -> nth_error stds j = Some sj ->
      exists r, entry (ba18_corr (map Fin freqs)) i j = Some (Fin r) /\ entry m i j = Some (Fin (r * si * sj)).
Proof.
  intros F L. unfold ba18_cov. rewrite !map_length. replace (match comp with Some _ => _ | None => _ end) with (Ok (SArr (map Fin stds))) by (destruct comp; reflexivity).
  cbn [ba18_full]. rewrite map_length, L, Nat.eqb_refl. eexists. split; [reflexivity|]. split; [apply square_mtab|].
  intros i j fi fj si sj Hi Hj Si Sj. destruct (ba_corr_entry freqs i j fi fj F Hi Hj) as (r & E & _). exists r. split; [exact E|].
  destruct (nth_Fin _ _ _ Hi) as [_ Li]. destruct (nth_Fin _ _ _ Hj) as [_ Lj]. destruct (nth_Fin _ _ _ Si) as [Ni _]. destruct (nth_Fin _ _ _ Sj) as [Nj _].
  rewrite entry_mtab by assumption. rewrite Ni, Nj. f_equal. unfold entry in E.
  destruct (nth_error (ba18_corr (map Fin freqs)) i) as [row|] eqn:R; [|discriminate].
  rewrite (nth_error_nth _ _ _ R), (nth_error_nth _ _ _ E). fcbn. apply (f_equal Fin). ring.
Qed.
Lemma ba_cov_num freqs s comp : Forall (fun f => 0 < f) freqs ->
  exists m, ba18_cov (map Fin freqs) (SNum (Fin s)) comp = Ok m /\ square (List.length freqs) m /\
    forall i j fi fj, nth_error freqs i = Some fi -> nth_error freqs j = Some fj ->
      exists r, entry (ba18_corr (map Fin freqs)) i j = Some (Fin r) /\ entry m i j = Some (Fin (r * s ^ 2)).
Proof.
  intros F. unfold ba18_cov. rewrite !map_length. replace (match comp with Some _ => _ | None => _ end) with (Ok (SNum (Fin s))) by (destruct comp; reflexivity).
  cbn [ba18_full]. eexists. split; [reflexivity|]. split; [apply square_mtab|].
  intros i j fi fj Hi Hj. destruct (ba_corr_entry freqs i j fi fj F Hi Hj) as (r & E & _). exists r. split; [exact E|].
  destruct (nth_Fin _ _ _ Hi) as [_ Li]. destruct (nth_Fin _ _ _ Hj) as [_ Lj].
  rewrite entry_mtab by assumption. f_equal. unfold entry in E.
  destruct (nth_error (ba18_corr (map Fin freqs)) i) as [row|] eqn:R; [|discriminate].
  rewrite (nth_error_nth _ _ _ R), (nth_error_nth _ _ _ E). fcbn. apply (f_equal Fin). ring.
Qed.
Lemma ba_interp_list col freqs : exists ys, map (ba18_interp col) (map Fin freqs) = map Fin ys /\ Forall2 (ba_table col) freqs ys.
Proof.
  induction freqs as [|f freqs IH]; [exists []; split; constructor|]. destruct IH as (ys & E & T). destruct (ba_interp col f) as (y & L & Ey).
  exists (y :: ys). cbn [map]. rewrite Ey, E. split; [reflexivity|constructor; assumption].
Qed.
Lemma ba_cov_component freqs name col : ba18_column name = Some col -> exists stds, Forall2 (ba_table col) freqs stds /\
  ba18_cov (map Fin freqs) SNone (Some name) = ba18_cov (map Fin freqs) (SArr (map Fin stds)) None.
Proof.
  intros H. destruct (ba_interp_list col freqs) as (ys & E & T). exists ys. split; [exact T|].
  unfold ba18_cov. rewrite H, E. reflexivity.
Qed.
