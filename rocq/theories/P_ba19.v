(** * Proofs for Bayless & Abrahamson (2019) *)
From Coquelicot Require Import Coquelicot.
From Interval Require Import Tactic.
From Coq Require Import List.
From Verif Require Import ArgMin M_ba19 FrameworkProofs Anal Nga NpProofs Spec_hkr14 Spec_cms P_k17 Spec_ba19.
Open Scope R_scope.
Open Scope string_scope.
Open Scope list_scope.

(** ** The table *)
Definition full (c : ba19_row) : bool :=
  forallb (fun o => match o with Some _ => true | None => false end)
    [ba19_c1 c; ba19_c2 c; ba19_c3 c; ba19_cn c; ba19_cM c; ba19_c4 c; ba19_c5 c; ba19_c6 c; ba19_chm c; ba19_c7 c; ba19_c8 c; ba19_c9 c;
     ba19_c10 c; ba19_c11a c; ba19_c11b c; ba19_c11c c; ba19_c11d c; ba19_c1a c].
Lemma low_full c : In c low_rows -> full c = true.
Proof. revert c. apply forallb_forall. vm_compute. reflexivity. Qed.
Lemma used_low : ba19_used = low_rows. Proof. reflexivity. Qed.
Lemma skip_high : skipn (ba19_idx_max + 1) ba19_coeff = high_rows. Proof. reflexivity. Qed.
Lemma freq_max_is : ba19_freq_max = Fin (Q2R (ba19_freq_hz last_low)).
Proof. unfold ba19_freq_max, qf. apply (f_equal (fun c => Fin (Q2R (ba19_freq_hz c)))). vm_compute. reflexivity. Qed.
Lemma low_len : List.length low_rows = 239%nat. Proof. vm_compute. reflexivity. Qed.
Lemma high_len : List.length high_rows = 62%nat. Proof. vm_compute. reflexivity. Qed.
Lemma row5_in : In row_5hz low_rows.
Proof. replace row_5hz with (nth 170 low_rows last_low) by (vm_compute; reflexivity). apply nth_In. rewrite low_len. lia. Qed.
Lemma last_in : In last_low low_rows.
Proof. replace last_low with (nth 238 low_rows row_5hz) by (vm_compute; reflexivity). apply nth_In. rewrite low_len. lia. Qed.
Lemma qo_fin o : match o with Some _ => true | None => false end = true -> qo o = Fin (cell o).
Proof. destruct o; [reflexivity|discriminate]. Qed.
Record row_ok (c : ba19_row) : Prop := {
  r1 : qo (ba19_c1 c) = Fin (cell (ba19_c1 c)); r2 : qo (ba19_c2 c) = Fin (cell (ba19_c2 c)); r3 : qo (ba19_c3 c) = Fin (cell (ba19_c3 c));
  rn : qo (ba19_cn c) = Fin (cell (ba19_cn c)); rM : qo (ba19_cM c) = Fin (cell (ba19_cM c)); r4 : qo (ba19_c4 c) = Fin (cell (ba19_c4 c));
  r5 : qo (ba19_c5 c) = Fin (cell (ba19_c5 c)); r6 : qo (ba19_c6 c) = Fin (cell (ba19_c6 c)); rh : qo (ba19_chm c) = Fin (cell (ba19_chm c));
  r7 : qo (ba19_c7 c) = Fin (cell (ba19_c7 c)); r8 : qo (ba19_c8 c) = Fin (cell (ba19_c8 c)); r9 : qo (ba19_c9 c) = Fin (cell (ba19_c9 c));
  r10 : qo (ba19_c10 c) = Fin (cell (ba19_c10 c)); r11a : qo (ba19_c11a c) = Fin (cell (ba19_c11a c));
  r11b : qo (ba19_c11b c) = Fin (cell (ba19_c11b c)); r11c : qo (ba19_c11c c) = Fin (cell (ba19_c11c c));
  r11d : qo (ba19_c11d c) = Fin (cell (ba19_c11d c)); r1a : qo (ba19_c1a c) = Fin (cell (ba19_c1a c)) }.
Lemma row_okI c : In c low_rows -> row_ok c.
Proof.
  intros H. apply low_full in H. unfold full in H. rewrite forallb_forall in H.
  constructor; apply qo_fin, H; cbn [In]; tauto.
Qed.
(** Ranges of the columns. *)
Definition ov (o : option Q) : Q := match o with Some q => q | None => 0%Q end.
Lemma cell_ov o : cell o = Q2R (ov o).
Proof. destruct o; [reflexivity|]. cbn [cell ov]. unfold Q2R. cbn. lra. Qed.
Record bounds (c : ba19_row) : Prop := {
  b2 : cell (ba19_c2 c) = 1.27; b23 : cell (ba19_c2 c) < cell (ba19_c3 c); bn : 1 < cell (ba19_cn c); b4 : cell (ba19_c4 c) = -1.86;
  b5 : 6 < cell (ba19_c5 c) < 7.6; b6 : 0.4 < cell (ba19_c6 c) < 0.489; bh : 3 < cell (ba19_chm c) < 4; b7 : cell (ba19_c7 c) < 0;
  b10 : cell (ba19_c10 c) = -0.2; bf3 : 0 < Q2R (ba19_f3 c); bf4 : Q2R (ba19_f4 c) < 0; bf5 : Q2R (ba19_f5 c) < 0 }.
Lemma row_bounds c : In c low_rows -> bounds c.
Proof.
  intros H.
  row_is H (fun c => ov (ba19_c2 c)) (127 # 100)%Q as A2. row_lt H (fun c => ov (ba19_c2 c)) (fun c => ov (ba19_c3 c)) as A23.
  row_lt H (fun c : ba19_row => (1 # 1)%Q) (fun c => ov (ba19_cn c)) as An. row_is H (fun c => ov (ba19_c4 c)) (-186 # 100)%Q as A4.
  row_lt H (fun c : ba19_row => (6 # 1)%Q) (fun c => ov (ba19_c5 c)) as A5. row_lt H (fun c => ov (ba19_c5 c)) (fun c : ba19_row => (76 # 10)%Q) as A5'.
  row_lt H (fun c : ba19_row => (4 # 10)%Q) (fun c => ov (ba19_c6 c)) as A6. row_lt H (fun c => ov (ba19_c6 c)) (fun c : ba19_row => (489 # 1000)%Q) as A6'.
  row_lt H (fun c : ba19_row => (3 # 1)%Q) (fun c => ov (ba19_chm c)) as Ah. row_lt H (fun c => ov (ba19_chm c)) (fun c : ba19_row => (4 # 1)%Q) as Ah'.
  row_lt H (fun c => ov (ba19_c7 c)) (fun c : ba19_row => (0 # 1)%Q) as A7. row_is H (fun c => ov (ba19_c10 c)) (-2 # 10)%Q as A10.
  row_pos H ba19_f3 as F3. row_lt H ba19_f4 (fun c : ba19_row => (0 # 1)%Q) as F4. row_lt H ba19_f5 (fun c : ba19_row => (0 # 1)%Q) as F5.
  constructor; rewrite ?cell_ov; try lra.
Qed.

(** ** Default depth *)
Lemma z1_num v : ba19_depth_1_0 (Fin v) = Fin (z1_default v).
Proof.
  unfold ba19_depth_1_0. assert (0 <= v ^ 4) by (replace (v ^ 4) with ((v ^ 2) ^ 2) by ring; apply pow2_ge_0).
  fcbn. rewrite (fdiv_fin (v * v * (v * v) + _)) by lra.
  rewrite flog_fin by (apply Rdiv_lt_0_compat; [|lra]; replace (v * v * (v * v)) with (v ^ 4) by ring; lra).
  rewrite (fdiv_fin (-7.67)) by lra. fcbn. rewrite fdiv_fin by lra. apply (f_equal Fin). unfold z1_default.
  replace (v * v * (v * v)) with (v ^ 4) by ring. replace (610 * 610 * (610 * 610)) with (610 ^ 4) by ring.
  replace (1360 * 1360 * (1360 * 1360)) with (1360 ^ 4) by ring. reflexivity.
Qed.
Lemma z1_range v : 0 < z1_default v < 0.51.
Proof.
  assert (0 <= v ^ 4) as P by (replace (v ^ 4) with ((v ^ 2) ^ 2) by ring; apply pow2_ge_0).
  unfold z1_default. split; [apply Rdiv_lt_0_compat; [apply exp_pos|lra]|].
  apply Rle_lt_trans with (exp (-7.67 / 4 * ln (610 ^ 4 / (1360 ^ 4 + 610 ^ 4))) / 1000); [|clear; interval with (i_prec 40)].
  apply Rmult_le_compat_r; [lra|]. apply exp_le_mono. apply Rmult_le_compat_neg_l; [lra|]. apply ln_le_mono; [lra|].
  apply Rmult_le_compat_r; lra.
Qed.

(** ** The parts *)
Definition d_of (a : eq19) : R := match e_d a with Some d => d | None => z1_default (e_v a) end.
Lemma cosh_ge1 x : 1 <= cosh x.
Proof. pose proof (exp_pos x). pose proof (exp_pos (- x)). unfold cosh. assert (exp x * exp (- x) = 1) by (rewrite <- exp_plus, Rplus_opp_r; apply exp_0).
  assert (2 <= exp x + exp (- x)) by (pose proof (pow2_ge_0 (exp x - exp (- x))); nra). lra. Qed.
Lemma select_fin c v : row_ok c ->
  np_select [((Fin v <=? Fin 200)%flt, qo (ba19_c11a c)); ((Fin v <=? Fin 300)%flt, qo (ba19_c11b c)); ((Fin v <=? Fin 500)%flt, qo (ba19_c11c c))] (qo (ba19_c11d c))
  = Fin (c11_of c v).
Proof.
  intros K. rewrite (r11a c K), (r11b c K), (r11c c K), (r11d c K). unfold c11_of. cbn [np_select fleb].
  unfold Rleb. destruct (Rle_dec v 200), (Rle_dec v 300), (Rle_dec v 500); try reflexivity; try lra.
Qed.
Lemma rock_fin c m r z ns v d : In c low_rows -> 0 <= r -> -0.01 < d ->
  ba19_rock c (Fin m) (Fin r) (Fin z) ns (Fin v) (Fin d) =
  Fin (t_mag c m + t_path c m r + t_ztor c z + t_normal c ns + c11_of c v * ln ((Rmin d 2 + 0.01) / (z1_default v + 0.01))).
Proof.
  intros Hc Hr Hd. pose proof (row_okI c Hc) as K. pose proof (row_bounds c Hc) as B. unfold ba19_rock. rewrite select_fin by exact K.
  rewrite (r1 c K), (r2 c K), (r3 c K), (rn c K), (rM c K), (r4 c K), (r5 c K), (r6 c K), (rh c K), (r7 c K), (r9 c K), (r10 c K), z1_num.
  assert (0 < Rmin d 2 + 0.01) by (unfold Rmin; destruct (Rle_dec d 2); lra).
  pose proof (z1_range v). pose proof (bn c B). pose proof (b5 c B).
  fcbn. rewrite (fdiv_fin (_ - _)) by lra. rewrite flog_fin by (pose proof (exp_pos (cell (ba19_cn c) * (cell (ba19_cM c) - m))); lra).
  assert (6 < cell (ba19_c5 c) * cosh (cell (ba19_c6 c) * Rmax (m - cell (ba19_chm c)) 0)) as G.
  { pose proof (cosh_ge1 (cell (ba19_c6 c) * Rmax (m - cell (ba19_chm c)) 0)). nra. }
  rewrite (flog_fin (r + _)) by lra. rewrite fsqrt_fin by nra. rewrite (flog_fin (sqrt _)) by (apply sqrt_lt_R0; nra).
  rewrite fdiv_fin by lra. rewrite (flog_fin (_ / _)) by (apply Rdiv_lt_0_compat; lra). fcbn.
  replace (if ns then Fin (cell (ba19_c10 c)) else Fin 0) with (Fin (t_normal c ns)) by (destruct ns; reflexivity). fcbn.
  apply (f_equal Fin). unfold t_mag, t_path, t_ztor. replace (r * r + 50 * 50) with (r ^ 2 + 50 ^ 2) by ring. reflexivity.
Qed.
Lemma basin_of c v d : 0 <= match d with Some x => x | None => 0 end ->
  let x := match d with Some x => x | None => z1_default v end in
  c11_of c v * ln ((Rmin x 2 + 0.01) / (z1_default v + 0.01)) = t_basin c v d /\ 0 <= x.
Proof.
  intros H. pose proof (z1_range v). destruct d as [d|]; cbn zeta; [split; [reflexivity|exact H]|].
  split; [|lra]. rewrite Rmin_left by lra. unfold Rdiv. rewrite Rinv_r by lra. rewrite ln_1. unfold t_basin. lra.
Qed.
Lemma ref_fin m r z ns : 0 <= r -> ba19_ln_eas_ref (Fin m) (Fin r) (Fin z) ns = Fin (t_mag row_5hz m + t_path row_5hz m r + t_ztor row_5hz z + t_normal row_5hz ns).
Proof.
  intros Hr. unfold ba19_ln_eas_ref. rewrite z1_num. replace ba19_ref_row with row_5hz by (vm_compute; reflexivity).
  rewrite rock_fin by (try apply row5_in; try exact Hr; pose proof (z1_range 760); lra).
  destruct (basin_of row_5hz 760 None) as (E & _); [cbv beta iota; lra|]. cbv zeta in E. rewrite E. apply (f_equal Fin). cbn [t_basin]. lra.
Qed.
Lemma raw_fin c a : In c low_rows ->
  ba19_f_nl c (Fin (e_v a)) (fexp (fadd (Fin 1.238) (fmul (Fin 0.846) (Fin (ln_eas_5hz_rock a))))) = Fin (raw_nl a c).
Proof.
  intros Hc. pose proof (row_bounds c Hc) as B. pose proof (bf3 c B). unfold ba19_f_nl, qf. fcbn.
  rewrite fdiv_fin by lra. rewrite flog_fin. 2:{ apply Rdiv_lt_0_compat; [|lra]. pose proof (exp_pos (1.238 + 0.846 * ln_eas_5hz_rock a)). lra. }
  fcbn. reflexivity.
Qed.
Lemma sl_fin c v : In c low_rows -> 0 < v -> ba19_f_sl c (Fin v) = Fin (t_linear_site c v).
Proof.
  intros Hc Hv. unfold ba19_f_sl. rewrite (r8 c (row_okI c Hc)). fcbn. assert (0 < Rmin v 1000) by (apply Rmin_glb_lt; lra).
  rewrite fdiv_fin by lra. rewrite flog_fin by (apply Rdiv_lt_0_compat; lra). reflexivity.
Qed.

(** ** The smoothing *)
Lemma nth_map_seq {A} (f : nat -> A) n k d : (k < n)%nat -> nth k (map f (seq 0 n)) d = f k.
Proof. intros H. rewrite (nth_indep _ d (f 0%nat)) by (rewrite map_length, seq_length; exact H). rewrite map_nth, seq_nth by exact H. reflexivity. Qed.
Lemma nth_Fin x k : (k < List.length x)%nat -> nth k (map Fin x) NaN = Fin (nth k x 0).
Proof. intros H. rewrite (nth_indep _ NaN (Fin 0)) by (rewrite map_length; exact H). apply map_nth. Qed.
Lemma flatten_fin x i : (i < List.length x)%nat -> flatten_after i (map Fin x) = map Fin (map (flat x i) (seq 0 (List.length x))).
Proof.
  intros H. unfold flatten_after. rewrite map_length, map_map. apply map_ext_in. intros k Hk. apply in_seq in Hk. unfold flat.
  destruct (k <=? i)%nat; apply nth_Fin; lia.
Qed.
Definition pad (f : nat -> R) (n j : nat) : R := if (j <? 3)%nat then 0 else if (j - 3 <? n)%nat then f (j - 3)%nat else 0.
Lemma pad_S f n j : pad f (S n) j = pad f n j + (if (j =? n + 3)%nat then f n else 0).
Proof.
  unfold pad. destruct (Nat.ltb_spec j 3); [destruct (Nat.eqb_spec j (n + 3)); [lia|lra]|].
  destruct (Nat.ltb_spec (j - 3) (S n)), (Nat.ltb_spec (j - 3) n), (Nat.eqb_spec j (n + 3)); try lia; try lra.
  replace (j - 3)%nat with n by lia. lra.
Qed.
Lemma window_sum (f : nat -> R) k n : Rsum (map f (window n k)) =
  pad f n k + pad f n (k + 1) + pad f n (k + 2) + pad f n (k + 3) + pad f n (k + 4) + pad f n (k + 5) + pad f n (k + 6).
Proof.
  induction n as [|n IH].
  - unfold window, pad. cbn [seq filter map Rsum fold_right]. repeat destruct (_ <? 3)%nat; cbn [Nat.ltb]; 
    rewrite ?(proj2 (Nat.ltb_ge _ _)) by lia; unfold Rsum; cbn; lra.
  - unfold window in *. rewrite seq_S, filter_app, map_app, Rsum_app, IH, !pad_S. cbn [filter Nat.add].
    assert (forall b : bool, Rsum (map f (if b then [n] else [])) = if b then f n else 0) as S1 by (intros []; unfold Rsum; cbn; lra).
    rewrite S1. clear IH S1.
    destruct (Nat.leb_spec k (n + 3)), (Nat.leb_spec n (k + 3)); cbn [andb];
    destruct (Nat.eqb_spec k (n + 3)); try lia; try lra;
    destruct (Nat.eqb_spec (k + 1) (n + 3)); try lia; try lra;
    destruct (Nat.eqb_spec (k + 2) (n + 3)); try lia; try lra;
    destruct (Nat.eqb_spec (k + 3) (n + 3)); try lia; try lra;
    destruct (Nat.eqb_spec (k + 4) (n + 3)); try lia; try lra;
    destruct (Nat.eqb_spec (k + 5) (n + 3)); try lia; try lra;
    destruct (Nat.eqb_spec (k + 6) (n + 3)); try lia; try lra.
Qed.
Lemma mean7_pad x i k : mean7 x i k = (pad (flat x i) (List.length x) k + pad (flat x i) (List.length x) (k + 1) + pad (flat x i) (List.length x) (k + 2)
  + pad (flat x i) (List.length x) (k + 3) + pad (flat x i) (List.length x) (k + 4) + pad (flat x i) (List.length x) (k + 5) + pad (flat x i) (List.length x) (k + 6)) / 7.
Proof. reflexivity. Qed.
Lemma Rsum_div (f : nat -> R) (c : R) (l : list nat) : Rsum (map (fun m => f m * c) l) = Rsum (map f l) * c.
Proof. induction l as [|x l IH]; unfold Rsum in *; cbn; [lra|]. rewrite IH. lra. Qed.
Lemma smooth_fin x i : smooth7 (map Fin (map (flat x i) (seq 0 (List.length x)))) = map Fin (map (mean7 x i) (seq 0 (List.length x))).
Proof.
  unfold smooth7. rewrite !map_length, seq_length, (map_map (mean7 x i)). apply map_ext_in. intros k Hk.
  transitivity (fsum (map Fin (map (fun m => flat x i m * (1 / 7)) (window (List.length x) k)))).
  - apply (f_equal fsum). rewrite (map_map (fun m => flat x i m * (1 / 7)) Fin). apply map_ext_in. intros m Hm. unfold window in Hm. apply filter_In in Hm as [Hm _]. apply in_seq in Hm.
    rewrite nth_Fin by (rewrite map_length, seq_length; lia). rewrite nth_map_seq by lia. rewrite fdiv_fin by lra. reflexivity.
  - rewrite fsum_fin. apply (f_equal Fin). rewrite Rsum_div, window_sum, mean7_pad. lra.
Qed.
Lemma force_fin x i : (i < List.length x)%nat -> force_end i (map Fin (map (mean7 x i) (seq 0 (List.length x)))) = map Fin (map (smoothed x i) (seq 0 (List.length x))).
Proof.
  intros H. unfold force_end. rewrite !map_length, seq_length, (map_map (smoothed x i)). apply map_ext_in. intros k Hk. apply in_seq in Hk.
  unfold smoothed. destruct (k <? _)%nat; rewrite nth_Fin by (rewrite map_length, seq_length; lia); rewrite nth_map_seq by lia; reflexivity.
Qed.

(** ** The whole spectrum *)
Opaque low_rows high_rows ba19_coeff row_5hz last_low.
Definition raws (a : eq19) : list R := map (raw_nl a) low_rows.
Definition i_of (a : eq19) : nat := argmin (map Fin (raws a)).
Lemma raws_len a : List.length (raws a) = 239%nat. Proof. unfold raws. rewrite map_length. exact low_len. Qed.
Lemma i_of_min a : first_min (raws a) (i_of a).
Proof. apply argmin_spec. intros E. pose proof (raws_len a) as L. rewrite E in L. discriminate. Qed.
Lemma site_fin a : 0 < e_v a -> ba19_site (Fin (e_v a)) (Fin (ln_eas_5hz_rock a)) =
  map (fun '(c, x) => Fin (t_linear_site c (e_v a) + x)) (combine low_rows (map (smoothed (raws a) (i_of a)) (seq 0 239))).
Proof.
  intros Hv. unfold ba19_site. cbv zeta. rewrite used_low.
  replace (map (fun c => ba19_f_nl c _ _) low_rows) with (map Fin (raws a)).
  2:{ unfold raws. rewrite map_map. apply map_ext_in. intros c Hc. symmetry. apply raw_fin. exact Hc. }
  fold (i_of a). destruct (i_of_min a) as (L & _). rewrite flatten_fin, smooth_fin, force_fin by assumption. rewrite raws_len.
  generalize (map (smoothed (raws a) (i_of a)) (seq 0 239)). assert (forall c, In c low_rows -> In c low_rows) as I by auto. revert I. generalize low_rows at 1 3 4.
  intros l. induction l as [|c l IH]; intros I [|x xs]; try reflexivity. cbn [map combine]. f_equal.
  - rewrite sl_fin by (try exact Hv; apply I; left; reflexivity). reflexivity.
  - apply IH. intros c' H. apply I. right. exact H.
Qed.
Definition lows (a : eq19) : list R := map (fun '(c, x) => ln_eas_linear c a + x) (combine low_rows (map (smoothed (raws a) (i_of a)) (seq 0 239))).
Definition kappa_of (v : R) : R := exp (-0.4 * ln (v / 760) - 3.5).
Definition highs (a : eq19) : list R := map (fun c => nth 238 (lows a) 0 - PI * kappa_of (e_v a) * (Q2R (ba19_freq_hz c) - Q2R (ba19_freq_hz last_low))) high_rows.
Lemma lows_len a : List.length (lows a) = 239%nat.
Proof. unfold lows. rewrite map_length, combine_length, map_length, seq_length, low_len. reflexivity. Qed.
Lemma eas_fin a : eq19_ok a -> ba19_ln_eas (Fin (e_m a)) (Fin (e_r a)) (Fin (e_z a)) (e_ns a) (Fin (e_v a)) (Fin (d_of a)) = map Fin (lows a ++ highs a).
Proof.
  intros (Hr & Hv & Hd). unfold ba19_ln_eas. cbv zeta. rewrite ref_fin by exact Hr. fold (ln_eas_5hz_rock a). rewrite site_fin by exact Hv. rewrite used_low, map_app.
  replace (map _ (combine low_rows (map _ (combine low_rows _)))) with (map Fin (lows a)).
  2:{ unfold lows. generalize (map (smoothed (raws a) (i_of a)) (seq 0 239)). assert (forall c, In c low_rows -> In c low_rows) as I by auto. revert I.
      generalize low_rows at 1 3 4 5. intros l. induction l as [|c l IH]; intros I [|x xs]; try reflexivity. cbn [map combine]. f_equal.
      - destruct (basin_of c (e_v a) (e_d a)) as (E & D); [destruct (e_d a); lra|]. cbv zeta in E, D. fold (d_of a) in E, D.
        rewrite rock_fin by (try exact Hr; try lra; apply I; left; reflexivity). fcbn. apply (f_equal Fin). rewrite E. unfold ln_eas_linear. lra.
      - apply IH. intros c' H. apply I. right. exact H. }
  f_equal. unfold highs. rewrite map_map. rewrite skip_high. apply map_ext. intros c.
  change ba19_idx_max with 238%nat. rewrite nth_Fin by (rewrite lows_len; lia). rewrite fdiv_fin by lra. rewrite flog_fin by (apply Rdiv_lt_0_compat; lra).
  rewrite freq_max_is. unfold qf. fcbn. rewrite flog_fin by apply exp_pos. fcbn. rewrite ln_exp.
  apply (f_equal Fin). unfold kappa_of. lra.
Qed.
(** ** Construction *)
Definition ba19_mechv (a : eq19) : pyval := choice ["SS"; "NS"; "RS"] (PStr "SS") (e_mech a).
Lemma mech_is a : is_str (ba19_mechv a) "NS" = e_ns a.
Proof.
  unfold ba19_mechv, e_ns, choice. destruct (e_mech a) as [t|]; [|reflexivity]. unfold existsb.
  destruct (String.eqb_spec t "SS") as [->|]; [reflexivity|]. destruct (String.eqb_spec t "NS") as [->|]; [reflexivity|].
  destruct (String.eqb_spec t "RS") as [->|]; reflexivity.
Qed.
Definition ba19_start (a : eq19) (d : pyval) : scen :=
  Scen [("dist_rup", PNum (Fin (e_r a))); ("mag", PNum (Fin (e_m a))); ("v_s30", PNum (Fin (e_v a))); ("depth_tor", PNum (Fin (e_z a)));
        ("depth_1_0", d); ("mechanism", ba19_mechv a)] [].
Lemma opt_num_get src k o : opt_num src k o -> dget_none src k = onum o.
Proof. destruct o; intros H; exact H. Qed.
Lemma opt_str_get src k o : opt_str src k o -> dget_none src k = match o with Some t => PStr t | None => PNone end.
Proof. destruct o; intros H; exact H. Qed.
Lemma ba19_init src a : eq19_gives src a -> result (model_init ba19_params src) = Ok (ba19_start a (onum (e_d a))).
Proof.
  intros (G1 & G2 & G3 & G4 & G5 & G6). rewrite model_init_result' by reflexivity. apply opt_num_get in G5. apply opt_str_get in G6.
  let x := eval cbv [ba19_params NumP CatP] in ba19_params in change ba19_params with x.
  run_checks. rewrite chk_onum_none. cbn [checks p_name map]. unfold ba19_start, ba19_mechv, choice. destruct (e_mech a) as [t|].
  - rewrite chk_cat. cbn [checks p_name]. unfold pyin. reflexivity.
  - rewrite chk_cat_none. reflexivity.
Qed.
Lemma ba19_prep_ok a : result (ba19_prep (ba19_start a (onum (e_d a)))) = Ok (ba19_start a (PNum (Fin (d_of a)))).
Proof.
  unfold ba19_prep, ba19_start, d_of. destruct (e_d a) as [d|]; [reflexivity|].
  rewrite <- z1_num. reflexivity.
Qed.
Lemma ba19_make src a : eq19_gives src a -> eq19_ok a ->
  result (ba19 src) = Ok (Ba19 (ba19_start a (PNum (Fin (d_of a)))) (map Fin (lows a ++ highs a)) (map (fun c => ba19_ln_std c (Fin (e_m a))) ba19_coeff)).
Proof.
  intros G K. unfold ba19. rewrite result_bind, (ba19_init src a G). rewrite result_bind, ba19_prep_ok. unfold ba19_start at 1 2 3 4 5 6.
  rewrite (num_hit _ "mag" (Fin (e_m a))), bind_ret_l by reflexivity. rewrite (num_hit _ "dist_rup" (Fin (e_r a))), bind_ret_l by reflexivity.
  rewrite (num_hit _ "depth_tor" (Fin (e_z a))), bind_ret_l by reflexivity. rewrite (attr_hit _ "mechanism" (ba19_mechv a)), bind_ret_l by reflexivity.
  rewrite (num_hit _ "v_s30" (Fin (e_v a))), bind_ret_l by reflexivity. rewrite (num_hit _ "depth_1_0" (Fin (d_of a))), bind_ret_l by reflexivity.
  rewrite mech_is, eas_fin by exact K. reflexivity.
Qed.
