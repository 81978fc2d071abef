(** * Proofs for Pinilla-Ramos et al. (2024) *)
From Coquelicot Require Import Coquelicot.
From Interval Require Import Tactic.
From Coq Require Import List.
From Verif Require P_pr23.
From Verif Require Import M_pr24 FrameworkProofs Anal Nga Spec_pr24 P_hkr14 Cont Cont1.
Open Scope R_scope.
Open Scope string_scope.
Open Scope list_scope.

Definition pev (a : eq24) := PStr (ev_name (k_ev a)).
Definition pre (a : eq24) := PStr (k_re a).
Lemma region_cases a : served a -> exists rate site, region24 (k_ev a) (k_re a) = Some (rate, site) /\ 0.024 <= rate /\ 1.151 <= site /\
  pyin (pre a) (map PStr pr24_regions) = true /\ (k_ev a = Interface -> pyeq (pre a) (PStr "Taiwan") = false /\ 2.2 <= site).
Proof.
  unfold served, pre. destruct a as [e re m r v]. cbn [k_ev k_re]. intros S.
  assert (In re pr24_regions /\ (e = Interface -> re <> "Taiwan")) as (I & T).
  { destruct e; cbn [region24] in S; destruct (String.eqb_spec re "Japan"), (String.eqb_spec re "New Zealand"), (String.eqb_spec re "South America"), (String.eqb_spec re "Taiwan"); subst; cbn; split; try congruence; try discriminate; auto 9. }
  cbn in I. destruct I as [<-|[<-|[<-|[<-|[]]]]]; destruct e; try (exfalso; apply (T eq_refl eq_refl));
  cbn [region24 String.eqb Ascii.eqb Bool.eqb]; do 2 eexists; (split; [reflexivity|]; split; [lra|]; split; [lra|]; split; [reflexivity|]; intros E; first [discriminate E|split; [reflexivity|lra]]).
Qed.
Lemma fdiv_100 x : (Fin x / Fin 100)%flt = Fin (x / 100). Proof. apply fdiv_fin. lra. Qed.
Lemma ln_flip v : 0 < v -> ln (v / 3100) = - ln (3100 / v).
Proof. intros H. unfold Rdiv. rewrite !ln_mult, !ln_Rinv by (try apply Rinv_0_lt_compat; lra). lra. Qed.
Lemma median_fin a : served a -> 0 < k_v a -> pr24_median (pev a) (pre a) (Fin (k_m a)) (Fin (k_r a)) (Fin (k_v a)) = Fin (median24 a).
Proof.
  intros S V. unfold pr24_median. rewrite fdiv_fin by lra. rewrite flog_fin by (apply Rdiv_lt_0_compat; lra). rewrite (ln_flip _ V).
  unfold served in S. unfold pev, pre, median24. destruct a as [e re m r v]. cbn [k_ev k_re k_m k_r k_v] in *. cbn [fltb]. unfold Rltb.
  assert (forall x, fpowf (Fin 10) (Fin x) = Fin (Rpower 10 x)) as P by (intros; apply fpowf_fin; lra).
  destruct e; cbn [ev_name pyeq String.eqb Ascii.eqb Bool.eqb region24 source24 path24] in *.
  - cbn [fsub fmul]. rewrite P. replace ((m - 7) * 0.275) with (0.275 * (m - 7)) by ring.
    repeat match goal with H : context [String.eqb re ?s] |- _ => destruct (String.eqb re s) end; try congruence;
    (destruct (Rlt_dec r 250); [rewrite Rmin_left, Rmax_right by lra|rewrite Rmin_right, Rmax_left by lra]; fcbn; apply (f_equal Fin); lra).
  - cbn [fsub fmul]. rewrite !P. replace ((m - 4.250) * 0.5) with (0.5 * (m - 4.25)) by lra. replace ((6 - 4.250) * 0.5) with (0.5 * 1.75) by lra. rewrite (fdiv_fin _ (8.5 - 6)) by lra.
    replace (2.770 * (m - 6) / (8.5 - 6)) with (2.770 * ((m - 6) / 2.5)) by (replace (8.5 - 6) with 2.5 by lra; unfold Rdiv; lra).
    repeat match goal with H : context [String.eqb re ?s] |- _ => destruct (String.eqb re s) end; try congruence;
    (destruct (Rlt_dec m 6), (Rlt_dec r 250); [rewrite Rmin_left, Rmax_right by lra|rewrite Rmin_right, Rmax_left by lra|rewrite Rmin_left, Rmax_right by lra|rewrite Rmin_right, Rmax_left by lra]; fcbn; apply (f_equal Fin); lra).
Qed.
Lemma sigma_fin a : 0 < k_v a -> pr24_sigma (pev a) (Fin (k_m a)) (Fin (k_r a)) (Fin (k_v a)) = Fin (sigma24 a).
Proof.
  intros V. unfold pr24_sigma. rewrite flog_fin by exact V. unfold pev, sigma24. destruct (k_ev a); cbn [ev_name pyeq String.eqb Ascii.eqb Bool.eqb];
  fcbn; rewrite !fdiv_100; fcbn; apply (f_equal Fin); lra.
Qed.
(** ** Ranges *)
Lemma eq24_v a : eq24_ok a -> 0 < k_v a. Proof. intros (_ & _ & _ & V). lra. Qed.
Lemma ln_range a : eq24_ok a -> -3.0286 <= ln (k_v a / 3100) <= -0.438 /\ 5.01 <= ln (k_v a) <= 7.601.
Proof.
  intros (_ & _ & _ & V). split; split.
  - apply Rle_trans with (ln (150 / 3100)); [clear; interval with (i_prec 40)|apply ln_le_mono; lra].
  - apply Rle_trans with (ln (2000 / 3100)); [apply ln_le_mono; lra|clear; interval with (i_prec 40)].
  - apply Rle_trans with (ln 150); [clear; interval with (i_prec 40)|apply ln_le_mono; lra].
  - apply Rle_trans with (ln 2000); [apply ln_le_mono; lra|clear; interval with (i_prec 40)].
Qed.
Lemma sigma_range a : eq24_ok a -> 0.05 < sigma24 a < 0.26.
Proof.
  intros K. destruct (ln_range a K) as (_ & L). destruct K as (_ & M & D & _). unfold sigma24.
  generalize dependent (ln (k_v a)). intros l L. generalize dependent (k_m a). intros m M. generalize dependent (k_r a). intros r D. clear - L M D.
  destruct (k_ev a); split; interval with (i_prec 40, i_bisect m, i_bisect r).
Qed.
Lemma source_mono e m m' : m < m' -> source24 e m < source24 e m'.
Proof.
  intros H. destruct e; cbn [source24].
  - apply Rmult_lt_compat_l; [lra|]. apply P_pr23.pow10_lt. lra.
  - destruct (Rlt_dec m 6), (Rlt_dec m' 6); try lra.
    + apply Rmult_lt_compat_l; [lra|]. apply P_pr23.pow10_lt. lra.
    + pose proof (P_pr23.pow10_lt (0.5 * (m - 4.25)) (0.5 * 1.75) ltac:(lra)). lra.
Qed.
Lemma source_low e m : 4.5 <= m -> 0.45 < source24 e m.
Proof.
  intros H. apply Rlt_le_trans with (source24 e 4.5).
  - destruct e; cbn [source24]; [|destruct (Rlt_dec 4.5 6); [|lra]]; unfold Rpower; clear; interval with (i_prec 40).
  - destruct H as [H|<-]; [left; apply source_mono; exact H|right; reflexivity].
Qed.
Lemma path_mono e r r' : r <= r' -> path24 e r <= path24 e r'.
Proof. intros H. destruct e; cbn [path24]; unfold Rmin, Rmax; repeat destruct (Rle_dec _ _); lra. Qed.
Lemma path_nonneg e r : 0 <= r -> 0 <= path24 e r.
Proof. intros H. destruct e; cbn [path24]; unfold Rmin, Rmax; repeat destruct (Rle_dec _ _); lra. Qed.
Lemma median_low a : eq24_ok a -> 0.94 < median24 a.
Proof.
  intros K. destruct (ln_range a K) as (L & _). rewrite ln_flip in L by (apply eq24_v; exact K). destruct K as (S & M & D & V).
  destruct (region_cases a S) as (rate & site & E & R & T & _). unfold median24. rewrite E.
  pose proof (source_low (k_ev a) (k_m a) ltac:(lra)). pose proof (path_nonneg (k_ev a) (k_r a) ltac:(lra)). assert (0 <= rate * k_r a) by nra.
  assert (1.151 * 0.438 <= site * ln (3100 / k_v a)) by (apply Rmult_le_compat; lra). lra.
Qed.
Lemma n_pos e : 0 < n24 e. Proof. destruct e; cbn; lra. Qed.
Lemma mn_gt a : eq24_ok a -> 0.98 < Rpower (median24 a) (n24 (k_ev a)).
Proof.
  intros K. pose proof (median_low a K). apply Rlt_le_trans with (Rpower 0.94 (n24 (k_ev a))); [destruct (k_ev a); cbn [n24]; unfold Rpower; clear; interval with (i_prec 40)|].
  apply Rle_Rpower_l; [pose proof (n_pos (k_ev a)); lra|lra].
Qed.

(** ** Construction *)
Definition pr24_start (m r v : flt) (ev re : pyval) : scen := Scen [("mag", PNum m); ("dist_rup", PNum r); ("v_s30", PNum v); ("event_type", ev); ("region", re)] [].
Lemma pr24_init src m r v ev re : dget_none src "mag" = PNum m -> dget_none src "dist_rup" = PNum r -> dget_none src "v_s30" = PNum v ->
  dget_none src "event_type" = ev -> dget_none src "region" = re ->
  result (model_init pr24_params src) =
    if is_none ev || is_none re then Raise EValue
    else Ok (pr24_start m r v (if pyin ev (map PStr ["interface"; "slab"]) then ev else PNone) (if pyin re (map PStr pr24_regions) then re else PNone)).
Proof.
  intros G1 G2 G3 G4 G5. rewrite model_init_result' by reflexivity.
  unfold pr24_params. cbn [checks p_name NumP CatP]. rewrite G1, G2, G3, G4, G5. unfold NumP. rewrite !chk_num. unfold CatP.
  destruct (is_none ev) eqn:Ev; [destruct ev; try discriminate; rewrite chk_required; reflexivity|].
  rewrite check_cat_param by (destruct ev; discriminate).
  destruct (is_none re) eqn:Re; [destruct re; try discriminate; rewrite chk_required; reflexivity|].
  rewrite check_cat_param by (destruct re; discriminate). reflexivity.
Qed.
Lemma pr24_eval_ok {A} m r v ev re (f : pyval -> pyval -> flt -> flt -> flt -> A) : pr24_eval (pr24_start m r v ev re) f = ret (f ev re m r v).
Proof.
  unfold pr24_eval, pr24_start. rewrite (num_hit _ "mag" m), bind_ret_l by reflexivity.
  rewrite (num_hit _ "dist_rup" r), bind_ret_l by reflexivity. rewrite (num_hit _ "v_s30" v), bind_ret_l by reflexivity.
  rewrite (attr_hit _ "region" re), bind_ret_l by reflexivity. rewrite (attr_hit _ "event_type" ev), bind_ret_l by reflexivity. reflexivity.
Qed.
Lemma pr24_run src m r v ev re : dget_none src "mag" = PNum m -> dget_none src "dist_rup" = PNum r -> dget_none src "v_s30" = PNum v ->
  dget_none src "event_type" = ev -> dget_none src "region" = re ->
  result (pr24 src) =
    if pyin ev (map PStr ["interface"; "slab"]) && pyin re (map PStr pr24_regions) && negb (pyeq ev (PStr "interface") && pyeq re (PStr "Taiwan"))
    then Ok (Pr24 (pr24_start m r v ev re) (pr24_calc ev re m r v (Fin 0.75))) else Raise EValue.
Proof.
  intros G1 G2 G3 G4 G5. unfold pr24. rewrite result_bind, (pr24_init src m r v ev re G1 G2 G3 G4 G5).
  destruct (is_none ev) eqn:Ev; [destruct ev; try discriminate; reflexivity|]. destruct (is_none re) eqn:Re; [destruct re; try discriminate; cbn [orb]; rewrite andb_false_r; reflexivity|]. cbn [orb].
  set (ev' := if pyin ev (map PStr ["interface"; "slab"]) then ev else PNone). set (re' := if pyin re (map PStr pr24_regions) then re else PNone).
  unfold pr24_start. rewrite (attr_hit _ "event_type" ev'), bind_ret_l by reflexivity. rewrite (attr_hit _ "region" re'), bind_ret_l by reflexivity.
  unfold pr24_validate. fold (pr24_start m r v ev' re'). destruct (pyin ev (map PStr ["interface"; "slab"])) eqn:E1; subst ev'.
  2: { cbn. reflexivity. }
  destruct (pyin re (map PStr pr24_regions)) eqn:E2; subst re'.
  2: { cbn [andb]. rewrite E1. cbn. rewrite andb_false_r. reflexivity. }
  destruct (pyeq ev (PStr "interface") && pyeq re (PStr "Taiwan")); [reflexivity|]. rewrite E1, E2. cbn [negb andb]. rewrite bind_ret_l, pr24_eval_ok, bind_ret_l. reflexivity.
Qed.
Lemma pr24_make src a : eq24_gives src a -> served a ->
  result (pr24 src) = Ok (Pr24 (pr24_start (Fin (k_m a)) (Fin (k_r a)) (Fin (k_v a)) (pev a) (pre a)) (pr24_calc (pev a) (pre a) (Fin (k_m a)) (Fin (k_r a)) (Fin (k_v a)) (Fin 0.75))).
Proof.
  intros (G1 & G2 & G3 & G4 & G5) S. rewrite (pr24_run src _ _ _ _ _ G1 G2 G3 G4 G5). fold (pev a) (pre a).
  destruct (region_cases a S) as (rate & site & _ & _ & _ & P & T). rewrite P. unfold pev. destruct (k_ev a) eqn:E; cbn [ev_name].
  - destruct (T eq_refl) as (-> & _). reflexivity.
  - reflexivity.
Qed.
(** ** D5-75 *)
Notation near75 := P_pr23.near75.
Notation calc a := (pr24_calc (pev a) (pre a) (Fin (k_m a)) (Fin (k_r a)) (Fin (k_v a))).
Lemma n_is a : pr24_n (pev a) = n24 (k_ev a). Proof. unfold pr24_n, pev. destruct (k_ev a); reflexivity. Qed.
Lemma base_fin a e : eq24_ok a -> near75 e -> calc a (Fin e) =
  (Fin (median24 a), Fin (plus24 (n24 (k_ev a)) (median24 a) (sigma24 a)), Fin (minus24 (n24 (k_ev a)) (median24 a) (sigma24 a))).
Proof.
  intros K N. unfold pr24_calc. rewrite (proj2 (P_pr23.isclose75 e) N). pose proof (eq24_v a K). rewrite median_fin, sigma_fin by (try apply K; assumption).
  pose proof (median_low a K). pose proof (mn_gt a K). pose proof (sigma_range a K) as S. rewrite n_is.
  rewrite (fpow_fin (median24 a)) by lra. fcbn. rewrite !fpow_fin by lra. reflexivity.
Qed.
Lemma plus_gt n med s : 0 < n -> 0 < med -> 0 < s -> med < plus24 n med s.
Proof. intros N H Hs. unfold plus24. rewrite <- (P_pr23.power_back med n) at 1 by assumption. apply P_pr23.power_lt_mono; [apply Rdiv_lt_0_compat; lra|apply Rpower_pos|lra]. Qed.
Lemma minus_lt n med s : 0 < n -> 0 < med -> 0 < s -> s < Rpower med n -> 0 < minus24 n med s < med.
Proof.
  intros N H Hs Hm. split; [apply Rpower_pos|]. unfold minus24. rewrite <- (P_pr23.power_back med n) at 2 by assumption. apply P_pr23.power_lt_mono; [apply Rdiv_lt_0_compat; lra|lra|lra].
Qed.

(** ** The table *)
Lemma rows_len e : List.length (rows24 e) = 18%nat. Proof. destruct e; reflexivity. Qed.
Definition thr (k : nat) : R := 0.10 + 0.05 * INR k.
Lemma each18 (P : nat -> Prop) : Forall P (seq 0 18) -> forall k, (k < 18)%nat -> P k.
Proof. intros F k H. rewrite Forall_forall in F. apply F, in_seq. lia. Qed.
Lemma row_thr e k : (k < 18)%nat -> Q2R (f_energy (nth k (rows24 e) pr24_row0)) = thr k.
Proof.
  revert k. apply each18. cbn [seq]. repeat (apply Forall_cons; [|]); try apply Forall_nil; unfold thr; destruct e; (cbn [nth rows24 pr24_interface pr24_slab f_energy INR]; unfold Q2R; cbn [Qnum Qden]; lra).
Qed.
Lemma row_ratio a k : eq24_ok a -> (k < 18)%nat -> let x := nth k (rows24 (k_ev a)) pr24_row0 in
  0.02 < ratio24 x a /\ 0 <= n24 (k_ev a) * Q2R (f_sigma_c x) <= 0.25 * ratio24 x a /\ -0.61 <= Q2R (f_rho x) <= 0.61 /\
  ((S k < 18)%nat -> ratio24 x a + 0.03 < ratio24 (nth (S k) (rows24 (k_ev a)) pr24_row0) a).
Proof.
  intros K. revert k. destruct (ln_range a K) as (L & _). destruct K as (_ & M & D & _). unfold ratio24.
  generalize dependent (ln (k_v a / 3100)). intros l L. generalize dependent (k_m a). intros m M. generalize dependent (k_r a). intros r D.
  apply each18. cbn [seq]. repeat (apply Forall_cons; [|]); try apply Forall_nil; cbv zeta; destruct (k_ev a); (cbn [nth rows24 pr24_interface pr24_slab f_energy f_c_median f_a0 f_m1 f_r1 f_v1 f_rho f_sigma_c n24]; unfold Q2R; cbn [Qnum Qden];
   (split; [lra|]; split; [lra|]; split; [lra|]; intros H'; try (exfalso; lia); lra)).
Qed.
Lemma ratio_lt a j k : eq24_ok a -> (j < k)%nat -> (k < 18)%nat -> ratio24 (nth j (rows24 (k_ev a)) pr24_row0) a < ratio24 (nth k (rows24 (k_ev a)) pr24_row0) a.
Proof.
  intros K H. induction H as [|k H IH]; intros L.
  - destruct (row_ratio a j K ltac:(lia)) as (_ & _ & _ & Q). specialize (Q L). lra.
  - specialize (IH ltac:(lia)). destruct (row_ratio a k K ltac:(lia)) as (_ & _ & _ & Q). specialize (Q L). lra.
Qed.
(** Index of the nearest threshold. *)
Definition near_idx (e : R) (k : nat) : Prop := (k < 18)%nat /\ (forall j, (j < 18)%nat -> Rabs (thr k - e) <= Rabs (thr j - e)).
Definition amin (e : flt) : nat := argmin (map (fun c => fabs (qf (f_energy c) - e)%flt) pr24_interface).
Lemma amin_spec e : near_idx e (amin (Fin e)) /\ forall j, (j < amin (Fin e))%nat -> Rabs (thr (amin (Fin e)) - e) < Rabs (thr j - e).
Proof.
  unfold amin. replace (map (fun c => fabs (qf (f_energy c) - Fin e)%flt) pr24_interface) with (map Fin (map (fun c => Rabs (Q2R (f_energy c) - e)) pr24_interface))
    by (rewrite map_map; reflexivity).
  destruct (argmin_spec (map (fun c => Rabs (Q2R (f_energy c) - e)) pr24_interface)) as (L & M & F); [discriminate|].
  set (k := argmin _) in *. rewrite map_length in L, M. change (List.length pr24_interface) with 18%nat in L, M.
  assert (forall j, (j < 18)%nat -> nth j (map (fun c => Rabs (Q2R (f_energy c) - e)) pr24_interface) 0 = Rabs (thr j - e)) as N.
  { intros j Hj. rewrite <- (row_thr Interface j Hj). cbn [rows24]. rewrite (nth_indep _ 0 (Rabs (Q2R (f_energy pr24_row0) - e))) by (rewrite map_length; exact Hj). apply (map_nth (fun c => Rabs (Q2R (f_energy c) - e))). }
  split; [split; [exact L|]|].
  - intros j Hj. specialize (M j Hj). rewrite !N in M by assumption. exact M.
  - intros j Hj. specialize (F j Hj). rewrite !N in F by lia. exact F.
Qed.
Lemma thr_inj j k : thr j = thr k -> j = k. Proof. unfold thr. intros H. apply INR_eq. lra. Qed.
Lemma thr_lt j k : (j < k)%nat <-> thr j < thr k. Proof. unfold thr. split; intros H; [apply lt_INR in H|apply INR_lt]; lra. Qed.
Lemma amin_thr k : (k < 18)%nat -> amin (Fin (thr k)) = k.
Proof.
  intros H. destruct (amin_spec (thr k)) as ((L & M) & _). specialize (M k H). rewrite Rminus_eq_0, Rabs_R0 in M. apply thr_inj.
  pose proof (Rabs_pos (thr (amin (Fin (thr k))) - thr k)) as P. assert (Rabs (thr (amin (Fin (thr k))) - thr k) = 0) as Z by lra. apply Rabs_eq_0 in Z. lra.
Qed.
Lemma near_dist e k : near_idx e k -> 0.10 <= e <= 0.95 -> Rabs (thr k - e) <= 0.025.
Proof.
  intros (L & M) H. destruct (Rle_dec (Rabs (thr k - e)) 0.025) as [|N]; [assumption|exfalso]. apply Rnot_le_lt in N.
  assert (thr k < e - 0.025 \/ e + 0.025 < thr k) as [Q|Q] by (unfold Rabs in N; destruct (Rcase_abs _) in N; lra).
  - assert (S k < 18)%nat as SK.
    { assert (k <> 17)%nat; [intros ->; unfold thr in Q; cbn [INR] in Q; lra|lia]. }
    specialize (M (S k) SK). unfold thr in *. rewrite S_INR in M. unfold Rabs in M. repeat destruct (Rcase_abs _) in M; lra.
  - destruct k as [|k]; [unfold thr in Q; cbn [INR] in Q; lra|]. specialize (M k ltac:(lia)). unfold thr in *. rewrite S_INR in *. unfold Rabs in M. repeat destruct (Rcase_abs _) in M; lra.
Qed.
Lemma near_le e e' k k' : e < e' -> near_idx e k -> near_idx e' k' -> (k <= k')%nat.
Proof.
  intros H (L & M) (L' & M'). destruct (le_lt_dec k k') as [|C]; [assumption|exfalso]. specialize (M k' L'). specialize (M' k L). apply thr_lt in C.
  unfold Rabs in M, M'. repeat destruct (Rcase_abs _) in M; repeat destruct (Rcase_abs _) in M'; lra.
Qed.
Lemma near75_idx e : near75 e -> near_idx e 13 /\ amin (Fin e) = 13%nat.
Proof.
  unfold P_pr23.near75. intros H. assert (0.7499 < e < 0.7501) as B by (apply Rabs_le_between in H; lra). clear H.
  assert (thr 13 = 0.75) as T by (unfold thr; cbn [INR]; lra).
  assert (forall j, (j < 18)%nat -> j <> 13%nat -> Rabs (thr 13 - e) < Rabs (thr j - e)) as F.
  { intros j Hj Nj. assert (thr j <= 0.70001 \/ 0.799 <= thr j) as [C|C].
    { destruct (lt_eq_lt_dec j 13) as [[C| ->]|C]; [left|congruence|right].
      - assert (INR j <= INR 12) as Q by (apply le_INR; lia). unfold thr. cbn [INR] in Q. lra.
      - assert (INR 14 <= INR j) as Q by (apply le_INR; lia). unfold thr. cbn [INR] in Q. lra. }
    all: rewrite T; unfold Rabs; repeat destruct (Rcase_abs _); lra. }
  split.
  - split; [lia|]. intros j Hj. destruct (Nat.eq_dec j 13) as [->|N]; [lra|left; apply F; assumption].
  - destruct (amin_spec e) as ((L & M) & _). destruct (Nat.eq_dec (amin (Fin e)) 13) as [E|N]; [exact E|]. specialize (F _ L N). specialize (M 13%nat ltac:(lia)). lra.
Qed.
