(** * C150 (continued): the Fourier amplitudes of BA19 on rock along curves of all inputs moving at once

    Vocabulary: Spec_ba19.v; [vec_continuous] in Cont1.v. *)
From Coquelicot Require Import Coquelicot.
From Coq Require Import List Lia.
From Verif Require Import M_ba19 FrameworkProofs Anal Nga Outs Cont Cont1 Spec_hkr14 Spec_ba19 P_ba19 P_ba19b P_ngacont.
Open Scope R_scope.
Open Scope string_scope.
Open Scope list_scope.

Lemma ccosh (f : R -> R) x : continuous f x -> continuous (fun t => cosh (f t)) x.
Proof. intros C. unfold cosh. contc; try assumption; lra. Qed.
Lemma t_mag_c c (m : R -> R) x : continuous m x -> continuous (fun t => t_mag c (m t)) x.
Proof.
  intros C. unfold t_mag. assert (0 < 1 + exp (cell (ba19_cn c) * (cell (ba19_cM c) - m x))) by (pose proof (exp_pos (cell (ba19_cn c) * (cell (ba19_cM c) - m x))); lra).
  apply cplus; [contc; assumption|]. apply cmult; [apply cconst|]. contc; assumption.
Qed.
Lemma t_path_c c (m r : R -> R) x : In c low_rows -> 0 <= r x -> continuous m x -> continuous r x -> continuous (fun t => t_path c (m t) (r t)) x.
Proof.
  intros Hc Hr Cm Cr. pose proof (b5 _ (row_bounds c Hc)) as B5. unfold t_path.
  pose proof (cosh_ge1 (cell (ba19_c6 c) * Rmax (m x - cell (ba19_chm c)) 0)) as C1.
  assert (0 < sqrt (r x ^ 2 + 50 ^ 2)) by (apply sqrt_lt_R0; pose proof (pow2_ge_0 (r x)); lra).
  apply cplus; [apply cplus|contc; assumption]; (apply cmult; [apply cconst|]).
  - apply cln; [apply cplus; [assumption|]; apply cmult; [apply cconst|]; apply ccosh; contc; assumption|nra].
  - contc; assumption.
Qed.
Lemma z1_c (v : R -> R) x : continuous v x -> 0 < v x -> continuous (fun t => z1_default (v t)) x.
Proof.
  intros C V. unfold z1_default. assert (0 < v x ^ 4) by (apply pow_lt, V).
  assert (0 < (v x ^ 4 + 610 ^ 4) / (1360 ^ 4 + 610 ^ 4)) by (apply Rdiv_lt_0_compat; lra).
  apply cdiv; [|apply cconst|lra]. apply cexp. apply cmult; [apply cconst|]. apply cln; [|assumption].
  apply cdiv; [|apply cconst|lra]. apply cplus; [|apply cconst]. contc; assumption.
Qed.

(** The inputs along curves; the basin depth is left out, or given along a curve of its own. *)
Definition ba19_at (M D Z V : R -> R) (B : option (R -> R)) (mech : option string) (t : R) : eq19 :=
  Eq19 (M t) (D t) (Z t) (V t) (option_map (fun b => b t) B) mech.
Lemma lin_c c M D Z V B mech x : In c low_rows -> continuous M x -> continuous D x -> continuous Z x -> continuous V x ->
  match B with Some b => continuous b x | None => True end ->
  (forall t, eq19_ok (ba19_at M D Z V B mech t)) -> (forall t, 760 <= V t) -> continuous (fun t => ln_eas_linear c (ba19_at M D Z V B mech t)) x.
Proof.
  intros Hc CM CD CZ CV CB OK HV. destruct (OK x) as (Hr & _ & Hd). cbn [ba19_at e_r e_d] in Hr, Hd. pose proof (HV x) as Vx.
  unfold ln_eas_linear, ba19_at; cbn [e_m e_r e_z e_v e_d e_mech]. unfold e_ns; cbn [e_mech].
  apply cplus; [apply cplus; [apply cplus; [apply cplus; [apply cplus|]|]|]|].
  - apply t_mag_c, CM.
  - apply t_path_c; assumption.
  - unfold t_ztor. contc; assumption.
  - apply cconst.
  - destruct B as [b|]; cbn [option_map t_basin]; [|apply cconst]. cbn [option_map] in Hd.
    apply (cext (fun t => cell (ba19_c11d c) * ln ((Rmin (b t) 2 + 0.01) / (z1_default (V t) + 0.01)))).
    { intros t. unfold c11_of. specialize (HV t). destruct (Rle_dec (V t) 200); [lra|]. destruct (Rle_dec (V t) 300); [lra|]. destruct (Rle_dec (V t) 500); [lra|reflexivity]. }
    pose proof (z1_range (V x)) as ZR. assert (0 <= Rmin (b x) 2) by (apply Rmin_glb; lra).
    assert (0 < (Rmin (b x) 2 + 0.01) / (z1_default (V x) + 0.01)) by (apply Rdiv_lt_0_compat; lra).
    apply cmult; [apply cconst|]. apply cln; [|assumption]. apply cdiv; [contc; assumption| |lra]. apply cplus; [|apply cconst]. apply z1_c; [assumption|lra].
  - assert (0 < Rmin (V x) 1000) by (apply Rmin_pos; lra). assert (0 < Rmin (V x) 1000 / 1000) by lra. unfold t_linear_site. contc; try assumption; lra.
Qed.
Lemma combine_zero (f : ba19_row -> R) l : forall n k, List.length l = n ->
  map (fun '(c, x) => f c + x) (combine l (map (fun _ : nat => 0) (seq k n))) = map f l.
Proof.
  induction l as [|c l IH]; intros [|n] k L; try reflexivity; try discriminate. apply Nat.succ_inj in L.
  cbn [seq map combine]. rewrite (IH n (S k) L). f_equal. lra.
Qed.
Lemma lows_rock a : 760 <= e_v a -> lows a = map (fun c => ln_eas_linear c a) low_rows.
Proof.
  intros H. unfold lows. rewrite (map_ext (smoothed (raws a) (i_of a)) (fun _ => 0)) by (intros; apply nl_zero; exact H).
  apply combine_zero, low_len.
Qed.
Definition high_lin (c : ba19_row) (a : eq19) : R := ln_eas_linear last_low a - PI * kappa_of (e_v a) * (Q2R (ba19_freq_hz c) - Q2R (ba19_freq_hz last_low)).
Lemma ok_same {A} (x y : A) : Ok x = Ok y -> y = x.
Proof. intros E. congruence. Qed.
Theorem C150_ba19 : forall (M D Z V : R -> R) (B : option (R -> R)) mech t0,
  continuous M t0 -> continuous D t0 -> continuous Z t0 -> continuous V t0 -> match B with Some b => continuous b t0 | None => True end ->
  (forall t, eq19_ok (ba19_at M D Z V B mech t)) -> (forall t, 760 <= V t) ->
  vec_continuous num_close (fun t l => exists src o, eq19_gives src (ba19_at M D Z V B mech t) /\ result (ba19 src) = Ok o /\ l = ba19_p_ln_eas o) t0.
Proof.
  intros M D Z V B mech t0 CM CD CZ CV CB OK HV. set (a t := ba19_at M D Z V B mech t).
  apply (vec_cont_num (map (fun c t => ln_eas_linear c (a t)) low_rows ++ map (fun c t => high_lin c (a t)) high_rows) (fun t g => g t)) with (r := 1); [lra| |].
  - intros t l _ (src & o & G & E & ->). rewrite (ba19_make src _ G (OK t)) in E. apply ok_same in E. rewrite E. unfold ba19_p_ln_eas. cbn [ba19_eas_ln].
    rewrite !map_app, !map_map. f_equal.
    + rewrite lows_rock by apply HV. rewrite map_map. reflexivity.
    + unfold highs. rewrite map_map. apply map_ext. intros c. apply (f_equal Fin). unfold high_lin. rewrite lows_last, nl_zero by apply HV. unfold a. lra.
  - intros g Hg. apply in_app_iff in Hg as [Hg|Hg]; apply in_map_iff in Hg as (c & <- & Hc); cbv beta.
    + apply lin_c; assumption.
    + unfold high_lin, kappa_of. cbn [a ba19_at e_v]. pose proof (HV t0). assert (0 < V t0 / 760) by (apply Rdiv_lt_0_compat; lra).
      apply cminus; [apply lin_c; try assumption; apply last_in|]. contc; try assumption; lra.
Qed.
Print Assumptions C150_ba19.
Definition mv_src : dict :=
  [("mag", PNum (Fin (6 + 1 * 1))); ("dist_rup", PNum (Fin (20 + 1 * 1))); ("depth_tor", PNum (Fin (5 - 1))); ("v_s30", PNum (Fin (800 + 1 * 1))); ("depth_1_0", PNum (Fin (0.03 * (1 * 1))));
   ("mechanism", PStr "RS")].
Example C150_nonvacuous_ba19 : let M := fun t => 6 + t * t in let D := fun t => 20 + t * t in let Z := fun t => 5 - t in let V := fun t => 800 + t * t in let b := fun t => 0.03 * (t * t) in
  (exists o, result (ba19 mv_src) = Ok o /\ eq19_gives mv_src (ba19_at M D Z V (Some b) (Some "RS") 1)) /\ (forall t, eq19_ok (ba19_at M D Z V (Some b) (Some "RS") t)) /\
  continuous M 1 /\ continuous D 1 /\ continuous V 1 /\ continuous Z 1 /\ continuous b 1 /\ (forall t, 760 <= V t).
Proof.
  cbv zeta.
  assert (K : forall t, eq19_ok (ba19_at (fun t => 6 + t * t) (fun t => 20 + t * t) (fun t => 5 - t) (fun t => 800 + t * t) (Some (fun t => 0.03 * (t * t))) (Some "RS") t)).
  { intros t. pose proof (Rle_0_sqr t) as S. unfold Rsqr in S. unfold eq19_ok, ba19_at; cbn [e_r e_v e_d option_map]. lra. }
  assert (G : eq19_gives mv_src (ba19_at (fun t => 6 + t * t) (fun t => 20 + t * t) (fun t => 5 - t) (fun t => 800 + t * t) (Some (fun t => 0.03 * (t * t))) (Some "RS") 1)).
  { unfold eq19_gives, ba19_at, opt_num, opt_str, has_num, has_str; cbn [e_m e_r e_z e_v e_d e_mech option_map]. repeat split. }
  split; [eexists; split; [exact (ba19_make _ _ G (K 1))|exact G]|]. split; [exact K|].
  split; [|split; [|split; [|split; [|split]]]]; try contc. intros t. pose proof (Rle_0_sqr t) as S. unfold Rsqr in S. lra.
Qed.
