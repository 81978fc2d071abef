(** * C150: DBC14, GA11 and Idriss (2014) along curves of all their inputs moving at once

    Vocabulary: Spec_dbc14.v, Spec_ga11.v, Spec_east.v; [resp_continuous] in Cont.v, [vec_continuous] in Cont1.v. *)
From Coquelicot Require Import Coquelicot.
From Coq Require Import List Lia.
From Verif Require Import M_dbc14 M_ga11 M_i14 Anal Nga Outs Cont Cont1 Spec_dbc14 Spec_ga11 Spec_east P_dbc14 P_ga11 P_i14 P_ngacont.
From Verif Require Properties_East Properties_EastPub.
Open Scope R_scope.
Open Scope string_scope.
Open Scope list_scope.

(** ** DBC14: distance, magnitude, velocity and depth; every accepted mechanism *)
Lemma dbc_ln_fin h i c : dbc14_ln_resp (map Fin h) i c = Fin (nn_output c h * ln 10 - ln (dbc_unit i)).
Proof.
  unfold dbc14_ln_resp, nn_output. rewrite dot_fin. unfold qf. fcbn.
  replace (if Nat.eqb i 0 then Fin 0.01 else Fin (9.80665 * 1)) with (Fin (dbc_unit i)) by (unfold dbc_unit; destruct (Nat.eqb i 0); f_equal; lra).
  pose proof (dbc_unit_pos i) as U. rewrite flog10_fin by exact U. fcbn. rewrite fpowf_fin by lra.
  rewrite flog_fin by apply exp_pos. rewrite ln_Rpower10. apply (f_equal Fin).
  assert (ln 10 <> 0) by (rewrite <- ln_1; intros E; apply ln_inv in E; lra). field. assumption.
Qed.
Lemma ctanh (f : R -> R) x : continuous f x -> continuous (fun t => Rtrigo_def.tanh (f t)) x.
Proof.
  intros C. unfold Rtrigo_def.tanh, Rtrigo_def.sinh, Rtrigo_def.cosh. apply cdiv.
  - contc; try assumption; lra.
  - contc; try assumption; lra.
  - pose proof (exp_pos (f x)). pose proof (exp_pos (- f x)). lra.
Qed.
Lemma cwsum ws (fs : list (R -> R)) x : (forall f, In f fs -> continuous f x) -> continuous (fun t => wsum ws (map (fun f => f t) fs)) x.
Proof.
  revert fs. induction ws as [|w ws IH]; intros fs H; [apply cconst|]. destruct fs as [|f fs]; [apply cconst|]. cbn [map wsum].
  apply cplus; [apply cmult; [apply cconst|apply H; left; reflexivity]|apply IH; intros g Hg; apply H; right; exact Hg].
Qed.
Lemma log10_cont (f : R -> R) x : continuous f x -> 0 < f x -> continuous (fun t => Spec_dbc14.log10 (f t)) x.
Proof. intros C P. unfold Spec_dbc14.log10. assert (ln 10 <> 0) by (rewrite <- ln_1; intros E; apply ln_inv in E; lra). contc; assumption. Qed.
Theorem C150_dbc14 : forall (D M V Z : R -> R) mech k t0, mech_code mech = Some k ->
  continuous D t0 -> continuous M t0 -> continuous V t0 -> continuous Z t0 -> (forall t, 0 < D t) -> (forall t, 0 < V t) ->
  resp_continuous (fun t o => exists src, dbc_gives src (Dbc (D t) (M t) (V t) (Z t) mech) /\ gmm_out (dbc14 src) o) t0.
Proof.
  intros D M V Z mech k t0 K CD CM CV CZ HD HV. set (a t := Dbc (D t) (M t) (V t) (Z t) mech).
  apply (rows_continuous dbc_rows (skipn 2 dbc_rows) dbc_row1 dbc_row0 (fun t => dbc_row (a t) k) (fun t ic => dbc14_ln_std (snd ic))
     (fun t ic => nn_output (snd ic) (nn_hidden (a t) k) * ln 10 - ln (dbc_unit (fst ic)))) with (r := 1).
  - intros c Hc. rewrite <- (firstn_skipn 2 dbc_rows). apply in_or_app. right. exact Hc.
  - right. left. reflexivity.
  - left. reflexivity.
  - lra.
  - intros t o (src & G & O). apply (gmm_out_fun (dbc14 src)); [exact O|]. apply dbc14_out; [exact G|exact K].
  - intros t ic _ _. unfold dbc_row. rewrite dbc_layer_fin by (cbn; auto). apply dbc_ln_fin.
  - intros ic _.
    pose (ins := [fun t : R => unit_scale (Spec_dbc14.log10 (D t)) (-1) 2.738; fun t => unit_scale (M t) 3.6 7.6; fun t => unit_scale (Spec_dbc14.log10 (V t)) 1.9638 3.2035;
                  fun t => unit_scale (Z t) 0 25; fun _ => unit_scale k 1 4]).
    assert (I : forall f, In f ins -> continuous f t0).
    { intros f Hf. repeat destruct Hf as [<-|Hf]; try destruct Hf; unfold unit_scale; contc; try assumption; try lra; apply log10_cont; auto. }
    pose (hid := map (fun bw (t : R) => Rtrigo_def.tanh (Q2R (fst bw) + wsum (snd bw) (map (fun f => f t) ins))) dbc14_hidden).
    assert (J : forall f, In f hid -> continuous f t0).
    { intros f Hf. apply in_map_iff in Hf. destruct Hf as (bw & <- & _). apply ctanh, cplus; [apply cconst|]. apply cwsum, I. }
    apply (cext (fun t => (0.5 * (Q2R (dbc14_b2 (snd ic)) + wsum (dbc14_w2 (snd ic)) (map (fun f => f t) hid) + 1) * (Q2R (dbc14_max (snd ic)) - Q2R (dbc14_min (snd ic))) + Q2R (dbc14_min (snd ic))) * ln 10 - ln (dbc_unit (fst ic)))).
    { intros t. unfold nn_output, nn_hidden, hid. rewrite map_map. reflexivity. }
    pose proof (cwsum (dbc14_w2 (snd ic)) hid t0 J). contc; assumption.
Qed.
Print Assumptions C150_dbc14.

(** ** GA11: distance, magnitude, velocity and rock PGA *)
Lemma vh_source_move c (m d : R -> R) x : In c ga11_coeff -> continuous m x -> continuous d x -> continuous (fun t => vh_source_val c (m t) (d t)) x.
Proof.
  intros Hc Cm Cd. row_pos Hc (fun c => ga11_c4 c) as C4.
  apply (cext (fun t => Q2R (ga11_a1 c) + Q2R (ga11_a8 c) * ((8.5 - m t) * (8.5 - m t))
  + (Q2R (ga11_a2 c) + Q2R (ga11_a3 c) * (m t - Q2R (ga11_c1 c))) * ln (sqrt (d t * d t + Q2R (ga11_c4 c) * Q2R (ga11_c4 c)))
  + (Q2R (ga11_a4 c) * Rmin (m t - Q2R (ga11_c1 c)) 0 + Q2R (ga11_a5 c) * Rmax (m t - Q2R (ga11_c1 c)) 0))).
  { intros t. rewrite <- hinge_min_max. reflexivity. }
  contc; try assumption.
  assert (0 < Q2R (ga11_c4 c) * Q2R (ga11_c4 c)) by (apply Rmult_lt_0_compat; lra). apply sqrt_lt_R0. pose proof (Rle_0_sqr (d x)) as S. unfold Rsqr in S. lra.
Qed.
Lemma vh_site_move c (p v : R -> R) x : In c ga11_coeff -> continuous p x -> continuous v x -> (forall t, 0 <= p t) -> (forall t, 0 < v t) ->
  continuous (fun t => vh_site_val c (p t) (v t)) x.
Proof.
  intros Hc Cp Cv Hp Hv. row_pos Hc (fun c => ga11_v_lin c) as VL. row_pos Hc (fun c => ga11_c c) as CC.
  pose proof (vh_v1_pos (Q2R (ga11_period c))) as V1. pose proof (Hp x). pose proof (Hv x). set (v1 := vh_v1 (Q2R (ga11_period c))) in *.
  apply (cext (fun t => Q2R (ga11_a10 c) * ln (Rmin (v t) v1 * / Q2R (ga11_v_lin c)) + Q2R (ga11_b c) * ln (p t + Q2R (ga11_c c))
    - Q2R (ga11_b c) * ln (p t + Q2R (ga11_c c) * Rpower (Rmin (Rmin (v t) v1 * / Q2R (ga11_v_lin c)) 1) (Q2R (ga11_n c)))
    - Q2R (ga11_b c) * Q2R (ga11_n c) * ln (Rmax (Rmin (v t) v1 * / Q2R (ga11_v_lin c)) 1))).
  { intros t. rewrite (vh_site_join c (p t) (v t)) by auto. reflexivity. }
  assert (R0 : 0 < Rmin (v x) v1 * / Q2R (ga11_v_lin c)).
  { apply Rmult_lt_0_compat; [apply Rmin_pos; assumption|apply Rinv_0_lt_compat; lra]. }
  assert (R1 : 0 < Rmin (Rmin (v x) v1 * / Q2R (ga11_v_lin c)) 1) by (apply Rmin_pos; lra).
  assert (R2 : 0 < Rmax (Rmin (v x) v1 * / Q2R (ga11_v_lin c)) 1) by (apply Rlt_le_trans with 1; [lra|apply Rmax_r]).
  assert (R3 : 0 < p x + Q2R (ga11_c c) * Rpower (Rmin (Rmin (v x) v1 * / Q2R (ga11_v_lin c)) 1) (Q2R (ga11_n c))).
  { apply Rplus_le_lt_0_compat; [assumption|]. apply Rmult_lt_0_compat; [lra|apply exp_pos]. }
  contc; try assumption; lra.
Qed.
Theorem C150_ga11 : forall (D M V P : R -> R) mech t0, continuous D t0 -> continuous M t0 -> continuous V t0 -> continuous P t0 ->
  (forall t, 0 < V t) -> (forall t, 0 <= P t) ->
  let on t src o := vh_gives src (Vh (D t) (M t) (V t) (P t) mech) /\ result (ga11 src) = Ok o in
  vec_continuous ln_close (fun t l => exists src o, on t src o /\ l = ga11_ratio o) t0 /\
  vec_continuous num_close (fun t l => exists src o, on t src o /\ l = ga11_ln_std o) t0.
Proof.
  intros D M V P mech t0 CD CM CV CP HV HP on. split.
  - apply (vec_cont_ln ga11_coeff (fun t c => vh_val (Vh (D t) (M t) (V t) (P t) mech) c)) with (r := 1); [lra| |].
    + intros t l _ (src & o & (G & E) & ->). destruct (ga11_published src _ G (HV t) (HP t)) as (o' & E' & R1 & _). rewrite E in E'. injection E' as <-. exact R1.
    + intros c Hc. unfold vh_val; cbn [h_mag h_rup h_v h_pga h_mech]. apply cplus; [apply cplus|apply cconst].
      * apply vh_source_move; assumption.
      * apply vh_site_move; assumption.
  - apply (vec_cont_num ga11_coeff (fun t c => vh_sd c (M t))) with (r := 1); [lra| |].
    + intros t l _ (src & o & (G & E) & ->). destruct (ga11_published src _ G (HV t) (HP t)) as (o' & E' & _ & R1). rewrite E in E'. injection E' as <-. exact R1.
    + intros c Hc. unfold vh_sd, vh_ramp. contc; assumption.
Qed.
Print Assumptions C150_ga11.

(** ** Idriss (2014): magnitude (away from 6.75, where the two tables meet: C19), distance and velocity *)
Definition i14_on (m r v : R) (mech : string) (g : gmm) : Prop := exists src, i14_scenario src m r v mech /\ result (i14 src) = Ok g.
Theorem C150_i14 : forall (M D V : R -> R) mech t0, mech = "SS" \/ mech = "RS" -> continuous M t0 -> continuous D t0 -> continuous V t0 ->
  M t0 <> 6.75 -> (forall t, 0 <= D t) -> (forall t, 0 < V t) ->
  vec_continuous ln_close (fun t l => exists g, i14_on (M t) (D t) (V t) mech g /\ result (g_spec_accels g) = Ok l) t0 /\
  val_continuous ln_close (fun t y => exists g, i14_on (M t) (D t) (V t) mech g /\ result (g_pga g) = Ok y) t0 /\
  vec_continuous num_close (fun t l => exists g, i14_on (M t) (D t) (V t) mech g /\ result (g_ln_stds g) = Ok l) t0.
Proof.
  intros M D V mech t0 Hm CM CD CV NM HD HV.
  assert (L : exists r, 0 < r /\ forall t, Rabs (t - t0) < r -> i14_rows (M t) = i14_rows (M t0)).
  { destruct (Rlt_dec (M t0) 6.75) as [H|H].
    - destruct (near_lt M (fun _ => 6.75) t0 CM (cconst _ _) H) as (r & Hr & N). exists r. split; [exact Hr|]. intros t Ht. specialize (N t Ht). unfold i14_rows.
      destruct (Rle_dec (M t) 6.75), (Rle_dec (M t0) 6.75); try lra; reflexivity.
    - destruct (near_lt (fun _ => 6.75) M t0 (cconst _ _) CM ltac:(lra)) as (r & Hr & N). exists r. split; [exact Hr|]. intros t Ht. specialize (N t Ht). unfold i14_rows.
      destruct (Rle_dec (M t) 6.75), (Rle_dec (M t0) 6.75); try lra; reflexivity. }
  destruct L as (r & Hr & L).
  assert (C : forall c, continuous (fun t => i14_pub c (M t) (D t) (V t) (String.eqb mech "RS")) t0).
  { intros c. pose proof (HD t0). pose proof (HV t0). unfold i14_pub. contc; try assumption; lra. }
  assert (CS : forall c, continuous (fun t => i14_sigma c (M t)) t0) by (intros c; unfold i14_sigma; contc; assumption).
  split; [|split].
  - apply (vec_cont_ln (i14_rows (M t0)) (fun t c => i14_pub c (M t) (D t) (V t) (String.eqb mech "RS"))) with (r := r); [exact Hr| |intros c _; apply C].
    intros t l Ht (g & (src & S & E) & A). destruct (Properties_EastPub.C110_published _ _ _ _ _ S (HD t) (HV t) Hm) as (g' & c & E' & _ & _ & (_ & SA & _)).
    rewrite E in E'. injection E' as <-. rewrite A in SA. injection SA as ->. rewrite (L t Ht), map_map. reflexivity.
  - destruct (nth_error (i14_rows (M t0)) 0) as [c0|] eqn:N.
    + apply (val_cont_ln (fun t => i14_pub c0 (M t) (D t) (V t) (String.eqb mech "RS"))) with (r := r); [exact Hr| |apply C].
      intros t y Ht (g & (src & S & E) & A). destruct (Properties_EastPub.C110_published _ _ _ _ _ S (HD t) (HV t) Hm) as (g' & c & E' & N' & PA & _).
      rewrite E in E'. injection E' as <-. rewrite (L t Ht), N in N'. injection N' as <-. rewrite A in PA. injection PA as ->. reflexivity.
    + exfalso. unfold i14_rows in N. destruct (Rle_dec (M t0) 6.75); discriminate.
  - apply (vec_cont_num (i14_rows (M t0)) (fun t c => i14_sigma c (M t))) with (r := r); [exact Hr| |intros c _; apply CS].
    intros t l Ht (g & (src & S & E) & A). destruct (Properties_EastPub.C110_published _ _ _ _ _ S (HD t) (HV t) Hm) as (g' & c & E' & _ & _ & (_ & _ & SD)).
    rewrite E in E'. injection E' as <-. rewrite A in SD. injection SD as ->. rewrite (L t Ht), map_map. reflexivity.
Qed.
Print Assumptions C150_i14.

(** Curves that move all inputs at once, and scenarios on them. *)
Example C150_nonvacuous : let M := fun t => 6 + t * t in let D := fun t => 30 + t * t in let V := fun t => 400 + t * t in let Z := fun t => 5 + t in
  (exists src o, dbc_gives src (Dbc (D 1) (M 1) (V 1) (Z 1) "SS") /\ gmm_out (dbc14 src) o) /\
  (exists src o, vh_gives src (Vh (D 1) (M 1) (V 1) 0.2 "SS") /\ result (ga11 src) = Ok o) /\
  (exists g, i14_on (M 1) (D 1) (V 1) "SS" g /\ M 1 <> 6.75) /\
  continuous M 1 /\ continuous D 1 /\ continuous V 1 /\ continuous Z 1 /\ (forall t, 0 < D t) /\ (forall t, 0 < V t).
Proof.
  cbv zeta. split; [|split; [|split; [|split; [|split; [|split; [|split; [|split]]]]]]]; try contc.
  - eexists _, _. split; [apply dbc_src_gives|apply (dbc14_out _ (Dbc (30 + 1 * 1) (6 + 1 * 1) (400 + 1 * 1) (5 + 1) "SS") 4); [apply dbc_src_gives|reflexivity]].
  - eexists _, _. split; [apply vh_src_gives|apply ga11_construct, vh_src_gives].
  - destruct (Properties_EastPub.C110_published _ _ _ _ _ (Properties_East.ex_i14_ok (6 + 1 * 1) (30 + 1 * 1) (400 + 1 * 1))) as (g & _ & E & _); try lra; [left; reflexivity|].
    exists g. split; [|lra]. eexists. split; [apply Properties_East.ex_i14_ok|exact E].
  - intros t. pose proof (Rle_0_sqr t) as S. unfold Rsqr in S. lra.
  - intros t. pose proof (Rle_0_sqr t) as S. unfold Rsqr in S. lra.
Qed.
