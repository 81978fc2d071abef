(** * C147: ASB14, AGA16 and COP14 along curves of magnitude, distance, depth and velocity moving at once

    Vocabulary: Spec_asb14.v, Spec_sub.v; [resp_continuous] in Cont.v, [resp_continuous1] in Outs1.v. *)
From Coquelicot Require Import Coquelicot.
From Coq Require Import List Lia.
From Interval Require Import Tactic.
From Verif Require Import M_asb14 M_aga16 Anal Nga Outs Outs1 Cont Cont1 Spec_asb14 Spec_sub P_asb14 P_aga16 P_aga16b P_ngacont.
Open Scope R_scope.
Open Scope string_scope.
Open Scope list_scope.

(** ** ASB14: the scenario with another magnitude, value of the metric in use, and velocity *)
Definition asb_at (a : asb) (m d v : R) : asb := asb_with_v (asb_with_m (asb_dist a d) m) v.
Lemma asb_ref_move c mech (m d : R -> R) x : In c asb_all -> continuous m x -> continuous d x -> continuous (fun t => asb_ref_val c mech (m t) (d t)) x.
Proof.
  intros Hc Cm Cd. row_pos Hc (fun c => asb14_a_6 c) as A6. unfold asb_ref_val. contc; try assumption.
  assert (0 < Q2R (asb14_a_6 c) * Q2R (asb14_a_6 c)) by (apply Rmult_lt_0_compat; lra). apply sqrt_lt_R0. pose proof (Rle_0_sqr (d x)) as S. unfold Rsqr in S. lra.
Qed.
Lemma asb_site_move c (p v : R -> R) x : In c asb_all -> continuous p x -> continuous v x -> (forall t, 0 < p t) -> (forall t, 0 < v t) ->
  continuous (fun t => asb_site_val c (p t) (v t)) x.
Proof.
  intros I Cp Cv Hp Hv. row_pos I (fun c => asb14_c c) as AC. assert (AC' : 0 < Q2R (asb14_c c)) by lra. row_pos I (fun c => asb14_v_con c) as AV.
  apply (cext (fun t => Q2R (asb14_b_1 c) * ln (Rmin (v t) (Q2R (asb14_v_con c)) / 750)
    + Q2R (asb14_b_2 c) * ln ((p t + Q2R (asb14_c c) * Rpower (Rmin (v t) 750 / 750) (Q2R (asb14_n c))) / ((p t + Q2R (asb14_c c)) * Rpower (Rmin (v t) 750 / 750) (Q2R (asb14_n c))))));
    [intros t; symmetry; apply asb_site_as_min; auto|].
  pose proof (Hp x). pose proof (Hv x).
  assert (0 < Rmin (v x) 750) by (apply Rmin_pos; lra). assert (0 < Rmin (v x) (Q2R (asb14_v_con c))) by (apply Rmin_pos; lra).
  assert (U : 0 < Rpower (Rmin (v x) 750 / 750) (Q2R (asb14_n c))) by apply exp_pos.
  pose proof (Rmult_lt_0_compat _ _ AC' U).
  assert (0 < (p x + Q2R (asb14_c c)) * Rpower (Rmin (v x) 750 / 750) (Q2R (asb14_n c))) by (apply Rmult_lt_0_compat; lra).
  cont; try assumption; try (apply Rdiv_lt_0_compat; lra); try (apply Rgt_not_eq; lra).
Qed.
Lemma asb_at_choice a : exists t, In t asb_tables /\ forall m d v, asb_choice (asb_at a m d v) = Some (d, t).
Proof.
  unfold asb_at, asb_dist, asb_choice. destruct (a_jb a); [exists asb14_jb_coeff|destruct (a_hyp a); [exists asb14_hyp_coeff|exists asb14_epi_coeff]];
    (split; [unfold asb_tables; cbn [In]; auto|reflexivity]).
Qed.
Theorem C147_asb14 : forall a m d v x0, continuous m x0 -> continuous d x0 -> continuous v x0 -> (forall x, 0 < v x) ->
  resp_continuous (fun x o => exists src, asb_gives src (asb_at a (m x) (d x) (v x)) /\ gmm_out (asb14 src) o) x0.
Proof.
  intros a m d v x0 Cm Cd Cv Hv. destruct (asb_at_choice a) as (t & T & E). destruct (asb_shape t T) as (c0 & c1 & l & -> & L & _).
  assert (I : incl (c0 :: c1 :: l) asb_all) by (apply asb_incl; exact T).
  assert (I0 : In c0 asb_all) by (apply I; left; reflexivity).
  apply (rows_continuous (c0 :: c1 :: l) l c0 c1 (fun x => asb_row (asb_at a (m x) (d x) (v x)) (d x) (asb_pga (asb_at a (m x) (d x) (v x)) (d x) c0))
           (fun x c => qf (asb14_sd_total c)) (fun x => asb_val (asb_at a (m x) (d x) (v x)) (d x) c0)) with (r := 1);
    [intros c Hc; right; right; exact Hc|left; reflexivity|right; left; reflexivity|lra| | |].
  - intros x o (src & G & O). apply (gmm_out_fun (asb14 src)); [exact O|].
    apply (asb14_out src (asb_at a (m x) (d x) (v x)) (d x) (c0 :: c1 :: l) G). apply E.
  - intros x c Hc _. apply asb_row_fin; auto. cbn. apply Hv.
  - intros c Hc. specialize (I c Hc). unfold asb_val. apply (cplus (fun x => asb_ref_val c (a_mech (asb_dist a (d x))) (m x) (d x)) (fun x => asb_site_val c (exp (asb_ref_val c0 (a_mech (asb_dist a (d x))) (m x) (d x))) (v x))).
    + apply (cext (fun x => asb_ref_val c (a_mech a) (m x) (d x))); [intros; unfold asb_dist; destruct (a_jb a); [|destruct (a_hyp a)]; reflexivity|]. apply asb_ref_move; assumption.
    + apply asb_site_move; auto using exp_pos. apply cexp.
      apply (cext (fun x => asb_ref_val c0 (a_mech a) (m x) (d x))); [intros; unfold asb_dist; destruct (a_jb a); [|destruct (a_hyp a)]; reflexivity|]. apply asb_ref_move; assumption.
Qed.
Print Assumptions C147_asb14.

(** ** AGA16: another magnitude, value of the distance used, hypocentral depth and velocity *)
Definition sub_at (u : sub) (m d z v : R) : sub :=
  Sub m (if slab u then u_rup u else Some d) (if slab u then Some d else u_hyp u) (Some z) v (u_event u) (u_region u).
Lemma site_cont_pv vl b n c t12 (p v : R -> R) x : 0 < Q2R c -> 0 < Q2R vl -> continuous p x -> (forall t, 0 < p t) -> continuous v x -> (forall t, 0 < v t) ->
  (1000 < Q2R vl -> v x <> Q2R vl) -> continuous (fun t => sub_site_val vl b n c t12 (p t) (v t)) x.
Proof.
  intros Hc Hl Cp Hp Cv Hv N. set (w := Q2R vl) in *. pose proof (Hp x) as Px. pose proof (Hv x) as Vx.
  destruct (Rle_dec w 1000) as [L|L].
  - apply (cext (fun t => Q2R t12 * ln (Rmin (v t) 1000 / w)
        + Q2R b * (ln (p t + Q2R c * Rpower (Rmin (v t) w / w) (Q2R n)) - ln (p t + Q2R c))
        + Q2R b * Q2R n * ln (Rmax (Rmin (v t) 1000) w / w))).
    + intros t. pose proof (Hp t). pose proof (Hv t). unfold sub_site_val. fold w. cbv zeta.
      assert (R1 : ln (w / w) = 0) by (replace (w / w) with 1 by (field; apply Rgt_not_eq; lra); apply ln_1).
      destruct (Rlt_dec (v t) w).
      * rewrite (Rmin_left (v t) w) by lra. rewrite (Rmin_left (v t) 1000) by lra. rewrite (Rmax_right (v t) w) by lra. rewrite R1. ring.
      * rewrite (Rmin_right (v t) w) by lra. rewrite (Rmax_left (Rmin (v t) 1000) w) by (apply Rmin_glb; lra).
        replace (w / w) with 1 by (field; apply Rgt_not_eq; lra).
        replace (Rpower 1 (Q2R n)) with 1 by (unfold Rpower; rewrite ln_1, Rmult_0_r, exp_0; reflexivity).
        rewrite Rmult_1_r. ring.
    + assert (0 < Rmin (v x) 1000) by (apply Rmin_pos; lra). assert (0 < Rmin (v x) w) by (apply Rmin_pos; lra).
      assert (0 < Rmax (Rmin (v x) 1000) w) by (apply Rlt_le_trans with w; [lra|apply Rmax_r]).
      pose proof (Rmult_lt_0_compat _ _ Hc (exp_pos (Q2R n * ln (Rmin (v x) w / w)))) as K. fold (Rpower (Rmin (v x) w / w) (Q2R n)) in K.
      cont; try assumption; try (apply Rdiv_lt_0_compat; lra); try (apply Rgt_not_eq; lra); try lra.
  - assert (N' : v x <> w) by (apply N; lra).
    assert (P0 : 0 < Rmin (v x) 1000) by (apply Rmin_pos; lra).
    destruct (Rlt_dec (v x) w) as [H|H].
    + destruct (near_lt v (fun _ => w) x Cv (cconst _ _) H) as (e & He & Ne).
      apply (cext_near (fun t => Q2R t12 * ln (Rmin (v t) 1000 / w) - Q2R b * ln (p t + Q2R c) + Q2R b * ln (p t + Q2R c * Rpower (Rmin (v t) 1000 / w) (Q2R n))) _ x e He).
      * intros t Ht. specialize (Ne t Ht). unfold sub_site_val. fold w. cbv zeta. destruct (Rlt_dec (v t) w); [reflexivity|contradiction].
      * pose proof (Rmult_lt_0_compat _ _ Hc (exp_pos (Q2R n * ln (Rmin (v x) 1000 / w)))) as K. fold (Rpower (Rmin (v x) 1000 / w) (Q2R n)) in K.
        cont; try assumption; try (apply Rdiv_lt_0_compat; lra); try (apply Rgt_not_eq; lra); try lra.
    + destruct (near_lt (fun _ => w) v x (cconst _ _) Cv ltac:(lra)) as (e & He & Ne).
      apply (cext_near (fun t => (Q2R t12 + Q2R b * Q2R n) * ln (Rmin (v t) 1000 / w)) _ x e He).
      * intros t Ht. specialize (Ne t Ht). cbv beta in Ne. unfold sub_site_val. fold w. cbv zeta. destruct (Rlt_dec (v t) w); [lra|reflexivity].
      * cont; try assumption; try (apply Rdiv_lt_0_compat; lra); try (apply Rgt_not_eq; lra).
Qed.
Lemma sub_mag_move t4 t5 t13 a (m : R -> R) x : continuous m x -> continuous (fun t => sub_mag_val t4 t5 t13 a (m t)) x.
Proof. intros C. apply (continuous_comp m (fun m => sub_mag_val t4 t5 t13 a m)); [exact C|apply sub_mag_cont]. Qed.
Lemma aga16_rock_move sl bk c a scale (m d z : R -> R) x : In c aga16_coeff -> (forall t, 0 <= d t) -> continuous m x -> continuous d x -> continuous z x ->
  continuous (fun t => aga16_rock sl bk c a scale (m t) (d t) (z t)) x.
Proof.
  intros Hc Hd Cm Cd Cz. row_pos Hc (fun c => aga16_c_4 c) as C4. unfold aga16_rock. pose proof (Hd x).
  assert (0 < Q2R (aga16_c_4 c) * exp (Q2R (aga16_t_9 c) * (m x - 6))) by (apply Rmult_lt_0_compat; [lra|apply exp_pos]).
  assert (0 < Rmax (d x) 85 / 40) by (apply Rdiv_lt_0_compat; [apply Rlt_le_trans with 85; [lra|apply Rmax_r]|lra]).
  assert (0 < Rmax (d x) 100 / 40) by (apply Rdiv_lt_0_compat; [apply Rlt_le_trans with 100; [lra|apply Rmax_r]|lra]).
  destruct bk, sl; contc; try assumption; try lra; try (apply sub_mag_move; assumption).
Qed.
Theorem C147_aga16 : forall u a l scale m d z v x0,
  (backarc u = true -> u_event u = "interface" \/ u_event u = "intraslab") ->
  adj_vals a (slab u) (map (fun c => Q2R (aga16_period c)) aga16_coeff) = Some l ->
  continuous m x0 -> continuous d x0 -> continuous z x0 -> continuous v x0 -> (forall x, 0 <= d x) -> (forall x, 0 < v x) ->
  (forall c, In c aga16_coeff -> 1000 < Q2R (aga16_v_lin c) -> v x0 <> Q2R (aga16_v_lin c)) ->
  resp_continuous1 (fun x o => exists src, sub_gives src (sub_at u (m x) (d x) (z x) (v x)) /\ gmm_out1 (aga16 src (adj_of a) (Fin scale)) o) x0.
Proof.
  intros u a l scale m d z v x0 HB A Cm Cd Cz Cv Hd Hv N. destruct (adj_fin u a l A) as (_ & L).
  destruct (combine aga16_coeff l) as [|cs0 rest] eqn:C.
  { exfalso. assert (E : List.length (combine aga16_coeff l) = 23%nat) by (rewrite combine_length, L; reflexivity). rewrite C in E. discriminate. }
  destruct (aga16_hd _ _ _ C) as (_ & _ & _ & I0 & I).
  set (s x := sub_at u (m x) (d x) (z x) (v x)).
  assert (Rd : forall x, sub_ready (s x) (d x) (z x)).
  { intros x. unfold sub_ready, sub_dist, s, sub_at, slab, backarc; cbn [u_event u_region u_hyp u_rup u_depth]. split; [destruct (String.eqb (u_event u) "intraslab"); reflexivity|]. split; [reflexivity|exact HB]. }
  apply (rows_continuous1 (cs0 :: rest) rest cs0
     (fun x => aga16_rowR (s x) scale (d x) (z x) (fexp (aga16_rowR (s x) scale (d x) (z x) NaN cs0)))
     (fun _ => aga16_std) (fun x => aga16_val (s x) scale (d x) (z x) (fst cs0) (snd cs0))) with (r := 1);
    [intros c Hc; right; exact Hc|left; reflexivity|lra| | |].
  - intros x o (src & G & O). apply (gmm_out1_fun _ _ _ O). apply (aga16_out src (s x) a l); auto.
  - intros x cs Hc _. apply (aga16_row_fin (s x) scale (d x) (z x) cs0 rest l cs C Hc (Hd x)); [apply Hv|exact HB].
  - intros cs Hc. specialize (I cs Hc). unfold aga16_val, s, sub_at, slab, backarc; cbn [u_mag u_v u_event u_region].
    row_pos I (fun c => aga16_c c) as CC. row_pos I (fun c => aga16_v_lin c) as CV.
    apply (cplus (fun x => aga16_rock _ _ (fst cs) (snd cs) scale (m x) (d x) (z x)) (fun x => aga16_site (fst cs) _ (v x))); [apply aga16_rock_move; assumption|].
    unfold aga16_site. apply site_cont_pv; [lra|lra| |intros; apply exp_pos|exact Cv|exact Hv|apply N; exact I].
    unfold aga16_pga1000. cbn [u_mag]. apply cexp. apply (cplus (fun x => aga16_rock _ _ (fst cs0) (snd cs0) scale (m x) (d x) (z x)) (fun x => aga16_site (fst cs0) 0 1000)); [apply aga16_rock_move; assumption|apply cconst].
Qed.
Print Assumptions C147_aga16.

(** ** COP14 *)
Lemma cop14_rock_move c a scale (m d : R -> R) x : In c cop14_coeff -> (forall t, 0 <= d t) -> continuous m x -> continuous d x ->
  continuous (fun t => cop14_rock c a scale (m t) (d t)) x.
Proof.
  intros Hc Hd Cm Cd. row_pos Hc (fun c => cop14_c_4 c) as C4. unfold cop14_rock. pose proof (Hd x).
  assert (0 < Q2R (cop14_c_4 c) * exp (Q2R (cop14_t_9 c) * (m x - 6))) by (apply Rmult_lt_0_compat; [lra|apply exp_pos]).
  assert (0 < Rmax (d x) 40 / 40) by (apply Rdiv_lt_0_compat; [apply Rlt_le_trans with 40; [lra|apply Rmax_r]|lra]).
  contc; try assumption; try lra; try (apply sub_mag_move; assumption).
Qed.
Definition cop_at (u : sub) (m d v : R) : sub := sub_with_v (sub_with_m (sub_with_rup u d) m) v.
Theorem C147_cop14 : forall u scale m d v x0,
  continuous m x0 -> continuous d x0 -> continuous v x0 -> (forall x, 0 <= d x) -> (forall x, 0 < v x) ->
  (forall c, In c cop14_coeff -> 1000 < Q2R (cop14_v_lin c) -> v x0 <> Q2R (cop14_v_lin c)) ->
  resp_continuous1 (fun x o => exists src, cop_gives src (cop_at u (m x) (d x) (v x)) /\ gmm_out1 (cop14 src (Fin scale)) o) x0.
Proof.
  intros u scale m d v x0 Cm Cd Cv Hd Hv N. destruct cop14_hd as (_ & _ & _ & I0). set (s x := cop_at u (m x) (d x) (v x)).
  apply (rows_continuous1 cop14_coeff cop14_coeff cop14_c0
     (fun x => cop14_rowf (s x) scale (d x) (fexp (cop14_rowf (s x) scale (d x) NaN cop14_c0)))
     (fun _ => cop14_std) (fun x => cop14_val (s x) scale (d x) cop14_c0)) with (r := 1);
    [intros c Hc; exact Hc|exact I0|lra| | |].
  - intros x o (src & G & O). apply (gmm_out1_fun _ _ _ O). apply (cop14_out src (s x)); auto.
  - intros x c Hc _. apply cop14_row_fin; auto. apply Hv.
  - intros c I. unfold cop14_val, s, cop_at, sub_with_v, sub_with_m, sub_with_rup, slab; cbn [u_mag u_v u_event]. cbv zeta.
    row_pos I (fun c => cop14_c c) as CC. row_pos I (fun c => cop14_v_lin c) as CV.
    apply (cplus (fun x => cop14_rock c _ scale (m x) (d x)) (fun x => cop14_site c _ (v x))); [apply cop14_rock_move; assumption|].
    unfold cop14_site at 1. apply site_cont_pv; [lra|lra| |intros; apply exp_pos|exact Cv|exact Hv|apply N; exact I].
    apply cexp. apply (cplus (fun x => cop14_rock cop14_c0 _ scale (m x) (d x)) (fun x => cop14_site cop14_c0 0 1000)); [apply cop14_rock_move; assumption|apply cconst].
Qed.
Print Assumptions C147_cop14.

(** Each run exists at a moving point, and the velocities excluded are few. *)
Example C147_nonvacuous : let u := Sub 7 (Some 60) None (Some 30) 400 "interface" (Some "forearc") in
  let a := Asb None (Some 20) None 6 400 "SS" in
  (exists src o, asb_gives src (asb_at a 6.5 30 500) /\ gmm_out (asb14 src) o) /\
  (exists src o, sub_gives src (sub_at u 7.5 80 20 500) /\ gmm_out1 (aga16 src (adj_of AdjDefault) (Fin 1)) o) /\
  (exists src o, cop_gives src (cop_at u 7.5 80 500) /\ gmm_out1 (cop14 src (Fin 1)) o) /\
  continuous (fun t => 6 + t * t) 1.
Proof.
  cbv zeta. split; [|split; [|split]].
  - eexists. destruct (asb14_some _ _ (asb_src_gives (asb_at (Asb None (Some 20) None 6 400 "SS") 6.5 30 500))) as (o & O); [right; left; discriminate|]. exists o. split; [apply asb_src_gives|exact O].
  - eexists. destruct (aga16_positive _ (sub_at (Sub 7 (Some 60) None (Some 30) 400 "interface" (Some "forearc")) 7.5 80 20 500) AdjDefault (map (dc1_default false) (map (fun c => Q2R (aga16_period c)) aga16_coeff)) 1 80 20 (sub_src_gives _)) as (o & O & _);
      [|reflexivity|lra|cbn; lra|exists o; split; [apply sub_src_gives|exact O]].
    split; [reflexivity|]. split; [discriminate|discriminate].
  - set (u := cop_at _ _ _ _). assert (G : cop_gives (sub_src u) u) by (repeat split). exists (sub_src u).
    destruct (cop14_positive (sub_src u) u 1 80 G eq_refl ltac:(lra) ltac:(cbn; lra)) as (o & O & _). exists o. split; [exact G|exact O].
  - contc.
Qed.
