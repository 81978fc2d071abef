(** * Larger earthquakes shake harder in the other ground motion models: C143; decay of ASB14 on every site: C70

    Vocabulary: Spec_east.v, Spec_asb14.v, Spec_sub.v. The scenarios are described by the numbers the
    source dictionary gives; the two constructions differ in the magnitude only. *)
From Coquelicot Require Import Coquelicot.
From Interval Require Import Tactic.
From Coq Require Import List.
From Verif Require Import M_c03 M_tp05 M_pzt11 M_asb14 M_aga16 FrameworkProofs NpProofs Anal Nga Outs Outs1 Spec_cms Spec_east Spec_asb14 Spec_sub
  P_c03 P_tp05 P_pzt11 P_asb14 P_aga16 P_aga16b P_magother P_magasb P_magsub Properties_East Properties_EastPub Properties_Active.
Open Scope R_scope.
Open Scope string_scope.
Open Scope list_scope.

Lemma fin_lt_rows {A} (f g : A -> R) l : (forall c, In c l -> f c < g c) -> Forall2 flt_lt (map Fin (map f l)) (map Fin (map g l)).
Proof.
  intros H. rewrite !map_map. induction l as [|c l IH]; cbn [map]; constructor; [apply flt_lt_fin, H; left; reflexivity|].
  apply IH. intros c' Hc. apply H. right. exact Hc.
Qed.

(** ** Campbell (2003): every spectral acceleration, at every distance, up to magnitude 8.1 *)
Theorem C143_campbell_grows : forall src1 src2 m1 m2 r,
  has_num src1 "mag" m1 -> has_num src1 "dist_rup" r -> has_num src2 "mag" m2 -> has_num src2 "dist_rup" r ->
  0 <= r -> m1 < m2 -> m2 <= 8.1 ->
  exists g1 g2 sa1 sa2, result (c03 src1) = Ok g1 /\ result (c03 src2) = Ok g2 /\
    result (g_spec_accels g1) = Ok sa1 /\ result (g_spec_accels g2) = Ok sa2 /\ List.length sa1 = 16%nat /\ Forall2 flt_lt sa1 sa2.
Proof.
  intros src1 src2 m1 m2 r H1 R1 H2 R2 Hr H M.
  destruct (C107_published src1 m1 r H1 R1 Hr) as (g1 & G1 & _ & A1 & _). destruct (C107_published src2 m2 r H2 R2 Hr) as (g2 & G2 & _ & A2 & _).
  exists g1, g2. do 2 eexists. repeat (split; [eassumption|]). split; [reflexivity|].
  apply fin_lt_rows. intros c Hc. apply exp_increasing, c03_grows; assumption.
Qed.
Print Assumptions C143_campbell_grows.
(** VIOLATED above: at the source the 0.15 s response falls from magnitude 8.15 to 8.2 (the limit of the model). *)
Theorem C143_campbell_refuted_above_8_1 : forall src1 src2,
  has_num src1 "mag" 8.15 -> has_num src1 "dist_rup" 0 -> has_num src2 "mag" 8.2 -> has_num src2 "dist_rup" 0 ->
  exists g1 g2 sa1 sa2 a1 a2, result (c03 src1) = Ok g1 /\ result (c03 src2) = Ok g2 /\
    result (g_spec_accels g1) = Ok sa1 /\ result (g_spec_accels g2) = Ok sa2 /\
    nth_error sa1 6 = Some a1 /\ nth_error sa2 6 = Some a2 /\ flt_lt a2 a1.
Proof.
  intros src1 src2 H1 R1 H2 R2.
  destruct (C107_published src1 _ 0 H1 R1 ltac:(lra)) as (g1 & G1 & _ & A1 & _). destruct (C107_published src2 _ 0 H2 R2 ltac:(lra)) as (g2 & G2 & _ & A2 & _).
  exists g1, g2. do 4 eexists. repeat (split; [eassumption|]). split; [reflexivity|]. split; [reflexivity|].
  apply flt_lt_fin, exp_increasing. clear. unfold c03_pub. cbv zeta. rewrite !Rmax_right by lra.
  cbn [c03_c_1 c03_c_2 c03_c_3 c03_c_4 c03_c_5 c03_c_6 c03_c_7 c03_c_8 c03_c_9 c03_c_10]. unfold Q2R; cbn [Qnum Qden]. interval with (i_prec 60).
Qed.
Print Assumptions C143_campbell_refuted_above_8_1.
Example C143_campbell_nonvacuous : exists g1 g2 sa1 sa2, result (c03 (ex_mr 6 20)) = Ok g1 /\ result (c03 (ex_mr 7 20)) = Ok g2 /\
    result (g_spec_accels g1) = Ok sa1 /\ result (g_spec_accels g2) = Ok sa2 /\ List.length sa1 = 16%nat /\ Forall2 flt_lt sa1 sa2.
Proof. apply (C143_campbell_grows _ _ 6 7 20); try reflexivity; lra. Qed.

(** ** Tavakoli & Pezeshk (2005): from magnitude 5, to 7.1 at every distance and to 8.2 from 20 km *)
Theorem C143_tavakoli_pezeshk_grows : forall src1 src2 m1 m2 r,
  has_num src1 "mag" m1 -> has_num src1 "dist_rup" r -> has_num src2 "mag" m2 -> has_num src2 "dist_rup" r ->
  0 <= r -> 5 <= m1 -> m1 < m2 -> m2 <= 7.1 \/ 20 <= r /\ m2 <= 8.2 ->
  exists g1 g2 sa1 sa2 p1 p2, result (tp05 src1) = Ok g1 /\ result (tp05 src2) = Ok g2 /\
    result (g_spec_accels g1) = Ok sa1 /\ result (g_spec_accels g2) = Ok sa2 /\ List.length sa1 = 13%nat /\ Forall2 flt_lt sa1 sa2 /\
    result (g_pga g1) = Ok p1 /\ result (g_pga g2) = Ok p2 /\ flt_lt p1 p2.
Proof.
  intros src1 src2 m1 m2 r H1 R1 H2 R2 Hr Hm H M.
  destruct (C108_published src1 m1 r H1 R1 ltac:(destruct M; lra) Hr) as (g1 & c0 & l & G1 & E & _ & P1 & _ & _ & A1 & _).
  destruct (C108_published src2 m2 r H2 R2 ltac:(destruct M; lra) Hr) as (g2 & c0' & l' & G2 & E' & _ & P2 & _ & _ & A2 & _).
  rewrite E in E'. injection E' as <- <-.
  exists g1, g2. do 4 eexists. repeat (split; [eassumption|]).
  split; [rewrite !map_length; apply (f_equal (@List.length _)) in E; cbn [List.length tp05_coeff] in E; lia|].
  split; [|split; [exact P1|split; [exact P2|]]].
  - apply fin_lt_rows. intros c Hc. apply exp_increasing, tp05_grows; auto. rewrite E; right; exact Hc.
  - apply flt_lt_fin, exp_increasing, tp05_grows; auto. rewrite E; left; reflexivity.
Qed.
Print Assumptions C143_tavakoli_pezeshk_grows.
(** VIOLATED near the source: the PGA falls from magnitude 7.5 to 8.2. *)
Theorem C143_tavakoli_pezeshk_refuted_near : forall src1 src2,
  has_num src1 "mag" 7.5 -> has_num src1 "dist_rup" 1 -> has_num src2 "mag" 8.2 -> has_num src2 "dist_rup" 1 ->
  exists g1 g2 p1 p2, result (tp05 src1) = Ok g1 /\ result (tp05 src2) = Ok g2 /\
    result (g_pga g1) = Ok p1 /\ result (g_pga g2) = Ok p2 /\ flt_lt p2 p1.
Proof.
  intros src1 src2 H1 R1 H2 R2.
  destruct (C108_published src1 _ 1 H1 R1 ltac:(lra) ltac:(lra)) as (g1 & c0 & l & G1 & E & _ & P1 & _ & _ & A1 & _).
  destruct (C108_published src2 _ 1 H2 R2 ltac:(lra) ltac:(lra)) as (g2 & c0' & l' & G2 & E' & _ & P2 & _ & _ & A2 & _).
  rewrite E in E'. injection E' as <- <-. exists g1, g2. do 2 eexists. repeat (split; [eassumption|]).
  apply flt_lt_fin, exp_increasing. unfold tp05_coeff in E. injection E as <- _. clear.
  unfold tp05_pub. cbv zeta. rewrite !Rmax_right by lra.
  cbn [tp05_c_1 tp05_c_2 tp05_c_3 tp05_c_4 tp05_c_5 tp05_c_6 tp05_c_7 tp05_c_8 tp05_c_9 tp05_c_10 tp05_c_11 tp05_c_12 tp05_c_13]. unfold Q2R; cbn [Qnum Qden]. interval with (i_prec 60).
Qed.
Print Assumptions C143_tavakoli_pezeshk_refuted_near.
Example C143_tavakoli_pezeshk_nonvacuous : exists g1 g2 p1 p2, result (tp05 (ex_mr 6 20)) = Ok g1 /\ result (tp05 (ex_mr 8 20)) = Ok g2 /\
    result (g_pga g1) = Ok p1 /\ result (g_pga g2) = Ok p2 /\ flt_lt p1 p2.
Proof.
  destruct (C143_tavakoli_pezeshk_grows (ex_mr 6 20) (ex_mr 8 20) 6 8 20) as (g1 & g2 & s1 & s2 & p1 & p2 & G1 & G2 & _ & _ & _ & _ & P1 & P2 & L);
   try reflexivity; try lra. exists g1, g2, p1, p2. auto.
Qed.

(** ** Pezeshk et al. (2011): to magnitude 6.6 at every distance and to 8 from 15 km *)
Theorem C143_pezeshk_grows : forall src1 src2 m1 m2 r,
  has_num src1 "mag" m1 -> has_num src1 "dist_rup" r -> has_num src2 "mag" m2 -> has_num src2 "dist_rup" r ->
  m1 < m2 -> m2 <= 6.6 \/ 15 <= r /\ m2 <= 8 ->
  exists g1 g2 sa1 sa2 p1 p2, result (pzt11 src1) = Ok g1 /\ result (pzt11 src2) = Ok g2 /\
    result (g_spec_accels g1) = Ok sa1 /\ result (g_spec_accels g2) = Ok sa2 /\ List.length sa1 = 22%nat /\ Forall2 flt_lt sa1 sa2 /\
    result (g_pga g1) = Ok p1 /\ result (g_pga g2) = Ok p2 /\ flt_lt p1 p2.
Proof.
  intros src1 src2 m1 m2 r H1 R1 H2 R2 H M.
  destruct (C109_published src1 m1 r H1 R1) as (g1 & c0 & l & G1 & E & _ & P1 & _ & _ & A1 & _).
  destruct (C109_published src2 m2 r H2 R2) as (g2 & c0' & l' & G2 & E' & _ & P2 & _ & _ & A2 & _).
  rewrite E in E'. injection E' as <- <-.
  assert (D : forall c, In c pzt11_coeff -> Rpower 10 (pzt11_pub c m1 r) < Rpower 10 (pzt11_pub c m2 r)).
  { intros c Hc. apply Rpower_lt; [lra|]. destruct M as [M|(K & M)]; [apply pzt11_grows_any|apply pzt11_grows_far]; auto. }
  exists g1, g2. do 4 eexists. repeat (split; [eassumption|]).
  split; [rewrite !map_length; apply (f_equal (@List.length _)) in E; cbn [List.length pzt11_coeff] in E; lia|].
  split; [|split; [exact P1|split; [exact P2|]]].
  - apply fin_lt_rows. intros c Hc. apply D. rewrite E; right; exact Hc.
  - apply flt_lt_fin, D. rewrite E; left; reflexivity.
Qed.
Print Assumptions C143_pezeshk_grows.
(** VIOLATED near the source: at 1 km the PGA falls from magnitude 7 to 8. *)
Theorem C143_pezeshk_refuted_near : forall src1 src2,
  has_num src1 "mag" 7 -> has_num src1 "dist_rup" 1 -> has_num src2 "mag" 8 -> has_num src2 "dist_rup" 1 ->
  exists g1 g2 p1 p2, result (pzt11 src1) = Ok g1 /\ result (pzt11 src2) = Ok g2 /\
    result (g_pga g1) = Ok p1 /\ result (g_pga g2) = Ok p2 /\ flt_lt p2 p1.
Proof.
  intros src1 src2 H1 R1 H2 R2.
  destruct (C109_published src1 _ 1 H1 R1) as (g1 & c0 & l & G1 & E & _ & P1 & _ & _ & A1 & _).
  destruct (C109_published src2 _ 1 H2 R2) as (g2 & c0' & l' & G2 & E' & _ & P2 & _ & _ & A2 & _).
  rewrite E in E'. injection E' as <- <-. exists g1, g2. do 2 eexists. repeat (split; [eassumption|]).
  apply flt_lt_fin, Rpower_lt; [lra|]. unfold pzt11_coeff in E. injection E as <- _. clear.
  apply Rminus_lt. rewrite pzt11_diff.
  cbn [pzt11_c_2 pzt11_c_3 pzt11_c_5 pzt11_c_7 pzt11_c_9 pzt11_c_11]. unfold Q2R; cbn [Qnum Qden].
  set (s := sqrt _). assert (S : s <= 8) by (unfold s; interval with (i_prec 40)). assert (S0 : 1 < s <= 8) by (unfold s; split; interval with (i_prec 40)).
  rewrite (Rmin_left s 140), (Rmin_left s 70), (Rmax_left 70), (Rmax_right s 140) by lra.
  unfold s. unfold log10. interval with (i_prec 60).
Qed.
Print Assumptions C143_pezeshk_refuted_near.
Example C143_pezeshk_nonvacuous : exists g1 g2 p1 p2, result (pzt11 (ex_mr 6 20)) = Ok g1 /\ result (pzt11 (ex_mr 8 20)) = Ok g2 /\
    result (g_pga g1) = Ok p1 /\ result (g_pga g2) = Ok p2 /\ flt_lt p1 p2.
Proof.
  destruct (C143_pezeshk_grows (ex_mr 6 20) (ex_mr 8 20) 6 8 20) as (g1 & g2 & s1 & s2 & p1 & p2 & G1 & G2 & _ & _ & _ & _ & P1 & P2 & L);
   try reflexivity; try lra. exists g1, g2, p1, p2. auto.
Qed.

(** ** ASB14 (Europe and the Middle East): magnitude 4-8, every response on every site *)
Theorem C143_akkar_grows : forall src1 src2 a d m1 m2, asb_gives src1 (asb_with_m a m1) -> asb_gives src2 (asb_with_m a m2) ->
  (exists t, asb_choice a = Some (d, t)) -> 0 < a_v a -> 4 <= m1 -> m1 < m2 -> m2 <= 8 ->
  exists o1 o2, gmm_out (asb14 src1) o1 /\ gmm_out (asb14 src2) o2 /\ resp2 flt_lt o1 o2.
Proof. exact asb14_grows. Qed.
Print Assumptions C143_akkar_grows.
Example C143_akkar_nonvacuous : exists o1 o2, gmm_out (asb14 (asb_src (asb_with_m (ex_asb 250) 5))) o1 /\ gmm_out (asb14 (asb_src (asb_with_m (ex_asb 250) 7))) o2 /\ resp2 flt_lt o1 o2.
Proof. apply (C143_akkar_grows _ _ (ex_asb 250) 30 5 7 (asb_src_gives _) (asb_src_gives _)); [eexists; reflexivity|cbn; lra..]. Qed.
(** ** C70: decay on every site, and for every magnitude up to 8 *)
Theorem C70_decay_on_every_site : forall src1 src2 a d1 d2, asb_gives src1 (asb_dist a d1) -> asb_gives src2 (asb_dist a d2) ->
  a_m a <= 8 -> 0 < a_v a -> 0 <= d1 -> d1 < d2 ->
  exists o1 o2, gmm_out (asb14 src1) o1 /\ gmm_out (asb14 src2) o2 /\ resp2 flt_lt o2 o1.
Proof. exact asb14_decays. Qed.
Print Assumptions C70_decay_on_every_site.
Example C70_every_site_nonvacuous : exists o1 o2, gmm_out (asb14 (asb_src (asb_dist (ex_asb 200) 10))) o1 /\ gmm_out (asb14 (asb_src (asb_dist (ex_asb 200) 20))) o2 /\ resp2 flt_lt o2 o1.
Proof. apply (C70_decay_on_every_site _ _ (ex_asb 200) 10 20 (asb_src_gives _) (asb_src_gives _)); cbn; lra. Qed.

(** ** Subduction: AGA16 and Coppersmith & Bommer (2014)

    [l] lists the shifts of the break magnitude 7.8. Up to the break at every distance, beyond it from 20 km. *)
Theorem C143_subduction_grows : forall src1 src2 u a l scale d z m1 m2, sub_gives src1 (sub_with_m u m1) -> sub_gives src2 (sub_with_m u m2) ->
  sub_ready u d z -> adj_vals a (slab u) aga16_T = Some l -> 150 <= u_v u -> 0 <= d -> 3 <= m1 -> m1 < m2 ->
  Forall (fun x => m2 <= 7.8 + x /\ m2 <= 10 \/ 20 <= d /\ -1 <= x /\ m2 <= 8.5) l ->
  exists o1 o2, gmm_out1 (aga16 src1 (adj_of a) (Fin scale)) o1 /\ gmm_out1 (aga16 src2 (adj_of a) (Fin scale)) o2 /\
    flt_lt (q_pga o1) (q_pga o2) /\ (1086 <= u_v u -> resp21 flt_lt o1 o2).
Proof. exact aga16_grows. Qed.
Print Assumptions C143_subduction_grows.
(** With the default shifts: to magnitude 7.5 at every distance, to 8.5 from 20 km. *)
Theorem C143_subduction_grows_by_default : forall src1 src2 u scale d z m1 m2, sub_gives src1 (sub_with_m u m1) -> sub_gives src2 (sub_with_m u m2) ->
  sub_ready u d z -> 150 <= u_v u -> 0 <= d -> 3 <= m1 -> m1 < m2 -> m2 <= 7.5 \/ 20 <= d /\ m2 <= 8.5 ->
  exists o1 o2, gmm_out1 (aga16 src1 AdjNone (Fin scale)) o1 /\ gmm_out1 (aga16 src2 AdjNone (Fin scale)) o2 /\
    flt_lt (q_pga o1) (q_pga o2) /\ (1086 <= u_v u -> resp21 flt_lt o1 o2).
Proof.
  intros src1 src2 u scale d z m1 m2 G1 G2 Rd Hv Hd Hm H M.
  apply (C143_subduction_grows src1 src2 u AdjDefault _ scale d z m1 m2 G1 G2 Rd eq_refl Hv Hd Hm H).
  apply Forall_forall. intros x Hx. apply in_map_iff in Hx. destruct Hx as (T & <- & HT).
  pose proof (dc1_range (slab u) T). destruct M as [M|(K & M)]; [left|right]; lra.
Qed.
Print Assumptions C143_subduction_grows_by_default.
Theorem C143_coppersmith_grows : forall src1 src2 u scale d m1 m2, cop_gives src1 (sub_with_m u m1) -> cop_gives src2 (sub_with_m u m2) -> u_rup u = Some d ->
  150 <= u_v u -> 0 <= d -> 3 <= m1 -> m1 < m2 -> (m2 <= 7.5 \/ 20 <= d /\ m2 <= 8.5) ->
  exists o1 o2, gmm_out1 (cop14 src1 (Fin scale)) o1 /\ gmm_out1 (cop14 src2 (Fin scale)) o2 /\
    flt_lt (q_pga o1) (q_pga o2) /\ (1086 <= u_v u -> resp21 flt_lt o1 o2).
Proof. exact cop14_grows. Qed.
Print Assumptions C143_coppersmith_grows.
Example C143_subduction_nonvacuous : exists o1 o2, gmm_out1 (aga16 (sub_src (sub_with_m (ex_sub "interface" 1100) 6)) AdjNone (Fin 1)) o1 /\
  gmm_out1 (aga16 (sub_src (sub_with_m (ex_sub "interface" 1100) 8.4)) AdjNone (Fin 1)) o2 /\ flt_lt (q_pga o1) (q_pga o2) /\ (1086 <= 1100 -> resp21 flt_lt o1 o2).
Proof.
  apply (C143_subduction_grows_by_default _ _ (ex_sub "interface" 1100) 1 60 50 6 8.4 (sub_src_gives _) (sub_src_gives _) (proj1 (ex_sub_ready 1100))); cbn; lra.
Qed.
Example C143_coppersmith_nonvacuous : exists o1 o2, gmm_out1 (cop14 (sub_src (sub_with_m (ex_sub "interface" 1100) 6)) (Fin 1)) o1 /\
  gmm_out1 (cop14 (sub_src (sub_with_m (ex_sub "interface" 1100) 8.4)) (Fin 1)) o2 /\ flt_lt (q_pga o1) (q_pga o2) /\ (1086 <= 1100 -> resp21 flt_lt o1 o2).
Proof.
  apply (C143_coppersmith_grows _ _ (ex_sub "interface" 1100) 1 60 6 8.4 (cop_src_gives _) (cop_src_gives _) eq_refl); cbn; lra.
Qed.
(** VIOLATED above the break near the source: at 1 km on rock the PGA of an interface event falls from magnitude 8.1 to 8.5. *)
Definition sub_near (m : R) : sub := Sub m (Some 1) None None 1100 "interface" (Some "forearc").
Theorem C143_subduction_refuted_near : forall src1 src2, sub_gives src1 (sub_near 8.1) -> sub_gives src2 (sub_near 8.5) ->
  exists o1 o2, gmm_out1 (aga16 src1 AdjNone (Fin 1)) o1 /\ gmm_out1 (aga16 src2 AdjNone (Fin 1)) o2 /\ flt_lt (q_pga o2) (q_pga o1).
Proof.
  intros src1 src2 G1 G2.
  assert (Rd : forall m, sub_ready (sub_near m) 1 0) by (intros m; repeat split; cbn; try discriminate; auto).
  assert (A : adj_vals AdjDefault false aga16_T = Some (map (dc1_default false) aga16_T)) by reflexivity.
  destruct (combine aga16_coeff (map (dc1_default false) aga16_T)) as [|cs0 rest] eqn:C; [discriminate|].
  destruct (aga16_hd _ _ _ C) as (V0 & _ & _ & I0 & _).
  eexists _, _. split; [apply (aga16_out src1 _ AdjDefault (map (dc1_default false) aga16_T) 1 1 0 cs0 rest G1 (Rd _)); [exact A|exact C]|].
  split; [apply (aga16_out src2 _ AdjDefault (map (dc1_default false) aga16_T) 1 1 0 cs0 rest G2 (Rd _)); [exact A|exact C]|].
  unfold row_outs1; cbn [q_pga].
  rewrite !(aga16_row_fin _ _ _ _ cs0 rest (map (dc1_default false) aga16_T) cs0 C (or_introl eq_refl)) by (try lra; try (cbn; lra); exact (proj2 (proj2 (Rd _)))).
  apply flt_lt_exp, flt_lt_fin. unfold aga16_val, aga16_site, sub_site_val. cbn [sub_near u_v u_mag]. rewrite V0. destruct (Rlt_dec 1100 865.1); [lra|].
  assert (X : forall x y k, x < y -> x + k < y + k) by (intros; lra). apply X.
  unfold aga16_coeff, aga16_T in C. cbn [map combine aga16_coeff] in C. injection C as <- _. cbn [fst snd].
  assert (S : forall q, Q2R q <= 0.3 -> dc1_default false (Q2R q) = 0.2).
  { intros q Hq. unfold dc1_default, dc1_interface. destruct (Rle_dec _ 0.3) as [|N]; [reflexivity|]. contradiction. }
  rewrite S by (cbn [aga16_period]; unfold Q2R; cbn; lra). clear.
  unfold aga16_rock, sub_mag_val, slab, backarc. cbn. destruct (Rle_dec 8.1 (7.8 + 0.2)); [lra|]. destruct (Rle_dec 8.5 (7.8 + 0.2)); [lra|].
  unfold Q2R; cbn [Qnum Qden]. interval with (i_prec 60).
Qed.
Print Assumptions C143_subduction_refuted_near.
