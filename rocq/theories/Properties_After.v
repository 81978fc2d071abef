(** * C152: aftershocks in ASK14

    [after_at a b r]: the scenario [a] with is_aftershock = b and dist_crjb = r. *)
From Coquelicot Require Import Coquelicot.
From Interval Require Import Tactic.
From Coq Require Import List.
From Verif Require Import M_cy14 M_bssa14 M_cb14 M_ask14 FrameworkProofs Anal Nga Outs Cont Cont1 SpecNga P_cy14 P_bssa14 P_cb14 P_cb14b P_ask14 P_ask14b P_ngaspec
  Spec_cy14 Spec_bssa14 Spec_cb14 Spec_ask14 Properties_NGA Properties_NGAPub Properties_NGAPub2 Properties_NGAPub3 P_ngamag P_ngacont P_hw P_mech.
Open Scope R_scope.
Open Scope string_scope.
Open Scope list_scope.

Definition after_at (a : nga) (b : bool) (cr : R) : nga :=
  let '(Nga m r jb x y0 _ dip v tor bor bot hyp w z1 z25 dpp me re so hw _) := a in
  Nga m r jb x y0 (Some cr) dip v tor bor bot hyp w z1 z25 dpp me re so hw (Some b).

(** The second result has less shaking at periods up to 0.5 s and in PGA, and more at periods from 0.75 s and in PGV; there are
    no other periods. *)
Definition longer (r1 r2 : M gmm) : Prop :=
  exists g1 g2 T y1 y2 a1 a2 v1 v2, result r1 = Ok g1 /\ result r2 = Ok g2 /\
    result (g_periods g1) = Ok (map Fin T) /\ result (g_periods g2) = Ok (map Fin T) /\
    result (g_spec_accels g1) = Ok (map Fin y1) /\ result (g_spec_accels g2) = Ok (map Fin y2) /\
    List.length y1 = List.length T /\ List.length y2 = List.length T /\
    (forall k t u v, nth_error T k = Some t -> nth_error y1 k = Some u -> nth_error y2 k = Some v ->
       (t <= 0.5 /\ v < u) \/ (0.75 <= t /\ u < v)) /\
    result (g_pga g1) = Ok (Fin a1) /\ result (g_pga g2) = Ok (Fin a2) /\ a2 < a1 /\
    result (g_pgv g1) = Ok (Fin v1) /\ result (g_pgv g2) = Ok (Fin v2) /\ v1 < v2.

Definition effect (b : bool) (cr : R) : R := if b then as_clip (1 - (cr - 5) / 10) else 0.
Lemma after_path c a b cr : as_source_path c (after_at a b cr) = as_source_path c (after_at a false 0) + Q2R (ask14_a14 c) * effect b cr.
Proof.
  nga_split a. unfold as_source_path, as_tor, as_mech, effect. cbn [after_at n_mag n_rup n_hw n_x n_after n_crjb n_mech n_tor or_else].
  assert (E : forall x, as_f4 c x (Nga a_m a_r a_j a_x a_y0 (Some cr) a_dip a_v a_tor a_bor a_bot a_hyp a_w a_z1 a_z25 a_dpp a_me a_re a_so a_hw (Some b))
     = as_f4 c x (Nga a_m a_r a_j a_x a_y0 (Some 0) a_dip a_v a_tor a_bor a_bot a_hyp a_w a_z1 a_z25 a_dpp a_me a_re a_so a_hw (Some false))) by reflexivity.
  destruct a_x as [x|]; [rewrite E|]; destruct a_hw as [[]|], b; ring.
Qed.
Lemma after_rows : forall c, In c ask14_psa -> (Q2R (ask14_period c) <= 0.5 /\ Q2R (ask14_a14 c) < 0) \/ (0.75 <= Q2R (ask14_period c) /\ 0 < Q2R (ask14_a14 c)).
Proof.
  intros c Hc.
  assert (B : forallb (fun c => (Qle_bool (ask14_period c) (1#2) && Qle_bool (ask14_a14 c) (-1#100)) || (Qle_bool (3#4) (ask14_period c) && Qle_bool (1#100) (ask14_a14 c)))%bool ask14_psa = true)
    by (vm_compute; reflexivity).
  rewrite forallb_forall in B. specialize (B c Hc). apply orb_prop in B as [B|B]; apply andb_prop in B as [B1 B2]; apply Qleb_R in B1, B2;
    [left|right]; unfold Q2R in *; cbn [Qnum Qden] in *; lra.
Qed.
Lemma after_pga : Q2R (ask14_a14 ask14_pga_row) < 0. Proof. cbn. unfold Q2R; cbn. lra. Qed.
Lemma after_pgv : 0 < Q2R (ask14_a14 ask14_pgv_row). Proof. cbn. unfold Q2R; cbn. lra. Qed.

Lemma after_rep src a t b cr : nga_gives src (after_at a b cr) -> n_mech a = Some t -> as_geom a -> 180 <= n_v a ->
  match n_z1 a with Some z => 0 <= z | None => True end ->
  reports (ask14 src) ask14_psa ask14_pga_row ask14_pgv_row ask14_period (fun c => as_med c (after_at a b cr)) (fun c => as_sd c (after_at a b cr)).
Proof. intros G Ht HG Hv Hz. apply (as_reports _ _ t G); destruct a; cbn in *; try assumption; lra. Qed.
Lemma after_longer src1 src2 a t b1 b2 r1 r2 : nga_gives src1 (after_at a b1 r1) -> nga_gives src2 (after_at a b2 r2) -> n_mech a = Some t -> as_geom a -> 180 <= n_v a ->
  match n_z1 a with Some z => 0 <= z | None => True end -> effect b1 r1 < effect b2 r2 -> longer (ask14 src1) (ask14 src2).
Proof.
  intros G1 G2 Ht HG Hv Hz L.
  destruct (after_rep _ a t b1 r1 G1 Ht HG Hv Hz) as (g1 & E1 & P1 & S1 & A1 & V1 & _). destruct (after_rep _ a t b2 r2 G2 Ht HG Hv Hz) as (g2 & E2 & P2 & S2 & A2 & V2 & _).
  assert (LT : forall c, In c ask14_coeff -> Q2R (ask14_a14 c) < 0 -> exp (as_med c (after_at a b2 r2)) < exp (as_med c (after_at a b1 r1))).
  { intros c Hc N. apply exp_increasing, as_med_lt; [exact Hc|destruct a; exact Hv|destruct a; repeat split|]. rewrite (after_path c a b1 r1), (after_path c a b2 r2). nra. }
  assert (GT : forall c, In c ask14_coeff -> 0 < Q2R (ask14_a14 c) -> exp (as_med c (after_at a b1 r1)) < exp (as_med c (after_at a b2 r2))).
  { intros c Hc N. apply exp_increasing, as_med_lt; [exact Hc|destruct a; exact Hv|destruct a; repeat split|]. rewrite (after_path c a b1 r1), (after_path c a b2 r2). nra. }
  exists g1, g2, (map (fun c => Q2R (ask14_period c)) ask14_psa), (map (fun c => exp (as_med c (after_at a b1 r1))) ask14_psa), (map (fun c => exp (as_med c (after_at a b2 r2))) ask14_psa).
  do 4 eexists. rewrite !map_map, !map_length.
  split; [exact E1|]. split; [exact E2|]. split; [exact P1|]. split; [exact P2|]. split; [exact S1|]. split; [exact S2|]. split; [reflexivity|]. split; [reflexivity|].
  split; [|split; [exact A1|split; [exact A2|split; [apply LT; [apply ask14_pga_in|apply after_pga]|split; [exact V1|split; [exact V2|apply GT; [apply ask14_pgv_in|apply after_pgv]]]]]]].
  intros k x u v Hx Hu Hv'. rewrite !nth_error_map in *. destruct (nth_error ask14_psa k) as [c|] eqn:N; [|discriminate].
  apply nth_error_In in N. injection Hx as <-. injection Hu as <-. injection Hv' as <-. pose proof (ask14_psa_in c N) as Hc.
  destruct (after_rows c N) as [(T1 & T2)|(T1 & T2)]; [left|right]; (split; [exact T1|]); [apply LT|apply GT]; assumption.
Qed.

(** An aftershock nearer than 15 km to the main rupture has less short-period and more long-period shaking than a main shock. *)
Theorem C152_aftershock : forall src1 src2 a t cr, nga_gives src1 (after_at a false cr) -> nga_gives src2 (after_at a true cr) -> n_mech a = Some t -> as_geom a ->
  180 <= n_v a -> match n_z1 a with Some z => 0 <= z | None => True end -> cr < 15 -> longer (ask14 src1) (ask14 src2).
Proof.
  intros src1 src2 a t cr G1 G2 Ht HG Hv Hz H. apply (after_longer _ _ a t false true cr cr); try assumption. unfold effect, as_clip.
  apply Rmin_glb_lt; [|lra]. apply Rlt_le_trans with (2 := Rmax_l _ _). lra.
Qed.
Print Assumptions C152_aftershock.
(** The nearer, the more so, between 15 km and 5 km. *)
Theorem C152_nearer : forall src1 src2 a t r1 r2, nga_gives src1 (after_at a true r1) -> nga_gives src2 (after_at a true r2) -> n_mech a = Some t -> as_geom a ->
  180 <= n_v a -> match n_z1 a with Some z => 0 <= z | None => True end -> 5 <= r2 -> r2 < r1 -> r1 <= 15 -> longer (ask14 src1) (ask14 src2).
Proof.
  intros src1 src2 a t r1 r2 G1 G2 Ht HG Hv Hz H1 H2 H3. apply (after_longer _ _ a t true true r1 r2); try assumption. unfold effect, as_clip.
  rewrite !Rmax_left by lra. rewrite !Rmin_left by lra. lra.
Qed.
Print Assumptions C152_nearer.
(** Within 5 km it makes no difference how near. *)
Theorem C152_within_5_km : forall src1 src2 a t r1 r2, nga_gives src1 (after_at a true r1) -> nga_gives src2 (after_at a true r2) -> n_mech a = Some t -> as_geom a ->
  180 <= n_v a -> match n_z1 a with Some z => 0 <= z | None => True end -> r1 <= 5 -> r2 <= 5 -> exists o, gmm_out (ask14 src1) o /\ gmm_out (ask14 src2) o.
Proof.
  intros src1 src2 a t r1 r2 G1 G2 Ht HG Hv Hz H1 H2. eapply rep_eq; [eapply after_rep; eassumption|eapply after_rep; eassumption|].
  intros c _. assert (E : as_source_path c (after_at a true r1) = as_source_path c (after_at a true r2)).
  { rewrite (after_path c a true r1), (after_path c a true r2). unfold effect, as_clip. rewrite !Rmin_right; [reflexivity| |]; apply Rle_trans with (2 := Rmax_l _ _); lra. }
  assert (R0 : as_rock c (after_at a true r1) = as_rock c (after_at a true r2)) by (unfold as_rock; rewrite E; destruct a; reflexivity).
  split; [unfold as_med|unfold as_sd]; rewrite ?E, R0; destruct a; reflexivity.
Qed.
Print Assumptions C152_within_5_km.

Example C152_nonvacuous : let a := ex_nga 7 20 400 None in
  longer (ask14 (nga_src (after_at a false 8))) (ask14 (nga_src (after_at a true 8))) /\
  longer (ask14 (nga_src (after_at a true 12))) (ask14 (nga_src (after_at a true 6))) /\
  (exists o, gmm_out (ask14 (nga_src (after_at a true 0))) o /\ gmm_out (ask14 (nga_src (after_at a true 5))) o).
Proof.
  intros a. assert (HG : as_geom a) by (intros W; discriminate W). split; [|split].
  - apply (C152_aftershock _ _ a "SS" 8); try apply nga_src_gives; try reflexivity; try exact HG; try exact I; cbn; lra.
  - apply (C152_nearer _ _ a "SS" 12 6); try apply nga_src_gives; try reflexivity; try exact HG; try exact I; cbn; lra.
  - apply (C152_within_5_km _ _ a "SS" 0 5); try apply nga_src_gives; try reflexivity; try exact HG; try exact I; cbn; lra.
Qed.
