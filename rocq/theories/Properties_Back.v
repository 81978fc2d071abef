(** * C153: back-arc sites in AGA16

    [sub_in u r]: the scenario [u] with tectonic_region = r. *)
From Coquelicot Require Import Coquelicot.
From Interval Require Import Tactic.
From Coq Require Import List.
From Verif Require Import M_aga16 FrameworkProofs Anal Nga Outs1 Cont Spec_sub P_aga16 P_aga16b Properties_Active.
Open Scope R_scope.
Open Scope string_scope.
Open Scope list_scope.

Definition sub_in (u : sub) (r : option string) : sub := Sub (u_mag u) (u_rup u) (u_hyp u) (u_depth u) (u_v u) (u_event u) r.
(** The periods of the spectral accelerations: all rows but the first, which is the PGA. *)
Definition sub_T : list R := tl (map (fun c => Q2R (aga16_period c)) aga16_coeff).

Definition back_term (sl : bool) (c : aga16_row) (d : R) : R :=
  if sl then Q2R (aga16_t_7 c) + Q2R (aga16_t_8 c) * ln (Rmax d 85 / 40)
  else Q2R (aga16_t_15 c) + Q2R (aga16_t_16 c) * ln (Rmax d 100 / 40).
Lemma rock_back sl c x scale m d z : aga16_rock sl true c x scale m d z = aga16_rock sl false c x scale m d z + back_term sl c d.
Proof. unfold aga16_rock, back_term. destruct sl; ring. Qed.


(** Signs of the term, by computation over the table and bounds on the logarithm. *)
Lemma lin_pos a b x lo hi : lo <= x -> x <= hi -> 0 < a + b * lo -> 0 < a + b * hi -> 0 < a + b * x.
Proof. intros. destruct (Rle_dec 0 b) as [B|B]; nra. Qed.
Lemma lin_neg a b x lo hi : lo <= x -> x <= hi -> a + b * lo < 0 -> a + b * hi < 0 -> a + b * x < 0.
Proof. intros. destruct (Rle_dec 0 b) as [B|B]; nra. Qed.
Lemma lin_neg_far a b x lo : lo <= x -> b <= 0 -> a + b * lo < 0 -> a + b * x < 0.
Proof. intros. nra. Qed.
Lemma l85 d : d <= 85 -> 0.7537 <= ln (Rmax d 85 / 40) <= 0.7538.
Proof. intros H. rewrite Rmax_right by lra. clear. split; interval with (i_prec 40). Qed.
Lemma l120 d : d <= 120 -> 0.7537 <= ln (Rmax d 85 / 40) <= 1.0987.
Proof.
  intros H. split.
  - apply Rle_trans with (ln (85 / 40)); [clear; interval with (i_prec 40)|]. apply ln_le_mono; [lra|unfold Rdiv; apply Rmult_le_compat_r; [lra|apply Rmax_r]].
  - apply Rle_trans with (ln (120 / 40)); [|clear; interval with (i_prec 40)]. assert (85 <= Rmax d 85) by apply Rmax_r.
    apply ln_le_mono; [lra|unfold Rdiv; apply Rmult_le_compat_r; [lra|apply Rmax_lub; lra]].
Qed.
Lemma lfar d x : x <= 120 -> 120 <= d -> 1.0986 <= ln (Rmax d x / 40).
Proof.
  intros X H. rewrite Rmax_left by lra. apply Rle_trans with (ln (120 / 40)); [clear; interval with (i_prec 40)|].
  apply ln_le_mono; [lra|unfold Rdiv; apply Rmult_le_compat_r; lra].
Qed.
Lemma l100 d : d <= 100 -> 0.9162 <= ln (Rmax d 100 / 40) <= 0.9163.
Proof. intros H. rewrite Rmax_right by lra. clear. split; interval with (i_prec 40). Qed.


(** [row_cond c p a b x s]: with the sign of [a + b x] at a rational [x], for the rows selected by [p]. *)
Definition sel_pos (p : aga16_row -> bool) (a b : aga16_row -> Q) (x : Q) : bool :=
  forallb (fun c => (negb (p c) || Qle_bool (1#1000) (a c + b c * x))%bool) aga16_coeff.
Definition sel_neg (p : aga16_row -> bool) (a b : aga16_row -> Q) (x : Q) : bool :=
  forallb (fun c => (negb (p c) || Qle_bool (a c + b c * x) (-1#1000))%bool) aga16_coeff.
Lemma sel_pos_R p a b x c : sel_pos p a b x = true -> In c aga16_coeff -> p c = true -> 0 < Q2R (a c) + Q2R (b c) * Q2R x.
Proof.
  unfold sel_pos. rewrite forallb_forall. intros H Hc Hp. specialize (H c Hc). rewrite Hp in H. cbn [negb orb] in H. apply Qleb_R in H.
  rewrite Qreals.Q2R_plus, Qreals.Q2R_mult in H. unfold Q2R at 1 in H. cbn [Qnum Qden] in H. lra.
Qed.
Lemma sel_neg_R p a b x c : sel_neg p a b x = true -> In c aga16_coeff -> p c = true -> Q2R (a c) + Q2R (b c) * Q2R x < 0.
Proof.
  unfold sel_neg. rewrite forallb_forall. intros H Hc Hp. specialize (H c Hc). rewrite Hp in H. cbn [negb orb] in H. apply Qleb_R in H.
  rewrite Qreals.Q2R_plus, Qreals.Q2R_mult in H. unfold Q2R at 4 in H. cbn [Qnum Qden] in H. lra.
Qed.
Lemma Qle_bool_of_R x y : Q2R x <= Q2R y -> Qle_bool x y = true.
Proof. intros H. apply Qle_bool_iff. apply Qreals.Rle_Qle. exact H. Qed.
Ltac sp Hc p a b x := let H := fresh "S" in assert (H : sel_pos p a b x = true) by (vm_compute; reflexivity); pose proof (sel_pos_R p a b x _ H Hc) as H; cbv beta in H.
Definition upto (q : Q) (c : aga16_row) : bool := Qle_bool (aga16_period c) q.
Definition from (q : Q) (c : aga16_row) : bool := Qle_bool q (aga16_period c).
Definition every (c : aga16_row) : bool := true.
Lemma both_pos p a b lo hi c x : sel_pos p a b lo = true -> sel_pos p a b hi = true -> In c aga16_coeff -> p c = true -> Q2R lo <= x <= Q2R hi ->
  0 < Q2R (a c) + Q2R (b c) * x.
Proof. intros H1 H2 Hc Hp Hx. apply (lin_pos _ _ _ (Q2R lo) (Q2R hi)); try tauto; apply (sel_pos_R p); assumption. Qed.
Lemma both_neg p a b lo hi c x : sel_neg p a b lo = true -> sel_neg p a b hi = true -> In c aga16_coeff -> p c = true -> Q2R lo <= x <= Q2R hi ->
  Q2R (a c) + Q2R (b c) * x < 0.
Proof. intros H1 H2 Hc Hp Hx. apply (lin_neg _ _ _ (Q2R lo) (Q2R hi)); try tauto; apply (sel_neg_R p); assumption. Qed.
Lemma far_neg p a b lo c x : sel_neg p a b lo = true -> In c aga16_coeff -> p c = true -> Q2R (b c) <= 0 -> Q2R lo <= x ->
  Q2R (a c) + Q2R (b c) * x < 0.
Proof. intros H1 Hc Hp Hb Hx. apply (lin_neg_far _ _ _ (Q2R lo)); try tauto. apply (sel_neg_R p); assumption. Qed.

Lemma face_near c d : In c aga16_coeff -> d <= 100 -> 0 < back_term false c d.
Proof.
  intros Hc Hd. unfold back_term. pose proof (l100 d Hd). apply (both_pos every _ _ (9162#10000) (9163#10000)); [vm_compute; reflexivity|vm_compute; reflexivity|exact Hc|reflexivity|].
  unfold Q2R; cbn [Qnum Qden]. lra.
Qed.
Lemma face_far c d : In c aga16_coeff -> 120 <= d -> Q2R (aga16_period c) <= 0.5 -> back_term false c d < 0.
Proof.
  intros Hc Hd Ht. unfold back_term. assert (100 <= 120) as X by lra. pose proof (lfar d 100 X Hd).
  row_le Hc (fun c => aga16_t_16 c) (fun _ : aga16_row => (0#1)%Q) as T16.
  apply (far_neg (upto (1#2)) _ _ (10986#10000)); [vm_compute; reflexivity|exact Hc|apply Qle_bool_of_R; unfold Q2R at 2; cbn [Qnum Qden]; lra|lra|].
  unfold Q2R; cbn [Qnum Qden]. lra.
Qed.
Lemma face_long c d : In c aga16_coeff -> 1.5 <= Q2R (aga16_period c) -> 0 < back_term false c d.
Proof.
  intros Hc Ht. assert (P : from (3#2) c = true) by (apply Qle_bool_of_R; unfold Q2R at 1; cbn [Qnum Qden]; lra).
  assert (B : forallb (fun c => (negb (from (3#2) c) || (Qle_bool (1#1000) (aga16_t_15 c) && (Qle_bool 0 (aga16_t_16 c) && Qle_bool (aga16_t_16 c) 0)))%bool) aga16_coeff = true) by (vm_compute; reflexivity).
  rewrite forallb_forall in B. specialize (B c Hc). rewrite P in B. cbn [negb orb] in B. apply andb_prop in B as [B1 B2]. apply andb_prop in B2 as [B2 B3].
  apply Qleb_R in B1, B2, B3. change (Q2R 0) with (Q2R (0#1)) in *. unfold Q2R at 1 in B1. unfold Q2R at 1 in B2. unfold Q2R at 2 in B3. cbn [Qnum Qden] in *.
  unfold back_term. assert (Q2R (aga16_t_16 c) = 0) as -> by lra. lra.
Qed.
Lemma slab_near_short c d : In c aga16_coeff -> d <= 85 -> Q2R (aga16_period c) <= 0.25 -> 0 < back_term true c d.
Proof.
  intros Hc Hd Ht. unfold back_term. pose proof (l85 d Hd).
  apply (both_pos (upto (1#4)) _ _ (7537#10000) (7538#10000)); [vm_compute; reflexivity|vm_compute; reflexivity|exact Hc|apply Qle_bool_of_R; unfold Q2R at 2; cbn [Qnum Qden]; lra|].
  unfold Q2R; cbn [Qnum Qden]. lra.
Qed.
Lemma slab_mid c d : In c aga16_coeff -> d <= 120 -> 0.3 <= Q2R (aga16_period c) -> back_term true c d < 0.
Proof.
  intros Hc Hd Ht. unfold back_term. pose proof (l120 d Hd).
  apply (both_neg (from (3#10)) _ _ (7537#10000) (10987#10000)); [vm_compute; reflexivity|vm_compute; reflexivity|exact Hc|apply Qle_bool_of_R; unfold Q2R at 1; cbn [Qnum Qden]; lra|].
  unfold Q2R; cbn [Qnum Qden]. lra.
Qed.
Lemma slab_far c d : In c aga16_coeff -> 120 <= d -> Q2R (aga16_period c) <= 1.5 -> back_term true c d < 0.
Proof.
  intros Hc Hd Ht. unfold back_term. assert (85 <= 120) as X by lra. pose proof (lfar d 85 X Hd).
  assert (P : upto (3#2) c = true) by (apply Qle_bool_of_R; unfold Q2R at 2; cbn [Qnum Qden]; lra).
  assert (B : forallb (fun c => (negb (upto (3#2) c) || Qle_bool (aga16_t_8 c) 0)%bool) aga16_coeff = true) by (vm_compute; reflexivity).
  rewrite forallb_forall in B. specialize (B c Hc). rewrite P in B. cbn [negb orb] in B. apply Qleb_R in B. change (Q2R 0) with (Q2R (0#1)) in B. unfold Q2R at 2 in B. cbn [Qnum Qden] in B.
  apply (far_neg (upto (3#2)) _ _ (10986#10000)); [vm_compute; reflexivity|exact Hc|exact P|lra|].
  unfold Q2R; cbn [Qnum Qden]. lra.
Qed.

(** Two scenarios whose rock medians differ by [D]. *)
Lemma sub_core src1 src2 u1 u2 a l scale d z1 z2 (D : aga16_row -> R) : sub_gives src1 u1 -> sub_gives src2 u2 ->
  sub_ready u1 d z1 -> sub_ready u2 d z2 -> slab u2 = slab u1 -> u_mag u2 = u_mag u1 -> u_v u2 = u_v u1 -> adj_vals a (slab u1) aga16_T = Some l -> 150 <= u_v u1 -> 0 <= d ->
  (forall c x, aga16_rock (slab u1) (backarc u2) c x scale (u_mag u1) d z2 = aga16_rock (slab u1) (backarc u1) c x scale (u_mag u1) d z1 + D c) ->
  exists o1 o2, gmm_out1 (aga16 src1 (adj_of a) (Fin scale)) o1 /\ gmm_out1 (aga16 src2 (adj_of a) (Fin scale)) o2 /\
    List.length (q_sa o1) = List.length sub_T /\ List.length (q_sa o2) = List.length sub_T /\
    ((forall c, In c aga16_coeff -> Q2R (aga16_period c) <= 0.25 -> 0 < D c) -> flt_lt (q_pga o1) (q_pga o2)) /\
    ((forall c, In c aga16_coeff -> Q2R (aga16_period c) <= 0.25 -> D c < 0) -> flt_lt (q_pga o2) (q_pga o1)) /\
    (1086 <= u_v u1 -> forall k t y1 y2, nth_error sub_T k = Some t -> nth_error (q_sa o1) k = Some y1 -> nth_error (q_sa o2) k = Some y2 ->
       exists c, In c aga16_coeff /\ Q2R (aga16_period c) = t /\ (0 < D c -> flt_lt y1 y2) /\ (D c < 0 -> flt_lt y2 y1)).
Proof.
  intros G1 G2 R1 R2 ES EM EV A Hv Hd RK0. destruct (adj_fin u1 a l A) as (_ & L).
  assert (A2 : adj_vals a (slab u2) aga16_T = Some l) by (rewrite ES; exact A).
  destruct (combine aga16_coeff l) as [|cs0 rest] eqn:C.
  { exfalso. assert (E : List.length (combine aga16_coeff l) = 23%nat) by (rewrite combine_length, L; reflexivity). rewrite C in E. discriminate. }
  destruct (aga16_hd _ _ _ C) as (V0 & B0 & N0 & I0 & I).
  assert (FS : map fst (cs0 :: rest) = aga16_coeff).
  { rewrite <- C. clear - L. revert l L. generalize aga16_coeff. induction l as [|x q IH]; intros [|y m] H; try discriminate H; [reflexivity|]. cbn. f_equal. apply IH. cbn in H. lia. }
  assert (P0 : Q2R (aga16_period (fst cs0)) <= 0.25).
  { assert (E : fst cs0 = hd (fst cs0) aga16_coeff) by (rewrite <- FS; reflexivity). rewrite E. cbn [hd aga16_coeff aga16_period]. unfold Q2R; cbn [Qnum Qden]. lra. }
  assert (ST : sub_T = map (fun cs => Q2R (aga16_period (fst cs))) rest).
  { unfold sub_T. rewrite <- FS. cbn [map tl]. rewrite map_map. reflexivity. }
  eexists _, _. split; [apply (aga16_out src1 _ a l scale d z1 cs0 rest G1 R1); [exact A|exact C]|].
  split; [apply (aga16_out src2 _ a l scale d z2 cs0 rest G2 R2); [exact A2|exact C]|].
  assert (F1 : forall cs, In cs (cs0 :: rest) -> aga16_rowR u1 scale d z1 (fexp (aga16_rowR u1 scale d z1 NaN cs0)) cs = Fin (aga16_val u1 scale d z1 (fst cs0) (snd cs0) cs)).
  { intros cs Hc. apply (aga16_row_fin _ _ _ _ cs0 rest l cs C Hc); [lra|lra|exact (proj2 (proj2 R1))]. }
  assert (F2 : forall cs, In cs (cs0 :: rest) -> aga16_rowR u2 scale d z2 (fexp (aga16_rowR u2 scale d z2 NaN cs0)) cs = Fin (aga16_val u2 scale d z2 (fst cs0) (snd cs0) cs)).
  { intros cs Hc. apply (aga16_row_fin _ _ _ _ cs0 rest l cs C Hc); [lra|lra|exact (proj2 (proj2 R2))]. }
  unfold aga16_val, aga16_pga1000 in F1, F2. rewrite ES, EM, EV in F2.
  assert (RK : forall cs, aga16_rock (slab u1) (backarc u2) (fst cs) (snd cs) scale (u_mag u1) d z2 = aga16_rock (slab u1) (backarc u1) (fst cs) (snd cs) scale (u_mag u1) d z1 + D (fst cs))
    by (intros cs; apply RK0).
  set (k := aga16_site (fst cs0) 0 1000) in *.
  assert (CC : 0 < Q2R (aga16_c (fst cs0))) by (row_pos I0 (fun c => aga16_c c) as CC; lra).
  assert (SM : forall x1 x2, x1 < x2 -> x1 + k + aga16_site (fst cs0) (exp (x1 + k)) (u_v u1) < x2 + k + aga16_site (fst cs0) (exp (x2 + k)) (u_v u1)).
  { intros x1 x2 X. unfold aga16_site at 1 2.
    pose proof (site_mono (aga16_v_lin (fst cs0)) (aga16_b (fst cs0)) (aga16_n (fst cs0)) (aga16_c (fst cs0)) (aga16_t_12 (fst cs0)) (u_v u1) (x1 + k) (x2 + k)) as S.
    rewrite V0, B0, N0 in S. apply S; [lra|lra|intros W; apply rho_150; assumption|lra]. }
  split; [|split; [|split; [|split]]].
  - unfold row_outs1; cbn [q_sa]. rewrite ST, !map_length. reflexivity.
  - unfold row_outs1; cbn [q_sa]. rewrite ST, !map_length. reflexivity.
  - intros HP. specialize (HP _ I0 P0). unfold row_outs1; cbn [q_pga]. rewrite F1, F2 by (left; reflexivity). apply flt_lt_exp, flt_lt_fin.
    rewrite !RK. specialize (SM _ _ (Rplus_lt_compat_l (aga16_rock (slab u1) (backarc u1) (fst cs0) (snd cs0) scale (u_mag u1) d z1) _ _ HP)). rewrite Rplus_0_r in SM. lra.
  - intros HP. specialize (HP _ I0 P0). unfold row_outs1; cbn [q_pga]. rewrite F1, F2 by (left; reflexivity). apply flt_lt_exp, flt_lt_fin.
    rewrite !RK. specialize (SM _ _ (Rplus_lt_compat_l (aga16_rock (slab u1) (backarc u1) (fst cs0) (snd cs0) scale (u_mag u1) d z1) _ _ HP)). rewrite Rplus_0_r in SM. lra.
  - intros Hr' i t y1 y2 Ht H1 H2. unfold row_outs1 in H1, H2; cbn [q_sa] in H1, H2. rewrite ST in Ht. rewrite nth_error_map in Ht, H1, H2.
    destruct (nth_error rest i) as [cs|] eqn:N; [|discriminate]. cbn [option_map] in *. apply nth_error_In in N.
    assert (Hc : In cs (cs0 :: rest)) by (right; exact N). pose proof (I cs Hc) as Ic.
    rewrite F1 in H1 by exact Hc. rewrite F2 in H2 by exact Hc.
    row_lt Ic (fun c => aga16_v_lin c) (fun _ : aga16_row => (1086#1)%Q) as VL.
    assert (LS : forall p, aga16_site (fst cs) p (u_v u1) = aga16_site (fst cs) 0 (u_v u1)).
    { intros p. unfold aga16_site, sub_site_val. destruct (Rlt_dec (u_v u1) (Q2R (aga16_v_lin (fst cs)))); [lra|reflexivity]. }
    rewrite LS in H1, H2. rewrite RK in H2.
    exists (fst cs). split; [exact Ic|]. split; [congruence|].
    assert (E1 : y1 = fexp (Fin (aga16_rock (slab u1) (backarc u1) (fst cs) (snd cs) scale (u_mag u1) d z1 + aga16_site (fst cs) 0 (u_v u1)))) by congruence.
    assert (E2 : y2 = fexp (Fin (aga16_rock (slab u1) (backarc u1) (fst cs) (snd cs) scale (u_mag u1) d z1 + D (fst cs) + aga16_site (fst cs) 0 (u_v u1)))) by congruence.
    rewrite E1, E2. split; intros W; apply flt_lt_exp, flt_lt_fin; lra.
Qed.
(** Neither the shift nor anything but the back-arc term depends on the region. *)
Lemma back_core src1 src2 u r a l scale d z : sub_gives src1 (sub_in u r) -> r <> Some "backarc" -> sub_gives src2 (sub_in u (Some "backarc")) ->
  sub_ready (sub_in u (Some "backarc")) d z -> adj_vals a (slab u) aga16_T = Some l -> 150 <= u_v u -> 0 <= d ->
  exists o1 o2, gmm_out1 (aga16 src1 (adj_of a) (Fin scale)) o1 /\ gmm_out1 (aga16 src2 (adj_of a) (Fin scale)) o2 /\
    List.length (q_sa o1) = List.length sub_T /\ List.length (q_sa o2) = List.length sub_T /\
    ((forall c, In c aga16_coeff -> Q2R (aga16_period c) <= 0.25 -> 0 < back_term (slab u) c d) -> flt_lt (q_pga o1) (q_pga o2)) /\
    ((forall c, In c aga16_coeff -> Q2R (aga16_period c) <= 0.25 -> back_term (slab u) c d < 0) -> flt_lt (q_pga o2) (q_pga o1)) /\
    (1086 <= u_v u -> forall k t y1 y2, nth_error sub_T k = Some t -> nth_error (q_sa o1) k = Some y1 -> nth_error (q_sa o2) k = Some y2 ->
       exists c, In c aga16_coeff /\ Q2R (aga16_period c) = t /\ (0 < back_term (slab u) c d -> flt_lt y1 y2) /\ (back_term (slab u) c d < 0 -> flt_lt y2 y1)).
Proof.
  intros G1 Hr G2 R2 A Hv Hd.
  assert (K1 : backarc (sub_in u r) = false).
  { unfold backarc. cbn [sub_in u_region]. destruct r as [r|]; [|reflexivity]. apply String.eqb_neq. congruence. }
  assert (R1 : sub_ready (sub_in u r) d z).
  { destruct R2 as (Q1 & Q2 & Q3). split; [exact Q1|]. split; [exact Q2|]. rewrite K1. discriminate. }
  apply (sub_core src1 src2 (sub_in u r) (sub_in u (Some "backarc")) a l scale d z z (fun c => back_term (slab u) c d)); try assumption; try reflexivity.
  intros c x. rewrite K1. apply rock_back.
Qed.

(** Two results compared in PGA and at each period: [more] tells at which periods the second is larger, [less] at which it is
    smaller; periods in neither are left open. *)
Definition compared (up : option bool) (more less : R -> Prop) (src1 src2 : dict) (a : adj_arg) (scale : R) (v : R) : Prop :=
  exists o1 o2, gmm_out1 (aga16 src1 (adj_of a) (Fin scale)) o1 /\ gmm_out1 (aga16 src2 (adj_of a) (Fin scale)) o2 /\
    List.length (q_sa o1) = List.length sub_T /\ List.length (q_sa o2) = List.length sub_T /\
    (match up with Some true => flt_lt (q_pga o1) (q_pga o2) | Some false => flt_lt (q_pga o2) (q_pga o1) | None => True end) /\
    (1086 <= v -> forall k t y1 y2, nth_error sub_T k = Some t -> nth_error (q_sa o1) k = Some y1 -> nth_error (q_sa o2) k = Some y2 ->
       (more t -> flt_lt y1 y2) /\ (less t -> flt_lt y2 y1)).
Definition any (t : R) : Prop := True.
Definition none (t : R) : Prop := False.

Lemma back_compared up (more less : R -> Prop) src1 src2 u r a l scale d z : sub_gives src1 (sub_in u r) -> r <> Some "backarc" -> sub_gives src2 (sub_in u (Some "backarc")) ->
  sub_ready (sub_in u (Some "backarc")) d z -> adj_vals a (slab u) aga16_T = Some l -> 150 <= u_v u -> 0 <= d ->
  (forall c, In c aga16_coeff -> more (Q2R (aga16_period c)) -> 0 < back_term (slab u) c d) ->
  (forall c, In c aga16_coeff -> less (Q2R (aga16_period c)) -> back_term (slab u) c d < 0) ->
  match up with Some true => forall c, In c aga16_coeff -> Q2R (aga16_period c) <= 0.25 -> 0 < back_term (slab u) c d
              | Some false => forall c, In c aga16_coeff -> Q2R (aga16_period c) <= 0.25 -> back_term (slab u) c d < 0 | None => True end ->
  compared up more less src1 src2 a scale (u_v u).
Proof.
  intros G1 Hr G2 R2 A Hv Hd HM HL HU. destruct (back_core src1 src2 u r a l scale d z G1 Hr G2 R2 A Hv Hd) as (o1 & o2 & O1 & O2 & L1 & L2 & PU & PD & S).
  exists o1, o2. split; [exact O1|]. split; [exact O2|]. split; [exact L1|]. split; [exact L2|]. split.
  - destruct up as [[]|]; [apply PU, HU|apply PD, HU|exact I].
  - intros W k t y1 y2 Ht H1 H2. destruct (S W k t y1 y2 Ht H1 H2) as (c & Hc & E & Q1 & Q2). subst t.
    split; intros X; [apply Q1, HM|apply Q2, HL]; assumption.
Qed.

(** Interface events within 100 km: everything is larger at a back-arc site. *)
Theorem C153_interface_near : forall src1 src2 u r a l scale d z, sub_gives src1 (sub_in u r) -> r <> Some "backarc" -> sub_gives src2 (sub_in u (Some "backarc")) ->
  u_event u = "interface" -> sub_ready (sub_in u (Some "backarc")) d z -> adj_vals a (slab u) (map (fun c => Q2R (aga16_period c)) aga16_coeff) = Some l -> 150 <= u_v u ->
  0 <= d <= 100 -> compared (Some true) any none src1 src2 a scale (u_v u).
Proof.
  intros src1 src2 u r a l scale d z G1 Hr G2 HE R2 A Hv Hd. assert (SL : slab u = false) by (unfold slab; rewrite HE; reflexivity).
  eapply back_compared; try eassumption; try lra; rewrite SL; [|intros c _ []|].
  - intros c Hc _. apply face_near; [exact Hc|lra].
  - intros c Hc _. apply face_near; [exact Hc|lra].
Qed.
Print Assumptions C153_interface_near.
(** Interface events from 120 km: smaller up to 0.5 s, larger from 1.5 s. *)
Theorem C153_interface_far : forall src1 src2 u r a l scale d z, sub_gives src1 (sub_in u r) -> r <> Some "backarc" -> sub_gives src2 (sub_in u (Some "backarc")) ->
  u_event u = "interface" -> sub_ready (sub_in u (Some "backarc")) d z -> adj_vals a (slab u) (map (fun c => Q2R (aga16_period c)) aga16_coeff) = Some l -> 150 <= u_v u ->
  120 <= d -> compared (Some false) (fun t => 1.5 <= t) (fun t => t <= 0.5) src1 src2 a scale (u_v u).
Proof.
  intros src1 src2 u r a l scale d z G1 Hr G2 HE R2 A Hv Hd. assert (SL : slab u = false) by (unfold slab; rewrite HE; reflexivity).
  eapply back_compared; try eassumption; try lra; rewrite SL.
  - intros c Hc T. apply face_long; assumption.
  - intros c Hc T. apply face_far; assumption.
  - intros c Hc T. apply face_far; [exact Hc|exact Hd|lra].
Qed.
Print Assumptions C153_interface_far.
(** Intraslab events within 85 km: larger up to 0.25 s, smaller from 0.3 s; there are no periods in between. *)
Theorem C153_slab_near : forall src1 src2 u r a l scale d z, sub_gives src1 (sub_in u r) -> r <> Some "backarc" -> sub_gives src2 (sub_in u (Some "backarc")) ->
  u_event u = "intraslab" -> sub_ready (sub_in u (Some "backarc")) d z -> adj_vals a (slab u) (map (fun c => Q2R (aga16_period c)) aga16_coeff) = Some l -> 150 <= u_v u ->
  0 <= d <= 85 -> compared (Some true) (fun t => t <= 0.25) (fun t => 0.3 <= t) src1 src2 a scale (u_v u).
Proof.
  intros src1 src2 u r a l scale d z G1 Hr G2 HE R2 A Hv Hd. assert (SL : slab u = true) by (unfold slab; rewrite HE; reflexivity).
  eapply back_compared; try eassumption; try lra; rewrite SL.
  - intros c Hc T. apply slab_near_short; [exact Hc|lra|exact T].
  - intros c Hc T. apply slab_mid; [exact Hc|lra|exact T].
  - intros c Hc T. apply slab_near_short; [exact Hc|lra|exact T].
Qed.
Print Assumptions C153_slab_near.
(** Intraslab events between 85 and 120 km are still smaller from 0.3 s ... *)
Theorem C153_slab_mid : forall src1 src2 u r a l scale d z, sub_gives src1 (sub_in u r) -> r <> Some "backarc" -> sub_gives src2 (sub_in u (Some "backarc")) ->
  u_event u = "intraslab" -> sub_ready (sub_in u (Some "backarc")) d z -> adj_vals a (slab u) (map (fun c => Q2R (aga16_period c)) aga16_coeff) = Some l -> 150 <= u_v u ->
  0 <= d <= 120 -> compared None none (fun t => 0.3 <= t) src1 src2 a scale (u_v u).
Proof.
  intros src1 src2 u r a l scale d z G1 Hr G2 HE R2 A Hv Hd. assert (SL : slab u = true) by (unfold slab; rewrite HE; reflexivity).
  eapply back_compared; try eassumption; try lra; rewrite SL; [intros c _ []|].
  intros c Hc T. apply slab_mid; [exact Hc|lra|exact T].
Qed.
Print Assumptions C153_slab_mid.
(** ... and beyond 120 km in PGA and up to 1.5 s. *)
Theorem C153_slab_far : forall src1 src2 u r a l scale d z, sub_gives src1 (sub_in u r) -> r <> Some "backarc" -> sub_gives src2 (sub_in u (Some "backarc")) ->
  u_event u = "intraslab" -> sub_ready (sub_in u (Some "backarc")) d z -> adj_vals a (slab u) (map (fun c => Q2R (aga16_period c)) aga16_coeff) = Some l -> 150 <= u_v u ->
  120 <= d -> compared (Some false) none (fun t => t <= 1.5) src1 src2 a scale (u_v u).
Proof.
  intros src1 src2 u r a l scale d z G1 Hr G2 HE R2 A Hv Hd. assert (SL : slab u = true) by (unfold slab; rewrite HE; reflexivity).
  eapply back_compared; try eassumption; try lra; rewrite SL; [intros c _ []| |].
  - intros c Hc T. apply slab_far; [exact Hc|lra|exact T].
  - intros c Hc T. apply slab_far; [exact Hc|exact Hd|lra].
Qed.
Print Assumptions C153_slab_far.

Example C153_nonvacuous : let u ev := Sub 7.9 (Some 60) (Some 130) (Some 50) 1100 ev None in
  compared (Some true) any none (sub_src (sub_in (u "interface") (Some "forearc"))) (sub_src (sub_in (u "interface") (Some "backarc"))) AdjDefault 1 1100 /\
  compared (Some false) none (fun t => t <= 1.5) (sub_src (sub_in (u "intraslab") None)) (sub_src (sub_in (u "intraslab") (Some "backarc"))) AdjDefault 1 1100.
Proof.
  intros u. split.
  - apply (C153_interface_near _ _ (u "interface") (Some "forearc") AdjDefault (map (dc1_default false) aga16_T) 1 60 50); try apply sub_src_gives; try reflexivity; try discriminate;
      try (repeat split; cbn; auto; discriminate); cbn; lra.
  - apply (C153_slab_far _ _ (u "intraslab") None AdjDefault (map (dc1_default true) aga16_T) 1 130 50); try apply sub_src_gives; try reflexivity; try discriminate;
      try (repeat split; cbn; auto; discriminate); cbn; lra.
Qed.
