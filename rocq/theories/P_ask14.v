(** * Proofs for Abrahamson, Silva & Kamai (2014) *)
From Coquelicot Require Import Coquelicot.
From Interval Require Import Tactic.
From Coq Require Import List.
From Verif Require Import M_ask14 FrameworkProofs Anal NpProofs Nga Outs P_cy14 P_bssa14 P_cb14.
Open Scope R_scope.
Open Scope string_scope.
Open Scope list_scope.

Definition ask14_mech (a : nga) : pyval := choice ["SS"; "NS"; "RS"] PNone (n_mech a).
Definition ask14_region (a : nga) : pyval := choice ["global"; "california"; "china"; "italy"; "japan"; "taiwan"] (PStr "global") (n_region a).
Definition ask14_source (a : nga) : pyval := choice ["measured"; "inferred"] (PStr "measured") (n_source a).
Definition obool_def (o : option bool) : bool := match o with Some b => b | None => false end.
Definition ask14_input (a : nga) : ask14_in :=
  ASK14In (Fin (n_mag a)) (Fin (n_rup a)) (Fin (n_jb a)) (Fin (n_v a)) (option_map Fin (n_z1 a))
    (odef (n_tor a) (ask14_calc_depth_tor (Fin (n_mag a)))) (Fin (n_dip a)) (odef (n_crjb a) (Fin 15))
    (option_map Fin (n_x a)) (option_map Fin (n_y0 a))
    (odef (n_width a) (ask14_calc_width (Fin (n_mag a)) (Fin (n_dip a))))
    (ask14_mech a) (ask14_region a) (ask14_source a) (obool_def (n_after a)) (obool_def (n_hw a)).
Ltac ask14_fields := cbn [as_mag as_dist_rup as_dist_jb as_v_s30 as_depth_1_0 as_depth_tor as_dip as_dist_crjb as_dist_x as_dist_y0 as_width
  as_mechanism as_region as_vs_source as_aftershock as_hw].

Definition ask14_resp (a : nga) (c : ask14_row) : flt := ask14_ln_resp c (ask14_input a) (Fin (n_v a)) (fexp (ask14_ln_ref c (ask14_input a))).
Definition ask14_std (a : nga) (c : ask14_row) : flt := fst (fst (ask14_ln_std c (ask14_input a) (fexp (ask14_ln_ref c (ask14_input a))))).

Definition ask14_scen (a : nga) (t : string) : scen := Scen
  [("dist_rup", PNum (Fin (n_rup a))); ("dist_jb", PNum (Fin (n_jb a))); ("mag", PNum (Fin (n_mag a))); ("v_s30", PNum (Fin (n_v a)));
   ("depth_1_0", onum (n_z1 a)); ("depth_tor", onum (n_tor a)); ("dip", PNum (Fin (n_dip a))); ("dist_crjb", PNum (odef (n_crjb a) $15%flt));
   ("dist_x", onum (n_x a)); ("dist_y0", onum (n_y0 a)); ("width", onum (n_width a)); ("mechanism", choice ["SS"; "NS"; "RS"] PNone (Some t));
   ("region", ask14_region a); ("vs_source", ask14_source a);
   ("is_aftershock", PBool (obool_def (n_after a))); ("on_hanging_wall", PBool (obool_def (n_hw a)))] [].

Lemma ask14_run src a t : nga_gives src a -> n_mech a = Some t ->
  exists s, result (ask14_prep (ask14_scen a t)) = Ok s /\
  result (ask14 src) = match result (ask14_read s) with Raise e => Raise e | Ok i =>
    Ok (GMM ask14_class s (map (fun c => ask14_ln_resp c i (as_v_s30 i) (fexp (ask14_ln_ref c i))) ask14_coeff)
         (Some (map (fun c => fst (fst (ask14_ln_std c i (fexp (ask14_ln_ref c i))))) ask14_coeff))) end /\
  result (ask14_read s) = if obool_def (n_hw a) && match n_x a with None => true | Some _ => false end then Raise EType
     else Ok (ask14_input a).
Proof.
  intros H Ht. unfold nga_gives, has_num, gives_num, gives_str, gives_bool in H.
  rewrite Ht in H. cbn [ostr] in H. repeat match goal with G : _ /\ _ |- _ => destruct G end.
  assert (P : exists s, result (ask14_prep (ask14_scen a t)) = Ok s /\ result (ask14_read s) =
    if obool_def (n_hw a) && match n_x a with None => true | Some _ => false end then Raise EType
     else Ok (ask14_input a)).
  { unfold ask14_prep, ask14_scen, ask14_input. replace (ask14_mech a) with (choice ["SS"; "NS"; "RS"] PNone (Some t)) by (unfold ask14_mech; rewrite Ht; reflexivity).
    generalize (choice ["SS"; "NS"; "RS"] PNone (Some t)) (ask14_region a) (ask14_source a) (obool_def (n_after a)) (obool_def (n_hw a)); intros me re vs af hw.
    destruct (n_width a), (n_tor a); (eexists; split; [reflexivity|]); destruct (n_z1 a), (n_x a), (n_y0 a), hw; reflexivity. }
  destruct P as (s & P1 & P2). exists s. split; [exact P1|]. split; [|exact P2].
  unfold ask14. rewrite gmm_make_prep_result by reflexivity.
  let x := eval cbv [gc_params ask14_class NumP CatP CatBoolP map] in (gc_params ask14_class) in change (gc_params ask14_class) with x.
  run_checks_nga. repeat (rewrite ?chk_num, ?chk_onum_none, ?chk_onum, ?chk_ostr, ?chk_obool, ?chk_str_req; cbn [checks p_name]).
  fold (ask14_region a) (ask14_source a) (obool_def (n_after a)) (obool_def (n_hw a)).
  unfold ask14_scen in P1. rewrite P1. rewrite result_bind. destruct (result (ask14_read s)); reflexivity.
Qed.

Definition ask14_psa : list ask14_row := firstn 22 ask14_coeff.
Definition ask14_pga_row : ask14_row := ltac:(let x := eval cbv in (nth_error ask14_coeff 22) in match x with Some ?c => exact c end).
Definition ask14_pgv_row : ask14_row := ltac:(let x := eval cbv in (nth_error ask14_coeff 23) in match x with Some ?c => exact c end).
Lemma ask14_pga_in : In ask14_pga_row ask14_coeff. Proof. apply (nth_error_In _ 22); reflexivity. Qed.
Lemma ask14_pgv_in : In ask14_pgv_row ask14_coeff. Proof. apply (nth_error_In _ 23); reflexivity. Qed.
Lemma ask14_psa_in : incl ask14_psa ask14_coeff.
Proof. intros c Hc. rewrite <- (firstn_skipn 22 ask14_coeff). apply in_or_app; left; exact Hc. Qed.
Definition ask14_outs (a : nga) : outs := row_outs ask14_psa ask14_pga_row ask14_pgv_row (Fin 1) (ask14_resp a) (ask14_std a).

(** A site on the hanging wall needs dist_x. *)
Definition hw_has_x (a : nga) : Prop := n_hw a = Some true -> n_x a <> None.
Lemma ask14_out src a t : nga_gives src a -> n_mech a = Some t -> hw_has_x a -> gmm_out (ask14 src) (ask14_outs a).
Proof.
  intros G Ht Hx. destruct (ask14_run src a t G Ht) as (s & _ & E & R).
  replace (obool_def (n_hw a) && match n_x a with None => true | Some _ => false end) with false in R.
  2:{ unfold hw_has_x in Hx. destruct (n_hw a) as [[]|]; cbn; try reflexivity. destruct (n_x a); [reflexivity|exfalso; apply Hx; reflexivity]. }
  rewrite R in E. eapply (gmm_out_rows (ask14 src) ask14_class s (ask14_resp a) (ask14_std a) ask14_coeff ask14_psa (-2) (-1)); [exact E|reflexivity..].
Qed.
Theorem ask14_hw_needs_x src a t : nga_gives src a -> n_mech a = Some t -> n_hw a = Some true -> n_x a = None ->
  result (ask14 src) = Raise EType.
Proof. intros G Ht Hw Hx. destruct (ask14_run src a t G Ht) as (s & _ & E & R). rewrite Hw, Hx in R. cbn in R. rewrite R in E. exact E. Qed.

(** ** Parts *)
Lemma finite_opt_x o : match option_map Fin o with Some x => finite x | None => True end.
Proof. destruct o; cbn; [apply finite_fin|exact I]. Qed.
Lemma finite_interp4 x y0 y1 y2 y3 : finite y0 -> finite y1 -> finite y2 -> finite y3 ->
  finite (np_interp [$150; $250; $400; $700]%flt [y0; y1; y2; y3] (Fin x)).
Proof.
  intros [a0 ->] [a1 ->] [a2 ->] [a3 ->].
  destruct (np_interp_rows (fst : R * R -> R) [(150, a0); (250, a1); (400, a2); (700, a3)] x) as (c1 & c2 & w & _ & _ & _ & F); [discriminate|cbn; repeat split; lra|].
  eexists. exact (F (fun c => Fin (snd c)) snd (fun c _ => eq_refl)).
Qed.
Lemma finite_interp7 x y0 y1 y2 y3 y4 y5 y6 : finite y0 -> finite y1 -> finite y2 -> finite y3 -> finite y4 -> finite y5 -> finite y6 ->
  finite (np_interp [$150; $250; $350; $450; $600; $850; $1150]%flt [y0; y1; y2; y3; y4; y5; y6] (Fin x)).
Proof.
  intros [a0 ->] [a1 ->] [a2 ->] [a3 ->] [a4 ->] [a5 ->] [a6 ->].
  destruct (np_interp_rows (fst : R * R -> R) [(150, a0); (250, a1); (350, a2); (450, a3); (600, a4); (850, a5); (1150, a6)] x) as (c1 & c2 & w & _ & _ & _ & F); [discriminate|cbn; repeat split; lra|].
  eexists. exact (F (fun c => Fin (snd c)) snd (fun c _ => eq_refl)).
Qed.
Lemma fin_ask14_tor m : finite (ask14_calc_depth_tor (Fin m)).
Proof.
  destruct (np_interp_rows (fst : R * R -> R) [(5.0, 7.8); (7.2, 0)] m) as (c1 & c2 & w & _ & _ & _ & F); [discriminate|cbn; repeat split; lra|].
  eexists. exact (F (fun c => Fin (snd c)) snd (fun c _ => eq_refl)).
Qed.
Lemma ask14_v1_form c : exists v1, ask14_v1 c = Fin v1 /\ 801 <= v1 <= 1500 /\ (Q2R (ask14_period c) <= 0.5 -> v1 = 1500).
Proof.
  unfold ask14_v1, qf. rewrite fclip_fin. fcbn. set (p := Rmin (Rmax (Q2R (ask14_period c)) 0.5) 3).
  assert (Hp : 0.5 <= p <= 3) by (unfold p; split; [apply Rmin_glb; [apply Rmax_r|lra]|apply Rmin_r]).
  rewrite fdiv_fin by lra. rewrite !flog_fin by lra. fcbn. eexists; split; [reflexivity|].
  assert (L : 0 <= ln (p / 0.5) <= ln 6).
  { split; [apply ln_nonneg; lra|apply ln_le_mono; lra]. }
  assert (E : forall u, exp (u + ln 1500) = exp u * 1500) by (intros; rewrite exp_plus, exp_ln by lra; reflexivity).
  rewrite E. split; [|intros Hq].
  - split.
    + apply Rle_trans with (exp (- (0.35) * ln 6) * 1500); [interval with (i_prec 40)|]. apply Rmult_le_compat_r; [lra|]. apply exp_le_mono. lra.
    + assert (exp (- (0.35) * ln (p / 0.5)) <= 1); [|lra]. rewrite <- exp_0. apply exp_le_mono. lra.
  - assert (p = 0.5) as -> by (unfold p; rewrite Rmax_right by lra; apply Rmin_left; lra).
    replace (0.5 / 0.5) with 1 by lra. rewrite ln_1, Rmult_0_r, exp_0. lra.
Qed.
Lemma ask14_vlin c v1 : In c ask14_coeff -> ask14_v1 c = Fin v1 -> 330 <= Q2R (ask14_v_lin c) <= Rmin 1180.0 v1.
Proof.
  intros Hc E. destruct (ask14_v1_form c) as (v1' & E' & B & P). assert (v1' = v1) by congruence; subst v1'.
  row_ge Hc (330#1)%Q ask14_v_lin as L. split; [lra|].
  assert (Q : forallb (fun c => Qle_bool (ask14_v_lin c) (800#1) || (Qle_bool (ask14_period c) (1#2) && Qle_bool (ask14_v_lin c) (1180#1)))%bool ask14_coeff = true) by (vm_compute; reflexivity).
  rewrite forallb_forall in Q. specialize (Q c Hc). apply Bool.orb_true_iff in Q. destruct Q as [Q|Q].
  - apply Qle_bool_iff, Qle_Rle in Q. replace (Q2R (800#1)) with 800 in Q by (unfold Q2R; cbn; lra). apply Rmin_glb; lra.
  - apply Bool.andb_true_iff in Q. destruct Q as [Q1 Q2]. apply Qle_bool_iff, Qle_Rle in Q1. apply Qle_bool_iff, Qle_Rle in Q2.
    replace (Q2R (1#2)) with 0.5 in Q1 by (unfold Q2R; cbn; lra). replace (Q2R (1180#1)) with 1180 in Q2 by (unfold Q2R; cbn; lra).
    rewrite (P Q1). apply Rmin_glb; lra.
Qed.
Lemma fpos_ask14_z1 v re : 0 < v -> fpos (ask14_calc_depth_1_0 (Fin v) re).
Proof.
  intros Hv. unfold ask14_calc_depth_1_0. destruct (pyin _ _); fsplit.
  all: try (apply fpos_add_nn; fsplit; apply fpos_sq; fsplit).
  all: try (apply fpos_sq; fsplit).
Qed.
Definition depth_ok (a : nga) : Prop := match n_z1 a with Some d => 0 <= d | None => True end.

Lemma ask14_site_finite c p v d re : In c ask14_coeff -> 0 < v -> fpos p \/ 1180 <= v -> 
  match d with Some x => fnonneg x | None => True end -> finite (ask14_site_term c p (Fin v) d re).
Proof.
  intros Hc Hv Hp Hd. destruct (ask14_v1_form c) as (v1 & E & B & _). pose proof (ask14_vlin c v1 Hc E) as L.
  row_pos Hc ask14_c as C. unfold ask14_site_term. rewrite E. unfold qf at 1. fcbn.
  assert (M : 0 < Rmin v v1) by (apply Rmin_glb_lt; lra).
  rewrite fdiv_fin by lra. set (z := Rmin v v1 / Q2R (ask14_v_lin c)).
  assert (Z : 0 < z) by (apply Rdiv_lt_0_compat; lra).
  apply finite_fadd.
  - fcbn. destruct (Rltb_spec z 1) as [H|H].
    + destruct Hp as [Hp|Hp].
      * fsplit; auto with fltdb.
      * exfalso. assert (1 <= z); [|lra]. unfold z. apply (Rmult_le_reg_r (Q2R (ask14_v_lin c))); [lra|].
        replace (Rmin v v1 / Q2R (ask14_v_lin c) * Q2R (ask14_v_lin c)) with (Rmin v v1) by (field; lra). rewrite Rmult_1_l.
        destruct L as [_ L]. eapply Rle_trans; [exact L|]. apply Rle_min_compat_r. lra.
    + fsplit.
  - fcbn. destruct (Reqb v 1180.0); [apply finite_fin|]. destruct d as [d|]; [|apply finite_fin].
    apply finite_fmul; [apply finite_interp4; apply finite_qf|]. apply finite_flog. apply fpos_div.
    + destruct Hd as (x & -> & Hx). apply fpos_fin. lra.
    + apply fpos_add; [apply fpos_ask14_z1; exact Hv|fsplit].
Qed.
Definition ask14_src_terms (c : ask14_row) (s : ask14_in) : flt :=
  (ask14_f1 c s + (if as_hw s then ask14_f4 c s else $0) + qf (ask14_a15 c) * fclip (as_depth_tor s / $20) $0 $1
   + (if is_str (as_mechanism s) "RS" then qf (ask14_a11 c) * fclip (as_mag s - $4) $0 $1 else $0)
   + (if is_str (as_mechanism s) "NS" then qf (ask14_a12 c) * fclip (as_mag s - $4) $0 $1 else $0)
   + (if as_aftershock s then qf (ask14_a14 c) * fclip ($1 - (as_dist_crjb s - $5) / $10) $0 $1 else $0))%flt.
Lemma ask14_ln_resp_parts c s v p : ask14_ln_resp c s v p =
  (ask14_src_terms c s + ask14_freg c s v + ask14_site_term c p v (as_depth_1_0 s) (as_region s))%flt.
Proof. reflexivity. Qed.

(** Fault geometry for a site on the hanging wall. *)
Definition ask14_geom (a : nga) : Prop := n_hw a = Some true -> exists x, n_x a = Some x /\ 0 <= x /\ 0 < n_dip a <= 90.
Lemma ask14_geom_x a : ask14_geom a -> hw_has_x a.
Proof. intros H Hw. destruct (H Hw) as (x & -> & _). discriminate. Qed.
Lemma ask14_f1_finite c a : In c ask14_coeff -> finite (ask14_f1 c (ask14_input a)).
Proof.
  intros Hc. row_ge Hc (1#1)%Q ask14_c4 as C4. unfold ask14_f1, ask14_input; ask14_fields.
  assert (D : fpos (fsqrt (fsq (Fin (n_rup a)) + fsq (qf (ask14_c4 c) - (qf (ask14_c4 c) - $1) * fclip ($5 - Fin (n_mag a)) $0 $1)))%flt).
  { apply fpos_sqrt, fpos_add_nn; [fsplit|]. apply fpos_sq. unfold qf. fcbn. rewrite ?fclip_fin. fcbn. apply fpos_fin.
    set (t := Rmin (Rmax (5 - n_mag a) 0) 1). assert (0 <= t <= 1) by (unfold t; split; [apply Rmin_glb; [apply Rmax_r|lra]|apply Rmin_r]). nra. }
  set (di := fsqrt _) in *. clearbody di. fsplit; auto.
Qed.
Lemma ask14_f4_finite c a : In c ask14_coeff -> ask14_geom a -> n_hw a = Some true -> finite (ask14_f4 c (ask14_input a)).
Proof.
  intros Hc HG Hw. destruct (HG Hw) as (x & Ex & Hx & Hd). unfold ask14_f4, ask14_input; ask14_fields. rewrite Ex. cbn [option_map].
  assert (W : finite (odef (n_width a) (ask14_calc_width (Fin (n_mag a)) (Fin (n_dip a))))).
  { apply finite_odef. unfold ask14_calc_width. fsplit. fcbn. unfold fradians. fcbn. apply fpos_fin. apply sin_dip_pos; exact Hd. }
  destruct W as [w ->].
  assert (T : finite (odef (n_tor a) (ask14_calc_depth_tor (Fin (n_mag a))))) by (apply finite_odef, fin_ask14_tor).
  unfold fradians. fcbn. set (r1 := w * cos (n_dip a * (PI / 180))).
  set (t3 := if Rltb x r1 then _ else _ : flt). assert (F3 : finite t3).
  { unfold t3. destruct (Rltb_spec x r1); [rewrite fdiv_fin by lra; fsplit|]. destruct (Rltb_spec x (3 * r1)); [|fsplit].
    rewrite fdiv_fin by lra. fsplit. }
  clearbody t3. destruct (n_y0 a); cbn [option_map]; fsplit; auto using fin_ask14_tor.
Qed.
Lemma ask14_src_finite c a : In c ask14_coeff -> ask14_geom a -> finite (ask14_src_terms c (ask14_input a)).
Proof.
  intros Hc HG. pose proof (ask14_f1_finite c a Hc) as F1. unfold ask14_src_terms. set (f1 := ask14_f1 _ _) in *. clearbody f1.
  assert (T : finite (odef (n_tor a) (ask14_calc_depth_tor (Fin (n_mag a))))) by (apply finite_odef, fin_ask14_tor).
  assert (F4 : finite (if as_hw (ask14_input a) then ask14_f4 c (ask14_input a) else $0%flt)).
  { cbn [as_hw ask14_input]. destruct (n_hw a) as [[]|] eqn:E; cbn [obool_def]; try apply finite_fin. apply ask14_f4_finite; assumption. }
  set (f4 := if as_hw _ then _ else _) in *. clearbody f4. unfold ask14_input; ask14_fields. fsplit; auto using fin_ask14_tor.
Qed.
Lemma ask14_freg_finite c a v : In c ask14_coeff -> 0 < v -> finite (ask14_freg c (ask14_input a) (Fin v)).
Proof.
  intros Hc Hv. destruct (ask14_v1_form c) as (v1 & E & B & _). pose proof (ask14_vlin c v1 Hc E) as L. unfold ask14_freg, ask14_input; ask14_fields. rewrite E.
  fsplit. 1,2: fcbn; apply fpos_fin || idtac. 
  all: try (apply Rmin_glb_lt; lra). all: try apply finite_interp7; try apply finite_qf.
Qed.
Lemma ask14_ref_finite c a : In c ask14_coeff -> ask14_geom a -> depth_ok a -> finite (ask14_ln_ref c (ask14_input a)).
Proof.
  intros Hc HG Hd. unfold ask14_ln_ref. rewrite ask14_ln_resp_parts. apply finite_fadd; [apply finite_fadd|].
  - apply ask14_src_finite; assumption.
  - apply ask14_freg_finite; [assumption|lra].
  - apply ask14_site_finite; [assumption|lra|right; lra|]. cbn [as_depth_1_0 ask14_input]. unfold depth_ok in Hd. destruct (n_z1 a); cbn; [apply fnonneg_fin; exact Hd|exact I].
Qed.
Lemma ask14_resp_finite c a : In c ask14_coeff -> ask14_geom a -> depth_ok a -> 0 < n_v a -> finite (ask14_resp a c).
Proof.
  intros Hc HG Hd Hv. unfold ask14_resp. rewrite ask14_ln_resp_parts. apply finite_fadd; [apply finite_fadd|].
  - apply ask14_src_finite; assumption.
  - apply ask14_freg_finite; assumption.
  - apply ask14_site_finite; [assumption|assumption|left; apply fpos_fexp, ask14_ref_finite; assumption|].
    cbn [as_depth_1_0 ask14_input]. unfold depth_ok in Hd. destruct (n_z1 a); cbn; [apply fnonneg_fin; exact Hd|exact I].
Qed.

(** ** Non-linear soil response *)
Lemma nl_bound b p c s : 0 <= b -> 0 < p -> 0 < c -> 0 < s <= 1 -> b * (1 - s) < 1 + s ->
  0 <= b * p / (p + c * (s * s)) - b * p / (p + c) < 1.
Proof.
  intros Hb Hp Hc Hs H. assert (0 < c * (s * s)) by (apply Rmult_lt_0_compat; nra).
  replace (b * p / (p + c * (s * s)) - b * p / (p + c)) with (b * p * (c * (1 - s * s)) / ((p + c * (s * s)) * (p + c))) by (field; lra).
  assert (Q : 0 < (p + c * (s * s)) * (p + c)) by (apply Rmult_lt_0_compat; lra).
  split.
  - apply Rmult_le_pos; [|left; apply Rinv_0_lt_compat; exact Q]. apply Rmult_le_pos; [nra|]. apply Rmult_le_pos; [lra|nra].
  - apply (Rmult_lt_reg_r ((p + c * (s * s)) * (p + c))); [exact Q|].
    replace (b * p * (c * (1 - s * s)) / ((p + c * (s * s)) * (p + c)) * ((p + c * (s * s)) * (p + c))) with (b * p * (c * (1 - s * s))) by (field; lra).
    rewrite Rmult_1_l.
    assert (A : c * p * ((1 + s) * (1 + s)) <= (p + c * (s * s)) * (p + c)).
    { pose proof (Rle_0_sqr (p - c * s)) as S. unfold Rsqr in S. nra. }
    assert (B : b * (1 - s) * (1 + s) < (1 + s) * (1 + s)) by (apply Rmult_lt_compat_r; lra).
    assert (P : 0 < c * p) by (apply Rmult_lt_0_compat; lra).
    assert (C : c * p * (b * (1 - s) * (1 + s)) < c * p * ((1 + s) * (1 + s))) by (apply Rmult_lt_compat_l; assumption).
    lra.
Qed.
Lemma nl_incr b c s y1 y2 : 0 <= b -> 0 < c -> 0 < s <= 1 -> b * (1 - s) < 1 + s -> y1 < y2 ->
  y1 + b * ln (exp y1 + c) - b * ln (exp y1 + c * (s * s)) < y2 + b * ln (exp y2 + c) - b * ln (exp y2 + c * (s * s)).
Proof.
  intros Hb Hc Hs H L. assert (0 < c * (s * s)) by (apply Rmult_lt_0_compat; nra).
  apply (incr_by_derive (fun y => y + b * ln (exp y + c) - b * ln (exp y + c * (s * s)))
    (fun y => 1 + b * (exp y * / (exp y + c)) - b * (exp y * / (exp y + c * (s * s))))); [exact L| |].
  - intros y _. pose proof (exp_pos y). auto_derive; [repeat split; lra|]. ring.
  - intros y _. pose proof (exp_pos y) as P. pose proof (nl_bound b (exp y) c s Hb P Hc Hs H). unfold Rdiv in *. lra.
Qed.
(** The square root of the soil factor (v/v_lin)^n. *)
Lemma ask14_soil c z : In c ask14_coeff -> 180 / Q2R (ask14_v_lin c) <= z <= 1 ->
  exists s, 0 < s <= 1 /\ Rpower z (Q2R (ask14_n c)) = s * s /\ - Q2R (ask14_b c) * (1 - s) < 1 + s /\ Q2R (ask14_b c) <= 0.
Proof.
  intros Hc Hz. row_is Hc ask14_n (3#2)%Q as N. row_upto Hc ask14_b (0#1)%Q as B. row_pos Hc ask14_v_lin as V.
  assert (V0 : 0 < 180 / Q2R (ask14_v_lin c)) by (apply Rdiv_lt_0_compat; lra).
  exists (Rpower z (3/4)). set (s := Rpower z (3/4)).
  assert (S0 : 0 < s) by apply Rpower_pos.
  assert (S1 : s <= 1). { unfold s, Rpower. rewrite <- exp_0. apply exp_le_mono. assert (ln z <= 0) by (apply ln_nonpos; lra). lra. }
  assert (S4 : s * s * (s * s) = z * z * z).
  { unfold s. rewrite <- !Rpower_plus. replace (3/4 + 3/4 + (3/4 + 3/4)) with (1 + 1 + 1) by lra. rewrite !Rpower_plus, !Rpower_1 by lra. reflexivity. }
  split; [lra|]. split. { unfold s. rewrite <- Rpower_plus. f_equal. lra. } split; [|lra].
  destruct (Rlt_dec (- Q2R (ask14_b c) * (1 - s)) (1 + s)) as [L|L]; [exact L|exfalso].
  set (b := - Q2R (ask14_b c)) in *.
  assert (Q : forallb (fun c => Qle_bool (- ask14_b c) 1 || negb (Qle_bool ((180#1) * (180#1) * (180#1) * ((1 - ask14_b c) * (1 - ask14_b c) * ((1 - ask14_b c) * (1 - ask14_b c))))
      (((- ask14_b c - 1) * (- ask14_b c - 1) * ((- ask14_b c - 1) * (- ask14_b c - 1))) * (ask14_v_lin c * ask14_v_lin c * ask14_v_lin c))))%Q%bool ask14_coeff = true) by (vm_compute; reflexivity).
  rewrite forallb_forall in Q. specialize (Q c Hc). apply Bool.orb_true_iff in Q. destruct Q as [Q|Q].
  - apply Qle_bool_iff, Qle_Rle in Q. rewrite Q2R_opp in Q. replace (Q2R 1) with 1 in Q by (unfold Q2R; cbn; lra). fold b in Q. nra.
  - apply Bool.negb_true_iff in Q. assert (Q' : ((((- ask14_b c - 1) * (- ask14_b c - 1) * ((- ask14_b c - 1) * (- ask14_b c - 1))) * (ask14_v_lin c * ask14_v_lin c * ask14_v_lin c)) < (180#1) * (180#1) * (180#1) * ((1 - ask14_b c) * (1 - ask14_b c) * ((1 - ask14_b c) * (1 - ask14_b c))))%Q).
    { apply Qnot_le_lt. intros W. apply Qle_bool_iff in W. congruence. }
    apply Qlt_Rlt in Q'. repeat first [rewrite Q2R_mult in Q' | rewrite Q2R_minus in Q' | rewrite Q2R_opp in Q'].
    replace (Q2R 1) with 1 in Q' by (unfold Q2R; cbn; lra). replace (Q2R (180#1)) with 180 in Q' by (unfold Q2R; cbn; lra).
    fold b in Q'. replace (1 - Q2R (ask14_b c)) with (1 + b) in Q' by (unfold b; lra).
    set (v := Q2R (ask14_v_lin c)) in *. set (k := b - 1) in *.
    assert (Hk : s * (1 + b) <= k) by (unfold k; nra).
    assert (Zv : 180 <= z * v).
    { destruct Hz as [Hz _]. apply (Rmult_le_compat_r v) in Hz; [|lra]. replace (180 / v * v) with 180 in Hz by (field; lra). exact Hz. }
    assert (B1 : 0 <= s * (1 + b)) by (apply Rmult_le_pos; unfold b; lra).
    assert (K2 : (s * (1 + b)) * (s * (1 + b)) <= k * k) by (apply Rmult_le_compat; lra).
    set (u := s * (1 + b)) in *. assert (K0 : 0 <= u * u) by (apply Rmult_le_pos; lra).
    assert (K4 : u * u * (u * u) <= k * k * (k * k)) by (apply Rmult_le_compat; lra).
    assert (E4 : u * u * (u * u) = z * z * z * ((1 + b) * (1 + b) * ((1 + b) * (1 + b)))) by (rewrite <- S4; unfold u; ring).
    assert (V3 : 0 < v * v * v) by (apply Rmult_lt_0_compat; [apply Rmult_lt_0_compat|]; lra).
    assert (Z2 : 180 * 180 <= (z * v) * (z * v)) by (apply Rmult_le_compat; lra).
    assert (Z3 : 180 * 180 * 180 <= (z * v) * (z * v) * (z * v)) by (apply Rmult_le_compat; lra).
    set (B4 := (1 + b) * (1 + b) * ((1 + b) * (1 + b))) in *.
    assert (P4 : 0 <= B4) by (unfold B4; pose proof (Rle_0_sqr ((1+b)*(1+b))) as W; unfold Rsqr in W; lra).
    assert (180 * 180 * 180 * B4 <= (z * v) * (z * v) * (z * v) * B4) by (apply Rmult_le_compat_r; lra).
    assert (z * z * z * B4 * (v * v * v) <= k * k * (k * k) * (v * v * v)) by (apply Rmult_le_compat_r; lra).
    lra.
Qed.

(** ** Standard deviation *)
Definition ask14_tauR (c : ask14_row) (m : R) : R := Q2R (ask14_s3 c) + (Q2R (ask14_s4 c) - Q2R (ask14_s3 c)) * clip01 ((m - 5) / 2).
Definition ask14_phiR (c : ask14_row) (jp measured : bool) (m r : R) : R :=
  if jp then Q2R (ask14_s5 c) + (Q2R (ask14_s6 c) - Q2R (ask14_s5 c)) * clip01 ((r - 30) / 50)
  else if measured then Q2R (ask14_s1m c) + (Q2R (ask14_s2m c) - Q2R (ask14_s1m c)) * clip01 ((m - 4) / 2)
  else Q2R (ask14_s1e c) + (Q2R (ask14_s2e c) - Q2R (ask14_s1e c)) * clip01 ((m - 4) / 2).
Definition ask14_jp (a : nga) : bool := is_str (ask14_region a) "japan".
Definition ask14_measured (a : nga) : bool := is_str (ask14_source a) "measured".
Definition ask14_phi_of (c : ask14_row) (a : nga) : R := ask14_phiR c (ask14_jp a) (ask14_measured a) (n_mag a) (n_rup a).
Lemma ask14_tau_range c m : In c ask14_coeff -> 0.36 <= ask14_tauR c m <= 0.47.
Proof.
  intros Hc. row_ge Hc (36#100)%Q ask14_s3 as A. row_upto Hc ask14_s3 (47#100)%Q as B. row_ge Hc (36#100)%Q ask14_s4 as C. row_upto Hc ask14_s4 (47#100)%Q as D.
  apply convex2; [lra|lra|apply clip01_range].
Qed.
Lemma ask14_phi_range c jp me m r : In c ask14_coeff -> 0.35 <= ask14_phiR c jp me m r <= 0.82.
Proof.
  intros Hc. unfold ask14_phiR. destruct jp; [|destruct me].
  - row_ge Hc (35#100)%Q ask14_s5 as A. row_upto Hc ask14_s5 (82#100)%Q as B. row_ge Hc (35#100)%Q ask14_s6 as C. row_upto Hc ask14_s6 (82#100)%Q as D.
    apply convex2; [lra|lra|apply clip01_range].
  - row_ge Hc (35#100)%Q ask14_s1m as A. row_upto Hc ask14_s1m (82#100)%Q as B. row_ge Hc (35#100)%Q ask14_s2m as C. row_upto Hc ask14_s2m (82#100)%Q as D.
    apply convex2; [lra|lra|apply clip01_range].
  - row_ge Hc (35#100)%Q ask14_s1e as A. row_upto Hc ask14_s1e (82#100)%Q as B. row_ge Hc (35#100)%Q ask14_s2e as C. row_upto Hc ask14_s2e (82#100)%Q as D.
    apply convex2; [lra|lra|apply clip01_range].
Qed.
Lemma ask14_std_form c a p : In c ask14_coeff -> 0 < n_v a -> 0 < p ->
  exists d sg tau phi, ask14_ln_std c (ask14_input a) (Fin p) = (Fin sg, Fin tau, Fin phi) /\
    0.4 <= phi /\ 0.4 <= sg /\ sg * sg = tau * tau + phi * phi /\ tau = ask14_tauR c (n_mag a) * (1 + d) /\
    phi * phi = 0.16 + Rmax (ask14_phi_of c a * ask14_phi_of c a - 0.16) 0 * ((1 + d) * (1 + d)) /\
    (Q2R (ask14_v_lin c) <= n_v a -> d = 0) /\ (180 <= n_v a -> -1 < d <= 0).
Proof.
  intros Hc Hv Hp. row_pos Hc ask14_v_lin as V. row_pos Hc ask14_c as C.
  assert (Z0 : 0 < n_v a / Q2R (ask14_v_lin c)) by (apply Rdiv_lt_0_compat; lra).
  set (z := Rpower (n_v a / Q2R (ask14_v_lin c)) (Q2R (ask14_n c))).
  assert (Z : 0 < z) by apply Rpower_pos.
  set (b := Q2R (ask14_b c)) in *. set (k := Q2R (ask14_c c)) in *. assert (C0 : 0 < k) by lra. clear C; rename C0 into C.
  assert (KZ : 0 < k * z) by exact (Rmult_lt_0_compat k z C Z).
  set (dd := - b * p / (p + k) + b * p / (p + k * z)).
  set (d := if Rleb (Q2R (ask14_v_lin c)) (n_v a) then 0 else dd).
  set (ta := ask14_tauR c (n_mag a) * (1 + d)).
  set (ph := sqrt (0.16 + Rmax (ask14_phi_of c a * ask14_phi_of c a - 0.16) 0 * ((1 + d) * (1 + d)))).
  assert (X0 : 0 <= Rmax (ask14_phi_of c a * ask14_phi_of c a - 0.16) 0) by apply Rmax_r.
  set (X := Rmax (ask14_phi_of c a * ask14_phi_of c a - 0.16) 0) in *.
  assert (XD : 0 <= X * ((1 + d) * (1 + d))) by exact (Rmult_le_pos X ((1 + d) * (1 + d)) X0 (Rle_0_sqr (1 + d))).
  assert (P1 : ph * ph = 0.16 + X * ((1 + d) * (1 + d))) by (unfold ph; apply sqrt_sqrt; lra).
  assert (P2 : 0.4 <= ph). { unfold ph. replace 0.4 with (sqrt (0.4 * 0.4)) by (apply sqrt_square; lra). apply sqrt_le_1; lra. }
  assert (T2 : 0 <= ta * ta) by exact (Rle_0_sqr ta).
  exists d, (sqrt (ph * ph + ta * ta)), ta, ph.
  assert (G2 : 0.4 <= sqrt (ph * ph + ta * ta)).
  { replace 0.4 with (sqrt (0.4 * 0.4)) by (apply sqrt_square; lra). apply sqrt_le_1; [lra|nra|nra]. }
  split; [|split; [exact P2|split; [exact G2|split; [rewrite sqrt_sqrt by nra; lra|split; [reflexivity|split; [exact P1|split]]]]]].
  - unfold ask14_ln_std, ask14_input; ask14_fields. fold (ask14_jp a) (ask14_measured a).
    match goal with |- context [fsq (if ask14_jp a then ?A else ?B)] => replace (if ask14_jp a then A else B) with (Fin (ask14_phi_of c a)) end.
    2:{ unfold ask14_phi_of, ask14_phiR, clip01. destruct (ask14_jp a); [|destruct (ask14_measured a)]; unfold qf; fcbn; rewrite fdiv_fin by lra; rewrite fclip_fin; fcbn; reflexivity. }
    unfold qf. fcbn. fold b k. rewrite !(fdiv_fin (n_v a)) by lra. rewrite fpow_fin by exact Z0. fold z. fcbn.
    rewrite !(fdiv_fin _ (p + k)) by lra. rewrite !(fdiv_fin _ (p + k * z)) by lra. fcbn. 
    rewrite (fdiv_fin (n_mag a - 5)) by lra. rewrite fclip_fin. fcbn.
    replace (if Rleb (Q2R (ask14_v_lin c)) (n_v a) then Fin 0 else Fin (- b * p / (p + k) + b * p / (p + k * z))) with (Fin d)
      by (unfold d, dd; destruct (Rleb _ _); reflexivity).
    fcbn. replace (ask14_phi_of c a * ask14_phi_of c a - 0.4 * 0.4) with (ask14_phi_of c a * ask14_phi_of c a - 0.16) by lra. fold X.
    rewrite (fsqrt_fin X) by exact X0. fcbn. rewrite sqrt_sqrt by exact X0. rewrite fsqrt_fin by lra. fcbn.
    replace (X * ((1 + d) * (1 + d)) + 0.4 * 0.4) with (0.16 + X * ((1 + d) * (1 + d))) by lra. fold ph.
    change ((Q2R (ask14_s3 c) + (Q2R (ask14_s4 c) - Q2R (ask14_s3 c)) * Rmin (Rmax ((n_mag a - 5) / 2) 0) 1) * (1 + d)) with ta.
    rewrite fsqrt_fin by nra. reflexivity.
  - intros L. unfold d. rewrite Rleb_true by exact L. reflexivity.
  - intros L. unfold d. destruct (Rleb_spec (Q2R (ask14_v_lin c)) (n_v a)) as [W|W]; [lra|].
    destruct (ask14_soil c (n_v a / Q2R (ask14_v_lin c)) Hc) as (s & Hs & Es & Hb & B0).
    { split; [apply Rmult_le_compat_r; [left; apply Rinv_0_lt_compat; lra|lra]|].
      apply (Rmult_le_reg_r (Q2R (ask14_v_lin c))); [lra|]. replace (n_v a / Q2R (ask14_v_lin c) * Q2R (ask14_v_lin c)) with (n_v a) by (field; lra). lra. }
    fold b in Hb, B0. fold z in Es. unfold dd. rewrite Es.
    pose proof (nl_bound (- b) p k s ltac:(lra) Hp C Hs Hb) as N.
    replace (- b * p / (p + k * (s * s))) with (- (b * p / (p + k * (s * s)))) in N by (unfold Rdiv; ring).
    split; lra.
Qed.

Definition sd_ge (k : R) (s : flt) : Prop := exists x, s = Fin x /\ k <= x.
Theorem ask14_positive src a t : nga_gives src a -> n_mech a = Some t -> ask14_geom a -> depth_ok a -> 0 < n_v a ->
  exists o, gmm_out (ask14 src) o /\ List.length (o_sa o) = 22%nat /\ List.length (o_sd o) = 22%nat /\
    all_resp fpos o /\ all_std (sd_ge 0.4) o.
Proof.
  intros G Ht HG Hd Hv. exists (ask14_outs a). split; [apply (ask14_out _ _ t); auto using ask14_geom_x|].
  split; [reflexivity|]. split; [reflexivity|].
  assert (S : forall c, In c ask14_coeff -> sd_ge 0.4 (ask14_std a c)).
  { intros c Hc. unfold ask14_std. destruct (ask14_ref_finite c a Hc HG Hd) as [y ->]. cbn [fexp].
    destruct (ask14_std_form c a (exp y) Hc Hv (exp_pos y)) as (d & sg & tau & phi & -> & _ & L & _). exists sg. split; [reflexivity|exact L]. }
  split.
  - refine (proj1 (row_outs_fpos ask14_coeff ask14_psa ask14_pga_row ask14_pgv_row _ _ ask14_psa_in ask14_pga_in ask14_pgv_in _ _)).
    + intros c Hc. apply ask14_resp_finite; assumption.
    + intros c Hc. destruct (S c Hc) as (r & -> & L). apply fpos_fin. lra.
  - unfold all_std, ask14_outs, row_outs; cbn [o_sd o_sd_pga o_sd_pgv].
    split; [apply Forall_map_intro; intros c Hc; apply S, ask14_psa_in, Hc|]. split; apply S; [apply ask14_pga_in|apply ask14_pgv_in].
Qed.

(** Spec of the rock standard deviation: inter- and intra-event parts read off the table. *)
Definition ask14_rock_sd (c : ask14_row) (a : nga) (s : flt) : Prop :=
  exists x, s = Fin x /\ 0 < x /\
    x * x = ask14_tauR c (n_mag a) * ask14_tauR c (n_mag a) + Rmax (ask14_phi_of c a) 0.4 * Rmax (ask14_phi_of c a) 0.4.
Theorem ask14_sigma_rock src a t : nga_gives src a -> n_mech a = Some t -> ask14_geom a -> depth_ok a -> 960 <= n_v a ->
  exists o, gmm_out (ask14 src) o /\ Forall2 (fun c s => ask14_rock_sd c a s) (firstn 22 ask14_coeff) (o_sd o) /\
    ask14_rock_sd (nth 22 ask14_coeff ask14_pga_row) a (o_sd_pga o) /\ ask14_rock_sd (nth 23 ask14_coeff ask14_pga_row) a (o_sd_pgv o).
Proof.
  intros G Ht HG Hd Hv. exists (ask14_outs a). split; [apply (ask14_out _ _ t); auto using ask14_geom_x|].
  assert (S : forall c, In c ask14_coeff -> ask14_rock_sd c a (ask14_std a c)).
  { intros c Hc. unfold ask14_std. destruct (ask14_ref_finite c a Hc HG Hd) as [y ->]. cbn [fexp].
    row_upto Hc ask14_v_lin (960#1)%Q as VL.
    destruct (ask14_std_form c a (exp y) Hc ltac:(lra) (exp_pos y)) as (d & sg & tau & phi & -> & _ & L & E & Et & Ep & D & _). exists sg. split; [reflexivity|]. split; [lra|].
    rewrite E, Ep, Et, (D ltac:(lra)). pose proof (ask14_phi_range c (ask14_jp a) (ask14_measured a) (n_mag a) (n_rup a) Hc) as PR. fold (ask14_phi_of c a) in PR.
    set (f := ask14_phi_of c a) in *. clearbody f. destruct (Rle_dec f 0.4).
    - rewrite (Rmax_right f) by lra. rewrite (Rmax_right (f * f - 0.16)) by nra. lra.
    - rewrite (Rmax_left f) by lra. rewrite (Rmax_left (f * f - 0.16)) by nra. lra. }
  unfold ask14_outs, row_outs; cbn [o_sd o_sd_pga o_sd_pgv].
  split; [|split; apply S; [apply ask14_pga_in|apply ask14_pgv_in]].
  fold ask14_psa. pose proof ask14_psa_in as P. induction ask14_psa as [|c l IH]; [constructor|]. cbn [map]. constructor; [apply S, P; left; reflexivity|].
  apply IH. intros x Hx; apply P; right; exact Hx.
Qed.
(** Soil non-linearity only lowers sigma. *)
Theorem ask14_sigma_soil src1 src2 a v t : nga_gives src1 a -> nga_gives src2 (with_v a v) -> n_mech a = Some t -> ask14_geom a -> depth_ok a ->
  180 <= n_v a -> 960 <= v ->
  exists o1 o2, gmm_out (ask14 src1) o1 /\ gmm_out (ask14 src2) o2 /\ std2 (fun s1 s2 => exists x1 x2, s1 = Fin x1 /\ s2 = Fin x2 /\ x1 <= x2) o1 o2.
Proof.
  intros G1 G2 Ht HG Hd Hv1 Hv2.
  assert (HG2 : ask14_geom (with_v a v)) by (destruct a; exact HG). assert (Hd2 : depth_ok (with_v a v)) by (destruct a; exact Hd).
  exists (ask14_outs a), (ask14_outs (with_v a v)). split; [apply (ask14_out _ _ t); auto using ask14_geom_x|].
  split; [apply (ask14_out _ _ t); [exact G2|destruct a; exact Ht|apply ask14_geom_x; exact HG2]|].
  assert (S : forall c, In c ask14_coeff -> exists x1 x2, ask14_std a c = Fin x1 /\ ask14_std (with_v a v) c = Fin x2 /\ x1 <= x2).
  { intros c Hc. unfold ask14_std. destruct (ask14_ref_finite c a Hc HG Hd) as [y1 ->]. destruct (ask14_ref_finite c _ Hc HG2 Hd2) as [y2 ->]. cbn [fexp].
    row_upto Hc ask14_v_lin (960#1)%Q as VL.
    destruct (ask14_std_form c a (exp y1) Hc ltac:(lra) (exp_pos y1)) as (d & sg & tau & phi & -> & _ & L & E & Et & Ep & _ & D).
    destruct (ask14_std_form c (with_v a v) (exp y2) Hc) as (d2 & sg2 & tau2 & phi2 & -> & _ & L2 & E2 & Et2 & Ep2 & D2 & _); [destruct a; cbn; lra|apply exp_pos|].
    exists sg, sg2. split; [reflexivity|]. split; [reflexivity|].
    replace (ask14_phi_of c (with_v a v)) with (ask14_phi_of c a) in Ep2 by (destruct a; reflexivity). replace (n_mag (with_v a v)) with (n_mag a) in Et2 by (destruct a; reflexivity).
    assert (D20 : d2 = 0) by (apply D2; replace (n_v (with_v a v)) with v by (destruct a; reflexivity); lra). rewrite D20 in Et2, Ep2. specialize (D Hv1).
    assert (X0 : 0 <= Rmax (ask14_phi_of c a * ask14_phi_of c a - 0.16) 0) by apply Rmax_r.
    pose proof (ask14_tau_range c (n_mag a) Hc) as TR.
    apply Rsqr_incr_0; [|lra|lra]. unfold Rsqr. rewrite E, E2, Ep, Ep2, Et, Et2.
    set (X := Rmax _ 0) in *. set (T := ask14_tauR _ _) in *. clearbody X T.
    assert (Q : 0 <= (1 + d) * (1 + d) <= 1) by nra. set (q := (1 + d) * (1 + d)) in *.
    replace (T * (1 + d) * (T * (1 + d))) with (T * T * q) by (unfold q; ring). clearbody q. assert (0 <= T * T) by nra. nra. }
  unfold std2, ask14_outs, row_outs; cbn [o_sd o_sd_pga o_sd_pgv].
  split; [apply Forall2_map_intro; intros c Hc; apply S, ask14_psa_in, Hc|]. split; apply S; [apply ask14_pga_in|apply ask14_pgv_in].
Qed.
