(** * Proofs for AGA16 and Coppersmith & Bommer (2014) *)
From Coquelicot Require Import Coquelicot.
From Interval Require Import Tactic.
From Coq Require Import List.
From Verif Require Import M_aga16 FrameworkProofs Anal Nga Outs1 Cont Spec_sub.
Open Scope R_scope.
Open Scope string_scope.
Open Scope list_scope.

Lemma sub_src_gives u : sub_gives (sub_src u) u.
Proof. repeat split. Qed.

(** ** The default shift *)
Lemma line_fin x0 y0 x1 y1 x : x0 < x1 -> line (Fin x0) (Fin y0) (Fin x1) (Fin y1) (Fin x) = Fin ((y1 - y0) / (x1 - x0) * (x - x0) + y0).
Proof. intros H. unfold line. fcbn. rewrite fdiv_fin by lra. fcbn. reflexivity. Qed.
Lemma ln_le_iff a b : 0 < a -> 0 < b -> (ln a <= ln b <-> a <= b).
Proof.
  intros A B. split; intros H.
  - destruct (Rle_dec a b) as [|N]; [assumption|]. exfalso. pose proof (ln_increasing b a B ltac:(lra)). lra.
  - destruct H as [H| ->]; [left; apply ln_increasing; assumption|right; reflexivity].
Qed.
Lemma Rleb_ln a b : 0 < a -> 0 < b -> Rleb (ln a) (ln b) = Rleb a b.
Proof.
  intros A B. pose proof (ln_le_iff a b A B). destruct (Rleb_spec a b); [apply Rleb_true; tauto|apply Rleb_false; intuition lra].
Qed.
Lemma Rltb_ln a b : 0 < a -> 0 < b -> Rltb (ln a) (ln b) = Rltb a b.
Proof.
  intros A B. pose proof (ln_le_iff b a B A). destruct (Rltb_spec a b); [apply Rltb_true; destruct (Rlt_dec (ln a) (ln b)); [assumption|intuition lra]|apply Rltb_false; intuition lra].
Qed.
Lemma default_c1_fin ev T : 0 <= T ->
  aga16_default_c1 ev (Fin T) = Fin (dc1_default (is_str ev "intraslab") T).
Proof.
  intros HT. unfold aga16_default_c1, dc1_default. destruct (is_str ev "intraslab").
  { fcbn. f_equal. ring. }
  fcbn. set (t := Rmax 0.01 T). assert (T0 : 0.01 <= t) by apply Rmax_l.
  cbn [map]. rewrite !flog_fin by lra. unfold np_interp_lr. cbn [combine last]. rewrite !fltb_fin, !Rltb_ln by lra.
  unfold dc1_interface.
  destruct (Rle_dec T 0.3).
  { assert (t <= 0.3) by (unfold t; apply Rmax_lub; lra).
    unfold Rltb. destruct (Rlt_dec t 0.3); [reflexivity|]. destruct (Rlt_dec 3 t); [lra|].
    assert (E : t = 0.3) by lra. rewrite E. cbn [seg_interp]. rewrite fleb_fin, Rleb_ln by lra.
    rewrite (Rleb_true 0.3 0.5) by lra. rewrite line_fin by (apply ln_increasing; lra). f_equal. unfold Rdiv. ring. }
  assert (E : t = T) by (unfold t; apply Rmax_right; lra). rewrite E in *. clear E t.
  rewrite (Rltb_false T 0.3) by lra. cbn [seg_interp]. rewrite !fleb_fin, !Rleb_ln by lra.
  assert (L1 : ln 0.3 < ln 0.5) by (apply ln_increasing; lra).
  assert (L2 : ln 0.5 < ln 1) by (apply ln_increasing; lra).
  assert (L3 : ln 1 < ln 2) by (apply ln_increasing; lra).
  assert (L4 : ln 2 < ln 3) by (apply ln_increasing; lra).
  rewrite !line_fin by assumption. unfold Rltb, Rleb.
  destruct (Rlt_dec 3 T); [|destruct (Rle_dec T 0.5); [|destruct (Rle_dec T 1); [|destruct (Rle_dec T 2)]]];
  repeat match goal with |- context[Rle_dec ?a ?b] => destruct (Rle_dec a b); [exfalso; lra| ] || (destruct (Rle_dec a b); [|exfalso; lra]) end;
  try reflexivity; f_equal; unfold Rdiv; lra.
Qed.

(** ** Site and magnitude terms *)
Lemma f_mag_fin t4 t5 t13 a m : aga16_f_mag t4 t5 t13 (Fin a) (Fin m) = Fin (sub_mag_val t4 t5 t13 a m).
Proof.
  unfold aga16_f_mag, sub_mag_val, np_select, qf. fcbn. unfold Rleb. destruct (Rle_dec m (7.8 + a)); reflexivity.
Qed.
Lemma f_site_fin vl b n c t12 p v : 0 < Q2R vl -> 0 < Q2R c -> 0 < p -> 0 < v ->
  aga16_f_site vl b n c t12 (Fin p) (Fin v) = Fin (sub_site_val vl b n c t12 p v).
Proof.
  intros Hl Hc Hp Hv. unfold aga16_f_site, sub_site_val, np_select, qf. cbn [fisnan]. fcbn.
  assert (R0 : 0 < Rmin v 1000 / Q2R vl) by (apply Rdiv_lt_0_compat; [apply Rmin_pos; lra|lra]).
  rewrite fdiv_fin by (apply Rgt_not_eq; lra). rewrite (flog_fin (Rmin v 1000 / Q2R vl)) by exact R0.
  rewrite fpow_fin by exact R0. fcbn. unfold Rltb.
  destruct (Rlt_dec v (Q2R vl)); [|reflexivity].
  pose proof (Rmult_lt_0_compat _ _ Hc (exp_pos (Q2R n * ln (Rmin v 1000 / Q2R vl)))) as K. fold (Rpower (Rmin v 1000 / Q2R vl) (Q2R n)) in K.
  rewrite !flog_fin by lra. reflexivity.
Qed.
(** Rock: the missing reference motion stands for 1000 m/s. *)
Lemma f_site_nan vl b n c t12 v p : 0 < Q2R vl <= 1000 ->
  aga16_f_site vl b n c t12 NaN v = Fin (sub_site_val vl b n c t12 p 1000).
Proof.
  intros Hl. unfold aga16_f_site, sub_site_val, np_select, qf. cbn [fisnan]. fcbn.
  assert (R0 : 0 < Rmin 1000 1000 / Q2R vl) by (apply Rdiv_lt_0_compat; [apply Rmin_pos; lra|lra]).
  rewrite fdiv_fin by (apply Rgt_not_eq; lra). rewrite (flog_fin (Rmin 1000 1000 / Q2R vl)) by exact R0.
  rewrite (Rltb_false 1000 (Q2R vl)) by lra. destruct (Rlt_dec 1000 (Q2R vl)); [lra|]. reflexivity.
Qed.

(** ** Construction of AGA16 *)
Definition sub_ev (u : sub) : pyval := choice ["interface"; "intraslab"] PNone (Some (u_event u)).
Definition sub_reg (u : sub) : pyval := choice ["forearc"; "backarc"; "unknown"] (PStr "unknown") (u_region u).
Lemma ev_slab u : is_str (sub_ev u) "intraslab" = slab u.
Proof.
  unfold sub_ev, choice, slab. cbn [existsb]. destruct (String.eqb_spec (u_event u) "interface") as [E|E]; [rewrite E; reflexivity|].
  destruct (String.eqb_spec (u_event u) "intraslab") as [E2|E2]; [rewrite E2; reflexivity|]. reflexivity.
Qed.
Lemma ev_inter u : u_event u = "interface" \/ u_event u = "intraslab" -> is_str (sub_ev u) "interface" = negb (slab u).
Proof. unfold sub_ev, choice, slab. intros [-> | ->]; reflexivity. Qed.
Lemma reg_back u : is_str (sub_reg u) "backarc" = backarc u.
Proof.
  unfold sub_reg, choice, backarc. destruct (u_region u) as [r|]; [|reflexivity]. cbn [existsb].
  destruct (String.eqb_spec r "forearc") as [E|E]; [rewrite E; reflexivity|].
  destruct (String.eqb_spec r "backarc") as [E2|E2]; [rewrite E2; reflexivity|].
  destruct (String.eqb_spec r "unknown") as [E3|E3]; [rewrite E3; reflexivity|]. reflexivity.
Qed.
Definition sub_scen (u : sub) : scen :=
  Scen [("mag", PNum (Fin (u_mag u))); ("dist_rup", onum (u_rup u)); ("dist_hyp", onum (u_hyp u)); ("depth_hyp", onum (u_depth u));
        ("v_s30", PNum (Fin (u_v u))); ("event_type", sub_ev u); ("tectonic_region", sub_reg u)] [].
Definition aga16_calc (adjust_c1 : adjust) (scale_atten : flt) (s : scen) : M (list flt * option (list flt)) :=
  (ev <- sc_attr s "event_type" ;;
    let adj := aga16_adjust adjust_c1 ev (gc_periods aga16_class) in
    ref <- aga16_ln_resp s adj scale_atten NaN ;;
    p <- arr_get ref 0%Z ;;
    ln_resp <- aga16_ln_resp s adj scale_atten (fexp p) ;;
    ret (ln_resp, Some (map (fun c => aga16_ln_std (aga16_phi c) (aga16_tau c)) aga16_coeff)))%py.
Lemma aga16_construct src u adj scale : sub_gives src u ->
  result (aga16 src adj scale) =
  match result (aga16_calc adj scale (sub_scen u)) with
  | Ok r => Ok (GMM aga16_class (sub_scen u) (fst r) (snd r)) | Raise e => Raise e end.
Proof.
  intros (G1 & G2 & G3 & G4 & G5 & G6 & G7). unfold aga16. fold (aga16_calc adj scale).
  rewrite gmm_make_result by reflexivity.
  let x := eval cbv [gc_params aga16_class NumP CatP CatBoolP map] in (gc_params aga16_class) in change (gc_params aga16_class) with x.
  unfold has_num, has_str, gives_num, gives_str in *.
  cbn [checks p_name]. rewrite G1, G2, G3, G4, G5, G6, G7.
  repeat (rewrite ?chk_num, ?chk_onum_none; cbn [checks p_name]).
  change [PStr "interface"; PStr "intraslab"] with (map PStr ["interface"; "intraslab"]).
  change [PStr "forearc"; PStr "backarc"; PStr "unknown"] with (map PStr ["forearc"; "backarc"; "unknown"]).
  rewrite chk_str_req. cbn [checks p_name]. rewrite chk_ostr. cbn [checks p_name]. reflexivity.
Qed.

Lemma mapM_ret {A B} (f : A -> B) (l : list A) : mapM (fun x => ret (f x)) l = ret (map f l).
Proof. induction l as [|x l IH]; [reflexivity|]. cbn [mapM map]. rewrite bind_ret_l, IH, bind_ret_l. reflexivity. Qed.
Lemma mapM_ext {A B} (f g : A -> M B) l : (forall x, f x = g x) -> mapM f l = mapM g l.
Proof. intros E. induction l as [|x l IH]; [reflexivity|]. cbn [mapM]. rewrite E, IH. reflexivity. Qed.
Lemma combine_map_fst {A B C} (f : A * B -> C) (l : list A) (m : list B) :
  combine (map f (combine l m)) l = map (fun ca => (f ca, fst ca)) (combine l m).
Proof. revert m. induction l as [|x l IH]; intros [|y m]; try reflexivity. cbn [combine map fst]. rewrite IH. reflexivity. Qed.
Lemma combine_fst {A B} (l : list A) : forall (m : list B), List.length m = List.length l -> map fst (combine l m) = l.
Proof. induction l as [|x l IH]; intros [|y m] H; try discriminate; [reflexivity|]. cbn. rewrite IH by (injection H; auto). reflexivity. Qed.

(** One row, as computed. *)
Definition aga16_rowf (u : sub) (scale d z p : flt) (ca : aga16_row * flt) : flt :=
  (let x := aga16_base (fst ca) (sub_ev u) (Fin (u_mag u)) d (Fin (u_v u)) scale (snd ca) p in
   let x := if backarc u then x + (if slab u then qf (aga16_t_7 (fst ca)) + qf (aga16_t_8 (fst ca)) * flog (fmax d $85 / $40)
                                   else qf (aga16_t_15 (fst ca)) + qf (aga16_t_16 (fst ca)) * flog (fmax d $100 / $40)) else x in
   if slab u then x + aga16_f_depth (fst ca) z else x)%flt.
Lemma aga16_ln_resp_eq u scale d z p adj0 adj : sub_ready u d z -> broadcast (List.length aga16_coeff) adj0 = ret adj ->
  aga16_ln_resp (sub_scen u) adj0 scale p = ret (map (aga16_rowf u scale (Fin d) (Fin z) p) (combine aga16_coeff adj)).
Proof.
  intros (D & Z & B) BR. unfold aga16_ln_resp.
  assert (A : forall k v, dget (s_data (sub_scen u)) k = Some v -> sc_attr (sub_scen u) k = ret v) by (intros k v H; apply attr_hit; exact H).
  rewrite (A "event_type" (sub_ev u)) by reflexivity. rewrite bind_ret_l.
  assert (N : forall k x, dget (s_data (sub_scen u)) k = Some (PNum x) -> num (sub_scen u) k = ret x).
  { intros k x H. unfold num. rewrite (A k (PNum x)) by exact H. rewrite bind_ret_l. reflexivity. }
  rewrite (N "mag" (Fin (u_mag u))), bind_ret_l by reflexivity.
  rewrite (N "v_s30" (Fin (u_v u))), bind_ret_l by reflexivity.
  rewrite ev_slab.
  assert (ND : num (sub_scen u) (if slab u then "dist_hyp" else "dist_rup") = ret (Fin d)).
  { unfold sub_dist in D. destruct (slab u); apply N; cbn; rewrite D; reflexivity. }
  rewrite ND, bind_ret_l.
  rewrite BR, bind_ret_l. clear BR.
  rewrite (A "tectonic_region" (sub_reg u)) by reflexivity. rewrite bind_ret_l. rewrite reg_back. cbv zeta.
  set (g := fun ca : aga16_row * flt => _ : M flt).
  assert (E : mapM g (combine aga16_coeff adj) = ret (map (fun ca =>
     let x := aga16_base (fst ca) (sub_ev u) (Fin (u_mag u)) (Fin d) (Fin (u_v u)) scale (snd ca) p in
     (if backarc u then x + (if slab u then qf (aga16_t_7 (fst ca)) + qf (aga16_t_8 (fst ca)) * flog (fmax (Fin d) $85 / $40)
                                   else qf (aga16_t_15 (fst ca)) + qf (aga16_t_16 (fst ca)) * flog (fmax (Fin d) $100 / $40)) else x)%flt) (combine aga16_coeff adj))).
  { rewrite <- mapM_ret. apply mapM_ext. intros ca. unfold g. destruct (backarc u); [|reflexivity].
    unfold aga16_f_faba. rewrite ev_slab, (ev_inter u (B eq_refl)). destruct (slab u); reflexivity. }
  rewrite E, bind_ret_l. clear E g. unfold aga16_rowf.
  destruct (slab u) eqn:S.
  - rewrite (N "depth_hyp" (Fin z)), bind_ret_l by (cbn; rewrite (Z eq_refl); reflexivity).
    rewrite combine_map_fst, map_map. reflexivity.
  - reflexivity.
Qed.

(** The argument as passed to the constructor. *)
Definition adj_of (a : adj_arg) : adjust :=
  match a with AdjDefault => AdjNone | AdjAll x => AdjFloat (Fin x) | AdjRows l => AdjArr (map Fin l) end.
Definition aga16_T : list R := map (fun c => Q2R (aga16_period c)) aga16_coeff.
Lemma broadcast_self n l : (1 < n)%nat -> List.length l = n -> broadcast n l = ret l.
Proof.
  intros H E. unfold broadcast. destruct l as [|x [|y l]].
  - cbn in E. subst n. inversion H.
  - cbn in E. subst n. inversion H. inversion H1.
  - rewrite E, Nat.eqb_refl. reflexivity.
Qed.
Lemma map_const_repeat {A B} (x : B) (l : list A) : map (fun _ => x) l = repeat x (List.length l).
Proof. induction l as [|a l IH]; [reflexivity|]. cbn. rewrite IH. reflexivity. Qed.
Lemma Some_eq {A} (x y : A) : Some x = Some y -> x = y.
Proof. intros H; injection H; auto. Qed.
Lemma adj_fin u a l : adj_vals a (slab u) aga16_T = Some l ->
  broadcast (List.length aga16_coeff) (aga16_adjust (adj_of a) (sub_ev u) (gc_periods aga16_class)) = ret (map Fin l) /\
  List.length l = List.length aga16_coeff.
Proof.
  assert (N : (1 < List.length aga16_coeff)%nat) by (cbn; repeat constructor).
  assert (TL : List.length aga16_T = List.length aga16_coeff) by (unfold aga16_T; apply map_length).
  destruct a as [|x|[|x [|y k]]]; cbn [adj_vals adj_of aga16_adjust map].
  - intros H; apply Some_eq in H; subst l. rewrite map_length, TL. split; [|reflexivity].
    rewrite broadcast_self; [|exact N|reflexivity].
    f_equal. unfold aga16_T. unfold gc_periods, aga16_class. rewrite !map_map. apply map_ext_in. intros c Hc.
    unfold qf. rewrite default_c1_fin, ev_slab; [reflexivity|]. row_ge Hc 0%Q (fun c => aga16_period c) as P. lra.
  - intros H; apply Some_eq in H; subst l. rewrite map_length, TL. split; [|reflexivity].
    rewrite broadcast_self; [|exact N|reflexivity].
    f_equal. unfold aga16_T. unfold gc_periods, aga16_class. rewrite !map_map. apply map_ext. intros c. fcbn. rewrite Rmult_1_r. reflexivity.
  - discriminate.
  - intros H; apply Some_eq in H; subst l. rewrite map_length, TL. split; [|reflexivity].
    unfold broadcast. rewrite map_map, map_const_repeat, TL. reflexivity.
  - set (k' := x :: y :: k). destruct (Nat.eqb_spec (List.length k') (List.length aga16_T)) as [E|E]; [|discriminate].
    intros H; apply Some_eq in H; subst l. rewrite TL in E. split; [|exact E]. change (Fin x :: Fin y :: map Fin k) with (map Fin k').
    apply broadcast_self; [exact N|]. rewrite map_length; exact E.
Qed.
Lemma aga16_v0 : Q2R (aga16_v_lin (hd (Mk_aga16_row 0 0 0 0 0 0 0 0 0 0 0 0 0 0 0 0 0 0 0 0 0 0 0 0 0) aga16_coeff)) = 865.1.
Proof. cbn [hd aga16_coeff aga16_v_lin]. unfold Q2R; cbn. lra. Qed.
Lemma take_seq {A} : forall n a (l : list A), (a + n <= List.length l)%nat -> take_idx l (seq a n) = Some (firstn n (skipn a l)).
Proof.
  induction n as [|n IH]; intros a l H; [reflexivity|]. cbn [seq take_idx].
  assert (H' : (S a + n <= List.length l)%nat) by (rewrite Nat.add_succ_l, <- Nat.add_succ_r; exact H).
  rewrite (IH (S a) l H').
  assert (E : exists x, nth_error l a = Some x /\ skipn a l = x :: skipn (S a) l).
  { clear IH H'. revert l H. induction a as [|a IHa]; intros [|x l] H; cbn in H; try (exfalso; inversion H; fail).
    - exists x. split; reflexivity.
    - apply le_S_n in H. destruct (IHa l H) as (x' & E1 & E2). exists x'. split; [exact E1|]. exact E2. }
  destruct E as (x & -> & ->). reflexivity.
Qed.

Definition aga16_rowR (u : sub) (scale d z : R) (p : flt) (cs : aga16_row * R) : flt :=
  aga16_rowf u (Fin scale) (Fin d) (Fin z) p (fst cs, Fin (snd cs)).
Definition aga16_std (cs : aga16_row * R) : flt := aga16_ln_std (aga16_phi (fst cs)) (aga16_tau (fst cs)).
Lemma combine_map_r {A B C} (f : B -> C) (l : list A) : forall m, combine l (map f m) = map (fun ab => (fst ab, f (snd ab))) (combine l m).
Proof. induction l as [|x l IH]; intros [|y m]; try reflexivity. cbn. rewrite IH. reflexivity. Qed.
Lemma aga16_out src u a l scale d z cs0 rest : sub_gives src u -> sub_ready u d z -> adj_vals a (slab u) aga16_T = Some l ->
  combine aga16_coeff l = cs0 :: rest ->
  gmm_out1 (aga16 src (adj_of a) (Fin scale)) (row_outs1 rest cs0 (aga16_rowR u scale d z (fexp (aga16_rowR u scale d z NaN cs0))) aga16_std).
Proof.
  intros G Rd A C. destruct (adj_fin u a l A) as (BR & L).
  assert (CL : List.length (cs0 :: rest) = 23%nat) by (rewrite <- C, combine_length, L; reflexivity).
  eapply (gmm_out1_rows _ aga16_class (sub_scen u) _ _ (cs0 :: rest) rest 0%Z cs0); [|shelve|reflexivity|reflexivity|reflexivity].
  Unshelve. 2:{ cbn [gc_psa aga16_class]. unfold arange. rewrite take_seq by (rewrite CL; repeat constructor). cbn [skipn].
    f_equal. apply firstn_all2. cbn in CL. injection CL as ->. constructor. }
  rewrite (aga16_construct src u _ _ G). unfold aga16_calc.
  change (sc_attr (sub_scen u) "event_type") with (ret (sub_ev u)). rewrite bind_ret_l. cbv zeta.
  rewrite (aga16_ln_resp_eq u (Fin scale) d z NaN _ _ Rd BR), bind_ret_l.
  rewrite combine_map_r, C. rewrite map_map. cbn [map].
  change (arr_get _ 0%Z) with (ret (aga16_rowR u scale d z NaN cs0)). rewrite bind_ret_l.
  rewrite (aga16_ln_resp_eq u (Fin scale) d z _ _ _ Rd BR), bind_ret_l.
  rewrite combine_map_r, C, map_map. 
  assert (SD : map (fun c => aga16_ln_std (aga16_phi c) (aga16_tau c)) aga16_coeff = map aga16_std (cs0 :: rest)).
  { rewrite <- C. unfold aga16_std. rewrite <- (map_map fst (fun c => aga16_ln_std (aga16_phi c) (aga16_tau c))).
  rewrite combine_fst by exact L. reflexivity. }
  rewrite SD. reflexivity.
Qed.

(** ** Values *)
Lemma aga16_row_eq u scale d z p cs s : In (fst cs) aga16_coeff -> 0 <= d ->
  (backarc u = true -> u_event u = "interface" \/ u_event u = "intraslab") ->
  aga16_f_site (aga16_v_lin (fst cs)) (aga16_b (fst cs)) (aga16_n (fst cs)) (aga16_c (fst cs)) (aga16_t_12 (fst cs)) p (Fin (u_v u)) = Fin s ->
  aga16_rowR u scale d z p cs = Fin (aga16_rock (slab u) (backarc u) (fst cs) (snd cs) scale (u_mag u) d z + s).
Proof.
  intros Hc Hd HB Hs. destruct cs as [c a]; cbn [fst snd] in *.
  row_pos Hc (fun c => aga16_c_4 c) as C4.
  set (m := u_mag u). set (k := Q2R (aga16_c_4 c) * exp (Q2R (aga16_t_9 c) * (m - 6))).
  assert (K : 0 < k) by (unfold k; apply Rmult_lt_0_compat; [lra|apply exp_pos]).
  unfold aga16_rowR, aga16_rowf, aga16_base, aga16_rock. cbn [fst snd]. rewrite ev_slab. fold m. rewrite f_mag_fin, Hs.
  unfold aga16_f_depth, qf. fcbn. fold k.
  assert (P85 : 0 < Rmax d 85 / 40) by (apply Rdiv_lt_0_compat; [|lra]; apply Rlt_le_trans with 85; [lra|apply Rmax_r]).
  assert (P100 : 0 < Rmax d 100 / 40) by (apply Rdiv_lt_0_compat; [|lra]; apply Rlt_le_trans with 100; [lra|apply Rmax_r]).
  assert (LG : forall x, flog (Fin d + Fin x)%flt = flog (Fin (d + x))) by reflexivity.
  destruct (slab u), (backarc u); fcbn; rewrite ?(fdiv_fin _ 40) by lra; fold k; rewrite ?flog_fin by lra; fcbn; f_equal; ring.
Qed.
Lemma aga16_site_ok c p v : In c aga16_coeff -> 0 < p -> 0 < v ->
  aga16_f_site (aga16_v_lin c) (aga16_b c) (aga16_n c) (aga16_c c) (aga16_t_12 c) (Fin p) (Fin v) = Fin (aga16_site c p v).
Proof.
  intros Hc Hp Hv. row_pos Hc (fun c => aga16_v_lin c) as V. row_pos Hc (fun c => aga16_c c) as C. apply f_site_fin; lra.
Qed.
Lemma aga16_hd (l : list R) cs0 rest : combine aga16_coeff l = cs0 :: rest ->
  Q2R (aga16_v_lin (fst cs0)) = 865.1 /\ Q2R (aga16_b (fst cs0)) = -1.186 /\ Q2R (aga16_n (fst cs0)) = 1.18 /\
  In (fst cs0) aga16_coeff /\ (forall cs, In cs (cs0 :: rest) -> In (fst cs) aga16_coeff).
Proof.
  intros C. assert (I : forall cs, In cs (cs0 :: rest) -> In (fst cs) aga16_coeff).
  { intros [c a] H. rewrite <- C in H. apply (in_combine_l _ _ _ _ H). }
  assert (E : fst cs0 = hd (fst cs0) aga16_coeff).
  { unfold aga16_coeff in *. destruct l; cbn in C; [discriminate|]. injection C as <- _. reflexivity. }
  repeat split; try (rewrite E; cbn [hd aga16_coeff aga16_v_lin aga16_b aga16_n]; unfold Q2R; cbn; lra).
  - apply I; left; reflexivity.
  - exact I.
Qed.
Lemma aga16_row_fin u scale d z cs0 rest l cs : combine aga16_coeff l = cs0 :: rest -> In cs (cs0 :: rest) -> 0 <= d -> 0 < u_v u ->
  (backarc u = true -> u_event u = "interface" \/ u_event u = "intraslab") ->
  aga16_rowR u scale d z (fexp (aga16_rowR u scale d z NaN cs0)) cs = Fin (aga16_val u scale d z (fst cs0) (snd cs0) cs).
Proof.
  intros C Hc Hd Hv HB. destruct (aga16_hd _ _ _ C) as (V & _ & _ & I0 & I).
  rewrite (aga16_row_eq u scale d z NaN cs0 (aga16_site (fst cs0) 0 1000) I0 Hd HB) by (apply f_site_nan; lra).
  cbn [fexp]. fold (aga16_pga1000 u scale d z (fst cs0) (snd cs0)).
  rewrite (aga16_row_eq u scale d z _ cs (aga16_site (fst cs) (aga16_pga1000 u scale d z (fst cs0) (snd cs0)) (u_v u)) (I _ Hc) Hd HB).
  - reflexivity.
  - apply aga16_site_ok; [apply I; exact Hc|apply exp_pos|exact Hv].
Qed.

Lemma aga16_median src u a l scale d z cs0 rest : sub_gives src u -> sub_ready u d z -> adj_vals a (slab u) aga16_T = Some l ->
  combine aga16_coeff l = cs0 :: rest -> 0 <= d -> 0 < u_v u ->
  exists o, gmm_out1 (aga16 src (adj_of a) (Fin scale)) o /\
    Forall2 (fun cs s => s = Fin (exp (aga16_val u scale d z (fst cs0) (snd cs0) cs))) rest (q_sa o) /\
    q_pga o = Fin (exp (aga16_val u scale d z (fst cs0) (snd cs0) cs0)).
Proof.
  intros G Rd A C Hd Hv. pose proof (proj2 (proj2 Rd)) as HB.
  eexists. split; [apply (aga16_out src u a l scale d z cs0 rest G Rd A C)|].
  unfold row_outs1; cbn [q_sa q_pga]. split.
  - assert (F : Forall2 (fun cs s => s = Fin (exp (aga16_val u scale d z (fst cs0) (snd cs0) cs))) (map (fun x => x) rest)
      (map (fun c => fexp (aga16_rowR u scale d z (fexp (aga16_rowR u scale d z NaN cs0)) c)) rest)).
    { apply Forall2_map_intro. intros cs Hc. rewrite (aga16_row_fin u scale d z cs0 rest l cs C) by (auto; right; exact Hc). reflexivity. }
    rewrite map_id in F. exact F.
  - rewrite (aga16_row_fin u scale d z cs0 rest l cs0 C) by (auto; left; reflexivity). reflexivity.
Qed.
(** Standard deviation. *)
Lemma sd_738 phi tau : Q2R phi = 0.6 -> Q2R tau = 0.43 -> exists x, aga16_ln_std phi tau = Fin x /\ x * x = 0.6 * 0.6 + 0.43 * 0.43 /\ 0.738 <= x <= 0.739.
Proof.
  intros P T. unfold aga16_ln_std, qf. rewrite P, T. fcbn. rewrite fsqrt_fin by lra.
  eexists. split; [reflexivity|]. split; [apply sqrt_sqrt; lra|]. clear. split; interval with (i_prec 40).
Qed.
Lemma aga16_positive src u a l scale d z : sub_gives src u -> sub_ready u d z -> adj_vals a (slab u) aga16_T = Some l -> 0 <= d -> 0 < u_v u ->
  exists o, gmm_out1 (aga16 src (adj_of a) (Fin scale)) o /\ List.length (q_sa o) = 22%nat /\ List.length (q_sd o) = 22%nat /\
    all_resp1 fpos o /\ all_std1 (fun s => exists x, s = Fin x /\ x * x = 0.6 * 0.6 + 0.43 * 0.43 /\ 0.738 <= x <= 0.739) o.
Proof.
  intros G Rd A Hd Hv. pose proof (proj2 (proj2 Rd)) as HB. destruct (adj_fin u a l A) as (_ & L).
  destruct (combine aga16_coeff l) as [|cs0 rest] eqn:C.
  { exfalso. assert (E : List.length (combine aga16_coeff l) = 23%nat) by (rewrite combine_length, L; reflexivity). rewrite C in E. discriminate. }
  assert (CL : List.length (cs0 :: rest) = 23%nat) by (rewrite <- C, combine_length, L; reflexivity).
  destruct (aga16_hd _ _ _ C) as (_ & _ & _ & I0 & I).
  eexists. split; [apply (aga16_out src u a l scale d z cs0 rest G Rd A C)|].
  unfold row_outs1 at 1 2; cbn [q_sa q_sd]. rewrite !map_length. cbn in CL. injection CL as CL. split; [exact CL|]. split; [exact CL|].
  split.
  - apply (row_outs1_resp (cs0 :: rest)); [intros c Hc; right; exact Hc|left; reflexivity|].
    intros cs Hc. rewrite (aga16_row_fin u scale d z cs0 rest l cs C) by auto. apply fpos_exp. eexists; reflexivity.
  - apply (row_outs1_std (cs0 :: rest)); [intros c Hc; right; exact Hc|left; reflexivity|].
    intros cs Hc. specialize (I cs Hc). row_is I (fun c => aga16_phi c) (6#10)%Q as P. row_is I (fun c => aga16_tau c) (43#100)%Q as T.
    apply sd_738; lra.
Qed.

(** ** Rejected scenarios *)
Lemma num_none s k : sc_attr s k = ret PNone -> num s k = raise EType.
Proof. intros H. unfold num. rewrite H. reflexivity. Qed.
Lemma aga16_no_dist src u adj scale : sub_gives src u -> sub_dist u = None -> result (aga16 src adj scale) = Raise EType.
Proof.
  intros G D. rewrite (aga16_construct src u _ _ G). unfold aga16_calc.
  change (sc_attr (sub_scen u) "event_type") with (ret (sub_ev u)). rewrite bind_ret_l. cbv zeta.
  unfold aga16_ln_resp at 1. change (sc_attr (sub_scen u) "event_type") with (ret (sub_ev u)). rewrite bind_ret_l.
  change (num (sub_scen u) "mag") with (ret (Fin (u_mag u))). change (num (sub_scen u) "v_s30") with (ret (Fin (u_v u))). rewrite !bind_ret_l.
  rewrite ev_slab. rewrite (num_none (sub_scen u)); [reflexivity|].
  unfold sub_dist in D. destruct (slab u); unfold sub_scen; apply attr_hit; cbn; rewrite D; reflexivity.
Qed.
Lemma aga16_no_depth src u a l scale d : sub_gives src u -> slab u = true -> u_hyp u = Some d -> u_depth u = None ->
  adj_vals a (slab u) aga16_T = Some l -> result (aga16 src (adj_of a) scale) = Raise EType.
Proof.
  intros G S D Z A. rewrite (aga16_construct src u _ _ G). unfold aga16_calc. destruct (adj_fin u a l A) as (BR & _).
  change (sc_attr (sub_scen u) "event_type") with (ret (sub_ev u)). rewrite bind_ret_l. cbv zeta.
  unfold aga16_ln_resp at 1. change (sc_attr (sub_scen u) "event_type") with (ret (sub_ev u)). rewrite bind_ret_l.
  change (num (sub_scen u) "mag") with (ret (Fin (u_mag u))). change (num (sub_scen u) "v_s30") with (ret (Fin (u_v u))). rewrite !bind_ret_l.
  rewrite ev_slab, S.
  assert (N : num (sub_scen u) "dist_hyp" = ret (Fin d)) by (unfold num, sub_scen; rewrite (attr_hit _ "dist_hyp" (PNum (Fin d))) by (cbn; rewrite D; reflexivity); reflexivity).
  rewrite N, bind_ret_l, BR, bind_ret_l. change (sc_attr (sub_scen u) "tectonic_region") with (ret (sub_reg u)). rewrite bind_ret_l. cbv zeta.
  rewrite (num_none (sub_scen u) "depth_hyp") by (unfold sub_scen; apply attr_hit; cbn; rewrite Z; reflexivity).
  set (g := fun ca : aga16_row * flt => _ : M flt).
  assert (E : exists f, mapM g (combine aga16_coeff (map Fin l)) = ret (map f (combine aga16_coeff (map Fin l)))).
  { eexists. rewrite <- mapM_ret. apply mapM_ext. intros ca. unfold g. unfold aga16_f_faba. rewrite ev_slab, S.
    instantiate (1 := fun ca => (if is_str (sub_reg u) "backarc" then _ else _)). cbv beta.
    destruct (is_str (sub_reg u) "backarc"); [rewrite bind_ret_l|]; reflexivity. }
  destruct E as (f & ->). reflexivity.
Qed.
Lemma aga16_bad_event src u a l scale d : sub_gives src u -> u_event u <> "interface" -> u_event u <> "intraslab" -> backarc u = true ->
  u_rup u = Some d -> adj_vals a (slab u) aga16_T = Some l -> result (aga16 src (adj_of a) scale) = Raise ENotImpl.
Proof.
  intros G N1 N2 B D A. rewrite (aga16_construct src u _ _ G). unfold aga16_calc. destruct (adj_fin u a l A) as (BR & L).
  assert (S : slab u = false) by (unfold slab; apply String.eqb_neq; exact N2).
  assert (E : sub_ev u = PNone).
  { unfold sub_ev, choice. cbn [existsb]. rewrite (proj2 (String.eqb_neq _ _) N1), (proj2 (String.eqb_neq _ _) N2). reflexivity. }
  change (sc_attr (sub_scen u) "event_type") with (ret (sub_ev u)). rewrite bind_ret_l. cbv zeta.
  unfold aga16_ln_resp at 1. change (sc_attr (sub_scen u) "event_type") with (ret (sub_ev u)). rewrite bind_ret_l.
  change (num (sub_scen u) "mag") with (ret (Fin (u_mag u))). change (num (sub_scen u) "v_s30") with (ret (Fin (u_v u))). rewrite !bind_ret_l.
  rewrite ev_slab, S.
  assert (N : num (sub_scen u) "dist_rup" = ret (Fin d)) by (unfold num, sub_scen; rewrite (attr_hit _ "dist_rup" (PNum (Fin d))) by (cbn; rewrite D; reflexivity); reflexivity).
  rewrite N, bind_ret_l, BR, bind_ret_l. change (sc_attr (sub_scen u) "tectonic_region") with (ret (sub_reg u)). rewrite bind_ret_l. cbv zeta.
  rewrite reg_back, B, E.
  destruct (combine aga16_coeff (map Fin l)) as [|cs0 rest] eqn:C.
  { exfalso. assert (Q : List.length (combine aga16_coeff (map Fin l)) = 23%nat) by (rewrite combine_length, map_length, L; reflexivity). rewrite C in Q. discriminate. }
  cbn [mapM]. reflexivity.
Qed.
Lemma aga16_bad_length src u l scale d : sub_gives src u -> sub_dist u = Some d -> List.length l <> 23%nat -> List.length l <> 1%nat ->
  result (aga16 src (adj_of (AdjRows l)) scale) = Raise EValue.
Proof.
  intros G D N1 N2. rewrite (aga16_construct src u _ _ G). unfold aga16_calc. cbn [adj_of aga16_adjust].
  change (sc_attr (sub_scen u) "event_type") with (ret (sub_ev u)). rewrite bind_ret_l. cbv zeta.
  unfold aga16_ln_resp at 1. change (sc_attr (sub_scen u) "event_type") with (ret (sub_ev u)). rewrite bind_ret_l.
  change (num (sub_scen u) "mag") with (ret (Fin (u_mag u))). change (num (sub_scen u) "v_s30") with (ret (Fin (u_v u))). rewrite !bind_ret_l.
  rewrite ev_slab.
  assert (N : num (sub_scen u) (if slab u then "dist_hyp" else "dist_rup") = ret (Fin d)).
  { unfold sub_dist in D. unfold num, sub_scen. destruct (slab u); (rewrite (attr_hit _ _ (PNum (Fin d))); [reflexivity|cbn; rewrite D; reflexivity]). }
  rewrite N, bind_ret_l.
  assert (BR : broadcast (List.length aga16_coeff) (map Fin l) = raise EValue).
  { unfold broadcast. change (List.length aga16_coeff) with 23%nat.
    destruct l as [|x [|y l]]; [reflexivity|cbn in N2; congruence|]. cbn [map]. change (Fin x :: Fin y :: map Fin l) with (map Fin (x :: y :: l)).
    rewrite map_length. rewrite (proj2 (Nat.eqb_neq _ _) N1). reflexivity. }
  rewrite BR. reflexivity.
Qed.

(** ** Continuity *)
Lemma sub_mag_minmax t4 t5 t13 a m : sub_mag_val t4 t5 t13 a m =
  Q2R t4 * Rmin (m - (7.8 + a)) 0 + Q2R t5 * Rmax (m - (7.8 + a)) 0 + Q2R t13 * ((10 - m) * (10 - m)).
Proof.
  unfold sub_mag_val. destruct (Rle_dec m (7.8 + a)).
  - rewrite Rmin_left, Rmax_right by lra. ring.
  - rewrite Rmin_right, Rmax_left by lra. ring.
Qed.
Lemma sub_mag_cont t4 t5 t13 a m0 : continuous (fun m => sub_mag_val t4 t5 t13 a m) m0.
Proof.
  apply (cext (fun m => Q2R t4 * Rmin (m - (7.8 + a)) 0 + Q2R t5 * Rmax (m - (7.8 + a)) 0 + Q2R t13 * ((10 - m) * (10 - m))));
   [intros; symmetry; apply sub_mag_minmax|]. cont.
Qed.
Lemma site_cont_p vl b n c t12 v (f : R -> R) x0 : 0 < Q2R c -> continuous f x0 -> 0 < f x0 ->
  continuous (fun x => sub_site_val vl b n c t12 (f x) v) x0.
Proof.
  intros Hc Hf Hp. unfold sub_site_val. destruct (Rlt_dec v (Q2R vl)); [|apply cconst].
  set (k := Rpower _ _). assert (K : 0 < k) by apply exp_pos. pose proof (Rmult_lt_0_compat _ _ Hc K).
  set (l := ln (Rmin v 1000 / Q2R vl)).
  apply (cplus (fun x => Q2R t12 * l - Q2R b * ln (f x + Q2R c)) (fun x => Q2R b * ln (f x + Q2R c * k))).
  - apply (cminus (fun _ => Q2R t12 * l) (fun x => Q2R b * ln (f x + Q2R c))); [apply cconst|].
    apply (cmult (fun _ => Q2R b) (fun x => ln (f x + Q2R c))); [apply cconst|].
    apply (cln (fun x => f x + Q2R c)); [|lra]. apply (cplus f (fun _ => Q2R c)); [exact Hf|apply cconst].
  - apply (cmult (fun _ => Q2R b) (fun x => ln (f x + Q2R c * k))); [apply cconst|].
    apply (cln (fun x => f x + Q2R c * k)); [|lra]. apply (cplus f (fun _ => Q2R c * k)); [exact Hf|apply cconst].
Qed.
(** In the velocity: everywhere for rows with v_lin <= 1000, elsewhere except at v_lin. *)
Lemma site_cont_v vl b n c t12 p v0 : 0 < Q2R c -> 0 < Q2R vl -> 0 < p -> 0 < v0 -> (1000 < Q2R vl -> v0 <> Q2R vl) ->
  continuous (fun v => sub_site_val vl b n c t12 p v) v0.
Proof.
  intros Hc Hl Hp Hv N. set (w := Q2R vl) in *.
  destruct (Rle_dec w 1000) as [L|L].
  - apply (cext_near (fun v => Q2R t12 * ln (Rmin v 1000 / w)
        + Q2R b * (ln (p + Q2R c * Rpower (Rmin v w / w) (Q2R n)) - ln (p + Q2R c))
        + Q2R b * Q2R n * ln (Rmax (Rmin v 1000) w / w)) _ v0 v0 Hv).
    + intros v Hn. apply Rabs_def2 in Hn. unfold sub_site_val. fold w. cbv zeta.
      assert (R1 : ln (w / w) = 0) by (replace (w / w) with 1 by (field; apply Rgt_not_eq; lra); apply ln_1).
      destruct (Rlt_dec v w).
      * rewrite (Rmin_left v w) by lra. rewrite (Rmin_left v 1000) by lra. rewrite (Rmax_right v w) by lra. rewrite R1. ring.
      * rewrite (Rmin_right v w) by lra. rewrite (Rmax_left (Rmin v 1000) w) by (apply Rmin_glb; lra).
        replace (w / w) with 1 by (field; apply Rgt_not_eq; lra).
        replace (Rpower 1 (Q2R n)) with 1 by (unfold Rpower; rewrite ln_1, Rmult_0_r, exp_0; reflexivity).
        rewrite Rmult_1_r. ring.
    + assert (0 < Rmin v0 1000) by (apply Rmin_pos; lra). assert (0 < Rmin v0 w) by (apply Rmin_pos; lra).
      assert (0 < Rmax (Rmin v0 1000) w) by (apply Rlt_le_trans with w; [lra|apply Rmax_r]).
      pose proof (Rmult_lt_0_compat _ _ Hc (exp_pos (Q2R n * ln (Rmin v0 w / w)))) as K. fold (Rpower (Rmin v0 w / w) (Q2R n)) in K.
      cont; try (apply Rdiv_lt_0_compat; lra); try (apply Rgt_not_eq; lra); try lra.
  - assert (N' : v0 <> w) by (apply N; lra).
    assert (P0 : 0 < Rmin v0 1000) by (apply Rmin_pos; lra).
    destruct (Rlt_dec v0 w) as [H|H].
    + apply (cext_near (fun v => Q2R t12 * ln (Rmin v 1000 / w) - Q2R b * ln (p + Q2R c) + Q2R b * ln (p + Q2R c * Rpower (Rmin v 1000 / w) (Q2R n))) _ v0 (w - v0)); [lra| |].
      * intros v Hn. apply Rabs_def2 in Hn. unfold sub_site_val. fold w. cbv zeta. destruct (Rlt_dec v w); [reflexivity|lra].
      * pose proof (Rmult_lt_0_compat _ _ Hc (exp_pos (Q2R n * ln (Rmin v0 1000 / w)))) as K. fold (Rpower (Rmin v0 1000 / w) (Q2R n)) in K.
        cont; try (apply Rdiv_lt_0_compat; lra); try (apply Rgt_not_eq; lra); try lra.
    + apply (cext_near (fun v => (Q2R t12 + Q2R b * Q2R n) * ln (Rmin v 1000 / w)) _ v0 (v0 - w)); [lra| |].
      * intros v Hn. apply Rabs_def2 in Hn. unfold sub_site_val. fold w. cbv zeta. destruct (Rlt_dec v w); [lra|reflexivity].
      * cont; try (apply Rdiv_lt_0_compat; lra); try (apply Rgt_not_eq; lra).
Qed.
(** The jump for v_lin > 1000. *)
Lemma site_jump vl b n c t12 p v1 v2 : 0 < Q2R c -> 1000 < Q2R vl -> 0 < p -> Q2R b < 0 -> 0 < Q2R n ->
  1000 <= v1 -> v1 < Q2R vl -> Q2R vl <= v2 ->
  sub_site_val vl b n c t12 p v2 - sub_site_val vl b n c t12 p v1 =
  - Q2R b * (ln (p + Q2R c * Rpower (1000 / Q2R vl) (Q2R n)) - ln (p + Q2R c) - Q2R n * ln (1000 / Q2R vl)) /\
  0 < - Q2R b * (ln (p + Q2R c * Rpower (1000 / Q2R vl) (Q2R n)) - ln (p + Q2R c) - Q2R n * ln (1000 / Q2R vl)).
Proof.
  intros Hc Hl Hp Hb Hn H1 H2 H3. unfold sub_site_val. rewrite (Rmin_right v1), (Rmin_right v2) by lra. cbv zeta.
  set (w := Q2R vl) in *. destruct (Rlt_dec v2 w) as [W2|W2]; [lra|]. destruct (Rlt_dec v1 w) as [W1|W1]; [|lra]. split; [ring|].
  set (r := 1000 / w). assert (R0 : 0 < r < 1).
  { unfold r. split; [apply Rdiv_lt_0_compat; lra|]. apply (Rmult_lt_reg_r w); [lra|]. unfold Rdiv. rewrite Rmult_assoc, Rinv_l by (apply Rgt_not_eq; lra). lra. }
  set (q := Rpower r (Q2R n)). assert (Q : 0 < q < 1).
  { split; [apply exp_pos|]. unfold q, Rpower. rewrite <- exp_0. apply exp_increasing. rewrite <- (Rmult_0_r (Q2R n)).
    apply Rmult_lt_compat_l; [exact Hn|]. rewrite <- ln_1. apply ln_increasing; lra. }
  assert (LQ : Q2R n * ln r = ln q) by (unfold q, Rpower; rewrite ln_exp; reflexivity). rewrite LQ.
  apply Rmult_lt_0_compat; [lra|].
  assert (K : ln (q * (p + Q2R c)) < ln (p + Q2R c * q)).
  { apply ln_increasing; [apply Rmult_lt_0_compat; lra|]. assert (q * p < 1 * p) by (apply Rmult_lt_compat_r; lra). lra. }
  rewrite ln_mult in K by lra. lra.
Qed.
Lemma aga16_rock_cont sl bk c a scale d z m0 : In c aga16_coeff -> 0 <= d -> continuous (fun m => aga16_rock sl bk c a scale m d z) m0.
Proof.
  intros Hc Hd. row_pos Hc (fun c => aga16_c_4 c) as C4. unfold aga16_rock.
  assert (0 < Q2R (aga16_c_4 c) * exp (Q2R (aga16_t_9 c) * (m0 - 6))) by (apply Rmult_lt_0_compat; [lra|apply exp_pos]).
  repeat cont1; cbv beta; try apply sub_mag_cont; try lra.
Qed.
Lemma aga16_run_ready u scale adj src o : sub_gives src u -> gmm_out1 (aga16 src adj scale) o -> exists d, sub_dist u = Some d.
Proof.
  intros G (g & Hg & _). destruct (sub_dist u) eqn:E; [eauto|]. rewrite (aga16_no_dist src u adj scale G E) in Hg. discriminate.
Qed.
Lemma aga16_cont_mag u a l scale d z m0 : sub_ready u d z -> adj_vals a (slab u) aga16_T = Some l -> 0 <= d -> 0 < u_v u ->
  resp_continuous1 (fun m o => exists src, sub_gives src (sub_with_m u m) /\ gmm_out1 (aga16 src (adj_of a) (Fin scale)) o) m0.
Proof.
  intros Rd A Hd Hv. destruct (adj_fin u a l A) as (_ & L).
  destruct (combine aga16_coeff l) as [|cs0 rest] eqn:C.
  { exfalso. assert (E : List.length (combine aga16_coeff l) = 23%nat) by (rewrite combine_length, L; reflexivity). rewrite C in E. discriminate. }
  destruct (aga16_hd _ _ _ C) as (_ & _ & _ & I0 & I).
  apply (rows_continuous1 (cs0 :: rest) rest cs0
     (fun m => aga16_rowR (sub_with_m u m) scale d z (fexp (aga16_rowR (sub_with_m u m) scale d z NaN cs0)))
     (fun m => aga16_std) (fun m => aga16_val (sub_with_m u m) scale d z (fst cs0) (snd cs0))) with (r := 1);
    [intros c Hc; right; exact Hc|left; reflexivity|lra| | |].
  - intros m o (src & G & O). apply (gmm_out1_fun _ _ _ O). apply (aga16_out src (sub_with_m u m) a l); auto.
  - intros m cs Hc _. apply (aga16_row_fin (sub_with_m u m) scale d z cs0 rest l cs C Hc Hd Hv). exact (proj2 (proj2 Rd)).
  - intros cs Hc. specialize (I cs Hc). unfold aga16_val, sub_with_m, slab, backarc; cbn [u_mag u_v u_event u_region].
    row_pos I (fun c => aga16_c c) as CC.
    apply cplus; [apply aga16_rock_cont; assumption|]. unfold aga16_site. apply site_cont_p; [lra| |apply exp_pos].
    unfold aga16_pga1000. cbn [u_mag]. apply cexp. apply cplus; [apply aga16_rock_cont; assumption|apply cconst].
Qed.
Lemma aga16_cont_vs u a l scale d z v0 : sub_ready u d z -> adj_vals a (slab u) aga16_T = Some l -> 0 <= d -> 0 < v0 ->
  (forall c, In c aga16_coeff -> 1000 < Q2R (aga16_v_lin c) -> v0 <> Q2R (aga16_v_lin c)) ->
  resp_continuous1 (fun v o => exists src, sub_gives src (sub_with_v u v) /\ gmm_out1 (aga16 src (adj_of a) (Fin scale)) o) v0.
Proof.
  intros Rd A Hd Hv N. destruct (adj_fin u a l A) as (_ & L).
  destruct (combine aga16_coeff l) as [|cs0 rest] eqn:C.
  { exfalso. assert (E : List.length (combine aga16_coeff l) = 23%nat) by (rewrite combine_length, L; reflexivity). rewrite C in E. discriminate. }
  destruct (aga16_hd _ _ _ C) as (_ & _ & _ & I0 & I).
  apply (rows_continuous1 (cs0 :: rest) rest cs0
     (fun v => aga16_rowR (sub_with_v u v) scale d z (fexp (aga16_rowR (sub_with_v u v) scale d z NaN cs0)))
     (fun v => aga16_std) (fun v => aga16_val (sub_with_v u v) scale d z (fst cs0) (snd cs0))) with (r := v0);
    [intros c Hc; right; exact Hc|left; reflexivity|lra| | |].
  - intros v o (src & G & O). apply (gmm_out1_fun _ _ _ O). apply (aga16_out src (sub_with_v u v) a l); auto.
  - intros v cs Hc Hn. apply (aga16_row_fin (sub_with_v u v) scale d z cs0 rest l cs C Hc Hd); [|exact (proj2 (proj2 Rd))].
    apply Rabs_def2 in Hn. cbn [sub_with_v u_v]. lra.
  - intros cs Hc. specialize (I cs Hc). unfold aga16_val; cbn [sub_with_v u_mag u_v].
    row_pos I (fun c => aga16_c c) as CC. row_pos I (fun c => aga16_v_lin c) as CV.
    apply cplus; [apply cconst|]. unfold aga16_site. apply site_cont_v; [lra|lra|apply exp_pos|exact Hv|apply N; exact I].
Qed.
Lemma Forall2_map_inv {A B} (Q : B -> B -> Prop) (f g : A -> B) l x : Forall2 Q (map f l) (map g l) -> In x l -> Q (f x) (g x).
Proof.
  induction l as [|y l IH]; intros H Hx; [destruct Hx|]. cbn in H. inversion H; subst. destruct Hx as [->|Hx]; auto.
Qed.
Lemma aga16_not_cont u a l scale d z c : sub_ready u d z -> adj_vals a (slab u) aga16_T = Some l -> 0 <= d ->
  In c aga16_coeff -> 1000 < Q2R (aga16_v_lin c) ->
  ~ resp_continuous1 (fun v o => exists src, sub_gives src (sub_with_v u v) /\ gmm_out1 (aga16 src (adj_of a) (Fin scale)) o) (Q2R (aga16_v_lin c)).
Proof.
  intros Rd A Hd Hc Hl H. destruct (adj_fin u a l A) as (_ & L).
  destruct (combine aga16_coeff l) as [|cs0 rest] eqn:C.
  { exfalso. assert (E : List.length (combine aga16_coeff l) = 23%nat) by (rewrite combine_length, L; reflexivity). rewrite C in E. discriminate. }
  destruct (aga16_hd _ _ _ C) as (V0 & _ & _ & I0 & I).
  assert (exists x, In (c, x) (cs0 :: rest)) as (x & Hx).
  { rewrite <- C. rewrite <- (combine_fst aga16_coeff l L) in Hc. apply in_map_iff in Hc. destruct Hc as ([c' x] & E & Hc). cbn in E; subst c'. exists x; exact Hc. }
  destruct Hx as [Hx|Hx].
  { rewrite Hx in V0. cbn in V0. lra. }
  assert (NB : Q2R (aga16_b c) < 0).
  { assert (Q : forallb (fun c => Qle_bool (aga16_v_lin c) 1000 || negb (Qle_bool 0 (aga16_b c)))%bool aga16_coeff = true) by (vm_compute; reflexivity).
    rewrite forallb_forall in Q. specialize (Q c Hc). apply Bool.orb_true_iff in Q. destruct Q as [Q|Q].
    - apply Qle_bool_iff, Qle_Rle in Q. replace (Q2R 1000) with 1000 in Q by (unfold Q2R; cbn; lra). lra.
    - apply Bool.negb_true_iff in Q. replace 0 with (Q2R 0) by (unfold Q2R; cbn; lra). apply Qlt_Rlt, Qnot_le_lt. intros W. apply Qle_bool_iff in W. congruence. }
  row_pos Hc (fun c => aga16_c c) as CC. row_pos Hc (fun c => aga16_n c) as CN.
  set (w := Q2R (aga16_v_lin c)) in *. set (p := aga16_pga1000 u scale d z (fst cs0) (snd cs0)).
  assert (PP : 0 < p) by apply exp_pos.
  assert (J : forall v1, 1000 <= v1 -> v1 < w ->
    aga16_site c p w - aga16_site c p v1 = - Q2R (aga16_b c) * (ln (p + Q2R (aga16_c c) * Rpower (1000 / w) (Q2R (aga16_n c))) - ln (p + Q2R (aga16_c c)) - Q2R (aga16_n c) * ln (1000 / w)) /\
    0 < - Q2R (aga16_b c) * (ln (p + Q2R (aga16_c c) * Rpower (1000 / w) (Q2R (aga16_n c))) - ln (p + Q2R (aga16_c c)) - Q2R (aga16_n c) * ln (1000 / w))).
  { intros v1 H1 H2. apply site_jump; try assumption; try lra. apply Rle_refl. }
  set (gap := - Q2R (aga16_b c) * _) in J.
  assert (GP : 0 < gap) by (apply (J 1000); lra).
  destruct (H (gap / 2)) as (delta & Hd0 & K); [lra|].
  set (v := w - Rmin delta (w - 1000) / 2).
  assert (M0 : 0 < Rmin delta (w - 1000)) by (apply Rmin_pos; lra).
  pose proof (Rmin_l delta (w - 1000)). pose proof (Rmin_r delta (w - 1000)).
  assert (V1 : 1000 <= v < w) by (unfold v; lra).
  assert (VD : Rabs (v - w) < delta) by (unfold v; apply Rabs_def1; lra).
  pose (O t := row_outs1 rest cs0 (aga16_rowR (sub_with_v u t) scale d z (fexp (aga16_rowR (sub_with_v u t) scale d z NaN cs0))) aga16_std).
  assert (RO : forall t, exists src, sub_gives src (sub_with_v u t) /\ gmm_out1 (aga16 src (adj_of a) (Fin scale)) (O t)).
  { intros t. exists (sub_src (sub_with_v u t)). split; [apply sub_src_gives|]. apply (aga16_out _ (sub_with_v u t) a l); auto. apply sub_src_gives. }
  destruct (K v (O w) (O v) VD (RO w) (RO v)) as (K1 & _).
  unfold O, row_outs1 in K1; cbn [q_sa] in K1. apply Forall2_map_inv with (x := (c, x)) in K1; [|exact Hx].
  rewrite !(aga16_row_fin (sub_with_v u _) scale d z cs0 rest l (c, x) C) in K1 by (try exact Hd; try (right; exact Hx); try exact (proj2 (proj2 Rd)); cbn [sub_with_v u_v]; lra).
  destruct K1 as (e1 & e2 & E1 & E2 & _ & _ & K2). cbn [fexp] in E1, E2. injection E1 as <-. injection E2 as <-. rewrite !ln_exp in K2.
  change (aga16_val (sub_with_v u w) scale d z (fst cs0) (snd cs0) (c, x)) with
    (aga16_rock (slab u) (backarc u) c x scale (u_mag u) d z + aga16_site c p w) in K2.
  change (aga16_val (sub_with_v u v) scale d z (fst cs0) (snd cs0) (c, x)) with
    (aga16_rock (slab u) (backarc u) c x scale (u_mag u) d z + aga16_site c p v) in K2.
  destruct (J v (proj1 V1) (proj2 V1)) as (J1 & _). apply Rabs_le_between in K2. lra.
Qed.

(** ** Same result whatever the unused distance says *)
Lemma aga16_metric src1 src2 u1 u2 a l scale d z : sub_gives src1 u1 -> sub_gives src2 u2 -> sub_ready u1 d z -> sub_ready u2 d z ->
  u_mag u1 = u_mag u2 -> u_v u1 = u_v u2 -> u_event u1 = u_event u2 -> u_region u1 = u_region u2 -> adj_vals a (slab u1) aga16_T = Some l ->
  exists o, gmm_out1 (aga16 src1 (adj_of a) (Fin scale)) o /\ gmm_out1 (aga16 src2 (adj_of a) (Fin scale)) o.
Proof.
  intros G1 G2 R1 R2 E1 E2 E3 E4 A. destruct (adj_fin u1 a l A) as (_ & L).
  destruct (combine aga16_coeff l) as [|cs0 rest] eqn:C.
  { exfalso. assert (E : List.length (combine aga16_coeff l) = 23%nat) by (rewrite combine_length, L; reflexivity). rewrite C in E. discriminate. }
  eexists. split; [apply (aga16_out src1 u1 a l scale d z cs0 rest); assumption|].
  assert (S : slab u1 = slab u2) by (unfold slab; rewrite E3; reflexivity).
  assert (E : forall p cs, aga16_rowR u1 scale d z p cs = aga16_rowR u2 scale d z p cs).
  { intros p cs. unfold aga16_rowR, aga16_rowf, backarc, slab, sub_ev. rewrite E1, E2, E3, E4. reflexivity. }
  rewrite E, (row_outs1_ext (cs0 :: rest) rest cs0 _ aga16_std (aga16_rowR u2 scale d z (fexp (aga16_rowR u2 scale d z NaN cs0))) aga16_std);
    [|intros c Hc; right; exact Hc|left; reflexivity|intros; apply E|reflexivity].
  apply (aga16_out src2 u2 a l scale d z cs0 rest); try assumption. rewrite <- S; exact A.
Qed.
