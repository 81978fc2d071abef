(** * Proofs for Derras, Bard & Cotton (2014) *)
From Coquelicot Require Import Coquelicot.
From Interval Require Import Tactic.
From Coq Require Import List.
From Verif Require Import M_dbc14 FrameworkProofs Anal Nga Outs Spec_dbc14.
Open Scope R_scope.
Open Scope string_scope.
Open Scope list_scope.

Lemma dbc_src_gives a : dbc_gives (dbc_src a) a.
Proof. repeat split. Qed.
Definition dbc_mech (a : dbc) : pyval := choice ["SS"; "NS"; "RS"] PNone (Some (d_mech a)).
Definition dbc_scen (a : dbc) : scen :=
  Scen [("dist_jb", PNum (Fin (d_jb a))); ("mag", PNum (Fin (d_m a))); ("v_s30", PNum (Fin (d_v a)));
        ("depth_hyp", PNum (Fin (d_z a))); ("mechanism", dbc_mech a)] [].
Definition dbc_layer (a : dbc) (k : R) : list flt :=
  dbc14_layer (dbc14_norm [flog10 (Fin (d_jb a)); Fin (d_m a); flog10 (Fin (d_v a)); Fin (d_z a); Fin k]).
Definition dbc_rows : list (nat * dbc14_row) := combine (seq 0 64) dbc14_coeff.
Definition dbc_row (a : dbc) (k : R) (ic : nat * dbc14_row) : flt := dbc14_ln_resp (dbc_layer a k) (fst ic) (snd ic).

Lemma dbc_mech_code a : result (dbc14_mech (dbc_mech a)) = match mech_code (d_mech a) with Some k => Ok (Fin k) | None => Raise (EKey "None") end.
Proof.
  unfold dbc_mech, choice, mech_code. cbn [existsb].
  destruct (String.eqb_spec (d_mech a) "SS") as [E|E]; [rewrite E; reflexivity|].
  destruct (String.eqb_spec (d_mech a) "NS") as [E2|E2]; [rewrite E2; reflexivity|].
  destruct (String.eqb_spec (d_mech a) "RS") as [E3|E3]; [rewrite E3; reflexivity|]. reflexivity.
Qed.
Lemma dbc_rows_std : map dbc14_ln_std dbc14_coeff = map (fun ic => dbc14_ln_std (snd ic)) dbc_rows.
Proof. reflexivity. Qed.
Lemma dbc14_construct src a : dbc_gives src a ->
  result (dbc14 src) = match mech_code (d_mech a) with
    | None => Raise (EKey "None")
    | Some k => Ok (GMM dbc14_class (dbc_scen a) (map (dbc_row a k) dbc_rows) (Some (map (fun ic => dbc14_ln_std (snd ic)) dbc_rows)))
    end.
Proof.
  intros (G1 & G2 & G3 & G4 & G5). unfold dbc14.
  rewrite gmm_make_result by reflexivity.
  let x := eval cbv [gc_params dbc14_class NumP CatP CatBoolP map] in (gc_params dbc14_class) in change (gc_params dbc14_class) with x.
  unfold has_num, has_str in *.
  cbn [checks p_name]. rewrite G1, G2, G3, G4, G5.
  repeat (rewrite ?chk_num; cbn [checks p_name]).
  change [PStr "SS"; PStr "NS"; PStr "RS"] with (map PStr ["SS"; "NS"; "RS"]).
  rewrite chk_str_req. cbn [checks p_name]. fold (dbc_mech a).
  rewrite !num_hit with (x := Fin (d_v a)) by reflexivity. rewrite bind_ret_l.
  rewrite !num_hit with (x := Fin (d_jb a)) by reflexivity. rewrite bind_ret_l.
  rewrite attr_hit with (v := dbc_mech a) by reflexivity. rewrite bind_ret_l.
  rewrite result_bind, dbc_mech_code. destruct (mech_code (d_mech a)) as [k|]; [|reflexivity].
  rewrite !num_hit with (x := Fin (d_m a)) by reflexivity. rewrite bind_ret_l.
  rewrite !num_hit with (x := Fin (d_z a)) by reflexivity. rewrite bind_ret_l.
  rewrite result_ret. cbn [fst snd]. rewrite dbc_rows_std. reflexivity.
Qed.
Lemma dbc_psa : take_idx dbc_rows (gc_psa dbc14_class) = Some (skipn 2 dbc_rows).
Proof. reflexivity. Qed.
Definition dbc_row0 := nth 0 dbc_rows (0%nat, Mk_dbc14_row 0 0 0 0 [] 0 0 0).
Definition dbc_row1 := nth 1 dbc_rows (0%nat, Mk_dbc14_row 0 0 0 0 [] 0 0 0).
Lemma dbc_in0 : In dbc_row0 dbc_rows. Proof. apply nth_In. cbn. lia. Qed.
Lemma dbc_in1 : In dbc_row1 dbc_rows. Proof. apply nth_In. cbn. lia. Qed.
Lemma dbc_incl : incl (skipn 2 dbc_rows) dbc_rows.
Proof. intros c H. rewrite <- (firstn_skipn 2 dbc_rows). apply in_or_app; right; exact H. Qed.
Definition dbc_outs (a : dbc) (k : R) : outs :=
  row_outs (skipn 2 dbc_rows) dbc_row1 dbc_row0 (Fin 1) (dbc_row a k) (fun ic => dbc14_ln_std (snd ic)).
Lemma dbc14_out src a k : dbc_gives src a -> mech_code (d_mech a) = Some k -> gmm_out (dbc14 src) (dbc_outs a k).
Proof.
  intros G C. pose proof (dbc14_construct src a G) as K. rewrite C in K.
  eapply (gmm_out_rows (dbc14 src) dbc14_class _ _ _ dbc_rows (skipn 2 dbc_rows) 1%Z 0%Z dbc_row1 dbc_row0);
    [exact K|exact dbc_psa|reflexivity|reflexivity|reflexivity|reflexivity].
Qed.
Lemma dbc14_bad_mech src a : dbc_gives src a -> mech_code (d_mech a) = None -> result (dbc14 src) = Raise (EKey "None").
Proof. intros G C. rewrite (dbc14_construct src a G), C. reflexivity. Qed.

(** *** Real values *)
Lemma fold_fin l : forall acc, fold_left fadd (map Fin l) (Fin acc) = Fin (fold_left Rplus l acc).
Proof. induction l as [|x l IH]; intros acc; cbn; [reflexivity|apply IH]. Qed.
Lemma fold_plus l : forall acc, fold_left Rplus l acc = acc + fold_right Rplus 0 l.
Proof. induction l as [|x l IH]; intros acc; cbn; [ring|rewrite IH; ring]. Qed.
Lemma dot_fin ws xs : dot ws (map Fin xs) = Fin (wsum ws xs).
Proof.
  unfold dot, fsum. replace (map _ (combine ws (map Fin xs))) with (map Fin (map (fun wx => Q2R (fst wx) * snd wx) (combine ws xs))).
  - rewrite fold_fin, fold_plus, Rplus_0_l. f_equal. revert xs; induction ws as [|w ws IH]; intros [|x xs]; cbn; try reflexivity. rewrite IH. reflexivity.
  - rewrite map_map. revert xs; induction ws as [|w ws IH]; intros [|x xs]; cbn; try reflexivity. rewrite IH. reflexivity.
Qed.
Lemma dbc14_layer_fin xs : dbc14_layer (map Fin xs) = map Fin (map (fun bw => tanh (Q2R (fst bw) + wsum (snd bw) xs)) dbc14_hidden).
Proof. unfold dbc14_layer. rewrite map_map. apply map_ext. intros bw. rewrite dot_fin. reflexivity. Qed.
Lemma dbc_norm_fin a k : 0 < d_jb a -> 0 < d_v a ->
  dbc14_norm [flog10 (Fin (d_jb a)); Fin (d_m a); flog10 (Fin (d_v a)); Fin (d_z a); Fin k] = map Fin (nn_inputs a k).
Proof.
  intros Hd Hv. rewrite (flog10_fin (d_jb a)), (flog10_fin (d_v a)) by assumption.
  unfold dbc14_norm, dbc14_limits, nn_inputs, unit_scale, log10. cbn [combine map]. unfold qf. fcbn. qlit.
  rewrite !fdiv_fin by (apply Rgt_not_eq; lra). fcbn.
  repeat f_equal; lra.
Qed.
Lemma dbc_layer_fin a k : 0 < d_jb a -> 0 < d_v a -> dbc_layer a k = map Fin (nn_hidden a k).
Proof. intros Hd Hv. unfold dbc_layer. rewrite dbc_norm_fin, dbc14_layer_fin by assumption. reflexivity. Qed.
Definition dbc_unit (i : nat) : R := if Nat.eqb i 0 then 0.01 else 9.80665.
Lemma dbc_unit_pos i : 0 < dbc_unit i.
Proof. unfold dbc_unit. destruct (Nat.eqb i 0); lra. Qed.
Lemma ln_Rpower10 x : ln (Rpower 10 x) = x * ln 10.
Proof. unfold Rpower. apply ln_exp. Qed.
Lemma Rpower10_sub x u : 0 < u -> Rpower 10 (x - ln u / ln 10) = Rpower 10 x / u.
Proof.
  intros U. unfold Rminus. rewrite Rpower_plus, Rpower_Ropp. unfold Rdiv at 2. do 2 f_equal.
  unfold Rpower. replace (ln u / ln 10 * ln 10) with (ln u) by (field; apply Rgt_not_eq; apply ln10_pos). apply exp_ln; exact U.
Qed.
Lemma dbc_resp_fin h i c : fexp (dbc14_ln_resp (map Fin h) i c) = Fin (Rpower 10 (nn_output c h) / dbc_unit i).
Proof.
  unfold dbc14_ln_resp, nn_output. rewrite dot_fin. unfold qf. fcbn.
  replace (if Nat.eqb i 0 then Fin 0.01 else Fin (9.80665 * 1)) with (Fin (dbc_unit i)) by (unfold dbc_unit; destruct (Nat.eqb i 0); f_equal; lra).
  pose proof (dbc_unit_pos i) as U. rewrite flog10_fin by exact U. fcbn. rewrite fpowf_fin by lra.
  rewrite flog_fin by apply exp_pos. cbn [fexp]. rewrite exp_ln by apply exp_pos. rewrite Rpower10_sub by exact U. reflexivity.
Qed.
Lemma some_inj {A} (x y : A) : Some x = Some y -> x = y. Proof. intros H; injection H; auto. Qed.
(** Published network. *)
Lemma dbc14_published src a k : dbc_gives src a -> mech_code (d_mech a) = Some k -> 0 < d_jb a -> 0 < d_v a ->
  exists o, gmm_out (dbc14 src) o /\
    o_sa o = map (fun c => Fin (Rpower 10 (dbc_val a k c) / 9.80665)) (skipn 2 dbc14_coeff) /\
    (forall c, nth_error dbc14_coeff 1 = Some c -> o_pga o = Fin (Rpower 10 (dbc_val a k c) / 9.80665)) /\
    (forall c, nth_error dbc14_coeff 0 = Some c -> o_pgv o = Fin (Rpower 10 (dbc_val a k c) * 100)) /\
    o_sd o = map (fun c => Fin (Q2R (dbc14_sd_total c) * ln 10)) (skipn 2 dbc14_coeff).
Proof.
  intros G C Hd Hv. exists (dbc_outs a k). split; [apply dbc14_out; assumption|].
  assert (F : forall ic, fexp (dbc_row a k ic) = Fin (Rpower 10 (dbc_val a k (snd ic)) / dbc_unit (fst ic))).
  { intros [i c]. unfold dbc_row. rewrite dbc_layer_fin by assumption. apply dbc_resp_fin. }
  unfold dbc_outs, row_outs; cbn [o_sa o_pga o_pgv o_sd].
  split; [|split; [|split]].
  - replace (skipn 2 dbc14_coeff) with (map snd (skipn 2 dbc_rows)) by reflexivity. rewrite map_map.
    apply map_ext_in. intros ic Hi. rewrite F. unfold dbc_unit.
    assert (N : Nat.eqb (fst ic) 0 = false).
    { assert (Q : forallb (fun ic => negb (Nat.eqb (fst ic) 0)) (skipn 2 dbc_rows) = true) by reflexivity.
      rewrite forallb_forall in Q. specialize (Q ic Hi). destruct (Nat.eqb (fst ic) 0); [discriminate|reflexivity]. }
    rewrite N. reflexivity.
  - intros c Hc. change (nth_error dbc14_coeff 1) with (Some (snd dbc_row1)) in Hc. apply some_inj in Hc; subst c. rewrite F. reflexivity.
  - intros c Hc. change (nth_error dbc14_coeff 0) with (Some (snd dbc_row0)) in Hc. apply some_inj in Hc; subst c. rewrite F.
    change (dbc_unit (fst dbc_row0)) with 0.01. cbn [fmul]. apply (f_equal Fin). generalize (Rpower 10 (dbc_val a k (snd dbc_row0))). intros z. lra.
  - replace (skipn 2 dbc14_coeff) with (map snd (skipn 2 dbc_rows)) by reflexivity. rewrite map_map.
    apply map_ext. intros ic. unfold dbc14_ln_std, qf. rewrite fpowf_fin by lra. rewrite flog_fin by apply exp_pos. rewrite ln_Rpower10. reflexivity.
Qed.

(** *** Bounds *)
Lemma tanh_bounds x : -1 < tanh x < 1.
Proof.
  assert (C : 0 < cosh x) by (unfold cosh; pose proof (exp_pos x); pose proof (exp_pos (-x)); lra).
  unfold tanh, Rdiv. split; apply (Rmult_lt_reg_r (cosh x)); try exact C; rewrite Rmult_assoc, Rinv_l by lra;
    unfold sinh, cosh; pose proof (exp_pos x); pose proof (exp_pos (-x)); lra.
Qed.
Definition Qabssum (ws : list Q) : Q := fold_right (fun w s => (Qabs.Qabs w + s)%Q) 0%Q ws.
Lemma Q2R_Qabs w : Q2R (Qabs.Qabs w) = Rabs (Q2R w).
Proof.
  destruct (Qlt_le_dec w 0) as [H|H].
  - rewrite (Qeq_eqR _ _ (Qabs.Qabs_neg w (Qlt_le_weak _ _ H))). rewrite Q2R_opp. apply Qlt_Rlt in H.
    change (Q2R 0) with (0 * / 1) in H. rewrite Rabs_left by lra. reflexivity.
  - rewrite (Qeq_eqR _ _ (Qabs.Qabs_pos w H)). apply Qle_Rle in H. change (Q2R 0) with (0 * / 1) in H. rewrite Rabs_right by lra. reflexivity.
Qed.
Lemma wsum_bound ws : forall h, Forall (fun x => -1 <= x <= 1) h -> - Q2R (Qabssum ws) <= wsum ws h <= Q2R (Qabssum ws).
Proof.
  assert (P : forall ws, 0 <= Q2R (Qabssum ws)).
  { induction ws0 as [|w ws0 IH]; cbn [Qabssum fold_right].
    - unfold Q2R; cbn; lra.
    - rewrite Q2R_plus, Q2R_Qabs. pose proof (Rabs_pos (Q2R w)). unfold Qabssum in IH. lra. }
  induction ws as [|w ws IH]; intros h H.
  - cbn. unfold Q2R; cbn; lra.
  - destruct h as [|x h]. { cbn [wsum]. pose proof (P (w :: ws)). lra. }
    inversion H as [|? ? Hx Hh]; subst. specialize (IH h Hh). cbn [wsum Qabssum fold_right]. rewrite Q2R_plus, Q2R_Qabs.
    fold (Qabssum ws).
    assert (Rabs (Q2R w * x) <= Rabs (Q2R w)).
    { rewrite Rabs_mult. assert (Rabs x <= 1) by (apply Rabs_le; lra). pose proof (Rabs_pos (Q2R w)). nra. }
    apply Rabs_le_between in H0. lra.
Qed.
Definition reach_hi (c : dbc14_row) : Q := ((1#2) * (dbc14_b2 c + Qabssum (dbc14_w2 c) + 1) * (dbc14_max c - dbc14_min c) + dbc14_min c)%Q.
Definition reach_lo (c : dbc14_row) : Q := ((1#2) * (dbc14_b2 c - Qabssum (dbc14_w2 c) + 1) * (dbc14_max c - dbc14_min c) + dbc14_min c)%Q.
Lemma Q2R_1 : Q2R 1 = 1. Proof. unfold Q2R; cbn; lra. Qed.
Lemma Q2R_half : Q2R (1#2) = 0.5. Proof. unfold Q2R; cbn; lra. Qed.
Lemma nn_bound c h : In c dbc14_coeff -> Forall (fun x => -1 <= x <= 1) h -> Q2R (reach_lo c) <= nn_output c h <= Q2R (reach_hi c).
Proof.
  intros Hc H. pose proof (wsum_bound (dbc14_w2 c) h H) as B. row_lt Hc (fun c => dbc14_min c) (fun c => dbc14_max c) as D.
  unfold reach_lo, reach_hi, nn_output. repeat rewrite ?Q2R_plus, ?Q2R_mult, ?Q2R_minus. rewrite Q2R_1, Q2R_half.
  set (S := Q2R (Qabssum _)) in *. set (W := wsum _ _) in *. nra.
Qed.
Lemma dot_inf w ws xs : dot (w :: ws) (NInf :: map Fin xs) = if Rltb 0 (Q2R w) then NInf else if Rltb (Q2R w) 0 then PInf else NaN.
Proof.
  assert (N : forall l, fold_left fadd (map Fin l) NInf = NInf) by (induction l as [|x l IH]; [reflexivity|exact IH]).
  assert (P : forall l, fold_left fadd (map Fin l) PInf = PInf) by (induction l as [|x l IH]; [reflexivity|exact IH]).
  assert (A : forall l, fold_left fadd (map Fin l) NaN = NaN) by (induction l as [|x l IH]; [reflexivity|exact IH]).
  unfold dot, fsum. cbn [combine map fold_left fst snd].
  replace (map _ (combine ws (map Fin xs))) with (map Fin (map (fun wx => Q2R (fst wx) * snd wx) (combine ws xs))).
  2:{ rewrite map_map. revert xs; induction ws as [|v ws IH]; intros [|x xs]; cbn; try reflexivity. rewrite IH. reflexivity. }
  unfold qf. cbn [fmul]. unfold inf_signed.
  destruct (Rltb_spec 0 (Q2R w)) as [H|H].
  - rewrite (Rltb_false 0) by lra. rewrite (Rltb_true (- _)) by lra. cbn [fadd]. apply N.
  - destruct (Rltb_spec (Q2R w) 0) as [H'|H'].
    + rewrite (Rltb_true 0) by lra. cbn [fadd]. apply P.
    + rewrite (Rltb_false 0) by lra. rewrite (Rltb_false (- _)) by lra. cbn [fadd]. apply A.
Qed.
Lemma dbc_layer_zero a k : d_jb a = 0 -> 0 < d_v a -> dbc_layer a k = map Fin [-1; 1; -1; 1; -1].
Proof.
  intros Hd Hv. unfold dbc_layer.
  assert (N : exists xs, dbc14_norm [flog10 (Fin (d_jb a)); Fin (d_m a); flog10 (Fin (d_v a)); Fin (d_z a); Fin k] = NInf :: map Fin xs).
  { rewrite Hd. rewrite (flog10_fin (d_v a)) by assumption.
    replace (flog10 (Fin 0)) with NInf by (unfold flog10; rewrite Rltb_false by lra; rewrite Reqb_true by lra; reflexivity).
    unfold dbc14_norm, dbc14_limits. cbn [combine map]. unfold qf. fcbn. qlit.
    rewrite !fdiv_fin by (apply Rgt_not_eq; lra). fcbn.
    eexists [_; _; _; _]. cbn [map]. f_equal. unfold inf_signed. rewrite (Rltb_false 0) by lra. rewrite Rltb_true by lra. cbn [fdiv]. rewrite Rltb_false by lra. reflexivity. }
  destruct N as (xs & ->). unfold dbc14_layer, dbc14_hidden. cbn [map fst snd]. rewrite !dot_inf. qlit.
  repeat (first [rewrite (Rltb_true 0) by lra | rewrite (Rltb_false 0) by lra; rewrite Rltb_true by lra]).
  reflexivity.
Qed.
Lemma dbc_layer_some a k : 0 <= d_jb a -> 0 < d_v a -> exists h, dbc_layer a k = map Fin h /\ Forall (fun x => -1 <= x <= 1) h.
Proof.
  intros [Hd|Hd] Hv.
  - exists (nn_hidden a k). split; [apply dbc_layer_fin; assumption|]. unfold nn_hidden. apply Forall_map_intro. intros bw _. pose proof (tanh_bounds (Q2R (fst bw) + wsum (snd bw) (nn_inputs a k))). lra.
  - exists [-1; 1; -1; 1; -1]. split; [apply dbc_layer_zero; auto|]. repeat constructor; lra.
Qed.
Lemma dbc_rows_in ic : In ic dbc_rows -> In (snd ic) dbc14_coeff.
Proof. destruct ic as [i c]. intros H. apply in_combine_r in H. exact H. Qed.
Lemma Rpower10_le x y : x <= y -> Rpower 10 x <= Rpower 10 y.
Proof. intros H. apply Rle_Rpower; lra. Qed.
Lemma dbc14_bounded src a k : dbc_gives src a -> mech_code (d_mech a) = Some k -> 0 <= d_jb a -> 0 < d_v a ->
  exists o, gmm_out (dbc14 src) o /\ List.length (o_sa o) = 62%nat /\ List.length (o_sd o) = 62%nat /\
    Forall (fun y => exists x, y = Fin x /\ 9/10^7 <= x <= 2.7) (o_sa o) /\
    (exists x, o_pga o = Fin x /\ 5/10^5 <= x <= 0.52) /\
    (exists x, o_pgv o = Fin x /\ 0.005 <= x <= 116) /\
    all_std (fun s => exists x, s = Fin x /\ 0.68 <= x <= 0.88) o.
Proof.
  intros G C Hd Hv. exists (dbc_outs a k). split; [apply dbc14_out; assumption|].
  destruct (dbc_layer_some a k Hd Hv) as (h & E & B).
  assert (F : forall ic, fexp (dbc_row a k ic) = Fin (Rpower 10 (nn_output (snd ic) h) / dbc_unit (fst ic))).
  { intros [i c]. unfold dbc_row. rewrite E. apply dbc_resp_fin. }
  unfold dbc_outs, row_outs, all_std; cbn [o_sa o_pga o_pgv o_sd o_sd_pga o_sd_pgv]. rewrite !map_length.
  split; [reflexivity|]. split; [reflexivity|].
  split; [|split; [|split]].
  - apply Forall_map_intro. intros ic Hi. rewrite F. eexists; split; [reflexivity|].
    assert (U : dbc_unit (fst ic) = 9.80665).
    { assert (Q : forallb (fun ic => negb (Nat.eqb (fst ic) 0)) (skipn 2 dbc_rows) = true) by reflexivity.
      rewrite forallb_forall in Q. specialize (Q ic Hi). unfold dbc_unit. destruct (Nat.eqb (fst ic) 0); [discriminate|reflexivity]. }
    rewrite U. pose proof (nn_bound (snd ic) h (dbc_rows_in _ (dbc_incl _ Hi)) B) as K.
    pose proof (rows_le (skipn 2 dbc_rows) (fun ic => reach_hi (snd ic)) (fun _ => (1417#1000)%Q) ltac:(vm_compute; reflexivity) ic Hi) as Q1.
    pose proof (rows_le (skipn 2 dbc_rows) (fun _ => (-503#100)%Q) (fun ic => reach_lo (snd ic)) ltac:(vm_compute; reflexivity) ic Hi) as Q2.
    cbv beta in Q1, Q2. qlit_in Q1. qlit_in Q2.
    pose proof (Rpower10_le (-5.03) (nn_output (snd ic) h) ltac:(lra)) as R1. pose proof (Rpower10_le (nn_output (snd ic) h) 1.417 ltac:(lra)) as R2.
    set (z := Rpower 10 (nn_output _ _)) in *. clearbody z. 
    assert (9/10^6 <= Rpower 10 (-5.03)) by (clear; unfold Rpower; interval with (i_prec 40)).
    assert (Rpower 10 1.417 <= 26.2) by (clear; unfold Rpower; interval with (i_prec 40)). lra.
  - rewrite F. eexists; split; [reflexivity|]. change (dbc_unit (fst dbc_row1)) with 9.80665.
    pose proof (nn_bound (snd dbc_row1) h (dbc_rows_in _ dbc_in1) B) as K.
    assert (Q1 : Q2R (reach_hi (snd dbc_row1)) <= Q2R (7#10)%Q) by (apply Qleb_R; vm_compute; reflexivity).
    assert (Q2 : Q2R (-327#100)%Q <= Q2R (reach_lo (snd dbc_row1))) by (apply Qleb_R; vm_compute; reflexivity).
    qlit_in Q1. qlit_in Q2.
    pose proof (Rpower10_le (-3.27) (nn_output (snd dbc_row1) h) ltac:(lra)) as R1. pose proof (Rpower10_le (nn_output (snd dbc_row1) h) 0.7 ltac:(lra)) as R2.
    set (z := Rpower 10 (nn_output _ _)) in *. clearbody z.
    assert (5.2/10^4 <= Rpower 10 (-3.27)) by (clear; unfold Rpower; interval with (i_prec 40)).
    assert (Rpower 10 0.7 <= 5.05) by (clear; unfold Rpower; interval with (i_prec 40)). lra.
  - rewrite F. eexists; split; [reflexivity|]. change (dbc_unit (fst dbc_row0)) with 0.01.
    pose proof (nn_bound (snd dbc_row0) h (dbc_rows_in _ dbc_in0) B) as K.
    assert (Q1 : Q2R (reach_hi (snd dbc_row0)) <= Q2R (64#1000)%Q) by (apply Qleb_R; vm_compute; reflexivity).
    assert (Q2 : Q2R (-427#100)%Q <= Q2R (reach_lo (snd dbc_row0))) by (apply Qleb_R; vm_compute; reflexivity).
    qlit_in Q1. qlit_in Q2.
    pose proof (Rpower10_le (-4.27) (nn_output (snd dbc_row0) h) ltac:(lra)) as R1. pose proof (Rpower10_le (nn_output (snd dbc_row0) h) 0.064 ltac:(lra)) as R2.
    set (z := Rpower 10 (nn_output _ _)) in *. clearbody z.
    assert (5.2/10^5 <= Rpower 10 (-4.27)) by (clear; unfold Rpower; interval with (i_prec 40)).
    assert (Rpower 10 0.064 <= 1.16) by (clear; unfold Rpower; interval with (i_prec 40)). lra.
  - assert (S : forall ic, In ic dbc_rows -> exists x, dbc14_ln_std (snd ic) = Fin x /\ 0.68 <= x <= 0.88).
    { intros ic Hi. pose proof (dbc_rows_in _ Hi) as Hc. unfold dbc14_ln_std, qf. rewrite fpowf_fin by lra.
      rewrite flog_fin by apply exp_pos. rewrite ln_Rpower10. eexists; split; [reflexivity|].
      row_ge Hc (298#1000)%Q (fun c => dbc14_sd_total c) as S1. row_upto Hc (fun c => dbc14_sd_total c) (378#1000)%Q as S2.
      set (z := Q2R _) in *. clearbody z. clear -S1 S2. interval with (i_prec 40). }
    split; [apply Forall_map_intro; intros ic Hi; apply S, dbc_incl, Hi|]. split; apply S; [exact dbc_in1|exact dbc_in0].
Qed.
