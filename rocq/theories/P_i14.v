(** * Proofs for Idriss (2014) *)
From Coquelicot Require Import Coquelicot.
From Interval Require Import Tactic.
From Coq Require Import List.
From Verif Require Import M_i14 FrameworkProofs Anal.
Open Scope R_scope.
Open Scope string_scope.
Open Scope list_scope.

Definition i14_inst (m r v : R) (mech : string) : gmm :=
  GMM i14_class (Scen [("dist_rup", PNum (Fin r)); ("mag", PNum (Fin m)); ("v_s30", PNum (Fin v)); ("mechanism", PStr mech)] [])
    (map (fun c => i14_ln_resp c (Fin m) (Fin r) (Fin v) (is_str (PStr mech) "RS")) (i14_table (Fin m)))
    (Some (map (fun t => i14_ln_std t (Fin m)) (gc_periods i14_class))).

Lemma i14_construct src m r v mech : has_num src "mag" m -> has_num src "dist_rup" r -> has_num src "v_s30" v ->
  has_str src "mechanism" mech ->
  result (i14 src) = Ok (i14_inst m r v (if orb (String.eqb mech "SS") (String.eqb mech "RS") then mech else "SS")).
Proof.
  intros Hm Hr Hv Hs. unfold i14. construct i14_class.
  replace (if pyin (PStr mech) _ then _ else _)
    with (PStr (if orb (String.eqb mech "SS") (String.eqb mech "RS") then mech else "SS")).
  2:{ cbn. destruct (String.eqb mech "SS") eqn:E1, (String.eqb mech "RS") eqn:E2; reflexivity. }
  read_nums. reflexivity.
Qed.

(** Scenario description used in the statements. *)
Definition i14_scenario (src : dict) (m r v : R) (mech : string) : Prop :=
  has_num src "mag" m /\ has_num src "dist_rup" r /\ has_num src "v_s30" v /\ has_str src "mechanism" mech.

Lemma i14_construct' src m r v mech : i14_scenario src m r v mech -> mech = "SS" \/ mech = "RS" ->
  result (i14 src) = Ok (i14_inst m r v mech).
Proof.
  intros (Hm & Hr & Hv & Hs) H. rewrite (i14_construct src m r v mech Hm Hr Hv Hs).
  destruct H as [-> | ->]; reflexivity.
Qed.

Lemma i14_len m : List.length (i14_table m) = 22%nat.
Proof. unfold i14_table. destruct (m <=? $6.75)%flt; reflexivity. Qed.
Lemma i14_take m : take_idx (i14_table m) (gc_psa i14_class) = Some (i14_table m).
Proof. unfold i14_table. destruct (m <=? $6.75)%flt; reflexivity. Qed.

Lemma i14_spec m r v mech :
  result (g_spec_accels (i14_inst m r v mech)) =
  Ok (map (fun c => fexp (i14_ln_resp c (Fin m) (Fin r) (Fin v) (is_str (PStr mech) "RS"))) (i14_table (Fin m))).
Proof. apply (spec_accels_map i14_class _ (fun c => i14_ln_resp c _ _ _ _)). apply i14_take. Qed.
Lemma i14_stds m r v mech :
  result (g_ln_stds (i14_inst m r v mech)) = Ok (map (fun t => i14_ln_std t (Fin m)) (gc_periods i14_class)).
Proof. apply ln_stds_map. reflexivity. Qed.

Section Row.
  Variable c : i14_row.
  Definition i14_val (m r v : R) (rs : bool) : R :=
    Q2R (i14_alpha_1 c) + Q2R (i14_alpha_2 c) * m + Q2R (i14_alpha_3 c) * ((8.5 - m) * (8.5 - m))
    - (Q2R (i14_beta_1 c) + Q2R (i14_beta_2 c) * m) * ln (r + 10) + Q2R (i14_gamma c) * r
    + Q2R (i14_epsilon c) * ln v + Q2R (i14_phi c) * (if rs then 1 else 0).
  Lemma i14_row_fin m r v rs : -10 < r -> 0 < v ->
    i14_ln_resp c (Fin m) (Fin r) (Fin v) rs = Fin (i14_val m r v rs).
  Proof.
    intros Hr Hv. unfold i14_ln_resp, i14_val. fin_with lra. destruct rs; fcbn; f_equal; ring.
  Qed.
End Row.

Lemma i14_in m c : In c (i14_table (Fin m)) -> In c (i14_small_coeff ++ i14_large_coeff).
Proof. unfold i14_table; intros H. apply in_or_app. destruct (_ <=? _)%flt; auto. Qed.

(** Positivity and finiteness *)
Lemma i14_positive src m r v mech : i14_scenario src m r v mech -> 0 <= r -> 0 < v ->
  exists g sa sd p, result (i14 src) = Ok g /\
    result (g_spec_accels g) = Ok sa /\ List.length sa = 22%nat /\ Forall fpos sa /\
    result (g_pga g) = Ok p /\ fpos p /\ nth_error sa 0 = Some p /\
    result (g_ln_stds g) = Ok sd /\ List.length sd = 22%nat /\ Forall fpos sd.
Proof.
  intros (Hm & Hr & Hv & Hs) Hr0 Hv0.
  set (mm := if orb (String.eqb mech "SS") (String.eqb mech "RS") then mech else "SS").
  exists (i14_inst m r v mm). do 3 eexists.
  split; [apply i14_construct; assumption|].
  split; [apply i14_spec|]. split; [rewrite map_length; apply i14_len|].
  split; [apply Forall_map_intro; intros c Hc; rewrite i14_row_fin by lra; apply fpos_exp, finite_fin|].
  split.
  { apply (pga_map i14_class _ (fun c => i14_ln_resp c _ _ _ _)) with (i := 0%Z); [reflexivity|].
    instantiate (1 := hd (Mk_i14_row 0 0 0 0 0 0 0 0 0) (i14_table (Fin m))).
    unfold i14_table. destruct (_ <=? _)%flt; reflexivity. }
  split; [rewrite i14_row_fin by lra; apply fpos_exp, finite_fin|].
  split; [unfold i14_table; destruct (_ <=? _)%flt; reflexivity|].
  split; [apply i14_stds|]. split; [reflexivity|].
  apply Forall_map_intro. intros t Ht. unfold gc_periods, i14_class in Ht.
  apply in_map_iff in Ht. destruct Ht as (c & <- & Hc). unfold i14_ln_std, qf. rewrite !fclip_fin.
  set (x := Rmin (Rmax _ 0.05) 3.0). assert (Hx : 0.05 <= x <= 3).
  { unfold x. split; [apply Rmin_glb; [apply Rmax_r|lra] | eapply Rle_trans; [apply Rmin_r|lra]]. }
  rewrite flog_fin by lra. fcbn. eexists; split; [reflexivity|].
  set (y := Rmin (Rmax m 5.0) 7.5). assert (y <= 7.5) by apply Rmin_r.
  assert (-3.1 < ln x). { apply Rlt_le_trans with (ln 0.05); [interval|apply ln_le_mono; lra]. }
  lra.
Qed.

Lemma i14_sigma_mag src1 src2 m1 m2 r v mech : i14_scenario src1 m1 r v mech -> i14_scenario src2 m2 r v mech ->
  m1 <= m2 ->
  exists g1 g2 sd1 sd2, result (i14 src1) = Ok g1 /\ result (i14 src2) = Ok g2 /\
    result (g_ln_stds g1) = Ok sd1 /\ result (g_ln_stds g2) = Ok sd2 /\ Forall2 flt_le sd2 sd1.
Proof.
  intros (A1 & A2 & A3 & A4) (B1 & B2 & B3 & B4) H.
  eexists _, _, _, _. split; [eapply i14_construct; eassumption|]. split; [eapply i14_construct; eassumption|].
  split; [apply i14_stds|]. split; [apply i14_stds|].
  apply Forall2_map_intro. intros t Ht. unfold gc_periods, i14_class in Ht.
  apply in_map_iff in Ht. destruct Ht as (c & <- & Hc). unfold i14_ln_std, qf. rewrite !fclip_fin.
  set (x := Rmin (Rmax _ 0.05) 3.0). assert (Hx : 0.05 <= x <= 3).
  { unfold x. split; [apply Rmin_glb; [apply Rmax_r|lra] | eapply Rle_trans; [apply Rmin_r|lra]]. }
  rewrite flog_fin by lra. fcbn. apply flt_le_fin.
  assert (Rmin (Rmax m1 5.0) 7.5 <= Rmin (Rmax m2 5.0) 7.5).
  { apply Rle_min_compat_r, Rle_max_compat_r, H. }
  lra.
Qed.

Ltac i14_two H1 H2 :=
  eexists _, _, _, _; split; [eapply i14_construct'; [exact H1|assumption]|];
  split; [eapply i14_construct'; [exact H2|assumption]|];
  split; [apply i14_spec|]; split; [apply i14_spec|].

Lemma i14_decr_dist src1 src2 m r1 r2 v mech : i14_scenario src1 m r1 v mech -> i14_scenario src2 m r2 v mech ->
  mech = "SS" \/ mech = "RS" -> 0 <= m <= 9 -> 0 < v -> 0 <= r1 -> r1 < r2 ->
  exists g1 g2 sa1 sa2, result (i14 src1) = Ok g1 /\ result (i14 src2) = Ok g2 /\
    result (g_spec_accels g1) = Ok sa1 /\ result (g_spec_accels g2) = Ok sa2 /\ Forall2 flt_lt sa2 sa1.
Proof.
  intros S1 S2 Hmech Hm Hv H1 H12. i14_two S1 S2.
  apply Forall2_map_intro. intros c Hc. apply flt_lt_exp. rewrite !i14_row_fin by lra. apply flt_lt_fin.
  apply i14_in in Hc.
  row_lt Hc (fun c => - i14_beta_1 c - i14_beta_2 c * (0#1))%Q (fun _ : i14_row => 0 # 1) as A1.
  row_lt Hc (fun c => - i14_beta_1 c - i14_beta_2 c * (9#1))%Q (fun _ : i14_row => 0 # 1) as A2.
  row_lt Hc (fun c => i14_gamma c) (fun _ : i14_row => 0 # 1) as A3.
  pose proof (lin_neg (- Q2R (i14_beta_1 c)) (- Q2R (i14_beta_2 c)) 0 9 m ltac:(lra) ltac:(lra) ltac:(lra) Hm) as A.
  assert (ln (r1 + 10) < ln (r2 + 10)) by (apply ln_increasing; lra). unfold i14_val. nra.
Qed.

Lemma i14_decr_vs src1 src2 m r v1 v2 mech : i14_scenario src1 m r v1 mech -> i14_scenario src2 m r v2 mech ->
  mech = "SS" \/ mech = "RS" -> 0 <= r -> 0 < v1 -> v1 < v2 ->
  exists g1 g2 sa1 sa2, result (i14 src1) = Ok g1 /\ result (i14 src2) = Ok g2 /\
    result (g_spec_accels g1) = Ok sa1 /\ result (g_spec_accels g2) = Ok sa2 /\ Forall2 flt_lt sa2 sa1.
Proof.
  intros S1 S2 Hmech Hr H1 H12. i14_two S1 S2.
  apply Forall2_map_intro. intros c Hc. apply flt_lt_exp. rewrite !i14_row_fin by lra. apply flt_lt_fin.
  apply i14_in in Hc.
  row_lt Hc (fun c => i14_epsilon c) (fun _ : i14_row => 0 # 1) as A3.
  assert (ln v1 < ln v2) by (apply ln_increasing; lra). unfold i14_val. nra.
Qed.

Lemma i14_mech src1 src2 m r v : i14_scenario src1 m r v "SS" -> i14_scenario src2 m r v "RS" ->
  0 <= r -> 0 < v ->
  exists g1 g2 sa1 sa2, result (i14 src1) = Ok g1 /\ result (i14 src2) = Ok g2 /\
    result (g_spec_accels g1) = Ok sa1 /\ result (g_spec_accels g2) = Ok sa2 /\ Forall2 flt_le sa1 sa2.
Proof.
  intros S1 S2 Hr Hv.
  eexists _, _, _, _; split; [eapply i14_construct'; [exact S1|auto]|].
  split; [eapply i14_construct'; [exact S2|auto]|].
  split; [apply i14_spec|]; split; [apply i14_spec|].
  apply Forall2_map_intro. intros c Hc. apply flt_le_exp. rewrite !i14_row_fin by lra. apply flt_le_fin.
  apply i14_in in Hc.
  row_le Hc (fun _ : i14_row => 0 # 1) (fun c => i14_phi c) as A3.
  unfold i14_val. cbn [is_str pyeq]. change (String.eqb "SS" "RS") with false. change (String.eqb "RS" "RS") with true.
  cbv iota. lra.
Qed.

Lemma i14_incr_mag src1 src2 m1 m2 r v mech : i14_scenario src1 m1 r v mech -> i14_scenario src2 m2 r v mech ->
  mech = "SS" \/ mech = "RS" -> 0 <= r -> 0 < v ->
  m1 < m2 -> (4 <= m1 /\ m2 <= 6.75) \/ (6.75 < m1 /\ m2 <= 9) ->
  exists g1 g2 sa1 sa2, result (i14 src1) = Ok g1 /\ result (i14 src2) = Ok g2 /\
    result (g_spec_accels g1) = Ok sa1 /\ result (g_spec_accels g2) = Ok sa2 /\ Forall2 flt_lt sa1 sa2.
Proof.
  intros S1 S2 Hmech Hr Hv H12 Hreg. i14_two S1 S2.
  assert (Hl : ln 10 <= ln (r + 10)) by (apply ln_le_mono; lra).
  assert (Hl2 : 2.3 < ln 10) by interval.
  assert (T : i14_table (Fin m1) = i14_table (Fin m2)).
  { unfold i14_table; fcbn. destruct Hreg; [rewrite !Rleb_true by lra|rewrite !Rleb_false by lra]; reflexivity. }
  rewrite T. apply Forall2_map_intro. intros c Hc. apply flt_lt_exp. rewrite !i14_row_fin by lra. apply flt_lt_fin.
  assert (D : i14_val c m2 r v (is_str (PStr mech) "RS") - i14_val c m1 r v (is_str (PStr mech) "RS") =
     (m2 - m1) * (Q2R (i14_alpha_2 c) - Q2R (i14_alpha_3 c) * (17 - (m1 + m2)) - Q2R (i14_beta_2 c) * ln (r + 10)))
    by (unfold i14_val; destruct (is_str (PStr mech) "RS"); lra).
  assert (B : 0 < Q2R (i14_alpha_2 c) - Q2R (i14_alpha_3 c) * (17 - (m1 + m2)) - Q2R (i14_beta_2 c) * ln (r + 10)).
  { assert (Hb : Q2R (i14_beta_2 c) < 0).
    { apply i14_in in Hc. row_lt Hc (fun c => i14_beta_2 c) (fun _ : i14_row => 0 # 1) as A3. lra. }
    assert (C : 0 < (Q2R (i14_alpha_2 c) - 17 * Q2R (i14_alpha_3 c) - 2.3 * Q2R (i14_beta_2 c)) + Q2R (i14_alpha_3 c) * (m1 + m2)).
    { destruct Hreg as [[Ha Hb']|[Ha Hb']]; unfold i14_table in Hc; cbn [fleb] in Hc;
        [rewrite Rleb_true in Hc by lra | rewrite Rleb_false in Hc by lra].
      - row_lt Hc (fun _ : i14_row => 0 # 1) (fun c => i14_alpha_2 c - (17#1) * i14_alpha_3 c - (23#10) * i14_beta_2 c + i14_alpha_3 c * (8#1))%Q as A1.
        row_lt Hc (fun _ : i14_row => 0 # 1) (fun c => i14_alpha_2 c - (17#1) * i14_alpha_3 c - (23#10) * i14_beta_2 c + i14_alpha_3 c * (135#10))%Q as A2.
        apply (lin_pos _ _ 8 13.5); lra.
      - row_lt Hc (fun _ : i14_row => 0 # 1) (fun c => i14_alpha_2 c - (17#1) * i14_alpha_3 c - (23#10) * i14_beta_2 c + i14_alpha_3 c * (135#10))%Q as A1.
        row_lt Hc (fun _ : i14_row => 0 # 1) (fun c => i14_alpha_2 c - (17#1) * i14_alpha_3 c - (23#10) * i14_beta_2 c + i14_alpha_3 c * (18#1))%Q as A2.
        apply (lin_pos _ _ 13.5 18); lra. }
    nra. }
  nra.
Qed.

(** The two magnitude branches at 6.75. *)
Lemma i14_branches i cs cl r v rs : nth_error i14_small_coeff i = Some cs -> nth_error i14_large_coeff i = Some cl ->
  0 <= r <= 150 -> 0 < v ->
  Rabs (i14_val cl 6.75 r v rs - i14_val cs 6.75 r v rs) <= 0.001.
Proof.
  intros Hs Hl Hr Hv.
  assert (L : 2.3 <= ln (r + 10) <= 5.1).
  { split; [apply Rle_trans with (ln 10)|apply Rle_trans with (ln 160)]; try (apply ln_le_mono; lra); interval. }
  set (l := ln (r + 10)) in *.
  do 22 (destruct i as [|i];
    [cbn in Hs, Hl; injection Hs as <-; injection Hl as <-; unfold i14_val; fold l;
     cbn [i14_alpha_1 i14_alpha_2 i14_alpha_3 i14_beta_1 i14_beta_2 i14_gamma i14_epsilon i14_phi]; qlit;
     apply Rabs_le; destruct rs; split; lra|]).
  destruct i; discriminate.
Qed.

Lemma i14_slope c m r v rs : In c i14_large_coeff -> 6.75 <= m <= 7 -> 0 <= r <= 150 ->
  Rabs (i14_val c m r v rs - i14_val c 6.75 r v rs) <= 4 * (m - 6.75).
Proof.
  intros Hin Hm Hr.
  assert (L : 2.3 <= ln (r + 10) <= 5.1).
  { split; [apply Rle_trans with (ln 10)|apply Rle_trans with (ln 160)]; try (apply ln_le_mono; lra); interval. }
  assert (D : i14_val c m r v rs - i14_val c 6.75 r v rs =
     (m - 6.75) * (Q2R (i14_alpha_2 c) - Q2R (i14_alpha_3 c) * (10.25 - m) - Q2R (i14_beta_2 c) * ln (r + 10)))
    by (unfold i14_val; destruct rs; lra).
  set (l := ln (r + 10)) in *.
  assert (B : Rabs (Q2R (i14_alpha_2 c) - Q2R (i14_alpha_3 c) * (10.25 - m) - Q2R (i14_beta_2 c) * l) <= 4).
  { clear D. repeat (destruct Hin as [<-|Hin];
     [cbn [i14_alpha_2 i14_alpha_3 i14_beta_2]; qlit; apply Rabs_le; split; lra|]). destruct Hin. }
  rewrite D, Rabs_mult, (Rabs_pos_eq (m - 6.75)) by lra. rewrite Rmult_comm. apply Rmult_le_compat_r; lra.
Qed.

Lemma Forall2_nth_intro {A B} (R : A -> B -> Prop) : forall (l : list A) (l' : list B),
  List.length l = List.length l' ->
  (forall i a b, nth_error l i = Some a -> nth_error l' i = Some b -> R a b) -> Forall2 R l l'.
Proof.
  induction l as [|x l IH]; intros [|y l'] HL H; try discriminate; constructor.
  - apply (H 0%nat); reflexivity.
  - apply IH; [injection HL; auto|]. intros i a b Ha Hb. apply (H (S i)); assumption.
Qed.

Lemma i14_join src1 src2 m2 r v mech : i14_scenario src1 6.75 r v mech -> i14_scenario src2 m2 r v mech ->
  mech = "SS" \/ mech = "RS" -> 6.75 < m2 <= 7 -> 0 <= r <= 150 -> 0 < v ->
  exists g1 g2 sa1 sa2, result (i14 src1) = Ok g1 /\ result (i14 src2) = Ok g2 /\
    result (g_spec_accels g1) = Ok sa1 /\ result (g_spec_accels g2) = Ok sa2 /\
    Forall2 (ln_close (0.001 + 4 * (m2 - 6.75))) sa1 sa2.
Proof.
  intros S1 S2 Hmech Hm Hr Hv. i14_two S1 S2.
  apply Forall2_nth_intro; [rewrite !map_length, !i14_len; reflexivity|].
  intros i a b Ha Hb.
  unfold i14_table in Ha, Hb; cbn [fleb] in Ha, Hb.
  rewrite Rleb_true in Ha by lra. rewrite Rleb_false in Hb by lra.
  rewrite nth_error_map in Ha, Hb.
  destruct (nth_error i14_small_coeff i) as [cs|] eqn:E1; [|discriminate].
  destruct (nth_error i14_large_coeff i) as [cl|] eqn:E2; [|discriminate].
  cbn [option_map] in Ha, Hb. injection Ha as <-. injection Hb as <-.
  rewrite !i14_row_fin by lra. apply ln_close_exp.
  set (rs := String.eqb mech "RS").
  pose proof (i14_branches i cs cl r v rs E1 E2 Hr Hv) as J.
  pose proof (i14_slope cl m2 r v rs (nth_error_In _ _ E2) ltac:(lra) Hr) as K.
  replace (i14_val cl m2 r v rs - i14_val cs 6.75 r v rs) with
    ((i14_val cl 6.75 r v rs - i14_val cs 6.75 r v rs) + (i14_val cl m2 r v rs - i14_val cl 6.75 r v rs)) by ring.
  eapply Rle_trans; [apply Rabs_triang|]. apply Rplus_le_compat; [exact J|exact K].
Qed.
