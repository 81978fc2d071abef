(** * Properties of the conditional spectra (baker_jayaram_2008.py, kishida_2017.py)

    The vocabulary of the statements is in Spec_cms.v and Spec_k17.v. *)
From Coquelicot Require Import Coquelicot.
From Interval Require Import Tactic.
From Coq Require Import List.
From Verif Require Import M_k17 Anal Cont1 Spec_cms Spec_k17 P_bj08 P_k17 P_k17b.
Open Scope R_scope.
Open Scope list_scope.

(** ** C47: correlations *)
Theorem C47_published : forall periods tc, Forall (fun t => bj_ok t tc) periods ->
  bj08_correls (map Fin periods) (Fin tc) = map (fun t => Fin (bj_rho t tc)) periods.
Proof.
  intros periods tc H. unfold bj08_correls. rewrite map_map. apply map_ext_in. intros t Ht. rewrite Forall_forall in H. apply bj_correl_fin, H, Ht.
Qed.
Print Assumptions C47_published.
Theorem C47_symmetric : forall x y : flt, bj08_correls [x] y = bj08_correls [y] x.
Proof. intros. unfold bj08_correls. cbn [map]. rewrite bj_correl_sym. reflexivity. Qed.
Print Assumptions C47_symmetric.
Theorem C47_one_on_the_diagonal : forall t, 0 <= t -> t <> 0.0099 -> bj08_correls [Fin t] (Fin t) = [Fin 1].
Proof.
  intros t H N. unfold bj08_correls. cbn [map]. rewrite bj_correl_fin, bj_rho_diag; [reflexivity|].
  split; [exact H|]. split; [exact H|]. rewrite Rmax_left by lra. exact N.
Qed.
Print Assumptions C47_one_on_the_diagonal.
Theorem C47_within_0_1 : forall periods tc, Forall (fun t => 0.01 <= t <= 500) periods -> 0.01 <= tc <= 500 ->
  Forall2 (fun y t => exists r, y = Fin r /\ 0 <= r <= 1 /\ (t <> tc -> r < 1)) (bj08_correls (map Fin periods) (Fin tc)) periods.
Proof.
  intros periods tc H T. unfold bj08_correls. rewrite map_map. induction H as [|t l Ht Hl IH]; cbn [map]; constructor; [|exact IH].
  assert (M : Rmax t tc <> 0.0099) by (unfold Rmax; destruct (Rle_dec t tc); lra).
  exists (bj_rho t tc). split; [apply bj_correl_fin; split; [|split]; lra || exact M|]. split; [apply bj_rho_range; lra || exact M|].
  intros N. apply rho_lt_one; lra.
Qed.
Print Assumptions C47_within_0_1.
Theorem C47_range_refuted_below_0_0099 : exists r, bj08_correls [Fin 0.005] (Fin 0.0098) = [Fin r] /\ 1 < r.
Proof.
  exists (bj_rho 0.005 0.0098). split; [|apply rho_above_one]. unfold bj08_correls; cbn [map]. rewrite bj_correl_fin; [reflexivity|].
  split; [lra|]. split; [lra|]. rewrite Rmax_right by lra. lra.
Qed.
Print Assumptions C47_range_refuted_below_0_0099.
Example C47_nonvacuous : Forall (fun t => 0.01 <= t <= 500) [0.01; 0.1; 0.15; 1; 10] /\ exists r, bj08_correls [Fin 0.1] (Fin 1) = [Fin r] /\ 0.2 < r < 0.3.
Proof.
  split; [repeat constructor; lra|]. exists (bj_rho 0.1 1). split.
  - unfold bj08_correls; cbn [map]. rewrite bj_correl_fin; [reflexivity|]. split; [lra|]. split; [lra|]. rewrite Rmax_right by lra. lra.
  - unfold bj_rho. rewrite Rmin_left, Rmax_right by lra. destruct (Rlt_dec 1 0.109); [lra|]. destruct (Rlt_dec 0.109 0.1); [lra|]. destruct (Rlt_dec 1 0.2); [lra|].
    unfold bj_c4, bj_c1. rewrite Rmax_right by lra. clear; split; interval with (i_prec 40).
Qed.

(** ** C85: correlations are continuous *)
Theorem C85_continuous : forall periods tc0, Forall (fun t => 0.0099 <= t <= 300) periods -> 0.0099 < tc0 < 300 ->
  vec_continuous num_close (fun tc l => l = bj08_correls (map Fin periods) (Fin tc)) tc0.
Proof.
  intros periods tc0 H T. rewrite Forall_forall in H.
  apply (vec_cont_num periods (fun tc t => bj_rho tc t) _ tc0 (Rmin (tc0 - 0.0099) (300 - tc0))).
  - apply Rmin_pos; lra.
  - intros x l Hx ->. unfold bj08_correls. rewrite map_map. apply map_ext_in. intros t Ht. specialize (H t Ht).
    assert (Rabs (x - tc0) < tc0 - 0.0099) by (eapply Rlt_le_trans; [exact Hx|apply Rmin_l]). apply Rabs_def2 in H0.
    rewrite bj_correl_fin, bj_rho_sym; [reflexivity|]. split; [lra|]. split; [lra|].
    unfold Rmax; destruct (Rle_dec t x); lra.
  - intros t Ht. apply bj_rho_continuous; [exact T|apply H, Ht].
Qed.
Print Assumptions C85_continuous.
Example C85_nonvacuous : exists delta, 0 < delta /\ forall tc, Rabs (tc - 0.109) < delta ->
  Forall2 (num_close 0.001) (bj08_correls (map Fin [0.02; 0.109; 0.2; 5]) (Fin 0.109)) (bj08_correls (map Fin [0.02; 0.109; 0.2; 5]) (Fin tc)).
Proof.
  destruct (C85_continuous [0.02; 0.109; 0.2; 5] 0.109) with (eps := 0.001) as (d & D & U); [repeat constructor; lra|lra|lra|].
  exists d. split; [exact D|]. intros tc H. apply (U tc); [exact H|reflexivity|reflexivity].
Qed.

(** ** C86: correlations decay with separation *)
Theorem C86_decays_to_longer_periods : forall tc t1 t2, 0 <= tc -> 0.2 <= t1 -> tc <= t1 -> t1 < t2 -> t2 <= 73 * Rmax tc 0.109 ->
  exists r1 r2, bj08_correls [Fin t1; Fin t2] (Fin tc) = [Fin r1; Fin r2] /\ r2 < r1.
Proof.
  intros tc t1 t2 H0 H1 H2 H3 H4. exists (bj_rho t1 tc), (bj_rho t2 tc). split; [|apply rho_longer; assumption].
  unfold bj08_correls; cbn [map]. rewrite !bj_correl_fin; [reflexivity| |]; (split; [lra|]; split; [lra|]; rewrite Rmax_left by lra; lra).
Qed.
Print Assumptions C86_decays_to_longer_periods.
Theorem C86_decays_to_shorter_periods : forall tc t1 t2, 0.109 < t1 -> t1 < t2 -> t2 <= tc -> tc <= 73 * t1 ->
  exists r1 r2, bj08_correls [Fin t1; Fin t2] (Fin tc) = [Fin r1; Fin r2] /\ r1 < r2.
Proof.
  intros tc t1 t2 H1 H2 H3 H4. exists (bj_rho t1 tc), (bj_rho t2 tc). split; [|apply rho_shorter; assumption].
  unfold bj08_correls; cbn [map]. rewrite !bj_correl_fin; [reflexivity| |]; (split; [lra|]; split; [lra|]; rewrite Rmax_right by lra; lra).
Qed.
Print Assumptions C86_decays_to_shorter_periods.
Theorem C86_refuted_for_wide_ratios : exists r1 r2, bj08_correls [Fin 9; Fin 10] (Fin 0.12) = [Fin r1; Fin r2] /\ r1 < r2.
Proof.
  exists (bj_rho 9 0.12), (bj_rho 10 0.12). split; [|apply rho_rises].
  unfold bj08_correls; cbn [map]. rewrite !bj_correl_fin; [reflexivity| |]; (split; [lra|]; split; [lra|]; rewrite Rmax_left by lra; lra).
Qed.
Print Assumptions C86_refuted_for_wide_ratios.
Example C86_nonvacuous : exists r1 r2, bj08_correls [Fin 1; Fin 7] (Fin 0.1) = [Fin r1; Fin r2] /\ r2 < r1.
Proof. apply C86_decays_to_longer_periods; try lra. rewrite Rmax_right by lra. lra. Qed.

(** ** C48: the conditional mean spectrum *)
Theorem C48_published : forall l tc target, l <> [] -> spectrum_ok l -> 0.01 <= tc <= 300 ->
  exists mc sc, linear_at o_t o_m l tc mc /\ linear_at o_t o_s l tc sc /\
    (sc <> 0 -> bj08_cms (col o_t l) (col o_m l) (col o_s l) (Fin tc) (Fin target) =
       Ok (map (fun c => Fin (o_m c + o_s c * bj_rho (o_t c) tc * ((target - mc) / sc))) l,
           map (fun c => Fin (o_s c * sqrt (1 - bj_rho (o_t c) tc ^ 2))) l)).
Proof. exact cms_published. Qed.
Print Assumptions C48_published.
Theorem C48_target_reproduced : forall l tc target j c, increasing (map o_t l) -> nth_error l j = Some c -> o_t c = tc -> 0 <= tc -> tc <> 0.0099 -> o_s c <> 0 ->
  exists means stds, bj08_cms (col o_t l) (col o_m l) (col o_s l) (Fin tc) (Fin target) = Ok (means, stds) /\
    nth_error means j = Some (Fin target) /\ nth_error stds j = Some (Fin 0).
Proof. exact cms_target. Qed.
Print Assumptions C48_target_reproduced.
Theorem C48_std_never_larger : forall l tc target means stds, spectrum_ok l -> 0.01 <= tc <= 300 ->
  bj08_cms (col o_t l) (col o_m l) (col o_s l) (Fin tc) (Fin target) = Ok (means, stds) ->
  Forall2 (fun y c => exists x, y = Fin x /\ 0 <= x <= o_s c) stds l.
Proof. exact cms_reduces. Qed.
Print Assumptions C48_std_never_larger.
Theorem C48_shape_errors : forall ps ms ss tc target, ps = [] \/ List.length ms <> List.length ps \/ List.length ss <> List.length ps ->
  bj08_cms ps ms ss tc target = Raise EValue.
Proof. exact cms_shape. Qed.
Print Assumptions C48_shape_errors.
Definition ex_spec : list ordinate := [Ord 0.05 (-1) 0.6; Ord 0.2 0 0.65; Ord 1 (-0.5) 0.7].
Lemma ex_spec_ok : spectrum_ok ex_spec. Proof. split; [cbn; lra|repeat constructor; cbn; lra]. Qed.
Example C48_nonvacuous : exists means stds, bj08_cms (col o_t ex_spec) (col o_m ex_spec) (col o_s ex_spec) (Fin 0.2) (Fin 1.3) = Ok (means, stds) /\
  nth_error means 1 = Some (Fin 1.3) /\ nth_error stds 1 = Some (Fin 0).
Proof. apply (C48_target_reproduced ex_spec 0.2 1.3 1%nat (Ord 0.2 0 0.65)); cbn; try lra; reflexivity. Qed.

(** ** C87: how the conditional mean responds to the target *)
(** Raising the target never lowers the spectrum anywhere; a target on the spectrum gives the spectrum back. *)
Theorem C87_unchanged_at_the_median : forall l tc j c, spectrum_ok l -> nth_error l j = Some c -> o_t c = tc -> o_s c <> 0 ->
  exists stds, bj08_cms (col o_t l) (col o_m l) (col o_s l) (Fin tc) (Fin (o_m c)) = Ok (col o_m l, stds).
Proof. exact cms_at_median. Qed.
Print Assumptions C87_unchanged_at_the_median.
Theorem C87_monotone_in_the_target : forall l tc t1 t2 m1 s1 m2 s2, spectrum_ok l -> Forall (fun c => 0 < o_s c) l -> 0.01 <= tc <= 300 -> t1 <= t2 ->
  bj08_cms (col o_t l) (col o_m l) (col o_s l) (Fin tc) (Fin t1) = Ok (m1, s1) ->
  bj08_cms (col o_t l) (col o_m l) (col o_s l) (Fin tc) (Fin t2) = Ok (m2, s2) ->
  Forall2 (fun a b => exists x y, a = Fin x /\ b = Fin y /\ 0 <= y - x) m1 m2 /\ s1 = s2.
Proof. exact cms_monotone. Qed.
Print Assumptions C87_monotone_in_the_target.
Example C87_nonvacuous : spectrum_ok ex_spec /\ Forall (fun c => 0 < o_s c) ex_spec /\
  exists stds, bj08_cms (col o_t ex_spec) (col o_m ex_spec) (col o_s ex_spec) (Fin 1) (Fin (-0.5)) = Ok (col o_m ex_spec, stds).
Proof.
  split; [apply ex_spec_ok|]. split; [repeat constructor; cbn; lra|].
  apply (C87_unchanged_at_the_median ex_spec 1 2%nat (Ord 1 (-0.5) 0.7) ex_spec_ok); try reflexivity. cbn; lra.
Qed.

(** ** C49: several conditioning periods *)
Theorem C49_targets_reproduced : forall inv l data j x t, inv_spec inv -> spectrum_ok (map fst l) -> data_of data l ->
  nth_error l j = Some x -> snd x = Some t ->
  kcall inv l data = Raise EValue \/
  exists means stds, kcall inv l data = Ok (means, stds) /\ nth_error means j = Some (Fin t) /\ nth_error stds j = Some (Fin 0).
Proof. exact k17_targets. Qed.
Print Assumptions C49_targets_reproduced.
Theorem C49_lengths : forall inv l data means stds, inv_spec inv -> l <> [] -> spectrum_ok (map fst l) -> data_of data l ->
  kcall inv l data = Ok (means, stds) -> List.length means = List.length l /\ List.length stds = List.length l.
Proof. exact k17_shapes. Qed.
Print Assumptions C49_lengths.
Theorem C49_one_condition_is_baker_jayaram : forall inv l data k t, inv_spec inv -> spectrum_ok (map fst l) -> data_of data l ->
  conditioned l = [k] -> snd k = Some t -> o_s (fst k) <> 0 ->
  kcall inv l data = bj08_cms (map it l) (map im l) (map is_ l) (it k) (Fin t).
Proof. exact k17_single. Qed.
Print Assumptions C49_one_condition_is_baker_jayaram.
Theorem C49_no_condition_changes_nothing : forall inv l data, inv_spec inv -> l <> [] -> spectrum_ok (map fst l) -> data_of data l -> conditioned l = [] ->
  kcall inv l data = Ok (map im l, map is_ l).
Proof. exact k17_none. Qed.
Print Assumptions C49_no_condition_changes_nothing.
Theorem C49_two_conditions_succeed : forall inv l data y z, inv_spec inv -> spectrum_ok (map fst l) -> data_of data l ->
  conditioned l = [y; z] -> 0 < o_s (fst y) -> 0 < o_s (fst z) -> exists means stds, kcall inv l data = Ok (means, stds).
Proof.
  intros inv l data y z HI OK D C Hy Hz. assert (N : l <> []) by (intros ->; discriminate C).
  destruct (k17_characterised inv l data HI N OK D) as [[_ S]|(m & s & E & _)]; [|exists m, s; exact E].
  exfalso. exact (two_not_singular l y z OK C Hy Hz S).
Qed.
Print Assumptions C49_two_conditions_succeed.
Theorem C49_periods_must_increase : forall inv (l : list item) ms ss data mask, ~ increasing (map o_t (map fst l)) ->
  k17_cmsv inv (map it l) ms ss data mask = Raise EValue.
Proof. exact k17_not_increasing. Qed.
Print Assumptions C49_periods_must_increase.
Theorem C49_no_mask_raises : forall inv ps ms ss data, exists e, k17_cmsv inv ps ms ss data None = Raise e.
Proof. exact k17_no_mask. Qed.
Print Assumptions C49_no_mask_raises.
Definition ex_items : list item := [(Ord 0.05 (-1) 0.6, None); (Ord 0.2 0 0.65, Some 1.3); (Ord 1 (-0.5) 0.7, None); (Ord 3 (-2) 0.8, Some (-1))].
Definition ex_data : list flt := [NaN; Fin 1.3; Fin 99; Fin (-1)].
Lemma ex_items_ok : spectrum_ok (map fst ex_items) /\ data_of ex_data ex_items.
Proof. split; [split; [cbn; lra|repeat constructor; cbn; lra]|repeat constructor]. Qed.
Example C49_nonvacuous : exists inv, inv_spec inv /\ exists means stds, kcall inv ex_items ex_data = Ok (means, stds) /\
  nth_error means 1 = Some (Fin 1.3) /\ nth_error stds 1 = Some (Fin 0) /\ nth_error means 3 = Some (Fin (-1)) /\ nth_error stds 3 = Some (Fin 0).
Proof.
  destruct inv_exists as [inv I]. exists inv. split; [exact I|]. destruct ex_items_ok as [OK D].
  destruct (C49_two_conditions_succeed inv ex_items ex_data _ _ I OK D eq_refl) as (m & s & E); [cbn; lra|cbn; lra|].
  exists m, s. split; [exact E|].
  destruct (C49_targets_reproduced inv ex_items ex_data 1 _ _ I OK D eq_refl eq_refl) as [H|(m1 & s1 & E1 & A & B)]; [congruence|].
  destruct (C49_targets_reproduced inv ex_items ex_data 3 _ _ I OK D eq_refl eq_refl) as [H|(m3 & s3 & E3 & A3 & B3)]; [congruence|].
  assert (X : (m1, s1) = (m, s)) by congruence. injection X as -> ->. assert (X : (m3, s3) = (m, s)) by congruence. injection X as -> ->. auto.
Qed.

(** ** C88: the result is the conditional distribution *)
Theorem C88_conditional_normal : forall inv l data, inv_spec inv -> l <> [] -> spectrum_ok (map fst l) -> data_of data l ->
  (kcall inv l data = Raise EValue /\ singular l) \/
  (exists means stds, kcall inv l data = Ok (means, stds) /\ ~ singular l /\
    (exists w, solves l w resid) /\
    (forall w, solves l w resid -> means = map (fun x => Fin (o_m (fst x) + combo l w x)) l) /\
    Forall2 (fun y x => (exists v, solves l v (fun z => cov z x)) /\
                        (forall v, solves l v (fun z => cov z x) -> y = fsqrt (Fin (cov x x - combo l v x)))) stds l).
Proof. exact k17_characterised. Qed.
Print Assumptions C88_conditional_normal.
Theorem C88_implied_conditions_change_nothing : forall inv l ms l' data data' stds means' stds', inv_spec inv -> spectrum_ok (map fst l) ->
  data_of data l -> data_of data' l' ->
  kcall inv l data = Ok (map Fin ms, stds) -> adds_implied l ms l' -> kcall inv l' data' = Ok (means', stds') -> means' = map Fin ms.
Proof. exact k17_implied. Qed.
Print Assumptions C88_implied_conditions_change_nothing.
Example C88_nonvacuous : exists inv, inv_spec inv /\ exists means stds w, kcall inv ex_items ex_data = Ok (means, stds) /\
  solves ex_items w resid /\ means = map (fun x => Fin (o_m (fst x) + combo ex_items w x)) ex_items.
Proof.
  destruct C49_nonvacuous as (inv & I & m & s & E & _). exists inv. split; [exact I|]. destruct ex_items_ok as [OK D].
  destruct (C88_conditional_normal inv ex_items ex_data I ltac:(discriminate) OK D) as [[H _]|(m' & s' & E' & _ & (w & W) & M & _)]; [congruence|].
  exists m', s', w. split; [exact E'|]. split; [exact W|]. apply M, W.
Qed.
