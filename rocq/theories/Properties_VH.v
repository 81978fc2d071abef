(** * Gulerce & Abrahamson (2011) V/H ratios: properties C39, C40, C74-C76 *)
From Coq Require Import List.
From Verif Require Import M_ga11 Nga Cont1 Spec_ga11 P_ga11.
Open Scope R_scope.
Open Scope string_scope.
Open Scope list_scope.

Definition ex_vh : vh := Vh 20 6.75 560 0.3 "RS".
Definition ex_vh_src : dict := [("dist_rup", PNum (Fin 20)); ("mag", PNum (Fin 6.75)); ("v_s30", PNum (Fin 560)); ("mechanism", PStr "RS")].

(** ** C39: the reference PGA must be supplied *)
Theorem C39_reference_pga_always_needed : forall src, absent src "pga_ref" -> exists e, result (ga11 src) = Raise e.
Proof. exact ga11_no_pga. Qed.
Print Assumptions C39_reference_pga_always_needed.
Theorem C39_value_error : forall src r m v, absent src "pga_ref" ->
  gives_num src "dist_rup" r -> gives_num src "mag" m -> gives_num src "v_s30" v ->
  result (ga11 src) = Raise EValue.
Proof. exact ga11_no_pga_value. Qed.
Print Assumptions C39_value_error.
Example C39_nonvacuous : result (ga11 ex_vh_src) = Raise EValue.
Proof. apply (C39_value_error ex_vh_src (Some 20) (Some 6.75) (Some 560)); reflexivity. Qed.

(** ** C40: continuity in magnitude and velocity *)
Theorem C40_ratio_continuous_in_magnitude : forall a m0, 0 < h_v a -> 0 <= h_pga a ->
  vec_continuous ln_close (fun m l => exists src o, vh_gives src (vh_with_m a m) /\ result (ga11 src) = Ok o /\ l = ga11_ratio o) m0.
Proof. exact ga11_cont_mag. Qed.
Print Assumptions C40_ratio_continuous_in_magnitude.
Theorem C40_ratio_continuous_in_velocity : forall a v0, 0 < v0 -> 0 <= h_pga a ->
  vec_continuous ln_close (fun v l => exists src o, vh_gives src (vh_with_v a v) /\ result (ga11 src) = Ok o /\ l = ga11_ratio o) v0.
Proof. exact ga11_cont_vs. Qed.
Print Assumptions C40_ratio_continuous_in_velocity.
Theorem C40_sigma_continuous_in_magnitude : forall a m0,
  vec_continuous num_close (fun m l => exists src o, vh_gives src (vh_with_m a m) /\ result (ga11 src) = Ok o /\ l = ga11_ln_std o) m0.
Proof. exact ga11_cont_sigma. Qed.
Print Assumptions C40_sigma_continuous_in_magnitude.
Example C40_nonvacuous : forall m, exists src o, vh_gives src (vh_with_m ex_vh m) /\ result (ga11 src) = Ok o.
Proof. intros m. eexists _, _. split; [apply vh_src_gives|apply ga11_construct, vh_src_gives]. Qed.

(** ** C74: published ratio and standard deviation *)
Theorem C74_published : forall src a, vh_gives src a -> 0 < h_v a -> 0 <= h_pga a ->
  exists o, result (ga11 src) = Ok o /\
    ga11_ratio o = map (fun c => Fin (exp (vh_val a c))) ga11_coeff /\
    ga11_ln_std o = map (fun c => Fin (vh_sd c (h_mag a))) ga11_coeff.
Proof. exact ga11_published. Qed.
Print Assumptions C74_published.
Theorem C74_sigma_bounds : forall src a o, vh_gives src a -> result (ga11 src) = Ok o ->
  Forall (fun s => exists x, s = Fin x /\ 0.36 <= x <= 0.87) (ga11_ln_std o).
Proof. exact ga11_sigma_bounds. Qed.
Print Assumptions C74_sigma_bounds.
Theorem C74_larger_rock_pga : forall src1 src2 a p1 p2, vh_gives src1 (vh_with_p a p1) -> vh_gives src2 (vh_with_p a p2) ->
  0 < h_v a -> 0 <= p1 -> p1 <= p2 ->
  exists o1 o2, result (ga11 src1) = Ok o1 /\ result (ga11 src2) = Ok o2 /\ Forall2 flt_le (ga11_ratio o1) (ga11_ratio o2).
Proof. exact ga11_pga_effect. Qed.
Print Assumptions C74_larger_rock_pga.
Example C74_nonvacuous : exists o1 o2, result (ga11 (vh_src (vh_with_p ex_vh 0.1))) = Ok o1 /\
  result (ga11 (vh_src (vh_with_p ex_vh 0.4))) = Ok o2 /\ Forall2 flt_le (ga11_ratio o1) (ga11_ratio o2).
Proof. apply (C74_larger_rock_pga _ _ ex_vh 0.1 0.4); try apply vh_src_gives; cbn; lra. Qed.

(** ** C75: interpolated ratios *)
(** The spectral rows, periods 0.01 s to 10 s: all but the first two (PGA, PGV). *)
Theorem C75_exact_at_tabulated_periods : forall src a c, vh_gives src a -> 0 < h_v a -> 0 <= h_pga a -> In c (skipn 2 ga11_coeff) ->
  exists o, result (ga11 src) = Ok o /\
    result (ga11_interp_ratio o [qf (ga11_period c)]) = Ok [Fin (exp (vh_val a c))] /\
    result (ga11_interp_ln_std o [qf (ga11_period c)]) = Ok [Fin (exp (vh_sd c (h_mag a)))].
Proof. exact ga11_interp_knot. Qed.
Print Assumptions C75_exact_at_tabulated_periods.
Theorem C75_between_tabulated_ratios : forall src a t, vh_gives src a -> 0 < h_v a -> 0 <= h_pga a -> 0 < t ->
  exists o c1 c2 w, result (ga11 src) = Ok o /\ In c1 (skipn 2 ga11_coeff) /\ In c2 (skipn 2 ga11_coeff) /\ 0 <= w <= 1 /\
    result (ga11_interp_ratio o [Fin t]) = Ok [Fin (exp ((1 - w) * vh_val a c1 + w * vh_val a c2))].
Proof. exact ga11_interp_between. Qed.
Print Assumptions C75_between_tabulated_ratios.
Example C75_nonvacuous : exists c, In c (skipn 2 ga11_coeff) /\ ga11_period c = (1 # 1)%Q.
Proof. exists (nth 16 ga11_coeff (hd (nth 0 ga11_coeff (Mk_ga11_row 0 0 0 0 0 0 0 0 0 0 0 0 0 0 0 0 0 0 0 0)) ga11_coeff)). split; [|reflexivity]. cbn. tauto. Qed.

(** ** C76: interp_ln_std is never a standard deviation of the model (violation) *)
Theorem C76_interp_ln_std_exponentiated : forall src a t, vh_gives src a -> 0 < t ->
  exists o x, result (ga11 src) = Ok o /\ result (ga11_interp_ln_std o [Fin t]) = Ok [Fin x] /\ 1.43 <= x <= 2.39 /\
    Forall (fun s => exists y, s = Fin y /\ y <= 0.87) (ga11_ln_std o).
Proof.
  intros src a t G Ht. destruct (ga11_interp_std_bug src a t G Ht) as (o & x & O & I & B). exists o, x.
  split; [exact O|]. split; [exact I|]. split; [exact B|].
  eapply Forall_impl; [|exact (ga11_sigma_bounds src a o G O)]. intros s (y & E & Y). exists y; split; [exact E|apply Y].
Qed.
Print Assumptions C76_interp_ln_std_exponentiated.
Example C76_nonvacuous : vh_gives (vh_src ex_vh) ex_vh.
Proof. apply vh_src_gives. Qed.
