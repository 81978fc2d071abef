(** * Derras, Bard & Cotton (2014): properties C35, C77, C78 *)
From Coq Require Import List.
From Verif Require Import M_dbc14 Nga Outs Spec_dbc14 P_dbc14 P_dbc14b.
Open Scope R_scope.
Open Scope string_scope.
Open Scope list_scope.

Definition ex_dbc : dbc := Dbc 20 6.5 400 8 "SS".

(** ** C35: bounded response *)
Theorem C35_bounded : forall src a k, dbc_gives src a -> mech_code (d_mech a) = Some k -> 0 <= d_jb a -> 0 < d_v a ->
  exists o, gmm_out (dbc14 src) o /\ List.length (o_sa o) = 62%nat /\ List.length (o_sd o) = 62%nat /\
    Forall (fun y => exists x, y = Fin x /\ 9/10^7 <= x <= 2.7) (o_sa o) /\
    (exists x, o_pga o = Fin x /\ 5/10^5 <= x <= 0.52) /\
    (exists x, o_pgv o = Fin x /\ 0.005 <= x <= 116) /\
    all_std (fun s => exists x, s = Fin x /\ 0.68 <= x <= 0.88) o.
Proof. exact dbc14_bounded. Qed.
Print Assumptions C35_bounded.
Theorem C35_unknown_mechanism : forall src a, dbc_gives src a -> mech_code (d_mech a) = None -> result (dbc14 src) = Raise (EKey "None").
Proof. exact dbc14_bad_mech. Qed.
Print Assumptions C35_unknown_mechanism.
Example C35_nonvacuous : exists o, gmm_out (dbc14 (dbc_src (dbc_with_d ex_dbc 0))) o /\ List.length (o_sa o) = 62%nat.
Proof.
  destruct (C35_bounded _ (dbc_with_d ex_dbc 0) 4 (dbc_src_gives _)) as (o & O & L & _); try (cbn; lra); [reflexivity|].
  exists o. split; assumption.
Qed.
Example C35_nonvacuous_unknown : result (dbc14 (dbc_src (Dbc 20 6.5 400 8 "U"))) = Raise (EKey "None").
Proof. apply (C35_unknown_mechanism _ (Dbc 20 6.5 400 8 "U")); [apply dbc_src_gives|reflexivity]. Qed.

(** ** C77: the published network *)
Theorem C77_published_network : forall src a k, dbc_gives src a -> mech_code (d_mech a) = Some k -> 0 < d_jb a -> 0 < d_v a ->
  exists o, gmm_out (dbc14 src) o /\
    o_sa o = map (fun c => Fin (Rpower 10 (dbc_val a k c) / 9.80665)) (skipn 2 dbc14_coeff) /\
    (forall c, nth_error dbc14_coeff 1 = Some c -> o_pga o = Fin (Rpower 10 (dbc_val a k c) / 9.80665)) /\
    (forall c, nth_error dbc14_coeff 0 = Some c -> o_pgv o = Fin (Rpower 10 (dbc_val a k c) * 100)) /\
    o_sd o = map (fun c => Fin (Q2R (dbc14_sd_total c) * ln 10)) (skipn 2 dbc14_coeff).
Proof. exact dbc14_published. Qed.
Print Assumptions C77_published_network.
Example C77_nonvacuous : dbc_gives (dbc_src ex_dbc) ex_dbc /\ mech_code (d_mech ex_dbc) = Some 4 /\ 0 < d_jb ex_dbc /\ 0 < d_v ex_dbc.
Proof. split; [apply dbc_src_gives|]. split; [reflexivity|]. cbn; lra. Qed.

(** ** C78: decay with distance inside the recommended limits *)
Theorem C78_decay : forall src1 src2 a k d1 d2, dbc_gives src1 (dbc_with_d a d1) -> dbc_gives src2 (dbc_with_d a d2) ->
  mech_code (d_mech a) = Some k -> 5 <= d1 -> d1 < d2 -> d2 <= 200 ->
  4 <= d_m a <= 7 -> 200 <= d_v a <= 800 -> 0 <= d_z a <= 25 ->
  exists o1 o2, gmm_out (dbc14 src1) o1 /\ gmm_out (dbc14 src2) o2 /\ resp2 flt_lt o2 o1.
Proof. exact dbc14_decay. Qed.
Print Assumptions C78_decay.
Example C78_nonvacuous : exists o1 o2, gmm_out (dbc14 (dbc_src (dbc_with_d ex_dbc 20))) o1 /\
  gmm_out (dbc14 (dbc_src (dbc_with_d ex_dbc 21))) o2 /\ resp2 flt_lt o2 o1.
Proof. apply (C78_decay _ _ ex_dbc 4 20 21); try apply dbc_src_gives; try reflexivity; cbn; lra. Qed.
