(** * C140: standard deviation and magnitude in the NGA-West2 models *)
From Coq Require Import List.
From Verif Require Import M_cy14 M_bssa14 M_cb14 M_ask14 FrameworkProofs Nga Outs Spec_cy14 Spec_bssa14 Spec_cb14 Spec_ask14 Spec_basin Spec_sigma P_ngacont Properties_NGAMag Properties_Basin P_sigma.
Open Scope R_scope.
Open Scope string_scope.
Open Scope list_scope.

(** ** BSSA14: up to 5 s the larger event is never the more variable one, whatever the distance and site; the changes happen between magnitudes 4.5 and 5.5 *)
Theorem C140_bssa14 : forall src1 src2 a m1 m2, nga_gives src1 (with_mag a m1) -> nga_gives src2 (with_mag a m2) -> 0 < n_v a -> m1 < m2 ->
  let falls s1 s2 := s2 <= s1 /\ (m1 < 5.5 -> 4.5 < m2 -> s2 < s1) in
  compares_std (bssa14 src1) (bssa14 src2) (fun T s1 s2 => T <= 5 -> falls s1 s2) falls falls.
Proof. exact bs_std_falls. Qed.
Print Assumptions C140_bssa14.
(** Above 5 s too when the magnitudes lie on the two sides of that range ... *)
Theorem C140_bssa14_ends : forall src1 src2 a m1 m2, nga_gives src1 (with_mag a m1) -> nga_gives src2 (with_mag a m2) -> 0 < n_v a -> m1 <= 4.5 -> 5.5 <= m2 ->
  compares_std (bssa14 src1) (bssa14 src2) (fun _ s1 s2 => s2 < s1) (fun s1 s2 => s2 < s1) (fun s1 s2 => s2 < s1).
Proof. exact bs_std_ends. Qed.
Print Assumptions C140_bssa14_ends.
(** ... but between 6.5 and 8 s magnitude 5.5 is more variable than 5.4 (violation). *)
Theorem C140_bssa14_long_rises : forall src1 src2 a, nga_gives src1 (with_mag a 5.4) -> nga_gives src2 (with_mag a 5.5) -> 0 < n_v a ->
  compares_std (bssa14 src1) (bssa14 src2) (fun T s1 s2 => 6.5 <= T <= 8 -> s1 < s2) (fun _ _ => True) (fun _ _ => True).
Proof. exact bs_std_rises. Qed.
Print Assumptions C140_bssa14_long_rises.

(** ** CY14: the same on every soil; in Japan not at 0.12 s and from 0.75 to 4 s *)
Theorem C140_cy14 : forall src1 src2 a x m1 m2, nga_gives src1 (with_mag a m1) -> nga_gives src2 (with_mag a m2) ->
  n_x a = Some x -> (n_hw a = None \/ n_hw a = Some false) -> n_tor a = None -> n_dpp a = None -> 180 <= n_v a -> 0 <= n_rup a ->
  (n_region a = None \/ n_region a = Some "california" \/ n_region a = Some "china" \/ m2 <= 6 \/ (6 < m1 /\ m2 < 6.9) \/ 6.9 <= m1) ->
  m1 < m2 -> m2 <= 10 ->
  let falls s1 s2 := s2 <= s1 /\ (m1 < 6.5 -> 5 < m2 -> s2 < s1) in
  compares_std (cy14 src1) (cy14 src2) (fun T s1 s2 => cy_reg a <> "japan" \/ T <= 0.1 \/ 0.15 <= T <= 0.5 \/ 5 <= T -> falls s1 s2) falls falls.
Proof. exact cy_std_falls. Qed.
Print Assumptions C140_cy14.
(** On rock in Japan magnitude 6.5 is more variable than 6.3 at 1.5 and 2 s (violation). *)
Theorem C140_cy14_japan_rises : forall src1 src2 a x, nga_gives src1 (with_mag a 6.3) -> nga_gives src2 (with_mag a 6.5) -> n_x a = Some x -> 1130 <= n_v a -> 0 <= n_rup a -> n_region a = Some "japan" ->
  compares_std (cy14 src1) (cy14 src2) (fun T s1 s2 => 1.5 <= T <= 2 -> s1 < s2) (fun _ _ => True) (fun _ _ => True).
Proof. exact cy_std_japan_rises. Qed.
Print Assumptions C140_cy14_japan_rises.

(** ** ASK14 on rock: so in Japan, and elsewhere up to 0.75 s; from 1 s on magnitude 5 is more variable than 4 *)
Theorem C140_ask14_rock : forall src1 src2 a t m1 m2, nga_gives src1 (with_mag a m1) -> nga_gives src2 (with_mag a m2) -> n_mech a = Some t -> as_geom a ->
  match n_z1 a with Some z => 0 <= z | None => True end -> 960 <= n_v a -> m1 < m2 ->
  let falls s1 s2 := s2 <= s1 /\ (m1 < 7 -> 5 < m2 -> s2 < s1) in
  compares_std (ask14 src1) (ask14 src2) (fun T s1 s2 => as_reg a = "japan" \/ T <= 0.75 -> falls s1 s2) falls (fun s1 s2 => s2 <= s1).
Proof. exact as_std_falls. Qed.
Print Assumptions C140_ask14_rock.
Theorem C140_ask14_long_rises : forall src1 src2 a t, nga_gives src1 (with_mag a 4) -> nga_gives src2 (with_mag a 5) -> n_mech a = Some t -> as_geom a ->
  match n_z1 a with Some z => 0 <= z | None => True end -> 960 <= n_v a -> as_reg a <> "japan" ->
  compares_std (ask14 src1) (ask14 src2) (fun T s1 s2 => 1 <= T -> s1 < s2) (fun _ _ => True) (fun _ _ => True).
Proof. exact as_std_rises. Qed.
Print Assumptions C140_ask14_long_rises.

(** ** CB14 on rock: so up to 5 s; at 10 s the larger event is the more variable one *)
Theorem C140_cb14_rock : forall src1 src2 a x t m1 m2, nga_gives src1 (with_mag a m1) -> nga_gives src2 (with_mag a m2) -> n_x a = Some x -> n_mech a = Some t ->
  cb_geom x (with_mag a m1) -> cb_geom x (with_mag a m2) -> 1086 <= n_v a -> m1 < m2 ->
  let falls s1 s2 := s2 <= s1 /\ (m1 < 5.5 -> 4.5 < m2 -> s2 < s1) in
  compares_std (cb14 src1) (cb14 src2) (fun T s1 s2 => (T <= 5 -> falls s1 s2) /\ (T = 10 -> m1 < 5.5 -> 4.5 < m2 -> s1 < s2)) falls falls.
Proof. exact cb_std_falls. Qed.
Print Assumptions C140_cb14_rock.

(** ** Concrete cases *)
Example C140_bssa14_nonvacuous :
  compares_std (bssa14 (mag_src None 10 310 None 4.8)) (bssa14 (mag_src None 10 310 None 6.8))
    (fun T s1 s2 => T <= 5 -> s2 <= s1 /\ (4.8 < 5.5 -> 4.5 < 6.8 -> s2 < s1)) (fun s1 s2 => s2 <= s1 /\ (4.8 < 5.5 -> 4.5 < 6.8 -> s2 < s1)) (fun s1 s2 => s2 <= s1 /\ (4.8 < 5.5 -> 4.5 < 6.8 -> s2 < s1)) /\
  compares_std (bssa14 (mag_src None 10 310 None 4)) (bssa14 (mag_src None 10 310 None 7)) (fun _ s1 s2 => s2 < s1) (fun s1 s2 => s2 < s1) (fun s1 s2 => s2 < s1) /\
  compares_std (bssa14 (mag_src None 10 310 None 5.4)) (bssa14 (mag_src None 10 310 None 5.5)) (fun T s1 s2 => 6.5 <= T <= 8 -> s1 < s2) (fun _ _ => True) (fun _ _ => True).
Proof.
  split; [|split]; [apply (C140_bssa14 _ _ (mag_ex None 10 310 None) 4.8 6.8)|apply (C140_bssa14_ends _ _ (mag_ex None 10 310 None) 4 7)|apply (C140_bssa14_long_rises _ _ (mag_ex None 10 310 None))];
  try apply nga_src_gives; cbn; lra.
Qed.
Example C140_cy14_nonvacuous :
  compares_std (cy14 (mag_src None 10 400 None 5.2)) (cy14 (mag_src None 10 400 None 7.5)) (fun T s1 s2 => s2 <= s1 /\ (5.2 < 6.5 -> 5 < 7.5 -> s2 < s1))
    (fun s1 s2 => s2 <= s1 /\ (5.2 < 6.5 -> 5 < 7.5 -> s2 < s1)) (fun s1 s2 => s2 <= s1 /\ (5.2 < 6.5 -> 5 < 7.5 -> s2 < s1)) /\
  compares_std (cy14 (mag_src (Some "japan") 10 1200 None 6.3)) (cy14 (mag_src (Some "japan") 10 1200 None 6.5)) (fun T s1 s2 => 1.5 <= T <= 2 -> s1 < s2) (fun _ _ => True) (fun _ _ => True).
Proof.
  split.
  - destruct (C140_cy14 (mag_src None 10 400 None 5.2) (mag_src None 10 400 None 7.5) (mag_ex None 10 400 None) (-5) 5.2 7.5) as (g1 & g2 & rows & a1 & a2 & v1 & v2 & C1 & C2 & C3 & C4 & C5 & C6 & C7 & C8 & C9 & C10 & CS & CA & CV);
      try apply nga_src_gives; cbn; try reflexivity; try lra; try (left; reflexivity).
    exists g1, g2, rows, a1, a2, v1, v2. repeat (split; [assumption|]). split; [|split; assumption]. intros T s1 s2 H. apply (CS T s1 s2 H). left. discriminate.
  - apply (C140_cy14_japan_rises _ _ (mag_ex (Some "japan") 10 1200 None) (-5)); try apply nga_src_gives; cbn; try reflexivity; lra.
Qed.
Example C140_ask14_nonvacuous :
  compares_std (ask14 (mag_src None 10 1000 None 4)) (ask14 (mag_src None 10 1000 None 5)) (fun T s1 s2 => 1 <= T -> s1 < s2) (fun _ _ => True) (fun _ _ => True) /\
  compares_std (ask14 (mag_src None 10 1000 None 4.4)) (ask14 (mag_src None 10 1000 None 6.4)) (fun T s1 s2 => as_reg (mag_ex None 10 1000 None) = "japan" \/ T <= 0.75 -> s2 <= s1 /\ (4.4 < 7 -> 5 < 6.4 -> s2 < s1))
    (fun s1 s2 => s2 <= s1 /\ (4.4 < 7 -> 5 < 6.4 -> s2 < s1)) (fun s1 s2 => s2 <= s1).
Proof.
  split; [apply (C140_ask14_long_rises _ _ (mag_ex None 10 1000 None) "SS")|apply (C140_ask14_rock _ _ (mag_ex None 10 1000 None) "SS" 4.4 6.4)];
  try apply nga_src_gives; try (intros H; discriminate H); cbn; try reflexivity; try lra; try exact I; discriminate.
Qed.
Example C140_cb14_nonvacuous :
  compares_std (cb14 (mag_src None 10 1100 (Some 9) 4.8)) (cb14 (mag_src None 10 1100 (Some 9) 6))
    (fun T s1 s2 => (T <= 5 -> s2 <= s1 /\ (4.8 < 5.5 -> 4.5 < 6 -> s2 < s1)) /\ (T = 10 -> 4.8 < 5.5 -> 4.5 < 6 -> s1 < s2)) (fun s1 s2 => s2 <= s1 /\ (4.8 < 5.5 -> 4.5 < 6 -> s2 < s1)) (fun s1 s2 => s2 <= s1 /\ (4.8 < 5.5 -> 4.5 < 6 -> s2 < s1)).
Proof.
  apply (C140_cb14_rock _ _ (mag_ex None 10 1100 (Some 9)) (-5) "SS" 4.8 6); try apply nga_src_gives; try (repeat split; try (cbn; lra); discriminate); cbn; try reflexivity; lra.
Qed.
