(** * Specification vocabulary for Gulerce & Abrahamson (2011)

    Scenario description and the published V/H formulas over the reals; apart from the
    coefficient table nothing here refers to the modelled code. *)
From Coq Require Import Reals List String QArith Qreals.
From Verif Require Import GmmLib Nga Data_ga11.
Open Scope R_scope.
Open Scope string_scope.
Open Scope list_scope.

Record vh := Vh { h_rup : R; h_mag : R; h_v : R; h_pga : R; h_mech : string }.
Definition vh_gives (src : dict) (a : vh) : Prop :=
  has_num src "dist_rup" (h_rup a) /\ has_num src "mag" (h_mag a) /\ has_num src "v_s30" (h_v a) /\
  has_num src "pga_ref" (h_pga a) /\ has_str src "mechanism" (h_mech a).
Definition vh_src (a : vh) : dict :=
  [("dist_rup", PNum (Fin (h_rup a))); ("mag", PNum (Fin (h_mag a))); ("v_s30", PNum (Fin (h_v a)));
   ("pga_ref", PNum (Fin (h_pga a))); ("mechanism", PStr (h_mech a))].
Definition vh_with_m (a : vh) (m : R) : vh := Vh (h_rup a) m (h_v a) (h_pga a) (h_mech a).
Definition vh_with_v (a : vh) (v : R) : vh := Vh (h_rup a) (h_mag a) v (h_pga a) (h_mech a).
Definition vh_with_p (a : vh) (p : R) : vh := Vh (h_rup a) (h_mag a) (h_v a) p (h_mech a).

(** Equation 1: magnitude and distance scaling. *)
Definition vh_source_val (c : ga11_row) (m d : R) : R :=
  Q2R (ga11_a1 c) + Q2R (ga11_a8 c) * ((8.5 - m) * (8.5 - m))
  + (Q2R (ga11_a2 c) + Q2R (ga11_a3 c) * (m - Q2R (ga11_c1 c))) * ln (sqrt (d * d + Q2R (ga11_c4 c) * Q2R (ga11_c4 c)))
  + (if Rle_dec m (Q2R (ga11_c1 c)) then Q2R (ga11_a4 c) else Q2R (ga11_a5 c)) * (m - Q2R (ga11_c1 c)).
(** Equation 4: the velocity above which the site term is constant; PGV has period -1. *)
Definition vh_v1 (T : R) : R :=
  if Rlt_dec T 0 then 862
  else if Rle_dec T 0.5 then 1500
  else if Rle_dec T 1 then exp (8 - 0.795 * ln (T / 0.21))
  else if Rle_dec T 2 then exp (6.76 - 0.297 * ln T)
  else 700.
(** Equation 3: site term; [p] is the rock PGA. *)
Definition vh_site_val (c : ga11_row) (p v : R) : R :=
  let w := Rmin v (vh_v1 (Q2R (ga11_period c))) in
  let r := w / Q2R (ga11_v_lin c) in
  if Rlt_dec w (Q2R (ga11_v_lin c)) then
    Q2R (ga11_a10 c) * ln r + Q2R (ga11_b c) * ln (p + Q2R (ga11_c c))
    - Q2R (ga11_b c) * ln (p + Q2R (ga11_c c) * Rpower r (Q2R (ga11_n c)))
  else (Q2R (ga11_a10 c) - Q2R (ga11_b c) * Q2R (ga11_n c)) * ln r.
Definition vh_val (a : vh) (c : ga11_row) : R :=
  vh_source_val c (h_mag a) (h_rup a) + vh_site_val c (h_pga a) (h_v a)
  + (if String.eqb (h_mech a) "RS" then Q2R (ga11_a6 c) else if String.eqb (h_mech a) "NS" then Q2R (ga11_a7 c) else 0).
(** Equations 6-8: standard deviations, linear in magnitude between 5 and 7. *)
Definition vh_ramp (lo hi : Q) (m : R) : R := Q2R lo + 0.5 * (Q2R hi - Q2R lo) * (Rmax 5 (Rmin m 7) - 5).
Definition vh_sd (c : ga11_row) (m : R) : R :=
  sqrt (vh_ramp (ga11_s3 c) (ga11_s4 c) m * vh_ramp (ga11_s3 c) (ga11_s4 c) m
        + vh_ramp (ga11_s1 c) (ga11_s2 c) m * vh_ramp (ga11_s1 c) (ga11_s2 c) m).
