(** * Specification vocabulary: the published equations of Chiou & Youngs (2014)

    Real-valued, from the paper (equations 11, 12, 13, 1, A1); only the coefficient table (Data_cy14.v) and the
    description of scenarios ([nga], Nga.v) are shared with the model.  In the paper: R = dist_rup, R_X = dist_x,
    R_JB = dist_jb, Z_TOR = depth_tor, Z_1.0 = depth_1_0, dDPP = dpp_centered, delta = dip. *)
From Coq Require Import Reals List String QArith Qreals.
From Verif Require Import Nga Data_cy14.
Open Scope R_scope.
Open Scope string_scope.
Open Scope list_scope.

Local Notation "[ q ]" := (Q2R q) (at level 0, only parsing).

(** A given number, or else a default. *)
Definition or_else (o : option R) (d : R) : R := match o with Some x => x | None => d end.
(** A given option, or else the default: the library replaces unknown strings by the default. *)
Definition option_of (default : string) (options : list string) (o : option string) : string :=
  match o with Some t => if existsb (String.eqb t) options then t else default | None => default end.
Definition cy_mech (a : nga) : string := option_of "U" ["U"; "SS"; "NS"; "RS"] (n_mech a).
Definition cy_reg (a : nga) : string := option_of "california" ["california"; "china"; "italy"; "japan"] (n_region a).
Definition cy_measured (a : nga) : bool := String.eqb (option_of "measured" ["measured"; "inferred"] (n_source a)) "measured".
Definition cy_on_hw (a : nga) : bool := match n_hw a with Some b => b | None => false end.

(** Centering of the depth to the top of rupture (km). *)
Definition cy_mean_tor (mech : string) (m : R) : R :=
  (if String.eqb mech "RS" then Rmax (2.704 - 1.226 * Rmax (m - 5.849) 0) 0
   else Rmax (2.673 - 1.136 * Rmax (m - 4.970) 0) 0) ^ 2.
(** Centering of the depth to 1.0 km/s (m). *)
Definition cy_mean_z1 (region : string) (v : R) : R :=
  if String.eqb region "japan" then exp (- 5.23 / 2 * ln ((v ^ 2 + 412.39 ^ 2) / (1360 ^ 2 + 412.39 ^ 2)))
  else exp (- 7.15 / 4 * ln ((v ^ 4 + 570.94 ^ 4) / (1360 ^ 4 + 570.94 ^ 4))).
Definition cy_tor (a : nga) : R := or_else (n_tor a) (cy_mean_tor (cy_mech a) (n_mag a)).
(** In metres; the scenario gives kilometres. *)
Definition cy_dz1 (a : nga) : R := match n_z1 a with Some z => 1000 * z - cy_mean_z1 (cy_reg a) (n_v a) | None => 0 end.

(** ln of the response on the reference rock, g. *)
Definition cy_ref (c : cy14_row) (x : R) (a : nga) : R :=
  let m := n_mag a in let r := n_rup a in let mech := cy_mech a in let dip := n_dip a * (PI / 180) in
  let ch := cosh (2 * Rmax (m - 4.5) 0) in
  [cy14_c_1 c]
  + (if String.eqb mech "RS" then [cy14_c_1a c] + [cy14_c_1c c] / ch else 0)
  + (if String.eqb mech "NS" then [cy14_c_1b c] + [cy14_c_1d c] / ch else 0)
  + ([cy14_c_7 c] + [cy14_c_7b c] / ch) * (cy_tor a - cy_mean_tor mech m)
  + ([cy14_c_11 c] + [cy14_c_11b c] / ch) * (cos dip) ^ 2
  + [cy14_c_2 c] * (m - 6)
  + ([cy14_c_2 c] - [cy14_c_3 c]) / [cy14_c_n c] * ln (1 + exp ([cy14_c_n c] * ([cy14_c_m c] - m)))
  + [cy14_c_4 c] * ln (r + [cy14_c_5 c] * cosh ([cy14_c_6 c] * Rmax (m - [cy14_c_hm c]) 0))
  + ([cy14_c_4a c] - [cy14_c_4 c]) * ln (sqrt (r ^ 2 + [cy14_c_rb c] ^ 2))
  + (if (String.eqb (cy_reg a) "japan" || String.eqb (cy_reg a) "italy")%bool
     then if Rlt_dec 6 m then if Rlt_dec m 6.9 then [cy14_gamma_ji c] else 1 else 1
     else if String.eqb (cy_reg a) "china" then [cy14_gamma_c c] else 1)
    * ([cy14_c_gamma1 c] + [cy14_c_gamma2 c] / cosh (Rmax (m - [cy14_c_gamma3 c]) 0)) * r
  + [cy14_c_8 c] * Rmax (1 - Rmax (r - 40) 0 / 30) 0 * Rmin (Rmax (m - 5.5) 0 / 0.8) 1
    * exp (- [cy14_c_8a c] * (m - [cy14_c_8b c]) ^ 2) * or_else (n_dpp a) 0
  + (if cy_on_hw a
     then [cy14_c_9 c] * cos dip * ([cy14_c_9a c] + (1 - [cy14_c_9a c]) * tanh (x / [cy14_c_9b c]))
          * (1 - sqrt (n_jb a ^ 2 + cy_tor a ^ 2) / (r + 1))
     else 0).

(** Nonlinear site coefficient b. *)
Definition cy_b (c : cy14_row) (v : R) : R :=
  [cy14_phi_2 c] * (exp ([cy14_phi_3 c] * (Rmin v 1130 - 360)) - exp ([cy14_phi_3 c] * (1130 - 360))).
(** ln of the response on soil. *)
Definition cy_med (c : cy14_row) (x : R) (a : nga) : R :=
  let jp := String.eqb (cy_reg a) "japan" in
  cy_ref c x a
  + (if jp then [cy14_phi_1jp c] else [cy14_phi_1 c]) * Rmin (ln (n_v a / 1130)) 0
  + cy_b c (n_v a) * ln ((exp (cy_ref c x a) + [cy14_phi_4 c]) / [cy14_phi_4 c])
  + (if jp then [cy14_phi_5jp c] else [cy14_phi_5 c]) * (1 - exp (- cy_dz1 a / (if jp then [cy14_phi_6jp c] else [cy14_phi_6 c]))).

(** Standard deviation. *)
Definition cy_sd (c : cy14_row) (x : R) (a : nga) : R :=
  let dm := Rmin (Rmax (n_mag a) 5) 6.5 - 5 in
  let nl0 := cy_b c (n_v a) * (exp (cy_ref c x a) / (exp (cy_ref c x a) + [cy14_phi_4 c])) in
  let tau := [cy14_tau_1 c] + ([cy14_tau_2 c] - [cy14_tau_1 c]) / 1.5 * dm in
  let s2 := if String.eqb (cy_reg a) "japan" then [cy14_sigma_2jp c] else [cy14_sigma_2 c] in
  let sigma_nl0 := ([cy14_sigma_1 c] + (s2 - [cy14_sigma_1 c]) / 1.5 * dm)
    * sqrt ((if cy_measured a then 0.7 else [cy14_sigma_3 c]) + (1 + nl0) ^ 2) in
  sqrt ((1 + nl0) ^ 2 * tau ^ 2 + sigma_nl0 ^ 2).
