(** * Specification vocabulary: the equations of Campbell & Bozorgnia (2014)

    Real-valued, from the paper (equations 1-25); only the coefficient table (Data_cb14.v) and the description of
    scenarios ([nga], Nga.v) are shared with the model.  Two terms are stated as the library computes them and not
    as published: the Japanese site correction below and above 200 m/s (the paper adds the c_13 part at every
    velocity: C62), and the anelastic coefficient of China (the paper has its own: C23). *)
From Coq Require Import Reals List String QArith Qreals.
From Verif Require Import Nga Data_cb14 SpecNga Spec_cy14.
Open Scope R_scope.
Open Scope string_scope.
Open Scope list_scope.

Local Notation "[ q ]" := (Q2R q) (at level 0, only parsing).

(** An unknown mechanism is treated like strike slip. *)
Definition cb_mech (a : nga) : string := option_of "none" ["SS"; "NS"; "RS"] (n_mech a).
Definition cb_reg (a : nga) : string := option_of "global" ["global"; "california"; "japan"; "italy"; "china"] (n_region a).
Definition cb_clip (lo hi x : R) : R := Rmin (Rmax x lo) hi.

(** Rupture geometry when it is not given (km): top, width, bottom, hypocentre. *)
Definition cb_tor (a : nga) : R := or_else (n_tor a) (cy_mean_tor (cb_mech a) (n_mag a)).
Definition cb_rad (a : nga) : R := n_dip a * (PI / 180).
Definition cb_wid (a : nga) : R :=
  or_else (n_width a) (Rmin (sqrt (exp ((n_mag a - 4.07) / 0.98 * ln 10))) ((or_else (n_bot a) 15 - cb_tor a) / sin (cb_rad a))).
Definition cb_bor (a : nga) : R := or_else (n_bor a) (cb_tor a + cb_wid a * sin (cb_rad a)).
Definition cb_hyp (a : nga) : R :=
  or_else (n_hyp a) (cb_tor a + exp (Rmin (Rmin (- 4.317 + 0.984 * n_mag a) 2.325 + Rmin (0.0445 * (n_dip a - 40)) 0)
                                          (ln (0.9 * (cb_bor a - cb_tor a))))).
(** Depth to 2.5 km/s when it is not given (km). *)
Definition cb_z25 (region : string) (v : R) : R :=
  if String.eqb region "japan" then exp (5.359 - 1.102 * ln v) else exp (7.089 - 1.144 * ln v).

Definition cb_fmag (c : cb14_row) (m : R) : R :=
  [cb14_c_0 c] + [cb14_c_1 c] * m + [cb14_c_2 c] * Rmax (m - 4.5) 0 + [cb14_c_3 c] * Rmax (m - 5.5) 0 + [cb14_c_4 c] * Rmax (m - 6.5) 0.
Definition cb_fdis (c : cb14_row) (m r : R) : R := ([cb14_c_5 c] + [cb14_c_6 c] * m) * ln (sqrt (r ^ 2 + [cb14_c_7 c] ^ 2)).
Definition cb_fflt (c : cb14_row) (mech : string) (m : R) : R :=
  (if String.eqb mech "RS" then [cb14_c_8 c] else if String.eqb mech "NS" then [cb14_c_9 c] else 0) * cb_clip 0 1 (m - 4.5).
(** Hanging-wall shape in the horizontal distance R_X; R_1: width of the surface projection. *)
Definition cb_fhng_x (c : cb14_row) (x : R) (a : nga) : R :=
  let r1 := cb_wid a * cos (cb_rad a) in let r2 := 62 * n_mag a - 350 in
  if Rlt_dec x 0 then 0
  else if Rle_dec x r1 then [cb14_h_1 c] + [cb14_h_2 c] * (x / r1) + [cb14_h_3 c] * (x / r1) ^ 2
  else if Req_EM_T r2 r1 then 0
  else Rmax 0 ([cb14_h_4 c] + [cb14_h_5 c] * ((x - r1) / (r2 - r1)) + [cb14_h_6 c] * ((x - r1) / (r2 - r1)) ^ 2).
Definition cb_fhng (c : cb14_row) (x : R) (a : nga) : R :=
  [cb14_c_10 c] * cb_fhng_x c x a
  * (if Req_EM_T (n_rup a) 0 then 1 else (n_rup a - n_jb a) / n_rup a)
  * (if Rle_dec (n_mag a) 5.5 then 0 else Rmin (n_mag a - 5.5) 1 * (1 + [cb14_a_2 c] * (n_mag a - 6.5)))
  * (if Rle_dec (cb_tor a) 16.66 then 1 - 0.06 * cb_tor a else 0)
  * ((90 - n_dip a) / 45).
(** Shallow site response; [p]: PGA on rock in g. *)
Definition cb_fsite (c : cb14_row) (region : string) (v p : R) : R :=
  let k := [cb14_k_1 c] in
  (if Rle_dec v k
   then [cb14_c_11 c] * ln (v / k) + [cb14_k_2 c] * (ln (p + 1.88 * Rpower (v / k) 1.18) - ln (p + 1.88))
   else ([cb14_c_11 c] + [cb14_k_2 c] * 1.18) * ln (v / k))
  + (if String.eqb region "japan"
     then if Rle_dec v 200 then ([cb14_c_12 c] + [cb14_k_2 c] * 1.18) * (ln (v / k) - ln (200 / k))
          else ([cb14_c_13 c] + [cb14_k_2 c] * 1.18) * ln (v / k)
     else 0).
(** Basin response. *)
Definition cb_fsed (c : cb14_row) (region : string) (z : R) : R :=
  if Rle_dec z 1 then ([cb14_c_14 c] + (if String.eqb region "japan" then [cb14_c_15 c] else 0)) * (z - 1)
  else if Rle_dec z 3 then 0
  else [cb14_c_16 c] * [cb14_k_3 c] * exp (- 0.75) * (1 - exp (- 0.25 * (z - 3))).
Definition cb_fhyp (c : cb14_row) (m h : R) : R :=
  cb_clip 0 13 (h - 7) * ([cb14_c_17 c] + ([cb14_c_18 c] - [cb14_c_17 c]) * cb_clip 0 1 (m - 5.5)).
Definition cb_fdip (c : cb14_row) (m dip : R) : R := [cb14_c_19 c] * dip * cb_clip 0 1 (5.5 - m).
Definition cb_fatn (c : cb14_row) (region : string) (r : R) : R :=
  ([cb14_c_20 c] + (if (String.eqb region "japan" || String.eqb region "italy")%bool then [cb14_dc_20jp c] else [cb14_dc_20ca c]))
  * Rmax (r - 80) 0.
Definition cb_source_path (c : cb14_row) (x : R) (a : nga) : R :=
  cb_fmag c (n_mag a) + cb_fdis c (n_mag a) (n_rup a) + cb_fflt c (cb_mech a) (n_mag a) + cb_fhng c x a
  + cb_fhyp c (n_mag a) (cb_hyp a) + cb_fdip c (n_mag a) (n_dip a) + cb_fatn c (cb_reg a) (n_rup a).
(** PGA on rock (1100 m/s and the depth to 2.5 km/s that goes with it); [ca]: the PGA row.  At 1100 m/s the site
    response is linear, so that the last argument of [cb_fsite] is immaterial. *)
Definition cb_rock_pga (ca : cb14_row) (x : R) (a : nga) : R :=
  exp (cb_source_path ca x a + cb_fsite ca (cb_reg a) 1100 0 + cb_fsed ca (cb_reg a) (cb_z25 (cb_reg a) 1100)).
Definition cb_med (ca c : cb14_row) (x : R) (a : nga) : R :=
  cb_source_path c x a + cb_fsite c (cb_reg a) (n_v a) (cb_rock_pga ca x a)
  + cb_fsed c (cb_reg a) (or_else (n_z25 a) (cb_z25 (cb_reg a) (n_v a))).

(** Standard deviation: [al] is the sensitivity of the site response to the rock PGA. *)
Definition cb_al (c : cb14_row) (v p : R) : R :=
  let k := [cb14_k_1 c] in
  if Rlt_dec v k then [cb14_k_2 c] * p * (/ (p + 1.88 * Rpower (v / k) 1.18) - / (p + 1.88)) else 0.
Definition cb_sd (ca c : cb14_row) (x : R) (a : nga) : R :=
  let al := cb_al c (n_v a) (cb_rock_pga ca x a) in let rho := [cb14_rho_lnPGAlnY c] in let m := n_mag a in
  let tau := cb14_tau_spec c m in let tau_pga := cb14_tau_spec ca m in
  let af := [cb14_phi_lnAF c] in let af_pga := [cb14_phi_lnAF ca] in
  let phi_b := sqrt (cb14_phi_spec c m ^ 2 - af ^ 2) in let phi_pga_b := sqrt (cb14_phi_spec ca m ^ 2 - af_pga ^ 2) in
  sqrt (tau ^ 2 + al ^ 2 * tau_pga ^ 2 + 2 * al * rho * tau * tau_pga
        + (phi_b ^ 2 + af ^ 2 + al ^ 2 * phi_pga_b ^ 2 + 2 * al * rho * phi_b * phi_pga_b)).
