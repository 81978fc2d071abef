(** * Specification vocabulary for Pinilla-Ramos et al. (2023) *)
From Coq Require Import Reals List String QArith Qreals.
From Verif Require Import GmmLib.
Open Scope R_scope.
Open Scope string_scope.
Open Scope list_scope.

Record eq23 := Eq23 { q_m : R; q_r : R; q_v : R }.
Definition eq23_gives (src : dict) (a : eq23) : Prop := has_num src "mag" (q_m a) /\ has_num src "dist_rup" (q_r a) /\ has_num src "v_s30" (q_v a).
(** The declared limits. *)
Definition eq23_ok (a : eq23) : Prop := 4 <= q_m a <= 8 /\ 0 <= q_r a <= 300 /\ 150 <= q_v a <= 2000.

(** Median D5-75: source + path + site. *)
Definition slope23 (r : R) : R :=
  if Rle_dec r 10 then 0.41 + 0.045 * r / 10
  else if Rle_dec r 42 then 0.455 + 0.085 * (r - 10) / 32
  else 0.54 + 0.035 * (r - 42) / 158.
Definition source23 (m r : R) : R := 3.655 * Rpower 10 ((m - 6.75) * (if Rlt_dec m 6.75 then 0.515 else slope23 r)).
Definition path23 (r : R) : R :=
  0.041 * r + (if Rlt_dec r 44 then 0.063 * r else if Rlt_dec r 130 then 0.063 * 44 + 0.034 * (r - 44)
               else 0.063 * 44 + 0.034 * 86 + 0.083 * (r - 130)).
(** Site: the factor falls from 1.11 (200 m/s and below) to 0.565 (275 m/s), and from 0.565 (1900 m/s) to 0 (2000 m/s). *)
Definition soft23 (v : R) : R :=
  if Rlt_dec v 200 then 1.11
  else if Rlt_dec v 275 then 0.565 + 0.545 * (ln 275 - ln v) / (ln 275 - ln 200)
  else if Rlt_dec v 1900 then 0.565
  else if Rlt_dec v 2000 then 0.565 * (ln 2000 - ln v) / (ln 2000 - ln 1900) else 0.
Definition site23 (v : R) : R := 0.619 * ln (2000 / v) * exp (0.278 * soft23 v).
Definition median23 (a : eq23) : R := source23 (q_m a) (q_r a) + path23 (q_r a) + site23 (q_v a).
(** Standard deviation of the duration to the power 0.3. *)
Definition sigma23 (a : eq23) : R :=
  0.537 - 0.093 * (q_r a / 100) + 0.0278 * (q_r a / 100) ^ 2 - 0.0372 * q_m a + 0.00179 * q_m a ^ 2 + Rmin (0.0206 * Rpower (200 / q_v a) 2.401) 0.0419.
(** [med] plus or minus [s] in the space of the power 0.3. *)
Definition plus23 (med s : R) : R := Rpower (Rpower med 0.3 + s) (1 / 0.3).
Definition minus23 (med s : R) : R := Rpower (Rpower med 0.3 - s) (1 / 0.3).

(** The other energy ratios: ratio, median, distance and velocity coefficients, standard deviation and correlation. *)
Record ratio23 := Ratio23 { x_e : R; x_c : R; x_r : R; x_v : R; x_s : R; x_rho : R }.
Definition ratios23 : list ratio23 :=
  [Ratio23 0.10 (0.157 - 0.010798) 0.0007 0.039 0.156 (-0.083); Ratio23 0.15 (0.264 - 0.016831) 0.0012 0.0656 0.192 0.022;
   Ratio23 0.20 (0.342 - 0.012831) 0.0014 0.0852 0.205 0.078; Ratio23 0.25 (0.402 + 0.002943) 0.0015 0.1001 0.206 0.113;
   Ratio23 0.30 (0.455 + 0.02267) 0.0015 0.1134 0.202 0.137; Ratio23 0.35 (0.505 + 0.047579) 0.0014 0.1259 0.195 0.154;
   Ratio23 0.40 (0.553 + 0.076718) 0.0013 0.1377 0.187 0.167; Ratio23 0.45 (0.603 + 0.107148) 0.0012 0.1501 0.177 0.178;
   Ratio23 0.50 (0.654 + 0.136351) 0.001 0.1587 0.163 0.188; Ratio23 0.55 (0.71 + 0.115442) 0.0008 0.1365 0.146 0.198;
   Ratio23 0.60 (0.769 + 0.092914) 0.0007 0.1105 0.125 0.206; Ratio23 0.65 (0.835 + 0.067803) 0.0005 0.08 0.097 0.209;
   Ratio23 0.70 (0.912 + 0.034992) 0.0002 0.0428 0.06 0.204;
   Ratio23 0.80 (1.114 - 0.044725) (-0.0003) (-0.0512) 0.089 (-0.301); Ratio23 0.85 (1.273 - 0.112447) (-0.0006) (-0.1197) 0.21 (-0.361);
   Ratio23 0.90 (1.522 - 0.209689) (-0.001) (-0.2111) 0.434 (-0.403); Ratio23 0.95 (2.014 - 0.38092) (-0.0015) (-0.3589) 0.907 (-0.452)].
(** Ratio of the median to the D5-75 median. *)
Definition factor23 (x : ratio23) (a : eq23) : R := x_c x + x_r x * q_r a + x_v x * ln (q_v a / 2000).
(** First-order propagation of the two uncertainties. *)
Definition sigma_cond23 (x : ratio23) (a : eq23) : R :=
  let da := Rpower (factor23 x a) 0.3 * sigma23 a in
  let dc := Rpower (median23 a) 0.3 * 0.3 * Rpower (factor23 x a) (-0.7) * x_s x in
  sqrt (da ^ 2 + dc ^ 2 + 2 * x_rho x * (da * dc)).
