(** * Pinilla-Ramos et al. (2023): src/pygmm/pinilla_ramos_et_al_2023.py

    SIMPLIFICATION: scalars only.  The code converts magnitude, distance and velocity with np.asarray and broadcasts them to a common
    length (lines 199-214), but then returns float(...) of the result (lines 312, 335-339), which only works for one value. *)

From Verif Require Export ArgMin GmmLib M_as16.
Open Scope R_scope.
Open Scope string_scope.
Open Scope list_scope.

(** pinilla_ramos_et_al_2023.py:31-35: PARAMS. *)
Definition pr23_params : list param :=
  [NumP "mag" true (Some $4.0) (Some $8.0) PNone;
   NumP "dist_rup" true (Some $0) (Some $300) PNone;
   NumP "v_s30" true (Some $150) (Some $2000) PNone]%flt.

(** Lines 61-197: the conditional model, one row per energy ratio; the ratios (line 73) are 0.05 + 0.05 i. *)
Record pr23_row := Pr23Row { p_energy : Q; p_cmed : Q; p_a0 : Q; p_r1x : Q; p_v1x : Q; p_std_c : Q; p_r : Q }.
Definition pr23_table : list pr23_row :=
  [Pr23Row 0.05 0 0 0 0 0 0;
   Pr23Row 0.10 0.157 (-0.010798) 0.0007 0.039 0.156 (-0.083);
   Pr23Row 0.15 0.264 (-0.016831) 0.0012 0.0656 0.192 0.022;
   Pr23Row 0.20 0.342 (-0.012831) 0.0014 0.0852 0.205 0.078;
   Pr23Row 0.25 0.402 0.002943 0.0015 0.1001 0.206 0.113;
   Pr23Row 0.30 0.455 0.02267 0.0015 0.1134 0.202 0.137;
   Pr23Row 0.35 0.505 0.047579 0.0014 0.1259 0.195 0.154;
   Pr23Row 0.40 0.553 0.076718 0.0013 0.1377 0.187 0.167;
   Pr23Row 0.45 0.603 0.107148 0.0012 0.1501 0.177 0.178;
   Pr23Row 0.50 0.654 0.136351 0.001 0.1587 0.163 0.188;
   Pr23Row 0.55 0.71 0.115442 0.0008 0.1365 0.146 0.198;
   Pr23Row 0.60 0.769 0.092914 0.0007 0.1105 0.125 0.206;
   Pr23Row 0.65 0.835 0.067803 0.0005 0.08 0.097 0.209;
   Pr23Row 0.70 0.912 0.034992 0.0002 0.0428 0.06 0.204;
   Pr23Row 0.75 1 1 0 0 0 0;
   Pr23Row 0.80 1.114 (-0.044725) (-0.0003) (-0.0512) 0.089 (-0.301);
   Pr23Row 0.85 1.273 (-0.112447) (-0.0006) (-0.1197) 0.21 (-0.361);
   Pr23Row 0.90 1.522 (-0.209689) (-0.001) (-0.2111) 0.434 (-0.403);
   Pr23Row 0.95 2.014 (-0.38092) (-0.0015) (-0.3589) 0.907 (-0.452)]%Q.

(** Lines 236-244: magnitude scaling coefficient. *)
Definition pr23_c2 (rrup : flt) : flt :=
  ($0 + ($0.41 + ($0.455 - $0.41) * rrup / $10) * bnum (rrup <=? $10)
   + ($0.455 + ($0.54 - $0.455) * (rrup - $10) / ($42 - $10)) * bnum (rrup >? $10) * bnum (rrup <=? $42)
   + ($0.54 + ($0.575 - $0.54) * (rrup - $42) / ($200 - $42)) * bnum (rrup >? $42))%flt.
(** Lines 246-249: source term. *)
Definition pr23_source (mag rrup : flt) : flt :=
  ($0 + $3.655 * fpowf $10 ((mag - $6.75) * $0.515) * bnum (mag <? $6.75)
   + $3.655 * fpowf $10 ((mag - $6.75) * pr23_c2 rrup) * bnum (mag >=? $6.75))%flt.
(** Lines 251-255: path term. *)
Definition pr23_path (rrup : flt) : flt :=
  ($0.041 * rrup
   + bnum (rrup <? $44) * ($0.063 * rrup)
   + bnum (rrup >=? $44) * bnum (rrup <? $130) * ($0.063 * $44 + $0.034 * (rrup - $44))
   + bnum (rrup >=? $130) * ($0.063 * $44 + $0.034 * ($130 - $44) + $0.083 * (rrup - $130)))%flt.
(** Lines 257-279: site term. *)
Definition pr23_sigma_vs30 (vs30 : flt) : flt :=
  ($0 + bnum (vs30 <? $2000) * bnum (vs30 >=? $2000 * $0.95) * $0.565 * (flog $2000 - flog vs30) / (flog $2000 - flog ($2000 * $0.95))
   + bnum (vs30 <? $2000 * $0.95) * bnum (vs30 >=? $275) * $0.565
   + bnum (vs30 <? $275) * bnum (vs30 >=? $200) * ($0.565 + ($1.11 - $0.565) * (flog $275 - flog vs30) / (flog $275 - flog $200))
   + bnum (vs30 <? $200) * $1.11)%flt.
Definition pr23_site (vs30 : flt) : flt :=
  ($(-0.619) * flog (vs30 / $2000) * fexp ($0.278 * pr23_sigma_vs30 vs30))%flt.
(** Line 282. *)
Definition pr23_median (mag rrup vs30 : flt) : flt := (pr23_source mag rrup + pr23_path rrup + pr23_site vs30)%flt.
(** Lines 284-305: standard deviation. *)
Definition pr23_sigma (mag rrup vs30 : flt) : flt :=
  (let sigma_vs30_std := fmin ($0.0206 * fpow ($200 / vs30) 2.401) $0.0419 in
   $0.537 + $(-0.093) * (rrup / $100) + $0.0278 * fsq (rrup / $100) + $(-0.0372) * mag + $0.00179 * fsq mag + sigma_vs30_std)%flt.

(** Lines 43-339, [_calc_duration]: median, plus and minus one standard deviation. *)
Definition pr23_calc (mag rrup vs30 energy : flt) : flt * flt * flt :=
  (let median := pr23_median mag rrup vs30 in
   let sigma := pr23_sigma mag rrup vs30 in
   if np_isclose energy $0.75 then
     (median, fpow (fpow median 0.3 + sigma) (1 / 0.3), fpow (fpow median 0.3 - sigma) (1 / 0.3))
   else
     let mask := argmin (map (fun c => fabs (qf (p_energy c) - energy)) pr23_table) in
     let c := nth mask pr23_table (Pr23Row 0 0 0 0 0 0 0) in
     let c_model := qf (p_cmed c) + qf (p_a0 c) + qf (p_r1x c) * rrup + qf (p_v1x c) * flog (vs30 / $2000) in
     let df_dalpha := fpow c_model 0.3 in
     let df_dc := fpow median 0.3 * $0.3 * fpow c_model (0.3 - 1) in
     let sigma_cond := fsqrt (fsq (df_dalpha * sigma) + fsq (df_dc * qf (p_std_c c)) + $2 * qf (p_r c) * df_dalpha * df_dc * sigma * qf (p_std_c c)) in
     (c_model * median, fpow (fpow (c_model * median) 0.3 + sigma_cond) (1 / 0.3), fpow (fpow (c_model * median) 0.3 - sigma_cond) (1 / 0.3)))%flt.

(** The object: its scenario and the three stored durations. *)
Record pr23_obj := Pr23 { pr23_scen : scen; pr23_dur : flt * flt * flt }.
Definition pr23_eval (s : scen) (energy : flt) : M (flt * flt * flt) :=
  (mag <- num s "mag" ;; rrup <- num s "dist_rup" ;; vs30 <- num s "v_s30" ;; ret (pr23_calc mag rrup vs30 energy))%py.
(** Lines 37-41, [__init__]. *)
Definition pr23 (src : dict) : M pr23_obj :=
  (s <- model_init pr23_params src ;; d <- pr23_eval s $0.75%flt ;; ret (Pr23 s d))%py.
(** Lines 341-354: the properties. *)
Definition pr23_duration (m : pr23_obj) : flt := fst (fst (pr23_dur m)).
Definition pr23_plus (m : pr23_obj) : flt := snd (fst (pr23_dur m)).
Definition pr23_minus (m : pr23_obj) : flt := snd (pr23_dur m).
(** Lines 356-382, [duration_for_energy]. *)
Definition pr23_for_energy (m : pr23_obj) (energy : flt) : M (flt * flt * flt) :=
  if ((energy <? $0.10) || (energy >? $0.95))%flt then raise EValue else pr23_eval (pr23_scen m) energy.
