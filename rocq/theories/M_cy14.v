(** * Chiou & Youngs (2014): src/pygmm/chiou_youngs_2014.py *)

From Verif Require Export GmmLib Data_cy14.
Open Scope R_scope.
Open Scope string_scope.

(** chiou_youngs_2014.py:27-60: class attributes. *)
Definition cy14_class : gclass := {|
  gc_abbrev := "CY14";
  gc_params := [NumP "dist_rup" true (Some $0) (Some $300) PNone;
                NumP "dist_x" true None None PNone;
                NumP "dist_jb" true None None PNone;
                NumP "mag" true (Some $3.5) (Some $8.5) PNone;
                NumP "v_s30" true (Some $180) (Some $1500) PNone;
                NumP "depth_tor" false (Some $0) (Some $20) PNone;
                NumP "depth_1_0" false None None PNone;
                NumP "dpp_centered" false None None (PNum $0);
                NumP "dip" true None None PNone;
                CatP "mechanism" false ["U"; "SS"; "NS"; "RS"] (PStr "U");
                CatBoolP "on_hanging_wall" false [true; false] (PBool false);
                CatP "region" false ["california"; "china"; "italy"; "japan"] (PStr "california");
                CatP "vs_source" false ["measured"; "inferred"] (PStr "measured")];
  gc_periods := map (fun c => qf (cy14_period c)) cy14_coeff;
  gc_psa := arange 0 24;
  gc_pga := Some 24%Z; gc_pgv := Some 25%Z; gc_pgd := None;
  gc_pgv_scale := $1; gc_pgd_scale := $1
|}%flt.

(** [np.radians]. *)
Definition fradians (x : flt) : flt := (x * $(PI / 180))%flt.

(** chiou_youngs_2014.py:290-325, [calc_depth_1_0] (km). [region] is any value:
    boore_stewart_seyhan_atkinson_2014.py passes a number. *)
Definition cy14_calc_depth_1_0 (v_s30 : flt) (region : pyval) : flt :=
  (if pyin region [PStr "japan"] then
     fexp ($(-5.23 / 2) * flog ((fsq v_s30 + fsq $412.39) / (fsq $1360.0 + fsq $412.39))) / $1000
   else
     fexp ($(-7.15 / 4) * flog ((fsq (fsq v_s30) + fsq (fsq $570.94)) / (fsq (fsq $1360.0) + fsq (fsq $570.94)))) / $1000)%flt.

(** chiou_youngs_2014.py:327-352, [calc_depth_tor] (km). *)
Definition cy14_calc_depth_tor (mag : flt) (mechanism : pyval) : flt :=
  (let depth_tor :=
     if is_str mechanism "RS" then $2.704 - $1.226 * pymax (mag - $5.849) $0
     else $2.673 - $1.136 * pymax (mag - $4.970) $0 in
   fsq (pymax depth_tor $0))%flt.

(** The scenario values read by the model. *)
Record cy14_in := CY14In {
  cy_mag : flt; cy_dist_rup : flt; cy_dist_x : flt; cy_dist_jb : flt; cy_v_s30 : flt;
  cy_depth_tor : flt; cy_depth_1_0 : flt; cy_dpp : flt; cy_dip : flt;
  cy_mechanism : pyval; cy_hw : bool; cy_region : pyval; cy_vs_source : pyval }.

(** chiou_youngs_2014.py:81-100: the part of [_calc_ln_resp_ref] that does not use
    the distance, for one row. *)
Definition cy14_ln_source (c : cy14_row) (s : cy14_in) : flt :=
  (let mag := cy_mag s in
   let cosh_mag := fcosh ($2 * pymax (mag - $4.5) $0) in
   let ln_resp := qf (cy14_c_1 c) in
   (* 84-89: fault mechanism *)
   let ln_resp := if is_str (cy_mechanism s) "RS" then ln_resp + (qf (cy14_c_1a c) + qf (cy14_c_1c c) / cosh_mag)
                  else if is_str (cy_mechanism s) "NS" then ln_resp + (qf (cy14_c_1b c) + qf (cy14_c_1d c) / cosh_mag)
                  else ln_resp in
   (* 92-93: magnitude scaling *)
   let ln_resp := ln_resp + qf (cy14_c_2 c) * (mag - $6) in
   let ln_resp := ln_resp + (qf (cy14_c_2 c) - qf (cy14_c_3 c)) / qf (cy14_c_n c)
                            * flog ($1 + fexp (qf (cy14_c_n c) * (qf (cy14_c_m c) - mag))) in
   (* 96-97: depth to top of rupture *)
   let diff_depth_tor := cy_depth_tor s - cy14_calc_depth_tor mag (cy_mechanism s) in
   let ln_resp := ln_resp + (qf (cy14_c_7 c) + qf (cy14_c_7b c) / cosh_mag) * diff_depth_tor in
   (* 100: dip *)
   ln_resp + (qf (cy14_c_11 c) + qf (cy14_c_11b c) / cosh_mag) * fsq (fcos (fradians (cy_dip s))))%flt.

(** chiou_youngs_2014.py:69-139, [_calc_ln_resp_ref] for one row. *)
Definition cy14_ln_ref (c : cy14_row) (s : cy14_in) : flt :=
  (let mag := cy_mag s in
   let ln_resp := cy14_ln_source c s in
   (* 103-106: distance *)
   let ln_resp := ln_resp + qf (cy14_c_4 c) * flog (cy_dist_rup s
                    + qf (cy14_c_5 c) * fcosh (qf (cy14_c_6 c) * fmax (mag - qf (cy14_c_hm c)) $0)) in
   let ln_resp := ln_resp + (qf (cy14_c_4a c) - qf (cy14_c_4 c))
                            * flog (fsqrt (fsq (cy_dist_rup s) + fsq (qf (cy14_c_rb c)))) in
   (* 109-119: anelastic attenuation *)
   let scale := if pyin (cy_region s) [PStr "japan"; PStr "italy"] && (($6 <? mag) && (mag <? $6.9))
                then qf (cy14_gamma_ji c)
                else if pyin (cy_region s) [PStr "china"] then qf (cy14_gamma_c c)
                else $1 in
   let ln_resp := ln_resp + scale * (qf (cy14_c_gamma1 c)
                    + qf (cy14_c_gamma2 c) / fcosh (fmax (mag - qf (cy14_c_gamma3 c)) $0)) * cy_dist_rup s in
   (* 122-128: directivity *)
   let ln_resp := ln_resp + qf (cy14_c_8 c) * pymax ($1 - pymax (cy_dist_rup s - $40) $0 / $30) $0
                    * pymin (pymax (mag - $5.5) $0 / $0.8) $1
                    * fexp (- qf (cy14_c_8a c) * fsq (mag - qf (cy14_c_8b c))) * cy_dpp s in
   (* 131-137: hanging wall *)
   if cy_hw s then
     ln_resp + qf (cy14_c_9 c) * fcos (fradians (cy_dip s))
       * (qf (cy14_c_9a c) + ($1 - qf (cy14_c_9a c)) * ftanh (cy_dist_x s / qf (cy14_c_9b c)))
       * ($1 - fsqrt (fsq (cy_dist_jb s) + fsq (cy_depth_tor s)) / (cy_dist_rup s + $1))
   else ln_resp)%flt.

(** chiou_youngs_2014.py:163-218, [calc_site_term] for one row. *)
Definition cy14_site_term (c : cy14_row) (resp_ref v_s30 depth_1_0 : flt) (region : pyval) : flt :=
  (let jp := pyin region [PStr "japan"] in
   let phi_1 := if jp then qf (cy14_phi_1jp c) else qf (cy14_phi_1 c) in
   let phi_5 := if jp then qf (cy14_phi_5jp c) else qf (cy14_phi_5 c) in
   let phi_6 := if jp then qf (cy14_phi_6jp c) else qf (cy14_phi_6 c) in
   let ln_resp_ref := flog resp_ref in
   let site_term := phi_1 * pymin (flog (v_s30 / $1130.0)) $0 in
   let site_term := site_term + qf (cy14_phi_2 c)
        * (fexp (qf (cy14_phi_3 c) * (pymin v_s30 $1130.0 - $360.0))
           - fexp (qf (cy14_phi_3 c) * ($1130.0 - $360.0)))
        * flog ((fexp ln_resp_ref + qf (cy14_phi_4 c)) / qf (cy14_phi_4 c)) in
   let diff_depth_1_0 := $1000 * (depth_1_0 - cy14_calc_depth_1_0 v_s30 region) in
   site_term + phi_5 * ($1 - fexp (- diff_depth_1_0 / phi_6)))%flt.

(** chiou_youngs_2014.py:220-261, [_calc_ln_std] for one row. *)
Definition cy14_ln_std (c : cy14_row) (resp_ref : flt) (s : cy14_in) : flt :=
  (let sigma_2 := if pyin (cy_region s) [PStr "japan"] then qf (cy14_sigma_2jp c) else qf (cy14_sigma_2 c) in
   let clipped_mag := fclip (cy_mag s) $5.0 $6.5 - $5.0 in
   let tau := qf (cy14_tau_1 c) + (qf (cy14_tau_2 c) - qf (cy14_tau_1 c)) / $1.5 * clipped_mag in
   let nl_0 := qf (cy14_phi_2 c)
        * (fexp (qf (cy14_phi_3 c) * (pymin (cy_v_s30 s) $1130.0 - $360.0))
           - fexp (qf (cy14_phi_3 c) * ($1130.0 - $360.0)))
        * (resp_ref / (resp_ref + qf (cy14_phi_4 c))) in
   let flag_meas := if is_str (cy_vs_source s) "measured" then $1 else $0 in
   let phi_nl := (qf (cy14_sigma_1 c) + (sigma_2 - qf (cy14_sigma_1 c)) / $1.5 * clipped_mag)
        * fsqrt (qf (cy14_sigma_3 c) * ($1 - flag_meas) + $0.7 * flag_meas + fsq ($1 + nl_0)) in
   fsqrt (fsq ($1 + nl_0) * fsq tau + fsq phi_nl))%flt.

(** chiou_youngs_2014.py:263-288, [_check_inputs] after the parameter checks; the
    warning is a logging call. *)
Definition cy14_prep (s : scen) : M scen :=
  (mech <- sc_attr s "mechanism" ;; mag <- num s "mag" ;;
   let lo := ($3.5)%flt in
   let hi := (if pyin mech [PStr "RS"; PStr "NS"] then $8.0 else $8.5)%flt in
   (if (lo <=? mag)%flt && (mag <=? hi)%flt then ret tt
    else emit [FText "Magnitude ("; FVal (PNum mag); FText ") exceeds recommended bounds ("; FVal (PNum lo);
               FText " to "; FVal (PNum hi); FText ") for a "; FVal mech; FText " earthquake!"]) ;;;
   let s := if is_none (dget_none (s_data s) "depth_tor")
            then sc_setitem s "depth_tor" (PNum (cy14_calc_depth_tor mag mech)) else s in
   if is_none (dget_none (s_data s) "depth_1_0") then
     v_s30 <- num s "v_s30" ;; region <- sc_attr s "region" ;;
     ret (sc_setitem s "depth_1_0" (PNum (cy14_calc_depth_1_0 v_s30 region)))
   else ret s)%py.

(** Reading the scenario. *)
Definition cy14_read (s : scen) : M cy14_in :=
  (mag <- num s "mag" ;; dist_rup <- num s "dist_rup" ;; dist_x <- num s "dist_x" ;;
   dist_jb <- num s "dist_jb" ;; v_s30 <- num s "v_s30" ;; depth_tor <- num s "depth_tor" ;;
   depth_1_0 <- num s "depth_1_0" ;; dpp <- num s "dpp_centered" ;; dip <- num s "dip" ;;
   mech <- sc_attr s "mechanism" ;; hw <- sc_attr s "on_hanging_wall" ;; region <- sc_attr s "region" ;;
   vs_source <- sc_attr s "vs_source" ;;
   ret (CY14In mag dist_rup dist_x dist_jb v_s30 depth_tor depth_1_0 dpp dip mech (truthy hw) region vs_source))%py.

(** chiou_youngs_2014.py:141-161, [_calc_ln_resp_site] for one row. *)
Definition cy14_ln_resp (c : cy14_row) (s : cy14_in) : flt :=
  (cy14_ln_ref c s
   + cy14_site_term c (fexp (cy14_ln_ref c s)) (cy_v_s30 s) (cy_depth_1_0 s) (cy_region s))%flt.

(** chiou_youngs_2014.py:62-67, [__init__]. SIMPLIFICATION: [dist_x], [dist_jb] are
    read even if the site is not on the hanging wall; they are required numbers. *)
Definition cy14 (src : dict) : M gmm :=
  gmm_make_prep cy14_class src cy14_prep (fun s =>
    i <- cy14_read s ;;
    ret (map (fun c => cy14_ln_resp c i) cy14_coeff,
         Some (map (fun c => cy14_ln_std c (fexp (cy14_ln_ref c i)) i) cy14_coeff)))%py.
