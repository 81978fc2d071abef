(** * Campbell & Bozorgnia (2014): src/pygmm/campbell_bozorgnia_2014.py *)

From Verif Require Export GmmLib Data_cb14 M_cy14.
Open Scope R_scope.
Open Scope string_scope.

(** campbell_bozorgnia_2014.py:22-63: class attributes. *)
Definition cb14_class : gclass := {|
  gc_abbrev := "CB14";
  gc_params := [NumP "depth_1_0" false None None PNone;
                NumP "depth_2_5" false (Some $0) (Some $10) PNone;
                NumP "depth_bor" false None None PNone;
                NumP "depth_bot" false None None (PNum $15.0);
                NumP "depth_hyp" false (Some $0) (Some $20) PNone;
                NumP "depth_tor" false (Some $0) (Some $20) PNone;
                NumP "dip" true (Some $15) (Some $90) PNone;
                NumP "dist_jb" true None None PNone;
                NumP "dist_rup" true None (Some $300) PNone;
                NumP "dist_x" true None None PNone;
                NumP "mag" true (Some $3.3) (Some $8.5) PNone;
                NumP "v_s30" true (Some $150) (Some $1500) PNone;
                NumP "width" false None None PNone;
                CatP "region" false ["global"; "california"; "japan"; "italy"; "china"] (PStr "global");
                CatP "mechanism" true ["SS"; "NS"; "RS"] PNone];
  gc_periods := map (fun c => qf (cb14_period c)) cb14_coeff;
  gc_psa := arange 0 21;
  gc_pga := Some (-2)%Z; gc_pgv := Some (-1)%Z; gc_pgd := None;
  gc_pgv_scale := $1; gc_pgd_scale := $1
|}%flt.

(** campbell_bozorgnia_2014.py:333-398, [calc_depth_2_5] (km). *)
Definition cb14_calc_depth_2_5 (v_s30 : flt) (region depth_1_0 : pyval) : M flt :=
  if truthy (PNum v_s30) then
    ret (if is_str region "japan" then fexp ($5.359 - $1.102 * flog v_s30)
         else fexp ($7.089 - $1.144 * flog v_s30))%flt
  else if truthy depth_1_0 then
    bind (as_num depth_1_0) (fun d =>
    ret (if is_str region "japan" then fexp ($0.408 - $1.745 * flog d)
         else fexp ($1.392 - $1.798 * flog d))%flt)
  else raise ENotImpl.

(** campbell_bozorgnia_2014.py:400-433, [calc_depth_hyp] (km). *)
Definition cb14_calc_depth_hyp (mag dip depth_tor depth_bor : flt) : flt :=
  (let ln_dZ := pymin (pymin (- $4.317 + $0.984 * mag) $2.325 + pymin ($0.0445 * (dip - $40)) $0)
                      (flog ($0.9 * (depth_bor - depth_tor))) in
   depth_tor + fexp ln_dZ)%flt.

(** campbell_bozorgnia_2014.py:435-464, [calc_width] (km); 10 ** x as exp (x ln 10). *)
Definition cb14_calc_width (mag dip depth_tor depth_bot : flt) : flt :=
  pymin (fsqrt (fexp ((mag - $4.07) / $0.98 * $(ln 10))))
        ((depth_bot - depth_tor) / fsin (fradians dip))%flt.

(** campbell_bozorgnia_2014.py:466-485, [calc_depth_bor] (km). *)
Definition cb14_calc_depth_bor (depth_tor dip width : flt) : flt :=
  (depth_tor + width * fsin (fradians dip))%flt.

(** [v == [..]] with a list on the right: a string, number or None never equals a list. *)
Definition pyeq_list (v : pyval) (l : list pyval) : bool := false.

(** The scenario values read by the model (attributes first, see [sc_attr]). *)
Record cb14_in := CB14In {
  cb_mag : flt; cb_dist_rup : flt; cb_dist_jb : flt; cb_dist_x : flt; cb_dip : flt; cb_width : flt;
  cb_depth_tor : flt; cb_depth_hyp : flt; cb_depth_2_5 : flt; cb_v_s30 : flt;
  cb_mechanism : pyval; cb_region : pyval }.

(** campbell_bozorgnia_2014.py:201-275, [calc_site_term] for one row.
    [ref_depth] is the result of calc_depth_2_5(v_s30, region). *)
Definition cb14_site_term (c : cb14_row) (pga_ref v_s30 depth_2_5 : flt) (region : pyval) (ref_depth : flt) : flt :=
  (let vs_ratio := v_s30 / qf (cb14_k_1 c) in
   let n := 1.18%R in
   let f_site := if v_s30 <=? qf (cb14_k_1 c) then
        qf (cb14_c_11 c) * flog vs_ratio
        + qf (cb14_k_2 c) * (flog (pga_ref + $1.88 * fpow vs_ratio n) - flog (pga_ref + $1.88))
      else (qf (cb14_c_11 c) + qf (cb14_k_2 c) * $n) * flog vs_ratio in
   let jp := is_str region "japan" in
   let f_site := if jp then
        (if v_s30 <=? $200 then
           f_site + (qf (cb14_c_12 c) + qf (cb14_k_2 c) * $n) * (flog vs_ratio - flog ($200 / qf (cb14_k_1 c)))
         else f_site + (qf (cb14_c_13 c) + qf (cb14_k_2 c) * $n) * flog vs_ratio)
      else f_site in
   let depth_2_5 := if fisnan pga_ref then ref_depth else depth_2_5 in
   let f_sed := if depth_2_5 <=? $1 then
        (if jp then qf (cb14_c_14 c) * (depth_2_5 - $1) + qf (cb14_c_15 c) * (depth_2_5 - $1)
         else qf (cb14_c_14 c) * (depth_2_5 - $1))
      else if depth_2_5 <=? $3 then $0
      else qf (cb14_c_16 c) * qf (cb14_k_3 c) * fexp (- $0.75) * ($1 - fexp (- $0.25 * (depth_2_5 - $3))) in
   f_site + f_sed)%flt.

(** campbell_bozorgnia_2014.py:131-137: magnitude term (a loop that stops at the
    first break magnitude not below mag). *)
Definition cb14_f_mag (c : cb14_row) (mag : flt) : flt :=
  (let f := qf (cb14_c_0 c) + qf (cb14_c_1 c) * mag in
   if $4.5 <? mag then
     let f := f + qf (cb14_c_2 c) * (mag - $4.5) in
     if $5.5 <? mag then
       let f := f + qf (cb14_c_3 c) * (mag - $5.5) in
       if $6.5 <? mag then f + qf (cb14_c_4 c) * (mag - $6.5) else f
     else f
   else f)%flt.

(** campbell_bozorgnia_2014.py:151-176: hanging-wall term. *)
Definition cb14_f_hng (c : cb14_row) (s : cb14_in) : flt :=
  (let R_1 := cb_width s * fcos (fradians (cb_dip s)) in
   let R_2 := $62 * cb_mag s - $350 in
   let f_hngRx := if cb_dist_x s <? $0 then $0
      else if cb_dist_x s <=? R_1 then
        (let ratio := cb_dist_x s / R_1 in
         qf (cb14_h_1 c) + qf (cb14_h_2 c) * ratio + qf (cb14_h_3 c) * fsq ratio)
      else
        (let ratio := (cb_dist_x s - R_1) / (R_2 - R_1) in
         fmax $0 (qf (cb14_h_4 c) + qf (cb14_h_5 c) * ratio + qf (cb14_h_6 c) * fsq ratio)) in
   let f_hngRrup := if cb_dist_rup s =? $0 then $1 else (cb_dist_rup s - cb_dist_jb s) / cb_dist_rup s in
   let f_hngM := if cb_mag s <=? $5.5 then $0
      else fmin (cb_mag s - $5.5) $1 * ($1 + qf (cb14_a_2 c) * (cb_mag s - $6.5)) in
   let f_hngZ := if $16.66 <? cb_depth_tor s then $0 else $1 - $0.06 * cb_depth_tor s in
   let f_hngDip := ($90 - cb_dip s) / $45 in
   qf (cb14_c_10 c) * f_hngRx * f_hngRrup * f_hngM * f_hngZ * f_hngDip)%flt.

(** campbell_bozorgnia_2014.py:110-199, [_calc_ln_resp] for one row. *)
Definition cb14_ln_resp (c : cb14_row) (s : cb14_in) (pga_ref v_s30 ref_depth : flt) : flt :=
  (let mag := cb_mag s in
   let f_mag := cb14_f_mag c mag in
   let f_dis := (qf (cb14_c_5 c) + qf (cb14_c_6 c) * mag)
                * flog (fsqrt (fsq (cb_dist_rup s) + fsq (qf (cb14_c_7 c)))) in
   let taper := fclip (mag - $4.5) $0 $1 in
   let f_flt := if is_str (cb_mechanism s) "RS" then qf (cb14_c_8 c) * taper
                else if is_str (cb_mechanism s) "NS" then qf (cb14_c_9 c) * taper else $0 in
   let f_hng := cb14_f_hng c s in
   let site_term := cb14_site_term c pga_ref v_s30 (cb_depth_2_5 s) (cb_region s) ref_depth in
   let f_hypH := fclip (cb_depth_hyp s - $7) $0 $13 in
   let f_hypM := qf (cb14_c_17 c) + (qf (cb14_c_18 c) - qf (cb14_c_17 c)) * fclip (mag - $5.5) $0 $1 in
   let f_hyp := f_hypH * f_hypM in
   let f_dip := qf (cb14_c_19 c) * cb_dip s * fclip ($5.5 - mag) $0 $1 in
   let dc_20 := if pyin (cb_region s) [PStr "japan"; PStr "italy"] then qf (cb14_dc_20jp c)
                else if pyeq_list (cb_region s) [PStr "china"] then qf (cb14_dc_20ch c)
                else qf (cb14_dc_20ca c) in
   let f_atn := (qf (cb14_c_20 c) + dc_20) * pymax (cb_dist_rup s - $80) $0 in
   f_mag + f_dis + f_flt + f_hng + site_term + f_hyp + f_dip + f_atn)%flt.

(** The row of INDEX_PGA. *)
Definition cb14_row0 : cb14_row := hd (Mk_cb14_row 0 0 0 0 0 0 0 0 0 0 0 0 0 0 0 0 0 0 0 0 0 0 0 0 0 0 0 0 0 0 0 0 0 0 0 0 0 0 0 0 0 0 0 0 0 0) cb14_coeff.
Definition cb14_pga_row : cb14_row := nth 21 cb14_coeff cb14_row0.

(** campbell_bozorgnia_2014.py:277-331, [_calc_ln_std]: its parts for one row. *)
Definition cb14_tau_lnY (c : cb14_row) (mag : flt) : flt :=
  (qf (cb14_tau_2 c) + (qf (cb14_tau_1 c) - qf (cb14_tau_2 c)) * fclip ($5.5 - mag) $0 $1)%flt.
Definition cb14_phi_lnY (c : cb14_row) (mag : flt) : flt :=
  (qf (cb14_phi_2 c) + (qf (cb14_phi_1 c) - qf (cb14_phi_2 c)) * fclip ($5.5 - mag) $0 $1)%flt.
Definition cb14_alpha (c : cb14_row) (pga_ref v_s30 : flt) : flt :=
  (if v_s30 <? qf (cb14_k_1 c) then
     let vs_ratio := v_s30 / qf (cb14_k_1 c) in
     qf (cb14_k_2 c) * pga_ref * ($1 / (pga_ref + $1.88 * fpow vs_ratio 1.18) - $1 / (pga_ref + $1.88))
   else $0)%flt.
(** (ln_std, tau, phi) *)
Definition cb14_ln_std (c : cb14_row) (mag v_s30 pga_ref : flt) : flt * flt * flt :=
  (let tau_lnY := cb14_tau_lnY c mag in
   let phi_lnY := cb14_phi_lnY c mag in
   let alpha := cb14_alpha c pga_ref v_s30 in
   let rho := qf (cb14_rho_lnPGAlnY c) in
   let tau_lnPGA := cb14_tau_lnY cb14_pga_row mag in
   let tau := fsqrt (fsq tau_lnY + fsq alpha * fsq tau_lnPGA + $2 * alpha * rho * tau_lnY * tau_lnPGA) in
   let phi_lnPGA := cb14_phi_lnY cb14_pga_row mag in
   let phi_lnAF_PGA := qf (cb14_phi_lnAF cb14_pga_row) in
   let phi_lnPGA_B := fsqrt (fsq phi_lnPGA - fsq phi_lnAF_PGA) in
   let phi_lnY_B := fsqrt (fsq phi_lnY - fsq (qf (cb14_phi_lnAF c))) in
   let phi := fsqrt (fsq phi_lnY_B + fsq (qf (cb14_phi_lnAF c)) + fsq alpha * (fsq phi_lnPGA - fsq phi_lnAF_PGA)
                     + $2 * alpha * rho * phi_lnY_B * phi_lnPGA_B) in
   (fsqrt (fsq phi + fsq tau), tau, phi))%flt.

(** [if s.k is None: s.k = v]: an attribute assignment. *)
Definition set_if_none (s : scen) (k : string) (v : M flt) : M scen :=
  (x <- sc_attr s k ;; if is_none x then y <- v ;; ret (sc_setattr s k (PNum y)) else ret s)%py.

(** campbell_bozorgnia_2014.py:65-96, [_check_inputs] after the parameter checks. *)
Definition cb14_prep (s : scen) : M scen :=
  (mech <- sc_attr s "mechanism" ;; mag <- num s "mag" ;; v_s30 <- num s "v_s30" ;; dip <- num s "dip" ;;
   let warn m limit := if pyeq (PStr m) mech && (limit <? mag)%flt
       then emit [FText "Magnitude of "; FVal (PNum mag); FText " is greater than the recommended limit of";
                  FVal (PNum limit); FText " for "; FText m; FText " style faults"] else ret tt in
   warn "SS" ($8.5)%flt ;;; warn "RS" ($8.0)%flt ;;; warn "NS" ($7.5)%flt ;;;
   region <- sc_attr s "region" ;; depth_1_0 <- sc_attr s "depth_1_0" ;; depth_bot <- sc_attr s "depth_bot" ;;
   s <- set_if_none s "depth_2_5" (cb14_calc_depth_2_5 v_s30 region depth_1_0) ;;
   s <- set_if_none s "depth_tor" (ret (cy14_calc_depth_tor mag mech)) ;;
   s <- set_if_none s "width" (depth_tor <- num s "depth_tor" ;; bot <- as_num depth_bot ;;
                               ret (cb14_calc_width mag dip depth_tor bot)) ;;
   s <- set_if_none s "depth_bor" (depth_tor <- num s "depth_tor" ;; width <- num s "width" ;;
                                   ret (cb14_calc_depth_bor depth_tor dip width)) ;;
   s <- set_if_none s "depth_hyp" (depth_tor <- num s "depth_tor" ;; depth_bor <- num s "depth_bor" ;;
                                   ret (cb14_calc_depth_hyp mag dip depth_tor depth_bor)) ;;
   ret s)%py.

Definition cb14_read (s : scen) : M cb14_in :=
  (mag <- num s "mag" ;; dist_rup <- num s "dist_rup" ;; dist_jb <- num s "dist_jb" ;; dist_x <- num s "dist_x" ;;
   dip <- num s "dip" ;; width <- num s "width" ;; depth_tor <- num s "depth_tor" ;; depth_hyp <- num s "depth_hyp" ;;
   depth_2_5 <- num s "depth_2_5" ;; v_s30 <- num s "v_s30" ;; mech <- sc_attr s "mechanism" ;; region <- sc_attr s "region" ;;
   ret (CB14In mag dist_rup dist_jb dist_x dip width depth_tor depth_hyp depth_2_5 v_s30 mech region))%py.

(** campbell_bozorgnia_2014.py:106: log of the PGA at the reference velocity, 1100 m/s. *)
Definition cb14_pga_ref (i : cb14_in) (ref_depth : flt) : flt :=
  fexp (cb14_ln_resp cb14_pga_row i NaN ($1100)%flt ref_depth).

(** campbell_bozorgnia_2014.py:98-108, [__init__]. The second call of _calc_ln_resp
    uses calc_depth_2_5 only if pga_ref is NaN. *)
Definition cb14 (src : dict) : M gmm :=
  gmm_make_prep cb14_class src cb14_prep (fun s =>
    i <- cb14_read s ;;
    ref_depth <- cb14_calc_depth_2_5 ($1100)%flt (cb_region i) PNone ;;
    let pga_ref := cb14_pga_ref i ref_depth in
    ref_depth2 <- (if fisnan pga_ref then cb14_calc_depth_2_5 (cb_v_s30 i) (cb_region i) PNone else ret NaN) ;;
    ret (map (fun c => cb14_ln_resp c i pga_ref (cb_v_s30 i) ref_depth2) cb14_coeff,
         Some (map (fun c => fst (fst (cb14_ln_std c (cb_mag i) (cb_v_s30 i) pga_ref))) cb14_coeff)))%py.
