(** * Boore, Stewart, Seyhan & Atkinson (2014): src/pygmm/boore_stewart_seyhan_atkinson_2014.py *)

From Verif Require Export GmmLib Data_bssa14 M_cy14.
Open Scope R_scope.
Open Scope string_scope.

(** boore_stewart_seyhan_atkinson_2014.py:73-114: class attributes. *)
Definition bssa14_class : gclass := {|
  gc_abbrev := "BSSA14";
  gc_params := [NumP "mag" true (Some $3) (Some $8.5) PNone;
                NumP "depth_1_0" false None None PNone;
                NumP "dist_jb" true None (Some $300.0) PNone;
                NumP "v_s30" true (Some $150.0) (Some $1500.0) PNone;
                CatP "mechanism" false ["U"; "SS"; "NS"; "RS"] (PStr "U");
                CatP "region" false ["global"; "california"; "china"; "italy"; "japan"; "new_zealand"; "taiwan"; "turkey"]
                  (PStr "global")];
  gc_periods := map (fun c => qf (bssa14_period c)) bssa14_coeff;
  gc_psa := arange 2 105;
  gc_pga := Some 1%Z; gc_pgv := Some 0%Z; gc_pgd := None;
  gc_pgv_scale := $1; gc_pgd_scale := $1
|}%flt.

(** boore_stewart_seyhan_atkinson_2014.py:214-272, [calc_site_term] for one row.
    [depth_1_0] is None or a number; [region] is any value. *)
Definition bssa14_site_term (c : bssa14_row) (pga_ref v_s30 : flt) (depth_1_0 : option flt) (region : pyval) : flt :=
  (let f_lin := qf (bssa14_c c) * flog (fmin v_s30 (qf (bssa14_V_c c)) / qf (bssa14_V_ref c)) in
   let f_2 := qf (bssa14_f_4 c) * (fexp (qf (bssa14_f_5 c) * (pymin v_s30 $760 - $360.0))
                                   - fexp (qf (bssa14_f_5 c) * ($760.0 - $360.0))) in
   let f_nl := qf (bssa14_f_1 c) + f_2 * flog ((pga_ref + qf (bssa14_f_3 c)) / qf (bssa14_f_3 c)) in
   let ln_mz1 := flog (cy14_calc_depth_1_0 v_s30 region) in
   let delta := match depth_1_0 with Some d => d - fexp ln_mz1 | None => $0.0 end in
   let F_dz1 := if ($0.65 <=? qf (bssa14_period c)) then fmin (qf (bssa14_f_6 c) * delta) (qf (bssa14_f_7 c)) else $0 in
   f_lin + f_nl + F_dz1)%flt.

(** The scenario values read by the model. *)
Record bssa14_in := BSSA14In {
  bs_mag : flt; bs_dist_jb : flt; bs_v_s30 : flt; bs_depth_1_0 : pyval;
  bs_mechanism : pyval; bs_region : pyval }.

(** boore_stewart_seyhan_atkinson_2014.py:171-200: event and path terms of
    [_calc_ln_resp] for one row. *)
Definition bssa14_ln_ref (c : bssa14_row) (s : bssa14_in) : flt :=
  (let mag := bs_mag s in
   let event := if is_str (bs_mechanism s) "SS" then qf (bssa14_e_1 c)
                else if is_str (bs_mechanism s) "NS" then qf (bssa14_e_2 c)
                else if is_str (bs_mechanism s) "RS" then qf (bssa14_e_3 c)
                else qf (bssa14_e_0 c) in
   let event := if mag <=? qf (bssa14_M_h c)
                then event + (qf (bssa14_e_4 c) * (mag - qf (bssa14_M_h c)) + qf (bssa14_e_5 c) * fsq (mag - qf (bssa14_M_h c)))
                else event + qf (bssa14_e_6 c) * (mag - qf (bssa14_M_h c)) in
   let dc_3 := if pyin (bs_region s) [PStr "china"; PStr "turkey"] then qf (bssa14_dc_3ct c)
               else if pyin (bs_region s) [PStr "italy"; PStr "japan"] then qf (bssa14_dc_3ij c)
               else qf (bssa14_dc_3global c) in
   let dist := fsqrt (fsq (bs_dist_jb s) + fsq (qf (bssa14_h c))) in
   let path := (qf (bssa14_c_1 c) + qf (bssa14_c_2 c) * (mag - qf (bssa14_M_ref c))) * flog (dist / qf (bssa14_R_ref c))
               + (qf (bssa14_c_3 c) + dc_3) * (dist - qf (bssa14_R_ref c)) in
   event + path)%flt.

(** boore_stewart_seyhan_atkinson_2014.py:153-212, [_calc_ln_resp] for one row: the
    site term is called with depth_1_0 in the place of the region (lines 207-209). *)
Definition bssa14_ln_resp (c : bssa14_row) (s : bssa14_in) (depth : option flt) (pga_ref : flt) : flt :=
  (let site := if fisnan pga_ref then $0
               else bssa14_site_term c pga_ref (bs_v_s30 s) depth (bs_depth_1_0 s) in
   bssa14_ln_ref c s + site)%flt.

(** boore_stewart_seyhan_atkinson_2014.py:274-302, [_calc_ln_std] for one row. *)
Definition bssa14_ln_std (c : bssa14_row) (s : bssa14_in) : flt :=
  (let t := fclip (bs_mag s) $4.5 $5.5 - $4.5 in
   let tau := qf (bssa14_tau_1 c) + (qf (bssa14_tau_2 c) - qf (bssa14_tau_1 c)) * t in
   let phi := qf (bssa14_phi_1 c) + (qf (bssa14_phi_2 c) - qf (bssa14_phi_1 c)) * t in
   let phi := phi - qf (bssa14_dphi_V c) * fclip (flog (qf (bssa14_V_2 c) / bs_v_s30 s)
                      / flog (qf (bssa14_V_2 c) / qf (bssa14_V_1 c))) $0 $1 in
   let phi := phi + qf (bssa14_dphi_R c) * fclip (flog (fmax (bs_dist_jb s) $0.1 / qf (bssa14_R_1 c))
                      / flog (qf (bssa14_R_2 c) / qf (bssa14_R_1 c))) $0 $1 in
   fsqrt (fsq phi + fsq tau))%flt.

(** boore_stewart_seyhan_atkinson_2014.py:127-151, [_check_inputs] after the
    parameter checks: warnings only. *)
Definition bssa14_prep (s : scen) : M scen :=
  (mech <- sc_attr s "mechanism" ;; mag <- num s "mag" ;;
   let warn lo hi kind := if (lo <=? mag)%flt && (mag <=? hi)%flt then ret tt
       else emit [FText "Magnitude ("; FVal (PNum mag); FText ") exceeds recommended bounds ("; FVal (PNum lo);
                  FText " to "; FVal (PNum hi); FText kind] in
   (if is_str mech "SS" then warn ($3.0)%flt ($8.5)%flt ") for a strike-slip earthquake!"
    else if is_str mech "NS" then warn ($3.0)%flt ($7.0)%flt ") for a normal-slip earthquake!" else ret tt) ;;;
   ret s)%py.

Definition bssa14_read (s : scen) : M bssa14_in :=
  (mag <- num s "mag" ;; dist_jb <- num s "dist_jb" ;; v_s30 <- num s "v_s30" ;;
   depth_1_0 <- sc_attr s "depth_1_0" ;; mech <- sc_attr s "mechanism" ;; region <- sc_attr s "region" ;;
   ret (BSSA14In mag dist_jb v_s30 depth_1_0 mech region))%py.

(** The row of INDEX_PGA. *)
Definition bssa14_pga_row : bssa14_row := nth 1 bssa14_coeff (hd (Mk_bssa14_row 0 0 0 0 0 0 0 0 0 0 0 0 0 0 0 0 0 0 0 0 0 0 0 0 0 0 0 0 0 0 0 0 0 0 0 0 0) bssa14_coeff).

(** boore_stewart_seyhan_atkinson_2014.py:116-125, [__init__]. *)
Definition bssa14 (src : dict) : M gmm :=
  gmm_make_prep bssa14_class src bssa14_prep (fun s =>
    i <- bssa14_read s ;;
    depth <- (if is_none (bs_depth_1_0 i) then ret None else x <- as_num (bs_depth_1_0 i) ;; ret (Some x)) ;;
    let pga_ref := fexp (bssa14_ln_resp bssa14_pga_row i depth NaN) in
    ret (map (fun c => bssa14_ln_resp c i depth pga_ref) bssa14_coeff,
         Some (map (fun c => bssa14_ln_std c i) bssa14_coeff)))%py.
