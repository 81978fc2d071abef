(** * Abrahamson, Silva & Kamai (2014): src/pygmm/abrahamson_silva_kamai_2014.py *)

From Verif Require Export GmmLib Data_ask14 M_cy14.
Open Scope R_scope.
Open Scope string_scope.

(** abrahamson_silva_kamai_2014.py:25-64: class attributes. *)
Definition ask14_class : gclass := {|
  gc_abbrev := "ASK14";
  gc_params := [NumP "dist_rup" true None (Some $300) PNone;
                NumP "dist_jb" true None None PNone;
                NumP "mag" true (Some $3) (Some $8.5) PNone;
                NumP "v_s30" true (Some $180) (Some $1000) PNone;
                NumP "depth_1_0" false None None PNone;
                NumP "depth_tor" false None None PNone;
                NumP "dip" true None None PNone;
                NumP "dist_crjb" false None None (PNum $15);
                NumP "dist_x" false None None PNone;
                NumP "dist_y0" false None None PNone;
                NumP "width" false None None PNone;
                CatP "mechanism" true ["SS"; "NS"; "RS"] PNone;
                CatP "region" false ["global"; "california"; "china"; "italy"; "japan"; "taiwan"] (PStr "global");
                CatP "vs_source" false ["measured"; "inferred"] (PStr "measured");
                CatBoolP "is_aftershock" false [true; false] (PBool false);
                CatBoolP "on_hanging_wall" false [true; false] (PBool false)];
  gc_periods := map (fun c => qf (ask14_period c)) ask14_coeff;
  gc_psa := arange 0 22;
  gc_pga := Some (-2)%Z; gc_pgv := Some (-1)%Z; gc_pgd := None;
  gc_pgv_scale := $1; gc_pgd_scale := $1
|}%flt.

(** abrahamson_silva_kamai_2014.py:263-281, [calc_width] (km); 10 ** x as exp (x ln 10). *)
Definition ask14_calc_width (mag dip : flt) : flt :=
  pymin ($18 / fsin (fradians dip)) (fexp ((- $1.75 + $0.45 * mag) * $(ln 10)))%flt.
(** abrahamson_silva_kamai_2014.py:283-297, [calc_depth_tor] (km). *)
Definition ask14_calc_depth_tor (mag : flt) : flt := np_interp [$5.0; $7.2]%flt [$7.8; $0]%flt mag.
(** abrahamson_silva_kamai_2014.py:299-341, [calc_depth_1_0] (km). *)
Definition ask14_calc_depth_1_0 (v_s30 : flt) (region : pyval) : flt :=
  (if pyin region [PStr "japan"] then
     fexp (- $5.23 / $2 * flog ((fsq v_s30 + fsq $412) / (fsq $1360.0 + fsq $412))) / $1000
   else
     fexp (- $7.67 / $4 * flog ((fsq (fsq v_s30) + fsq (fsq $610)) / (fsq (fsq $1360.0) + fsq (fsq $610)))) / $1000)%flt.

(** The scenario values read by the model. *)
Record ask14_in := ASK14In {
  as_mag : flt; as_dist_rup : flt; as_dist_jb : flt; as_v_s30 : flt; as_depth_1_0 : option flt; as_depth_tor : flt;
  as_dip : flt; as_dist_crjb : flt; as_dist_x : option flt; as_dist_y0 : option flt; as_width : flt;
  as_mechanism : pyval; as_region : pyval; as_vs_source : pyval; as_aftershock : bool; as_hw : bool }.

(** Lines 113 and 187: the velocity above which the amplification is constant. *)
Definition ask14_v1 (c : ask14_row) : flt :=
  fexp (- $0.35 * flog (fclip (qf (ask14_period c)) $0.5 $3 / $0.5) + flog $1500)%flt.

(** abrahamson_silva_kamai_2014.py:155-217, [calc_site_term] for one row. *)
Definition ask14_site_term (c : ask14_row) (resp_ref v_s30 : flt) (depth_1_0 : option flt) (region : pyval) : flt :=
  (let vs_ratio := fmin v_s30 (ask14_v1 c) / qf (ask14_v_lin c) in
   let n := Q2R (ask14_n c) in
   let f5 := if vs_ratio <? $1 then
        qf (ask14_a10 c) * flog vs_ratio
        - qf (ask14_b c) * flog (resp_ref + qf (ask14_c c))
        + qf (ask14_b c) * flog (resp_ref + qf (ask14_c c) * fpow vs_ratio n)
      else (qf (ask14_a10 c) + qf (ask14_b c) * qf (ask14_n c)) * flog vs_ratio in
   let f10 := if v_s30 =? $1180.0 then $0 else
      match depth_1_0 with
      | None => $0
      | Some d =>
          let ln_depth_ratio := flog ((d + $0.01) / (ask14_calc_depth_1_0 v_s30 region + $0.01)) in
          let slope := np_interp [$150; $250; $400; $700]
              [qf (ask14_a43 c); qf (ask14_a44 c); qf (ask14_a45 c); qf (ask14_a46 c)] v_s30 in
          slope * ln_depth_ratio
      end in
   f5 + f10)%flt.

(** abrahamson_silva_kamai_2014.py:343-379, [_calc_f1] for one row. *)
Definition ask14_f1 (c : ask14_row) (s : ask14_in) : flt :=
  (let mag := as_mag s in
   let dist := fsqrt (fsq (as_dist_rup s)
                 + fsq (qf (ask14_c4 c) - (qf (ask14_c4 c) - $1) * fclip ($5 - mag) $0 $1)) in
   let m1 := qf (ask14_m1 c) in let m2 := qf (ask14_m2 c) in
   if mag <=? m2 then
     qf (ask14_a1 c) + (qf (ask14_a4 c) * (m2 - m1) + qf (ask14_a8 c) * fsq ($8.5 - m2)
        + qf (ask14_a6 c) * (mag - m2) + qf (ask14_a7 c) * fsq (mag - m2)
        + (qf (ask14_a2 c) + qf (ask14_a3 c) * (m2 - m1)) * flog dist + qf (ask14_a17 c) * as_dist_rup s)
   else
     let f1 := qf (ask14_a1 c) + (qf (ask14_a8 c) * fsq ($8.5 - mag)
        + (qf (ask14_a2 c) + qf (ask14_a3 c) * (mag - m1)) * flog dist + qf (ask14_a17 c) * as_dist_rup s) in
     if mag <=? m1 then f1 + qf (ask14_a4 c) * (mag - m1) else f1 + qf (ask14_a5 c) * (mag - m1))%flt.

(** abrahamson_silva_kamai_2014.py:381-420, [_calc_f4] for one row. [dist_x] None is
    rejected in [ask14_read] (comparison with None: TypeError). *)
Definition ask14_f4 (c : ask14_row) (s : ask14_in) : flt :=
  (let mag := as_mag s in
   let x := match as_dist_x s with Some x => x | None => NaN end in
   let t1 := pymin ($90 - as_dip s) $60 / $45 in
   let t2 := if mag <=? $5.5 then $0
      else if mag <? $6.5 then $1 + $0.2 * (mag - $6.5) - ($1 - $0.2) * fsq (mag - $6.5)
      else $1 + $0.2 * (mag - $6.5) in
   let r1 := as_width s * fcos (fradians (as_dip s)) in
   let r2 := $3 * r1 in
   let t3 := if x <? r1 then $0.25 + $1.5 * (x / r1) + - $0.75 * fsq (x / r1)
      else if x <? r2 then $1 - (x - r1) / (r2 - r1) else $0 in
   let t4 := fclip ($1 - fsq (as_depth_tor s) / $100) $0 $1 in
   let t5 := match as_dist_y0 s with
      | None => fclip ($1 - as_dist_jb s / $30) $0 $1
      | Some y0 => let y1 := x * $(tan (20 * (PI / 180))) in fclip ($1 - (y0 - y1) / $5) $0 $1 end in
   qf (ask14_a13 c) * t1 * t2 * t3 * t4 * t5)%flt.

(** abrahamson_silva_kamai_2014.py:137-151: regional term. *)
Definition ask14_freg (c : ask14_row) (s : ask14_in) (v_s30 : flt) : flt :=
  (if is_str (as_region s) "taiwan" then
     qf (ask14_a31 c) * flog (fmin v_s30 (ask14_v1 c) / qf (ask14_v_lin c)) + qf (ask14_a25 c) * as_dist_rup s
   else if is_str (as_region s) "china" then qf (ask14_a28 c) * as_dist_rup s
   else if is_str (as_region s) "japan" then
     np_interp [$150; $250; $350; $450; $600; $850; $1150]
       [qf (ask14_a36 c); qf (ask14_a37 c); qf (ask14_a38 c); qf (ask14_a39 c); qf (ask14_a40 c); qf (ask14_a41 c); qf (ask14_a42 c)] v_s30
     + qf (ask14_a29 c) * as_dist_rup s
   else $0)%flt.

(** abrahamson_silva_kamai_2014.py:85-153, [_calc_ln_resp] for one row. *)
Definition ask14_ln_resp (c : ask14_row) (s : ask14_in) (v_s30 resp_ref : flt) : flt :=
  (let mag := as_mag s in
   let f1 := ask14_f1 c s in
   let f4 := if as_hw s then ask14_f4 c s else $0 in
   let f6 := qf (ask14_a15 c) * fclip (as_depth_tor s / $20) $0 $1 in
   let taper := fclip (mag - $4) $0 $1 in
   let f7 := if is_str (as_mechanism s) "RS" then qf (ask14_a11 c) * taper else $0 in
   let f8 := if is_str (as_mechanism s) "NS" then qf (ask14_a12 c) * taper else $0 in
   let site_term := ask14_site_term c resp_ref v_s30 (as_depth_1_0 s) (as_region s) in
   let f11 := if as_aftershock s then qf (ask14_a14 c) * fclip ($1 - (as_dist_crjb s - $5) / $10) $0 $1 else $0 in
   f1 + f4 + f6 + f7 + f8 + f11 + ask14_freg c s v_s30 + site_term)%flt.

(** The reference response (line 80): V_REF and a NaN reference. *)
Definition ask14_ln_ref (c : ask14_row) (s : ask14_in) : flt := ask14_ln_resp c s ($1180.0)%flt NaN.

(** abrahamson_silva_kamai_2014.py:219-261, [_calc_ln_std] for one row: (ln_std, tau, phi). *)
Definition ask14_ln_std (c : ask14_row) (s : ask14_in) (psa_ref : flt) : flt * flt * flt :=
  (let mag := as_mag s in
   let phi_al := if is_str (as_region s) "japan"
      then qf (ask14_s5 c) + (qf (ask14_s6 c) - qf (ask14_s5 c)) * fclip ((as_dist_rup s - $30) / $50) $0 $1
      else let transition := fclip ((mag - $4) / $2) $0 $1 in
        if is_str (as_vs_source s) "measured"
        then qf (ask14_s1m c) + (qf (ask14_s2m c) - qf (ask14_s1m c)) * transition
        else qf (ask14_s1e c) + (qf (ask14_s2e c) - qf (ask14_s1e c)) * transition in
   let tau_b := qf (ask14_s3 c) + (qf (ask14_s4 c) - qf (ask14_s3 c)) * fclip ((mag - $5) / $2) $0 $1 in
   let phi_amp := $0.4 in
   let phi_b := fsqrt (fmax (fsq phi_al - fsq phi_amp) $0) in
   let deriv := (- qf (ask14_b c) * psa_ref) / (psa_ref + qf (ask14_c c))
      + (qf (ask14_b c) * psa_ref) / (psa_ref + qf (ask14_c c) * fpow (as_v_s30 s / qf (ask14_v_lin c)) (Q2R (ask14_n c))) in
   let deriv := if qf (ask14_v_lin c) <=? as_v_s30 s then $0 else deriv in
   let tau := tau_b * ($1 + deriv) in
   let phi := fsqrt (fsq phi_b * fsq ($1 + deriv) + fsq phi_amp) in
   (fsqrt (fsq phi + fsq tau), tau, phi))%flt.

(** abrahamson_silva_kamai_2014.py:66-74, [_check_inputs] after the parameter checks. *)
Definition ask14_prep (s : scen) : M scen :=
  (w <- ditem (s_data s) "width" ;; mag <- num s "mag" ;; dip <- num s "dip" ;;
   let s := if is_none w then sc_setitem s "width" (PNum (ask14_calc_width mag dip)) else s in
   t <- ditem (s_data s) "depth_tor" ;;
   let s := if is_none t then sc_setitem s "depth_tor" (PNum (ask14_calc_depth_tor mag)) else s in
   ret s)%py.

(** A number or None. *)
Definition opt_num (v : pyval) : M (option flt) :=
  if is_none v then ret None else (x <- as_num v ;; ret (Some x))%py.

Definition ask14_read (s : scen) : M ask14_in :=
  (mag <- num s "mag" ;; dist_rup <- num s "dist_rup" ;; dist_jb <- num s "dist_jb" ;; v_s30 <- num s "v_s30" ;;
   z <- sc_attr s "depth_1_0" ;; depth_1_0 <- opt_num z ;; depth_tor <- num s "depth_tor" ;; dip <- num s "dip" ;;
   dist_crjb <- num s "dist_crjb" ;; x <- sc_attr s "dist_x" ;; dist_x <- opt_num x ;;
   y <- sc_attr s "dist_y0" ;; dist_y0 <- opt_num y ;; width <- num s "width" ;;
   mech <- sc_attr s "mechanism" ;; region <- sc_attr s "region" ;; vs <- sc_attr s "vs_source" ;;
   af <- sc_attr s "is_aftershock" ;; hw <- sc_attr s "on_hanging_wall" ;;
   if truthy hw && match dist_x with None => true | Some _ => false end then raise EType
   else ret (ASK14In mag dist_rup dist_jb v_s30 depth_1_0 depth_tor dip dist_crjb dist_x dist_y0 width mech region vs
               (truthy af) (truthy hw)))%py.

(** abrahamson_silva_kamai_2014.py:76-83, [__init__]. *)
Definition ask14 (src : dict) : M gmm :=
  gmm_make_prep ask14_class src ask14_prep (fun s =>
    i <- ask14_read s ;;
    ret (map (fun c => ask14_ln_resp c i (as_v_s30 i) (fexp (ask14_ln_ref c i))) ask14_coeff,
         Some (map (fun c => fst (fst (ask14_ln_std c i (fexp (ask14_ln_ref c i))))) ask14_coeff)))%py.
