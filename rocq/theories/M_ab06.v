(** * Atkinson & Boore (2006): src/pygmm/atkinson_boore_2006.py *)

From Verif Require Export GmmLib Data_ab06 Data_ab06s Data_ab06f M_pzt11.
Open Scope R_scope.
Open Scope string_scope.

(** atkinson_boore_2006.py:32: PERIODS, from the BC table (-2: PGD, -1: PGV, 0: PGA). *)
Definition ab06_periods : list flt := map (fun c => qf (ab06_period c)) ab06_bc_coeff.

(** atkinson_boore_2006.py:23-46: class attributes. *)
Definition ab06_class : gclass := {|
  gc_abbrev := "AB06";
  gc_params := [NumP "mag" true None None PNone;
                NumP "dist_rup" true None None PNone;
                NumP "v_s30" true None None PNone];
  gc_periods := ab06_periods;
  gc_psa := arange 3 24;
  gc_pga := Some 2%Z; gc_pgv := Some 1%Z; gc_pgd := Some 0%Z;
  gc_pgv_scale := $1; gc_pgd_scale := $1
|}%flt.

(** atkinson_boore_2006.py:65-83: log10 response at the reference condition, one row. *)
Definition ab06_ref (c : ab06_row) (mag dist_rup : flt) : flt :=
  (let r0 := $10.0 in let r1 := $70.0 in let r2 := $140.0 in
   let f0 := fmax (flog10 (r0 / dist_rup)) $0 in
   let f1 := fmin (flog10 dist_rup) (flog10 r1) in
   let f2 := fmax (flog10 (dist_rup / r2)) $0 in
   qf (ab06_c_1 c) + qf (ab06_c_2 c) * mag + qf (ab06_c_3 c) * fsq mag
   + (qf (ab06_c_4 c) + qf (ab06_c_5 c) * mag) * f1
   + (qf (ab06_c_6 c) + qf (ab06_c_7 c) * mag) * f2
   + (qf (ab06_c_8 c) + qf (ab06_c_9 c) * mag) * f0
   + qf (ab06_c_10 c) * dist_rup)%flt.

(** atkinson_boore_2006.py:114-130, [_calc_stress_factor], before the interpolation. *)
Definition ab06_sf_row (mag : flt) (c : ab06f_row) : flt :=
  (let stress_drop := pow10 ($3.45 - $0.2 * mag) in
   let v1 := qf (ab06f_delta c) + $0.05 in
   let v2 := $0.05 + qf (ab06f_delta c) * fmax (mag - qf (ab06f_m_1 c)) $0
                     / (qf (ab06f_m_h c) - qf (ab06f_m_1 c)) in
   fmin $2.0 (stress_drop / $140.0) * fmin v1 v2)%flt.
(** atkinson_boore_2006.py:132: interpolation on the model periods. *)
Definition ab06_stress (mag period : flt) : flt :=
  np_interp (map (fun c => qf (ab06f_period c)) ab06_sf_coeff) (map (ab06_sf_row mag) ab06_sf_coeff) period.

(** atkinson_boore_2006.py:134-167, [_calc_log10_site], before the interpolation. *)
Definition ab06_site_row (v_s30 pga_bc : flt) (c : ab06s_row) : flt :=
  (let VS_1 := $180.0 in let VS_2 := $300.0 in let VS_REF := $760.0 in
   let b_1 := qf (ab06s_b_1 c) in let b_2 := qf (ab06s_b_2 c) in
   let b_nl :=
     if v_s30 <=? VS_1 then b_1
     else if andb (VS_1 <? v_s30) (v_s30 <=? VS_2) then
       (b_1 - b_2) * flog (v_s30 / VS_2) / flog (VS_1 / VS_2)
     else if andb (VS_2 <? v_s30) (v_s30 <=? VS_REF) then
       b_2 * flog (v_s30 / VS_REF) / flog (VS_2 / VS_REF)
     else $0 in
   let pga_bc := pymax pga_bc $60.0 in
   flog10 (fexp (qf (ab06s_b_lin c) * flog (v_s30 / VS_REF) + b_nl * flog (pga_bc / $100.0))))%flt.
(** atkinson_boore_2006.py:168: interpolation on the model periods. *)
Definition ab06_site (v_s30 pga_bc period : flt) : flt :=
  np_interp (map (fun c => qf (ab06s_period c)) ab06_site_coeff) (map (ab06_site_row v_s30 pga_bc) ab06_site_coeff) period.

(** [if s.v_s30]: a number is true unless it is zero (NaN is true). *)
Definition nonzero (x : flt) : bool := negb (feqb x (Fin 0)).

(** atkinson_boore_2006.py:85-86: reference response with the stress adjustment; the rows
    of the selected table are paired with the periods of the BC table. *)
Definition ab06_log10_ref (mag dist_rup : flt) (cp : ab06_row * flt) : flt :=
  (ab06_ref (fst cp) mag dist_rup + ab06_stress mag (snd cp))%flt.

(** atkinson_boore_2006.py:54-100, [_calc_ln_resp].  [pga_bc] reads index 2. Without v_s30 the
    code adds no site term; the model adds zeros (the same sums). *)
Definition ab06_ln_resp (mag dist_rup v_s30 : flt) : M (list flt) :=
  (let c := if nonzero v_s30 then ab06_bc_coeff else ab06_rock_coeff in
   let rows := combine c ab06_periods in
   let log10_resp := map (ab06_log10_ref mag dist_rup) rows in
   site <- (if nonzero v_s30 then
              p <- arr_get log10_resp 2%Z ;;
              ret (map (ab06_site v_s30 (pow10 p)) ab06_periods)
            else ret (map (fun _ => Fin 0) ab06_periods)) ;;
   ret (map (fun xy => flog (pow10 (fst xy + snd xy - flog10 $980.665)%flt)) (combine log10_resp site)))%py.

(** atkinson_boore_2006.py:48-52 [__init__], 102-112 [_calc_ln_std]. *)
Definition ab06 (src : dict) : M gmm :=
  gmm_make ab06_class src (fun s =>
    mag <- num s "mag" ;; dist_rup <- num s "dist_rup" ;; v_s30 <- num s "v_s30" ;;
    ln_resp <- ab06_ln_resp mag dist_rup v_s30 ;;
    ret (ln_resp, Some (map (fun _ => Fin 0.30) ab06_periods)))%py.
