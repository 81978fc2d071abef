(** * Campbell (2003): src/pygmm/campbell_2003.py *)

From Verif Require Export GmmLib Data_c03.
Open Scope R_scope.
Open Scope string_scope.

(** campbell_2003.py:23-37: class attributes. *)
Definition c03_class : gclass := {|
  gc_abbrev := "C03";
  gc_params := [NumP "mag" true (Some $5.0) (Some $8.2) PNone;
                NumP "dist_rup" true None (Some $1000.0) PNone];
  gc_periods := map (fun c => qf (c03_period c)) c03_coeff;
  gc_psa := arange 0 16;
  gc_pga := None; gc_pgv := None; gc_pgd := None;
  gc_pgv_scale := $1; gc_pgd_scale := $1
|}%flt.

(** campbell_2003.py:45-78, [_calc_ln_resp] for one row. *)
Definition c03_ln_resp (c : c03_row) (mag dist_rup : flt) : flt :=
  (let f_1 := qf (c03_c_2 c) * mag + qf (c03_c_3 c) * fsq ($8.5 - mag) in
   let f_2 := qf (c03_c_4 c)
              * flog (fsqrt (fsq dist_rup + fsq (qf (c03_c_7 c) * fexp (qf (c03_c_8 c) * mag))))
              + (qf (c03_c_5 c) + qf (c03_c_6 c) * mag) * dist_rup in
   let r_1 := $70 in
   let r_2 := $130 in
   let f_3 := if dist_rup <=? r_1 then $0
              else
                let f := qf (c03_c_9 c) * (flog dist_rup - flog r_1) in
                if r_2 <? dist_rup then f + qf (c03_c_10 c) * (flog dist_rup - flog r_2) else f in
   qf (c03_c_1 c) + f_1 + f_2 + f_3)%flt.

(** campbell_2003.py:80-97, [_calc_ln_std] for one row. *)
Definition c03_ln_std (c : c03_row) (mag : flt) : flt :=
  (if mag <? $7.16 then qf (c03_c_11 c) + qf (c03_c_12 c) * mag else qf (c03_c_13 c))%flt.

(** campbell_2003.py:39-43, [__init__]. *)
Definition c03 (src : dict) : M gmm :=
  gmm_make c03_class src (fun s =>
    mag <- num s "mag" ;; dist_rup <- num s "dist_rup" ;;
    ret (map (fun c => c03_ln_resp c mag dist_rup) c03_coeff,
         Some (map (fun c => c03_ln_std c mag) c03_coeff)))%py.
