(** * Idriss (2014): src/pygmm/idriss_2014.py *)

From Verif Require Export GmmLib Data_i14.
Open Scope R_scope.
Open Scope string_scope.

(** idriss_2014.py:23-44: class attributes. *)
Definition i14_class : gclass := {|
  gc_abbrev := "I14";
  gc_params := [NumP "dist_rup" true None (Some $150) PNone;
                NumP "mag" true (Some $5) None PNone;
                NumP "v_s30" true (Some $450) (Some $1200) PNone;
                CatP "mechanism" true ["SS"; "RS"] (PStr "SS")];
  gc_periods := map (fun c => qf (i14_period c)) i14_small_coeff;
  gc_psa := arange 0 22;
  gc_pga := Some 0%Z; gc_pgv := None; gc_pgd := None;
  gc_pgv_scale := $1; gc_pgd_scale := $1
|}%flt.

(** idriss_2014.py:52-80, [_calc_ln_resp] for one row of the selected table. *)
Definition i14_ln_resp (c : i14_row) (mag dist_rup v_s30 : flt) (is_rs : bool) : flt :=
  (let flag_mech := if is_rs then $1 else $0 in
   let f_mag := qf (i14_alpha_1 c) + qf (i14_alpha_2 c) * mag + qf (i14_alpha_3 c) * fsq ($8.5 - mag) in
   let f_dst := - (qf (i14_beta_1 c) + qf (i14_beta_2 c) * mag) * flog (dist_rup + $10)
                + qf (i14_gamma c) * dist_rup in
   let f_ste := qf (i14_epsilon c) * flog v_s30 in
   let f_mec := qf (i14_phi c) * flag_mech in
   f_mag + f_dst + f_ste + f_mec)%flt.

(** idriss_2014.py:62: the coefficient table by magnitude. *)
Definition i14_table (mag : flt) : list i14_row :=
  if (mag <=? $6.75)%flt then i14_small_coeff else i14_large_coeff.

(** idriss_2014.py:82-97, [_calc_ln_std] for one period. *)
Definition i14_ln_std (period mag : flt) : flt :=
  ($1.18 + $0.035 * flog (fclip period $0.05 $3.0) - $0.06 * fclip mag $5.0 $7.5)%flt.

(** idriss_2014.py:46-50, [__init__]. *)
Definition i14 (src : dict) : M gmm :=
  gmm_make i14_class src (fun s =>
    mag <- num s "mag" ;; mech <- sc_attr s "mechanism" ;;
    dist_rup <- num s "dist_rup" ;; v_s30 <- num s "v_s30" ;;
    ret (map (fun c => i14_ln_resp c mag dist_rup v_s30 (is_str mech "RS")) (i14_table mag),
         Some (map (fun t => i14_ln_std t mag) (gc_periods i14_class))))%py.
