(** * Pezeshk, Zandieh & Tavakoli (2011): src/pygmm/pezeshk_zandieh_tavakoli_2011.py *)

From Verif Require Export GmmLib Data_pzt11.
Open Scope R_scope.
Open Scope string_scope.

(** pezeshk_zandieh_tavakoli_2011.py:23-39: class attributes. *)
Definition pzt11_class : gclass := {|
  gc_abbrev := "Pea11";
  gc_params := [NumP "mag" true (Some $5) (Some $8) PNone;
                NumP "dist_rup" true None (Some $1000) PNone];
  gc_periods := map (fun c => qf (pzt11_period c)) pzt11_coeff;
  gc_psa := arange 1 22;
  gc_pga := Some 0%Z; gc_pgv := None; gc_pgd := None;
  gc_pgv_scale := $1; gc_pgd_scale := $1
|}%flt.

(** 10 ** x and np.power(10, x). *)
Definition pow10 (x : flt) : flt := fexp (Fin (ln 10) * x)%flt.

(** pezeshk_zandieh_tavakoli_2011.py:47-73, [_calc_ln_resp] for one row. *)
Definition pzt11_ln_resp (c : pzt11_row) (mag dist_rup : flt) : flt :=
  (let dist := fsqrt (fsq dist_rup + fsq (qf (pzt11_c_11 c))) in
   let log10_resp :=
     qf (pzt11_c_1 c)
     + qf (pzt11_c_2 c) * mag
     + qf (pzt11_c_3 c) * fsq mag
     + (qf (pzt11_c_4 c) + qf (pzt11_c_5 c) * mag) * fmin (flog10 dist) (flog10 $70)
     + (qf (pzt11_c_6 c) + qf (pzt11_c_7 c) * mag)
       * fmax (fmin (flog10 (dist / $70)) (flog10 ($140 / $70))) $0
     + (qf (pzt11_c_8 c) + qf (pzt11_c_9 c) * mag) * fmax (flog10 (dist / $140)) $0
     + qf (pzt11_c_10 c) * dist in
   flog (pow10 log10_resp))%flt.

(** pezeshk_zandieh_tavakoli_2011.py:75-94, [_calc_ln_std] for one row. *)
Definition pzt11_ln_std (c : pzt11_row) (mag : flt) : flt :=
  (let ln_std_mean := if mag <=? $7.0 then qf (pzt11_c_12 c) * mag + qf (pzt11_c_13 c)
                      else $(-0.00695) * mag + qf (pzt11_c_14 c) in
   fsqrt (fsq ln_std_mean + fsq (qf (pzt11_sigma_reg c))))%flt.

(** pezeshk_zandieh_tavakoli_2011.py:41-45, [__init__]. *)
Definition pzt11 (src : dict) : M gmm :=
  gmm_make pzt11_class src (fun s =>
    mag <- num s "mag" ;; dist_rup <- num s "dist_rup" ;;
    ret (map (fun c => pzt11_ln_resp c mag dist_rup) pzt11_coeff,
         Some (map (fun c => pzt11_ln_std c mag) pzt11_coeff)))%py.
