(** * Tavakoli & Pezeshk (2005): src/pygmm/tavakoli_pezeshk_2005.py *)

From Verif Require Export GmmLib Data_tp05.
Open Scope R_scope.
Open Scope string_scope.

(** tavakoli_pezeshk_2005.py:23-39: class attributes. *)
Definition tp05_class : gclass := {|
  gc_abbrev := "TP05";
  gc_params := [NumP "dist_rup" true None (Some $1000) PNone;
                NumP "mag" true (Some $5.0) (Some $8.2) PNone];
  gc_periods := map (fun c => qf (tp05_period c)) tp05_coeff;
  gc_psa := arange 1 13;
  gc_pga := Some 0%Z; gc_pgv := None; gc_pgd := None;
  gc_pgv_scale := $1; gc_pgd_scale := $1
|}%flt.

(** tavakoli_pezeshk_2005.py:47-82, [_calc_ln_resp] for one row. *)
Definition tp05_ln_resp (c : tp05_row) (mag dist_rup : flt) : flt :=
  (let f1 := qf (tp05_c_1 c) + qf (tp05_c_2 c) * mag + qf (tp05_c_3 c) * fpow ($8.5 - mag) 2.5 in
   let f2 := qf (tp05_c_9 c) * flog (dist_rup + $4.5) in
   let f2 := if dist_rup >? $70 then f2 + qf (tp05_c_10 c) * flog (dist_rup / $70) else f2 in
   let f2 := if dist_rup >? $130 then f2 + qf (tp05_c_11 c) * flog (dist_rup / $130) else f2 in
   let dist := fsqrt (fsq dist_rup
                 + fsq (qf (tp05_c_5 c) * fexp (qf (tp05_c_6 c) * mag + qf (tp05_c_7 c) * fpow ($8.5 - mag) 2.5))) in
   let f3 := (qf (tp05_c_4 c) + qf (tp05_c_13 c) * mag) * flog dist
             + (qf (tp05_c_8 c) + qf (tp05_c_12 c) * mag) * dist in
   f1 + f2 + f3)%flt.

(** tavakoli_pezeshk_2005.py:84-101, [_calc_ln_std] for one row. *)
Definition tp05_ln_std (c : tp05_row) (mag : flt) : flt :=
  (if mag <? $7.2 then qf (tp05_c_14 c) + qf (tp05_c_15 c) * mag else qf (tp05_c_16 c))%flt.

(** tavakoli_pezeshk_2005.py:41-45, [__init__]. *)
Definition tp05 (src : dict) : M gmm :=
  gmm_make tp05_class src (fun s =>
    mag <- num s "mag" ;; dist_rup <- num s "dist_rup" ;;
    ret (map (fun c => tp05_ln_resp c mag dist_rup) tp05_coeff,
         Some (map (fun c => tp05_ln_std c mag) tp05_coeff)))%py.
