(** * Kempton & Stewart (2006) duration: src/pygmm/kempton_stewart_2006.py *)

From Verif Require Export GmmLib.
Open Scope R_scope.
Open Scope string_scope.
Open Scope list_scope.

(** kempton_stewart_2006.py:23-27: PARAMS. *)
Definition ks06_params : list param :=
  [NumP "mag" true (Some $5) (Some $7.6) PNone;
   NumP "dist_rup" true (Some $0) (Some $200) PNone;
   NumP "v_s30" true (Some $200) (Some $1000) PNone]%flt.

(** Lines 71-81, [_as_recarray]: the fields D_5t75a, D_5t95a, D_5t75v, D_5t95v. *)
Record ks06_rec := Ks06Rec { D_5t75a : flt; D_5t95a : flt; D_5t75v : flt; D_5t95v : flt }.
Record ks06_obj := Ks06 { k06_scen : scen; k06_ln_dur : ks06_rec; k06_std : ks06_rec }.

(** Lines 83-86, [_source_dur], one stress drop. *)
Definition ks06_source (mag stress_drop : flt) : flt :=
  (let moment := fpowf $10 ($1.5 * mag + $16.05) in
   fpow (stress_drop / moment) (-1 / 3) / ($4900000 * $3.2))%flt.
(** Lines 36-58: ln of the duration, one measure: log of the stress drop, path slope,
    site intercept and slope. *)
Definition ks06_ln_dur (mag dist_rup v_s30 ln_sd path site0 site1 : flt) : flt :=
  (let f_0 := ks06_source mag (fexp ln_sd) in
   let f_1 := path * dist_rup in
   let f_2 := site0 + site1 * v_s30 in
   flog (f_0 + f_1 + f_2))%flt.
(** Lines 29-61, [__init__]. *)
Definition ks06 (src : dict) : M ks06_obj :=
  (s <- model_init ks06_params src ;;
   mag <- num s "mag" ;; dist_rup <- num s "dist_rup" ;; v_s30 <- num s "v_s30" ;;
   let d := ks06_ln_dur mag dist_rup v_s30 in
   ret (Ks06 s
     (Ks06Rec (d $6.02 $0.07 $0.82 $(-0.0013))
              (d ($2.79 + $0.82 * (mag - $6)) $0.15 $3.00 $(-0.0041))
              (d $5.46 $0.10 $1.40 $(-0.0022))
              (d ($1.53 + $1.34 * (mag - $6)) $0.15 $3.99 $(-0.0062)))%flt
     (Ks06Rec $0.57 $0.47 $0.66 $0.52)%flt))%py.
(** Lines 63-69: [duration] and [std_err]. *)
Definition ks06_duration (m : ks06_obj) : ks06_rec :=
  let l := k06_ln_dur m in Ks06Rec (fexp (D_5t75a l)) (fexp (D_5t95a l)) (fexp (D_5t75v l)) (fexp (D_5t95v l)).
Definition ks06_std_err (m : ks06_obj) : ks06_rec := k06_std m.
