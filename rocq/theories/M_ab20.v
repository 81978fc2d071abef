(** * Abrahamson & Bhasin (2020): src/pygmm/abrahamson_bhasin_2020.py *)

From Verif Require Export GmmLib.
Open Scope R_scope.
Open Scope string_scope.
Open Scope list_scope.

(** abrahamson_bhasin_2020.py:76-80: PARAMS. *)
Definition ab20_params : list param :=
  [NumP "dist_rup" true (Some $0) (Some $300) PNone; NumP "mag" true (Some $3) (Some $8) PNone;
   NumP "v_s30" true (Some $180) (Some $1500) PNone]%flt.
(** Lines 31-74: COEFFS, the two entries that can be reached. *)
Definition ab20_pga : dict :=
  [("a_1", PNum (Fin 4.77)); ("a_2", PNum (Fin 0.738)); ("a_3", PNum (Fin 0.484)); ("a_4", PNum (Fin 0.275));
   ("a_5", PNum (Fin (-0.036))); ("a_6", PNum (Fin (-0.332))); ("a_7", PNum (Fin (-0.44))); ("a_8", PNum (Fin 0));
   ("phi_1", PNum (Fin 0.32)); ("phi_2", PNum (Fin 0.42)); ("tau_1", PNum (Fin 0.12)); ("tau_2", PNum (Fin 0.26));
   ("M_1", PNum (Fin 5)); ("M_2", PNum (Fin 7))].
Definition ab20_psa1 : dict :=
  [("a_1", PNum (Fin 4.8)); ("a_2", PNum (Fin 0.82)); ("a_3", PNum (Fin 0.55)); ("a_4", PNum (Fin 0.27));
   ("a_5", PNum (Fin 0.054)); ("a_6", PNum (Fin (-0.382))); ("a_7", PNum (Fin (-0.21))); ("a_8", PNum (Fin 0));
   ("phi_1", PNum (Fin 0.28)); ("phi_2", PNum (Fin 0.38)); ("tau_1", PNum (Fin 0.12)); ("tau_2", PNum (Fin 0.17));
   ("M_1", PNum (Fin 5)); ("M_2", PNum (Fin 7))].

(** An argument of the constructor: left at its default, which is the object [Optional[float]] and not None
    (lines 85-87), None, or a number. *)
Inductive ab20_arg := ADefault | ANone | ANum (x : flt).
(** [np.log] of an argument: TypeError for the typing object and for None. *)
Definition ab20_log (a : ab20_arg) : M flt := match a with ANum x => ret (flog x) | _ => raise EType end.
(** [C.k] as a number. *)
Definition cnum (c : dict) (k : string) : M flt := (v <- coef_attr c k ;; as_num v)%py.

(** Lines 82-144, [__init__].  [src] is a Scenario, read directly (and not the checked copy).  Statements after the
    value is computed: the constructor returns a tuple, which is a TypeError. *)
Definition ab20 (src : dict) (psa pga psa_1s : ab20_arg) : M unit :=
  (model_init ab20_params src ;;;
   m <- match psa with
        | ANone => match pga with
                   | ANone => l <- ab20_log psa_1s ;; ret (ab20_psa1, l)
                   | _ => l <- ab20_log pga ;; ret (ab20_pga, l)
                   end
        | _ => raise ENotImpl
        end ;;
   let C := fst m in let ln_gm := snd m in
   let s := Scen src [] in
   mag <- num s "mag" ;;
   f_1 <- (if mag <? $5 then cnum C "a_2" else if mag >? $7.5 then cnum C "a_3"
           else a_2 <- cnum C "a_2" ;; a_3 <- cnum C "a_3" ;; ret (a_2 + (a_3 - a_2) * (mag - $5) / $2.5)%flt)%flt ;;
   a_1 <- cnum C "a_1" ;; a_4 <- cnum C "a_4" ;; a_5 <- cnum C "a_5" ;; a_6 <- cnum C "a_6" ;;
   dist_rup <- num s "dist_rup" ;;
   a_7 <- cnum C "a_7" ;; a_8 <- cnum C "a_8" ;;
   v_s30 <- cnum C "v_s30" ;;
   let ln_mean := (a_1 + f_1 * ln_gm + a_4 * (mag - $6) + a_5 * fsq ($8.5 - mag)
                   + a_6 * flog (dist_rup + $5 * fexp ($0.4 * (mag - $6))) + (a_7 + a_8 * (mag - $5)) * flog (v_s30 / $425))%flt in
   mag_1 <- cnum C "mag_1" ;;
   raise EType)%py.

(** Lines 146-160, [ln_period_pgv]. *)
Definition ab20_ln_period_pgv (mag : flt) : flt := ($(-4.09) + $0.66 * mag)%flt.
