(** * Tavakoli & Pezeshk (2005) for plain Python floats: src/pygmm/tavakoli_pezeshk_2005.py

    [M_tp05.tp05] is the model for numpy scalars (np.float64), for which a
    fractional power of a negative number is NaN. For a plain Python float the
    expression [(8.5 - s.mag) ** 2.5] (lines 61 and 76) of a negative base is a
    *complex* number, and every array computed from it is then complex. *)
From Coquelicot Require Import Coquelicot.
From Coq Require Import List.
From Verif Require Import M_tp05.
Open Scope R_scope.
Open Scope string_scope.
Open Scope list_scope.

(** numpy's complex elementary functions, principal branches. *)
Definition c_exp (z : Complex.C) : Complex.C := (exp (Re z) * cos (Im z), exp (Re z) * sin (Im z)).
Definition c_abs (z : Complex.C) : R := sqrt (Re z ^ 2 + Im z ^ 2).
Definition c_arg (z : Complex.C) : R :=
  if Rltb 0 (Re z) then atan (Im z / Re z)
  else if Rltb (Re z) 0 then (if Rltb (Im z) 0 then atan (Im z / Re z) - PI else atan (Im z / Re z) + PI)
  else if Rltb 0 (Im z) then PI / 2 else if Rltb (Im z) 0 then - (PI / 2) else 0.
Definition c_log (z : Complex.C) : Complex.C := (ln (c_abs z), c_arg z).
Definition c_sqrt (z : Complex.C) : Complex.C := (sqrt (c_abs z) * cos (c_arg z / 2), sqrt (c_abs z) * sin (c_arg z / 2)).

(** Python's [x ** p] for floats, [x < 0] and non-integer [p] (float.__pow__ defers to complex). *)
Definition py_neg_pow (x p : R) : Complex.C := (Rpower (- x) p * cos (p * PI), Rpower (- x) p * sin (p * PI)).

(** tavakoli_pezeshk_2005.py:47-82 for one row, the magnitude a Python float above 8.5, dist_rup >= 0. *)
Definition tp05_ln_resp_c (c : tp05_row) (mag dist_rup : R) : Complex.C :=
  (let big := py_neg_pow (8.5 - mag) 2.5 in
   let f1 := RtoC (Q2R (tp05_c_1 c) + Q2R (tp05_c_2 c) * mag) + RtoC (Q2R (tp05_c_3 c)) * big in
   let f2 := (Q2R (tp05_c_9 c) * ln (dist_rup + 4.5))%R in
   let f2 := (if Rltb 70 dist_rup then f2 + Q2R (tp05_c_10 c) * ln (dist_rup / 70) else f2)%R in
   let f2 := (if Rltb 130 dist_rup then f2 + Q2R (tp05_c_11 c) * ln (dist_rup / 130) else f2)%R in
   let h := RtoC (Q2R (tp05_c_5 c)) * c_exp (RtoC (Q2R (tp05_c_6 c) * mag) + RtoC (Q2R (tp05_c_7 c)) * big) in
   let dist := c_sqrt (RtoC (dist_rup * dist_rup) + h * h) in
   let f3 := RtoC (Q2R (tp05_c_4 c) + Q2R (tp05_c_13 c) * mag) * c_log dist
             + RtoC (Q2R (tp05_c_8 c) + Q2R (tp05_c_12 c) * mag) * dist in
   f1 + RtoC f2 + f3)%C.

(** A model whose response array is complex. *)
Record cgmm := CGMM { cg_ln_resp : list Complex.C; cg_ln_std : list flt }.
(** model.py:304-324, [spec_accels], [ln_stds], [pga] on such an array. *)
Definition cg_spec_accels (g : cgmm) : list Complex.C := map c_exp (tl (cg_ln_resp g)).
Definition cg_pga (g : cgmm) : option Complex.C := option_map c_exp (hd_error (cg_ln_resp g)).
Definition cg_ln_stds (g : cgmm) : list flt := tl (cg_ln_std g).

(** tavakoli_pezeshk_2005.py:41-45 with Python floats as values: the parameter checks and the
    standard deviation are those of [M_tp05.tp05] (float comparisons and products). *)
Inductive tp05_out := TReal (g : gmm) | TComplex (g : cgmm).
Definition tp05_py (src : dict) : M tp05_out :=
  (g <- tp05 src ;;
   mag <- num (g_scen g) "mag" ;; dist_rup <- num (g_scen g) "dist_rup" ;;
   ret (match mag, dist_rup with
        | Fin m, Fin r => if Rltb 8.5 m then TComplex (CGMM (map (fun c => tp05_ln_resp_c c m r) tp05_coeff)
                                                            (map (fun c => tp05_ln_std c (Fin m)) tp05_coeff))
                          else TReal g
        | _, _ => TReal g
        end))%py.
