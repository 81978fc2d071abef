(** * Gulerce & Abrahamson (2011): src/pygmm/gulerce_abrahamson_2011.py *)

From Verif Require Export GmmLib Data_ga11.
Open Scope R_scope.
Open Scope string_scope.

(** gulerce_abrahamson_2011.py:38-44: PARAMS. *)
Definition ga11_params : list param :=
  [NumP "dist_rup" true None (Some $200) PNone;
   NumP "mag" true (Some $5) (Some $8.5) PNone;
   NumP "v_s30" true (Some $450) (Some $1200) PNone;
   NumP "pga_ref" true (Some $0.001) (Some $10) PNone;
   CatP "mechanism" true ["SS"; "NS"; "RS"] PNone]%flt.
(** Lines 31-36: PERIODS and INDICES_PSA. *)
Definition ga11_periods : list flt := map (fun c => qf (ga11_period c)) ga11_coeff.
Definition ga11_psa : list nat := arange 2 22.

(** A model object (a [Model], not a [GroundMotionModel]): its scenario, _ln_ratio, _ln_std. *)
Record ga11_obj := Ga11 { ga_scen : scen; ga_ln_ratio : list flt; ga_ln_std : list flt }.

(** Lines 120-127: magnitude and distance scaling, one row. *)
Definition ga11_f1 (c : ga11_row) (mag dist_rup : flt) : flt :=
  (let dist := fsqrt (fsq dist_rup + fsq (qf (ga11_c4 c))) in
   qf (ga11_a1 c) + qf (ga11_a8 c) * fsq ($8.5 - mag)
   + (qf (ga11_a2 c) + qf (ga11_a3 c) * (mag - qf (ga11_c1 c))) * flog dist
   + np_select [(mag <? qf (ga11_c1 c), qf (ga11_a4 c) * (mag - qf (ga11_c1 c)));
                (true, qf (ga11_a5 c) * (mag - qf (ga11_c1 c)))] $0)%flt.
(** Lines 129-145: v_1, one row. *)
Definition ga11_v_1 (period : flt) : flt :=
  np_select [(period <? $0, $862); (period <=? $0.5, $1500);
             (period <=? $1, fexp ($8 - $0.795 * flog (fmax $0.001 period / $0.21)));
             (period <=? $2, fexp ($6.76 - $0.297 * flog (fmax $0.001 period)));
             (period <=? $10, $700)]%flt $0%flt.
(** Lines 146-155: site term, one row. *)
Definition ga11_f5 (c : ga11_row) (v_s30 pga_ref : flt) : flt :=
  (let v_s30_lim := fmin v_s30 (ga11_v_1 (qf (ga11_period c))) in
   let vs_ratio := v_s30_lim / qf (ga11_v_lin c) in
   let b := qf (ga11_b c) in
   qf (ga11_a10 c) * flog vs_ratio
   - np_select [(v_s30_lim <? qf (ga11_v_lin c),
                 - b * flog (pga_ref + qf (ga11_c c))
                 + b * flog (pga_ref + qf (ga11_c c) * fpow vs_ratio (Q2R (ga11_n c))));
                (true, b * qf (ga11_n c) * flog vs_ratio)] $0)%flt.
(** Lines 157-163: the sum and the mechanism term, one row. *)
Definition ga11_ln_ratio (c : ga11_row) (mag dist_rup v_s30 pga_ref : flt) (mech : pyval) : flt :=
  (let x := ga11_f1 c mag dist_rup + ga11_f5 c v_s30 pga_ref in
   if is_str mech "RS" then x + qf (ga11_a6 c)
   else if is_str mech "NS" then x + qf (ga11_a7 c) else x)%flt.

(** Lines 165-179: [_calc_ln_std_within] (s1, s2) and [_calc_ln_std_between] (s3, s4), one row. *)
Definition ga11_std_part (lo hi : Q) (mag : flt) : flt :=
  np_select [(mag <? $5, qf lo); (mag <=? $7, qf lo + $0.5 * (qf hi - qf lo) * (mag - $5)); (true, qf hi)]%flt $0%flt.
(** Lines 181-185: [_calc_ln_std], one row. *)
Definition ga11_row_std (c : ga11_row) (mag : flt) : flt :=
  fsqrt (fsq (ga11_std_part (ga11_s3 c) (ga11_s4 c) mag) + fsq (ga11_std_part (ga11_s1 c) (ga11_s2 c) mag))%flt.

(** Lines 46-57: [__init__].  The fallback of lines 50-54 is modelled up to its first
    statement: Scenario accepts keywords only, [Scenario(self._scenario)] is a TypeError. *)
Definition ga11 (src : dict) : M ga11_obj :=
  (s <- model_init ga11_params src ;;
   _ <- (match dget (s_data s) "pga_ref" with Some _ => ret tt | None => raise EType end) ;;
   dist_rup <- num s "dist_rup" ;; mag <- num s "mag" ;; v_s30 <- num s "v_s30" ;;
   pga_ref <- num s "pga_ref" ;; mech <- sc_attr s "mechanism" ;;
   ret (Ga11 s (map (fun c => ga11_ln_ratio c mag dist_rup v_s30 pga_ref mech) ga11_coeff)
               (map (fun c => ga11_row_std c mag) ga11_coeff)))%py.

(** Lines 59-65: [ratio] and [ln_std]. *)
Definition ga11_ratio (m : ga11_obj) : list flt := map fexp (ga_ln_ratio m).
Definition ga11_ln_std (m : ga11_obj) : list flt := ga_ln_std m.
(** Lines 67-111: [interp_ratio] and [interp_ln_std] (both take the exponential). *)
Definition ga11_interp (ys : list flt) (periods : list flt) : M (list flt) :=
  (ps <- arr_take ga11_periods ga11_psa ;; ys <- arr_take ys ga11_psa ;;
   ret (map (fun t => fexp (np_interp (map flog ps) ys (flog t))) periods))%py.
Definition ga11_interp_ratio (m : ga11_obj) (periods : list flt) : M (list flt) := ga11_interp (ga_ln_ratio m) periods.
Definition ga11_interp_ln_std (m : ga11_obj) (periods : list flt) : M (list flt) := ga11_interp (ga_ln_std m) periods.
