(** * Pinilla-Ramos et al. (2024): src/pygmm/pinilla_ramos_et_al_2024.py

    SIMPLIFICATION: warnings.warn (line 750) has no effect on the result and is not modelled. *)

From Verif Require Export ArgMin GmmLib Data_pr24.
Open Scope R_scope.
Open Scope string_scope.
Open Scope list_scope.

(** pinilla_ramos_et_al_2024.py:49-57: PARAMS. *)
Definition pr24_regions : list string := ["Japan"; "New Zealand"; "South America"; "Taiwan"].
Definition pr24_params : list param :=
  [NumP "mag" true (Some $4.5) (Some $8.5) PNone;
   NumP "dist_rup" true (Some $0) (Some $300) PNone;
   NumP "v_s30" true (Some $150) (Some $2000) PNone;
   CatP "event_type" true ["interface"; "slab"] PNone;
   CatP "region" true pr24_regions PNone]%flt.

(** Lines 95-110, [_validate_region_event_type]. *)
Definition pr24_validate (event_type region : pyval) : M unit :=
  if pyeq event_type (PStr "interface") && pyeq region (PStr "Taiwan") then raise EValue
  else if negb (pyin event_type (map PStr ["interface"; "slab"])) then raise EValue
  else if negb (pyin region (map PStr pr24_regions)) then raise EValue
  else ret tt.

(** Lines 112-185, [_calc_d575_median]. After the validation an event that is not "interface" is "slab". *)
Definition pr24_median (event_type region : pyval) (mag rrup vs30 : flt) : flt :=
  (let interface := pyeq event_type (PStr "interface") in
   let is r := pyeq region (PStr r) in
   let c3_1 := if interface then $0.031 else $0.013 in
   let c3_12 := if interface then $0.029 else $0.020 in
   let c3_base :=
     if interface then (if is "Japan" then $0.03 else if is "New Zealand" then $0.024 else if is "South America" then $0.024 else $0.0)
     else (if is "Japan" then $0.046 else if is "New Zealand" then $0.032 else if is "South America" then $0.042 else if is "Taiwan" then $0.038 else $0.0) in
   let c4_1 :=
     if interface then (if is "Japan" then $(-2.485) else if is "New Zealand" then $(-2.420) else if is "South America" then $(-2.248) else $0.0)
     else (if is "Japan" then $(-1.480) else if is "New Zealand" then $(-1.252) else if is "South America" then $(-1.510) else if is "Taiwan" then $(-1.151) else $0.0) in
   let r1 := $250 in
   let source_component :=
     if interface then $5.268 * fpowf $10 ((mag - $7) * $0.275)
     else if mag <? $6 then $0.340 * fpowf $10 ((mag - $4.250) * $0.5)
     else $0.340 * fpowf $10 (($6 - $4.250) * $0.5) + $2.770 * (mag - $6) / ($8.5 - $6) in
   let site_component := c4_1 * flog (vs30 / $3100) in
   let path_component := if rrup <? r1 then c3_1 * rrup else c3_12 * (rrup - r1) + r1 * c3_1 in
   let main_path := rrup * c3_base in
   source_component + site_component + path_component + main_path)%flt.
(** Lines 251-277, [_calc_d575_sigma]. *)
Definition pr24_sigma (event_type : pyval) (mag rrup vs30 : flt) : flt :=
  (let interface := pyeq event_type (PStr "interface") in
   (if interface then $0.3107 else $0.3035) + (if interface then $(-0.0393) else $(-0.0188)) * rrup / $100
   + (if interface then $0.0062 else $0.004) * fsq (rrup / $100) + (if interface then $(-0.0519) else $(-0.0288)) * mag
   + (if interface then $0.0041 else $0.0019) * fsq mag + flog vs30 * (if interface then $0.0028 else $0.0038))%flt.
(** Lines 279-625, [_get_energy_coefficients]: the row of the closest threshold; n2 (lines 458, 622) is [pr24_n]. *)
Definition pr24_row0 : pr24_row := Pr24Row 0 0 0 0 0 0 0 0.
Definition pr24_coeff (event_type : pyval) (energy : flt) : pr24_row :=
  let rows := if pyeq event_type (PStr "interface") then pr24_interface else pr24_slab in
  nth (argmin (map (fun c => fabs (qf (f_energy c) - energy)%flt) pr24_interface)) rows pr24_row0.
Definition pr24_n (event_type : pyval) : R := if pyeq event_type (PStr "interface") then 0.15 else 0.25.
(** Lines 627-695, [_calc_duration]. *)
Definition pr24_calc (event_type region : pyval) (mag rrup vs30 energy : flt) : flt * flt * flt :=
  (let median := pr24_median event_type region mag rrup vs30 in
   let sigma := pr24_sigma event_type mag rrup vs30 in
   let n := pr24_n event_type in
   if np_isclose energy $0.75 then
     (median, fpow (fpow median n + sigma) (1 / n), fpow (fpow median n - sigma) (1 / n))
   else
     let c := pr24_coeff event_type energy in
     let c_ratio := qf (f_c_median c) + qf (f_a0 c) + qf (f_m1 c) * mag + qf (f_r1 c) * rrup / $100 + qf (f_v1 c) * flog (vs30 / $3100) in
     let d5x_median := median * c_ratio in
     let var_5x := fsq sigma * fpow c_ratio (2 * n) + fsq (Fin n) * fsq (qf (f_sigma_c c)) * fpow median (2 * n) * fpow c_ratio (2 * n - 2)
                   + $2 * Fin n * qf (f_rho c) * fpow c_ratio (2 * n - 1) * fpow median n * sigma * qf (f_sigma_c c) in
     let d5x_sigma := fsqrt var_5x in
     (d5x_median, fpow (fpow d5x_median n + d5x_sigma) (1 / n), fpow (fpow d5x_median n - d5x_sigma) (1 / n)))%flt.

(** The object: its scenario and the three stored durations. *)
Record pr24_obj := Pr24 { pr24_scen : scen; pr24_dur : flt * flt * flt }.
Definition pr24_eval {A} (s : scen) (f : pyval -> pyval -> flt -> flt -> flt -> A) : M A :=
  (mag <- num s "mag" ;; rrup <- num s "dist_rup" ;; vs30 <- num s "v_s30" ;;
   region <- sc_attr s "region" ;; event_type <- sc_attr s "event_type" ;; ret (f event_type region mag rrup vs30))%py.
(** Lines 83-93, [__init__]. *)
Definition pr24 (src : dict) : M pr24_obj :=
  (s <- model_init pr24_params src ;;
   event_type <- sc_attr s "event_type" ;; region <- sc_attr s "region" ;; pr24_validate event_type region ;;;
   d <- pr24_eval s (fun ev re m r v => pr24_calc ev re m r v $0.75%flt) ;; ret (Pr24 s d))%py.
(** Lines 697-710: the stored durations. *)
Definition pr24_duration (m : pr24_obj) : flt := fst (fst (pr24_dur m)).
Definition pr24_plus (m : pr24_obj) : flt := snd (fst (pr24_dur m)).
Definition pr24_minus (m : pr24_obj) : flt := snd (pr24_dur m).
(** Lines 187-195: [d575_median] and [d575_sigma]. *)
Definition pr24_d575_median (m : pr24_obj) : M flt := pr24_eval (pr24_scen m) pr24_median.
Definition pr24_d575_sigma (m : pr24_obj) : M flt := pr24_eval (pr24_scen m) (fun ev _ => pr24_sigma ev).
(** Lines 197-232, [d5x_median]. *)
Definition pr24_scaling : list (string * R) :=
  [("D5-10", 0.25); ("D5-20", 0.35); ("D5-30", 0.50); ("D5-40", 0.65); ("D5-50", 0.75); ("D5-60", 0.85); ("D5-70", 0.95); ("D5-75", 1.00);
   ("D5-80", 1.10); ("D5-85", 1.25); ("D5-90", 1.45); ("D5-95", 1.80)].
Fixpoint pr24_lookup (l : list (string * R)) (k : string) : option R :=
  match l with [] => None | (k', x) :: l' => if String.eqb k k' then Some x else pr24_lookup l' k end.
Definition pr24_d5x_median (m : pr24_obj) (threshold : string) : M flt :=
  (d <- pr24_d575_median m ;;
   match pr24_lookup pr24_scaling threshold with Some x => ret (d * Fin x)%flt | None => raise EValue end)%py.
(** Lines 234-249, [d5x_sigma]. *)
Definition pr24_d5x_sigma (m : pr24_obj) (threshold : string) : M flt := pr24_d575_sigma m.
(** np.isclose(a, b, atol=1e-3). *)
Definition isclose_mil (a b : flt) : bool :=
  match a, b with Fin x, Fin y => Rleb (Rabs (x - y)) (1 / 10 ^ 3 + 1 / 10 ^ 5 * Rabs y) | _, _ => np_isclose a b end.
(** Lines 712-755, [duration_for_energy]. *)
Definition pr24_for_energy (m : pr24_obj) (energy : flt) : M (flt * flt * flt) :=
  if ((energy <? $0.10) || (energy >? $0.95))%flt then raise EValue
  else
    let energy' :=
      if existsb (fun c => isclose_mil (qf (f_energy c)) energy) pr24_interface then energy
      else qf (f_energy (nth (argmin (map (fun c => fabs (qf (f_energy c) - energy)%flt) pr24_interface)) pr24_interface pr24_row0)) in
    pr24_eval (pr24_scen m) (fun ev re mag r v => pr24_calc ev re mag r v energy').
(** Lines 759-816, [duration_model]; the arrays (np.atleast_1d of the arguments) as lists. *)
Definition pr24_legacy (mag rrup vs30 : list flt) (region eq_type : string) (energy : flt) : M (list flt * list flt * list flt) :=
  match mag, rrup, vs30 with
  | m0 :: _, r0 :: _, v0 :: _ =>
      (m <- pr24 [("mag", PNum m0); ("dist_rup", PNum r0); ("v_s30", PNum v0); ("event_type", PStr eq_type); ("region", PStr region)] ;;
       d <- (if np_isclose energy $0.75%flt then ret (pr24_dur m) else pr24_for_energy m energy) ;;
       ret ([fst (fst d)], [snd (fst d)], [snd d]))%py
  | _, _, _ => raise EIndex
  end.
