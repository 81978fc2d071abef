(** * Stafford (2017) correlation: src/pygmm/stafford_2017.py

    The coefficients are those of data/stafford_2017.json (lines 24-28). *)

From Verif Require Export Framework M_ba18.
Open Scope R_scope.
Open Scope string_scope.
Open Scope list_scope.

(** stafford_2017.py:30-47, [_sigmoid]. *)
Definition pjs17_sigmoid (f a0 a1 a2 : flt) : flt := (a0 / ($1 + fexp (fneg a2 * flog (f / a1))))%flt.
(** Lines 49-59, [compute_corner_frequency] (keys CF_C1, CF_C2). *)
Definition pjs17_corner (mag : flt) : flt := fpowf $10 ($2.181 - $0.496 * mag)%flt.
(** Lines 61-79, [compute_gamma_E] (keys gamma_E0 to gamma_E4). *)
Definition pjs17_gamma_E (f_min mag : flt) : flt :=
  (let f_min_norm := f_min / pjs17_corner mag in
   $(-0.4690) + pjs17_sigmoid f_min_norm $0.1275 $0.7793 $3.0324 + $0.0106 * flog (f_min_norm / $0.7793))%flt.
(** Lines 81-95, [compute_eta_A] (keys eta_A0 to eta_A5). *)
Definition pjs17_eta_A (f_min : flt) : flt :=
  (let term1 := pjs17_sigmoid f_min $0.7606 $0.2993 $1.5837 in
   let term2 := pjs17_sigmoid f_min $(-0.5094) $24.579 $2.3518 in
   term1 * ($1 + term2))%flt.
(** Lines 97-109, [compute_gamma_A] (keys gamma_A0 to gamma_A3, gamma_A_FREF). *)
Definition pjs17_gamma_A (f_min : flt) : flt :=
  (let f_ref := $10 in
   let min_f := fmin f_min f_ref in
   let S_term := min_f / (min_f + $1.4802 * ($1 - min_f / f_ref)) in
   let log_term := $(-0.3361) * fsq (flog (fmax f_min f_ref / f_ref)) in
   $0.9515 + S_term * $1.2752 + log_term)%flt.
(** Lines 111-127, [compute_eta_S] (keys eta_S0, eta_S1, eta_S_FREF1, eta_S_FREF2). *)
Definition pjs17_eta_S (f_min : flt) : flt :=
  (let term1 := $0.1126 * flog (fmax (fmin f_min $4) $0.25 / $0.25) in
   let term2 := $(-0.1068) * flog (fmax f_min $4 / $4) in
   term1 + term2)%flt.
(** Lines 129-143, [compute_gamma_S] (keys gamma_S0 to gamma_S6). *)
Definition pjs17_gamma_S (f_min : flt) : flt :=
  (let sigmoid1 := pjs17_sigmoid f_min $(-0.2963) $0.3326 $5.0078 in
   let sigmoid2 := pjs17_sigmoid f_min $0.5703 $2.3973 $3.5779 in
   $(-0.6968) + sigmoid1 + sigmoid2)%flt.
(** Lines 145-167, [between_event_correlation]. *)
Definition pjs17_between_event (f_i f_j mag : flt) : flt :=
  (let f_min := fmin f_i f_j in
   let f_max := fmax f_i f_j in
   let fc := pjs17_corner mag in
   let f_min_norm := f_min / fc in
   let f_max_norm := f_max / fc in
   let gamma_E := pjs17_gamma_E f_min_norm mag in
   fexp (gamma_E * f_min_norm * flog (f_max_norm / f_min_norm)))%flt.
(** Lines 176-190 and 198-212: equations 14 and 15, shared by the next two functions (key nugget_exp). *)
Definition pjs17_with_nugget (eta gamma f_i f_j : flt) : flt :=
  (let f_min := fmin f_i f_j in
   let f_max := fmax f_i f_j in
   let rho0 := ($1 - eta) * fexp (gamma * flog (f_max / f_min)) in
   if np_isclose f_i f_j then $1
   else rho0 * ($1 - fexp ($(-50) * flog (f_max / f_min))))%flt.
(** Lines 169-190, [within_event_correlation]. *)
Definition pjs17_within_event (f_i f_j : flt) : flt :=
  let f_min := fmin f_i f_j in pjs17_with_nugget (pjs17_eta_A f_min) (pjs17_gamma_A f_min) f_i f_j.
(** Lines 192-212, [between_site_correlation]. *)
Definition pjs17_between_site (f_i f_j : flt) : flt :=
  let f_min := fmin f_i f_j in pjs17_with_nugget (pjs17_eta_S f_min) (pjs17_gamma_S f_min) f_i f_j.
(** Lines 214-264, [compute_variances] (keys sigma_E0 to sigma_E6, sigma_S0 to sigma_S6, sigma_A0, sigma_A1, sigma_A_FREF). *)
Definition pjs17_sigma_E (f : flt) : flt :=
  ($0.8757 + pjs17_sigmoid f $(-0.3309) $0.5871 $5.4264 + pjs17_sigmoid f $0.5177 $16.357 $1.4689)%flt.
Definition pjs17_sigma_S (f : flt) : flt :=
  ($0.6167 + pjs17_sigmoid f $(-0.1495) $0.7248 $3.6985 + pjs17_sigmoid f $0.3640 $13.457 $2.2497)%flt.
Definition pjs17_sigma_A (f : flt) : flt :=
  ($0.7260 + $0.0328 * fsq (flog (fmax f $5 / $5)))%flt.
Definition pjs17_variances (freqs : list flt) : list flt * list flt * list flt :=
  (map pjs17_sigma_E freqs, map pjs17_sigma_S freqs, map pjs17_sigma_A freqs).
(** Lines 266-322, [cov]; None is the default of the three arrays. *)
Definition pjs17_cov (freqs : list flt) (sigma_E sigma_S sigma_A : option (list flt)) (mag : flt) : res (list (list flt)) :=
  let '(sE, sS, sA) := match sigma_E, sigma_S, sigma_A with
    | Some e, Some s, Some a => (e, s, a)
    | _, _, _ => pjs17_variances freqs
    end in
  let n := List.length freqs in
  if (negb (List.length sE =? n) || negb (List.length sS =? n) || negb (List.length sA =? n))%nat then Raise EValue
  else
    let at_ l i := nth i l NaN in
    Ok (mtab n (fun i j => (pjs17_between_event (at_ freqs i) (at_ freqs j) mag * at_ sE i * at_ sE j
                            + pjs17_between_site (at_ freqs i) (at_ freqs j) * at_ sS i * at_ sS j
                            + pjs17_within_event (at_ freqs i) (at_ freqs j) * at_ sA i * at_ sA j)%flt)).
(** Lines 324-355, [cor]. *)
Definition pjs17_cor (freqs : list flt) (sigma_E sigma_S sigma_A : option (list flt)) (mag : flt) : res (list (list flt)) :=
  match pjs17_cov freqs sigma_E sigma_S sigma_A mag with
  | Raise e => Raise e
  | Ok cov =>
      let get i j := nth j (nth i cov []) NaN in
      let std i := fsqrt (get i i) in
      Ok (mtab (List.length freqs) (fun i j => (get i j / (std i * std j))%flt))
  end.
