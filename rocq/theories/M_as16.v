(** * Afshari & Stewart (2016) duration: src/pygmm/afshari_stewart_2016.py *)

From Verif Require Export GmmLib.
Open Scope R_scope.
Open Scope string_scope.
Open Scope list_scope.

(** afshari_stewart_2016.py:21-27: PARAMS. *)
Definition as16_params : list param :=
  [NumP "mag" true (Some $3) (Some $7.9) PNone;
   NumP "dist_rup" true (Some $0) (Some $200) PNone;
   NumP "v_s30" true (Some $200) (Some $1000) PNone;
   CatP "mechanism" true ["SS"; "NS"; "RS"] PNone;
   NumP "depth_1_0" false None None PNone]%flt.

(** Lines 37-100: the coefficients of one measure (the arrays of the code, column-wise);
    b_0 and b_1 for no mechanism, NS, RS and SS. *)
Record as16_coef := As16c {
  c_mag_1 : flt; c_mag_2 : flt;
  c_b_0 : flt * flt * flt * flt; c_b_1 : flt * flt * flt * flt; c_b_2 : flt; c_b_3 : flt;
  c_c_1 : flt; c_c_2 : flt; c_c_3 : flt; c_c_4 : flt; c_c_5 : flt; c_v_ref : flt;
  c_tau_1 : flt; c_tau_2 : flt; c_phi_1 : flt; c_phi_2 : flt }.
Definition as16_D5t75 : as16_coef :=
  (As16c $5.35 $7.15 ($1.280, $1.555, $0.7806, $1.279) ($5.576, $4.992, $7.061, $5.578) $0.9011 $(-1.684)
        $0.1159 $0.1065 $0.0682 $(-0.2246) $0.0006 $368.2 $0.28 $0.25 $0.54 $0.41)%flt.
Definition as16_D5t95 : as16_coef :=
  (As16c $5.2 $7.4 ($2.182, $2.541, $1.612, $2.302) ($3.628, $3.170, $4.536, $3.467) $0.9443 $(-3.911)
        $0.3165 $0.2539 $0.0932 $(-0.3183) $0.0006 $369.9 $0.25 $0.19 $0.43 $0.35)%flt.
Definition as16_D20t80 : as16_coef :=
  (As16c $5.2 $7.4 ($0.8822, $1.409, $0.7729, $0.8804) ($6.182, $4.778, $6.188, $6.188) $0.7414 $(-3.164)
        $0.0646 $0.0865 $0.0373 $(-0.4237) $0.0005 $369.6 $0.30 $0.19 $0.56 $0.45)%flt.

(** Lines 41-52: the mechanism selects b_0, b_1.  Any other value would leave b_0 and b_1
    unbound (NameError); it cannot pass the parameter check, and is mapped to None here. *)
Definition as16_pick (mech : pyval) (b : flt * flt * flt * flt) : flt :=
  let '(u, ns, rs, ss) := b in
  if is_none mech then u else if is_str mech "NS" then ns else if is_str mech "RS" then rs
  else if is_str mech "SS" then ss else u.

(** Lines 159-162, [_corner_freq]. *)
Definition as16_corner (mag stress_drop : flt) : flt :=
  (let moment := fpowf $10 ($1.5 * mag + $16.05) in
   ($4900000 * $3.2) * fpow (stress_drop / moment) (1 / 3))%flt.
Definition bnum (b : bool) : flt := if b then Fin 1 else Fin 0.
(** Lines 57-66: source duration. *)
Definition as16_source (c : as16_coef) (mech : pyval) (mag : flt) : flt :=
  (let stress_drop := fexp (as16_pick mech (c_b_1 c) + c_b_2 c * (fmin mag (c_mag_2 c) - $6)
                            + c_b_3 c * fmax (mag - c_mag_2 c) $0) in
   let f_0 := as16_corner mag stress_drop in
   bnum (mag <=? c_mag_1 c) * as16_pick mech (c_b_0 c) + bnum (c_mag_1 c <? mag) * ($1 / f_0))%flt.
(** Lines 77-81: path duration. *)
Definition as16_path (c : as16_coef) (dist_rup : flt) : flt :=
  (c_c_1 c * fmin dist_rup $10 + c_c_2 c * fmax (fmin dist_rup $50 - $10) $0 + c_c_3 c * fmax (dist_rup - $50) $0)%flt.
(** Lines 115-134, [calc_depth_1_0]. *)
Definition as16_depth_1_0 (v_s30 : flt) (region : pyval) : flt :=
  (let p2 := fun x => fsq x in let p4 := fun x => fsq (fsq x) in
   if is_str region "japan"
   then fexp ($(-5.23) / $2 * flog ((p2 v_s30 + p2 $412.39) / (p2 $1360 + p2 $412.39))) / $1000
   else fexp ($(-7.15) / $4 * flog ((p4 v_s30 + p4 $570.94) / (p4 $1360 + p4 $570.94))) / $1000)%flt.
(** Lines 88-94: site duration; the depth is compared with 200 and the mechanism is
    passed as the region. *)
Definition as16_site (c : as16_coef) (v_s30 : flt) (mech depth : pyval) : M flt :=
  (f_dz1 <- (if is_none depth then ret $0%flt else
     z <- as_num depth ;;
     let dz_1 := (z - as16_depth_1_0 v_s30 mech)%flt in
     ret (c_c_5 c * (if dz_1 <=? $200 then dz_1 else $200))%flt) ;;
   ret (c_c_4 c * flog (fmin v_s30 $600 / c_v_ref c) + f_dz1)%flt)%py.
(** Lines 102-107 and 113: standard deviation, one measure. *)
Definition as16_std (c : as16_coef) (mag : flt) : flt :=
  (let tau := c_tau_1 c + (c_tau_2 c - c_tau_1 c) * (fmin (fmax mag $6.5) $7.0 - $6.5) / ($7.0 - $6.5) in
   let phi := c_phi_1 c + (c_phi_2 c - c_phi_1 c) * (fmin (fmax mag $5.5) $5.75 - $5.5) / ($5.75 - $5.50) in
   fsqrt (fsq tau + fsq phi))%flt.
(** Line 110: one measure. *)
Definition as16_ln_dur (c : as16_coef) (mag dist_rup v_s30 : flt) (mech depth : pyval) : M flt :=
  (f_s <- as16_site c v_s30 mech depth ;;
   ret (flog (as16_source c mech mag + as16_path c dist_rup) + f_s)%flt)%py.

(** Lines 148-157, [_as_recarray]: the fields D_5t75, D_5t95, D_20t80. *)
Record as16_rec := As16Rec { D_5t75 : flt; D_5t95 : flt; D_20t80 : flt }.
Record as16_obj := As16 { a16_scen : scen; a16_ln_dur : as16_rec; a16_std : as16_rec }.
(** Lines 29-113, [__init__]. *)
Definition as16 (src : dict) : M as16_obj :=
  (s <- model_init as16_params src ;;
   mag <- num s "mag" ;; dist_rup <- num s "dist_rup" ;; v_s30 <- num s "v_s30" ;;
   mech <- sc_attr s "mechanism" ;; depth <- sc_attr s "depth_1_0" ;;
   l1 <- as16_ln_dur as16_D5t75 mag dist_rup v_s30 mech depth ;;
   l2 <- as16_ln_dur as16_D5t95 mag dist_rup v_s30 mech depth ;;
   l3 <- as16_ln_dur as16_D20t80 mag dist_rup v_s30 mech depth ;;
   ret (As16 s (As16Rec l1 l2 l3)
     (As16Rec (as16_std as16_D5t75 mag) (as16_std as16_D5t95 mag) (as16_std as16_D20t80 mag))))%py.
(** Lines 136-146: [duration] and [std_err]. *)
Definition as16_duration (m : as16_obj) : as16_rec :=
  let l := a16_ln_dur m in As16Rec (fexp (D_5t75 l)) (fexp (D_5t95 l)) (fexp (D_20t80 l)).
Definition as16_std_err (m : as16_obj) : as16_rec := a16_std m.
