(** * Bayless & Abrahamson (2019): src/pygmm/bayless_abrahamson_2019.py *)

From Verif Require Export ArgMin GmmLib Data_ba19.
Open Scope R_scope.
Open Scope string_scope.
Open Scope list_scope.

(** A cell of the table; a blank cell is read as NaN (model.py:526-538, np.genfromtxt). *)
Definition qo (o : option Q) : flt := match o with Some q => qf q | None => NaN end.

(** bayless_abrahamson_2019.py:37-38: IDX_5Hz and IDX_MAX; lines 40-47: PARAMS. *)
Definition ba19_idx_5hz : nat := 170.
Definition ba19_idx_max : nat := 238.
Definition ba19_params : list param :=
  [NumP "dist_rup" true (Some $0) (Some $300) PNone;
   NumP "mag" true (Some $3) (Some $8) PNone;
   NumP "v_s30" true (Some $180) (Some $1500) PNone;
   NumP "depth_tor" true (Some $0) (Some $20) PNone;
   NumP "depth_1_0" false None None PNone;
   CatP "mechanism" false ["SS"; "NS"; "RS"] (PStr "SS")]%flt.

(** Lines 184-208, [calc_depth_1_0]. *)
Definition ba19_depth_1_0 (v_s30 : flt) : flt :=
  (let p4 x := fsq (fsq x) in
   fexp ($(-7.67) / $4 * flog ((p4 v_s30 + p4 $610) / (p4 $1360 + p4 $610))) / $1000)%flt.

(** Lines 73-78, [_check_inputs] after the parameter checks: fills in the basin depth. *)
Definition ba19_prep (s : scen) : M scen :=
  (d <- sc_item s "depth_1_0" ;;
   if is_none d then v <- sc_item s "v_s30" ;; x <- as_num v ;; ret (sc_setitem s "depth_1_0" (PNum (ba19_depth_1_0 x)))
   else ret s)%py.

(** Lines 96-121: everything but the site term, for one row. *)
Definition ba19_rock (c : ba19_row) (mag dist_rup depth_tor : flt) (is_ns : bool) (v_s30 depth_1_0 : flt) : flt :=
  (let f_M := qo (ba19_c1 c) + qo (ba19_c2 c) * (mag - $6)
     + ((qo (ba19_c2 c) - qo (ba19_c3 c)) / qo (ba19_cn c)) * flog ($1 + fexp (qo (ba19_cn c) * (qo (ba19_cM c) - mag))) in
   let f_P := qo (ba19_c4 c) * flog (dist_rup + qo (ba19_c5 c) * fcosh (qo (ba19_c6 c) * fmax (mag - qo (ba19_chm c)) $0))
     + ($(-0.5) - qo (ba19_c4 c)) * flog (fsqrt (fsq dist_rup + fsq $50)) + qo (ba19_c7 c) * dist_rup in
   let f_Ztor := qo (ba19_c9 c) * fmin depth_tor $20 in
   let f_NM := if is_ns then qo (ba19_c10 c) else $0 in
   let c11 := np_select [(v_s30 <=? $200, qo (ba19_c11a c)); (v_s30 <=? $300, qo (ba19_c11b c)); (v_s30 <=? $500, qo (ba19_c11c c))] (qo (ba19_c11d c)) in
   let f_Z1 := c11 * flog ((fmin depth_1_0 $2 + $0.01) / (ba19_depth_1_0 v_s30 + $0.01)) in
   f_M + f_P + f_Ztor + f_NM + f_Z1)%flt.

(** Lines 156-157: [f_nl[(i + 1):] = f_nl[i]]. *)
Definition flatten_after (i : nat) (l : list flt) : list flt :=
  map (fun k => if (k <=? i)%nat then nth k l NaN else nth i l NaN) (seq 0 (List.length l)).
(** Lines 158-160: [np.convolve(f_nl, np.ones(7) / 7, mode="same")] for at least seven values: the mean over the seven
    neighbours, values beyond the ends taken as zero. *)
Definition window (n k : nat) : list nat := filter (fun m => (k <=? m + 3)%nat && (m <=? k + 3)%nat) (seq 0 n).
Definition smooth7 (l : list flt) : list flt :=
  map (fun k => fsum (map (fun m => (nth m l NaN * ($1 / $7))%flt) (window (List.length l) k))) (seq 0 (List.length l)).
(** Line 162: [f_nl[-7:] = f_nl[i]], after the smoothing. *)
Definition force_end (i : nat) (l : list flt) : list flt :=
  map (fun k => if (k <? List.length l - 7)%nat then nth k l NaN else nth i l NaN) (seq 0 (List.length l)).

(** Lines 137-166, [_calc_site_response]. *)
Definition ba19_f_sl (c : ba19_row) (v_s30 : flt) : flt := (qo (ba19_c8 c) * flog (fmin v_s30 $1000 / $1000))%flt.
Definition ba19_f_nl (c : ba19_row) (v_s30 I_R : flt) : flt :=
  (let f2 := qf (ba19_f4 c) * (fexp (qf (ba19_f5 c) * (fmin v_s30 $760 - $360)) - fexp (qf (ba19_f5 c) * ($760 - $360))) in
   f2 * flog ((I_R + qf (ba19_f3 c)) / qf (ba19_f3 c)))%flt.
Definition ba19_used : list ba19_row := firstn (ba19_idx_max + 1) ba19_coeff.
Definition ba19_site (v_s30 ln_eas_ref : flt) : list flt :=
  (let I_R := fexp ($1.238 + $0.846 * ln_eas_ref) in
   let f_nl := map (fun c => ba19_f_nl c v_s30 I_R) ba19_used in
   let i := argmin f_nl in
   let f_nl := force_end i (smooth7 (flatten_after i f_nl)) in
   map (fun '(c, x) => ba19_f_sl c v_s30 + x) (combine ba19_used f_nl))%flt.

(** Lines 80-135, [_calc_ln_eas(None)] and [_calc_ln_eas(ln_eas_ref)]. *)
Definition ba19_ref_row : ba19_row := nth ba19_idx_5hz ba19_coeff (nth 0 ba19_coeff (Mk_ba19_row 0 None None None None None None None None None None None None None None None None None None 0 0 0 0 0 0 0 0 0)).
Definition ba19_ln_eas_ref (mag dist_rup depth_tor : flt) (is_ns : bool) : flt :=
  ba19_rock ba19_ref_row mag dist_rup depth_tor is_ns (Fin 760) (ba19_depth_1_0 (Fin 760)).
Definition ba19_freq_max : flt := qf (ba19_freq_hz (nth ba19_idx_max ba19_coeff ba19_ref_row)).
Definition ba19_ln_eas (mag dist_rup depth_tor : flt) (is_ns : bool) (v_s30 depth_1_0 : flt) : list flt :=
  (let site := ba19_site v_s30 (ba19_ln_eas_ref mag dist_rup depth_tor is_ns) in
   let ln_eas := map (fun '(c, x) => ba19_rock c mag dist_rup depth_tor is_ns v_s30 depth_1_0 + x) (combine ba19_used site) in
   let kappa := fexp ($(-0.4) * flog (v_s30 / $760) - $3.5) in
   let dimin c := fexp (fneg (Fin PI) * kappa * (qf (ba19_freq_hz c) - ba19_freq_max)) in
   ln_eas ++ map (fun c => nth ba19_idx_max ln_eas NaN + flog (dimin c)) (skipn (ba19_idx_max + 1) ba19_coeff))%flt.

(** Lines 168-182, [_calc_ln_std], one row; np.clip is min(max(x, left), right). *)
Definition ba19_ln_std (c : ba19_row) (mag : flt) : flt :=
  (let interp left right := fclip (left + (right - left) / $2 * (mag - $4)) left right in
   let tau := interp (qf (ba19_s1 c)) (qf (ba19_s2 c)) in
   let phi_s2s := interp (qf (ba19_s3 c)) (qf (ba19_s4 c)) in
   let phi_ss := interp (qf (ba19_s5 c)) (qf (ba19_s6 c)) in
   fsqrt (fsq tau + fsq phi_s2s + fsq phi_ss + fsq (qo (ba19_c1a c))))%flt.

(** Lines 49-71: the object and its properties [freqs], [ln_eas], [eas], [ln_std]. *)
Record ba19_obj := Ba19 { ba19_scen : scen; ba19_eas_ln : list flt; ba19_std_ln : list flt }.
Definition ba19_p_freqs : list flt := map (fun c => qf (ba19_freq_hz c)) ba19_coeff.
Definition ba19_p_ln_eas (m : ba19_obj) : list flt := ba19_eas_ln m.
Definition ba19_p_eas (m : ba19_obj) : list flt := map fexp (ba19_eas_ln m).
Definition ba19_p_ln_std (m : ba19_obj) : list flt := ba19_std_ln m.
(** Lines 49-57, [__init__]. *)
Definition ba19 (src : dict) : M ba19_obj :=
  (s0 <- model_init ba19_params src ;; s <- ba19_prep s0 ;;
   mag <- num s "mag" ;; dist_rup <- num s "dist_rup" ;; depth_tor <- num s "depth_tor" ;;
   mech <- sc_attr s "mechanism" ;; v_s30 <- num s "v_s30" ;; depth_1_0 <- num s "depth_1_0" ;;
   ret (Ba19 s (ba19_ln_eas mag dist_rup depth_tor (is_str mech "NS") v_s30 depth_1_0)
          (map (fun c => ba19_ln_std c mag) ba19_coeff)))%py.
