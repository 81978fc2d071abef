(** * Akkar, Sandikkaya & Bommer (2014): src/pygmm/akkar_sandikkaya_bommer_2014.py *)

From Verif Require Export GmmLib Data_asb14.
Open Scope R_scope.
Open Scope string_scope.

(** akkar_sandikkaya_bommer_2014.py:36-60: class attributes. *)
Definition asb14_class : gclass := {|
  gc_abbrev := "ASB14";
  gc_params := [NumP "dist_jb" false (Some $0) (Some $200) PNone;
                NumP "dist_epi" false (Some $0) (Some $200) PNone;
                NumP "dist_hyp" false (Some $0) (Some $200) PNone;
                NumP "mag" true (Some $4) (Some $8) PNone;
                NumP "v_s30" true (Some $150) (Some $1200) PNone;
                CatP "mechanism" true ["SS"; "NS"; "RS"] PNone];
  gc_periods := map (fun c => qf (asb14_period c)) asb14_jb_coeff;
  gc_psa := arange 2 62;
  gc_pga := Some 0%Z; gc_pgv := Some 1%Z; gc_pgd := None;
  gc_pgv_scale := $1; gc_pgd_scale := $1
|}%flt.

(** Lines 43-46: COEFF, an ordered mapping. *)
Definition asb14_tables : list (string * list asb14_row) :=
  [("dist_jb", asb14_jb_coeff); ("dist_hyp", asb14_hyp_coeff); ("dist_epi", asb14_epi_coeff)].

(** Lines 67-73: the first metric in COEFF order that is not None, with its table. *)
Fixpoint asb14_select (tabs : list (string * list asb14_row)) (s : scen) : M (flt * list asb14_row) :=
  match tabs with
  | [] => raise ENotImpl
  | (k, c) :: tabs' =>
      (v <- sc_item s k ;;
       if is_none v then asb14_select tabs' s else (d <- as_num v ;; ret (d, c)))%py
  end.

(** Lines 76-88: response at the reference velocity for one row. *)
Definition asb14_ln_ref (c : asb14_row) (mag dist : flt) (mech : pyval) : flt :=
  (let c_1 := qf (asb14_c_1 c) in
   let x := qf (asb14_a_1 c) + qf (asb14_a_3 c) * fsq ($8.5 - mag)
            + (qf (asb14_a_4 c) + qf (asb14_a_5 c) * (mag - c_1)) * flog (fsqrt (fsq dist + fsq (qf (asb14_a_6 c)))) in
   let x := if mag <=? c_1 then x + qf (asb14_a_2 c) * (mag - c_1) else x + qf (asb14_a_7 c) * (mag - c_1) in
   if is_str mech "NS" then x + qf (asb14_a_8 c)
   else if is_str mech "RS" then x + qf (asb14_a_9 c)
   else x)%flt.

(** Lines 92-100: the site term for one row. *)
Definition asb14_site (c : asb14_row) (pga_ref v_s30 : flt) : flt :=
  (if v_s30 <=? $750 then
     let vs_ratio := v_s30 / $750 in
     let n := Q2R (asb14_n c) in
     qf (asb14_b_1 c) * flog vs_ratio
     + qf (asb14_b_2 c) * flog ((pga_ref + qf (asb14_c c) * fpow vs_ratio n)
                                / ((pga_ref + qf (asb14_c c)) * fpow vs_ratio n))
   else qf (asb14_b_1 c) * flog (fmin v_s30 (qf (asb14_v_con c)) / $750))%flt.

(** Lines 62-103, [__init__]. *)
Definition asb14 (src : dict) : M gmm :=
  gmm_make asb14_class src (fun s =>
    dc <- asb14_select asb14_tables s ;;
    mag <- num s "mag" ;; mech <- sc_attr s "mechanism" ;; v_s30 <- num s "v_s30" ;;
    let '(dist, c) := dc in
    p <- arr_get (map (fun c => asb14_ln_ref c mag dist mech) c) 0%Z ;;
    let pga_ref := fexp p in
    ret (map (fun c => (asb14_ln_ref c mag dist mech + asb14_site c pga_ref v_s30)%flt) c,
         Some (map (fun c => qf (asb14_sd_total c)) c)))%py.
