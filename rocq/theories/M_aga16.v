(** * Abrahamson, Gregor & Addo (2016): src/pygmm/abrahamson_gregor_addo_2016.py
      and Coppersmith & Bommer (2014): src/pygmm/coppersmith_bommer_2014.py *)

From Verif Require Export GmmLib Data_aga16 Data_cop14.
Open Scope R_scope.
Open Scope string_scope.

(** abrahamson_gregor_addo_2016.py:23-53: class attributes. *)
Definition aga16_class : gclass := {|
  gc_abbrev := "AGA16";
  gc_params := [NumP "mag" true (Some $3) (Some $8.5) PNone;
                NumP "dist_rup" false None None PNone;
                NumP "dist_hyp" false None None PNone;
                NumP "depth_hyp" false None None PNone;
                NumP "v_s30" true (Some $150) (Some $1500) PNone;
                CatP "event_type" true ["interface"; "intraslab"] PNone;
                CatP "tectonic_region" false ["forearc"; "backarc"; "unknown"] (PStr "unknown")];
  gc_periods := map (fun c => qf (aga16_period c)) aga16_coeff;
  gc_psa := arange 1 22;
  gc_pga := Some 0%Z; gc_pgv := None; gc_pgd := None;
  gc_pgv_scale := $1; gc_pgd_scale := $1
|}%flt.

(** The argument adjust_c1 of [__init__] (line 55): None, a float, or anything else
    that np.asarray turns into an array (an int gives the same values as a float). *)
Inductive adjust := AdjNone | AdjFloat (x : flt) | AdjArr (l : list flt).

(** Lines 65-76: the default adjustment for one period. *)
Definition aga16_default_c1 (ev : pyval) (period : flt) : flt :=
  (if is_str ev "intraslab" then $(-0.3) * $1
   else np_interp_lr (map flog [$0.3; $0.5; $1; $2; $3]) [$0.2; $0.1; $0; $(-0.1); $(-0.2)]
          (Some $0.2) (Some $(-0.2)) (flog (fmax $0.01 period)))%flt.
(** Lines 63-81: [_adjust_c1], before broadcasting. *)
Definition aga16_adjust (adj : adjust) (ev : pyval) (periods : list flt) : list flt :=
  match adj with
  | AdjNone => map (aga16_default_c1 ev) periods
  | AdjFloat x => map (fun _ => fmul x (Fin 1)) periods
  | AdjArr l => l
  end.
(** numpy broadcasting of a one-dimensional array against [n] rows: length [n], or
    length 1, otherwise ValueError. *)
Definition broadcast (n : nat) (l : list flt) : M (list flt) :=
  match l with
  | [x] => ret (repeat x n)
  | _ => if Nat.eqb (List.length l) n then ret l else raise EValue
  end.

(** Lines 144-162, [_calc_f_mag], one row. *)
Definition aga16_f_mag (t_4 t_5 t_13 : Q) (adj mag : flt) : flt :=
  (let coeff := np_select [(mag <=? $7.8 + adj, qf t_4); (true, qf t_5)] $0 in
   coeff * (mag - ($7.8 + adj)) + qf t_13 * fsq ($10 - mag))%flt.
(** Lines 206-234, [_calc_f_site], one row. *)
Definition aga16_f_site (v_lin b n c t_12 : Q) (pga_ref v_s30 : flt) : flt :=
  (let v := if fisnan pga_ref then $1000 else v_s30 in
   let vs_ratio := fmin v $1000 / qf v_lin in
   np_select [(v <? qf v_lin,
               qf t_12 * flog vs_ratio - qf b * flog (pga_ref + qf c)
               + qf b * flog (pga_ref + qf c * fpow vs_ratio (Q2R n)));
              (true, (qf t_12 + qf b * qf n) * flog vs_ratio)] $0)%flt.
(** Lines 164-180, [_calc_f_depth], one row. *)
Definition aga16_f_depth (c : aga16_row) (depth : flt) : flt :=
  (qf (aga16_t_11 c) * (fmin depth $120 - $60))%flt.
(** Lines 182-204, [_calc_f_faba], one row. *)
Definition aga16_f_faba (ev : pyval) (dist : flt) (c : aga16_row) : M flt :=
  (if is_str ev "intraslab" then ret (qf (aga16_t_7 c) + qf (aga16_t_8 c) * flog (fmax dist $85 / $40))
   else if is_str ev "interface" then ret (qf (aga16_t_15 c) + qf (aga16_t_16 c) * flog (fmax dist $100 / $40))
   else raise ENotImpl)%flt.

(** Lines 117-131: the terms common to all regions and depths, one row. *)
Definition aga16_base (c : aga16_row) (ev : pyval) (mag dist v_s30 scale adj pga_ref : flt) : flt :=
  (let f_event := if is_str ev "intraslab" then $1 else $0 in
   let path_atten := (qf (aga16_t_2 c) + qf (aga16_t_14 c) * f_event + qf (aga16_t_3 c) * (mag - $7.8))
                     * flog (dist + qf (aga16_c_4 c) * fexp (qf (aga16_t_9 c) * (mag - $6))) in
   qf (aga16_t_1 c) + qf (aga16_t_4 c) * adj + path_atten + scale * qf (aga16_t_6 c) * dist
   + qf (aga16_t_10 c) * f_event
   + aga16_f_mag (aga16_t_4 c) (aga16_t_5 c) (aga16_t_13 c) adj mag
   + aga16_f_site (aga16_v_lin c) (aga16_b c) (aga16_n c) (aga16_c c) (aga16_t_12 c) pga_ref v_s30)%flt.
(** Lines 101-142, [_calc_ln_resp]; [adj] already broadcast. *)
Fixpoint mapM {A B} (f : A -> M B) (l : list A) : M (list B) :=
  match l with [] => ret [] | x :: l' => y <- f x ;; ys <- mapM f l' ;; ret (y :: ys) end%py.
Definition aga16_ln_resp (s : scen) (adj : list flt) (scale pga_ref : flt) : M (list flt) :=
  (ev <- sc_attr s "event_type" ;; mag <- num s "mag" ;; v_s30 <- num s "v_s30" ;;
   dist <- num s (if is_str ev "intraslab" then "dist_hyp" else "dist_rup") ;;
   adj <- broadcast (List.length aga16_coeff) adj ;;
   reg <- sc_attr s "tectonic_region" ;;
   let rows := combine aga16_coeff adj in
   l <- mapM (fun ca => let x := aga16_base (fst ca) ev mag dist v_s30 scale (snd ca) pga_ref in
                        if is_str reg "backarc" then (f <- aga16_f_faba ev dist (fst ca) ;; ret (x + f)%flt) else ret x) rows ;;
   if is_str ev "intraslab" then
     (depth <- num s "depth_hyp" ;; ret (map (fun xc => (fst xc + aga16_f_depth (snd xc) depth)%flt) (combine l aga16_coeff)))
   else ret l)%py.

(** Lines 236-248, [_calc_ln_std], one row. *)
Definition aga16_ln_std (phi tau : Q) : flt := fsqrt (fadd (fsq (qf phi)) (fsq (qf tau))).

(** Lines 55-87, [__init__]; adjust_c4 is stored but never used, it is left out. *)
Definition aga16 (src : dict) (adjust_c1 : adjust) (scale_atten : flt) : M gmm :=
  gmm_make aga16_class src (fun s =>
    ev <- sc_attr s "event_type" ;;
    let adj := aga16_adjust adjust_c1 ev (gc_periods aga16_class) in
    ref <- aga16_ln_resp s adj scale_atten NaN ;;
    p <- arr_get ref 0%Z ;;
    ln_resp <- aga16_ln_resp s adj scale_atten (fexp p) ;;
    ret (ln_resp, Some (map (fun c => aga16_ln_std (aga16_phi c) (aga16_tau c)) aga16_coeff)))%py.

(** ** Coppersmith & Bommer (2014), a subclass *)
(** coppersmith_bommer_2014.py:26-49: class attributes. *)
Definition cop14_class : gclass := {|
  gc_abbrev := "CB14";
  gc_params := [NumP "mag" true (Some $3) (Some $8.5) PNone;
                NumP "dist_rup" false None None PNone;
                NumP "v_s30" true (Some $150) (Some $1500) PNone;
                CatP "event_type" true ["interface"; "intraslab"] PNone];
  gc_periods := map (fun c => qf (cop14_period c)) cop14_coeff;
  gc_psa := arange 0 14;
  gc_pga := Some 0%Z; gc_pgv := None; gc_pgd := None;
  gc_pgv_scale := $1; gc_pgd_scale := $1
|}%flt.
(** coppersmith_bommer_2014.py:59-91 and 93-113: [_calc_ln_resp] with [_calc_f_faba], one row. *)
Definition cop14_row_resp (c : cop14_row) (mag dist v_s30 scale adj pga_ref : flt) : flt :=
  (let path_atten := (qf (cop14_t_2 c) + qf (cop14_t_3 c) * (mag - $7.8))
                     * flog (dist + qf (cop14_c_4 c) * fexp (qf (cop14_t_9 c) * (mag - $6))) in
   qf (cop14_t_1 c) + qf (cop14_t_4 c) * adj + path_atten + scale * qf (cop14_t_6 c) * dist
   + aga16_f_mag (cop14_t_4 c) (cop14_t_5 c) (cop14_t_13 c) adj mag
   + aga16_f_site (cop14_v_lin c) (cop14_b c) (cop14_n c) (cop14_c c) (cop14_t_12 c) pga_ref v_s30
   + qf (cop14_t_16 c) * flog (fmax dist $40 / $40))%flt.
(** coppersmith_bommer_2014.py:51-57 with the inherited [__init__] (adjust_c1 = None). *)
Definition cop14 (src : dict) (scale_atten : flt) : M gmm :=
  gmm_make cop14_class src (fun s =>
    ev <- sc_attr s "event_type" ;;
    mag <- num s "mag" ;; dist <- num s "dist_rup" ;; v_s30 <- num s "v_s30" ;;
    let rows := map (fun c => (c, aga16_default_c1 ev (qf (cop14_period c)))) cop14_coeff in
    p <- arr_get (map (fun ca => cop14_row_resp (fst ca) mag dist v_s30 scale_atten (snd ca) NaN) rows) 0%Z ;;
    ret (map (fun ca => cop14_row_resp (fst ca) mag dist v_s30 scale_atten (snd ca) (fexp p)) rows,
         Some (map (fun c => aga16_ln_std (cop14_phi c) (cop14_tau c)) cop14_coeff)))%py.
