(** * Derras, Bard & Cotton (2014): src/pygmm/derras_bard_cotton_2014.py *)

From Verif Require Export GmmLib Data_dbc14.
Open Scope R_scope.
Open Scope string_scope.

(** derras_bard_cotton_2014.py:24-47: class attributes. *)
Definition dbc14_class : gclass := {|
  gc_abbrev := "DBC13";
  gc_params := [NumP "dist_jb" true (Some $5) (Some $200) PNone;
                NumP "mag" true (Some $4) (Some $7) PNone;
                NumP "v_s30" true (Some $200) (Some $800) PNone;
                NumP "depth_hyp" true (Some $0) (Some $25) PNone;
                CatP "mechanism" true ["SS"; "NS"; "RS"] PNone];
  gc_periods := map (fun c => qf (dbc14_period c)) dbc14_coeff;
  gc_psa := arange 2 62;
  gc_pga := Some 1%Z; gc_pgv := Some 0%Z; gc_pgd := None;
  gc_pgv_scale := $1; gc_pgd_scale := $1
|}%flt.

(** The product of a row of a matrix with a vector ([@]). *)
Definition dot (ws : list Q) (xs : list flt) : flt :=
  fsum (map (fun wx => fmul (qf (fst wx)) (snd wx)) (combine ws xs)).

(** Line 59: the number of a mechanism; the key error of the dictionary for anything
    else (only None can arrive here, after the parameter check). *)
Definition dbc14_mech (v : pyval) : M flt :=
  (if is_str v "NS" then ret $1%flt else if is_str v "RS" then ret $3%flt
   else if is_str v "SS" then ret $4%flt else raise (EKey "None"))%py.
(** Lines 61-67: normalised parameters. *)
Definition dbc14_norm (values : list flt) : list flt :=
  map (fun vl => let '(v, (mn, mx)) := vl in ($2 * (v - qf mn) / (qf mx - qf mn) - $1)%flt) (combine values dbc14_limits).
(** Lines 69-75: the hidden layer. *)
Definition dbc14_layer (p_n : list flt) : list flt :=
  map (fun bw => ftanh (qf (fst bw) + dot (snd bw) p_n)%flt) dbc14_hidden.
(** Lines 69-87: output layer, conversion from normalised values and units, one row.
    [i] is the position: the first row (PGV) is converted to cm/s, the others to g. *)
Definition dbc14_ln_resp (h : list flt) (i : nat) (c : dbc14_row) : flt :=
  (let log10_resp_n := qf (dbc14_b2 c) + dot (dbc14_w2 c) h in
   let log10_resp := $0.5 * (log10_resp_n + $1) * (qf (dbc14_max c) - qf (dbc14_min c)) + qf (dbc14_min c) in
   let scale := flog10 (if Nat.eqb i 0 then $0.01 else $9.80665 * $1) in
   flog (fpowf $10 (log10_resp - scale)))%flt.
(** Line 91: standard deviation, one row. *)
Definition dbc14_ln_std (c : dbc14_row) : flt := flog (fpowf (Fin 10) (qf (dbc14_sd_total c))).

(** Lines 49-91, [__init__]. *)
Definition dbc14 (src : dict) : M gmm :=
  gmm_make dbc14_class src (fun s =>
    v_s30 <- num s "v_s30" ;; dist_jb <- num s "dist_jb" ;;
    mv <- sc_attr s "mechanism" ;; mech <- dbc14_mech mv ;;
    mag <- num s "mag" ;; depth <- num s "depth_hyp" ;;
    let h := dbc14_layer (dbc14_norm [flog10 dist_jb; mag; flog10 v_s30; depth; mech]) in
    ret (map (fun ic => dbc14_ln_resp h (fst ic) (snd ic)) (combine (seq 0 (List.length dbc14_coeff)) dbc14_coeff),
         Some (map dbc14_ln_std dbc14_coeff)))%py.
