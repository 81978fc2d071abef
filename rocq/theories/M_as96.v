(** * Abrahamson & Silva (1996) duration: src/pygmm/abrahamson_silva_1996.py *)

From Verif Require Export GmmLib.
Open Scope R_scope.
Open Scope string_scope.
Open Scope list_scope.

(** abrahamson_silva_1996.py:23-28: PARAMS. *)
Definition as96_params : list param :=
  [NumP "mag" true (Some $4) (Some $7.5) PNone;
   NumP "dist_rup" true (Some $0) (Some $250) PNone;
   CatP "site_cond" true ["soil"; "rock"] PNone]%flt.

(** Arrays a caller holds: [np.asarray] returns an ndarray argument itself, so writes into
    it are seen by the caller; a list (or number) is copied.  [ADup l] is a list argument,
    [ARef p] the caller's (float) array number [p]. *)
Definition aheap := list (list flt).
Inductive aarg := ADup (l : list flt) | ARef (p : nat).
Fixpoint aset (h : aheap) (p : nat) (l : list flt) : aheap :=
  match h, p with
  | [], _ => []
  | _ :: h', O => l :: h'
  | x :: h', S p' => x :: aset h' p' l
  end.
(** Contents of the argument; an array that does not exist reads as empty. *)
Definition aread (h : aheap) (a : aarg) : list flt :=
  match a with ADup l => l | ARef p => nth p h [] end.
Definition awrite (h : aheap) (a : aarg) (l : list flt) : aheap :=
  match a with ADup _ => h | ARef p => aset h p l end.

(** Lines 56-58 and 69-71: ratios outside [0.10, 0.95] are overwritten with NaN. *)
Definition as96_mask1 (x : flt) : flt := (if (x <? $0.10) || ($0.95 <? x) then NaN else x)%flt.
(** Lines 62-63: the increment of one (masked) ratio. *)
Definition as96_incr1 (x : flt) : flt :=
  (let ln_i_ratio := flog ((x - $0.05) / ($1 - x)) in
   $(-0.532) + $0.552 * ln_i_ratio - $0.0262 * fsq ln_i_ratio)%flt.
(** Lines 53-65, [calc_ln_dur_incr]: the increments and the caller's arrays afterwards. *)
Definition as96_calc_incr (h : aheap) (nias : aarg) : list flt * aheap :=
  let masked := map as96_mask1 (aread h nias) in
  (map as96_incr1 masked, awrite h nias masked).

Record as96_obj := As96 { a96_scen : scen; a96_ln_dur : flt; a96_std : flt }.

(** Lines 30-43, [__init__]. [calc_ln_dur_incr(0.75)] works on a fresh array. *)
Definition as96 (src : dict) : M as96_obj :=
  (s <- model_init as96_params src ;;
   mag <- num s "mag" ;; site <- sc_attr s "site_cond" ;; dist_rup <- num s "dist_rup" ;;
   let stress_drop := fexp ($5.204 + $0.851 * (mag - $6))%flt in
   let moment := fpowf $10 ($1.5 * mag + $16.05)%flt in
   let ln_dur := (flog (fpow (stress_drop / moment) (-1 / 3) / ($4900000 * $3.2)
                        + $0.805 * (if is_str site "soil" then $1 else $0)
                        + $0.063 * pymax (dist_rup - $10) $0)
                  + as96_incr1 (as96_mask1 $0.75))%flt in
   ret (As96 s ln_dur (Fin 0.55)))%py.

(** Lines 45-51: [duration] and [std_err]. *)
Definition as96_duration (m : as96_obj) : flt := fexp (a96_ln_dur m).
Definition as96_std_err (m : as96_obj) : flt := a96_std m.

(** Lines 76-118: the table of standard errors. *)
Definition as96_std_x : list flt :=
  [$0.10; $0.15; $0.20; $0.25; $0.30; $0.35; $0.40; $0.45; $0.50; $0.55; $0.60; $0.65; $0.70; $0.75; $0.80; $0.85; $0.90; $0.95]%flt.
Definition as96_std_y : list flt :=
  [$0.843; $0.759; $0.713; $0.691; $0.674; $0.660; $0.646; $0.636; $0.628; $0.616; $0.605; $0.594; $0.582; $0.565; $0.545; $0.528; $0.510; $0.493]%flt.
(** Lines 67-121, [interp] for a one-dimensional array (or list) of ratios; one row per
    entry of [stds], or a single row without [stds].  Returns the caller's arrays as well. *)
Definition as96_interp (h : aheap) (m : as96_obj) (nias : aarg) (stds : option (list flt)) : list (list flt) * aheap :=
  let masked := map as96_mask1 (aread h nias) in
  let h1 := awrite h nias masked in
  (** calc_ln_dur_incr masks the same array again *)
  let '(incr, h2) := as96_calc_incr h1 (match nias with ADup _ => ADup masked | ARef p => ARef p end) in
  let ln_dur := map (fun i => a96_ln_dur m + i)%flt incr in
  (match stds with
   | None => [map fexp ln_dur]
   | Some ss => map (fun sd => map (fun dx => fexp (fst dx + sd * np_interp as96_std_x as96_std_y (snd dx))%flt)
                                   (combine ln_dur masked)) ss
   end, h2).
