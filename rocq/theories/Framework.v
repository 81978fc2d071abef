(** * Framework: src/pygmm/model.py *)

From Verif Require Export Np.
Open Scope R_scope.
Open Scope string_scope.
Open Scope list_scope.
Open Scope py_scope.

(** ** Scenario *)

(** model.py:92-120, [Scenario.KNOWN_KEYS]. *)
Definition KNOWN_KEYS : list string :=
  ["depth_1_0"; "depth_2_5"; "depth_tor"; "depth_bor"; "depth_bot"; "depth_hyp"; "dip";
   "dist_crjb"; "dist_jb"; "dist_epi"; "dist_hyp"; "dist_rup"; "dist_x"; "dist_y0";
   "dpp_centered"; "event_type"; "is_aftershock"; "mag"; "mechanism"; "on_hanging_wall";
   "pga_ref"; "region"; "site_cond"; "tectonic_region"; "v_s30"; "vs_source"; "width"].

(** model.py:12, [Scenario(collections.UserDict)]: the wrapped dict and the
    instance attributes set by assignment ([s.k = v]). *)
Record scen := Scen { s_data : dict; s_attrs : dict }.

(** model.py:141-144, [Scenario._check_keys]. *)
Fixpoint check_keys (ks : list string) : M unit :=
  match ks with
  | [] => ret tt
  | k :: ks' => if smem k KNOWN_KEYS then check_keys ks' else raise (EWarning k)
  end.

(** model.py:122-125, [Scenario.__init__]: copy the keywords, then check them. *)
Definition sc_new (kw : dict) : M scen :=
  let d := dupdate [] kw in
  check_keys (dkeys d) ;;; ret (Scen d []).

(** UserDict.__getitem__ (no __missing__). *)
Definition sc_item (s : scen) (k : string) : M pyval := ditem (s_data s) k.

(** model.py:127-129, [Scenario.__getattr__], called only when normal lookup in
    the instance fails; class attributes (methods) are not modelled, no scenario
    key is one of them. *)
Definition sc_attr (s : scen) (k : string) : M pyval :=
  match dget (s_attrs s) k with Some v => ret v | None => ditem (s_data s) k end.

(** UserDict.__setitem__ and attribute assignment. *)
Definition sc_setitem (s : scen) (k : string) (v : pyval) : scen :=
  Scen (dset (s_data s) k v) (s_attrs s).
Definition sc_setattr (s : scen) (k : string) (v : pyval) : scen :=
  Scen (s_data s) (dset (s_attrs s) k v).

(** UserDict.copy: a new object with a copy of the data and the same instance
    attributes. *)
Definition sc_copy (s : scen) : scen := Scen (dupdate [] (s_data s)) (s_attrs s).

(** model.py:135-139, [Scenario.copy_with]. *)
Definition sc_copy_with (s : scen) (kw : dict) : M scen :=
  check_keys (dkeys kw) ;;;
  ret (let c := sc_copy s in Scen (dupdate (s_data c) kw) (s_attrs c)).

(** model.py:131-133, [Scenario.__repr__]: format with both keys required. *)
Definition sc_repr (s : scen) : M (pyval * pyval) :=
  m <- sc_item s "mag" ;; r <- sc_item s "dist_jb" ;; ret (m, r).

(** ** Parameters *)

(** model.py:370-413, 416-451, 475-505: [Parameter], [NumericParameter],
    [CategoricalParameter]. *)
Inductive pkind : Type :=
| KNum (lo hi : option flt)
| KCat (options : list pyval).
Record param := Param {
  p_name : string;
  p_required : bool;
  p_default : pyval;
  p_kind : pkind
}.
(** Constructors with the argument order of the Python classes. *)
Definition NumP (name : string) (required : bool) (lo hi : option flt) (default : pyval) : param :=
  Param name required default (KNum lo hi).
Definition CatP (name : string) (required : bool) (options : list string) (default : pyval) : param :=
  Param name required default (KCat (map PStr options)).
Definition CatBoolP (name : string) (required : bool) (options : list bool) (default : pyval) : param :=
  Param name required default (KCat (map PBool options)).

(** model.py:391-398, [Parameter.check]. *)
Definition check_base (p : param) (v : pyval) : M pyval :=
  if is_none v && p_required p then raise EValue
  else ret (if is_none v then p_default p else v).

(** model.py:456-471: the texts. The second literal is not an f-string: the
    limit is not substituted. *)
Definition msg_less (name : string) (v : pyval) : message :=
  [FText name; FText " ("; FVal v; FText ") is less than the recommended limit ({self.min})."].
Definition msg_greater (name : string) (v : pyval) : message :=
  [FText name; FText " ("; FVal v; FText ") is greater than the recommended limit ({self.max})."].

(** model.py:453-472, [NumericParameter.check], after the base check. *)
Definition check_num (name : string) (lo hi : option flt) (v : pyval) : M pyval :=
  if is_none v then ret v
  else
    below <- (match lo with Some m => x <- as_num v ;; ret (fltb x m) | None => ret false end) ;;
    if (below : bool) then emit (msg_less name v) ;;; ret v
    else
      above <- (match hi with Some m => x <- as_num v ;; ret (fltb m x) | None => ret false end) ;;
      if (above : bool) then emit (msg_greater name v) ;;; ret v
      else ret v.

(** model.py:510-518: the texts. *)
Definition msg_notoption (name : string) (v : pyval) (options : list pyval) : message :=
  [FText name; FText " value of '"; FVal v;
   FText "' is not one of the options. The following options are possible: "] ++ map FVal options.
Definition msg_default (name : string) : message := [FText "Using default value for "; FText name].

(** model.py:507-523, [CategoricalParameter.check], after the base check. *)
Definition check_cat (name : string) (options : list pyval) (default v : pyval) : M pyval :=
  if pyin v options then ret v
  else
    emit (msg_notoption name v options) ;;;
    emit (msg_default name) ;;;
    ret default.

(** [p.check(value)] by the class of [p]. *)
Definition check (p : param) (v : pyval) : M pyval :=
  w <- check_base p v ;;
  match p_kind p with
  | KNum lo hi => check_num (p_name p) lo hi w
  | KCat options => check_cat (p_name p) options (p_default p) w
  end.

(** ** Model.__init__ *)

(** model.py:173-175, [Model._check_inputs]: check the parameters in order,
    writing each result back. *)
Fixpoint check_inputs (ps : list param) (s : scen) : M scen :=
  match ps with
  | [] => ret s
  | p :: ps' =>
      v <- sc_item s (p_name p) ;;
      w <- check p v ;;
      check_inputs ps' (sc_setitem s (p_name p) w)
  end.

(** model.py:157-171, [Model.__init__] called with one mapping: pick the declared
    parameters (absent ones as None), then check them. *)
Definition pick (ps : list param) (src : dict) : dict :=
  map (fun p => (p_name p, dget_none src (p_name p))) ps.
Definition model_init (ps : list param) (src : dict) : M scen :=
  s <- sc_new (pick ps src) ;; check_inputs ps s.

(** model.py:161-164: called with keywords instead, which are checked first. *)
Definition model_init_kw (ps : list param) (kw : dict) : M scen :=
  s <- sc_new kw ;; model_init ps (s_data s).

(** ** GroundMotionModel *)

(** model.py:182-198: class-level description of a ground motion model. *)
Record gclass := GClass {
  gc_abbrev : string;
  gc_params : list param;
  gc_periods : list flt;           (* PERIODS *)
  gc_psa : list nat;               (* INDICES_PSA *)
  gc_pga : option Z;               (* INDEX_PGA *)
  gc_pgv : option Z;               (* INDEX_PGV *)
  gc_pgd : option Z;               (* INDEX_PGD *)
  gc_pgv_scale : flt;              (* PGV_SCALE *)
  gc_pgd_scale : flt               (* PGD_SCALE *)
}.

(** An instance: its class, its own scenario, _ln_resp and _ln_std. *)
Record gmm := GMM {
  g_class : gclass;
  g_scen : scen;
  g_ln_resp : list flt;
  g_ln_std : option (list flt)
}.

(** Array indexing raising IndexError. *)
Definition arr_get (l : list flt) (i : Z) : M flt :=
  match py_nth l i with Some x => ret x | None => raise EIndex end.
Definition arr_take (l : list flt) (idx : list nat) : M (list flt) :=
  match take_idx l idx with Some x => ret x | None => raise EIndex end.

(** model.py:299-302, [periods]. *)
Definition g_periods (m : gmm) : M (list flt) := arr_take (gc_periods (g_class m)) (gc_psa (g_class m)).

(** model.py:365-367, [_resp] and model.py:304-307, [spec_accels]. *)
Definition g_resp (m : gmm) (i : Z) : M flt := x <- arr_get (g_ln_resp m) i ;; ret (fexp x).
Definition g_spec_accels (m : gmm) : M (list flt) :=
  l <- arr_take (g_ln_resp m) (gc_psa (g_class m)) ;; ret (map fexp l).

(** model.py:309-315, [ln_stds]. *)
Definition g_ln_stds (m : gmm) : M (list flt) :=
  match g_ln_std m with
  | None => raise ENotImpl
  | Some l => arr_take l (gc_psa (g_class m))
  end.

(** model.py:317-355: [pga], [pgv], [pgd]. *)
Definition g_pga (m : gmm) : M flt :=
  match gc_pga (g_class m) with None => raise ENotImpl | Some i => g_resp m i end.
Definition g_pgv (m : gmm) : M flt :=
  match gc_pgv (g_class m) with
  | None => raise ENotImpl
  | Some i => x <- g_resp m i ;; ret (fmul x (gc_pgv_scale (g_class m)))
  end.
Definition g_pgd (m : gmm) : M flt :=
  match gc_pgd (g_class m) with
  | None => raise ENotImpl
  | Some i => x <- g_resp m i ;; ret (fmul x (gc_pgd_scale (g_class m)))
  end.

(** model.py:325-363: [ln_std_pga], [ln_std_pgv], [ln_std_pgd]; subscripting a
    missing (None) _ln_std is a TypeError. *)
Definition g_ln_std_at (m : gmm) (index : option Z) : M flt :=
  match index with
  | None => raise ENotImpl
  | Some i => match g_ln_std m with None => raise EType | Some l => arr_get l i end
  end.
Definition g_ln_std_pga (m : gmm) := g_ln_std_at m (gc_pga (g_class m)).
Definition g_ln_std_pgv (m : gmm) := g_ln_std_at m (gc_pgv (g_class m)).
Definition g_ln_std_pgd (m : gmm) := g_ln_std_at m (gc_pgd (g_class m)).

(** model.py:207-237, [interp_ln_spec_accels] with the default kind="linear". *)
Definition g_interp_ln (m : gmm) (periods : list flt) : M (list flt) :=
  ps <- g_periods m ;;
  ys <- arr_take (g_ln_resp m) (gc_psa (g_class m)) ;;
  ret (map (fun t => interp1d_nan (map flog ps) ys (flog t)) periods).

(** model.py:239-262, [interp_spec_accels]. *)
Definition g_interp_accels (m : gmm) (periods : list flt) : M (list flt) :=
  l <- g_interp_ln m periods ;; ret (map fexp l).

(** model.py:264-297, [interp_ln_stds]. *)
Definition g_interp_ln_stds (m : gmm) (periods : list flt) : M (list flt) :=
  match g_ln_std m with
  | None => raise ENotImpl
  | Some std =>
      ps <- g_periods m ;;
      ys <- arr_take std (gc_psa (g_class m)) ;;
      ret (map (fun t => interp1d_nan (map flog ps) ys (flog t)) periods)
  end.

(** ** Coefficients (model.py:541-557): a read-only mapping *)
Definition coef_item (c : dict) (k : string) : M pyval := ditem c k.
Definition coef_attr (c : dict) (k : string) : M pyval := coef_item c k.
Definition coef_len (c : dict) : nat := List.length c.

(** ** Reading the model's own scenario *)

(** [s.k] used as a number: TypeError if None or a string (numpy arithmetic on
    None or str raises TypeError). *)
Definition num (s : scen) (k : string) : M flt := v <- sc_attr s k ;; as_num v.
