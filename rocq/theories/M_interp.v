(** * Interpolation over the spectral periods with any [kind]

    model.py:207-297: [interp_ln_spec_accels], [interp_spec_accels] and [interp_ln_stds] pass
    their argument [kind] on to scipy.interpolate.interp1d (bounds_error=False,
    fill_value=nan). Framework.v models the default kind="linear"; this file models the
    others. *)
From Coq Require Import Reals List String.
From Verif Require Import Framework Np.
Open Scope R_scope.
Open Scope string_scope.
Open Scope list_scope.

(** scipy interp1d._call_previousnext for kind="previous" (searchsorted of the abscissa among
    the increasing knots): the value of the last knot that is not beyond [x]. kind="zero", the
    spline of order 0 over the same knots, gives the same. *)
Fixpoint prev_val (y0 : flt) (rest : list (flt * flt)) (x : flt) : flt :=
  match rest with
  | [] => y0
  | (x1, y1) :: rest' => if (x1 <=? x)%flt then prev_val y1 rest' x else y0
  end.
(** interp1d._call_previousnext for kind="next": the first knot that is not before [x]. *)
Fixpoint next_val (y0 : flt) (rest : list (flt * flt)) (x0 x : flt) : flt :=
  match rest with
  | [] => y0
  | (x1, y1) :: rest' => if (x <=? x0)%flt then y0 else next_val y1 rest' x1 x
  end.
(** interp1d._call_nearest: searchsorted among the midpoints x_bds, side="left" for
    kind="nearest" (a midpoint belongs to the knot before it), side="right" for "nearest-up". *)
Fixpoint near_val (up : bool) (x0 y0 : flt) (rest : list (flt * flt)) (x : flt) : flt :=
  match rest with
  | [] => y0
  | (x1, y1) :: rest' =>
      let mid := (x0 / Fin 2 + x1 / Fin 2)%flt in
      if (if up then (x <? mid)%flt else (x <=? mid)%flt) then y0 else near_val up x1 y1 rest' x
  end.
(** interp1d._evaluate: NaN outside the knots, otherwise [f] of the knots. A NaN abscissa (the
    logarithm of a negative period) is not modelled for these kinds: the result is set to NaN,
    and no theorem is about it. *)
Definition within (f : flt -> flt -> list (flt * flt) -> flt -> flt) (xs ys : list flt) (x : flt) : flt :=
  match combine xs ys with
  | [] => NaN
  | (x0, y0) :: rest =>
      if (x <? x0)%flt then NaN
      else if (fst (last rest (x0, y0)) <? x)%flt then NaN
      else match x with NaN => NaN | _ => f x0 y0 rest x end
  end.
(** [interp1d(xs, ys, kind, bounds_error=False, fill_value=nan)] for increasing [xs] of length
    at least 2. The splines of order 2 and 3 (scipy make_interp_spline) are the parameter
    [spl]; they need 3 and 4 knots (ValueError). An unknown kind raises NotImplementedError. *)
Definition interp1d_kind (spl : nat -> list flt -> list flt -> flt -> flt) (kind : string) (xs ys : list flt) : M (flt -> flt) :=
  let spline k := if Nat.leb (S k) (List.length xs) then ret (within (fun _ _ _ => spl k xs ys) xs ys) else raise EValue in
  if String.eqb kind "linear" then ret (interp1d_nan xs ys)
  else if String.eqb kind "slinear" then ret (interp1d_nan xs ys)
  else if String.eqb kind "previous" then ret (within (fun _ y0 rest => prev_val y0 rest) xs ys)
  else if String.eqb kind "zero" then ret (within (fun _ y0 rest => prev_val y0 rest) xs ys)
  else if String.eqb kind "next" then ret (within (fun x0 y0 rest => next_val y0 rest x0) xs ys)
  else if String.eqb kind "nearest" then ret (within (near_val false) xs ys)
  else if String.eqb kind "nearest-up" then ret (within (near_val true) xs ys)
  else if String.eqb kind "quadratic" then spline 2%nat
  else if String.eqb kind "cubic" then spline 3%nat
  else raise ENotImpl.

(** model.py:207-237, [interp_ln_spec_accels]. *)
Definition g_interp_ln_kind (spl : nat -> list flt -> list flt -> flt -> flt) (m : gmm) (periods : list flt) (kind : string) : M (list flt) :=
  ps <- g_periods m ;;
  ys <- arr_take (g_ln_resp m) (gc_psa (g_class m)) ;;
  f <- interp1d_kind spl kind (map flog ps) ys ;;
  ret (map (fun t => f (flog t)) periods).
(** model.py:239-262, [interp_spec_accels]. *)
Definition g_interp_accels_kind (spl : nat -> list flt -> list flt -> flt -> flt) (m : gmm) (periods : list flt) (kind : string) : M (list flt) :=
  l <- g_interp_ln_kind spl m periods kind ;; ret (map fexp l).
(** model.py:264-297, [interp_ln_stds]. *)
Definition g_interp_ln_stds_kind (spl : nat -> list flt -> list flt -> flt -> flt) (m : gmm) (periods : list flt) (kind : string) : M (list flt) :=
  match g_ln_std m with
  | None => raise ENotImpl
  | Some std =>
      ps <- g_periods m ;;
      ys <- arr_take std (gc_psa (g_class m)) ;;
      f <- interp1d_kind spl kind (map flog ps) ys ;;
      ret (map (fun t => f (flog t)) periods)
  end.
