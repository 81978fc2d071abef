(** * Baker & Jayaram (2008): src/pygmm/baker_jayaram_2008.py *)

From Verif Require Export Np.
Open Scope R_scope.
Open Scope list_scope.

(** baker_jayaram_2008.py:26-54, [calc_correls], one element of [periods].  The
    [np.select] lists are evaluated in order. *)
Definition bj08_correl (period period_cond : flt) : flt :=
  (let period_min := fmin period period_cond in
   let period_max := fmax period period_cond in
   let c_1 := $1 - fcos (Fin (PI / 2) - $0.366 * flog (period_max / fmax period_min $0.109)) in
   let c_2 := np_select
     [(period_max <? $0.2,
       $1 - $0.105 * ($1 - $1 / ($1 + fexp ($100 * fmin period_max $0.2 - $5))) * (period_max - period_min) / (period_max - $0.0099));
      (true, $0)] $0 in
   let c_3 := np_select [(period_max <? $0.109, c_2); (true, c_1)] $0 in
   let c_4 := c_1 + $0.5 * (fsqrt c_3 - c_3) * ($1 + fcos (Fin PI * period_min / $0.109)) in
   np_select [(period_max <? $0.109, c_2); (period_min >? $0.109, c_1);
              (period_max <? $0.2, fmin c_2 c_4); (true, c_4)] $0)%flt.
(** Lines 10-56, [calc_correls] for a 1-D array of periods. *)
Definition bj08_correls (periods : list flt) (period_cond : flt) : list flt :=
  map (fun t => bj08_correl t period_cond) periods.

(** Lines 59-99, [calc_cond_mean_spectrum], for 1-D arrays with increasing periods.  Arrays of
    unequal or zero length make np.interp raise ValueError (also when one of them has length one:
    np.interp does not broadcast), before any broadcast could happen. *)
Definition bj08_cms (periods ln_psas ln_stds : list flt) (period_cond ln_psa_cond : flt) : res (list flt * list flt) :=
  if (List.length periods =? 0)%nat || negb (List.length ln_psas =? List.length periods)%nat
     || negb (List.length ln_stds =? List.length periods)%nat then Raise EValue
  else
    let correls := bj08_correls periods period_cond in
    let epsilon := ((ln_psa_cond - np_interp periods ln_psas period_cond) / np_interp periods ln_stds period_cond)%flt in
    Ok (map (fun '(m, (s, c)) => (m + s * c * epsilon)%flt) (combine ln_psas (combine ln_stds correls)),
        map (fun '(s, c) => fsqrt (fsq s * ($1 - fsq c))%flt) (combine ln_stds correls)).
