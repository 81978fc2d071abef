(** * Specification vocabulary for Pinilla-Ramos et al. (2024)

    The rows of the conditional model are the published table (Data_pr24.v). *)
From Coq Require Import Reals List String QArith Qreals.
From Verif Require Import GmmLib Data_pr24.
Open Scope R_scope.
Open Scope string_scope.
Open Scope list_scope.

Inductive ev24 := Interface | Slab.
Definition ev_name (e : ev24) : string := match e with Interface => "interface" | Slab => "slab" end.
(** Regional rate with distance and factor of the site term; None: not supported. *)
Definition region24 (e : ev24) (re : string) : option (R * R) :=
  match e with
  | Interface => if String.eqb re "Japan" then Some (0.03, 2.485) else if String.eqb re "New Zealand" then Some (0.024, 2.420)
                 else if String.eqb re "South America" then Some (0.024, 2.248) else None
  | Slab => if String.eqb re "Japan" then Some (0.046, 1.480) else if String.eqb re "New Zealand" then Some (0.032, 1.252)
            else if String.eqb re "South America" then Some (0.042, 1.510) else if String.eqb re "Taiwan" then Some (0.038, 1.151) else None
  end.
Record eq24 := Eq24 { k_ev : ev24; k_re : string; k_m : R; k_r : R; k_v : R }.
Definition eq24_gives (src : dict) (a : eq24) : Prop :=
  has_num src "mag" (k_m a) /\ has_num src "dist_rup" (k_r a) /\ has_num src "v_s30" (k_v a) /\
  has_str src "event_type" (ev_name (k_ev a)) /\ has_str src "region" (k_re a).
Definition served (a : eq24) : Prop := region24 (k_ev a) (k_re a) <> None.
(** Supported, and within the declared limits. *)
Definition eq24_ok (a : eq24) : Prop := served a /\ 4.5 <= k_m a <= 8.5 /\ 0 <= k_r a <= 300 /\ 150 <= k_v a <= 2000.

(** Median D5-75: source, site, path with a break at 250 km, regional path. *)
Definition source24 (e : ev24) (m : R) : R :=
  match e with
  | Interface => 5.268 * Rpower 10 (0.275 * (m - 7))
  | Slab => if Rlt_dec m 6 then 0.340 * Rpower 10 (0.5 * (m - 4.25)) else 0.340 * Rpower 10 (0.5 * 1.75) + 2.770 * ((m - 6) / 2.5)
  end.
Definition path24 (e : ev24) (r : R) : R :=
  match e with Interface => 0.031 * Rmin r 250 + 0.029 * Rmax (r - 250) 0 | Slab => 0.013 * Rmin r 250 + 0.020 * Rmax (r - 250) 0 end.
Definition median24 (a : eq24) : R :=
  match region24 (k_ev a) (k_re a) with
  | Some (rate, site) => source24 (k_ev a) (k_m a) + site * ln (3100 / k_v a) + path24 (k_ev a) (k_r a) + rate * k_r a
  | None => 0
  end.
Definition sigma24 (a : eq24) : R :=
  match k_ev a with
  | Interface => 0.3107 - 0.0393 * (k_r a / 100) + 0.0062 * (k_r a / 100) ^ 2 - 0.0519 * k_m a + 0.0041 * k_m a ^ 2 + 0.0028 * ln (k_v a)
  | Slab => 0.3035 - 0.0188 * (k_r a / 100) + 0.004 * (k_r a / 100) ^ 2 - 0.0288 * k_m a + 0.0019 * k_m a ^ 2 + 0.0038 * ln (k_v a)
  end.
(** Exponent of the transformation, and [med] plus or minus [s] in the transformed space. *)
Definition n24 (e : ev24) : R := match e with Interface => 0.15 | Slab => 0.25 end.
Definition plus24 (n med s : R) : R := Rpower (Rpower med n + s) (1 / n).
Definition minus24 (n med s : R) : R := Rpower (Rpower med n - s) (1 / n).

(** Other energies: the table, ratio of the medians, first-order propagation of the uncertainties. *)
Definition rows24 (e : ev24) : list pr24_row := match e with Interface => pr24_interface | Slab => pr24_slab end.
Definition ratio24 (x : pr24_row) (a : eq24) : R :=
  Q2R (f_c_median x) + Q2R (f_a0 x) + Q2R (f_m1 x) * k_m a + Q2R (f_r1 x) * (k_r a / 100) + Q2R (f_v1 x) * ln (k_v a / 3100).
Definition sigma_cond24 (x : pr24_row) (a : eq24) : R :=
  let n := n24 (k_ev a) in
  let da := Rpower (ratio24 x a) n * sigma24 a in
  let dc := n * Rpower (ratio24 x a) (n - 1) * Rpower (median24 a) n * Q2R (f_sigma_c x) in
  sqrt (da ^ 2 + dc ^ 2 + 2 * Q2R (f_rho x) * (da * dc)).
