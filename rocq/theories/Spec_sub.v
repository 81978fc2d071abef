(** * Specification vocabulary for the subduction models AGA16 and Coppersmith & Bommer (2014)

    Scenario descriptions and the published formulas over the reals; apart from the
    coefficient tables nothing here refers to the modelled code. *)
From Coq Require Import Reals List String QArith Qreals.
From Verif Require Import GmmLib Nga Data_aga16 Data_cop14.
Open Scope R_scope.
Open Scope string_scope.
Open Scope list_scope.

Record sub := Sub { u_mag : R; u_rup : option R; u_hyp : option R; u_depth : option R; u_v : R;
                    u_event : string; u_region : option string }.
Definition sub_gives (src : dict) (u : sub) : Prop :=
  has_num src "mag" (u_mag u) /\ gives_num src "dist_rup" (u_rup u) /\ gives_num src "dist_hyp" (u_hyp u) /\
  gives_num src "depth_hyp" (u_depth u) /\ has_num src "v_s30" (u_v u) /\ has_str src "event_type" (u_event u) /\
  gives_str src "tectonic_region" (u_region u).
Definition sub_src (u : sub) : dict :=
  [("mag", PNum (Fin (u_mag u))); ("dist_rup", onum (u_rup u)); ("dist_hyp", onum (u_hyp u)); ("depth_hyp", onum (u_depth u));
   ("v_s30", PNum (Fin (u_v u))); ("event_type", PStr (u_event u)); ("tectonic_region", ostr (u_region u))].
Definition slab (u : sub) : bool := String.eqb (u_event u) "intraslab".
Definition backarc (u : sub) : bool := match u_region u with Some r => String.eqb r "backarc" | None => false end.
(** Intraslab events use the hypocentral distance and need the depth, all others the rupture distance. *)
Definition sub_dist (u : sub) : option R := if slab u then u_hyp u else u_rup u.
Definition sub_ready (u : sub) (d z : R) : Prop :=
  sub_dist u = Some d /\ (slab u = true -> u_depth u = Some z) /\
  (backarc u = true -> u_event u = "interface" \/ u_event u = "intraslab").
(** The same scenario with another magnitude, velocity or distance. *)
Definition sub_with_m (u : sub) (m : R) : sub := Sub m (u_rup u) (u_hyp u) (u_depth u) (u_v u) (u_event u) (u_region u).
Definition sub_with_v (u : sub) (v : R) : sub := Sub (u_mag u) (u_rup u) (u_hyp u) (u_depth u) v (u_event u) (u_region u).
Definition sub_with_d (u : sub) (d : R) : sub :=
  if slab u then Sub (u_mag u) (u_rup u) (Some d) (u_depth u) (u_v u) (u_event u) (u_region u)
  else Sub (u_mag u) (Some d) (u_hyp u) (u_depth u) (u_v u) (u_event u) (u_region u).

(** Default shift of the break magnitude (Table 4 of the paper): -0.3 for intraslab, for
    interface linear in ln T between (0.3, 0.2), (0.5, 0.1), (1, 0), (2, -0.1), (3, -0.2). *)
Definition dc1_interface (T : R) : R :=
  if Rle_dec T 0.3 then 0.2
  else if Rle_dec T 0.5 then 0.2 - 0.1 * (ln T - ln 0.3) / (ln 0.5 - ln 0.3)
  else if Rle_dec T 1 then 0.1 - 0.1 * (ln T - ln 0.5) / (ln 1 - ln 0.5)
  else if Rle_dec T 2 then - 0.1 * (ln T - ln 1) / (ln 2 - ln 1)
  else if Rle_dec T 3 then -0.1 - 0.1 * (ln T - ln 2) / (ln 3 - ln 2)
  else -0.2.
Definition dc1_default (slab : bool) (T : R) : R := if slab then -0.3 else dc1_interface T.
(** The constructor argument adjust_c1: absent, one number, or one number per row (a list of
    length one is spread over all rows). *)
Inductive adj_arg := AdjDefault | AdjAll (x : R) | AdjRows (l : list R).
Definition adj_vals (a : adj_arg) (slab : bool) (periods : list R) : option (list R) :=
  match a with
  | AdjDefault => Some (map (dc1_default slab) periods)
  | AdjAll x => Some (map (fun _ => x) periods)
  | AdjRows [x] => Some (map (fun _ => x) periods)
  | AdjRows l => if Nat.eqb (List.length l) (List.length periods) then Some l else None
  end.

(** Equation 2: magnitude scaling with the break at 7.8 + shift. *)
Definition sub_mag_val (t4 t5 t13 : Q) (shift m : R) : R :=
  (if Rle_dec m (7.8 + shift) then Q2R t4 else Q2R t5) * (m - (7.8 + shift)) + Q2R t13 * ((10 - m) * (10 - m)).
(** Equation 5: site amplification; [p] is the median PGA at 1000 m/s. *)
Definition sub_site_val (v_lin b n c t12 : Q) (p v : R) : R :=
  let r := Rmin v 1000 / Q2R v_lin in
  if Rlt_dec v (Q2R v_lin) then
    Q2R t12 * ln r - Q2R b * ln (p + Q2R c) + Q2R b * ln (p + Q2R c * Rpower r (Q2R n))
  else (Q2R t12 + Q2R b * Q2R n) * ln r.
(** Equation 1 without the site term (equations 3 and 4 for depth and back-arc sites). *)
Definition aga16_rock (slab back : bool) (c : aga16_row) (shift scale m d z : R) : R :=
  let f := if slab then 1 else 0 in
  Q2R (aga16_t_1 c) + Q2R (aga16_t_4 c) * shift
  + (Q2R (aga16_t_2 c) + Q2R (aga16_t_14 c) * f + Q2R (aga16_t_3 c) * (m - 7.8))
    * ln (d + Q2R (aga16_c_4 c) * exp (Q2R (aga16_t_9 c) * (m - 6)))
  + scale * Q2R (aga16_t_6 c) * d + Q2R (aga16_t_10 c) * f
  + sub_mag_val (aga16_t_4 c) (aga16_t_5 c) (aga16_t_13 c) shift m
  + (if back then (if slab then Q2R (aga16_t_7 c) + Q2R (aga16_t_8 c) * ln (Rmax d 85 / 40)
                   else Q2R (aga16_t_15 c) + Q2R (aga16_t_16 c) * ln (Rmax d 100 / 40)) else 0)
  + (if slab then Q2R (aga16_t_11 c) * (Rmin z 120 - 60) else 0).
Definition aga16_site (c : aga16_row) (p v : R) : R :=
  sub_site_val (aga16_v_lin c) (aga16_b c) (aga16_n c) (aga16_c c) (aga16_t_12 c) p v.
(** Median PGA at 1000 m/s, from the PGA row [c0] and its shift. *)
Definition aga16_pga1000 (u : sub) (scale d z : R) (c0 : aga16_row) (shift0 : R) : R :=
  exp (aga16_rock (slab u) (backarc u) c0 shift0 scale (u_mag u) d z + aga16_site c0 0 1000).
Definition aga16_val (u : sub) (scale d z : R) (c0 : aga16_row) (shift0 : R) (cs : aga16_row * R) : R :=
  aga16_rock (slab u) (backarc u) (fst cs) (snd cs) scale (u_mag u) d z
  + aga16_site (fst cs) (aga16_pga1000 u scale d z c0 shift0) (u_v u).

(** Coppersmith & Bommer: no event-type terms, back-arc attenuation for all sites. *)
Definition cop14_rock (c : cop14_row) (shift scale m d : R) : R :=
  Q2R (cop14_t_1 c) + Q2R (cop14_t_4 c) * shift
  + (Q2R (cop14_t_2 c) + Q2R (cop14_t_3 c) * (m - 7.8)) * ln (d + Q2R (cop14_c_4 c) * exp (Q2R (cop14_t_9 c) * (m - 6)))
  + scale * Q2R (cop14_t_6 c) * d
  + sub_mag_val (cop14_t_4 c) (cop14_t_5 c) (cop14_t_13 c) shift m
  + Q2R (cop14_t_16 c) * ln (Rmax d 40 / 40).
Definition cop14_site (c : cop14_row) (p v : R) : R :=
  sub_site_val (cop14_v_lin c) (cop14_b c) (cop14_n c) (cop14_c c) (cop14_t_12 c) p v.
Definition cop14_val (u : sub) (scale d : R) (c0 c : cop14_row) : R :=
  let shift c := dc1_default (slab u) (Q2R (cop14_period c)) in
  cop14_rock c (shift c) scale (u_mag u) d
  + cop14_site c (exp (cop14_rock c0 (shift c0) scale (u_mag u) d + cop14_site c0 0 1000)) (u_v u).
(** The parameters Coppersmith & Bommer reads. *)
Definition cop_gives (src : dict) (u : sub) : Prop :=
  has_num src "mag" (u_mag u) /\ gives_num src "dist_rup" (u_rup u) /\ has_num src "v_s30" (u_v u) /\ has_str src "event_type" (u_event u).
Definition sub_with_rup (u : sub) (d : R) : sub := Sub (u_mag u) (Some d) (u_hyp u) (u_depth u) (u_v u) (u_event u) (u_region u).
