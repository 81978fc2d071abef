(** * Specification vocabulary for the duration models AS96, KS06 and AS16

    Scenario descriptions and the published formulas over the reals; nothing here refers to
    the modelled code. *)
From Coq Require Import Reals List String.
From Verif Require Import GmmLib Nga.
Open Scope R_scope.
Open Scope string_scope.
Open Scope list_scope.

(** Brune corner frequency, shear-wave velocity 3.2 km/s, for the log of the stress drop;
    seismic moment 10^(1.5 M + 16.05). *)
Definition corner_freq (ln_sd m : R) : R := 4900000 * 3.2 * Rpower (exp ln_sd / Rpower 10 (1.5 * m + 16.05)) (1 / 3).
Definition source_dur (ln_sd m : R) : R := 1 / corner_freq ln_sd m.

(** ** Abrahamson & Silva (1996) *)
Record dur96 := Dur96 { d96_m : R; d96_r : R; d96_site : string }.
Definition dur96_gives (src : dict) (a : dur96) : Prop :=
  has_num src "mag" (d96_m a) /\ has_num src "dist_rup" (d96_r a) /\ has_str src "site_cond" (d96_site a).
Definition dur96_src (a : dur96) : dict :=
  [("mag", PNum (Fin (d96_m a))); ("dist_rup", PNum (Fin (d96_r a))); ("site_cond", PStr (d96_site a))].
(** Increment of the log duration at a ratio [q] of the Arias intensity. *)
Definition arias_incr (q : R) : R :=
  let l := ln ((q - 0.05) / (1 - q)) in -0.532 + 0.552 * l - 0.0262 * (l * l).
(** Source, site and path duration. *)
Definition base96 (a : dur96) : R :=
  source_dur (5.204 + 0.851 * (d96_m a - 6)) (d96_m a)
  + (if String.eqb (d96_site a) "soil" then 0.805 else 0) + 0.063 * Rmax (d96_r a - 10) 0.

(** ** Kempton & Stewart (2006) *)
Record dur06 := Dur06 { d06_m : R; d06_r : R; d06_v : R }.
Definition dur06_gives (src : dict) (a : dur06) : Prop :=
  has_num src "mag" (d06_m a) /\ has_num src "dist_rup" (d06_r a) /\ has_num src "v_s30" (d06_v a).
Definition dur06_src (a : dur06) : dict :=
  [("mag", PNum (Fin (d06_m a))); ("dist_rup", PNum (Fin (d06_r a))); ("v_s30", PNum (Fin (d06_v a)))].
(** Totals of source, path and site duration. *)
Definition t75a (a : dur06) : R := source_dur 6.02 (d06_m a) + 0.07 * d06_r a + (0.82 - 0.0013 * d06_v a).
Definition t95a (a : dur06) : R := source_dur (2.79 + 0.82 * (d06_m a - 6)) (d06_m a) + 0.15 * d06_r a + (3 - 0.0041 * d06_v a).
Definition t75v (a : dur06) : R := source_dur 5.46 (d06_m a) + 0.10 * d06_r a + (1.4 - 0.0022 * d06_v a).
Definition t95v (a : dur06) : R := source_dur (1.53 + 1.34 * (d06_m a - 6)) (d06_m a) + 0.15 * d06_r a + (3.99 - 0.0062 * d06_v a).
(** exp (log t): the number itself if it is positive, 0 for 0 and NaN otherwise. *)
Definition shown (t : R) : flt := if Rlt_dec 0 t then Fin t else if Req_EM_T t 0 then Fin 0 else NaN.

(** ** Afshari & Stewart (2016) *)
Record dur16 := Dur16 { d16_m : R; d16_r : R; d16_v : R; d16_mech : string; d16_z : option R }.
Definition dur16_gives (src : dict) (a : dur16) : Prop :=
  has_num src "mag" (d16_m a) /\ has_num src "dist_rup" (d16_r a) /\ has_num src "v_s30" (d16_v a) /\
  has_str src "mechanism" (d16_mech a) /\ gives_num src "depth_1_0" (d16_z a).
Definition dur16_src (a : dur16) : dict :=
  [("mag", PNum (Fin (d16_m a))); ("dist_rup", PNum (Fin (d16_r a))); ("v_s30", PNum (Fin (d16_v a)));
   ("mechanism", PStr (d16_mech a)); ("depth_1_0", onum (d16_z a))].
(** Coefficients of one measure; b0, b1 by mechanism (unspecified, NS, RS, SS). *)
Record coef16 := C16 { k_m1 : R; k_m2 : R; k_b0 : string -> R; k_b1 : string -> R; k_b2 : R; k_b3 : R;
  k_c1 : R; k_c2 : R; k_c3 : R; k_c4 : R; k_c5 : R; k_vr : R; k_t1 : R; k_t2 : R; k_p1 : R; k_p2 : R }.
Definition by_mech (u ns rs ss : R) (mech : string) : R :=
  if String.eqb mech "NS" then ns else if String.eqb mech "RS" then rs else if String.eqb mech "SS" then ss else u.
Definition k5t75 : coef16 := C16 5.35 7.15 (by_mech 1.280 1.555 0.7806 1.279) (by_mech 5.576 4.992 7.061 5.578) 0.9011 (-1.684)
  0.1159 0.1065 0.0682 (-0.2246) 0.0006 368.2 0.28 0.25 0.54 0.41.
Definition k5t95 : coef16 := C16 5.2 7.4 (by_mech 2.182 2.541 1.612 2.302) (by_mech 3.628 3.170 4.536 3.467) 0.9443 (-3.911)
  0.3165 0.2539 0.0932 (-0.3183) 0.0006 369.9 0.25 0.19 0.43 0.35.
Definition k20t80 : coef16 := C16 5.2 7.4 (by_mech 0.8822 1.409 0.7729 0.8804) (by_mech 6.182 4.778 6.188 6.188) 0.7414 (-3.164)
  0.0646 0.0865 0.0373 (-0.4237) 0.0005 369.6 0.30 0.19 0.56 0.45.
Definition source16 (k : coef16) (mech : string) (m : R) : R :=
  if Rle_dec m (k_m1 k) then k_b0 k mech
  else source_dur (k_b1 k mech + k_b2 k * (Rmin m (k_m2 k) - 6) + k_b3 k * Rmax (m - k_m2 k) 0) m.
Definition path16 (k : coef16) (r : R) : R := k_c1 k * Rmin r 10 + k_c2 k * Rmax (Rmin r 50 - 10) 0 + k_c3 k * Rmax (r - 50) 0.
(** The basin term as the code computes it, with the depth [z] as given by the user. *)
Definition z_ref (v : R) : R := exp (-7.15 / 4 * ln ((v ^ 4 + 570.94 ^ 4) / (1360 ^ 4 + 570.94 ^ 4))) / 1000.
Definition basin16 (k : coef16) (v : R) (z : option R) : R :=
  match z with None => 0 | Some z => k_c5 k * Rmin (z - z_ref v) 200 end.
Definition med16 (k : coef16) (a : dur16) : R :=
  (source16 k (d16_mech a) (d16_m a) + path16 k (d16_r a)) * Rpower (Rmin (d16_v a) 600 / k_vr k) (k_c4 k) * exp (basin16 k (d16_v a) (d16_z a)).
(** x goes from a to b as m goes from lo to hi. *)
Definition ramp (a b lo hi m : R) : R := a + (b - a) * (Rmin (Rmax m lo) hi - lo) / (hi - lo).
Definition sd16 (k : coef16) (m : R) : R :=
  sqrt (ramp (k_t1 k) (k_t2 k) 6.5 7 m * ramp (k_t1 k) (k_t2 k) 6.5 7 m + ramp (k_p1 k) (k_p2 k) 5.5 5.75 m * ramp (k_p1 k) (k_p2 k) 5.5 5.75 m).
(** The scenario with another distance, velocity, magnitude or basin depth. *)
Definition with16_r (a : dur16) (r : R) : dur16 := Dur16 (d16_m a) r (d16_v a) (d16_mech a) (d16_z a).
Definition with16_v (a : dur16) (v : R) : dur16 := Dur16 (d16_m a) (d16_r a) v (d16_mech a) (d16_z a).
Definition with16_m (a : dur16) (m : R) : dur16 := Dur16 m (d16_r a) (d16_v a) (d16_mech a) (d16_z a).
Definition with16_z (a : dur16) (z : R) : dur16 := Dur16 (d16_m a) (d16_r a) (d16_v a) (d16_mech a) (Some z).
(** AS96: the result for a ratio inside [0.10, 0.95] is [f] of it, outside it is NaN. *)
Definition banded (f : R -> R) (x : flt) (y : flt) : Prop :=
  (exists q, x = Fin q /\ 0.10 <= q <= 0.95 /\ y = Fin (f q)) \/ (~ (exists q, x = Fin q /\ 0.10 <= q <= 0.95) /\ y = NaN).
(** AS96: an entry of a caller's array before and after: kept inside the band, NaN outside. *)
Definition masked (before after : flt) : Prop :=
  (after = before /\ exists q, before = Fin q /\ 0.10 <= q <= 0.95) \/ (after = NaN /\ ~ exists q, before = Fin q /\ 0.10 <= q <= 0.95).
