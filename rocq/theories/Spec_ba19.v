(** * Specification vocabulary for Bayless & Abrahamson (2019) *)
From Coq Require Import Reals List String QArith Qreals.
From Verif Require Import ArgMin GmmLib Data_ba19 Spec_hkr14.
Open Scope R_scope.
Open Scope string_scope.
Open Scope list_scope.

(** A scenario; the mechanism and the depth to 1 km/s rock are optional. *)
Record eq19 := Eq19 { e_m : R; e_r : R; e_z : R; e_v : R; e_d : option R; e_mech : option string }.
Definition opt_str (src : dict) (k : string) (o : option string) : Prop :=
  match o with Some x => has_str src k x | None => absent src k end.
Definition eq19_gives (src : dict) (a : eq19) : Prop :=
  has_num src "mag" (e_m a) /\ has_num src "dist_rup" (e_r a) /\ has_num src "depth_tor" (e_z a) /\ has_num src "v_s30" (e_v a) /\
  opt_num src "depth_1_0" (e_d a) /\ opt_str src "mechanism" (e_mech a).
(** Distances are not negative, velocities positive, a given basin depth not negative. *)
Definition eq19_ok (a : eq19) : Prop := 0 <= e_r a /\ 0 < e_v a /\ match e_d a with Some d => 0 <= d | None => True end.
Definition e_ns (a : eq19) : bool := match e_mech a with Some t => String.eqb t "NS" | None => false end.

(** The rows with coefficients: 239 frequencies from 0.1 Hz to 23.988 Hz; then 62 more, up to 100 Hz, without. *)
Definition low_rows : list ba19_row := firstn 239 ba19_coeff.
Definition high_rows : list ba19_row := skipn 239 ba19_coeff.
Definition cell (o : option Q) : R := match o with Some q => Q2R q | None => 0 end.
Definition last_low : ba19_row := nth 238 ba19_coeff (Mk_ba19_row 0 None None None None None None None None None None None None None None None None None None 0 0 0 0 0 0 0 0 0).
Definition row_5hz : ba19_row := nth 170 ba19_coeff last_low.

(** Default depth to 1 km/s rock [km]. *)
Definition z1_default (v : R) : R := exp (-7.67 / 4 * ln ((v ^ 4 + 610 ^ 4) / (1360 ^ 4 + 610 ^ 4))) / 1000.
(** The published terms. *)
Definition t_mag (c : ba19_row) (m : R) : R :=
  cell (ba19_c1 c) + cell (ba19_c2 c) * (m - 6) +
  (cell (ba19_c2 c) - cell (ba19_c3 c)) / cell (ba19_cn c) * ln (1 + exp (cell (ba19_cn c) * (cell (ba19_cM c) - m))).
Definition t_path (c : ba19_row) (m r : R) : R :=
  cell (ba19_c4 c) * ln (r + cell (ba19_c5 c) * cosh (cell (ba19_c6 c) * Rmax (m - cell (ba19_chm c)) 0)) +
  (-0.5 - cell (ba19_c4 c)) * ln (sqrt (r ^ 2 + 50 ^ 2)) + cell (ba19_c7 c) * r.
Definition t_ztor (c : ba19_row) (z : R) : R := cell (ba19_c9 c) * Rmin z 20.
Definition t_normal (c : ba19_row) (ns : bool) : R := if ns then cell (ba19_c10 c) else 0.
Definition c11_of (c : ba19_row) (v : R) : R :=
  if Rle_dec v 200 then cell (ba19_c11a c) else if Rle_dec v 300 then cell (ba19_c11b c)
  else if Rle_dec v 500 then cell (ba19_c11c c) else cell (ba19_c11d c).
Definition t_basin (c : ba19_row) (v : R) (d : option R) : R :=
  match d with None => 0 | Some d => c11_of c v * ln ((Rmin d 2 + 0.01) / (z1_default v + 0.01)) end.
Definition t_linear_site (c : ba19_row) (v : R) : R := cell (ba19_c8 c) * ln (Rmin v 1000 / 1000).
Definition ln_eas_linear (c : ba19_row) (a : eq19) : R :=
  t_mag c (e_m a) + t_path c (e_m a) (e_r a) + t_ztor c (e_z a) + t_normal c (e_ns a) + t_basin c (e_v a) (e_d a) + t_linear_site c (e_v a).

(** Non-linear site response before smoothing: driven by the 5 Hz amplitude on 760 m/s rock. *)
Definition ln_eas_5hz_rock (a : eq19) : R :=
  t_mag row_5hz (e_m a) + t_path row_5hz (e_m a) (e_r a) + t_ztor row_5hz (e_z a) + t_normal row_5hz (e_ns a).
Definition raw_nl (a : eq19) (c : ba19_row) : R :=
  Q2R (ba19_f4 c) * (exp (Q2R (ba19_f5 c) * (Rmin (e_v a) 760 - 360)) - exp (Q2R (ba19_f5 c) * (760 - 360))) *
  ln ((exp (1.238 + 0.846 * ln_eas_5hz_rock a) + Q2R (ba19_f3 c)) / Q2R (ba19_f3 c)).
(** Past the first minimum [i] the minimum is kept; then a running mean over seven frequencies, with zeros beyond the two ends of
    the table; the last seven values are replaced by the smoothed value at [i]. *)
Definition flat (x : list R) (i k : nat) : R := if (k <=? i)%nat then nth k x 0 else nth i x 0.
Definition padded (x : list R) (i k : nat) : R := (* shifted by three: positions 0, 1, 2 lie before the table *)
  if (k <? 3)%nat then 0 else if (k - 3 <? List.length x)%nat then flat x i (k - 3) else 0.
Definition mean7 (x : list R) (i k : nat) : R :=
  (padded x i k + padded x i (k + 1) + padded x i (k + 2) + padded x i (k + 3) + padded x i (k + 4) + padded x i (k + 5) + padded x i (k + 6)) / 7.
Definition smoothed (x : list R) (i k : nat) : R := if (k <? List.length x - 7)%nat then mean7 x i k else mean7 x i i.

(** Standard deviation: each component goes from its value at M 4 to its value at M 6, linearly in between. *)
Definition between_4_and_6 (at4 at6 m : R) : R := at4 + (at6 - at4) * (Rmin (Rmax m 4) 6 - 4) / 2.
Definition sigma_published (c : ba19_row) (m : R) : R :=
  sqrt (between_4_and_6 (Q2R (ba19_s1 c)) (Q2R (ba19_s2 c)) m ^ 2 + between_4_and_6 (Q2R (ba19_s3 c)) (Q2R (ba19_s4 c)) m ^ 2 +
        between_4_and_6 (Q2R (ba19_s5 c)) (Q2R (ba19_s6 c)) m ^ 2 + cell (ba19_c1a c) ^ 2).
