(** * Specification vocabulary: the equations of Abrahamson, Silva & Kamai (2014)

    Real-valued, from the paper; only the coefficient table (Data_ask14.v) and the description of scenarios
    ([nga], Nga.v) are shared with the model.  As the library does, the depth coefficients and the Japanese
    velocity coefficients are joined by straight lines, and a velocity of exactly 1180 m/s has no depth term (C68). *)
From Coq Require Import Reals List String QArith Qreals.
From Verif Require Import Nga Data_ask14 SpecNga Spec_cy14.
Open Scope R_scope.
Open Scope string_scope.
Open Scope list_scope.

Local Notation "[ q ]" := (Q2R q) (at level 0, only parsing).

(** Straight lines through the points, constant beyond the ends. *)
Fixpoint polyline (x0 y0 : R) (rest : list (R * R)) (x : R) : R :=
  match rest with
  | nil => y0
  | (x1, y1) :: rest' => if Rle_dec x x0 then y0 else if Rle_dec x x1 then y0 + (y1 - y0) / (x1 - x0) * (x - x0) else polyline x1 y1 rest' x
  end.
Definition as_clip (x : R) : R := Rmin (Rmax x 0) 1.

Definition as_mech (a : nga) : string := option_of "none" ["SS"; "NS"; "RS"] (n_mech a).
Definition as_reg (a : nga) : string := option_of "global" ["global"; "california"; "china"; "italy"; "japan"; "taiwan"] (n_region a).
Definition as_measured (a : nga) : bool := String.eqb (option_of "measured" ["measured"; "inferred"] (n_source a)) "measured".
(** Geometry when it is not given (km). *)
Definition as_tor (a : nga) : R := or_else (n_tor a) (polyline 5 7.8 [(7.2, 0)] (n_mag a)).
Definition as_rad (a : nga) : R := n_dip a * (PI / 180).
Definition as_wid (a : nga) : R := or_else (n_width a) (Rmin (18 / sin (as_rad a)) (exp ((- (1.75) + 0.45 * n_mag a) * ln 10))).
(** Depth to 1.0 km/s expected at velocity v (km). *)
Definition as_z1 (region : string) (v : R) : R :=
  (if String.eqb region "japan" then exp (- (5.23) / 2 * ln ((v ^ 2 + 412 ^ 2) / (1360 ^ 2 + 412 ^ 2)))
   else exp (- (7.67) / 4 * ln ((v ^ 4 + 610 ^ 4) / (1360 ^ 4 + 610 ^ 4)))) / 1000.
(** Velocity above which the amplification is constant. *)
Definition as_v1 (c : ask14_row) : R := 1500 * exp (- (0.35) * ln (Rmin (Rmax [ask14_period c] 0.5) 3 / 0.5)).
Definition as_vstar (c : ask14_row) (v : R) : R := Rmin v (as_v1 c).

(** f1: magnitude and distance. *)
Definition as_f1 (c : ask14_row) (m r : R) : R :=
  let m1 := [ask14_m1 c] in let m2 := [ask14_m2 c] in
  let d := sqrt (r ^ 2 + ([ask14_c4 c] - ([ask14_c4 c] - 1) * as_clip (5 - m)) ^ 2) in
  [ask14_a1 c] + [ask14_a17 c] * r +
  (if Rle_dec m m2
   then [ask14_a4 c] * (m2 - m1) + [ask14_a8 c] * (8.5 - m2) ^ 2 + [ask14_a6 c] * (m - m2) + [ask14_a7 c] * (m - m2) ^ 2
        + ([ask14_a2 c] + [ask14_a3 c] * (m2 - m1)) * ln d
   else (if Rle_dec m m1 then [ask14_a4 c] else [ask14_a5 c]) * (m - m1) + [ask14_a8 c] * (8.5 - m) ^ 2
        + ([ask14_a2 c] + [ask14_a3 c] * (m - m1)) * ln d).
(** f4: hanging wall. *)
Definition as_f4 (c : ask14_row) (x : R) (a : nga) : R :=
  let m := n_mag a in let r1 := as_wid a * cos (as_rad a) in
  let t2 := if Rle_dec m 5.5 then 0 else if Rlt_dec m 6.5 then 1 + 0.2 * (m - 6.5) - (1 - 0.2) * (m - 6.5) ^ 2 else 1 + 0.2 * (m - 6.5) in
  let t3 := if Rlt_dec x r1 then 0.25 + 1.5 * (x / r1) - 0.75 * (x / r1) ^ 2
            else if Rlt_dec x (3 * r1) then 1 - (x - r1) / (2 * r1) else 0 in
  let t5 := match n_y0 a with
            | Some y0 => as_clip (1 - (y0 - x * tan (20 * (PI / 180))) / 5)
            | None => as_clip (1 - n_jb a / 30) end in
  [ask14_a13 c] * (Rmin (90 - n_dip a) 60 / 45) * t2 * t3 * as_clip (1 - as_tor a ^ 2 / 100) * t5.
Definition as_source_path (c : ask14_row) (a : nga) : R :=
  as_f1 c (n_mag a) (n_rup a)
  + (match n_hw a, n_x a with Some true, Some x => as_f4 c x a | _, _ => 0 end)
  + [ask14_a15 c] * as_clip (as_tor a / 20)
  + (if String.eqb (as_mech a) "RS" then [ask14_a11 c] else if String.eqb (as_mech a) "NS" then [ask14_a12 c] else 0) * as_clip (n_mag a - 4)
  + (match n_after a with Some true => [ask14_a14 c] * as_clip (1 - (or_else (n_crjb a) 15 - 5) / 10) | _ => 0 end).
(** Regional term at velocity v. *)
Definition as_regional (c : ask14_row) (region : string) (v r : R) : R :=
  if String.eqb region "taiwan" then [ask14_a31 c] * ln (as_vstar c v / [ask14_v_lin c]) + [ask14_a25 c] * r
  else if String.eqb region "china" then [ask14_a28 c] * r
  else if String.eqb region "japan"
  then polyline 150 [ask14_a36 c] [(250, [ask14_a37 c]); (350, [ask14_a38 c]); (450, [ask14_a39 c]); (600, [ask14_a40 c]); (850, [ask14_a41 c]); (1150, [ask14_a42 c])] v
       + [ask14_a29 c] * r
  else 0.
(** f5: site response; [p]: response on rock in g. *)
Definition as_f5 (c : ask14_row) (v p : R) : R :=
  let z := as_vstar c v / [ask14_v_lin c] in
  if Rlt_dec z 1
  then [ask14_a10 c] * ln z - [ask14_b c] * ln (p + [ask14_c c]) + [ask14_b c] * ln (p + [ask14_c c] * Rpower z [ask14_n c])
  else ([ask14_a10 c] + [ask14_b c] * [ask14_n c]) * ln z.
(** f10: depth to 1.0 km/s. *)
Definition as_f10 (c : ask14_row) (region : string) (v : R) (z1 : option R) : R :=
  if Req_EM_T v 1180 then 0 else
  match z1 with
  | None => 0
  | Some z => polyline 150 [ask14_a43 c] [(250, [ask14_a44 c]); (400, [ask14_a45 c]); (700, [ask14_a46 c])] v
              * ln ((z + 0.01) / (as_z1 region v + 0.01))
  end.
(** ln of the response on rock, 1180 m/s. *)
Definition as_rock (c : ask14_row) (a : nga) : R :=
  as_source_path c a + as_regional c (as_reg a) 1180 (n_rup a) + ([ask14_a10 c] + [ask14_b c] * [ask14_n c]) * ln (as_vstar c 1180 / [ask14_v_lin c]).
Definition as_med (c : ask14_row) (a : nga) : R :=
  as_source_path c a + as_regional c (as_reg a) (n_v a) (n_rup a)
  + as_f5 c (n_v a) (exp (as_rock c a)) + as_f10 c (as_reg a) (n_v a) (n_z1 a).

(** Standard deviation: [d] is the sensitivity of the site response to the rock response. *)
Definition as_d (c : ask14_row) (v p : R) : R :=
  if Rle_dec [ask14_v_lin c] v then 0
  else - [ask14_b c] * p / (p + [ask14_c c]) + [ask14_b c] * p / (p + [ask14_c c] * Rpower (v / [ask14_v_lin c]) [ask14_n c]).
Definition as_sd (c : ask14_row) (a : nga) : R :=
  let d := as_d c (n_v a) (exp (as_rock c a)) in
  let phi_al := ask14_phi_spec c (String.eqb (as_reg a) "japan") (as_measured a) (n_mag a) (n_rup a) in
  sqrt ((ask14_tau_spec c (n_mag a) * (1 + d)) ^ 2 + (Rmax (phi_al ^ 2 - 0.4 ^ 2) 0 * (1 + d) ^ 2 + 0.4 ^ 2)).
