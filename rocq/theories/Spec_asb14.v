(** * Specification vocabulary for Akkar, Sandikkaya & Bommer (2014)

    Plain real-number formulas and scenario descriptions used in the statements of
    C33, C34 and C70; nothing here refers to the modelled code except the
    coefficient tables (generated from the CSV files). *)
From Coq Require Import Reals List String QArith Qreals.
From Verif Require Import GmmLib Nga Data_asb14.
Open Scope R_scope.
Open Scope string_scope.
Open Scope list_scope.

(** Scenario description used in the statements. *)
Record asb := Asb { a_jb : option R; a_hyp : option R; a_epi : option R; a_m : R; a_v : R; a_mech : string }.
Definition asb_gives (src : dict) (a : asb) : Prop :=
  gives_num src "dist_jb" (a_jb a) /\ gives_num src "dist_hyp" (a_hyp a) /\ gives_num src "dist_epi" (a_epi a) /\
  has_num src "mag" (a_m a) /\ has_num src "v_s30" (a_v a) /\ has_str src "mechanism" (a_mech a).
Definition asb_src (a : asb) : dict :=
  [("dist_jb", onum (a_jb a)); ("dist_hyp", onum (a_hyp a)); ("dist_epi", onum (a_epi a));
   ("mag", PNum (Fin (a_m a))); ("v_s30", PNum (Fin (a_v a))); ("mechanism", PStr (a_mech a))].
(** The documented order of the metrics. *)
Definition asb_choice (a : asb) : option (R * list asb14_row) :=
  match a_jb a, a_hyp a, a_epi a with
  | Some d, _, _ => Some (d, asb14_jb_coeff)
  | None, Some d, _ => Some (d, asb14_hyp_coeff)
  | None, None, Some d => Some (d, asb14_epi_coeff)
  | None, None, None => None
  end.

(** Published median (natural log) on rock: magnitude [m], distance [d], mechanism. *)
Definition asb_ref_val (c : asb14_row) (mech : string) (m d : R) : R :=
  Q2R (asb14_a_1 c) + Q2R (asb14_a_3 c) * ((8.5 - m) * (8.5 - m))
  + (Q2R (asb14_a_4 c) + Q2R (asb14_a_5 c) * (m - Q2R (asb14_c_1 c))) * ln (sqrt (d * d + Q2R (asb14_a_6 c) * Q2R (asb14_a_6 c)))
  + Q2R (asb14_a_2 c) * Rmin (m - Q2R (asb14_c_1 c)) 0 + Q2R (asb14_a_7 c) * Rmax (m - Q2R (asb14_c_1 c)) 0
  + (if String.eqb mech "NS" then Q2R (asb14_a_8 c) else if String.eqb mech "RS" then Q2R (asb14_a_9 c) else 0).
(** Published site amplification: [p] median rock PGA, [v] the velocity; 750 m/s is the reference. *)
Definition asb_site_val (c : asb14_row) (p v : R) : R :=
  if Rle_dec v 750 then
    Q2R (asb14_b_1 c) * ln (v / 750)
    + Q2R (asb14_b_2 c) * ln ((p + Q2R (asb14_c c) * Rpower (v / 750) (Q2R (asb14_n c))) / ((p + Q2R (asb14_c c)) * Rpower (v / 750) (Q2R (asb14_n c))))
  else Q2R (asb14_b_1 c) * ln (Rmin v (Q2R (asb14_v_con c)) / 750).

(** The total; [c0] is the PGA row of the table. *)
Definition asb_val (a : asb) (d : R) (c0 c : asb14_row) : R :=
  asb_ref_val c (a_mech a) (a_m a) d + asb_site_val c (exp (asb_ref_val c0 (a_mech a) (a_m a) d)) (a_v a).
(** The same scenario with another magnitude, velocity, or value of the metric in use. *)
Definition asb_with_m (a : asb) (m : R) : asb := Asb (a_jb a) (a_hyp a) (a_epi a) m (a_v a) (a_mech a).
Definition asb_with_v (a : asb) (v : R) : asb := Asb (a_jb a) (a_hyp a) (a_epi a) (a_m a) v (a_mech a).
Definition asb_dist (a : asb) (d : R) : asb :=
  match a_jb a, a_hyp a with
  | Some _, _ => Asb (Some d) (a_hyp a) (a_epi a) (a_m a) (a_v a) (a_mech a)
  | None, Some _ => Asb None (Some d) (a_epi a) (a_m a) (a_v a) (a_mech a)
  | None, None => Asb None None (Some d) (a_m a) (a_v a) (a_mech a)
  end.
