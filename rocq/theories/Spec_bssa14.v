(** * Specification vocabulary: the BSSA14 median on soil (equations 5-11 of the paper)

    Event and path terms: SpecNga.v.  The basin term is centred on the California relation in every region, as
    the code does (the paper uses the Japanese relation in Japan; see C25). *)
From Coq Require Import Reals List String QArith Qreals.
From Verif Require Import SpecNga Spec_cy14.
Open Scope R_scope.
Open Scope string_scope.

Local Notation "[ q ]" := (Q2R q) (at level 0, only parsing).

Definition bs_mech_of (a : nga) : string := option_of "U" ["U"; "SS"; "NS"; "RS"] (n_mech a).
Definition bs_region_of (a : nga) : string :=
  option_of "global" ["global"; "california"; "china"; "italy"; "japan"; "new_zealand"; "taiwan"; "turkey"] (n_region a).
(** ln of the response on the reference rock. *)
Definition bs_rock (c : bssa14_row) (a : nga) : R :=
  bssa14_event_spec c (bs_mech_of a) (n_mag a) + bssa14_path_spec c (bs_region_of a) (n_mag a) (n_jb a).
(** Linear and nonlinear site response; [p] is the rock PGA in g. *)
Definition bs_lin (c : bssa14_row) (v : R) : R := [bssa14_c c] * ln (Rmin v [bssa14_V_c c] / 760).
Definition bs_nonlin (c : bssa14_row) (v p : R) : R :=
  [bssa14_f_4 c] * (exp ([bssa14_f_5 c] * (Rmin v 760 - 360)) - exp ([bssa14_f_5 c] * (760 - 360))) * ln ((p + 0.1) / 0.1).
(** Basin term, from 0.65 s; depths in km. *)
Definition bs_basin (c : bssa14_row) (v : R) (z1 : option R) : R :=
  match z1 with
  | Some z => if Rlt_dec [bssa14_period c] 0.65 then 0
              else Rmin ([bssa14_f_6 c] * (z - cy_mean_z1 "california" v / 1000)) [bssa14_f_7 c]
  | None => 0
  end.
(** [ca]: the PGA row. *)
Definition bs_med (ca c : bssa14_row) (a : nga) : R :=
  bs_rock c a + bs_lin c (n_v a) + bs_nonlin c (n_v a) (exp (bs_rock ca a)) + bs_basin c (n_v a) (n_z1 a).
Definition bs_sd (c : bssa14_row) (a : nga) : R :=
  sqrt (bssa14_tau_spec c (n_mag a) ^ 2 + bssa14_phi_spec c (n_mag a) (n_jb a) (n_v a) ^ 2).
