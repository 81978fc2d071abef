(** * Specification vocabulary for the correlation model of Stafford (2017) *)
From Coq Require Import Reals List.
Open Scope R_scope.

(** Sigmoid: from 0 to [a], half at [b]. *)
Definition sigmoid (a b c f : R) : R := a / (1 + exp (- c * ln (f / b))).
(** Corner frequency of an event of magnitude [m]. *)
Definition corner (m : R) : R := Rpower 10 (2.181 - 0.496 * m).
(** Equation 12, [x] being the smaller frequency divided by the corner frequency. *)
Definition gammaE (x : R) : R := -0.4690 + sigmoid 0.1275 0.7793 3.0324 x + 0.0106 * ln (x / 0.7793).
(** Equation 11, with the value [g] of equation 12. *)
Definition rhoE (g m f1 f2 : R) : R := exp (g * (Rmin f1 f2 / corner m) * ln (Rmax f1 f2 / Rmin f1 f2)).
(** Equations 16 and 17. *)
Definition etaA (f : R) : R := sigmoid 0.7606 0.2993 1.5837 f * (1 + sigmoid (-0.5094) 24.579 2.3518 f).
Definition gammaA (f : R) : R :=
  0.9515 + 1.2752 * (Rmin f 10 / (Rmin f 10 + 1.4802 * (1 - Rmin f 10 / 10))) - 0.3361 * ln (Rmax f 10 / 10) ^ 2.
(** Equations 18 and 19. *)
Definition etaS (f : R) : R := 0.1126 * ln (Rmax (Rmin f 4) 0.25 / 0.25) - 0.1068 * ln (Rmax f 4 / 4).
Definition gammaS (f : R) : R := -0.6968 + sigmoid (-0.2963) 0.3326 5.0078 f + sigmoid 0.5703 2.3973 3.5779 f.
(** np.isclose(f1, f2). *)
Definition close (f1 f2 : R) : Prop := Rabs (f1 - f2) <= 1 / 10 ^ 8 + 1 / 10 ^ 5 * Rabs f2.
(** Equations 14 and 15 for two frequencies that are not close. *)
Definition rho_nugget (eta gamma f1 f2 : R) : R :=
  let r := Rmax f1 f2 / Rmin f1 f2 in (1 - eta) * exp (gamma * ln r) * (1 - exp (- 50 * ln r)).
Definition rhoA (f1 f2 rho : R) : Prop :=
  (close f1 f2 -> rho = 1) /\ (~ close f1 f2 -> rho = rho_nugget (etaA (Rmin f1 f2)) (gammaA (Rmin f1 f2)) f1 f2).
Definition rhoS (f1 f2 rho : R) : Prop :=
  (close f1 f2 -> rho = 1) /\ (~ close f1 f2 -> rho = rho_nugget (etaS (Rmin f1 f2)) (gammaS (Rmin f1 f2)) f1 f2).
(** Standard deviations. *)
Definition sdE (f : R) : R := 0.8757 + sigmoid (-0.3309) 0.5871 5.4264 f + sigmoid 0.5177 16.357 1.4689 f.
Definition sdS (f : R) : R := 0.6167 + sigmoid (-0.1495) 0.7248 3.6985 f + sigmoid 0.3640 13.457 2.2497 f.
Definition sdA (f : R) : R := 0.7260 + 0.0328 * ln (Rmax f 5 / 5) ^ 2.
