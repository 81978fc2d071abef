(** * Specification vocabulary for the inter-frequency correlation of Bayless & Abrahamson (2018)

    The tables are those of the data file; nothing here refers to the modelled code. *)
From Coq Require Import Reals List QArith Qreals Rtrigo_def.
From Verif Require Import Flt Spec_cms Data_ba18.
Open Scope R_scope.
Open Scope list_scope.

(** Entry in row [i], column [j] of a 2-D array (list of rows). *)
Definition entry (m : list (list flt)) (i j : nat) : option flt :=
  match nth_error m i with Some r => nth_error r j | None => None end.
(** A square array. *)
Definition square (n : nat) (m : list (list flt)) : Prop := List.length m = n /\ Forall (fun r => List.length r = n) m.

(** [y] is the published value at frequency [f], linear between the tabulated frequencies, constant outside. *)
Definition ba_table (column : ba18_row -> Q) (f y : R) : Prop :=
  linear_at (fun c => Q2R (ba18_freq_hz c)) (fun c => Q2R (column c)) ba18_coeff f y.
(** The published correlation of two different frequencies. *)
Definition ba_rho (f1 f2 r : R) : Prop :=
  exists a b c d, ba_table ba18_A (Rmin f1 f2) a /\ ba_table ba18_B (Rmin f1 f2) b /\
    ba_table ba18_C (Rmin f1 f2) c /\ ba_table ba18_D (Rmin f1 f2) d /\
    r = tanh (a * exp (b * Rabs (ln (f1 / f2))) + c * exp (d * Rabs (ln (f1 / f2)))).
