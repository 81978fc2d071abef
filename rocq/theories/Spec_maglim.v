(** * Specification: the magnitude limits of a style of faulting (C145) *)
From Coq Require Import Reals List String.
From Verif Require Import Py.
Open Scope R_scope.
Open Scope string_scope.
Open Scope list_scope.

(** The mapping gives the magnitude [x] and the mechanism [t]. *)
Definition event (src : dict) (x : R) (t : string) : Prop :=
  dget src "mag" = Some (PNum (Fin x)) /\ dget src "mechanism" = Some (PStr t).
(** A text about the magnitude that does not come from the limits of [mag] alone. *)
Definition about_magnitude (w : message) : Prop := exists r, w = FText "Magnitude (" :: r \/ w = FText "Magnitude of " :: r.
Definition outside (x : R) (lim : R * R) : Prop := x < fst lim \/ snd lim < x.

(** Boore et al.: strike slip 3 to 8.5, normal 3 to 7. *)
Definition bs_limits (t : string) : option (R * R * string) :=
  if String.eqb t "SS" then Some (3, 8.5, ") for a strike-slip earthquake!")
  else if String.eqb t "NS" then Some (3, 7, ") for a normal-slip earthquake!") else None.
Definition bs_text (x : R) (l : R * R * string) : message :=
  [FText "Magnitude ("; FVal (PNum (Fin x)); FText ") exceeds recommended bounds ("; FVal (PNum (Fin (fst (fst l)))); FText " to ";
   FVal (PNum (Fin (snd (fst l)))); FText (snd l)].
(** Chiou & Youngs: reverse and normal 3.5 to 8, otherwise 3.5 to 8.5. *)
Definition cy_limits (t : string) : R * R := if String.eqb t "RS" then (3.5, 8) else if String.eqb t "NS" then (3.5, 8) else (3.5, 8.5).
Definition cy_text (x : R) (t : string) : message :=
  [FText "Magnitude ("; FVal (PNum (Fin x)); FText ") exceeds recommended bounds ("; FVal (PNum (Fin (fst (cy_limits t)))); FText " to ";
   FVal (PNum (Fin (snd (cy_limits t)))); FText ") for a "; FVal (PStr t); FText " earthquake!"].
(** Campbell & Bozorgnia: at most 8.5 for strike slip, 8 for reverse, 7.5 for normal. *)
Definition cb_limit (t : string) : R := if String.eqb t "SS" then 8.5 else if String.eqb t "RS" then 8 else 7.5.
Definition cb_text (x : R) (t : string) : message :=
  [FText "Magnitude of "; FVal (PNum (Fin x)); FText " is greater than the recommended limit of"; FVal (PNum (Fin (cb_limit t)));
   FText " for "; FText t; FText " style faults"].
