(** * Specification vocabulary: correlation matrices and conditions on many periods *)
From Coq Require Import Reals List.
From Verif Require Import Spec_cms.
Open Scope R_scope.
Open Scope list_scope.

(** All periods longer than 0.109 s and no two further apart than a factor of 73. *)
Definition mid_periods (ts : list R) : Prop := (forall t, In t ts -> 0.109 < t) /\ (forall t u, In t ts -> In u ts -> u <= 73 * t).
(** Inner product. *)
Definition dot (a b : list R) : R := Rsum (map (fun p => fst p * snd p) (combine a b)).
(** The periods of a spectrum with targets. *)
Definition times (l : list item) : list R := map (fun x : item => o_t (fst x)) l.
(** The same spectrum with targets at the periods of [l] that have one, and perhaps at others. *)
Definition more_conditions (l l' : list item) : Prop :=
  Forall2 (fun x x' : item => fst x' = fst x /\ (snd x <> None -> snd x' <> None)) l l'.
