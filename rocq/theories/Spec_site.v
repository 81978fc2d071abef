(** * Specification vocabulary: site response, relative to the same scenario on rock *)
From Coq Require Import Reals List String.
From Verif Require Import Framework GmmLib Nga Spec_basin.
Open Scope R_scope.
Open Scope list_scope.

(** The scenario is constructed and its PGA is [p] (g). *)
Definition pga_is (r : M gmm) (p : R) : Prop := exists g, result r = Ok g /\ result (g_pga g) = Ok (Fin p).
(** [compares3 r0 r1 r2 sa pga pgv]: all three constructions succeed and report the same periods; [sa T y0 y1 y2] holds
    of the three spectral accelerations at every reported period T, [pga] of the three PGAs and [pgv] of the three PGVs. *)
Definition compares3 (r0 r1 r2 : M gmm) (sa : R -> R -> R -> R -> Prop) (pga pgv : R -> R -> R -> Prop) : Prop :=
  exists g0 g1 g2 (rows : list (R * (R * R * R))) a0 a1 a2 v0 v1 v2, result r0 = Ok g0 /\ result r1 = Ok g1 /\ result r2 = Ok g2 /\
    result (g_periods g0) = Ok (map (fun e => Fin (fst e)) rows) /\ result (g_periods g1) = Ok (map (fun e => Fin (fst e)) rows) /\
    result (g_periods g2) = Ok (map (fun e => Fin (fst e)) rows) /\
    result (g_spec_accels g0) = Ok (map (fun e => Fin (fst (fst (snd e)))) rows) /\
    result (g_spec_accels g1) = Ok (map (fun e => Fin (snd (fst (snd e)))) rows) /\ result (g_spec_accels g2) = Ok (map (fun e => Fin (snd (snd e))) rows) /\
    result (g_pga g0) = Ok (Fin a0) /\ result (g_pga g1) = Ok (Fin a1) /\ result (g_pga g2) = Ok (Fin a2) /\
    result (g_pgv g0) = Ok (Fin v0) /\ result (g_pgv g1) = Ok (Fin v1) /\ result (g_pgv g2) = Ok (Fin v2) /\
    (forall T y0 y1 y2, In (T, (y0, y1, y2)) rows -> sa T y0 y1 y2) /\ pga a0 a1 a2 /\ pgv v0 v1 v2.
