(** * Specification vocabulary: comparing the results of two scenarios, period by period *)
From Coq Require Import Reals List String.
From Verif Require Import Framework GmmLib Nga Spec_cb14.
Open Scope R_scope.
Open Scope string_scope.
Open Scope list_scope.

(** [compares r1 r2 sa pga pgv]: both constructions succeed and report the same periods; [sa T y1 y2] holds of
    the two spectral accelerations at every reported period T, [pga] of the two PGAs and [pgv] of the two PGVs. *)
Definition compares (r1 r2 : M gmm) (sa : R -> R -> R -> Prop) (pga pgv : R -> R -> Prop) : Prop :=
  exists g1 g2 (rows : list (R * (R * R))) a1 a2 v1 v2, result r1 = Ok g1 /\ result r2 = Ok g2 /\
    result (g_periods g1) = Ok (map (fun e => Fin (fst e)) rows) /\ result (g_periods g2) = Ok (map (fun e => Fin (fst e)) rows) /\
    result (g_spec_accels g1) = Ok (map (fun e => Fin (fst (snd e))) rows) /\ result (g_spec_accels g2) = Ok (map (fun e => Fin (snd (snd e))) rows) /\
    result (g_pga g1) = Ok (Fin a1) /\ result (g_pga g2) = Ok (Fin a2) /\ result (g_pgv g1) = Ok (Fin v1) /\ result (g_pgv g2) = Ok (Fin v2) /\
    (forall T y1 y2, In (T, (y1, y2)) rows -> sa T y1 y2) /\ pga a1 a2 /\ pgv v1 v2.
(** The scenario with another depth to 2.5 km/s. *)
Definition with_z25 (a : nga) (z25 : option R) : nga :=
  let '(Nga m r jb x y0 cr dip v tor bor bot hyp w z1 _ dpp me re so hw af) := a in
  Nga m r jb x y0 cr dip v tor bor bot hyp w z1 z25 dpp me re so hw af.

(** Campbell & Bozorgnia (2014): a dip in (0, 90], no division by zero at dist_x = 0, and room for the hypocentre when its depth is not given. *)
Definition cb_geom (x : R) (a : nga) : Prop :=
  0 < n_dip a <= 90 /\
  (x = 0 -> n_dip a < 90 /\ match n_width a with Some w => w <> 0 | None => n_tor a = None /\ n_bot a = None end) /\ (n_hyp a = None -> cb_tor a < cb_bor a).
