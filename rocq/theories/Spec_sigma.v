(** * Specification vocabulary: comparing the standard deviations of two scenarios, period by period *)
From Coq Require Import Reals List String.
From Verif Require Import Framework GmmLib Nga.
Open Scope R_scope.
Open Scope list_scope.

(** [compares_std r1 r2 sd pga pgv]: both constructions succeed and report the same periods; [sd T s1 s2] holds of the
    two logarithmic standard deviations at every reported period T, [pga] of the two of PGA and [pgv] of the two of PGV. *)
Definition compares_std (r1 r2 : M gmm) (sd : R -> R -> R -> Prop) (pga pgv : R -> R -> Prop) : Prop :=
  exists g1 g2 (rows : list (R * (R * R))) a1 a2 v1 v2, result r1 = Ok g1 /\ result r2 = Ok g2 /\
    result (g_periods g1) = Ok (map (fun e => Fin (fst e)) rows) /\ result (g_periods g2) = Ok (map (fun e => Fin (fst e)) rows) /\
    result (g_ln_stds g1) = Ok (map (fun e => Fin (fst (snd e))) rows) /\ result (g_ln_stds g2) = Ok (map (fun e => Fin (snd (snd e))) rows) /\
    result (g_ln_std_pga g1) = Ok (Fin a1) /\ result (g_ln_std_pga g2) = Ok (Fin a2) /\ result (g_ln_std_pgv g1) = Ok (Fin v1) /\ result (g_ln_std_pgv g2) = Ok (Fin v2) /\
    (forall T s1 s2, In (T, (s1, s2)) rows -> sd T s1 s2) /\ pga a1 a2 /\ pgv v1 v2.
