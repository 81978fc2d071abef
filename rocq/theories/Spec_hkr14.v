(** * Specification vocabulary for Hermkes, Kuehn & Riggelsen (2014) *)
From Coq Require Import Reals List String.
From Verif Require Import GmmLib Nga Outs.
Open Scope R_scope.
Open Scope string_scope.
Open Scope list_scope.

(** A scenario; the hypocentral depth is optional. *)
Record hk := Hk { hk_m : R; hk_z : option R; hk_jb : R; hk_v : R; hk_mech : string }.
Definition opt_num (src : dict) (k : string) (o : option R) : Prop :=
  match o with Some x => has_num src k x | None => absent src k end.
Definition hk_gives (src : dict) (a : hk) : Prop :=
  has_num src "mag" (hk_m a) /\ opt_num src "depth_hyp" (hk_z a) /\ has_num src "dist_jb" (hk_jb a) /\
  has_num src "v_s30" (hk_v a) /\ has_str src "mechanism" (hk_mech a).
(** Its coordinates: magnitude, depth (15 km if not given), three mechanism flags, distance, velocity. *)
Definition hk_flag (a : hk) (t : string) : R := if String.eqb (hk_mech a) t then 1 else 0.
Definition hk_point (a : hk) : list R :=
  [hk_m a; match hk_z a with Some z => z | None => 15 end; hk_flag a "RS"; hk_flag a "SS"; hk_flag a "NS"; hk_jb a; hk_v a].

(** Squared Euclidean distance. *)
Fixpoint dist2 (p q : list R) : R :=
  match p, q with x :: p', y :: q' => (x - y) ^ 2 + dist2 p' q' | _, _ => 0 end.
(** What is assumed of scipy's NearestNDInterpolator: it returns the value attached to a point of minimal distance. *)
Definition nearest_spec (nearest : list (list R * list R) -> list flt -> list flt) : Prop :=
  forall data q, data <> [] -> exists e p, In (e, p) data /\ nearest data (map Fin q) = map Fin p /\
    forall e' p', In (e', p') data -> dist2 e q <= dist2 e' q.

(** The outputs read off a prediction: alternating log response and variance, in the order
    PGV, PGA, and the other four periods. *)
Definition hk_outs (p : list R) : outs :=
  let resp k := Fin (exp (nth (2 * k) p 0)) in let sd k := fsqrt (Fin (nth (2 * k + 1) p 0)) in
  Outs [resp 1%nat; resp 2%nat; resp 3%nat; resp 4%nat; resp 5%nat] (resp 1%nat) (resp 0%nat)
       [sd 1%nat; sd 2%nat; sd 3%nat; sd 4%nat; sd 5%nat] (sd 1%nat) (sd 0%nat).
