(** * Specification vocabulary for Derras, Bard & Cotton (2014)

    Scenario description and the published neural network over the reals; apart from the
    coefficient tables nothing here refers to the modelled code. *)
From Coq Require Import Reals List String QArith Qreals Rtrigo_def.
From Verif Require Import GmmLib Nga Data_dbc14.
Open Scope R_scope.
Open Scope string_scope.
Open Scope list_scope.

Record dbc := Dbc { d_jb : R; d_m : R; d_v : R; d_z : R; d_mech : string }.
Definition dbc_gives (src : dict) (a : dbc) : Prop :=
  has_num src "dist_jb" (d_jb a) /\ has_num src "mag" (d_m a) /\ has_num src "v_s30" (d_v a) /\
  has_num src "depth_hyp" (d_z a) /\ has_str src "mechanism" (d_mech a).
Definition dbc_src (a : dbc) : dict :=
  [("dist_jb", PNum (Fin (d_jb a))); ("mag", PNum (Fin (d_m a))); ("v_s30", PNum (Fin (d_v a)));
   ("depth_hyp", PNum (Fin (d_z a))); ("mechanism", PStr (d_mech a))].
Definition dbc_with_d (a : dbc) (d : R) : dbc := Dbc d (d_m a) (d_v a) (d_z a) (d_mech a).
(** Mechanism code: normal 1, reverse 3, strike-slip 4. *)
Definition mech_code (mech : string) : option R :=
  if String.eqb mech "NS" then Some 1 else if String.eqb mech "RS" then Some 3 else if String.eqb mech "SS" then Some 4 else None.

Definition log10 (x : R) : R := ln x / ln 10.
(** Weighted sum. *)
Fixpoint wsum (ws : list Q) (xs : list R) : R :=
  match ws, xs with w :: ws', x :: xs' => Q2R w * x + wsum ws' xs' | _, _ => 0 end.
(** Scaling of [x] from [lo, hi] to [-1, 1]. *)
Definition unit_scale (x lo hi : R) : R := 2 * (x - lo) / (hi - lo) - 1.
Definition nn_inputs (a : dbc) (k : R) : list R :=
  [unit_scale (log10 (d_jb a)) (-1) 2.738; unit_scale (d_m a) 3.6 7.6; unit_scale (log10 (d_v a)) 1.9638 3.2035;
   unit_scale (d_z a) 0 25; unit_scale k 1 4].
Definition nn_hidden (a : dbc) (k : R) : list R := map (fun bw => tanh (Q2R (fst bw) + wsum (snd bw) (nn_inputs a k))) dbc14_hidden.
(** log10 of the response in m/s (PGV) or m/s2. *)
Definition nn_output (c : dbc14_row) (h : list R) : R :=
  0.5 * (Q2R (dbc14_b2 c) + wsum (dbc14_w2 c) h + 1) * (Q2R (dbc14_max c) - Q2R (dbc14_min c)) + Q2R (dbc14_min c).
Definition dbc_val (a : dbc) (k : R) (c : dbc14_row) : R := nn_output c (nn_hidden a k).
