(** * SpecNga: small specification vocabulary for the NGA-West2 properties,
    independent of the models (only the coefficient tables are shared). *)
From Verif Require Export Outs Nga Data_bssa14 Data_cb14 Data_ask14.
Open Scope R_scope.
Open Scope string_scope.

(** Straight line from (x0, y0) to (x1, y1), constant outside. *)
Definition ramp (x0 y0 x1 y1 x : R) : R :=
  if Rle_dec x x0 then y0 else if Rle_dec x1 x then y1 else y0 + (y1 - y0) * ((x - x0) / (x1 - x0)).

(** A reported standard deviation is the root of tau^2 + phi^2. *)
Definition rss (tau phi : R) (s : flt) : Prop := exists x, s = Fin x /\ 0 < x /\ x * x = tau * tau + phi * phi.

(** Published BSSA14 sigma (their equations 13-17), with all logarithms written as ramps. *)
Definition bssa14_tau_spec (c : bssa14_row) (m : R) : R := ramp 4.5 (Q2R (bssa14_tau_1 c)) 5.5 (Q2R (bssa14_tau_2 c)) m.
Definition bssa14_phi_spec (c : bssa14_row) (m r v : R) : R :=
  ramp 4.5 (Q2R (bssa14_phi_1 c)) 5.5 (Q2R (bssa14_phi_2 c)) m
  + ramp (ln (Q2R (bssa14_R_1 c))) 0 (ln (Q2R (bssa14_R_2 c))) (Q2R (bssa14_dphi_R c)) (ln (Rmax r 0.1))
  - ramp (ln (Q2R (bssa14_V_1 c))) (Q2R (bssa14_dphi_V c)) (ln (Q2R (bssa14_V_2 c))) 0 (ln v).

(** Published BSSA14 median for the reference rock (event and path terms, equations 2-4). *)
Definition bssa14_event_spec (c : bssa14_row) (mech : string) (m : R) : R :=
  (if String.eqb mech "SS" then Q2R (bssa14_e_1 c) else if String.eqb mech "NS" then Q2R (bssa14_e_2 c)
   else if String.eqb mech "RS" then Q2R (bssa14_e_3 c) else Q2R (bssa14_e_0 c))
  + (let d := m - Q2R (bssa14_M_h c) in
     if Rle_dec m (Q2R (bssa14_M_h c)) then Q2R (bssa14_e_4 c) * d + Q2R (bssa14_e_5 c) * (d * d) else Q2R (bssa14_e_6 c) * d).
Definition bssa14_path_spec (c : bssa14_row) (region : string) (m r : R) : R :=
  let R' := sqrt (r * r + Q2R (bssa14_h c) * Q2R (bssa14_h c)) in
  (Q2R (bssa14_c_1 c) + Q2R (bssa14_c_2 c) * (m - 4.5)) * ln R'
  + (Q2R (bssa14_c_3 c) + (if String.eqb region "china" || String.eqb region "turkey" then Q2R (bssa14_dc_3ct c)
      else if String.eqb region "italy" || String.eqb region "japan" then Q2R (bssa14_dc_3ij c) else Q2R (bssa14_dc_3global c))) * (R' - 1).

(** CB14 sigma for linear sites. *)
Definition cb14_tau_spec (c : cb14_row) (m : R) : R := ramp 4.5 (Q2R (cb14_tau_1 c)) 5.5 (Q2R (cb14_tau_2 c)) m.
Definition cb14_phi_spec (c : cb14_row) (m : R) : R := ramp 4.5 (Q2R (cb14_phi_1 c)) 5.5 (Q2R (cb14_phi_2 c)) m.

(** ASK14 sigma for linear sites. *)
Definition ask14_tau_spec (c : ask14_row) (m : R) : R := ramp 5 (Q2R (ask14_s3 c)) 7 (Q2R (ask14_s4 c)) m.
Definition ask14_phi_spec (c : ask14_row) (japan measured : bool) (m r : R) : R :=
  if japan then ramp 30 (Q2R (ask14_s5 c)) 80 (Q2R (ask14_s6 c)) r
  else if measured then ramp 4 (Q2R (ask14_s1m c)) 6 (Q2R (ask14_s2m c)) m
  else ramp 4 (Q2R (ask14_s1e c)) 6 (Q2R (ask14_s2e c)) m.
