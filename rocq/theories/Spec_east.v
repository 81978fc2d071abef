(** * Specification vocabulary: the published equations of C03, TP05, PZT11, I14 and AB06

    Real-valued; only the coefficient tables (Data_*.v) are shared with the model. *)
From Coq Require Import Reals List String QArith Qreals.
From Verif Require Import Data_c03 Data_tp05 Data_pzt11 Data_i14 Data_ab06 Data_ab06s Data_ab06f Spec_cms.
Open Scope R_scope.

Local Notation "[ q ]" := (Q2R q) (at level 0, only parsing).

(** ** Campbell (2003), log of SA in g *)
Definition c03_pub (c : c03_row) (m r : R) : R :=
  let R' := sqrt (r ^ 2 + ([c03_c_7 c] * exp ([c03_c_8 c] * m)) ^ 2) in
  [c03_c_1 c] + [c03_c_2 c] * m + [c03_c_3 c] * (8.5 - m) ^ 2
  + [c03_c_4 c] * ln R' + ([c03_c_5 c] + [c03_c_6 c] * m) * r
  + [c03_c_9 c] * ln (Rmax r 70 / 70) + [c03_c_10 c] * ln (Rmax r 130 / 130).
Definition c03_sigma (c : c03_row) (m : R) : R := if Rlt_dec m 7.16 then [c03_c_11 c] + [c03_c_12 c] * m else [c03_c_13 c].

(** ** Tavakoli & Pezeshk (2005), log of PGA, SA in g, up to magnitude 8.5 *)
Definition tp05_pub (c : tp05_row) (m r : R) : R :=
  let big := (8.5 - m) ^ 2 * sqrt (8.5 - m) in
  let R' := sqrt (r ^ 2 + ([tp05_c_5 c] * exp ([tp05_c_6 c] * m + [tp05_c_7 c] * big)) ^ 2) in
  [tp05_c_1 c] + [tp05_c_2 c] * m + [tp05_c_3 c] * big
  + [tp05_c_9 c] * ln (r + 4.5) + [tp05_c_10 c] * ln (Rmax r 70 / 70) + [tp05_c_11 c] * ln (Rmax r 130 / 130)
  + ([tp05_c_4 c] + [tp05_c_13 c] * m) * ln R' + ([tp05_c_8 c] + [tp05_c_12 c] * m) * R'.
Definition tp05_sigma (c : tp05_row) (m : R) : R := if Rlt_dec m 7.2 then [tp05_c_14 c] + [tp05_c_15 c] * m else [tp05_c_16 c].

(** ** Pezeshk et al. (2011), log10 of PGA, SA in g *)
Definition log10 (x : R) : R := ln x / ln 10.
Definition pzt11_pub (c : pzt11_row) (m r : R) : R :=
  let R' := sqrt (r ^ 2 + [pzt11_c_11 c] ^ 2) in
  [pzt11_c_1 c] + [pzt11_c_2 c] * m + [pzt11_c_3 c] * m ^ 2
  + ([pzt11_c_4 c] + [pzt11_c_5 c] * m) * log10 (Rmin R' 70)
  + ([pzt11_c_6 c] + [pzt11_c_7 c] * m) * log10 (Rmax 70 (Rmin R' 140) / 70)
  + ([pzt11_c_8 c] + [pzt11_c_9 c] * m) * log10 (Rmax R' 140 / 140)
  + [pzt11_c_10 c] * R'.
Definition pzt11_sigma (c : pzt11_row) (m : R) : R :=
  let mean := if Rle_dec m 7 then [pzt11_c_12 c] * m + [pzt11_c_13 c] else - 0.00695 * m + [pzt11_c_14 c] in
  sqrt (mean ^ 2 + [pzt11_sigma_reg c] ^ 2).

(** ** Idriss (2014), log of PGA, SA in g: one table up to magnitude 6.75, one above *)
Definition i14_rows (m : R) : list i14_row := if Rle_dec m 6.75 then i14_small_coeff else i14_large_coeff.
Definition i14_pub (c : i14_row) (m r v : R) (reverse : bool) : R :=
  [i14_alpha_1 c] + [i14_alpha_2 c] * m + [i14_alpha_3 c] * (8.5 - m) ^ 2
  - ([i14_beta_1 c] + [i14_beta_2 c] * m) * ln (r + 10) + [i14_gamma c] * r
  + [i14_epsilon c] * ln v + (if reverse then [i14_phi c] else 0).
Definition i14_sigma (c : i14_row) (m : R) : R :=
  1.18 + 0.035 * ln (Rmin (Rmax [i14_period c] 0.05) 3) - 0.06 * Rmin (Rmax m 5) 7.5.

(** ** Atkinson & Boore (2006), log10 in cgs units *)
Definition ab06_hard (c : ab06_row) (m r : R) : R :=
  [ab06_c_1 c] + [ab06_c_2 c] * m + [ab06_c_3 c] * m ^ 2
  + ([ab06_c_4 c] + [ab06_c_5 c] * m) * log10 (Rmin r 70)
  + ([ab06_c_6 c] + [ab06_c_7 c] * m) * log10 (Rmax r 140 / 140)
  + ([ab06_c_8 c] + [ab06_c_9 c] * m) * log10 (10 / Rmin r 10)
  + [ab06_c_10 c] * r.
(** Stress adjustment at the periods of its table (as coded). *)
Definition ab06_adj (m : R) (c : ab06f_row) : R :=
  Rmin 2 (Rpower 10 (3.45 - 0.2 * m) / 140)
  * (0.05 + Rmin [ab06f_delta c] ([ab06f_delta c] * Rmax (m - [ab06f_m_1 c]) 0 / ([ab06f_m_h c] - [ab06f_m_1 c]))).
(** Site term at the periods of its table, as coded (the published slope between 180 and 300 m/s has a further
    "+ b_2": see C20 for the jumps its absence causes); [p] is PGA at the B/C boundary in cm/s2. *)
Definition ab06_bnl (v : R) (c : ab06s_row) : R :=
  if Rle_dec v 180 then [ab06s_b_1 c]
  else if Rle_dec v 300 then ([ab06s_b_1 c] - [ab06s_b_2 c]) * ln (v / 300) / ln (180 / 300)
  else if Rle_dec v 760 then [ab06s_b_2 c] * ln (v / 760) / ln (300 / 760) else 0.
Definition ab06_amp (v p : R) (c : ab06s_row) : R := log10 (exp ([ab06s_b_lin c] * ln (v / 760) + ab06_bnl v c * ln (Rmax p 60 / 100))).
Definition at_period_f (f : ab06f_row -> R) (t y : R) : Prop := linear_at (fun c => [ab06f_period c]) f ab06_sf_coeff t y.
Definition at_period_s (f : ab06s_row -> R) (t y : R) : Prop := linear_at (fun c => [ab06s_period c]) f ab06_site_coeff t y.
(** [x]: response of row [c] in g (PGV, PGD: divided by 980.665). *)
Definition ab06_rock_is (c : ab06_row) (m r x : R) : Prop :=
  exists s, at_period_f (ab06_adj m) [ab06_period c] s /\ x = Rpower 10 (ab06_hard c m r + s) / 980.665.
Definition ab06_soil_is (pga : ab06_row) (c : ab06_row) (m r v x : R) : Prop :=
  exists s0 s y, at_period_f (ab06_adj m) 0 s0 /\ at_period_f (ab06_adj m) [ab06_period c] s /\
    at_period_s (ab06_amp v (Rpower 10 (ab06_hard pga m r + s0))) [ab06_period c] y /\ x = Rpower 10 (ab06_hard c m r + s + y) / 980.665.
