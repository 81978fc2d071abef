(** Generated by tools/gen_data.py - do not edit.
    Coefficient tables, exact decimals as in the data files. *)
From Coq Require Import QArith List.
Import ListNotations.
Open Scope Q_scope.

(** One row of data/atkinson_boore_2006-site.csv; the field names are the column names of the file
    (load_data_file, model.py:526-538). *)
Record ab06s_row := Mk_ab06s_row {
  ab06s_period : Q;
  ab06s_b_lin : Q;
  ab06s_b_1 : Q;
  ab06s_b_2 : Q
}.

(** atkinson_boore_2006.py:34: data/atkinson_boore_2006-site.csv lines 4-27 (24 rows) *)
Definition ab06_site_coeff : list ab06s_row := [
  Mk_ab06s_row (-1 # 1) (-6 # 10) (-495 # 1000) (-6 # 100);
  Mk_ab06s_row (0 # 1) (-361 # 1000) (-641 # 1000) (-144 # 1000);
  Mk_ab06s_row (25 # 1000) (-33 # 100) (-624 # 1000) (-115 # 1000);
  Mk_ab06s_row (313 # 10000) (-322 # 1000) (-618 # 1000) (-108 # 1000);
  Mk_ab06s_row (4 # 100) (-314 # 1000) (-609 # 1000) (-105 # 1000);
  Mk_ab06s_row (5 # 100) (-286 # 1000) (-643 # 1000) (-105 # 1000);
  Mk_ab06s_row (629 # 10000) (-249 # 1000) (-642 # 1000) (-105 # 1000);
  Mk_ab06s_row (794 # 10000) (-232 # 1000) (-637 # 1000) (-117 # 1000);
  Mk_ab06s_row (1 # 10) (-25 # 100) (-595 # 1000) (-132 # 1000);
  Mk_ab06s_row (125 # 1000) (-26 # 100) (-56 # 100) (-14 # 100);
  Mk_ab06s_row (1587 # 10000) (-28 # 100) (-528 # 1000) (-185 # 1000);
  Mk_ab06s_row (2 # 10) (-306 # 1000) (-521 # 1000) (-185 # 1000);
  Mk_ab06s_row (25 # 100) (-39 # 100) (-518 # 1000) (-16 # 100);
  Mk_ab06s_row (3125 # 10000) (-445 # 1000) (-513 # 1000) (-13 # 100);
  Mk_ab06s_row (4 # 10) (-5 # 10) (-508 # 1000) (-95 # 1000);
  Mk_ab06s_row (5 # 10) (-6 # 10) (-495 # 1000) (-6 # 100);
  Mk_ab06s_row (625 # 1000) (-67 # 100) (-48 # 100) (-31 # 1000);
  Mk_ab06s_row (7692 # 10000) (-69 # 100) (-465 # 1000) (-2 # 1000);
  Mk_ab06s_row (1 # 1) (-7 # 10) (-44 # 100) (0 # 1);
  Mk_ab06s_row (15873 # 10000) (-726 # 1000) (-395 # 1000) (0 # 1);
  Mk_ab06s_row (2 # 1) (-73 # 100) (-375 # 1000) (0 # 1);
  Mk_ab06s_row (3125 # 1000) (-74 # 100) (-33 # 100) (0 # 1);
  Mk_ab06s_row (4 # 1) (-745 # 1000) (-31 # 100) (0 # 1);
  Mk_ab06s_row (5 # 1) (-752 # 1000) (-3 # 10) (0 # 1)
].

