(** Generated by tools/gen_data.py - do not edit.
    Coefficient tables, exact decimals as in the data files. *)
From Coq Require Import QArith List.
Import ListNotations.
Open Scope Q_scope.

(** One row of data/atkinson_boore_2006-sf.csv; the field names are the column names of the file
    (load_data_file, model.py:526-538). *)
Record ab06f_row := Mk_ab06f_row {
  ab06f_period : Q;
  ab06f_delta : Q;
  ab06f_m_1 : Q;
  ab06f_m_h : Q
}.

(** atkinson_boore_2006.py:35: data/atkinson_boore_2006-sf.csv lines 4-29 (26 rows) *)
Definition ab06_sf_coeff : list ab06f_row := [
  Mk_ab06f_row (-1 # 1) (11 # 100) (2 # 1) (55 # 10);
  Mk_ab06f_row (101 # 10000) (15 # 100) (5 # 10) (55 # 10);
  Mk_ab06f_row (25 # 1000) (15 # 100) (0 # 1) (5 # 1);
  Mk_ab06f_row (315 # 10000) (15 # 100) (0 # 1) (5 # 1);
  Mk_ab06f_row (396 # 10000) (15 # 100) (0 # 1) (5 # 1);
  Mk_ab06f_row (499 # 10000) (15 # 100) (0 # 1) (5 # 1);
  Mk_ab06f_row (629 # 10000) (15 # 100) (17 # 100) (517 # 100);
  Mk_ab06f_row (791 # 10000) (15 # 100) (34 # 100) (534 # 100);
  Mk_ab06f_row (996 # 10000) (15 # 100) (5 # 10) (55 # 10);
  Mk_ab06f_row (1255 # 10000) (15 # 100) (115 # 100) (567 # 100);
  Mk_ab06f_row (158 # 1000) (15 # 100) (185 # 100) (584 # 100);
  Mk_ab06f_row (1988 # 10000) (15 # 100) (25 # 10) (6 # 1);
  Mk_ab06f_row (2506 # 10000) (15 # 100) (29 # 10) (612 # 100);
  Mk_ab06f_row (3155 # 10000) (15 # 100) (33 # 10) (625 # 100);
  Mk_ab06f_row (3968 # 10000) (15 # 100) (365 # 100) (637 # 100);
  Mk_ab06f_row (5 # 10) (15 # 100) (4 # 1) (65 # 10);
  Mk_ab06f_row (6289 # 10000) (15 # 100) (417 # 100) (67 # 10);
  Mk_ab06f_row (7937 # 10000) (15 # 100) (434 # 100) (695 # 100);
  Mk_ab06f_row (1 # 1) (15 # 100) (45 # 10) (72 # 10);
  Mk_ab06f_row (125 # 100) (15 # 100) (467 # 100) (745 # 100);
  Mk_ab06f_row (15873 # 10000) (15 # 100) (484 # 100) (77 # 10);
  Mk_ab06f_row (2 # 1) (15 # 100) (5 # 1) (8 # 1);
  Mk_ab06f_row (25 # 10) (15 # 100) (525 # 100) (812 # 100);
  Mk_ab06f_row (3125 # 1000) (15 # 100) (55 # 10) (825 # 100);
  Mk_ab06f_row (4 # 1) (15 # 100) (575 # 100) (837 # 100);
  Mk_ab06f_row (5 # 1) (15 # 100) (6 # 1) (85 # 10)
].

