(** Generated by tools/gen_data.py - do not edit.
    Coefficient tables, exact decimals as in the data files. *)
From Coq Require Import QArith List.
Import ListNotations.
Open Scope Q_scope.

(** One row of data/gulerce_abrahamson_2011-coefficients.csv; the field names are the column names of the file
    (load_data_file, model.py:526-538). *)
Record ga11_row := Mk_ga11_row {
  ga11_period : Q;
  ga11_v_lin : Q;
  ga11_b : Q;
  ga11_c : Q;
  ga11_n : Q;
  ga11_c1 : Q;
  ga11_c4 : Q;
  ga11_a1 : Q;
  ga11_a2 : Q;
  ga11_a3 : Q;
  ga11_a4 : Q;
  ga11_a5 : Q;
  ga11_a6 : Q;
  ga11_a7 : Q;
  ga11_a8 : Q;
  ga11_a10 : Q;
  ga11_s1 : Q;
  ga11_s2 : Q;
  ga11_s3 : Q;
  ga11_s4 : Q
}.

(** gulerce_abrahamson_2011.py:31: data/gulerce_abrahamson_2011-coefficients.csv lines 4-27 (24 rows) *)
Definition ga11_coeff : list ga11_row := [
  Mk_ga11_row (0 # 1) (8651 # 10) (-1186 # 1000) (188 # 100) (118 # 100) (675 # 100) (10 # 1) (14 # 100) (-16 # 100) (147 # 10000) (334 # 10000) (-34 # 1000) (-105 # 1000) (0 # 1) (3 # 1000) (-123 # 100) (422 # 1000) (333 # 1000) (213 # 1000) (161 # 1000);
  Mk_ga11_row (-1 # 1) (400 # 1) (-1955 # 1000) (188 # 100) (118 # 100) (675 # 100) (10 # 1) (-12 # 10) (9 # 100) (147 # 10000) (334 # 10000) (-34 # 1000) (5 # 100) (15 # 100) (22 # 1000) (-1847 # 1000) (373 # 1000) (369 # 1000) (234 # 1000) (17 # 100);
  Mk_ga11_row (1 # 100) (8651 # 10) (-1186 # 1000) (188 # 100) (118 # 100) (675 # 100) (10 # 1) (14 # 100) (-16 # 100) (147 # 10000) (334 # 10000) (-34 # 1000) (-105 # 1000) (0 # 1) (3 # 1000) (-123 # 100) (45 # 100) (33 # 100) (23 # 100) (15 # 100);
  Mk_ga11_row (2 # 100) (8651 # 10) (-1219 # 1000) (188 # 100) (118 # 100) (675 # 100) (10 # 1) (14 # 100) (-16 # 100) (147 # 10000) (334 # 10000) (-34 # 1000) (-105 # 1000) (0 # 1) (3 # 1000) (-1268 # 1000) (45 # 100) (33 # 100) (23 # 100) (15 # 100);
  Mk_ga11_row (29 # 1000) (8986 # 10) (-1269 # 1000) (188 # 100) (118 # 100) (675 # 100) (10 # 1) (335 # 1000) (-185 # 1000) (147 # 10000) (334 # 10000) (-34 # 1000) (-14 # 100) (0 # 1) (3 # 1000) (-1366 # 1000) (45 # 100) (33 # 100) (23 # 100) (15 # 100);
  Mk_ga11_row (4 # 100) (9945 # 10) (-1308 # 1000) (188 # 100) (118 # 100) (675 # 100) (10 # 1) (562 # 1000) (-238 # 1000) (147 # 10000) (334 # 10000) (-34 # 1000) (-16 # 100) (0 # 1) (3 # 1000) (-1457 # 1000) (45 # 100) (341 # 1000) (23 # 100) (15 # 100);
  Mk_ga11_row (5 # 100) (10535 # 10) (-1346 # 1000) (188 # 100) (118 # 100) (675 # 100) (10 # 1) (72 # 100) (-275 # 1000) (147 # 10000) (334 # 10000) (-34 # 1000) (-136 # 1000) (0 # 1) (-1 # 1000) (-1533 # 1000) (45 # 100) (351 # 1000) (23 # 100) (15 # 100);
  Mk_ga11_row (75 # 1000) (10857 # 10) (-1471 # 1000) (188 # 100) (118 # 100) (675 # 100) (10 # 1) (552 # 1000) (-24 # 100) (147 # 10000) (334 # 10000) (-34 # 1000) (-19 # 1000) (0 # 1) (-7 # 1000) (-1706 # 1000) (45 # 100) (37 # 100) (23 # 100) (15 # 100);
  Mk_ga11_row (1 # 10) (10325 # 10) (-1624 # 1000) (188 # 100) (118 # 100) (675 # 100) (10 # 1) (214 # 1000) (-169 # 1000) (147 # 10000) (334 # 10000) (-34 # 1000) (0 # 1) (17 # 1000) (-1 # 100) (-1831 # 1000) (45 # 100) (384 # 1000) (23 # 100) (15 # 100);
  Mk_ga11_row (15 # 100) (8776 # 10) (-1931 # 1000) (188 # 100) (118 # 100) (675 # 100) (10 # 1) (-262 # 1000) (-69 # 1000) (147 # 10000) (334 # 10000) (-34 # 1000) (0 # 1) (4 # 100) (-8 # 1000) (-2114 # 1000) (45 # 100) (403 # 1000) (23 # 100) (15 # 100);
  Mk_ga11_row (2 # 10) (7482 # 10) (-2188 # 1000) (188 # 100) (118 # 100) (675 # 100) (10 # 1) (-6 # 10) (2 # 1000) (147 # 10000) (334 # 10000) (-34 # 1000) (0 # 1) (57 # 1000) (-3 # 1000) (-2362 # 1000) (45 # 100) (416 # 1000) (23 # 100) (15 # 100);
  Mk_ga11_row (26 # 100) (639 # 1) (-2412 # 1000) (188 # 100) (118 # 100) (675 # 100) (10 # 1) (-769 # 1000) (23 # 1000) (147 # 10000) (334 # 10000) (-34 # 1000) (0 # 1) (72 # 1000) (1 # 1000) (-2527 # 1000) (45 # 100) (429 # 1000) (23 # 100) (15 # 100);
  Mk_ga11_row (3 # 10) (5871 # 10) (-2518 # 1000) (188 # 100) (118 # 100) (675 # 100) (10 # 1) (-861 # 1000) (34 # 1000) (147 # 10000) (334 # 10000) (-34 # 1000) (0 # 1) (8 # 100) (6 # 1000) (-2598 # 1000) (45 # 100) (436 # 1000) (23 # 100) (15 # 100);
  Mk_ga11_row (4 # 10) (503 # 1) (-2657 # 1000) (188 # 100) (118 # 100) (675 # 100) (10 # 1) (-1045 # 1000) (57 # 1000) (147 # 10000) (334 # 10000) (-34 # 1000) (0 # 1) (97 # 1000) (15 # 1000) (-2685 # 1000) (45 # 100) (449 # 1000) (23 # 100) (15 # 100);
  Mk_ga11_row (5 # 10) (4566 # 10) (-2669 # 1000) (188 # 100) (118 # 100) (675 # 100) (10 # 1) (-1189 # 1000) (75 # 1000) (147 # 10000) (334 # 10000) (-34 # 1000) (0 # 1) (11 # 100) (22 # 1000) (-2657 # 1000) (45 # 100) (46 # 100) (23 # 100) (15 # 100);
  Mk_ga11_row (75 # 100) (4105 # 10) (-2401 # 1000) (188 # 100) (118 # 100) (675 # 100) (10 # 1) (-125 # 100) (9 # 100) (147 # 10000) (334 # 10000) (-34 # 1000) (0 # 1) (133 # 1000) (22 # 1000) (-2265 # 1000) (45 # 100) (479 # 1000) (237 # 1000) (15 # 100);
  Mk_ga11_row (1 # 1) (400 # 1) (-1955 # 1000) (188 # 100) (118 # 100) (675 # 100) (10 # 1) (-1209 # 1000) (9 # 100) (147 # 10000) (334 # 10000) (-34 # 1000) (0 # 1) (15 # 100) (22 # 1000) (-1685 # 1000) (45 # 100) (492 # 1000) (266 # 1000) (15 # 100);
  Mk_ga11_row (15 # 10) (400 # 1) (-1025 # 1000) (188 # 100) (118 # 100) (675 # 100) (10 # 1) (-1152 # 1000) (9 # 100) (147 # 10000) (334 # 10000) (-34 # 1000) (29 # 1000) (15 # 100) (22 # 1000) (-57 # 100) (45 # 100) (511 # 1000) (307 # 1000) (15 # 100);
  Mk_ga11_row (2 # 1) (400 # 1) (-299 # 1000) (188 # 100) (118 # 100) (675 # 100) (10 # 1) (-1111 # 1000) (9 # 100) (147 # 10000) (334 # 10000) (-34 # 1000) (5 # 100) (15 # 100) (22 # 1000) (25 # 100) (532 # 1000) (52 # 100) (337 # 1000) (15 # 100);
  Mk_ga11_row (3 # 1) (400 # 1) (0 # 1) (188 # 100) (118 # 100) (675 # 100) (10 # 1) (-1054 # 1000) (9 # 100) (147 # 10000) (334 # 10000) (-34 # 1000) (79 # 1000) (15 # 100) (22 # 1000) (46 # 100) (648 # 1000) (52 # 100) (378 # 1000) (213 # 1000);
  Mk_ga11_row (4 # 1) (400 # 1) (0 # 1) (188 # 100) (118 # 100) (675 # 100) (10 # 1) (-1014 # 1000) (9 # 100) (147 # 10000) (334 # 10000) (-34 # 1000) (1 # 10) (15 # 100) (22 # 1000) (46 # 100) (7 # 10) (52 # 100) (407 # 1000) (258 # 1000);
  Mk_ga11_row (5 # 1) (400 # 1) (0 # 1) (188 # 100) (118 # 100) (675 # 100) (10 # 1) (-1 # 1) (9 # 100) (147 # 10000) (334 # 10000) (-34 # 1000) (1 # 10) (15 # 100) (22 # 1000) (46 # 100) (7 # 10) (52 # 100) (43 # 100) (292 # 1000);
  Mk_ga11_row (75 # 10) (400 # 1) (0 # 1) (188 # 100) (118 # 100) (675 # 100) (10 # 1) (-1 # 1) (9 # 100) (147 # 10000) (334 # 10000) (-34 # 1000) (1 # 10) (15 # 100) (22 # 1000) (46 # 100) (7 # 10) (52 # 100) (471 # 1000) (355 # 1000);
  Mk_ga11_row (10 # 1) (400 # 1) (0 # 1) (188 # 100) (118 # 100) (675 # 100) (10 # 1) (-1 # 1) (9 # 100) (147 # 10000) (334 # 10000) (-34 # 1000) (1 # 10) (15 # 100) (22 # 1000) (46 # 100) (7 # 10) (52 # 100) (5 # 10) (4 # 10)
].

