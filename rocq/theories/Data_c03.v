(** Generated by tools/gen_data.py - do not edit.
    Coefficient tables, exact decimals as in the data files. *)
From Coq Require Import QArith List.
Import ListNotations.
Open Scope Q_scope.

(** One row of data/campbell_2003.csv; the field names are the column names of the file
    (load_data_file, model.py:526-538). *)
Record c03_row := Mk_c03_row {
  c03_period : Q;
  c03_c_1 : Q;
  c03_c_2 : Q;
  c03_c_3 : Q;
  c03_c_4 : Q;
  c03_c_5 : Q;
  c03_c_6 : Q;
  c03_c_7 : Q;
  c03_c_8 : Q;
  c03_c_9 : Q;
  c03_c_10 : Q;
  c03_c_11 : Q;
  c03_c_12 : Q;
  c03_c_13 : Q
}.

(** campbell_2003.py:29: data/campbell_2003.csv lines 3-18 (16 rows) *)
Definition c03_coeff : list c03_row := [
  Mk_c03_row (1 # 100) (305 # 10000) (633 # 1000) (-427 # 10000) (-1591 # 1000) (-428 # 100000) (483 # 1000000) (683 # 1000) (416 # 1000) (114 # 100) (-873 # 1000) (103 # 100) (-86 # 1000) (414 # 1000);
  Mk_c03_row (2 # 100) (13535 # 10000) (63 # 100) (-404 # 10000) (-1787 # 1000) (-388 # 100000) (497 # 1000000) (102 # 100) (363 # 1000) (851 # 1000) (-715 # 1000) (103 # 100) (-86 # 1000) (414 # 1000);
  Mk_c03_row (3 # 100) (1186 # 1000) (622 # 1000) (-362 # 10000) (-1691 # 1000) (-367 # 100000) (501 # 1000000) (922 # 1000) (376 # 1000) (759 # 1000) (-922 # 1000) (103 # 100) (-86 # 1000) (414 # 1000);
  Mk_c03_row (5 # 100) (3736 # 10000) (616 # 1000) (-353 # 10000) (-1469 # 1000) (-378 # 100000) (5 # 10000) (63 # 100) (423 # 1000) (771 # 1000) (-1239 # 1000) (1042 # 1000) (-838 # 10000) (443 # 1000);
  Mk_c03_row (75 # 1000) (-395 # 10000) (615 # 1000) (-353 # 10000) (-1383 # 1000) (-421 # 100000) (486 # 1000000) (491 # 1000) (463 # 1000) (955 # 1000) (-1349 # 1000) (1052 # 1000) (-838 # 10000) (453 # 1000);
  Mk_c03_row (1 # 10) (-1475 # 10000) (613 # 1000) (-353 # 10000) (-1369 # 1000) (-454 # 100000) (46 # 100000) (484 # 1000) (467 # 1000) (1096 # 1000) (-1284 # 1000) (1059 # 1000) (-838 # 10000) (46 # 100);
  Mk_c03_row (15 # 100) (-1901 # 10000) (616 # 1000) (-478 # 10000) (-1368 # 1000) (-473 # 100000) (393 # 1000000) (461 # 1000) (478 # 1000) (1239 # 1000) (-1079 # 1000) (1068 # 1000) (-838 # 10000) (469 # 1000);
  Mk_c03_row (2 # 10) (-4328 # 10000) (617 # 1000) (-586 # 10000) (-132 # 100) (-46 # 10000) (337 # 1000000) (399 # 1000) (493 # 1000) (125 # 100) (-928 # 1000) (1077 # 1000) (-838 # 10000) (478 # 1000);
  Mk_c03_row (3 # 10) (-6906 # 10000) (609 # 1000) (-786 # 10000) (-128 # 100) (-414 # 100000) (263 # 1000000) (349 # 1000) (502 # 1000) (1241 # 1000) (-753 # 1000) (1081 # 1000) (-838 # 10000) (482 # 1000);
  Mk_c03_row (5 # 10) (-5907 # 10000) (534 # 1000) (-1379 # 10000) (-1216 # 1000) (-341 # 100000) (194 # 1000000) (318 # 1000) (503 # 1000) (1166 # 1000) (-606 # 1000) (1098 # 1000) (-824 # 10000) (508 # 1000);
  Mk_c03_row (75 # 100) (-5429 # 10000) (48 # 100) (-1806 # 10000) (-1184 # 1000) (-288 # 100000) (16 # 100000) (304 # 1000) (504 # 1000) (111 # 100) (-526 # 1000) (1105 # 1000) (-806 # 10000) (528 # 1000);
  Mk_c03_row (1 # 1) (-6104 # 10000) (451 # 1000) (-209 # 1000) (-1158 # 1000) (-255 # 100000) (141 # 1000000) (299 # 1000) (503 # 1000) (1067 # 1000) (-482 # 1000) (111 # 100) (-793 # 10000) (543 # 1000);
  Mk_c03_row (15 # 10) (-9666 # 10000) (441 # 1000) (-2405 # 10000) (-1135 # 1000) (-213 # 100000) (119 # 1000000) (304 # 1000) (5 # 10) (1029 # 1000) (-438 # 1000) (1099 # 1000) (-771 # 10000) (547 # 1000);
  Mk_c03_row (2 # 1) (-14306 # 10000) (459 # 1000) (-2552 # 10000) (-1124 # 1000) (-187 # 100000) (103 # 1000000) (31 # 100) (499 # 1000) (1015 # 1000) (-417 # 1000) (1093 # 1000) (-758 # 10000) (551 # 1000);
  Mk_c03_row (3 # 1) (-22331 # 10000) (492 # 1000) (-2646 # 10000) (-1121 # 1000) (-154 # 100000) (84 # 1000000) (31 # 100) (499 # 1000) (1014 # 1000) (-393 # 1000) (109 # 100) (-737 # 10000) (562 # 1000);
  Mk_c03_row (4 # 1) (-27975 # 10000) (507 # 1000) (-2738 # 10000) (-1119 # 1000) (-135 # 100000) (74 # 1000000) (294 # 1000) (506 # 1000) (1018 # 1000) (-386 # 1000) (1092 # 1000) (-722 # 10000) (575 # 1000)
].

