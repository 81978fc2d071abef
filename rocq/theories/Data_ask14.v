(** Generated by tools/gen_data.py - do not edit.
    Coefficient tables, exact decimals as in the data files. *)
From Coq Require Import QArith List.
Import ListNotations.
Open Scope Q_scope.

(** One row of data/abrahamson_silva_kamai_2014.csv; the field names are the column names of the file
    (load_data_file, model.py:526-538). *)
Record ask14_row := Mk_ask14_row {
  ask14_period : Q;
  ask14_m1 : Q;
  ask14_m2 : Q;
  ask14_v_lin : Q;
  ask14_b : Q;
  ask14_c : Q;
  ask14_n : Q;
  ask14_c4 : Q;
  ask14_a1 : Q;
  ask14_a2 : Q;
  ask14_a3 : Q;
  ask14_a4 : Q;
  ask14_a5 : Q;
  ask14_a6 : Q;
  ask14_a7 : Q;
  ask14_a8 : Q;
  ask14_a10 : Q;
  ask14_a11 : Q;
  ask14_a12 : Q;
  ask14_a13 : Q;
  ask14_a14 : Q;
  ask14_a15 : Q;
  ask14_a17 : Q;
  ask14_a43 : Q;
  ask14_a44 : Q;
  ask14_a45 : Q;
  ask14_a46 : Q;
  ask14_a25 : Q;
  ask14_a28 : Q;
  ask14_a29 : Q;
  ask14_a31 : Q;
  ask14_a36 : Q;
  ask14_a37 : Q;
  ask14_a38 : Q;
  ask14_a39 : Q;
  ask14_a40 : Q;
  ask14_a41 : Q;
  ask14_a42 : Q;
  ask14_s1e : Q;
  ask14_s2e : Q;
  ask14_s3 : Q;
  ask14_s4 : Q;
  ask14_s1m : Q;
  ask14_s2m : Q;
  ask14_s5 : Q;
  ask14_s6 : Q
}.

(** abrahamson_silva_kamai_2014.py:32: data/abrahamson_silva_kamai_2014.csv lines 4-27 (24 rows) *)
Definition ask14_coeff : list ask14_row := [
  Mk_ask14_row (1 # 100) (675 # 100) (5 # 1) (660 # 1) (-147 # 100) (24 # 10) (15 # 10) (45 # 10) (587 # 1000) (-79 # 100) (275 # 1000) (-1 # 10) (-41 # 100) (21541 # 10000) (0 # 1) (-15 # 1000) (1735 # 1000) (0 # 1) (-1 # 10) (6 # 10) (-3 # 10) (11 # 10) (-72 # 10000) (1 # 10) (5 # 100) (0 # 1) (-5 # 100) (-15 # 10000) (25 # 10000) (-34 # 10000) (-1503 # 10000) (265 # 1000) (337 # 1000) (188 # 1000) (0 # 1) (88 # 1000) (-196 # 1000) (44 # 1000) (754 # 1000) (52 # 100) (47 # 100) (36 # 100) (741 # 1000) (501 # 1000) (54 # 100) (63 # 100);
  Mk_ask14_row (2 # 100) (675 # 100) (5 # 1) (680 # 1) (-1459 # 1000) (24 # 10) (15 # 10) (45 # 10) (598 # 1000) (-79 # 100) (275 # 1000) (-1 # 10) (-41 # 100) (21461 # 10000) (0 # 1) (-15 # 1000) (1718 # 1000) (0 # 1) (-1 # 10) (6 # 10) (-3 # 10) (11 # 10) (-73 # 10000) (1 # 10) (5 # 100) (0 # 1) (-5 # 100) (-15 # 10000) (24 # 10000) (-33 # 10000) (-1479 # 10000) (255 # 1000) (328 # 1000) (184 # 1000) (0 # 1) (88 # 1000) (-194 # 1000) (61 # 1000) (76 # 100) (52 # 100) (47 # 100) (36 # 100) (747 # 1000) (501 # 1000) (54 # 100) (63 # 100);
  Mk_ask14_row (3 # 100) (675 # 100) (5 # 1) (770 # 1) (-139 # 100) (24 # 10) (15 # 10) (45 # 10) (602 # 1000) (-79 # 100) (275 # 1000) (-1 # 10) (-41 # 100) (21566 # 10000) (0 # 1) (-15 # 1000) (1615 # 1000) (0 # 1) (-1 # 10) (6 # 10) (-3 # 10) (11 # 10) (-75 # 10000) (1 # 10) (5 # 100) (0 # 1) (-5 # 100) (-16 # 10000) (23 # 10000) (-34 # 10000) (-1447 # 10000) (249 # 1000) (32 # 100) (18 # 100) (0 # 1) (93 # 1000) (-175 # 1000) (162 # 1000) (781 # 1000) (52 # 100) (47 # 100) (36 # 100) (769 # 1000) (501 # 1000) (55 # 100) (63 # 100);
  Mk_ask14_row (5 # 100) (675 # 100) (5 # 1) (915 # 1) (-1219 # 1000) (24 # 10) (15 # 10) (45 # 10) (707 # 1000) (-79 # 100) (275 # 1000) (-1 # 10) (-41 # 100) (20845 # 10000) (0 # 1) (-15 # 1000) (1358 # 1000) (0 # 1) (-1 # 10) (6 # 10) (-3 # 10) (11 # 10) (-8 # 1000) (1 # 10) (5 # 100) (0 # 1) (-5 # 100) (-2 # 1000) (27 # 10000) (-33 # 10000) (-1326 # 10000) (202 # 1000) (289 # 1000) (167 # 1000) (0 # 1) (133 # 1000) (-9 # 100) (451 # 1000) (81 # 100) (53 # 100) (47 # 100) (36 # 100) (798 # 1000) (512 # 1000) (56 # 100) (65 # 100);
  Mk_ask14_row (75 # 1000) (675 # 100) (5 # 1) (960 # 1) (-1152 # 1000) (24 # 10) (15 # 10) (45 # 10) (973 # 1000) (-79 # 100) (275 # 1000) (-1 # 10) (-41 # 100) (20285 # 10000) (0 # 1) (-15 # 1000) (1258 # 1000) (0 # 1) (-1 # 10) (6 # 10) (-3 # 10) (11 # 10) (-89 # 10000) (1 # 10) (5 # 100) (0 # 1) (-5 # 100) (-27 # 10000) (32 # 10000) (-29 # 10000) (-1353 # 10000) (126 # 1000) (275 # 1000) (173 # 1000) (0 # 1) (186 # 1000) (9 # 100) (506 # 1000) (81 # 100) (54 # 100) (47 # 100) (36 # 100) (798 # 1000) (522 # 1000) (57 # 100) (69 # 100);
  Mk_ask14_row (1 # 10) (675 # 100) (5 # 1) (910 # 1) (-123 # 100) (24 # 10) (15 # 10) (45 # 10) (1169 # 1000) (-79 # 100) (275 # 1000) (-1 # 10) (-41 # 100) (20408 # 10000) (0 # 1) (-15 # 1000) (131 # 100) (0 # 1) (-1 # 10) (6 # 10) (-3 # 10) (11 # 10) (-95 # 10000) (1 # 10) (5 # 100) (0 # 1) (-5 # 100) (-33 # 10000) (36 # 10000) (-25 # 10000) (-1128 # 10000) (22 # 1000) (256 # 1000) (189 # 1000) (0 # 1) (16 # 100) (6 # 1000) (335 # 1000) (81 # 100) (55 # 100) (47 # 100) (36 # 100) (795 # 1000) (527 # 1000) (57 # 100) (7 # 10);
  Mk_ask14_row (15 # 100) (675 # 100) (5 # 1) (740 # 1) (-1587 # 1000) (24 # 10) (15 # 10) (45 # 10) (1442 # 1000) (-79 # 100) (275 # 1000) (-1 # 10) (-41 # 100) (21208 # 10000) (0 # 1) (-22 # 1000) (166 # 100) (0 # 1) (-1 # 10) (6 # 10) (-3 # 10) (11 # 10) (-95 # 10000) (1 # 10) (5 # 100) (0 # 1) (-5 # 100) (-35 # 10000) (33 # 10000) (-25 # 10000) (383 # 10000) (-136 # 1000) (162 # 1000) (108 # 1000) (0 # 1) (68 # 1000) (-156 # 1000) (-84 # 1000) (801 # 1000) (56 # 100) (47 # 100) (36 # 100) (773 # 1000) (519 # 1000) (58 # 100) (7 # 10);
  Mk_ask14_row (2 # 10) (675 # 100) (5 # 1) (590 # 1) (-2012 # 1000) (24 # 10) (15 # 10) (45 # 10) (1637 # 1000) (-79 # 100) (275 # 1000) (-1 # 10) (-41 # 100) (22241 # 10000) (0 # 1) (-3 # 100) (222 # 100) (0 # 1) (-1 # 10) (6 # 10) (-3 # 10) (11 # 10) (-86 # 10000) (1 # 10) (5 # 100) (0 # 1) (-3 # 100) (-33 # 10000) (27 # 10000) (-31 # 10000) (775 # 10000) (-78 # 1000) (224 # 1000) (115 # 1000) (0 # 1) (48 # 1000) (-274 # 1000) (-178 # 1000) (789 # 1000) (565 # 1000) (47 # 100) (36 # 100) (753 # 1000) (514 # 1000) (59 # 100) (7 # 10);
  Mk_ask14_row (25 # 100) (675 # 100) (5 # 1) (495 # 1) (-2411 # 1000) (24 # 10) (15 # 10) (45 # 10) (1701 # 1000) (-79 # 100) (275 # 1000) (-1 # 10) (-41 # 100) (23124 # 10000) (0 # 1) (-38 # 1000) (277 # 100) (0 # 1) (-1 # 10) (6 # 10) (-24 # 100) (11 # 10) (-74 # 10000) (1 # 10) (5 # 100) (0 # 1) (0 # 1) (-29 # 10000) (24 # 10000) (-36 # 10000) (741 # 10000) (37 # 1000) (248 # 1000) (122 # 1000) (0 # 1) (55 # 1000) (-248 # 1000) (-187 # 1000) (77 # 100) (57 # 100) (47 # 100) (36 # 100) (729 # 1000) (513 # 1000) (61 # 100) (7 # 10);
  Mk_ask14_row (3 # 10) (675 # 100) (5 # 1) (430 # 1) (-2757 # 1000) (24 # 10) (15 # 10) (45 # 10) (1712 # 1000) (-79 # 100) (275 # 1000) (-1 # 10) (-41 # 100) (23383 # 10000) (0 # 1) (-45 # 1000) (325 # 100) (0 # 1) (-1 # 10) (6 # 10) (-19 # 100) (103 # 100) (-64 # 10000) (1 # 10) (5 # 100) (3 # 100) (3 # 100) (-27 # 10000) (2 # 1000) (-39 # 10000) (2548 # 10000) (-91 # 1000) (203 # 1000) (96 # 1000) (0 # 1) (73 # 1000) (-203 # 1000) (-159 # 1000) (74 # 100) (58 # 100) (47 # 100) (36 # 100) (693 # 1000) (519 # 1000) (63 # 100) (7 # 10);
  Mk_ask14_row (4 # 10) (675 # 100) (5 # 1) (360 # 1) (-3278 # 1000) (24 # 10) (15 # 10) (45 # 10) (1662 # 1000) (-79 # 100) (275 # 1000) (-1 # 10) (-41 # 100) (24688 # 10000) (0 # 1) (-55 # 1000) (399 # 100) (0 # 1) (-1 # 10) (58 # 100) (-11 # 100) (92 # 100) (-43 # 10000) (1 # 10) (7 # 100) (6 # 100) (6 # 100) (-23 # 10000) (1 # 1000) (-48 # 10000) (2136 # 10000) (129 # 1000) (232 # 1000) (123 # 1000) (0 # 1) (143 # 1000) (-154 # 1000) (-23 # 1000) (699 # 1000) (59 # 100) (47 # 100) (36 # 100) (644 # 1000) (524 # 1000) (66 # 100) (7 # 10);
  Mk_ask14_row (5 # 10) (675 # 100) (5 # 1) (340 # 1) (-3599 # 1000) (24 # 10) (15 # 10) (45 # 10) (1571 # 1000) (-79 # 100) (275 # 1000) (-1 # 10) (-41 # 100) (25586 # 10000) (0 # 1) (-65 # 1000) (445 # 100) (0 # 1) (-1 # 10) (56 # 100) (-4 # 100) (84 # 100) (-32 # 10000) (1 # 10) (1 # 10) (1 # 10) (9 # 100) (-2 # 1000) (8 # 10000) (-5 # 1000) (1542 # 10000) (31 # 100) (252 # 1000) (134 # 1000) (0 # 1) (16 # 100) (-159 # 1000) (-29 # 1000) (676 # 1000) (6 # 10) (47 # 100) (36 # 100) (616 # 1000) (532 # 1000) (69 # 100) (7 # 10);
  Mk_ask14_row (75 # 100) (675 # 100) (5 # 1) (330 # 1) (-38 # 10) (24 # 10) (15 # 10) (45 # 10) (1299 # 1000) (-79 # 100) (275 # 1000) (-1 # 10) (-41 # 100) (26821 # 10000) (0 # 1) (-95 # 1000) (475 # 100) (0 # 1) (-1 # 10) (53 # 100) (7 # 100) (68 # 100) (-25 # 10000) (14 # 100) (14 # 100) (14 # 100) (13 # 100) (-1 # 1000) (7 # 10000) (-41 # 10000) (787 # 10000) (505 # 1000) (208 # 1000) (129 # 1000) (0 # 1) (158 # 1000) (-141 # 1000) (61 # 1000) (631 # 1000) (615 # 1000) (47 # 100) (36 # 100) (566 # 1000) (548 # 1000) (73 # 100) (69 # 100);
  Mk_ask14_row (1 # 1) (675 # 100) (5 # 1) (330 # 1) (-35 # 10) (24 # 10) (15 # 10) (45 # 10) (1043 # 1000) (-79 # 100) (275 # 1000) (-1 # 10) (-41 # 100) (2763 # 1000) (0 # 1) (-11 # 100) (43 # 10) (0 # 1) (-1 # 10) (5 # 10) (15 # 100) (57 # 100) (-25 # 10000) (17 # 100) (17 # 100) (17 # 100) (14 # 100) (-5 # 10000) (7 # 10000) (-32 # 10000) (476 # 10000) (358 # 1000) (208 # 1000) (152 # 1000) (0 # 1) (145 # 1000) (-144 # 1000) (62 # 1000) (609 # 1000) (63 # 100) (47 # 100) (36 # 100) (541 # 1000) (565 # 1000) (77 # 100) (68 # 100);
  Mk_ask14_row (15 # 10) (675 # 100) (5 # 1) (330 # 1) (-24 # 10) (24 # 10) (15 # 10) (45 # 10) (665 # 1000) (-79 # 100) (275 # 1000) (-1 # 10) (-41 # 100) (28355 # 10000) (0 # 1) (-124 # 1000) (26 # 10) (0 # 1) (-1 # 10) (42 # 100) (27 # 100) (42 # 100) (-22 # 10000) (22 # 100) (21 # 100) (2 # 10) (16 # 100) (-4 # 10000) (6 # 10000) (-2 # 1000) (-163 # 10000) (131 # 1000) (108 # 1000) (118 # 1000) (0 # 1) (131 # 1000) (-126 # 1000) (37 # 1000) (578 # 1000) (64 # 100) (47 # 100) (36 # 100) (506 # 1000) (576 # 1000) (8 # 10) (66 # 100);
  Mk_ask14_row (2 # 1) (675 # 100) (5 # 1) (330 # 1) (-1 # 1) (24 # 10) (15 # 10) (45 # 10) (329 # 1000) (-79 # 100) (275 # 1000) (-1 # 10) (-41 # 100) (28973 # 10000) (0 # 1) (-138 # 1000) (55 # 100) (0 # 1) (-1 # 10) (35 # 100) (35 # 100) (31 # 100) (-19 # 10000) (26 # 100) (25 # 100) (22 # 100) (16 # 100) (-2 # 10000) (3 # 10000) (-17 # 10000) (-1203 # 10000) (123 # 1000) (68 # 1000) (119 # 1000) (0 # 1) (83 # 1000) (-75 # 1000) (-143 # 1000) (555 # 1000) (65 # 100) (47 # 100) (36 # 100) (48 # 100) (587 # 1000) (8 # 10) (62 # 100);
  Mk_ask14_row (3 # 1) (682 # 100) (5 # 1) (330 # 1) (0 # 1) (24 # 10) (15 # 10) (45 # 10) (-6 # 100) (-79 # 100) (275 # 1000) (-1 # 10) (-41 # 100) (29061 # 10000) (0 # 1) (-172 # 1000) (-95 # 100) (0 # 1) (-1 # 10) (2 # 10) (46 # 100) (16 # 100) (-15 # 10000) (34 # 100) (3 # 10) (23 # 100) (16 # 100) (0 # 1) (0 # 1) (-2 # 1000) (-2719 # 10000) (109 # 1000) (-23 # 1000) (93 # 1000) (0 # 1) (7 # 100) (-21 # 1000) (-28 # 1000) (548 # 1000) (64 # 100) (47 # 100) (36 # 100) (472 # 1000) (576 # 1000) (8 # 10) (55 # 100);
  Mk_ask14_row (4 # 1) (692 # 100) (5 # 1) (330 # 1) (0 # 1) (24 # 10) (15 # 10) (45 # 10) (-299 # 1000) (-79 # 100) (275 # 1000) (-1 # 10) (-41 # 100) (28888 # 10000) (0 # 1) (-197 # 1000) (-95 # 100) (0 # 1) (-1 # 10) (0 # 1) (54 # 100) (5 # 100) (-1 # 1000) (41 # 100) (32 # 100) (23 # 100) (14 # 100) (0 # 1) (0 # 1) (-2 # 1000) (-2958 # 10000) (135 # 1000) (28 # 1000) (84 # 1000) (0 # 1) (101 # 1000) (72 # 1000) (-97 # 1000) (527 # 1000) (63 # 100) (47 # 100) (36 # 100) (447 # 1000) (565 # 1000) (76 # 100) (52 # 100);
  Mk_ask14_row (5 # 1) (7 # 1) (5 # 1) (330 # 1) (0 # 1) (24 # 10) (15 # 10) (45 # 10) (-562 # 1000) (-765 # 1000) (275 # 1000) (-1 # 10) (-41 # 100) (28984 # 10000) (0 # 1) (-218 # 1000) (-93 # 100) (0 # 1) (-1 # 10) (0 # 1) (61 # 100) (-4 # 100) (-1 # 1000) (51 # 100) (32 # 100) (22 # 100) (13 # 100) (0 # 1) (0 # 1) (-2 # 1000) (-2718 # 10000) (189 # 1000) (31 # 1000) (58 # 1000) (0 # 1) (95 # 1000) (205 # 1000) (15 # 1000) (505 # 1000) (63 # 100) (47 # 100) (36 # 100) (425 # 1000) (568 # 1000) (72 # 100) (5 # 10);
  Mk_ask14_row (6 # 1) (706 # 100) (5 # 1) (330 # 1) (0 # 1) (24 # 10) (15 # 10) (45 # 10) (-875 # 1000) (-711 # 1000) (275 # 1000) (-1 # 10) (-41 # 100) (28955 # 10000) (0 # 1) (-235 # 1000) (-91 # 100) (0 # 1) (-2 # 10) (0 # 1) (65 # 100) (-11 # 100) (-1 # 1000) (55 # 100) (32 # 100) (2 # 10) (1 # 10) (0 # 1) (0 # 1) (-2 # 1000) (-2517 # 10000) (215 # 1000) (24 # 1000) (65 # 1000) (0 # 1) (133 # 1000) (285 # 1000) (104 # 1000) (477 # 1000) (63 # 100) (47 # 100) (36 # 100) (395 # 1000) (571 # 1000) (7 # 10) (5 # 10);
  Mk_ask14_row (75 # 10) (7145 # 1000) (5 # 1) (330 # 1) (0 # 1) (24 # 10) (15 # 10) (45 # 10) (-1303 # 1000) (-634 # 1000) (275 # 1000) (-1 # 10) (-41 # 100) (287 # 100) (0 # 1) (-255 # 1000) (-87 # 100) (0 # 1) (-2 # 10) (0 # 1) (72 # 100) (-19 # 100) (-1 # 1000) (49 # 100) (275 # 1000) (17 # 100) (9 # 100) (0 # 1) (0 # 1) (-2 # 1000) (-14 # 100) (15 # 100) (-7 # 100) (0 # 1) (0 # 1) (151 # 1000) (329 # 1000) (299 # 1000) (457 # 1000) (63 # 100) (47 # 100) (36 # 100) (378 # 1000) (575 # 1000) (67 # 100) (5 # 10);
  Mk_ask14_row (10 # 1) (725 # 100) (5 # 1) (330 # 1) (0 # 1) (24 # 10) (15 # 10) (45 # 10) (-1928 # 1000) (-529 # 1000) (275 # 1000) (-1 # 10) (-41 # 100) (28431 # 10000) (0 # 1) (-285 # 1000) (-8 # 10) (0 # 1) (-2 # 10) (0 # 1) (8 # 10) (-3 # 10) (-1 # 1000) (42 # 100) (22 # 100) (14 # 100) (8 # 100) (0 # 1) (0 # 1) (-2 # 1000) (-216 # 10000) (92 # 1000) (-159 # 1000) (-5 # 100) (0 # 1) (124 # 1000) (301 # 1000) (243 # 1000) (429 # 1000) (63 # 100) (47 # 100) (36 # 100) (359 # 1000) (585 # 1000) (64 # 100) (5 # 10);
  Mk_ask14_row (0 # 1) (675 # 100) (5 # 1) (660 # 1) (-147 # 100) (24 # 10) (15 # 10) (45 # 10) (587 # 1000) (-79 # 100) (275 # 1000) (-1 # 10) (-41 # 100) (21541 # 10000) (0 # 1) (-15 # 1000) (1735 # 1000) (0 # 1) (-1 # 10) (6 # 10) (-3 # 10) (11 # 10) (-72 # 10000) (1 # 10) (5 # 100) (0 # 1) (-5 # 100) (-15 # 10000) (25 # 10000) (-34 # 10000) (-1503 # 10000) (265 # 1000) (337 # 1000) (188 # 1000) (0 # 1) (88 # 1000) (-196 # 1000) (44 # 1000) (754 # 1000) (52 # 100) (47 # 100) (36 # 100) (741 # 1000) (501 # 1000) (54 # 100) (63 # 100);
  Mk_ask14_row (-1 # 1) (675 # 100) (5 # 1) (330 # 1) (-202 # 100) (2400 # 1) (15 # 10) (45 # 10) (5975 # 1000) (-919 # 1000) (275 # 1000) (-1 # 10) (-41 # 100) (23657 # 10000) (0 # 1) (-94 # 1000) (236 # 100) (0 # 1) (-1 # 10) (25 # 100) (22 # 100) (3 # 10) (-5 # 10000) (28 # 100) (15 # 100) (9 # 100) (7 # 100) (-1 # 10000) (5 # 10000) (-37 # 10000) (-1462 # 10000) (377 # 1000) (212 # 1000) (157 # 1000) (0 # 1) (95 # 1000) (-38 # 1000) (65 # 1000) (662 # 1000) (51 # 100) (38 # 100) (38 # 100) (66 # 100) (51 # 100) (58 # 100) (53 # 100)
].

