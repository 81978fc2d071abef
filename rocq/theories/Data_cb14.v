(** Generated by tools/gen_data.py - do not edit.
    Coefficient tables, exact decimals as in the data files. *)
From Coq Require Import QArith List.
Import ListNotations.
Open Scope Q_scope.

(** One row of data/campbell_bozorgnia_2014.csv; the field names are the column names of the file
    (load_data_file, model.py:526-538). *)
Record cb14_row := Mk_cb14_row {
  cb14_period : Q;
  cb14_c_0 : Q;
  cb14_c_1 : Q;
  cb14_c_2 : Q;
  cb14_c_3 : Q;
  cb14_c_4 : Q;
  cb14_c_5 : Q;
  cb14_c_6 : Q;
  cb14_c_7 : Q;
  cb14_c_8 : Q;
  cb14_c_9 : Q;
  cb14_c_10 : Q;
  cb14_c_11 : Q;
  cb14_c_12 : Q;
  cb14_c_13 : Q;
  cb14_c_14 : Q;
  cb14_c_15 : Q;
  cb14_c_16 : Q;
  cb14_c_17 : Q;
  cb14_c_18 : Q;
  cb14_c_19 : Q;
  cb14_k_1 : Q;
  cb14_k_2 : Q;
  cb14_k_3 : Q;
  cb14_a_2 : Q;
  cb14_h_1 : Q;
  cb14_h_2 : Q;
  cb14_h_3 : Q;
  cb14_h_4 : Q;
  cb14_h_5 : Q;
  cb14_h_6 : Q;
  cb14_c_20 : Q;
  cb14_dc_20ca : Q;
  cb14_dc_20jp : Q;
  cb14_dc_20ch : Q;
  cb14_tau_1 : Q;
  cb14_tau_2 : Q;
  cb14_phi_1 : Q;
  cb14_phi_2 : Q;
  cb14_phi_lnAF : Q;
  cb14_phi_c : Q;
  cb14_sigma_s : Q;
  cb14_sigma_arbs : Q;
  cb14_sigma_l : Q;
  cb14_sigma_arbl : Q;
  cb14_rho_lnPGAlnY : Q
}.

(** campbell_bozorgnia_2014.py:29: data/campbell_bozorgnia_2014.csv lines 4-26 (23 rows) *)
Definition cb14_coeff : list cb14_row := [
  Mk_cb14_row (1 # 100) (-4365 # 1000) (977 # 1000) (533 # 1000) (-1485 # 1000) (-499 # 1000) (-2773 # 1000) (248 # 1000) (6753 # 1000) (0 # 1) (-214 # 1000) (72 # 100) (1094 # 1000) (2191 # 1000) (1416 # 1000) (-7 # 1000) (-207 # 1000) (39 # 100) (981 # 10000) (334 # 10000) (755 # 100000) (865 # 1) (-1186 # 1000) (1839 # 1000) (168 # 1000) (242 # 1000) (1471 # 1000) (-714 # 1000) (1 # 1) (-336 # 1000) (-27 # 100) (-55 # 10000) (0 # 1) (-35 # 10000) (36 # 10000) (404 # 1000) (325 # 1000) (734 # 1000) (492 # 1000) (3 # 10) (166 # 1000) (838 # 1000) (854 # 1000) (59 # 100) (613 # 1000) (1 # 1);
  Mk_cb14_row (2 # 100) (-4348 # 1000) (976 # 1000) (549 # 1000) (-1488 # 1000) (-501 # 1000) (-2772 # 1000) (247 # 1000) (6502 # 1000) (0 # 1) (-208 # 1000) (73 # 100) (1149 # 1000) (2189 # 1000) (1453 # 1000) (-167 # 10000) (-199 # 1000) (387 # 1000) (1009 # 10000) (327 # 10000) (759 # 100000) (865 # 1) (-1219 # 1000) (184 # 100) (166 # 1000) (244 # 1000) (1467 # 1000) (-711 # 1000) (1 # 1) (-339 # 1000) (-263 # 1000) (-55 # 10000) (0 # 1) (-35 # 10000) (36 # 10000) (417 # 1000) (326 # 1000) (738 # 1000) (496 # 1000) (3 # 10) (166 # 1000) (848 # 1000) (864 # 1000) (594 # 1000) (617 # 1000) (998 # 1000);
  Mk_cb14_row (3 # 100) (-4024 # 1000) (931 # 1000) (628 # 1000) (-1494 # 1000) (-517 # 1000) (-2782 # 1000) (246 # 1000) (6291 # 1000) (0 # 1) (-213 # 1000) (759 # 1000) (129 # 100) (2164 # 1000) (1476 # 1000) (-422 # 10000) (-202 # 1000) (378 # 1000) (1095 # 10000) (331 # 10000) (79 # 10000) (908 # 1) (-1273 # 1000) (1841 # 1000) (167 # 1000) (246 # 1000) (1467 # 1000) (-713 # 1000) (1 # 1) (-338 # 1000) (-259 # 1000) (-57 # 10000) (0 # 1) (-34 # 10000) (37 # 10000) (446 # 1000) (344 # 1000) (747 # 1000) (503 # 1000) (3 # 10) (165 # 1000) (87 # 100) (886 # 1000) (609 # 1000) (631 # 1000) (986 # 1000);
  Mk_cb14_row (5 # 100) (-3479 # 1000) (887 # 1000) (674 # 1000) (-1388 # 1000) (-615 # 1000) (-2791 # 1000) (24 # 100) (6317 # 1000) (0 # 1) (-244 # 1000) (826 # 1000) (1449 # 1000) (2138 # 1000) (1549 # 1000) (-663 # 10000) (-339 # 1000) (295 # 1000) (1226 # 10000) (27 # 1000) (803 # 100000) (1054 # 1) (-1346 # 1000) (1843 # 1000) (173 # 1000) (251 # 1000) (1449 # 1000) (-701 # 1000) (1 # 1) (-338 # 1000) (-263 # 1000) (-63 # 10000) (0 # 1) (-37 # 10000) (4 # 1000) (508 # 1000) (377 # 1000) (777 # 1000) (52 # 100) (3 # 10) (162 # 1000) (928 # 1000) (942 # 1000) (642 # 1000) (662 # 1000) (938 # 1000);
  Mk_cb14_row (75 # 1000) (-3293 # 1000) (902 # 1000) (726 # 1000) (-1469 # 1000) (-596 # 1000) (-2745 # 1000) (227 # 1000) (6861 # 1000) (0 # 1) (-266 # 1000) (815 # 1000) (1535 # 1000) (2446 # 1000) (1772 # 1000) (-794 # 10000) (-404 # 1000) (322 # 1000) (1165 # 10000) (288 # 10000) (811 # 100000) (1086 # 1) (-1471 # 1000) (1845 # 1000) (198 # 1000) (26 # 100) (1435 # 1000) (-695 # 1000) (1 # 1) (-347 # 1000) (-219 # 1000) (-7 # 1000) (0 # 1) (-37 # 10000) (39 # 10000) (504 # 1000) (418 # 1000) (782 # 1000) (535 # 1000) (3 # 10) (158 # 1000) (93 # 100) (943 # 1000) (679 # 1000) (697 # 1000) (887 # 1000);
  Mk_cb14_row (1 # 10) (-3666 # 1000) (993 # 1000) (698 # 1000) (-1572 # 1000) (-536 # 1000) (-2633 # 1000) (21 # 100) (7294 # 1000) (0 # 1) (-229 # 1000) (831 # 1000) (1615 # 1000) (2969 # 1000) (1916 # 1000) (-294 # 10000) (-416 # 1000) (384 # 1000) (998 # 10000) (325 # 10000) (744 # 100000) (1032 # 1) (-1624 # 1000) (1847 # 1000) (174 # 1000) (259 # 1000) (1449 # 1000) (-708 # 1000) (1 # 1) (-391 # 1000) (-201 # 1000) (-73 # 10000) (0 # 1) (-34 # 10000) (42 # 10000) (445 # 1000) (426 # 1000) (769 # 1000) (543 # 1000) (3 # 10) (17 # 100) (888 # 1000) (904 # 1000) (69 # 100) (711 # 1000) (87 # 100);
  Mk_cb14_row (15 # 100) (-4866 # 1000) (1267 # 1000) (51 # 100) (-1669 # 1000) (-49 # 100) (-2458 # 1000) (183 # 1000) (8031 # 1000) (0 # 1) (-211 # 1000) (749 # 1000) (1877 # 1000) (3544 # 1000) (2161 # 1000) (642 # 10000) (-407 # 1000) (417 # 1000) (76 # 1000) (388 # 10000) (716 # 100000) (878 # 1) (-1931 # 1000) (1852 # 1000) (198 # 1000) (254 # 1000) (1461 # 1000) (-715 # 1000) (1 # 1) (-449 # 1000) (-99 # 1000) (-69 # 10000) (0 # 1) (-3 # 1000) (42 # 10000) (382 # 1000) (387 # 1000) (769 # 1000) (543 # 1000) (3 # 10) (18 # 100) (859 # 1000) (878 # 1000) (667 # 1000) (691 # 1000) (876 # 1000);
  Mk_cb14_row (2 # 10) (-5411 # 1000) (1366 # 1000) (447 # 1000) (-175 # 100) (-451 # 1000) (-2421 # 1000) (182 # 1000) (8385 # 1000) (0 # 1) (-163 # 1000) (764 # 1000) (2069 # 1000) (3707 # 1000) (2465 # 1000) (968 # 10000) (-311 # 1000) (404 # 1000) (571 # 10000) (437 # 10000) (688 # 100000) (748 # 1) (-2188 # 1000) (1856 # 1000) (204 # 1000) (237 # 1000) (1484 # 1000) (-721 # 1000) (1 # 1) (-393 # 1000) (-198 # 1000) (-6 # 1000) (0 # 1) (-31 # 10000) (41 # 10000) (339 # 1000) (338 # 1000) (761 # 1000) (552 # 1000) (3 # 10) (186 # 1000) (833 # 1000) (854 # 1000) (647 # 1000) (673 # 1000) (87 # 100);
  Mk_cb14_row (25 # 100) (-5962 # 1000) (1458 # 1000) (274 # 1000) (-1711 # 1000) (-404 # 1000) (-2392 # 1000) (189 # 1000) (7534 # 1000) (0 # 1) (-15 # 100) (716 # 1000) (2205 # 1000) (3343 # 1000) (2766 # 1000) (1441 # 10000) (-172 # 1000) (466 # 1000) (437 # 10000) (463 # 10000) (556 # 100000) (654 # 1) (-2381 # 1000) (1861 # 1000) (185 # 1000) (206 # 1000) (1581 # 1000) (-787 # 1000) (1 # 1) (-339 # 1000) (-21 # 100) (-55 # 10000) (0 # 1) (-33 # 10000) (36 # 10000) (34 # 100) (316 # 1000) (744 # 1000) (545 # 1000) (3 # 10) (191 # 1000) (818 # 1000) (84 # 100) (63 # 100) (658 # 1000) (85 # 100);
  Mk_cb14_row (3 # 10) (-6403 # 1000) (1528 # 1000) (193 # 1000) (-177 # 100) (-321 # 1000) (-2376 # 1000) (195 # 1000) (699 # 100) (0 # 1) (-131 # 1000) (737 # 1000) (2306 # 1000) (3334 # 1000) (3011 # 1000) (1597 # 10000) (-84 # 1000) (528 # 1000) (323 # 10000) (508 # 10000) (458 # 100000) (587 # 1) (-2518 # 1000) (1865 # 1000) (164 # 1000) (21 # 100) (1586 # 1000) (-795 # 1000) (1 # 1) (-447 # 1000) (-121 # 1000) (-49 # 10000) (0 # 1) (-35 # 10000) (31 # 10000) (34 # 100) (3 # 10) (727 # 1000) (568 # 1000) (3 # 10) (198 # 1000) (803 # 1000) (827 # 1000) (642 # 1000) (672 # 1000) (819 # 1000);
  Mk_cb14_row (4 # 10) (-7566 # 1000) (1739 # 1000) (-2 # 100) (-1594 # 1000) (-426 # 1000) (-2303 # 1000) (185 # 1000) (7012 # 1000) (0 # 1) (-159 # 1000) (738 # 1000) (2398 # 1000) (3544 # 1000) (3203 # 1000) (141 # 1000) (85 # 1000) (54 # 100) (209 # 10000) (432 # 10000) (401 # 100000) (503 # 1) (-2657 # 1000) (1874 # 1000) (16 # 100) (226 # 1000) (1544 # 1000) (-77 # 100) (1 # 1) (-525 # 1000) (-86 # 1000) (-37 # 10000) (0 # 1) (-34 # 10000) (28 # 10000) (356 # 1000) (264 # 1000) (69 # 100) (593 # 1000) (3 # 10) (206 # 1000) (776 # 1000) (803 # 1000) (649 # 1000) (681 # 1000) (743 # 1000);
  Mk_cb14_row (5 # 10) (-8379 # 1000) (1872 # 1000) (-121 # 1000) (-1577 # 1000) (-44 # 100) (-2296 # 1000) (186 # 1000) (6902 # 1000) (0 # 1) (-153 # 1000) (718 # 1000) (2355 # 1000) (3016 # 1000) (3333 # 1000) (1474 # 10000) (233 # 1000) (638 # 1000) (92 # 10000) (405 # 10000) (388 # 100000) (457 # 1) (-2669 # 1000) (1883 # 1000) (184 # 1000) (217 # 1000) (1554 # 1000) (-77 # 100) (1 # 1) (-407 # 1000) (-281 # 1000) (-27 # 10000) (0 # 1) (-34 # 10000) (25 # 10000) (379 # 1000) (263 # 1000) (663 # 1000) (611 # 1000) (3 # 10) (208 # 1000) (764 # 1000) (792 # 1000) (665 # 1000) (697 # 1000) (684 # 1000);
  Mk_cb14_row (75 # 100) (-9841 # 1000) (2021 # 1000) (-42 # 1000) (-1757 # 1000) (-443 # 1000) (-2232 # 1000) (186 # 1000) (5522 # 1000) (0 # 1) (-9 # 100) (795 # 1000) (1995 # 1000) (2616 # 1000) (3054 # 1000) (1764 # 10000) (411 # 1000) (776 # 1000) (-82 # 10000) (42 # 1000) (42 # 10000) (410 # 1) (-2401 # 1000) (1906 # 1000) (216 # 1000) (154 # 1000) (1626 # 1000) (-78 # 100) (1 # 1) (-371 # 1000) (-285 # 1000) (-16 # 10000) (0 # 1) (-32 # 10000) (16 # 10000) (43 # 100) (326 # 1000) (606 # 1000) (633 # 1000) (3 # 10) (221 # 1000) (743 # 1000) (775 # 1000) (712 # 1000) (746 # 1000) (562 # 1000);
  Mk_cb14_row (1 # 1) (-11011 # 1000) (218 # 100) (-69 # 1000) (-1707 # 1000) (-527 # 1000) (-2158 # 1000) (169 # 1000) (565 # 100) (0 # 1) (-105 # 1000) (556 # 1000) (1447 # 1000) (247 # 100) (2562 # 1000) (2593 # 10000) (479 # 1000) (771 # 1000) (-131 # 10000) (426 # 10000) (409 # 100000) (400 # 1) (-1955 # 1000) (1929 # 1000) (596 # 1000) (117 # 1000) (1616 # 1000) (-733 # 1000) (1 # 1) (-128 # 1000) (-756 # 1000) (-6 # 10000) (0 # 1) (-3 # 1000) (6 # 10000) (47 # 100) (353 # 1000) (579 # 1000) (628 # 1000) (3 # 10) (225 # 1000) (746 # 1000) (779 # 1000) (72 # 100) (754 # 1000) (467 # 1000);
  Mk_cb14_row (15 # 10) (-12469 # 1000) (227 # 100) (47 # 1000) (-1621 # 1000) (-63 # 100) (-2063 # 1000) (158 # 1000) (5795 # 1000) (0 # 1) (-58 # 1000) (48 # 100) (33 # 100) (2108 # 1000) (1453 # 1000) (2881 # 10000) (566 # 1000) (748 # 1000) (-187 # 10000) (38 # 1000) (424 # 100000) (400 # 1) (-1025 # 1000) (1974 # 1000) (596 # 1000) (117 # 1000) (1616 # 1000) (-733 # 1000) (1 # 1) (-128 # 1000) (-756 # 1000) (0 # 1) (0 # 1) (-19 # 10000) (0 # 1) (497 # 1000) (399 # 1000) (541 # 1000) (603 # 1000) (3 # 10) (222 # 1000) (735 # 1000) (768 # 1000) (723 # 1000) (756 # 1000) (364 # 1000);
  Mk_cb14_row (2 # 1) (-12969 # 1000) (2271 # 1000) (149 # 1000) (-1512 # 1000) (-768 # 1000) (-2104 # 1000) (158 # 1000) (6632 # 1000) (0 # 1) (-28 # 1000) (401 # 1000) (-514 # 1000) (1327 # 1000) (657 # 1000) (3112 # 10000) (562 # 1000) (763 # 1000) (-258 # 10000) (252 # 10000) (448 # 100000) (400 # 1) (-299 # 1000) (2019 # 1000) (596 # 1000) (117 # 1000) (1616 # 1000) (-733 # 1000) (1 # 1) (-128 # 1000) (-756 # 1000) (0 # 1) (0 # 1) (-5 # 10000) (0 # 1) (499 # 1000) (4 # 10) (529 # 1000) (588 # 1000) (3 # 10) (226 # 1000) (727 # 1000) (761 # 1000) (711 # 1000) (746 # 1000) (298 # 1000);
  Mk_cb14_row (3 # 1) (-13306 # 1000) (215 # 100) (368 # 1000) (-1315 # 1000) (-89 # 100) (-2051 # 1000) (148 # 1000) (6759 # 1000) (0 # 1) (0 # 1) (206 # 1000) (-848 # 1000) (601 # 1000) (367 # 1000) (3478 # 10000) (534 # 1000) (686 # 1000) (-311 # 10000) (236 # 10000) (345 # 100000) (400 # 1) (0 # 1) (211 # 100) (596 # 1000) (117 # 1000) (1616 # 1000) (-733 # 1000) (1 # 1) (-128 # 1000) (-756 # 1000) (0 # 1) (0 # 1) (0 # 1) (0 # 1) (5 # 10) (417 # 1000) (527 # 1000) (578 # 1000) (3 # 10) (229 # 1000) (726 # 1000) (761 # 1000) (713 # 1000) (749 # 1000) (234 # 1000);
  Mk_cb14_row (4 # 1) (-1402 # 100) (2132 # 1000) (726 # 1000) (-1506 # 1000) (-885 # 1000) (-1986 # 1000) (135 # 1000) (7978 # 1000) (0 # 1) (0 # 1) (105 # 1000) (-793 # 1000) (568 # 1000) (306 # 1000) (3747 # 10000) (522 # 1000) (691 # 1000) (-413 # 10000) (102 # 10000) (603 # 100000) (400 # 1) (0 # 1) (22 # 10) (596 # 1000) (117 # 1000) (1616 # 1000) (-733 # 1000) (1 # 1) (-128 # 1000) (-756 # 1000) (0 # 1) (0 # 1) (0 # 1) (0 # 1) (543 # 1000) (393 # 1000) (521 # 1000) (559 # 1000) (3 # 10) (237 # 1000) (753 # 1000) (789 # 1000) (683 # 1000) (723 # 1000) (202 # 1000);
  Mk_cb14_row (5 # 1) (-14558 # 1000) (2116 # 1000) (1027 # 1000) (-1721 # 1000) (-878 # 1000) (-2021 # 1000) (135 # 1000) (8538 # 1000) (0 # 1) (0 # 1) (0 # 1) (-748 # 1000) (356 # 1000) (268 # 1000) (3382 # 10000) (477 # 1000) (67 # 100) (-281 # 10000) (34 # 10000) (805 # 100000) (400 # 1) (0 # 1) (2291 # 1000) (596 # 1000) (117 # 1000) (1616 # 1000) (-733 # 1000) (1 # 1) (-128 # 1000) (-756 # 1000) (0 # 1) (0 # 1) (0 # 1) (0 # 1) (534 # 1000) (421 # 1000) (502 # 1000) (551 # 1000) (3 # 10) (237 # 1000) (733 # 1000) (77 # 100) (693 # 1000) (732 # 1000) (184 # 1000);
  Mk_cb14_row (75 # 10) (-15509 # 1000) (2223 # 1000) (169 # 1000) (-756 # 1000) (-1077 # 1000) (-2179 # 1000) (165 # 1000) (8468 # 1000) (0 # 1) (0 # 1) (0 # 1) (-664 # 1000) (75 # 1000) (374 # 1000) (3754 # 10000) (321 # 1000) (757 # 1000) (-205 # 10000) (5 # 1000) (28 # 10000) (400 # 1) (0 # 1) (2517 # 1000) (596 # 1000) (117 # 1000) (1616 # 1000) (-733 # 1000) (1 # 1) (-128 # 1000) (-756 # 1000) (0 # 1) (0 # 1) (0 # 1) (0 # 1) (523 # 1000) (438 # 1000) (457 # 1000) (546 # 1000) (3 # 10) (271 # 1000) (695 # 1000) (746 # 1000) (7 # 10) (751 # 1000) (176 # 1000);
  Mk_cb14_row (10 # 1) (-15975 # 1000) (2132 # 1000) (367 # 1000) (-8 # 10) (-1282 # 1000) (-2244 # 1000) (18 # 100) (6564 # 1000) (0 # 1) (0 # 1) (0 # 1) (-576 # 1000) (-27 # 1000) (297 # 1000) (3506 # 10000) (174 # 1000) (621 # 1000) (9 # 10000) (99 # 10000) (458 # 100000) (400 # 1) (0 # 1) (2744 # 1000) (596 # 1000) (117 # 1000) (1616 # 1000) (-733 # 1000) (1 # 1) (-128 # 1000) (-756 # 1000) (0 # 1) (0 # 1) (0 # 1) (0 # 1) (466 # 1000) (438 # 1000) (441 # 1000) (543 # 1000) (3 # 10) (29 # 100) (642 # 1000) (704 # 1000) (698 # 1000) (756 # 1000) (154 # 1000);
  Mk_cb14_row (0 # 1) (-4416 # 1000) (984 # 1000) (537 # 1000) (-1499 # 1000) (-496 # 1000) (-2773 # 1000) (248 # 1000) (6768 # 1000) (0 # 1) (-212 # 1000) (72 # 100) (109 # 100) (2186 # 1000) (142 # 100) (-64 # 10000) (-202 # 1000) (393 # 1000) (977 # 10000) (333 # 10000) (757 # 100000) (865 # 1) (-1186 # 1000) (1839 # 1000) (167 # 1000) (241 # 1000) (1474 # 1000) (-715 # 1000) (1 # 1) (-337 # 1000) (-27 # 100) (-55 # 10000) (0 # 1) (-35 # 10000) (36 # 10000) (409 # 1000) (322 # 1000) (734 # 1000) (492 # 1000) (3 # 10) (166 # 1000) (84 # 100) (856 # 1000) (588 # 1000) (611 # 1000) (1 # 1);
  Mk_cb14_row (-1 # 1) (-2895 # 1000) (151 # 100) (27 # 100) (-1299 # 1000) (-453 # 1000) (-2466 # 1000) (204 # 1000) (5837 # 1000) (0 # 1) (-168 # 1000) (305 # 1000) (1713 # 1000) (2602 # 1000) (2457 # 1000) (106 # 1000) (332 # 1000) (585 # 1000) (517 # 10000) (327 # 10000) (613 # 100000) (400 # 1) (-1955 # 1000) (1929 # 1000) (596 # 1000) (117 # 1000) (1616 # 1000) (-733 # 1000) (1 # 1) (-128 # 1000) (-756 # 1000) (-17 # 10000) (0 # 1) (-6 # 10000) (17 # 10000) (317 # 1000) (297 # 1000) (655 # 1000) (494 # 1000) (3 # 10) (19 # 100) (728 # 1000) (752 # 1000) (576 # 1000) (607 # 1000) (684 # 1000)
].

