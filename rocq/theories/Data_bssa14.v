(** Generated by tools/gen_data.py - do not edit.
    Coefficient tables, exact decimals as in the data files. *)
From Coq Require Import QArith List.
Import ListNotations.
Open Scope Q_scope.

(** One row of data/boore_stewart_seyhan_atkinson-2014.csv; the field names are the column names of the file
    (load_data_file, model.py:526-538). *)
Record bssa14_row := Mk_bssa14_row {
  bssa14_period : Q;
  bssa14_e_0 : Q;
  bssa14_e_1 : Q;
  bssa14_e_2 : Q;
  bssa14_e_3 : Q;
  bssa14_e_4 : Q;
  bssa14_e_5 : Q;
  bssa14_e_6 : Q;
  bssa14_M_h : Q;
  bssa14_c_1 : Q;
  bssa14_c_2 : Q;
  bssa14_c_3 : Q;
  bssa14_M_ref : Q;
  bssa14_R_ref : Q;
  bssa14_h : Q;
  bssa14_dc_3global : Q;
  bssa14_dc_3ct : Q;
  bssa14_dc_3ij : Q;
  bssa14_c : Q;
  bssa14_V_c : Q;
  bssa14_V_ref : Q;
  bssa14_f_1 : Q;
  bssa14_f_3 : Q;
  bssa14_f_4 : Q;
  bssa14_f_5 : Q;
  bssa14_f_6 : Q;
  bssa14_f_7 : Q;
  bssa14_R_1 : Q;
  bssa14_R_2 : Q;
  bssa14_dphi_R : Q;
  bssa14_dphi_V : Q;
  bssa14_V_1 : Q;
  bssa14_V_2 : Q;
  bssa14_phi_1 : Q;
  bssa14_phi_2 : Q;
  bssa14_tau_1 : Q;
  bssa14_tau_2 : Q
}.

(** boore_stewart_seyhan_atkinson_2014.py:80: data/boore_stewart_seyhan_atkinson-2014.csv lines 4-110 (107 rows) *)
Definition bssa14_coeff : list bssa14_row := [
  Mk_bssa14_row (-1 # 1) (5037 # 1000) (5078 # 1000) (4849 # 1000) (5033 # 1000) (1073 # 1000) (-1536 # 10000) (2252 # 10000) (62 # 10) (-1243 # 1000) (1489 # 10000) (-344 # 100000) (45 # 10) (1 # 1) (53 # 10) (0 # 1) (4345 # 1000000) (-33 # 100000) (-84 # 100) (1300 # 1) (760 # 1) (0 # 1) (1 # 10) (-1 # 10) (-844 # 100000) (-99 # 10) (-99 # 10) (105 # 1) (272 # 1) (82 # 1000) (8 # 100) (225 # 1) (300 # 1) (644 # 1000) (552 # 1000) (401 # 1000) (346 # 1000);
  Mk_bssa14_row (0 # 1) (4473 # 10000) (4856 # 10000) (2459 # 10000) (4539 # 10000) (1431 # 1000) (5053 # 100000) (-1662 # 10000) (55 # 10) (-1134 # 1000) (1917 # 10000) (-8088 # 1000000) (45 # 10) (1 # 1) (45 # 10) (0 # 1) (28576 # 10000000) (-255 # 100000) (-6 # 10) (1500 # 1) (760 # 1) (0 # 1) (1 # 10) (-15 # 100) (-701 # 100000) (-99 # 10) (-99 # 10) (110 # 1) (270 # 1) (1 # 10) (7 # 100) (225 # 1) (300 # 1) (695 # 1000) (495 # 1000) (398 # 1000) (348 # 1000);
  Mk_bssa14_row (1 # 100) (4534 # 10000) (4916 # 10000) (2519 # 10000) (4599 # 10000) (1421 # 1000) (4932 # 100000) (-1659 # 10000) (55 # 10) (-1134 # 1000) (1916 # 10000) (-8088 # 1000000) (45 # 10) (1 # 1) (45 # 10) (0 # 1) (28159 # 10000000) (-24367 # 10000000) (-60372 # 100000) (15002 # 10) (760 # 1) (0 # 1) (1 # 10) (-14833 # 100000) (-701 # 100000) (-99 # 10) (-99 # 10) (11167 # 100) (270 # 1) (96 # 1000) (7 # 100) (225 # 1) (300 # 1) (698 # 1000) (499 # 1000) (402 # 1000) (345 # 1000);
  Mk_bssa14_row (2 # 100) (48598 # 100000) (52359 # 100000) (29707 # 100000) (48875 # 100000) (14331 # 10000) (53388 # 1000000) (-16561 # 100000) (55 # 10) (-11394 # 10000) (18962 # 100000) (-8074 # 1000000) (45 # 10) (1 # 1) (45 # 10) (0 # 1) (27795 # 10000000) (-234 # 100000) (-57388 # 100000) (150036 # 100) (760 # 1) (0 # 1) (1 # 10) (-1471 # 10000) (-728 # 100000) (-99 # 10) (-99 # 10) (1131 # 10) (270 # 1) (92 # 1000) (3 # 100) (225 # 1) (300 # 1) (702 # 1000) (502 # 1000) (409 # 1000) (346 # 1000);
  Mk_bssa14_row (22 # 1000) (49866 # 100000) (53647 # 100000) (31347 # 100000) (49973 # 100000) (14336 # 10000) (54888 # 1000000) (-1652 # 10000) (55 # 10) (-11405 # 10000) (18924 # 100000) (-8095 # 1000000) (45 # 10) (1 # 1) (45 # 10) (0 # 1) (27597 # 10000000) (-22886 # 10000000) (-56675 # 100000) (150068 # 100) (760 # 1) (0 # 1) (1 # 10) (-14801 # 100000) (-732 # 100000) (-99 # 10) (-99 # 10) (11337 # 100) (270 # 1) (88 # 1000) (27 # 1000) (225 # 1) (300 # 1) (707 # 1000) (505 # 1000) (418 # 1000) (349 # 1000);
  Mk_bssa14_row (25 # 1000) (52283 # 100000) (5613 # 10000) (34426 # 100000) (51999 # 100000) (14328 # 10000) (57529 # 1000000) (-16499 # 100000) (55 # 10) (-11419 # 10000) (18875 # 100000) (-8153 # 1000000) (45 # 10) (1 # 1) (45 # 10) (0 # 1) (27542 # 10000000) (-225 # 100000) (-5552 # 10000) (150104 # 100) (760 # 1) (0 # 1) (1 # 10) (-15015 # 100000) (-736 # 100000) (-99 # 10) (-99 # 10) (11307 # 100) (270 # 1) (86 # 1000) (26 # 1000) (225 # 1) (300 # 1) (711 # 1000) (508 # 1000) (427 # 1000) (354 # 1000);
  Mk_bssa14_row (29 # 1000) (55949 # 100000) (59923 # 100000) (39146 # 100000) (54995 # 100000) (14279 # 10000) (60732 # 1000000) (-16632 # 100000) (55 # 10) (-11423 # 10000) (18844 # 100000) (-829 # 100000) (45 # 10) (1 # 1) (45 # 10) (0 # 1) (27616 # 10000000) (-22145 # 10000000) (-5385 # 10000) (150126 # 100) (760 # 1) (0 # 1) (1 # 10) (-15387 # 100000) (-737 # 100000) (-99 # 10) (-99 # 10) (11236 # 100) (270 # 1) (84 # 1000) (28 # 1000) (225 # 1) (300 # 1) (716 # 1000) (51 # 100) (436 # 1000) (359 # 1000);
  Mk_bssa14_row (3 # 100) (56916 # 100000) (6092 # 10000) (40391 # 100000) (55783 # 100000) (14261 # 10000) (61444 # 1000000) (-1669 # 10000) (55 # 10) (-11421 # 10000) (18842 # 100000) (-8336 # 1000000) (45 # 10) (1 # 1) (449 # 100) (0 # 1) (27646 # 10000000) (-21676 # 10000000) (-53414 # 100000) (150295 # 100) (760 # 1) (0 # 1) (1 # 10) (-15485 # 100000) (-735 # 100000) (-99 # 10) (-99 # 10) (11213 # 100) (270 # 1) (81 # 1000) (29 # 1000) (225 # 1) (300 # 1) (721 # 1000) (514 # 1000) (445 # 1000) (364 # 1000);
  Mk_bssa14_row (32 # 1000) (58802 # 100000) (62875 # 100000) (42788 # 100000) (5733 # 10000) (14227 # 10000) (62806 # 1000000) (-16813 # 100000) (55 # 10) (-11412 # 10000) (1884 # 10000) (-8445 # 1000000) (45 # 10) (1 # 1) (445 # 100) (0 # 1) (27691 # 10000000) (-21167 # 10000000) (-52529 # 100000) (150312 # 100) (760 # 1) (0 # 1) (1 # 10) (-15685 # 100000) (-731 # 100000) (-99 # 10) (-99 # 10) (11165 # 100) (270 # 1) (78 # 1000) (3 # 100) (225 # 1) (300 # 1) (726 # 1000) (516 # 1000) (454 # 1000) (369 # 1000);
  Mk_bssa14_row (35 # 1000) (61636 # 100000) (65818 # 100000) (46252 # 100000) (59704 # 100000) (14174 # 10000) (64559 # 1000000) (-17015 # 100000) (55 # 10) (-11388 # 10000) (18839 # 100000) (-8642 # 1000000) (45 # 10) (1 # 1) (44 # 10) (0 # 1) (27837 # 10000000) (-20957 # 10000000) (-51192 # 100000) (150324 # 100) (760 # 1) (0 # 1) (1 # 10) (-16016 # 100000) (-721 # 100000) (-99 # 10) (-99 # 10) (11064 # 100) (270 # 1) (77 # 1000) (31 # 1000) (225 # 1) (300 # 1) (73 # 100) (518 # 1000) (462 # 1000) (374 # 1000);
  Mk_bssa14_row (36 # 1000) (62554 # 100000) (66772 # 100000) (47338 # 100000) (60496 # 100000) (14158 # 10000) (65028 # 1000000) (-17083 # 100000) (55 # 10) (-11378 # 10000) (18837 # 100000) (-8715 # 1000000) (45 # 10) (1 # 1) (438 # 100) (0 # 1) (2801 # 1000000) (-20748 # 10000000) (-50752 # 100000) (150332 # 100) (760 # 1) (0 # 1) (1 # 10) (-16142 # 100000) (-717 # 100000) (-99 # 10) (-99 # 10) (10953 # 100) (270 # 1) (75 # 1000) (31 # 1000) (225 # 1) (300 # 1) (734 # 1000) (52 # 100) (47 # 100) (379 # 1000);
  Mk_bssa14_row (4 # 100) (66281 # 100000) (70604 # 100000) (51532 # 100000) (63828 # 100000) (1409 # 1000) (66183 # 1000000) (-17357 # 100000) (55 # 10) (-11324 # 10000) (18816 # 100000) (-903 # 100000) (45 # 10) (1 # 1) (432 # 100) (0 # 1) (28219 # 10000000) (-20539 # 10000000) (-49065 # 100000) (150335 # 100) (760 # 1) (0 # 1) (1 # 10) (-16777 # 100000) (-698 # 100000) (-99 # 10) (-99 # 10) (10828 # 100) (270 # 1) (73 # 1000) (32 # 1000) (225 # 1) (300 # 1) (738 # 1000) (521 # 1000) (478 # 1000) (384 # 1000);
  Mk_bssa14_row (42 # 1000) (68087 # 100000) (72443 # 100000) (53445 # 100000) (65505 # 100000) (14059 # 10000) (66438 # 1000000) (-17485 # 100000) (55 # 10) (-11292 # 10000) (18797 # 100000) (-9195 # 1000000) (45 # 10) (1 # 1) (429 # 100) (0 # 1) (28465 # 10000000) (-20348 # 10000000) (-4829 # 10000) (150334 # 100) (760 # 1) (0 # 1) (1 # 10) (-17193 # 100000) (-687 # 100000) (-99 # 10) (-99 # 10) (10699 # 100) (270 # 1) (72 # 1000) (32 # 1000) (225 # 1) (300 # 1) (742 # 1000) (523 # 1000) (484 # 1000) (39 # 100);
  Mk_bssa14_row (44 # 1000) (69882 # 100000) (74277 # 100000) (55282 # 100000) (67225 # 100000) (14033 # 10000) (66663 # 1000000) (-17619 # 100000) (55 # 10) (-11259 # 10000) (18775 # 100000) (-936 # 100000) (45 # 10) (1 # 1) (427 # 100) (0 # 1) (28738 # 10000000) (-20157 # 10000000) (-47572 # 100000) (150313 # 100) (760 # 1) (0 # 1) (1 # 10) (-17664 # 100000) (-677 # 100000) (-99 # 10) (-99 # 10) (10541 # 100) (270 # 1) (7 # 100) (31 # 1000) (225 # 1) (300 # 1) (745 # 1000) (525 # 1000) (49 # 100) (397 # 1000);
  Mk_bssa14_row (45 # 1000) (70822 # 100000) (75232 # 100000) (56222 # 100000) (68139 # 100000) (14021 # 10000) (66774 # 1000000) (-17693 # 100000) (55 # 10) (-11242 # 10000) (18764 # 100000) (-9441 # 1000000) (45 # 10) (1 # 1) (425 # 100) (0 # 1) (29002 # 10000000) (-20011 # 10000000) (-47236 # 100000) (150284 # 100) (760 # 1) (0 # 1) (1 # 10) (-17914 # 100000) (-672 # 100000) (-99 # 10) (-99 # 10) (10361 # 100) (270 # 1) (69 # 1000) (31 # 1000) (225 # 1) (300 # 1) (748 # 1000) (527 # 1000) (496 # 1000) (405 # 1000);
  Mk_bssa14_row (46 # 1000) (71779 # 100000) (76202 # 100000) (57166 # 100000) (69076 # 100000) (14009 # 10000) (66891 # 1000000) (-17769 # 100000) (55 # 10) (-11224 # 10000) (18752 # 100000) (-9521 # 1000000) (45 # 10) (1 # 1) (424 # 100) (0 # 1) (29229 # 10000000) (-19929 # 10000000) (-46915 # 100000) (150247 # 100) (760 # 1) (0 # 1) (1 # 10) (-1817 # 10000) (-667 # 100000) (-99 # 10) (-99 # 10) (1017 # 10) (270 # 1) (67 # 1000) (31 # 1000) (225 # 1) (300 # 1) (75 # 100) (529 # 1000) (499 # 1000) (412 # 1000);
  Mk_bssa14_row (48 # 1000) (73574 # 100000) (78015 # 100000) (58888 # 100000) (70854 # 100000) (13991 # 10000) (67127 # 1000000) (-1792 # 10000) (55 # 10) (-11192 # 10000) (1873 # 10000) (-9676 # 1000000) (45 # 10) (1 # 1) (422 # 100) (0 # 1) (29439 # 10000000) (-19884 # 10000000) (-46321 # 100000) (150201 # 100) (760 # 1) (0 # 1) (1 # 10) (-18688 # 100000) (-656 # 100000) (-99 # 10) (-99 # 10) (9976 # 100) (270 # 1) (65 # 1000) (31 # 1000) (225 # 1) (300 # 1) (752 # 1000) (53 # 100) (502 # 1000) (419 # 1000);
  Mk_bssa14_row (5 # 100) (75436 # 100000) (79905 # 100000) (60652 # 100000) (72726 # 100000) (13974 # 10000) (67357 # 1000000) (-18082 # 100000) (55 # 10) (-11159 # 10000) (18709 # 100000) (-9819 # 1000000) (45 # 10) (1 # 1) (42 # 10) (0 # 1) (29566 # 10000000) (-19911 # 10000000) (-45795 # 100000) (150142 # 100) (760 # 1) (0 # 1) (1 # 10) (-192 # 1000) (-647 # 100000) (-99 # 10) (-99 # 10) (9793 # 100) (270 # 1) (63 # 1000) (3 # 100) (225 # 1) (300 # 1) (753 # 1000) (532 # 1000) (503 # 1000) (426 # 1000);
  Mk_bssa14_row (55 # 1000) (7996 # 10000) (8445 # 10000) (6477 # 10000) (7737 # 10000) (13947 # 10000) (67797 # 1000000) (-1848 # 10000) (55 # 10) (-11082 # 10000) (18655 # 100000) (-1012 # 100000) (45 # 10) (1 # 1) (415 # 100) (0 # 1) (29639 # 10000000) (-20011 # 10000000) (-44787 # 100000) (150071 # 100) (760 # 1) (0 # 1) (1 # 10) (-20369 # 100000) (-625 # 100000) (-99 # 10) (-99 # 10) (9603 # 100) (270 # 1) (62 # 1000) (29 # 1000) (225 # 1) (300 # 1) (753 # 1000) (534 # 1000) (502 # 1000) (434 # 1000);
  Mk_bssa14_row (6 # 100) (84394 # 100000) (88884 # 100000) (68562 # 100000) (82067 # 100000) (13954 # 10000) (68591 # 1000000) (-18858 # 100000) (55 # 10) (-11009 # 10000) (18582 # 100000) (-1033 # 100000) (45 # 10) (1 # 1) (411 # 100) (0 # 1) (29675 # 10000000) (-20193 # 10000000) (-44186 # 100000) (149983 # 100) (760 # 1) (0 # 1) (1 # 10) (-21374 # 100000) (-607 # 100000) (-99 # 10) (-99 # 10) (941 # 10) (27001 # 100) (61 # 1000) (27 # 1000) (225 # 1) (300 # 1) (753 # 1000) (536 # 1000) (499 # 1000) (441 # 1000);
  Mk_bssa14_row (65 # 1000) (88655 # 100000) (93116 # 100000) (71941 # 100000) (86724 # 100000) (14004 # 10000) (70127 # 1000000) (-19176 # 100000) (55 # 10) (-10942 # 10000) (18485 # 100000) (-1048 # 100000) (45 # 10) (1 # 1) (408 # 100) (0 # 1) (29684 # 10000000) (-20448 # 10000000) (-43951 # 100000) (149874 # 100) (760 # 1) (0 # 1) (1 # 10) (-22225 # 100000) (-593 # 100000) (-99 # 10) (-99 # 10) (9208 # 100) (27002 # 100) (61 # 1000) (25 # 1000) (225 # 1) (300 # 1) (752 # 1000) (538 # 1000) (495 # 1000) (448 # 1000);
  Mk_bssa14_row (67 # 1000) (9027 # 10000) (94711 # 100000) (73171 # 100000) (88526 # 100000) (14032 # 10000) (70895 # 1000000) (-19291 # 100000) (55 # 10) (-10918 # 10000) (18442 # 100000) (-1052 # 100000) (45 # 10) (1 # 1) (407 # 100) (0 # 1) (29675 # 10000000) (-20766 # 10000000) (-4395 # 10000) (149742 # 100) (760 # 1) (0 # 1) (1 # 10) (-22524 # 100000) (-588 # 100000) (-99 # 10) (-99 # 10) (9001 # 100) (27002 # 100) (61 # 1000) (25 # 1000) (225 # 1) (300 # 1) (75 # 100) (54 # 100) (489 # 1000) (455 # 1000);
  Mk_bssa14_row (7 # 100) (92652 # 100000) (97057 # 100000) (7494 # 10000) (91227 # 100000) (14082 # 10000) (72075 # 1000000) (-19451 # 100000) (55 # 10) (-10884 # 10000) (18369 # 100000) (-1056 # 100000) (45 # 10) (1 # 1) (406 # 100) (0 # 1) (29639 # 10000000) (-21148 # 10000000) (-4404 # 10000) (149585 # 100) (760 # 1) (0 # 1) (1 # 10) (-22931 # 100000) (-582 # 100000) (-99 # 10) (-99 # 10) (8797 # 100) (27003 # 100) (62 # 1000) (24 # 1000) (225 # 1) (300 # 1) (748 # 1000) (541 # 1000) (483 # 1000) (461 # 1000);
  Mk_bssa14_row (75 # 1000) (96447 # 100000) (10077 # 10000) (77678 # 100000) (9563 # 10000) (14174 # 10000) (73549 # 1000000) (-19665 # 100000) (55 # 10) (-10831 # 10000) (18225 # 100000) (-1058 # 100000) (45 # 10) (1 # 1) (404 # 100) (0 # 1) (29566 # 10000000) (-21594 # 10000000) (-44411 # 100000) (1494 # 1) (760 # 1) (0 # 1) (1 # 10) (-235 # 1000) (-573 # 100000) (-99 # 10) (-99 # 10) (8599 # 100) (27004 # 100) (64 # 1000) (22 # 1000) (225 # 1) (300 # 1) (745 # 1000) (542 # 1000) (474 # 1000) (466 # 1000);
  Mk_bssa14_row (8 # 100) (10003 # 10000) (10426 # 10000) (80161 # 100000) (99818 # 100000) (14261 # 10000) (73735 # 1000000) (-19816 # 100000) (55 # 10) (-10785 # 10000) (18052 # 100000) (-1056 # 100000) (45 # 10) (1 # 1) (402 # 100) (0 # 1) (29448 # 10000000) (-22122 # 10000000) (-4502 # 10000) (149182 # 100) (760 # 1) (0 # 1) (1 # 10) (-23944 # 100000) (-567 # 100000) (-99 # 10) (-99 # 10) (8423 # 100) (27005 # 100) (67 # 1000) (2 # 100) (225 # 1) (300 # 1) (741 # 1000) (543 # 1000) (464 # 1000) (468 # 1000);
  Mk_bssa14_row (85 # 1000) (1034 # 1000) (10755 # 10000) (82423 # 100000) (10379 # 10000) (14322 # 10000) (7194 # 100000) (-19902 # 100000) (551 # 100) (-10745 # 10000) (17856 # 100000) (-1051 # 100000) (45 # 10) (1 # 1) (403 # 100) (0 # 1) (29302 # 10000000) (-22695 # 10000000) (-45813 # 100000) (148929 # 100) (760 # 1) (0 # 1) (1 # 10) (-24285 # 100000) (-563 # 100000) (-99 # 10) (-99 # 10) (8274 # 100) (27006 # 100) (72 # 1000) (19 # 1000) (225 # 1) (300 # 1) (737 # 1000) (543 # 1000) (452 # 1000) (468 # 1000);
  Mk_bssa14_row (9 # 100) (10666 # 10000) (11076 # 10000) (84591 # 100000) (10762 # 10000) (1435 # 1000) (68097 # 1000000) (-19929 # 100000) (552 # 100) (-10709 # 10000) (17643 # 100000) (-1042 # 100000) (45 # 10) (1 # 1) (407 # 100) (0 # 1) (29138 # 10000000) (-23269 # 10000000) (-46732 # 100000) (148636 # 100) (760 # 1) (0 # 1) (1 # 10) (-24544 # 100000) (-561 # 100000) (-99 # 10) (-99 # 10) (8154 # 100) (27007 # 100) (76 # 1000) (17 # 1000) (225 # 1) (300 # 1) (734 # 1000) (542 # 1000) (44 # 100) (466 # 1000);
  Mk_bssa14_row (95 # 1000) (10981 # 10000) (11385 # 10000) (86703 # 100000) (11127 # 10000) (14339 # 10000) (62327 # 1000000) (-199 # 1000) (553 # 100) (-10678 # 10000) (1742 # 10000) (-1032 # 100000) (45 # 10) (1 # 1) (41 # 10) (0 # 1) (28965 # 10000000) (-23833 # 10000000) (-47721 # 100000) (148298 # 100) (760 # 1) (0 # 1) (1 # 10) (-24747 # 100000) (-56 # 10000) (-99 # 10) (-99 # 10) (8046 # 100) (27008 # 100) (82 # 1000) (16 # 1000) (225 # 1) (300 # 1) (731 # 1000) (542 # 1000) (428 # 1000) (464 # 1000);
  Mk_bssa14_row (1 # 10) (11268 # 10000) (11669 # 10000) (8871 # 10000) (11454 # 10000) (14293 # 10000) (55231 # 1000000) (-19838 # 100000) (554 # 100) (-10652 # 10000) (17203 # 100000) (-102 # 10000) (45 # 10) (1 # 1) (413 # 100) (0 # 1) (28792 # 10000000) (-24388 # 10000000) (-48724 # 100000) (147912 # 100) (760 # 1) (0 # 1) (1 # 10) (-24916 # 100000) (-56 # 10000) (-99 # 10) (-99 # 10) (7959 # 100) (27009 # 100) (87 # 1000) (14 # 1000) (225 # 1) (300 # 1) (728 # 1000) (541 # 1000) (415 # 1000) (458 # 1000);
  Mk_bssa14_row (11 # 100) (11785 # 10000) (12179 # 10000) (92702 # 100000) (1203 # 1000) (1411 # 1000) (37389 # 1000000) (-19601 # 100000) (557 # 100) (-10607 # 10000) (1677 # 10000) (-9964 # 1000000) (45 # 10) (1 # 1) (419 # 100) (0 # 1) (28629 # 10000000) (-24916 # 10000000) (-50632 # 100000) (147474 # 100) (760 # 1) (0 # 1) (1 # 10) (-25213 # 100000) (-562 # 100000) (-99 # 10) (-99 # 10) (7905 # 100) (27011 # 100) (93 # 1000) (12 # 1000) (225 # 1) (300 # 1) (726 # 1000) (54 # 100) (403 # 1000) (451 # 1000);
  Mk_bssa14_row (12 # 100) (1223 # 1000) (12621 # 10000) (96616 # 100000) (12502 # 10000) (13831 # 10000) (16373 # 1000000) (-19265 # 100000) (562 # 100) (-10572 # 10000) (16352 # 100000) (-9722 # 1000000) (45 # 10) (1 # 1) (424 # 100) (0 # 1) (28465 # 10000000) (-25398 # 10000000) (-52438 # 100000) (146975 # 100) (760 # 1) (0 # 1) (1 # 10) (-25455 # 100000) (-567 # 100000) (-99 # 10) (-99 # 10) (7885 # 100) (27013 # 100) (99 # 1000) (11 # 1000) (225 # 1) (300 # 1) (724 # 1000) (539 # 1000) (392 # 1000) (441 # 1000);
  Mk_bssa14_row (13 # 100) (12596 # 10000) (12986 # 10000) (10031 # 10000) (12869 # 10000) (13497 # 10000) (-5158 # 1000000) (-18898 # 100000) (566 # 100) (-10549 # 10000) (15982 # 100000) (-9476 # 1000000) (45 # 10) (1 # 1) (429 # 100) (0 # 1) (2831 # 1000000) (-25844 # 10000000) (-54214 # 100000) (146409 # 100) (760 # 1) (0 # 1) (1 # 10) (-25628 # 100000) (-572 # 100000) (-99 # 10) (-99 # 10) (7899 # 100) (27015 # 100) (104 # 1000) (11 # 1000) (225 # 1) (300 # 1) (723 # 1000) (538 # 1000) (381 # 1000) (43 # 100);
  Mk_bssa14_row (133 # 1000) (12692 # 10000) (13082 # 10000) (10135 # 10000) (12961 # 10000) (13395 # 10000) (-11354 # 1000000) (-18792 # 100000) (567 # 100) (-10545 # 10000) (15882 # 100000) (-9402 # 1000000) (45 # 10) (1 # 1) (43 # 10) (0 # 1) (28165 # 10000000) (-26263 # 10000000) (-54752 # 100000) (145776 # 100) (760 # 1) (0 # 1) (1 # 10) (-25665 # 100000) (-574 # 100000) (-99 # 10) (-99 # 10) (7947 # 100) (27015 # 100) (11 # 100) (11 # 1000) (225 # 1) (300 # 1) (722 # 1000) (538 # 1000) (371 # 1000) (417 # 1000);
  Mk_bssa14_row (14 # 100) (12883 # 10000) (1327 # 1000) (1036 # 1000) (13137 # 10000) (13162 # 10000) (-24711 # 1000000) (-18566 # 100000) (57 # 10) (-10537 # 10000) (15672 # 100000) (-9228 # 1000000) (45 # 10) (1 # 1) (434 # 100) (0 # 1) (28019 # 10000000) (-26663 # 10000000) (-56032 # 100000) (145071 # 100) (760 # 1) (0 # 1) (1 # 10) (-25719 # 100000) (-578 # 100000) (-99 # 10) (-99 # 10) (8026 # 100) (27016 # 100) (115 # 1000) (12 # 1000) (225 # 1) (300 # 1) (721 # 1000) (537 # 1000) (362 # 1000) (403 # 1000);
  Mk_bssa14_row (15 # 100) (13095 # 10000) (13481 # 10000) (10648 # 10000) (13324 # 10000) (12844 # 10000) (-42065 # 1000000) (-18234 # 100000) (574 # 100) (-10532 # 10000) (15401 # 100000) (-8977 # 1000000) (45 # 10) (1 # 1) (439 # 100) (0 # 1) (27864 # 10000000) (-27063 # 10000000) (-57962 # 100000) (144285 # 100) (760 # 1) (0 # 1) (1 # 10) (-25713 # 100000) (-585 # 100000) (-99 # 10) (-99 # 10) (8133 # 100) (27016 # 100) (12 # 100) (15 # 1000) (225 # 1) (300 # 1) (72 # 100) (537 # 1000) (354 # 1000) (388 # 1000);
  Mk_bssa14_row (16 # 100) (13235 # 10000) (13615 # 10000) (10876 # 10000) (13437 # 10000) (12541 # 10000) (-57593 # 1000000) (-17853 # 100000) (578 # 100) (-10533 # 10000) (15158 # 100000) (-8725 # 1000000) (45 # 10) (1 # 1) (444 # 100) (0 # 1) (27646 # 10000000) (-27509 # 10000000) (-60052 # 100000) (143422 # 100) (760 # 1) (0 # 1) (1 # 10) (-25604 # 100000) (-591 # 100000) (-99 # 10) (-99 # 10) (8286 # 100) (27016 # 100) (125 # 1000) (2 # 100) (225 # 1) (300 # 1) (72 # 100) (536 # 1000) (349 # 1000) (372 # 1000);
  Mk_bssa14_row (17 # 100) (13306 # 10000) (13679 # 10000) (1104 # 1000) (13487 # 10000) (12244 # 10000) (-71861 # 1000000) (-17421 # 100000) (582 # 100) (-10541 # 10000) (14948 # 100000) (-8472 # 1000000) (45 # 10) (1 # 1) (449 # 100) (0 # 1) (27336 # 10000000) (-28019 # 10000000) (-62252 # 100000) (142485 # 100) (760 # 1) (0 # 1) (1 # 10) (-25414 # 100000) (-597 # 100000) (-99 # 10) (-99 # 10) (8472 # 100) (27014 # 100) (128 # 1000) (26 # 1000) (225 # 1) (300 # 1) (718 # 1000) (536 # 1000) (346 # 1000) (357 # 1000);
  Mk_bssa14_row (18 # 100) (13327 # 10000) (13689 # 10000) (11149 # 10000) (13492 # 10000) (11941 # 10000) (-8564 # 100000) (-16939 # 100000) (585 # 100) (-10556 # 10000) (14768 # 100000) (-8219 # 1000000) (45 # 10) (1 # 1) (453 # 100) (0 # 1) (26991 # 10000000) (-28547 # 10000000) (-64486 # 100000) (141477 # 100) (760 # 1) (0 # 1) (1 # 10) (-25173 # 100000) (-602 # 100000) (-99 # 10) (-99 # 10) (8667 # 100) (27011 # 100) (131 # 1000) (33 # 1000) (225 # 1) (300 # 1) (717 # 1000) (536 # 1000) (344 # 1000) (341 # 1000);
  Mk_bssa14_row (19 # 100) (13307 # 10000) (13656 # 10000) (11208 # 10000) (13463 # 10000) (11635 # 10000) (-98884 # 1000000) (-16404 # 100000) (589 # 100) (-10579 # 10000) (14616 # 100000) (-7967 # 1000000) (45 # 10) (1 # 1) (457 # 100) (0 # 1) (26599 # 10000000) (-29111 # 10000000) (-66681 # 100000) (140399 # 100) (760 # 1) (0 # 1) (1 # 10) (-24911 # 100000) (-608 # 100000) (-99 # 10) (-99 # 10) (8873 # 100) (27006 # 100) (134 # 1000) (39 # 1000) (225 # 1) (300 # 1) (714 # 1000) (537 # 1000) (343 # 1000) (324 # 1000);
  Mk_bssa14_row (2 # 10) (13255 # 10000) (1359 # 1000) (1122 # 1000) (13414 # 10000) (11349 # 10000) (-11096 # 100000) (-15852 # 100000) (592 # 100) (-10607 # 10000) (14489 # 100000) (-7717 # 1000000) (45 # 10) (1 # 1) (461 # 100) (0 # 1) (26117 # 10000000) (-29702 # 10000000) (-68762 # 100000) (139261 # 100) (760 # 1) (0 # 1) (1 # 10) (-24658 # 100000) (-614 # 100000) (-99 # 10) (-99 # 10) (9091 # 100) (270 # 1) (136 # 1000) (45 # 1000) (225 # 1) (300 # 1) (711 # 1000) (539 # 1000) (344 # 1000) (309 # 1000);
  Mk_bssa14_row (22 # 100) (13091 # 10000) (13394 # 10000) (11133 # 10000) (13281 # 10000) (10823 # 10000) (-133 # 1000) (-14704 # 100000) (597 # 100) (-1067 # 1000) (14263 # 100000) (-7224 # 1000000) (45 # 10) (1 # 1) (468 # 100) (0 # 1) (25598 # 10000000) (-30285 # 10000000) (-72431 # 100000) (138072 # 100) (760 # 1) (0 # 1) (1 # 10) (-24235 # 100000) (-626 # 100000) (-99 # 10) (-99 # 10) (9304 # 100) (26983 # 100) (138 # 1000) (52 # 1000) (225 # 1) (300 # 1) (708 # 1000) (541 # 1000) (345 # 1000) (294 # 1000);
  Mk_bssa14_row (24 # 100) (12881 # 10000) (1315 # 1000) (10945 # 10000) (13132 # 10000) (10366 # 10000) (-15299 # 100000) (-13445 # 100000) (603 # 100) (-10737 # 10000) (14035 # 100000) (-6747 # 1000000) (45 # 10) (1 # 1) (475 # 100) (0 # 1) (25052 # 10000000) (-30849 # 10000000) (-75646 # 100000) (136851 # 100) (760 # 1) (0 # 1) (1 # 10) (-23823 # 100000) (-638 # 100000) (-99 # 10) (-99 # 10) (9508 # 100) (26959 # 100) (14 # 100) (55 # 1000) (225 # 1) (300 # 1) (703 # 1000) (544 # 1000) (347 # 1000) (28 # 100);
  Mk_bssa14_row (25 # 100) (12766 # 10000) (13017 # 10000) (10828 # 10000) (13052 # 10000) (10166 # 10000) (-16213 # 100000) (-12784 # 100000) (605 # 100) (-10773 # 10000) (13925 # 100000) (-6517 # 1000000) (45 # 10) (1 # 1) (478 # 100) (0 # 1) (24443 # 10000000) (-31395 # 10000000) (-77177 # 100000) (135621 # 100) (760 # 1) (0 # 1) (1 # 10) (-23574 # 100000) (-644 # 100000) (-99 # 10) (-99 # 10) (9704 # 100) (26945 # 100) (141 # 1000) (55 # 1000) (225 # 1) (300 # 1) (698 # 1000) (547 # 1000) (35 # 100) (266 # 1000);
  Mk_bssa14_row (26 # 100) (12651 # 10000) (12886 # 10000) (1071 # 1000) (12972 # 10000) (99932 # 100000) (-17041 # 100000) (-12115 # 100000) (607 # 100) (-10808 # 10000) (13818 # 100000) (-6293 # 1000000) (45 # 10) (1 # 1) (482 # 100) (0 # 1) (23797 # 10000000) (-31896 # 10000000) (-78697 # 100000) (134389 # 100) (760 # 1) (0 # 1) (1 # 10) (-2328 # 10000) (-65 # 10000) (-99 # 10) (-99 # 10) (9887 # 100) (2693 # 10) (141 # 1000) (55 # 1000) (225 # 1) (300 # 1) (693 # 1000) (55 # 100) (353 # 1000) (255 # 1000);
  Mk_bssa14_row (28 # 100) (12429 # 10000) (12635 # 10000) (10476 # 10000) (12815 # 10000) (97282 # 100000) (-18463 # 100000) (-10714 # 100000) (611 # 100) (-10879 # 10000) (13604 # 100000) (-5866 # 1000000) (45 # 10) (1 # 1) (488 # 100) (0 # 1) (23141 # 10000000) (-32351 # 10000000) (-81613 # 100000) (133167 # 100) (760 # 1) (0 # 1) (1 # 10) (-22601 # 100000) (-66 # 10000) (-99 # 10) (-99 # 10) (10053 # 100) (26896 # 100) (14 # 100) (53 # 1000) (225 # 1) (300 # 1) (687 # 1000) (554 # 1000) (357 # 1000) (244 # 1000);
  Mk_bssa14_row (29 # 100) (12324 # 10000) (12517 # 10000) (10363 # 10000) (12736 # 10000) (96348 # 100000) (-19057 # 100000) (-10011 # 100000) (612 # 100) (-10913 # 10000) (13499 # 100000) (-5666 # 1000000) (45 # 10) (1 # 1) (49 # 10) (0 # 1) (22504 # 10000000) (-32742 # 10000000) (-8295 # 10000) (131983 # 100) (760 # 1) (0 # 1) (1 # 10) (-2225 # 10000) (-665 # 100000) (-99 # 10) (-99 # 10) (10201 # 100) (26878 # 100) (139 # 1000) (51 # 1000) (225 # 1) (300 # 1) (681 # 1000) (557 # 1000) (36 # 100) (236 # 1000);
  Mk_bssa14_row (3 # 10) (12217 # 10000) (12401 # 10000) (10246 # 10000) (12653 # 10000) (95676 # 100000) (-1959 # 10000) (-92855 # 1000000) (614 # 100) (-10948 # 10000) (13388 # 100000) (-5475 # 1000000) (45 # 10) (1 # 1) (493 # 100) (0 # 1) (21958 # 10000000) (-32969 # 10000000) (-84165 # 100000) (130847 # 100) (760 # 1) (0 # 1) (1 # 10) (-21912 # 100000) (-67 # 10000) (-99 # 10) (-99 # 10) (10315 # 100) (26859 # 100) (138 # 1000) (5 # 100) (225 # 1) (300 # 1) (675 # 1000) (561 # 1000) (363 # 1000) (229 # 1000);
  Mk_bssa14_row (32 # 100) (12007 # 10000) (12177 # 10000) (10011 # 10000) (12479 # 10000) (95004 # 100000) (-20454 # 100000) (-78923 # 1000000) (616 # 100) (-11013 # 10000) (13179 # 100000) (-5122 # 1000000) (45 # 10) (1 # 1) (498 # 100) (0 # 1) (21549 # 10000000) (-33033 # 10000000) (-86175 # 100000) (129765 # 100) (760 # 1) (0 # 1) (1 # 10) (-21318 # 100000) (-68 # 10000) (-99 # 10) (-99 # 10) (104 # 1) (2682 # 10) (135 # 1000) (48 # 1000) (225 # 1) (300 # 1) (67 # 100) (566 # 1000) (366 # 1000) (223 # 1000);
  Mk_bssa14_row (34 # 100) (1179 # 1000) (11955 # 10000) (97677 # 100000) (12286 # 10000) (94956 # 100000) (-21134 # 100000) (-65134 # 1000000) (618 # 100) (-11074 # 10000) (12984 # 100000) (-4808 # 1000000) (45 # 10) (1 # 1) (503 # 100) (0 # 1) (21239 # 10000000) (-32997 # 10000000) (-87726 # 100000) (12875 # 10) (760 # 1) (0 # 1) (1 # 10) (-20816 # 100000) (-689 # 100000) (-99 # 10) (-99 # 10) (1047 # 10) (26779 # 100) (133 # 1000) (47 # 1000) (225 # 1) (300 # 1) (664 # 1000) (57 # 100) (369 # 1000) (218 # 1000);
  Mk_bssa14_row (35 # 100) (11674 # 10000) (11836 # 10000) (9638 # 10000) (12177 # 10000) (95077 # 100000) (-21446 # 100000) (-57921 # 1000000) (618 # 100) (-11105 # 10000) (1289 # 10000) (-4663 # 1000000) (45 # 10) (1 # 1) (506 # 100) (0 # 1) (21039 # 10000000) (-32869 # 10000000) (-88375 # 100000) (127806 # 100) (760 # 1) (0 # 1) (1 # 10) (-20592 # 100000) (-693 # 100000) (-99 # 10) (-99 # 10) (10526 # 100) (26758 # 100) (13 # 100) (47 # 1000) (225 # 1) (300 # 1) (658 # 1000) (573 # 1000) (372 # 1000) (215 # 1000);
  Mk_bssa14_row (36 # 100) (11558 # 10000) (1172 # 1000) (9512 # 10000) (12066 # 10000) (95278 # 100000) (-21716 # 100000) (-5104 # 100000) (619 # 100) (-11133 # 10000) (12806 # 100000) (-4527 # 1000000) (45 # 10) (1 # 1) (508 # 100) (0 # 1) (20966 # 10000000) (-32669 # 10000000) (-88965 # 100000) (126919 # 100) (760 # 1) (0 # 1) (1 # 10) (-20379 # 100000) (-697 # 100000) (-99 # 10) (-99 # 10) (10561 # 100) (26737 # 100) (128 # 1000) (47 # 1000) (225 # 1) (300 # 1) (653 # 1000) (576 # 1000) (375 # 1000) (212 # 1000);
  Mk_bssa14_row (38 # 100) (11305 # 10000) (11468 # 10000) (9244 # 10000) (11816 # 10000) (95899 # 100000) (-22214 # 100000) (-36755 # 1000000) (619 # 100) (-1119 # 1000) (12647 # 100000) (-4276 # 1000000) (45 # 10) (1 # 1) (512 # 100) (0 # 1) (20976 # 10000000) (-32423 # 10000000) (-90038 # 100000) (126074 # 100) (760 # 1) (0 # 1) (1 # 10) (-19978 # 100000) (-705 # 100000) (-99 # 10) (-99 # 10) (10587 # 100) (26695 # 100) (125 # 1000) (48 # 1000) (225 # 1) (300 # 1) (648 # 1000) (578 # 1000) (378 # 1000) (21 # 100);
  Mk_bssa14_row (4 # 10) (11046 # 10000) (11214 # 10000) (89765 # 100000) (11552 # 10000) (96766 # 100000) (-22608 # 100000) (-23189 # 1000000) (62 # 10) (-11243 # 10000) (12512 # 100000) (-4053 # 1000000) (45 # 10) (1 # 1) (516 # 100) (0 # 1) (21067 # 10000000) (-32123 # 10000000) (-91092 # 100000) (125266 # 100) (760 # 1) (0 # 1) (1 # 10) (-19582 # 100000) (-713 # 100000) (-99 # 10) (-99 # 10) (10602 # 100) (26654 # 100) (122 # 1000) (49 # 1000) (225 # 1) (300 # 1) (643 # 1000) (58 # 100) (381 # 1000) (21 # 100);
  Mk_bssa14_row (42 # 100) (10782 # 10000) (10955 # 10000) (87067 # 100000) (11276 # 10000) (97862 # 100000) (-22924 # 100000) (-10417 # 1000000) (62 # 10) (-11291 # 10000) (12389 # 100000) (-3853 # 1000000) (45 # 10) (1 # 1) (52 # 10) (0 # 1) (21267 # 10000000) (-31768 # 10000000) (-92241 # 100000) (12448 # 10) (760 # 1) (0 # 1) (1 # 10) (-19171 # 100000) (-719 # 100000) (-99 # 10) (-99 # 10) (10603 # 100) (26616 # 100) (12 # 100) (51 # 1000) (225 # 1) (300 # 1) (638 # 1000) (583 # 1000) (384 # 1000) (21 # 100);
  Mk_bssa14_row (44 # 100) (10515 # 10000) (10697 # 10000) (84355 # 100000) (10995 # 10000) (99144 # 100000) (-23166 # 100000) (11678 # 10000000) (62 # 10) (-11337 # 10000) (12278 # 100000) (-3673 # 1000000) (45 # 10) (1 # 1) (524 # 100) (0 # 1) (21603 # 10000000) (-31322 # 10000000) (-93459 # 100000) (123703 # 100) (760 # 1) (0 # 1) (1 # 10) (-18747 # 100000) (-726 # 100000) (-99 # 10) (-99 # 10) (10592 # 100) (2658 # 10) (117 # 1000) (53 # 1000) (225 # 1) (300 # 1) (634 # 1000) (585 # 1000) (388 # 1000) (211 # 1000);
  Mk_bssa14_row (45 # 100) (10376 # 10000) (10562 # 10000) (82941 # 100000) (10847 # 10000) (99876 # 100000) (-23263 # 100000) (65887 # 10000000) (62 # 10) (-11359 # 10000) (12227 # 100000) (-359 # 100000) (45 # 10) (1 # 1) (525 # 100) (0 # 1) (22022 # 10000000) (-30794 # 10000000) (-94075 # 100000) (122923 # 100) (760 # 1) (0 # 1) (1 # 10) (-18534 # 100000) (-729 # 100000) (-99 # 10) (-99 # 10) (10579 # 100) (26564 # 100) (115 # 1000) (54 # 1000) (225 # 1) (300 # 1) (629 # 1000) (589 # 1000) (393 # 1000) (213 # 1000);
  Mk_bssa14_row (46 # 100) (10234 # 10000) (10426 # 10000) (81509 # 100000) (10696 # 10000) (10064 # 10000) (-2335 # 10000) (11871 # 1000000) (62 # 10) (-11381 # 10000) (12177 # 100000) (-351 # 100000) (45 # 10) (1 # 1) (527 # 100) (0 # 1) (22495 # 10000000) (-30212 # 10000000) (-94686 # 100000) (122116 # 100) (760 # 1) (0 # 1) (1 # 10) (-18321 # 100000) (-732 # 100000) (-99 # 10) (-99 # 10) (10569 # 100) (26548 # 100) (113 # 1000) (55 # 1000) (225 # 1) (300 # 1) (624 # 1000) (592 # 1000) (398 # 1000) (216 # 1000);
  Mk_bssa14_row (48 # 100) (99719 # 100000) (10172 # 10000) (7886 # 10000) (10415 # 10000) (10215 # 10000) (-23464 # 100000) (20767 # 1000000) (62 # 10) (-1142 # 1000) (12093 # 100000) (-336 # 100000) (45 # 10) (1 # 1) (53 # 10) (0 # 1) (22978 # 10000000) (-29639 # 10000000) (-95863 # 100000) (121274 # 100) (760 # 1) (0 # 1) (1 # 10) (-17902 # 100000) (-738 # 100000) (-99 # 10) (-99 # 10) (10559 # 100) (26521 # 100) (111 # 1000) (57 # 1000) (225 # 1) (300 # 1) (619 # 1000) (595 # 1000) (404 # 1000) (219 # 1000);
  Mk_bssa14_row (5 # 10) (96991 # 100000) (99106 # 100000) (7615 # 10000) (1012 # 1000) (10384 # 10000) (-23522 # 100000) (29119 # 1000000) (62 # 10) (-11459 # 10000) (12015 # 100000) (-322 # 100000) (45 # 10) (1 # 1) (534 # 100) (0 # 1) (23478 # 10000000) (-29065 # 10000000) (-9693 # 10000) (120391 # 100) (760 # 1) (0 # 1) (1 # 10) (-175 # 1000) (-744 # 100000) (-99 # 10) (-99 # 10) (10554 # 100) (265 # 1) (109 # 1000) (6 # 100) (225 # 1) (300 # 1) (615 # 1000) (599 # 1000) (41 # 100) (224 # 1000);
  Mk_bssa14_row (55 # 100) (9048 # 10000) (9283 # 10000) (6984 # 10000) (9417 # 10000) (10833 # 10000) (-23449 # 100000) (46932 # 1000000) (62 # 10) (-11543 # 10000) (11847 # 100000) (-2897 # 1000000) (45 # 10) (1 # 1) (541 # 100) (0 # 1) (23988 # 10000000) (-28483 # 10000000) (-98925 # 100000) (119459 # 100) (760 # 1) (0 # 1) (1 # 10) (-16601 # 100000) (-758 # 100000) (-99 # 10) (-99 # 10) (10561 # 100) (26474 # 100) (108 # 1000) (66 # 1000) (225 # 1) (300 # 1) (61 # 100) (603 # 1000) (417 # 1000) (229 # 1000);
  Mk_bssa14_row (6 # 10) (84165 # 100000) (86715 # 100000) (63875 # 100000) (87351 # 100000) (11336 # 10000) (-23128 # 100000) (62667 # 1000000) (62 # 10) (-11615 # 10000) (11671 # 100000) (-261 # 100000) (45 # 10) (1 # 1) (548 # 100) (0 # 1) (24515 # 10000000) (-27892 # 10000000) (-10012 # 10000) (118493 # 100) (760 # 1) (0 # 1) (1 # 10) (-1583 # 10000) (-773 # 100000) (-99 # 10) (-99 # 10) (10583 # 100) (26483 # 100) (106 # 1000) (71 # 1000) (225 # 1) (300 # 1) (605 # 1000) (607 # 1000) (424 # 1000) (235 # 1000);
  Mk_bssa14_row (65 # 100) (78181 # 100000) (80876 # 100000) (58231 # 100000) (80948 # 100000) (11861 # 10000) (-22666 # 100000) (77997 # 1000000) (62 # 10) (-11676 # 10000) (11465 # 100000) (-2356 # 1000000) (45 # 10) (1 # 1) (553 # 100) (0 # 1) (2508 # 1000000) (-27273 # 10000000) (-10078 # 10000) (117519 # 100) (760 # 1) (0 # 1) (1 # 10) (-15144 # 100000) (-787 # 100000) (58286 # 10000000) (3762 # 1000000) (1062 # 10) (2652 # 10) (105 # 1000) (73 # 1000) (225 # 1) (300 # 1) (599 # 1000) (611 # 1000) (431 # 1000) (243 # 1000);
  Mk_bssa14_row (667 # 1000) (76262 # 100000) (78994 # 100000) (56422 # 100000) (78916 # 100000) (12035 # 10000) (-22497 # 100000) (83058 # 1000000) (62 # 10) (-11694 # 10000) (11394 # 100000) (-2276 # 1000000) (45 # 10) (1 # 1) (554 # 100) (0 # 1) (2568 # 1000000) (-26618 # 10000000) (-10093 # 10000) (116569 # 100) (760 # 1) (0 # 1) (1 # 10) (-14923 # 100000) (-792 # 100000) (26446 # 1000000) (171 # 10000) (10675 # 100) (26538 # 100) (103 # 1000) (74 # 1000) (225 # 1) (300 # 1) (593 # 1000) (615 # 1000) (44 # 100) (25 # 100);
  Mk_bssa14_row (7 # 10) (72513 # 100000) (75302 # 100000) (52878 # 100000) (74985 # 100000) (12375 # 10000) (-22143 # 100000) (93185 # 1000000) (62 # 10) (-11728 # 10000) (11253 # 100000) (-2131 # 1000000) (45 # 10) (1 # 1) (556 # 100) (0 # 1) (2629 # 1000000) (-25953 # 10000000) (-10117 # 10000) (115646 # 100) (760 # 1) (0 # 1) (1 # 10) (-14503 # 100000) (-8 # 1000) (55495 # 1000000) (35728 # 1000000) (10748 # 100) (26578 # 100) (102 # 1000) (73 # 1000) (225 # 1) (300 # 1) (587 # 1000) (619 # 1000) (448 # 1000) (258 # 1000);
  Mk_bssa14_row (75 # 100) (66903 # 100000) (69737 # 100000) (47523 # 100000) (69173 # 100000) (12871 # 10000) (-21591 # 100000) (10829 # 100000) (62 # 10) (-11777 # 10000) (11054 # 100000) (-1931 # 1000000) (45 # 10) (1 # 1) (56 # 10) (0 # 1) (269 # 100000) (-25271 # 10000000) (-10154 # 10000) (114759 # 100) (760 # 1) (0 # 1) (1 # 10) (-13866 # 100000) (-812 # 100000) (92259 # 1000000) (59024 # 1000000) (10839 # 100) (26651 # 100) (1 # 10) (7 # 100) (225 # 1) (300 # 1) (581 # 1000) (622 # 1000) (457 # 1000) (266 # 1000);
  Mk_bssa14_row (8 # 10) (61346 # 100000) (64196 # 100000) (42173 # 100000) (63519 # 100000) (13341 # 10000) (-21047 # 100000) (12256 # 100000) (62 # 10) (-11819 # 10000) (10873 # 100000) (-1754 # 1000000) (45 # 10) (1 # 1) (563 # 100) (0 # 1) (27464 # 10000000) (-24561 # 10000000) (-1021 # 1000) (113921 # 100) (760 # 1) (0 # 1) (1 # 10) (-13201 # 100000) (-822 # 100000) (1404 # 10000) (88481 # 1000000) (10962 # 100) (26732 # 100) (99 # 1000) (63 # 1000) (225 # 1) (300 # 1) (576 # 1000) (624 # 1000) (466 # 1000) (274 # 1000);
  Mk_bssa14_row (85 # 100) (55853 # 100000) (58698 # 100000) (36813 # 100000) (57969 # 100000) (1378 # 1000) (-20528 # 100000) (13608 # 100000) (62 # 10) (-11854 # 10000) (10709 # 100000) (-1597 # 1000000) (45 # 10) (1 # 1) (566 # 100) (0 # 1) (27973 # 10000000) (-23787 # 10000000) (-10282 # 10000) (113134 # 100) (760 # 1) (0 # 1) (1 # 10) (-12517 # 100000) (-83 # 10000) (19495 # 100000) (12029 # 100000) (11108 # 100) (26814 # 100) (99 # 1000) (53 # 1000) (225 # 1) (300 # 1) (57 # 100) (625 # 1000) (475 # 1000) (281 # 1000);
  Mk_bssa14_row (9 # 10) (50296 # 100000) (53136 # 100000) (31376 # 100000) (52361 # 100000) (14208 # 10000) (-20011 # 100000) (14983 # 100000) (62 # 10) (-11884 # 10000) (10548 # 100000) (-1456 # 1000000) (45 # 10) (1 # 1) (569 # 100) (0 # 1) (28428 # 10000000) (-22932 # 10000000) (-1036 # 1000) (112391 # 100) (760 # 1) (0 # 1) (1 # 10) (-11831 # 100000) (-836 # 100000) (25203 # 100000) (15159 # 100000) (11271 # 100) (2689 # 10) (98 # 1000) (42 # 1000) (225 # 1) (300 # 1) (564 # 1000) (626 # 1000) (483 # 1000) (288 # 1000);
  Mk_bssa14_row (95 # 100) (44701 # 100000) (47541 # 100000) (25919 # 100000) (46706 # 100000) (14623 # 10000) (-1949 # 10000) (16432 # 100000) (62 # 10) (-11909 # 10000) (10389 # 100000) (-1328 # 1000000) (45 # 10) (1 # 1) (572 # 100) (0 # 1) (28847 # 10000000) (-21958 # 10000000) (-10436 # 10000) (111683 # 100) (760 # 1) (0 # 1) (1 # 10) (-1116 # 10000) (-841 # 100000) (3094 # 10000) (18077 # 100000) (1145 # 10) (26955 # 100) (98 # 1000) (3 # 100) (225 # 1) (300 # 1) (558 # 1000) (626 # 1000) (491 # 1000) (294 # 1000);
  Mk_bssa14_row (1 # 1) (3932 # 10000) (4218 # 10000) (207 # 1000) (4124 # 10000) (15004 # 10000) (-18983 # 100000) (17895 # 100000) (62 # 10) (-1193 # 1000) (10248 # 100000) (-121 # 100000) (45 # 10) (1 # 1) (574 # 100) (0 # 1) (29211 # 10000000) (-20894 # 10000000) (-105 # 100) (110995 # 100) (760 # 1) (0 # 1) (1 # 10) (-10521 # 100000) (-844 # 100000) (36695 # 100000) (20789 # 100000) (11639 # 100) (270 # 1) (98 # 1000) (2 # 100) (225 # 1) (300 # 1) (553 # 1000) (625 # 1000) (498 # 1000) (298 # 1000);
  Mk_bssa14_row (11 # 10) (28484 # 100000) (31374 # 100000) (10182 # 100000) (30209 # 100000) (1569 # 1000) (-18001 # 100000) (21042 # 100000) (62 # 10) (-11966 # 10000) (10016 # 100000) (-994 # 1000000) (45 # 10) (1 # 1) (582 # 100) (0 # 1) (29539 # 10000000) (-19774 # 10000000) (-10573 # 10000) (110307 # 100) (760 # 1) (0 # 1) (1 # 10) (-93837 # 1000000) (-847 # 100000) (42452 # 100000) (2331 # 10000) (1183 # 10) (27018 # 100) (99 # 1000) (7 # 1000) (225 # 1) (300 # 1) (548 # 1000) (624 # 1000) (505 # 1000) (302 # 1000);
  Mk_bssa14_row (12 # 10) (1734 # 10000) (20259 # 100000) (-6195 # 1000000) (18866 # 100000) (16282 # 10000) (-1709 # 10000) (2441 # 10000) (62 # 10) (-11996 # 10000) (98482 # 1000000) (-803 # 1000000) (45 # 10) (1 # 1) (592 # 100) (0 # 1) (29821 # 10000000) (-18619 # 10000000) (-10584 # 10000) (109604 # 100) (760 # 1) (0 # 1) (1 # 10) (-84144 # 1000000) (-842 # 100000) (48116 # 100000) (25606 # 100000) (12019 # 100) (26942 # 100) (1 # 10) (2 # 1000) (225 # 1) (300 # 1) (543 # 1000) (623 # 1000) (511 # 1000) (306 # 1000);
  Mk_bssa14_row (13 # 10) (6152 # 100000) (9106 # 100000) (-11345 # 100000) (7433 # 100000) (16794 # 10000) (-16233 # 100000) (27799 # 100000) (62 # 10) (-12018 # 10000) (97375 # 1000000) (-635 # 1000000) (45 # 10) (1 # 1) (601 # 100) (0 # 1) (30066 # 10000000) (-17454 # 10000000) (-10554 # 10000) (108867 # 100) (760 # 1) (0 # 1) (1 # 10) (-75819 # 1000000) (-829 # 100000) (53597 # 100000) (27648 # 100000) (12201 # 100) (26782 # 100) (101 # 1000) (3 # 1000) (225 # 1) (300 # 1) (539 # 1000) (622 # 1000) (516 # 1000) (309 # 1000);
  Mk_bssa14_row (14 # 10) (-4575 # 100000) (-157 # 10000) (-2155 # 10000) (-3607 # 100000) (17239 # 10000) (-15413 # 100000) (30956 # 100000) (62 # 10) (-12039 # 10000) (96743 # 1000000) (-49 # 100000) (45 # 10) (1 # 1) (61 # 10) (0 # 1) (30258 # 10000000) (-16298 # 10000000) (-10504 # 10000) (108077 # 100) (760 # 1) (0 # 1) (1 # 10) (-68543 # 1000000) (-806 # 100000) (58832 # 100000) (29424 # 100000) (12375 # 100) (26545 # 100) (102 # 1000) (6 # 1000) (225 # 1) (300 # 1) (535 # 1000) (62 # 100) (521 # 1000) (312 # 1000);
  Mk_bssa14_row (15 # 10) (-14954 # 100000) (-11866 # 100000) (-3138 # 10000) (-1437 # 10000) (17622 # 10000) (-1467 # 10000) (33896 # 100000) (62 # 10) (-12063 # 10000) (96445 # 1000000) (-365 # 1000000) (45 # 10) (1 # 1) (618 # 100) (0 # 1) (30394 # 10000000) (-15179 # 10000000) (-10454 # 10000) (107239 # 100) (760 # 1) (0 # 1) (1 # 10) (-62 # 1000) (-771 # 100000) (63789 # 100000) (30944 # 100000) (12538 # 100) (26241 # 100) (104 # 1000) (1 # 100) (225 # 1) (300 # 1) (532 # 1000) (619 # 1000) (525 # 1000) (315 # 1000);
  Mk_bssa14_row (16 # 10) (-2486 # 10000) (-21672 # 100000) (-40682 # 100000) (-24708 # 100000) (17955 # 10000) (-13997 # 100000) (36616 # 100000) (62 # 10) (-12086 # 10000) (96338 # 1000000) (-259 # 1000000) (45 # 10) (1 # 1) (626 # 100) (0 # 1) (30412 # 10000000) (-14114 # 10000000) (-10421 # 10000) (106177 # 100) (760 # 1) (0 # 1) (1 # 10) (-55927 # 1000000) (-723 # 100000) (68889 # 100000) (32449 # 100000) (1269 # 10) (25878 # 100) (105 # 1000) (12 # 1000) (225 # 1) (300 # 1) (529 # 1000) (618 # 1000) (528 # 1000) (318 # 1000);
  Mk_bssa14_row (17 # 10) (-34145 # 100000) (-3084 # 10000) (-49295 # 100000) (-34465 # 100000) (18259 # 10000) (-13361 # 100000) (39065 # 100000) (62 # 10) (-12106 # 10000) (96254 # 1000000) (-171 # 1000000) (45 # 10) (1 # 1) (633 # 100) (0 # 1) (30258 # 10000000) (-13231 # 10000000) (-10404 # 10000) (104929 # 100) (760 # 1) (0 # 1) (1 # 10) (-50286 # 1000000) (-666 # 100000) (73578 # 100000) (3372 # 10000) (12814 # 100) (25466 # 100) (106 # 1000) (12 # 1000) (225 # 1) (300 # 1) (527 # 1000) (618 # 1000) (53 # 100) (321 # 1000);
  Mk_bssa14_row (18 # 10) (-42975 # 100000) (-39558 # 100000) (-57388 # 100000) (-43818 # 100000) (18564 # 10000) (-12686 # 100000) (41244 # 100000) (62 # 10) (-12123 # 10000) (96207 # 1000000) (-99 # 1000000) (45 # 10) (1 # 1) (64 # 10) (0 # 1) (30003 # 10000000) (-12531 # 10000000) (-10397 # 10000) (103642 # 100) (760 # 1) (0 # 1) (1 # 10) (-45096 # 1000000) (-603 # 100000) (77992 # 100000) (34963 # 100000) (12911 # 100) (25011 # 100) (106 # 1000) (12 # 1000) (225 # 1) (300 # 1) (526 # 1000) (618 # 1000) (531 # 1000) (323 # 1000);
  Mk_bssa14_row (19 # 10) (-51276 # 100000) (-47731 # 100000) (-64899 # 100000) (-52682 # 100000) (18868 # 10000) (-11959 # 100000) (43151 # 100000) (62 # 10) (-12141 # 10000) (96255 # 1000000) (-42 # 1000000) (45 # 10) (1 # 1) (648 # 100) (0 # 1) (29675 # 10000000) (-12012 # 10000000) (-10395 # 10000) (102314 # 100) (760 # 1) (0 # 1) (1 # 10) (-40373 # 1000000) (-54 # 10000) (82427 # 100000) (36413 # 100000) (12986 # 100) (24525 # 100) (106 # 1000) (1 # 100) (225 # 1) (300 # 1) (526 # 1000) (618 # 1000) (532 # 1000) (326 # 1000);
  Mk_bssa14_row (2 # 1) (-58669 # 100000) (-55003 # 100000) (-71466 # 100000) (-60658 # 100000) (19152 # 10000) (-11237 # 100000) (44788 # 100000) (62 # 10) (-12159 # 10000) (96361 # 1000000) (0 # 1) (45 # 10) (1 # 1) (654 # 100) (0 # 1) (29229 # 10000000) (-11703 # 10000000) (-10392 # 10000) (100949 # 100) (760 # 1) (0 # 1) (1 # 10) (-36136 # 1000000) (-479 # 100000) (87138 # 100000) (38245 # 100000) (13037 # 100) (24014 # 100) (105 # 1000) (8 # 1000) (225 # 1) (300 # 1) (526 # 1000) (618 # 1000) (532 # 1000) (329 # 1000);
  Mk_bssa14_row (22 # 10) (-72143 # 100000) (-6822 # 10000) (-83003 # 100000) (-75402 # 100000) (19681 # 10000) (-98017 # 1000000) (48024 # 100000) (62 # 10) (-1219 # 1000) (96497 # 1000000) (0 # 1) (45 # 10) (1 # 1) (666 # 100) (0 # 1) (28701 # 10000000) (-11566 # 10000000) (-10368 # 10000) (99552 # 100) (760 # 1) (0 # 1) (1 # 10) (-29105 # 1000000) (-378 # 100000) (92033 # 100000) (40402 # 100000) (13067 # 100) (22955 # 100) (103 # 1000) (5 # 1000) (225 # 1) (300 # 1) (527 # 1000) (619 # 1000) (533 # 1000) (332 # 1000);
  Mk_bssa14_row (24 # 10) (-8481 # 10000) (-8069 # 10000) (-9326 # 10000) (-8941 # 10000) (2017 # 1000) (-83765 # 1000000) (51873 # 100000) (62 # 10) (-12202 # 10000) (96198 # 1000000) (0 # 1) (45 # 10) (1 # 1) (673 # 100) (0 # 1) (28146 # 10000000) (-11548 # 10000000) (-10323 # 10000) (98133 # 100) (760 # 1) (0 # 1) (1 # 10) (-2371 # 100000) (-302 # 100000) (96931 # 100000) (42742 # 100000) (13081 # 100) (21905 # 100) (1 # 10) (3 # 1000) (225 # 1) (300 # 1) (528 # 1000) (619 # 1000) (533 # 1000) (335 # 1000);
  Mk_bssa14_row (25 # 10) (-90966 # 100000) (-86765 # 100000) (-98228 # 100000) (-96187 # 100000) (20406 # 10000) (-76308 # 1000000) (53883 # 100000) (62 # 10) (-12201 # 10000) (96106 # 1000000) (0 # 1) (45 # 10) (1 # 1) (677 # 100) (0 # 1) (27609 # 10000000) (-11593 # 10000000) (-10294 # 10000) (96694 # 100) (760 # 1) (0 # 1) (1 # 10) (-21509 # 1000000) (-272 # 100000) (10167 # 10000) (45142 # 100000) (13081 # 100) (21404 # 100) (97 # 1000) (2 # 1000) (225 # 1) (300 # 1) (53 # 100) (619 # 1000) (534 # 1000) (337 # 1000);
  Mk_bssa14_row (26 # 10) (-96863 # 100000) (-92577 # 100000) (-10313 # 10000) (-10266 # 10000) (20628 # 10000) (-68925 # 1000000) (5581 # 10000) (62 # 10) (-12198 # 10000) (96136 # 1000000) (0 # 1) (45 # 10) (1 # 1) (681 # 100) (0 # 1) (27082 # 10000000) (-11684 # 10000000) (-10262 # 10000) (95234 # 100) (760 # 1) (0 # 1) (1 # 10) (-19576 # 1000000) (-246 # 100000) (10601 # 10000) (47422 # 100000) (13072 # 100) (20932 # 100) (94 # 1000) (1 # 1000) (225 # 1) (300 # 1) (531 # 1000) (62 # 100) (535 # 1000) (34 # 100);
  Mk_bssa14_row (28 # 10) (-10817 # 10000) (-10367 # 10000) (-11301 # 10000) (-11495 # 10000) (21014 # 10000) (-55229 # 1000000) (59394 # 100000) (62 # 10) (-12189 # 10000) (96667 # 1000000) (0 # 1) (45 # 10) (1 # 1) (687 # 100) (0 # 1) (26581 # 10000000) (-11803 # 10000000) (-1019 # 1000) (93752 # 100) (760 # 1) (0 # 1) (1 # 10) (-16324 # 1000000) (-208 # 100000) (1099 # 1000) (49536 # 100000) (13057 # 100) (20108 # 100) (91 # 1000) (0 # 1) (225 # 1) (300 # 1) (532 # 1000) (619 # 1000) (536 # 1000) (342 # 1000);
  Mk_bssa14_row (3 # 1) (-11898 # 10000) (-1142 # 1000) (-123 # 100) (-12664 # 10000) (21323 # 10000) (-4332 # 100000) (62694 # 100000) (62 # 10) (-12179 # 10000) (97638 # 1000000) (0 # 1) (45 # 10) (1 # 1) (693 # 100) (0 # 1) (26163 # 10000000) (-11885 # 10000000) (-10112 # 10000) (92243 # 100) (760 # 1) (0 # 1) (1 # 10) (-13577 # 1000000) (-183 # 100000) (11348 # 10000) (51585 # 100000) (13036 # 100) (195 # 1) (88 # 1000) (0 # 1) (225 # 1) (300 # 1) (534 # 1000) (619 # 1000) (537 # 1000) (344 # 1000);
  Mk_bssa14_row (32 # 10) (-12914 # 10000) (-12406 # 10000) (-13255 # 10000) (-1376 # 1000) (21545 # 10000) (-3444 # 100000) (65811 # 100000) (62 # 10) (-12169 # 10000) (98649 # 1000000) (-23 # 1000000) (45 # 10) (1 # 1) (699 # 100) (0 # 1) (2588 # 1000000) (-11921 # 10000000) (-10032 # 10000) (90879 # 100) (760 # 1) (0 # 1) (1 # 10) (-1103 # 100000) (-167 # 100000) (11638 # 10000) (53411 # 100000) (13013 # 100) (19161 # 100) (84 # 1000) (0 # 1) (225 # 1) (300 # 1) (535 # 1000) (618 # 1000) (538 # 1000) (345 # 1000);
  Mk_bssa14_row (34 # 10) (-1386 # 1000) (-13322 # 10000) (-1415 # 1000) (-14786 # 10000) (21704 # 10000) (-27889 # 1000000) (68755 # 100000) (62 # 10) (-1216 # 1000) (99553 # 1000000) (-4 # 100000) (45 # 10) (1 # 1) (708 # 100) (0 # 1) (25753 # 10000000) (-11866 # 10000000) (-99512 # 100000) (89615 # 100) (760 # 1) (0 # 1) (1 # 10) (-86652 # 10000000) (-158 # 100000) (11882 # 10000) (55145 # 100000) (1299 # 10) (19073 # 100) (81 # 1000) (0 # 1) (225 # 1) (300 # 1) (535 # 1000) (618 # 1000) (54 # 100) (346 # 1000);
  Mk_bssa14_row (35 # 10) (-14332 # 10000) (-13778 # 10000) (-14599 # 10000) (-15297 # 10000) (21775 # 10000) (-24997 # 1000000) (70216 # 100000) (62 # 10) (-12156 # 10000) (99989 # 1000000) (-45 # 1000000) (45 # 10) (1 # 1) (712 # 100) (0 # 1) (25717 # 10000000) (-11739 # 10000000) (-991 # 1000) (88316 # 100) (760 # 1) (0 # 1) (1 # 10) (-75682 # 10000000) (-155 # 100000) (12114 # 10000) (56981 # 100000) (12971 # 100) (19111 # 100) (78 # 1000) (0 # 1) (225 # 1) (300 # 1) (536 # 1000) (617 # 1000) (541 # 1000) (347 # 1000);
  Mk_bssa14_row (36 # 10) (-14762 # 10000) (-14193 # 10000) (-15014 # 10000) (-15764 # 10000) (21834 # 10000) (-22575 # 1000000) (71523 # 100000) (62 # 10) (-12156 # 10000) (10043 # 100000) (-49 # 1000000) (45 # 10) (1 # 1) (716 # 100) (0 # 1) (25735 # 10000000) (-11539 # 10000000) (-98682 # 100000) (87005 # 100) (760 # 1) (0 # 1) (1 # 10) (-65374 # 10000000) (-154 # 100000) (12336 # 10000) (58932 # 100000) (12956 # 100) (19198 # 100) (75 # 1000) (0 # 1) (225 # 1) (300 # 1) (536 # 1000) (616 # 1000) (542 # 1000) (348 # 1000);
  Mk_bssa14_row (38 # 10) (-15617 # 10000) (-15014 # 10000) (-15865 # 10000) (-16685 # 10000) (21938 # 10000) (-18362 # 1000000) (74028 # 100000) (62 # 10) (-12158 # 10000) (10142 # 100000) (-53 # 1000000) (45 # 10) (1 # 1) (724 # 100) (0 # 1) (25862 # 10000000) (-11229 # 10000000) (-97826 # 100000) (85707 # 100) (760 # 1) (0 # 1) (1 # 10) (-47016 # 10000000) (-152 # 100000) (12534 # 10000) (60918 # 100000) (12949 # 100) (19501 # 100) (72 # 1000) (0 # 1) (225 # 1) (300 # 1) (536 # 1000) (616 # 1000) (543 # 1000) (349 # 1000);
  Mk_bssa14_row (4 # 1) (-16388 # 10000) (-15748 # 10000) (-16673 # 10000) (-17516 # 10000) (2204 # 1000) (-14642 # 1000000) (76303 # 100000) (62 # 10) (-12162 # 10000) (10218 # 100000) (-52 # 1000000) (45 # 10) (1 # 1) (732 # 100) (0 # 1) (26053 # 10000000) (-10829 # 10000000) (-96938 # 100000) (84448 # 100) (760 # 1) (0 # 1) (1 # 10) (-32123 # 10000000) (-152 # 100000) (12711 # 10000) (62939 # 100000) (12949 # 100) (19945 # 100) (7 # 100) (0 # 1) (225 # 1) (300 # 1) (536 # 1000) (616 # 1000) (543 # 1000) (349 # 1000);
  Mk_bssa14_row (42 # 10) (-17116 # 10000) (-16439 # 10000) (-17451 # 10000) (-1829 # 1000) (22123 # 10000) (-12248 # 1000000) (78552 # 100000) (62 # 10) (-12165 # 10000) (10269 # 100000) (-47 # 1000000) (45 # 10) (1 # 1) (739 # 100) (0 # 1) (2619 # 1000000) (-10247 # 10000000) (-96012 # 100000) (83245 # 100) (760 # 1) (0 # 1) (1 # 10) (-21033 # 10000000) (-152 # 100000) (1287 # 1000) (65157 # 100000) (12957 # 100) (20493 # 100) (68 # 1000) (0 # 1) (225 # 1) (300 # 1) (535 # 1000) (616 # 1000) (542 # 1000) (349 # 1000);
  Mk_bssa14_row (44 # 10) (-17798 # 10000) (-17089 # 10000) (-18192 # 10000) (-19011 # 10000) (22181 # 10000) (-11459 # 1000000) (80792 # 100000) (62 # 10) (-12169 # 10000) (10304 # 100000) (-39 # 1000000) (45 # 10) (1 # 1) (746 # 100) (0 # 1) (26235 # 10000000) (-9464 # 10000000) (-95049 # 100000) (82118 # 100) (760 # 1) (0 # 1) (1 # 10) (-13244 # 10000000) (-15 # 10000) (13004 # 10000) (67421 # 100000) (12971 # 100) (21109 # 100) (66 # 1000) (0 # 1) (225 # 1) (300 # 1) (534 # 1000) (617 # 1000) (54 # 100) (347 # 1000);
  Mk_bssa14_row (46 # 10) (-18469 # 10000) (-17731 # 10000) (-18923 # 10000) (-19712 # 10000) (2223 # 1000) (-1176 # 100000) (83126 # 100000) (62 # 10) (-12175 # 10000) (10324 # 100000) (-27 # 1000000) (45 # 10) (1 # 1) (752 # 100) (0 # 1) (26217 # 10000000) (-84448 # 100000000) (-9405 # 10000) (81079 # 100) (760 # 1) (0 # 1) (1 # 10) (-80422 # 100000000) (-148 # 100000) (13125 # 10000) (69698 # 100000) (12987 # 100) (21756 # 100) (64 # 1000) (0 # 1) (225 # 1) (300 # 1) (533 # 1000) (619 # 1000) (538 # 1000) (345 # 1000);
  Mk_bssa14_row (48 # 10) (-19063 # 10000) (-18303 # 10000) (-19573 # 10000) (-20326 # 10000) (22268 # 10000) (-12879 # 1000000) (8524 # 10000) (62 # 10) (-12182 # 10000) (10337 # 100000) (-14 # 1000000) (45 # 10) (1 # 1) (764 # 100) (0 # 1) (26153 # 10000000) (-71799 # 100000000) (-93018 # 100000) (80141 # 100) (760 # 1) (0 # 1) (1 # 10) (-47145 # 100000000) (-146 # 100000) (13225 # 10000) (71888 # 100000) (13005 # 100) (22399 # 100) (63 # 1000) (0 # 1) (225 # 1) (300 # 1) (531 # 1000) (621 # 1000) (535 # 1000) (341 # 1000);
  Mk_bssa14_row (5 # 1) (-1966 # 1000) (-18882 # 10000) (-20245 # 10000) (-20928 # 10000) (22299 # 10000) (-14855 # 1000000) (87314 # 100000) (62 # 10) (-12189 # 10000) (10353 # 100000) (0 # 1) (45 # 10) (1 # 1) (778 # 100) (0 # 1) (26035 # 10000000) (-57148 # 100000000) (-91954 # 100000) (79313 # 100) (760 # 1) (0 # 1) (1 # 10) (-2548 # 10000000) (-144 # 100000) (13289 # 10000) (73806 # 100000) (13022 # 100) (230 # 1) (61 # 1000) (0 # 1) (225 # 1) (300 # 1) (528 # 1000) (622 # 1000) (532 # 1000) (335 # 1000);
  Mk_bssa14_row (55 # 10) (-21051 # 10000) (-20232 # 10000) (-21908 # 10000) (-22288 # 10000) (22389 # 10000) (-19502 # 1000000) (91466 # 100000) (62 # 10) (-12204 # 10000) (1046 # 10000) (0 # 1) (45 # 10) (1 # 1) (807 # 100) (0 # 1) (25908 # 10000000) (-40768 # 100000000) (-89176 # 100000) (78573 # 100) (760 # 1) (0 # 1) (1 # 10) (72383 # 1000000000) (-14 # 10000) (1345 # 1000) (7779 # 10000) (13039 # 100) (24186 # 100) (6 # 100) (0 # 1) (225 # 1) (300 # 1) (526 # 1000) (624 # 1000) (528 # 1000) (329 # 1000);
  Mk_bssa14_row (6 # 1) (-22421 # 10000) (-21563 # 10000) (-23659 # 10000) (-23579 # 10000) (22377 # 10000) (-26383 # 1000000) (9487 # 10000) (62 # 10) (-12232 # 10000) (1075 # 10000) (0 # 1) (45 # 10) (1 # 1) (848 # 100) (0 # 1) (25835 # 10000000) (-22841 # 100000000) (-86286 # 100000) (77991 # 100) (760 # 1) (0 # 1) (1 # 10) (1877 # 10000000) (-138 # 100000) (13496 # 10000) (80278 # 100000) (13053 # 100) (24934 # 100) (59 # 1000) (0 # 1) (225 # 1) (300 # 1) (524 # 1000) (625 # 1000) (524 # 1000) (321 # 1000);
  Mk_bssa14_row (65 # 10) (-23686 # 10000) (-22785 # 10000) (-25322 # 10000) (-2477 # 1000) (2215 # 1000) (-39505 # 1000000) (97643 # 100000) (62 # 10) (-12299 # 10000) (11231 # 100000) (0 # 1) (45 # 10) (1 # 1) (89 # 10) (0 # 1) (25862 # 10000000) (-364 # 10000000) (-83355 # 100000) (7756 # 10) (760 # 1) (0 # 1) (1 # 10) (15945 # 100000000) (-137 # 100000) (13489 # 10000) (8148 # 10000) (13063 # 100) (25294 # 100) (59 # 1000) (0 # 1) (225 # 1) (300 # 1) (52 # 100) (634 # 1000) (517 # 1000) (312 # 1000);
  Mk_bssa14_row (7 # 1) (-24827 # 10000) (-23881 # 10000) (-26818 # 10000) (-25854 # 10000) (2172 # 1000) (-5914 # 100000) (99757 # 100000) (62 # 10) (-12408 # 10000) (11853 # 100000) (0 # 1) (45 # 10) (1 # 1) (92 # 10) (0 # 1) (26026 # 10000000) (16835 # 100000000) (-80457 # 100000) (77268 # 100) (760 # 1) (0 # 1) (1 # 10) (5592 # 100000000) (-137 # 100000) (13422 # 10000) (81615 # 100000) (1307 # 10) (25312 # 100) (59 # 1000) (0 # 1) (225 # 1) (300 # 1) (515 # 1000) (636 # 1000) (514 # 1000) (302 # 1000);
  Mk_bssa14_row (75 # 10) (-25865 # 10000) (-24874 # 10000) (-28176 # 10000) (-26854 # 10000) (21187 # 10000) (-81606 # 1000000) (10121 # 10000) (62 # 10) (-12543 # 10000) (12507 # 100000) (0 # 1) (45 # 10) (1 # 1) (948 # 100) (0 # 1) (26 # 10000) (38493 # 100000000) (-77665 # 100000) (77101 # 100) (760 # 1) (0 # 1) (1 # 10) (-546 # 10000000) (-137 # 100000) (13288 # 10000) (809 # 1000) (13072 # 100) (25039 # 100) (58 # 1000) (0 # 1) (225 # 1) (300 # 1) (512 # 1000) (634 # 1000) (511 # 1000) (27 # 100);
  Mk_bssa14_row (8 # 1) (-26861 # 10000) (-25829 # 10000) (-29438 # 10000) (-27823 # 10000) (20613 # 10000) (-10382 # 100000) (10232 # 10000) (62 # 10) (-12688 # 10000) (13146 # 100000) (0 # 1) (45 # 10) (1 # 1) (957 # 100) (0 # 1) (263 # 100000) (72 # 100000) (-75033 # 100000) (76081 # 100) (760 # 1) (0 # 1) (1 # 10) (-11724 # 100000000) (-137 # 100000) (13084 # 10000) (79538 # 100000) (13087 # 100) (24523 # 100) (59 # 1000) (0 # 1) (225 # 1) (300 # 1) (51 # 100) (63 # 100) (507 # 1000) (278 # 1000);
  Mk_bssa14_row (85 # 10) (-2782 # 1000) (-26752 # 10000) (-30597 # 10000) (-28776 # 10000) (20084 # 10000) (-12114 # 100000) (10335 # 10000) (62 # 10) (-12839 # 10000) (13742 # 100000) (0 # 1) (45 # 10) (1 # 1) (962 # 100) (0 # 1) (267 # 100000) (94 # 100000) (-72544 # 100000) (7645 # 10) (760 # 1) (0 # 1) (1 # 10) (-13084 # 100000000) (-137 # 100000) (12822 # 10000) (77671 # 100000) (13071 # 100) (23813 # 100) (59 # 1000) (0 # 1) (225 # 1) (300 # 1) (509 # 1000) (622 # 1000) (503 # 1000) (265 # 1000);
  Mk_bssa14_row (9 # 1) (-28792 # 10000) (-27687 # 10000) (-31713 # 10000) (-29759 # 10000) (19605 # 10000) (-13407 # 100000) (10453 # 10000) (62 # 10) (-12989 # 10000) (14294 # 100000) (0 # 1) (45 # 10) (1 # 1) (966 # 100) (0 # 1) (276 # 100000) (113 # 100000) (-70161 # 100000) (76807 # 100) (760 # 1) (0 # 1) (1 # 10) (-10766 # 100000000) (-137 # 100000) (12515 # 10000) (75425 # 100000) (1305 # 10) (22956 # 100) (6 # 100) (0 # 1) (225 # 1) (300 # 1) (509 # 1000) (613 # 1000) (498 # 1000) (252 # 1000);
  Mk_bssa14_row (95 # 10) (-29769 # 10000) (-28634 # 10000) (-32785 # 10000) (-3076 # 1000) (19189 # 10000) (-14364 # 100000) (10567 # 10000) (62 # 10) (-1313 # 1000) (14781 # 100000) (0 # 1) (45 # 10) (1 # 1) (966 # 100) (0 # 1) (289 # 100000) (131 # 100000) (-6785 # 10000) (77155 # 100) (760 # 1) (0 # 1) (1 # 10) (-59962 # 1000000000) (-136 # 100000) (12179 # 10000) (72925 # 100000) (13026 # 100) (22002 # 100) (6 # 100) (0 # 1) (225 # 1) (300 # 1) (509 # 1000) (604 # 1000) (492 # 1000) (239 # 1000);
  Mk_bssa14_row (10 # 1) (-30702 # 10000) (-29537 # 10000) (-33776 # 10000) (-31726 # 10000) (18837 # 10000) (-15096 # 100000) (10651 # 10000) (62 # 10) (-13253 # 10000) (15183 # 100000) (0 # 1) (45 # 10) (1 # 1) (966 # 100) (0 # 1) (303 # 100000) (149 # 100000) (-65575 # 100000) (775 # 1) (760 # 1) (0 # 1) (1 # 10) (0 # 1) (-136 # 100000) (11829 # 10000) (703 # 1000) (130 # 1) (210 # 1) (6 # 100) (0 # 1) (225 # 1) (300 # 1) (51 # 100) (604 # 1000) (487 # 1000) (239 # 1000)
].

