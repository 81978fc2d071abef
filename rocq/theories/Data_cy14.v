(** Generated by tools/gen_data.py - do not edit.
    Coefficient tables, exact decimals as in the data files. *)
From Coq Require Import QArith List.
Import ListNotations.
Open Scope Q_scope.

(** One row of data/chiou_youngs_2014.csv; the field names are the column names of the file
    (load_data_file, model.py:526-538). *)
Record cy14_row := Mk_cy14_row {
  cy14_period : Q;
  cy14_c_1 : Q;
  cy14_c_1a : Q;
  cy14_c_1b : Q;
  cy14_c_1c : Q;
  cy14_c_1d : Q;
  cy14_c_2 : Q;
  cy14_c_3 : Q;
  cy14_c_4 : Q;
  cy14_c_4a : Q;
  cy14_c_5 : Q;
  cy14_c_6 : Q;
  cy14_c_7 : Q;
  cy14_c_7b : Q;
  cy14_c_8 : Q;
  cy14_c_8a : Q;
  cy14_c_8b : Q;
  cy14_c_9 : Q;
  cy14_c_9a : Q;
  cy14_c_9b : Q;
  cy14_c_11 : Q;
  cy14_c_11b : Q;
  cy14_c_hm : Q;
  cy14_c_m : Q;
  cy14_c_n : Q;
  cy14_c_rb : Q;
  cy14_c_gamma1 : Q;
  cy14_c_gamma2 : Q;
  cy14_c_gamma3 : Q;
  cy14_gamma_ji : Q;
  cy14_gamma_c : Q;
  cy14_phi_1 : Q;
  cy14_phi_1jp : Q;
  cy14_phi_2 : Q;
  cy14_phi_3 : Q;
  cy14_phi_4 : Q;
  cy14_phi_5 : Q;
  cy14_phi_5jp : Q;
  cy14_phi_6 : Q;
  cy14_phi_6jp : Q;
  cy14_tau_1 : Q;
  cy14_tau_2 : Q;
  cy14_sigma_1 : Q;
  cy14_sigma_2 : Q;
  cy14_sigma_2jp : Q;
  cy14_sigma_3 : Q
}.

(** chiou_youngs_2014.py:34: data/chiou_youngs_2014.csv lines 4-29 (26 rows) *)
Definition cy14_coeff : list cy14_row := [
  Mk_cy14_row (1 # 100) (-15065 # 10000) (165 # 1000) (-255 # 1000) (-165 # 1000) (255 # 1000) (106 # 100) (19636 # 10000) (-21 # 10) (-5 # 10) (64551 # 10000) (4908 # 10000) (352 # 10000) (462 # 10000) (0 # 1) (2695 # 10000) (4833 # 10000) (9228 # 10000) (1202 # 10000) (68607 # 10000) (0 # 1) (-4536 # 10000) (30956 # 10000) (49993 # 10000) (160875 # 10000) (50 # 1) (-7146 # 1000000) (-6758 # 1000000) (42542 # 10000) (15817 # 10000) (7594 # 10000) (-521 # 1000) (-6846 # 10000) (-1417 # 10000) (-701 # 100000) (102151 # 1000000) (0 # 1) (459 # 1000) (300 # 1) (800 # 1) (4 # 10) (26 # 100) (4912 # 10000) (3762 # 10000) (4528 # 10000) (8 # 10);
  Mk_cy14_row (2 # 100) (-14798 # 10000) (165 # 1000) (-255 # 1000) (-165 # 1000) (255 # 1000) (106 # 100) (19636 # 10000) (-21 # 10) (-5 # 10) (64551 # 10000) (4925 # 10000) (352 # 10000) (472 # 10000) (0 # 1) (2695 # 10000) (12144 # 10000) (9296 # 10000) (1217 # 10000) (68697 # 10000) (0 # 1) (-4536 # 10000) (30963 # 10000) (49993 # 10000) (157118 # 10000) (50 # 1) (-7249 # 1000000) (-6758 # 1000000) (42386 # 10000) (1574 # 1000) (7606 # 10000) (-5055 # 10000) (-6681 # 10000) (-1364 # 10000) (-7279 # 1000000) (10836 # 100000) (0 # 1) (458 # 1000) (300 # 1) (800 # 1) (4026 # 10000) (2637 # 10000) (4904 # 10000) (3762 # 10000) (4551 # 10000) (8 # 10);
  Mk_cy14_row (3 # 100) (-12972 # 10000) (165 # 1000) (-255 # 1000) (-165 # 1000) (255 # 1000) (106 # 100) (19636 # 10000) (-21 # 10) (-5 # 10) (64551 # 10000) (4992 # 10000) (352 # 10000) (533 # 10000) (0 # 1) (2695 # 10000) (16421 # 10000) (9396 # 10000) (1194 # 10000) (69113 # 10000) (0 # 1) (-4536 # 10000) (30974 # 10000) (49993 # 10000) (158819 # 10000) (50 # 1) (-7869 # 1000000) (-6758 # 1000000) (42519 # 10000) (15544 # 10000) (7642 # 10000) (-4368 # 10000) (-6314 # 10000) (-1403 # 10000) (-7354 # 1000000) (119888 # 1000000) (0 # 1) (462 # 1000) (300 # 1) (800 # 1) (4063 # 10000) (2689 # 10000) (4988 # 10000) (3849 # 10000) (4571 # 10000) (8 # 10);
  Mk_cy14_row (4 # 100) (-11007 # 10000) (165 # 1000) (-255 # 1000) (-165 # 1000) (255 # 1000) (106 # 100) (19636 # 10000) (-21 # 10) (-5 # 10) (64551 # 10000) (5037 # 10000) (352 # 10000) (596 # 10000) (0 # 1) (2695 # 10000) (19456 # 10000) (9661 # 10000) (1166 # 10000) (70271 # 10000) (0 # 1) (-4536 # 10000) (30988 # 10000) (49993 # 10000) (164556 # 10000) (50 # 1) (-8316 # 1000000) (-6758 # 1000000) (4296 # 1000) (15502 # 10000) (7676 # 10000) (-3752 # 10000) (-5855 # 10000) (-1591 # 10000) (-6977 # 1000000) (133641 # 1000000) (0 # 1) (453 # 1000) (300 # 1) (800 # 1) (4095 # 10000) (2736 # 10000) (5049 # 10000) (391 # 1000) (4642 # 10000) (8 # 10);
  Mk_cy14_row (5 # 100) (-9292 # 10000) (165 # 1000) (-255 # 1000) (-165 # 1000) (255 # 1000) (106 # 100) (19636 # 10000) (-21 # 10) (-5 # 10) (64551 # 10000) (5048 # 10000) (352 # 10000) (639 # 10000) (0 # 1) (2695 # 10000) (2181 # 1000) (9794 # 10000) (1176 # 10000) (70959 # 10000) (0 # 1) (-4536 # 10000) (31011 # 10000) (49993 # 10000) (176453 # 10000) (50 # 1) (-8743 # 1000000) (-6758 # 1000000) (43578 # 10000) (15391 # 10000) (7739 # 10000) (-3469 # 10000) (-5457 # 10000) (-1862 # 10000) (-6467 # 1000000) (148927 # 1000000) (0 # 1) (436 # 1000) (300 # 1) (800 # 1) (4124 # 10000) (2777 # 10000) (5096 # 10000) (3957 # 10000) (4716 # 10000) (8 # 10);
  Mk_cy14_row (75 # 1000) (-658 # 1000) (165 # 1000) (-254 # 1000) (-165 # 1000) (254 # 1000) (106 # 100) (19636 # 10000) (-21 # 10) (-5 # 10) (64551 # 10000) (5048 # 10000) (352 # 10000) (63 # 1000) (0 # 1) (2695 # 10000) (26087 # 10000) (1026 # 1000) (1171 # 10000) (73298 # 10000) (0 # 1) (-4536 # 10000) (31094 # 10000) (50031 # 10000) (201772 # 10000) (50 # 1) (-9537 # 1000000) (-619 # 100000) (45455 # 10000) (14804 # 10000) (7956 # 10000) (-3747 # 10000) (-4685 # 10000) (-2538 # 10000) (-5734 # 1000000) (190596 # 1000000) (0 # 1) (383 # 1000) (300 # 1) (800 # 1) (4179 # 10000) (2855 # 10000) (5179 # 10000) (4043 # 10000) (5022 # 10000) (8 # 10);
  Mk_cy14_row (1 # 10) (-5613 # 10000) (165 # 1000) (-253 # 1000) (-165 # 1000) (253 # 1000) (106 # 100) (19636 # 10000) (-21 # 10) (-5 # 10) (68305 # 10000) (5048 # 10000) (352 # 10000) (532 # 10000) (0 # 1) (2695 # 10000) (29122 # 10000) (10177 # 10000) (1146 # 10000) (72588 # 10000) (0 # 1) (-4536 # 10000) (32381 # 10000) (50172 # 10000) (199992 # 10000) (50 # 1) (-983 # 100000) (-5332 # 1000000) (47603 # 10000) (14094 # 10000) (7932 # 10000) (-444 # 1000) (-4985 # 10000) (-2943 # 10000) (-5604 # 1000000) (230662 # 1000000) (0 # 1) (375 # 1000) (300 # 1) (800 # 1) (4219 # 10000) (2913 # 10000) (5236 # 10000) (4104 # 10000) (523 # 1000) (8 # 10);
  Mk_cy14_row (12 # 100) (-5342 # 10000) (165 # 1000) (-252 # 1000) (-165 # 1000) (252 # 1000) (106 # 100) (19795 # 10000) (-21 # 10) (-5 # 10) (71333 # 10000) (5048 # 10000) (352 # 10000) (452 # 10000) (0 # 1) (2695 # 10000) (31045 # 10000) (10008 # 10000) (1128 # 10000) (72372 # 10000) (0 # 1) (-4536 # 10000) (33407 # 10000) (50315 # 10000) (187106 # 10000) (50 # 1) (-9913 # 1000000) (-4732 # 1000000) (48963 # 10000) (13682 # 10000) (7768 # 10000) (-4895 # 10000) (-5603 # 10000) (-3077 # 10000) (-5696 # 1000000) (253169 # 1000000) (0 # 1) (377 # 1000) (300 # 1) (800 # 1) (4244 # 10000) (2949 # 10000) (527 # 1000) (4143 # 10000) (5278 # 10000) (8 # 10);
  Mk_cy14_row (15 # 100) (-5462 # 10000) (165 # 1000) (-25 # 100) (-165 # 1000) (25 # 100) (106 # 100) (20362 # 10000) (-21 # 10) (-5 # 10) (73621 # 10000) (5045 # 10000) (352 # 10000) (345 # 10000) (0 # 1) (2695 # 10000) (33399 # 10000) (9801 # 10000) (1106 # 10000) (72109 # 10000) (0 # 1) (-4536 # 10000) (343 # 100) (50547 # 10000) (166246 # 10000) (50 # 1) (-9896 # 1000000) (-3806 # 1000000) (50644 # 10000) (13241 # 10000) (7437 # 10000) (-5477 # 10000) (-6451 # 10000) (-3113 # 10000) (-5845 # 1000000) (266468 # 1000000) (0 # 1) (379 # 1000) (300 # 1) (800 # 1) (4275 # 10000) (2993 # 10000) (5308 # 10000) (4191 # 10000) (5304 # 10000) (8 # 10);
  Mk_cy14_row (17 # 100) (-5858 # 10000) (165 # 1000) (-248 # 1000) (-165 # 1000) (248 # 1000) (106 # 100) (20823 # 10000) (-21 # 10) (-5 # 10) (74365 # 10000) (5036 # 10000) (352 # 10000) (283 # 10000) (0 # 1) (2695 # 10000) (34719 # 10000) (9652 # 10000) (115 # 1000) (72491 # 10000) (0 # 1) (-4536 # 10000) (34688 # 10000) (50704 # 10000) (153709 # 10000) (50 # 1) (-9787 # 1000000) (-328 # 100000) (51371 # 10000) (13071 # 10000) (7219 # 10000) (-5922 # 10000) (-6981 # 10000) (-3062 # 10000) (-5959 # 1000000) (26506 # 100000) (0 # 1) (38 # 100) (300 # 1) (800 # 1) (4292 # 10000) (3017 # 10000) (5328 # 10000) (4217 # 10000) (531 # 1000) (8 # 10);
  Mk_cy14_row (2 # 10) (-6798 # 10000) (165 # 1000) (-2449 # 10000) (-165 # 1000) (2449 # 10000) (106 # 100) (21521 # 10000) (-21 # 10) (-5 # 10) (74972 # 10000) (5016 # 10000) (352 # 10000) (202 # 10000) (0 # 1) (2695 # 10000) (36434 # 10000) (9459 # 10000) (1208 # 10000) (72988 # 10000) (0 # 1) (-444 # 1000) (35146 # 10000) (50939 # 10000) (137012 # 10000) (50 # 1) (-9505 # 1000000) (-269 # 100000) (5188 # 1000) (12931 # 10000) (6922 # 10000) (-6693 # 10000) (-7653 # 10000) (-2927 # 10000) (-6141 # 1000000) (255253 # 1000000) (0 # 1) (384 # 1000) (300 # 1) (800 # 1) (4313 # 10000) (3047 # 10000) (5351 # 10000) (4252 # 10000) (5312 # 10000) (8 # 10);
  Mk_cy14_row (25 # 100) (-8663 # 10000) (165 # 1000) (-2382 # 10000) (-165 # 1000) (2382 # 10000) (106 # 100) (22574 # 10000) (-21 # 10) (-5 # 10) (75416 # 10000) (4971 # 10000) (352 # 10000) (9 # 1000) (0 # 1) (2695 # 10000) (38787 # 10000) (9196 # 10000) (1208 # 10000) (73691 # 10000) (0 # 1) (-3539 # 10000) (35746 # 10000) (51315 # 10000) (112667 # 10000) (50 # 1) (-8918 # 1000000) (-2128 # 1000000) (52164 # 10000) (1315 # 1000) (6579 # 10000) (-7766 # 10000) (-8469 # 10000) (-2662 # 10000) (-6439 # 1000000) (231541 # 1000000) (0 # 1) (393 # 1000) (300 # 1) (800 # 1) (4341 # 10000) (3087 # 10000) (5377 # 10000) (4299 # 10000) (5309 # 10000) (7999 # 10000);
  Mk_cy14_row (3 # 10) (-10514 # 10000) (165 # 1000) (-2313 # 10000) (-165 # 1000) (2313 # 10000) (106 # 100) (2344 # 1000) (-21 # 10) (-5 # 10) (756 # 100) (4919 # 10000) (352 # 10000) (-4 # 10000) (0 # 1) (2695 # 10000) (40711 # 10000) (8829 # 10000) (1175 # 10000) (68789 # 10000) (0 # 1) (-2688 # 10000) (36232 # 10000) (5167 # 1000) (91908 # 10000) (50 # 1) (-8251 # 1000000) (-1812 # 1000000) (51954 # 10000) (13514 # 10000) (6362 # 10000) (-8501 # 10000) (-8999 # 10000) (-2405 # 10000) (-6704 # 1000000) (207277 # 1000000) (1 # 1000) (408 # 1000) (300 # 1) (800 # 1) (4363 # 10000) (3119 # 10000) (5395 # 10000) (4338 # 10000) (5307 # 10000) (7997 # 10000);
  Mk_cy14_row (4 # 10) (-13794 # 10000) (165 # 1000) (-2146 # 10000) (-165 # 1000) (2146 # 10000) (106 # 100) (24709 # 10000) (-21 # 10) (-5 # 10) (75735 # 10000) (4807 # 10000) (352 # 10000) (-155 # 10000) (0 # 1) (2695 # 10000) (43745 # 10000) (8302 # 10000) (106 # 1000) (65334 # 10000) (0 # 1) (-1793 # 10000) (36945 # 10000) (52317 # 10000) (65459 # 10000) (50 # 1) (-7267 # 1000000) (-1274 # 1000000) (50899 # 10000) (14051 # 10000) (6049 # 10000) (-9431 # 10000) (-9618 # 10000) (-1975 # 10000) (-7125 # 1000000) (165464 # 1000000) (4 # 1000) (462 # 1000) (300 # 1) (800 # 1) (4396 # 10000) (3165 # 10000) (5422 # 10000) (4399 # 10000) (531 # 1000) (7988 # 10000);
  Mk_cy14_row (5 # 10) (-16508 # 10000) (165 # 1000) (-1972 # 10000) (-165 # 1000) (1972 # 10000) (106 # 100) (25567 # 10000) (-21 # 10) (-5 # 10) (75778 # 10000) (4707 # 10000) (352 # 10000) (-278 # 10000) (991 # 10000) (2695 # 10000) (46099 # 10000) (7884 # 10000) (1061 # 10000) (6526 # 1000) (0 # 1) (-1428 # 10000) (37401 # 10000) (52893 # 10000) (52305 # 10000) (50 # 1) (-6492 # 1000000) (-1074 # 1000000) (47854 # 10000) (14402 # 10000) (5507 # 10000) (-10044 # 10000) (-9945 # 10000) (-1633 # 10000) (-7435 # 1000000) (133828 # 1000000) (1 # 100) (524 # 1000) (300 # 1) (800 # 1) (4419 # 10000) (3199 # 10000) (5433 # 10000) (4446 # 10000) (5313 # 10000) (7966 # 10000);
  Mk_cy14_row (75 # 100) (-21511 # 10000) (165 # 1000) (-162 # 1000) (-165 # 1000) (162 # 1000) (106 # 100) (26812 # 10000) (-21 # 10) (-5 # 10) (75808 # 10000) (4575 # 10000) (352 # 10000) (-477 # 10000) (1982 # 10000) (2695 # 10000) (50376 # 10000) (6754 # 10000) (1 # 10) (65 # 10) (0 # 1) (-1138 # 10000) (37941 # 10000) (54109 # 10000) (37896 # 10000) (50 # 1) (-5147 # 1000000) (-1115 # 1000000) (43304 # 10000) (1528 # 1000) (3582 # 10000) (-10602 # 10000) (-10225 # 10000) (-1028 # 10000) (-812 # 100000) (85153 # 1000000) (34 # 1000) (658 # 1000) (300 # 1) (800 # 1) (4459 # 10000) (3255 # 10000) (5294 # 10000) (4533 # 10000) (5309 # 10000) (7792 # 10000);
  Mk_cy14_row (1 # 1) (-25365 # 10000) (165 # 1000) (-14 # 100) (-165 # 1000) (14 # 100) (106 # 100) (27474 # 10000) (-21 # 10) (-5 # 10) (75814 # 10000) (4522 # 10000) (352 # 10000) (-559 # 10000) (2154 # 10000) (2695 # 10000) (53411 # 10000) (6196 # 10000) (1 # 10) (65 # 10) (0 # 1) (-1062 # 10000) (38144 # 10000) (55106 # 10000) (33024 # 10000) (50 # 1) (-4277 # 1000000) (-1197 # 1000000) (41667 # 10000) (16523 # 10000) (2003 # 10000) (-10941 # 10000) (-10002 # 10000) (-699 # 10000) (-8444 # 1000000) (58595 # 1000000) (67 # 1000) (78 # 100) (300 # 1) (800 # 1) (4484 # 10000) (3291 # 10000) (5105 # 10000) (4594 # 10000) (5302 # 10000) (7504 # 10000);
  Mk_cy14_row (15 # 10) (-30686 # 10000) (165 # 1000) (-1184 # 10000) (-165 # 1000) (1184 # 10000) (106 # 100) (28161 # 10000) (-21 # 10) (-5 # 10) (75817 # 10000) (4501 # 10000) (352 # 10000) (-63 # 1000) (2154 # 10000) (2695 # 10000) (57688 # 10000) (5101 # 10000) (1 # 10) (65 # 10) (0 # 1) (-102 # 1000) (38284 # 10000) (56705 # 10000) (28498 # 10000) (50 # 1) (-2979 # 1000000) (-1675 # 1000000) (40029 # 10000) (18872 # 10000) (356 # 10000) (-11142 # 10000) (-9245 # 10000) (-425 # 10000) (-7707 # 1000000) (31787 # 1000000) (143 # 1000) (96 # 100) (300 # 1) (800 # 1) (4515 # 10000) (3335 # 10000) (4783 # 10000) (468 # 1000) (5276 # 10000) (7136 # 10000);
  Mk_cy14_row (2 # 1) (-34148 # 10000) (1645 # 10000) (-11 # 100) (-1645 # 10000) (11 # 100) (106 # 100) (28514 # 10000) (-21 # 10) (-5 # 10) (75818 # 10000) (45 # 100) (352 # 10000) (-665 # 10000) (2154 # 10000) (2695 # 10000) (60723 # 10000) (3917 # 10000) (1 # 10) (65 # 10) (0 # 1) (-1009 # 10000) (3833 # 1000) (57981 # 10000) (25417 # 10000) (50 # 1) (-2301 # 1000000) (-2349 # 1000000) (38949 # 10000) (21348 # 10000) (0 # 1) (-11154 # 10000) (-8626 # 10000) (-302 # 10000) (-4792 # 1000000) (19716 # 1000000) (203 # 1000) (111 # 100) (300 # 1) (800 # 1) (4534 # 10000) (3363 # 10000) (4681 # 10000) (4681 # 10000) (5167 # 10000) (7035 # 10000);
  Mk_cy14_row (3 # 1) (-39013 # 10000) (1168 # 10000) (-104 # 1000) (-1168 # 10000) (104 # 1000) (106 # 100) (28875 # 10000) (-21 # 10) (-5 # 10) (75818 # 10000) (45 # 100) (16 # 1000) (-516 # 10000) (2154 # 10000) (2695 # 10000) (65 # 10) (1244 # 10000) (1 # 10) (65 # 10) (0 # 1) (-1003 # 10000) (38361 # 10000) (59983 # 10000) (21488 # 10000) (50 # 1) (-1344 # 1000000) (-3306 # 1000000) (37928 # 10000) (35752 # 10000) (0 # 1) (-11081 # 10000) (-7882 # 10000) (-129 # 10000) (-1828 # 1000000) (9643 # 1000000) (277 # 1000) (1291 # 1000) (300 # 1) (800 # 1) (4558 # 10000) (3398 # 10000) (4617 # 10000) (4617 # 10000) (4917 # 10000) (7006 # 10000);
  Mk_cy14_row (4 # 1) (-42466 # 10000) (732 # 10000) (-102 # 1000) (-732 # 10000) (102 # 1000) (106 # 100) (29058 # 10000) (-21 # 10) (-5 # 10) (75818 # 10000) (45 # 100) (62 # 10000) (-448 # 10000) (2154 # 10000) (2695 # 10000) (68035 # 10000) (86 # 10000) (1 # 10) (65 # 10) (0 # 1) (-1001 # 10000) (38369 # 10000) (61552 # 10000) (18957 # 10000) (50 # 1) (-1084 # 1000000) (-3566 # 1000000) (37443 # 10000) (38646 # 10000) (0 # 1) (-10603 # 10000) (-7195 # 10000) (-16 # 10000) (-1523 # 1000000) (5379 # 1000000) (309 # 1000) (1387 # 1000) (300 # 1) (800 # 1) (4574 # 10000) (3419 # 10000) (4571 # 10000) (4571 # 10000) (4682 # 10000) (7001 # 10000);
  Mk_cy14_row (5 # 1) (-45143 # 10000) (484 # 10000) (-101 # 1000) (-484 # 10000) (101 # 1000) (106 # 100) (29169 # 10000) (-21 # 10) (-5 # 10) (75818 # 10000) (45 # 100) (29 # 10000) (-424 # 10000) (2154 # 10000) (2695 # 10000) (70389 # 10000) (0 # 1) (1 # 10) (65 # 10) (0 # 1) (-1001 # 10000) (38376 # 10000) (62856 # 10000) (17228 # 10000) (50 # 1) (-101 # 100000) (-364 # 100000) (3709 # 1000) (37292 # 10000) (0 # 1) (-9872 # 10000) (-656 # 1000) (0 # 1) (-144 # 100000) (3223 # 1000000) (321 # 1000) (1433 # 1000) (300 # 1) (800 # 1) (4584 # 10000) (3435 # 10000) (4535 # 10000) (4535 # 10000) (4517 # 10000) (7 # 10);
  Mk_cy14_row (75 # 10) (-50009 # 10000) (22 # 1000) (-101 # 1000) (-22 # 1000) (101 # 1000) (106 # 100) (2932 # 1000) (-21 # 10) (-5 # 10) (75818 # 10000) (45 # 100) (7 # 10000) (-348 # 10000) (2154 # 10000) (2695 # 10000) (74666 # 10000) (0 # 1) (1 # 10) (65 # 10) (0 # 1) (-1 # 10) (3838 # 1000) (65428 # 10000) (15737 # 10000) (50 # 1) (-964 # 1000000) (-3686 # 1000000) (36632 # 10000) (23763 # 10000) (0 # 1) (-8274 # 10000) (-5202 # 10000) (0 # 1) (-1369 # 1000000) (1134 # 1000000) (329 # 1000) (146 # 100) (300 # 1) (800 # 1) (4601 # 10000) (3459 # 10000) (4471 # 10000) (4471 # 10000) (4167 # 10000) (7 # 10);
  Mk_cy14_row (10 # 1) (-53461 # 10000) (124 # 10000) (-1 # 10) (-124 # 10000) (1 # 10) (106 # 100) (29396 # 10000) (-21 # 10) (-5 # 10) (75818 # 10000) (45 # 100) (3 # 10000) (-253 # 10000) (2154 # 10000) (2695 # 10000) (777 # 100) (0 # 1) (1 # 10) (65 # 10) (0 # 1) (-1 # 10) (3838 # 1000) (67415 # 10000) (15265 # 10000) (50 # 1) (-95 # 100000) (-37 # 10000) (3623 # 1000) (17679 # 10000) (0 # 1) (-7053 # 10000) (-4068 # 10000) (0 # 1) (-1361 # 1000000) (515 # 1000000) (33 # 100) (1464 # 1000) (300 # 1) (800 # 1) (4612 # 10000) (3474 # 10000) (4426 # 10000) (4426 # 10000) (3755 # 10000) (7 # 10);
  Mk_cy14_row (0 # 1) (-15065 # 10000) (165 # 1000) (-255 # 1000) (-165 # 1000) (255 # 1000) (106 # 100) (19636 # 10000) (-21 # 10) (-5 # 10) (64551 # 10000) (4908 # 10000) (352 # 10000) (462 # 10000) (0 # 1) (2695 # 10000) (4833 # 10000) (9228 # 10000) (1202 # 10000) (68607 # 10000) (0 # 1) (-4536 # 10000) (30956 # 10000) (49993 # 10000) (160875 # 10000) (50 # 1) (-7146 # 1000000) (-6758 # 1000000) (42542 # 10000) (15817 # 10000) (7594 # 10000) (-521 # 1000) (-6846 # 10000) (-1417 # 10000) (-701 # 100000) (102151 # 1000000) (0 # 1) (459 # 1000) (300 # 1) (800 # 1) (4 # 10) (26 # 100) (4912 # 10000) (3762 # 10000) (4528 # 10000) (8 # 10);
  Mk_cy14_row (-1 # 1) (23549 # 10000) (165 # 1000) (-626 # 10000) (-165 # 1000) (626 # 10000) (106 # 100) (23152 # 10000) (-21 # 10) (-5 # 10) (58096 # 10000) (4407 # 10000) (324 # 10000) (97 # 10000) (2154 # 10000) (2695 # 10000) (5 # 1) (3079 # 10000) (1 # 10) (65 # 10) (0 # 1) (-3834 # 10000) (30514 # 10000) (5423 # 1000) (33024 # 10000) (50 # 1) (-1852 # 1000000) (-7403 # 1000000) (43439 # 10000) (22306 # 10000) (335 # 1000) (-7936 # 10000) (-7966 # 10000) (-699 # 10000) (-8444 # 1000000) (541 # 100) (202 # 10000) (9488 # 10000) (300 # 1) (800 # 1) (3894 # 10000) (2578 # 10000) (4785 # 10000) (3629 # 10000) (3918 # 10000) (7504 # 10000)
].

