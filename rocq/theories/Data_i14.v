(** Generated by tools/gen_data.py - do not edit.
    Coefficient tables, exact decimals as in the data files. *)
From Coq Require Import QArith List.
Import ListNotations.
Open Scope Q_scope.

(** One row of data/idriss_2014-small.csv, data/idriss_2014-large.csv; the field names are the column names of the file
    (load_data_file, model.py:526-538). *)
Record i14_row := Mk_i14_row {
  i14_period : Q;
  i14_alpha_1 : Q;
  i14_alpha_2 : Q;
  i14_alpha_3 : Q;
  i14_beta_1 : Q;
  i14_beta_2 : Q;
  i14_epsilon : Q;
  i14_gamma : Q;
  i14_phi : Q
}.

(** idriss_2014.py:31: data/idriss_2014-small.csv lines 4-25 (22 rows) *)
Definition i14_small_coeff : list i14_row := [
  Mk_i14_row (1 # 100) (70887 # 10000) (2058 # 10000) (589 # 10000) (29935 # 10000) (-2287 # 10000) (-854 # 1000) (-27 # 10000) (8 # 100);
  Mk_i14_row (2 # 100) (71157 # 10000) (2058 # 10000) (589 # 10000) (29935 # 10000) (-2287 # 10000) (-854 # 1000) (-27 # 10000) (8 # 100);
  Mk_i14_row (3 # 100) (72087 # 10000) (2058 # 10000) (589 # 10000) (29935 # 10000) (-2287 # 10000) (-854 # 1000) (-27 # 10000) (8 # 100);
  Mk_i14_row (4 # 100) (73287 # 10000) (2058 # 10000) (589 # 10000) (29935 # 10000) (-2287 # 10000) (-854 # 1000) (-27 # 10000) (8 # 100);
  Mk_i14_row (5 # 100) (62638 # 10000) (625 # 10000) (417 # 10000) (28664 # 10000) (-2418 # 10000) (-631 # 1000) (-61 # 10000) (8 # 100);
  Mk_i14_row (75 # 1000) (59051 # 10000) (1128 # 10000) (527 # 10000) (29406 # 10000) (-2513 # 10000) (-591 # 1000) (-56 # 10000) (8 # 100);
  Mk_i14_row (1 # 10) (75791 # 10000) (848 # 10000) (442 # 10000) (3019 # 1000) (-2516 # 10000) (-757 # 1000) (-42 # 10000) (8 # 100);
  Mk_i14_row (15 # 100) (8019 # 1000) (1713 # 10000) (329 # 10000) (27871 # 10000) (-2236 # 10000) (-911 # 1000) (-46 # 10000) (8 # 100);
  Mk_i14_row (2 # 10) (92812 # 10000) (1041 # 10000) (188 # 10000) (28611 # 10000) (-2229 # 10000) (-998 # 1000) (-3 # 1000) (8 # 100);
  Mk_i14_row (25 # 100) (95804 # 10000) (875 # 10000) (95 # 10000) (28289 # 10000) (-22 # 100) (-1042 # 1000) (-28 # 10000) (8 # 100);
  Mk_i14_row (3 # 10) (98912 # 10000) (3 # 10000) (-39 # 10000) (28423 # 10000) (-2284 # 10000) (-103 # 100) (-29 # 10000) (8 # 100);
  Mk_i14_row (4 # 10) (95342 # 10000) (27 # 10000) (-133 # 10000) (283 # 100) (-2318 # 10000) (-1019 # 1000) (-28 # 10000) (8 # 100);
  Mk_i14_row (5 # 10) (92142 # 10000) (399 # 10000) (-224 # 10000) (2856 # 1000) (-2337 # 10000) (-1023 # 1000) (-21 # 10000) (8 # 100);
  Mk_i14_row (75 # 100) (83517 # 10000) (689 # 10000) (-267 # 10000) (27544 # 10000) (-2392 # 10000) (-1056 # 1000) (-29 # 10000) (8 # 100);
  Mk_i14_row (1 # 1) (70453 # 10000) (16 # 100) (-198 # 10000) (27339 # 10000) (-2398 # 10000) (-1009 # 1000) (-32 # 10000) (6 # 100);
  Mk_i14_row (15 # 10) (51307 # 10000) (2429 # 10000) (-367 # 10000) (268 # 100) (-2417 # 10000) (-898 # 1000) (-33 # 10000) (4 # 100);
  Mk_i14_row (2 # 1) (3361 # 1000) (3966 # 10000) (-291 # 10000) (26837 # 10000) (-245 # 1000) (-851 # 1000) (-32 # 10000) (2 # 100);
  Mk_i14_row (3 # 1) (1784 # 10000) (756 # 1000) (-214 # 10000) (26907 # 10000) (-2389 # 10000) (-761 # 1000) (-31 # 10000) (2 # 100);
  Mk_i14_row (4 # 1) (-24301 # 10000) (9283 # 10000) (-24 # 1000) (25782 # 10000) (-2514 # 10000) (-675 # 1000) (-51 # 10000) (0 # 1);
  Mk_i14_row (5 # 1) (-4357 # 1000) (11209 # 10000) (-202 # 10000) (25468 # 10000) (-2541 # 10000) (-629 # 1000) (-59 # 10000) (0 # 1);
  Mk_i14_row (75 # 10) (-78275 # 10000) (14016 # 10000) (-219 # 10000) (24478 # 10000) (-2593 # 10000) (-531 # 1000) (-57 # 10000) (0 # 1);
  Mk_i14_row (10 # 1) (-92857 # 10000) (15574 # 10000) (-35 # 10000) (23922 # 10000) (-2586 # 10000) (-586 # 1000) (-61 # 10000) (0 # 1)
].

(** idriss_2014.py:32: data/idriss_2014-large.csv lines 4-25 (22 rows) *)
Definition i14_large_coeff : list i14_row := [
  Mk_i14_row (1 # 100) (90138 # 10000) (-794 # 10000) (589 # 10000) (29935 # 10000) (-2287 # 10000) (-854 # 1000) (-27 # 10000) (8 # 100);
  Mk_i14_row (2 # 100) (90408 # 10000) (-794 # 10000) (589 # 10000) (29935 # 10000) (-2287 # 10000) (-854 # 1000) (-27 # 10000) (8 # 100);
  Mk_i14_row (3 # 100) (91338 # 10000) (-794 # 10000) (589 # 10000) (29935 # 10000) (-2287 # 10000) (-854 # 1000) (-27 # 10000) (8 # 100);
  Mk_i14_row (4 # 100) (92538 # 10000) (-794 # 10000) (589 # 10000) (29935 # 10000) (-2287 # 10000) (-854 # 1000) (-27 # 10000) (8 # 100);
  Mk_i14_row (5 # 100) (79837 # 10000) (-1923 # 10000) (417 # 10000) (27995 # 10000) (-2319 # 10000) (-631 # 1000) (-61 # 10000) (8 # 100);
  Mk_i14_row (75 # 1000) (7756 # 1000) (-1614 # 10000) (527 # 10000) (28143 # 10000) (-2326 # 10000) (-591 # 1000) (-56 # 10000) (8 # 100);
  Mk_i14_row (1 # 10) (94252 # 10000) (-1887 # 10000) (442 # 10000) (28131 # 10000) (-2211 # 10000) (-757 # 1000) (-42 # 10000) (8 # 100);
  Mk_i14_row (15 # 100) (96242 # 10000) (-665 # 10000) (329 # 10000) (24091 # 10000) (-1676 # 10000) (-911 # 1000) (-46 # 10000) (8 # 100);
  Mk_i14_row (2 # 10) (1113 # 100) (-1698 # 10000) (188 # 10000) (24938 # 10000) (-1685 # 10000) (-998 # 1000) (-3 # 1000) (8 # 100);
  Mk_i14_row (25 # 100) (113629 # 10000) (-1766 # 10000) (95 # 10000) (23773 # 10000) (-1531 # 10000) (-1042 # 1000) (-28 # 10000) (8 # 100);
  Mk_i14_row (3 # 10) (117818 # 10000) (-2798 # 10000) (-39 # 10000) (23772 # 10000) (-1595 # 10000) (-103 # 100) (-29 # 10000) (8 # 100);
  Mk_i14_row (4 # 10) (116097 # 10000) (-3048 # 10000) (-133 # 10000) (23413 # 10000) (-1594 # 10000) (-1019 # 1000) (-28 # 10000) (8 # 100);
  Mk_i14_row (5 # 10) (114484 # 10000) (-2911 # 10000) (-224 # 10000) (23477 # 10000) (-1584 # 10000) (-1023 # 1000) (-21 # 10000) (8 # 100);
  Mk_i14_row (75 # 100) (109065 # 10000) (-3097 # 10000) (-267 # 10000) (22042 # 10000) (-1577 # 10000) (-1056 # 1000) (-29 # 10000) (8 # 100);
  Mk_i14_row (1 # 1) (98565 # 10000) (-2565 # 10000) (-198 # 10000) (21493 # 10000) (-1532 # 10000) (-1009 # 1000) (-32 # 10000) (6 # 100);
  Mk_i14_row (15 # 10) (83363 # 10000) (-232 # 1000) (-367 # 10000) (20408 # 10000) (-147 # 1000) (-898 # 1000) (-33 # 10000) (4 # 100);
  Mk_i14_row (2 # 1) (68656 # 10000) (-1226 # 10000) (-291 # 10000) (20013 # 10000) (-1439 # 10000) (-851 # 1000) (-32 # 10000) (2 # 100);
  Mk_i14_row (3 # 1) (41178 # 10000) (1724 # 10000) (-214 # 10000) (19408 # 10000) (-1278 # 10000) (-761 # 1000) (-31 # 10000) (2 # 100);
  Mk_i14_row (4 # 1) (18102 # 10000) (3001 # 10000) (-24 # 1000) (17763 # 10000) (-1326 # 10000) (-675 # 1000) (-51 # 10000) (0 # 1);
  Mk_i14_row (5 # 1) (977 # 10000) (4609 # 10000) (-202 # 10000) (1703 # 1000) (-1291 # 10000) (-629 # 1000) (-59 # 10000) (0 # 1);
  Mk_i14_row (75 # 10) (-30563 # 10000) (6948 # 10000) (-219 # 10000) (15212 # 10000) (-122 # 1000) (-531 # 1000) (-57 # 10000) (0 # 1);
  Mk_i14_row (10 # 1) (-44387 # 10000) (8393 # 10000) (-35 # 10000) (14195 # 10000) (-1145 # 10000) (-586 # 1000) (-61 # 10000) (0 # 1)
].

