(** Generated by tools/gen_data.py - do not edit.
    Coefficient tables, exact decimals as in the data files. *)
From Coq Require Import QArith List.
Import ListNotations.
Open Scope Q_scope.

(** One row of data/abrahamson_gregor_addo_2016.csv; the field names are the column names of the file
    (load_data_file, model.py:526-538). *)
Record aga16_row := Mk_aga16_row {
  aga16_period : Q;
  aga16_v_lin : Q;
  aga16_b : Q;
  aga16_n : Q;
  aga16_c : Q;
  aga16_c_4 : Q;
  aga16_t_1 : Q;
  aga16_t_2 : Q;
  aga16_t_3 : Q;
  aga16_t_4 : Q;
  aga16_t_5 : Q;
  aga16_t_6 : Q;
  aga16_t_7 : Q;
  aga16_t_8 : Q;
  aga16_t_9 : Q;
  aga16_t_10 : Q;
  aga16_t_11 : Q;
  aga16_t_12 : Q;
  aga16_t_13 : Q;
  aga16_t_14 : Q;
  aga16_t_15 : Q;
  aga16_t_16 : Q;
  aga16_phi : Q;
  aga16_tau : Q;
  aga16_sigma : Q
}.

(** abrahamson_gregor_addo_2016.py:30: data/abrahamson_gregor_addo_2016.csv lines 3-25 (23 rows) *)
Definition aga16_coeff : list aga16_row := [
  Mk_aga16_row (0 # 1) (8651 # 10) (-1186 # 1000) (118 # 100) (188 # 100) (10 # 1) (42203 # 10000) (-135 # 100) (1 # 10) (9 # 10) (0 # 1) (-12 # 10000) (10988 # 10000) (-142 # 100) (4 # 10) (312 # 100) (13 # 1000) (98 # 100) (-135 # 10000) (-4 # 10) (9969 # 10000) (-1 # 1) (6 # 10) (43 # 100) (738 # 1000);
  Mk_aga16_row (2 # 100) (8651 # 10) (-1186 # 1000) (118 # 100) (188 # 100) (10 # 1) (42203 # 10000) (-135 # 100) (1 # 10) (9 # 10) (0 # 1) (-12 # 10000) (10988 # 10000) (-142 # 100) (4 # 10) (312 # 100) (13 # 1000) (98 # 100) (-135 # 10000) (-4 # 10) (9969 # 10000) (-1 # 1) (6 # 10) (43 # 100) (738 # 1000);
  Mk_aga16_row (5 # 100) (10535 # 10) (-1346 # 1000) (118 # 100) (188 # 100) (10 # 1) (45371 # 10000) (-14 # 10) (1 # 10) (9 # 10) (0 # 1) (-12 # 10000) (12536 # 10000) (-165 # 100) (4 # 10) (337 # 100) (13 # 1000) (1288 # 1000) (-138 # 10000) (-4 # 10) (1103 # 1000) (-118 # 100) (6 # 10) (43 # 100) (738 # 1000);
  Mk_aga16_row (75 # 1000) (10857 # 10) (-1471 # 1000) (118 # 100) (188 # 100) (10 # 1) (50733 # 10000) (-145 # 100) (1 # 10) (9 # 10) (0 # 1) (-12 # 10000) (14175 # 10000) (-18 # 10) (4 # 10) (337 # 100) (13 # 1000) (1483 # 1000) (-142 # 10000) (-4 # 10) (12732 # 10000) (-136 # 100) (6 # 10) (43 # 100) (738 # 1000);
  Mk_aga16_row (1 # 10) (10325 # 10) (-1624 # 1000) (118 # 100) (188 # 100) (10 # 1) (52892 # 10000) (-145 # 100) (1 # 10) (9 # 10) (0 # 1) (-12 # 10000) (13997 # 10000) (-18 # 10) (4 # 10) (333 # 100) (13 # 1000) (1613 # 1000) (-145 # 10000) (-4 # 10) (13042 # 10000) (-136 # 100) (6 # 10) (43 # 100) (738 # 1000);
  Mk_aga16_row (15 # 100) (8776 # 10) (-1931 # 1000) (118 # 100) (188 # 100) (10 # 1) (54563 # 10000) (-145 # 100) (1 # 10) (9 # 10) (0 # 1) (-14 # 10000) (13582 # 10000) (-169 # 100) (4 # 10) (325 # 100) (13 # 1000) (1882 # 1000) (-153 # 10000) (-4 # 10) (126 # 100) (-13 # 10) (6 # 10) (43 # 100) (738 # 1000);
  Mk_aga16_row (2 # 10) (7482 # 10) (-2188 # 1000) (118 # 100) (188 # 100) (10 # 1) (52684 # 10000) (-14 # 10) (1 # 10) (9 # 10) (0 # 1) (-18 # 10000) (11648 # 10000) (-149 # 100) (4 # 10) (303 # 100) (129 # 10000) (2076 # 1000) (-162 # 10000) (-35 # 100) (1223 # 1000) (-125 # 100) (6 # 10) (43 # 100) (738 # 1000);
  Mk_aga16_row (25 # 100) (6543 # 10) (-2381 # 1000) (118 # 100) (188 # 100) (10 # 1) (50594 # 10000) (-135 # 100) (1 # 10) (9 # 10) (0 # 1) (-23 # 10000) (994 # 1000) (-13 # 10) (4 # 10) (28 # 10) (129 # 10000) (2248 # 1000) (-172 # 10000) (-31 # 100) (116 # 100) (-117 # 100) (6 # 10) (43 # 100) (738 # 1000);
  Mk_aga16_row (3 # 10) (5871 # 10) (-2518 # 1000) (118 # 100) (188 # 100) (10 # 1) (47945 # 10000) (-128 # 100) (1 # 10) (9 # 10) (0 # 1) (-27 # 10000) (8821 # 10000) (-118 # 100) (4 # 10) (259 # 100) (128 # 10000) (2348 # 1000) (-183 # 10000) (-28 # 100) (105 # 100) (-106 # 100) (6 # 10) (43 # 100) (738 # 1000);
  Mk_aga16_row (4 # 10) (503 # 1) (-2657 # 1000) (118 # 100) (188 # 100) (10 # 1) (44644 # 10000) (-118 # 100) (1 # 10) (9 # 10) (0 # 1) (-35 # 10000) (7046 # 10000) (-98 # 100) (4 # 10) (22 # 10) (127 # 10000) (2427 # 1000) (-206 # 10000) (-23 # 100) (8 # 10) (-78 # 100) (6 # 10) (43 # 100) (738 # 1000);
  Mk_aga16_row (5 # 10) (4566 # 10) (-2669 # 1000) (118 # 100) (188 # 100) (10 # 1) (40181 # 10000) (-108 # 100) (1 # 10) (9 # 10) (0 # 1) (-44 # 10000) (5799 # 10000) (-82 # 100) (4 # 10) (192 # 100) (125 # 10000) (2399 # 1000) (-231 # 10000) (-19 # 100) (662 # 1000) (-62 # 100) (6 # 10) (43 # 100) (738 # 1000);
  Mk_aga16_row (6 # 10) (4303 # 10) (-2599 # 1000) (118 # 100) (188 # 100) (10 # 1) (36055 # 10000) (-99 # 100) (1 # 10) (9 # 10) (0 # 1) (-5 # 1000) (5021 # 10000) (-7 # 10) (4 # 10) (17 # 10) (124 # 10000) (2273 # 1000) (-256 # 10000) (-16 # 100) (58 # 100) (-5 # 10) (6 # 10) (43 # 100) (738 # 1000);
  Mk_aga16_row (75 # 100) (4105 # 10) (-2401 # 1000) (118 # 100) (188 # 100) (10 # 1) (32174 # 10000) (-91 # 100) (1 # 10) (9 # 10) (0 # 1) (-58 # 10000) (3687 # 10000) (-54 # 100) (4 # 10) (142 # 100) (12 # 1000) (1993 # 1000) (-296 # 10000) (-12 # 100) (48 # 100) (-34 # 100) (6 # 10) (43 # 100) (738 # 1000);
  Mk_aga16_row (1 # 1) (400 # 1) (-1955 # 1000) (118 # 100) (188 # 100) (10 # 1) (27981 # 10000) (-85 # 100) (1 # 10) (9 # 10) (0 # 1) (-62 # 10000) (1746 # 10000) (-34 # 100) (4 # 10) (11 # 10) (114 # 10000) (147 # 100) (-363 # 10000) (-7 # 100) (33 # 100) (-14 # 100) (6 # 10) (43 # 100) (738 # 1000);
  Mk_aga16_row (15 # 10) (400 # 1) (-1025 # 1000) (118 # 100) (188 # 100) (10 # 1) (20123 # 10000) (-77 # 100) (1 # 10) (9 # 10) (0 # 1) (-64 # 10000) (-82 # 1000) (-5 # 100) (4 # 10) (7 # 10) (1 # 100) (408 # 1000) (-493 # 10000) (0 # 1) (31 # 100) (0 # 1) (6 # 10) (43 # 100) (738 # 1000);
  Mk_aga16_row (2 # 1) (400 # 1) (-299 # 1000) (118 # 100) (188 # 100) (10 # 1) (14128 # 10000) (-71 # 100) (1 # 10) (9 # 10) (0 # 1) (-64 # 10000) (-2821 # 10000) (12 # 100) (4 # 10) (7 # 10) (85 # 10000) (-401 # 1000) (-61 # 1000) (0 # 1) (3 # 10) (0 # 1) (6 # 10) (43 # 100) (738 # 1000);
  Mk_aga16_row (25 # 10) (400 # 1) (0 # 1) (118 # 100) (188 # 100) (10 # 1) (9976 # 10000) (-67 # 100) (1 # 10) (9 # 10) (0 # 1) (-64 # 10000) (-4108 # 10000) (25 # 100) (4 # 10) (7 # 10) (69 # 10000) (-723 # 1000) (-711 # 10000) (0 # 1) (3 # 10) (0 # 1) (6 # 10) (43 # 100) (738 # 1000);
  Mk_aga16_row (3 # 1) (400 # 1) (0 # 1) (118 # 100) (188 # 100) (10 # 1) (6443 # 10000) (-64 # 100) (1 # 10) (9 # 10) (0 # 1) (-64 # 10000) (-4466 # 10000) (3 # 10) (4 # 10) (7 # 10) (54 # 10000) (-673 # 1000) (-798 # 10000) (0 # 1) (3 # 10) (0 # 1) (6 # 10) (43 # 100) (738 # 1000);
  Mk_aga16_row (4 # 1) (400 # 1) (0 # 1) (118 # 100) (188 # 100) (10 # 1) (657 # 10000) (-58 # 100) (1 # 10) (9 # 10) (0 # 1) (-64 # 10000) (-4344 # 10000) (3 # 10) (4 # 10) (7 # 10) (27 # 10000) (-627 # 1000) (-935 # 10000) (0 # 1) (3 # 10) (0 # 1) (6 # 10) (43 # 100) (738 # 1000);
  Mk_aga16_row (5 # 1) (400 # 1) (0 # 1) (118 # 100) (188 # 100) (10 # 1) (-4624 # 10000) (-54 # 100) (1 # 10) (9 # 10) (0 # 1) (-64 # 10000) (-4368 # 10000) (3 # 10) (4 # 10) (7 # 10) (5 # 10000) (-596 # 1000) (-98 # 1000) (0 # 1) (3 # 10) (0 # 1) (6 # 10) (43 # 100) (738 # 1000);
  Mk_aga16_row (6 # 1) (400 # 1) (0 # 1) (118 # 100) (188 # 100) (10 # 1) (-9809 # 10000) (-5 # 10) (1 # 10) (9 # 10) (0 # 1) (-64 # 10000) (-4586 # 10000) (3 # 10) (4 # 10) (7 # 10) (-13 # 10000) (-566 # 1000) (-98 # 1000) (0 # 1) (3 # 10) (0 # 1) (6 # 10) (43 # 100) (738 # 1000);
  Mk_aga16_row (75 # 10) (400 # 1) (0 # 1) (118 # 100) (188 # 100) (10 # 1) (-16017 # 10000) (-46 # 100) (1 # 10) (9 # 10) (0 # 1) (-64 # 10000) (-4433 # 10000) (3 # 10) (4 # 10) (7 # 10) (-33 # 10000) (-528 # 1000) (-98 # 1000) (0 # 1) (3 # 10) (0 # 1) (6 # 10) (43 # 100) (738 # 1000);
  Mk_aga16_row (10 # 1) (400 # 1) (0 # 1) (118 # 100) (188 # 100) (10 # 1) (-22937 # 10000) (-4 # 10) (1 # 10) (9 # 10) (0 # 1) (-64 # 10000) (-4828 # 10000) (3 # 10) (4 # 10) (7 # 10) (-6 # 1000) (-504 # 1000) (-98 # 1000) (0 # 1) (3 # 10) (0 # 1) (6 # 10) (43 # 100) (738 # 1000)
].

