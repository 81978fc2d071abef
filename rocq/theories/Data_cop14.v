(** Generated by tools/gen_data.py - do not edit.
    Coefficient tables, exact decimals as in the data files. *)
From Coq Require Import QArith List.
Import ListNotations.
Open Scope Q_scope.

(** One row of data/coppersmith_bommer_2014.csv; the field names are the column names of the file
    (load_data_file, model.py:526-538). *)
Record cop14_row := Mk_cop14_row {
  cop14_period : Q;
  cop14_v_lin : Q;
  cop14_b : Q;
  cop14_n : Q;
  cop14_c : Q;
  cop14_c_4 : Q;
  cop14_t_1 : Q;
  cop14_t_2 : Q;
  cop14_t_3 : Q;
  cop14_t_4 : Q;
  cop14_t_5 : Q;
  cop14_t_6 : Q;
  cop14_t_9 : Q;
  cop14_t_12 : Q;
  cop14_t_13 : Q;
  cop14_t_16 : Q;
  cop14_phi : Q;
  cop14_tau : Q;
  cop14_sigma : Q
}.

(** coppersmith_bommer_2014.py:30: data/coppersmith_bommer_2014.csv lines 3-16 (14 rows) *)
Definition cop14_coeff : list cop14_row := [
  Mk_cop14_row (1 # 100) (8651 # 10) (-1186 # 1000) (118 # 100) (188 # 100) (10 # 1) (38796 # 10000) (-11337 # 10000) (1 # 10) (9 # 10) (0 # 1) (-555 # 100000) (4 # 10) (98 # 100) (-135 # 10000) (-2247 # 10000) (6 # 10) (43 # 100) (738 # 1000);
  Mk_cop14_row (2 # 100) (8651 # 10) (-1186 # 1000) (118 # 100) (188 # 100) (10 # 1) (38796 # 10000) (-11337 # 10000) (1 # 10) (9 # 10) (0 # 1) (-555 # 100000) (4 # 10) (98 # 100) (-135 # 10000) (-2247 # 10000) (6 # 10) (43 # 100) (738 # 1000);
  Mk_cop14_row (3 # 100) (94457 # 100) (-1239 # 1000) (118 # 100) (188 # 100) (10 # 1) (41522 # 10000) (-11864 # 10000) (1 # 10) (9 # 10) (0 # 1) (-555 # 100000) (4 # 10) (1081 # 1000) (-135 # 10000) (-24475 # 100000) (6 # 10) (43 # 100) (738 # 1000);
  Mk_cop14_row (5 # 100) (10535 # 10) (-1346 # 1000) (118 # 100) (188 # 100) (10 # 1) (45683 # 10000) (-1236 # 1000) (1 # 10) (9 # 10) (0 # 1) (-555 # 100000) (4 # 10) (1288 # 1000) (-138 # 10000) (-27108 # 100000) (6 # 10) (43 # 100) (738 # 1000);
  Mk_cop14_row (1 # 10) (10325 # 10) (-1624 # 1000) (118 # 100) (188 # 100) (10 # 1) (49937 # 10000) (-1215 # 1000) (1 # 10) (9 # 10) (0 # 1) (-64455 # 10000000) (4 # 10) (1613 # 1000) (-145 # 10000) (-27869 # 100000) (6 # 10) (43 # 100) (738 # 1000);
  Mk_cop14_row (2 # 10) (7482 # 10) (-2188 # 1000) (118 # 100) (188 # 100) (10 # 1) (50182 # 10000) (-11468 # 10000) (1 # 10) (9 # 10) (0 # 1) (-66776 # 10000000) (4 # 10) (2076 # 1000) (-162 # 10000) (-21139 # 100000) (6 # 10) (43 # 100) (738 # 1000);
  Mk_cop14_row (3 # 10) (5871 # 10) (-2518 # 1000) (118 # 100) (188 # 100) (10 # 1) (47475 # 10000) (-1091 # 1000) (1 # 10) (9 # 10) (0 # 1) (-64 # 10000) (4 # 10) (2348 # 1000) (-183 # 10000) (-13422 # 100000) (6 # 10) (43 # 100) (738 # 1000);
  Mk_cop14_row (5 # 10) (4566 # 10) (-2669 # 1000) (118 # 100) (188 # 100) (10 # 1) (41181 # 10000) (-10061 # 10000) (1 # 10) (9 # 10) (0 # 1) (-605 # 100000) (4 # 10) (2399 # 1000) (-231 # 10000) (-4057 # 100000) (6 # 10) (43 # 100) (738 # 1000);
  Mk_cop14_row (1 # 1) (400 # 1) (-1955 # 1000) (118 # 100) (188 # 100) (10 # 1) (29005 # 10000) (-86825 # 100000) (1 # 10) (9 # 10) (0 # 1) (-5576 # 1000000) (4 # 10) (147 # 100) (-363 # 10000) (-1279 # 100000) (6 # 10) (43 # 100) (738 # 1000);
  Mk_cop14_row (2 # 1) (400 # 1) (-299 # 1000) (118 # 100) (188 # 100) (10 # 1) (15317 # 10000) (-72143 # 100000) (1 # 10) (9 # 10) (0 # 1) (-5102 # 1000000) (4 # 10) (-401 # 1000) (-61 # 1000) (-894 # 100000) (6 # 10) (43 # 100) (738 # 1000);
  Mk_cop14_row (3 # 1) (400 # 1) (0 # 1) (118 # 100) (188 # 100) (10 # 1) (69726 # 100000) (-63711 # 100000) (1 # 10) (9 # 10) (0 # 1) (-4824 # 1000000) (4 # 10) (-673 # 1000) (-798 # 10000) (-669 # 100000) (6 # 10) (43 # 100) (738 # 1000);
  Mk_cop14_row (5 # 1) (400 # 1) (0 # 1) (118 # 100) (188 # 100) (10 # 1) (-4776 # 10000) (-53089 # 100000) (1 # 10) (9 # 10) (0 # 1) (-4474 # 1000000) (4 # 10) (-596 # 1000) (-98 # 1000) (-385 # 100000) (6 # 10) (43 # 100) (738 # 1000);
  Mk_cop14_row (75 # 10) (400 # 1) (0 # 1) (118 # 100) (188 # 100) (10 # 1) (-15093 # 10000) (-44657 # 100000) (1 # 10) (9 # 10) (0 # 1) (-4196 # 1000000) (4 # 10) (-528 # 1000) (-98 # 1000) (-16 # 10000) (6 # 10) (43 # 100) (738 # 1000);
  Mk_cop14_row (10 # 1) (400 # 1) (0 # 1) (118 # 100) (188 # 100) (10 # 1) (-22565 # 10000) (-38675 # 100000) (1 # 10) (9 # 10) (0 # 1) (-4 # 1000) (4 # 10) (-504 # 1000) (-98 # 1000) (0 # 1) (6 # 10) (43 # 100) (738 # 1000)
].

