(** Generated by tools/gen_data.py - do not edit.
    Coefficient tables, exact decimals as in the data files. *)
From Coq Require Import QArith List.
Import ListNotations.
Open Scope Q_scope.

(** One row of data/tavakoli_pezeshk_2005.csv; the field names are the column names of the file
    (load_data_file, model.py:526-538). *)
Record tp05_row := Mk_tp05_row {
  tp05_period : Q;
  tp05_c_1 : Q;
  tp05_c_2 : Q;
  tp05_c_3 : Q;
  tp05_c_4 : Q;
  tp05_c_5 : Q;
  tp05_c_6 : Q;
  tp05_c_7 : Q;
  tp05_c_8 : Q;
  tp05_c_9 : Q;
  tp05_c_10 : Q;
  tp05_c_11 : Q;
  tp05_c_12 : Q;
  tp05_c_13 : Q;
  tp05_c_14 : Q;
  tp05_c_15 : Q;
  tp05_c_16 : Q
}.

(** tavakoli_pezeshk_2005.py:30: data/tavakoli_pezeshk_2005.csv lines 3-16 (14 rows) *)
Definition tp05_coeff : list tp05_row := [
  Mk_tp05_row (0 # 1) (114 # 100) (623 # 1000) (-483 # 10000) (-181 # 100) (-652 # 1000) (446 # 1000) (-293 # 10000000) (-405 # 100000) (946 # 100000) (141 # 100) (-961 # 1000) (432 # 1000000) (133 # 1000000) (121 # 100) (-111 # 1000) (409 # 1000);
  Mk_tp05_row (5 # 100) (182 # 100) (533 # 1000) (-475 # 10000) (-163 # 100) (-567 # 1000) (454 # 1000) (777 # 100000) (-491 # 100000) (-314 # 100000) (98 # 100) (-939 # 1000) (512 # 1000000) (93 # 100000) (122 # 100) (-108 # 1000) (441 # 1000);
  Mk_tp05_row (8 # 100) (683 # 1000) (743 # 1000) (-293 # 10000) (-171 # 100) (-756 # 1000) (46 # 100) (-968 # 1000000) (-494 # 100000) (-55 # 10000) (113 # 100) (-916 # 1000) (482 # 1000000) (733 # 1000000) (122 # 100) (-108 # 1000) (449 # 1000);
  Mk_tp05_row (1 # 10) (869 # 1000) (607 # 1000) (-474 # 10000) (-152 # 100) (-704 # 1000) (449 # 1000) (-619 # 100000) (-47 # 10000) (-424 # 100000) (104 # 100) (-913 # 1000) (411 # 1000000) (358 # 1000000) (123 # 100) (-108 # 1000) (456 # 1000);
  Mk_tp05_row (15 # 100) (238 # 100) (501 # 1000) (-642 # 10000) (-173 # 100) (-976 # 1000) (414 # 1000) (66 # 10000) (-48 # 10000) (393 # 100000) (151 # 100) (-865 # 1000) (364 # 1000000) (684 # 1000000) (124 # 100) (-108 # 1000) (464 # 1000);
  Mk_tp05_row (2 # 10) (-548 # 1000) (857 # 1000) (-262 # 10000) (-168 # 100) (-861 # 1000) (433 # 1000) (279 # 100000) (-365 # 100000) (-202 # 100000) (164 # 100) (-925 # 1000) (161 # 1000000) (643 # 1000000) (124 # 100) (-108 # 1000) (469 # 1000);
  Mk_tp05_row (3 # 10) (-513 # 1000) (667 # 1000) (-443 # 10000) (-142 # 100) (-47 # 100) (468 # 1000) (108 # 10000) (-541 # 100000) (644 # 100000) (152 # 100) (-915 # 1000) (432 # 1000000) (287 # 1000000) (126 # 100) (-109 # 1000) (479 # 1000);
  Mk_tp05_row (5 # 10) (24 # 100) (611 # 1000) (-789 # 10000) (-155 # 100) (-844 # 1000) (414 # 1000) (789 # 100000) (-365 # 100000) (-265 # 1000000) (159 # 100) (-859 # 1000) (277 # 1000000) (146 # 1000000) (128 # 100) (-173 # 1000) (505 # 1000);
  Mk_tp05_row (75 # 100) (-679 # 1000) (666 # 1000) (-83 # 1000) (-148 # 100) (-734 # 1000) (435 # 1000) (953 # 100000) (-337 # 100000) (-119 # 100000) (155 # 100) (-784 # 1000) (245 # 1000000) (547 # 1000000) (128 # 100) (-105 # 1000) (522 # 1000);
  Mk_tp05_row (1 # 1) (-155 # 100) (764 # 1000) (-859 # 10000) (-149 # 100) (-941 # 1000) (424 # 1000) (-584 # 100000) (-209 # 100000) (33 # 10000) (152 # 100) (-757 # 1000) (117 # 1000000) (759 # 1000000) (128 # 100) (-103 # 1000) (537 # 1000);
  Mk_tp05_row (15 # 10) (-23 # 10) (794 # 1000) (-884 # 10000) (-145 # 100) (-886 # 1000) (412 # 1000) (83 # 10000) (-327 # 100000) (251 # 100000) (171 # 100) (-769 # 1000) (233 # 1000000) (166 # 1000000) (127 # 100) (-999 # 10000) (551 # 1000);
  Mk_tp05_row (2 # 1) (-27 # 10) (805 # 1000) (-929 # 10000) (-144 # 100) (-923 # 1000) (408 # 1000) (206 # 10000) (-214 # 100000) (23 # 10000) (143 # 100) (-755 # 1000) (214 # 1000000) (391 # 1000000) (126 # 100) (-978 # 10000) (562 # 1000);
  Mk_tp05_row (3 # 1) (-242 # 100) (801 # 1000) (-108 # 1000) (-165 # 100) (-898 # 1000) (437 # 1000) (167 # 10000) (-203 # 100000) (358 # 100000) (193 # 100) (-818 # 1000) (116 # 1000000) (398 # 1000000) (126 # 100) (-952 # 10000) (573 # 1000);
  Mk_tp05_row (4 # 1) (-369 # 100) (817 # 1000) (-118 # 1000) (-146 # 100) (-845 # 1000) (425 # 1000) (113 # 10000) (-172 # 100000) (-334 # 100000) (169 # 100) (-737 # 1000) (11 # 100000) (359 # 1000000) (125 # 100) (-926 # 10000) (589 # 1000)
].

