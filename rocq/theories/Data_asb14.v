(** Generated by tools/gen_data.py - do not edit.
    Coefficient tables, exact decimals as in the data files. *)
From Coq Require Import QArith List.
Import ListNotations.
Open Scope Q_scope.

(** One row of data/akkar-sandikkaya-bommer-2014-dist_jb.csv, data/akkar-sandikkaya-bommer-2014-dist_hyp.csv, data/akkar-sandikkaya-bommer-2014-dist_epi.csv; the field names are the column names of the file
    (load_data_file, model.py:526-538). *)
Record asb14_row := Mk_asb14_row {
  asb14_period : Q;
  asb14_a_1 : Q;
  asb14_a_2 : Q;
  asb14_a_3 : Q;
  asb14_a_4 : Q;
  asb14_a_5 : Q;
  asb14_a_6 : Q;
  asb14_a_7 : Q;
  asb14_a_8 : Q;
  asb14_a_9 : Q;
  asb14_c_1 : Q;
  asb14_v_con : Q;
  asb14_v_ref : Q;
  asb14_c : Q;
  asb14_n : Q;
  asb14_b_1 : Q;
  asb14_b_2 : Q;
  asb14_sd_within : Q;
  asb14_sd_between : Q;
  asb14_sd_total : Q
}.

(** akkar_sandikkaya_bommer_2014.py:44: data/akkar-sandikkaya-bommer-2014-dist_jb.csv lines 4-67 (64 rows) *)
Definition asb14_jb_coeff : list asb14_row := [
  Mk_asb14_row (0 # 1) (185329 # 100000) (29 # 10000) (-2807 # 100000) (-123452 # 100000) (2529 # 10000) (75 # 10) (-5096 # 10000) (-1091 # 10000) (937 # 10000) (675 # 100) (1000 # 1) (750 # 1) (25 # 10) (32 # 10) (-41997 # 100000) (-28846 # 100000) (6201 # 10000) (3501 # 10000) (7121 # 10000);
  Mk_asb14_row (-1 # 1) (561201 # 100000) (29 # 10000) (-998 # 10000) (-98388 # 100000) (2529 # 10000) (75 # 10) (-5096 # 10000) (-616 # 10000) (63 # 1000) (675 # 100) (1000 # 1) (750 # 1) (25 # 10) (32 # 10) (-72057 # 100000) (-19688 # 100000) (6014 # 10000) (3311 # 10000) (6865 # 10000);
  Mk_asb14_row (1 # 100) (187032 # 100000) (29 # 10000) (-274 # 10000) (-123698 # 100000) (2529 # 10000) (75 # 10) (-5096 # 10000) (-1115 # 10000) (953 # 10000) (675 # 100) (1000 # 1) (750 # 1) (25 # 10) (32 # 10) (-41729 # 100000) (-28685 # 100000) (6215 # 10000) (3526 # 10000) (7146 # 10000);
  Mk_asb14_row (2 # 100) (195279 # 100000) (29 # 10000) (-2715 # 100000) (-125363 # 100000) (2529 # 10000) (75 # 10) (-5096 # 10000) (-104 # 1000) (1029 # 10000) (675 # 100) (1000 # 1) (750 # 1) (25 # 10) (32 # 10) (-39998 # 100000) (-28241 # 100000) (6266 # 10000) (3555 # 10000) (7204 # 10000);
  Mk_asb14_row (3 # 100) (207006 # 100000) (29 # 10000) (-2403 # 100000) (-127525 # 100000) (2529 # 10000) (75 # 10) (-5096 # 10000) (-973 # 10000) (1148 # 10000) (675 # 100) (1000 # 1) (750 # 1) (25 # 10) (32 # 10) (-34799 # 100000) (-26842 # 100000) (641 # 1000) (3565 # 10000) (7335 # 10000);
  Mk_asb14_row (4 # 100) (220452 # 100000) (29 # 10000) (-1797 # 100000) (-130123 # 100000) (2529 # 10000) (75 # 10) (-5096 # 10000) (-884 # 10000) (1073 # 10000) (675 # 100) (1000 # 1) (750 # 1) (25 # 10) (32 # 10) (-27572 # 100000) (-24759 # 100000) (6534 # 10000) (3484 # 10000) (7405 # 10000);
  Mk_asb14_row (5 # 100) (235413 # 100000) (29 # 10000) (-1248 # 100000) (-132632 # 100000) (2529 # 10000) (75 # 10) (-5096 # 10000) (-853 # 10000) (1052 # 10000) (675 # 100) (1000 # 1) (750 # 1) (25 # 10) (32 # 10) (-21231 # 100000) (-22385 # 100000) (6622 # 10000) (3551 # 10000) (7514 # 10000);
  Mk_asb14_row (75 # 1000) (263078 # 100000) (29 # 10000) (-532 # 100000) (-135722 # 100000) (2529 # 10000) (75 # 10) (-5096 # 10000) (-779 # 10000) (837 # 10000) (675 # 100) (1000 # 1) (750 # 1) (25 # 10) (32 # 10) (-14427 # 100000) (-17525 # 100000) (6626 # 10000) (3759 # 10000) (7618 # 10000);
  Mk_asb14_row (1 # 10) (285412 # 100000) (29 # 10000) (-925 # 100000) (-138182 # 100000) (2529 # 10000) (75 # 10) (-5096 # 10000) (-749 # 10000) (761 # 10000) (675 # 100) (1000 # 1) (750 # 1) (25 # 10) (32 # 10) (-27064 # 100000) (-29293 # 100000) (667 # 1000) (4067 # 10000) (7812 # 10000);
  Mk_asb14_row (11 # 100) (289772 # 100000) (29 # 10000) (-1062 # 100000) (-138345 # 100000) (2529 # 10000) (75 # 10) (-5096 # 10000) (-704 # 10000) (707 # 10000) (675 # 100) (1000 # 1) (750 # 1) (25 # 10) (32 # 10) (-31025 # 100000) (-31837 # 100000) (6712 # 10000) (4059 # 10000) (7844 # 10000);
  Mk_asb14_row (12 # 100) (292748 # 100000) (29 # 10000) (-1291 # 100000) (-137997 # 100000) (2529 # 10000) (75 # 10) (-5096 # 10000) (-604 # 10000) (653 # 10000) (675 # 100) (1000 # 1) (750 # 1) (25 # 10) (32 # 10) (-34796 # 100000) (-3386 # 10000) (6768 # 10000) (4022 # 10000) (7873 # 10000);
  Mk_asb14_row (13 # 100) (295162 # 100000) (29 # 10000) (-1592 # 100000) (-137627 # 100000) (2529 # 10000) (75 # 10) (-5096 # 10000) (-49 # 1000) (617 # 10000) (675 # 100) (1000 # 1) (750 # 1) (25 # 10) (32 # 10) (-39668 # 100000) (-36646 # 100000) (6789 # 10000) (4017 # 10000) (7888 # 10000);
  Mk_asb14_row (14 # 100) (296299 # 100000) (29 # 10000) (-1866 # 100000) (-137155 # 100000) (2529 # 10000) (75 # 10) (-5096 # 10000) (-377 # 10000) (581 # 10000) (675 # 100) (1000 # 1) (750 # 1) (25 # 10) (32 # 10) (-43996 # 100000) (-38417 # 100000) (6822 # 10000) (3945 # 10000) (7881 # 10000);
  Mk_asb14_row (15 # 100) (296622 # 100000) (29 # 10000) (-2193 # 100000) (-13646 # 10000) (2529 # 10000) (75 # 10) (-5096 # 10000) (-265 # 10000) (545 # 10000) (675 # 100) (1000 # 1) (750 # 1) (25 # 10) (32 # 10) (-48313 # 100000) (-39551 # 100000) (6796 # 10000) (3893 # 10000) (7832 # 10000);
  Mk_asb14_row (16 # 100) (293166 # 100000) (29 # 10000) (-2429 # 100000) (-135074 # 100000) (2529 # 10000) (75 # 10) (-5096 # 10000) (-194 # 10000) (509 # 10000) (675 # 100) (1000 # 1) (750 # 1) (25 # 10) (32 # 10) (-52431 # 100000) (-40869 # 100000) (6762 # 10000) (3928 # 10000) (782 # 1000);
  Mk_asb14_row (17 # 100) (288988 # 100000) (29 # 10000) (-2712 # 100000) (-133454 # 100000) (2529 # 10000) (75 # 10) (-5096 # 10000) (-125 # 10000) (507 # 10000) (675 # 100) (1000 # 1) (750 # 1) (25 # 10) (32 # 10) (-5568 # 10000) (-41528 # 100000) (6723 # 10000) (396 # 1000) (7803 # 10000);
  Mk_asb14_row (18 # 100) (284627 # 100000) (29 # 10000) (-3003 # 100000) (-131959 # 100000) (2529 # 10000) (75 # 10) (-5096 # 10000) (-56 # 10000) (502 # 10000) (675 # 100) (1000 # 1) (750 # 1) (25 # 10) (32 # 10) (-58922 # 100000) (-42717 # 100000) (6694 # 10000) (396 # 1000) (7778 # 10000);
  Mk_asb14_row (19 # 100) (279778 # 100000) (29 # 10000) (-33 # 1000) (-13045 # 10000) (2529 # 10000) (75 # 10) (-5096 # 10000) (0 # 1) (497 # 10000) (675 # 100) (1000 # 1) (750 # 1) (25 # 10) (32 # 10) (-62635 # 100000) (-4413 # 10000) (6647 # 10000) (3932 # 10000) (7723 # 10000);
  Mk_asb14_row (2 # 10) (273872 # 100000) (29 # 10000) (-3462 # 100000) (-128877 # 100000) (2529 # 10000) (75 # 10) (-5096 # 10000) (0 # 1) (493 # 10000) (675 # 100) (1000 # 1) (750 # 1) (25 # 10) (32 # 10) (-65315 # 100000) (-44644 # 100000) (6645 # 10000) (3842 # 10000) (7676 # 10000);
  Mk_asb14_row (22 # 100) (263479 # 100000) (29 # 10000) (-3789 # 100000) (-126125 # 100000) (2529 # 10000) (75 # 10) (-5096 # 10000) (0 # 1) (488 # 10000) (675 # 100) (1000 # 1) (750 # 1) (25 # 10) (32 # 10) (-68711 # 100000) (-44872 # 100000) (66 # 100) (3887 # 10000) (766 # 1000);
  Mk_asb14_row (24 # 100) (253886 # 100000) (29 # 10000) (-4173 # 100000) (-1236 # 1000) (2529 # 10000) (75 # 10) (-5096 # 10000) (0 # 1) (483 # 10000) (675 # 100) (1000 # 1) (750 # 1) (25 # 10) (32 # 10) (-72744 # 100000) (-46341 # 100000) (6651 # 10000) (3792 # 10000) (7656 # 10000);
  Mk_asb14_row (26 # 100) (248747 # 100000) (29 # 10000) (-4768 # 100000) (-121882 # 100000) (2529 # 10000) (75 # 10) (-5096 # 10000) (0 # 1) (478 # 10000) (675 # 100) (1000 # 1) (750 # 1) (25 # 10) (32 # 10) (-77335 # 100000) (-48705 # 100000) (665 # 1000) (3754 # 10000) (7636 # 10000);
  Mk_asb14_row (28 # 100) (238739 # 100000) (29 # 10000) (-5178 # 100000) (-119543 # 100000) (2529 # 10000) (75 # 10) (-5096 # 10000) (0 # 1) (474 # 10000) (675 # 100) (1000 # 1) (750 # 1) (25 # 10) (32 # 10) (-80508 # 100000) (-47334 # 100000) (659 # 1000) (3757 # 10000) (7586 # 10000);
  Mk_asb14_row (3 # 10) (23015 # 10000) (29 # 10000) (-5672 # 100000) (-117072 # 100000) (2529 # 10000) (75 # 10) (-5096 # 10000) (0 # 1) (469 # 10000) (675 # 100) (1000 # 1) (750 # 1) (25 # 10) (32 # 10) (-82609 # 100000) (-4573 # 10000) (6599 # 10000) (3816 # 10000) (7623 # 10000);
  Mk_asb14_row (32 # 100) (217298 # 100000) (29 # 10000) (-6015 # 100000) (-113847 # 100000) (2529 # 10000) (75 # 10) (-5096 # 10000) (0 # 1) (464 # 10000) (675 # 100) (1000 # 1) (750 # 1) (25 # 10) (32 # 10) (-8408 # 10000) (-44267 # 100000) (6654 # 10000) (3866 # 10000) (7696 # 10000);
  Mk_asb14_row (34 # 100) (207474 # 100000) (29 # 10000) (-6508 # 100000) (-111131 # 100000) (2529 # 10000) (75 # 10) (-5096 # 10000) (0 # 1) (459 # 10000) (675 # 100) (1000 # 1) (750 # 1) (25 # 10) (32 # 10) (-86251 # 100000) (-43888 # 100000) (6651 # 10000) (3881 # 10000) (7701 # 10000);
  Mk_asb14_row (36 # 100) (201953 # 100000) (29 # 10000) (-6974 # 100000) (-109484 # 100000) (2529 # 10000) (75 # 10) (-5096 # 10000) (0 # 1) (459 # 10000) (675 # 100) (1000 # 1) (750 # 1) (25 # 10) (32 # 10) (-87479 # 100000) (-4382 # 10000) (6662 # 10000) (3924 # 10000) (7732 # 10000);
  Mk_asb14_row (38 # 100) (195078 # 100000) (29 # 10000) (-7346 # 100000) (-107812 # 100000) (2529 # 10000) (75 # 10) (-5096 # 10000) (0 # 1) (429 # 10000) (675 # 100) (1000 # 1) (750 # 1) (25 # 10) (32 # 10) (-88522 # 100000) (-43678 # 100000) (6698 # 10000) (3945 # 10000) (7773 # 10000);
  Mk_asb14_row (4 # 10) (189372 # 100000) (29 # 10000) (-7684 # 100000) (-10653 # 10000) (2529 # 10000) (75 # 10) (-5096 # 10000) (0 # 1) (4 # 100) (675 # 100) (1000 # 1) (750 # 1) (25 # 10) (32 # 10) (-89517 # 100000) (-43008 # 100000) (6697 # 10000) (3962 # 10000) (7781 # 10000);
  Mk_asb14_row (42 # 100) (183717 # 100000) (29 # 10000) (-801 # 10000) (-105451 # 100000) (2529 # 10000) (75 # 10) (-5096 # 10000) (0 # 1) (374 # 10000) (675 # 100) (1000 # 1) (750 # 1) (25 # 10) (32 # 10) (-90875 # 100000) (-4219 # 10000) (6696 # 10000) (389 # 1000) (7744 # 10000);
  Mk_asb14_row (44 # 100) (177528 # 100000) (29 # 10000) (-8296 # 100000) (-104332 # 100000) (2529 # 10000) (75 # 10) (-5096 # 10000) (0 # 1) (349 # 10000) (675 # 100) (1000 # 1) (750 # 1) (25 # 10) (32 # 10) (-91922 # 100000) (-40903 # 100000) (6641 # 10000) (3929 # 10000) (7716 # 10000);
  Mk_asb14_row (46 # 100) (173155 # 100000) (29 # 10000) (-8623 # 100000) (-103572 # 100000) (2529 # 10000) (75 # 10) (-5096 # 10000) (0 # 1) (323 # 10000) (675 # 100) (1000 # 1) (750 # 1) (25 # 10) (32 # 10) (-9267 # 10000) (-39442 # 100000) (6575 # 10000) (4009 # 10000) (7701 # 10000);
  Mk_asb14_row (48 # 100) (170132 # 100000) (29 # 10000) (-907 # 10000) (-102724 # 100000) (2529 # 10000) (75 # 10) (-5096 # 10000) (0 # 1) (297 # 10000) (675 # 100) (1000 # 1) (750 # 1) (25 # 10) (32 # 10) (-9372 # 10000) (-38462 # 100000) (654 # 1000) (4022 # 10000) (7678 # 10000);
  Mk_asb14_row (5 # 10) (167127 # 100000) (29 # 10000) (-949 # 10000) (-101909 # 100000) (2529 # 10000) (75 # 10) (-5096 # 10000) (0 # 1) (271 # 10000) (675 # 100) (1000 # 1) (750 # 1) (25 # 10) (32 # 10) (-94614 # 100000) (-37408 # 100000) (6512 # 10000) (4021 # 10000) (7653 # 10000);
  Mk_asb14_row (55 # 100) (153838 # 100000) (29 # 10000) (-10275 # 100000) (-99351 # 100000) (2529 # 10000) (75 # 10) (-5096 # 10000) (0 # 1) (245 # 10000) (675 # 100) (1000 # 1) (750 # 1) (25 # 10) (32 # 10) (-96564 # 100000) (-35582 # 100000) (657 # 1000) (4057 # 10000) (7722 # 10000);
  Mk_asb14_row (6 # 10) (137505 # 100000) (29 # 10000) (-10747 # 100000) (-96429 # 100000) (2529 # 10000) (75 # 10) (-5096 # 10000) (0 # 1) (219 # 10000) (675 # 100) (1000 # 1) (750 # 1) (25 # 10) (32 # 10) (-98499 # 100000) (-34053 # 100000) (663 # 1000) (406 # 1000) (7774 # 10000);
  Mk_asb14_row (65 # 100) (121156 # 100000) (29 # 10000) (-11262 # 100000) (-93347 # 100000) (2529 # 10000) (75 # 10) (-5096 # 10000) (0 # 1) (193 # 10000) (675 # 100) (1000 # 1) (750 # 1) (25 # 10) (32 # 10) (-99733 # 100000) (-30949 # 100000) (6652 # 10000) (4124 # 10000) (7827 # 10000);
  Mk_asb14_row (7 # 10) (109262 # 100000) (29 # 10000) (-11835 # 100000) (-91162 # 100000) (2529 # 10000) (75 # 10) (-5096 # 10000) (0 # 1) (167 # 10000) (675 # 100) (1000 # 1) (750 # 1) (25 # 10) (32 # 10) (-100469 # 100000) (-28772 # 100000) (6696 # 10000) (4135 # 10000) (787 # 1000);
  Mk_asb14_row (75 # 100) (95211 # 100000) (29 # 10000) (-12347 # 100000) (-88393 # 100000) (2529 # 10000) (75 # 10) (-5096 # 10000) (0 # 1) (141 # 10000) (675 # 100) (1000 # 1) (750 # 1) (25 # 10) (32 # 10) (-100786 # 100000) (-28957 # 100000) (6744 # 10000) (4043 # 10000) (7863 # 10000);
  Mk_asb14_row (8 # 10) (85227 # 100000) (29 # 10000) (-12678 # 100000) (-86884 # 100000) (2529 # 10000) (75 # 10) (-5096 # 10000) (0 # 1) (115 # 10000) (675 # 100) (1000 # 1) (750 # 1) (25 # 10) (32 # 10) (-100606 # 100000) (-28555 # 100000) (6716 # 10000) (3974 # 10000) (7804 # 10000);
  Mk_asb14_row (85 # 100) (76564 # 100000) (29 # 10000) (-13133 # 100000) (-85442 # 100000) (2529 # 10000) (75 # 10) (-5096 # 10000) (0 # 1) (89 # 10000) (675 # 100) (1000 # 1) (750 # 1) (25 # 10) (32 # 10) (-101093 # 100000) (-28364 # 100000) (6713 # 10000) (3971 # 10000) (78 # 100);
  Mk_asb14_row (9 # 10) (66856 # 100000) (29 # 10000) (-13551 # 100000) (-83929 # 100000) (2529 # 10000) (75 # 10) (-5096 # 10000) (0 # 1) (62 # 10000) (675 # 100) (1000 # 1) (750 # 1) (25 # 10) (32 # 10) (-101576 # 100000) (-28037 # 100000) (6738 # 10000) (3986 # 10000) (7829 # 10000);
  Mk_asb14_row (95 # 100) (58739 # 100000) (29 # 10000) (-13957 # 100000) (-82668 # 100000) (2529 # 10000) (75 # 10) (-5096 # 10000) (0 # 1) (16 # 10000) (675 # 100) (1000 # 1) (750 # 1) (25 # 10) (32 # 10) (-101353 # 100000) (-2839 # 10000) (6767 # 10000) (3949 # 10000) (7835 # 10000);
  Mk_asb14_row (1 # 1) (52349 # 100000) (29 # 10000) (-14345 # 100000) (-81838 # 100000) (2529 # 10000) (75 # 10) (-5096 # 10000) (0 # 1) (0 # 1) (675 # 100) (1000 # 1) (750 # 1) (25 # 10) (32 # 10) (-101331 # 100000) (-28702 # 100000) (6787 # 10000) (3943 # 10000) (7849 # 10000);
  Mk_asb14_row (11 # 10) (3768 # 10000) (29 # 10000) (-15051 # 100000) (-79691 # 100000) (2529 # 10000) (75 # 10) (-5096 # 10000) (0 # 1) (0 # 1) (675 # 100) (1000 # 1) (750 # 1) (25 # 10) (32 # 10) (-10124 # 10000) (-27669 # 100000) (6912 # 10000) (3806 # 10000) (7891 # 10000);
  Mk_asb14_row (12 # 10) (23251 # 100000) (29 # 10000) (-15527 # 100000) (-77813 # 100000) (2529 # 10000) (75 # 10) (-5096 # 10000) (0 # 1) (0 # 1) (675 # 100) (1000 # 1) (750 # 1) (25 # 10) (32 # 10) (-100489 # 100000) (-27538 # 100000) (7015 # 10000) (3802 # 10000) (7979 # 10000);
  Mk_asb14_row (13 # 10) (10481 # 100000) (29 # 10000) (-16106 # 100000) (-75888 # 100000) (2529 # 10000) (75 # 10) (-5096 # 10000) (0 # 1) (0 # 1) (675 # 100) (1000 # 1) (750 # 1) (25 # 10) (32 # 10) (-98876 # 100000) (-25008 # 100000) (7017 # 10000) (3803 # 10000) (7981 # 10000);
  Mk_asb14_row (14 # 10) (887 # 100000) (29 # 10000) (-16654 # 100000) (-74871 # 100000) (2529 # 10000) (75 # 10) (-5096 # 10000) (0 # 1) (0 # 1) (675 # 100) (1000 # 1) (750 # 1) (25 # 10) (32 # 10) (-9776 # 10000) (-23508 # 100000) (7141 # 10000) (3766 # 10000) (8073 # 10000);
  Mk_asb14_row (15 # 10) (-1867 # 100000) (29 # 10000) (-17187 # 100000) (-75751 # 100000) (2529 # 10000) (75 # 10) (-5096 # 10000) (0 # 1) (0 # 1) (675 # 100) (1000 # 1) (750 # 1) (25 # 10) (32 # 10) (-98071 # 100000) (-24695 # 100000) (7164 # 10000) (3799 # 10000) (8109 # 10000);
  Mk_asb14_row (16 # 10) (-996 # 10000) (29 # 10000) (-17728 # 100000) (-74823 # 100000) (2529 # 10000) (75 # 10) (-5096 # 10000) (0 # 1) (0 # 1) (675 # 100) (1000 # 1) (750 # 1) (25 # 10) (32 # 10) (-96369 # 100000) (-2287 # 10000) (7198 # 10000) (3817 # 10000) (8147 # 10000);
  Mk_asb14_row (17 # 10) (-21166 # 100000) (29 # 10000) (-17908 # 100000) (-73766 # 100000) (2529 # 10000) (75 # 10) (-5096 # 10000) (0 # 1) (0 # 1) (675 # 100) (1000 # 1) (750 # 1) (25 # 10) (32 # 10) (-94634 # 100000) (-21655 # 100000) (7226 # 10000) (3724 # 10000) (8129 # 10000);
  Mk_asb14_row (18 # 10) (-273 # 1000) (29 # 10000) (-18438 # 100000) (-72996 # 100000) (2529 # 10000) (75 # 10) (-5096 # 10000) (0 # 1) (-3 # 1000) (675 # 100) (1000 # 1) (750 # 1) (25 # 10) (32 # 10) (-93606 # 100000) (-20302 # 100000) (7241 # 10000) (371 # 1000) (8136 # 10000);
  Mk_asb14_row (19 # 10) (-35366 # 100000) (29 # 10000) (-18741 # 100000) (-72279 # 100000) (2529 # 10000) (75 # 10) (-5096 # 10000) (0 # 1) (-6 # 1000) (675 # 100) (1000 # 1) (750 # 1) (25 # 10) (32 # 10) (-91408 # 100000) (-18228 # 100000) (7266 # 10000) (3745 # 10000) (8174 # 10000);
  Mk_asb14_row (2 # 1) (-42891 # 100000) (29 # 10000) (-19029 # 100000) (-72033 # 100000) (2529 # 10000) (75 # 10) (-5096 # 10000) (0 # 1) (-9 # 1000) (675 # 100) (1000 # 1) (750 # 1) (25 # 10) (32 # 10) (-91007 # 100000) (-17336 # 100000) (7254 # 10000) (3717 # 10000) (8151 # 10000);
  Mk_asb14_row (22 # 10) (-55307 # 100000) (29 # 10000) (-19683 # 100000) (-71662 # 100000) (2529 # 10000) (75 # 10) (-5096 # 10000) (0 # 1) (-141 # 10000) (675 # 100) (1000 # 1) (750 # 1) (25 # 10) (32 # 10) (-89376 # 100000) (-15463 # 100000) (7207 # 10000) (3758 # 10000) (8128 # 10000);
  Mk_asb14_row (24 # 10) (-67806 # 100000) (29 # 10000) (-20339 # 100000) (-70452 # 100000) (2529 # 10000) (75 # 10) (-5096 # 10000) (0 # 1) (-284 # 10000) (675 # 100) (1000 # 1) (750 # 1) (25 # 10) (32 # 10) (-87052 # 100000) (-13181 # 100000) (7144 # 10000) (3973 # 10000) (8174 # 10000);
  Mk_asb14_row (26 # 10) (-80494 # 100000) (29 # 10000) (-20703 # 100000) (-69691 # 100000) (2529 # 10000) (75 # 10) (-5096 # 10000) (0 # 1) (-408 # 10000) (675 # 100) (1000 # 1) (750 # 1) (25 # 10) (32 # 10) (-85889 # 100000) (-14066 # 100000) (7122 # 10000) (4001 # 10000) (8169 # 10000);
  Mk_asb14_row (28 # 10) (-91278 # 100000) (29 # 10000) (-21074 # 100000) (-6956 # 10000) (2529 # 10000) (75 # 10) (-5096 # 10000) (0 # 1) (-534 # 10000) (675 # 100) (1000 # 1) (750 # 1) (25 # 10) (32 # 10) (-86106 # 100000) (-13882 # 100000) (7129 # 10000) (4025 # 10000) (8187 # 10000);
  Mk_asb14_row (3 # 1) (-105642 # 100000) (29 # 10000) (-21392 # 100000) (-69085 # 100000) (2529 # 10000) (75 # 10) (-5096 # 10000) (0 # 1) (-683 # 10000) (675 # 100) (1000 # 1) (750 # 1) (25 # 10) (32 # 10) (-85793 # 100000) (-13336 # 100000) (6997 # 10000) (4046 # 10000) (8083 # 10000);
  Mk_asb14_row (32 # 10) (-117715 # 100000) (29 # 10000) (-21361 # 100000) (-67711 # 100000) (2529 # 10000) (75 # 10) (-5096 # 10000) (0 # 1) (-78 # 1000) (675 # 100) (1000 # 1) (750 # 1) (25 # 10) (32 # 10) (-82094 # 100000) (-1377 # 10000) (682 # 1000) (4194 # 10000) (8006 # 10000);
  Mk_asb14_row (34 # 10) (-122091 # 100000) (29 # 10000) (-21951 # 100000) (-68177 # 100000) (2529 # 10000) (75 # 10) (-5096 # 10000) (0 # 1) (-943 # 10000) (675 # 100) (1000 # 1) (750 # 1) (25 # 10) (32 # 10) (-84449 # 100000) (-15337 # 100000) (6682 # 10000) (3971 # 10000) (7773 # 10000);
  Mk_asb14_row (36 # 10) (-134547 # 100000) (29 # 10000) (-22724 # 100000) (-65918 # 100000) (2529 # 10000) (75 # 10) (-5096 # 10000) (0 # 1) (-1278 # 10000) (675 # 100) (1000 # 1) (750 # 1) (25 # 10) (32 # 10) (-83216 # 100000) (-10884 # 100000) (6508 # 10000) (4211 # 10000) (7752 # 10000);
  Mk_asb14_row (38 # 10) (-13979 # 10000) (29 # 10000) (-2318 # 10000) (-65298 # 100000) (2529 # 10000) (75 # 10) (-5096 # 10000) (0 # 1) (-1744 # 10000) (675 # 100) (1000 # 1) (750 # 1) (25 # 10) (32 # 10) (-79216 # 100000) (-8884 # 100000) (6389 # 10000) (415 # 1000) (7619 # 10000);
  Mk_asb14_row (4 # 1) (-137536 # 100000) (29 # 10000) (-23848 # 100000) (-66482 # 100000) (2529 # 10000) (75 # 10) (-5096 # 10000) (0 # 1) (-2231 # 10000) (675 # 100) (1000 # 1) (750 # 1) (25 # 10) (32 # 10) (-75645 # 100000) (-7749 # 100000) (6196 # 10000) (3566 # 10000) (7149 # 10000)
].

(** akkar_sandikkaya_bommer_2014.py:44: data/akkar-sandikkaya-bommer-2014-dist_hyp.csv lines 4-67 (64 rows) *)
Definition asb14_hyp_coeff : list asb14_row := [
  Mk_asb14_row (0 # 1) (326685 # 100000) (29 # 10000) (-4846 # 100000) (-147905 # 100000) (2529 # 10000) (75 # 10) (-5096 # 10000) (-1091 # 10000) (937 # 10000) (675 # 100) (1000 # 1) (750 # 1) (25 # 10) (32 # 10) (-41997 # 100000) (-28846 # 100000) (6475 # 10000) (3472 # 10000) (7347 # 10000);
  Mk_asb14_row (-1 # 1) (672743 # 100000) (29 # 10000) (-11474 # 100000) (-117694 # 100000) (2529 # 10000) (75 # 10) (-5096 # 10000) (-616 # 10000) (63 # 1000) (675 # 100) (1000 # 1) (750 # 1) (25 # 10) (32 # 10) (-72057 # 100000) (-19688 # 100000) (628 # 1000) (3312 # 10000) (71 # 100);
  Mk_asb14_row (1 # 100) (328656 # 100000) (29 # 10000) (-4784 # 100000) (-148197 # 100000) (2529 # 10000) (75 # 10) (-5096 # 10000) (-1115 # 10000) (953 # 10000) (675 # 100) (1000 # 1) (750 # 1) (25 # 10) (32 # 10) (-41729 # 100000) (-28685 # 100000) (6492 # 10000) (3481 # 10000) (7366 # 10000);
  Mk_asb14_row (2 # 100) (338936 # 100000) (29 # 10000) (-4796 # 100000) (-150214 # 100000) (2529 # 10000) (75 # 10) (-5096 # 10000) (-104 # 1000) (1029 # 10000) (675 # 100) (1000 # 1) (750 # 1) (25 # 10) (32 # 10) (-39998 # 100000) (-28241 # 100000) (6543 # 10000) (3508 # 10000) (7424 # 10000);
  Mk_asb14_row (3 # 100) (353155 # 100000) (29 # 10000) (-4537 # 100000) (-152781 # 100000) (2529 # 10000) (75 # 10) (-5096 # 10000) (-973 # 10000) (1148 # 10000) (675 # 100) (1000 # 1) (750 # 1) (25 # 10) (32 # 10) (-34799 # 100000) (-26842 # 100000) (6685 # 10000) (3526 # 10000) (7558 # 10000);
  Mk_asb14_row (4 # 100) (368895 # 100000) (29 # 10000) (-3991 # 100000) (-155693 # 100000) (2529 # 10000) (75 # 10) (-5096 # 10000) (-884 # 10000) (1073 # 10000) (675 # 100) (1000 # 1) (750 # 1) (25 # 10) (32 # 10) (-27572 # 100000) (-24759 # 100000) (6816 # 10000) (3513 # 10000) (7668 # 10000);
  Mk_asb14_row (5 # 100) (386581 # 100000) (29 # 10000) (-349 # 10000) (-158672 # 100000) (2529 # 10000) (75 # 10) (-5096 # 10000) (-853 # 10000) (1052 # 10000) (675 # 100) (1000 # 1) (750 # 1) (25 # 10) (32 # 10) (-21231 # 100000) (-22385 # 100000) (6899 # 10000) (3659 # 10000) (7809 # 10000);
  Mk_asb14_row (75 # 1000) (418224 # 100000) (29 # 10000) (-2826 # 100000) (-162527 # 100000) (2529 # 10000) (75 # 10) (-5096 # 10000) (-779 # 10000) (837 # 10000) (675 # 100) (1000 # 1) (750 # 1) (25 # 10) (32 # 10) (-14427 # 100000) (-17525 # 100000) (6881 # 10000) (3942 # 10000) (793 # 1000);
  Mk_asb14_row (1 # 10) (44375 # 10000) (29 # 10000) (-3256 # 100000) (-165601 # 100000) (2529 # 10000) (75 # 10) (-5096 # 10000) (-749 # 10000) (761 # 10000) (675 # 100) (1000 # 1) (750 # 1) (25 # 10) (32 # 10) (-27064 # 100000) (-29293 # 100000) (6936 # 10000) (4122 # 10000) (8068 # 10000);
  Mk_asb14_row (11 # 100) (448828 # 100000) (29 # 10000) (-3407 # 100000) (-165903 # 100000) (2529 # 10000) (75 # 10) (-5096 # 10000) (-704 # 10000) (707 # 10000) (675 # 100) (1000 # 1) (750 # 1) (25 # 10) (32 # 10) (-31025 # 100000) (-31837 # 100000) (6965 # 10000) (4065 # 10000) (8064 # 10000);
  Mk_asb14_row (12 # 100) (451414 # 100000) (29 # 10000) (-3635 # 100000) (-16547 # 10000) (2529 # 10000) (75 # 10) (-5096 # 10000) (-604 # 10000) (653 # 10000) (675 # 100) (1000 # 1) (750 # 1) (25 # 10) (32 # 10) (-34796 # 100000) (-3386 # 10000) (7022 # 10000) (3964 # 10000) (8064 # 10000);
  Mk_asb14_row (13 # 100) (45329 # 10000) (29 # 10000) (-3929 # 100000) (-164994 # 100000) (2529 # 10000) (75 # 10) (-5096 # 10000) (-49 # 1000) (617 # 10000) (675 # 100) (1000 # 1) (750 # 1) (25 # 10) (32 # 10) (-39668 # 100000) (-36646 # 100000) (7043 # 10000) (3937 # 10000) (8069 # 10000);
  Mk_asb14_row (14 # 100) (453834 # 100000) (29 # 10000) (-42 # 1000) (-164398 # 100000) (2529 # 10000) (75 # 10) (-5096 # 10000) (-377 # 10000) (581 # 10000) (675 # 100) (1000 # 1) (750 # 1) (25 # 10) (32 # 10) (-43996 # 100000) (-38417 # 100000) (7071 # 10000) (3853 # 10000) (8053 # 10000);
  Mk_asb14_row (15 # 100) (452949 # 100000) (29 # 10000) (-4509 # 100000) (-163467 # 100000) (2529 # 10000) (75 # 10) (-5096 # 10000) (-265 # 10000) (545 # 10000) (675 # 100) (1000 # 1) (750 # 1) (25 # 10) (32 # 10) (-48313 # 100000) (-39551 # 100000) (7048 # 10000) (3779 # 10000) (7997 # 10000);
  Mk_asb14_row (16 # 100) (447016 # 100000) (29 # 10000) (-4701 # 100000) (-161626 # 100000) (2529 # 10000) (75 # 10) (-5096 # 10000) (-194 # 10000) (509 # 10000) (675 # 100) (1000 # 1) (750 # 1) (25 # 10) (32 # 10) (-52431 # 100000) (-40869 # 100000) (7032 # 10000) (3851 # 10000) (8017 # 10000);
  Mk_asb14_row (17 # 100) (440011 # 100000) (29 # 10000) (-4932 # 100000) (-159485 # 100000) (2529 # 10000) (75 # 10) (-5096 # 10000) (-125 # 10000) (507 # 10000) (675 # 100) (1000 # 1) (750 # 1) (25 # 10) (32 # 10) (-5568 # 10000) (-41528 # 100000) (7011 # 10000) (39 # 100) (8023 # 10000);
  Mk_asb14_row (18 # 100) (433238 # 100000) (29 # 10000) (-5181 # 100000) (-157545 # 100000) (2529 # 10000) (75 # 10) (-5096 # 10000) (-56 # 10000) (502 # 10000) (675 # 100) (1000 # 1) (750 # 1) (25 # 10) (32 # 10) (-58922 # 100000) (-42717 # 100000) (6992 # 10000) (3889 # 10000) (8001 # 10000);
  Mk_asb14_row (19 # 100) (426395 # 100000) (29 # 10000) (-5442 # 100000) (-155685 # 100000) (2529 # 10000) (75 # 10) (-5096 # 10000) (0 # 1) (497 # 10000) (675 # 100) (1000 # 1) (750 # 1) (25 # 10) (32 # 10) (-62635 # 100000) (-4413 # 10000) (6947 # 10000) (3903 # 10000) (7968 # 10000);
  Mk_asb14_row (2 # 10) (41775 # 10000) (29 # 10000) (-5565 # 100000) (-153574 # 100000) (2529 # 10000) (75 # 10) (-5096 # 10000) (0 # 1) (493 # 10000) (675 # 100) (1000 # 1) (750 # 1) (25 # 10) (32 # 10) (-65315 # 100000) (-44644 # 100000) (6954 # 10000) (3848 # 10000) (7948 # 10000);
  Mk_asb14_row (22 # 100) (403111 # 100000) (29 # 10000) (-5817 # 100000) (-150045 # 100000) (2529 # 10000) (75 # 10) (-5096 # 10000) (0 # 1) (488 # 10000) (675 # 100) (1000 # 1) (750 # 1) (25 # 10) (32 # 10) (-68711 # 100000) (-44872 # 100000) (6925 # 10000) (3891 # 10000) (7943 # 10000);
  Mk_asb14_row (24 # 100) (390131 # 100000) (29 # 10000) (-6152 # 100000) (-146889 # 100000) (2529 # 10000) (75 # 10) (-5096 # 10000) (0 # 1) (483 # 10000) (675 # 100) (1000 # 1) (750 # 1) (25 # 10) (32 # 10) (-72744 # 100000) (-46341 # 100000) (6973 # 10000) (3839 # 10000) (796 # 1000);
  Mk_asb14_row (26 # 100) (382611 # 100000) (29 # 10000) (-6706 # 100000) (-144738 # 100000) (2529 # 10000) (75 # 10) (-5096 # 10000) (0 # 1) (478 # 10000) (675 # 100) (1000 # 1) (750 # 1) (25 # 10) (32 # 10) (-77335 # 100000) (-48705 # 100000) (6973 # 10000) (3839 # 10000) (796 # 1000);
  Mk_asb14_row (28 # 100) (36978 # 10000) (29 # 10000) (-706 # 10000) (-141925 # 100000) (2529 # 10000) (75 # 10) (-5096 # 10000) (0 # 1) (474 # 10000) (675 # 100) (1000 # 1) (750 # 1) (25 # 10) (32 # 10) (-80508 # 100000) (-47334 # 100000) (6914 # 10000) (3865 # 10000) (7921 # 10000);
  Mk_asb14_row (3 # 10) (357698 # 100000) (29 # 10000) (-749 # 10000) (-138832 # 100000) (2529 # 10000) (75 # 10) (-5096 # 10000) (0 # 1) (469 # 10000) (675 # 100) (1000 # 1) (750 # 1) (25 # 10) (32 # 10) (-82609 # 100000) (-4573 # 10000) (6934 # 10000) (3896 # 10000) (7954 # 10000);
  Mk_asb14_row (32 # 100) (340759 # 100000) (29 # 10000) (-7756 # 100000) (-134898 # 100000) (2529 # 10000) (75 # 10) (-5096 # 10000) (0 # 1) (464 # 10000) (675 # 100) (1000 # 1) (750 # 1) (25 # 10) (32 # 10) (-8408 # 10000) (-44267 # 100000) (6992 # 10000) (3908 # 10000) (801 # 1000);
  Mk_asb14_row (34 # 100) (32758 # 10000) (29 # 10000) (-8183 # 100000) (-131609 # 100000) (2529 # 10000) (75 # 10) (-5096 # 10000) (0 # 1) (459 # 10000) (675 # 100) (1000 # 1) (750 # 1) (25 # 10) (32 # 10) (-86251 # 100000) (-43888 # 100000) (699 # 1000) (3888 # 10000) (7999 # 10000);
  Mk_asb14_row (36 # 100) (319725 # 100000) (29 # 10000) (-8602 # 100000) (-129558 # 100000) (2529 # 10000) (75 # 10) (-5096 # 10000) (0 # 1) (459 # 10000) (675 # 100) (1000 # 1) (750 # 1) (25 # 10) (32 # 10) (-87479 # 100000) (-4382 # 10000) (7006 # 10000) (3916 # 10000) (8026 # 10000);
  Mk_asb14_row (38 # 100) (311035 # 100000) (29 # 10000) (-8937 # 100000) (-127591 # 100000) (2529 # 10000) (75 # 10) (-5096 # 10000) (0 # 1) (429 # 10000) (675 # 100) (1000 # 1) (750 # 1) (25 # 10) (32 # 10) (-88522 # 100000) (-43678 # 100000) (7036 # 10000) (3913 # 10000) (8051 # 10000);
  Mk_asb14_row (4 # 10) (303752 # 100000) (29 # 10000) (-9243 # 100000) (-126045 # 100000) (2529 # 10000) (75 # 10) (-5096 # 10000) (0 # 1) (4 # 100) (675 # 100) (1000 # 1) (750 # 1) (25 # 10) (32 # 10) (-89517 # 100000) (-43008 # 100000) (7037 # 10000) (3894 # 10000) (8043 # 10000);
  Mk_asb14_row (42 # 100) (297485 # 100000) (29 # 10000) (-9556 # 100000) (-124891 # 100000) (2529 # 10000) (75 # 10) (-5096 # 10000) (0 # 1) (374 # 10000) (675 # 100) (1000 # 1) (750 # 1) (25 # 10) (32 # 10) (-90875 # 100000) (-4219 # 10000) (7023 # 10000) (3847 # 10000) (8008 # 10000);
  Mk_asb14_row (44 # 100) (290617 # 100000) (29 # 10000) (-9822 # 100000) (-1237 # 1000) (2529 # 10000) (75 # 10) (-5096 # 10000) (0 # 1) (349 # 10000) (675 # 100) (1000 # 1) (750 # 1) (25 # 10) (32 # 10) (-91922 # 100000) (-40903 # 100000) (6956 # 10000) (3908 # 10000) (7979 # 10000);
  Mk_asb14_row (46 # 100) (285484 # 100000) (29 # 10000) (-10132 # 100000) (-122822 # 100000) (2529 # 10000) (75 # 10) (-5096 # 10000) (0 # 1) (323 # 10000) (675 # 100) (1000 # 1) (750 # 1) (25 # 10) (32 # 10) (-9267 # 10000) (-39442 # 100000) (6893 # 10000) (3986 # 10000) (7963 # 10000);
  Mk_asb14_row (48 # 100) (28172 # 10000) (29 # 10000) (-1056 # 10000) (-121874 # 100000) (2529 # 10000) (75 # 10) (-5096 # 10000) (0 # 1) (297 # 10000) (675 # 100) (1000 # 1) (750 # 1) (25 # 10) (32 # 10) (-9372 # 10000) (-38462 # 100000) (6852 # 10000) (4017 # 10000) (7943 # 10000);
  Mk_asb14_row (5 # 10) (277997 # 100000) (29 # 10000) (-10964 # 100000) (-120953 # 100000) (2529 # 10000) (75 # 10) (-5096 # 10000) (0 # 1) (271 # 10000) (675 # 100) (1000 # 1) (750 # 1) (25 # 10) (32 # 10) (-94614 # 100000) (-37408 # 100000) (6821 # 10000) (4017 # 10000) (7916 # 10000);
  Mk_asb14_row (55 # 100) (262299 # 100000) (29 # 10000) (-11701 # 100000) (-11801 # 10000) (2529 # 10000) (75 # 10) (-5096 # 10000) (0 # 1) (245 # 10000) (675 # 100) (1000 # 1) (750 # 1) (25 # 10) (32 # 10) (-96564 # 100000) (-35582 # 100000) (6866 # 10000) (4044 # 10000) (7968 # 10000);
  Mk_asb14_row (6 # 10) (242234 # 100000) (29 # 10000) (-12106 # 100000) (-114424 # 100000) (2529 # 10000) (75 # 10) (-5096 # 10000) (0 # 1) (219 # 10000) (675 # 100) (1000 # 1) (750 # 1) (25 # 10) (32 # 10) (-98499 # 100000) (-34053 # 100000) (6926 # 10000) (4005 # 10000) (8001 # 10000);
  Mk_asb14_row (65 # 100) (22277 # 10000) (29 # 10000) (-12555 # 100000) (-110853 # 100000) (2529 # 10000) (75 # 10) (-5096 # 10000) (0 # 1) (193 # 10000) (675 # 100) (1000 # 1) (750 # 1) (25 # 10) (32 # 10) (-99733 # 100000) (-30949 # 100000) (6949 # 10000) (3981 # 10000) (8009 # 10000);
  Mk_asb14_row (7 # 10) (208102 # 100000) (29 # 10000) (-13074 # 100000) (-108192 # 100000) (2529 # 10000) (75 # 10) (-5096 # 10000) (0 # 1) (167 # 10000) (675 # 100) (1000 # 1) (750 # 1) (25 # 10) (32 # 10) (-100469 # 100000) (-28772 # 100000) (6993 # 10000) (3967 # 10000) (804 # 1000);
  Mk_asb14_row (75 # 100) (191625 # 100000) (29 # 10000) (-13547 # 100000) (-105027 # 100000) (2529 # 10000) (75 # 10) (-5096 # 10000) (0 # 1) (141 # 10000) (675 # 100) (1000 # 1) (750 # 1) (25 # 10) (32 # 10) (-100786 # 100000) (-28957 # 100000) (7028 # 10000) (389 # 1000) (8033 # 10000);
  Mk_asb14_row (8 # 10) (181167 # 100000) (29 # 10000) (-13856 # 100000) (-103514 # 100000) (2529 # 10000) (75 # 10) (-5096 # 10000) (0 # 1) (115 # 10000) (675 # 100) (1000 # 1) (750 # 1) (25 # 10) (32 # 10) (-100606 # 100000) (-28555 # 100000) (6981 # 10000) (3824 # 10000) (796 # 1000);
  Mk_asb14_row (85 # 100) (171853 # 100000) (29 # 10000) (-14294 # 100000) (-10201 # 10000) (2529 # 10000) (75 # 10) (-5096 # 10000) (0 # 1) (89 # 10000) (675 # 100) (1000 # 1) (750 # 1) (25 # 10) (32 # 10) (-101093 # 100000) (-28364 # 100000) (6959 # 10000) (3831 # 10000) (7944 # 10000);
  Mk_asb14_row (9 # 10) (160822 # 100000) (29 # 10000) (-14669 # 100000) (-100315 # 100000) (2529 # 10000) (75 # 10) (-5096 # 10000) (0 # 1) (62 # 10000) (675 # 100) (1000 # 1) (750 # 1) (25 # 10) (32 # 10) (-101576 # 100000) (-28037 # 100000) (6983 # 10000) (3825 # 10000) (7962 # 10000);
  Mk_asb14_row (95 # 100) (151532 # 100000) (29 # 10000) (-15056 # 100000) (-98859 # 100000) (2529 # 10000) (75 # 10) (-5096 # 10000) (0 # 1) (16 # 10000) (675 # 100) (1000 # 1) (750 # 1) (25 # 10) (32 # 10) (-101353 # 100000) (-2839 # 10000) (7006 # 10000) (3797 # 10000) (7969 # 10000);
  Mk_asb14_row (1 # 1) (143982 # 100000) (29 # 10000) (-15427 # 100000) (-97812 # 100000) (2529 # 10000) (75 # 10) (-5096 # 10000) (0 # 1) (0 # 1) (675 # 100) (1000 # 1) (750 # 1) (25 # 10) (32 # 10) (-101331 # 100000) (-28702 # 100000) (7022 # 10000) (3826 # 10000) (7997 # 10000);
  Mk_asb14_row (11 # 10) (126728 # 100000) (29 # 10000) (-16107 # 100000) (-95163 # 100000) (2529 # 10000) (75 # 10) (-5096 # 10000) (0 # 1) (0 # 1) (675 # 100) (1000 # 1) (750 # 1) (25 # 10) (32 # 10) (-10124 # 10000) (-27669 # 100000) (7137 # 10000) (3721 # 10000) (8049 # 10000);
  Mk_asb14_row (12 # 10) (111475 # 100000) (29 # 10000) (-1663 # 10000) (-93048 # 100000) (2529 # 10000) (75 # 10) (-5096 # 10000) (0 # 1) (0 # 1) (675 # 100) (1000 # 1) (750 # 1) (25 # 10) (32 # 10) (-100489 # 100000) (-27538 # 100000) (7224 # 10000) (3723 # 10000) (8127 # 10000);
  Mk_asb14_row (13 # 10) (95965 # 100000) (29 # 10000) (-1717 # 10000) (-90604 # 100000) (2529 # 10000) (75 # 10) (-5096 # 10000) (0 # 1) (0 # 1) (675 # 100) (1000 # 1) (750 # 1) (25 # 10) (32 # 10) (-98876 # 100000) (-25008 # 100000) (7226 # 10000) (3746 # 10000) (8139 # 10000);
  Mk_asb14_row (14 # 10) (85203 # 100000) (29 # 10000) (-17699 # 100000) (-89379 # 100000) (2529 # 10000) (75 # 10) (-5096 # 10000) (0 # 1) (0 # 1) (675 # 100) (1000 # 1) (750 # 1) (25 # 10) (32 # 10) (-9776 # 10000) (-23508 # 100000) (7349 # 10000) (3697 # 10000) (8227 # 10000);
  Mk_asb14_row (15 # 10) (83007 # 100000) (29 # 10000) (-18248 # 100000) (-90319 # 100000) (2529 # 10000) (75 # 10) (-5096 # 10000) (0 # 1) (0 # 1) (675 # 100) (1000 # 1) (750 # 1) (25 # 10) (32 # 10) (-98071 # 100000) (-24695 # 100000) (7378 # 10000) (3758 # 10000) (828 # 1000);
  Mk_asb14_row (16 # 10) (74487 # 100000) (29 # 10000) (-18787 # 100000) (-89323 # 100000) (2529 # 10000) (75 # 10) (-5096 # 10000) (0 # 1) (0 # 1) (675 # 100) (1000 # 1) (750 # 1) (25 # 10) (32 # 10) (-96369 # 100000) (-2287 # 10000) (7406 # 10000) (3794 # 10000) (8321 # 10000);
  Mk_asb14_row (17 # 10) (63568 # 100000) (29 # 10000) (-18961 # 100000) (-88392 # 100000) (2529 # 10000) (75 # 10) (-5096 # 10000) (0 # 1) (0 # 1) (675 # 100) (1000 # 1) (750 # 1) (25 # 10) (32 # 10) (-94634 # 100000) (-21655 # 100000) (7418 # 10000) (3686 # 10000) (8283 # 10000);
  Mk_asb14_row (18 # 10) (56996 # 100000) (29 # 10000) (-19551 # 100000) (-87459 # 100000) (2529 # 10000) (75 # 10) (-5096 # 10000) (0 # 1) (-3 # 1000) (675 # 100) (1000 # 1) (750 # 1) (25 # 10) (32 # 10) (-93606 # 100000) (-20302 # 100000) (7431 # 10000) (3692 # 10000) (8298 # 10000);
  Mk_asb14_row (19 # 10) (485 # 1000) (29 # 10000) (-19853 # 100000) (-86659 # 100000) (2529 # 10000) (75 # 10) (-5096 # 10000) (0 # 1) (-6 # 1000) (675 # 100) (1000 # 1) (750 # 1) (25 # 10) (32 # 10) (-91408 # 100000) (-18228 # 100000) (7457 # 10000) (3705 # 10000) (8327 # 10000);
  Mk_asb14_row (2 # 1) (40614 # 100000) (29 # 10000) (-20136 # 100000) (-86343 # 100000) (2529 # 10000) (75 # 10) (-5096 # 10000) (0 # 1) (-9 # 1000) (675 # 100) (1000 # 1) (750 # 1) (25 # 10) (32 # 10) (-91007 # 100000) (-17336 # 100000) (7446 # 10000) (3676 # 10000) (8304 # 10000);
  Mk_asb14_row (22 # 10) (28608 # 100000) (29 # 10000) (-20791 # 100000) (-86086 # 100000) (2529 # 10000) (75 # 10) (-5096 # 10000) (0 # 1) (-141 # 10000) (675 # 100) (1000 # 1) (750 # 1) (25 # 10) (32 # 10) (-89376 # 100000) (-15463 # 100000) (7391 # 10000) (3718 # 10000) (8273 # 10000);
  Mk_asb14_row (24 # 10) (15432 # 100000) (29 # 10000) (-2148 # 10000) (-84778 # 100000) (2529 # 10000) (75 # 10) (-5096 # 10000) (0 # 1) (-284 # 10000) (675 # 100) (1000 # 1) (750 # 1) (25 # 10) (32 # 10) (-87052 # 100000) (-13181 # 100000) (7311 # 10000) (3941 # 10000) (8306 # 10000);
  Mk_asb14_row (26 # 10) (225 # 10000) (29 # 10000) (-21843 # 100000) (-83937 # 100000) (2529 # 10000) (75 # 10) (-5096 # 10000) (0 # 1) (-408 # 10000) (675 # 100) (1000 # 1) (750 # 1) (25 # 10) (32 # 10) (-85889 # 100000) (-14066 # 100000) (7281 # 10000) (3967 # 10000) (8292 # 10000);
  Mk_asb14_row (28 # 10) (-7822 # 100000) (29 # 10000) (-22224 # 100000) (-83964 # 100000) (2529 # 10000) (75 # 10) (-5096 # 10000) (0 # 1) (-534 # 10000) (675 # 100) (1000 # 1) (750 # 1) (25 # 10) (32 # 10) (-86106 # 100000) (-13882 # 100000) (7279 # 10000) (3987 # 10000) (8299 # 10000);
  Mk_asb14_row (3 # 1) (-22534 # 100000) (29 # 10000) (-22564 # 100000) (-83314 # 100000) (2529 # 10000) (75 # 10) (-5096 # 10000) (0 # 1) (-683 # 10000) (675 # 100) (1000 # 1) (750 # 1) (25 # 10) (32 # 10) (-85793 # 100000) (-13336 # 100000) (7154 # 10000) (4019 # 10000) (8206 # 10000);
  Mk_asb14_row (32 # 10) (-36165 # 100000) (29 # 10000) (-22496 # 100000) (-81702 # 100000) (2529 # 10000) (75 # 10) (-5096 # 10000) (0 # 1) (-78 # 1000) (675 # 100) (1000 # 1) (750 # 1) (25 # 10) (32 # 10) (-82094 # 100000) (-1377 # 10000) (6984 # 10000) (4113 # 10000) (8105 # 10000);
  Mk_asb14_row (34 # 10) (-39423 # 100000) (29 # 10000) (-23237 # 100000) (-82109 # 100000) (2529 # 10000) (75 # 10) (-5096 # 10000) (0 # 1) (-943 # 10000) (675 # 100) (1000 # 1) (750 # 1) (25 # 10) (32 # 10) (-84449 # 100000) (-15337 # 100000) (6867 # 10000) (38 # 100) (7848 # 10000);
  Mk_asb14_row (36 # 10) (-54126 # 100000) (29 # 10000) (-24003 # 100000) (-79431 # 100000) (2529 # 10000) (75 # 10) (-5096 # 10000) (0 # 1) (-1278 # 10000) (675 # 100) (1000 # 1) (750 # 1) (25 # 10) (32 # 10) (-83216 # 100000) (-10884 # 100000) (6687 # 10000) (4009 # 10000) (7797 # 10000);
  Mk_asb14_row (38 # 10) (-59607 # 100000) (29 # 10000) (-24448 # 100000) (-78785 # 100000) (2529 # 10000) (75 # 10) (-5096 # 10000) (0 # 1) (-1744 # 10000) (675 # 100) (1000 # 1) (750 # 1) (25 # 10) (32 # 10) (-79216 # 100000) (-8884 # 100000) (6565 # 10000) (3952 # 10000) (7663 # 10000);
  Mk_asb14_row (4 # 1) (-51893 # 100000) (29 # 10000) (-25256 # 100000) (-80922 # 100000) (2529 # 10000) (75 # 10) (-5096 # 10000) (0 # 1) (-2231 # 10000) (675 # 100) (1000 # 1) (750 # 1) (25 # 10) (32 # 10) (-75645 # 100000) (-7749 # 100000) (6364 # 10000) (3318 # 10000) (7177 # 10000)
].

(** akkar_sandikkaya_bommer_2014.py:44: data/akkar-sandikkaya-bommer-2014-dist_epi.csv lines 4-67 (64 rows) *)
Definition asb14_epi_coeff : list asb14_row := [
  Mk_asb14_row (0 # 1) (252977 # 100000) (29 # 10000) (-5496 # 100000) (-131001 # 100000) (2529 # 10000) (75 # 10) (-5096 # 10000) (-1091 # 10000) (937 # 10000) (675 # 100) (1000 # 1) (750 # 1) (25 # 10) (32 # 10) (-41997 # 100000) (-28846 # 100000) (6375 # 10000) (3581 # 10000) (7312 # 10000);
  Mk_asb14_row (-1 # 1) (613498 # 100000) (29 # 10000) (-12091 # 100000) (-104013 # 100000) (2529 # 10000) (75 # 10) (-5096 # 10000) (-616 # 10000) (63 # 1000) (675 # 100) (1000 # 1) (750 # 1) (25 # 10) (32 # 10) (-72057 # 100000) (-19688 # 100000) (6143 # 10000) (3485 # 10000) (7063 # 10000);
  Mk_asb14_row (1 # 100) (254832 # 100000) (29 # 10000) (-5434 # 100000) (-131268 # 100000) (2529 # 10000) (75 # 10) (-5096 # 10000) (-1115 # 10000) (953 # 10000) (675 # 100) (1000 # 1) (750 # 1) (25 # 10) (32 # 10) (-41729 # 100000) (-28685 # 100000) (6389 # 10000) (3607 # 10000) (7337 # 10000);
  Mk_asb14_row (2 # 100) (26442 # 10000) (29 # 10000) (-5452 # 100000) (-133135 # 100000) (2529 # 10000) (75 # 10) (-5096 # 10000) (-104 # 1000) (1029 # 10000) (675 # 100) (1000 # 1) (750 # 1) (25 # 10) (32 # 10) (-39998 # 100000) (-28241 # 100000) (6434 # 10000) (3615 # 10000) (738 # 1000);
  Mk_asb14_row (3 # 100) (277723 # 100000) (29 # 10000) (-5196 # 100000) (-135509 # 100000) (2529 # 10000) (75 # 10) (-5096 # 10000) (-973 # 10000) (1148 # 10000) (675 # 100) (1000 # 1) (750 # 1) (25 # 10) (32 # 10) (-34799 # 100000) (-26842 # 100000) (6569 # 10000) (3617 # 10000) (7499 # 10000);
  Mk_asb14_row (4 # 100) (292666 # 100000) (29 # 10000) (-4657 # 100000) (-138259 # 100000) (2529 # 10000) (75 # 10) (-5096 # 10000) (-884 # 10000) (1073 # 10000) (675 # 100) (1000 # 1) (750 # 1) (25 # 10) (32 # 10) (-27572 # 100000) (-24759 # 100000) (6693 # 10000) (353 # 1000) (7567 # 10000);
  Mk_asb14_row (5 # 100) (309355 # 100000) (29 # 10000) (-4168 # 100000) (-141008 # 100000) (2529 # 10000) (75 # 10) (-5096 # 10000) (-853 # 10000) (1052 # 10000) (675 # 100) (1000 # 1) (750 # 1) (25 # 10) (32 # 10) (-21231 # 100000) (-22385 # 100000) (6773 # 10000) (3612 # 10000) (7676 # 10000);
  Mk_asb14_row (75 # 1000) (338462 # 100000) (29 # 10000) (-3506 # 100000) (-144268 # 100000) (2529 # 10000) (75 # 10) (-5096 # 10000) (-779 # 10000) (837 # 10000) (675 # 100) (1000 # 1) (750 # 1) (25 # 10) (32 # 10) (-14427 # 100000) (-17525 # 100000) (6791 # 10000) (3853 # 10000) (7808 # 10000);
  Mk_asb14_row (1 # 10) (361906 # 100000) (29 # 10000) (-3936 # 100000) (-14687 # 10000) (2529 # 10000) (75 # 10) (-5096 # 10000) (-749 # 10000) (761 # 10000) (675 # 100) (1000 # 1) (750 # 1) (25 # 10) (32 # 10) (-27064 # 100000) (-29293 # 100000) (6851 # 10000) (416 # 1000) (8015 # 10000);
  Mk_asb14_row (11 # 100) (366537 # 100000) (29 # 10000) (-4081 # 100000) (-147079 # 100000) (2529 # 10000) (75 # 10) (-5096 # 10000) (-704 # 10000) (707 # 10000) (675 # 100) (1000 # 1) (750 # 1) (25 # 10) (32 # 10) (-31025 # 100000) (-31837 # 100000) (6884 # 10000) (4163 # 10000) (8045 # 10000);
  Mk_asb14_row (12 # 100) (368544 # 100000) (29 # 10000) (-4295 # 100000) (-14652 # 10000) (2529 # 10000) (75 # 10) (-5096 # 10000) (-604 # 10000) (653 # 10000) (675 # 100) (1000 # 1) (750 # 1) (25 # 10) (32 # 10) (-34796 # 100000) (-3386 # 10000) (696 # 1000) (4118 # 10000) (8087 # 10000);
  Mk_asb14_row (13 # 100) (370155 # 100000) (29 # 10000) (-4581 # 100000) (-145986 # 100000) (2529 # 10000) (75 # 10) (-5096 # 10000) (-49 # 1000) (617 # 10000) (675 # 100) (1000 # 1) (750 # 1) (25 # 10) (32 # 10) (-39668 # 100000) (-36646 # 100000) (6997 # 10000) (4102 # 10000) (8111 # 10000);
  Mk_asb14_row (14 # 100) (370871 # 100000) (29 # 10000) (-4848 # 100000) (-145433 # 100000) (2529 # 10000) (75 # 10) (-5096 # 10000) (-377 # 10000) (581 # 10000) (675 # 100) (1000 # 1) (750 # 1) (25 # 10) (32 # 10) (-43996 # 100000) (-38417 # 100000) (7032 # 10000) (4028 # 10000) (8104 # 10000);
  Mk_asb14_row (15 # 100) (370477 # 100000) (29 # 10000) (-5156 # 100000) (-144613 # 100000) (2529 # 10000) (75 # 10) (-5096 # 10000) (-265 # 10000) (545 # 10000) (675 # 100) (1000 # 1) (750 # 1) (25 # 10) (32 # 10) (-48313 # 100000) (-39551 # 100000) (7011 # 10000) (3978 # 10000) (8061 # 10000);
  Mk_asb14_row (16 # 100) (365565 # 100000) (29 # 10000) (-535 # 10000) (-142989 # 100000) (2529 # 10000) (75 # 10) (-5096 # 10000) (-194 # 10000) (509 # 10000) (675 # 100) (1000 # 1) (750 # 1) (25 # 10) (32 # 10) (-52431 # 100000) (-40869 # 100000) (6997 # 10000) (3989 # 10000) (8054 # 10000);
  Mk_asb14_row (17 # 100) (359764 # 100000) (29 # 10000) (-5583 # 100000) (-14111 # 10000) (2529 # 10000) (75 # 10) (-5096 # 10000) (-125 # 10000) (507 # 10000) (675 # 100) (1000 # 1) (750 # 1) (25 # 10) (32 # 10) (-5568 # 10000) (-41528 # 100000) (697 # 1000) (403 # 1000) (8051 # 10000);
  Mk_asb14_row (18 # 100) (353732 # 100000) (29 # 10000) (-583 # 10000) (-139329 # 100000) (2529 # 10000) (75 # 10) (-5096 # 10000) (-56 # 10000) (502 # 10000) (675 # 100) (1000 # 1) (750 # 1) (25 # 10) (32 # 10) (-58922 # 100000) (-42717 # 100000) (6956 # 10000) (4041 # 10000) (8045 # 10000);
  Mk_asb14_row (19 # 100) (347722 # 100000) (29 # 10000) (-609 # 10000) (-137648 # 100000) (2529 # 10000) (75 # 10) (-5096 # 10000) (0 # 1) (497 # 10000) (675 # 100) (1000 # 1) (750 # 1) (25 # 10) (32 # 10) (-62635 # 100000) (-4413 # 10000) (6915 # 10000) (4017 # 10000) (7997 # 10000);
  Mk_asb14_row (2 # 10) (340112 # 100000) (29 # 10000) (-621 # 10000) (-13577 # 10000) (2529 # 10000) (75 # 10) (-5096 # 10000) (0 # 1) (493 # 10000) (675 # 100) (1000 # 1) (750 # 1) (25 # 10) (32 # 10) (-65315 # 100000) (-44644 # 100000) (6922 # 10000) (3965 # 10000) (7977 # 10000);
  Mk_asb14_row (22 # 100) (327214 # 100000) (29 # 10000) (-6461 # 100000) (-132624 # 100000) (2529 # 10000) (75 # 10) (-5096 # 10000) (0 # 1) (488 # 10000) (675 # 100) (1000 # 1) (750 # 1) (25 # 10) (32 # 10) (-68711 # 100000) (-44872 # 100000) (6893 # 10000) (4005 # 10000) (7972 # 10000);
  Mk_asb14_row (24 # 100) (315842 # 100000) (29 # 10000) (-6791 # 100000) (-129833 # 100000) (2529 # 10000) (75 # 10) (-5096 # 10000) (0 # 1) (483 # 10000) (675 # 100) (1000 # 1) (750 # 1) (25 # 10) (32 # 10) (-72744 # 100000) (-46341 # 100000) (6942 # 10000) (3919 # 10000) (7972 # 10000);
  Mk_asb14_row (26 # 100) (309498 # 100000) (29 # 10000) (-7344 # 100000) (-127945 # 100000) (2529 # 10000) (75 # 10) (-5096 # 10000) (0 # 1) (478 # 10000) (675 # 100) (1000 # 1) (750 # 1) (25 # 10) (32 # 10) (-77335 # 100000) (-48705 # 100000) (6938 # 10000) (3898 # 10000) (7958 # 10000);
  Mk_asb14_row (28 # 100) (29809 # 10000) (29 # 10000) (-7698 # 100000) (-125442 # 100000) (2529 # 10000) (75 # 10) (-5096 # 10000) (0 # 1) (474 # 10000) (675 # 100) (1000 # 1) (750 # 1) (25 # 10) (32 # 10) (-80508 # 100000) (-47334 # 100000) (6877 # 10000) (3883 # 10000) (7898 # 10000);
  Mk_asb14_row (3 # 10) (287449 # 100000) (29 # 10000) (-8126 # 100000) (-122665 # 100000) (2529 # 10000) (75 # 10) (-5096 # 10000) (0 # 1) (469 # 10000) (675 # 100) (1000 # 1) (750 # 1) (25 # 10) (32 # 10) (-82609 # 100000) (-4573 # 10000) (6897 # 10000) (3894 # 10000) (792 # 1000);
  Mk_asb14_row (32 # 100) (272364 # 100000) (29 # 10000) (-8387 # 100000) (-119143 # 100000) (2529 # 10000) (75 # 10) (-5096 # 10000) (0 # 1) (464 # 10000) (675 # 100) (1000 # 1) (750 # 1) (25 # 10) (32 # 10) (-8408 # 10000) (-44267 # 100000) (6947 # 10000) (3941 # 10000) (7987 # 10000);
  Mk_asb14_row (34 # 100) (260904 # 100000) (29 # 10000) (-8816 # 100000) (-116231 # 100000) (2529 # 10000) (75 # 10) (-5096 # 10000) (0 # 1) (459 # 10000) (675 # 100) (1000 # 1) (750 # 1) (25 # 10) (32 # 10) (-86251 # 100000) (-43888 # 100000) (6939 # 10000) (3937 # 10000) (7978 # 10000);
  Mk_asb14_row (36 # 100) (254266 # 100000) (29 # 10000) (-9239 # 100000) (-114444 # 100000) (2529 # 10000) (75 # 10) (-5096 # 10000) (0 # 1) (459 # 10000) (675 # 100) (1000 # 1) (750 # 1) (25 # 10) (32 # 10) (-87479 # 100000) (-4382 # 10000) (6945 # 10000) (3997 # 10000) (8013 # 10000);
  Mk_asb14_row (38 # 100) (246615 # 100000) (29 # 10000) (-9576 # 100000) (-1127 # 1000) (2529 # 10000) (75 # 10) (-5096 # 10000) (0 # 1) (429 # 10000) (675 # 100) (1000 # 1) (750 # 1) (25 # 10) (32 # 10) (-88522 # 100000) (-43678 # 100000) (6971 # 10000) (4012 # 10000) (8043 # 10000);
  Mk_asb14_row (4 # 10) (240119 # 100000) (29 # 10000) (-9885 # 100000) (-111318 # 100000) (2529 # 10000) (75 # 10) (-5096 # 10000) (0 # 1) (4 # 100) (675 # 100) (1000 # 1) (750 # 1) (25 # 10) (32 # 10) (-89517 # 100000) (-43008 # 100000) (6971 # 10000) (4012 # 10000) (8043 # 10000);
  Mk_asb14_row (42 # 100) (23454 # 10000) (29 # 10000) (-10198 # 100000) (-110318 # 100000) (2529 # 10000) (75 # 10) (-5096 # 10000) (0 # 1) (374 # 10000) (675 # 100) (1000 # 1) (750 # 1) (25 # 10) (32 # 10) (-90875 # 100000) (-4219 # 10000) (6955 # 10000) (3946 # 10000) (7996 # 10000);
  Mk_asb14_row (44 # 100) (228213 # 100000) (29 # 10000) (-10464 # 100000) (-109241 # 100000) (2529 # 10000) (75 # 10) (-5096 # 10000) (0 # 1) (349 # 10000) (675 # 100) (1000 # 1) (750 # 1) (25 # 10) (32 # 10) (-91922 # 100000) (-40903 # 100000) (6891 # 10000) (3985 # 10000) (796 # 1000);
  Mk_asb14_row (46 # 100) (22344 # 10000) (29 # 10000) (-10771 # 100000) (-108445 # 100000) (2529 # 10000) (75 # 10) (-5096 # 10000) (0 # 1) (323 # 10000) (675 # 100) (1000 # 1) (750 # 1) (25 # 10) (32 # 10) (-9267 # 10000) (-39442 # 100000) (6825 # 10000) (4056 # 10000) (7939 # 10000);
  Mk_asb14_row (48 # 100) (220123 # 100000) (29 # 10000) (-11199 # 100000) (-107592 # 100000) (2529 # 10000) (75 # 10) (-5096 # 10000) (0 # 1) (297 # 10000) (675 # 100) (1000 # 1) (750 # 1) (25 # 10) (32 # 10) (-9372 # 10000) (-38462 # 100000) (6785 # 10000) (4068 # 10000) (7911 # 10000);
  Mk_asb14_row (5 # 10) (216953 # 100000) (29 # 10000) (-11604 # 100000) (-106795 # 100000) (2529 # 10000) (75 # 10) (-5096 # 10000) (0 # 1) (271 # 10000) (675 # 100) (1000 # 1) (750 # 1) (25 # 10) (32 # 10) (-94614 # 100000) (-37408 # 100000) (6751 # 10000) (4065 # 10000) (788 # 1000);
  Mk_asb14_row (55 # 100) (203012 # 100000) (29 # 10000) (-12344 # 100000) (-104242 # 100000) (2529 # 10000) (75 # 10) (-5096 # 10000) (0 # 1) (245 # 10000) (675 # 100) (1000 # 1) (750 # 1) (25 # 10) (32 # 10) (-96564 # 100000) (-35582 # 100000) (6788 # 10000) (4087 # 10000) (7923 # 10000);
  Mk_asb14_row (6 # 10) (184644 # 100000) (29 # 10000) (-12745 # 100000) (-101046 # 100000) (2529 # 10000) (75 # 10) (-5096 # 10000) (0 # 1) (219 # 10000) (675 # 100) (1000 # 1) (750 # 1) (25 # 10) (32 # 10) (-98499 # 100000) (-34053 # 100000) (6845 # 10000) (4085 # 10000) (7971 # 10000);
  Mk_asb14_row (65 # 100) (16676 # 10000) (29 # 10000) (-13195 # 100000) (-97801 # 100000) (2529 # 10000) (75 # 10) (-5096 # 10000) (0 # 1) (193 # 10000) (675 # 100) (1000 # 1) (750 # 1) (25 # 10) (32 # 10) (-99733 # 100000) (-30949 # 100000) (6857 # 10000) (4128 # 10000) (8004 # 10000);
  Mk_asb14_row (7 # 10) (153432 # 100000) (29 # 10000) (-13715 # 100000) (-95428 # 100000) (2529 # 10000) (75 # 10) (-5096 # 10000) (0 # 1) (167 # 10000) (675 # 100) (1000 # 1) (750 # 1) (25 # 10) (32 # 10) (-100469 # 100000) (-28772 # 100000) (6902 # 10000) (4101 # 10000) (8028 # 10000);
  Mk_asb14_row (75 # 100) (138296 # 100000) (29 # 10000) (-14169 # 100000) (-92585 # 100000) (2529 # 10000) (75 # 10) (-5096 # 10000) (0 # 1) (141 # 10000) (675 # 100) (1000 # 1) (750 # 1) (25 # 10) (32 # 10) (-100786 # 100000) (-28957 # 100000) (6937 # 10000) (4011 # 10000) (8013 # 10000);
  Mk_asb14_row (8 # 10) (128662 # 100000) (29 # 10000) (-14485 # 100000) (-91241 # 100000) (2529 # 10000) (75 # 10) (-5096 # 10000) (0 # 1) (115 # 10000) (675 # 100) (1000 # 1) (750 # 1) (25 # 10) (32 # 10) (-100606 # 100000) (-28555 # 100000) (6884 # 10000) (3962 # 10000) (7943 # 10000);
  Mk_asb14_row (85 # 100) (120114 # 100000) (29 # 10000) (-14922 # 100000) (-89909 # 100000) (2529 # 10000) (75 # 10) (-5096 # 10000) (0 # 1) (89 # 10000) (675 # 100) (1000 # 1) (750 # 1) (25 # 10) (32 # 10) (-101093 # 100000) (-28364 # 100000) (6866 # 10000) (3951 # 10000) (7922 # 10000);
  Mk_asb14_row (9 # 10) (109991 # 100000) (29 # 10000) (-1532 # 10000) (-88377 # 100000) (2529 # 10000) (75 # 10) (-5096 # 10000) (0 # 1) (62 # 10000) (675 # 100) (1000 # 1) (750 # 1) (25 # 10) (32 # 10) (-101576 # 100000) (-28037 # 100000) (6881 # 10000) (3979 # 10000) (7949 # 10000);
  Mk_asb14_row (95 # 100) (101256 # 100000) (29 # 10000) (-157 # 1000) (-8705 # 10000) (2529 # 10000) (75 # 10) (-5096 # 10000) (0 # 1) (16 # 10000) (675 # 100) (1000 # 1) (750 # 1) (25 # 10) (32 # 10) (-101353 # 100000) (-2839 # 10000) (6904 # 10000) (3955 # 10000) (7957 # 10000);
  Mk_asb14_row (1 # 1) (94162 # 100000) (29 # 10000) (-16069 # 100000) (-86109 # 100000) (2529 # 10000) (75 # 10) (-5096 # 10000) (0 # 1) (0 # 1) (675 # 100) (1000 # 1) (750 # 1) (25 # 10) (32 # 10) (-101331 # 100000) (-28702 # 100000) (6922 # 10000) (3965 # 10000) (7977 # 10000);
  Mk_asb14_row (11 # 10) (78017 # 100000) (29 # 10000) (-16727 # 100000) (-83743 # 100000) (2529 # 10000) (75 # 10) (-5096 # 10000) (0 # 1) (0 # 1) (675 # 100) (1000 # 1) (750 # 1) (25 # 10) (32 # 10) (-10124 # 10000) (-27669 # 100000) (7047 # 10000) (3819 # 10000) (8015 # 10000);
  Mk_asb14_row (12 # 10) (63219 # 100000) (29 # 10000) (-17174 # 100000) (-81877 # 100000) (2529 # 10000) (75 # 10) (-5096 # 10000) (0 # 1) (0 # 1) (675 # 100) (1000 # 1) (750 # 1) (25 # 10) (32 # 10) (-100489 # 100000) (-27538 # 100000) (7138 # 10000) (3807 # 10000) (809 # 1000);
  Mk_asb14_row (13 # 10) (48905 # 100000) (29 # 10000) (-17712 # 100000) (-79698 # 100000) (2529 # 10000) (75 # 10) (-5096 # 10000) (0 # 1) (0 # 1) (675 # 100) (1000 # 1) (750 # 1) (25 # 10) (32 # 10) (-98876 # 100000) (-25008 # 100000) (7137 # 10000) (3827 # 10000) (8098 # 10000);
  Mk_asb14_row (14 # 10) (38492 # 100000) (29 # 10000) (-18237 # 100000) (-78548 # 100000) (2529 # 10000) (75 # 10) (-5096 # 10000) (0 # 1) (0 # 1) (675 # 100) (1000 # 1) (750 # 1) (25 # 10) (32 # 10) (-9776 # 10000) (-23508 # 100000) (7263 # 10000) (3787 # 10000) (8191 # 10000);
  Mk_asb14_row (15 # 10) (36315 # 100000) (29 # 10000) (-1879 # 10000) (-79498 # 100000) (2529 # 10000) (75 # 10) (-5096 # 10000) (0 # 1) (0 # 1) (675 # 100) (1000 # 1) (750 # 1) (25 # 10) (32 # 10) (-98071 # 100000) (-24695 # 100000) (7287 # 10000) (3821 # 10000) (8228 # 10000);
  Mk_asb14_row (16 # 10) (28812 # 100000) (29 # 10000) (-19363 # 100000) (-78665 # 100000) (2529 # 10000) (75 # 10) (-5096 # 10000) (0 # 1) (0 # 1) (675 # 100) (1000 # 1) (750 # 1) (25 # 10) (32 # 10) (-96369 # 100000) (-2287 # 10000) (7307 # 10000) (3854 # 10000) (8261 # 10000);
  Mk_asb14_row (17 # 10) (18172 # 100000) (29 # 10000) (-19545 # 100000) (-77778 # 100000) (2529 # 10000) (75 # 10) (-5096 # 10000) (0 # 1) (0 # 1) (675 # 100) (1000 # 1) (750 # 1) (25 # 10) (32 # 10) (-94634 # 100000) (-21655 # 100000) (7322 # 10000) (3751 # 10000) (8227 # 10000);
  Mk_asb14_row (18 # 10) (13021 # 100000) (29 # 10000) (-20069 # 100000) (-77282 # 100000) (2529 # 10000) (75 # 10) (-5096 # 10000) (0 # 1) (-3 # 1000) (675 # 100) (1000 # 1) (750 # 1) (25 # 10) (32 # 10) (-93606 # 100000) (-20302 # 100000) (7316 # 10000) (3749 # 10000) (8221 # 10000);
  Mk_asb14_row (19 # 10) (5074 # 100000) (29 # 10000) (-20386 # 100000) (-76574 # 100000) (2529 # 10000) (75 # 10) (-5096 # 10000) (0 # 1) (-6 # 1000) (675 # 100) (1000 # 1) (750 # 1) (25 # 10) (32 # 10) (-91408 # 100000) (-18228 # 100000) (7341 # 10000) (3761 # 10000) (8248 # 10000);
  Mk_asb14_row (2 # 1) (-2806 # 100000) (29 # 10000) (-20666 # 100000) (-7626 # 10000) (2529 # 10000) (75 # 10) (-5096 # 10000) (0 # 1) (-9 # 1000) (675 # 100) (1000 # 1) (750 # 1) (25 # 10) (32 # 10) (-91007 # 100000) (-17336 # 100000) (7333 # 10000) (3734 # 10000) (8229 # 10000);
  Mk_asb14_row (22 # 10) (-15016 # 100000) (29 # 10000) (-21319 # 100000) (-75952 # 100000) (2529 # 10000) (75 # 10) (-5096 # 10000) (0 # 1) (-141 # 10000) (675 # 100) (1000 # 1) (750 # 1) (25 # 10) (32 # 10) (-89376 # 100000) (-15463 # 100000) (7277 # 10000) (3794 # 10000) (8207 # 10000);
  Mk_asb14_row (24 # 10) (-26608 # 100000) (29 # 10000) (-2196 # 10000) (-75011 # 100000) (2529 # 10000) (75 # 10) (-5096 # 10000) (0 # 1) (-284 # 10000) (675 # 100) (1000 # 1) (750 # 1) (25 # 10) (32 # 10) (-87052 # 100000) (-13181 # 100000) (7199 # 10000) (4025 # 10000) (8248 # 10000);
  Mk_asb14_row (26 # 10) (-39025 # 100000) (29 # 10000) (-2233 # 10000) (-74326 # 100000) (2529 # 10000) (75 # 10) (-5096 # 10000) (0 # 1) (-408 # 10000) (675 # 100) (1000 # 1) (750 # 1) (25 # 10) (32 # 10) (-85889 # 100000) (-14066 # 100000) (7171 # 10000) (4049 # 10000) (8235 # 10000);
  Mk_asb14_row (28 # 10) (-49742 # 100000) (29 # 10000) (-22716 # 100000) (-74185 # 100000) (2529 # 10000) (75 # 10) (-5096 # 10000) (0 # 1) (-534 # 10000) (675 # 100) (1000 # 1) (750 # 1) (25 # 10) (32 # 10) (-86106 # 100000) (-13882 # 100000) (7175 # 10000) (409 # 1000) (8259 # 10000);
  Mk_asb14_row (3 # 1) (-64241 # 100000) (29 # 10000) (-23038 # 100000) (-73634 # 100000) (2529 # 10000) (75 # 10) (-5096 # 10000) (0 # 1) (-683 # 10000) (675 # 100) (1000 # 1) (750 # 1) (25 # 10) (32 # 10) (-85793 # 100000) (-13336 # 100000) (7051 # 10000) (4115 # 10000) (8164 # 10000);
  Mk_asb14_row (32 # 10) (-7667 # 10000) (29 # 10000) (-23049 # 100000) (-72149 # 100000) (2529 # 10000) (75 # 10) (-5096 # 10000) (0 # 1) (-78 # 1000) (675 # 100) (1000 # 1) (750 # 1) (25 # 10) (32 # 10) (-82094 # 100000) (-1377 # 10000) (6876 # 10000) (428 # 1000) (8099 # 10000);
  Mk_asb14_row (34 # 10) (-80566 # 100000) (29 # 10000) (-23726 # 100000) (-72539 # 100000) (2529 # 10000) (75 # 10) (-5096 # 10000) (0 # 1) (-943 # 10000) (675 # 100) (1000 # 1) (750 # 1) (25 # 10) (32 # 10) (-84449 # 100000) (-15337 # 100000) (675 # 1000) (4029 # 10000) (7861 # 10000);
  Mk_asb14_row (36 # 10) (-945 # 1000) (29 # 10000) (-24437 # 100000) (-70115 # 100000) (2529 # 10000) (75 # 10) (-5096 # 10000) (0 # 1) (-1278 # 10000) (675 # 100) (1000 # 1) (750 # 1) (25 # 10) (32 # 10) (-83216 # 100000) (-10884 # 100000) (6571 # 10000) (4252 # 10000) (7827 # 10000);
  Mk_asb14_row (38 # 10) (-98457 # 100000) (29 # 10000) (-2493 # 10000) (-69696 # 100000) (2529 # 10000) (75 # 10) (-5096 # 10000) (0 # 1) (-1744 # 10000) (675 # 100) (1000 # 1) (750 # 1) (25 # 10) (32 # 10) (-79216 # 100000) (-8884 # 100000) (6438 # 10000) (4243 # 10000) (771 # 1000);
  Mk_asb14_row (4 # 1) (-93329 # 100000) (29 # 10000) (-25756 # 100000) (-7121 # 10000) (2529 # 10000) (75 # 10) (-5096 # 10000) (0 # 1) (-2231 # 10000) (675 # 100) (1000 # 1) (750 # 1) (25 # 10) (32 # 10) (-75645 # 100000) (-7749 # 100000) (6241 # 10000) (3659 # 10000) (7235 # 10000)
].

