(** Generated by tools/gen_data.py - do not edit.
    Coefficient tables, exact decimals as in the data files. *)
From Coq Require Import QArith List.
Import ListNotations.
Open Scope Q_scope.

(** One row of data/pezeshk_zandieh_tavakoli_2011.csv; the field names are the column names of the file
    (load_data_file, model.py:526-538). *)
Record pzt11_row := Mk_pzt11_row {
  pzt11_period : Q;
  pzt11_c_1 : Q;
  pzt11_c_2 : Q;
  pzt11_c_3 : Q;
  pzt11_c_4 : Q;
  pzt11_c_5 : Q;
  pzt11_c_6 : Q;
  pzt11_c_7 : Q;
  pzt11_c_8 : Q;
  pzt11_c_9 : Q;
  pzt11_c_10 : Q;
  pzt11_c_11 : Q;
  pzt11_c_12 : Q;
  pzt11_c_13 : Q;
  pzt11_c_14 : Q;
  pzt11_sigma_reg : Q
}.

(** pezeshk_zandieh_tavakoli_2011.py:30: data/pezeshk_zandieh_tavakoli_2011.csv lines 3-25 (23 rows) *)
Definition pzt11_coeff : list pzt11_row := [
  Mk_pzt11_row (0 # 1) (15828 # 10000) (2298 # 10000) (-3847 # 100000) (-38325 # 10000) (3535 # 10000) (3321 # 10000) (-9165 # 100000) (-25517 # 10000) (1831 # 10000) (-4224 # 10000000) (66521 # 10000) (-2105 # 100000) (3778 # 10000) (2791 # 10000) (21 # 1000);
  Mk_pzt11_row (1 # 100) (20434 # 10000) (1987 # 10000) (-3837 # 100000) (-40521 # 10000) (3688 # 10000) (1995 # 10000) (-8918 # 100000) (-25948 # 10000) (1847 # 10000) (-3965 # 10000000) (70645 # 10000) (-1974 # 100000) (3688 # 10000) (2792 # 10000) (22 # 1000);
  Mk_pzt11_row (2 # 100) (2305 # 1000) (1877 # 10000) (-3697 # 100000) (-40443 # 10000) (3616 # 10000) (-1222 # 10000) (-9157 # 100000) (-29998 # 10000) (1941 # 10000) (-1707 # 10000000) (73314 # 10000) (-1974 # 100000) (3691 # 10000) (2796 # 10000) (23 # 1000);
  Mk_pzt11_row (3 # 100) (19848 # 10000) (2203 # 10000) (-3616 # 100000) (-38032 # 10000) (3384 # 10000) (7814 # 100000) (-1126 # 10000) (-33125 # 10000) (2017 # 10000) (-5322 # 100000000) (71183 # 10000) (-2094 # 100000) (3817 # 10000) (2838 # 10000) (22 # 1000);
  Mk_pzt11_row (4 # 100) (16854 # 10000) (2404 # 10000) (-3578 # 100000) (-36129 # 10000) (3247 # 10000) (2956 # 10000) (-118 # 1000) (-3332 # 1000) (1977 # 10000) (-1113 # 10000000) (68113 # 10000) (-218 # 10000) (3914 # 10000) (2874 # 10000) (24 # 1000);
  Mk_pzt11_row (5 # 100) (14517 # 10000) (2414 # 10000) (-3468 # 100000) (-34683 # 10000) (3177 # 10000) (5224 # 10000) (-1296 # 10000) (-32109 # 10000) (1956 # 10000) (-2669 # 10000000) (63705 # 10000) (-2244 # 100000) (399 # 1000) (2905 # 10000) (25 # 1000);
  Mk_pzt11_row (75 # 1000) (10698 # 10000) (2989 # 10000) (-3897 # 100000) (-3377 # 1000) (318 # 1000) (7422 # 10000) (-1215 # 10000) (-26889 # 10000) (1723 # 10000) (-6659 # 10000000) (60817 # 10000) (-2312 # 100000) (4108 # 10000) (2976 # 10000) (25 # 1000);
  Mk_pzt11_row (1 # 10) (9314 # 10000) (3088 # 10000) (-3844 # 100000) (-32926 # 10000) (3063 # 10000) (7064 # 10000) (-9521 # 100000) (-2209 # 1000) (1472 # 10000) (-9254 # 10000000) (61621 # 10000) (-2259 # 100000) (4102 # 10000) (3007 # 10000) (22 # 1000);
  Mk_pzt11_row (15 # 100) (3964 # 10000) (4317 # 10000) (-4578 # 100000) (-32112 # 10000) (2937 # 10000) (6084 # 10000) (-6727 # 100000) (-16121 # 10000) (1072 # 10000) (-1077 # 1000000) (62667 # 10000) (-2185 # 100000) (4066 # 10000) (3023 # 10000) (16 # 1000);
  Mk_pzt11_row (2 # 10) (-4883 # 10000) (6278 # 10000) (-5654 # 100000) (-30304 # 10000) (2673 # 10000) (5422 # 10000) (-5347 # 100000) (-13516 # 10000) (8784 # 100000) (-1045 # 1000000) (61905 # 10000) (-2046 # 100000) (3979 # 10000) (3033 # 10000) (14 # 1000);
  Mk_pzt11_row (25 # 100) (-10098 # 10000) (7401 # 10000) (-6309 # 100000) (-29959 # 10000) (2623 # 10000) (4421 # 10000) (-3625 # 100000) (-12309 # 10000) (7733 # 100000) (-9648 # 10000000) (60635 # 10000) (-1933 # 100000) (3908 # 10000) (3041 # 10000) (15 # 1000);
  Mk_pzt11_row (3 # 10) (-168 # 100) (886 # 1000) (-7162 # 100000) (-28894 # 10000) (2481 # 10000) (4869 # 10000) (-4324 # 100000) (-1149 # 1000) (7056 # 100000) (-9049 # 10000000) (59891 # 10000) (-1837 # 100000) (3867 # 10000) (3068 # 10000) (15 # 1000);
  Mk_pzt11_row (4 # 10) (-23106 # 10000) (1022 # 1000) (-7965 # 100000) (-29265 # 10000) (2515 # 10000) (4716 # 10000) (-4039 # 100000) (-10923 # 10000) (6554 # 100000) (-7853 # 10000000) (60263 # 10000) (-1683 # 100000) (3774 # 10000) (3082 # 10000) (17 # 1000);
  Mk_pzt11_row (5 # 10) (-31365 # 10000) (1201 # 1000) (-9037 # 100000) (-28823 # 10000) (2456 # 10000) (3333 # 10000) (-2105 # 100000) (-10022 # 10000) (5519 # 100000) (-7069 # 10000000) (59117 # 10000) (-1556 # 100000) (3722 # 10000) (3119 # 10000) (17 # 1000);
  Mk_pzt11_row (75 # 100) (-45494 # 10000) (1508 # 1000) (-1087 # 10000) (-28614 # 10000) (2424 # 10000) (4023 # 10000) (-3092 # 100000) (-975 # 1000) (5536 # 100000) (-5685 # 10000000) (59835 # 10000) (-1339 # 100000) (3654 # 10000) (3203 # 10000) (21 # 1000);
  Mk_pzt11_row (1 # 1) (-54113 # 10000) (169 # 100) (-1196 # 10000) (-28998 # 10000) (2465 # 10000) (3766 # 10000) (-2928 # 100000) (-947 # 1000) (5249 # 100000) (-4563 # 10000000) (61234 # 10000) (-118 # 10000) (3588 # 10000) (3249 # 10000) (22 # 1000);
  Mk_pzt11_row (15 # 10) (-64806 # 10000) (1867 # 1000) (-1282 # 10000) (-29338 # 10000) (2525 # 10000) (2633 # 10000) (-1442 # 100000) (-9007 # 10000) (4974 # 100000) (-354 # 1000000) (59875 # 10000) (-104 # 10000) (3569 # 10000) (3327 # 10000) (19 # 1000);
  Mk_pzt11_row (2 # 1) (-6934 # 1000) (1907 # 1000) (-1287 # 10000) (-30128 # 10000) (2639 # 10000) (3172 # 10000) (-215 # 10000) (-8749 # 10000) (4774 # 100000) (-3025 # 10000000) (61355 # 10000) (-9443 # 1000000) (3561 # 10000) (3387 # 10000) (21 # 1000);
  Mk_pzt11_row (3 # 1) (-74264 # 10000) (1881 # 1000) (-1205 # 10000) (-29742 # 10000) (2576 # 10000) (2585 # 10000) (-152 # 10000) (-8821 # 10000) (5376 # 100000) (-2641 # 10000000) (60598 # 10000) (-8509 # 1000000) (354 # 1000) (3431 # 10000) (24 # 1000);
  Mk_pzt11_row (4 # 1) (-78064 # 10000) (1895 # 1000) (-1183 # 10000) (-3005 # 1000) (2588 # 10000) (3069 # 10000) (-2545 # 100000) (-8808 # 10000) (5703 # 100000) (-2423 # 10000000) (62536 # 10000) (-7859 # 1000000) (3527 # 10000) (3463 # 10000) (3 # 100);
  Mk_pzt11_row (5 # 1) (-82704 # 10000) (1938 # 1000) (-118 # 1000) (-29501 # 10000) (2503 # 10000) (3296 # 10000) (-3023 # 100000) (-10125 # 10000) (7332 # 100000) (-2002 # 10000000) (63423 # 10000) (-69 # 10000) (3577 # 10000) (358 # 1000) (32 # 1000);
  Mk_pzt11_row (75 # 10) (-83376 # 10000) (1806 # 1000) (-1042 # 10000) (-29839 # 10000) (2542 # 10000) (2879 # 10000) (-2252 # 100000) (-11817 # 10000) (9598 # 100000) (-1624 # 10000000) (65181 # 10000) (-724 # 100000) (373 # 1000) (371 # 1000) (3 # 100);
  Mk_pzt11_row (10 # 1) (-91046 # 10000) (1899 # 1000) (-1076 # 10000) (-28611 # 10000) (2395 # 10000) (2868 # 10000) (-229 # 10000) (-13786 # 10000) (1222 # 10000) (-1268 # 10000000) (65384 # 10000) (-7485 # 1000000) (3848 # 10000) (381 # 1000) (24 # 1000)
].

