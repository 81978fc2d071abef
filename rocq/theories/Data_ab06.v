(** Generated by tools/gen_data.py - do not edit.
    Coefficient tables, exact decimals as in the data files. *)
From Coq Require Import QArith List.
Import ListNotations.
Open Scope Q_scope.

(** One row of data/atkinson_boore_2006-bc.csv, data/atkinson_boore_2006-rock.csv; the field names are the column names of the file
    (load_data_file, model.py:526-538). *)
Record ab06_row := Mk_ab06_row {
  ab06_period : Q;
  ab06_c_1 : Q;
  ab06_c_2 : Q;
  ab06_c_3 : Q;
  ab06_c_4 : Q;
  ab06_c_5 : Q;
  ab06_c_6 : Q;
  ab06_c_7 : Q;
  ab06_c_8 : Q;
  ab06_c_9 : Q;
  ab06_c_10 : Q
}.

(** atkinson_boore_2006.py:28: data/atkinson_boore_2006-bc.csv lines 4-30 (27 rows) *)
Definition ab06_bc_coeff : list ab06_row := [
  Mk_ab06_row (-2 # 1) (-309 # 100) (828 # 1000) (-8541 # 1000000) (-2381 # 1000) (1782 # 10000) (-1643 # 1000) (1628 # 10000) (581 # 1000) (-145 # 1000) (-2337 # 10000000);
  Mk_ab06_row (-1 # 1) (-1662 # 1000) (105 # 100) (-6035 # 100000) (-2496 # 1000) (184 # 1000) (-2301 # 1000) (25 # 100) (1268 # 10000) (-8704 # 100000) (-4266 # 10000000);
  Mk_ab06_row (0 # 1) (5233 # 10000) (9686 # 10000) (-6196 # 100000) (-2439 # 1000) (1465 # 10000) (-2335 # 1000) (1912 # 10000) (-8695 # 100000) (-8285 # 100000) (-6304 # 10000000);
  Mk_ab06_row (25 # 1000) (1052 # 1000) (903 # 1000) (-5768 # 100000) (-2571 # 1000) (1483 # 10000) (-2652 # 1000) (2065 # 10000) (-4084 # 10000) (-5769 # 100000) (-5122 # 10000000);
  Mk_ab06_row (31 # 1000) (1191 # 1000) (8884 # 10000) (-5642 # 100000) (-2577 # 1000) (1451 # 10000) (-284 # 100) (2121 # 10000) (-437 # 1000) (-5866 # 100000) (-4329 # 10000000);
  Mk_ab06_row (4 # 100) (1261 # 1000) (8789 # 10000) (-5515 # 100000) (-2536 # 1000) (1388 # 10000) (-2994 # 1000) (2158 # 10000) (-3908 # 10000) (-6746 # 100000) (-3881 # 10000000);
  Mk_ab06_row (5 # 100) (1209 # 1000) (883 # 1000) (-5441 # 100000) (-244 # 100) (1295 # 10000) (-3035 # 1000) (2133 # 10000) (-2098 # 10000) (-8997 # 100000) (-4145 # 10000000);
  Mk_ab06_row (63 # 1000) (1109 # 1000) (8875 # 10000) (-5386 # 100000) (-2334 # 1000) (1229 # 10000) (-2881 # 1000) (2007 # 10000) (-3189 # 100000) (-1069 # 10000) (-5483 # 10000000);
  Mk_ab06_row (79 # 1000) (9667 # 10000) (9033 # 10000) (-5476 # 100000) (-2249 # 1000) (1215 # 10000) (-253 # 100) (1775 # 10000) (1001 # 10000) (-1147 # 10000) (-7724 # 10000000);
  Mk_ab06_row (1 # 10) (7818 # 10000) (9235 # 10000) (-5555 # 100000) (-2165 # 1000) (1191 # 10000) (-2097 # 1000) (1483 # 10000) (2847 # 10000) (-1319 # 10000) (-9897 # 10000000);
  Mk_ab06_row (125 # 1000) (5356 # 10000) (9647 # 10000) (-5835 # 100000) (-211 # 100) (1205 # 10000) (-1672 # 1000) (1156 # 10000) (3433 # 10000) (-1322 # 10000) (-113 # 100000);
  Mk_ab06_row (158 # 1000) (1194 # 10000) (1057 # 1000) (-6473 # 100000) (-2054 # 1000) (119 # 1000) (-1355 # 1000) (916 # 10000) (5164 # 10000) (-1503 # 10000) (-1178 # 1000000);
  Mk_ab06_row (199 # 1000) (-3056 # 10000) (1156 # 1000) (-7211 # 100000) (-2038 # 1000) (122 # 1000) (-1147 # 1000) (7375 # 100000) (5082 # 10000) (-143 # 1000) (-114 # 100000);
  Mk_ab06_row (251 # 1000) (-8756 # 10000) (1293 # 1000) (-8193 # 100000) (-2014 # 1000) (1226 # 10000) (-1027 # 1000) (6341 # 100000) (5808 # 10000) (-1491 # 10000) (-1053 # 1000000);
  Mk_ab06_row (315 # 1000) (-156 # 100) (1455 # 1000) (-9312 # 100000) (-1977 # 1000) (1209 # 10000) (-9466 # 10000) (5576 # 100000) (6499 # 10000) (-1558 # 10000) (-9552 # 10000000);
  Mk_ab06_row (397 # 1000) (-2281 # 1000) (1629 # 1000) (-1054 # 10000) (-1967 # 1000) (1227 # 10000) (-888 # 1000) (5033 # 100000) (6839 # 10000) (-1582 # 10000) (-8587 # 10000000);
  Mk_ab06_row (5 # 10) (-3007 # 1000) (1803 # 1000) (-1178 # 10000) (-1982 # 1000) (1274 # 10000) (-8466 # 10000) (4698 # 100000) (667 # 1000) (-1546 # 10000) (-7676 # 10000000);
  Mk_ab06_row (629 # 1000) (-3748 # 1000) (1973 # 1000) (-1294 # 10000) (-1997 # 1000) (1313 # 10000) (-8417 # 10000) (482 # 10000) (6772 # 10000) (-1557 # 10000) (-6763 # 10000000);
  Mk_ab06_row (794 # 1000) (-4446 # 1000) (2119 # 1000) (-1387 # 10000) (-2009 # 1000) (1356 # 10000) (-8576 # 10000) (4976 # 100000) (7084 # 10000) (-1589 # 10000) (-5751 # 10000000);
  Mk_ab06_row (1 # 1) (-5058 # 1000) (2233 # 1000) (-1454 # 10000) (-203 # 100) (1408 # 10000) (-8744 # 10000) (5412 # 100000) (7922 # 10000) (-1697 # 10000) (-4886 # 10000000);
  Mk_ab06_row (125 # 100) (-5489 # 1000) (2289 # 1000) (-1476 # 10000) (-2081 # 1000) (1501 # 10000) (-9 # 10) (5794 # 100000) (8208 # 10000) (-1719 # 10000) (-407 # 1000000);
  Mk_ab06_row (1587 # 1000) (-5754 # 1000) (2287 # 1000) (-145 # 1000) (-2131 # 1000) (1582 # 10000) (-9568 # 10000) (6762 # 100000) (867 # 1000) (-1789 # 10000) (-3429 # 10000000);
  Mk_ab06_row (2 # 1) (-5853 # 1000) (2233 # 1000) (-1385 # 10000) (-2195 # 1000) (1688 # 10000) (-1037 # 1000) (8002 # 100000) (8666 # 10000) (-179 # 1000) (-286 # 1000000);
  Mk_ab06_row (25 # 10) (-58 # 10) (2126 # 1000) (-1278 # 10000) (-2257 # 1000) (179 # 1000) (-1123 # 1000) (9539 # 100000) (8911 # 10000) (-1797 # 10000) (-2601 # 10000000);
  Mk_ab06_row (3125 # 1000) (-559 # 100) (1972 # 1000) (-1136 # 10000) (-2331 # 1000) (1908 # 10000) (-1204 # 1000) (1099 # 10000) (8449 # 10000) (-1723 # 10000) (-2452 # 10000000);
  Mk_ab06_row (4 # 1) (-5256 # 1000) (1787 # 1000) (-9785 # 100000) (-2435 # 1000) (2068 # 10000) (-1307 # 1000) (121 # 1000) (734 # 1000) (-156 # 1000) (-1959 # 10000000);
  Mk_ab06_row (5 # 1) (-4852 # 1000) (158 # 100) (-8066 # 100000) (-253 # 100) (2216 # 10000) (-1426 # 1000) (1361 # 10000) (634 # 1000) (-1413 # 10000) (-1608 # 10000000)
].

(** atkinson_boore_2006.py:29: data/atkinson_boore_2006-rock.csv lines 4-30 (27 rows) *)
Definition ab06_rock_coeff : list ab06_row := [
  Mk_ab06_row (-2 # 1) (-282 # 100) (7491 # 10000) (-4196 # 1000000) (-2611 # 1000) (2157 # 10000) (-1671 # 1000) (1643 # 10000) (7452 # 10000) (-1547 # 10000) (-1917 # 10000000);
  Mk_ab06_row (-1 # 1) (-1442 # 1000) (9909 # 10000) (-5848 # 100000) (-2701 # 1000) (2155 # 10000) (-2436 # 1000) (2659 # 10000) (8479 # 100000) (-6927 # 100000) (-3734 # 10000000);
  Mk_ab06_row (0 # 1) (9069 # 10000) (983 # 1000) (-6595 # 100000) (-2698 # 1000) (1594 # 10000) (-2795 # 1000) (212 # 1000) (-3011 # 10000) (-6532 # 100000) (-4484 # 10000000);
  Mk_ab06_row (25 # 1000) (1522 # 1000) (9597 # 10000) (-6351 # 100000) (-2813 # 1000) (1458 # 10000) (-3654 # 1000) (2362 # 10000) (-6544 # 10000) (-55 # 1000) (-4848 # 100000000);
  Mk_ab06_row (31 # 1000) (1436 # 1000) (9592 # 10000) (-6276 # 100000) (-2714 # 1000) (14 # 100) (-3728 # 1000) (2343 # 10000) (-543 # 1000) (-6448 # 100000) (-323 # 10000000);
  Mk_ab06_row (4 # 100) (1264 # 1000) (968 # 1000) (-6232 # 100000) (-2581 # 1000) (1317 # 10000) (-3644 # 1000) (2276 # 10000) (-3506 # 10000) (-8126 # 100000) (-1225 # 10000000);
  Mk_ab06_row (5 # 100) (1105 # 1000) (9719 # 10000) (-6197 # 100000) (-2466 # 1000) (1276 # 10000) (-339 # 100) (2144 # 10000) (-1391 # 10000) (-9839 # 100000) (-3167 # 10000000);
  Mk_ab06_row (63 # 1000) (9109 # 10000) (9802 # 10000) (-6208 # 100000) (-236 # 100) (1263 # 10000) (-2972 # 1000) (191 # 1000) (1069 # 10000) (-1173 # 10000) (-5786 # 10000000);
  Mk_ab06_row (79 # 1000) (6906 # 10000) (9974 # 10000) (-6276 # 100000) (-2262 # 1000) (1246 # 10000) (-2487 # 1000) (1636 # 10000) (2139 # 10000) (-1207 # 10000) (-8469 # 10000000);
  Mk_ab06_row (1 # 10) (4797 # 10000) (1017 # 1000) (-6404 # 100000) (-2201 # 1000) (127 # 1000) (-2007 # 1000) (1326 # 10000) (3371 # 10000) (-1266 # 10000) (-1047 # 1000000);
  Mk_ab06_row (125 # 1000) (2144 # 10000) (1054 # 1000) (-6664 # 100000) (-2154 # 1000) (1295 # 10000) (-1608 # 1000) (1046 # 10000) (4273 # 10000) (-1303 # 10000) (-1153 # 1000000);
  Mk_ab06_row (158 # 1000) (-1455 # 10000) (1123 # 1000) (-7143 # 100000) (-2116 # 1000) (1302 # 10000) (-1303 # 1000) (8311 # 100000) (5617 # 10000) (-1438 # 10000) (-1182 # 1000000);
  Mk_ab06_row (199 # 1000) (-6153 # 10000) (1227 # 1000) (-7886 # 100000) (-2087 # 1000) (1312 # 10000) (-112 # 100) (6788 # 100000) (6055 # 10000) (-1459 # 10000) (-1125 # 1000000);
  Mk_ab06_row (251 # 1000) (-1121 # 1000) (1342 # 1000) (-8722 # 100000) (-2082 # 1000) (1349 # 10000) (-9714 # 10000) (5628 # 100000) (614 # 1000) (-1432 # 10000) (-1055 # 1000000);
  Mk_ab06_row (315 # 1000) (-1721 # 1000) (1483 # 1000) (-9739 # 100000) (-208 # 100) (1382 # 10000) (-8893 # 10000) (4869 # 100000) (6101 # 10000) (-1389 # 10000) (-9538 # 10000000);
  Mk_ab06_row (397 # 1000) (-2437 # 1000) (1649 # 1000) (-1084 # 10000) (-2051 # 1000) (1363 # 10000) (-8426 # 10000) (4483 # 100000) (7386 # 10000) (-1557 # 10000) (-8509 # 10000000);
  Mk_ab06_row (5 # 10) (-3216 # 1000) (1826 # 1000) (-1201 # 10000) (-2018 # 1000) (1344 # 10000) (-8134 # 10000) (4437 # 100000) (8839 # 10000) (-1751 # 10000) (-7704 # 10000000);
  Mk_ab06_row (629 # 1000) (-3917 # 1000) (1987 # 1000) (-1314 # 10000) (-2045 # 1000) (1419 # 10000) (-7818 # 10000) (4297 # 100000) (7878 # 10000) (-159 # 1000) (-6948 # 10000000);
  Mk_ab06_row (794 # 1000) (-4604 # 1000) (2132 # 1000) (-1406 # 10000) (-2062 # 1000) (1468 # 10000) (-7974 # 10000) (4345 # 100000) (7748 # 10000) (-1558 # 10000) (-579 # 1000000);
  Mk_ab06_row (1 # 1) (-5272 # 1000) (2264 # 1000) (-1483 # 10000) (-2069 # 1000) (1497 # 10000) (-8132 # 10000) (4666 # 100000) (8262 # 10000) (-1622 # 10000) (-4862 # 10000000);
  Mk_ab06_row (125 # 100) (-5724 # 1000) (2324 # 1000) (-1505 # 10000) (-2104 # 1000) (1565 # 10000) (-8202 # 10000) (5186 # 100000) (8563 # 10000) (-1661 # 10000) (-4329 # 10000000);
  Mk_ab06_row (1587 # 1000) (-6043 # 1000) (2342 # 1000) (-1496 # 10000) (-2157 # 1000) (1662 # 10000) (-8704 # 10000) (6047 # 100000) (9207 # 10000) (-1734 # 10000) (-3748 # 10000000);
  Mk_ab06_row (2 # 1) (-6183 # 1000) (2302 # 1000) (-1442 # 10000) (-2223 # 1000) (177 # 1000) (-937 # 1000) (7067 # 100000) (9518 # 10000) (-1768 # 10000) (-322 # 1000000);
  Mk_ab06_row (25 # 10) (-6169 # 1000) (2211 # 1000) (-1348 # 10000) (-2299 # 1000) (1898 # 10000) (-986 # 1000) (786 # 10000) (9683 # 10000) (-1765 # 10000) (-2823 # 10000000);
  Mk_ab06_row (3125 # 1000) (-6038 # 1000) (208 # 100) (-1221 # 10000) (-2367 # 1000) (2002 # 10000) (-1073 # 1000) (895 # 10000) (1002 # 1000) (-1803 # 10000) (-2306 # 10000000);
  Mk_ab06_row (4 # 1) (-5791 # 1000) (1916 # 1000) (-1071 # 10000) (-2441 # 1000) (2113 # 10000) (-1162 # 1000) (1018 # 10000) (1012 # 1000) (-1824 # 10000) (-201 # 1000000);
  Mk_ab06_row (5 # 1) (-5408 # 1000) (1714 # 1000) (-9012 # 100000) (-2537 # 1000) (2267 # 10000) (-1268 # 1000) (1162 # 10000) (9792 # 10000) (-1767 # 10000) (-1757 # 10000000)
].

