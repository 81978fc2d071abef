(** Generated by tools/gen_pr24.py - do not edit.
    pinilla_ramos_et_al_2024.py:60-81 (ENERGY_THRESHOLDS) and 296-619 (the arrays of _get_energy_coefficients), one row per threshold. *)
From Coq Require Import QArith List.
Import ListNotations.
Open Scope Q_scope.

Record pr24_row := Pr24Row { f_energy : Q; f_c_median : Q; f_a0 : Q; f_m1 : Q; f_r1 : Q; f_v1 : Q; f_rho : Q; f_sigma_c : Q }.
Definition pr24_interface : list pr24_row := [
  Pr24Row (1 # 10) (4020966 # 100000000) (733073 # 100000000) (14309 # 100000000) (240356 # 100000000) (547392 # 100000000) (-4461951 # 100000000) (1395505 # 100000000);
  Pr24Row (15 # 100) (8388851 # 100000000) (82492 # 10000000) (117448 # 100000000) (495213 # 100000000) (1140383 # 100000000) (6461454 # 100000000) (2371422 # 100000000);
  Pr24Row (2 # 10) (13077859 # 100000000) (374054 # 100000000) (259631 # 100000000) (759418 # 100000000) (1633181 # 100000000) (14724378 # 100000000) (3224683 # 100000000);
  Pr24Row (25 # 100) (1815641 # 10000000) (-437519 # 100000000) (410708 # 100000000) (103042 # 10000000) (2028365 # 100000000) (20758114 # 100000000) (3982668 # 100000000);
  Pr24Row (3 # 10) (23651304 # 100000000) (-1719855 # 100000000) (587722 # 100000000) (1287056 # 100000000) (23049 # 1000000) (2514994 # 10000000) (4629945 # 100000000);
  Pr24Row (35 # 100) (29491758 # 100000000) (-3221052 # 100000000) (790171 # 100000000) (1498933 # 100000000) (2498088 # 100000000) (28656202 # 100000000) (5151767 # 100000000);
  Pr24Row (4 # 10) (35754282 # 100000000) (-4872026 # 100000000) (1010809 # 100000000) (1646171 # 100000000) (2612515 # 100000000) (31098974 # 100000000) (5540747 # 100000000);
  Pr24Row (45 # 100) (42528554 # 100000000) (-6537968 # 100000000) (1227336 # 100000000) (1716948 # 100000000) (2645767 # 100000000) (33129013 # 100000000) (5772215 # 100000000);
  Pr24Row (5 # 10) (4974965 # 10000000) (-775099 # 10000000) (1365048 # 100000000) (1753574 # 100000000) (2556579 # 100000000) (34623991 # 100000000) (5816558 # 100000000);
  Pr24Row (55 # 100) (57657072 # 100000000) (-8107197 # 100000000) (1360863 # 100000000) (1709783 # 100000000) (2366726 # 100000000) (3543134 # 10000000) (5630814 # 100000000);
  Pr24Row (6 # 10) (66322614 # 100000000) (-7769041 # 100000000) (1233418 # 100000000) (1588001 # 100000000) (2005288 # 100000000) (3577682 # 10000000) (5154701 # 100000000);
  Pr24Row (65 # 100) (76042762 # 100000000) (-6689982 # 100000000) (990628 # 100000000) (1298844 # 100000000) (1446657 # 100000000) (3535797 # 10000000) (4259618 # 100000000);
  Pr24Row (7 # 10) (87127838 # 100000000) (-4362409 # 100000000) (596924 # 100000000) (821674 # 100000000) (779351 # 100000000) (33183304 # 100000000) (2792395 # 100000000);
  Pr24Row (75 # 100) (1 # 1) (0 # 1) (0 # 1) (0 # 1) (0 # 1) (0 # 1) (0 # 1);
  Pr24Row (8 # 10) (1156691 # 1000000) (7075031 # 100000000) (-864832 # 100000000) (-1349763 # 100000000) (-992416 # 100000000) (-38333019 # 100000000) (4378463 # 100000000);
  Pr24Row (85 # 100) (135981923 # 100000000) (19400743 # 100000000) (-2218093 # 100000000) (-3821902 # 100000000) (-2254522 # 100000000) (-44116537 # 100000000) (1063117 # 10000000);
  Pr24Row (9 # 10) (164806185 # 100000000) (40879893 # 100000000) (-4374555 # 100000000) (-8847199 # 100000000) (-4507584 # 100000000) (-4875535 # 10000000) (2196963 # 10000000);
  Pr24Row (95 # 100) (214387062 # 100000000) (85474174 # 100000000) (-7625391 # 100000000) (-21293647 # 100000000) (-7641776 # 100000000) (-53284828 # 100000000) (48117887 # 100000000)].
Definition pr24_slab : list pr24_row := [
  Pr24Row (1 # 10) (3784117 # 100000000) (-2602886 # 100000000) (52392 # 10000000) (226879 # 100000000) (409751 # 100000000) (23703883 # 100000000) (1952566 # 100000000);
  Pr24Row (15 # 100) (8352235 # 100000000) (-1820382 # 100000000) (598378 # 100000000) (419625 # 100000000) (1193314 # 100000000) (2062694 # 10000000) (2989091 # 100000000);
  Pr24Row (2 # 10) (13083025 # 100000000) (-179457 # 10000000) (764049 # 100000000) (701796 # 100000000) (1968596 # 100000000) (26652301 # 100000000) (3838868 # 100000000);
  Pr24Row (25 # 100) (18030833 # 100000000) (-2417655 # 100000000) (998344 # 100000000) (1021163 # 100000000) (2664136 # 100000000) (33081508 # 100000000) (4680806 # 100000000);
  Pr24Row (3 # 10) (23239066 # 100000000) (-3142039 # 100000000) (1243448 # 100000000) (129733 # 10000000) (3281428 # 100000000) (38018048 # 100000000) (5476812 # 100000000);
  Pr24Row (35 # 100) (28891588 # 100000000) (-3858319 # 100000000) (1438996 # 100000000) (1554978 # 100000000) (3781827 # 100000000) (41419228 # 100000000) (6195816 # 100000000);
  Pr24Row (4 # 10) (34921976 # 100000000) (-4451747 # 100000000) (1589705 # 100000000) (1720173 # 100000000) (4107292 # 100000000) (43660475 # 100000000) (6758683 # 100000000);
  Pr24Row (45 # 100) (41510462 # 100000000) (-4873467 # 100000000) (1668025 # 100000000) (182664 # 10000000) (4268421 # 100000000) (45004969 # 100000000) (712496 # 10000000);
  Pr24Row (5 # 10) (48731871 # 100000000) (-4927577 # 100000000) (1651024 # 100000000) (1846989 # 100000000) (4266614 # 100000000) (45471735 # 100000000) (7242325 # 100000000);
  Pr24Row (55 # 100) (56681198 # 100000000) (-4910907 # 100000000) (1585809 # 100000000) (1753247 # 100000000) (4062058 # 100000000) (45897072 # 100000000) (7068507 # 100000000);
  Pr24Row (6 # 10) (65450169 # 100000000) (-4485417 # 100000000) (1396992 # 100000000) (1580923 # 100000000) (3576105 # 100000000) (45725023 # 100000000) (647861 # 10000000);
  Pr24Row (65 # 100) (75358998 # 100000000) (-3689654 # 100000000) (1083706 # 100000000) (1256225 # 100000000) (275821 # 10000000) (44906822 # 100000000) (5349118 # 100000000);
  Pr24Row (7 # 10) (86718004 # 100000000) (-2248334 # 100000000) (631921 # 100000000) (751923 # 100000000) (162236 # 10000000) (42848698 # 100000000) (3450956 # 100000000);
  Pr24Row (75 # 100) (1 # 1) (0 # 1) (0 # 1) (0 # 1) (0 # 1) (0 # 1) (0 # 1);
  Pr24Row (8 # 10) (116409534 # 100000000) (4127725 # 100000000) (-947123 # 100000000) (-1202052 # 100000000) (-2139202 # 100000000) (-46673359 # 100000000) (5308633 # 100000000);
  Pr24Row (85 # 100) (138075492 # 100000000) (10055556 # 100000000) (-2266151 # 100000000) (-3231773 # 100000000) (-5326305 # 100000000) (-51548056 # 100000000) (1307839 # 10000000);
  Pr24Row (9 # 10) (169269723 # 100000000) (20353897 # 100000000) (-4240792 # 100000000) (-7103404 # 100000000) (-10313415 # 100000000) (-55293589 # 100000000) (26720298 # 100000000);
  Pr24Row (95 # 100) (222279683 # 100000000) (38563394 # 100000000) (-7401577 # 100000000) (-16362926 # 100000000) (-21286673 # 100000000) (-60041303 # 100000000) (56903831 # 100000000)].
