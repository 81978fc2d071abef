(** Generated by tools/gen_data.py - do not edit.
    Coefficient tables, exact decimals as in the data files. *)
From Coq Require Import QArith List.
Import ListNotations.
Open Scope Q_scope.

(** One row of data/bayless_abrahamson_2018.csv; the field names are the column names of the file
    (load_data_file, model.py:526-538). *)
Record ba18_row := Mk_ba18_row {
  ba18_freq_hz : Q;
  ba18_A : Q;
  ba18_B : Q;
  ba18_C : Q;
  ba18_D : Q;
  ba18_tau : Q;
  ba18_phi_s2s : Q;
  ba18_phi_s : Q;
  ba18_sigma : Q
}.

(** bayless_abrahamson_2018.py:25: data/bayless_abrahamson_2018.csv lines 5-243 (239 rows) *)
Definition ba18_coeff : list ba18_row := [
  Mk_ba18_row (1 # 10) (10477 # 10000) (-5461 # 10000) (16879 # 10000) (-104778 # 10000) (5613 # 10000) (2441 # 10000) (4036 # 10000) (7332 # 10000);
  Mk_ba18_row (1023 # 10000) (10497 # 10000) (-5474 # 10000) (16847 # 10000) (-109655 # 10000) (5688 # 10000) (2588 # 10000) (4083 # 10000) (7465 # 10000);
  Mk_ba18_row (1047 # 10000) (10517 # 10000) (-5487 # 10000) (16815 # 10000) (-11453 # 1000) (5664 # 10000) (2657 # 10000) (4073 # 10000) (7465 # 10000);
  Mk_ba18_row (1072 # 10000) (10537 # 10000) (-5501 # 10000) (16783 # 10000) (-119401 # 10000) (5667 # 10000) (277 # 1000) (4025 # 10000) (7482 # 10000);
  Mk_ba18_row (1096 # 10000) (10557 # 10000) (-5514 # 10000) (16751 # 10000) (-124268 # 10000) (5612 # 10000) (2797 # 10000) (4038 # 10000) (7458 # 10000);
  Mk_ba18_row (1122 # 10000) (10577 # 10000) (-5528 # 10000) (1672 # 1000) (-129132 # 10000) (556 # 1000) (2785 # 10000) (4044 # 10000) (7418 # 10000);
  Mk_ba18_row (1148 # 10000) (10597 # 10000) (-5541 # 10000) (16688 # 10000) (-133992 # 10000) (5392 # 10000) (2711 # 10000) (4082 # 10000) (7286 # 10000);
  Mk_ba18_row (1175 # 10000) (10616 # 10000) (-5555 # 10000) (16657 # 10000) (-138849 # 10000) (5348 # 10000) (2713 # 10000) (4093 # 10000) (7261 # 10000);
  Mk_ba18_row (1202 # 10000) (10636 # 10000) (-5568 # 10000) (16626 # 10000) (-143701 # 10000) (5388 # 10000) (2787 # 10000) (4033 # 10000) (7285 # 10000);
  Mk_ba18_row (123 # 1000) (10656 # 10000) (-5582 # 10000) (16594 # 10000) (-14855 # 1000) (5354 # 10000) (2884 # 10000) (3987 # 10000) (7272 # 10000);
  Mk_ba18_row (1259 # 10000) (10676 # 10000) (-5596 # 10000) (16563 # 10000) (-153395 # 10000) (5351 # 10000) (3132 # 10000) (4068 # 10000) (7415 # 10000);
  Mk_ba18_row (1288 # 10000) (10696 # 10000) (-5609 # 10000) (16533 # 10000) (-158235 # 10000) (5428 # 10000) (3201 # 10000) (4062 # 10000) (7497 # 10000);
  Mk_ba18_row (1318 # 10000) (10716 # 10000) (-5623 # 10000) (16502 # 10000) (-163072 # 10000) (5484 # 10000) (3275 # 10000) (4019 # 10000) (7547 # 10000);
  Mk_ba18_row (1349 # 10000) (10736 # 10000) (-5637 # 10000) (16471 # 10000) (-167904 # 10000) (5564 # 10000) (3363 # 10000) (399 # 1000) (7628 # 10000);
  Mk_ba18_row (138 # 1000) (10755 # 10000) (-5651 # 10000) (16441 # 10000) (-172732 # 10000) (5815 # 10000) (349 # 1000) (3957 # 10000) (7852 # 10000);
  Mk_ba18_row (1413 # 10000) (10775 # 10000) (-5665 # 10000) (1641 # 1000) (-177556 # 10000) (5721 # 10000) (3646 # 10000) (3927 # 10000) (7838 # 10000);
  Mk_ba18_row (1445 # 10000) (10795 # 10000) (-5679 # 10000) (1638 # 1000) (-182376 # 10000) (5661 # 10000) (3688 # 10000) (3958 # 10000) (783 # 1000);
  Mk_ba18_row (1479 # 10000) (10815 # 10000) (-5693 # 10000) (1635 # 1000) (-187191 # 10000) (5624 # 10000) (3609 # 10000) (4047 # 10000) (7812 # 10000);
  Mk_ba18_row (1514 # 10000) (10835 # 10000) (-5707 # 10000) (1632 # 1000) (-192001 # 10000) (578 # 1000) (364 # 1000) (4027 # 10000) (7929 # 10000);
  Mk_ba18_row (1549 # 10000) (10854 # 10000) (-5721 # 10000) (1629 # 1000) (-196807 # 10000) (5786 # 10000) (371 # 1000) (3967 # 10000) (7936 # 10000);
  Mk_ba18_row (1585 # 10000) (10874 # 10000) (-5735 # 10000) (1626 # 1000) (-201609 # 10000) (5708 # 10000) (3663 # 10000) (3979 # 10000) (7863 # 10000);
  Mk_ba18_row (1622 # 10000) (10894 # 10000) (-575 # 1000) (1623 # 1000) (-206406 # 10000) (5886 # 10000) (3603 # 10000) (4016 # 10000) (7985 # 10000);
  Mk_ba18_row (166 # 1000) (10914 # 10000) (-5764 # 10000) (16201 # 10000) (-211198 # 10000) (5807 # 10000) (3519 # 10000) (4139 # 10000) (7952 # 10000);
  Mk_ba18_row (1698 # 10000) (10933 # 10000) (-5778 # 10000) (16171 # 10000) (-215986 # 10000) (5748 # 10000) (3444 # 10000) (4227 # 10000) (7923 # 10000);
  Mk_ba18_row (1738 # 10000) (10953 # 10000) (-5793 # 10000) (16142 # 10000) (-220768 # 10000) (5581 # 10000) (3466 # 10000) (4257 # 10000) (7828 # 10000);
  Mk_ba18_row (1778 # 10000) (10973 # 10000) (-5807 # 10000) (16113 # 10000) (-225547 # 10000) (5547 # 10000) (3526 # 10000) (4214 # 10000) (7808 # 10000);
  Mk_ba18_row (182 # 1000) (10992 # 10000) (-5822 # 10000) (16083 # 10000) (-23032 # 1000) (5579 # 10000) (3646 # 10000) (4152 # 10000) (7852 # 10000);
  Mk_ba18_row (1862 # 10000) (11012 # 10000) (-5836 # 10000) (16054 # 10000) (-235088 # 10000) (5588 # 10000) (371 # 1000) (414 # 1000) (7882 # 10000);
  Mk_ba18_row (1905 # 10000) (11032 # 10000) (-5851 # 10000) (16025 # 10000) (-239852 # 10000) (576 # 1000) (3693 # 10000) (4224 # 10000) (8041 # 10000);
  Mk_ba18_row (195 # 1000) (11051 # 10000) (-5865 # 10000) (15997 # 10000) (-244611 # 10000) (58 # 100) (3747 # 10000) (4178 # 10000) (807 # 1000);
  Mk_ba18_row (1995 # 10000) (11071 # 10000) (-588 # 1000) (15968 # 10000) (-249364 # 10000) (5853 # 10000) (3685 # 10000) (4184 # 10000) (8084 # 10000);
  Mk_ba18_row (2042 # 10000) (11091 # 10000) (-5895 # 10000) (15939 # 10000) (-254113 # 10000) (5847 # 10000) (3615 # 10000) (4189 # 10000) (805 # 1000);
  Mk_ba18_row (2089 # 10000) (1111 # 1000) (-591 # 1000) (15911 # 10000) (-258857 # 10000) (575 # 1000) (3521 # 10000) (4241 # 10000) (7965 # 10000);
  Mk_ba18_row (2138 # 10000) (1113 # 1000) (-5924 # 10000) (15883 # 10000) (-263596 # 10000) (5826 # 10000) (343 # 1000) (4285 # 10000) (8004 # 10000);
  Mk_ba18_row (2188 # 10000) (11149 # 10000) (-5939 # 10000) (15854 # 10000) (-268329 # 10000) (5879 # 10000) (3375 # 10000) (4293 # 10000) (8023 # 10000);
  Mk_ba18_row (2239 # 10000) (11169 # 10000) (-5954 # 10000) (15826 # 10000) (-273058 # 10000) (5869 # 10000) (3392 # 10000) (4251 # 10000) (8002 # 10000);
  Mk_ba18_row (2291 # 10000) (11188 # 10000) (-5969 # 10000) (15798 # 10000) (-277782 # 10000) (5727 # 10000) (3513 # 10000) (4242 # 10000) (7946 # 10000);
  Mk_ba18_row (2344 # 10000) (11208 # 10000) (-5984 # 10000) (1577 # 1000) (-2825 # 100) (5626 # 10000) (3583 # 10000) (4235 # 10000) (7901 # 10000);
  Mk_ba18_row (2399 # 10000) (11227 # 10000) (-5999 # 10000) (15742 # 10000) (-287214 # 10000) (5646 # 10000) (3606 # 10000) (4229 # 10000) (7922 # 10000);
  Mk_ba18_row (2455 # 10000) (11247 # 10000) (-6014 # 10000) (15714 # 10000) (-291922 # 10000) (5501 # 10000) (3548 # 10000) (4284 # 10000) (7823 # 10000);
  Mk_ba18_row (2512 # 10000) (11267 # 10000) (-6029 # 10000) (15687 # 10000) (-296625 # 10000) (5684 # 10000) (3531 # 10000) (4329 # 10000) (7969 # 10000);
  Mk_ba18_row (257 # 1000) (11286 # 10000) (-6045 # 10000) (15659 # 10000) (-301324 # 10000) (5699 # 10000) (3563 # 10000) (4326 # 10000) (7993 # 10000);
  Mk_ba18_row (263 # 1000) (11305 # 10000) (-606 # 1000) (15632 # 10000) (-306017 # 10000) (5842 # 10000) (3571 # 10000) (4307 # 10000) (8088 # 10000);
  Mk_ba18_row (2692 # 10000) (11325 # 10000) (-6075 # 10000) (15604 # 10000) (-310705 # 10000) (5868 # 10000) (361 # 1000) (4292 # 10000) (8117 # 10000);
  Mk_ba18_row (2754 # 10000) (11344 # 10000) (-609 # 1000) (15577 # 10000) (-315388 # 10000) (5771 # 10000) (3605 # 10000) (4322 # 10000) (8061 # 10000);
  Mk_ba18_row (2818 # 10000) (11364 # 10000) (-6106 # 10000) (1555 # 1000) (-320065 # 10000) (5837 # 10000) (3691 # 10000) (4268 # 10000) (8118 # 10000);
  Mk_ba18_row (2884 # 10000) (11383 # 10000) (-6121 # 10000) (15522 # 10000) (-324738 # 10000) (5966 # 10000) (3757 # 10000) (427 # 1000) (8243 # 10000);
  Mk_ba18_row (2951 # 10000) (11403 # 10000) (-6137 # 10000) (15495 # 10000) (-329406 # 10000) (5947 # 10000) (3806 # 10000) (4289 # 10000) (8261 # 10000);
  Mk_ba18_row (302 # 1000) (11422 # 10000) (-6152 # 10000) (15468 # 10000) (-334069 # 10000) (6013 # 10000) (3772 # 10000) (4327 # 10000) (8313 # 10000);
  Mk_ba18_row (309 # 1000) (11442 # 10000) (-6168 # 10000) (15441 # 10000) (-338727 # 10000) (5978 # 10000) (3719 # 10000) (4376 # 10000) (829 # 1000);
  Mk_ba18_row (3162 # 10000) (11461 # 10000) (-6183 # 10000) (15414 # 10000) (-343381 # 10000) (6027 # 10000) (3821 # 10000) (4337 # 10000) (8351 # 10000);
  Mk_ba18_row (3236 # 10000) (1148 # 1000) (-6199 # 10000) (15388 # 10000) (-34803 # 1000) (6068 # 10000) (3887 # 10000) (4329 # 10000) (8406 # 10000);
  Mk_ba18_row (3311 # 10000) (115 # 100) (-6214 # 10000) (15361 # 10000) (-352674 # 10000) (6028 # 10000) (3908 # 10000) (4338 # 10000) (8392 # 10000);
  Mk_ba18_row (3388 # 10000) (11519 # 10000) (-623 # 1000) (15334 # 10000) (-357314 # 10000) (612 # 1000) (3857 # 10000) (437 # 1000) (8451 # 10000);
  Mk_ba18_row (3467 # 10000) (11538 # 10000) (-6246 # 10000) (15307 # 10000) (-36195 # 1000) (6173 # 10000) (3765 # 10000) (4355 # 10000) (8441 # 10000);
  Mk_ba18_row (3548 # 10000) (11558 # 10000) (-6261 # 10000) (15281 # 10000) (-366582 # 10000) (6214 # 10000) (3751 # 10000) (4328 # 10000) (8451 # 10000);
  Mk_ba18_row (3631 # 10000) (11577 # 10000) (-6277 # 10000) (15254 # 10000) (-371209 # 10000) (6275 # 10000) (3863 # 10000) (4356 # 10000) (8561 # 10000);
  Mk_ba18_row (3715 # 10000) (11596 # 10000) (-6293 # 10000) (15227 # 10000) (-375834 # 10000) (6209 # 10000) (4036 # 10000) (4302 # 10000) (8564 # 10000);
  Mk_ba18_row (3802 # 10000) (11616 # 10000) (-6309 # 10000) (15201 # 10000) (-380454 # 10000) (6057 # 10000) (3901 # 10000) (4417 # 10000) (8451 # 10000);
  Mk_ba18_row (389 # 1000) (11635 # 10000) (-6324 # 10000) (15174 # 10000) (-385072 # 10000) (6085 # 10000) (3891 # 10000) (4406 # 10000) (846 # 1000);
  Mk_ba18_row (3981 # 10000) (11654 # 10000) (-634 # 1000) (15148 # 10000) (-389685 # 10000) (6033 # 10000) (3899 # 10000) (4429 # 10000) (8439 # 10000);
  Mk_ba18_row (4074 # 10000) (11674 # 10000) (-6356 # 10000) (15122 # 10000) (-394296 # 10000) (5986 # 10000) (3859 # 10000) (4481 # 10000) (8414 # 10000);
  Mk_ba18_row (4169 # 10000) (11693 # 10000) (-6372 # 10000) (15095 # 10000) (-398902 # 10000) (6068 # 10000) (3845 # 10000) (4456 # 10000) (8454 # 10000);
  Mk_ba18_row (4266 # 10000) (11712 # 10000) (-6388 # 10000) (15069 # 10000) (-403503 # 10000) (6063 # 10000) (3895 # 10000) (4415 # 10000) (8451 # 10000);
  Mk_ba18_row (4365 # 10000) (11732 # 10000) (-6404 # 10000) (15043 # 10000) (-408099 # 10000) (596 # 1000) (3912 # 10000) (4425 # 10000) (8391 # 10000);
  Mk_ba18_row (4467 # 10000) (11751 # 10000) (-642 # 1000) (15018 # 10000) (-412686 # 10000) (5931 # 10000) (3916 # 10000) (4426 # 10000) (8373 # 10000);
  Mk_ba18_row (4571 # 10000) (1177 # 1000) (-6437 # 10000) (14992 # 10000) (-417263 # 10000) (5973 # 10000) (3924 # 10000) (4366 # 10000) (8375 # 10000);
  Mk_ba18_row (4677 # 10000) (11789 # 10000) (-6453 # 10000) (14967 # 10000) (-421825 # 10000) (6067 # 10000) (3955 # 10000) (4369 # 10000) (8458 # 10000);
  Mk_ba18_row (4786 # 10000) (11808 # 10000) (-647 # 1000) (14943 # 10000) (-426367 # 10000) (6084 # 10000) (4001 # 10000) (4378 # 10000) (8496 # 10000);
  Mk_ba18_row (4898 # 10000) (11828 # 10000) (-6487 # 10000) (14919 # 10000) (-430884 # 10000) (6105 # 10000) (4066 # 10000) (4396 # 10000) (8552 # 10000);
  Mk_ba18_row (5012 # 10000) (11845 # 10000) (-6508 # 10000) (14903 # 10000) (-434794 # 10000) (6073 # 10000) (4094 # 10000) (4352 # 10000) (852 # 1000);
  Mk_ba18_row (5129 # 10000) (11863 # 10000) (-6529 # 10000) (14888 # 10000) (-438645 # 10000) (605 # 1000) (4003 # 10000) (4391 # 10000) (848 # 1000);
  Mk_ba18_row (5248 # 10000) (11881 # 10000) (-655 # 1000) (14874 # 10000) (-442437 # 10000) (5965 # 10000) (4012 # 10000) (438 # 1000) (8417 # 10000);
  Mk_ba18_row (537 # 1000) (11899 # 10000) (-6572 # 10000) (14859 # 10000) (-446167 # 10000) (5886 # 10000) (4039 # 10000) (4409 # 10000) (8391 # 10000);
  Mk_ba18_row (5495 # 10000) (11917 # 10000) (-6593 # 10000) (14846 # 10000) (-449834 # 10000) (5884 # 10000) (4084 # 10000) (4349 # 10000) (8379 # 10000);
  Mk_ba18_row (5623 # 10000) (11934 # 10000) (-6615 # 10000) (14832 # 10000) (-453436 # 10000) (5893 # 10000) (4126 # 10000) (4305 # 10000) (8384 # 10000);
  Mk_ba18_row (5754 # 10000) (11952 # 10000) (-6637 # 10000) (1482 # 1000) (-456973 # 10000) (5791 # 10000) (4165 # 10000) (4313 # 10000) (8336 # 10000);
  Mk_ba18_row (5888 # 10000) (11969 # 10000) (-666 # 1000) (14807 # 10000) (-460443 # 10000) (5749 # 10000) (418 # 1000) (4298 # 10000) (8306 # 10000);
  Mk_ba18_row (6026 # 10000) (11987 # 10000) (-6682 # 10000) (14795 # 10000) (-463845 # 10000) (5717 # 10000) (4195 # 10000) (4315 # 10000) (8301 # 10000);
  Mk_ba18_row (6166 # 10000) (12004 # 10000) (-6705 # 10000) (14783 # 10000) (-467177 # 10000) (5748 # 10000) (408 # 1000) (436 # 1000) (8288 # 10000);
  Mk_ba18_row (631 # 1000) (12021 # 10000) (-6728 # 10000) (14772 # 10000) (-470437 # 10000) (582 # 1000) (4018 # 10000) (4445 # 10000) (8353 # 10000);
  Mk_ba18_row (6457 # 10000) (12039 # 10000) (-6751 # 10000) (14761 # 10000) (-473626 # 10000) (574 # 1000) (4115 # 10000) (4365 # 10000) (8303 # 10000);
  Mk_ba18_row (6607 # 10000) (12056 # 10000) (-6774 # 10000) (1475 # 1000) (-47674 # 1000) (5781 # 10000) (4083 # 10000) (4325 # 10000) (8294 # 10000);
  Mk_ba18_row (6761 # 10000) (12073 # 10000) (-6798 # 10000) (1474 # 1000) (-479779 # 10000) (5835 # 10000) (4109 # 10000) (4307 # 10000) (8336 # 10000);
  Mk_ba18_row (6918 # 10000) (1209 # 1000) (-6821 # 10000) (14729 # 10000) (-482742 # 10000) (5813 # 10000) (4096 # 10000) (437 # 1000) (8347 # 10000);
  Mk_ba18_row (7079 # 10000) (12108 # 10000) (-6845 # 10000) (14719 # 10000) (-485628 # 10000) (5771 # 10000) (4107 # 10000) (4384 # 10000) (833 # 1000);
  Mk_ba18_row (7244 # 10000) (12125 # 10000) (-6868 # 10000) (14709 # 10000) (-488434 # 10000) (5687 # 10000) (4058 # 10000) (4403 # 10000) (8258 # 10000);
  Mk_ba18_row (7413 # 10000) (12142 # 10000) (-6892 # 10000) (14699 # 10000) (-491161 # 10000) (5613 # 10000) (4042 # 10000) (443 # 1000) (8214 # 10000);
  Mk_ba18_row (7586 # 10000) (12159 # 10000) (-6916 # 10000) (14689 # 10000) (-493807 # 10000) (5668 # 10000) (4039 # 10000) (4449 # 10000) (826 # 1000);
  Mk_ba18_row (7762 # 10000) (12177 # 10000) (-694 # 1000) (14679 # 10000) (-496371 # 10000) (573 # 1000) (4055 # 10000) (44 # 100) (8285 # 10000);
  Mk_ba18_row (7943 # 10000) (12194 # 10000) (-6964 # 10000) (14669 # 10000) (-498851 # 10000) (5657 # 10000) (4119 # 10000) (4351 # 10000) (824 # 1000);
  Mk_ba18_row (8128 # 10000) (12211 # 10000) (-6988 # 10000) (14659 # 10000) (-501247 # 10000) (5624 # 10000) (4119 # 10000) (4361 # 10000) (8222 # 10000);
  Mk_ba18_row (8318 # 10000) (12228 # 10000) (-7013 # 10000) (14649 # 10000) (-503558 # 10000) (5623 # 10000) (4137 # 10000) (4372 # 10000) (8237 # 10000);
  Mk_ba18_row (8511 # 10000) (12246 # 10000) (-7037 # 10000) (14639 # 10000) (-505784 # 10000) (5571 # 10000) (4162 # 10000) (4381 # 10000) (8219 # 10000);
  Mk_ba18_row (871 # 1000) (12263 # 10000) (-7061 # 10000) (14628 # 10000) (-507922 # 10000) (5486 # 10000) (4118 # 10000) (4365 # 10000) (8131 # 10000);
  Mk_ba18_row (8913 # 10000) (12281 # 10000) (-7086 # 10000) (14617 # 10000) (-509972 # 10000) (5482 # 10000) (414 # 1000) (4332 # 10000) (8122 # 10000);
  Mk_ba18_row (912 # 1000) (12298 # 10000) (-711 # 1000) (14606 # 10000) (-511934 # 10000) (5477 # 10000) (412 # 1000) (4391 # 10000) (8139 # 10000);
  Mk_ba18_row (9333 # 10000) (12316 # 10000) (-7134 # 10000) (14595 # 10000) (-513806 # 10000) (542 # 1000) (4028 # 10000) (4368 # 10000) (8043 # 10000);
  Mk_ba18_row (955 # 1000) (12334 # 10000) (-7159 # 10000) (14583 # 10000) (-515589 # 10000) (5363 # 10000) (4159 # 10000) (4294 # 10000) (803 # 1000);
  Mk_ba18_row (9772 # 10000) (12352 # 10000) (-7183 # 10000) (14571 # 10000) (-517281 # 10000) (5354 # 10000) (4144 # 10000) (427 # 1000) (8005 # 10000);
  Mk_ba18_row (1 # 1) (1237 # 1000) (-7208 # 10000) (14559 # 10000) (-518882 # 10000) (5328 # 10000) (4123 # 10000) (4324 # 10000) (8005 # 10000);
  Mk_ba18_row (10233 # 10000) (12388 # 10000) (-7232 # 10000) (14546 # 10000) (-520392 # 10000) (5312 # 10000) (4148 # 10000) (4311 # 10000) (8001 # 10000);
  Mk_ba18_row (10471 # 10000) (12406 # 10000) (-7257 # 10000) (14532 # 10000) (-52181 # 1000) (5211 # 10000) (4216 # 10000) (434 # 1000) (7985 # 10000);
  Mk_ba18_row (10715 # 10000) (12425 # 10000) (-7281 # 10000) (14518 # 10000) (-523136 # 10000) (5189 # 10000) (4169 # 10000) (4374 # 10000) (7965 # 10000);
  Mk_ba18_row (10965 # 10000) (12443 # 10000) (-7306 # 10000) (14503 # 10000) (-524369 # 10000) (5121 # 10000) (4129 # 10000) (4395 # 10000) (7911 # 10000);
  Mk_ba18_row (1122 # 1000) (12462 # 10000) (-733 # 1000) (14488 # 10000) (-525511 # 10000) (5012 # 10000) (4178 # 10000) (4372 # 10000) (7854 # 10000);
  Mk_ba18_row (11482 # 10000) (12481 # 10000) (-7355 # 10000) (14472 # 10000) (-526559 # 10000) (4941 # 10000) (4203 # 10000) (4345 # 10000) (7808 # 10000);
  Mk_ba18_row (11749 # 10000) (125 # 100) (-7379 # 10000) (14455 # 10000) (-527516 # 10000) (493 # 1000) (4179 # 10000) (4417 # 10000) (7828 # 10000);
  Mk_ba18_row (12023 # 10000) (1252 # 1000) (-7403 # 10000) (14438 # 10000) (-528381 # 10000) (489 # 1000) (4177 # 10000) (4417 # 10000) (7802 # 10000);
  Mk_ba18_row (12303 # 10000) (1254 # 1000) (-7428 # 10000) (14419 # 10000) (-529154 # 10000) (4833 # 10000) (4234 # 10000) (4387 # 10000) (778 # 1000);
  Mk_ba18_row (12589 # 10000) (1256 # 1000) (-7452 # 10000) (144 # 100) (-529836 # 10000) (4721 # 10000) (4232 # 10000) (4356 # 10000) (7692 # 10000);
  Mk_ba18_row (12883 # 10000) (1258 # 1000) (-7476 # 10000) (1438 # 1000) (-530427 # 10000) (4682 # 10000) (4202 # 10000) (4379 # 10000) (7665 # 10000);
  Mk_ba18_row (13183 # 10000) (12601 # 10000) (-75 # 100) (1436 # 1000) (-530928 # 10000) (4644 # 10000) (4202 # 10000) (4401 # 10000) (7654 # 10000);
  Mk_ba18_row (1349 # 1000) (12622 # 10000) (-7524 # 10000) (14338 # 10000) (-531341 # 10000) (4551 # 10000) (4251 # 10000) (4433 # 10000) (7645 # 10000);
  Mk_ba18_row (13804 # 10000) (12643 # 10000) (-7548 # 10000) (14316 # 10000) (-531665 # 10000) (4608 # 10000) (4229 # 10000) (4428 # 10000) (7663 # 10000);
  Mk_ba18_row (14125 # 10000) (12664 # 10000) (-7572 # 10000) (14292 # 10000) (-531902 # 10000) (4597 # 10000) (4208 # 10000) (44 # 100) (7629 # 10000);
  Mk_ba18_row (14454 # 10000) (12686 # 10000) (-7596 # 10000) (14268 # 10000) (-532053 # 10000) (4575 # 10000) (42 # 100) (4427 # 10000) (7627 # 10000);
  Mk_ba18_row (14791 # 10000) (12709 # 10000) (-762 # 1000) (14243 # 10000) (-532119 # 10000) (4518 # 10000) (412 # 1000) (4465 # 10000) (7571 # 10000);
  Mk_ba18_row (15136 # 10000) (12732 # 10000) (-7644 # 10000) (14217 # 10000) (-532101 # 10000) (4657 # 10000) (4116 # 10000) (4479 # 10000) (7661 # 10000);
  Mk_ba18_row (15488 # 10000) (12755 # 10000) (-7668 # 10000) (1419 # 1000) (-532002 # 10000) (4559 # 10000) (418 # 1000) (4436 # 10000) (7611 # 10000);
  Mk_ba18_row (15849 # 10000) (12778 # 10000) (-7692 # 10000) (14162 # 10000) (-531822 # 10000) (4475 # 10000) (4208 # 10000) (4412 # 10000) (7563 # 10000);
  Mk_ba18_row (16218 # 10000) (12803 # 10000) (-7716 # 10000) (14133 # 10000) (-531563 # 10000) (4416 # 10000) (4237 # 10000) (4378 # 10000) (7525 # 10000);
  Mk_ba18_row (16596 # 10000) (12827 # 10000) (-774 # 1000) (14103 # 10000) (-531227 # 10000) (4476 # 10000) (4186 # 10000) (4419 # 10000) (7555 # 10000);
  Mk_ba18_row (16982 # 10000) (12852 # 10000) (-7764 # 10000) (14073 # 10000) (-530816 # 10000) (4407 # 10000) (405 # 1000) (4484 # 10000) (7478 # 10000);
  Mk_ba18_row (17378 # 10000) (12878 # 10000) (-7787 # 10000) (14041 # 10000) (-530331 # 10000) (4269 # 10000) (4084 # 10000) (4491 # 10000) (7421 # 10000);
  Mk_ba18_row (17783 # 10000) (12904 # 10000) (-7811 # 10000) (14009 # 10000) (-529774 # 10000) (411 # 1000) (4026 # 10000) (4564 # 10000) (7343 # 10000);
  Mk_ba18_row (18197 # 10000) (12931 # 10000) (-7835 # 10000) (13976 # 10000) (-529147 # 10000) (409 # 1000) (4051 # 10000) (453 # 1000) (7325 # 10000);
  Mk_ba18_row (18621 # 10000) (12958 # 10000) (-7859 # 10000) (13942 # 10000) (-528452 # 10000) (4105 # 10000) (4047 # 10000) (4478 # 10000) (7299 # 10000);
  Mk_ba18_row (19055 # 10000) (12986 # 10000) (-7882 # 10000) (13907 # 10000) (-527691 # 10000) (4112 # 10000) (3981 # 10000) (4542 # 10000) (7307 # 10000);
  Mk_ba18_row (19498 # 10000) (13014 # 10000) (-7906 # 10000) (13871 # 10000) (-526866 # 10000) (4091 # 10000) (3895 # 10000) (4555 # 10000) (7256 # 10000);
  Mk_ba18_row (19953 # 10000) (13043 # 10000) (-793 # 1000) (13834 # 10000) (-525979 # 10000) (4046 # 10000) (3853 # 10000) (4536 # 10000) (7196 # 10000);
  Mk_ba18_row (20417 # 10000) (13073 # 10000) (-7954 # 10000) (13797 # 10000) (-525033 # 10000) (4019 # 10000) (3884 # 10000) (4522 # 10000) (7189 # 10000);
  Mk_ba18_row (20893 # 10000) (13103 # 10000) (-7977 # 10000) (13759 # 10000) (-524029 # 10000) (3993 # 10000) (3974 # 10000) (4524 # 10000) (7225 # 10000);
  Mk_ba18_row (2138 # 1000) (13134 # 10000) (-8001 # 10000) (1372 # 1000) (-522969 # 10000) (3965 # 10000) (3937 # 10000) (4519 # 10000) (7186 # 10000);
  Mk_ba18_row (21878 # 10000) (13166 # 10000) (-8025 # 10000) (1368 # 1000) (-521856 # 10000) (3907 # 10000) (3866 # 10000) (4534 # 10000) (7125 # 10000);
  Mk_ba18_row (22387 # 10000) (13198 # 10000) (-8049 # 10000) (13639 # 10000) (-520692 # 10000) (3792 # 10000) (3912 # 10000) (4549 # 10000) (7098 # 10000);
  Mk_ba18_row (22909 # 10000) (13231 # 10000) (-8073 # 10000) (13598 # 10000) (-519478 # 10000) (3772 # 10000) (3917 # 10000) (4537 # 10000) (7082 # 10000);
  Mk_ba18_row (23442 # 10000) (13265 # 10000) (-8097 # 10000) (13556 # 10000) (-518218 # 10000) (3791 # 10000) (3924 # 10000) (455 # 1000) (7105 # 10000);
  Mk_ba18_row (23988 # 10000) (13299 # 10000) (-8121 # 10000) (13514 # 10000) (-516912 # 10000) (3732 # 10000) (3922 # 10000) (4518 # 10000) (7051 # 10000);
  Mk_ba18_row (24547 # 10000) (13335 # 10000) (-8145 # 10000) (13471 # 10000) (-515564 # 10000) (3725 # 10000) (3941 # 10000) (4563 # 10000) (7087 # 10000);
  Mk_ba18_row (25119 # 10000) (1337 # 1000) (-8169 # 10000) (13427 # 10000) (-514175 # 10000) (3743 # 10000) (3946 # 10000) (4535 # 10000) (7081 # 10000);
  Mk_ba18_row (25704 # 10000) (13407 # 10000) (-8194 # 10000) (13382 # 10000) (-512747 # 10000) (3683 # 10000) (3895 # 10000) (4564 # 10000) (7041 # 10000);
  Mk_ba18_row (26303 # 10000) (13444 # 10000) (-8218 # 10000) (13337 # 10000) (-511282 # 10000) (3546 # 10000) (3895 # 10000) (4575 # 10000) (6977 # 10000);
  Mk_ba18_row (26915 # 10000) (13482 # 10000) (-8243 # 10000) (13292 # 10000) (-509782 # 10000) (3535 # 10000) (3844 # 10000) (4621 # 10000) (6973 # 10000);
  Mk_ba18_row (27542 # 10000) (13521 # 10000) (-8268 # 10000) (13246 # 10000) (-50825 # 1000) (3586 # 10000) (3849 # 10000) (4595 # 10000) (6985 # 10000);
  Mk_ba18_row (28184 # 10000) (13561 # 10000) (-8292 # 10000) (13199 # 10000) (-506687 # 10000) (3671 # 10000) (3902 # 10000) (4589 # 10000) (7054 # 10000);
  Mk_ba18_row (2884 # 1000) (13601 # 10000) (-8317 # 10000) (13152 # 10000) (-505096 # 10000) (3609 # 10000) (3852 # 10000) (4651 # 10000) (7036 # 10000);
  Mk_ba18_row (29512 # 10000) (13642 # 10000) (-8343 # 10000) (13105 # 10000) (-503477 # 10000) (3644 # 10000) (3849 # 10000) (4603 # 10000) (702 # 1000);
  Mk_ba18_row (302 # 100) (13684 # 10000) (-8368 # 10000) (13057 # 10000) (-501834 # 10000) (3715 # 10000) (381 # 1000) (4626 # 10000) (7051 # 10000);
  Mk_ba18_row (30903 # 10000) (13727 # 10000) (-8393 # 10000) (13009 # 10000) (-500167 # 10000) (3733 # 10000) (3824 # 10000) (4637 # 10000) (7075 # 10000);
  Mk_ba18_row (31623 # 10000) (1377 # 1000) (-8419 # 10000) (1296 # 1000) (-49848 # 1000) (3656 # 10000) (382 # 1000) (4666 # 10000) (7052 # 10000);
  Mk_ba18_row (32359 # 10000) (13814 # 10000) (-8445 # 10000) (12911 # 10000) (-496773 # 10000) (3613 # 10000) (3844 # 10000) (4679 # 10000) (7051 # 10000);
  Mk_ba18_row (33113 # 10000) (13859 # 10000) (-8471 # 10000) (12861 # 10000) (-495048 # 10000) (3545 # 10000) (3812 # 10000) (4669 # 10000) (6993 # 10000);
  Mk_ba18_row (33884 # 10000) (13905 # 10000) (-8497 # 10000) (12811 # 10000) (-493308 # 10000) (3536 # 10000) (3774 # 10000) (4712 # 10000) (6997 # 10000);
  Mk_ba18_row (34674 # 10000) (13951 # 10000) (-8524 # 10000) (12761 # 10000) (-491553 # 10000) (3514 # 10000) (3749 # 10000) (4698 # 10000) (6962 # 10000);
  Mk_ba18_row (35481 # 10000) (13999 # 10000) (-855 # 1000) (12711 # 10000) (-489787 # 10000) (3535 # 10000) (3783 # 10000) (4646 # 10000) (6957 # 10000);
  Mk_ba18_row (36308 # 10000) (14047 # 10000) (-8577 # 10000) (1266 # 1000) (-488009 # 10000) (357 # 1000) (3811 # 10000) (4649 # 10000) (6992 # 10000);
  Mk_ba18_row (37154 # 10000) (14096 # 10000) (-8605 # 10000) (12609 # 10000) (-486223 # 10000) (3603 # 10000) (3817 # 10000) (4705 # 10000) (7049 # 10000);
  Mk_ba18_row (38019 # 10000) (14145 # 10000) (-8632 # 10000) (12558 # 10000) (-484429 # 10000) (3624 # 10000) (3815 # 10000) (472 # 1000) (7069 # 10000);
  Mk_ba18_row (38905 # 10000) (14196 # 10000) (-866 # 1000) (12506 # 10000) (-48263 # 1000) (3634 # 10000) (387 # 1000) (4711 # 10000) (7097 # 10000);
  Mk_ba18_row (39811 # 10000) (14247 # 10000) (-8688 # 10000) (12454 # 10000) (-480826 # 10000) (3614 # 10000) (3864 # 10000) (4677 # 10000) (7062 # 10000);
  Mk_ba18_row (40738 # 10000) (14299 # 10000) (-8716 # 10000) (12403 # 10000) (-47902 # 1000) (361 # 1000) (3844 # 10000) (4682 # 10000) (7052 # 10000);
  Mk_ba18_row (41687 # 10000) (14352 # 10000) (-8745 # 10000) (12351 # 10000) (-477212 # 10000) (3663 # 10000) (3834 # 10000) (4686 # 10000) (7076 # 10000);
  Mk_ba18_row (42658 # 10000) (14405 # 10000) (-8774 # 10000) (12299 # 10000) (-475406 # 10000) (3702 # 10000) (3816 # 10000) (4684 # 10000) (7086 # 10000);
  Mk_ba18_row (43652 # 10000) (14459 # 10000) (-8803 # 10000) (12246 # 10000) (-473601 # 10000) (376 # 1000) (3884 # 10000) (4651 # 10000) (7131 # 10000);
  Mk_ba18_row (44668 # 10000) (14514 # 10000) (-8832 # 10000) (12194 # 10000) (-471799 # 10000) (3754 # 10000) (393 # 1000) (4705 # 10000) (7188 # 10000);
  Mk_ba18_row (45709 # 10000) (1457 # 1000) (-8862 # 10000) (12142 # 10000) (-470002 # 10000) (3706 # 10000) (3918 # 10000) (4708 # 10000) (7159 # 10000);
  Mk_ba18_row (46774 # 10000) (14627 # 10000) (-8893 # 10000) (1209 # 1000) (-468212 # 10000) (3739 # 10000) (3971 # 10000) (4717 # 10000) (7211 # 10000);
  Mk_ba18_row (47863 # 10000) (14684 # 10000) (-8923 # 10000) (12037 # 10000) (-466429 # 10000) (382 # 1000) (4028 # 10000) (4651 # 10000) (7242 # 10000);
  Mk_ba18_row (48978 # 10000) (14742 # 10000) (-8954 # 10000) (11985 # 10000) (-464655 # 10000) (3858 # 10000) (407 # 1000) (4635 # 10000) (7276 # 10000);
  Mk_ba18_row (50119 # 10000) (14809 # 10000) (-8991 # 10000) (11938 # 10000) (-463133 # 10000) (3843 # 10000) (4025 # 10000) (4665 # 10000) (7262 # 10000);
  Mk_ba18_row (51286 # 10000) (14876 # 10000) (-9027 # 10000) (11891 # 10000) (-461638 # 10000) (3973 # 10000) (4044 # 10000) (4681 # 10000) (7352 # 10000);
  Mk_ba18_row (52481 # 10000) (14944 # 10000) (-9064 # 10000) (11845 # 10000) (-460165 # 10000) (3967 # 10000) (4072 # 10000) (4672 # 10000) (7359 # 10000);
  Mk_ba18_row (53703 # 10000) (15012 # 10000) (-9102 # 10000) (11799 # 10000) (-458709 # 10000) (3948 # 10000) (4128 # 10000) (4663 # 10000) (7374 # 10000);
  Mk_ba18_row (54954 # 10000) (1508 # 1000) (-9139 # 10000) (11753 # 10000) (-457264 # 10000) (3951 # 10000) (416 # 1000) (4675 # 10000) (7401 # 10000);
  Mk_ba18_row (56234 # 10000) (15149 # 10000) (-9177 # 10000) (11708 # 10000) (-455829 # 10000) (3953 # 10000) (4196 # 10000) (4661 # 10000) (7413 # 10000);
  Mk_ba18_row (57544 # 10000) (15217 # 10000) (-9215 # 10000) (11662 # 10000) (-454399 # 10000) (401 # 1000) (4255 # 10000) (4668 # 10000) (7482 # 10000);
  Mk_ba18_row (58884 # 10000) (15286 # 10000) (-9253 # 10000) (11617 # 10000) (-452974 # 10000) (4037 # 10000) (4202 # 10000) (4666 # 10000) (7465 # 10000);
  Mk_ba18_row (60256 # 10000) (15355 # 10000) (-9291 # 10000) (11572 # 10000) (-451551 # 10000) (404 # 1000) (4214 # 10000) (4643 # 10000) (7459 # 10000);
  Mk_ba18_row (61659 # 10000) (15423 # 10000) (-9329 # 10000) (11527 # 10000) (-450131 # 10000) (4105 # 10000) (4259 # 10000) (4604 # 10000) (7495 # 10000);
  Mk_ba18_row (63096 # 10000) (15492 # 10000) (-9367 # 10000) (11482 # 10000) (-448713 # 10000) (4146 # 10000) (4294 # 10000) (4598 # 10000) (7534 # 10000);
  Mk_ba18_row (64565 # 10000) (15561 # 10000) (-9405 # 10000) (11437 # 10000) (-447296 # 10000) (4139 # 10000) (4299 # 10000) (4569 # 10000) (7516 # 10000);
  Mk_ba18_row (66069 # 10000) (1563 # 1000) (-9443 # 10000) (11392 # 10000) (-44588 # 1000) (4151 # 10000) (4307 # 10000) (4554 # 10000) (7518 # 10000);
  Mk_ba18_row (67608 # 10000) (15699 # 10000) (-9481 # 10000) (11347 # 10000) (-444466 # 10000) (4253 # 10000) (4289 # 10000) (4536 # 10000) (7554 # 10000);
  Mk_ba18_row (69183 # 10000) (15768 # 10000) (-9519 # 10000) (11302 # 10000) (-443053 # 10000) (4337 # 10000) (4271 # 10000) (4589 # 10000) (7623 # 10000);
  Mk_ba18_row (70795 # 10000) (15837 # 10000) (-9557 # 10000) (11257 # 10000) (-441642 # 10000) (4336 # 10000) (4338 # 10000) (4596 # 10000) (7665 # 10000);
  Mk_ba18_row (72444 # 10000) (15907 # 10000) (-9596 # 10000) (11213 # 10000) (-440233 # 10000) (4362 # 10000) (4383 # 10000) (4605 # 10000) (771 # 1000);
  Mk_ba18_row (74131 # 10000) (15976 # 10000) (-9634 # 10000) (11168 # 10000) (-438826 # 10000) (4421 # 10000) (4433 # 10000) (4618 # 10000) (7779 # 10000);
  Mk_ba18_row (75858 # 10000) (16045 # 10000) (-9672 # 10000) (11123 # 10000) (-437421 # 10000) (4463 # 10000) (4496 # 10000) (4638 # 10000) (7852 # 10000);
  Mk_ba18_row (77625 # 10000) (16115 # 10000) (-971 # 1000) (11078 # 10000) (-436019 # 10000) (4462 # 10000) (4498 # 10000) (4605 # 10000) (7832 # 10000);
  Mk_ba18_row (79433 # 10000) (16184 # 10000) (-9749 # 10000) (11034 # 10000) (-434619 # 10000) (4485 # 10000) (4522 # 10000) (4592 # 10000) (7852 # 10000);
  Mk_ba18_row (81283 # 10000) (16254 # 10000) (-9787 # 10000) (10989 # 10000) (-433222 # 10000) (445 # 1000) (4522 # 10000) (4584 # 10000) (7827 # 10000);
  Mk_ba18_row (83176 # 10000) (16323 # 10000) (-9826 # 10000) (10945 # 10000) (-431827 # 10000) (4551 # 10000) (4564 # 10000) (4609 # 10000) (7924 # 10000);
  Mk_ba18_row (85114 # 10000) (16393 # 10000) (-9864 # 10000) (109 # 100) (-430435 # 10000) (4652 # 10000) (4604 # 10000) (461 # 1000) (8006 # 10000);
  Mk_ba18_row (87096 # 10000) (16463 # 10000) (-9903 # 10000) (10856 # 10000) (-429047 # 10000) (4677 # 10000) (4672 # 10000) (4578 # 10000) (8041 # 10000);
  Mk_ba18_row (89125 # 10000) (16533 # 10000) (-9942 # 10000) (10811 # 10000) (-427661 # 10000) (4673 # 10000) (4713 # 10000) (4554 # 10000) (8049 # 10000);
  Mk_ba18_row (91201 # 10000) (16602 # 10000) (-9981 # 10000) (10767 # 10000) (-426279 # 10000) (4703 # 10000) (4799 # 10000) (4564 # 10000) (8122 # 10000);
  Mk_ba18_row (93325 # 10000) (16673 # 10000) (-10019 # 10000) (10723 # 10000) (-4249 # 100) (4752 # 10000) (4762 # 10000) (4605 # 10000) (8152 # 10000);
  Mk_ba18_row (95499 # 10000) (16743 # 10000) (-10058 # 10000) (10679 # 10000) (-423525 # 10000) (4776 # 10000) (4795 # 10000) (4592 # 10000) (8178 # 10000);
  Mk_ba18_row (97724 # 10000) (16813 # 10000) (-10097 # 10000) (10635 # 10000) (-422153 # 10000) (4809 # 10000) (4803 # 10000) (4604 # 10000) (821 # 1000);
  Mk_ba18_row (10 # 1) (16883 # 10000) (-10136 # 10000) (10591 # 10000) (-420785 # 10000) (4865 # 10000) (4861 # 10000) (4639 # 10000) (8295 # 10000);
  Mk_ba18_row (102329 # 10000) (16953 # 10000) (-10175 # 10000) (10547 # 10000) (-419421 # 10000) (4946 # 10000) (486 # 1000) (4674 # 10000) (8362 # 10000);
  Mk_ba18_row (104713 # 10000) (17024 # 10000) (-10214 # 10000) (10503 # 10000) (-418061 # 10000) (4934 # 10000) (4958 # 10000) (4686 # 10000) (842 # 1000);
  Mk_ba18_row (107152 # 10000) (17094 # 10000) (-10253 # 10000) (10459 # 10000) (-416704 # 10000) (4995 # 10000) (4997 # 10000) (472 # 1000) (8497 # 10000);
  Mk_ba18_row (109648 # 10000) (17165 # 10000) (-10293 # 10000) (10416 # 10000) (-415351 # 10000) (5094 # 10000) (5043 # 10000) (4714 # 10000) (8579 # 10000);
  Mk_ba18_row (112202 # 10000) (17236 # 10000) (-10332 # 10000) (10372 # 10000) (-414003 # 10000) (5115 # 10000) (5141 # 10000) (4734 # 10000) (866 # 1000);
  Mk_ba18_row (114815 # 10000) (17307 # 10000) (-10371 # 10000) (10329 # 10000) (-412659 # 10000) (5138 # 10000) (5195 # 10000) (4731 # 10000) (8705 # 10000);
  Mk_ba18_row (11749 # 1000) (17378 # 10000) (-10411 # 10000) (10285 # 10000) (-411318 # 10000) (5117 # 10000) (527 # 1000) (4757 # 10000) (8751 # 10000);
  Mk_ba18_row (120226 # 10000) (17448 # 10000) (-1045 # 1000) (10242 # 10000) (-409983 # 10000) (5102 # 10000) (5288 # 10000) (4736 # 10000) (8742 # 10000);
  Mk_ba18_row (123027 # 10000) (1752 # 1000) (-1049 # 1000) (10199 # 10000) (-408651 # 10000) (5208 # 10000) (5376 # 10000) (4767 # 10000) (8874 # 10000);
  Mk_ba18_row (125893 # 10000) (17591 # 10000) (-1053 # 1000) (10156 # 10000) (-407324 # 10000) (5174 # 10000) (5463 # 10000) (4773 # 10000) (891 # 1000);
  Mk_ba18_row (128825 # 10000) (17662 # 10000) (-10569 # 10000) (10113 # 10000) (-406001 # 10000) (5213 # 10000) (5455 # 10000) (4792 # 10000) (8939 # 10000);
  Mk_ba18_row (131826 # 10000) (17733 # 10000) (-10609 # 10000) (1007 # 1000) (-404682 # 10000) (5296 # 10000) (5474 # 10000) (4839 # 10000) (9023 # 10000);
  Mk_ba18_row (134896 # 10000) (17805 # 10000) (-10649 # 10000) (10028 # 10000) (-403369 # 10000) (5346 # 10000) (5482 # 10000) (4863 # 10000) (9071 # 10000);
  Mk_ba18_row (138038 # 10000) (17876 # 10000) (-10689 # 10000) (9985 # 10000) (-402059 # 10000) (534 # 1000) (5511 # 10000) (4842 # 10000) (9074 # 10000);
  Mk_ba18_row (141254 # 10000) (17948 # 10000) (-10729 # 10000) (9943 # 10000) (-400754 # 10000) (5403 # 10000) (5519 # 10000) (4864 # 10000) (9128 # 10000);
  Mk_ba18_row (144544 # 10000) (1802 # 1000) (-10769 # 10000) (99 # 100) (-399454 # 10000) (5409 # 10000) (5653 # 10000) (4913 # 10000) (9238 # 10000);
  Mk_ba18_row (147911 # 10000) (18091 # 10000) (-10809 # 10000) (9858 # 10000) (-398159 # 10000) (5409 # 10000) (5741 # 10000) (4957 # 10000) (9316 # 10000);
  Mk_ba18_row (151356 # 10000) (18163 # 10000) (-10849 # 10000) (9816 # 10000) (-396868 # 10000) (5441 # 10000) (5772 # 10000) (502 # 1000) (9387 # 10000);
  Mk_ba18_row (154882 # 10000) (18235 # 10000) (-1089 # 1000) (9774 # 10000) (-395582 # 10000) (5449 # 10000) (5801 # 10000) (5029 # 10000) (9415 # 10000);
  Mk_ba18_row (158489 # 10000) (18307 # 10000) (-1093 # 1000) (9732 # 10000) (-3943 # 100) (5444 # 10000) (5881 # 10000) (5101 # 10000) (95 # 100);
  Mk_ba18_row (162181 # 10000) (18379 # 10000) (-1097 # 1000) (969 # 1000) (-393023 # 10000) (5431 # 10000) (577 # 1000) (516 # 1000) (9456 # 10000);
  Mk_ba18_row (165959 # 10000) (18452 # 10000) (-11011 # 10000) (9648 # 10000) (-391751 # 10000) (5492 # 10000) (5738 # 10000) (5225 # 10000) (9507 # 10000);
  Mk_ba18_row (169824 # 10000) (18524 # 10000) (-11051 # 10000) (9607 # 10000) (-390484 # 10000) (5486 # 10000) (5742 # 10000) (5254 # 10000) (9522 # 10000);
  Mk_ba18_row (17378 # 1000) (18596 # 10000) (-11092 # 10000) (9565 # 10000) (-389222 # 10000) (5527 # 10000) (5735 # 10000) (5315 # 10000) (9575 # 10000);
  Mk_ba18_row (177828 # 10000) (18669 # 10000) (-11133 # 10000) (9524 # 10000) (-387964 # 10000) (5457 # 10000) (5698 # 10000) (5374 # 10000) (9546 # 10000);
  Mk_ba18_row (18197 # 1000) (18741 # 10000) (-11174 # 10000) (9483 # 10000) (-386711 # 10000) (5457 # 10000) (5731 # 10000) (54 # 100) (958 # 1000);
  Mk_ba18_row (186209 # 10000) (18814 # 10000) (-11214 # 10000) (9442 # 10000) (-385463 # 10000) (5343 # 10000) (5823 # 10000) (5458 # 10000) (9605 # 10000);
  Mk_ba18_row (190546 # 10000) (18887 # 10000) (-11255 # 10000) (9401 # 10000) (-384219 # 10000) (5399 # 10000) (5874 # 10000) (5474 # 10000) (9676 # 10000);
  Mk_ba18_row (194984 # 10000) (18959 # 10000) (-11296 # 10000) (936 # 1000) (-38298 # 1000) (5429 # 10000) (5811 # 10000) (5446 # 10000) (9639 # 10000);
  Mk_ba18_row (199526 # 10000) (19032 # 10000) (-11337 # 10000) (9319 # 10000) (-381746 # 10000) (5403 # 10000) (5785 # 10000) (5575 # 10000) (9682 # 10000);
  Mk_ba18_row (204174 # 10000) (19105 # 10000) (-11378 # 10000) (9279 # 10000) (-380516 # 10000) (5392 # 10000) (5817 # 10000) (5566 # 10000) (9689 # 10000);
  Mk_ba18_row (20893 # 1000) (19178 # 10000) (-1142 # 1000) (9238 # 10000) (-379291 # 10000) (5475 # 10000) (5931 # 10000) (5496 # 10000) (9765 # 10000);
  Mk_ba18_row (213796 # 10000) (19251 # 10000) (-11461 # 10000) (9198 # 10000) (-37807 # 1000) (5517 # 10000) (6016 # 10000) (5513 # 10000) (985 # 1000);
  Mk_ba18_row (218776 # 10000) (19325 # 10000) (-11502 # 10000) (9157 # 10000) (-376854 # 10000) (5652 # 10000) (6004 # 10000) (5532 # 10000) (9929 # 10000);
  Mk_ba18_row (223872 # 10000) (19398 # 10000) (-11544 # 10000) (9117 # 10000) (-375643 # 10000) (5754 # 10000) (6049 # 10000) (5604 # 10000) (10056 # 10000);
  Mk_ba18_row (229087 # 10000) (19471 # 10000) (-11585 # 10000) (9077 # 10000) (-374436 # 10000) (5811 # 10000) (6034 # 10000) (5603 # 10000) (10078 # 10000);
  Mk_ba18_row (234423 # 10000) (19545 # 10000) (-11627 # 10000) (9037 # 10000) (-373232 # 10000) (578 # 1000) (6099 # 10000) (5679 # 10000) (10142 # 10000);
  Mk_ba18_row (239883 # 10000) (19618 # 10000) (-11668 # 10000) (8997 # 10000) (-372034 # 10000) (5676 # 10000) (6174 # 10000) (576 # 1000) (10174 # 10000)
].

