(** Generated by tools/gen_json.py - do not edit.
    data/derras_bard_cotton_2014.json, loaded at derras_bard_cotton_2014.py:28-34. *)
From Coq Require Import QArith List.
Import ListNotations.
Open Scope Q_scope.

(** One output: period, the limits of log10_resp, b_2, the row of w_2, log10_std between/within/total. *)
Record dbc14_row := Mk_dbc14_row { dbc14_period : Q; dbc14_min : Q; dbc14_max : Q; dbc14_b2 : Q;
  dbc14_w2 : list Q; dbc14_sd_between : Q; dbc14_sd_within : Q; dbc14_sd_total : Q }.
(** min_max of log10_dist_jb, mag, log10_v_s30, depth_hyp, mechanism. *)
Definition dbc14_limits : list (Q * Q) := [((-1 # 1), (2738 # 1000)); ((36 # 10), (76 # 10)); ((19638 # 10000), (32035 # 10000)); ((0 # 1), (25 # 1)); ((1 # 1), (4 # 1))].
(** b_1 and the rows of w_1. *)
Definition dbc14_hidden : list (Q * list Q) := [
  ((-1271232488 # 1000000000), [(2647891635 # 1000000000); (-107021796 # 100000000); (174087758 # 1000000000); (92191287 # 1000000000); (-13763679 # 1000000000)]);
  ((1512611028 # 1000000000), [(-1908675436 # 1000000000); (-535017369 # 1000000000); (-705141623 # 1000000000); (167611583 # 1000000000); (-2661049 # 100000000)]);
  ((591089009 # 1000000000), [(203542143 # 1000000000); (1780557636 # 1000000000); (-80494591 # 1000000000); (13596356 # 1000000000); (61508209 # 1000000000)]);
  ((-126622688 # 1000000000), [(-692737498 # 1000000000); (441505232 # 1000000000); (775579973 # 1000000000); (-31717733 # 1000000000); (-16306571 # 100000000)]);
  ((-415721222 # 1000000000), [(16162821 # 1000000000); (218141339 # 1000000000); (-1606099447 # 1000000000); (-41636256 # 1000000000); (26057983 # 1000000000)])].
Definition dbc14_coeff : list dbc14_row := [
  Mk_dbc14_row (-1 # 1) (-3849485002 # 1000000000) (-60923911 # 1000000000) (-76472745 # 1000000000) [(-510826776 # 1000000000); (70554779 # 1000000000); (220914175 # 1000000000); (168815839 # 1000000000); (170928164 # 1000000000)] (149 # 1000) (258 # 1000) (298 # 1000);
  Mk_dbc14_row (0 # 1) (-2979303657 # 1000000000) (98101835 # 100000000) (-143493078 # 1000000000) [(-54101415 # 100000000); (254251327 # 1000000000); (109777617 # 1000000000); (75959095 # 1000000000); (-20347572 # 1000000000)] (155 # 1000) (267 # 1000) (309 # 1000);
  Mk_dbc14_row (1 # 100) (-2985196725 # 1000000000) (99145166 # 100000000) (-141251167 # 1000000000) [(-539773537 # 1000000000); (254301257 # 1000000000); (107974037 # 1000000000); (74881998 # 1000000000); (-21585429 # 1000000000)] (155 # 1000) (268 # 1000) (31 # 100);
  Mk_dbc14_row (2 # 100) (-2986059277 # 1000000000) (1007712442 # 1000000000) (-1402921 # 10000000) [(-539375931 # 1000000000); (248942044 # 1000000000); (99446671 # 1000000000); (81987137 # 1000000000); (-17662836 # 1000000000)] (157 # 1000) (27 # 100) (313 # 1000);
  Mk_dbc14_row (3 # 100) (-2984175815 # 1000000000) (108949524 # 100000000) (-142446238 # 1000000000) [(-537208413 # 1000000000); (240441278 # 1000000000); (83145677 # 1000000000); (87421772 # 1000000000); (-18053459 # 1000000000)] (16 # 100) (276 # 1000) (319 # 1000);
  Mk_dbc14_row (4 # 100) (-2982552276 # 1000000000) (1156662115 # 1000000000) (-169403545 # 1000000000) [(-520634258 # 1000000000); (229422592 # 1000000000); (64081989 # 1000000000); (87723565 # 1000000000); (-26990211 # 1000000000)] (162 # 1000) (279 # 1000) (323 # 1000);
  Mk_dbc14_row (5 # 100) (-2956637722 # 1000000000) (1157095399 # 1000000000) (-168605778 # 1000000000) [(-536143529 # 1000000000); (237932202 # 1000000000); (52958747 # 1000000000); (79850429 # 1000000000); (-40505524 # 1000000000)] (163 # 1000) (281 # 1000) (325 # 1000);
  Mk_dbc14_row (75 # 1000) (-2945980456 # 1000000000) (1260733107 # 1000000000) (-154859216 # 1000000000) [(-554628064 # 1000000000); (271755601 # 1000000000); (50356632 # 1000000000); (55594074 # 1000000000); (-76045335 # 1000000000)] (165 # 1000) (284 # 1000) (328 # 1000);
  Mk_dbc14_row (1 # 10) (-2936307635 # 1000000000) (1410814288 # 1000000000) (-169019709 # 1000000000) [(-532266517 # 1000000000); (291446897 # 1000000000); (64617059 # 1000000000); (55270794 # 1000000000); (-9645035 # 100000000)] (168 # 1000) (29 # 100) (335 # 1000);
  Mk_dbc14_row (11 # 100) (-2932216636 # 1000000000) (1457727792 # 1000000000) (-176613627 # 1000000000) [(-521512879 # 1000000000); (29658671 # 100000000); (69576025 # 1000000000); (56273712 # 1000000000); (-99062435 # 1000000000)] (17 # 100) (293 # 1000) (338 # 1000);
  Mk_dbc14_row (12 # 100) (-2930531138 # 1000000000) (1444991459 # 1000000000) (-170419807 # 1000000000) [(-5198772 # 10000000); (301189055 # 1000000000); (74326652 # 1000000000); (54844753 # 1000000000); (-10296585 # 100000000)] (17 # 100) (292 # 1000) (338 # 1000);
  Mk_dbc14_row (13 # 100) (-2928542596 # 1000000000) (1453062036 # 1000000000) (-169012965 # 1000000000) [(-514898774 # 1000000000); (30375476 # 100000000); (81772384 # 1000000000); (55068191 # 1000000000); (-102310668 # 1000000000)] (169 # 1000) (292 # 1000) (337 # 1000);
  Mk_dbc14_row (14 # 100) (-2919667313 # 1000000000) (1385037364 # 1000000000) (-163928953 # 1000000000) [(-516215894 # 1000000000); (313439795 # 1000000000); (91938911 # 1000000000); (52380539 # 1000000000); (-102390682 # 1000000000)] (17 # 100) (293 # 1000) (338 # 1000);
  Mk_dbc14_row (15 # 100) (-2911697131 # 1000000000) (1471769235 # 1000000000) (-174008354 # 1000000000) [(-4979795 # 10000000); (317018727 # 1000000000); (102152195 # 1000000000); (49835913 # 1000000000); (-9816729 # 100000000)] (169 # 1000) (292 # 1000) (337 # 1000);
  Mk_dbc14_row (16 # 100) (-28705569 # 10000000) (1489542018 # 1000000000) (-194478386 # 1000000000) [(-493176711 # 1000000000); (327007863 # 1000000000); (11418295 # 100000000); (49209182 # 1000000000); (-94872584 # 1000000000)] (168 # 1000) (29 # 100) (335 # 1000);
  Mk_dbc14_row (17 # 100) (-285933557 # 100000000) (1490888494 # 1000000000) (-200801472 # 1000000000) [(-485747878 # 1000000000); (331253599 # 1000000000); (127205614 # 1000000000); (46418473 # 1000000000); (-91736341 # 1000000000)] (168 # 1000) (289 # 1000) (334 # 1000);
  Mk_dbc14_row (18 # 100) (-2873058765 # 1000000000) (1486617287 # 1000000000) (-203141294 # 1000000000) [(-478191252 # 1000000000); (335381467 # 1000000000); (137325066 # 1000000000); (44229522 # 1000000000); (-88439399 # 1000000000)] (167 # 1000) (288 # 1000) (333 # 1000);
  Mk_dbc14_row (19 # 100) (-2850059029 # 1000000000) (150374993 # 100000000) (-212134795 # 1000000000) [(-472577837 # 1000000000); (335355736 # 1000000000); (144140467 # 1000000000); (44729064 # 1000000000); (-83059358 # 1000000000)] (165 # 1000) (285 # 1000) (33 # 100);
  Mk_dbc14_row (2 # 10) (-2834673005 # 1000000000) (1535394915 # 1000000000) (-214788445 # 1000000000) [(-460675639 # 1000000000); (331629622 # 1000000000); (148101401 # 1000000000); (5134718 # 100000000); (-74474238 # 1000000000)] (164 # 1000) (284 # 1000) (328 # 1000);
  Mk_dbc14_row (22 # 100) (-2781647452 # 1000000000) (1409036446 # 1000000000) (-214182427 # 1000000000) [(-455401286 # 1000000000); (345362019 # 1000000000); (168485452 # 1000000000); (57154914 # 1000000000); (-6449186 # 100000000)] (164 # 1000) (284 # 1000) (328 # 1000);
  Mk_dbc14_row (24 # 100) (-2758712763 # 1000000000) (1261319049 # 1000000000) (-213932639 # 1000000000) [(-45629014 # 100000000); (359907531 # 1000000000); (19163738 # 100000000); (58118391 # 1000000000); (-55195467 # 1000000000)] (164 # 1000) (282 # 1000) (326 # 1000);
  Mk_dbc14_row (26 # 100) (-2767214299 # 1000000000) (1232880087 # 1000000000) (-212008293 # 1000000000) [(-448942858 # 1000000000); (352037712 # 1000000000); (206011412 # 1000000000); (61961861 # 1000000000); (-44676346 # 1000000000)] (163 # 1000) (281 # 1000) (325 # 1000);
  Mk_dbc14_row (28 # 100) (-2753912978 # 1000000000) (1267300559 # 1000000000) (-227037484 # 1000000000) [(-437033339 # 1000000000); (340535007 # 1000000000); (214707559 # 1000000000); (64792403 # 1000000000); (-31257631 # 1000000000)] (161 # 1000) (279 # 1000) (322 # 1000);
  Mk_dbc14_row (3 # 10) (-2685249329 # 1000000000) (1269455682 # 1000000000) (-246738859 # 1000000000) [(-449973961 # 1000000000); (343550607 # 1000000000); (23202436 # 100000000); (66267603 # 1000000000); (-21772794 # 1000000000)] (161 # 1000) (279 # 1000) (322 # 1000);
  Mk_dbc14_row (32 # 100) (-2699180576 # 1000000000) (1248427106 # 1000000000) (-24795058 # 100000000) [(-435914287 # 1000000000); (327845458 # 1000000000); (237413306 # 1000000000); (68819597 # 1000000000); (-11293778 # 1000000000)] (163 # 1000) (282 # 1000) (326 # 1000);
  Mk_dbc14_row (34 # 100) (-2657061356 # 1000000000) (126168743 # 100000000) (-2518272 # 10000000) [(-42465784 # 100000000); (321408865 # 1000000000); (247731596 # 1000000000); (77612939 # 1000000000); (2352304 # 1000000000)] (164 # 1000) (284 # 1000) (328 # 1000);
  Mk_dbc14_row (36 # 100) (-2743779615 # 1000000000) (1245493493 # 1000000000) (-212879565 # 1000000000) [(-415678041 # 1000000000); (314753909 # 1000000000); (255990159 # 1000000000); (81865016 # 1000000000); (15181998 # 1000000000)] (165 # 1000) (285 # 1000) (329 # 1000);
  Mk_dbc14_row (38 # 100) (-2719549792 # 1000000000) (1212558872 # 1000000000) (-215512278 # 1000000000) [(-415314256 # 1000000000); (31326253 # 100000000); (266736228 # 1000000000); (90005027 # 1000000000); (27379773 # 1000000000)] (166 # 1000) (286 # 1000) (33 # 100);
  Mk_dbc14_row (4 # 10) (-2667871945 # 1000000000) (1206737632 # 1000000000) (-232808829 # 1000000000) [(-414839332 # 1000000000); (313509014 # 1000000000); (276335858 # 1000000000); (101142858 # 1000000000); (395314 # 10000000)] (165 # 1000) (285 # 1000) (33 # 100);
  Mk_dbc14_row (42 # 100) (-2619043181 # 1000000000) (1183978702 # 1000000000) (-242614348 # 1000000000) [(-418038972 # 1000000000); (304164889 # 1000000000); (279426675 # 1000000000); (109541013 # 1000000000); (55573293 # 1000000000)] (165 # 1000) (284 # 1000) (329 # 1000);
  Mk_dbc14_row (44 # 100) (-2667081411 # 1000000000) (1188206731 # 1000000000) (-230743172 # 1000000000) [(-412223333 # 1000000000); (294185023 # 1000000000); (28018961 # 100000000); (10824389 # 100000000); (65720829 # 1000000000)] (164 # 1000) (283 # 1000) (327 # 1000);
  Mk_dbc14_row (46 # 100) (-2715295253 # 1000000000) (1187534293 # 1000000000) (-219657843 # 1000000000) [(-405732831 # 1000000000); (287156033 # 1000000000); (283138956 # 1000000000); (108857627 # 1000000000); (74589338 # 1000000000)] (164 # 1000) (283 # 1000) (328 # 1000);
  Mk_dbc14_row (48 # 100) (-2744937774 # 1000000000) (1195017056 # 1000000000) (-210397231 # 1000000000) [(-404244295 # 1000000000); (282654061 # 1000000000); (289679834 # 1000000000); (110693756 # 1000000000); (82047467 # 1000000000)] (164 # 1000) (284 # 1000) (328 # 1000);
  Mk_dbc14_row (5 # 10) (-2791616858 # 1000000000) (1162867247 # 1000000000) (-197795308 # 1000000000) [(-398349555 # 1000000000); (275134246 # 1000000000); (293426945 # 1000000000); (11309985 # 100000000); (91428891 # 1000000000)] (164 # 1000) (283 # 1000) (327 # 1000);
  Mk_dbc14_row (55 # 100) (-2908517633 # 1000000000) (1149294497 # 1000000000) (-160530216 # 1000000000) [(-382933503 # 1000000000); (253450948 # 1000000000); (297505456 # 1000000000); (122089801 # 1000000000); (115887837 # 1000000000)] (165 # 1000) (285 # 1000) (33 # 100);
  Mk_dbc14_row (6 # 10) (-2952789244 # 1000000000) (1226266131 # 1000000000) (-140822986 # 1000000000) [(-373349488 # 1000000000); (240256546 # 1000000000); (303362656 # 1000000000); (136961296 # 1000000000); (139021525 # 1000000000)] (166 # 1000) (286 # 1000) (331 # 1000);
  Mk_dbc14_row (65 # 100) (-3002621528 # 1000000000) (1174170755 # 1000000000) (-107838684 # 1000000000) [(-373729759 # 1000000000); (228657553 # 1000000000); (312794291 # 1000000000); (14701375 # 100000000); (160696896 # 1000000000)] (166 # 1000) (287 # 1000) (332 # 1000);
  Mk_dbc14_row (7 # 10) (-3090715515 # 1000000000) (1128224702 # 1000000000) (-94014862 # 1000000000) [(-359574788 # 1000000000); (213839065 # 1000000000); (31311436 # 100000000); (151168709 # 1000000000); (17805053 # 100000000)] (166 # 1000) (287 # 1000) (332 # 1000);
  Mk_dbc14_row (75 # 100) (-3186100033 # 1000000000) (1052990942 # 1000000000) (-73895337 # 1000000000) [(-345784509 # 1000000000); (197187139 # 1000000000); (311285387 # 1000000000); (158730867 # 1000000000); (193066308 # 1000000000)] (167 # 1000) (287 # 1000) (332 # 1000);
  Mk_dbc14_row (8 # 10) (-3242837714 # 1000000000) (1035664147 # 1000000000) (-5799372 # 100000000) [(-341037761 # 1000000000); (18153626 # 100000000); (315005438 # 1000000000); (166201307 # 1000000000); (206400745 # 1000000000)] (166 # 1000) (287 # 1000) (331 # 1000);
  Mk_dbc14_row (85 # 100) (-3309818391 # 1000000000) (1006674652 # 1000000000) (-42284114 # 1000000000) [(-336228384 # 1000000000); (171930075 # 1000000000); (320637744 # 1000000000); (170489 # 1000000); (214822499 # 1000000000)] (165 # 1000) (285 # 1000) (33 # 100);
  Mk_dbc14_row (9 # 10) (-3347867863 # 1000000000) (1022366733 # 1000000000) (-43692208 # 1000000000) [(-33108553 # 100000000); (161317428 # 1000000000); (322442037 # 1000000000); (17349243 # 100000000); (222366883 # 1000000000)] (166 # 1000) (286 # 1000) (331 # 1000);
  Mk_dbc14_row (95 # 100) (-3376363292 # 1000000000) (993946952 # 1000000000) (-27928475 # 1000000000) [(-32867094 # 100000000); (149886402 # 1000000000); (323389852 # 1000000000); (176411536 # 1000000000); (229013406 # 1000000000)] (167 # 1000) (288 # 1000) (333 # 1000);
  Mk_dbc14_row (1 # 1) (-3411540737 # 1000000000) (96655149 # 100000000) (-5401146 # 1000000000) [(-323017173 # 1000000000); (137567256 # 1000000000); (32307006 # 100000000); (180835711 # 1000000000); (230941347 # 1000000000)] (168 # 1000) (29 # 100) (335 # 1000);
  Mk_dbc14_row (11 # 10) (-3499349533 # 1000000000) (88712674 # 100000000) (1643085 # 100000000) [(-318080249 # 1000000000); (124328971 # 1000000000); (331785162 # 1000000000); (188006751 # 1000000000); (238824085 # 1000000000)] (17 # 100) (293 # 1000) (339 # 1000);
  Mk_dbc14_row (12 # 10) (-359867812 # 100000000) (786452684 # 1000000000) (56436981 # 1000000000) [(-314220923 # 1000000000); (115845087 # 1000000000); (342820043 # 1000000000); (196252312 # 1000000000); (246883255 # 1000000000)] (172 # 1000) (297 # 1000) (343 # 1000);
  Mk_dbc14_row (13 # 10) (-3699971186 # 1000000000) (773370902 # 1000000000) (76415498 # 1000000000) [(-310585172 # 1000000000); (101115508 # 1000000000); (345417663 # 1000000000); (202331199 # 1000000000); (251746491 # 1000000000)] (174 # 1000) (299 # 1000) (346 # 1000);
  Mk_dbc14_row (14 # 10) (-3787935025 # 1000000000) (749136058 # 1000000000) (80005285 # 1000000000) [(-30818647 # 100000000); (84023406 # 1000000000); (341089481 # 1000000000); (200767673 # 1000000000); (250394494 # 1000000000)] (177 # 1000) (305 # 1000) (353 # 1000);
  Mk_dbc14_row (15 # 10) (-3858485145 # 1000000000) (780103015 # 1000000000) (7403565 # 100000000) [(-306686047 # 1000000000); (7470381 # 100000000); (3420609 # 10000000); (202142239 # 1000000000); (245542794 # 1000000000)] (179 # 1000) (308 # 1000) (356 # 1000);
  Mk_dbc14_row (16 # 10) (-3919735723 # 1000000000) (735773313 # 1000000000) (9299877 # 100000000) [(-313876883 # 1000000000); (71033507 # 1000000000); (355192942 # 1000000000); (204450416 # 1000000000); (244608387 # 1000000000)] (18 # 100) (31 # 100) (359 # 1000);
  Mk_dbc14_row (17 # 10) (-3986529186 # 1000000000) (64299905 # 100000000) (98090915 # 1000000000) [(-314688542 # 1000000000); (61555107 # 1000000000); (356189983 # 1000000000); (205736257 # 1000000000); (242747231 # 1000000000)] (181 # 1000) (313 # 1000) (362 # 1000);
  Mk_dbc14_row (18 # 10) (-4037034701 # 1000000000) (610951381 # 1000000000) (94946234 # 1000000000) [(-315962674 # 1000000000); (49823613 # 1000000000); (354471767 # 1000000000); (201790944 # 1000000000); (236930639 # 1000000000)] (183 # 1000) (316 # 1000) (365 # 1000);
  Mk_dbc14_row (19 # 10) (-4084673593 # 1000000000) (59822423 # 100000000) (87002098 # 1000000000) [(-313927933 # 1000000000); (42350961 # 1000000000); (353760318 # 1000000000); (199163146 # 1000000000); (233971037 # 1000000000)] (185 # 1000) (319 # 1000) (368 # 1000);
  Mk_dbc14_row (2 # 1) (-4123668528 # 1000000000) (587317187 # 1000000000) (80633932 # 1000000000) [(-311733532 # 1000000000); (38001598 # 1000000000); (35386736 # 100000000); (200105369 # 1000000000); (233066656 # 1000000000)] (184 # 1000) (319 # 1000) (368 # 1000);
  Mk_dbc14_row (22 # 10) (-4238777883 # 1000000000) (494881369 # 1000000000) (91510963 # 1000000000) [(-320665749 # 1000000000); (17504398 # 1000000000); (355023584 # 1000000000); (200108312 # 1000000000); (232755627 # 1000000000)] (186 # 1000) (32 # 100) (37 # 100);
  Mk_dbc14_row (24 # 10) (-4343911322 # 1000000000) (437831896 # 1000000000) (9495708 # 100000000) [(-321798843 # 1000000000); (3176592 # 1000000000); (352301716 # 1000000000); (204816304 # 1000000000); (233308677 # 1000000000)] (186 # 1000) (32 # 100) (37 # 100);
  Mk_dbc14_row (26 # 10) (-4425698673 # 1000000000) (419551103 # 1000000000) (95220431 # 1000000000) [(-322225722 # 1000000000); (-4659656 # 1000000000); (353407995 # 1000000000); (207387911 # 1000000000); (229388839 # 1000000000)] (187 # 1000) (323 # 1000) (373 # 1000);
  Mk_dbc14_row (28 # 10) (-4470029056 # 1000000000) (427769901 # 1000000000) (86504663 # 1000000000) [(-322062703 # 1000000000); (-15891113 # 1000000000); (347245916 # 1000000000); (209002388 # 1000000000); (228579043 # 1000000000)] (188 # 1000) (324 # 1000) (375 # 1000);
  Mk_dbc14_row (3 # 1) (-4531743129 # 1000000000) (455067137 # 1000000000) (80948314 # 1000000000) [(-323754946 # 1000000000); (-22829634 # 1000000000); (345746481 # 1000000000); (208617193 # 1000000000); (229073638 # 1000000000)] (189 # 1000) (326 # 1000) (377 # 1000);
  Mk_dbc14_row (32 # 10) (-4600329725 # 1000000000) (466260482 # 1000000000) (69604068 # 1000000000) [(-326085151 # 1000000000); (-25158168 # 1000000000); (346081206 # 1000000000); (206000081 # 1000000000); (228036961 # 1000000000)] (19 # 100) (327 # 1000) (378 # 1000);
  Mk_dbc14_row (34 # 10) (-4644941317 # 1000000000) (475656195 # 1000000000) (59710513 # 1000000000) [(-326322457 # 1000000000); (-28077633 # 1000000000); (344256668 # 1000000000); (202713665 # 1000000000); (222630727 # 1000000000)] (19 # 100) (327 # 1000) (378 # 1000);
  Mk_dbc14_row (36 # 10) (-4694669918 # 1000000000) (47363989 # 100000000) (51176846 # 1000000000) [(-328791942 # 1000000000); (-33029489 # 1000000000); (343646922 # 1000000000); (200033424 # 1000000000); (219921594 # 1000000000)] (189 # 1000) (326 # 1000) (376 # 1000);
  Mk_dbc14_row (38 # 10) (-4750844723 # 1000000000) (467695635 # 1000000000) (53684364 # 1000000000) [(-330966628 # 1000000000); (-3828204 # 100000000); (343568322 # 1000000000); (201457449 # 1000000000); (219779751 # 1000000000)] (188 # 1000) (325 # 1000) (375 # 1000);
  Mk_dbc14_row (4 # 1) (-479929973 # 100000000) (444726741 # 1000000000) (56169376 # 1000000000) [(-331991914 # 1000000000); (-41837648 # 1000000000); (344006313 # 1000000000); (203514758 # 1000000000); (220175879 # 1000000000)] (188 # 1000) (324 # 1000) (375 # 1000)].
