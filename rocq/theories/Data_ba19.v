(** Generated by tools/gen_data.py - do not edit.
    Coefficient tables, exact decimals as in the data files. *)
From Coq Require Import QArith List.
Import ListNotations.
Open Scope Q_scope.

(** One row of data/bayless_abrahamson_2019.csv; the field names are the column names of the file
    (load_data_file, model.py:526-538). Blank cells (NaN) are None. *)
Record ba19_row := Mk_ba19_row {
  ba19_freq_hz : Q;
  ba19_c1 : option Q;
  ba19_c2 : option Q;
  ba19_c3 : option Q;
  ba19_cn : option Q;
  ba19_cM : option Q;
  ba19_c4 : option Q;
  ba19_c5 : option Q;
  ba19_c6 : option Q;
  ba19_chm : option Q;
  ba19_c7 : option Q;
  ba19_c8 : option Q;
  ba19_c9 : option Q;
  ba19_c10 : option Q;
  ba19_c11a : option Q;
  ba19_c11b : option Q;
  ba19_c11c : option Q;
  ba19_c11d : option Q;
  ba19_c1a : option Q;
  ba19_s1 : Q;
  ba19_s2 : Q;
  ba19_s3 : Q;
  ba19_s4 : Q;
  ba19_s5 : Q;
  ba19_s6 : Q;
  ba19_f3 : Q;
  ba19_f4 : Q;
  ba19_f5 : Q
}.

(** bayless_abrahamson_2019.py:32: data/bayless_abrahamson_2019.csv lines 4-304 (301 rows) *)
Definition ba19_coeff : list ba19_row := [
  Mk_ba19_row (1 # 10) (Some (-364999998939925 # 100000000000000)) (Some (127 # 100)) (Some (348570650852503 # 100000000000000)) (Some (155229046897076 # 100000000000000)) (Some (679837319084988 # 100000000000000)) (Some (-186 # 100)) (Some (75818 # 10000)) (Some (45 # 100)) (Some (3838 # 1000)) (Some (-993 # 10000000000000)) (Some (-743231724355658 # 1000000000000000)) (Some (-312053545141881 # 10000000000000000)) (Some (-2 # 10)) (Some (435485417713765 # 1000000000000000)) (Some (264594095765709 # 1000000000000000)) (Some (2068246443273 # 10000000000000)) (Some (769258704714028 # 10000000000000000)) (Some (162699640269275 # 1000000000000000)) (55708674413389 # 100000000000000) (428744430241036 # 1000000000000000) (350000003358367 # 1000000000000000) (350000003545105 # 1000000000000000) (403571174846991 # 1000000000000000) (403571174846991 # 1000000000000000) (1 # 1) (-1 # 10000) (-2 # 100);
  Mk_ba19_row (1023293 # 10000000) (Some (-364774628782626 # 100000000000000)) (Some (127 # 100)) (Some (348135744195672 # 100000000000000)) (Some (156280494361916 # 100000000000000)) (Some (678618509124285 # 100000000000000)) (Some (-186 # 100)) (Some (75818 # 10000)) (Some (45 # 100)) (Some (3838 # 1000)) (Some (-263 # 10000000)) (Some (-749511189046711 # 1000000000000000)) (Some (-312173946790171 # 10000000000000000)) (Some (-2 # 10)) (Some (436075163336449 # 1000000000000000)) (Some (265781870523385 # 1000000000000000)) (Some (207919363466881 # 1000000000000000)) (Some (791014808016777 # 10000000000000000)) (Some (171104360965465 # 1000000000000000)) (55708674413389 # 100000000000000) (428744430241036 # 1000000000000000) (350890995762301 # 1000000000000000) (350890995925777 # 1000000000000000) (403859133904691 # 1000000000000000) (403859133904691 # 1000000000000000) (1 # 1) (-1 # 10000) (-2 # 100);
  Mk_ba19_row (1047129 # 10000000) (Some (-364549258622243 # 100000000000000)) (Some (127 # 100)) (Some (347697320858558 # 100000000000000)) (Some (157347044572188 # 100000000000000)) (Some (677400787990784 # 100000000000000)) (Some (-186 # 100)) (Some (75818 # 10000)) (Some (45 # 100)) (Some (3838 # 1000)) (Some (-526 # 10000000)) (Some (-755784379700912 # 1000000000000000)) (Some (-312294342751785 # 10000000000000000)) (Some (-2 # 10)) (Some (43664767705143 # 100000000000000)) (Some (266947550633775 # 1000000000000000)) (Some (209011420626527 # 1000000000000000)) (Some (812769713754682 # 10000000000000000)) (Some (178404273571635 # 1000000000000000)) (55708674413389 # 100000000000000) (428744430241036 # 1000000000000000) (351781988166507 # 1000000000000000) (35178198830745 # 100000000000000) (40414709296248 # 100000000000000) (40414709296248 # 100000000000000) (1 # 1) (-1 # 10000) (-2 # 100);
  Mk_ba19_row (10715192 # 100000000) (Some (-364323888458386 # 100000000000000)) (Some (127 # 100)) (Some (347255445475557 # 100000000000000)) (Some (158429090489399 # 100000000000000)) (Some (676184117393401 # 100000000000000)) (Some (-186 # 100)) (Some (75818 # 10000)) (Some (45 # 100)) (Some (3838 # 1000)) (Some (-789 # 10000000)) (Some (-76205215862103 # 100000000000000)) (Some (-312414732520305 # 10000000000000000)) (Some (-2 # 10)) (Some (437202834322046 # 1000000000000000)) (Some (268090625398295 # 1000000000000000)) (Some (210100672345619 # 1000000000000000)) (Some (834520622120971 # 10000000000000000)) (Some (184615660295721 # 1000000000000000)) (55708674413389 # 100000000000000) (428744430241037 # 1000000000000000) (352672980571043 # 1000000000000000) (352672980690142 # 1000000000000000) (404435052020375 # 1000000000000000) (404435052020375 # 1000000000000000) (1 # 1) (-1 # 10000) (-2 # 100);
  Mk_ba19_row (10964782 # 100000000) (Some (-364098518290892 # 100000000000000)) (Some (127 # 100)) (Some (346810036544953 # 100000000000000)) (Some (15952695444501 # 10000000000000)) (Some (674968441331695 # 100000000000000)) (Some (-186 # 100)) (Some (75818 # 10000)) (Some (45 # 100)) (Some (3838 # 1000)) (Some (-105206597971244 # 1000000000000000000)) (Some (-768315652111989 # 1000000000000000)) (Some (-312535115573727 # 10000000000000000)) (Some (-2 # 10)) (Some (437740687186193 # 1000000000000000)) (Some (269210781463981 # 1000000000000000)) (Some (211186991417373 # 1000000000000000)) (Some (856264065991884 # 10000000000000000)) (Some (189759046227722 # 1000000000000000)) (55708674413389 # 100000000000000) (428744430241036 # 1000000000000000) (353563972975853 # 1000000000000000) (353563973073811 # 1000000000000000) (404723011078358 # 1000000000000000) (404723011078358 # 1000000000000000) (1 # 1) (-1 # 10000) (-2 # 100);
  Mk_ba19_row (11220184 # 100000000) (Some (-363873148119559 # 100000000000000)) (Some (127 # 100)) (Some (346361151744205 # 100000000000000)) (Some (160641087409163 # 100000000000000)) (Some (673753680335119 # 100000000000000)) (Some (-186 # 100)) (Some (75818 # 10000)) (Some (45 # 100)) (Some (3838 # 1000)) (Some (-131508222650384 # 1000000000000000000)) (Some (-774576201133875 # 1000000000000000)) (Some (-312655491371224 # 10000000000000000)) (Some (-2 # 10)) (Some (438261359733098 # 1000000000000000)) (Some (270307894853377 # 1000000000000000)) (Some (212270271085316 # 1000000000000000)) (Some (877996128509847 # 10000000000000000)) (Some (193857985713307 # 1000000000000000)) (55708674413389 # 100000000000000) (428744430241036 # 1000000000000000) (354454965380918 # 1000000000000000) (354454965458435 # 1000000000000000) (405010970136424 # 1000000000000000) (405010970136424 # 1000000000000000) (1 # 1) (-1 # 10000) (-2 # 100);
  Mk_ba19_row (1148154 # 10000000) (Some (-363647777944142 # 100000000000000)) (Some (127 # 100)) (Some (345908793856567 # 100000000000000)) (Some (161771925811093 # 100000000000000)) (Some (672539724347051 # 100000000000000)) (Some (-186 # 100)) (Some (75818 # 10000)) (Some (45 # 100)) (Some (3838 # 1000)) (Some (-15780984733524 # 100000000000000000)) (Some (-780835276547817 # 1000000000000000)) (Some (-312775859349666 # 10000000000000000)) (Some (-2 # 10)) (Some (438764985682493 # 1000000000000000)) (Some (271382000220181 # 1000000000000000)) (Some (213350410942191 # 1000000000000000)) (Some (899712341643538 # 10000000000000000)) (Some (196938217882452 # 1000000000000000)) (55708674413389 # 100000000000000) (428744430241036 # 1000000000000000) (355345957786271 # 1000000000000000) (355345957844019 # 1000000000000000) (405298929194584 # 1000000000000000) (405298929194584 # 1000000000000000) (1 # 1) (-1 # 10000) (-2 # 100);
  Mk_ba19_row (1174898 # 10000000) (Some (-363422407764408 # 100000000000000)) (Some (127 # 100)) (Some (345453057844187 # 100000000000000)) (Some (162919995853677 # 100000000000000)) (Some (671326428536981 # 100000000000000)) (Some (-186 # 100)) (Some (75818 # 10000)) (Some (45 # 100)) (Some (3838 # 1000)) (Some (-184111472024055 # 1000000000000000000)) (Some (-78709440860628 # 100000000000000)) (Some (-31289621891988 # 1000000000000000)) (Some (-2 # 10)) (Some (439251716755258 # 1000000000000000)) (Some (272433282951635 # 1000000000000000)) (Some (214427309723969 # 1000000000000000)) (Some (921407580583394 # 10000000000000000)) (Some (199026826061934 # 1000000000000000)) (55708674413389 # 100000000000000) (428744430241037 # 1000000000000000) (356236950191981 # 1000000000000000) (356236950230574 # 1000000000000000) (405586888252858 # 1000000000000000) (405586888252858 # 1000000000000000) (1 # 1) (-1 # 10000) (-2 # 100);
  Mk_ba19_row (12022643 # 100000000) (Some (-363197037580333 # 100000000000000)) (Some (127 # 100)) (Some (344994029201235 # 100000000000000)) (Some (16408583791335 # 10000000000000)) (Some (670113614967967 # 100000000000000)) (Some (-186 # 100)) (Some (75818 # 10000)) (Some (45 # 100)) (Some (3838 # 1000)) (Some (-210413096716024 # 1000000000000000000)) (Some (-79335512316493 # 100000000000000)) (Some (-313016569462566 # 10000000000000000)) (Some (-2 # 10)) (Some (439721764291835 # 1000000000000000)) (Some (273462104447736 # 1000000000000000)) (Some (215500875781777 # 1000000000000000)) (Some (943076262144679 # 10000000000000000)) (Some (200151100482247 # 1000000000000000)) (55708674413389 # 100000000000000) (428744430241036 # 1000000000000000) (357127942598002 # 1000000000000000) (357127942618067 # 1000000000000000) (405874847311233 # 1000000000000000) (405874847311233 # 1000000000000000) (1 # 1) (-1 # 10000) (-2 # 100);
  Mk_ba19_row (1230269 # 10000000) (Some (-362971667392158 # 100000000000000)) (Some (127 # 100)) (Some (344531730151983 # 100000000000000)) (Some (165269965836114 # 100000000000000)) (Some (668901072208393 # 100000000000000)) (Some (-186 # 100)) (Some (75818 # 10000)) (Some (45 # 100)) (Some (3838 # 1000)) (Some (-236714721421757 # 1000000000000000000)) (Some (-799618843880856 # 1000000000000000)) (Some (-313136910323856 # 10000000000000000)) (Some (-2 # 10)) (Some (440175423849312 # 1000000000000000)) (Some (274469003109485 # 1000000000000000)) (Some (216571029468707 # 1000000000000000)) (Some (964712544139773 # 10000000000000000)) (Some (200337033620685 # 1000000000000000)) (55708674413389 # 100000000000000) (428744430241036 # 1000000000000000) (358018935004169 # 1000000000000000) (358018935006419 # 1000000000000000) (406162806369655 # 1000000000000000) (406162806369655 # 1000000000000000) (1 # 1) (-1 # 10000) (-2 # 100);
  Mk_ba19_row (12589254 # 100000000) (Some (-36274629720023 # 10000000000000)) (Some (127 # 100)) (Some (344066340336659 # 100000000000000)) (Some (166473039512596 # 100000000000000)) (Some (667688561041148 # 100000000000000)) (Some (-186 # 100)) (Some (75818 # 10000)) (Some (45 # 100)) (Some (3838 # 1000)) (Some (-263016346219226 # 1000000000000000000)) (Some (-805886814476511 # 1000000000000000)) (Some (-313257240810509 # 10000000000000000)) (Some (-2 # 10)) (Some (440613064411011 # 1000000000000000)) (Some (275454661396751 # 1000000000000000)) (Some (217637701179715 # 1000000000000000)) (Some (986310536844073 # 10000000000000000)) (Some (199606688304578 # 1000000000000000)) (557086744133891 # 1000000000000000) (428744430241037 # 1000000000000000) (358909927410326 # 1000000000000000) (358909927395561 # 1000000000000000) (406450765428074 # 1000000000000000) (406450765428074 # 1000000000000000) (1 # 1) (-1 # 10000) (-2 # 100);
  Mk_ba19_row (12882494 # 100000000) (Some (-362520927005084 # 100000000000000)) (Some (127 # 100)) (Some (343597949999282 # 100000000000000)) (Some (167695690426537 # 100000000000000)) (Some (666475823834423 # 100000000000000)) (Some (-186 # 100)) (Some (75818 # 10000)) (Some (45 # 100)) (Some (3838 # 1000)) (Some (-289317971015528 # 1000000000000000000)) (Some (-81216009982855 # 100000000000000)) (Some (-313377560184782 # 10000000000000000)) (Some (-2 # 10)) (Some (44103508335244 # 100000000000000)) (Some (276419830633757 # 1000000000000000)) (Some (218700825233558 # 1000000000000000)) (Some (100786437846126 # 1000000000000000)) (Some (197975809105121 # 1000000000000000)) (557086744133891 # 1000000000000000) (428744430241037 # 1000000000000000) (359800919816285 # 1000000000000000) (359800919785422 # 1000000000000000) (40673872448643 # 100000000000000) (40673872448643 # 100000000000000) (1 # 1) (-1 # 10000) (-2 # 100);
  Mk_ba19_row (1318257 # 10000000) (Some (-36229555680736 # 10000000000000)) (Some (127 # 100)) (Some (343126649981246 # 100000000000000)) (Some (168938575916226 # 100000000000000)) (Some (665262624257254 # 100000000000000)) (Some (-186 # 100)) (Some (75818 # 10000)) (Some (45 # 100)) (Some (3838 # 1000)) (Some (-3156195957892 # 10000000000000000)) (Some (-818439720097607 # 1000000000000000)) (Some (-313497867659087 # 10000000000000000)) (Some (-2 # 10)) (Some (441441851517007 # 1000000000000000)) (Some (277365244014688 # 1000000000000000)) (Some (219760313935451 # 1000000000000000)) (Some (102936829228645 # 1000000000000000)) (Some (195453496577717 # 1000000000000000)) (55708674413389 # 100000000000000) (428744430241037 # 1000000000000000) (360691912221877 # 1000000000000000) (360691912175941 # 1000000000000000) (407026683544666 # 1000000000000000) (407026683544666 # 1000000000000000) (1 # 1) (-1 # 10000) (-2 # 100);
  Mk_ba19_row (1348963 # 10000000) (Some (-362070186607706 # 100000000000000)) (Some (127 # 100)) (Some (342652573285781 # 100000000000000)) (Some (170202156045516 # 100000000000000)) (Some (664048763437616 # 100000000000000)) (Some (-186 # 100)) (Some (75818 # 10000)) (Some (45 # 100)) (Some (383798850300414 # 100000000000000)) (Some (-341921220531017 # 1000000000000000000)) (Some (-824726680272542 # 1000000000000000)) (Some (-313618162390682 # 10000000000000000)) (Some (-2 # 10)) (Some (441833689552203 # 1000000000000000)) (Some (278291566270503 # 1000000000000000)) (Some (220816053253945 # 1000000000000000)) (Some (105081671113362 # 1000000000000000)) (Some (192038028309017 # 1000000000000000)) (557086744133891 # 1000000000000000) (428744430241037 # 1000000000000000) (361582904626971 # 1000000000000000) (361582904567081 # 1000000000000000) (407314642602741 # 1000000000000000) (407314642602741 # 1000000000000000) (1 # 1) (-1 # 10000) (-2 # 100);
  Mk_ba19_row (13803841 # 100000000) (Some (-361844816406938 # 100000000000000)) (Some (127 # 100)) (Some (342175760606277 # 100000000000000)) (Some (171485141164759 # 100000000000000)) (Some (662834081448244 # 100000000000000)) (Some (-186 # 100)) (Some (75818 # 10000)) (Some (45 # 100)) (Some (383796578771329 # 100000000000000)) (Some (-368222845245629 # 1000000000000000000)) (Some (-831021927783759 # 1000000000000000)) (Some (-313738443476766 # 10000000000000000)) (Some (-2 # 10)) (Some (442210906515428 # 1000000000000000)) (Some (279199400857543 # 1000000000000000)) (Some (2218678909958 # 10000000000000)) (Some (107220436629918 # 1000000000000000)) (Some (187709097161981 # 1000000000000000)) (55708674413389 # 100000000000000) (428744430241036 # 1000000000000000) (362473897031397 # 1000000000000000) (362473896958799 # 1000000000000000) (4076026016606 # 10000000000000) (4076026016606 # 10000000000000) (1 # 1) (-1 # 10000) (-2 # 100);
  Mk_ba19_row (14125373 # 100000000) (Some (-361619446205922 # 100000000000000)) (Some (127 # 100)) (Some (341696142269158 # 100000000000000)) (Some (172752951329529 # 100000000000000)) (Some (661618456958626 # 100000000000000)) (Some (-186 # 100)) (Some (75818 # 10000)) (Some (45 # 100)) (Some (383794307227215 # 100000000000000)) (Some (-394524469949125 # 1000000000000000000)) (Some (-83732632099798 # 100000000000000)) (Some (-313858709950688 # 10000000000000000)) (Some (-2 # 10)) (Some (442573860067249 # 1000000000000000)) (Some (280089336388571 # 1000000000000000)) (Some (222915629802886 # 1000000000000000)) (Some (109352638889226 # 1000000000000000)) (Some (18241487173412 # 100000000000000)) (55708674413389 # 100000000000000) (428744430241036 # 1000000000000000) (36336488943496 # 100000000000000) (36336488935105 # 100000000000000) (407890560718181 # 1000000000000000) (407890560718181 # 1000000000000000) (1 # 1) (-1 # 10000) (-2 # 100);
  Mk_ba19_row (144544 # 1000000) (Some (-361394076005055 # 100000000000000)) (Some (127 # 100)) (Some (34121379761487 # 10000000000000)) (Some (174029162203962 # 100000000000000)) (Some (660401804707552 # 100000000000000)) (Some (-186 # 100)) (Some (75818 # 10000)) (Some (45 # 100)) (Some (383792035645049 # 100000000000000)) (Some (-420826094665257 # 1000000000000000000)) (Some (-843640616588611 # 1000000000000000)) (Some (-313978960780293 # 10000000000000000)) (Some (-2 # 10)) (Some (442922975146233 # 1000000000000000)) (Some (280961991679834 # 1000000000000000)) (Some (223959028411286 # 1000000000000000)) (Some (111477846973554 # 1000000000000000)) (Some (176049653767829 # 1000000000000000)) (557086744133891 # 1000000000000000) (428744430241037 # 1000000000000000) (364255881837525 # 1000000000000000) (364255881743821 # 1000000000000000) (408178519775439 # 1000000000000000) (408178519775439 # 1000000000000000) (1 # 1) (-1 # 10000) (-2 # 100);
  Mk_ba19_row (14791083 # 100000000) (Some (-361168705803441 # 100000000000000)) (Some (127 # 100)) (Some (340728778478992 # 100000000000000)) (Some (175313460228807 # 100000000000000)) (Some (659184074040779 # 100000000000000)) (Some (-186 # 100)) (Some (75818 # 10000)) (Some (45 # 100)) (Some (383789764117141 # 100000000000000)) (Some (-447127719421786 # 1000000000000000000)) (Some (-849965493960482 # 1000000000000000)) (Some (-314099194870103 # 10000000000000000)) (Some (-2 # 10)) (Some (443258703973387 # 1000000000000000)) (Some (281818009792993 # 1000000000000000)) (Some (224997791395633 # 1000000000000000)) (Some (113595697228158 # 1000000000000000)) (Some (168417047038386 # 1000000000000000)) (55708674413389 # 100000000000000) (428744430241037 # 1000000000000000) (365146874239037 # 1000000000000000) (365146874137136 # 1000000000000000) (408466478832357 # 1000000000000000) (408466478832357 # 1000000000000000) (1 # 1) (-1 # 10000) (-2 # 100);
  Mk_ba19_row (15135611 # 100000000) (Some (-360943335597385 # 100000000000000)) (Some (127 # 100)) (Some (340241023040629 # 100000000000000)) (Some (176605581064231 # 100000000000000)) (Some (657965250691606 # 100000000000000)) (Some (-186 # 100)) (Some (75818 # 10000)) (Some (45 # 100)) (Some (383787492571501 # 100000000000000)) (Some (-473429344247136 # 1000000000000000000)) (Some (-856301561748173 # 1000000000000000)) (Some (-314219411069792 # 10000000000000000)) (Some (-2 # 10)) (Some (443581473200125 # 1000000000000000)) (Some (282658039430522 # 1000000000000000)) (Some (226031568444921 # 1000000000000000)) (Some (115705906522764 # 1000000000000000)) (Some (159203968143947 # 1000000000000000)) (55708674413389 # 100000000000000) (428744430241036 # 1000000000000000) (366037866639439 # 1000000000000000) (366037866531024 # 1000000000000000) (408754437888916 # 1000000000000000) (408754437888916 # 1000000000000000) (1 # 1) (-1 # 10000) (-2 # 100);
  Mk_ba19_row (1548817 # 10000000) (Some (-360717965376647 # 100000000000000)) (Some (127 # 100)) (Some (339750478092576 # 100000000000000)) (Some (177905379375951 # 100000000000000)) (Some (656745354210485 # 100000000000000)) (Some (-186 # 100)) (Some (75818 # 10000)) (Some (45 # 100)) (Some (383785220988117 # 100000000000000)) (Some (-499730969166829 # 1000000000000000000)) (Some (-862649324061279 # 1000000000000000)) (Some (-314339608192584 # 10000000000000000)) (Some (-2 # 10)) (Some (443891662021669 # 1000000000000000)) (Some (283482760057418 # 1000000000000000)) (Some (227059975297114 # 1000000000000000)) (Some (11780827498691 # 100000000000000)) (Some (148232307423411 # 1000000000000000)) (55708674413389 # 100000000000000) (428744430241036 # 1000000000000000) (366928859038725 # 1000000000000000) (366928858925546 # 1000000000000000) (409042396945114 # 1000000000000000) (409042396945114 # 1000000000000000) (1 # 1) (-1 # 10000) (-2 # 100);
  Mk_ba19_row (15848931 # 100000000) (Some (-360492595148145 # 100000000000000)) (Some (127 # 100)) (Some (339257143582102 # 100000000000000)) (Some (179212833933921 # 100000000000000)) (Some (655524430170285 # 100000000000000)) (Some (-186 # 100)) (Some (75818 # 10000)) (Some (45 # 100)) (Some (383782949468711 # 100000000000000)) (Some (-526032594200467 # 1000000000000000000)) (Some (-869009171122743 # 1000000000000000)) (Some (-314459785048496 # 10000000000000000)) (Some (-2 # 10)) (Some (444189605902387 # 1000000000000000)) (Some (284292918508399 # 1000000000000000)) (Some (228082616507387 # 1000000000000000)) (Some (119902687343141 # 1000000000000000)) (Some (13721996216475 # 100000000000000)) (55708674413389 # 100000000000000) (428744430241036 # 1000000000000000) (367819851436963 # 1000000000000000) (367819851320792 # 1000000000000000) (409330356000974 # 1000000000000000) (409330356000974 # 1000000000000000) (1 # 1) (-1 # 10000) (-2 # 100);
  Mk_ba19_row (162181 # 1000000) (Some (-360267224915766 # 100000000000000)) (Some (127 # 100)) (Some (338760893272865 # 100000000000000)) (Some (180527879705119 # 100000000000000)) (Some (654302549050872 # 100000000000000)) (Some (-186 # 100)) (Some (75818 # 10000)) (Some (45 # 100)) (Some (383780677919443 # 100000000000000)) (Some (-552334219360204 # 1000000000000000000)) (Some (-87538128913273 # 100000000000000)) (Some (-314579940498272 # 10000000000000000)) (Some (-2 # 10)) (Some (444475599184614 # 1000000000000000)) (Some (285089344066893 # 1000000000000000)) (Some (229099090805064 # 1000000000000000)) (Some (121989132169842 # 1000000000000000)) (Some (126377006396513 # 1000000000000000)) (55708674413389 # 100000000000000) (428744430241036 # 1000000000000000) (368710843834198 # 1000000000000000) (368710843716856 # 1000000000000000) (409618315056509 # 1000000000000000) (409618315056509 # 1000000000000000) (1 # 1) (-1 # 10000) (-2 # 100);
  Mk_ba19_row (1659587 # 10000000) (Some (-360041854673624 # 100000000000000)) (Some (127 # 100)) (Some (338261647249595 # 100000000000000)) (Some (18185060545989 # 10000000000000)) (Some (653079809143154 # 100000000000000)) (Some (-186 # 100)) (Some (75818 # 10000)) (Some (45 # 100)) (Some (383778406358584 # 100000000000000)) (Some (-578635844648761 # 1000000000000000000)) (Some (-881765527319874 # 1000000000000000)) (Some (-314700073532579 # 10000000000000000)) (Some (-2 # 10)) (Some (444749897376472 # 1000000000000000)) (Some (285872960134992 # 1000000000000000)) (Some (230108989853143 # 1000000000000000)) (Some (12406772340482 # 100000000000000)) (Some (115998203105165 # 1000000000000000)) (55708674413389 # 100000000000000) (428744430241037 # 1000000000000000) (369601836230552 # 1000000000000000) (36960183611386 # 100000000000000) (40990627411176 # 100000000000000) (40990627411176 # 100000000000000) (1 # 1) (-1 # 10000) (-2 # 100);
  Mk_ba19_row (1698244 # 10000000) (Some (-359816484415423 # 100000000000000)) (Some (127 # 100)) (Some (337759296978709 # 100000000000000)) (Some (183181273102893 # 100000000000000)) (Some (651856346480311 # 100000000000000)) (Some (-186 # 100)) (Some (75818 # 10000)) (Some (45 # 100)) (Some (383776134794462 # 100000000000000)) (Some (-604937470057662 # 1000000000000000000)) (Some (-88816131658155 # 100000000000000)) (Some (-314820183371976 # 10000000000000000)) (Some (-2 # 10)) (Some (445012757172973 # 1000000000000000)) (Some (286644770614658 # 1000000000000000)) (Some (231111896085046 # 1000000000000000)) (Some (12613870036139 # 100000000000000)) (Some (106304705911157 # 1000000000000000)) (55708674413389 # 100000000000000) (428744430241037 # 1000000000000000) (370492828626274 # 1000000000000000) (370492828511967 # 1000000000000000) (410194233166807 # 1000000000000000) (410194233166807 # 1000000000000000) (1 # 1) (-1 # 10000) (-2 # 100);
  Mk_ba19_row (1737801 # 10000000) (Some (-359591114146801 # 100000000000000)) (Some (127 # 100)) (Some (337253717455548 # 100000000000000)) (Some (184520414743473 # 100000000000000)) (Some (650632343249038 # 100000000000000)) (Some (-186 # 100)) (Some (75818 # 10000)) (Some (45 # 100)) (Some (383773863255495 # 100000000000000)) (Some (-631239095565892 # 1000000000000000000)) (Some (-894567810730773 # 1000000000000000)) (Some (-314940269551695 # 10000000000000000)) (Some (-2 # 10)) (Some (44526449463534 # 100000000000000)) (Some (287405783641933 # 1000000000000000)) (Some (232107392188687 # 1000000000000000)) (Some (128202427526465 # 1000000000000000)) (Some (974321323757166 # 10000000000000000)) (55708674413389 # 100000000000000) (428744430241036 # 1000000000000000) (371383821021714 # 1000000000000000) (371383820911366 # 1000000000000000) (410482192221762 # 1000000000000000) (410482192221762 # 1000000000000000) (1 # 1) (-1 # 10000) (-2 # 100);
  Mk_ba19_row (177828 # 1000000) (Some (-359365743878618 # 100000000000000)) (Some (127 # 100)) (Some (336744707076039 # 100000000000000)) (Some (185868861867364 # 100000000000000)) (Some (649408024934174 # 100000000000000)) (Some (-186 # 100)) (Some (75818 # 10000)) (Some (45 # 100)) (Some (383771591683053 # 100000000000000)) (Some (-657540725481443 # 1000000000000000000)) (Some (-900983898132299 # 1000000000000000)) (Some (-315060331864502 # 10000000000000000)) (Some (-2 # 10)) (Some (445505528785993 # 1000000000000000)) (Some (288156953322896 # 1000000000000000)) (Some (233095065637695 # 1000000000000000)) (Some (13025937799833 # 100000000000000)) (Some (894077653211345 # 10000000000000000)) (55708674413389 # 100000000000000) (428744430241036 # 1000000000000000) (372274813417292 # 1000000000000000) (372274813312235 # 1000000000000000) (410770151276762 # 1000000000000000) (410770151276762 # 1000000000000000) (1 # 1) (-1 # 10000) (-2 # 100);
  Mk_ba19_row (1819701 # 10000000) (Some (-359140373623576 # 100000000000000)) (Some (127 # 100)) (Some (336232120666351 # 100000000000000)) (Some (187227930158154 # 100000000000000)) (Some (648183656765613 # 100000000000000)) (Some (-186 # 100)) (Some (75818 # 10000)) (Some (45 # 100)) (Some (383769320158681 # 100000000000000)) (Some (-683842410608502 # 1000000000000000000)) (Some (-907408102987497 # 1000000000000000)) (Some (-315180369805518 # 10000000000000000)) (Some (-2 # 10)) (Some (445736361563408 # 1000000000000000)) (Some (288899145926174 # 1000000000000000)) (Some (234074513991329 # 1000000000000000)) (Some (132310129127253 # 1000000000000000)) (Some (821907200909307 # 10000000000000000)) (55708674413389 # 100000000000000) (428744430241036 # 1000000000000000) (373165805813557 # 1000000000000000) (373165805714746 # 1000000000000000) (411058110331984 # 1000000000000000) (411058110331984 # 1000000000000000) (1 # 1) (-1 # 10000) (-2 # 100);
  Mk_ba19_row (18620871 # 100000000) (Some (-358915003386605 # 100000000000000)) (Some (127 # 100)) (Some (335715706895596 # 100000000000000)) (Some (188599316788448 # 100000000000000)) (Some (646959539881928 # 100000000000000)) (Some (-186 # 100)) (Some (75818 # 10000)) (Some (45 # 100)) (Some (383767048618854 # 100000000000000)) (Some (-710144418165457 # 1000000000000000000)) (Some (-913838492714996 # 1000000000000000)) (Some (-315300380684348 # 10000000000000000)) (Some (-2 # 10)) (Some (445957520112354 # 1000000000000000)) (Some (289633145824545 # 1000000000000000)) (Some (235045369111618 # 1000000000000000)) (Some (134355425637656 # 1000000000000000)) (Some (757189860180647 # 10000000000000000)) (55708674413389 # 100000000000000) (428744430241036 # 1000000000000000) (37405679821122 # 100000000000000) (374056798119014 # 1000000000000000) (411346069387658 # 1000000000000000) (411346069387658 # 1000000000000000) (1 # 1) (-1 # 10000) (-2 # 100);
  Mk_ba19_row (1905461 # 10000000) (Some (-358689633167458 # 100000000000000)) (Some (127 # 100)) (Some (335195214950112 # 100000000000000)) (Some (189985191214083 # 100000000000000)) (Some (645736023450816 # 100000000000000)) (Some (-186 # 100)) (Some (75818 # 10000)) (Some (45 # 100)) (Some (383764777052875 # 100000000000000)) (Some (-736447635456782 # 1000000000000000000)) (Some (-920272603456957 # 1000000000000000)) (Some (-315420355023953 # 10000000000000000)) (Some (-2 # 10)) (Some (446169524079095 # 1000000000000000)) (Some (290359632969593 # 1000000000000000)) (Some (23600733418458 # 100000000000000)) (Some (136396234426141 # 1000000000000000)) (Some (699598464914972 # 10000000000000000)) (55708674413389 # 100000000000000) (428744430241036 # 1000000000000000) (37494779061157 # 100000000000000) (374947790525133 # 1000000000000000) (4116340284442 # 10000000000000) (4116340284442 # 10000000000000) (1 # 1) (-1 # 10000) (-2 # 100);
  Mk_ba19_row (19498443 # 100000000) (Some (-35846426296952 # 10000000000000)) (Some (127 # 100)) (Some (334670401487063 # 100000000000000)) (Some (191388139017569 # 100000000000000)) (Some (644513522941467 # 100000000000000)) (Some (-186 # 100)) (Some (75818 # 10000)) (Some (45 # 100)) (Some (383762505533208 # 100000000000000)) (Some (-762754267311237 # 1000000000000000000)) (Some (-926707331605421 # 1000000000000000)) (Some (-315540269527028 # 10000000000000000)) (Some (-2 # 10)) (Some (446372810156743 # 1000000000000000)) (Some (291079126533498 # 1000000000000000)) (Some (236960224172266 # 1000000000000000)) (Some (138433799617257 # 1000000000000000)) (Some (648942802053201 # 10000000000000000)) (55708674413389 # 100000000000000) (428744430241037 # 1000000000000000) (375838783017158 # 1000000000000000) (375838782933199 # 1000000000000000) (411921987502435 # 1000000000000000) (411921987502435 # 1000000000000000) (1 # 1) (-1 # 10000) (-2 # 100);
  Mk_ba19_row (1995262 # 10000000) (Some (-358238892794086 # 100000000000000)) (Some (127 # 100)) (Some (334140878373009 # 100000000000000)) (Some (192810884475703 # 100000000000000)) (Some (643292547447496 # 100000000000000)) (Some (-186 # 100)) (Some (75818 # 10000)) (Some (45 # 100)) (Some (38376023398418 # 10000000000000)) (Some (-789068807417918 # 1000000000000000000)) (Some (-933138802323249 # 1000000000000000)) (Some (-315652324054637 # 10000000000000000)) (Some (-2 # 10)) (Some (446567496244007 # 1000000000000000)) (Some (291791911622884 # 1000000000000000)) (Some (23790400797846 # 100000000000000)) (Some (140469748601914 # 1000000000000000)) (Some (604319743460855 # 10000000000000000)) (55708674413389 # 100000000000000) (428744430241037 # 1000000000000000) (376729775428383 # 1000000000000000) (376729775343288 # 1000000000000000) (412209946562492 # 1000000000000000) (412209946562492 # 1000000000000000) (1 # 1) (-1 # 10000) (-2 # 100);
  Mk_ba19_row (2041738 # 10000000) (Some (-358013522640421 # 100000000000000)) (Some (127 # 100)) (Some (33360622882561 # 10000000000000)) (Some (194256180917831 # 100000000000000)) (Some (64207373319785 # 10000000000000)) (Some (-186 # 100)) (Some (75818 # 10000)) (Some (450009256026108 # 1000000000000000)) (Some (383753520781724 # 100000000000000)) (Some (-815399187418592 # 1000000000000000000)) (Some (-939562118066873 # 1000000000000000)) (Some (-315755278840258 # 10000000000000000)) (Some (-2 # 10)) (Some (446753211905966 # 1000000000000000)) (Some (292497911940944 # 1000000000000000)) (Some (238838824288906 # 1000000000000000)) (Some (142506177242708 # 1000000000000000)) (Some (563546477368777 # 10000000000000000)) (55708674413389 # 100000000000000) (428744430241037 # 1000000000000000) (377620767843598 # 1000000000000000) (377620767755528 # 1000000000000000) (412497905623838 # 1000000000000000) (412497905623838 # 1000000000000000) (1 # 1) (-1 # 10000) (-2 # 100);
  Mk_ba19_row (20892961 # 100000000) (Some (-35778815250514 # 10000000000000)) (Some (127 # 100)) (Some (333065952434985 # 100000000000000)) (Some (195726483135938 # 100000000000000)) (Some (640857879843787 # 100000000000000)) (Some (-186 # 100)) (Some (75818 # 10000)) (Some (450019574858504 # 1000000000000000)) (Some (383746297599047 # 100000000000000)) (Some (-841757960592446 # 1000000000000000000)) (Some (-945970972609913 # 1000000000000000)) (Some (-315842986525731 # 10000000000000000)) (Some (-2 # 10)) (Some (446929002550706 # 1000000000000000)) (Some (293196447185235 # 1000000000000000)) (Some (239764961212431 # 1000000000000000)) (Some (144545672434938 # 1000000000000000)) (Some (524246341563841 # 10000000000000000)) (55708674413389 # 100000000000000) (428744430241037 # 1000000000000000) (378511760262151 # 1000000000000000) (378511760170119 # 1000000000000000) (412785864686263 # 1000000000000000) (412785864686263 # 1000000000000000) (1 # 1) (-1 # 10000) (-2 # 100);
  Mk_ba19_row (2137962 # 10000000) (Some (-357562782376511 # 100000000000000)) (Some (127 # 100)) (Some (332519370762166 # 100000000000000)) (Some (197223558890232 # 100000000000000)) (Some (639646012276312 # 100000000000000)) (Some (-186 # 100)) (Some (75818 # 10000)) (Some (45002989369752 # 100000000000000)) (Some (383739074411736 # 100000000000000)) (Some (-868163368362703 # 1000000000000000000)) (Some (-952357241520318 # 1000000000000000)) (Some (-315907127076803 # 10000000000000000)) (Some (-2 # 10)) (Some (447093038437435 # 1000000000000000)) (Some (293885750563887 # 1000000000000000)) (Some (240682790433741 # 1000000000000000)) (Some (146591350996761 # 1000000000000000)) (Some (484484273767207 # 10000000000000000)) (55708674413389 # 100000000000000) (428744430241037 # 1000000000000000) (379402752683336 # 1000000000000000) (379402752587303 # 1000000000000000) (413073823749539 # 1000000000000000) (413073823749539 # 1000000000000000) (1 # 1) (-1 # 10000) (-2 # 100);
  Mk_ba19_row (2187762 # 10000000) (Some (-35733741224206 # 10000000000000)) (Some (127 # 100)) (Some (331965612649182 # 100000000000000)) (Some (19874823665787 # 10000000000000)) (Some (638439468229998 # 100000000000000)) (Some (-186 # 100)) (Some (75818 # 10000)) (Some (450040212644469 # 1000000000000000)) (Some (383731851148871 # 100000000000000)) (Some (-894640163811734 # 1000000000000000000)) (Some (-958710431753566 # 1000000000000000)) (Some (-315937173284591 # 10000000000000000)) (Some (-2 # 10)) (Some (447241878831145 # 1000000000000000)) (Some (294562039825745 # 1000000000000000)) (Some (241592651345494 # 1000000000000000)) (Some (148646964272472 # 1000000000000000)) (Some (443139383609918 # 10000000000000000)) (55708674413389 # 100000000000000) (428744430241037 # 1000000000000000) (380293745107848 # 1000000000000000) (380293745007341 # 1000000000000000) (413361782813891 # 1000000000000000) (413361782813891 # 1000000000000000) (1 # 1) (-1 # 10000) (-2 # 100);
  Mk_ba19_row (22387212 # 100000000) (Some (-357112042093809 # 100000000000000)) (Some (127 # 100)) (Some (331403580690059 # 100000000000000)) (Some (200300332954645 # 100000000000000)) (Some (637240032011638 # 100000000000000)) (Some (-186 # 100)) (Some (75818 # 10000)) (Some (450050531430895 # 1000000000000000)) (Some (383724627998374 # 100000000000000)) (Some (-921220114588205 # 1000000000000000000)) (Some (-965017013336703 # 1000000000000000)) (Some (-315920523143105 # 10000000000000000)) (Some (-2 # 10)) (Some (44736922684551 # 100000000000000)) (Some (295217910601569 # 1000000000000000)) (Some (24249468403047 # 100000000000000)) (Some (150717087603848 # 1000000000000000)) (Some (400015528698252 # 10000000000000000)) (55708674413389 # 100000000000000) (428744430241037 # 1000000000000000) (381184737535909 # 1000000000000000) (381184737430488 # 1000000000000000) (413649741879389 # 1000000000000000) (413649741879389 # 1000000000000000) (1 # 1) (-1 # 10000) (-2 # 100);
  Mk_ba19_row (2290868 # 10000000) (Some (-356886671927604 # 100000000000000)) (Some (127 # 100)) (Some (330831728848329 # 100000000000000)) (Some (20187864159798 # 10000000000000)) (Some (636050101868407 # 100000000000000)) (Some (-186 # 100)) (Some (75818 # 10000)) (Some (450060850337682 # 1000000000000000)) (Some (383717404763623 # 100000000000000)) (Some (-947942156483784 # 1000000000000000000)) (Some (-97125995130197 # 100000000000000)) (Some (-315842753062136 # 10000000000000000)) (Some (-2 # 10)) (Some (44746415920765 # 100000000000000)) (Some (295839780568883 # 1000000000000000)) (Some (243388473481705 # 1000000000000000)) (Some (152807208095491 # 1000000000000000)) (Some (355605821318714 # 10000000000000000)) (55708674413389 # 100000000000000) (428744430241037 # 1000000000000000) (382075729966291 # 1000000000000000) (382075729856815 # 1000000000000000) (413937700945637 # 1000000000000000) (413937700945637 # 1000000000000000) (1 # 1) (-1 # 10000) (-2 # 100);
  Mk_ba19_row (2344229 # 10000000) (Some (-356661301741738 # 100000000000000)) (Some (127 # 100)) (Some (330248131459739 # 100000000000000)) (Some (203481084733378 # 100000000000000)) (Some (634872801117526 # 100000000000000)) (Some (-186 # 100)) (Some (75818 # 10000)) (Some (45007116915622 # 100000000000000)) (Some (383710181590646 # 100000000000000)) (Some (-974852194245665 # 1000000000000000000)) (Some (-977419359516619 # 1000000000000000)) (Some (-31568794791685 # 1000000000000000)) (Some (-2 # 10)) (Some (44750881990743 # 100000000000000)) (Some (296404315947937 # 1000000000000000)) (Some (244272435836625 # 1000000000000000)) (Some (154923345935607 # 1000000000000000)) (Some (31081121015534 # 1000000000000000)) (55708674413389 # 100000000000000) (428744430241037 # 1000000000000000) (382966722396709 # 1000000000000000) (382966722285962 # 1000000000000000) (414225660011897 # 1000000000000000) (414225660011897 # 1000000000000000) (1 # 1) (-1 # 10000) (-2 # 100);
  Mk_ba19_row (2398833 # 10000000) (Some (-356435931540362 # 100000000000000)) (Some (127 # 100)) (Some (329650488146319 # 100000000000000)) (Some (205104748958464 # 100000000000000)) (Some (633711796912763 # 100000000000000)) (Some (-186 # 100)) (Some (75818 # 10000)) (Some (450081487987202 # 1000000000000000)) (Some (383702958408959 # 100000000000000)) (Some (-100200254976275 # 100000000000000000)) (Some (-983476348816169 # 1000000000000000)) (Some (-315439071654951 # 10000000000000000)) (Some (-2 # 10)) (Some (447476866638944 # 1000000000000000)) (Some (296875105810436 # 1000000000000000)) (Some (245143162003418 # 1000000000000000)) (Some (15707075516643 # 100000000000000)) (Some (266654200981855 # 10000000000000000)) (55708674413389 # 100000000000000) (428744430241037 # 1000000000000000) (38385771482547 # 100000000000000) (383857714716504 # 1000000000000000) (414513619077621 # 1000000000000000) (414513619077621 # 1000000000000000) (1 # 1) (-1 # 10000) (-2 # 100);
  Mk_ba19_row (2454709 # 10000000) (Some (-356210561327669 # 100000000000000)) (Some (127 # 100)) (Some (329036774863468 # 100000000000000)) (Some (206746580896085 # 100000000000000)) (Some (63257031830694 # 10000000000000)) (Some (-186 # 100)) (Some (75818 # 10000)) (Some (450091806838625 # 1000000000000000)) (Some (383695735212963 # 100000000000000)) (Some (-102945105380002 # 100000000000000000)) (Some (-989423697609309 # 1000000000000000)) (Some (-315078349828832 # 10000000000000000)) (Some (-2 # 10)) (Some (447337288269686 # 1000000000000000)) (Some (297205054827217 # 1000000000000000)) (Some (24599559883944 # 100000000000000)) (Some (159251109266637 # 1000000000000000)) (Some (223977747131756 # 10000000000000000)) (55708674413389 # 100000000000000) (428744430241037 # 1000000000000000) (384748707251951 # 1000000000000000) (384748707144803 # 1000000000000000) (414801578142608 # 1000000000000000) (414801578142608 # 1000000000000000) (1 # 1) (-1 # 10000) (-2 # 100);
  Mk_ba19_row (2511886 # 10000000) (Some (-355985191105649 # 100000000000000)) (Some (127 # 100)) (Some (328424486292552 # 100000000000000)) (Some (208423359167001 # 100000000000000)) (Some (631419504316173 # 100000000000000)) (Some (-186 # 100)) (Some (75818 # 10000)) (Some (4501 # 10000)) (Some (38368868100685 # 10000000000000)) (Some (-105725978061998 # 100000000000000000)) (Some (-995534660535561 # 1000000000000000)) (Some (-314587642497653 # 10000000000000000)) (Some (-2 # 10)) (Some (446390326717556 # 1000000000000000)) (Some (296805944720294 # 1000000000000000)) (Some (246439836596176 # 1000000000000000)) (Some (161108867396512 # 1000000000000000)) (Some (183999372624828 # 10000000000000000)) (55708674413389 # 100000000000000) (428744430241037 # 1000000000000000) (385639699675528 # 1000000000000000) (385639724478058 # 1000000000000000) (415089537206657 # 1000000000000000) (415089537206657 # 1000000000000000) (1 # 1) (-1 # 10000) (-2 # 100);
  Mk_ba19_row (25703954 # 100000000) (Some (-355759820879849 # 100000000000000)) (Some (127 # 100)) (Some (327807181331831 # 100000000000000)) (Some (210127407557 # 100000000000)) (Some (630269841087284 # 100000000000000)) (Some (-186 # 100)) (Some (75818 # 10000)) (Some (4501 # 10000)) (Some (383682277862266 # 100000000000000)) (Some (-108549344744359 # 100000000000000000)) (Some (-100159256523449 # 100000000000000)) (Some (-313948792183263 # 10000000000000000)) (Some (-2 # 10)) (Some (445296678710317 # 1000000000000000)) (Some (296294780200445 # 1000000000000000)) (Some (246824195630819 # 1000000000000000)) (Some (162928134860293 # 1000000000000000)) (Some (148275715566366 # 10000000000000000)) (55708674413389 # 100000000000000) (428744430241037 # 1000000000000000) (386530692096169 # 1000000000000000) (386530912558262 # 1000000000000000) (415377496269757 # 1000000000000000) (415377496269757 # 1000000000000000) (1 # 1) (-100008215699921 # 1000000000000000000) (-2 # 100);
  Mk_ba19_row (2630268 # 10000000) (Some (-355534450658076 # 100000000000000)) (Some (127 # 100)) (Some (327185953131764 # 100000000000000)) (Some (211858572691691 # 100000000000000)) (Some (629119462785325 # 100000000000000)) (Some (-186 # 100)) (Some (75818 # 10000)) (Some (4501 # 10000)) (Some (383675874681774 # 100000000000000)) (Some (-111421754951691 # 100000000000000000)) (Some (-100759719146063 # 100000000000000)) (Some (-313143936890245 # 10000000000000000)) (Some (-2 # 10)) (Some (444055055767075 # 1000000000000000)) (Some (295672221387989 # 1000000000000000)) (Some (247147841922689 # 1000000000000000)) (Some (164700882580194 # 1000000000000000)) (Some (118021772766372 # 10000000000000000)) (55708674413389 # 100000000000000) (428744430241037 # 1000000000000000) (387421684513884 # 1000000000000000) (387422591805952 # 1000000000000000) (415665455331912 # 1000000000000000) (415665455331912 # 1000000000000000) (1 # 1) (-100089076496555 # 1000000000000000000) (-2 # 100);
  Mk_ba19_row (26915344 # 100000000) (Some (-355309080447044 # 100000000000000)) (Some (127 # 100)) (Some (326562049333971 # 100000000000000)) (Some (213616827614613 # 100000000000000)) (Some (627966285519763 # 100000000000000)) (Some (-186 # 100)) (Some (75818 # 10000)) (Some (4501 # 10000)) (Some (383669471586141 # 100000000000000)) (Some (-114349637218352 # 100000000000000000)) (Some (-101354781553305 # 100000000000000)) (Some (-312155782597198 # 10000000000000000)) (Some (-2 # 10)) (Some (442663657800941 # 1000000000000000)) (Some (294939026700224 # 1000000000000000)) (Some (247409954698262 # 1000000000000000)) (Some (166419020014032 # 1000000000000000)) (Some (933240970693472 # 100000000000000000)) (55708674413389 # 100000000000000) (428744430241037 # 1000000000000000) (388312676928253 # 1000000000000000) (388315257770769 # 1000000000000000) (415953414392985 # 1000000000000000) (415953414392985 # 1000000000000000) (1 # 1) (-100447332472001 # 1000000000000000000) (-2 # 100);
  Mk_ba19_row (2754229 # 10000000) (Some (-355083710248993 # 100000000000000)) (Some (127 # 100)) (Some (325936711893236 # 100000000000000)) (Some (215402174457905 # 100000000000000)) (Some (626808122689263 # 100000000000000)) (Some (-186 # 100)) (Some (75818 # 10000)) (Some (4501 # 10000)) (Some (383663068376231 # 100000000000000)) (Some (-117339109008025 # 100000000000000000)) (Some (-101944360676402 # 100000000000000)) (Some (-310967833021106 # 10000000000000000)) (Some (-2 # 10)) (Some (441119907391888 # 1000000000000000)) (Some (294095618740549 # 1000000000000000)) (Some (247609890328057 # 1000000000000000)) (Some (168075016884317 # 1000000000000000)) (Some (737448413892938 # 100000000000000000)) (55708674413389 # 100000000000000) (428744430241037 # 1000000000000000) (389203669340339 # 1000000000000000) (389209546644656 # 1000000000000000) (41624137345332 # 100000000000000) (41624137345332 # 100000000000000) (1 # 1) (-101483778718545 # 1000000000000000000) (-2 # 100);
  Mk_ba19_row (2818383 # 10000000) (Some (-354858340061033 # 100000000000000)) (Some (127 # 100)) (Some (325311236071294 # 100000000000000)) (Some (21721477397405 # 10000000000000)) (Some (625642849498388 # 100000000000000)) (Some (-186 # 100)) (Some (75818 # 10000)) (Some (4501 # 10000)) (Some (383656665261178 # 100000000000000)) (Some (-120395818178382 # 100000000000000000)) (Some (-10252828823036 # 10000000000000)) (Some (-309564576888053 # 10000000000000000)) (Some (-2 # 10)) (Some (439420733753398 # 1000000000000000)) (Some (293141986447737 # 1000000000000000)) (Some (24774705407926 # 100000000000000)) (Some (169661883863163 # 1000000000000000)) (Some (585150032398696 # 100000000000000000)) (55708674413389 # 100000000000000) (428744430241037 # 1000000000000000) (390094661752488 # 1000000000000000) (390106179943701 # 1000000000000000) (416529332513675 # 1000000000000000) (416529332513675 # 1000000000000000) (1 # 1) (-103778221234386 # 1000000000000000000) (-2 # 100);
  Mk_ba19_row (28840312 # 100000000) (Some (-354632969874047 # 100000000000000)) (Some (127 # 100)) (Some (324686687231386 # 100000000000000)) (Some (219054691625265 # 100000000000000)) (Some (62446861713857 # 10000000000000)) (Some (-186 # 100)) (Some (75818 # 10000)) (Some (4501 # 10000)) (Some (383650262158965 # 100000000000000)) (Some (-123524832034466 # 100000000000000000)) (Some (-103106274809952 # 100000000000000)) (Some (-307931634616233 # 10000000000000000)) (Some (-2 # 10)) (Some (437562934297275 # 1000000000000000)) (Some (292077972076015 # 1000000000000000)) (Some (247820740764376 # 1000000000000000)) (Some (171173390447676 # 1000000000000000)) (Some (466986529284741 # 100000000000000000)) (55708674413389 # 100000000000000) (428744430241037 # 1000000000000000) (390985654166904 # 1000000000000000) (391005899240901 # 1000000000000000) (416817291574764 # 1000000000000000) (416817291574764 # 1000000000000000) (1 # 1) (-108029596553947 # 1000000000000000000) (-2 # 100);
  Mk_ba19_row (29512092 # 100000000) (Some (-354407599680697 # 100000000000000)) (Some (127 # 100)) (Some (324063870214403 # 100000000000000)) (Some (220921890937805 # 100000000000000)) (Some (623284009242708 # 100000000000000)) (Some (-186 # 100)) (Some (75818 # 10000)) (Some (4501 # 10000)) (Some (383643858994025 # 100000000000000)) (Some (-12673057948813 # 10000000000000000)) (Some (-103677878399236 # 100000000000000)) (Some (-306055867342269 # 10000000000000000)) (Some (-2 # 10)) (Some (435543612703862 # 1000000000000000)) (Some (290903665290453 # 1000000000000000)) (Some (247830125053504 # 1000000000000000)) (Some (172604247459575 # 1000000000000000)) (Some (376997052962613 # 100000000000000000)) (55708674413389 # 100000000000000) (428744430241037 # 1000000000000000) (391876646584853 # 1000000000000000) (391909399074707 # 1000000000000000) (417105250636993 # 1000000000000000) (417105250636993 # 1000000000000000) (1 # 1) (-114997180451221 # 1000000000000000000) (-2 # 100);
  Mk_ba19_row (3019952 # 10000000) (Some (-354182229475013 # 100000000000000)) (Some (127 # 100)) (Some (323443304284544 # 100000000000000)) (Some (222816217576883 # 100000000000000)) (Some (622088129989833 # 100000000000000)) (Some (-186 # 100)) (Some (75818 # 10000)) (Some (4501 # 10000)) (Some (383637455827543 # 100000000000000)) (Some (-13001684250361 # 10000000000000000)) (Some (-104242559206124 # 100000000000000)) (Some (-303925451609765 # 10000000000000000)) (Some (-2 # 10)) (Some (433360383662225 # 1000000000000000)) (Some (289619001001794 # 1000000000000000)) (Some (247773895323982 # 1000000000000000)) (Some (173949860664343 # 1000000000000000)) (Some (313195387465193 # 100000000000000000)) (55708674413389 # 100000000000000) (428744430241037 # 1000000000000000) (39276763900777 # 100000000000000) (39281726386763 # 100000000000000) (417393209700829 # 1000000000000000) (417393209700829 # 1000000000000000) (1 # 1) (-125445209947483 # 1000000000000000000) (-2 # 100);
  Mk_ba19_row (30902954 # 100000000) (Some (-353956859251122 # 100000000000000)) (Some (127 # 100)) (Some (322825122967382 # 100000000000000)) (Some (224737289401627 # 100000000000000)) (Some (620880717147429 # 100000000000000)) (Some (-186 # 100)) (Some (75818 # 10000)) (Some (4501 # 10000)) (Some (383631052717991 # 100000000000000)) (Some (-133386786558007 # 100000000000000000)) (Some (-104799876919621 # 100000000000000)) (Some (-301529922977256 # 10000000000000000)) (Some (-2 # 10)) (Some (431011077688461 # 1000000000000000)) (Some (288223119640379 # 1000000000000000)) (Some (247650121839434 # 1000000000000000)) (Some (175206469857901 # 1000000000000000)) (Some (276910533737862 # 100000000000000000)) (55708674413389 # 100000000000000) (428744430241037 # 1000000000000000) (393658631436301 # 1000000000000000) (39372991282178 # 100000000000000) (417681168766479 # 1000000000000000) (417681168766479 # 1000000000000000) (1 # 1) (-140094211231946 # 1000000000000000000) (-2 # 100);
  Mk_ba19_row (3162278 # 10000000) (Some (-353731489010834 # 100000000000000)) (Some (127 # 100)) (Some (322209011385084 # 100000000000000)) (Some (226684425983683 # 100000000000000)) (Some (619662179064693 # 100000000000000)) (Some (-186 # 100)) (Some (75818 # 10000)) (Some (4501 # 10000)) (Some (383624649546957 # 100000000000000)) (Some (-136843016531825 # 100000000000000000)) (Some (-105349580761516 # 100000000000000)) (Some (-298860191629679 # 10000000000000000)) (Some (-2 # 10)) (Some (428494819117053 # 1000000000000000)) (Some (286714651288939 # 1000000000000000)) (Some (247456518494682 # 1000000000000000)) (Some (176371152271812 # 1000000000000000)) (Some (270903086676277 # 100000000000000000)) (55708674413389 # 100000000000000) (428744430241037 # 1000000000000000) (394549603127511 # 1000000000000000) (394647555246916 # 1000000000000000) (417969127833731 # 1000000000000000) (417969127833731 # 1000000000000000) (1 # 1) (-159591301257957 # 1000000000000000000) (-2 # 100);
  Mk_ba19_row (32359364 # 100000000) (Some (-353506118759766 # 100000000000000)) (Some (127 # 100)) (Some (321594222680128 # 100000000000000)) (Some (228656675286778 # 100000000000000)) (Some (618433724064814 # 100000000000000)) (Some (-186 # 100)) (Some (75818 # 10000)) (Some (4501 # 10000)) (Some (383618246453167 # 100000000000000)) (Some (-140387643884722 # 100000000000000000)) (Some (-105891563319628 # 100000000000000)) (Some (-295908532970044 # 10000000000000000)) (Some (-2 # 10)) (Some (425813078175264 # 1000000000000000)) (Some (285092874904848 # 1000000000000000)) (Some (247190688995329 # 1000000000000000)) (Some (177441670102906 # 1000000000000000)) (Some (293929705078089 # 100000000000000000)) (55708674413389 # 100000000000000) (428744430241037 # 1000000000000000) (395440424925717 # 1000000000000000) (395570157571222 # 1000000000000000) (418257086902402 # 1000000000000000) (418257086902402 # 1000000000000000) (1 # 1) (-18452810297498 # 100000000000000000) (-2 # 100);
  Mk_ba19_row (3311311 # 10000000) (Some (-353280748502892 # 100000000000000)) (Some (127 # 100)) (Some (320979696436138 # 100000000000000)) (Some (23065297062664 # 10000000000000)) (Some (617196975572232 # 100000000000000)) (Some (-186 # 100)) (Some (75818 # 10000)) (Some (4501 # 10000)) (Some (383611843318435 # 100000000000000)) (Some (-144022352488059 # 100000000000000000)) (Some (-106425592417845 # 100000000000000)) (Some (-292668556105845 # 10000000000000000)) (Some (-2 # 10)) (Some (422970035480738 # 1000000000000000)) (Some (283358635733574 # 1000000000000000)) (Some (246850372622934 # 1000000000000000)) (Some (17841642808637 # 100000000000000)) (Some (33877032894698 # 10000000000000000)) (55708674413389 # 100000000000000) (428744430241037 # 1000000000000000) (396330790232916 # 1000000000000000) (396497422365038 # 1000000000000000) (418545045972218 # 1000000000000000) (418545045972218 # 1000000000000000) (1 # 1) (-21550171461453 # 100000000000000000) (-2 # 100);
  Mk_ba19_row (33884412 # 100000000) (Some (-353055378246381 # 100000000000000)) (Some (127 # 100)) (Some (32036430778627 # 10000000000000)) (Some (232672450838927 # 100000000000000)) (Some (615953718273254 # 100000000000000)) (Some (-186 # 100)) (Some (75818 # 10000)) (Some (450112132132688 # 1000000000000000)) (Some (383597463462889 # 100000000000000)) (Some (-147748453337365 # 100000000000000000)) (Some (-106951222263429 # 100000000000000)) (Some (-289135153125266 # 10000000000000000)) (Some (-2 # 10)) (Some (419972393266861 # 1000000000000000)) (Some (281514557137897 # 1000000000000000)) (Some (246433322097215 # 1000000000000000)) (Some (179294488657623 # 1000000000000000)) (Some (393118555000083 # 100000000000000000)) (55708674413389 # 100000000000000) (428744430241037 # 1000000000000000) (39722018023288 # 100000000000000) (39742877900258 # 100000000000000) (418833005042838 # 1000000000000000) (418833005042838 # 1000000000000000) (1 # 1) (-253167706701274 # 1000000000000000000) (-2 # 100);
  Mk_ba19_row (34673681 # 100000000) (Some (-352830007998679 # 100000000000000)) (Some (127 # 100)) (Some (319746870868156 # 100000000000000)) (Some (234714480458402 # 100000000000000)) (Some (614705805812521 # 100000000000000)) (Some (-186 # 100)) (Some (75818 # 10000)) (Some (450129168746042 # 1000000000000000)) (Some (383579858962423 # 100000000000000)) (Some (-151566921833592 # 100000000000000000)) (Some (-107467838456479 # 100000000000000)) (Some (-285304432163816 # 10000000000000000)) (Some (-2 # 10)) (Some (416827953140453 # 1000000000000000)) (Some (279565068071237 # 1000000000000000)) (Some (245937261647854 # 1000000000000000)) (Some (180075625736462 # 1000000000000000)) (Some (441249124586474 # 100000000000000000)) (55708674413389 # 100000000000000) (428744430241037 # 1000000000000000) (398107855128011 # 1000000000000000) (398363385077515 # 1000000000000000) (419120964113782 # 1000000000000000) (419120964113782 # 1000000000000000) (1 # 1) (-298257145149755 # 1000000000000000000) (-2 # 100);
  Mk_ba19_row (3548134 # 10000000) (Some (-352604637764326 # 100000000000000)) (Some (127 # 100)) (Some (319126182394537 # 100000000000000)) (Some (236778681958477 # 100000000000000)) (Some (613455106504082 # 100000000000000)) (Some (-186 # 100)) (Some (75818 # 10000)) (Some (450146205475576 # 1000000000000000)) (Some (383562254341905 # 100000000000000)) (Some (-15547841474256 # 10000000000000000)) (Some (-107974814932107 # 100000000000000)) (Some (-281173638560764 # 10000000000000000)) (Some (-2 # 10)) (Some (413543993350036 # 1000000000000000)) (Some (277515616620815 # 1000000000000000)) (Some (24536017092668 # 100000000000000)) (Some (180760555165203 # 1000000000000000)) (Some (466571068622157 # 100000000000000000)) (55708674413389 # 100000000000000) (428744430241037 # 1000000000000000) (398992864469523 # 1000000000000000) (399300137348049 # 1000000000000000) (419408923184718 # 1000000000000000) (419408923184718 # 1000000000000000) (1 # 1) (-351514243769184 # 1000000000000000000) (-2 # 100);
  Mk_ba19_row (3630781 # 10000000) (Some (-352379267544749 # 100000000000000)) (Some (127 # 100)) (Some (318501062165 # 100000000000)) (Some (238864926456559 # 100000000000000)) (Some (612203478403847 # 100000000000000)) (Some (-186 # 100)) (Some (75818 # 10000)) (Some (450163242166057 # 1000000000000000)) (Some (383544649761741 # 100000000000000)) (Some (-159483267024284 # 100000000000000000)) (Some (-108471640107818 # 100000000000000)) (Some (-276741075356002 # 10000000000000000)) (Some (-2 # 10)) (Some (410127528753449 # 1000000000000000)) (Some (275371792520439 # 1000000000000000)) (Some (244700474582349 # 1000000000000000)) (Some (18135105517534 # 100000000000000)) (Some (453641537262195 # 100000000000000000)) (55708674413389 # 100000000000000) (428744430241037 # 1000000000000000) (399874070834367 # 1000000000000000) (400237690769766 # 1000000000000000) (419696882255394 # 1000000000000000) (419696882255394 # 1000000000000000) (1 # 1) (-413627069604762 # 1000000000000000000) (-2 # 100);
  Mk_ba19_row (37153521 # 100000000) (Some (-352153897335824 # 100000000000000)) (Some (127 # 100)) (Some (317870377633457 # 100000000000000)) (Some (240973273917374 # 100000000000000)) (Some (610952695842981 # 100000000000000)) (Some (-186 # 100)) (Some (75818 # 10000)) (Some (450180278656617 # 1000000000000000)) (Some (383527045388162 # 100000000000000)) (Some (-163581471782355 # 100000000000000000)) (Some (-108957748729428 # 100000000000000)) (Some (-272006044848558 # 10000000000000000)) (Some (-2 # 10)) (Some (406585666366705 # 1000000000000000)) (Some (273139054302665 # 1000000000000000)) (Some (243957162480696 # 1000000000000000)) (Some (181849778150551 # 1000000000000000)) (Some (391027609698869 # 100000000000000000)) (557086685785133 # 1000000000000000) (428744367276726 # 1000000000000000) (400750182140742 # 1000000000000000) (401174484065612 # 1000000000000000) (419984841325962 # 1000000000000000) (419984841325962 # 1000000000000000) (1 # 1) (-485175378636189 # 1000000000000000000) (-199999998401818 # 10000000000000000);
  Mk_ba19_row (3801894 # 10000000) (Some (-351928527130939 # 100000000000000)) (Some (127 # 100)) (Some (317233095159346 # 100000000000000)) (Some (243103929279659 # 100000000000000)) (Some (609704289859592 # 100000000000000)) (Some (-186 # 100)) (Some (75818 # 10000)) (Some (45019731532257 # 100000000000000)) (Some (383509440833344 # 100000000000000)) (Some (-16777264971036 # 10000000000000000)) (Some (-109432454113952 # 100000000000000)) (Some (-266968832506265 # 10000000000000000)) (Some (-2 # 10)) (Some (402925446036732 # 1000000000000000)) (Some (270823083715849 # 1000000000000000)) (Some (243129999874789 # 1000000000000000)) (Some (18226002280728 # 100000000000000)) (Some (275596954366542 # 100000000000000000)) (557086204142227 # 1000000000000000) (428743845676094 # 1000000000000000) (401619788799082 # 1000000000000000) (402108770262665 # 1000000000000000) (420272800396695 # 1000000000000000) (420272800396695 # 1000000000000000) (1 # 1) (-566594770498372 # 1000000000000000000) (-199999975422665 # 10000000000000000);
  Mk_ba19_row (38904511 # 100000000) (Some (-351703156922388 # 100000000000000)) (Some (127 # 100)) (Some (316588403422677 # 100000000000000)) (Some (245257290721028 # 100000000000000)) (Some (60845951833169 # 10000000000000)) (Some (-186 # 100)) (Some (75818 # 10000)) (Some (450214351869619 # 1000000000000000)) (Some (383491836401394 # 100000000000000)) (Some (-172056017421242 # 100000000000000000)) (Some (-109895047287398 # 100000000000000)) (Some (-261630745243325 # 10000000000000000)) (Some (-2 # 10)) (Some (399153737671666 # 1000000000000000)) (Some (268429747726781 # 1000000000000000)) (Some (242219429455199 # 1000000000000000)) (Some (182585684991154 # 1000000000000000)) (Some (111352486249761 # 100000000000000000)) (557084424897646 # 1000000000000000) (428741909033716 # 1000000000000000) (4024814026916 # 10000000000000) (403038650676487 # 1000000000000000) (42056075946795 # 100000000000000) (42056075946795 # 100000000000000) (1 # 1) (-658155275021647 # 1000000000000000000) (-199999844727527 # 10000000000000000);
  Mk_ba19_row (39810714 # 100000000) (Some (-351477786703896 # 100000000000000)) (Some (127 # 100)) (Some (315935557128248 # 100000000000000)) (Some (247433650179643 # 100000000000000)) (Some (607219457209171 # 100000000000000)) (Some (-186 # 100)) (Some (75818 # 10000)) (Some (450231388500149 # 1000000000000000)) (Some (383474231883179 # 100000000000000)) (Some (-176430366543352 # 100000000000000000)) (Some (-110344717793688 # 100000000000000)) (Some (-25599420697145 # 1000000000000000)) (Some (-2 # 10)) (Some (395277068797315 # 1000000000000000)) (Some (265964499321694 # 1000000000000000)) (Some (24122618740926 # 100000000000000)) (Some (182831185994812 # 1000000000000000)) (Some (-939065738794653 # 1000000000000000000)) (55707985201094 # 100000000000000) (428736906338187 # 1000000000000000) (40333349565674 # 100000000000000) (403962110912732 # 1000000000000000) (420848718540361 # 1000000000000000) (420848718540361 # 1000000000000000) (1 # 1) (-759950648418984 # 1000000000000000000) (-199999411811573 # 10000000000000000);
  Mk_ba19_row (4073803 # 10000000) (Some (-351252416474731 # 100000000000000)) (Some (127 # 100)) (Some (315273923998694 # 100000000000000)) (Some (249633165887085 # 100000000000000)) (Some (605985023205519 # 100000000000000)) (Some (-186 # 100)) (Some (75818 # 10000)) (Some (450248425218008 # 1000000000000000)) (Some (383456627274725 # 100000000000000)) (Some (-180894066769698 # 100000000000000000)) (Some (-110780488890817 # 100000000000000)) (Some (-250062907398721 # 10000000000000000)) (Some (-2 # 10)) (Some (39130116456167 # 100000000000000)) (Some (26343187855298 # 100000000000000)) (Some (240151127575696 # 1000000000000000)) (Some (18300116471867 # 100000000000000)) (Some (-333690388780816 # 100000000000000000)) (557070324260867 # 1000000000000000) (428726434855675 # 1000000000000000) (404174535739101 # 1000000000000000) (404877057587774 # 1000000000000000) (421136677614416 # 1000000000000000) (421136677614416 # 1000000000000000) (999998882421677 # 1000000000000000) (-871896068829159 # 1000000000000000000) (-199998347222025 # 10000000000000000);
  Mk_ba19_row (4168694 # 10000000) (Some (-351027046238994 # 100000000000000)) (Some (127 # 100)) (Some (314602987823315 # 100000000000000)) (Some (251855806455551 # 100000000000000)) (Some (604756970507854 # 100000000000000)) (Some (-186 # 100)) (Some (75818 # 10000)) (Some (450265461827795 # 1000000000000000)) (Some (383439022777945 # 100000000000000)) (Some (-185445105126064 # 100000000000000000)) (Some (-111201308679346 # 100000000000000)) (Some (-243841990108072 # 10000000000000000)) (Some (-2 # 10)) (Some (387230227408562 # 1000000000000000)) (Some (260834870142243 # 1000000000000000)) (Some (23899517572909 # 100000000000000)) (Some (183100002489082 # 1000000000000000)) (Some (-59904930180954 # 10000000000000000)) (557053022060305 # 1000000000000000) (428707344146149 # 1000000000000000) (405003019967882 # 1000000000000000) (405781354631056 # 1000000000000000) (421424636690238 # 1000000000000000) (421424636690238 # 1000000000000000) (999990072275866 # 1000000000000000) (-993742766064878 # 1000000000000000000) (-199996169958962 # 10000000000000000);
  Mk_ba19_row (42657953 # 100000000) (Some (-350801676003246 # 100000000000000)) (Some (127 # 100)) (Some (313922352934051 # 100000000000000)) (Some (254101329831898 # 100000000000000)) (Some (60353581248311 # 10000000000000)) (Some (-186 # 100)) (Some (75818 # 10000)) (Some (450282498438642 # 1000000000000000)) (Some (38342141828007 # 10000000000000)) (Some (-190081169367634 # 100000000000000000)) (Some (-111606252165081 # 100000000000000)) (Some (-237338255145337 # 10000000000000000)) (Some (-2 # 10)) (Some (383067303282103 # 1000000000000000)) (Some (258174404222277 # 1000000000000000)) (Some (237759480883787 # 1000000000000000)) (Some (183131564943236 # 1000000000000000)) (Some (-878412037927312 # 100000000000000000)) (557024508823933 # 1000000000000000) (428675787137619 # 1000000000000000) (405817502842547 # 1000000000000000) (406672858193177 # 1000000000000000) (421712595767663 # 1000000000000000) (421712595767663 # 1000000000000000) (999958924375085 # 1000000000000000) (-112513276128081 # 100000000000000000) (-199992233852632 # 10000000000000000);
  Mk_ba19_row (4365158 # 10000000) (Some (-350576305773224 # 100000000000000)) (Some (127 # 100)) (Some (313231831320157 # 100000000000000)) (Some (256369409227398 # 100000000000000)) (Some (602321749576647 # 100000000000000)) (Some (-186 # 100)) (Some (75818 # 10000)) (Some (450299534985334 # 1000000000000000)) (Some (383403813848489 # 100000000000000)) (Some (-194799774849877 # 100000000000000000)) (Some (-111994350083504 # 100000000000000)) (Some (-230560349365029 # 10000000000000000)) (Some (-2 # 10)) (Some (378814802687287 # 1000000000000000)) (Some (255449892189199 # 1000000000000000)) (Some (236445490191516 # 1000000000000000)) (Some (183099392514535 # 1000000000000000)) (Some (-115636866719515 # 10000000000000000)) (556980794245051 # 1000000000000000) (428627305699733 # 1000000000000000) (406616620047634 # 1000000000000000) (407549449359474 # 1000000000000000) (422000554846285 # 1000000000000000) (422000554846285 # 1000000000000000) (999882284730784 # 1000000000000000) (-126574203579731 # 100000000000000000) (-199985641944413 # 10000000000000000);
  Mk_ba19_row (4466836 # 10000000) (Some (-350350935551342 # 100000000000000)) (Some (127 # 100)) (Some (312531327704881 # 100000000000000)) (Some (258659515524919 # 100000000000000)) (Some (601114792540346 # 100000000000000)) (Some (-186 # 100)) (Some (75818 # 10000)) (Some (450316571673744 # 1000000000000000)) (Some (383386209270465 # 100000000000000)) (Some (-199598422676637 # 100000000000000000)) (Some (-112364565175177 # 100000000000000)) (Some (-223518927582323 # 10000000000000000)) (Some (-2 # 10)) (Some (374473409173241 # 1000000000000000)) (Some (252660475720748 # 1000000000000000)) (Some (235055091457379 # 1000000000000000)) (Some (183007168429379 # 1000000000000000)) (Some (-141764669635984 # 10000000000000000)) (556917409915955 # 1000000000000000) (428556939649955 # 1000000000000000) (407399107200682 # 1000000000000000) (408409064043058 # 1000000000000000) (422288513925629 # 1000000000000000) (422288513925629 # 1000000000000000) (999729428573444 # 1000000000000000) (-141574631760527 # 100000000000000000) (-199974867865923 # 10000000000000000);
  Mk_ba19_row (4570882 # 10000000) (Some (-350125565338797 # 100000000000000)) (Some (127 # 100)) (Some (311820782325576 # 100000000000000)) (Some (260970898283628 # 100000000000000)) (Some (599914954303194 # 100000000000000)) (Some (-186 # 100)) (Some (75818 # 10000)) (Some (450333608298315 # 1000000000000000)) (Some (383368604758408 # 100000000000000)) (Some (-204474768005307 # 100000000000000000)) (Some (-112715912704133 # 100000000000000)) (Some (-216226774729236 # 10000000000000000)) (Some (-2 # 10)) (Some (370042022988452 # 1000000000000000)) (Some (249805957804459 # 1000000000000000)) (Some (233590562094491 # 1000000000000000)) (Some (18285885417572 # 100000000000000)) (Some (-165084455546451 # 10000000000000000)) (556829490574959 # 1000000000000000) (428459349519064 # 1000000000000000) (40816381365982 # 100000000000000) (409249719596548 # 1000000000000000) (422576473005335 # 1000000000000000) (422576473005335 # 1000000000000000) (999463770734455 # 1000000000000000) (-157624957671694 # 100000000000000000) (-199957401758246 # 10000000000000000);
  Mk_ba19_row (4677351 # 10000000) (Some (-349900195137833 # 100000000000000)) (Some (127 # 100)) (Some (311100019140208 # 100000000000000)) (Some (263302455249482 # 100000000000000)) (Some (598722410593372 # 100000000000000)) (Some (-186 # 100)) (Some (75818 # 10000)) (Some (450350644836955 # 1000000000000000)) (Some (383351000335146 # 100000000000000)) (Some (-209426777153706 # 100000000000000000)) (Some (-113047501967832 # 100000000000000)) (Some (-208698880980167 # 10000000000000000)) (Some (-2 # 10)) (Some (365519045539742 # 1000000000000000)) (Some (246886629430636 # 1000000000000000)) (Some (232054391186132 # 1000000000000000)) (Some (182657963850041 # 1000000000000000)) (Some (-185189423049037 # 10000000000000000)) (556711856610219 # 1000000000000000) (428328944887182 # 1000000000000000) (408909711586425 # 1000000000000000) (410069537834332 # 1000000000000000) (422864432085002 # 1000000000000000) (422864432085002 # 1000000000000000) (999044904412925 # 1000000000000000) (-174917527133759 # 100000000000000000) (-199929844936565 # 10000000000000000);
  Mk_ba19_row (4786301 # 10000000) (Some (-349674824947416 # 100000000000000)) (Some (127 # 100)) (Some (310368757567716 # 100000000000000)) (Some (265652849808682 # 100000000000000)) (Some (597537468165147 # 100000000000000)) (Some (-186 # 100)) (Some (75818 # 10000)) (Some (450367681534896 # 1000000000000000)) (Some (383333395747274 # 100000000000000)) (Some (-214452857660792 # 100000000000000000)) (Some (-113358522002001 # 100000000000000)) (Some (-200952462611435 # 10000000000000000)) (Some (-2 # 10)) (Some (360903279486865 # 1000000000000000)) (Some (243903139281916 # 1000000000000000)) (Some (230449187042092 # 1000000000000000)) (Some (182407516766255 # 1000000000000000)) (Some (-201992737927865 # 10000000000000000)) (556559095262486 # 1000000000000000) (428160011811474 # 1000000000000000) (409635900588802 # 1000000000000000) (410866764303954 # 1000000000000000) (423152391164348 # 1000000000000000) (423152391164348 # 1000000000000000) (998430655689562 # 1000000000000000) (-193667347176536 # 100000000000000000) (-199888409804535 # 10000000000000000);
  Mk_ba19_row (48977881 # 100000000) (Some (-349449454763663 # 100000000000000)) (Some (127 # 100)) (Some (309626731720943 # 100000000000000)) (Some (268020807899754 # 100000000000000)) (Some (596360485059513 # 100000000000000)) (Some (-186 # 100)) (Some (75818 # 10000)) (Some (450384718129637 # 1000000000000000)) (Some (383315791266042 # 100000000000000)) (Some (-219551951870017 # 100000000000000000)) (Some (-113648221891163 # 100000000000000)) (Some (-193006922459755 # 10000000000000000)) (Some (-2 # 10)) (Some (356194376631136 # 1000000000000000)) (Some (240856891898037 # 1000000000000000)) (Some (228777604108191 # 1000000000000000)) (Some (18211012445465 # 100000000000000)) (Some (-215323204113824 # 10000000000000000)) (556365639069492 # 1000000000000000) (427946834539804 # 1000000000000000) (410341608358271 # 1000000000000000) (411639783766007 # 1000000000000000) (423440350243253 # 1000000000000000) (423440350243253 # 1000000000000000) (997578946591284 # 1000000000000000) (-21406657531667 # 10000000000000000) (-199829335141682 # 10000000000000000);
  Mk_ba19_row (5011872 # 10000000) (Some (-349224084582441 # 100000000000000)) (Some (127 # 100)) (Some (308873671605848 # 100000000000000)) (Some (270405233447781 # 100000000000000)) (Some (59519177512607 # 10000000000000)) (Some (-186 # 100)) (Some (758179917562275 # 100000000000000)) (Some (450402473131759 # 1000000000000000)) (Some (383296207864636 # 100000000000000)) (Some (-224723589448557 # 100000000000000000)) (Some (-113915844516073 # 100000000000000)) (Some (-184883745326409 # 10000000000000000)) (Some (-2 # 10)) (Some (351393858852139 # 1000000000000000)) (Some (237750472834476 # 1000000000000000)) (Some (227042071807911 # 1000000000000000)) (Some (181767514104243 # 1000000000000000)) (Some (-224853831667633 # 10000000000000000)) (556125840488361 # 1000000000000000) (427683807727358 # 1000000000000000) (411026187765302 # 1000000000000000) (412387131951607 # 1000000000000000) (423728309321705 # 1000000000000000) (423728309321705 # 1000000000000000) (996449342611363 # 1000000000000000) (-236285439167508 # 100000000000000000) (-199748997706426 # 10000000000000000);
  Mk_ba19_row (51286131 # 100000000) (Some (-348998714398016 # 100000000000000)) (Some (127 # 100)) (Some (30810935895562 # 10000000000000)) (Some (272805432058679 # 100000000000000)) (Some (594031585346064 # 100000000000000)) (Some (-186 # 100)) (Some (758179117172679 # 100000000000000)) (Some (450426484819617 # 1000000000000000)) (Some (383259389943254 # 100000000000000)) (Some (-2299678969964 # 1000000000000000)) (Some (-114160570132831 # 100000000000000)) (Some (-176606325572442 # 10000000000000000)) (Some (-2 # 10)) (Some (346505560937123 # 1000000000000000)) (Some (234587335046487 # 1000000000000000)) (Some (225244536952242 # 1000000000000000)) (Some (181380371528704 # 1000000000000000)) (Some (-23031344363261 # 1000000000000000)) (555834041700663 # 1000000000000000) (427365535967043 # 1000000000000000) (411689110910574 # 1000000000000000) (413107503763427 # 1000000000000000) (424016268399829 # 1000000000000000) (424016268399829 # 1000000000000000) (995004224134492 # 1000000000000000) (-260481757024534 # 100000000000000000) (-199643950327168 # 10000000000000000);
  Mk_ba19_row (5248075 # 10000000) (Some (-348773344206245 # 100000000000000)) (Some (127 # 100)) (Some (30733352651902 # 10000000000000)) (Some (275221084834435 # 100000000000000)) (Some (592880206271487 # 100000000000000)) (Some (-186 # 100)) (Some (758178316772754 # 100000000000000)) (Some (450450496817391 # 1000000000000000)) (Some (383222571546667 # 100000000000000)) (Some (-23528556407533 # 10000000000000000)) (Some (-114381705587752 # 100000000000000)) (Some (-168199726528794 # 10000000000000000)) (Some (-2 # 10)) (Some (341534197005803 # 1000000000000000)) (Some (231371447404422 # 1000000000000000)) (Some (223386402974334 # 1000000000000000)) (Some (18094898261523 # 100000000000000)) (Some (-23139074009801 # 1000000000000000)) (555484638445711 # 1000000000000000) (426986918355841 # 1000000000000000) (412329960628273 # 1000000000000000) (413799758156103 # 1000000000000000) (424303948195501 # 1000000000000000) (424303981657483 # 1000000000000000) (993209568070717 # 1000000000000000) (-286803475510564 # 100000000000000000) (-199510990906615 # 10000000000000000);
  Mk_ba19_row (5370318 # 10000000) (Some (-348547974004687 # 100000000000000)) (Some (127 # 100)) (Some (30654591101569 # 10000000000000)) (Some (277652413409546 # 100000000000000)) (Some (591738024859345 # 100000000000000)) (Some (-186 # 100)) (Some (758177516382874 # 100000000000000)) (Some (450474508513793 # 1000000000000000)) (Some (383185753612185 # 100000000000000)) (Some (-240677765629533 # 100000000000000000)) (Some (-114578753879063 # 100000000000000)) (Some (-159690374085104 # 10000000000000000)) (Some (-2 # 10)) (Some (336483056947029 # 1000000000000000)) (Some (228106220938904 # 1000000000000000)) (Some (221468795574673 # 1000000000000000)) (Some (180474022971463 # 1000000000000000)) (Some (-228013944152137 # 10000000000000000)) (555072136401628 # 1000000000000000) (426543216990232 # 1000000000000000) (412948419925501 # 1000000000000000) (414462919992462 # 1000000000000000) (424589893106674 # 1000000000000000) (424590126266826 # 1000000000000000) (991035358907717 # 1000000000000000) (-315382983502771 # 100000000000000000) (-199347275311224 # 10000000000000000);
  Mk_ba19_row (5495409 # 10000000) (Some (-348322603794379 # 100000000000000)) (Some (127 # 100)) (Some (305746091492437 # 100000000000000)) (Some (280099969826655 # 100000000000000)) (Some (590605578428102 # 100000000000000)) (Some (-186 # 100)) (Some (758176715989177 # 100000000000000)) (Some (450498520324691 # 1000000000000000)) (Some (38314893550214 # 10000000000000)) (Some (-246146042156653 # 100000000000000000)) (Some (-114751254158677 # 100000000000000)) (Some (-151105689600167 # 10000000000000000)) (Some (-2 # 10)) (Some (331352995406276 # 1000000000000000)) (Some (224793727721817 # 1000000000000000)) (Some (21949265402576 # 100000000000000)) (Some (179956995821144 # 1000000000000000)) (Some (-220692034650045 # 10000000000000000)) (554591198608863 # 1000000000000000) (426030109412974 # 1000000000000000) (413544259809049 # 1000000000000000) (415096179218491 # 1000000000000000) (424871740470988 # 1000000000000000) (424872362576129 # 1000000000000000) (988455669584228 # 1000000000000000) (-346331425175965 # 100000000000000000) (-199150406654651 # 10000000000000000);
  Mk_ba19_row (5623413 # 10000000) (Some (-348097233579331 # 100000000000000)) (Some (127 # 100)) (Some (304933660584418 # 100000000000000)) (Some (282564891297393 # 100000000000000)) (Some (589483456902581 # 100000000000000)) (Some (-186 # 100)) (Some (75817591560011 # 10000000000000)) (Some (450522531996709 # 1000000000000000)) (Some (383112117605047 # 100000000000000)) (Some (-251692142467404 # 100000000000000000)) (Some (-114898797945897 # 100000000000000)) (Some (-142473669807858 # 10000000000000000)) (Some (-2 # 10)) (Some (326143725334935 # 1000000000000000)) (Some (221435037866182 # 1000000000000000)) (Some (217458234231914 # 1000000000000000)) (Some (179399612454569 # 1000000000000000)) (Some (-210137470564944 # 10000000000000000)) (554036682879943 # 1000000000000000) (425443725973802 # 1000000000000000) (414117325906647 # 1000000000000000) (415698887728 # 1000000000000) (425146699945482 # 1000000000000000) (425147613336948 # 1000000000000000) (985448464415648 # 1000000000000000) (-379734392051316 # 100000000000000000) (-198918481268407 # 10000000000000000);
  Mk_ba19_row (57543992 # 100000000) (Some (-347871863360716 # 100000000000000)) (Some (127 # 100)) (Some (304108303612473 # 100000000000000)) (Some (285048998569325 # 100000000000000)) (Some (588372049756228 # 100000000000000)) (Some (-186 # 100)) (Some (758175115207322 # 100000000000000)) (Some (450546543780343 # 1000000000000000)) (Some (383075299536808 # 100000000000000)) (Some (-257317839667812 # 100000000000000000)) (Some (-115021253893289 # 100000000000000)) (Some (-133822423581282 # 10000000000000000)) (Some (-2 # 10)) (Some (320854693442704 # 1000000000000000)) (Some (218030057616829 # 1000000000000000)) (Some (215364940499315 # 1000000000000000)) (Some (178802834964481 # 1000000000000000)) (Some (-196785152938102 # 10000000000000000)) (553403668531493 # 1000000000000000) (424780673656339 # 1000000000000000) (414667524241274 # 1000000000000000) (416271432595482 # 1000000000000000) (425411917491465 # 1000000000000000) (425412308967148 # 1000000000000000) (981995180664369 # 1000000000000000) (-415648886651231 # 100000000000000000) (-198650100671787 # 10000000000000000);
  Mk_ba19_row (5888436 # 10000000) (Some (-347646493136774 # 100000000000000)) (Some (127 # 100)) (Some (303269944145509 # 100000000000000)) (Some (287554998309455 # 100000000000000)) (Some (587271410227005 # 100000000000000)) (Some (-186 # 100)) (Some (758174314817264 # 100000000000000)) (Some (450570555482068 # 1000000000000000)) (Some (383038481594163 # 100000000000000)) (Some (-263024736696214 # 100000000000000000)) (Some (-115118853388157 # 100000000000000)) (Some (-125179677353733 # 10000000000000000)) (Some (-2 # 10)) (Some (315484880039536 # 1000000000000000)) (Some (214577073190838 # 1000000000000000)) (Some (213211967744913 # 1000000000000000)) (Some (178166792055872 # 1000000000000000)) (Some (-180939473576953 # 10000000000000000)) (552687472055402 # 1000000000000000) (424038048138181 # 1000000000000000) (415194806454112 # 1000000000000000) (416817771690489 # 1000000000000000) (4256647419856 # 10000000000000) (425662600168135 # 1000000000000000) (978080143759143 # 1000000000000000) (-454101138431792 # 100000000000000000) (-198344363237084 # 10000000000000000);
  Mk_ba19_row (6025595 # 10000000) (Some (-347421122907068 # 100000000000000)) (Some (127 # 100)) (Some (30241870460729 # 10000000000000)) (Some (290086386717006 # 100000000000000)) (Some (586181239239193 # 100000000000000)) (Some (-186 # 100)) (Some (758173514426684 # 100000000000000)) (Some (450594567199475 # 1000000000000000)) (Some (383001663627472 # 100000000000000)) (Some (-268814081119448 # 100000000000000000)) (Some (-115192165303293 # 100000000000000)) (Some (-116572262870331 # 10000000000000000)) (Some (-2 # 10)) (Some (310032671918899 # 1000000000000000)) (Some (211073182290622 # 1000000000000000)) (Some (210999054008511 # 1000000000000000)) (Some (17749093184138 # 100000000000000)) (Some (-163160474373854 # 10000000000000000)) (551883651838972 # 1000000000000000) (423213435974859 # 1000000000000000) (415699154710964 # 1000000000000000) (417344077032874 # 1000000000000000) (425902910927399 # 1000000000000000) (425894539300059 # 1000000000000000) (973689865527657 # 1000000000000000) (-49508266690723 # 10000000000000000) (-19800083445031 # 1000000000000000);
  Mk_ba19_row (61659491 # 100000000) (Some (-347195752671755 # 100000000000000)) (Some (127 # 100)) (Some (301554920574338 # 100000000000000)) (Some (29264742174318 # 10000000000000)) (Some (585100898899634 # 100000000000000)) (Some (-186 # 100)) (Some (758172714034619 # 100000000000000)) (Some (450618578961417 # 1000000000000000)) (Some (382964845592494 # 100000000000000)) (Some (-274686608550811 # 100000000000000000)) (Some (-115242004490492 # 100000000000000)) (Some (-108025602930907 # 10000000000000000)) (Some (-2 # 10)) (Some (304497660103936 # 1000000000000000)) (Some (207515386248536 # 1000000000000000)) (Some (208726741373851 # 1000000000000000)) (Some (176774558986126 # 1000000000000000)) (Some (-144588182788206 # 10000000000000000)) (55098800284689 # 100000000000000) (422304908841719 # 1000000000000000) (416180566462561 # 1000000000000000) (417856946612433 # 1000000000000000) (426124669843319 # 1000000000000000) (426104231960928 # 1000000000000000) (96881226618319 # 100000000000000) (-538551882323759 # 100000000000000000) (-197619477414629 # 10000000000000000);
  Mk_ba19_row (6309573 # 10000000) (Some (-346970382432215 # 100000000000000)) (Some (127 # 100)) (Some (300679134857883 # 100000000000000)) (Some (295243050272371 # 100000000000000)) (Some (584029410687674 # 100000000000000)) (Some (-186 # 100)) (Some (758171913639613 # 100000000000000)) (Some (450642590811602 # 1000000000000000)) (Some (38292802742221 # 10000000000000)) (Some (-280642429393813 # 100000000000000000)) (Some (-11526927943045 # 10000000000000)) (Some (-995632130395634 # 100000000000000000)) (Some (-2 # 10)) (Some (298882118429406 # 1000000000000000)) (Some (203901384590614 # 1000000000000000)) (Some (20639634574485 # 100000000000000)) (Some (176017375645771 # 1000000000000000)) (Some (-12667188590278 # 1000000000000000)) (549996543119615 # 1000000000000000) (421311011582591 # 1000000000000000) (416639044256865 # 1000000000000000) (418362185066734 # 1000000000000000) (426328838108905 # 1000000000000000) (42628796025708 # 100000000000000) (963435850161998 # 1000000000000000) (-584465909753052 # 100000000000000000) (-197200469556514 # 10000000000000000);
  Mk_ba19_row (6456543 # 10000000) (Some (-346745012189932 # 100000000000000)) (Some (127 # 100)) (Some (299791981352634 # 100000000000000)) (Some (297878643807757 # 100000000000000)) (Some (582965647111493 # 100000000000000)) (Some (-186 # 100)) (Some (758171113241064 # 100000000000000)) (Some (450666602768074 # 1000000000000000)) (Some (382891209088953 # 100000000000000)) (Some (-286680965336972 # 100000000000000000)) (Some (-115274866990319 # 100000000000000)) (Some (-912062397494879 # 100000000000000000)) (Some (-2 # 10)) (Some (293190563796355 # 1000000000000000)) (Some (200229594142282 # 1000000000000000)) (Some (204009710141555 # 1000000000000000)) (Some (175219548373792 # 1000000000000000)) (Some (-110679161838378 # 10000000000000000)) (548905494530616 # 1000000000000000) (42023074522763 # 100000000000000) (417074605927561 # 1000000000000000) (418864043791884 # 1000000000000000) (426514832226199 # 1000000000000000) (426442279404601 # 1000000000000000) (957549143000436 # 1000000000000000) (-632820798720546 # 100000000000000000) (-196743955169868 # 10000000000000000);
  Mk_ba19_row (6606934 # 10000000) (Some (-346519641946377 # 100000000000000)) (Some (127 # 100)) (Some (298894132116184 # 100000000000000)) (Some (300559842423811 # 100000000000000)) (Some (581908469475667 # 100000000000000)) (Some (-186 # 100)) (Some (758170312855133 # 100000000000000)) (Some (450690614346021 # 1000000000000000)) (Some (382854391336101 # 100000000000000)) (Some (-292800932568628 # 100000000000000000)) (Some (-115259633903006 # 100000000000000)) (Some (-829730606980677 # 100000000000000000)) (Some (-2 # 10)) (Some (28742890834895 # 100000000000000)) (Some (196499083807846 # 1000000000000000)) (Some (201569119108663 # 1000000000000000)) (Some (174381606514732 # 1000000000000000)) (Some (-974093317432256 # 100000000000000000)) (547711260251014 # 1000000000000000) (419063545414868 # 1000000000000000) (417487299834571 # 1000000000000000) (419364811440757 # 1000000000000000) (426682656004042 # 1000000000000000) (426564089507672 # 1000000000000000) (951141268514682 # 1000000000000000) (-683645978259964 # 100000000000000000) (-196249916314107 # 10000000000000000);
  Mk_ba19_row (676083 # 1000000) (Some (-346294271705233 # 100000000000000)) (Some (127 # 100)) (Some (297986136214986 # 100000000000000)) (Some (303292222680338 # 100000000000000)) (Some (580856805941928 # 100000000000000)) (Some (-186 # 100)) (Some (758168962252602 # 100000000000000)) (Some (450734591579933 # 1000000000000000)) (Some (382791571788094 # 100000000000000)) (Some (-299000361939 # 100000000000000)) (Some (-115224401507146 # 100000000000000)) (Some (-748789776430109 # 100000000000000000)) (Some (-2 # 10)) (Some (281605092513624 # 1000000000000000)) (Some (192710223488217 # 1000000000000000)) (Some (199077520094341 # 1000000000000000)) (Some (173504598730522 # 1000000000000000)) (Some (-873241974333938 # 100000000000000000)) (546410400976905 # 1000000000000000) (417809256061405 # 1000000000000000) (417877219956478 # 1000000000000000) (419864667690322 # 1000000000000000) (426832865709339 # 1000000000000000) (426650684569299 # 1000000000000000) (944202819684328 # 1000000000000000) (-736988617159917 # 100000000000000000) (-195718100475912 # 10000000000000000);
  Mk_ba19_row (69183093 # 100000000) (Some (-346068901472926 # 100000000000000)) (Some (127 # 100)) (Some (29706853131115 # 10000000000000)) (Some (306081458397963 # 100000000000000)) (Some (579809730857046 # 100000000000000)) (Some (-186 # 100)) (Some (758167258597595 # 100000000000000)) (Some (450791380080166 # 1000000000000000)) (Some (382712067887768 # 100000000000000)) (Some (-305276645635687 # 100000000000000000)) (Some (-115169904829259 # 100000000000000)) (Some (-669360425185028 # 100000000000000000)) (Some (-2 # 10)) (Some (275728471985731 # 1000000000000000)) (Some (18886514166781 # 100000000000000)) (Some (196538478715525 # 1000000000000000)) (Some (172589826234298 # 1000000000000000)) (Some (-80754331685271 # 10000000000000000)) (544999611533587 # 1000000000000000) (416468097954316 # 1000000000000000) (418244520667122 # 1000000000000000) (420361730122207 # 1000000000000000) (426966517159625 # 1000000000000000) (426699781008831 # 1000000000000000) (936726721770139 # 1000000000000000) (-792911512543733 # 100000000000000000) (-195147950556596 # 10000000000000000);
  Mk_ba19_row (7079458 # 10000000) (Some (-345843531248224 # 100000000000000)) (Some (127 # 100)) (Some (296141705921507 # 100000000000000)) (Some (308933065473896 # 100000000000000)) (Some (578766455858484 # 100000000000000)) (Some (-186 # 100)) (Some (758165554929511 # 100000000000000)) (Some (450848169016312 # 1000000000000000)) (Some (382632563377164 # 100000000000000)) (Some (-311626604002535 # 100000000000000000)) (Some (-115096708116245 # 100000000000000)) (Some (-591530619561037 # 100000000000000000)) (Some (-2 # 10)) (Some (269808791174204 # 1000000000000000)) (Some (184967784047668 # 1000000000000000)) (Some (193955515825189 # 1000000000000000)) (Some (171638252155875 # 1000000000000000)) (Some (-779746498905354 # 100000000000000000)) (543475699079905 # 1000000000000000) (415040632209188 # 1000000000000000) (418589430961584 # 1000000000000000) (420852236411738 # 1000000000000000) (427085100720971 # 1000000000000000) (426709528115019 # 1000000000000000) (928709055882966 # 1000000000000000) (-851534162927892 # 100000000000000000) (-194538467180361 # 10000000000000000);
  Mk_ba19_row (72443592 # 100000000) (Some (-345618161023161 # 100000000000000)) (Some (127 # 100)) (Some (29520596897689 # 10000000000000)) (Some (311852519591857 # 100000000000000)) (Some (577726402327087 # 100000000000000)) (Some (-186 # 100)) (Some (75816385127316 # 10000000000000)) (Some (450904957561349 # 1000000000000000)) (Some (382553059414111 # 100000000000000)) (Some (-318046568543994 # 100000000000000000)) (Some (-115005093516768 # 100000000000000)) (Some (-515357999839914 # 100000000000000000)) (Some (-2 # 10)) (Some (263856836451793 # 1000000000000000)) (Some (181023586014156 # 1000000000000000)) (Some (191331572200167 # 1000000000000000)) (Some (170650196347868 # 1000000000000000)) (Some (-791987999827848 # 100000000000000000)) (541835563632556 # 1000000000000000) (413527719080402 # 1000000000000000) (418910881070825 # 1000000000000000) (421330814857897 # 1000000000000000) (427190469147126 # 1000000000000000) (426678503009985 # 1000000000000000) (920149798215203 # 1000000000000000) (-913080612316814 # 100000000000000000) (-193888080257838 # 10000000000000000);
  Mk_ba19_row (74131023 # 100000000) (Some (-345392790789463 # 100000000000000)) (Some (127 # 100)) (Some (294261490757156 # 100000000000000)) (Some (314845140952774 # 100000000000000)) (Some (576689143957903 # 100000000000000)) (Some (-186 # 100)) (Some (758162147608118 # 100000000000000)) (Some (450961746396058 # 1000000000000000)) (Some (382473555045519 # 100000000000000)) (Some (-32453247774593 # 10000000000000000)) (Some (-114895166130224 # 100000000000000)) (Some (-440873364029947 # 100000000000000000)) (Some (-2 # 10)) (Some (257885752685835 # 1000000000000000)) (Some (177038690683275 # 1000000000000000)) (Some (188669066907507 # 1000000000000000)) (Some (16962519125084 # 100000000000000)) (Some (-843709592838904 # 100000000000000000)) (540076195250035 # 1000000000000000) (411930488251233 # 1000000000000000) (419202166618357 # 1000000000000000) (421790805741632 # 1000000000000000) (427284762147623 # 1000000000000000) (426605692748709 # 1000000000000000) (9110534198247 # 10000000000000) (-977912866065668 # 100000000000000000) (-193194572051882 # 10000000000000000);
  Mk_ba19_row (7585776 # 10000000) (Some (-345167420543381 # 100000000000000)) (Some (127 # 100)) (Some (293308341665536 # 100000000000000)) (Some (317916143725491 # 100000000000000)) (Some (575654461530989 # 100000000000000)) (Some (-186 # 100)) (Some (758160443942479 # 100000000000000)) (Some (451018535250714 # 1000000000000000)) (Some (382394050649001 # 100000000000000)) (Some (-331079982650749 # 100000000000000000)) (Some (-114767060529261 # 100000000000000)) (Some (-368085055359386 # 100000000000000000)) (Some (-2 # 10)) (Some (251912390903793 # 1000000000000000)) (Some (173019438606936 # 1000000000000000)) (Some (185970363012663 # 1000000000000000)) (Some (168562407236444 # 1000000000000000)) (Some (-930482554026746 # 100000000000000000)) (538194730499197 # 1000000000000000) (410250367974229 # 1000000000000000) (419452740878257 # 1000000000000000) (422224604193883 # 1000000000000000) (427370330763567 # 1000000000000000) (42649046613301 # 100000000000000) (901429283543375 # 1000000000000000) (-10465402330206 # 1000000000000000) (-192455081875844 # 10000000000000000);
  Mk_ba19_row (7762471 # 10000000) (Some (-344942050284377 # 100000000000000)) (Some (127 # 100)) (Some (292346429791581 # 100000000000000)) (Some (321070477580562 # 100000000000000)) (Some (574622403015641 # 100000000000000)) (Some (-186 # 100)) (Some (758158740284423 # 100000000000000)) (Some (451075323852568 # 1000000000000000)) (Some (382314546606405 # 100000000000000)) (Some (-337684559296544 # 100000000000000000)) (Some (-114620953533324 # 100000000000000)) (Some (-296983449837412 # 100000000000000000)) (Some (-2 # 10)) (Some (245957960172308 # 1000000000000000)) (Some (168972804915507 # 1000000000000000)) (Some (183238065238186 # 1000000000000000)) (Some (16746130349285 # 100000000000000)) (Some (-104556015946211 # 10000000000000000)) (536188525446037 # 1000000000000000) (40848912912371 # 100000000000000) (419650933497702 # 1000000000000000) (422624002240197 # 1000000000000000) (427449664027569 # 1000000000000000) (426332537743832 # 1000000000000000) (891291770353132 # 1000000000000000) (-111958752442144 # 10000000000000000) (-191666252563751 # 10000000000000000);
  Mk_ba19_row (79432821 # 100000000) (Some (-344716680017743 # 100000000000000)) (Some (127 # 100)) (Some (291375496544083 # 100000000000000)) (Some (324312753586869 # 100000000000000)) (Some (573593262159765 # 100000000000000)) (Some (-186 # 100)) (Some (758157036623065 # 100000000000000)) (Some (451132112564507 # 1000000000000000)) (Some (38223504240969 # 10000000000000)) (Some (-344341625059402 # 100000000000000000)) (Some (-114456962785381 # 100000000000000)) (Some (-227544947986251 # 100000000000000000)) (Some (-2 # 10)) (Some (240047300273136 # 1000000000000000)) (Some (164906383329553 # 1000000000000000)) (Some (180474811077526 # 1000000000000000)) (Some (166322250504406 # 1000000000000000)) (Some (-118001018770983 # 10000000000000000)) (534055229735815 # 1000000000000000) (4066489273107 # 10000000000000) (419785893348714 # 1000000000000000) (422980513448502 # 1000000000000000) (427525319879376 # 1000000000000000) (426131926542196 # 1000000000000000) (88066006895243 # 100000000000000) (-119775861251169 # 10000000000000000) (-190824388840511 # 10000000000000000);
  Mk_ba19_row (81283044 # 100000000) (Some (-344491309759735 # 100000000000000)) (Some (127 # 100)) (Some (290395199925871 # 100000000000000)) (Some (327647328296911 # 100000000000000)) (Some (572567502977819 # 100000000000000)) (Some (-186 # 100)) (Some (758155332965619 # 100000000000000)) (Some (451188901146048 # 1000000000000000)) (Some (382155538395533 # 100000000000000)) (Some (-351046655670339 # 100000000000000000)) (Some (-114275081077943 # 100000000000000)) (Some (-159734935990862 # 100000000000000000)) (Some (-2 # 10)) (Some (234207049780106 # 1000000000000000)) (Some (160827698484618 # 1000000000000000)) (Some (177682877629443 # 1000000000000000)) (Some (165146348797117 # 1000000000000000)) (Some (-132543071251483 # 10000000000000000)) (531792860390099 # 1000000000000000) (404732340450723 # 1000000000000000) (419848884428637 # 1000000000000000) (42328566829173 # 100000000000000) (427599861833483 # 1000000000000000) (425888911140825 # 1000000000000000) (869557571498004 # 1000000000000000) (-128180428143164 # 10000000000000000) (-189925593254552 # 10000000000000000);
  Mk_ba19_row (8317637 # 10000000) (Some (-344265939530011 # 100000000000000)) (Some (127 # 100)) (Some (289405107229876 # 100000000000000)) (Some (331078210684725 # 100000000000000)) (Some (571545717649163 # 100000000000000)) (Some (-186 # 100)) (Some (758153629302934 # 100000000000000)) (Some (451245689902189 # 1000000000000000)) (Some (382076034136936 # 100000000000000)) (Some (-357795299398386 # 100000000000000000)) (Some (-114075290857231 # 100000000000000)) (Some (-935094659526994 # 1000000000000000000)) (Some (-2 # 10)) (Some (228463242508728 # 1000000000000000)) (Some (156743210561269 # 1000000000000000)) (Some (174864202749686 # 1000000000000000)) (Some (163935165446706 # 1000000000000000)) (Some (-147515889254994 # 10000000000000000)) (529399874191794 # 1000000000000000) (402742399416835 # 1000000000000000) (41983405127075 # 100000000000000) (423531272120755 # 1000000000000000) (427675802416204 # 1000000000000000) (425603983553763 # 1000000000000000) (858010838369853 # 1000000000000000) (-137248076346726 # 10000000000000000) (-188965902684435 # 10000000000000000);
  Mk_ba19_row (8511381 # 10000000) (Some (-344040569336991 # 100000000000000)) (Some (127 # 100)) (Some (288404749452312 # 100000000000000)) (Some (334609101075772 # 100000000000000)) (Some (5705285695878 # 1000000000000)) (Some (-186 # 100)) (Some (758151925629161 # 100000000000000)) (Some (451302479027959 # 1000000000000000)) (Some (381996529360857 # 100000000000000)) (Some (-364583484885891 # 100000000000000000)) (Some (-113857672818052 # 100000000000000)) (Some (-288159206262725 # 1000000000000000000)) (Some (-2 # 10)) (Some (222838220055097 # 1000000000000000)) (Some (152657891858109 # 1000000000000000)) (Some (172020805963089 # 1000000000000000)) (Some (16269072749926 # 100000000000000)) (Some (-16237189694857 # 1000000000000000)) (526875237558076 # 1000000000000000) (400682610112392 # 1000000000000000) (419738759031853 # 1000000000000000) (423709620718259 # 1000000000000000) (42775555396046 # 100000000000000) (42527780289197 # 100000000000000) (846048126844621 # 1000000000000000) (-14704684272009 # 1000000000000000) (-187941478482755 # 10000000000000000);
  Mk_ba19_row (8709636 # 10000000) (Some (-34381519917588 # 10000000000000)) (Some (127 # 100)) (Some (287393685962637 # 100000000000000)) (Some (338243481004577 # 100000000000000)) (Some (569516736468173 # 100000000000000)) (Some (-186 # 100)) (Some (758150221971604 # 100000000000000)) (Some (451359267613205 # 1000000000000000)) (Some (381917025341513 # 100000000000000)) (Some (-371407519648976 # 100000000000000000)) (Some (-113622445931336 # 100000000000000)) (Some (344067650301568 # 1000000000000000000)) (Some (-2 # 10)) (Some (217349940211133 # 1000000000000000)) (Some (148575381326863 # 1000000000000000)) (Some (169155090874842 # 1000000000000000)) (Some (161415430019616 # 1000000000000000)) (Some (-176620315013767 # 10000000000000000)) (524218492591262 # 1000000000000000) (398556966247658 # 1000000000000000) (419563603588635 # 1000000000000000) (423813670898887 # 1000000000000000) (427841386996058 # 1000000000000000) (424911150065466 # 1000000000000000) (833697526528298 # 1000000000000000) (-15763128599282 # 1000000000000000) (-186848750036575 # 10000000000000000);
  Mk_ba19_row (8912509 # 10000000) (Some (-343589829031668 # 100000000000000)) (Some (127 # 100)) (Some (286371479391487 # 100000000000000)) (Some (341984545073228 # 100000000000000)) (Some (568510824176705 # 100000000000000)) (Some (-186 # 100)) (Some (758148518313547 # 100000000000000)) (Some (451416056215111 # 1000000000000000)) (Some (381837521298844 # 100000000000000)) (Some (-378264177314678 # 100000000000000000)) (Some (-113369781288088 # 100000000000000)) (Some (962279799449051 # 1000000000000000000)) (Some (-2 # 10)) (Some (212012831031776 # 1000000000000000)) (Some (144498849493619 # 1000000000000000)) (Some (166269447822987 # 1000000000000000)) (Some (160111540928786 # 1000000000000000)) (Some (-189745197834919 # 10000000000000000)) (521429817847099 # 1000000000000000) (396369952906684 # 1000000000000000) (419312177448711 # 1000000000000000) (423837165776529 # 1000000000000000) (427935396298102 # 1000000000000000) (42450488420643 # 100000000000000) (820984812005844 # 1000000000000000) (-169042721772238 # 10000000000000000) (-185684454408454 # 10000000000000000);
  Mk_ba19_row (9120108 # 10000000) (Some (-34336445888487 # 10000000000000)) (Some (127 # 100)) (Some (285337814835338 # 100000000000000)) (Some (345835456575124 # 100000000000000)) (Some (567511261100774 # 100000000000000)) (Some (-186 # 100)) (Some (758146814651498 # 100000000000000)) (Some (451472844950081 # 1000000000000000)) (Some (381758017069886 # 100000000000000)) (Some (-385150772926483 # 100000000000000000)) (Some (-113099634549908 # 100000000000000)) (Some (156725300127874 # 100000000000000000)) (Some (-2 # 10)) (Some (206838190966418 # 1000000000000000)) (Some (140431766765733 # 1000000000000000)) (Some (163365819437516 # 1000000000000000)) (Some (158780878719902 # 1000000000000000)) (Some (-201395676716927 # 10000000000000000)) (518510082260203 # 1000000000000000) (394126541240905 # 1000000000000000) (41899066721378 # 100000000000000) (423774716142792 # 1000000000000000) (42803947444056 # 100000000000000) (424059901367255 # 1000000000000000) (807931213651761 # 1000000000000000) (-181311503667851 # 10000000000000000) (-184445659516274 # 10000000000000000);
  Mk_ba19_row (93325424 # 100000000) (Some (-343139088718296 # 100000000000000)) (Some (127 # 100)) (Some (284292497042484 # 100000000000000)) (Some (349799365243198 # 100000000000000)) (Some (566518294400956 # 100000000000000)) (Some (-186 # 100)) (Some (758145110991049 # 100000000000000)) (Some (451529633631714 # 1000000000000000)) (Some (3816785129156 # 1000000000000)) (Some (-392065226708311 # 100000000000000000)) (Some (-112811795320095 # 100000000000000)) (Some (215984283920787 # 100000000000000000)) (Some (-2 # 10)) (Some (201833760146658 # 1000000000000000)) (Some (13637809245777 # 100000000000000)) (Some (16044568346818 # 100000000000000)) (Some (157425061431285 # 1000000000000000)) (Some (-211471198310571 # 10000000000000000)) (515460890596375 # 1000000000000000) (391832174437149 # 1000000000000000) (418607346408003 # 1000000000000000) (423621840882334 # 1000000000000000) (428155292475583 # 1000000000000000) (423577095996687 # 1000000000000000) (794551424994054 # 1000000000000000) (-194462581128154 # 10000000000000000) (-183129793771676 # 10000000000000000);
  Mk_ba19_row (9549925 # 10000000) (Some (-342913718523342 # 100000000000000)) (Some (127 # 100)) (Some (283235389325746 # 100000000000000)) (Some (35387929531826 # 10000000000000)) (Some (565532064276142 # 100000000000000)) (Some (-186 # 100)) (Some (758143407330817 # 100000000000000)) (Some (451586422306101 # 1000000000000000)) (Some (381599008771458 # 100000000000000)) (Some (-399006117190646 # 100000000000000000)) (Some (-112505928326919 # 100000000000000)) (Some (27409815734151 # 10000000000000000)) (Some (-2 # 10)) (Some (19700474190185 # 100000000000000)) (Some (132341901132664 # 1000000000000000)) (Some (157509917027341 # 1000000000000000)) (Some (156045516694971 # 1000000000000000)) (Some (-219947175891599 # 10000000000000000)) (512284618612647 # 1000000000000000) (389492744672935 # 1000000000000000) (418172014541853 # 1000000000000000) (423374970483693 # 1000000000000000) (428284287208447 # 1000000000000000) (423057325554069 # 1000000000000000) (780852314116464 # 1000000000000000) (-208525148686477 # 10000000000000000) (-181734656022235 # 10000000000000000);
  Mk_ba19_row (9772371 # 10000000) (Some (-342688348295682 # 100000000000000)) (Some (127 # 100)) (Some (282166411639463 # 100000000000000)) (Some (358078159919203 # 100000000000000)) (Some (564552620930801 # 100000000000000)) (Some (-186 # 100)) (Some (758141703671234 # 100000000000000)) (Some (451643210958865 # 1000000000000000)) (Some (381519504657589 # 100000000000000)) (Some (-405972724387207 # 100000000000000000)) (Some (-112181533040438 # 100000000000000)) (Some (331167359370285 # 100000000000000000)) (Some (-2 # 10)) (Some (192354711552637 # 1000000000000000)) (Some (128326945866255 # 1000000000000000)) (Some (154558497840861 # 1000000000000000)) (Some (154643289388168 # 1000000000000000)) (Some (-226690491412627 # 10000000000000000)) (508984435988473 # 1000000000000000) (387114560158253 # 1000000000000000) (417695421187024 # 1000000000000000) (423031418643105 # 1000000000000000) (428427654457717 # 1000000000000000) (422501378312123 # 1000000000000000) (766832992147387 # 1000000000000000) (-22354195666547 # 1000000000000000) (-180258419197146 # 10000000000000000);
  Mk_ba19_row (1 # 1) (Some (-342462978034773 # 100000000000000)) (Some (127 # 100)) (Some (281085524644915 # 100000000000000)) (Some (36239875328614 # 10000000000000)) (Some (563579925238322 # 100000000000000)) (Some (-186 # 100)) (Some (75814 # 10000)) (Some (4517 # 10000)) (Some (38144 # 10000)) (Some (-41296506287047 # 10000000000000000)) (Some (-111837939643176 # 100000000000000)) (Some (387298927838897 # 100000000000000000)) (Some (-2 # 10)) (Some (187885793800162 # 1000000000000000)) (Some (12433636143791 # 100000000000000)) (Some (15159094871615 # 100000000000000)) (Some (153219130194101 # 1000000000000000)) (Some (-231363921941035 # 10000000000000000)) (505564315252483 # 1000000000000000) (384704300835637 # 1000000000000000) (417188704075653 # 1000000000000000) (422589327549432 # 1000000000000000) (428586347557115 # 1000000000000000) (42190994408214 # 100000000000000) (752487118225351 # 1000000000000000) (-239576962932065 # 10000000000000000) (-178699644133332 # 10000000000000000);
  Mk_ba19_row (1023293 # 1000000) (Some (-342237607743027 # 100000000000000)) (Some (127 # 100)) (Some (279992717544555 # 100000000000000)) (Some (36684376869631 # 10000000000000)) (Some (56261394744008 # 10000000000000)) (Some (-186 # 100)) (Some (758135197644759 # 100000000000000)) (Some (451812054955626 # 1000000000000000)) (Some (381277520314343 # 100000000000000)) (Some (-419983903554276 # 100000000000000000)) (Some (-111474381930174 # 100000000000000)) (Some (442605717037106 # 100000000000000000)) (Some (-2 # 10)) (Some (183598175602317 # 1000000000000000)) (Some (12037293520698 # 100000000000000)) (Some (148606835819198 # 1000000000000000)) (Some (151773600171311 # 1000000000000000)) (Some (-233889976825776 # 10000000000000000)) (502029025264942 # 1000000000000000) (382268961131073 # 1000000000000000) (416662863074316 # 1000000000000000) (422047592559567 # 1000000000000000) (428761080212174 # 1000000000000000) (42128358738301 # 100000000000000) (737807086233627 # 1000000000000000) (-256720800042303 # 10000000000000000) (-177057309145881 # 10000000000000000);
  Mk_ba19_row (1047129 # 1000000) (Some (-342012237425466 # 100000000000000)) (Some (127 # 100)) (Some (278887893714395 # 100000000000000)) (Some (371415590879414 # 100000000000000)) (Some (561654702020923 # 100000000000000)) (Some (-186 # 100)) (Some (758130395202647 # 100000000000000)) (Some (451924111938243 # 1000000000000000)) (Some (381115037689548 # 100000000000000)) (Some (-427030782295981 # 100000000000000000)) (Some (-111090072347398 # 100000000000000)) (Some (49720544884686 # 10000000000000000)) (Some (-2 # 10)) (Some (179490030841166 # 1000000000000000)) (Some (116439763341789 # 1000000000000000)) (Some (145605942882677 # 1000000000000000)) (Some (150306738903161 # 1000000000000000)) (Some (-234571358361513 # 10000000000000000)) (49838410822149 # 100000000000000) (379815778158216 # 1000000000000000) (416128286490104 # 1000000000000000) (421405772121673 # 1000000000000000) (428952401374937 # 1000000000000000) (420622782875686 # 1000000000000000) (722785112851909 # 1000000000000000) (-27508734363102 # 1000000000000000) (-175330838940339 # 10000000000000000);
  Mk_ba19_row (10715192 # 10000000) (Some (-341786867092887 # 100000000000000)) (Some (127 # 100)) (Some (277771135672254 # 100000000000000)) (Some (376117029682801 # 100000000000000)) (Some (560702146252433 # 100000000000000)) (Some (-186 # 100)) (Some (75812559295948 # 10000000000000)) (Some (452036164278791 # 1000000000000000)) (Some (380952561795753 # 100000000000000)) (Some (-434107993355266 # 100000000000000000)) (Some (-110684262292697 # 100000000000000)) (Some (551219609672962 # 100000000000000000)) (Some (-2 # 10)) (Some (175557151503431 # 1000000000000000)) (Some (112540923583901 # 1000000000000000)) (Some (142588067063027 # 1000000000000000)) (Some (148818020408105 # 1000000000000000)) (Some (-2339808262054 # 100000000000000)) (494635839539679 # 1000000000000000) (377352143932906 # 1000000000000000) (415594341888698 # 1000000000000000) (420663988862472 # 1000000000000000) (429160977341481 # 1000000000000000) (419928142490434 # 1000000000000000) (707413233352868 # 1000000000000000) (-294796603023425 # 10000000000000000) (-17352013881264 # 1000000000000000);
  Mk_ba19_row (1096478 # 1000000) (Some (-341561496759946 # 100000000000000)) (Some (127 # 100)) (Some (276642398310951 # 100000000000000)) (Some (380950693558693 # 100000000000000)) (Some (559756094055053 # 100000000000000)) (Some (-186 # 100)) (Some (758120790622638 # 100000000000000)) (Some (452148218805121 # 1000000000000000)) (Some (380790082732575 # 100000000000000)) (Some (-4412185660713 # 1000000000000000)) (Some (-110256361489357 # 100000000000000)) (Some (604772213999074 # 100000000000000000)) (Some (-2 # 10)) (Some (171794093977087 # 1000000000000000)) (Some (108681532713817 # 1000000000000000)) (Some (139552855624247 # 1000000000000000)) (Some (147306638858804 # 1000000000000000)) (Some (-232765318568458 # 10000000000000000)) (490791170543081 # 1000000000000000) (37488550088939 # 100000000000000) (4150690404529 # 10000000000000) (419822827636285 # 1000000000000000) (429387664942553 # 1000000000000000) (41920049883894 # 100000000000000) (69168329737086 # 100000000000000) (-315959751639969 # 10000000000000000) (-171625627617579 # 10000000000000000);
  Mk_ba19_row (11220182 # 10000000) (Some (-341336126441817 # 100000000000000)) (Some (127 # 100)) (Some (275428287210341 # 100000000000000)) (Some (385728772106568 # 100000000000000)) (Some (558816202201096 # 100000000000000)) (Some (-186 # 100)) (Some (758115988278931 # 100000000000000)) (Some (452260273491602 # 1000000000000000)) (Some (380627603437177 # 100000000000000)) (Some (-448366223523917 # 100000000000000000)) (Some (-109805964329868 # 100000000000000)) (Some (657988459781613 # 100000000000000000)) (Some (-2 # 10)) (Some (168196954643686 # 1000000000000000)) (Some (104867724741498 # 1000000000000000)) (Some (136500059876944 # 1000000000000000)) (Some (145771520398404 # 1000000000000000)) (Some (-231372128815002 # 10000000000000000)) (486857654422505 # 1000000000000000) (37242322144429 # 100000000000000) (414558781189056 # 1000000000000000) (418883236138447 # 1000000000000000) (429633514066668 # 1000000000000000) (418440936352117 # 1000000000000000) (675586964532336 # 1000000000000000) (-338672092447527 # 10000000000000000) (-169648324394401 # 10000000000000000);
  Mk_ba19_row (11481534 # 10000000) (Some (-3411107561471 # 1000000000000)) (Some (127 # 100)) (Some (274195668868151 # 100000000000000)) (Some (390619797711811 # 100000000000000)) (Some (557881991638729 # 100000000000000)) (Some (-186 # 100)) (Some (758111185918228 # 100000000000000)) (Some (452372328574669 # 1000000000000000)) (Some (380465123566729 # 100000000000000)) (Some (-455555322577208 # 100000000000000000)) (Some (-109332887032924 # 100000000000000)) (Some (710993299889021 # 100000000000000000)) (Some (-2 # 10)) (Some (16476379031158 # 100000000000000)) (Some (101106487408737 # 1000000000000000)) (Some (1334294770167 # 10000000000000)) (Some (144211396013423 # 1000000000000000)) (Some (-230088777610025 # 10000000000000000)) (482843356621997 # 1000000000000000) (369972474206006 # 1000000000000000) (414068178370646 # 1000000000000000) (417846433384519 # 1000000000000000) (429899767731796 # 1000000000000000) (417650819324045 # 1000000000000000) (659115700156876 # 1000000000000000) (-363008947783522 # 10000000000000000) (-167589944631957 # 10000000000000000);
  Mk_ba19_row (11748973 # 10000000) (Some (-340885385877483 # 100000000000000)) (Some (127 # 100)) (Some (272947920559216 # 100000000000000)) (Some (395634822955744 # 100000000000000)) (Some (556952880026348 # 100000000000000)) (Some (-186 # 100)) (Some (758106383569581 # 100000000000000)) (Some (452484383376434 # 1000000000000000)) (Some (380302644104171 # 100000000000000)) (Some (-462790775667866 # 100000000000000000)) (Some (-108837159284391 # 100000000000000)) (Some (763909949211273 # 100000000000000000)) (Some (-2 # 10)) (Some (161492557991797 # 1000000000000000)) (Some (974046834263371 # 10000000000000000)) (Some (130340713088565 # 1000000000000000)) (Some (142624990807089 # 1000000000000000)) (Some (-229304877844281 # 10000000000000000)) (478756751596139 # 1000000000000000) (367540081228495 # 1000000000000000) (41359997410533 # 100000000000000) (416713830765994 # 1000000000000000) (430187858289212 # 1000000000000000) (416831814888504 # 1000000000000000) (642260770795486 # 1000000000000000) (-389024367229784 # 10000000000000000) (-165452899321541 # 10000000000000000);
  Mk_ba19_row (12022641 # 10000000) (Some (-340660015629227 # 100000000000000)) (Some (127 # 100)) (Some (271689438277408 # 100000000000000)) (Some (400788618883397 # 100000000000000)) (Some (556028271283218 # 100000000000000)) (Some (-186 # 100)) (Some (758101581228706 # 100000000000000)) (Some (452596437996868 # 1000000000000000)) (Some (380140164904541 # 100000000000000)) (Some (-470077955851589 # 100000000000000000)) (Some (-10831894850759 # 10000000000000)) (Some (816858342621782 # 100000000000000000)) (Some (-2 # 10)) (Some (158379766632953 # 1000000000000000)) (Some (937681565333429 # 10000000000000000)) (Some (127233269927588 # 1000000000000000)) (Some (141010902872796 # 1000000000000000)) (Some (-229454058664502 # 10000000000000000)) (474606608978102 # 1000000000000000) (365132372226398 # 1000000000000000) (413155037679397 # 1000000000000000) (415486969586855 # 1000000000000000) (430499398378488 # 1000000000000000) (415985909123379 # 1000000000000000) (625013239597321 # 1000000000000000) (-416753433049907 # 10000000000000000) (-163240198500207 # 10000000000000000);
  Mk_ba19_row (1230269 # 1000000) (Some (-340434645394045 # 100000000000000)) (Some (127 # 100)) (Some (270425720076514 # 100000000000000)) (Some (406100148650687 # 100000000000000)) (Some (555107595490626 # 100000000000000)) (Some (-186 # 100)) (Some (758096778778137 # 100000000000000)) (Some (452708495176816 # 1000000000000000)) (Some (379977681993616 # 100000000000000)) (Some (-477422587730972 # 100000000000000000)) (Some (-107778572098105 # 100000000000000)) (Some (869953557178364 # 100000000000000000)) (Some (-2 # 10)) (Some (155421171644987 # 1000000000000000)) (Some (902011248568971 # 10000000000000000)) (Some (124106767515656 # 1000000000000000)) (Some (139367711999909 # 1000000000000000)) (Some (-230881505034324 # 10000000000000000)) (470401873670618 # 1000000000000000) (362755042849244 # 1000000000000000) (412732453548749 # 1000000000000000) (414167478172287 # 1000000000000000) (430836165571003 # 1000000000000000) (415115414695614 # 1000000000000000) (60736396159243 # 100000000000000) (-446214676373056 # 10000000000000000) (-160955369415471 # 10000000000000000);
  Mk_ba19_row (1258926 # 1000000) (Some (-340209275164572 # 100000000000000)) (Some (127 # 100)) (Some (269161814304293 # 100000000000000)) (Some (411588318336707 # 100000000000000)) (Some (55419037844741 # 10000000000000)) (Some (-186 # 100)) (Some (758091976365875 # 100000000000000)) (Some (45282055146291 # 100000000000000)) (Some (37981520037878 # 10000000000000)) (Some (-484830627806962 # 100000000000000000)) (Some (-10721644874031 # 10000000000000)) (Some (923304213385668 # 100000000000000000)) (Some (-2 # 10)) (Some (152612993696545 # 1000000000000000)) (Some (867060504260763 # 10000000000000000)) (Some (120960828183318 # 1000000000000000)) (Some (137693778125781 # 1000000000000000)) (Some (-2336898359655 # 100000000000000)) (466151546081829 # 1000000000000000) (360413025219231 # 1000000000000000) (412329675672499 # 1000000000000000) (41275705064317 # 100000000000000) (431200080012237 # 1000000000000000) (414222968587582 # 1000000000000000) (589307032345503 # 1000000000000000) (-47740744258129 # 1000000000000000) (-158602437449855 # 10000000000000000);
  Mk_ba19_row (128825 # 100000) (Some (-339983904933332 # 100000000000000)) (Some (127 # 100)) (Some (267901929604042 # 100000000000000)) (Some (41727056712468 # 10000000000000)) (Some (553276299596386 # 100000000000000)) (Some (-186 # 100)) (Some (758087174037075 # 100000000000000)) (Some (452932605801587 # 1000000000000000)) (Some (379652721587699 # 100000000000000)) (Some (-492308138528791 # 100000000000000000)) (Some (-106633039171345 # 100000000000000)) (Some (977010875536839 # 100000000000000000)) (Some (-2 # 10)) (Some (149951381938032 # 1000000000000000)) (Some (832841212256152 # 10000000000000000)) (Some (11779504228266 # 100000000000000)) (Some (135986912811259 # 1000000000000000)) (Some (-238042702664054 # 10000000000000000)) (461864570789395 # 1000000000000000) (358110380592699 # 1000000000000000) (411942656936002 # 1000000000000000) (411257448205071 # 1000000000000000) (431593174682935 # 1000000000000000) (413311518655343 # 1000000000000000) (57085319436644 # 100000000000000) (-510309435480042 # 10000000000000000) (-156185914913312 # 10000000000000000);
  Mk_ba19_row (1318257 # 1000000) (Some (-339758534696706 # 100000000000000)) (Some (127 # 100)) (Some (266649674488961 # 100000000000000)) (Some (423163200193934 # 100000000000000)) (Some (552365161282526 # 100000000000000)) (Some (-186 # 100)) (Some (758082371714623 # 100000000000000)) (Some (453044659992128 # 1000000000000000)) (Some (379490243011415 # 100000000000000)) (Some (-499861160936064 # 100000000000000000)) (Some (-106028746677045 # 100000000000000)) (Some (10311644814259 # 1000000000000000)) (Some (-2 # 10)) (Some (147431634568769 # 1000000000000000)) (Some (799355890196077 # 10000000000000000)) (Some (114608915014606 # 1000000000000000)) (Some (134244742893388 # 1000000000000000)) (Some (-24401685220433 # 1000000000000000)) (457549744421666 # 1000000000000000) (35585022647064 # 100000000000000) (41156599539492 # 100000000000000) (409670522385073 # 1000000000000000) (432017558172095 # 1000000000000000) (412384298191517 # 1000000000000000) (552037906369122 # 1000000000000000) (-544876287171155 # 10000000000000000) (-153710793673454 # 10000000000000000);
  Mk_ba19_row (1348963 # 1000000) (Some (-339533164455413 # 100000000000000)) (Some (127 # 100)) (Some (265408141726884 # 100000000000000)) (Some (429281352323296 # 100000000000000)) (Some (551456818156071 # 100000000000000)) (Some (-186 # 100)) (Some (758071377253105 # 100000000000000)) (Some (453214969958602 # 1000000000000000)) (Some (379254790555887 # 100000000000000)) (Some (-507495591272276 # 100000000000000000)) (Some (-105403889981132 # 100000000000000)) (Some (108584484725795 # 10000000000000000)) (Some (-2 # 10)) (Some (145047525574461 # 1000000000000000)) (Some (766599019152431 # 10000000000000000)) (Some (111401744496855 # 1000000000000000)) (Some (132464996531833 # 1000000000000000)) (Some (-251156737931493 # 10000000000000000)) (453215656259125 # 1000000000000000) (35363471369201 # 100000000000000) (411193113534437 # 1000000000000000) (407998258057532 # 1000000000000000) (432475370099005 # 1000000000000000) (411444788191808 # 1000000000000000) (532922693660382 # 1000000000000000) (-581042763771439 # 10000000000000000) (-151182527907656 # 10000000000000000);
  Mk_ba19_row (13803842 # 10000000) (Some (-339307794210242 # 100000000000000)) (Some (127 # 100)) (Some (264179109604872 # 100000000000000)) (Some (435636217264756 # 100000000000000)) (Some (550551151597265 # 100000000000000)) (Some (-186 # 100)) (Some (758054340731368 # 100000000000000)) (Some (453442123581766 # 1000000000000000)) (Some (378948133164616 # 100000000000000)) (Some (-515217067157096 # 100000000000000000)) (Some (-104758873542442 # 100000000000000)) (Some (114111931065921 # 10000000000000000)) (Some (-2 # 10)) (Some (14279113524201 # 100000000000000)) (Some (734555987848961 # 10000000000000000)) (Some (108172588359794 # 1000000000000000)) (Some (130645527274179 # 1000000000000000)) (Some (-258798191403282 # 10000000000000000)) (448870678181566 # 1000000000000000) (351465072721394 # 1000000000000000) (410816463903525 # 1000000000000000) (406242832225326 # 1000000000000000) (432968729553749 # 1000000000000000) (410496667470225 # 1000000000000000) (513592244049471 # 1000000000000000) (-618724608038885 # 10000000000000000) (-14860699450686 # 1000000000000000);
  Mk_ba19_row (14125374 # 10000000) (Some (-339082423963046 # 100000000000000)) (Some (127 # 100)) (Some (262962650557325 # 100000000000000)) (Some (44223326969985 # 10000000000000)) (Some (549648058278474 # 100000000000000)) (Some (-186 # 100)) (Some (758037304151732 # 100000000000000)) (Some (453669277976904 # 1000000000000000)) (Some (37864147473118 # 10000000000000)) (Some (-523030868657675 # 100000000000000000)) (Some (-104094231851723 # 100000000000000)) (Some (119704158756371 # 10000000000000000)) (Some (-2 # 10)) (Some (140653428847776 # 1000000000000000)) (Some (703202251837258 # 10000000000000000)) (Some (104920556065352 # 1000000000000000)) (Some (128784306403951 # 1000000000000000)) (Some (-266439460364873 # 10000000000000000)) (444523024317912 # 1000000000000000) (349341752380488 # 1000000000000000) (410427751821018 # 1000000000000000) (404406682235596 # 1000000000000000) (433499677290604 # 1000000000000000) (409543751109361 # 1000000000000000) (494149116805912 # 1000000000000000) (-657820249871341 # 10000000000000000) (-145990438326627 # 10000000000000000);
  Mk_ba19_row (144544 # 100000) (Some (-338857053716235 # 100000000000000)) (Some (127 # 100)) (Some (261757216645633 # 100000000000000)) (Some (449071887021002 # 100000000000000)) (Some (548747441875257 # 100000000000000)) (Some (-186 # 100)) (Some (758020267337866 # 100000000000000)) (Some (453896435495118 # 1000000000000000)) (Some (37833481208159 # 10000000000000)) (Some (-530941838784815 # 100000000000000000)) (Some (-103410621233324 # 100000000000000)) (Some (125365092245606 # 10000000000000000)) (Some (-2 # 10)) (Some (138624620558817 # 1000000000000000)) (Some (672510835941365 # 10000000000000000)) (Some (101645234786843 # 1000000000000000)) (Some (126879665213637 # 1000000000000000)) (Some (-273759089963099 # 10000000000000000)) (440180904958374 # 1000000000000000) (347264678676156 # 1000000000000000) (410018505080734 # 1000000000000000) (402492678942408 # 1000000000000000) (434070112778776 # 1000000000000000) (408589918027205 # 1000000000000000) (474707436641904 # 1000000000000000) (-698210750007094 # 10000000000000000) (-143339416203032 # 10000000000000000);
  Mk_ba19_row (14791082 # 10000000) (Some (-338631683477828 # 100000000000000)) (Some (127 # 100)) (Some (260561063608378 # 100000000000000)) (Some (456149572238505 # 100000000000000)) (Some (547849214802008 # 100000000000000)) (Some (-186 # 100)) (Some (758003230928582 # 100000000000000)) (Some (45412358761891 # 100000000000000)) (Some (378028156714472 # 100000000000000)) (Some (-538954326556406 # 100000000000000000)) (Some (-102708817836737 # 100000000000000)) (Some (131097160244165 # 10000000000000000)) (Some (-2 # 10)) (Some (136695392295709 # 1000000000000000)) (Some (642454690451601 # 10000000000000000)) (Some (983468736595387 # 10000000000000000)) (Some (124930857958515 # 1000000000000000)) (Some (-280466147111413 # 10000000000000000)) (435852732946677 # 1000000000000000) (345233589091875 # 1000000000000000) (409581629588446 # 1000000000000000) (400504601331937 # 1000000000000000) (434681727522847 # 1000000000000000) (407639028695562 # 1000000000000000) (455386538995801 # 1000000000000000) (-739758851787291 # 10000000000000000) (-140660730161364 # 10000000000000000);
  Mk_ba19_row (1513561 # 1000000) (Some (-338406313260613 # 100000000000000)) (Some (127 # 100)) (Some (259373349529649 # 100000000000000)) (Some (463465772617133 # 100000000000000)) (Some (54695342752912 # 10000000000000)) (Some (-186 # 100)) (Some (757986194335139 # 100000000000000)) (Some (454350742198149 # 1000000000000000)) (Some (377721498032499 # 100000000000000)) (Some (-54707215395045 # 10000000000000000)) (Some (-10198974723856 # 10000000000000)) (Some (13690128822497 # 1000000000000000)) (Some (-2 # 10)) (Some (134859102989352 # 1000000000000000)) (Some (61300604768068 # 1000000000000000)) (Some (950260798529375 # 10000000000000000)) (Some (122938100676824 # 1000000000000000)) (Some (-286363966593273 # 10000000000000000)) (431547143305591 # 1000000000000000) (343248181173462 # 1000000000000000) (409111801685049 # 1000000000000000) (398447269859802 # 1000000000000000) (435335936332166 # 1000000000000000) (40669483432213 # 100000000000000) (436305206756337 # 1000000000000000) (-782316444103375 # 10000000000000000) (-13796127961253 # 1000000000000000);
  Mk_ba19_row (15488164 # 10000000) (Some (-338180943075245 # 100000000000000)) (Some (127 # 100)) (Some (258194281560664 # 100000000000000)) (Some (471022934237675 # 100000000000000)) (Some (546060330397686 # 100000000000000)) (Some (-186 # 100)) (Some (757969157697509 # 100000000000000)) (Some (454577897366551 # 1000000000000000)) (Some (377414838555157 # 100000000000000)) (Some (-555298606077276 # 100000000000000000)) (Some (-101254363033465 # 100000000000000)) (Some (142776933168794 # 10000000000000000)) (Some (-2 # 10)) (Some (133112345208075 # 1000000000000000)) (Some (584135456885083 # 10000000000000000)) (Some (916838073608856 # 10000000000000000)) (Some (120901740654337 # 1000000000000000)) (Some (-291291382738352 # 10000000000000000)) (427272951705778 # 1000000000000000) (341308198701519 # 1000000000000000) (408605462818026 # 1000000000000000) (396326511398345 # 1000000000000000) (436033808638673 # 1000000000000000) (405760879265125 # 1000000000000000) (417576881949469 # 1000000000000000) (-825735184396399 # 10000000000000000) (-135247888806508 # 10000000000000000);
  Mk_ba19_row (1584893 # 1000000) (Some (-33795557292558 # 10000000000000)) (Some (127 # 100)) (Some (257024846846475 # 100000000000000)) (Some (478826209640198 # 100000000000000)) (Some (545170340476983 # 100000000000000)) (Some (-186 # 100)) (Some (757952121062018 # 100000000000000)) (Some (454805052506428 # 1000000000000000)) (Some (377108179116322 # 100000000000000)) (Some (-56363644205249 # 10000000000000000)) (Some (-100503485472555 # 100000000000000)) (Some (148722157714416 # 10000000000000000)) (Some (-2 # 10)) (Some (131452125987491 # 1000000000000000)) (Some (555814808252508 # 10000000000000000)) (Some (88321536216152 # 1000000000000000)) (Some (118821770727198 # 1000000000000000)) (Some (-294970402555843 # 10000000000000000)) (423039109944836 # 1000000000000000) (339413511296375 # 1000000000000000) (40806078466816 # 100000000000000) (394149065381713 # 1000000000000000) (436776002650459 # 1000000000000000) (404840399159801 # 1000000000000000) (399306039627536 # 1000000000000000) (-869875522632626 # 10000000000000000) (-132527171814601 # 10000000000000000);
  Mk_ba19_row (162181 # 100000) (Some (-337730202804989 # 100000000000000)) (Some (127 # 100)) (Some (25586647573345 # 10000000000000)) (Some (486882828557304 # 100000000000000)) (Some (544283948012355 # 100000000000000)) (Some (-186 # 100)) (Some (757935084395824 # 100000000000000)) (Some (45503220805568 # 100000000000000)) (Some (376801519124832 # 100000000000000)) (Some (-572087922612332 # 100000000000000000)) (Some (-99737757680703 # 100000000000000)) (Some (154733737572573 # 10000000000000000)) (Some (-2 # 10)) (Some (129873739997995 # 1000000000000000)) (Some (528021069029537 # 10000000000000000)) (Some (849412953586082 # 10000000000000000)) (Some (116697632225816 # 1000000000000000)) (Some (-29731884118013 # 1000000000000000)) (418854659510673 # 1000000000000000) (337564185234721 # 1000000000000000) (407477604072053 # 1000000000000000) (391922542578842 # 1000000000000000) (437562705923043 # 1000000000000000) (403936218141238 # 1000000000000000) (381585766178352 # 1000000000000000) (-91461721886918 # 1000000000000000) (-129805415597063 # 10000000000000000);
  Mk_ba19_row (1659587 # 1000000) (Some (-337504832695829 # 100000000000000)) (Some (127 # 100)) (Some (254721163591978 # 100000000000000)) (Some (495203060731457 # 100000000000000)) (Some (543401635983518 # 100000000000000)) (Some (-186 # 100)) (Some (757918047689379 # 100000000000000)) (Some (455259364141616 # 1000000000000000)) (Some (376494858408819 # 100000000000000)) (Some (-580654849637624 # 100000000000000000)) (Some (-989576099050072 # 1000000000000000)) (Some (160807294181051 # 10000000000000000)) (Some (-2 # 10)) (Some (128372251709519 # 1000000000000000)) (Some (500732729584435 # 10000000000000000)) (Some (815453976788459 # 10000000000000000)) (Some (114528070508267 # 1000000000000000)) (Some (-298524367781696 # 10000000000000000)) (414728683432156 # 1000000000000000) (335760544053773 # 1000000000000000) (406857328253223 # 1000000000000000) (389655388134532 # 1000000000000000) (43839358677587 # 100000000000000) (403050649733859 # 1000000000000000) (364496482652387 # 1000000000000000) (-959872414588374 # 10000000000000000) (-127088449573912 # 10000000000000000);
  Mk_ba19_row (1698244 # 1000000) (Some (-337279462573596 # 100000000000000)) (Some (127 # 100)) (Some (25359154720025 # 10000000000000)) (Some (503801036187374 # 100000000000000)) (Some (542523890073895 # 100000000000000)) (Some (-186 # 100)) (Some (757901010958469 # 100000000000000)) (Some (455486520553754 # 1000000000000000)) (Some (376188197252433 # 100000000000000)) (Some (-58933861247473 # 10000000000000000)) (Some (-981633644737446 # 1000000000000000)) (Some (166937443990851 # 10000000000000000)) (Some (-2 # 10)) (Some (126944167714594 # 1000000000000000)) (Some (473926249037726 # 10000000000000000)) (Some (781360983564588 # 10000000000000000)) (Some (112311130291207 # 1000000000000000)) (Some (-298642579586637 # 10000000000000000)) (410670255944178 # 1000000000000000) (334003218001405 # 1000000000000000) (406202810682037 # 1000000000000000) (387356822064163 # 1000000000000000) (439267762009018 # 1000000000000000) (402185407533163 # 1000000000000000) (348105688177312 # 1000000000000000) (-100559768037153 # 1000000000000000) (-124381545179809 # 10000000000000000);
  Mk_ba19_row (1737801 # 1000000) (Some (-337054092420391 # 100000000000000)) (Some (127 # 100)) (Some (252480196181135 # 100000000000000)) (Some (512692368371049 # 100000000000000)) (Some (541651220045813 # 100000000000000)) (Some (-186 # 100)) (Some (75788397441621 # 10000000000000)) (Some (455713674450533 # 1000000000000000)) (Some (37588153949178 # 10000000000000)) (Some (-598140236184881 # 100000000000000000)) (Some (-973553292704426 # 1000000000000000)) (Some (173117955867079 # 10000000000000000)) (Some (-2 # 10)) (Some (125588389750955 # 1000000000000000)) (Some (44757722485304 # 1000000000000000)) (Some (747157652724608 # 10000000000000000)) (Some (11004467205639 # 100000000000000)) (Some (-297531401949565 # 10000000000000000)) (406688389281759 # 1000000000000000) (332293181561071 # 1000000000000000) (405518196482364 # 1000000000000000) (385036756037388 # 1000000000000000) (440183787554816 # 1000000000000000) (401341533697696 # 1000000000000000) (332468562000528 # 1000000000000000) (-10518025610575 # 100000000000000) (-121689357948093 # 10000000000000000);
  Mk_ba19_row (17782794 # 10000000) (Some (-336828722227248 # 100000000000000)) (Some (127 # 100)) (Some (251388882410874 # 100000000000000)) (Some (521891203754027 # 100000000000000)) (Some (540784177548697 # 100000000000000)) (Some (-186 # 100)) (Some (757866937872537 # 100000000000000)) (Some (45594082836617 # 100000000000000)) (Some (375574881705671 # 100000000000000)) (Some (-607060427485448 # 100000000000000000)) (Some (-965337444040913 # 1000000000000000)) (Some (179341908418472 # 10000000000000000)) (Some (-2 # 10)) (Some (124305721758388 # 1000000000000000)) (Some (421658678555113 # 10000000000000000)) (Some (712871489739136 # 10000000000000000)) (Some (107726665223164 # 1000000000000000)) (Some (-294982423819783 # 10000000000000000)) (402791977074767 # 1000000000000000) (330631778410197 # 1000000000000000) (404808735669159 # 1000000000000000) (382705686305139 # 1000000000000000) (441139679840558 # 1000000000000000) (400519355396383 # 1000000000000000) (317629249889348 # 1000000000000000) (-109855317259277 # 1000000000000000) (-119015936054893 # 10000000000000000);
  Mk_ba19_row (1819701 # 1000000) (Some (-336603351992357 # 100000000000000)) (Some (127 # 100)) (Some (25031854910068 # 10000000000000)) (Some (531409766295167 # 100000000000000)) (Some (539923395214024 # 100000000000000)) (Some (-186 # 100)) (Some (757849901190109 # 100000000000000)) (Some (456167984131876 # 1000000000000000)) (Some (375268221421968 # 100000000000000)) (Some (-61609961504881 # 10000000000000000)) (Some (-956987240545875 # 1000000000000000)) (Some (185601839693639 # 10000000000000000)) (Some (-2 # 10)) (Some (123098280308525 # 1000000000000000)) (Some (396140863770366 # 10000000000000000)) (Some (678530909058828 # 10000000000000000)) (Some (105355434540349 # 1000000000000000)) (Some (-29081922976292 # 1000000000000000)) (398989734247251 # 1000000000000000) (329020733357967 # 1000000000000000) (404080564290263 # 1000000000000000) (380374563689089 # 1000000000000000) (442132976867587 # 1000000000000000) (399718481582679 # 1000000000000000) (303622664400508 # 1000000000000000) (-114597187846334 # 1000000000000000) (-116364755991206 # 10000000000000000);
  Mk_ba19_row (1862087 # 1000000) (Some (-336377981724049 # 100000000000000)) (Some (127 # 100)) (Some (249269154218216 # 100000000000000)) (Some (541257296172581 # 100000000000000)) (Some (5390695357883 # 1000000000000)) (Some (-186 # 100)) (Some (757832864681139 # 100000000000000)) (Some (456395137584812 # 1000000000000000)) (Some (374961564260503 # 100000000000000)) (Some (-625257981936801 # 100000000000000000)) (Some (-948501969882355 # 1000000000000000)) (Some (191889882830045 # 10000000000000000)) (Some (-2 # 10)) (Some (121967784022095 # 1000000000000000)) (Some (370993734045581 # 10000000000000000)) (Some (644163920268688 # 10000000000000000)) (Some (102929803821221 # 1000000000000000)) (Some (-285040063479185 # 10000000000000000)) (395290133991515 # 1000000000000000) (327462151370597 # 1000000000000000) (403340457016345 # 1000000000000000) (378054642423628 # 1000000000000000) (443160849452071 # 1000000000000000) (398937854814233 # 1000000000000000) (290476646419141 # 1000000000000000) (-119423241049279 # 1000000000000000) (-113738770645473 # 10000000000000000);
  Mk_ba19_row (1905461 # 1000000) (Some (-336152611438308 # 100000000000000)) (Some (127 # 100)) (Some (248240456981063 # 100000000000000)) (Some (551443167739507 # 100000000000000)) (Some (538223216881005 # 100000000000000)) (Some (-186 # 100)) (Some (75781582789656 # 10000000000000)) (Some (456622294712533 # 1000000000000000)) (Some (37465490213808 # 10000000000000)) (Some (-634535489249718 # 100000000000000000)) (Some (-939879240008863 # 1000000000000000)) (Some (198197883007219 # 10000000000000000)) (Some (-2 # 10)) (Some (12091424376129 # 100000000000000)) (Some (346186672386442 # 10000000000000000)) (Some (609795512565761 # 10000000000000000)) (Some (100448805910418 # 1000000000000000)) (Some (-277816738172323 # 10000000000000000)) (391701343207734 # 1000000000000000) (325958504860846 # 1000000000000000) (402595557722106 # 1000000000000000) (375757310503806 # 1000000000000000) (444220274614 # 1000000000000) (398175875484916 # 1000000000000000) (278214362175354 # 1000000000000000) (-124354052268597 # 1000000000000000) (-111140477297578 # 10000000000000000);
  Mk_ba19_row (19498444 # 10000000) (Some (-335927241155855 # 100000000000000)) (Some (127 # 100)) (Some (247231860429306 # 100000000000000)) (Some (561976209560353 # 100000000000000)) (Some (537385020079154 # 100000000000000)) (Some (-186 # 100)) (Some (757798791461114 # 100000000000000)) (Some (456849447185151 # 1000000000000000)) (Some (374348246300046 # 100000000000000)) (Some (-643931891474509 # 100000000000000000)) (Some (-931116923075745 # 1000000000000000)) (Some (204517493468073 # 10000000000000000)) (Some (-2 # 10)) (Some (1199361060829 # 10000000000000)) (Some (321690588142985 # 10000000000000000)) (Some (575446260078857 # 10000000000000000)) (Some (979116620348157 # 10000000000000000)) (Some (-26947600949478 # 1000000000000000)) (388231158444063 # 1000000000000000) (324512611889319 # 1000000000000000) (401853096193445 # 1000000000000000) (373493905111224 # 1000000000000000) (445308284517565 # 1000000000000000) (397430618939175 # 1000000000000000) (266856842743862 # 1000000000000000) (-129409439816394 # 1000000000000000) (-108571995462514 # 10000000000000000);
  Mk_ba19_row (19952621 # 10000000) (Some (-335702047253343 # 100000000000000)) (Some (127 # 100)) (Some (246242922566154 # 100000000000000)) (Some (572867196662674 # 100000000000000)) (Some (536555548500144 # 100000000000000)) (Some (-186 # 100)) (Some (757781754844267 # 100000000000000)) (Some (45707660207644 # 100000000000000)) (Some (374041587196805 # 100000000000000)) (Some (-653446745301997 # 100000000000000000)) (Some (-922213468051152 # 1000000000000000)) (Some (210840251341166 # 10000000000000000)) (Some (-2 # 10)) (Some (119032048061492 # 1000000000000000)) (Some (297485235856175 # 10000000000000000)) (Some (541134561988682 # 10000000000000000)) (Some (953179261855823 # 10000000000000000)) (Some (-260396773458189 # 10000000000000000)) (38488694462801 # 100000000000000) (32312760911625 # 100000000000000) (401120099833857 # 1000000000000000) (371275517753381 # 1000000000000000) (446422305592075 # 1000000000000000) (396700169452177 # 1000000000000000) (256424716694701 # 1000000000000000) (-134604978137821 # 1000000000000000) (-106035135847713 # 10000000000000000);
  Mk_ba19_row (2041738 # 1000000) (Some (-335477581898247 # 100000000000000)) (Some (127 # 100)) (Some (245274144665807 # 100000000000000)) (Some (584133183588073 # 100000000000000)) (Some (535735455368154 # 100000000000000)) (Some (-186 # 100)) (Some (757740199087736 # 100000000000000)) (Some (457433216939887 # 1000000000000000)) (Some (373587925209476 # 100000000000000)) (Some (-663079414538116 # 100000000000000000)) (Some (-913167979856692 # 1000000000000000)) (Some (217157637069142 # 10000000000000000)) (Some (-2 # 10)) (Some (11820191616014 # 100000000000000)) (Some (273566555260171 # 10000000000000000)) (Some (506877976105154 # 10000000000000000)) (Some (926675931171699 # 10000000000000000)) (Some (-250948079274891 # 10000000000000000)) (381675579047733 # 1000000000000000) (321806923592977 # 1000000000000000) (400403109852247 # 1000000000000000) (369112794828805 # 1000000000000000) (447560603665853 # 1000000000000000) (395983098828492 # 1000000000000000) (2469364183528 # 10000000000000) (-139949641531638 # 1000000000000000) (-103531458602782 # 10000000000000000);
  Mk_ba19_row (2089296 # 1000000) (Some (-335254095935432 # 100000000000000)) (Some (127 # 100)) (Some (244325912527014 # 100000000000000)) (Some (595793156684352 # 100000000000000)) (Some (534925462969491 # 100000000000000)) (Some (-186 # 100)) (Some (757695828200666 # 100000000000000)) (Some (457804694133963 # 1000000000000000)) (Some (373117387430313 # 100000000000000)) (Some (-672829073917094 # 100000000000000000)) (Some (-903979684159768 # 1000000000000000)) (Some (223461123632954 # 10000000000000000)) (Some (-2 # 10)) (Some (117445869608546 # 1000000000000000)) (Some (249946887205423 # 10000000000000000)) (Some (472690278376442 # 10000000000000000)) (Some (899610243755496 # 10000000000000000)) (Some (-241439780259451 # 10000000000000000)) (37860340306578 # 100000000000000) (320554246613425 # 1000000000000000) (39970791237069 # 100000000000000) (367015740102429 # 1000000000000000) (448722511260697 # 1000000000000000) (395278821207098 # 1000000000000000) (238405488195711 # 1000000000000000) (-145445763609534 # 1000000000000000) (-101062297914019 # 10000000000000000);
  Mk_ba19_row (2137962 # 1000000) (Some (-335031722076146 # 100000000000000)) (Some (127 # 100)) (Some (243397214043181 # 100000000000000)) (Some (607861621846112 # 100000000000000)) (Some (53412637960811 # 10000000000000)) (Some (-186 # 100)) (Some (757651457100665 # 100000000000000)) (Some (458176173110712 # 1000000000000000)) (Some (372646847393098 # 100000000000000)) (Some (-682694714092459 # 100000000000000000)) (Some (-894647658285731 # 1000000000000000)) (Some (229742222828916 # 10000000000000000)) (Some (-2 # 10)) (Some (116764052092639 # 1000000000000000)) (Some (226646522235994 # 10000000000000000)) (Some (438580795539395 # 10000000000000000)) (Some (871986259012208 # 10000000000000000)) (Some (-232088090204274 # 10000000000000000)) (375676183683189 # 1000000000000000) (319373511696581 # 1000000000000000) (399039296452351 # 1000000000000000) (364993525972425 # 1000000000000000) (449907496845991 # 1000000000000000) (39458696531955 # 100000000000000) (230837897119722 # 1000000000000000) (-151093212656463 # 1000000000000000) (-986287079314067 # 100000000000000000);
  Mk_ba19_row (2187761 # 1000000) (Some (-334809674061271 # 100000000000000)) (Some (127 # 100)) (Some (242485383265724 # 100000000000000)) (Some (620346442486667 # 100000000000000)) (Some (533339227868768 # 100000000000000)) (Some (-186 # 100)) (Some (757607086509596 # 100000000000000)) (Some (458547647826641 # 1000000000000000)) (Some (372176312752922 # 100000000000000)) (Some (-692675149016281 # 100000000000000000)) (Some (-885170690291737 # 1000000000000000)) (Some (235992535486798 # 10000000000000000)) (Some (-2 # 10)) (Some (116156637590407 # 1000000000000000)) (Some (20369180621292 # 1000000000000000)) (Some (404554965637729 # 10000000000000000)) (Some (843803468880379 # 10000000000000000)) (Some (-223074334232081 # 10000000000000000)) (372899086355965 # 1000000000000000) (318268877682861 # 1000000000000000) (398400853154816 # 1000000000000000) (363054320558816 # 1000000000000000) (451114866472033 # 1000000000000000) (393907167745855 # 1000000000000000) (224229493559823 # 1000000000000000) (-156893574572006 # 1000000000000000) (-962314258579023 # 100000000000000000);
  Mk_ba19_row (22387211 # 10000000) (Some (-334585516704154 # 100000000000000)) (Some (127 # 100)) (Some (241587353930911 # 100000000000000)) (Some (633254546431187 # 100000000000000)) (Some (532565272998155 # 100000000000000)) (Some (-186 # 100)) (Some (757562714933229 # 100000000000000)) (Some (458919130791572 # 1000000000000000)) (Some (371705767664009 # 100000000000000)) (Some (-702769025641272 # 100000000000000000)) (Some (-875547976569648 # 1000000000000000)) (Some (242203810938252 # 10000000000000000)) (Some (-2 # 10)) (Some (115624328551613 # 1000000000000000)) (Some (181114773817905 # 10000000000000000)) (Some (370617600261348 # 10000000000000000)) (Some (815054530433673 # 10000000000000000)) (Some (-21441541706368 # 1000000000000000)) (370276659805198 # 1000000000000000) (317244716983253 # 1000000000000000) (39779483157973 # 100000000000000) (361205137758828 # 1000000000000000) (452343749265114 # 1000000000000000) (393239069282867 # 1000000000000000) (218563710520943 # 1000000000000000) (-16285339247174 # 100000000000000) (-93870893510756 # 10000000000000000);
  Mk_ba19_row (2290868 # 1000000) (Some (-334357243531332 # 100000000000000)) (Some (127 # 100)) (Some (240700755034488 # 100000000000000)) (Some (646597688879323 # 100000000000000)) (Some (531805971832817 # 100000000000000)) (Some (-186 # 100)) (Some (757518343547967 # 100000000000000)) (Some (459290612156551 # 1000000000000000)) (Some (371235224601702 # 100000000000000)) (Some (-712974834744232 # 100000000000000000)) (Some (-865780458485579 # 1000000000000000)) (Some (248368018564598 # 10000000000000000)) (Some (-2 # 10)) (Some (115169187883707 # 1000000000000000)) (Some (158952452802171 # 10000000000000000)) (Some (336776056633614 # 10000000000000000)) (Some (785726905786789 # 10000000000000000)) (Some (-205917031026734 # 10000000000000000)) (36781283272534 # 100000000000000) (316305608072832 # 1000000000000000) (397222069845952 # 1000000000000000) (359451717594498 # 1000000000000000) (453593084312362 # 1000000000000000) (392582307381538 # 1000000000000000) (213809703172162 # 1000000000000000) (-168985983427377 # 1000000000000000) (-915473245496166 # 100000000000000000);
  Mk_ba19_row (2344229 # 1000000) (Some (-334124229112174 # 100000000000000)) (Some (127 # 100)) (Some (23982395418058 # 10000000000000)) (Some (660393003521412 # 100000000000000)) (Some (531062854392826 # 100000000000000)) (Some (-186 # 100)) (Some (757473972628256 # 100000000000000)) (Some (459662089623903 # 1000000000000000)) (Some (37076468647639 # 10000000000000)) (Some (-723290920969452 # 100000000000000000)) (Some (-855869446741381 # 1000000000000000)) (Some (254477431261871 # 10000000000000000)) (Some (-2 # 10)) (Some (114793758329554 # 1000000000000000)) (Some (137242327231433 # 10000000000000000)) (Some (303039555554639 # 10000000000000000)) (Some (755804526848486 # 10000000000000000)) (Some (-197271374438821 # 10000000000000000)) (365510921198755 # 1000000000000000) (315456330463848 # 1000000000000000) (396682021149031 # 1000000000000000) (357798444175163 # 1000000000000000) (454861609286949 # 1000000000000000) (391936506215679 # 1000000000000000) (209921113077729 # 1000000000000000) (-175310317040633 # 1000000000000000) (-892608349466349 # 100000000000000000);
  Mk_ba19_row (2398833 # 1000000) (Some (-333886435575065 # 100000000000000)) (Some (127 # 100)) (Some (238957044671125 # 100000000000000)) (Some (674669211901272 # 100000000000000)) (Some (530337411573878 # 100000000000000)) (Some (-186 # 100)) (Some (757429601655033 # 100000000000000)) (Some (460033567539257 # 1000000000000000)) (Some (370294147783608 # 100000000000000)) (Some (-733715490089636 # 100000000000000000)) (Some (-845816191439779 # 1000000000000000)) (Some (260524717673611 # 10000000000000000)) (Some (-2 # 10)) (Some (114499440035386 # 1000000000000000)) (Some (116020065959112 # 10000000000000000)) (Some (269419473089335 # 10000000000000000)) (Some (72527132406778 # 1000000000000000)) (Some (-188194754078999 # 10000000000000000)) (363373644731537 # 1000000000000000) (314701860091024 # 1000000000000000) (396172896795491 # 1000000000000000) (356248308325495 # 1000000000000000) (456147851552411 # 1000000000000000) (391301266115799 # 1000000000000000) (206835668224561 # 1000000000000000) (-181847814675403 # 1000000000000000) (-870116157380073 # 100000000000000000);
  Mk_ba19_row (2454709 # 1000000) (Some (-333644406864685 # 100000000000000)) (Some (127 # 100)) (Some (238102011280088 # 100000000000000)) (Some (689468689283222 # 100000000000000)) (Some (529631005421672 # 100000000000000)) (Some (-186 # 100)) (Some (757385230593915 # 100000000000000)) (Some (460405046190482 # 1000000000000000)) (Some (369823608158723 # 100000000000000)) (Some (-744246611941052 # 100000000000000000)) (Some (-835623268594596 # 1000000000000000)) (Some (266503037623457 # 10000000000000000)) (Some (-2 # 10)) (Some (114285285533658 # 1000000000000000)) (Some (953188557511392 # 100000000000000000)) (Some (235930122229513 # 10000000000000000)) (Some (694113766179442 # 10000000000000000)) (Some (-178618379903397 # 10000000000000000)) (361403148635716 # 1000000000000000) (314047363381049 # 1000000000000000) (395691949634404 # 1000000000000000) (354802921547657 # 1000000000000000) (457450122500271 # 1000000000000000) (390676153926554 # 1000000000000000) (204475823793894 # 1000000000000000) (-188619043971675 # 1000000000000000) (-848000844399635 # 100000000000000000);
  Mk_ba19_row (25118863 # 10000000) (Some (-333398940949649 # 100000000000000)) (Some (127 # 100)) (Some (237259983705624 # 100000000000000)) (Some (704831056630959 # 100000000000000)) (Some (528944849126909 # 100000000000000)) (Some (-186 # 100)) (Some (757327741430139 # 100000000000000)) (Some (460795629411257 # 1000000000000000)) (Some (369332441775473 # 100000000000000)) (Some (-754882218312297 # 100000000000000000)) (Some (-825295260048552 # 1000000000000000)) (Some (27240613379048 # 1000000000000000)) (Some (-2 # 10)) (Some (114148324389279 # 1000000000000000)) (Some (75166491352695 # 10000000000000000)) (Some (202587081545694 # 10000000000000000)) (Some (662320404175744 # 10000000000000000)) (Some (-168451192326584 # 10000000000000000)) (359601030883523 # 1000000000000000) (313498189129568 # 1000000000000000) (39523592352512 # 100000000000000) (353462587402129 # 1000000000000000) (458766515753831 # 1000000000000000) (390060695561152 # 1000000000000000) (202750619332115 # 1000000000000000) (-195640181215297 # 1000000000000000) (-826270381993238 # 100000000000000000);
  Mk_ba19_row (2570396 # 1000000) (Some (-333150821850159 # 100000000000000)) (Some (127 # 100)) (Some (23642988175181 # 10000000000000)) (Some (720782717501999 # 100000000000000)) (Some (528280011958818 # 100000000000000)) (Some (-186 # 100)) (Some (757219687830337 # 100000000000000)) (Some (461259859691884 # 1000000000000000)) (Some (368761758689115 # 100000000000000)) (Some (-765620096008604 # 100000000000000000)) (Some (-814837409210906 # 1000000000000000)) (Some (278228412554146 # 10000000000000000)) (Some (-2 # 10)) (Some (114083971479413 # 1000000000000000)) (Some (555838475233717 # 100000000000000000)) (Some (169405697645951 # 10000000000000000)) (Some (629883018832411 # 10000000000000000)) (Some (-15748776750613 # 1000000000000000)) (357968372042154 # 1000000000000000) (313059857861549 # 1000000000000000) (394801697910583 # 1000000000000000) (352226435171568 # 1000000000000000) (46009490981253 # 100000000000000) (389454371845339 # 1000000000000000) (201558868007294 # 1000000000000000) (-202920187753708 # 1000000000000000) (-804938085216038 # 100000000000000000);
  Mk_ba19_row (2630268 # 1000000) (Some (-332901188627368 # 100000000000000)) (Some (127 # 100)) (Some (2356090778988 # 1000000000000)) (Some (737338160107003 # 100000000000000)) (Some (527637368113241 # 100000000000000)) (Some (-186 # 100)) (Some (757111635254944 # 100000000000000)) (Some (461724085571353 # 1000000000000000)) (Some (368191081013147 # 100000000000000)) (Some (-776457876166482 # 100000000000000000)) (Some (-80425472269724 # 100000000000000)) (Some (283965007998987 # 10000000000000000)) (Some (-2 # 10)) (Some (114084816797351 # 1000000000000000)) (Some (365857063328509 # 100000000000000000)) (Some (13639857720412 # 1000000000000000)) (Some (596797687941419 # 10000000000000000)) (Some (-145564342401054 # 10000000000000000)) (356505767109634 # 1000000000000000) (312738048255303 # 1000000000000000) (394387161574156 # 1000000000000000) (351092618634839 # 1000000000000000) (4614329754994 # 10000000000000) (388856618390957 # 1000000000000000) (200793693861507 # 1000000000000000) (-210459336500364 # 1000000000000000) (-784024201843022 # 100000000000000000);
  Mk_ba19_row (2691535 # 1000000) (Some (-332651097890994 # 100000000000000)) (Some (127 # 100)) (Some (234794326256018 # 100000000000000)) (Some (75450360499834 # 10000000000000)) (Some (527017567525274 # 100000000000000)) (Some (-186 # 100)) (Some (757003581970025 # 100000000000000)) (Some (462188314499151 # 1000000000000000)) (Some (367620399589837 # 100000000000000)) (Some (-787393021521388 # 100000000000000000)) (Some (-793552264852191 # 1000000000000000)) (Some (289611824879636 # 10000000000000000)) (Some (-2 # 10)) (Some (114140840989125 # 1000000000000000)) (Some (181806343316589 # 100000000000000000)) (Some (103574373121546 # 10000000000000000)) (Some (563065196308337 # 10000000000000000)) (Some (-132664137899696 # 10000000000000000)) (355213358097593 # 1000000000000000) (31253857954637 # 100000000000000) (393992355557793 # 1000000000000000) (350058579871064 # 1000000000000000) (46277818824156 # 100000000000000) (388266829724563 # 1000000000000000) (200348283967621 # 1000000000000000) (-218249142573472 # 1000000000000000) (-763557510232869 # 100000000000000000);
  Mk_ba19_row (27542283 # 10000000) (Some (-332402811017214 # 100000000000000)) (Some (127 # 100)) (Some (233982330523275 # 100000000000000)) (Some (772279141277467 # 100000000000000)) (Some (526421015152458 # 100000000000000)) (Some (-186 # 100)) (Some (756895530041564 # 100000000000000)) (Some (462652537599207 # 1000000000000000)) (Some (36704972533063 # 10000000000000)) (Some (-798422813687821 # 100000000000000000)) (Some (-782735325026146 # 1000000000000000)) (Some (295165558422504 # 10000000000000000)) (Some (-2 # 10)) (Some (114241099090833 # 1000000000000000)) (Some (364 # 10000000)) (Some (709376662125674 # 100000000000000000)) (Some (528694704045582 # 10000000000000000)) (Some (-119009622548205 # 10000000000000000)) (354090866311372 # 1000000000000000) (312467388270035 # 1000000000000000) (393620930751709 # 1000000000000000) (349121373953667 # 1000000000000000) (464127844893118 # 1000000000000000) (387684367527347 # 1000000000000000) (200122513948675 # 1000000000000000) (-226273034896585 # 1000000000000000) (-743576118804754 # 100000000000000000);
  Mk_ba19_row (2818383 # 1000000) (Some (-332160206721573 # 100000000000000)) (Some (127 # 100)) (Some (23317030430501 # 10000000000000)) (Some (790661732238492 # 100000000000000)) (Some (525847827152361 # 100000000000000)) (Some (-186 # 100)) (Some (756787476282381 # 100000000000000)) (Some (463116768564586 # 1000000000000000)) (Some (3664790414025 # 1000000000000)) (Some (-809544342628393 # 100000000000000000)) (Some (-771809599472843 # 1000000000000000)) (Some (300623690825755 # 10000000000000000)) (Some (-2 # 10)) (Some (11437381289322 # 100000000000000)) (Some (-168814425770514 # 100000000000000000)) (Some (384900929811555 # 100000000000000000)) (Some (493706156049344 # 10000000000000000)) (Some (-104937643548246 # 10000000000000000)) (353137623412887 # 1000000000000000) (31253049770505 # 100000000000000) (393281971166136 # 1000000000000000) (348278044927566 # 1000000000000000) (465479084574553 # 1000000000000000) (387108572595829 # 1000000000000000) (200029825928162 # 1000000000000000) (-23450849677575 # 100000000000000) (-724123746018108 # 100000000000000000);
  Mk_ba19_row (2884031 # 1000000) (Some (-33192819513915 # 10000000000000)) (Some (127 # 100)) (Some (232355662012639 # 100000000000000)) (Some (809642697264419 # 100000000000000)) (Some (525297819080036 # 100000000000000)) (Some (-186 # 100)) (Some (756679424257952 # 100000000000000)) (Some (463580992076947 # 1000000000000000)) (Some (365908366636443 # 100000000000000)) (Some (-820754500418892 # 100000000000000000)) (Some (-760782226564136 # 1000000000000000)) (Some (30598446596266 # 1000000000000000)) (Some (-2 # 10)) (Some (114527230607561 # 1000000000000000)) (Some (-335808760500213 # 100000000000000000)) (Some (623133765546023 # 1000000000000000000)) (Some (458131352089658 # 10000000000000000)) (Some (-907289421945601 # 100000000000000000)) (352352600490823 # 1000000000000000) (312733978993868 # 1000000000000000) (392990546791692 # 1000000000000000) (347526037016939 # 1000000000000000) (466828912884612 # 1000000000000000) (386538780043392 # 1000000000000000) (200003375054025 # 1000000000000000) (-242930016307596 # 1000000000000000) (-705243020255949 # 100000000000000000);
  Mk_ba19_row (2951209 # 1000000) (Some (-33171191218619 # 10000000000000)) (Some (127 # 100)) (Some (231535452165241 # 100000000000000)) (Some (829203219793006 # 100000000000000)) (Some (524770571151703 # 100000000000000)) (Some (-186 # 100)) (Some (756571370842196 # 100000000000000)) (Some (464045221566861 # 1000000000000000)) (Some (365337684522117 # 100000000000000)) (Some (-832049981191367 # 100000000000000000)) (Some (-749662749301971 # 1000000000000000)) (Some (311246845084395 # 10000000000000000)) (Some (-2 # 10)) (Some (114689938972277 # 1000000000000000)) (Some (-497686857756513 # 100000000000000000)) (Some (-258397314092473 # 100000000000000000)) (Some (422009513641236 # 10000000000000000)) (Some (-766086541533317 # 100000000000000000)) (351734434448376 # 1000000000000000) (313083903987558 # 1000000000000000) (392762429017375 # 1000000000000000) (346863617521699 # 1000000000000000) (468174228625255 # 1000000000000000) (385974337245533 # 1000000000000000) (2 # 10) (-251511437358201 # 1000000000000000) (-686970956228305 # 100000000000000000);
  Mk_ba19_row (3019952 # 1000000) (Some (-331515610127673 # 100000000000000)) (Some (127 # 100)) (Some (230706007323993 # 100000000000000)) (Some (849311256438399 # 100000000000000)) (Some (524265500594419 # 100000000000000)) (Some (-186 # 100)) (Some (756463317089786 # 100000000000000)) (Some (464509452503141 # 1000000000000000)) (Some (36476700062976 # 10000000000000)) (Some (-843427288755867 # 100000000000000000)) (Some (-738462912934837 # 1000000000000000)) (Some (316410447540812 # 10000000000000000)) (Some (-2 # 10)) (Some (114851407890784 # 1000000000000000)) (Some (-654873641813354 # 100000000000000000)) (Some (-577231407121076 # 100000000000000000)) (Some (385385307629974 # 10000000000000000)) (Some (-627987805759789 # 100000000000000000)) (351281451114045 # 1000000000000000) (31358640377003 # 100000000000000) (392612322030753 # 1000000000000000) (346290279024377 # 1000000000000000) (469511852162105 # 1000000000000000) (385414623987592 # 1000000000000000) (2 # 10) (-260227276988216 # 1000000000000000) (-669338822840334 # 100000000000000000);
  Mk_ba19_row (3090296 # 1000000) (Some (-331341671252482 # 100000000000000)) (Some (127 # 100)) (Some (229864244095192 # 100000000000000)) (Some (869932152387642 # 100000000000000)) (Some (523781827159403 # 100000000000000)) (Some (-186 # 100)) (Some (756355263704986 # 100000000000000)) (Some (464973681860061 # 1000000000000000)) (Some (364196318678925 # 100000000000000)) (Some (-854882752819959 # 100000000000000000)) (Some (-727195483780938 # 1000000000000000)) (Some (321475481874924 # 10000000000000000)) (Some (-2 # 10)) (Some (115003021486277 # 1000000000000000)) (Some (-807845434639781 # 100000000000000000)) (Some (-894140798277174 # 100000000000000000)) (Some (348306439861129 # 10000000000000000)) (Some (-495365978042184 # 100000000000000000)) (350991684661321 # 1000000000000000) (314247823480568 # 1000000000000000) (392553652152488 # 1000000000000000) (345807078059033 # 1000000000000000) (47083855482931 # 100000000000000) (384859074107369 # 1000000000000000) (2 # 10) (-269053506888152 # 1000000000000000) (-652372977066963 # 100000000000000000);
  Mk_ba19_row (3162278 # 1000000) (Some (-331190437221493 # 100000000000000)) (Some (127 # 100)) (Some (22900929507098 # 10000000000000)) (Some (891044376363467 # 100000000000000)) (Some (523318532716004 # 100000000000000)) (Some (-186 # 100)) (Some (756247211104906 # 100000000000000)) (Some (46543790784559 # 100000000000000)) (Some (363625640872576 # 100000000000000)) (Some (-866412553903669 # 100000000000000000)) (Some (-715873759142178 # 1000000000000000)) (Some (326442673775431 # 10000000000000000)) (Some (-2 # 10)) (Some (115137089601458 # 1000000000000000)) (Some (-957096042863944 # 100000000000000000)) (Some (-120900767988165 # 10000000000000000)) (Some (31082339023166 # 1000000000000000)) (Some (-369611446963924 # 100000000000000000)) (350862893435941 # 1000000000000000) (315074084769492 # 1000000000000000) (392598411371545 # 1000000000000000) (345416854938847 # 1000000000000000) (472151089094675 # 1000000000000000) (384307197621721 # 1000000000000000) (2 # 10) (-277968571230485 # 1000000000000000) (-636093458485681 # 100000000000000000);
  Mk_ba19_row (3235937 # 1000000) (Some (-33106148430504 # 10000000000000)) (Some (127 # 100)) (Some (22814161076179 # 10000000000000)) (Some (912635269518465 # 100000000000000)) (Some (522874411164133 # 100000000000000)) (Some (-186 # 100)) (Some (756139158027079 # 100000000000000)) (Some (465902135883661 # 1000000000000000)) (Some (363054960543017 # 100000000000000)) (Some (-878012756048496 # 100000000000000000)) (Some (-704509654393571 # 1000000000000000)) (Some (331313197618908 # 10000000000000000)) (Some (-2 # 10)) (Some (115247424062827 # 1000000000000000)) (Some (-11031213974094 # 1000000000000000)) (Some (-152163498209031 # 10000000000000000)) (Some (272987762769305 # 10000000000000000)) (Some (-252155787302577 # 100000000000000000)) (350892572956238 # 1000000000000000) (316070545518718 # 1000000000000000) (392757055292644 # 1000000000000000) (34512426462657 # 100000000000000) (473446219351432 # 1000000000000000) (383758602025521 # 1000000000000000) (2 # 10) (-286955547610538 # 1000000000000000) (-620511743923772 # 100000000000000000);
  Mk_ba19_row (3311311 # 1000000) (Some (-330954013366582 # 100000000000000)) (Some (127 # 100)) (Some (227262068013297 # 100000000000000)) (Some (934695324395151 # 100000000000000)) (Some (522448142019352 # 100000000000000)) (Some (-186 # 100)) (Some (756031105998594 # 100000000000000)) (Some (466366359413446 # 1000000000000000)) (Some (362484285755539 # 100000000000000)) (Some (-889679345424574 # 100000000000000000)) (Some (-693113775601286 # 1000000000000000)) (Some (336088617278451 # 10000000000000000)) (Some (-2 # 10)) (Some (115329840171157 # 1000000000000000)) (Some (-124638235787828 # 10000000000000000)) (Some (-183175054367555 # 10000000000000000)) (Some (234850705562734 # 10000000000000000)) (Some (-146391222478437 # 100000000000000000)) (351077967481944 # 1000000000000000) (317241670599287 # 1000000000000000) (393038450826573 # 1000000000000000) (344935530766125 # 1000000000000000) (474720753142951 # 1000000000000000) (383213011410484 # 1000000000000000) (2 # 10) (-296005463568138 # 1000000000000000) (-605628945592832 # 100000000000000000);
  Mk_ba19_row (33884413 # 10000000) (Some (-33086757509079 # 10000000000000)) (Some (127 # 100)) (Some (226372431215886 # 100000000000000)) (Some (957223649912446 # 100000000000000)) (Some (522038392377443 # 100000000000000)) (Some (-186 # 100)) (Some (755834518302076 # 100000000000000)) (Some (466868736392112 # 1000000000000000)) (Some (361882912471789 # 100000000000000)) (Some (-901408272157703 # 100000000000000000)) (Some (-681695869625126 # 1000000000000000)) (Some (340770839725698 # 10000000000000000)) (Some (-2 # 10)) (Some (115382290222012 # 1000000000000000)) (Some (-13872943668856 # 1000000000000000)) (Some (-213899512179765 # 10000000000000000)) (Some (196461340221178 # 10000000000000000)) (Some (-560678946342375 # 1000000000000000000)) (351416081749516 # 1000000000000000) (318590354532175 # 1000000000000000) (393449865963423 # 1000000000000000) (34485781391574 # 100000000000000) (47597157241463 # 100000000000000) (382670282265121 # 1000000000000000) (2 # 10) (-305119883616513 # 1000000000000000) (-591435020343727 # 100000000000000000);
  Mk_ba19_row (34673681 # 10000000) (Some (-330802821837892 # 100000000000000)) (Some (127 # 100)) (Some (225476744192587 # 100000000000000)) (Some (980243198385238 # 100000000000000)) (Some (52164395692045 # 10000000000000)) (Some (-186 # 100)) (Some (755602140443244 # 100000000000000)) (Some (467386534881901 # 1000000000000000)) (Some (361269131822918 # 100000000000000)) (Some (-913195492275588 # 100000000000000000)) (Some (-670262934427017 # 1000000000000000)) (Some (345362082335955 # 10000000000000000)) (Some (-2 # 10)) (Some (115403685543637 # 1000000000000000)) (Some (-152623656133703 # 10000000000000000)) (Some (-244293567552205 # 10000000000000000)) (Some (157868140765905 # 10000000000000000)) (Some (160017102345922 # 1000000000000000000)) (351903694086969 # 1000000000000000) (320117818362707 # 1000000000000000) (393996993298045 # 1000000000000000) (344898060535342 # 1000000000000000) (477195664233908 # 1000000000000000) (382130415035727 # 1000000000000000) (2 # 10) (-314311768356234 # 1000000000000000) (-577908771239088 # 100000000000000000);
  Mk_ba19_row (3548134 # 1000000) (Some (-330761478933239 # 100000000000000)) (Some (127 # 100)) (Some (224579899041122 # 100000000000000)) (Some (100378941983334 # 10000000000000)) (Some (521263943085665 # 100000000000000)) (Some (-186 # 100)) (Some (755369760701896 # 100000000000000)) (Some (467904337566427 # 1000000000000000)) (Some (360655346201747 # 100000000000000)) (Some (-9250370066723 # 1000000000000000)) (Some (-658818863441884 # 1000000000000000)) (Some (349864852405533 # 10000000000000000)) (Some (-2 # 10)) (Some (115392639854131 # 1000000000000000)) (Some (-166350029169917 # 10000000000000000)) (Some (-274311678088513 # 10000000000000000)) (Some (119120409641584 # 10000000000000000)) (Some (679464616969217 # 1000000000000000000)) (352537371622138 # 1000000000000000) (321824432335907 # 1000000000000000) (394684000247103 # 1000000000000000) (345061171433541 # 1000000000000000) (478390150597999 # 1000000000000000) (381593560664687 # 1000000000000000) (2 # 10) (-323602902145615 # 1000000000000000) (-565018779859389 # 100000000000000000);
  Mk_ba19_row (363078 # 100000) (Some (-330745792778544 # 100000000000000)) (Some (127 # 100)) (Some (223685726716618 # 100000000000000)) (Some (102789082994045 # 10000000000000)) (Some (520897737051885 # 100000000000000)) (Some (-186 # 100)) (Some (755137384272798 # 100000000000000)) (Some (468422132870396 # 1000000000000000)) (Some (360041569329238 # 100000000000000)) (Some (-936928894373683 # 100000000000000000)) (Some (-647365630529996 # 1000000000000000)) (Some (354281935678661 # 10000000000000000)) (Some (-2 # 10)) (Some (115347454907089 # 1000000000000000)) (Some (-179922546071574 # 10000000000000000)) (Some (-303914172387683 # 10000000000000000)) (Some (802661667278565 # 100000000000000000)) (Some (98958730427734 # 100000000000000000)) (353313488024087 # 1000000000000000) (3237100786592 # 10000000000000) (395513601412524 # 1000000000000000) (345348477917028 # 1000000000000000) (479552317176564 # 1000000000000000) (381060021523843 # 1000000000000000) (2 # 10) (-333020847134577 # 1000000000000000) (-552724749620599 # 100000000000000000);
  Mk_ba19_row (3715352 # 1000000) (Some (-330759139261871 # 100000000000000)) (Some (127 # 100)) (Some (222795577772878 # 100000000000000)) (Some (105255065884991 # 10000000000000)) (Some (520544853534925 # 100000000000000)) (Some (-186 # 100)) (Some (754905005283075 # 100000000000000)) (Some (468939933880104 # 1000000000000000)) (Some (35942778569334 # 10000000000000)) (Some (-948867338009871 # 100000000000000000)) (Some (-63590408663418 # 100000000000000)) (Some (358616389800059 # 10000000000000000)) (Some (-2 # 10)) (Some (115266641784371 # 1000000000000000)) (Some (-193342342424606 # 10000000000000000)) (Some (-333071181076749 # 10000000000000000)) (Some (413505309642576 # 100000000000000000)) (Some (110315732522803 # 100000000000000000)) (354228244247661 # 1000000000000000) (325773607995848 # 1000000000000000) (39648715101325 # 100000000000000) (34576015231911 # 100000000000000) (480679640893443 # 1000000000000000) (380530246531093 # 1000000000000000) (2 # 10) (-342596459872154 # 1000000000000000) (-540979223226892 # 100000000000000000);
  Mk_ba19_row (38018932 # 10000000) (Some (-330806150821474 # 100000000000000)) (Some (127 # 100)) (Some (221909469530202 # 100000000000000)) (Some (107775409727779 # 10000000000000)) (Some (520204807284075 # 100000000000000)) (Some (-186 # 100)) (Some (754672628260909 # 100000000000000)) (Some (469457730505584 # 1000000000000000)) (Some (358814007254357 # 100000000000000)) (Some (-960848640080235 # 100000000000000000)) (Some (-62443434462548 # 100000000000000)) (Some (362871538474612 # 10000000000000000)) (Some (-2 # 10)) (Some (115148773673813 # 1000000000000000)) (Some (-206602462862809 # 10000000000000000)) (Some (-361762405114143 # 10000000000000000)) (Some (241439803818151 # 1000000000000000000)) (Some (105528106992914 # 100000000000000000)) (355277692738061 # 1000000000000000) (328012654447126 # 1000000000000000) (397604754812362 # 1000000000000000) (346296087826952 # 1000000000000000) (481769816216666 # 1000000000000000) (38000482075134 # 100000000000000) (2 # 10) (-352361675391815 # 1000000000000000) (-529729851266758 # 100000000000000000);
  Mk_ba19_row (3890451 # 1000000) (Some (-330891105008688 # 100000000000000)) (Some (127 # 100)) (Some (221026339138575 # 100000000000000)) (Some (110346724718558 # 10000000000000)) (Some (51987709958134 # 10000000000000)) (Some (-186 # 100)) (Some (754440249144459 # 100000000000000)) (Some (469975531797672 # 1000000000000000)) (Some (358200223283735 # 100000000000000)) (Some (-972869229205346 # 100000000000000000)) (Some (-612955569883525 # 1000000000000000)) (Some (367050962484982 # 10000000000000000)) (Some (-2 # 10)) (Some (114993073210202 # 1000000000000000)) (Some (-219693362890299 # 10000000000000000)) (Some (-389974826848123 # 10000000000000000)) (Some (-365045681544707 # 100000000000000000)) (Some (890165488501626 # 1000000000000000000)) (356457765417834 # 1000000000000000) (330423879646121 # 1000000000000000) (398865400886908 # 1000000000000000) (346955938191951 # 1000000000000000) (48282078015551 # 100000000000000) (37948445024157 # 100000000000000) (2 # 10) (-362347586304573 # 1000000000000000) (-51892190917924 # 10000000000000000);
  Mk_ba19_row (3981071 # 1000000) (Some (-331016811661773 # 100000000000000)) (Some (127 # 100)) (Some (220144419708277 # 100000000000000)) (Some (112963825436495 # 10000000000000)) (Some (519561035601182 # 100000000000000)) (Some (-186 # 100)) (Some (754207871508108 # 100000000000000)) (Some (470493329791715 # 1000000000000000)) (Some (357586443222503 # 100000000000000)) (Some (-984925656058898 # 100000000000000000)) (Some (-60146558772025 # 100000000000000)) (Some (371158484237831 # 10000000000000000)) (Some (-2 # 10)) (Some (11480032835617 # 100000000000000)) (Some (-23260626710009 # 1000000000000000)) (Some (-417700744814282 # 10000000000000000)) (Some (-75368694576008 # 10000000000000000)) (Some (662737999619356 # 1000000000000000000)) (357764305778321 # 1000000000000000) (333002961692411 # 1000000000000000) (400267107590156 # 1000000000000000) (347739161279333 # 1000000000000000) (483830736099456 # 1000000000000000) (378969943236187 # 1000000000000000) (2 # 10) (-372583164155553 # 1000000000000000) (-508499967251046 # 100000000000000000);
  Mk_ba19_row (4073803 # 1000000) (Some (-331184058682357 # 100000000000000)) (Some (127 # 100)) (Some (2192625695975 # 1000000000000)) (Some (115621170863698 # 10000000000000)) (Some (519255814006572 # 100000000000000)) (Some (-186 # 100)) (Some (753796221867378 # 100000000000000)) (Some (471001466858074 # 1000000000000000)) (Some (35696840792889 # 10000000000000)) (Some (-99701457906973 # 10000000000000000)) (Some (-58996074404082 # 100000000000000)) (Some (375198142958686 # 10000000000000000)) (Some (-2 # 10)) (Some (11457346844004 # 100000000000000)) (Some (-245336960016737 # 10000000000000000)) (Some (-444937864553224 # 10000000000000000)) (Some (-114140138923121 # 10000000000000000)) (Some (431437476479779 # 1000000000000000000)) (359193105392867 # 1000000000000000) (335744242317926 # 1000000000000000) (401807086349681 # 1000000000000000) (348645063421155 # 1000000000000000) (484798176807247 # 1000000000000000) (378462189092163 # 1000000000000000) (2 # 10) (-383094450994685 # 1000000000000000) (-498408503254161 # 100000000000000000);
  Mk_ba19_row (4168694 # 1000000) (Some (-331392747808984 # 100000000000000)) (Some (127 # 100)) (Some (218380578661026 # 100000000000000)) (Some (118313373577596 # 10000000000000)) (Some (518960558321988 # 100000000000000)) (Some (-186 # 100)) (Some (753338065171071 # 100000000000000)) (Some (471507090239134 # 1000000000000000)) (Some (356349277258204 # 100000000000000)) (Some (-10091327403172 # 1000000000000000)) (Some (-578436776188351 # 1000000000000000)) (Some (379174158244362 # 10000000000000000)) (Some (-2 # 10)) (Some (114317492835002 # 1000000000000000)) (Some (-257889558914765 # 10000000000000000)) (Some (-471688431818191 # 10000000000000000)) (Some (-152781579864998 # 10000000000000000)) (Some (23945041300566 # 100000000000000000)) (360739944707695 # 1000000000000000) (338640547841668 # 1000000000000000) (403481916621311 # 1000000000000000) (349672846437857 # 1000000000000000) (485721907047629 # 1000000000000000) (377962136717468 # 1000000000000000) (2 # 10) (-39390353534887 # 100000000000000) (-488593294776172 # 100000000000000000);
  Mk_ba19_row (42657952 # 10000000) (Some (-331643135728804 # 100000000000000)) (Some (127 # 100)) (Some (217498966513346 # 100000000000000)) (Some (121035185058029 # 10000000000000)) (Some (518674245986194 # 100000000000000)) (Some (-186 # 100)) (Some (752879908912708 # 100000000000000)) (Some (472012713136877 # 1000000000000000)) (Some (355730147179335 # 100000000000000)) (Some (-102127693236378 # 10000000000000000)) (Some (-566889173621552 # 1000000000000000)) (Some (383090880849396 # 10000000000000000)) (Some (-2 # 10)) (Some (114038876112501 # 1000000000000000)) (Some (-27027422373722 # 1000000000000000)) (Some (-49795716284542 # 1000000000000000)) (Some (-1912548284066 # 100000000000000)) (Some (108065283517256 # 1000000000000000000)) (362400637012185 # 1000000000000000) (341683009150622 # 1000000000000000) (405287729989713 # 1000000000000000) (350821680536427 # 1000000000000000) (486601066357723 # 1000000000000000) (377470774369434 # 1000000000000000) (2 # 10) (-405027494293331 # 1000000000000000) (-47900351199529 # 10000000000000000);
  Mk_ba19_row (4365158 # 1000000) (Some (-331935891558224 # 100000000000000)) (Some (127 # 100)) (Some (216619084747281 # 100000000000000)) (Some (123781896636482 # 10000000000000)) (Some (518395735737125 # 100000000000000)) (Some (-186 # 100)) (Some (752421753446757 # 100000000000000)) (Some (47251833516011 # 100000000000000)) (Some (355111018171294 # 100000000000000)) (Some (-103344395711599 # 10000000000000000)) (Some (-555313205450506 # 1000000000000000)) (Some (386952731466342 # 10000000000000000)) (Some (-2 # 10)) (Some (113744465219032 # 1000000000000000)) (Some (-282506280817857 # 10000000000000000)) (Some (-523748520491852 # 10000000000000000)) (Some (-22951779923642 # 1000000000000000)) (Some (372 # 10000000)) (364171073771912 # 1000000000000000) (34486221340871 # 100000000000000) (407220400434026 # 1000000000000000) (35209078627685 # 100000000000000) (487435152185455 # 1000000000000000) (376989112546557 # 1000000000000000) (2 # 10) (-416477503795558 # 1000000000000000) (-469593691866485 # 100000000000000000);
  Mk_ba19_row (44668354 # 10000000) (Some (-332272405261554 # 100000000000000)) (Some (127 # 100)) (Some (215741800133166 # 100000000000000)) (Some (126547745336877 # 10000000000000)) (Some (518123829505969 # 100000000000000)) (Some (-186 # 100)) (Some (751963597308793 # 100000000000000)) (Some (473023957924981 # 1000000000000000)) (Some (354491888255126 # 100000000000000)) (Some (-104563057818829 # 10000000000000000)) (Some (-543704031633067 # 1000000000000000)) (Some (390764130491647 # 10000000000000000)) (Some (-2 # 10)) (Some (113439551779151 # 1000000000000000)) (Some (-294601935633744 # 10000000000000000)) (Some (-549069056628599 # 10000000000000000)) (Some (-267526429863388 # 10000000000000000)) (Some (865 # 100000000)) (366047269285945 # 1000000000000000) (348169114649021 # 1000000000000000) (409275738004538 # 1000000000000000) (353479504384218 # 1000000000000000) (488224043601429 # 1000000000000000) (376518171199572 # 1000000000000000) (2 # 10) (-428258550839497 # 1000000000000000) (-46032441243251 # 10000000000000000);
  Mk_ba19_row (45708813 # 10000000) (Some (-332654151608979 # 100000000000000)) (Some (127 # 100)) (Some (214866716674599 # 100000000000000)) (Some (129324714318891 # 10000000000000)) (Some (517857295757195 # 100000000000000)) (Some (-186 # 100)) (Some (751505440589387 # 100000000000000)) (Some (473529581331532 # 1000000000000000)) (Some (353872757553226 # 100000000000000)) (Some (-105783346861986 # 10000000000000000)) (Some (-53205615986573 # 100000000000000)) (Some (394529423797542 # 10000000000000000)) (Some (-2 # 10)) (Some (11312652397716 # 100000000000000)) (Some (-306575456034122 # 10000000000000000)) (Some (-573928891389147 # 10000000000000000)) (Some (-305237314878453 # 10000000000000000)) (Some (959 # 1000000000)) (368025402673189 # 1000000000000000) (351594847579581 # 1000000000000000) (411449682215994 # 1000000000000000) (354987341145331 # 1000000000000000) (488968025556302 # 1000000000000000) (376058972015729 # 1000000000000000) (2 # 10) (-440369574479055 # 1000000000000000) (-451161987931059 # 100000000000000000);
  Mk_ba19_row (4677351 # 1000000) (Some (-33308348304258 # 10000000000000)) (Some (127 # 100)) (Some (213993519685016 # 100000000000000)) (Some (132104262350815 # 10000000000000)) (Some (517594776344486 # 100000000000000)) (Some (-186 # 100)) (Some (751047282759216 # 100000000000000)) (Some (474035205963928 # 1000000000000000)) (Some (353253625350292 # 100000000000000)) (Some (-107004915605821 # 10000000000000000)) (Some (-520363728624057 # 1000000000000000)) (Some (398252810875029 # 10000000000000000)) (Some (-2 # 10)) (Some (11280511229549 # 100000000000000)) (Some (-318437612907095 # 10000000000000000)) (Some (-598339757801668 # 10000000000000000)) (Some (-342612859119361 # 10000000000000000)) (Some (0 # 1)) (370101854997063 # 1000000000000000) (35513026954156 # 100000000000000) (413738490403567 # 1000000000000000) (356613984911645 # 1000000000000000) (489667813014039 # 1000000000000000) (37561253619936 # 100000000000000) (2 # 10) (-452803898346332 # 1000000000000000) (-442077435400549 # 100000000000000000);
  Mk_ba19_row (47863001 # 10000000) (Some (-333563526217685 # 100000000000000)) (Some (127 # 100)) (Some (213123618805233 # 100000000000000)) (Some (134879827132077 # 10000000000000)) (Some (517334783388071 # 100000000000000)) (Some (-186 # 100)) (Some (750589127433715 # 100000000000000)) (Some (474540827832162 # 1000000000000000)) (Some (352634496532047 # 100000000000000)) (Some (-108227396761541 # 10000000000000000)) (Some (-508620140554 # 1000000000000)) (Some (401938281950167 # 10000000000000000)) (Some (-2 # 10)) (Some (112472762920065 # 1000000000000000)) (Some (-330194725295565 # 10000000000000000)) (Some (-622314599137957 # 10000000000000000)) (Some (-379622867240172 # 10000000000000000)) (Some (0 # 1)) (372273239039265 # 1000000000000000) (358765988201165 # 1000000000000000) (416138916185391 # 1000000000000000) (358359294548818 # 1000000000000000) (490324573628899 # 1000000000000000) (375179887875773 # 1000000000000000) (2 # 10) (-465550092898447 # 1000000000000000) (-433045059153797 # 100000000000000000);
  Mk_ba19_row (4897787 # 1000000) (Some (-334098028027856 # 100000000000000)) (Some (127 # 100)) (Some (212259998987871 # 100000000000000)) (Some (137646883064915 # 10000000000000)) (Some (517075808958378 # 100000000000000)) (Some (-186 # 100)) (Some (75013097186938 # 10000000000000)) (Some (475046449963972 # 1000000000000000)) (Some (352015367391054 # 100000000000000)) (Some (-109450397655575 # 10000000000000000)) (Some (-496817616591713 # 1000000000000000)) (Some (405589569508342 # 10000000000000000)) (Some (-2 # 10)) (Some (112125607648773 # 1000000000000000)) (Some (-34184579428429 # 1000000000000000)) (Some (-645868145417273 # 10000000000000000)) (Some (-416243830448688 # 10000000000000000)) (Some (0 # 1)) (37453641929717 # 100000000000000) (362492612651845 # 1000000000000000) (418648373126872 # 1000000000000000) (360223263835462 # 1000000000000000) (490939947441857 # 1000000000000000) (374762062960042 # 1000000000000000) (2 # 10) (-478593200690903 # 1000000000000000) (-424041951203545 # 100000000000000000);
  Mk_ba19_row (5011872 # 1000000) (Some (-334690044248409 # 100000000000000)) (Some (127 # 100)) (Some (211406938673267 # 100000000000000)) (Some (140402772783557 # 10000000000000)) (Some (516816457944455 # 100000000000000)) (Some (-186 # 100)) (Some (749631422475935 # 100000000000000)) (Some (475546696553049 # 1000000000000000)) (Some (351393165558448 # 100000000000000)) (Some (-110673495286781 # 10000000000000000)) (Some (-484947178274669 # 1000000000000000)) (Some (409210117164322 # 10000000000000000)) (Some (-2 # 10)) (Some (111759269098428 # 1000000000000000)) (Some (-35338334032068 # 1000000000000000)) (Some (-669018450732879 # 10000000000000000)) (Some (-452452682915134 # 10000000000000000)) (Some (0 # 1)) (376888520150048 # 1000000000000000) (366300771743818 # 1000000000000000) (421265078797039 # 1000000000000000) (362205967375636 # 1000000000000000) (491516062258695 # 1000000000000000) (374360122819967 # 1000000000000000) (2 # 10) (-491916040743114 # 1000000000000000) (-415047862777596 # 100000000000000000);
  Mk_ba19_row (5128613 # 1000000) (Some (-335342543657907 # 100000000000000)) (Some (127 # 100)) (Some (210570193147933 # 100000000000000)) (Some (143147337917955 # 10000000000000)) (Some (516555325212544 # 100000000000000)) (Some (-186 # 100)) (Some (748771422174677 # 100000000000000)) (Some (476000073977106 # 1000000000000000)) (Some (350744269120267 # 100000000000000)) (Some (-111896231963097 # 10000000000000000)) (Some (-47299823941482 # 100000000000000)) (Some (412803065530849 # 10000000000000000)) (Some (-2 # 10)) (Some (111369510148808 # 1000000000000000)) (Some (-364796510416815 # 10000000000000000)) (Some (-691787323685709 # 10000000000000000)) (Some (-488226263082862 # 10000000000000000)) (Some (0 # 1)) (379326918472484 # 1000000000000000) (370181239338124 # 1000000000000000) (423988224767063 # 1000000000000000) (364307494093818 # 1000000000000000) (492055549013194 # 1000000000000000) (373975171543786 # 1000000000000000) (2 # 10) (-505500490107168 # 1000000000000000) (-406044951479006 # 100000000000000000);
  Mk_ba19_row (5248074 # 1000000) (Some (-336057526909936 # 100000000000000)) (Some (127 # 100)) (Some (20975601623707 # 10000000000000)) (Some (1458816711219 # 100000000000)) (Some (51629098978756 # 10000000000000)) (Some (-186 # 100)) (Some (747911416433786 # 100000000000000)) (Some (476453454268845 # 1000000000000000)) (Some (350095368577716 # 100000000000000)) (Some (-113118111685564 # 10000000000000000)) (Some (-460959932428522 # 1000000000000000)) (Some (416371251509589 # 10000000000000000)) (Some (-2 # 10)) (Some (110953881321753 # 1000000000000000)) (Some (-376074540233712 # 10000000000000000)) (Some (-714198188872079 # 10000000000000000)) (Some (-523545359798759 # 10000000000000000)) (Some (0 # 1)) (381849212858543 # 1000000000000000) (374125334470028 # 1000000000000000) (426818273080168 # 1000000000000000) (366527874177507 # 1000000000000000) (492561566909499 # 1000000000000000) (37360837597014 # 100000000000000) (2 # 10) (-51932825281924 # 100000000000000) (-39701770731954 # 10000000000000000);
  Mk_ba19_row (53703184 # 10000000) (Some (-336837562959149 # 100000000000000)) (Some (127 # 100)) (Some (208969888925073 # 100000000000000)) (Some (14860615497453 # 1000000000000)) (Some (516022081202662 # 100000000000000)) (Some (-186 # 100)) (Some (747051405199551 # 100000000000000)) (Some (476906837456579 # 1000000000000000)) (Some (349446463890271 # 100000000000000)) (Some (-114338597408164 # 10000000000000000)) (Some (-448822314685949 # 1000000000000000)) (Some (419917215084255 # 10000000000000000)) (Some (-2 # 10)) (Some (110511832540285 # 1000000000000000)) (Some (-387207875436233 # 10000000000000000)) (Some (-736273438475771 # 10000000000000000)) (Some (-558397429537673 # 10000000000000000)) (Some (0 # 1)) (384453172980109 # 1000000000000000) (378125225813266 # 1000000000000000) (42975713641078 # 100000000000000) (36886700467176 # 100000000000000) (493037809544616 # 1000000000000000) (373260988251794 # 1000000000000000) (2 # 10) (-533379921459724 # 1000000000000000) (-387954059365934 # 100000000000000000);
  Mk_ba19_row (5495409 # 1000000) (Some (-33768633386731 # 10000000000000)) (Some (127 # 100)) (Some (208215320871504 # 100000000000000)) (Some (151318326541597 # 10000000000000)) (Some (515747273413308 # 100000000000000)) (Some (-186 # 100)) (Some (746191402545134 # 100000000000000)) (Some (477360216121182 # 1000000000000000)) (Some (348797565676559 # 100000000000000)) (Some (-115557109242281 # 10000000000000000)) (Some (-43657746363441 # 100000000000000)) (Some (423443206745604 # 10000000000000000)) (Some (-2 # 10)) (Some (110043290596031 # 1000000000000000)) (Some (-398192686553784 # 10000000000000000)) (Some (-758033176941652 # 10000000000000000)) (Some (-592773952064086 # 10000000000000000)) (Some (0 # 1)) (387136677576825 # 1000000000000000) (382173463548838 # 1000000000000000) (432808170564891 # 1000000000000000) (371324577940372 # 1000000000000000) (493488485576135 # 1000000000000000) (372934369567693 # 1000000000000000) (2 # 10) (-54763345499562 # 100000000000000) (-378846534907259 # 100000000000000000);
  Mk_ba19_row (5623413 # 1000000) (Some (-338606480147318 # 100000000000000)) (Some (127 # 100)) (Some (207493965939757 # 100000000000000)) (Some (154012917342605 # 10000000000000)) (Some (515465302572064 # 100000000000000)) (Some (-186 # 100)) (Some (74533140208297 # 10000000000000)) (Some (477813593630065 # 1000000000000000)) (Some (348148669116969 # 100000000000000)) (Some (-116773023597458 # 10000000000000000)) (Some (-424219563520477 # 1000000000000000)) (Some (426951189230343 # 10000000000000000)) (Some (-2 # 10)) (Some (109547591001129 # 1000000000000000)) (Some (-409036185587809 # 10000000000000000)) (Some (-779496438438407 # 10000000000000000)) (Some (-626667089326508 # 10000000000000000)) (Some (0 # 1)) (389897649813103 # 1000000000000000) (386263238886577 # 1000000000000000) (435976007509315 # 1000000000000000) (373900016167373 # 1000000000000000) (493918278004103 # 1000000000000000) (372630012523329 # 1000000000000000) (2 # 10) (-562062787045987 # 1000000000000000) (-36969220032491 # 10000000000000000);
  Mk_ba19_row (57543992 # 10000000) (Some (-339599090904505 # 100000000000000)) (Some (127 # 100)) (Some (206805865281403 # 100000000000000)) (Some (156682157977268 # 10000000000000)) (Some (515174979153927 # 100000000000000)) (Some (-186 # 100)) (Some (744471397623151 # 100000000000000)) (Some (478266973246444 # 1000000000000000)) (Some (347499769541027 # 100000000000000)) (Some (-117985673164217 # 10000000000000000)) (Some (-411744493099356 # 1000000000000000)) (Some (430442829062466 # 10000000000000000)) (Some (-2 # 10)) (Some (109022301652067 # 1000000000000000)) (Some (-419757356625087 # 10000000000000000)) (Some (-80068253410302 # 1000000000000000)) (Some (-660068167000807 # 10000000000000000)) (Some (0 # 1)) (392733996764758 # 1000000000000000) (390388830558026 # 1000000000000000) (43926628043522 # 100000000000000) (37659241412061 # 100000000000000) (494332287768857 # 1000000000000000) (372349559820392 # 1000000000000000) (2 # 10) (-576636520241944 # 1000000000000000) (-36049208011221 # 10000000000000000);
  Mk_ba19_row (58884363 # 10000000) (Some (-340665346460496 # 100000000000000)) (Some (127 # 100)) (Some (206149314931834 # 100000000000000)) (Some (159315348104845 # 10000000000000)) (Some (514875247886995 # 100000000000000)) (Some (-186 # 100)) (Some (743588558139214 # 100000000000000)) (Some (478717342460706 # 1000000000000000)) (Some (346847957739267 # 100000000000000)) (Some (-11919434756334 # 1000000000000000)) (Some (-399149772655579 # 1000000000000000)) (Some (433919475911614 # 10000000000000000)) (Some (-2 # 10)) (Some (108463805236309 # 1000000000000000)) (Some (-430380556401431 # 10000000000000000)) (Some (-821609523225151 # 10000000000000000)) (Some (-692969112824605 # 10000000000000000)) (Some (0 # 1)) (395643557239577 # 1000000000000000) (394545197554159 # 1000000000000000) (442685293665733 # 1000000000000000) (379400491575434 # 1000000000000000) (494735967383496 # 1000000000000000) (37209481743645 # 100000000000000) (2 # 10) (-591317423520608 # 1000000000000000) (-351250683076076 # 100000000000000000);
  Mk_ba19_row (6025596 # 1000000) (Some (-341806250024325 # 100000000000000)) (Some (127 # 100)) (Some (205520864785324 # 100000000000000)) (Some (16189859582502 # 1000000000000)) (Some (514565247971619 # 100000000000000)) (Some (-186 # 100)) (Some (74221984192463 # 10000000000000)) (Some (479103673650306 # 1000000000000000)) (Some (346134164874673 # 100000000000000)) (Some (-12039829442362 # 1000000000000000)) (Some (-386434708818192 # 1000000000000000)) (Some (437382130394318 # 10000000000000000)) (Some (-2 # 10)) (Some (107868798363621 # 1000000000000000)) (Some (-440931801232139 # 10000000000000000)) (Some (-842290985333537 # 10000000000000000)) (Some (-725363924259303 # 10000000000000000)) (Some (0 # 1)) (398624060019153 # 1000000000000000) (398727370954526 # 1000000000000000) (446239680335806 # 1000000000000000) (382322556063095 # 1000000000000000) (495135049481137 # 1000000000000000) (3718677612688 # 10000000000000) (2 # 10) (-606063102985198 # 1000000000000000) (-341975468569591 # 100000000000000000);
  Mk_ba19_row (61659493 # 10000000) (Some (-343023633373831 # 100000000000000)) (Some (127 # 100)) (Some (204916324698942 # 100000000000000)) (Some (164416632743128 # 10000000000000)) (Some (514244484155313 # 100000000000000)) (Some (-186 # 100)) (Some (740851137944918 # 100000000000000)) (Some (479490001386515 # 1000000000000000)) (Some (345420378390629 # 100000000000000)) (Some (-121596720616454 # 10000000000000000)) (Some (-373600985693354 # 1000000000000000)) (Some (440831403089742 # 10000000000000000)) (Some (-2 # 10)) (Some (107233910523578 # 1000000000000000)) (Some (-451440981734113 # 10000000000000000)) (Some (-86273804701664 # 1000000000000000)) (Some (-757248126510228 # 10000000000000000)) (Some (0 # 1)) (401673093341553 # 1000000000000000) (402929571622711 # 1000000000000000) (449936078829696 # 1000000000000000) (385356476181105 # 1000000000000000) (495535474057105 # 1000000000000000) (3716705368363 # 10000000000000) (2 # 10) (-620827332022647 # 1000000000000000) (-332676198518208 # 100000000000000000);
  Mk_ba19_row (6309573 # 1000000) (Some (-344320280936078 # 100000000000000)) (Some (127 # 100)) (Some (204331109596273 # 100000000000000)) (Some (16685346606371 # 1000000000000)) (Some (513912831904257 # 100000000000000)) (Some (-186 # 100)) (Some (739482422926403 # 100000000000000)) (Some (479876332238515 # 1000000000000000)) (Some (344706586149791 # 100000000000000)) (Some (-122788793373404 # 10000000000000000)) (Some (-36065243850522 # 100000000000000)) (Some (444267468893878 # 10000000000000000)) (Some (-2 # 10)) (Some (106554785394491 # 1000000000000000)) (Some (-461946934802765 # 10000000000000000)) (Some (-88296136614766 # 1000000000000000)) (Some (-788616385537259 # 10000000000000000)) (Some (0 # 1)) (404788085723396 # 1000000000000000) (407145095461708 # 1000000000000000) (453780849063367 # 1000000000000000) (38849966551772 # 100000000000000) (495943317239108 # 1000000000000000) (371505452203263 # 1000000000000000) (2 # 10) (-635562082381167 # 1000000000000000) (-323364211205276 # 100000000000000000);
  Mk_ba19_row (6456542 # 1000000) (Some (-345699640225427 # 100000000000000)) (Some (127 # 100)) (Some (203761123166336 # 100000000000000)) (Some (16919430132407 # 1000000000000)) (Some (51357044022193 # 10000000000000)) (Some (-186 # 100)) (Some (738113709127784 # 100000000000000)) (Some (48026266274619 # 100000000000000)) (Some (343992794545135 # 100000000000000)) (Some (-123973641038308 # 10000000000000000)) (Some (-34759430822664 # 100000000000000)) (Some (447690021467981 # 10000000000000000)) (Some (-2 # 10)) (Some (105825661773386 # 1000000000000000)) (Some (-472495806369438 # 10000000000000000)) (Some (-90296976301492 # 1000000000000000)) (Some (-819460845421171 # 10000000000000000)) (Some (0 # 1)) (407966297553129 # 1000000000000000) (411367037652476 # 1000000000000000) (457779842271533 # 1000000000000000) (391749076852295 # 1000000000000000) (496364723628562 # 1000000000000000) (37137496467305 # 100000000000000) (2 # 10) (-650220108688422 # 1000000000000000) (-314051892075471 # 100000000000000000);
  Mk_ba19_row (6606934 # 1000000) (Some (-347166038436516 # 100000000000000)) (Some (127 # 100)) (Some (203203578549604 # 100000000000000)) (Some (171427558204764 # 10000000000000)) (Some (513217826658968 # 100000000000000)) (Some (-186 # 100)) (Some (736744998492696 # 100000000000000)) (Some (480648992360933 # 1000000000000000)) (Some (343279004590277 # 100000000000000)) (Some (-125150353251346 # 10000000000000000)) (Some (-334432336390825 # 1000000000000000)) (Some (451098232819085 # 10000000000000000)) (Some (-2 # 10)) (Some (105040397824785 # 1000000000000000)) (Some (-48313946998517 # 1000000000000000)) (Some (-922770232010088 # 10000000000000000)) (Some (-849772123607296 # 10000000000000000)) (Some (0 # 1)) (411204822170285 # 1000000000000000) (415587979255253 # 1000000000000000) (461938231928715 # 1000000000000000) (395101206009997 # 1000000000000000) (496805843538447 # 1000000000000000) (371281662002278 # 1000000000000000) (2 # 10) (-664757154293416 # 1000000000000000) (-304752444587413 # 100000000000000000);
  Mk_ba19_row (67608284 # 10000000) (Some (-34872243201209 # 10000000000000)) (Some (127 # 100)) (Some (202656074095446 # 100000000000000)) (Some (173543082913567 # 10000000000000)) (Some (512856002464687 # 100000000000000)) (Some (-186 # 100)) (Some (734771902811086 # 100000000000000)) (Some (480982276304539 # 1000000000000000)) (Some (342438714689816 # 100000000000000)) (Some (-126317980422474 # 10000000000000000)) (Some (-321172306754026 # 1000000000000000)) (Some (454490723230851 # 10000000000000000)) (Some (-2 # 10)) (Some (104192956561244 # 1000000000000000)) (Some (-493930095149986 # 10000000000000000)) (Some (-942369014382347 # 10000000000000000)) (Some (-879539908204754 # 10000000000000000)) (Some (0 # 1)) (414500594646536 # 1000000000000000) (419800472395692 # 1000000000000000) (466260407833155 # 1000000000000000) (398552104577768 # 1000000000000000) (497272775926723 # 1000000000000000) (371228239032844 # 1000000000000000) (2 # 10) (-679132562444214 # 1000000000000000) (-295479884729334 # 100000000000000000);
  Mk_ba19_row (69183082 # 10000000) (Some (-350369721699012 # 100000000000000)) (Some (127 # 100)) (Some (202116545926575 # 100000000000000)) (Some (175532133208403 # 10000000000000)) (Some (512486407789431 # 100000000000000)) (Some (-186 # 100)) (Some (732410951499836 # 100000000000000)) (Some (481281522755703 # 1000000000000000)) (Some (341517241997095 # 100000000000000)) (Some (-12747553242443 # 1000000000000000)) (Some (-307819649035969 # 1000000000000000)) (Some (457865546723169 # 10000000000000000)) (Some (-2 # 10)) (Some (103276915792002 # 1000000000000000)) (Some (-504914167751498 # 10000000000000000)) (Some (-961771579259837 # 10000000000000000)) (Some (-908749450949657 # 10000000000000000)) (Some (0 # 1)) (417850406393826 # 1000000000000000) (423997866563362 # 1000000000000000) (470749929348678 # 1000000000000000) (402097400486617 # 1000000000000000) (497771517485068 # 1000000000000000) (371217470810645 # 1000000000000000) (2 # 10) (-693309381079409 # 1000000000000000) (-286249036194063 # 100000000000000000);
  Mk_ba19_row (70794563 # 10000000) (Some (-352106034097797 # 100000000000000)) (Some (127 # 100)) (Some (201584033558924 # 100000000000000)) (Some (177389258989473 # 10000000000000)) (Some (512110677805385 # 100000000000000)) (Some (-186 # 100)) (Some (730049998347503 # 100000000000000)) (Some (48158076944022 # 100000000000000)) (Some (340595768585804 # 100000000000000)) (Some (-128621976524097 # 10000000000000000)) (Some (-294378705806231 # 1000000000000000)) (Some (46122019659212 # 1000000000000000)) (Some (-2 # 10)) (Some (102286112991882 # 1000000000000000)) (Some (-516129673195398 # 10000000000000000)) (Some (-980978807583117 # 10000000000000000)) (Some (-937378934868677 # 10000000000000000)) (Some (0 # 1)) (421250923911063 # 1000000000000000) (428174300025463 # 1000000000000000) (475409528274745 # 1000000000000000) (405732325292244 # 1000000000000000) (49830791799255 # 100000000000000) (371252183480582 # 1000000000000000) (2 # 10) (-707254650700773 # 1000000000000000) (-277075461334571 # 100000000000000000);
  Mk_ba19_row (724436 # 100000) (Some (-35392743970857 # 10000000000000)) (Some (127 # 100)) (Some (201058619301285 # 100000000000000)) (Some (179112341431023 # 10000000000000)) (Some (511730455490938 # 100000000000000)) (Some (-186 # 100)) (Some (727689017191413 # 100000000000000)) (Some (481880019674165 # 1000000000000000)) (Some (339674284244725 # 100000000000000)) (Some (-129756234676235 # 10000000000000000)) (Some (-280853412898955 # 1000000000000000)) (Some (464551634069235 # 10000000000000000)) (Some (-2 # 10)) (Some (101213772630107 # 1000000000000000)) (Some (-527603874456517 # 10000000000000000)) (Some (-999987595377039 # 10000000000000000)) (Some (-96540148674814 # 1000000000000000)) (Some (0 # 1)) (424698710231422 # 1000000000000000) (432324272761029 # 1000000000000000) (480241149043664 # 1000000000000000) (409451746973324 # 1000000000000000) (498887641718558 # 1000000000000000) (371335224419736 # 1000000000000000) (2 # 10) (-720939637524777 # 1000000000000000) (-267975216059135 # 100000000000000000);
  Mk_ba19_row (7413103 # 1000000) (Some (-355830203401517 # 100000000000000)) (Some (127 # 100)) (Some (200539975367758 # 100000000000000)) (Some (180699157497251 # 10000000000000)) (Some (511347328079163 # 100000000000000)) (Some (-186 # 100)) (Some (725328061578224 # 100000000000000)) (Some (482179266670592 # 1000000000000000)) (Some (338752809872969 # 100000000000000)) (Some (-130877180420341 # 10000000000000000)) (Some (-267247846174652 # 1000000000000000)) (Some (467856340355092 # 10000000000000000)) (Some (-2 # 10)) (Some (100051605370801 # 1000000000000000)) (Some (-539352829577267 # 10000000000000000)) (Some (-101879239844217 # 1000000000000000)) (Some (-992789201983352 # 10000000000000000)) (Some (0 # 1)) (428190247971521 # 1000000000000000) (436442928827801 # 1000000000000000) (485246014091918 # 1000000000000000) (413250207056489 # 1000000000000000) (499516134569895 # 1000000000000000) (371469433105739 # 1000000000000000) (2 # 10) (-734340105691096 # 1000000000000000) (-258964244597678 # 100000000000000000);
  Mk_ba19_row (7585776 # 1000000) (Some (-357810727391497 # 100000000000000)) (Some (127 # 100)) (Some (200027120898537 # 100000000000000)) (Some (18214661456064 # 1000000000000)) (Some (510962854087225 # 100000000000000)) (Some (-186 # 100)) (Some (722967113176926 # 100000000000000)) (Some (482478512752925 # 1000000000000000)) (Some (337831338315994 # 100000000000000)) (Some (-131983635738335 # 10000000000000000)) (Some (-2535654695095 # 10000000000000)) (Some (471130387404246 # 10000000000000000)) (Some (-2 # 10)) (Some (987904725676511 # 10000000000000000)) (Some (-551378994516703 # 10000000000000000)) (Some (-103738755142704 # 1000000000000000)) (Some (-101951781141634 # 1000000000000000)) (Some (0 # 1)) (431721963193678 # 1000000000000000) (440525836691881 # 1000000000000000) (490424703571987 # 1000000000000000) (417121960777989 # 1000000000000000) (500198596865783 # 1000000000000000) (371657614123475 # 1000000000000000) (2 # 10) (-74743681850805 # 100000000000000) (-250057593342268 # 100000000000000000);
  Mk_ba19_row (7762471 # 1000000) (Some (-359866184931361 # 100000000000000)) (Some (127 # 100)) (Some (199519211647981 # 100000000000000)) (Some (183452568936272 # 10000000000000)) (Some (510578554200753 # 100000000000000)) (Some (-186 # 100)) (Some (720606165603588 # 100000000000000)) (Some (482777758730315 # 1000000000000000)) (Some (33690986708217 # 10000000000000)) (Some (-133074368331519 # 10000000000000000)) (Some (-239809291973629 # 1000000000000000)) (Some (474369517964226 # 10000000000000000)) (Some (-2 # 10)) (Some (974207129965825 # 10000000000000000)) (Some (-563675531487076 # 10000000000000000)) (Some (-105577165950462 # 1000000000000000)) (Some (-104556520558143 # 1000000000000000)) (Some (0 # 1)) (435290249407618 # 1000000000000000) (444568690775934 # 1000000000000000) (495777239673208 # 1000000000000000) (421061019044815 # 1000000000000000) (500939961845591 # 1000000000000000) (371902513587443 # 1000000000000000) (2 # 10) (-760216148920853 # 1000000000000000) (-241268711857278 # 100000000000000000);
  Mk_ba19_row (79432821 # 10000000) (Some (-361994961000705 # 100000000000000)) (Some (127 # 100)) (Some (199016595346931 # 100000000000000)) (Some (184618514776369 # 10000000000000)) (Some (51019581797695 # 10000000000000)) (Some (-186 # 100)) (Some (718245213453531 # 100000000000000)) (Some (483077005287796 # 1000000000000000)) (Some (335988394062064 # 100000000000000)) (Some (-134148089839721 # 10000000000000000)) (Some (-225982411513995 # 1000000000000000)) (Some (477569225425763 # 10000000000000000)) (Some (-2 # 10)) (Some (959343128802816 # 10000000000000000)) (Some (-576228029112292 # 10000000000000000)) (Some (-107394724487977 # 1000000000000000)) (Some (-107091293714997 # 1000000000000000)) (Some (0 # 1)) (438891490926186 # 1000000000000000) (448567408844485 # 1000000000000000) (50130316661577 # 100000000000000) (425061191104479 # 1000000000000000) (501744880015717 # 1000000000000000) (372206800137747 # 1000000000000000) (2 # 10) (-772670194921646 # 1000000000000000) (-232608903581664 # 100000000000000000);
  Mk_ba19_row (81283044 # 10000000) (Some (-364194461677395 # 100000000000000)) (Some (127 # 100)) (Some (198519454529983 # 100000000000000)) (Some (18564621581468 # 1000000000000)) (Some (509816017987109 # 100000000000000)) (Some (-186 # 100)) (Some (715884266724715 # 100000000000000)) (Some (483376251158144 # 1000000000000000)) (Some (335066923157854 # 100000000000000)) (Some (-135203455537926 # 10000000000000000)) (Some (-212086540564387 # 1000000000000000)) (Some (480724827135522 # 10000000000000000)) (Some (-2 # 10)) (Some (94326065196373 # 1000000000000000)) (Some (-589016521386733 # 10000000000000000)) (Some (-109191790250396 # 1000000000000000)) (Some (-10955488727062 # 100000000000000)) (Some (0 # 1)) (442522084665172 # 1000000000000000) (452518143200552 # 1000000000000000) (507001618240057 # 1000000000000000) (429116126957977 # 1000000000000000) (502617709160336 # 1000000000000000) (372573051391345 # 1000000000000000) (2 # 10) (-784796359187098 # 1000000000000000) (-224086826651947 # 100000000000000000);
  Mk_ba19_row (83176364 # 10000000) (Some (-366460712149589 # 100000000000000)) (Some (127 # 100)) (Some (19802713096954 # 10000000000000)) (Some (18653584866165 # 1000000000000)) (Some (509440771183758 # 100000000000000)) (Some (-186 # 100)) (Some (713523320133449 # 100000000000000)) (Some (483675497011058 # 1000000000000000)) (Some (334145452307329 # 100000000000000)) (Some (-136239065983901 # 10000000000000000)) (Some (-198121723402997 # 1000000000000000)) (Some (483831527627303 # 10000000000000000)) (Some (-2 # 10)) (Some (925932722785963 # 10000000000000000)) (Some (-602014786646566 # 10000000000000000)) (Some (-110968638090041 # 1000000000000000)) (Some (-111946581867481 # 1000000000000000)) (Some (0 # 1)) (446178459563095 # 1000000000000000) (456417169785928 # 1000000000000000) (51287136630761 # 100000000000000) (433219358671744 # 1000000000000000) (50356250947165 # 100000000000000) (373003746267669 # 1000000000000000) (2 # 10) (-796596399613904 # 1000000000000000) (-215708269417487 # 100000000000000000);
  Mk_ba19_row (85113792 # 10000000) (Some (-368789010495326 # 100000000000000)) (Some (127 # 100)) (Some (197537987294855 # 100000000000000)) (Some (187285457639299 # 10000000000000)) (Some (509071893840819 # 100000000000000)) (Some (-186 # 100)) (Some (709818988012656 # 100000000000000)) (Some (483897117581852 # 1000000000000000)) (Some (332880337417763 # 100000000000000)) (Some (-137253470891357 # 10000000000000000)) (Some (-184086217199181 # 1000000000000000)) (Some (486884470524397 # 10000000000000000)) (Some (-2 # 10)) (Some (907349027924643 # 10000000000000000)) (Some (-615189725191627 # 10000000000000000)) (Some (-112725343507486 # 1000000000000000)) (Some (-114265978916729 # 1000000000000000)) (Some (0 # 1)) (449857093174372 # 1000000000000000) (460261020577231 # 1000000000000000) (518910844442787 # 1000000000000000) (437364339888466 # 1000000000000000) (504583043008576 # 1000000000000000) (373501262986688 # 1000000000000000) (2 # 10) (-808075298828801 # 1000000000000000) (-207476294941486 # 100000000000000000);
  Mk_ba19_row (8709635 # 1000000) (Some (-371174077205229 # 100000000000000)) (Some (127 # 100)) (Some (197050360566177 # 100000000000000)) (Some (187893336352304 # 10000000000000)) (Some (508711371954279 # 100000000000000)) (Some (-186 # 100)) (Some (705994844251746 # 100000000000000)) (Some (484111815217042 # 1000000000000000)) (Some (331584574043029 # 100000000000000)) (Some (-138245175210172 # 10000000000000000)) (Some (-169976939546727 # 1000000000000000)) (Some (489878781264466 # 10000000000000000)) (Some (-2 # 10)) (Some (887507913129657 # 10000000000000000)) (Some (-628507728647047 # 10000000000000000)) (Some (-114461883799146 # 1000000000000000)) (Some (-116513179236968 # 1000000000000000)) (Some (0 # 1)) (453554525358742 # 1000000000000000) (464046860870659 # 1000000000000000) (52511814537888 # 100000000000000) (441544482977743 # 1000000000000000) (505682776487123 # 1000000000000000) (374067882042223 # 1000000000000000) (2 # 10) (-8192401596192 # 10000000000000) (-199391556167292 # 100000000000000000);
  Mk_ba19_row (8912507 # 1000000) (Some (-37361050682681 # 10000000000000)) (Some (127 # 100)) (Some (196562937062614 # 100000000000000)) (Some (188359011691396 # 10000000000000)) (Some (508361303320931 # 100000000000000)) (Some (-186 # 100)) (Some (702170733623731 # 100000000000000)) (Some (484326510992063 # 1000000000000000)) (Some (330288821894963 # 100000000000000)) (Some (-139212647312075 # 10000000000000000)) (Some (-155790275323262 # 1000000000000000)) (Some (492809605852605 # 10000000000000000)) (Some (-2 # 10)) (Some (866421983788127 # 10000000000000000)) (Some (-64193781458617 # 1000000000000000)) (Some (-116178321833016 # 1000000000000000)) (Some (-118688919938058 # 1000000000000000)) (Some (0 # 1)) (457267369121121 # 1000000000000000) (467772302848474 # 1000000000000000) (531490991926586 # 1000000000000000) (445753193248741 # 1000000000000000) (506864886303869 # 1000000000000000) (374705793214817 # 1000000000000000) (2 # 10) (-830099580029053 # 1000000000000000) (-191452698175423 # 100000000000000000);
  Mk_ba19_row (9120107 # 1000000) (Some (-376092681434322 # 100000000000000)) (Some (127 # 100)) (Some (196074611706436 # 100000000000000)) (Some (188682865661743 # 10000000000000)) (Some (50802381271715 # 10000000000000)) (Some (-186 # 100)) (Some (69834657677612 # 10000000000000)) (Some (484541209361975 # 1000000000000000)) (Some (328993054085964 # 100000000000000)) (Some (-14015432932197 # 1000000000000000)) (Some (-141523306438778 # 1000000000000000)) (Some (495672150467647 # 10000000000000000)) (Some (-2 # 10)) (Some (844120854833181 # 10000000000000000)) (Some (-655449582686721 # 10000000000000000)) (Some (-117874821202392 # 1000000000000000)) (Some (-120794254326617 # 1000000000000000)) (Some (0 # 1)) (460992318562755 # 1000000000000000) (471435440322542 # 1000000000000000) (538026684537692 # 1000000000000000) (449983899598804 # 1000000000000000) (508132264760535 # 1000000000000000) (375417105651036 # 1000000000000000) (2 # 10) (-840662742295028 # 1000000000000000) (-183657134321823 # 100000000000000000);
  Mk_ba19_row (9332541 # 1000000) (Some (-378613926182626 # 100000000000000)) (Some (127 # 100)) (Some (195584236682865 # 100000000000000)) (Some (18886540488087 # 1000000000000)) (Some (507700856637839 # 100000000000000)) (Some (-186 # 100)) (Some (694522449282671 # 100000000000000)) (Some (484755906083866 # 1000000000000000)) (Some (327697296223256 # 100000000000000)) (Some (-141068649810545 # 10000000000000000)) (Some (-127174507340433 # 1000000000000000)) (Some (498461723222369 # 10000000000000000)) (Some (-2 # 10)) (Some (820653458962507 # 10000000000000000)) (Some (-669012882205226 # 10000000000000000)) (Some (-119551372098824 # 1000000000000000)) (Some (-122830543055486 # 1000000000000000)) (Some (0 # 1)) (46472615367158 # 100000000000000) (47503419506741 # 100000000000000) (544722030896671 # 1000000000000000) (454230081126353 # 1000000000000000) (509487526584868 # 1000000000000000) (376203860068449 # 1000000000000000) (2 # 10) (-850937847628464 # 1000000000000000) (-176002290222832 # 100000000000000000);
  Mk_ba19_row (9549923 # 1000000) (Some (-381168383698931 # 100000000000000)) (Some (127 # 100)) (Some (195091158675457 # 100000000000000)) (Some (188908654144684 # 10000000000000)) (Some (507394174674778 # 100000000000000)) (Some (-186 # 100)) (Some (6906983254407 # 1000000000000)) (Some (484970602600753 # 1000000000000000)) (Some (326401539597807 # 100000000000000)) (Some (-14195403910764 # 1000000000000000)) (Some (-112744075637009 # 1000000000000000)) (Some (501173777816308 # 10000000000000000)) (Some (-2 # 10)) (Some (796085848037262 # 10000000000000000)) (Some (-682601096543878 # 10000000000000000)) (Some (-121207938527522 # 1000000000000000)) (Some (-124799279195719 # 1000000000000000)) (Some (0 # 1)) (468465741489842 # 1000000000000000) (478565980635353 # 1000000000000000) (551573264458127 # 1000000000000000) (458485289626201 # 1000000000000000) (510933015010026 # 1000000000000000) (377068042196806 # 1000000000000000) (2 # 10) (-860930944953288 # 1000000000000000) (-16848642335921 # 10000000000000000);
  Mk_ba19_row (97723722 # 10000000) (Some (-383753813813307 # 100000000000000)) (Some (127 # 100)) (Some (194596080519985 # 100000000000000)) (Some (188818484459286 # 10000000000000)) (Some (507105295363375 # 100000000000000)) (Some (-186 # 100)) (Some (686874138012175 # 100000000000000)) (Some (48518530268756 # 100000000000000)) (Some (325105761426847 # 100000000000000)) (Some (-142808947351072 # 10000000000000000)) (Some (-98233991651502 # 1000000000000000)) (Some (503803959131144 # 10000000000000000)) (Some (-2 # 10)) (Some (770505011815617 # 10000000000000000)) (Some (-696189025593074 # 10000000000000000)) (Some (-122844746719085 # 1000000000000000)) (Some (-126701700846533 # 1000000000000000)) (Some (0 # 1)) (472208033371136 # 1000000000000000) (482026994722516 # 1000000000000000) (558575958574897 # 1000000000000000) (462743168479077 # 1000000000000000) (512470806784883 # 1000000000000000) (37801159650346 # 100000000000000) (2 # 10) (-870645052536319 # 1000000000000000) (-161109149558837 # 100000000000000000);
  Mk_ba19_row (10 # 1) (Some (-386372417022655 # 100000000000000)) (Some (127 # 100)) (Some (194100671774355 # 100000000000000)) (Some (188603468899721 # 10000000000000)) (Some (506951177616716 # 100000000000000)) (Some (-186 # 100)) (Some (68305 # 10000)) (Some (4854 # 10000)) (Some (32381 # 10000)) (Some (-143631865091235 # 10000000000000000)) (Some (-829021593028397 # 10000000000000000)) (Some (506348151094055 # 10000000000000000)) (Some (-2 # 10)) (Some (739812463794732 # 10000000000000000)) (Some (-710183280761318 # 10000000000000000)) (Some (-124373436043363 # 1000000000000000)) (Some (-128302697138655 # 1000000000000000)) (Some (0 # 1)) (475950058464381 # 1000000000000000) (485413151905186 # 1000000000000000) (565724941294348 # 1000000000000000) (466997535419704 # 1000000000000000) (514102715618361 # 1000000000000000) (379036439200681 # 1000000000000000) (2 # 10) (-880079287299555 # 1000000000000000) (-153871935098132 # 100000000000000000);
  Mk_ba19_row (1023293 # 100000) (Some (-389028457020269 # 100000000000000)) (Some (127 # 100)) (Some (193606954890673 # 100000000000000)) (Some (188273014783404 # 10000000000000)) (Some (506844116512582 # 100000000000000)) (Some (-186 # 100)) (Some (680045326404154 # 100000000000000)) (Some (485544070657233 # 1000000000000000)) (Some (322779894800785 # 100000000000000)) (Some (-144421345919713 # 10000000000000000)) (Some (-675780413607421 # 10000000000000000)) (Some (50880252692769 # 1000000000000000)) (Some (-2 # 10)) (Some (709039346478949 # 10000000000000000)) (Some (-723709508895747 # 10000000000000000)) (Some (-125861427367004 # 1000000000000000)) (Some (-129865283010107 # 1000000000000000)) (Some (0 # 1)) (479688914615742 # 1000000000000000) (488720672122514 # 1000000000000000) (573014201970213 # 1000000000000000) (471242651398395 # 1000000000000000) (515830292501197 # 1000000000000000) (38014446967201 # 100000000000000) (2 # 10) (-88922841374613 # 100000000000000) (-146778277763947 # 100000000000000000);
  Mk_ba19_row (10471284 # 1000000) (Some (-391727021639972 # 100000000000000)) (Some (127 # 100)) (Some (193117831653407 # 100000000000000)) (Some (187838665876432 # 10000000000000)) (Some (506767668042989 # 100000000000000)) (Some (-186 # 100)) (Some (677040673226876 # 100000000000000)) (Some (485688140335419 # 1000000000000000)) (Some (321749796601755 # 100000000000000)) (Some (-14517603028237 # 1000000000000000)) (Some (-522790552442868 # 10000000000000000)) (Some (511163601173232 # 10000000000000000)) (Some (-2 # 10)) (Some (678256465093307 # 10000000000000000)) (Some (-736901602741032 # 10000000000000000)) (Some (-127323399017355 # 1000000000000000)) (Some (-131399064702368 # 1000000000000000)) (Some (0 # 1)) (483421760020774 # 1000000000000000) (491945827983016 # 1000000000000000) (580436757424514 # 1000000000000000) (475473370083597 # 1000000000000000) (517654819356004 # 1000000000000000) (38133757940679 # 100000000000000) (2 # 10) (-898083034295415 # 1000000000000000) (-139833454945457 # 100000000000000000);
  Mk_ba19_row (10715192 # 1000000) (Some (-39447612084443 # 10000000000000)) (Some (127 # 100)) (Some (192638344168795 # 100000000000000)) (Some (18731757744065 # 1000000000000)) (Some (506709230356964 # 100000000000000)) (Some (-186 # 100)) (Some (674035994981556 # 100000000000000)) (Some (485832211215589 # 1000000000000000)) (Some (320719689808541 # 100000000000000)) (Some (-145894669473531 # 10000000000000000)) (Some (-37008938529052 # 1000000000000000)) (Some (513428281786078 # 10000000000000000)) (Some (-2 # 10)) (Some (647488922896865 # 10000000000000000)) (Some (-749878117025428 # 10000000000000000)) (Some (-128770698187334 # 1000000000000000)) (Some (-132912244902509 # 1000000000000000)) (Some (0 # 1)) (487145807432381 # 1000000000000000) (495084972732645 # 1000000000000000) (58798452725906 # 100000000000000) (479685147192202 # 1000000000000000) (51957730210155 # 100000000000000) (382617657278721 # 1000000000000000) (2 # 10) (-90663030370089 # 100000000000000) (-133044066158072 # 100000000000000000);
  Mk_ba19_row (1096478 # 100000) (Some (-397284884479915 # 100000000000000)) (Some (127 # 100)) (Some (192175070608569 # 100000000000000)) (Some (186730796683723 # 10000000000000)) (Some (506660642744791 # 100000000000000)) (Some (-186 # 100)) (Some (671031332896972 # 100000000000000)) (Some (48597628132087 # 100000000000000)) (Some (319689588555781 # 100000000000000)) (Some (-146576148850245 # 10000000000000000)) (Some (-217642816150222 # 10000000000000000)) (Some (515593919470405 # 10000000000000000)) (Some (-2 # 10)) (Some (616736451646084 # 10000000000000000)) (Some (-762726774357794 # 10000000000000000)) (Some (-130210684298175 # 1000000000000000)) (Some (-134410653858961 # 1000000000000000)) (Some (0 # 1)) (490858321821198 # 1000000000000000) (498135481076715 # 1000000000000000) (595648246045235 # 1000000000000000) (483873962717668 # 1000000000000000) (521598466268204 # 1000000000000000) (38398659024189 # 100000000000000) (2 # 10) (-914855087789983 # 1000000000000000) (-126417509811608 # 100000000000000000);
  Mk_ba19_row (11220183 # 1000000) (Some (-400164598727094 # 100000000000000)) (Some (127 # 100)) (Some (191734027375396 # 100000000000000)) (Some (186097280420399 # 10000000000000)) (Some (50661705563212 # 10000000000000)) (Some (-186 # 100)) (Some (668026654887987 # 100000000000000)) (Some (486120352189708 # 1000000000000000)) (Some (318659481843591 # 100000000000000)) (Some (-147219509483039 # 10000000000000000)) (Some (-653896410320975 # 100000000000000000)) (Some (517658350503722 # 10000000000000000)) (Some (-2 # 10)) (Some (585989059690021 # 10000000000000000)) (Some (-775507601697968 # 10000000000000000)) (Some (-131647693201274 # 1000000000000000)) (Some (-135898177651245 # 1000000000000000)) (Some (0 # 1)) (494556622073997 # 1000000000000000) (501096228875442 # 1000000000000000) (603417418660676 # 1000000000000000) (48803619553762 # 100000000000000) (5237187561691 # 10000000000000) (385446259000299 # 1000000000000000) (2 # 10) (-922741589721515 # 1000000000000000) (-119961585120701 # 100000000000000000);
  Mk_ba19_row (11481534 # 1000000) (Some (-403126106197465 # 100000000000000)) (Some (127 # 100)) (Some (191319344291801 # 100000000000000)) (Some (185430009558659 # 10000000000000)) (Some (506575738557569 # 100000000000000)) (Some (-186 # 100)) (Some (665021989504934 # 100000000000000)) (Some (486264422453146 # 1000000000000000)) (Some (317629379460003 # 100000000000000)) (Some (-147823967671603 # 10000000000000000)) (Some (867357294880735 # 100000000000000000)) (Some (519619928683468 # 10000000000000000)) (Some (-2 # 10)) (Some (55523481234308 # 1000000000000000)) (Some (-788260250797079 # 10000000000000000)) (Some (-133084105923317 # 1000000000000000)) (Some (-13737740657838 # 100000000000000)) (Some (0 # 1)) (498238087081745 # 1000000000000000) (503968393076236 # 1000000000000000) (61128031634162 # 100000000000000) (492168479765339 # 1000000000000000) (525938338104539 # 1000000000000000) (386998528691305 # 1000000000000000) (2 # 10) (-930275507390603 # 1000000000000000) (-113684065969579 # 100000000000000000);
  Mk_ba19_row (11748973 # 1000000) (Some (-406179441548963 # 100000000000000)) (Some (127 # 100)) (Some (190933894569557 # 100000000000000)) (Some (184737572399601 # 10000000000000)) (Some (506535235632833 # 100000000000000)) (Some (-186 # 100)) (Some (662017320034772 # 100000000000000)) (Some (486408492912558 # 1000000000000000)) (Some (316599275675213 # 100000000000000)) (Some (-148388931924251 # 10000000000000000)) (Some (238793908509843 # 10000000000000000)) (Some (521477542403336 # 10000000000000000)) (Some (-2 # 10)) (Some (524463022182339 # 10000000000000000)) (Some (-801010637516032 # 10000000000000000)) (Some (-134521139379226 # 1000000000000000)) (Some (-138850104810304 # 1000000000000000)) (Some (0 # 1)) (501900166213147 # 1000000000000000) (506755710303352 # 1000000000000000) (619224007572943 # 1000000000000000) (496267563840908 # 1000000000000000) (528257107694677 # 1000000000000000) (388645235135397 # 1000000000000000) (2 # 10) (-937446580057216 # 1000000000000000) (-107592233137499 # 100000000000000000);
  Mk_ba19_row (12022642 # 1000000) (Some (-409329461765161 # 100000000000000)) (Some (127 # 100)) (Some (190580161168787 # 100000000000000)) (Some (184026978495717 # 10000000000000)) (Some (506494833404341 # 100000000000000)) (Some (-186 # 100)) (Some (659012644573039 # 100000000000000)) (Some (486552563659258 # 1000000000000000)) (Some (315569169836308 # 100000000000000)) (Some (-14891401707853 # 1000000000000000)) (Some (390836846336663 # 10000000000000000)) (Some (523230615403361 # 10000000000000000)) (Some (-2 # 10)) (Some (493665901717944 # 10000000000000000)) (Some (-813775944321322 # 10000000000000000)) (Some (-135959336051721 # 1000000000000000)) (Some (-140317531089636 # 1000000000000000)) (Some (0 # 1)) (505540393780914 # 1000000000000000) (509463977394576 # 1000000000000000) (627234419794928 # 1000000000000000) (500330186386704 # 1000000000000000) (530674701172592 # 1000000000000000) (390388167755228 # 1000000000000000) (2 # 10) (-944250101738485 # 1000000000000000) (-10169260364744 # 10000000000000000);
  Mk_ba19_row (12302684 # 1000000) (Some (-412575715403937 # 100000000000000)) (Some (127 # 100)) (Some (190259689245834 # 100000000000000)) (Some (183302691641083 # 10000000000000)) (Some (506454239833417 # 100000000000000)) (Some (-186 # 100)) (Some (656007985827741 # 100000000000000)) (Some (486696633604424 # 1000000000000000)) (Some (31453906972837 # 10000000000000)) (Some (-149399055212975 # 10000000000000000)) (Some (542907328358729 # 10000000000000000)) (Some (524879089483601 # 10000000000000000)) (Some (-2 # 10)) (Some (462838315396795 # 10000000000000000)) (Some (-826567858957179 # 10000000000000000)) (Some (-137398846611203 # 1000000000000000)) (Some (-141780613490633 # 1000000000000000)) (Some (0 # 1)) (509156406721439 # 1000000000000000) (512100046977694 # 1000000000000000) (635296430650679 # 1000000000000000) (504352977088561 # 1000000000000000) (533190510465661 # 1000000000000000) (392229050665225 # 1000000000000000) (2 # 10) (-950685398536715 # 1000000000000000) (-959911479712242 # 1000000000000000000);
  Mk_ba19_row (12589251 # 1000000) (Some (-41591023368772 # 10000000000000)) (Some (127 # 100)) (Some (189972538653862 # 100000000000000)) (Some (182565618197047 # 10000000000000)) (Some (506413393781958 # 100000000000000)) (Some (-186 # 100)) (Some (653003306203564 # 100000000000000)) (Some (486840704550708 # 1000000000000000)) (Some (313508962462437 # 100000000000000)) (Some (-149844102908561 # 10000000000000000)) (Some (695039726485327 # 10000000000000000)) (Some (525946938720127 # 10000000000000000)) (Some (-2 # 10)) (Some (43197725884654 # 1000000000000000)) (Some (-839394323950513 # 10000000000000000)) (Some (-13883958977375 # 100000000000000)) (Some (-143240078423732 # 1000000000000000)) (Some (0 # 1)) (512745897847945 # 1000000000000000) (514669900566994 # 1000000000000000) (643393880948772 # 1000000000000000) (508332386383414 # 1000000000000000) (535803571647084 # 1000000000000000) (394169391294247 # 1000000000000000) (2 # 10) (-956752753735048 # 1000000000000000) (-904936992268716 # 1000000000000000000);
  Mk_ba19_row (12882492 # 1000000) (Some (-419320122282247 # 100000000000000)) (Some (127 # 100)) (Some (189718092224532 # 100000000000000)) (Some (18181583572509 # 1000000000000)) (Some (506372382574072 # 100000000000000)) (Some (-186 # 100)) (Some (649998636897933 # 100000000000000)) (Some (48698477500223 # 100000000000000)) (Some (312478858734054 # 100000000000000)) (Some (-150249312437331 # 10000000000000000)) (Some (847260946800118 # 10000000000000000)) (Some (526946444268913 # 10000000000000000)) (Some (-2 # 10)) (Some (401081219578684 # 10000000000000000)) (Some (-852260492853933 # 10000000000000000)) (Some (-140281339712973 # 1000000000000000)) (Some (-144696532578304 # 1000000000000000)) (Some (0 # 1)) (516306356212106 # 1000000000000000) (517178325071701 # 1000000000000000) (651509276896769 # 1000000000000000) (512264644574565 # 1000000000000000) (538512034617153 # 1000000000000000) (396209900522254 # 1000000000000000) (2 # 10) (-96244933377502 # 100000000000000) (-852064886930366 # 1000000000000000000);
  Mk_ba19_row (13182563 # 1000000) (Some (-42279017674807 # 10000000000000)) (Some (127 # 100)) (Some (189495959568129 # 100000000000000)) (Some (181055362482962 # 10000000000000)) (Some (50633139252515 # 10000000000000)) (Some (-186 # 100)) (Some (646993972073949 # 100000000000000)) (Some (487128845238862 # 1000000000000000)) (Some (311448756542134 # 100000000000000)) (Some (-150614596444652 # 10000000000000000)) (Some (999592093350988 # 10000000000000000)) (Some (527911042159157 # 10000000000000000)) (Some (-2 # 10)) (Some (370149296232928 # 10000000000000000)) (Some (-865169275894328 # 10000000000000000)) (Some (-14172377879014 # 100000000000000)) (Some (-146150484912029 # 1000000000000000)) (Some (0 # 1)) (519834872094517 # 1000000000000000) (519629088945062 # 1000000000000000) (659623644338333 # 1000000000000000) (51614574885001 # 100000000000000) (541312745930068 # 1000000000000000) (398350021367272 # 1000000000000000) (2 # 10) (-967765565478509 # 1000000000000000) (-801365385678782 # 1000000000000000000);
  Mk_ba19_row (13489624 # 1000000) (Some (-42630589064481 # 10000000000000)) (Some (127 # 100)) (Some (189305861390915 # 100000000000000)) (Some (180287733009631 # 10000000000000)) (Some (50629067837182 # 10000000000000)) (Some (-186 # 100)) (Some (64551 # 10000)) (Some (487234489671207 # 1000000000000000)) (Some (310916144644082 # 100000000000000)) (Some (-150939815316041 # 10000000000000000)) (Some (11520496590673 # 100000000000000)) (Some (528858694672038 # 10000000000000000)) (Some (-2 # 10)) (Some (339180465452034 # 10000000000000000)) (Some (-878121774188784 # 10000000000000000)) (Some (-143166535598303 # 1000000000000000)) (Some (-147602344091215 # 1000000000000000)) (Some (0 # 1)) (523328055210519 # 1000000000000000) (522024362055014 # 1000000000000000) (667716607698769 # 1000000000000000) (519971475197688 # 1000000000000000) (544201044412022 # 1000000000000000) (40058766917844 # 100000000000000) (2 # 10) (-972685721580407 # 1000000000000000) (-7529123601382 # 10000000000000000);
  Mk_ba19_row (1380384 # 100000) (Some (-429855668765474 # 100000000000000)) (Some (127 # 100)) (Some (189147708745926 # 100000000000000)) (Some (179517959290426 # 10000000000000)) (Some (506250546745298 # 100000000000000)) (Some (-186 # 100)) (Some (64551 # 10000)) (Some (487302636645727 # 1000000000000000)) (Some (310869009653372 # 100000000000000)) (Some (-151225181668237 # 10000000000000000)) (Some (130464663311663 # 1000000000000000)) (Some (529796813618226 # 10000000000000000)) (Some (-2 # 10)) (Some (308173444990604 # 10000000000000000)) (Some (-891117395267693 # 10000000000000000)) (Some (-14460920565329 # 100000000000000)) (Some (-149052437618105 # 1000000000000000)) (Some (0 # 1)) (526782037077572 # 1000000000000000) (524364140560287 # 1000000000000000) (675766636988774 # 1000000000000000) (523737411159899 # 1000000000000000) (547170720339975 # 1000000000000000) (402919136313526 # 1000000000000000) (2 # 10) (-977190404811455 # 1000000000000000) (-706775760191955 # 1000000000000000000);
  Mk_ba19_row (1412537 # 100000) (Some (-433430888000089 # 100000000000000)) (Some (127 # 100)) (Some (189021791056152 # 100000000000000)) (Some (178752710377637 # 10000000000000)) (Some (506211342173343 # 100000000000000)) (Some (-186 # 100)) (Some (64551 # 10000)) (Some (487370782554987 # 1000000000000000)) (Some (310821875399468 # 100000000000000)) (Some (-151471571381605 # 10000000000000000)) (Some (145739315845826 # 1000000000000000)) (Some (530727653839593 # 10000000000000000)) (Some (-2 # 10)) (Some (277126508678133 # 10000000000000000)) (Some (-904153934745707 # 10000000000000000)) (Some (-146051358090575 # 1000000000000000)) (Some (-150501027350655 # 1000000000000000)) (Some (0 # 1)) (53019253271229 # 100000000000000) (526646896102641 # 1000000000000000) (683751414061019 # 1000000000000000) (527439004686317 # 1000000000000000) (550214096260131 # 1000000000000000) (405339121395781 # 1000000000000000) (2 # 10) (-981260439597162 # 1000000000000000) (-663013696061862 # 1000000000000000000);
  Mk_ba19_row (14454392 # 1000000) (Some (-437025756012262 # 100000000000000)) (Some (127 # 100)) (Some (18892939673776 # 10000000000000)) (Some (178001713207246 # 10000000000000)) (Some (506173437230753 # 100000000000000)) (Some (-186 # 100)) (Some (64551 # 10000)) (Some (487438929010521 # 1000000000000000)) (Some (310774740767723 # 100000000000000)) (Some (-151680641128055 # 10000000000000000)) (Some (161029693312038 # 1000000000000000)) (Some (531651339476068 # 10000000000000000)) (Some (-2 # 10)) (Some (246038012260797 # 10000000000000000)) (Some (-917227934931512 # 10000000000000000)) (Some (-147492538311963 # 1000000000000000)) (Some (-15194832066282 # 100000000000000)) (Some (0 # 1)) (533554940527139 # 1000000000000000) (528870503162601 # 1000000000000000) (69164827532825 # 100000000000000) (531071624121018 # 1000000000000000) (553322194141651 # 1000000000000000) (407840849497646 # 1000000000000000) (2 # 10) (-984881690469047 # 1000000000000000) (-621664436102366 # 1000000000000000000);
  Mk_ba19_row (1479108 # 100000) (Some (-44063722365674 # 10000000000000)) (Some (127 # 100)) (Some (188871317906854 # 100000000000000)) (Some (177273101288178 # 10000000000000)) (Some (506137226360853 # 100000000000000)) (Some (-186 # 100)) (Some (64551 # 10000)) (Some (487507075885491 # 1000000000000000)) (Some (310727605845869 # 100000000000000)) (Some (-151854767679758 # 10000000000000000)) (Some (176336335641252 # 1000000000000000)) (Some (532567246117423 # 10000000000000000)) (Some (-2 # 10)) (Some (2149063761464 # 100000000000000)) (Some (-930335281641956 # 10000000000000000)) (Some (-148932272886602 # 1000000000000000)) (Some (-153394449796152 # 1000000000000000)) (Some (0 # 1)) (536864462777345 # 1000000000000000) (531032204001156 # 1000000000000000) (699434693625438 # 1000000000000000) (534630624375265 # 1000000000000000) (556484959419282 # 1000000000000000) (410416255014613 # 1000000000000000) (2 # 10) (-988048517184626 # 1000000000000000) (-582740968271482 # 1000000000000000000);
  Mk_ba19_row (15135614 # 1000000) (Some (-444263216959828 # 100000000000000)) (Some (127 # 100)) (Some (188846094109428 # 100000000000000)) (Some (176568187467893 # 10000000000000)) (Some (506103121104178 # 100000000000000)) (Some (-186 # 100)) (Some (64551 # 10000)) (Some (487575223441591 # 1000000000000000)) (Some (3106804704529 # 1000000000000)) (Some (-151996871001316 # 10000000000000000)) (Some (19165957475365 # 100000000000000)) (Some (533474560675398 # 10000000000000000)) (Some (-2 # 10)) (Some (18372971485084 # 1000000000000000)) (Some (-94347173044381 # 1000000000000000)) (Some (-15037009669873 # 100000000000000)) (Some (-154839471677636 # 1000000000000000)) (Some (0 # 1)) (540116232214304 # 1000000000000000) (533128737581926 # 1000000000000000) (707088767623476 # 1000000000000000) (53811141438477 # 100000000000000) (559691517558205 # 1000000000000000) (413056203782499 # 1000000000000000) (2 # 10) (-99076529602303 # 100000000000000) (-546228682229084 # 1000000000000000000);
  Mk_ba19_row (1548817 # 100000) (Some (-447901230310435 # 100000000000000)) (Some (127 # 100)) (Some (188850184054124 # 100000000000000)) (Some (175881964759379 # 10000000000000)) (Some (506071535796663 # 100000000000000)) (Some (-186 # 100)) (Some (64551 # 10000)) (Some (487643370356478 # 1000000000000000)) (Some (310633335503436 # 100000000000000)) (Some (-152110188956025 # 10000000000000000)) (Some (206999573597366 # 1000000000000000)) (Some (534372481092768 # 10000000000000000)) (Some (-2 # 10)) (Some (152506304278924 # 10000000000000000)) (Some (-956632963408764 # 10000000000000000)) (Some (-151805570133617 # 1000000000000000)) (Some (-156283383610477 # 1000000000000000)) (Some (0 # 1)) (543305433710468 # 1000000000000000) (535156959716956 # 1000000000000000) (714589692554831 # 1000000000000000) (541509521183454 # 1000000000000000) (562930443289679 # 1000000000000000) (415750735324984 # 1000000000000000) (2 # 10) (-993047108357095 # 1000000000000000) (-512084276951188 # 1000000000000000000);
  Mk_ba19_row (15848933 # 1000000) (Some (-451468404496301 # 100000000000000)) (Some (127 # 100)) (Some (188895337589719 # 100000000000000)) (Some (175252440431911 # 10000000000000)) (Some (506042882210703 # 100000000000000)) (Some (-186 # 100)) (Some (64551 # 10000)) (Some (487711516312136 # 1000000000000000)) (Some (310586201217439 # 100000000000000)) (Some (-152198056414778 # 10000000000000000)) (Some (22235634135866 # 100000000000000)) (Some (535260271862518 # 10000000000000000)) (Some (-2 # 10)) (Some (121235260479201 # 10000000000000000)) (Some (-969814428644096 # 10000000000000000)) (Some (-153238274214048 # 1000000000000000)) (Some (-157726124843887 # 1000000000000000)) (Some (0 # 1)) (546427412719108 # 1000000000000000) (537114277671237 # 1000000000000000) (721918190446859 # 1000000000000000) (544820646595321 # 1000000000000000) (566190026631587 # 1000000000000000) (418489310009684 # 1000000000000000) (2 # 10) (-99491899007678 # 100000000000000) (-48023688611962 # 100000000000000000);
  Mk_ba19_row (16218101 # 1000000) (Some (-455064373569754 # 100000000000000)) (Some (127 # 100)) (Some (188945009802067 # 100000000000000)) (Some (174580576811061 # 10000000000000)) (Some (506017575193636 # 100000000000000)) (Some (-186 # 100)) (Some (64551 # 10000)) (Some (487779662599189 # 1000000000000000)) (Some (310539066702227 # 100000000000000)) (Some (-152263758877404 # 10000000000000000)) (Some (237729765685615 # 1000000000000000)) (Some (536137267860904 # 10000000000000000)) (Some (-2 # 10)) (Some (899163971651131 # 100000000000000000)) (Some (-983011289158325 # 10000000000000000)) (Some (-15466780966149 # 100000000000000)) (Some (-159167572473621 # 1000000000000000)) (Some (0 # 1)) (549477765535519 # 1000000000000000) (538998583035119 # 1000000000000000) (729056881777028 # 1000000000000000) (548040713564926 # 1000000000000000) (569458523357693 # 1000000000000000) (421261049381575 # 1000000000000000) (2 # 10) (-996414298589325 # 1000000000000000) (-450590746093322 # 1000000000000000000);
  Mk_ba19_row (1659587 # 100000) (Some (-458693012643616 # 100000000000000)) (Some (127 # 100)) (Some (189004006702556 # 100000000000000)) (Some (173885224805149 # 10000000000000)) (Some (505996029626854 # 100000000000000)) (Some (-186 # 100)) (Some (64551 # 10000)) (Some (487847809242485 # 1000000000000000)) (Some (310491931940615 # 100000000000000)) (Some (-152310576157463 # 10000000000000000)) (Some (253119667357162 # 1000000000000000)) (Some (537002863650833 # 10000000000000000)) (Some (-2 # 10)) (Some (585496677324241 # 100000000000000000)) (Some (-996218188420712 # 10000000000000000)) (Some (-156093786798842 # 1000000000000000)) (Some (-160607547041572 # 1000000000000000)) (Some (0 # 1)) (552452408944611 # 1000000000000000) (540808046027982 # 1000000000000000) (735990583727424 # 1000000000000000) (551165900385678 # 1000000000000000) (572724380789319 # 1000000000000000) (424054960980141 # 1000000000000000) (2 # 10) (-997572785640598 # 1000000000000000) (-423028743372402 # 1000000000000000000);
  Mk_ba19_row (1698244 # 100000) (Some (-462351252253104 # 100000000000000)) (Some (127 # 100)) (Some (189074513329365 # 100000000000000)) (Some (173177931268382 # 10000000000000)) (Some (505978647768822 # 100000000000000)) (Some (-186 # 100)) (Some (64551 # 10000)) (Some (487915956166126 # 1000000000000000)) (Some (310444796985096 # 100000000000000)) (Some (-152341838252155 # 10000000000000000)) (Some (268525815724496 # 1000000000000000)) (Some (537856502016188 # 10000000000000000)) (Some (-2 # 10)) (Some (271346830604939 # 100000000000000000)) (Some (-100942932517281 # 1000000000000000)) (Some (-157515823437773 # 1000000000000000)) (Some (-162045815002067 # 1000000000000000)) (Some (0 # 1)) (555347628748772 # 1000000000000000) (542540362051736 # 1000000000000000) (742706523059173 # 1000000000000000) (554192662573651 # 1000000000000000) (575976432502086 # 1000000000000000) (426860141468269 # 1000000000000000) (2 # 10) (-998438541397425 # 1000000000000000) (-397417381695454 # 1000000000000000000);
  Mk_ba19_row (1737801 # 100000) (Some (-466035535556837 # 100000000000000)) (Some (127 # 100)) (Some (189156473204625 # 100000000000000)) (Some (172464270921393 # 10000000000000)) (Some (505965812285994 # 100000000000000)) (Some (-186 # 100)) (Some (64551 # 10000)) (Some (48798410233516 # 100000000000000)) (Some (310397662551514 # 100000000000000)) (Some (-15236091975322 # 1000000000000000)) (Some (283947899520392 # 1000000000000000)) (Some (538697665938398 # 10000000000000000)) (Some (-2 # 10)) (Some (-432925644449073 # 1000000000000000000)) (Some (-102263873111473 # 1000000000000000)) (Some (-15893354839821 # 100000000000000)) (Some (-163482112177913 # 1000000000000000)) (Some (0 # 1)) (558160108097766 # 1000000000000000) (544193145216815 # 1000000000000000) (749194454232951 # 1000000000000000) (55711774364316 # 100000000000000) (57920405770583 # 100000000000000) (429665953920123 # 1000000000000000) (2 # 10) (-999057585500572 # 1000000000000000) (-373613063283682 # 1000000000000000000);
  Mk_ba19_row (17782793 # 1000000) (Some (-469743087276339 # 100000000000000)) (Some (127 # 100)) (Some (189269644200621 # 100000000000000)) (Some (171747193773903 # 10000000000000)) (Some (505957892371875 # 100000000000000)) (Some (-186 # 100)) (Some (64551 # 10000)) (Some (488052248343422 # 1000000000000000)) (Some (310350528229133 # 100000000000000)) (Some (-152371153688495 # 10000000000000000)) (Some (299385491198208 # 1000000000000000)) (Some (539525874514378 # 10000000000000000)) (Some (-2 # 10)) (Some (-358431083764669 # 100000000000000000)) (Some (-103584042709582 # 1000000000000000)) (Some (-160346620492999 # 1000000000000000)) (Some (-164916180661147 # 1000000000000000)) (Some (0 # 1)) (560886937864705 # 1000000000000000) (545764903291252 # 1000000000000000) (75544667610132 # 100000000000000) (559938176946788 # 1000000000000000) (582397303073409 # 1000000000000000) (432462176626573 # 1000000000000000) (2 # 10) (-999475999545059 # 1000000000000000) (-351467413668816 # 1000000000000000000);
  Mk_ba19_row (1819701 # 100000) (Some (-473471982128926 # 100000000000000)) (Some (127 # 100)) (Some (189381134421355 # 100000000000000)) (Some (171028550471607 # 10000000000000)) (Some (505955249850367 # 100000000000000)) (Some (-186 # 100)) (Some (64551 # 10000)) (Some (488120395239563 # 1000000000000000)) (Some (310303393292636 # 100000000000000)) (Some (-152375654982741 # 10000000000000000)) (Some (314838082510201 # 1000000000000000)) (Some (540340682160636 # 10000000000000000)) (Some (-2 # 10)) (Some (-674073898633199 # 100000000000000000)) (Some (-104902847079017 # 1000000000000000)) (Some (-161754736306891 # 1000000000000000)) (Some (-166347795578638 # 1000000000000000)) (Some (0 # 1)) (563525612601191 # 1000000000000000) (547255216109362 # 1000000000000000) (761457943396725 # 1000000000000000) (562651281189642 # 1000000000000000) (585546966684371 # 1000000000000000) (435239122041029 # 1000000000000000) (2 # 10) (-999738610417668 # 1000000000000000) (-330831889857449 # 1000000000000000000);
  Mk_ba19_row (1862087 # 100000) (Some (-477221137244342 # 100000000000000)) (Some (127 # 100)) (Some (18949038990992 # 10000000000000)) (Some (170309541369692 # 10000000000000)) (Some (505958234620985 # 100000000000000)) (Some (-186 # 100)) (Some (64551 # 10000)) (Some (488188541275444 # 1000000000000000)) (Some (310256258951151 # 100000000000000)) (Some (-152377066810812 # 10000000000000000)) (Some (33030513194767 # 100000000000000)) (Some (541141680402929 # 10000000000000000)) (Some (-2 # 10)) (Some (-990214310382058 # 100000000000000000)) (Some (-106219704243254 # 1000000000000000)) (Some (-163157637306608 # 1000000000000000)) (Some (-167776762771423 # 1000000000000000)) (Some (0 # 1)) (566074016518711 # 1000000000000000) (548664531610201 # 1000000000000000) (767225272268174 # 1000000000000000) (565254652371162 # 1000000000000000) (588644645166507 # 1000000000000000) (437987725629671 # 1000000000000000) (2 # 10) (-999887610237831 # 1000000000000000) (-311563064510759 # 1000000000000000000);
  Mk_ba19_row (1905461 # 100000) (Some (-480990104354852 # 100000000000000)) (Some (127 # 100)) (Some (189597556762124 # 100000000000000)) (Some (169590844699943 # 10000000000000)) (Some (505967175811718 # 100000000000000)) (Some (-186 # 100)) (Some (64551 # 10000)) (Some (48825668841376 # 100000000000000)) (Some (310209123847149 # 100000000000000)) (Some (-152377286122535 # 10000000000000000)) (Some (34578605568943 # 100000000000000)) (Some (54192850168901 # 1000000000000000)) (Some (-2 # 10)) (Some (-130683631755805 # 10000000000000000)) (Some (-107534085169688 # 1000000000000000)) (Some (-16455509652919 # 100000000000000)) (Some (-169202903380914 # 1000000000000000)) (Some (0 # 1)) (568530404336573 # 1000000000000000) (549994094572873 # 1000000000000000) (772747643000394 # 1000000000000000) (567746154788526 # 1000000000000000) (591682746014965 # 1000000000000000) (440699605287325 # 1000000000000000) (2 # 10) (-999960915709563 # 1000000000000000) (-293528595428406 # 1000000000000000000);
  Mk_ba19_row (19498443 # 1000000) (Some (-484778935852905 # 100000000000000)) (Some (127 # 100)) (Some (189702754428927 # 100000000000000)) (Some (168872815535322 # 10000000000000)) (Some (505982377291501 # 100000000000000)) (Some (-186 # 100)) (Some (64551 # 10000)) (Some (488324834003761 # 1000000000000000)) (Some (310161989814066 # 100000000000000)) (Some (-152377291624535 # 10000000000000000)) (Some (361280185297899 # 1000000000000000)) (Some (542700824757872 # 10000000000000000)) (Some (-2 # 10)) (Some (-162391188037029 # 10000000000000000)) (Some (-108845520391026 # 1000000000000000)) (Some (-16594687250713 # 100000000000000)) (Some (-170626055820194 # 1000000000000000)) (Some (0 # 1)) (570893381980454 # 1000000000000000) (551246215021975 # 1000000000000000) (778025607854152 # 1000000000000000) (570123913448251 # 1000000000000000) (594654467813249 # 1000000000000000) (443367092644704 # 1000000000000000) (2 # 10) (-999990194256275 # 1000000000000000) (-276613303442879 # 1000000000000000000);
  Mk_ba19_row (19952621 # 1000000) (Some (-488587970784449 # 100000000000000)) (Some (127 # 100)) (Some (189806024101315 # 100000000000000)) (Some (168155653351834 # 10000000000000)) (Some (506004123151989 # 100000000000000)) (Some (-186 # 100)) (Some (64551 # 10000)) (Some (488392980622932 # 1000000000000000)) (Some (310114855069139 # 100000000000000)) (Some (-152377291624535 # 10000000000000000)) (Some (376786815754324 # 1000000000000000)) (Some (543458381194439 # 10000000000000000)) (Some (-2 # 10)) (Some (-194140621513571 # 10000000000000000)) (Some (-110153606623263 # 1000000000000000)) (Some (-167332698154471 # 1000000000000000)) (Some (-17204608101959 # 100000000000000)) (Some (0 # 1)) (573161892064799 # 1000000000000000) (552423923266327 # 1000000000000000) (783060817611453 # 1000000000000000) (572386309906388 # 1000000000000000) (597553751914799 # 1000000000000000) (445983238005993 # 1000000000000000) (2 # 10) (-999998625716016 # 1000000000000000) (-260722559248076 # 1000000000000000000);
  Mk_ba19_row (2041738 # 100000) (Some (-492417716980198 # 100000000000000)) (Some (127 # 100)) (Some (189907350753105 # 100000000000000)) (Some (16743944041484 # 1000000000000)) (Some (50603267111226 # 10000000000000)) (Some (-186 # 100)) (Some (64551 # 10000)) (Some (488437024104432 # 1000000000000000)) (Some (310088711139952 # 100000000000000)) (Some (-152377291624535 # 10000000000000000)) (Some (392305152462936 # 1000000000000000)) (Some (544200962888668 # 10000000000000000)) (Some (-2 # 10)) (Some (-22592841389233 # 1000000000000000)) (Some (-11145798796842 # 100000000000000)) (Some (-168712302135528 # 1000000000000000)) (Some (-173462848346337 # 1000000000000000)) (Some (0 # 1)) (575335205974156 # 1000000000000000) (553530609279726 # 1000000000000000) (787855546374756 # 1000000000000000) (574531983379695 # 1000000000000000) (6003752165584 # 10000000000000) (448541790905601 # 1000000000000000) (2 # 10) (-999999934220686 # 1000000000000000) (-245781718957925 # 1000000000000000000);
  Mk_ba19_row (2089296 # 100000) (Some (-496268794466143 # 100000000000000)) (Some (127 # 100)) (Some (190006631057006 # 100000000000000)) (Some (166724026051443 # 10000000000000)) (Some (506068229545371 # 100000000000000)) (Some (-186 # 100)) (Some (64551 # 10000)) (Some (488478299348218 # 1000000000000000)) (Some (310064977874775 # 100000000000000)) (Some (-152377291624535 # 10000000000000000)) (Some (407834341645654 # 1000000000000000)) (Some (544928430194185 # 10000000000000000)) (Some (-2 # 10)) (Some (-257750943263989 # 10000000000000000)) (Some (-11275833531224 # 100000000000000)) (Some (-170085438394146 # 1000000000000000)) (Some (-174876231943359 # 1000000000000000)) (Some (0 # 1)) (577412913118389 # 1000000000000000) (554570162935534 # 1000000000000000) (792412461330474 # 1000000000000000) (57655983873465 # 100000000000000) (603114102254623 # 1000000000000000) (451037159263978 # 1000000000000000) (2 # 10) (-1 # 1) (-231733202770807 # 1000000000000000000);
  Mk_ba19_row (2137962 # 100000) (Some (-500141892403836 # 100000000000000)) (Some (127 # 100)) (Some (190103681003542 # 100000000000000)) (Some (166009039030584 # 10000000000000)) (Some (506110953735474 # 100000000000000)) (Some (-186 # 100)) (Some (64551 # 10000)) (Some (488519574790079 # 1000000000000000)) (Some (310041244495705 # 100000000000000)) (Some (-152377291624535 # 10000000000000000)) (Some (423373466771713 # 1000000000000000)) (Some (54564072064575 # 1000000000000000)) (Some (-2 # 10)) (Some (-28960466296919 # 1000000000000000)) (Some (-114054356712044 # 1000000000000000)) (Some (-171451909095636 # 1000000000000000)) (Some (-176286116067856 # 1000000000000000)) (Some (0 # 1)) (579394902177121 # 1000000000000000) (555547289386875 # 1000000000000000) (796734526034617 # 1000000000000000) (578469062380835 # 1000000000000000) (60576621596811 # 100000000000000) (453464351836002 # 1000000000000000) (2 # 10) (-1 # 1) (-218531540233501 # 1000000000000000000);
  Mk_ba19_row (21877611 # 1000000) (Some (-504037742709611 # 100000000000000)) (Some (127 # 100)) (Some (190198201287455 # 100000000000000)) (Some (16529380166197 # 1000000000000)) (Some (506160938991362 # 100000000000000)) (Some (-186 # 100)) (Some (64551 # 10000)) (Some (488560849840452 # 1000000000000000)) (Some (31001751134174 # 10000000000000)) (Some (-152377291624535 # 10000000000000000)) (Some (43892152953362 # 100000000000000)) (Some (546337858151284 # 10000000000000000)) (Some (-2 # 10)) (Some (-321486251349965 # 10000000000000000)) (Some (-115345788694515 # 1000000000000000)) (Some (-172811578822185 # 1000000000000000)) (Some (-177692393126427 # 1000000000000000)) (Some (0 # 1)) (581281333578349 # 1000000000000000) (556466794844906 # 1000000000000000) (800824949704852 # 1000000000000000) (580259146063382 # 1000000000000000) (60832786742417 # 100000000000000) (455818908506965 # 1000000000000000) (2 # 10) (-1 # 1) (-206137632659983 # 1000000000000000000);
  Mk_ba19_row (2238721 # 100000) (Some (-507957083400269 # 100000000000000)) (Some (127 # 100)) (Some (190289758913573 # 100000000000000)) (Some (164577295284914 # 10000000000000)) (Some (50621821251977 # 10000000000000)) (Some (-186 # 100)) (Some (64551 # 10000)) (Some (488602125563437 # 1000000000000000)) (Some (309993777801024 # 100000000000000)) (Some (-152377291624535 # 10000000000000000)) (Some (454477499881092 # 1000000000000000)) (Some (547019962627873 # 10000000000000000)) (Some (-2 # 10)) (Some (-353392806350189 # 10000000000000000)) (Some (-116632389016912 # 1000000000000000)) (Some (-174164386905542 # 1000000000000000)) (Some (-179094964699599 # 1000000000000000)) (Some (0 # 1)) (583072604562237 # 1000000000000000) (557333467149523 # 1000000000000000) (804687152576637 # 1000000000000000) (581929917435389 # 1000000000000000) (61079579771511 # 100000000000000) (458096821822565 # 1000000000000000) (2 # 10) (-1 # 1) (-194517831703604 # 1000000000000000000);
  Mk_ba19_row (22908672 # 1000000) (Some (-511900640312635 # 100000000000000)) (Some (127 # 100)) (Some (19037773361461 # 10000000000000)) (Some (163858039063268 # 10000000000000)) (Some (506282730549547 # 100000000000000)) (Some (-186 # 100)) (Some (64551 # 10000)) (Some (48864340072474 # 100000000000000)) (Some (309970044583274 # 100000000000000)) (Some (-152377291624535 # 10000000000000000)) (Some (470040355927285 # 1000000000000000)) (Some (54768726011736 # 1000000000000000)) (Some (-2 # 10)) (Some (-385321740963525 # 10000000000000000)) (Some (-117913953364868 # 1000000000000000)) (Some (-175510350403372 # 1000000000000000)) (Some (-18049377500454 # 100000000000000)) (Some (0 # 1)) (584769308840458 # 1000000000000000) (558152442308887 # 1000000000000000) (808324733559292 # 1000000000000000) (583481575420593 # 1000000000000000) (613167101328374 # 1000000000000000) (460294452148559 # 1000000000000000) (2 # 10) (-1 # 1) (-183644878504695 # 1000000000000000000);
  Mk_ba19_row (23442283 # 1000000) (Some (-515869113182543 # 100000000000000)) (Some (127 # 100)) (Some (190461465506001 # 100000000000000)) (Some (163134492053808 # 10000000000000)) (Some (506354390850077 # 100000000000000)) (Some (-186 # 100)) (Some (64551 # 10000)) (Some (488684676089607 # 1000000000000000)) (Some (309946311248476 # 100000000000000)) (Some (-152377291624535 # 10000000000000000)) (Some (485609136921348 # 1000000000000000)) (Some (548340093462042 # 10000000000000000)) (Some (-2 # 10)) (Some (-417270941652492 # 10000000000000000)) (Some (-119190352194597 # 1000000000000000)) (Some (-176849564080817 # 1000000000000000)) (Some (-181888802062993 # 1000000000000000)) (Some (0 # 1)) (586372192694775 # 1000000000000000) (55892907653363 # 100000000000000) (811741435688023 # 1000000000000000) (584914727534212 # 1000000000000000) (615439143037692 # 1000000000000000) (462408438211462 # 1000000000000000) (2 # 10) (-1 # 1) (-173498913026147 # 1000000000000000000);
  Mk_ba19_row (23988321 # 1000000) (Some (-519863167516077 # 100000000000000)) (Some (127 # 100)) (Some (190540485962377 # 100000000000000)) (Some (16240565561365 # 1000000000000)) (Some (506433042764907 # 100000000000000)) (Some (-186 # 100)) (Some (64551 # 10000)) (Some (488725951276266 # 1000000000000000)) (Some (309922578016147 # 100000000000000)) (Some (-152377291624535 # 10000000000000000)) (Some (501182975301589 # 1000000000000000)) (Some (548978933511844 # 10000000000000000)) (Some (-2 # 10)) (Some (-449238382337673 # 10000000000000000)) (Some (-120461530595888 # 1000000000000000)) (Some (-178182179594912 # 1000000000000000)) (Some (-183280052473884 # 1000000000000000)) (Some (0 # 1)) (587882108948755 # 1000000000000000) (55966869799227 # 100000000000000) (814941108906524 # 1000000000000000) (586230425152393 # 1000000000000000) (617609471005397 # 1000000000000000) (464435604310978 # 1000000000000000) (2 # 10) (-1 # 1) (-16406787452545 # 100000000000000000);
  Mk_ba19_row (2454708 # 100000) None None None None None None None None None None None None None None None None None None (58929996982758 # 100000000000000) (560376010160549 # 1000000000000000) (817927671091005 # 1000000000000000) (58743019117868 # 100000000000000) (619675727150903 # 1000000000000000) (466372865095897 # 1000000000000000) (2 # 10) (-1 # 1) (-155346152675969 # 1000000000000000000);
  Mk_ba19_row (2511886 # 100000) None None None None None None None None None None None None None None None None None None (590626715743868 # 1000000000000000) (561054675854511 # 1000000000000000) (820705094694378 # 1000000000000000) (588516040697707 # 1000000000000000) (621635587500562 # 1000000000000000) (468217160902602 # 1000000000000000) (2 # 10) (-1 # 1) (-147332065162908 # 1000000000000000000);
  Mk_ba19_row (2570395 # 100000) None None None None None None None None None None None None None None None None None None (591863349277581 # 1000000000000000) (561707726063854 # 1000000000000000) (823277496904603 # 1000000000000000) (589490506357254 # 1000000000000000) (623486829361841 # 1000000000000000) (469965521975298 # 1000000000000000) (2 # 10) (-1 # 1) (-140024266841173 # 1000000000000000000);
  Mk_ba19_row (2630267 # 100000) None None None None None None None None None None None None None None None None None None (593010984270723 # 1000000000000000) (562336868928494 # 1000000000000000) (825649247783886 # 1000000000000000) (590356630488878 # 1000000000000000) (625227430862945 # 1000000000000000) (471615166694017 # 1000000000000000) (2 # 10) (-1 # 1) (-133417865209641 # 1000000000000000000);
  Mk_ba19_row (2691534 # 100000) None None None None None None None None None None None None None None None None None None (594070893192676 # 1000000000000000) (562942200999976 # 1000000000000000) (827825068190345 # 1000000000000000) (591117944770466 # 1000000000000000) (626855670652057 # 1000000000000000) (47316360133226 # 100000000000000) (2 # 10) (-1 # 1) (-127503548668245 # 1000000000000000000);
  Mk_ba19_row (27542291 # 1000000) None None None None None None None None None None None None None None None None None None (595044552333081 # 1000000000000000) (563522706823536 # 1000000000000000) (829810116920106 # 1000000000000000) (591778449959206 # 1000000000000000) (628370226692444 # 1000000000000000) (474608720200986 # 1000000000000000) (2 # 10) (-1 # 1) (-122267737117609 # 1000000000000000000);
  Mk_ba19_row (28183832 # 1000000) None None None None None None None None None None None None None None None None None None (59593368417056 # 100000000000000) (564076618878144 # 1000000000000000) (831610066088855 # 1000000000000000) (592342595960132 # 1000000000000000) (629770272657086 # 1000000000000000) (475948904597142 # 1000000000000000) (2 # 10) (-1 # 1) (-117692981391783 # 1000000000000000000);
  Mk_ba19_row (2884032 # 100000) None None None None None None None None None None None None None None None None None None (596740296067306 # 1000000000000000) (56460132066605 # 100000000000000) (83323116337929 # 100000000000000) (592815260661113 # 1000000000000000) (631055570005195 # 1000000000000000) (477183118543651 # 1000000000000000) (2 # 10) (-1 # 1) (-113758403356514 # 1000000000000000000);
  Mk_ba19_row (29512094 # 1000000) None None None None None None None None None None None None None None None None None None (59746671425536 # 100000000000000) (565093819086959 # 1000000000000000) (83468027950505 # 100000000000000) (593201725692549 # 1000000000000000) (632226553425032 # 1000000000000000) (478310998896686 # 1000000000000000) (2 # 10) (-1 # 1) (-110438996387971 # 1000000000000000000);
  Mk_ba19_row (3019952 # 100000) None None None None None None None None None None None None None None None None None None (598115611921205 # 1000000000000000) (565550898010307 # 1000000000000000) (835964939165069 # 1000000000000000) (593507647512028 # 1000000000000000) (633284406965889 # 1000000000000000) (479332937020388 # 1000000000000000) (2 # 10) (-1 # 1) (-107703076250586 # 1000000000000000000);
  Mk_ba19_row (30902954 # 1000000) None None None None None None None None None None None None None None None None None None (598690030065273 # 1000000000000000) (565969133001555 # 1000000000000000) (837093333797862 # 1000000000000000) (593739022553139 # 1000000000000000) (634231127875467 # 1000000000000000) (48025014890388 # 100000000000000) (2 # 10) (-1 # 1) (-105509291419771 # 1000000000000000000);
  Mk_ba19_row (3162278 # 100000) None None None None None None None None None None None None None None None None None None (599193389726423 # 1000000000000000) (566345254457836 # 1000000000000000) (838074314491123 # 1000000000000000) (593902145501819 # 1000000000000000) (635069574927129 # 1000000000000000) (481064730338464 # 1000000000000000) (2 # 10) (-1 # 1) (-103805640804637 # 1000000000000000000);
  Mk_ba19_row (32359363 # 1000000) None None None None None None None None None None None None None None None None None None (599629494130764 # 1000000000000000) (566676395655806 # 1000000000000000) (838917363504462 # 1000000000000000) (594003560067812 # 1000000000000000) (635803497885477 # 1000000000000000) (481779693607539 # 1000000000000000) (2 # 10) (-1 # 1) (-102529634758421 # 1000000000000000000);
  Mk_ba19_row (3311311 # 100000) None None None None None None None None None None None None None None None None None None (600002519356961 # 1000000000000000) (566960113640702 # 1000000000000000) (839632543077668 # 1000000000000000) (5940500019164 # 10000000000000) (636437544741254 # 1000000000000000) (482398982094751 # 1000000000000000) (2 # 10) (-1 # 1) (-101610510646099 # 1000000000000000000);
  Mk_ba19_row (33884414 # 1000000) None None None None None None None None None None None None None None None None None None (600316992218923 # 1000000000000000) (567194422662595 # 1000000000000000) (840230420541538 # 1000000000000000) (594048333734062 # 1000000000000000) (636977243475918 # 1000000000000000) (482927459318761 # 1000000000000000) (2 # 10) (-1 # 1) (-100975117959211 # 1000000000000000000);
  Mk_ba19_row (34673683 # 1000000) None None None None None None None None None None None None None None None None None None (600577754265497 # 1000000000000000) (567378588714629 # 1000000000000000) (840721969228124 # 1000000000000000) (594005472732095 # 1000000000000000) (637428955424099 # 1000000000000000) (483370869188382 # 1000000000000000) (2 # 10) (-1 # 1) (-100555447028243 # 1000000000000000000);
  Mk_ba19_row (35481334 # 1000000) None None None None None None None None None None None None None None None None None None (600789911095374 # 1000000000000000) (567513688731752 # 1000000000000000) (841118445317425 # 1000000000000000) (59392831124535 # 100000000000000) (637799797823856 # 1000000000000000) (483735764776228 # 1000000000000000) (2 # 10) (-1 # 1) (-100293300158154 # 1000000000000000000);
  Mk_ba19_row (363078 # 10000) None None None None None None None None None None None None None None None None None None (600958766598285 # 1000000000000000) (567603343906679 # 1000000000000000) (841431241576378 # 1000000000000000) (593823631454535 # 1000000000000000) (638097533916718 # 1000000000000000) (48402940367161 # 100000000000000) (2 # 10) (-1 # 1) (-100140847821854 # 1000000000000000000);
  Mk_ba19_row (37153514 # 1000000) None None None None None None None None None None None None None None None None None None (601089742282226 # 1000000000000000) (567653453231839 # 1000000000000000) (841671719951072 # 1000000000000000) (593698015645266 # 1000000000000000) (638330430022007 # 1000000000000000) (484259609037416 # 1000000000000000) (2 # 10) (-1 # 1) (-100059885204652 # 1000000000000000000);
  Mk_ba19_row (38018932 # 1000000) None None None None None None None None None None None None None None None None None None (601188282551225 # 1000000000000000) (56767181840533 # 100000000000000) (841851026191046 # 1000000000000000) (593557753809934 # 1000000000000000) (638507080405537 # 1000000000000000) (484434596907862 # 1000000000000000) (2 # 10) (-1 # 1) (-100021459822487 # 1000000000000000000);
  Mk_ba19_row (3890451 # 100000) None None None None None None None None None None None None None None None None None None (60125974767799 # 100000000000000) (567666695837977 # 1000000000000000) (841979891128002 # 1000000000000000) (593408750792571 # 1000000000000000) (638636202541254 # 1000000000000000) (484562772074849 # 1000000000000000) (2 # 10) (-1 # 1) (-100005822796604 # 1000000000000000000);
  Mk_ba19_row (3981071 # 100000) None None None None None None None None None None None None None None None None None None (601309297292179 # 1000000000000000) (567646533453102 # 1000000000000000) (842068424904632 # 1000000000000000) (59325643556681 # 100000000000000) (638726407576895 # 1000000000000000) (484652497175799 # 1000000000000000) (2 # 10) (-1 # 1) (-100000976457746 # 1000000000000000000);
  Mk_ba19_row (4073802 # 100000) None None None None None None None None None None None None None None None None None None (601341768503286 # 1000000000000000) (567619730291274 # 1000000000000000) (842125912361868 # 1000000000000000) (593105675607471 # 1000000000000000) (638785953513691 # 1000000000000000) (48471184237356 # 100000000000000) (2 # 10) (-1 # 1) (-10000007076372 # 100000000000000000);
  Mk_ba19_row (4168693 # 100000) None None None None None None None None None None None None None None None None None None (601361554315823 # 1000000000000000) (567593512473842 # 1000000000000000) (842160619952127 # 1000000000000000) (593068790552343 # 1000000000000000) (638822491854094 # 1000000000000000) (484748326370062 # 1000000000000000) (2 # 10) (-1 # 1) (-100000064204084 # 1000000000000000000);
  Mk_ba19_row (4265794 # 100000) None None None None None None None None None None None None None None None None None None (601372489794866 # 1000000000000000) (567572712039942 # 1000000000000000) (842179626957834 # 1000000000000000) (593038605092683 # 1000000000000000) (638842822318023 # 1000000000000000) (484768663484472 # 1000000000000000) (2 # 10) (-1 # 1) (-100000058249865 # 1000000000000000000);
  Mk_ba19_row (4365157 # 100000) None None None None None None None None None None None None None None None None None None (601377755528905 # 1000000000000000) (567559449342687 # 1000000000000000) (842188696465461 # 1000000000000000) (593017173821266 # 1000000000000000) (638852674735172 # 1000000000000000) (484778536222859 # 1000000000000000) (2 # 10) (-1 # 1) (-100000052706053 # 1000000000000000000);
  Mk_ba19_row (44668342 # 1000000) None None None None None None None None None None None None None None None None None None (601379810345847 # 1000000000000000) (567553008396807 # 1000000000000000) (842192204483753 # 1000000000000000) (593003219437983 # 1000000000000000) (6388565424625 # 10000000000000) (484782418242224 # 1000000000000000) (2 # 10) (-1 # 1) (-100000047459086 # 1000000000000000000);
  Mk_ba19_row (4570881 # 100000) None None None None None None None None None None None None None None None None None None (60138036799808 # 100000000000000) (567550953342232 # 1000000000000000) (842193148812213 # 1000000000000000) (592994370957294 # 1000000000000000) (638857597727912 # 1000000000000000) (484783478947401 # 1000000000000000) (2 # 10) (-1 # 1) (-100000042455516 # 1000000000000000000);
  Mk_ba19_row (467735 # 10000) None None None None None None None None None None None None None None None None None None (601380435667345 # 1000000000000000) (567550679895716 # 1000000000000000) (842193262776061 # 1000000000000000) (59298836831268 # 100000000000000) (638857726233113 # 1000000000000000) (48478360823915 # 100000000000000) (2 # 10) (-1 # 1) (-100000037674055 # 1000000000000000000);
  Mk_ba19_row (47862991 # 1000000) None None None None None None None None None None None None None None None None None None (601380435667345 # 1000000000000000) (567550679895716 # 1000000000000000) (842193262776061 # 1000000000000000) (592983413875179 # 1000000000000000) (638857726233113 # 1000000000000000) (48478360823915 # 100000000000000) (2 # 10) (-1 # 1) (-100000033107183 # 1000000000000000000);
  Mk_ba19_row (4897789 # 100000) None None None None None None None None None None None None None None None None None None (601380435667345 # 1000000000000000) (567550679895716 # 1000000000000000) (842193262776061 # 1000000000000000) (592978178047766 # 1000000000000000) (638857726233113 # 1000000000000000) (48478360823915 # 100000000000000) (2 # 10) (-1 # 1) (-100000028751631 # 1000000000000000000);
  Mk_ba19_row (5011873 # 100000) None None None None None None None None None None None None None None None None None None (601380435667345 # 1000000000000000) (567550679895716 # 1000000000000000) (842193262776061 # 1000000000000000) (592971710288749 # 1000000000000000) (638857726233113 # 1000000000000000) (48478360823915 # 100000000000000) (2 # 10) (-1 # 1) (-100000024604238 # 1000000000000000000);
  Mk_ba19_row (51286144 # 1000000) None None None None None None None None None None None None None None None None None None (601380435667345 # 1000000000000000) (567550679895716 # 1000000000000000) (842193262776061 # 1000000000000000) (592963344503308 # 1000000000000000) (638857726233113 # 1000000000000000) (48478360823915 # 100000000000000) (2 # 10) (-1 # 1) (-100000020660538 # 1000000000000000000);
  Mk_ba19_row (52480751 # 1000000) None None None None None None None None None None None None None None None None None None (601380435667345 # 1000000000000000) (567550679895716 # 1000000000000000) (842193262776061 # 1000000000000000) (592952622202039 # 1000000000000000) (638857726233113 # 1000000000000000) (48478360823915 # 100000000000000) (2 # 10) (-1 # 1) (-100000016914573 # 1000000000000000000);
  Mk_ba19_row (53703182 # 1000000) None None None None None None None None None None None None None None None None None None (601380435667344 # 1000000000000000) (567550679895716 # 1000000000000000) (842193262776061 # 1000000000000000) (592939235254987 # 1000000000000000) (638857726233113 # 1000000000000000) (48478360823915 # 100000000000000) (2 # 10) (-1 # 1) (-100000013359167 # 1000000000000000000);
  Mk_ba19_row (5495409 # 100000) None None None None None None None None None None None None None None None None None None (601380435667345 # 1000000000000000) (567550679895716 # 1000000000000000) (842193262776061 # 1000000000000000) (592922984527097 # 1000000000000000) (638857726233113 # 1000000000000000) (48478360823915 # 100000000000000) (2 # 10) (-1 # 1) (-100000009986317 # 1000000000000000000);
  Mk_ba19_row (5623413 # 100000) None None None None None None None None None None None None None None None None None None (601380435667344 # 1000000000000000) (567550679895715 # 1000000000000000) (842193262776061 # 1000000000000000) (592903750206731 # 1000000000000000) (638857726233113 # 1000000000000000) (48478360823915 # 100000000000000) (2 # 10) (-1 # 1) (-100000006787557 # 1000000000000000000);
  Mk_ba19_row (57543991 # 1000000) None None None None None None None None None None None None None None None None None None (601380435667344 # 1000000000000000) (567550679895715 # 1000000000000000) (84219326277606 # 100000000000000) (59288147044702 # 100000000000000) (638857726233112 # 1000000000000000) (48478360823915 # 100000000000000) (2 # 10) (-1 # 1) (-10000000375425 # 100000000000000000);
  Mk_ba19_row (58884361 # 1000000) None None None None None None None None None None None None None None None None None None (601380435667344 # 1000000000000000) (567550679895715 # 1000000000000000) (842193262776061 # 1000000000000000) (59285612585987 # 100000000000000) (638857726233113 # 1000000000000000) (48478360823915 # 100000000000000) (2 # 10) (-1 # 1) (-100000000877805 # 1000000000000000000);
  Mk_ba19_row (60255954 # 1000000) None None None None None None None None None None None None None None None None None None (601380435667344 # 1000000000000000) (567550679895715 # 1000000000000000) (84219326277606 # 100000000000000) (592827728141639 # 1000000000000000) (638857726233113 # 1000000000000000) (48478360823915 # 100000000000000) (2 # 10) (-1 # 1) (-1 # 10000);
  Mk_ba19_row (616595 # 10000) None None None None None None None None None None None None None None None None None None (601380435667344 # 1000000000000000) (567550679895715 # 1000000000000000) (842193262776061 # 1000000000000000) (592796311642508 # 1000000000000000) (638857726233113 # 1000000000000000) (48478360823915 # 100000000000000) (2 # 10) (-1 # 1) (-1 # 10000);
  Mk_ba19_row (6309573 # 100000) None None None None None None None None None None None None None None None None None None (601380435667345 # 1000000000000000) (567550679895716 # 1000000000000000) (842193262776061 # 1000000000000000) (592761927059788 # 1000000000000000) (638857726233113 # 1000000000000000) (484783608239151 # 1000000000000000) (2 # 10) (-1 # 1) (-1 # 10000);
  Mk_ba19_row (64565414 # 1000000) None None None None None None None None None None None None None None None None None None (601380435667344 # 1000000000000000) (567550679895715 # 1000000000000000) (84219326277606 # 100000000000000) (59272463668547 # 100000000000000) (638857726233113 # 1000000000000000) (48478360823915 # 100000000000000) (2 # 10) (-1 # 1) (-1 # 10000);
  Mk_ba19_row (6606933 # 100000) None None None None None None None None None None None None None None None None None None (601380435667344 # 1000000000000000) (567550679895715 # 1000000000000000) (842193262776061 # 1000000000000000) (592684510807461 # 1000000000000000) (638857726233113 # 1000000000000000) (48478360823915 # 100000000000000) (2 # 10) (-1 # 1) (-1 # 10000);
  Mk_ba19_row (67608283 # 1000000) None None None None None None None None None None None None None None None None None None (601380435667345 # 1000000000000000) (567550679895716 # 1000000000000000) (842193262776061 # 1000000000000000) (592641624978624 # 1000000000000000) (638857726233113 # 1000000000000000) (484783608239151 # 1000000000000000) (2 # 10) (-1 # 1) (-1 # 10000);
  Mk_ba19_row (69183082 # 1000000) None None None None None None None None None None None None None None None None None None (601380435667344 # 1000000000000000) (567550679895715 # 1000000000000000) (84219326277606 # 100000000000000) (592596057945983 # 1000000000000000) (638857726233113 # 1000000000000000) (48478360823915 # 100000000000000) (2 # 10) (-999999999999999 # 1000000000000000) (-1 # 10000);
  Mk_ba19_row (7079456 # 100000) None None None None None None None None None None None None None None None None None None (601380435667345 # 1000000000000000) (567550679895716 # 1000000000000000) (842193262776061 # 1000000000000000) (592547890086302 # 1000000000000000) (638857726233113 # 1000000000000000) (48478360823915 # 100000000000000) (2 # 10) (-1 # 1) (-1 # 10000);
  Mk_ba19_row (72443572 # 1000000) None None None None None None None None None None None None None None None None None None (601380435667344 # 1000000000000000) (567550679895716 # 1000000000000000) (84219326277606 # 100000000000000) (592497202231624 # 1000000000000000) (638857726233113 # 1000000000000000) (48478360823915 # 100000000000000) (2 # 10) (-1 # 1) (-1 # 10000);
  Mk_ba19_row (74131004 # 1000000) None None None None None None None None None None None None None None None None None None (601380435667344 # 1000000000000000) (567550679895716 # 1000000000000000) (842193262776061 # 1000000000000000) (592444074794601 # 1000000000000000) (638857726233113 # 1000000000000000) (48478360823915 # 100000000000000) (2 # 10) (-999999999999999 # 1000000000000000) (-1 # 10000);
  Mk_ba19_row (75857734 # 1000000) None None None None None None None None None None None None None None None None None None (601380435667344 # 1000000000000000) (567550679895715 # 1000000000000000) (84219326277606 # 100000000000000) (592388587122013 # 1000000000000000) (638857726233113 # 1000000000000000) (48478360823915 # 100000000000000) (2 # 10) (-1 # 1) (-1 # 10000);
  Mk_ba19_row (7762469 # 100000) None None None None None None None None None None None None None None None None None None (601380435667345 # 1000000000000000) (567550679895715 # 1000000000000000) (842193262776061 # 1000000000000000) (592330817018169 # 1000000000000000) (638857726233113 # 1000000000000000) (48478360823915 # 100000000000000) (2 # 10) (-1 # 1) (-1 # 10000);
  Mk_ba19_row (79432792 # 1000000) None None None None None None None None None None None None None None None None None None (601380435667344 # 1000000000000000) (567550679895715 # 1000000000000000) (84219326277606 # 100000000000000) (59227084038939 # 100000000000000) (638857726233113 # 1000000000000000) (48478360823915 # 100000000000000) (2 # 10) (-1 # 1) (-1 # 10000);
  Mk_ba19_row (8128303 # 100000) None None None None None None None None None None None None None None None None None None (601380435667345 # 1000000000000000) (567550679895716 # 1000000000000000) (842193262776061 # 1000000000000000) (592208730967711 # 1000000000000000) (638857726233113 # 1000000000000000) (48478360823915 # 100000000000000) (2 # 10) (-1 # 1) (-1 # 10000);
  Mk_ba19_row (8317635 # 100000) None None None None None None None None None None None None None None None None None None (601380435667344 # 1000000000000000) (567550679895715 # 1000000000000000) (84219326277606 # 100000000000000) (59214456007685 # 100000000000000) (638857726233113 # 1000000000000000) (48478360823915 # 100000000000000) (2 # 10) (-1 # 1) (-1 # 10000);
  Mk_ba19_row (8511377 # 100000) None None None None None None None None None None None None None None None None None None (601380435667344 # 1000000000000000) (567550679895715 # 1000000000000000) (842193262776061 # 1000000000000000) (592078396407091 # 1000000000000000) (638857726233113 # 1000000000000000) (48478360823915 # 100000000000000) (2 # 10) (-1 # 1) (-1 # 10000);
  Mk_ba19_row (87096321 # 1000000) None None None None None None None None None None None None None None None None None None (601380435667345 # 1000000000000000) (567550679895716 # 1000000000000000) (842193262776061 # 1000000000000000) (592010305768132 # 1000000000000000) (638857726233113 # 1000000000000000) (48478360823915 # 100000000000000) (2 # 10) (-1 # 1) (-1 # 10000);
  Mk_ba19_row (891251 # 10000) None None None None None None None None None None None None None None None None None None (601380435667344 # 1000000000000000) (567550679895715 # 1000000000000000) (842193262776061 # 1000000000000000) (591940350790599 # 1000000000000000) (638857726233113 # 1000000000000000) (48478360823915 # 100000000000000) (2 # 10) (-1 # 1) (-1 # 10000);
  Mk_ba19_row (912011 # 10000) None None None None None None None None None None None None None None None None None None (601380435667344 # 1000000000000000) (567550679895715 # 1000000000000000) (842193262776061 # 1000000000000000) (591868590547812 # 1000000000000000) (638857726233113 # 1000000000000000) (48478360823915 # 100000000000000) (2 # 10) (-1 # 1) (-1 # 10000);
  Mk_ba19_row (9332544 # 100000) None None None None None None None None None None None None None None None None None None (601380435667345 # 1000000000000000) (567550679895716 # 1000000000000000) (842193262776061 # 1000000000000000) (591795080069658 # 1000000000000000) (638857726233113 # 1000000000000000) (48478360823915 # 100000000000000) (2 # 10) (-1 # 1) (-1 # 10000);
  Mk_ba19_row (9549926 # 100000) None None None None None None None None None None None None None None None None None None (601380435667344 # 1000000000000000) (567550679895715 # 1000000000000000) (84219326277606 # 100000000000000) (59171986972011 # 100000000000000) (638857726233113 # 1000000000000000) (48478360823915 # 100000000000000) (2 # 10) (-999999999999999 # 1000000000000000) (-1 # 10000);
  Mk_ba19_row (97723724 # 1000000) None None None None None None None None None None None None None None None None None None (601380435667344 # 1000000000000000) (567550679895715 # 1000000000000000) (84219326277606 # 100000000000000) (591643004408915 # 1000000000000000) (638857726233113 # 1000000000000000) (48478360823915 # 100000000000000) (2 # 10) (-1 # 1) (-1 # 10000);
  Mk_ba19_row (100 # 1) None None None None None None None None None None None None None None None None None None (601380435667344 # 1000000000000000) (567550679895715 # 1000000000000000) (842193262776061 # 1000000000000000) (591564522606274 # 1000000000000000) (638857726233113 # 1000000000000000) (48478360823915 # 100000000000000) (2 # 10) (-1 # 1) (-1 # 10000)
].

