(** PadCentersData.v -- generated by tools/pad_data.py from
    /repo/src/attpc_engine/detector/data/padxy.csv: the 10240 pad centres in file order, in
    units of 1e-7 mm (every entry of the file has at most 7 decimals). *)
From Coq Require Import ZArith List.
Import ListNotations.
Local Open Scope Z_scope.

Definition pad_centers_e7 : list (Z * Z) := [
(-2699529400,42506561);(-2650447100,42506561);(-2601364700,42506561);(-2552282300,42506561);(-2503199900,42506561);(-2454117600,42506561);
(-2405035200,42506561);(-2355952900,42506561);(-2306870600,42506561);(-2257788200,42506561);(-2208705700,42506561);(-2159623400,42506561);
(-2110541100,42506561);(-2061458700,42506561);(-2012376400,42506561);(-1963294100,42506561);(-1914211700,42506561);(-1865129400,42506561);
(-1816047100,42506561);(-1766964700,42506561);(-1717882200,42506561);(-1668799900,42506561);(-1619717600,42506561);(-1570635200,42506561);
(-1546094100,21253281);(-1521552900,21253281);(-1521552900,63759847);(-1497011700,21253281);(-1497011700,63759847);(-1472470600,63759847);
(-1472470600,21253281);(-1447929400,63759847);(-1447929400,21253281);(-1423388200,21253281);(-1423388200,63759847);(-1398847000,21253281);
(-1398847000,63759847);(-1374305900,63759847);(-1374305900,21253281);(-1349764700,63759847);(-1349764700,21253281);(-1325223500,21253281);
(-1325223500,63759847);(-1300682400,21253281);(-1300682400,63759847);(-1276141100,63759847);(-1276141100,21253281);(-1251600000,63759847);
(-1251600000,21253281);(-1227058800,21253281);(-1227058800,63759847);(-1202517600,21253281);(-1202517600,63759847);(-1177976500,63759847);
(-1177976500,21253281);(-1153435300,63759847);(-1153435300,21253281);(-1128894100,21253281);(-1128894100,63759847);(-1104352900,21253281);
(-1104352900,63759847);(-1079811700,63759847);(-1079811700,21253281);(-1055270500,63759847);(-1055270500,21253281);(-1030729400,21253281);
(-1030729400,63759847);(-1006188200,21253281);(-1006188200,63759847);(-981647030,63759847);(-981647030,21253281);(-957105870,63759847);
(-957105870,21253281);(-932564700,21253281);(-932564700,63759847);(-908023530,21253281);(-908023530,63759847);(-883482360,63759847);
(-883482360,21253281);(-858941120,63759847);(-858941120,21253281);(-834399950,21253281);(-834399950,63759847);(-809858780,21253281);
(-809858780,63759847);(-785317610,63759847);(-785317610,21253281);(-760776440,63759847);(-760776440,21253281);(-736235280,21253281);
(-736235280,63759847);(-711694110,21253281);(-711694110,63759847);(-687152940,63759847);(-687152940,21253281);(-662611770,63759847);
(-662611770,21253281);(-638070560,21253281);(-638070560,63759847);(-613529400,21253281);(-613529400,63759847);(-588988230,63759847);
(-588988230,21253281);(-564447060,63759847);(-564447060,21253281);(-539905850,21253281);(-539905850,63759847);(-515364690,21253281);
(-515364690,63759847);(-490823520,63759847);(-490823520,21253281);(-466282350,63759847);(-466282350,21253281);(-441741180,21253281);
(-441741180,63759847);(-417199970,21253281);(-417199970,63759847);(-392658810,63759847);(-392658810,21253281);(-368117640,63759847);
(-368117640,21253281);(-343576470,21253281);(-343576470,63759847);(-319035280,21253281);(-319035280,63759847);(-294494110,63759847);
(-294494110,21253281);(-269952930,63759847);(-269952930,21253281);(-245411760,21253281);(-245411760,63759847);(-220870590,21253281);
(-220870590,63759847);(-196329400,63759847);(-196329400,21253281);(-171788230,63759847);(-171788230,21253281);(-147247060,21253281);
(-147247060,63759847);(-122705880,21253281);(-122705880,63759847);(-98164701,63759847);(-98164701,21253281);(-73623528,63759847);
(-73623528,21253281);(-49082351,21253281);(-49082351,63759847);(-24541175,21253281);(-24541175,63759847);(0,63759847);
(0,21253281);(24541175,63759847);(24541175,21253281);(49082351,21253281);(49082351,63759847);(73623528,21253281);
(73623528,63759847);(98164701,63759847);(98164701,21253281);(122705880,63759847);(122705880,21253281);(147247060,21253281);
(147247060,63759847);(171788230,21253281);(171788230,63759847);(196329400,63759847);(196329400,21253281);(220870590,63759847);
(220870590,21253281);(245411760,21253281);(245411760,63759847);(269952930,21253281);(269952930,63759847);(294494110,63759847);
(294494110,21253281);(319035280,63759847);(319035280,21253281);(343576470,21253281);(343576470,63759847);(368117640,21253281);
(368117640,63759847);(392658810,63759847);(392658810,21253281);(417199970,63759847);(417199970,21253281);(441741180,21253281);
(441741180,63759847);(466282350,21253281);(466282350,63759847);(490823520,63759847);(490823520,21253281);(515364690,63759847);
(515364690,21253281);(539905850,21253281);(539905850,63759847);(564447060,21253281);(564447060,63759847);(588988230,63759847);
(588988230,21253281);(613529400,63759847);(613529400,21253281);(638070560,21253281);(638070560,63759847);(662611770,21253281);
(662611770,63759847);(687152940,63759847);(687152940,21253281);(711694110,63759847);(711694110,21253281);(736235280,21253281);
(736235280,63759847);(760776440,21253281);(760776440,63759847);(785317610,63759847);(785317610,21253281);(809858780,63759847);
(809858780,21253281);(834399950,21253281);(834399950,63759847);(858941120,21253281);(858941120,63759847);(883482360,63759847);
(883482360,21253281);(908023530,63759847);(908023530,21253281);(932564700,21253281);(932564700,63759847);(957105870,21253281);
(957105870,63759847);(981647030,63759847);(981647030,21253281);(1006188200,63759847);(1006188200,21253281);(1030729400,21253281);
(1030729400,63759847);(1055270500,21253281);(1055270500,63759847);(1079811700,63759847);(1079811700,21253281);(1104352900,63759847);
(1104352900,21253281);(1128894100,21253281);(1128894100,63759847);(1153435300,21253281);(1153435300,63759847);(1177976500,63759847);
(1177976500,21253281);(1202517600,63759847);(1202517600,21253281);(1227058800,21253281);(1227058800,63759847);(1251600000,21253281);
(1251600000,63759847);(1276141100,63759847);(1276141100,21253281);(1300682400,63759847);(1300682400,21253281);(1325223500,21253281);
(1325223500,63759847);(1349764700,21253281);(1349764700,63759847);(1374305900,63759847);(1374305900,21253281);(1398847000,63759847);
(1398847000,21253281);(1423388200,21253281);(1423388200,63759847);(1447929400,21253281);(1447929400,63759847);(1472470600,63759847);
(1472470600,21253281);(1497011700,63759847);(1497011700,21253281);(1521552900,21253281);(1521552900,63759847);(1546094100,21253281);
(1570635200,42506561);(1619717600,42506561);(1668799900,42506561);(1717882200,42506561);(1766964700,42506561);(1816047100,42506561);
(1865129400,42506561);(1914211700,42506561);(1963294100,42506561);(2012376400,42506561);(2061458700,42506561);(2110541100,42506561);
(2159623400,42506561);(2208705700,42506561);(2257788200,42506561);(2306870600,42506561);(2355952900,42506561);(2405035200,42506561);
(2454117600,42506561);(2503199900,42506561);(2552282300,42506561);(2601364700,42506561);(2650447100,42506561);(2699529400,42506561);
(-2699529400,127519690);(-2650447100,127519690);(-2601364700,127519690);(-2552282300,127519690);(-2503199900,127519690);(-2454117600,127519690);
(-2405035200,127519690);(-2355952900,127519690);(-2306870600,127519690);(-2257788200,127519690);(-2208705700,127519690);(-2159623400,127519690);
(-2110541100,127519690);(-2061458700,127519690);(-2012376400,127519690);(-1963294100,127519690);(-1914211700,127519690);(-1865129400,127519690);
(-1816047100,127519690);(-1766964700,127519690);(-1717882200,127519690);(-1668799900,127519690);(-1619717600,127519690);(-1570635200,127519690);
(-1521552900,127519690);(-1497011700,106266410);(-1472470600,106266410);(-1472470600,148772970);(-1447929400,106266410);(-1447929400,148772970);
(-1423388200,148772970);(-1423388200,106266410);(-1398847000,148772970);(-1398847000,106266410);(-1374305900,106266410);(-1374305900,148772970);
(-1349764700,106266410);(-1349764700,148772970);(-1325223500,148772970);(-1325223500,106266410);(-1300682400,148772970);(-1300682400,106266410);
(-1276141100,106266410);(-1276141100,148772970);(-1251600000,106266410);(-1251600000,148772970);(-1227058800,148772970);(-1227058800,106266410);
(-1202517600,148772970);(-1202517600,106266410);(-1177976500,106266410);(-1177976500,148772970);(-1153435300,106266410);(-1153435300,148772970);
(-1128894100,148772970);(-1128894100,106266410);(-1104352900,148772970);(-1104352900,106266410);(-1079811700,106266410);(-1079811700,148772970);
(-1055270500,106266410);(-1055270500,148772970);(-1030729400,148772970);(-1030729400,106266410);(-1006188200,148772970);(-1006188200,106266410);
(-981647030,106266410);(-981647030,148772970);(-957105870,106266410);(-957105870,148772970);(-932564700,148772970);(-932564700,106266410);
(-908023530,148772970);(-908023530,106266410);(-883482360,106266410);(-883482360,148772970);(-858941120,106266410);(-858941120,148772970);
(-834399950,148772970);(-834399950,106266410);(-809858780,148772970);(-809858780,106266410);(-785317610,106266410);(-785317610,148772970);
(-760776440,106266410);(-760776440,148772970);(-736235280,148772970);(-736235280,106266410);(-711694110,148772970);(-711694110,106266410);
(-687152940,106266410);(-687152940,148772970);(-662611770,106266410);(-662611770,148772970);(-638070560,148772970);(-638070560,106266410);
(-613529400,148772970);(-613529400,106266410);(-588988230,106266410);(-588988230,148772970);(-564447060,106266410);(-564447060,148772970);
(-539905850,148772970);(-539905850,106266410);(-515364690,148772970);(-515364690,106266410);(-490823520,106266410);(-490823520,148772970);
(-466282350,106266410);(-466282350,148772970);(-441741180,148772970);(-441741180,106266410);(-417199970,148772970);(-417199970,106266410);
(-392658810,106266410);(-392658810,148772970);(-368117640,106266410);(-368117640,148772970);(-343576470,148772970);(-343576470,106266410);
(-319035280,148772970);(-319035280,106266410);(-294494110,106266410);(-294494110,148772970);(-269952930,106266410);(-269952930,148772970);
(-245411760,148772970);(-245411760,106266410);(-220870590,148772970);(-220870590,106266410);(-196329400,106266410);(-196329400,148772970);
(-171788230,106266410);(-171788230,148772970);(-147247060,148772970);(-147247060,106266410);(-122705880,148772970);(-122705880,106266410);
(-98164701,106266410);(-98164701,148772970);(-73623528,106266410);(-73623528,148772970);(-49082351,148772970);(-49082351,106266410);
(-24541175,148772970);(-24541175,106266410);(0,106266410);(0,148772970);(24541175,106266410);(24541175,148772970);
(49082351,148772970);(49082351,106266410);(73623528,148772970);(73623528,106266410);(98164701,106266410);(98164701,148772970);
(122705880,106266410);(122705880,148772970);(147247060,148772970);(147247060,106266410);(171788230,148772970);(171788230,106266410);
(196329400,106266410);(196329400,148772970);(220870590,106266410);(220870590,148772970);(245411760,148772970);(245411760,106266410);
(269952930,148772970);(269952930,106266410);(294494110,106266410);(294494110,148772970);(319035280,106266410);(319035280,148772970);
(343576470,148772970);(343576470,106266410);(368117640,148772970);(368117640,106266410);(392658810,106266410);(392658810,148772970);
(417199970,106266410);(417199970,148772970);(441741180,148772970);(441741180,106266410);(466282350,148772970);(466282350,106266410);
(490823520,106266410);(490823520,148772970);(515364690,106266410);(515364690,148772970);(539905850,148772970);(539905850,106266410);
(564447060,148772970);(564447060,106266410);(588988230,106266410);(588988230,148772970);(613529400,106266410);(613529400,148772970);
(638070560,148772970);(638070560,106266410);(662611770,148772970);(662611770,106266410);(687152940,106266410);(687152940,148772970);
(711694110,106266410);(711694110,148772970);(736235280,148772970);(736235280,106266410);(760776440,148772970);(760776440,106266410);
(785317610,106266410);(785317610,148772970);(809858780,106266410);(809858780,148772970);(834399950,148772970);(834399950,106266410);
(858941120,148772970);(858941120,106266410);(883482360,106266410);(883482360,148772970);(908023530,106266410);(908023530,148772970);
(932564700,148772970);(932564700,106266410);(957105870,148772970);(957105870,106266410);(981647030,106266410);(981647030,148772970);
(1006188200,106266410);(1006188200,148772970);(1030729400,148772970);(1030729400,106266410);(1055270500,148772970);(1055270500,106266410);
(1079811700,106266410);(1079811700,148772970);(1104352900,106266410);(1104352900,148772970);(1128894100,148772970);(1128894100,106266410);
(1153435300,148772970);(1153435300,106266410);(1177976500,106266410);(1177976500,148772970);(1202517600,106266410);(1202517600,148772970);
(1227058800,148772970);(1227058800,106266410);(1251600000,148772970);(1251600000,106266410);(1276141100,106266410);(1276141100,148772970);
(1300682400,106266410);(1300682400,148772970);(1325223500,148772970);(1325223500,106266410);(1349764700,148772970);(1349764700,106266410);
(1374305900,106266410);(1374305900,148772970);(1398847000,106266410);(1398847000,148772970);(1423388200,148772970);(1423388200,106266410);
(1447929400,148772970);(1447929400,106266410);(1472470600,106266410);(1472470600,148772970);(1497011700,106266410);(1521552900,127519690);
(1570635200,127519690);(1619717600,127519690);(1668799900,127519690);(1717882200,127519690);(1766964700,127519690);(1816047100,127519690);
(1865129400,127519690);(1914211700,127519690);(1963294100,127519690);(2012376400,127519690);(2061458700,127519690);(2110541100,127519690);
(2159623400,127519690);(2208705700,127519690);(2257788200,127519690);(2306870600,127519690);(2355952900,127519690);(2405035200,127519690);
(2454117600,127519690);(2503199900,127519690);(2552282300,127519690);(2601364700,127519690);(2650447100,127519690);(2699529400,127519690);
(-2699529400,212532830);(-2650447100,212532830);(-2601364700,212532830);(-2552282300,212532830);(-2503199900,212532830);(-2454117600,212532830);
(-2405035200,212532830);(-2355952900,212532830);(-2306870600,212532830);(-2257788200,212532830);(-2208705700,212532830);(-2159623400,212532830);
(-2110541100,212532830);(-2061458700,212532830);(-2012376400,212532830);(-1963294100,212532830);(-1914211700,212532830);(-1865129400,212532830);
(-1816047100,212532830);(-1766964700,212532830);(-1717882200,212532830);(-1668799900,212532830);(-1619717600,212532830);(-1570635200,212532830);
(-1521552900,212532830);(-1472470600,212532830);(-1447929400,191279530);(-1423388200,191279530);(-1423388200,233786110);(-1398847000,191279530);
(-1398847000,233786110);(-1374305900,233786110);(-1374305900,191279530);(-1349764700,233786110);(-1349764700,191279530);(-1325223500,191279530);
(-1325223500,233786110);(-1300682400,191279530);(-1300682400,233786110);(-1276141100,233786110);(-1276141100,191279530);(-1251600000,233786110);
(-1251600000,191279530);(-1227058800,191279530);(-1227058800,233786110);(-1202517600,191279530);(-1202517600,233786110);(-1177976500,233786110);
(-1177976500,191279530);(-1153435300,233786110);(-1153435300,191279530);(-1128894100,191279530);(-1128894100,233786110);(-1104352900,191279530);
(-1104352900,233786110);(-1079811700,233786110);(-1079811700,191279530);(-1055270500,233786110);(-1055270500,191279530);(-1030729400,191279530);
(-1030729400,233786110);(-1006188200,191279530);(-1006188200,233786110);(-981647030,233786110);(-981647030,191279530);(-957105870,233786110);
(-957105870,191279530);(-932564700,191279530);(-932564700,233786110);(-908023530,191279530);(-908023530,233786110);(-883482360,233786110);
(-883482360,191279530);(-858941120,233786110);(-858941120,191279530);(-834399950,191279530);(-834399950,233786110);(-809858780,191279530);
(-809858780,233786110);(-785317610,233786110);(-785317610,191279530);(-760776440,233786110);(-760776440,191279530);(-736235280,191279530);
(-736235280,233786110);(-711694110,191279530);(-711694110,233786110);(-687152940,233786110);(-687152940,191279530);(-662611770,233786110);
(-662611770,191279530);(-638070560,191279530);(-638070560,233786110);(-613529400,191279530);(-613529400,233786110);(-588988230,233786110);
(-588988230,191279530);(-564447060,233786110);(-564447060,191279530);(-539905850,191279530);(-539905850,233786110);(-515364690,191279530);
(-515364690,233786110);(-490823520,233786110);(-490823520,191279530);(-466282350,233786110);(-466282350,191279530);(-441741180,191279530);
(-441741180,233786110);(-417199970,191279530);(-417199970,233786110);(-392658810,233786110);(-392658810,191279530);(-368117640,233786110);
(-368117640,191279530);(-343576470,191279530);(-343576470,233786110);(-319035280,191279530);(-319035280,233786110);(-294494110,233786110);
(-294494110,191279530);(-269952930,233786110);(-269952930,191279530);(-245411760,191279530);(-245411760,233786110);(-220870590,191279530);
(-220870590,233786110);(-196329400,233786110);(-196329400,191279530);(-171788230,233786110);(-171788230,191279530);(-147247060,191279530);
(-147247060,233786110);(-122705880,191279530);(-122705880,233786110);(-98164701,233786110);(-98164701,191279530);(-73623528,233786110);
(-73623528,191279530);(-49082351,191279530);(-49082351,233786110);(-24541175,191279530);(-24541175,233786110);(0,233786110);
(0,191279530);(24541175,233786110);(24541175,191279530);(49082351,191279530);(49082351,233786110);(73623528,191279530);
(73623528,233786110);(98164701,233786110);(98164701,191279530);(122705880,233786110);(122705880,191279530);(147247060,191279530);
(147247060,233786110);(171788230,191279530);(171788230,233786110);(196329400,233786110);(196329400,191279530);(220870590,233786110);
(220870590,191279530);(245411760,191279530);(245411760,233786110);(269952930,191279530);(269952930,233786110);(294494110,233786110);
(294494110,191279530);(319035280,233786110);(319035280,191279530);(343576470,191279530);(343576470,233786110);(368117640,191279530);
(368117640,233786110);(392658810,233786110);(392658810,191279530);(417199970,233786110);(417199970,191279530);(441741180,191279530);
(441741180,233786110);(466282350,191279530);(466282350,233786110);(490823520,233786110);(490823520,191279530);(515364690,233786110);
(515364690,191279530);(539905850,191279530);(539905850,233786110);(564447060,191279530);(564447060,233786110);(588988230,233786110);
(588988230,191279530);(613529400,233786110);(613529400,191279530);(638070560,191279530);(638070560,233786110);(662611770,191279530);
(662611770,233786110);(687152940,233786110);(687152940,191279530);(711694110,233786110);(711694110,191279530);(736235280,191279530);
(736235280,233786110);(760776440,191279530);(760776440,233786110);(785317610,233786110);(785317610,191279530);(809858780,233786110);
(809858780,191279530);(834399950,191279530);(834399950,233786110);(858941120,191279530);(858941120,233786110);(883482360,233786110);
(883482360,191279530);(908023530,233786110);(908023530,191279530);(932564700,191279530);(932564700,233786110);(957105870,191279530);
(957105870,233786110);(981647030,233786110);(981647030,191279530);(1006188200,233786110);(1006188200,191279530);(1030729400,191279530);
(1030729400,233786110);(1055270500,191279530);(1055270500,233786110);(1079811700,233786110);(1079811700,191279530);(1104352900,233786110);
(1104352900,191279530);(1128894100,191279530);(1128894100,233786110);(1153435300,191279530);(1153435300,233786110);(1177976500,233786110);
(1177976500,191279530);(1202517600,233786110);(1202517600,191279530);(1227058800,191279530);(1227058800,233786110);(1251600000,191279530);
(1251600000,233786110);(1276141100,233786110);(1276141100,191279530);(1300682400,233786110);(1300682400,191279530);(1325223500,191279530);
(1325223500,233786110);(1349764700,191279530);(1349764700,233786110);(1374305900,233786110);(1374305900,191279530);(1398847000,233786110);
(1398847000,191279530);(1423388200,191279530);(1423388200,233786110);(1447929400,191279530);(1472470600,212532830);(1521552900,212532830);
(1570635200,212532830);(1619717600,212532830);(1668799900,212532830);(1717882200,212532830);(1766964700,212532830);(1816047100,212532830);
(1865129400,212532830);(1914211700,212532830);(1963294100,212532830);(2012376400,212532830);(2061458700,212532830);(2110541100,212532830);
(2159623400,212532830);(2208705700,212532830);(2257788200,212532830);(2306870600,212532830);(2355952900,212532830);(2405035200,212532830);
(2454117600,212532830);(2503199900,212532830);(2552282300,212532830);(2601364700,212532830);(2650447100,212532830);(2699529400,212532830);
(-2699529400,297545950);(-2650447100,297545950);(-2601364700,297545950);(-2552282300,297545950);(-2503199900,297545950);(-2454117600,297545950);
(-2405035200,297545950);(-2355952900,297545950);(-2306870600,297545950);(-2257788200,297545950);(-2208705700,297545950);(-2159623400,297545950);
(-2110541100,297545950);(-2061458700,297545950);(-2012376400,297545950);(-1963294100,297545950);(-1914211700,297545950);(-1865129400,297545950);
(-1816047100,297545950);(-1766964700,297545950);(-1717882200,297545950);(-1668799900,297545950);(-1619717600,297545950);(-1570635200,297545950);
(-1521552900,297545950);(-1472470600,297545950);(-1423388200,297545950);(-1398847000,276292670);(-1374305900,276292670);(-1374305900,318799230);
(-1349764700,276292670);(-1349764700,318799230);(-1325223500,318799230);(-1325223500,276292670);(-1300682400,318799230);(-1300682400,276292670);
(-1276141100,276292670);(-1276141100,318799230);(-1251600000,276292670);(-1251600000,318799230);(-1227058800,318799230);(-1227058800,276292670);
(-1202517600,318799230);(-1202517600,276292670);(-1177976500,276292670);(-1177976500,318799230);(-1153435300,276292670);(-1153435300,318799230);
(-1128894100,318799230);(-1128894100,276292670);(-1104352900,318799230);(-1104352900,276292670);(-1079811700,276292670);(-1079811700,318799230);
(-1055270500,276292670);(-1055270500,318799230);(-1030729400,318799230);(-1030729400,276292670);(-1006188200,318799230);(-1006188200,276292670);
(-981647030,276292670);(-981647030,318799230);(-957105870,276292670);(-957105870,318799230);(-932564700,318799230);(-932564700,276292670);
(-908023530,318799230);(-908023530,276292670);(-883482360,276292670);(-883482360,318799230);(-858941120,276292670);(-858941120,318799230);
(-834399950,318799230);(-834399950,276292670);(-809858780,318799230);(-809858780,276292670);(-785317610,276292670);(-785317610,318799230);
(-760776440,276292670);(-760776440,318799230);(-736235280,318799230);(-736235280,276292670);(-711694110,318799230);(-711694110,276292670);
(-687152940,276292670);(-687152940,318799230);(-662611770,276292670);(-662611770,318799230);(-638070560,318799230);(-638070560,276292670);
(-613529400,318799230);(-613529400,276292670);(-588988230,276292670);(-588988230,318799230);(-564447060,276292670);(-564447060,318799230);
(-539905850,318799230);(-539905850,276292670);(-515364690,318799230);(-515364690,276292670);(-490823520,276292670);(-490823520,318799230);
(-466282350,276292670);(-466282350,318799230);(-441741180,318799230);(-441741180,276292670);(-417199970,318799230);(-417199970,276292670);
(-392658810,276292670);(-392658810,318799230);(-368117640,276292670);(-368117640,318799230);(-343576470,318799230);(-343576470,276292670);
(-319035280,318799230);(-319035280,276292670);(-294494110,276292670);(-294494110,318799230);(-269952930,276292670);(-269952930,318799230);
(-245411760,318799230);(-245411760,276292670);(-220870590,318799230);(-220870590,276292670);(-196329400,276292670);(-196329400,318799230);
(-171788230,276292670);(-171788230,318799230);(-147247060,318799230);(-147247060,276292670);(-122705880,318799230);(-122705880,276292670);
(-98164701,276292670);(-98164701,318799230);(-73623528,276292670);(-73623528,318799230);(-49082351,318799230);(-49082351,276292670);
(-24541175,318799230);(-24541175,276292670);(0,276292670);(0,318799230);(24541175,276292670);(24541175,318799230);
(49082351,318799230);(49082351,276292670);(73623528,318799230);(73623528,276292670);(98164701,276292670);(98164701,318799230);
(122705880,276292670);(122705880,318799230);(147247060,318799230);(147247060,276292670);(171788230,318799230);(171788230,276292670);
(196329400,276292670);(196329400,318799230);(220870590,276292670);(220870590,318799230);(245411760,318799230);(245411760,276292670);
(269952930,318799230);(269952930,276292670);(294494110,276292670);(294494110,318799230);(319035280,276292670);(319035280,318799230);
(343576470,318799230);(343576470,276292670);(368117640,318799230);(368117640,276292670);(392658810,276292670);(392658810,318799230);
(417199970,276292670);(417199970,318799230);(441741180,318799230);(441741180,276292670);(466282350,318799230);(466282350,276292670);
(490823520,276292670);(490823520,318799230);(515364690,276292670);(515364690,318799230);(539905850,318799230);(539905850,276292670);
(564447060,318799230);(564447060,276292670);(588988230,276292670);(588988230,318799230);(613529400,276292670);(613529400,318799230);
(638070560,318799230);(638070560,276292670);(662611770,318799230);(662611770,276292670);(687152940,276292670);(687152940,318799230);
(711694110,276292670);(711694110,318799230);(736235280,318799230);(736235280,276292670);(760776440,318799230);(760776440,276292670);
(785317610,276292670);(785317610,318799230);(809858780,276292670);(809858780,318799230);(834399950,318799230);(834399950,276292670);
(858941120,318799230);(858941120,276292670);(883482360,276292670);(883482360,318799230);(908023530,276292670);(908023530,318799230);
(932564700,318799230);(932564700,276292670);(957105870,318799230);(957105870,276292670);(981647030,276292670);(981647030,318799230);
(1006188200,276292670);(1006188200,318799230);(1030729400,318799230);(1030729400,276292670);(1055270500,318799230);(1055270500,276292670);
(1079811700,276292670);(1079811700,318799230);(1104352900,276292670);(1104352900,318799230);(1128894100,318799230);(1128894100,276292670);
(1153435300,318799230);(1153435300,276292670);(1177976500,276292670);(1177976500,318799230);(1202517600,276292670);(1202517600,318799230);
(1227058800,318799230);(1227058800,276292670);(1251600000,318799230);(1251600000,276292670);(1276141100,276292670);(1276141100,318799230);
(1300682400,276292670);(1300682400,318799230);(1325223500,318799230);(1325223500,276292670);(1349764700,318799230);(1349764700,276292670);
(1374305900,276292670);(1374305900,318799230);(1398847000,276292670);(1423388200,297545950);(1472470600,297545950);(1521552900,297545950);
(1570635200,297545950);(1619717600,297545950);(1668799900,297545950);(1717882200,297545950);(1766964700,297545950);(1816047100,297545950);
(1865129400,297545950);(1914211700,297545950);(1963294100,297545950);(2012376400,297545950);(2061458700,297545950);(2110541100,297545950);
(2159623400,297545950);(2208705700,297545950);(2257788200,297545950);(2306870600,297545950);(2355952900,297545950);(2405035200,297545950);
(2454117600,297545950);(2503199900,297545950);(2552282300,297545950);(2601364700,297545950);(2650447100,297545950);(2699529400,297545950);
(-2650447100,382559050);(-2601364700,382559050);(-2552282300,382559050);(-2503199900,382559050);(-2454117600,382559050);(-2405035200,382559050);
(-2355952900,382559050);(-2306870600,382559050);(-2257788200,382559050);(-2208705700,382559050);(-2159623400,382559050);(-2110541100,382559050);
(-2061458700,382559050);(-2012376400,382559050);(-1963294100,382559050);(-1914211700,382559050);(-1865129400,382559050);(-1816047100,382559050);
(-1766964700,382559050);(-1717882200,382559050);(-1668799900,382559050);(-1619717600,382559050);(-1570635200,382559050);(-1521552900,382559050);
(-1472470600,382559050);(-1423388200,382559050);(-1374305900,382559050);(-1349764700,361305770);(-1325223500,361305770);(-1325223500,403812330);
(-1300682400,361305770);(-1300682400,403812330);(-1276141100,403812330);(-1276141100,361305770);(-1251600000,403812330);(-1251600000,361305770);
(-1227058800,361305770);(-1227058800,403812330);(-1202517600,361305770);(-1202517600,403812330);(-1177976500,403812330);(-1177976500,361305770);
(-1153435300,403812330);(-1153435300,361305770);(-1128894100,361305770);(-1128894100,403812330);(-1104352900,361305770);(-1104352900,403812330);
(-1079811700,403812330);(-1079811700,361305770);(-1055270500,403812330);(-1055270500,361305770);(-1030729400,361305770);(-1030729400,403812330);
(-1006188200,361305770);(-1006188200,403812330);(-981647030,403812330);(-981647030,361305770);(-957105870,403812330);(-957105870,361305770);
(-932564700,361305770);(-932564700,403812330);(-908023530,361305770);(-908023530,403812330);(-883482360,403812330);(-883482360,361305770);
(-858941120,403812330);(-858941120,361305770);(-834399950,361305770);(-834399950,403812330);(-809858780,361305770);(-809858780,403812330);
(-785317610,403812330);(-785317610,361305770);(-760776440,403812330);(-760776440,361305770);(-736235280,361305770);(-736235280,403812330);
(-711694110,361305770);(-711694110,403812330);(-687152940,403812330);(-687152940,361305770);(-662611770,403812330);(-662611770,361305770);
(-638070560,361305770);(-638070560,403812330);(-613529400,361305770);(-613529400,403812330);(-588988230,403812330);(-588988230,361305770);
(-564447060,403812330);(-564447060,361305770);(-539905850,361305770);(-539905850,403812330);(-515364690,361305770);(-515364690,403812330);
(-490823520,403812330);(-490823520,361305770);(-466282350,403812330);(-466282350,361305770);(-441741180,361305770);(-441741180,403812330);
(-417199970,361305770);(-417199970,403812330);(-392658810,403812330);(-392658810,361305770);(-368117640,403812330);(-368117640,361305770);
(-343576470,361305770);(-343576470,403812330);(-319035280,361305770);(-319035280,403812330);(-294494110,403812330);(-294494110,361305770);
(-269952930,403812330);(-269952930,361305770);(-245411760,361305770);(-245411760,403812330);(-220870590,361305770);(-220870590,403812330);
(-196329400,403812330);(-196329400,361305770);(-171788230,403812330);(-171788230,361305770);(-147247060,361305770);(-147247060,403812330);
(-122705880,361305770);(-122705880,403812330);(-98164701,403812330);(-98164701,361305770);(-73623528,403812330);(-73623528,361305770);
(-49082351,361305770);(-49082351,403812330);(-24541175,361305770);(-24541175,403812330);(0,403812330);(0,361305770);
(24541175,403812330);(24541175,361305770);(49082351,361305770);(49082351,403812330);(73623528,361305770);(73623528,403812330);
(98164701,403812330);(98164701,361305770);(122705880,403812330);(122705880,361305770);(147247060,361305770);(147247060,403812330);
(171788230,361305770);(171788230,403812330);(196329400,403812330);(196329400,361305770);(220870590,403812330);(220870590,361305770);
(245411760,361305770);(245411760,403812330);(269952930,361305770);(269952930,403812330);(294494110,403812330);(294494110,361305770);
(319035280,403812330);(319035280,361305770);(343576470,361305770);(343576470,403812330);(368117640,361305770);(368117640,403812330);
(392658810,403812330);(392658810,361305770);(417199970,403812330);(417199970,361305770);(441741180,361305770);(441741180,403812330);
(466282350,361305770);(466282350,403812330);(490823520,403812330);(490823520,361305770);(515364690,403812330);(515364690,361305770);
(539905850,361305770);(539905850,403812330);(564447060,361305770);(564447060,403812330);(588988230,403812330);(588988230,361305770);
(613529400,403812330);(613529400,361305770);(638070560,361305770);(638070560,403812330);(662611770,361305770);(662611770,403812330);
(687152940,403812330);(687152940,361305770);(711694110,403812330);(711694110,361305770);(736235280,361305770);(736235280,403812330);
(760776440,361305770);(760776440,403812330);(785317610,403812330);(785317610,361305770);(809858780,403812330);(809858780,361305770);
(834399950,361305770);(834399950,403812330);(858941120,361305770);(858941120,403812330);(883482360,403812330);(883482360,361305770);
(908023530,403812330);(908023530,361305770);(932564700,361305770);(932564700,403812330);(957105870,361305770);(957105870,403812330);
(981647030,403812330);(981647030,361305770);(1006188200,403812330);(1006188200,361305770);(1030729400,361305770);(1030729400,403812330);
(1055270500,361305770);(1055270500,403812330);(1079811700,403812330);(1079811700,361305770);(1104352900,403812330);(1104352900,361305770);
(1128894100,361305770);(1128894100,403812330);(1153435300,361305770);(1153435300,403812330);(1177976500,403812330);(1177976500,361305770);
(1202517600,403812330);(1202517600,361305770);(1227058800,361305770);(1227058800,403812330);(1251600000,361305770);(1251600000,403812330);
(1276141100,403812330);(1276141100,361305770);(1300682400,403812330);(1300682400,361305770);(1325223500,361305770);(1325223500,403812330);
(1349764700,361305770);(1374305900,382559050);(1423388200,382559050);(1472470600,382559050);(1521552900,382559050);(1570635200,382559050);
(1619717600,382559050);(1668799900,382559050);(1717882200,382559050);(1766964700,382559050);(1816047100,382559050);(1865129400,382559050);
(1914211700,382559050);(1963294100,382559050);(2012376400,382559050);(2061458700,382559050);(2110541100,382559050);(2159623400,382559050);
(2208705700,382559050);(2257788200,382559050);(2306870600,382559050);(2355952900,382559050);(2405035200,382559050);(2454117600,382559050);
(2503199900,382559050);(2552282300,382559050);(2601364700,382559050);(2650447100,382559050);(-2650447100,467572210);(-2601364700,467572210);
(-2552282300,467572210);(-2503199900,467572210);(-2454117600,467572210);(-2405035200,467572210);(-2355952900,467572210);(-2306870600,467572210);
(-2257788200,467572210);(-2208705700,467572210);(-2159623400,467572210);(-2110541100,467572210);(-2061458700,467572210);(-2012376400,467572210);
(-1963294100,467572210);(-1914211700,467572210);(-1865129400,467572210);(-1816047100,467572210);(-1766964700,467572210);(-1717882200,467572210);
(-1668799900,467572210);(-1619717600,467572210);(-1570635200,467572210);(-1521552900,467572210);(-1472470600,467572210);(-1423388200,467572210);
(-1374305900,467572210);(-1325223500,467572210);(-1300682400,446318930);(-1276141100,446318930);(-1276141100,488825490);(-1251600000,446318930);
(-1251600000,488825490);(-1227058800,488825490);(-1227058800,446318930);(-1202517600,488825490);(-1202517600,446318930);(-1177976500,446318930);
(-1177976500,488825490);(-1153435300,446318930);(-1153435300,488825490);(-1128894100,488825490);(-1128894100,446318930);(-1104352900,488825490);
(-1104352900,446318930);(-1079811700,446318930);(-1079811700,488825490);(-1055270500,446318930);(-1055270500,488825490);(-1030729400,488825490);
(-1030729400,446318930);(-1006188200,488825490);(-1006188200,446318930);(-981647030,446318930);(-981647030,488825490);(-957105870,446318930);
(-957105870,488825490);(-932564700,488825490);(-932564700,446318930);(-908023530,488825490);(-908023530,446318930);(-883482360,446318930);
(-883482360,488825490);(-858941120,446318930);(-858941120,488825490);(-834399950,488825490);(-834399950,446318930);(-809858780,488825490);
(-809858780,446318930);(-785317610,446318930);(-785317610,488825490);(-760776440,446318930);(-760776440,488825490);(-736235280,488825490);
(-736235280,446318930);(-711694110,488825490);(-711694110,446318930);(-687152940,446318930);(-687152940,488825490);(-662611770,446318930);
(-662611770,488825490);(-638070560,488825490);(-638070560,446318930);(-613529400,488825490);(-613529400,446318930);(-588988230,446318930);
(-588988230,488825490);(-564447060,446318930);(-564447060,488825490);(-539905850,488825490);(-539905850,446318930);(-515364690,488825490);
(-515364690,446318930);(-490823520,446318930);(-490823520,488825490);(-466282350,446318930);(-466282350,488825490);(-441741180,488825490);
(-441741180,446318930);(-417199970,488825490);(-417199970,446318930);(-392658810,446318930);(-392658810,488825490);(-368117640,446318930);
(-368117640,488825490);(-343576470,488825490);(-343576470,446318930);(-319035280,488825490);(-319035280,446318930);(-294494110,446318930);
(-294494110,488825490);(-269952930,446318930);(-269952930,488825490);(-245411760,488825490);(-245411760,446318930);(-220870590,488825490);
(-220870590,446318930);(-196329400,446318930);(-196329400,488825490);(-171788230,446318930);(-171788230,488825490);(-147247060,488825490);
(-147247060,446318930);(-122705880,488825490);(-122705880,446318930);(-98164701,446318930);(-98164701,488825490);(-73623528,446318930);
(-73623528,488825490);(-49082351,488825490);(-49082351,446318930);(-24541175,488825490);(-24541175,446318930);(0,446318930);
(0,488825490);(24541175,446318930);(24541175,488825490);(49082351,488825490);(49082351,446318930);(73623528,488825490);
(73623528,446318930);(98164701,446318930);(98164701,488825490);(122705880,446318930);(122705880,488825490);(147247060,488825490);
(147247060,446318930);(171788230,488825490);(171788230,446318930);(196329400,446318930);(196329400,488825490);(220870590,446318930);
(220870590,488825490);(245411760,488825490);(245411760,446318930);(269952930,488825490);(269952930,446318930);(294494110,446318930);
(294494110,488825490);(319035280,446318930);(319035280,488825490);(343576470,488825490);(343576470,446318930);(368117640,488825490);
(368117640,446318930);(392658810,446318930);(392658810,488825490);(417199970,446318930);(417199970,488825490);(441741180,488825490);
(441741180,446318930);(466282350,488825490);(466282350,446318930);(490823520,446318930);(490823520,488825490);(515364690,446318930);
(515364690,488825490);(539905850,488825490);(539905850,446318930);(564447060,488825490);(564447060,446318930);(588988230,446318930);
(588988230,488825490);(613529400,446318930);(613529400,488825490);(638070560,488825490);(638070560,446318930);(662611770,488825490);
(662611770,446318930);(687152940,446318930);(687152940,488825490);(711694110,446318930);(711694110,488825490);(736235280,488825490);
(736235280,446318930);(760776440,488825490);(760776440,446318930);(785317610,446318930);(785317610,488825490);(809858780,446318930);
(809858780,488825490);(834399950,488825490);(834399950,446318930);(858941120,488825490);(858941120,446318930);(883482360,446318930);
(883482360,488825490);(908023530,446318930);(908023530,488825490);(932564700,488825490);(932564700,446318930);(957105870,488825490);
(957105870,446318930);(981647030,446318930);(981647030,488825490);(1006188200,446318930);(1006188200,488825490);(1030729400,488825490);
(1030729400,446318930);(1055270500,488825490);(1055270500,446318930);(1079811700,446318930);(1079811700,488825490);(1104352900,446318930);
(1104352900,488825490);(1128894100,488825490);(1128894100,446318930);(1153435300,488825490);(1153435300,446318930);(1177976500,446318930);
(1177976500,488825490);(1202517600,446318930);(1202517600,488825490);(1227058800,488825490);(1227058800,446318930);(1251600000,488825490);
(1251600000,446318930);(1276141100,446318930);(1276141100,488825490);(1300682400,446318930);(1325223500,467572210);(1374305900,467572210);
(1423388200,467572210);(1472470600,467572210);(1521552900,467572210);(1570635200,467572210);(1619717600,467572210);(1668799900,467572210);
(1717882200,467572210);(1766964700,467572210);(1816047100,467572210);(1865129400,467572210);(1914211700,467572210);(1963294100,467572210);
(2012376400,467572210);(2061458700,467572210);(2110541100,467572210);(2159623400,467572210);(2208705700,467572210);(2257788200,467572210);
(2306870600,467572210);(2355952900,467572210);(2405035200,467572210);(2454117600,467572210);(2503199900,467572210);(2552282300,467572210);
(2601364700,467572210);(2650447100,467572210);(-2650447100,552585330);(-2601364700,552585330);(-2552282300,552585330);(-2503199900,552585330);
(-2454117600,552585330);(-2405035200,552585330);(-2355952900,552585330);(-2306870600,552585330);(-2257788200,552585330);(-2208705700,552585330);
(-2159623400,552585330);(-2110541100,552585330);(-2061458700,552585330);(-2012376400,552585330);(-1963294100,552585330);(-1914211700,552585330);
(-1865129400,552585330);(-1816047100,552585330);(-1766964700,552585330);(-1717882200,552585330);(-1668799900,552585330);(-1619717600,552585330);
(-1570635200,552585330);(-1521552900,552585330);(-1472470600,552585330);(-1423388200,552585330);(-1374305900,552585330);(-1325223500,552585330);
(-1276141100,552585330);(-1251600000,531332050);(-1227058800,531332050);(-1227058800,573838620);(-1202517600,531332050);(-1202517600,573838620);
(-1177976500,573838620);(-1177976500,531332050);(-1153435300,573838620);(-1153435300,531332050);(-1128894100,531332050);(-1128894100,573838620);
(-1104352900,531332050);(-1104352900,573838620);(-1079811700,573838620);(-1079811700,531332050);(-1055270500,573838620);(-1055270500,531332050);
(-1030729400,531332050);(-1030729400,573838620);(-1006188200,531332050);(-1006188200,573838620);(-981647030,573838620);(-981647030,531332050);
(-957105870,573838620);(-957105870,531332050);(-932564700,531332050);(-932564700,573838620);(-908023530,531332050);(-908023530,573838620);
(-883482360,573838620);(-883482360,531332050);(-858941120,573838620);(-858941120,531332050);(-834399950,531332050);(-834399950,573838620);
(-809858780,531332050);(-809858780,573838620);(-785317610,573838620);(-785317610,531332050);(-760776440,573838620);(-760776440,531332050);
(-736235280,531332050);(-736235280,573838620);(-711694110,531332050);(-711694110,573838620);(-687152940,573838620);(-687152940,531332050);
(-662611770,573838620);(-662611770,531332050);(-638070560,531332050);(-638070560,573838620);(-613529400,531332050);(-613529400,573838620);
(-588988230,573838620);(-588988230,531332050);(-564447060,573838620);(-564447060,531332050);(-539905850,531332050);(-539905850,573838620);
(-515364690,531332050);(-515364690,573838620);(-490823520,573838620);(-490823520,531332050);(-466282350,573838620);(-466282350,531332050);
(-441741180,531332050);(-441741180,573838620);(-417199970,531332050);(-417199970,573838620);(-392658810,573838620);(-392658810,531332050);
(-368117640,573838620);(-368117640,531332050);(-343576470,531332050);(-343576470,573838620);(-319035280,531332050);(-319035280,573838620);
(-294494110,573838620);(-294494110,531332050);(-269952930,573838620);(-269952930,531332050);(-245411760,531332050);(-245411760,573838620);
(-220870590,531332050);(-220870590,573838620);(-196329400,573838620);(-196329400,531332050);(-171788230,573838620);(-171788230,531332050);
(-147247060,531332050);(-147247060,573838620);(-122705880,531332050);(-122705880,573838620);(-98164701,573838620);(-98164701,531332050);
(-73623528,573838620);(-73623528,531332050);(-49082351,531332050);(-49082351,573838620);(-24541175,531332050);(-24541175,573838620);
(0,573838620);(0,531332050);(24541175,573838620);(24541175,531332050);(49082351,531332050);(49082351,573838620);
(73623528,531332050);(73623528,573838620);(98164701,573838620);(98164701,531332050);(122705880,573838620);(122705880,531332050);
(147247060,531332050);(147247060,573838620);(171788230,531332050);(171788230,573838620);(196329400,573838620);(196329400,531332050);
(220870590,573838620);(220870590,531332050);(245411760,531332050);(245411760,573838620);(269952930,531332050);(269952930,573838620);
(294494110,573838620);(294494110,531332050);(319035280,573838620);(319035280,531332050);(343576470,531332050);(343576470,573838620);
(368117640,531332050);(368117640,573838620);(392658810,573838620);(392658810,531332050);(417199970,573838620);(417199970,531332050);
(441741180,531332050);(441741180,573838620);(466282350,531332050);(466282350,573838620);(490823520,573838620);(490823520,531332050);
(515364690,573838620);(515364690,531332050);(539905850,531332050);(539905850,573838620);(564447060,531332050);(564447060,573838620);
(588988230,573838620);(588988230,531332050);(613529400,573838620);(613529400,531332050);(638070560,531332050);(638070560,573838620);
(662611770,531332050);(662611770,573838620);(687152940,573838620);(687152940,531332050);(711694110,573838620);(711694110,531332050);
(736235280,531332050);(736235280,573838620);(760776440,531332050);(760776440,573838620);(785317610,573838620);(785317610,531332050);
(809858780,573838620);(809858780,531332050);(834399950,531332050);(834399950,573838620);(858941120,531332050);(858941120,573838620);
(883482360,573838620);(883482360,531332050);(908023530,573838620);(908023530,531332050);(932564700,531332050);(932564700,573838620);
(957105870,531332050);(957105870,573838620);(981647030,573838620);(981647030,531332050);(1006188200,573838620);(1006188200,531332050);
(1030729400,531332050);(1030729400,573838620);(1055270500,531332050);(1055270500,573838620);(1079811700,573838620);(1079811700,531332050);
(1104352900,573838620);(1104352900,531332050);(1128894100,531332050);(1128894100,573838620);(1153435300,531332050);(1153435300,573838620);
(1177976500,573838620);(1177976500,531332050);(1202517600,573838620);(1202517600,531332050);(1227058800,531332050);(1227058800,573838620);
(1251600000,531332050);(1276141100,552585330);(1325223500,552585330);(1374305900,552585330);(1423388200,552585330);(1472470600,552585330);
(1521552900,552585330);(1570635200,552585330);(1619717600,552585330);(1668799900,552585330);(1717882200,552585330);(1766964700,552585330);
(1816047100,552585330);(1865129400,552585330);(1914211700,552585330);(1963294100,552585330);(2012376400,552585330);(2061458700,552585330);
(2110541100,552585330);(2159623400,552585330);(2208705700,552585330);(2257788200,552585330);(2306870600,552585330);(2355952900,552585330);
(2405035200,552585330);(2454117600,552585330);(2503199900,552585330);(2552282300,552585330);(2601364700,552585330);(2650447100,552585330);
(-2650447100,637598460);(-2601364700,637598460);(-2552282300,637598460);(-2503199900,637598460);(-2454117600,637598460);(-2405035200,637598460);
(-2355952900,637598460);(-2306870600,637598460);(-2257788200,637598460);(-2208705700,637598460);(-2159623400,637598460);(-2110541100,637598460);
(-2061458700,637598460);(-2012376400,637598460);(-1963294100,637598460);(-1914211700,637598460);(-1865129400,637598460);(-1816047100,637598460);
(-1766964700,637598460);(-1717882200,637598460);(-1668799900,637598460);(-1619717600,637598460);(-1570635200,637598460);(-1521552900,637598460);
(-1472470600,637598460);(-1423388200,637598460);(-1374305900,637598460);(-1325223500,637598460);(-1276141100,637598460);(-1227058800,637598460);
(-1202517600,616345180);(-1177976500,616345180);(-1177976500,658851700);(-1153435300,616345180);(-1153435300,658851700);(-1128894100,658851700);
(-1128894100,616345180);(-1104352900,658851700);(-1104352900,616345180);(-1079811700,616345180);(-1079811700,658851700);(-1055270500,616345180);
(-1055270500,658851700);(-1030729400,658851700);(-1030729400,616345180);(-1006188200,658851700);(-1006188200,616345180);(-981647030,616345180);
(-981647030,658851700);(-957105870,616345180);(-957105870,658851700);(-932564700,658851700);(-932564700,616345180);(-908023530,658851700);
(-908023530,616345180);(-883482360,616345180);(-883482360,658851700);(-858941120,616345180);(-858941120,658851700);(-834399950,658851700);
(-834399950,616345180);(-809858780,658851700);(-809858780,616345180);(-785317610,616345180);(-785317610,658851700);(-760776440,616345180);
(-760776440,658851700);(-736235280,658851700);(-736235280,616345180);(-711694110,658851700);(-711694110,616345180);(-687152940,616345180);
(-687152940,658851700);(-662611770,616345180);(-662611770,658851700);(-638070560,658851700);(-638070560,616345180);(-613529400,658851700);
(-613529400,616345180);(-588988230,616345180);(-588988230,658851700);(-564447060,616345180);(-564447060,658851700);(-539905850,658851700);
(-539905850,616345180);(-515364690,658851700);(-515364690,616345180);(-490823520,616345180);(-490823520,658851700);(-466282350,616345180);
(-466282350,658851700);(-441741180,658851700);(-441741180,616345180);(-417199970,658851700);(-417199970,616345180);(-392658810,616345180);
(-392658810,658851700);(-368117640,616345180);(-368117640,658851700);(-343576470,658851700);(-343576470,616345180);(-319035280,658851700);
(-319035280,616345180);(-294494110,616345180);(-294494110,658851700);(-269952930,616345180);(-269952930,658851700);(-245411760,658851700);
(-245411760,616345180);(-220870590,658851700);(-220870590,616345180);(-196329400,616345180);(-196329400,658851700);(-171788230,616345180);
(-171788230,658851700);(-147247060,658851700);(-147247060,616345180);(-122705880,658851700);(-122705880,616345180);(-98164701,616345180);
(-98164701,658851700);(-73623528,616345180);(-73623528,658851700);(-49082351,658851700);(-49082351,616345180);(-24541175,658851700);
(-24541175,616345180);(0,616345180);(0,658851700);(24541175,616345180);(24541175,658851700);(49082351,658851700);
(49082351,616345180);(73623528,658851700);(73623528,616345180);(98164701,616345180);(98164701,658851700);(122705880,616345180);
(122705880,658851700);(147247060,658851700);(147247060,616345180);(171788230,658851700);(171788230,616345180);(196329400,616345180);
(196329400,658851700);(220870590,616345180);(220870590,658851700);(245411760,658851700);(245411760,616345180);(269952930,658851700);
(269952930,616345180);(294494110,616345180);(294494110,658851700);(319035280,616345180);(319035280,658851700);(343576470,658851700);
(343576470,616345180);(368117640,658851700);(368117640,616345180);(392658810,616345180);(392658810,658851700);(417199970,616345180);
(417199970,658851700);(441741180,658851700);(441741180,616345180);(466282350,658851700);(466282350,616345180);(490823520,616345180);
(490823520,658851700);(515364690,616345180);(515364690,658851700);(539905850,658851700);(539905850,616345180);(564447060,658851700);
(564447060,616345180);(588988230,616345180);(588988230,658851700);(613529400,616345180);(613529400,658851700);(638070560,658851700);
(638070560,616345180);(662611770,658851700);(662611770,616345180);(687152940,616345180);(687152940,658851700);(711694110,616345180);
(711694110,658851700);(736235280,658851700);(736235280,616345180);(760776440,658851700);(760776440,616345180);(785317610,616345180);
(785317610,658851700);(809858780,616345180);(809858780,658851700);(834399950,658851700);(834399950,616345180);(858941120,658851700);
(858941120,616345180);(883482360,616345180);(883482360,658851700);(908023530,616345180);(908023530,658851700);(932564700,658851700);
(932564700,616345180);(957105870,658851700);(957105870,616345180);(981647030,616345180);(981647030,658851700);(1006188200,616345180);
(1006188200,658851700);(1030729400,658851700);(1030729400,616345180);(1055270500,658851700);(1055270500,616345180);(1079811700,616345180);
(1079811700,658851700);(1104352900,616345180);(1104352900,658851700);(1128894100,658851700);(1128894100,616345180);(1153435300,658851700);
(1153435300,616345180);(1177976500,616345180);(1177976500,658851700);(1202517600,616345180);(1227058800,637598460);(1276141100,637598460);
(1325223500,637598460);(1374305900,637598460);(1423388200,637598460);(1472470600,637598460);(1521552900,637598460);(1570635200,637598460);
(1619717600,637598460);(1668799900,637598460);(1717882200,637598460);(1766964700,637598460);(1816047100,637598460);(1865129400,637598460);
(1914211700,637598460);(1963294100,637598460);(2012376400,637598460);(2061458700,637598460);(2110541100,637598460);(2159623400,637598460);
(2208705700,637598460);(2257788200,637598460);(2306870600,637598460);(2355952900,637598460);(2405035200,637598460);(2454117600,637598460);
(2503199900,637598460);(2552282300,637598460);(2601364700,637598460);(2650447100,637598460);(-2601364700,722611540);(-2552282300,722611540);
(-2503199900,722611540);(-2454117600,722611540);(-2405035200,722611540);(-2355952900,722611540);(-2306870600,722611540);(-2257788200,722611540);
(-2208705700,722611540);(-2159623400,722611540);(-2110541100,722611540);(-2061458700,722611540);(-2012376400,722611540);(-1963294100,722611540);
(-1914211700,722611540);(-1865129400,722611540);(-1816047100,722611540);(-1766964700,722611540);(-1717882200,722611540);(-1668799900,722611540);
(-1619717600,722611540);(-1570635200,722611540);(-1521552900,722611540);(-1472470600,722611540);(-1423388200,722611540);(-1374305900,722611540);
(-1325223500,722611540);(-1276141100,722611540);(-1227058800,722611540);(-1177976500,722611540);(-1153435300,701358260);(-1128894100,701358260);
(-1128894100,743864820);(-1104352900,701358260);(-1104352900,743864820);(-1079811700,743864820);(-1079811700,701358260);(-1055270500,743864820);
(-1055270500,701358260);(-1030729400,701358260);(-1030729400,743864820);(-1006188200,701358260);(-1006188200,743864820);(-981647030,743864820);
(-981647030,701358260);(-957105870,743864820);(-957105870,701358260);(-932564700,701358260);(-932564700,743864820);(-908023530,701358260);
(-908023530,743864820);(-883482360,743864820);(-883482360,701358260);(-858941120,743864820);(-858941120,701358260);(-834399950,701358260);
(-834399950,743864820);(-809858780,701358260);(-809858780,743864820);(-785317610,743864820);(-785317610,701358260);(-760776440,743864820);
(-760776440,701358260);(-736235280,701358260);(-736235280,743864820);(-711694110,701358260);(-711694110,743864820);(-687152940,743864820);
(-687152940,701358260);(-662611770,743864820);(-662611770,701358260);(-638070560,701358260);(-638070560,743864820);(-613529400,701358260);
(-613529400,743864820);(-588988230,743864820);(-588988230,701358260);(-564447060,743864820);(-564447060,701358260);(-539905850,701358260);
(-539905850,743864820);(-515364690,701358260);(-515364690,743864820);(-490823520,743864820);(-490823520,701358260);(-466282350,743864820);
(-466282350,701358260);(-441741180,701358260);(-441741180,743864820);(-417199970,701358260);(-417199970,743864820);(-392658810,743864820);
(-392658810,701358260);(-368117640,743864820);(-368117640,701358260);(-343576470,701358260);(-343576470,743864820);(-319035280,701358260);
(-319035280,743864820);(-294494110,743864820);(-294494110,701358260);(-269952930,743864820);(-269952930,701358260);(-245411760,701358260);
(-245411760,743864820);(-220870590,701358260);(-220870590,743864820);(-196329400,743864820);(-196329400,701358260);(-171788230,743864820);
(-171788230,701358260);(-147247060,701358260);(-147247060,743864820);(-122705880,701358260);(-122705880,743864820);(-98164701,743864820);
(-98164701,701358260);(-73623528,743864820);(-73623528,701358260);(-49082351,701358260);(-49082351,743864820);(-24541175,701358260);
(-24541175,743864820);(0,743864820);(0,701358260);(24541175,743864820);(24541175,701358260);(49082351,701358260);
(49082351,743864820);(73623528,701358260);(73623528,743864820);(98164701,743864820);(98164701,701358260);(122705880,743864820);
(122705880,701358260);(147247060,701358260);(147247060,743864820);(171788230,701358260);(171788230,743864820);(196329400,743864820);
(196329400,701358260);(220870590,743864820);(220870590,701358260);(245411760,701358260);(245411760,743864820);(269952930,701358260);
(269952930,743864820);(294494110,743864820);(294494110,701358260);(319035280,743864820);(319035280,701358260);(343576470,701358260);
(343576470,743864820);(368117640,701358260);(368117640,743864820);(392658810,743864820);(392658810,701358260);(417199970,743864820);
(417199970,701358260);(441741180,701358260);(441741180,743864820);(466282350,701358260);(466282350,743864820);(490823520,743864820);
(490823520,701358260);(515364690,743864820);(515364690,701358260);(539905850,701358260);(539905850,743864820);(564447060,701358260);
(564447060,743864820);(588988230,743864820);(588988230,701358260);(613529400,743864820);(613529400,701358260);(638070560,701358260);
(638070560,743864820);(662611770,701358260);(662611770,743864820);(687152940,743864820);(687152940,701358260);(711694110,743864820);
(711694110,701358260);(736235280,701358260);(736235280,743864820);(760776440,701358260);(760776440,743864820);(785317610,743864820);
(785317610,701358260);(809858780,743864820);(809858780,701358260);(834399950,701358260);(834399950,743864820);(858941120,701358260);
(858941120,743864820);(883482360,743864820);(883482360,701358260);(908023530,743864820);(908023530,701358260);(932564700,701358260);
(932564700,743864820);(957105870,701358260);(957105870,743864820);(981647030,743864820);(981647030,701358260);(1006188200,743864820);
(1006188200,701358260);(1030729400,701358260);(1030729400,743864820);(1055270500,701358260);(1055270500,743864820);(1079811700,743864820);
(1079811700,701358260);(1104352900,743864820);(1104352900,701358260);(1128894100,701358260);(1128894100,743864820);(1153435300,701358260);
(1177976500,722611540);(1227058800,722611540);(1276141100,722611540);(1325223500,722611540);(1374305900,722611540);(1423388200,722611540);
(1472470600,722611540);(1521552900,722611540);(1570635200,722611540);(1619717600,722611540);(1668799900,722611540);(1717882200,722611540);
(1766964700,722611540);(1816047100,722611540);(1865129400,722611540);(1914211700,722611540);(1963294100,722611540);(2012376400,722611540);
(2061458700,722611540);(2110541100,722611540);(2159623400,722611540);(2208705700,722611540);(2257788200,722611540);(2306870600,722611540);
(2355952900,722611540);(2405035200,722611540);(2454117600,722611540);(2503199900,722611540);(2552282300,722611540);(2601364700,722611540);
(-2601364700,807624660);(-2552282300,807624660);(-2503199900,807624660);(-2454117600,807624660);(-2405035200,807624660);(-2355952900,807624660);
(-2306870600,807624660);(-2257788200,807624660);(-2208705700,807624660);(-2159623400,807624660);(-2110541100,807624660);(-2061458700,807624660);
(-2012376400,807624660);(-1963294100,807624660);(-1914211700,807624660);(-1865129400,807624660);(-1816047100,807624660);(-1766964700,807624660);
(-1717882200,807624660);(-1668799900,807624660);(-1619717600,807624660);(-1570635200,807624660);(-1521552900,807624660);(-1472470600,807624660);
(-1423388200,807624660);(-1374305900,807624660);(-1325223500,807624660);(-1276141100,807624660);(-1227058800,807624660);(-1177976500,807624660);
(-1128894100,807624660);(-1104352900,786371380);(-1079811700,786371380);(-1079811700,828878020);(-1055270500,786371380);(-1055270500,828878020);
(-1030729400,828878020);(-1030729400,786371380);(-1006188200,828878020);(-1006188200,786371380);(-981647030,786371380);(-981647030,828878020);
(-957105870,786371380);(-957105870,828878020);(-932564700,828878020);(-932564700,786371380);(-908023530,828878020);(-908023530,786371380);
(-883482360,786371380);(-883482360,828878020);(-858941120,786371380);(-858941120,828878020);(-834399950,828878020);(-834399950,786371380);
(-809858780,828878020);(-809858780,786371380);(-785317610,786371380);(-785317610,828878020);(-760776440,786371380);(-760776440,828878020);
(-736235280,828878020);(-736235280,786371380);(-711694110,828878020);(-711694110,786371380);(-687152940,786371380);(-687152940,828878020);
(-662611770,786371380);(-662611770,828878020);(-638070560,828878020);(-638070560,786371380);(-613529400,828878020);(-613529400,786371380);
(-588988230,786371380);(-588988230,828878020);(-564447060,786371380);(-564447060,828878020);(-539905850,828878020);(-539905850,786371380);
(-515364690,828878020);(-515364690,786371380);(-490823520,786371380);(-490823520,828878020);(-466282350,786371380);(-466282350,828878020);
(-441741180,828878020);(-441741180,786371380);(-417199970,828878020);(-417199970,786371380);(-392658810,786371380);(-392658810,828878020);
(-368117640,786371380);(-368117640,828878020);(-343576470,828878020);(-343576470,786371380);(-319035280,828878020);(-319035280,786371380);
(-294494110,786371380);(-294494110,828878020);(-269952930,786371380);(-269952930,828878020);(-245411760,828878020);(-245411760,786371380);
(-220870590,828878020);(-220870590,786371380);(-196329400,786371380);(-196329400,828878020);(-171788230,786371380);(-171788230,828878020);
(-147247060,828878020);(-147247060,786371380);(-122705880,828878020);(-122705880,786371380);(-98164701,786371380);(-98164701,828878020);
(-73623528,786371380);(-73623528,828878020);(-49082351,828878020);(-49082351,786371380);(-24541175,828878020);(-24541175,786371380);
(0,786371380);(0,828878020);(24541175,786371380);(24541175,828878020);(49082351,828878020);(49082351,786371380);
(73623528,828878020);(73623528,786371380);(98164701,786371380);(98164701,828878020);(122705880,786371380);(122705880,828878020);
(147247060,828878020);(147247060,786371380);(171788230,828878020);(171788230,786371380);(196329400,786371380);(196329400,828878020);
(220870590,786371380);(220870590,828878020);(245411760,828878020);(245411760,786371380);(269952930,828878020);(269952930,786371380);
(294494110,786371380);(294494110,828878020);(319035280,786371380);(319035280,828878020);(343576470,828878020);(343576470,786371380);
(368117640,828878020);(368117640,786371380);(392658810,786371380);(392658810,828878020);(417199970,786371380);(417199970,828878020);
(441741180,828878020);(441741180,786371380);(466282350,828878020);(466282350,786371380);(490823520,786371380);(490823520,828878020);
(515364690,786371380);(515364690,828878020);(539905850,828878020);(539905850,786371380);(564447060,828878020);(564447060,786371380);
(588988230,786371380);(588988230,828878020);(613529400,786371380);(613529400,828878020);(638070560,828878020);(638070560,786371380);
(662611770,828878020);(662611770,786371380);(687152940,786371380);(687152940,828878020);(711694110,786371380);(711694110,828878020);
(736235280,828878020);(736235280,786371380);(760776440,828878020);(760776440,786371380);(785317610,786371380);(785317610,828878020);
(809858780,786371380);(809858780,828878020);(834399950,828878020);(834399950,786371380);(858941120,828878020);(858941120,786371380);
(883482360,786371380);(883482360,828878020);(908023530,786371380);(908023530,828878020);(932564700,828878020);(932564700,786371380);
(957105870,828878020);(957105870,786371380);(981647030,786371380);(981647030,828878020);(1006188200,786371380);(1006188200,828878020);
(1030729400,828878020);(1030729400,786371380);(1055270500,828878020);(1055270500,786371380);(1079811700,786371380);(1079811700,828878020);
(1104352900,786371380);(1128894100,807624660);(1177976500,807624660);(1227058800,807624660);(1276141100,807624660);(1325223500,807624660);
(1374305900,807624660);(1423388200,807624660);(1472470600,807624660);(1521552900,807624660);(1570635200,807624660);(1619717600,807624660);
(1668799900,807624660);(1717882200,807624660);(1766964700,807624660);(1816047100,807624660);(1865129400,807624660);(1914211700,807624660);
(1963294100,807624660);(2012376400,807624660);(2061458700,807624660);(2110541100,807624660);(2159623400,807624660);(2208705700,807624660);
(2257788200,807624660);(2306870600,807624660);(2355952900,807624660);(2405035200,807624660);(2454117600,807624660);(2503199900,807624660);
(2552282300,807624660);(2601364700,807624660);(-2552282300,892637860);(-2503199900,892637860);(-2454117600,892637860);(-2405035200,892637860);
(-2355952900,892637860);(-2306870600,892637860);(-2257788200,892637860);(-2208705700,892637860);(-2159623400,892637860);(-2110541100,892637860);
(-2061458700,892637860);(-2012376400,892637860);(-1963294100,892637860);(-1914211700,892637860);(-1865129400,892637860);(-1816047100,892637860);
(-1766964700,892637860);(-1717882200,892637860);(-1668799900,892637860);(-1619717600,892637860);(-1570635200,892637860);(-1521552900,892637860);
(-1472470600,892637860);(-1423388200,892637860);(-1374305900,892637860);(-1325223500,892637860);(-1276141100,892637860);(-1227058800,892637860);
(-1177976500,892637860);(-1128894100,892637860);(-1079811700,892637860);(-1055270500,871384580);(-1030729400,871384580);(-1030729400,913891140);
(-1006188200,871384580);(-1006188200,913891140);(-981647030,913891140);(-981647030,871384580);(-957105870,913891140);(-957105870,871384580);
(-932564700,871384580);(-932564700,913891140);(-908023530,871384580);(-908023530,913891140);(-883482360,913891140);(-883482360,871384580);
(-858941120,913891140);(-858941120,871384580);(-834399950,871384580);(-834399950,913891140);(-809858780,871384580);(-809858780,913891140);
(-785317610,913891140);(-785317610,871384580);(-760776440,913891140);(-760776440,871384580);(-736235280,871384580);(-736235280,913891140);
(-711694110,871384580);(-711694110,913891140);(-687152940,913891140);(-687152940,871384580);(-662611770,913891140);(-662611770,871384580);
(-638070560,871384580);(-638070560,913891140);(-613529400,871384580);(-613529400,913891140);(-588988230,913891140);(-588988230,871384580);
(-564447060,913891140);(-564447060,871384580);(-539905850,871384580);(-539905850,913891140);(-515364690,871384580);(-515364690,913891140);
(-490823520,913891140);(-490823520,871384580);(-466282350,913891140);(-466282350,871384580);(-441741180,871384580);(-441741180,913891140);
(-417199970,871384580);(-417199970,913891140);(-392658810,913891140);(-392658810,871384580);(-368117640,913891140);(-368117640,871384580);
(-343576470,871384580);(-343576470,913891140);(-319035280,871384580);(-319035280,913891140);(-294494110,913891140);(-294494110,871384580);
(-269952930,913891140);(-269952930,871384580);(-245411760,871384580);(-245411760,913891140);(-220870590,871384580);(-220870590,913891140);
(-196329400,913891140);(-196329400,871384580);(-171788230,913891140);(-171788230,871384580);(-147247060,871384580);(-147247060,913891140);
(-122705880,871384580);(-122705880,913891140);(-98164701,913891140);(-98164701,871384580);(-73623528,913891140);(-73623528,871384580);
(-49082351,871384580);(-49082351,913891140);(-24541175,871384580);(-24541175,913891140);(0,913891140);(0,871384580);
(24541175,913891140);(24541175,871384580);(49082351,871384580);(49082351,913891140);(73623528,871384580);(73623528,913891140);
(98164701,913891140);(98164701,871384580);(122705880,913891140);(122705880,871384580);(147247060,871384580);(147247060,913891140);
(171788230,871384580);(171788230,913891140);(196329400,913891140);(196329400,871384580);(220870590,913891140);(220870590,871384580);
(245411760,871384580);(245411760,913891140);(269952930,871384580);(269952930,913891140);(294494110,913891140);(294494110,871384580);
(319035280,913891140);(319035280,871384580);(343576470,871384580);(343576470,913891140);(368117640,871384580);(368117640,913891140);
(392658810,913891140);(392658810,871384580);(417199970,913891140);(417199970,871384580);(441741180,871384580);(441741180,913891140);
(466282350,871384580);(466282350,913891140);(490823520,913891140);(490823520,871384580);(515364690,913891140);(515364690,871384580);
(539905850,871384580);(539905850,913891140);(564447060,871384580);(564447060,913891140);(588988230,913891140);(588988230,871384580);
(613529400,913891140);(613529400,871384580);(638070560,871384580);(638070560,913891140);(662611770,871384580);(662611770,913891140);
(687152940,913891140);(687152940,871384580);(711694110,913891140);(711694110,871384580);(736235280,871384580);(736235280,913891140);
(760776440,871384580);(760776440,913891140);(785317610,913891140);(785317610,871384580);(809858780,913891140);(809858780,871384580);
(834399950,871384580);(834399950,913891140);(858941120,871384580);(858941120,913891140);(883482360,913891140);(883482360,871384580);
(908023530,913891140);(908023530,871384580);(932564700,871384580);(932564700,913891140);(957105870,871384580);(957105870,913891140);
(981647030,913891140);(981647030,871384580);(1006188200,913891140);(1006188200,871384580);(1030729400,871384580);(1030729400,913891140);
(1055270500,871384580);(1079811700,892637860);(1128894100,892637860);(1177976500,892637860);(1227058800,892637860);(1276141100,892637860);
(1325223500,892637860);(1374305900,892637860);(1423388200,892637860);(1472470600,892637860);(1521552900,892637860);(1570635200,892637860);
(1619717600,892637860);(1668799900,892637860);(1717882200,892637860);(1766964700,892637860);(1816047100,892637860);(1865129400,892637860);
(1914211700,892637860);(1963294100,892637860);(2012376400,892637860);(2061458700,892637860);(2110541100,892637860);(2159623400,892637860);
(2208705700,892637860);(2257788200,892637860);(2306870600,892637860);(2355952900,892637860);(2405035200,892637860);(2454117600,892637860);
(2503199900,892637860);(2552282300,892637860);(-2503199900,977650990);(-2454117600,977650990);(-2405035200,977650990);(-2355952900,977650990);
(-2306870600,977650990);(-2257788200,977650990);(-2208705700,977650990);(-2159623400,977650990);(-2110541100,977650990);(-2061458700,977650990);
(-2012376400,977650990);(-1963294100,977650990);(-1914211700,977650990);(-1865129400,977650990);(-1816047100,977650990);(-1766964700,977650990);
(-1717882200,977650990);(-1668799900,977650990);(-1619717600,977650990);(-1570635200,977650990);(-1521552900,977650990);(-1472470600,977650990);
(-1423388200,977650990);(-1374305900,977650990);(-1325223500,977650990);(-1276141100,977650990);(-1227058800,977650990);(-1177976500,977650990);
(-1128894100,977650990);(-1079811700,977650990);(-1030729400,977650990);(-1006188200,956397710);(-981647030,956397710);(-981647030,998904270);
(-957105870,956397710);(-957105870,998904270);(-932564700,998904270);(-932564700,956397710);(-908023530,998904270);(-908023530,956397710);
(-883482360,956397710);(-883482360,998904270);(-858941120,956397710);(-858941120,998904270);(-834399950,998904270);(-834399950,956397710);
(-809858780,998904270);(-809858780,956397710);(-785317610,956397710);(-785317610,998904270);(-760776440,956397710);(-760776440,998904270);
(-736235280,998904270);(-736235280,956397710);(-711694110,998904270);(-711694110,956397710);(-687152940,956397710);(-687152940,998904270);
(-662611770,956397710);(-662611770,998904270);(-638070560,998904270);(-638070560,956397710);(-613529400,998904270);(-613529400,956397710);
(-588988230,956397710);(-588988230,998904270);(-564447060,956397710);(-564447060,998904270);(-539905850,998904270);(-539905850,956397710);
(-515364690,998904270);(-515364690,956397710);(-490823520,956397710);(-490823520,998904270);(-466282350,956397710);(-466282350,998904270);
(-441741180,998904270);(-441741180,956397710);(-417199970,998904270);(-417199970,956397710);(-392658810,956397710);(-392658810,998904270);
(-368117640,956397710);(-368117640,998904270);(-343576470,998904270);(-343576470,956397710);(-319035280,998904270);(-319035280,956397710);
(-294494110,956397710);(-294494110,998904270);(-269952930,956397710);(-269952930,998904270);(-245411760,998904270);(-245411760,956397710);
(-220870590,998904270);(-220870590,956397710);(-196329400,956397710);(-196329400,998904270);(-171788230,956397710);(-171788230,998904270);
(-147247060,998904270);(-147247060,956397710);(-122705880,998904270);(-122705880,956397710);(-98164701,956397710);(-98164701,998904270);
(-73623528,956397710);(-73623528,998904270);(-49082351,998904270);(-49082351,956397710);(-24541175,998904270);(-24541175,956397710);
(0,956397710);(0,998904270);(24541175,956397710);(24541175,998904270);(49082351,998904270);(49082351,956397710);
(73623528,998904270);(73623528,956397710);(98164701,956397710);(98164701,998904270);(122705880,956397710);(122705880,998904270);
(147247060,998904270);(147247060,956397710);(171788230,998904270);(171788230,956397710);(196329400,956397710);(196329400,998904270);
(220870590,956397710);(220870590,998904270);(245411760,998904270);(245411760,956397710);(269952930,998904270);(269952930,956397710);
(294494110,956397710);(294494110,998904270);(319035280,956397710);(319035280,998904270);(343576470,998904270);(343576470,956397710);
(368117640,998904270);(368117640,956397710);(392658810,956397710);(392658810,998904270);(417199970,956397710);(417199970,998904270);
(441741180,998904270);(441741180,956397710);(466282350,998904270);(466282350,956397710);(490823520,956397710);(490823520,998904270);
(515364690,956397710);(515364690,998904270);(539905850,998904270);(539905850,956397710);(564447060,998904270);(564447060,956397710);
(588988230,956397710);(588988230,998904270);(613529400,956397710);(613529400,998904270);(638070560,998904270);(638070560,956397710);
(662611770,998904270);(662611770,956397710);(687152940,956397710);(687152940,998904270);(711694110,956397710);(711694110,998904270);
(736235280,998904270);(736235280,956397710);(760776440,998904270);(760776440,956397710);(785317610,956397710);(785317610,998904270);
(809858780,956397710);(809858780,998904270);(834399950,998904270);(834399950,956397710);(858941120,998904270);(858941120,956397710);
(883482360,956397710);(883482360,998904270);(908023530,956397710);(908023530,998904270);(932564700,998904270);(932564700,956397710);
(957105870,998904270);(957105870,956397710);(981647030,956397710);(981647030,998904270);(1006188200,956397710);(1030729400,977650990);
(1079811700,977650990);(1128894100,977650990);(1177976500,977650990);(1227058800,977650990);(1276141100,977650990);(1325223500,977650990);
(1374305900,977650990);(1423388200,977650990);(1472470600,977650990);(1521552900,977650990);(1570635200,977650990);(1619717600,977650990);
(1668799900,977650990);(1717882200,977650990);(1766964700,977650990);(1816047100,977650990);(1865129400,977650990);(1914211700,977650990);
(1963294100,977650990);(2012376400,977650990);(2061458700,977650990);(2110541100,977650990);(2159623400,977650990);(2208705700,977650990);
(2257788200,977650990);(2306870600,977650990);(2355952900,977650990);(2405035200,977650990);(2454117600,977650990);(2503199900,977650990);
(-2503199900,1062664100);(-2454117600,1062664100);(-2405035200,1062664100);(-2355952900,1062664100);(-2306870600,1062664100);(-2257788200,1062664100);
(-2208705700,1062664100);(-2159623400,1062664100);(-2110541100,1062664100);(-2061458700,1062664100);(-2012376400,1062664100);(-1963294100,1062664100);
(-1914211700,1062664100);(-1865129400,1062664100);(-1816047100,1062664100);(-1766964700,1062664100);(-1717882200,1062664100);(-1668799900,1062664100);
(-1619717600,1062664100);(-1570635200,1062664100);(-1521552900,1062664100);(-1472470600,1062664100);(-1423388200,1062664100);(-1374305900,1062664100);
(-1325223500,1062664100);(-1276141100,1062664100);(-1227058800,1062664100);(-1177976500,1062664100);(-1128894100,1062664100);(-1079811700,1062664100);
(-1030729400,1062664100);(-981647030,1062664100);(-957105870,1041410800);(-932564700,1041410800);(-932564700,1083917400);(-908023530,1041410800);
(-908023530,1083917400);(-883482360,1083917400);(-883482360,1041410800);(-858941120,1083917400);(-858941120,1041410800);(-834399950,1041410800);
(-834399950,1083917400);(-809858780,1041410800);(-809858780,1083917400);(-785317610,1083917400);(-785317610,1041410800);(-760776440,1083917400);
(-760776440,1041410800);(-736235280,1041410800);(-736235280,1083917400);(-711694110,1041410800);(-711694110,1083917400);(-687152940,1083917400);
(-687152940,1041410800);(-662611770,1083917400);(-662611770,1041410800);(-638070560,1041410800);(-638070560,1083917400);(-613529400,1041410800);
(-613529400,1083917400);(-588988230,1083917400);(-588988230,1041410800);(-564447060,1083917400);(-564447060,1041410800);(-539905850,1041410800);
(-539905850,1083917400);(-515364690,1041410800);(-515364690,1083917400);(-490823520,1083917400);(-490823520,1041410800);(-466282350,1083917400);
(-466282350,1041410800);(-441741180,1041410800);(-441741180,1083917400);(-417199970,1041410800);(-417199970,1083917400);(-392658810,1083917400);
(-392658810,1041410800);(-368117640,1083917400);(-368117640,1041410800);(-343576470,1041410800);(-343576470,1083917400);(-319035280,1041410800);
(-319035280,1083917400);(-294494110,1083917400);(-294494110,1041410800);(-269952930,1083917400);(-269952930,1041410800);(-245411760,1041410800);
(-245411760,1083917400);(-220870590,1041410800);(-220870590,1083917400);(-196329400,1083917400);(-196329400,1041410800);(-171788230,1083917400);
(-171788230,1041410800);(-147247060,1041410800);(-147247060,1083917400);(-122705880,1041410800);(-122705880,1083917400);(-98164701,1083917400);
(-98164701,1041410800);(-73623528,1083917400);(-73623528,1041410800);(-49082351,1041410800);(-49082351,1083917400);(-24541175,1041410800);
(-24541175,1083917400);(0,1083917400);(0,1041410800);(24541175,1083917400);(24541175,1041410800);(49082351,1041410800);
(49082351,1083917400);(73623528,1041410800);(73623528,1083917400);(98164701,1083917400);(98164701,1041410800);(122705880,1083917400);
(122705880,1041410800);(147247060,1041410800);(147247060,1083917400);(171788230,1041410800);(171788230,1083917400);(196329400,1083917400);
(196329400,1041410800);(220870590,1083917400);(220870590,1041410800);(245411760,1041410800);(245411760,1083917400);(269952930,1041410800);
(269952930,1083917400);(294494110,1083917400);(294494110,1041410800);(319035280,1083917400);(319035280,1041410800);(343576470,1041410800);
(343576470,1083917400);(368117640,1041410800);(368117640,1083917400);(392658810,1083917400);(392658810,1041410800);(417199970,1083917400);
(417199970,1041410800);(441741180,1041410800);(441741180,1083917400);(466282350,1041410800);(466282350,1083917400);(490823520,1083917400);
(490823520,1041410800);(515364690,1083917400);(515364690,1041410800);(539905850,1041410800);(539905850,1083917400);(564447060,1041410800);
(564447060,1083917400);(588988230,1083917400);(588988230,1041410800);(613529400,1083917400);(613529400,1041410800);(638070560,1041410800);
(638070560,1083917400);(662611770,1041410800);(662611770,1083917400);(687152940,1083917400);(687152940,1041410800);(711694110,1083917400);
(711694110,1041410800);(736235280,1041410800);(736235280,1083917400);(760776440,1041410800);(760776440,1083917400);(785317610,1083917400);
(785317610,1041410800);(809858780,1083917400);(809858780,1041410800);(834399950,1041410800);(834399950,1083917400);(858941120,1041410800);
(858941120,1083917400);(883482360,1083917400);(883482360,1041410800);(908023530,1083917400);(908023530,1041410800);(932564700,1041410800);
(932564700,1083917400);(957105870,1041410800);(981647030,1062664100);(1030729400,1062664100);(1079811700,1062664100);(1128894100,1062664100);
(1177976500,1062664100);(1227058800,1062664100);(1276141100,1062664100);(1325223500,1062664100);(1374305900,1062664100);(1423388200,1062664100);
(1472470600,1062664100);(1521552900,1062664100);(1570635200,1062664100);(1619717600,1062664100);(1668799900,1062664100);(1717882200,1062664100);
(1766964700,1062664100);(1816047100,1062664100);(1865129400,1062664100);(1914211700,1062664100);(1963294100,1062664100);(2012376400,1062664100);
(2061458700,1062664100);(2110541100,1062664100);(2159623400,1062664100);(2208705700,1062664100);(2257788200,1062664100);(2306870600,1062664100);
(2355952900,1062664100);(2405035200,1062664100);(2454117600,1062664100);(2503199900,1062664100);(-2454117600,1147677200);(-2405035200,1147677200);
(-2355952900,1147677200);(-2306870600,1147677200);(-2257788200,1147677200);(-2208705700,1147677200);(-2159623400,1147677200);(-2110541100,1147677200);
(-2061458700,1147677200);(-2012376400,1147677200);(-1963294100,1147677200);(-1914211700,1147677200);(-1865129400,1147677200);(-1816047100,1147677200);
(-1766964700,1147677200);(-1717882200,1147677200);(-1668799900,1147677200);(-1619717600,1147677200);(-1570635200,1147677200);(-1521552900,1147677200);
(-1472470600,1147677200);(-1423388200,1147677200);(-1374305900,1147677200);(-1325223500,1147677200);(-1276141100,1147677200);(-1227058800,1147677200);
(-1177976500,1147677200);(-1128894100,1147677200);(-1079811700,1147677200);(-1030729400,1147677200);(-981647030,1147677200);(-932564700,1147677200);
(-908023530,1126424000);(-883482360,1126424000);(-883482360,1168930500);(-858941120,1126424000);(-858941120,1168930500);(-834399950,1168930500);
(-834399950,1126424000);(-809858780,1168930500);(-809858780,1126424000);(-785317610,1126424000);(-785317610,1168930500);(-760776440,1126424000);
(-760776440,1168930500);(-736235280,1168930500);(-736235280,1126424000);(-711694110,1168930500);(-711694110,1126424000);(-687152940,1126424000);
(-687152940,1168930500);(-662611770,1126424000);(-662611770,1168930500);(-638070560,1168930500);(-638070560,1126424000);(-613529400,1168930500);
(-613529400,1126424000);(-588988230,1126424000);(-588988230,1168930500);(-564447060,1126424000);(-564447060,1168930500);(-539905850,1168930500);
(-539905850,1126424000);(-515364690,1168930500);(-515364690,1126424000);(-490823520,1126424000);(-490823520,1168930500);(-466282350,1126424000);
(-466282350,1168930500);(-441741180,1168930500);(-441741180,1126424000);(-417199970,1168930500);(-417199970,1126424000);(-392658810,1126424000);
(-392658810,1168930500);(-368117640,1126424000);(-368117640,1168930500);(-343576470,1168930500);(-343576470,1126424000);(-319035280,1168930500);
(-319035280,1126424000);(-294494110,1126424000);(-294494110,1168930500);(-269952930,1126424000);(-269952930,1168930500);(-245411760,1168930500);
(-245411760,1126424000);(-220870590,1168930500);(-220870590,1126424000);(-196329400,1126424000);(-196329400,1168930500);(-171788230,1126424000);
(-171788230,1168930500);(-147247060,1168930500);(-147247060,1126424000);(-122705880,1168930500);(-122705880,1126424000);(-98164701,1126424000);
(-98164701,1168930500);(-73623528,1126424000);(-73623528,1168930500);(-49082351,1168930500);(-49082351,1126424000);(-24541175,1168930500);
(-24541175,1126424000);(0,1126424000);(0,1168930500);(24541175,1126424000);(24541175,1168930500);(49082351,1168930500);
(49082351,1126424000);(73623528,1168930500);(73623528,1126424000);(98164701,1126424000);(98164701,1168930500);(122705880,1126424000);
(122705880,1168930500);(147247060,1168930500);(147247060,1126424000);(171788230,1168930500);(171788230,1126424000);(196329400,1126424000);
(196329400,1168930500);(220870590,1126424000);(220870590,1168930500);(245411760,1168930500);(245411760,1126424000);(269952930,1168930500);
(269952930,1126424000);(294494110,1126424000);(294494110,1168930500);(319035280,1126424000);(319035280,1168930500);(343576470,1168930500);
(343576470,1126424000);(368117640,1168930500);(368117640,1126424000);(392658810,1126424000);(392658810,1168930500);(417199970,1126424000);
(417199970,1168930500);(441741180,1168930500);(441741180,1126424000);(466282350,1168930500);(466282350,1126424000);(490823520,1126424000);
(490823520,1168930500);(515364690,1126424000);(515364690,1168930500);(539905850,1168930500);(539905850,1126424000);(564447060,1168930500);
(564447060,1126424000);(588988230,1126424000);(588988230,1168930500);(613529400,1126424000);(613529400,1168930500);(638070560,1168930500);
(638070560,1126424000);(662611770,1168930500);(662611770,1126424000);(687152940,1126424000);(687152940,1168930500);(711694110,1126424000);
(711694110,1168930500);(736235280,1168930500);(736235280,1126424000);(760776440,1168930500);(760776440,1126424000);(785317610,1126424000);
(785317610,1168930500);(809858780,1126424000);(809858780,1168930500);(834399950,1168930500);(834399950,1126424000);(858941120,1168930500);
(858941120,1126424000);(883482360,1126424000);(883482360,1168930500);(908023530,1126424000);(932564700,1147677200);(981647030,1147677200);
(1030729400,1147677200);(1079811700,1147677200);(1128894100,1147677200);(1177976500,1147677200);(1227058800,1147677200);(1276141100,1147677200);
(1325223500,1147677200);(1374305900,1147677200);(1423388200,1147677200);(1472470600,1147677200);(1521552900,1147677200);(1570635200,1147677200);
(1619717600,1147677200);(1668799900,1147677200);(1717882200,1147677200);(1766964700,1147677200);(1816047100,1147677200);(1865129400,1147677200);
(1914211700,1147677200);(1963294100,1147677200);(2012376400,1147677200);(2061458700,1147677200);(2110541100,1147677200);(2159623400,1147677200);
(2208705700,1147677200);(2257788200,1147677200);(2306870600,1147677200);(2355952900,1147677200);(2405035200,1147677200);(2454117600,1147677200);
(-2405035200,1232690400);(-2355952900,1232690400);(-2306870600,1232690400);(-2257788200,1232690400);(-2208705700,1232690400);(-2159623400,1232690400);
(-2110541100,1232690400);(-2061458700,1232690400);(-2012376400,1232690400);(-1963294100,1232690400);(-1914211700,1232690400);(-1865129400,1232690400);
(-1816047100,1232690400);(-1766964700,1232690400);(-1717882200,1232690400);(-1668799900,1232690400);(-1619717600,1232690400);(-1570635200,1232690400);
(-1521552900,1232690400);(-1472470600,1232690400);(-1423388200,1232690400);(-1374305900,1232690400);(-1325223500,1232690400);(-1276141100,1232690400);
(-1227058800,1232690400);(-1177976500,1232690400);(-1128894100,1232690400);(-1079811700,1232690400);(-1030729400,1232690400);(-981647030,1232690400);
(-932564700,1232690400);(-883482360,1232690400);(-858941120,1211437100);(-834399950,1211437100);(-834399950,1253943600);(-809858780,1211437100);
(-809858780,1253943600);(-785317610,1253943600);(-785317610,1211437100);(-760776440,1253943600);(-760776440,1211437100);(-736235280,1211437100);
(-736235280,1253943600);(-711694110,1211437100);(-711694110,1253943600);(-687152940,1253943600);(-687152940,1211437100);(-662611770,1253943600);
(-662611770,1211437100);(-638070560,1211437100);(-638070560,1253943600);(-613529400,1211437100);(-613529400,1253943600);(-588988230,1253943600);
(-588988230,1211437100);(-564447060,1253943600);(-564447060,1211437100);(-539905850,1211437100);(-539905850,1253943600);(-515364690,1211437100);
(-515364690,1253943600);(-490823520,1253943600);(-490823520,1211437100);(-466282350,1253943600);(-466282350,1211437100);(-441741180,1211437100);
(-441741180,1253943600);(-417199970,1211437100);(-417199970,1253943600);(-392658810,1253943600);(-392658810,1211437100);(-368117640,1253943600);
(-368117640,1211437100);(-343576470,1211437100);(-343576470,1253943600);(-319035280,1211437100);(-319035280,1253943600);(-294494110,1253943600);
(-294494110,1211437100);(-269952930,1253943600);(-269952930,1211437100);(-245411760,1211437100);(-245411760,1253943600);(-220870590,1211437100);
(-220870590,1253943600);(-196329400,1253943600);(-196329400,1211437100);(-171788230,1253943600);(-171788230,1211437100);(-147247060,1211437100);
(-147247060,1253943600);(-122705880,1211437100);(-122705880,1253943600);(-98164701,1253943600);(-98164701,1211437100);(-73623528,1253943600);
(-73623528,1211437100);(-49082351,1211437100);(-49082351,1253943600);(-24541175,1211437100);(-24541175,1253943600);(0,1253943600);
(0,1211437100);(24541175,1253943600);(24541175,1211437100);(49082351,1211437100);(49082351,1253943600);(73623528,1211437100);
(73623528,1253943600);(98164701,1253943600);(98164701,1211437100);(122705880,1253943600);(122705880,1211437100);(147247060,1211437100);
(147247060,1253943600);(171788230,1211437100);(171788230,1253943600);(196329400,1253943600);(196329400,1211437100);(220870590,1253943600);
(220870590,1211437100);(245411760,1211437100);(245411760,1253943600);(269952930,1211437100);(269952930,1253943600);(294494110,1253943600);
(294494110,1211437100);(319035280,1253943600);(319035280,1211437100);(343576470,1211437100);(343576470,1253943600);(368117640,1211437100);
(368117640,1253943600);(392658810,1253943600);(392658810,1211437100);(417199970,1253943600);(417199970,1211437100);(441741180,1211437100);
(441741180,1253943600);(466282350,1211437100);(466282350,1253943600);(490823520,1253943600);(490823520,1211437100);(515364690,1253943600);
(515364690,1211437100);(539905850,1211437100);(539905850,1253943600);(564447060,1211437100);(564447060,1253943600);(588988230,1253943600);
(588988230,1211437100);(613529400,1253943600);(613529400,1211437100);(638070560,1211437100);(638070560,1253943600);(662611770,1211437100);
(662611770,1253943600);(687152940,1253943600);(687152940,1211437100);(711694110,1253943600);(711694110,1211437100);(736235280,1211437100);
(736235280,1253943600);(760776440,1211437100);(760776440,1253943600);(785317610,1253943600);(785317610,1211437100);(809858780,1253943600);
(809858780,1211437100);(834399950,1211437100);(834399950,1253943600);(858941120,1211437100);(883482360,1232690400);(932564700,1232690400);
(981647030,1232690400);(1030729400,1232690400);(1079811700,1232690400);(1128894100,1232690400);(1177976500,1232690400);(1227058800,1232690400);
(1276141100,1232690400);(1325223500,1232690400);(1374305900,1232690400);(1423388200,1232690400);(1472470600,1232690400);(1521552900,1232690400);
(1570635200,1232690400);(1619717600,1232690400);(1668799900,1232690400);(1717882200,1232690400);(1766964700,1232690400);(1816047100,1232690400);
(1865129400,1232690400);(1914211700,1232690400);(1963294100,1232690400);(2012376400,1232690400);(2061458700,1232690400);(2110541100,1232690400);
(2159623400,1232690400);(2208705700,1232690400);(2257788200,1232690400);(2306870600,1232690400);(2355952900,1232690400);(2405035200,1232690400);
(-2355952900,1317703400);(-2306870600,1317703400);(-2257788200,1317703400);(-2208705700,1317703400);(-2159623400,1317703400);(-2110541100,1317703400);
(-2061458700,1317703400);(-2012376400,1317703400);(-1963294100,1317703400);(-1914211700,1317703400);(-1865129400,1317703400);(-1816047100,1317703400);
(-1766964700,1317703400);(-1717882200,1317703400);(-1668799900,1317703400);(-1619717600,1317703400);(-1570635200,1317703400);(-1521552900,1317703400);
(-1472470600,1317703400);(-1423388200,1317703400);(-1374305900,1317703400);(-1325223500,1317703400);(-1276141100,1317703400);(-1227058800,1317703400);
(-1177976500,1317703400);(-1128894100,1317703400);(-1079811700,1317703400);(-1030729400,1317703400);(-981647030,1317703400);(-932564700,1317703400);
(-883482360,1317703400);(-834399950,1317703400);(-809858780,1296450200);(-785317610,1296450200);(-785317610,1338956800);(-760776440,1296450200);
(-760776440,1338956800);(-736235280,1338956800);(-736235280,1296450200);(-711694110,1338956800);(-711694110,1296450200);(-687152940,1296450200);
(-687152940,1338956800);(-662611770,1296450200);(-662611770,1338956800);(-638070560,1338956800);(-638070560,1296450200);(-613529400,1338956800);
(-613529400,1296450200);(-588988230,1296450200);(-588988230,1338956800);(-564447060,1296450200);(-564447060,1338956800);(-539905850,1338956800);
(-539905850,1296450200);(-515364690,1338956800);(-515364690,1296450200);(-490823520,1296450200);(-490823520,1338956800);(-466282350,1296450200);
(-466282350,1338956800);(-441741180,1338956800);(-441741180,1296450200);(-417199970,1338956800);(-417199970,1296450200);(-392658810,1296450200);
(-392658810,1338956800);(-368117640,1296450200);(-368117640,1338956800);(-343576470,1338956800);(-343576470,1296450200);(-319035280,1338956800);
(-319035280,1296450200);(-294494110,1296450200);(-294494110,1338956800);(-269952930,1296450200);(-269952930,1338956800);(-245411760,1338956800);
(-245411760,1296450200);(-220870590,1338956800);(-220870590,1296450200);(-196329400,1296450200);(-196329400,1338956800);(-171788230,1296450200);
(-171788230,1338956800);(-147247060,1338956800);(-147247060,1296450200);(-122705880,1338956800);(-122705880,1296450200);(-98164701,1296450200);
(-98164701,1338956800);(-73623528,1296450200);(-73623528,1338956800);(-49082351,1338956800);(-49082351,1296450200);(-24541175,1338956800);
(-24541175,1296450200);(0,1296450200);(0,1338956800);(24541175,1296450200);(24541175,1338956800);(49082351,1338956800);
(49082351,1296450200);(73623528,1338956800);(73623528,1296450200);(98164701,1296450200);(98164701,1338956800);(122705880,1296450200);
(122705880,1338956800);(147247060,1338956800);(147247060,1296450200);(171788230,1338956800);(171788230,1296450200);(196329400,1296450200);
(196329400,1338956800);(220870590,1296450200);(220870590,1338956800);(245411760,1338956800);(245411760,1296450200);(269952930,1338956800);
(269952930,1296450200);(294494110,1296450200);(294494110,1338956800);(319035280,1296450200);(319035280,1338956800);(343576470,1338956800);
(343576470,1296450200);(368117640,1338956800);(368117640,1296450200);(392658810,1296450200);(392658810,1338956800);(417199970,1296450200);
(417199970,1338956800);(441741180,1338956800);(441741180,1296450200);(466282350,1338956800);(466282350,1296450200);(490823520,1296450200);
(490823520,1338956800);(515364690,1296450200);(515364690,1338956800);(539905850,1338956800);(539905850,1296450200);(564447060,1338956800);
(564447060,1296450200);(588988230,1296450200);(588988230,1338956800);(613529400,1296450200);(613529400,1338956800);(638070560,1338956800);
(638070560,1296450200);(662611770,1338956800);(662611770,1296450200);(687152940,1296450200);(687152940,1338956800);(711694110,1296450200);
(711694110,1338956800);(736235280,1338956800);(736235280,1296450200);(760776440,1338956800);(760776440,1296450200);(785317610,1296450200);
(785317610,1338956800);(809858780,1296450200);(834399950,1317703400);(883482360,1317703400);(932564700,1317703400);(981647030,1317703400);
(1030729400,1317703400);(1079811700,1317703400);(1128894100,1317703400);(1177976500,1317703400);(1227058800,1317703400);(1276141100,1317703400);
(1325223500,1317703400);(1374305900,1317703400);(1423388200,1317703400);(1472470600,1317703400);(1521552900,1317703400);(1570635200,1317703400);
(1619717600,1317703400);(1668799900,1317703400);(1717882200,1317703400);(1766964700,1317703400);(1816047100,1317703400);(1865129400,1317703400);
(1914211700,1317703400);(1963294100,1317703400);(2012376400,1317703400);(2061458700,1317703400);(2110541100,1317703400);(2159623400,1317703400);
(2208705700,1317703400);(2257788200,1317703400);(2306870600,1317703400);(2355952900,1317703400);(-2306870600,1402716500);(-2257788200,1402716500);
(-2208705700,1402716500);(-2159623400,1402716500);(-2110541100,1402716500);(-2061458700,1402716500);(-2012376400,1402716500);(-1963294100,1402716500);
(-1914211700,1402716500);(-1865129400,1402716500);(-1816047100,1402716500);(-1766964700,1402716500);(-1717882200,1402716500);(-1668799900,1402716500);
(-1619717600,1402716500);(-1570635200,1402716500);(-1521552900,1402716500);(-1472470600,1402716500);(-1423388200,1402716500);(-1374305900,1402716500);
(-1325223500,1402716500);(-1276141100,1402716500);(-1227058800,1402716500);(-1177976500,1402716500);(-1128894100,1402716500);(-1079811700,1402716500);
(-1030729400,1402716500);(-981647030,1402716500);(-932564700,1402716500);(-883482360,1402716500);(-834399950,1402716500);(-785317610,1402716500);
(-736235280,1402716500);(-687152940,1402716500);(-638070560,1402716500);(-588988230,1402716500);(-539905850,1402716500);(-490823520,1402716500);
(-441741180,1402716500);(-392658810,1402716500);(-343576470,1402716500);(-294494110,1402716500);(-245411760,1402716500);(-196329400,1402716500);
(-147247060,1402716500);(-98164701,1402716500);(-49082351,1402716500);(0,1402716500);(49082351,1402716500);(98164701,1402716500);
(147247060,1402716500);(196329400,1402716500);(245411760,1402716500);(294494110,1402716500);(343576470,1402716500);(392658810,1402716500);
(441741180,1402716500);(490823520,1402716500);(539905850,1402716500);(588988230,1402716500);(638070560,1402716500);(687152940,1402716500);
(736235280,1402716500);(785317610,1402716500);(834399950,1402716500);(883482360,1402716500);(932564700,1402716500);(981647030,1402716500);
(1030729400,1402716500);(1079811700,1402716500);(1128894100,1402716500);(1177976500,1402716500);(1227058800,1402716500);(1276141100,1402716500);
(1325223500,1402716500);(1374305900,1402716500);(1423388200,1402716500);(1472470600,1402716500);(1521552900,1402716500);(1570635200,1402716500);
(1619717600,1402716500);(1668799900,1402716500);(1717882200,1402716500);(1766964700,1402716500);(1816047100,1402716500);(1865129400,1402716500);
(1914211700,1402716500);(1963294100,1402716500);(2012376400,1402716500);(2061458700,1402716500);(2110541100,1402716500);(2159623400,1402716500);
(2208705700,1402716500);(2257788200,1402716500);(2306870600,1402716500);(-2257788200,1487729600);(-2208705700,1487729600);(-2159623400,1487729600);
(-2110541100,1487729600);(-2061458700,1487729600);(-2012376400,1487729600);(-1963294100,1487729600);(-1914211700,1487729600);(-1865129400,1487729600);
(-1816047100,1487729600);(-1766964700,1487729600);(-1717882200,1487729600);(-1668799900,1487729600);(-1619717600,1487729600);(-1570635200,1487729600);
(-1521552900,1487729600);(-1472470600,1487729600);(-1423388200,1487729600);(-1374305900,1487729600);(-1325223500,1487729600);(-1276141100,1487729600);
(-1227058800,1487729600);(-1177976500,1487729600);(-1128894100,1487729600);(-1079811700,1487729600);(-1030729400,1487729600);(-981647030,1487729600);
(-932564700,1487729600);(-883482360,1487729600);(-834399950,1487729600);(-785317610,1487729600);(-736235280,1487729600);(-687152940,1487729600);
(-638070560,1487729600);(-588988230,1487729600);(-539905850,1487729600);(-490823520,1487729600);(-441741180,1487729600);(-392658810,1487729600);
(-343576470,1487729600);(-294494110,1487729600);(-245411760,1487729600);(-196329400,1487729600);(-147247060,1487729600);(-98164701,1487729600);
(-49082351,1487729600);(0,1487729600);(49082351,1487729600);(98164701,1487729600);(147247060,1487729600);(196329400,1487729600);
(245411760,1487729600);(294494110,1487729600);(343576470,1487729600);(392658810,1487729600);(441741180,1487729600);(490823520,1487729600);
(539905850,1487729600);(588988230,1487729600);(638070560,1487729600);(687152940,1487729600);(736235280,1487729600);(785317610,1487729600);
(834399950,1487729600);(883482360,1487729600);(932564700,1487729600);(981647030,1487729600);(1030729400,1487729600);(1079811700,1487729600);
(1128894100,1487729600);(1177976500,1487729600);(1227058800,1487729600);(1276141100,1487729600);(1325223500,1487729600);(1374305900,1487729600);
(1423388200,1487729600);(1472470600,1487729600);(1521552900,1487729600);(1570635200,1487729600);(1619717600,1487729600);(1668799900,1487729600);
(1717882200,1487729600);(1766964700,1487729600);(1816047100,1487729600);(1865129400,1487729600);(1914211700,1487729600);(1963294100,1487729600);
(2012376400,1487729600);(2061458700,1487729600);(2110541100,1487729600);(2159623400,1487729600);(2208705700,1487729600);(2257788200,1487729600);
(-2208705700,1572742800);(-2159623400,1572742800);(-2110541100,1572742800);(-2061458700,1572742800);(-2012376400,1572742800);(-1963294100,1572742800);
(-1914211700,1572742800);(-1865129400,1572742800);(-1816047100,1572742800);(-1766964700,1572742800);(-1717882200,1572742800);(-1668799900,1572742800);
(-1619717600,1572742800);(-1570635200,1572742800);(-1521552900,1572742800);(-1472470600,1572742800);(-1423388200,1572742800);(-1374305900,1572742800);
(-1325223500,1572742800);(-1276141100,1572742800);(-1227058800,1572742800);(-1177976500,1572742800);(-1128894100,1572742800);(-1079811700,1572742800);
(-1030729400,1572742800);(-981647030,1572742800);(-932564700,1572742800);(-883482360,1572742800);(-834399950,1572742800);(-785317610,1572742800);
(-736235280,1572742800);(-687152940,1572742800);(-638070560,1572742800);(-588988230,1572742800);(-539905850,1572742800);(-490823520,1572742800);
(-441741180,1572742800);(-392658810,1572742800);(-343576470,1572742800);(-294494110,1572742800);(-245411760,1572742800);(-196329400,1572742800);
(-147247060,1572742800);(-98164701,1572742800);(-49082351,1572742800);(0,1572742800);(49082351,1572742800);(98164701,1572742800);
(147247060,1572742800);(196329400,1572742800);(245411760,1572742800);(294494110,1572742800);(343576470,1572742800);(392658810,1572742800);
(441741180,1572742800);(490823520,1572742800);(539905850,1572742800);(588988230,1572742800);(638070560,1572742800);(687152940,1572742800);
(736235280,1572742800);(785317610,1572742800);(834399950,1572742800);(883482360,1572742800);(932564700,1572742800);(981647030,1572742800);
(1030729400,1572742800);(1079811700,1572742800);(1128894100,1572742800);(1177976500,1572742800);(1227058800,1572742800);(1276141100,1572742800);
(1325223500,1572742800);(1374305900,1572742800);(1423388200,1572742800);(1472470600,1572742800);(1521552900,1572742800);(1570635200,1572742800);
(1619717600,1572742800);(1668799900,1572742800);(1717882200,1572742800);(1766964700,1572742800);(1816047100,1572742800);(1865129400,1572742800);
(1914211700,1572742800);(1963294100,1572742800);(2012376400,1572742800);(2061458700,1572742800);(2110541100,1572742800);(2159623400,1572742800);
(2208705700,1572742800);(-2159623400,1657756000);(-2110541100,1657756000);(-2061458700,1657756000);(-2012376400,1657756000);(-1963294100,1657756000);
(-1914211700,1657756000);(-1865129400,1657756000);(-1816047100,1657756000);(-1766964700,1657756000);(-1717882200,1657756000);(-1668799900,1657756000);
(-1619717600,1657756000);(-1570635200,1657756000);(-1521552900,1657756000);(-1472470600,1657756000);(-1423388200,1657756000);(-1374305900,1657756000);
(-1325223500,1657756000);(-1276141100,1657756000);(-1227058800,1657756000);(-1177976500,1657756000);(-1128894100,1657756000);(-1079811700,1657756000);
(-1030729400,1657756000);(-981647030,1657756000);(-932564700,1657756000);(-883482360,1657756000);(-834399950,1657756000);(-785317610,1657756000);
(-736235280,1657756000);(-687152940,1657756000);(-638070560,1657756000);(-588988230,1657756000);(-539905850,1657756000);(-490823520,1657756000);
(-441741180,1657756000);(-392658810,1657756000);(-343576470,1657756000);(-294494110,1657756000);(-245411760,1657756000);(-196329400,1657756000);
(-147247060,1657756000);(-98164701,1657756000);(-49082351,1657756000);(0,1657756000);(49082351,1657756000);(98164701,1657756000);
(147247060,1657756000);(196329400,1657756000);(245411760,1657756000);(294494110,1657756000);(343576470,1657756000);(392658810,1657756000);
(441741180,1657756000);(490823520,1657756000);(539905850,1657756000);(588988230,1657756000);(638070560,1657756000);(687152940,1657756000);
(736235280,1657756000);(785317610,1657756000);(834399950,1657756000);(883482360,1657756000);(932564700,1657756000);(981647030,1657756000);
(1030729400,1657756000);(1079811700,1657756000);(1128894100,1657756000);(1177976500,1657756000);(1227058800,1657756000);(1276141100,1657756000);
(1325223500,1657756000);(1374305900,1657756000);(1423388200,1657756000);(1472470600,1657756000);(1521552900,1657756000);(1570635200,1657756000);
(1619717600,1657756000);(1668799900,1657756000);(1717882200,1657756000);(1766964700,1657756000);(1816047100,1657756000);(1865129400,1657756000);
(1914211700,1657756000);(1963294100,1657756000);(2012376400,1657756000);(2061458700,1657756000);(2110541100,1657756000);(2159623400,1657756000);
(-2061458700,1742769200);(-2012376400,1742769200);(-1963294100,1742769200);(-1914211700,1742769200);(-1865129400,1742769200);(-1816047100,1742769200);
(-1766964700,1742769200);(-1717882200,1742769200);(-1668799900,1742769200);(-1619717600,1742769200);(-1570635200,1742769200);(-1521552900,1742769200);
(-1472470600,1742769200);(-1423388200,1742769200);(-1374305900,1742769200);(-1325223500,1742769200);(-1276141100,1742769200);(-1227058800,1742769200);
(-1177976500,1742769200);(-1128894100,1742769200);(-1079811700,1742769200);(-1030729400,1742769200);(-981647030,1742769200);(-932564700,1742769200);
(-883482360,1742769200);(-834399950,1742769200);(-785317610,1742769200);(-736235280,1742769200);(-687152940,1742769200);(-638070560,1742769200);
(-588988230,1742769200);(-539905850,1742769200);(-490823520,1742769200);(-441741180,1742769200);(-392658810,1742769200);(-343576470,1742769200);
(-294494110,1742769200);(-245411760,1742769200);(-196329400,1742769200);(-147247060,1742769200);(-98164701,1742769200);(-49082351,1742769200);
(0,1742769200);(49082351,1742769200);(98164701,1742769200);(147247060,1742769200);(196329400,1742769200);(245411760,1742769200);
(294494110,1742769200);(343576470,1742769200);(392658810,1742769200);(441741180,1742769200);(490823520,1742769200);(539905850,1742769200);
(588988230,1742769200);(638070560,1742769200);(687152940,1742769200);(736235280,1742769200);(785317610,1742769200);(834399950,1742769200);
(883482360,1742769200);(932564700,1742769200);(981647030,1742769200);(1030729400,1742769200);(1079811700,1742769200);(1128894100,1742769200);
(1177976500,1742769200);(1227058800,1742769200);(1276141100,1742769200);(1325223500,1742769200);(1374305900,1742769200);(1423388200,1742769200);
(1472470600,1742769200);(1521552900,1742769200);(1570635200,1742769200);(1619717600,1742769200);(1668799900,1742769200);(1717882200,1742769200);
(1766964700,1742769200);(1816047100,1742769200);(1865129400,1742769200);(1914211700,1742769200);(1963294100,1742769200);(2012376400,1742769200);
(2061458700,1742769200);(-2012376400,1827782300);(-1963294100,1827782300);(-1914211700,1827782300);(-1865129400,1827782300);(-1816047100,1827782300);
(-1766964700,1827782300);(-1717882200,1827782300);(-1668799900,1827782300);(-1619717600,1827782300);(-1570635200,1827782300);(-1521552900,1827782300);
(-1472470600,1827782300);(-1423388200,1827782300);(-1374305900,1827782300);(-1325223500,1827782300);(-1276141100,1827782300);(-1227058800,1827782300);
(-1177976500,1827782300);(-1128894100,1827782300);(-1079811700,1827782300);(-1030729400,1827782300);(-981647030,1827782300);(-932564700,1827782300);
(-883482360,1827782300);(-834399950,1827782300);(-785317610,1827782300);(-736235280,1827782300);(-687152940,1827782300);(-638070560,1827782300);
(-588988230,1827782300);(-539905850,1827782300);(-490823520,1827782300);(-441741180,1827782300);(-392658810,1827782300);(-343576470,1827782300);
(-294494110,1827782300);(-245411760,1827782300);(-196329400,1827782300);(-147247060,1827782300);(-98164701,1827782300);(-49082351,1827782300);
(0,1827782300);(49082351,1827782300);(98164701,1827782300);(147247060,1827782300);(196329400,1827782300);(245411760,1827782300);
(294494110,1827782300);(343576470,1827782300);(392658810,1827782300);(441741180,1827782300);(490823520,1827782300);(539905850,1827782300);
(588988230,1827782300);(638070560,1827782300);(687152940,1827782300);(736235280,1827782300);(785317610,1827782300);(834399950,1827782300);
(883482360,1827782300);(932564700,1827782300);(981647030,1827782300);(1030729400,1827782300);(1079811700,1827782300);(1128894100,1827782300);
(1177976500,1827782300);(1227058800,1827782300);(1276141100,1827782300);(1325223500,1827782300);(1374305900,1827782300);(1423388200,1827782300);
(1472470600,1827782300);(1521552900,1827782300);(1570635200,1827782300);(1619717600,1827782300);(1668799900,1827782300);(1717882200,1827782300);
(1766964700,1827782300);(1816047100,1827782300);(1865129400,1827782300);(1914211700,1827782300);(1963294100,1827782300);(2012376400,1827782300);
(-1914211700,1912795400);(-1865129400,1912795400);(-1816047100,1912795400);(-1766964700,1912795400);(-1717882200,1912795400);(-1668799900,1912795400);
(-1619717600,1912795400);(-1570635200,1912795400);(-1521552900,1912795400);(-1472470600,1912795400);(-1423388200,1912795400);(-1374305900,1912795400);
(-1325223500,1912795400);(-1276141100,1912795400);(-1227058800,1912795400);(-1177976500,1912795400);(-1128894100,1912795400);(-1079811700,1912795400);
(-1030729400,1912795400);(-981647030,1912795400);(-932564700,1912795400);(-883482360,1912795400);(-834399950,1912795400);(-785317610,1912795400);
(-736235280,1912795400);(-687152940,1912795400);(-638070560,1912795400);(-588988230,1912795400);(-539905850,1912795400);(-490823520,1912795400);
(-441741180,1912795400);(-392658810,1912795400);(-343576470,1912795400);(-294494110,1912795400);(-245411760,1912795400);(-196329400,1912795400);
(-147247060,1912795400);(-98164701,1912795400);(-49082351,1912795400);(0,1912795400);(49082351,1912795400);(98164701,1912795400);
(147247060,1912795400);(196329400,1912795400);(245411760,1912795400);(294494110,1912795400);(343576470,1912795400);(392658810,1912795400);
(441741180,1912795400);(490823520,1912795400);(539905850,1912795400);(588988230,1912795400);(638070560,1912795400);(687152940,1912795400);
(736235280,1912795400);(785317610,1912795400);(834399950,1912795400);(883482360,1912795400);(932564700,1912795400);(981647030,1912795400);
(1030729400,1912795400);(1079811700,1912795400);(1128894100,1912795400);(1177976500,1912795400);(1227058800,1912795400);(1276141100,1912795400);
(1325223500,1912795400);(1374305900,1912795400);(1423388200,1912795400);(1472470600,1912795400);(1521552900,1912795400);(1570635200,1912795400);
(1619717600,1912795400);(1668799900,1912795400);(1717882200,1912795400);(1766964700,1912795400);(1816047100,1912795400);(1865129400,1912795400);
(1914211700,1912795400);(-1865129400,1997808500);(-1816047100,1997808500);(-1766964700,1997808500);(-1717882200,1997808500);(-1668799900,1997808500);
(-1619717600,1997808500);(-1570635200,1997808500);(-1521552900,1997808500);(-1472470600,1997808500);(-1423388200,1997808500);(-1374305900,1997808500);
(-1325223500,1997808500);(-1276141100,1997808500);(-1227058800,1997808500);(-1177976500,1997808500);(-1128894100,1997808500);(-1079811700,1997808500);
(-1030729400,1997808500);(-981647030,1997808500);(-932564700,1997808500);(-883482360,1997808500);(-834399950,1997808500);(-785317610,1997808500);
(-736235280,1997808500);(-687152940,1997808500);(-638070560,1997808500);(-588988230,1997808500);(-539905850,1997808500);(-490823520,1997808500);
(-441741180,1997808500);(-392658810,1997808500);(-343576470,1997808500);(-294494110,1997808500);(-245411760,1997808500);(-196329400,1997808500);
(-147247060,1997808500);(-98164701,1997808500);(-49082351,1997808500);(0,1997808500);(49082351,1997808500);(98164701,1997808500);
(147247060,1997808500);(196329400,1997808500);(245411760,1997808500);(294494110,1997808500);(343576470,1997808500);(392658810,1997808500);
(441741180,1997808500);(490823520,1997808500);(539905850,1997808500);(588988230,1997808500);(638070560,1997808500);(687152940,1997808500);
(736235280,1997808500);(785317610,1997808500);(834399950,1997808500);(883482360,1997808500);(932564700,1997808500);(981647030,1997808500);
(1030729400,1997808500);(1079811700,1997808500);(1128894100,1997808500);(1177976500,1997808500);(1227058800,1997808500);(1276141100,1997808500);
(1325223500,1997808500);(1374305900,1997808500);(1423388200,1997808500);(1472470600,1997808500);(1521552900,1997808500);(1570635200,1997808500);
(1619717600,1997808500);(1668799900,1997808500);(1717882200,1997808500);(1766964700,1997808500);(1816047100,1997808500);(1865129400,1997808500);
(-1766964700,2082821700);(-1717882200,2082821700);(-1668799900,2082821700);(-1619717600,2082821700);(-1570635200,2082821700);(-1521552900,2082821700);
(-1472470600,2082821700);(-1423388200,2082821700);(-1374305900,2082821700);(-1325223500,2082821700);(-1276141100,2082821700);(-1227058800,2082821700);
(-1177976500,2082821700);(-1128894100,2082821700);(-1079811700,2082821700);(-1030729400,2082821700);(-981647030,2082821700);(-932564700,2082821700);
(-883482360,2082821700);(-834399950,2082821700);(-785317610,2082821700);(-736235280,2082821700);(-687152940,2082821700);(-638070560,2082821700);
(-588988230,2082821700);(-539905850,2082821700);(-490823520,2082821700);(-441741180,2082821700);(-392658810,2082821700);(-343576470,2082821700);
(-294494110,2082821700);(-245411760,2082821700);(-196329400,2082821700);(-147247060,2082821700);(-98164701,2082821700);(-49082351,2082821700);
(0,2082821700);(49082351,2082821700);(98164701,2082821700);(147247060,2082821700);(196329400,2082821700);(245411760,2082821700);
(294494110,2082821700);(343576470,2082821700);(392658810,2082821700);(441741180,2082821700);(490823520,2082821700);(539905850,2082821700);
(588988230,2082821700);(638070560,2082821700);(687152940,2082821700);(736235280,2082821700);(785317610,2082821700);(834399950,2082821700);
(883482360,2082821700);(932564700,2082821700);(981647030,2082821700);(1030729400,2082821700);(1079811700,2082821700);(1128894100,2082821700);
(1177976500,2082821700);(1227058800,2082821700);(1276141100,2082821700);(1325223500,2082821700);(1374305900,2082821700);(1423388200,2082821700);
(1472470600,2082821700);(1521552900,2082821700);(1570635200,2082821700);(1619717600,2082821700);(1668799900,2082821700);(1717882200,2082821700);
(1766964700,2082821700);(-1619717600,2167834800);(-1570635200,2167834800);(-1521552900,2167834800);(-1472470600,2167834800);(-1423388200,2167834800);
(-1374305900,2167834800);(-1325223500,2167834800);(-1276141100,2167834800);(-1227058800,2167834800);(-1177976500,2167834800);(-1128894100,2167834800);
(-1079811700,2167834800);(-1030729400,2167834800);(-981647030,2167834800);(-932564700,2167834800);(-883482360,2167834800);(-834399950,2167834800);
(-785317610,2167834800);(-736235280,2167834800);(-687152940,2167834800);(-638070560,2167834800);(-588988230,2167834800);(-539905850,2167834800);
(-490823520,2167834800);(-441741180,2167834800);(-392658810,2167834800);(-343576470,2167834800);(-294494110,2167834800);(-245411760,2167834800);
(-196329400,2167834800);(-147247060,2167834800);(-98164701,2167834800);(-49082351,2167834800);(0,2167834800);(49082351,2167834800);
(98164701,2167834800);(147247060,2167834800);(196329400,2167834800);(245411760,2167834800);(294494110,2167834800);(343576470,2167834800);
(392658810,2167834800);(441741180,2167834800);(490823520,2167834800);(539905850,2167834800);(588988230,2167834800);(638070560,2167834800);
(687152940,2167834800);(736235280,2167834800);(785317610,2167834800);(834399950,2167834800);(883482360,2167834800);(932564700,2167834800);
(981647030,2167834800);(1030729400,2167834800);(1079811700,2167834800);(1128894100,2167834800);(1177976500,2167834800);(1227058800,2167834800);
(1276141100,2167834800);(1325223500,2167834800);(1374305900,2167834800);(1423388200,2167834800);(1472470600,2167834800);(1521552900,2167834800);
(1570635200,2167834800);(1619717600,2167834800);(-1521552900,2252847900);(-1472470600,2252847900);(-1423388200,2252847900);(-1374305900,2252847900);
(-1325223500,2252847900);(-1276141100,2252847900);(-1227058800,2252847900);(-1177976500,2252847900);(-1128894100,2252847900);(-1079811700,2252847900);
(-1030729400,2252847900);(-981647030,2252847900);(-932564700,2252847900);(-883482360,2252847900);(-834399950,2252847900);(-785317610,2252847900);
(-736235280,2252847900);(-687152940,2252847900);(-638070560,2252847900);(-588988230,2252847900);(-539905850,2252847900);(-490823520,2252847900);
(-441741180,2252847900);(-392658810,2252847900);(-343576470,2252847900);(-294494110,2252847900);(-245411760,2252847900);(-196329400,2252847900);
(-147247060,2252847900);(-98164701,2252847900);(-49082351,2252847900);(0,2252847900);(49082351,2252847900);(98164701,2252847900);
(147247060,2252847900);(196329400,2252847900);(245411760,2252847900);(294494110,2252847900);(343576470,2252847900);(392658810,2252847900);
(441741180,2252847900);(490823520,2252847900);(539905850,2252847900);(588988230,2252847900);(638070560,2252847900);(687152940,2252847900);
(736235280,2252847900);(785317610,2252847900);(834399950,2252847900);(883482360,2252847900);(932564700,2252847900);(981647030,2252847900);
(1030729400,2252847900);(1079811700,2252847900);(1128894100,2252847900);(1177976500,2252847900);(1227058800,2252847900);(1276141100,2252847900);
(1325223500,2252847900);(1374305900,2252847900);(1423388200,2252847900);(1472470600,2252847900);(1521552900,2252847900);(-1423388200,2337861000);
(-1374305900,2337861000);(-1325223500,2337861000);(-1276141100,2337861000);(-1227058800,2337861000);(-1177976500,2337861000);(-1128894100,2337861000);
(-1079811700,2337861000);(-1030729400,2337861000);(-981647030,2337861000);(-932564700,2337861000);(-883482360,2337861000);(-834399950,2337861000);
(-785317610,2337861000);(-736235280,2337861000);(-687152940,2337861000);(-638070560,2337861000);(-588988230,2337861000);(-539905850,2337861000);
(-490823520,2337861000);(-441741180,2337861000);(-392658810,2337861000);(-343576470,2337861000);(-294494110,2337861000);(-245411760,2337861000);
(-196329400,2337861000);(-147247060,2337861000);(-98164701,2337861000);(-49082351,2337861000);(0,2337861000);(49082351,2337861000);
(98164701,2337861000);(147247060,2337861000);(196329400,2337861000);(245411760,2337861000);(294494110,2337861000);(343576470,2337861000);
(392658810,2337861000);(441741180,2337861000);(490823520,2337861000);(539905850,2337861000);(588988230,2337861000);(638070560,2337861000);
(687152940,2337861000);(736235280,2337861000);(785317610,2337861000);(834399950,2337861000);(883482360,2337861000);(932564700,2337861000);
(981647030,2337861000);(1030729400,2337861000);(1079811700,2337861000);(1128894100,2337861000);(1177976500,2337861000);(1227058800,2337861000);
(1276141100,2337861000);(1325223500,2337861000);(1374305900,2337861000);(1423388200,2337861000);(-1276141100,2422874100);(-1227058800,2422874100);
(-1177976500,2422874100);(-1128894100,2422874100);(-1079811700,2422874100);(-1030729400,2422874100);(-981647030,2422874100);(-932564700,2422874100);
(-883482360,2422874100);(-834399950,2422874100);(-785317610,2422874100);(-736235280,2422874100);(-687152940,2422874100);(-638070560,2422874100);
(-588988230,2422874100);(-539905850,2422874100);(-490823520,2422874100);(-441741180,2422874100);(-392658810,2422874100);(-343576470,2422874100);
(-294494110,2422874100);(-245411760,2422874100);(-196329400,2422874100);(-147247060,2422874100);(-98164701,2422874100);(-49082351,2422874100);
(0,2422874100);(49082351,2422874100);(98164701,2422874100);(147247060,2422874100);(196329400,2422874100);(245411760,2422874100);
(294494110,2422874100);(343576470,2422874100);(392658810,2422874100);(441741180,2422874100);(490823520,2422874100);(539905850,2422874100);
(588988230,2422874100);(638070560,2422874100);(687152940,2422874100);(736235280,2422874100);(785317610,2422874100);(834399950,2422874100);
(883482360,2422874100);(932564700,2422874100);(981647030,2422874100);(1030729400,2422874100);(1079811700,2422874100);(1128894100,2422874100);
(1177976500,2422874100);(1227058800,2422874100);(1276141100,2422874100);(-1079811700,2507887300);(-1030729400,2507887300);(-981647030,2507887300);
(-932564700,2507887300);(-883482360,2507887300);(-834399950,2507887300);(-785317610,2507887300);(-736235280,2507887300);(-687152940,2507887300);
(-638070560,2507887300);(-588988230,2507887300);(-539905850,2507887300);(-490823520,2507887300);(-441741180,2507887300);(-392658810,2507887300);
(-343576470,2507887300);(-294494110,2507887300);(-245411760,2507887300);(-196329400,2507887300);(-147247060,2507887300);(-98164701,2507887300);
(-49082351,2507887300);(0,2507887300);(49082351,2507887300);(98164701,2507887300);(147247060,2507887300);(196329400,2507887300);
(245411760,2507887300);(294494110,2507887300);(343576470,2507887300);(392658810,2507887300);(441741180,2507887300);(490823520,2507887300);
(539905850,2507887300);(588988230,2507887300);(638070560,2507887300);(687152940,2507887300);(736235280,2507887300);(785317610,2507887300);
(834399950,2507887300);(883482360,2507887300);(932564700,2507887300);(981647030,2507887300);(1030729400,2507887300);(1079811700,2507887300);
(-883482360,2592900400);(-834399950,2592900400);(-785317610,2592900400);(-736235280,2592900400);(-687152940,2592900400);(-638070560,2592900400);
(-588988230,2592900400);(-539905850,2592900400);(-490823520,2592900400);(-441741180,2592900400);(-392658810,2592900400);(-343576470,2592900400);
(-294494110,2592900400);(-245411760,2592900400);(-196329400,2592900400);(-147247060,2592900400);(-98164701,2592900400);(-49082351,2592900400);
(0,2592900400);(49082351,2592900400);(98164701,2592900400);(147247060,2592900400);(196329400,2592900400);(245411760,2592900400);
(294494110,2592900400);(343576470,2592900400);(392658810,2592900400);(441741180,2592900400);(490823520,2592900400);(539905850,2592900400);
(588988230,2592900400);(638070560,2592900400);(687152940,2592900400);(736235280,2592900400);(785317610,2592900400);(834399950,2592900400);
(883482360,2592900400);(-588988230,2677913500);(-539905850,2677913500);(-490823520,2677913500);(-441741180,2677913500);(-392658810,2677913500);
(-343576470,2677913500);(-294494110,2677913500);(-245411760,2677913500);(-196329400,2677913500);(-147247060,2677913500);(-98164701,2677913500);
(-49082351,2677913500);(0,2677913500);(49082351,2677913500);(98164701,2677913500);(147247060,2677913500);(196329400,2677913500);
(245411760,2677913500);(294494110,2677913500);(343576470,2677913500);(392658810,2677913500);(441741180,2677913500);(490823520,2677913500);
(539905850,2677913500);(588988230,2677913500);(-2699529400,-42506561);(-2650447100,-42506561);(-2601364700,-42506561);(-2552282300,-42506561);
(-2503199900,-42506561);(-2454117600,-42506561);(-2405035200,-42506561);(-2355952900,-42506561);(-2306870600,-42506561);(-2257788200,-42506561);
(-2208705700,-42506561);(-2159623400,-42506561);(-2110541100,-42506561);(-2061458700,-42506561);(-2012376400,-42506561);(-1963294100,-42506561);
(-1914211700,-42506561);(-1865129400,-42506561);(-1816047100,-42506561);(-1766964700,-42506561);(-1717882200,-42506561);(-1668799900,-42506561);
(-1619717600,-42506561);(-1570635200,-42506561);(-1546094100,-21253281);(-1521552900,-21253281);(-1521552900,-63759847);(-1497011700,-21253281);
(-1497011700,-63759847);(-1472470600,-63759847);(-1472470600,-21253281);(-1447929400,-63759847);(-1447929400,-21253281);(-1423388200,-21253281);
(-1423388200,-63759847);(-1398847000,-21253281);(-1398847000,-63759847);(-1374305900,-63759847);(-1374305900,-21253281);(-1349764700,-63759847);
(-1349764700,-21253281);(-1325223500,-21253281);(-1325223500,-63759847);(-1300682400,-21253281);(-1300682400,-63759847);(-1276141100,-63759847);
(-1276141100,-21253281);(-1251600000,-63759847);(-1251600000,-21253281);(-1227058800,-21253281);(-1227058800,-63759847);(-1202517600,-21253281);
(-1202517600,-63759847);(-1177976500,-63759847);(-1177976500,-21253281);(-1153435300,-63759847);(-1153435300,-21253281);(-1128894100,-21253281);
(-1128894100,-63759847);(-1104352900,-21253281);(-1104352900,-63759847);(-1079811700,-63759847);(-1079811700,-21253281);(-1055270500,-63759847);
(-1055270500,-21253281);(-1030729400,-21253281);(-1030729400,-63759847);(-1006188200,-21253281);(-1006188200,-63759847);(-981647030,-63759847);
(-981647030,-21253281);(-957105870,-63759847);(-957105870,-21253281);(-932564700,-21253281);(-932564700,-63759847);(-908023530,-21253281);
(-908023530,-63759847);(-883482360,-63759847);(-883482360,-21253281);(-858941120,-63759847);(-858941120,-21253281);(-834399950,-21253281);
(-834399950,-63759847);(-809858780,-21253281);(-809858780,-63759847);(-785317610,-63759847);(-785317610,-21253281);(-760776440,-63759847);
(-760776440,-21253281);(-736235280,-21253281);(-736235280,-63759847);(-711694110,-21253281);(-711694110,-63759847);(-687152940,-63759847);
(-687152940,-21253281);(-662611770,-63759847);(-662611770,-21253281);(-638070560,-21253281);(-638070560,-63759847);(-613529400,-21253281);
(-613529400,-63759847);(-588988230,-63759847);(-588988230,-21253281);(-564447060,-63759847);(-564447060,-21253281);(-539905850,-21253281);
(-539905850,-63759847);(-515364690,-21253281);(-515364690,-63759847);(-490823520,-63759847);(-490823520,-21253281);(-466282350,-63759847);
(-466282350,-21253281);(-441741180,-21253281);(-441741180,-63759847);(-417199970,-21253281);(-417199970,-63759847);(-392658810,-63759847);
(-392658810,-21253281);(-368117640,-63759847);(-368117640,-21253281);(-343576470,-21253281);(-343576470,-63759847);(-319035280,-21253281);
(-319035280,-63759847);(-294494110,-63759847);(-294494110,-21253281);(-269952930,-63759847);(-269952930,-21253281);(-245411760,-21253281);
(-245411760,-63759847);(-220870590,-21253281);(-220870590,-63759847);(-196329400,-63759847);(-196329400,-21253281);(-171788230,-63759847);
(-171788230,-21253281);(-147247060,-21253281);(-147247060,-63759847);(-122705880,-21253281);(-122705880,-63759847);(-98164701,-63759847);
(-98164701,-21253281);(-73623528,-63759847);(-73623528,-21253281);(-49082351,-21253281);(-49082351,-63759847);(-24541175,-21253281);
(-24541175,-63759847);(0,-63759847);(0,-21253281);(24541175,-63759847);(24541175,-21253281);(49082351,-21253281);
(49082351,-63759847);(73623528,-21253281);(73623528,-63759847);(98164701,-63759847);(98164701,-21253281);(122705880,-63759847);
(122705880,-21253281);(147247060,-21253281);(147247060,-63759847);(171788230,-21253281);(171788230,-63759847);(196329400,-63759847);
(196329400,-21253281);(220870590,-63759847);(220870590,-21253281);(245411760,-21253281);(245411760,-63759847);(269952930,-21253281);
(269952930,-63759847);(294494110,-63759847);(294494110,-21253281);(319035280,-63759847);(319035280,-21253281);(343576470,-21253281);
(343576470,-63759847);(368117640,-21253281);(368117640,-63759847);(392658810,-63759847);(392658810,-21253281);(417199970,-63759847);
(417199970,-21253281);(441741180,-21253281);(441741180,-63759847);(466282350,-21253281);(466282350,-63759847);(490823520,-63759847);
(490823520,-21253281);(515364690,-63759847);(515364690,-21253281);(539905850,-21253281);(539905850,-63759847);(564447060,-21253281);
(564447060,-63759847);(588988230,-63759847);(588988230,-21253281);(613529400,-63759847);(613529400,-21253281);(638070560,-21253281);
(638070560,-63759847);(662611770,-21253281);(662611770,-63759847);(687152940,-63759847);(687152940,-21253281);(711694110,-63759847);
(711694110,-21253281);(736235280,-21253281);(736235280,-63759847);(760776440,-21253281);(760776440,-63759847);(785317610,-63759847);
(785317610,-21253281);(809858780,-63759847);(809858780,-21253281);(834399950,-21253281);(834399950,-63759847);(858941120,-21253281);
(858941120,-63759847);(883482360,-63759847);(883482360,-21253281);(908023530,-63759847);(908023530,-21253281);(932564700,-21253281);
(932564700,-63759847);(957105870,-21253281);(957105870,-63759847);(981647030,-63759847);(981647030,-21253281);(1006188200,-63759847);
(1006188200,-21253281);(1030729400,-21253281);(1030729400,-63759847);(1055270500,-21253281);(1055270500,-63759847);(1079811700,-63759847);
(1079811700,-21253281);(1104352900,-63759847);(1104352900,-21253281);(1128894100,-21253281);(1128894100,-63759847);(1153435300,-21253281);
(1153435300,-63759847);(1177976500,-63759847);(1177976500,-21253281);(1202517600,-63759847);(1202517600,-21253281);(1227058800,-21253281);
(1227058800,-63759847);(1251600000,-21253281);(1251600000,-63759847);(1276141100,-63759847);(1276141100,-21253281);(1300682400,-63759847);
(1300682400,-21253281);(1325223500,-21253281);(1325223500,-63759847);(1349764700,-21253281);(1349764700,-63759847);(1374305900,-63759847);
(1374305900,-21253281);(1398847000,-63759847);(1398847000,-21253281);(1423388200,-21253281);(1423388200,-63759847);(1447929400,-21253281);
(1447929400,-63759847);(1472470600,-63759847);(1472470600,-21253281);(1497011700,-63759847);(1497011700,-21253281);(1521552900,-21253281);
(1521552900,-63759847);(1546094100,-21253281);(1570635200,-42506561);(1619717600,-42506561);(1668799900,-42506561);(1717882200,-42506561);
(1766964700,-42506561);(1816047100,-42506561);(1865129400,-42506561);(1914211700,-42506561);(1963294100,-42506561);(2012376400,-42506561);
(2061458700,-42506561);(2110541100,-42506561);(2159623400,-42506561);(2208705700,-42506561);(2257788200,-42506561);(2306870600,-42506561);
(2355952900,-42506561);(2405035200,-42506561);(2454117600,-42506561);(2503199900,-42506561);(2552282300,-42506561);(2601364700,-42506561);
(2650447100,-42506561);(2699529400,-42506561);(-2699529400,-127519690);(-2650447100,-127519690);(-2601364700,-127519690);(-2552282300,-127519690);
(-2503199900,-127519690);(-2454117600,-127519690);(-2405035200,-127519690);(-2355952900,-127519690);(-2306870600,-127519690);(-2257788200,-127519690);
(-2208705700,-127519690);(-2159623400,-127519690);(-2110541100,-127519690);(-2061458700,-127519690);(-2012376400,-127519690);(-1963294100,-127519690);
(-1914211700,-127519690);(-1865129400,-127519690);(-1816047100,-127519690);(-1766964700,-127519690);(-1717882200,-127519690);(-1668799900,-127519690);
(-1619717600,-127519690);(-1570635200,-127519690);(-1521552900,-127519690);(-1497011700,-106266410);(-1472470600,-106266410);(-1472470600,-148772970);
(-1447929400,-106266410);(-1447929400,-148772970);(-1423388200,-148772970);(-1423388200,-106266410);(-1398847000,-148772970);(-1398847000,-106266410);
(-1374305900,-106266410);(-1374305900,-148772970);(-1349764700,-106266410);(-1349764700,-148772970);(-1325223500,-148772970);(-1325223500,-106266410);
(-1300682400,-148772970);(-1300682400,-106266410);(-1276141100,-106266410);(-1276141100,-148772970);(-1251600000,-106266410);(-1251600000,-148772970);
(-1227058800,-148772970);(-1227058800,-106266410);(-1202517600,-148772970);(-1202517600,-106266410);(-1177976500,-106266410);(-1177976500,-148772970);
(-1153435300,-106266410);(-1153435300,-148772970);(-1128894100,-148772970);(-1128894100,-106266410);(-1104352900,-148772970);(-1104352900,-106266410);
(-1079811700,-106266410);(-1079811700,-148772970);(-1055270500,-106266410);(-1055270500,-148772970);(-1030729400,-148772970);(-1030729400,-106266410);
(-1006188200,-148772970);(-1006188200,-106266410);(-981647030,-106266410);(-981647030,-148772970);(-957105870,-106266410);(-957105870,-148772970);
(-932564700,-148772970);(-932564700,-106266410);(-908023530,-148772970);(-908023530,-106266410);(-883482360,-106266410);(-883482360,-148772970);
(-858941120,-106266410);(-858941120,-148772970);(-834399950,-148772970);(-834399950,-106266410);(-809858780,-148772970);(-809858780,-106266410);
(-785317610,-106266410);(-785317610,-148772970);(-760776440,-106266410);(-760776440,-148772970);(-736235280,-148772970);(-736235280,-106266410);
(-711694110,-148772970);(-711694110,-106266410);(-687152940,-106266410);(-687152940,-148772970);(-662611770,-106266410);(-662611770,-148772970);
(-638070560,-148772970);(-638070560,-106266410);(-613529400,-148772970);(-613529400,-106266410);(-588988230,-106266410);(-588988230,-148772970);
(-564447060,-106266410);(-564447060,-148772970);(-539905850,-148772970);(-539905850,-106266410);(-515364690,-148772970);(-515364690,-106266410);
(-490823520,-106266410);(-490823520,-148772970);(-466282350,-106266410);(-466282350,-148772970);(-441741180,-148772970);(-441741180,-106266410);
(-417199970,-148772970);(-417199970,-106266410);(-392658810,-106266410);(-392658810,-148772970);(-368117640,-106266410);(-368117640,-148772970);
(-343576470,-148772970);(-343576470,-106266410);(-319035280,-148772970);(-319035280,-106266410);(-294494110,-106266410);(-294494110,-148772970);
(-269952930,-106266410);(-269952930,-148772970);(-245411760,-148772970);(-245411760,-106266410);(-220870590,-148772970);(-220870590,-106266410);
(-196329400,-106266410);(-196329400,-148772970);(-171788230,-106266410);(-171788230,-148772970);(-147247060,-148772970);(-147247060,-106266410);
(-122705880,-148772970);(-122705880,-106266410);(-98164701,-106266410);(-98164701,-148772970);(-73623528,-106266410);(-73623528,-148772970);
(-49082351,-148772970);(-49082351,-106266410);(-24541175,-148772970);(-24541175,-106266410);(0,-106266410);(0,-148772970);
(24541175,-106266410);(24541175,-148772970);(49082351,-148772970);(49082351,-106266410);(73623528,-148772970);(73623528,-106266410);
(98164701,-106266410);(98164701,-148772970);(122705880,-106266410);(122705880,-148772970);(147247060,-148772970);(147247060,-106266410);
(171788230,-148772970);(171788230,-106266410);(196329400,-106266410);(196329400,-148772970);(220870590,-106266410);(220870590,-148772970);
(245411760,-148772970);(245411760,-106266410);(269952930,-148772970);(269952930,-106266410);(294494110,-106266410);(294494110,-148772970);
(319035280,-106266410);(319035280,-148772970);(343576470,-148772970);(343576470,-106266410);(368117640,-148772970);(368117640,-106266410);
(392658810,-106266410);(392658810,-148772970);(417199970,-106266410);(417199970,-148772970);(441741180,-148772970);(441741180,-106266410);
(466282350,-148772970);(466282350,-106266410);(490823520,-106266410);(490823520,-148772970);(515364690,-106266410);(515364690,-148772970);
(539905850,-148772970);(539905850,-106266410);(564447060,-148772970);(564447060,-106266410);(588988230,-106266410);(588988230,-148772970);
(613529400,-106266410);(613529400,-148772970);(638070560,-148772970);(638070560,-106266410);(662611770,-148772970);(662611770,-106266410);
(687152940,-106266410);(687152940,-148772970);(711694110,-106266410);(711694110,-148772970);(736235280,-148772970);(736235280,-106266410);
(760776440,-148772970);(760776440,-106266410);(785317610,-106266410);(785317610,-148772970);(809858780,-106266410);(809858780,-148772970);
(834399950,-148772970);(834399950,-106266410);(858941120,-148772970);(858941120,-106266410);(883482360,-106266410);(883482360,-148772970);
(908023530,-106266410);(908023530,-148772970);(932564700,-148772970);(932564700,-106266410);(957105870,-148772970);(957105870,-106266410);
(981647030,-106266410);(981647030,-148772970);(1006188200,-106266410);(1006188200,-148772970);(1030729400,-148772970);(1030729400,-106266410);
(1055270500,-148772970);(1055270500,-106266410);(1079811700,-106266410);(1079811700,-148772970);(1104352900,-106266410);(1104352900,-148772970);
(1128894100,-148772970);(1128894100,-106266410);(1153435300,-148772970);(1153435300,-106266410);(1177976500,-106266410);(1177976500,-148772970);
(1202517600,-106266410);(1202517600,-148772970);(1227058800,-148772970);(1227058800,-106266410);(1251600000,-148772970);(1251600000,-106266410);
(1276141100,-106266410);(1276141100,-148772970);(1300682400,-106266410);(1300682400,-148772970);(1325223500,-148772970);(1325223500,-106266410);
(1349764700,-148772970);(1349764700,-106266410);(1374305900,-106266410);(1374305900,-148772970);(1398847000,-106266410);(1398847000,-148772970);
(1423388200,-148772970);(1423388200,-106266410);(1447929400,-148772970);(1447929400,-106266410);(1472470600,-106266410);(1472470600,-148772970);
(1497011700,-106266410);(1521552900,-127519690);(1570635200,-127519690);(1619717600,-127519690);(1668799900,-127519690);(1717882200,-127519690);
(1766964700,-127519690);(1816047100,-127519690);(1865129400,-127519690);(1914211700,-127519690);(1963294100,-127519690);(2012376400,-127519690);
(2061458700,-127519690);(2110541100,-127519690);(2159623400,-127519690);(2208705700,-127519690);(2257788200,-127519690);(2306870600,-127519690);
(2355952900,-127519690);(2405035200,-127519690);(2454117600,-127519690);(2503199900,-127519690);(2552282300,-127519690);(2601364700,-127519690);
(2650447100,-127519690);(2699529400,-127519690);(-2699529400,-212532830);(-2650447100,-212532830);(-2601364700,-212532830);(-2552282300,-212532830);
(-2503199900,-212532830);(-2454117600,-212532830);(-2405035200,-212532830);(-2355952900,-212532830);(-2306870600,-212532830);(-2257788200,-212532830);
(-2208705700,-212532830);(-2159623400,-212532830);(-2110541100,-212532830);(-2061458700,-212532830);(-2012376400,-212532830);(-1963294100,-212532830);
(-1914211700,-212532830);(-1865129400,-212532830);(-1816047100,-212532830);(-1766964700,-212532830);(-1717882200,-212532830);(-1668799900,-212532830);
(-1619717600,-212532830);(-1570635200,-212532830);(-1521552900,-212532830);(-1472470600,-212532830);(-1447929400,-191279530);(-1423388200,-191279530);
(-1423388200,-233786110);(-1398847000,-191279530);(-1398847000,-233786110);(-1374305900,-233786110);(-1374305900,-191279530);(-1349764700,-233786110);
(-1349764700,-191279530);(-1325223500,-191279530);(-1325223500,-233786110);(-1300682400,-191279530);(-1300682400,-233786110);(-1276141100,-233786110);
(-1276141100,-191279530);(-1251600000,-233786110);(-1251600000,-191279530);(-1227058800,-191279530);(-1227058800,-233786110);(-1202517600,-191279530);
(-1202517600,-233786110);(-1177976500,-233786110);(-1177976500,-191279530);(-1153435300,-233786110);(-1153435300,-191279530);(-1128894100,-191279530);
(-1128894100,-233786110);(-1104352900,-191279530);(-1104352900,-233786110);(-1079811700,-233786110);(-1079811700,-191279530);(-1055270500,-233786110);
(-1055270500,-191279530);(-1030729400,-191279530);(-1030729400,-233786110);(-1006188200,-191279530);(-1006188200,-233786110);(-981647030,-233786110);
(-981647030,-191279530);(-957105870,-233786110);(-957105870,-191279530);(-932564700,-191279530);(-932564700,-233786110);(-908023530,-191279530);
(-908023530,-233786110);(-883482360,-233786110);(-883482360,-191279530);(-858941120,-233786110);(-858941120,-191279530);(-834399950,-191279530);
(-834399950,-233786110);(-809858780,-191279530);(-809858780,-233786110);(-785317610,-233786110);(-785317610,-191279530);(-760776440,-233786110);
(-760776440,-191279530);(-736235280,-191279530);(-736235280,-233786110);(-711694110,-191279530);(-711694110,-233786110);(-687152940,-233786110);
(-687152940,-191279530);(-662611770,-233786110);(-662611770,-191279530);(-638070560,-191279530);(-638070560,-233786110);(-613529400,-191279530);
(-613529400,-233786110);(-588988230,-233786110);(-588988230,-191279530);(-564447060,-233786110);(-564447060,-191279530);(-539905850,-191279530);
(-539905850,-233786110);(-515364690,-191279530);(-515364690,-233786110);(-490823520,-233786110);(-490823520,-191279530);(-466282350,-233786110);
(-466282350,-191279530);(-441741180,-191279530);(-441741180,-233786110);(-417199970,-191279530);(-417199970,-233786110);(-392658810,-233786110);
(-392658810,-191279530);(-368117640,-233786110);(-368117640,-191279530);(-343576470,-191279530);(-343576470,-233786110);(-319035280,-191279530);
(-319035280,-233786110);(-294494110,-233786110);(-294494110,-191279530);(-269952930,-233786110);(-269952930,-191279530);(-245411760,-191279530);
(-245411760,-233786110);(-220870590,-191279530);(-220870590,-233786110);(-196329400,-233786110);(-196329400,-191279530);(-171788230,-233786110);
(-171788230,-191279530);(-147247060,-191279530);(-147247060,-233786110);(-122705880,-191279530);(-122705880,-233786110);(-98164701,-233786110);
(-98164701,-191279530);(-73623528,-233786110);(-73623528,-191279530);(-49082351,-191279530);(-49082351,-233786110);(-24541175,-191279530);
(-24541175,-233786110);(0,-233786110);(0,-191279530);(24541175,-233786110);(24541175,-191279530);(49082351,-191279530);
(49082351,-233786110);(73623528,-191279530);(73623528,-233786110);(98164701,-233786110);(98164701,-191279530);(122705880,-233786110);
(122705880,-191279530);(147247060,-191279530);(147247060,-233786110);(171788230,-191279530);(171788230,-233786110);(196329400,-233786110);
(196329400,-191279530);(220870590,-233786110);(220870590,-191279530);(245411760,-191279530);(245411760,-233786110);(269952930,-191279530);
(269952930,-233786110);(294494110,-233786110);(294494110,-191279530);(319035280,-233786110);(319035280,-191279530);(343576470,-191279530);
(343576470,-233786110);(368117640,-191279530);(368117640,-233786110);(392658810,-233786110);(392658810,-191279530);(417199970,-233786110);
(417199970,-191279530);(441741180,-191279530);(441741180,-233786110);(466282350,-191279530);(466282350,-233786110);(490823520,-233786110);
(490823520,-191279530);(515364690,-233786110);(515364690,-191279530);(539905850,-191279530);(539905850,-233786110);(564447060,-191279530);
(564447060,-233786110);(588988230,-233786110);(588988230,-191279530);(613529400,-233786110);(613529400,-191279530);(638070560,-191279530);
(638070560,-233786110);(662611770,-191279530);(662611770,-233786110);(687152940,-233786110);(687152940,-191279530);(711694110,-233786110);
(711694110,-191279530);(736235280,-191279530);(736235280,-233786110);(760776440,-191279530);(760776440,-233786110);(785317610,-233786110);
(785317610,-191279530);(809858780,-233786110);(809858780,-191279530);(834399950,-191279530);(834399950,-233786110);(858941120,-191279530);
(858941120,-233786110);(883482360,-233786110);(883482360,-191279530);(908023530,-233786110);(908023530,-191279530);(932564700,-191279530);
(932564700,-233786110);(957105870,-191279530);(957105870,-233786110);(981647030,-233786110);(981647030,-191279530);(1006188200,-233786110);
(1006188200,-191279530);(1030729400,-191279530);(1030729400,-233786110);(1055270500,-191279530);(1055270500,-233786110);(1079811700,-233786110);
(1079811700,-191279530);(1104352900,-233786110);(1104352900,-191279530);(1128894100,-191279530);(1128894100,-233786110);(1153435300,-191279530);
(1153435300,-233786110);(1177976500,-233786110);(1177976500,-191279530);(1202517600,-233786110);(1202517600,-191279530);(1227058800,-191279530);
(1227058800,-233786110);(1251600000,-191279530);(1251600000,-233786110);(1276141100,-233786110);(1276141100,-191279530);(1300682400,-233786110);
(1300682400,-191279530);(1325223500,-191279530);(1325223500,-233786110);(1349764700,-191279530);(1349764700,-233786110);(1374305900,-233786110);
(1374305900,-191279530);(1398847000,-233786110);(1398847000,-191279530);(1423388200,-191279530);(1423388200,-233786110);(1447929400,-191279530);
(1472470600,-212532830);(1521552900,-212532830);(1570635200,-212532830);(1619717600,-212532830);(1668799900,-212532830);(1717882200,-212532830);
(1766964700,-212532830);(1816047100,-212532830);(1865129400,-212532830);(1914211700,-212532830);(1963294100,-212532830);(2012376400,-212532830);
(2061458700,-212532830);(2110541100,-212532830);(2159623400,-212532830);(2208705700,-212532830);(2257788200,-212532830);(2306870600,-212532830);
(2355952900,-212532830);(2405035200,-212532830);(2454117600,-212532830);(2503199900,-212532830);(2552282300,-212532830);(2601364700,-212532830);
(2650447100,-212532830);(2699529400,-212532830);(-2699529400,-297545950);(-2650447100,-297545950);(-2601364700,-297545950);(-2552282300,-297545950);
(-2503199900,-297545950);(-2454117600,-297545950);(-2405035200,-297545950);(-2355952900,-297545950);(-2306870600,-297545950);(-2257788200,-297545950);
(-2208705700,-297545950);(-2159623400,-297545950);(-2110541100,-297545950);(-2061458700,-297545950);(-2012376400,-297545950);(-1963294100,-297545950);
(-1914211700,-297545950);(-1865129400,-297545950);(-1816047100,-297545950);(-1766964700,-297545950);(-1717882200,-297545950);(-1668799900,-297545950);
(-1619717600,-297545950);(-1570635200,-297545950);(-1521552900,-297545950);(-1472470600,-297545950);(-1423388200,-297545950);(-1398847000,-276292670);
(-1374305900,-276292670);(-1374305900,-318799230);(-1349764700,-276292670);(-1349764700,-318799230);(-1325223500,-318799230);(-1325223500,-276292670);
(-1300682400,-318799230);(-1300682400,-276292670);(-1276141100,-276292670);(-1276141100,-318799230);(-1251600000,-276292670);(-1251600000,-318799230);
(-1227058800,-318799230);(-1227058800,-276292670);(-1202517600,-318799230);(-1202517600,-276292670);(-1177976500,-276292670);(-1177976500,-318799230);
(-1153435300,-276292670);(-1153435300,-318799230);(-1128894100,-318799230);(-1128894100,-276292670);(-1104352900,-318799230);(-1104352900,-276292670);
(-1079811700,-276292670);(-1079811700,-318799230);(-1055270500,-276292670);(-1055270500,-318799230);(-1030729400,-318799230);(-1030729400,-276292670);
(-1006188200,-318799230);(-1006188200,-276292670);(-981647030,-276292670);(-981647030,-318799230);(-957105870,-276292670);(-957105870,-318799230);
(-932564700,-318799230);(-932564700,-276292670);(-908023530,-318799230);(-908023530,-276292670);(-883482360,-276292670);(-883482360,-318799230);
(-858941120,-276292670);(-858941120,-318799230);(-834399950,-318799230);(-834399950,-276292670);(-809858780,-318799230);(-809858780,-276292670);
(-785317610,-276292670);(-785317610,-318799230);(-760776440,-276292670);(-760776440,-318799230);(-736235280,-318799230);(-736235280,-276292670);
(-711694110,-318799230);(-711694110,-276292670);(-687152940,-276292670);(-687152940,-318799230);(-662611770,-276292670);(-662611770,-318799230);
(-638070560,-318799230);(-638070560,-276292670);(-613529400,-318799230);(-613529400,-276292670);(-588988230,-276292670);(-588988230,-318799230);
(-564447060,-276292670);(-564447060,-318799230);(-539905850,-318799230);(-539905850,-276292670);(-515364690,-318799230);(-515364690,-276292670);
(-490823520,-276292670);(-490823520,-318799230);(-466282350,-276292670);(-466282350,-318799230);(-441741180,-318799230);(-441741180,-276292670);
(-417199970,-318799230);(-417199970,-276292670);(-392658810,-276292670);(-392658810,-318799230);(-368117640,-276292670);(-368117640,-318799230);
(-343576470,-318799230);(-343576470,-276292670);(-319035280,-318799230);(-319035280,-276292670);(-294494110,-276292670);(-294494110,-318799230);
(-269952930,-276292670);(-269952930,-318799230);(-245411760,-318799230);(-245411760,-276292670);(-220870590,-318799230);(-220870590,-276292670);
(-196329400,-276292670);(-196329400,-318799230);(-171788230,-276292670);(-171788230,-318799230);(-147247060,-318799230);(-147247060,-276292670);
(-122705880,-318799230);(-122705880,-276292670);(-98164701,-276292670);(-98164701,-318799230);(-73623528,-276292670);(-73623528,-318799230);
(-49082351,-318799230);(-49082351,-276292670);(-24541175,-318799230);(-24541175,-276292670);(0,-276292670);(0,-318799230);
(24541175,-276292670);(24541175,-318799230);(49082351,-318799230);(49082351,-276292670);(73623528,-318799230);(73623528,-276292670);
(98164701,-276292670);(98164701,-318799230);(122705880,-276292670);(122705880,-318799230);(147247060,-318799230);(147247060,-276292670);
(171788230,-318799230);(171788230,-276292670);(196329400,-276292670);(196329400,-318799230);(220870590,-276292670);(220870590,-318799230);
(245411760,-318799230);(245411760,-276292670);(269952930,-318799230);(269952930,-276292670);(294494110,-276292670);(294494110,-318799230);
(319035280,-276292670);(319035280,-318799230);(343576470,-318799230);(343576470,-276292670);(368117640,-318799230);(368117640,-276292670);
(392658810,-276292670);(392658810,-318799230);(417199970,-276292670);(417199970,-318799230);(441741180,-318799230);(441741180,-276292670);
(466282350,-318799230);(466282350,-276292670);(490823520,-276292670);(490823520,-318799230);(515364690,-276292670);(515364690,-318799230);
(539905850,-318799230);(539905850,-276292670);(564447060,-318799230);(564447060,-276292670);(588988230,-276292670);(588988230,-318799230);
(613529400,-276292670);(613529400,-318799230);(638070560,-318799230);(638070560,-276292670);(662611770,-318799230);(662611770,-276292670);
(687152940,-276292670);(687152940,-318799230);(711694110,-276292670);(711694110,-318799230);(736235280,-318799230);(736235280,-276292670);
(760776440,-318799230);(760776440,-276292670);(785317610,-276292670);(785317610,-318799230);(809858780,-276292670);(809858780,-318799230);
(834399950,-318799230);(834399950,-276292670);(858941120,-318799230);(858941120,-276292670);(883482360,-276292670);(883482360,-318799230);
(908023530,-276292670);(908023530,-318799230);(932564700,-318799230);(932564700,-276292670);(957105870,-318799230);(957105870,-276292670);
(981647030,-276292670);(981647030,-318799230);(1006188200,-276292670);(1006188200,-318799230);(1030729400,-318799230);(1030729400,-276292670);
(1055270500,-318799230);(1055270500,-276292670);(1079811700,-276292670);(1079811700,-318799230);(1104352900,-276292670);(1104352900,-318799230);
(1128894100,-318799230);(1128894100,-276292670);(1153435300,-318799230);(1153435300,-276292670);(1177976500,-276292670);(1177976500,-318799230);
(1202517600,-276292670);(1202517600,-318799230);(1227058800,-318799230);(1227058800,-276292670);(1251600000,-318799230);(1251600000,-276292670);
(1276141100,-276292670);(1276141100,-318799230);(1300682400,-276292670);(1300682400,-318799230);(1325223500,-318799230);(1325223500,-276292670);
(1349764700,-318799230);(1349764700,-276292670);(1374305900,-276292670);(1374305900,-318799230);(1398847000,-276292670);(1423388200,-297545950);
(1472470600,-297545950);(1521552900,-297545950);(1570635200,-297545950);(1619717600,-297545950);(1668799900,-297545950);(1717882200,-297545950);
(1766964700,-297545950);(1816047100,-297545950);(1865129400,-297545950);(1914211700,-297545950);(1963294100,-297545950);(2012376400,-297545950);
(2061458700,-297545950);(2110541100,-297545950);(2159623400,-297545950);(2208705700,-297545950);(2257788200,-297545950);(2306870600,-297545950);
(2355952900,-297545950);(2405035200,-297545950);(2454117600,-297545950);(2503199900,-297545950);(2552282300,-297545950);(2601364700,-297545950);
(2650447100,-297545950);(2699529400,-297545950);(-2650447100,-382559050);(-2601364700,-382559050);(-2552282300,-382559050);(-2503199900,-382559050);
(-2454117600,-382559050);(-2405035200,-382559050);(-2355952900,-382559050);(-2306870600,-382559050);(-2257788200,-382559050);(-2208705700,-382559050);
(-2159623400,-382559050);(-2110541100,-382559050);(-2061458700,-382559050);(-2012376400,-382559050);(-1963294100,-382559050);(-1914211700,-382559050);
(-1865129400,-382559050);(-1816047100,-382559050);(-1766964700,-382559050);(-1717882200,-382559050);(-1668799900,-382559050);(-1619717600,-382559050);
(-1570635200,-382559050);(-1521552900,-382559050);(-1472470600,-382559050);(-1423388200,-382559050);(-1374305900,-382559050);(-1349764700,-361305770);
(-1325223500,-361305770);(-1325223500,-403812330);(-1300682400,-361305770);(-1300682400,-403812330);(-1276141100,-403812330);(-1276141100,-361305770);
(-1251600000,-403812330);(-1251600000,-361305770);(-1227058800,-361305770);(-1227058800,-403812330);(-1202517600,-361305770);(-1202517600,-403812330);
(-1177976500,-403812330);(-1177976500,-361305770);(-1153435300,-403812330);(-1153435300,-361305770);(-1128894100,-361305770);(-1128894100,-403812330);
(-1104352900,-361305770);(-1104352900,-403812330);(-1079811700,-403812330);(-1079811700,-361305770);(-1055270500,-403812330);(-1055270500,-361305770);
(-1030729400,-361305770);(-1030729400,-403812330);(-1006188200,-361305770);(-1006188200,-403812330);(-981647030,-403812330);(-981647030,-361305770);
(-957105870,-403812330);(-957105870,-361305770);(-932564700,-361305770);(-932564700,-403812330);(-908023530,-361305770);(-908023530,-403812330);
(-883482360,-403812330);(-883482360,-361305770);(-858941120,-403812330);(-858941120,-361305770);(-834399950,-361305770);(-834399950,-403812330);
(-809858780,-361305770);(-809858780,-403812330);(-785317610,-403812330);(-785317610,-361305770);(-760776440,-403812330);(-760776440,-361305770);
(-736235280,-361305770);(-736235280,-403812330);(-711694110,-361305770);(-711694110,-403812330);(-687152940,-403812330);(-687152940,-361305770);
(-662611770,-403812330);(-662611770,-361305770);(-638070560,-361305770);(-638070560,-403812330);(-613529400,-361305770);(-613529400,-403812330);
(-588988230,-403812330);(-588988230,-361305770);(-564447060,-403812330);(-564447060,-361305770);(-539905850,-361305770);(-539905850,-403812330);
(-515364690,-361305770);(-515364690,-403812330);(-490823520,-403812330);(-490823520,-361305770);(-466282350,-403812330);(-466282350,-361305770);
(-441741180,-361305770);(-441741180,-403812330);(-417199970,-361305770);(-417199970,-403812330);(-392658810,-403812330);(-392658810,-361305770);
(-368117640,-403812330);(-368117640,-361305770);(-343576470,-361305770);(-343576470,-403812330);(-319035280,-361305770);(-319035280,-403812330);
(-294494110,-403812330);(-294494110,-361305770);(-269952930,-403812330);(-269952930,-361305770);(-245411760,-361305770);(-245411760,-403812330);
(-220870590,-361305770);(-220870590,-403812330);(-196329400,-403812330);(-196329400,-361305770);(-171788230,-403812330);(-171788230,-361305770);
(-147247060,-361305770);(-147247060,-403812330);(-122705880,-361305770);(-122705880,-403812330);(-98164701,-403812330);(-98164701,-361305770);
(-73623528,-403812330);(-73623528,-361305770);(-49082351,-361305770);(-49082351,-403812330);(-24541175,-361305770);(-24541175,-403812330);
(0,-403812330);(0,-361305770);(24541175,-403812330);(24541175,-361305770);(49082351,-361305770);(49082351,-403812330);
(73623528,-361305770);(73623528,-403812330);(98164701,-403812330);(98164701,-361305770);(122705880,-403812330);(122705880,-361305770);
(147247060,-361305770);(147247060,-403812330);(171788230,-361305770);(171788230,-403812330);(196329400,-403812330);(196329400,-361305770);
(220870590,-403812330);(220870590,-361305770);(245411760,-361305770);(245411760,-403812330);(269952930,-361305770);(269952930,-403812330);
(294494110,-403812330);(294494110,-361305770);(319035280,-403812330);(319035280,-361305770);(343576470,-361305770);(343576470,-403812330);
(368117640,-361305770);(368117640,-403812330);(392658810,-403812330);(392658810,-361305770);(417199970,-403812330);(417199970,-361305770);
(441741180,-361305770);(441741180,-403812330);(466282350,-361305770);(466282350,-403812330);(490823520,-403812330);(490823520,-361305770);
(515364690,-403812330);(515364690,-361305770);(539905850,-361305770);(539905850,-403812330);(564447060,-361305770);(564447060,-403812330);
(588988230,-403812330);(588988230,-361305770);(613529400,-403812330);(613529400,-361305770);(638070560,-361305770);(638070560,-403812330);
(662611770,-361305770);(662611770,-403812330);(687152940,-403812330);(687152940,-361305770);(711694110,-403812330);(711694110,-361305770);
(736235280,-361305770);(736235280,-403812330);(760776440,-361305770);(760776440,-403812330);(785317610,-403812330);(785317610,-361305770);
(809858780,-403812330);(809858780,-361305770);(834399950,-361305770);(834399950,-403812330);(858941120,-361305770);(858941120,-403812330);
(883482360,-403812330);(883482360,-361305770);(908023530,-403812330);(908023530,-361305770);(932564700,-361305770);(932564700,-403812330);
(957105870,-361305770);(957105870,-403812330);(981647030,-403812330);(981647030,-361305770);(1006188200,-403812330);(1006188200,-361305770);
(1030729400,-361305770);(1030729400,-403812330);(1055270500,-361305770);(1055270500,-403812330);(1079811700,-403812330);(1079811700,-361305770);
(1104352900,-403812330);(1104352900,-361305770);(1128894100,-361305770);(1128894100,-403812330);(1153435300,-361305770);(1153435300,-403812330);
(1177976500,-403812330);(1177976500,-361305770);(1202517600,-403812330);(1202517600,-361305770);(1227058800,-361305770);(1227058800,-403812330);
(1251600000,-361305770);(1251600000,-403812330);(1276141100,-403812330);(1276141100,-361305770);(1300682400,-403812330);(1300682400,-361305770);
(1325223500,-361305770);(1325223500,-403812330);(1349764700,-361305770);(1374305900,-382559050);(1423388200,-382559050);(1472470600,-382559050);
(1521552900,-382559050);(1570635200,-382559050);(1619717600,-382559050);(1668799900,-382559050);(1717882200,-382559050);(1766964700,-382559050);
(1816047100,-382559050);(1865129400,-382559050);(1914211700,-382559050);(1963294100,-382559050);(2012376400,-382559050);(2061458700,-382559050);
(2110541100,-382559050);(2159623400,-382559050);(2208705700,-382559050);(2257788200,-382559050);(2306870600,-382559050);(2355952900,-382559050);
(2405035200,-382559050);(2454117600,-382559050);(2503199900,-382559050);(2552282300,-382559050);(2601364700,-382559050);(2650447100,-382559050);
(-2650447100,-467572210);(-2601364700,-467572210);(-2552282300,-467572210);(-2503199900,-467572210);(-2454117600,-467572210);(-2405035200,-467572210);
(-2355952900,-467572210);(-2306870600,-467572210);(-2257788200,-467572210);(-2208705700,-467572210);(-2159623400,-467572210);(-2110541100,-467572210);
(-2061458700,-467572210);(-2012376400,-467572210);(-1963294100,-467572210);(-1914211700,-467572210);(-1865129400,-467572210);(-1816047100,-467572210);
(-1766964700,-467572210);(-1717882200,-467572210);(-1668799900,-467572210);(-1619717600,-467572210);(-1570635200,-467572210);(-1521552900,-467572210);
(-1472470600,-467572210);(-1423388200,-467572210);(-1374305900,-467572210);(-1325223500,-467572210);(-1300682400,-446318930);(-1276141100,-446318930);
(-1276141100,-488825490);(-1251600000,-446318930);(-1251600000,-488825490);(-1227058800,-488825490);(-1227058800,-446318930);(-1202517600,-488825490);
(-1202517600,-446318930);(-1177976500,-446318930);(-1177976500,-488825490);(-1153435300,-446318930);(-1153435300,-488825490);(-1128894100,-488825490);
(-1128894100,-446318930);(-1104352900,-488825490);(-1104352900,-446318930);(-1079811700,-446318930);(-1079811700,-488825490);(-1055270500,-446318930);
(-1055270500,-488825490);(-1030729400,-488825490);(-1030729400,-446318930);(-1006188200,-488825490);(-1006188200,-446318930);(-981647030,-446318930);
(-981647030,-488825490);(-957105870,-446318930);(-957105870,-488825490);(-932564700,-488825490);(-932564700,-446318930);(-908023530,-488825490);
(-908023530,-446318930);(-883482360,-446318930);(-883482360,-488825490);(-858941120,-446318930);(-858941120,-488825490);(-834399950,-488825490);
(-834399950,-446318930);(-809858780,-488825490);(-809858780,-446318930);(-785317610,-446318930);(-785317610,-488825490);(-760776440,-446318930);
(-760776440,-488825490);(-736235280,-488825490);(-736235280,-446318930);(-711694110,-488825490);(-711694110,-446318930);(-687152940,-446318930);
(-687152940,-488825490);(-662611770,-446318930);(-662611770,-488825490);(-638070560,-488825490);(-638070560,-446318930);(-613529400,-488825490);
(-613529400,-446318930);(-588988230,-446318930);(-588988230,-488825490);(-564447060,-446318930);(-564447060,-488825490);(-539905850,-488825490);
(-539905850,-446318930);(-515364690,-488825490);(-515364690,-446318930);(-490823520,-446318930);(-490823520,-488825490);(-466282350,-446318930);
(-466282350,-488825490);(-441741180,-488825490);(-441741180,-446318930);(-417199970,-488825490);(-417199970,-446318930);(-392658810,-446318930);
(-392658810,-488825490);(-368117640,-446318930);(-368117640,-488825490);(-343576470,-488825490);(-343576470,-446318930);(-319035280,-488825490);
(-319035280,-446318930);(-294494110,-446318930);(-294494110,-488825490);(-269952930,-446318930);(-269952930,-488825490);(-245411760,-488825490);
(-245411760,-446318930);(-220870590,-488825490);(-220870590,-446318930);(-196329400,-446318930);(-196329400,-488825490);(-171788230,-446318930);
(-171788230,-488825490);(-147247060,-488825490);(-147247060,-446318930);(-122705880,-488825490);(-122705880,-446318930);(-98164701,-446318930);
(-98164701,-488825490);(-73623528,-446318930);(-73623528,-488825490);(-49082351,-488825490);(-49082351,-446318930);(-24541175,-488825490);
(-24541175,-446318930);(0,-446318930);(0,-488825490);(24541175,-446318930);(24541175,-488825490);(49082351,-488825490);
(49082351,-446318930);(73623528,-488825490);(73623528,-446318930);(98164701,-446318930);(98164701,-488825490);(122705880,-446318930);
(122705880,-488825490);(147247060,-488825490);(147247060,-446318930);(171788230,-488825490);(171788230,-446318930);(196329400,-446318930);
(196329400,-488825490);(220870590,-446318930);(220870590,-488825490);(245411760,-488825490);(245411760,-446318930);(269952930,-488825490);
(269952930,-446318930);(294494110,-446318930);(294494110,-488825490);(319035280,-446318930);(319035280,-488825490);(343576470,-488825490);
(343576470,-446318930);(368117640,-488825490);(368117640,-446318930);(392658810,-446318930);(392658810,-488825490);(417199970,-446318930);
(417199970,-488825490);(441741180,-488825490);(441741180,-446318930);(466282350,-488825490);(466282350,-446318930);(490823520,-446318930);
(490823520,-488825490);(515364690,-446318930);(515364690,-488825490);(539905850,-488825490);(539905850,-446318930);(564447060,-488825490);
(564447060,-446318930);(588988230,-446318930);(588988230,-488825490);(613529400,-446318930);(613529400,-488825490);(638070560,-488825490);
(638070560,-446318930);(662611770,-488825490);(662611770,-446318930);(687152940,-446318930);(687152940,-488825490);(711694110,-446318930);
(711694110,-488825490);(736235280,-488825490);(736235280,-446318930);(760776440,-488825490);(760776440,-446318930);(785317610,-446318930);
(785317610,-488825490);(809858780,-446318930);(809858780,-488825490);(834399950,-488825490);(834399950,-446318930);(858941120,-488825490);
(858941120,-446318930);(883482360,-446318930);(883482360,-488825490);(908023530,-446318930);(908023530,-488825490);(932564700,-488825490);
(932564700,-446318930);(957105870,-488825490);(957105870,-446318930);(981647030,-446318930);(981647030,-488825490);(1006188200,-446318930);
(1006188200,-488825490);(1030729400,-488825490);(1030729400,-446318930);(1055270500,-488825490);(1055270500,-446318930);(1079811700,-446318930);
(1079811700,-488825490);(1104352900,-446318930);(1104352900,-488825490);(1128894100,-488825490);(1128894100,-446318930);(1153435300,-488825490);
(1153435300,-446318930);(1177976500,-446318930);(1177976500,-488825490);(1202517600,-446318930);(1202517600,-488825490);(1227058800,-488825490);
(1227058800,-446318930);(1251600000,-488825490);(1251600000,-446318930);(1276141100,-446318930);(1276141100,-488825490);(1300682400,-446318930);
(1325223500,-467572210);(1374305900,-467572210);(1423388200,-467572210);(1472470600,-467572210);(1521552900,-467572210);(1570635200,-467572210);
(1619717600,-467572210);(1668799900,-467572210);(1717882200,-467572210);(1766964700,-467572210);(1816047100,-467572210);(1865129400,-467572210);
(1914211700,-467572210);(1963294100,-467572210);(2012376400,-467572210);(2061458700,-467572210);(2110541100,-467572210);(2159623400,-467572210);
(2208705700,-467572210);(2257788200,-467572210);(2306870600,-467572210);(2355952900,-467572210);(2405035200,-467572210);(2454117600,-467572210);
(2503199900,-467572210);(2552282300,-467572210);(2601364700,-467572210);(2650447100,-467572210);(-2650447100,-552585330);(-2601364700,-552585330);
(-2552282300,-552585330);(-2503199900,-552585330);(-2454117600,-552585330);(-2405035200,-552585330);(-2355952900,-552585330);(-2306870600,-552585330);
(-2257788200,-552585330);(-2208705700,-552585330);(-2159623400,-552585330);(-2110541100,-552585330);(-2061458700,-552585330);(-2012376400,-552585330);
(-1963294100,-552585330);(-1914211700,-552585330);(-1865129400,-552585330);(-1816047100,-552585330);(-1766964700,-552585330);(-1717882200,-552585330);
(-1668799900,-552585330);(-1619717600,-552585330);(-1570635200,-552585330);(-1521552900,-552585330);(-1472470600,-552585330);(-1423388200,-552585330);
(-1374305900,-552585330);(-1325223500,-552585330);(-1276141100,-552585330);(-1251600000,-531332050);(-1227058800,-531332050);(-1227058800,-573838620);
(-1202517600,-531332050);(-1202517600,-573838620);(-1177976500,-573838620);(-1177976500,-531332050);(-1153435300,-573838620);(-1153435300,-531332050);
(-1128894100,-531332050);(-1128894100,-573838620);(-1104352900,-531332050);(-1104352900,-573838620);(-1079811700,-573838620);(-1079811700,-531332050);
(-1055270500,-573838620);(-1055270500,-531332050);(-1030729400,-531332050);(-1030729400,-573838620);(-1006188200,-531332050);(-1006188200,-573838620);
(-981647030,-573838620);(-981647030,-531332050);(-957105870,-573838620);(-957105870,-531332050);(-932564700,-531332050);(-932564700,-573838620);
(-908023530,-531332050);(-908023530,-573838620);(-883482360,-573838620);(-883482360,-531332050);(-858941120,-573838620);(-858941120,-531332050);
(-834399950,-531332050);(-834399950,-573838620);(-809858780,-531332050);(-809858780,-573838620);(-785317610,-573838620);(-785317610,-531332050);
(-760776440,-573838620);(-760776440,-531332050);(-736235280,-531332050);(-736235280,-573838620);(-711694110,-531332050);(-711694110,-573838620);
(-687152940,-573838620);(-687152940,-531332050);(-662611770,-573838620);(-662611770,-531332050);(-638070560,-531332050);(-638070560,-573838620);
(-613529400,-531332050);(-613529400,-573838620);(-588988230,-573838620);(-588988230,-531332050);(-564447060,-573838620);(-564447060,-531332050);
(-539905850,-531332050);(-539905850,-573838620);(-515364690,-531332050);(-515364690,-573838620);(-490823520,-573838620);(-490823520,-531332050);
(-466282350,-573838620);(-466282350,-531332050);(-441741180,-531332050);(-441741180,-573838620);(-417199970,-531332050);(-417199970,-573838620);
(-392658810,-573838620);(-392658810,-531332050);(-368117640,-573838620);(-368117640,-531332050);(-343576470,-531332050);(-343576470,-573838620);
(-319035280,-531332050);(-319035280,-573838620);(-294494110,-573838620);(-294494110,-531332050);(-269952930,-573838620);(-269952930,-531332050);
(-245411760,-531332050);(-245411760,-573838620);(-220870590,-531332050);(-220870590,-573838620);(-196329400,-573838620);(-196329400,-531332050);
(-171788230,-573838620);(-171788230,-531332050);(-147247060,-531332050);(-147247060,-573838620);(-122705880,-531332050);(-122705880,-573838620);
(-98164701,-573838620);(-98164701,-531332050);(-73623528,-573838620);(-73623528,-531332050);(-49082351,-531332050);(-49082351,-573838620);
(-24541175,-531332050);(-24541175,-573838620);(0,-573838620);(0,-531332050);(24541175,-573838620);(24541175,-531332050);
(49082351,-531332050);(49082351,-573838620);(73623528,-531332050);(73623528,-573838620);(98164701,-573838620);(98164701,-531332050);
(122705880,-573838620);(122705880,-531332050);(147247060,-531332050);(147247060,-573838620);(171788230,-531332050);(171788230,-573838620);
(196329400,-573838620);(196329400,-531332050);(220870590,-573838620);(220870590,-531332050);(245411760,-531332050);(245411760,-573838620);
(269952930,-531332050);(269952930,-573838620);(294494110,-573838620);(294494110,-531332050);(319035280,-573838620);(319035280,-531332050);
(343576470,-531332050);(343576470,-573838620);(368117640,-531332050);(368117640,-573838620);(392658810,-573838620);(392658810,-531332050);
(417199970,-573838620);(417199970,-531332050);(441741180,-531332050);(441741180,-573838620);(466282350,-531332050);(466282350,-573838620);
(490823520,-573838620);(490823520,-531332050);(515364690,-573838620);(515364690,-531332050);(539905850,-531332050);(539905850,-573838620);
(564447060,-531332050);(564447060,-573838620);(588988230,-573838620);(588988230,-531332050);(613529400,-573838620);(613529400,-531332050);
(638070560,-531332050);(638070560,-573838620);(662611770,-531332050);(662611770,-573838620);(687152940,-573838620);(687152940,-531332050);
(711694110,-573838620);(711694110,-531332050);(736235280,-531332050);(736235280,-573838620);(760776440,-531332050);(760776440,-573838620);
(785317610,-573838620);(785317610,-531332050);(809858780,-573838620);(809858780,-531332050);(834399950,-531332050);(834399950,-573838620);
(858941120,-531332050);(858941120,-573838620);(883482360,-573838620);(883482360,-531332050);(908023530,-573838620);(908023530,-531332050);
(932564700,-531332050);(932564700,-573838620);(957105870,-531332050);(957105870,-573838620);(981647030,-573838620);(981647030,-531332050);
(1006188200,-573838620);(1006188200,-531332050);(1030729400,-531332050);(1030729400,-573838620);(1055270500,-531332050);(1055270500,-573838620);
(1079811700,-573838620);(1079811700,-531332050);(1104352900,-573838620);(1104352900,-531332050);(1128894100,-531332050);(1128894100,-573838620);
(1153435300,-531332050);(1153435300,-573838620);(1177976500,-573838620);(1177976500,-531332050);(1202517600,-573838620);(1202517600,-531332050);
(1227058800,-531332050);(1227058800,-573838620);(1251600000,-531332050);(1276141100,-552585330);(1325223500,-552585330);(1374305900,-552585330);
(1423388200,-552585330);(1472470600,-552585330);(1521552900,-552585330);(1570635200,-552585330);(1619717600,-552585330);(1668799900,-552585330);
(1717882200,-552585330);(1766964700,-552585330);(1816047100,-552585330);(1865129400,-552585330);(1914211700,-552585330);(1963294100,-552585330);
(2012376400,-552585330);(2061458700,-552585330);(2110541100,-552585330);(2159623400,-552585330);(2208705700,-552585330);(2257788200,-552585330);
(2306870600,-552585330);(2355952900,-552585330);(2405035200,-552585330);(2454117600,-552585330);(2503199900,-552585330);(2552282300,-552585330);
(2601364700,-552585330);(2650447100,-552585330);(-2650447100,-637598460);(-2601364700,-637598460);(-2552282300,-637598460);(-2503199900,-637598460);
(-2454117600,-637598460);(-2405035200,-637598460);(-2355952900,-637598460);(-2306870600,-637598460);(-2257788200,-637598460);(-2208705700,-637598460);
(-2159623400,-637598460);(-2110541100,-637598460);(-2061458700,-637598460);(-2012376400,-637598460);(-1963294100,-637598460);(-1914211700,-637598460);
(-1865129400,-637598460);(-1816047100,-637598460);(-1766964700,-637598460);(-1717882200,-637598460);(-1668799900,-637598460);(-1619717600,-637598460);
(-1570635200,-637598460);(-1521552900,-637598460);(-1472470600,-637598460);(-1423388200,-637598460);(-1374305900,-637598460);(-1325223500,-637598460);
(-1276141100,-637598460);(-1227058800,-637598460);(-1202517600,-616345180);(-1177976500,-616345180);(-1177976500,-658851700);(-1153435300,-616345180);
(-1153435300,-658851700);(-1128894100,-658851700);(-1128894100,-616345180);(-1104352900,-658851700);(-1104352900,-616345180);(-1079811700,-616345180);
(-1079811700,-658851700);(-1055270500,-616345180);(-1055270500,-658851700);(-1030729400,-658851700);(-1030729400,-616345180);(-1006188200,-658851700);
(-1006188200,-616345180);(-981647030,-616345180);(-981647030,-658851700);(-957105870,-616345180);(-957105870,-658851700);(-932564700,-658851700);
(-932564700,-616345180);(-908023530,-658851700);(-908023530,-616345180);(-883482360,-616345180);(-883482360,-658851700);(-858941120,-616345180);
(-858941120,-658851700);(-834399950,-658851700);(-834399950,-616345180);(-809858780,-658851700);(-809858780,-616345180);(-785317610,-616345180);
(-785317610,-658851700);(-760776440,-616345180);(-760776440,-658851700);(-736235280,-658851700);(-736235280,-616345180);(-711694110,-658851700);
(-711694110,-616345180);(-687152940,-616345180);(-687152940,-658851700);(-662611770,-616345180);(-662611770,-658851700);(-638070560,-658851700);
(-638070560,-616345180);(-613529400,-658851700);(-613529400,-616345180);(-588988230,-616345180);(-588988230,-658851700);(-564447060,-616345180);
(-564447060,-658851700);(-539905850,-658851700);(-539905850,-616345180);(-515364690,-658851700);(-515364690,-616345180);(-490823520,-616345180);
(-490823520,-658851700);(-466282350,-616345180);(-466282350,-658851700);(-441741180,-658851700);(-441741180,-616345180);(-417199970,-658851700);
(-417199970,-616345180);(-392658810,-616345180);(-392658810,-658851700);(-368117640,-616345180);(-368117640,-658851700);(-343576470,-658851700);
(-343576470,-616345180);(-319035280,-658851700);(-319035280,-616345180);(-294494110,-616345180);(-294494110,-658851700);(-269952930,-616345180);
(-269952930,-658851700);(-245411760,-658851700);(-245411760,-616345180);(-220870590,-658851700);(-220870590,-616345180);(-196329400,-616345180);
(-196329400,-658851700);(-171788230,-616345180);(-171788230,-658851700);(-147247060,-658851700);(-147247060,-616345180);(-122705880,-658851700);
(-122705880,-616345180);(-98164701,-616345180);(-98164701,-658851700);(-73623528,-616345180);(-73623528,-658851700);(-49082351,-658851700);
(-49082351,-616345180);(-24541175,-658851700);(-24541175,-616345180);(0,-616345180);(0,-658851700);(24541175,-616345180);
(24541175,-658851700);(49082351,-658851700);(49082351,-616345180);(73623528,-658851700);(73623528,-616345180);(98164701,-616345180);
(98164701,-658851700);(122705880,-616345180);(122705880,-658851700);(147247060,-658851700);(147247060,-616345180);(171788230,-658851700);
(171788230,-616345180);(196329400,-616345180);(196329400,-658851700);(220870590,-616345180);(220870590,-658851700);(245411760,-658851700);
(245411760,-616345180);(269952930,-658851700);(269952930,-616345180);(294494110,-616345180);(294494110,-658851700);(319035280,-616345180);
(319035280,-658851700);(343576470,-658851700);(343576470,-616345180);(368117640,-658851700);(368117640,-616345180);(392658810,-616345180);
(392658810,-658851700);(417199970,-616345180);(417199970,-658851700);(441741180,-658851700);(441741180,-616345180);(466282350,-658851700);
(466282350,-616345180);(490823520,-616345180);(490823520,-658851700);(515364690,-616345180);(515364690,-658851700);(539905850,-658851700);
(539905850,-616345180);(564447060,-658851700);(564447060,-616345180);(588988230,-616345180);(588988230,-658851700);(613529400,-616345180);
(613529400,-658851700);(638070560,-658851700);(638070560,-616345180);(662611770,-658851700);(662611770,-616345180);(687152940,-616345180);
(687152940,-658851700);(711694110,-616345180);(711694110,-658851700);(736235280,-658851700);(736235280,-616345180);(760776440,-658851700);
(760776440,-616345180);(785317610,-616345180);(785317610,-658851700);(809858780,-616345180);(809858780,-658851700);(834399950,-658851700);
(834399950,-616345180);(858941120,-658851700);(858941120,-616345180);(883482360,-616345180);(883482360,-658851700);(908023530,-616345180);
(908023530,-658851700);(932564700,-658851700);(932564700,-616345180);(957105870,-658851700);(957105870,-616345180);(981647030,-616345180);
(981647030,-658851700);(1006188200,-616345180);(1006188200,-658851700);(1030729400,-658851700);(1030729400,-616345180);(1055270500,-658851700);
(1055270500,-616345180);(1079811700,-616345180);(1079811700,-658851700);(1104352900,-616345180);(1104352900,-658851700);(1128894100,-658851700);
(1128894100,-616345180);(1153435300,-658851700);(1153435300,-616345180);(1177976500,-616345180);(1177976500,-658851700);(1202517600,-616345180);
(1227058800,-637598460);(1276141100,-637598460);(1325223500,-637598460);(1374305900,-637598460);(1423388200,-637598460);(1472470600,-637598460);
(1521552900,-637598460);(1570635200,-637598460);(1619717600,-637598460);(1668799900,-637598460);(1717882200,-637598460);(1766964700,-637598460);
(1816047100,-637598460);(1865129400,-637598460);(1914211700,-637598460);(1963294100,-637598460);(2012376400,-637598460);(2061458700,-637598460);
(2110541100,-637598460);(2159623400,-637598460);(2208705700,-637598460);(2257788200,-637598460);(2306870600,-637598460);(2355952900,-637598460);
(2405035200,-637598460);(2454117600,-637598460);(2503199900,-637598460);(2552282300,-637598460);(2601364700,-637598460);(2650447100,-637598460);
(-2601364700,-722611540);(-2552282300,-722611540);(-2503199900,-722611540);(-2454117600,-722611540);(-2405035200,-722611540);(-2355952900,-722611540);
(-2306870600,-722611540);(-2257788200,-722611540);(-2208705700,-722611540);(-2159623400,-722611540);(-2110541100,-722611540);(-2061458700,-722611540);
(-2012376400,-722611540);(-1963294100,-722611540);(-1914211700,-722611540);(-1865129400,-722611540);(-1816047100,-722611540);(-1766964700,-722611540);
(-1717882200,-722611540);(-1668799900,-722611540);(-1619717600,-722611540);(-1570635200,-722611540);(-1521552900,-722611540);(-1472470600,-722611540);
(-1423388200,-722611540);(-1374305900,-722611540);(-1325223500,-722611540);(-1276141100,-722611540);(-1227058800,-722611540);(-1177976500,-722611540);
(-1153435300,-701358260);(-1128894100,-701358260);(-1128894100,-743864820);(-1104352900,-701358260);(-1104352900,-743864820);(-1079811700,-743864820);
(-1079811700,-701358260);(-1055270500,-743864820);(-1055270500,-701358260);(-1030729400,-701358260);(-1030729400,-743864820);(-1006188200,-701358260);
(-1006188200,-743864820);(-981647030,-743864820);(-981647030,-701358260);(-957105870,-743864820);(-957105870,-701358260);(-932564700,-701358260);
(-932564700,-743864820);(-908023530,-701358260);(-908023530,-743864820);(-883482360,-743864820);(-883482360,-701358260);(-858941120,-743864820);
(-858941120,-701358260);(-834399950,-701358260);(-834399950,-743864820);(-809858780,-701358260);(-809858780,-743864820);(-785317610,-743864820);
(-785317610,-701358260);(-760776440,-743864820);(-760776440,-701358260);(-736235280,-701358260);(-736235280,-743864820);(-711694110,-701358260);
(-711694110,-743864820);(-687152940,-743864820);(-687152940,-701358260);(-662611770,-743864820);(-662611770,-701358260);(-638070560,-701358260);
(-638070560,-743864820);(-613529400,-701358260);(-613529400,-743864820);(-588988230,-743864820);(-588988230,-701358260);(-564447060,-743864820);
(-564447060,-701358260);(-539905850,-701358260);(-539905850,-743864820);(-515364690,-701358260);(-515364690,-743864820);(-490823520,-743864820);
(-490823520,-701358260);(-466282350,-743864820);(-466282350,-701358260);(-441741180,-701358260);(-441741180,-743864820);(-417199970,-701358260);
(-417199970,-743864820);(-392658810,-743864820);(-392658810,-701358260);(-368117640,-743864820);(-368117640,-701358260);(-343576470,-701358260);
(-343576470,-743864820);(-319035280,-701358260);(-319035280,-743864820);(-294494110,-743864820);(-294494110,-701358260);(-269952930,-743864820);
(-269952930,-701358260);(-245411760,-701358260);(-245411760,-743864820);(-220870590,-701358260);(-220870590,-743864820);(-196329400,-743864820);
(-196329400,-701358260);(-171788230,-743864820);(-171788230,-701358260);(-147247060,-701358260);(-147247060,-743864820);(-122705880,-701358260);
(-122705880,-743864820);(-98164701,-743864820);(-98164701,-701358260);(-73623528,-743864820);(-73623528,-701358260);(-49082351,-701358260);
(-49082351,-743864820);(-24541175,-701358260);(-24541175,-743864820);(0,-743864820);(0,-701358260);(24541175,-743864820);
(24541175,-701358260);(49082351,-701358260);(49082351,-743864820);(73623528,-701358260);(73623528,-743864820);(98164701,-743864820);
(98164701,-701358260);(122705880,-743864820);(122705880,-701358260);(147247060,-701358260);(147247060,-743864820);(171788230,-701358260);
(171788230,-743864820);(196329400,-743864820);(196329400,-701358260);(220870590,-743864820);(220870590,-701358260);(245411760,-701358260);
(245411760,-743864820);(269952930,-701358260);(269952930,-743864820);(294494110,-743864820);(294494110,-701358260);(319035280,-743864820);
(319035280,-701358260);(343576470,-701358260);(343576470,-743864820);(368117640,-701358260);(368117640,-743864820);(392658810,-743864820);
(392658810,-701358260);(417199970,-743864820);(417199970,-701358260);(441741180,-701358260);(441741180,-743864820);(466282350,-701358260);
(466282350,-743864820);(490823520,-743864820);(490823520,-701358260);(515364690,-743864820);(515364690,-701358260);(539905850,-701358260);
(539905850,-743864820);(564447060,-701358260);(564447060,-743864820);(588988230,-743864820);(588988230,-701358260);(613529400,-743864820);
(613529400,-701358260);(638070560,-701358260);(638070560,-743864820);(662611770,-701358260);(662611770,-743864820);(687152940,-743864820);
(687152940,-701358260);(711694110,-743864820);(711694110,-701358260);(736235280,-701358260);(736235280,-743864820);(760776440,-701358260);
(760776440,-743864820);(785317610,-743864820);(785317610,-701358260);(809858780,-743864820);(809858780,-701358260);(834399950,-701358260);
(834399950,-743864820);(858941120,-701358260);(858941120,-743864820);(883482360,-743864820);(883482360,-701358260);(908023530,-743864820);
(908023530,-701358260);(932564700,-701358260);(932564700,-743864820);(957105870,-701358260);(957105870,-743864820);(981647030,-743864820);
(981647030,-701358260);(1006188200,-743864820);(1006188200,-701358260);(1030729400,-701358260);(1030729400,-743864820);(1055270500,-701358260);
(1055270500,-743864820);(1079811700,-743864820);(1079811700,-701358260);(1104352900,-743864820);(1104352900,-701358260);(1128894100,-701358260);
(1128894100,-743864820);(1153435300,-701358260);(1177976500,-722611540);(1227058800,-722611540);(1276141100,-722611540);(1325223500,-722611540);
(1374305900,-722611540);(1423388200,-722611540);(1472470600,-722611540);(1521552900,-722611540);(1570635200,-722611540);(1619717600,-722611540);
(1668799900,-722611540);(1717882200,-722611540);(1766964700,-722611540);(1816047100,-722611540);(1865129400,-722611540);(1914211700,-722611540);
(1963294100,-722611540);(2012376400,-722611540);(2061458700,-722611540);(2110541100,-722611540);(2159623400,-722611540);(2208705700,-722611540);
(2257788200,-722611540);(2306870600,-722611540);(2355952900,-722611540);(2405035200,-722611540);(2454117600,-722611540);(2503199900,-722611540);
(2552282300,-722611540);(2601364700,-722611540);(-2601364700,-807624660);(-2552282300,-807624660);(-2503199900,-807624660);(-2454117600,-807624660);
(-2405035200,-807624660);(-2355952900,-807624660);(-2306870600,-807624660);(-2257788200,-807624660);(-2208705700,-807624660);(-2159623400,-807624660);
(-2110541100,-807624660);(-2061458700,-807624660);(-2012376400,-807624660);(-1963294100,-807624660);(-1914211700,-807624660);(-1865129400,-807624660);
(-1816047100,-807624660);(-1766964700,-807624660);(-1717882200,-807624660);(-1668799900,-807624660);(-1619717600,-807624660);(-1570635200,-807624660);
(-1521552900,-807624660);(-1472470600,-807624660);(-1423388200,-807624660);(-1374305900,-807624660);(-1325223500,-807624660);(-1276141100,-807624660);
(-1227058800,-807624660);(-1177976500,-807624660);(-1128894100,-807624660);(-1104352900,-786371380);(-1079811700,-786371380);(-1079811700,-828878020);
(-1055270500,-786371380);(-1055270500,-828878020);(-1030729400,-828878020);(-1030729400,-786371380);(-1006188200,-828878020);(-1006188200,-786371380);
(-981647030,-786371380);(-981647030,-828878020);(-957105870,-786371380);(-957105870,-828878020);(-932564700,-828878020);(-932564700,-786371380);
(-908023530,-828878020);(-908023530,-786371380);(-883482360,-786371380);(-883482360,-828878020);(-858941120,-786371380);(-858941120,-828878020);
(-834399950,-828878020);(-834399950,-786371380);(-809858780,-828878020);(-809858780,-786371380);(-785317610,-786371380);(-785317610,-828878020);
(-760776440,-786371380);(-760776440,-828878020);(-736235280,-828878020);(-736235280,-786371380);(-711694110,-828878020);(-711694110,-786371380);
(-687152940,-786371380);(-687152940,-828878020);(-662611770,-786371380);(-662611770,-828878020);(-638070560,-828878020);(-638070560,-786371380);
(-613529400,-828878020);(-613529400,-786371380);(-588988230,-786371380);(-588988230,-828878020);(-564447060,-786371380);(-564447060,-828878020);
(-539905850,-828878020);(-539905850,-786371380);(-515364690,-828878020);(-515364690,-786371380);(-490823520,-786371380);(-490823520,-828878020);
(-466282350,-786371380);(-466282350,-828878020);(-441741180,-828878020);(-441741180,-786371380);(-417199970,-828878020);(-417199970,-786371380);
(-392658810,-786371380);(-392658810,-828878020);(-368117640,-786371380);(-368117640,-828878020);(-343576470,-828878020);(-343576470,-786371380);
(-319035280,-828878020);(-319035280,-786371380);(-294494110,-786371380);(-294494110,-828878020);(-269952930,-786371380);(-269952930,-828878020);
(-245411760,-828878020);(-245411760,-786371380);(-220870590,-828878020);(-220870590,-786371380);(-196329400,-786371380);(-196329400,-828878020);
(-171788230,-786371380);(-171788230,-828878020);(-147247060,-828878020);(-147247060,-786371380);(-122705880,-828878020);(-122705880,-786371380);
(-98164701,-786371380);(-98164701,-828878020);(-73623528,-786371380);(-73623528,-828878020);(-49082351,-828878020);(-49082351,-786371380);
(-24541175,-828878020);(-24541175,-786371380);(0,-786371380);(0,-828878020);(24541175,-786371380);(24541175,-828878020);
(49082351,-828878020);(49082351,-786371380);(73623528,-828878020);(73623528,-786371380);(98164701,-786371380);(98164701,-828878020);
(122705880,-786371380);(122705880,-828878020);(147247060,-828878020);(147247060,-786371380);(171788230,-828878020);(171788230,-786371380);
(196329400,-786371380);(196329400,-828878020);(220870590,-786371380);(220870590,-828878020);(245411760,-828878020);(245411760,-786371380);
(269952930,-828878020);(269952930,-786371380);(294494110,-786371380);(294494110,-828878020);(319035280,-786371380);(319035280,-828878020);
(343576470,-828878020);(343576470,-786371380);(368117640,-828878020);(368117640,-786371380);(392658810,-786371380);(392658810,-828878020);
(417199970,-786371380);(417199970,-828878020);(441741180,-828878020);(441741180,-786371380);(466282350,-828878020);(466282350,-786371380);
(490823520,-786371380);(490823520,-828878020);(515364690,-786371380);(515364690,-828878020);(539905850,-828878020);(539905850,-786371380);
(564447060,-828878020);(564447060,-786371380);(588988230,-786371380);(588988230,-828878020);(613529400,-786371380);(613529400,-828878020);
(638070560,-828878020);(638070560,-786371380);(662611770,-828878020);(662611770,-786371380);(687152940,-786371380);(687152940,-828878020);
(711694110,-786371380);(711694110,-828878020);(736235280,-828878020);(736235280,-786371380);(760776440,-828878020);(760776440,-786371380);
(785317610,-786371380);(785317610,-828878020);(809858780,-786371380);(809858780,-828878020);(834399950,-828878020);(834399950,-786371380);
(858941120,-828878020);(858941120,-786371380);(883482360,-786371380);(883482360,-828878020);(908023530,-786371380);(908023530,-828878020);
(932564700,-828878020);(932564700,-786371380);(957105870,-828878020);(957105870,-786371380);(981647030,-786371380);(981647030,-828878020);
(1006188200,-786371380);(1006188200,-828878020);(1030729400,-828878020);(1030729400,-786371380);(1055270500,-828878020);(1055270500,-786371380);
(1079811700,-786371380);(1079811700,-828878020);(1104352900,-786371380);(1128894100,-807624660);(1177976500,-807624660);(1227058800,-807624660);
(1276141100,-807624660);(1325223500,-807624660);(1374305900,-807624660);(1423388200,-807624660);(1472470600,-807624660);(1521552900,-807624660);
(1570635200,-807624660);(1619717600,-807624660);(1668799900,-807624660);(1717882200,-807624660);(1766964700,-807624660);(1816047100,-807624660);
(1865129400,-807624660);(1914211700,-807624660);(1963294100,-807624660);(2012376400,-807624660);(2061458700,-807624660);(2110541100,-807624660);
(2159623400,-807624660);(2208705700,-807624660);(2257788200,-807624660);(2306870600,-807624660);(2355952900,-807624660);(2405035200,-807624660);
(2454117600,-807624660);(2503199900,-807624660);(2552282300,-807624660);(2601364700,-807624660);(-2552282300,-892637860);(-2503199900,-892637860);
(-2454117600,-892637860);(-2405035200,-892637860);(-2355952900,-892637860);(-2306870600,-892637860);(-2257788200,-892637860);(-2208705700,-892637860);
(-2159623400,-892637860);(-2110541100,-892637860);(-2061458700,-892637860);(-2012376400,-892637860);(-1963294100,-892637860);(-1914211700,-892637860);
(-1865129400,-892637860);(-1816047100,-892637860);(-1766964700,-892637860);(-1717882200,-892637860);(-1668799900,-892637860);(-1619717600,-892637860);
(-1570635200,-892637860);(-1521552900,-892637860);(-1472470600,-892637860);(-1423388200,-892637860);(-1374305900,-892637860);(-1325223500,-892637860);
(-1276141100,-892637860);(-1227058800,-892637860);(-1177976500,-892637860);(-1128894100,-892637860);(-1079811700,-892637860);(-1055270500,-871384580);
(-1030729400,-871384580);(-1030729400,-913891140);(-1006188200,-871384580);(-1006188200,-913891140);(-981647030,-913891140);(-981647030,-871384580);
(-957105870,-913891140);(-957105870,-871384580);(-932564700,-871384580);(-932564700,-913891140);(-908023530,-871384580);(-908023530,-913891140);
(-883482360,-913891140);(-883482360,-871384580);(-858941120,-913891140);(-858941120,-871384580);(-834399950,-871384580);(-834399950,-913891140);
(-809858780,-871384580);(-809858780,-913891140);(-785317610,-913891140);(-785317610,-871384580);(-760776440,-913891140);(-760776440,-871384580);
(-736235280,-871384580);(-736235280,-913891140);(-711694110,-871384580);(-711694110,-913891140);(-687152940,-913891140);(-687152940,-871384580);
(-662611770,-913891140);(-662611770,-871384580);(-638070560,-871384580);(-638070560,-913891140);(-613529400,-871384580);(-613529400,-913891140);
(-588988230,-913891140);(-588988230,-871384580);(-564447060,-913891140);(-564447060,-871384580);(-539905850,-871384580);(-539905850,-913891140);
(-515364690,-871384580);(-515364690,-913891140);(-490823520,-913891140);(-490823520,-871384580);(-466282350,-913891140);(-466282350,-871384580);
(-441741180,-871384580);(-441741180,-913891140);(-417199970,-871384580);(-417199970,-913891140);(-392658810,-913891140);(-392658810,-871384580);
(-368117640,-913891140);(-368117640,-871384580);(-343576470,-871384580);(-343576470,-913891140);(-319035280,-871384580);(-319035280,-913891140);
(-294494110,-913891140);(-294494110,-871384580);(-269952930,-913891140);(-269952930,-871384580);(-245411760,-871384580);(-245411760,-913891140);
(-220870590,-871384580);(-220870590,-913891140);(-196329400,-913891140);(-196329400,-871384580);(-171788230,-913891140);(-171788230,-871384580);
(-147247060,-871384580);(-147247060,-913891140);(-122705880,-871384580);(-122705880,-913891140);(-98164701,-913891140);(-98164701,-871384580);
(-73623528,-913891140);(-73623528,-871384580);(-49082351,-871384580);(-49082351,-913891140);(-24541175,-871384580);(-24541175,-913891140);
(0,-913891140);(0,-871384580);(24541175,-913891140);(24541175,-871384580);(49082351,-871384580);(49082351,-913891140);
(73623528,-871384580);(73623528,-913891140);(98164701,-913891140);(98164701,-871384580);(122705880,-913891140);(122705880,-871384580);
(147247060,-871384580);(147247060,-913891140);(171788230,-871384580);(171788230,-913891140);(196329400,-913891140);(196329400,-871384580);
(220870590,-913891140);(220870590,-871384580);(245411760,-871384580);(245411760,-913891140);(269952930,-871384580);(269952930,-913891140);
(294494110,-913891140);(294494110,-871384580);(319035280,-913891140);(319035280,-871384580);(343576470,-871384580);(343576470,-913891140);
(368117640,-871384580);(368117640,-913891140);(392658810,-913891140);(392658810,-871384580);(417199970,-913891140);(417199970,-871384580);
(441741180,-871384580);(441741180,-913891140);(466282350,-871384580);(466282350,-913891140);(490823520,-913891140);(490823520,-871384580);
(515364690,-913891140);(515364690,-871384580);(539905850,-871384580);(539905850,-913891140);(564447060,-871384580);(564447060,-913891140);
(588988230,-913891140);(588988230,-871384580);(613529400,-913891140);(613529400,-871384580);(638070560,-871384580);(638070560,-913891140);
(662611770,-871384580);(662611770,-913891140);(687152940,-913891140);(687152940,-871384580);(711694110,-913891140);(711694110,-871384580);
(736235280,-871384580);(736235280,-913891140);(760776440,-871384580);(760776440,-913891140);(785317610,-913891140);(785317610,-871384580);
(809858780,-913891140);(809858780,-871384580);(834399950,-871384580);(834399950,-913891140);(858941120,-871384580);(858941120,-913891140);
(883482360,-913891140);(883482360,-871384580);(908023530,-913891140);(908023530,-871384580);(932564700,-871384580);(932564700,-913891140);
(957105870,-871384580);(957105870,-913891140);(981647030,-913891140);(981647030,-871384580);(1006188200,-913891140);(1006188200,-871384580);
(1030729400,-871384580);(1030729400,-913891140);(1055270500,-871384580);(1079811700,-892637860);(1128894100,-892637860);(1177976500,-892637860);
(1227058800,-892637860);(1276141100,-892637860);(1325223500,-892637860);(1374305900,-892637860);(1423388200,-892637860);(1472470600,-892637860);
(1521552900,-892637860);(1570635200,-892637860);(1619717600,-892637860);(1668799900,-892637860);(1717882200,-892637860);(1766964700,-892637860);
(1816047100,-892637860);(1865129400,-892637860);(1914211700,-892637860);(1963294100,-892637860);(2012376400,-892637860);(2061458700,-892637860);
(2110541100,-892637860);(2159623400,-892637860);(2208705700,-892637860);(2257788200,-892637860);(2306870600,-892637860);(2355952900,-892637860);
(2405035200,-892637860);(2454117600,-892637860);(2503199900,-892637860);(2552282300,-892637860);(-2503199900,-977650990);(-2454117600,-977650990);
(-2405035200,-977650990);(-2355952900,-977650990);(-2306870600,-977650990);(-2257788200,-977650990);(-2208705700,-977650990);(-2159623400,-977650990);
(-2110541100,-977650990);(-2061458700,-977650990);(-2012376400,-977650990);(-1963294100,-977650990);(-1914211700,-977650990);(-1865129400,-977650990);
(-1816047100,-977650990);(-1766964700,-977650990);(-1717882200,-977650990);(-1668799900,-977650990);(-1619717600,-977650990);(-1570635200,-977650990);
(-1521552900,-977650990);(-1472470600,-977650990);(-1423388200,-977650990);(-1374305900,-977650990);(-1325223500,-977650990);(-1276141100,-977650990);
(-1227058800,-977650990);(-1177976500,-977650990);(-1128894100,-977650990);(-1079811700,-977650990);(-1030729400,-977650990);(-1006188200,-956397710);
(-981647030,-956397710);(-981647030,-998904270);(-957105870,-956397710);(-957105870,-998904270);(-932564700,-998904270);(-932564700,-956397710);
(-908023530,-998904270);(-908023530,-956397710);(-883482360,-956397710);(-883482360,-998904270);(-858941120,-956397710);(-858941120,-998904270);
(-834399950,-998904270);(-834399950,-956397710);(-809858780,-998904270);(-809858780,-956397710);(-785317610,-956397710);(-785317610,-998904270);
(-760776440,-956397710);(-760776440,-998904270);(-736235280,-998904270);(-736235280,-956397710);(-711694110,-998904270);(-711694110,-956397710);
(-687152940,-956397710);(-687152940,-998904270);(-662611770,-956397710);(-662611770,-998904270);(-638070560,-998904270);(-638070560,-956397710);
(-613529400,-998904270);(-613529400,-956397710);(-588988230,-956397710);(-588988230,-998904270);(-564447060,-956397710);(-564447060,-998904270);
(-539905850,-998904270);(-539905850,-956397710);(-515364690,-998904270);(-515364690,-956397710);(-490823520,-956397710);(-490823520,-998904270);
(-466282350,-956397710);(-466282350,-998904270);(-441741180,-998904270);(-441741180,-956397710);(-417199970,-998904270);(-417199970,-956397710);
(-392658810,-956397710);(-392658810,-998904270);(-368117640,-956397710);(-368117640,-998904270);(-343576470,-998904270);(-343576470,-956397710);
(-319035280,-998904270);(-319035280,-956397710);(-294494110,-956397710);(-294494110,-998904270);(-269952930,-956397710);(-269952930,-998904270);
(-245411760,-998904270);(-245411760,-956397710);(-220870590,-998904270);(-220870590,-956397710);(-196329400,-956397710);(-196329400,-998904270);
(-171788230,-956397710);(-171788230,-998904270);(-147247060,-998904270);(-147247060,-956397710);(-122705880,-998904270);(-122705880,-956397710);
(-98164701,-956397710);(-98164701,-998904270);(-73623528,-956397710);(-73623528,-998904270);(-49082351,-998904270);(-49082351,-956397710);
(-24541175,-998904270);(-24541175,-956397710);(0,-956397710);(0,-998904270);(24541175,-956397710);(24541175,-998904270);
(49082351,-998904270);(49082351,-956397710);(73623528,-998904270);(73623528,-956397710);(98164701,-956397710);(98164701,-998904270);
(122705880,-956397710);(122705880,-998904270);(147247060,-998904270);(147247060,-956397710);(171788230,-998904270);(171788230,-956397710);
(196329400,-956397710);(196329400,-998904270);(220870590,-956397710);(220870590,-998904270);(245411760,-998904270);(245411760,-956397710);
(269952930,-998904270);(269952930,-956397710);(294494110,-956397710);(294494110,-998904270);(319035280,-956397710);(319035280,-998904270);
(343576470,-998904270);(343576470,-956397710);(368117640,-998904270);(368117640,-956397710);(392658810,-956397710);(392658810,-998904270);
(417199970,-956397710);(417199970,-998904270);(441741180,-998904270);(441741180,-956397710);(466282350,-998904270);(466282350,-956397710);
(490823520,-956397710);(490823520,-998904270);(515364690,-956397710);(515364690,-998904270);(539905850,-998904270);(539905850,-956397710);
(564447060,-998904270);(564447060,-956397710);(588988230,-956397710);(588988230,-998904270);(613529400,-956397710);(613529400,-998904270);
(638070560,-998904270);(638070560,-956397710);(662611770,-998904270);(662611770,-956397710);(687152940,-956397710);(687152940,-998904270);
(711694110,-956397710);(711694110,-998904270);(736235280,-998904270);(736235280,-956397710);(760776440,-998904270);(760776440,-956397710);
(785317610,-956397710);(785317610,-998904270);(809858780,-956397710);(809858780,-998904270);(834399950,-998904270);(834399950,-956397710);
(858941120,-998904270);(858941120,-956397710);(883482360,-956397710);(883482360,-998904270);(908023530,-956397710);(908023530,-998904270);
(932564700,-998904270);(932564700,-956397710);(957105870,-998904270);(957105870,-956397710);(981647030,-956397710);(981647030,-998904270);
(1006188200,-956397710);(1030729400,-977650990);(1079811700,-977650990);(1128894100,-977650990);(1177976500,-977650990);(1227058800,-977650990);
(1276141100,-977650990);(1325223500,-977650990);(1374305900,-977650990);(1423388200,-977650990);(1472470600,-977650990);(1521552900,-977650990);
(1570635200,-977650990);(1619717600,-977650990);(1668799900,-977650990);(1717882200,-977650990);(1766964700,-977650990);(1816047100,-977650990);
(1865129400,-977650990);(1914211700,-977650990);(1963294100,-977650990);(2012376400,-977650990);(2061458700,-977650990);(2110541100,-977650990);
(2159623400,-977650990);(2208705700,-977650990);(2257788200,-977650990);(2306870600,-977650990);(2355952900,-977650990);(2405035200,-977650990);
(2454117600,-977650990);(2503199900,-977650990);(-2503199900,-1062664100);(-2454117600,-1062664100);(-2405035200,-1062664100);(-2355952900,-1062664100);
(-2306870600,-1062664100);(-2257788200,-1062664100);(-2208705700,-1062664100);(-2159623400,-1062664100);(-2110541100,-1062664100);(-2061458700,-1062664100);
(-2012376400,-1062664100);(-1963294100,-1062664100);(-1914211700,-1062664100);(-1865129400,-1062664100);(-1816047100,-1062664100);(-1766964700,-1062664100);
(-1717882200,-1062664100);(-1668799900,-1062664100);(-1619717600,-1062664100);(-1570635200,-1062664100);(-1521552900,-1062664100);(-1472470600,-1062664100);
(-1423388200,-1062664100);(-1374305900,-1062664100);(-1325223500,-1062664100);(-1276141100,-1062664100);(-1227058800,-1062664100);(-1177976500,-1062664100);
(-1128894100,-1062664100);(-1079811700,-1062664100);(-1030729400,-1062664100);(-981647030,-1062664100);(-957105870,-1041410800);(-932564700,-1041410800);
(-932564700,-1083917400);(-908023530,-1041410800);(-908023530,-1083917400);(-883482360,-1083917400);(-883482360,-1041410800);(-858941120,-1083917400);
(-858941120,-1041410800);(-834399950,-1041410800);(-834399950,-1083917400);(-809858780,-1041410800);(-809858780,-1083917400);(-785317610,-1083917400);
(-785317610,-1041410800);(-760776440,-1083917400);(-760776440,-1041410800);(-736235280,-1041410800);(-736235280,-1083917400);(-711694110,-1041410800);
(-711694110,-1083917400);(-687152940,-1083917400);(-687152940,-1041410800);(-662611770,-1083917400);(-662611770,-1041410800);(-638070560,-1041410800);
(-638070560,-1083917400);(-613529400,-1041410800);(-613529400,-1083917400);(-588988230,-1083917400);(-588988230,-1041410800);(-564447060,-1083917400);
(-564447060,-1041410800);(-539905850,-1041410800);(-539905850,-1083917400);(-515364690,-1041410800);(-515364690,-1083917400);(-490823520,-1083917400);
(-490823520,-1041410800);(-466282350,-1083917400);(-466282350,-1041410800);(-441741180,-1041410800);(-441741180,-1083917400);(-417199970,-1041410800);
(-417199970,-1083917400);(-392658810,-1083917400);(-392658810,-1041410800);(-368117640,-1083917400);(-368117640,-1041410800);(-343576470,-1041410800);
(-343576470,-1083917400);(-319035280,-1041410800);(-319035280,-1083917400);(-294494110,-1083917400);(-294494110,-1041410800);(-269952930,-1083917400);
(-269952930,-1041410800);(-245411760,-1041410800);(-245411760,-1083917400);(-220870590,-1041410800);(-220870590,-1083917400);(-196329400,-1083917400);
(-196329400,-1041410800);(-171788230,-1083917400);(-171788230,-1041410800);(-147247060,-1041410800);(-147247060,-1083917400);(-122705880,-1041410800);
(-122705880,-1083917400);(-98164701,-1083917400);(-98164701,-1041410800);(-73623528,-1083917400);(-73623528,-1041410800);(-49082351,-1041410800);
(-49082351,-1083917400);(-24541175,-1041410800);(-24541175,-1083917400);(0,-1083917400);(0,-1041410800);(24541175,-1083917400);
(24541175,-1041410800);(49082351,-1041410800);(49082351,-1083917400);(73623528,-1041410800);(73623528,-1083917400);(98164701,-1083917400);
(98164701,-1041410800);(122705880,-1083917400);(122705880,-1041410800);(147247060,-1041410800);(147247060,-1083917400);(171788230,-1041410800);
(171788230,-1083917400);(196329400,-1083917400);(196329400,-1041410800);(220870590,-1083917400);(220870590,-1041410800);(245411760,-1041410800);
(245411760,-1083917400);(269952930,-1041410800);(269952930,-1083917400);(294494110,-1083917400);(294494110,-1041410800);(319035280,-1083917400);
(319035280,-1041410800);(343576470,-1041410800);(343576470,-1083917400);(368117640,-1041410800);(368117640,-1083917400);(392658810,-1083917400);
(392658810,-1041410800);(417199970,-1083917400);(417199970,-1041410800);(441741180,-1041410800);(441741180,-1083917400);(466282350,-1041410800);
(466282350,-1083917400);(490823520,-1083917400);(490823520,-1041410800);(515364690,-1083917400);(515364690,-1041410800);(539905850,-1041410800);
(539905850,-1083917400);(564447060,-1041410800);(564447060,-1083917400);(588988230,-1083917400);(588988230,-1041410800);(613529400,-1083917400);
(613529400,-1041410800);(638070560,-1041410800);(638070560,-1083917400);(662611770,-1041410800);(662611770,-1083917400);(687152940,-1083917400);
(687152940,-1041410800);(711694110,-1083917400);(711694110,-1041410800);(736235280,-1041410800);(736235280,-1083917400);(760776440,-1041410800);
(760776440,-1083917400);(785317610,-1083917400);(785317610,-1041410800);(809858780,-1083917400);(809858780,-1041410800);(834399950,-1041410800);
(834399950,-1083917400);(858941120,-1041410800);(858941120,-1083917400);(883482360,-1083917400);(883482360,-1041410800);(908023530,-1083917400);
(908023530,-1041410800);(932564700,-1041410800);(932564700,-1083917400);(957105870,-1041410800);(981647030,-1062664100);(1030729400,-1062664100);
(1079811700,-1062664100);(1128894100,-1062664100);(1177976500,-1062664100);(1227058800,-1062664100);(1276141100,-1062664100);(1325223500,-1062664100);
(1374305900,-1062664100);(1423388200,-1062664100);(1472470600,-1062664100);(1521552900,-1062664100);(1570635200,-1062664100);(1619717600,-1062664100);
(1668799900,-1062664100);(1717882200,-1062664100);(1766964700,-1062664100);(1816047100,-1062664100);(1865129400,-1062664100);(1914211700,-1062664100);
(1963294100,-1062664100);(2012376400,-1062664100);(2061458700,-1062664100);(2110541100,-1062664100);(2159623400,-1062664100);(2208705700,-1062664100);
(2257788200,-1062664100);(2306870600,-1062664100);(2355952900,-1062664100);(2405035200,-1062664100);(2454117600,-1062664100);(2503199900,-1062664100);
(-2454117600,-1147677200);(-2405035200,-1147677200);(-2355952900,-1147677200);(-2306870600,-1147677200);(-2257788200,-1147677200);(-2208705700,-1147677200);
(-2159623400,-1147677200);(-2110541100,-1147677200);(-2061458700,-1147677200);(-2012376400,-1147677200);(-1963294100,-1147677200);(-1914211700,-1147677200);
(-1865129400,-1147677200);(-1816047100,-1147677200);(-1766964700,-1147677200);(-1717882200,-1147677200);(-1668799900,-1147677200);(-1619717600,-1147677200);
(-1570635200,-1147677200);(-1521552900,-1147677200);(-1472470600,-1147677200);(-1423388200,-1147677200);(-1374305900,-1147677200);(-1325223500,-1147677200);
(-1276141100,-1147677200);(-1227058800,-1147677200);(-1177976500,-1147677200);(-1128894100,-1147677200);(-1079811700,-1147677200);(-1030729400,-1147677200);
(-981647030,-1147677200);(-932564700,-1147677200);(-908023530,-1126424000);(-883482360,-1126424000);(-883482360,-1168930500);(-858941120,-1126424000);
(-858941120,-1168930500);(-834399950,-1168930500);(-834399950,-1126424000);(-809858780,-1168930500);(-809858780,-1126424000);(-785317610,-1126424000);
(-785317610,-1168930500);(-760776440,-1126424000);(-760776440,-1168930500);(-736235280,-1168930500);(-736235280,-1126424000);(-711694110,-1168930500);
(-711694110,-1126424000);(-687152940,-1126424000);(-687152940,-1168930500);(-662611770,-1126424000);(-662611770,-1168930500);(-638070560,-1168930500);
(-638070560,-1126424000);(-613529400,-1168930500);(-613529400,-1126424000);(-588988230,-1126424000);(-588988230,-1168930500);(-564447060,-1126424000);
(-564447060,-1168930500);(-539905850,-1168930500);(-539905850,-1126424000);(-515364690,-1168930500);(-515364690,-1126424000);(-490823520,-1126424000);
(-490823520,-1168930500);(-466282350,-1126424000);(-466282350,-1168930500);(-441741180,-1168930500);(-441741180,-1126424000);(-417199970,-1168930500);
(-417199970,-1126424000);(-392658810,-1126424000);(-392658810,-1168930500);(-368117640,-1126424000);(-368117640,-1168930500);(-343576470,-1168930500);
(-343576470,-1126424000);(-319035280,-1168930500);(-319035280,-1126424000);(-294494110,-1126424000);(-294494110,-1168930500);(-269952930,-1126424000);
(-269952930,-1168930500);(-245411760,-1168930500);(-245411760,-1126424000);(-220870590,-1168930500);(-220870590,-1126424000);(-196329400,-1126424000);
(-196329400,-1168930500);(-171788230,-1126424000);(-171788230,-1168930500);(-147247060,-1168930500);(-147247060,-1126424000);(-122705880,-1168930500);
(-122705880,-1126424000);(-98164701,-1126424000);(-98164701,-1168930500);(-73623528,-1126424000);(-73623528,-1168930500);(-49082351,-1168930500);
(-49082351,-1126424000);(-24541175,-1168930500);(-24541175,-1126424000);(0,-1126424000);(0,-1168930500);(24541175,-1126424000);
(24541175,-1168930500);(49082351,-1168930500);(49082351,-1126424000);(73623528,-1168930500);(73623528,-1126424000);(98164701,-1126424000);
(98164701,-1168930500);(122705880,-1126424000);(122705880,-1168930500);(147247060,-1168930500);(147247060,-1126424000);(171788230,-1168930500);
(171788230,-1126424000);(196329400,-1126424000);(196329400,-1168930500);(220870590,-1126424000);(220870590,-1168930500);(245411760,-1168930500);
(245411760,-1126424000);(269952930,-1168930500);(269952930,-1126424000);(294494110,-1126424000);(294494110,-1168930500);(319035280,-1126424000);
(319035280,-1168930500);(343576470,-1168930500);(343576470,-1126424000);(368117640,-1168930500);(368117640,-1126424000);(392658810,-1126424000);
(392658810,-1168930500);(417199970,-1126424000);(417199970,-1168930500);(441741180,-1168930500);(441741180,-1126424000);(466282350,-1168930500);
(466282350,-1126424000);(490823520,-1126424000);(490823520,-1168930500);(515364690,-1126424000);(515364690,-1168930500);(539905850,-1168930500);
(539905850,-1126424000);(564447060,-1168930500);(564447060,-1126424000);(588988230,-1126424000);(588988230,-1168930500);(613529400,-1126424000);
(613529400,-1168930500);(638070560,-1168930500);(638070560,-1126424000);(662611770,-1168930500);(662611770,-1126424000);(687152940,-1126424000);
(687152940,-1168930500);(711694110,-1126424000);(711694110,-1168930500);(736235280,-1168930500);(736235280,-1126424000);(760776440,-1168930500);
(760776440,-1126424000);(785317610,-1126424000);(785317610,-1168930500);(809858780,-1126424000);(809858780,-1168930500);(834399950,-1168930500);
(834399950,-1126424000);(858941120,-1168930500);(858941120,-1126424000);(883482360,-1126424000);(883482360,-1168930500);(908023530,-1126424000);
(932564700,-1147677200);(981647030,-1147677200);(1030729400,-1147677200);(1079811700,-1147677200);(1128894100,-1147677200);(1177976500,-1147677200);
(1227058800,-1147677200);(1276141100,-1147677200);(1325223500,-1147677200);(1374305900,-1147677200);(1423388200,-1147677200);(1472470600,-1147677200);
(1521552900,-1147677200);(1570635200,-1147677200);(1619717600,-1147677200);(1668799900,-1147677200);(1717882200,-1147677200);(1766964700,-1147677200);
(1816047100,-1147677200);(1865129400,-1147677200);(1914211700,-1147677200);(1963294100,-1147677200);(2012376400,-1147677200);(2061458700,-1147677200);
(2110541100,-1147677200);(2159623400,-1147677200);(2208705700,-1147677200);(2257788200,-1147677200);(2306870600,-1147677200);(2355952900,-1147677200);
(2405035200,-1147677200);(2454117600,-1147677200);(-2405035200,-1232690400);(-2355952900,-1232690400);(-2306870600,-1232690400);(-2257788200,-1232690400);
(-2208705700,-1232690400);(-2159623400,-1232690400);(-2110541100,-1232690400);(-2061458700,-1232690400);(-2012376400,-1232690400);(-1963294100,-1232690400);
(-1914211700,-1232690400);(-1865129400,-1232690400);(-1816047100,-1232690400);(-1766964700,-1232690400);(-1717882200,-1232690400);(-1668799900,-1232690400);
(-1619717600,-1232690400);(-1570635200,-1232690400);(-1521552900,-1232690400);(-1472470600,-1232690400);(-1423388200,-1232690400);(-1374305900,-1232690400);
(-1325223500,-1232690400);(-1276141100,-1232690400);(-1227058800,-1232690400);(-1177976500,-1232690400);(-1128894100,-1232690400);(-1079811700,-1232690400);
(-1030729400,-1232690400);(-981647030,-1232690400);(-932564700,-1232690400);(-883482360,-1232690400);(-858941120,-1211437100);(-834399950,-1211437100);
(-834399950,-1253943600);(-809858780,-1211437100);(-809858780,-1253943600);(-785317610,-1253943600);(-785317610,-1211437100);(-760776440,-1253943600);
(-760776440,-1211437100);(-736235280,-1211437100);(-736235280,-1253943600);(-711694110,-1211437100);(-711694110,-1253943600);(-687152940,-1253943600);
(-687152940,-1211437100);(-662611770,-1253943600);(-662611770,-1211437100);(-638070560,-1211437100);(-638070560,-1253943600);(-613529400,-1211437100);
(-613529400,-1253943600);(-588988230,-1253943600);(-588988230,-1211437100);(-564447060,-1253943600);(-564447060,-1211437100);(-539905850,-1211437100);
(-539905850,-1253943600);(-515364690,-1211437100);(-515364690,-1253943600);(-490823520,-1253943600);(-490823520,-1211437100);(-466282350,-1253943600);
(-466282350,-1211437100);(-441741180,-1211437100);(-441741180,-1253943600);(-417199970,-1211437100);(-417199970,-1253943600);(-392658810,-1253943600);
(-392658810,-1211437100);(-368117640,-1253943600);(-368117640,-1211437100);(-343576470,-1211437100);(-343576470,-1253943600);(-319035280,-1211437100);
(-319035280,-1253943600);(-294494110,-1253943600);(-294494110,-1211437100);(-269952930,-1253943600);(-269952930,-1211437100);(-245411760,-1211437100);
(-245411760,-1253943600);(-220870590,-1211437100);(-220870590,-1253943600);(-196329400,-1253943600);(-196329400,-1211437100);(-171788230,-1253943600);
(-171788230,-1211437100);(-147247060,-1211437100);(-147247060,-1253943600);(-122705880,-1211437100);(-122705880,-1253943600);(-98164701,-1253943600);
(-98164701,-1211437100);(-73623528,-1253943600);(-73623528,-1211437100);(-49082351,-1211437100);(-49082351,-1253943600);(-24541175,-1211437100);
(-24541175,-1253943600);(0,-1253943600);(0,-1211437100);(24541175,-1253943600);(24541175,-1211437100);(49082351,-1211437100);
(49082351,-1253943600);(73623528,-1211437100);(73623528,-1253943600);(98164701,-1253943600);(98164701,-1211437100);(122705880,-1253943600);
(122705880,-1211437100);(147247060,-1211437100);(147247060,-1253943600);(171788230,-1211437100);(171788230,-1253943600);(196329400,-1253943600);
(196329400,-1211437100);(220870590,-1253943600);(220870590,-1211437100);(245411760,-1211437100);(245411760,-1253943600);(269952930,-1211437100);
(269952930,-1253943600);(294494110,-1253943600);(294494110,-1211437100);(319035280,-1253943600);(319035280,-1211437100);(343576470,-1211437100);
(343576470,-1253943600);(368117640,-1211437100);(368117640,-1253943600);(392658810,-1253943600);(392658810,-1211437100);(417199970,-1253943600);
(417199970,-1211437100);(441741180,-1211437100);(441741180,-1253943600);(466282350,-1211437100);(466282350,-1253943600);(490823520,-1253943600);
(490823520,-1211437100);(515364690,-1253943600);(515364690,-1211437100);(539905850,-1211437100);(539905850,-1253943600);(564447060,-1211437100);
(564447060,-1253943600);(588988230,-1253943600);(588988230,-1211437100);(613529400,-1253943600);(613529400,-1211437100);(638070560,-1211437100);
(638070560,-1253943600);(662611770,-1211437100);(662611770,-1253943600);(687152940,-1253943600);(687152940,-1211437100);(711694110,-1253943600);
(711694110,-1211437100);(736235280,-1211437100);(736235280,-1253943600);(760776440,-1211437100);(760776440,-1253943600);(785317610,-1253943600);
(785317610,-1211437100);(809858780,-1253943600);(809858780,-1211437100);(834399950,-1211437100);(834399950,-1253943600);(858941120,-1211437100);
(883482360,-1232690400);(932564700,-1232690400);(981647030,-1232690400);(1030729400,-1232690400);(1079811700,-1232690400);(1128894100,-1232690400);
(1177976500,-1232690400);(1227058800,-1232690400);(1276141100,-1232690400);(1325223500,-1232690400);(1374305900,-1232690400);(1423388200,-1232690400);
(1472470600,-1232690400);(1521552900,-1232690400);(1570635200,-1232690400);(1619717600,-1232690400);(1668799900,-1232690400);(1717882200,-1232690400);
(1766964700,-1232690400);(1816047100,-1232690400);(1865129400,-1232690400);(1914211700,-1232690400);(1963294100,-1232690400);(2012376400,-1232690400);
(2061458700,-1232690400);(2110541100,-1232690400);(2159623400,-1232690400);(2208705700,-1232690400);(2257788200,-1232690400);(2306870600,-1232690400);
(2355952900,-1232690400);(2405035200,-1232690400);(-2355952900,-1317703400);(-2306870600,-1317703400);(-2257788200,-1317703400);(-2208705700,-1317703400);
(-2159623400,-1317703400);(-2110541100,-1317703400);(-2061458700,-1317703400);(-2012376400,-1317703400);(-1963294100,-1317703400);(-1914211700,-1317703400);
(-1865129400,-1317703400);(-1816047100,-1317703400);(-1766964700,-1317703400);(-1717882200,-1317703400);(-1668799900,-1317703400);(-1619717600,-1317703400);
(-1570635200,-1317703400);(-1521552900,-1317703400);(-1472470600,-1317703400);(-1423388200,-1317703400);(-1374305900,-1317703400);(-1325223500,-1317703400);
(-1276141100,-1317703400);(-1227058800,-1317703400);(-1177976500,-1317703400);(-1128894100,-1317703400);(-1079811700,-1317703400);(-1030729400,-1317703400);
(-981647030,-1317703400);(-932564700,-1317703400);(-883482360,-1317703400);(-834399950,-1317703400);(-809858780,-1296450200);(-785317610,-1296450200);
(-785317610,-1338956800);(-760776440,-1296450200);(-760776440,-1338956800);(-736235280,-1338956800);(-736235280,-1296450200);(-711694110,-1338956800);
(-711694110,-1296450200);(-687152940,-1296450200);(-687152940,-1338956800);(-662611770,-1296450200);(-662611770,-1338956800);(-638070560,-1338956800);
(-638070560,-1296450200);(-613529400,-1338956800);(-613529400,-1296450200);(-588988230,-1296450200);(-588988230,-1338956800);(-564447060,-1296450200);
(-564447060,-1338956800);(-539905850,-1338956800);(-539905850,-1296450200);(-515364690,-1338956800);(-515364690,-1296450200);(-490823520,-1296450200);
(-490823520,-1338956800);(-466282350,-1296450200);(-466282350,-1338956800);(-441741180,-1338956800);(-441741180,-1296450200);(-417199970,-1338956800);
(-417199970,-1296450200);(-392658810,-1296450200);(-392658810,-1338956800);(-368117640,-1296450200);(-368117640,-1338956800);(-343576470,-1338956800);
(-343576470,-1296450200);(-319035280,-1338956800);(-319035280,-1296450200);(-294494110,-1296450200);(-294494110,-1338956800);(-269952930,-1296450200);
(-269952930,-1338956800);(-245411760,-1338956800);(-245411760,-1296450200);(-220870590,-1338956800);(-220870590,-1296450200);(-196329400,-1296450200);
(-196329400,-1338956800);(-171788230,-1296450200);(-171788230,-1338956800);(-147247060,-1338956800);(-147247060,-1296450200);(-122705880,-1338956800);
(-122705880,-1296450200);(-98164701,-1296450200);(-98164701,-1338956800);(-73623528,-1296450200);(-73623528,-1338956800);(-49082351,-1338956800);
(-49082351,-1296450200);(-24541175,-1338956800);(-24541175,-1296450200);(0,-1296450200);(0,-1338956800);(24541175,-1296450200);
(24541175,-1338956800);(49082351,-1338956800);(49082351,-1296450200);(73623528,-1338956800);(73623528,-1296450200);(98164701,-1296450200);
(98164701,-1338956800);(122705880,-1296450200);(122705880,-1338956800);(147247060,-1338956800);(147247060,-1296450200);(171788230,-1338956800);
(171788230,-1296450200);(196329400,-1296450200);(196329400,-1338956800);(220870590,-1296450200);(220870590,-1338956800);(245411760,-1338956800);
(245411760,-1296450200);(269952930,-1338956800);(269952930,-1296450200);(294494110,-1296450200);(294494110,-1338956800);(319035280,-1296450200);
(319035280,-1338956800);(343576470,-1338956800);(343576470,-1296450200);(368117640,-1338956800);(368117640,-1296450200);(392658810,-1296450200);
(392658810,-1338956800);(417199970,-1296450200);(417199970,-1338956800);(441741180,-1338956800);(441741180,-1296450200);(466282350,-1338956800);
(466282350,-1296450200);(490823520,-1296450200);(490823520,-1338956800);(515364690,-1296450200);(515364690,-1338956800);(539905850,-1338956800);
(539905850,-1296450200);(564447060,-1338956800);(564447060,-1296450200);(588988230,-1296450200);(588988230,-1338956800);(613529400,-1296450200);
(613529400,-1338956800);(638070560,-1338956800);(638070560,-1296450200);(662611770,-1338956800);(662611770,-1296450200);(687152940,-1296450200);
(687152940,-1338956800);(711694110,-1296450200);(711694110,-1338956800);(736235280,-1338956800);(736235280,-1296450200);(760776440,-1338956800);
(760776440,-1296450200);(785317610,-1296450200);(785317610,-1338956800);(809858780,-1296450200);(834399950,-1317703400);(883482360,-1317703400);
(932564700,-1317703400);(981647030,-1317703400);(1030729400,-1317703400);(1079811700,-1317703400);(1128894100,-1317703400);(1177976500,-1317703400);
(1227058800,-1317703400);(1276141100,-1317703400);(1325223500,-1317703400);(1374305900,-1317703400);(1423388200,-1317703400);(1472470600,-1317703400);
(1521552900,-1317703400);(1570635200,-1317703400);(1619717600,-1317703400);(1668799900,-1317703400);(1717882200,-1317703400);(1766964700,-1317703400);
(1816047100,-1317703400);(1865129400,-1317703400);(1914211700,-1317703400);(1963294100,-1317703400);(2012376400,-1317703400);(2061458700,-1317703400);
(2110541100,-1317703400);(2159623400,-1317703400);(2208705700,-1317703400);(2257788200,-1317703400);(2306870600,-1317703400);(2355952900,-1317703400);
(-2306870600,-1402716500);(-2257788200,-1402716500);(-2208705700,-1402716500);(-2159623400,-1402716500);(-2110541100,-1402716500);(-2061458700,-1402716500);
(-2012376400,-1402716500);(-1963294100,-1402716500);(-1914211700,-1402716500);(-1865129400,-1402716500);(-1816047100,-1402716500);(-1766964700,-1402716500);
(-1717882200,-1402716500);(-1668799900,-1402716500);(-1619717600,-1402716500);(-1570635200,-1402716500);(-1521552900,-1402716500);(-1472470600,-1402716500);
(-1423388200,-1402716500);(-1374305900,-1402716500);(-1325223500,-1402716500);(-1276141100,-1402716500);(-1227058800,-1402716500);(-1177976500,-1402716500);
(-1128894100,-1402716500);(-1079811700,-1402716500);(-1030729400,-1402716500);(-981647030,-1402716500);(-932564700,-1402716500);(-883482360,-1402716500);
(-834399950,-1402716500);(-785317610,-1402716500);(-736235280,-1402716500);(-687152940,-1402716500);(-638070560,-1402716500);(-588988230,-1402716500);
(-539905850,-1402716500);(-490823520,-1402716500);(-441741180,-1402716500);(-392658810,-1402716500);(-343576470,-1402716500);(-294494110,-1402716500);
(-245411760,-1402716500);(-196329400,-1402716500);(-147247060,-1402716500);(-98164701,-1402716500);(-49082351,-1402716500);(0,-1402716500);
(49082351,-1402716500);(98164701,-1402716500);(147247060,-1402716500);(196329400,-1402716500);(245411760,-1402716500);(294494110,-1402716500);
(343576470,-1402716500);(392658810,-1402716500);(441741180,-1402716500);(490823520,-1402716500);(539905850,-1402716500);(588988230,-1402716500);
(638070560,-1402716500);(687152940,-1402716500);(736235280,-1402716500);(785317610,-1402716500);(834399950,-1402716500);(883482360,-1402716500);
(932564700,-1402716500);(981647030,-1402716500);(1030729400,-1402716500);(1079811700,-1402716500);(1128894100,-1402716500);(1177976500,-1402716500);
(1227058800,-1402716500);(1276141100,-1402716500);(1325223500,-1402716500);(1374305900,-1402716500);(1423388200,-1402716500);(1472470600,-1402716500);
(1521552900,-1402716500);(1570635200,-1402716500);(1619717600,-1402716500);(1668799900,-1402716500);(1717882200,-1402716500);(1766964700,-1402716500);
(1816047100,-1402716500);(1865129400,-1402716500);(1914211700,-1402716500);(1963294100,-1402716500);(2012376400,-1402716500);(2061458700,-1402716500);
(2110541100,-1402716500);(2159623400,-1402716500);(2208705700,-1402716500);(2257788200,-1402716500);(2306870600,-1402716500);(-2257788200,-1487729600);
(-2208705700,-1487729600);(-2159623400,-1487729600);(-2110541100,-1487729600);(-2061458700,-1487729600);(-2012376400,-1487729600);(-1963294100,-1487729600);
(-1914211700,-1487729600);(-1865129400,-1487729600);(-1816047100,-1487729600);(-1766964700,-1487729600);(-1717882200,-1487729600);(-1668799900,-1487729600);
(-1619717600,-1487729600);(-1570635200,-1487729600);(-1521552900,-1487729600);(-1472470600,-1487729600);(-1423388200,-1487729600);(-1374305900,-1487729600);
(-1325223500,-1487729600);(-1276141100,-1487729600);(-1227058800,-1487729600);(-1177976500,-1487729600);(-1128894100,-1487729600);(-1079811700,-1487729600);
(-1030729400,-1487729600);(-981647030,-1487729600);(-932564700,-1487729600);(-883482360,-1487729600);(-834399950,-1487729600);(-785317610,-1487729600);
(-736235280,-1487729600);(-687152940,-1487729600);(-638070560,-1487729600);(-588988230,-1487729600);(-539905850,-1487729600);(-490823520,-1487729600);
(-441741180,-1487729600);(-392658810,-1487729600);(-343576470,-1487729600);(-294494110,-1487729600);(-245411760,-1487729600);(-196329400,-1487729600);
(-147247060,-1487729600);(-98164701,-1487729600);(-49082351,-1487729600);(0,-1487729600);(49082351,-1487729600);(98164701,-1487729600);
(147247060,-1487729600);(196329400,-1487729600);(245411760,-1487729600);(294494110,-1487729600);(343576470,-1487729600);(392658810,-1487729600);
(441741180,-1487729600);(490823520,-1487729600);(539905850,-1487729600);(588988230,-1487729600);(638070560,-1487729600);(687152940,-1487729600);
(736235280,-1487729600);(785317610,-1487729600);(834399950,-1487729600);(883482360,-1487729600);(932564700,-1487729600);(981647030,-1487729600);
(1030729400,-1487729600);(1079811700,-1487729600);(1128894100,-1487729600);(1177976500,-1487729600);(1227058800,-1487729600);(1276141100,-1487729600);
(1325223500,-1487729600);(1374305900,-1487729600);(1423388200,-1487729600);(1472470600,-1487729600);(1521552900,-1487729600);(1570635200,-1487729600);
(1619717600,-1487729600);(1668799900,-1487729600);(1717882200,-1487729600);(1766964700,-1487729600);(1816047100,-1487729600);(1865129400,-1487729600);
(1914211700,-1487729600);(1963294100,-1487729600);(2012376400,-1487729600);(2061458700,-1487729600);(2110541100,-1487729600);(2159623400,-1487729600);
(2208705700,-1487729600);(2257788200,-1487729600);(-2208705700,-1572742800);(-2159623400,-1572742800);(-2110541100,-1572742800);(-2061458700,-1572742800);
(-2012376400,-1572742800);(-1963294100,-1572742800);(-1914211700,-1572742800);(-1865129400,-1572742800);(-1816047100,-1572742800);(-1766964700,-1572742800);
(-1717882200,-1572742800);(-1668799900,-1572742800);(-1619717600,-1572742800);(-1570635200,-1572742800);(-1521552900,-1572742800);(-1472470600,-1572742800);
(-1423388200,-1572742800);(-1374305900,-1572742800);(-1325223500,-1572742800);(-1276141100,-1572742800);(-1227058800,-1572742800);(-1177976500,-1572742800);
(-1128894100,-1572742800);(-1079811700,-1572742800);(-1030729400,-1572742800);(-981647030,-1572742800);(-932564700,-1572742800);(-883482360,-1572742800);
(-834399950,-1572742800);(-785317610,-1572742800);(-736235280,-1572742800);(-687152940,-1572742800);(-638070560,-1572742800);(-588988230,-1572742800);
(-539905850,-1572742800);(-490823520,-1572742800);(-441741180,-1572742800);(-392658810,-1572742800);(-343576470,-1572742800);(-294494110,-1572742800);
(-245411760,-1572742800);(-196329400,-1572742800);(-147247060,-1572742800);(-98164701,-1572742800);(-49082351,-1572742800);(0,-1572742800);
(49082351,-1572742800);(98164701,-1572742800);(147247060,-1572742800);(196329400,-1572742800);(245411760,-1572742800);(294494110,-1572742800);
(343576470,-1572742800);(392658810,-1572742800);(441741180,-1572742800);(490823520,-1572742800);(539905850,-1572742800);(588988230,-1572742800);
(638070560,-1572742800);(687152940,-1572742800);(736235280,-1572742800);(785317610,-1572742800);(834399950,-1572742800);(883482360,-1572742800);
(932564700,-1572742800);(981647030,-1572742800);(1030729400,-1572742800);(1079811700,-1572742800);(1128894100,-1572742800);(1177976500,-1572742800);
(1227058800,-1572742800);(1276141100,-1572742800);(1325223500,-1572742800);(1374305900,-1572742800);(1423388200,-1572742800);(1472470600,-1572742800);
(1521552900,-1572742800);(1570635200,-1572742800);(1619717600,-1572742800);(1668799900,-1572742800);(1717882200,-1572742800);(1766964700,-1572742800);
(1816047100,-1572742800);(1865129400,-1572742800);(1914211700,-1572742800);(1963294100,-1572742800);(2012376400,-1572742800);(2061458700,-1572742800);
(2110541100,-1572742800);(2159623400,-1572742800);(2208705700,-1572742800);(-2159623400,-1657756000);(-2110541100,-1657756000);(-2061458700,-1657756000);
(-2012376400,-1657756000);(-1963294100,-1657756000);(-1914211700,-1657756000);(-1865129400,-1657756000);(-1816047100,-1657756000);(-1766964700,-1657756000);
(-1717882200,-1657756000);(-1668799900,-1657756000);(-1619717600,-1657756000);(-1570635200,-1657756000);(-1521552900,-1657756000);(-1472470600,-1657756000);
(-1423388200,-1657756000);(-1374305900,-1657756000);(-1325223500,-1657756000);(-1276141100,-1657756000);(-1227058800,-1657756000);(-1177976500,-1657756000);
(-1128894100,-1657756000);(-1079811700,-1657756000);(-1030729400,-1657756000);(-981647030,-1657756000);(-932564700,-1657756000);(-883482360,-1657756000);
(-834399950,-1657756000);(-785317610,-1657756000);(-736235280,-1657756000);(-687152940,-1657756000);(-638070560,-1657756000);(-588988230,-1657756000);
(-539905850,-1657756000);(-490823520,-1657756000);(-441741180,-1657756000);(-392658810,-1657756000);(-343576470,-1657756000);(-294494110,-1657756000);
(-245411760,-1657756000);(-196329400,-1657756000);(-147247060,-1657756000);(-98164701,-1657756000);(-49082351,-1657756000);(0,-1657756000);
(49082351,-1657756000);(98164701,-1657756000);(147247060,-1657756000);(196329400,-1657756000);(245411760,-1657756000);(294494110,-1657756000);
(343576470,-1657756000);(392658810,-1657756000);(441741180,-1657756000);(490823520,-1657756000);(539905850,-1657756000);(588988230,-1657756000);
(638070560,-1657756000);(687152940,-1657756000);(736235280,-1657756000);(785317610,-1657756000);(834399950,-1657756000);(883482360,-1657756000);
(932564700,-1657756000);(981647030,-1657756000);(1030729400,-1657756000);(1079811700,-1657756000);(1128894100,-1657756000);(1177976500,-1657756000);
(1227058800,-1657756000);(1276141100,-1657756000);(1325223500,-1657756000);(1374305900,-1657756000);(1423388200,-1657756000);(1472470600,-1657756000);
(1521552900,-1657756000);(1570635200,-1657756000);(1619717600,-1657756000);(1668799900,-1657756000);(1717882200,-1657756000);(1766964700,-1657756000);
(1816047100,-1657756000);(1865129400,-1657756000);(1914211700,-1657756000);(1963294100,-1657756000);(2012376400,-1657756000);(2061458700,-1657756000);
(2110541100,-1657756000);(2159623400,-1657756000);(-2061458700,-1742769200);(-2012376400,-1742769200);(-1963294100,-1742769200);(-1914211700,-1742769200);
(-1865129400,-1742769200);(-1816047100,-1742769200);(-1766964700,-1742769200);(-1717882200,-1742769200);(-1668799900,-1742769200);(-1619717600,-1742769200);
(-1570635200,-1742769200);(-1521552900,-1742769200);(-1472470600,-1742769200);(-1423388200,-1742769200);(-1374305900,-1742769200);(-1325223500,-1742769200);
(-1276141100,-1742769200);(-1227058800,-1742769200);(-1177976500,-1742769200);(-1128894100,-1742769200);(-1079811700,-1742769200);(-1030729400,-1742769200);
(-981647030,-1742769200);(-932564700,-1742769200);(-883482360,-1742769200);(-834399950,-1742769200);(-785317610,-1742769200);(-736235280,-1742769200);
(-687152940,-1742769200);(-638070560,-1742769200);(-588988230,-1742769200);(-539905850,-1742769200);(-490823520,-1742769200);(-441741180,-1742769200);
(-392658810,-1742769200);(-343576470,-1742769200);(-294494110,-1742769200);(-245411760,-1742769200);(-196329400,-1742769200);(-147247060,-1742769200);
(-98164701,-1742769200);(-49082351,-1742769200);(0,-1742769200);(49082351,-1742769200);(98164701,-1742769200);(147247060,-1742769200);
(196329400,-1742769200);(245411760,-1742769200);(294494110,-1742769200);(343576470,-1742769200);(392658810,-1742769200);(441741180,-1742769200);
(490823520,-1742769200);(539905850,-1742769200);(588988230,-1742769200);(638070560,-1742769200);(687152940,-1742769200);(736235280,-1742769200);
(785317610,-1742769200);(834399950,-1742769200);(883482360,-1742769200);(932564700,-1742769200);(981647030,-1742769200);(1030729400,-1742769200);
(1079811700,-1742769200);(1128894100,-1742769200);(1177976500,-1742769200);(1227058800,-1742769200);(1276141100,-1742769200);(1325223500,-1742769200);
(1374305900,-1742769200);(1423388200,-1742769200);(1472470600,-1742769200);(1521552900,-1742769200);(1570635200,-1742769200);(1619717600,-1742769200);
(1668799900,-1742769200);(1717882200,-1742769200);(1766964700,-1742769200);(1816047100,-1742769200);(1865129400,-1742769200);(1914211700,-1742769200);
(1963294100,-1742769200);(2012376400,-1742769200);(2061458700,-1742769200);(-2012376400,-1827782300);(-1963294100,-1827782300);(-1914211700,-1827782300);
(-1865129400,-1827782300);(-1816047100,-1827782300);(-1766964700,-1827782300);(-1717882200,-1827782300);(-1668799900,-1827782300);(-1619717600,-1827782300);
(-1570635200,-1827782300);(-1521552900,-1827782300);(-1472470600,-1827782300);(-1423388200,-1827782300);(-1374305900,-1827782300);(-1325223500,-1827782300);
(-1276141100,-1827782300);(-1227058800,-1827782300);(-1177976500,-1827782300);(-1128894100,-1827782300);(-1079811700,-1827782300);(-1030729400,-1827782300);
(-981647030,-1827782300);(-932564700,-1827782300);(-883482360,-1827782300);(-834399950,-1827782300);(-785317610,-1827782300);(-736235280,-1827782300);
(-687152940,-1827782300);(-638070560,-1827782300);(-588988230,-1827782300);(-539905850,-1827782300);(-490823520,-1827782300);(-441741180,-1827782300);
(-392658810,-1827782300);(-343576470,-1827782300);(-294494110,-1827782300);(-245411760,-1827782300);(-196329400,-1827782300);(-147247060,-1827782300);
(-98164701,-1827782300);(-49082351,-1827782300);(0,-1827782300);(49082351,-1827782300);(98164701,-1827782300);(147247060,-1827782300);
(196329400,-1827782300);(245411760,-1827782300);(294494110,-1827782300);(343576470,-1827782300);(392658810,-1827782300);(441741180,-1827782300);
(490823520,-1827782300);(539905850,-1827782300);(588988230,-1827782300);(638070560,-1827782300);(687152940,-1827782300);(736235280,-1827782300);
(785317610,-1827782300);(834399950,-1827782300);(883482360,-1827782300);(932564700,-1827782300);(981647030,-1827782300);(1030729400,-1827782300);
(1079811700,-1827782300);(1128894100,-1827782300);(1177976500,-1827782300);(1227058800,-1827782300);(1276141100,-1827782300);(1325223500,-1827782300);
(1374305900,-1827782300);(1423388200,-1827782300);(1472470600,-1827782300);(1521552900,-1827782300);(1570635200,-1827782300);(1619717600,-1827782300);
(1668799900,-1827782300);(1717882200,-1827782300);(1766964700,-1827782300);(1816047100,-1827782300);(1865129400,-1827782300);(1914211700,-1827782300);
(1963294100,-1827782300);(2012376400,-1827782300);(-1914211700,-1912795400);(-1865129400,-1912795400);(-1816047100,-1912795400);(-1766964700,-1912795400);
(-1717882200,-1912795400);(-1668799900,-1912795400);(-1619717600,-1912795400);(-1570635200,-1912795400);(-1521552900,-1912795400);(-1472470600,-1912795400);
(-1423388200,-1912795400);(-1374305900,-1912795400);(-1325223500,-1912795400);(-1276141100,-1912795400);(-1227058800,-1912795400);(-1177976500,-1912795400);
(-1128894100,-1912795400);(-1079811700,-1912795400);(-1030729400,-1912795400);(-981647030,-1912795400);(-932564700,-1912795400);(-883482360,-1912795400);
(-834399950,-1912795400);(-785317610,-1912795400);(-736235280,-1912795400);(-687152940,-1912795400);(-638070560,-1912795400);(-588988230,-1912795400);
(-539905850,-1912795400);(-490823520,-1912795400);(-441741180,-1912795400);(-392658810,-1912795400);(-343576470,-1912795400);(-294494110,-1912795400);
(-245411760,-1912795400);(-196329400,-1912795400);(-147247060,-1912795400);(-98164701,-1912795400);(-49082351,-1912795400);(0,-1912795400);
(49082351,-1912795400);(98164701,-1912795400);(147247060,-1912795400);(196329400,-1912795400);(245411760,-1912795400);(294494110,-1912795400);
(343576470,-1912795400);(392658810,-1912795400);(441741180,-1912795400);(490823520,-1912795400);(539905850,-1912795400);(588988230,-1912795400);
(638070560,-1912795400);(687152940,-1912795400);(736235280,-1912795400);(785317610,-1912795400);(834399950,-1912795400);(883482360,-1912795400);
(932564700,-1912795400);(981647030,-1912795400);(1030729400,-1912795400);(1079811700,-1912795400);(1128894100,-1912795400);(1177976500,-1912795400);
(1227058800,-1912795400);(1276141100,-1912795400);(1325223500,-1912795400);(1374305900,-1912795400);(1423388200,-1912795400);(1472470600,-1912795400);
(1521552900,-1912795400);(1570635200,-1912795400);(1619717600,-1912795400);(1668799900,-1912795400);(1717882200,-1912795400);(1766964700,-1912795400);
(1816047100,-1912795400);(1865129400,-1912795400);(1914211700,-1912795400);(-1865129400,-1997808500);(-1816047100,-1997808500);(-1766964700,-1997808500);
(-1717882200,-1997808500);(-1668799900,-1997808500);(-1619717600,-1997808500);(-1570635200,-1997808500);(-1521552900,-1997808500);(-1472470600,-1997808500);
(-1423388200,-1997808500);(-1374305900,-1997808500);(-1325223500,-1997808500);(-1276141100,-1997808500);(-1227058800,-1997808500);(-1177976500,-1997808500);
(-1128894100,-1997808500);(-1079811700,-1997808500);(-1030729400,-1997808500);(-981647030,-1997808500);(-932564700,-1997808500);(-883482360,-1997808500);
(-834399950,-1997808500);(-785317610,-1997808500);(-736235280,-1997808500);(-687152940,-1997808500);(-638070560,-1997808500);(-588988230,-1997808500);
(-539905850,-1997808500);(-490823520,-1997808500);(-441741180,-1997808500);(-392658810,-1997808500);(-343576470,-1997808500);(-294494110,-1997808500);
(-245411760,-1997808500);(-196329400,-1997808500);(-147247060,-1997808500);(-98164701,-1997808500);(-49082351,-1997808500);(0,-1997808500);
(49082351,-1997808500);(98164701,-1997808500);(147247060,-1997808500);(196329400,-1997808500);(245411760,-1997808500);(294494110,-1997808500);
(343576470,-1997808500);(392658810,-1997808500);(441741180,-1997808500);(490823520,-1997808500);(539905850,-1997808500);(588988230,-1997808500);
(638070560,-1997808500);(687152940,-1997808500);(736235280,-1997808500);(785317610,-1997808500);(834399950,-1997808500);(883482360,-1997808500);
(932564700,-1997808500);(981647030,-1997808500);(1030729400,-1997808500);(1079811700,-1997808500);(1128894100,-1997808500);(1177976500,-1997808500);
(1227058800,-1997808500);(1276141100,-1997808500);(1325223500,-1997808500);(1374305900,-1997808500);(1423388200,-1997808500);(1472470600,-1997808500);
(1521552900,-1997808500);(1570635200,-1997808500);(1619717600,-1997808500);(1668799900,-1997808500);(1717882200,-1997808500);(1766964700,-1997808500);
(1816047100,-1997808500);(1865129400,-1997808500);(-1766964700,-2082821700);(-1717882200,-2082821700);(-1668799900,-2082821700);(-1619717600,-2082821700);
(-1570635200,-2082821700);(-1521552900,-2082821700);(-1472470600,-2082821700);(-1423388200,-2082821700);(-1374305900,-2082821700);(-1325223500,-2082821700);
(-1276141100,-2082821700);(-1227058800,-2082821700);(-1177976500,-2082821700);(-1128894100,-2082821700);(-1079811700,-2082821700);(-1030729400,-2082821700);
(-981647030,-2082821700);(-932564700,-2082821700);(-883482360,-2082821700);(-834399950,-2082821700);(-785317610,-2082821700);(-736235280,-2082821700);
(-687152940,-2082821700);(-638070560,-2082821700);(-588988230,-2082821700);(-539905850,-2082821700);(-490823520,-2082821700);(-441741180,-2082821700);
(-392658810,-2082821700);(-343576470,-2082821700);(-294494110,-2082821700);(-245411760,-2082821700);(-196329400,-2082821700);(-147247060,-2082821700);
(-98164701,-2082821700);(-49082351,-2082821700);(0,-2082821700);(49082351,-2082821700);(98164701,-2082821700);(147247060,-2082821700);
(196329400,-2082821700);(245411760,-2082821700);(294494110,-2082821700);(343576470,-2082821700);(392658810,-2082821700);(441741180,-2082821700);
(490823520,-2082821700);(539905850,-2082821700);(588988230,-2082821700);(638070560,-2082821700);(687152940,-2082821700);(736235280,-2082821700);
(785317610,-2082821700);(834399950,-2082821700);(883482360,-2082821700);(932564700,-2082821700);(981647030,-2082821700);(1030729400,-2082821700);
(1079811700,-2082821700);(1128894100,-2082821700);(1177976500,-2082821700);(1227058800,-2082821700);(1276141100,-2082821700);(1325223500,-2082821700);
(1374305900,-2082821700);(1423388200,-2082821700);(1472470600,-2082821700);(1521552900,-2082821700);(1570635200,-2082821700);(1619717600,-2082821700);
(1668799900,-2082821700);(1717882200,-2082821700);(1766964700,-2082821700);(-1619717600,-2167834800);(-1570635200,-2167834800);(-1521552900,-2167834800);
(-1472470600,-2167834800);(-1423388200,-2167834800);(-1374305900,-2167834800);(-1325223500,-2167834800);(-1276141100,-2167834800);(-1227058800,-2167834800);
(-1177976500,-2167834800);(-1128894100,-2167834800);(-1079811700,-2167834800);(-1030729400,-2167834800);(-981647030,-2167834800);(-932564700,-2167834800);
(-883482360,-2167834800);(-834399950,-2167834800);(-785317610,-2167834800);(-736235280,-2167834800);(-687152940,-2167834800);(-638070560,-2167834800);
(-588988230,-2167834800);(-539905850,-2167834800);(-490823520,-2167834800);(-441741180,-2167834800);(-392658810,-2167834800);(-343576470,-2167834800);
(-294494110,-2167834800);(-245411760,-2167834800);(-196329400,-2167834800);(-147247060,-2167834800);(-98164701,-2167834800);(-49082351,-2167834800);
(0,-2167834800);(49082351,-2167834800);(98164701,-2167834800);(147247060,-2167834800);(196329400,-2167834800);(245411760,-2167834800);
(294494110,-2167834800);(343576470,-2167834800);(392658810,-2167834800);(441741180,-2167834800);(490823520,-2167834800);(539905850,-2167834800);
(588988230,-2167834800);(638070560,-2167834800);(687152940,-2167834800);(736235280,-2167834800);(785317610,-2167834800);(834399950,-2167834800);
(883482360,-2167834800);(932564700,-2167834800);(981647030,-2167834800);(1030729400,-2167834800);(1079811700,-2167834800);(1128894100,-2167834800);
(1177976500,-2167834800);(1227058800,-2167834800);(1276141100,-2167834800);(1325223500,-2167834800);(1374305900,-2167834800);(1423388200,-2167834800);
(1472470600,-2167834800);(1521552900,-2167834800);(1570635200,-2167834800);(1619717600,-2167834800);(-1521552900,-2252847900);(-1472470600,-2252847900);
(-1423388200,-2252847900);(-1374305900,-2252847900);(-1325223500,-2252847900);(-1276141100,-2252847900);(-1227058800,-2252847900);(-1177976500,-2252847900);
(-1128894100,-2252847900);(-1079811700,-2252847900);(-1030729400,-2252847900);(-981647030,-2252847900);(-932564700,-2252847900);(-883482360,-2252847900);
(-834399950,-2252847900);(-785317610,-2252847900);(-736235280,-2252847900);(-687152940,-2252847900);(-638070560,-2252847900);(-588988230,-2252847900);
(-539905850,-2252847900);(-490823520,-2252847900);(-441741180,-2252847900);(-392658810,-2252847900);(-343576470,-2252847900);(-294494110,-2252847900);
(-245411760,-2252847900);(-196329400,-2252847900);(-147247060,-2252847900);(-98164701,-2252847900);(-49082351,-2252847900);(0,-2252847900);
(49082351,-2252847900);(98164701,-2252847900);(147247060,-2252847900);(196329400,-2252847900);(245411760,-2252847900);(294494110,-2252847900);
(343576470,-2252847900);(392658810,-2252847900);(441741180,-2252847900);(490823520,-2252847900);(539905850,-2252847900);(588988230,-2252847900);
(638070560,-2252847900);(687152940,-2252847900);(736235280,-2252847900);(785317610,-2252847900);(834399950,-2252847900);(883482360,-2252847900);
(932564700,-2252847900);(981647030,-2252847900);(1030729400,-2252847900);(1079811700,-2252847900);(1128894100,-2252847900);(1177976500,-2252847900);
(1227058800,-2252847900);(1276141100,-2252847900);(1325223500,-2252847900);(1374305900,-2252847900);(1423388200,-2252847900);(1472470600,-2252847900);
(1521552900,-2252847900);(-1423388200,-2337861000);(-1374305900,-2337861000);(-1325223500,-2337861000);(-1276141100,-2337861000);(-1227058800,-2337861000);
(-1177976500,-2337861000);(-1128894100,-2337861000);(-1079811700,-2337861000);(-1030729400,-2337861000);(-981647030,-2337861000);(-932564700,-2337861000);
(-883482360,-2337861000);(-834399950,-2337861000);(-785317610,-2337861000);(-736235280,-2337861000);(-687152940,-2337861000);(-638070560,-2337861000);
(-588988230,-2337861000);(-539905850,-2337861000);(-490823520,-2337861000);(-441741180,-2337861000);(-392658810,-2337861000);(-343576470,-2337861000);
(-294494110,-2337861000);(-245411760,-2337861000);(-196329400,-2337861000);(-147247060,-2337861000);(-98164701,-2337861000);(-49082351,-2337861000);
(0,-2337861000);(49082351,-2337861000);(98164701,-2337861000);(147247060,-2337861000);(196329400,-2337861000);(245411760,-2337861000);
(294494110,-2337861000);(343576470,-2337861000);(392658810,-2337861000);(441741180,-2337861000);(490823520,-2337861000);(539905850,-2337861000);
(588988230,-2337861000);(638070560,-2337861000);(687152940,-2337861000);(736235280,-2337861000);(785317610,-2337861000);(834399950,-2337861000);
(883482360,-2337861000);(932564700,-2337861000);(981647030,-2337861000);(1030729400,-2337861000);(1079811700,-2337861000);(1128894100,-2337861000);
(1177976500,-2337861000);(1227058800,-2337861000);(1276141100,-2337861000);(1325223500,-2337861000);(1374305900,-2337861000);(1423388200,-2337861000);
(-1276141100,-2422874100);(-1227058800,-2422874100);(-1177976500,-2422874100);(-1128894100,-2422874100);(-1079811700,-2422874100);(-1030729400,-2422874100);
(-981647030,-2422874100);(-932564700,-2422874100);(-883482360,-2422874100);(-834399950,-2422874100);(-785317610,-2422874100);(-736235280,-2422874100);
(-687152940,-2422874100);(-638070560,-2422874100);(-588988230,-2422874100);(-539905850,-2422874100);(-490823520,-2422874100);(-441741180,-2422874100);
(-392658810,-2422874100);(-343576470,-2422874100);(-294494110,-2422874100);(-245411760,-2422874100);(-196329400,-2422874100);(-147247060,-2422874100);
(-98164701,-2422874100);(-49082351,-2422874100);(0,-2422874100);(49082351,-2422874100);(98164701,-2422874100);(147247060,-2422874100);
(196329400,-2422874100);(245411760,-2422874100);(294494110,-2422874100);(343576470,-2422874100);(392658810,-2422874100);(441741180,-2422874100);
(490823520,-2422874100);(539905850,-2422874100);(588988230,-2422874100);(638070560,-2422874100);(687152940,-2422874100);(736235280,-2422874100);
(785317610,-2422874100);(834399950,-2422874100);(883482360,-2422874100);(932564700,-2422874100);(981647030,-2422874100);(1030729400,-2422874100);
(1079811700,-2422874100);(1128894100,-2422874100);(1177976500,-2422874100);(1227058800,-2422874100);(1276141100,-2422874100);(-1079811700,-2507887300);
(-1030729400,-2507887300);(-981647030,-2507887300);(-932564700,-2507887300);(-883482360,-2507887300);(-834399950,-2507887300);(-785317610,-2507887300);
(-736235280,-2507887300);(-687152940,-2507887300);(-638070560,-2507887300);(-588988230,-2507887300);(-539905850,-2507887300);(-490823520,-2507887300);
(-441741180,-2507887300);(-392658810,-2507887300);(-343576470,-2507887300);(-294494110,-2507887300);(-245411760,-2507887300);(-196329400,-2507887300);
(-147247060,-2507887300);(-98164701,-2507887300);(-49082351,-2507887300);(0,-2507887300);(49082351,-2507887300);(98164701,-2507887300);
(147247060,-2507887300);(196329400,-2507887300);(245411760,-2507887300);(294494110,-2507887300);(343576470,-2507887300);(392658810,-2507887300);
(441741180,-2507887300);(490823520,-2507887300);(539905850,-2507887300);(588988230,-2507887300);(638070560,-2507887300);(687152940,-2507887300);
(736235280,-2507887300);(785317610,-2507887300);(834399950,-2507887300);(883482360,-2507887300);(932564700,-2507887300);(981647030,-2507887300);
(1030729400,-2507887300);(1079811700,-2507887300);(-883482360,-2592900400);(-834399950,-2592900400);(-785317610,-2592900400);(-736235280,-2592900400);
(-687152940,-2592900400);(-638070560,-2592900400);(-588988230,-2592900400);(-539905850,-2592900400);(-490823520,-2592900400);(-441741180,-2592900400);
(-392658810,-2592900400);(-343576470,-2592900400);(-294494110,-2592900400);(-245411760,-2592900400);(-196329400,-2592900400);(-147247060,-2592900400);
(-98164701,-2592900400);(-49082351,-2592900400);(0,-2592900400);(49082351,-2592900400);(98164701,-2592900400);(147247060,-2592900400);
(196329400,-2592900400);(245411760,-2592900400);(294494110,-2592900400);(343576470,-2592900400);(392658810,-2592900400);(441741180,-2592900400);
(490823520,-2592900400);(539905850,-2592900400);(588988230,-2592900400);(638070560,-2592900400);(687152940,-2592900400);(736235280,-2592900400);
(785317610,-2592900400);(834399950,-2592900400);(883482360,-2592900400);(-588988230,-2677913500);(-539905850,-2677913500);(-490823520,-2677913500);
(-441741180,-2677913500);(-392658810,-2677913500);(-343576470,-2677913500);(-294494110,-2677913500);(-245411760,-2677913500);(-196329400,-2677913500);
(-147247060,-2677913500);(-98164701,-2677913500);(-49082351,-2677913500);(0,-2677913500);(49082351,-2677913500);(98164701,-2677913500);
(147247060,-2677913500);(196329400,-2677913500);(245411760,-2677913500);(294494110,-2677913500);(343576470,-2677913500);(392658810,-2677913500);
(441741180,-2677913500);(490823520,-2677913500);(539905850,-2677913500);(588988230,-2677913500)].
