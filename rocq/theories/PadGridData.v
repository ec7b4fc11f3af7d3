(** PadGridData.v -- generated by tools/pad_data.py from
    /repo/src/attpc_engine/detector/data/pad_grid.npz (array [grid], 5600 x 5600, int16).
    Every 10th row and column (the only cells [position_to_index] can reach with the packaged
    edges), run-length encoded: a run of [n] equal pads [p] is the number (p + 1) * 1024 + n. *)
From Coq Require Import ZArith List.
Import ListNotations.
Local Open Scope Z_scope.

Definition grid_rows : list (list Z) := [
[560];
[560];
[560];
[560];
[560];
[560];
[247;6147073;14;5852161;1;5551105;14;5243905;1;1025;14;308225;1;609281;14;904193;246];
[247;6147075;10;5852163;1;5551107;10;5243907;1;1027;10;308227;1;609283;10;904195;246];
[247;6147076;8;5852164;1;5551108;8;5243908;1;1028;8;308228;1;609284;8;904196;246];
[247;6147078;4;5852166;1;5551110;4;5243910;1;1030;4;308230;1;609286;4;904198;246];
[247;6147080;5852168;1;5551112;5243912;1;1032;308232;1;609288;904200;246];
[219;7259138;6990850;13;6716418;6435842;7;6147078;6148098;5853186;5852166;1;5551110;5552130;5244930;5243910;1;1030;2050;309250;308230;1;609286;610306;905218;904198;7;1192962;1473538;13;1747970;2016258;218];
[218;7259139;6990851;11;6716419;6435843;6;6147077;6148099;5853187;5852165;1;5551109;5552131;5244931;5243909;1;1029;2051;309251;308229;1;609285;610307;905219;904197;6;1192963;1473539;11;1747971;2016259;217];
[216;7259141;6990853;7;6716421;6435845;4;6147075;6148101;5853189;5852163;1;5551107;5552133;5244933;5243907;1;1027;2053;309253;308227;1;609283;610309;905221;904195;4;1192965;1473541;7;1747973;2016261;215];
[214;7259143;6990855;3;6716423;6435847;2;6147073;6148103;5853191;5852161;1;5551105;5552135;5244935;5243905;1;1025;2055;309255;308225;1;609281;610311;905223;904193;2;1192967;1473543;3;1747975;2016263;213];
[213;7259144;6990856;1;6716424;6435848;1;6148104;5853192;1;5552136;5244936;1;2056;309256;1;610312;905224;1;1192968;1473544;1;1747976;2016264;212];
[196;7775233;14;7521281;1;7260161;7259143;6990855;6991873;1;6717441;6716423;6435847;6436865;1;6149121;6148103;5853191;5854209;1;5553153;5552135;5244935;5245953;1;3073;2055;309255;310273;1;611329;610311;905223;906241;1;1193985;1192967;1473543;1474561;1;1748993;1747975;2016263;2017281;1;2278401;14;2532353;195];
[196;7775235;10;7521283;1;7260163;7259141;6990853;6991875;1;6717443;6716421;6435845;6436867;1;6149123;6148101;5853189;5854211;1;5553155;5552133;5244933;5245955;1;3075;2053;309253;310275;1;611331;610309;905221;906243;1;1193987;1192965;1473541;1474563;1;1748995;1747973;2016261;2017283;1;2278403;10;2532355;195];
[196;7775237;6;7521285;1;7260165;7259139;6990851;6991877;1;6717445;6716419;6435843;6436869;1;6149125;6148099;5853187;5854213;1;5553157;5552131;5244931;5245957;1;3077;2051;309251;310277;1;611333;610307;905219;906245;1;1193989;1192963;1473539;1474565;1;1748997;1747971;2016259;2017285;1;2278405;6;2532357;195];
[196;7775238;4;7521286;1;7260166;1;7259137;6990849;1;6991878;1;6717446;1;6716417;6435841;1;6436870;1;6149126;1;6148097;5853185;1;5854214;1;5553158;1;5552129;5244929;1;5245958;1;3078;1;2049;309249;1;310278;1;611334;1;610305;905217;1;906246;1;1193990;1;1192961;1473537;1;1474566;1;1748998;1;1747969;2016257;1;2017286;1;2278406;4;2532358;195];
[196;7775240;7521288;1;7260168;6991880;1;6717448;6436872;1;6149128;5854216;1;5553160;5245960;1;3080;310280;1;611336;906248;1;1193992;1474568;1;1749000;2017288;1;2278408;2532360;195];
[187;8023042;7;7775238;7776258;7522306;7521286;1;7260166;7261186;6992898;6991878;1;6717446;6718466;6437890;6436870;1;6149126;6150146;5855234;5854214;1;5553158;5554178;5246978;5245958;1;3078;4098;311298;310278;1;611334;612354;907266;906246;1;1193990;1195010;1475586;1474566;1;1748998;1750018;2018306;2017286;1;2278406;2279426;2533378;2532358;7;2780162;186];
[187;8023044;5;7775236;7776260;7522308;7521284;1;7260164;7261188;6992900;6991876;1;6717444;6718468;6437892;6436868;1;6149124;6150148;5855236;5854212;1;5553156;5554180;5246980;5245956;1;3076;4100;311300;310276;1;611332;612356;907268;906244;1;1193988;1195012;1475588;1474564;1;1748996;1750020;2018308;2017284;1;2278404;2279428;2533380;2532356;5;2780164;186];
[187;8023045;4;7775234;1;7776261;7522309;1;7521282;1;7260162;1;7261189;6992901;1;6991874;1;6717442;1;6718469;6437893;1;6436866;1;6149122;1;6150149;5855237;1;5854210;1;5553154;1;5554181;5246981;1;5245954;1;3074;1;4101;311301;1;310274;1;611330;1;612357;907269;1;906242;1;1193986;1;1195013;1475589;1;1474562;1;1748994;1;1750021;2018309;1;2017282;1;2278402;1;2279429;2533381;1;2532354;4;2780165;186];
[187;8023047;2;7775233;7776263;7522311;7521281;1;7260161;7261191;6992903;6991873;1;6717441;6718471;6437895;6436865;1;6149121;6150151;5855239;5854209;1;5553153;5554183;5246983;5245953;1;3073;4103;311303;310273;1;611329;612359;907271;906241;1;1193985;1195015;1475591;1474561;1;1748993;1750023;2018311;2017281;1;2278401;2279431;2533383;2532353;2;2780167;186];
[187;8023048;1;7776264;7522312;1;7261192;6992904;1;6718472;6437896;1;6150152;5855240;1;5554184;5246984;1;4104;311304;1;612360;907272;1;1195016;1475592;1;1750024;2018312;1;2279432;2533384;1;2780168;186];
[176;8494082;1;8262658;6;8023046;8024066;1;7777282;7776262;7522310;7523330;1;7262210;7261190;6992902;6993922;1;6719490;6718470;6437894;6438914;1;6151170;6150150;5855238;5856258;1;5555202;5554182;5246982;5248002;1;5122;4102;311302;312322;1;613378;612358;907270;908290;1;1196034;1195014;1475590;1476610;1;1751042;1750022;2018310;2019330;1;2280450;2279430;2533382;2534402;1;2781186;2780166;6;3019778;1;3251202;175];
[175;8494083;1;8262659;5;8023045;8024067;1;7777283;7776261;7522309;7523331;1;7262211;7261189;6992901;6993923;1;6719491;6718469;6437893;6438915;1;6151171;6150149;5855237;5856259;1;5555203;5554181;5246981;5248003;1;5123;4101;311301;312323;1;613379;612357;907269;908291;1;1196035;1195013;1475589;1476611;1;1751043;1750021;2018309;2019331;1;2280451;2279429;2533381;2534403;1;2781187;2780165;5;3019779;1;3251203;174];
[173;8494085;1;8262661;3;8023043;8024069;1;7777285;7776259;7522307;7523333;1;7262213;7261187;6992899;6993925;1;6719493;6718467;6437891;6438917;1;6151173;6150147;5855235;5856261;1;5555205;5554179;5246979;5248005;1;5125;4099;311299;312325;1;613381;612355;907267;908293;1;1196037;1195011;1475587;1476613;1;1751045;1750019;2018307;2019333;1;2280453;2279427;2533379;2534405;1;2781189;2780163;3;3019781;1;3251205;172];
[171;8494087;1;8262663;1;8023041;8024071;1;7777287;7776257;7522305;7523335;1;7262215;7261185;6992897;6993927;1;6719495;6718465;6437889;6438919;1;6151175;6150145;5855233;5856263;1;5555207;5554177;5246977;5248007;1;5127;4097;311297;312327;1;613383;612353;907265;908295;1;1196039;1195009;1475585;1476615;1;1751047;1750017;2018305;2019335;1;2280455;2279425;2533377;2534407;1;2781191;2780161;1;3019783;1;3251207;170];
[171;8494087;1;8262663;2;8024071;1;7777287;2;7523335;1;7262215;2;6993927;1;6719495;2;6438919;1;6151175;2;5856263;1;5555207;2;5248007;1;5127;2;312327;1;613383;2;908295;1;1196039;2;1476615;1;1751047;2;2019335;1;2280455;2;2534407;1;2781191;2;3019783;1;3251207;170];
[168;8719362;8495106;8494086;1;8262662;8263682;8025090;8024070;1;7777286;7778306;7524354;7523334;1;7262214;7263234;6994946;6993926;1;6719494;6720514;6439938;6438918;1;6151174;6152194;5857282;5856262;1;5555206;5556226;5249026;5248006;1;5126;6146;313346;312326;1;613382;614402;909314;908294;1;1196038;1197058;1477634;1476614;1;1751046;1752066;2020354;2019334;1;2280454;2281474;2535426;2534406;1;2781190;2782210;3020802;3019782;1;3251206;3252226;3476482;167];
[166;8719364;8495108;8494084;1;8262660;8263684;8025092;8024068;1;7777284;7778308;7524356;7523332;1;7262212;7263236;6994948;6993924;1;6719492;6720516;6439940;6438916;1;6151172;6152196;5857284;5856260;1;5555204;5556228;5249028;5248004;1;5124;6148;313348;312324;1;613380;614404;909316;908292;1;1196036;1197060;1477636;1476612;1;1751044;1752068;2020356;2019332;1;2280452;2281476;2535428;2534404;1;2781188;2782212;3020804;3019780;1;3251204;3252228;3476484;165];
[164;8719366;8495110;8494082;1;8262658;8263686;8025094;8024066;1;7777282;7778310;7524358;7523330;1;7262210;7263238;6994950;6993922;1;6719490;6720518;6439942;6438914;1;6151170;6152198;5857286;5856258;1;5555202;5556230;5249030;5248002;1;5122;6150;313350;312322;1;613378;614406;909318;908290;1;1196034;1197062;1477638;1476610;1;1751042;1752070;2020358;2019330;1;2280450;2281478;2535430;2534402;1;2781186;2782214;3020806;3019778;1;3251202;3252230;3476486;163];
[163;8719367;8495111;3;8263687;8025095;3;7778311;7524359;3;7263239;6994951;3;6720519;6439943;3;6152199;5857287;3;5556231;5249031;3;6151;313351;3;614407;909319;3;1197063;1477639;3;1752071;2020359;3;2281479;2535431;3;2782215;3020807;3;3252231;3476487;162];
[162;8719368;8495112;1;8263688;8025096;1;7778312;7524360;1;7263240;6994952;1;6720520;6439944;1;6152200;5857288;1;5556232;5249032;1;6152;313352;1;614408;909320;1;1197064;1477640;1;1752072;2020360;1;2281480;2535432;1;2782216;3020808;1;3252232;3476488;161];
[159;8936450;1;8720386;8719366;8495110;8496130;1;8264706;8263686;8025094;8026114;1;7779330;7778310;7524358;7525378;1;7264258;7263238;6994950;6995970;1;6721538;6720518;6439942;6440962;1;6153218;6152198;5857286;5858306;1;5557250;5556230;5249030;5250050;1;7170;6150;313350;314370;1;615426;614406;909318;910338;1;1198082;1197062;1477638;1478658;1;1753090;1752070;2020358;2021378;1;2282498;2281478;2535430;2536450;1;2783234;2782214;3020806;3021826;1;3253250;3252230;3476486;3477506;1;3693570;158];
[157;8936452;1;8720388;8719364;8495108;8496132;1;8264708;8263684;8025092;8026116;1;7779332;7778308;7524356;7525380;1;7264260;7263236;6994948;6995972;1;6721540;6720516;6439940;6440964;1;6153220;6152196;5857284;5858308;1;5557252;5556228;5249028;5250052;1;7172;6148;313348;314372;1;615428;614404;909316;910340;1;1198084;1197060;1477636;1478660;1;1753092;1752068;2020356;2021380;1;2282500;2281476;2535428;2536452;1;2783236;2782212;3020804;3021828;1;3253252;3252228;3476484;3477508;1;3693572;156];
[156;8936453;1;8720389;8719363;8495106;1;8496133;1;8264709;8263683;8025090;1;8026117;1;7779333;7778307;7524354;1;7525381;1;7264261;1;7263234;6994946;1;6995973;1;6721541;1;6720514;6439938;1;6440965;1;6153221;1;6152194;5857282;1;5858309;1;5557253;1;5556226;5249026;1;5250053;1;7173;1;6146;313346;1;314373;1;615429;1;614402;909314;1;910341;1;1198085;1;1197058;1477634;1;1478661;1;1753093;1;1752066;2020354;1;2021381;1;2282501;1;2281474;2535427;2536453;1;2783237;1;2782210;3020803;3021829;1;3253253;1;3252226;3476483;3477509;1;3693573;155];
[154;8936455;1;8720391;8719361;8495105;8496135;1;8264711;8263681;8025089;8026119;1;7779335;7778305;7524353;7525383;1;7264263;7263233;6994945;6995975;1;6721543;6720513;6439937;6440967;1;6153223;6152193;5857281;5858311;1;5557255;5556225;5249025;5250055;1;7175;6145;313345;314375;1;615431;614401;909313;910343;1;1198087;1197057;1477633;1478663;1;1753095;1752065;2020353;2021383;1;2282503;2281473;2535425;2536455;1;2783239;2782209;3020801;3021831;1;3253255;3252225;3476481;3477511;1;3693575;153];
[152;9145345;8937473;8936455;1;8720391;8721409;8497153;8496135;1;8264711;8265729;8027137;8026119;1;7779335;7780353;7526401;7525383;1;7264263;7265281;6996993;6995975;1;6721543;6722561;6441985;6440967;1;6153223;6154241;5859329;5858311;1;5557255;5558273;5251073;5250055;1;7175;8193;315393;314375;1;615431;616449;911361;910343;1;1198087;1199105;1479681;1478663;1;1753095;1754113;2022401;2021383;1;2282503;2283521;2537473;2536455;1;2783239;2784257;3022849;3021831;1;3253255;3254273;3478529;3477511;1;3693575;3694593;3902465;151];
[150;9145347;8937474;1;8936453;1;8720389;8721411;8497154;1;8496133;1;8264709;8265731;8027138;1;8026117;1;7779333;7780355;7526402;1;7525381;1;7264261;7265283;6996994;1;6995973;1;6721541;6722563;6441986;1;6440965;1;6153221;6154243;5859330;1;5858309;1;5557253;5558275;5251075;5250053;1;7173;8195;315395;314373;1;615429;1;616450;911363;910341;1;1198085;1;1199106;1479683;1478661;1;1753093;1;1754114;2022403;2021381;1;2282501;1;2283522;2537475;2536453;1;2783237;1;2784258;3022851;3021829;1;3253253;1;3254274;3478531;3477509;1;3693573;1;3694594;3902467;149];
[149;9145348;8937476;8936452;1;8720388;8721412;8497156;8496132;1;8264708;8265732;8027140;8026116;1;7779332;7780356;7526404;7525380;1;7264260;7265284;6996996;6995972;1;6721540;6722564;6441988;6440964;1;6153220;6154244;5859332;5858308;1;5557252;5558276;5251076;5250052;1;7172;8196;315396;314372;1;615428;616452;911364;910340;1;1198084;1199108;1479684;1478660;1;1753092;1754116;2022404;2021380;1;2282500;2283524;2537476;2536452;1;2783236;2784260;3022852;3021828;1;3253252;3254276;3478532;3477508;1;3693572;3694596;3902468;148];
[147;9145350;8937478;8936450;1;8720386;8721414;8497158;8496130;1;8264706;8265734;8027142;8026114;1;7779330;7780358;7526406;7525378;1;7264258;7265286;6996998;6995970;1;6721538;6722566;6441990;6440962;1;6153218;6154246;5859334;5858306;1;5557250;5558278;5251078;5250050;1;7170;8198;315398;314370;1;615426;616454;911366;910338;1;1198082;1199110;1479686;1478658;1;1753090;1754118;2022406;2021378;1;2282498;2283526;2537478;2536450;1;2783234;2784262;3022854;3021826;1;3253250;3254278;3478534;3477506;1;3693570;3694598;3902470;146];
[145;9145352;8937480;1;8721416;8497160;1;8265736;8027144;1;7780360;7526408;1;7265288;6997000;1;6722568;6441992;1;6154248;5859336;1;5558280;5251080;1;8200;315400;1;616456;911368;1;1199112;1479688;1;1754120;2022408;1;2283528;2537480;1;2784264;3022856;1;3254280;3478536;1;3694600;3902472;144];
[146;9145351;8937479;3;8721415;8497159;3;8265735;8027143;3;7780359;7526407;3;7265287;6996999;3;6722567;6441991;3;6154247;5859335;3;5558279;5251079;3;8199;315399;3;616455;911367;3;1199111;1479687;3;1754119;2022407;3;2283527;2537479;3;2784263;3022855;3;3254279;3478535;3;3694599;3902471;145];
[142;9346050;1;9146370;9145350;8937478;8938498;1;8722434;8721414;8497158;8498178;1;8266754;8265734;8027142;8028162;1;7781378;7780358;7526406;7527426;1;7266306;7265286;6996998;6998018;1;6723586;6722566;6441990;6443010;1;6155266;6154246;5859334;5860354;1;5559298;5558278;5251078;5252098;1;9218;8198;315398;316418;1;617474;616454;911366;912386;1;1200130;1199110;1479686;1480706;1;1755138;1754118;2022406;2023426;1;2284546;2283526;2537478;2538498;1;2785282;2784262;3022854;3023874;1;3255298;3254278;3478534;3479554;1;3695618;3694598;3902470;3903490;1;4103170;141];
[140;9346052;1;9146372;9145348;8937476;8938500;1;8722436;8721412;8497156;8498180;1;8266756;8265732;8027140;8028164;1;7781380;7780356;7526404;7527428;1;7266308;7265284;6996996;6998020;1;6723588;6722564;6441988;6443012;1;6155268;6154244;5859332;5860356;1;5559300;5558276;5251076;5252100;1;9220;8196;315396;316420;1;617476;616452;911364;912388;1;1200132;1199108;1479684;1480708;1;1755140;1754116;2022404;2023428;1;2284548;2283524;2537476;2538500;1;2785284;2784260;3022852;3023876;1;3255300;3254276;3478532;3479556;1;3695620;3694596;3902468;3903492;1;4103172;139];
[138;9346054;1;9146374;9145346;8937474;8938502;1;8722438;8721410;8497154;8498182;1;8266758;8265730;8027138;8028166;1;7781382;7780354;7526402;7527430;1;7266310;7265282;6996994;6998022;1;6723590;6722562;6441986;6443014;1;6155270;6154242;5859330;5860358;1;5559302;5558274;5251074;5252102;1;9222;8194;315394;316422;1;617478;616450;911362;912390;1;1200134;1199106;1479682;1480710;1;1755142;1754114;2022402;2023430;1;2284550;2283522;2537474;2538502;1;2785286;2784258;3022850;3023878;1;3255302;3254274;3478530;3479558;1;3695622;3694594;3902466;3903494;1;4103174;137];
[137;9346055;1;9146375;2;8938503;1;8722439;2;8498183;1;8266759;2;8028167;1;7781383;2;7527431;1;7266311;2;6998023;1;6723591;2;6443015;1;6155271;2;5860359;1;5559303;2;5252103;1;9223;2;316423;1;617479;2;912391;1;1200135;2;1480711;1;1755143;2;2023431;1;2284551;2;2538503;1;2785287;2;3023879;1;3255303;2;3479559;1;3695623;2;3903495;1;4103175;136];
[135;9443329;9347073;9346055;1;9146375;9147393;8939521;8938503;1;8722439;8723457;8499201;8498183;1;8266759;8267777;8029185;8028167;1;7781383;7782401;7528449;7527431;1;7266311;7267329;6999041;6998023;1;6723591;6724609;6444033;6443015;1;6155271;6156289;5861377;5860359;1;5559303;5560321;5253121;5252103;1;9223;10241;317441;316423;1;617479;618497;913409;912391;1;1200135;1201153;1481729;1480711;1;1755143;1756161;2024449;2023431;1;2284551;2285569;2539521;2538503;1;2785287;2786305;3024897;3023879;1;3255303;3256321;3480577;3479559;1;3695623;3696641;3904513;3903495;1;4103175;4104193;4200449;134];
[133;9443331;9347075;9346053;1;9146373;9147395;8939523;8938501;1;8722437;8723459;8499203;8498181;1;8266757;8267779;8029187;8028165;1;7781381;7782403;7528451;7527429;1;7266309;7267331;6999043;6998021;1;6723589;6724611;6444035;6443013;1;6155269;6156291;5861379;5860357;1;5559301;5560323;5253123;5252101;1;9221;10243;317443;316421;1;617477;618499;913411;912389;1;1200133;1201155;1481731;1480709;1;1755141;1756163;2024451;2023429;1;2284549;2285571;2539523;2538501;1;2785285;2786307;3024899;3023877;1;3255301;3256323;3480579;3479557;1;3695621;3696643;3904515;3903493;1;4103173;4104195;4200451;132];
[131;9443333;9347077;9346051;1;9146371;9147397;8939525;8938499;1;8722435;8723461;8499205;8498179;1;8266755;8267781;8029189;8028163;1;7781379;7782405;7528453;7527427;1;7266307;7267333;6999045;6998019;1;6723587;6724613;6444037;6443011;1;6155267;6156293;5861381;5860355;1;5559299;5560325;5253125;5252099;1;9219;10245;317445;316419;1;617475;618501;913413;912387;1;1200131;1201157;1481733;1480707;1;1755139;1756165;2024453;2023427;1;2284547;2285573;2539525;2538499;1;2785283;2786309;3024901;3023875;1;3255299;3256325;3480581;3479555;1;3695619;3696645;3904517;3903491;1;4103171;4104197;4200453;130];
[130;9443334;9347078;9346050;1;9146369;1;9147398;8939526;8938498;1;8722433;1;8723462;8499206;8498178;1;8266753;1;8267782;8029190;8028162;1;7781378;7782406;7528454;7527426;1;7266306;7267334;6999046;6998018;1;6723586;6724614;6444038;6443010;1;6155266;6156294;5861382;5860354;1;5559298;5560326;5253126;5252098;1;9218;10246;317446;316418;1;617474;618502;913414;912386;1;1200130;1201158;1481734;1480706;1;1755138;1756166;2024454;2023426;1;2284546;2285574;2539526;2538498;1;2785282;2786310;3024902;1;3023873;1;3255298;3256326;3480582;1;3479553;1;3695618;3696646;3904518;1;3903489;1;4103170;4104198;4200454;129];
[128;9443336;9347080;1;9147400;8939528;1;8723464;8499208;1;8267784;8029192;1;7782408;7528456;1;7267336;6999048;1;6724616;6444040;1;6156296;5861384;1;5560328;5253128;1;10248;317448;1;618504;913416;1;1201160;1481736;1;1756168;2024456;1;2285576;2539528;1;2786312;3024904;1;3256328;3480584;1;3696648;3904520;1;4104200;4200456;127];
[126;9538561;1;9444353;9443335;9347079;9348097;1;9148417;9147399;8939527;8940545;1;8724481;8723463;8499207;8500225;1;8268801;8267783;8029191;8030209;1;7783425;7782407;7528455;7529473;1;7268353;7267335;6999047;7000065;1;6725633;6724615;6444039;6445057;1;6157313;6156295;5861383;5862401;1;5561345;5560327;5253127;5254145;1;11265;10247;317447;318465;1;619521;618503;913415;914433;1;1202177;1201159;1481735;1482753;1;1757185;1756167;2024455;2025473;1;2286593;2285575;2539527;2540545;1;2787329;2786311;3024903;3025921;1;3257345;3256327;3480583;3481601;1;3697665;3696647;3904519;3905537;1;4105217;4104199;4200455;4201473;1;4295681;125];
[124;9538563;1;9444354;1;9443333;9347077;9348099;1;9148418;1;9147397;8939525;1;8940546;1;8724482;1;8723461;8499205;1;8500226;1;8268802;1;8267781;8029189;1;8030210;1;7783426;1;7782405;7528453;1;7529474;1;7268354;1;7267333;6999045;1;7000066;1;6725634;1;6724613;6444037;1;6445058;1;6157314;1;6156293;5861381;1;5862402;1;5561346;1;5560325;5253125;1;5254146;1;11266;1;10245;317445;1;318466;1;619522;1;618501;913413;1;914434;1;1202178;1;1201157;1481733;1;1482754;1;1757186;1;1756165;2024453;1;2025474;1;2286594;1;2285573;2539525;1;2540546;1;2787330;1;2786309;3024901;1;3025922;1;3257346;1;3256325;3480581;1;3481602;1;3697666;1;3696645;3904517;1;3905538;1;4105219;4104197;4200453;1;4201474;1;4295683;123];
[123;9538564;1;9444356;9443332;9347076;9348100;1;9148420;9147396;8939524;8940548;1;8724484;8723460;8499204;8500228;1;8268804;8267780;8029188;8030212;1;7783428;7782404;7528452;7529476;1;7268356;7267332;6999044;7000068;1;6725636;6724612;6444036;6445060;1;6157316;6156292;5861380;5862404;1;5561348;5560324;5253124;5254148;1;11268;10244;317444;318468;1;619524;618500;913412;914436;1;1202180;1201156;1481732;1482756;1;1757188;1756164;2024452;2025476;1;2286596;2285572;2539524;2540548;1;2787332;2786308;3024900;3025924;1;3257348;3256324;3480580;3481604;1;3697668;3696644;3904516;3905540;1;4105220;4104196;4200452;4201476;1;4295684;122];
[121;9538566;1;9444358;9443330;9347074;9348102;1;9148422;9147394;8939522;8940550;1;8724486;8723458;8499202;8500230;1;8268806;8267778;8029186;8030214;1;7783430;7782402;7528450;7529478;1;7268358;7267330;6999042;7000070;1;6725638;6724610;6444034;6445062;1;6157318;6156290;5861378;5862406;1;5561350;5560322;5253122;5254150;1;11270;10242;317442;318470;1;619526;618498;913410;914438;1;1202182;1201154;1481730;1482758;1;1757190;1756162;2024450;2025478;1;2286598;2285570;2539522;2540550;1;2787334;2786306;3024898;3025926;1;3257350;3256322;3480578;3481606;1;3697670;3696642;3904514;3905542;1;4105222;4104194;4200450;4201478;1;4295686;120];
[119;9538568;1;9444360;9348104;1;9148424;8940552;1;8724488;8500232;1;8268808;8030216;1;7783432;7529480;1;7268360;7000072;1;6725640;6445064;1;6157320;5862408;1;5561352;5254152;1;11272;318472;1;619528;914440;1;1202184;1482760;1;1757192;2025480;1;2286600;2540552;1;2787336;3025928;1;3257352;3481608;1;3697672;3905544;1;4105224;4201480;1;4295688;118];
[118;9631745;9539585;1;9538566;1;9444358;1;9445377;9349121;1;9348102;1;9148422;1;9149441;8941569;1;8940550;1;8724486;1;8725505;8501249;1;8500230;1;8268806;1;8269825;8031233;1;8030214;1;7783430;1;7784449;7530497;1;7529478;1;7268358;1;7269377;7001089;1;7000070;1;6725638;1;6726657;6446081;1;6445062;1;6157318;1;6158337;5863425;1;5862406;1;5561350;1;5562369;5255169;1;5254150;1;11270;1;12289;319489;1;318470;1;619526;1;620545;915457;1;914438;1;1202182;1;1203201;1483777;1;1482758;1;1757190;1;1758209;2026497;1;2025478;1;2286598;1;2287617;2541569;1;2540550;1;2787334;1;2788353;3026945;1;3025926;1;3257350;1;3258369;3482625;1;3481606;1;3697670;1;3698689;3906561;1;3905542;1;4105222;1;4106241;4202497;1;4201478;1;4295686;1;4296705;4388865;117];
[116;9631747;9539587;9538565;1;9444357;9445379;9349123;9348101;1;9148421;9149443;8941571;8940549;1;8724485;8725507;8501251;8500229;1;8268805;8269827;8031235;8030213;1;7783429;7784451;7530499;7529477;1;7268357;7269379;7001091;7000069;1;6725637;6726659;6446083;6445061;1;6157317;6158339;5863427;5862405;1;5561349;5562371;5255171;5254149;1;11269;12291;319491;318469;1;619525;620547;915459;914437;1;1202181;1203203;1483779;1482757;1;1757189;1758211;2026499;2025477;1;2286597;2287619;2541571;2540549;1;2787333;2788355;3026947;3025925;1;3257349;3258371;3482627;3481605;1;3697669;3698691;3906563;3905541;1;4105221;4106243;4202499;4201477;1;4295685;4296707;4388867;115];
[114;9631749;9539589;9538563;1;9444355;9445381;9349125;9348099;1;9148419;9149445;8941573;8940547;1;8724483;8725509;8501253;8500227;1;8268803;8269829;8031237;8030211;1;7783427;7784453;7530501;7529475;1;7268355;7269381;7001093;7000067;1;6725635;6726661;6446085;6445059;1;6157315;6158341;5863429;5862403;1;5561347;5562373;5255173;5254147;1;11267;12293;319493;318467;1;619523;620549;915461;914435;1;1202179;1203205;1483781;1482755;1;1757187;1758213;2026501;2025475;1;2286595;2287621;2541573;2540547;1;2787331;2788357;3026949;3025923;1;3257347;3258373;3482629;3481603;1;3697667;3698693;3906565;3905539;1;4105219;4106245;4202501;4201475;1;4295683;4296709;4388869;113];
[112;9631751;9539591;9538561;1;9444353;9445383;9349127;9348097;1;9148417;9149447;8941575;8940545;1;8724481;8725511;8501255;8500225;1;8268801;8269831;8031239;8030209;1;7783425;7784455;7530503;7529473;1;7268353;7269383;7001095;7000065;1;6725633;6726663;6446087;6445057;1;6157313;6158343;5863431;5862401;1;5561345;5562375;5255175;5254145;1;11265;12295;319495;318465;1;619521;620551;915463;914433;1;1202177;1203207;1483783;1482753;1;1757185;1758215;2026503;2025473;1;2286593;2287623;2541575;2540545;1;2787329;2788359;3026951;3025921;1;3257345;3258375;3482631;3481601;1;3697665;3698695;3906567;3905537;1;4105217;4106247;4202503;4201473;1;4295681;4296711;4388871;111];
[111;9631752;9539592;1;9445384;9349128;1;9149448;8941576;1;8725512;8501256;1;8269832;8031240;1;7784456;7530504;1;7269384;7001096;1;6726664;6446088;1;6158344;5863432;1;5562376;5255176;1;12296;319496;1;620552;915464;1;1203208;1483784;1;1758216;2026504;1;2287624;2541576;1;2788360;3026952;1;3258376;3482632;1;3698696;3906568;1;4106248;4202504;1;4296712;4388872;110];
[111;9632769;9631751;9539591;9540609;1;9446401;9445383;9349127;9350145;1;9150465;9149447;8941575;8942593;1;8726529;8725511;8501255;8502273;1;8270849;8269831;8031239;8032257;1;7785473;7784455;7530503;7531521;1;7270401;7269383;7001095;7002113;1;6727681;6726663;6446087;6447105;1;6159361;6158343;5863431;5864449;1;5563393;5562375;5255175;5256193;1;13313;12295;319495;320513;1;621569;620551;915463;916481;1;1204225;1203207;1483783;1484801;1;1759233;1758215;2026503;2027521;1;2288641;2287623;2541575;2542593;1;2789377;2788359;3026951;3027969;1;3259393;3258375;3482631;3483649;1;3699713;3698695;3906567;3907585;1;4107265;4106247;4202503;4203521;1;4297729;4296711;4388871;4389889;110];
[111;9632771;9631749;9539589;9540611;1;9446403;9445381;9349125;9350147;1;9150467;9149445;8941573;8942595;1;8726531;8725509;8501253;8502275;1;8270851;8269829;8031237;8032259;1;7785475;7784453;7530501;7531523;1;7270403;7269381;7001093;7002115;1;6727683;6726661;6446085;6447107;1;6159363;6158341;5863429;5864451;1;5563395;5562373;5255173;5256195;1;13315;12293;319493;320515;1;621571;620549;915461;916483;1;1204227;1203205;1483781;1484803;1;1759235;1758213;2026501;2027523;1;2288643;2287621;2541573;2542595;1;2789379;2788357;3026949;3027971;1;3259395;3258373;3482629;3483651;1;3699715;3698693;3906565;3907587;1;4107267;4106245;4202501;4203523;1;4297731;4296709;4388869;4389891;110];
[111;9632773;9631747;9539587;9540613;1;9446405;9445379;9349123;9350149;1;9150469;9149443;8941571;8942597;1;8726533;8725507;8501251;8502277;1;8270853;8269827;8031235;8032261;1;7785477;7784451;7530499;7531525;1;7270405;7269379;7001091;7002117;1;6727685;6726659;6446083;6447109;1;6159365;6158339;5863427;5864453;1;5563397;5562371;5255171;5256197;1;13317;12291;319491;320517;1;621573;620547;915459;916485;1;1204229;1203203;1483779;1484805;1;1759237;1758211;2026499;2027525;1;2288645;2287619;2541571;2542597;1;2789381;2788355;3026947;3027973;1;3259397;3258371;3482627;3483653;1;3699717;3698691;3906563;3907589;1;4107269;4106243;4202499;4203525;1;4297733;4296707;4388867;4389893;110];
[111;9632774;9631746;9539586;9540614;1;9446406;9445378;9349122;9350150;1;9150470;9149442;8941570;8942598;1;8726534;8725506;8501250;8502278;1;8270854;8269826;8031234;8032262;1;7785478;7784450;7530498;7531526;1;7270406;7269378;7001090;7002118;1;6727686;6726658;6446082;6447110;1;6159366;6158338;5863426;5864454;1;5563398;5562370;5255170;5256198;1;13318;12290;319490;320518;1;621574;620546;915458;916486;1;1204230;1203202;1483778;1484806;1;1759238;1758210;2026498;2027526;1;2288646;2287618;2541570;2542598;1;2789382;2788354;3026946;3027974;1;3259398;3258370;3482626;3483654;1;3699718;3698690;3906562;3907590;1;4107270;4106242;4202498;4203526;1;4297734;4296706;4388866;4389894;110];
[111;9632776;9540616;1;9446408;9350152;1;9150472;8942600;1;8726536;8502280;1;8270856;8032264;1;7785480;7531528;1;7270408;7002120;1;6727688;6447112;1;6159368;5864456;1;5563400;5256200;1;13320;320520;1;621576;916488;1;1204232;1484808;1;1759240;2027528;1;2288648;2542600;1;2789384;3027976;1;3259400;3483656;1;3699720;3907592;1;4107272;4203528;1;4297736;4389896;110];
[102;9722882;7;9632774;9633794;9541634;9540614;1;9446406;9447426;9351170;9350150;1;9150470;9151490;8943618;8942598;1;8726534;8727554;8503298;8502278;1;8270854;8271874;8033282;8032262;1;7785478;7786498;7532546;7531526;1;7270406;7271426;7003138;7002118;1;6727686;6728706;6448130;6447110;1;6159366;6160386;5865474;5864454;1;5563398;5564418;5257218;5256198;1;13318;14338;321538;320518;1;621574;622594;917506;916486;1;1204230;1205250;1485826;1484806;1;1759238;1760258;2028546;2027526;1;2288646;2289666;2543618;2542598;1;2789382;2790402;3028994;3027974;1;3259398;3260418;3484674;3483654;1;3699718;3700738;3908610;3907590;1;4107270;4108290;4204546;4203526;1;4297734;4298754;4390914;4389894;7;4480002;101];
[102;9722883;6;9632772;1;9633795;9541635;1;9540612;1;9446404;1;9447427;9351171;1;9350148;1;9150468;1;9151491;8943619;1;8942596;1;8726532;1;8727555;8503299;1;8502276;1;8270852;1;8271875;8033283;1;8032260;1;7785476;1;7786499;7532547;1;7531524;1;7270404;1;7271427;7003139;1;7002116;1;6727684;1;6728707;6448131;1;6447108;1;6159364;1;6160387;5865475;1;5864452;1;5563396;1;5564419;5257219;1;5256196;1;13316;1;14339;321539;1;320516;1;621572;1;622595;917507;1;916484;1;1204228;1;1205251;1485827;1;1484804;1;1759236;1;1760259;2028547;1;2027524;1;2288644;1;2289667;2543619;1;2542596;1;2789380;1;2790403;3028995;1;3027972;1;3259396;1;3260419;3484675;1;3483652;1;3699716;1;3700739;3908611;1;3907588;1;4107268;1;4108291;4204547;1;4203524;1;4297732;1;4298755;4390915;1;4389892;6;4480003;101];
[102;9722885;4;9632771;9633797;9541637;9540611;1;9446403;9447429;9351173;9350147;1;9150467;9151493;8943621;8942595;1;8726531;8727557;8503301;8502275;1;8270851;8271877;8033285;8032259;1;7785475;7786501;7532549;7531523;1;7270403;7271429;7003141;7002115;1;6727683;6728709;6448133;6447107;1;6159363;6160389;5865477;5864451;1;5563395;5564421;5257221;5256195;1;13315;14341;321541;320515;1;621571;622597;917509;916483;1;1204227;1205253;1485829;1484803;1;1759235;1760261;2028549;2027523;1;2288643;2289669;2543621;2542595;1;2789379;2790405;3028997;3027971;1;3259395;3260421;3484677;3483651;1;3699715;3700741;3908613;3907587;1;4107267;4108293;4204549;4203523;1;4297731;4298757;4390917;4389891;4;4480005;101];
[102;9722887;2;9632769;9633799;9541639;9540609;1;9446401;9447431;9351175;9350145;1;9150465;9151495;8943623;8942593;1;8726529;8727559;8503303;8502273;1;8270849;8271879;8033287;8032257;1;7785473;7786503;7532551;7531521;1;7270401;7271431;7003143;7002113;1;6727681;6728711;6448135;6447105;1;6159361;6160391;5865479;5864449;1;5563393;5564423;5257223;5256193;1;13313;14343;321543;320513;1;621569;622599;917511;916481;1;1204225;1205255;1485831;1484801;1;1759233;1760263;2028551;2027521;1;2288641;2289671;2543623;2542593;1;2789377;2790407;3028999;3027969;1;3259393;3260423;3484679;3483649;1;3699713;3700743;3908615;3907585;1;4107265;4108295;4204551;4203521;1;4297729;4298759;4390919;4389889;2;4480007;101];
[102;9722888;1;9633800;9541640;1;9447432;9351176;1;9151496;8943624;1;8727560;8503304;1;8271880;8033288;1;7786504;7532552;1;7271432;7003144;1;6728712;6448136;1;6160392;5865480;1;5564424;5257224;1;14344;321544;1;622600;917512;1;1205256;1485832;1;1760264;2028552;1;2289672;2543624;1;2790408;3029000;1;3260424;3484680;1;3700744;3908616;1;4108296;4204552;1;4298760;4390920;1;4480008;101];
[94;9809921;7;9722886;1;9723905;1;9634817;1;9633798;9541638;1;9542657;1;9448449;1;9447430;9351174;1;9352193;1;9152513;1;9151494;8943622;1;8944641;1;8728577;1;8727558;8503302;1;8504321;1;8272897;1;8271878;8033286;1;8034305;1;7787521;1;7786502;7532550;1;7533569;1;7272449;1;7271430;7003142;1;7004161;1;6729729;1;6728710;6448134;1;6449153;1;6161409;1;6160390;5865478;1;5866497;1;5565441;1;5564422;5257222;1;5258241;1;15361;1;14342;321542;1;322561;1;623617;1;622598;917510;1;918529;1;1206273;1;1205254;1485830;1;1486849;1;1761281;1;1760262;2028550;1;2029569;1;2290689;1;2289670;2543622;1;2544641;1;2791425;1;2790406;3028998;1;3030017;1;3261441;1;3260422;3484678;1;3485697;1;3701761;1;3700742;3908614;1;3909633;1;4109313;1;4108294;4204550;1;4205569;1;4299777;1;4298758;4390918;1;4391937;1;4481025;1;4480006;7;4567041;93];
[94;9809923;5;9722885;9723907;1;9634819;9633797;9541637;9542659;1;9448451;9447429;9351173;9352195;1;9152515;9151493;8943621;8944643;1;8728579;8727557;8503301;8504323;1;8272899;8271877;8033285;8034307;1;7787523;7786501;7532549;7533571;1;7272451;7271429;7003141;7004163;1;6729731;6728709;6448133;6449155;1;6161411;6160389;5865477;5866499;1;5565443;5564421;5257221;5258243;1;15363;14341;321541;322563;1;623619;622597;917509;918531;1;1206275;1205253;1485829;1486851;1;1761283;1760261;2028549;2029571;1;2290691;2289669;2543621;2544643;1;2791427;2790405;3028997;3030019;1;3261443;3260421;3484677;3485699;1;3701763;3700741;3908613;3909635;1;4109315;4108293;4204549;4205571;1;4299779;4298757;4390917;4391939;1;4481027;4480005;5;4567043;93];
[94;9809925;3;9722883;9723909;1;9634821;9633795;9541635;9542661;1;9448453;9447427;9351171;9352197;1;9152517;9151491;8943619;8944645;1;8728581;8727555;8503299;8504325;1;8272901;8271875;8033283;8034309;1;7787525;7786499;7532547;7533573;1;7272453;7271427;7003139;7004165;1;6729733;6728707;6448131;6449157;1;6161413;6160387;5865475;5866501;1;5565445;5564419;5257219;5258245;1;15365;14339;321539;322565;1;623621;622595;917507;918533;1;1206277;1205251;1485827;1486853;1;1761285;1760259;2028547;2029573;1;2290693;2289667;2543619;2544645;1;2791429;2790403;3028995;3030021;1;3261445;3260419;3484675;3485701;1;3701765;3700739;3908611;3909637;1;4109317;4108291;4204547;4205573;1;4299781;4298755;4390915;4391941;1;4481029;4480003;3;4567045;93];
[94;9809927;1;9722881;9723911;1;9634823;9633793;9541633;9542663;1;9448455;9447425;9351169;9352199;1;9152519;9151489;8943617;8944647;1;8728583;8727553;8503297;8504327;1;8272903;8271873;8033281;8034311;1;7787527;7786497;7532545;7533575;1;7272455;7271425;7003137;7004167;1;6729735;6728705;6448129;6449159;1;6161415;6160385;5865473;5866503;1;5565447;5564417;5257217;5258247;1;15367;14337;321537;322567;1;623623;622593;917505;918535;1;1206279;1205249;1485825;1486855;1;1761287;1760257;2028545;2029575;1;2290695;2289665;2543617;2544647;1;2791431;2790401;3028993;3030023;1;3261447;3260417;3484673;3485703;1;3701767;3700737;3908609;3909639;1;4109319;4108289;4204545;4205575;1;4299783;4298753;4390913;4391943;1;4481031;4480001;1;4567047;93];
[94;9809927;1;9723912;1;9634823;1;9542664;1;9448455;1;9352200;1;9152519;1;8944648;1;8728583;1;8504328;1;8272903;1;8034312;1;7787527;2;7533575;1;7272455;2;7004167;1;6729735;2;6449159;1;6161415;2;5866503;1;5565447;2;5258247;1;15367;2;322567;1;623623;2;918535;1;1206279;2;1486855;1;1761287;2;2029575;1;2290695;2;2544647;1;2791432;1;3030023;1;3261448;1;3485703;1;3701768;1;3909639;1;4109320;1;4205575;1;4299784;1;4391943;1;4481032;1;4567047;93];
[94;9809926;9810946;9724930;9723910;1;9634822;9635842;9543682;9542662;1;9448454;9449474;9353218;9352198;1;9152518;9153538;8945666;8944646;1;8728582;8729602;8505346;8504326;1;8272902;8273922;8035330;8034310;1;7787526;7788546;7534594;7533574;1;7272454;7273474;7005186;7004166;1;6729734;6730754;6450178;6449158;1;6161414;6162434;5867522;5866502;1;5565446;5566466;5259266;5258246;1;15366;16386;323586;322566;1;623622;624642;919554;918534;1;1206278;1207298;1487874;1486854;1;1761286;1762306;2030594;2029574;1;2290694;2291714;2545666;2544646;1;2791430;2792450;3031042;3030022;1;3261446;3262466;3486722;3485702;1;3701766;3702786;3910658;3909638;1;4109318;4110338;4206594;4205574;1;4299782;4300802;4392962;4391942;1;4481030;4482050;4568066;4567046;93];
[94;9809924;9810948;9724932;9723908;1;9634820;9635844;9543684;9542660;1;9448452;9449476;9353220;9352196;1;9152516;9153540;8945668;8944644;1;8728580;8729604;8505348;8504324;1;8272900;8273924;8035332;8034308;1;7787524;7788548;7534596;7533572;1;7272452;7273476;7005188;7004164;1;6729732;6730756;6450180;6449156;1;6161412;6162436;5867524;5866500;1;5565444;5566468;5259268;5258244;1;15364;16388;323588;322564;1;623620;624644;919556;918532;1;1206276;1207300;1487876;1486852;1;1761284;1762308;2030596;2029572;1;2290692;2291716;2545668;2544644;1;2791428;2792452;3031044;3030020;1;3261444;3262468;3486724;3485700;1;3701764;3702788;3910660;3909636;1;4109316;4110340;4206596;4205572;1;4299780;4300804;4392964;4391940;1;4481028;4482052;4568068;4567044;93];
[94;9809922;9810950;9724933;1;9723906;1;9634818;9635846;9543685;1;9542658;1;9448450;9449478;9353221;1;9352194;1;9152514;9153542;8945669;1;8944642;1;8728578;8729606;8505349;1;8504322;1;8272898;8273926;8035333;1;8034306;1;7787522;7788550;7534597;1;7533570;1;7272450;7273478;7005189;1;7004162;1;6729730;6730758;6450181;1;6449154;1;6161410;6162438;5867526;5866498;1;5565442;5566470;5259270;5258242;1;15362;16390;323590;322562;1;623618;624646;919558;918530;1;1206274;1;1207301;1487878;1486850;1;1761282;1;1762309;2030598;2029570;1;2290690;1;2291717;2545670;2544642;1;2791426;1;2792453;3031046;3030018;1;3261442;1;3262469;3486726;3485698;1;3701762;1;3702789;3910662;3909634;1;4109314;1;4110341;4206598;4205570;1;4299778;1;4300805;4392966;4391938;1;4481026;1;4482053;4568070;4567042;93];
[94;9809921;9810951;9724935;9723905;1;9634817;9635847;9543687;9542657;1;9448449;9449479;9353223;9352193;1;9152513;9153543;8945671;8944641;1;8728577;8729607;8505351;8504321;1;8272897;8273927;8035335;8034305;1;7787521;7788551;7534599;7533569;1;7272449;7273479;7005191;7004161;1;6729729;6730759;6450183;6449153;1;6161409;6162439;5867527;5866497;1;5565441;5566471;5259271;5258241;1;15361;16391;323591;322561;1;623617;624647;919559;918529;1;1206273;1207303;1487879;1486849;1;1761281;1762311;2030599;2029569;1;2290689;2291719;2545671;2544641;1;2791425;2792455;3031047;3030017;1;3261441;3262471;3486727;3485697;1;3701761;3702791;3910663;3909633;1;4109313;4110343;4206599;4205569;1;4299777;4300807;4392967;4391937;1;4481025;4482055;4568071;4567041;93];
[94;9810952;9724936;1;9635848;9543688;1;9449480;9353224;1;9153544;8945672;1;8729608;8505352;1;8273928;8035336;1;7788552;7534600;1;7273480;7005192;1;6730760;6450184;1;6162440;5867528;1;5566472;5259272;1;16392;323592;1;624648;919560;1;1207304;1487880;1;1762312;2030600;1;2291720;2545672;1;2792456;3031048;1;3262472;3486728;1;3702792;3910664;1;4110344;4206600;1;4300808;4392968;1;4482056;4568072;93];
[91;9894914;1;9811970;9810950;9724934;9725954;1;9636866;9635846;9543686;9544706;1;9450498;9449478;9353222;9354242;1;9154562;9153542;8945670;8946690;1;8730626;8729606;8505350;8506370;1;8274946;8273926;8035334;8036354;1;7789570;7788550;7534598;7535618;1;7274498;7273478;7005190;7006210;1;6731778;6730758;6450182;6451202;1;6163458;6162438;5867526;5868546;1;5567490;5566470;5259270;5260290;1;17410;16390;323590;324610;1;625666;624646;919558;920578;1;1208322;1207302;1487878;1488898;1;1763330;1762310;2030598;2031618;1;2292738;2291718;2545670;2546690;1;2793474;2792454;3031046;3032066;1;3263490;3262470;3486726;3487746;1;3703810;3702790;3910662;3911682;1;4111362;4110342;4206598;4207618;1;4301826;4300806;4392966;4393986;1;4483074;4482054;4568070;4569090;1;4652034;90];
[90;9894915;1;9811971;1;9810948;9724932;1;9725955;1;9636867;1;9635844;9543684;1;9544707;1;9450499;1;9449476;9353220;1;9354243;1;9154563;1;9153540;8945668;1;8946691;1;8730627;1;8729604;8505348;1;8506371;1;8274947;1;8273924;8035332;1;8036355;1;7789571;1;7788548;7534596;1;7535619;1;7274499;1;7273476;7005188;1;7006211;1;6731779;1;6730756;6450180;1;6451203;1;6163459;1;6162436;5867524;1;5868547;1;5567491;1;5566468;5259268;1;5260291;1;17411;1;16388;323588;1;324611;1;625667;1;624644;919556;1;920579;1;1208323;1;1207300;1487876;1;1488899;1;1763331;1;1762308;2030596;1;2031619;1;2292739;1;2291716;2545668;1;2546691;1;2793475;1;2792452;3031044;1;3032067;1;3263491;1;3262468;3486724;1;3487747;1;3703811;1;3702788;3910660;1;3911683;1;4111363;1;4110340;4206596;1;4207619;1;4301827;1;4300804;4392964;1;4393987;1;4483075;1;4482052;4568068;1;4569091;1;4652035;89];
[88;9894917;1;9811973;9810947;9724931;9725957;1;9636869;9635843;9543683;9544709;1;9450501;9449475;9353219;9354245;1;9154565;9153539;8945667;8946693;1;8730629;8729603;8505347;8506373;1;8274949;8273923;8035331;8036357;1;7789573;7788547;7534595;7535621;1;7274501;7273475;7005187;7006213;1;6731781;6730755;6450179;6451205;1;6163461;6162435;5867523;5868549;1;5567493;5566467;5259267;5260293;1;17413;16387;323587;324613;1;625669;624643;919555;920581;1;1208325;1207299;1487875;1488901;1;1763333;1762307;2030595;2031621;1;2292741;2291715;2545667;2546693;1;2793477;2792451;3031043;3032069;1;3263493;3262467;3486723;3487749;1;3703813;3702787;3910659;3911685;1;4111365;4110339;4206595;4207621;1;4301829;4300803;4392963;4393989;1;4483077;4482051;4568067;4569093;1;4652037;87];
[86;9894919;1;9811975;9810945;9724929;9725959;1;9636871;9635841;9543681;9544711;1;9450503;9449473;9353217;9354247;1;9154567;9153537;8945665;8946695;1;8730631;8729601;8505345;8506375;1;8274951;8273921;8035329;8036359;1;7789575;7788545;7534593;7535623;1;7274503;7273473;7005185;7006215;1;6731783;6730753;6450177;6451207;1;6163463;6162433;5867521;5868551;1;5567495;5566465;5259265;5260295;1;17415;16385;323585;324615;1;625671;624641;919553;920583;1;1208327;1207297;1487873;1488903;1;1763335;1762305;2030593;2031623;1;2292743;2291713;2545665;2546695;1;2793479;2792449;3031041;3032071;1;3263495;3262465;3486721;3487751;1;3703815;3702785;3910657;3911687;1;4111367;4110337;4206593;4207623;1;4301831;4300801;4392961;4393991;1;4483079;4482049;4568065;4569095;1;4652039;85];
[84;9975809;9895937;9894919;1;9811975;9812993;9726977;9725959;1;9636871;9637889;9545729;9544711;1;9450503;9451521;9355265;9354247;1;9154567;9155585;8947713;8946695;1;8730631;8731649;8507393;8506375;1;8274951;8275969;8037377;8036359;1;7789575;7790593;7536641;7535623;1;7274503;7275521;7007233;7006215;1;6731783;6732801;6452225;6451207;1;6163463;6164481;5869569;5868551;1;5567495;5568513;5261313;5260295;1;17415;18433;325633;324615;1;625671;626689;921601;920583;1;1208327;1209345;1489921;1488903;1;1763335;1764353;2032641;2031623;1;2292743;2293761;2547713;2546695;1;2793479;2794497;3033089;3032071;1;3263495;3264513;3488769;3487751;1;3703815;3704833;3912705;3911687;1;4111367;4112385;4208641;4207623;1;4301831;4302849;4395009;4393991;1;4483079;4484097;4570113;4569095;1;4652039;4653057;4732929;83];
[83;9975810;9895938;1;9894917;1;9811973;1;9812994;9726978;1;9725957;1;9636869;1;9637890;9545730;1;9544709;1;9450501;1;9451522;9355266;1;9354245;1;9154565;1;9155586;8947714;1;8946693;1;8730629;1;8731650;8507394;1;8506373;1;8274949;1;8275970;8037378;1;8036357;1;7789573;1;7790594;7536642;1;7535621;1;7274501;1;7275522;7007234;1;7006213;1;6731781;1;6732802;6452226;1;6451205;1;6163461;1;6164482;5869570;1;5868549;1;5567493;1;5568514;5261314;1;5260293;1;17413;1;18434;325634;1;324613;1;625669;1;626690;921602;1;920581;1;1208325;1;1209346;1489922;1;1488901;1;1763333;1;1764354;2032642;1;2031621;1;2292741;1;2293762;2547714;1;2546693;1;2793477;1;2794498;3033090;1;3032069;1;3263493;1;3264514;3488770;1;3487749;1;3703813;1;3704834;3912706;1;3911685;1;4111365;1;4112386;4208642;1;4207621;1;4301829;1;4302850;4395010;1;4393989;1;4483077;1;4484098;4570114;1;4569093;1;4652037;1;4653058;4732930;82];
[81;9975812;9895940;9894916;1;9811972;9812996;9726980;9725956;1;9636868;9637892;9545732;9544708;1;9450500;9451524;9355268;9354244;1;9154564;9155588;8947716;8946692;1;8730628;8731652;8507396;8506372;1;8274948;8275972;8037380;8036356;1;7789572;7790596;7536644;7535620;1;7274500;7275524;7007236;7006212;1;6731780;6732804;6452228;6451204;1;6163460;6164484;5869572;5868548;1;5567492;5568516;5261316;5260292;1;17412;18436;325636;324612;1;625668;626692;921604;920580;1;1208324;1209348;1489924;1488900;1;1763332;1764356;2032644;2031620;1;2292740;2293764;2547716;2546692;1;2793476;2794500;3033092;3032068;1;3263492;3264516;3488772;3487748;1;3703812;3704836;3912708;3911684;1;4111364;4112388;4208644;4207620;1;4301828;4302852;4395012;4393988;1;4483076;4484100;4570116;4569092;1;4652036;4653060;4732932;80];
[79;9975814;9895942;9894914;1;9811970;9812998;9726982;9725954;1;9636866;9637894;9545734;9544706;1;9450498;9451526;9355270;9354242;1;9154562;9155590;8947718;8946690;1;8730626;8731654;8507398;8506370;1;8274946;8275974;8037382;8036354;1;7789570;7790598;7536646;7535618;1;7274498;7275526;7007238;7006210;1;6731778;6732806;6452230;6451202;1;6163458;6164486;5869574;5868546;1;5567490;5568518;5261318;5260290;1;17410;18438;325638;324610;1;625666;626694;921606;920578;1;1208322;1209350;1489926;1488898;1;1763330;1764358;2032646;2031618;1;2292738;2293766;2547718;2546690;1;2793474;2794502;3033094;3032066;1;3263490;3264518;3488774;3487746;1;3703810;3704838;3912710;3911682;1;4111362;4112390;4208646;4207618;1;4301826;4302854;4395014;4393986;1;4483074;4484102;4570118;4569090;1;4652034;4653062;4732934;78];
[77;9975816;9895944;1;9813000;9726984;1;9637896;9545736;1;9451528;9355272;1;9155592;8947720;1;8731656;8507400;1;8275976;8037384;1;7790600;7536648;1;7275528;7007240;1;6732808;6452232;1;6164488;5869576;1;5568520;5261320;1;18440;325640;1;626696;921608;1;1209352;1489928;1;1764360;2032648;1;2293768;2547720;1;2794504;3033096;1;3264520;3488776;1;3704840;3912712;1;4112392;4208648;1;4302856;4395016;1;4484104;4570120;1;4653064;4732936;76];
[77;9975816;9895943;2;9813000;9726983;2;9637896;9545735;2;9451528;9355271;2;9155592;8947719;2;8731656;8507399;2;8275976;8037383;2;7790600;7536647;2;7275528;7007240;1;6732808;6452232;1;6164488;5869576;1;5568520;5261320;1;18440;325640;1;626696;921608;1;1209352;1489928;1;1764360;2032648;2;2293767;2547720;2;2794503;3033096;2;3264519;3488776;2;3704839;3912712;2;4112391;4208648;2;4302855;4395016;2;4484103;4570120;2;4653063;4732936;76];
[77;9976834;9975814;9895942;9896962;1;9814018;9812998;9726982;9728002;1;9638914;9637894;9545734;9546754;1;9452546;9451526;9355270;9356290;1;9156610;9155590;8947718;8948738;1;8732674;8731654;8507398;8508418;1;8276994;8275974;8037382;8038402;1;7791618;7790598;7536646;7537666;1;7276546;7275526;7007238;7008258;1;6733826;6732806;6452230;6453250;1;6165506;6164486;5869574;5870594;1;5569538;5568518;5261318;5262338;1;19458;18438;325638;326658;1;627714;626694;921606;922626;1;1210370;1209350;1489926;1490946;1;1765378;1764358;2032646;2033666;1;2294786;2293766;2547718;2548738;1;2795522;2794502;3033094;3034114;1;3265538;3264518;3488774;3489794;1;3705858;3704838;3912710;3913730;1;4113410;4112390;4208646;4209666;1;4303874;4302854;4395014;4396034;1;4485122;4484102;4570118;4571138;1;4654082;4653062;4732934;4733954;76];
[77;9976836;9975812;9895940;9896964;1;9814020;9812996;9726980;9728004;1;9638916;9637892;9545732;9546756;1;9452548;9451524;9355268;9356292;1;9156612;9155588;8947716;8948740;1;8732676;8731652;8507396;8508420;1;8276996;8275972;8037380;8038404;1;7791620;7790596;7536644;7537668;1;7276548;7275524;7007236;7008260;1;6733828;6732804;6452228;6453252;1;6165508;6164484;5869572;5870596;1;5569540;5568516;5261316;5262340;1;19460;18436;325636;326660;1;627716;626692;921604;922628;1;1210372;1209348;1489924;1490948;1;1765380;1764356;2032644;2033668;1;2294788;2293764;2547716;2548740;1;2795524;2794500;3033092;3034116;1;3265540;3264516;3488772;3489796;1;3705860;3704836;3912708;3913732;1;4113412;4112388;4208644;4209668;1;4303876;4302852;4395012;4396036;1;4485124;4484100;4570116;4571140;1;4654084;4653060;4732932;4733956;76];
[77;9976837;1;9975810;9895938;9896966;1;9814021;1;9812994;9726978;9728006;1;9638917;1;9637890;9545730;9546758;1;9452549;1;9451522;9355266;9356294;1;9156613;1;9155586;8947714;8948742;1;8732677;1;8731650;8507394;1;8508421;1;8276997;1;8275970;8037378;1;8038405;1;7791621;1;7790594;7536642;1;7537669;1;7276549;1;7275522;7007234;1;7008261;1;6733829;1;6732802;6452226;1;6453253;1;6165509;1;6164482;5869570;1;5870597;1;5569541;1;5568514;5261314;1;5262341;1;19461;1;18434;325634;1;326661;1;627717;1;626690;921602;1;922629;1;1210373;1;1209346;1489922;1;1490949;1;1765381;1;1764354;2032642;1;2033669;1;2294789;1;2293762;2547714;1;2548741;1;2795525;1;2794498;3033090;1;3034117;1;3265541;1;3264514;3488770;1;3489797;1;3705862;3704834;3912706;1;3913733;1;4113414;4112386;4208642;1;4209669;1;4303878;4302850;4395010;1;4396037;1;4485126;4484098;4570114;1;4571141;1;4654086;4653058;4732930;1;4733957;76];
[77;9976839;9975809;9895937;9896967;1;9814023;9812993;9726977;9728007;1;9638919;9637889;9545729;9546759;1;9452551;9451521;9355265;9356295;1;9156615;9155585;8947713;8948743;1;8732679;8731649;8507393;8508423;1;8276999;8275969;8037377;8038407;1;7791623;7790593;7536641;7537671;1;7276551;7275521;7007233;7008263;1;6733831;6732801;6452225;6453255;1;6165511;6164481;5869569;5870599;1;5569543;5568513;5261313;5262343;1;19463;18433;325633;326663;1;627719;626689;921601;922631;1;1210375;1209345;1489921;1490951;1;1765383;1764353;2032641;2033671;1;2294791;2293761;2547713;2548743;1;2795527;2794497;3033089;3034119;1;3265543;3264513;3488769;3489799;1;3705863;3704833;3912705;3913735;1;4113415;4112385;4208641;4209671;1;4303879;4302849;4395009;4396039;1;4485127;4484097;4570113;4571143;1;4654087;4653057;4732929;4733959;76];
[68;10054657;8;9976839;9977857;9897985;9896967;1;9814023;9815041;9729025;9728007;1;9638919;9639937;9547777;9546759;1;9452551;9453569;9357313;9356295;1;9156615;9157633;8949761;8948743;1;8732679;8733697;8509441;8508423;1;8276999;8278017;8039425;8038407;1;7791623;7792641;7538689;7537671;1;7276551;7277569;7009281;7008263;1;6733831;6734849;6454273;6453255;1;6165511;6166529;5871617;5870599;1;5569543;5570561;5263361;5262343;1;19463;20481;327681;326663;1;627719;628737;923649;922631;1;1210375;1211393;1491969;1490951;1;1765383;1766401;2034689;2033671;1;2294791;2295809;2549761;2548743;1;2795527;2796545;3035137;3034119;1;3265543;3266561;3490817;3489799;1;3705863;3706881;3914753;3913735;1;4113415;4114433;4210689;4209671;1;4303879;4304897;4397057;4396039;1;4485127;4486145;4572161;4571143;1;4654087;4655105;4734977;4733959;8;4811777;67];
[68;10054659;6;9976837;9977859;9897987;9896965;1;9814021;9815043;9729027;9728005;1;9638917;9639939;9547779;9546757;1;9452549;9453571;9357315;9356293;1;9156613;9157635;8949763;8948741;1;8732677;8733699;8509443;8508421;1;8276997;8278019;8039427;8038405;1;7791621;7792643;7538691;7537669;1;7276549;7277571;7009283;7008261;1;6733829;6734851;6454275;6453253;1;6165509;6166531;5871619;5870597;1;5569541;5570563;5263363;5262341;1;19461;20483;327683;326661;1;627717;628739;923651;922629;1;1210373;1211395;1491971;1490949;1;1765381;1766403;2034691;2033669;1;2294789;2295811;2549763;2548741;1;2795525;2796547;3035139;3034117;1;3265541;3266563;3490819;3489797;1;3705861;3706883;3914755;3913733;1;4113413;4114435;4210691;4209669;1;4303877;4304899;4397059;4396037;1;4485125;4486147;4572163;4571141;1;4654085;4655107;4734979;4733957;6;4811779;67];
[68;10054660;5;9976835;1;9977860;9897988;1;9896963;1;9814019;1;9815044;9729028;1;9728003;1;9638915;1;9639940;9547780;1;9546755;1;9452547;1;9453572;9357316;1;9356291;1;9156611;1;9157636;8949764;1;8948739;1;8732675;1;8733700;8509444;1;8508419;1;8276995;1;8278020;8039428;1;8038403;1;7791619;1;7792644;7538692;1;7537667;1;7276547;1;7277572;7009284;1;7008259;1;6733827;1;6734852;6454276;1;6453251;1;6165507;1;6166532;5871620;1;5870595;1;5569539;1;5570564;5263364;1;5262339;1;19459;1;20484;327684;1;326659;1;627715;1;628740;923652;1;922627;1;1210371;1;1211396;1491972;1;1490947;1;1765379;1;1766404;2034692;1;2033667;1;2294787;1;2295812;2549764;1;2548739;1;2795523;1;2796548;3035140;1;3034115;1;3265539;1;3266564;3490820;1;3489795;1;3705859;1;3706884;3914756;1;3913731;1;4113411;1;4114436;4210692;1;4209667;1;4303875;1;4304900;4397060;1;4396035;1;4485123;1;4486148;4572164;1;4571139;1;4654083;1;4655108;4734980;1;4733955;5;4811780;67];
[68;10054662;3;9976834;9977862;9897990;9896962;1;9814018;9815046;9729030;9728002;1;9638914;9639942;9547782;9546754;1;9452546;9453574;9357318;9356290;1;9156610;9157638;8949766;8948738;1;8732674;8733702;8509446;8508418;1;8276994;8278022;8039430;8038402;1;7791618;7792646;7538694;7537666;1;7276546;7277574;7009286;7008258;1;6733826;6734854;6454278;6453250;1;6165506;6166534;5871622;5870594;1;5569538;5570566;5263366;5262338;1;19458;20486;327686;326658;1;627714;628742;923654;922626;1;1210370;1211398;1491974;1490946;1;1765378;1766406;2034694;2033666;1;2294786;2295814;2549766;2548738;1;2795522;2796550;3035142;3034114;1;3265538;3266566;3490822;3489794;1;3705858;3706886;3914758;3913730;1;4113410;4114438;4210694;4209666;1;4303874;4304902;4397062;4396034;1;4485122;4486150;4572166;4571138;1;4654082;4655110;4734982;4733954;3;4811782;67];
[68;10054664;1;9977864;9897992;1;9815048;9729032;1;9639944;9547784;1;9453576;9357320;1;9157640;8949768;1;8733704;8509448;1;8278024;8039432;1;7792648;7538696;1;7277576;7009288;1;6734856;6454280;1;6166536;5871624;1;5570568;5263368;1;20488;327688;1;628744;923656;1;1211400;1491976;1;1766408;2034696;1;2295816;2549768;1;2796552;3035144;1;3266568;3490824;1;3706888;3914760;1;4114440;4210696;1;4304904;4397064;1;4486152;4572168;1;4655112;4734984;1;4811784;67];
[68;10054663;10055681;1;9978881;9977863;9897991;9899009;1;9816065;9815047;9729031;9730049;1;9640961;9639943;9547783;9548801;1;9454593;9453575;9357319;9358337;1;9158657;9157639;8949767;8950785;1;8734721;8733703;8509447;8510465;1;8279041;8278023;8039431;8040449;1;7793665;7792647;7538695;7539713;1;7278593;7277575;7009287;7010305;1;6735873;6734855;6454279;6455297;1;6167553;6166535;5871623;5872641;1;5571585;5570567;5263367;5264385;1;21505;20487;327687;328705;1;629761;628743;923655;924673;1;1212417;1211399;1491975;1492993;1;1767425;1766407;2034695;2035713;1;2296833;2295815;2549767;2550785;1;2797569;2796551;3035143;3036161;1;3267585;3266567;3490823;3491841;1;3707905;3706887;3914759;3915777;1;4115457;4114439;4210695;4211713;1;4305921;4304903;4397063;4398081;1;4487169;4486151;4572167;4573185;1;4656129;4655111;4734983;4736001;1;4812801;4811783;67];
[68;10054661;1;10055682;1;9978882;1;9977861;9897989;1;9899010;1;9816066;1;9815045;9729029;1;9730050;1;9640962;1;9639941;9547781;1;9548802;1;9454594;1;9453573;9357317;1;9358338;1;9158658;1;9157637;8949765;1;8950786;1;8734722;1;8733701;8509445;1;8510466;1;8279042;1;8278021;8039429;1;8040450;1;7793666;1;7792645;7538693;1;7539714;1;7278594;1;7277573;7009285;1;7010306;1;6735874;1;6734853;6454277;1;6455298;1;6167554;1;6166533;5871621;1;5872642;1;5571586;1;5570565;5263365;1;5264386;1;21506;1;20485;327685;1;328706;1;629762;1;628741;923653;1;924674;1;1212418;1;1211397;1491973;1;1492994;1;1767426;1;1766405;2034693;1;2035714;1;2296834;1;2295813;2549765;1;2550786;1;2797570;1;2796549;3035141;1;3036162;1;3267586;1;3266565;3490821;1;3491842;1;3707906;1;3706885;3914757;1;3915778;1;4115458;1;4114437;4210693;1;4211714;1;4305922;1;4304901;4397061;1;4398082;1;4487170;1;4486149;4572165;1;4573186;1;4656130;1;4655109;4734981;1;4736002;1;4812802;1;4811781;67];
[68;10054660;10055684;1;9978884;9977860;9897988;9899012;1;9816068;9815044;9729028;9730052;1;9640964;9639940;9547780;9548804;1;9454596;9453572;9357316;9358340;1;9158660;9157636;8949764;8950788;1;8734724;8733700;8509444;8510468;1;8279044;8278020;8039428;8040452;1;7793668;7792644;7538692;7539716;1;7278596;7277572;7009284;7010308;1;6735876;6734852;6454276;6455300;1;6167556;6166532;5871620;5872644;1;5571588;5570564;5263364;5264388;1;21508;20484;327684;328708;1;629764;628740;923652;924676;1;1212420;1211396;1491972;1492996;1;1767428;1766404;2034692;2035716;1;2296836;2295812;2549764;2550788;1;2797572;2796548;3035140;3036164;1;3267588;3266564;3490820;3491844;1;3707908;3706884;3914756;3915780;1;4115460;4114436;4210692;4211716;1;4305924;4304900;4397060;4398084;1;4487172;4486148;4572164;4573188;1;4656132;4655108;4734980;4736004;1;4812804;4811780;67];
[68;10054658;10055686;1;9978886;9977858;9897986;9899014;1;9816070;9815042;9729026;9730054;1;9640966;9639938;9547778;9548806;1;9454598;9453570;9357314;9358342;1;9158662;9157634;8949762;8950790;1;8734726;8733698;8509442;8510470;1;8279046;8278018;8039426;8040454;1;7793670;7792642;7538690;7539718;1;7278598;7277570;7009282;7010310;1;6735878;6734850;6454274;6455302;1;6167558;6166530;5871618;5872646;1;5571590;5570562;5263362;5264390;1;21510;20482;327682;328710;1;629766;628738;923650;924678;1;1212422;1211394;1491970;1492998;1;1767430;1766402;2034690;2035718;1;2296838;2295810;2549762;2550790;1;2797574;2796546;3035138;3036166;1;3267590;3266562;3490818;3491846;1;3707910;3706882;3914754;3915782;1;4115462;4114434;4210690;4211718;1;4305926;4304898;4397058;4398086;1;4487174;4486146;4572162;4573190;1;4656134;4655106;4734978;4736006;1;4812806;4811778;67];
[68;10055688;1;9978888;9899016;1;9816072;9730056;1;9640968;9548808;1;9454600;9358344;1;9158664;8950792;1;8734728;8510472;1;8279048;8040456;1;7793672;7539720;1;7278600;7010312;1;6735880;6455304;1;6167560;5872648;1;5571592;5264392;1;21512;328712;1;629768;924680;1;1212424;1493000;1;1767432;2035720;1;2296840;2550792;1;2797576;3036168;1;3267592;3491848;1;3707912;3915784;1;4115464;4211720;1;4305928;4398088;1;4487176;4573192;1;4656136;4736008;1;4812808;67];
[68;10056705;10055687;1;9978887;9979905;9900033;9899015;1;9816071;9817089;9731073;9730055;1;9640967;9641985;9549825;9548807;1;9454599;9455617;9359361;9358343;1;9158663;9159681;8951809;8950791;1;8734727;8735745;8511489;8510471;1;8279047;8280065;8041473;8040455;1;7793671;7794689;7540737;7539719;1;7278599;7279617;7011329;7010311;1;6735879;6736897;6456321;6455303;1;6167559;6168577;5873665;5872647;1;5571591;5572609;5265409;5264391;1;21511;22529;329729;328711;1;629767;630785;925697;924679;1;1212423;1213441;1494017;1492999;1;1767431;1768449;2036737;2035719;1;2296839;2297857;2551809;2550791;1;2797575;2798593;3037185;3036167;1;3267591;3268609;3492865;3491847;1;3707911;3708929;3916801;3915783;1;4115463;4116481;4212737;4211719;1;4305927;4306945;4399105;4398087;1;4487175;4488193;4574209;4573191;1;4656135;4657153;4737025;4736007;1;4812807;4813825;67];
[68;10056707;10055685;1;9978885;9979907;9900035;9899013;1;9816069;9817091;9731075;9730053;1;9640965;9641987;9549827;9548805;1;9454597;9455619;9359363;9358341;1;9158661;9159683;8951811;8950789;1;8734725;8735747;8511491;8510469;1;8279045;8280067;8041475;8040453;1;7793669;7794691;7540739;7539717;1;7278597;7279619;7011331;7010309;1;6735877;6736899;6456323;6455301;1;6167557;6168579;5873667;5872645;1;5571589;5572611;5265411;5264389;1;21509;22531;329731;328709;1;629765;630787;925699;924677;1;1212421;1213443;1494019;1492997;1;1767429;1768451;2036739;2035717;1;2296837;2297859;2551811;2550789;1;2797573;2798595;3037187;3036165;1;3267589;3268611;3492867;3491845;1;3707909;3708931;3916803;3915781;1;4115461;4116483;4212739;4211717;1;4305925;4306947;4399107;4398085;1;4487173;4488195;4574211;4573189;1;4656133;4657155;4737027;4736005;1;4812805;4813827;67];
[68;10056709;10055683;1;9978883;9979909;9900037;9899011;1;9816067;9817093;9731077;9730051;1;9640963;9641989;9549829;9548803;1;9454595;9455621;9359365;9358339;1;9158659;9159685;8951813;8950787;1;8734723;8735749;8511493;8510467;1;8279043;8280069;8041477;8040451;1;7793667;7794693;7540741;7539715;1;7278595;7279621;7011333;7010307;1;6735875;6736901;6456325;6455299;1;6167555;6168581;5873669;5872643;1;5571587;5572613;5265413;5264387;1;21507;22533;329733;328707;1;629763;630789;925701;924675;1;1212419;1213445;1494021;1492995;1;1767427;1768453;2036741;2035715;1;2296835;2297861;2551813;2550787;1;2797571;2798597;3037189;3036163;1;3267587;3268613;3492869;3491843;1;3707907;3708933;3916805;3915779;1;4115459;4116485;4212741;4211715;1;4305923;4306949;4399109;4398083;1;4487171;4488197;4574213;4573187;1;4656131;4657157;4737029;4736003;1;4812803;4813829;67];
[68;10056710;1;10055681;1;9978881;1;9979910;9900038;1;9899009;1;9816065;1;9817094;9731078;1;9730049;1;9640961;1;9641990;9549830;1;9548801;1;9454593;1;9455622;9359366;1;9358337;1;9158657;1;9159686;8951814;1;8950785;1;8734721;1;8735750;8511494;1;8510465;1;8279041;1;8280070;8041478;1;8040449;1;7793665;1;7794694;7540742;1;7539713;1;7278593;1;7279622;7011334;1;7010305;1;6735873;1;6736902;6456326;1;6455297;1;6167553;1;6168582;5873670;1;5872641;1;5571585;1;5572614;5265414;1;5264385;1;21505;1;22534;329734;1;328705;1;629761;1;630790;925702;1;924673;1;1212417;1;1213446;1494022;1;1492993;1;1767425;1;1768454;2036742;1;2035713;1;2296833;1;2297862;2551814;1;2550785;1;2797569;1;2798598;3037190;1;3036161;1;3267585;1;3268614;3492870;1;3491841;1;3707905;1;3708934;3916806;1;3915777;1;4115457;1;4116486;4212742;1;4211713;1;4305921;1;4306950;4399110;1;4398081;1;4487169;1;4488198;4574214;1;4573185;1;4656129;1;4657158;4737030;1;4736001;1;4812801;1;4813830;67];
[68;10056712;1;9979912;9900040;1;9817096;9731080;1;9641992;9549832;1;9455624;9359368;1;9159688;8951816;1;8735752;8511496;1;8280072;8041480;1;7794696;7540744;1;7279624;7011336;1;6736904;6456328;1;6168584;5873672;1;5572616;5265416;1;22536;329736;1;630792;925704;1;1213448;1494024;1;1768456;2036744;1;2297864;2551816;1;2798600;3037192;1;3268616;3492872;1;3708936;3916808;1;4116488;4212744;1;4306952;4399112;1;4488200;4574216;1;4657160;4737032;1;4813832;67];
[60;10129409;7;10056711;10057729;1;9980929;9979911;9900039;9901057;1;9818113;9817095;9731079;9732097;1;9643009;9641991;9549831;9550849;1;9456641;9455623;9359367;9360385;1;9160705;9159687;8951815;8952833;1;8736769;8735751;8511495;8512513;1;8281089;8280071;8041479;8042497;1;7795713;7794695;7540743;7541761;1;7280641;7279623;7011335;7012353;1;6737921;6736903;6456327;6457345;1;6169601;6168583;5873671;5874689;1;5573633;5572615;5265415;5266433;1;23553;22535;329735;330753;1;631809;630791;925703;926721;1;1214465;1213447;1494023;1495041;1;1769473;1768455;2036743;2037761;1;2298881;2297863;2551815;2552833;1;2799617;2798599;3037191;3038209;1;3269633;3268615;3492871;3493889;1;3709953;3708935;3916807;3917825;1;4117505;4116487;4212743;4213761;1;4307969;4306951;4399111;4400129;1;4489217;4488199;4574215;4575233;1;4658177;4657159;4737031;4738049;1;4814849;4813831;7;4886529;59];
[60;10129411;5;10056709;10057731;1;9980931;9979909;9900037;9901059;1;9818115;9817093;9731077;9732099;1;9643011;9641989;9549829;9550851;1;9456643;9455621;9359365;9360387;1;9160707;9159685;8951813;8952835;1;8736771;8735749;8511493;8512515;1;8281091;8280069;8041477;8042499;1;7795715;7794693;7540741;7541763;1;7280643;7279621;7011333;7012355;1;6737923;6736901;6456325;6457347;1;6169603;6168581;5873669;5874691;1;5573635;5572613;5265413;5266435;1;23555;22533;329733;330755;1;631811;630789;925701;926723;1;1214467;1213445;1494021;1495043;1;1769475;1768453;2036741;2037763;1;2298883;2297861;2551813;2552835;1;2799619;2798597;3037189;3038211;1;3269635;3268613;3492869;3493891;1;3709955;3708933;3916805;3917827;1;4117507;4116485;4212741;4213763;1;4307971;4306949;4399109;4400131;1;4489219;4488197;4574213;4575235;1;4658179;4657157;4737029;4738051;1;4814851;4813829;5;4886531;59];
[60;10129412;4;10056707;1;10057732;1;9980932;1;9979907;9900035;1;9901060;1;9818116;1;9817091;9731075;1;9732100;1;9643012;1;9641987;9549827;1;9550852;1;9456644;1;9455619;9359363;1;9360388;1;9160708;1;9159683;8951811;1;8952836;1;8736772;1;8735747;8511491;1;8512516;1;8281092;1;8280067;8041475;1;8042500;1;7795716;1;7794691;7540739;1;7541764;1;7280644;1;7279619;7011331;1;7012356;1;6737924;1;6736899;6456323;1;6457348;1;6169604;1;6168579;5873667;1;5874692;1;5573636;1;5572611;5265411;1;5266436;1;23556;1;22531;329731;1;330756;1;631812;1;630787;925699;1;926724;1;1214468;1;1213443;1494019;1;1495044;1;1769476;1;1768451;2036739;1;2037764;1;2298884;1;2297859;2551811;1;2552836;1;2799620;1;2798595;3037187;1;3038212;1;3269636;1;3268611;3492867;1;3493892;1;3709956;1;3708931;3916803;1;3917828;1;4117508;1;4116483;4212739;1;4213764;1;4307972;1;4306947;4399107;1;4400132;1;4489220;1;4488195;4574211;1;4575236;1;4658180;1;4657155;4737027;1;4738052;1;4814852;1;4813827;4;4886532;59];
[60;10129414;2;10056706;10057734;1;9980934;9979906;9900034;9901062;1;9818118;9817090;9731074;9732102;1;9643014;9641986;9549826;9550854;1;9456646;9455618;9359362;9360390;1;9160710;9159682;8951810;8952838;1;8736774;8735746;8511490;8512518;1;8281094;8280066;8041474;8042502;1;7795718;7794690;7540738;7541766;1;7280646;7279618;7011330;7012358;1;6737926;6736898;6456322;6457350;1;6169606;6168578;5873666;5874694;1;5573638;5572610;5265410;5266438;1;23558;22530;329730;330758;1;631814;630786;925698;926726;1;1214470;1213442;1494018;1495046;1;1769478;1768450;2036738;2037766;1;2298886;2297858;2551810;2552838;1;2799622;2798594;3037186;3038214;1;3269638;3268610;3492866;3493894;1;3709958;3708930;3916802;3917830;1;4117510;4116482;4212738;4213766;1;4307974;4306946;4399106;4400134;1;4489222;4488194;4574210;4575238;1;4658182;4657154;4737026;4738054;1;4814854;4813826;2;4886534;59];
[60;10129416;10057736;1;9980936;9901064;1;9818120;9732104;1;9643016;9550856;1;9456648;9360392;1;9160712;8952840;1;8736776;8512520;1;8281096;8042504;1;7795720;7541768;1;7280648;7012360;1;6737928;6457352;1;6169608;5874696;1;5573640;5266440;1;23560;330760;1;631816;926728;1;1214472;1495048;1;1769480;2037768;1;2298888;2552840;1;2799624;3038216;1;3269640;3493896;1;3709960;3917832;1;4117512;4213768;1;4307976;4400136;1;4489224;4575240;1;4658184;4738056;1;4814856;4886536;59];
[60;10129414;10130434;10058754;10057734;1;9980934;9981954;9902082;9901062;1;9818118;9819138;9733122;9732102;1;9643014;9644034;9551874;9550854;1;9456646;9457666;9361410;9360390;1;9160710;9161730;8953858;8952838;1;8736774;8737794;8513538;8512518;1;8281094;8282114;8043522;8042502;1;7795718;7796738;7542786;7541766;1;7280646;7281666;7013378;7012358;1;6737926;6738946;6458370;6457350;1;6169606;6170626;5875714;5874694;1;5573638;5574658;5267458;5266438;1;23558;24578;331778;330758;1;631814;632834;927746;926726;1;1214470;1215490;1496066;1495046;1;1769478;1770498;2038786;2037766;1;2298886;2299906;2553858;2552838;1;2799622;2800642;3039234;3038214;1;3269638;3270658;3494914;3493894;1;3709958;3710978;3918850;3917830;1;4117510;4118530;4214786;4213766;1;4307974;4308994;4401154;4400134;1;4489222;4490242;4576258;4575238;1;4658182;4659202;4739074;4738054;1;4814854;4815874;4887554;4886534;59];
[60;10129412;1;10130435;10058755;10057733;1;9980932;1;9981955;9902083;9901061;1;9818116;1;9819139;9733123;9732101;1;9643012;1;9644035;9551875;9550853;1;9456644;1;9457667;9361411;9360389;1;9160708;1;9161731;8953859;8952837;1;8736772;1;8737795;8513539;8512517;1;8281092;1;8282115;8043523;1;8042500;1;7795716;1;7796739;7542787;1;7541764;1;7280644;1;7281667;7013379;1;7012356;1;6737924;1;6738947;6458371;1;6457348;1;6169604;1;6170627;5875715;1;5874692;1;5573636;1;5574659;5267459;1;5266436;1;23556;1;24579;331779;1;330756;1;631812;1;632835;927747;1;926724;1;1214468;1;1215491;1496067;1;1495044;1;1769476;1;1770499;2038787;1;2037764;1;2298884;1;2299907;2553859;1;2552836;1;2799620;1;2800643;3039235;1;3038212;1;3269637;3270659;3494915;1;3493892;1;3709957;3710979;3918851;1;3917828;1;4117509;4118531;4214787;1;4213764;1;4307973;4308995;4401155;1;4400132;1;4489221;4490243;4576259;1;4575236;1;4658181;4659203;4739075;1;4738052;1;4814853;4815875;4887555;1;4886532;59];
[60;10129411;10130437;10058757;10057731;1;9980931;9981957;9902085;9901059;1;9818115;9819141;9733125;9732099;1;9643011;9644037;9551877;9550851;1;9456643;9457669;9361413;9360387;1;9160707;9161733;8953861;8952835;1;8736771;8737797;8513541;8512515;1;8281091;8282117;8043525;8042499;1;7795715;7796741;7542789;7541763;1;7280643;7281669;7013381;7012355;1;6737923;6738949;6458373;6457347;1;6169603;6170629;5875717;5874691;1;5573635;5574661;5267461;5266435;1;23555;24581;331781;330755;1;631811;632837;927749;926723;1;1214467;1215493;1496069;1495043;1;1769475;1770501;2038789;2037763;1;2298883;2299909;2553861;2552835;1;2799619;2800645;3039237;3038211;1;3269635;3270661;3494917;3493891;1;3709955;3710981;3918853;3917827;1;4117507;4118533;4214789;4213763;1;4307971;4308997;4401157;4400131;1;4489219;4490245;4576261;4575235;1;4658179;4659205;4739077;4738051;1;4814851;4815877;4887557;4886531;59];
[60;10129409;10130439;10058759;10057729;1;9980929;9981959;9902087;9901057;1;9818113;9819143;9733127;9732097;1;9643009;9644039;9551879;9550849;1;9456641;9457671;9361415;9360385;1;9160705;9161735;8953863;8952833;1;8736769;8737799;8513543;8512513;1;8281089;8282119;8043527;8042497;1;7795713;7796743;7542791;7541761;1;7280641;7281671;7013383;7012353;1;6737921;6738951;6458375;6457345;1;6169601;6170631;5875719;5874689;1;5573633;5574663;5267463;5266433;1;23553;24583;331783;330753;1;631809;632839;927751;926721;1;1214465;1215495;1496071;1495041;1;1769473;1770503;2038791;2037761;1;2298881;2299911;2553863;2552833;1;2799617;2800647;3039239;3038209;1;3269633;3270663;3494919;3493889;1;3709953;3710983;3918855;3917825;1;4117505;4118535;4214791;4213761;1;4307969;4308999;4401159;4400129;1;4489217;4490247;4576263;4575233;1;4658177;4659207;4739079;4738049;1;4814849;4815879;4887559;4886529;59];
[60;10130440;10058760;1;9981960;9902088;1;9819144;9733128;1;9644040;9551880;1;9457672;9361416;1;9161736;8953864;1;8737800;8513544;1;8282120;8043528;1;7796744;7542792;1;7281672;7013384;1;6738952;6458376;1;6170632;5875720;1;5574664;5267464;1;24584;331784;1;632840;927752;1;1215496;1496072;1;1770504;2038792;1;2299912;2553864;1;2800648;3039240;1;3270664;3494920;1;3710984;3918856;1;4118536;4214792;1;4309000;4401160;1;4490248;4576264;1;4659208;4739080;1;4815880;4887560;59];
[58;10198017;1;10131457;10130439;10058759;10059777;1;9982977;9981959;9902087;9903105;1;9820161;9819143;9733127;9734145;1;9645057;9644039;9551879;9552897;1;9458689;9457671;9361415;9362433;1;9162753;9161735;8953863;8954881;1;8738817;8737799;8513543;8514561;1;8283137;8282119;8043527;8044545;1;7797761;7796743;7542791;7543809;1;7282689;7281671;7013383;7014401;1;6739969;6738951;6458375;6459393;1;6171649;6170631;5875719;5876737;1;5575681;5574663;5267463;5268481;1;25601;24583;331783;332801;1;633857;632839;927751;928769;1;1216513;1215495;1496071;1497089;1;1771521;1770503;2038791;2039809;1;2300929;2299911;2553863;2554881;1;2801665;2800647;3039239;3040257;1;3271681;3270663;3494919;3495937;1;3712001;3710983;3918855;3919873;1;4119553;4118535;4214791;4215809;1;4310017;4308999;4401159;4402177;1;4491265;4490247;4576263;4577281;1;4660225;4659207;4739079;4740097;1;4816897;4815879;4887559;4888577;1;4955137;57];
[56;10198019;1;10131459;10130437;10058757;10059779;1;9982979;9981957;9902085;9903107;1;9820163;9819141;9733125;9734147;1;9645059;9644037;9551877;9552899;1;9458691;9457669;9361413;9362435;1;9162755;9161733;8953861;8954883;1;8738819;8737797;8513541;8514563;1;8283139;8282117;8043525;8044547;1;7797763;7796741;7542789;7543811;1;7282691;7281669;7013381;7014403;1;6739971;6738949;6458373;6459395;1;6171651;6170629;5875717;5876739;1;5575683;5574661;5267461;5268483;1;25603;24581;331781;332803;1;633859;632837;927749;928771;1;1216515;1215493;1496069;1497091;1;1771523;1770501;2038789;2039811;1;2300931;2299909;2553861;2554883;1;2801667;2800645;3039237;3040259;1;3271683;3270661;3494917;3495939;1;3712003;3710981;3918853;3919875;1;4119555;4118533;4214789;4215811;1;4310019;4308997;4401157;4402179;1;4491267;4490245;4576261;4577283;1;4660227;4659205;4739077;4740099;1;4816899;4815877;4887557;4888579;1;4955139;55];
[54;10198021;1;10131461;10130435;10058755;10059781;1;9982981;9981955;9902083;9903109;1;9820165;9819139;9733123;9734149;1;9645061;9644035;9551875;9552901;1;9458693;9457667;9361411;9362437;1;9162757;9161731;8953859;8954885;1;8738821;8737795;8513539;8514565;1;8283141;8282115;8043523;8044549;1;7797765;7796739;7542787;7543813;1;7282693;7281667;7013379;7014405;1;6739973;6738947;6458371;6459397;1;6171653;6170627;5875715;5876741;1;5575685;5574659;5267459;5270529;5269505;5268483;1;25603;26625;27649;24579;331779;332805;1;633861;632835;927747;928773;1;1216517;1215491;1496067;1497093;1;1771525;1770499;2038787;2039813;1;2300933;2299907;2553859;2554885;1;2801669;2800643;3039235;3040261;1;3271685;3270659;3494915;3495941;1;3712005;3710979;3918851;3919877;1;4119557;4118531;4214787;4215813;1;4310021;4308995;4401155;4402181;1;4491269;4490243;4576259;4577285;1;4660229;4659203;4739075;4740101;1;4816901;4815875;4887555;4888581;1;4955141;53];
[53;10198022;1;10131462;1;10130433;10058753;1;10059782;1;9982982;1;9981953;9902081;1;9903110;1;9820166;1;9819137;9733121;1;9734150;1;9645062;1;9644033;9551873;1;9552902;1;9458694;1;9457665;9361409;1;9362438;1;9162758;1;9161729;8953857;1;8954886;1;8738822;1;8737793;8513537;1;8514566;1;8283142;1;8282113;8043521;1;8044550;1;7797766;1;7796737;7542785;1;7543814;1;7282694;1;7281665;7013377;1;7014406;1;6739974;1;6738945;6458369;1;6459398;1;6171654;1;6170625;5875713;1;5876742;1;5575686;1;5574657;5267457;1;5270530;5269507;5268481;1;25601;26627;27650;1;24577;331777;1;332806;1;633862;1;632833;927745;1;928774;1;1216518;1;1215489;1496065;1;1497094;1;1771526;1;1770497;2038785;1;2039814;1;2300934;1;2299905;2553857;1;2554886;1;2801670;1;2800641;3039233;1;3040262;1;3271686;1;3270657;3494913;1;3495942;1;3712006;1;3710977;3918849;1;3919878;1;4119558;1;4118529;4214785;1;4215814;1;4310022;1;4308993;4401153;1;4402182;1;4491270;1;4490241;4576257;1;4577286;1;4660230;1;4659201;4739073;1;4740102;1;4816902;1;4815873;4887553;1;4888582;1;4955142;52];
[51;10198024;1;10131464;10059784;1;9982984;9903112;1;9820168;9734152;1;9645064;9552904;1;9458696;9362440;1;9162760;8954888;1;8738824;8514568;1;8283144;8044552;1;7797768;7543816;1;7282696;7014408;1;6739976;6459400;1;6171656;5876744;1;5575688;5270532;5269508;1;26628;27652;332808;1;633864;928776;1;1216520;1497096;1;1771528;2039816;1;2300936;2554888;1;2801672;3040264;1;3271688;3495944;1;3712008;3919880;1;4119560;4215816;1;4310024;4402184;1;4491272;4577288;1;4660232;4740104;1;4816904;4888584;1;4955144;50];
[51;10199042;10198022;1;10131462;10132482;10060802;10059782;1;9982982;9984002;9904130;9903110;1;9820166;9821186;9735170;9734150;1;9645062;9646082;9553922;9552902;1;9458694;9459714;9363458;9362438;1;9162758;9163778;8955906;8954886;1;8738822;8739842;8515586;8514566;1;8283142;8284162;8045570;8044550;1;7797766;7798786;7544834;7543814;1;7282694;7283714;7015426;7014406;1;6739974;6740994;6460418;6459398;1;6171654;6172674;5877762;5876742;1;5575686;5576706;5272578;5270530;5269506;1;5271553;1;28673;1;26626;27650;29698;333826;332806;1;633862;634882;929794;928774;1;1216518;1217538;1498114;1497094;1;1771526;1772546;2040834;2039814;1;2300934;2301954;2555906;2554886;1;2801670;2802690;3041282;3040262;1;3271686;3272706;3496962;3495942;1;3712006;3713026;3920898;3919878;1;4119558;4120578;4216834;4215814;1;4310022;4311042;4403202;4402182;1;4491270;4492290;4578306;4577286;1;4660230;4661250;4741122;4740102;1;4816902;4817922;4889602;4888582;1;4955142;4956162;50];
[51;10199044;10198020;1;10131460;10132484;10060804;10059780;1;9982980;9984004;9904132;9903108;1;9820164;9821188;9735172;9734148;1;9645060;9646084;9553924;9552900;1;9458692;9459716;9363460;9362436;1;9162756;9163780;8955908;8954884;1;8738820;8739844;8515588;8514564;1;8283140;8284164;8045572;8044548;1;7797764;7798788;7544836;7543812;1;7282692;7283716;7015428;7014404;1;6739972;6740996;6460420;6459396;1;6171652;6172676;5877764;5876740;1;5575684;5576708;5272580;5269505;5271555;1;28675;26625;29700;333828;332804;1;633860;634884;929796;928772;1;1216516;1217540;1498116;1497092;1;1771524;1772548;2040836;2039812;1;2300932;2301956;2555908;2554884;1;2801668;2802692;3041284;3040260;1;3271684;3272708;3496964;3495940;1;3712004;3713028;3920900;3919876;1;4119556;4120580;4216836;4215812;1;4310020;4311044;4403204;4402180;1;4491268;4492292;4578308;4577284;1;4660228;4661252;4741124;4740100;1;4816900;4817924;4889604;4888580;1;4955140;4956164;50];
[51;10199045;1;10198018;1;10131458;1;10132485;10060805;1;10059778;1;9982978;1;9984005;9904133;1;9903106;1;9820162;1;9821189;9735173;1;9734146;1;9645058;1;9646085;9553925;1;9552898;1;9458690;1;9459717;9363461;1;9362434;1;9162754;1;9163781;8955909;1;8954882;1;8738818;1;8739845;8515589;1;8514562;1;8283138;1;8284165;8045573;1;8044546;1;7797762;1;7798789;7544837;1;7543810;1;7282690;1;7283717;7015429;1;7014402;1;6739970;1;6740997;6460421;1;6459394;1;6171650;1;6172677;5877765;1;5876738;1;5575682;1;5578753;5577729;5576707;5272579;5273601;5274625;1;5271554;1;28674;1;31745;30721;29699;333827;334849;335873;1;332802;1;633858;1;634885;929797;1;928770;1;1216514;1;1217541;1498117;1;1497090;1;1771522;1;1772549;2040837;1;2039810;1;2300930;1;2301957;2555909;1;2554882;1;2801666;1;2802693;3041285;1;3040258;1;3271682;1;3272709;3496965;1;3495938;1;3712002;1;3713029;3920901;1;3919874;1;4119554;1;4120581;4216837;1;4215810;1;4310018;1;4311045;4403205;1;4402178;1;4491266;1;4492293;4578309;1;4577282;1;4660226;1;4661253;4741125;1;4740098;1;4816898;1;4817925;4889605;1;4888578;1;4955138;1;4956165;50];
[51;10199047;10198017;1;10131457;10132487;10060807;10059777;1;9982977;9984007;9904135;9903105;1;9820161;9821191;9735175;9734145;1;9645057;9646087;9553927;9552897;1;9458689;9459719;9363463;9362433;1;9162753;9163783;8955911;8954881;1;8738817;8739847;8515591;8514561;1;8283137;8284167;8045575;8044545;1;7797761;7798791;7544839;7543809;1;7282689;7283719;7015431;7014401;1;6739969;6740999;6460423;6459393;1;6171649;6172679;5877767;5876737;1;5575681;5578755;5577731;5576705;5272577;5273603;5274627;5271553;1;28673;31747;30723;29697;333825;334851;335875;332801;1;633857;634887;929799;928769;1;1216513;1217543;1498119;1497089;1;1771521;1772551;2040839;2039809;1;2300929;2301959;2555911;2554881;1;2801665;2802695;3041287;3040257;1;3271681;3272711;3496967;3495937;1;3712001;3713031;3920903;3919873;1;4119553;4120583;4216839;4215809;1;4310017;4311047;4403207;4402177;1;4491265;4492295;4578311;4577281;1;4660225;4661255;4741127;4740097;1;4816897;4817927;4889607;4888577;1;4955137;4956167;50];
[51;10199048;1;10132488;10060808;1;9984008;9904136;1;9821192;9735176;1;9646088;9553928;1;9459720;9363464;1;9163784;8955912;1;8739848;8515592;1;8284168;8045576;1;7798792;7544840;1;7283720;7015432;1;6741000;6460424;1;6172680;5877768;1;5578756;5577731;2;5273603;5274628;1;31748;30723;2;334851;335876;1;634888;929800;1;1217544;1498120;1;1772552;2040840;1;2301960;2555912;1;2802696;3041288;1;3272712;3496968;1;3713032;3920904;1;4120584;4216840;1;4311048;4403208;1;4492296;4578312;1;4661256;4741128;1;4817928;4889608;1;4956168;50];
[43;10262530;6;10199046;10200066;1;10133506;10132486;10060806;10061826;1;9985026;9984006;9904134;9905154;1;9822210;9821190;9735174;9736194;1;9647106;9646086;9553926;9554946;1;9460738;9459718;9363462;9364482;1;9164802;9163782;8955910;8956930;1;8740866;8739846;8515590;8516610;1;8285186;8284166;8045574;8046594;1;7799810;7798790;7544838;7545858;1;7284738;7283718;7015430;7016450;1;6742018;6740998;6460422;6461442;1;6173698;6172678;5877766;5878786;1;5580802;5578754;5577730;5579778;5275650;5273602;5274626;5276674;1;33794;31746;30722;32770;336898;334850;335874;337922;1;635906;634886;929798;930818;1;1218562;1217542;1498118;1499138;1;1773570;1772550;2040838;2041858;1;2302978;2301958;2555910;2556930;1;2803714;2802694;3041286;3042306;1;3273730;3272710;3496966;3497986;1;3714050;3713030;3920902;3921922;1;4121602;4120582;4216838;4217858;1;4312066;4311046;4403206;4404226;1;4493314;4492294;4578310;4579330;1;4662274;4661254;4741126;4742146;1;4818946;4817926;4889606;4890626;1;4957186;4956166;6;5019650;42];
[43;10262531;5;10199044;1;10200067;1;10133507;10132485;10060804;1;10061827;1;9985027;9984005;9904132;1;9905155;1;9822211;9821189;9735172;1;9736195;1;9647107;9646085;9553924;1;9554947;1;9460739;9459717;9363460;1;9364483;1;9164803;9163781;8955908;1;8956931;1;8740867;8739845;8515588;1;8516611;1;8285187;8284165;8045572;1;8046595;1;7799811;7798789;7544836;1;7545859;1;7284739;7283717;7015428;1;7016451;1;6742019;6740997;6460421;6461443;1;6173699;6172677;5877765;5878787;1;5580803;5578753;5579780;5275652;5274625;5276675;1;33795;31745;32772;336900;335873;337923;1;635907;634885;929797;930819;1;1218563;1217541;1498117;1499139;1;1773571;1;1772548;2040837;2041859;1;2302979;1;2301956;2555909;2556931;1;2803715;1;2802692;3041285;3042307;1;3273731;1;3272708;3496965;3497987;1;3714051;1;3713028;3920901;3921923;1;4121603;1;4120580;4216837;4217859;1;4312067;1;4311044;4403205;4404227;1;4493315;1;4492292;4578309;4579331;1;4662275;1;4661252;4741125;4742147;1;4818947;1;4817924;4889605;4890627;1;4957187;1;4956164;5;5019651;42];
[43;10262533;3;10199043;10200069;1;10133509;10132483;10060803;10061829;1;9985029;9984003;9904131;9905157;1;9822213;9821187;9735171;9736197;1;9647109;9646083;9553923;9554949;1;9460741;9459715;9363459;9364485;1;9164805;9163779;8955907;8956933;1;8740869;8739843;8515587;8516613;1;8285189;8284163;8045571;8046597;1;7799813;7798787;7544835;7545861;1;7284741;7283715;7015427;7016453;1;6742021;6740995;6460419;6461445;1;6173701;6172675;5877763;5880833;5879810;5878786;1;5580802;5581826;5582849;5579779;5275651;5278721;5277698;5276674;1;33794;34818;35841;32771;336899;339969;338946;337922;1;635906;636930;637953;634883;929795;930821;1;1218565;1217539;1498115;1499141;1;1773573;1772547;2040835;2041861;1;2302981;2301955;2555907;2556933;1;2803717;2802691;3041283;3042309;1;3273733;3272707;3496963;3497989;1;3714053;3713027;3920899;3921925;1;4121605;4120579;4216835;4217861;1;4312069;4311043;4403203;4404229;1;4493317;4492291;4578307;4579333;1;4662277;4661251;4741123;4742149;1;4818949;4817923;4889603;4890629;1;4957189;4956163;3;5019653;42];
[43;10262535;1;10199041;10200071;1;10133511;10132481;10060801;10061831;1;9985031;9984001;9904129;9905159;1;9822215;9821185;9735169;9736199;1;9647111;9646081;9553921;9554951;1;9460743;9459713;9363457;9364487;1;9164807;9163777;8955905;8956935;1;8740871;8739841;8515585;8516615;1;8285191;8284161;8045569;8046599;1;7799815;7798785;7544833;7545863;1;7284743;7283713;7015425;7016455;1;6742023;6740993;6460417;6461447;1;6173703;6172673;5877761;5880835;5879811;5878785;1;5580801;5581827;5582851;5579777;5275649;5278723;5277699;5276673;1;33793;34819;35843;32769;336897;339971;338947;337921;1;635905;636931;637955;634881;929793;930823;1;1218567;1217537;1498113;1499143;1;1773575;1772545;2040833;2041863;1;2302983;2301953;2555905;2556935;1;2803719;2802689;3041281;3042311;1;3273735;3272705;3496961;3497991;1;3714055;3713025;3920897;3921927;1;4121607;4120577;4216833;4217863;1;4312071;4311041;4403201;4404231;1;4493319;4492289;4578305;4579335;1;4662279;4661249;4741121;4742151;1;4818951;4817921;4889601;4890631;1;4957191;4956161;1;5019655;42];
[43;10262535;10263553;1;10200071;1;10133511;10134529;1;10061831;1;9985031;9986049;1;9905159;1;9822215;9823233;1;9736199;1;9647111;9648129;1;9554951;1;9460743;9461761;1;9364487;1;9164807;9165825;1;8956935;1;8740871;8741889;1;8516615;1;8285191;2;8046599;1;7799815;2;7545863;1;7284743;2;7016455;1;6742023;2;6461447;1;6173703;2;5880835;5879812;1;5581828;5582851;2;5278723;5277700;1;34820;35843;2;339971;338948;1;636932;637955;2;930823;1;1218567;2;1499143;1;1773575;2;2041863;1;2302983;2;2556935;1;2803719;2;3042311;1;3273735;1;3499009;3497991;1;3714055;1;3922945;3921927;1;4121607;1;4218881;4217863;1;4312071;1;4405249;4404231;1;4493319;1;4580353;4579335;1;4662279;1;4743169;4742151;1;4818951;1;4891649;4890631;1;4957191;1;5020673;5019655;42];
[43;10262534;10263554;10201090;10200070;1;10133510;10134530;10062850;10061830;1;9985030;9986050;9906178;9905158;1;9822214;9823234;9737218;9736198;1;9647110;9648130;9555970;9554950;1;9460742;9461762;9365506;9364486;1;9164806;9165826;8957954;8956934;1;8740870;8741890;8517634;8516614;1;8285190;8286210;8047618;8046598;1;7799814;7800834;7546882;7545862;1;7284742;7285762;7017474;7016454;1;6742022;6743042;6462466;6461446;1;6173702;6174722;5882882;5880834;5879810;5881858;1;5583874;5581826;5582850;5584898;5280770;5278722;5277698;5279746;1;36866;34818;35842;37890;342018;339970;338946;340994;1;638978;636930;637954;640002;931842;930822;1;1218566;1219586;1500162;1499142;1;1773574;1774594;2042882;2041862;1;2302982;2304002;2557954;2556934;1;2803718;2804738;3043330;3042310;1;3273734;3274754;3499010;3497990;1;3714054;3715074;3922946;3921926;1;4121606;4122626;4218882;4217862;1;4312070;4313090;4405250;4404230;1;4493318;4494338;4580354;4579334;1;4662278;4663298;4743170;4742150;1;4818950;4819970;4891650;4890630;1;4957190;4958210;5020674;5019654;42];
[43;10262532;10263556;10201092;10200068;1;10133508;10134532;10062852;10061828;1;9985028;9986052;9906180;9905156;1;9822212;9823236;9737220;9736196;1;9647108;9648132;9555972;9554948;1;9460740;9461764;9365508;9364484;1;9164804;9165828;8957956;8956932;1;8740868;8741892;8517636;8516612;1;8285188;8286212;8047620;8046596;1;7799812;7800836;7546884;7545860;1;7284740;7285764;7017476;7016452;1;6742020;6743044;6462468;6461444;1;6173700;6174724;5882884;1;5881859;1;5583875;1;5584900;5280772;1;5279747;1;36867;1;37892;342020;1;340995;1;638979;1;640004;931844;930820;1;1218564;1219588;1500164;1499140;1;1773572;1774596;2042884;2041860;1;2302980;2304004;2557956;2556932;1;2803716;2804740;3043332;3042308;1;3273732;3274756;3499012;3497988;1;3714052;3715076;3922948;3921924;1;4121604;4122628;4218884;4217860;1;4312068;4313092;4405252;4404228;1;4493316;4494340;4580356;4579332;1;4662276;4663300;4743172;4742148;1;4818948;4819972;4891652;4890628;1;4957188;4958212;5020676;5019652;42];
[43;10262530;10263558;10201094;10200066;1;10133506;10134534;10062854;10061826;1;9985026;9986054;9906182;9905154;1;9822210;9823238;9737222;9736194;1;9647106;9648134;9555974;9554946;1;9460738;9461766;9365510;9364482;1;9164802;9165830;8957958;8956930;1;8740866;8741894;8517638;8516610;1;8285186;8286214;8047622;8046594;1;7799810;7800838;7546886;7545858;1;7284738;7285766;7017478;7016450;1;6742018;6743046;6462470;6461442;1;6173698;6176770;6175745;6174723;5882883;5883905;5884930;5881858;1;5583874;5586946;5585921;5584899;5280771;5281793;5282818;5279746;1;36866;39938;38913;37891;342019;343041;344066;340994;1;638978;642050;641025;640003;931843;932865;933890;930818;1;1218562;1219590;1500166;1499138;1;1773570;1774598;2042886;2041858;1;2302978;2304006;2557958;2556930;1;2803714;2804742;3043334;3042306;1;3273730;3274758;3499014;3497986;1;3714050;3715078;3922950;3921922;1;4121602;4122630;4218886;4217858;1;4312066;4313094;4405254;4404226;1;4493314;4494342;4580358;4579330;1;4662274;4663302;4743174;4742146;1;4818946;4819974;4891654;4890626;1;4957186;4958214;5020678;5019650;42];
[44;10263559;10201095;3;10134535;10062855;3;9986055;9906183;3;9823239;9737223;3;9648135;9555975;3;9461767;9365511;3;9165831;8957959;3;8741895;8517639;3;8286215;8047623;3;7800839;7546887;3;7285767;7017479;3;6743047;6462471;3;6176771;6175747;6174721;5882881;5883907;5884931;3;5586947;5585923;5584897;5280769;5281795;5282819;3;39939;38915;37889;342017;343043;344067;3;642051;641027;640001;931841;932867;933891;3;1219591;1500167;3;1774599;2042887;3;2304007;2557959;3;2804743;3043335;3;3274759;3499015;3;3715079;3922951;3;4122631;4218887;3;4313095;4405255;3;4494343;4580359;3;4663303;4743175;3;4819975;4891655;3;4958215;5020679;43];
[43;10263560;10201096;1;10134536;10062856;1;9986056;9906184;1;9823240;9737224;1;9648136;9555976;1;9461768;9365512;1;9165832;8957960;1;8741896;8517640;1;8286216;8047624;1;7800840;7546888;1;7285768;7017480;1;6743048;6462472;1;6176772;6175747;6177793;5885953;5883907;5884932;1;5586948;5585923;5587969;5283841;5281795;5282820;1;39940;38915;40961;345089;343043;344068;1;642052;641027;643073;934913;932867;933892;1;1219592;1500168;1;1774600;2042888;1;2304008;2557960;1;2804744;3043336;1;3274760;3499016;1;3715080;3922952;1;4122632;4218888;1;4313096;4405256;1;4494344;4580360;1;4663304;4743176;1;4819976;4891656;1;4958216;5020680;42];
[43;10264578;10263558;10201094;10202114;1;10135554;10134534;10062854;10063874;1;9987074;9986054;9906182;9907202;1;9824258;9823238;9737222;9738242;1;9649154;9648134;9555974;9556994;1;9462786;9461766;9365510;9366530;1;9166850;9165830;8957958;8958978;1;8742914;8741894;8517638;8518658;1;8287234;8286214;8047622;8048642;1;7801858;7800838;7546886;7547906;1;7286786;7285766;7017478;7018498;1;6744066;6743046;6462470;6463490;1;6178818;6176770;6175745;1;6177794;5885954;1;5883905;5884930;5886978;1;5588994;5586946;5585921;1;5587970;5283842;1;5281793;5282818;5284866;1;41986;39938;38913;1;40962;345090;1;343041;344066;346114;1;644098;642050;641025;1;643074;934914;1;932865;933890;935938;1;1220610;1219590;1500166;1501186;1;1775618;1774598;2042886;2043906;1;2305026;2304006;2557958;2558978;1;2805762;2804742;3043334;3044354;1;3275778;3274758;3499014;3500034;1;3716098;3715078;3922950;3923970;1;4123650;4122630;4218886;4219906;1;4314114;4313094;4405254;4406274;1;4495362;4494342;4580358;4581378;1;4664322;4663302;4743174;4744194;1;4820994;4819974;4891654;4892674;1;4959234;4958214;5020678;5021698;42];
[43;10264580;10263556;10201092;10202116;1;10135556;10134532;10062852;10063876;1;9987076;9986052;9906180;9907204;1;9824260;9823236;9737220;9738244;1;9649156;9648132;9555972;9556996;1;9462788;9461764;9365508;9366532;1;9166852;9165828;8957956;8958980;1;8742916;8741892;8517636;8518660;1;8287236;8286212;8047620;8048644;1;7801860;7800836;7546884;7547908;1;7286788;7285764;7017476;7018500;1;6744068;6743044;6462468;6463492;1;6178820;6177796;5885956;5886980;1;5588996;5587972;5283844;5284868;1;41988;40964;345092;346116;1;644100;643076;934916;935940;1;1220612;1219588;1500164;1501188;1;1775620;1774596;2042884;2043908;1;2305028;2304004;2557956;2558980;1;2805764;2804740;3043332;3044356;1;3275780;3274756;3499012;3500036;1;3716100;3715076;3922948;3923972;1;4123652;4122628;4218884;4219908;1;4314116;4313092;4405252;4406276;1;4495364;4494340;4580356;4581380;1;4664324;4663300;4743172;4744196;1;4820996;4819972;4891652;4892676;1;4959236;4958212;5020676;5021700;42];
[43;10264581;1;10263554;10201090;1;10202117;1;10135557;1;10134530;10062850;1;10063877;1;9987077;1;9986050;9906178;1;9907205;1;9824261;1;9823234;9737218;1;9738245;1;9649157;1;9648130;9555970;1;9556997;1;9462789;1;9461762;9365506;1;9366533;1;9166853;1;9165826;8957954;1;8958981;1;8742917;1;8741890;8517634;1;8518661;1;8287237;1;8286210;8047618;1;8048645;1;7801861;1;7800834;7546882;1;7547909;1;7286789;1;7285762;7017474;1;7018501;1;6744069;1;6743042;6462466;1;6465537;6464514;6463490;1;6178818;6179842;6180865;1;6177794;5885954;1;5889025;5888002;5886978;1;5588994;5590018;5591041;1;5587970;5283842;1;5286913;5285890;5284866;1;41986;43010;44033;1;40962;345090;1;348161;347138;346114;1;644098;645122;646145;1;643074;934914;1;937985;936962;935938;1;1220610;1221634;1222657;1;1219586;1500162;1;1501189;1;1775621;1;1774594;2042882;1;2043909;1;2305029;1;2304002;2557954;1;2558981;1;2805765;1;2804738;3043330;1;3044357;1;3275781;1;3274754;3499010;1;3500037;1;3716101;1;3715074;3922946;1;3923973;1;4123653;1;4122626;4218882;1;4219909;1;4314117;1;4313090;4405250;1;4406277;1;4495365;1;4494338;4580354;1;4581381;1;4664325;1;4663298;4743170;1;4744197;1;4820997;1;4819970;4891650;1;4892677;1;4959237;1;4958210;5020674;1;5021701;42];
[43;10264583;10263553;10201089;10202119;1;10135559;10134529;10062849;10063879;1;9987079;9986049;9906177;9907207;1;9824263;9823233;9737217;9738247;1;9649159;9648129;9555969;9556999;1;9462791;9461761;9365505;9366535;1;9166855;9165825;8957953;8958983;1;8742919;8741889;8517633;8518663;1;8287239;8286209;8047617;8048647;1;7801863;7800833;7546881;7547911;1;7286791;7285761;7017473;7018503;1;6744071;6743041;6462465;6465539;6464516;1;6179844;6180867;6177793;5885953;5889027;5888004;1;5590020;5591043;5587969;5283841;5286915;5285892;1;43012;44035;40961;345089;348163;347140;1;645124;646147;643073;934913;937987;936964;1;1221636;1222659;1219585;1500161;1501191;1;1775623;1774593;2042881;2043911;1;2305031;2304001;2557953;2558983;1;2805767;2804737;3043329;3044359;1;3275783;3274753;3499009;3500039;1;3716103;3715073;3922945;3923975;1;4123655;4122625;4218881;4219911;1;4314119;4313089;4405249;4406279;1;4495367;4494337;4580353;4581383;1;4664327;4663297;4743169;4744199;1;4820999;4819969;4891649;4892679;1;4959239;4958209;5020673;5021703;42];
[34;10322945;8;10264583;10265601;10203137;10202119;1;10135559;10136577;10064897;10063879;1;9987079;9988097;9908225;9907207;1;9824263;9825281;9739265;9738247;1;9649159;9650177;9558017;9556999;1;9462791;9463809;9367553;9366535;1;9166855;9167873;8960001;8958983;1;8742919;8743937;8519681;8518663;1;8287239;8288257;8049665;8048647;1;7801863;7802881;7548929;7547911;1;7286791;7287809;7019521;7018503;1;6744071;6745089;6467585;6465539;6464515;3;6179843;6180867;6182913;5891073;5889027;5888003;3;5590019;5591043;5593089;5288961;5286915;5285891;3;43011;44035;46081;350209;348163;347139;3;645123;646147;648193;940033;937987;936963;3;1221635;1222659;1224705;1502209;1501191;1;1775623;1776641;2044929;2043911;1;2305031;2306049;2560001;2558983;1;2805767;2806785;3045377;3044359;1;3275783;3276801;3501057;3500039;1;3716103;3717121;3924993;3923975;1;4123655;4124673;4220929;4219911;1;4314119;4315137;4407297;4406279;1;4495367;4496385;4582401;4581383;1;4664327;4665345;4745217;4744199;1;4820999;4822017;4893697;4892679;1;4959239;4960257;5022721;5021703;8;5080065;33];
[34;10322946;7;10264581;10265603;10203138;1;10202117;1;10135557;10136579;10064899;10063877;1;9987077;9988099;9908227;9907205;1;9824261;9825283;9739267;9738245;1;9649157;9650179;9558019;9556997;1;9462789;9463811;9367555;9366533;1;9166853;9167875;8960003;8958981;1;8742917;8743939;8519683;8518661;1;8287237;8288259;8049667;8048645;1;7801861;7802883;7548931;7547909;1;7286789;7287811;7019523;7018501;1;6744069;6745091;6467587;6465537;6464514;6466562;1;6181890;6179842;6180865;6182915;5891075;5889025;5888002;5890050;1;5592066;5590018;5591041;5593091;5288963;5286913;5285890;5287938;1;45058;43010;44033;46083;350211;348161;347138;349186;1;647170;645122;646145;648195;940035;937985;936962;939010;1;1223682;1221634;1222657;1224707;1502211;1501189;1;1775621;1776643;2044931;2043909;1;2305029;2306051;2560003;2558981;1;2805765;2806787;3045379;3044357;1;3275781;3276803;3501059;3500037;1;3716101;3717123;3924995;3923973;1;4123653;4124675;4220931;4219909;1;4314117;4315139;4407299;4406277;1;4495365;4496387;4582403;4581381;1;4664325;4665347;4745219;4744197;1;4820997;4822019;4893699;4892677;1;4959237;1;4960258;5022723;5021701;7;5080066;33];
[34;10322948;5;10264579;1;10265604;10203140;10202116;1;10135555;1;10136580;10064900;10063876;1;9987075;1;9988100;9908228;9907204;1;9824260;9825284;9739268;9738244;1;9649156;9650180;9558020;9556996;1;9462788;9463812;9367556;9366532;1;9166852;9167876;8960004;8958980;1;8742916;8743940;8519684;8518660;1;8287236;8288260;8049668;8048644;1;7801860;7802884;7548932;7547908;1;7286788;7287812;7019524;7018500;1;6744068;6745092;6467588;6466564;1;6181892;6182916;5891076;5890052;1;5592068;5593092;5288964;5287940;1;45060;46084;350212;349188;1;647172;648196;940036;939012;1;1223684;1224708;1502212;1501188;1;1775620;1776644;2044932;2043908;1;2305028;2306052;2560004;2558980;1;2805764;2806788;3045380;3044356;1;3275780;3276804;3501060;3500036;1;3716100;3717124;3924996;3923972;1;4123652;4124676;4220932;4219908;1;4314116;4315140;4407300;4406276;1;4495364;4496388;4582404;4581380;1;4664324;4665348;4745220;1;4744195;1;4820996;4822020;4893700;1;4892675;1;4959236;4960260;5022724;1;5021699;5;5080068;33];
[34;10322950;3;10264578;10265606;10203142;10202114;1;10135554;10136582;10064902;10063874;1;9987074;9988102;9908230;9907202;1;9824258;9825286;9739270;9738242;1;9649154;9650182;9558022;9556994;1;9462786;9463814;9367558;9366530;1;9166850;9167878;8960006;8958978;1;8742914;8743942;8519686;8518658;1;8287234;8288262;8049670;8048642;1;7801858;7802886;7548934;7547906;1;7286786;7287814;7019526;7018498;1;6744066;6747138;6746113;1;6745090;6467586;6468610;6469634;6466562;1;6181890;6184962;6183937;1;6182914;5891074;5892098;5893122;5890050;1;5592066;5595138;5594113;1;5593090;5288962;1;5289985;5291010;5287938;1;45058;48130;47105;1;46082;350210;1;351233;352258;349186;1;647170;650242;649218;648194;940034;1;941057;942082;939010;1;1223682;1226754;1225730;1224706;1502210;1;1503233;1504258;1501186;1;1775618;1776646;2044934;2043906;1;2305026;2306054;2560006;2558978;1;2805762;2806790;3045382;3044354;1;3275778;3276806;3501062;3500034;1;3716098;3717126;3924998;3923970;1;4123650;4124678;4220934;4219906;1;4314114;4315142;4407302;4406274;1;4495362;4496390;4582406;4581378;1;4664322;4665350;4745222;4744194;1;4820994;4822022;4893702;4892674;1;4959234;4960262;5022726;5021698;3;5080070;33];
[34;10322952;1;10265608;10203144;1;10136584;10064904;1;9988104;9908232;1;9825288;9739272;1;9650184;9558024;1;9463816;9367560;1;9167880;8960008;1;8743944;8519688;1;8288264;8049672;1;7802888;7548936;1;7287816;7019528;1;6747140;6746115;6745089;6467585;6468611;6469636;1;6184964;6183939;6182913;5891073;5892099;5893124;1;5595140;5594115;5593089;5288961;5289987;5291012;1;48132;47107;46081;350209;351235;352260;1;650244;649219;648193;940033;941059;942084;1;1226756;1225731;1224705;1502209;1503235;1504260;1;1776648;2044936;1;2306056;2560008;1;2806792;3045384;1;3276808;3501064;1;3717128;3925000;1;4124680;4220936;1;4315144;4407304;1;4496392;4582408;1;4665352;4745224;1;4822024;4893704;1;4960264;5022728;1;5080072;33];
[34;10322951;3;10265607;10203143;3;10136583;10064903;3;9988103;9908231;3;9825287;9739271;3;9650183;9558023;3;9463815;9367559;3;9167879;8960007;3;8743943;8519687;3;8288263;8049671;3;7802887;7548935;3;7287815;7019527;3;6747139;6746115;6748161;6470657;6468611;6469635;3;6184963;6183939;6185985;5894145;5892099;5893123;3;5595139;5594115;5596161;5292033;5289987;5291011;3;48131;47107;49153;353281;351235;352259;3;650243;649219;651265;943105;941059;942083;3;1226755;1225731;1227777;1505281;1503235;1504259;3;1776647;2044935;3;2306055;2560007;3;2806791;3045383;3;3276807;3501063;3;3717127;3924999;3;4124679;4220935;3;4315143;4407303;3;4496391;4582407;3;4665351;4745223;3;4822023;4893703;3;4960263;5022727;3;5080071;33];
[34;10322950;10323970;1;10266626;10265606;10203142;10204162;1;10137602;10136582;10064902;10065922;1;9989122;9988102;9908230;9909250;1;9826306;9825286;9739270;9740290;1;9651202;9650182;9558022;9559042;1;9464834;9463814;9367558;9368578;1;9168898;9167878;8960006;8961026;1;8744962;8743942;8519686;8520706;1;8289282;8288262;8049670;8050690;1;7803906;7802886;7548934;7549954;1;7288834;7287814;7019526;7020546;1;6749186;6747138;6746113;6748163;6470659;6468609;6469634;6471682;1;6187010;6184962;6183937;6185987;5894147;5892097;5893122;5895170;1;5597186;5595138;5594113;5596163;5292035;5289985;5291010;5293058;1;50178;48130;47105;49155;353283;351233;352258;354306;1;652290;650242;649217;651267;943107;941057;942082;944130;1;1228802;1226754;1225729;1227779;1505283;1503233;1504258;1506306;1;1777666;1776646;2044934;2045954;1;2307074;2306054;2560006;2561026;1;2807810;2806790;3045382;3046402;1;3277826;3276806;3501062;3502082;1;3718146;3717126;3924998;3926018;1;4125698;4124678;4220934;4221954;1;4316162;4315142;4407302;4408322;1;4497410;4496390;4582406;4583426;1;4666370;4665350;4745222;4746242;1;4823042;4822022;4893702;4894722;1;4961282;4960262;5022726;5023746;1;5081090;5080070;33];
[34;10322948;10323972;1;10266628;10265604;10203140;10204164;1;10137604;10136580;10064900;10065924;1;9989124;9988100;9908228;9909252;1;9826308;9825284;9739268;9740292;1;9651204;9650180;9558020;9559044;1;9464836;9463812;9367556;9368580;1;9168900;9167876;8960004;8961028;1;8744964;8743940;8519684;8520708;1;8289284;8288260;8049668;8050692;1;7803908;7802884;7548932;7549956;1;7288836;7287812;7019524;1;7020547;1;6749187;1;6748164;6470660;1;6471683;1;6187011;1;6185988;5894148;1;5895171;1;5597187;1;5596164;5292036;1;5293059;1;50179;1;49156;353284;1;354307;1;652291;1;651268;943108;1;944131;1;1228803;1;1227780;1505284;1;1506307;1;1777667;1;1776644;2044932;2045956;1;2307076;2306052;2560004;2561028;1;2807812;2806788;3045380;3046404;1;3277828;3276804;3501060;3502084;1;3718148;3717124;3924996;3926020;1;4125700;4124676;4220932;4221956;1;4316164;4315140;4407300;4408324;1;4497412;4496388;4582404;4583428;1;4666372;4665348;4745220;4746244;1;4823044;4822020;4893700;4894724;1;4961284;4960260;5022724;5023748;1;5081092;5080068;33];
[34;10322946;10323974;1;10266630;10265602;10203138;10204166;1;10137606;10136578;10064898;10065926;1;9989126;9988098;9908226;9909254;1;9826310;9825282;9739266;9740294;1;9651206;9650178;9558018;9559046;1;9464838;9463810;9367554;9368582;1;9168902;9167874;8960002;8961030;1;8744966;8743938;8519682;8520710;1;8289286;8288258;8049666;8050694;1;7803910;7802882;7548930;7549958;1;7288838;7287810;7019522;7022594;7021570;7020546;1;6749186;6750210;6751234;6748162;6470658;6473730;6472706;6471682;1;6187010;6188034;6189058;6185986;5894146;5897218;5896194;5895170;1;5597186;5598210;5599234;5596162;5292034;5295106;5294082;5293058;1;50178;51202;52226;49154;353282;356354;355330;354306;1;652290;653314;654338;651266;943106;946178;945154;944130;1;1228802;1229826;1230850;1227778;1505282;1508354;1507330;1506306;1;1777666;1778690;1779714;1776642;2044930;2045958;1;2307078;2306050;2560002;2561030;1;2807814;2806786;3045378;3046406;1;3277830;3276802;3501058;3502086;1;3718150;3717122;3924994;3926022;1;4125702;4124674;4220930;4221958;1;4316166;4315138;4407298;4408326;1;4497414;4496386;4582402;4583430;1;4666374;4665346;4745218;4746246;1;4823046;4822018;4893698;4894726;1;4961286;4960258;5022722;5023750;1;5081094;5080066;33];
[35;10323975;1;10266631;2;10204167;1;10137607;2;10065927;1;9989127;2;9909255;1;9826311;2;9740295;1;9651207;2;9559047;1;9464839;2;9368583;1;9168903;2;8961031;1;8744967;2;8520711;1;8289287;2;8050695;1;7803911;2;7549959;1;7288839;2;7022595;7021572;1;6750212;6751235;2;6473731;6472708;1;6188036;6189059;2;5897219;5896196;1;5598212;5599235;2;5295107;5294084;1;51204;52227;2;356355;355332;1;653316;654339;2;946179;945156;1;1229828;1230851;2;1508355;1507332;1;1778692;1779715;2;2045959;1;2307079;2;2561031;1;2807815;2;3046407;1;3277831;2;3502087;1;3718151;2;3926023;1;4125703;2;4221959;1;4316167;2;4408327;1;4497415;2;4583431;1;4666375;2;4746247;1;4823047;2;4894727;1;4961287;2;5023751;1;5081095;34];
[34;10324993;10323975;1;10266631;10267649;10205185;10204167;1;10137607;10138625;10066945;10065927;1;9989127;9990145;9910273;9909255;1;9826311;9827329;9741313;9740295;1;9651207;9652225;9560065;9559047;1;9464839;9465857;9369601;9368583;1;9168903;9169921;8962049;8961031;1;8744967;8745985;8521729;8520711;1;8289287;8290305;8051713;8050695;1;7803911;7804929;7550977;7549959;1;7288839;7289857;7024641;7022595;7021571;7023617;1;6752257;6750211;6751235;6753281;6475777;6473731;6472707;6474753;1;6190081;6188035;6189059;6191105;5899265;5897219;5896195;5898241;1;5600257;5598211;5599235;5601281;5297153;5295107;5294083;5296129;1;53249;51203;52227;54273;358401;356355;355331;357377;1;655361;653315;654339;656385;948225;946179;945155;947201;1;1231873;1229827;1230851;1232897;1510401;1508355;1507331;1509377;1;1780737;1778691;1779715;1781761;2046977;2045959;1;2307079;2308097;2562049;2561031;1;2807815;2808833;3047425;3046407;1;3277831;3278849;3503105;3502087;1;3718151;3719169;3927041;3926023;1;4125703;4126721;4222977;4221959;1;4316167;4317185;4409345;4408327;1;4497415;4498433;4584449;4583431;1;4666375;4667393;4747265;4746247;1;4823047;4824065;4895745;4894727;1;4961287;4962305;5024769;5023751;1;5081095;5082113;33];
[34;10324995;10323973;1;10266629;10267651;10205187;10204165;1;10137605;10138627;10066947;10065925;1;9989125;9990147;9910275;9909253;1;9826309;9827331;9741315;9740293;1;9651205;9652227;9560067;9559045;1;9464837;9465859;9369603;9368581;1;9168901;9169923;8962051;8961029;1;8744965;8745987;8521731;8520709;1;8289285;8290307;8051715;8050693;1;7803909;7804931;7550979;7549957;1;7288837;7289859;7024643;7022593;7021569;1;7023618;1;6752258;1;6750209;6751233;6753283;6475779;6473729;6472705;1;6474754;1;6190082;1;6188033;6189057;6191107;5899267;5897217;5896193;1;5898242;1;5600258;1;5598209;5599233;5601283;5297155;5295105;5294081;1;5296130;1;53250;1;51201;52225;54275;358403;356353;355329;1;357378;1;655362;1;653313;654337;656387;948227;946177;945153;1;947202;1;1231874;1;1229825;1230849;1232899;1510403;1508353;1507329;1;1509378;1;1780738;1;1778689;1779713;1781763;2046979;2045957;1;2307077;2308099;2562051;2561029;1;2807813;2808835;3047427;3046405;1;3277829;3278851;3503107;3502085;1;3718149;3719171;3927043;3926021;1;4125701;4126723;4222979;4221957;1;4316165;4317187;4409347;4408325;1;4497413;4498435;4584451;4583429;1;4666373;4667395;4747267;4746245;1;4823045;4824067;4895747;4894725;1;4961285;4962307;5024771;5023749;1;5081093;5082115;33];
[34;10324997;10323971;1;10266627;10267653;10205189;10204163;1;10137603;10138629;10066949;10065923;1;9989123;9990149;9910277;9909251;1;9826307;9827333;9741317;9740291;1;9651203;9652229;9560069;9559043;1;9464835;9465861;9369605;9368579;1;9168899;9169925;8962053;8961027;1;8744963;8745989;8521733;8520707;1;8289283;8290309;8051717;8050691;1;7803907;7804933;7550981;7549955;1;7288835;7291905;7289860;7024644;7026689;7023619;1;6752259;6755329;6753284;6475780;6477825;6474755;1;6190083;6193153;6191108;5899268;5901313;5898243;1;5600259;5603329;5601284;5297156;5299201;5296131;1;53251;56321;54276;358404;360449;357379;1;655363;658433;656388;948228;950273;947203;1;1231875;1234945;1232900;1510404;1512449;1509379;1;1780739;1783809;1781764;2046980;2049025;2045955;1;2307075;2308101;2562053;2561027;1;2807811;2808837;3047429;3046403;1;3277827;3278853;3503109;3502083;1;3718147;3719173;3927045;3926019;1;4125699;4126725;4222981;4221955;1;4316163;4317189;4409349;4408323;1;4497411;4498437;4584453;4583427;1;4666371;4667397;4747269;4746243;1;4823043;4824069;4895749;4894723;1;4961283;4962309;5024773;5023747;1;5081091;5082117;33];
[34;10324998;10323970;1;10266625;1;10267654;10205190;10204162;1;10137601;1;10138630;10066950;10065922;1;9989121;1;9990150;9910278;9909250;1;9826305;1;9827334;9741318;9740290;1;9651201;1;9652230;9560070;9559042;1;9464833;1;9465862;9369606;9368578;1;9168897;1;9169926;8962054;1;8961025;1;8744961;1;8745990;8521734;1;8520705;1;8289281;1;8290310;8051718;1;8050689;1;7803905;1;7804934;7550982;1;7549953;1;7288833;1;7291906;7290882;7289858;7024642;7025666;7026690;1;7023617;1;6752257;1;6755330;6754306;6753282;6475778;6476802;6477826;1;6474753;1;6190081;1;6193154;6192130;6191106;5899266;5900290;5901314;1;5898241;1;5600257;1;5603330;5602306;5601282;5297154;5298178;5299202;1;5296129;1;53249;1;56322;55298;54274;358402;359426;360450;1;357377;1;655361;1;658434;657410;656386;948226;949250;950274;1;947201;1;1231873;1;1234946;1233922;1232898;1510402;1511426;1512450;1;1509377;1;1780737;1;1783810;1782786;1781762;2046978;2048002;2049026;1;2045953;1;2307073;1;2308102;2562054;1;2561025;1;2807809;1;2808838;3047430;1;3046401;1;3277825;1;3278854;3503110;1;3502081;1;3718145;1;3719174;3927046;1;3926017;1;4125698;4126726;4222982;1;4221953;1;4316162;4317190;4409350;1;4408321;1;4497410;4498438;4584454;1;4583425;1;4666370;4667398;4747270;1;4746241;1;4823042;4824070;4895750;1;4894721;1;4961282;4962310;5024774;1;5023745;1;5081090;5082118;33];
[34;10325000;1;10267656;10205192;1;10138632;10066952;1;9990152;9910280;1;9827336;9741320;1;9652232;9560072;1;9465864;9369608;1;9169928;8962056;1;8745992;8521736;1;8290312;8051720;1;7804936;7550984;1;7291908;7290884;7025668;7026692;1;6755332;6754308;6476804;6477828;1;6193156;6192132;5900292;5901316;1;5603332;5602308;5298180;5299204;1;56324;55300;359428;360452;1;658436;657412;949252;950276;1;1234948;1233924;1511428;1512452;1;1783812;1782788;2048004;2049028;1;2308104;2562056;1;2808840;3047432;1;3278856;3503112;1;3719176;3927048;1;4126728;4222984;1;4317192;4409352;1;4498440;4584456;1;4667400;4747272;1;4824072;4895752;1;4962312;5024776;1;5082120;33];
[34;10324999;10326017;1;10268673;10267655;10205191;10206209;1;10139649;10138631;10066951;10067969;1;9991169;9990151;9910279;9911297;1;9828353;9827335;9741319;9742337;1;9653249;9652231;9560071;9561089;1;9466881;9465863;9369607;9370625;1;9170945;9169927;8962055;8963073;1;8747009;8745991;8521735;8522753;1;8291329;8290311;8051719;8052737;1;7805953;7804935;7550983;7552001;1;7293953;7291907;7290883;7292929;7027713;7025667;7026691;7028737;1;6757377;6755331;6754307;6756353;6478849;6476803;6477827;6479873;1;6195201;6193155;6192131;6194177;5902337;5900291;5901315;5903361;1;5605377;5603331;5602307;5604353;5300225;5298179;5299203;5301249;1;58369;56323;55299;57345;361473;359427;360451;362497;1;660481;658435;657411;659457;951297;949251;950275;952321;1;1236993;1234947;1233923;1235969;1513473;1511427;1512451;1514497;1;1785857;1783811;1782787;1784833;2050049;2048003;2049027;2051073;1;2309121;2308103;2562055;2563073;1;2809857;2808839;3047431;3048449;1;3279873;3278855;3503111;3504129;1;3720193;3719175;3927047;3928065;1;4127745;4126727;4222983;4224001;1;4318209;4317191;4409351;4410369;1;4499457;4498439;4584455;4585473;1;4668417;4667399;4747271;4748289;1;4825089;4824071;4895751;4896769;1;4963329;4962311;5024775;5025793;1;5083137;5082119;33];
[34;10324997;10326019;1;10268674;1;10267653;10205189;10206211;1;10139650;1;10138629;10066949;10067971;1;9991170;1;9990149;9910277;9911299;1;9828354;1;9827333;9741317;9742339;1;9653250;1;9652229;9560069;9561091;1;9466882;1;9465861;9369605;9370627;1;9170946;1;9169925;8962053;8963075;1;8747010;1;8745989;8521733;8522755;1;8291330;1;8290309;8051717;8052739;1;7805954;1;7804933;7550981;7552003;1;7293955;7291905;7290881;7292931;7027715;7025665;7026689;7028739;1;6757379;6755329;6754305;6756355;6478851;6476801;6477825;6479875;1;6195203;6193153;6192129;6194179;5902339;5900289;5901313;5903363;1;5605379;5603329;5602305;5604355;5300227;5298177;5299201;5301251;1;58371;56321;55297;57347;361475;359425;360449;362499;1;660483;658433;657409;659459;951299;949249;950273;952323;1;1236995;1234945;1233921;1235971;1513475;1511425;1512449;1514499;1;1785859;1783809;1782785;1784835;2050051;2048001;2049025;2051075;1;2309123;2308101;2562053;1;2563074;1;2809859;2808837;3047429;1;3048450;1;3279875;3278853;3503109;1;3504130;1;3720195;3719173;3927045;1;3928066;1;4127747;4126725;4222981;1;4224002;1;4318211;4317189;4409349;1;4410370;1;4499459;4498437;4584453;1;4585474;1;4668419;4667397;4747269;1;4748290;1;4825091;4824069;4895749;1;4896770;1;4963331;4962309;5024773;1;5025794;1;5083139;5082117;33];
[34;10324996;10326020;1;10268676;10267652;10205188;10206212;1;10139652;10138628;10066948;10067972;1;9991172;9990148;9910276;9911300;1;9828356;9827332;9741316;9742340;1;9653252;9652228;9560068;9561092;1;9466884;9465860;9369604;9370628;1;9170948;9169924;8962052;8963076;1;8747012;8745988;8521732;8522756;1;8291332;8290308;8051716;8052740;1;7805956;7804932;7550980;7553025;7552003;1;7293955;7294977;7292932;7027716;7029761;7028739;1;6757379;6758401;6756356;6478852;6480897;6479875;1;6195203;6196225;6194180;5902340;5904385;5903363;1;5605379;5606401;5604356;5300228;5302273;5301251;1;58371;59393;57348;361476;363521;362499;1;660483;661505;659460;951300;953345;952323;1;1236995;1238017;1235972;1513476;1515521;1514499;1;1785859;1786881;1784836;2050052;2052097;2051075;1;2309123;2310145;2308100;2562052;2563076;1;2809860;2808836;3047428;3048452;1;3279876;3278852;3503108;3504132;1;3720196;3719172;3927044;3928068;1;4127748;4126724;4222980;4224004;1;4318212;4317188;4409348;4410372;1;4499460;4498436;4584452;4585476;1;4668420;4667396;4747268;4748292;1;4825092;4824068;4895748;4896772;1;4963332;4962308;5024772;5025796;1;5083140;5082116;33];
[34;10324994;10326022;1;10268678;10267650;10205186;10206214;1;10139654;10138626;10066946;10067974;1;9991174;9990146;9910274;9911302;1;9828358;9827330;9741314;9742342;1;9653254;9652226;9560066;9561094;1;9466886;9465858;9369602;9370630;1;9170950;9169922;8962050;8963078;1;8747014;8745986;8521730;8522758;1;8291334;8290306;8051714;8052742;1;7805958;7804930;7550978;7554050;7553026;1;7552001;1;7293953;1;7294978;7296002;7292930;7027714;7030786;7029762;1;7028737;1;6757377;1;6758402;6759426;6756354;6478850;6481922;6480898;1;6479873;1;6195201;1;6196226;6197250;6194178;5902338;5905410;5904386;1;5903361;1;5605377;1;5606402;5607426;5604354;5300226;5303298;5302274;1;5301249;1;58369;1;59394;60418;57346;361474;364546;363522;1;362497;1;660481;1;661506;662530;659458;951298;954370;953346;1;952321;1;1236993;1;1238018;1239042;1235970;1513474;1516546;1515522;1;1514497;1;1785857;1;1786882;1787906;1784834;2050050;2053122;2052098;1;2051073;1;2309121;1;2310146;2311170;2308098;2562050;2563078;1;2809862;2808834;3047426;3048454;1;3279878;3278850;3503106;3504134;1;3720198;3719170;3927042;3928070;1;4127750;4126722;4222978;4224006;1;4318214;4317186;4409346;4410374;1;4499462;4498434;4584450;4585478;1;4668422;4667394;4747266;4748294;1;4825094;4824066;4895746;4896774;1;4963334;4962306;5024770;5025798;1;5083142;5082114;33];
[34;10326024;1;10268680;10206216;1;10139656;10067976;1;9991176;9911304;1;9828360;9742344;1;9653256;9561096;1;9466888;9370632;1;9170952;8963080;1;8747016;8522760;1;8291336;8052744;1;7805960;7554052;7553028;1;7294980;7296004;7030788;7029764;1;6758404;6759428;6481924;6480900;1;6196228;6197252;5905412;5904388;1;5606404;5607428;5303300;5302276;1;59396;60420;364548;363524;1;661508;662532;954372;953348;1;1238020;1239044;1516548;1515524;1;1786884;1787908;2053124;2052100;1;2310148;2311172;2563080;1;2809864;3048456;1;3279880;3504136;1;3720200;3928072;1;4127752;4224008;1;4318216;4410376;1;4499464;4585480;1;4668424;4748296;1;4825096;4896776;1;4963336;5025800;1;5083144;33];
[33;10377217;10327041;1;10326022;1;10268678;1;10269697;10207233;1;10206214;1;10139654;1;10140673;10068993;1;10067974;1;9991174;1;9992193;9912321;1;9911302;1;9828358;1;9829377;9743361;1;9742342;1;9653254;1;9654273;9562113;1;9561094;1;9466886;1;9467905;9371649;1;9370630;1;9170950;1;9171969;8964097;1;8963078;1;8747014;1;8748033;8523777;1;8522758;1;8291334;1;8292353;8053761;1;8052742;1;7805958;1;7806977;7556097;1;7554050;7553027;7555073;1;7297025;7294979;7296002;1;7298049;7032833;1;7030786;7029763;7031809;1;6760449;6758403;6759426;1;6761473;6483969;1;6481922;6480899;6482945;1;6198273;6196227;6197250;1;6199297;5907457;1;5905410;5904387;5906433;1;5608449;5606403;5607426;1;5609473;5305345;1;5303298;5302275;5304321;1;61441;59395;60418;1;62465;366593;1;364546;363523;365569;1;663553;661507;662530;1;664577;956417;1;954370;953347;955393;1;1240065;1238019;1239042;1;1241089;1518593;1;1516546;1515523;1517569;1;1788929;1786883;1787906;1;1789953;2055169;1;2053122;2052099;2054145;1;2312193;2310147;2311170;1;2313217;2564097;1;2563078;1;2809862;1;2810881;3049473;1;3048454;1;3279878;1;3280897;3505153;1;3504134;1;3720198;1;3721217;3929089;1;3928070;1;4127750;1;4128769;4225025;1;4224006;1;4318214;1;4319233;4411393;1;4410374;1;4499462;1;4500481;4586497;1;4585478;1;4668422;1;4669441;4749313;1;4748294;1;4825094;1;4826113;4897793;1;4896774;1;4963334;1;4964353;5026817;1;5025798;1;5083142;1;5084161;5134337;32];
[31;10377219;10327043;10326021;1;10268677;10269699;10207235;10206213;1;10139653;10140675;10068995;10067973;1;9991173;9992195;9912323;9911301;1;9828357;9829379;9743363;9742341;1;9653253;9654275;9562115;9561093;1;9466885;9467907;9371651;9370629;1;9170949;9171971;8964099;8963077;1;8747013;8748035;8523779;8522757;1;8291333;8292355;8053763;8052741;1;7805957;7806979;7556099;7554049;7553025;7555075;1;7297027;7294977;7296001;7298051;7032835;7030785;7029761;7031811;1;6760451;6758401;6759425;6761475;6483971;6481921;6480897;6482947;1;6198275;6196225;6197249;6199299;5907459;5905409;5904385;5906435;1;5608451;5606401;5607425;5609475;5305347;5303297;5302273;5304323;1;61443;59393;60417;62467;366595;364545;363521;365571;1;663555;661505;662529;664579;956419;954369;953345;955395;1;1240067;1238017;1239041;1241091;1518595;1516545;1515521;1517571;1;1788931;1786881;1787905;1789955;2055171;2053121;2052097;2054147;1;2312195;2310145;2311169;2313219;2564099;2563077;1;2809861;2810883;3049475;3048453;1;3279877;3280899;3505155;3504133;1;3720197;3721219;3929091;3928069;1;4127749;4128771;4225027;4224005;1;4318213;4319235;4411395;4410373;1;4499461;4500483;4586499;4585477;1;4668421;4669443;4749315;4748293;1;4825093;4826115;4897795;4896773;1;4963333;4964355;5026819;5025797;1;5083141;5084163;5134339;30];
[29;10377221;10327045;10326019;1;10268675;10269701;10207237;10206211;1;10139651;10140677;10068997;10067971;1;9991171;9992197;9912325;9911299;1;9828355;9829381;9743365;9742339;1;9653251;9654277;9562117;9561091;1;9466883;9467909;9371653;9370627;1;9170947;9171973;8964101;8963075;1;8747011;8748037;8523781;8522755;1;8291331;8292357;8053765;8052739;1;7805955;7809025;1;7806979;7556099;1;7558145;7555075;1;7297027;7300097;1;7298051;7032835;1;7034881;7031811;1;6760451;6763521;1;6761475;6483971;1;6486017;6482947;1;6198275;6201345;1;6199299;5907459;1;5909505;5906435;1;5608451;5611521;1;5609475;5305347;1;5307393;5304323;1;61443;64513;1;62467;366595;1;368641;365571;1;663555;666625;1;664579;956419;1;958465;955395;1;1240067;1243137;1;1241091;1518595;1;1520641;1517571;1;1788931;1792001;1;1789955;2055171;1;2057217;2054147;1;2312195;2315265;1;2313219;2564099;1;2566145;2563075;1;2809859;2810885;3049477;3048451;1;3279875;3280901;3505157;3504131;1;3720195;3721221;3929093;3928067;1;4127747;4128773;4225029;4224003;1;4318211;4319237;4411397;4410371;1;4499459;4500485;4586501;4585475;1;4668419;4669445;4749317;4748291;1;4825091;4826117;4897797;4896771;1;4963331;4964357;5026821;5025795;1;5083139;5084165;5134341;28];
[27;10377223;10327047;10326017;1;10268673;10269703;10207239;10206209;1;10139649;10140679;10068999;10067969;1;9991169;9992199;9912327;9911297;1;9828353;9829383;9743367;9742337;1;9653249;9654279;9562119;9561089;1;9466881;9467911;9371655;9370625;1;9170945;9171975;8964103;8963073;1;8747009;8748039;8523783;8522753;1;8291329;8292359;8053767;8052737;1;7805953;7809027;7808002;7806978;7556098;7557122;7558147;7555073;1;7297025;7300099;7299074;7298050;7032834;7033858;7034883;7031809;1;6760449;6763523;6762498;6761474;6483970;6484994;6486019;6482945;1;6198273;6201347;6200322;6199298;5907458;5908482;5909507;5906433;1;5608449;5611523;5610498;5609474;5305346;5306370;5307395;5304321;1;61441;64515;63490;62466;366594;367618;368643;365569;1;663553;666627;665602;664578;956418;957442;958467;955393;1;1240065;1243139;1242114;1241090;1518594;1519618;1520643;1517569;1;1788929;1792003;1790978;1789954;2055170;2056194;2057219;2054145;1;2312193;2315267;2314242;2313218;2564098;2565122;2566147;2563073;1;2809857;2810887;3049479;3048449;1;3279873;3280903;3505159;3504129;1;3720193;3721223;3929095;3928065;1;4127745;4128775;4225031;4224001;1;4318209;4319239;4411399;4410369;1;4499457;4500487;4586503;4585473;1;4668417;4669447;4749319;4748289;1;4825089;4826119;4897799;4896769;1;4963329;4964359;5026823;5025793;1;5083137;5084167;5134343;26];
[26;10377224;10327048;1;10269704;10207240;1;10140680;10069000;1;9992200;9912328;1;9829384;9743368;1;9654280;9562120;1;9467912;9371656;1;9171976;8964104;1;8748040;8523784;1;8292360;8053768;1;7809028;7808004;7557124;7558148;1;7300100;7299076;7033860;7034884;1;6763524;6762500;6484996;6486020;1;6201348;6200324;5908484;5909508;1;5611524;5610500;5306372;5307396;1;64516;63492;367620;368644;1;666628;665604;957444;958468;1;1243140;1242116;1519620;1520644;1;1792004;1790980;2056196;2057220;1;2315268;2314244;2565124;2566148;1;2810888;3049480;1;3280904;3505160;1;3721224;3929096;1;4128776;4225032;1;4319240;4411400;1;4500488;4586504;1;4669448;4749320;1;4826120;4897800;1;4964360;5026824;1;5084168;5134344;25];
[26;10378241;10377223;10327047;10328065;1;10270721;10269703;10207239;10208257;1;10141697;10140679;10068999;10070017;1;9993217;9992199;9912327;9913345;1;9830401;9829383;9743367;9744385;1;9655297;9654279;9562119;9563137;1;9468929;9467911;9371655;9372673;1;9172993;9171975;8964103;8965121;1;8749057;8748039;8523783;8524801;1;8293377;8292359;8053767;8054785;1;7811073;7809027;7808002;7810050;7559170;7557122;7558147;7560193;1;7302145;7300099;7299074;7301122;7035906;7033858;7034883;7036929;1;6765569;6763523;6762498;6764546;6487042;6484994;6486019;6488065;1;6203393;6201347;6200322;6202370;5910530;5908482;5909507;5911553;1;5613569;5611523;5610498;5612546;5308418;5306370;5307395;5309441;1;66561;64515;63490;65538;369666;367618;368643;370689;1;668673;666627;665602;667650;959490;957442;958467;960513;1;1245185;1243139;1242114;1244162;1521666;1519618;1520643;1522689;1;1794049;1792003;1790978;1793026;2058242;2056194;2057219;2059265;1;2317313;2315267;2314242;2316290;2567170;2565122;2566147;2568193;1;2811905;2810887;3049479;3050497;1;3281921;3280903;3505159;3506177;1;3722241;3721223;3929095;3930113;1;4129793;4128775;4225031;4226049;1;4320257;4319239;4411399;4412417;1;4501505;4500487;4586503;4587521;1;4670465;4669447;4749319;4750337;1;4827137;4826119;4897799;4898817;1;4965377;4964359;5026823;5027841;1;5085185;5084167;5134343;5135361;25];
[26;10378243;10377221;10327045;10328067;1;10270723;10269701;10207237;10208259;1;10141699;10140677;10068997;10070019;1;9993219;9992197;9912325;9913347;1;9830403;9829381;9743365;9744387;1;9655299;9654277;9562117;9563139;1;9468931;9467909;9371653;9372675;1;9172995;9171973;8964101;8965123;1;8749059;8748037;8523781;8524803;1;8293379;8292357;8053765;8054787;1;7811075;7809025;1;7810051;7559171;1;7558145;7560195;1;7302147;7300097;1;7301123;7035907;1;7034881;7036931;1;6765571;6763521;1;6764547;6487043;1;6486017;6488067;1;6203395;6201345;1;6202371;5910531;1;5909505;5911555;1;5613571;5611521;1;5612547;5308419;1;5307393;5309443;1;66563;64513;1;65539;369667;1;368641;370691;1;668675;666625;1;667651;959491;1;958465;960515;1;1245187;1243137;1;1244163;1521667;1;1520641;1522691;1;1794051;1792001;1;1793027;2058243;1;2057217;2059267;1;2317315;2315265;1;2316291;2567171;1;2566145;2568195;1;2811907;2810885;3049477;3050499;1;3281923;3280901;3505157;3506179;1;3722243;3721221;3929093;3930115;1;4129795;4128773;4225029;4226051;1;4320259;4319237;4411397;4412419;1;4501507;4500485;4586501;4587523;1;4670467;4669445;4749317;4750339;1;4827139;4826117;4897797;4898819;1;4965379;4964357;5026821;5027843;1;5085187;5084165;5134341;5135363;25];
[26;10378245;10377219;10327043;10328069;1;10270725;10269699;10207235;10208261;1;10141701;10140675;10068995;10070021;1;9993221;9992195;9912323;9913349;1;9830405;9829379;9743363;9744389;1;9655301;9654275;9562115;9563141;1;9468933;9467907;9371651;9372677;1;9172997;9171971;8964099;8965125;1;8749061;8748035;8523779;8524805;1;8293381;8292355;8053763;8056833;8055809;8054787;1;7811075;7812097;7813121;7810051;7559171;7562241;7561217;7560195;1;7302147;7303169;7304193;7301123;7035907;7038977;7037953;7036931;1;6765571;6766593;6767617;6764547;6487043;6490113;6489089;6488067;1;6203395;6204417;6205441;6202371;5910531;5913601;5912577;5911555;1;5613571;5614593;5615617;5612547;5308419;5311489;5310465;5309443;1;66563;67585;68609;65539;369667;372737;371713;370691;1;668675;669697;670721;667651;959491;962561;961537;960515;1;1245187;1246209;1247233;1244163;1521667;1524737;1523713;1522691;1;1794051;1795073;1796097;1793027;2058243;2061313;2060289;2059267;1;2317315;2318337;2319361;2316291;2567171;2570241;2569217;2568195;1;2811907;2812929;2813953;2810883;3049475;3050501;1;3281925;3280899;3505155;3506181;1;3722245;3721219;3929091;3930117;1;4129797;4128771;4225027;4226053;1;4320261;4319235;4411395;4412421;1;4501509;4500483;4586499;4587525;1;4670469;4669443;4749315;4750341;1;4827141;4826115;4897795;4898821;1;4965381;4964355;5026819;5027845;1;5085189;5084163;5134339;5135365;25];
[26;10378246;10377218;10327041;1;10328070;1;10270726;10269698;10207233;1;10208262;1;10141702;10140674;10068993;1;10070022;1;9993222;9992194;9912321;1;9913350;1;9830406;9829378;9743361;1;9744390;1;9655302;9654274;9562113;1;9563142;1;9468934;9467906;9371649;1;9372678;1;9172998;9171970;8964097;1;8965126;1;8749062;8748034;8523777;1;8524806;1;8293382;8292354;8053761;1;8056834;8055811;8054785;1;7811073;7812099;7813122;7810050;7559169;1;7562242;7561219;7560193;1;7302145;7303171;7304194;7301122;7035905;1;7038978;7037955;7036929;1;6765569;6766595;6767618;6764546;6487041;1;6490114;6489091;6488065;1;6203393;6204419;6205442;6202370;5910530;5913602;5912579;5911553;1;5613569;5614595;5615618;5612546;5308418;5311490;5310467;5309441;1;66561;67587;68610;65538;369666;372738;371715;370689;1;668673;669699;670722;667650;959490;962562;961539;960513;1;1245185;1246211;1247234;1;1244161;1521666;1524738;1523715;1522689;1;1794049;1795075;1796098;1;1793025;2058242;2061314;2060291;2059265;1;2317313;2318339;2319362;1;2316289;2567170;2570242;2569219;2568193;1;2811905;2812931;2813954;1;2810881;3049474;3050502;1;3281926;1;3280897;3505154;3506182;1;3722246;1;3721217;3929090;3930118;1;4129798;1;4128769;4225026;4226054;1;4320262;1;4319233;4411394;4412422;1;4501510;1;4500481;4586498;4587526;1;4670470;1;4669441;4749314;4750342;1;4827142;1;4826113;4897794;4898822;1;4965382;1;4964353;5026818;5027846;1;5085190;1;5084161;5134338;5135366;25];
[26;10378248;10328072;1;10270728;10208264;1;10141704;10070024;1;9993224;9913352;1;9830408;9744392;1;9655304;9563144;1;9468936;9372680;1;9173000;8965128;1;8749064;8524808;1;8293384;8056836;8055812;1;7812100;7813124;7562244;7561220;1;7303172;7304196;7038980;7037956;1;6766596;6767620;6490116;6489092;1;6204420;6205444;5913604;5912580;1;5614596;5615620;5311492;5310468;1;67588;68612;372740;371716;1;669700;670724;962564;961540;1;1246212;1247236;1524740;1523716;1;1795076;1796100;2061316;2060292;1;2318340;2319364;2570244;2569220;1;2812932;2813956;3050504;1;3281928;3506184;1;3722248;3930120;1;4129800;4226056;1;4320264;4412424;1;4501512;4587528;1;4670472;4750344;1;4827144;4898824;1;4965384;5027848;1;5085192;5135368;25];
[26;10378246;10379266;10329090;10328070;1;10270726;10271746;10209282;10208262;1;10141702;10142722;10071042;10070022;1;9993222;9994242;9914370;9913350;1;9830406;9831426;9745410;9744390;1;9655302;9656322;9564162;9563142;1;9468934;9469954;9373698;9372678;1;9172998;9174018;8966146;8965126;1;8749062;8750082;8525826;8524806;1;8293382;8294402;8058882;8056834;8055811;8057857;1;7814145;7812099;7813122;7815170;7564290;7562242;7561219;7563265;1;7305217;7303171;7304194;7306242;7041026;7038978;7037955;7040001;1;6768641;6766595;6767618;6769666;6492162;6490114;6489091;6491137;1;6206465;6204419;6205442;6207490;5915650;5913602;5912579;5914625;1;5616641;5614595;5615618;5617666;5313538;5311490;5310467;5312513;1;69633;67587;68610;70658;374786;372738;371715;373761;1;671745;669699;670722;672770;964610;962562;961539;963585;1;1248257;1246211;1247234;1249282;1526786;1524738;1523715;1525761;1;1797121;1795075;1796098;1798146;2063362;2061314;2060291;2062337;1;2320385;2318339;2319362;2321410;2572290;2570242;2569219;2571265;1;2814977;2812931;2813954;2816002;3051522;3050502;1;3281926;3282946;3507202;3506182;1;3722246;3723266;3931138;3930118;1;4129798;4130818;4227074;4226054;1;4320262;4321282;4413442;4412422;1;4501510;4502530;4588546;4587526;1;4670470;4671490;4751362;4750342;1;4827142;4828162;4899842;4898822;1;4965382;4966402;5028866;5027846;1;5085190;5086210;5136386;5135366;25];
[26;10378244;10379268;10329091;1;10328068;1;10270724;10271748;10209283;1;10208260;1;10141700;10142724;10071043;1;10070020;1;9993220;9994244;9914371;1;9913348;1;9830404;9831428;9745411;1;9744388;1;9655300;9656324;9564163;1;9563140;1;9468932;9469956;9373699;1;9372676;1;9172996;9174020;8966147;1;8965124;1;8749060;8750084;8525827;1;8524804;1;8293380;8294404;8058883;1;8055809;8057859;1;7814147;7812097;7815172;7564291;1;7561217;7563267;1;7305219;7303169;1;7306243;7041027;1;7037953;7040003;1;6768643;6766593;1;6769667;6492163;1;6489089;6491139;1;6206467;6204417;1;6207491;5915651;1;5912577;5914627;1;5616643;5614593;1;5617667;5313539;1;5310465;5312515;1;69635;67585;1;70659;374787;1;371713;373763;1;671747;669697;1;672771;964611;1;961537;963587;1;1248259;1246209;1;1249283;1526787;1;1523713;1525763;1;1797123;1795073;1;1798147;2063363;1;2060289;2062339;1;2320387;2318337;1;2321411;2572292;2569217;2571267;1;2814979;2812929;1;2816003;3051524;3050500;1;3281924;1;3282947;3507204;3506180;1;3722244;1;3723267;3931140;3930116;1;4129796;1;4130819;4227076;4226052;1;4320260;1;4321283;4413444;4412420;1;4501508;1;4502531;4588548;4587524;1;4670468;1;4671491;4751364;4750340;1;4827140;1;4828163;4899844;4898820;1;4965380;1;4966403;5028868;5027844;1;5085188;1;5086211;5136388;5135364;25];
[26;10378243;10379269;10329093;10328067;1;10270723;10271749;10209285;10208259;1;10141699;10142725;10071045;10070019;1;9993219;9994245;9914373;9913347;1;9830403;9831429;9745413;9744387;1;9655299;9656325;9564165;9563139;1;9468931;9469957;9373701;9372675;1;9172995;9174021;8966149;8965123;1;8749059;8750085;8525829;8524803;1;8293379;8296449;8295425;8294403;8058883;8059905;8060929;8057859;1;7814147;7817217;7816193;7815171;7564291;7565313;7566337;7563267;1;7305219;7308289;7307265;7306243;7041027;7042049;7043073;7040003;1;6768643;6771713;6770689;6769667;6492163;6493185;6494209;6491139;1;6206467;6209537;6208513;6207491;5915651;5916673;5917697;5914627;1;5616643;5619713;5618689;5617667;5313539;5314561;5315585;5312515;1;69635;72705;71681;70659;374787;375809;376833;373763;1;671747;674817;673793;672771;964611;965633;966657;963587;1;1248259;1251329;1250305;1249283;1526787;1527809;1528833;1525763;1;1797123;1800193;1799169;1798147;2063363;2064385;2065409;2062339;1;2320387;2323457;2322433;2321411;2572291;2573313;2574337;2571267;1;2814979;2818049;2817025;2816003;3051523;3052545;3053569;3050499;1;3281923;3282949;3507205;3506179;1;3722243;3723269;3931141;3930115;1;4129795;4130821;4227077;4226051;1;4320259;4321285;4413445;4412419;1;4501507;4502533;4588549;4587523;1;4670467;4671493;4751365;4750339;1;4827139;4828165;4899845;4898819;1;4965379;4966405;5028869;5027843;1;5085187;5086213;5136389;5135363;25];
[26;10378241;10379271;10329095;10328065;1;10270721;10271751;10209287;10208257;1;10141697;10142727;10071047;10070017;1;9993217;9994247;9914375;9913345;1;9830401;9831431;9745415;9744385;1;9655297;9656327;9564167;9563137;1;9468929;9469959;9373703;9372673;1;9172993;9174023;8966151;8965121;1;8749057;8750087;8525831;8524801;1;8293377;8296451;8295426;1;8294401;8058881;1;8059906;8060931;8057857;1;7814145;7817219;7816194;1;7815169;7564289;1;7565314;7566339;7563265;1;7305217;7308291;7307266;1;7306241;7041025;1;7042050;7043075;7040001;1;6768641;6771715;6770690;1;6769665;6492161;1;6493186;6494211;6491137;1;6206465;6209539;6208514;1;6207489;5915649;1;5916674;5917699;5914625;1;5616641;5619715;5618690;1;5617665;5313537;1;5314562;5315587;5312513;1;69633;72707;71682;1;70657;374785;1;375810;376835;373761;1;671745;674819;673794;1;672769;964609;1;965634;966659;963585;1;1248257;1251331;1250306;1;1249281;1526785;1;1527810;1528835;1525761;1;1797121;1800195;1799170;1;1798145;2063361;1;2064386;2065411;2062337;1;2320385;2323459;2322434;1;2321409;2572289;1;2573314;2574339;2571265;1;2814977;2818051;2817026;1;2816001;3051521;1;3052546;3053571;3050497;1;3281921;3282951;3507207;3506177;1;3722241;3723271;3931143;3930113;1;4129793;4130823;4227079;4226049;1;4320257;4321287;4413447;4412417;1;4501505;4502535;4588551;4587521;1;4670465;4671495;4751367;4750337;1;4827137;4828167;4899847;4898817;1;4965377;4966407;5028871;5027841;1;5085185;5086215;5136391;5135361;25];
[26;10379272;10329096;1;10271752;10209288;1;10142728;10071048;1;9994248;9914376;1;9831432;9745416;1;9656328;9564168;1;9469960;9373704;1;9174024;8966152;1;8750088;8525832;1;8296452;8295428;8059908;8060932;1;7817220;7816196;7565316;7566340;1;7308292;7307268;7042052;7043076;1;6771716;6770692;6493188;6494212;1;6209540;6208516;5916676;5917700;1;5619716;5618692;5314564;5315588;1;72708;71684;375812;376836;1;674820;673796;965636;966660;1;1251332;1250308;1527812;1528836;1;1800196;1799172;2064388;2065412;1;2323460;2322436;2573316;2574340;1;2818052;2817028;3052548;3053572;1;3282952;3507208;1;3723272;3931144;1;4130824;4227080;1;4321288;4413448;1;4502536;4588552;1;4671496;4751368;1;4828168;4899848;1;4966408;5028872;1;5086216;5136392;25];
[26;10380289;1;10379270;10329094;1;10330113;1;10272769;1;10271750;10209286;1;10210305;1;10143745;1;10142726;10071046;1;10072065;1;9995265;1;9994246;9914374;1;9915393;1;9832449;1;9831430;9745414;1;9746433;1;9657345;1;9656326;9564166;1;9565185;1;9470977;1;9469958;9373702;1;9374721;1;9175041;1;9174022;8966150;1;8967169;1;8751105;1;8750086;8525830;1;8526849;1;8298497;1;8296450;8295426;8297474;8061954;8059906;8060930;1;8062977;1;7819265;1;7817218;7816194;7818242;7567362;7565314;7566338;1;7568385;1;7310337;1;7308290;7307266;7309314;7044098;7042050;7043074;1;7045121;1;6773761;1;6771714;6770690;6772738;6495234;6493186;6494210;1;6496257;1;6211585;1;6209538;6208514;6210562;5918722;5916674;5917698;1;5919745;1;5621761;1;5619714;5618690;5620738;5316610;5314562;5315586;1;5317633;1;74753;1;72706;71682;73730;377858;375810;376834;1;378881;1;676865;1;674818;673794;675842;967682;965634;966658;1;968705;1;1253377;1;1251330;1250306;1252354;1529858;1527810;1528834;1;1530881;1;1802241;1;1800194;1799170;1801218;2066434;2064386;2065410;1;2067457;1;2325505;1;2323458;2322434;2324482;2575362;2573314;2574338;1;2576385;1;2820097;1;2818050;2817026;2819074;3054594;3052546;3053570;1;3055617;1;3283969;1;3282950;3507206;1;3508225;1;3724289;1;3723270;3931142;1;3932161;1;4131841;1;4130822;4227078;1;4228097;1;4322305;1;4321286;4413446;1;4414465;1;4503553;1;4502534;4588550;1;4589569;1;4672513;1;4671494;4751366;1;4752385;1;4829185;1;4828166;4899846;1;4900865;1;4967425;1;4966406;5028870;1;5029889;1;5087233;1;5086214;5136390;1;5137409;25];
[26;10380291;10379269;10329093;10330115;1;10272771;10271749;10209285;10210307;1;10143747;10142725;10071045;10072067;1;9995267;9994245;9914373;9915395;1;9832451;9831429;9745413;9746435;1;9657347;9656325;9564165;9565187;1;9470979;9469957;9373701;9374723;1;9175043;9174021;8966149;8967171;1;8751107;8750085;8525829;8526851;1;8298499;8296449;8297476;8061956;8060929;8062979;1;7819267;7817217;7818244;7567364;7566337;7568387;1;7310339;7308289;7309316;7044100;7043073;7045123;1;6773763;6771713;6772740;6495236;6494209;6496259;1;6211587;6209537;6210564;5918724;5917697;5919747;1;5621763;5619713;5620740;5316612;5315585;5317635;1;74755;72705;73732;377860;376833;378883;1;676867;674817;675844;967684;966657;968707;1;1253379;1251329;1252356;1529860;1528833;1530883;1;1802243;1800193;1801220;2066436;2065409;2067459;1;2325507;2323457;2324484;2575364;2574337;2576387;1;2820099;2818049;2819076;3054596;3053569;3055619;1;3283971;3282949;3507205;3508227;1;3724291;3723269;3931141;3932163;1;4131843;4130821;4227077;4228099;1;4322307;4321285;4413445;4414467;1;4503555;4502533;4588549;4589571;1;4672515;4671493;4751365;4752387;1;4829187;4828165;4899845;4900867;1;4967427;4966405;5028869;5029891;1;5087235;5086213;5136389;5137411;25];
[26;10380293;10379267;10329091;10330117;1;10272773;10271747;10209283;10210309;1;10143749;10142723;10071043;10072069;1;9995269;9994243;9914371;9915397;1;9832453;9831427;9745411;9746437;1;9657349;9656323;9564163;9565189;1;9470981;9469955;9373699;9374725;1;9175045;9174019;8966147;8967173;1;8751109;8750083;8525827;8528897;8527873;1;8526850;1;8298498;1;8299521;8300545;8297475;8061955;8065025;8064001;1;8062978;1;7819266;1;7820289;7821313;7818243;7567363;7570433;7569409;1;7568386;1;7310338;1;7311361;7312385;7309315;7044099;7047169;7046145;1;7045122;1;6773762;1;6774785;6775809;6772739;6495235;6498305;6497281;1;6496258;1;6211586;1;6212609;6213633;6210563;5918723;5921793;5920769;1;5919746;1;5621762;1;5622785;5623809;5620739;5316611;5319681;5318657;1;5317634;1;74754;1;75777;76801;73731;377859;380929;379905;1;378882;1;676866;1;677889;678913;675843;967683;970753;969729;1;968706;1;1253378;1;1254401;1255425;1252355;1529859;1532929;1531905;1;1530882;1;1802242;1;1803265;1804289;1801219;2066435;2069505;2068481;1;2067458;1;2325506;1;2326529;2327553;2324483;2575363;2578433;2577409;1;2576386;1;2820098;1;2821121;2822145;2819075;3054595;3057665;3056641;1;3055618;1;3283970;1;3284993;3286017;3282947;3507203;3508229;1;3724293;3723267;3931139;3932165;1;4131845;4130819;4227075;4228101;1;4322309;4321283;4413443;4414469;1;4503557;4502531;4588547;4589573;1;4672517;4671491;4751363;4752389;1;4829189;4828163;4899843;4900869;1;4967429;4966403;5028867;5029893;1;5087237;5086211;5136387;5137413;25];
[26;10380295;10379265;10329089;10330119;1;10272775;10271745;10209281;10210311;1;10143751;10142721;10071041;10072071;1;9995271;9994241;9914369;9915399;1;9832455;9831425;9745409;9746439;1;9657351;9656321;9564161;9565191;1;9470983;9469953;9373697;9374727;1;9175047;9174017;8966145;8967175;1;8751111;8750081;8525825;8528899;8527875;8526849;1;8298497;8299523;8300547;8297473;8061953;8065027;8064003;8062977;1;7819265;7820291;7821315;7818241;7567361;7570435;7569411;7568385;1;7310337;7311363;7312387;7309313;7044097;7047171;7046147;7045121;1;6773761;6774787;6775811;6772737;6495233;6498307;6497283;6496257;1;6211585;6212611;6213635;6210561;5918721;5921795;5920771;5919745;1;5621761;5622787;5623811;5620737;5316609;5319683;5318659;5317633;1;74753;75779;76803;73729;377857;380931;379907;378881;1;676865;677891;678915;675841;967681;970755;969731;968705;1;1253377;1254403;1255427;1252353;1529857;1532931;1531907;1530881;1;1802241;1803267;1804291;1801217;2066433;2069507;2068483;2067457;1;2325505;2326531;2327555;2324481;2575361;2578435;2577411;2576385;1;2820097;2821123;2822147;2819073;3054593;3057667;3056643;3055617;1;3283969;3284995;3286019;3282945;3507201;3508231;1;3724295;3723265;3931137;3932167;1;4131847;4130817;4227073;4228103;1;4322311;4321281;4413441;4414471;1;4503559;4502529;4588545;4589575;1;4672519;4671489;4751361;4752391;1;4829191;4828161;4899841;4900871;1;4967431;4966401;5028865;5029895;1;5087239;5086209;5136385;5137415;25];
[26;10380295;2;10330119;1;10272775;2;10210311;1;10143751;2;10072071;1;9995271;2;9915399;1;9832455;2;9746439;1;9657351;2;9565191;1;9470983;2;9374727;1;9175047;2;8967175;1;8751111;2;8528899;8527876;1;8299524;8300547;2;8065027;8064004;1;7820292;7821315;2;7570435;7569412;1;7311364;7312387;2;7047171;7046148;1;6774788;6775811;2;6498307;6497284;1;6212612;6213635;2;5921795;5920772;1;5622788;5623811;2;5319683;5318660;1;75780;76803;2;380931;379908;1;677892;678915;2;970755;969732;1;1254404;1255427;2;1532931;1531908;1;1803268;1804291;2;2069507;2068484;1;2326532;2327555;2;2578435;2577412;1;2821124;2822147;2;3057667;3056644;1;3284996;3286019;2;3508231;1;3724295;2;3932167;1;4131847;2;4228103;1;4322311;2;4414471;1;4503559;2;4589575;1;4672519;2;4752391;1;4829191;2;4900871;1;4967431;2;5029895;1;5087239;2;5137415;25];
[17;10423298;7;10380294;10381314;10331138;10330118;1;10272774;10273794;10211330;10210310;1;10143750;10144770;10073090;10072070;1;9995270;9996290;9916418;9915398;1;9832454;9833474;9747458;9746438;1;9657350;9658370;9566210;9565190;1;9470982;9472002;9375746;9374726;1;9175046;9176066;8968194;8967174;1;8751110;8752130;8530946;8528898;8527874;8529922;1;8301570;8299522;8300546;8302594;8067074;8065026;8064002;8066050;1;7822338;7820290;7821314;7823362;7572482;7570434;7569410;7571458;1;7313410;7311362;7312386;7314434;7049218;7047170;7046146;7048194;1;6776834;6774786;6775810;6777858;6500354;6498306;6497282;6499330;1;6214658;6212610;6213634;6215682;5923842;5921794;5920770;5922818;1;5624834;5622786;5623810;5625858;5321730;5319682;5318658;5320706;1;77826;75778;76802;78850;382978;380930;379906;381954;1;679938;677890;678914;680962;972802;970754;969730;971778;1;1256450;1254402;1255426;1257474;1534978;1532930;1531906;1533954;1;1805314;1803266;1804290;1806338;2071554;2069506;2068482;2070530;1;2328578;2326530;2327554;2329602;2580482;2578434;2577410;2579458;1;2823170;2821122;2822146;2824194;3059714;3057666;3056642;3058690;1;3287042;3284994;3286018;3288066;3509250;3508230;1;3724294;3725314;3933186;3932166;1;4131846;4132866;4229122;4228102;1;4322310;4323330;4415490;4414470;1;4503558;4504578;4590594;4589574;1;4672518;4673538;4753410;4752390;1;4829190;4830210;4901890;4900870;1;4967430;4968450;5030914;5029894;1;5087238;5088258;5138434;5137414;7;5180418;16];
[17;10423300;5;10380292;10381316;10331140;10330116;1;10272772;10273796;10211332;10210308;1;10143748;10144772;10073092;10072068;1;9995268;9996292;9916420;9915396;1;9832452;9833476;9747460;9746436;1;9657348;9658372;9566212;9565188;1;9470980;9472004;9375748;9374724;1;9175044;9176068;8968196;8967172;1;8751108;8752132;8530948;1;8529923;1;8301571;8299521;8302596;8067076;1;8066051;1;7822339;7820289;7823364;7572484;1;7571459;1;7313411;7311361;7314436;7049220;1;7048195;1;6776835;1;6777860;6500356;1;6499331;1;6214659;1;6215684;5923844;1;5922819;1;5624835;1;5625860;5321732;1;5320707;1;77827;1;78852;382980;1;381955;1;679939;1;680964;972804;1;971779;1;1256451;1;1257476;1534980;1;1533955;1;1805315;1;1806340;2071556;2068481;2070531;1;2328579;1;2329604;2580484;2577409;2579459;1;2823171;1;2824196;3059716;3056641;3058691;1;3287043;1;3288068;3509252;3508228;1;3724292;3725316;3933188;3932164;1;4131844;4132868;4229124;4228100;1;4322308;4323332;4415492;4414468;1;4503556;4504580;4590596;4589572;1;4672516;4673540;4753412;4752388;1;4829188;4830212;4901892;4900868;1;4967428;4968452;5030916;5029892;1;5087236;5088260;5138436;5137412;5;5180420;16];
[17;10423301;4;10380290;10381318;10331142;10330114;1;10272770;10273798;10211334;10210306;1;10143746;10144774;10073094;10072066;1;9995266;9996294;9916422;9915394;1;9832450;9833478;9747462;9746434;1;9657346;9658374;9566214;9565186;1;9470978;9472006;9375750;9374722;1;9175042;9176070;8968198;8967170;1;8751106;8754178;8753153;8752131;8530947;8531969;8532994;8529922;1;8301570;8304642;8303617;8302595;8067075;8068097;8069122;8066050;1;7822338;7825410;7824385;7823363;7572483;7573505;7574530;7571458;1;7313410;7316482;7315457;7314435;7049219;7050241;7051266;7048194;1;6776834;6779906;6778881;6777859;6500355;6501377;6502402;6499330;1;6214658;6217730;6216705;6215683;5923843;5924865;5925890;5922818;1;5624834;5627906;5626881;5625859;5321731;5322753;5323778;5320706;1;77826;80898;79873;78851;382979;384001;385026;381954;1;679938;683010;681985;680963;972803;973825;974850;971778;1;1256450;1259522;1258497;1257475;1534979;1536001;1537026;1533954;1;1805314;1808386;1807361;1806339;2071555;2072577;2073602;2070530;1;2328578;2331650;2330625;2329603;2580483;2581505;2582530;2579458;1;2823170;2826242;2825217;2824195;3059715;3060737;3061762;3058690;1;3287042;3290114;3289089;3288067;3509251;3510273;3511298;3508226;1;3724290;3725318;3933190;3932162;1;4131842;4132870;4229126;4228098;1;4322306;4323334;4415494;4414466;1;4503554;4504582;4590598;4589570;1;4672514;4673542;4753414;4752386;1;4829186;4830214;4901894;4900866;1;4967426;4968454;5030918;5029890;1;5087234;5088262;5138438;5137410;4;5180421;16];
[17;10423303;3;10381319;10331143;10330113;2;10273799;10211335;10210305;2;10144775;10073095;10072065;2;9996295;9916423;9915393;2;9833479;9747463;9746433;1;9657345;9658375;9566215;9565185;1;9470977;9472007;9375751;9374721;1;9175041;9176071;8968199;8967169;1;8751105;8754179;8753155;8752129;8530945;8531971;8532995;8529921;1;8301569;8304643;8303619;8302593;8067073;8068099;8069123;8066049;1;7822337;7825411;7824387;7823361;7572481;7573507;7574531;7571457;1;7313409;7316483;7315459;7314433;7049217;7050243;7051267;7048193;1;6776833;6779907;6778883;6777857;6500353;6501379;6502403;6499329;1;6214657;6217731;6216707;6215681;5923841;5924867;5925891;5922817;1;5624833;5627907;5626883;5625857;5321729;5322755;5323779;5320705;1;77825;80899;79875;78849;382977;384003;385027;381953;1;679937;683011;681987;680961;972801;973827;974851;971777;1;1256449;1259523;1258499;1257473;1534977;1536003;1537027;1533953;1;1805313;1808387;1807363;1806337;2071553;2072579;2073603;2070529;1;2328577;2331651;2330627;2329601;2580481;2581507;2582531;2579457;1;2823169;2826243;2825219;2824193;3059713;3060739;3061763;3058689;1;3287041;3290115;3289091;3288065;3509249;3510275;3511299;3508225;1;3724289;3725319;3933191;3932161;1;4131841;4132871;4229127;4228097;1;4322305;4323335;4415495;4414465;1;4503553;4504583;4590599;2;4672513;4673543;4753415;2;4829185;4830215;4901895;2;4967425;4968455;5030919;2;5087233;5088263;5138439;3;5180423;16];
[17;10423304;1;10381320;10331144;1;10273800;10211336;1;10144776;10073096;1;9996296;9916424;1;9833480;9747464;1;9658376;9566216;1;9472008;9375752;1;9176072;8968200;1;8754180;8753155;8755201;1;8531971;8532996;1;8304644;8303619;8305665;1;8068099;8069124;1;7825412;7824387;7826433;1;7573507;7574532;1;7316484;7315459;7317505;1;7050243;7051268;1;6779908;6778883;6780929;1;6501379;6502404;1;6217732;6216707;6218753;1;5924867;5925892;1;5627908;5626883;5628929;5324801;5322755;5323780;1;80900;79875;81921;386049;384003;385028;1;683012;681987;1;975873;973827;974852;1;1259524;1258499;1;1538049;1536003;1537028;1;1808388;1807363;1;2074625;2072579;2073604;1;2331652;2330627;1;2583553;2581507;2582532;1;2826244;2825219;1;3062785;3060739;3061764;1;3290116;3289091;1;3512321;3510275;3511300;1;3725320;3933192;1;4132872;4229128;1;4323336;4415496;1;4504584;4590600;1;4673544;4753416;1;4830216;4901896;1;4968456;5030920;1;5088264;5138440;1;5180424;16];
[17;10423302;10424322;1;10382338;10381318;10331142;10332162;1;10274818;10273798;10211334;10212354;1;10145794;10144774;10073094;10074114;1;9997314;9996294;9916422;9917442;1;9834498;9833478;9747462;9748482;1;9659394;9658374;9566214;9567234;1;9473026;9472006;9375750;9376770;1;9177090;9176070;8968198;8969218;1;8756226;8754178;8753154;8755202;8534018;8531970;8532994;8535042;1;8306690;8304642;8303618;8305666;8070146;8068098;8069122;8071170;1;7827458;7825410;7824386;7826434;7575554;7573506;7574530;7576578;1;7318530;7316482;7315458;7317506;7052290;7050242;7051266;7053314;1;6781954;6779906;6778882;6780930;6503426;6501378;6502402;6504450;1;6219778;6217730;6216706;6218754;5926914;5924866;5925890;5927938;1;5629954;5627906;5626882;5628930;5324802;5322754;5323778;5325826;1;82946;80898;79874;81922;386050;384002;385026;387074;1;685058;683010;681986;684034;975874;973826;974850;976898;1;1261570;1259522;1258498;1260546;1538050;1536002;1537026;1539074;1;1810434;1808386;1807362;1809410;2074626;2072578;2073602;2075650;1;2333698;2331650;2330626;2332674;2583554;2581506;2582530;2584578;1;2828290;2826242;2825218;2827266;3062786;3060738;3061762;3063810;1;3292162;3290114;3289090;3291138;3512322;3510274;3511298;3513346;1;3726338;3725318;3933190;3934210;1;4133890;4132870;4229126;4230146;1;4324354;4323334;4415494;4416514;1;4505602;4504582;4590598;4591618;1;4674562;4673542;4753414;4754434;1;4831234;4830214;4901894;4902914;1;4969474;4968454;5030918;5031938;1;5089282;5088262;5138438;5139458;1;5181442;5180422;16];
[17;10423300;10424324;1;10382339;1;10381316;10331140;10332164;1;10274819;1;10273796;10211332;1;10212355;1;10145795;1;10144772;10073092;1;10074115;1;9997315;1;9996292;9916420;1;9917443;1;9834499;1;9833476;9747460;1;9748483;1;9659395;1;9658372;9566212;1;9567235;1;9473027;1;9472004;9375748;1;9376771;1;9177091;1;9176068;8968196;1;8969219;1;8756227;1;8755204;8534020;1;8535043;1;8306691;1;8305668;8070148;1;8071171;1;7827459;1;7826436;7575556;1;7576579;1;7318531;1;7317508;7052292;1;7053315;1;6781955;1;6780932;6503428;1;6504451;1;6219779;1;6218756;5926916;1;5927939;1;5629955;1;5628932;5324804;1;5325827;1;82947;1;81924;386052;1;387075;1;685059;1;684036;975876;1;976899;1;1261571;1;1260548;1538052;1;1539075;1;1810435;1;1809412;2074628;1;2075651;1;2333699;1;2332676;2583556;1;2584579;1;2828291;1;2827268;3062788;1;3063811;1;3292163;1;3291140;3512324;1;3513347;1;3726339;1;3725316;3933188;1;3934211;1;4133891;1;4132868;4229124;1;4230147;1;4324355;1;4323332;4415492;1;4416515;1;4505603;1;4504580;4590596;1;4591619;1;4674563;1;4673540;4753412;1;4754435;1;4831235;1;4830212;4901892;1;4902915;1;4969475;1;4968452;5030916;1;5031939;1;5089284;5088260;5138436;1;5139459;1;5181444;5180420;16];
[17;10423299;10424325;1;10382341;10381315;10331139;10332165;1;10274821;10273795;10211331;10212357;1;10145797;10144771;10073091;10074117;1;9997317;9996291;9916419;9917445;1;9834501;9833475;9747459;9748485;1;9659397;9658371;9566211;9567237;1;9473029;9472003;9375747;9376773;1;9177093;9176067;8968195;8971265;8970242;8969218;1;8756226;8757250;8758273;8755203;8534019;8537089;8536066;8535042;1;8306690;8307714;8308737;8305667;8070147;8073217;8072194;8071170;1;7827458;7828482;7829505;7826435;7575555;7578625;7577602;7576578;1;7318530;7319554;7320577;7317507;7052291;7055361;7054338;7053314;1;6781954;6782978;6784001;6780931;6503427;6506497;6505474;6504450;1;6219778;6220802;6221825;6218755;5926915;5929985;5928962;5927938;1;5629954;5630978;5632001;5628931;5324803;5327873;5326850;5325826;1;82946;83970;84993;81923;386051;389121;388098;387074;1;685058;686082;687105;684035;975875;978945;977922;976898;1;1261570;1262594;1263617;1260547;1538051;1541121;1540098;1539074;1;1810434;1811458;1812481;1809411;2074627;2077697;2076674;2075650;1;2333698;2334722;2335745;2332675;2583555;2586625;2585602;2584578;1;2828290;2829314;2830337;2827267;3062787;3065857;3064834;3063810;1;3292162;3293186;3294209;3291139;3512323;3515393;3514370;3513346;1;3726338;3727362;3728385;3725315;3933187;3934213;1;4133893;4132867;4229123;4230149;1;4324357;4323331;4415491;4416517;1;4505605;4504579;4590595;4591621;1;4674565;4673539;4753411;4754437;1;4831237;4830211;4901891;4902917;1;4969477;4968451;5030915;5031941;1;5089285;5088259;5138435;5139461;1;5181445;5180419;16];
[17;10423297;10424327;1;10382343;10381313;10331137;10332167;1;10274823;10273793;10211329;10212359;1;10145799;10144769;10073089;10074119;1;9997319;9996289;9916417;9917447;1;9834503;9833473;9747457;9748487;1;9659399;9658369;9566209;9567239;1;9473031;9472001;9375745;9376775;1;9177095;9176065;8968193;8971267;8970243;3;8757251;8758275;8755201;8534017;8537091;8536067;3;8307715;8308739;8305665;8070145;8073219;8072195;3;7828483;7829507;7826433;7575553;7578627;7577603;3;7319555;7320579;7317505;7052289;7055363;7054339;3;6782979;6784003;6780929;6503425;6506499;6505475;3;6220803;6221827;6218753;5926913;5929987;5928963;3;5630979;5632003;5628929;5324801;5327875;5326851;3;83971;84995;81921;386049;389123;388099;3;686083;687107;684033;975873;978947;977923;3;1262595;1263619;1260545;1538049;1541123;1540099;3;1811459;1812483;1809409;2074625;2077699;2076675;3;2334723;2335747;2332673;2583553;2586627;2585603;3;2829315;2830339;2827265;3062785;3065859;3064835;3;3293187;3294211;3291137;3512321;3515395;3514371;3;3727363;3728387;3725313;3933185;3934215;1;4133895;4132865;4229121;4230151;1;4324359;4323329;4415489;4416519;1;4505607;4504577;4590593;4591623;1;4674567;4673537;4753409;4754439;1;4831239;4830209;4901889;4902919;1;4969479;4968449;5030913;5031943;1;5089287;5088257;5138433;5139463;1;5181447;5180417;16];
[17;10425345;10424327;1;10382343;10383361;10333185;10332167;1;10274823;10275841;10213377;10212359;1;10145799;10146817;10075137;10074119;1;9997319;9998337;9918465;9917447;1;9834503;9835521;9749505;9748487;1;9659399;9660417;9568257;9567239;1;9473031;9474049;9377793;9376775;1;9177095;9178113;8973313;8971267;8970244;1;8757252;8758275;8760321;8539137;8537091;8536068;1;8307716;8308739;8310785;8075265;8073219;8072196;1;7828484;7829507;7831553;7580673;7578627;7577604;1;7319556;7320579;7322625;7057409;7055363;7054340;1;6782980;6784003;6786049;6508545;6506499;6505476;1;6220804;6221827;6223873;5932033;5929987;5928964;1;5630980;5632003;5634049;5329921;5327875;5326852;1;83972;84995;87041;391169;389123;388100;1;686084;687107;689153;980993;978947;977924;1;1262596;1263619;1265665;1543169;1541123;1540100;1;1811460;1812483;1814529;2079745;2077699;2076676;1;2334724;2335747;2337793;2588673;2586627;2585604;1;2829316;2830339;2832385;3067905;3065859;3064836;1;3293188;3294211;3296257;3517441;3515395;3514372;1;3727364;3728387;3730433;3935233;3934215;1;4133895;4134913;4231169;4230151;1;4324359;4325377;4417537;4416519;1;4505607;4506625;4592641;4591623;1;4674567;4675585;4755457;4754439;1;4831239;4832257;4903937;4902919;1;4969479;4970497;5032961;5031943;1;5089287;5090305;5140481;5139463;1;5181447;5182465;16];
[17;10425346;1;10424325;1;10382341;1;10383362;10333186;1;10332165;1;10274821;1;10275842;10213378;1;10212357;1;10145797;1;10146818;10075138;1;10074117;1;9997317;1;9998338;9918466;1;9917445;1;9834501;1;9835522;9749506;1;9748485;1;9659397;1;9660418;9568258;1;9567237;1;9473029;1;9474050;9377794;1;9376773;1;9177093;1;9178114;8973314;1;8971265;8970242;8972290;1;8759298;8757250;8758273;1;8760322;8539138;1;8537089;8536066;8538114;1;8309762;8307714;8308737;1;8310786;8075266;1;8073217;8072194;8074242;1;7830530;7828482;7829505;1;7831554;7580674;1;7578625;7577602;7579650;1;7321602;7319554;7320577;1;7322626;7057410;1;7055361;7054338;7056386;1;6785026;6782978;6784001;1;6786050;6508546;1;6506497;6505474;6507522;1;6222850;6220802;6221825;1;6223874;5932034;1;5929985;5928962;5931010;1;5633026;5630978;5632001;1;5634050;5329922;1;5327873;5326850;5328898;1;86018;83970;84993;1;87042;391170;1;389121;388098;390146;1;688130;686082;687105;1;689154;980994;1;978945;977922;979970;1;1264642;1262594;1263617;1;1265666;1543170;1;1541121;1540098;1542146;1;1813506;1811458;1812481;1;1814530;2079746;1;2077697;2076674;2078722;1;2336770;2334722;2335745;1;2337794;2588674;1;2586625;2585602;2587650;1;2831362;2829314;2830337;1;2832386;3067906;1;3065857;3064834;3066882;1;3295234;3293186;3294209;1;3296258;3517442;1;3515393;3514370;3516418;1;3729410;3727362;3728385;1;3730434;3935234;1;3934213;1;4133893;1;4134914;4231170;1;4230149;1;4324357;1;4325378;4417538;1;4416517;1;4505605;1;4506626;4592642;1;4591621;1;4674565;1;4675586;4755458;1;4754437;1;4831237;1;4832258;4903938;1;4902917;1;4969477;1;4970498;5032962;1;5031941;1;5089285;1;5090306;5140482;1;5139461;1;5181445;1;5182466;16];
[17;10425348;10424324;1;10382340;10383364;10333188;10332164;1;10274820;10275844;10213380;10212356;1;10145796;10146820;10075140;10074116;1;9997316;9998340;9918468;9917444;1;9834500;9835524;9749508;9748484;1;9659396;9660420;9568260;9567236;1;9473028;9474052;9377796;9376772;1;9177092;9178116;8973316;8972292;1;8759300;8760324;8539140;8538116;1;8309764;8310788;8075268;8074244;1;7830532;7831556;7580676;7579652;1;7321604;7322628;7057412;7056388;1;6785028;6786052;6508548;6507524;1;6222852;6223876;5932036;5931012;1;5633028;5634052;5329924;5328900;1;86020;87044;391172;390148;1;688132;689156;980996;979972;1;1264644;1265668;1543172;1542148;1;1813508;1814532;2079748;2078724;1;2336772;2337796;2588676;2587652;1;2831364;2832388;3067908;3066884;1;3295236;3296260;3517444;3516420;1;3729412;3730436;3935236;3934212;1;4133892;4134916;4231172;4230148;1;4324356;4325380;4417540;4416516;1;4505604;4506628;4592644;4591620;1;4674564;4675588;4755460;4754436;1;4831236;4832260;4903940;4902916;1;4969476;4970500;5032964;5031940;1;5089284;5090308;5140484;5139460;1;5181444;5182468;16];
[17;10425350;10424322;1;10382338;10383366;10333190;10332162;1;10274818;10275846;10213382;10212354;1;10145794;10146822;10075142;10074114;1;9997314;9998342;9918470;9917442;1;9834498;9835526;9749510;9748482;1;9659394;9660422;9568262;9567234;1;9473026;9474054;9377798;9376770;1;9177090;9180162;9179137;1;9178114;8973314;1;8974337;8975362;8972290;1;8759298;8762370;8761345;1;8760322;8539138;1;8540161;8541186;8538114;1;8309762;8312834;8311809;1;8310786;8075266;1;8076289;8077314;8074242;1;7830530;7833602;7832577;1;7831554;7580674;1;7581697;7582722;7579650;1;7321602;7324674;7323649;1;7322626;7057410;1;7058433;7059458;7056386;1;6785026;6788098;6787073;1;6786050;6508546;1;6509569;6510594;6507522;1;6222850;6225922;6224897;1;6223874;5932034;1;5933057;5934082;5931010;1;5633026;5636098;5635073;1;5634050;5329922;1;5330945;5331970;5328898;1;86018;89090;88065;1;87042;391170;1;392193;393218;390146;1;688130;691202;690177;1;689154;980994;1;982017;983042;979970;1;1264642;1267714;1266689;1;1265666;1543170;1;1544193;1545218;1542146;1;1813506;1816578;1815553;1;1814530;2079746;1;2080769;2081794;2078722;1;2336770;2339842;2338817;1;2337794;2588674;1;2589697;2590722;2587650;1;2831362;2834434;2833409;1;2832386;3067906;1;3068929;3069954;3066882;1;3295234;3298306;3297281;1;3296258;3517442;1;3518465;3519490;3516418;1;3729410;3732482;3731457;1;3730434;3935234;1;3936257;3937282;3934210;1;4133890;4134918;4231174;4230146;1;4324354;4325382;4417542;4416514;1;4505602;4506630;4592646;4591618;1;4674562;4675590;4755462;4754434;1;4831234;4832262;4903942;4902914;1;4969474;4970502;5032966;5031938;1;5089282;5090310;5140486;5139458;1;5181442;5182470;16];
[17;10425352;1;10383368;10333192;1;10275848;10213384;1;10146824;10075144;1;9998344;9918472;1;9835528;9749512;1;9660424;9568264;1;9474056;9377800;1;9180164;9179139;9178113;8973313;8974339;8975364;1;8762372;8761347;8760321;8539137;8540163;8541188;1;8312836;8311811;8310785;8075265;8076291;8077316;1;7833604;7832579;7831553;7580673;7581699;7582724;1;7324676;7323651;7322625;7057409;7058435;7059460;1;6788100;6787075;6786049;6508545;6509571;6510596;1;6225924;6224899;6223873;5932033;5933059;5934084;1;5636100;5635075;5634049;5329921;5330947;5331972;1;89092;88067;87041;391169;392195;393220;1;691204;690179;689153;980993;982019;983044;1;1267716;1266691;1265665;1543169;1544195;1545220;1;1816580;1815555;1814529;2079745;2080771;2081796;1;2339844;2338819;2337793;2588673;2589699;2590724;1;2834436;2833411;2832385;3067905;3068931;3069956;1;3298308;3297283;3296257;3517441;3518467;3519492;1;3732484;3731459;3730433;3935233;3936259;3937284;1;4134920;4231176;1;4325384;4417544;1;4506632;4592648;1;4675592;4755464;1;4832264;4903944;1;4970504;5032968;1;5090312;5140488;1;5182472;16];
[17;10425351;2;10383368;10333191;2;10275848;10213383;2;10146824;10075143;2;9998344;9918471;2;9835528;9749511;2;9660424;9568263;2;9474056;9377799;3;9180163;9179139;9181185;8976385;8974339;8975363;3;8762371;8761347;8763393;8542209;8540163;8541187;3;8312835;8311811;8313857;8078337;8076291;8077315;3;7833603;7832579;7834625;7583745;7581699;7582723;3;7324675;7323651;7325697;7060481;7058435;7059459;3;6788099;6787075;6789121;6511617;6509571;6510595;3;6225923;6224899;6226945;5935105;5933059;5934083;3;5636099;5635075;5637121;5332993;5330947;5331971;3;89091;88067;90113;394241;392195;393219;3;691203;690179;692225;984065;982019;983043;3;1267715;1266691;1268737;1546241;1544195;1545219;3;1816579;1815555;1817601;2082817;2080771;2081795;3;2339843;2338819;2340865;2591745;2589699;2590723;3;2834435;2833411;2835457;3070977;3068931;3069955;3;3298307;3297283;3299329;3520513;3518467;3519491;3;3732483;3731459;3733505;3938305;3936259;3937283;3;4134919;4231176;2;4325383;4417544;2;4506631;4592648;2;4675591;4755464;2;4832263;4903944;2;4970503;5032968;2;5090311;5140488;2;5182471;16];
[17;10425350;10426370;1;10384386;10383366;10333190;10334210;1;10276866;10275846;10213382;10214402;1;10147842;10146822;10075142;10076162;1;9999362;9998342;9918470;9919490;1;9836546;9835526;9749510;9750530;1;9661442;9660422;9568262;9569282;1;9475074;9474054;9377798;9378818;1;9182210;9180162;9179137;9181187;8976387;8974337;8975362;8977410;1;8764418;8762370;8761345;8763395;8542211;8540161;8541186;8543234;1;8314882;8312834;8311809;8313859;8078339;8076289;8077314;8079362;1;7835650;7833602;7832577;7834627;7583747;7581697;7582722;7584770;1;7326722;7324674;7323649;7325699;7060483;7058433;7059458;7061506;1;6790146;6788098;6787073;6789123;6511619;6509569;6510594;6512642;1;6227970;6225922;6224897;6226947;5935107;5933057;5934082;5936130;1;5638146;5636098;5635073;5637123;5332995;5330945;5331970;5334018;1;91138;89090;88065;90115;394243;392193;393218;395266;1;693250;691202;690177;692227;984067;982017;983042;985090;1;1269762;1267714;1266689;1268739;1546243;1544193;1545218;1547266;1;1818626;1816578;1815553;1817603;2082819;2080769;2081794;2083842;1;2341890;2339842;2338817;2340867;2591747;2589697;2590722;2592770;1;2836482;2834434;2833409;2835459;3070979;3068929;3069954;3072002;1;3300354;3298306;3297281;3299331;3520515;3518465;3519490;3521538;1;3734530;3732482;3731457;3733507;3938307;3936257;3937282;3939330;1;4135938;4134918;4231174;4232194;1;4326402;4325382;4417542;4418562;1;4507650;4506630;4592646;4593666;1;4676610;4675590;4755462;4756482;1;4833282;4832262;4903942;4904962;1;4971522;4970502;5032966;5033986;1;5091330;5090310;5140486;5141506;1;5183490;5182470;16];
[17;10425348;10426372;1;10384388;10383364;10333188;10334212;1;10276868;10275844;10213380;10214404;1;10147844;10146820;10075140;10076164;1;9999364;9998340;9918468;9919492;1;9836548;9835524;9749508;9750532;1;9661444;9660420;9568260;9569284;1;9475076;9474052;9377796;9378820;1;9182211;1;9181188;8976388;8977412;1;8764419;1;8763396;8542212;8543236;1;8314883;1;8313860;8078340;8079364;1;7835652;7834628;7583748;7584772;1;7326724;7325700;7060484;7061508;1;6790148;6789124;6511620;6512644;1;6227972;6226948;5935108;5936132;1;5638148;5637124;5332996;5334020;1;91140;90116;394244;395268;1;693252;692228;984068;985092;1;1269764;1268740;1546244;1547268;1;1818628;1817604;2082820;2083844;1;2341892;2340868;2591748;2592772;1;2836484;2835460;3070980;1;3072003;1;3300356;3299332;3520516;1;3521539;1;3734532;3733508;3938308;1;3939331;1;4135940;4134916;4231172;4232196;1;4326404;4325380;4417540;4418564;1;4507652;4506628;4592644;4593668;1;4676612;4675588;4755460;4756484;1;4833284;4832260;4903940;4904964;1;4971524;4970500;5032964;5033988;1;5091332;5090308;5140484;5141508;1;5183492;5182468;16];
[17;10425346;10426374;1;10384389;1;10383362;10333186;10334214;1;10276869;1;10275842;10213378;10214406;1;10147845;1;10146818;10075138;10076166;1;9999365;1;9998338;9918466;9919494;1;9836549;1;9835522;9749506;9750534;1;9661445;1;9660418;9568258;9569286;1;9475077;1;9474050;9377794;9378822;1;9182210;9183234;9184257;1;9181186;8976386;8979458;8978434;8977410;1;8764418;8765442;8766465;1;8763394;8542210;8545282;8544258;8543234;1;8314882;8315906;8316929;1;8313858;8078338;8081410;8080386;8079362;1;7835650;7836674;7837698;7834626;7583746;7586818;7585794;7584770;1;7326722;7327746;7328770;7325698;7060482;7063554;7062530;7061506;1;6790146;6791170;6792194;6789122;6511618;6514690;6513666;6512642;1;6227970;6228994;6230018;6226946;5935106;5938178;5937154;5936130;1;5638146;5639170;5640194;5637122;5332994;5336066;5335042;5334018;1;91138;92162;93186;90114;394242;397314;396290;395266;1;693250;694274;695298;692226;984066;987138;986114;985090;1;1269762;1270786;1271810;1268738;1546242;1549314;1548290;1547266;1;1818626;1819650;1820674;1817602;2082818;2085890;2084866;2083842;1;2341890;2342914;2343938;2340866;2591746;2594818;2593794;2592770;1;2836482;2837506;2838530;2835458;3070978;1;3074049;3073026;3072002;1;3300354;3301378;3302402;3299330;3520514;1;3523585;3522562;3521538;1;3734530;3735554;3736578;3733506;3938306;1;3941377;3940354;3939330;1;4135942;4134914;4231170;1;4232197;1;4326406;4325378;4417538;1;4418565;1;4507654;4506626;4592642;1;4593669;1;4676614;4675586;4755458;1;4756485;1;4833286;4832258;4903938;1;4904965;1;4971526;4970498;5032962;1;5033989;1;5091334;5090306;5140482;1;5141509;1;5183494;5182466;16];
[17;10425345;10426375;1;10384391;10383361;10333185;10334215;1;10276871;10275841;10213377;10214407;1;10147847;10146817;10075137;10076167;1;9999367;9998337;9918465;9919495;1;9836551;9835521;9749505;9750535;1;9661447;9660417;9568257;9569287;1;9475079;9474049;9377793;9378823;1;9183236;9184259;9181185;8976385;8979459;8978436;1;8765444;8766467;8763393;8542209;8545283;8544260;1;8315908;8316931;8313857;8078337;8081411;8080388;1;7836676;7837699;7834625;7583745;7586819;7585796;1;7327748;7328771;7325697;7060481;7063555;7062532;1;6791172;6792195;6789121;6511617;6514691;6513668;1;6228996;6230019;6226945;5935105;5938179;5937156;1;5639172;5640195;5637121;5332993;5336067;5335044;1;92164;93187;90113;394241;397315;396292;1;694276;695299;692225;984065;987139;986116;1;1270788;1271811;1268737;1546241;1549315;1548292;1;1819652;1820675;1817601;2082817;2085891;2084868;1;2342916;2343939;2340865;2591745;2594819;2593796;1;2837508;2838531;2835457;3070977;3074051;3073028;1;3301380;3302403;3299329;3520513;3523587;3522564;1;3735556;3736579;3733505;3938305;3941379;3940356;1;4135943;4134913;4231169;4232199;1;4326407;4325377;4417537;4418567;1;4507655;4506625;4592641;4593671;1;4676615;4675585;4755457;4756487;1;4833287;4832257;4903937;4904967;1;4971527;4970497;5032961;5033991;1;5091335;5090305;5140481;5141511;1;5183495;5182465;16];
[17;10427393;10426375;1;10384391;10385409;10335233;10334215;1;10276871;10277889;10215425;10214407;1;10147847;10148865;10077185;10076167;1;9999367;10000385;9920513;9919495;1;9836551;9837569;9751553;9750535;1;9661447;9662465;9570305;9569287;1;9475079;9476097;9379841;9378823;2;9183235;9184259;9186305;8981505;8979459;8978435;3;8765443;8766467;8768513;8547329;8545283;8544259;3;8315907;8316931;8318977;8083457;8081411;8080387;3;7836675;7837699;7839745;7588865;7586819;7585795;3;7327747;7328771;7330817;7065601;7063555;7062531;3;6791171;6792195;6794241;6516737;6514691;6513667;3;6228995;6230019;6232065;5940225;5938179;5937155;3;5639171;5640195;5642241;5338113;5336067;5335043;3;92163;93187;95233;399361;397315;396291;3;694275;695299;697345;989185;987139;986115;3;1270787;1271811;1273857;1551361;1549315;1548291;3;1819651;1820675;1822721;2087937;2085891;2084867;3;2342915;2343939;2345985;2596865;2594819;2593795;3;2837507;2838531;2840577;3076097;3074051;3073027;3;3301379;3302403;3304449;3525633;3523587;3522563;3;3735555;3736579;3738625;3943425;3941379;3940355;2;4135943;4136961;4233217;4232199;1;4326407;4327425;4419585;4418567;1;4507655;4508673;4594689;4593671;1;4676615;4677633;4757505;4756487;1;4833287;4834305;4905985;4904967;1;4971527;4972545;5035009;5033991;1;5091335;5092353;5142529;5141511;1;5183495;5184513;16];
[17;10427395;10426373;1;10384389;10385411;10335235;10334213;1;10276869;10277891;10215427;10214405;1;10147845;10148867;10077187;10076165;1;9999365;10000387;9920515;9919493;1;9836549;9837571;9751555;9750533;1;9661445;9662467;9570307;9569285;1;9475077;9476099;9379843;9378821;1;9185282;9183234;9184257;9186307;8981507;8979457;8978434;8980482;1;8767490;8765442;8766465;8768515;8547331;8545281;8544258;8546306;1;8317954;8315906;8316929;8318979;8083459;8081409;8080386;8082434;1;7838722;7836674;7837697;7839747;7588867;7586817;7585794;7587842;1;7329794;7327746;7328769;7330819;7065603;7063553;7062530;7064578;1;6793218;6791170;6792193;6794243;6516739;6514689;6513666;6515714;1;6231042;6228994;6230017;6232067;5940227;5938177;5937154;5939202;1;5641218;5639170;5640193;5642243;5338115;5336065;5335042;5337090;1;94210;92162;93185;95235;399363;397313;396290;398338;1;696322;694274;695297;697347;989187;987137;986114;988162;1;1272834;1270786;1271809;1273859;1551363;1549313;1548290;1550338;1;1821698;1819650;1820673;1822723;2087939;2085889;2084866;2086914;1;2344962;2342914;2343937;2345987;2596867;2594817;2593794;2595842;1;2839554;2837506;2838529;2840579;3076099;3074049;3073026;3075074;1;3303426;3301378;3302401;3304451;3525635;3523585;3522562;3524610;1;3737602;3735554;3736577;3738627;3943427;3941377;3940354;3942402;1;4135941;4136963;4233219;4232197;1;4326405;4327427;4419587;4418565;1;4507653;4508675;4594691;4593669;1;4676613;4677635;4757507;4756485;1;4833285;4834307;4905987;4904965;1;4971525;4972547;5035011;5033989;1;5091333;5092355;5142531;5141509;1;5183493;5184515;16];
[17;10427396;1;10426371;1;10384387;1;10385412;10335236;1;10334211;1;10276867;1;10277892;10215428;1;10214403;1;10147843;1;10148868;10077188;1;10076163;1;9999363;1;10000388;9920516;1;9919491;1;9836547;1;9837572;9751556;1;9750531;1;9661443;1;9662468;9570308;1;9569283;1;9475075;1;9476100;9379844;1;9378819;1;9185283;1;9186308;8981508;1;8980483;1;8767491;1;8768516;8547332;1;8546307;1;8317955;1;8318980;8083460;1;8082435;1;7838723;1;7839748;7588868;1;7587843;1;7329795;1;7330820;7065604;1;7064579;1;6793219;1;6794244;6516740;1;6515715;1;6231043;1;6232068;5940228;1;5939203;1;5641219;1;5642244;5338116;1;5337091;1;94211;1;95236;399364;1;398339;1;696323;1;697348;989188;1;988163;1;1272835;1;1273860;1551364;1;1550339;1;1821699;1;1822724;2087940;1;2086915;1;2344963;1;2345988;2596868;1;2595843;1;2839555;1;2840580;3076100;1;3075075;1;3303427;1;3304452;3525636;1;3524611;1;3737603;1;3738628;3943428;1;3942403;1;4135939;1;4136964;4233220;1;4232195;1;4326403;1;4327428;4419588;1;4418563;1;4507651;1;4508676;4594692;1;4593667;1;4676611;1;4677636;4757508;1;4756483;1;4833283;1;4834308;4905988;1;4904963;1;4971523;1;4972548;5035012;1;5033987;1;5091331;1;5092356;5142532;1;5141507;1;5183491;1;5184516;16];
[17;10427398;10426370;1;10384386;10385414;10335238;10334210;1;10276866;10277894;10215430;10214402;1;10147842;10148870;10077190;10076162;1;9999362;10000390;9920518;9919490;1;9836546;9837574;9751558;9750530;1;9661442;9662470;9570310;9569282;1;9475074;9476102;9379846;9378818;1;9185282;9188354;9187330;9186306;8981506;8982530;8983554;8980482;1;8767490;8770562;8769538;8768514;8547330;8548354;8549378;8546306;1;8317954;8321026;8320002;8318978;8083458;8084482;8085506;8082434;1;7838722;7841794;7840770;7839746;7588866;7589890;7590914;7587842;1;7329794;7332866;7331842;7330818;7065602;7066626;7067650;7064578;1;6793218;6796290;6795266;6794242;6516738;6517762;6518786;6515714;1;6231042;6234114;6233090;6232066;5940226;5941250;5942274;5939202;1;5641218;5644290;5643266;5642242;5338114;5339138;5340162;5337090;1;94210;97282;96258;95234;399362;400386;401410;398338;1;696322;699394;698370;697346;989186;990210;991234;988162;1;1272834;1275906;1274882;1273858;1551362;1552386;1553410;1550338;1;1821698;1824770;1823746;1822722;2087938;2088962;2089986;2086914;1;2344962;2348034;2347010;2345986;2596866;2597890;2598914;2595842;1;2839554;2842626;2841602;2840578;3076098;3077122;3078146;3075074;1;3303426;3306498;3305474;3304450;3525634;3526658;3527682;3524610;1;3737602;3740674;3739650;3738626;3943426;3944450;3945474;3942402;1;4135938;4136966;4233222;4232194;1;4326402;4327430;4419590;4418562;1;4507650;4508678;4594694;4593666;1;4676610;4677638;4757510;4756482;1;4833282;4834310;4905990;4904962;1;4971522;4972550;5035014;5033986;1;5091330;5092358;5142534;5141506;1;5183490;5184518;16];
[17;10427400;1;10385416;10335240;1;10277896;10215432;1;10148872;10077192;1;10000392;9920520;1;9837576;9751560;1;9662472;9570312;1;9476104;9379848;1;9188356;9187331;2;8982531;8983556;1;8770564;8769539;2;8548355;8549380;1;8321028;8320003;2;8084483;8085508;1;7841796;7840771;2;7589891;7590916;1;7332868;7331843;2;7066627;7067652;1;6796292;6795267;2;6517763;6518788;1;6234116;6233091;2;5941251;5942276;1;5644292;5643267;2;5339139;5340164;1;97284;96259;2;400387;401412;1;699396;698371;2;990211;991236;1;1275908;1274883;2;1552387;1553412;1;1824772;1823747;2;2088963;2089988;1;2348036;2347011;2;2597891;2598916;1;2842628;2841603;2;3077123;3078148;1;3306500;3305475;2;3526659;3527684;1;3740676;3739651;2;3944451;3945476;1;4136968;4233224;1;4327432;4419592;1;4508680;4594696;1;4677640;4757512;1;4834312;4905992;1;4972552;5035016;1;5092360;5142536;1;5184520;16];
[17;10427399;10428417;1;10386433;10385415;10335239;10336257;1;10278913;10277895;10215431;10216449;1;10149889;10148871;10077191;10078209;1;10001409;10000391;9920519;9921537;1;9838593;9837575;9751559;9752577;1;9663489;9662471;9570311;9571329;1;9477121;9476103;9379847;9380865;1;9190401;9188355;9187331;9189377;8984577;8982531;8983555;8985601;1;8772609;8770563;8769539;8771585;8550401;8548355;8549379;8551425;1;8323073;8321027;8320003;8322049;8086529;8084483;8085507;8087553;1;7843841;7841795;7840771;7842817;7591937;7589891;7590915;7592961;1;7334913;7332867;7331843;7333889;7068673;7066627;7067651;7069697;1;6798337;6796291;6795267;6797313;6519809;6517763;6518787;6520833;1;6236161;6234115;6233091;6235137;5943297;5941251;5942275;5944321;1;5646337;5644291;5643267;5645313;5341185;5339139;5340163;5342209;1;99329;97283;96259;98305;402433;400387;401411;403457;1;701441;699395;698371;700417;992257;990211;991235;993281;1;1277953;1275907;1274883;1276929;1554433;1552387;1553411;1555457;1;1826817;1824771;1823747;1825793;2091009;2088963;2089987;2092033;1;2350081;2348035;2347011;2349057;2599937;2597891;2598915;2600961;1;2844673;2842627;2841603;2843649;3079169;3077123;3078147;3080193;1;3308545;3306499;3305475;3307521;3528705;3526659;3527683;3529729;1;3742721;3740675;3739651;3741697;3946497;3944451;3945475;3947521;1;4137985;4136967;4233223;4234241;1;4328449;4327431;4419591;4420609;1;4509697;4508679;4594695;4595713;1;4678657;4677639;4757511;4758529;1;4835329;4834311;4905991;4907009;1;4973569;4972551;5035015;5036033;1;5093377;5092359;5142535;5143553;1;5185537;5184519;16];
[17;10427397;1;10428418;1;10386434;1;10385413;10335237;1;10336258;1;10278914;1;10277893;10215429;1;10216450;1;10149890;1;10148869;10077189;1;10078210;1;10001410;1;10000389;9920517;1;9921538;1;9838594;1;9837573;9751557;1;9752578;1;9663490;1;9662469;9570309;1;9571330;1;9477122;1;9476101;9379845;1;9380866;1;9190402;1;9188353;9187329;9189379;8984579;8982529;8983553;1;8985602;1;8772610;1;8770561;8769537;8771587;8550403;8548353;8549377;1;8551426;1;8323074;1;8321025;8320001;8322051;8086531;8084481;8085505;1;8087554;1;7843842;1;7841793;7840769;7842819;7591939;7589889;7590913;1;7592962;1;7334914;1;7332865;7331841;7333891;7068675;7066625;7067649;1;7069698;1;6798338;1;6796289;6795265;6797315;6519811;6517761;6518785;1;6520834;1;6236162;1;6234113;6233089;6235139;5943299;5941249;5942273;1;5944322;1;5646338;1;5644289;5643265;5645315;5341187;5339137;5340161;1;5342210;1;99330;1;97281;96257;98307;402435;400385;401409;1;403458;1;701442;1;699393;698369;700419;992259;990209;991233;1;993282;1;1277954;1;1275905;1274881;1276931;1554435;1552385;1553409;1;1555458;1;1826818;1;1824769;1823745;1825795;2091011;2088961;2089985;1;2092034;1;2350082;1;2348033;2347009;2349059;2599939;2597889;2598913;1;2600962;1;2844674;1;2842625;2841601;2843651;3079171;3077121;3078145;1;3080194;1;3308546;1;3306497;3305473;3307523;3528707;3526657;3527681;1;3529730;1;3742722;1;3740673;3739649;3741699;3946499;3944449;3945473;1;3947522;1;4137986;1;4136965;4233221;1;4234242;1;4328450;1;4327429;4419589;1;4420610;1;4509698;1;4508677;4594693;1;4595714;1;4678658;1;4677637;4757509;1;4758530;1;4835330;1;4834309;4905989;1;4907010;1;4973570;1;4972549;5035013;1;5036034;1;5093378;1;5092357;5142533;1;5143554;1;5185538;1;5184517;16];
[17;10427396;10428420;1;10386436;10385412;10335236;10336260;1;10278916;10277892;10215428;10216452;1;10149892;10148868;10077188;10078212;1;10001412;10000388;9920516;9921540;1;9838596;9837572;9751556;9752580;1;9663492;9662468;9570308;9571332;1;9477124;9476100;9379844;9380868;1;9190403;9191425;9189380;8984580;8986625;8985603;1;8772611;8773633;8771588;8550404;8552449;8551427;1;8323075;8324097;8322052;8086532;8088577;8087555;1;7843843;7844865;7842820;7591940;7593985;7592963;1;7334915;7335937;7333892;7068676;7070721;7069699;1;6798339;6799361;6797316;6519812;6521857;6520835;1;6236163;6237185;6235140;5943300;5945345;5944323;1;5646339;5647361;5645316;5341188;5343233;5342211;1;99331;100353;98308;402436;404481;403459;1;701443;702465;700420;992260;994305;993283;1;1277955;1278977;1276932;1554436;1556481;1555459;1;1826819;1827841;1825796;2091012;2093057;2092035;1;2350083;2351105;2349060;2599940;2601985;2600963;1;2844675;2845697;2843652;3079172;3081217;3080195;1;3308547;3309569;3307524;3528708;3530753;3529731;1;3742723;3743745;3741700;3946500;3948545;3947523;1;4137988;4136964;4233220;4234244;1;4328452;4327428;4419588;4420612;1;4509700;4508676;4594692;4595716;1;4678660;4677636;4757508;4758532;1;4835332;4834308;4905988;4907012;1;4973572;4972548;5035012;5036036;1;5093380;5092356;5142532;5143556;1;5185540;5184516;16];
[17;10427394;10428422;1;10386438;10385410;10335234;10336262;1;10278918;10277890;10215426;10216454;1;10149894;10148866;10077186;10078214;1;10001414;10000386;9920514;9921542;1;9838598;9837570;9751554;9752582;1;9663494;9662466;9570306;9571334;1;9477126;9476098;9379842;9380870;1;9190401;1;9191426;9192450;9189378;8984578;8987650;8986626;1;8985601;1;8772609;1;8773634;8774658;8771586;8550402;8553474;8552450;1;8551425;1;8323073;1;8324098;8325122;8322050;8086530;8089602;8088578;1;8087553;1;7843841;1;7844866;7845890;7842818;7591938;7595010;7593986;1;7592961;1;7334913;1;7335938;7336962;7333890;7068674;7071746;7070722;1;7069697;1;6798337;1;6799362;6800386;6797314;6519810;6522882;6521858;1;6520833;1;6236161;1;6237186;6238210;6235138;5943298;5946370;5945346;1;5944321;1;5646337;1;5647362;5648386;5645314;5341186;5344258;5343234;1;5342209;1;99329;1;100354;101378;98306;402434;405506;404482;1;403457;1;701441;1;702466;703490;700418;992258;995330;994306;1;993281;1;1277953;1;1278978;1280002;1276930;1554434;1557506;1556482;1;1555457;1;1826817;1;1827842;1828866;1825794;2091010;2094082;2093058;1;2092033;1;2350081;1;2351106;2352130;2349058;2599938;2603010;2601986;1;2600961;1;2844673;1;2845698;2846722;2843650;3079170;3082242;3081218;1;3080193;1;3308545;1;3309570;3310594;3307522;3528706;3531778;3530754;1;3529729;1;3742721;1;3743746;3744770;3741698;3946498;3949570;3948546;1;3947521;1;4137990;4136962;4233218;4234246;1;4328454;4327426;4419586;4420614;1;4509702;4508674;4594690;4595718;1;4678662;4677634;4757506;4758534;1;4835334;4834306;4905986;4907014;1;4973574;4972546;5035010;5036038;1;5093382;5092354;5142530;5143558;1;5185542;5184514;16];
[17;10428424;1;10386440;10336264;1;10278920;10216456;1;10149896;10078216;1;10001416;9921544;1;9838600;9752584;1;9663496;9571336;1;9477128;9380872;1;9191428;9192452;8987652;8986628;1;8773636;8774660;8553476;8552452;1;8324100;8325124;8089604;8088580;1;7844868;7845892;7595012;7593988;1;7335940;7336964;7071748;7070724;1;6799364;6800388;6522884;6521860;1;6237188;6238212;5946372;5945348;1;5647364;5648388;5344260;5343236;1;100356;101380;405508;404484;1;702468;703492;995332;994308;1;1278980;1280004;1557508;1556484;1;1827844;1828868;2094084;2093060;1;2351108;2352132;2603012;2601988;1;2845700;2846724;3082244;3081220;1;3309572;3310596;3531780;3530756;1;3743748;3744772;3949572;3948548;1;4137992;4234248;1;4328456;4420616;1;4509704;4595720;1;4678664;4758536;1;4835336;4907016;1;4973576;5036040;1;5093384;5143560;1;5185544;16];
[16;10461185;10429441;10428423;1;10386438;1;10387457;10337281;10336263;1;10278918;1;10279937;10217473;10216455;1;10149894;1;10150913;10079233;10078215;1;10001414;1;10002433;9922561;9921543;1;9838598;1;9839617;9753601;9752583;1;9663494;1;9664513;9572353;9571335;1;9477126;1;9478145;9381889;9380871;1;9193473;9191427;9192450;1;9194497;8989697;8987651;8986627;8988673;1;8775681;8773635;8774658;1;8776705;8555521;8553475;8552451;8554497;1;8326145;8324099;8325122;1;8327169;8091649;8089603;8088579;8090625;1;7846913;7844867;7845890;1;7847937;7597057;7595011;7593987;7596033;1;7337985;7335939;7336962;1;7339009;7073793;7071747;7070723;7072769;1;6801409;6799363;6800386;1;6802433;6524929;6522883;6521859;6523905;1;6239233;6237187;6238210;1;6240257;5948417;5946371;5945347;5947393;1;5649409;5647363;5648386;1;5650433;5346305;5344259;5343235;5345281;1;102401;100355;101379;103425;407553;1;405506;404483;406529;1;704513;702467;703491;705537;997377;1;995330;994307;996353;1;1281025;1278979;1280003;1282049;1559553;1;1557506;1556483;1558529;1;1829889;1827843;1828867;1830913;2096129;1;2094082;2093059;2095105;1;2353153;2351107;2352131;2354177;2605057;1;2603010;2601987;2604033;1;2847745;2845699;2846723;2848769;3084289;1;3082242;3081219;3083265;1;3311617;3309571;3310595;3312641;3533825;1;3531778;3530755;3532801;1;3745793;3743747;3744771;3746817;3951617;1;3949570;3948547;3950593;1;4137991;4139009;4235265;1;4234246;1;4328455;4329473;4421633;1;4420614;1;4509703;4510721;4596737;1;4595718;1;4678663;4679681;4759553;1;4758534;1;4835335;4836353;4908033;1;4907014;1;4973575;4974593;5037057;1;5036038;1;5093383;5094401;5144577;1;5143558;1;5185543;5186561;5218305;15];
[14;10461187;10429443;10428421;1;10386437;10387459;10337283;10336261;1;10278917;10279939;10217475;10216453;1;10149893;10150915;10079235;10078213;1;10001413;10002435;9922563;9921541;1;9838597;9839619;9753603;9752581;1;9663493;9664515;9572355;9571333;1;9477125;9478147;9381891;9380869;1;9193475;9191425;9192449;9194499;8989699;8987649;8986625;8988675;1;8775683;8773633;8774657;8776707;8555523;8553473;8552449;8554499;1;8326147;8324097;8325121;8327171;8091651;8089601;8088577;8090627;1;7846915;7844865;7845889;7847939;7597059;7595009;7593985;7596035;1;7337987;7335937;7336961;7339011;7073795;7071745;7070721;7072771;1;6801411;6799361;6800385;6802435;6524931;6522881;6521857;6523907;1;6239235;6237185;6238209;6240259;5948419;5946369;5945345;5947395;1;5649411;5647361;5648385;5650435;5346307;5344257;5343233;5345283;1;102403;100353;101377;103427;407555;405505;404481;406531;1;704515;702465;703489;705539;997379;995329;994305;996355;1;1281027;1278977;1280001;1282051;1559555;1557505;1556481;1558531;1;1829891;1827841;1828865;1830915;2096131;2094081;2093057;2095107;1;2353155;2351105;2352129;2354179;2605059;2603009;2601985;2604035;1;2847747;2845697;2846721;2848771;3084291;3082241;3081217;3083267;1;3311619;3309569;3310593;3312643;3533827;3531777;3530753;3532803;1;3745795;3743745;3744769;3746819;3951619;3949569;3948545;3950595;1;4137989;4139011;4235267;4234245;1;4328453;4329475;4421635;4420613;1;4509701;4510723;4596739;4595717;1;4678661;4679683;4759555;4758533;1;4835333;4836355;4908035;4907013;1;4973573;4974595;5037059;5036037;1;5093381;5094403;5144579;5143557;1;5185541;5186563;5218307;13];
[12;10461189;10429445;10428419;1;10386435;10387461;10337285;10336259;1;10278915;10279941;10217477;10216451;1;10149891;10150917;10079237;10078211;1;10001411;10002437;9922565;9921539;1;9838595;9839621;9753605;9752579;1;9663491;9664517;9572357;9571331;1;9477123;9478149;9381893;9380867;1;9193475;9196545;9194500;8989700;8991745;8988675;1;8775683;8778753;8776708;8555524;8557569;8554499;1;8326147;8329217;8327172;8091652;8093697;8090627;1;7846915;7849985;7847940;7597060;7599105;7596035;1;7337987;7341057;7339012;7073796;7075841;7072771;1;6801411;6804481;6802436;6524932;6526977;6523907;1;6239235;6242305;6240260;5948420;5950465;5947395;1;5649411;5652481;5650436;5346308;5348353;5345283;1;102403;105473;103428;407556;409601;406531;1;704515;707585;705540;997380;999425;996355;1;1281027;1284097;1282052;1559556;1561601;1558531;1;1829891;1832961;1830916;2096132;2098177;2095107;1;2353155;2356225;2354180;2605060;2607105;2604035;1;2847747;2850817;2848772;3084292;3086337;3083267;1;3311619;3314689;3312644;3533828;3535873;3532803;1;3745795;3748865;3746820;3951620;3953665;3950595;1;4137987;4139013;4235269;4234243;1;4328451;4329477;4421637;4420611;1;4509699;4510725;4596741;4595715;1;4678659;4679685;4759557;4758531;1;4835331;4836357;4908037;4907011;1;4973571;4974597;5037061;5036035;1;5093379;5094405;5144581;5143555;1;5185539;5186565;5218309;11];
[10;10461191;10429446;1;10428417;1;10386433;10387463;10337286;1;10336257;1;10278913;10279943;10217478;1;10216449;1;10149889;10150919;10079238;1;10078209;1;10001409;10002439;9922566;1;9921537;1;9838593;9839623;9753606;1;9752577;1;9663489;9664519;9572358;1;9571329;1;9477121;9478151;9381894;1;9380865;1;9193473;9196547;9195522;9194498;8989698;8990722;8991746;1;8988673;1;8775681;8778755;8777730;8776706;8555522;8556546;8557570;1;8554497;1;8326145;8329219;8328194;8327170;8091650;8092674;8093698;1;8090625;1;7846913;7849987;7848962;7847938;7597058;7598082;7599106;1;7596033;1;7337985;7341059;7340034;7339010;7073794;7074818;7075842;1;7072769;1;6801409;1;6804482;6803458;6802434;6524930;6525954;6526978;1;6523905;1;6239233;1;6242306;6241282;6240258;5948418;5949442;5950466;1;5947393;1;5649409;1;5652482;5651458;5650434;5346306;5347330;5348354;1;5345281;1;102401;1;105474;104450;103426;407554;408578;409602;1;406529;1;704513;1;707586;706562;705538;997378;998402;999426;1;996353;1;1281025;1;1284098;1283074;1282050;1559554;1560578;1561602;1;1558529;1;1829889;1;1832962;1831938;1830914;2096130;2097154;2098179;2095105;1;2353153;1;2356226;2355202;2354178;2605058;2606082;2607107;2604033;1;2847745;1;2850818;2849794;2848770;3084290;3085314;3086339;3083265;1;3311617;1;3314690;3313666;3312642;3533826;3534850;3535875;3532801;1;3745793;1;3748866;3747842;3746818;3951618;3952642;3953667;3950593;1;4137985;1;4139014;4235271;4234241;1;4328449;1;4329478;4421639;4420609;1;4509697;1;4510726;4596743;4595713;1;4678657;1;4679686;4759559;4758529;1;4835329;1;4836358;4908039;4907009;1;4973569;1;4974598;5037063;5036033;1;5093377;1;5094406;5144583;5143553;1;5185537;1;5186566;5218311;9];
[9;10461192;10429448;1;10387464;10337288;1;10279944;10217480;1;10150920;10079240;1;10002440;9922568;1;9839624;9753608;1;9664520;9572360;1;9478152;9381896;1;9196548;9195524;8990724;8991748;1;8778756;8777732;8556548;8557572;1;8329220;8328196;8092676;8093700;1;7849988;7848964;7598084;7599108;1;7341060;7340036;7074820;7075844;1;6804484;6803460;6525956;6526980;1;6242308;6241284;5949444;5950468;1;5652484;5651460;5347332;5348356;1;105476;104452;408580;409604;1;707588;706564;998404;999428;1;1284100;1283076;1560580;1561604;1;1832964;1831940;2097156;2098180;1;2356228;2355204;2606084;2607108;1;2850820;2849796;3085316;3086340;1;3314692;3313668;3534852;3535876;1;3748868;3747844;3952644;3953668;1;4139016;4235272;1;4329480;4421640;1;4510728;4596744;1;4679688;4759560;1;4836360;4908040;1;4974600;5037064;1;5094408;5144584;1;5186568;5218312;8];
[9;10462209;10461191;10429447;10430465;1;10388481;10387463;10337287;10338305;1;10280961;10279943;10217479;10218497;1;10151937;10150919;10079239;10080257;1;10003457;10002439;9922567;9923585;1;9840641;9839623;9753607;9754625;1;9665537;9664519;9572359;9573377;1;9479169;9478151;9381895;9382913;1;9198593;9196547;9195522;1;9197569;8992769;1;8990722;8991747;8993793;1;8780801;8778755;8777730;1;8779777;8558593;1;8556546;8557571;8559617;1;8331265;8329219;8328194;1;8330241;8094721;1;8092674;8093699;8095745;1;7852033;7849987;7848962;1;7851009;7600129;1;7598082;7599107;7601153;1;7343105;7341059;7340034;1;7342081;7076865;1;7074818;7075843;7077889;1;6806529;6804483;6803458;1;6805505;6528001;1;6525954;6526979;6529025;1;6244353;6242307;6241282;1;6243329;5951489;1;5949442;5950467;5952513;1;5654529;5652483;5651458;1;5653505;5349377;1;5347330;5348355;5350401;1;107521;105475;104450;1;106497;410625;1;408578;409603;411649;1;709633;707587;706562;1;708609;1000449;1;998402;999427;1001473;1;1286145;1284099;1283074;1;1285121;1562625;1;1560578;1561603;1563649;1;1835009;1832963;1831938;1;1833985;2099201;1;2097154;2098179;2100225;1;2358273;2356227;2355202;1;2357249;2608129;1;2606082;2607107;2609153;1;2852865;2850819;2849794;1;2851841;3087361;1;3085314;3086339;3088385;1;3316737;3314691;3313666;1;3315713;3536897;1;3534850;3535875;3537921;1;3750913;3748867;3747842;1;3749889;3954689;1;3952642;3953667;3955713;1;4140033;4139015;4235271;4236289;1;4330497;4329479;4421639;4422657;1;4511745;4510727;4596743;4597761;1;4680705;4679687;4759559;4760577;1;4837377;4836359;4908039;4909057;1;4975617;4974599;5037063;5038081;1;5095425;5094407;5144583;5145601;1;5187585;5186567;5218311;5219329;8];
[9;10462211;10461189;10429445;10430467;1;10388483;10387461;10337285;10338307;1;10280963;10279941;10217477;10218499;1;10151939;10150917;10079237;10080259;1;10003459;10002437;9922565;9923587;1;9840643;9839621;9753605;9754627;1;9665539;9664517;9572357;9573379;1;9479171;9478149;9381893;9382915;1;9198595;9196545;9195521;9197571;8992771;8990721;8991745;8993795;1;8780803;8778753;8777729;8779779;8558595;8556545;8557569;8559619;1;8331267;8329217;8328193;8330243;8094723;8092673;8093697;8095747;1;7852035;7849985;7848961;7851011;7600131;7598081;7599105;7601155;1;7343107;7341057;7340033;7342083;7076867;7074817;7075841;7077891;1;6806531;6804481;6803457;6805507;6528003;6525953;6526977;6529027;1;6244355;6242305;6241281;6243331;5951491;5949441;5950465;5952515;1;5654531;5652481;5651457;5653507;5349379;5347329;5348353;5350403;1;107523;105473;104449;106499;410627;408577;409601;411651;1;709635;707585;706561;708611;1000451;998401;999425;1001475;1;1286147;1284097;1283073;1285123;1562627;1560577;1561601;1563651;1;1835011;1832961;1831937;1833987;2099203;2097153;2098177;2100227;1;2358275;2356225;2355201;2357251;2608131;2606081;2607105;2609155;1;2852867;2850817;2849793;2851843;3087363;3085313;3086337;3088387;1;3316739;3314689;3313665;3315715;3536899;3534849;3535873;3537923;1;3750915;3748865;3747841;3749891;3954691;3952641;3953665;3955715;1;4140035;4139013;4235269;4236291;1;4330499;4329477;4421637;4422659;1;4511747;4510725;4596741;4597763;1;4680707;4679685;4759557;4760579;1;4837379;4836357;4908037;4909059;1;4975619;4974597;5037061;5038083;1;5095427;5094405;5144581;5145603;1;5187587;5186565;5218309;5219331;8];
[9;10462212;1;10461187;10429443;1;10430468;1;10388484;1;10387459;10337283;1;10338308;1;10280964;1;10279939;10217475;1;10218500;1;10151940;1;10150915;10079235;1;10080260;1;10003460;1;10002435;9922563;1;9923588;1;9840644;1;9839619;9753603;1;9754628;1;9665540;1;9664515;9572355;1;9573380;1;9479172;1;9478147;9381891;1;9382916;1;9198595;9199617;1;9197571;8992771;1;8994817;8993795;1;8780803;8781825;1;8779779;8558595;1;8560641;8559619;1;8331267;8332289;1;8330243;8094723;1;8096769;8095747;1;7852035;7853057;1;7851011;7600131;1;7602177;7601155;1;7343107;7344129;1;7342083;7076867;1;7078913;7077891;1;6806531;6807553;1;6805507;6528003;1;6530049;6529027;1;6244355;6245377;1;6243331;5951491;1;5953537;5952515;1;5654531;5655553;1;5653507;5349379;1;5351425;5350403;1;107523;108545;1;106499;410627;1;412673;411651;1;709635;710657;1;708611;1000451;1;1002497;1001475;1;1286147;1287169;1;1285123;1562627;1;1564673;1563651;1;1835011;1836033;1;1833987;2099203;1;2101249;2100227;1;2358275;2359297;1;2357251;2608131;1;2610177;2609155;1;2852867;2853889;1;2851843;3087363;1;3089409;3088387;1;3316739;3317761;1;3315715;3536899;1;3538945;3537923;1;3750915;3751937;1;3749891;3954691;1;3956737;3955715;1;4140036;1;4139011;4235267;1;4236292;1;4330500;1;4329475;4421635;1;4422660;1;4511748;1;4510723;4596739;1;4597764;1;4680708;1;4679683;4759555;1;4760580;1;4837380;1;4836355;4908035;1;4909060;1;4975620;1;4974595;5037059;1;5038084;1;5095428;1;5094403;5144579;1;5145604;1;5187588;1;5186563;5218307;1;5219332;8];
[9;10462214;10461186;10429442;10430470;1;10388486;10387458;10337282;10338310;1;10280966;10279938;10217474;10218502;1;10151942;10150914;10079234;10080262;1;10003462;10002434;9922562;9923590;1;9840646;9839618;9753602;9754630;1;9665542;9664514;9572354;9573382;1;9479174;9478146;9381890;9382918;1;9198593;9199619;9200642;9197570;8992770;8995842;8994819;8993793;1;8780801;8781827;8782850;8779778;8558594;8561666;8560643;8559617;1;8331265;8332291;8333314;8330242;8094722;8097794;8096771;8095745;1;7852033;7853059;7854082;7851010;7600130;7603202;7602179;7601153;1;7343105;7344131;7345154;7342082;7076866;7079938;7078915;7077889;1;6806529;6807555;6808578;6805506;6528002;6531074;6530051;6529025;1;6244353;6245379;6246402;6243330;5951490;5954562;5953539;5952513;1;5654529;5655555;5656578;5653506;5349378;5352450;5351427;5350401;1;107521;108547;109570;106498;410626;413698;412675;411649;1;709633;710659;711682;708610;1000450;1003522;1002499;1001473;1;1286145;1287171;1288194;1285122;1562626;1565698;1564675;1563649;1;1835009;1836035;1837058;1833986;2099202;2102274;2101251;2100225;1;2358273;2359299;2360322;2357250;2608130;2611202;2610179;2609153;1;2852865;2853891;2854914;2851842;3087362;3090434;3089411;3088385;1;3316737;3317763;3318786;3315714;3536898;3539970;3538947;3537921;1;3750913;3751939;3752962;3749890;3954690;3957762;3956739;3955713;1;4140038;4139010;4235266;4236294;1;4330502;4329474;4421634;4422662;1;4511750;4510722;4596738;4597766;1;4680710;4679682;4759554;4760582;1;4837382;4836354;4908034;4909062;1;4975622;4974594;5037058;5038086;1;5095430;5094402;5144578;5145606;1;5187590;5186562;5218306;5219334;8];
[9;10462216;10430472;1;10388488;10338312;1;10280968;10218504;1;10151944;10080264;1;10003464;9923592;1;9840648;9754632;1;9665544;9573384;1;9479176;9382920;1;9199620;9200644;8995844;8994820;1;8781828;8782852;8561668;8560644;1;8332292;8333316;8097796;8096772;1;7853060;7854084;7603204;7602180;1;7344132;7345156;7079940;7078916;1;6807556;6808580;6531076;6530052;1;6245380;6246404;5954564;5953540;1;5655556;5656580;5352452;5351428;1;108548;109572;413700;412676;1;710660;711684;1003524;1002500;1;1287172;1288196;1565700;1564676;1;1836036;1837060;2102276;2101252;1;2359300;2360324;2611204;2610180;1;2853892;2854916;3090436;3089412;1;3317764;3318788;3539972;3538948;1;3751940;3752964;3957764;3956740;1;4140040;4236296;1;4330504;4422664;1;4511752;4597768;1;4680712;4760584;1;4837384;4909064;1;4975624;5038088;1;5095432;5145608;1;5187592;5219336;8];
[9;10462214;10463234;10431490;10430470;1;10388486;10389506;10339330;10338310;1;10280966;10281986;10219522;10218502;1;10151942;10152962;10081282;10080262;1;10003462;10004482;9924610;9923590;1;9840646;9841666;9755650;9754630;1;9665542;9666562;9574402;9573382;1;9479174;9480194;9383938;9382918;1;9201665;9199619;9200642;9202690;8997890;8995842;8994819;8996865;1;8783873;8781827;8782850;8784898;8563714;8561666;8560643;8562689;1;8334337;8332291;8333314;8335362;8099842;8097794;8096771;8098817;1;7855105;7853059;7854082;7856130;7605250;7603202;7602179;7604225;1;7346177;7344131;7345154;7347202;7081986;7079938;7078915;7080961;1;6809601;6807555;6808578;6810626;6533122;6531074;6530051;6532097;1;6247425;6245379;6246402;6248450;5956610;5954562;5953539;5955585;1;5657601;5655555;5656578;5658626;5354498;5352450;5351427;5353473;1;110593;108547;109570;111618;415746;413698;412675;414721;1;712705;710659;711682;713730;1005570;1003522;1002499;1004545;1;1289217;1287171;1288194;1290242;1567746;1565698;1564675;1566721;1;1838081;1836035;1837058;1839106;2104322;2102274;2101251;2103297;1;2361345;2359299;2360322;2362370;2613250;2611202;2610179;2612225;1;2855937;2853891;2854914;2856962;3092482;3090434;3089411;3091457;1;3319809;3317763;3318786;3320834;3542018;3539970;3538947;3540993;1;3753985;3751939;3752962;3755010;3959810;3957762;3956739;3958785;1;4140038;4141058;4237314;4236294;1;4330502;4331522;4423682;4422662;1;4511750;4512770;4598786;4597766;1;4680710;4681730;4761602;4760582;1;4837382;4838402;4910082;4909062;1;4975622;4976642;5039106;5038086;1;5095430;5096450;5146626;5145606;1;5187590;5188610;5220354;5219334;8];
[9;10462212;1;10463235;10431491;1;10430468;1;10388484;1;10389507;10339331;1;10338308;1;10280964;1;10281987;10219523;1;10218500;1;10151940;1;10152963;10081283;1;10080260;1;10003460;1;10004483;9924611;1;9923588;1;9840644;1;9841667;9755651;1;9754628;1;9665540;1;9666563;9574403;1;9573380;1;9479172;1;9480195;9383939;1;9382916;1;9201667;9199617;1;9202691;8997891;1;8994817;8996867;1;8783875;8781825;1;8784899;8563715;1;8560641;8562691;1;8334339;8332289;1;8335363;8099843;1;8096769;8098819;1;7855107;7853057;1;7856131;7605251;1;7602177;7604227;1;7346179;7344129;1;7347203;7081987;1;7078913;7080963;1;6809603;6807553;1;6810627;6533123;1;6530049;6532099;1;6247427;6245377;1;6248451;5956611;1;5953537;5955587;1;5657603;5655553;1;5658627;5354499;1;5351425;5353475;1;110595;108545;1;111619;415747;1;412673;414723;1;712707;710657;1;713731;1005571;1;1002497;1004547;1;1289219;1287169;1;1290243;1567747;1;1564673;1566723;1;1838083;1836033;1;1839107;2104323;1;2101249;2103299;1;2361347;2359297;1;2362371;2613251;1;2610177;2612227;1;2855939;2853889;1;2856963;3092483;1;3089409;3091459;1;3319811;3317761;1;3320835;3542019;1;3538945;3540995;1;3753987;3751937;1;3755011;3959811;1;3956737;3958787;1;4140036;1;4141059;4237315;1;4236292;1;4330500;1;4331523;4423683;1;4422660;1;4511748;1;4512771;4598787;1;4597764;1;4680708;1;4681731;4761603;1;4760580;1;4837380;1;4838403;4910083;1;4909060;1;4975620;1;4976643;5039107;1;5038084;1;5095428;1;5096451;5146627;1;5145604;1;5187588;1;5188611;5220355;1;5219332;8];
[9;10462211;10463237;10431493;10430467;1;10388483;10389509;10339333;10338307;1;10280963;10281989;10219525;10218499;1;10151939;10152965;10081285;10080259;1;10003459;10004485;9924613;9923587;1;9840643;9841669;9755653;9754627;1;9665539;9666565;9574405;9573379;1;9479171;9480197;9383941;9382915;1;9201667;9204737;9203713;9202691;8997891;8998913;8999937;8996867;1;8783875;8786945;8785921;8784899;8563715;8564737;8565761;8562691;1;8334339;8337409;8336385;8335363;8099843;8100865;8101889;8098819;1;7855107;7858177;7857153;7856131;7605251;7606273;7607297;7604227;1;7346179;7349249;7348225;7347203;7081987;7083009;7084033;7080963;1;6809603;6812673;6811649;6810627;6533123;6534145;6535169;6532099;1;6247427;6250497;6249473;6248451;5956611;5957633;5958657;5955587;1;5657603;5660673;5659649;5658627;5354499;5355521;5356545;5353475;1;110595;113665;112641;111619;415747;416769;417793;414723;1;712707;715777;714753;713731;1005571;1006593;1007617;1004547;1;1289219;1292289;1291265;1290243;1567747;1568769;1569793;1566723;1;1838083;1841153;1840129;1839107;2104323;2105345;2106369;2103299;1;2361347;2364417;2363393;2362371;2613251;2614273;2615297;2612227;1;2855939;2859009;2857985;2856963;3092483;3093505;3094529;3091459;1;3319811;3322881;3321857;3320835;3542019;3543041;3544065;3540995;1;3753987;3757057;3756033;3755011;3959811;3960833;3961857;3958787;1;4140035;4141061;4237317;4236291;1;4330499;4331525;4423685;4422659;1;4511747;4512773;4598789;4597763;1;4680707;4681733;4761605;4760579;1;4837379;4838405;4910085;4909059;1;4975619;4976645;5039109;5038083;1;5095427;5096453;5146629;5145603;1;5187587;5188613;5220357;5219331;8];
[9;10462209;10463239;10431495;10430465;1;10388481;10389511;10339335;10338305;1;10280961;10281991;10219527;10218497;1;10151937;10152967;10081287;10080257;1;10003457;10004487;9924615;9923585;1;9840641;9841671;9755655;9754625;1;9665537;9666567;9574407;9573377;1;9479169;9480199;9383943;9382913;1;9201665;9204739;9203714;9202690;8997889;1;8998914;8999939;8996865;1;8783873;8786947;8785922;8784898;8563713;1;8564738;8565763;8562689;1;8334337;8337411;8336386;8335362;8099841;1;8100866;8101891;8098817;1;7855105;7858179;7857154;1;7856129;7605249;1;7606274;7607299;7604225;1;7346177;7349251;7348226;1;7347201;7081985;1;7083010;7084035;7080961;1;6809601;6812675;6811650;1;6810625;6533121;1;6534146;6535171;6532097;1;6247425;6250499;6249474;1;6248449;5956609;1;5957634;5958659;5955585;1;5657601;5660675;5659650;1;5658625;5354497;1;5355522;5356547;5353473;1;110593;113667;112642;1;111617;415745;1;416770;417795;414721;1;712705;715779;714754;1;713729;1005569;1;1006594;1007619;1004545;1;1289217;1292291;1291266;1;1290241;1567745;1;1568770;1569795;1566721;1;1838081;1841155;1840130;1;1839105;2104321;1;2105346;2106371;2103297;1;2361345;2364419;2363394;1;2362369;2613249;1;2614274;2615299;2612225;1;2855937;2859011;2857986;1;2856961;3092482;3093506;3094531;3091457;1;3319809;3322883;3321858;1;3320833;3542018;3543042;3544067;3540993;1;3753985;3757059;3756034;1;3755009;3959810;3960834;3961859;3958785;1;4140033;4141063;4237319;4236289;1;4330497;4331527;4423687;4422657;1;4511745;4512775;4598791;4597761;1;4680705;4681735;4761607;4760577;1;4837377;4838407;4910087;4909057;1;4975617;4976647;5039111;5038081;1;5095425;5096455;5146631;5145601;1;5187585;5188615;5220359;5219329;8];
[9;10463240;10431496;1;10389512;10339336;1;10281992;10219528;1;10152968;10081288;1;10004488;9924616;1;9841672;9755656;1;9666568;9574408;1;9480200;9383944;1;9204740;9203716;8998916;8999940;1;8786948;8785924;8564740;8565764;1;8337412;8336388;8100868;8101892;1;7858180;7857156;7606276;7607300;1;7349252;7348228;7083012;7084036;1;6812676;6811652;6534148;6535172;1;6250500;6249476;5957636;5958660;1;5660676;5659652;5355524;5356548;1;113668;112644;416772;417796;1;715780;714756;1006596;1007620;1;1292292;1291268;1568772;1569796;1;1841156;1840132;2105348;2106372;1;2364420;2363396;2614276;2615300;1;2859012;2857988;3093508;3094532;1;3322884;3321860;3543044;3544068;1;3757060;3756036;3960836;3961860;1;4141064;4237320;1;4331528;4423688;1;4512776;4598792;1;4681736;4761608;1;4838408;4910088;1;4976648;5039112;1;5096456;5146632;1;5188616;5220360;8];
[9;10464257;10463239;10431494;1;10432513;1;10390529;10389511;10339334;1;10340353;1;10283009;10281991;10219526;1;10220545;1;10153985;10152967;10081286;1;10082305;1;10005505;10004487;9924614;1;9925633;1;9842689;9841671;9755654;1;9756673;1;9667585;9666567;9574407;9575425;1;9481217;9480199;9383943;9384961;1;9206785;9204739;9203714;9205762;9000962;8998914;8999939;9001985;1;8788993;8786947;8785922;8787970;8566786;8564738;8565763;8567809;1;8339457;8337411;8336386;8338434;8102914;8100866;8101891;8103937;1;7860225;7858179;7857154;7859202;7608322;7606274;7607299;7609345;1;7351297;7349251;7348226;7350274;7085058;7083010;7084035;7086081;1;6814721;6812675;6811650;6813698;6536194;6534146;6535171;6537217;1;6252545;6250499;6249474;6251522;5959682;5957634;5958659;5960705;1;5662721;5660675;5659650;5661698;5357570;5355522;5356547;5358593;1;115713;113667;112642;114690;418818;416770;417795;419841;1;717825;715779;714754;716802;1008642;1006594;1007619;1009665;1;1294337;1292291;1291266;1293314;1570818;1568770;1569795;1571841;1;1843201;1841155;1840130;1842178;2107394;2105346;2106371;2108417;1;2366465;2364419;2363394;2365442;2616322;2614274;2615299;2617345;1;2861057;2859011;2857986;2860034;3095554;3093506;3094531;3096577;1;3324929;3322883;3321858;3323906;3545090;3543042;3544067;3546113;1;3759105;3757059;3756034;3758082;3962882;3960834;3961859;3963905;1;4142081;4141063;4237319;4238337;1;4332545;4331527;4423687;4424705;1;4513793;1;4512774;4598791;4599809;1;4682753;1;4681734;4761607;4762625;1;4839425;1;4838406;4910087;4911105;1;4977665;1;4976646;5039111;5040129;1;5097473;1;5096454;5146631;5147649;1;5189633;1;5188614;5220359;5221377;8];
[9;10464259;10463237;10431493;10432515;1;10390531;10389509;10339333;10340355;1;10283011;10281989;10219525;10220547;1;10153987;10152965;10081285;10082307;1;10005507;10004485;9924613;9925635;1;9842691;9841669;9755653;9756675;1;9667587;9666565;9574405;9575427;1;9481219;9480197;9383941;9384963;1;9206787;9204737;9205764;9000963;1;8999937;9001987;1;8788995;8786945;8787972;8566787;1;8565761;8567811;1;8339459;8337409;8338436;8102915;1;8101889;8103939;1;7860227;7858177;7859204;7608323;1;7607297;7609347;1;7351299;7349249;7350276;7085059;1;7084033;7086083;1;6814723;6812673;6813700;6536195;1;6535169;6537219;1;6252547;6250497;6251524;5959684;5958657;5960707;1;5662723;5660673;5661700;5357572;5356545;5358595;1;115715;113665;114692;418820;417793;419843;1;717827;715777;716804;1008644;1007617;1009667;1;1294339;1292289;1;1293315;1570820;1569793;1571843;1;1843203;1841153;1;1842179;2107396;2106369;2108419;1;2366467;2364417;1;2365443;2616324;2615297;2617347;1;2861059;2859009;1;2860035;3095556;3094529;3096579;1;3324931;3322881;1;3323907;3545092;3544065;3546115;1;3759107;3757057;1;3758083;3962884;3961857;3963907;1;4142083;4141061;4237317;4238339;1;4332547;4331525;4423685;4424707;1;4513795;4512773;4598789;4599811;1;4682755;4681733;4761605;4762627;1;4839427;4838405;4910085;4911107;1;4977667;4976645;5039109;5040131;1;5097475;5096453;5146629;5147651;1;5189635;5188613;5220357;5221379;8];
[9;10464261;10463235;10431491;10432517;1;10390533;10389507;10339331;10340357;1;10283013;10281987;10219523;10220549;1;10153989;10152963;10081283;10082309;1;10005509;10004483;9924611;9925637;1;9842693;9841667;9755651;9756677;1;9667589;9666563;9574403;9575429;1;9481221;9480195;9383939;9384965;1;9206787;9207809;9208833;9205763;9000963;9004033;9003009;9001987;1;8788995;8790017;8791041;8787971;8566787;8569857;8568833;8567811;1;8339459;8340481;8341505;8338435;8102915;8105985;8104961;8103939;1;7860227;7861249;7862273;7859203;7608323;7611393;7610369;7609347;1;7351299;7352321;7353345;7350275;7085059;7088129;7087105;7086083;1;6814723;6815745;6816769;6813699;6536195;6539265;6538241;6537219;1;6252547;6253569;6254593;6251523;5959683;5962753;5961729;5960707;1;5662723;5663745;5664769;5661699;5357571;5360641;5359617;5358595;1;115715;116737;117761;114691;418819;421889;420865;419843;1;717827;718849;719873;716803;1008643;1011713;1010689;1009667;1;1294339;1295361;1296385;1293315;1570819;1573889;1572865;1571843;1;1843203;1844225;1845249;1842179;2107395;2110465;2109441;2108419;1;2366467;2367489;2368513;2365443;2616323;2619393;2618369;2617347;1;2861059;2862081;2863105;2860035;3095555;3098625;3097601;3096579;1;3324931;3325953;3326977;3323907;3545091;3548161;3547137;3546115;1;3759107;3760129;3761153;3758083;3962883;3965953;3964929;3963907;1;4142085;4141059;4237315;4238341;1;4332549;4331523;4423683;4424709;1;4513797;4512771;4598787;4599813;1;4682757;4681731;4761603;4762629;1;4839429;4838403;4910083;4911109;1;4977669;4976643;5039107;5040133;1;5097477;5096451;5146627;5147653;1;5189637;5188611;5220355;5221381;8];
[9;10464262;1;10463233;10431489;10432519;1;10390534;1;10389505;10339329;10340359;1;10283014;1;10281985;10219521;10220551;1;10153990;1;10152961;10081281;10082311;1;10005510;1;10004481;9924609;1;9925638;1;9842694;1;9841665;9755649;1;9756678;1;9667590;1;9666561;9574401;1;9575430;1;9481222;1;9480193;9383937;1;9384966;1;9206785;9207811;9208834;1;9205761;9000961;1;9004034;9003011;9001985;1;8788993;8790019;8791042;1;8787969;8566785;1;8569858;8568835;8567809;1;8339457;8340483;8341506;1;8338433;8102913;1;8105986;8104963;8103937;1;7860225;7861251;7862274;1;7859201;7608321;1;7611394;7610371;7609345;1;7351297;7352323;7353346;1;7350273;7085057;1;7088130;7087107;7086081;1;6814721;6815747;6816770;1;6813697;6536193;1;6539266;6538243;6537217;1;6252545;6253571;6254594;1;6251521;5959681;1;5962754;5961731;5960705;1;5662721;5663747;5664770;1;5661697;5357569;1;5360642;5359619;5358593;1;115713;116739;117762;1;114689;418817;1;421890;420867;419841;1;717825;718851;719874;1;716801;1008641;1;1011714;1010691;1009665;1;1294337;1295363;1296386;1;1293313;1570817;1;1573890;1572867;1571841;1;1843201;1844227;1845250;1;1842177;2107393;1;2110466;2109443;2108417;1;2366465;2367491;2368514;1;2365441;2616321;1;2619394;2618371;2617345;1;2861057;2862083;2863106;1;2860033;3095553;1;3098626;3097603;3096577;1;3324929;3325955;3326978;1;3323905;3545089;1;3548162;3547139;3546113;1;3759105;3760131;3761154;1;3758081;3962881;1;3965954;3964931;3963905;1;4142086;1;4141057;4237313;1;4238342;1;4332550;1;4331521;4423681;1;4424710;1;4513798;1;4512769;4598785;1;4599814;1;4682758;1;4681729;4761601;1;4762630;1;4839431;4838401;4910081;1;4911110;1;4977671;4976641;5039105;1;5040134;1;5097479;5096449;5146625;1;5147654;1;5189639;5188609;5220353;1;5221382;8];
[9;10464264;10432520;1;10390536;10340360;1;10283016;10220552;1;10153992;10082312;1;10005512;9925640;1;9842696;9756680;1;9667592;9575432;1;9481224;9384968;1;9207812;9208836;9004036;9003012;1;8790020;8791044;8569860;8568836;1;8340484;8341508;8105988;8104964;1;7861252;7862276;7611396;7610372;1;7352324;7353348;7088132;7087108;1;6815748;6816772;6539268;6538244;1;6253572;6254596;5962756;5961732;1;5663748;5664772;5360644;5359620;1;116740;117764;421892;420868;1;718852;719876;1011716;1010692;1;1295364;1296388;1573892;1572868;1;1844228;1845252;2110468;2109444;1;2367492;2368516;2619396;2618372;1;2862084;2863108;3098628;3097604;1;3325956;3326980;3548164;3547140;1;3760132;3761156;3965956;3964932;1;4142088;4238344;1;4332552;4424712;1;4513800;4599816;1;4682760;4762632;1;4839432;4911112;1;4977672;5040136;1;5097480;5147656;1;5189640;5221384;8];
[9;10464262;10465282;10433538;10432518;1;10390534;10391554;10341378;10340358;1;10283014;10284034;10221570;10220550;1;10153990;10155010;10083330;10082310;1;10005510;10006530;9926658;9925638;1;9842694;9843714;9757698;9756678;1;9667590;9668610;9576450;9575430;1;9481222;9482242;9385986;9384966;1;9209857;1;9207810;9208834;9210882;9006082;9004034;9003010;1;9005057;1;8792065;1;8790018;8791042;8793090;8571906;8569858;8568834;1;8570881;1;8342529;1;8340482;8341506;8343554;8108034;8105986;8104962;1;8107009;1;7863297;1;7861250;7862274;7864322;7613442;7611394;7610370;1;7612417;1;7354369;1;7352322;7353346;7355394;7090178;7088130;7087106;1;7089153;1;6817793;1;6815746;6816770;6818818;6541314;6539266;6538242;1;6540289;1;6255617;1;6253570;6254594;6256642;5964802;5962754;5961730;1;5963777;1;5665793;1;5663746;5664770;5666818;5362690;5360642;5359618;1;5361665;1;118785;1;116738;117762;119810;423938;421890;420866;1;422913;1;720897;1;718850;719874;721922;1013762;1011714;1010690;1;1012737;1;1297409;1;1295362;1296386;1298434;1575938;1573890;1572866;1;1574913;1;1846273;1;1844226;1845250;1847298;2112514;2110466;2109442;1;2111489;1;2369537;1;2367490;2368514;2370562;2621442;2619394;2618370;1;2620417;1;2864129;1;2862082;2863106;2865154;3100674;3098626;3097602;1;3099649;1;3328001;1;3325954;3326978;3329026;3550210;3548162;3547138;1;3549185;1;3762177;1;3760130;3761154;3763202;3968002;3965954;3964930;1;3966977;1;4142086;4143106;4239362;4238342;1;4332550;4333570;4425730;4424710;1;4513798;4514818;4600834;4599814;1;4682758;4683778;4763650;4762630;1;4839430;4840450;4912130;4911110;1;4977670;4978690;5041154;5040134;1;5097478;5098498;5148674;5147654;1;5189638;5190658;5222402;5221382;8];
[9;10464260;10465284;10433540;10432516;1;10390532;10391556;10341380;10340356;1;10283012;10284036;10221572;10220548;1;10153988;10155012;10083332;10082308;1;10005508;10006532;9926660;9925636;1;9842692;9843716;9757700;9756676;1;9667588;9668612;9576452;9575428;1;9481220;9482244;9385988;9384964;1;9209859;9207809;9210884;9006084;9003009;9005059;1;8792067;8790017;8793092;8571908;8568833;8570883;1;8342531;8340481;8343556;8108036;8104961;8107011;1;7863299;7861249;7864324;7613444;7610369;7612419;1;7354371;7352321;7355396;7090180;7087105;7089155;1;6817795;6815745;6818820;6541316;6538241;6540291;1;6255619;6253569;6256644;5964804;5961729;5963779;1;5665795;5663745;5666820;5362692;5359617;5361667;1;118787;116737;119812;423940;420865;422915;1;720899;718849;721924;1013764;1010689;1012739;1;1297411;1295361;1298436;1575940;1572865;1574915;1;1846275;1844225;1847300;2112516;2109441;2111491;1;2369539;2367489;2370564;2621444;2618369;2620419;1;2864131;2862081;2865156;3100676;3097601;3099651;1;3328003;3325953;3329028;3550212;3547137;3549187;1;3762179;3760129;3763204;3968004;3964929;3966979;1;4142084;4143108;4239364;4238340;1;4332548;4333572;4425732;4424708;1;4513796;4514820;4600836;4599812;1;4682756;4683780;4763652;4762628;1;4839428;4840452;4912132;4911108;1;4977668;4978692;5041156;5040132;1;5097476;5098500;5148676;5147652;1;5189636;5190660;5222404;5221380;8];
[9;10464258;1;10465285;10433541;1;10432514;1;10390530;1;10391557;10341381;1;10340354;1;10283010;1;10284037;10221573;1;10220546;1;10153986;1;10155013;10083333;1;10082306;1;10005506;1;10006533;9926661;1;9925634;1;9842690;1;9843717;9757701;1;9756674;1;9667586;1;9668613;9576453;1;9575426;1;9481218;1;9482245;9385989;1;9384962;1;9209858;1;9212929;9211905;9210883;9006083;9007105;9008129;1;9005058;1;8792066;1;8795137;8794113;8793091;8571907;8572929;8573953;1;8570882;1;8342530;1;8345601;8344577;8343555;8108035;8109057;8110081;1;8107010;1;7863298;1;7866369;7865345;7864323;7613443;7614465;7615489;1;7612418;1;7354370;1;7357441;7356417;7355395;7090179;7091201;7092225;1;7089154;1;6817794;1;6820865;6819841;6818819;6541315;6542337;6543361;1;6540290;1;6255618;1;6258689;6257665;6256643;5964803;5965825;5966849;1;5963778;1;5665794;1;5668865;5667841;5666819;5362691;5363713;5364737;1;5361666;1;118786;1;121857;120833;119811;423939;424961;425985;1;422914;1;720898;1;723969;722945;721923;1013763;1014785;1015809;1;1012738;1;1297410;1;1300481;1299457;1298435;1575939;1576961;1577985;1;1574914;1;1846274;1;1849345;1848321;1847299;2112515;2113537;2114561;1;2111490;1;2369538;1;2372609;2371585;2370563;2621443;2622465;2623489;1;2620418;1;2864130;1;2867201;2866177;2865155;3100675;3101697;3102721;1;3099650;1;3328002;1;3331073;3330049;3329027;3550211;3551233;3552257;1;3549186;1;3762178;1;3765249;3764225;3763203;3968003;3969025;3970049;1;3966978;1;4142082;1;4143109;4239365;1;4238338;1;4332546;1;4333573;4425733;1;4424706;1;4513794;1;4514821;4600837;1;4599810;1;4682754;1;4683781;4763653;1;4762626;1;4839426;1;4840453;4912133;1;4911106;1;4977666;1;4978693;5041157;1;5040130;1;5097474;1;5098501;5148677;1;5147650;1;5189634;1;5190661;5222405;1;5221378;8];
[9;10464257;10465287;10433543;10432513;1;10390529;10391559;10341383;10340353;1;10283009;10284039;10221575;10220545;1;10153985;10155015;10083335;10082305;1;10005505;10006535;9926663;9925633;1;9842689;9843719;9757703;9756673;1;9667585;9668615;9576455;9575425;1;9481217;9482247;9385991;9384961;1;9209857;9212931;9211907;9210881;9006081;9007107;9008131;9005057;1;8792065;8795139;8794115;8793089;8571905;8572931;8573955;8570881;1;8342529;8345603;8344579;8343553;8108033;8109059;8110083;8107009;1;7863297;7866371;7865347;7864321;7613441;7614467;7615491;7612417;1;7354369;7357443;7356419;7355393;7090177;7091203;7092227;7089153;1;6817793;6820867;6819843;6818817;6541313;6542339;6543363;6540289;1;6255617;6258691;6257667;6256641;5964801;5965827;5966851;5963777;1;5665793;5668867;5667843;5666817;5362689;5363715;5364739;5361665;1;118785;121859;120835;119809;423937;424963;425987;422913;1;720897;723971;722947;721921;1013761;1014787;1015811;1012737;1;1297409;1300483;1299459;1298433;1575937;1576963;1577987;1574913;1;1846273;1849347;1848323;1847297;2112513;2113539;2114563;2111489;1;2369537;2372611;2371587;2370561;2621441;2622467;2623491;2620417;1;2864129;2867203;2866179;2865153;3100673;3101699;3102723;3099649;1;3328001;3331075;3330051;3329025;3550209;3551235;3552259;3549185;1;3762177;3765251;3764227;3763201;3968001;3969027;3970051;3966977;1;4142081;4143111;4239367;4238337;1;4332545;4333575;4425735;4424705;1;4513793;4514823;4600839;4599809;1;4682753;4683783;4763655;4762625;1;4839425;4840455;4912135;4911105;1;4977665;4978695;5041159;5040129;1;5097473;5098503;5148679;5147649;1;5189633;5190663;5222407;5221377;8];
[9;10465288;10433544;1;10391560;10341384;1;10284040;10221576;1;10155016;10083336;1;10006536;9926664;1;9843720;9757704;1;9668616;9576456;1;9482248;9385992;1;9212932;9211907;2;9007107;9008132;1;8795140;8794115;2;8572931;8573956;1;8345604;8344579;2;8109059;8110084;1;7866372;7865347;2;7614467;7615492;1;7357444;7356419;2;7091203;7092228;1;6820868;6819843;2;6542339;6543364;1;6258692;6257667;2;5965827;5966852;1;5668868;5667843;2;5363715;5364740;1;121860;120835;2;424963;425988;1;723972;722947;2;1014787;1015812;1;1300484;1299459;2;1576963;1577988;1;1849348;1848323;2;2113539;2114564;1;2372612;2371587;2;2622467;2623492;1;2867204;2866179;2;3101699;3102724;1;3331076;3330051;2;3551235;3552260;1;3765252;3764227;2;3969027;3970052;1;4143112;4239368;1;4333576;4425736;1;4514824;4600840;1;4683784;4763656;1;4840456;4912136;1;4978696;5041160;1;5098504;5148680;1;5190664;5222408;8];
[9;10466306;10465286;10433542;10434562;1;10392578;10391558;10341382;10342402;1;10285058;10284038;10221574;10222594;1;10156034;10155014;10083334;10084354;1;10007554;10006534;9926662;9927682;1;9844738;9843718;9757702;9758722;1;9669634;9668614;9576454;9577474;1;9483266;9482246;9385990;9387010;1;9214978;9212930;9211906;9213954;9009154;9007106;9008130;9010178;1;8797186;8795138;8794114;8796162;8574978;8572930;8573954;8576002;1;8347650;8345602;8344578;8346626;8111106;8109058;8110082;8112130;1;7868418;7866370;7865346;7867394;7616514;7614466;7615490;7617538;1;7359490;7357442;7356418;7358466;7093250;7091202;7092226;7094274;1;6822914;6820866;6819842;6821890;6544386;6542338;6543362;6545410;1;6260738;6258690;6257666;6259714;5967874;5965826;5966850;5968898;1;5670914;5668866;5667842;5669890;5365762;5363714;5364738;5366786;1;123906;121858;120834;122882;427010;424962;425986;428034;1;726018;723970;722946;724994;1016834;1014786;1015810;1017858;1;1302530;1300482;1299458;1301506;1579010;1576962;1577986;1580034;1;1851394;1849346;1848322;1850370;2115586;2113538;2114562;2116610;1;2374658;2372610;2371586;2373634;2624514;2622466;2623490;2625538;1;2869250;2867202;2866178;2868226;3103746;3101698;3102722;3104770;1;3333122;3331074;3330050;3332098;3553282;3551234;3552258;3554306;1;3767298;3765250;3764226;3766274;3971074;3969026;3970050;3972098;1;4144130;4143110;4239366;4240386;1;4334594;4333574;4425734;4426754;1;4515842;4514822;4600838;4601858;1;4684802;4683782;4763654;4764674;1;4841474;4840454;4912134;4913154;1;4979714;4978694;5041158;5042178;1;5099522;5098502;5148678;5149698;1;5191682;5190662;5222406;5223426;8];
[9;10466307;10465285;10433540;1;10434563;1;10392579;10391557;10341380;1;10342403;1;10285059;10284037;10221572;1;10222595;1;10156035;10155013;10083332;1;10084355;1;10007555;10006533;9926660;1;9927683;1;9844739;9843717;9757700;1;9758723;1;9669635;9668613;9576452;1;9577475;1;9483267;1;9482244;9385988;1;9387011;1;9214979;1;9213956;9009156;1;9010179;1;8797187;1;8796164;8574980;1;8576003;1;8347651;1;8346628;8111108;1;8112131;1;7868419;1;7867396;7616516;1;7617539;1;7359491;1;7358468;7093252;1;7094275;1;6822915;1;6821892;6544388;1;6545411;1;6260739;1;6259716;5967876;1;5968899;1;5670915;1;5669892;5365764;1;5366787;1;123907;1;122884;427012;1;428035;1;726019;1;724996;1016836;1;1017859;1;1302531;1;1301508;1579012;1;1580035;1;1851395;1;1850372;2115588;1;2116611;1;2374659;1;2373636;2624516;1;2625539;1;2869251;1;2868228;3103748;1;3104771;1;3333123;1;3332100;3553284;1;3554307;1;3767299;1;3766276;3971076;1;3972099;1;4144131;1;4143108;4239364;1;4240387;1;4334595;1;4333572;4425733;4426755;1;4515843;1;4514820;4600837;4601859;1;4684803;1;4683780;4763653;4764675;1;4841475;1;4840452;4912133;4913155;1;4979715;1;4978692;5041157;5042179;1;5099523;1;5098500;5148677;5149699;1;5191683;1;5190660;5222405;5223427;8];
[9;10466309;10465283;10433539;10434565;1;10392581;10391555;10341379;10342405;1;10285061;10284035;10221571;10222597;1;10156037;10155011;10083331;10084357;1;10007557;10006531;9926659;9927685;1;9844741;9843715;9757699;9758725;1;9669637;9668611;9576451;9577477;1;9483269;9482243;9385987;9387013;1;9214978;9216002;9217025;9213955;9009155;9012225;9011202;9010178;1;8797186;8798210;8799233;8796163;8574979;8578049;8577026;8576002;1;8347650;8348674;8349697;8346627;8111107;8114177;8113154;8112130;1;7868418;7869442;7870465;7867395;7616515;7619585;7618562;7617538;1;7359490;7360514;7361537;7358467;7093251;7096321;7095298;7094274;1;6822914;6823938;6824961;6821891;6544387;6547457;6546434;6545410;1;6260738;6261762;6262785;6259715;5967875;5970945;5969922;5968898;1;5670914;5671938;5672961;5669891;5365763;5368833;5367810;5366786;1;123906;124930;125953;122883;427011;430081;429058;428034;1;726018;727042;728065;724995;1016835;1019905;1018882;1017858;1;1302530;1303554;1304577;1301507;1579011;1582081;1581058;1580034;1;1851394;1852418;1853441;1850371;2115587;2118657;2117634;2116610;1;2374658;2375682;2376705;2373635;2624515;2627585;2626562;2625538;1;2869250;2870274;2871297;2868227;3103747;3106817;3105794;3104770;1;3333122;3334146;3335169;3332099;3553283;3556353;3555330;3554306;1;3767298;3768322;3769345;3766275;3971075;3974145;3973122;3972098;1;4144133;4143107;4239363;4240389;1;4334597;4333571;4425731;4426757;1;4515845;4514819;4600835;4601861;1;4684805;4683779;4763651;4764677;1;4841477;4840451;4912131;4913157;1;4979717;4978691;5041155;5042181;1;5099525;5098499;5148675;5149701;1;5191685;5190659;5222403;5223429;8];
[9;10466311;10465281;10433537;10434567;1;10392583;10391553;10341377;10342407;1;10285063;10284033;10221569;10222599;1;10156039;10155009;10083329;10084359;1;10007559;10006529;9926657;9927687;1;9844743;9843713;9757697;9758727;1;9669639;9668609;9576449;9577479;1;9483271;9482241;9385985;9387015;2;9216003;9217027;9213953;9009153;9012227;9011203;9010177;2;8798211;8799235;8796161;8574977;8578051;8577027;8576001;2;8348675;8349699;8346625;8111105;8114179;8113155;8112129;2;7869443;7870467;7867393;7616513;7619587;7618563;7617537;1;7359489;7360515;7361539;7358465;7093249;7096323;7095299;7094273;1;6822913;6823939;6824963;6821889;6544385;6547459;6546435;6545409;1;6260737;6261763;6262787;6259713;5967873;5970947;5969923;5968897;1;5670913;5671939;5672963;5669889;5365761;5368835;5367811;5366785;1;123905;124931;125955;122881;427009;430083;429059;428033;1;726017;727043;728067;724993;1016833;1019907;1018883;1017857;1;1302529;1303555;1304579;1301505;1579009;1582083;1581059;1580033;1;1851393;1852419;1853443;1850369;2115585;2118659;2117635;2116609;1;2374657;2375683;2376707;2373633;2624513;2627587;2626563;2;2869249;2870275;2871299;2868225;3103745;3106819;3105795;2;3333121;3334147;3335171;3332097;3553281;3556355;3555331;2;3767297;3768323;3769347;3766273;3971073;3974147;3973123;2;4144135;4143105;4239361;4240391;1;4334599;4333569;4425729;4426759;1;4515847;4514817;4600833;4601863;1;4684807;4683777;4763649;4764679;1;4841479;4840449;4912129;4913159;1;4979719;4978689;5041153;5042183;1;5099527;5098497;5148673;5149703;1;5191687;5190657;5222401;5223431;8];
[9;10466311;10467329;1;10434567;1;10392583;10393601;1;10342407;1;10285063;10286081;1;10222599;1;10156039;10157057;1;10084359;1;10007559;10008577;1;9927687;1;9844743;9845761;1;9758727;1;9669639;9670657;1;9577479;1;9483271;9484289;1;9387015;1;9216004;9217027;9219073;1;9012227;9011204;1;8798212;8799235;8801281;8580097;8578051;8577028;1;8348676;8349699;8351745;8116225;8114179;8113156;1;7869444;7870467;7872513;7621633;7619587;7618564;1;7360516;7361539;7363585;7098369;7096323;7095300;1;6823940;6824963;6827009;6549505;6547459;6546436;1;6261764;6262787;6264833;5972993;5970947;5969924;1;5671940;5672963;5675009;5370881;5368835;5367812;1;124932;125955;128001;432129;430083;429060;1;727044;728067;730113;1021953;1019907;1018884;1;1303556;1304579;1306625;1584129;1582083;1581060;1;1852420;1853443;1855489;2120705;2118659;2117636;1;2375684;2376707;2378753;2629633;2627587;2626564;1;2870276;2871299;2873345;3108865;3106819;3105796;1;3334148;3335171;3337217;3558401;3556355;3555332;1;3768324;3769347;1;3976193;3974147;3973124;1;4144135;1;4241409;4240391;1;4334599;1;4427777;4426759;1;4515847;1;4602881;4601863;1;4684807;1;4765697;4764679;1;4841479;1;4914177;4913159;1;4979719;1;5043201;5042183;1;5099527;1;5150721;5149703;1;5191687;1;5224449;5223431;8];
[9;10466310;10467330;10435586;10434566;1;10392582;10393602;10343426;10342406;1;10285062;10286082;10223618;10222598;1;10156038;10157058;10085378;10084358;1;10007558;10008578;9928706;9927686;1;9844742;9845762;9759746;9758726;1;9669638;9670658;9578498;9577478;1;9483270;9484290;9388034;9387014;1;9218050;9216002;9217026;9219074;9014274;9012226;9011202;9013250;1;8800258;8798210;8799234;8801282;8580098;8578050;8577026;8579074;1;8350722;8348674;8349698;8351746;8116226;8114178;8113154;8115202;1;7871490;7869442;7870466;7872514;7621634;7619586;7618562;7620610;1;7362562;7360514;7361538;7363586;7098370;7096322;7095298;7097346;1;6825986;6823938;6824962;6827010;6549506;6547458;6546434;6548482;1;6263810;6261762;6262786;6264834;5972994;5970946;5969922;5971970;1;5673986;5671938;5672962;5675010;5370882;5368834;5367810;5369858;1;126978;124930;125954;128002;432130;430082;429058;431106;1;729090;727042;728066;730114;1021954;1019906;1018882;1020930;1;1305602;1303554;1304578;1306626;1584130;1582082;1581058;1583106;1;1854466;1852418;1853442;1855490;2120706;2118658;2117634;2119682;1;2377730;2375682;2376706;2378754;2629634;2627586;2626562;2628610;1;2872322;2870274;2871298;2873346;3108866;3106818;3105794;3107842;1;3336194;3334146;3335170;3337218;3558402;3556354;3555330;3557378;1;3770370;3768322;3769346;3771394;3976194;3974146;3973122;3975170;1;4144134;4145154;4241410;4240390;1;4334598;4335618;4427778;4426758;1;4515846;4516866;4602882;4601862;1;4684806;4685826;4765698;4764678;1;4841478;4842498;4914178;4913158;1;4979718;4980738;5043202;5042182;1;5099526;5100546;5150722;5149702;1;5191686;5192706;5224450;5223430;8];
[9;10466308;10467332;10435588;10434564;1;10392580;10393604;10343428;10342404;1;10285060;10286084;10223620;10222596;1;10156036;10157060;10085380;10084356;1;10007556;10008580;9928708;9927684;1;9844740;9845764;9759748;9758724;1;9669636;9670660;9578500;9577476;1;9483268;9484292;9388036;9387012;1;9218051;1;9219076;9014276;9013252;1;8800259;1;8801284;8580100;1;8579075;1;8350723;1;8351748;8116228;1;8115203;1;7871491;1;7872516;7621636;1;7620611;1;7362563;1;7363588;7098372;1;7097347;1;6825987;1;6827012;6549508;1;6548483;1;6263811;1;6264836;5972996;1;5971971;1;5673987;1;5675012;5370884;1;5369859;1;126979;1;128004;432132;1;431107;1;729091;1;730116;1021956;1;1020931;1;1305603;1;1306628;1584132;1;1583107;1;1854467;1;1855492;2120708;1;2119683;1;2377731;1;2378756;2629636;1;2628611;1;2872323;1;2873348;3108868;1;3107843;1;3336195;1;3337220;3558404;1;3557379;1;3770372;3771396;3976196;1;3975171;1;4144132;4145156;4241412;4240388;1;4334596;4335620;4427780;4426756;1;4515844;4516868;4602884;4601860;1;4684804;4685828;4765700;4764676;1;4841476;4842500;4914180;4913156;1;4979716;4980740;5043204;5042180;1;5099524;5100548;5150724;5149700;1;5191684;5192708;5224452;5223428;8];
[9;10466306;10467334;10435590;10434562;1;10392578;10393606;10343430;10342402;1;10285058;10286086;10223622;10222594;1;10156034;10157062;10085382;10084354;1;10007554;10008582;9928710;9927682;1;9844738;9845766;9759750;9758722;1;9669634;9670662;9578502;9577474;1;9483266;9484294;9388038;9387010;1;9218050;9221122;9220097;9219075;9014275;9015297;9016322;9013250;1;8800258;8803330;8802305;8801283;8580099;8581121;8582146;8579074;1;8350722;8353794;8352769;8351747;8116227;8117249;8118274;8115202;1;7871490;7874562;7873537;7872515;7621635;7622657;7623682;7620610;1;7362562;7365634;7364609;7363587;7098371;7099393;7100418;7097346;1;6825986;6829058;6828033;6827011;6549507;6550529;6551554;6548482;1;6263810;6266882;6265857;6264835;5972995;5974017;5975042;5971970;1;5673986;5677058;5676033;5675011;5370883;5371905;5372930;5369858;1;126978;130050;129025;128003;432131;433153;434178;431106;1;729090;732162;731137;730115;1021955;1022977;1024002;1020930;1;1305602;1308674;1307649;1306627;1584131;1585153;1586178;1583106;1;1854466;1857538;1856513;1855491;2120707;2121729;2122754;2119682;1;2377730;2380802;2379777;2378755;2629635;2630657;2631682;2628610;1;2872322;2875394;2874369;2873347;3108867;3109889;3110914;3107842;1;3336194;3339266;3338241;3337219;3558403;3559425;3560450;3557378;1;3770370;3773442;3772417;3771395;3976195;3977217;3978242;3975170;1;4144130;4145158;4241414;4240386;1;4334594;4335622;4427782;4426754;1;4515842;4516870;4602886;4601858;1;4684802;4685830;4765702;4764674;1;4841474;4842502;4914182;4913154;1;4979714;4980742;5043206;5042178;1;5099522;5100550;5150726;5149698;1;5191682;5192710;5224454;5223426;8];
[10;10467335;10435591;3;10393607;10343431;3;10286087;10223623;3;10157063;10085383;3;10008583;9928711;3;9845767;9759751;3;9670663;9578503;3;9484295;9388039;3;9221123;9220099;9219073;9014273;9015299;9016323;3;8803331;8802307;8801281;8580097;8581123;8582147;3;8353795;8352771;8351745;8116225;8117251;8118275;3;7874563;7873539;7872513;7621633;7622659;7623683;3;7365635;7364611;7363585;7098369;7099395;7100419;3;6829059;6828035;6827009;6549505;6550531;6551555;3;6266883;6265859;6264833;5972993;5974019;5975043;3;5677059;5676035;5675009;5370881;5371907;5372931;3;130051;129027;128001;432129;433155;434179;3;732163;731139;730113;1021953;1022979;1024003;3;1308675;1307651;1306625;1584129;1585155;1586179;3;1857539;1856515;1855489;2120705;2121731;2122755;3;2380803;2379779;2378753;2629633;2630659;2631683;3;2875395;2874371;2873345;3108865;3109891;3110915;3;3339267;3338243;3337217;3558401;3559427;3560451;3;3773443;3772419;3771393;3976193;3977219;3978243;3;4145159;4241415;3;4335623;4427783;3;4516871;4602887;3;4685831;4765703;3;4842503;4914183;3;4980743;5043207;3;5100551;5150727;3;5192711;5224455;9];
[9;10467336;10435592;1;10393608;10343432;1;10286088;10223624;1;10157064;10085384;1;10008584;9928712;1;9845768;9759752;1;9670664;9578504;1;9484296;9388040;1;9221124;9220099;9222145;9017345;9015299;9016324;1;8803332;8802307;8804353;8583169;8581123;8582148;1;8353796;8352771;8354817;8119297;8117251;8118276;1;7874564;7873539;7875585;7624705;7622659;7623684;1;7365636;7364611;7366657;7101441;7099395;7100420;1;6829060;6828035;6830081;6552577;6550531;6551556;1;6266884;6265859;6267905;5976065;5974019;5975044;1;5677060;5676035;5678081;5373953;5371907;5372932;1;130052;129027;131073;435201;433155;434180;1;732164;731139;733185;1025025;1022979;1024004;1;1308676;1307651;1309697;1587201;1585155;1586180;1;1857540;1856515;1858561;2123777;2121731;2122756;1;2380804;2379779;2381825;2632705;2630659;2631684;1;2875396;2874371;2876417;3111937;3109891;3110916;1;3339268;3338243;3340289;3561473;3559427;3560452;1;3773444;3772419;3774465;3979265;3977219;3978244;1;4145160;4241416;1;4335624;4427784;1;4516872;4602888;1;4685832;4765704;1;4842504;4914184;1;4980744;5043208;1;5100552;5150728;1;5192712;5224456;8];
[9;10468354;10467334;10435590;10436610;1;10394626;10393606;10343430;10344450;1;10287106;10286086;10223622;10224642;1;10158082;10157062;10085382;10086402;1;10009602;10008582;9928710;9929730;1;9846786;9845766;9759750;9760770;1;9671682;9670662;9578502;9579522;1;9485314;9484294;9388038;9389058;1;9223170;9221122;9220097;1;9222146;9017346;1;9015297;9016322;9018370;1;8805378;8803330;8802305;1;8804354;8583170;1;8581121;8582146;8584194;1;8355842;8353794;8352769;1;8354818;8119298;1;8117249;8118274;8120322;1;7876610;7874562;7873537;1;7875586;7624706;1;7622657;7623682;7625730;1;7367682;7365634;7364609;1;7366658;7101442;1;7099393;7100418;7102466;1;6831106;6829058;6828033;1;6830082;6552578;1;6550529;6551554;6553602;1;6268930;6266882;6265857;1;6267906;5976066;1;5974017;5975042;5977090;1;5679106;5677058;5676033;1;5678082;5373954;1;5371905;5372930;5374978;1;132098;130050;129025;1;131074;435202;1;433153;434178;436226;1;734210;732162;731137;1;733186;1025026;1;1022977;1024002;1026050;1;1310722;1308674;1307649;1;1309698;1587202;1;1585153;1586178;1588226;1;1859586;1857538;1856513;1;1858562;2123778;1;2121729;2122754;2124802;1;2382850;2380802;2379777;1;2381826;2632706;1;2630657;2631682;2633730;1;2877442;2875394;2874369;1;2876418;3111938;1;3109889;3110914;3112962;1;3341314;3339266;3338241;1;3340290;3561474;1;3559425;3560450;3562498;1;3775490;3773442;3772417;1;3774466;3979266;1;3977217;3978242;3980290;1;4146178;4145158;4241414;4242434;1;4336642;4335622;4427782;4428802;1;4517890;4516870;4602886;4603906;1;4686850;4685830;4765702;4766722;1;4843522;4842502;4914182;4915202;1;4981762;4980742;5043206;5044226;1;5101570;5100550;5150726;5151746;1;5193730;5192710;5224454;5225474;8];
[9;10468356;10467332;10435588;10436612;1;10394628;10393604;10343428;10344452;1;10287108;10286084;10223620;10224644;1;10158084;10157060;10085380;10086404;1;10009604;10008580;9928708;9929732;1;9846788;9845764;9759748;9760772;1;9671684;9670660;9578500;9579524;1;9485316;9484292;9388036;9389060;1;9223172;9222148;9017348;9018372;1;8805380;8804356;8583172;8584196;1;8355844;8354820;8119300;8120324;1;7876612;7875588;7624708;7625732;1;7367684;7366660;7101444;7102468;1;6831108;6830084;6552580;6553604;1;6268932;6267908;5976068;5977092;1;5679108;5678084;5373956;5374980;1;132100;131076;435204;436228;1;734212;733188;1025028;1026052;1;1310724;1309700;1587204;1588228;1;1859588;1858564;2123780;2124804;1;2382852;2381828;2632708;2633732;1;2877444;2876420;3111940;3112964;1;3341316;3340292;3561476;3562500;1;3775492;3774468;3979268;3980292;1;4146180;4145156;4241412;4242436;1;4336644;4335620;4427780;4428804;1;4517892;4516868;4602884;4603908;1;4686852;4685828;4765700;4766724;1;4843524;4842500;4914180;4915204;1;4981764;4980740;5043204;5044228;1;5101572;5100548;5150724;5151748;1;5193732;5192708;5224452;5225476;8];
[9;10468357;1;10467330;10435586;1;10436613;1;10394629;1;10393602;10343426;1;10344453;1;10287109;1;10286082;10223618;1;10224645;1;10158085;1;10157058;10085378;1;10086405;1;10009605;1;10008578;9928706;1;9929733;1;9846789;1;9845762;9759746;1;9760773;1;9671685;1;9670658;9578498;1;9579525;1;9485317;1;9484290;9388034;1;9389061;1;9223170;9224194;9225217;1;9222146;9017346;1;9020417;9019394;9018370;1;8805378;8806402;8807425;1;8804354;8583170;1;8586241;8585218;8584194;1;8355842;8356866;8357889;1;8354818;8119298;1;8122369;8121346;8120322;1;7876610;7877634;7878657;1;7875586;7624706;1;7627777;7626754;7625730;1;7367682;7368706;7369729;1;7366658;7101442;1;7104513;7103490;7102466;1;6831106;6832130;6833153;1;6830082;6552578;1;6555649;6554626;6553602;1;6268930;6269954;6270977;1;6267906;5976066;1;5979137;5978114;5977090;1;5679106;5680130;5681153;1;5678082;5373954;1;5377025;5376002;5374978;1;132098;133122;134145;1;131074;435202;1;438273;437250;436226;1;734210;735234;736257;1;733186;1025026;1;1028097;1027074;1026050;1;1310722;1311746;1312769;1;1309698;1587202;1;1590273;1589250;1588226;1;1859586;1860610;1861633;1;1858562;2123778;1;2126849;2125826;2124802;1;2382850;2383874;2384897;1;2381826;2632706;1;2635777;2634754;2633730;1;2877442;2878466;2879489;1;2876418;3111938;1;3115009;3113986;3112962;1;3341314;3342338;3343361;1;3340290;3561474;1;3564545;3563522;3562498;1;3775490;3776514;3777537;1;3774466;3979266;1;3982337;3981314;3980290;1;4146181;1;4145154;4241410;1;4242437;1;4336645;1;4335618;4427778;1;4428805;1;4517893;1;4516866;4602882;1;4603909;1;4686853;1;4685826;4765698;1;4766725;1;4843525;1;4842498;4914178;1;4915205;1;4981765;1;4980738;5043202;1;5044229;1;5101573;1;5100546;5150722;1;5151749;1;5193733;1;5192706;5224450;1;5225477;8];
[9;10468359;10467329;10435585;10436615;1;10394631;10393601;10343425;10344455;1;10287111;10286081;10223617;10224647;1;10158087;10157057;10085377;10086407;1;10009607;10008577;9928705;9929735;1;9846791;9845761;9759745;9760775;1;9671687;9670657;9578497;9579527;1;9485319;9484289;9388033;9389063;1;9224196;9225219;9222145;9017345;9020419;9019396;1;8806404;8807427;8804353;8583169;8586243;8585220;1;8356868;8357891;8354817;8119297;8122371;8121348;1;7877636;7878659;7875585;7624705;7627779;7626756;1;7368708;7369731;7366657;7101441;7104515;7103492;1;6832132;6833155;6830081;6552577;6555651;6554628;1;6269956;6270979;6267905;5976065;5979139;5978116;1;5680132;5681155;5678081;5373953;5377027;5376004;1;133124;134147;131073;435201;438275;437252;1;735236;736259;733185;1025025;1028099;1027076;1;1311748;1312771;1309697;1587201;1590275;1589252;1;1860612;1861635;1858561;2123777;2126851;2125828;1;2383876;2384899;2381825;2632705;2635779;2634756;1;2878468;2879491;2876417;3111937;3115011;3113988;1;3342340;3343363;3340289;3561473;3564547;3563524;1;3776516;3777539;3774465;3979265;3982339;3981316;1;4146183;4145153;4241409;4242439;1;4336647;4335617;4427777;4428807;1;4517895;4516865;4602881;4603911;1;4686855;4685825;4765697;4766727;1;4843527;4842497;4914177;4915207;1;4981767;4980737;5043201;5044231;1;5101575;5100545;5150721;5151751;1;5193735;5192705;5224449;5225479;8];
[9;10468359;10469377;10437633;10436615;1;10394631;10395649;10345473;10344455;1;10287111;10288129;10225665;10224647;1;10158087;10159105;10087425;10086407;1;10009607;10010625;9930753;9929735;1;9846791;9847809;9761793;9760775;1;9671687;9672705;9580545;9579527;1;9485319;9486337;9390081;9389063;2;9224195;9225219;9227265;9022465;9020419;9019395;3;8806403;8807427;8809473;8588289;8586243;8585219;3;8356867;8357891;8359937;8124417;8122371;8121347;3;7877635;7878659;7880705;7629825;7627779;7626755;3;7368707;7369731;7371777;7106561;7104515;7103491;3;6832131;6833155;6835201;6557697;6555651;6554627;3;6269955;6270979;6273025;5981185;5979139;5978115;3;5680131;5681155;5683201;5379073;5377027;5376003;3;133123;134147;136193;440321;438275;437251;3;735235;736259;738305;1030145;1028099;1027075;3;1311747;1312771;1314817;1592321;1590275;1589251;3;1860611;1861635;1863681;2128897;2126851;2125827;3;2383875;2384899;2386945;2637825;2635779;2634755;3;2878467;2879491;2881537;3117057;3115011;3113987;3;3342339;3343363;3345409;3566593;3564547;3563523;3;3776515;3777539;3779585;3984385;3982339;3981315;2;4146183;4147201;4243457;4242439;1;4336647;4337665;4429825;4428807;1;4517895;4518913;4604929;4603911;1;4686855;4687873;4767745;4766727;1;4843527;4844545;4916225;4915207;1;4981767;4982785;5045249;5044231;1;5101575;5102593;5152769;5151751;1;5193735;5194753;5226497;5225479;8];
[9;10468357;10469379;10437635;10436613;1;10394629;10395651;10345475;10344453;1;10287109;10288131;10225667;10224645;1;10158085;10159107;10087427;10086405;1;10009605;10010627;9930755;9929733;1;9846789;9847811;9761795;9760773;1;9671685;9672707;9580547;9579525;1;9485317;9486339;9390083;9389061;1;9226242;9224194;9225217;9227267;9022467;9020417;9019394;9021442;1;8808450;8806402;8807425;8809475;8588291;8586241;8585218;8587266;1;8358914;8356866;8357889;8359939;8124419;8122369;8121346;8123394;1;7879682;7877634;7878657;7880707;7629827;7627777;7626754;7628802;1;7370754;7368706;7369729;7371779;7106563;7104513;7103490;7105538;1;6834178;6832130;6833153;6835203;6557699;6555649;6554626;6556674;1;6272002;6269954;6270977;6273027;5981187;5979137;5978114;5980162;1;5682178;5680130;5681153;5683203;5379075;5377025;5376002;5378050;1;135170;133122;134145;136195;440323;438273;437250;439298;1;737282;735234;736257;738307;1030147;1028097;1027074;1029122;1;1313794;1311746;1312769;1314819;1592323;1590273;1589250;1591298;1;1862658;1860610;1861633;1863683;2128899;2126849;2125826;2127874;1;2385922;2383874;2384897;2386947;2637827;2635777;2634754;2636802;1;2880514;2878466;2879489;2881539;3117059;3115009;3113986;3116034;1;3344386;3342338;3343361;3345411;3566595;3564545;3563522;3565570;1;3778562;3776514;3777537;3779587;3984387;3982337;3981314;3983362;1;4146181;4147203;4243459;4242437;1;4336645;4337667;4429827;4428805;1;4517893;4518915;4604931;4603909;1;4686853;4687875;4767747;4766725;1;4843525;4844547;4916227;4915205;1;4981765;4982787;5045251;5044229;1;5101573;5102595;5152771;5151749;1;5193733;5194755;5226499;5225477;8];
[9;10468355;1;10469380;10437636;10436612;1;10394627;1;10395652;10345476;10344452;1;10287107;1;10288132;10225668;10224644;1;10158083;1;10159108;10087428;10086404;1;10009603;1;10010628;9930756;9929732;1;9846787;1;9847812;9761796;9760772;1;9671683;1;9672708;9580548;9579524;1;9485315;1;9486340;9390084;9389060;1;9226243;1;9227268;9022468;9021444;1;8808451;1;8809476;8588292;8587268;1;8358915;1;8359940;8124420;8123396;1;7879683;1;7880708;7629828;7628804;1;7370755;1;7371780;7106564;7105540;1;6834179;1;6835204;6557700;6556676;1;6272003;1;6273028;5981188;5980164;1;5682179;1;5683204;5379076;1;5378051;1;135171;1;136196;440324;1;439299;1;737284;738308;1030148;1;1029123;1;1313796;1314820;1592324;1;1591299;1;1862660;1863684;2128900;1;2127875;1;2385924;2386948;2637828;1;2636803;1;2880516;2881540;3117060;1;3116035;1;3344388;3345412;3566596;1;3565571;1;3778564;3779588;3984388;1;3983363;1;4146180;4147204;4243460;1;4242435;1;4336644;4337668;4429828;1;4428803;1;4517892;4518916;4604932;1;4603907;1;4686852;4687876;4767748;1;4766723;1;4843524;4844548;4916228;1;4915203;1;4981764;4982788;5045252;1;5044227;1;5101572;5102596;5152772;1;5151747;1;5193732;5194756;5226500;1;5225475;8];
[9;10468354;10469382;10437638;10436610;1;10394626;10395654;10345478;10344450;1;10287106;10288134;10225670;10224642;1;10158082;10159110;10087430;10086402;1;10009602;10010630;9930758;9929730;1;9846786;9847814;9761798;9760770;1;9671682;9672710;9580550;9579522;1;9485314;9486342;9390086;9389058;1;9226242;9229314;9228290;9227266;9022466;9023490;9024514;9021442;1;8808450;8811522;8810498;8809474;8588290;8589314;8590338;8587266;1;8358914;8361986;8360962;8359938;8124418;8125442;8126466;8123394;1;7879682;7882754;7881730;7880706;7629826;7630850;7631874;7628802;1;7370754;7373826;7372802;7371778;7106562;7107586;7108610;7105538;1;6834178;6837250;6836226;6835202;6557698;6558722;6559746;6556674;1;6272002;6275074;6274050;6273026;5981186;5982210;5983234;5980162;1;5682178;5685250;5684226;5683202;5379074;5380098;5381122;5378050;1;135170;138242;137218;136194;440322;441346;442370;439298;1;737282;740354;739330;738306;1030146;1031170;1032194;1029122;1;1313794;1316866;1315842;1314818;1592322;1593346;1594370;1591298;1;1862658;1865730;1864706;1863682;2128898;2129922;2130946;2127874;1;2385922;2388994;2387970;2386946;2637826;2638850;2639874;2636802;1;2880514;2883586;2882562;2881538;3117058;3118082;3119106;3116034;1;3344386;3347458;3346434;3345410;3566594;3567618;3568642;3565570;1;3778562;3781634;3780610;3779586;3984386;3985410;3986434;3983362;1;4146178;4147206;4243462;4242434;1;4336642;4337670;4429830;4428802;1;4517890;4518918;4604934;4603906;1;4686850;4687878;4767750;4766722;1;4843522;4844550;4916230;4915202;1;4981762;4982790;5045254;5044226;1;5101570;5102598;5152774;5151746;1;5193730;5194758;5226502;5225474;8];
[9;10469384;10437640;1;10395656;10345480;1;10288136;10225672;1;10159112;10087432;1;10010632;9930760;1;9847816;9761800;1;9672712;9580552;1;9486344;9390088;1;9229316;9228291;9227265;9022465;9023491;9024516;1;8811524;8810499;8809473;8588289;8589315;8590340;1;8361988;8360963;8359937;8124417;8125443;8126468;1;7882756;7881731;7880705;7629825;7630851;7631876;1;7373828;7372803;7371777;7106561;7107587;7108612;1;6837252;6836227;6835201;6557697;6558723;6559748;1;6275076;6274051;6273025;5981185;5982211;5983236;1;5685252;5684227;5683201;5379073;5380099;5381124;1;138244;137219;136193;440321;441347;442372;1;740356;739331;738305;1030145;1031171;1032196;1;1316868;1315843;1314817;1592321;1593347;1594372;1;1865732;1864707;1863681;2128897;2129923;2130948;1;2388996;2387971;2386945;2637825;2638851;2639876;1;2883588;2882563;2881537;3117057;3118083;3119108;1;3347460;3346435;3345409;3566593;3567619;3568644;1;3781636;3780611;3779585;3984385;3985411;3986436;1;4147208;4243464;1;4337672;4429832;1;4518920;4604936;1;4687880;4767752;1;4844552;4916232;1;4982792;5045256;1;5102600;5152776;1;5194760;5226504;8];
[10;10469383;10437639;10438657;2;10395655;10345479;10346497;2;10288135;10225671;10226689;2;10159111;10087431;10088449;2;10010631;9930759;9931777;2;9847815;9761799;9762817;2;9672711;9580551;9581569;2;9486343;9390087;9391105;2;9229315;9228291;9230337;9025537;9023491;9024515;9026561;2;8811523;8810499;8812545;8591361;8589315;8590339;8592385;2;8361987;8360963;8363009;8127489;8125443;8126467;8128513;2;7882755;7881731;7883777;7632897;7630851;7631875;7633921;2;7373827;7372803;7374849;7109633;7107587;7108611;7110657;2;6837251;6836227;6838273;6560769;6558723;6559747;3;6275075;6274051;6276097;5984257;5982211;5983235;3;5685251;5684227;5686273;5382145;5380099;5381123;3;138243;137219;139265;443393;441347;442371;3;740355;739331;741377;1033217;1031171;1032195;3;1316867;1315843;1317889;1595393;1593347;1594371;2;1867777;1865731;1864707;1866753;2131969;2129923;2130947;2;2391041;2388995;2387971;2390017;2640897;2638851;2639875;2;2885633;2883587;2882563;2884609;3120129;3118083;3119107;2;3349505;3347459;3346435;3348481;3569665;3567619;3568643;2;3783681;3781635;3780611;3782657;3987457;3985411;3986435;2;4148225;4147207;4243463;2;4338689;4337671;4429831;2;4519937;4518919;4604935;2;4688897;4687879;4767751;2;4845569;4844551;4916231;2;4983809;4982791;5045255;2;5103617;5102599;5152775;2;5195777;5194759;5226503;9];
[9;10470402;10469382;10437638;10438658;1;10396674;10395654;10345478;10346498;1;10289154;10288134;10225670;10226690;1;10160130;10159110;10087430;10088450;1;10011650;10010630;9930758;9931778;1;9848834;9847814;9761798;9762818;1;9673730;9672710;9580550;9581570;1;9487362;9486342;9390086;9391106;1;9231362;9229314;9228289;9230339;9025539;9023489;9024514;9026562;1;8813570;8811522;8810497;8812547;8591363;8589313;8590338;8592386;1;8364034;8361986;8360961;8363011;8127491;8125441;8126466;8128514;1;7884802;7882754;7881729;7883779;7632899;7630849;7631874;7633922;1;7375874;7373826;7372801;7374851;7109635;7107585;7108610;7110658;1;6839298;6837250;6836225;6838275;6560771;6558721;6559746;6561794;1;6277122;6275074;6274049;6276099;5984259;5982209;5983234;5985282;1;5687298;5685250;5684225;5686275;5382147;5380097;5381122;5383170;1;140290;138242;137217;139267;443395;441345;442370;444418;1;742402;740354;739329;741379;1033219;1031169;1032194;1034242;1;1318914;1316866;1315841;1317891;1595395;1593345;1594370;1596418;1;1867778;1865730;1864705;1866755;2131971;2129921;2130946;2132994;1;2391042;2388994;2387969;2390019;2640899;2638849;2639874;2641922;1;2885634;2883586;2882561;2884611;3120131;3118081;3119106;3121154;1;3349506;3347458;3346433;3348483;3569667;3567617;3568642;3570690;1;3783682;3781634;3780609;3782659;3987459;3985409;3986434;3988482;1;4148226;4147206;4243462;4244482;1;4338690;4337670;4429830;4430850;1;4519938;4518918;4604934;4605954;1;4688898;4687878;4767750;4768770;1;4845570;4844550;4916230;4917250;1;4983810;4982790;5045254;5046274;1;5103618;5102598;5152774;5153794;1;5195778;5194758;5226502;5227522;8];
[9;10470404;10469380;10437636;10438660;1;10396676;10395652;10345476;10346500;1;10289156;10288132;10225668;10226692;1;10160132;10159108;10087428;10088452;1;10011652;10010628;9930756;9931780;1;9848836;9847812;9761796;9762820;1;9673732;9672708;9580548;9581572;1;9487364;9486340;9390084;9391108;1;9231363;1;9230340;9025540;1;9026563;1;8813571;1;8812548;8591364;1;8592387;1;8364035;1;8363012;8127492;1;8128515;1;7884803;1;7883780;7632900;1;7633923;1;7375875;1;7374852;7109636;1;7110659;1;6839299;1;6838276;6560772;1;6561795;1;6277123;1;6276100;5984260;1;5985283;1;5687299;1;5686276;5382148;1;5383171;1;140291;1;139268;443396;1;444419;1;742403;1;741380;1033220;1;1034243;1;1318915;1;1317892;1595396;1;1596419;1;1867779;1;1866756;2131972;1;2132995;1;2391043;1;2390020;2640900;1;2641923;1;2885635;1;2884612;3120132;1;3121155;1;3349507;1;3348484;3569668;1;3570691;1;3783683;1;3782660;3987460;1;3988483;1;4148228;4147204;4243460;4244484;1;4338692;4337668;4429828;4430852;1;4519940;4518916;4604932;4605956;1;4688900;4687876;4767748;4768772;1;4845572;4844548;4916228;4917252;1;4983812;4982788;5045252;5046276;1;5103620;5102596;5152772;5153796;1;5195780;5194756;5226500;5227524;8];
[9;10470406;10469378;10437634;10438662;1;10396678;10395650;10345474;10346502;1;10289158;10288130;10225666;10226694;1;10160134;10159106;10087426;10088454;1;10011654;10010626;9930754;9931782;1;9848838;9847810;9761794;9762822;1;9673734;9672706;9580546;9581574;1;9487366;9486338;9390082;9391110;1;9231362;9232386;9233410;9230338;9025538;9028610;9027586;9026562;1;8813570;8814594;8815618;8812546;8591362;8594434;8593410;8592386;1;8364034;8365058;8366082;8363010;8127490;8130562;8129538;8128514;1;7884802;7885826;7886850;7883778;7632898;7635970;7634946;7633922;1;7375874;7376898;7377922;7374850;7109634;7112706;7111682;7110658;1;6839298;6840322;6841346;6838274;6560770;6563842;6562818;6561794;1;6277122;6278146;6279170;6276098;5984258;5987330;5986306;5985282;1;5687298;5688322;5689346;5686274;5382146;5385218;5384194;5383170;1;140290;141314;142338;139266;443394;446466;445442;444418;1;742402;743426;744450;741378;1033218;1036290;1035266;1034242;1;1318914;1319938;1320962;1317890;1595394;1598466;1597442;1596418;1;1867778;1868802;1869826;1866754;2131970;2135042;2134018;2132994;1;2391042;2392066;2393090;2390018;2640898;2643970;2642946;2641922;1;2885634;2886658;2887682;2884610;3120130;3123202;3122178;3121154;1;3349506;3350530;3351554;3348482;3569666;3572738;3571714;3570690;1;3783682;3784706;3785730;3782658;3987458;3990530;3989506;3988482;1;4148230;4147202;4243458;4244486;1;4338694;4337666;4429826;4430854;1;4519942;4518914;4604930;4605958;1;4688902;4687874;4767746;4768774;1;4845574;4844546;4916226;4917254;1;4983814;4982786;5045250;5046278;1;5103622;5102594;5152770;5153798;1;5195782;5194754;5226498;5227526;8];
[9;10470407;2;10438663;1;10396679;2;10346503;1;10289159;2;10226695;1;10160135;2;10088455;1;10011655;2;9931783;1;9848839;2;9762823;1;9673735;2;9581575;1;9487367;2;9391111;1;9232388;9233411;2;9028611;9027588;1;8814596;8815619;2;8594435;8593412;1;8365060;8366083;2;8130563;8129540;1;7885828;7886851;2;7635971;7634948;1;7376900;7377923;2;7112707;7111684;1;6840324;6841347;2;6563843;6562820;1;6278148;6279171;2;5987331;5986308;1;5688324;5689347;2;5385219;5384196;1;141316;142339;2;446467;445444;1;743428;744451;2;1036291;1035268;1;1319940;1320963;2;1598467;1597444;1;1868804;1869827;2;2135043;2134020;1;2392068;2393091;2;2643971;2642948;1;2886660;2887683;2;3123203;3122180;1;3350532;3351555;2;3572739;3571716;1;3784708;3785731;2;3990531;3989508;1;4148231;2;4244487;1;4338695;2;4430855;1;4519943;2;4605959;1;4688903;2;4768775;1;4845575;2;4917255;1;4983815;2;5046279;1;5103623;2;5153799;1;5195783;2;5227527;8];
[9;10470407;10471425;10439681;10438663;1;10396679;10397697;10347521;10346503;1;10289159;10290177;10227713;10226695;1;10160135;10161153;10089473;10088455;1;10011655;10012673;9932801;9931783;1;9848839;9849857;9763841;9762823;1;9673735;9674753;9582593;9581575;1;9487367;9488385;9392129;9391111;1;9234433;9232387;9233411;9235457;9030657;9028611;9027587;9029633;1;8816641;8814595;8815619;8817665;8596481;8594435;8593411;8595457;1;8367105;8365059;8366083;8368129;8132609;8130563;8129539;8131585;1;7887873;7885827;7886851;7888897;7638017;7635971;7634947;7636993;1;7378945;7376899;7377923;7379969;7114753;7112707;7111683;7113729;1;6842369;6840323;6841347;6843393;6565889;6563843;6562819;6564865;1;6280193;6278147;6279171;6281217;5989377;5987331;5986307;5988353;1;5690369;5688323;5689347;5691393;5387265;5385219;5384195;5386241;1;143361;141315;142339;144385;448513;446467;445443;447489;1;745473;743427;744451;746497;1038337;1036291;1035267;1037313;1;1321985;1319939;1320963;1323009;1600513;1598467;1597443;1599489;1;1870849;1868803;1869827;1871873;2137089;2135043;2134019;2136065;1;2394113;2392067;2393091;2395137;2646017;2643971;2642947;2644993;1;2888705;2886659;2887683;2889729;3125249;3123203;3122179;3124225;1;3352577;3350531;3351555;3353601;3574785;3572739;3571715;3573761;1;3786753;3784707;3785731;3787777;3992577;3990531;3989507;3991553;1;4148231;4149249;4245505;4244487;1;4338695;4339713;4431873;4430855;1;4519943;4520961;4606977;4605959;1;4688903;4689921;4769793;4768775;1;4845575;4846593;4918273;4917255;1;4983815;4984833;5047297;5046279;1;5103623;5104641;5154817;5153799;1;5195783;5196801;5228545;5227527;8];
[9;10470405;10471427;10439683;10438661;1;10396677;10397699;10347523;10346501;1;10289157;10290179;10227715;10226693;1;10160133;10161155;10089475;10088453;1;10011653;10012675;9932803;9931781;1;9848837;9849859;9763843;9762821;1;9673733;9674755;9582595;9581573;1;9487365;9488387;9392131;9391109;1;9234434;1;9232385;9233409;9235459;9030659;9028609;9027585;1;9029634;1;8816642;1;8814593;8815617;8817667;8596483;8594433;8593409;1;8595458;1;8367106;1;8365057;8366081;8368131;8132611;8130561;8129537;1;8131586;1;7887874;1;7885825;7886849;7888899;7638019;7635969;7634945;1;7636994;1;7378946;1;7376897;7377921;7379971;7114755;7112705;7111681;1;7113730;1;6842370;1;6840321;6841345;6843395;6565891;6563841;6562817;1;6564866;1;6280194;1;6278145;6279169;6281219;5989379;5987329;5986305;1;5988354;1;5690370;1;5688321;5689345;5691395;5387267;5385217;5384193;1;5386242;1;143362;1;141313;142337;144387;448515;446465;445441;1;447490;1;745474;1;743425;744449;746499;1038339;1036289;1035265;1;1037314;1;1321986;1;1319937;1320961;1323011;1600515;1598465;1597441;1;1599490;1;1870850;1;1868801;1869825;1871875;2137091;2135041;2134017;1;2136066;1;2394114;1;2392065;2393089;2395139;2646019;2643969;2642945;1;2644994;1;2888706;1;2886657;2887681;2889731;3125251;3123201;3122177;1;3124226;1;3352578;1;3350529;3351553;3353603;3574787;3572737;3571713;1;3573762;1;3786754;1;3784705;3785729;3787779;3992579;3990529;3989505;1;3991554;1;4148229;4149251;4245507;4244485;1;4338693;4339715;4431875;4430853;1;4519941;4520963;4606979;4605957;1;4688901;4689923;4769795;4768773;1;4845573;4846595;4918275;4917253;1;4983813;4984835;5047299;5046277;1;5103621;5104643;5154819;5153797;1;5195781;5196803;5228547;5227525;8];
[9;10470403;10471429;10439685;10438659;1;10396675;10397701;10347525;10346499;1;10289155;10290181;10227717;10226691;1;10160131;10161157;10089477;10088451;1;10011651;10012677;9932805;9931779;1;9848835;9849861;9763845;9762819;1;9673731;9674757;9582597;9581571;1;9487363;9488389;9392133;9391107;1;9234435;9237505;9235460;9030660;9032705;9029635;1;8816643;8819713;8817668;8596484;8598529;8595459;1;8367107;8370177;8368132;8132612;8134657;8131587;1;7887875;7890945;7888900;7638020;7640065;7636995;1;7378947;7382017;7379972;7114756;7116801;7113731;1;6842371;6845441;6843396;6565892;6567937;6564867;1;6280195;6283265;6281220;5989380;5991425;5988355;1;5690371;5693441;5691396;5387268;5389313;5386243;1;143363;146433;144388;448516;450561;447491;1;745475;748545;746500;1038340;1040385;1037315;1;1321987;1325057;1323012;1600516;1602561;1599491;1;1870851;1873921;1871876;2137092;2139137;2136067;1;2394115;2397185;2395140;2646020;2648065;2644995;1;2888707;2891777;2889732;3125252;3127297;3124227;1;3352579;3355649;3353604;3574788;3576833;3573763;1;3786755;3789825;3787780;3992580;3994625;3991555;1;4148227;4149253;4245509;4244483;1;4338691;4339717;4431877;4430851;1;4519939;4520965;4606981;4605955;1;4688899;4689925;4769797;4768771;1;4845571;4846597;4918277;4917251;1;4983811;4984837;5047301;5046275;1;5103619;5104645;5154821;5153795;1;5195779;5196805;5228549;5227523;8];
[9;10470401;1;10471430;10439686;1;10438657;1;10396673;1;10397702;10347526;1;10346497;1;10289153;1;10290182;10227718;1;10226689;1;10160129;1;10161158;10089478;1;10088449;1;10011649;1;10012678;9932806;1;9931777;1;9848833;1;9849862;9763846;1;9762817;1;9673729;1;9674758;9582598;1;9581569;1;9487361;1;9488390;9392134;1;9391105;1;9234433;1;9237506;9236482;9235458;9030658;9031682;9032706;1;9029633;1;8816641;1;8819714;8818690;8817666;8596482;8597506;8598530;1;8595457;1;8367105;1;8370178;8369154;8368130;8132610;8133634;8134658;1;8131585;1;7887873;1;7890946;7889922;7888898;7638018;7639042;7640066;1;7636993;1;7378945;1;7382018;7380994;7379970;7114754;7115778;7116802;1;7113729;1;6842369;1;6845442;6844418;6843394;6565890;6566914;6567938;1;6564865;1;6280193;1;6283266;6282242;6281218;5989378;5990402;5991426;1;5988353;1;5690369;1;5693442;5692418;5691394;5387266;5388290;5389314;1;5386241;1;143361;1;146434;145410;144386;448514;449538;450562;1;447489;1;745473;1;748546;747522;746498;1038338;1039362;1040386;1;1037313;1;1321985;1;1325058;1324034;1323010;1600514;1601538;1602562;1;1599489;1;1870849;1;1873922;1872898;1871874;2137090;2138114;2139138;1;2136065;1;2394113;1;2397186;2396162;2395138;2646018;2647042;2648066;1;2644993;1;2888705;1;2891778;2890754;2889730;3125250;3126274;3127298;1;3124225;1;3352577;1;3355650;3354626;3353602;3574786;3575810;3576834;1;3573761;1;3786753;1;3789826;3788802;3787778;3992578;3993602;3994626;1;3991553;1;4148225;1;4149254;4245510;1;4244481;1;4338689;1;4339718;4431878;1;4430849;1;4519937;1;4520966;4606982;1;4605953;1;4688897;1;4689926;4769798;1;4768769;1;4845569;1;4846598;4918278;1;4917249;1;4983809;1;4984838;5047302;1;5046273;1;5103617;1;5104646;5154822;1;5153793;1;5195777;1;5196806;5228550;1;5227521;8];
[9;10471432;10439688;1;10397704;10347528;1;10290184;10227720;1;10161160;10089480;1;10012680;9932808;1;9849864;9763848;1;9674760;9582600;1;9488392;9392136;1;9237508;9236484;9031684;9032708;1;8819716;8818692;8597508;8598532;1;8370180;8369156;8133636;8134660;1;7890948;7889924;7639044;7640068;1;7382020;7380996;7115780;7116804;1;6845444;6844420;6566916;6567940;1;6283268;6282244;5990404;5991428;1;5693444;5692420;5388292;5389316;1;146436;145412;449540;450564;1;748548;747524;1039364;1040388;1;1325060;1324036;1601540;1602564;1;1873924;1872900;2138116;2139140;1;2397188;2396164;2647044;2648068;1;2891780;2890756;3126276;3127300;1;3355652;3354628;3575812;3576836;1;3789828;3788804;3993604;3994628;1;4149256;4245512;1;4339720;4431880;1;4520968;4606984;1;4689928;4769800;1;4846600;4918280;1;4984840;5047304;1;5104648;5154824;1;5196808;5228552;8];
[9;10472449;10471431;10439687;10440705;1;10398721;10397703;10347527;10348545;1;10291201;10290183;10227719;10228737;1;10162177;10161159;10089479;10090497;1;10013697;10012679;9932807;9933825;1;9850881;9849863;9763847;9764865;1;9675777;9674759;9582599;9583617;1;9489409;9488391;9392135;9393153;1;9239553;9237507;9236482;1;9238529;9033729;9031683;9032707;9034753;1;8821761;8819715;8818690;1;8820737;8599553;8597507;8598531;8600577;1;8372225;8370179;8369154;1;8371201;8135681;1;8133634;8134659;8136705;1;7892993;7890947;7889922;1;7891969;7641089;1;7639042;7640067;7642113;1;7384065;7382019;7380994;1;7383041;7117825;1;7115778;7116803;7118849;1;6847489;6845443;6844418;1;6846465;6568961;1;6566914;6567939;6569985;1;6285313;6283267;6282242;1;6284289;5992449;1;5990402;5991427;5993473;1;5695489;5693443;5692418;1;5694465;5390337;1;5388290;5389315;5391361;1;148481;146435;145410;1;147457;451585;1;449538;450563;452609;1;750593;748547;747522;1;749569;1041409;1;1039362;1040387;1042433;1;1327105;1325059;1324034;1;1326081;1603585;1;1601538;1602563;1604609;1;1875969;1873923;1872898;1;1874945;2140161;1;2138114;2139139;2141185;1;2399233;2397187;2396162;1;2398209;2649089;1;2647042;2648067;2650113;1;2893825;2891779;2890754;1;2892801;3128321;1;3126274;3127299;3129345;1;3357697;3355651;3354627;3356673;3577857;1;3575810;3576835;3578881;1;3791873;3789827;3788803;3790849;3995649;1;3993602;3994627;3996673;1;4150273;4149255;4245511;4246529;1;4340737;4339719;4431879;4432897;1;4521985;4520967;4606983;4608001;1;4690945;4689927;4769799;4770817;1;4847617;4846599;4918279;4919297;1;4985857;4984839;5047303;5048321;1;5105665;5104647;5154823;5155841;1;5197825;5196807;5228551;5229569;8];
[9;10472451;10471429;10439685;10440707;1;10398723;10397701;10347525;10348547;1;10291203;10290181;10227717;10228739;1;10162179;10161157;10089477;10090499;1;10013699;10012677;9932805;9933827;1;9850883;9849861;9763845;9764867;1;9675779;9674757;9582597;9583619;1;9489411;9488389;9392133;9393155;1;9239555;9237505;9236481;9238531;9033731;9031681;9032705;9034755;1;8821763;8819713;8818689;8820739;8599555;8597505;8598529;8600579;1;8372227;8370177;8369153;8371203;8135683;8133633;8134657;8136707;1;7892995;7890945;7889921;7891971;7641091;7639041;7640065;7642115;1;7384067;7382017;7380993;7383043;7117827;7115777;7116801;7118851;1;6847491;6845441;6844417;6846467;6568963;6566913;6567937;6569987;1;6285315;6283265;6282241;6284291;5992451;5990401;5991425;5993475;1;5695491;5693441;5692417;5694467;5390339;5388289;5389313;5391363;1;148483;146433;145409;147459;451587;449537;450561;452611;1;750595;748545;747521;749571;1041411;1039361;1040385;1042435;1;1327107;1325057;1324033;1326083;1603587;1601537;1602561;1604611;1;1875971;1873921;1872897;1874947;2140163;2138113;2139137;2141187;1;2399235;2397185;2396161;2398211;2649091;2647041;2648065;2650115;1;2893827;2891777;2890753;2892803;3128323;3126273;3127297;3129347;1;3357699;3355649;3354625;3356675;3577859;3575809;3576833;3578883;1;3791875;3789825;3788801;3790851;3995651;3993601;3994625;3996675;1;4150275;4149253;4245509;4246531;1;4340739;4339717;4431877;4432899;1;4521987;4520965;4606981;4608003;1;4690947;4689925;4769797;4770819;1;4847619;4846597;4918277;4919299;1;4985859;4984837;5047301;5048323;1;5105667;5104645;5154821;5155843;1;5197827;5196805;5228549;5229571;8];
[9;10472452;10471428;10439683;1;10440708;1;10398724;10397700;10347523;1;10348548;1;10291204;10290180;10227715;1;10228740;1;10162180;10161156;10089475;1;10090500;1;10013700;10012676;9932803;1;9933828;1;9850884;9849860;9763843;1;9764868;1;9675780;9674756;9582595;1;9583620;1;9489412;9488388;9392131;1;9393156;1;9239555;9240577;9238532;9033732;9035777;9034755;1;8821763;8822785;8820740;8599556;8601601;8600579;1;8372227;8373249;8371204;8135684;8137729;8136707;1;7892995;7894017;7891972;7641092;7643137;7642115;1;7384067;7385089;7383044;7117828;7119873;7118851;1;6847491;6848513;6846468;6568964;6571009;6569987;1;6285315;6286337;6284292;5992452;5994497;5993475;1;5695491;5696513;5694468;5390340;5392385;5391363;1;148483;149505;147460;451588;453633;452611;1;750595;751617;749572;1041412;1043457;1042435;1;1327107;1328129;1326084;1603588;1605633;1604611;1;1875971;1876993;1874948;2140164;2142209;2141187;1;2399235;2400257;2398212;2649092;2651137;2650115;1;2893827;2894849;2892804;3128324;3130369;3129347;1;3357699;3358721;3356676;3577860;3579905;3578883;1;3791875;3792897;3790852;3995652;3997697;3996675;1;4150276;1;4149251;4245508;4246532;1;4340740;1;4339715;4431876;4432900;1;4521988;1;4520963;4606980;4608004;1;4690948;1;4689923;4769796;4770820;1;4847620;1;4846595;4918276;4919300;1;4985860;1;4984835;5047300;5048324;1;5105668;1;5104643;5154820;5155844;1;5197828;1;5196803;5228548;5229572;8];
[9;10472454;10471426;10439682;10440710;1;10398726;10397698;10347522;10348550;1;10291206;10290178;10227714;10228742;1;10162182;10161154;10089474;10090502;1;10013702;10012674;9932802;9933830;1;9850886;9849858;9763842;9764870;1;9675782;9674754;9582594;9583622;1;9489414;9488386;9392130;9393158;1;9239553;9240579;9241602;9238530;9033730;9036802;9035778;1;9034753;1;8821761;8822787;8823810;8820738;8599554;8602626;8601602;1;8600577;1;8372225;8373251;8374274;8371202;8135682;8138754;8137730;1;8136705;1;7892993;7894019;7895042;7891970;7641090;7644162;7643138;1;7642113;1;7384065;7385091;7386114;7383042;7117826;7120898;7119874;1;7118849;1;6847489;6848515;6849538;6846466;6568962;6572034;6571011;6569985;1;6285313;6286339;6287362;6284290;5992450;5995522;5994499;5993473;1;5695489;5696515;5697538;5694466;5390338;5393410;5392387;5391361;1;148481;149507;150530;147458;451586;454658;453635;452609;1;750593;751619;752642;749570;1041410;1044482;1043459;1042433;1;1327105;1328131;1329154;1326082;1603586;1606658;1605635;1604609;1;1875969;1;1876994;1878018;1874946;2140162;2143234;2142211;2141185;1;2399233;1;2400258;2401282;2398210;2649090;2652162;2651139;2650113;1;2893825;1;2894850;2895874;2892802;3128322;3131394;3130371;3129345;1;3357697;1;3358722;3359746;3356674;3577858;3580930;3579907;3578881;1;3791873;1;3792898;3793922;3790850;3995650;3998722;3997699;3996673;1;4150278;4149250;4245506;4246534;1;4340742;4339714;4431874;4432902;1;4521990;4520962;4606978;4608006;1;4690950;4689922;4769794;4770822;1;4847622;4846594;4918274;4919302;1;4985862;4984834;5047298;5048326;1;5105670;5104642;5154818;5155846;1;5197830;5196802;5228546;5229574;8];
[9;10472456;10440712;1;10398728;10348552;1;10291208;10228744;1;10162184;10090504;1;10013704;9933832;1;9850888;9764872;1;9675784;9583624;1;9489416;9393160;1;9240580;9241604;9036804;9035780;1;8822788;8823812;8602628;8601604;1;8373252;8374276;8138756;8137732;1;7894020;7895044;7644164;7643140;1;7385092;7386116;7120900;7119876;1;6848516;6849540;6572036;6571012;1;6286340;6287364;5995524;5994500;1;5696516;5697540;5393412;5392388;1;149508;150532;454660;453636;1;751620;752644;1044484;1043460;1;1328132;1329156;1606660;1605636;1;1876996;1878020;2143236;2142212;1;2400260;2401284;2652164;2651140;1;2894852;2895876;3131396;3130372;1;3358724;3359748;3580932;3579908;1;3792900;3793924;3998724;3997700;1;4150280;4246536;1;4340744;4432904;1;4521992;4608008;1;4690952;4770824;1;4847624;4919304;1;4985864;5048328;1;5105672;5155848;1;5197832;5229576;8];
[9;10472454;10473474;10441729;1;10440710;1;10398726;10399746;10349569;1;10348550;1;10291206;10292226;10229761;1;10228742;1;10162182;10163202;10091521;1;10090502;1;10013702;10014722;9934849;1;9933830;1;9850886;1;9851905;9765889;1;9764870;1;9675782;1;9676801;9584641;1;9583622;1;9489414;1;9490433;9394177;1;9393158;1;9242625;9240579;9241602;1;9243649;9038849;1;9036802;9035779;9037825;1;8824833;8822787;8823810;1;8825857;8604673;1;8602626;8601603;8603649;1;8375297;8373251;8374274;1;8376321;8140801;1;8138754;8137731;8139777;1;7896065;7894019;7895042;1;7897089;7646209;1;7644162;7643139;7645185;1;7387137;7385091;7386114;1;7388161;7122945;1;7120898;7119875;7121921;1;6850561;6848515;6849538;1;6851585;6574081;1;6572034;6571011;6573057;1;6288385;6286339;6287362;1;6289409;5997569;1;5995522;5994499;5996545;1;5698561;5696515;5697538;1;5699585;5395457;1;5393410;5392387;5394433;1;151553;149507;150530;1;152577;456705;1;454658;453635;455681;1;753665;751619;752642;1;754689;1046529;1;1044482;1043459;1045505;1;1330177;1328131;1329154;1;1331201;1608705;1;1606658;1605635;1607681;1;1879041;1876995;1878018;1;1880065;2145281;1;2143234;2142211;2144257;1;2402305;2400259;2401282;1;2403329;2654209;1;2652162;2651139;2653185;1;2896897;2894851;2895874;1;2897921;3133441;1;3131394;3130371;3132417;1;3360769;3358723;3359746;1;3361793;3582977;1;3580930;3579907;3581953;1;3794945;3792899;3793922;1;3795969;4000769;1;3998722;3997699;3999745;1;4150278;1;4151297;4247553;1;4246534;1;4340742;1;4341761;4433921;1;4432902;1;4521990;1;4523009;4609025;1;4608006;1;4690950;1;4691969;4771842;4770822;1;4847622;1;4848641;4920322;4919302;1;4985862;1;4986881;5049346;5048326;1;5105670;1;5106689;5156866;5155846;1;5197830;1;5198849;5230594;5229574;8];
[9;10472453;10473475;10441731;10440709;1;10398725;10399747;10349571;10348549;1;10291205;10292227;10229763;10228741;1;10162181;10163203;10091523;10090501;1;10013701;10014723;9934851;9933829;1;9850885;9851907;9765891;9764869;1;9675781;9676803;9584643;9583621;1;9489413;9490435;9394179;9393157;1;9242627;9240577;9241601;9243651;9038851;9036801;9035777;9037827;1;8824835;8822785;8823809;8825859;8604675;8602625;8601601;8603651;1;8375299;8373249;8374273;8376323;8140803;8138753;8137729;8139779;1;7896067;7894017;7895041;7897091;7646211;7644161;7643137;7645187;1;7387139;7385089;7386113;7388163;7122947;7120897;7119873;7121923;1;6850563;6848513;6849537;6851587;6574083;6572033;6571009;6573059;1;6288387;6286337;6287361;6289411;5997571;5995521;5994497;5996547;1;5698563;5696513;5697537;5699587;5395459;5393409;5392385;5394435;1;151555;149505;150529;152579;456707;454657;453633;455683;1;753667;751617;752641;754691;1046531;1044481;1043457;1045507;1;1330179;1328129;1329153;1331203;1608707;1606657;1605633;1607683;1;1879043;1876993;1878017;1880067;2145283;2143233;2142209;2144259;1;2402307;2400257;2401281;2403331;2654211;2652161;2651137;2653187;1;2896899;2894849;2895873;2897923;3133443;3131393;3130369;3132419;1;3360771;3358721;3359745;3361795;3582979;3580929;3579905;3581955;1;3794947;3792897;3793921;3795971;4000771;3998721;3997697;3999747;1;4150277;4151299;4247555;4246533;1;4340741;4341763;4433923;4432901;1;4521989;4523011;4609027;4608005;1;4690949;4691971;4771843;4770821;1;4847621;4848643;4920323;4919301;1;4985861;4986883;5049347;5048325;1;5105669;5106691;5156867;5155845;1;5197829;5198851;5230595;5229573;8];
[9;10472451;10473477;10441733;10440707;1;10398723;10399749;10349573;10348547;1;10291203;10292229;10229765;10228739;1;10162179;10163205;10091525;10090499;1;10013699;10014725;9934853;9933827;1;9850883;9851909;9765893;9764867;1;9675779;9676805;9584645;9583619;1;9489411;9490437;9394181;9393155;1;9242627;9245697;1;9243651;9038851;1;9040897;9037827;1;8824835;8827905;1;8825859;8604675;1;8606721;8603651;1;8375299;8378369;1;8376323;8140803;1;8142849;8139779;1;7896067;7899137;1;7897091;7646211;1;7648257;7645187;1;7387139;7390209;1;7388163;7122947;1;7124993;7121923;1;6850563;6853633;1;6851587;6574083;1;6576129;6573059;1;6288387;6291457;1;6289411;5997571;1;5999617;5996547;1;5698563;5701633;1;5699587;5395459;1;5397505;5394435;1;151555;154625;1;152579;456707;1;458753;455683;1;753667;756737;1;754691;1046531;1;1048577;1045507;1;1330179;1333249;1;1331203;1608707;1;1610753;1607683;1;1879043;1882113;1;1880067;2145283;1;2147329;2144259;1;2402307;2405377;1;2403331;2654211;1;2656257;2653187;1;2896899;2899969;1;2897923;3133443;1;3135489;3132419;1;3360771;3363841;1;3361795;3582979;1;3585025;3581955;1;3794947;3798017;1;3795971;4000771;1;4002817;3999747;1;4150275;4151301;4247557;4246531;1;4340739;4341765;4433925;4432899;1;4521987;4523013;4609029;4608003;1;4690947;4691973;4771845;4770819;1;4847619;4848645;4920325;4919299;1;4985859;4986885;5049349;5048323;1;5105667;5106693;5156869;5155843;1;5197827;5198853;5230597;5229571;8];
[9;10472449;10473479;10441735;10440705;1;10398721;10399751;10349575;10348545;1;10291201;10292231;10229767;10228737;1;10162177;10163207;10091527;10090497;1;10013697;10014727;9934855;9933825;1;9850881;9851911;9765895;9764865;1;9675777;9676807;9584647;9583617;1;9489409;9490439;9394183;9393153;1;9242625;9245699;9244674;9243650;9038850;9039874;9040899;9037825;1;8824833;8827907;8826882;8825858;8604674;8605698;8606723;8603649;1;8375297;8378371;8377346;8376322;8140802;8141826;8142851;8139777;1;7896065;7899139;7898114;7897090;7646210;7647234;7648259;7645185;1;7387137;7390211;7389186;7388162;7122946;7123970;7124995;7121921;1;6850561;6853635;6852610;6851586;6574082;6575106;6576131;6573057;1;6288385;6291459;6290434;6289410;5997570;5998594;5999619;5996545;1;5698561;5701635;5700610;5699586;5395458;5396482;5397507;5394433;1;151553;154627;153602;152578;456706;457730;458755;455681;1;753665;756739;755714;754690;1046530;1047554;1048579;1045505;1;1330177;1333251;1332226;1331202;1608706;1609730;1610755;1607681;1;1879041;1882115;1881090;1880066;2145282;2146306;2147331;2144257;1;2402305;2405379;2404354;2403330;2654210;2655234;2656259;2653185;1;2896897;2899971;2898946;2897922;3133442;3134466;3135491;3132417;1;3360769;3363843;3362818;3361794;3582978;3584002;3585027;3581953;1;3794945;3798019;3796994;3795970;4000770;4001794;4002819;3999745;1;4150273;4151303;4247559;4246529;1;4340737;4341767;4433927;4432897;1;4521985;4523015;4609031;4608001;1;4690945;4691975;4771847;4770817;1;4847617;4848647;4920327;4919297;1;4985857;4986887;5049351;5048321;1;5105665;5106695;5156871;5155841;1;5197825;5198855;5230599;5229569;8];
[9;10473480;10441736;1;10399752;10349576;1;10292232;10229768;1;10163208;10091528;1;10014728;9934856;1;9851912;9765896;1;9676808;9584648;1;9490440;9394184;1;9245700;9244676;9039876;9040900;1;8827908;8826884;8605700;8606724;1;8378372;8377348;8141828;8142852;1;7899140;7898116;7647236;7648260;1;7390212;7389188;7123972;7124996;1;6853636;6852612;6575108;6576132;1;6291460;6290436;5998596;5999620;1;5701636;5700612;5396484;5397508;1;154628;153604;457732;458756;1;756740;755716;1047556;1048580;1;1333252;1332228;1609732;1610756;1;1882116;1881092;2146308;2147332;1;2405380;2404356;2655236;2656260;1;2899972;2898948;3134468;3135492;1;3363844;3362820;3584004;3585028;1;3798020;3796996;4001796;4002820;1;4151304;4247560;1;4341768;4433928;1;4523016;4609032;1;4691976;4771848;1;4848648;4920328;1;4986888;5049352;1;5106696;5156872;1;5198856;5230600;8];
[9;10474497;10473479;10441735;10442753;1;10400769;10399751;10349575;10350593;1;10293249;10292231;10229767;10230785;1;10164225;10163207;10091527;10092545;1;10015745;10014727;9934855;9935873;1;9852929;9851911;9765895;9766913;1;9677825;9676807;9584647;9585665;1;9491457;9490439;9394183;9395201;1;9247745;9245699;9244674;9246722;9041922;9039874;9040899;9042945;1;8829953;8827907;8826882;8828930;8607746;8605698;8606723;8608769;1;8380417;8378371;8377346;8379394;8143874;8141826;8142851;8144897;1;7901185;7899139;7898114;7900162;7649282;7647234;7648259;7650305;1;7392257;7390211;7389186;7391234;7126018;7123970;7124995;7127041;1;6855681;6853635;6852610;6854658;6577154;6575106;6576131;6578177;1;6293505;6291459;6290434;6292482;6000642;5998594;5999619;6001665;1;5703681;5701635;5700610;5702658;5398530;5396482;5397507;5399553;1;156673;154627;153602;155650;459778;457730;458755;460801;1;758785;756739;755714;757762;1049602;1047554;1048579;1050625;1;1335297;1333251;1332226;1334274;1611778;1609730;1610755;1612801;1;1884161;1882115;1881090;1883138;2148354;2146306;2147331;2149377;1;2407425;2405379;2404354;2406402;2657282;2655234;2656259;2658305;1;2902017;2899971;2898946;2900994;3136514;3134466;3135491;3137537;1;3365889;3363843;3362818;3364866;3586050;3584002;3585027;3587073;1;3800065;3798019;3796994;3799042;4003842;4001794;4002819;4004865;1;4152321;4151303;4247559;4248577;1;4342785;4341767;4433927;4434945;1;4524033;4523015;4609031;4610049;1;4692993;4691975;4771847;4772865;1;4849665;4848647;4920327;4921345;1;4987905;4986887;5049351;5050369;1;5107713;5106695;5156871;5157889;1;5199873;5198855;5230599;5231617;8];
[9;10474499;10473477;10441733;10442755;1;10400771;10399749;10349573;10350595;1;10293251;10292229;10229765;10230787;1;10164227;10163205;10091525;10092547;1;10015747;10014725;9934853;9935875;1;9852931;9851909;9765893;9766915;1;9677827;9676805;9584645;9585667;1;9491459;9490437;9394181;9395203;1;9247747;9245697;1;9246723;9041923;1;9040897;9042947;1;8829955;8827905;1;8828931;8607747;1;8606721;8608771;1;8380419;8378369;1;8379395;8143875;1;8142849;8144899;1;7901187;7899137;1;7900163;7649283;1;7648257;7650307;1;7392259;7390209;1;7391235;7126019;1;7124993;7127043;1;6855683;6853633;1;6854659;6577155;1;6576129;6578179;1;6293507;6291457;1;6292483;6000643;1;5999617;6001667;1;5703683;5701633;1;5702659;5398531;1;5397505;5399555;1;156675;154625;1;155651;459779;1;458753;460803;1;758787;756737;1;757763;1049603;1;1048577;1050627;1;1335299;1333249;1;1334275;1611779;1;1610753;1612803;1;1884163;1882113;1;1883139;2148355;1;2147329;2149379;1;2407427;2405377;1;2406403;2657283;1;2656257;2658307;1;2902019;2899969;1;2900995;3136515;1;3135489;3137539;1;3365891;3363841;1;3364867;3586051;1;3585025;3587075;1;3800067;3798017;1;3799043;4003843;1;4002817;4004867;1;4152323;4151301;4247557;4248579;1;4342787;4341765;4433925;4434947;1;4524035;4523013;4609029;4610051;1;4692995;4691973;4771845;4772867;1;4849667;4848645;4920325;4921347;1;4987907;4986885;5049349;5050371;1;5107715;5106693;5156869;5157891;1;5199875;5198853;5230597;5231619;8];
[9;10474501;10473475;10441731;10442757;1;10400773;10399747;10349571;10350597;1;10293253;10292227;10229763;10230789;1;10164229;10163203;10091523;10092549;1;10015749;10014723;9934851;9935877;1;9852933;9851907;9765891;9766917;1;9677829;9676803;9584643;9585669;1;9491461;9490435;9394179;9395205;1;9247747;9248769;9249793;9246723;9041923;9044993;9043969;9042947;1;8829955;8830977;8832001;8828931;8607747;8610817;8609793;8608771;1;8380419;8381441;8382465;8379395;8143875;8146945;8145921;8144899;1;7901187;7902209;7903233;7900163;7649283;7652353;7651329;7650307;1;7392259;7393281;7394305;7391235;7126019;7129089;7128065;7127043;1;6855683;6856705;6857729;6854659;6577155;6580225;6579201;6578179;1;6293507;6294529;6295553;6292483;6000643;6003713;6002689;6001667;1;5703683;5704705;5705729;5702659;5398531;5401601;5400577;5399555;1;156675;157697;158721;155651;459779;462849;461825;460803;1;758787;759809;760833;757763;1049603;1052673;1051649;1050627;1;1335299;1336321;1337345;1334275;1611779;1614849;1613825;1612803;1;1884163;1885185;1886209;1883139;2148355;2151425;2150401;2149379;1;2407427;2408449;2409473;2406403;2657283;2660353;2659329;2658307;1;2902019;2903041;2904065;2900995;3136515;3139585;3138561;3137539;1;3365891;3366913;3367937;3364867;3586051;3589121;3588097;3587075;1;3800067;3801089;3802113;3799043;4003843;4006913;4005889;4004867;1;4152325;4151299;4247555;4248581;1;4342789;4341763;4433923;4434949;1;4524037;4523011;4609027;4610053;1;4692997;4691971;4771843;4772869;1;4849669;4848643;4920323;4921349;1;4987909;4986883;5049347;5050373;1;5107717;5106691;5156867;5157893;1;5199877;5198851;5230595;5231621;8];
[9;10474502;10473474;10441729;1;10442758;1;10400774;10399746;10349569;1;10350598;1;10293254;10292226;10229761;1;10230790;1;10164230;10163202;10091521;1;10092550;1;10015750;10014722;9934849;1;9935878;1;9852934;1;9851905;9765889;1;9766918;1;9677830;1;9676801;9584641;1;9585670;1;9491462;1;9490433;9394177;1;9395206;1;9247745;9248771;9249794;1;9246721;9041921;1;9044994;9043971;9042945;1;8829953;8830979;8832002;1;8828929;8607745;1;8610818;8609795;8608769;1;8380417;8381443;8382466;1;8379393;8143873;1;8146946;8145923;8144897;1;7901185;7902211;7903234;1;7900161;7649281;1;7652354;7651331;7650305;1;7392257;7393283;7394306;1;7391233;7126017;1;7129090;7128067;7127041;1;6855681;6856707;6857730;1;6854657;6577153;1;6580226;6579203;6578177;1;6293505;6294531;6295554;1;6292481;6000641;1;6003714;6002691;6001665;1;5703681;5704707;5705730;1;5702657;5398529;1;5401602;5400579;5399553;1;156673;157699;158722;1;155649;459777;1;462850;461827;460801;1;758785;759811;760834;1;757761;1049601;1;1052674;1051651;1050625;1;1335297;1336323;1337346;1;1334273;1611777;1;1614850;1613827;1612801;1;1884161;1885187;1886210;1;1883137;2148353;1;2151426;2150403;2149377;1;2407425;2408451;2409474;1;2406401;2657281;1;2660354;2659331;2658305;1;2902017;2903043;2904066;1;2900993;3136513;1;3139586;3138563;3137537;1;3365889;3366915;3367938;1;3364865;3586049;1;3589122;3588099;3587073;1;3800065;3801091;3802114;1;3799041;4003841;1;4006914;4005891;4004865;1;4152326;1;4151297;4247553;1;4248582;1;4342790;1;4341761;4433921;1;4434950;1;4524038;1;4523009;4609025;1;4610054;1;4692998;1;4691969;4771842;4772870;1;4849670;1;4848641;4920322;4921350;1;4987910;1;4986881;5049346;5050374;1;5107718;1;5106689;5156866;5157894;1;5199878;1;5198849;5230594;5231622;8];
[9;10474504;10442760;1;10400776;10350600;1;10293256;10230792;1;10164232;10092552;1;10015752;9935880;1;9852936;9766920;1;9677832;9585672;1;9491464;9395208;1;9248772;9249796;9044996;9043972;1;8830980;8832004;8610820;8609796;1;8381444;8382468;8146948;8145924;1;7902212;7903236;7652356;7651332;1;7393284;7394308;7129092;7128068;1;6856708;6857732;6580228;6579204;1;6294532;6295556;6003716;6002692;1;5704708;5705732;5401604;5400580;1;157700;158724;462852;461828;1;759812;760836;1052676;1051652;1;1336324;1337348;1614852;1613828;1;1885188;1886212;2151428;2150404;1;2408452;2409476;2660356;2659332;1;2903044;2904068;3139588;3138564;1;3366916;3367940;3589124;3588100;1;3801092;3802116;4006916;4005892;1;4152328;4248584;1;4342792;4434952;1;4524040;4610056;1;4693000;4772872;1;4849672;4921352;1;4987912;5050376;1;5107720;5157896;1;5199880;5231624;8];
[9;10474502;10475522;10443778;10442758;1;10400774;10401794;10351618;10350598;1;10293254;10294274;10231810;10230790;1;10164230;10165250;10093570;10092550;1;10015750;10016770;9936898;9935878;1;9852934;9853954;9767938;9766918;1;9677830;9678850;9586690;9585670;1;9491462;9492482;9396226;9395206;1;9250817;9248771;9249794;9251842;9047042;9044994;9043970;1;9046017;1;8833025;8830979;8832002;8834050;8612866;8610818;8609794;1;8611841;1;8383489;8381443;8382466;8384514;8148994;8146946;8145922;1;8147969;1;7904257;7902211;7903234;7905282;7654402;7652354;7651330;1;7653377;1;7395329;7393283;7394306;7396354;7131138;7129090;7128066;1;7130113;1;6858753;6856707;6857730;6859778;6582274;6580226;6579203;6581249;1;6296577;6294531;6295554;6297602;6005762;6003714;6002691;6004737;1;5706753;5704707;5705730;5707778;5403650;5401602;5400579;5402625;1;159745;157699;158722;160770;464898;462850;461827;463873;1;761857;759811;760834;762882;1054722;1052674;1051651;1053697;1;1338369;1336323;1337346;1339394;1616898;1614850;1613827;1615873;1;1887233;1;1885186;1886210;1888258;2153474;2151426;2150403;2152449;1;2410497;1;2408450;2409474;2411522;2662402;2660354;2659331;2661377;1;2905089;1;2903042;2904066;2906114;3141634;3139586;3138563;3140609;1;3368961;1;3366914;3367938;3369986;3591170;3589122;3588099;3590145;1;3803137;1;3801090;3802114;3804162;4008962;4006914;4005891;4007937;1;4152326;4153346;4249602;4248582;1;4342790;4343810;4435970;4434950;1;4524038;4525058;4611074;4610054;1;4692998;4694018;4773890;4772870;1;4849670;4850690;4922370;4921350;1;4987910;4988930;5051394;5050374;1;5107718;5108738;5158914;5157894;1;5199878;5200898;5232642;5231622;8];
[9;10474500;10475524;10443779;1;10442756;1;10400772;10401796;10351619;1;10350596;1;10293252;10294276;10231811;1;10230788;1;10164228;10165252;10093571;1;10092548;1;10015748;10016772;9936899;1;9935876;1;9852932;9853956;9767939;1;9766916;1;9677828;9678852;9586691;1;9585668;1;9491460;9492484;9396227;1;9395204;1;9250819;9248769;9251844;9047044;9043969;9046019;1;8833027;8830977;8834052;8612868;8609793;8611843;1;8383491;8381441;8384516;8148996;8145921;8147971;1;7904259;7902209;7905284;7654404;7651329;7653379;1;7395331;7393281;7396356;7131140;7128065;7130115;1;6858755;6856705;6859780;6582276;6579201;6581251;1;6296579;6294529;6297604;6005764;6002689;6004739;1;5706755;5704705;5707780;5403652;5400577;5402627;1;159747;157697;160772;464900;461825;463875;1;761859;759809;762884;1054724;1051649;1053699;1;1338371;1336321;1339396;1616900;1613825;1615875;1;1887235;1885185;1888260;2153476;2150401;2152451;1;2410499;2408449;2411524;2662404;2659329;2661379;1;2905091;2903041;2906116;3141636;3138561;3140611;1;3368963;3366913;3369988;3591172;3588097;3590147;1;3803139;3801089;3804164;4008964;4005889;4007939;1;4152324;1;4153347;4249604;4248580;1;4342788;1;4343811;4435972;4434948;1;4524036;1;4525059;4611076;4610052;1;4692996;1;4694019;4773892;4772868;1;4849668;1;4850691;4922372;4921348;1;4987908;1;4988931;5051396;5050372;1;5107716;1;5108739;5158916;5157892;1;5199876;1;5200899;5232644;5231620;8];
[9;10474499;10475525;10443781;10442755;1;10400771;10401797;10351621;10350595;1;10293251;10294277;10231813;10230787;1;10164227;10165253;10093573;10092547;1;10015747;10016773;9936901;9935875;1;9852931;9853957;9767941;9766915;1;9677827;9678853;9586693;9585667;1;9491459;9492485;9396229;9395203;1;9250819;9253889;9252865;9251843;9047043;9048065;9049089;9046019;1;8833027;8836097;8835073;8834051;8612867;8613889;8614913;8611843;1;8383491;8386561;8385537;8384515;8148995;8150017;8151041;8147971;1;7904259;7907329;7906305;7905283;7654403;7655425;7656449;7653379;1;7395331;7398401;7397377;7396355;7131139;7132161;7133185;7130115;1;6858755;6861825;6860801;6859779;6582275;6583297;6584321;6581251;1;6296579;6299649;6298625;6297603;6005763;6006785;6007809;6004739;1;5706755;5709825;5708801;5707779;5403651;5404673;5405697;5402627;1;159747;162817;161793;160771;464899;465921;466945;463875;1;761859;764929;763905;762883;1054723;1055745;1056769;1053699;1;1338371;1341441;1340417;1339395;1616899;1617921;1618945;1615875;1;1887235;1890305;1889281;1888259;2153475;2154497;2155521;2152451;1;2410499;2413569;2412545;2411523;2662403;2663425;2664449;2661379;1;2905091;2908161;2907137;2906115;3141635;3142657;3143681;3140611;1;3368963;3372033;3371009;3369987;3591171;3592193;3593217;3590147;1;3803139;3806209;3805185;3804163;4008963;4009985;4011009;4007939;1;4152323;4153349;4249605;4248579;1;4342787;4343813;4435973;4434947;1;4524035;4525061;4611077;4610051;1;4692995;4694021;4773893;4772867;1;4849667;4850693;4922373;4921347;1;4987907;4988933;5051397;5050371;1;5107715;5108741;5158917;5157891;1;5199875;5200901;5232645;5231619;8];
[9;10474497;10475527;10443783;10442753;1;10400769;10401799;10351623;10350593;1;10293249;10294279;10231815;10230785;1;10164225;10165255;10093575;10092545;1;10015745;10016775;9936903;9935873;1;9852929;9853959;9767943;9766913;1;9677825;9678855;9586695;9585665;1;9491457;9492487;9396231;9395201;1;9250817;9253891;9252866;1;9251841;9047041;9048067;9049091;9046017;1;8833025;8836099;8835074;1;8834049;8612865;8613891;8614915;8611841;1;8383489;8386563;8385538;1;8384513;8148993;1;8150018;8151043;8147969;1;7904257;7907331;7906306;1;7905281;7654401;1;7655426;7656451;7653377;1;7395329;7398403;7397378;1;7396353;7131137;1;7132162;7133187;7130113;1;6858753;6861827;6860802;1;6859777;6582273;1;6583298;6584323;6581249;1;6296577;6299651;6298626;1;6297601;6005761;1;6006786;6007811;6004737;1;5706753;5709827;5708802;1;5707777;5403649;1;5404674;5405699;5402625;1;159745;162819;161794;1;160769;464897;1;465922;466947;463873;1;761857;764931;763906;1;762881;1054721;1;1055746;1056771;1053697;1;1338369;1341443;1340418;1;1339393;1616897;1;1617922;1618947;1615873;1;1887233;1890307;1889282;1;1888257;2153473;1;2154498;2155523;2152449;1;2410497;2413571;2412546;1;2411521;2662401;1;2663426;2664451;2661377;1;2905089;2908163;2907138;1;2906113;3141633;1;3142658;3143683;3140609;1;3368961;3372035;3371011;3369985;3591169;1;3592194;3593219;3590145;1;3803137;3806211;3805187;3804161;4008961;1;4009986;4011011;4007937;1;4152321;4153351;4249607;4248577;1;4342785;4343815;4435975;4434945;1;4524033;4525063;4611079;4610049;1;4692993;4694023;4773895;4772865;1;4849665;4850695;4922375;4921345;1;4987905;4988935;5051399;5050369;1;5107713;5108743;5158919;5157889;1;5199873;5200903;5232647;5231617;8];
[9;10475528;10443784;1;10401800;10351624;1;10294280;10231816;1;10165256;10093576;1;10016776;9936904;1;9853960;9767944;1;9678856;9586696;1;9492488;9396232;1;9253892;9252868;9048068;9049092;1;8836100;8835076;8613892;8614916;1;8386564;8385540;8150020;8151044;1;7907332;7906308;7655428;7656452;1;7398404;7397380;7132164;7133188;1;6861828;6860804;6583300;6584324;1;6299652;6298628;6006788;6007812;1;5709828;5708804;5404676;5405700;1;162820;161796;465924;466948;1;764932;763908;1055748;1056772;1;1341444;1340420;1617924;1618948;1;1890308;1889284;2154500;2155524;1;2413572;2412548;2663428;2664452;1;2908164;2907140;3142660;3143684;1;3372036;3371012;3592196;3593220;1;3806212;3805188;4009988;4011012;1;4153352;4249608;1;4343816;4435976;1;4525064;4611080;1;4694024;4773896;1;4850696;4922376;1;4988936;5051400;1;5108744;5158920;1;5200904;5232648;8];
[9;10476545;1;10475526;10443782;1;10444801;1;10402817;1;10401798;10351622;1;10352641;1;10295297;1;10294278;10231814;1;10232833;1;10166273;1;10165254;10093574;1;10094593;1;10017793;1;10016774;9936902;1;9937921;1;9854977;1;9853958;9767942;1;9768961;1;9679873;1;9678854;9586694;1;9587713;1;9493505;1;9492486;9396230;1;9397249;1;9255937;1;9253890;9252866;9254914;9050114;9048066;9049090;1;9051137;1;8838145;1;8836098;8835074;8837122;8615938;8613890;8614914;1;8616961;1;8388609;1;8386562;8385538;8387586;8152066;8150018;8151042;1;8153089;1;7909377;1;7907330;7906306;7908354;7657474;7655426;7656450;1;7658497;1;7400449;1;7398402;7397378;7399426;7134210;7132162;7133186;1;7135233;1;6863873;1;6861826;6860802;6862850;6585346;6583298;6584322;1;6586369;1;6301697;1;6299650;6298626;6300674;6008834;6006786;6007810;1;6009857;1;5711873;1;5709826;5708802;5710850;5406722;5404674;5405698;1;5407745;1;164865;1;162818;161794;163842;467970;465922;466946;1;468993;1;766977;1;764930;763906;765954;1057794;1055746;1056770;1;1058817;1;1343489;1;1341442;1340418;1342466;1619970;1617922;1618946;1;1620993;1;1892353;1;1890306;1889282;1891330;2156546;2154498;2155522;1;2157569;1;2415617;1;2413570;2412546;2414594;2665474;2663426;2664450;1;2666497;1;2910209;1;2908162;2907138;2909186;3144706;3142658;3143682;1;3145729;1;3374081;1;3372034;3371010;3373058;3594242;3592194;3593218;1;3595265;1;3808257;1;3806210;3805186;3807234;4012034;4009986;4011010;1;4013057;1;4154369;1;4153350;4249606;1;4250625;1;4344833;1;4343814;4435974;1;4436993;1;4526081;1;4525062;4611078;1;4612097;1;4695041;1;4694022;4773894;1;4774913;1;4851713;1;4850694;4922374;1;4923393;1;4989953;1;4988934;5051398;1;5052417;1;5109761;1;5108742;5158918;1;5159937;1;5201921;1;5200902;5232646;1;5233665;8];
[9;10476547;10475525;10443781;10444803;1;10402819;10401797;10351621;10352643;1;10295299;10294277;10231813;10232835;1;10166275;10165253;10093573;10094595;1;10017795;10016773;9936901;9937923;1;9854979;9853957;9767941;9768963;1;9679875;9678853;9586693;9587715;1;9493507;9492485;9396229;9397251;1;9255939;9253889;9254916;9050116;9049089;9051139;1;8838147;8836097;8837124;8615940;8614913;8616963;1;8388611;8386561;8387588;8152068;8151041;8153091;1;7909379;7907329;7908356;7657476;7656449;7658499;1;7400451;7398401;7399428;7134212;7133185;7135235;1;6863875;6861825;6862852;6585348;6584321;6586371;1;6301699;6299649;6300676;6008836;6007809;6009859;1;5711875;5709825;5710852;5406724;5405697;5407747;1;164867;162817;163844;467972;466945;468995;1;766979;764929;765956;1057796;1056769;1058819;1;1343491;1341441;1342468;1619972;1618945;1620995;1;1892355;1890305;1891332;2156548;2155521;2157571;1;2415619;2413569;2414596;2665476;2664449;2666499;1;2910211;2908161;2909188;3144708;3143681;3145731;1;3374083;3372033;3373060;3594244;3593217;3595267;1;3808259;3806209;3807236;4012036;4011009;4013059;1;4154371;4153349;4249605;4250627;1;4344835;4343813;4435973;4436995;1;4526083;4525061;4611077;4612099;1;4695043;4694021;4773893;4774915;1;4851715;4850693;4922373;4923395;1;4989955;4988933;5051397;5052419;1;5109763;5108741;5158917;5159939;1;5201923;5200901;5232645;5233667;8];
[9;10476549;10475523;10443779;10444805;1;10402821;10401795;10351619;10352645;1;10295301;10294275;10231811;10232837;1;10166277;10165251;10093571;10094597;1;10017797;10016771;9936899;9937925;1;9854981;9853955;9767939;9768965;1;9679877;9678851;9586691;9587717;1;9493509;9492483;9396227;9397253;1;9255938;1;9256961;9257985;9254915;9050115;9053185;9052161;1;9051138;1;8838146;1;8839169;8840193;8837123;8615939;8619009;8617985;1;8616962;1;8388610;1;8389633;8390657;8387587;8152067;8155137;8154113;1;8153090;1;7909378;1;7910401;7911425;7908355;7657475;7660545;7659521;1;7658498;1;7400450;1;7401473;7402497;7399427;7134211;7137281;7136257;1;7135234;1;6863874;1;6864897;6865921;6862851;6585347;6588417;6587393;1;6586370;1;6301698;1;6302721;6303745;6300675;6008835;6011905;6010881;1;6009858;1;5711874;1;5712897;5713921;5710851;5406723;5409793;5408769;1;5407746;1;164866;1;165889;166913;163843;467971;471041;470017;1;468994;1;766978;1;768001;769025;765955;1057795;1060865;1059841;1;1058818;1;1343490;1;1344513;1345537;1342467;1619971;1623041;1622017;1;1620994;1;1892354;1;1893377;1894401;1891331;2156547;2159617;2158593;1;2157570;1;2415618;1;2416641;2417665;2414595;2665475;2668545;2667521;1;2666498;1;2910210;1;2911233;2912257;2909187;3144707;3147777;3146753;1;3145730;1;3374082;1;3375105;3376129;3373059;3594243;3597313;3596289;1;3595266;1;3808258;1;3809281;3810305;3807235;4012035;4015105;4014081;1;4013058;1;4154373;4153347;4249603;4250629;1;4344837;4343811;4435971;4436997;1;4526085;4525059;4611075;4612101;1;4695045;4694019;4773891;4774917;1;4851717;4850691;4922371;4923397;1;4989957;4988931;5051395;5052421;1;5109765;5108739;5158915;5159941;1;5201925;5200899;5232643;5233669;8];
[9;10476551;10475521;10443777;10444807;1;10402823;10401793;10351617;10352647;1;10295303;10294273;10231809;10232839;1;10166279;10165249;10093569;10094599;1;10017799;10016769;9936897;9937927;1;9854983;9853953;9767937;9768967;1;9679879;9678849;9586689;9587719;1;9493511;9492481;9396225;9397255;1;9255937;9256963;9257987;9254913;9050113;9053187;9052163;9051137;1;8838145;8839171;8840195;8837121;8615937;8619011;8617987;8616961;1;8388609;8389635;8390659;8387585;8152065;8155139;8154115;8153089;1;7909377;7910403;7911427;7908353;7657473;7660547;7659523;7658497;1;7400449;7401475;7402499;7399425;7134209;7137283;7136259;7135233;1;6863873;6864899;6865923;6862849;6585345;6588419;6587395;6586369;1;6301697;6302723;6303747;6300673;6008833;6011907;6010883;6009857;1;5711873;5712899;5713923;5710849;5406721;5409795;5408771;5407745;1;164865;165891;166915;163841;467969;471043;470019;468993;1;766977;768003;769027;765953;1057793;1060867;1059843;1058817;1;1343489;1344515;1345539;1342465;1619969;1623043;1622019;1620993;1;1892353;1893379;1894403;1891329;2156545;2159619;2158595;2157569;1;2415617;2416643;2417667;2414593;2665473;2668547;2667523;2666497;1;2910209;2911235;2912259;2909185;3144705;3147779;3146755;3145729;1;3374081;3375107;3376131;3373057;3594241;3597315;3596291;3595265;1;3808257;3809283;3810307;3807233;4012033;4015107;4014083;4013057;1;4154375;4153345;4249601;4250631;1;4344839;4343809;4435969;4436999;1;4526087;4525057;4611073;4612103;1;4695047;4694017;4773889;4774919;1;4851719;4850689;4922369;4923399;1;4989959;4988929;5051393;5052423;1;5109767;5108737;5158913;5159943;1;5201927;5200897;5232641;5233671;8];
[9;10476551;2;10444807;1;10402823;2;10352647;1;10295303;2;10232839;1;10166279;2;10094599;1;10017799;2;9937927;1;9854983;2;9768967;1;9679879;2;9587719;1;9493511;2;9397255;1;9256964;9257987;2;9053187;9052164;1;8839172;8840195;2;8619011;8617988;1;8389636;8390659;2;8155139;8154116;1;7910404;7911427;2;7660547;7659524;1;7401476;7402499;2;7137283;7136260;1;6864900;6865923;2;6588419;6587396;1;6302724;6303747;2;6011907;6010884;1;5712900;5713923;2;5409795;5408772;1;165892;166915;2;471043;470020;1;768004;769027;2;1060867;1059844;1;1344516;1345539;2;1623043;1622020;1;1893380;1894403;2;2159619;2158596;1;2416644;2417667;2;2668547;2667524;1;2911236;2912259;2;3147779;3146756;1;3375108;3376131;2;3597315;3596292;1;3809284;3810307;2;4015107;4014084;1;4154375;2;4250631;1;4344839;2;4436999;1;4526087;2;4612103;1;4695047;2;4774919;1;4851719;2;4923399;1;4989959;2;5052423;1;5109767;2;5159943;1;5201927;2;5233671;8];
[9;10476550;10477570;10445826;10444806;1;10402822;10403842;10353666;10352646;1;10295302;10296322;10233858;10232838;1;10166278;10167298;10095618;10094598;1;10017798;10018818;9938946;9937926;1;9854982;9856002;9769986;9768966;1;9679878;9680898;9588738;9587718;1;9493510;9494530;9398274;9397254;1;9259010;9256962;9257986;9260034;9055234;9053186;9052162;9054210;1;8841218;8839170;8840194;8842242;8621058;8619010;8617986;8620034;1;8391682;8389634;8390658;8392706;8157186;8155138;8154114;8156162;1;7912450;7910402;7911426;7913474;7662594;7660546;7659522;7661570;1;7403522;7401474;7402498;7404546;7139330;7137282;7136258;7138306;1;6866946;6864898;6865922;6867970;6590466;6588418;6587394;6589442;1;6304770;6302722;6303746;6305794;6013954;6011906;6010882;6012930;1;5714946;5712898;5713922;5715970;5411842;5409794;5408770;5410818;1;167938;165890;166914;168962;473090;471042;470018;472066;1;770050;768002;769026;771074;1062914;1060866;1059842;1061890;1;1346562;1344514;1345538;1347586;1625090;1623042;1622018;1624066;1;1895426;1893378;1894402;1896450;2161666;2159618;2158594;2160642;1;2418690;2416642;2417666;2419714;2670594;2668546;2667522;2669570;1;2913282;2911234;2912258;2914306;3149826;3147778;3146754;3148802;1;3377154;3375106;3376130;3378178;3599362;3597314;3596290;3598338;1;3811330;3809282;3810306;3812354;4017154;4015106;4014082;4016130;1;4154374;4155394;4251650;4250630;1;4344838;4345858;4438018;4436998;1;4526086;4527106;4613122;4612102;1;4695046;4696066;4775938;4774918;1;4851718;4852738;4924418;4923398;1;4989958;4990978;5053442;5052422;1;5109766;5110786;5160962;5159942;1;5201926;5202946;5234690;5233670;8];
[9;10476548;10477572;10445828;10444804;1;10402820;10403844;10353668;10352644;1;10295300;10296324;10233860;10232836;1;10166276;10167300;10095620;10094596;1;10017796;10018820;9938948;9937924;1;9854980;9856004;9769988;9768964;1;9679876;9680900;9588740;9587716;1;9493508;9494532;9398276;9397252;1;9259011;1;9260036;9055236;1;9054211;1;8841219;1;8842244;8621060;1;8620035;1;8391683;1;8392708;8157188;1;8156163;1;7912451;1;7913476;7662596;1;7661571;1;7403523;1;7404548;7139332;1;7138307;1;6866947;1;6867972;6590468;1;6589443;1;6304771;1;6305796;6013956;1;6012931;1;5714947;1;5715972;5411844;1;5410819;1;167939;1;168964;473092;1;472067;1;770051;1;771076;1062916;1;1061891;1;1346563;1;1347588;1625092;1;1624067;1;1895427;1;1896452;2161668;1;2160643;1;2418691;1;2419716;2670596;1;2669571;1;2913283;1;2914308;3149828;1;3148803;1;3377155;1;3378180;3599364;1;3598339;1;3811331;1;3812356;4017156;1;4016131;1;4154372;4155396;4251652;4250628;1;4344836;4345860;4438020;4436996;1;4526084;4527108;4613124;4612100;1;4695044;4696068;4775940;4774916;1;4851716;4852740;4924420;4923396;1;4989956;4990980;5053444;5052420;1;5109764;5110788;5160964;5159940;1;5201924;5202948;5234692;5233668;8];
[9;10476546;10477574;10445830;10444802;1;10402818;10403846;10353670;10352642;1;10295298;10296326;10233862;10232834;1;10166274;10167302;10095622;10094594;1;10017794;10018822;9938950;9937922;1;9854978;9856006;9769990;9768962;1;9679874;9680902;9588742;9587714;1;9493506;9494534;9398278;9397250;1;9259010;9262082;9261057;9260035;9055235;9056257;9057282;9054210;1;8841218;8844290;8843265;8842243;8621059;8622081;8623106;8620034;1;8391682;8394754;8393729;8392707;8157187;8158209;8159234;8156162;1;7912450;7915522;7914497;7913475;7662595;7663617;7664642;7661570;1;7403522;7406594;7405569;7404547;7139331;7140353;7141378;7138306;1;6866946;6870018;6868993;6867971;6590467;6591489;6592514;6589442;1;6304770;6307842;6306817;6305795;6013955;6014977;6016002;6012930;1;5714946;5718018;5716993;5715971;5411843;5412865;5413890;5410818;1;167938;171010;169985;168963;473091;474113;475138;472066;1;770050;773122;772097;771075;1062915;1063937;1064962;1061890;1;1346562;1349634;1348609;1347587;1625091;1626113;1627138;1624066;1;1895426;1898498;1897473;1896451;2161667;2162689;2163714;2160642;1;2418690;2421762;2420737;2419715;2670595;2671617;2672642;2669570;1;2913282;2916354;2915329;2914307;3149827;3150849;3151874;3148802;1;3377154;3380226;3379201;3378179;3599363;3600385;3601410;3598338;1;3811330;3814402;3813377;3812355;4017155;4018177;4019202;4016130;1;4154370;4155398;4251654;4250626;1;4344834;4345862;4438022;4436994;1;4526082;4527110;4613126;4612098;1;4695042;4696070;4775942;4774914;1;4851714;4852742;4924422;4923394;1;4989954;4990982;5053446;5052418;1;5109762;5110790;5160966;5159938;1;5201922;5202950;5234694;5233666;8];
[10;10477575;10445831;10444801;2;10403847;10353671;10352641;2;10296327;10233863;10232833;2;10167303;10095623;10094593;2;10018823;9938951;9937921;2;9856007;9769991;9768961;2;9680903;9588743;9587713;2;9494535;9398279;9397249;2;9262083;9261059;9260033;9055233;9056259;9057283;9054209;2;8844291;8843267;8842241;8621057;8622083;8623107;8620033;2;8394755;8393731;8392705;8157185;8158211;8159235;8156161;2;7915523;7914499;7913473;7662593;7663619;7664643;7661569;2;7406595;7405571;7404545;7139329;7140355;7141379;7138305;2;6870019;6868995;6867969;6590465;6591491;6592515;3;6307843;6306819;6305793;6013953;6014979;6016003;3;5718019;5716995;5715969;5411841;5412867;5413891;3;171011;169987;168961;473089;474115;475139;3;773123;772099;771073;1062913;1063939;1064963;3;1349635;1348611;1347585;1625089;1626115;1627139;2;1895425;1898499;1897475;1896449;2161665;2162691;2163715;2;2418689;2421763;2420739;2419713;2670593;2671619;2672643;2;2913281;2916355;2915331;2914305;3149825;3150851;3151875;2;3377153;3380227;3379203;3378177;3599361;3600387;3601411;2;3811329;3814403;3813379;3812353;4017153;4018179;4019203;2;4154369;4155399;4251655;2;4344833;4345863;4438023;2;4526081;4527111;4613127;2;4695041;4696071;4775943;2;4851713;4852743;4924423;2;4989953;4990983;5053447;2;5109761;5110791;5160967;2;5201921;5202951;5234695;9];
[9;10477576;10445832;1;10403848;10353672;1;10296328;10233864;1;10167304;10095624;1;10018824;9938952;1;9856008;9769992;1;9680904;9588744;1;9494536;9398280;1;9262084;9261059;9263105;9058305;9056259;9057284;1;8844292;8843267;8845313;8624129;8622083;8623108;1;8394756;8393731;8395777;8160257;8158211;8159236;1;7915524;7914499;7916545;7665665;7663619;7664644;1;7406596;7405571;7407617;7142401;7140355;7141380;1;6870020;6868995;6871041;6593537;6591491;6592516;1;6307844;6306819;6308865;6017025;6014979;6016004;1;5718020;5716995;5719041;5414913;5412867;5413892;1;171012;169987;172033;476161;474115;475140;1;773124;772099;774145;1065985;1063939;1064964;1;1349636;1348611;1350657;1628161;1626115;1627140;1;1898500;1897475;1899521;2164737;2162691;2163716;1;2421764;2420739;2422785;2673665;2671619;2672644;1;2916356;2915331;2917377;3152897;3150851;3151876;1;3380228;3379203;3381249;3602433;3600387;3601412;1;3814404;3813379;3815425;4020225;4018179;4019204;1;4155400;4251656;1;4345864;4438024;1;4527112;4613128;1;4696072;4775944;1;4852744;4924424;1;4990984;5053448;1;5110792;5160968;1;5202952;5234696;8];
[9;10478594;10477574;10445830;10446850;1;10404866;10403846;10353670;10354690;1;10297346;10296326;10233862;10234882;1;10168322;10167302;10095622;10096642;1;10019842;10018822;9938950;9939970;1;9857026;9856006;9769990;9771010;1;9681922;9680902;9588742;9589762;1;9495554;9494534;9398278;9399298;1;9264130;9262082;9261058;9263106;9058306;9056258;9057282;9059330;1;8846338;8844290;8843266;8845314;8624130;8622082;8623106;8625154;1;8396802;8394754;8393730;8395778;8160258;8158210;8159234;8161282;1;7917570;7915522;7914498;7916546;7665666;7663618;7664642;7666690;1;7408642;7406594;7405570;7407618;7142402;7140354;7141378;7143426;1;6872066;6870018;6868994;6871042;6593538;6591490;6592514;6594562;1;6309890;6307842;6306818;6308866;6017026;6014978;6016002;6018050;1;5720066;5718018;5716994;5719042;5414914;5412866;5413890;5415938;1;173058;171010;169986;172034;476162;474114;475138;477186;1;775170;773122;772098;774146;1065986;1063938;1064962;1067010;1;1351682;1349634;1348610;1350658;1628162;1626114;1627138;1629186;1;1900546;1898498;1897474;1899522;2164738;2162690;2163714;2165762;1;2423810;2421762;2420738;2422786;2673666;2671618;2672642;2674690;1;2918402;2916354;2915330;2917378;3152898;3150850;3151874;3153922;1;3382274;3380226;3379202;3381250;3602434;3600386;3601410;3603458;1;3816450;3814402;3813378;3815426;4020226;4018178;4019202;4021250;1;4156418;4155398;4251654;4252674;1;4346882;4345862;4438022;4439042;1;4528130;4527110;4613126;4614146;1;4697090;4696070;4775942;4776962;1;4853762;4852742;4924422;4925442;1;4992002;4990982;5053446;5054466;1;5111810;5110790;5160966;5161986;1;5203970;5202950;5234694;5235714;8];
[9;10478595;1;10477572;10445828;10446852;1;10404867;1;10403844;10353668;10354692;1;10297347;1;10296324;10233860;10234884;1;10168323;1;10167300;10095620;10096644;1;10019843;1;10018820;9938948;9939972;1;9857027;1;9856004;9769988;9771012;1;9681923;1;9680900;9588740;9589764;1;9495555;1;9494532;9398276;9399300;1;9264131;1;9263108;9058308;9059332;1;8846339;1;8845316;8624132;8625156;1;8396803;1;8395780;8160260;8161284;1;7917571;1;7916548;7665668;7666692;1;7408643;1;7407620;7142404;7143428;1;6872067;1;6871044;6593540;6594564;1;6309891;1;6308868;6017028;6018052;1;5720067;1;5719044;5414916;1;5415939;1;173059;1;172036;476164;1;477187;1;775172;774148;1065988;1;1067011;1;1351684;1350660;1628164;1;1629187;1;1900548;1899524;2164740;1;2165763;1;2423812;2422788;2673668;1;2674691;1;2918404;2917380;3152900;1;3153923;1;3382276;3381252;3602436;1;3603459;1;3816452;3815428;4020228;1;4021251;1;4156420;4155396;4251652;1;4252675;1;4346884;4345860;4438020;1;4439043;1;4528132;4527108;4613124;1;4614147;1;4697092;4696068;4775940;1;4776963;1;4853764;4852740;4924420;1;4925443;1;4992004;4990980;5053444;1;5054467;1;5111812;5110788;5160964;1;5161987;1;5203972;5202948;5234692;1;5235715;8];
[9;10478597;10477571;10445827;10446853;1;10404869;10403843;10353667;10354693;1;10297349;10296323;10233859;10234885;1;10168325;10167299;10095619;10096645;1;10019845;10018819;9938947;9939973;1;9857029;9856003;9769987;9771013;1;9681925;9680899;9588739;9589765;1;9495557;9494531;9398275;9399301;1;9264130;9265154;9266177;9263107;9058307;9061377;9060354;9059330;1;8846338;8847362;8848385;8845315;8624131;8627201;8626178;8625154;1;8396802;8397826;8398849;8395779;8160259;8163329;8162306;8161282;1;7917570;7918594;7919617;7916547;7665667;7668737;7667714;7666690;1;7408642;7409666;7410689;7407619;7142403;7145473;7144450;7143426;1;6872066;6873090;6874113;6871043;6593539;6596609;6595586;6594562;1;6309890;6310914;6311937;6308867;6017027;6020097;6019074;6018050;1;5720066;5721090;5722113;5719043;5414915;5417985;5416962;5415938;1;173058;174082;175105;172035;476163;479233;478210;477186;1;775170;776194;777217;774147;1065987;1069057;1068034;1067010;1;1351682;1352706;1353729;1350659;1628163;1631233;1630210;1629186;1;1900546;1901570;1902593;1899523;2164739;2167809;2166786;2165762;1;2423810;2424834;2425857;2422787;2673667;2676737;2675714;2674690;1;2918402;2919426;2920449;2917379;3152899;3155969;3154946;3153922;1;3382274;3383298;3384321;3381251;3602435;3605505;3604482;3603458;1;3816450;3817474;3818497;3815427;4020227;4023297;4022274;4021250;1;4156421;4155395;4251651;4252677;1;4346885;4345859;4438019;4439045;1;4528133;4527107;4613123;4614149;1;4697093;4696067;4775939;4776965;1;4853765;4852739;4924419;4925445;1;4992005;4990979;5053443;5054469;1;5111813;5110787;5160963;5161989;1;5203973;5202947;5234691;5235717;8];
[9;10478599;10477569;10445825;10446855;1;10404871;10403841;10353665;10354695;1;10297351;10296321;10233857;10234887;1;10168327;10167297;10095617;10096647;1;10019847;10018817;9938945;9939975;1;9857031;9856001;9769985;9771015;1;9681927;9680897;9588737;9589767;1;9495559;9494529;9398273;9399303;2;9265155;9266179;9263105;9058305;9061379;9060355;3;8847363;8848387;8845313;8624129;8627203;8626179;3;8397827;8398851;8395777;8160257;8163331;8162307;3;7918595;7919619;7916545;7665665;7668739;7667715;3;7409667;7410691;7407617;7142401;7145475;7144451;3;6873091;6874115;6871041;6593537;6596611;6595587;3;6310915;6311939;6308865;6017025;6020099;6019075;3;5721091;5722115;5719041;5414913;5417987;5416963;3;174083;175107;172033;476161;479235;478211;3;776195;777219;774145;1065985;1069059;1068035;3;1352707;1353731;1350657;1628161;1631235;1630211;3;1901571;1902595;1899521;2164737;2167811;2166787;3;2424835;2425859;2422785;2673665;2676739;2675715;3;2919427;2920451;2917377;3152897;3155971;3154947;3;3383299;3384323;3381249;3602433;3605507;3604483;3;3817475;3818499;3815425;4020225;4023299;4022275;2;4156423;4155393;4251649;4252679;1;4346887;4345857;4438017;4439047;1;4528135;4527105;4613121;4614151;1;4697095;4696065;4775937;4776967;1;4853767;4852737;4924417;4925447;1;4992007;4990977;5053441;5054471;1;5111815;5110785;5160961;5161991;1;5203975;5202945;5234689;5235719;8];
[9;10478599;10479617;10447873;10446855;1;10404871;10405889;10355713;10354695;1;10297351;10298369;10235905;10234887;1;10168327;10169345;10097665;10096647;1;10019847;10020865;9940993;9939975;1;9857031;9858049;9772033;9771015;1;9681927;9682945;9590785;9589767;1;9495559;9496577;9400321;9399303;1;9265156;9266179;9268225;9063425;9061379;9060356;1;8847364;8848387;8850433;8629249;8627203;8626180;1;8397828;8398851;8400897;8165377;8163331;8162308;1;7918596;7919619;7921665;7670785;7668739;7667716;1;7409668;7410691;7412737;7147521;7145475;7144452;1;6873092;6874115;6876161;6598657;6596611;6595588;1;6310916;6311939;6313985;6022145;6020099;6019076;1;5721092;5722115;5724161;5420033;5417987;5416964;1;174084;175107;177153;481281;479235;478212;1;776196;777219;779265;1071105;1069059;1068036;1;1352708;1353731;1355777;1633281;1631235;1630212;1;1901572;1902595;1904641;2169857;2167811;2166788;1;2424836;2425859;2427905;2678785;2676739;2675716;1;2919428;2920451;2922497;3158017;3155971;3154948;1;3383300;3384323;3386369;3607553;3605507;3604484;1;3817476;3818499;3820545;4025345;4023299;4022276;1;4156423;4157441;4253697;4252679;1;4346887;4347905;4440065;4439047;1;4528135;4529153;4615169;4614151;1;4697095;4698113;4777985;4776967;1;4853767;4854785;4926465;4925447;1;4992007;4993025;5055489;5054471;1;5111815;5112833;5163009;5161991;1;5203975;5204993;5236737;5235719;8];
[9;10478597;1;10479618;10447874;1;10446853;1;10404869;1;10405890;10355714;1;10354693;1;10297349;1;10298370;10235906;1;10234885;1;10168325;1;10169346;10097666;1;10096645;1;10019845;1;10020866;9940994;1;9939973;1;9857029;1;9858050;9772034;1;9771013;1;9681925;1;9682946;9590786;1;9589765;1;9495557;1;9496578;9400322;1;9399301;1;9267202;9265154;9266177;1;9268226;9063426;1;9061377;9060354;9062402;1;8849410;8847362;8848385;1;8850434;8629250;1;8627201;8626178;8628226;1;8399874;8397826;8398849;1;8400898;8165378;1;8163329;8162306;8164354;1;7920642;7918594;7919617;1;7921666;7670786;1;7668737;7667714;7669762;1;7411714;7409666;7410689;1;7412738;7147522;1;7145473;7144450;7146498;1;6875138;6873090;6874113;1;6876162;6598658;1;6596609;6595586;6597634;1;6312962;6310914;6311937;1;6313986;6022146;1;6020097;6019074;6021122;1;5723138;5721090;5722113;1;5724162;5420034;1;5417985;5416962;5419010;1;176130;174082;175105;1;177154;481282;1;479233;478210;480258;1;778242;776194;777217;1;779266;1071106;1;1069057;1068034;1070082;1;1354754;1352706;1353729;1;1355778;1633282;1;1631233;1630210;1632258;1;1903618;1901570;1902593;1;1904642;2169858;1;2167809;2166786;2168834;1;2426882;2424834;2425857;1;2427906;2678786;1;2676737;2675714;2677762;1;2921474;2919426;2920449;1;2922498;3158018;1;3155969;3154946;3156994;1;3385346;3383298;3384321;1;3386370;3607554;1;3605505;3604482;3606530;1;3819522;3817474;3818497;1;3820546;4025346;1;4023297;4022274;4024322;1;4156421;1;4157442;4253698;1;4252677;1;4346885;1;4347906;4440066;1;4439045;1;4528133;1;4529154;4615170;1;4614149;1;4697093;1;4698114;4777986;1;4776965;1;4853765;1;4854786;4926466;1;4925445;1;4992005;1;4993026;5055490;1;5054469;1;5111813;1;5112834;5163010;1;5161989;1;5203973;1;5204994;5236738;1;5235717;8];
[9;10478596;10479620;10447876;10446852;1;10404868;10405892;10355716;10354692;1;10297348;10298372;10235908;10234884;1;10168324;10169348;10097668;10096644;1;10019844;10020868;9940996;9939972;1;9857028;9858052;9772036;9771012;1;9681924;9682948;9590788;9589764;1;9495556;9496580;9400324;9399300;1;9267204;9268228;9063428;9062404;1;8849412;8850436;8629252;8628228;1;8399876;8400900;8165380;8164356;1;7920644;7921668;7670788;7669764;1;7411716;7412740;7147524;7146500;1;6875140;6876164;6598660;6597636;1;6312964;6313988;6022148;6021124;1;5723140;5724164;5420036;5419012;1;176132;177156;481284;480260;1;778244;779268;1071108;1070084;1;1354756;1355780;1633284;1632260;1;1903620;1904644;2169860;2168836;1;2426884;2427908;2678788;2677764;1;2921476;2922500;3158020;3156996;1;3385348;3386372;3607556;3606532;1;3819524;3820548;4025348;4024324;1;4156420;4157444;4253700;4252676;1;4346884;4347908;4440068;4439044;1;4528132;4529156;4615172;4614148;1;4697092;4698116;4777988;4776964;1;4853764;4854788;4926468;4925444;1;4992004;4993028;5055492;5054468;1;5111812;5112836;5163012;5161988;1;5203972;5204996;5236740;5235716;8];
[9;10478594;10479622;10447878;10446850;1;10404866;10405894;10355718;10354690;1;10297346;10298374;10235910;10234882;1;10168322;10169350;10097670;10096642;1;10019842;10020870;9940998;9939970;1;9857026;9858054;9772038;9771010;1;9681922;9682950;9590790;9589762;1;9495554;9496582;9400326;9399298;1;9267202;9270274;9269249;1;9268226;9063426;1;9064449;9065474;9062402;1;8849410;8852482;8851457;1;8850434;8629250;1;8630273;8631298;8628226;1;8399874;8402946;8401921;1;8400898;8165378;1;8166401;8167426;8164354;1;7920642;7923714;7922689;1;7921666;7670786;1;7671809;7672834;7669762;1;7411714;7414786;7413761;1;7412738;7147522;1;7148545;7149570;7146498;1;6875138;6878210;6877185;1;6876162;6598658;1;6599681;6600706;6597634;1;6312962;6316034;6315009;1;6313986;6022146;1;6023169;6024194;6021122;1;5723138;5726210;5725185;1;5724162;5420034;1;5421057;5422082;5419010;1;176130;179202;178177;1;177154;481282;1;482305;483330;480258;1;778242;781314;780289;1;779266;1071106;1;1072129;1073154;1070082;1;1354754;1357826;1356801;1;1355778;1633282;1;1634305;1635330;1632258;1;1903618;1906690;1905665;1;1904642;2169858;1;2170881;2171906;2168834;1;2426882;2429954;2428929;1;2427906;2678786;1;2679809;2680834;2677762;1;2921474;2924546;2923521;1;2922498;3158018;1;3159041;3160066;3156994;1;3385346;3388418;3387393;1;3386370;3607554;1;3608577;3609602;3606530;1;3819522;3822594;3821569;1;3820546;4025346;1;4026369;4027394;4024322;1;4156418;4157446;4253702;4252674;1;4346882;4347910;4440070;4439042;1;4528130;4529158;4615174;4614146;1;4697090;4698118;4777990;4776962;1;4853762;4854790;4926470;4925442;1;4992002;4993030;5055494;5054466;1;5111810;5112838;5163014;5161986;1;5203970;5204998;5236742;5235714;8];
[9;10479624;10447880;1;10405896;10355720;1;10298376;10235912;1;10169352;10097672;1;10020872;9941000;1;9858056;9772040;1;9682952;9590792;1;9496584;9400328;1;9270276;9269251;9268225;9063425;9064451;9065476;1;8852484;8851459;8850433;8629249;8630275;8631300;1;8402948;8401923;8400897;8165377;8166403;8167428;1;7923716;7922691;7921665;7670785;7671811;7672836;1;7414788;7413763;7412737;7147521;7148547;7149572;1;6878212;6877187;6876161;6598657;6599683;6600708;1;6316036;6315011;6313985;6022145;6023171;6024196;1;5726212;5725187;5724161;5420033;5421059;5422084;1;179204;178179;177153;481281;482307;483332;1;781316;780291;779265;1071105;1072131;1073156;1;1357828;1356803;1355777;1633281;1634307;1635332;1;1906692;1905667;1904641;2169857;2170883;2171908;1;2429956;2428931;2427905;2678785;2679811;2680836;1;2924548;2923523;2922497;3158017;3159043;3160068;1;3388420;3387395;3386369;3607553;3608579;3609604;1;3822596;3821571;3820545;4025345;4026371;4027396;1;4157448;4253704;1;4347912;4440072;1;4529160;4615176;1;4698120;4777992;1;4854792;4926472;1;4993032;5055496;1;5112840;5163016;1;5205000;5236744;8];
[10;10479623;10447879;3;10405895;10355719;3;10298375;10235911;3;10169351;10097671;3;10020871;9940999;3;9858055;9772039;3;9682951;9590791;3;9496583;9400327;3;9270275;9269251;9271297;9066497;9064451;9065475;3;8852483;8851459;8853505;8632321;8630275;8631299;3;8402947;8401923;8403969;8168449;8166403;8167427;3;7923715;7922691;7924737;7673857;7671811;7672835;3;7414787;7413763;7415809;7150593;7148547;7149571;3;6878211;6877187;6879233;6601729;6599683;6600707;3;6316035;6315011;6317057;6025217;6023171;6024195;3;5726211;5725187;5727233;5423105;5421059;5422083;3;179203;178179;180225;484353;482307;483331;3;781315;780291;782337;1074177;1072131;1073155;3;1357827;1356803;1358849;1636353;1634307;1635331;3;1906691;1905667;1907713;2172929;2170883;2171907;3;2429955;2428931;2430977;2681857;2679811;2680835;3;2924547;2923523;2925569;3161089;3159043;3160067;3;3388419;3387395;3389441;3610625;3608579;3609603;3;3822595;3821571;3823617;4028417;4026371;4027395;3;4157447;4253703;3;4347911;4440071;3;4529159;4615175;3;4698119;4777991;3;4854791;4926471;3;4993031;5055495;3;5112839;5163015;3;5204999;5236743;9];
[9;10480642;10479622;10447878;10448898;1;10406914;10405894;10355718;10356738;1;10299394;10298374;10235910;10236930;1;10170370;10169350;10097670;10098690;1;10021890;10020870;9940998;9942018;1;9859074;9858054;9772038;9773058;1;9683970;9682950;9590790;9591810;1;9497602;9496582;9400326;9401346;1;9272322;9270274;9269249;9271299;9066499;9064449;9065474;9067522;1;8854530;8852482;8851457;8853507;8632323;8630273;8631298;8633346;1;8404994;8402946;8401921;8403971;8168451;8166401;8167426;8169474;1;7925762;7923714;7922689;7924739;7673859;7671809;7672834;7674882;1;7416834;7414786;7413761;7415811;7150595;7148545;7149570;7151618;1;6880258;6878210;6877185;6879235;6601731;6599681;6600706;6602754;1;6318082;6316034;6315009;6317059;6025219;6023169;6024194;6026242;1;5728258;5726210;5725185;5727235;5423107;5421057;5422082;5424130;1;181250;179202;178177;180227;484355;482305;483330;485378;1;783362;781314;780289;782339;1074179;1072129;1073154;1075202;1;1359874;1357826;1356801;1358851;1636355;1634305;1635330;1637378;1;1908738;1906690;1905665;1907715;2172931;2170881;2171906;2173954;1;2432002;2429954;2428929;2430979;2681859;2679809;2680834;2682882;1;2926594;2924546;2923521;2925571;3161091;3159041;3160066;3162114;1;3390466;3388418;3387393;3389443;3610627;3608577;3609602;3611650;1;3824642;3822594;3821569;3823619;4028419;4026369;4027394;4029442;1;4158466;4157446;4253702;4254722;1;4348930;4347910;4440070;4441090;1;4530178;4529158;4615174;4616194;1;4699138;4698118;4777990;4779010;1;4855810;4854790;4926470;4927490;1;4994050;4993030;5055494;5056514;1;5113858;5112838;5163014;5164034;1;5206018;5204998;5236742;5237762;8];
[9;10480644;10479620;10447876;10448900;1;10406916;10405892;10355716;10356740;1;10299396;10298372;10235908;10236932;1;10170372;10169348;10097668;10098692;1;10021892;10020868;9940996;9942020;1;9859076;9858052;9772036;9773060;1;9683972;9682948;9590788;9591812;1;9497604;9496580;9400324;9401348;1;9272323;1;9271300;9066500;9067524;1;8854531;1;8853508;8632324;1;8633347;1;8404995;1;8403972;8168452;1;8169475;1;7925763;1;7924740;7673860;1;7674883;1;7416835;1;7415812;7150596;1;7151619;1;6880259;1;6879236;6601732;1;6602755;1;6318083;1;6317060;6025220;1;6026243;1;5728259;1;5727236;5423108;1;5424131;1;181251;1;180228;484356;1;485379;1;783363;1;782340;1074180;1;1075203;1;1359875;1;1358852;1636356;1;1637379;1;1908739;1;1907716;2172932;1;2173955;1;2432003;1;2430980;2681860;1;2682883;1;2926595;1;2925572;3161092;1;3162115;1;3390467;1;3389444;3610628;1;3611651;1;3824644;3823620;4028420;1;4029443;1;4158468;4157444;4253700;4254724;1;4348932;4347908;4440068;4441092;1;4530180;4529156;4615172;4616196;1;4699140;4698116;4777988;4779012;1;4855812;4854788;4926468;4927492;1;4994052;4993028;5055492;5056516;1;5113860;5112836;5163012;5164036;1;5206020;5204996;5236740;5237764;8];
[9;10480646;10479618;10447874;10448902;1;10406918;10405890;10355714;10356742;1;10299398;10298370;10235906;10236934;1;10170374;10169346;10097666;10098694;1;10021894;10020866;9940994;9942022;1;9859078;9858050;9772034;9773062;1;9683974;9682946;9590786;9591814;1;9497606;9496578;9400322;9401350;1;9272322;9273346;9274370;9271298;9066498;9069570;9068546;9067522;1;8854530;8855554;8856578;8853506;8632322;8635394;8634370;8633346;1;8404994;8406018;8407042;8403970;8168450;8171522;8170498;8169474;1;7925762;7926786;7927810;7924738;7673858;7676930;7675906;7674882;1;7416834;7417858;7418882;7415810;7150594;7153666;7152642;7151618;1;6880258;6881282;6882306;6879234;6601730;6604802;6603778;6602754;1;6318082;6319106;6320130;6317058;6025218;6028290;6027266;6026242;1;5728258;5729282;5730306;5727234;5423106;5426178;5425154;5424130;1;181250;182274;183298;180226;484354;487426;486402;485378;1;783362;784386;785410;782338;1074178;1077250;1076226;1075202;1;1359874;1360898;1361922;1358850;1636354;1639426;1638402;1637378;1;1908738;1909762;1910786;1907714;2172930;2176002;2174978;2173954;1;2432002;2433026;2434050;2430978;2681858;2684930;2683906;2682882;1;2926594;2927618;2928642;2925570;3161090;3164162;3163138;3162114;1;3390466;3391490;3392514;3389442;3610626;3613698;3612674;3611650;1;3824642;3825666;3826690;3823618;4028418;4031490;4030466;4029442;1;4158470;4157442;4253698;4254726;1;4348934;4347906;4440066;4441094;1;4530182;4529154;4615170;4616198;1;4699142;4698114;4777986;4779014;1;4855814;4854786;4926466;4927494;1;4994054;4993026;5055490;5056518;1;5113862;5112834;5163010;5164038;1;5206022;5204994;5236738;5237766;8];
[9;10480647;10479617;1;10448903;1;10406919;10405889;1;10356743;1;10299399;10298369;1;10236935;1;10170375;10169345;1;10098695;1;10021895;10020865;1;9942023;1;9859079;9858049;1;9773063;1;9683975;9682945;1;9591815;1;9497607;9496577;1;9401351;1;9273348;9274371;9271297;1;9069571;9068548;1;8855556;8856579;8853505;8632321;8635395;8634372;1;8406020;8407043;8403969;8168449;8171523;8170500;1;7926788;7927811;7924737;7673857;7676931;7675908;1;7417860;7418883;7415809;7150593;7153667;7152644;1;6881284;6882307;6879233;6601729;6604803;6603780;1;6319108;6320131;6317057;6025217;6028291;6027268;1;5729284;5730307;5727233;5423105;5426179;5425156;1;182276;183299;180225;484353;487427;486404;1;784388;785411;782337;1074177;1077251;1076228;1;1360900;1361923;1358849;1636353;1639427;1638404;1;1909764;1910787;1907713;2172929;2176003;2174980;1;2433028;2434051;2430977;2681857;2684931;2683908;1;2927620;2928643;2925569;3161089;3164163;3163140;1;3391492;3392515;3389441;3610625;3613699;3612676;1;3825668;3826691;1;4028417;4031491;4030468;1;4158471;1;4253697;4254727;1;4348935;1;4440065;4441095;1;4530183;1;4615169;4616199;1;4699143;1;4777985;4779015;1;4855815;1;4926465;4927495;1;4994055;1;5055489;5056519;1;5113863;1;5163009;5164039;1;5206023;1;5236737;5237767;8];
[9;10480647;10481665;10449921;10448903;1;10406919;10407937;10357761;10356743;1;10299399;10300417;10237953;10236935;1;10170375;10171393;10099713;10098695;1;10021895;10022913;9943041;9942023;1;9859079;9860097;9774081;9773063;1;9683975;9684993;9592833;9591815;1;9497607;9498625;9402369;9401351;2;9273347;9274371;9276417;9071617;9069571;9068547;9070593;2;8855555;8856579;8858625;8637441;8635395;8634371;8636417;2;8406019;8407043;8409089;8173569;8171523;8170499;8172545;2;7926787;7927811;7929857;7678977;7676931;7675907;7677953;1;7419905;7417859;7418883;7420929;7155713;7153667;7152643;7154689;1;6883329;6881283;6882307;6884353;6606849;6604803;6603779;6605825;1;6321153;6319107;6320131;6322177;6030337;6028291;6027267;6029313;1;5731329;5729283;5730307;5732353;5428225;5426179;5425155;5427201;1;184321;182275;183299;185345;489473;487427;486403;488449;1;786433;784387;785411;787457;1079297;1077251;1076227;1078273;1;1362945;1360899;1361923;1363969;1641473;1639427;1638403;1640449;1;1911809;1909763;1910787;1912833;2178049;2176003;2174979;2177025;1;2435073;2433027;2434051;2436097;2686977;2684931;2683907;2;2929665;2927619;2928643;2930689;3166209;3164163;3163139;2;3393537;3391491;3392515;3394561;3615745;3613699;3612675;2;3827713;3825667;3826691;3828737;4033537;4031491;4030467;2;4158471;4159489;4255745;4254727;1;4348935;4349953;4442113;4441095;1;4530183;4531201;4617217;4616199;1;4699143;4700161;4780033;4779015;1;4855815;4856833;4928513;4927495;1;4994055;4995073;5057537;5056519;1;5113863;5114881;5165057;5164039;1;5206023;5207041;5238785;5237767;8];
[9;10480645;10481667;10449923;10448901;1;10406917;10407939;10357763;10356741;1;10299397;10300419;10237955;10236933;1;10170373;10171395;10099715;10098693;1;10021893;10022915;9943043;9942021;1;9859077;9860099;9774083;9773061;1;9683973;9684995;9592835;9591813;1;9497605;9498627;9402371;9401349;1;9275394;9273346;9274369;9276419;9071619;9069569;9068546;9070594;1;8857602;8855554;8856577;8858627;8637443;8635393;8634370;8636418;1;8408066;8406018;8407041;8409091;8173571;8171521;8170498;8172546;1;7928834;7926786;7927809;7929859;7678979;7676929;7675906;7677954;1;7419906;7417858;7418881;7420931;7155715;7153665;7152642;7154690;1;6883330;6881282;6882305;6884355;6606851;6604801;6603778;6605826;1;6321154;6319106;6320129;6322179;6030339;6028289;6027266;6029314;1;5731330;5729282;5730305;5732355;5428227;5426177;5425154;5427202;1;184322;182274;183297;185347;489475;487425;486402;488450;1;786434;784386;785409;787459;1079299;1077249;1076226;1078274;1;1362946;1360898;1361921;1363971;1641475;1639425;1638402;1640450;1;1911810;1909762;1910785;1912835;2178051;2176001;2174978;2177026;1;2435074;2433026;2434049;2436099;2686979;2684929;2683906;2685954;1;2929666;2927618;2928641;2930691;3166211;3164161;3163138;3165186;1;3393538;3391490;3392513;3394563;3615747;3613697;3612674;3614722;1;3827714;3825666;3826689;3828739;4033539;4031489;4030466;4032514;1;4158469;4159491;4255747;4254725;1;4348933;4349955;4442115;4441093;1;4530181;4531203;4617219;4616197;1;4699141;4700163;4780035;4779013;1;4855813;4856835;4928515;4927493;1;4994053;4995075;5057539;5056517;1;5113861;5114883;5165059;5164037;1;5206021;5207043;5238787;5237765;8];
[9;10480643;10481669;10449924;1;10448899;1;10406915;10407941;10357764;1;10356739;1;10299395;10300421;10237956;1;10236931;1;10170371;10171397;10099716;1;10098691;1;10021891;10022917;9943044;1;9942019;1;9859075;9860101;9774084;1;9773059;1;9683971;9684997;9592836;1;9591811;1;9497603;1;9498628;9402372;1;9401347;1;9275395;1;9276420;9071620;1;9070595;1;8857603;1;8858628;8637444;1;8636419;1;8408067;1;8409092;8173572;1;8172547;1;7928835;1;7929860;7678980;1;7677955;1;7419907;1;7420932;7155716;1;7154691;1;6883331;1;6884356;6606852;1;6605827;1;6321155;1;6322180;6030340;1;6029315;1;5731331;1;5732356;5428228;1;5427203;1;184323;1;185348;489476;1;488451;1;786435;1;787460;1079300;1;1078275;1;1362947;1;1363972;1641476;1;1640451;1;1911811;1;1912836;2178052;1;2177027;1;2435075;1;2436100;2686980;1;2685955;1;2929667;1;2930692;3166212;1;3165187;1;3393539;1;3394564;3615748;1;3614723;1;3827715;1;3828740;4033540;1;4032515;1;4158467;1;4159492;4255748;1;4254723;1;4348931;1;4349956;4442117;4441091;1;4530179;1;4531204;4617221;4616195;1;4699139;1;4700164;4780037;4779011;1;4855811;1;4856836;4928517;4927491;1;4994051;1;4995076;5057541;5056515;1;5113859;1;5114884;5165061;5164035;1;5206019;1;5207044;5238789;5237763;8];
[9;10480642;10481670;10449926;10448898;1;10406914;10407942;10357766;10356738;1;10299394;10300422;10237958;10236930;1;10170370;10171398;10099718;10098690;1;10021890;10022918;9943046;9942018;1;9859074;9860102;9774086;9773058;1;9683970;9684998;9592838;9591810;1;9497602;9498630;9402374;9401346;1;9275394;9278466;9277442;9276418;9071618;9072642;9073666;9070594;1;8857602;8860674;8859650;8858626;8637442;8638466;8639490;8636418;1;8408066;8411138;8410114;8409090;8173570;8174594;8175618;8172546;1;7928834;7931906;7930882;7929858;7678978;7680002;7681026;7677954;1;7419906;7422978;7421954;7420930;7155714;7156738;7157762;7154690;1;6883330;6886402;6885378;6884354;6606850;6607874;6608898;6605826;1;6321154;6324226;6323202;6322178;6030338;6031362;6032386;6029314;1;5731330;5734402;5733378;5732354;5428226;5429250;5430274;5427202;1;184322;187394;186370;185346;489474;490498;491522;488450;1;786434;789506;788482;787458;1079298;1080322;1081346;1078274;1;1362946;1366018;1364994;1363970;1641474;1642498;1643522;1640450;1;1911810;1914882;1913858;1912834;2178050;2179074;2180098;2177026;1;2435074;2438146;2437122;2436098;2686978;2688002;2689026;2685954;1;2929666;2932738;2931714;2930690;3166210;3167234;3168258;3165186;1;3393538;3396610;3395586;3394562;3615746;3616770;3617794;3614722;1;3827714;3830786;3829762;3828738;4033538;4034562;4035586;4032514;1;4158466;4159494;4255750;4254722;1;4348930;4349958;4442118;4441090;1;4530178;4531206;4617222;4616194;1;4699138;4700166;4780038;4779010;1;4855810;4856838;4928518;4927490;1;4994050;4995078;5057542;5056514;1;5113858;5114886;5165062;5164034;1;5206018;5207046;5238790;5237762;8];
[9;10481672;10449928;1;10407944;10357768;1;10300424;10237960;1;10171400;10099720;1;10022920;9943048;1;9860104;9774088;1;9685000;9592840;1;9498632;9402376;1;9278468;9277443;2;9072643;9073668;1;8860676;8859651;2;8638467;8639492;1;8411140;8410115;2;8174595;8175620;1;7931908;7930883;2;7680003;7681028;1;7422980;7421955;2;7156739;7157764;1;6886404;6885379;2;6607875;6608900;1;6324228;6323203;2;6031363;6032388;1;5734404;5733379;2;5429251;5430276;1;187396;186371;2;490499;491524;1;789508;788483;2;1080323;1081348;1;1366020;1364995;2;1642499;1643524;1;1914884;1913859;2;2179075;2180100;1;2438148;2437123;2;2688003;2689028;1;2932740;2931715;2;3167235;3168260;1;3396612;3395587;2;3616771;3617796;1;3830788;3829763;2;4034563;4035588;1;4159496;4255752;1;4349960;4442120;1;4531208;4617224;1;4700168;4780040;1;4856840;4928520;1;4995080;5057544;1;5114888;5165064;1;5207048;5238792;8];
[9;10482689;10481671;10449927;10450945;1;10408961;10407943;10357767;10358785;1;10301441;10300423;10237959;10238977;1;10172417;10171399;10099719;10100737;1;10023937;10022919;9943047;9944065;1;9861121;9860103;9774087;9775105;1;9686017;9684999;9592839;9593857;1;9499649;9498631;9402375;9403393;1;9280513;9278467;9277443;9279489;9074689;9072643;9073667;9075713;1;8862721;8860675;8859651;8861697;8640513;8638467;8639491;8641537;1;8413185;8411139;8410115;8412161;8176641;8174595;8175619;8177665;1;7933953;7931907;7930883;7932929;7682049;7680003;7681027;7683073;1;7425025;7422979;7421955;7424001;7158785;7156739;7157763;7159809;1;6888449;6886403;6885379;6887425;6609921;6607875;6608899;6610945;1;6326273;6324227;6323203;6325249;6033409;6031363;6032387;6034433;1;5736449;5734403;5733379;5735425;5431297;5429251;5430275;5432321;1;189441;187395;186371;188417;492545;490499;491523;493569;1;791553;789507;788483;790529;1082369;1080323;1081347;1083393;1;1368065;1366019;1364995;1367041;1644545;1642499;1643523;1645569;1;1916929;1914883;1913859;1915905;2181121;2179075;2180099;2182145;1;2440193;2438147;2437123;2439169;2690049;2688003;2689027;2691073;1;2934785;2932739;2931715;2933761;3169281;3167235;3168259;3170305;1;3398657;3396611;3395587;3397633;3618817;3616771;3617795;3619841;1;3832833;3830787;3829763;3831809;4036609;4034563;4035587;4037633;1;4160513;4159495;4255751;4256769;1;4350977;4349959;4442119;4443137;1;4532225;4531207;4617223;4618241;1;4701185;4700167;4780039;4781057;1;4857857;4856839;4928519;4929537;1;4996097;4995079;5057543;5058561;1;5115905;5114887;5165063;5166081;1;5208065;5207047;5238791;5239809;8];
[9;10482690;1;10481669;10449925;1;10450946;1;10408962;1;10407941;10357765;1;10358786;1;10301442;1;10300421;10237957;1;10238978;1;10172418;1;10171397;10099717;1;10100738;1;10023938;1;10022917;9943045;1;9944066;1;9861122;1;9860101;9774085;1;9775106;1;9686018;1;9684997;9592837;1;9593858;1;9499650;1;9498629;9402373;1;9403394;1;9280514;1;9278465;9277441;9279491;9074691;9072641;9073665;1;9075714;1;8862722;1;8860673;8859649;8861699;8640515;8638465;8639489;1;8641538;1;8413186;1;8411137;8410113;8412163;8176643;8174593;8175617;1;8177666;1;7933954;1;7931905;7930881;7932931;7682051;7680001;7681025;1;7683074;1;7425026;1;7422977;7421953;7424003;7158787;7156737;7157761;1;7159810;1;6888450;1;6886401;6885377;6887427;6609923;6607873;6608897;1;6610946;1;6326274;1;6324225;6323201;6325251;6033411;6031361;6032385;1;6034434;1;5736450;1;5734401;5733377;5735427;5431299;5429249;5430273;1;5432322;1;189442;1;187393;186369;188419;492547;490497;491521;1;493570;1;791554;1;789505;788481;790531;1082371;1080321;1081345;1;1083394;1;1368066;1;1366017;1364993;1367043;1644547;1642497;1643521;1;1645570;1;1916930;1;1914881;1913857;1915907;2181123;2179073;2180097;1;2182146;1;2440194;1;2438145;2437121;2439171;2690051;2688001;2689025;1;2691074;1;2934786;1;2932737;2931713;2933763;3169283;3167233;3168257;1;3170306;1;3398658;1;3396609;3395585;3397635;3618819;3616769;3617793;1;3619842;1;3832834;1;3830785;3829761;3831811;4036611;4034561;4035585;1;4037634;1;4160514;1;4159493;4255749;1;4256770;1;4350978;1;4349957;4442117;1;4443138;1;4532226;1;4531205;4617221;1;4618242;1;4701186;1;4700165;4780037;1;4781058;1;4857858;1;4856837;4928517;1;4929538;1;4996098;1;4995077;5057541;1;5058562;1;5115906;1;5114885;5165061;1;5166082;1;5208066;1;5207045;5238789;1;5239810;8];
[9;10482692;10481668;10449924;10450948;1;10408964;10407940;10357764;10358788;1;10301444;10300420;10237956;10238980;1;10172420;10171396;10099716;10100740;1;10023940;10022916;9943044;9944068;1;9861124;9860100;9774084;9775108;1;9686020;9684996;9592836;9593860;1;9499652;9498628;9402372;9403396;1;9280515;9281537;9279492;9074692;9076737;9075715;1;8862723;8863745;8861700;8640516;8642561;8641539;1;8413187;8414209;8412164;8176644;8178689;8177667;1;7933955;7934977;7932932;7682052;7684097;7683075;1;7425027;7426049;7424004;7158788;7160833;7159811;1;6888451;6889473;6887428;6609924;6611969;6610947;1;6326275;6327297;6325252;6033412;6035457;6034435;1;5736451;5737473;5735428;5431300;5433345;5432323;1;189443;190465;188420;492548;494593;493571;1;791555;792577;790532;1082372;1084417;1083395;1;1368067;1369089;1367044;1644548;1646593;1645571;1;1916931;1917953;1915908;2181124;2183169;2182147;1;2440195;2441217;2439172;2690052;2692097;2691075;1;2934787;2935809;2933764;3169284;3171329;3170307;1;3398659;3399681;3397636;3618820;3620865;3619843;1;3832835;3833857;3831812;4036612;4038657;4037635;1;4160516;4159492;4255748;4256772;1;4350980;4349956;4442116;4443140;1;4532228;4531204;4617220;4618244;1;4701188;4700164;4780036;4781060;1;4857860;4856836;4928516;4929540;1;4996100;4995076;5057540;5058564;1;5115908;5114884;5165060;5166084;1;5208068;5207044;5238788;5239812;8];
[9;10482694;10481666;10449922;10450950;1;10408966;10407938;10357762;10358790;1;10301446;10300418;10237954;10238982;1;10172422;10171394;10099714;10100742;1;10023942;10022914;9943042;9944070;1;9861126;9860098;9774082;9775110;1;9686022;9684994;9592834;9593862;1;9499654;9498626;9402370;9403398;1;9280513;1;9281538;9282562;9279490;9074690;9077762;9076738;1;9075713;1;8862721;1;8863746;8864770;8861698;8640514;8643586;8642562;1;8641537;1;8413185;1;8414210;8415234;8412162;8176642;8179714;8178690;1;8177665;1;7933953;1;7934978;7936002;7932930;7682050;7685122;7684098;1;7683073;1;7425025;1;7426050;7427074;7424002;7158786;7161858;7160834;1;7159809;1;6888449;1;6889474;6890498;6887426;6609922;6612994;6611970;1;6610945;1;6326273;1;6327298;6328322;6325250;6033410;6036482;6035458;1;6034433;1;5736449;1;5737474;5738498;5735426;5431298;5434370;5433346;1;5432321;1;189441;1;190466;191490;188418;492546;495618;494594;1;493569;1;791553;1;792578;793602;790530;1082370;1085442;1084418;1;1083393;1;1368065;1;1369090;1370114;1367042;1644546;1647618;1646594;1;1645569;1;1916929;1;1917954;1918978;1915906;2181122;2184194;2183170;1;2182145;1;2440193;1;2441218;2442242;2439170;2690050;2693122;2692098;1;2691073;1;2934785;1;2935810;2936834;2933762;3169282;3172354;3171330;1;3170305;1;3398657;1;3399682;3400706;3397634;3618818;3621890;3620866;1;3619841;1;3832833;1;3833858;3834882;3831810;4036610;4039682;4038658;1;4037633;1;4160518;4159490;4255746;4256774;1;4350982;4349954;4442114;4443142;1;4532230;4531202;4617218;4618246;1;4701190;4700162;4780034;4781062;1;4857862;4856834;4928514;4929542;1;4996102;4995074;5057538;5058566;1;5115910;5114882;5165058;5166086;1;5208070;5207042;5238786;5239814;8];
[9;10482696;10450952;1;10408968;10358792;1;10301448;10238984;1;10172424;10100744;1;10023944;9944072;1;9861128;9775112;1;9686024;9593864;1;9499656;9403400;1;9281540;9282564;9077764;9076740;1;8863748;8864772;8643588;8642564;1;8414212;8415236;8179716;8178692;1;7934980;7936004;7685124;7684100;1;7426052;7427076;7161860;7160836;1;6889476;6890500;6612996;6611972;1;6327300;6328324;6036484;6035460;1;5737476;5738500;5434372;5433348;1;190468;191492;495620;494596;1;792580;793604;1085444;1084420;1;1369092;1370116;1647620;1646596;1;1917956;1918980;2184196;2183172;1;2441220;2442244;2693124;2692100;1;2935812;2936836;3172356;3171332;1;3399684;3400708;3621892;3620868;1;3833860;3834884;4039684;4038660;1;4160520;4256776;1;4350984;4443144;1;4532232;4618248;1;4701192;4781064;1;4857864;4929544;1;4996104;5058568;1;5115912;5166088;1;5208072;5239816;8];
[9;10482694;1;10483713;10451969;10450951;1;10408966;1;10409985;10359809;10358791;1;10301446;1;10302465;10240001;10238983;1;10172422;1;10173441;10101761;10100743;1;10023942;1;10024961;9945089;1;9944070;1;9861126;1;9862145;9776129;1;9775110;1;9686022;1;9687041;9594881;1;9593862;1;9499654;1;9500673;9404417;1;9403398;1;9283585;9281539;9282562;1;9284609;9079809;1;9077762;9076739;9078785;1;8865793;8863747;8864770;1;8866817;8645633;1;8643586;8642563;8644609;1;8416257;8414211;8415234;1;8417281;8181761;1;8179714;8178691;8180737;1;7937025;7934979;7936002;1;7938049;7687169;1;7685122;7684099;7686145;1;7428097;7426051;7427074;1;7429121;7163905;1;7161858;7160835;7162881;1;6891521;6889475;6890498;1;6892545;6615041;1;6612994;6611971;6614017;1;6329345;6327299;6328322;1;6330369;6038529;1;6036482;6035459;6037505;1;5739521;5737475;5738498;1;5740545;5436417;1;5434370;5433347;5435393;1;192513;190467;191490;1;193537;497665;1;495618;494595;496641;1;794625;792579;793602;1;795649;1087489;1;1085442;1084419;1086465;1;1371137;1369091;1370114;1;1372161;1649665;1;1647618;1646595;1648641;1;1920001;1917955;1918978;1;1921025;2186241;1;2184194;2183171;2185217;1;2443265;2441219;2442242;1;2444289;2695169;1;2693122;2692099;2694145;1;2937857;2935811;2936834;1;2938881;3174401;1;3172354;3171331;3173377;1;3401729;3399683;3400706;1;3402753;3623937;1;3621890;3620867;3622913;1;3835905;3833859;3834882;1;3836929;4041729;1;4039682;4038659;4040705;1;4160518;1;4161537;4257793;1;4256774;1;4350982;1;4352001;4444161;1;4443142;1;4532230;1;4533249;4619265;1;4618246;1;4701190;1;4702209;4782081;1;4781062;1;4857863;4858881;4930561;1;4929542;1;4996103;4997121;5059585;1;5058566;1;5115911;5116929;5167105;1;5166086;1;5208071;5209089;5240833;1;5239814;8];
[9;10482693;10483715;10451971;10450949;1;10408965;10409987;10359811;10358789;1;10301445;10302467;10240003;10238981;1;10172421;10173443;10101763;10100741;1;10023941;10024963;9945091;9944069;1;9861125;9862147;9776131;9775109;1;9686021;9687043;9594883;9593861;1;9499653;9500675;9404419;9403397;1;9283587;9281537;9282561;9284611;9079811;9077761;9076737;9078787;1;8865795;8863745;8864769;8866819;8645635;8643585;8642561;8644611;1;8416259;8414209;8415233;8417283;8181763;8179713;8178689;8180739;1;7937027;7934977;7936001;7938051;7687171;7685121;7684097;7686147;1;7428099;7426049;7427073;7429123;7163907;7161857;7160833;7162883;1;6891523;6889473;6890497;6892547;6615043;6612993;6611969;6614019;1;6329347;6327297;6328321;6330371;6038531;6036481;6035457;6037507;1;5739523;5737473;5738497;5740547;5436419;5434369;5433345;5435395;1;192515;190465;191489;193539;497667;495617;494593;496643;1;794627;792577;793601;795651;1087491;1085441;1084417;1086467;1;1371139;1369089;1370113;1372163;1649667;1647617;1646593;1648643;1;1920003;1917953;1918977;1921027;2186243;2184193;2183169;2185219;1;2443267;2441217;2442241;2444291;2695171;2693121;2692097;2694147;1;2937859;2935809;2936833;2938883;3174403;3172353;3171329;3173379;1;3401731;3399681;3400705;3402755;3623939;3621889;3620865;3622915;1;3835907;3833857;3834881;3836931;4041731;4039681;4038657;4040707;1;4160517;4161539;4257795;4256773;1;4350981;4352003;4444163;4443141;1;4532229;4533251;4619267;4618245;1;4701189;4702211;4782083;4781061;1;4857861;4858883;4930563;4929541;1;4996101;4997123;5059587;5058565;1;5115909;5116931;5167107;5166085;1;5208069;5209091;5240835;5239813;8];
[9;10482691;10483717;10451973;10450947;1;10408963;10409989;10359813;10358787;1;10301443;10302469;10240005;10238979;1;10172419;10173445;10101765;10100739;1;10023939;10024965;9945093;9944067;1;9861123;9862149;9776133;9775107;1;9686019;9687045;9594885;9593859;1;9499651;9500677;9404421;9403395;1;9283587;9286657;9284612;9079811;1;9081857;9078787;1;8865795;8868865;8866820;8645635;1;8647681;8644611;1;8416259;8419329;8417284;8181763;1;8183809;8180739;1;7937027;7940097;7938052;7687171;1;7689217;7686147;1;7428099;7431169;7429124;7163907;1;7165953;7162883;1;6891523;6894593;6892548;6615043;1;6617089;6614019;1;6329347;6332417;6330372;6038532;6040577;6037507;1;5739523;5742593;5740548;5436420;5438465;5435395;1;192515;195585;193540;497668;499713;496643;1;794627;797697;795652;1087492;1089537;1086467;1;1371139;1374209;1;1372163;1649668;1651713;1648643;1;1920003;1923073;1;1921027;2186244;2188289;2185219;1;2443267;2446337;1;2444291;2695172;2697217;2694147;1;2937859;2940929;1;2938883;3174404;3176449;3173379;1;3401731;3404801;1;3402755;3623940;3625985;3622915;1;3835907;3838977;1;3836931;4041732;4043777;4040707;1;4160515;4161541;4257797;4256771;1;4350979;4352005;4444165;4443139;1;4532227;4533253;4619269;4618243;1;4701187;4702213;4782085;4781059;1;4857859;4858885;4930565;4929539;1;4996099;4997125;5059589;5058563;1;5115907;5116933;5167109;5166083;1;5208067;5209093;5240837;5239811;8];
[9;10482689;10483719;10451974;1;10450945;1;10408961;10409991;10359814;1;10358785;1;10301441;10302471;10240006;1;10238977;1;10172417;10173447;10101766;1;10100737;1;10023937;10024967;9945094;1;9944065;1;9861121;9862151;9776134;1;9775105;1;9686017;9687047;9594887;9593857;1;9499649;9500679;9404423;9403393;1;9283585;9286659;9285634;9284610;9079810;9080834;9081859;9078785;1;8865793;8868867;8867842;8866818;8645634;8646658;8647683;8644609;1;8416257;8419331;8418306;8417282;8181762;8182786;8183811;8180737;1;7937025;7940099;7939074;7938050;7687170;7688194;7689219;7686145;1;7428097;7431171;7430146;7429122;7163906;7164930;7165955;7162881;1;6891521;6894595;6893570;6892546;6615042;6616066;6617091;6614017;1;6329345;6332419;6331394;6330370;6038530;6039554;6040579;6037505;1;5739521;5742595;5741570;5740546;5436418;5437442;5438467;5435393;1;192513;195587;194562;193538;497666;498690;499715;496641;1;794625;797699;796674;795650;1087490;1088514;1089539;1086465;1;1371137;1374211;1373186;1372162;1649666;1650690;1651715;1648641;1;1920001;1923075;1922050;1921026;2186242;2187266;2188291;2185217;1;2443265;2446339;2445314;2444290;2695170;2696194;2697219;2694145;1;2937857;2940931;2939906;2938882;3174402;3175426;3176451;3173377;1;3401729;3404803;3403778;3402754;3623938;3624962;3625987;3622913;1;3835905;3838979;3837954;3836930;4041730;4042754;4043779;4040705;1;4160513;4161543;4257799;4256769;1;4350977;4352007;4444167;4443137;1;4532225;1;4533254;4619271;4618241;1;4701185;1;4702214;4782087;4781057;1;4857857;1;4858886;4930567;4929537;1;4996097;1;4997126;5059591;5058561;1;5115905;1;5116934;5167111;5166081;1;5208065;1;5209094;5240839;5239809;8];
[9;10483720;10451976;1;10409992;10359816;1;10302472;10240008;1;10173448;10101768;1;10024968;9945096;1;9862152;9776136;1;9687048;9594888;1;9500680;9404424;1;9286660;9285636;9080836;9081860;1;8868868;8867844;8646660;8647684;1;8419332;8418308;8182788;8183812;1;7940100;7939076;7688196;7689220;1;7431172;7430148;7164932;7165956;1;6894596;6893572;6616068;6617092;1;6332420;6331396;6039556;6040580;1;5742596;5741572;5437444;5438468;1;195588;194564;498692;499716;1;797700;796676;1088516;1089540;1;1374212;1373188;1650692;1651716;1;1923076;1922052;2187268;2188292;1;2446340;2445316;2696196;2697220;1;2940932;2939908;3175428;3176452;1;3404804;3403780;3624964;3625988;1;3838980;3837956;4042756;4043780;1;4161544;4257800;1;4352008;4444168;1;4533256;4619272;1;4702216;4782088;1;4858888;4930568;1;4997128;5059592;1;5116936;5167112;1;5209096;5240840;8];
[9;10484737;10483719;10451975;10452993;1;10411009;10409991;10359815;10360833;1;10303489;10302471;10240007;10241025;1;10174465;10173447;10101767;10102785;1;10025985;10024967;9945095;9946113;1;9863169;9862151;9776135;9777153;1;9688065;9687047;9594887;9595905;1;9501697;9500679;9404423;9405441;1;9288705;9286659;9285634;9287682;9082881;1;9080834;9081859;9083905;1;8870913;8868867;8867842;8869890;8648705;1;8646658;8647683;8649729;1;8421377;8419331;8418306;8420354;8184833;1;8182786;8183811;8185857;1;7942145;7940099;7939074;1;7941121;7690241;1;7688194;7689219;7691265;1;7433217;7431171;7430146;1;7432193;7166977;1;7164930;7165955;7168001;1;6896641;6894595;6893570;1;6895617;6618113;1;6616066;6617091;6619137;1;6334465;6332419;6331394;1;6333441;6041601;1;6039554;6040579;6042625;1;5744641;5742595;5741570;1;5743617;5439489;1;5437442;5438467;5440513;1;197633;195587;194562;1;196609;500737;1;498690;499715;501761;1;799745;797699;796674;1;798721;1090561;1;1088514;1089539;1091585;1;1376257;1374211;1373186;1;1375233;1652737;1;1650690;1651715;1653761;1;1925121;1923075;1922050;1;1924097;2189313;1;2187266;2188291;2190337;1;2448385;2446339;2445314;1;2447361;2698241;1;2696194;2697219;2699265;1;2942977;2940931;2939906;1;2941953;3177474;3175426;3176451;3178497;1;3406849;3404803;3403778;1;3405825;3627010;3624962;3625987;3628033;1;3841025;3838979;3837954;1;3840001;4044802;4042754;4043779;4045825;1;4162561;4161543;4257799;4258817;1;4353025;4352007;4444167;4445185;1;4534273;4533255;4619271;4620289;1;4703233;4702215;4782087;4783105;1;4859905;4858887;4930567;4931585;1;4998145;4997127;5059591;5060609;1;5117953;5116935;5167111;5168129;1;5210113;5209095;5240839;5241857;8];
[9;10484739;10483717;10451973;10452995;1;10411011;10409989;10359813;10360835;1;10303491;10302469;10240005;10241027;1;10174467;10173445;10101765;10102787;1;10025987;10024965;9945093;9946115;1;9863171;9862149;9776133;9777155;1;9688067;9687045;9594885;9595907;1;9501699;9500677;9404421;9405443;1;9288707;9286657;9285633;9287683;9082883;9080833;9081857;9083907;1;8870915;8868865;8867841;8869891;8648707;8646657;8647681;8649731;1;8421379;8419329;8418305;8420355;8184835;8182785;8183809;8185859;1;7942147;7940097;7939073;7941123;7690243;7688193;7689217;7691267;1;7433219;7431169;7430145;7432195;7166979;7164929;7165953;7168003;1;6896643;6894593;6893569;6895619;6618115;6616065;6617089;6619139;1;6334467;6332417;6331393;6333443;6041603;6039553;6040577;6042627;1;5744643;5742593;5741569;5743619;5439491;5437441;5438465;5440515;1;197635;195585;194561;196611;500739;498689;499713;501763;1;799747;797697;796673;798723;1090563;1088513;1089537;1091587;1;1376259;1374209;1373185;1375235;1652739;1650689;1651713;1653763;1;1925123;1923073;1922049;1924099;2189315;2187265;2188289;2190339;1;2448387;2446337;2445313;2447363;2698243;2696193;2697217;2699267;1;2942979;2940929;2939905;2941955;3177475;3175425;3176449;3178499;1;3406851;3404801;3403777;3405827;3627011;3624961;3625985;3628035;1;3841027;3838977;3837953;3840003;4044803;4042753;4043777;4045827;1;4162563;4161541;4257797;4258819;1;4353027;4352005;4444165;4445187;1;4534275;4533253;4619269;4620291;1;4703235;4702213;4782085;4783107;1;4859907;4858885;4930565;4931587;1;4998147;4997125;5059589;5060611;1;5117955;5116933;5167109;5168131;1;5210115;5209093;5240837;5241859;8];
[9;10484740;1;10483715;10451971;1;10452996;1;10411012;1;10409987;10359811;1;10360836;1;10303492;1;10302467;10240003;1;10241028;1;10174468;1;10173443;10101763;1;10102788;1;10025988;1;10024963;9945091;1;9946116;1;9863172;1;9862147;9776131;1;9777156;1;9688068;1;9687043;9594883;1;9595908;1;9501700;1;9500675;9404419;1;9405444;1;9288707;9289729;1;9287683;9082883;1;9084929;9083907;1;8870915;8871937;1;8869891;8648707;1;8650753;8649731;1;8421379;8422401;1;8420355;8184835;1;8186881;8185859;1;7942147;7943169;1;7941123;7690243;1;7692289;7691267;1;7433219;7434241;1;7432195;7166979;1;7169025;7168003;1;6896643;6897665;1;6895619;6618115;1;6620161;6619139;1;6334467;6335489;1;6333443;6041603;1;6043649;6042627;1;5744643;5745665;1;5743619;5439491;1;5441537;5440515;1;197635;198657;1;196611;500739;1;502785;501763;1;799747;800769;1;798723;1090563;1;1092609;1091587;1;1376259;1377281;1;1375235;1652739;1;1654785;1653763;1;1925123;1926145;1;1924099;2189315;1;2191361;2190339;1;2448387;2449409;1;2447363;2698243;1;2700289;2699267;1;2942979;2944001;1;2941955;3177475;1;3179521;3178499;1;3406851;3407873;1;3405827;3627011;1;3629057;3628035;1;3841027;3842049;1;3840003;4044803;1;4046849;4045827;1;4162564;1;4161539;4257795;1;4258820;1;4353028;1;4352003;4444163;1;4445188;1;4534276;1;4533251;4619267;1;4620292;1;4703236;1;4702211;4782083;1;4783108;1;4859908;1;4858883;4930563;1;4931588;1;4998148;1;4997123;5059587;1;5060612;1;5117956;1;5116931;5167107;1;5168132;1;5210116;1;5209091;5240835;1;5241860;8];
[9;10484742;10483714;10451970;10452998;1;10411014;10409986;10359810;10360838;1;10303494;10302466;10240002;10241030;1;10174470;10173442;10101762;10102790;1;10025990;10024962;9945090;9946118;1;9863174;9862146;9776130;9777158;1;9688070;9687042;9594882;9595910;1;9501702;9500674;9404418;9405446;1;9288705;9289731;9290754;9287682;9082882;9085954;9084931;9083905;1;8870913;8871939;8872962;8869890;8648706;8651778;8650755;8649729;1;8421377;8422403;8423426;8420354;8184834;8187906;8186883;8185857;1;7942145;7943171;7944194;7941122;7690242;7693314;7692291;7691265;1;7433217;7434243;7435266;7432194;7166978;7170050;7169027;7168001;1;6896641;6897667;6898690;6895618;6618114;6621186;6620163;6619137;1;6334465;6335491;6336514;6333442;6041602;6044674;6043651;6042625;1;5744641;5745667;5746690;5743618;5439490;5442562;5441539;5440513;1;197633;198659;199682;196610;500738;503810;502787;501761;1;799745;800771;801794;798722;1090562;1093634;1092611;1091585;1;1376257;1377283;1378306;1375234;1652738;1655810;1654787;1653761;1;1925121;1926147;1927170;1924098;2189314;2192386;2191363;2190337;1;2448385;2449411;2450434;2447362;2698242;2701314;2700291;2699265;1;2942977;2944003;2945026;2941954;3177474;3180546;3179523;3178497;1;3406849;3407875;3408898;3405826;3627010;3630082;3629059;3628033;1;3841025;3842051;3843074;3840002;4044802;4047874;4046851;4045825;1;4162566;4161538;4257794;4258822;1;4353030;4352002;4444162;4445190;1;4534278;4533250;4619266;4620294;1;4703238;4702210;4782082;4783110;1;4859910;4858882;4930562;4931590;1;4998150;4997122;5059586;5060614;1;5117958;5116930;5167106;5168134;1;5210118;5209090;5240834;5241862;8];
[9;10484744;10453000;1;10411016;10360840;1;10303496;10241032;1;10174472;10102792;1;10025992;9946120;1;9863176;9777160;1;9688072;9595912;1;9501704;9405448;1;9289732;9290756;9085956;9084932;1;8871940;8872964;8651780;8650756;1;8422404;8423428;8187908;8186884;1;7943172;7944196;7693316;7692292;1;7434244;7435268;7170052;7169028;1;6897668;6898692;6621188;6620164;1;6335492;6336516;6044676;6043652;1;5745668;5746692;5442564;5441540;1;198660;199684;503812;502788;1;800772;801796;1093636;1092612;1;1377284;1378308;1655812;1654788;1;1926148;1927172;2192388;2191364;1;2449412;2450436;2701316;2700292;1;2944004;2945028;3180548;3179524;1;3407876;3408900;3630084;3629060;1;3842052;3843076;4047876;4046852;1;4162568;4258824;1;4353032;4445192;1;4534280;4620296;1;4703240;4783112;1;4859912;4931592;1;4998152;5060616;1;5117960;5168136;1;5210120;5241864;8];
[9;10484742;10485762;10454018;10452998;1;10411014;10412034;10361858;10360838;1;10303494;10304514;10242050;10241030;1;10174470;10175490;10103810;10102790;1;10025990;10027010;9947138;9946118;1;9863174;9864194;9778178;9777158;1;9688070;9689090;9596930;9595910;1;9501702;9502722;9406466;9405446;1;9291777;9289731;9290754;9292802;9088002;9085954;9084931;9086977;1;8873985;8871939;8872962;8875010;8653826;8651778;8650755;8652801;1;8424449;8422403;8423426;8425474;8189954;8187906;8186883;8188929;1;7945217;7943171;7944194;7946242;7695362;7693314;7692291;7694337;1;7436289;7434243;7435266;7437314;7172098;7170050;7169027;7171073;1;6899713;6897667;6898690;6900738;6623234;6621186;6620163;6622209;1;6337537;6335491;6336514;6338562;6046722;6044674;6043651;6045697;1;5747713;5745667;5746690;5748738;5444610;5442562;5441539;5443585;1;200705;198659;199682;201730;505858;503810;502787;504833;1;802817;800771;801794;803842;1095682;1093634;1092611;1094657;1;1379329;1377283;1378306;1380354;1657858;1655810;1654787;1656833;1;1928193;1926147;1927170;1929218;2194434;2192386;2191363;2193409;1;2451457;2449411;2450434;2452482;2703362;2701314;2700291;2702337;1;2946049;2944003;2945026;2947074;3182594;3180546;3179523;3181569;1;3409921;3407875;3408898;3410946;3632130;3630082;3629059;3631105;1;3844097;3842051;3843074;3845122;4049922;4047874;4046851;4048897;1;4162566;4163586;4259842;4258822;1;4353030;4354050;4446210;4445190;1;4534278;4535298;4621314;4620294;1;4703238;4704258;4784130;4783110;1;4859910;4860930;4932610;4931590;1;4998150;4999170;5061634;5060614;1;5117958;5118978;5169154;5168134;1;5210118;5211138;5242882;5241862;8];
[9;10484740;1;10485763;10454019;1;10452996;1;10411012;1;10412035;10361859;1;10360836;1;10303492;1;10304515;10242051;1;10241028;1;10174468;1;10175491;10103811;1;10102788;1;10025988;1;10027011;9947139;1;9946116;1;9863172;1;9864195;9778179;1;9777156;1;9688068;1;9689091;9596931;1;9595908;1;9501700;1;9502723;9406467;1;9405444;1;9291779;9289729;1;9292803;9088003;1;9084929;9086979;1;8873987;8871937;1;8875011;8653827;1;8650753;8652803;1;8424451;8422401;1;8425475;8189955;1;8186881;8188931;1;7945219;7943169;1;7946243;7695363;1;7692289;7694339;1;7436291;7434241;1;7437315;7172099;1;7169025;7171075;1;6899715;6897665;1;6900739;6623235;1;6620161;6622211;1;6337539;6335489;1;6338563;6046723;1;6043649;6045699;1;5747715;5745665;1;5748739;5444611;1;5441537;5443587;1;200707;198657;1;201731;505859;1;502785;504835;1;802819;800769;1;803843;1095683;1;1092609;1094659;1;1379331;1377281;1;1380355;1657859;1;1654785;1656835;1;1928195;1926145;1;1929219;2194435;1;2191361;2193411;1;2451459;2449409;1;2452483;2703363;1;2700289;2702339;1;2946051;2944001;1;2947075;3182595;1;3179521;3181571;1;3409923;3407873;1;3410947;3632131;1;3629057;3631107;1;3844099;3842049;1;3845123;4049923;1;4046849;4048899;1;4162564;1;4163587;4259843;1;4258820;1;4353028;1;4354051;4446211;1;4445188;1;4534276;1;4535299;4621315;1;4620292;1;4703236;1;4704259;4784131;1;4783108;1;4859908;1;4860931;4932611;1;4931588;1;4998148;1;4999171;5061635;1;5060612;1;5117956;1;5118979;5169155;1;5168132;1;5210116;1;5211139;5242883;1;5241860;8];
[9;10484739;10485765;10454021;10452995;1;10411011;10412037;10361861;10360835;1;10303491;10304517;10242053;10241027;1;10174467;10175493;10103813;10102787;1;10025987;10027013;9947141;9946115;1;9863171;9864197;9778181;9777155;1;9688067;9689093;9596933;9595907;1;9501699;9502725;9406469;9405443;1;9291779;9294849;9293825;9292803;9088003;9089025;9090049;9086979;1;8873987;8877057;8876033;8875011;8653827;8654849;8655873;8652803;1;8424451;8427521;8426497;8425475;8189955;8190977;8192001;8188931;1;7945219;7948289;7947265;7946243;7695363;7696385;7697409;7694339;1;7436291;7439361;7438337;7437315;7172099;7173121;7174145;7171075;1;6899715;6902785;6901761;6900739;6623235;6624257;6625281;6622211;1;6337539;6340609;6339585;6338563;6046723;6047745;6048769;6045699;1;5747715;5750785;5749761;5748739;5444611;5445633;5446657;5443587;1;200707;203777;202753;201731;505859;506881;507905;504835;1;802819;805889;804865;803843;1095683;1096705;1097729;1094659;1;1379331;1382401;1381377;1380355;1657859;1658881;1659905;1656835;1;1928195;1931265;1930241;1929219;2194435;2195457;2196481;2193411;1;2451459;2454529;2453505;2452483;2703363;2704385;2705409;2702339;1;2946051;2949121;2948097;2947075;3182595;3183617;3184641;3181571;1;3409923;3412993;3411969;3410947;3632131;3633153;3634177;3631107;1;3844099;3847169;3846145;3845123;4049923;4050945;4051969;4048899;1;4162563;4163589;4259845;4258819;1;4353027;4354053;4446213;4445187;1;4534275;4535301;4621317;4620291;1;4703235;4704261;4784133;4783107;1;4859907;4860933;4932613;4931587;1;4998147;4999173;5061637;5060611;1;5117955;5118981;5169157;5168131;1;5210115;5211141;5242885;5241859;8];
[9;10484737;10485767;10454023;10452993;1;10411009;10412039;10361863;10360833;1;10303489;10304519;10242055;10241025;1;10174465;10175495;10103815;10102785;1;10025985;10027015;9947143;9946113;1;9863169;9864199;9778183;9777153;1;9688065;9689095;9596935;9595905;1;9501697;9502727;9406471;9405441;1;9291777;9294851;9293826;1;9292801;9088001;1;9089026;9090051;9086977;1;8873985;8877059;8876034;1;8875009;8653825;1;8654850;8655875;8652801;1;8424449;8427523;8426498;1;8425473;8189953;1;8190978;8192003;8188929;1;7945217;7948291;7947266;1;7946241;7695361;1;7696386;7697411;7694337;1;7436289;7439363;7438338;1;7437313;7172097;1;7173122;7174147;7171073;1;6899713;6902787;6901762;1;6900737;6623233;1;6624258;6625283;6622209;1;6337537;6340611;6339586;1;6338561;6046721;1;6047746;6048771;6045697;1;5747713;5750787;5749762;1;5748737;5444609;1;5445634;5446659;5443585;1;200705;203779;202754;1;201729;505857;1;506882;507907;504833;1;802817;805891;804866;1;803841;1095681;1;1096706;1097731;1094657;1;1379329;1382403;1381378;1;1380353;1657857;1;1658882;1659907;1656833;1;1928193;1931267;1930242;1;1929217;2194433;1;2195458;2196483;2193409;1;2451457;2454531;2453506;1;2452481;2703361;1;2704386;2705411;2702337;1;2946049;2949123;2948098;1;2947073;3182593;1;3183618;3184643;3181569;1;3409921;3412995;3411970;1;3410945;3632129;1;3633154;3634179;3631105;1;3844097;3847171;3846146;1;3845121;4049921;1;4050946;4051971;4048897;1;4162561;4163591;4259847;4258817;1;4353025;4354055;4446215;4445185;1;4534273;4535303;4621319;4620289;1;4703233;4704263;4784135;4783105;1;4859905;4860935;4932615;4931585;1;4998145;4999175;5061639;5060609;1;5117953;5118983;5169159;5168129;1;5210113;5211143;5242887;5241857;8];
[9;10485768;10454024;1;10412040;10361864;1;10304520;10242056;1;10175496;10103816;1;10027016;9947144;1;9864200;9778184;1;9689096;9596936;1;9502728;9406472;1;9294852;9293828;9089028;9090052;1;8877060;8876036;8654852;8655876;1;8427524;8426500;8190980;8192004;1;7948292;7947268;7696388;7697412;1;7439364;7438340;7173124;7174148;1;6902788;6901764;6624260;6625284;1;6340612;6339588;6047748;6048772;1;5750788;5749764;5445636;5446660;1;203780;202756;506884;507908;1;805892;804868;1096708;1097732;1;1382404;1381380;1658884;1659908;1;1931268;1930244;2195460;2196484;1;2454532;2453508;2704388;2705412;1;2949124;2948100;3183620;3184644;1;3412996;3411972;3633156;3634180;1;3847172;3846148;4050948;4051972;1;4163592;4259848;1;4354056;4446216;1;4535304;4621320;1;4704264;4784136;1;4860936;4932616;1;4999176;5061640;1;5118984;5169160;1;5211144;5242888;8];
[10;10485767;10454022;1;10455041;1;10413057;10412039;10361862;1;10362881;1;10305537;10304519;10242054;1;10243073;1;10176513;10175495;10103814;1;10104833;1;10028033;10027015;9947142;1;9948161;1;9865217;9864199;9778182;1;9779201;1;9690113;9689095;9596934;1;9597953;1;9503745;9502727;9406470;1;9407489;1;9296897;9294851;9293826;9295874;9091074;9089026;9090050;1;9092097;1;8879105;8877059;8876034;8878082;8656898;8654850;8655874;1;8657921;1;8429569;8427523;8426498;8428546;8193026;8190978;8192002;1;8194049;1;7950337;7948291;7947266;7949314;7698434;7696386;7697410;1;7699457;1;7441409;7439363;7438338;7440386;7175170;7173122;7174146;1;7176193;1;6904833;1;6902786;6901762;6903810;6626306;6624258;6625282;1;6627329;1;6342657;1;6340610;6339586;6341634;6049794;6047746;6048770;1;6050817;1;5752833;1;5750786;5749762;5751810;5447682;5445634;5446658;1;5448705;1;205825;1;203778;202754;204802;508930;506882;507906;1;509953;1;807937;1;805890;804866;806914;1098754;1096706;1097730;1;1099777;1;1384449;1;1382402;1381378;1383426;1660930;1658882;1659906;1;1661953;1;1933313;1;1931266;1930242;1932290;2197506;2195458;2196483;2198529;1;2456577;1;2454530;2453506;2455554;2706434;2704386;2705411;2707457;1;2951169;1;2949122;2948098;2950146;3185666;3183618;3184643;3186689;1;3415041;1;3412994;3411970;3414018;3635202;3633154;3634179;3636225;1;3849217;1;3847170;3846146;3848194;4052994;4050946;4051971;4054017;1;4164609;1;4163590;4259847;4260865;1;4355073;1;4354054;4446215;4447233;1;4536321;1;4535302;4621319;4622337;1;4705281;1;4704262;4784135;4785153;1;4861953;1;4860934;4932615;4933633;1;5000193;1;4999174;5061639;5062657;1;5120001;1;5118982;5169159;5170177;1;5212161;1;5211142;5242887;9];
[12;10485765;10454021;10455043;1;10413059;10412037;10361861;10362883;1;10305539;10304517;10242053;10243075;1;10176515;10175493;10103813;10104835;1;10028035;10027013;9947141;9948163;1;9865219;9864197;9778181;9779203;1;9690115;9689093;9596933;9597955;1;9503747;9502725;9406469;9407491;1;9296899;9294849;9295876;9091076;9090049;9092099;1;8879107;8877057;8878084;8656900;8655873;8657923;1;8429571;8427521;8428548;8193028;8192001;8194051;1;7950339;7948289;7949316;7698436;7697409;7699459;1;7441411;7439361;7440388;7175172;7174145;7176195;1;6904835;6902785;6903812;6626308;6625281;6627331;1;6342659;6340609;6341636;6049796;6048769;6050819;1;5752835;5750785;5751812;5447684;5446657;5448707;1;205827;203777;204804;508932;507905;509955;1;807939;805889;806916;1098756;1097729;1099779;1;1384451;1382401;1383428;1660932;1659905;1661955;1;1933315;1931265;1932292;2197508;2196481;2198531;1;2456579;2454529;2455556;2706436;2705409;2707459;1;2951171;2949121;2950148;3185668;3184641;3186691;1;3415043;3412993;3414020;3635204;3634177;3636227;1;3849219;3847169;3848196;4052996;4051969;4054019;1;4164611;4163589;4259845;4260867;1;4355075;4354053;4446213;4447235;1;4536323;4535301;4621317;4622339;1;4705283;4704261;4784133;4785155;1;4861955;4860933;4932613;4933635;1;5000195;4999173;5061637;5062659;1;5120003;5118981;5169157;5170179;1;5212163;5211141;5242885;11];
[14;10485763;10454019;10455045;1;10413061;10412035;10361859;10362885;1;10305541;10304515;10242051;10243077;1;10176517;10175491;10103811;10104837;1;10028037;10027011;9947139;9948165;1;9865221;9864195;9778179;9779205;1;9690117;9689091;9596931;9597957;1;9503749;9502723;9406467;9407493;1;9296899;9297921;9298945;9295875;9091075;9094145;9093121;9092099;1;8879107;8880129;8881153;8878083;8656899;8659969;8658945;8657923;1;8429571;8430593;8431617;8428547;8193027;8196097;8195073;8194051;1;7950339;7951361;7952385;7949315;7698435;7701505;7700481;7699459;1;7441411;7442433;7443457;7440387;7175171;7178241;7177217;7176195;1;6904835;6905857;6906881;6903811;6626307;6629377;6628353;6627331;1;6342659;6343681;6344705;6341635;6049795;6052865;6051841;6050819;1;5752835;5753857;5754881;5751811;5447683;5450753;5449729;5448707;1;205827;206849;207873;204803;508931;512001;510977;509955;1;807939;808961;809985;806915;1098755;1101825;1100801;1099779;1;1384451;1385473;1386497;1383427;1660931;1664001;1662977;1661955;1;1933315;1934337;1935361;1932291;2197507;2200577;2199553;2198531;1;2456579;2457601;2458625;2455555;2706435;2709505;2708481;2707459;1;2951171;2952193;2953217;2950147;3185667;3188737;3187713;3186691;1;3415043;3416065;3417089;3414019;3635203;3638273;3637249;3636227;1;3849219;3850241;3851265;3848195;4052995;4056065;4055041;4054019;1;4164613;4163587;4259843;4260869;1;4355077;4354051;4446211;4447237;1;4536325;4535299;4621315;4622341;1;4705285;4704259;4784131;4785157;1;4861957;4860931;4932611;4933637;1;5000197;4999171;5061635;5062661;1;5120005;5118979;5169155;5170181;1;5212165;5211139;5242883;13];
[16;10485761;10454017;10455047;1;10413062;1;10412033;10361857;10362887;1;10305542;1;10304513;10242049;10243079;1;10176518;1;10175489;10103809;10104839;1;10028038;1;10027009;9947137;9948167;1;9865222;1;9864193;9778177;9779207;1;9690118;1;9689089;9596929;9597959;1;9503750;1;9502721;9406465;9407495;1;9296897;9297923;9298946;1;9295873;9091073;9094147;9093123;9092097;1;8879105;8880131;8881154;1;8878081;8656897;8659971;8658947;8657921;1;8429569;8430595;8431618;1;8428545;8193025;8196099;8195075;8194049;1;7950337;7951363;7952386;1;7949313;7698433;7701507;7700483;7699457;1;7441409;7442435;7443458;1;7440385;7175169;7178243;7177219;7176193;1;6904833;6905859;6906882;1;6903809;6626305;6629379;6628355;6627329;1;6342657;6343683;6344706;1;6341633;6049793;6052867;6051843;6050817;1;5752833;5753859;5754882;1;5751809;5447681;5450755;5449731;5448705;1;205825;206851;207875;204801;508929;1;512002;510979;509953;1;807937;808963;809987;806913;1098753;1;1101826;1100803;1099777;1;1384449;1385475;1386499;1383425;1660929;1;1664002;1662979;1661953;1;1933313;1934339;1935363;1932289;2197505;1;2200578;2199555;2198529;1;2456577;2457603;2458627;2455553;2706433;1;2709506;2708483;2707457;1;2951169;2952195;2953219;2950145;3185665;1;3188738;3187715;3186689;1;3415041;3416067;3417091;3414017;3635201;1;3638274;3637251;3636225;1;3849217;3850243;3851267;3848193;4052993;1;4056066;4055043;4054017;1;4164615;4163585;4259841;1;4260870;1;4355079;4354049;4446209;1;4447238;1;4536327;4535297;4621313;1;4622342;1;4705287;4704257;4784129;1;4785158;1;4861959;4860929;4932609;1;4933638;1;5000199;4999169;5061633;1;5062662;1;5120007;5118977;5169153;1;5170182;1;5212167;5211137;5242881;15];
[17;10455048;1;10413064;10362888;1;10305544;10243080;1;10176520;10104840;1;10028040;9948168;1;9865224;9779208;1;9690120;9597960;1;9503752;9407496;1;9297924;9298948;9094148;9093124;1;8880132;8881156;8659972;8658948;1;8430596;8431620;8196100;8195076;1;7951364;7952388;7701508;7700484;1;7442436;7443460;7178244;7177220;1;6905860;6906884;6629380;6628356;1;6343684;6344708;6052868;6051844;1;5753860;5754884;5450756;5449732;1;206852;207876;512004;510980;1;808964;809988;1101828;1100804;1;1385476;1386500;1664004;1662980;1;1934340;1935364;2200580;2199556;1;2457604;2458628;2709508;2708484;1;2952196;2953220;3188740;3187716;1;3416068;3417092;3638276;3637252;1;3850244;3851268;4056068;4055044;1;4164616;4260872;1;4355080;4447240;1;4536328;4622344;1;4705288;4785160;1;4861960;4933640;1;5000200;5062664;1;5120008;5170184;1;5212168;16];
[17;10456066;10455046;1;10413062;10414082;10363906;10362886;1;10305542;10306562;10244098;10243078;1;10176518;10177538;10105858;10104838;1;10028038;10029058;9949186;9948166;1;9865222;9866242;9780226;9779206;1;9690118;9691138;9598978;9597958;1;9503750;9504770;9408514;9407494;1;9299969;1;9297922;9298946;9300994;9096194;9094146;9093122;1;9095169;1;8882177;1;8880130;8881154;8883202;8662018;8659970;8658946;1;8660993;1;8432641;1;8430594;8431618;8433666;8198146;8196098;8195074;1;8197121;1;7953409;1;7951362;7952386;7954434;7703554;7701506;7700482;1;7702529;1;7444481;1;7442434;7443458;7445506;7180290;7178242;7177218;1;7179265;1;6907905;1;6905858;6906882;6908930;6631426;6629378;6628354;1;6630401;1;6345729;1;6343682;6344706;6346754;6054914;6052866;6051842;1;6053889;1;5755905;1;5753858;5754882;5756930;5452802;5450754;5449730;1;5451777;1;208897;1;206850;207874;209922;514050;512002;510978;1;513025;1;811009;1;808962;809986;812034;1103874;1101826;1100802;1;1102849;1;1387521;1;1385474;1386498;1388546;1666050;1664002;1662978;1;1665025;1;1936385;1;1934338;1935362;1937410;2202626;2200578;2199554;1;2201601;1;2459649;1;2457602;2458626;2460674;2711554;2709506;2708482;1;2710529;1;2954241;1;2952194;2953218;2955266;3190786;3188738;3187714;1;3189761;1;3418113;1;3416066;3417090;3419138;3640322;3638274;3637250;1;3639297;1;3852289;1;3850242;3851266;3853314;4058114;4056066;4055042;1;4057089;1;4164614;4165634;4261890;4260870;1;4355078;4356098;4448258;4447238;1;4536326;4537346;4623362;4622342;1;4705286;4706306;4786178;4785158;1;4861958;4862978;4934658;4933638;1;5000198;5001218;5063682;5062662;1;5120006;5121026;5171202;5170182;1;5212166;5213186;16];
[17;10456068;10455044;1;10413060;10414084;10363908;10362884;1;10305540;10306564;10244100;10243076;1;10176516;10177540;10105860;10104836;1;10028036;10029060;9949188;9948164;1;9865220;9866244;9780228;9779204;1;9690116;9691140;9598980;9597956;1;9503748;9504772;9408516;9407492;1;9299971;9297921;9300996;9096196;9093121;9095171;1;8882179;8880129;8883204;8662020;8658945;8660995;1;8432643;8430593;8433668;8198148;8195073;8197123;1;7953411;7951361;7954436;7703556;7700481;7702531;1;7444483;7442433;7445508;7180292;7177217;7179267;1;6907907;6905857;6908932;6631428;6628353;6630403;1;6345731;6343681;6346756;6054916;6051841;6053891;1;5755907;5753857;5756932;5452804;5449729;5451779;1;208899;206849;209924;514052;510977;513027;1;811011;808961;812036;1103876;1100801;1102851;1;1387523;1385473;1388548;1666052;1662977;1665027;1;1936387;1934337;1937412;2202628;2199553;2201603;1;2459651;2457601;2460676;2711556;2708481;2710531;1;2954243;2952193;2955268;3190788;3187713;3189763;1;3418115;3416065;3419140;3640324;3637249;3639299;1;3852291;3850241;3853316;4058116;4055041;4057091;1;4164612;4165636;4261892;4260868;1;4355076;4356100;4448260;4447236;1;4536324;4537348;4623364;4622340;1;4705284;4706308;4786180;4785156;1;4861956;4862980;4934660;4933636;1;5000196;5001220;5063684;5062660;1;5120004;5121028;5171204;5170180;1;5212164;5213188;16];
[17;10456069;1;10455042;1;10413058;1;10414085;10363909;1;10362882;1;10305538;1;10306565;10244101;1;10243074;1;10176514;1;10177541;10105861;1;10104834;1;10028034;1;10029061;9949189;1;9948162;1;9865218;1;9866245;9780229;1;9779202;1;9690114;1;9691141;9598981;1;9597954;1;9503746;1;9504773;9408517;1;9407490;1;9299970;1;9303041;9302017;9300995;9096195;9097217;9098241;1;9095170;1;8882178;1;8885249;8884225;8883203;8662019;8663041;8664065;1;8660994;1;8432642;1;8435713;8434689;8433667;8198147;8199169;8200193;1;8197122;1;7953410;1;7956481;7955457;7954435;7703555;7704577;7705601;1;7702530;1;7444482;1;7447553;7446529;7445507;7180291;7181313;7182337;1;7179266;1;6907906;1;6910977;6909953;6908931;6631427;6632449;6633473;1;6630402;1;6345730;1;6348801;6347777;6346755;6054915;6055937;6056961;1;6053890;1;5755906;1;5758977;5757953;5756931;5452803;5453825;5454849;1;5451778;1;208898;1;211969;210945;209923;514051;515073;516097;1;513026;1;811010;1;814081;813057;812035;1103875;1104897;1105921;1;1102850;1;1387522;1;1390593;1389569;1388547;1666051;1667073;1668097;1;1665026;1;1936386;1;1939457;1938433;1937411;2202627;2203649;2204673;1;2201602;1;2459650;1;2462721;2461697;2460675;2711555;2712577;2713601;1;2710530;1;2954242;1;2957313;2956289;2955267;3190787;3191809;3192833;1;3189762;1;3418114;1;3421185;3420161;3419139;3640323;3641345;3642369;1;3639298;1;3852290;1;3855361;3854337;3853315;4058115;4059137;4060161;1;4057090;1;4164610;1;4165637;4261893;1;4260866;1;4355074;1;4356101;4448261;1;4447234;1;4536322;1;4537349;4623365;1;4622338;1;4705282;1;4706309;4786181;1;4785154;1;4861954;1;4862981;4934661;1;4933634;1;5000194;1;5001221;5063685;1;5062658;1;5120002;1;5121029;5171205;1;5170178;1;5212162;1;5213189;16];
[17;10456071;10455041;1;10413057;10414087;10363911;10362881;1;10305537;10306567;10244103;10243073;1;10176513;10177543;10105863;10104833;1;10028033;10029063;9949191;9948161;1;9865217;9866247;9780231;9779201;1;9690113;9691143;9598983;9597953;1;9503745;9504775;9408519;9407489;1;9299969;9303043;9302019;9300993;9096193;9097219;9098243;9095169;1;8882177;8885251;8884227;8883201;8662017;8663043;8664067;8660993;1;8432641;8435715;8434691;8433665;8198145;8199171;8200195;8197121;1;7953409;7956483;7955459;7954433;7703553;7704579;7705603;7702529;1;7444481;7447555;7446531;7445505;7180289;7181315;7182339;7179265;1;6907905;6910979;6909955;6908929;6631425;6632451;6633475;6630401;1;6345729;6348803;6347779;6346753;6054913;6055939;6056963;6053889;1;5755905;5758979;5757955;5756929;5452801;5453827;5454851;5451777;1;208897;211971;210947;209921;514049;515075;516099;513025;1;811009;814083;813059;812033;1103873;1104899;1105923;1102849;1;1387521;1390595;1389571;1388545;1666049;1667075;1668099;1665025;1;1936385;1939459;1938435;1937409;2202625;2203651;2204675;2201601;1;2459649;2462723;2461699;2460673;2711553;2712579;2713603;2710529;1;2954241;2957315;2956291;2955265;3190785;3191811;3192835;3189761;1;3418113;3421187;3420163;3419137;3640321;3641347;3642371;3639297;1;3852289;3855363;3854339;3853313;4058113;4059139;4060163;4057089;1;4164609;4165639;4261895;4260865;1;4355073;4356103;4448263;4447233;1;4536321;4537351;4623367;4622337;1;4705281;4706311;4786183;4785153;1;4861953;4862983;4934663;4933633;1;5000193;5001223;5063687;5062657;1;5120001;5121031;5171207;5170177;1;5212161;5213191;16];
[17;10456072;1;10414088;10363912;1;10306568;10244104;1;10177544;10105864;1;10029064;9949192;1;9866248;9780232;1;9691144;9598984;1;9504776;9408520;1;9303044;9302019;2;9097219;9098244;1;8885252;8884227;2;8663043;8664068;1;8435716;8434691;2;8199171;8200196;1;7956484;7955459;2;7704579;7705604;1;7447556;7446531;2;7181315;7182340;1;6910980;6909955;2;6632451;6633476;1;6348804;6347779;2;6055939;6056964;1;5758980;5757955;2;5453827;5454852;1;211972;210947;2;515075;516100;1;814084;813059;2;1104899;1105924;1;1390596;1389571;2;1667075;1668100;1;1939460;1938435;2;2203651;2204676;1;2462724;2461699;2;2712579;2713604;1;2957316;2956291;2;3191811;3192836;1;3421188;3420163;2;3641347;3642372;1;3855364;3854339;2;4059139;4060164;1;4165640;4261896;1;4356104;4448264;1;4537352;4623368;1;4706312;4786184;1;4862984;4934664;1;5001224;5063688;1;5121032;5171208;1;5213192;16];
[17;10456070;10457090;1;10415106;10414086;10363910;10364930;1;10307586;10306566;10244102;10245122;1;10178562;10177542;10105862;10106882;1;10030082;10029062;9949190;9950210;1;9867266;9866246;9780230;9781250;1;9692162;9691142;9598982;9600002;1;9505794;9504774;9408518;9409538;1;9305090;9303042;9302018;9304066;9099266;9097218;9098242;9100290;1;8887298;8885250;8884226;8886274;8665090;8663042;8664066;8666114;1;8437762;8435714;8434690;8436738;8201218;8199170;8200194;8202242;1;7958530;7956482;7955458;7957506;7706626;7704578;7705602;7707650;1;7449602;7447554;7446530;7448578;7183362;7181314;7182338;7184386;1;6913026;6910978;6909954;6912002;6634498;6632450;6633474;6635522;1;6350850;6348802;6347778;6349826;6057986;6055938;6056962;6059010;1;5761026;5758978;5757954;5760002;5455874;5453826;5454850;5456898;1;214018;211970;210946;212994;517122;515074;516098;518146;1;816130;814082;813058;815106;1106946;1104898;1105922;1107970;1;1392642;1390594;1389570;1391618;1669122;1667074;1668098;1670146;1;1941506;1939458;1938434;1940482;2205698;2203650;2204674;2206722;1;2464770;2462722;2461698;2463746;2714626;2712578;2713602;2715650;1;2959362;2957314;2956290;2958338;3193858;3191810;3192834;3194882;1;3423234;3421186;3420162;3422210;3643394;3641346;3642370;3644418;1;3857410;3855362;3854338;3856386;4061186;4059138;4060162;4062210;1;4166658;4165638;4261894;4262914;1;4357122;4356102;4448262;4449282;1;4538370;4537350;4623366;4624386;1;4707330;4706310;4786182;4787202;1;4864002;4862982;4934662;4935682;1;5002242;5001222;5063686;5064706;1;5122050;5121030;5171206;5172226;1;5214210;5213190;16];
[17;10456068;1;10457091;1;10415107;1;10414084;10363908;1;10364931;1;10307587;1;10306564;10244100;1;10245123;1;10178563;1;10177540;10105860;1;10106883;1;10030083;1;10029060;9949188;1;9950211;1;9867267;1;9866244;9780228;1;9781251;1;9692163;1;9691140;9598980;1;9600003;1;9505795;1;9504772;9408516;1;9409539;1;9305091;1;9304068;9099268;1;9100291;1;8887299;1;8886276;8665092;1;8666115;1;8437763;1;8436740;8201220;1;8202243;1;7958531;1;7957508;7706628;1;7707651;1;7449603;1;7448580;7183364;1;7184387;1;6913027;1;6912004;6634500;1;6635523;1;6350851;1;6349828;6057988;1;6059011;1;5761027;1;5760004;5455876;1;5456899;1;214019;1;212996;517124;1;518147;1;816131;1;815108;1106948;1;1107971;1;1392643;1;1391620;1669124;1;1670147;1;1941507;1;1940484;2205700;1;2206723;1;2464771;1;2463748;2714628;1;2715651;1;2959363;1;2958340;3193860;1;3194883;1;3423235;1;3422212;3643396;1;3644419;1;3857411;1;3856388;4061188;1;4062211;1;4166659;1;4165636;4261892;1;4262915;1;4357123;1;4356100;4448260;1;4449283;1;4538371;1;4537348;4623364;1;4624387;1;4707331;1;4706308;4786180;1;4787203;1;4864003;1;4862980;4934660;1;4935683;1;5002243;1;5001220;5063684;1;5064707;1;5122051;1;5121028;5171204;1;5172227;1;5214211;1;5213188;16];
[17;10456067;10457093;1;10415109;10414083;10363907;10364933;1;10307589;10306563;10244099;10245125;1;10178565;10177539;10105859;10106885;1;10030085;10029059;9949187;9950213;1;9867269;9866243;9780227;9781253;1;9692165;9691139;9598979;9600005;1;9505797;9504771;9408515;9409541;1;9305090;9306114;9307137;9304067;9099267;9102337;9101314;9100290;1;8887298;8888322;8889345;8886275;8665091;8668161;8667138;8666114;1;8437762;8438786;8439809;8436739;8201219;8204289;8203266;8202242;1;7958530;7959554;7960577;7957507;7706627;7709697;7708674;7707650;1;7449602;7450626;7451649;7448579;7183363;7186433;7185410;7184386;1;6913026;6914050;6915073;6912003;6634499;6637569;6636546;6635522;1;6350850;6351874;6352897;6349827;6057987;6061057;6060034;6059010;1;5761026;5762050;5763073;5760003;5455875;5458945;5457922;5456898;1;214018;215042;216065;212995;517123;520193;519170;518146;1;816130;817154;818177;815107;1106947;1110017;1108994;1107970;1;1392642;1393666;1394689;1391619;1669123;1672193;1671170;1670146;1;1941506;1942530;1943553;1940483;2205699;2208769;2207746;2206722;1;2464770;2465794;2466817;2463747;2714627;2717697;2716674;2715650;1;2959362;2960386;2961409;2958339;3193859;3196929;3195906;3194882;1;3423234;3424258;3425281;3422211;3643395;3646465;3645442;3644418;1;3857410;3858434;3859457;3856387;4061187;4064257;4063234;4062210;1;4166661;4165635;4261891;4262917;1;4357125;4356099;4448259;4449285;1;4538373;4537347;4623363;4624389;1;4707333;4706307;4786179;4787205;1;4864005;4862979;4934659;4935685;1;5002245;5001219;5063683;5064709;1;5122053;5121027;5171203;5172229;1;5214213;5213187;16];
[17;10456065;10457095;1;10415111;10414081;10363905;10364935;1;10307591;10306561;10244097;10245127;1;10178567;10177537;10105857;10106887;1;10030087;10029057;9949185;9950215;1;9867271;9866241;9780225;9781255;1;9692167;9691137;9598977;9600007;1;9505799;9504769;9408513;9409543;2;9306115;9307139;9304065;9099265;9102339;9101315;3;8888323;8889347;8886273;8665089;8668163;8667139;3;8438787;8439811;8436737;8201217;8204291;8203267;3;7959555;7960579;7957505;7706625;7709699;7708675;3;7450627;7451651;7448577;7183361;7186435;7185411;3;6914051;6915075;6912001;6634497;6637571;6636547;3;6351875;6352899;6349825;6057985;6061059;6060035;3;5762051;5763075;5760001;5455873;5458947;5457923;3;215043;216067;212993;517121;520195;519171;3;817155;818179;815105;1106945;1110019;1108995;3;1393667;1394691;1391617;1669121;1672195;1671171;3;1942531;1943555;1940481;2205697;2208771;2207747;3;2465795;2466819;2463745;2714625;2717699;2716675;3;2960387;2961411;2958337;3193857;3196931;3195907;3;3424259;3425283;3422209;3643393;3646467;3645443;3;3858435;3859459;3856385;4061185;4064259;4063235;2;4166663;4165633;4261889;4262919;1;4357127;4356097;4448257;4449287;1;4538375;4537345;4623361;4624391;1;4707335;4706305;4786177;4787207;1;4864007;4862977;4934657;4935687;1;5002247;5001217;5063681;5064711;1;5122055;5121025;5171201;5172231;1;5214215;5213185;16];
[17;10458113;10457095;1;10415111;10416129;10365953;10364935;1;10307591;10308609;10246145;10245127;1;10178567;10179585;10107905;10106887;1;10030087;10031105;9951233;9950215;1;9867271;9868289;9782273;9781255;1;9692167;9693185;9601025;9600007;1;9505799;9506817;9410561;9409543;1;9306116;9307139;9309185;9104385;9102339;9101316;1;8888324;8889347;8891393;8670209;8668163;8667140;1;8438788;8439811;8441857;8206337;8204291;8203268;1;7959556;7960579;7962625;7711745;7709699;7708676;1;7450628;7451651;7453697;7188481;7186435;7185412;1;6914052;6915075;6917121;6639617;6637571;6636548;1;6351876;6352899;6354945;6063105;6061059;6060036;1;5762052;5763075;5765121;5460993;5458947;5457924;1;215044;216067;218113;522241;520195;519172;1;817156;818179;820225;1112065;1110019;1108996;1;1393668;1394691;1396737;1674241;1672195;1671172;1;1942532;1943555;1945601;2210817;2208771;2207748;1;2465796;2466819;2468865;2719745;2717699;2716676;1;2960388;2961411;2963457;3198977;3196931;3195908;1;3424260;3425283;3427329;3648513;3646467;3645444;1;3858436;3859459;3861505;4066305;4064259;4063236;1;4166663;4167681;4263937;4262919;1;4357127;4358145;4450305;4449287;1;4538375;4539393;4625409;4624391;1;4707335;4708353;4788225;4787207;1;4864007;4865025;4936705;4935687;1;5002247;5003265;5065729;5064711;1;5122055;5123073;5173249;5172231;1;5214215;5215233;16];
[17;10458114;10457094;1;10415109;1;10416130;10365954;10364934;1;10307589;1;10308610;10246146;10245126;1;10178565;1;10179586;10107906;10106886;1;10030085;1;10031106;9951234;9950214;1;9867269;1;9868290;9782274;9781254;1;9692165;1;9693186;9601026;9600006;1;9505797;1;9506818;9410562;9409542;1;9308162;9306114;9307137;1;9309186;9104386;9102338;9101314;9103362;1;8890370;8888322;8889345;1;8891394;8670210;8668162;8667138;8669186;1;8440834;8438786;8439809;1;8441858;8206338;8204290;8203266;8205314;1;7961602;7959554;7960578;7962626;7711746;7709698;7708674;7710722;1;7452674;7450626;7451650;7453698;7188482;7186434;7185410;7187458;1;6916098;6914050;6915074;6917122;6639618;6637570;6636546;6638594;1;6353922;6351874;6352898;6354946;6063106;6061058;6060034;6062082;1;5764098;5762050;5763074;5765122;5460994;5458946;5457922;5459970;1;217090;215042;216066;218114;522242;520194;519170;521218;1;819202;817154;818178;820226;1112066;1110018;1108994;1111042;1;1395714;1393666;1394690;1396738;1674242;1672194;1671170;1673218;1;1944578;1942530;1943554;1945602;2210818;2208770;2207746;2209794;1;2467842;2465794;2466818;2468866;2719746;2717698;2716674;2718722;1;2962434;2960386;2961410;2963458;3198978;1;3196929;3195906;3197954;1;3426306;3424258;3425282;3427330;3648514;1;3646465;3645442;3647490;1;3860482;3858434;3859458;3861506;4066306;1;4064257;4063234;4065282;1;4166662;4167682;4263938;1;4262917;1;4357126;4358146;4450306;1;4449285;1;4538374;4539394;4625410;1;4624389;1;4707334;4708354;4788226;1;4787205;1;4864006;4865026;4936706;1;4935685;1;5002246;5003266;5065730;1;5064709;1;5122054;5123074;5173250;1;5172229;1;5214214;5215234;16];
[17;10458116;10457092;1;10415108;10416132;10365956;10364932;1;10307588;10308612;10246148;10245124;1;10178564;10179588;10107908;10106884;1;10030084;10031108;9951236;9950212;1;9867268;9868292;9782276;9781252;1;9692164;9693188;9601028;9600004;1;9505796;9506820;9410564;9409540;1;9308163;1;9309188;9104388;9103364;1;8890371;1;8891396;8670212;8669188;1;8440835;1;8441860;8206340;8205316;1;7961604;7962628;7711748;7710724;1;7452676;7453700;7188484;7187460;1;6916100;6917124;6639620;6638596;1;6353924;6354948;6063108;6062084;1;5764100;5765124;5460996;5459972;1;217092;218116;522244;521220;1;819204;820228;1112068;1111044;1;1395716;1396740;1674244;1673220;1;1944580;1945604;2210820;2209796;1;2467844;2468868;2719748;2718724;1;2962436;2963460;3198980;1;3197955;1;3426308;3427332;3648516;1;3647491;1;3860484;3861508;4066308;1;4065283;1;4166660;4167684;4263940;4262916;1;4357124;4358148;4450308;4449284;1;4538372;4539396;4625412;4624388;1;4707332;4708356;4788228;4787204;1;4864004;4865028;4936708;4935684;1;5002244;5003268;5065732;5064708;1;5122052;5123076;5173252;5172228;1;5214212;5215236;16];
[17;10458118;10457090;1;10415106;10416134;10365958;10364930;1;10307586;10308614;10246150;10245122;1;10178562;10179590;10107910;10106882;1;10030082;10031110;9951238;9950210;1;9867266;9868294;9782278;9781250;1;9692162;9693190;9601030;9600002;1;9505794;9506822;9410566;9409538;1;9308162;9311234;9310209;9309187;9104387;9105409;9106434;9103362;1;8890370;8893442;8892417;8891395;8670211;8671233;8672258;8669186;1;8440834;8443906;8442881;8441859;8206339;8207361;8208386;8205314;1;7961602;7964674;7963649;7962627;7711747;7712769;7713794;7710722;1;7452674;7455746;7454721;7453699;7188483;7189505;7190530;7187458;1;6916098;6919170;6918145;6917123;6639619;6640641;6641666;6638594;1;6353922;6356994;6355969;6354947;6063107;6064129;6065154;6062082;1;5764098;5767170;5766145;5765123;5460995;5462017;5463042;5459970;1;217090;220162;219137;218115;522243;523265;524290;521218;1;819202;822274;821249;820227;1112067;1113089;1114114;1111042;1;1395714;1398786;1397761;1396739;1674243;1675265;1676290;1673218;1;1944578;1947650;1946625;1945603;2210819;2211841;2212866;2209794;1;2467842;2470914;2469889;2468867;2719747;2720769;2721794;2718722;1;2962434;2965506;2964481;2963459;3198979;3200001;3201026;3197954;1;3426306;3429378;3428353;3427331;3648515;3649537;3650562;3647490;1;3860482;3863554;3862529;3861507;4066307;4067329;4068354;4065282;1;4166658;4167686;4263942;4262914;1;4357122;4358150;4450310;4449282;1;4538370;4539398;4625414;4624386;1;4707330;4708358;4788230;4787202;1;4864002;4865030;4936710;4935682;1;5002242;5003270;5065734;5064706;1;5122050;5123078;5173254;5172226;1;5214210;5215238;16];
[17;10458119;2;10416136;10365959;2;10308616;10246151;2;10179592;10107911;2;10031112;9951239;2;9868296;9782279;2;9693192;9601031;2;9506824;9410567;3;9311235;9310211;9309185;9104385;9105411;9106435;3;8893443;8892419;8891393;8670209;8671235;8672259;3;8443907;8442883;8441857;8206337;8207363;8208387;3;7964675;7963651;7962625;7711745;7712771;7713795;3;7455747;7454723;7453697;7188481;7189507;7190531;3;6919171;6918147;6917121;6639617;6640643;6641667;3;6356995;6355971;6354945;6063105;6064131;6065155;3;5767171;5766147;5765121;5460993;5462019;5463043;3;220163;219139;218113;522241;523267;524291;3;822275;821251;820225;1112065;1113091;1114115;3;1398787;1397763;1396737;1674241;1675267;1676291;3;1947651;1946627;1945601;2210817;2211843;2212867;3;2470915;2469891;2468865;2719745;2720771;2721795;3;2965507;2964483;2963457;3198977;3200003;3201027;3;3429379;3428355;3427329;3648513;3649539;3650563;3;3863555;3862531;3861505;4066305;4067331;4068355;3;4167687;4263944;2;4358151;4450312;2;4539399;4625416;2;4708359;4788232;2;4865031;4936712;2;5003271;5065736;2;5123079;5173256;2;5215239;16];
[17;10458120;1;10416136;10365960;1;10308616;10246152;1;10179592;10107912;1;10031112;9951240;1;9868296;9782280;1;9693192;9601032;1;9506824;9410568;1;9311236;9310211;9312257;9107457;9105411;9106436;1;8893444;8892419;8894465;8673281;8671235;8672260;1;8443908;8442883;8444929;8209409;8207363;8208388;1;7964676;7963651;7965697;7714817;7712771;7713796;1;7455748;7454723;7456769;7191553;7189507;7190532;1;6919172;6918147;6920193;6642689;6640643;6641668;1;6356996;6355971;6358017;6066177;6064131;6065156;1;5767172;5766147;5768193;5464065;5462019;5463044;1;220164;219139;221185;525313;523267;524292;1;822276;821251;823297;1115137;1113091;1114116;1;1398788;1397763;1399809;1677313;1675267;1676292;1;1947652;1946627;1948673;2213889;2211843;2212868;1;2470916;2469891;2471937;2722817;2720771;2721796;1;2965508;2964483;2966529;3202049;3200003;3201028;1;3429380;3428355;3430401;3651585;3649539;3650564;1;3863556;3862531;3864577;4069377;4067331;4068356;1;4167688;4263944;1;4358152;4450312;1;4539400;4625416;1;4708360;4788232;1;4865032;4936712;1;5003272;5065736;1;5123080;5173256;1;5215240;16];
[17;10458118;10459138;1;10417154;10416134;10365958;10366978;1;10309634;10308614;10246150;10247170;1;10180610;10179590;10107910;10108930;1;10032130;10031110;9951238;9952258;1;9869314;9868294;9782278;9783298;1;9694210;9693190;9601030;9602050;1;9507842;9506822;9410566;9411586;1;9313282;9311234;9310209;1;9312258;9107458;1;9105409;9106434;9108482;1;8895490;8893442;8892417;1;8894466;8673282;1;8671233;8672258;8674306;1;8445954;8443906;8442881;1;8444930;8209410;1;8207361;8208386;8210434;1;7966722;7964674;7963649;1;7965698;7714818;1;7712769;7713794;7715842;1;7457794;7455746;7454721;1;7456770;7191554;1;7189505;7190530;7192578;1;6921218;6919170;6918145;1;6920194;6642690;1;6640641;6641666;6643714;1;6359042;6356994;6355969;1;6358018;6066178;1;6064129;6065154;6067202;1;5769218;5767170;5766145;1;5768194;5464066;1;5462017;5463042;5465090;1;222210;220162;219137;1;221186;525314;1;523265;524290;526338;1;824322;822274;821249;1;823298;1115138;1;1113089;1114114;1116162;1;1400834;1398786;1397761;1;1399810;1677314;1;1675265;1676290;1678338;1;1949698;1947650;1946625;1;1948674;2213890;1;2211841;2212866;2214914;1;2472962;2470914;2469889;1;2471938;2722818;1;2720769;2721794;2723842;1;2967554;2965506;2964481;1;2966530;3202050;1;3200001;3201026;3203074;1;3431426;3429378;3428353;1;3430402;3651586;1;3649537;3650562;3652610;1;3865602;3863554;3862529;1;3864578;4069378;1;4067329;4068354;4070402;1;4168706;4167686;4263942;4264962;1;4359170;4358150;4450310;4451330;1;4540418;4539398;4625414;4626434;1;4709378;4708358;4788230;4789250;1;4866050;4865030;4936710;4937730;1;5004290;5003270;5065734;5066754;1;5124098;5123078;5173254;5174274;1;5216258;5215238;16];
[17;10458116;10459140;1;10417156;10416132;10365956;10366980;1;10309636;10308612;10246148;10247172;1;10180612;10179588;10107908;10108932;1;10032132;10031108;9951236;9952260;1;9869316;9868292;9782276;9783300;1;9694212;9693188;9601028;9602052;1;9507844;9506820;9410564;9411588;1;9313284;9312260;9107460;9108484;1;8895492;8894468;8673284;8674308;1;8445956;8444932;8209412;8210436;1;7966724;7965700;7714820;7715844;1;7457796;7456772;7191556;7192580;1;6921220;6920196;6642692;6643716;1;6359044;6358020;6066180;6067204;1;5769220;5768196;5464068;5465092;1;222212;221188;525316;526340;1;824324;823300;1115140;1116164;1;1400836;1399812;1677316;1678340;1;1949700;1948676;2213892;2214916;1;2472964;2471940;2722820;2723844;1;2967556;2966532;3202052;3203076;1;3431428;3430404;3651588;3652612;1;3865604;3864580;4069380;4070404;1;4168708;4167684;4263940;4264964;1;4359172;4358148;4450308;4451332;1;4540420;4539396;4625412;4626436;1;4709380;4708356;4788228;4789252;1;4866052;4865028;4936708;4937732;1;5004292;5003268;5065732;5066756;1;5124100;5123076;5173252;5174276;1;5216260;5215236;16];
[17;10458114;1;10459141;1;10417157;1;10416130;10365954;1;10366981;1;10309637;1;10308610;10246146;1;10247173;1;10180613;1;10179586;10107906;1;10108933;1;10032133;1;10031106;9951234;1;9952261;1;9869317;1;9868290;9782274;1;9783301;1;9694213;1;9693186;9601026;1;9602053;1;9507845;1;9506818;9410562;1;9411589;1;9313285;1;9312258;9107458;1;9110529;9109506;9108482;1;8895490;8896514;8897537;1;8894466;8673282;1;8676353;8675330;8674306;1;8445954;8446978;8448001;1;8444930;8209410;1;8212481;8211458;8210434;1;7966722;7967746;7968769;1;7965698;7714818;1;7717889;7716866;7715842;1;7457794;7458818;7459841;1;7456770;7191554;1;7194625;7193602;7192578;1;6921218;6922242;6923265;1;6920194;6642690;1;6645761;6644738;6643714;1;6359042;6360066;6361089;1;6358018;6066178;1;6069249;6068226;6067202;1;5769218;5770242;5771265;1;5768194;5464066;1;5467137;5466114;5465090;1;222210;223234;224257;1;221186;525314;1;528385;527362;526338;1;824322;825346;826369;1;823298;1115138;1;1118209;1117186;1116162;1;1400834;1401858;1402881;1;1399810;1677314;1;1680385;1679362;1678338;1;1949698;1950722;1951745;1;1948674;2213890;1;2216961;2215938;2214914;1;2472962;2473986;2475009;1;2471938;2722818;1;2725889;2724866;2723842;1;2967554;2968578;2969601;1;2966530;3202050;1;3205121;3204098;3203074;1;3431426;3432450;3433473;1;3430402;3651586;1;3654657;3653634;3652610;1;3865602;3866626;3867649;1;3864578;4069378;1;4070405;1;4168709;1;4167682;4263938;1;4264965;1;4359173;1;4358146;4450306;1;4451333;1;4540421;1;4539394;4625410;1;4626437;1;4709381;1;4708354;4788226;1;4789253;1;4866053;1;4865026;4936706;1;4937733;1;5004293;1;5003266;5065730;1;5066757;1;5124101;1;5123074;5173250;1;5174277;1;5216261;1;5215234;16];
[17;10458113;10459143;1;10417159;10416129;10365953;10366983;1;10309639;10308609;10246145;10247175;1;10180615;10179585;10107905;10108935;1;10032135;10031105;9951233;9952263;1;9869319;9868289;9782273;9783303;1;9694215;9693185;9601025;9602055;1;9507847;9506817;9410561;9411591;1;9313287;9312257;9107457;9110531;9109508;1;8896516;8897539;8894465;8673281;8676355;8675332;1;8446980;8448003;8444929;8209409;8212483;8211460;1;7967748;7968771;7965697;7714817;7717891;7716868;1;7458820;7459843;7456769;7191553;7194627;7193604;1;6922244;6923267;6920193;6642689;6645763;6644740;1;6360068;6361091;6358017;6066177;6069251;6068228;1;5770244;5771267;5768193;5464065;5467139;5466116;1;223236;224259;221185;525313;528387;527364;1;825348;826371;823297;1115137;1118211;1117188;1;1401860;1402883;1399809;1677313;1680387;1679364;1;1950724;1951747;1948673;2213889;2216963;2215940;1;2473988;2475011;2471937;2722817;2725891;2724868;1;2968580;2969603;2966529;3202049;3205123;3204100;1;3432452;3433475;3430401;3651585;3654659;3653636;1;3866628;3867651;3864577;4069377;4070407;1;4168711;4167681;4263937;4264967;1;4359175;4358145;4450305;4451335;1;4540423;4539393;4625409;4626439;1;4709383;4708353;4788225;4789255;1;4866055;4865025;4936705;4937735;1;5004295;5003265;5065729;5066759;1;5124103;5123073;5173249;5174279;1;5216263;5215233;16];
[17;10460161;10459143;1;10417159;10418177;10368001;10366983;1;10309639;10310657;10248193;10247175;1;10180615;10181633;10109953;10108935;1;10032135;10033153;9953281;9952263;1;9869319;9870337;9784321;9783303;1;9694215;9695233;9603073;9602055;1;9507847;9508865;9412609;9411591;1;9313287;9314305;9112577;9110531;9109507;3;8896515;8897539;8899585;8678401;8676355;8675331;3;8446979;8448003;8450049;8214529;8212483;8211459;3;7967747;7968771;7970817;7719937;7717891;7716867;3;7458819;7459843;7461889;7196673;7194627;7193603;3;6922243;6923267;6925313;6647809;6645763;6644739;3;6360067;6361091;6363137;6071297;6069251;6068227;3;5770243;5771267;5773313;5469185;5467139;5466115;3;223235;224259;226305;530433;528387;527363;3;825347;826371;828417;1120257;1118211;1117187;3;1401859;1402883;1404929;1682433;1680387;1679363;3;1950723;1951747;1953793;2219009;2216963;2215939;3;2473987;2475011;2477057;2727937;2725891;2724867;3;2968579;2969603;2971649;3207169;3205123;3204099;3;3432451;3433475;3435521;3656705;3654659;3653635;3;3866627;3867651;3869697;4071425;4070407;1;4168711;4169729;4265985;4264967;1;4359175;4360193;4452353;4451335;1;4540423;4541441;4627457;4626439;1;4709383;4710401;4790273;4789255;1;4866055;4867073;4938753;4937735;1;5004295;5005313;5067777;5066759;1;5124103;5125121;5175297;5174279;1;5216263;5217281;16];
[17;10460163;10459141;1;10417157;10418179;10368003;10366981;1;10309637;10310659;10248195;10247173;1;10180613;10181635;10109955;10108933;1;10032133;10033155;9953283;9952261;1;9869317;9870339;9784323;9783301;1;9694213;9695235;9603075;9602053;1;9507845;9508867;9412611;9411589;1;9313285;9314307;9112579;9110529;9109506;9111554;1;8898562;8896514;8897537;8899587;8678403;8676353;8675330;8677378;1;8449026;8446978;8448001;8450051;8214531;8212481;8211458;8213506;1;7969794;7967746;7968769;7970819;7719939;7717889;7716866;7718914;1;7460866;7458818;7459841;7461891;7196675;7194625;7193602;7195650;1;6924290;6922242;6923265;6925315;6647811;6645761;6644738;6646786;1;6362114;6360066;6361089;6363139;6071299;6069249;6068226;6070274;1;5772290;5770242;5771265;5773315;5469187;5467137;5466114;5468162;1;225282;223234;224257;226307;530435;528385;527362;529410;1;827394;825346;826369;828419;1120259;1118209;1117186;1119234;1;1403906;1401858;1402881;1404931;1682435;1680385;1679362;1681410;1;1952770;1950722;1951745;1953795;2219011;2216961;2215938;2217986;1;2476034;2473986;2475009;2477059;2727939;2725889;2724866;2726914;1;2970626;2968578;2969601;2971651;3207171;3205121;3204098;3206146;1;3434498;3432450;3433473;3435523;3656707;3654657;3653634;3655682;1;3868674;3866626;3867649;3869699;4071427;4070405;1;4168709;4169731;4265987;4264965;1;4359173;4360195;4452355;4451333;1;4540421;4541443;4627459;4626437;1;4709381;4710403;4790275;4789253;1;4866053;4867075;4938755;4937733;1;5004293;5005315;5067779;5066757;1;5124101;5125123;5175299;5174277;1;5216261;5217283;16];
[17;10460164;10459140;1;10417155;1;10418180;10368004;10366980;1;10309635;1;10310660;10248196;1;10247171;1;10180611;1;10181636;10109956;1;10108931;1;10032131;1;10033156;9953284;1;9952259;1;9869315;1;9870340;9784324;1;9783299;1;9694211;1;9695236;9603076;1;9602051;1;9507843;1;9508868;9412612;1;9411587;1;9313283;1;9314308;9112580;1;9111555;1;8898563;1;8899588;8678404;1;8677379;1;8449027;1;8450052;8214532;1;8213507;1;7969795;1;7970820;7719940;1;7718915;1;7460867;1;7461892;7196676;1;7195651;1;6924291;1;6925316;6647812;1;6646787;1;6362115;1;6363140;6071300;1;6070275;1;5772291;1;5773316;5469188;1;5468163;1;225283;1;226308;530436;1;529411;1;827395;1;828420;1120260;1;1119235;1;1403907;1;1404932;1682436;1;1681411;1;1952771;1;1953796;2219012;1;2217987;1;2476035;1;2477060;2727940;1;2726915;1;2970627;1;2971652;3207172;1;3206147;1;3434499;1;3435524;3656708;1;3655683;1;3868675;1;3869700;4071428;1;4070403;1;4168707;1;4169732;4265988;1;4264963;1;4359171;1;4360196;4452356;1;4451331;1;4540419;1;4541444;4627460;1;4626435;1;4709379;1;4710404;4790276;1;4789251;1;4866051;1;4867076;4938756;1;4937731;1;5004291;1;5005316;5067780;1;5066755;1;5124100;5125124;5175300;1;5174275;1;5216260;5217284;16];
[17;10460166;10459138;1;10417154;10418182;10368006;10366978;1;10309634;10310662;10248198;10247170;1;10180610;10181638;10109958;10108930;1;10032130;10033158;9953286;9952258;1;9869314;9870342;9784326;9783298;1;9694210;9695238;9603078;9602050;1;9507842;9508870;9412614;9411586;1;9313282;9314310;9112582;9111554;1;8898562;8901634;8900610;8899586;8678402;8679426;8680450;8677378;1;8449026;8452098;8451074;8450050;8214530;8215554;8216578;8213506;1;7969794;7972866;7971842;7970818;7719938;7720962;7721986;7718914;1;7460866;7463938;7462914;7461890;7196674;7197698;7198722;7195650;1;6924290;6927362;6926338;6925314;6647810;6648834;6649858;6646786;1;6362114;6365186;6364162;6363138;6071298;6072322;6073346;6070274;1;5772290;5775362;5774338;5773314;5469186;5470210;5471234;5468162;1;225282;228354;227330;226306;530434;531458;532482;529410;1;827394;830466;829442;828418;1120258;1121282;1122306;1119234;1;1403906;1406978;1405954;1404930;1682434;1683458;1684482;1681410;1;1952770;1955842;1954818;1953794;2219010;2220034;2221058;2217986;1;2476034;2479106;2478082;2477058;2727938;2728962;2729986;2726914;1;2970626;2973698;2972674;2971650;3207170;3208194;3209218;3206146;1;3434498;3437570;3436546;3435522;3656706;3657730;3658754;3655682;1;3868674;3869702;4071430;4070402;1;4168706;4169734;4265990;4264962;1;4359170;4360198;4452358;4451330;1;4540418;4541446;4627462;4626434;1;4709378;4710406;4790278;4789250;1;4866050;4867078;4938758;4937730;1;5004290;5005318;5067782;5066754;1;5124098;5125126;5175302;5174274;1;5216258;5217286;16];
[17;10460168;1;10418184;10368008;1;10310664;10248200;1;10181640;10109960;1;10033160;9953288;1;9870344;9784328;1;9695240;9603080;1;9508872;9412616;1;9314312;9112584;1;8901636;8900611;8899585;1;8679427;8680452;1;8452100;8451075;8450049;1;8215555;8216580;1;7972868;7971843;7970817;1;7720963;7721988;1;7463940;7462915;7461889;1;7197699;7198724;1;6927364;6926339;6925313;1;6648835;6649860;1;6365188;6364163;6363137;1;6072323;6073348;1;5775364;5774339;5773313;5469185;5470211;5471236;1;228356;227331;226305;530433;531459;532484;1;830468;829443;1;1120257;1121283;1122308;1;1406980;1405955;1;1682433;1683459;1684484;1;1955844;1954819;1;2219009;2220035;2221060;1;2479108;2478083;1;2727937;2728963;2729988;1;2973700;2972675;1;3207169;3208195;3209220;1;3437572;3436547;1;3656705;3657731;3658756;1;3869704;4071432;1;4169736;4265992;1;4360200;4452360;1;4541448;4627464;1;4710408;4790280;1;4867080;4938760;1;5005320;5067784;1;5125128;5175304;1;5217288;16];
[17;10460167;3;10418183;10368007;10369025;2;10310663;10248199;10249217;2;10181639;10109959;10110977;2;10033159;9953287;9954305;2;9870343;9784327;9785345;1;9696257;9695239;9603079;9604097;1;9509889;9508871;9412615;9413633;1;9315329;9314311;9112583;9113601;1;8903681;8901635;8900611;8902657;8681473;8679427;8680451;8682497;1;8454145;8452099;8451075;8453121;8217601;8215555;8216579;8218625;1;7974913;7972867;7971843;7973889;7723009;7720963;7721987;7724033;1;7465985;7463939;7462915;7464961;7199745;7197699;7198723;7200769;1;6929409;6927363;6926339;6928385;6650881;6648835;6649859;6651905;1;6367233;6365187;6364163;6366209;6074369;6072323;6073347;6075393;1;5777409;5775363;5774339;5776385;5472257;5470211;5471235;5473281;1;230401;228355;227331;229377;533505;531459;532483;534529;1;832513;830467;829443;831489;1123329;1121283;1122307;1124353;1;1409025;1406979;1405955;1408001;1685505;1683459;1684483;1686529;1;1957889;1955843;1954819;1956865;2222081;2220035;2221059;2223105;1;2481153;2479107;2478083;2480129;2731009;2728963;2729987;2732033;1;2975745;2973699;2972675;2974721;3210241;3208195;3209219;3211265;1;3439617;3437571;3436547;3438593;3659777;3657731;3658755;3660801;1;3870721;3869703;4071431;4072449;1;4170753;4169735;4265991;4267009;1;4361217;4360199;4452359;4453377;1;4542465;4541447;4627463;2;4711425;4710407;4790279;2;4868097;4867079;4938759;2;5006337;5005319;5067783;2;5126145;5125127;5175303;3;5217287;16];
[17;10460165;4;10419202;10418182;10368006;10369026;1;10311682;10310662;10248198;10249218;1;10182658;10181638;10109958;10110978;1;10034178;10033158;9953286;9954306;1;9871362;9870342;9784326;9785346;1;9696258;9695238;9603078;9604098;1;9509890;9508870;9412614;9413634;1;9315330;9314310;9112582;9113602;1;8903682;8901634;8900609;8902659;8681475;8679425;8680450;8682498;1;8454146;8452098;8451073;8453123;8217603;8215553;8216578;8218626;1;7974914;7972866;7971841;7973891;7723011;7720961;7721986;7724034;1;7465986;7463938;7462913;7464963;7199747;7197697;7198722;7200770;1;6929410;6927362;6926337;6928387;6650883;6648833;6649858;6651906;1;6367234;6365186;6364161;6366211;6074371;6072321;6073346;6075394;1;5777410;5775362;5774337;5776387;5472259;5470209;5471234;5473282;1;230402;228354;227329;229379;533507;531457;532482;534530;1;832514;830466;829441;831491;1123331;1121281;1122306;1124354;1;1409026;1406978;1405953;1408003;1685507;1683457;1684482;1686530;1;1957890;1955842;1954817;1956867;2222083;2220033;2221058;2223106;1;2481154;2479106;2478081;2480131;2731011;2728961;2729986;2732034;1;2975746;2973698;2972673;2974723;3210243;3208193;3209218;3211266;1;3439618;3437570;3436545;3438595;3659779;3657729;3658754;3660802;1;3870722;3869702;4071430;4072450;1;4170754;4169734;4265990;4267010;1;4361218;4360198;4452358;4453378;1;4542466;4541446;4627462;4628482;1;4711426;4710406;4790278;4791298;1;4868098;4867078;4938758;4939778;1;5006338;5005318;5067782;5068802;1;5126146;5125126;5175302;5176322;4;5217285;16];
[17;10460164;5;10419204;10418180;10368004;10369028;1;10311684;10310660;10248196;10249220;1;10182660;10181636;10109956;10110980;1;10034180;10033156;9953284;9954308;1;9871364;9870340;9784324;9785348;1;9696260;9695236;9603076;9604100;1;9509892;9508868;9412612;9413636;1;9315332;9314308;9112580;9113604;1;8903684;8902660;8681476;1;8682499;1;8454147;8455169;8453124;8217604;1;8218627;1;7974915;7975937;7973892;7723012;1;7724035;1;7465987;7467009;7464964;7199748;1;7200771;1;6929411;1;6928388;6650884;1;6651907;1;6367235;1;6366212;6074372;1;6075395;1;5777411;1;5776388;5472260;1;5473283;1;230403;1;229380;533508;1;534531;1;832515;1;831492;1123332;1;1124355;1;1409027;1;1408004;1685508;1;1686531;1;1957891;1;1956868;2222084;2224129;2223107;1;2481155;1;2480132;2731012;2733057;2732035;1;2975747;1;2974724;3210244;3212289;3211267;1;3439619;1;3438596;3659780;3660804;1;3870724;3869700;4071428;4072452;1;4170756;4169732;4265988;4267012;1;4361220;4360196;4452356;4453380;1;4542468;4541444;4627460;4628484;1;4711428;4710404;4790276;4791300;1;4868100;4867076;4938756;4939780;1;5006340;5005316;5067780;5068804;1;5126148;5125124;5175300;5176324;5;5217284;16];
[17;10460162;7;10419206;10418178;10368002;10369030;1;10311686;10310658;10248194;10249222;1;10182662;10181634;10109954;10110982;1;10034182;10033154;9953282;9954310;1;9871366;9870338;9784322;9785350;1;9696262;9695234;9603074;9604102;1;9509894;9508866;9412610;9413638;1;9315334;9314306;9112578;9113606;1;8903686;8902658;8681474;8684546;8683522;8682498;1;8454146;8455170;8456194;8453122;8217602;8220674;8219650;8218626;1;7974914;7975938;7976962;7973890;7723010;7726082;7725058;7724034;1;7465986;7467010;7468034;7464962;7199746;7202818;7201794;7200770;1;6929410;6930434;6931458;6928386;6650882;6653954;6652930;6651906;1;6367234;6368258;6369282;6366210;6074370;6077442;6076418;6075394;1;5777410;5778434;5779458;5776386;5472258;5475330;5474306;5473282;1;230402;231426;232450;229378;533506;536578;535554;534530;1;832514;833538;834562;831490;1123330;1126402;1125378;1124354;1;1409026;1410050;1411074;1408002;1685506;1688578;1687554;1686530;1;1957890;1958914;1959938;1956866;2222082;2225154;2224130;2223106;1;2481154;2482178;2483202;2480130;2731010;2734082;2733058;2732034;1;2975746;2976770;2977794;2974722;3210242;3213314;3212290;3211266;1;3439618;3440642;3441666;3438594;3659778;3660806;1;3870726;3869698;4071426;4072454;1;4170758;4169730;4265986;4267014;1;4361222;4360194;4452354;4453382;1;4542470;4541442;4627458;4628486;1;4711430;4710402;4790274;4791302;1;4868102;4867074;4938754;4939782;1;5006342;5005314;5067778;5068806;1;5126150;5125122;5175298;5176326;7;5217282;16];
[26;10419207;2;10369031;1;10311687;2;10249223;1;10182663;2;10110983;1;10034183;2;9954311;1;9871367;2;9785351;1;9696263;2;9604103;1;9509895;2;9413639;1;9315335;2;9113607;1;8903687;2;8684547;8683524;1;8455172;8456195;2;8220675;8219652;1;7975940;7976963;2;7726083;7725060;1;7467012;7468035;2;7202819;7201796;1;6930436;6931459;2;6653955;6652932;1;6368260;6369283;2;6077443;6076420;1;5778436;5779459;2;5475331;5474308;1;231428;232451;2;536579;535556;1;833540;834563;2;1126403;1125380;1;1410052;1411075;2;1688579;1687556;1;1958916;1959939;2;2225155;2224132;1;2482180;2483203;2;2734083;2733060;1;2976772;2977795;2;3213315;3212292;1;3440644;3441667;2;3660807;1;3870727;2;4072455;1;4170759;2;4267015;1;4361223;2;4453383;1;4542471;2;4628487;1;4711431;2;4791303;1;4868103;2;4939783;1;5006343;2;5068807;1;5126151;2;5176327;25];
[26;10419207;10420225;10370049;10369031;1;10311687;10312705;10250241;10249223;1;10182663;10183681;10112001;10110983;1;10034183;10035201;9955329;9954311;1;9871367;9872385;9786369;9785351;1;9696263;9697281;9605121;9604103;1;9509895;9510913;9414657;9413639;1;9315335;9316353;9114625;9113607;1;8903687;8904705;8686593;8684547;8683523;8685569;1;8457217;8455171;8456195;8458241;8222721;8220675;8219651;8221697;1;7977985;7975939;7976963;7979009;7728129;7726083;7725059;7727105;1;7469057;7467011;7468035;7470081;7204865;7202819;7201795;7203841;1;6932481;6930435;6931459;6933505;6656001;6653955;6652931;6654977;1;6370305;6368259;6369283;6371329;6079489;6077443;6076419;6078465;1;5780481;5778435;5779459;5781505;5477377;5475331;5474307;5476353;1;233473;231427;232451;234497;538625;536579;535555;537601;1;835585;833539;834563;836609;1128449;1126403;1125379;1127425;1;1412097;1410051;1411075;1413121;1690625;1688579;1687555;1689601;1;1960961;1958915;1959939;1961985;2227201;2225155;2224131;2226177;1;2484225;2482179;2483203;2485249;2736129;2734083;2733059;2735105;1;2978817;2976771;2977795;2979841;3215361;3213315;3212291;3214337;1;3442689;3440643;3441667;3443713;3661825;3660807;1;3870727;3871745;4073473;4072455;1;4170759;4171777;4268033;4267015;1;4361223;4362241;4454401;4453383;1;4542471;4543489;4629505;4628487;1;4711431;4712449;4792321;4791303;1;4868103;4869121;4940801;4939783;1;5006343;5007361;5069825;5068807;1;5126151;5127169;5177345;5176327;25];
[26;10419205;10420227;10370051;10369029;1;10311685;10312707;10250243;10249221;1;10182661;10183683;10112003;10110981;1;10034181;10035203;9955331;9954309;1;9871365;9872387;9786371;9785349;1;9696261;9697283;9605123;9604101;1;9509893;9510915;9414659;9413637;1;9315333;9316355;9114627;9113605;1;8903685;8904707;8686595;8684545;8683521;1;8685570;1;8457218;1;8455169;8456193;8458243;8222723;8220673;8219649;1;8221698;1;7977986;1;7975937;7976961;7979011;7728131;7726081;7725057;1;7727106;1;7469058;1;7467009;7468033;7470083;7204867;7202817;7201793;1;7203842;1;6932482;1;6930433;6931457;6933507;6656003;6653953;6652929;1;6654978;1;6370306;1;6368257;6369281;6371331;6079491;6077441;6076417;1;6078466;1;5780482;1;5778433;5779457;5781507;5477379;5475329;5474305;1;5476354;1;233474;1;231425;232449;234499;538627;536577;535553;1;537602;1;835586;1;833537;834561;836611;1128451;1126401;1125377;1;1127426;1;1412098;1;1410049;1411073;1413123;1690627;1688577;1687553;1;1689602;1;1960962;1;1958913;1959937;1961987;2227203;2225153;2224129;1;2226178;1;2484226;1;2482177;2483201;2485251;2736131;2734081;2733057;1;2735106;1;2978818;1;2976769;2977793;2979843;3215363;3213313;3212289;1;3214338;1;3442690;1;3440641;3441665;3443715;3661827;3660805;1;3870725;3871747;4073475;4072453;1;4170757;4171779;4268035;4267013;1;4361221;4362243;4454403;4453381;1;4542469;4543491;4629507;4628485;1;4711429;4712451;4792323;4791301;1;4868101;4869123;4940803;4939781;1;5006341;5007363;5069827;5068805;1;5126149;5127171;5177347;5176325;25];
[26;10419203;10420229;10370053;10369027;1;10311683;10312709;10250245;10249219;1;10182659;10183685;10112005;10110979;1;10034179;10035205;9955333;9954307;1;9871363;9872389;9786373;9785347;1;9696259;9697285;9605125;9604099;1;9509891;9510917;9414661;9413635;1;9315331;9316357;9114629;9113603;1;8903683;8904709;8686597;8685571;1;8457219;8460289;8458244;8222724;8224769;8221699;1;7977987;7981057;7979012;7728132;7730177;7727107;1;7469059;7472129;7470084;7204868;7206913;7203843;1;6932483;6935553;6933508;6656004;6658049;6654979;1;6370307;6373377;6371332;6079492;6081537;6078467;1;5780483;5783553;5781508;5477380;5479425;5476355;1;233475;236545;234500;538628;540673;537603;1;835587;838657;836612;1128452;1130497;1127427;1;1412099;1415169;1413124;1690628;1692673;1689603;1;1960963;1964033;1961988;2227204;2229249;2226179;1;2484227;2487297;2485252;2736132;2738177;2735107;1;2978819;2981889;2979844;3215364;3217409;3214339;1;3442691;3443717;3661829;3660803;1;3870723;3871749;4073477;4072451;1;4170755;4171781;4268037;4267011;1;4361219;4362245;4454405;4453379;1;4542467;4543493;4629509;4628483;1;4711427;4712453;4792325;4791299;1;4868099;4869125;4940805;4939779;1;5006339;5007365;5069829;5068803;1;5126147;5127173;5177349;5176323;25];
[26;10419201;1;10420230;10370054;1;10369025;1;10311681;1;10312710;10250246;1;10249217;1;10182657;1;10183686;10112006;1;10110977;1;10034177;1;10035206;9955334;1;9954305;1;9871361;1;9872390;9786374;1;9785345;1;9696257;1;9697286;9605126;1;9604097;1;9509889;1;9510918;9414662;1;9413633;1;9315329;1;9316358;9114630;1;9113601;1;8903681;1;8904710;8686598;1;8685569;1;8457217;1;8460290;8459266;8458242;8222722;8223746;8224770;1;8221697;1;7977985;1;7981058;7980034;7979010;7728130;7729154;7730178;1;7727105;1;7469057;1;7472130;7471106;7470082;7204866;7205890;7206914;1;7203841;1;6932481;1;6935554;6934530;6933506;6656002;6657026;6658050;1;6654977;1;6370305;1;6373378;6372354;6371330;6079490;6080514;6081538;1;6078465;1;5780481;1;5783554;5782530;5781506;5477378;5478402;5479426;1;5476353;1;233473;1;236546;235522;234498;538626;539650;540674;1;537601;1;835585;1;838658;837634;836610;1128450;1129474;1130498;1;1127425;1;1412097;1;1415170;1414146;1413122;1690626;1691650;1692674;1;1689601;1;1960961;1;1964034;1963010;1961986;2227202;2228226;2229250;1;2226177;1;2484225;1;2487298;2486274;2485250;2736130;2737154;2738178;1;2735105;1;2978817;1;2981890;2980866;2979842;3215362;3216386;3217410;1;3214337;1;3442689;1;3443718;3661830;1;3660801;1;3870721;1;3871750;4073478;1;4072449;1;4170753;1;4171782;4268038;1;4267009;1;4361217;1;4362246;4454406;1;4453377;1;4542465;1;4543494;4629510;1;4628481;1;4711425;1;4712454;4792326;1;4791297;1;4868097;1;4869126;4940806;1;4939777;1;5006337;1;5007366;5069830;1;5068801;1;5126145;1;5127174;5177350;1;5176321;25];
[26;10420232;10370056;1;10312712;10250248;1;10183688;10112008;1;10035208;9955336;1;9872392;9786376;1;9697288;9605128;1;9510920;9414664;1;9316360;9114632;1;8904712;8686600;1;8460292;8459268;8223748;8224772;1;7981060;7980036;7729156;7730180;1;7472132;7471108;7205892;7206916;1;6935556;6934532;6657028;6658052;1;6373380;6372356;6080516;6081540;1;5783556;5782532;5478404;5479428;1;236548;235524;539652;540676;1;838660;837636;1129476;1130500;1;1415172;1414148;1691652;1692676;1;1964036;1963012;2228228;2229252;1;2487300;2486276;2737156;2738180;1;2981892;2980868;3216388;3217412;1;3443720;3661832;1;3871752;4073480;1;4171784;4268040;1;4362248;4454408;1;4543496;4629512;1;4712456;4792328;1;4869128;4940808;1;5007368;5069832;1;5127176;5177352;25];
[26;10421249;10420231;10370055;10371073;1;10313729;10312711;10250247;10251265;1;10184705;10183687;10112007;10113025;1;10036225;10035207;9955335;9956353;1;9873409;9872391;9786375;9787393;1;9698305;9697287;9605127;9606145;1;9511937;9510919;9414663;9415681;1;9317377;9316359;9114631;9115649;1;8905729;8904711;8686599;8687617;1;8462337;8460291;8459266;1;8461313;8225793;1;8223746;8224771;8226817;1;7983105;7981059;7980034;1;7982081;7731201;1;7729154;7730179;7732225;1;7474177;7472131;7471106;1;7473153;7207937;1;7205890;7206915;7208961;1;6937601;6935555;6934530;1;6936577;6659073;1;6657026;6658051;6660097;1;6375425;6373379;6372354;1;6374401;6082561;1;6080514;6081539;6083585;1;5785601;5783555;5782530;1;5784577;5480449;1;5478402;5479427;5481473;1;238593;236547;235522;1;237569;541697;1;539650;540675;542721;1;840705;838659;837634;1;839681;1131521;1;1129474;1130499;1132545;1;1417217;1415171;1414146;1;1416193;1693697;1;1691650;1692675;1694721;1;1966081;1964035;1963010;1;1965057;2230273;1;2228226;2229251;2231297;1;2489345;2487299;2486274;1;2488321;2739201;1;2737154;2738179;2740225;1;2983937;2981891;2980866;1;2982913;3218433;1;3216386;3217411;3219457;1;3444737;3443719;3661831;3662849;1;3872769;3871751;4073479;4074497;1;4172801;4171783;4268039;4269057;1;4363265;4362247;4454407;4455425;1;4544513;4543495;4629511;4630529;1;4713473;4712455;4792327;4793345;1;4870145;4869127;4940807;4941825;1;5008385;5007367;5069831;5070849;1;5128193;5127175;5177351;5178369;25];
[26;10421251;10420229;10370053;10371075;1;10313731;10312709;10250245;10251267;1;10184707;10183685;10112005;10113027;1;10036227;10035205;9955333;9956355;1;9873411;9872389;9786373;9787395;1;9698307;9697285;9605125;9606147;1;9511939;9510917;9414661;9415683;1;9317379;9316357;9114629;9115651;1;8905731;8904709;8686597;8687619;1;8462339;8460289;8459265;8461315;8225795;8223745;8224769;8226819;1;7983107;7981057;7980033;7982083;7731203;7729153;7730177;7732227;1;7474179;7472129;7471105;7473155;7207939;7205889;7206913;7208963;1;6937603;6935553;6934529;6936579;6659075;6657025;6658049;6660099;1;6375427;6373377;6372353;6374403;6082563;6080513;6081537;6083587;1;5785603;5783553;5782529;5784579;5480451;5478401;5479425;5481475;1;238595;236545;235521;237571;541699;539649;540673;542723;1;840707;838657;837633;839683;1131523;1129473;1130497;1132547;1;1417219;1415169;1414145;1416195;1693699;1691649;1692673;1694723;1;1966083;1964033;1963009;1965059;2230275;2228225;2229249;2231299;1;2489347;2487297;2486273;2488323;2739203;2737153;2738177;2740227;1;2983939;2981889;2980865;2982915;3218435;3216385;3217409;3219459;1;3444739;3443717;3661829;3662851;1;3872771;3871749;4073477;4074499;1;4172803;4171781;4268037;4269059;1;4363267;4362245;4454405;4455427;1;4544515;4543493;4629509;4630531;1;4713475;4712453;4792325;4793347;1;4870147;4869125;4940805;4941827;1;5008387;5007365;5069829;5070851;1;5128195;5127173;5177349;5178371;25];
[26;10421252;10420228;10370051;1;10371076;1;10313732;10312708;10250243;1;10251268;1;10184708;10183684;10112003;1;10113028;1;10036228;10035204;9955331;1;9956356;1;9873412;9872388;9786371;1;9787396;1;9698308;9697284;9605123;1;9606148;1;9511940;9510916;9414659;1;9415684;1;9317380;9316356;9114627;1;9115652;1;8905732;8904708;8686595;1;8687620;1;8462340;8461316;8225795;1;8227841;8226819;1;7983107;7984129;7982084;7731203;1;7733249;7732227;1;7474179;7475201;1;7473155;7207939;1;7209985;7208963;1;6937603;6938625;1;6936579;6659075;1;6661121;6660099;1;6375427;6376449;1;6374403;6082563;1;6084609;6083587;1;5785603;5786625;1;5784579;5480451;1;5482497;5481475;1;238595;239617;1;237571;541699;1;543745;542723;1;840707;841729;1;839683;1131523;1;1133569;1132547;1;1417219;1418241;1;1416195;1693699;1;1695745;1694723;1;1966083;1967105;1;1965059;2230275;1;2232321;2231299;1;2489347;2490369;1;2488323;2739204;2741249;2740227;1;2983939;2984961;1;2982915;3218436;3219460;1;3444740;1;3443715;3661828;3662852;1;3872772;1;3871747;4073476;4074500;1;4172804;1;4171779;4268036;4269060;1;4363268;1;4362243;4454404;4455428;1;4544516;1;4543491;4629508;4630532;1;4713476;1;4712451;4792324;4793348;1;4870148;1;4869123;4940804;4941828;1;5008388;1;5007363;5069828;5070852;1;5128196;1;5127171;5177348;5178372;25];
[26;10421254;10420226;10370050;10371078;1;10313734;10312706;10250242;10251270;1;10184710;10183682;10112002;10113030;1;10036230;10035202;9955330;9956358;1;9873414;9872386;9786370;9787398;1;9698310;9697282;9605122;9606150;1;9511942;9510914;9414658;9415686;1;9317382;9316354;9114626;9115654;1;8905734;8904706;8686594;8687622;1;8462342;8461314;8225794;8228866;8227843;8226817;1;7983105;7984131;7985154;7982082;7731202;7734274;7733251;7732225;1;7474177;7475203;7476226;7473154;7207938;7211010;7209987;7208961;1;6937601;6938627;6939650;6936578;6659074;6662146;6661123;6660097;1;6375425;6376451;6377474;6374402;6082562;6085634;6084611;6083585;1;5785601;5786627;5787650;5784578;5480450;5483522;5482499;5481473;1;238593;239619;240642;237570;541698;544770;543747;542721;1;840705;841731;842754;839682;1131522;1134594;1133571;1132545;1;1417217;1418243;1419266;1416194;1693698;1696770;1695747;1694721;1;1966081;1967107;1968130;1965058;2230274;2233346;2232323;2231297;1;2489345;2490371;2491394;2488322;2739202;2742274;2741251;2740225;1;2983937;2984963;2985986;2982914;3218434;3219462;1;3444742;3443714;3661826;3662854;1;3872774;3871746;4073474;4074502;1;4172806;4171778;4268034;4269062;1;4363270;4362242;4454402;4455430;1;4544518;4543490;4629506;4630534;1;4713478;4712450;4792322;4793350;1;4870150;4869122;4940802;4941830;1;5008390;5007362;5069826;5070854;1;5128198;5127170;5177346;5178374;25];
[26;10421256;10371080;1;10313736;10251272;1;10184712;10113032;1;10036232;9956360;1;9873416;9787400;1;9698312;9606152;1;9511944;9415688;1;9317384;9115656;1;8905736;8687624;1;8462344;8228868;8227844;1;7984132;7985156;7734276;7733252;1;7475204;7476228;7211012;7209988;1;6938628;6939652;6662148;6661124;1;6376452;6377476;6085636;6084612;1;5786628;5787652;5483524;5482500;1;239620;240644;544772;543748;1;841732;842756;1134596;1133572;1;1418244;1419268;1696772;1695748;1;1967108;1968132;2233348;2232324;1;2490372;2491396;2742276;2741252;1;2984964;2985988;3219464;1;3444744;3662856;1;3872776;4074504;1;4172808;4269064;1;4363272;4455432;1;4544520;4630536;1;4713480;4793352;1;4870152;4941832;1;5008392;5070856;1;5128200;5178376;25];
[26;10421254;10422274;10372097;1;10371078;1;10313734;10314754;10252289;1;10251270;1;10184710;10185730;10114049;1;10113030;1;10036230;10037250;9957377;1;9956358;1;9873414;9874434;9788417;1;9787398;1;9698310;9699330;9607169;1;9606150;1;9511942;9512962;9416705;1;9415686;1;9317382;9318402;9116673;1;9115654;1;8905734;8906754;8688641;1;8687622;1;8462342;8463362;8230913;1;8228866;8227843;8229889;1;7986177;7984131;7985154;7987202;7736321;1;7734274;7733251;7735297;1;7477249;7475203;7476226;7478274;7213057;1;7211010;7209987;7212033;1;6940673;6938627;6939650;6941698;6664193;1;6662146;6661123;6663169;1;6378497;6376451;6377474;6379522;6087682;6085634;6084611;6086657;1;5788673;5786627;5787650;5789698;5485570;5483522;5482499;5484545;1;241665;239619;240642;242690;546818;544770;543747;545793;1;843777;841731;842754;844802;1136642;1134594;1133571;1135617;1;1420289;1418243;1419266;1;1421313;1698818;1696770;1695747;1697793;1;1969153;1967107;1968130;1;1970177;2235394;2233346;2232323;2234369;1;2492417;2490371;2491394;1;2493441;2744322;2742274;2741251;2743297;1;2987009;2984963;2985986;1;2988033;3220482;3219462;1;3444742;1;3445761;3663874;3662854;1;3872774;1;3873793;4075522;4074502;1;4172806;1;4173825;4270082;4269062;1;4363270;1;4364289;4456450;4455430;1;4544518;1;4545537;4631554;4630534;1;4713478;1;4714497;4794370;4793350;1;4870150;1;4871169;4942850;4941830;1;5008390;1;5009409;5071874;5070854;1;5128198;1;5129217;5179394;5178374;25];
[26;10421253;10422275;10372099;10371077;1;10313733;10314755;10252291;10251269;1;10184709;10185731;10114051;10113029;1;10036229;10037251;9957379;9956357;1;9873413;9874435;9788419;9787397;1;9698309;9699331;9607171;9606149;1;9511941;9512963;9416707;9415685;1;9317381;9318403;9116675;9115653;1;8905733;8906755;8688643;8687621;1;8462341;8463363;8230915;8228865;8227841;8229891;1;7986179;7984129;7985153;7987203;7736323;7734273;7733249;7735299;1;7477251;7475201;7476225;7478275;7213059;7211009;7209985;7212035;1;6940675;6938625;6939649;6941699;6664195;6662145;6661121;6663171;1;6378499;6376449;6377473;6379523;6087683;6085633;6084609;6086659;1;5788675;5786625;5787649;5789699;5485571;5483521;5482497;5484547;1;241667;239617;240641;242691;546819;544769;543745;545795;1;843779;841729;842753;844803;1136643;1134593;1133569;1135619;1;1420291;1418241;1419265;1421315;1698819;1696769;1695745;1697795;1;1969155;1967105;1968129;1970179;2235395;2233345;2232321;2234371;1;2492419;2490369;2491393;2493443;2744323;2742273;2741249;2743299;1;2987011;2984961;2985985;2988035;3220483;3219461;1;3444741;3445763;3663875;3662853;1;3872773;3873795;4075523;4074501;1;4172805;4173827;4270083;4269061;1;4363269;4364291;4456451;4455429;1;4544517;4545539;4631555;4630533;1;4713477;4714499;4794371;4793349;1;4870149;4871171;4942851;4941829;1;5008389;5009411;5071875;5070853;1;5128197;5129219;5179395;5178373;25];
[26;10421251;10422277;10372101;10371075;1;10313731;10314757;10252293;10251267;1;10184707;10185733;10114053;10113027;1;10036227;10037253;9957381;9956355;1;9873411;9874437;9788421;9787395;1;9698307;9699333;9607173;9606147;1;9511939;9512965;9416709;9415683;1;9317379;9318405;9116677;9115651;1;8905731;8906757;8688645;8687619;1;8462339;8463365;8230917;8229891;1;7986179;7989249;1;7987203;7736323;1;7738369;7735299;1;7477251;7480321;1;7478275;7213059;1;7215105;7212035;1;6940675;6943745;1;6941699;6664195;1;6666241;6663171;1;6378499;6381569;1;6379523;6087683;1;6089729;6086659;1;5788675;5791745;1;5789699;5485571;1;5487617;5484547;1;241667;244737;1;242691;546819;1;548865;545795;1;843779;846849;1;844803;1136643;1;1138689;1135619;1;1420291;1423361;1;1421315;1698819;1;1700865;1697795;1;1969155;1972225;1;1970179;2235395;1;2237441;2234371;1;2492419;2495489;1;2493443;2744323;1;2746369;2743299;1;2987011;2988037;3220485;3219459;1;3444739;3445765;3663877;3662851;1;3872771;3873797;4075525;4074499;1;4172803;4173829;4270085;4269059;1;4363267;4364293;4456453;4455427;1;4544515;4545541;4631557;4630531;1;4713475;4714501;4794373;4793347;1;4870147;4871173;4942853;4941827;1;5008387;5009413;5071877;5070851;1;5128195;5129221;5179397;5178371;25];
[26;10421249;10422279;10372103;10371073;1;10313729;10314759;10252295;10251265;1;10184705;10185735;10114055;10113025;1;10036225;10037255;9957383;9956353;1;9873409;9874439;9788423;9787393;1;9698305;9699335;9607175;9606145;1;9511937;9512967;9416711;9415681;1;9317377;9318407;9116679;9115649;1;8905729;8906759;8688647;8687617;1;8462337;8463367;8230919;8229889;1;7986177;7989251;7988226;7987202;7736322;7737346;7738371;7735297;1;7477249;7480323;7479298;7478274;7213058;7214082;7215107;7212033;1;6940673;6943747;6942722;6941698;6664194;6665218;6666243;6663169;1;6378497;6381571;6380546;6379522;6087682;6088706;6089731;6086657;1;5788673;5791747;5790722;5789698;5485570;5486594;5487619;5484545;1;241665;244739;243714;242690;546818;547842;548867;545793;1;843777;846851;845826;844802;1136642;1137666;1138691;1135617;1;1420289;1423363;1422338;1421314;1698818;1699842;1700867;1697793;1;1969153;1972227;1971202;1970178;2235394;2236418;2237443;2234369;1;2492417;2495491;2494466;2493442;2744322;2745346;2746371;2743297;1;2987009;2988039;3220487;3219457;1;3444737;3445767;3663879;3662849;1;3872769;3873799;4075527;4074497;1;4172801;4173831;4270087;4269057;1;4363265;4364295;4456455;4455425;1;4544513;4545543;4631559;4630529;1;4713473;4714503;4794375;4793345;1;4870145;4871175;4942855;4941825;1;5008385;5009415;5071879;5070849;1;5128193;5129223;5179399;5178369;25];
[26;10422280;10372104;1;10314760;10252296;1;10185736;10114056;1;10037256;9957384;1;9874440;9788424;1;9699336;9607176;1;9512968;9416712;1;9318408;9116680;1;8906760;8688648;1;8463368;8230920;1;7989252;7988228;7737348;7738372;1;7480324;7479300;7214084;7215108;1;6943748;6942724;6665220;6666244;1;6381572;6380548;6088708;6089732;1;5791748;5790724;5486596;5487620;1;244740;243716;547844;548868;1;846852;845828;1137668;1138692;1;1423364;1422340;1699844;1700868;1;1972228;1971204;2236420;2237444;1;2495492;2494468;2745348;2746372;1;2988040;3220488;1;3445768;3663880;1;3873800;4075528;1;4173832;4270088;1;4364296;4456456;1;4545544;4631560;1;4714504;4794376;1;4871176;4942856;1;5009416;5071880;1;5129224;5179400;25];
[27;10422279;10372103;10373121;1;10315777;10314759;10252295;10253313;1;10186753;10185735;10114055;10115073;1;10038273;10037255;9957383;9958401;1;9875457;9874439;9788423;9789441;1;9700353;9699335;9607175;9608193;1;9513985;9512967;9416711;9417729;1;9319425;9318407;9116679;9117697;1;8907777;8906759;8688647;8689665;1;8464385;8463367;8230919;8231937;1;7991297;7989251;7988226;7990274;7739394;7737346;7738371;7740417;1;7482369;7480323;7479298;7481346;7216130;7214082;7215107;7217153;1;6945793;6943747;6942722;6944770;6667266;6665218;6666243;6668289;1;6383617;6381571;6380546;6382594;6090754;6088706;6089731;6091777;1;5793793;5791747;5790722;5792770;5488642;5486594;5487619;5489665;1;246785;244739;243714;245762;549890;547842;548867;550913;1;848897;846851;845826;847874;1139714;1137666;1138691;1140737;1;1425409;1423363;1422338;1424386;1701890;1699842;1700867;1702913;1;1974273;1972227;1971202;1973250;2238466;2236418;2237443;2239489;1;2497537;2495491;2494466;2496514;2747394;2745346;2746371;2748417;1;2989057;2988039;3220487;3221505;1;3446785;3445767;3663879;3664897;1;3874817;3873799;4075527;4076545;1;4174849;4173831;4270087;4271105;1;4365313;4364295;4456455;4457473;1;4546561;4545543;4631559;4632577;1;4715521;4714503;4794375;4795393;1;4872193;4871175;4942855;4943873;1;5010433;5009415;5071879;5072897;1;5130241;5129223;5179399;26];
[29;10422277;10372101;10373123;1;10315779;10314757;10252293;10253315;1;10186755;10185733;10114053;10115075;1;10038275;10037253;9957381;9958403;1;9875459;9874437;9788421;9789443;1;9700355;9699333;9607173;9608195;1;9513987;9512965;9416709;9417731;1;9319427;9318405;9116677;9117699;1;8907779;8906757;8688645;8689667;1;8464387;8463365;8230917;8231939;1;7991299;7989249;1;7990275;7739395;1;7738369;7740419;1;7482371;7480321;1;7481347;7216131;1;7215105;7217155;1;6945795;6943745;1;6944771;6667267;1;6666241;6668291;1;6383619;6381569;1;6382595;6090755;1;6089729;6091779;1;5793795;5791745;1;5792771;5488643;1;5487617;5489667;1;246787;244737;1;245763;549891;1;548865;550915;1;848899;846849;1;847875;1139715;1;1138689;1140739;1;1425411;1423361;1;1424387;1701891;1;1700865;1702915;1;1974275;1972225;1;1973251;2238467;1;2237441;2239491;1;2497539;2495489;1;2496515;2747395;1;2746369;2748419;1;2989059;2988037;3220485;3221507;1;3446787;3445765;3663877;3664899;1;3874819;3873797;4075525;4076547;1;4174851;4173829;4270085;4271107;1;4365315;4364293;4456453;4457475;1;4546563;4545541;4631557;4632579;1;4715523;4714501;4794373;4795395;1;4872195;4871173;4942853;4943875;1;5010435;5009413;5071877;5072899;1;5130243;5129221;5179397;28];
[31;10422275;10372099;10373125;1;10315781;10314755;10252291;10253317;1;10186757;10185731;10114051;10115077;1;10038277;10037251;9957379;9958405;1;9875461;9874435;9788419;9789445;1;9700357;9699331;9607171;9608197;1;9513989;9512963;9416707;9417733;1;9319429;9318403;9116675;9117701;1;8907781;8906755;8688643;8689669;1;8464389;8463363;8230915;8231941;1;7991301;7990275;7739395;7742465;7741441;7740419;1;7482371;7483393;7484417;7481347;7216131;7219201;7218177;7217155;1;6945795;6946817;6947841;6944771;6667267;6670337;6669313;6668291;1;6383619;6384641;6385665;6382595;6090755;6093825;6092801;6091779;1;5793795;5794817;5795841;5792771;5488643;5491713;5490689;5489667;1;246787;247809;248833;245763;549891;552961;551937;550915;1;848899;849921;850945;847875;1139715;1142785;1141761;1140739;1;1425411;1426433;1427457;1424387;1701891;1704961;1703937;1702915;1;1974275;1975297;1976321;1973251;2238467;2241537;2240513;2239491;1;2497539;2498561;2499585;2496515;2747395;2748421;1;2989061;2988035;3220483;3221509;1;3446789;3445763;3663875;3664901;1;3874821;3873795;4075523;4076549;1;4174853;4173827;4270083;4271109;1;4365317;4364291;4456451;4457477;1;4546565;4545539;4631555;4632581;1;4715525;4714499;4794371;4795397;1;4872197;4871171;4942851;4943877;1;5010437;5009411;5071875;5072901;1;5130245;5129219;5179395;30];
[33;10422273;10372097;1;10373126;1;10315782;1;10314753;10252289;1;10253318;1;10186758;1;10185729;10114049;1;10115078;1;10038278;1;10037249;9957377;1;9958406;1;9875462;1;9874433;9788417;1;9789446;1;9700358;1;9699329;9607169;1;9608198;1;9513990;1;9512961;9416705;1;9417734;1;9319430;1;9318401;9116673;1;9117702;1;8907782;1;8906753;8688641;1;8689670;1;8464390;1;8463361;8230913;1;8231942;1;7991302;1;7990273;7739393;1;7742466;7741443;7740417;1;7482369;7483395;7484418;1;7481345;7216129;1;7219202;7218179;7217153;1;6945793;6946819;6947842;1;6944769;6667265;1;6670338;6669315;6668289;1;6383617;6384643;6385666;1;6382593;6090753;1;6093826;6092803;6091777;1;5793793;5794819;5795842;1;5792769;5488641;1;5491714;5490691;5489665;1;246785;247811;248834;1;245761;549889;1;552962;551939;550913;1;848897;849923;850946;1;847873;1139713;1;1142786;1141763;1140737;1;1425409;1426435;1427458;1;1424385;1701889;1;1704962;1703939;1702913;1;1974273;1975299;1976322;1;1973249;2238465;1;2241538;2240515;2239489;1;2497537;2498563;2499586;1;2496513;2747393;1;2748422;1;2989062;1;2988033;3220481;1;3221510;1;3446790;1;3445761;3663873;1;3664902;1;3874822;1;3873793;4075521;1;4076550;1;4174854;1;4173825;4270081;1;4271110;1;4365318;1;4364289;4456449;1;4457478;1;4546566;1;4545537;4631553;1;4632582;1;4715526;1;4714497;4794369;1;4795398;1;4872198;1;4871169;4942849;1;4943878;1;5010438;1;5009409;5071873;1;5072902;1;5130246;1;5129217;5179393;32];
[34;10373128;1;10315784;10253320;1;10186760;10115080;1;10038280;9958408;1;9875464;9789448;1;9700360;9608200;1;9513992;9417736;1;9319432;9117704;1;8907784;8689672;1;8464392;8231944;1;7991304;7742468;7741444;1;7483396;7484420;7219204;7218180;1;6946820;6947844;6670340;6669316;1;6384644;6385668;6093828;6092804;1;5794820;5795844;5491716;5490692;1;247812;248836;552964;551940;1;849924;850948;1142788;1141764;1;1426436;1427460;1704964;1703940;1;1975300;1976324;2241540;2240516;1;2498564;2499588;2748424;1;2989064;3221512;1;3446792;3664904;1;3874824;4076552;1;4174856;4271112;1;4365320;4457480;1;4546568;4632584;1;4715528;4795400;1;4872200;4943880;1;5010440;5072904;1;5130248;33];
[34;10374146;10373126;1;10315782;10316802;10254338;10253318;1;10186758;10187778;10116098;10115078;1;10038278;10039298;9959426;9958406;1;9875462;9876482;9790466;9789446;1;9700358;9701378;9609218;9608198;1;9513990;9515010;9418754;9417734;1;9319430;9320450;9118722;9117702;1;8907782;8908802;8690690;8689670;1;8464390;8465410;8232962;8231942;1;7991302;7992322;7744514;7742466;7741442;1;7743489;1;7485441;1;7483394;7484418;7486466;7221250;7219202;7218178;1;7220225;1;6948865;1;6946818;6947842;6949890;6672386;6670338;6669314;1;6671361;1;6386689;1;6384642;6385666;6387714;6095874;6093826;6092802;1;6094849;1;5796865;1;5794818;5795842;5797890;5493762;5491714;5490690;1;5492737;1;249857;1;247810;248834;250882;555010;552962;551938;1;553985;1;851969;1;849922;850946;852994;1144834;1142786;1141762;1;1143809;1;1428481;1;1426434;1427458;1429506;1707010;1704962;1703938;1;1705985;1;1977345;1;1975298;1976322;1978370;2243586;2241538;2240514;1;2242561;1;2500609;1;2498562;2499586;2501634;2749442;2748422;1;2989062;2990082;3222530;3221510;1;3446790;3447810;3665922;3664902;1;3874822;3875842;4077570;4076550;1;4174854;4175874;4272130;4271110;1;4365318;4366338;4458498;4457478;1;4546566;4547586;4633602;4632582;1;4715526;4716546;4796418;4795398;1;4872198;4873218;4944898;4943878;1;5010438;5011458;5073922;5072902;1;5130246;5131266;33];
[34;10374148;10373124;1;10315780;10316804;10254340;10253316;1;10186756;10187780;10116100;10115076;1;10038276;10039300;9959428;9958404;1;9875460;9876484;9790468;9789444;1;9700356;9701380;9609220;9608196;1;9513988;9515012;9418756;9417732;1;9319428;9320452;9118724;9117700;1;8907780;8908804;8690692;8689668;1;8464388;8465412;8232964;8231940;1;7991300;7992324;7744516;7741441;7743491;1;7485443;7483393;7486468;7221252;7218177;7220227;1;6948867;6946817;6949892;6672388;6669313;6671363;1;6386691;6384641;6387716;6095876;6092801;6094851;1;5796867;5794817;5797892;5493764;5490689;5492739;1;249859;247809;250884;555012;551937;553987;1;851971;849921;852996;1144836;1141761;1143811;1;1428483;1426433;1429508;1707012;1703937;1705987;1;1977347;1975297;1978372;2243588;2240513;2242563;1;2500611;2498561;2501636;2749444;2748420;1;2989060;2990084;3222532;3221508;1;3446788;3447812;3665924;3664900;1;3874820;3875844;4077572;4076548;1;4174852;4175876;4272132;4271108;1;4365316;4366340;4458500;4457476;1;4546564;4547588;4633604;4632580;1;4715524;4716548;4796420;4795396;1;4872196;4873220;4944900;4943876;1;5010436;5011460;5073924;5072900;1;5130244;5131268;33];
[34;10374149;10373123;1;10315778;1;10316805;10254341;10253315;1;10186754;1;10187781;10116101;10115075;1;10038274;1;10039301;9959429;9958403;1;9875458;1;9876485;9790469;9789443;1;9700354;1;9701381;9609221;9608195;1;9513986;1;9515013;9418757;9417731;1;9319426;1;9320453;9118725;9117699;1;8907778;1;8908805;8690693;8689667;1;8464386;1;8465413;8232965;8231939;1;7991298;1;7992325;7744517;7743491;1;7485443;7488513;7487489;7486467;7221251;7222273;7223297;7220227;1;6948867;6951937;6950913;6949891;6672387;6673409;6674433;6671363;1;6386691;6389761;6388737;6387715;6095875;6096897;6097921;6094851;1;5796867;5799937;5798913;5797891;5493763;5494785;5495809;5492739;1;249859;252929;251905;250883;555011;556033;557057;553987;1;851971;855041;854017;852995;1144835;1145857;1146881;1143811;1;1428483;1431553;1430529;1429507;1707011;1708033;1709057;1705987;1;1977347;1980417;1979393;1978371;2243587;2244609;2245633;2242563;1;2500611;2501637;2749445;1;2748418;1;2989059;2990085;3222533;1;3221506;1;3446787;3447813;3665925;1;3664898;1;3874819;3875845;4077573;1;4076546;1;4174851;4175877;4272133;1;4271106;1;4365315;4366341;4458501;1;4457474;1;4546563;4547589;4633605;1;4632578;1;4715523;4716549;4796421;1;4795394;1;4872195;4873221;4944901;1;4943874;1;5010435;5011461;5073925;1;5072898;1;5130243;5131269;33];
[34;10374151;10373121;1;10315777;10316807;10254343;10253313;1;10186753;10187783;10116103;10115073;1;10038273;10039303;9959431;9958401;1;9875457;9876487;9790471;9789441;1;9700353;9701383;9609223;9608193;1;9513985;9515015;9418759;9417729;1;9319425;9320455;9118727;9117697;1;8907777;8908807;8690695;8689665;1;8464385;8465415;8232967;8231937;1;7991297;7992327;7744519;7743489;1;7485441;7488515;7487491;7486465;7221249;7222275;7223299;7220225;1;6948865;6951939;6950915;6949889;6672385;6673411;6674435;6671361;1;6386689;6389763;6388739;6387713;6095873;6096899;6097923;6094849;1;5796865;5799939;5798915;5797889;5493761;5494787;5495811;5492737;1;249857;252931;251907;250881;555009;556035;557059;553985;1;851969;855043;854019;852993;1144833;1145859;1146883;1143809;1;1428481;1431555;1430531;1429505;1707009;1708035;1709059;1705985;1;1977345;1980419;1979395;1978369;2243585;2244611;2245635;2242561;1;2500609;2501639;2749447;2748417;1;2989057;2990087;3222535;3221505;1;3446785;3447815;3665927;3664897;1;3874817;3875847;4077575;4076545;1;4174849;4175879;4272135;4271105;1;4365313;4366343;4458503;4457473;1;4546561;4547591;4633607;4632577;1;4715521;4716551;4796423;4795393;1;4872193;4873223;4944903;4943873;1;5010433;5011463;5073927;5072897;1;5130241;5131271;33];
[34;10374152;1;10316808;10254344;1;10187784;10116104;1;10039304;9959432;1;9876488;9790472;1;9701384;9609224;1;9515016;9418760;1;9320456;9118728;1;8908808;8690696;1;8465416;8232968;1;7992328;7744520;1;7488516;7487492;7222276;7223300;1;6951940;6950916;6673412;6674436;1;6389764;6388740;6096900;6097924;1;5799940;5798916;5494788;5495812;1;252932;251908;556036;557060;1;855044;854020;1145860;1146884;1;1431556;1430532;1708036;1709060;1;1980420;1979396;2244612;2245636;1;2501640;2749448;1;2990088;3222536;1;3447816;3665928;1;3875848;4077576;1;4175880;4272136;1;4366344;4458504;1;4547592;4633608;1;4716552;4796424;1;4873224;4944904;1;5011464;5073928;1;5131272;33];
[34;10374150;10375170;1;10317825;1;10316806;10254342;10255362;1;10188801;1;10187782;10116102;10117122;1;10040321;1;10039302;9959430;9960450;1;9877505;1;9876486;9790470;9791490;1;9702401;1;9701382;9609222;9610242;1;9516033;1;9515014;9418758;9419778;1;9321473;1;9320454;9118726;1;9119745;1;8909825;1;8908806;8690694;1;8691713;1;8466433;1;8465414;8232966;1;8233985;1;7993345;1;7992326;7744518;1;7745537;1;7490561;1;7488514;7487490;7489538;7224322;7222274;7223298;1;7225345;1;6953985;1;6951938;6950914;6952962;6675458;6673410;6674434;1;6676481;1;6391809;1;6389762;6388738;6390786;6098946;6096898;6097922;1;6099969;1;5801985;1;5799938;5798914;5800962;5496834;5494786;5495810;1;5497857;1;254977;1;252930;251906;253954;558082;556034;557058;1;559105;1;857089;1;855042;854018;856066;1147906;1145858;1146882;1;1148929;1;1433601;1;1431554;1430530;1432578;1710082;1708034;1709058;1;1711105;1;1982465;1;1980418;1979394;1981442;2246658;2244610;2245634;1;2247681;1;2502657;1;2501638;2749446;1;2750465;1;2991105;1;2990086;3222534;1;3223553;1;3448833;1;3447814;3665926;1;3666945;1;3876865;1;3875846;4077574;1;4078593;1;4176898;4175878;4272134;1;4273153;1;4367362;4366342;4458502;1;4459521;1;4548610;4547590;4633606;1;4634625;1;4717570;4716550;4796422;1;4797441;1;4874242;4873222;4944902;1;4945921;1;5012482;5011462;5073926;1;5074945;1;5132290;5131270;33];
[34;10374149;10375171;1;10317827;10316805;10254341;10255363;1;10188803;10187781;10116101;10117123;1;10040323;10039301;9959429;9960451;1;9877507;9876485;9790469;9791491;1;9702403;9701381;9609221;9610243;1;9516035;9515013;9418757;9419779;1;9321475;9320453;9118725;9119747;1;8909827;8908805;8690693;8691715;1;8466435;8465413;8232965;8233987;1;7993347;7992325;7744517;7745539;1;7490563;7488513;7489540;7224324;7223297;7225347;1;6953987;6951937;6952964;6675460;6674433;6676483;1;6391811;6389761;6390788;6098948;6097921;6099971;1;5801987;5799937;5800964;5496836;5495809;5497859;1;254979;252929;253956;558084;557057;559107;1;857091;855041;856068;1147908;1146881;1148931;1;1433603;1431553;1432580;1710084;1709057;1711107;1;1982467;1980417;1981444;2246660;2245633;2247683;1;2502659;2501637;2749445;2750467;1;2991107;2990085;3222533;3223555;1;3448835;3447813;3665925;3666947;1;3876867;3875845;4077573;4078595;1;4176899;4175877;4272133;4273155;1;4367363;4366341;4458501;4459523;1;4548611;4547589;4633605;4634627;1;4717571;4716549;4796421;4797443;1;4874243;4873221;4944901;4945923;1;5012483;5011461;5073925;5074947;1;5132291;5131269;33];
[34;10374147;10375173;1;10317829;10316803;10254339;10255365;1;10188805;10187779;10116099;10117125;1;10040325;10039299;9959427;9960453;1;9877509;9876483;9790467;9791493;1;9702405;9701379;9609219;9610245;1;9516037;9515011;9418755;9419781;1;9321477;9320451;9118723;9119749;1;8909829;8908803;8690691;8691717;1;8466437;8465411;8232963;8233989;1;7993349;7992323;7744515;7745541;1;7490565;7489539;7224323;7227393;7226369;1;7225346;1;6953986;1;6955009;6956033;6952963;6675459;6678529;6677505;1;6676482;1;6391810;1;6392833;6393857;6390787;6098947;6102017;6100993;1;6099970;1;5801986;1;5803009;5804033;5800963;5496835;5499905;5498881;1;5497858;1;254978;1;256001;257025;253955;558083;561153;560129;1;559106;1;857090;1;858113;859137;856067;1147907;1150977;1149953;1;1148930;1;1433602;1;1434625;1435649;1432579;1710083;1713153;1712129;1;1711106;1;1982466;1;1983489;1984513;1981443;2246659;2247685;1;2502661;2501635;2749443;2750469;1;2991109;2990083;3222531;3223557;1;3448837;3447811;3665923;3666949;1;3876869;3875843;4077571;4078597;1;4176901;4175875;4272131;4273157;1;4367365;4366339;4458499;4459525;1;4548613;4547587;4633603;4634629;1;4717573;4716547;4796419;4797445;1;4874245;4873219;4944899;4945925;1;5012485;5011459;5073923;5074949;1;5132293;5131267;33];
[34;10374145;10375175;1;10317831;10316801;10254337;10255367;1;10188807;10187777;10116097;10117127;1;10040327;10039297;9959425;9960455;1;9877511;9876481;9790465;9791495;1;9702407;9701377;9609217;9610247;1;9516039;9515009;9418753;9419783;1;9321479;9320449;9118721;9119751;1;8909831;8908801;8690689;8691719;1;8466439;8465409;8232961;8233991;1;7993351;7992321;7744513;7745543;1;7490567;7489537;7224321;7227395;7226371;7225345;1;6953985;6955011;6956035;6952961;6675457;6678531;6677507;6676481;1;6391809;6392835;6393859;6390785;6098945;6102019;6100995;6099969;1;5801985;5803011;5804035;5800961;5496833;5499907;5498883;5497857;1;254977;256003;257027;253953;558081;561155;560131;559105;1;857089;858115;859139;856065;1147905;1150979;1149955;1148929;1;1433601;1434627;1435651;1432577;1710081;1713155;1712131;1711105;1;1982465;1983491;1984515;1981441;2246657;2247687;1;2502663;2501633;2749441;2750471;1;2991111;2990081;3222529;3223559;1;3448839;3447809;3665921;3666951;1;3876871;3875841;4077569;4078599;1;4176903;4175873;4272129;4273159;1;4367367;4366337;4458497;4459527;1;4548615;4547585;4633601;4634631;1;4717575;4716545;4796417;4797447;1;4874247;4873217;4944897;4945927;1;5012487;5011457;5073921;5074951;1;5132295;5131265;33];
[35;10375175;1;10317831;2;10255367;1;10188807;2;10117127;1;10040327;2;9960455;1;9877511;2;9791495;1;9702407;2;9610247;1;9516039;2;9419783;1;9321479;2;9119751;1;8909831;2;8691719;1;8466439;2;8233991;1;7993351;2;7745543;1;7490567;2;7227395;7226372;1;6955012;6956035;2;6678531;6677508;1;6392836;6393859;2;6102019;6100996;1;5803012;5804035;2;5499907;5498884;1;256004;257027;2;561155;560132;1;858116;859139;2;1150979;1149956;1;1434628;1435651;2;1713155;1712132;1;1983492;1984515;2;2247687;1;2502663;2;2750471;1;2991111;2;3223559;1;3448839;2;3666951;1;3876871;2;4078599;1;4176903;2;4273159;1;4367367;2;4459527;1;4548615;2;4634631;1;4717575;2;4797447;1;4874247;2;4945927;1;5012487;2;5074951;1;5132295;34];
[34;10376194;10375174;1;10317830;10318850;10256386;10255366;1;10188806;10189826;10118146;10117126;1;10040326;10041346;9961474;9960454;1;9877510;9878530;9792514;9791494;1;9702406;9703426;9611266;9610246;1;9516038;9517058;9420802;9419782;1;9321478;9322498;9120770;9119750;1;8909830;8910850;8692738;8691718;1;8466438;8467458;8235010;8233990;1;7993350;7994370;7746562;7745542;1;7490566;7491586;7229442;7227394;7226370;7228418;1;6957058;6955010;6956034;6958082;6680578;6678530;6677506;6679554;1;6394882;6392834;6393858;6395906;6104066;6102018;6100994;6103042;1;5805058;5803010;5804034;5806082;5501954;5499906;5498882;5500930;1;258050;256002;257026;259074;563202;561154;560130;562178;1;860162;858114;859138;861186;1153026;1150978;1149954;1152002;1;1436674;1434626;1435650;1437698;1715202;1713154;1712130;1714178;1;1985538;1983490;1984514;1986562;2248706;2247686;1;2502662;2503682;2751490;2750470;1;2991110;2992130;3224578;3223558;1;3448838;3449858;3667970;3666950;1;3876870;3877890;4079618;4078598;1;4176902;4177922;4274178;4273158;1;4367366;4368386;4460546;4459526;1;4548614;4549634;4635650;4634630;1;4717574;4718594;4798466;4797446;1;4874246;4875266;4946946;4945926;1;5012486;5013506;5075970;5074950;1;5132294;5133314;33];
[34;10376196;10375172;1;10317828;10318852;10256388;10255364;1;10188804;10189828;10118148;10117124;1;10040324;10041348;9961476;9960452;1;9877508;9878532;9792516;9791492;1;9702404;9703428;9611268;9610244;1;9516036;9517060;9420804;9419780;1;9321476;9322500;9120772;9119748;1;8909828;8910852;8692740;8691716;1;8466436;8467460;8235012;8233988;1;7993348;7994372;7746564;7745540;1;7490564;7491588;7229444;1;7228419;1;6957059;1;6958084;6680580;1;6679555;1;6394883;1;6395908;6104068;1;6103043;1;5805059;1;5806084;5501956;1;5500931;1;258051;1;259076;563204;1;562179;1;860163;1;861188;1153028;1;1152003;1;1436675;1;1437700;1715204;1;1714179;1;1985539;1;1986564;2248708;2247684;1;2502660;2503684;2751492;2750468;1;2991108;2992132;3224580;3223556;1;3448836;3449860;3667972;3666948;1;3876868;3877892;4079620;4078596;1;4176900;4177924;4274180;4273156;1;4367364;4368388;4460548;4459524;1;4548612;4549636;4635652;4634628;1;4717572;4718596;4798468;4797444;1;4874244;4875268;4946948;4945924;1;5012484;5013508;5075972;5074948;1;5132292;5133316;33];
[34;10376198;10375170;1;10317826;10318854;10256390;10255362;1;10188802;10189830;10118150;10117122;1;10040322;10041350;9961478;9960450;1;9877506;9878534;9792518;9791490;1;9702402;9703430;9611270;9610242;1;9516034;9517062;9420806;9419778;1;9321474;9322502;9120774;9119746;1;8909826;8910854;8692742;8691714;1;8466434;8467462;8235014;8233986;1;7993346;7994374;7746566;7745538;1;7490562;7491590;7229446;7228418;1;6957058;6960130;6959105;6958083;6680579;6681601;6682626;6679554;1;6394882;6397954;6396929;6395907;6104067;6105089;6106114;6103042;1;5805058;5808130;5807105;5806083;5501955;5502977;5504002;5500930;1;258050;261122;260097;259075;563203;564225;565250;562178;1;860162;863234;862209;861187;1153027;1154049;1155074;1152002;1;1436674;1439746;1438721;1437699;1715203;1716225;1717250;1714178;1;1985538;1986566;2248710;2247682;1;2502658;2503686;2751494;2750466;1;2991106;2992134;3224582;3223554;1;3448834;3449862;3667974;3666946;1;3876866;3877894;4079622;4078594;1;4176898;4177926;4274182;4273154;1;4367362;4368390;4460550;4459522;1;4548610;4549638;4635654;4634626;1;4717570;4718598;4798470;4797442;1;4874242;4875270;4946950;4945922;1;5012482;5013510;5075974;5074946;1;5132290;5133318;33];
[34;10376199;3;10318855;10256391;3;10189831;10118151;3;10041351;9961479;3;9878535;9792519;3;9703431;9611271;3;9517063;9420807;3;9322503;9120775;3;8910855;8692743;3;8467463;8235015;3;7994375;7746567;3;7491591;7229447;3;6960131;6959107;6958081;6680577;6681603;6682627;3;6397955;6396931;6395905;6104065;6105091;6106115;3;5808131;5807107;5806081;5501953;5502979;5504003;3;261123;260099;259073;563201;564227;565251;3;863235;862211;861185;1153025;1154051;1155075;3;1439747;1438723;1437697;1715201;1716227;1717251;3;1986567;2248711;3;2503687;2751495;3;2992135;3224583;3;3449863;3667975;3;3877895;4079623;3;4177927;4274183;3;4368391;4460551;3;4549639;4635655;3;4718599;4798471;3;4875271;4946951;3;5013511;5075975;3;5133319;33];
[34;10376200;1;10318856;10256392;1;10189832;10118152;1;10041352;9961480;1;9878536;9792520;1;9703432;9611272;1;9517064;9420808;1;9322504;9120776;1;8910856;8692744;1;8467464;8235016;1;7994376;7746568;1;7491592;7229448;1;6960132;6959107;6961153;6683649;6681603;6682628;1;6397956;6396931;6398977;6107137;6105091;6106116;1;5808132;5807107;5809153;5505025;5502979;5504004;1;261124;260099;262145;566273;564227;565252;1;863236;862211;864257;1156097;1154051;1155076;1;1439748;1438723;1440769;1718273;1716227;1717252;1;1986568;2248712;1;2503688;2751496;1;2992136;3224584;1;3449864;3667976;1;3877896;4079624;1;4177928;4274184;1;4368392;4460552;1;4549640;4635656;1;4718600;4798472;1;4875272;4946952;1;5013512;5075976;1;5133320;33];
[34;10376198;3;10319874;10318854;10256390;10257410;1;10190850;10189830;10118150;10119170;1;10042370;10041350;9961478;9962498;1;9879554;9878534;9792518;9793538;1;9704450;9703430;9611270;9612290;1;9518082;9517062;9420806;9421826;1;9323522;9322502;9120774;9121794;1;8911874;8910854;8692742;8693762;1;8468482;8467462;8235014;8236034;1;7995394;7994374;7746566;7747586;1;7492610;7491590;7229446;7230466;1;6962178;6960130;6959105;1;6961154;6683650;6681602;6682626;6684674;1;6400002;6397954;6396929;1;6398978;6107138;6105090;6106114;6108162;1;5810178;5808130;5807105;1;5809154;5505026;1;5502977;5504002;5506050;1;263170;261122;260097;1;262146;566274;1;564225;565250;567298;1;865282;863234;862210;864258;1156098;1;1154049;1155074;1157122;1;1441794;1439746;1438722;1440770;1718274;1;1716225;1717250;1719298;1;1987586;1986566;2248710;2249730;1;2504706;2503686;2751494;2752514;1;2993154;2992134;3224582;3225602;1;3450882;3449862;3667974;3668994;1;3878914;3877894;4079622;4080642;1;4178946;4177926;4274182;4275202;1;4369410;4368390;4460550;4461570;1;4550658;4549638;4635654;4636674;1;4719618;4718598;4798470;4799490;1;4876290;4875270;4946950;4947970;1;5014530;5013510;5075974;5076994;3;5133318;33];
[34;10376196;5;10319875;1;10318852;10256388;10257412;1;10190851;1;10189828;10118148;10119172;1;10042371;1;10041348;9961476;9962500;1;9879556;9878532;9792516;9793540;1;9704452;9703428;9611268;9612292;1;9518084;9517060;9420804;9421828;1;9323524;9322500;9120772;9121796;1;8911876;8910852;8692740;8693764;1;8468484;8467460;8235012;8236036;1;7995396;7994372;7746564;7747588;1;7492612;7491588;7229444;7230468;1;6962180;6961156;6683652;6684676;1;6400004;6398980;6107140;6108164;1;5810180;5809156;5505028;5506052;1;263172;262148;566276;567300;1;865284;864260;1156100;1157124;1;1441796;1440772;1718276;1719300;1;1987588;1986564;2248708;2249732;1;2504708;2503684;2751492;2752516;1;2993156;2992132;3224580;3225604;1;3450884;3449860;3667972;3668996;1;3878916;3877892;4079620;4080644;1;4178948;4177924;4274180;4275204;1;4369412;4368388;4460548;4461572;1;4550660;4549636;4635652;4636676;1;4719620;4718596;4798468;1;4799491;1;4876292;4875268;4946948;1;4947971;1;5014532;5013508;5075972;1;5076995;5;5133316;33];
[34;10376194;7;10319877;10318851;10256386;1;10257413;1;10190853;10189827;10118147;10119173;1;10042373;10041347;9961475;9962501;1;9879557;9878531;9792515;9793541;1;9704453;9703427;9611267;9612293;1;9518085;9517059;9420803;9421829;1;9323525;9322499;9120771;9121797;1;8911877;8910851;8692739;8693765;1;8468485;8467459;8235011;8236037;1;7995397;7994371;7746563;7747589;1;7492613;7491587;7229443;7230469;1;6962181;6961155;6683651;6686721;6685698;6684674;1;6400002;6401026;6402049;6398979;6107139;6110209;6109186;6108162;1;5810178;5811202;5812225;5809155;5505027;5508097;5507074;5506050;1;263170;264194;265217;262147;566275;569345;568322;567298;1;865282;866306;867329;864259;1156099;1159169;1158146;1157122;1;1441794;1442818;1443841;1440771;1718275;1719301;1;1987589;1986563;2248707;2249733;1;2504709;2503683;2751491;2752517;1;2993157;2992131;3224579;3225605;1;3450885;3449859;3667971;3668997;1;3878917;3877891;4079619;4080645;1;4178949;4177923;4274179;4275205;1;4369413;4368387;4460547;4461573;1;4550661;4549635;4635651;4636677;1;4719621;4718595;4798467;4799493;1;4876293;4875267;4946947;4947973;1;5014533;1;5013506;5075971;5076997;7;5133314;33];
[34;10376193;8;10319879;10318849;10256385;10257415;1;10190855;10189825;10118145;10119175;1;10042375;10041345;9961473;9962503;1;9879559;9878529;9792513;9793543;1;9704455;9703425;9611265;9612295;1;9518087;9517057;9420801;9421831;1;9323527;9322497;9120769;9121799;1;8911879;8910849;8692737;8693767;1;8468487;8467457;8235009;8236039;1;7995399;7994369;7746561;7747591;1;7492615;7491585;7229441;7230471;1;6962183;6961153;6683649;6686723;6685699;3;6401027;6402051;6398977;6107137;6110211;6109187;3;5811203;5812227;5809153;5505025;5508099;5507075;3;264195;265219;262145;566273;569347;568323;3;866307;867331;864257;1156097;1159171;1158147;3;1442819;1443843;1440769;1718273;1719303;1;1987591;1986561;2248705;2249735;1;2504711;2503681;2751489;2752519;1;2993159;2992129;3224577;3225607;1;3450887;3449857;3667969;3668999;1;3878919;3877889;4079617;4080647;1;4178951;4177921;4274177;4275207;1;4369415;4368385;4460545;4461575;1;4550663;4549633;4635649;4636679;1;4719623;4718593;4798465;4799495;1;4876295;4875265;4946945;4947975;1;5014535;5013505;5075969;5076999;8;5133313;33];
[43;10319879;10320897;10258433;10257415;1;10190855;10191873;10120193;10119175;1;10042375;10043393;9963521;9962503;1;9879559;9880577;9794561;9793543;1;9704455;9705473;9613313;9612295;1;9518087;9519105;9422849;9421831;1;9323527;9324545;9122817;9121799;1;8911879;8912897;8694785;8693767;1;8468487;8469505;8237057;8236039;1;7995399;7996417;7748609;7747591;1;7492615;7493633;7231489;7230471;1;6962183;6963201;6688769;6686723;6685700;1;6401028;6402051;6404097;6112257;6110211;6109188;1;5811204;5812227;5814273;5510145;5508099;5507076;1;264196;265219;267265;571393;569347;568324;1;866308;867331;869377;1161217;1159171;1158148;1;1442820;1443843;1445889;1720321;1719303;1;1987591;1988609;2250753;2249735;1;2504711;2505729;2753537;2752519;1;2993159;2994177;3226625;3225607;1;3450887;3451905;3670017;3668999;1;3878919;3879937;4081665;4080647;1;4178951;4179969;4276225;4275207;1;4369415;4370433;4462593;4461575;1;4550663;4551681;4637697;4636679;1;4719623;4720641;4800513;4799495;1;4876295;4877313;4948993;4947975;1;5014535;5015553;5078017;5076999;42];
[43;10319877;1;10320898;10258434;1;10257413;1;10190853;1;10191874;10120194;1;10119173;1;10042373;1;10043394;9963522;1;9962501;1;9879557;1;9880578;9794562;1;9793541;1;9704453;1;9705474;9613314;1;9612293;1;9518085;1;9519106;9422850;1;9421829;1;9323525;1;9324546;9122818;1;9121797;1;8911877;1;8912898;8694786;1;8693765;1;8468485;1;8469506;8237058;1;8236037;1;7995397;1;7996418;7748610;1;7747589;1;7492613;1;7493634;7231490;1;7230469;1;6962181;1;6963202;6688770;1;6686721;6685698;6687746;1;6403074;6401026;6402049;1;6404098;6112258;1;6110209;6109186;6111234;1;5813250;5811202;5812225;1;5814274;5510146;1;5508097;5507074;5509122;1;266242;264194;265217;1;267266;571394;1;569345;568322;570370;1;868354;866306;867329;1;869378;1161218;1;1159169;1158146;1160194;1;1444866;1442818;1443841;1;1445890;1720322;1;1719301;1;1987589;1;1988610;2250754;1;2249733;1;2504709;1;2505730;2753538;1;2752517;1;2993157;1;2994178;3226626;1;3225605;1;3450885;1;3451906;3670018;1;3668997;1;3878917;1;3879938;4081666;1;4080645;1;4178949;1;4179970;4276226;1;4275205;1;4369413;1;4370434;4462594;1;4461573;1;4550661;1;4551682;4637698;1;4636677;1;4719621;1;4720642;4800514;1;4799493;1;4876293;1;4877314;4948994;1;4947973;1;5014533;1;5015554;5078018;1;5076997;42];
[43;10319876;10320900;10258436;10257412;1;10190852;10191876;10120196;10119172;1;10042372;10043396;9963524;9962500;1;9879556;9880580;9794564;9793540;1;9704452;9705476;9613316;9612292;1;9518084;9519108;9422852;9421828;1;9323524;9324548;9122820;9121796;1;8911876;8912900;8694788;8693764;1;8468484;8469508;8237060;8236036;1;7995396;7996420;7748612;7747588;1;7492612;7493636;7231492;7230468;1;6962180;6963204;6688772;6687748;1;6403076;6404100;6112260;6111236;1;5813252;5814276;5510148;5509124;1;266244;267268;571396;570372;1;868356;869380;1161220;1160196;1;1444868;1445892;1720324;1719300;1;1987588;1988612;2250756;2249732;1;2504708;2505732;2753540;2752516;1;2993156;2994180;3226628;3225604;1;3450884;3451908;3670020;3668996;1;3878916;3879940;4081668;4080644;1;4178948;4179972;4276228;4275204;1;4369412;4370436;4462596;4461572;1;4550660;4551684;4637700;4636676;1;4719620;4720644;4800516;4799492;1;4876292;4877316;4948996;4947972;1;5014532;5015556;5078020;5076996;42];
[43;10319874;10320902;10258438;10257410;1;10190850;10191878;10120198;10119170;1;10042370;10043398;9963526;9962498;1;9879554;9880582;9794566;9793538;1;9704450;9705478;9613318;9612290;1;9518082;9519110;9422854;9421826;1;9323522;9324550;9122822;9121794;1;8911874;8912902;8694790;8693762;1;8468482;8469510;8237062;8236034;1;7995394;7996422;7748614;7747586;1;7492610;7493638;7231494;7230466;1;6962178;6963206;6688774;6687746;1;6403074;6406146;6405121;1;6404098;6112258;1;6113281;6114306;6111234;1;5813250;5816322;5815297;1;5814274;5510146;1;5511169;5512194;5509122;1;266242;269314;268289;1;267266;571394;1;572417;573442;570370;1;868354;871426;870401;1;869378;1161218;1;1162241;1163266;1160194;1;1444866;1445894;1720326;1719298;1;1987586;1988614;2250758;2249730;1;2504706;2505734;2753542;2752514;1;2993154;2994182;3226630;3225602;1;3450882;3451910;3670022;3668994;1;3878914;3879942;4081670;4080642;1;4178946;4179974;4276230;4275202;1;4369410;4370438;4462598;4461570;1;4550658;4551686;4637702;4636674;1;4719618;4720646;4800518;4799490;1;4876290;4877318;4948998;4947970;1;5014530;5015558;5078022;5076994;42];
[43;10320904;10258440;1;10191880;10120200;1;10043400;9963528;1;9880584;9794568;1;9705480;9613320;1;9519112;9422856;1;9324552;9122824;1;8912904;8694792;1;8469512;8237064;1;7996424;7748616;1;7493640;7231496;1;6963208;6688776;1;6406148;6405123;6404097;6112257;6113283;6114308;1;5816324;5815299;5814273;5510145;5511171;5512196;1;269316;268291;267265;571393;572419;573444;1;871428;870403;869377;1161217;1162243;1163268;1;1445896;1720328;1;1988616;2250760;1;2505736;2753544;1;2994184;3226632;1;3451912;3670024;1;3879944;4081672;1;4179976;4276232;1;4370440;4462600;1;4551688;4637704;1;4720648;4800520;1;4877320;4949000;1;5015560;5078024;42];
[44;10320903;10258439;3;10191879;10120199;3;10043399;9963527;3;9880583;9794567;3;9705479;9613319;3;9519111;9422855;3;9324551;9122823;3;8912903;8694791;3;8469511;8237063;3;7996423;7748615;3;7493639;7231495;3;6963207;6688775;3;6406147;6405123;6407169;6115329;6113283;6114307;3;5816323;5815299;5817345;5513217;5511171;5512195;3;269315;268291;270337;574465;572419;573443;3;871427;870403;872449;1164289;1162243;1163267;3;1445895;1720327;3;1988615;2250759;3;2505735;2753543;3;2994183;3226631;3;3451911;3670023;3;3879943;4081671;3;4179975;4276231;3;4370439;4462599;3;4551687;4637703;3;4720647;4800519;3;4877319;4948999;3;5015559;5078023;43];
[43;10321922;10320902;10258438;10259458;1;10192898;10191878;10120198;10121218;1;10044418;10043398;9963526;9964546;1;9881602;9880582;9794566;9795586;1;9706498;9705478;9613318;9614338;1;9520130;9519110;9422854;9423874;1;9325570;9324550;9122822;9123842;1;8913922;8912902;8694790;8695810;1;8470530;8469510;8237062;8238082;1;7997442;7996422;7748614;7749634;1;7494658;7493638;7231494;7232514;1;6964226;6963206;6688774;6689794;1;6408194;6406146;6405121;6407171;6115331;6113281;6114306;6116354;1;5818370;5816322;5815297;5817347;5513219;5511169;5512194;5514242;1;271362;269314;268289;270339;574467;572417;573442;575490;1;873474;871426;870401;872451;1164291;1162241;1163266;1165314;1;1446914;1445894;1720326;1721346;1;1989634;1988614;2250758;2251778;1;2506754;2505734;2753542;2754562;1;2995202;2994182;3226630;3227650;1;3452930;3451910;3670022;3671042;1;3880962;3879942;4081670;4082690;1;4180994;4179974;4276230;4277250;1;4371458;4370438;4462598;4463618;1;4552706;4551686;4637702;4638722;1;4721666;4720646;4800518;4801538;1;4878338;4877318;4948998;4950018;1;5016578;5015558;5078022;5079042;42];
[43;10321924;10320900;10258436;10259460;1;10192900;10191876;10120196;10121220;1;10044420;10043396;9963524;9964548;1;9881604;9880580;9794564;9795588;1;9706500;9705476;9613316;9614340;1;9520132;9519108;9422852;9423876;1;9325572;9324548;9122820;9123844;1;8913924;8912900;8694788;8695812;1;8470532;8469508;8237060;8238084;1;7997444;7996420;7748612;7749636;1;7494660;7493636;7231492;7232516;1;6964228;6963204;6688772;6689796;1;6408196;6407172;6115332;1;6116355;1;5818371;1;5817348;5513220;1;5514243;1;271363;1;270340;574468;1;575491;1;873475;1;872452;1164292;1165316;1;1446916;1445892;1720324;1721348;1;1989636;1988612;2250756;2251780;1;2506756;2505732;2753540;2754564;1;2995204;2994180;3226628;3227652;1;3452932;3451908;3670020;3671044;1;3880964;3879940;4081668;4082692;1;4180996;4179972;4276228;4277252;1;4371460;4370436;4462596;4463620;1;4552708;4551684;4637700;4638724;1;4721668;4720644;4800516;4801540;1;4878340;4877316;4948996;4950020;1;5016580;5015556;5078020;5079044;42];
[43;10321926;10320898;10258434;10259462;1;10192902;10191874;10120194;10121222;1;10044422;10043394;9963522;9964550;1;9881606;9880578;9794562;9795590;1;9706502;9705474;9613314;9614342;1;9520134;9519106;9422850;9423878;1;9325574;9324546;9122818;9123846;1;8913926;8912898;8694786;8695814;1;8470534;8469506;8237058;8238086;1;7997446;7996418;7748610;7749638;1;7494662;7493634;7231490;7232518;1;6964230;6963202;6688770;6689798;1;6408198;6407170;6115330;6118402;6117378;6116354;1;5818370;5819394;5820418;5817346;5513218;5516290;5515266;5514242;1;271362;272386;273410;270338;574466;577538;576514;575490;1;873474;874498;875522;872450;1164290;1165318;1;1446918;1445890;1720322;1721350;1;1989638;1988610;2250754;2251782;1;2506758;2505730;2753538;2754566;1;2995206;2994178;3226626;3227654;1;3452934;3451906;3670018;3671046;1;3880966;3879938;4081666;4082694;1;4180998;4179970;4276226;4277254;1;4371462;4370434;4462594;4463622;1;4552710;4551682;4637698;4638726;1;4721670;4720642;4800514;4801542;1;4878342;4877314;4948994;4950022;1;5016582;5015554;5078018;5079046;42];
[43;10321927;10320897;1;10259463;1;10192903;10191873;1;10121223;1;10044423;10043393;1;9964551;1;9881607;9880577;1;9795591;1;9706503;9705473;1;9614343;1;9520135;9519105;1;9423879;1;9325575;9324545;1;9123847;1;8913927;8912897;1;8695815;1;8470535;2;8238087;1;7997447;2;7749639;1;7494663;2;7232519;1;6964231;2;6689799;1;6408199;2;6118403;6117380;1;5819396;5820419;2;5516291;5515268;1;272388;273411;2;577539;576516;1;874500;875523;2;1165319;1;1446919;2;1721351;1;1989639;2;2251783;1;2506759;2;2754567;1;2995207;2;3227655;1;3452935;1;3670017;3671047;1;3880967;1;4081665;4082695;1;4180999;1;4276225;4277255;1;4371463;1;4462593;4463623;1;4552711;1;4637697;4638727;1;4721671;1;4800513;4801543;1;4878343;1;4948993;4950023;1;5016583;1;5078017;5079047;42];
[43;10321927;1;10260481;10259463;1;10192903;10193921;10122241;10121223;1;10044423;10045441;9965569;9964551;1;9881607;9882625;9796609;9795591;1;9706503;9707521;9615361;9614343;1;9520135;9521153;9424897;9423879;1;9325575;9326593;9124865;9123847;1;8913927;8914945;8696833;8695815;1;8470535;8471553;8239105;8238087;1;7997447;7998465;7750657;7749639;1;7494663;7495681;7233537;7232519;1;6964231;6965249;6690817;6689799;1;6408199;6409217;6120449;6118403;6117379;6119425;1;5821441;5819395;5820419;5822465;5518337;5516291;5515267;5517313;1;274433;272387;273411;275457;579585;577539;576515;578561;1;876545;874499;875523;877569;1166337;1165319;1;1446919;1447937;1722369;1721351;1;1989639;1990657;2252801;2251783;1;2506759;2507777;2755585;2754567;1;2995207;2996225;3228673;3227655;1;3452935;3453953;3672065;3671047;1;3880967;3881985;4083713;4082695;1;4180999;4182017;4278273;4277255;1;4371463;4372481;4464641;4463623;1;4552711;4553729;4639745;4638727;1;4721671;4722689;4802561;4801543;1;4878343;4879361;4951041;4950023;1;5016583;5017601;1;5079047;42];
[43;10321925;3;10260483;10259461;1;10192901;10193923;10122243;10121221;1;10044421;10045443;9965571;9964549;1;9881605;9882627;9796611;9795589;1;9706501;9707523;9615363;9614341;1;9520133;9521155;9424899;9423877;1;9325573;9326595;9124867;9123845;1;8913925;8914947;8696835;8695813;1;8470533;8471555;8239107;8238085;1;7997445;7998467;7750659;7749637;1;7494661;7495683;7233539;7232517;1;6964229;6965251;6690819;6689797;1;6408197;6409219;6120451;6118401;6117378;6119426;1;5821442;5819394;5820417;5822467;5518339;5516289;5515266;5517314;1;274434;272386;273409;275459;579587;577537;576514;578562;1;876546;874498;875521;877571;1166339;1165317;1;1446917;1447939;1722371;1721349;1;1989637;1990659;2252803;2251781;1;2506757;2507779;2755587;2754565;1;2995205;2996227;3228675;3227653;1;3452933;3453955;3672067;3671045;1;3880965;3881987;4083715;4082693;1;4180997;4182019;4278275;4277253;1;4371461;4372483;4464643;4463621;1;4552709;4553731;4639747;4638725;1;4721669;4722691;4802563;4801541;1;4878341;4879363;4951043;4950021;1;5016581;5017603;3;5079045;42];
[43;10321923;5;10260484;1;10259459;1;10192899;10193925;10122244;1;10121219;1;10044419;10045445;9965572;1;9964547;1;9881603;9882629;9796612;1;9795587;1;9706499;9707525;9615364;1;9614339;1;9520131;9521157;9424900;1;9423875;1;9325571;9326597;9124868;1;9123843;1;8913923;8914949;8696836;1;8695811;1;8470531;8471557;8239108;1;8238083;1;7997443;7998469;7750660;1;7749635;1;7494659;7495685;7233540;1;7232515;1;6964227;6965253;6690821;6689795;1;6408195;6409221;6120453;6119427;1;5821443;5824513;5822468;5518340;5520385;5517315;1;274435;277505;275460;579588;581633;578563;1;876547;877573;1166341;1165315;1;1446915;1447941;1722373;1721347;1;1989635;1;1990660;2252805;2251779;1;2506755;1;2507780;2755589;2754563;1;2995203;1;2996228;3228677;3227651;1;3452931;1;3453956;3672069;3671043;1;3880963;1;3881988;4083717;4082691;1;4180995;1;4182020;4278277;4277251;1;4371459;1;4372484;4464645;4463619;1;4552707;1;4553732;4639749;4638723;1;4721667;1;4722692;4802565;4801539;1;4878339;1;4879364;4951045;4950019;1;5016579;1;5017604;5;5079043;42];
[43;10321922;6;10260486;10259458;1;10192898;10193926;10122246;10121218;1;10044418;10045446;9965574;9964546;1;9881602;9882630;9796614;9795586;1;9706498;9707526;9615366;9614338;1;9520130;9521158;9424902;9423874;1;9325570;9326598;9124870;9123842;1;8913922;8914950;8696838;8695810;1;8470530;8471558;8239110;8238082;1;7997442;7998470;7750662;7749634;1;7494658;7495686;7233542;7232514;1;6964226;6965254;6690822;6689794;1;6408194;6409222;6120454;6119426;1;5821442;5824514;5823490;5822466;5518338;5519362;5520386;5517314;1;274434;277506;276482;275458;579586;580610;581634;578562;1;876546;877574;1166342;1165314;1;1446914;1447942;1722374;1721346;1;1989634;1990662;2252806;2251778;1;2506754;2507782;2755590;2754562;1;2995202;2996230;3228678;3227650;1;3452930;3453958;3672070;3671042;1;3880962;3881990;4083718;4082690;1;4180994;4182022;4278278;4277250;1;4371458;4372486;4464646;4463618;1;4552706;4553734;4639750;4638722;1;4721666;4722694;4802566;4801538;1;4878338;4879366;4951046;4950018;1;5016578;5017606;6;5079042;42];
[51;10260488;1;10193928;10122248;1;10045448;9965576;1;9882632;9796616;1;9707528;9615368;1;9521160;9424904;1;9326600;9124872;1;8914952;8696840;1;8471560;8239112;1;7998472;7750664;1;7495688;7233544;1;6965256;6690824;1;6409224;6120456;1;5824516;5823491;2;5519363;5520388;1;277508;276483;2;580611;581636;1;877576;1166344;1;1447944;1722376;1;1990664;2252808;1;2507784;2755592;1;2996232;3228680;1;3453960;3672072;1;3881992;4083720;1;4182024;4278280;1;4372488;4464648;1;4553736;4639752;1;4722696;4802568;1;4879368;4951048;1;5017608;50];
[51;10260487;10261505;1;10194945;10193927;10122247;10123265;1;10046465;10045447;9965575;9966593;1;9883649;9882631;9796615;9797633;1;9708545;9707527;9615367;9616385;1;9522177;9521159;9424903;9425921;1;9327617;9326599;9124871;9125889;1;8915969;8914951;8696839;8697857;1;8472577;8471559;8239111;8240129;1;7999489;7998471;7750663;7751681;1;7496705;7495687;7233543;7234561;1;6966273;6965255;6690823;6691841;1;6410241;6409223;6120455;6121473;1;5826561;5824515;5823491;5825537;5521409;5519363;5520387;5522433;1;279553;277507;276483;278529;582657;580611;581635;583681;1;878593;877575;1166343;1167361;1;1448961;1447943;1722375;1723393;1;1991681;1990663;2252807;2253825;1;2508801;2507783;2755591;2756609;1;2997249;2996231;3228679;3229697;1;3454977;3453959;3672071;3673089;1;3883009;3881991;4083719;4084737;1;4183041;4182023;4278279;4279297;1;4373505;4372487;4464647;4465665;1;4554753;4553735;4639751;4640769;1;4723713;4722695;4802567;4803585;1;4880385;4879367;4951047;4952065;1;5018625;5017607;50];
[51;10260485;1;10261506;1;10194946;1;10193925;10122245;1;10123266;1;10046466;1;10045445;9965573;1;9966594;1;9883650;1;9882629;9796613;1;9797634;1;9708546;1;9707525;9615365;1;9616386;1;9522178;1;9521157;9424901;1;9425922;1;9327618;1;9326597;9124869;1;9125890;1;8915970;1;8914949;8696837;1;8697858;1;8472578;1;8471557;8239109;1;8240130;1;7999490;1;7998469;7750661;1;7751682;1;7496706;1;7495685;7233541;1;7234562;1;6966274;1;6965253;6690821;1;6691842;1;6410242;1;6409221;6120453;1;6121474;1;5826562;1;5824513;5823489;5825539;5521411;5519361;5520385;1;5522434;1;279554;1;277505;276481;278531;582659;580609;581633;1;583682;1;878594;1;877573;1166341;1;1167362;1;1448962;1;1447941;1722373;1;1723394;1;1991682;1;1990661;2252805;1;2253826;1;2508802;1;2507781;2755589;1;2756610;1;2997250;1;2996229;3228677;1;3229698;1;3454978;1;3453957;3672069;1;3673090;1;3883010;1;3881989;4083717;1;4084738;1;4183042;1;4182021;4278277;1;4279298;1;4373506;1;4372485;4464645;1;4465666;1;4554754;1;4553733;4639749;1;4640770;1;4723714;1;4722693;4802565;1;4803586;1;4880386;1;4879365;4951045;1;4952066;1;5018626;1;5017605;50];
[51;10260484;10261508;1;10194948;10193924;10122244;10123268;1;10046468;10045444;9965572;9966596;1;9883652;9882628;9796612;9797636;1;9708548;9707524;9615364;9616388;1;9522180;9521156;9424900;9425924;1;9327620;9326596;9124868;9125892;1;8915972;8914948;8696836;8697860;1;8472580;8471556;8239108;8240132;1;7999492;7998468;7750660;7751684;1;7496708;7495684;7233540;7234564;1;6966276;6965252;6690820;6691844;1;6410244;6409220;6120452;6121476;1;5826564;5825540;5521412;5523457;5522435;1;279555;280577;278532;582660;583684;1;878596;877572;1166340;1167364;1;1448964;1447940;1722372;1723396;1;1991684;1990660;2252804;2253828;1;2508804;2507780;2755588;2756612;1;2997252;2996228;3228676;3229700;1;3454980;3453956;3672068;3673092;1;3883012;3881988;4083716;4084740;1;4183044;4182020;4278276;4279300;1;4373508;4372484;4464644;4465668;1;4554756;4553732;4639748;4640772;1;4723716;4722692;4802564;4803588;1;4880388;4879364;4951044;4952068;1;5018628;5017604;50];
[51;10260482;10261510;1;10194950;10193922;10122242;10123270;1;10046470;10045442;9965570;9966598;1;9883654;9882626;9796610;9797638;1;9708550;9707522;9615362;9616390;1;9522182;9521154;9424898;9425926;1;9327622;9326594;9124866;9125894;1;8915974;8914946;8696834;8697862;1;8472582;8471554;8239106;8240134;1;7999494;7998466;7750658;7751686;1;7496710;7495682;7233538;7234566;1;6966278;6965250;6690818;6691846;1;6410246;6409218;6120450;6121478;1;5826566;5825538;5521410;5524482;5523458;1;5522433;1;279553;1;280578;281602;278530;582658;583686;1;878598;877570;1166338;1167366;1;1448966;1447938;1722370;1723398;1;1991686;1990658;2252802;2253830;1;2508806;2507778;2755586;2756614;1;2997254;2996226;3228674;3229702;1;3454982;3453954;3672066;3673094;1;3883014;3881986;4083714;4084742;1;4183046;4182018;4278274;4279302;1;4373510;4372482;4464642;4465670;1;4554758;4553730;4639746;4640774;1;4723718;4722690;4802562;4803590;1;4880390;4879362;4951042;4952070;1;5018630;5017602;50];
[51;10261512;1;10194952;10123272;1;10046472;9966600;1;9883656;9797640;1;9708552;9616392;1;9522184;9425928;1;9327624;9125896;1;8915976;8697864;1;8472584;8240136;1;7999496;7751688;1;7496712;7234568;1;6966280;6691848;1;6410248;6121480;1;5826568;5524484;5523460;1;280580;281604;583688;1;878600;1167368;1;1448968;1723400;1;1991688;2253832;1;2508808;2756616;1;2997256;3229704;1;3454984;3673096;1;3883016;4084744;1;4183048;4279304;1;4373512;4465672;1;4554760;4640776;1;4723720;4803592;1;4880392;4952072;1;5018632;50];
[53;10261510;1;10194950;1;10195969;10124289;1;10123270;1;10046470;1;10047489;9967617;1;9966598;1;9883654;1;9884673;9798657;1;9797638;1;9708550;1;9709569;9617409;1;9616390;1;9522182;1;9523201;9426945;1;9425926;1;9327622;1;9328641;9126913;1;9125894;1;8915974;1;8916993;8698881;1;8697862;1;8472582;1;8473601;8241153;1;8240134;1;7999494;1;8000513;7752705;1;7751686;1;7496710;1;7497729;7235585;1;7234566;1;6966278;1;6967297;6692865;1;6691846;1;6410246;1;6411265;6122497;1;6121478;1;5826566;1;5827585;5526529;1;5524482;5523459;5525505;1;282625;280579;281602;1;283649;584705;1;583686;1;878598;1;879617;1168385;1;1167366;1;1448966;1;1449985;1724417;1;1723398;1;1991686;1;1992705;2254849;1;2253830;1;2508806;1;2509825;2757633;1;2756614;1;2997254;1;2998273;3230721;1;3229702;1;3454982;1;3456001;3674113;1;3673094;1;3883014;1;3884033;4085761;1;4084742;1;4183046;1;4184065;4280321;1;4279302;1;4373510;1;4374529;4466689;1;4465670;1;4554758;1;4555777;4641793;1;4640774;1;4723718;1;4724737;4804609;1;4803590;1;4880390;1;4881409;4953089;1;4952070;1;5018630;52];
[54;10261509;1;10194949;10195971;10124291;10123269;1;10046469;10047491;9967619;9966597;1;9883653;9884675;9798659;9797637;1;9708549;9709571;9617411;9616389;1;9522181;9523203;9426947;9425925;1;9327621;9328643;9126915;9125893;1;8915973;8916995;8698883;8697861;1;8472581;8473603;8241155;8240133;1;7999493;8000515;7752707;7751685;1;7496709;7497731;7235587;7234565;1;6966277;6967299;6692867;6691845;1;6410245;6411267;6122499;6121477;1;5826565;5827587;5526531;5524481;5523457;5525507;1;282627;280577;281601;283651;584707;583685;1;878597;879619;1168387;1167365;1;1448965;1449987;1724419;1723397;1;1991685;1992707;2254851;2253829;1;2508805;2509827;2757635;2756613;1;2997253;2998275;3230723;3229701;1;3454981;3456003;3674115;3673093;1;3883013;3884035;4085763;4084741;1;4183045;4184067;4280323;4279301;1;4373509;4374531;4466691;4465669;1;4554757;4555779;4641795;4640773;1;4723717;4724739;4804611;4803589;1;4880389;4881411;4953091;4952069;1;5018629;53];
[56;10261507;1;10194947;10195973;10124293;10123267;1;10046467;10047493;9967621;9966595;1;9883651;9884677;9798661;9797635;1;9708547;9709573;9617413;9616387;1;9522179;9523205;9426949;9425923;1;9327619;9328645;9126917;9125891;1;8915971;8916997;8698885;8697859;1;8472579;8473605;8241157;8240131;1;7999491;8000517;7752709;7751683;1;7496707;7497733;7235589;7234563;1;6966275;6967301;6692869;6691843;1;6410243;6411269;6122501;6121475;1;5826563;5827589;5526533;5525507;1;282627;283653;584709;583683;1;878595;879621;1168389;1167363;1;1448963;1449989;1724421;1723395;1;1991683;1992709;2254853;2253827;1;2508803;2509829;2757637;2756611;1;2997251;2998277;3230725;3229699;1;3454979;3456005;3674117;3673091;1;3883011;3884037;4085765;4084739;1;4183043;4184069;4280325;4279299;1;4373507;4374533;4466693;4465667;1;4554755;4555781;4641797;4640771;1;4723715;4724741;4804613;4803587;1;4880387;4881413;4953093;4952067;1;5018627;55];
[58;10261505;1;10194945;10195975;10124295;10123265;1;10046465;10047495;9967623;9966593;1;9883649;9884679;9798663;9797633;1;9708545;9709575;9617415;9616385;1;9522177;9523207;9426951;9425921;1;9327617;9328647;9126919;9125889;1;8915969;8916999;8698887;8697857;1;8472577;8473607;8241159;8240129;1;7999489;8000519;7752711;7751681;1;7496705;7497735;7235591;7234561;1;6966273;6967303;6692871;6691841;1;6410241;6411271;6122503;6121473;1;5826561;5827591;5526535;5525505;1;282625;283655;584711;583681;1;878593;879623;1168391;1167361;1;1448961;1449991;1724423;1723393;1;1991681;1992711;2254855;2253825;1;2508801;2509831;2757639;2756609;1;2997249;2998279;3230727;3229697;1;3454977;3456007;3674119;3673089;1;3883009;3884039;4085767;4084737;1;4183041;4184071;4280327;4279297;1;4373505;4374535;4466695;4465665;1;4554753;4555783;4641799;4640769;1;4723713;4724743;4804615;4803585;1;4880385;4881415;4953095;4952065;1;5018625;57];
[60;10195976;10124296;1;10047496;9967624;1;9884680;9798664;1;9709576;9617416;1;9523208;9426952;1;9328648;9126920;1;8917000;8698888;1;8473608;8241160;1;8000520;7752712;1;7497736;7235592;1;6967304;6692872;1;6411272;6122504;1;5827592;5526536;1;283656;584712;1;879624;1168392;1;1449992;1724424;1;1992712;2254856;1;2509832;2757640;1;2998280;3230728;1;3456008;3674120;1;3884040;4085768;1;4184072;4280328;1;4374536;4466696;1;4555784;4641800;1;4724744;4804616;1;4881416;4953096;59];
[60;10196993;10195975;10124295;10125313;1;10048513;10047495;9967623;9968641;1;9885697;9884679;9798663;9799681;1;9710593;9709575;9617415;9618433;1;9524225;9523207;9426951;9427969;1;9329665;9328647;9126919;9127937;1;8918017;8916999;8698887;8699905;1;8474625;8473607;8241159;8242177;1;8001537;8000519;7752711;7753729;1;7498753;7497735;7235591;7236609;1;6968321;6967303;6692871;6693889;1;6412289;6411271;6122503;6123521;1;5828609;5827591;5526535;5527553;1;284673;283655;584711;585729;1;880641;879623;1168391;1169409;1;1451009;1449991;1724423;1725441;1;1993729;1992711;2254855;2255873;1;2510849;2509831;2757639;2758657;1;2999297;2998279;3230727;3231745;1;3457025;3456007;3674119;3675137;1;3885057;3884039;4085767;4086785;1;4185089;4184071;4280327;4281345;1;4375553;4374535;4466695;4467713;1;4556801;4555783;4641799;4642817;1;4725761;4724743;4804615;4805633;1;4882433;4881415;4953095;4954113;59];
[60;10196995;10195973;10124293;10125315;1;10048515;10047493;9967621;9968643;1;9885699;9884677;9798661;9799683;1;9710595;9709573;9617413;9618435;1;9524227;9523205;9426949;9427971;1;9329667;9328645;9126917;9127939;1;8918019;8916997;8698885;8699907;1;8474627;8473605;8241157;8242179;1;8001539;8000517;7752709;7753731;1;7498755;7497733;7235589;7236611;1;6968323;6967301;6692869;6693891;1;6412291;6411269;6122501;6123523;1;5828611;5827589;5526533;5527555;1;284675;283653;584709;585731;1;880643;879621;1168389;1169411;1;1451011;1449989;1724421;1725443;1;1993731;1992709;2254853;2255875;1;2510851;2509829;2757637;2758659;1;2999299;2998277;3230725;3231747;1;3457027;3456005;3674117;3675139;1;3885059;3884037;4085765;4086787;1;4185091;4184069;4280325;4281347;1;4375555;4374533;4466693;4467715;1;4556803;4555781;4641797;4642819;1;4725763;4724741;4804613;4805635;1;4882435;4881413;4953093;4954115;59];
[60;10196996;1;10195971;10124291;10125317;1;10048516;1;10047491;9967619;9968645;1;9885700;1;9884675;9798659;9799685;1;9710596;1;9709571;9617411;9618437;1;9524228;1;9523203;9426947;9427973;1;9329668;1;9328643;9126915;9127941;1;8918020;1;8916995;8698883;8699909;1;8474628;1;8473603;8241155;1;8242180;1;8001540;1;8000515;7752707;1;7753732;1;7498756;1;7497731;7235587;1;7236612;1;6968324;1;6967299;6692867;1;6693892;1;6412292;1;6411267;6122499;1;6123524;1;5828612;1;5827587;5526531;1;5527556;1;284676;1;283651;584707;1;585732;1;880644;1;879619;1168387;1;1169412;1;1451012;1;1449987;1724419;1;1725444;1;1993732;1;1992707;2254851;1;2255876;1;2510852;1;2509827;2757635;1;2758660;1;2999300;1;2998275;3230723;1;3231748;1;3457029;3456003;3674115;1;3675140;1;3885061;3884035;4085763;1;4086788;1;4185093;4184067;4280323;1;4281348;1;4375557;4374531;4466691;1;4467716;1;4556805;4555779;4641795;1;4642820;1;4725765;4724739;4804611;1;4805636;1;4882437;4881411;4953091;1;4954116;59];
[60;10196998;10195970;10124290;10125318;1;10048518;10047490;9967618;9968646;1;9885702;9884674;9798658;9799686;1;9710598;9709570;9617410;9618438;1;9524230;9523202;9426946;9427974;1;9329670;9328642;9126914;9127942;1;8918022;8916994;8698882;8699910;1;8474630;8473602;8241154;8242182;1;8001542;8000514;7752706;7753734;1;7498758;7497730;7235586;7236614;1;6968326;6967298;6692866;6693894;1;6412294;6411266;6122498;6123526;1;5828614;5827586;5526530;5527558;1;284678;283650;584706;585734;1;880646;879618;1168386;1169414;1;1451014;1449986;1724418;1725446;1;1993734;1992706;2254850;2255878;1;2510854;2509826;2757634;2758662;1;2999302;2998274;3230722;3231750;1;3457030;3456002;3674114;3675142;1;3885062;3884034;4085762;4086790;1;4185094;4184066;4280322;4281350;1;4375558;4374530;4466690;4467718;1;4556806;4555778;4641794;4642822;1;4725766;4724738;4804610;4805638;1;4882438;4881410;4953090;4954118;59];
[60;10197000;10125320;1;10048520;9968648;1;9885704;9799688;1;9710600;9618440;1;9524232;9427976;1;9329672;9127944;1;8918024;8699912;1;8474632;8242184;1;8001544;7753736;1;7498760;7236616;1;6968328;6693896;1;6412296;6123528;1;5828616;5527560;1;284680;585736;1;880648;1169416;1;1451016;1725448;1;1993736;2255880;1;2510856;2758664;1;2999304;3231752;1;3457032;3675144;1;3885064;4086792;1;4185096;4281352;1;4375560;4467720;1;4556808;4642824;1;4725768;4805640;1;4882440;4954120;59];
[60;10196998;2;10126338;10125318;1;10048518;10049538;9969666;9968646;1;9885702;9886722;9800706;9799686;1;9710598;9711618;9619458;9618438;1;9524230;9525250;9428994;9427974;1;9329670;9330690;9128962;9127942;1;8918022;8919042;8700930;8699910;1;8474630;8475650;8243202;8242182;1;8001542;8002562;7754754;7753734;1;7498758;7499778;7237634;7236614;1;6968326;6969346;6694914;6693894;1;6412294;6413314;6124546;6123526;1;5828614;5829634;5528578;5527558;1;284678;285698;586754;585734;1;880646;881666;1170434;1169414;1;1451014;1452034;1726466;1725446;1;1993734;1994754;2256898;2255878;1;2510854;2511874;2759682;2758662;1;2999302;3000322;3232770;3231750;1;3457030;3458050;3676162;3675142;1;3885062;3886082;4087810;4086790;1;4185094;4186114;4282370;4281350;1;4375558;4376578;4468738;4467718;1;4556806;4557826;4643842;4642822;1;4725766;4726786;4806658;4805638;1;4882438;4883458;2;4954118;59];
[60;10196996;4;10126339;1;10125316;1;10048516;1;10049539;9969667;1;9968644;1;9885700;1;9886723;9800707;1;9799684;1;9710596;1;9711619;9619459;1;9618436;1;9524228;1;9525251;9428995;1;9427972;1;9329668;1;9330691;9128963;1;9127940;1;8918020;1;8919043;8700931;1;8699908;1;8474628;1;8475651;8243203;1;8242180;1;8001540;1;8002563;7754755;1;7753732;1;7498756;1;7499779;7237635;1;7236612;1;6968324;1;6969347;6694915;1;6693892;1;6412292;1;6413315;6124547;1;6123524;1;5828612;1;5829635;5528579;1;5527556;1;284676;1;285699;586755;1;585732;1;880644;1;881667;1170435;1;1169412;1;1451012;1;1452035;1726467;1;1725444;1;1993732;1;1994755;2256899;1;2255876;1;2510852;1;2511875;2759683;1;2758660;1;2999300;1;3000323;3232771;1;3231748;1;3457028;1;3458051;3676163;1;3675140;1;3885060;1;3886083;4087811;1;4086788;1;4185092;1;4186115;4282371;1;4281348;1;4375556;1;4376579;4468739;1;4467716;1;4556804;1;4557827;4643843;1;4642820;1;4725764;1;4726787;4806659;1;4805636;1;4882436;1;4883459;4;4954116;59];
[60;10196995;5;10126341;10125315;1;10048515;10049541;9969669;9968643;1;9885699;9886725;9800709;9799683;1;9710595;9711621;9619461;9618435;1;9524227;9525253;9428997;9427971;1;9329667;9330693;9128965;9127939;1;8918019;8919045;8700933;8699907;1;8474627;8475653;8243205;8242179;1;8001539;8002565;7754757;7753731;1;7498755;7499781;7237637;7236611;1;6968323;6969349;6694917;6693891;1;6412291;6413317;6124549;6123523;1;5828611;5829637;5528581;5527555;1;284675;285701;586757;585731;1;880643;881669;1170437;1169411;1;1451011;1452037;1726469;1725443;1;1993731;1994757;2256901;2255875;1;2510851;2511877;2759685;2758659;1;2999299;3000325;3232773;3231747;1;3457027;3458053;3676165;3675139;1;3885059;3886085;4087813;4086787;1;4185091;4186117;4282373;4281347;1;4375555;4376581;4468741;4467715;1;4556803;4557829;4643845;4642819;1;4725763;4726789;4806661;4805635;1;4882435;4883461;5;4954115;59];
[60;10196993;7;10126343;10125313;1;10048513;10049543;9969671;9968641;1;9885697;9886727;9800711;9799681;1;9710593;9711623;9619463;9618433;1;9524225;9525255;9428999;9427969;1;9329665;9330695;9128967;9127937;1;8918017;8919047;8700935;8699905;1;8474625;8475655;8243207;8242177;1;8001537;8002567;7754759;7753729;1;7498753;7499783;7237639;7236609;1;6968321;6969351;6694919;6693889;1;6412289;6413319;6124551;6123521;1;5828609;5829639;5528583;5527553;1;284673;285703;586759;585729;1;880641;881671;1170439;1169409;1;1451009;1452039;1726471;1725441;1;1993729;1994759;2256903;2255873;1;2510849;2511879;2759687;2758657;1;2999297;3000327;3232775;3231745;1;3457025;3458055;3676167;3675137;1;3885057;3886087;4087815;4086785;1;4185089;4186119;4282375;4281345;1;4375553;4376583;4468743;4467713;1;4556801;4557831;4643847;4642817;1;4725761;4726791;4806663;4805633;1;4882433;4883463;7;4954113;59];
[68;10126344;1;10049544;9969672;1;9886728;9800712;1;9711624;9619464;1;9525256;9429000;1;9330696;9128968;1;8919048;8700936;1;8475656;8243208;1;8002568;7754760;1;7499784;7237640;1;6969352;6694920;1;6413320;6124552;1;5829640;5528584;1;285704;586760;1;881672;1170440;1;1452040;1726472;1;1994760;2256904;1;2511880;2759688;1;3000328;3232776;1;3458056;3676168;1;3886088;4087816;1;4186120;4282376;1;4376584;4468744;1;4557832;4643848;1;4726792;4806664;1;4883464;67];
[68;10126342;1;10127361;1;10050561;1;10049542;9969670;1;9970689;1;9887745;1;9886726;9800710;1;9801729;1;9712641;1;9711622;9619462;1;9620481;1;9526273;1;9525254;9428998;1;9430017;1;9331713;1;9330694;9128966;1;9129985;1;8920065;1;8919046;8700934;1;8701953;1;8476673;1;8475654;8243206;1;8244225;1;8003585;1;8002566;7754758;1;7755777;1;7500801;1;7499782;7237638;1;7238657;1;6970369;1;6969350;6694918;1;6695937;1;6414337;1;6413318;6124550;1;6125569;1;5830657;1;5829638;5528582;1;5529601;1;286721;1;285702;586758;1;587777;1;882689;1;881670;1170438;1;1171457;1;1453057;1;1452038;1726470;1;1727489;1;1995777;1;1994758;2256902;1;2257921;1;2512897;1;2511878;2759686;1;2760705;1;3001345;1;3000326;3232774;1;3233793;1;3459073;1;3458054;3676166;1;3677185;1;3887105;1;3886086;4087814;1;4088833;1;4187137;1;4186118;4282374;1;4283393;1;4377601;1;4376582;4468742;1;4469761;1;4558849;1;4557830;4643846;1;4644865;1;4727809;1;4726790;4806662;1;4807681;1;4884481;1;4883462;67];
[68;10126341;10127363;1;10050563;10049541;9969669;9970691;1;9887747;9886725;9800709;9801731;1;9712643;9711621;9619461;9620483;1;9526275;9525253;9428997;9430019;1;9331715;9330693;9128965;9129987;1;8920067;8919045;8700933;8701955;1;8476675;8475653;8243205;8244227;1;8003587;8002565;7754757;7755779;1;7500803;7499781;7237637;7238659;1;6970371;6969349;6694917;6695939;1;6414339;6413317;6124549;6125571;1;5830659;5829637;5528581;5529603;1;286723;285701;586757;587779;1;882691;881669;1170437;1171459;1;1453059;1452037;1726469;1727491;1;1995779;1994757;2256901;2257923;1;2512899;2511877;2759685;2760707;1;3001347;3000325;3232773;3233795;1;3459075;3458053;3676165;3677187;1;3887107;3886085;4087813;4088835;1;4187139;4186117;4282373;4283395;1;4377603;4376581;4468741;4469763;1;4558851;4557829;4643845;4644867;1;4727811;4726789;4806661;4807683;1;4884483;4883461;67];
[68;10126339;10127365;1;10050565;10049539;9969667;9970693;1;9887749;9886723;9800707;9801733;1;9712645;9711619;9619459;9620485;1;9526277;9525251;9428995;9430021;1;9331717;9330691;9128963;9129989;1;8920069;8919043;8700931;8701957;1;8476677;8475651;8243203;8244229;1;8003589;8002563;7754755;7755781;1;7500805;7499779;7237635;7238661;1;6970373;6969347;6694915;6695941;1;6414341;6413315;6124547;6125573;1;5830661;5829635;5528579;5529605;1;286725;285699;586755;587781;1;882693;881667;1170435;1171461;1;1453061;1452035;1726467;1727493;1;1995781;1994755;2256899;2257925;1;2512901;2511875;2759683;2760709;1;3001349;3000323;3232771;3233797;1;3459077;3458051;3676163;3677189;1;3887109;3886083;4087811;4088837;1;4187141;4186115;4282371;4283397;1;4377605;4376579;4468739;4469765;1;4558853;4557827;4643843;4644869;1;4727813;4726787;4806659;4807685;1;4884485;4883459;67];
[68;10126337;10127367;1;10050567;10049537;9969665;9970695;1;9887751;9886721;9800705;9801735;1;9712647;9711617;9619457;9620487;1;9526279;9525249;9428993;9430023;1;9331719;9330689;9128961;9129991;1;8920071;8919041;8700929;8701959;1;8476679;8475649;8243201;8244231;1;8003591;8002561;7754753;7755783;1;7500807;7499777;7237633;7238663;1;6970375;6969345;6694913;6695943;1;6414343;6413313;6124545;6125575;1;5830663;5829633;5528577;5529607;1;286727;285697;586753;587783;1;882695;881665;1170433;1171463;1;1453063;1452033;1726465;1727495;1;1995783;1994753;2256897;2257927;1;2512903;2511873;2759681;2760711;1;3001351;3000321;3232769;3233799;1;3459079;3458049;3676161;3677191;1;3887111;3886081;4087809;4088839;1;4187143;4186113;4282369;4283399;1;4377607;4376577;4468737;4469767;1;4558855;4557825;4643841;4644871;1;4727815;4726785;4806657;4807687;1;4884487;4883457;67];
[68;10127368;1;10050568;9970696;1;9887752;9801736;1;9712648;9620488;1;9526280;9430024;1;9331720;9129992;1;8920072;8701960;1;8476680;8244232;1;8003592;7755784;1;7500808;7238664;1;6970376;6695944;1;6414344;6125576;1;5830664;5529608;1;286728;587784;1;882696;1171464;1;1453064;1727496;1;1995784;2257928;1;2512904;2760712;1;3001352;3233800;1;3459080;3677192;1;3887112;4088840;1;4187144;4283400;1;4377608;4469768;1;4558856;4644872;1;4727816;4807688;1;4884488;67];
[68;10128386;10127366;1;10050566;10051586;9971714;9970694;1;9887750;9888770;9802754;9801734;1;9712646;9713666;9621506;9620486;1;9526278;9527298;9431042;9430022;1;9331718;9332738;9131010;9129990;1;8920070;8921090;8702978;8701958;1;8476678;8477698;8245250;8244230;1;8003590;8004610;7756802;7755782;1;7500806;7501826;7239682;7238662;1;6970374;6971394;6696962;6695942;1;6414342;6415362;6126594;6125574;1;5830662;5831682;5530626;5529606;1;286726;287746;588802;587782;1;882694;883714;1172482;1171462;1;1453062;1454082;1728514;1727494;1;1995782;1996802;2258946;2257926;1;2512902;2513922;2761730;2760710;1;3001350;3002370;3234818;3233798;1;3459078;3460098;3678210;3677190;1;3887110;3888130;4089858;4088838;1;4187142;4188162;4284418;4283398;1;4377606;4378626;4470786;4469766;1;4558854;4559874;4645890;4644870;1;4727814;4728834;4808706;4807686;1;4884486;4885506;67];
[68;10128388;10127364;1;10050564;10051588;9971716;9970692;1;9887748;9888772;9802756;9801732;1;9712644;9713668;9621508;9620484;1;9526276;9527300;9431044;9430020;1;9331716;9332740;9131012;9129988;1;8920068;8921092;8702980;8701956;1;8476676;8477700;8245252;8244228;1;8003588;8004612;7756804;7755780;1;7500804;7501828;7239684;7238660;1;6970372;6971396;6696964;6695940;1;6414340;6415364;6126596;6125572;1;5830660;5831684;5530628;5529604;1;286724;287748;588804;587780;1;882692;883716;1172484;1171460;1;1453060;1454084;1728516;1727492;1;1995780;1996804;2258948;2257924;1;2512900;2513924;2761732;2760708;1;3001348;3002372;3234820;3233796;1;3459076;3460100;3678212;3677188;1;3887108;3888132;4089860;4088836;1;4187140;4188164;4284420;4283396;1;4377604;4378628;4470788;4469764;1;4558852;4559876;4645892;4644868;1;4727812;4728836;4808708;4807684;1;4884484;4885508;67];
[68;10128389;1;10127362;1;10050562;1;10051589;9971717;1;9970690;1;9887746;1;9888773;9802757;1;9801730;1;9712642;1;9713669;9621509;1;9620482;1;9526274;1;9527301;9431045;1;9430018;1;9331714;1;9332741;9131013;1;9129986;1;8920066;1;8921093;8702981;1;8701954;1;8476674;1;8477701;8245253;1;8244226;1;8003586;1;8004613;7756805;1;7755778;1;7500802;1;7501829;7239685;1;7238658;1;6970370;1;6971397;6696965;1;6695938;1;6414338;1;6415365;6126597;1;6125570;1;5830658;1;5831685;5530629;1;5529602;1;286722;1;287749;588805;1;587778;1;882690;1;883717;1172485;1;1171458;1;1453058;1;1454085;1728517;1;1727490;1;1995778;1;1996805;2258949;1;2257922;1;2512898;1;2513925;2761733;1;2760706;1;3001346;1;3002373;3234821;1;3233794;1;3459074;1;3460101;3678213;1;3677186;1;3887106;1;3888133;4089861;1;4088834;1;4187138;1;4188165;4284421;1;4283394;1;4377602;1;4378629;4470789;1;4469762;1;4558850;1;4559877;4645893;1;4644866;1;4727810;1;4728837;4808709;1;4807682;1;4884482;1;4885509;67];
[68;10128391;10127361;1;10050561;10051591;9971719;9970689;1;9887745;9888775;9802759;9801729;1;9712641;9713671;9621511;9620481;1;9526273;9527303;9431047;9430017;1;9331713;9332743;9131015;9129985;1;8920065;8921095;8702983;8701953;1;8476673;8477703;8245255;8244225;1;8003585;8004615;7756807;7755777;1;7500801;7501831;7239687;7238657;1;6970369;6971399;6696967;6695937;1;6414337;6415367;6126599;6125569;1;5830657;5831687;5530631;5529601;1;286721;287751;588807;587777;1;882689;883719;1172487;1171457;1;1453057;1454087;1728519;1727489;1;1995777;1996807;2258951;2257921;1;2512897;2513927;2761735;2760705;1;3001345;3002375;3234823;3233793;1;3459073;3460103;3678215;3677185;1;3887105;3888135;4089863;4088833;1;4187137;4188167;4284423;4283393;1;4377601;4378631;4470791;4469761;1;4558849;4559879;4645895;4644865;1;4727809;4728839;4808711;4807681;1;4884481;4885511;67];
[68;10128392;1;10051592;9971720;1;9888776;9802760;1;9713672;9621512;1;9527304;9431048;1;9332744;9131016;1;8921096;8702984;1;8477704;8245256;1;8004616;7756808;1;7501832;7239688;1;6971400;6696968;1;6415368;6126600;1;5831688;5530632;1;287752;588808;1;883720;1172488;1;1454088;1728520;1;1996808;2258952;1;2513928;2761736;1;3002376;3234824;1;3460104;3678216;1;3888136;4089864;1;4188168;4284424;1;4378632;4470792;1;4559880;4645896;1;4728840;4808712;1;4885512;67];
[68;10128390;3;10052610;10051590;9971718;9972738;1;9889794;9888774;9802758;9803778;1;9714690;9713670;9621510;9622530;1;9528322;9527302;9431046;9432066;1;9333762;9332742;9131014;9132034;1;8922114;8921094;8702982;8704002;1;8478722;8477702;8245254;8246274;1;8005634;8004614;7756806;7757826;1;7502850;7501830;7239686;7240706;1;6972418;6971398;6696966;6697986;1;6416386;6415366;6126598;6127618;1;5832706;5831686;5530630;5531650;1;288770;287750;588806;589826;1;884738;883718;1172486;1173506;1;1455106;1454086;1728518;1729538;1;1997826;1996806;2258950;2259970;1;2514946;2513926;2761734;2762754;1;3003394;3002374;3234822;3235842;1;3461122;3460102;3678214;3679234;1;3889154;3888134;4089862;4090882;1;4189186;4188166;4284422;4285442;1;4379650;4378630;4470790;4471810;1;4560898;4559878;4645894;4646914;1;4729858;4728838;4808710;4809730;3;4885510;67];
[68;10128388;5;10052611;1;10051588;9971716;1;9972739;1;9889795;1;9888772;9802756;1;9803779;1;9714691;1;9713668;9621508;1;9622531;1;9528323;1;9527300;9431044;1;9432067;1;9333763;1;9332740;9131012;1;9132035;1;8922115;1;8921092;8702980;1;8704003;1;8478723;1;8477700;8245252;1;8246275;1;8005635;1;8004612;7756804;1;7757827;1;7502851;1;7501828;7239684;1;7240707;1;6972419;1;6971396;6696964;1;6697987;1;6416387;1;6415364;6126596;1;6127619;1;5832707;1;5831684;5530628;1;5531651;1;288771;1;287748;588804;1;589827;1;884739;1;883716;1172484;1;1173507;1;1455107;1;1454084;1728516;1;1729539;1;1997827;1;1996804;2258948;1;2259971;1;2514947;1;2513924;2761732;1;2762755;1;3003395;1;3002372;3234820;1;3235843;1;3461123;1;3460100;3678212;1;3679235;1;3889155;1;3888132;4089860;1;4090883;1;4189187;1;4188164;4284420;1;4285443;1;4379651;1;4378628;4470788;1;4471811;1;4560899;1;4559876;4645892;1;4646915;1;4729859;1;4728836;4808708;1;4809731;5;4885508;67];
[68;10128387;6;10052613;10051587;9971715;9972741;1;9889797;9888771;9802755;9803781;1;9714693;9713667;9621507;9622533;1;9528325;9527299;9431043;9432069;1;9333765;9332739;9131011;9132037;1;8922117;8921091;8702979;8704005;1;8478725;8477699;8245251;8246277;1;8005637;8004611;7756803;7757829;1;7502853;7501827;7239683;7240709;1;6972421;6971395;6696963;6697989;1;6416389;6415363;6126595;6127621;1;5832709;5831683;5530627;5531653;1;288773;287747;588803;589829;1;884741;883715;1172483;1173509;1;1455109;1454083;1728515;1729541;1;1997829;1996803;2258947;2259973;1;2514949;2513923;2761731;2762757;1;3003397;3002371;3234819;3235845;1;3461125;3460099;3678211;3679237;1;3889157;3888131;4089859;4090885;1;4189189;4188163;4284419;4285445;1;4379653;4378627;4470787;4471813;1;4560901;4559875;4645891;4646917;1;4729861;4728835;4808707;4809733;6;4885507;67];
[68;10128385;8;10052615;10051585;9971713;9972743;1;9889799;9888769;9802753;9803783;1;9714695;9713665;9621505;9622535;1;9528327;9527297;9431041;9432071;1;9333767;9332737;9131009;9132039;1;8922119;8921089;8702977;8704007;1;8478727;8477697;8245249;8246279;1;8005639;8004609;7756801;7757831;1;7502855;7501825;7239681;7240711;1;6972423;6971393;6696961;6697991;1;6416391;6415361;6126593;6127623;1;5832711;5831681;5530625;5531655;1;288775;287745;588801;589831;1;884743;883713;1172481;1173511;1;1455111;1454081;1728513;1729543;1;1997831;1996801;2258945;2259975;1;2514951;2513921;2761729;2762759;1;3003399;3002369;3234817;3235847;1;3461127;3460097;3678209;3679239;1;3889159;3888129;4089857;4090887;1;4189191;4188161;4284417;4285447;1;4379655;4378625;4470785;4471815;1;4560903;4559873;4645889;4646919;1;4729863;4728833;4808705;4809735;8;4885505;67];
[77;10052615;10053633;9973761;9972743;1;9889799;9890817;9804801;9803783;1;9714695;9715713;9623553;9622535;1;9528327;9529345;9433089;9432071;1;9333767;9334785;9133057;9132039;1;8922119;8923137;8705025;8704007;1;8478727;8479745;8247297;8246279;1;8005639;8006657;7758849;7757831;1;7502855;7503873;7241729;7240711;1;6972423;6973441;6699009;6697991;1;6416391;6417409;6128641;6127623;1;5832711;5833729;5532673;5531655;1;288775;289793;590849;589831;1;884743;885761;1174529;1173511;1;1455111;1456129;1730561;1729543;1;1997831;1998849;2260993;2259975;1;2514951;2515969;2763777;2762759;1;3003399;3004417;3236865;3235847;1;3461127;3462145;3680257;3679239;1;3889159;3890177;4091905;4090887;1;4189191;4190209;4286465;4285447;1;4379655;4380673;4472833;4471815;1;4560903;4561921;4647937;4646919;1;4729863;4730881;4810753;4809735;76];
[77;10052613;1;10053634;9973762;9972742;1;9889797;1;9890818;9804802;9803782;1;9714693;1;9715714;9623554;9622534;1;9528325;1;9529346;9433090;9432070;1;9333765;1;9334786;9133058;9132038;1;8922117;1;8923138;8705026;1;8704005;1;8478725;1;8479746;8247298;1;8246277;1;8005637;1;8006658;7758850;1;7757829;1;7502853;1;7503874;7241730;1;7240709;1;6972421;1;6973442;6699010;1;6697989;1;6416389;1;6417410;6128642;1;6127621;1;5832709;1;5833730;5532674;1;5531653;1;288773;1;289794;590850;1;589829;1;884741;1;885762;1174530;1;1173509;1;1455109;1;1456130;1730562;1;1729541;1;1997829;1;1998850;2260994;1;2259973;1;2514949;1;2515970;2763778;1;2762757;1;3003397;1;3004418;3236866;1;3235845;1;3461125;1;3462146;3680258;1;3679237;1;3889158;3890178;4091906;1;4090885;1;4189190;4190210;4286466;1;4285445;1;4379654;4380674;4472834;1;4471813;1;4560902;4561922;4647938;1;4646917;1;4729862;4730882;4810754;1;4809733;76];
[77;10052612;10053636;9973764;9972740;1;9889796;9890820;9804804;9803780;1;9714692;9715716;9623556;9622532;1;9528324;9529348;9433092;9432068;1;9333764;9334788;9133060;9132036;1;8922116;8923140;8705028;8704004;1;8478724;8479748;8247300;8246276;1;8005636;8006660;7758852;7757828;1;7502852;7503876;7241732;7240708;1;6972420;6973444;6699012;6697988;1;6416388;6417412;6128644;6127620;1;5832708;5833732;5532676;5531652;1;288772;289796;590852;589828;1;884740;885764;1174532;1173508;1;1455108;1456132;1730564;1729540;1;1997828;1998852;2260996;2259972;1;2514948;2515972;2763780;2762756;1;3003396;3004420;3236868;3235844;1;3461124;3462148;3680260;3679236;1;3889156;3890180;4091908;4090884;1;4189188;4190212;4286468;4285444;1;4379652;4380676;4472836;4471812;1;4560900;4561924;4647940;4646916;1;4729860;4730884;4810756;4809732;76];
[77;10052610;10053638;9973766;9972738;1;9889794;9890822;9804806;9803778;1;9714690;9715718;9623558;9622530;1;9528322;9529350;9433094;9432066;1;9333762;9334790;9133062;9132034;1;8922114;8923142;8705030;8704002;1;8478722;8479750;8247302;8246274;1;8005634;8006662;7758854;7757826;1;7502850;7503878;7241734;7240706;1;6972418;6973446;6699014;6697986;1;6416386;6417414;6128646;6127618;1;5832706;5833734;5532678;5531650;1;288770;289798;590854;589826;1;884738;885766;1174534;1173506;1;1455106;1456134;1730566;1729538;1;1997826;1998854;2260998;2259970;1;2514946;2515974;2763782;2762754;1;3003394;3004422;3236870;3235842;1;3461122;3462150;3680262;3679234;1;3889154;3890182;4091910;4090882;1;4189186;4190214;4286470;4285442;1;4379650;4380678;4472838;4471810;1;4560898;4561926;4647942;4646914;1;4729858;4730886;4810758;4809730;76];
[77;10053640;9973767;2;9890824;9804807;2;9715720;9623559;2;9529352;9433095;2;9334792;9133063;2;8923144;8705031;2;8479752;8247303;2;8006664;7758855;2;7503880;7241736;1;6973448;6699016;1;6417416;6128648;1;5833736;5532680;1;289800;590856;1;885768;1174536;1;1456136;1730568;1;1998856;2261000;2;2515975;2763784;2;3004423;3236872;2;3462151;3680264;2;3890183;4091912;2;4190215;4286472;2;4380679;4472840;2;4561927;4647944;2;4730887;4810760;76];
[77;10053640;9973768;1;9890824;9804808;1;9715720;9623560;1;9529352;9433096;1;9334792;9133064;1;8923144;8705032;1;8479752;8247304;1;8006664;7758856;1;7503880;7241736;1;6973448;6699016;1;6417416;6128648;1;5833736;5532680;1;289800;590856;1;885768;1174536;1;1456136;1730568;1;1998856;2261000;1;2515976;2763784;1;3004424;3236872;1;3462152;3680264;1;3890184;4091912;1;4190216;4286472;1;4380680;4472840;1;4561928;4647944;1;4730888;4810760;76];
[79;10053638;9973766;9974786;1;9891842;9890822;9804806;9805826;1;9716738;9715718;9623558;9624578;1;9530370;9529350;9433094;9434114;1;9335810;9334790;9133062;9134082;1;8924162;8923142;8705030;8706050;1;8480770;8479750;8247302;8248322;1;8007682;8006662;7758854;7759874;1;7504898;7503878;7241734;7242754;1;6974466;6973446;6699014;6700034;1;6418434;6417414;6128646;6129666;1;5834754;5833734;5532678;5533698;1;290818;289798;590854;591874;1;886786;885766;1174534;1175554;1;1457154;1456134;1730566;1731586;1;1999874;1998854;2260998;2262018;1;2516994;2515974;2763782;2764802;1;3005442;3004422;3236870;3237890;1;3463170;3462150;3680262;3681282;1;3891202;3890182;4091910;4092930;1;4191234;4190214;4286470;4287490;1;4381698;4380678;4472838;4473858;1;4562946;4561926;4647942;4648962;1;4731906;4730886;4810758;78];
[81;10053636;9973764;9974788;1;9891844;9890820;9804804;9805828;1;9716740;9715716;9623556;9624580;1;9530372;9529348;9433092;9434116;1;9335812;9334788;9133060;9134084;1;8924164;8923140;8705028;8706052;1;8480772;8479748;8247300;8248324;1;8007684;8006660;7758852;7759876;1;7504900;7503876;7241732;7242756;1;6974468;6973444;6699012;6700036;1;6418436;6417412;6128644;6129668;1;5834756;5833732;5532676;5533700;1;290820;289796;590852;591876;1;886788;885764;1174532;1175556;1;1457156;1456132;1730564;1731588;1;1999876;1998852;2260996;2262020;1;2516996;2515972;2763780;2764804;1;3005444;3004420;3236868;3237892;1;3463172;3462148;3680260;3681284;1;3891204;3890180;4091908;4092932;1;4191236;4190212;4286468;4287492;1;4381700;4380676;4472836;4473860;1;4562948;4561924;4647940;4648964;1;4731908;4730884;4810756;80];
[83;10053634;9973762;1;9974789;1;9891845;1;9890818;9804802;1;9805829;1;9716741;1;9715714;9623554;1;9624581;1;9530373;1;9529346;9433090;1;9434117;1;9335813;1;9334786;9133058;1;9134085;1;8924165;1;8923138;8705026;1;8706053;1;8480773;1;8479746;8247298;1;8248325;1;8007685;1;8006658;7758850;1;7759877;1;7504901;1;7503874;7241730;1;7242757;1;6974469;1;6973442;6699010;1;6700037;1;6418437;1;6417410;6128642;1;6129669;1;5834757;1;5833730;5532674;1;5533701;1;290821;1;289794;590850;1;591877;1;886789;1;885762;1174530;1;1175557;1;1457157;1;1456130;1730562;1;1731589;1;1999877;1;1998850;2260994;1;2262021;1;2516997;1;2515970;2763778;1;2764805;1;3005445;1;3004418;3236866;1;3237893;1;3463173;1;3462146;3680258;1;3681285;1;3891205;1;3890178;4091906;1;4092933;1;4191237;1;4190210;4286466;1;4287493;1;4381701;1;4380674;4472834;1;4473861;1;4562949;1;4561922;4647938;1;4648965;1;4731909;1;4730882;4810754;82];
[84;10053633;9973761;9974791;1;9891847;9890817;9804801;9805831;1;9716743;9715713;9623553;9624583;1;9530375;9529345;9433089;9434119;1;9335815;9334785;9133057;9134087;1;8924167;8923137;8705025;8706055;1;8480775;8479745;8247297;8248327;1;8007687;8006657;7758849;7759879;1;7504903;7503873;7241729;7242759;1;6974471;6973441;6699009;6700039;1;6418439;6417409;6128641;6129671;1;5834759;5833729;5532673;5533703;1;290823;289793;590849;591879;1;886791;885761;1174529;1175559;1;1457159;1456129;1730561;1731591;1;1999879;1998849;2260993;2262023;1;2516999;2515969;2763777;2764807;1;3005447;3004417;3236865;3237895;1;3463175;3462145;3680257;3681287;1;3891207;3890177;4091905;4092935;1;4191239;4190209;4286465;4287495;1;4381703;4380673;4472833;4473863;1;4562951;4561921;4647937;4648967;1;4731911;4730881;4810753;83];
[86;9974791;1;9891847;9892865;9806849;9805831;1;9716743;9717761;9625601;9624583;1;9530375;9531393;9435137;9434119;1;9335815;9336833;9135105;9134087;1;8924167;8925185;8707073;8706055;1;8480775;8481793;8249345;8248327;1;8007687;8008705;7760897;7759879;1;7504903;7505921;7243777;7242759;1;6974471;6975489;6701057;6700039;1;6418439;6419457;6130689;6129671;1;5834759;5835777;5534721;5533703;1;290823;291841;592897;591879;1;886791;887809;1176577;1175559;1;1457159;1458177;1732609;1731591;1;1999879;2000897;2263041;2262023;1;2516999;2518017;2765825;2764807;1;3005447;3006465;3238913;3237895;1;3463175;3464193;3682305;3681287;1;3891207;3892225;4093953;4092935;1;4191239;4192257;4288513;4287495;1;4381703;4382721;4474881;4473863;1;4562951;4563969;4649985;4648967;1;4731911;85];
[88;9974789;1;9891845;9892867;9806851;9805829;1;9716741;9717763;9625603;9624581;1;9530373;9531395;9435139;9434117;1;9335813;9336835;9135107;9134085;1;8924165;8925187;8707075;8706053;1;8480773;8481795;8249347;8248325;1;8007685;8008707;7760899;7759877;1;7504901;7505923;7243779;7242757;1;6974469;6975491;6701059;6700037;1;6418437;6419459;6130691;6129669;1;5834757;5835779;5534723;5533701;1;290821;291843;592899;591877;1;886789;887811;1176579;1175557;1;1457157;1458179;1732611;1731589;1;1999877;2000899;2263043;2262021;1;2516997;2518019;2765827;2764805;1;3005445;3006467;3238915;3237893;1;3463173;3464195;3682307;3681285;1;3891205;3892227;4093955;4092933;1;4191237;4192259;4288515;4287493;1;4381701;4382723;4474883;4473861;1;4562949;4563971;4649987;4648965;1;4731909;87];
[90;9974787;1;9891843;1;9892868;9806852;1;9805827;1;9716739;1;9717764;9625604;1;9624579;1;9530371;1;9531396;9435140;1;9434115;1;9335811;1;9336836;9135108;1;9134083;1;8924163;1;8925188;8707076;1;8706051;1;8480771;1;8481796;8249348;1;8248323;1;8007683;1;8008708;7760900;1;7759875;1;7504899;1;7505924;7243780;1;7242755;1;6974467;1;6975492;6701060;1;6700035;1;6418435;1;6419460;6130692;1;6129667;1;5834755;1;5835780;5534724;1;5533699;1;290819;1;291844;592900;1;591875;1;886787;1;887812;1176580;1;1175555;1;1457155;1;1458180;1732612;1;1731587;1;1999875;1;2000900;2263044;1;2262019;1;2516995;1;2518020;2765828;1;2764803;1;3005443;1;3006468;3238916;1;3237891;1;3463171;1;3464196;3682308;1;3681283;1;3891203;1;3892228;4093956;1;4092931;1;4191235;1;4192260;4288516;1;4287491;1;4381699;1;4382724;4474884;1;4473859;1;4562947;1;4563972;4649988;1;4648963;1;4731907;89];
[91;9974786;1;9891842;9892870;9806854;9805826;1;9716738;9717766;9625606;9624578;1;9530370;9531398;9435142;9434114;1;9335810;9336838;9135110;9134082;1;8924162;8925190;8707078;8706050;1;8480770;8481798;8249350;8248322;1;8007682;8008710;7760902;7759874;1;7504898;7505926;7243782;7242754;1;6974466;6975494;6701062;6700034;1;6418434;6419462;6130694;6129666;1;5834754;5835782;5534726;5533698;1;290818;291846;592902;591874;1;886786;887814;1176582;1175554;1;1457154;1458182;1732614;1731586;1;1999874;2000902;2263046;2262018;1;2516994;2518022;2765830;2764802;1;3005442;3006470;3238918;3237890;1;3463170;3464198;3682310;3681282;1;3891202;3892230;4093958;4092930;1;4191234;4192262;4288518;4287490;1;4381698;4382726;4474886;4473858;1;4562946;4563974;4649990;4648962;1;4731906;90];
[94;9892872;9806856;1;9717768;9625608;1;9531400;9435144;1;9336840;9135112;1;8925192;8707080;1;8481800;8249352;1;8008712;7760904;1;7505928;7243784;1;6975496;6701064;1;6419464;6130696;1;5835784;5534728;1;291848;592904;1;887816;1176584;1;1458184;1732616;1;2000904;2263048;1;2518024;2765832;1;3006472;3238920;1;3464200;3682312;1;3892232;4093960;1;4192264;4288520;1;4382728;4474888;1;4563976;4649992;93];
[94;9893889;9892871;9806855;9807873;1;9718785;9717767;9625607;9626625;1;9532417;9531399;9435143;9436161;1;9337857;9336839;9135111;9136129;1;8926209;8925191;8707079;8708097;1;8482817;8481799;8249351;8250369;1;8009729;8008711;7760903;7761921;1;7506945;7505927;7243783;7244801;1;6976513;6975495;6701063;6702081;1;6420481;6419463;6130695;6131713;1;5836801;5835783;5534727;5535745;1;292865;291847;592903;593921;1;888833;887815;1176583;1177601;1;1459201;1458183;1732615;1733633;1;2001921;2000903;2263047;2264065;1;2519041;2518023;2765831;2766849;1;3007489;3006471;3238919;3239937;1;3465217;3464199;3682311;3683329;1;3893249;3892231;4093959;4094977;1;4193281;4192263;4288519;4289537;1;4383745;4382727;4474887;4475905;1;4564993;4563975;4649991;4651009;93];
[94;9893890;9892870;9806853;1;9807874;1;9718786;9717766;9625605;1;9626626;1;9532418;9531398;9435141;1;9436162;1;9337858;9336838;9135109;1;9136130;1;8926210;8925190;8707077;1;8708098;1;8482818;8481798;8249349;1;8250370;1;8009730;8008710;7760901;1;7761922;1;7506946;7505926;7243781;1;7244802;1;6976514;6975494;6701061;1;6702082;1;6420482;6419462;6130694;6131714;1;5836802;5835782;5534726;5535746;1;292866;291846;592902;593922;1;888834;887814;1176582;1177602;1;1459202;1;1458181;1732614;1733634;1;2001922;1;2000901;2263046;2264066;1;2519042;1;2518021;2765830;2766850;1;3007490;1;3006469;3238918;3239938;1;3465218;1;3464197;3682310;3683330;1;3893250;1;3892229;4093958;4094978;1;4193282;1;4192261;4288518;4289538;1;4383746;1;4382725;4474886;4475906;1;4564994;1;4563973;4649990;4651010;93];
[94;9893892;9892868;9806852;9807876;1;9718788;9717764;9625604;9626628;1;9532420;9531396;9435140;9436164;1;9337860;9336836;9135108;9136132;1;8926212;8925188;8707076;8708100;1;8482820;8481796;8249348;8250372;1;8009732;8008708;7760900;7761924;1;7506948;7505924;7243780;7244804;1;6976516;6975492;6701060;6702084;1;6420484;6419460;6130692;6131716;1;5836804;5835780;5534724;5535748;1;292868;291844;592900;593924;1;888836;887812;1176580;1177604;1;1459204;1458180;1732612;1733636;1;2001924;2000900;2263044;2264068;1;2519044;2518020;2765828;2766852;1;3007492;3006468;3238916;3239940;1;3465220;3464196;3682308;3683332;1;3893252;3892228;4093956;4094980;1;4193284;4192260;4288516;4289540;1;4383748;4382724;4474884;4475908;1;4564996;4563972;4649988;4651012;93];
[94;9893894;9892866;9806850;9807878;1;9718790;9717762;9625602;9626630;1;9532422;9531394;9435138;9436166;1;9337862;9336834;9135106;9136134;1;8926214;8925186;8707074;8708102;1;8482822;8481794;8249346;8250374;1;8009734;8008706;7760898;7761926;1;7506950;7505922;7243778;7244806;1;6976518;6975490;6701058;6702086;1;6420486;6419458;6130690;6131718;1;5836806;5835778;5534722;5535750;1;292870;291842;592898;593926;1;888838;887810;1176578;1177606;1;1459206;1458178;1732610;1733638;1;2001926;2000898;2263042;2264070;1;2519046;2518018;2765826;2766854;1;3007494;3006466;3238914;3239942;1;3465222;3464194;3682306;3683334;1;3893254;3892226;4093954;4094982;1;4193286;4192258;4288514;4289542;1;4383750;4382722;4474882;4475910;1;4564998;4563970;4649986;4651014;93];
[94;9893895;1;9807880;1;9718791;1;9626632;1;9532423;1;9436168;1;9337863;1;9136136;1;8926215;1;8708104;1;8482823;1;8250376;1;8009735;2;7761927;1;7506951;2;7244807;1;6976519;2;6702087;1;6420487;2;6131719;1;5836807;2;5535751;1;292871;2;593927;1;888839;2;1177607;1;1459207;2;1733639;1;2001927;2;2264071;1;2519047;2;2766855;1;3007496;1;3239943;1;3465224;1;3683335;1;3893256;1;4094983;1;4193288;1;4289543;1;4383752;1;4475911;1;4565000;1;4651015;93];
[94;9893895;1;9808897;9807879;1;9718791;9719809;9627649;9626631;1;9532423;9533441;9437185;9436167;1;9337863;9338881;9137153;9136135;1;8926215;8927233;8709121;8708103;1;8482823;8483841;8251393;8250375;1;8009735;8010753;7762945;7761927;1;7506951;7507969;7245825;7244807;1;6976519;6977537;6703105;6702087;1;6420487;6421505;6132737;6131719;1;5836807;5837825;5536769;5535751;1;292871;293889;594945;593927;1;888839;889857;1178625;1177607;1;1459207;1460225;1734657;1733639;1;2001927;2002945;2265089;2264071;1;2519047;2520065;2767873;2766855;1;3007495;3008513;3240961;3239943;1;3465223;3466241;3684353;3683335;1;3893255;3894273;4096001;4094983;1;4193287;4194305;4290561;4289543;1;4383751;4384769;4476929;4475911;1;4564999;4566017;1;4651015;93];
[94;9893893;3;9808899;9807877;1;9718789;9719811;9627651;9626629;1;9532421;9533443;9437187;9436165;1;9337861;9338883;9137155;9136133;1;8926213;8927235;8709123;8708101;1;8482821;8483843;8251395;8250373;1;8009733;8010755;7762947;7761925;1;7506949;7507971;7245827;7244805;1;6976517;6977539;6703107;6702085;1;6420485;6421507;6132739;6131717;1;5836805;5837827;5536771;5535749;1;292869;293891;594947;593925;1;888837;889859;1178627;1177605;1;1459205;1460227;1734659;1733637;1;2001925;2002947;2265091;2264069;1;2519045;2520067;2767875;2766853;1;3007493;3008515;3240963;3239941;1;3465221;3466243;3684355;3683333;1;3893253;3894275;4096003;4094981;1;4193285;4194307;4290563;4289541;1;4383749;4384771;4476931;4475909;1;4564997;4566019;3;4651013;93];
[94;9893891;5;9808901;9807875;1;9718787;9719813;9627653;9626627;1;9532419;9533445;9437189;9436163;1;9337859;9338885;9137157;9136131;1;8926211;8927237;8709125;8708099;1;8482819;8483845;8251397;8250371;1;8009731;8010757;7762949;7761923;1;7506947;7507973;7245829;7244803;1;6976515;6977541;6703109;6702083;1;6420483;6421509;6132741;6131715;1;5836803;5837829;5536773;5535747;1;292867;293893;594949;593923;1;888835;889861;1178629;1177603;1;1459203;1460229;1734661;1733635;1;2001923;2002949;2265093;2264067;1;2519043;2520069;2767877;2766851;1;3007491;3008517;3240965;3239939;1;3465219;3466245;3684357;3683331;1;3893251;3894277;4096005;4094979;1;4193283;4194309;4290565;4289539;1;4383747;4384773;4476933;4475907;1;4564995;4566021;5;4651011;93];
[94;9893889;7;9808902;1;9807873;1;9718785;1;9719814;9627654;1;9626625;1;9532417;1;9533446;9437190;1;9436161;1;9337857;1;9338886;9137158;1;9136129;1;8926209;1;8927238;8709126;1;8708097;1;8482817;1;8483846;8251398;1;8250369;1;8009729;1;8010758;7762950;1;7761921;1;7506945;1;7507974;7245830;1;7244801;1;6976513;1;6977542;6703110;1;6702081;1;6420481;1;6421510;6132742;1;6131713;1;5836801;1;5837830;5536774;1;5535745;1;292865;1;293894;594950;1;593921;1;888833;1;889862;1178630;1;1177601;1;1459201;1;1460230;1734662;1;1733633;1;2001921;1;2002950;2265094;1;2264065;1;2519041;1;2520070;2767878;1;2766849;1;3007489;1;3008518;3240966;1;3239937;1;3465217;1;3466246;3684358;1;3683329;1;3893249;1;3894278;4096006;1;4094977;1;4193281;1;4194310;4290566;1;4289537;1;4383745;1;4384774;4476934;1;4475905;1;4564993;1;4566022;7;4651009;93];
[102;9808904;1;9719816;9627656;1;9533448;9437192;1;9338888;9137160;1;8927240;8709128;1;8483848;8251400;1;8010760;7762952;1;7507976;7245832;1;6977544;6703112;1;6421512;6132744;1;5837832;5536776;1;293896;594952;1;889864;1178632;1;1460232;1734664;1;2002952;2265096;1;2520072;2767880;1;3008520;3240968;1;3466248;3684360;1;3894280;4096008;1;4194312;4290568;1;4384776;4476936;1;4566024;101];
[102;9808903;2;9720833;9719815;9627655;9628673;1;9534465;9533447;9437191;9438209;1;9339905;9338887;9137159;9138177;1;8928257;8927239;8709127;8710145;1;8484865;8483847;8251399;8252417;1;8011777;8010759;7762951;7763969;1;7508993;7507975;7245831;7246849;1;6978561;6977543;6703111;6704129;1;6422529;6421511;6132743;6133761;1;5838849;5837831;5536775;5537793;1;294913;293895;594951;595969;1;890881;889863;1178631;1179649;1;1461249;1460231;1734663;1735681;1;2003969;2002951;2265095;2266113;1;2521089;2520071;2767879;2768897;1;3009537;3008519;3240967;3241985;1;3467265;3466247;3684359;3685377;1;3895297;3894279;4096007;4097025;1;4195329;4194311;4290567;4291585;1;4385793;4384775;4476935;4477953;2;4566023;101];
[102;9808901;4;9720835;9719813;9627653;9628675;1;9534467;9533445;9437189;9438211;1;9339907;9338885;9137157;9138179;1;8928259;8927237;8709125;8710147;1;8484867;8483845;8251397;8252419;1;8011779;8010757;7762949;7763971;1;7508995;7507973;7245829;7246851;1;6978563;6977541;6703109;6704131;1;6422531;6421509;6132741;6133763;1;5838851;5837829;5536773;5537795;1;294915;293893;594949;595971;1;890883;889861;1178629;1179651;1;1461251;1460229;1734661;1735683;1;2003971;2002949;2265093;2266115;1;2521091;2520069;2767877;2768899;1;3009539;3008517;3240965;3241987;1;3467267;3466245;3684357;3685379;1;3895299;3894277;4096005;4097027;1;4195331;4194309;4290565;4291587;1;4385795;4384773;4476933;4477955;4;4566021;101];
[102;9808899;6;9720836;1;9719811;9627651;1;9628676;1;9534468;1;9533443;9437187;1;9438212;1;9339908;1;9338883;9137155;1;9138180;1;8928260;1;8927235;8709123;1;8710148;1;8484868;1;8483843;8251395;1;8252420;1;8011780;1;8010755;7762947;1;7763972;1;7508996;1;7507971;7245827;1;7246852;1;6978564;1;6977539;6703107;1;6704132;1;6422532;1;6421507;6132739;1;6133764;1;5838852;1;5837827;5536771;1;5537796;1;294916;1;293891;594947;1;595972;1;890884;1;889859;1178627;1;1179652;1;1461252;1;1460227;1734659;1;1735684;1;2003972;1;2002947;2265091;1;2266116;1;2521092;1;2520067;2767875;1;2768900;1;3009540;1;3008515;3240963;1;3241988;1;3467268;1;3466243;3684355;1;3685380;1;3895300;1;3894275;4096003;1;4097028;1;4195332;1;4194307;4290563;1;4291588;1;4385796;1;4384771;4476931;1;4477956;6;4566019;101];
[102;9808898;7;9720838;9719810;9627650;9628678;1;9534470;9533442;9437186;9438214;1;9339910;9338882;9137154;9138182;1;8928262;8927234;8709122;8710150;1;8484870;8483842;8251394;8252422;1;8011782;8010754;7762946;7763974;1;7508998;7507970;7245826;7246854;1;6978566;6977538;6703106;6704134;1;6422534;6421506;6132738;6133766;1;5838854;5837826;5536770;5537798;1;294918;293890;594946;595974;1;890886;889858;1178626;1179654;1;1461254;1460226;1734658;1735686;1;2003974;2002946;2265090;2266118;1;2521094;2520066;2767874;2768902;1;3009542;3008514;3240962;3241990;1;3467270;3466242;3684354;3685382;1;3895302;3894274;4096002;4097030;1;4195334;4194306;4290562;4291590;1;4385798;4384770;4476930;4477958;7;4566018;101];
[111;9720840;9628680;1;9534472;9438216;1;9339912;9138184;1;8928264;8710152;1;8484872;8252424;1;8011784;7763976;1;7509000;7246856;1;6978568;6704136;1;6422536;6133768;1;5838856;5537800;1;294920;595976;1;890888;1179656;1;1461256;1735688;1;2003976;2266120;1;2521096;2768904;1;3009544;3241992;1;3467272;3685384;1;3895304;4097032;1;4195336;4291592;1;4385800;4477960;110];
[111;9720838;9721858;9629698;9628678;1;9534470;9535490;9439234;9438214;1;9339910;9340930;9139202;9138182;1;8928262;8929282;8711170;8710150;1;8484870;8485890;8253442;8252422;1;8011782;8012802;7764994;7763974;1;7508998;7510018;7247874;7246854;1;6978566;6979586;6705154;6704134;1;6422534;6423554;6134786;6133766;1;5838854;5839874;5538818;5537798;1;294918;295938;596994;595974;1;890886;891906;1180674;1179654;1;1461254;1462274;1736706;1735686;1;2003974;2004994;2267138;2266118;1;2521094;2522114;2769922;2768902;1;3009542;3010562;3243010;3241990;1;3467270;3468290;3686402;3685382;1;3895302;3896322;4098050;4097030;1;4195334;4196354;4292610;4291590;1;4385798;4386818;4478978;4477958;110];
[111;9720837;9721859;9629699;9628677;1;9534469;9535491;9439235;9438213;1;9339909;9340931;9139203;9138181;1;8928261;8929283;8711171;8710149;1;8484869;8485891;8253443;8252421;1;8011781;8012803;7764995;7763973;1;7508997;7510019;7247875;7246853;1;6978565;6979587;6705155;6704133;1;6422533;6423555;6134787;6133765;1;5838853;5839875;5538819;5537797;1;294917;295939;596995;595973;1;890885;891907;1180675;1179653;1;1461253;1462275;1736707;1735685;1;2003973;2004995;2267139;2266117;1;2521093;2522115;2769923;2768901;1;3009541;3010563;3243011;3241989;1;3467269;3468291;3686403;3685381;1;3895301;3896323;4098051;4097029;1;4195333;4196355;4292611;4291589;1;4385797;4386819;4478979;4477957;110];
[111;9720835;9721861;9629701;9628675;1;9534467;9535493;9439237;9438211;1;9339907;9340933;9139205;9138179;1;8928259;8929285;8711173;8710147;1;8484867;8485893;8253445;8252419;1;8011779;8012805;7764997;7763971;1;7508995;7510021;7247877;7246851;1;6978563;6979589;6705157;6704131;1;6422531;6423557;6134789;6133763;1;5838851;5839877;5538821;5537795;1;294915;295941;596997;595971;1;890883;891909;1180677;1179651;1;1461251;1462277;1736709;1735683;1;2003971;2004997;2267141;2266115;1;2521091;2522117;2769925;2768899;1;3009539;3010565;3243013;3241987;1;3467267;3468293;3686405;3685379;1;3895299;3896325;4098053;4097027;1;4195331;4196357;4292613;4291587;1;4385795;4386821;4478981;4477955;110];
[111;9720833;9721863;9629703;9628673;1;9534465;9535495;9439239;9438209;1;9339905;9340935;9139207;9138177;1;8928257;8929287;8711175;8710145;1;8484865;8485895;8253447;8252417;1;8011777;8012807;7764999;7763969;1;7508993;7510023;7247879;7246849;1;6978561;6979591;6705159;6704129;1;6422529;6423559;6134791;6133761;1;5838849;5839879;5538823;5537793;1;294913;295943;596999;595969;1;890881;891911;1180679;1179649;1;1461249;1462279;1736711;1735681;1;2003969;2004999;2267143;2266113;1;2521089;2522119;2769927;2768897;1;3009537;3010567;3243015;3241985;1;3467265;3468295;3686407;3685377;1;3895297;3896327;4098055;4097025;1;4195329;4196359;4292615;4291585;1;4385793;4386823;4478983;4477953;110];
[111;9721864;9629704;1;9535496;9439240;1;9340936;9139208;1;8929288;8711176;1;8485896;8253448;1;8012808;7765000;1;7510024;7247880;1;6979592;6705160;1;6423560;6134792;1;5839880;5538824;1;295944;597000;1;891912;1180680;1;1462280;1736712;1;2005000;2267144;1;2522120;2769928;1;3010568;3243016;1;3468296;3686408;1;3896328;4098056;1;4196360;4292616;1;4386824;4478984;110];
[112;9721863;9629703;9630721;1;9536513;9535495;9439239;9440257;1;9341953;9340935;9139207;9140225;1;8930305;8929287;8711175;8712193;1;8486913;8485895;8253447;8254465;1;8013825;8012807;7764999;7766017;1;7511041;7510023;7247879;7248897;1;6980609;6979591;6705159;6706177;1;6424577;6423559;6134791;6135809;1;5840897;5839879;5538823;5539841;1;296961;295943;596999;598017;1;892929;891911;1180679;1181697;1;1463297;1462279;1736711;1737729;1;2006017;2004999;2267143;2268161;1;2523137;2522119;2769927;2770945;1;3011585;3010567;3243015;3244033;1;3469313;3468295;3686407;3687425;1;3897345;3896327;4098055;4099073;1;4197377;4196359;4292615;4293633;1;4387841;4386823;4478983;111];
[114;9721861;9629701;9630723;1;9536515;9535493;9439237;9440259;1;9341955;9340933;9139205;9140227;1;8930307;8929285;8711173;8712195;1;8486915;8485893;8253445;8254467;1;8013827;8012805;7764997;7766019;1;7511043;7510021;7247877;7248899;1;6980611;6979589;6705157;6706179;1;6424579;6423557;6134789;6135811;1;5840899;5839877;5538821;5539843;1;296963;295941;596997;598019;1;892931;891909;1180677;1181699;1;1463299;1462277;1736709;1737731;1;2006019;2004997;2267141;2268163;1;2523139;2522117;2769925;2770947;1;3011587;3010565;3243013;3244035;1;3469315;3468293;3686405;3687427;1;3897347;3896325;4098053;4099075;1;4197379;4196357;4292613;4293635;1;4387843;4386821;4478981;113];
[116;9721859;9629699;9630725;1;9536517;9535491;9439235;9440261;1;9341957;9340931;9139203;9140229;1;8930309;8929283;8711171;8712197;1;8486917;8485891;8253443;8254469;1;8013829;8012803;7764995;7766021;1;7511045;7510019;7247875;7248901;1;6980613;6979587;6705155;6706181;1;6424581;6423555;6134787;6135813;1;5840901;5839875;5538819;5539845;1;296965;295939;596995;598021;1;892933;891907;1180675;1181701;1;1463301;1462275;1736707;1737733;1;2006021;2004995;2267139;2268165;1;2523141;2522115;2769923;2770949;1;3011589;3010563;3243011;3244037;1;3469317;3468291;3686403;3687429;1;3897349;3896323;4098051;4099077;1;4197381;4196355;4292611;4293637;1;4387845;4386819;4478979;115];
[118;9721857;9629697;1;9630726;1;9536518;1;9535489;9439233;1;9440262;1;9341958;1;9340929;9139201;1;9140230;1;8930310;1;8929281;8711169;1;8712198;1;8486918;1;8485889;8253441;1;8254470;1;8013830;1;8012801;7764993;1;7766022;1;7511046;1;7510017;7247873;1;7248902;1;6980614;1;6979585;6705153;1;6706182;1;6424582;1;6423553;6134785;1;6135814;1;5840902;1;5839873;5538817;1;5539846;1;296966;1;295937;596993;1;598022;1;892934;1;891905;1180673;1;1181702;1;1463302;1;1462273;1736705;1;1737734;1;2006022;1;2004993;2267137;1;2268166;1;2523142;1;2522113;2769921;1;2770950;1;3011590;1;3010561;3243009;1;3244038;1;3469318;1;3468289;3686401;1;3687430;1;3897350;1;3896321;4098049;1;4099078;1;4197382;1;4196353;4292609;1;4293638;1;4387846;1;4386817;4478977;117];
[119;9630728;1;9536520;9440264;1;9341960;9140232;1;8930312;8712200;1;8486920;8254472;1;8013832;7766024;1;7511048;7248904;1;6980616;6706184;1;6424584;6135816;1;5840904;5539848;1;296968;598024;1;892936;1181704;1;1463304;1737736;1;2006024;2268168;1;2523144;2770952;1;3011592;3244040;1;3469320;3687432;1;3897352;4099080;1;4197384;4293640;1;4387848;118];
[121;9630726;1;9536518;9537538;9441282;9440262;1;9341958;9342978;9141250;9140230;1;8930310;8931330;8713218;8712198;1;8486918;8487938;8255490;8254470;1;8013830;8014850;7767042;7766022;1;7511046;7512066;7249922;7248902;1;6980614;6981634;6707202;6706182;1;6424582;6425602;6136834;6135814;1;5840902;5841922;5540866;5539846;1;296966;297986;599042;598022;1;892934;893954;1182722;1181702;1;1463302;1464322;1738754;1737734;1;2006022;2007042;2269186;2268166;1;2523142;2524162;2771970;2770950;1;3011590;3012610;3245058;3244038;1;3469318;3470338;3688450;3687430;1;3897350;3898370;4100098;4099078;1;4197382;4198402;4294658;4293638;1;4387846;120];
[123;9630724;1;9536516;9537540;9441284;9440260;1;9341956;9342980;9141252;9140228;1;8930308;8931332;8713220;8712196;1;8486916;8487940;8255492;8254468;1;8013828;8014852;7767044;7766020;1;7511044;7512068;7249924;7248900;1;6980612;6981636;6707204;6706180;1;6424580;6425604;6136836;6135812;1;5840900;5841924;5540868;5539844;1;296964;297988;599044;598020;1;892932;893956;1182724;1181700;1;1463300;1464324;1738756;1737732;1;2006020;2007044;2269188;2268164;1;2523140;2524164;2771972;2770948;1;3011588;3012612;3245060;3244036;1;3469316;3470340;3688452;3687428;1;3897348;3898372;4100100;4099076;1;4197380;4198404;4294660;4293636;1;4387844;122];
[124;9630723;1;9536514;1;9537541;9441285;9440259;1;9341954;1;9342981;9141253;1;9140226;1;8930306;1;8931333;8713221;1;8712194;1;8486914;1;8487941;8255493;1;8254466;1;8013826;1;8014853;7767045;1;7766018;1;7511042;1;7512069;7249925;1;7248898;1;6980610;1;6981637;6707205;1;6706178;1;6424578;1;6425605;6136837;1;6135810;1;5840898;1;5841925;5540869;1;5539842;1;296962;1;297989;599045;1;598018;1;892930;1;893957;1182725;1;1181698;1;1463298;1;1464325;1738757;1;1737730;1;2006018;1;2007045;2269189;1;2268162;1;2523138;1;2524165;2771973;1;2770946;1;3011586;1;3012613;3245061;1;3244034;1;3469314;1;3470341;3688453;1;3687426;1;3897346;1;3898373;4100101;1;4099074;1;4197379;4198405;4294661;1;4293634;1;4387843;123];
[126;9630721;1;9536513;9537543;9441287;9440257;1;9341953;9342983;9141255;9140225;1;8930305;8931335;8713223;8712193;1;8486913;8487943;8255495;8254465;1;8013825;8014855;7767047;7766017;1;7511041;7512071;7249927;7248897;1;6980609;6981639;6707207;6706177;1;6424577;6425607;6136839;6135809;1;5840897;5841927;5540871;5539841;1;296961;297991;599047;598017;1;892929;893959;1182727;1181697;1;1463297;1464327;1738759;1737729;1;2006017;2007047;2269191;2268161;1;2523137;2524167;2771975;2770945;1;3011585;3012615;3245063;3244033;1;3469313;3470343;3688455;3687425;1;3897345;3898375;4100103;4099073;1;4197377;4198407;4294663;4293633;1;4387841;125];
[128;9537544;9441288;1;9342984;9141256;1;8931336;8713224;1;8487944;8255496;1;8014856;7767048;1;7512072;7249928;1;6981640;6707208;1;6425608;6136840;1;5841928;5540872;1;297992;599048;1;893960;1182728;1;1464328;1738760;1;2007048;2269192;1;2524168;2771976;1;3012616;3245064;1;3470344;3688456;1;3898376;4100104;1;4198408;4294664;127];
[130;9537542;9441286;9442306;1;9344001;1;9342982;9141254;9142274;1;8932353;1;8931334;8713222;8714242;1;8488961;1;8487942;8255494;8256514;1;8015874;8014854;7767046;7768066;1;7513090;7512070;7249926;7250946;1;6982658;6981638;6707206;6708226;1;6426626;6425606;6136838;6137858;1;5842946;5841926;5540870;5541890;1;299010;297990;599046;600066;1;894978;893958;1182726;1183746;1;1465346;1464326;1738758;1739778;1;2008066;2007046;2269190;2270210;1;2525186;2524166;2771974;2772994;1;3013634;3012614;3245062;1;3246081;1;3471362;3470342;3688454;1;3689473;1;3899394;3898374;4100102;1;4101121;1;4199426;4198406;4294662;129];
[131;9537541;9441285;9442307;1;9344003;9342981;9141253;9142275;1;8932355;8931333;8713221;8714243;1;8488963;8487941;8255493;8256515;1;8015875;8014853;7767045;7768067;1;7513091;7512069;7249925;7250947;1;6982659;6981637;6707205;6708227;1;6426627;6425605;6136837;6137859;1;5842947;5841925;5540869;5541891;1;299011;297989;599045;600067;1;894979;893957;1182725;1183747;1;1465347;1464325;1738757;1739779;1;2008067;2007045;2269189;2270211;1;2525187;2524165;2771973;2772995;1;3013635;3012613;3245061;3246083;1;3471363;3470341;3688453;3689475;1;3899395;3898373;4100101;4101123;1;4199427;4198405;4294661;130];
[133;9537539;9441283;9442309;1;9344005;9342979;9141251;9142277;1;8932357;8931331;8713219;8714245;1;8488965;8487939;8255491;8256517;1;8015877;8014851;7767043;7768069;1;7513093;7512067;7249923;7250949;1;6982661;6981635;6707203;6708229;1;6426629;6425603;6136835;6137861;1;5842949;5841923;5540867;5541893;1;299013;297987;599043;600069;1;894981;893955;1182723;1183749;1;1465349;1464323;1738755;1739781;1;2008069;2007043;2269187;2270213;1;2525189;2524163;2771971;2772997;1;3013637;3012611;3245059;3246085;1;3471365;3470339;3688451;3689477;1;3899397;3898371;4100099;4101125;1;4199429;4198403;4294659;132];
[135;9537537;9441281;9442311;1;9344007;9342977;9141249;9142279;1;8932359;8931329;8713217;8714247;1;8488967;8487937;8255489;8256519;1;8015879;8014849;7767041;7768071;1;7513095;7512065;7249921;7250951;1;6982663;6981633;6707201;6708231;1;6426631;6425601;6136833;6137863;1;5842951;5841921;5540865;5541895;1;299015;297985;599041;600071;1;894983;893953;1182721;1183751;1;1465351;1464321;1738753;1739783;1;2008071;2007041;2269185;2270215;1;2525191;2524161;2771969;2772999;1;3013639;3012609;3245057;3246087;1;3471367;3470337;3688449;3689479;1;3899399;3898369;4100097;4101127;1;4199431;4198401;4294657;134];
[137;9442311;1;9344007;2;9142279;1;8932359;2;8714247;1;8488967;2;8256519;1;8015879;2;7768071;1;7513095;2;7250951;1;6982663;2;6708231;1;6426631;2;6137863;1;5842951;2;5541895;1;299015;2;600071;1;894983;2;1183751;1;1465351;2;1739783;1;2008071;2;2270215;1;2525191;2;2772999;1;3013639;2;3246087;1;3471367;2;3689479;1;3899399;2;4101127;1;4199431;136];
[138;9442310;1;9344006;9345026;9143298;9142278;1;8932358;8933378;8715266;8714246;1;8488966;8489986;8257538;8256518;1;8015878;8016898;7769090;7768070;1;7513094;7514114;7251970;7250950;1;6982662;6983682;6709250;6708230;1;6426630;6427650;6138882;6137862;1;5842950;5843970;5542914;5541894;1;299014;300034;601090;600070;1;894982;896002;1184770;1183750;1;1465350;1466370;1740802;1739782;1;2008070;2009090;2271234;2270214;1;2525190;2526210;2774018;2772998;1;3013638;3014658;3247106;3246086;1;3471366;3472386;3690498;3689478;1;3899398;3900418;4102146;4101126;1;4199430;137];
[140;9442308;1;9344004;9345028;9143300;9142276;1;8932356;8933380;8715268;8714244;1;8488964;8489988;8257540;8256516;1;8015876;8016900;7769092;7768068;1;7513092;7514116;7251972;7250948;1;6982660;6983684;6709252;6708228;1;6426628;6427652;6138884;6137860;1;5842948;5843972;5542916;5541892;1;299012;300036;601092;600068;1;894980;896004;1184772;1183748;1;1465348;1466372;1740804;1739780;1;2008068;2009092;2271236;2270212;1;2525188;2526212;2774020;2772996;1;3013636;3014660;3247108;3246084;1;3471364;3472388;3690500;3689476;1;3899396;3900420;4102148;4101124;1;4199428;139];
[142;9442306;1;9344002;9345030;9143302;9142274;1;8932354;8933382;8715270;8714242;1;8488962;8489990;8257542;8256514;1;8015874;8016902;7769094;7768066;1;7513090;7514118;7251974;7250946;1;6982658;6983686;6709254;6708226;1;6426626;6427654;6138886;6137858;1;5842946;5843974;5542918;5541890;1;299010;300038;601094;600066;1;894978;896006;1184774;1183746;1;1465346;1466374;1740806;1739778;1;2008066;2009094;2271238;2270210;1;2525186;2526214;2774022;2772994;1;3013634;3014662;3247110;3246082;1;3471362;3472390;3690502;3689474;1;3899394;3900422;4102150;4101122;1;4199426;141];
[146;9345031;9143303;3;8933383;8715271;3;8489991;8257543;3;8016903;7769095;3;7514119;7251975;3;6983687;6709255;3;6427655;6138887;3;5843975;5542919;3;300039;601095;3;896007;1184775;3;1466375;1740807;3;2009095;2271239;3;2526215;2774023;3;3014663;3247111;3;3472391;3690503;3;3900423;4102151;145];
[145;9345032;9143304;1;8933384;8715272;1;8489992;8257544;1;8016904;7769096;1;7514120;7251976;1;6983688;6709256;1;6427656;6138888;1;5843976;5542920;1;300040;601096;1;896008;1184776;1;1466376;1740808;1;2009096;2271240;1;2526216;2774024;1;3014664;3247112;1;3472392;3690504;1;3900424;4102152;144];
[147;9345030;9143302;9144322;1;8934402;8933382;8715270;8716290;1;8491010;8489990;8257542;8258562;1;8017922;8016902;7769094;7770114;1;7515138;7514118;7251974;7252994;1;6984706;6983686;6709254;6710274;1;6428674;6427654;6138886;6139906;1;5844994;5843974;5542918;5543938;1;301058;300038;601094;602114;1;897026;896006;1184774;1185794;1;1467394;1466374;1740806;1741826;1;2010114;2009094;2271238;2272258;1;2527234;2526214;2774022;2775042;1;3015682;3014662;3247110;3248130;1;3473410;3472390;3690502;3691522;1;3901442;3900422;4102150;146];
[149;9345028;9143300;9144324;1;8934404;8933380;8715268;8716292;1;8491012;8489988;8257540;8258564;1;8017924;8016900;7769092;7770116;1;7515140;7514116;7251972;7252996;1;6984708;6983684;6709252;6710276;1;6428676;6427652;6138884;6139908;1;5844996;5843972;5542916;5543940;1;301060;300036;601092;602116;1;897028;896004;1184772;1185796;1;1467396;1466372;1740804;1741828;1;2010116;2009092;2271236;2272260;1;2527236;2526212;2774020;2775044;1;3015684;3014660;3247108;3248132;1;3473412;3472388;3690500;3691524;1;3901444;3900420;4102148;148];
[150;9345027;9143298;1;9144325;1;8934405;8933379;8715266;1;8716293;1;8491013;8489987;8257538;1;8258565;1;8017925;8016899;7769090;1;7770117;1;7515141;7514115;7251970;1;7252997;1;6984709;6983683;6709250;1;6710277;1;6428677;6427651;6138882;1;6139909;1;5844997;5843971;5542915;5543941;1;301061;300035;601091;602117;1;897029;1;896002;1184771;1185797;1;1467397;1;1466370;1740803;1741829;1;2010117;1;2009090;2271235;2272261;1;2527237;1;2526210;2774019;2775045;1;3015685;1;3014658;3247107;3248133;1;3473413;1;3472386;3690499;3691525;1;3901445;1;3900418;4102147;149];
[152;9345025;9143297;9144327;1;8934407;8933377;8715265;8716295;1;8491015;8489985;8257537;8258567;1;8017927;8016897;7769089;7770119;1;7515143;7514113;7251969;7252999;1;6984711;6983681;6709249;6710279;1;6428679;6427649;6138881;6139911;1;5844999;5843969;5542913;5543943;1;301063;300033;601089;602119;1;897031;896001;1184769;1185799;1;1467399;1466369;1740801;1741831;1;2010119;2009089;2271233;2272263;1;2527239;2526209;2774017;2775047;1;3015687;3014657;3247105;3248135;1;3473415;3472385;3690497;3691527;1;3901447;3900417;4102145;151];
[154;9144327;1;8934407;8935425;8717313;8716295;1;8491015;8492033;8259585;8258567;1;8017927;8018945;7771137;7770119;1;7515143;7516161;7254017;7252999;1;6984711;6985729;6711297;6710279;1;6428679;6429697;6140929;6139911;1;5844999;5846017;5544961;5543943;1;301063;302081;603137;602119;1;897031;898049;1186817;1185799;1;1467399;1468417;1742849;1741831;1;2010119;2011137;2273281;2272263;1;2527239;2528257;2776065;2775047;1;3015687;3016705;3249153;3248135;1;3473415;3474433;3692545;3691527;1;3901447;153];
[156;9144325;1;8934405;8935427;8717314;1;8716293;1;8491013;8492035;8259586;1;8258565;1;8017925;8018947;7771138;1;7770117;1;7515141;1;7516162;7254018;1;7252997;1;6984709;1;6985730;6711298;1;6710277;1;6428677;1;6429698;6140930;1;6139909;1;5844997;1;5846018;5544962;1;5543941;1;301061;1;302082;603138;1;602117;1;897029;1;898050;1186818;1;1185797;1;1467397;1;1468418;1742850;1;1741829;1;2010117;1;2011138;2273282;1;2272261;1;2527237;1;2528258;2776067;2775045;1;3015685;1;3016706;3249155;3248133;1;3473413;1;3474434;3692547;3691525;1;3901445;155];
[157;9144324;1;8934404;8935428;8717316;8716292;1;8491012;8492036;8259588;8258564;1;8017924;8018948;7771140;7770116;1;7515140;7516164;7254020;7252996;1;6984708;6985732;6711300;6710276;1;6428676;6429700;6140932;6139908;1;5844996;5846020;5544964;5543940;1;301060;302084;603140;602116;1;897028;898052;1186820;1185796;1;1467396;1468420;1742852;1741828;1;2010116;2011140;2273284;2272260;1;2527236;2528260;2776068;2775044;1;3015684;3016708;3249156;3248132;1;3473412;3474436;3692548;3691524;1;3901444;156];
[159;9144322;1;8934402;8935430;8717318;8716290;1;8491010;8492038;8259590;8258562;1;8017922;8018950;7771142;7770114;1;7515138;7516166;7254022;7252994;1;6984706;6985734;6711302;6710274;1;6428674;6429702;6140934;6139906;1;5844994;5846022;5544966;5543938;1;301058;302086;603142;602114;1;897026;898054;1186822;1185794;1;1467394;1468422;1742854;1741826;1;2010114;2011142;2273286;2272258;1;2527234;2528262;2776070;2775042;1;3015682;3016710;3249158;3248130;1;3473410;3474438;3692550;3691522;1;3901442;158];
[162;8935432;8717320;1;8492040;8259592;1;8018952;7771144;1;7516168;7254024;1;6985736;6711304;1;6429704;6140936;1;5846024;5544968;1;302088;603144;1;898056;1186824;1;1468424;1742856;1;2011144;2273288;1;2528264;2776072;1;3016712;3249160;1;3474440;3692552;161];
[163;8935431;8717319;3;8492039;8259591;3;8018951;7771143;3;7516167;7254023;3;6985735;6711303;3;6429703;6140935;3;5846023;5544967;3;302087;603143;3;898055;1186823;3;1468423;1742855;3;2011143;2273287;3;2528263;2776071;3;3016711;3249159;3;3474439;3692551;162];
[164;8935430;8717318;8718338;1;8493058;8492038;8259590;8260610;1;8019970;8018950;7771142;7772162;1;7517186;7516166;7254022;7255042;1;6986754;6985734;6711302;6712322;1;6430722;6429702;6140934;6141954;1;5847042;5846022;5544966;5545986;1;303106;302086;603142;604162;1;899074;898054;1186822;1187842;1;1469442;1468422;1742854;1743874;1;2012162;2011142;2273286;2274306;1;2529282;2528262;2776070;2777090;1;3017730;3016710;3249158;3250178;1;3475458;3474438;3692550;163];
[166;8935428;8717316;8718340;1;8493060;8492036;8259588;8260612;1;8019972;8018948;7771140;7772164;1;7517188;7516164;7254020;7255044;1;6986756;6985732;6711300;6712324;1;6430724;6429700;6140932;6141956;1;5847044;5846020;5544964;5545988;1;303108;302084;603140;604164;1;899076;898052;1186820;1187844;1;1469444;1468420;1742852;1743876;1;2012164;2011140;2273284;2274308;1;2529284;2528260;2776068;2777092;1;3017732;3016708;3249156;3250180;1;3475460;3474436;3692548;165];
[168;8935426;8717314;8718342;1;8493062;8492034;8259586;8260614;1;8019974;8018946;7771138;7772166;1;7517190;7516162;7254018;7255046;1;6986758;6985730;6711298;6712326;1;6430726;6429698;6140930;6141958;1;5847046;5846018;5544962;5545990;1;303110;302082;603138;604166;1;899078;898050;1186818;1187846;1;1469446;1468418;1742850;1743878;1;2012166;2011138;2273282;2274310;1;2529286;2528258;2776066;2777094;1;3017734;3016706;3249154;3250182;1;3475462;3474434;3692546;167];
[171;8718343;1;8493063;2;8260615;1;8019975;2;7772167;1;7517191;2;7255047;1;6986759;2;6712327;1;6430727;2;6141959;1;5847047;2;5545991;1;303111;2;604167;1;899079;2;1187847;1;1469447;2;1743879;1;2012167;2;2274311;1;2529287;2;2777095;1;3017735;2;3250183;1;3475463;170];
[171;8718343;1;8493063;1;8261633;8260615;1;8019975;8020993;7773185;7772167;1;7517191;7518209;7256065;7255047;1;6986759;6987777;6713345;6712327;1;6430727;6431745;6142977;6141959;1;5847047;5848065;5547009;5545991;1;303111;304129;605185;604167;1;899079;900097;1188865;1187847;1;1469447;1470465;1744897;1743879;1;2012167;2013185;2275329;2274311;1;2529287;2530305;2778113;2777095;1;3017735;3018753;1;3250183;1;3475463;170];
[173;8718341;1;8493061;3;8261635;8260613;1;8019973;8020995;7773187;7772165;1;7517189;7518211;7256067;7255045;1;6986757;6987779;6713347;6712325;1;6430725;6431747;6142979;6141957;1;5847045;5848067;5547011;5545989;1;303109;304131;605187;604165;1;899077;900099;1188867;1187845;1;1469445;1470467;1744899;1743877;1;2012165;2013187;2275331;2274309;1;2529285;2530307;2778115;2777093;1;3017733;3018755;3;3250181;1;3475461;172];
[175;8718339;1;8493059;5;8261637;8260611;1;8019971;8020997;7773189;7772163;1;7517187;7518213;7256069;7255043;1;6986755;6987781;6713349;6712323;1;6430723;6431749;6142981;6141955;1;5847043;5848069;5547013;5545987;1;303107;304133;605189;604163;1;899075;900101;1188869;1187843;1;1469443;1470469;1744901;1743875;1;2012163;2013189;2275333;2274307;1;2529283;2530309;2778117;2777091;1;3017731;3018757;5;3250179;1;3475459;174];
[176;8718338;1;8493058;6;8261638;8260610;1;8019970;8020998;7773190;7772162;1;7517186;7518214;7256070;7255042;1;6986754;6987782;6713350;6712322;1;6430722;6431750;6142982;6141954;1;5847042;5848070;5547014;5545986;1;303106;304134;605190;604162;1;899074;900102;1188870;1187842;1;1469442;1470470;1744902;1743874;1;2012162;2013190;2275334;2274306;1;2529282;2530310;2778118;2777090;1;3017730;3018758;6;3250178;1;3475458;175];
[187;8261640;1;8021000;7773192;1;7518216;7256072;1;6987784;6713352;1;6431752;6142984;1;5848072;5547016;1;304136;605192;1;900104;1188872;1;1470472;1744904;1;2013192;2275336;1;2530312;2778120;1;3018760;186];
[187;8261639;2;8022017;8020999;7773191;7774209;1;7519233;7518215;7256071;7257089;1;6988801;6987783;6713351;6714369;1;6432769;6431751;6142983;6144001;1;5849089;5848071;5547015;5548033;1;305153;304135;605191;606209;1;901121;900103;1188871;1189889;1;1471489;1470471;1744903;1745921;1;2014209;2013191;2275335;2276353;1;2531329;2530311;2778119;2779137;2;3018759;186];
[187;8261637;4;8022018;1;8020997;7773189;1;7774210;1;7519234;1;7518213;7256069;1;7257090;1;6988802;1;6987781;6713349;1;6714370;1;6432770;1;6431749;6142981;1;6144002;1;5849090;1;5848069;5547013;1;5548034;1;305154;1;304133;605189;1;606210;1;901122;1;900101;1188869;1;1189890;1;1471490;1;1470469;1744901;1;1745922;1;2014210;1;2013189;2275333;1;2276354;1;2531330;1;2530309;2778117;1;2779138;4;3018757;186];
[187;8261636;5;8022020;8020996;7773188;7774212;1;7519236;7518212;7256068;7257092;1;6988804;6987780;6713348;6714372;1;6432772;6431748;6142980;6144004;1;5849092;5848068;5547012;5548036;1;305156;304132;605188;606212;1;901124;900100;1188868;1189892;1;1471492;1470468;1744900;1745924;1;2014212;2013188;2275332;2276356;1;2531332;2530308;2778116;2779140;5;3018756;186];
[187;8261634;7;8022022;8020994;7773186;7774214;1;7519238;7518210;7256066;7257094;1;6988806;6987778;6713346;6714374;1;6432774;6431746;6142978;6144006;1;5849094;5848066;5547010;5548038;1;305158;304130;605186;606214;1;901126;900098;1188866;1189894;1;1471494;1470466;1744898;1745926;1;2014214;2013186;2275330;2276358;1;2531334;2530306;2778114;2779142;7;3018754;186];
[196;8022024;7774216;1;7519240;7257096;1;6988808;6714376;1;6432776;6144008;1;5849096;5548040;1;305160;606216;1;901128;1189896;1;1471496;1745928;1;2014216;2276360;1;2531336;2779144;195];
[196;8022022;4;7774214;1;7519238;1;7520257;7258113;1;7257094;1;6988806;1;6989825;6715393;1;6714374;1;6432774;1;6433793;6145025;1;6144006;1;5849094;1;5850113;5549057;1;5548038;1;305158;1;306177;607233;1;606214;1;901126;1;902145;1190913;1;1189894;1;1471494;1;1472513;1746945;1;1745926;1;2014214;1;2015233;2277377;1;2276358;1;2531334;4;2779142;195];
[196;8022021;6;7774213;1;7519237;7520259;7258115;7257093;1;6988805;6989827;6715395;6714373;1;6432773;6433795;6145027;6144005;1;5849093;5850115;5549059;5548037;1;305157;306179;607235;606213;1;901125;902147;1190915;1189893;1;1471493;1472515;1746947;1745925;1;2014213;2015235;2277379;2276357;1;2531333;6;2779141;195];
[196;8022019;10;7774211;1;7519235;7520261;7258117;7257091;1;6988803;6989829;6715397;6714371;1;6432771;6433797;6145029;6144003;1;5849091;5850117;5549061;5548035;1;305155;306181;607237;606211;1;901123;902149;1190917;1189891;1;1471491;1472517;1746949;1745923;1;2014211;2015237;2277381;2276355;1;2531331;10;2779139;195];
[196;8022017;14;7774209;1;7519233;7520263;7258119;7257089;1;6988801;6989831;6715399;6714369;1;6432769;6433799;6145031;6144001;1;5849089;5850119;5549063;5548033;1;305153;306183;607239;606209;1;901121;902151;1190919;1189889;1;1471489;1472519;1746951;1745921;1;2014209;2015239;2277383;2276353;1;2531329;14;2779137;195];
[213;7520264;7258120;1;6989832;6715400;1;6433800;6145032;1;5850120;5549064;1;306184;607240;1;902152;1190920;1;1472520;1746952;1;2015240;2277384;212];
[214;7520263;7258119;3;6989831;6715399;2;6434817;6433799;6145031;6146049;1;5851137;5850119;5549063;5550081;1;307201;306183;607239;608257;1;903169;902151;1190919;1191937;2;1472519;1746951;3;2015239;2277383;213];
[216;7520261;7258117;7;6989829;6715397;4;6434819;6433797;6145029;6146051;1;5851139;5850117;5549061;5550083;1;307203;306181;607237;608259;1;903171;902149;1190917;1191939;4;1472517;1746949;7;2015237;2277381;215];
[218;7520259;7258115;11;6989827;6715395;6;6434821;6433795;6145027;6146053;1;5851141;5850115;5549059;5550085;1;307205;306179;607235;608261;1;903173;902147;1190915;1191941;6;1472515;1746947;11;2015235;2277379;217];
[219;7520258;7258114;13;6989826;6715394;7;6434822;6433794;6145026;6146054;1;5851142;5850114;5549058;5550086;1;307206;306178;607234;608262;1;903174;902146;1190914;1191942;7;1472514;1746946;13;2015234;2277378;218];
[247;6434824;6146056;1;5851144;5550088;1;307208;608264;1;903176;1191944;246];
[247;6434822;4;6146054;1;5851142;4;5550086;1;307206;4;608262;1;903174;4;1191942;246];
[247;6434820;8;6146052;1;5851140;8;5550084;1;307204;8;608260;1;903172;8;1191940;246];
[247;6434819;10;6146051;1;5851139;10;5550083;1;307203;10;608259;1;903171;10;1191939;246];
[247;6434817;14;6146049;1;5851137;14;5550081;1;307201;14;608257;1;903169;14;1191937;246];
[560];
[560];
[560];
[560];
[560]
].
