(** GENERATED by tools/gen.py from /repo/lib/converters; do not edit.
    Mapping tables. *)
From Coq Require Import ZArith List Bool.
From Verif Require Import Base.
Import ListNotations.
Open Scope Z_scope.

(* lib/converters/johab_hangul.h:65-70 jamo_initial *)
Definition jamo_initial : tab := mk [
 [253;255;1;2;4;7;8;9;17;18;19;21;22;23;24;25];
 [26;27;28;29;30;253;253;253;253;253;253;253;253;253;253;253]].

(* lib/converters/johab_hangul.h:71-76 jamo_medial *)
Definition jamo_medial : tab := mk [
 [253;253;255;31;32;33;34;35;253;253;36;37;38;39;40;41];
 [253;253;42;43;44;45;46;47;253;253;48;49;50;51;253;253]].

(* lib/converters/johab_hangul.h:77-82 jamo_final *)
Definition jamo_final : tab := mk [
 [253;255;1;2;3;4;5;6;7;9;10;11;12;13;14;15];
 [16;17;253;18;20;21;22;23;24;26;27;28;29;30;253;253]].

(* lib/converters/johab_hangul.h:85-90 jamo_final_notinitial *)
Definition jamo_final_notinitial : tab := mk [
 [253;253;253;253;3;253;5;6;253;253;10;11;12;13;14;15];
 [16;253;253;253;20;253;253;253;253;253;253;253;253;253;253;253]].

(* lib/converters/johab_hangul.h:95-100 jamo_initial_index *)
Definition jamo_initial_index : tab := mk [
 [(-1);0;1;2;3;4;5;6;7;8;9;10;11;12;13;14];
 [15;16;17;18;19;(-1);(-1);(-1);(-1);(-1);(-1);(-1);(-1);(-1);(-1);(-1)]].

(* lib/converters/johab_hangul.h:101-106 jamo_medial_index *)
Definition jamo_medial_index : tab := mk [
 [(-1);(-1);0;1;2;3;4;5;(-1);(-1);6;7;8;9;10;11];
 [(-1);(-1);12;13;14;15;16;17;(-1);(-1);18;19;20;21;(-1);(-1)]].

(* lib/converters/johab_hangul.h:107-112 jamo_final_index *)
Definition jamo_final_index : tab := mk [
 [(-1);0;1;2;3;4;5;6;7;8;9;10;11;12;13;14];
 [15;16;(-1);17;18;19;20;21;22;23;24;25;26;27;(-1);(-1)]].

(* lib/converters/johab_hangul.h:187-195 johab_hangul_page31 *)
Definition johab_hangul_page31 : tab := mk [
 [34881;35905;33860;36929;33862;33863;37953;38977;40001;33866;33867;33868;33869;33870;33871;33872];
 [41025;42049;43073;33876;44097;45121;46145;47169;48193;49217;50241;51265;52289;53313;33889;33921];
 [33953;33985;34017;34113;34145;34177;34209;34241;34273;34369;34401;34433;34465;34497;34529;34625];
 [34657;34689;34721]].

(* lib/converters/johab_hangul.h:200-204 jamo_initial_index_inverse *)
Definition jamo_initial_index_inverse : tab := mk [
 [2;3;4;5;6;7;8;9;10;11;12;13;14;15;16;17];
 [18;19;20]].

(* lib/converters/johab_hangul.h:207-212 jamo_medial_index_inverse *)
Definition jamo_medial_index_inverse : tab := mk [
 [3;4;5;6;7;10;11;12;13;14;15;18;19;20;21;22];
 [23;26;27;28;29]].

(* lib/converters/johab_hangul.h:215-220 jamo_final_index_inverse *)
Definition jamo_final_index_inverse : tab := mk [
 [1;2;3;4;5;6;7;8;9;10;11;12;13;14;15;16];
 [17;19;20;21;22;23;24;25;26;27;28;29]].

(* lib/converters/ksc5601.h:30-186 ksc5601_2uni_page21 *)
Definition ksc5601_2uni_page21 : tab := mk [
 [12288;12289;12290;183;8229;8230;168;12291;173;8213;8741;65340;8764;8216;8217;8220];
 [8221;12308;12309;12296;12297;12298;12299;12300;12301;12302;12303;12304;12305;177;215;247];
 [8800;8804;8805;8734;8756;176;8242;8243;8451;8491;65504;65505;65509;9794;9792;8736];
 [8869;8978;8706;8711;8801;8786;167;8251;9734;9733;9675;9679;9678;9671;9670;9633];
 [9632;9651;9650;9661;9660;8594;8592;8593;8595;8596;12307;8810;8811;8730;8765;8733];
 [8757;8747;8748;8712;8715;8838;8839;8834;8835;8746;8745;8743;8744;65506;8658;8660];
 [8704;8707;180;65374;711;728;733;730;729;184;731;161;191;720;8750;8721];
 [8719;164;8457;8240;9665;9664;9655;9654;9828;9824;9825;9829;9831;9827;8857;9672];
 [9635;9680;9681;9618;9636;9637;9640;9639;9638;9641;9832;9743;9742;9756;9758;182];
 [8224;8225;8597;8599;8601;8598;8600;9837;9833;9834;9836;12927;12828;8470;13255;8482];
 [13250;13272;8481;8364;174;12926;65533;65533;65533;65533;65533;65533;65533;65533;65533;65533];
 [65533;65533;65533;65533;65533;65533;65533;65533;65533;65533;65533;65533;65281;65282;65283;65284];
 [65285;65286;65287;65288;65289;65290;65291;65292;65293;65294;65295;65296;65297;65298;65299;65300];
 [65301;65302;65303;65304;65305;65306;65307;65308;65309;65310;65311;65312;65313;65314;65315;65316];
 [65317;65318;65319;65320;65321;65322;65323;65324;65325;65326;65327;65328;65329;65330;65331;65332];
 [65333;65334;65335;65336;65337;65338;65339;65510;65341;65342;65343;65344;65345;65346;65347;65348];
 [65349;65350;65351;65352;65353;65354;65355;65356;65357;65358;65359;65360;65361;65362;65363;65364];
 [65365;65366;65367;65368;65369;65370;65371;65372;65373;65507;12593;12594;12595;12596;12597;12598];
 [12599;12600;12601;12602;12603;12604;12605;12606;12607;12608;12609;12610;12611;12612;12613;12614];
 [12615;12616;12617;12618;12619;12620;12621;12622;12623;12624;12625;12626;12627;12628;12629;12630];
 [12631;12632;12633;12634;12635;12636;12637;12638;12639;12640;12641;12642;12643;12644;12645;12646];
 [12647;12648;12649;12650;12651;12652;12653;12654;12655;12656;12657;12658;12659;12660;12661;12662];
 [12663;12664;12665;12666;12667;12668;12669;12670;12671;12672;12673;12674;12675;12676;12677;12678];
 [12679;12680;12681;12682;12683;12684;12685;12686;8560;8561;8562;8563;8564;8565;8566;8567];
 [8568;8569;65533;65533;65533;65533;65533;8544;8545;8546;8547;8548;8549;8550;8551;8552];
 [8553;65533;65533;65533;65533;65533;65533;65533;913;914;915;916;917;918;919;920];
 [921;922;923;924;925;926;927;928;929;931;932;933;934;935;936;937];
 [65533;65533;65533;65533;65533;65533;65533;65533;945;946;947;948;949;950;951;952];
 [953;954;955;956;957;958;959;960;961;963;964;965;966;967;968;969];
 [65533;65533;65533;65533;65533;65533;9472;9474;9484;9488;9496;9492;9500;9516;9508;9524];
 [9532;9473;9475;9487;9491;9499;9495;9507;9523;9515;9531;9547;9504;9519;9512;9527];
 [9535;9501;9520;9509;9528;9538;9490;9489;9498;9497;9494;9493;9486;9485;9502;9503];
 [9505;9506;9510;9511;9513;9514;9517;9518;9521;9522;9525;9526;9529;9530;9533;9534];
 [9536;9537;9539;9540;9541;9542;9543;9544;9545;9546;65533;65533;65533;65533;65533;65533];
 [65533;65533;65533;65533;65533;65533;65533;65533;65533;65533;65533;65533;65533;65533;65533;65533];
 [65533;65533;65533;65533;13205;13206;13207;8467;13208;13252;13219;13220;13221;13222;13209;13210];
 [13211;13212;13213;13214;13215;13216;13217;13218;13258;13197;13198;13199;13263;13192;13193;13256];
 [13223;13224;13232;13233;13234;13235;13236;13237;13238;13239;13240;13241;13184;13185;13186;13187];
 [13188;13242;13243;13244;13245;13246;13247;13200;13201;13202;13203;13204;8486;13248;13249;13194];
 [13195;13196;13270;13253;13229;13230;13231;13275;13225;13226;13227;13228;13277;13264;13267;13251];
 [13257;13276;13254;65533;65533;65533;65533;65533;65533;65533;65533;65533;65533;65533;65533;65533];
 [65533;65533;198;208;170;294;65533;306;65533;319;321;216;338;186;222;358];
 [330;65533;12896;12897;12898;12899;12900;12901;12902;12903;12904;12905;12906;12907;12908;12909];
 [12910;12911;12912;12913;12914;12915;12916;12917;12918;12919;12920;12921;12922;12923;9424;9425];
 [9426;9427;9428;9429;9430;9431;9432;9433;9434;9435;9436;9437;9438;9439;9440;9441];
 [9442;9443;9444;9445;9446;9447;9448;9449;9312;9313;9314;9315;9316;9317;9318;9319];
 [9320;9321;9322;9323;9324;9325;9326;189;8531;8532;188;190;8539;8540;8541;8542];
 [230;273;240;295;305;307;312;320;322;248;339;223;254;359;331;329];
 [12800;12801;12802;12803;12804;12805;12806;12807;12808;12809;12810;12811;12812;12813;12814;12815];
 [12816;12817;12818;12819;12820;12821;12822;12823;12824;12825;12826;12827;9372;9373;9374;9375];
 [9376;9377;9378;9379;9380;9381;9382;9383;9384;9385;9386;9387;9388;9389;9390;9391];
 [9392;9393;9394;9395;9396;9397;9332;9333;9334;9335;9336;9337;9338;9339;9340;9341];
 [9342;9343;9344;9345;9346;185;178;179;8308;8319;8321;8322;8323;8324;12353;12354];
 [12355;12356;12357;12358;12359;12360;12361;12362;12363;12364;12365;12366;12367;12368;12369;12370];
 [12371;12372;12373;12374;12375;12376;12377;12378;12379;12380;12381;12382;12383;12384;12385;12386];
 [12387;12388;12389;12390;12391;12392;12393;12394;12395;12396;12397;12398;12399;12400;12401;12402];
 [12403;12404;12405;12406;12407;12408;12409;12410;12411;12412;12413;12414;12415;12416;12417;12418];
 [12419;12420;12421;12422;12423;12424;12425;12426;12427;12428;12429;12430;12431;12432;12433;12434];
 [12435;65533;65533;65533;65533;65533;65533;65533;65533;65533;65533;65533;12449;12450;12451;12452];
 [12453;12454;12455;12456;12457;12458;12459;12460;12461;12462;12463;12464;12465;12466;12467;12468];
 [12469;12470;12471;12472;12473;12474;12475;12476;12477;12478;12479;12480;12481;12482;12483;12484];
 [12485;12486;12487;12488;12489;12490;12491;12492;12493;12494;12495;12496;12497;12498;12499;12500];
 [12501;12502;12503;12504;12505;12506;12507;12508;12509;12510;12511;12512;12513;12514;12515;12516];
 [12517;12518;12519;12520;12521;12522;12523;12524;12525;12526;12527;12528;12529;12530;12531;12532];
 [12533;12534;65533;65533;65533;65533;65533;65533;65533;65533;1040;1041;1042;1043;1044;1045];
 [1025;1046;1047;1048;1049;1050;1051;1052;1053;1054;1055;1056;1057;1058;1059;1060];
 [1061;1062;1063;1064;1065;1066;1067;1068;1069;1070;1071;65533;65533;65533;65533;65533];
 [65533;65533;65533;65533;65533;65533;65533;65533;65533;65533;1072;1073;1074;1075;1076;1077];
 [1105;1078;1079;1080;1081;1082;1083;1084;1085;1086;1087;1088;1089;1090;1091;1092];
 [1093;1094;1095;1096;1097;1098;1099;1100;1101;1102;1103]].

(* lib/converters/ksc5601.h:187-513 ksc5601_2uni_page30 *)
Definition ksc5601_2uni_page30 : tab := mk [
 [44032;44033;44036;44039;44040;44041;44042;44048;44049;44050;44051;44052;44053;44054;44055;44057];
 [44058;44059;44060;44061;44064;44068;44076;44077;44079;44080;44081;44088;44089;44092;44096;44107];
 [44109;44116;44120;44124;44144;44145;44148;44151;44152;44154;44160;44161;44163;44164;44165;44166];
 [44169;44170;44171;44172;44176;44180;44188;44189;44191;44192;44193;44200;44201;44202;44204;44207];
 [44208;44216;44217;44219;44220;44221;44225;44228;44232;44236;44245;44247;44256;44257;44260;44263];
 [44264;44266;44268;44271;44272;44273;44275;44277;44278;44284;44285;44288;44292;44294;44300;44301];
 [44303;44305;44312;44316;44320;44329;44332;44333;44340;44341;44344;44348;44356;44357;44359;44361];
 [44368;44372;44376;44385;44387;44396;44397;44400;44403;44404;44405;44406;44411;44412;44413;44415];
 [44417;44418;44424;44425;44428;44432;44444;44445;44452;44471;44480;44481;44484;44488;44496;44497];
 [44499;44508;44512;44516;44536;44537;44540;44543;44544;44545;44552;44553;44555;44557;44564;44592];
 [44593;44596;44599;44600;44602;44608;44609;44611;44613;44614;44618;44620;44621;44622;44624;44628];
 [44630;44636;44637;44639;44640;44641;44645;44648;44649;44652;44656;44664;44665;44667;44668;44669];
 [44676;44677;44684;44732;44733;44734;44736;44740;44748;44749;44751;44752;44753;44760;44761;44764];
 [44776;44779;44781;44788;44792;44796;44807;44808;44813;44816;44844;44845;44848;44850;44852;44860];
 [44861;44863;44865;44866;44867;44872;44873;44880;44892;44893;44900;44901;44921;44928;44932;44936];
 [44944;44945;44949;44956;44984;44985;44988;44992;44999;45000;45001;45003;45005;45006;45012;45020];
 [45032;45033;45040;45041;45044;45048;45056;45057;45060;45068;45072;45076;45084;45085;45096;45124];
 [45125;45128;45130;45132;45134;45139;45140;45141;45143;45145;45149;45180;45181;45184;45188;45196];
 [45197;45199;45201;45208;45209;45210;45212;45215;45216;45217;45218;45224;45225;45227;45228;45229];
 [45230;45231;45233;45235;45236;45237;45240;45244;45252;45253;45255;45256;45257;45264;45265;45268];
 [45272;45280;45285;45320;45321;45323;45324;45328;45330;45331;45336;45337;45339;45340;45341;45347];
 [45348;45349;45352;45356;45364;45365;45367;45368;45369;45376;45377;45380;45384;45392;45393;45396];
 [45397;45400;45404;45408;45432;45433;45436;45440;45442;45448;45449;45451;45453;45458;45459;45460];
 [45464;45468;45480;45516;45520;45524;45532;45533;45535;45544;45545;45548;45552;45561;45563;45565];
 [45572;45573;45576;45579;45580;45588;45589;45591;45593;45600;45620;45628;45656;45660;45664;45672];
 [45673;45684;45685;45692;45700;45701;45705;45712;45713;45716;45720;45721;45722;45728;45729;45731];
 [45733;45734;45738;45740;45744;45748;45768;45769;45772;45776;45778;45784;45785;45787;45789;45794];
 [45796;45797;45798;45800;45803;45804;45805;45806;45807;45811;45812;45813;45815;45816;45817;45818];
 [45819;45823;45824;45825;45828;45832;45840;45841;45843;45844;45845;45852;45908;45909;45910;45912];
 [45915;45916;45918;45919;45924;45925;45927;45929;45931;45934;45936;45937;45940;45944;45952;45953];
 [45955;45956;45957;45964;45968;45972;45984;45985;45992;45996;46020;46021;46024;46027;46028;46030];
 [46032;46036;46037;46039;46041;46043;46045;46048;46052;46056;46076;46096;46104;46108;46112;46120];
 [46121;46123;46132;46160;46161;46164;46168;46176;46177;46179;46181;46188;46208;46216;46237;46244];
 [46248;46252;46261;46263;46265;46272;46276;46280;46288;46293;46300;46301;46304;46307;46308;46310];
 [46316;46317;46319;46321;46328;46356;46357;46360;46363;46364;46372;46373;46375;46376;46377;46378];
 [46384;46385;46388;46392;46400;46401;46403;46404;46405;46411;46412;46413;46416;46420;46428;46429];
 [46431;46432;46433;46496;46497;46500;46504;46506;46507;46512;46513;46515;46516;46517;46523;46524];
 [46525;46528;46532;46540;46541;46543;46544;46545;46552;46572;46608;46609;46612;46616;46629;46636];
 [46644;46664;46692;46696;46748;46749;46752;46756;46763;46764;46769;46804;46832;46836;46840;46848];
 [46849;46853;46888;46889;46892;46895;46896;46904;46905;46907;46916;46920;46924;46932;46933;46944];
 [46948;46952;46960;46961;46963;46965;46972;46973;46976;46980;46988;46989;46991;46992;46993;46994];
 [46998;46999;47000;47001;47004;47008;47016;47017;47019;47020;47021;47028;47029;47032;47047;47049];
 [47084;47085;47088;47092;47100;47101;47103;47104;47105;47111;47112;47113;47116;47120;47128;47129];
 [47131;47133;47140;47141;47144;47148;47156;47157;47159;47160;47161;47168;47172;47185;47187;47196];
 [47197;47200;47204;47212;47213;47215;47217;47224;47228;47245;47272;47280;47284;47288;47296;47297];
 [47299;47301;47308;47312;47316;47325;47327;47329;47336;47337;47340;47344;47352;47353;47355;47357];
 [47364;47384;47392;47420;47421;47424;47428;47436;47439;47441;47448;47449;47452;47456;47464;47465];
 [47467;47469;47476;47477;47480;47484;47492;47493;47495;47497;47498;47501;47502;47532;47533;47536];
 [47540;47548;47549;47551;47553;47560;47561;47564;47566;47567;47568;47569;47570;47576;47577;47579];
 [47581;47582;47585;47587;47588;47589;47592;47596;47604;47605;47607;47608;47609;47610;47616;47617];
 [47624;47637;47672;47673;47676;47680;47682;47688;47689;47691;47693;47694;47699;47700;47701;47704];
 [47708;47716;47717;47719;47720;47721;47728;47729;47732;47736;47747;47748;47749;47751;47756;47784];
 [47785;47787;47788;47792;47794;47800;47801;47803;47805;47812;47816;47832;47833;47868;47872;47876];
 [47885;47887;47889;47896;47900;47904;47913;47915;47924;47925;47926;47928;47931;47932;47933;47934];
 [47940;47941;47943;47945;47949;47951;47952;47956;47960;47969;47971;47980;48008;48012;48016;48036];
 [48040;48044;48052;48055;48064;48068;48072;48080;48083;48120;48121;48124;48127;48128;48130;48136];
 [48137;48139;48140;48141;48143;48145;48148;48149;48150;48151;48152;48155;48156;48157;48158;48159];
 [48164;48165;48167;48169;48173;48176;48177;48180;48184;48192;48193;48195;48196;48197;48201;48204];
 [48205;48208;48221;48260;48261;48264;48267;48268;48270;48276;48277;48279;48281;48282;48288;48289];
 [48292;48295;48296;48304;48305;48307;48308;48309;48316;48317;48320;48324;48333;48335;48336;48337];
 [48341;48344;48348;48372;48373;48374;48376;48380;48388;48389;48391;48393;48400;48404;48420;48428];
 [48448;48456;48457;48460;48464;48472;48473;48484;48488;48512;48513;48516;48519;48520;48521;48522];
 [48528;48529;48531;48533;48537;48538;48540;48548;48560;48568;48596;48597;48600;48604;48617;48624];
 [48628;48632;48640;48643;48645;48652;48653;48656;48660;48668;48669;48671;48708;48709;48712;48716];
 [48718;48724;48725;48727;48729;48730;48731;48736;48737;48740;48744;48746;48752;48753;48755;48756];
 [48757;48763;48764;48765;48768;48772;48780;48781;48783;48784;48785;48792;48793;48808;48848;48849];
 [48852;48855;48856;48864;48867;48868;48869;48876;48897;48904;48905;48920;48921;48923;48924;48925];
 [48960;48961;48964;48968;48976;48977;48981;49044;49072;49093;49100;49101;49104;49108;49116;49119];
 [49121;49212;49233;49240;49244;49248;49256;49257;49296;49297;49300;49304;49312;49313;49315;49317];
 [49324;49325;49327;49328;49331;49332;49333;49334;49340;49341;49343;49344;49345;49349;49352;49353];
 [49356;49360;49368;49369;49371;49372;49373;49380;49381;49384;49388;49396;49397;49399;49401;49408];
 [49412;49416;49424;49429;49436;49437;49438;49439;49440;49443;49444;49446;49447;49452;49453;49455];
 [49456;49457;49462;49464;49465;49468;49472;49480;49481;49483;49484;49485;49492;49493;49496;49500];
 [49508;49509;49511;49512;49513;49520;49524;49528;49541;49548;49549;49550;49552;49556;49558;49564];
 [49565;49567;49569;49573;49576;49577;49580;49584;49597;49604;49608;49612;49620;49623;49624;49632];
 [49636;49640;49648;49649;49651;49660;49661;49664;49668;49676;49677;49679;49681;49688;49689;49692];
 [49695;49696;49704;49705;49707;49709;49711;49713;49714;49716;49736;49744;49745;49748;49752;49760];
 [49765;49772;49773;49776;49780;49788;49789;49791;49793;49800;49801;49808;49816;49819;49821;49828];
 [49829;49832;49836;49837;49844;49845;49847;49849;49884;49885;49888;49891;49892;49899;49900;49901];
 [49903;49905;49910;49912;49913;49915;49916;49920;49928;49929;49932;49933;49939;49940;49941;49944];
 [49948;49956;49957;49960;49961;49989;50024;50025;50028;50032;50034;50040;50041;50044;50045;50052];
 [50056;50060;50112;50136;50137;50140;50143;50144;50146;50152;50153;50157;50164;50165;50168;50184];
 [50192;50212;50220;50224;50228;50236;50237;50248;50276;50277;50280;50284;50292;50293;50297;50304];
 [50324;50332;50360;50364;50409;50416;50417;50420;50424;50426;50431;50432;50433;50444;50448;50452];
 [50460;50472;50473;50476;50480;50488;50489;50491;50493;50500;50501;50504;50505;50506;50508;50509];
 [50510;50515;50516;50517;50519;50520;50521;50525;50526;50528;50529;50532;50536;50544;50545;50547];
 [50548;50549;50556;50557;50560;50564;50567;50572;50573;50575;50577;50581;50583;50584;50588;50592];
 [50601;50612;50613;50616;50617;50619;50620;50621;50622;50628;50629;50630;50631;50632;50633;50634];
 [50636;50638;50640;50641;50644;50648;50656;50657;50659;50661;50668;50669;50670;50672;50676;50678];
 [50679;50684;50685;50686;50687;50688;50689;50693;50694;50695;50696;50700;50704;50712;50713;50715];
 [50716;50724;50725;50728;50732;50733;50734;50736;50739;50740;50741;50743;50745;50747;50752;50753];
 [50756;50760;50768;50769;50771;50772;50773;50780;50781;50784;50796;50799;50801;50808;50809;50812];
 [50816;50824;50825;50827;50829;50836;50837;50840;50844;50852;50853;50855;50857;50864;50865;50868];
 [50872;50873;50874;50880;50881;50883;50885;50892;50893;50896;50900;50908;50909;50912;50913;50920];
 [50921;50924;50928;50936;50937;50941;50948;50949;50952;50956;50964;50965;50967;50969;50976;50977];
 [50980;50984;50992;50993;50995;50997;50999;51004;51005;51008;51012;51018;51020;51021;51023;51025];
 [51026;51027;51028;51029;51030;51031;51032;51036;51040;51048;51051;51060;51061;51064;51068;51069];
 [51070;51075;51076;51077;51079;51080;51081;51082;51086;51088;51089;51092;51094;51095;51096;51098];
 [51104;51105;51107;51108;51109;51110;51116;51117;51120;51124;51132;51133;51135;51136;51137;51144];
 [51145;51148;51150;51152;51160;51165;51172;51176;51180;51200;51201;51204;51208;51210;51216;51217];
 [51219;51221;51222;51228;51229;51232;51236;51244;51245;51247;51249;51256;51260;51264;51272;51273];
 [51276;51277;51284;51312;51313;51316;51320;51322;51328;51329;51331;51333;51334;51335;51339;51340];
 [51341;51348;51357;51359;51361;51368;51388;51389;51396;51400;51404;51412;51413;51415;51417;51424];
 [51425;51428;51445;51452;51453;51456;51460;51461;51462;51468;51469;51471;51473;51480;51500;51508];
 [51536;51537;51540;51544;51552;51553;51555;51564;51568;51572;51580;51592;51593;51596;51600;51608];
 [51609;51611;51613;51648;51649;51652;51655;51656;51658;51664;51665;51667;51669;51670;51673;51674];
 [51676;51677;51680;51682;51684;51687;51692;51693;51695;51696;51697;51704;51705;51708;51712;51720];
 [51721;51723;51724;51725;51732;51736;51753;51788;51789;51792;51796;51804;51805;51807;51808;51809];
 [51816;51837;51844;51864;51900;51901;51904;51908;51916;51917;51919;51921;51923;51928;51929;51936];
 [51948;51956;51976;51984;51988;51992;52000;52001;52033;52040;52041;52044;52048;52056;52057;52061];
 [52068;52088;52089;52124;52152;52180;52196;52199;52201;52236;52237;52240;52244;52252;52253;52257];
 [52258;52263;52264;52265;52268;52270;52272;52280;52281;52283;52284;52285;52286;52292;52293;52296];
 [52300;52308;52309;52311;52312;52313;52320;52324;52326;52328;52336;52341;52376;52377;52380;52384];
 [52392;52393;52395;52396;52397;52404;52405;52408;52412;52420;52421;52423;52425;52432;52436;52452];
 [52460;52464;52481;52488;52489;52492;52496;52504;52505;52507;52509;52516;52520;52524;52537;52572];
 [52576;52580;52588;52589;52591;52593;52600;52616;52628;52629;52632;52636;52644;52645;52647;52649];
 [52656;52676;52684;52688;52712;52716;52720;52728;52729;52731;52733;52740;52744;52748;52756;52761];
 [52768;52769;52772;52776;52784;52785;52787;52789;52824;52825;52828;52831;52832;52833;52840;52841];
 [52843;52845;52852;52853;52856;52860;52868;52869;52871;52873;52880;52881;52884;52888;52896;52897];
 [52899;52900;52901;52908;52909;52929;52964;52965;52968;52971;52972;52980;52981;52983;52984;52985];
 [52992;52993;52996;53000;53008;53009;53011;53013;53020;53024;53028;53036;53037;53039;53040;53041];
 [53048;53076;53077;53080;53084;53092;53093;53095;53097;53104;53105;53108;53112;53120;53125;53132];
 [53153;53160;53168;53188;53216;53217;53220;53224;53232;53233;53235;53237;53244;53248;53252;53265];
 [53272;53293;53300;53301;53304;53308;53316;53317;53319;53321;53328;53332;53336;53344;53356;53357];
 [53360;53364;53372;53373;53377;53412;53413;53416;53420;53428;53429;53431;53433;53440;53441;53444];
 [53448;53449;53456;53457;53459;53460;53461;53468;53469;53472;53476;53484;53485;53487;53488;53489];
 [53496;53517;53552;53553;53556;53560;53562;53568;53569;53571;53572;53573;53580;53581;53584;53588];
 [53596;53597;53599;53601;53608;53612;53628;53636;53640;53664;53665;53668;53672;53680;53681;53683];
 [53685;53690;53692;53696;53720;53748;53752;53767;53769;53776;53804;53805;53808;53812;53820;53821];
 [53823;53825;53832;53852;53860;53888;53889;53892;53896;53904;53905;53909;53916;53920;53924;53932];
 [53937;53944;53945;53948;53951;53952;53954;53960;53961;53963;53972;53976;53980;53988;53989;54000];
 [54001;54004;54008;54016;54017;54019;54021;54028;54029;54030;54032;54036;54038;54044;54045;54047];
 [54048;54049;54053;54056;54057;54060;54064;54072;54073;54075;54076;54077;54084;54085;54140;54141];
 [54144;54148;54156;54157;54159;54160;54161;54168;54169;54172;54176;54184;54185;54187;54189;54196];
 [54200;54204;54212;54213;54216;54217;54224;54232;54241;54243;54252;54253;54256;54260;54268;54269];
 [54271;54273;54280;54301;54336;54340;54364;54368;54372;54381;54383;54392;54393;54396;54399;54400];
 [54402;54408;54409;54411;54413;54420;54441;54476;54480;54484;54492;54495;54504;54508;54512;54520];
 [54523;54525;54532;54536;54540;54548;54549;54551;54588;54589;54592;54596;54604;54605;54607;54609];
 [54616;54617;54620;54624;54629;54632;54633;54635;54637;54644;54645;54648;54652;54660;54661;54663];
 [54664;54665;54672;54693;54728;54729;54732;54736;54738;54744;54745;54747;54749;54756;54757;54760];
 [54764;54772;54773;54775;54777;54784;54785;54788;54792;54800;54801;54803;54804;54805;54812;54816];
 [54820;54829;54840;54841;54844;54848;54853;54856;54857;54859;54861;54865;54868;54869;54872;54876];
 [54887;54889;54896;54897;54900;54915;54917;54924;54925;54928;54932;54941;54943;54945;54952;54956];
 [54960;54969;54971;54980;54981;54984;54988;54993;54996;54999;55001;55008;55012;55016;55024;55029];
 [55036;55037;55040;55044;55057;55064;55065;55068;55072;55080;55081;55083;55085;55092;55093;55096];
 [55100;55108;55111;55113;55120;55121;55124;55126;55127;55128;55129;55136;55137;55139;55141;55145];
 [55148;55152;55156;55164;55165;55169;55176;55177;55180;55184;55192;55193;55195;55197]].

(* lib/converters/ksc5601.h:514-1191 ksc5601_2uni_page4a *)
Definition ksc5601_2uni_page4a : tab := mk [
 [20285;20339;20551;20729;21152;21487;21621;21733;22025;23233;23478;26247;26550;26551;26607;27468];
 [29634;30146;31292;33499;33540;34903;34952;35382;36040;36303;36603;36838;39381;21051;21364;21508];
 [24682;24932;27580;29647;33050;35258;35282;38307;20355;21002;22718;22904;23014;24178;24185;25031];
 [25536;26438;26604;26751;28567;30286;30475;30965;31240;31487;31777;32925;33390;33393;35563;38291];
 [20075;21917;26359;28212;30883;31469;33883;35088;34638;38824;21208;22350;22570;23884;24863;25022];
 [25121;25954;26577;27204;28187;29976;30131;30435;30640;32058;37039;37969;37970;40853;21283;23724];
 [30002;32987;37440;38296;21083;22536;23004;23713;23831;24247;24378;24394;24951;27743;30074;30086];
 [31968;32115;32177;32652;33108;33313;34193;35137;35611;37628;38477;40007;20171;20215;20491;20977];
 [22607;24887;24894;24936;25913;27114;28433;30117;30342;30422;31623;33445;33995;63744;37799;38283];
 [21888;23458;22353;63745;31923;32697;37301;20520;21435;23621;24040;25298;25454;25818;25831;28192];
 [28844;31067;36317;36382;63746;36989;37445;37624;20094;20214;20581;24062;24314;24838;26967;33137];
 [34388;36423;37749;39467;20062;20625;26480;26688;20745;21133;21138;27298;30652;37392;40660;21163];
 [24623;36850;20552;25001;25581;25802;26684;27268;28608;33160;35233;38548;22533;29309;29356;29956];
 [32121;32365;32937;35211;35700;36963;40273;25225;27770;28500;32080;32570;35363;20860;24906;31645];
 [35609;37463;37772;20140;20435;20510;20670;20742;21185;21197;21375;22384;22659;24218;24465;24950];
 [25004;25806;25964;26223;26299;26356;26775;28039;28805;28913;29855;29861;29898;30169;30828;30956];
 [31455;31478;32069;32147;32789;32831;33051;33686;35686;36629;36885;37857;38915;38968;39514;39912];
 [20418;21843;22586;22865;23395;23622;24760;25106;26690;26800;26856;28330;30028;30328;30926;31293];
 [31995;32363;32380;35336;35489;35903;38542;40388;21476;21481;21578;21617;22266;22993;23396;23611];
 [24235;25335;25911;25925;25970;26272;26543;27073;27837;30204;30352;30590;31295;32660;32771;32929];
 [33167;33510;33533;33776;34241;34865;34996;35493;63747;36764;37678;38599;39015;39640;40723;21741];
 [26011;26354;26767;31296;35895;40288;22256;22372;23825;26118;26801;26829;28414;29736;34974;39908];
 [27752;63748;39592;20379;20844;20849;21151;23380;24037;24656;24685;25329;25511;25915;29657;31354];
 [34467;36002;38799;20018;23521;25096;26524;29916;31185;33747;35463;35506;36328;36942;37707;38982];
 [24275;27112;34303;37101;63749;20896;23448;23532;24931;26874;27454;28748;29743;29912;31649;32592];
 [33733;35264;36011;38364;39208;21038;24669;25324;36866;20362;20809;21281;22745;24291;26336;27960];
 [28826;29378;29654;31568;33009;37979;21350;25499;32619;20054;20608;22602;22750;24618;24871;25296];
 [27088;39745;23439;32024;32945;36703;20132;20689;21676;21932;23308;23968;24039;25898;25934;26657];
 [27211;29409;30350;30703;32094;32761;33184;34126;34527;36611;36686;37066;39171;39509;39851;19992];
 [20037;20061;20167;20465;20855;21246;21312;21475;21477;21646;22036;22389;22434;23495;23943;24272];
 [25084;25304;25937;26552;26601;27083;27472;27590;27628;27714;28317;28792;29399;29590;29699;30655];
 [30697;31350;32127;32777;33276;33285;33290;33503;34914;35635;36092;36544;36881;37041;37476;37558];
 [39378;39493;40169;40407;40860;22283;23616;33738;38816;38827;40628;21531;31384;32676;35033;36557];
 [37089;22528;23624;25496;31391;23470;24339;31353;31406;33422;36524;20518;21048;21240;21367;22280];
 [25331;25458;27402;28099;30519;21413;29527;34152;36470;38357;26426;27331;28528;35437;36556;39243];
 [63750;26231;27512;36020;39740;63751;21483;22317;22862;25542;27131;29674;30789;31418;31429;31998];
 [33909;35215;36211;36917;38312;21243;22343;30023;31584;33740;37406;63752;27224;20811;21067;21127];
 [25119;26840;26997;38553;20677;21156;21220;25027;26020;26681;27135;29822;31563;33465;33771;35250];
 [35641;36817;39241;63753;20170;22935;25810;26129;27278;29748;31105;31165;33449;34942;34943;35167];
 [63754;37670;20235;21450;24613;25201;27762;32026;32102;20120;20834;30684;32943;20225;20238;20854];
 [20864;21980;22120;22331;22522;22524;22804;22855;22931;23492;23696;23822;24049;24190;24524;25216];
 [26071;26083;26398;26399;26462;26827;26820;27231;27450;27683;27773;27778;28103;29592;29734;29738];
 [29826;29859;30072;30079;30849;30959;31041;31047;31048;31098;31637;32000;32186;32648;32774;32813];
 [32908;35352;35663;35912;36215;37665;37668;39138;39249;39438;39439;39525;40594;32202;20342;21513];
 [25326;26708;37329;21931;20794;63755;63756;23068;25062;63757;25295;25343;63758;63759;63760;63761];
 [63762;63763;37027;63764;63765;63766;63767;63768;35582;63769;63770;63771;63772;26262;63773;29014];
 [63774;63775;38627;63776;25423;25466;21335;63777;26511;26976;28275;63778;30007;63779;63780;63781];
 [32013;63782;63783;34930;22218;23064;63784;63785;63786;63787;63788;20035;63789;20839;22856;26608];
 [32784;63790;22899;24180;25754;31178;24565;24684;25288;25467;23527;23511;21162;63791;22900;24361];
 [24594;63792;63793;63794;29785;63795;63796;63797;63798;63799;63800;39377;63801;63802;63803;63804];
 [63805;63806;63807;63808;63809;63810;63811;28611;63812;63813;33215;36786;24817;63814;63815;33126];
 [63816;63817;23615;63818;63819;63820;63821;63822;63823;63824;63825;23273;35365;26491;32016;63826];
 [63827;63828;63829;63830;63831;33021;63832;63833;23612;27877;21311;28346;22810;33590;20025;20150];
 [20294;21934;22296;22727;24406;26039;26086;27264;27573;28237;30701;31471;31774;32222;34507;34962];
 [37170;37723;25787;28606;29562;30136;36948;21846;22349;25018;25812;26311;28129;28251;28525;28601];
 [30192;32835;33213;34113;35203;35527;35674;37663;27795;30035;31572;36367;36957;21776;22530;22616];
 [24162;25095;25758;26848;30070;31958;34739;40680;20195;22408;22382;22823;23565;23729;24118;24453];
 [25140;25825;29619;33274;34955;36024;38538;40667;23429;24503;24755;20498;20992;21040;22294;22581];
 [22615;23566;23648;23798;23947;24230;24466;24764;25361;25481;25623;26691;26873;27330;28120;28193];
 [28372;28644;29182;30428;30585;31153;31291;33796;35241;36077;36339;36424;36867;36884;36947;37117];
 [37709;38518;38876;27602;28678;29272;29346;29544;30563;31167;31716;32411;35712;22697;24775;25958];
 [26109;26302;27788;28958;29129;35930;38931;20077;31361;20189;20908;20941;21205;21516;24999;26481];
 [26704;26847;27934;28540;30140;30643;31461;33012;33891;37509;20828;26007;26460;26515;30168;31431];
 [33651;63834;35910;36887;38957;23663;33216;33434;36929;36975;37389;24471;23965;27225;29128;30331];
 [31561;34276;35588;37159;39472;21895;25078;63835;30313;32645;34367;34746;35064;37007;63836;27931];
 [28889;29662;32097;33853;63837;37226;39409;63838;20098;21365;27396;27410;28734;29211;34349;40478];
 [21068;36771;23888;25829;25900;27414;28651;31811;32412;34253;35172;35261;25289;33240;34847;24266];
 [26391;28010;29436;29701;29807;34690;37086;20358;23821;24480;33802;20919;25504;30053;20142;20486];
 [20841;20937;26753;27153;31918;31921;31975;33391;35538;36635;37327;20406;20791;21237;21570;24300];
 [24942;25150;26053;27354;28670;31018;34268;34851;38317;39522;39530;40599;40654;21147;26310;27511];
 [28701;31019;36706;38722;24976;25088;25891;28451;29001;29833;32244;32879;34030;36646;36899;37706];
 [20925;21015;21155;27916;28872;35010;24265;25986;27566;28610;31806;29557;20196;20278;22265;63839];
 [23738;23994;24604;29618;31533;32666;32718;32838;36894;37428;38646;38728;38936;40801;20363;28583];
 [31150;37300;38583;21214;63840;25736;25796;27347;28510;28696;29200;30439;32769;34310;34396;36335];
 [36613;38706;39791;40442;40565;30860;31103;32160;33737;37636;40575;40595;35542;22751;24324;26407];
 [28711;29903;31840;32894;20769;28712;29282;30922;36034;36058;36084;38647;20102;20698;23534;24278];
 [26009;29134;30274;30637;32842;34044;36988;39719;40845;22744;23105;23650;27155;28122;28431;30267];
 [32047;32311;34078;35128;37860;38475;21129;26066;26611;27060;27969;28316;28687;29705;29792;30041];
 [30244;30827;35628;39006;20845;25134;38520;20374;20523;23833;28138;32184;36650;24459;24900;26647];
 [63841;38534;21202;32907;20956;20940;26974;31260;32190;33777;38517;20442;21033;21400;21519;21774];
 [23653;24743;26446;26792;28012;29313;29432;29702;29827;63842;30178;31852;32633;32696;33673;35023];
 [35041;37324;37328;38626;39881;21533;28542;29136;29848;34298;36522;38563;40023;40607;26519;28107];
 [29747;33256;38678;30764;31435;31520;31890;25705;29802;30194;30908;30952;39340;39764;40635;23518];
 [24149;28448;33180;33707;37000;19975;21325;23081;24018;24398;24930;25405;26217;26364;28415;28459];
 [28771;30622;33836;34067;34875;36627;39237;39995;21788;25273;26411;27819;33545;35178;38778;20129];
 [22916;24536;24537;26395;32178;32596;33426;33579;33725;36638;37017;22475;22969;23186;23504;26151];
 [26522;26757;27599;29028;32629;36023;36067;36993;39749;33032;35978;38476;39488;40613;23391;27667];
 [29467;30450;30431;33804;20906;35219;20813;20885;21193;26825;27796;30468;30496;32191;32236;38754];
 [40629;28357;34065;20901;21517;21629;26126;26269;26919;28319;30399;30609;33559;33986;34719;37225];
 [37528;40180;34946;20398;20882;21215;22982;24125;24917;25720;25721;26286;26576;27169;27597;27611];
 [29279;29281;29761;30520;30683;32791;33468;33541;35584;35624;35980;26408;27792;29287;30446;30566];
 [31302;40361;27519;27794;22818;26406;33945;21359;22675;22937;24287;25551;26164;26483;28218;29483];
 [31447;33495;37672;21209;24043;25006;25035;25098;25287;25771;26080;26969;27494;27595;28961;29687];
 [30045;32326;33310;33538;34154;35491;36031;38695;40289;22696;40664;20497;21006;21563;21839;25991];
 [27766;32010;32011;32862;34442;38272;38639;21247;27797;29289;21619;23194;23614;23883;24396;24494];
 [26410;26806;26979;28220;28228;30473;31859;32654;34183;35598;36855;38753;40692;23735;24758;24845];
 [25003;25935;26107;26108;27665;27887;29599;29641;32225;38292;23494;34588;35600;21085;21338;25293];
 [25615;25778;26420;27192;27850;29632;29854;31636;31893;32283;33162;33334;34180;36843;38649;39361];
 [20276;21322;21453;21467;25292;25644;25856;26001;27075;27886;28504;29677;30036;30242;30436;30460];
 [30928;30971;31020;32070;33324;34784;36820;38930;39151;21187;25300;25765;28196;28497;30332;36299];
 [37297;37474;39662;39747;20515;20621;22346;22952;23592;24135;24439;25151;25918;26041;26049;26121];
 [26507;27036;28354;30917;32033;32938;33152;33323;33459;33953;34444;35370;35607;37030;38450;40848];
 [20493;20467;63843;22521;24472;25308;25490;26479;28227;28953;30403;32972;32986;35060;35061;35097];
 [36064;36649;37197;38506;20271;20336;24091;26575;26658;30333;30334;39748;24161;27146;29033;29140];
 [30058;63844;32321;34115;34281;39132;20240;31567;32624;38309;20961;24070;26805;27710;27726;27867];
 [29359;31684;33539;27861;29754;20731;21128;22721;25816;27287;29863;30294;30887;34327;38370;38713];
 [63845;21342;24321;35722;36776;36783;37002;21029;30629;40009;40712;19993;20482;20853;23643;24183];
 [26142;26170;26564;26821;28851;29953;30149;31177;31453;36647;39200;39432;20445;22561;22577;23542];
 [26222;27493;27921;28282;28541;29668;29995;33769;35036;35091;35676;36628;20239;20693;21264;21340];
 [23443;24489;26381;31119;33145;33583;34068;35079;35206;36665;36667;39333;39954;26412;20086;20472];
 [22857;23553;23791;23792;25447;26834;28925;29090;29739;32299;34028;34562;36898;37586;40179;19981];
 [20184;20463;20613;21078;21103;21542;21648;22496;22827;23142;23386;23413;23500;24220;63846;25206];
 [25975;26023;28014;28325;29238;31526;31807;32566;33104;33105;33178;33344;33433;33705;35331;36000];
 [36070;36091;36212;36282;37096;37340;38428;38468;39385;40167;21271;20998;21545;22132;22707;22868];
 [22894;24575;24996;25198;26128;27774;28954;30406;31881;31966;32027;33452;36033;38640;63847;20315];
 [24343;24447;25282;23849;26379;26842;30844;32323;40300;19989;20633;21269;21290;21329;22915;23138];
 [24199;24754;24970;25161;25209;26000;26503;27047;27604;27606;27607;27608;27832;63848;29749;30202];
 [30738;30865;31189;31192;31875;32203;32737;32933;33086;33218;33778;34586;35048;35513;35692;36027];
 [37145;38750;39131;40763;22188;23338;24428;25996;27315;27567;27996;28657;28693;29277;29613;36007];
 [36051;38971;24977;27703;32856;39425;20045;20107;20123;20181;20282;20284;20351;20447;20735;21490];
 [21496;21766;21987;22235;22763;22882;23057;23531;23546;23556;24051;24107;24473;24605;25448;26012];
 [26031;26614;26619;26797;27515;27801;27863;28195;28681;29509;30722;31038;31040;31072;31169;31721];
 [32023;32114;32902;33293;33678;34001;34503;35039;35408;35422;35613;36060;36198;36781;37034;39164];
 [39391;40605;21066;63849;26388;63850;20632;21034;23665;25955;27733;29642;29987;30109;31639;33948];
 [37240;38704;20087;25746;27578;29022;34217;19977;63851;26441;26862;28183;33439;34072;34923;25591];
 [28545;37394;39087;19978;20663;20687;20767;21830;21930;22039;23360;23577;23776;24120;24202;24224];
 [24258;24819;26705;27233;28248;29245;29248;29376;30456;31077;31665;32724;35059;35316;35443;35937];
 [36062;38684;22622;29885;36093;21959;63852;31329;32034;33394;29298;29983;29989;63853;31513;22661];
 [22779;23996;24207;24246;24464;24661;25234;25471;25933;26257;26329;26360;26646;26866;29312;29790];
 [31598;32110;32214;32626;32997;33298;34223;35199;35475;36893;37604;40653;40736;22805;22893;24109];
 [24796;26132;26227;26512;27728;28101;28511;30707;30889;33990;37323;37675;20185;20682;20808;21892];
 [23307;23459;25159;25982;26059;28210;29053;29697;29764;29831;29887;30316;31146;32218;32341;32680];
 [33146;33203;33337;34330;34796;35445;36323;36984;37521;37925;39245;39854;21352;23633;26964;27844];
 [27945;28203;33292;34203;35131;35373;35498;38634;40807;21089;26297;27570;32406;34814;36109;38275];
 [38493;25885;28041;29166;63854;22478;22995;23468;24615;24826;25104;26143;26207;29481;29689;30427];
 [30465;31596;32854;32882;33125;35488;37266;19990;21218;27506;27927;31237;31545;32048;63855;36016];
 [21484;22063;22609;23477;23567;23569;24034;25152;25475;25620;26157;26803;27836;28040;28335;28703];
 [28836;29138;29990;30095;30094;30233;31505;31712;31787;32032;32057;34092;34157;34311;35380;36877];
 [36961;37045;37559;38902;39479;20439;23660;26463;28049;31903;32396;35606;36118;36895;23403;24061];
 [25613;33984;36956;39137;29575;23435;24730;26494;28126;35359;35494;36865;38924;21047;63856;28753];
 [30862;37782;34928;37335;20462;21463;22013;22234;22402;22781;23234;23432;23723;23744;24101;24833];
 [25101;25163;25480;25628;25910;25976;27193;27530;27700;27929;28465;29159;29417;29560;29703;29874];
 [30246;30561;31168;31319;31466;31929;32143;32172;32353;32670;33065;33585;33936;34010;34282;34966];
 [35504;35728;36664;36930;36995;37228;37526;37561;38539;38567;38568;38614;38656;38920;39318;39635];
 [39706;21460;22654;22809;23408;23487;28113;28506;29087;29729;29881;32901;33789;24033;24455;24490];
 [24642;26092;26642;26991;27219;27529;27957;28147;29667;30462;30636;31565;32020;33059;33308;33600];
 [34036;34147;35426;35524;37255;37662;38918;39348;25100;34899;36848;37477;23815;23847;23913;29791];
 [33181;34664;28629;25342;32722;35126;35186;19998;20056;20711;21213;21319;25215;26119;32361;34821];
 [38494;20365;21273;22070;22987;23204;23608;23630;23629;24066;24337;24643;26045;26159;26178;26558];
 [26612;29468;30690;31034;32709;33940;33997;35222;35430;35433;35553;35925;35962;22516;23508;24335];
 [24687;25325;26893;27542;28252;29060;31698;34645;35672;36606;39135;39166;20280;20353;20449;21627];
 [23072;23480;24892;26032;26216;29180;30003;31070;32051;33102;33251;33688;34218;34254;34563;35338];
 [36523;36763;63857;36805;22833;23460;23526;24713;23529;23563;24515;27777;63858;28145;28683;29978];
 [33455;35574;20160;21313;63859;38617;27663;20126;20420;20818;21854;23077;23784;25105;29273;33469];
 [33706;34558;34905;35357;38463;38597;39187;40201;40285;22538;23731;23997;24132;24801;24853;25569];
 [27138;28197;37122;37716;38990;39952;40823;23433;23736;25353;26191;26696;30524;38593;38797;38996];
 [39839;26017;35585;36555;38332;21813;23721;24022;24245;26263;30284;33780;38343;22739;25276;29390];
 [40232;20208;22830;24591;26171;27523;31207;40230;21395;21696;22467;23830;24859;26326;28079;30861];
 [33406;38552;38724;21380;25212;25494;28082;32266;33099;38989;27387;32588;40367;40474;20063;20539];
 [20918;22812;24825;25590;26928;29242;32822;63860;37326;24369;63861;63862;32004;33509;33903;33979];
 [34277;36493;63863;20335;63864;63865;22756;23363;24665;25562;25880;25965;26264;63866;26954;27171];
 [27915;28673;29036;30162;30221;31155;31344;63867;32650;63868;35140;63869;35731;37312;38525;63870];
 [39178;22276;24481;26044;28417;30208;31142;35486;39341;39770;40812;20740;25014;25233;27277;33222];
 [20547;22576;24422;28937;35328;35578;23420;34326;20474;20796;22196;22852;25513;28153;23978;26989];
 [20870;20104;20313;63871;63872;63873;22914;63874;63875;27487;27741;63876;29877;30998;63877;33287];
 [33349;33593;36671;36701;63878;39192;63879;63880;63881;20134;63882;22495;24441;26131;63883;63884];
 [30123;32377;35695;63885;36870;39515;22181;22567;23032;23071;23476;63886;24310;63887;63888;25424];
 [25403;63889;26941;27783;27839;28046;28051;28149;28436;63890;28895;28982;29017;63891;29123;29141];
 [63892;30799;30831;63893;31605;32227;63894;32303;63895;34893;36575;63896;63897;63898;37467;63899];
 [40182;63900;63901;63902;24709;28037;63903;29105;63904;63905;38321;21421;63906;63907;63908;26579];
 [63909;28814;28976;29744;33398;33490;63910;38331;39653;40573;26308;63911;29121;33865;63912;63913];
 [22603;63914;63915;23992;24433;63916;26144;26254;27001;27054;27704;27891;28214;28481;28634;28699];
 [28719;29008;29151;29552;63917;29787;63918;29908;30408;31310;32403;63919;63920;33521;35424;36814];
 [63921;37704;63922;38681;63923;63924;20034;20522;63925;21000;21473;26355;27757;28618;29450;30591];
 [31330;33454;34269;34306;63926;35028;35427;35709;35947;63927;37555;63928;38675;38928;20116;20237];
 [20425;20658;21320;21566;21555;21978;22626;22714;22887;23067;23524;24735;63929;25034;25942;26111];
 [26212;26791;27738;28595;28879;29100;29522;31613;34568;35492;39986;40711;23627;27779;29508;29577];
 [37434;28331;29797;30239;31337;32277;34314;20800;22725;25793;29934;29973;30320;32705;37013;38605];
 [39252;28198;29926;31401;31402;33253;34521;34680;35355;23113;23436;23451;26785;26880;28003;29609];
 [29715;29740;30871;32233;32747;33048;33109;33694;35916;38446;38929;26352;24448;26106;26505;27754];
 [29579;20525;23043;27498;30702;22806;23916;24013;29477;30031;63930;63931;20709;20985;22575;22829];
 [22934;23002;23525;63932;63933;23970;25303;25622;25747;25854;63934;26332;63935;27208;63936;29183];
 [29796;63937;31368;31407;32327;32350;32768;33136;63938;34799;35201;35616;36953;63939;36992;39250];
 [24958;27442;28020;32287;35109;36785;20433;20653;20887;21191;22471;22665;23481;24248;24898;27029];
 [28044;28263;28342;29076;29794;29992;29996;32883;33592;33993;36362;37780;37854;63940;20110;20305];
 [20598;20778;21448;21451;21491;23431;23507;23588;24858;24962;26100;29275;29591;29760;30402;31056];
 [31121;31161;32006;32701;33419;34261;34398;36802;36935;37109;37354;38533;38632;38633;21206;24423];
 [26093;26161;26671;29020;31286;37057;38922;20113;63941;27218;27550;28560;29065;32792;33464;34131];
 [36939;38549;38642;38907;34074;39729;20112;29066;38596;20803;21407;21729;22291;22290;22435;23195];
 [23236;23491;24616;24895;25588;27781;27961;28274;28304;29232;29503;29783;33489;34945;36677;36960];
 [63942;38498;39000;40219;26376;36234;37470;20301;20553;20702;21361;22285;22996;23041;23561;24944];
 [26256;28205;29234;29771;32239;32963;33806;33894;34111;34655;34907;35096;35586;36949;38859;39759];
 [20083;20369;20754;20842;63943;21807;21929;23418;23461;24188;24189;24254;24736;24799;24840;24841];
 [25540;25912;26377;63944;26580;26586;63945;26977;26978;27833;27943;63946;28216;63947;28641;29494];
 [29495;63948;29788;30001;63949;30290;63950;63951;32173;33278;33848;35029;35480;35547;35565;36400];
 [36418;36938;36926;36986;37193;37321;37742;63952;63953;22537;63954;27603;32905;32946;63955;63956];
 [20801;22891;23609;63957;63958;28516;29607;32996;36103;63959;37399;38287;63960;63961;63962;63963];
 [32895;25102;28700;32104;34701;63964;22432;24681;24903;27575;35518;37504;38577;20057;21535;28139];
 [34093;38512;38899;39150;25558;27875;37009;20957;25033;33210;40441;20381;20506;20736;23452;24847];
 [25087;25836;26885;27589;30097;30691;32681;33380;34191;34811;34915;35516;35696;37291;20108;20197];
 [20234;63965;63966;22839;23016;63967;24050;24347;24411;24609;63968;63969;63970;63971;29246;29669];
 [63972;30064;30157;63973;31227;63974;32780;32819;32900;33505;33617;63975;63976;36029;36019;36999];
 [63977;63978;39156;39180;63979;63980;28727;30410;32714;32716;32764;35610;20154;20161;20995;21360];
 [63981;21693;22240;23035;23493;24341;24525;28270;63982;63983;32106;33589;63984;34451;35469;63985];
 [38765;38775;63986;63987;19968;20314;20350;22777;26085;28322;36920;37808;39353;20219;22764;22922];
 [23001;24641;63988;63989;31252;63990;33615;36035;20837;21316;63991;63992;63993;20173;21097;23381];
 [33471;20180;21050;21672;22985;23039;23376;23383;23388;24675;24904;28363;28825;29038;29574;29943];
 [30133;30913;32043;32773;33258;33576;34071;34249;35566;36039;38604;20316;21242;22204;26027;26152];
 [28796;28856;29237;32189;33421;37196;38592;40306;23409;26855;27544;28538;30430;23697;26283;28507];
 [31668;31786;34870;38620;19976;20183;21280;22580;22715;22767;22892;23559;24115;24196;24373;25484];
 [26290;26454;27167;27299;27404;28479;29254;63994;29520;29835;31456;31911;33144;33247;33255;33674];
 [33900;34083;34196;34255;35037;36115;37292;38263;38556;20877;21705;22312;23472;25165;26448;26685];
 [26771;28221;28371;28797;32289;35009;36001;36617;40779;40782;29229;31631;35533;37658;20295;20302];
 [20786;21632;22992;24213;25269;26485;26990;27159;27822;28186;29401;29482;30141;31672;32053;33511];
 [33785;33879;34295;35419;36015;36487;36889;37048;38606;40799;21219;21514;23265;23490;25688;25973];
 [28404;29380;63995;30340;31309;31515;31821;32318;32735;33659;35627;36042;36196;36321;36447;36842];
 [36857;36969;37841;20291;20346;20659;20840;20856;21069;21098;22625;22652;22880;23560;23637;24283];
 [24731;25136;26643;27583;27656;28593;29006;29728;30000;30008;30033;30322;31564;31627;31661;31686];
 [32399;35438;36670;36681;37439;37523;37666;37931;38651;39002;39019;39198;20999;25130;25240;27993];
 [30308;31434;31680;32118;21344;23742;24215;28472;28857;31896;38673;39822;40670;25509;25722;34678];
 [19969;20117;20141;20572;20597;21576;22979;23450;24128;24237;24311;24449;24773;25402;25919;25972];
 [26060;26230;26232;26622;26984;27273;27491;27712;28096;28136;28191;28254;28702;28833;29582;29693];
 [30010;30555;30855;31118;31243;31357;31934;32142;33351;35330;35562;35998;37165;37194;37336;37478];
 [37580;37664;38662;38742;38748;38914;40718;21046;21137;21884;22564;24093;24351;24716;25552;26799];
 [28639;31085;31532;33229;34234;35069;35576;36420;37261;38500;38555;38717;38988;40778;20430;20806];
 [20939;21161;22066;24340;24427;25514;25805;26089;26177;26362;26361;26397;26781;26839;27133;28437];
 [28526;29031;29157;29226;29866;30522;31062;31066;31199;31264;31381;31895;31967;32068;32368;32903];
 [34299;34468;35412;35519;36249;36481;36896;36973;37347;38459;38613;40165;26063;31751;36275;37827];
 [23384;23562;21330;25305;29469;20519;23447;24478;24752;24939;26837;28121;29742;31278;32066;32156];
 [32305;33131;36394;36405;37758;37912;20304;22352;24038;24231;25387;32618;20027;20303;20367;20570];
 [23005;32964;21610;21608;22014;22863;23449;24030;24282;26205;26417;26609;26666;27880;27954;28234];
 [28557;28855;29664;30087;31820;32002;32044;32162;33311;34523;35387;35461;36208;36490;36659;36913];
 [37198;37202;37956;39376;31481;31909;20426;20737;20934;22472;23535;23803;26201;27197;27994;28310];
 [28652;28940;30063;31459;34850;36897;36981;38603;39423;33537;20013;20210;34886;37325;21373;27355];
 [26987;27713;33914;22686;24974;26366;25327;28893;29969;30151;32338;33976;35657;36104;20043;21482];
 [21675;22320;22336;24535;25345;25351;25711;25903;26088;26234;26525;26547;27490;27744;27802;28460];
 [30693;30757;31049;31063;32025;32930;33026;33267;33437;33463;34584;35468;63996;36100;36286;36978];
 [30452;31257;31287;32340;32887;21767;21972;22645;25391;25634;26185;26187;26733;27035;27524;27941];
 [28337;29645;29800;29857;30043;30137;30433;30494;30603;31206;32265;32285;33275;34095;34967;35386];
 [36049;36587;36784;36914;37805;38499;38515;38663;20356;21489;23018;23241;24089;26702;29894;30142];
 [31209;31378;33187;34541;36074;36300;36845;26015;26389;63997;22519;28503;32221;36655;37878;38598];
 [24501;25074;28548;19988;20376;20511;21449;21983;23919;24046;27425;27492;30923;31642;63998;36425];
 [36554;36974;25417;25662;30528;31364;37679;38015;40810;25776;28591;29158;29864;29914;31428;31762];
 [32386;31922;32408;35738;36106;38013;39184;39244;21049;23519;25830;26413;32046;20717;21443;22649];
 [24920;24921;25082;26028;31449;35730;35734;20489;20513;21109;21809;23100;24288;24432;24884;25950];
 [26124;26166;26274;27085;28356;28466;29462;30241;31379;33081;33369;33750;33980;20661;22512;23488];
 [23528;24425;25505;30758;32181;33756;34081;37319;37365;20874;26613;31574;36012;20932;22971;24765];
 [34389;20508;63999;21076;23610;24957;25114;25299;25842;26021;28364;30240;33034;36448;38495;38587];
 [20191;21315;21912;22825;24029;25797;27849;28154;29588;31359;33307;34214;36068;36368;36983;37351];
 [38369;38433;38854;20984;21746;21894;24505;25764;28552;32180;36639;36685;37941;20681;23574;27838];
 [28155;29979;30651;31805;31844;35449;35522;22558;22974;24086;25463;29266;30090;30571;35548;36028];
 [36626;24307;26228;28152;32893;33729;35531;38737;39894;64000;21059;26367;28053;28399;32224;35558];
 [36910;36958;39636;21021;21119;21736;24980;25220;25307;26786;26898;26970;27189;28818;28966;30813];
 [30977;30990;31186;31245;32918;33400;33493;33609;34121;35970;36229;37218;37259;37294;20419;22225];
 [29165;30679;34560;35320;23544;24534;26449;37032;21474;22618;23541;24740;24961;25696;32317;32880];
 [34085;37507;25774;20652;23828;26368;22684;25277;25512;26894;27000;27166;28267;30394;31179;33467];
 [33833;35535;36264;36861;37138;37195;37276;37648;37656;37786;38619;39478;39949;19985;30044;31069];
 [31482;31569;31689;32302;33988;36441;36468;36600;36880;26149;26943;29763;20986;26414;40668;20805];
 [24544;27798;34802;34909;34935;24756;33205;33795;36101;21462;21561;22068;23094;23601;28810;32736];
 [32858;33030;33261;36259;37257;39519;40434;20596;20164;21408;24827;28204;23652;20360;20516;21988];
 [23769;24159;24677;26772;27835;28100;29118;30164;30196;30305;31258;31305;32199;32251;32622;33268];
 [34473;36636;38601;39347;40786;21063;21189;39149;35242;19971;26578;28422;20405;23522;26517;27784];
 [28024;29723;30759;37341;37756;34756;31204;31281;24555;20182;21668;21822;22702;22949;24816;25171];
 [25302;26422;26965;33333;38464;39345;39389;20524;21331;21828;22396;64001;25176;64002;25826;26219];
 [26589;28609;28655;29730;29752;35351;37944;21585;22022;22374;24392;24986;27470;28760;28845;32187];
 [35477;22890;33067;25506;30472;32829;36010;22612;25645;27067;23445;24081;28271;64003;34153;20812];
 [21488;22826;24608;24907;27526;27760;27888;31518;32974;33492;36294;37040;39089;64004;25799;28580];
 [25745;25860;20814;21520;22303;35342;24927;26742;64005;30171;31570;32113;36890;22534;27084;33151];
 [35114;36864;38969;20600;22871;22956;25237;36879;39722;24925;29305;38358;22369;23110;24052;25226];
 [25773;25850;26487;27874;27966;29228;29750;30772;32631;33453;36315;38935;21028;22338;26495;29256];
 [29923;36009;36774;37393;38442;20843;21485;25420;20329;21764;24726;25943;27803;28031;29260;29437];
 [31255;35207;35997;24429;28558;28921;33192;24846;20415;20559;25153;29255;31687;32232;32745;36941];
 [38829;39449;36022;22378;24179;26544;33805;35413;21536;23318;24163;24290;24330;25987;32954;34109];
 [38281;38491;20296;21253;21261;21263;21638;21754;22275;24067;24598;25243;25265;25429;64006;27873];
 [28006;30129;30770;32990;33071;33502;33889;33970;34957;35090;36875;37610;39165;39825;24133;26292];
 [26333;28689;29190;64007;20469;21117;24426;24915;26451;27161;28418;29922;31080;34920;35961;39111];
 [39108;39491;21697;31263;26963;35575;35914;39080;39342;24444;25259;30130;30382;34987;36991;38466];
 [21305;24380;24517;27852;29644;30050;30091;31558;33534;39325;20047;36924;19979;20309;21414;22799];
 [24264;26160;27827;29781;33655;34662;36032;36944;38686;39957;22737;23416;34384;35604;40372;23506];
 [24680;24717;26097;27735;28450;28579;28698;32597;32752;38289;38290;38480;38867;21106;36676;20989];
 [21547;21688;21859;21898;27323;28085;32216;33382;37532;38519;40569;21512;21704;30418;34532;38308];
 [38356;38492;20130;20233;23022;23270;24055;24658;25239;26477;26689;27782;28207;32568;32923;33322];
 [64008;64009;38917;20133;20565;21683;22419;22874;23401;23475;25032;26999;28023;28707;34809;35299];
 [35442;35559;36994;39405;39608;21182;26680;20502;24184;26447;33607;34892;20139;21521;22190;29670];
 [37141;38911;39177;39255;39321;22099;22687;34395;35377;25010;27382;29563;36562;27463;38570;39511];
 [22869;29184;36203;38761;20436;23796;24358;25080;26203;27883;28843;29572;29625;29694;30505;30541];
 [32067;32098;32291;33335;34898;64010;36066;37449;39023;23377;31348;34880;38913;23244;20448;21332];
 [22846;23805;25406;28025;29433;33029;33031;33698;37583;38960;20136;20804;21009;22411;24418;27842];
 [28366;28677;28752;28847;29074;29673;29801;33610;34722;34913;36872;37026;37795;39336;20846;24407];
 [24800;24935;26291;34137;36426;37295;38795;20046;20114;21628;22741;22778;22909;23733;24359;25142];
 [25160;26122;26215;27627;28009;28111;28246;28408;28564;28640;28649;28765;29392;29733;29786;29920];
 [30355;31068;31946;32286;32993;33446;33899;33983;34382;34399;34676;35703;35946;37804;38912;39013];
 [24785;25110;37239;23130;26127;28151;28222;29759;39746;24573;24794;31503;21700;24344;27742;27859];
 [27946;28888;32005;34425;35340;40251;21270;21644;23301;27194;28779;30069;31117;31166;33457;33775];
 [35441;35649;36008;38772;64011;25844;25899;30906;30907;31339;20024;21914;22864;23462;24187;24739];
 [25563;27489;26213;26707;28185;29029;29872;32008;36996;39529;39973;27963;28369;29502;35905;38346];
 [20976;24140;24488;24653;24822;24880;24908;26179;26180;27045;27841;28255;28361;28514;29004;29852];
 [30343;31681;31783;33618;34647;36945;38541;40643;21295;22238;24315;24458;24674;24724;25079;26214];
 [26371;27292;28142;28590;28784;29546;32362;33214;33588;34516;35496;36036;21123;29554;23446;27243];
 [37892;21742;22150;23389;25928;25989;26313;26783;28045;28102;29243;32948;37237;39501;20399;20505];
 [21402;21518;21564;21897;21957;24127;24460;26429;29030;29661;36869;21211;21235;22628;22734;28932];
 [29071;29179;34224;35347;26248;34216;21927;26244;29002;33841;21321;21913;27585;24409;24509;25582];
 [26249;28999;35569;36637;40638;20241;25658;28875;30054;34407;24676;35662;40440;20807;20982;21256];
 [27958;33016;40657;26133;27427;28824;30165;21507;23673;32007;35350;27424;27453;27462;21560;24688];
 [27965;32725;33288;20694;20958;21916;22123;22221;23020;23305;24076;24985;24984;25137;26206;26342];
 [29081;29113;29114;29351;31143;31232;32690;35440]].

(* lib/converters/ksc5601.h:1233-2263 ksc5601_2charset *)
Definition ksc5601_2charset : tab := mk [
 [8750;8756;8535;8487;10275;8489;8807;8518;8510;10615;10616;8741;8786;8484;8748;10614];
 [10284;10361;10358;10362;8751;10273;10274;8511;10282;10285;10540;10529;10531;8512;10538;10541];
 [10530;10276;10532;10533;10278;10534;10535;10280;10536;10281;10537;10544;10287;10543;10283;10539];
 [10286;10542;8743;8752;8744;8747;8746;8749;8745;9537;9538;9539;9540;9541;9542;9543];
 [9544;9545;9546;9547;9548;9549;9550;9551;9552;9553;9554;9555;9556;9557;9558;9559];
 [9560;9569;9570;9571;9572;9573;9574;9575;9576;9577;9578;9579;9580;9581;9582;9583];
 [9584;9585;9586;9587;9588;9589;9590;9591;9592;11303;11297;11298;11299;11300;11301;11302];
 [11304;11305;11306;11307;11308;11309;11310;11311;11312;11313;11314;11315;11316;11317;11318;11319];
 [11320;11321;11322;11323;11324;11325;11326;11327;11328;11329;11345;11346;11347;11348;11349;11350];
 [11352;11353;11354;11355;11356;11357;11358;11359;11360;11361;11362;11363;11364;11365;11366;11367];
 [11368;11369;11370;11371;11372;11373;11374;11375;11376;11377;11351;8490;8494;8495;8496;8497];
 [8787;8788;8485;8486;8758;8519;8520;8536;10617;10618;10619;10620;10621;10622;8806;8521];
 [8757;10020;8800;8805;8802;10073;8522;10359;10360;10363;10364;10365;10366;9520;9521;9522];
 [9523;9524;9525;9526;9527;9528;9529;9505;9506;9507;9508;9509;9510;9511;9512;9513];
 [9514;8551;8552;8550;8553;8554;8789;8792;8790;8793;8791;8737;8738;8739;8531;8740];
 [8532;8564;8565;8755;8754;8558;8560;8516;8528;8491;8572;8573;8571;8570;8562;8563];
 [8753;8517;8561;8493;8559;8534;8513;8533;8514;8515;8556;8557;8568;8569;8566;8567];
 [8769;8529;8530;10343;10344;10345;10346;10347;10348;10349;10350;10351;10352;10353;10354;10355];
 [10356;10357;10599;10600;10601;10602;10603;10604;10605;10606;10607;10608;10609;10610;10611;10612];
 [10613;10573;10574;10575;10576;10577;10578;10579;10580;10581;10582;10583;10584;10585;10586;10587];
 [10588;10589;10590;10591;10592;10593;10594;10595;10596;10597;10598;10317;10318;10319;10320;10321];
 [10322;10323;10324;10325;10326;10327;10328;10329;10330;10331;10332;10333;10334;10335;10336;10337];
 [10338;10339;10340;10341;10342;9761;9772;9762;9773;9763;9800;9799;9774;9764;9794;9793];
 [9775;9766;9798;9797;9777;9765;9796;9795;9776;9767;9788;9801;9802;9783;9803;9804];
 [9778;9769;9790;9805;9806;9785;9807;9808;9780;9768;9809;9810;9784;9789;9811;9812];
 [9779;9770;9813;9814;9786;9791;9815;9816;9781;9771;9817;9818;9787;9819;9820;9792];
 [9821;9822;9823;9824;9825;9826;9827;9828;9782;8774;8545;8544;8771;8775;8776;8779];
 [8778;8777;8780;8547;8546;8762;8761;8549;8548;8760;8759;8543;8542;8770;8539;8541];
 [8540;8772;8773;8538;8537;8783;8782;8784;8785;8527;8526;8764;8765;8768;8763;8766];
 [8767;8781;8795;8796;8797;8794;8481;8482;8483;8488;8500;8501;8502;8503;8504;8505];
 [8506;8507;8508;8509;8555;8498;8499;10785;10786;10787;10788;10789;10790;10791;10792;10793];
 [10794;10795;10796;10797;10798;10799;10800;10801;10802;10803;10804;10805;10806;10807;10808;10809];
 [10810;10811;10812;10813;10814;10815;10816;10817;10818;10819;10820;10821;10822;10823;10824;10825];
 [10826;10827;10828;10829;10830;10831;10832;10833;10834;10835;10836;10837;10838;10839;10840;10841];
 [10842;10843;10844;10845;10846;10847;10848;10849;10850;10851;10852;10853;10854;10855;10856;10857];
 [10858;10859;10860;10861;10862;10863;10864;10865;10866;10867;11041;11042;11043;11044;11045;11046];
 [11047;11048;11049;11050;11051;11052;11053;11054;11055;11056;11057;11058;11059;11060;11061;11062];
 [11063;11064;11065;11066;11067;11068;11069;11070;11071;11072;11073;11074;11075;11076;11077;11078];
 [11079;11080;11081;11082;11083;11084;11085;11086;11087;11088;11089;11090;11091;11092;11093;11094];
 [11095;11096;11097;11098;11099;11100;11101;11102;11103;11104;11105;11106;11107;11108;11109;11110];
 [11111;11112;11113;11114;11115;11116;11117;11118;11119;11120;11121;11122;11123;11124;11125;11126];
 [9249;9250;9251;9252;9253;9254;9255;9256;9257;9258;9259;9260;9261;9262;9263;9264];
 [9265;9266;9267;9268;9269;9270;9271;9272;9273;9274;9275;9276;9277;9278;9279;9280];
 [9281;9282;9283;9284;9285;9286;9287;9288;9289;9290;9291;9292;9293;9294;9295;9296];
 [9297;9298;9299;9300;9301;9302;9303;9304;9305;9306;9307;9308;9309;9310;9311;9312];
 [9313;9314;9315;9316;9317;9318;9319;9320;9321;9322;9323;9324;9325;9326;9327;9328];
 [9329;9330;9331;9332;9333;9334;9335;9336;9337;9338;9339;9340;9341;9342;10545;10546];
 [10547;10548;10549;10550;10551;10552;10553;10554;10555;10556;10557;10558;10559;10560;10561;10562];
 [10563;10564;10565;10566;10567;10568;10569;10570;10571;10572;8799;10289;10290;10291;10292;10293];
 [10294;10295;10296;10297;10298;10299;10300;10301;10302;10303;10304;10305;10306;10307;10308;10309];
 [10310;10311;10312;10313;10314;10315;10316;8808;8798;10057;10058;10059;10060;10061;10042;10043];
 [10076;10077;10078;10038;10039;10040;10068;10069;10070;10071;10072;10017;10018;10019;10021;10027];
 [10028;10029;10030;10031;10032;10033;10034;10035;10036;10023;10024;10025;10026;10045;10046;10085];
 [10086;10087;10088;10081;10082;10083;10047;10048;10049;10050;10051;10052;10053;10054;10055;10056];
 [10062;10063;10064;10065;10066;10067;10074;10075;8803;10092;10022;10080;10095;8801;10044;10093];
 [10037;10041;10090;10091;10079;8804;10084;10094;10089;27753;28491;30290;22578;27995;24370;24382];
 [31035;23668;30052;29478;23904;24870;20088;23600;25386;29033;19834;31791;21281;28971;26449;21036];
 [20089;29053;24127;31546;31033;20050;25387;27488;20090;19319;25893;19041;21580;27233;23651;24365];
 [19307;21807;22133;25976;24128;27683;26957;27175;26998;31547;26473;28492;20582;24129;25644;22604];
 [31089;20063;31268;26162;31355;31293;19528;28493;21845;21282;27729;25639;27730;30257;20091;20561];
 [19263;27940;27944;24130;30306;27996;23669;24633;21582;29749;21339;22069;27684;25702;29034;19308];
 [19264;27762;20586;31090;27685;20575;26474;20587;23633;23401;32076;23383;23137;22070;25439;24131];
 [24132;18977;28268;21283;28215;30799;27208;28216;28972;28965;26958;31036;25977;27754;23894;27970];
 [30757;25914;23384;18978;20813;28269;27755;24133;25440;19017;29289;21838;30262;20034;22087;25396];
 [28973;27234;22338;29479;19818;27502;22834;32037;30293;21858;30773;19573;30005;25645;26475;29013];
 [28731;26933;19529;31317;24916;22358;23617;24134;31343;25441;24947;23670;20092;23364;30833;23652];
 [25967;23601;21846;29530;19265;23363;22906;21358;31288;32038;27503;29734;19530;29480;29531;23335];
 [30263;20326;28786;19290;26450;22339;30320;26718;25894;25959;18979;19495;27209;30774;31269;28974];
 [28494;19309;30256;28495;26959;30558;20051;23671;23336;19320;24353;23905;30026;26934;26476;28270];
 [29552;24383;19531;20545;29778;24634;24384;20064;23634;32106;22134;27210;26729;25388;29520;18980];
 [23416;24135;27504;29014;25954;19532;19323;27235;24385;22125;26960;28217;21859;20819;25968;26676];
 [27459;27178;31356;30070;28732;32084;24635;20035;20538;30522;22643;30541;25646;21599;20583;27773];
 [21038;28271;21847;27236;30754;19819;22335;31537;19820;23602;20588;20093;28272;19522;20589;25975];
 [29564;28194;22835;22644;26935;20014;22818;22641;21583;25895;21842;22057;29730;29015;21848;28733];
 [22352;21584;22351;27498;32107;23405;31813;19266;32085;29768;26730;30067;31070;21359;27731;23874];
 [28471;26452;19018;22907;31357;22058;29816;30583;23596;22359;24354;20030;21360;28708;24940;20327];
 [29515;27945;19006;29807;30286;24187;20539;21815;28273;29736;23672;19239;23118;24678;27941;28274];
 [23673;31068;29532;30834;29817;31857;20540;23417;22321;19324;28709;19325;21876;19821;18981;22059];
 [20546;28734;21053;19492;31286;19533;23162;30287;26936;22645;19534;22349;21585;26989;19051;22882];
 [32050;25389;22092;22836;24871;28243;20547;32051;21860;20328;27971;20530;20094;23080;30800;32086];
 [30801;30802;23635;23906;31609;23873;25397;27997;20036;19233;23907;31837;31023;21115;20257;25640];
 [29750;27774;25390;26477;32065;23138;22579;23908;28783;30321;31344;20853;23119;23636;23590;28479];
 [20047;24665;22870;27732;27211;19007;21808;20329;29037;19535;25720;25709;22360;32039;27179;30258];
 [20336;31037;26228;19291;29521;26961;29481;20576;26962;23139;25170;30242;24948;23140;26453;30015];
 [20258;19759;20259;19760;29054;20515;24879;30755;18982;30523;29290;24136;26963;24137;32094;19008];
 [31082;20814;28244;21586;22819;32040;22361;30542;31294;20310;22384;27489;30789;23674;23875;31071];
 [26479;32101;30243;22908;32041;26478;21861;28496;19761;30498;28978;28977;19762;23083;18983;25442];
 [31548;22820;28218;30803;31610;20260;23675;30307;27946;29217;20065;31270;31072;27734;25710;31009];
 [31599;31083;28195;27180;18984;29818;19798;31862;29769;30804;30758;24138;29254;22362;21328;22597];
 [27238;29533;25690;30308;30322;24386;22909;19574;21306;25647;31073;28710;19283;24636;29770;21626];
 [32042;31074;29751;32066;31792;32108;19042;32061;27239;24387;20818;20066;21284;32043;24416;29255];
 [26480;20590;29482;24139;30264;24949;28979;30499;18985;20261;24388;24880;28735;30244;25398;31302];
 [20591;32109;23876;31863;26175;24109;31295;25969;27972;21029;32110;30006;24950;24140;31838;27735];
 [19805;22071;19763;30805;25944;20330;20304;27212;27182;27181;21361;21285;30543;28196;20516;29218];
 [20592;29219;30584;20531;23337;21307;19052;28966;19285;30567;19806;30500;30784;21341;19536;20262];
 [30323;24951;21340;31358;31271;27481;20263;27183;25711;26937;29016;22616;24690;26164;23676;29553];
 [25424;29307;23366;20593;20594;20316;21329;19505;30552;19240;27452;25662;29788;23618;28711;26176];
 [19053;26731;25960;23619;27998;21362;19575;20052;26411;19267;24881;30514;21363;21330;30016;24413];
 [28275;26481;32052;29256;29522;28276;25171;19537;24426;26938;22871;30029;29042;31303;22904;21570];
 [30309;23877;26482;27999;19019;23418;26677;21286;32053;31049;25698;31549;22308;20037;20053;22118];
 [25917;24141;27763;28000;27756;31550;24427;24952;31038;20595;24618;26722;25172;21117;25896;22867];
 [21342;29752;30524;23677;26732;25703;25463;27688;31345;25970;20596;21039;23653;20517;28980;31793];
 [19576;23878;31313;30559;31272;28277;24142;26483;30508;27460;28001;24619;23879;21043;21055;19020];
 [31551;25981;23909;22605;27764;20597;26733;20562;22872;30310;23338;30560;22617;29731;29789;28497];
 [22837;27947;25399;28219;19764;24691;27213;27765;26734;19241;28975;19021;27689;29291;32111;31091];
 [26177;27736;27948;27214;26719;24143;21030;26484;20822;26178;25443;25648;22580;30245;29534;22309];
 [30568;26694;31590;23910;23678;22618;23084;27184;25400;18986;24953;27185;29292;31342;28245;31092];
 [21100;31611;32112;24637;20067;30790;24110;24389;25918;27949;31338;19822;27942;27950;28781;23841];
 [27951;31864;22635;19577;19765;31273;24925;25173;27983;23842;31050;27240;25965;21355;26964;24954];
 [25676;24932;26695;20059;23637;30517;31859;28787;20015;28981;28498;26696;27505;19284;24638;25464];
 [27241;31794;24692;20320;28197;31274;26179;24882;18987;25444;26939;25174;29554;28246;27186;20598];
 [27737;23115;20264;23843;22619;31054;26965;25425;21052;22572;29516;19835;30294;26485;26735;25465];
 [21051;29555;25467;24144;20016;22135;29017;30017;23620;30011;24145;23654;24146;28002;28278;27215];
 [28782;25468;21343;21364;24883;24884;29779;24390;26966;23339;30246;25401;27461;29737;19766;21113];
 [23085;21091;20305;19292;19578;20317;26665;25403;25402;24666;28279;23603;21365;22310;30261;22363];
 [24917;21610;24355;32095;20599;27988;19242;25691;24955;19234;21344;25663;31552;23102;25677;22073];
 [28480;24956;30265;24391;25649;23655;23656;31318;21366;29018;31346;25213;21839;20600;19807;30027];
 [25712;19243;22340;25214;23898;23086;19054;21817;25377;26723;29483;20265;21367;21617;20068;26738];
 [25973;26414;22074;24428;25664;26724;22581;25692;29753;28982;25182;24885;19823;28967;20069;19293];
 [22883;29484;20601;27691;24147;30569;31093;24926;19310;25404;30806;23406;32113;30518;29790;29293];
 [23385;28712;24957;24148;24620;28003;21345;24392;22838;32044;28499;25665;30827;23340;31814;22573];
 [30266;23391;21331;30791;19022;30785;21044;23604;31289;19023;31795;27242;27243;20602;28004;23911];
 [24393;24429;28220;28481;19538;23844;24394;21368;28968;19767;28500;25693;24430;19244;26940;27244];
 [24395;31039;22063;21830;20266;20009;22136;28983;28280;22873;29535;30792;20038;21862;29798;26181];
 [28501;19311;31839;23591;22119;30793;25426;25405;20321;28736;27738;23895;31600;27692;28713;31319];
 [31553;21056;25904;28005;19245;31024;30501;19246;23087;22582;21287;31538;32068;27693;31521;25961];
 [26990;29556;30835;28737;24111;30768;29536;26415;23341;26165;31016;23896;26713;28502;21346;25183];
 [31840;22344;32045;24431;19539;21369;21616;23367;24149;28788;21840;25945;31815;23638;25184;23088];
 [29475;21356;29771;32069;25469;31025;20603;27739;30012;29220;22606;22607;30071;30305;21047;31596];
 [23880;25704;21057;30807;22075;24150;30525;27694;20577;24693;27187;20054;19493;27766;25185;25406];
 [31816;19824;31094;24432;25919;20031;31841;27952;32081;30267;31055;27482;19009;21048;19825;25427];
 [32102;26221;25466;28714;31056;31842;30759;24933;28281;26486;27245;31796;30018;22364;28789;23912];
 [21357;30076;23103;19579;21370;29732;28503;21571;31587;31597;24621;27246;31539;25666;30311;21085];
 [24396;31817;25897;24694;30259;24958;19312;27247;27248;23104;30772;27506;25667;26967;25713;19055];
 [20055;31818;29537;19268;25445;19269;27188;26941;22345;27483;27953;19523;30526;31819;30836;22839];
 [29523;29524;30564;30545;22583;20017;19010;31540;19270;28790;21863;27216;19540;19247;29738;26927];
 [30019;26968;23913;29043;21883;24123;29819;32115;32114;30502;23881;21587;19496;23105;19541;22884];
 [31306;25955;21308;19056;20548;19024;31275;27499;26488;22885;20823;29476;21627;31843;31320;29525];
 [20267;27507;21884;21332;19836;22886;25209;25121;27476;24695;25650;19580;31588;29739;20541;19057];
 [28472;22336;28282;32116;21347;31554;21864;23342;24886;30775;24639;31555;23914;25122;28198;30312];
 [30325;23882;20578;23846;23915;25721;25391;20604;29820;19516;30570;25956;24433;30561;31095;28473];
 [30808;31017;30809;28221;22598;25699;30030;23897;22887;21049;21827;23141;23120;20825;20056;19294];
 [29740;23163;30313;26739;20268;28784;29821;23368;20032;25428;20815;29045;19826;20331;19768;25382];
 [20826;29221;29222;25678;21371;28969;29257;28504;26185;22584;31347;29493;30756;20851;26184;30810];
 [23657;24151;19295;20332;29791;20852;21050;24434;24887;25123;21372;28006;23369;25722;20318;20048];
 [21843;29557;30510;28488;19827;30031;25971;28738;19025;27249;20518;22874;28715;27495;25920;31797];
 [25668;19497;32070;27189;25898;24378;24927;23121;24888;26740;21373;25124;29258;23142;30515;32077];
 [29494;28247;30020;22564;29223;22840;22841;28489;22094;30539;24366;26741;21045;21333;29772;23164];
 [22888;30571;30025;29500;23122;21301;26678;22095;29754;30537;19498;28739;19542;20563;21309;23419];
 [19296;21348;30327;21818;29517;19297;27508;29741;31786;30572;26742;23143;30540;25921;24686;21885];
 [20070;31787;21819;29224;25125;19769;27250;19271;19828;23343;28505;19770;31865;24435;20071;23106];
 [20269;26489;30760;29538;19058;24356;21572;19543;25922;19771;28506;28248;23847;25126;24640;22064];
 [30794;31866;22910;24112;23916;23144;21600;22137;19799;24152;29304;25686;20549;29742;23848;27973];
 [29526;24153;25446;21288;23344;25946;25407;23345;21865;24641;28507;28777;22322;20605;22889;20606];
 [27757;21289;29225;28740;25186;26991;31057;26969;26714;23107;23108;21573;26490;19808;25392;23346];
 [31556;29539;22821;31591;23883;20564;26166;24622;32090;23605;24696;26417;30064;22620;27974;24889];
 [25408;31040;26992;22875;29540;23606;25705;28741;25409;31820;31821;29259;29260;25679;29019;31321];
 [28984;32117;24697;26491;31799;31844;31557;25447;22585;30328;23621;19544;24623;29799;28508;20348];
 [28509;29226;32062;18988;32059;32071;26418;27217;24436;20844;25694;25923;22822;19772;29541;27989];
 [22842;28007;31541;30828;24679;19545;21574;26405;21877;21310;31867;25714;24437;26744;30829;20039];
 [32118;26712;19800;26454;19546;19043;24438;28743;28742;22586;29044;29808;30028;31845;27205;27251];
 [23899;23639;24189;29305;21831;22608;28744;20769;20770;22868;22120;22858;23089;22599;23650;29518];
 [30068;28985;23123;30314;20341;32046;19026;24372;22365;31290;28199;30013;30837;28008;21601;20771];
 [24918;31096;23370;19321;21588;22876;28222;30573;21102;24934;30585;23917;26715;23347;20855;24624];
 [21602;30295;22393;22621;19837;29227;19773;30786;29228;18989;18990;20270;25410;23607;23386;22843];
 [19059;30291;26232;27253;27254;30329;20271;19027;18991;21040;28986;22323;25411;29565;24154;24155];
 [28510;25187;28283;24439;22346;20072;23387;28987;26993;31287;20550;19499;28200;19322;31097;19581];
 [21374;25680;29294;21589;24397;31800;20816;29261;30546;19028;21849;22622;19801;28201;30268;19547];
 [28745;31868;26697;29822;26492;22366;24156;28716;19582;19809;24890;23407;23090;20773;23608;22646];
 [20772;19810;23658;28791;28746;20542;23900;21590;21334;27984;19745;24373;24440;21537;20018;26698];
 [27509;25429;30032;29985;22823;25899;26187;30065;25925;31011;24667;30315;19313;22890;29986;22353];
 [20856;27256;27257;23091;28511;29039;25974;28223;25188;20543;31276;30033;26419;26942;29262;23348];
 [31822;23918;26420;22324;30516;19774;23145;20272;30553;29542;20057;20010;19272;20519;28747;20551];
 [25669;23392;21850;22311;28224;30838;30034;28009;22844;25926;29987;23124;25127;31612;29020;19060];
 [26746;20073;27000;25189;20537;21618;20774;24398;31860;21290;19500;28512;25957;20565;23420;31846];
 [19326;28010;24113;31075;21538;20342;22096;21866;29038;31307;25889;21809;20333;28011;21810;21820];
 [32098;29485;32091;26928;20775;32099;20019;32100;31310;18992;30503;20273;26146;31798;29229;28513];
 [29486;23622;22891;26720;24872;21878;20349;24157;22865;25706;29263;30527;25190;25128;25430;27985];
 [27001;22065;24114;24680;21291;27484;24367;19011;28284;32067;27510;20274;22892;22845;22623;21560];
 [27454;23919;23920;23921;23922;22846;31558;20275;28285;25643;23109;22636;20776;25129;24124;26421];
 [23408;28514;29040;20276;23409;24625;24357;31058;26493;26147;31601;19248;29230;19815;26716;26455];
 [30528;20579;23073;19517;20777;23884;25470;20778;26666;27190;31098;26188;30296;21575;22859;22866];
 [21323;22647;23081;30072;24158;29231;30761;22600;28225;31041;23923;27258;30269;24891;19775;29780];
 [26189;31823;31522;24668;29755;23125;31026;31602;23414;24159;23410;30812;30574;27496;21114;28988];
 [31322;23146;23110;30529;26422;25927;22060;23623;24873;25130;21798;21591;29264;27259;24669;31603];
 [28989;25191;32087;20040;27191;31808;32103;30575;22325;28474;29021;24115;26699;30813;31559;21832];
 [22367;23849;26929;31277;30297;31348;30762;26222;19548;24892;24687;26943;31869;26190;24919;26191];
 [29809;25715;25723;31076;28515;20334;30270;24626;31870;20779;22394;31560;25175;21539;28792;22312];
 [24935;21311;28516;22341;27490;31847;25634;25192;26192;31592;29800;25972;29756;29781;24374;31801];
 [28226;19061;28517;19298;21540;24160;23165;25670;26686;24670;30260;27218;31099;24642;19044;26423];
 [27261;22877;23092;28202;31593;23371;23093;28990;21292;31561;24399;21312;25431;28518;31824;26944];
 [30035;27740;30519;27192;20857;23624;27193;29022;22326;20277;22824;27758;23850;19746;26670;24893];
 [29265;26945;21116;23349;29543;22654;31825;27954;29743;31523;31809;28203;21541;29810;28249;31562];
 [19811;22587;25947;30839;30292;22313;19273;26193;28748;22574;31059;21886;22588;29232;25131;29544];
 [28482;28012;26424;23166;19518;29308;23147;25176;27990;22097;24627;31826;27464;21313;28749;20343];
 [27986;21592;23625;22385;24379;29477;29773;28991;30769;27002;31563;19029;31060;30538;22088;31848];
 [29501;28286;26494;21314;21302;19501;30330;22066;21080;26456;25381;26425;28717;31564;27425;21542];
 [31565;21821;29023;30331;24116;21867;25928;31524;21561;24161;25635;22327;30830;24117;22098;31061];
 [26426;27477;21879;28519;24894;31278;22121;22126;26427;27723;21811;20020;31525;24942;30504;31566];
 [22589;31613;31849;20278;27975;28204;19549;30247;26234;29988;32092;27955;20041;28520;24895;31323];
 [19299;30505;31526;23609;28992;27976;28483;22061;32078;26657;31604;21799;29046;26195;19550;30770];
 [23659;32054;25962;29024;23372;23885;21576;22893;29989;26235;26196;32072;22049;32063;31827;28449];
 [26428;20846;26197;26994;24368;22624;31802;32047;28750;23393;25929;27956;24643;25432;27003;27176];
 [32055;31527;26946;32119;25177;23660;26658;26224;32120;32121;30271;26407;26199;21619;21577;22138];
 [22386;24896;23394;26200;26429;28751;29502;25132;30007;24688;32056;25448;21543;26748;31314;30831];
 [22099;21812;28752;30576;28211;27194;27219;27977;23851;25900;32033;24400;27699;24401;28013;30776];
 [30586;30763;29792;21562;25651;26970;24118;22847;22848;22127;22860;23082;24421;30565;19506;24441];
 [22368;21563;32122;19507;23411;24402;20042;28250;25700;31567;20279;28227;20074;25133;22369;31349];
 [21833;30764;26457;29545;22637;25412;28785;26725;24698;28228;22878;27426;27427;31810;27195;26667];
 [24162;28015;26659;20337;21564;31850;26430;31858;22068;25134;21303;31308;31324;27957;24931;26668];
 [26717;28521;29757;20280;26971;20780;23111;27465;26700;24119;22076;21349;31325;23126;18993;23112];
 [24358;31027;29266;19012;20043;19829;32048;21800;28993;25193;23626;27700;31296;31528;20520;23148];
 [22894;24699;28522;31326;24644;20281;21834;22370;25135;22328;26701;30298;28450;25178;30332;31568];
 [20781;19812;20782;23661;26702;28793;20021;26236;22395;20566;23925;30577;30333;23415;31594;26972];
 [22849;30066;24645;27220;31042;27196;21061;31569;26432;27429;24442;25378;22329;26947;26749;26671];
 [29267;31529;22565;21835;20552;20783;22371;24646;22050;28016;22387;31828;23127;19551;29268;20784];
 [19552;23421;29503;28753;31803;25136;26149;25179;24414;24647;29295;19553;22122;26434;20022;29504];
 [19838;31570;30840;30587;26687;26679;27958;23610;19508;29047;26680;19062;25636;29782;24422;24359];
 [24423;24897;26948;23627;26949;28451;27430;19235;25449;20859;28452;28523;20532;19747;26726;28453];
 [21324;23149;22330;29269;30053;22895;31028;21844;32079;23395;29025;27702;31614;21335;20785;19249];
 [20786;19250;28994;29793;31029;24899;24898;27511;24360;19274;26169;30814;31018;19063;27959;21304];
 [29270;21593;28229;29296;18994;23611;29048;27703;25930;30272;32093;21603;19554;30548;22373;21315];
 [22566;30273;23926;19776;25948;25931;24900;26672;29744;29546;23150;22331;25137;22314;22139;25695];
 [19030;27432;23422;30274;28475;21629;24648;26681;28454;19748;21620;23329;23388;23389;28252;19275];
 [31829;20075;19777;31571;31019;30036;22825;26973;23373;23886;26435;27724;31084;19276;24700;21544];
 [27987;22639;29271;19064;23151;22100;22861;22638;29249;24403;23152;25194;24701;22648;30511;23094];
 [19031;29272;22649;31327;20335;22850;28754;25681;29495;31328;28524;25138;21565;22862;29794;21545];
 [19778;26458;29273;22826;22590;23597;25195;22140;19065;21594;29783;19489;20282;30008;22851;20584];
 [25413;27512;29233;20283;21293;26721;20076;24628;24163;23927;29234;29558;30299;22398;30815;30578];
 [20521;26202;29990;22332;19555;26203;23901;20787;28525;22110;25716;24943;23928;26703;19045;23585];
 [24629;31788;31789;22567;27960;23350;22128;29487;19749;23153;22568;19556;20788;19032;23154;29991];
 [29992;26150;21868;21880;23155;25414;24164;24165;20789;20790;20791;29235;26974;28755;29236;28756];
 [19300;31572;30054;25450;24166;24404;30841;28718;20792;22111;20567;31777;28526;23640;26975;25949];
 [32123;24649;22089;21546;25932;26976;20568;31778;21566;25139;24167;23612;21046;30037;20001;29993];
 [23929;23930;28757;30303;29274;25707;29297;27705;32124;24874;19033;28527;29994;27769;30765;29250];
 [30275;22354;31010;28758;28794;30304;26995;29251;21547;18995;19750;19779;19802;22863;30276;28253];
 [26436;25140;24418;26459;26673;31790;25933;31339;20284;20322;19830;28528;29758;21581;29496;26913];
 [29298;29547;28759;20311;20319;26688;26689;20323;26914;20522;29505;20523;21604;28476;22561;22879];
 [29527;23613;19557;28017;29026;21595;25141;19046;21294;19558;29011;30055;19034;31598;24901;24425];
 [28254;30530;22562;23852;28719;22077;24875;31030;21621;20553;28455;25196;23402;20044;30056;30549];
 [21325;29566;20533;24702;24443;26205;26660;19277;28456;28212;23128;20793;24361;29488;19524;20023];
 [28457;24405;27991;28230;28477;31830;23412;28458;30777;30057;25433;24902;21567;24168;28778;29506];
 [21295;19035;31831;27992;24903;29784;22067;23853;21822;28995;28255;22123;29785;22374;23095;23931];
 [23887;22563;23129;28760;28484;24920;29012;28018;21851;21852;29508;19287;25142;28529;31573;21336];
 [23888;28761;19251;21853;19751;20524;20794;28996;25907;31605;26977;32096;31804;23074;23075;21025];
 [21103;25197;24169;20060;29237;20580;23889;24904;23351;24419;27961;28997;29519;22315;24876;25451];
 [28231;24905;19066;28795;31329;28762;19559;23156;19519;20077;21801;31330;20581;27478;27743;24444];
 [30550;24170;19252;28478;19509;20285;28530;25143;19560;28796;22112;28998;25144;27435;19253;22609];
 [29774;29559;22342;20795;30506;27978;22355;22650;30277;20812;23932;24445;31077;24650;29309;21296];
 [29811;23113;26206;30778;26704;22651;27221;22051;30278;29275;25724;26674;23130;29276;31574;26930];
 [28205;31331;23662;30058;26208;28797;22316;30021;28256;23397;23902;22896;26915;29049;29252;24651];
 [26916;25145;25393;31851;19752;19510;28763;26170;19753;29507;24921;28459;26437;24681;29509;21568];
 [21823;23854;31100;19520;25890;20024;22610;31062;28970;20049;30279;23403;24446;22625;30579;22375];
 [21630;20796;25935;19254;23096;19780;22078;25146;20312;24652;27513;32125;22376;19288;26978;26682];
 [25415;27725;27726;22079;25383;24406;32104;28257;30248;23933;30779;26705;31063;20078;27727;26917];
 [22101;19781;27962;20797;20286;27707;21041;19561;22852;27004;20798;27708;25901;30512;19562;21316];
 [22080;22141;24865;24125;30249;23076;22052;30022;24866;26950;29253;29801;22124;27475;27709;25180];
 [24171;28764;27455;22350;20799;29995;31101;19036;19782;29238;23934;19511;23352;20585;20061;27456];
 [32034;30795;27222;28976;23374;30531;23375;19236;30816;31575;27466;24609;20045;21596;32088;21110];
 [29239;31350;30250;31351;22630;29745;26706;19013;19563;25198;25147;30509;30817;29548;24097;25725];
 [25452;23855;23856;19255;26707;24867;21088;28798;26918;19314;28019;23641;24653;30554;23353;19502];
 [23131;19783;23857;22575;25379;20079;29299;30771;24654;30077;27500;21317;31852;21083;21611;24098];
 [25958;28720;21828;28020;25453;26690;28021;22396;27963;30251;29240;30280;21350;29277;20287;27436];
 [20288;26152;32105;20289;24671;24172;24610;29759;25199;22897;28999;19256;31102;23354;23157;30316];
 [23132;31332;24655;23858;26153;28531;29549;27514;31078;19037;21854;19038;24420;26237;29996;25717];
 [26979;27979;20324;22611;23859;21612;29241;24375;19278;31576;20569;23890;30580;26460;25637;31779];
 [23355;29242;27005;20554;30038;22853;25652;27943;27197;26238;30532;29997;22880;18996;30818;20290];
 [27710;25908;19784;28232;26440;19785;31031;29032;22898;23413;18997;22854;22601;22827;27964;22612];
 [23642;25148;31853;27744;21118;26951;26154;25200;31291;29998;31530;27771;27711;31832;21605;31043];
 [28258;22377;28022;24173;19564;25454;26708;31352;23860;25653;22576;22613;29802;20025;22113;20306];
 [20534;20002;29550;29560;23628;20555;31780;19786;22356;24099;25696;28233;25181;30078;21548;21841];
 [22640;30787;27223;30039;22591;32064;27437;21802;26408;28234;19047;30819;21597;27224;31577;28023];
 [25909;20525;29041;25149;25416;22869;24362;23356;30820;29050;25910;29551;31578;24928;22828;30059];
 [24630;26952;19279;25417;24174;25150;23663;22053;25201;22142;22817;22592;23643;27965;24376;27173];
 [22317;29561;28024;30023;24906;27491;29278;30796;27225;21318;23398;29999;20080;27006;31542;25202];
 [20338;30521;22899;24907;23133;23097;27515;19257;28025;24672;29760;32060;24369;25455;24611;32057];
 [28721;19787;27966;21824;25456;28026;26980;21869;26461;21622;25911;23399;25151;28235;22388;28765];
 [20011;26462;22102;24908;26675;25966;23586;24656;21813;21793;31579;31051;19315;29733;31304;22103];
 [26981;31580;32080;31606;23077;23357;27746;19831;28766;30281;24175;21297;31854;26691;29000;20081];
 [31085;29300;25654;30009;23664;25457;26661;29243;24100;23116;19049;25434;31833;27226;31044;25380];
 [31581;28490;26692;21836;27479;22829;31531;21337;21794;30302;23158;24657;26920;30073;31279;27516];
 [24682;25394;21829;29027;21870;19788;27993;22593;31340;29035;31292;26210;31333;25210;18998;25655];
 [27227;30074;31532;20291;27517;30842;24377;24945;21028;30075;20570;20571;27198;22833;18999;21351];
 [30821;21298;25152;29279;19813;31020;19789;28206;22062;22378;26464;27438;20313;23629;28027;24176];
 [22379;24101;24407;23376;23377;21795;28722;23644;19048;30822;23630;27228;23378;26931;30555;25384];
 [22318;24673;19258;25937;20572;21825;22602;25385;24612;26921;21319;23645;30766;19512;20526;22642];
 [25418;19503;21549;30289;20556;19014;21826;20026;19015;31280;24408;30010;25963;28532;23861;19754];
 [25458;31607;30544;32058;32097;30334;20800;26693;25656;24936;19521;21101;23358;24674;31305;24909];
 [19000;29280;29001;24177;28767;30788;28236;24178;26441;25203;26465;25419;25420;20344;28460;32126];
 [31781;31281;24409;24658;29786;29002;20003;29244;27747;24613;30507;27439;25950;24868;19755;22900];
 [26662;19790;24937;31855;24675;25153;20004;24102;27518;27485;28768;29787;25204;21320;29803;28213];
 [30040;21855;22117;27440;29795;25421;29812;31282;28533;19039;27441;27967;32073;25638;31012;28723];
 [25964;20839;22855;25687;27229;21623;23098;23117;31052;24922;23359;19525;27728;19259;24179;26922];
 [22856;28259;22333;20292;20557;31782;29051;32082;20801;25435;21321;23631;19565;24103;26171;27681];
 [19513;31582;26466;21569;23592;25154;29528;25939;29529;29510;19803;19756;31811;21607;20802;31013];
 [26709;25422;21578;24410;31583;26467;30843;25423;30000;22631;22857;30767;28534;23862;28207;19832];
 [24120;31783;30588;30513;20027;29729;28237;24878;27715;20350;30783;22626;21352;24104;29796;27714];
 [22901;31045;23891;22129;27772;31856;27968;19001;28260;29281;24121;22130;24180;24411;23379;31335];
 [22627;29761;23863;29301;21550;22131;23864;20293;24415;29246;30241;27467;29052;29511;24683;28028];
 [24923;28261;24181;31315;29003;20527;23865;20803;30001;27206;28769;30252;30041;28779;23866;29247];
 [30533;23330;29302;19002;30581;19301;28262;24659;20005;22104;21551;26953;21326;29762;19302;28961];
 [27442;28962;27443;28724;19316;21552;29490;31543;30060;28263;29746;30061;20339;28770;28238;29004];
 [25912;22389;25459;20325;20294;29491;25688;20345;20314;31309;26211;29282;30062;19003;25436;20082];
 [22105;28208;29797;22594;23632;19566;21856;30282;32074;22614;29775;22054;23614;23380;22343;29310];
 [29005;25155;23646;23647;28461;26155;31069;27199;28462;29776;20083;26156;20062;21881;25460;19792];
 [21816;30589;23593;24182;23594;29283;26932;21084;26982;25462;26442;20558;23159;19004;28264;23134];
 [29303;25211;19494;23099;28265;30042;30556;24938;20033;21553;32049;26173;31533;30823;24910;30562];
 [30063;20295;21554;19567;21608;28239;30551;24614;22081;24924;28771;29028;23665;22055;29813;29006];
 [29284;20528;27759;31034;27445;21613;25156;26983;27444;27169;30780;20006;31046;31834;21555;21305];
 [27230;26923;24929;21327;29814;27200;24911;19514;28266;28772;29492;21614;29248;29029;29763;24660];
 [27446;22305;19304;31021;26925;22628;31283;25157;31805;27716;22577;23595;21796;27497;26683;22615];
 [31534;20833;23360;30014;24183;19067;30534;20296;24912;28240;26996;20084;21837;20315;23867;20012];
 [26984;21556;25671;30043;31297;24105;21624;28535;21299;27447;28536;30044;27980;23381;29007;29008];
 [30002;22830;21804;25158;32035;31589;24363;25205;30253;30003;28725;24869;30045;27682;28029;30004];
 [31544;23331;22090;19289;25940;29562;27448;24631;22380;29036;25903;21857;22381;20817;24946;28537];
 [23868;30300;28773;29764;26985;29563;21615;19490;30590;24380;27469;20535;22082;26669;28463;19237];
 [19305;31336;19526;26215;27207;23332;20297;25212;28538;27486;30024;21598;24661;28464;25159;22831];
 [31079;26469;20298;24913;25160;28539;31353;23666;24615;30824;19306;19260;22114;30046;30047;28214];
 [25206;21322;28540;20804;28465;20805;20574;22881;24632;19793;29497;26444;22056;20007;21557;25672];
 [21300;27449;19317;30301;28963;19527;26954;24944;30048;31535;19281;31584;29285;27760;28780;28267];
 [26955;19568;22319;29473;31861;28964;24662;28466;29777;30497;29009;19068;19069;20046;29512;29498];
 [28030;23078;24684;30797;19282;27470;31064;31065;19040;23114;19238;19016;31086;23404;20529;21871];
 [26227;26402;25689;25697;31812;31087;20340;30566;20028;29765;23587;23869;29766;30753;26710;23361];
 [28774;25657;30317;31022;23870;22320;22632;19261;31066;30798;31088;24685;25395;29747;27202;29286];
 [28726;23382;27492;29287;22357;21558;31080;22337;25941;26986;22348;21353;25161;31835;19757;19504];
 [27170;25718;20544;28727;28193;22390;25162;25163;31311;27487;22091;29748;27981;25682;27177;25658];
 [29474;19794;30283;29030;27969;26684;28241;28775;25164;25642;30049;27994;22382;20849;26987;26988];
 [24676;23079;23892;27171;22083;22132;23135;28467;25165;28541;29288;28485;26471;22397;26446;24412];
 [31047;22902;24364;22106;23588;28728;21882;25719;22084;29804;28542;28705;24106;23100;22652;31316];
 [27749;31784;27750;22603;31545;25683;19833;20307;19050;20308;30781;29767;27231;31067;21559;27493];
 [24914;27172;31298;31585;31341;28706;19569;31267;25207;25166;26997;24939;26472;26711;23160;21579];
 [30582;22085;21609;31354;19570;30557;24122;20008;28729;25726;25673;25684;27203;28468;22334;31586];
 [19795;28469;31337;31014;24381;30535;30845;30844;24107;23400;25437;24930;20806;30288;27494;23161];
 [27719;24184;30825;25438;20085;31299;25943;27720;29513;25659;26158;28470;23615;20029;22595;20559];
 [20346;29514;24663;20807;26926;26685;31300;25167;31301;31032;23648;31536;22569;25951;31015;30318];
 [30284;25208;27761;23136;29010;21068;20299;19005;23871;30319;24185;31284;21805;29031;24126;23616];
 [20808;20809;30782;19318;21625;30050;24915;22633;30846;20300;32036;20086;31312;19571;26174;30254];
 [21872;20810;31806;21873;19817;31285;25168;29815;19796;26403;23333;25169;22306;30563;27174;20513];
 [20058;31595;23334;23390;22629;27232;22570;25952;22107;28486;30826;25685;20087;24664;22383;29805];
 [19814;19572;30051;25674;23649;31048;31807;26663;22596;19262;23598;22391;28776;23872;20301;23667];
 [22832;26217;25660;27204;25708;25701;31608;19515;25661;19804;22903;23903;27982;22864;25891;31053];
 [19758;20302;30255;32083;27501;22108;25892;21814;22109;31081;26404;22115;20811;22116;21874;24186];
 [22392;22634;20309;22653;22571;32075;31836;24616;21875;32089;19491;22905;21354;30069;28487;21338];
 [23101;26664;23599;28707;19797;24617;24108;28730;28209;28210;30285;28242;22086;24677;29499;25953];
 [25675;22307;23362;19070;20303;12321;12322;12323;12324;12325;12326;12327;12328;12329;12330;12331];
 [12332;12333;12334;12335;12336;12337;12338;12339;12340;12341;12342;12343;12344;12345;12346;12347];
 [12348;12349;12350;12351;12352;12353;12354;12355;12356;12357;12358;12359;12360;12361;12362;12363];
 [12364;12365;12366;12367;12368;12369;12370;12371;12372;12373;12374;12375;12376;12377;12378;12379];
 [12380;12381;12382;12383;12384;12385;12386;12387;12388;12389;12390;12391;12392;12393;12394;12395];
 [12396;12397;12398;12399;12400;12401;12402;12403;12404;12405;12406;12407;12408;12409;12410;12411];
 [12412;12413;12414;12577;12578;12579;12580;12581;12582;12583;12584;12585;12586;12587;12588;12589];
 [12590;12591;12592;12593;12594;12595;12596;12597;12598;12599;12600;12601;12602;12603;12604;12605];
 [12606;12607;12608;12609;12610;12611;12612;12613;12614;12615;12616;12617;12618;12619;12620;12621];
 [12622;12623;12624;12625;12626;12627;12628;12629;12630;12631;12632;12633;12634;12635;12636;12637];
 [12638;12639;12640;12641;12642;12643;12644;12645;12646;12647;12648;12649;12650;12651;12652;12653];
 [12654;12655;12656;12657;12658;12659;12660;12661;12662;12663;12664;12665;12666;12667;12668;12669];
 [12670;12833;12834;12835;12836;12837;12838;12839;12840;12841;12842;12843;12844;12845;12846;12847];
 [12848;12849;12850;12851;12852;12853;12854;12855;12856;12857;12858;12859;12860;12861;12862;12863];
 [12864;12865;12866;12867;12868;12869;12870;12871;12872;12873;12874;12875;12876;12877;12878;12879];
 [12880;12881;12882;12883;12884;12885;12886;12887;12888;12889;12890;12891;12892;12893;12894;12895];
 [12896;12897;12898;12899;12900;12901;12902;12903;12904;12905;12906;12907;12908;12909;12910;12911];
 [12912;12913;12914;12915;12916;12917;12918;12919;12920;12921;12922;12923;12924;12925;12926;13089];
 [13090;13091;13092;13093;13094;13095;13096;13097;13098;13099;13100;13101;13102;13103;13104;13105];
 [13106;13107;13108;13109;13110;13111;13112;13113;13114;13115;13116;13117;13118;13119;13120;13121];
 [13122;13123;13124;13125;13126;13127;13128;13129;13130;13131;13132;13133;13134;13135;13136;13137];
 [13138;13139;13140;13141;13142;13143;13144;13145;13146;13147;13148;13149;13150;13151;13152;13153];
 [13154;13155;13156;13157;13158;13159;13160;13161;13162;13163;13164;13165;13166;13167;13168;13169];
 [13170;13171;13172;13173;13174;13175;13176;13177;13178;13179;13180;13181;13182;13345;13346;13347];
 [13348;13349;13350;13351;13352;13353;13354;13355;13356;13357;13358;13359;13360;13361;13362;13363];
 [13364;13365;13366;13367;13368;13369;13370;13371;13372;13373;13374;13375;13376;13377;13378;13379];
 [13380;13381;13382;13383;13384;13385;13386;13387;13388;13389;13390;13391;13392;13393;13394;13395];
 [13396;13397;13398;13399;13400;13401;13402;13403;13404;13405;13406;13407;13408;13409;13410;13411];
 [13412;13413;13414;13415;13416;13417;13418;13419;13420;13421;13422;13423;13424;13425;13426;13427];
 [13428;13429;13430;13431;13432;13433;13434;13435;13436;13437;13438;13601;13602;13603;13604;13605];
 [13606;13607;13608;13609;13610;13611;13612;13613;13614;13615;13616;13617;13618;13619;13620;13621];
 [13622;13623;13624;13625;13626;13627;13628;13629;13630;13631;13632;13633;13634;13635;13636;13637];
 [13638;13639;13640;13641;13642;13643;13644;13645;13646;13647;13648;13649;13650;13651;13652;13653];
 [13654;13655;13656;13657;13658;13659;13660;13661;13662;13663;13664;13665;13666;13667;13668;13669];
 [13670;13671;13672;13673;13674;13675;13676;13677;13678;13679;13680;13681;13682;13683;13684;13685];
 [13686;13687;13688;13689;13690;13691;13692;13693;13694;13857;13858;13859;13860;13861;13862;13863];
 [13864;13865;13866;13867;13868;13869;13870;13871;13872;13873;13874;13875;13876;13877;13878;13879];
 [13880;13881;13882;13883;13884;13885;13886;13887;13888;13889;13890;13891;13892;13893;13894;13895];
 [13896;13897;13898;13899;13900;13901;13902;13903;13904;13905;13906;13907;13908;13909;13910;13911];
 [13912;13913;13914;13915;13916;13917;13918;13919;13920;13921;13922;13923;13924;13925;13926;13927];
 [13928;13929;13930;13931;13932;13933;13934;13935;13936;13937;13938;13939;13940;13941;13942;13943];
 [13944;13945;13946;13947;13948;13949;13950;14113;14114;14115;14116;14117;14118;14119;14120;14121];
 [14122;14123;14124;14125;14126;14127;14128;14129;14130;14131;14132;14133;14134;14135;14136;14137];
 [14138;14139;14140;14141;14142;14143;14144;14145;14146;14147;14148;14149;14150;14151;14152;14153];
 [14154;14155;14156;14157;14158;14159;14160;14161;14162;14163;14164;14165;14166;14167;14168;14169];
 [14170;14171;14172;14173;14174;14175;14176;14177;14178;14179;14180;14181;14182;14183;14184;14185];
 [14186;14187;14188;14189;14190;14191;14192;14193;14194;14195;14196;14197;14198;14199;14200;14201];
 [14202;14203;14204;14205;14206;14369;14370;14371;14372;14373;14374;14375;14376;14377;14378;14379];
 [14380;14381;14382;14383;14384;14385;14386;14387;14388;14389;14390;14391;14392;14393;14394;14395];
 [14396;14397;14398;14399;14400;14401;14402;14403;14404;14405;14406;14407;14408;14409;14410;14411];
 [14412;14413;14414;14415;14416;14417;14418;14419;14420;14421;14422;14423;14424;14425;14426;14427];
 [14428;14429;14430;14431;14432;14433;14434;14435;14436;14437;14438;14439;14440;14441;14442;14443];
 [14444;14445;14446;14447;14448;14449;14450;14451;14452;14453;14454;14455;14456;14457;14458;14459];
 [14460;14461;14462;14625;14626;14627;14628;14629;14630;14631;14632;14633;14634;14635;14636;14637];
 [14638;14639;14640;14641;14642;14643;14644;14645;14646;14647;14648;14649;14650;14651;14652;14653];
 [14654;14655;14656;14657;14658;14659;14660;14661;14662;14663;14664;14665;14666;14667;14668;14669];
 [14670;14671;14672;14673;14674;14675;14676;14677;14678;14679;14680;14681;14682;14683;14684;14685];
 [14686;14687;14688;14689;14690;14691;14692;14693;14694;14695;14696;14697;14698;14699;14700;14701];
 [14702;14703;14704;14705;14706;14707;14708;14709;14710;14711;14712;14713;14714;14715;14716;14717];
 [14718;14881;14882;14883;14884;14885;14886;14887;14888;14889;14890;14891;14892;14893;14894;14895];
 [14896;14897;14898;14899;14900;14901;14902;14903;14904;14905;14906;14907;14908;14909;14910;14911];
 [14912;14913;14914;14915;14916;14917;14918;14919;14920;14921;14922;14923;14924;14925;14926;14927];
 [14928;14929;14930;14931;14932;14933;14934;14935;14936;14937;14938;14939;14940;14941;14942;14943];
 [14944;14945;14946;14947;14948;14949;14950;14951;14952;14953;14954;14955;14956;14957;14958;14959];
 [14960;14961;14962;14963;14964;14965;14966;14967;14968;14969;14970;14971;14972;14973;14974;15137];
 [15138;15139;15140;15141;15142;15143;15144;15145;15146;15147;15148;15149;15150;15151;15152;15153];
 [15154;15155;15156;15157;15158;15159;15160;15161;15162;15163;15164;15165;15166;15167;15168;15169];
 [15170;15171;15172;15173;15174;15175;15176;15177;15178;15179;15180;15181;15182;15183;15184;15185];
 [15186;15187;15188;15189;15190;15191;15192;15193;15194;15195;15196;15197;15198;15199;15200;15201];
 [15202;15203;15204;15205;15206;15207;15208;15209;15210;15211;15212;15213;15214;15215;15216;15217];
 [15218;15219;15220;15221;15222;15223;15224;15225;15226;15227;15228;15229;15230;15393;15394;15395];
 [15396;15397;15398;15399;15400;15401;15402;15403;15404;15405;15406;15407;15408;15409;15410;15411];
 [15412;15413;15414;15415;15416;15417;15418;15419;15420;15421;15422;15423;15424;15425;15426;15427];
 [15428;15429;15430;15431;15432;15433;15434;15435;15436;15437;15438;15439;15440;15441;15442;15443];
 [15444;15445;15446;15447;15448;15449;15450;15451;15452;15453;15454;15455;15456;15457;15458;15459];
 [15460;15461;15462;15463;15464;15465;15466;15467;15468;15469;15470;15471;15472;15473;15474;15475];
 [15476;15477;15478;15479;15480;15481;15482;15483;15484;15485;15486;15649;15650;15651;15652;15653];
 [15654;15655;15656;15657;15658;15659;15660;15661;15662;15663;15664;15665;15666;15667;15668;15669];
 [15670;15671;15672;15673;15674;15675;15676;15677;15678;15679;15680;15681;15682;15683;15684;15685];
 [15686;15687;15688;15689;15690;15691;15692;15693;15694;15695;15696;15697;15698;15699;15700;15701];
 [15702;15703;15704;15705;15706;15707;15708;15709;15710;15711;15712;15713;15714;15715;15716;15717];
 [15718;15719;15720;15721;15722;15723;15724;15725;15726;15727;15728;15729;15730;15731;15732;15733];
 [15734;15735;15736;15737;15738;15739;15740;15741;15742;15905;15906;15907;15908;15909;15910;15911];
 [15912;15913;15914;15915;15916;15917;15918;15919;15920;15921;15922;15923;15924;15925;15926;15927];
 [15928;15929;15930;15931;15932;15933;15934;15935;15936;15937;15938;15939;15940;15941;15942;15943];
 [15944;15945;15946;15947;15948;15949;15950;15951;15952;15953;15954;15955;15956;15957;15958;15959];
 [15960;15961;15962;15963;15964;15965;15966;15967;15968;15969;15970;15971;15972;15973;15974;15975];
 [15976;15977;15978;15979;15980;15981;15982;15983;15984;15985;15986;15987;15988;15989;15990;15991];
 [15992;15993;15994;15995;15996;15997;15998;16161;16162;16163;16164;16165;16166;16167;16168;16169];
 [16170;16171;16172;16173;16174;16175;16176;16177;16178;16179;16180;16181;16182;16183;16184;16185];
 [16186;16187;16188;16189;16190;16191;16192;16193;16194;16195;16196;16197;16198;16199;16200;16201];
 [16202;16203;16204;16205;16206;16207;16208;16209;16210;16211;16212;16213;16214;16215;16216;16217];
 [16218;16219;16220;16221;16222;16223;16224;16225;16226;16227;16228;16229;16230;16231;16232;16233];
 [16234;16235;16236;16237;16238;16239;16240;16241;16242;16243;16244;16245;16246;16247;16248;16249];
 [16250;16251;16252;16253;16254;16417;16418;16419;16420;16421;16422;16423;16424;16425;16426;16427];
 [16428;16429;16430;16431;16432;16433;16434;16435;16436;16437;16438;16439;16440;16441;16442;16443];
 [16444;16445;16446;16447;16448;16449;16450;16451;16452;16453;16454;16455;16456;16457;16458;16459];
 [16460;16461;16462;16463;16464;16465;16466;16467;16468;16469;16470;16471;16472;16473;16474;16475];
 [16476;16477;16478;16479;16480;16481;16482;16483;16484;16485;16486;16487;16488;16489;16490;16491];
 [16492;16493;16494;16495;16496;16497;16498;16499;16500;16501;16502;16503;16504;16505;16506;16507];
 [16508;16509;16510;16673;16674;16675;16676;16677;16678;16679;16680;16681;16682;16683;16684;16685];
 [16686;16687;16688;16689;16690;16691;16692;16693;16694;16695;16696;16697;16698;16699;16700;16701];
 [16702;16703;16704;16705;16706;16707;16708;16709;16710;16711;16712;16713;16714;16715;16716;16717];
 [16718;16719;16720;16721;16722;16723;16724;16725;16726;16727;16728;16729;16730;16731;16732;16733];
 [16734;16735;16736;16737;16738;16739;16740;16741;16742;16743;16744;16745;16746;16747;16748;16749];
 [16750;16751;16752;16753;16754;16755;16756;16757;16758;16759;16760;16761;16762;16763;16764;16765];
 [16766;16929;16930;16931;16932;16933;16934;16935;16936;16937;16938;16939;16940;16941;16942;16943];
 [16944;16945;16946;16947;16948;16949;16950;16951;16952;16953;16954;16955;16956;16957;16958;16959];
 [16960;16961;16962;16963;16964;16965;16966;16967;16968;16969;16970;16971;16972;16973;16974;16975];
 [16976;16977;16978;16979;16980;16981;16982;16983;16984;16985;16986;16987;16988;16989;16990;16991];
 [16992;16993;16994;16995;16996;16997;16998;16999;17000;17001;17002;17003;17004;17005;17006;17007];
 [17008;17009;17010;17011;17012;17013;17014;17015;17016;17017;17018;17019;17020;17021;17022;17185];
 [17186;17187;17188;17189;17190;17191;17192;17193;17194;17195;17196;17197;17198;17199;17200;17201];
 [17202;17203;17204;17205;17206;17207;17208;17209;17210;17211;17212;17213;17214;17215;17216;17217];
 [17218;17219;17220;17221;17222;17223;17224;17225;17226;17227;17228;17229;17230;17231;17232;17233];
 [17234;17235;17236;17237;17238;17239;17240;17241;17242;17243;17244;17245;17246;17247;17248;17249];
 [17250;17251;17252;17253;17254;17255;17256;17257;17258;17259;17260;17261;17262;17263;17264;17265];
 [17266;17267;17268;17269;17270;17271;17272;17273;17274;17275;17276;17277;17278;17441;17442;17443];
 [17444;17445;17446;17447;17448;17449;17450;17451;17452;17453;17454;17455;17456;17457;17458;17459];
 [17460;17461;17462;17463;17464;17465;17466;17467;17468;17469;17470;17471;17472;17473;17474;17475];
 [17476;17477;17478;17479;17480;17481;17482;17483;17484;17485;17486;17487;17488;17489;17490;17491];
 [17492;17493;17494;17495;17496;17497;17498;17499;17500;17501;17502;17503;17504;17505;17506;17507];
 [17508;17509;17510;17511;17512;17513;17514;17515;17516;17517;17518;17519;17520;17521;17522;17523];
 [17524;17525;17526;17527;17528;17529;17530;17531;17532;17533;17534;17697;17698;17699;17700;17701];
 [17702;17703;17704;17705;17706;17707;17708;17709;17710;17711;17712;17713;17714;17715;17716;17717];
 [17718;17719;17720;17721;17722;17723;17724;17725;17726;17727;17728;17729;17730;17731;17732;17733];
 [17734;17735;17736;17737;17738;17739;17740;17741;17742;17743;17744;17745;17746;17747;17748;17749];
 [17750;17751;17752;17753;17754;17755;17756;17757;17758;17759;17760;17761;17762;17763;17764;17765];
 [17766;17767;17768;17769;17770;17771;17772;17773;17774;17775;17776;17777;17778;17779;17780;17781];
 [17782;17783;17784;17785;17786;17787;17788;17789;17790;17953;17954;17955;17956;17957;17958;17959];
 [17960;17961;17962;17963;17964;17965;17966;17967;17968;17969;17970;17971;17972;17973;17974;17975];
 [17976;17977;17978;17979;17980;17981;17982;17983;17984;17985;17986;17987;17988;17989;17990;17991];
 [17992;17993;17994;17995;17996;17997;17998;17999;18000;18001;18002;18003;18004;18005;18006;18007];
 [18008;18009;18010;18011;18012;18013;18014;18015;18016;18017;18018;18019;18020;18021;18022;18023];
 [18024;18025;18026;18027;18028;18029;18030;18031;18032;18033;18034;18035;18036;18037;18038;18039];
 [18040;18041;18042;18043;18044;18045;18046;18209;18210;18211;18212;18213;18214;18215;18216;18217];
 [18218;18219;18220;18221;18222;18223;18224;18225;18226;18227;18228;18229;18230;18231;18232;18233];
 [18234;18235;18236;18237;18238;18239;18240;18241;18242;18243;18244;18245;18246;18247;18248;18249];
 [18250;18251;18252;18253;18254;18255;18256;18257;18258;18259;18260;18261;18262;18263;18264;18265];
 [18266;18267;18268;18269;18270;18271;18272;18273;18274;18275;18276;18277;18278;18279;18280;18281];
 [18282;18283;18284;18285;18286;18287;18288;18289;18290;18291;18292;18293;18294;18295;18296;18297];
 [18298;18299;18300;18301;18302;18465;18466;18467;18468;18469;18470;18471;18472;18473;18474;18475];
 [18476;18477;18478;18479;18480;18481;18482;18483;18484;18485;18486;18487;18488;18489;18490;18491];
 [18492;18493;18494;18495;18496;18497;18498;18499;18500;18501;18502;18503;18504;18505;18506;18507];
 [18508;18509;18510;18511;18512;18513;18514;18515;18516;18517;18518;18519;18520;18521;18522;18523];
 [18524;18525;18526;18527;18528;18529;18530;18531;18532;18533;18534;18535;18536;18537;18538;18539];
 [18540;18541;18542;18543;18544;18545;18546;18547;18548;18549;18550;18551;18552;18553;18554;18555];
 [18556;18557;18558;19280;19286;19303;19791;19816;20013;20347;20514;20536;20560;20573;20820;20821];
 [20824;20827;20828;20829;20830;20831;20832;20834;20835;20836;20837;20838;20840;20841;20842;20843];
 [20845;20847;20848;20850;20854;20858;20860;20861;20862;21026;21027;21031;21032;21033;21034;21035];
 [21037;21042;21054;21058;21059;21060;21062;21063;21064;21065;21066;21067;21069;21070;21071;21072];
 [21073;21074;21075;21076;21077;21078;21079;21081;21082;21086;21087;21089;21090;21092;21093;21094];
 [21095;21096;21097;21098;21099;21104;21105;21106;21107;21108;21109;21111;21112;21606;21628;21797];
 [21803;21806;22072;22093;22347;22372;23365;23396;23589;23845;23893;23924;24188;24190;24371;24417];
 [24424;24689;24877;24941;25461;25633;25641;25902;25905;25906;25913;25915;25916;25924;25934;25936];
 [25938;25942;25978;25979;25980;25982;26145;26148;26151;26157;26159;26160;26161;26163;26167;26168];
 [26172;26180;26182;26183;26186;26194;26198;26201;26204;26207;26209;26212;26213;26214;26216;26218];
 [26219;26220;26223;26225;26226;26229;26230;26231;26233;26401;26406;26409;26410;26412;26413;26416];
 [26431;26433;26438;26439;26443;26445;26447;26448;26451;26463;26468;26470;26487;26727;26728;26736];
 [26737;26743;26745;26747;26750;26919;26924;26956;26999;27201;27237;27252;27255;27260;27262;27428];
 [27431;27433;27434;27450;27451;27453;27457;27458;27462;27463;27468;27471;27472;27473;27474;27480];
 [27686;27687;27690;27695;27696;27697;27698;27701;27704;27706;27712;27713;27717;27718;27721;27722];
 [27733;27741;27742;27745;27748;27751;27752;27767;27768;27770;27937;27938;27939;28014;28251;29245];
 [29306;29489;29735;29806;30324;30326;30520;30536;30547;30811;30832;31265;31266;31334;31785;8993];
 [8994;8995;8996;8997;8998;8999;9000;9001;9002;9003;9004;9005;9006;9007;9008;9009];
 [9010;9011;9012;9013;9014;9015;9016;9017;9018;9019;9020;9021;9022;9023;9024;9025];
 [9026;9027;9028;9029;9030;9031;9032;9033;9034;9035;9036;9037;9038;9039;9040;9041];
 [9042;9043;9044;9045;9046;9047;9048;9049;9050;9051;8492;9053;9054;9055;9056;9057];
 [9058;9059;9060;9061;9062;9063;9064;9065;9066;9067;9068;9069;9070;9071;9072;9073];
 [9074;9075;9076;9077;9078;9079;9080;9081;9082;9083;9084;9085;8742;8523;8524;8574];
 [9086;8525;9052]].

(* lib/converters/ksc5601.h:2265-2289 ksc5601_uni2indx_page00 (flattened, 2 fields per entry) *)
Definition ksc5601_uni2indx_page00 : tab := mk [
 [0;0;0;0;0;0;0;0;0;0;0;0;0;0;0;0];
 [0;0;0;0;0;26002;7;63455;21;64;22;49537;27;64;28;16769];
 [32;0;32;2;33;192;35;33038;40;3591;46;12;48;192;50;0];
 [50;0;50;0;50;0;50;0;50;0;50;0;50;0;50;0];
 [50;0;50;0;50;0;50;0;50;0;50;0;50;0;50;0];
 [50;0;50;0;50;0;50;0;50;128;51;12033;57;0;57;0];
 [57;0;57;0;57;0;57;0;57;0;57;0;57;0;57;0];
 [57;0;57;65534;72;1019;81;65534;96;1019;105;0;105;0;105;0];
 [105;2;106;65535;122;65535;138;65535;154;65535;170;2]].

(* lib/converters/ksc5601.h:2290-2324 ksc5601_uni2indx_page20 (flattened, 2 fields per entry) *)
Definition ksc5601_uni2indx_page20 : tab := mk [
 [171;0;171;13088;176;99;180;2061;184;0;184;0;184;0;184;32784];
 [186;30;190;0;190;4096;191;0;191;0;191;0;191;0;191;0];
 [191;520;193;72;195;2118;199;0;199;0;199;30744;205;1023;215;1023];
 [225;0;225;1023;235;0;235;0;235;0;235;20;237;0;237;0];
 [237;35213;244;25602;248;24481;257;12336;261;0;261;4;262;3123;268;0];
 [268;204;272;512;273;32;274;0;274;0;274;0;274;0;274;0];
 [274;0;274;4;275;0;275;0;275;0;275;0;275;0;275;0];
 [275;0;275;0;275;0;275;0;275;0;275;0;275;0;275;0];
 [275;0;275;0;275;0;275;0;275;0;275;0;275;32767;290;65520];
 [302;7;305;61440;309;65535;325;63;331;0;331;65535;347;1023;357;0];
 [357;61455;365;65535;381;65535;397;65535;413;4095;425;0;425;0;425;0];
 [425;0;425;4;426;1019;435;12492;441;51651;449;3;451;0;451;0];
 [451;49248;455;20480;457;0;457;0;457;5;459;0;459;14267]].

(* lib/converters/ksc5601.h:2325-2346 ksc5601_uni2indx_page30 (flattened, 2 fields per entry) *)
Definition ksc5601_uni2indx_page30 : tab := mk [
 [470;65295;482;59;487;0;487;0;487;65534;502;65535;518;65535;534;65535];
 [550;65535;566;15;570;65534;585;65535;601;65535;617;65535;633;65535;649;127];
 [656;0;656;0;656;0;656;65534;671;65535;687;65535;703;65535;719;65535];
 [735;32767;750;0;750;0;750;0;750;0;750;0;750;0;750;0];
 [750;65535;766;8191;779;0;779;0;779;0;779;0;779;65535;795;53247];
 [809;0;809;0;809;0;809;0;809;0;809;0;809;0;809;0];
 [809;0;809;0;809;0;809;0;809;0;809;0;809;0;809;0];
 [809;65311;822;65535;838;65535;854;65535;870;34815;882;14665]].

(* lib/converters/ksc5601.h:2347-2757 ksc5601_uni2indx_page4e (flattened, 2 fields per entry) *)
Definition ksc5601_uni2indx_page4e : tab := mk [
 [889;12171;898;17266;905;8192;906;2820;910;59436;917;58176;923;10240;925;16584];
 [929;22852;935;18743;943;31094;953;1088;955;11411;962;41968;970;56;973;2245];
 [978;60930;985;3;987;32768;988;13648;994;57800;1001;7715;1008;33280;1010;50249];
 [1016;44378;1025;10562;1030;49152;1032;32864;1035;17948;1041;42138;1048;49155;1052;1322];
 [1057;10820;1062;54854;1070;15834;1080;2048;1081;33672;1086;5152;1089;32;1090;368];
 [1094;8225;1097;770;1100;12288;1102;16556;1107;34336;1111;17506;1116;8352;1119;35328];
 [1122;595;1127;32772;1129;1026;1131;5252;1135;31739;1148;4100;1150;32676;1160;4578];
 [1166;9281;1170;164;1173;5153;1177;8384;1180;14928;1186;28672;1189;2;1190;10051];
 [1197;17865;1204;8322;1207;17968;1212;4033;1219;15496;1225;10320;1229;34306;1233;40996];
 [1237;9096;1242;34822;1246;3609;1252;16384;1253;8874;1259;60260;1268;28;1271;52520];
 [1278;41248;1282;737;1287;33803;1292;33280;1294;10139;1303;21662;1311;33089;1315;41139];
 [1322;16;1323;34056;1327;8289;1331;2048;1332;12040;1338;2256;1342;48702;1353;271];
 [1358;63256;1367;43011;1372;2625;1376;23304;1382;1284;1385;2;1386;1280;1388;14378];
 [1394;20545;1398;1;1399;6416;1403;8456;1406;787;1411;0;1411;24866;1416;1028];
 [1418;16592;1422;4097;1424;32768;1425;16418;1428;32848;1431;16456;1434;8;1435;4096];
 [1436;1745;1442;14080;1447;24192;1453;0;1453;160;1455;37904;1459;24;1461;24576];
 [1463;576;1465;144;1467;32768;1468;84;1471;0;1471;8;1472;2304;1474;16];
 [1475;64;1476;0;1476;20512;1479;4112;1481;9216;1483;19458;1487;1;1488;1537];
 [1491;10520;1496;33100;1501;8448;1503;2049;1505;25733;1511;3;1513;17490;1518;4129];
 [1521;2308;1524;8;1525;13;1528;0;1528;18824;1533;32768;1534;1;1535;5777];
 [1541;1893;1548;16384;1549;33938;1554;1075;1559;35840;1562;17810;1568;22;1571;21024];
 [1575;552;1578;53256;1582;17152;1585;19464;1589;16546;1593;49962;1600;38928;1604;11776];
 [1608;32768;1609;5744;1615;28292;1622;16514;1625;50064;1631;1203;1637;31877;1645;8472];
 [1649;1052;1653;712;1657;4384;1660;18944;1663;2632;1667;13851;1675;21824;1680;35072];
 [1683;10;1685;39170;1690;545;1693;4160;1695;578;1698;1024;1699;68;1701;0];
 [1701;0;1701;3076;1704;16;1705;0;1705;4630;1710;0;1710;578;1713;0];
 [1713;6688;1717;64;1718;1024;1719;0;1719;9;1721;46515;1731;2584;1735;5411];
 [1741;39840;1748;8168;1757;20604;1764;33657;1772;4349;1780;49309;1787;56310;1799;1376];
 [1803;61330;1813;578;1816;272;1818;57090;1826;26977;1833;2082;1836;36917;1842;514];
 [1844;0;1844;3;1846;6658;1850;17834;1857;1;1858;512;1859;33025;1862;10321];
 [1867;24704;1870;722;1875;640;1877;0;1877;6144;1879;1;1880;37376;1883;0];
 [1883;2176;1885;8192;1886;1029;1889;13568;1893;8192;1894;24644;1898;18918;1906;24734];
 [1913;4172;1917;10818;1922;10272;1925;41288;1930;4273;1935;32800;1937;14;1940;31644];
 [1950;33936;1954;5280;1958;10433;1963;16864;1968;1796;1972;35913;1978;4109;1982;3272];
 [1987;33810;1991;35258;1999;704;2002;5154;2006;21760;2010;2752;2014;16068;2022;37507];
 [2028;7331;2035;17287;2042;18179;2048;8864;2052;12328;2056;960;2060;2049;2062;40992];
 [2065;32768;2066;12356;2070;34211;2077;0;2077;8206;2081;8741;2086;46908;2096;1];
 [2097;12832;2101;35920;2106;153;2110;12637;2118;160;2120;37890;2124;3;2126;3659];
 [2133;58178;2140;35872;2144;128;2145;53393;2151;7572;2158;41768;2164;18844;2171;24769];
 [2176;17414;2180;1811;2186;23184;2192;17476;2196;3976;2202;0;2202;64;2203;38340];
 [2210;30081;2217;33863;2223;17410;2226;49235;2232;11139;2239;264;2241;16384;2242;37442];
 [2247;1553;2251;2470;2257;2048;2258;12834;2263;45956;2270;7133;2280;61440;2284;49290];
 [2289;642;2292;2;2293;34816;2295;27648;2299;37376;2302;33;2304;16768;2307;35972];
 [2312;4872;2316;2372;2320;1959;2328;0;2328;32849;2332;3137;2336;24578;2339;208];
 [2342;40960;2344;4304;2348;12292;2351;17408;2353;0;2353;256;2354;33281;2357;1792];
 [2360;256;2361;17422;2366;26672;2371;2053;2374;25778;2381;1300;2385;4326;2391;17428];
 [2395;17;2397;8448;2399;39944;2404;52160;2411;57632;2416;16578;2420;12364;2425;16820];
 [2431;4268;2436;39555;2443;39090;2450;12929;2455;38946;2460;132;2462;13161;2470;48146];
 [2477;54976;2484;49211;2491;41377;2497;3155;2503;35358;2510;59904;2515;52208;2524;1496];
 [2530;17296;2535;8643;2541;18437;2545;18972;2551;720;2555;12864;2559;65;2561;55197];
 [2572;11017;2578;59568;2585;32192;2593;9298;2598;49728;2602;53323;2609;40960;2611;51371];
 [2619;35456;2623;13481;2630;32768;2631;16841;2637;32784;2639;9247;2646;37376;2649;18555];
 [2657;0;2657;204;2661;33798;2665;13056;2669;16655;2675;27;2679;8192;2680;32832];
 [2682;32802;2685;41112;2690;41350;2696;107;2701;10800;2706;34212;2712;16769;2716;1540];
 [2719;24609;2723;4;2724;128;2725;40961;2728;1024;2729;18104;2736;59663;2745;928];
 [2749;0;2749;6176;2752;16544;2755;2064;2757;14346;2762;1;2763;1280;2765;43008];
 [2768;1028;2770;49802;2776;10;2778;10016;2783;2320;2786;33548;2791;2050;2793;0];
 [2793;25105;2798;4224;2800;12;2802;2056;2804;12;2806;3080;2809;0;2809;2112];
 [2811;5136;2814;68;2816;11;2819;25604;2823;20672;2827;32769;2829;1150;2836;35204];
 [2841;1624;2846;16704;2849;49152;2851;38052;2857;43106;2863;2524;2870;6144;2872;0];
 [2872;33024;2874;10;2876;8;2877;16784;2881;16391;2885;58529;2892;9473;2896;25669];
 [2902;4590;2910;3709;2919;18432;2921;64264;2929;5654;2935;2216;2939;51502;2947;9];
 [2949;6144;2951;19074;2956;1696;2960;27492;2968;2;2969;5632;2972;22088;2978;33680];
 [2983;29600;2990;42;2993;32768;2994;36;2996;35065;3004;18178;3009;19714;3014;4010];
 [3022;0;3022;36480;3027;47227;3037;30036;3045;9240;3049;55616;3055;51328;3059;1036];
 [3062;0;3062;45121;3067;35876;3072;1090;3075;23092;3082;26;3085;32768;3086;49424];
 [3090;32838;3094;50;3097;6157;3102;33030;3106;2;3107;52626;3115;24596;3119;29697];
 [3124;24850;3129;145;3132;49304;3137;16906;3141;1039;3146;33824;3149;39443;3156;16386];
 [3158;35426;3164;64802;3173;33160;3177;16512;3179;4096;3180;8451;3184;2056;3186;12545];
 [3190;17440;3193;1796;3197;47122;3203;904;3207;35072;3210;41728;3214;0;3214;8706];
 [3217;4624;3220;17920;3223;66;3225;65;3227;22144;3232;21057;3237;21232;3244;8192];
 [3245;34320;3249;33300;3253;4100;3255;17922;3259;17162;3264;32821;3269;24800;3274;55296];
 [3278;65;3280;2049;3282;13312;3285;27749;3293;4545;3298;43780;3304;646;3308;8708];
 [3311;3;3313;0;3313;36996;3317;0;3317;16405;3321;641;3324;514;3326;13056];
 [3330;1024;3331;14400;3335;3616;3339;49344;3343;48;3345;133;3348;1280;3350;3365];
 [3356;19152;3362;33232;3367;8832;3370;524;3373;46597;3380;25152;3384;9849;3392;25216];
 [3396;746;3402;2056;3404;56679;3415;34169;3423;2075;3428;56992;3436;34613;3444;16384];
 [3445;2700;3450;53504;3454;1450;3460;41509;3466;33856;3469;5392;3473;16461;3478;128];
 [3479;18;3481;36130;3487;6504;3493;1423;3500;36992;3503;14874;3510;33892;3515;34145];
 [3521;52416;3527;8194;3529;2080;3531;29486;3540;8356;3544;2868;3550;4;3551;5141];
 [3556;8193;3558;33280;3560;87;3565;2048;3566;20484;3569;68;3571;4626;3575;30981];
 [3582;16592;3586;9;3588;16384;3589;33792;3591;1356;3596;55364;3602;16538;3607;20756];
 [3612;2834;3617;16384;3618;513;3620;5504;3624;8193;3626;2048;3627;2122;3631;49664];
 [3634;2048;3635;16386;3637;12320;3640;38921;3645;0;3645;6272;3648;57900;3655;8];
 [3656;4;3657;4;3658;4320;3662;20;3664;32800;3666;8192;3667;38912;3670;4096];
 [3671;28802;3676;130;3678;648;3681;7168;3684;19490;3689;1;3690;37120;3693;2080];
 [3695;16386;3697;64;3698;7168;3701;17408;3703;899;3708;31937;3716;8481;3720;33792];
 [3722;57346;3726;2;3727;17600;3731;57866;3737;3587;3742;33062;3747;720;3751;2048];
 [3752;10529;3757;38544;3763;16385;3765;47298;3772;25153;3777;128;3778;2566;3782;42577];
 [3789;274;3792;33068;3797;50688;3801;1024;3802;3248;3807;41600;3811;42025;3817;34368];
 [3821;32768;3822;18946;3826;12353;3830;512;3831;47680;3837;87;3842;20481;3845;8224];
 [3847;34944;3850;9392;3855;8194;3857;274;3860;723;3866;4;3867;529;3870;0];
 [3870;128;3871;16388;3873;3202;3877;57344;3880;12296;3883;0;3883;4113;3886;8];
 [3887;520;3889;33188;3894;16544;3897;16910;3902;1024;3903;49216;3906;129;3908;18432];
 [3910;11765;3920;3985;3927;55303;3934;1577;3939;124;3944;16385;3946;17734;3952;33358];
 [3958;49152;3960;4104;3962;12293;3966;60726;3976;3200;3979;25920;3984;37643;3991;2064];
 [3993;1536;3995;59424;4000;51210;4005;24706;4009;202;4013;16436;4017;11778;4022;4609];
 [4025;36868;4028;6472;4033;0;4033;0;4033;0;4033;0;4033;0;4033;0];
 [4033;0;4033;0;4033;0;4033;1344;4036;4096;4037;49;4040;19456;4043;677];
 [4048;21792;4053;17424;4056;784;4059;8964;4063;21538;4068;32820;4072;2563;4076;4609];
 [4079;4715;4086;417;4090;8192;4091;41032;4095;1096;4098;17728;4102;32768;4103;57485];
 [4110;6896;4117;10304;4120;34342;4126;1046;4130;20504;4134;19456;4137;50;4140;8466];
 [4144;1508;4150;3328;4153;35336;4157;16896;4159;18432;4161;51;4165;2144;4168;34563];
 [4174;34049;4178;13312;4181;265;4184;58408;4190;8261;4194;33024;4196;9640;4202;23576];
 [4208;13728;4214;55300;4219;7170;4223;736;4227;161;4230;512;4231;49232;4235;16710];
 [4240;26624;4243;42500;4248;62048;4255;48010;4264;0;4264;51382;4272;226;4276;24578];
 [4279;574;4285;128;4286;35072;4289;882;4295;34433;4300;6;4302;0;4302;2184];
 [4305;17920;4308;16704;4311;3588;4315;8192;4316;5666;4321;4168;4324;35328;4327;8727];
 [4333;29720;4339;0;4339;4608;4341;8450;4344;512;4345;2176;4347;38986;4353;1056];
 [4355;0;4355;4625;4359;2;4360;39172;4365;10837;4372;1026;4374;20480;4376;4112];
 [4378;0;4378;17818;4385;45098;4391;40960;4393;16906;4397;520;4399;9992;4404;0];
 [4404;32912;4407;2066;4410;34624;4415;1025;4417;57858;4422;12320;4425;1584;4429;35968];
 [4433;1220;4437;1216;4440;8192;4441;32768;4442;16384;4443;55345;4450;128;4451;512];
 [4452;5120;4454;8;4455;536;4458;0;4458;2176;4460;35344;4464;8208;4466;16384];
 [4467;269;4471;5376;4474;0;4474;0;4474;16384;4475;32928;4478;320;4480;336];
 [4483;8196;4485;32768;4486;4;4487;1032;4489;16;4490;0;4490;36865;4493;18948];
 [4497;32;4498;32768;4499;12;4501;2114;4504;12353;4508;10892;4514;2318;4519;49285];
 [4524;10502;4529;16580;4533;2048;4534;16;4535;32774;4538;45616;4544;258;4546;8504];
 [4551;128;4552;781;4557;1056;4559;2368;4562;18;4564;32768;4565;1040;4567;32772];
 [4569;35018;4575;72;4577;1538;4580;9220;4583;1;4584;4;4585;8;4586;272];
 [4588;21773;4595;43464;4602;9256;4606;3154;4611;0;4611;18481;4616;25165;4623;559];
 [4629;12448;4633;16680;4637;1403;4645;53765;4651;43156;4657;6212;4661;27842;4668;17858];
 [4674;16407;4679;11985;4687;6401;4691;520;4693;49666;4697;5376;4700;36928;4703;8337];
 [4707;1025;4709;1101;4714;0;4714;0;4714;0;4714;0;4714;0;4714;0];
 [4714;0;4714;0;4714;0;4714;32896;4716;5442;4721;1056;4723;3074;4726;1536];
 [4728;5124;4731;24576;4733;40839;4743;47577;4753;1439;4761;21514;4766;9309;4773;14352];
 [4777;9648;4783;72;4785;0;4785;0;4785;0;4785;0;4785;2128;4788;153];
 [4792;1056;4794;512;4795;264;4797;17416;4800;38976;4804;10240;4806;33034;4810;8];
 [4811;33792;4813;16385;4815;1024;4816;33;4818;1940;4824;33280;4826;1;4827;80];
 [4829;9346;4833;0;4833;7168;4836;0;4836;15361;4841;32772;4843;2048;4844;18688];
 [4847;552;4850;63548;4859;34496;4864;51976;4870;25136;4875;40960;4877;4;4878;0];
 [4878;0;4878;6144;4880;41288;4885;7;4888;16420;4891;18;4893;11328;4897;8837];
 [4902;43375;4912;59059;4922;16399;4927;20774;4933;27782;4940;29243;4949;57867;4956;46500];
 [4964;34207;4973;546;4976;34124;4982;291;4986;1026;4988;16384;4989;8450;4992;8224];
 [4994;4;4995;548;4998;8320;5000;4;5001;32256;5007;4;5008;5636;5012;416];
 [5015;10880;5019;4100;5021;55296;5025;50;5028;64129;5036;12675;5042;1160;5045;32];
 [5046;8192;5047;16519;5052;0;5052;33808;5055;545;5058;18560;5061;116;5065;0];
 [5065;41;5068;4426;5073;0;5073;712;5077;36864;5079;4;5080;1040;5082;4352];
 [5084;16;5085;50433;5090;51543;5099;0;5099;11520;5103;2064;5105;16384;5106;20512];
 [5109;4096;5110;1104;5113;12424;5117;1;5118;8;5119;16386;5121;18;5123;64];
 [5124;16;5125;256;5126;2080;5128;288;5130;16;5131;2054;5134;0;5134;40960];
 [5136;0;5136;0;5136;0;5136;0;5136;0;5136;0;5136;0;5136;0];
 [5136;0;5136;0;5136;0;5136;0;5136;0;5136;0;5136;0;5136;128];
 [5137;35337;5142;286;5147;8504;5152;6146;5155;1152;5157;4208;5161;6;5163;0];
 [5163;0;5163;4096;5164;17410;5167;34820;5170;14357;5176;63489;5182;1052;5186;8681];
 [5193;27744;5199;6960;5205;1416;5209;2178;5212;31475;5223;6752;5228;34572;5234;2757];
 [5240;193;5243;21066;5249;128;5250;8709;5254;276;5257;20546;5261;8710;5265;1168];
 [5268;43008;5271;0;5271;10497;5275;0;5275;2112;5277;4104;5279;0;5279;34888];
 [5283;5487;5292;399;5298;8192;5299;2817;5303;28736;5307;17680;5311;34976;5315;0];
 [5315;0;5315;0;5315;33024;5317;2;5318;144;5320;38912;5323;57350;5328;28688];
 [5332;5640;5336;16649;5340;257;5342;0;5342;14880;5347;150;5351;0;5351;0];
 [5351;0;5351;8768;5354;28960;5359;538;5363;2;5364;41511;5371;8192;5372;32770];
 [5374;49410;5378;512;5379;2048;5380;193;5383;8233;5387;36000;5392;1572;5396;0];
 [5396;0;5396;0;5396;256;5397;256;5398;0;5398;280;5401;16416;5403;0];
 [5403;0;5403;1024;5404;1152;5406;4098;5408;32830;5414;1040;5416;32768;5417;0];
 [5417;16384;5418;32770;5420;18432;5422;0;5422;512;5423;64;5424;272;5426;0];
 [5426;8192;5427;37;5430;32;5431;2052;5433;640;5435;128;5436;0;5436;0];
 [5436;0;5436;0;5436;0;5436;0;5436;0;5436;0;5436;672;5439;88];
 [5442;512;5443;2048;5444;320;5446;2048;5447;0;5447;8194;5449;4099;5452;4];
 [5453;0;5453;0;5453;33280;5455;16;5456;16;5457;128;5458;0;5458;1796];
 [5462;0;5462;17408;5464;0;5464;0;5464;0;5464;0;5464;0;5464;41504];
 [5468;0;5468;41100;5473;32;5474;18480;5478;24584;5481;22802;5487;256;5488;16];
 [5489;16768;5492;8;5493;1;5494;2048;5495;19456;5498;32772;5500;5250;5504;128];
 [5505;8192;5506;4129]].

(* lib/converters/ksc5601.h:2758-2978 ksc5601_uni2indx_pageac (flattened, 2 fields per entry) *)
Definition ksc5601_uni2indx_pageac : tab := mk [
 [5509;1939;5516;16127;5529;45073;5534;4867;5539;10241;5542;4368;5545;0;5545;1427];
 [5551;7803;5561;45073;5566;38659;5573;15105;5579;4370;5583;160;5585;38291;5593;12395];
 [5600;45137;5606;4354;5609;12801;5613;4400;5617;688;5621;273;5624;12298;5628;47225];
 [5637;4870;5642;12289;5645;16;5646;128;5647;275;5651;4107;5655;17;5657;37632];
 [5661;11011;5667;16;5668;0;5668;1427;5674;29803;5683;45137;5689;4899;5695;15105];
 [5701;4144;5704;0;5704;0;5704;28672;5707;45073;5712;4867;5717;10496;5720;4368];
 [5723;8576;5726;1;5727;12288;5729;45077;5735;782;5740;12289;5743;48;5745;512];
 [5746;273;5749;4131;5753;0;5753;4864;5756;27521;5763;4112;5765;768;5767;275];
 [5771;4115;5775;12305;5779;256;5780;0;5780;21808;5786;8888;5792;0;5792;12288];
 [5794;45073;5799;38658;5805;64263;5815;4410;5821;944;5826;275;5830;33;5832;0];
 [5832;6912;5836;15117;5844;4408;5849;944;5854;275;5858;4403;5864;1;5865;4864];
 [5868;11013;5874;4380;5879;256;5880;0;5880;4096;5881;45073;5886;4864;5889;10753];
 [5893;6448;5898;688;5902;1;5903;4112;5905;0;5905;4352;5907;769;5910;4144];
 [5913;560;5916;1811;5922;5227;5929;17;5931;4864;5934;11013;5940;63860;5950;36792];
 [5959;275;5963;4155;5969;0;5969;0;5969;0;5969;55664;5977;19120;5983;275];
 [5987;4155;5993;17;5995;4355;5999;0;5999;22832;6005;10929;6012;273;6015;4096];
 [6016;0;6016;4353;6019;2817;6023;16;6024;0;6024;275;6028;4139;6033;0];
 [6033;257;6035;8192;6036;4368;6039;672;6042;273;6045;12321;6049;45145;6056;258];
 [6058;0;6058;6448;6063;1968;6069;275;6073;14395;6081;45073;6086;3;6088;0];
 [6088;0;6088;0;6088;3347;6094;14395;6102;45073;6107;259;6110;4096;6111;0];
 [6111;0;6111;275;6115;4128;6117;16;6118;256;6119;0;6119;272;6121;0];
 [6121;0;6121;12288;6123;6161;6127;2;6128;0;6128;16;6129;0;6129;273];
 [6132;35;6135;0;6135;37632;6139;2817;6143;4368;6146;48;6148;273;6151;12331];
 [6157;45073;6162;5063;6170;15105;6176;304;6179;640;6181;0;6181;12288;6183;45073];
 [6188;4995;6194;11009;6199;4400;6203;944;6208;17;6210;12298;6214;45073;6219;4354];
 [6222;8192;6223;0;6223;256;6224;273;6227;4139;6232;40977;6236;4866;6240;11009];
 [6245;16;6246;256;6247;1;6248;12288;6250;36881;6254;4866;6258;11009;6263;4400];
 [6267;26288;6274;0;6274;12288;6276;45073;6281;54018;6287;27399;6295;4410;6301;1968];
 [6307;259;6310;32;6311;0;6311;4864;6314;27397;6321;4408;6326;944;6331;275];
 [6335;4280;6340;0;6340;6912;6344;11013;6350;272;6352;768;6354;0;6354;4096];
 [6355;40977;6359;4354;6362;2561;6365;31088;6373;41648;6379;273;6382;4106;6385;0];
 [6385;4352;6387;1;6388;4368;6391;144;6393;273;6396;9;6398;0;6398;37632];
 [6402;47877;6410;63986;6421;8880;6426;275;6430;12859;6438;8193;6440;0;6440;0];
 [6440;22832;6446;1712;6451;403;6456;12347;6463;40977;6467;4387;6472;0;6472;4464];
 [6477;688;6481;17;6483;4112;6485;0;6485;4865;6489;769;6492;272;6494;0];
 [6494;1939;6501;5675;6508;16;6509;257;6511;0;6511;4400;6515;512;6516;273];
 [6519;12329;6524;45073;6529;0;6529;0;6529;20784;6534;3760;6540;1299;6545;14395];
 [6553;45073;6558;771;6562;256;6563;0;6563;0;6563;403;6568;4153;6573;0];
 [6573;770;6576;15104;6581;0;6581;0;6581;275;6585;35;6588;0;6588;0];
 [6588;0;6588;16;6589;0;6589;1;6590;12320;6593;36881;6597;2;6598;0];
 [6598;0;6598;0;6598;0;6598;4096;6599;0;6599;4354;6602;769;6605;0];
 [6605;0;6605;275;6609;45099;6616;45177;6624;4899;6630;15105;6636;4400;6640;688];
 [6644;273;6647;61473;6653;45273;6661;4931;6667;15105;6673;4400;6677;944;6682;273];
 [6685;28704;6689;45137;6695;4898;6700;8193;6702;4368;6705;400;6708;273;6711;12299];
 [6716;45073;6721;37634;6726;43777;6732;22;6735;256;6736;275;6740;12321;6744;45073];
 [6749;770;6752;10497;6756;12592;6761;688;6765;0;6765;12288;6767;47129;6774;6978];
 [6780;13057;6785;4408;6790;816;6794;0;6794;32;6795;0;6795;4864;6798;13061];
 [6804;4368;6807;0;6807;0;6807;0;6807;1;6808;37632;6812;8965;6817;304];
 [6820;256;6821;1;6822;4112;6824;12305;6828;256;6829;0;6829;4400;6833;560];
 [6836;1;6837;4112;6839;0;6839;4352;6841;0;6841;0;6841;512;6842;34067];
 [6848;4099;6851;4113;6854;4864;6857;11009;6862;30512;6870;25528;6878;275;6882;12347];
 [6889;45201;6895;4514;6900;513;6902;31536;6910;22512;6919;275;6923;28715;6930;61649];
 [6938;4579;6945;6913;6950;28976;6956;2745;6963;275;6967;12347;6974;36865;6977;4866];
 [6981;11009;6986;4400;6990;688;6994;1811;7000;12331;7006;12305;7010;4867;7015;8961];
 [7019;4400;7023;688;7027;275;7031;12459;7038;46097;7044;4606;7053;2305;7056;28976];
 [7062;18360;7070;1491;7077;12411;7085;45073;7090;21251;7096;8449;7099;4368;7102;0];
 [7102;1299;7107;12395;7114;45073;7119;4354;7122;13057;7127;16;7128;0;7128;1299];
 [7133;14571;7142;40976;7145;258;7147;12288;7149;4368;7152;688;7156;19;7159;12320];
 [7162;45169;7169;258;7171;4096;7172;16;7173;0;7173;275;7177;4107;7181;4113];
 [7184;4864;7187;11009;7192;0;7192;0;7192;1427;7198;13931;7207;45205;7214;4867];
 [7219;15105;7225;272;7227;512;7228;0;7228;12288;7230;45073;7235;259;7238;8192];
 [7239;16;7240;256;7241;0;7241;12288;7243;45073;7248;778;7252;4097;7254;16];
 [7255;256;7256;273;7259;3;7261;0;7261;4866;7265;8961;7269;16;7270;768];
 [7272;0;7272;4096;7273;0;7273;256;7274;0;7274;16;7275;656;7278;0];
 [7278;12288;7280;12305;7284;21382;7291;31489;7298;4400;7302;944;7307;337;7311;33];
 [7313;0;7313;4864;7316;15105;7322;4400;7326;688;7330;17;7332;4112;7334;1];
 [7335;4866;7339;11009;7344;4368;7347;512;7348;0;7348;4096;7349;45073;7354;258];
 [7356;256;7357;4400;7361;688;7365;1;7366;4112;7368;1;7369;4352;7371;11009];
 [7376;4368;7379;528;7381;275;7385;43;7389;0;7389;37632;7393;11011;7399;4400];
 [7403;688;7407;275;7411;12347;7418;0;7418;2;7419;0;7419;6448;7424;944];
 [7429;275;7433;4139;7438;45073;7443;259;7446;0;7446;4400;7450;688;7454;275];
 [7458;4129;7461;0;7461;258;7463;1;7464;16;7465;0;7465;275;7469;4139];
 [7474;17;7476;258;7478;8192;7479;4400;7483;688;7487;273;7490;12289;7493;12305];
 [7497;2;7498;0;7498;4400;7502;688;7506;787;7511;12347;7518;45073;7523;259];
 [7526;8192;7527;0;7527;0;7527;1299;7532;12347;7539;45073;7544;4354;7547;4096];
 [7548;272;7550;0;7550;275;7554;5163;7560;1;7561;256;7562;0;7562;272];
 [7564;640;7566;1;7567;12288;7569;45073;7574;258;7576;4096;7577;16;7578;0];
 [7578;275;7582;4131;7586;4113;7589;37634;7594;2821;7599;4368;7602;48;7604;275];
 [7608;28715;7615;45137;7621;4899;7627;15105;7633;48;7635;0;7635;0;7635;12288];
 [7637;45073;7642;4867;7647;11009;7652;4368;7655;816;7659;257;7661;12298;7665;45073];
 [7670;258;7672;8192;7673;0;7673;0;7673;17;7675;4096;7676;40977;7680;37632];
 [7684;11013;7690;16;7691;512;7692;0;7692;4096;7693;36881;7697;4352;7699;10497];
 [7703;4368;7706;176;7709;0;7709;12288;7711;45073;7716;4866;7720;11041;7726;4400];
 [7730;944;7735;1;7736;32;7737;0;7737;4864;7740;11013;7746;4400;7750;688];
 [7754;275;7758;4155;7764;8209;7767;4864;7770;11041;7776;4402;7781;640;7783;19];
 [7786;12328;7790;40977;7794;4354;7797;2561;7800;4400;7804;658;7808;273;7811;12321];
 [7815;17;7817;4866;7821;11009;7826;4400;7830;656;7833;979;7840;4651;7846;12305];
 [7850;4866;7854;11009]].

(* lib/converters/ksc5601.h:2979-2987 ksc5601_uni2indx_pagef9 (flattened, 2 fields per entry) *)
Definition ksc5601_uni2indx_pagef9 : tab := mk [
 [7859;65535;7875;65535;7891;65535;7907;65535;7923;65535;7939;65535;7955;65535;7971;65535];
 [7987;65535;8003;65535;8019;65535;8035;65535;8051;65535;8067;65535;8083;65535;8099;65535];
 [8115;4095]].

(* lib/converters/ksc5601.h:2988-2994 ksc5601_uni2indx_pageff (flattened, 2 fields per entry) *)
Definition ksc5601_uni2indx_pageff : tab := mk [
 [8127;65534;8142;65535;8158;65535;8174;65535;8190;65535;8206;32767;8221;0;8221;0];
 [8221;0;8221;0;8221;0;8221;0;8221;0;8221;0;8221;111]].

(* lib/converters/uhc_1.h:30-39 uhc_1_2uni_main_page81 *)
Definition uhc_1_2uni_main_page81 : tab := mk [
 [44034;44173;44308;44433;44538;44666;44774;44887;44991;45104;45221;45346;45470;45575;45679;45808];
 [45926;46049;46149;46253;46366;46480;46592;46689;46787;46883;47007;47121;47237;47345;47450;47572];
 [47687;47810;47912;48026;48131;48256;48382;48487;48594;48701;48824;48931;49027;49126;49216;49319];
 [49458;49585;49700;49815;49936;50042;50139;50246;50346;50447;50582;50726;50856;50982;51128;51250]].

(* lib/converters/uhc_1.h:40-809 uhc_1_2uni_page81 *)
Definition uhc_1_2uni_page81 : tab := mk [
 [0;1;3;4;9;10;11;12;13;22;28;29;31;32;33;35];
 [36;37;38;39;40;41;44;48;49;50;51;52;53;56;57;59];
 [60;61;63;64;65;66;67;68;69;70;71;72;74;76;77;78];
 [79;80;81;83;84;85;87;88;89;91;92;93;94;95;96;97];
 [98;99;100;101;102;103;104;105;106;107;108;109;112;113;115;116];
 [119;121;122;123;124;125;128;133;134;0;1;2;4;5;6;8];
 [9;10;11;12;13;14;17;21;22;23;24;25;26;30;32;33];
 [36;37;38;39;40;41;42;45;49;50;51;53;54;56;57;58];
 [60;61;62;64;65;66;67;68;69;70;71;73;75;76;77;78];
 [79;80;81;82;85;86;88;89;92;94;96;97;101;103;106;107];
 [108;109;110;113;114;116;117;118;120;122;123;124;125;126;129;131];
 [133;134;0;1;2;3;5;6;7;9;10;11;13;14;15;16];
 [17;18;19;20;22;23;26;27;28;29;30;31;34;35;37;38];
 [39;41;42;43;44;45;46;47;50;52;54;55;56;57;58;59];
 [61;62;63;65;66;67;69;70;71;72;73;74;75;76;78;80];
 [81;82;83;84;85;86;87;90;91;93;94;99;100;101;102;106];
 [108;111;112;113;114;115;118;119;121;122;123;0;1;2;3;4];
 [5;6;7;8;9;10;13;14;15;16;17;18;20;21;22;23];
 [24;25;26;27;28;29;30;31;32;33;34;35;36;37;39;40];
 [41;42;43;44;45;46;49;50;52;53;54;56;57;58;59;60];
 [61;62;65;67;68;69;70;71;72;73;74;76;77;78;80;81];
 [82;84;85;86;87;88;89;90;91;92;93;94;95;96;97;98];
 [99;100;101;102;0;1;3;4;8;9;10;11;12;13;16;18];
 [20;21;22;23;24;25;27;28;29;30;31;32;33;34;35;36];
 [37;38;39;40;41;42;43;44;45;46;47;48;49;50;51;52];
 [53;56;57;59;60;63;65;66;67;68;69;72;74;77;78;79];
 [81;85;87;88;89;91;93;94;95;96;97;100;104;105;106;108];
 [109;112;113;115;116;117;119;120;121;122;123;124;125;0;4;5];
 [6;7;8;9;12;13;14;15;16;17;19;20;21;22;23;24];
 [25;26;27;28;29;30;31;32;33;34;35;36;37;38;39;40];
 [41;42;43;44;45;46;47;48;49;50;51;52;53;54;55;56];
 [57;58;59;60;61;62;63;64;65;69;71;72;73;75;76;77];
 [78;79;80;81;84;88;89;90;91;92;93;96;97;99;100;101];
 [102;103;104;105;106;107;0;1;3;4;6;8;9;10;11;12];
 [13;15;16;17;19;20;21;23;24;25;26;27;28;29;30;31];
 [32;35;36;37;38;40;41;43;44;45;46;47;48;49;50;51];
 [52;53;54;55;56;57;58;59;60;61;62;63;64;65;66;67];
 [68;69;72;73;75;77;79;80;81;82;83;84;85;88;90;94];
 [95;96;97;100;101;102;103;104;105;107;108;109;110;111;112;0];
 [1;2;3;4;7;8;9;10;11;12;15;16;17;18;19;20];
 [21;22;23;24;25;26;27;28;29;30;31;32;33;35;36;37];
 [38;39;40;42;43;44;46;47;48;50;51;52;53;54;55;56];
 [59;60;61;63;64;65;66;67;68;70;71;72;73;74;75;76];
 [77;78;79;80;81;82;83;84;85;86;87;88;89;90;91;92];
 [93;94;95;96;99;100;102;103;0;2;3;4;5;6;7;11];
 [13;16;17;18;19;20;22;23;24;25;26;27;28;30;31;32];
 [33;34;35;36;37;38;39;40;43;44;45;46;47;48;51;52];
 [54;55;56;58;59;60;61;62;63;64;67;68;70;71;72;73];
 [74;75;76;78;79;80;82;83;84;86;87;88;89;90;91;92];
 [95;96;97;98;99;100;101;102;103;104;106;107;108;109;110;111];
 [112;0;1;2;3;4;5;6;7;8;9;10;11;12;13;14];
 [15;16;17;18;19;22;23;25;27;29;31;32;33;34;38;40];
 [42;43;44;46;47;48;49;50;51;52;53;54;55;56;57;58];
 [59;60;61;62;63;64;65;66;67;68;69;70;71;72;73;74];
 [75;78;79;81;82;83;85;86;87;88;89;90;91;94;96;98];
 [99;100;101;102;103;107;109;110;115;116;0;1;2;5;11;13];
 [17;18;20;21;22;24;25;26;27;28;29;30;33;37;38;39];
 [40;41;42;45;46;48;49;50;52;53;54;55;56;57;58;60];
 [61;62;63;65;66;67;68;69;70;71;72;73;74;75;76;77];
 [78;79;80;81;82;83;84;85;86;87;88;89;90;91;92;93];
 [94;95;96;97;98;101;104;105;106;108;111;112;113;114;117;121];
 [122;123;124;0;4;5;7;8;9;11;12;13;14;15;16;17];
 [20;24;25;26;27;28;29;32;33;35;36;37;39;40;41;42];
 [43;44;45;48;49;52;53;55;56;57;59;60;61;63;64;65];
 [66;67;68;69;70;71;72;73;74;75;76;77;78;79;80;81];
 [82;83;84;85;88;89;91;92;93;95;97;98;99;100;101;104];
 [106;108;109;110;111;115;116;117;119;120;121;123;0;1;2;3];
 [4;5;6;7;8;9;11;12;13;14;15;16;17;18;19;20];
 [21;22;23;24;25;26;27;28;29;30;31;32;33;34;35;36];
 [37;38;39;40;41;42;43;44;45;47;48;49;51;52;53;55];
 [56;57;58;59;60;61;64;66;67;68;69;70;71;72;73;76];
 [77;79;80;81;83;84;85;86;87;88;89;90;92;94;96;97];
 [98;99;100;101;104;0;2;3;6;7;8;9;10;11;12;15];
 [17;19;20;21;22;23;24;26;27;28;29;30;31;32;33;34];
 [35;36;37;38;39;40;41;42;43;44;46;47;48;49;50;51];
 [52;54;55;56;57;58;59;60;61;62;63;64;65;66;67;68];
 [69;70;71;72;73;74;75;76;77;78;79;80;82;83;84;86];
 [87;88;90;91;92;93;94;95;96;99;100;101;102;103;0;1];
 [2;3;4;7;8;9;10;11;12;14;15;16;17;18;19;20];
 [23;24;25;27;28;29;30;31;32;35;36;38;39;40;44;45];
 [46;47;48;51;53;56;57;58;60;62;63;64;66;67;68;70];
 [71;72;73;74;75;76;77;78;79;80;81;82;83;84;85;86];
 [87;88;91;92;94;95;96;98;100;101;102;103;104;107;109;111];
 [112;113;114;116;120;122;123;0;1;2;6;12;13;14;18;19];
 [21;22;23;25;26;27;28;29;30;31;34;38;39;40;41;42];
 [43;45;46;47;48;49;50;51;52;53;54;55;56;57;58;59];
 [60;61;62;63;64;65;66;67;68;69;70;71;72;73;74;75];
 [76;77;78;79;80;81;82;83;84;85;86;87;88;89;90;91];
 [92;93;94;95;96;97;98;99;103;105;106;109;112;113;114;115];
 [0;2;4;6;7;9;12;13;15;16;17;19;20;21;22;23];
 [24;25;28;32;33;34;35;36;37;39;40;41;43;44;45;47];
 [48;49;50;51;52;53;54;55;56;57;60;61;62;63;64;65];
 [67;68;69;71;72;73;74;75;76;77;78;79;80;81;82;83];
 [84;85;86;87;88;89;90;91;92;93;96;97;99;100;103;105];
 [107;108;109;112;114;116;118;120;121;0;1;2;4;5;6;8];
 [9;10;11;12;13;14;15;16;17;18;19;20;21;22;23;24];
 [25;26;28;29;30;31;32;33;34;35;36;37;38;39;40;41];
 [42;43;44;45;46;48;49;50;51;52;53;54;56;57;58;60];
 [61;62;64;65;66;67;68;69;70;73;75;76;77;78;79;80];
 [81;82;84;85;86;87;88;89;90;91;92;93;94;95;96;97];
 [98;99;0;1;2;3;4;5;6;7;8;9;10;13;14;16];
 [17;18;20;21;22;23;24;25;26;29;31;33;34;35;36;37];
 [38;40;41;42;43;44;45;46;47;48;49;50;51;52;53;54];
 [55;56;57;58;60;61;62;63;64;65;66;68;69;70;71;72];
 [73;74;75;76;77;78;79;80;81;82;83;84;85;86;87;89];
 [90;91;92;93;94;96;97;98;100;101;102;0;1;2;3;4];
 [5;6;7;9;11;13;14;15;16;17;18;20;21;22;24;25];
 [26;28;29;30;31;32;33;34;36;37;38;39;41;42;43;44];
 [45;46;49;50;52;53;56;58;59;60;61;62;65;67;69;70];
 [71;72;73;74;76;77;78;79;80;81;82;83;84;85;86;87];
 [88;89;90;91;92;93;94;95;96;97;98;99;100;101;102;105];
 [106;108;109;112;0;1;2;3;4;5;8;13;14;15;16;17];
 [20;21;23;24;25;27;28;29;30;31;32;33;36;40;41;42];
 [43;44;48;49;51;52;53;55;56;57;58;59;60;61;64;68];
 [69;70;71;72;73;74;75;76;77;78;79;80;81;82;83;84];
 [85;86;87;88;89;90;91;92;93;94;95;96;97;98;99;100];
 [101;102;103;104;105;106;107;108;109;110;111;112;113;0;1;2];
 [3;4;5;6;7;8;9;10;11;12;13;14;15;18;19;21];
 [22;23;25;28;29;30;31;34;38;39;40;41;42;46;47;49];
 [50;51;53;54;55;56;57;58;59;62;66;67;68;69;70;71];
 [73;74;75;76;77;78;79;80;81;82;83;84;85;86;87;88];
 [89;90;91;93;94;95;96;97;98;99;100;101;102;103;104;105];
 [106;107;108;109;110;111;0;1;2;3;4;5;6;7;8;9];
 [10;11;12;13;14;15;18;19;21;22;23;25;26;27;28;29];
 [30;31;32;33;34;35;36;38;39;40;41;42;43;45;46;47];
 [48;49;50;51;53;54;55;56;57;58;59;60;61;62;63;64];
 [65;66;67;68;69;70;71;73;74;75;76;77;78;79;80;81];
 [82;83;84;85;86;87;88;89;90;91;92;93;94;95;96;0];
 [1;2;4;5;6;8;9;10;11;12;13;14;15;16;17;18];
 [19;20;21;22;23;24;25;26;27;28;29;30;31;32;33;34];
 [35;36;37;38;39;40;41;42;43;44;45;46;47;48;49;50];
 [51;52;53;54;55;56;57;58;61;62;64;65;66;68;69;70];
 [71;72;73;76;77;78;79;81;82;83;84;85;86;87;88;89];
 [90;91;92;93;94;95;96;97;0;1;2;3;4;5;6;7];
 [8;9;10;11;12;13;14;15;16;18;19;20;21;22;23;24];
 [25;26;27;28;29;30;31;32;33;34;35;36;37;38;39;40];
 [41;42;43;44;46;47;48;50;51;52;54;55;56;57;58;59];
 [60;63;64;65;67;68;69;70;71;72;73;74;75;76;77;78];
 [79;80;81;82;83;84;85;86;87;88;89;90;91;92;93;94];
 [95;0;1;2;3;4;7;8;10;11;14;15;16;17;18;19];
 [20;23;25;26;27;28;29;30;31;32;34;35;36;38;39;40];
 [42;43;44;45;46;47;48;51;52;53;54;55;56;57;58;59];
 [60;62;63;64;66;67;68;70;71;72;73;74;75;76;79;81];
 [83;84;85;86;87;88;91;92;94;95;96;98;99;100;101;102];
 [103;104;107;112;113;114;119;120;122;123;0;2;3;4;5;6];
 [7;8;11;15;16;17;18;19;20;23;24;26;27;28;29;30];
 [31;32;33;34;35;36;37;38;39;41;43;44;45;46;47;48];
 [49;50;51;52;53;54;55;56;57;58;59;60;61;62;63;64];
 [65;66;67;68;69;70;71;72;73;74;75;76;79;80;82;83];
 [84;86;87;88;89;90;91;92;95;99;100;101;102;103;107;108];
 [110;111;112;0;1;2;3;4;5;6;9;11;13;14;15;16];
 [17;18;21;22;24;25;26;28;29;30;31;32;33;34;37;41];
 [42;43;44;45;46;48;49;50;52;53;54;55;56;57;58;59];
 [60;61;62;63;65;67;68;69;70;71;72;73;74;77;78;80];
 [81;82;84;85;86;87;88;89;90;93;95;97;98;99;100;101];
 [102;104;105;106;108;109;110;111;112;113;114;115;0;1;2;3];
 [4;5;6;7;9;10;11;12;13;14;15;16;17;18;19;20];
 [21;22;23;24;25;26;27;28;29;30;31;32;33;34;36;37];
 [38;39;40;41;42;44;45;46;48;49;50;52;53;54;55;56];
 [57;58;61;63;65;66;67;68;69;70;72;73;74;76;77;78];
 [80;81;82;83;84;85;86;87;89;91;93;94;95;96;97;98];
 [101;102;104;105;106;0;1;2;3;4;5;6;9;11;13;14];
 [15;16;17;18;20;21;22;23;24;25;26;27;28;29;30;31];
 [32;33;34;35;36;37;38;40;41;42;43;44;45;46;48;49];
 [50;51;52;53;54;55;56;57;58;59;60;61;62;63;64;65];
 [66;67;68;69;70;71;72;73;74;77;78;80;81;82;84;85];
 [86;87;88;89;90;92;93;95;97;98;99;100;101;102;0;1];
 [3;4;5;7;8;9;10;11;12;13;16;18;20;21;22;23];
 [24;25;28;29;31;32;33;35;36;37;38;39;40;41;44;46];
 [49;50;53;54;55;56;57;58;59;60;61;62;63;64;65;66];
 [67;68;69;70;71;72;73;74;75;76;77;78;79;80;81;84];
 [85;87;88;89;91;92;93;94;95;96;97;100;102;104;105;106];
 [107;108;109;112;113;115;121;0;1;2;3;6;8;11;12;14];
 [18;19;21;22;23;25;26;27;28;29;30;31;34;39;40;41];
 [42;43;46;47;48;49;50;51;53;54;55;56;57;58;59;60];
 [61;62;63;64;66;67;68;69;70;71;72;73;74;75;76;77];
 [78;79;80;81;82;83;84;85;86;87;88;89;90;91;92;93];
 [94;95;96;97;98;99;102;103;105;106;107;109;111;112;113;114];
 [0;3;5;8;9;10;11;15;16;18;19;20;22;23;24;25];
 [26;27;28;31;35;36;37;38;39;40;43;44;46;47;48;50];
 [51;52;53;54;55;56;57;58;59;63;65;66;67;68;70;71];
 [72;73;74;75;76;77;78;79;80;81;82;83;84;85;86;87];
 [88;89;90;91;92;93;94;95;96;99;102;103;104;106;108;109];
 [110;111;112;115;117;119;120;121;122;0;1;3;4;5;7;8];
 [9;10;11;12;13;14;15;16;17;18;19;20;21;24;25;26];
 [27;28;29;30;31;32;33;34;35;36;37;38;39;40;41;42];
 [43;44;45;46;47;48;49;50;51;52;53;54;55;56;57;59];
 [60;61;63;64;65;67;68;69;70;71;72;73;74;76;78;80];
 [81;82;83;84;85;87;88;89;91;92;93;95;96;97;98;99];
 [100;101;0;2;4;5;6;7;8;9;10;11;15;17;18;23];
 [24;25;26;27;30;32;34;35;36;38;41;42;43;45;46;47];
 [49;50;51;52;53;54;55;56;58;60;61;62;63;64;65;66];
 [67;69;70;71;72;73;74;75;76;77;78;79;80;81;82;83];
 [84;85;86;87;88;89;90;91;92;93;94;95;97;98;99;101];
 [102;103;105;106;107;108;109;110;111;112;113;0;1;2;3;4];
 [5;6;7;8;9;11;12;13;15;16;17;19;20;21;22;23];
 [24;25;27;28;30;31;32;33;34;35;36;37;39;40;41;43];
 [44;45;47;48;49;50;51;52;53;55;56;58;59;60;61;62];
 [63;64;65;66;67;68;69;70;71;72;73;74;75;76;77;78];
 [79;80;81;82;83;84;85;86;87;88;89;90;91;92;93;96];
 [97;99;100;103;0;1;2;3;4;7;11;13;15;16;22;23];
 [29;30;31;32;35;37;39;40;41;43;44;47;48;50;51;52];
 [54;55;56;57;58;59;60;63;67;68;69;71;72;75;76;78];
 [79;80;81;82;83;84;85;86;87;88;89;91;92;93;94;95];
 [96;97;98;99;100;101;102;103;104;105;106;107;108;109;110;111];
 [112;113;114;115;116;117;118;119;120;121;122;123;124;0;1;2];
 [3;6;7;9;10;13;15;16;17;18;19;22;24;27;28;29];
 [30;31;34;35;37;38;41;42;43;44;45;46;47;50;54;55];
 [56;57;58;59;62;63;65;66;67;69;70;71;72;73;74;75];
 [76;78;82;83;84;86;87;89;90;91;93;94;95;96;97;98];
 [99;100;101;102;103;104;105;106;107;108;109;110;111;112;113;114];
 [115;119;121;122;123;125;0;1;2;3;4;5;8;10;12;13];
 [14;15;16;17;19;20;21;23;24;25;26;27;28;29;30;31];
 [32;33;34;35;36;37;39;40;41;42;43;44;45;47;48;49];
 [50;51;52;53;54;55;56;57;58;59;60;61;62;63;64;65];
 [67;68;69;70;71;72;73;76;77;79;80;81;83;84;85;86];
 [87;88;89;92;93;94;95;96;97;98;99;100;101;103;104;0];
 [2;3;4;5;6;7;8;9;10;11;12;13;14;15;16;17];
 [18;19;20;21;22;23;24;27;28;30;31;36;37;38;39;40];
 [43;45;47;48;49;52;54;55;56;57;58;59;60;62;63;64];
 [65;66;67;68;69;70;71;72;74;75;76;77;78;79;80;82];
 [83;84;85;86;87;88;89;90;91;92;93;94;95;96;97;98];
 [99;100;101;102;103;104;105;106;0;1;4;5;7;8;9;11];
 [12;13;14;15;16;17;18;19;20;21;22;24;25;26;27;28];
 [29;31;32;33;35;36;37;39;40;41;42;43;44;45;47;48];
 [50;52;53;54;55;56;57;60;61;63;64;65;67;68;69;70];
 [71;72;73;76;78;79;80;81;82;83;84;85;86;87;88;89];
 [90;91;92;93;94;95;96;97;98;99;100;101;102;103;104;105];
 [106;0;1;2;3;4;5;6;9;10;12;13;14;16;18;19];
 [20;21;22;25;27;31;32;33;34;37;38;40;41;42;44;46];
 [47;48;49;50;53;57;58;59;60;61;65;66;68;69;70;72];
 [73;74;75;76;77;78;81;85;86;87;88;89;90;93;94;95];
 [96;97;98;99;100;101;102;103;104;105;106;108;109;110;111;112];
 [113;114;115;116;117;118;119;120;121;122;0;1;2;3;4;5];
 [6;7;8;9;10;11;12;13;14;15;16;17;18;19;20;21];
 [22;23;26;27;29;30;33;34;35;36;37;38;39;41;42;46];
 [47;48;49;50;51;53;54;55;56;57;58;59;60;61;62;63];
 [64;65;66;67;68;69;70;71;72;74;75;76;77;78;79;82];
 [83;84;85;86;87;88;89;90;91;92;93;94;95;98;102;103];
 [104;105;106;0;1;2;3;4;5;6;7;8;9;10;11;12];
 [13;14;15;16;17;18;19;20;21;22;23;24;25;26;27;28];
 [31;32;34;35;36;38;39;40;41;42;43;44;47;48;49;51];
 [52;53;54;55;56;57;58;59;60;61;62;63;64;65;66;67];
 [68;69;70;71;72;73;74;75;76;77;78;79;80;81;82;83];
 [84;85;86;87;88;89;90;91;92;93;94;95;0;1;2;3];
 [4;5;6;7;8;9;10;11;12;13;14;15;16;18;19;20];
 [21;22;23;24;25;26;27;28;29;30;31;32;33;34;35;36];
 [37;38;39;40;41;42;43;44;46;47;48;49;50;51;52;53];
 [54;55;56;57;58;59;60;61;62;63;64;65;67;68;69;70];
 [71;72;75;76;78;79;80;82;83;84;85;86;87;88;90;91];
 [93;95;96;97;98;0;1;2;3;4;5;6;7;8;9;10];
 [11;12;13;14;15;16;17;18;19;20;21;22;23;24;25;26];
 [27;28;29;30;31;32;33;34;35;36;37;38;39;40;41;42];
 [43;44;45;46;47;48;49;50;51;52;53;54;55;56;57;58];
 [59;60;61;62;63;64;65;66;67;68;69;70;71;72;73;74];
 [75;76;77;78;79;80;81;82;83;84;85;87;88;89;0;1];
 [2;3;4;5;6;7;8;9;10;11;12;13;14;15;16;18];
 [19;20;21;22;23;25;26;27;29;30;31;33;34;35;36;37];
 [38;39;42;43;44;45;46;47;48;49;50;51;52;53;54;55];
 [56;57;58;59;60;61;62;63;64;65;66;67;68;69;70;71];
 [72;73;74;75;76;77;78;79;82;83;85;86;87;89;90;91];
 [92;93;94;95;98;100;102;0;1;2;3;4;7;10;11;16];
 [17;18;19;20;23;27;28;29;31;32;35;36;38;39;40;42];
 [43;44;45;46;47;48;51;55;56;57;58;59;60;63;64;66];
 [67;68;70;71;72;73;74;75;76;79;81;83;84;85;86;87];
 [88;90;91;92;94;95;96;98;99;100;101;102;103;104;106;107];
 [108;109;111;112;113;114;115;116;122;123;126;129;130;131;132;135];
 [0;1;2;3;5;8;9;11;12;13;15;16;17;18;19;20];
 [21;24;28;29;30;31;32;33;36;37;39;40;41;43;44;45];
 [46;47;48;49;52;56;57;58;59;60;61;63;64;65;67;68];
 [69;71;72;73;74;75;76;77;78;79;80;81;82;84;85;86];
 [87;88;89;93;95;96;97;99;101;102;103;104;105;108;110;112];
 [113;114;116;117;120;121;123;124;125;0;1;2;3;4;5;6];
 [7;8;9;10;11;13;14;15;16;17;18;20;21;22;24;25];
 [26;28;29;30;31;32;33;34;36;37;40;41;42;43;44;45];
 [46;48;49;50;52;53;54;56;57;58;59;60;61;62;65;67];
 [68;69;70;71;72;73;74;77;78;80;81;82;84;85;86;87];
 [88;89;90;93;95;97;98;99;100;101;102;105;106;108;109;112];
 [113;114;0;1;2;3;6;8;10;12;15;17;18;19;20;21];
 [22;23;24;25;26;27;28;29;30;31;32;33;34;35;37;38];
 [39;40;41;42;43;46;47;49;50;51;53;54;55;56;57;58];
 [59;61;62;63;64;66;67;68;69;70;71;74;75;77;78;79];
 [81;82;83;84;85;86;87;90;92;94;95;96;97;98;99;102];
 [103;104;105;106;107;109;110;111;112;113;114;0;2;3;5;7];
 [8;9;10;11;12;15;16;18;19;20;23;24;25;26;27;28];
 [31;33;35;36;37;38;39;40;41;42;43;44;45;46;47;48];
 [49;50;51;52;53;54;55;56;57;58;59;60;61;62;63;64];
 [65;66;67;68;71;72;74;75;78;79;80;81;82;83;87;89];
 [91;92;93;94;96;99;102;103;104;106;107;108;109;110;111;112];
 [115;116;119;120;0;1;2;6;7;9;10;11;13;14;15;16];
 [17;18;19;22;23;26;27;28;29;30;31;32;33;34;35;36];
 [37;38;39;40;41;42;43;44;45;46;47;48;49;50;51;52];
 [54;55;56;57;58;59;60;61;62;63;64;65;66;67;68;69];
 [70;71;72;73;74;75;76;77;78;79;80;81;82;83;84;85];
 [86;87;90;91;93;94;95;97;99;100;101;102;103;0;1;4];
 [5;6;7;8;9;11;12;13;15;16;17;19;20;21;22;23];
 [24;25;26;27;28;29;30;31;32;33;34;35;36;37;38;39];
 [40;41;42;43;44;45;46;47;48;49;50;51;52;53;54;55];
 [56;57;58;59;60;61;62;63;64;65;66;67;68;69;71;72];
 [73;74;75;76;77;78;79;80;81;82;83;84;85;86;87;88];
 [89;90;91;92;93;96;0;2;3;6;8;9;10;11;12;15];
 [16;17;19;20;21;22;23;24;27;28;30;31;32;33;34;35];
 [36;37;38;39;40;41;42;43;44;46;47;48;49;50;51;52];
 [54;55;56;57;58;59;60;61;62;63;64;65;66;67;68;69];
 [70;71;72;74;75;76;77;78;79;80;82;83;84;86;87;88];
 [90;91;92;93;94;95;96;99;100;101;102;103;104;105;106;0];
 [1;3;4;5;6;7;8;9;10;11;12;13;14;15;16;17];
 [18;19;20;21;22;23;24;25;26;27;28;29;32;33;35;36];
 [37;39;40;41;42;43;44;45;48;49;50;52;53;54;55;56];
 [57;59;60;61;62;63;64;65;66;67;68;69;70;71;72;73];
 [74;75;76;77;79;80;81;82;83;84;85;87;88;89;90;91];
 [92;93;94;95;96;97;98;99;0;1;2;3;4;5;6;7];
 [8;9;10;11;12;13;15;16;17;19;20;21;22;23;24;25];
 [26;27;28;29;30;31;32;33;34;35;36;37;38;39;40;41];
 [42;43;44;45;46;47;48;49;50;51;52;53;54;55;56;57];
 [58;59;60;61;62;64;65;66;67;68;69;72;73;75;76;77];
 [79;81;82;83;84;88;89;90;91;92;93;94;95;96;97;99];
 [100;0;2;3;4;6;7;8;9;10;11;12;14;15;16;17];
 [18;19;20;21;22;23;24;27;28;30;31;32;34;35;36;37];
 [38;39;40;43;45;47;48;49;50;51;52;55;56;60;64;65];
 [66;67;71;75;76;77;80;83;84;86;87;88;90;91;92;93];
 [94;95;96;99;103;104;105;106;107;108;111;112;114;115;116;118];
 [119;121;122;123;124;127;129;131;132;133;0;3;4;5;7;8];
 [9;11;12;13;14;15;16;17;18;20;21;22;23;24;25;26];
 [27;28;29;32;33;36;41;42;43;44;45;53;55;57;60;61];
 [63;64;65;67;68;69;70;71;72;73;76;78;80;81;82;83];
 [84;85;89;91;92;93;95;98;99;100;101;108;109;110;115;116];
 [117;119;120;121;123;124;125;126;127;128;129;132;135;136;137;138];
 [139;140;141;0;1;3;4;5;9;11;12;16;18;20;22;23];
 [24;25;28;29;31;32;33;35;36;37;38;39;40;41;44;48];
 [49;50;51;52;53;56;57;59;60;61;62;63;64;65;66;67];
 [68;69;71;72;74;76;77;78;79;80;81;84;85;87;88;89];
 [91;92;93;94;95;96;97;100;102;104;105;106;107;108;109;112];
 [113;115;116;117;119;120;121;122;123;124;125;128;0;2;3;4];
 [5;6;7;10;11;13;14;15;19;20;21;22;23;26;28;30];
 [31;32;33;34;35;38;39;41;42;43;45;46;47;48;49;50];
 [51;54;55;58;59;60;61;62;63;66;67;69;70;71;73;74];
 [75;76;77;78;79;82;83;84;86;87;88;89;90;91;94;95];
 [97;98;99;101;102;103;104;105;106;107;110;112;114;115;116;117];
 [118;119;122;123;125;0;1;3;4;5;6;7;8;9;12;14];
 [16;18;19;20;21;24;25;27;28;29;31;32;33;34;35;37];
 [40;42;51;52;53;55;56;57;59;60;61;62;63;64;65;67];
 [68;70;71;72;73;74;75;76;77;80;81;83;84;85;89;90];
 [91;92;96;101;102;103;105;108;109;111;115;117;118;119;120;121];
 [124;129;130;131;132;133;136;137;139;140;141;143;144;145;0;1];
 [2;3;6;10;11;12;13;14;15;18;19;21;23;25;26;27];
 [28;29;30;31;33;34;35;36;38;39;40;41;42;43;45;46];
 [47;49;50;51;53;54;55;56;57;58;59;60;61;62;63;64];
 [65;66;67;68;69;70;71;74;75;77;78;79;81;83;84;85];
 [86;87;90;92;95;96;97;98;99;102;103;105;106;107;109;110];
 [111;112;113;114;115;118;120;0;1;2;3;4;5;7;8;9];
 [11;12;13;15;16;17;18;19;20;21;24;25;28;29;30;31];
 [32;33;35;36;37;38;39;40;41;42;43;44;45;46;47;48];
 [49;50;51;52;53;54;55;56;57;58;59;60;61;64;65;67];
 [68;69;71;73;74;75;76;77;80;82;86;87;88;92;93;94];
 [95;96;97;99;100;101;102;103;104;105;106;108;110;112;113;114]].

(* lib/converters/uhc_1.h:837-844 uhc_1_2charset_main *)
Definition uhc_1_2charset_main : tab := mk [
 [33089;33229;33435;33635;33769;33975;34181;34375;34515;34721;34921;35055;35261;35467;35661;35801];
 [36007;36207;36341;36547;36753;36947;37087;37293;37493;37627;37833;38039;38233;38373;38579;38785];
 [38979;39119;39325;39525;39659;39865;40071;40265;40405;40611;40811;40945;41151]].

(* lib/converters/uhc_1.h:845-1558 uhc_1_2charset *)
Definition uhc_1_2charset : tab := mk [
 [0;1;2;3;4;5;6;7;8;9;10;11;12;13;14;15];
 [16;17;18;19;20;21;22;23;24;25;32;33;34;35;36;37];
 [38;39;40;41;42;43;44;45;46;47;48;49;50;51;52;53];
 [54;55;56;57;64;65;66;67;68;69;70;71;72;73;74;75];
 [76;77;78;79;80;81;82;83;84;85;86;87;88;89;90;91];
 [92;93;94;95;96;97;98;99;100;101;102;103;104;105;106;107];
 [108;109;110;111;112;113;114;115;116;117;118;119;120;121;122;123];
 [124;125;126;127;128;129;130;131;132;133;134;135;136;137;138;139];
 [0;1;2;3;4;5;6;7;8;9;10;11;12;13;14;15];
 [16;17;18;19;20;21;22;23;24;25;26;27;28;29;30;31];
 [32;33;34;35;36;37;38;39;40;41;42;43;44;45;46;47];
 [48;49;116;117;118;119;120;121;122;123;124;125;126;127;128;129];
 [130;131;132;133;134;135;136;137;138;139;140;141;148;149;150;151];
 [152;153;154;155;156;157;158;159;160;161;162;163;164;165;166;167];
 [168;169;170;171;172;173;180;181;182;183;184;185;186;187;188;189];
 [190;191;192;193;194;195;196;197;198;199;200;201;202;203;204;205];
 [0;1;2;3;4;5;6;7;8;9;10;11;12;13;14;15];
 [16;17;18;19;20;21;22;23;24;25;26;27;28;29;30;31];
 [32;33;34;35;36;37;38;39;40;41;42;43;44;45;46;47];
 [48;49;50;51;52;53;54;55;56;57;58;59;60;61;62;63];
 [64;65;66;67;68;69;70;71;72;73;74;75;76;77;78;79];
 [80;81;82;83;84;85;86;87;88;89;90;91;92;93;94;95];
 [96;97;98;99;166;167;168;169;170;171;172;173;174;175;176;177];
 [178;179;180;181;182;183;184;185;186;187;188;189;190;191;198;199];
 [0;1;2;3;4;5;6;7;8;9;10;11;12;13;14;15];
 [16;17;18;19;20;21;22;23;30;31;32;33;34;35;36;37];
 [38;39;40;41;42;43;44;45;46;47;48;49;50;51;52;53];
 [54;55;56;57;58;59;60;61;62;63;64;65;66;67;68;69];
 [70;71;72;73;74;75;76;77;78;79;80;81;82;83;84;85];
 [86;87;88;89;90;91;92;93;94;95;96;97;98;99;100;101];
 [102;103;104;105;106;107;108;109;110;111;112;113;114;115;116;117];
 [118;119;120;121;122;123;124;125;126;127;128;129;130;131;132;133];
 [0;1;2;3;4;5;6;7;8;9;10;11;12;13;14;15];
 [16;17;18;19;20;21;88;89;90;91;92;93;94;95;96;97];
 [98;99;100;101;102;103;104;105;106;107;108;109;110;111;112;113];
 [120;121;122;123;124;125;126;127;128;129;130;131;132;133;134;135];
 [136;137;138;139;140;141;142;143;144;145;152;153;154;155;156;157];
 [158;159;160;161;162;163;164;165;166;167;168;169;170;171;172;173];
 [174;175;176;177;178;179;180;181;182;183;184;185;186;187;188;189];
 [190;191;192;193;194;195;196;197;198;199;200;201;202;203;204;205];
 [0;1;2;3;4;5;6;7;8;9;10;11;12;13;14;15];
 [16;17;18;19;20;21;22;23;24;25;26;27;28;29;30;31];
 [32;33;34;35;36;37;38;39;40;41;42;43;44;45;46;47];
 [48;49;50;51;52;53;54;55;56;57;58;59;60;61;62;63];
 [64;65;66;67;68;69;70;71;138;139;140;141;142;143;144;145];
 [146;147;148;149;150;151;152;153;154;155;156;157;158;159;160;161];
 [162;163;170;171;172;173;174;175;176;177;178;179;180;181;182;183];
 [184;185;186;187;188;189;190;191;192;193;194;195;202;203;204;205];
 [0;1;2;3;4;5;6;7;8;9;10;11;12;13;14;15];
 [16;17;18;19;20;21;22;23;24;25;26;27;28;29;30;31];
 [32;33;34;35;36;37;38;39;40;41;42;43;44;45;46;47];
 [48;49;50;51;52;53;54;55;56;57;58;59;60;61;62;63];
 [64;65;66;67;68;69;70;71;72;73;74;75;76;77;78;79];
 [80;81;82;83;84;85;86;87;88;89;90;91;92;93;94;95];
 [96;97;98;99;100;101;102;103;104;105;106;107;108;109;110;111];
 [112;113;114;115;116;117;118;119;120;121;188;189;190;191;192;193];
 [0;1;2;3;4;5;6;7;8;9;10;11;12;13;14;15];
 [16;17;18;19;26;27;28;29;30;31;32;33;34;35;36;37];
 [38;39;40;41;42;43;44;45;46;47;48;49;50;51;58;59];
 [60;61;62;63;64;65;66;67;68;69;70;71;72;73;74;75];
 [76;77;78;79;80;81;82;83;84;85;86;87;88;89;90;91];
 [92;93;94;95;96;97;98;99;100;101;102;103;104;105;106;107];
 [108;109;110;111;112;113;114;115;116;117;118;119;120;121;122;123];
 [124;125;126;127;128;129;130;131;132;133;134;135;136;137;138;139];
 [0;1;2;3;4;5;6;7;8;9;10;11;12;13;14;15];
 [16;17;18;19;20;21;22;23;24;25;26;27;28;29;30;31];
 [32;33;34;35;36;37;38;39;40;41;42;43;110;111;112;113];
 [114;115;116;117;118;119;120;121;122;123;124;125;126;127;128;129];
 [130;131;132;133;134;135;142;143;144;145;146;147;148;149;150;151];
 [152;153;154;155;156;157;158;159;160;161;162;163;164;165;166;167];
 [174;175;176;177;178;179;180;181;182;183;184;185;186;187;188;189];
 [190;191;192;193;194;195;196;197;198;199;200;201;202;203;204;205];
 [0;1;2;3;4;5;6;7;8;9;10;11;12;13;14;15];
 [16;17;18;19;20;21;22;23;24;25;26;27;28;29;30;31];
 [32;33;34;35;36;37;38;39;40;41;42;43;44;45;46;47];
 [48;49;50;51;52;53;54;55;56;57;58;59;60;61;62;63];
 [64;65;66;67;68;69;70;71;72;73;74;75;76;77;78;79];
 [80;81;82;83;84;85;86;87;88;89;90;91;92;93;160;161];
 [162;163;164;165;166;167;168;169;170;171;172;173;174;175;176;177];
 [178;179;180;181;182;183;184;185;192;193;194;195;196;197;198;199];
 [0;1;2;3;4;5;6;7;8;9;10;11;12;13;14;15];
 [16;17;24;25;26;27;28;29;30;31;32;33;34;35;36;37];
 [38;39;40;41;42;43;44;45;46;47;48;49;50;51;52;53];
 [54;55;56;57;58;59;60;61;62;63;64;65;66;67;68;69];
 [70;71;72;73;74;75;76;77;78;79;80;81;82;83;84;85];
 [86;87;88;89;90;91;92;93;94;95;96;97;98;99;100;101];
 [102;103;104;105;106;107;108;109;110;111;112;113;114;115;116;117];
 [118;119;120;121;122;123;124;125;126;127;128;129;130;131;132;133];
 [0;1;2;3;4;5;6;7;8;9;10;11;12;13;14;15];
 [82;83;84;85;86;87;88;89;90;91;92;93;94;95;96;97];
 [98;99;100;101;102;103;104;105;106;107;114;115;116;117;118;119];
 [120;121;122;123;124;125;126;127;128;129;130;131;132;133;134;135];
 [136;137;138;139;146;147;148;149;150;151;152;153;154;155;156;157];
 [158;159;160;161;162;163;164;165;166;167;168;169;170;171;172;173];
 [174;175;176;177;178;179;180;181;182;183;184;185;186;187;188;189];
 [190;191;192;193;194;195;196;197;198;199;200;201;202;203;204;205];
 [0;1;2;3;4;5;6;7;8;9;10;11;12;13;14;15];
 [16;17;18;19;20;21;22;23;24;25;26;27;28;29;30;31];
 [32;33;34;35;36;37;38;39;40;41;42;43;44;45;46;47];
 [48;49;50;51;52;53;54;55;56;57;58;59;60;61;62;63];
 [64;65;132;133;134;135;136;137;138;139;140;141;142;143;144;145];
 [146;147;148;149;150;151;152;153;154;155;156;157;164;165;166;167];
 [168;169;170;171;172;173;174;175;176;177;178;179;180;181;182;183];
 [184;185;186;187;188;189;196;197;198;199;200;201;202;203;204;205];
 [0;1;2;3;4;5;6;7;8;9;10;11;12;13;14;15];
 [16;17;18;19;20;21;22;23;24;25;26;27;28;29;30;31];
 [32;33;34;35;36;37;38;39;40;41;42;43;44;45;46;47];
 [48;49;50;51;52;53;54;55;56;57;58;59;60;61;62;63];
 [64;65;66;67;68;69;70;71;72;73;74;75;76;77;78;79];
 [80;81;82;83;84;85;86;87;88;89;90;91;92;93;94;95];
 [96;97;98;99;100;101;102;103;104;105;106;107;108;109;110;111];
 [112;113;114;115;182;183;184;185;186;187;188;189;190;191;192;193];
 [0;1;2;3;4;5;6;7;8;9;10;11;12;13;20;21];
 [22;23;24;25;26;27;28;29;30;31;32;33;34;35;36;37];
 [38;39;40;41;42;43;44;45;52;53;54;55;56;57;58;59];
 [60;61;62;63;64;65;66;67;68;69;70;71;72;73;74;75];
 [76;77;78;79;80;81;82;83;84;85;86;87;88;89;90;91];
 [92;93;94;95;96;97;98;99;100;101;102;103;104;105;106;107];
 [108;109;110;111;112;113;114;115;116;117;118;119;120;121;122;123];
 [124;125;126;127;128;129;130;131;132;133;134;135;136;137;138;139];
 [0;1;2;3;4;5;6;7;8;9;10;11;12;13;14;15];
 [16;17;18;19;20;21;22;23;24;25;26;27;28;29;30;31];
 [32;33;34;35;36;37;104;105;106;107;108;109;110;111;112;113];
 [114;115;116;117;118;119;120;121;122;123;124;125;126;127;128;129];
 [136;137;138;139;140;141;142;143;144;145;146;147;148;149;150;151];
 [152;153;154;155;156;157;158;159;160;161;168;169;170;171;172;173];
 [174;175;176;177;178;179;180;181;182;183;184;185;186;187;188;189];
 [190;191;192;193;194;195;196;197;198;199;200;201;202;203;204;205];
 [0;1;2;3;4;5;6;7;8;9;10;11;12;13;14;15];
 [16;17;18;19;20;21;22;23;24;25;26;27;28;29;30;31];
 [32;33;34;35;36;37;38;39;40;41;42;43;44;45;46;47];
 [48;49;50;51;52;53;54;55;56;57;58;59;60;61;62;63];
 [64;65;66;67;68;69;70;71;72;73;74;75;76;77;78;79];
 [80;81;82;83;84;85;86;87;154;155;156;157;158;159;160;161];
 [162;163;164;165;166;167;168;169;170;171;172;173;174;175;176;177];
 [178;179;186;187;188;189;190;191;192;193;194;195;196;197;198;199];
 [0;1;2;3;4;5;6;7;8;9;10;11;18;19;20;21];
 [22;23;24;25;26;27;28;29;30;31;32;33;34;35;36;37];
 [38;39;40;41;42;43;44;45;46;47;48;49;50;51;52;53];
 [54;55;56;57;58;59;60;61;62;63;64;65;66;67;68;69];
 [70;71;72;73;74;75;76;77;78;79;80;81;82;83;84;85];
 [86;87;88;89;90;91;92;93;94;95;96;97;98;99;100;101];
 [102;103;104;105;106;107;108;109;110;111;112;113;114;115;116;117];
 [118;119;120;121;122;123;124;125;126;127;128;129;130;131;132;133];
 [0;1;2;3;4;5;6;7;8;9;76;77;78;79;80;81];
 [82;83;84;85;86;87;88;89;90;91;92;93;94;95;96;97];
 [98;99;100;101;108;109;110;111;112;113;114;115;116;117;118;119];
 [120;121;122;123;124;125;126;127;128;129;130;131;132;133;140;141];
 [142;143;144;145;146;147;148;149;150;151;152;153;154;155;156;157];
 [158;159;160;161;162;163;164;165;166;167;168;169;170;171;172;173];
 [174;175;176;177;178;179;180;181;182;183;184;185;186;187;188;189];
 [190;191;192;193;194;195;196;197;198;199;200;201;202;203;204;205];
 [0;1;2;3;4;5;6;7;8;9;10;11;12;13;14;15];
 [16;17;18;19;20;21;22;23;24;25;26;27;28;29;30;31];
 [32;33;34;35;36;37;38;39;40;41;42;43;44;45;46;47];
 [48;49;50;51;52;53;54;55;56;57;58;59;126;127;128;129];
 [130;131;132;133;134;135;136;137;138;139;140;141;142;143;144;145];
 [146;147;148;149;150;151;158;159;160;161;162;163;164;165;166;167];
 [168;169;170;171;172;173;174;175;176;177;178;179;180;181;182;183];
 [190;191;192;193;194;195;196;197;198;199;200;201;202;203;204;205];
 [0;1;2;3;4;5;6;7;8;9;10;11;12;13;14;15];
 [16;17;18;19;20;21;22;23;24;25;26;27;28;29;30;31];
 [32;33;34;35;36;37;38;39;40;41;42;43;44;45;46;47];
 [48;49;50;51;52;53;54;55;56;57;58;59;60;61;62;63];
 [64;65;66;67;68;69;70;71;72;73;74;75;76;77;78;79];
 [80;81;82;83;84;85;86;87;88;89;90;91;92;93;94;95];
 [96;97;98;99;100;101;102;103;104;105;106;107;108;109;176;177];
 [178;179;180;181;182;183;184;185;186;187;188;189;190;191;192;193];
 [0;1;2;3;4;5;6;7;14;15;16;17;18;19;20;21];
 [22;23;24;25;26;27;28;29;30;31;32;33;34;35;36;37];
 [38;39;46;47;48;49;50;51;52;53;54;55;56;57;58;59];
 [60;61;62;63;64;65;66;67;68;69;70;71;72;73;74;75];
 [76;77;78;79;80;81;82;83;84;85;86;87;88;89;90;91];
 [92;93;94;95;96;97;98;99;100;101;102;103;104;105;106;107];
 [108;109;110;111;112;113;114;115;116;117;118;119;120;121;122;123];
 [124;125;126;127;128;129;130;131;132;133;134;135;136;137;138;139];
 [0;1;2;3;4;5;6;7;8;9;10;11;12;13;14;15];
 [16;17;18;19;20;21;22;23;24;25;26;27;28;29;30;31];
 [98;99;100;101;102;103;104;105;106;107;108;109;110;111;112;113];
 [114;115;116;117;118;119;120;121;122;123;130;131;132;133;134;135];
 [136;137;138;139;140;141;142;143;144;145;146;147;148;149;150;151];
 [152;153;154;155;162;163;164;165;166;167;168;169;170;171;172;173];
 [174;175;176;177;178;179;180;181;182;183;184;185;186;187;188;189];
 [190;191;192;193;194;195;196;197;198;199;200;201;202;203;204;205];
 [0;1;2;3;4;5;6;7;8;9;10;11;12;13;14;15];
 [16;17;18;19;20;21;22;23;24;25;26;27;28;29;30;31];
 [32;33;34;35;36;37;38;39;40;41;42;43;44;45;46;47];
 [48;49;50;51;52;53;54;55;56;57;58;59;60;61;62;63];
 [64;65;66;67;68;69;70;71;72;73;74;75;76;77;78;79];
 [80;81;148;149;150;151;152;153;154;155;156;157;158;159;160;161];
 [162;163;164;165;166;167;168;169;170;171;172;173;180;181;182;183];
 [184;185;186;187;188;189;190;191;192;193;194;195;196;197;198;199];
 [0;1;2;3;4;5;12;13;14;15;16;17;18;19;20;21];
 [22;23;24;25;26;27;28;29;30;31;32;33;34;35;36;37];
 [38;39;40;41;42;43;44;45;46;47;48;49;50;51;52;53];
 [54;55;56;57;58;59;60;61;62;63;64;65;66;67;68;69];
 [70;71;72;73;74;75;76;77;78;79;80;81;82;83;84;85];
 [86;87;88;89;90;91;92;93;94;95;96;97;98;99;100;101];
 [102;103;104;105;106;107;108;109;110;111;112;113;114;115;116;117];
 [118;119;120;121;122;123;124;125;126;127;128;129;130;131;132;133];
 [0;1;2;3;70;71;72;73;74;75;76;77;78;79;80;81];
 [82;83;84;85;86;87;88;89;90;91;92;93;94;95;102;103];
 [104;105;106;107;108;109;110;111;112;113;114;115;116;117;118;119];
 [120;121;122;123;124;125;126;127;134;135;136;137;138;139;140;141];
 [142;143;144;145;146;147;148;149;150;151;152;153;154;155;156;157];
 [158;159;160;161;162;163;164;165;166;167;168;169;170;171;172;173];
 [174;175;176;177;178;179;180;181;182;183;184;185;186;187;188;189];
 [190;191;192;193;194;195;196;197;198;199;200;201;202;203;204;205];
 [0;1;2;3;4;5;6;7;8;9;10;11;12;13;14;15];
 [16;17;18;19;20;21;22;23;24;25;26;27;28;29;30;31];
 [32;33;34;35;36;37;38;39;40;41;42;43;44;45;46;47];
 [48;49;50;51;52;53;120;121;122;123;124;125;126;127;128;129];
 [130;131;132;133;134;135;136;137;138;139;140;141;142;143;144;145];
 [152;153;154;155;156;157;158;159;160;161;162;163;164;165;166;167];
 [168;169;170;171;172;173;174;175;176;177;184;185;186;187;188;189];
 [190;191;192;193;194;195;196;197;198;199;200;201;202;203;204;205];
 [0;1;2;3;4;5;6;7;8;9;10;11;12;13;14;15];
 [16;17;18;19;20;21;22;23;24;25;26;27;28;29;30;31];
 [32;33;34;35;36;37;38;39;40;41;42;43;44;45;46;47];
 [48;49;50;51;52;53;54;55;56;57;58;59;60;61;62;63];
 [64;65;66;67;68;69;70;71;72;73;74;75;76;77;78;79];
 [80;81;82;83;84;85;86;87;88;89;90;91;92;93;94;95];
 [96;97;98;99;100;101;102;103;170;171;172;173;174;175;176;177];
 [178;179;180;181;182;183;184;185;186;187;188;189;190;191;192;193];
 [0;1;8;9;10;11;12;13;14;15;16;17;18;19;20;21];
 [22;23;24;25;26;27;28;29;30;31;32;33;40;41;42;43];
 [44;45;46;47;48;49;50;51;52;53;54;55;56;57;58;59];
 [60;61;62;63;64;65;66;67;68;69;70;71;72;73;74;75];
 [76;77;78;79;80;81;82;83;84;85;86;87;88;89;90;91];
 [92;93;94;95;96;97;98;99;100;101;102;103;104;105;106;107];
 [108;109;110;111;112;113;114;115;116;117;118;119;120;121;122;123];
 [124;125;126;127;128;129;130;131;132;133;134;135;136;137;138;139];
 [0;1;2;3;4;5;6;7;8;9;10;11;12;13;14;15];
 [16;17;18;19;20;21;22;23;24;25;92;93;94;95;96;97];
 [98;99;100;101;102;103;104;105;106;107;108;109;110;111;112;113];
 [114;115;116;117;124;125;126;127;128;129;130;131;132;133;134;135];
 [136;137;138;139;140;141;142;143;144;145;146;147;148;149;156;157];
 [158;159;160;161;162;163;164;165;166;167;168;169;170;171;172;173];
 [174;175;176;177;178;179;180;181;182;183;184;185;186;187;188;189];
 [190;191;192;193;194;195;196;197;198;199;200;201;202;203;204;205];
 [0;1;2;3;4;5;6;7;8;9;10;11;12;13;14;15];
 [16;17;18;19;20;21;22;23;24;25;26;27;28;29;30;31];
 [32;33;34;35;36;37;38;39;40;41;42;43;44;45;46;47];
 [48;49;50;51;52;53;54;55;56;57;58;59;60;61;62;63];
 [64;65;66;67;68;69;70;71;72;73;74;75;142;143;144;145];
 [146;147;148;149;150;151;152;153;154;155;156;157;158;159;160;161];
 [162;163;164;165;166;167;174;175;176;177;178;179;180;181;182;183];
 [184;185;186;187;188;189;190;191;192;193;194;195;196;197;198;199];
 [0;1;2;3;4;5;6;7;8;9;10;11;12;13;14;15];
 [16;17;18;19;20;21;22;23;24;25;26;27;28;29;30;31];
 [32;33;34;35;36;37;38;39;40;41;42;43;44;45;46;47];
 [48;49;50;51;52;53;54;55;56;57;58;59;60;61;62;63];
 [64;65;66;67;68;69;70;71;72;73;74;75;76;77;78;79];
 [80;81;82;83;84;85;86;87;88;89;90;91;92;93;94;95];
 [96;97;98;99;100;101;102;103;104;105;106;107;108;109;110;111];
 [112;113;114;115;116;117;118;119;120;121;122;123;124;125;192;193];
 [0;1;2;3;4;5;6;7;8;9;10;11;12;13;14;15];
 [16;17;18;19;20;21;22;23;30;31;32;33;34;35;36;37];
 [38;39;40;41;42;43;44;45;46;47;48;49;50;51;52;53];
 [54;55;62;63;64;65;66;67;68;69;70;71;72;73;74;75];
 [76;77;78;79;80;81;82;83;84;85;86;87;88;89;90;91];
 [92;93;94;95;96;97;98;99;100;101;102;103;104;105;106;107];
 [108;109;110;111;112;113;114;115;116;117;118;119;120;121;122;123];
 [124;125;126;127;128;129;130;131;132;133;134;135;136;137;138;139];
 [0;1;2;3;4;5;6;7;8;9;10;11;12;13;14;15];
 [16;17;18;19;20;21;22;23;24;25;26;27;28;29;30;31];
 [32;33;34;35;36;37;38;39;40;41;42;43;44;45;46;47];
 [114;115;116;117;118;119;120;121;122;123;124;125;126;127;128;129];
 [130;131;132;133;134;135;136;137;138;139;146;147;148;149;150;151];
 [152;153;154;155;156;157;158;159;160;161;162;163;164;165;166;167];
 [168;169;170;171;178;179;180;181;182;183;184;185;186;187;188;189];
 [190;191;192;193;194;195;196;197;198;199;200;201;202;203;204;205];
 [0;1;2;3;4;5;6;7;8;9;10;11;12;13;14;15];
 [16;17;18;19;20;21;22;23;24;25;26;27;28;29;30;31];
 [32;33;34;35;36;37;38;39;40;41;42;43;44;45;46;47];
 [48;49;50;51;52;53;54;55;56;57;58;59;60;61;62;63];
 [64;65;66;67;68;69;70;71;72;73;74;75;76;77;78;79];
 [80;81;82;83;84;85;86;87;88;89;90;91;92;93;94;95];
 [96;97;164;165;166;167;168;169;170;171;172;173;174;175;176;177];
 [178;179;180;181;182;183;184;185;186;187;188;189;196;197;198;199];
 [0;1;2;3;4;5;6;7;8;9;10;11;12;13;14;15];
 [16;17;18;19;20;21;28;29;30;31;32;33;34;35;36;37];
 [38;39;40;41;42;43;44;45;46;47;48;49;50;51;52;53];
 [54;55;56;57;58;59;60;61;62;63;64;65;66;67;68;69];
 [70;71;72;73;74;75;76;77;78;79;80;81;82;83;84;85];
 [86;87;88;89;90;91;92;93;94;95;96;97;98;99;100;101];
 [102;103;104;105;106;107;108;109;110;111;112;113;114;115;116;117];
 [118;119;120;121;122;123;124;125;126;127;128;129;130;131;132;133];
 [0;1;2;3;4;5;6;7;8;9;10;11;12;13;14;15];
 [16;17;18;19;86;87;88;89;90;91;92;93;94;95;96;97];
 [98;99;100;101;102;103;104;105;106;107;108;109;110;111;118;119];
 [120;121;122;123;124;125;126;127;128;129;130;131;132;133;134;135];
 [136;137;138;139;140;141;142;143;150;151;152;153;154;155;156;157];
 [158;159;160;161;162;163;164;165;166;167;168;169;170;171;172;173];
 [174;175;176;177;178;179;180;181;182;183;184;185;186;187;188;189];
 [190;191;192;193;194;195;196;197;198;199;200;201;202;203;204;205];
 [0;1;2;3;4;5;6;7;8;9;10;11;12;13;14;15];
 [16;17;18;19;20;21;22;23;24;25;26;27;28;29;30;31];
 [32;33;34;35;36;37;38;39;40;41;42;43;44;45;46;47];
 [48;49;50;51;52;53;54;55;56;57;58;59;60;61;62;63];
 [64;65;66;67;68;69;136;137;138;139;140;141;142;143;144;145];
 [146;147;148;149;150;151;152;153;154;155;156;157;158;159;160;161];
 [168;169;170;171;172;173;174;175;176;177;178;179;180;181;182;183];
 [184;185;186;187;188;189;190;191;192;193;200;201;202;203;204;205];
 [0;1;2;3;4;5;6;7;8;9;10;11;12;13;14;15];
 [16;17;18;19;20;21;22;23;24;25;26;27;28;29;30;31];
 [32;33;34;35;36;37;38;39;40;41;42;43;44;45;46;47];
 [48;49;50;51;52;53;54;55;56;57;58;59;60;61;62;63];
 [64;65;66;67;68;69;70;71;72;73;74;75;76;77;78;79];
 [80;81;82;83;84;85;86;87;88;89;90;91;92;93;94;95];
 [96;97;98;99;100;101;102;103;104;105;106;107;108;109;110;111];
 [112;113;114;115;116;117;118;119;186;187;188;189;190;191;192;193];
 [0;1;2;3;4;5;6;7;8;9;10;11;12;13;14;15];
 [16;17;24;25;26;27;28;29;30;31;32;33;34;35;36;37];
 [38;39;40;41;42;43;44;45;46;47;48;49;56;57;58;59];
 [60;61;62;63;64;65;66;67;68;69;70;71;72;73;74;75];
 [76;77;78;79;80;81;82;83;84;85;86;87;88;89;90;91];
 [92;93;94;95;96;97;98;99;100;101;102;103;104;105;106;107];
 [108;109;110;111;112;113;114;115;116;117;118;119;120;121;122;123];
 [124;125;126;127;128;129;130;131;132;133;134;135;136;137;138;139];
 [0;1;2;3;4;5;6;7;8;9;10;11;12;13;14;15];
 [16;17;18;19;20;21;22;23;24;25;26;27;28;29;30;31];
 [32;33;34;35;36;37;38;39;40;41;108;109;110;111;112;113];
 [114;115;116;117;118;119;120;121;122;123;124;125;126;127;128;129];
 [130;131;132;133;140;141;142;143;144;145;146;147;148;149;150;151];
 [152;153;154;155;156;157;158;159;160;161;162;163;164;165;172;173];
 [174;175;176;177;178;179;180;181;182;183;184;185;186;187;188;189];
 [190;191;192;193;194;195;196;197;198;199;200;201;202;203;204;205];
 [0;1;2;3;4;5;6;7;8;9;10;11;12;13;14;15];
 [16;17;18;19;20;21;22;23;24;25;26;27;28;29;30;31];
 [32;33;34;35;36;37;38;39;40;41;42;43;44;45;46;47];
 [48;49;50;51;52;53;54;55;56;57;58;59;60;61;62;63];
 [64;65;66;67;68;69;70;71;72;73;74;75;76;77;78;79];
 [80;81;82;83;84;85;86;87;88;89;90;91;158;159;160;161];
 [162;163;164;165;166;167;168;169;170;171;172;173;174;175;176;177];
 [178;179;180;181;182;183;190;191;192;193;194;195;196;197;198;199];
 [0;1;2;3;4;5;6;7;8;9;10;11;12;13;14;15];
 [22;23;24;25;26;27;28;29;30;31;32;33;34;35;36;37];
 [38;39;40;41;42;43;44;45;46;47;48;49;50;51;52;53];
 [54;55;56;57;58;59;60;61;62;63;64;65;66;67;68;69];
 [70;71;72;73;74;75;76;77;78;79;80;81;82;83;84;85];
 [86;87;88;89;90;91;92;93;94;95;96;97;98;99;100;101];
 [102;103;104;105;106;107;108;109;110;111;112;113;114;115;116;117];
 [118;119;120;121;122;123;124;125;126;127;128;129;130;131;132;133];
 [0;1;2;3;4;5;6;7;8;9;10;11;12;13;80;81];
 [82;83;84;85;86;87;88;89;90;91;92;93;94;95;96;97];
 [98;99;100;101;102;103;104;105;112;113;114;115;116;117;118;119];
 [120;121;122;123;124;125;126;127;128;129;130;131;132;133;134;135];
 [136;137;144;145;146;147;148;149;150;151;152;153;154;155;156;157];
 [158;159;160;161;162;163;164;165;166;167;168;169;170;171;172;173];
 [174;175;176;177;178;179;180;181;182;183;184;185;186;187;188;189];
 [190;191;192;193;194;195;196;197;198;199;200;201;202;203;204;205];
 [0;1;2;3;4;5;6;7;8;9;10;11;12;13;14;15];
 [16;17;18;19;20;21;22;23;24;25;26;27;28;29;30;31];
 [32;33;34;35;36;37;38;39;40;41;42;43;44;45;46;47];
 [48;49;50;51;52;53;54;55;56;57;58;59;60;61;62;63]].

(* lib/converters/uhc_1.h:1560-1705 uhc_1_uni2indx_pageac (flattened, 2 fields per entry) *)
Definition uhc_1_uni2indx_pageac : tab := mk [
 [0;63596;9;49408;12;20462;23;60668;34;55294;47;61167;60;65535;76;64108];
 [86;57732;92;20462;103;26876;112;50430;122;61165;134;65375;148;27244;156;53140];
 [165;20398;175;61181;188;52734;200;61135;212;64847;224;65262;237;53237;249;18310];
 [256;60665;267;53246;280;65519;295;65407;310;65260;322;61428;334;65518;348;27903];
 [360;54524;370;65519;385;65535;401;64108;411;35732;418;20398;428;60636;438;50430];
 [448;61391;461;65535;477;65535;493;36863;506;20462;517;60668;528;55039;541;61167];
 [554;56959;567;65534;582;53247;596;20458;606;64753;617;53246;630;65487;644;65023];
 [659;65262;672;61404;684;65535;700;60671;713;38014;722;61423;736;64767;750;65260];
 [762;61420;774;53230;786;65279;801;65535;817;43727;827;56647;837;65535;853;53247];
 [867;20462;878;26877;888;1272;894;61125;904;64591;915;65260;927;65502;941;65535];
 [957;58623;969;50418;977;61127;988;64591;999;65260;1011;61132;1021;65534;1036;60671];
 [1049;54522;1059;61155;1070;65279;1085;65535;1101;61439;1116;20462;1127;60671;1140;54782];
 [1152;59087;1163;64847;1175;65534;1190;61423;1204;65535;1220;61183;1234;64766;1247;61391];
 [1260;64975;1273;63724;1283;60308;1292;65518;1306;60671;1319;54522;1329;1675;1335;28743];
 [1342;65260;1354;61380;1364;65535;1380;65535;1396;65535;1412;9871;1420;46415;1430;65260];
 [1442;61380;1452;65518;1466;61180;1478;65535;1494;42703;1504;54606;1513;65262;1526;61439];
 [1541;65535;1557;61182;1570;62718;1582;65519;1597;65535;1613;65260;1625;61396;1636;65535];
 [1652;65278;1666;57343;1681;61167;1694;64863;1707;65262;1720;53214;1732;20390;1741;65277];
 [1755;65535;1771;59087;1782;63567;1792;65260;1804;51140;1812;20462;1823;65532;1837;65535];
 [1853;65535;1869;65535;1885;62188;1895;51140;1903;20462;1914;65276;1927;61439;1942;65535];
 [1958;65535;1974;65260;1986;61407;2000;65519;2015;65279;2030;65535;2046;65263;2060;65535];
 [2076;65535;2092;53247;2106;59374;2118;65533;2133;65535;2149;65519;2164;65535;2180;65262];
 [2193;65500;2206;65535;2222;27903;2234;62718;2246;61167;2259;65487;2273;65262;2286;53204];
 [2296;20462;2307;60472;2315;50430;2325;65231;2338;64895;2352;65535;2368;53247;2382;20462];
 [2393;60540;2403;54526;2414;61135;2426;64591;2437;65518;2451;53237;2463;20462;2474;61181];
 [2487;57343;2502;65535;2518;65279;2533;65262;2546;61396;2557;24558;2569;60669;2581;54526];
 [2592;65519;2607;65279;2622;65534;2637;53247;2651;28654;2663;60669;2675;54526;2686;61135];
 [2698;39247;2707;65535;2723;53247;2737;20462;2748;11517;2758;38136;2766;61125;2776;63567];
 [2786;65276;2799;65503;2814;65535;2830;60671;2843;38138;2852;61127;2863;64591;2874;65260];
 [2886;61255;2897;65535;2913;58623;2925;54522;2935;65263;2949;64767;2963;65535;2979;61439];
 [2994;24558;3006;61181;3019;62974;3032;34447;3040;23887;3050;65262;3063;61429;3076;65535];
 [3092;61183;3106;65534;3121;61167;3134;65391;3148;65262;3161;65526;3175;65535;3191;27903];
 [3203;17658;3211;1549;3216;56655;3227;65260;3239;52676;3247;57342;3261;65535;3277;65535];
 [3293;42703;3303;63823;3314;65132;3325;53188;3334;24558;3346;61148;3357;65535;3373;61071];
 [3384;64847;3396;65518;3410;61423;3424;65535;3440;60670;3452;64766;3465;65263;3479;65535];
 [3495;63596;3504;59860;3513;65519;3528;65278;3542;65535;3558;61135;3570;65023;3585;65262];
 [3598;53206;3609;20462;3620;65535;3636;65535;3652;44751;3663;61775;3673;64236;3684;51140];
 [3692;20462;3703;64764;3715;65279;3730;65535;3746;65535;3762;65132;3773;61382;3784;65535];
 [3800;64765;3813;50431;3824;65535;3840;65535;3856;65260;3868;65500;3881;65535;3897;65535];
 [3913;65535;3929;65519;3944;65535;3960;65534;3975;53215;3988;28654;4000;65533;4015;65535];
 [4031;65535;4047;65535;4063;65535;4079;61439;4094;65535;4110;61181;4123;64766;4136;65535];
 [4152;65535;4168;65260;4180;20436;4189;20358;4197;60636;4207;50430;4217;61135;4229;64847];
 [4241;65262;4254;4062;4264;20262;4272;60604;4282;50430;4292;61135;4304;64591;4315;65262];
 [4328;36831;4340;20398;4350;60637;4361;57342;4375;61167;4388;65135;4401;65262;4414;53236];
 [4425;20462;4436;27901;4447;21758;4457;65513;4470;65279;4485;65260;4497;53214;4509;20462];
 [4520;64765;4533;55038;4545;52943;4556;64847;4568;65535;4584;53247;4598;18406;4607;58557];
 [4617;52478;4628;61127;4639;64719;4651;65535;4667;65503;4682;65535;4698;60671;4711;52474];
 [4721;61167;4734;65535;4750;65535;4766;65535;4782;65534;4797;27903;4809;56570;4820;65231];
 [4833;65279;4848;65534;4863;61423;4877;53230;4889;65279;4904;65535;4920;61135;4932;64975];
 [4945;65534;4960;61423;4974;65535;4990;61183;5004;65535;5020;65535;5036;65023;5051;31468];
 [5061;61436;5074;61422;5087;60671;5100;54526;5111;35023;5119;40007;5127;65260;5139;53188];
 [5148;20334;5158;61021;5169;65022;5183;33999;5191;43023;5198;65260;5210;36820;5219;3886];
 [5227;60956;5236;58622;5247;36559;5257;62790;5266;65260;5278;53188;5287;28670;5300;60669];
 [5312;54526;5323;61135;5335;64847;5347;63724;5357;53204;5367;53230;5379;60668;5390;56574];
 [5402;61135;5414;64847;5426;65260;5438;53076;5447;19438;5457;60929;5464;63230;5477;36559];
 [5487;47175;5495;64044;5504;53124;5512;20462;5523;44284;5533;57086;5546;61167;5559;65535];
 [5575;64236;5586;53140;5595;20462;5606;61181;5619;52478;5630;65519;5645;65535;5661;64236];
 [5672;50964;5679;24559;5692;29]].

(* lib/converters/uhc_2.h:30-41 uhc_2_2uni_main_pagea1 *)
Definition uhc_2_2uni_main_pagea1 : tab := mk [
 [51365;51416;51472;51518;51569;51621;51678;51740;51783;51835;51880;51933;51979;52026;52077;52121];
 [52165;52211;52261;52327;52372;52431;52478;52532;52577;52626;52678;52725;52780;52829;52890;52940];
 [52994;53051;53101;53150;53196;53247;53294;53348;53397;53452;53509;53554;53614;53659;53712;53757];
 [53802;53854;53901;53957;54011;54078;54122;54177;54231;54285;54328;54375;54430;54473;54526;54574];
 [54628;54685;54730;54790;54845;54903;54955;55010;55061;55118;55181;65533]].

(* lib/converters/uhc_2.h:42-491 uhc_2_2uni_pagea1 *)
Definition uhc_2_2uni_pagea1 : tab := mk [
 [0;1;2;4;5;6;7;8;9;10;11;12;13;14;15;16];
 [17;18;19;20;21;22;25;26;27;28;29;30;32;33;34;36];
 [37;38;40;41;42;43;44;45;46;49;0;2;3;4;5;6];
 [7;10;11;13;14;15;16;17;18;19;20;21;22;23;24;25];
 [26;27;28;30;31;32;33;34;35;38;39;41;42;43;47;48];
 [49;50;51;54;0;2;3;4;5;6;7;9;10;11;12;13];
 [14;15;16;17;18;19;20;21;22;23;24;25;26;27;29;30];
 [31;32;33;34;35;37;38;39;40;41;42;43;44;45;0;1];
 [2;3;4;5;6;7;8;9;10;11;12;13;14;15;16;17];
 [20;21;23;24;25;27;28;29;30;31;32;33;36;38;39;40];
 [41;42;43;44;45;47;48;49;0;1;2;4;5;6;7;8];
 [9;10;12;13;14;15;16;17;18;19;20;21;22;25;26;28];
 [29;30;32;33;34;35;36;37;38;41;43;45;46;47;48;49];
 [50;51;0;1;2;3;4;5;6;7;8;9;10;11;12;13];
 [14;15;16;17;18;19;20;21;22;23;24;25;26;29;30;32];
 [33;36;38;39;40;41;42;45;47;50;51;54;0;1;3;5];
 [7;8;10;11;12;13;16;20;21;22;23;24;25;28;29;31];
 [32;33;35;36;37;38;39;40;41;44;48;49;50;51;52;53];
 [55;56;57;59;60;61;0;1;2;3;4;5;6;7;8;9];
 [10;11;12;14;15;16;17;18;19;20;21;22;23;24;25;26];
 [27;28;29;30;31;32;33;34;35;36;37;38;39;40;41;42];
 [0;1;2;3;4;7;8;10;11;12;14;15;16;17;18;19];
 [20;23;27;28;29;30;31;32;34;35;36;37;38;39;40;41];
 [42;43;44;45;46;47;48;49;50;51;0;1;3;4;5;6];
 [7;8;10;11;12;13;14;15;16;17;18;19;20;21;22;23];
 [24;25;26;27;28;30;31;32;33;34;35;36;37;38;39;40];
 [41;42;43;44;0;1;2;3;4;5;6;7;8;9;10;11];
 [12;13;14;15;16;17;18;19;22;23;25;26;27;29;30;31];
 [32;33;34;35;38;40;42;44;45;46;47;50;51;52;0;1];
 [2;4;5;6;7;8;9;10;11;12;13;14;16;17;18;19];
 [20;21;22;24;25;26;27;28;29;30;31;32;33;34;35;36];
 [37;38;39;40;41;42;44;45;0;1;2;3;4;6;7;8];
 [10;11;12;14;15;16;17;18;19;20;23;24;25;26;27;28];
 [29;30;31;32;33;34;35;36;37;38;39;40;41;42;43;44];
 [45;46;0;1;2;3;4;5;6;8;9;10;11;12;13;16];
 [17;19;20;21;23;24;25;26;27;28;29;32;33;34;36;37];
 [38;39;40;41;43;44;45;46;47;48;49;50;0;1;2;3];
 [4;5;6;7;8;9;10;13;14;15;16;17;18;19;20;21];
 [22;23;24;25;26;27;28;29;30;31;32;33;34;35;36;37];
 [38;39;40;41;42;43;0;1;2;4;5;6;7;8;9;10];
 [11;12;13;14;15;16;17;18;19;20;21;22;23;24;25;26];
 [27;28;29;30;32;33;34;35;36;37;38;39;40;41;42;43];
 [0;1;2;3;4;5;6;7;8;9;10;11;12;13;14;16];
 [17;18;19;20;21;22;23;24;25;26;27;28;29;30;32;33];
 [35;37;38;39;40;41;42;43;44;45;0;1;2;3;4;5];
 [6;7;8;9;10;11;12;13;14;15;16;17;18;19;20;21];
 [22;23;24;27;28;30;31;32;34;35;36;37;38;39;40;43];
 [44;45;48;49;0;1;5;6;8;10;12;13;14;15;16;17];
 [18;21;26;27;28;29;30;33;34;36;37;38;40;41;42;43];
 [44;45;46;49;53;54;55;56;57;58;60;61;62;64;0;2];
 [3;4;5;6;7;8;10;11;12;13;15;16;17;18;19;20];
 [21;22;23;24;25;26;27;28;29;30;31;32;33;34;35;36];
 [37;38;39;40;41;42;43;44;0;1;2;3;6;7;9;10];
 [11;13;14;15;16;17;18;19;22;26;27;28;29;30;31;34];
 [35;37;38;39;41;42;43;44;45;46;47;50;52;54;55;56];
 [57;58;0;2;3;4;6;7;8;9;10;11;12;13;14;15];
 [16;17;18;19;20;22;23;24;25;26;27;28;30;31;32;34];
 [35;36;37;38;39;40;41;42;43;44;45;46;0;1;2;4];
 [5;6;7;8;9;12;13;15;16;17;19;20;21;22;23;24];
 [25;28;30;32;33;34;35;36;37;39;40;41;43;44;45;47];
 [48;49;50;51;52;53;0;1;2;3;4;6;7;8;9;10];
 [11;12;13;14;15;16;17;18;19;20;21;22;23;24;25;26];
 [27;28;29;30;31;32;33;34;35;36;37;38;39;41;42;43];
 [0;1;2;4;5;6;7;8;9;10;13;15;17;18;19;20];
 [21;22;24;25;26;27;28;29;30;31;32;33;34;35;36;37];
 [38;40;41;42;43;44;45;46;47;48;0;1;4;5;7;8];
 [9;11;12;13;14;15;16;17;20;22;24;25;26;27;28;29];
 [31;32;33;34;35;36;37;38;39;40;41;42;43;44;45;46];
 [47;48;49;51;0;1;2;3;4;5;7;8;9;11;12;13];
 [14;15;16;17;18;19;20;21;22;23;24;25;26;27;28;29];
 [30;31;32;33;35;36;37;39;40;41;43;44;45;46;0;1];
 [2;5;7;9;10;11;12;13;14;16;17;18;20;21;22;24];
 [25;26;27;28;29;30;32;33;34;35;37;38;39;40;41;42];
 [45;46;48;49;50;52;53;54;0;1;2;3;6;8;10;11];
 [12;13;14;15;16;17;18;19;20;21;22;23;24;25;26;27];
 [28;29;30;31;32;33;34;35;36;37;38;39;40;41;42;43];
 [46;47;0;1;5;6;7;8;9;10;13;15;17;18;19;20];
 [21;22;25;26;28;29;30;32;33;34;35;36;37;38;41;43];
 [45;46;47;48;49;50;53;54;56;57;58;60;0;1;2;3];
 [4;5;8;12;13;14;15;16;17;20;21;22;23;24;25;26];
 [27;28;29;30;31;32;33;34;35;36;37;38;40;41;42;43];
 [44;45;46;47;48;49;0;1;2;3;4;5;6;7;8;9];
 [10;11;12;13;14;15;16;17;18;19;20;21;22;23;26;27];
 [29;30;33;34;35;36;37;38;39;42;46;47;48;49;50;51];
 [0;1;3;4;5;7;8;9;10;11;12;13;16;18;20;21];
 [22;23;24;25;27;28;29;31;32;33;35;36;37;38;39;40];
 [41;44;48;49;50;51;52;53;55;56;0;1;2;3;4;5];
 [6;7;8;9;10;11;12;13;14;15;16;17;18;19;20;21];
 [22;23;24;27;28;30;31;32;34;35;36;37;38;39;40;43];
 [45;47;48;49;0;1;2;5;6;8;9;10;12;13;14;15];
 [16;17;18;20;21;22;23;25;26;27;28;29;30;32;33;34];
 [35;36;37;38;39;40;41;42;43;44;45;46;47;48;0;1];
 [2;4;5;6;7;8;9;11;12;13;14;15;16;17;19;20];
 [21;22;23;24;25;26;27;28;29;30;31;32;33;34;35;36];
 [37;39;40;41;42;43;44;45;0;1;2;3;4;5;6;7];
 [8;9;10;11;12;13;14;15;16;17;18;19;22;23;25;26];
 [27;29;30;31;32;33;34;35;38;40;42;43;44;45;46;47];
 [49;50;0;2;3;4;6;7;8;9;10;11;12;13;14;15];
 [16;17;19;20;21;22;23;24;26;27;28;29;30;31;32;33];
 [34;35;36;37;38;39;40;41;42;43;44;45;0;1;2;3];
 [4;5;8;9;11;12;13;15;16;17;18;19;20;21;24;26];
 [28;29;30;31;32;33;35;36;37;39;40;41;43;44;45;46];
 [47;48;49;51;52;53;0;1;2;3;4;5;6;7;10;11];
 [13;14;15;17;18;19;20;21;22;23;26;27;28;30;31;32];
 [33;34;35;36;37;38;39;40;41;42;43;44;45;46;47;48];
 [0;1;2;3;4;5;6;7;8;9;10;11;12;13;14;17];
 [18;20;21;22;24;25;26;27;28;29;30;33;35;37;38;39];
 [40;41;42;45;46;48;49;50;53;54;0;1;2;3;6;10];
 [11;12;13;14;15;18;19;21;22;23;25;26;27;28;29;30];
 [31;34;38;39;40;41;42;43;45;46;47;48;49;50;51;52];
 [53;54;55;56;0;1;2;3;4;5;6;7;9;10;11;12];
 [13;14;15;16;17;18;19;20;21;22;23;24;25;26;27;28];
 [29;30;31;32;33;34;35;36;37;38;39;40;41;42;0;1];
 [3;4;5;7;9;10;11;12;13;16;20;21;22;23;24;25];
 [28;29;31;32;33;35;36;37;38;39;40;41;44;46;48;49];
 [50;51;52;53;55;56;57;59;0;1;2;3;4;5;6;7];
 [8;9;10;11;12;13;15;16;17;18;19;20;21;23;24;25];
 [27;28;29;30;31;32;33;34;35;36;37;38;39;40;41;42];
 [43;44;0;1;2;3;4;7;8;10;11;12;14;15;16;17];
 [18;19;20;23;25;27;28;29;30;32;34;35;36;38;39;40];
 [41;42;43;44;45;46;47;48;49;50;51;52;0;1;2;3];
 [4;5;6;7;9;10;11;12;13;14;15;16;17;18;19;20];
 [21;22;23;24;25;26;27;28;29;30;31;32;33;34;35;37];
 [38;39;41;42;43;44;0;1;2;3;4;5;6;7;8;9];
 [11;13;14;15;16;17;18;20;21;22;23;24;25;26;27;28];
 [29;30;31;32;33;34;35;36;37;38;39;40;41;42;43;44];
 [0;1;4;5;7;8;9;11;12;13;14;15;16;17;20;22];
 [24;25;26;27;28;29;31;32;33;34;35;36;37;38;39;40];
 [41;42;43;44;45;46;47;48;49;51;0;1;2;3;4;5];
 [7;8;9;10;11;12;13;14;15;16;17;18;19;20;21;22];
 [23;24;25;26;27;28;29;30;31;32;33;36;37;39;40;41];
 [43;44;45;46;0;1;2;5;6;7;9;10;11;12;13;14];
 [16;17;18;20;21;22;24;25;26;27;28;29;30;32;33;34];
 [35;37;38;39;40;41;42;45;46;48;49;52;54;55;0;1];
 [2;5;7;8;9;10;11;12;13;14;16;17;18;20;21;22];
 [24;25;26;27;28;29;30;33;34;35;36;37;38;39;40;41];
 [42;45;46;48;49;50;52;53;0;1;2;3;4;7;9;11];
 [12;13;14;15;16;20;22;23;24;26;28;29;30;31;32;35];
 [39;40;41;43;44;47;48;50;51;52;54;55;56;57;58;59];
 [60;63;0;1;2;3;4;5;8;9;10;11;12;13;14;15];
 [16;17;18;19;20;21;22;23;24;25;26;27;28;29;30;31];
 [32;33;34;35;36;37;38;39;40;41;42;43;0;1;2;3];
 [4;5;6;7;8;9;10;11;12;13;14;15;16;17;20;21];
 [23;24;25;27;28;29;30;31;32;33;36;40;41;42;43;44];
 [45;48;49;51;52;53;0;1;2;3;4;5;6;9;11;13];
 [14;15;16;17;18;20;21;22;24;25;26;28;29;30;31;32];
 [33;34;37;38;41;42;43;44;45;46;48;49;50;51;52;53];
 [0;2;3;4;5;6;7;8;9;11;13;14;15;16;17;18];
 [19;20;23;24;26;27;28;30;31;32;33;34;35;36;39;41];
 [43;44;45;46;47;48;50;51;52;53;0;1;2;3;4;5];
 [6;7;8;9;10;11;12;13;14;15;17;18;19;20;21;22];
 [23;24;25;26;27;28;29;30;31;32;33;34;35;36;37;38];
 [39;40;41;42;0;1;2;3;4;5;6;7;9;10;11;13];
 [14;15;16;17;18;19;20;21;22;23;24;25;26;27;28;29];
 [30;31;32;33;34;35;37;38;39;41;42;43;45;46;0;1];
 [2;3;4;5;7;9;10;11;12;13;14;15;16;19;20;22];
 [23;26;28;29;30;31;32;35;37;39;40;41;42;43;44;46];
 [47;48;49;50;51;52;53;54;0;1;2;3;4;5;6;7];
 [8;9;10;12;13;14;15;16;17;18;19;20;21;22;23;24];
 [25;26;27;28;29;30;31;32;33;34;35;36;37;38;39;40];
 [41;42;0;1;2;4;5;6;8;9;10;12;13;14;15;16];
 [17;18;20;21;23;24;25;26;27;28;29;30;32;33;34;36];
 [37;38;40;41;42;43;44;45;46;48;49;51;0;1;2;3];
 [4;5;7;8;9;11;12;13;15;16;17;18;19;20;21;24];
 [26;27;28;29;30;31;32;33;34;35;36;37;38;39;40;41];
 [42;43;44;45;46;47;0;1;2;3;4;5;6;7;8;9];
 [10;11;12;13;16;17;19;20;21;23;24;25;26;27;28;29];
 [32;34;36;37;38;39;40;41;44;45;47;48;49;51;52;53];
 [0;2;3;6;8;10;11;12;13;14;15;18;19;21;22;23];
 [25;26;27;28;29;30;31;34;38;39;40;41;42;43;45;46];
 [47;48;49;50;51;52;53;54;55;56;0;1;2;3;4;5];
 [6;7;9;10;11;12;13;14;15;16;17;18;19;20;21;22];
 [23;24;25;26;27;28;29;30;31;32;33;34;35;36;37;38];
 [39;40;41;42;0;1;3;4;5;7;9;10;11;12;13;16];
 [18;20;21;22;23;24;25;28;29;31;32;33;35;36;37;38];
 [39;40;41;44;46;48;49;50;51;52;53;56;57;59;0;1];
 [3;4;5;6;7;8;9;12;16;17;18;19;20;21;23;24];
 [25;27;28;29;31;32;33;34;35;36;37;38;40;41;42;43];
 [44;45;46;47;48;49;52;53;0;1;2;4;5;6;7;9];
 [10;13;15;17;18;19;21;22;25;26;28;29;30;32;33;34];
 [35;36;37;38;39;40;41;43;45;46;47;48;49;50;53;54];
 [56;57;0;1;2;3;4;5;6;7;8;9;10;11;13;15];
 [16;17;18;19;20;23;24;26;27;28;30;31;32;33;34;35];
 [36;37;39;41;43;44;45;46;47;48;50;51;0;2;3;4];
 [6;7;8;9;10;11;12;13;15;17;18;19;20;21;22;23];
 [24;27;28;30;31;32;34;35;36;37;39;40;42;43;45;47];
 [48;49;50;51;52;54;0;1;3;4;5;7;8;9;10;11];
 [12;13;15;16;17;18;20;21;22;23;24;25;28;29;31;32];
 [33;35;36;37;38;39;40;41;42;43;44;45;46;48;49;50];
 [0;1;2;5;6;8;9;10;12;13;14;15;16;17;18;21];
 [23;25;26;27;28;29;30;33;34;36;37;38;40;41;42;43];
 [44;45;46;48;49;51;53;54;55;56;0;1;4;5;7;12];
 [13;14;15;16;17;20;22;24;25;26;28;29;31;32;33;35];
 [36;37;39;40;41;42;43;44;45;48;49;50;52;53;54;55];
 [56;57;60;61;0;1;2;4;5;6;7;8;9;10;13;15];
 [17;18;19;20;21;22]].

(* lib/converters/uhc_2.h:519-527 uhc_2_2charset_main *)
Definition uhc_2_2charset_main : tab := mk [
 [41281;41357;41587;41817;42053;42129;42359;42595;42825;42901;43137;43367;43597;43673;43909;44139];
 [44369;44445;44681;44911;45141;45377;45453;45683;45913;46149;46225;46455;46691;46921;46997;47233];
 [47463;47693;47769;48005;48235;48465;48541;48777;49007;49237;49473;49549;49779;50009;50245;50321];
 [50551]].

(* lib/converters/uhc_2.h:528-920 uhc_2_2charset *)
Definition uhc_2_2charset : tab := mk [
 [0;1;2;3;4;5;6;7;8;9;10;11;12;13;14;15];
 [16;17;18;19;20;21;22;23;24;25;32;33;34;35;36;37];
 [38;39;40;41;42;43;44;45;46;47;48;49;50;51;52;53];
 [54;55;56;57;64;65;66;67;68;69;70;71;72;73;74;75];
 [0;1;2;3;4;5;6;7;8;9;10;11;12;13;14;15];
 [16;17;18;19;180;181;182;183;184;185;186;187;188;189;190;191];
 [192;193;194;195;196;197;198;199;200;201;202;203;204;205;212;213];
 [214;215;216;217;218;219;220;221;222;223;224;225;226;227;228;229];
 [0;1;2;3;4;5;6;7;14;15;16;17;18;19;20;21];
 [22;23;24;25;26;27;28;29;30;31;32;33;34;35;36;37];
 [38;39;40;41;42;43;44;45;206;207;208;209;210;211;212;213];
 [214;215;216;217;218;219;220;221;222;223;224;225;226;227;228;229];
 [0;1;8;9;10;11;12;13;14;15;16;17;18;19;20;21];
 [22;23;24;25;26;27;28;29;30;31;32;33;40;41;42;43];
 [44;45;46;47;48;49;50;51;52;53;54;55;56;57;58;59];
 [60;61;62;63;64;65;66;67;68;69;70;71;232;233;234;235];
 [0;1;2;3;4;5;6;7;8;9;10;11;12;13;14;15];
 [16;17;18;19;20;21;28;29;30;31;32;33;34;35;36;37];
 [38;39;40;41;42;43;44;45;46;47;48;49;50;51;52;53];
 [60;61;62;63;64;65;66;67;68;69;70;71;72;73;74;75];
 [0;1;2;3;4;5;6;7;8;9;10;11;12;13;14;15];
 [176;177;178;179;180;181;182;183;184;185;186;187;188;189;190;191];
 [192;193;194;195;196;197;198;199;200;201;208;209;210;211;212;213];
 [214;215;216;217;218;219;220;221;222;223;224;225;226;227;228;229];
 [0;1;2;3;10;11;12;13;14;15;16;17;18;19;20;21];
 [22;23;24;25;26;27;28;29;30;31;32;33;34;35;36;37];
 [38;39;40;41;202;203;204;205;206;207;208;209;210;211;212;213];
 [214;215;216;217;218;219;220;221;222;223;224;225;226;227;234;235];
 [0;1;2;3;4;5;6;7;8;9;10;11;12;13;14;15];
 [16;17;18;19;20;21;22;23;30;31;32;33;34;35;36;37];
 [38;39;40;41;42;43;44;45;46;47;48;49;50;51;52;53];
 [54;55;56;57;58;59;60;61;222;223;224;225;226;227;228;229];
 [0;1;2;3;4;5;6;7;8;9;10;11;12;13;14;15];
 [16;17;24;25;26;27;28;29;30;31;32;33;34;35;36;37];
 [38;39;40;41;42;43;44;45;46;47;48;49;56;57;58;59];
 [60;61;62;63;64;65;66;67;68;69;70;71;72;73;74;75];
 [0;1;2;3;4;5;6;7;8;9;10;11;172;173;174;175];
 [176;177;178;179;180;181;182;183;184;185;186;187;188;189;190;191];
 [192;193;194;195;196;197;204;205;206;207;208;209;210;211;212;213];
 [214;215;216;217;218;219;220;221;222;223;224;225;226;227;228;229];
 [0;1;2;3;4;5;6;7;8;9;10;11;12;13;14;15];
 [16;17;18;19;20;21;22;23;24;25;26;27;28;29;30;31];
 [192;193;194;195;196;197;198;199;200;201;202;203;204;205;206;207];
 [208;209;210;211;212;213;214;215;216;217;224;225;226;227;228;229];
 [0;1;2;3;4;5;6;7;8;9;10;11;12;13;14;15];
 [16;17;18;19;26;27;28;29;30;31;32;33;34;35;36;37];
 [38;39;40;41;42;43;44;45;46;47;48;49;50;51;52;53];
 [54;55;56;57;218;219;220;221;222;223;224;225;226;227;228;229];
 [0;1;2;3;4;5;6;7;8;9;10;11;12;13;20;21];
 [22;23;24;25;26;27;28;29;30;31;32;33;34;35;36;37];
 [38;39;40;41;42;43;44;45;52;53;54;55;56;57;58;59];
 [60;61;62;63;64;65;66;67;68;69;70;71;72;73;74;75];
 [0;1;2;3;4;5;6;7;168;169;170;171;172;173;174;175];
 [176;177;178;179;180;181;182;183;184;185;186;187;188;189;190;191];
 [192;193;200;201;202;203;204;205;206;207;208;209;210;211;212;213];
 [214;215;216;217;218;219;220;221;222;223;224;225;232;233;234;235];
 [0;1;2;3;4;5;6;7;8;9;10;11;12;13;14;15];
 [16;17;18;19;20;21;22;23;24;25;26;27;188;189;190;191];
 [192;193;194;195;196;197;198;199;200;201;202;203;204;205;206;207];
 [208;209;210;211;212;213;220;221;222;223;224;225;226;227;228;229];
 [0;1;2;3;4;5;6;7;8;9;10;11;12;13;14;15];
 [22;23;24;25;26;27;28;29;30;31;32;33;34;35;36;37];
 [38;39;40;41;42;43;44;45;46;47;48;49;50;51;52;53];
 [214;215;216;217;218;219;220;221;222;223;224;225;226;227;228;229];
 [0;1;2;3;4;5;6;7;8;9;16;17;18;19;20;21];
 [22;23;24;25;26;27;28;29;30;31;32;33;34;35;36;37];
 [38;39;40;41;48;49;50;51;52;53;54;55;56;57;58;59];
 [60;61;62;63;64;65;66;67;68;69;70;71;72;73;74;75];
 [0;1;2;3;164;165;166;167;168;169;170;171;172;173;174;175];
 [176;177;178;179;180;181;182;183;184;185;186;187;188;189;196;197];
 [198;199;200;201;202;203;204;205;206;207;208;209;210;211;212;213];
 [214;215;216;217;218;219;220;221;228;229;230;231;232;233;234;235];
 [0;1;2;3;4;5;6;7;8;9;10;11;12;13;14;15];
 [16;17;18;19;20;21;22;23;184;185;186;187;188;189;190;191];
 [192;193;194;195;196;197;198;199;200;201;202;203;204;205;206;207];
 [208;209;216;217;218;219;220;221;222;223;224;225;226;227;228;229];
 [0;1;2;3;4;5;6;7;8;9;10;11;18;19;20;21];
 [22;23;24;25;26;27;28;29;30;31;32;33;34;35;36;37];
 [38;39;40;41;42;43;44;45;46;47;48;49;210;211;212;213];
 [214;215;216;217;218;219;220;221;222;223;224;225;226;227;228;229];
 [0;1;2;3;4;5;12;13;14;15;16;17;18;19;20;21];
 [22;23;24;25;26;27;28;29;30;31;32;33;34;35;36;37];
 [44;45;46;47;48;49;50;51;52;53;54;55;56;57;58;59];
 [60;61;62;63;64;65;66;67;68;69;70;71;72;73;74;75];
 [0;1;2;3;4;5;6;7;8;9;10;11;12;13;14;15];
 [16;17;18;19;20;21;22;23;24;25;32;33;34;35;36;37];
 [38;39;40;41;42;43;44;45;46;47;48;49;50;51;52;53];
 [54;55;56;57;64;65;66;67;68;69;70;71;72;73;74;75];
 [0;1;2;3;4;5;6;7;8;9;10;11;12;13;14;15];
 [16;17;18;19;180;181;182;183;184;185;186;187;188;189;190;191];
 [192;193;194;195;196;197;198;199;200;201;202;203;204;205;212;213];
 [214;215;216;217;218;219;220;221;222;223;224;225;226;227;228;229];
 [0;1;2;3;4;5;6;7;14;15;16;17;18;19;20;21];
 [22;23;24;25;26;27;28;29;30;31;32;33;34;35;36;37];
 [38;39;40;41;42;43;44;45;206;207;208;209;210;211;212;213];
 [214;215;216;217;218;219;220;221;222;223;224;225;226;227;228;229];
 [0;1;8;9;10;11;12;13;14;15;16;17;18;19;20;21];
 [22;23;24;25;26;27;28;29;30;31;32;33;40;41;42;43];
 [44;45;46;47;48;49;50;51;52;53;54;55;56;57;58;59];
 [60;61;62;63;64;65;66;67;68;69;70;71;232;233;234;235];
 [0;1;2;3;4;5;6;7;8;9;10;11;12;13;14;15];
 [16;17;18;19;20;21;28;29;30;31;32;33;34;35;36;37];
 [38;39;40;41;42;43;44;45;46;47;48;49;50;51;52;53];
 [60;61;62;63;64;65;66;67;68;69;70;71;72;73;74;75];
 [0;1;2;3;4;5;6;7;8;9;10;11;12;13;14;15];
 [176;177;178;179;180;181;182;183;184;185;186;187;188;189;190;191];
 [192;193;194;195;196;197;198;199;200;201;208;209;210;211;212;213];
 [214;215;216;217;218;219;220;221;222;223;224;225;226;227;228;229];
 [0;1;2;3;10;11;12;13;14;15;16;17;18;19;20;21];
 [22;23;24;25;26;27;28;29;30;31;32;33;34;35;36;37];
 [38;39;40;41;202;203;204;205;206;207;208;209;210;211;212;213];
 [214;215;216;217;218;219;220;221;222;223;224;225;226;227;234;235];
 [0;1;2;3;4;5;6;7;8;9;10;11;12;13;14;15];
 [16;17;18;19;20;21;22;23;30;31;32;33;34;35;36;37];
 [38;39;40;41;42;43;44;45;46;47;48;49;50;51;52;53];
 [54;55;56;57;58;59;60;61;222;223;224;225;226;227;228;229];
 [0;1;2;3;4;5;6;7;8;9;10;11;12;13;14;15];
 [16;17;24;25;26;27;28;29;30;31;32;33;34;35;36;37];
 [38;39;40;41;42;43;44;45;46;47;48;49;56;57;58;59];
 [60;61;62;63;64;65;66;67;68;69;70;71;72;73;74;75];
 [0;1;2;3;4;5;6;7;8;9;10;11;172;173;174;175];
 [176;177;178;179;180;181;182;183;184;185;186;187;188;189;190;191];
 [192;193;194;195;196;197;204;205;206;207;208;209;210;211;212;213];
 [214;215;216;217;218;219;220;221;222;223;224;225;226;227;228;229];
 [0;1;2;3;4;5;6;7;8;9;10;11;12;13;14;15];
 [16;17;18;19;20;21;22;23;24;25;26;27;28;29;30;31];
 [192;193;194;195;196;197;198;199;200;201;202;203;204;205;206;207];
 [208;209;210;211;212;213;214;215;216;217;224;225;226;227;228;229];
 [0;1;2;3;4;5;6;7;8;9;10;11;12;13;14;15];
 [16;17;18;19;26;27;28;29;30;31;32;33;34;35;36;37];
 [38;39;40;41;42;43;44;45;46;47;48;49;50;51;52;53];
 [54;55;56;57;218;219;220;221;222;223;224;225;226;227;228;229];
 [0;1;2;3;4;5;6;7;8;9;10;11;12;13;20;21];
 [22;23;24;25;26;27;28;29;30;31;32;33;34;35;36;37];
 [38;39;40;41;42;43;44;45;52;53;54;55;56;57;58;59];
 [60;61;62;63;64;65;66;67;68;69;70;71;72;73;74;75];
 [0;1;2;3;4;5;6;7;168;169;170;171;172;173;174;175];
 [176;177;178;179;180;181;182;183;184;185;186;187;188;189;190;191];
 [192;193;200;201;202;203;204;205;206;207;208;209;210;211;212;213];
 [214;215;216;217;218;219;220;221;222;223;224;225;232;233;234;235];
 [0;1;2;3;4;5;6;7;8;9;10;11;12;13;14;15];
 [16;17;18;19;20;21;22;23;24;25;26;27;188;189;190;191];
 [192;193;194;195;196;197;198;199;200;201;202;203;204;205;206;207];
 [208;209;210;211;212;213;220;221;222;223;224;225;226;227;228;229];
 [0;1;2;3;4;5;6;7;8;9;10;11;12;13;14;15];
 [22;23;24;25;26;27;28;29;30;31;32;33;34;35;36;37];
 [38;39;40;41;42;43;44;45;46;47;48;49;50;51;52;53];
 [214;215;216;217;218;219;220;221;222;223;224;225;226;227;228;229];
 [0;1;2;3;4;5;6;7;8;9;16;17;18;19;20;21];
 [22;23;24;25;26;27;28;29;30;31;32;33;34;35;36;37];
 [38;39;40;41;48;49;50;51;52;53;54;55;56;57;58;59];
 [60;61;62;63;64;65;66;67;68;69;70;71;72;73;74;75];
 [0;1;2;3;164;165;166;167;168;169;170;171;172;173;174;175];
 [176;177;178;179;180;181;182;183;184;185;186;187;188;189;196;197];
 [198;199;200;201;202;203;204;205;206;207;208;209;210;211;212;213];
 [214;215;216;217;218;219;220;221;228;229;230;231;232;233;234;235];
 [0;1;2;3;4;5;6;7;8;9;10;11;12;13;14;15];
 [16;17;18;19;20;21;22;23;184;185;186;187;188;189;190;191];
 [192;193;194;195;196;197;198;199;200;201;202;203;204;205;206;207];
 [208;209;216;217;218;219;220;221;222;223;224;225;226;227;228;229];
 [0;1;2;3;4;5;6;7;8;9;10;11;18;19;20;21];
 [22;23;24;25;26;27;28;29;30;31;32;33;34;35;36;37];
 [38;39;40;41;42;43;44;45;46;47;48;49;210;211;212;213];
 [214;215;216;217;218;219;220;221;222;223;224;225;226;227;228;229];
 [0;1;2;3;4;5;12;13;14;15;16;17;18;19;20;21];
 [22;23;24;25;26;27;28;29;30;31;32;33;34;35;36;37];
 [44;45;46;47;48;49;50;51;52;53;54;55;56;57;58;59];
 [60;61;62;63;64;65;66;67;68;69;70;71;72;73;74;75];
 [0;1;2;3;4;5;6;7;8;9;10;11;12;13;14;15];
 [16;17;18;19;20;21;22;23;24;25;32;33;34;35;36;37];
 [38;39;40;41;42;43;44;45;46;47;48;49;50;51;52;53];
 [54;55;56;57;64;65;66;67;68;69;70;71;72;73;74;75];
 [0;1;2;3;4;5;6;7;8;9;10;11;12;13;14;15];
 [16;17;18;19;180;181;182;183;184;185;186;187;188;189;190;191];
 [192;193;194;195;196;197;198;199;200;201;202;203;204;205;212;213];
 [214;215;216;217;218;219;220;221;222;223;224;225;226;227;228;229];
 [0;1;2;3;4;5;6;7;14;15;16;17;18;19;20;21];
 [22;23;24;25;26;27;28;29;30;31;32;33;34;35;36;37];
 [38;39;40;41;42;43;44;45;206;207;208;209;210;211;212;213];
 [214;215;216;217;218;219;220;221;222;223;224;225;226;227;228;229];
 [0;1;8;9;10;11;12;13;14;15;16;17;18;19;20;21];
 [22;23;24;25;26;27;28;29;30;31;32;33;40;41;42;43];
 [44;45;46;47;48;49;50;51;52;53;54;55;56;57;58;59];
 [60;61;62;63;64;65;66;67;68;69;70;71;232;233;234;235];
 [0;1;2;3;4;5;6;7;8;9;10;11;12;13;14;15];
 [16;17;18;19;20;21;28;29;30;31;32;33;34;35;36;37];
 [38;39;40;41;42;43;44;45;46;47;48;49;50;51;52;53];
 [60;61;62;63;64;65;66;67;68;69;70;71;72;73;74;75];
 [0;1;2;3;4;5;6;7;8;9;10;11;12;13;14;15];
 [176;177;178;179;180;181;182;183;184;185;186;187;188;189;190;191];
 [192;193;194;195;196;197;198;199;200;201;208;209;210;211;212;213];
 [214;215;216;217;218;219;220;221;222;223;224;225;226;227;228;229];
 [0;1;2;3;10;11;12;13;14;15;16;17;18;19;20;21];
 [22;23;24;25;26;27;28;29;30;31;32;33;34;35;36;37];
 [38;39;40;41;202;203;204;205;206;207;208;209;210;211;212;213];
 [214;215;216;217;218;219]].

(* lib/converters/uhc_2.h:922-1002 uhc_2_uni2indx_pagec8 (flattened, 2 fields per entry) *)
Definition uhc_2_uni2indx_pagec8 : tab := mk [
 [0;0;0;0;0;0;0;0;0;0;0;0;0;0;0;0];
 [0;0;0;0;0;65248;10;53247;24;61167;37;64847;49;65516;62;53215];
 [75;20366;84;65277;98;61439;113;65519;128;65535;144;65260;156;61428;168;61422];
 [181;60671;194;54526;205;65535;221;65535;237;64108;247;51604;254;20330;263;60668];
 [274;50430;284;65263;298;65023;313;65535;329;53247;343;20462;354;65276;367;57343];
 [382;65519;397;65279;412;65535;428;53247;442;20462;453;64757;465;61438;479;65519];
 [494;65279;509;65262;522;65532;536;65535;552;60669;564;56574;576;65519;591;64767];
 [605;65535;621;61439;636;65535;652;65279;667;65535;683;65519;698;64879;711;65535];
 [727;53247;741;53230;753;44153;762;34046;771;61135;783;64591;794;65198;806;65502];
 [820;65535;836;60671;849;50430;859;61135;871;64847;883;65518;897;61423;911;65534];
 [926;60669;938;54526;949;61167;962;65023;977;65535;993;61439;1008;20462;1019;65277];
 [1033;65279;1048;61135;1060;64847;1072;65534;1087;61423;1101;65534;1116;61183;1130;54526];
 [1141;61167;1154;65007;1168;65260;1180;65492;1192;65535;1208;27903;1220;54524;1230;61135];
 [1242;64847;1254;65260;1266;53188;1275;65535;1291;65533;1306;65535;1322;59087;1333;64591];
 [1344;65260;1356;61396;1367;20462;1378;65276;1391;65535;1407;61135;1419;64847;1431;65260];
 [1443;61406;1456;65535;1472;65277;1486;65534;1501;65519;1516;65535;1532;65260;1544;61396];
 [1555;65518;1569;65277;1583;57343;1598;61135;1610;64847;1622;65262;1635;53246;1648;53230];
 [1660;65533;1675;65535;1691;61135;1703;64847;1715;64748;1726;53188;1735;20462;1746;65276];
 [1759;57343;1774;65535;1790;65535;1806;64236;1817;53188;1826;20462;1837;61181;1850;61439];
 [1865;65263;1879;65535;1895;65260;1907;60372;1917;65534;1932;65279;1947;65535;1963;65263];
 [1977;64895;1991;65534;2006;53247;2020;20462;2031;65277;2045;61439;2060;65519;2075;65535];
 [2091;65260;2103;61404;2115;61422;2128;27901;2139;62714;2150;61167;2163;65487;2177;65260];
 [2189;36820;2198;20398;2208;60636;2218;50430;2228;65487;2242;65535;2258;65535;2274;53247];
 [2288;20462;2299;60668;2310;54526;2321;61167;2334;64719;2346;65278;2360;53237;2372;20462];
 [2383;65277;2397;57343;2412;65535;2428;65535;2444;65518;2458;61439;2473;24558;2485;27903];
 [2497;54522;2507;65519;2522;65023;2537;65535;2553;61439;2568;28654;2580;61183;2594;55038];
 [2606;61167;2619;65359;2632;65535;2648;53247;2662;20462;2673;60669;2685;54494;2695;61135];
 [2707;64591;2718;65534;2733;65503;2748;65535;2764;60671;2777;54522;2787;61135;2799;64847];
 [2811;65260;2823;61380;2833;57326;2846;60671;2859;54494;2869;61133;2880;64895;2894;65516];
 [2907;53207;2919;24558;2931;61181;2944;62974;2957;61135;2969;64877;2981;65262;2994;53214];
 [3006;65518;3020;60669;3032;54526;3043;61135;3055;64879;3068;64556;3077;60884;3087;53230];
 [3099;60669;3111;54526;3122;15]].

