(** GENERATED by tools/gen.py from /repo/lib/converters; do not edit.
    Mapping tables. *)
From Coq Require Import ZArith List Bool.
From Verif Require Import Base.
Import ListNotations.
Open Scope Z_scope.

(* lib/converters/jisx0208.h:30-127 jisx0208_2uni_page21 *)
Definition jisx0208_2uni_page21 : tab := mk [
 [12288;12289;12290;65292;65294;12539;65306;65307;65311;65281;12443;12444;180;65344;168;65342];
 [65507;65343;12541;12542;12445;12446;12291;20189;12293;12294;12295;12540;8213;8208;65295;65340];
 [12316;8214;65372;8230;8229;8216;8217;8220;8221;65288;65289;12308;12309;65339;65341;65371];
 [65373;12296;12297;12298;12299;12300;12301;12302;12303;12304;12305;65291;8722;177;215;247];
 [65309;8800;65308;65310;8806;8807;8734;8756;9794;9792;176;8242;8243;8451;65509;65284];
 [162;163;65285;65283;65286;65290;65312;167;9734;9733;9675;9679;9678;9671;9670;9633];
 [9632;9651;9650;9661;9660;8251;12306;8594;8592;8593;8595;12307;65533;65533;65533;65533];
 [65533;65533;65533;65533;65533;65533;65533;8712;8715;8838;8839;8834;8835;8746;8745;65533];
 [65533;65533;65533;65533;65533;65533;65533;8743;8744;172;8658;8660;8704;8707;65533;65533];
 [65533;65533;65533;65533;65533;65533;65533;65533;65533;8736;8869;8978;8706;8711;8801;8786];
 [8810;8811;8730;8765;8733;8757;8747;8748;65533;65533;65533;65533;65533;65533;65533;8491];
 [8240;9839;9837;9834;8224;8225;182;65533;65533;65533;65533;9711;65533;65533;65533;65533];
 [65533;65533;65533;65533;65533;65533;65533;65533;65533;65533;65533;65296;65297;65298;65299;65300];
 [65301;65302;65303;65304;65305;65533;65533;65533;65533;65533;65533;65533;65313;65314;65315;65316];
 [65317;65318;65319;65320;65321;65322;65323;65324;65325;65326;65327;65328;65329;65330;65331;65332];
 [65333;65334;65335;65336;65337;65338;65533;65533;65533;65533;65533;65533;65345;65346;65347;65348];
 [65349;65350;65351;65352;65353;65354;65355;65356;65357;65358;65359;65360;65361;65362;65363;65364];
 [65365;65366;65367;65368;65369;65370;65533;65533;65533;65533;12353;12354;12355;12356;12357;12358];
 [12359;12360;12361;12362;12363;12364;12365;12366;12367;12368;12369;12370;12371;12372;12373;12374];
 [12375;12376;12377;12378;12379;12380;12381;12382;12383;12384;12385;12386;12387;12388;12389;12390];
 [12391;12392;12393;12394;12395;12396;12397;12398;12399;12400;12401;12402;12403;12404;12405;12406];
 [12407;12408;12409;12410;12411;12412;12413;12414;12415;12416;12417;12418;12419;12420;12421;12422];
 [12423;12424;12425;12426;12427;12428;12429;12430;12431;12432;12433;12434;12435;65533;65533;65533];
 [65533;65533;65533;65533;65533;65533;65533;65533;12449;12450;12451;12452;12453;12454;12455;12456];
 [12457;12458;12459;12460;12461;12462;12463;12464;12465;12466;12467;12468;12469;12470;12471;12472];
 [12473;12474;12475;12476;12477;12478;12479;12480;12481;12482;12483;12484;12485;12486;12487;12488];
 [12489;12490;12491;12492;12493;12494;12495;12496;12497;12498;12499;12500;12501;12502;12503;12504];
 [12505;12506;12507;12508;12509;12510;12511;12512;12513;12514;12515;12516;12517;12518;12519;12520];
 [12521;12522;12523;12524;12525;12526;12527;12528;12529;12530;12531;12532;12533;12534;65533;65533];
 [65533;65533;65533;65533;65533;65533;913;914;915;916;917;918;919;920;921;922];
 [923;924;925;926;927;928;929;931;932;933;934;935;936;937;65533;65533];
 [65533;65533;65533;65533;65533;65533;945;946;947;948;949;950;951;952;953;954];
 [955;956;957;958;959;960;961;963;964;965;966;967;968;969;65533;65533];
 [65533;65533;65533;65533;65533;65533;65533;65533;65533;65533;65533;65533;65533;65533;65533;65533];
 [65533;65533;65533;65533;65533;65533;65533;65533;65533;65533;65533;65533;65533;65533;65533;65533];
 [65533;65533;65533;65533;1040;1041;1042;1043;1044;1045;1025;1046;1047;1048;1049;1050];
 [1051;1052;1053;1054;1055;1056;1057;1058;1059;1060;1061;1062;1063;1064;1065;1066];
 [1067;1068;1069;1070;1071;65533;65533;65533;65533;65533;65533;65533;65533;65533;65533;65533];
 [65533;65533;65533;65533;1072;1073;1074;1075;1076;1077;1105;1078;1079;1080;1081;1082];
 [1083;1084;1085;1086;1087;1088;1089;1090;1091;1092;1093;1094;1095;1096;1097;1098];
 [1099;1100;1101;1102;1103;65533;65533;65533;65533;65533;65533;65533;65533;65533;65533;65533];
 [65533;65533;9472;9474;9484;9488;9496;9492;9500;9516;9508;9524;9532;9473;9475;9487];
 [9491;9499;9495;9507;9523;9515;9531;9547;9504;9519;9512;9527;9535;9501;9520;9509];
 [9528;9538]].

(* lib/converters/jisx0208.h:128-1015 jisx0208_2uni_page30 *)
Definition jisx0208_2uni_page30 : tab := mk [
 [20124;21782;23043;38463;21696;24859;25384;23030;36898;33909;33564;31312;24746;25569;28197;26093];
 [33894;33446;39925;26771;22311;26017;25201;23451;22992;34427;39156;32098;32190;39822;25110;31903];
 [34999;23433;24245;25353;26263;26696;38343;38797;26447;20197;20234;20301;20381;20553;22258;22839];
 [22996;23041;23561;24799;24847;24944;26131;26885;28858;30031;30064;31227;32173;32239;32963;33806];
 [34915;35586;36949;36986;21307;20117;20133;22495;32946;37057;30959;19968;22769;28322;36920;31282];
 [33576;33419;39983;20801;21360;21693;21729;22240;23035;24341;39154;28139;32996;34093;38498;38512];
 [38560;38907;21515;21491;23431;28879;32701;36802;38632;21359;40284;31418;19985;30867;33276;28198];
 [22040;21764;27421;34074;39995;23013;21417;28006;29916;38287;22082;20113;36939;38642;33615;39180];
 [21473;21942;23344;24433;26144;26355;26628;27704;27891;27945;29787;30408;31310;38964;33521;34907];
 [35424;37613;28082;30123;30410;39365;24742;35585;36234;38322;27022;21421;20870;22290;22576;22852];
 [23476;24310;24616;25513;25588;27839;28436;28814;28948;29017;29141;29503;32257;33398;33489;34199];
 [36960;37467;40219;22633;26044;27738;29989;20985;22830;22885;24448;24540;25276;26106;27178;27431];
 [27572;29579;32705;35158;40236;40206;40644;23713;27798;33659;20740;23627;25014;33222;26742;29281];
 [20057;20474;21368;24681;28201;31311;38899;19979;21270;20206;20309;20285;20385;20339;21152;21487];
 [22025;22799;23233;23478;23521;31185;26247;26524;26550;27468;27827;28779;29634;31117;31166;31292];
 [31623;33457;33499;33540;33655;33775;33747;34662;35506;22057;36008;36838;36942;38686;34442;20420];
 [23784;25105;29273;30011;33253;33469;34558;36032;38597;39187;39381;20171;20250;35299;22238;22602];
 [22730;24315;24555;24618;24724;24674;25040;25106;25296;25913;39745;26214;26800;28023;28784;30028];
 [30342;32117;33445;34809;38283;38542;35997;20977;21182;22806;21683;23475;23830;24936;27010;28079];
 [30861;33995;34903;35442;37799;39608;28012;39336;34521;22435;26623;34510;37390;21123;22151;21508];
 [24275;25313;25785;26684;26680;27579;29554;30906;31339;35226;35282;36203;36611;37101;38307;38548];
 [38761;23398;23731;27005;38989;38990;25499;31520;27179;27263;26806;39949;28511;21106;21917;24688];
 [25324;27963;28167;28369;33883;35088;36676;19988;39993;21494;26907;27194;38788;26666;20828;31427];
 [33970;37340;37772;22107;40232;26658;33541;33841;31909;21000;33477;29926;20094;20355;20896;23506];
 [21002;21208;21223;24059;21914;22570;23014;23436;23448;23515;24178;24185;24739;24863;24931;25022];
 [25563;25954;26577;26707;26874;27454;27475;27735;28450;28567;28485;29872;29976;30435;30475;31487];
 [31649;31777;32233;32566;32752;32925;33382;33694;35251;35532;36011;36996;37969;38291;38289;38306];
 [38501;38867;39208;33304;20024;21547;23736;24012;29609;30284;30524;23721;32747;36107;38593;38929];
 [38996;39000;20225;20238;21361;21916;22120;22522;22855;23305;23492;23696;24076;24190;24524;25582];
 [26426;26071;26082;26399;26827;26820;27231;24112;27589;27671;27773;30079;31048;23395;31232;32000];
 [24509;35215;35352;36020;36215;36556;36637;39138;39438;39740;20096;20605;20736;22931;23452;25135];
 [25216;25836;27450;29344;30097;31047;32681;34811;35516;35696;25516;33738;38816;21513;21507;21931];
 [26708;27224;35440;30759;26485;40653;21364;23458;33050;34384;36870;19992;20037;20167;20241;21450];
 [21560;23470;24339;24613;25937;26429;27714;27762;27875;28792;29699;31350;31406;31496;32026;31998];
 [32102;26087;29275;21435;23621;24040;25298;25312;25369;28192;34394;35377;36317;37624;28417;31142];
 [39770;20136;20139;20140;20379;20384;20689;20807;31478;20849;20982;21332;21281;21375;21483;21932];
 [22659;23777;24375;24394;24623;24656;24685;25375;25945;27211;27841;29378;29421;30703;33016;33029];
 [33288;34126;37111;37857;38911;39255;39514;20208;20957;23597;26241;26989;23616;26354;26997;29577];
 [26704;31873;20677;21220;22343;24062;37670;26020;27427;27453;29748;31105;31165;31563;32202;33465];
 [33740;34943;35167;35641;36817;37329;21535;37504;20061;20534;21477;21306;29399;29590;30697;33510];
 [36527;39366;39368;39378;20855;24858;34398;21936;31354;20598;23507;36935;38533;20018;27355;37351];
 [23633;23624;25496;31391;27795;38772;36705;31402;29066;38536;31874;26647;32368;26705;37740;21234];
 [21531;34219;35347;32676;36557;37089;21350;34952;31041;20418;20670;21009;20804;21843;22317;29674];
 [22411;22865;24418;24452;24693;24950;24935;25001;25522;25658;25964;26223;26690;28179;30054;31293];
 [31995;32076;32153;32331;32619;33550;33610;34509;35336;35427;35686;36605;38938;40335;33464;36814];
 [39912;21127;25119;25731;28608;38553;26689;20625;27424;27770;28500;31348;32080;34880;35363;26376];
 [20214;20537;20518;20581;20860;21048;21091;21927;22287;22533;23244;24314;25010;25080;25331;25458];
 [26908;27177;29309;29356;29486;30740;30831;32121;30476;32937;35211;35609;36066;36562;36963;37749];
 [38522;38997;39443;40568;20803;21407;21427;24187;24358;28187;28304;29572;29694;32067;33335;35328];
 [35578;38480;20046;20491;21476;21628;22266;22993;23396;24049;24235;24359;25144;25925;26543;28246];
 [29392;31946;34996;32929;32993;33776;34382;35463;36328;37431;38599;39015;40723;20116;20114;20237];
 [21320;21577;21566;23087;24460;24481;24735;26791;27278;29786;30849;35486;35492;35703;37264;20062];
 [39881;20132;20348;20399;20505;20502;20809;20844;21151;21177;21246;21402;21475;21521;21518;21897];
 [22353;22434;22909;23380;23389;23439;24037;24039;24055;24184;24195;24218;24247;24344;24658;24908];
 [25239;25304;25511;25915;26114;26179;26356;26477;26657;26775;27083;27743;27946;28009;28207;28317];
 [30002;30343;30828;31295;31968;32005;32024;32094;32177;32789;32771;32943;32945;33108;33167;33322];
 [33618;34892;34913;35611;36002;36092;37066;37237;37489;30783;37628;38308;38477;38917;39321;39640];
 [40251;21083;21163;21495;21512;22741;25335;28640;35946;36703;40633;20811;21051;21578;22269;31296];
 [37239;40288;40658;29508;28425;33136;29969;24573;24794;39592;29403;36796;27492;38915;20170;22256];
 [22372;22718;23130;24680;25031;26127;26118;26681;26801;28151;30165;32058;33390;39746;20123;20304];
 [21449;21766;23919;24038;24046;26619;27801;29811;30722;35408;37782;35039;22352;24231;25387;20661];
 [20652;20877;26368;21705;22622;22971;23472;24425;25165;25505;26685;27507;28168;28797;37319;29312];
 [30741;30758;31085;25998;32048;33756;35009;36617;38555;21092;22312;26448;32618;36001;20916;22338];
 [38442;22586;27018;32948;21682;23822;22524;30869;40442;20316;21066;21643;25662;26152;26388;26613];
 [31364;31574;32034;37679;26716;39853;31545;21273;20874;21047;23519;25334;25774;25830;26413;27578];
 [34217;38609;30352;39894;25420;37638;39851;30399;26194;19977;20632;21442;23665;24808;25746;25955];
 [26719;29158;29642;29987;31639;32386;34453;35715;36059;37240;39184;26028;26283;27531;20181;20180];
 [20282;20351;21050;21496;21490;21987;22235;22763;22987;22985;23039;23376;23629;24066;24107;24535];
 [24605;25351;25903;23388;26031;26045;26088;26525;27490;27515;27663;29509;31049;31169;31992;32025];
 [32043;32930;33026;33267;35222;35422;35433;35430;35468;35566;36039;36060;38604;39164;27503;20107];
 [20284;20365;20816;23383;23546;24904;25345;26178;27425;28363;27835;29246;29885;30164;30913;31034];
 [32780;32819;33258;33940;36766;27728;40575;24335;35672;40235;31482;36600;23437;38635;19971;21489];
 [22519;22833;23241;23460;24713;28287;28422;30142;36074;23455;34048;31712;20594;26612;33437;23649];
 [34122;32286;33294;20889;23556;25448;36198;26012;29038;31038;32023;32773;35613;36554;36974;34503];
 [37034;20511;21242;23610;26451;28796;29237;37196;37320;37675;33509;23490;24369;24825;20027;21462];
 [23432;25163;26417;27530;29417;29664;31278;33131;36259;37202;39318;20754;21463;21610;23551;25480];
 [27193;32172;38656;22234;21454;21608;23447;23601;24030;20462;24833;25342;27954;31168;31179;32066];
 [32333;32722;33261;33311;33936;34886;35186;35728;36468;36655;36913;37195;37228;38598;37276;20160];
 [20303;20805;21313;24467;25102;26580;27713;28171;29539;32294;37325;37507;21460;22809;23487;28113];
 [31069;32302;31899;22654;29087;20986;34899;36848;20426;23803;26149;30636;31459;33308;39423;20934];
 [24490;26092;26991;27529;28147;28310;28516;30462;32020;24033;36981;37255;38918;20966;21021;25152];
 [26257;26329;28186;24246;32210;32626;26360;34223;34295;35576;21161;21465;22899;24207;24464;24661];
 [37604;38500;20663;20767;21213;21280;21319;21484;21736;21830;21809;22039;22888;22974;23100;23477];
 [23558;23567;23569;23578;24196;24202;24288;24432;25215;25220;25307;25484;25463;26119;26124;26157];
 [26230;26494;26786;27167;27189;27836;28040;28169;28248;28988;28966;29031;30151;30465;30813;30977];
 [31077;31216;31456;31505;31911;32057;32918;33750;33931;34121;34909;35059;35359;35388;35412;35443];
 [35937;36062;37284;37478;37758;37912;38556;38808;19978;19976;19998;20055;20887;21104;22478;22580];
 [22732;23330;24120;24773;25854;26465;26454;27972;29366;30067;31331;33976;35698;37304;37664;22065];
 [22516;39166;25325;26893;27542;29165;32340;32887;33394;35302;39135;34645;36785;23611;20280;20449];
 [20405;21767;23072;23517;23529;24515;24910;25391;26032;26187;26862;27035;28024;28145;30003;30137];
 [30495;31070;31206;32051;33251;33455;34218;35242;35386;36523;36763;36914;37341;38663;20154;20161];
 [20995;22645;22764;23563;29978;23613;33102;35338;36805;38499;38765;31525;35535;38920;37218;22259];
 [21416;36887;21561;22402;24101;25512;27700;28810;30561;31883;32736;34928;36930;37204;37648;37656];
 [38543;29790;39620;23815;23913;25968;26530;36264;38619;25454;26441;26905;33733;38935;38592;35070];
 [28548;25722;23544;19990;28716;30045;26159;20932;21046;21218;22995;24449;24615;25104;25919;25972];
 [26143;26228;26866;26646;27491;28165;29298;29983;30427;31934;32854;22768;35069;35199;35488;35475];
 [35531;36893;37266;38738;38745;25993;31246;33030;38587;24109;24796;25114;26021;26132;26512;30707];
 [31309;31821;32318;33034;36012;36196;36321;36447;30889;20999;25305;25509;25666;25240;35373;31363];
 [31680;35500;38634;32118;33292;34633;20185;20808;21315;21344;23459;23554;23574;24029;25126;25159];
 [25776;26643;26676;27849;27973;27927;26579;28508;29006;29053;26059;31359;31661;32218;32330;32680];
 [33146;33307;33337;34214;35438;36046;36341;36984;36983;37549;37521;38275;39854;21069;21892;28472];
 [28982;20840;31109;32341;33203;31950;22092;22609;23720;25514;26366;26365;26970;29401;30095;30094];
 [30990;31062;31199;31895;32032;32068;34311;35380;38459;36961;40736;20711;21109;21452;21474;20489];
 [21930;22766;22863;29245;23435;23652;21277;24803;24819;25436;25475;25407;25531;25805;26089;26361];
 [24035;27085;27133;28437;29157;20105;30185;30456;31379;31967;32207;32156;32865;33609;33624;33900];
 [33980;34299;35013;36208;36865;36973;37783;38684;39442;20687;22679;24974;33235;34101;36104;36896];
 [20419;20596;21063;21363;24687;25417;26463;28204;36275;36895;20439;23646;36042;26063;32154;21330];
 [34966;20854;25539;23384;23403;23562;25613;26449;36956;20182;22810;22826;27760;35409;21822;22549];
 [22949;24816;25171;26561;33333;26965;38464;39364;39464;20307;22534;23550;32784;23729;24111;24453];
 [24608;24907;25140;26367;27888;28382;32974;33151;33492;34955;36024;36864;36910;38538;40667;39899];
 [20195;21488;22823;31532;37261;38988;40441;28381;28711;21331;21828;23429;25176;25246;25299;27810];
 [28655;29730;35351;37944;28609;35582;33592;20967;34552;21482;21481;20294;36948;36784;22890;33073];
 [24061;31466;36799;26842;35895;29432;40008;27197;35504;20025;21336;22022;22374;25285;25506;26086];
 [27470;28129;28251;28845;30701;31471;31658;32187;32829;32966;34507;35477;37723;22243;22727;24382];
 [26029;26262;27264;27573;30007;35527;20516;30693;22320;24347;24677;26234;27744;30196;31258;32622];
 [33268;34584;36933;39347;31689;30044;31481;31569;33988;36880;31209;31378;33590;23265;30528;20013];
 [20210;23449;24544;25277;26172;26609;27880;34411;34935;35387;37198;37619;39376;27159;28710;29482];
 [33511;33879;36015;19969;20806;20939;21899;23541;24086;24115;24193;24340;24373;24427;24500;25074];
 [25361;26274;26397;28526;29266;30010;30522;32884;33081;33144;34678;35519;35548;36229;36339;37530];
 [38263;38914;40165;21189;25431;30452;26389;27784;29645;36035;37806;38515;27941;22684;26894;27084];
 [36861;37786;30171;36890;22618;26626;25524;27131;20291;28460;26584;36795;34086;32180;37716;26943];
 [28528;22378;22775;23340;32044;29226;21514;37347;40372;20141;20302;20572;20597;21059;35998;21576];
 [22564;23450;24093;24213;24237;24311;24351;24716;25269;25402;25552;26799;27712;30855;31118;31243];
 [32224;33351;35330;35558;36420;36883;37048;37165;37336;40718;27877;25688;25826;25973;28404;30340];
 [31515;36969;37841;28346;21746;24505;25764;36685;36845;37444;20856;22635;22825;23637;24215;28155];
 [32399;29980;36028;36578;39003;28857;20253;27583;28593;30000;38651;20814;21520;22581;22615;22956];
 [23648;24466;26007;26460;28193;30331;33759;36077;36884;37117;37709;30757;30778;21162;24230;22303];
 [22900;24594;20498;20826;20908;20941;20992;21776;22612;22616;22871;23445;23798;23947;24764;25237];
 [25645;26481;26691;26812;26847;30423;28120;28271;28059;28783;29128;24403;30168;31095;31561;31572];
 [31570;31958;32113;21040;33891;34153;34276;35342;35588;35910;36367;36867;36879;37913;38518;38957];
 [39472;38360;20685;21205;21516;22530;23566;24999;25758;27934;30643;31461;33012;33796;36947;37509];
 [23776;40199;21311;24471;24499;28060;29305;30563;31167;31716;27602;29420;35501;26627;27233;20984];
 [31361;26932;23626;40182;33515;23493;37193;28702;22136;23663;24775;25958;27788;35930;36929;38931];
 [21585;26311;37389;22856;37027;20869;20045;20970;34201;35598;28760;25466;37707;26978;39348;32260];
 [30071;21335;26976;36575;38627;27741;20108;23612;24336;36841;21250;36049;32905;34425;24319;26085];
 [20083;20837;22914;23615;38894;20219;22922;24525;35469;28641;31152;31074;23527;33905;29483;29105];
 [24180;24565;25467;25754;29123;31896;20035;24316;20043;22492;22178;24745;28611;32013;33021;33075];
 [33215;36786;35223;34468;24052;25226;25773;35207;26487;27874;27966;29750;30772;23110;32629;33453];
 [39340;20467;24259;25309;25490;25943;26479;30403;29260;32972;32954;36649;37197;20493;22521;23186];
 [26757;26995;29028;29437;36023;22770;36064;38506;36889;34687;31204;30695;33833;20271;21093;21338];
 [25293;26575;27850;30333;31636;31893;33334;34180;36843;26333;28448;29190;32283;33707;39361;40614];
 [20989;31665;30834;31672;32903;31560;27368;24161;32908;30033;30048;20843;37474;28300;30330;37271];
 [39658;20240;32624;25244;31567;38309;40169;22138;22617;34532;38588;20276;21028;21322;21453;21467];
 [24070;25644;26001;26495;27710;27726;29256;29359;29677;30036;32321;33324;34281;36009;31684;37318];
 [29033;38930;39151;25405;26217;30058;30436;30928;34115;34542;21290;21329;21542;22915;24199;24444];
 [24754;25161;25209;25259;26000;27604;27852;30130;30382;30865;31192;32203;32631;32933;34987;35513];
 [36027;36991;38750;39131;27147;31800;20633;23614;24494;26503;27608;29749;30473;32654;40763;26570];
 [31255;21305;30091;39661;24422;33181;33777;32920;24380;24517;30050;31558;36924;26727;23019;23195];
 [32016;30334;35628;20469;24426;27161;27703;28418;29922;31080;34920;35413;35961;24287;25551;30149];
 [31186;33495;37672;37618;33948;34541;39981;21697;24428;25996;27996;28693;36007;36051;38971;25935];
 [29942;19981;20184;22496;22827;23142;23500;20904;24067;24220;24598;25206;25975;26023;26222;28014];
 [29238;31526;33104;33178;33433;35676;36000;36070;36212;38428;38468;20398;25771;27494;33310;33889];
 [34154;37096;23553;26963;39080;33914;34135;20239;21103;24489;24133;26381;31119;33145;35079;35206];
 [28149;24343;25173;27832;20175;29289;39826;20998;21563;22132;22707;24996;25198;28954;22894;31881];
 [31966;32027;38640;25991;32862;19993;20341;20853;22592;24163;24179;24330;26564;20006;34109;38281];
 [38491;31859;38913;20731;22721;30294;30887;21029;30629;34065;31622;20559;22793;29255;31687;32232];
 [36794;36820;36941;20415;21193;23081;24321;38829;20445;33303;37610;22275;25429;27497;29995;35036];
 [36628;31298;21215;22675;24917;25098;26286;27597;31807;33769;20515;20472;21253;21574;22577;22857];
 [23453;23792;23791;23849;24214;25265;25447;25918;26041;26379;27861;27873;28921;30770;32299;32990];
 [33459;33804;34028;34562;35090;35370;35914;37030;37586;39165;40179;40300;20047;20129;20621;21078];
 [22346;22952;24125;24536;24537;25151;26292;26395;26576;26834;20882;32033;32938;33192;35584;35980];
 [36031;37502;38450;21536;38956;21271;20693;21340;22696;25778;26420;29287;30566;31302;37350;21187];
 [27809;27526;22528;24140;22868;26412;32763;20961;30406;25705;30952;39764;40635;22475;22969;26151];
 [26522;27598;21737;27097;24149;33180;26517;39850;26622;40018;26717;20134;20451;21448;25273;26411];
 [27819;36804;20397;32365;40639;19975;24930;28288;28459;34067;21619;26410;39749;24051;31637;23724];
 [23494;34588;28234;34001;31252;33032;22937;31885;27665;30496;21209;22818;28961;29279;30683;38695];
 [40289;26891;23167;23064;20901;21517;21629;26126;30431;36855;37528;40180;23018;29277;28357;20813];
 [26825;32191;32236;38754;40634;25720;27169;33538;22916;23391;27611;29467;30450;32178;32791;33945];
 [20786;26408;40665;30446;26466;21247;39173;23588;25147;31870;36016;21839;24758;32011;38272;21249];
 [20063;20918;22812;29242;32822;37326;24357;30690;21380;24441;32004;34220;35379;36493;38742;26611];
 [34222;37971;24841;24840;27833;30290;35565;36664;21807;20305;20778;21191;21451;23461;24189;24736];
 [24962;25558;26377;26586;28263;28044;29494;29495;30001;31056;35029;35480;36938;37009;37109;38596];
 [34701;22805;20104;20313;19982;35465;36671;38928;20653;24188;22934;23481;24248;25562;25594;25793];
 [26332;26954;27096;27915;28342;29076;29992;31407;32650;32768;33865;33993;35201;35617;36362;36965];
 [38525;39178;24958;25233;27442;27779;28020;32716;32764;28096;32645;34746;35064;26469;33713;38972];
 [38647;27931;32097;33853;37226;20081;21365;23888;27396;28651;34253;34349;35239;21033;21519;23653];
 [26446;26792;29702;29827;30178;35023;35041;37324;38626;38520;24459;29575;31435;33870;25504;30053];
 [21129;27969;28316;29705;30041;30827;31890;38534;31452;40845;20406;24942;26053;34396;20102;20142];
 [20698;20001;20940;23534;26009;26753;28092;29471;30274;30637;31260;31975;33391;35538;36988;37327];
 [38517;38936;21147;32209;20523;21400;26519;28107;29136;29747;33256;36650;38563;40023;40607;29792];
 [22593;28057;32047;39006;20196;20278;20363;20919;21169;23994;24604;29618;31036;33491;37428;38583];
 [38646;38666;40599;40802;26278;27508;21015;21155;28872;35010;24265;24651;24976;28451;29001;31806];
 [32244;32879;34030;36899;37676;21570;39791;27347;28809;36034;36335;38706;21172;23105;24266;24324];
 [26391;27004;27028;28010;28431;29282;29436;31725;32769;32894;34635;37070;20845;40595;31108;32907];
 [37682;35542;20525;21644;35441;27498;36036;33031;24785;26528;40434;20121;20120;39952;35435;34241];
 [34152;26880;28286;30871;33109;65533;65533;65533;65533;65533;65533;65533;65533;65533;65533;65533];
 [65533;65533;65533;65533;65533;65533;65533;65533;65533;65533;65533;65533;65533;65533;65533;65533];
 [65533;65533;65533;65533;65533;65533;65533;65533;65533;65533;65533;65533;65533;65533;65533;65533];
 [24332;19984;19989;20010;20017;20022;20028;20031;20034;20054;20056;20098;20101;35947;20106;33298];
 [24333;20110;20126;20127;20128;20130;20144;20147;20150;20174;20173;20164;20166;20162;20183;20190];
 [20205;20191;20215;20233;20314;20272;20315;20317;20311;20295;20342;20360;20367;20376;20347;20329];
 [20336;20369;20335;20358;20374;20760;20436;20447;20430;20440;20443;20433;20442;20432;20452;20453];
 [20506;20520;20500;20522;20517;20485;20252;20470;20513;20521;20524;20478;20463;20497;20486;20547];
 [20551;26371;20565;20560;20552;20570;20566;20588;20600;20608;20634;20613;20660;20658;20681;20682];
 [20659;20674;20694;20702;20709;20717;20707;20718;20729;20725;20745;20737;20738;20758;20757;20756];
 [20762;20769;20794;20791;20796;20795;20799;20800;20818;20812;20820;20834;31480;20841;20842;20846];
 [20864;20866;22232;20876;20873;20879;20881;20883;20885;20886;20900;20902;20898;20905;20906;20907];
 [20915;20913;20914;20912;20917;20925;20933;20937;20955;20960;34389;20969;20973;20976;20981;20990];
 [20996;21003;21012;21006;21031;21034;21038;21043;21049;21071;21060;21067;21068;21086;21076;21098];
 [21108;21097;21107;21119;21117;21133;21140;21138;21105;21128;21137;36776;36775;21164;21165;21180];
 [21173;21185;21197;21207;21214;21219;21222;39149;21216;21235;21237;21240;21241;21254;21256;30008];
 [21261;21264;21263;21269;21274;21283;21295;21297;21299;21304;21312;21318;21317;19991;21321;21325];
 [20950;21342;21353;21358;22808;21371;21367;21378;21398;21408;21414;21413;21422;21424;21430;21443];
 [31762;38617;21471;26364;29166;21486;21480;21485;21498;21505;21565;21568;21548;21549;21564;21550];
 [21558;21545;21533;21582;21647;21621;21646;21599;21617;21623;21616;21650;21627;21632;21622;21636];
 [21648;21638;21703;21666;21688;21669;21676;21700;21704;21672;21675;21698;21668;21694;21692;21720];
 [21733;21734;21775;21780;21757;21742;21741;21754;21730;21817;21824;21859;21836;21806;21852;21829];
 [21846;21847;21816;21811;21853;21913;21888;21679;21898;21919;21883;21886;21912;21918;21934;21884];
 [21891;21929;21895;21928;21978;21957;21983;21956;21980;21988;21972;22036;22007;22038;22014;22013];
 [22043;22009;22094;22096;29151;22068;22070;22066;22072;22123;22116;22063;22124;22122;22150;22144];
 [22154;22176;22164;22159;22181;22190;22198;22196;22210;22204;22209;22211;22208;22216;22222;22225];
 [22227;22231;22254;22265;22272;22271;22276;22281;22280;22283;22285;22291;22296;22294;21959;22300];
 [22310;22327;22328;22350;22331;22336;22351;22377;22464;22408;22369;22399;22409;22419;22432;22451];
 [22436;22442;22448;22467;22470;22484;22482;22483;22538;22486;22499;22539;22553;22557;22642;22561];
 [22626;22603;22640;27584;22610;22589;22649;22661;22713;22687;22699;22714;22750;22715;22712;22702];
 [22725;22739;22737;22743;22745;22744;22757;22748;22756;22751;22767;22778;22777;22779;22780;22781];
 [22786;22794;22800;22811;26790;22821;22828;22829;22834;22840;22846;31442;22869;22864;22862;22874];
 [22872;22882;22880;22887;22892;22889;22904;22913;22941;20318;20395;22947;22962;22982;23016;23004];
 [22925;23001;23002;23077;23071;23057;23068;23049;23066;23104;23148;23113;23093;23094;23138;23146];
 [23194;23228;23230;23243;23234;23229;23267;23255;23270;23273;23254;23290;23291;23308;23307;23318];
 [23346;23248;23338;23350;23358;23363;23365;23360;23377;23381;23386;23387;23397;23401;23408;23411];
 [23413;23416;25992;23418;23424;23427;23462;23480;23491;23495;23497;23508;23504;23524;23526;23522];
 [23518;23525;23531;23536;23542;23539;23557;23559;23560;23565;23571;23584;23586;23592;23608;23609];
 [23617;23622;23630;23635;23632;23631;23409;23660;23662;20066;23670;23673;23692;23697;23700;22939];
 [23723;23739;23734;23740;23735;23749;23742;23751;23769;23785;23805;23802;23789;23948;23786;23819];
 [23829;23831;23900;23839;23835;23825;23828;23842;23834;23833;23832;23884;23890;23886;23883;23916];
 [23923;23926;23943;23940;23938;23970;23965;23980;23982;23997;23952;23991;23996;24009;24013;24019];
 [24018;24022;24027;24043;24050;24053;24075;24090;24089;24081;24091;24118;24119;24132;24131;24128];
 [24142;24151;24148;24159;24162;24164;24135;24181;24182;24186;40636;24191;24224;24257;24258;24264];
 [24272;24271;24278;24291;24285;24282;24283;24290;24289;24296;24297;24300;24305;24307;24304;24308];
 [24312;24318;24323;24329;24413;24412;24331;24337;24342;24361;24365;24376;24385;24392;24396;24398];
 [24367;24401;24406;24407;24409;24417;24429;24435;24439;24451;24450;24447;24458;24456;24465;24455];
 [24478;24473;24472;24480;24488;24493;24508;24534;24571;24548;24568;24561;24541;24755;24575;24609];
 [24672;24601;24592;24617;24590;24625;24603;24597;24619;24614;24591;24634;24666;24641;24682;24695];
 [24671;24650;24646;24653;24675;24643;24676;24642;24684;24683;24665;24705;24717;24807;24707;24730];
 [24708;24731;24726;24727;24722;24743;24715;24801;24760;24800;24787;24756;24560;24765;24774;24757];
 [24792;24909;24853;24838;24822;24823;24832;24820;24826;24835;24865;24827;24817;24845;24846;24903];
 [24894;24872;24871;24906;24895;24892;24876;24884;24893;24898;24900;24947;24951;24920;24921;24922];
 [24939;24948;24943;24933;24945;24927;24925;24915;24949;24985;24982;24967;25004;24980;24986;24970];
 [24977;25003;25006;25036;25034;25033;25079;25032;25027;25030;25018;25035;32633;25037;25062;25059];
 [25078;25082;25076;25087;25085;25084;25086;25088;25096;25097;25101;25100;25108;25115;25118;25121];
 [25130;25134;25136;25138;25139;25153;25166;25182;25187;25179;25184;25192;25212;25218;25225;25214];
 [25234;25235;25238;25300;25219;25236;25303;25297;25275;25295;25343;25286;25812;25288;25308;25292];
 [25290;25282;25287;25243;25289;25356;25326;25329;25383;25346;25352;25327;25333;25424;25406;25421];
 [25628;25423;25494;25486;25472;25515;25462;25507;25487;25481;25503;25525;25451;25449;25534;25577];
 [25536;25542;25571;25545;25554;25590;25540;25622;25652;25606;25619;25638;25654;25885;25623;25640];
 [25615;25703;25711;25718;25678;25898;25749;25747;25765;25769;25736;25788;25818;25810;25797;25799];
 [25787;25816;25794;25841;25831;33289;25824;25825;25260;25827;25839;25900;25846;25844;25842;25850];
 [25856;25853;25880;25884;25861;25892;25891;25899;25908;25909;25911;25910;25912;30027;25928;25942];
 [25941;25933;25944;25950;25949;25970;25976;25986;25987;35722;26011;26015;26027;26039;26051;26054];
 [26049;26052;26060;26066;26075;26073;26080;26081;26097;26482;26122;26115;26107;26483;26165;26166];
 [26164;26140;26191;26180;26185;26177;26206;26205;26212;26215;26216;26207;26210;26224;26243;26248];
 [26254;26249;26244;26264;26269;26305;26297;26313;26302;26300;26308;26296;26326;26330;26336;26175];
 [26342;26345;26352;26357;26359;26383;26390;26398;26406;26407;38712;26414;26431;26422;26433;26424];
 [26423;26438;26462;26464;26457;26467;26468;26505;26480;26537;26492;26474;26508;26507;26534;26529];
 [26501;26551;26607;26548;26604;26547;26601;26552;26596;26590;26589;26594;26606;26553;26574;26566];
 [26599;27292;26654;26694;26665;26688;26701;26674;26702;26803;26667;26713;26723;26743;26751;26783];
 [26767;26797;26772;26781;26779;26755;27310;26809;26740;26805;26784;26810;26895;26765;26750;26881];
 [26826;26888;26840;26914;26918;26849;26892;26829;26836;26855;26837;26934;26898;26884;26839;26851];
 [26917;26873;26848;26863;26920;26922;26906;26915;26913;26822;27001;26999;26972;27000;26987;26964];
 [27006;26990;26937;26996;26941;26969;26928;26977;26974;26973;27009;26986;27058;27054;27088;27071];
 [27073;27091;27070;27086;23528;27082;27101;27067;27075;27047;27182;27025;27040;27036;27029;27060];
 [27102;27112;27138;27163;27135;27402;27129;27122;27111;27141;27057;27166;27117;27156;27115;27146];
 [27154;27329;27171;27155;27204;27148;27250;27190;27256;27207;27234;27225;27238;27208;27192;27170];
 [27280;27277;27296;27268;27298;27299;27287;34327;27323;27331;27330;27320;27315;27308;27358;27345];
 [27359;27306;27354;27370;27387;27397;34326;27386;27410;27414;39729;27423;27448;27447;30428;27449];
 [39150;27463;27459;27465;27472;27481;27476;27483;27487;27489;27512;27513;27519;27520;27524;27523];
 [27533;27544;27541;27550;27556;27562;27563;27567;27570;27569;27571;27575;27580;27590;27595;27603];
 [27615;27628;27627;27635;27631;40638;27656;27667;27668;27675;27684;27683;27742;27733;27746;27754];
 [27778;27789;27802;27777;27803;27774;27752;27763;27794;27792;27844;27889;27859;27837;27863;27845];
 [27869;27822;27825;27838;27834;27867;27887;27865;27882;27935;34893;27958;27947;27965;27960;27929];
 [27957;27955;27922;27916;28003;28051;28004;27994;28025;27993;28046;28053;28644;28037;28153;28181];
 [28170;28085;28103;28134;28088;28102;28140;28126;28108;28136;28114;28101;28154;28121;28132;28117];
 [28138;28142;28205;28270;28206;28185;28274;28255;28222;28195;28267;28203;28278;28237;28191;28227];
 [28218;28238;28196;28415;28189;28216;28290;28330;28312;28361;28343;28371;28349;28335;28356;28338];
 [28372;28373;28303;28325;28354;28319;28481;28433;28748;28396;28408;28414;28479;28402;28465;28399];
 [28466;28364;28478;28435;28407;28550;28538;28536;28545;28544;28527;28507;28659;28525;28546;28540];
 [28504;28558;28561;28610;28518;28595;28579;28577;28580;28601;28614;28586;28639;28629;28652;28628];
 [28632;28657;28654;28635;28681;28683;28666;28689;28673;28687;28670;28699;28698;28532;28701;28696];
 [28703;28720;28734;28722;28753;28771;28825;28818;28847;28913;28844;28856;28851;28846;28895;28875];
 [28893;28889;28937;28925;28956;28953;29029;29013;29064;29030;29026;29004;29014;29036;29071;29179];
 [29060;29077;29096;29100;29143;29113;29118;29138;29129;29140;29134;29152;29164;29159;29173;29180];
 [29177;29183;29197;29200;29211;29224;29229;29228;29232;29234;29243;29244;29247;29248;29254;29259];
 [29272;29300;29310;29314;29313;29319;29330;29334;29346;29351;29369;29362;29379;29382;29380;29390];
 [29394;29410;29408;29409;29433;29431;20495;29463;29450;29468;29462;29469;29492;29487;29481;29477];
 [29502;29518;29519;40664;29527;29546;29544;29552;29560;29557;29563;29562;29640;29619;29646;29627];
 [29632;29669;29678;29662;29858;29701;29807;29733;29688;29746;29754;29781;29759;29791;29785;29761];
 [29788;29801;29808;29795;29802;29814;29822;29835;29854;29863;29898;29903;29908;29681;29920;29923];
 [29927;29929;29934;29938;29936;29937;29944;29943;29956;29955;29957;29964;29966;29965;29973;29971];
 [29982;29990;29996;30012;30020;30029;30026;30025;30043;30022;30042;30057;30052;30055;30059;30061];
 [30072;30070;30086;30087;30068;30090;30089;30082;30100;30106;30109;30117;30115;30146;30131;30147];
 [30133;30141;30136;30140;30129;30157;30154;30162;30169;30179;30174;30206;30207;30204;30209;30192];
 [30202;30194;30195;30219;30221;30217;30239;30247;30240;30241;30242;30244;30260;30256;30267;30279];
 [30280;30278;30300;30296;30305;30306;30312;30313;30314;30311;30316;30320;30322;30326;30328;30332];
 [30336;30339;30344;30347;30350;30358;30355;30361;30362;30384;30388;30392;30393;30394;30402;30413];
 [30422;30418;30430;30433;30437;30439;30442;34351;30459;30472;30471;30468;30505;30500;30494;30501];
 [30502;30491;30519;30520;30535;30554;30568;30571;30555;30565;30591;30590;30585;30606;30603;30609];
 [30624;30622;30640;30646;30649;30655;30652;30653;30651;30663;30669;30679;30682;30684;30691;30702];
 [30716;30732;30738;31014;30752;31018;30789;30862;30836;30854;30844;30874;30860;30883;30901;30890];
 [30895;30929;30918;30923;30932;30910;30908;30917;30922;30956;30951;30938;30973;30964;30983;30994];
 [30993;31001;31020;31019;31040;31072;31063;31071;31066;31061;31059;31098;31103;31114;31133;31143];
 [40779;31146;31150;31155;31161;31162;31177;31189;31207;31212;31201;31203;31240;31245;31256;31257];
 [31264;31263;31104;31281;31291;31294;31287;31299;31319;31305;31329;31330;31337;40861;31344;31353];
 [31357;31368;31383;31381;31384;31382;31401;31432;31408;31414;31429;31428;31423;36995;31431;31434];
 [31437;31439;31445;31443;31449;31450;31453;31457;31458;31462;31469;31472;31490;31503;31498;31494];
 [31539;31512;31513;31518;31541;31528;31542;31568;31610;31492;31565;31499;31564;31557;31605;31589];
 [31604;31591;31600;31601;31596;31598;31645;31640;31647;31629;31644;31642;31627;31634;31631;31581];
 [31641;31691;31681;31692;31695;31668;31686;31709;31721;31761;31764;31718;31717;31840;31744;31751];
 [31763;31731;31735;31767;31757;31734;31779;31783;31786;31775;31799;31787;31805;31820;31811;31828];
 [31823;31808;31824;31832;31839;31844;31830;31845;31852;31861;31875;31888;31908;31917;31906;31915];
 [31905;31912;31923;31922;31921;31918;31929;31933;31936;31941;31938;31960;31954;31964;31970;39739];
 [31983;31986;31988;31990;31994;32006;32002;32028;32021;32010;32069;32075;32046;32050;32063;32053];
 [32070;32115;32086;32078;32114;32104;32110;32079;32099;32147;32137;32091;32143;32125;32155;32186];
 [32174;32163;32181;32199;32189;32171;32317;32162;32175;32220;32184;32159;32176;32216;32221;32228];
 [32222;32251;32242;32225;32261;32266;32291;32289;32274;32305;32287;32265;32267;32290;32326;32358];
 [32315;32309;32313;32323;32311;32306;32314;32359;32349;32342;32350;32345;32346;32377;32362;32361];
 [32380;32379;32387;32213;32381;36782;32383;32392;32393;32396;32402;32400;32403;32404;32406;32398];
 [32411;32412;32568;32570;32581;32588;32589;32590;32592;32593;32597;32596;32600;32607;32608;32616];
 [32617;32615;32632;32642;32646;32643;32648;32647;32652;32660;32670;32669;32666;32675;32687;32690];
 [32697;32686;32694;32696;35697;32709;32710;32714;32725;32724;32737;32742;32745;32755;32761;39132];
 [32774;32772;32779;32786;32792;32793;32796;32801;32808;32831;32827;32842;32838;32850;32856;32858];
 [32863;32866;32872;32883;32882;32880;32886;32889;32893;32895;32900;32902;32901;32923;32915;32922];
 [32941;20880;32940;32987;32997;32985;32989;32964;32986;32982;33033;33007;33009;33051;33065;33059];
 [33071;33099;38539;33094;33086;33107;33105;33020;33137;33134;33125;33126;33140;33155;33160;33162];
 [33152;33154;33184;33173;33188;33187;33119;33171;33193;33200;33205;33214;33208;33213;33216;33218];
 [33210;33225;33229;33233;33241;33240;33224;33242;33247;33248;33255;33274;33275;33278;33281;33282];
 [33285;33287;33290;33293;33296;33302;33321;33323;33336;33331;33344;33369;33368;33373;33370;33375];
 [33380;33378;33384;33386;33387;33326;33393;33399;33400;33406;33421;33426;33451;33439;33467;33452];
 [33505;33507;33503;33490;33524;33523;33530;33683;33539;33531;33529;33502;33542;33500;33545;33497];
 [33589;33588;33558;33586;33585;33600;33593;33616;33605;33583;33579;33559;33560;33669;33690;33706];
 [33695;33698;33686;33571;33678;33671;33674;33660;33717;33651;33653;33696;33673;33704;33780;33811];
 [33771;33742;33789;33795;33752;33803;33729;33783;33799;33760;33778;33805;33826;33824;33725;33848];
 [34054;33787;33901;33834;33852;34138;33924;33911;33899;33965;33902;33922;33897;33862;33836;33903];
 [33913;33845;33994;33890;33977;33983;33951;34009;33997;33979;34010;34000;33985;33990;34006;33953];
 [34081;34047;34036;34071;34072;34092;34079;34069;34068;34044;34112;34147;34136;34120;34113;34306];
 [34123;34133;34176;34212;34184;34193;34186;34216;34157;34196;34203;34282;34183;34204;34167;34174];
 [34192;34249;34234;34255;34233;34256;34261;34269;34277;34268;34297;34314;34323;34315;34302;34298];
 [34310;34338;34330;34352;34367;34381;20053;34388;34399;34407;34417;34451;34467;34473;34474;34443];
 [34444;34486;34479;34500;34502;34480;34505;34851;34475;34516;34526;34537;34540;34527;34523;34543];
 [34578;34566;34568;34560;34563;34555;34577;34569;34573;34553;34570;34612;34623;34615;34619;34597];
 [34601;34586;34656;34655;34680;34636;34638;34676;34647;34664;34670;34649;34643;34659;34666;34821];
 [34722;34719;34690;34735;34763;34749;34752;34768;38614;34731;34756;34739;34759;34758;34747;34799];
 [34802;34784;34831;34829;34814;34806;34807;34830;34770;34833;34838;34837;34850;34849;34865;34870];
 [34873;34855;34875;34884;34882;34898;34905;34910;34914;34923;34945;34942;34974;34933;34941;34997];
 [34930;34946;34967;34962;34990;34969;34978;34957;34980;34992;35007;34993;35011;35012;35028;35032];
 [35033;35037;35065;35074;35068;35060;35048;35058;35076;35084;35082;35091;35139;35102;35109;35114];
 [35115;35137;35140;35131;35126;35128;35148;35101;35168;35166;35174;35172;35181;35178;35183;35188];
 [35191;35198;35203;35208;35210;35219;35224;35233;35241;35238;35244;35247;35250;35258;35261;35263];
 [35264;35290;35292;35293;35303;35316;35320;35331;35350;35344;35340;35355;35357;35365;35382;35393];
 [35419;35410;35398;35400;35452;35437;35436;35426;35461;35458;35460;35496;35489;35473;35493;35494];
 [35482;35491;35524;35533;35522;35546;35563;35571;35559;35556;35569;35604;35552;35554;35575;35550];
 [35547;35596;35591;35610;35553;35606;35600;35607;35616;35635;38827;35622;35627;35646;35624;35649];
 [35660;35663;35662;35657;35670;35675;35674;35691;35679;35692;35695;35700;35709;35712;35724;35726];
 [35730;35731;35734;35737;35738;35898;35905;35903;35912;35916;35918;35920;35925;35938;35948;35960];
 [35962;35970;35977;35973;35978;35981;35982;35988;35964;35992;25117;36013;36010;36029;36018;36019];
 [36014;36022;36040;36033;36068;36067;36058;36093;36090;36091;36100;36101;36106;36103;36111;36109];
 [36112;40782;36115;36045;36116;36118;36199;36205;36209;36211;36225;36249;36290;36286;36282;36303];
 [36314;36310;36300;36315;36299;36330;36331;36319;36323;36348;36360;36361;36351;36381;36382;36368];
 [36383;36418;36405;36400;36404;36426;36423;36425;36428;36432;36424;36441;36452;36448;36394;36451];
 [36437;36470;36466;36476;36481;36487;36485;36484;36491;36490;36499;36497;36500;36505;36522;36513];
 [36524;36528;36550;36529;36542;36549;36552;36555;36571;36579;36604;36603;36587;36606;36618;36613];
 [36629;36626;36633;36627;36636;36639;36635;36620;36646;36659;36667;36665;36677;36674;36670;36684];
 [36681;36678;36686;36695;36700;36706;36707;36708;36764;36767;36771;36781;36783;36791;36826;36837];
 [36834;36842;36847;36999;36852;36869;36857;36858;36881;36885;36897;36877;36894;36886;36875;36903];
 [36918;36917;36921;36856;36943;36944;36945;36946;36878;36937;36926;36950;36952;36958;36968;36975];
 [36982;38568;36978;36994;36989;36993;36992;37002;37001;37007;37032;37039;37041;37045;37090;37092];
 [25160;37083;37122;37138;37145;37170;37168;37194;37206;37208;37219;37221;37225;37235;37234;37259];
 [37257;37250;37282;37291;37295;37290;37301;37300;37306;37312;37313;37321;37323;37328;37334;37343];
 [37345;37339;37372;37365;37366;37406;37375;37396;37420;37397;37393;37470;37463;37445;37449;37476];
 [37448;37525;37439;37451;37456;37532;37526;37523;37531;37466;37583;37561;37559;37609;37647;37626];
 [37700;37678;37657;37666;37658;37667;37690;37685;37691;37724;37728;37756;37742;37718;37808;37804];
 [37805;37780;37817;37846;37847;37864;37861;37848;37827;37853;37840;37832;37860;37914;37908;37907];
 [37891;37895;37904;37942;37931;37941;37921;37946;37953;37970;37956;37979;37984;37986;37982;37994];
 [37417;38000;38005;38007;38013;37978;38012;38014;38017;38015;38274;38279;38282;38292;38294;38296];
 [38297;38304;38312;38311;38317;38332;38331;38329;38334;38346;28662;38339;38349;38348;38357;38356];
 [38358;38364;38369;38373;38370;38433;38440;38446;38447;38466;38476;38479;38475;38519;38492;38494];
 [38493;38495;38502;38514;38508;38541;38552;38549;38551;38570;38567;38577;38578;38576;38580;38582];
 [38584;38585;38606;38603;38601;38605;35149;38620;38669;38613;38649;38660;38662;38664;38675;38670];
 [38673;38671;38678;38681;38692;38698;38704;38713;38717;38718;38724;38726;38728;38722;38729;38748];
 [38752;38756;38758;38760;21202;38763;38769;38777;38789;38780;38785;38778;38790;38795;38799;38800];
 [38812;38824;38822;38819;38835;38836;38851;38854;38856;38859;38876;38893;40783;38898;31455;38902];
 [38901;38927;38924;38968;38948;38945;38967;38973;38982;38991;38987;39019;39023;39024;39025;39028];
 [39027;39082;39087;39089;39094;39108;39107;39110;39145;39147;39171;39177;39186;39188;39192;39201];
 [39197;39198;39204;39200;39212;39214;39229;39230;39234;39241;39237;39248;39243;39249;39250;39244];
 [39253;39319;39320;39333;39341;39342;39356;39391;39387;39389;39384;39377;39405;39406;39409;39410];
 [39419;39416;39425;39439;39429;39394;39449;39467;39479;39493;39490;39488;39491;39486;39509;39501];
 [39515;39511;39519;39522;39525;39524;39529;39531;39530;39597;39600;39612;39616;39631;39633;39635];
 [39636;39646;39647;39650;39651;39654;39663;39659;39662;39668;39665;39671;39675;39686;39704;39706];
 [39711;39714;39715;39717;39719;39720;39721;39722;39726;39727;39730;39748;39747;39759;39757;39758];
 [39761;39768;39796;39827;39811;39825;39830;39831;39839;39840;39848;39860;39872;39882;39865;39878];
 [39887;39889;39890;39907;39906;39908;39892;39905;39994;39922;39921;39920;39957;39956;39945;39955];
 [39948;39942;39944;39954;39946;39940;39982;39963;39973;39972;39969;39984;40007;39986;40006;39998];
 [40026;40032;40039;40054;40056;40167;40172;40176;40201;40200;40171;40195;40198;40234;40230;40367];
 [40227;40223;40260;40213;40210;40257;40255;40254;40262;40264;40285;40286;40292;40273;40272;40281];
 [40306;40329;40327;40363;40303;40314;40346;40356;40361;40370;40388;40385;40379;40376;40378;40390];
 [40399;40386;40409;40403;40440;40422;40429;40431;40445;40474;40475;40478;40565;40569;40573;40577];
 [40584;40587;40588;40594;40597;40593;40605;40613;40617;40632;40618;40621;38753;40652;40654;40655];
 [40656;40660;40668;40670;40669;40672;40677;40680;40687;40692;40694;40695;40697;40699;40700;40701];
 [40711;40712;30391;40725;40737;40748;40766;40778;40786;40788;40803;40799;40800;40801;40806;40807];
 [40812;40810;40823;40818;40822;40853;40860;40864;22575;27079;36953;29796;20956;29081]].

(* lib/converters/jisx0208.h:1046-1907 jisx0208_2charset *)
Definition jisx0208_2charset : tab := mk [
 [8561;8562;8568;8495;8780;8555;8542;8493;8825;8543;8544;9761;9762;9763;9764;9765];
 [9766;9767;9768;9769;9770;9771;9772;9773;9774;9775;9776;9777;9778;9779;9780;9781];
 [9782;9783;9784;9793;9794;9795;9796;9797;9798;9799;9800;9801;9802;9803;9804;9805];
 [9806;9807;9808;9809;9810;9811;9812;9813;9814;9815;9816;10023;10017;10018;10019;10020];
 [10021;10022;10024;10025;10026;10027;10028;10029;10030;10031;10032;10033;10034;10035;10036;10037];
 [10038;10039;10040;10041;10042;10043;10044;10045;10046;10047;10048;10049;10065;10066;10067;10068];
 [10069;10070;10072;10073;10074;10075;10076;10077;10078;10079;10080;10081;10082;10083;10084;10085];
 [10086;10087;10088;10089;10090;10091;10092;10093;10094;10095;10096;10097;10071;8510;8509;8514];
 [8518;8519;8520;8521;8823;8824;8517;8516;8819;8556;8557;8744;8558;8818;8747;8748];
 [8746;8749;8781;8782;8783;8799;8784;8800;8762;8763;8541;8805;8807;8551;8796;8778];
 [8779;8769;8768;8809;8810;8552;8808;8806;8802;8546;8801;8549;8550;8803;8804;8766];
 [8767;8764;8765;8797;8798;10273;10284;10274;10285;10275;10286;10276;10287;10278;10289;10277];
 [10288;10279;10300;10295;10290;10281;10302;10297;10292;10280;10296;10301;10291;10282;10298;10303];
 [10293;10283;10299;10304;10294;8739;8738;8741;8740;8743;8742;8737;8574;8571;8573;8572];
 [8830;8570;8569;8554;8553;8822;8821;8820;8481;8482;8483;8503;8505;8506;8507;8530];
 [8531;8532;8533;8534;8535;8536;8537;8538;8539;8745;8750;8524;8525;8513;9249;9250];
 [9251;9252;9253;9254;9255;9256;9257;9258;9259;9260;9261;9262;9263;9264;9265;9266];
 [9267;9268;9269;9270;9271;9272;9273;9274;9275;9276;9277;9278;9279;9280;9281;9282];
 [9283;9284;9285;9286;9287;9288;9289;9290;9291;9292;9293;9294;9295;9296;9297;9298];
 [9299;9300;9301;9302;9303;9304;9305;9306;9307;9308;9309;9310;9311;9312;9313;9314];
 [9315;9316;9317;9318;9319;9320;9321;9322;9323;9324;9325;9326;9327;9328;9329;9330];
 [9331;8491;8492;8501;8502;9505;9506;9507;9508;9509;9510;9511;9512;9513;9514;9515];
 [9516;9517;9518;9519;9520;9521;9522;9523;9524;9525;9526;9527;9528;9529;9530;9531];
 [9532;9533;9534;9535;9536;9537;9538;9539;9540;9541;9542;9543;9544;9545;9546;9547];
 [9548;9549;9550;9551;9552;9553;9554;9555;9556;9557;9558;9559;9560;9561;9562;9563];
 [9564;9565;9566;9567;9568;9569;9570;9571;9572;9573;9574;9575;9576;9577;9578;9579];
 [9580;9581;9582;9583;9584;9585;9586;9587;9588;9589;9590;8486;8508;8499;8500;12396];
 [17274;15415;19324;15974;15152;15973;12860;18772;19775;20514;12591;13166;20515;16420;21058;13654];
 [19002;15975;20030;19010;20516;17254;20517;13946;20518;13405;17200;15463;20519;20520;20521;18229];
 [13655;18231;18019;14403;19251;26953;20522;15976;20523;12853;13925;14448;19561;22054;19824;18045];
 [13349;13621;20524;20525;20027;19773;16744;20527;15222;18035;20530;12606;14431;14430;12390;20299];
 [20298;14899;12321;20531;20532;20533;19252;20534;14450;12391;19314;13692;13693;13694;17506;20028];
 [20535;20536;20537;16205;15674;16206;20542;20540;20541;13656;14883;12912;20539;20538;18985;15174];
 [15173;16958;20543;18773;16487;8504;20544;20546;16997;20065;12362;20545;12862;13892;17255;14191];
 [20547;18212;13419;20548;12363;14432;13420;18810;18482;13657;12913;20583;17729;18284;20550;18492];
 [20066;16173;15175;15223;12864;17489;17186;20554;12364;17507;15675;14900;19748;16974;12863;20553];
 [19774;20549;20551;14958;20552;21796;20560;20563;20561;12866;19003;20555;20559;14451;15176;13350];
 [20564;20556;20067;15224;20557;20562;20565;20558;13857;12365;13858;12865;21797;19321;18798;14452];
 [16175;20023;19032;14136;16933;12900;15699;20569;20574;20572;20567;16943;20570;20573;20571;19037];
 [20568;16174;19315;20575;20576;15652;20589;18256;18742;20584;19056;12854;20588;20582;20591;16722];
 [14404;18268;24647;20590;17757;20579;14454;14453;20577;15450;20585;19055;17229;20581;14193;20578];
 [20586;20580;20049;20587;20289;13926;14192;20592;20593;20597;12366;19024;20596;20595;20599;20598];
 [17508;14194;20600;15429;16934;17509;13942;20601;13622;20602;20604;19253;14182;15153;18551;20603];
 [14917;19779;20606;20771;20605;14916;15741;14137;20772;13903;20769;20770;17967;16764;13859;19277];
 [20773;20029;20774;20777;20775;16718;20776;20778;20780;20779;19016;13623;20782;20783;12847;20781];
 [15476;20786;20785;20784;20566;20787;15742;20788;19749;19545;20790;20789;20792;20791;20793;20794];
 [12404;14389;14139;15676;17275;13860;16488;14455;14702;20796;19528;17734;15225;20795;20797;17758];
 [13173;20798;18046;16692;20800;20801;18476;14456;20283;20802;13862;19004;16950;13937;17717;14195];
 [20803;20804;18018;12639;20807;14973;20806;14918;20808;26222;20809;19265;20810;20811;20812;15977];
 [15436;13351;20815;20813;19517;20814;18778;20816;20817;20818;17759;20822;20820;20821;20819;14947];
 [20823;19562;20068;20824;16424;20825;15706;20826;17276;20031;17760;21061;20827;29733;13893;20828];
 [19294;15720;17020;20830;18020;20831;20832;13102;20833;13863;17996;12666;15696;18465;20834;17761];
 [16207;20835;18988;16474;13346;13353;20836;20838;14138;20837;20083;15721;18493;19020;20839;19832];
 [20840;20841;17790;20842;16425;14974;14196;20843;15177;14703;17510;20845;16935;14959;20846;20847];
 [16688;20844;20849;19254;14692;20848;14197;14942;18285;20852;20850;18811;15978;20859;13156;20853];
 [20851;16719;20855;20854;13124;14176;20860;20013;20856;20861;20858;20857;20047;14457;12867;20084];
 [15733;17752;14693;21026;21027;20069;20267;21029;14458;21028;13103;21030;19286;17468;19750;19033];
 [21031;28757;17968;21032;13354;19507;15905;21033;19047;21037;16426;21034;13904;21035;13355;14126];
 [21038;21039;21040;21041;15451;14459;19550;19560;18039;19057;21042;21043;21045;21047;21046;21048];
 [12861;19276;14972;21049;16729;15906;13865;21050;18523;21051;21052;21053;21054;18724;13928;12389];
 [17983;21055;15677;16489;21057;21056;15907;14433;21059;18494;21060;18524;16948;17006;13864;18030];
 [17201;18286;19278;21062;16490;14133;21063;21064;12588;12405;13421;16936;13649;19825;21067;12855];
 [21066;13866;21068;19569;21069;20050;14460;14390;21070;21072;21071;16223;12601;12638;21073;21074];
 [14391;21075;13678;15154;21076;19316;14901;13658;19751;16720;18495;15485;15687;15464;15477;15734];
 [18496;21079;12611;16721;14461;14405;13927;21083;17185;17022;13867;15908;21084;21082;12868;16998];
 [15416;15179;12582;13168;14694;15178;21085;21086;13641;13126;14695;13640;17503;12581;17969;19518];
 [14625;19833;17735;14462;14127;21095;13923;19274;18525;21094;13406;21089;21090;21092;21093;13659];
 [16225;18989;21091;21087;14435;21088;20260;19058;17512;14434;14704;21096;18013;21100;15486;15478];
 [21103;21101;19491;21098;21107;21102;21105;14406;19519;21106;21108;21110;14960;20290;21099;21097];
 [21109;21104;21112;21283;21114;21118;21281;21115;21310;14953;13105;21113;21285;12406;21284;12325];
 [18762;21282;21116;21111;21117;14920;21286;12407;21295;21287;21288;15909;19305;21293;21292;17711];
 [21294;21291;12596;14902;16176;21289;17762;21290;12322;21300;19747;15911;21306;21305;21296;16963];
 [21297;17007;21302;15910;21299;19556;14140;21303;21304;21301;21307;21298;21313;21318;21314;21309];
 [21319;16689;21321;14626;21311;17277;21315;21308;13357;13422;13157;21316;21312;14198;21322;21320];
 [16723;13642;13868;21317;13940;12612;21326;21324;21543;21329;21323;21327;21325;15180;21328;21331];
 [21336;21334;21333;17202;12869;21330;21332;15912;12595;21335;12894;21346;15996;21342;21340;21341];
 [21343;12605;16697;21337;21338;13178;21345;13423;21348;21344;21347;18990;18005;18488;21350;21349];
 [13125;21351;21354;21353;21352;18233;21355;21356;21358;21357;21360;21363;21361;21359;21362;21364];
 [21365;21366;21367;21368;20805;15484;15181;12915;12408;17220;21369;14884;12367;16222;21370;14407];
 [14705;21372;21371;19040;21373;21537;21374;21538;21539;14199;12640;21540;21542;21541;21544;17754];
 [21545;12341;14943;14141;17231;21546;21547;21549;21550;14948;13905;19255;21548;21551;14913;14627];
 [21555;14885;17203;21552;17498;21556;16226;21554;21557;14143;21558;21559;14628;13120;21561;21562];
 [21563;21560;21553;21564;21565;19300;15979;21567;21568;21566;21570;18232;12392;18774;21571;15997];
 [15417;18269;13424;14955;19289;17970;14200;16975;21569;21572;16964;21573;21574;21576;17513;13358];
 [29729;12641;19059;15980;17736;14950;21582;19005;20061;12916;21578;16698;21581;17763;17737;17764];
 [18489;17485;14921;21577;12662;17718;21579;21575;16208;21583;15694;13869;21584;19048;16765;17478];
 [21586;19279;21587;21592;18991;21591;21585;21588;21590;14886;19017;21593;17221;12917;15981;21595];
 [21594;14696;21596;21598;21597;21600;21589;21602;21601;21599;15182;16209;16724;21603;16444;12397];
 [18276;17499;21605;21604;21606;21607;21608;21609;19025;21610;12870;21611;19772;13104;21065;15688];
 [16959;21612;19563;19508;21614;16999;17719;16960;18775;21615;21616;12667;15418;21617;12368;21618];
 [21619;12642;13425;18016;19060;21623;16725;21622;14144;19291;21621;17765;21625;21624;21627;21626];
 [12668;21628;15913;21630;17189;21629;18995;15735;17755;21793;14629;21794;18209;18526;19537;18213];
 [21803;13624;19781;19503;22060;21795;21798;16965;19256;17738;21799;19301;14922;15914;21800;15184];
 [15183;12345;14408;16427;12369;21804;21805;21802;12600;13359;21801;19525;18737;12328;12409;15185];
 [12370;12323;21810;21808;19516;21811;21809;21807;16177;21806;19034;14436;21815;21816;15915;21812];
 [20268;18252;21814;14887;21817;18776;21818;21813;19515;18270;21819;18738;21820;21824;21821;12871];
 [21823;15419;21822;14201;21836;21829;21826;17252;21825;21827;21828;21830;21831;13426;21833;21832];
 [21834;15982;21837;17500;12613;21835;21838;21839;21842;21840;21841;15186;21843;14630;21844;15226];
 [16952;21845;21846;15194;14631;19538;13608;14409;21847;13144;21848;16953;21849;22051;21850;21851];
 [21852;21854;21855;21856;17008;12583;15465;12354;16727;13360;15413;14632;17766;15649;13361;17256];
 [17514;12344;13625;19061;15426;13650;16491;15420;19752;21857;13660;14923;13106;12643;15916;12872];
 [21858;19782;15689;15460;21859;13427;18002;19497;21860;21861;18777;21863;13352;13943;21862;13362];
 [16178;21867;15137;12873;21866;21864;21868;21865;18219;23629;16179;21869;20032;21870;21872;17278];
 [21871;16419;15227;16976;15479;18805;16492;15437;21873;15917;21874;21875;12371;16954;16210;21876];
 [17971;15918;15919;21877;16493;15920;21878;21879;19552;21880;13894;15650;21881;21882;15452;16172];
 [18036;16212;18552;18210;13897;21883;13679;21884;13950;17999;12848;15187;21885;22050;22049;13949];
 [21886;17720;16944;17739;15432;16728;19834;22052;22053;18006;15155;22055;22056;22057;13428;22058];
 [22059;12844;16699;13412;22061;19496;16978;13145;22063;22065;13407;22062;22064;22067;22066;22068];
 [22069;17981;13870;12901;22070;22075;22073;19063;19062;17767;22072;15700;22071;16242;22076;14954];
 [22082;22083;22077;13107;22078;22087;22086;22085;22081;22080;22084;19064;22091;22088;22090;19826];
 [22089;22079;16243;22092;14903;22093;22094;22097;22096;22095;17768;22074;22103;22099;22098;22100];
 [22101;22104;20070;22105;22102;22106;13408;22107;22109;22108;22110;22111;16494;15651;15716;16739];
 [14633;14904;14634;13680;22112;14905;14410;22113;19494;18243;22114;14635;13356;17191;13906;15188];
 [18779;18497;22115;13429;22118;17441;22117;22116;22119;17515;16227;15189;16458;16979;13602;17442];
 [22120;22121;15983;19257;22124;22123;22122;18813;22131;19290;22125;22127;19307;22126;22128;18472];
 [22129;19006;22130;13363;19007;18223;22132;22133;14636;13364;22134;14392;19780;19753;13430;22136];
 [17443;14637;15921;18527;15922;15736;17516;19065;17721;14638;18780;22137;17753;14914;14411;17517];
 [12355;15726;14639;19783;22138;22139;18257;22140;20087;20269;22142;22141;13127;22305;22308;22309];
 [22307;18752;15923;22311;22310;22306;22312;22313;22314;22317;22315;22316;22318;12644;17518;22319];
 [14202;12918;18230;22320;18043;19035;22321;20270;22322;19008;22325;20513;20529;15408;18037;22326];
 [13661;17444;12410;22327;18982;14640;17232;17519;19567;14393;14412;22328;22329;22335;15461;17445];
 [13871;22330;18731;17222;22331;22332;13872;22333;22334;22336;17782;22337;22338;22339;22324;22323];
 [22340;14145;18727;14924;18743;17446;18763;22341;15924;12614;22342;22343;19570;18528;22346;12669];
 [16428;22345;22344;14146;16980;22350;22348;22347;20007;14437;15737;22349;17740;15678;17984;22353];
 [22352;22351;22354;14438;22355;18812;15707;22356;18553;17985;17447;17712;22357;13611;16180;18732];
 [13431;18214;22358;15190;19258;19259;12670;22363;17257;22360;12919;22573;22362;18224;22361;22359];
 [14714;22365;22371;22377;22369;17756;22374;18781;22368;22373;20071;15191;16981;22366;13662;22376];
 [16429;12645;22370;12920;22375;13873;22372;22378;22380;22390;22388;22385;22384;20088;22386;13874];
 [14641;15738;22393;22379;22383;22367;12922;22387;22389;17233;14888;12856;22381;22392;22391;13875];
 [16937;13158;14147;22382;22394;22397;22561;15421;22567;17520;22395;22565;12921;22563;22564;22398];
 [22562;14439;19754;13365;12633;22566;18234;12333;18529;22364;22572;22576;19557;22569;17769;22574];
 [15984;22575;18007;20295;22571;22577;14715;16459;12372;22570;22568;16730;22396;15156;16966;22589];
 [16731;22584;22581;22582;15462;22585;22588;22583;15653;22586;22580;19580;19579;22590;22591;12373];
 [22579;13938;12326;13366;22587;22595;22594;22599;22600;22598;22601;22593;22597;22602;22603;22592];
 [15228;22596;16982;14642;22578;16181;22616;19049;22606;22607;22608;22615;22614;19325;13367;22612];
 [14149;13108;22609;20024;22611;12374;22613;22604;22610;22617;14148;22605;19805;19755;22620;22624];
 [16766;20089;22625;22622;22619;22618;22623;18992;17972;14150;22626;22621;22627;14203;12849;22635];
 [13368;22633;22634;14889;22632;22630;22629;22636;22628;22638;12923;22640;22639;17448;22643;22641];
 [22631;14204;22642;22646;22645;22647;22644;22648;22649;22650;19050;22652;22651;15679;16430;12902];
 [12924;22653;12351;16460;22654;27715;22817;14177;22818;16495;22819;22820;13626;22821;22822;22823];
 [16983;14413;19553;19260;15722;22824;16496;28221;18530;15466;14925;22825;16967;18983;17009;22828];
 [22826;22829;22827;22830;18993;12343;18782;18531;22831;22834;15925;13627;22832;22839;15926;22833];
 [18244;19806;22835;22836;22840;17770;22837;14643;16478;22854;18484;17010;18532;23085;19066;17521];
 [19317;22843;12833;17258;22852;17204;22846;22853;22848;22855;22851;22850;18287;22844;12925;22842];
 [13681;17011;22838;22841;14644;16475;15927;22849;18258;13682;13128;13159;16161;22857;22862;22858];
 [14205;22863;15138;14697;15654;22845;15229;22860;15192;22861;12356;22856;17449;13683;13876;22859];
 [12327;14915;16182;17522;18516;22865;16734;16938;15147;22866;22868;22864;19041;17469;16732;19067];
 [15438;22880;22879;16248;14206;22873;15929;18024;18225;22871;16733;15480;22876;15928;22870;22875];
 [18259;22869;14113;13149;22877;20011;14926;17205;22874;16476;14645;16228;12646;16700;22872;13637];
 [14151;17487;22878;16735;22881;22883;16951;22889;22884;22886;18753;17523;22887;19756;19784;13369];
 [12334;22885;22882;13432;12647;22888;19785;22892;16955;22899;22893;22890;22897;22867;22894;22898];
 [18498;17771;22891;22895;14152;14961;16477;22903;17702;22900;19296;22901;22902;19534;16418;14178];
 [22909;15157;22906;22905;18226;17973;17713;22907;22908;18799;18245;15139;16497;19280;13129;23077];
 [22910;19786;23079;23075;23076;16736;23074;22847;23078;23073;23083;23084;17703;23086;15140;23081];
 [13628;23087;23080;23091;23090;23089;23092;23094;15985;23093;23097;23095;23096;22896;23099;23098];
 [22904;23100;23088;15193;23101;23102;23104;23103;23105;12926;14646;19068;16431;14414;23107;23110];
 [18770;13663;23109;23108;18260;23111;13877;23113;23112;13370;15158;18008;14153;16244;23114;16432];
 [17704;18783;23115;23116;23117;19000;21853;16454;18764;14936;18533;18499;17741;20033;23119;15440];
 [23120;12342;13908;16461;18784;23121;15170;17223;15195;16183;23122;19069;12663;15196;23125;23123];
 [23126;20025;23124;16507;23127;16946;23128;13434;23130;23129;23131;23132;13435;18044;17206;13676];
 [15197;16737;15708;12336;23133;12834;23137;14647;23136;14891;15930;23135;15931;19520;14890;12375];
 [16462;23142;16433;12615;15701;19302;14962;15932;16423;23141;23139;23140;17259;23334;23146;15230];
 [14648;23144;23145;16184;23143;15151;23148;23147;23152;23153;23149;13090;23150;23151;18517;18785];
 [14154;23154;16434;15933;17234;13895;23155;23159;12875;23156;23158;23157;15723;17224;12357;23160];
 [23161;17450;20081;15171;19051;19261;23330;23163;23166;23165;23162;23329;18014;23164;23331;15724];
 [23332;19787;18296;23333;23335;23336;23337;13898;12616;14649;23338;23339;15729;16738;21080;16702];
 [16701;16984;14919;20594;14190;19757;19070;18814;23340;14963;17471;23341;20271;19262;17451;23342];
 [13436;23343;23344;19546;19492;19318;19292;15141;23346;15467;19281;23348;23351;23350;13433;13664];
 [23347;23349;23352;16249;19835;12361;14944;16956;15453;15987;23355;17742;23353;16939;23354;15986];
 [19549;23356;23357;19816;23362;14650;18261;23359;17772;23134;23138;13647;18247;23361;15934;18500];
 [23367;18554;23358;23364;23363;16463;19309;20051;19303;12876;15198;20296;23366;16245;23365;23360];
 [14415;23372;23370;12877;23368;23374;23380;16968;19009;23382;18722;23381;18288;19263;13371;16503];
 [15680;17491;19758;23377;23376;23378;23375;23383;23373;23371;23379;23369;17260;19576;15430;14964];
 [14906;19311;13121;17486;17994;12617;16498;16436;14122;23385;14651;13180;23387;13172;23393;23390];
 [16499;13131;14892;13130;14927;23388;14181;14155;17773;23386;12358;23389;23391;13901;14124;13372];
 [13643;23394;14969;19313;15159;23395;18736;23407;12851;23396;23413;23397;20034;23404;18271;23412];
 [23399;12340;23401;14652;23403;23402;23398;23409;15935;21613;14440;19836;23400;17524;13091;14893];
 [23392;23408;13153;23406;23410;17774;13438;23602;19529;23415;13437;23422;19264;23585;23587;23591];
 [23417;17194;17775;23595;23420;23592;23586;16185;23596;16435;23594;13373;20304;23414;23590;12376];
 [23416;19514;23421;16162;17479;23411;23589;16250;23599;13169;14369;23601;23418;23600;23593;23419];
 [23597;23598;23615;17998;23588;23611;23613;17496;19788;18806;23608;16970;23614;16703;23605;23618];
 [23617;18031;23616;18026;23620;23607;13896;23610;15709;18272;23612;13899;23604;23606;23603;20272];
 [13146;23609;23619;13109;14951;12637;23636;20273;23639;16186;23638;23637;23634;23622;23651;23621];
 [23640;23632;23627;23624;23625;23633;29730;23630;14653;17480;16740;23628;23623;23626;19789;19306];
 [23631;23641;23649;23642;23655;23653;23648;23647;17488;16741;23645;23643;23650;23656;18549;23662];
 [23657;23660;23654;17268;18744;23644;23652;15936;19535;23672;23659;14370;12835;13151;23635;15937];
 [23664;23671;15481;13170;17198;23661;23666;23670;13878;13644;23668;13601;17995;23667;23669;23663];
 [23665;13152;17225;23676;23674;14441;23673;23841;23384;23675;23677;23678;23852;23848;23405;23847];
 [23846;23843;23658;23845;23844;23850;20262;23853;13947;23849;23851;18471;23854;23858;23855;19827];
 [23856;23646;23859;23860;12597;23862;14183;15393;13909;12836;19807;23864;23863;23866;13629;13910];
 [13374;23869;23868;23870;12878;17207;23871;13375;23873;23872;23874;23875;23876;15199;16437;14881];
 [18800;19042;20292;15221;14928;20082;23877;23878;15200;23879;23880;23882;23881;19288;15710;15468];
 [15172;23883;23885;16163;23884;23886;23887;23888;23889;23890;23892;23891;23893;12837;17226;23894];
 [15142;13132;23895;17730;21580;13603;23896;23897;19052;19304;17991;23898;18534;18555;19539;23899];
 [23901;23900;23903;23902;23905;15201;19505;23906;23907;13604;23908;23910;23909;16229;18745;12618];
 [18501;17525;15681;13665;18502;15406;23912;13376;12664;18034;23911;14654;17235;23913;23921;23914];
 [16961;13666;23922;14184;13605;23920;23918;23915;19808;17472;18009;23916;23924;23923;14115;12845];
 [14907;23917;23919;19287;17012;19319;23932;23933;12879;18984;19581;24097;15395;15938;23928;23934];
 [12648;13879;23925;23930;16500;18289;18535;23927;19233;23929;24100;24098;23931;19234;18248;13667];
 [17701;17261;24101;24099;16985;23926;12619;19790;24112;24111;16502;24108;19820;17974;24102;17477];
 [12620;14655;24105;15655;24110;24109;24104;24107;13160;24106;18249;20014;15988;16501;24118;24116];
 [18765;24113;24115;12602;14656;20274;13117;18786;19809;13092;16187;24117;24122;15939;19760;24119];
 [24114;24120;20062;17779;17986;13110;12629;24126;24129;20035;19812;24136;24130;24127;20052;24133];
 [15690;24135;24140;17777;24138;24132;17208;24139;24128;24134;24141;12412;24131;24142;16188;15711];
 [18981;14894;24123;24137;17722;16438;13161;14929;15940;24125;15682;14156;24124;24146;15725;14394];
 [24161;24155;13684;17743;24150;24159;12335;12594;12857;24152;16940;24143;24145;14657;24162;24157];
 [24149;24156;19499;24154;24158;14416;15941;17209;24148;19759;24151;24144;17778;24147;24153;20305];
 [15422;19326;24163;18478;24175;14395;15712;24165;20015;14658;24178;12398;24176;24164;24170;24172];
 [19791;24167;17710;24169;24177;24171;19527;24166;15394;24190;13162;24168;24173;24174;17004;16986];
 [24182;24188;24186;17705;24355;24183;24184;24160;13689;18746;15423;14711;20275;24180;24354;12649];
 [16742;18297;13377;20090;19489;17490;24187;24189;16690;24353;24185;24179;13379;14185;24367;24362];
 [16504;13155;15713;24371;24364;17452;24361;17497;24396;24358;24357;24366;24360;24359;24365;16417];
 [24356;24368;24369;13378;24374;24373;24375;24378;17731;24372;24376;14179;17017;24370;18235;24377];
 [24382;24380;24383;24386;24379;14698;18216;24121;19828;24381;24385;17013;24384;24363;28521;24389];
 [24393;24391;24387;24388;24392;24390;18766;24398;24395;24394;24397;18004;24399;17269;17005;16421];
 [24400;24402;24401;24181;24403;18023;24404;12880;17780;13093;13668;15454;14930;20263;16230;12650];
 [24406;24405;24409;17210;24412;24407;24411;24410;17728;12377;20085;24414;12584;24416;24415;24413];
 [24408;19235;24418;24417;12651;24420;18994;24419;19509;15943;16691;15942;20091;24426;16505;24422];
 [24427;12652;24425;18273;24421;24424;15944;18513;24428;15441;16506;24431;24423;14119;24429;19792];
 [24432;29734;15695;24433;24434;18222;24436;24437;18227;17781;24439;24441;20053;24438;24440;12653];
 [24435;21339;24442;16743;15160;24444;24443;16164;21081;24445;24609;24430;24446;24610;18298;24611];
 [24612;24613;24614;17502;24616;24615;24617;24618;15455;18787;19564;24619;24620;16726;15396;24621];
 [24622;24623;19026;18503;24624;18263;17453;24625;12903;13677;19526;19510;12852;20276;19282;18986];
 [16439;24626;17987;14371;24627;14932;24629;24628;24630;24631;24632;13630;24633;24634;14372;18504];
 [24636;15989;24635;13880;24637;24639;24638;24640;14417;24641;13929;16704;14717;24643;24644;24642];
 [15469;17992;13881;24646;17196;24645;20277;18274;24649;24651;24648;19540;24650;24652;20036;24656];
 [24655;17270;18221;14373;24654;24653;19761;19762;24657;12654;14710;15202;24658;24659;24661;15683];
 [24663;24662;24664;13133;24666;24665;24668;24667;14396;20008;13900;12838;13930;13409;20072;24670];
 [24672;24673;12881;24669;15161;17473;24671;24676;15470;24674;14142;18505;24675;24702;24681;14397];
 [13669;24678;19837;20016;17014;24680;24682;20054;13911;18556;18250;24683;24685;24688;24684;24687];
 [14442;12621;24689;16240;24686;20060;24692;29732;24690;24693;24679;24691;14908;24694;24695;19838];
 [24696;24697;24677;24698;13380;15397;24699;24700;24701;12603;24865;18747;24866;13348;24867;24868];
 [24869;24871;24872;24870;18771;24874;24873;24876;24875;24877;24878;24880;24879;14713;24882;24881];
 [13381;16211;17724;24883;16440;15162;12665;24884;19793;19043;24885;17732;19763;14659;16189;17227];
 [21044;17454;12904;24886;24887;24892;24890;24889;23106;13094;24888;12378;18474;18506;20017;24893];
 [24891;17244;16422;18475;18733;24895;20012;14157;24896;24894;18518;24897;24898;12379;15990;24903];
 [24900;18029;24899;13606;24906;24901;24902;24905;24904;18725;16706;16705;13631;24907;24908;24909];
 [24911;24910;12630;24919;18536;24913;24915;24917;16190;24918;24916;15424;24912;24914;18754;15945];
 [24921;24920;24922;15398;14895;17783;24923;17483;24925;20001;24924;16745;24930;24932;24933;17236];
 [24931;24928;24926;24927;24929;24936;24934;24935;24937;24939;24940;24941;24942;24938;24944;24943];
 [24945;20037;24948;24946;24947;13410;19582;19018;24950;24949;24951;24952;24956;24953;24954;24955];
 [24957;24958;25121;25122;25123;18479;17744;25124;18290;18740;25125;25126;17706;13095;14660;25127];
 [25128;25129;15145;25131;25130;25132;25133;18537;25134;25135;29545;25136;25137;25138;15150;25139];
 [18262;19295;12622;12631;25140;25142;25141;17776;16441;23865;25143;19521;25144;13382;18519;25145];
 [25146;25147;19548;19541;17470;16746;25149;15714;15946;25152;25151;25150;18557;13383;14377;25158];
 [25155;16191;19506;25154;25156;25157;25153;25159;25160;17455;13411;17253;25161;25162;25165;16231];
 [17988;25166;19283;25163;25164;25169;25168;25167;25171;25170;25172;25174;25173;19021;15702;20038];
 [25175;17975;25176;25177;25181;25179;25180;25178;25182;25183;25184;25185;19511;25186;19568;25187];
 [17230;18282;13931;17211;25188;13882;16464;25189;14909;25190;25191;14374;14933;25193;17750;14934];
 [13646;19236;18251;17751;14684;25195;15947;20018;14661;14375;18467;25197;25199;14443;25198;17526];
 [25201;13111;25196;18538;12592;14956;20306;25200;25202;19019;16473;25204;25205;25203;13134;25211];
 [25210;15399;25212;25207;25213;25208;18520;25206;25209;25378;25377;19297;25214;12395;25380;25379];
 [15948;25381;16707;25383;25382;25384;25192;25194;25386;25385;15400;20073;15442;25387;14135;13632];
 [13607;15203;19764;25393;25392;16708;25389;25391;15691;16192;25390;25388;18218;15949;18748;14935];
 [17784;25394;25395;25417;13912;20285;16693;25396;12882;17527;18977;25397;13690;25398;25400;25401];
 [18217;25402;25403;25404;13913;12883;17989;15656;15204;25405;15657;12874;18755;25406;18539;16709];
 [25409;25410;18281;16193;25407;17249;25408;15950;12380;13609;25411;17528;25412;16455;19501;18723];
 [25413;25414;17237;20039;25416;25415;15471;25418;12400;25421;25419;12884;14158;25420;14662;14706];
 [19046;25422;19284;25424;16465;12623;12858;12332;25423;25425;25426;15991;25427;13135;25429;14186];
 [13670;25430;13941;25431;16508;17997;16480;14965;25432;17250;16747;25434;25436;25433;25435;14114];
 [25437;14118;13671;19794;25439;25440;12590;25443;13174;25442;25441;25445;25438;25446;20009;25447];
 [25448;21620;25450;25449;25451;25452;20021;25453;28783;15951;25454;25455;15703;17976;25456;17192];
 [25457;17212;25458;13861;20799;17245;15411;13384;25459;25634;25462;13672;25461;25636;25460;15952];
 [25464;25465;17707;25466;13150;16218;18788;25468;17000;25463;25467;25469;14971;25638;18734;18470];
 [17785;13914;25637;25635;18485;25470;17246;17787;17786;14966;25656;25640;25642;25645;25646;25643];
 [25644;25641;25639;25633;19023;12885;25653;25650;25655;25654;18291;19495;15163;25648;25657;25652];
 [25651;25647;25649;13385;17213;16509;18466;25662;18468;16481;25659;18511;25663;19027;17243;25658];
 [25660;25661;25664;15428;17990;25669;25668;25665;20278;25674;25678;25675;25671;25672;25677;25666];
 [21077;25673;25667;25676;25682;13386;25679;25680;25681;25684;25683;18550;25685;20092;19053;25690];
 [25687;25686;16466;25689;25691;25688;25695;25692;25693;25670;25694;25696;25697;19014;25698;19554];
 [13902;14121;25699;18996;16232;19504;25700;20019;18292;16710;18228;15693;12352;25705;25703;25701];
 [13345;15953;25706;25704;25702;25710;25709;25708;25707;25711;25712;16442;25713;25715;25714;14418];
 [16696;25717;17788;25716;25718;18997;16748;14663;25719;20040;25721;25722;25723;25724;15205;25725];
 [14159;13674;13610;25889;19571;14664;25726;25892;19558;18236;18739;15715;25891;15443;14665;15206];
 [13673;18998;25890;16711;19266;14967;15207;17501;25895;20063;14937;25896;16194;25898;15954;14896];
 [25897;15658;14398;16712;25893;25899;25894;14160;25902;25906;14187;25901;25910;14666;19821;12348];
 [25907;13675;25904;25905;17789;25903;25900;13096;16484;14376;25912;25909;25911;25908;14161;16947];
 [25913;16750;25926;25922;25916;25920;15482;12381;25915;25923;25927;14667;19542;17494;25917;25925];
 [25914;17214;25919;12349;19530;25918;13915;18540;16749;20048;15727;25966;25928;16510;25924;25929];
 [25931;17529;25934;25930;19028;13387;19531;12382;25933;20093;25932;12655;18028;25935;25942;25936];
 [25943;25939;18299;15434;25941;25938;25944;25937;15684;19237;15692;25940;25952;25948;25951;25949];
 [25953;25947;25921;16467;18507;25950;25945;16673;14162;15659;16165;16694;25956;25958;25959;25955];
 [25957;25946;25954;25962;25961;19322;14123;25960;25964;25963;25967;25969;15164;25965;25970;25971];
 [25972;25978;17723;25974;25973;25975;25976;25977;25979;25980;13388;25981;25982;26145;26146;26147];
 [26148;26149;26150;26152;26151;26153;26154;26155;26158;26156;26157;14945;14163;17238;18483;15728];
 [18253;18541;26159;22637;26160;26162;19813;26161;26164;26163;19795;26165;18558;26166;26169;26168];
 [26167;26170;14130;16674;13633;26174;26171;26172;26175;26176;26173;12585;12839;26178;26179;26180];
 [19810;15660;26182;26181;16233;26183;26184;26185;13413;13389;26186;26187;19293;19811;19796;20279];
 [14669;26190;15444;26189;26191;15401;16977;26192;14668;19543;26193;26194;26195;26196;26197;15402];
 [19565;26199;17215;26198;26201;26200;26202;16443;26203;26204;19001;26205;16751;26206;26207;20094];
 [26210;26209;26208;17456;26211;16166;26212;26213;20280;26214;26215;26217;26216;18469;18041;20286];
 [18473;26219;15955;18730;26220;26218;13390;14420;15208;18542;14378;19267;26223;26221;14670;14671];
 [12393;14952;18265;12383;26228;17216;18264;16987;26230;26226;26229;26224;26227;19238;14421;12413];
 [26225;26232;26233;17977;13883;26406;18237;15209;13884;16456;20294;19502;26231;16468;13651;26234];
 [26236;26235;26237;17190;18238;17457;26403;26402;26238;16213;18789;26405;26404;14672;20307;26421];
 [26409;26410;15472;26408;14712;26407;26411;17458;18978;16675;16988;26415;26416;26412;26413;26414];
 [14673;26422;26418;18790;19308;18728;26417;26420;26419;19268;26423;26424;16695;26425;26427;26431];
 [26428;26426;18239;26429;26430;12850;26437;26432;26433;26434;16929;26436;26435;26438;26439;26440];
 [16195;12905;26441;20055;15403;15661;15210;17239;26442;26443;12593;26444;26445;26446;26447;26448];
 [13885;23082;26449;16485;26450;15435;26451;20528;26452;19038;13404;16676;15704;18801;15662;26453];
 [14674;26454;18508;26468;26456;16969;18293;14399;26455;16677;26457;17530;26459;26458;26461;26460];
 [26462;26464;26463;13391;26465;26466;26467;14897;20041;26469;16167;12656;26470;26471;26472;12402];
 [26473;26474;18791;15431;26476;13097;12338;26475;26478;18254;16196;12886;19239;14173;13916;26477];
 [12906;13347;12657;26482;20074;16989;18756;26494;12887;26492;26490;26481;26479;26480;15459;13932];
 [17271;18001;12625;26484;26483;26489;26485;26488;19536;26487;12888;13181;26491;26493;14164;26659];
 [26668;26669;12331;26676;12401;26667;26666;26661;26660;26658;26657;17251;17019;26663;26662;26665];
 [16752;14165;12609;26664;14675;16753;26682;26683;12889;12846;26680;26670;26678;26685;26679;26677];
 [26486;26675;26671;13392;26673;26684;26674;26686;26672;18300;19817;26681;26703;26695;16251;13638];
 [13917;26690;12891;15956;26693;14938;17745;26698;19054;26689;12890;14422;18729;26699;26687;26696];
 [26706;26691;26692;17978;26697;26694;19240;26700;12384;26688;26702;26701;18283;26708;26719;13182];
 [26722;26704;26709;19822;26718;19797;20010;17272;13163;18802;26724;17953;12337;26717;26713;16754];
 [26707;26715;26720;18220;12330;26712;26721;18808;26716;26711;15957;15663;15404;19544;18759;26727];
 [26736;26714;13175;15992;26725;26730;16755;26726;26733;17247;26734;19798;26723;13112;26729;26732];
 [19500;26735;26728;26731;19241;20257;26739;26746;26738;15427;26705;19022;19490;26745;26744;26740];
 [26741;12598;26743;26737;17493;26742;12414;16930;19011;26747;26913;18521;26750;15958;15433;26915];
 [13886;26916;18809;26749;26710;26748;20303;17954;18803;26923;26929;26930;26917;18294;26927;26919];
 [26921;26931;26920;26924;12658;18021;26925;26928;26918;16678;26922;15143;16197;14128;19572;19577];
 [15730;26935;26933;20302;26932;19829;26934;26936;26937;26940;26938;17955;26939;18509;26926;15731];
 [26941;26946;16756;26945;26914;26947;16713;26942;26944;26943;23857;23842;26949;26948;19830;25148];
 [26950;26951;26952;14423;13652;26954;20829;13685;20026;13939;26955;26956;17262;26957;18042;12346];
 [12899;26962;26963;26958;15165;26959;18242;26960;26961;26971;26965;26968;26964;26966;26967;15448];
 [26969;17217;14166;13122;26972;13119;26977;26973;26976;18490;26974;26975;18760;18522;26978;17021];
 [26988;26984;12907;26982;19242;26983;26980;26981;26986;26989;26987;26985;26979;17240;26996;19498];
 [26994;26995;26990;26992;26993;26991;16486;20281;27000;27001;27169;16170;27003;27006;26998;26997];
 [27170;12892;27004;27171;27005;27002;17459;26999;18280;27175;19771;27174;27173;27182;27176;27184];
 [19814;27187;27178;27179;27183;27186;27185;27177;27180;27197;27190;27188;27189;27194;27195;13098];
 [13634;27193;27172;27192;27196;27191;27198;27200;27199;27202;27201;26970;27206;27203;27204;27205];
 [27207;14188;27209;27208;15664;14676;24103;27210;15697;13113;27211;12626;15959;27212;14677;27213];
 [12385;18749;27214;16234;27221;27218;17263;27219;27216;13918;27215;27222;14134;16990;27228;27224];
 [16949;27223;27226;27217;27227;27229;18543;27225;27230;27232;14419;27220;12353;27231;14939;20086];
 [27233;27234;16757;20002;27235;19765;27236;27237;19044;27238;14912;20003;27243;27244;15960;27242];
 [19815;27239;27241;16445;16254;27240;27245;18979;27247;27246;13164;19243;27248;27260;27250;27251];
 [27252;27253;27257;27258;27256;27254;27249;27255;27259;28727;12840;27262;13919;27261;27426;27425];
 [27428;27427;27429;15665;27430;27431;27432;16446;19799;27433;18980;18246;27434;27435;14379;13612];
 [27436;15211;18241;27437;13136;27438;27440;19831;27439;16198;27441;27442;27443;13393;27444;27445];
 [27446;27447;13137;27448;27449;27450;12914;16168;27451;27452;27453;14400;17531;27454;14167;16214];
 [27457;17956;27456;14129;27455;17015;13613;27458;27459;15961;14189;27460;19244;16479;13686;19573];
 [16714;27461;16199;17264;15962;27462;27465;27466;14910;16962;27464;15963;18750;27463;15212;12627];
 [27470;14168;15214;15213;20301;27469;27468;16679;13645;20291;13114;15964;27467;27472;27473;27471];
 [14424;19776;15215;18215;27476;16448;17218;19766;27479;14444;16447;27475;27480;14445;27477;27478];
 [27474;16482;17993;17199;12893;18544;13635;17460;27483;27481;17228;16449;13394;27482;16219;20042];
 [20288;27484;27495;17461;27494;27491;27499;27492;27488;17532;27487;27485;19745;15216;27489;27486];
 [27493;15732;14401;17018;19269;12634;12386;17957;27497;27496;18022;27501;27490;27500;27502;14380];
 [27498;14678;15445;27503;19800;27506;27509;27507;18741;27504;13920;27508;27510;27514;27511;27513];
 [27512;27515;15409;27517;27516;18792;27681;14169;27518;27682;27683;13636;26177;15993;27684;14446];
 [27685;27686;15166;23118;27687;27688;15666;27689;27690;27691;27692;27693;17195;27694;27696;27695];
 [17958;27697;19245;27698;27699;27700;27701;18010;15965;27702;14699;20526;27703;27704;18751;27705];
 [27713;27706;27708;27707;27709;19270;27710;27711;27712;27714;13101;17511;18793;14946;14679;18767];
 [12895;18510;27717;13395;16469;27716;27721;17273;19555;27719;27720;13614;27722;18275;16991;18545];
 [17725;27718;19271;12908;27724;20264;17474;20293;15217;27723;16945;27740;16680;18040;18768;27727];
 [15167;15218;15966;18277;14381;27726;27725;18794;15425;17746;27729;27730;14680;27728;27731;27732];
 [27734;16931;27733;13414;27736;27735;27737;27739;27741;27742;16470;15439;27743;13138;27744;16758];
 [27745;27746;18795;13615;27747;17462;12635;27748;15473;16246;16941;27751;27750;27749;27757;27755];
 [27752;27754;27753;27756;13687;27760;16471;27761;14425;27758;27759;20265;17463;16681;27762;27765];
 [27763;27764;19801;17959;27768;27766;27767;27769;27945;27772;27773;27771;27770;17533;27937;27941];
 [27938;27774;27939;27940;27947;27942;16472;27944;27946;27943;27949;15667;27948;27950;27951;27954];
 [27953;27952;27956;27955;19574;27958;27957;27959;27960;27962;27961;16200;27963;13933;27964;27966];
 [27967;27968;27965;27969;15446;27970;13616;14131;14382;27971;18032;17726;27972;27975;15412;27974];
 [27973;14170;27976;13139;27978;14940;27977;27986;27980;27982;19045;27979;27981;27985;27983;13617];
 [27984;27987;18266;20056;15668;27988;19746;27990;27989;27993;19777;27992;13165;27991;27996;27995];
 [27994;17714;27997;27998;27999;14700;14117;28000;28001;28002;16201;28003;15405;28004;28005;21025];
 [20862;28006;25968;28007;17188;16171;18240;28008;19029;17492;14718;17193;12586;19320;16215;14174];
 [13921;19030;28009;28011;28010;12896;18038;28012;18295;17715;28013;15698;28015;19522;28030;28017];
 [28018;17481;16992;16759;17960;28016;13653;28025;28022;28197;17961;17248;28019;17534;17747;28020];
 [28024;16224;18279;17484;16450;28023;16942;16932;28021;12329;20258;28026;16993;15669;16202;28028];
 [28027;12399;28029;18735;28199;18011;16235;17241;13944;28198;19767;12607;19031;12897;28193;28194];
 [28195;28196;17979;17187;12387;28200;28201;29731;16957;28202;12659;16716;14383;19802;28203;17708];
 [16760;15447;28204;28207;15717;28205;16683;16682;12388;20043;28209;18546;28211;28210;28208;25444];
 [13396;28014;28213;28212;28214;19768;18017;19246;28215;15449;28216;28217;28218;17697;12394;14681];
 [20282;28222;14132;28219;28220;18804;13140;19769;13887;17748;28223;28224;28225;17698;28227;28226];
 [18003;28228;15670;15456;18267;17265;15474;16236;28229;28230;16221;28231;28232;28233;19823;15671];
 [28235;28234;14682;14707;15168;28238;15718;28237;28236;17001;14447;16451;18480;15673;28239;15967];
 [28242;28240;28241;28244;28243;15994;28245;28246;28247;18512;14931;15457;28248;28249;20004;15685];
 [19566;20044;28250;13922;28251;17699;28254;13176;16203;28252;28253;17504;19285;13948;28256;28257];
 [28255;28259;18015;13123;28263;28260;28262;28258;28495;28261;20075;14426;28271;17716;28266;28269];
 [28267;28272;28273;28265;28278;12660;28264;18477;28268;15968;14683;19272;13924;15686;17980;16685];
 [28276;28270;28275;19523;17464;28277;28274;16684;28281;28280;28279;19247;15739;28282;19039;12628];
 [18758;17266;13688;28284;14685;15148;28283;16237;16238;28449;28451;15995;28450;28452;13907;18757];
 [15458;20259;28286;14968;20287;28454;28453;28455;28285;18025;17749;17495;28460;17219;28456;28457];
 [14125;28459;14384;28458;15969;13177;28464;14911;16761;17482;13115;28462;28463;17475;28461;28465];
 [28471;28474;28473;17709;28466;28467;28470;28472;13888;28475;28469;28468;28479;28480;28481;28478];
 [28477;15970;17962;28476;28485;28483;28484;28482;17016;28486;28487;28489;13397;28488;19578;28500];
 [28490;28493;28491;28492;28494;28496;28497;28498;28501;28499;28502;28504;28503;17465;19559;28505];
 [16686;28506;19012;28507;13099;12604;13399;13398;28508;28509;28510;28511;28512;13400;13141;14686];
 [18486;28514;28513;28515;12636;28518;28517;28516;28519;28522;12359;28520;28524;28523;28526;28525];
 [28527;17966;28528;28529;28531;28530;18796;28532;28533;14949;28534;28535;19273;16715;12324;16971];
 [28536;18797;28539;28537;14687;28538;14402;19013;28541;28705;28542;28706;12577;16216;15740;13401];
 [28707;18278;28709;12578;28708;17476;20045;17963;28540;20006;14385;19803;13945;20020;14120;16994];
 [26401;28710;13100;16239;13142;28712;28713;28711;14180;14941;15971;12579;20057;28715;28206;28714];
 [28718;28716;28717;28719;28720;20076;28721;28722;16457;18491;16253;13415;19770;12909;15672;14427];
 [28725;28724;15219;28726;28723;15144;28730;27181;21078;16247;28728;20005;18033;12587;16483;15414];
 [18999;12608;20077;19819;28731;17733;15483;28732;28733;16204;28734;20078;28729;28736;28738;28737];
 [28735;28739;28740;16762;12898;28741;19512;28742;28743;20266;23345;28744;28745;28746;28750;28747];
 [28748;28749;28751;16452;19575;16453;28752;18547;28753;29523;19532;28754;28755;28756;13143;28758];
 [16217;28759;14116;28760;28764;28762;28763;13171;28761;28765;28766;12360;28767;28768;15972;28769];
 [13639;28772;28771;28770;27505;19036;28773;28774;28775;28776;28777;28778;13402;28779;28780;18211];
 [28782;12859;28785;28784;12580;13889;19015;17466;14882;14688;15719;16220;28787;28786;19778;13416];
 [18514;18012;16252;20046;14171;28790;28789;19275;17964;12624;28791;28788;18769;19818;28792;28793];
 [28795;17002;13147;13148;28794;13417;14386;13418;17727;20064;14428;28796;28797;28798;28961;28963];
 [28962;18807;28964;28965;28966;28967;28969;28968;28970;18548;26188;16169;13618;28971;28972;21036];
 [23867;18515;12411;12347;15220;19248;15998;28973;19551;28974;19804;12610;15169;28975;12910;28976];
 [28977;28979;28980;28982;28978;28981;13403;28983;28984;28985;28986;28987;28989;28988;28991;28994];
 [28990;28992;28993;28995;13890;15475;28996;28997;14689;28998;13118;18255;28999;29000;17242;18027];
 [29001;18301;16972;12632;13934;13935;17267;29006;13936;12911;29005;29003;29004;29002;29016;29007];
 [29008;29009;29010;29012;29011;15705;29013;29015;13619;29014;16763;14387;29017;16973;29018;17965];
 [29019;29024;29022;29021;29023;29020;29026;29025;29028;13891;29027;29029;29030;29032;29031;29033];
 [29035;29034;14716;29036;29037;13116;29038;29039;16241;29040;29041;29042;29043;14690;29044;29045];
 [29046;29047;29048;18481;29050;18726;29051;29049;29053;29052;29054;29217;29218;29219;29220;29221];
 [29222;29223;29224;29225;29226;29227;29228;29229;29230;23861;29231;25720;13620;13089;14898;29233];
 [29232;19493;29235;29236;29234;29237;19298;29238;13691;20261;29239;29241;12350;29242;18987;29240];
 [29243;29244;29245;29246;29247;19310;15149;14970;16687;29248;29251;29249;29252;14449;29250;29253];
 [29254;29255;29259;15146;16996;29260;29257;29256;29258;14175;29264;29263;29262;12339;29274;29270];
 [29271;29267;29273;29269;13154;20300;29272;29268;29266;29265;29276;29279;29278;29277;18761;29275];
 [12403;29280;29282;13167;29261;12599;29284;29283;29281;17197;19312;20058;29285;29286;29287;29288];
 [29289;17467;29290;18487;29295;29291;29292;19249;19524;18000;29296;29297;17982;29294;29293;12842];
 [29305;29304;12661;29302;29301;29299;13179;29298;15410;12841;14691;29308;29307;29306;29303;29309];
 [29310;29477;29476;29478;12589;29473;29474;14708;19513;29475;19250;29483;29479;29484;29481;29480];
 [14172;29485;29486;29487;29482;29300;29488;17505;29492;29493;29491;29490;29496;29489;29494;29495];
 [29498;29497;29500;29501;29502;20297;29499;17003;14957;29503;29504;29505;29506;29507;14388;29508];
 [29509;15407;29510;29511;29512;29513;29516;29514;20284;29515;20079;29517;20059;29518;18302;29519];
 [29521;29522;29520;14701;19533;19299;22135;23904;19323;12843;29524;13648;29525;29526;29527;14709];
 [29528;24660;19547;16995;29529;29531;29530;29532;29533;29534;29535;29536;29537;29538;29539;29540];
 [29541;29542;29543;29544;17700;14429;29546;16717;29547;29548;18721;29549;29550;25399;27738;28781];
 [29551;29552;29554;29555;29556;20080;29553;29557;29558;29560;29559;29562;29563;29561;20022;29564];
 [29565;25428;29566;8490;8564;8560;8563;8565;8522;8523;8566;8540;8484;8485;8511;9008];
 [9009;9010;9011;9012;9013;9014;9015;9016;9017;8487;8488;8547;8545;8548;8489;8567];
 [9025;9026;9027;9028;9029;9030;9031;9032;9033;9034;9035;9036;9037;9038;9039;9040];
 [9041;9042;9043;9044;9045;9046;9047;9048;9049;9050;8526;8512;8527;8496;8498;8494];
 [9057;9058;9059;9060;9061;9062;9063;9064;9065;9066;9067;9068;9069;9070;9071;9072];
 [9073;9074;9075;9076;9077;9078;9079;9080;9081;9082;8528;8515;8529;8497;8559]].

(* lib/converters/jisx0208.h:1909-1915 jisx0208_uni2indx_page00 (flattened, 2 fields per entry) *)
Definition jisx0208_uni2indx_page00 : tab := mk [
 [0;0;0;0;0;0;0;0;0;0;0;0;0;0;0;0];
 [0;0;0;0;0;4492;5;83;9;0;9;128;10;0;10;128]].

(* lib/converters/jisx0208.h:1916-1925 jisx0208_uni2indx_page03 (flattened, 2 fields per entry) *)
Definition jisx0208_uni2indx_page03 : tab := mk [
 [11;0;11;0;11;0;11;0;11;0;11;0;11;0;11;0];
 [11;0;11;65534;26;1019;35;65534;50;1019;59;0;59;0;59;0];
 [59;2;60;65535;76;65535;92;65535;108;65535;124;2]].

(* lib/converters/jisx0208.h:1926-1944 jisx0208_uni2indx_page20 (flattened, 2 fields per entry) *)
Definition jisx0208_uni2indx_page20 : tab := mk [
 [125;0;125;13153;132;99;136;2061;140;0;140;0;140;0;140;0];
 [140;0;140;0;140;0;140;0;140;0;140;0;140;0;140;0];
 [140;8;141;0;141;2048;142;0;142;0;142;0;142;0;142;0];
 [142;0;142;15;146;0;146;0;146;0;146;20;148;0;148;0];
 [148;2445;154;25604;158;8065;165;8240;168;0;168;4;169;3267;175;0];
 [175;204;179;0;179;32;180;0;180;0;180;0;180;0;180;0];
 [180;0;180;4]].

(* lib/converters/jisx0208.h:1945-1954 jisx0208_uni2indx_page25 (flattened, 2 fields per entry) *)
Definition jisx0208_uni2indx_page25 : tab := mk [
 [181;36879;187;14745;195;39225;203;39321;211;2052;213;0;213;0;213;0];
 [213;0;213;0;213;3;215;12300;219;51392;224;0;224;32768;225;0];
 [225;96;227;0;227;0;227;0;227;5;229;0;229;41984]].

(* lib/converters/jisx0208.h:1955-1961 jisx0208_uni2indx_page30 (flattened, 2 fields per entry) *)
Definition jisx0208_uni2indx_page30 : tab := mk [
 [232;65519;247;4159;254;0;254;0;254;65534;269;65535;285;65535;301;65535];
 [317;65535;333;30735;341;65534;356;65535;372;65535;388;65535;404;65535;420;30847]].

(* lib/converters/jisx0208.h:1962-2372 jisx0208_uni2indx_page4e (flattened, 2 fields per entry) *)
Definition jisx0208_uni2indx_page4e : tab := mk [
 [431;28555;441;17395;450;9282;454;39750;462;59436;469;58336;477;4;478;16394];
 [481;24421;491;56118;501;31095;512;1097;516;60631;527;58352;536;24632;541;2245];
 [546;58882;552;13315;557;32768;558;13649;565;57544;571;32427;582;33280;584;39017];
 [591;43336;597;10562;602;59395;608;32864;611;17436;616;44435;625;49210;631;17768];
 [637;43616;643;34390;650;16250;661;576;663;33672;668;5217;673;4128;675;8564];
 [681;8225;684;1794;688;12288;690;16572;696;42532;702;17506;707;24744;712;2592];
 [715;535;720;34164;727;1026;729;40068;735;31739;748;5141;753;32548;762;4578];
 [768;46693;777;751;785;8053;795;8447;804;14960;811;14400;815;9923;822;26467];
 [831;19929;840;8338;844;18096;850;4041;858;48280;866;18512;870;34360;876;41023];
 [884;9096;889;34838;894;15881;901;21042;907;8874;913;58276;921;221;927;50988];
 [935;41318;942;9953;949;33803;954;36618;961;10219;971;21918;980;49729;985;35259];
 [994;20;996;34112;1000;25441;1007;2121;1011;32524;1020;35536;1026;65342;1039;1487];
 [1047;65306;1058;43011;1063;31297;1070;31552;1077;18245;1084;32770;1086;1280;1088;14571];
 [1097;55377;1104;5;1106;39220;1113;28940;1119;919;1126;256;1127;25446;1135;9220];
 [1138;32976;1142;81;1145;49152;1147;17162;1152;36977;1158;12488;1163;8;1164;22528];
 [1167;3737;1174;63232;1181;24448;1188;65;1190;176;1193;37904;1197;24;1199;25216];
 [1203;576;1205;2512;1210;33280;1212;342;1217;20484;1220;2049;1222;7440;1227;1296];
 [1230;33985;1235;16;1236;16421;1240;4176;1243;16655;1249;19850;1256;16393;1259;42509];
 [1266;43801;1274;37196;1280;8640;1284;2433;1288;50309;1294;3;1296;1618;1301;32768];
 [1302;2820;1306;8;1307;1053;1312;9;1314;18505;1319;36956;1325;9;1327;5776];
 [1332;3173;1338;8736;1341;33810;1345;9267;1351;3075;1355;18326;1363;2564;1366;16933];
 [1371;40;1373;37000;1377;18688;1380;20232;1386;5282;1391;54186;1400;55344;1406;16007];
 [1415;34308;1419;8033;1427;32420;1436;16774;1441;50064;1447;1459;1454;22437;1463;8472];
 [1467;9246;1473;10824;1478;4392;1482;18948;1486;2624;1489;5659;1496;3424;1501;34880];
 [1504;522;1507;38146;1512;33313;1516;4192;1519;579;1523;1024;1524;5188;1528;32768];
 [1529;0;1529;3076;1532;0;1532;28672;1535;6662;1540;193;1543;586;1547;3072];
 [1549;6656;1552;64;1553;5124;1556;16453;1560;41;1563;48563;1574;2680;1580;1323];
 [1586;48041;1596;49056;1605;16508;1611;33657;1619;4860;1627;59421;1635;19446;1645;50537];
 [1653;61430;1666;1098;1670;8469;1675;65282;1684;60771;1694;16427;1699;53299;1706;578];
 [1709;4096;1710;19;1713;6914;1718;22986;1726;160;1728;512;1729;42755;1736;11329];
 [1741;18560;1744;36850;1754;516;1756;0;1756;22528;1759;4101;1762;37376;1765;72];
 [1767;6292;1772;8193;1774;20484;1777;13440;1781;12800;1784;26700;1790;18922;1798;26814];
 [1807;6220;1812;11842;1818;43040;1822;8649;1828;20665;1835;32944;1839;30;1843;65404];
 [1856;33946;1862;5344;1867;10433;1872;480;1876;34574;1883;44105;1890;4879;1897;56795];
 [1909;48666;1918;35323;1928;41696;1934;20898;1940;21762;1945;13002;1952;15942;1960;37515];
 [1967;7615;1978;17295;1986;26371;1993;12824;1998;12328;2002;13248;2008;2065;2011;43299];
 [2018;49152;2020;14949;2028;36835;2038;1026;2040;11342;2047;34341;2053;48957;2065;161];
 [2068;14874;2075;36052;2082;1737;2088;12668;2096;224;2099;38154;2105;395;2110;3803];
 [2119;58187;2128;35872;2132;4482;2136;61456;2141;32148;2150;42792;2157;51628;2165;16635];
 [2173;17540;2177;1619;2183;23184;2189;17476;2193;16328;2202;1;2203;72;2205;62932];
 [2215;30465;2222;60503;2232;50242;2237;35101;2244;27523;2252;18728;2257;16649;2261;53826];
 [2267;1565;2273;23038;2284;6144;2286;14882;2292;47076;2302;15263;2313;61443;2319;49386];
 [2326;4998;2332;33282;2335;35200;2339;58368;2343;45568;2347;4257;2351;19328;2356;3268];
 [2361;54025;2368;35140;2373;8111;2384;18484;2389;33369;2395;3141;2400;16906;2404;1104];
 [2407;41024;2410;4296;2414;12608;2418;17488;2422;16388;2424;256;2425;33408;2428;1344];
 [2431;264;2433;17452;2438;27184;2444;6661;2449;8358;2454;1300;2458;37071;2466;25686];
 [2473;33;2475;12544;2478;39960;2484;52208;2493;41248;2497;25570;2505;4172;2509;437];
 [2515;21388;2522;39555;2529;47282;2537;12929;2542;39034;2550;2692;2554;13287;2564;3074];
 [2567;54476;2575;36888;2579;41377;2585;36976;2590;35358;2597;57348;2601;50132;2609;1105];
 [2613;17306;2620;8642;2625;18500;2629;21264;2634;658;2638;13888;2643;577;2646;62397];
 [2658;43785;2665;59632;2673;32192;2681;42450;2689;49730;2694;53835;2702;42047;2711;53423];
 [2720;6816;2725;13473;2731;33351;2737;984;2743;50258;2749;25883;2757;53908;2764;51258];
 [2771;28;2774;16584;2778;3590;2783;13076;2789;24911;2797;45595;2805;136;2807;49360];
 [2812;41002;2817;43160;2823;41413;2830;5739;2838;11856;2844;34228;2851;49291;2857;1540];
 [2860;63795;2870;7684;2875;1390;2882;41553;2888;1024;2889;30264;2897;60423;2905;29624];
 [2914;17414;2918;6194;2923;16513;2926;51222;2932;31882;2940;25353;2946;10624;2950;43524];
 [2955;7204;2960;51868;2968;19982;2975;10080;2981;2448;2985;33536;2988;70;2991;33028];
 [2994;24593;2998;4225;3001;21517;3007;2312;3010;14;3013;52234;3019;1280;3021;3072];
 [3023;1072;3026;41028;3030;139;3034;26500;3041;21128;3046;35353;3052;34398;3060;35608];
 [3066;11865;3074;16736;3078;35856;3082;40126;3092;26721;3098;35100;3104;38912;3107;8];
 [3108;33024;3110;2202;3115;24;3117;16784;3121;16391;3125;58529;3132;1285;3136;25613];
 [3142;12558;3148;3661;3155;18438;3159;65290;3169;5682;3175;10920;3181;34094;3188;11];
 [3191;6144;3193;51844;3199;3616;3203;26988;3211;50;3214;5632;3217;22104;3224;912];
 [3228;20768;3232;6696;3237;32768;3238;4388;3242;6369;3248;17190;3254;23890;3262;3754];
 [3269;4000;3275;44584;3282;64123;3294;17664;3297;25608;3301;35136;3305;51328;3309;49220];
 [3313;36869;3317;45377;3323;33828;3327;9412;3332;6708;3338;24634;3344;36864;3346;49556];
 [3352;33350;3357;58;3361;6157;3366;49414;3371;34;3373;39184;3378;57424;3383;5393];
 [3388;16471;3394;130;3396;1050;3400;522;3403;79;3408;35120;3413;55315;3420;17482];
 [3425;35330;3429;60706;3437;4288;3440;16389;3443;4096;3444;258;3446;34824;3449;12545];
 [3453;17920;3456;516;3458;61440;3462;1800;3466;35072;3469;41472;3472;0;3472;8706];
 [3475;512;3476;5648;3480;66;3482;4160;3484;20992;3487;608;3490;21236;3498;8192];
 [3499;34064;3503;33328;3507;4352;3509;16898;3512;17160;3516;32949;3522;28897;3529;39456];
 [3534;8256;3536;2049;3538;13568;3542;64613;3552;6593;3558;43780;3564;646;3568;25108];
 [3573;135;3577;68;3579;36997;3584;580;3587;16476;3592;2693;3597;12807;3603;13184];
 [3608;1024;3609;47296;3615;52768;3621;49360;3626;49200;3630;128;3631;1288;3634;3365];
 [3640;2704;3644;64;3645;512;3646;2060;3649;25861;3655;16384;3656;25633;3661;16642];
 [3664;616;3668;0;3668;36;3670;33916;3677;2;3678;56864;3685;34329;3691;16457];
 [3695;2056;3697;16384;3698;132;3700;8193;3702;33792;3704;4112;3706;17101;3713;455];
 [3719;28728;3725;54570;3733;6504;3739;7567;3748;48720;3756;15890;3763;12021;3773;33241];
 [3780;52932;3788;9234;3792;2088;3795;29486;3804;9388;3810;19252;3817;524;3820;54301];
 [3828;10754;3832;32768;3833;151;3838;2065;3841;4548;3846;4420;3850;6022;3857;32069];
 [3866;18905;3874;1609;3879;16384;3880;34705;3887;9548;3893;55492;3900;17594;3907;18708];
 [3912;7058;3919;51200;3922;625;3927;5504;3931;129;3933;3072;3935;2410;3941;49664];
 [3944;18432;3946;16386;3948;12321;3952;47689;3960;8320;3962;7296;3966;58028;3974;4104];
 [3976;4100;3978;52;3981;225;3985;33812;3989;32;3990;8192;3991;38912;3994;4116];
 [3997;28866;4003;1194;4008;34440;4013;21536;4017;3170;4022;1043;4026;37248;4030;8208];
 [4032;16514;4035;518;4038;7232;4042;21504;4045;899;4050;58601;4059;8485;4064;33920];
 [4067;58419;4075;8192;4076;17600;4080;58889;4087;2563;4091;33062;4096;4826;4103;2049];
 [4105;26881;4110;38800;4117;16385;4119;63622;4127;57933;4135;129;4137;2574;4142;42577];
 [4149;282;4153;33260;4160;50688;4164;33857;4168;44472;4177;46636;4185;42095;4194;34625];
 [4200;36180;4207;19202;4212;4449;4217;616;4221;47968;4229;8279;4235;20640;4239;1075];
 [4244;43200;4249;47028;4259;9218;4262;274;4265;39635;4274;8192;4275;8817;4281;200];
 [4284;8321;4287;32926;4293;3210;4298;57728;4303;45065;4308;33105;4313;4145;4317;16424];
 [4320;10766;4326;35237;4333;27062;4342;25102;4348;17445;4353;53572;4359;32901;4363;19796];
 [4370;11381;4378;8113;4387;55303;4394;34349;4401;55420;4410;18497;4414;16718;4420;8814];
 [4427;33280;4429;40456;4435;63500;4442;60727;4453;35968;4457;29990;4465;37651;4472;2068];
 [4475;3634;4481;51204;4485;18510;4491;28326;4500;11338;4506;26224;4513;9920;4518;47617];
 [4524;54028;4531;6237;4538;0;4538;0;4538;0;4538;0;4538;0;4538;0];
 [4538;0;4538;0;4538;0;4538;1344;4541;28704;4545;33075;4551;20353;4558;933];
 [4564;21996;4573;25616;4577;49944;4583;9028;4588;5218;4593;52;4596;2627;4601;6665];
 [4606;6267;4614;5029;4621;258;4623;43080;4628;1088;4630;50500;4636;33030;4640;58077];
 [4650;6896;4657;11592;4663;46630;4671;1046;4675;20568;4680;28224;4686;32818;4690;12562];
 [4695;2020;4702;3072;4704;33288;4707;16906;4711;18496;4714;32827;4720;18528;4724;34579];
 [4731;34061;4737;13352;4742;793;4747;58665;4755;9029;4761;34570;4767;9641;4774;23576];
 [4780;30630;4790;55749;4799;24064;4804;1000;4810;129;4812;42752;4817;52564;4825;16838];
 [4831;10240;4833;41476;4837;47200;4843;11018;4849;32;4850;55966;4860;2282;4866;3610];
 [4872;17020;4879;4544;4883;35080;4887;886;4894;34337;4899;261;4902;0;4902;6312];
 [4907;18080;4912;50248;4917;3333;4922;8226;4925;21538;4930;37192;4935;35329;4939;10391];
 [4946;30872;4953;8;4954;5637;4959;12578;4964;16960;4967;2176;4969;64078;4979;1698];
 [4984;2068;4987;37393;4992;8194;4994;39684;5000;11858;5007;1603;5012;20480;5014;36880];
 [5017;65;5019;34234;5027;12354;5031;8224;5033;20235;5041;1440;5045;9992;5050;16512];
 [5052;1425;5057;6803;5064;57168;5073;1536;5075;41474;5079;12321;5083;1584;5087;20096];
 [5092;3268;5097;1224;5101;40964;5104;32769;5106;24576;5108;54321;5115;2176;5117;2562];
 [5120;7168;5123;40;5125;36376;5131;65;5133;27344;5140;51728;5145;61968;5151;19200];
 [5155;10061;5163;5382;5168;544;5170;34960;5174;23040;5178;33448;5183;17737;5189;33104];
 [5193;8196;5195;32768;5196;34820;5199;11272;5203;2257;5208;5;5210;32769;5212;19140];
 [5218;57376;5222;98;5225;142;5229;2626;5233;12373;5239;27276;5246;2318;5251;57509];
 [5258;10502;5263;17092;5268;18452;5272;32947;5278;32830;5284;45872;5291;258;5293;29468];
 [5301;5268;5306;24589;5311;3104;5314;2368;5317;12314;5322;49216;5325;42065;5331;49300];
 [5336;36298;5344;1480;5349;38594;5356;41996;5361;1;5362;13316;5366;200;5369;272];
 [5371;21773;5378;43465;5386;9256;5390;7258;5397;322;5400;18487;5407;31309;5416;4111];
 [5421;12980;5428;17706;5434;12667;5443;37381;5448;47252;5455;23620;5461;26839;5470;17802];
 [5476;20631;5483;11985;5491;6467;5497;16904;5500;53762;5505;40256;5511;38976;5515;8343];
 [5521;21513;5526;1613;5532;0;5532;0;5532;0;5532;0;5532;0;5532;0];
 [5532;0;5532;0;5532;0;5532;33920;5535;21826;5541;1057;5544;7174;5549;5888];
 [5553;30244;5560;24848;5564;65415;5576;47581;5587;26015;5597;23562;5603;9309;5610;15360];
 [5614;44464;5622;89;5626;0;5626;0;5626;0;5626;0;5626;10448;5631;155];
 [5636;1058;5639;512;5640;264;5642;17416;5645;38916;5649;44096;5654;36106;5660;36904];
 [5664;34560;5668;57345;5672;1024;5673;49;5676;6036;5683;33313;5687;25;5690;4180];
 [5694;11442;5701;538;5705;39938;5710;16387;5713;15712;5720;34820;5723;2060;5726;30976];
 [5731;5672;5736;47676;5745;34368;5749;51976;5755;29300;5763;36992;5766;30;5770;0];
 [5770;0;5770;55296;5774;57736;5780;40071;5788;16436;5792;1042;5795;44644;5803;10129];
 [5810;59499;5819;59131;5831;16527;5837;21350;5845;61094;5855;21375;5866;58155;5875;46564];
 [5884;34463;5893;2;5894;34120;5899;290;5902;17410;5905;2048;5906;8470;5911;8352];
 [5914;4;5915;516;5917;8192;5918;5;5920;32256;5926;340;5930;5676;5936;428];
 [5941;10884;5946;4229;5950;35860;5955;1328;5959;64451;5970;47427;5978;202;5982;36960];
 [5986;24576;5988;16434;5992;4608;5994;32912;5997;2864;6002;19585;6007;84;6010;16386];
 [6012;41;6015;7530;6023;8192;6024;640;6026;32768;6027;4;6028;9744;6032;5388];
 [6037;32832;6039;1793;6043;55629;6052;3108;6056;10256;6059;6224;6063;20481;6066;20512];
 [6069;4096;6070;1232;6074;28800;6078;513;6080;264;6082;8643;6088;306;6092;0];
 [6092;136;6094;1817;6100;2050;6102;1376;6106;18;6108;19470;6114;1029;6117;61601];
 [6124;2;6125;0;6125;0;6125;0;6125;0;6125;0;6125;0;6125;0];
 [6125;0;6125;0;6125;0;6125;0;6125;0;6125;0;6125;0;6125;128];
 [6126;36493;6134;858;6140;8637;6148;23044;6153;13448;6158;4464;6163;38;6166;0];
 [6166;0;6166;4096;6167;50434;6172;34820;6175;47125;6182;63489;6188;5244;6195;9709];
 [6204;60768;6212;7088;6219;1417;6224;7127;6234;31475;6245;6754;6251;3340;6256;2757];
 [6262;58833;6271;21066;6277;1168;6280;25349;6286;852;6291;21060;6296;11095;6305;5650];
 [6310;43122;6317;4353;6320;10569;6326;24;6328;2376;6332;4104;6334;24576;6336;34924];
 [6342;37230;6350;1423;6357;12306;6361;14736;6367;63552;6373;18736;6378;34944;6381;27];
 [6385;0;6385;0;6385;34048;6388;66;6390;88;6393;38912;6396;59908;6402;28692];
 [6407;5672;6412;24861;6419;20755;6425;24576;6427;6692;6432;167;6437;0;6437;0];
 [6437;0;6437;960;6441;28960;6446;4120;6449;370;6454;43303;6462;24580;6465;35078];
 [6470;49186;6474;524;6477;2304;6479;16513;6482;8237;6487;36000;6492;3636;6498;0];
 [6498;0;6498;0;6498;8448;6500;4353;6503;32785;6506;49434;6512;60492;6520;2194];
 [6524;64;6525;34048;6528;51116;6537;6150;6541;57406;6549;1298;6553;32768;6554;16];
 [6555;16392;6557;32974;6563;27905;6569;528;6571;34369;6576;2134;6581;286;6586;39];
 [6590;14160;6597;2109;6603;57394;6609;19973;6615;448;6618;1156;6621;129;6623;320];
 [6625;0;6625;0;6625;0;6625;0;6625;0;6625;0;6625;6816;6630;89];
 [6634;17352;6640;34852;6644;7496;6650;51200;6653;338;6657;29187;6663;36883;6668;1028];
 [6670;33408;6673;1024;6674;35344;6678;3348;6683;32854;6688;520;6690;41024;6693;9988];
 [6698;0;6698;19456;6701;0;6701;0;6701;0;6701;0;6701;0;6701;41760];
 [6706;6402;6710;41134;6717;9824;6722;57088;6729;61456;6734;31509;6743;33057;6747;15056];
 [6754;16768;6757;40;6759;4099;6762;18432;6764;52224;6768;32788;6771;5327;6779;196];
 [6782;8192;6783;12320;6786;1]].

(* lib/converters/jisx0208.h:2373-2379 jisx0208_uni2indx_pageff (flattened, 2 fields per entry) *)
Definition jisx0208_uni2indx_pageff : tab := mk [
 [6787;57210;6799;65535;6815;65535;6831;65535;6847;65535;6863;16383;6877;0;6877;0];
 [6877;0;6877;0;6877;0;6877;0;6877;0;6877;0;6877;40]].

(* lib/converters/jisx0212.h:30-43 jisx0212_2uni_page22 *)
Definition jisx0212_2uni_page22 : tab := mk [
 [65533;65533;65533;65533;65533;65533;65533;65533;65533;65533;65533;65533;65533;65533;728;711];
 [184;729;733;175;731;730;65374;900;901;65533;65533;65533;65533;65533;65533;65533];
 [65533;161;166;191;65533;65533;65533;65533;65533;65533;65533;65533;65533;65533;65533;65533];
 [65533;65533;65533;65533;65533;65533;65533;65533;65533;65533;65533;65533;65533;65533;65533;65533];
 [65533;65533;65533;65533;65533;65533;65533;65533;65533;65533;186;170;169;174;8482;164];
 [8470]].

(* lib/converters/jisx0212.h:44-71 jisx0212_2uni_page26 *)
Definition jisx0212_2uni_page26 : tab := mk [
 [65533;65533;65533;65533;65533;65533;65533;65533;65533;65533;65533;65533;65533;65533;65533;65533];
 [65533;65533;65533;65533;65533;65533;65533;65533;65533;65533;65533;65533;65533;65533;65533;65533];
 [65533;65533;65533;65533;65533;65533;65533;65533;65533;65533;65533;65533;65533;65533;65533;65533];
 [65533;65533;65533;65533;65533;65533;65533;65533;65533;65533;65533;65533;65533;65533;65533;65533];
 [902;904;905;906;938;65533;908;65533;910;939;65533;911;65533;65533;65533;65533];
 [940;941;942;943;970;912;972;962;973;971;944;974;65533;65533;65533;65533];
 [65533;65533;65533;65533;65533;65533;65533;65533;65533;65533;65533;65533;65533;65533;65533;65533];
 [65533;65533;65533;65533;65533;65533;65533;65533;65533;65533;65533;65533;65533;65533;65533;1026];
 [1027;1028;1029;1030;1031;1032;1033;1034;1035;1036;1038;1039;65533;65533;65533;65533];
 [65533;65533;65533;65533;65533;65533;65533;65533;65533;65533;65533;65533;65533;65533;65533;65533];
 [65533;65533;65533;65533;65533;65533;65533;65533;65533;65533;65533;65533;65533;65533;65533;1106];
 [1107;1108;1109;1110;1111;1112;1113;1114;1115;1116;1118;1119]].

(* lib/converters/jisx0212.h:72-111 jisx0212_2uni_page29 *)
Definition jisx0212_2uni_page29 : tab := mk [
 [198;272;65533;294;65533;306;65533;321;319;65533;330;216;338;65533;358;222];
 [65533;65533;65533;65533;65533;65533;65533;65533;65533;65533;65533;65533;65533;65533;65533;65533];
 [230;273;240;295;305;307;312;322;320;329;331;248;339;223;359;254];
 [65533;65533;65533;65533;65533;65533;65533;65533;65533;65533;65533;65533;65533;65533;65533;65533];
 [65533;65533;65533;65533;65533;65533;65533;65533;65533;65533;65533;65533;65533;65533;65533;65533];
 [65533;65533;65533;65533;65533;65533;65533;65533;65533;65533;65533;65533;65533;65533;193;192];
 [196;194;258;461;256;260;197;195;262;264;268;199;266;270;201;200];
 [203;202;282;278;274;280;65533;284;286;290;288;292;205;204;207;206];
 [463;304;298;302;296;308;310;313;317;315;323;327;325;209;211;210];
 [214;212;465;336;332;213;340;344;342;346;348;352;350;356;354;218];
 [217;220;219;364;467;368;362;370;366;360;471;475;473;469;372;221];
 [376;374;377;381;379;65533;65533;65533;65533;65533;65533;65533;225;224;228;226];
 [259;462;257;261;229;227;263;265;269;231;267;271;233;232;235;234];
 [283;279;275;281;501;285;287;65533;289;293;237;236;239;238;464;65533];
 [299;303;297;309;311;314;318;316;324;328;326;241;243;242;246;244];
 [466;337;333;245;341;345;343;347;349;353;351;357;355;250;249;252];
 [251;365;468;369;363;371;367;361;472;476;474;470;373;253;255;375];
 [378;382;380]].

(* lib/converters/jisx0212.h:112-916 jisx0212_2uni_page30 *)
Definition jisx0212_2uni_page30 : tab := mk [
 [19970;19972;19973;19980;19986;19999;20003;20004;20008;20011;20014;20015;20016;20021;20032;20033];
 [20036;20039;20049;20058;20060;20067;20072;20073;20084;20085;20089;20095;20109;20118;20119;20125];
 [20143;20153;20163;20176;20186;20187;20192;20193;20194;20200;20207;20209;20211;20213;20221;20222];
 [20223;20224;20226;20227;20232;20235;20236;20242;20245;20246;20247;20249;20270;20273;20320;20275];
 [20277;20279;20281;20283;20286;20288;20290;20296;20297;20299;20300;20306;20308;20310;20312;20319];
 [20323;20330;20332;20334;20337;20343;20344;20345;20346;20349;20350;20353;20354;20356;20357;20361];
 [20362;20364;20366;20368;20370;20371;20372;20375;20377;20378;20382;20383;20402;20407;20409;20411];
 [20412;20413;20414;20416;20417;20421;20422;20424;20425;20427;20428;20429;20431;20434;20444;20448];
 [20450;20464;20466;20476;20477;20479;20480;20481;20484;20487;20490;20492;20494;20496;20499;20503];
 [20504;20507;20508;20509;20510;20514;20519;20526;20528;20530;20531;20533;20544;20545;20546;20549];
 [20550;20554;20556;20558;20561;20562;20563;20567;20569;20575;20576;20578;20579;20582;20583;20586];
 [20589;20592;20593;20539;20609;20611;20612;20614;20618;20622;20623;20624;20626;20627;20628;20630];
 [20635;20636;20638;20639;20640;20641;20642;20650;20655;20656;20665;20666;20669;20672;20675;20676];
 [20679;20684;20686;20688;20691;20692;20696;20700;20701;20703;20706;20708;20710;20712;20713;20719];
 [20721;20726;20730;20734;20739;20742;20743;20744;20747;20748;20749;20750;20722;20752;20759;20761];
 [20763;20764;20765;20766;20771;20775;20776;20780;20781;20783;20785;20787;20788;20789;20792;20793];
 [20802;20810;20815;20819;20821;20823;20824;20831;20836;20838;20862;20867;20868;20875;20878;20888];
 [20893;20897;20899;20909;20920;20922;20924;20926;20927;20930;20936;20943;20945;20946;20947;20949];
 [20952;20958;20962;20965;20974;20978;20979;20980;20983;20993;20994;20997;21010;21011;21013;21014];
 [21016;21026;21032;21041;21042;21045;21052;21061;21065;21077;21079;21080;21082;21084;21087;21088];
 [21089;21094;21102;21111;21112;21113;21120;21122;21125;21130;21132;21139;21141;21142;21143;21144];
 [21146;21148;21156;21157;21158;21159;21167;21168;21174;21175;21176;21178;21179;21181;21184;21188];
 [21190;21192;21196;21199;21201;21204;21206;21211;21212;21217;21221;21224;21225;21226;21228;21232];
 [21233;21236;21238;21239;21248;21251;21258;21259;21260;21265;21267;21272;21275;21276;21278;21279];
 [21285;21287;21288;21289;21291;21292;21293;21296;21298;21301;21308;21309;21310;21314;21324;21323];
 [21337;21339;21345;21347;21349;21356;21357;21362;21369;21374;21379;21383;21384;21390;21395;21396];
 [21401;21405;21409;21412;21418;21419;21423;21426;21428;21429;21431;21432;21434;21437;21440;21445];
 [21455;21458;21459;21461;21466;21469;21470;21472;21478;21479;21493;21506;21523;21530;21537;21543];
 [21544;21546;21551;21553;21556;21557;21571;21572;21575;21581;21583;21598;21602;21604;21606;21607];
 [21609;21611;21613;21614;21620;21631;21633;21635;21637;21640;21641;21645;21649;21653;21654;21660];
 [21663;21665;21670;21671;21673;21674;21677;21678;21681;21687;21689;21690;21691;21695;21702;21706];
 [21709;21710;21728;21738;21740;21743;21750;21756;21758;21759;21760;21761;21765;21768;21769;21772];
 [21773;21774;21781;21802;21803;21810;21813;21814;21819;21820;21821;21825;21831;21833;21834;21837];
 [21840;21841;21848;21850;21851;21854;21856;21857;21860;21862;21887;21889;21890;21894;21896;21902];
 [21903;21905;21906;21907;21908;21911;21923;21924;21933;21938;21951;21953;21955;21958;21961;21963];
 [21964;21966;21969;21970;21971;21975;21976;21979;21982;21986;21993;22006;22015;22021;22024;22026];
 [22029;22030;22031;22032;22033;22034;22041;22060;22064;22067;22069;22071;22073;22075;22076;22077];
 [22079;22080;22081;22083;22084;22086;22089;22091;22093;22095;22100;22110;22112;22113;22114;22115];
 [22118;22121;22125;22127;22129;22130;22133;22148;22149;22152;22155;22156;22165;22169;22170;22173];
 [22174;22175;22182;22183;22184;22185;22187;22188;22189;22193;22195;22199;22206;22213;22217;22218];
 [22219;22223;22224;22220;22221;22233;22236;22237;22239;22241;22244;22245;22246;22247;22248;22257];
 [22251;22253;22262;22263;22273;22274;22279;22282;22284;22289;22293;22298;22299;22301;22304;22306];
 [22307;22308;22309;22313;22314;22316;22318;22319;22323;22324;22333;22334;22335;22341;22342;22348];
 [22349;22354;22370;22373;22375;22376;22379;22381;22382;22383;22384;22385;22387;22388;22389;22391];
 [22393;22394;22395;22396;22398;22401;22403;22412;22420;22423;22425;22426;22428;22429;22430;22431];
 [22433;22421;22439;22440;22441;22444;22456;22461;22471;22472;22476;22479;22485;22493;22494;22500];
 [22502;22503;22505;22509;22512;22517;22518;22520;22525;22526;22527;22531;22532;22536;22537;22497];
 [22540;22541;22555;22558;22559;22560;22566;22567;22573;22578;22585;22591;22601;22604;22605;22607];
 [22608;22613;22623;22625;22628;22631;22632;22648;22652;22655;22656;22657;22663;22664;22665;22666];
 [22668;22669;22671;22672;22676;22678;22685;22688;22689;22690;22694;22697;22705;22706;22724;22716];
 [22722;22728;22733;22734;22736;22738;22740;22742;22746;22749;22753;22754;22761;22771;22789;22790];
 [22795;22796;22802;22803;22804;34369;22813;22817;22819;22820;22824;22831;22832;22835;22837;22838];
 [22847;22851;22854;22866;22867;22873;22875;22877;22878;22879;22881;22883;22891;22893;22895;22898];
 [22901;22902;22905;22907;22908;22923;22924;22926;22930;22933;22935;22943;22948;22951;22957;22958];
 [22959;22960;22963;22967;22970;22972;22977;22979;22980;22984;22986;22989;22994;23005;23006;23007];
 [23011;23012;23015;23022;23023;23025;23026;23028;23031;23040;23044;23052;23053;23054;23058;23059];
 [23070;23075;23076;23079;23080;23082;23085;23088;23108;23109;23111;23112;23116;23120;23125;23134];
 [23139;23141;23143;23149;23159;23162;23163;23166;23179;23184;23187;23190;23193;23196;23198;23199];
 [23200;23202;23207;23212;23217;23218;23219;23221;23224;23226;23227;23231;23236;23238;23240;23247];
 [23258;23260;23264;23269;23274;23278;23285;23286;23293;23296;23297;23304;23319;23348;23321;23323];
 [23325;23329;23333;23341;23352;23361;23371;23372;23378;23382;23390;23400;23406;23407;23420;23421];
 [23422;23423;23425;23428;23430;23434;23438;23440;23441;23443;23444;23446;23464;23465;23468;23469];
 [23471;23473;23474;23479;23482;23484;23488;23489;23501;23503;23510;23511;23512;23513;23514;23520];
 [23535;23537;23540;23549;23564;23575;23582;23583;23587;23590;23593;23595;23596;23598;23600;23602];
 [23605;23606;23641;23642;23644;23650;23651;23655;23656;23657;23661;23664;23668;23669;23674;23675];
 [23676;23677;23687;23688;23690;23695;23698;23709;23711;23712;23714;23715;23718;23722;23730;23732];
 [23733;23738;23753;23755;23762;23773;23767;23790;23793;23794;23796;23809;23814;23821;23826;23851];
 [23843;23844;23846;23847;23857;23860;23865;23869;23871;23874;23875;23878;23880;23893;23889;23897];
 [23882;23903;23904;23905;23906;23908;23914;23917;23920;23929;23930;23934;23935;23937;23939;23944];
 [23946;23954;23955;23956;23957;23961;23963;23967;23968;23975;23979;23984;23988;23992;23993;24003];
 [24007;24011;24016;24014;24024;24025;24032;24036;24041;24056;24057;24064;24071;24077;24082;24084];
 [24085;24088;24095;24096;24110;24104;24114;24117;24126;24139;24144;24137;24145;24150;24152;24155];
 [24156;24158;24168;24170;24171;24172;24173;24174;24176;24192;24203;24206;24226;24228;24229;24232];
 [24234;24236;24241;24243;24253;24254;24255;24262;24268;24267;24270;24273;24274;24276;24277;24284];
 [24286;24293;24299;24322;24326;24327;24328;24334;24345;24348;24349;24353;24354;24355;24356;24360];
 [24363;24364;24366;24368;24372;24374;24379;24381;24383;24384;24388;24389;24391;24397;24400;24404];
 [24408;24411;24416;24419;24420;24423;24431;24434;24436;24437;24440;24442;24445;24446;24457;24461];
 [24463;24470;24476;24477;24482;24487;24491;24484;24492;24495;24496;24497;24504;24516;24519;24520];
 [24521;24523;24528;24529;24530;24531;24532;24542;24545;24546;24552;24553;24554;24556;24557;24558];
 [24559;24562;24563;24566;24570;24572;24583;24586;24589;24595;24596;24599;24600;24602;24607;24612];
 [24621;24627;24629;24640;24647;24648;24649;24652;24657;24660;24662;24663;24669;24673;24679;24689];
 [24702;24703;24706;24710;24712;24714;24718;24721;24723;24725;24728;24733;24734;24738;24740;24741];
 [24744;24752;24753;24759;24763;24766;24770;24772;24776;24777;24778;24779;24782;24783;24788;24789];
 [24793;24795;24797;24798;24802;24805;24818;24821;24824;24828;24829;24834;24839;24842;24844;24848];
 [24849;24850;24851;24852;24854;24855;24857;24860;24862;24866;24874;24875;24880;24881;24885;24886];
 [24887;24889;24897;24901;24902;24905;24926;24928;24940;24946;24952;24955;24956;24959;24960;24961];
 [24963;24964;24971;24973;24978;24979;24983;24984;24988;24989;24991;24992;24997;25000;25002;25005];
 [25016;25017;25020;25024;25025;25026;25038;25039;25045;25052;25053;25054;25055;25057;25058;25063];
 [25065;25061;25068;25069;25071;25089;25091;25092;25095;25107;25109;25116;25120;25122;25123;25127];
 [25129;25131;25145;25149;25154;25155;25156;25158;25164;25168;25169;25170;25172;25174;25178;25180];
 [25188;25197;25199;25203;25210;25213;25229;25230;25231;25232;25254;25256;25267;25270;25271;25274];
 [25278;25279;25284;25294;25301;25302;25306;25322;25330;25332;25340;25341;25347;25348;25354;25355];
 [25357;25360;25363;25366;25368;25385;25386;25389;25397;25398;25401;25404;25409;25410;25411;25412];
 [25414;25418;25419;25422;25426;25427;25428;25432;25435;25445;25446;25452;25453;25457;25460;25461];
 [25464;25468;25469;25471;25474;25476;25479;25482;25488;25492;25493;25497;25498;25502;25508;25510];
 [25517;25518;25519;25533;25537;25541;25544;25550;25553;25555;25556;25557;25564;25568;25573;25578];
 [25580;25586;25587;25589;25592;25593;25609;25610;25616;25618;25620;25624;25630;25632;25634;25636];
 [25637;25641;25642;25647;25648;25653;25661;25663;25675;25679;25681;25682;25683;25684;25690;25691];
 [25692;25693;25695;25696;25697;25699;25709;25715;25716;25723;25725;25733;25735;25743;25744;25745];
 [25752;25753;25755;25757;25759;25761;25763;25766;25768;25772;25779;25789;25790;25791;25796;25801];
 [25802;25803;25804;25806;25808;25809;25813;25815;25828;25829;25833;25834;25837;25840;25845;25847];
 [25851;25855;25857;25860;25864;25865;25866;25871;25875;25876;25878;25881;25883;25886;25887;25890];
 [25894;25897;25902;25905;25914;25916;25917;25923;25927;25929;25936;25938;25940;25951;25952;25959];
 [25963;25978;25981;25985;25989;25994;26002;26005;26008;26013;26016;26019;26022;26030;26034;26035];
 [26036;26047;26050;26056;26057;26062;26064;26068;26070;26072;26079;26096;26098;26100;26101;26105];
 [26110;26111;26112;26116;26120;26121;26125;26129;26130;26133;26134;26141;26142;26145;26146;26147];
 [26148;26150;26153;26154;26155;26156;26158;26160;26161;26163;26169;26167;26176;26181;26182;26186];
 [26188;26193;26190;26199;26200;26201;26203;26204;26208;26209;26363;26218;26219;26220;26238;26227];
 [26229;26239;26231;26232;26233;26235;26240;26236;26251;26252;26253;26256;26258;26265;26266;26267];
 [26268;26271;26272;26276;26285;26289;26290;26293;26299;26303;26304;26306;26307;26312;26316;26318];
 [26319;26324;26331;26335;26344;26347;26348;26350;26362;26373;26375;26382;26387;26393;26396;26400];
 [26402;26419;26430;26437;26439;26440;26444;26452;26453;26461;26470;26476;26478;26484;26486;26491];
 [26497;26500;26510;26511;26513;26515;26518;26520;26521;26523;26544;26545;26546;26549;26555;26556];
 [26557;26617;26560;26562;26563;26565;26568;26569;26578;26583;26585;26588;26593;26598;26608;26610];
 [26614;26615;26706;26644;26649;26653;26655;26664;26663;26668;26669;26671;26672;26673;26675;26683];
 [26687;26692;26693;26698;26700;26709;26711;26712;26715;26731;26734;26735;26736;26737;26738;26741];
 [26745;26746;26747;26748;26754;26756;26758;26760;26774;26776;26778;26780;26785;26787;26789;26793];
 [26794;26798;26802;26811;26821;26824;26828;26831;26832;26833;26835;26838;26841;26844;26845;26853];
 [26856;26858;26859;26860;26861;26864;26865;26869;26870;26875;26876;26877;26886;26889;26890;26896];
 [26897;26899;26902;26903;26929;26931;26933;26936;26939;26946;26949;26953;26958;26967;26971;26979];
 [26980;26981;26982;26984;26985;26988;26992;26993;26994;27002;27003;27007;27008;27021;27026;27030];
 [27032;27041;27045;27046;27048;27051;27053;27055;27063;27064;27066;27068;27077;27080;27089;27094];
 [27095;27106;27109;27118;27119;27121;27123;27125;27134;27136;27137;27139;27151;27153;27157;27162];
 [27165;27168;27172;27176;27184;27186;27188;27191;27195;27198;27199;27205;27206;27209;27210;27214];
 [27216;27217;27218;27221;27222;27227;27236;27239;27242;27249;27251;27262;27265;27267;27270;27271];
 [27273;27275;27281;27291;27293;27294;27295;27301;27307;27311;27312;27313;27316;27325;27326;27327];
 [27334;27337;27336;27340;27344;27348;27349;27350;27356;27357;27364;27367;27372;27376;27377;27378];
 [27388;27389;27394;27395;27398;27399;27401;27407;27408;27409;27415;27419;27422;27428;27432;27435];
 [27436;27439;27445;27446;27451;27455;27462;27466;27469;27474;27478;27480;27485;27488;27495;27499];
 [27502;27504;27509;27517;27518;27522;27525;27543;27547;27551;27552;27554;27555;27560;27561;27564];
 [27565;27566;27568;27576;27577;27581;27582;27587;27588;27593;27596;27606;27610;27617;27619;27622];
 [27623;27630;27633;27639;27641;27647;27650;27652;27653;27657;27661;27662;27664;27666;27673;27679];
 [27686;27687;27688;27692;27694;27699;27701;27702;27706;27707;27711;27722;27723;27725;27727;27730];
 [27732;27737;27739;27740;27755;27757;27759;27764;27766;27768;27769;27771;27781;27782;27783;27785];
 [27796;27797;27799;27800;27804;27807;27824;27826;27828;27842;27846;27853;27855;27856;27857;27858];
 [27860;27862;27866;27868;27872;27879;27881;27883;27884;27886;27890;27892;27908;27911;27914;27918];
 [27919;27921;27923;27930;27942;27943;27944;27751;27950;27951;27953;27961;27964;27967;27991;27998];
 [27999;28001;28005;28007;28015;28016;28028;28034;28039;28049;28050;28052;28054;28055;28056;28074];
 [28076;28084;28087;28089;28093;28095;28100;28104;28106;28110;28111;28118;28123;28125;28127;28128];
 [28130;28133;28137;28143;28144;28148;28150;28156;28160;28164;28190;28194;28199;28210;28214;28217];
 [28219;28220;28228;28229;28232;28233;28235;28239;28241;28242;28243;28244;28247;28252;28253;28254];
 [28258;28259;28264;28275;28283;28285;28301;28307;28313;28320;28327;28333;28334;28337;28339;28347];
 [28351;28352;28353;28355;28359;28360;28362;28365;28366;28367;28395;28397;28398;28409;28411;28413];
 [28420;28424;28426;28428;28429;28438;28440;28442;28443;28454;28457;28458;28463;28464;28467;28470];
 [28475;28476;28461;28495;28497;28498;28499;28503;28505;28506;28509;28510;28513;28514;28520;28524];
 [28541;28542;28547;28551;28552;28555;28556;28557;28560;28562;28563;28564;28566;28570;28575;28576];
 [28581;28582;28583;28584;28590;28591;28592;28597;28598;28604;28613;28615;28616;28618;28634;28638];
 [28648;28649;28656;28661;28665;28668;28669;28672;28677;28678;28679;28685;28695;28704;28707;28719];
 [28724;28727;28729;28732;28739;28740;28744;28745;28746;28747;28756;28757;28765;28766;28750;28772];
 [28773;28780;28782;28789;28790;28798;28801;28805;28806;28820;28821;28822;28823;28824;28827;28836];
 [28843;28848;28849;28852;28855;28874;28881;28883;28884;28885;28886;28888;28892;28900;28922;28931];
 [28932;28933;28934;28935;28939;28940;28943;28958;28960;28971;28973;28975;28976;28977;28984;28993];
 [28997;28998;28999;29002;29003;29008;29010;29015;29018;29020;29022;29024;29032;29049;29056;29061];
 [29063;29068;29074;29082;29083;29088;29090;29103;29104;29106;29107;29114;29119;29120;29121;29124];
 [29131;29132;29139;29142;29145;29146;29148;29176;29182;29184;29191;29192;29193;29203;29207;29210];
 [29213;29215;29220;29227;29231;29236;29240;29241;29249;29250;29251;29253;29262;29263;29264;29267];
 [29269;29270;29274;29276;29278;29280;29283;29288;29291;29294;29295;29297;29303;29304;29307;29308];
 [29311;29316;29321;29325;29326;29331;29339;29352;29357;29358;29361;29364;29374;29377;29383;29385];
 [29388;29397;29398;29400;29407;29413;29427;29428;29434;29435;29438;29442;29444;29445;29447;29451];
 [29453;29458;29459;29464;29465;29470;29474;29476;29479;29480;29484;29489;29490;29493;29498;29499];
 [29501;29507;29517;29520;29522;29526;29528;29533;29534;29535;29536;29542;29543;29545;29547;29548];
 [29550;29551;29553;29559;29561;29564;29568;29569;29571;29573;29574;29582;29584;29587;29589;29591];
 [29592;29596;29598;29599;29600;29602;29605;29606;29610;29611;29613;29621;29623;29625;29628;29629];
 [29631;29637;29638;29641;29643;29644;29647;29650;29651;29654;29657;29661;29665;29667;29670;29671];
 [29673;29684;29685;29687;29689;29690;29691;29693;29695;29696;29697;29700;29703;29706;29713;29722];
 [29723;29732;29734;29736;29737;29738;29739;29740;29741;29742;29743;29744;29745;29753;29760;29763];
 [29764;29766;29767;29771;29773;29777;29778;29783;29789;29794;29798;29799;29800;29803;29805;29806];
 [29809;29810;29824;29825;29829;29830;29831;29833;29839;29840;29841;29842;29848;29849;29850;29852];
 [29855;29856;29857;29859;29862;29864;29865;29866;29867;29870;29871;29873;29874;29877;29881;29883];
 [29887;29896;29897;29900;29904;29907;29912;29914;29915;29918;29919;29924;29928;29930;29931;29935];
 [29940;29946;29947;29948;29951;29958;29970;29974;29975;29984;29985;29988;29991;29993;29994;29999];
 [30006;30009;30013;30014;30015;30016;30019;30023;30024;30030;30032;30034;30039;30046;30047;30049];
 [30063;30065;30073;30074;30075;30076;30077;30078;30081;30085;30096;30098;30099;30101;30105;30108];
 [30114;30116;30132;30138;30143;30144;30145;30148;30150;30156;30158;30159;30167;30172;30175;30176];
 [30177;30180;30183;30188;30190;30191;30193;30201;30208;30210;30211;30212;30215;30216;30218;30220];
 [30223;30226;30227;30229;30230;30233;30235;30236;30237;30238;30243;30245;30246;30249;30253;30258];
 [30259;30261;30264;30265;30266;30268;30282;30272;30273;30275;30276;30277;30281;30283;30293;30297];
 [30303;30308;30309;30317;30318;30319;30321;30324;30337;30341;30348;30349;30357;30363;30364;30365];
 [30367;30368;30370;30371;30372;30373;30374;30375;30376;30378;30381;30397;30401;30405;30409;30411];
 [30412;30414;30420;30425;30432;30438;30440;30444;30448;30449;30454;30457;30460;30464;30470;30474];
 [30478;30482;30484;30485;30487;30489;30490;30492;30498;30504;30509;30510;30511;30516;30517;30518];
 [30521;30525;30526;30530;30533;30534;30538;30541;30542;30543;30546;30550;30551;30556;30558;30559];
 [30560;30562;30564;30567;30570;30572;30576;30578;30579;30580;30586;30589;30592;30596;30604;30605];
 [30612;30613;30614;30618;30623;30626;30631;30634;30638;30639;30641;30645;30654;30659;30665;30673];
 [30674;30677;30681;30686;30687;30688;30692;30694;30698;30700;30704;30705;30708;30712;30715;30725];
 [30726;30729;30733;30734;30737;30749;30753;30754;30755;30765;30766;30768;30773;30775;30787;30788];
 [30791;30792;30796;30798;30802;30812;30814;30816;30817;30819;30820;30824;30826;30830;30842;30846];
 [30858;30863;30868;30872;30881;30877;30878;30879;30884;30888;30892;30893;30896;30897;30898;30899];
 [30907;30909;30911;30919;30920;30921;30924;30926;30930;30931;30933;30934;30948;30939;30943;30944];
 [30945;30950;30954;30962;30963;30976;30966;30967;30970;30971;30975;30982;30988;30992;31002;31004];
 [31006;31007;31008;31013;31015;31017;31021;31025;31028;31029;31035;31037;31039;31044;31045;31046];
 [31050;31051;31055;31057;31060;31064;31067;31068;31079;31081;31083;31090;31097;31099;31100;31102];
 [31115;31116;31121;31123;31124;31125;31126;31128;31131;31132;31137;31144;31145;31147;31151;31153];
 [31156;31160;31163;31170;31172;31175;31176;31178;31183;31188;31190;31194;31197;31198;31200;31202];
 [31205;31210;31211;31213;31217;31224;31228;31234;31235;31239;31241;31242;31244;31249;31253;31259];
 [31262;31265;31271;31275;31277;31279;31280;31284;31285;31288;31289;31290;31300;31301;31303;31304];
 [31308;31317;31318;31321;31324;31325;31327;31328;31333;31335;31338;31341;31349;31352;31358;31360];
 [31362;31365;31366;31370;31371;31376;31377;31380;31390;31392;31395;31404;31411;31413;31417;31419];
 [31420;31430;31433;31436;31438;31441;31451;31464;31465;31467;31468;31473;31476;31483;31485;31486];
 [31495;31508;31519;31523;31527;31529;31530;31531;31533;31534;31535;31536;31537;31540;31549;31551];
 [31552;31553;31559;31566;31573;31584;31588;31590;31593;31594;31597;31599;31602;31603;31607;31620];
 [31625;31630;31632;31633;31638;31643;31646;31648;31653;31660;31663;31664;31666;31669;31670;31674];
 [31675;31676;31677;31682;31685;31688;31690;31700;31702;31703;31705;31706;31707;31720;31722;31730];
 [31732;31733;31736;31737;31738;31740;31742;31745;31746;31747;31748;31750;31753;31755;31756;31758];
 [31759;31769;31771;31776;31781;31782;31784;31788;31793;31795;31796;31798;31801;31802;31814;31818];
 [31829;31825;31826;31827;31833;31834;31835;31836;31837;31838;31841;31843;31847;31849;31853;31854];
 [31856;31858;31865;31868;31869;31878;31879;31887;31892;31902;31904;31910;31920;31926;31927;31930];
 [31931;31932;31935;31940;31943;31944;31945;31949;31951;31955;31956;31957;31959;31961;31962;31965];
 [31974;31977;31979;31989;32003;32007;32008;32009;32015;32017;32018;32019;32022;32029;32030;32035];
 [32038;32042;32045;32049;32060;32061;32062;32064;32065;32071;32072;32077;32081;32083;32087;32089];
 [32090;32092;32093;32101;32103;32106;32112;32120;32122;32123;32127;32129;32130;32131;32133;32134];
 [32136;32139;32140;32141;32145;32150;32151;32157;32158;32166;32167;32170;32179;32182;32183;32185];
 [32194;32195;32196;32197;32198;32204;32205;32206;32215;32217;32256;32226;32229;32230;32234;32235];
 [32237;32241;32245;32246;32249;32250;32264;32272;32273;32277;32279;32284;32285;32288;32295;32296];
 [32300;32301;32303;32307;32310;32319;32324;32325;32327;32334;32336;32338;32344;32351;32353;32354];
 [32357;32363;32366;32367;32371;32376;32382;32385;32390;32391;32394;32397;32401;32405;32408;32410];
 [32413;32414;32572;32571;32573;32574;32575;32579;32580;32583;32591;32594;32595;32603;32604;32605];
 [32609;32611;32612;32613;32614;32621;32625;32637;32638;32639;32640;32651;32653;32655;32656;32657];
 [32662;32663;32668;32673;32674;32678;32682;32685;32692;32700;32703;32704;32707;32712;32718;32719];
 [32731;32735;32739;32741;32744;32748;32750;32751;32754;32762;32765;32766;32767;32775;32776;32778];
 [32781;32782;32783;32785;32787;32788;32790;32797;32798;32799;32800;32804;32806;32812;32814;32816];
 [32820;32821;32823;32825;32826;32828;32830;32832;32836;32864;32868;32870;32877;32881;32885;32897];
 [32904;32910;32924;32926;32934;32935;32939;32952;32953;32968;32973;32975;32978;32980;32981;32983];
 [32984;32992;33005;33006;33008;33010;33011;33014;33017;33018;33022;33027;33035;33046;33047;33048];
 [33052;33054;33056;33060;33063;33068;33072;33077;33082;33084;33093;33095;33098;33100;33106;33111];
 [33120;33121;33127;33128;33129;33133;33135;33143;33153;33168;33156;33157;33158;33163;33166;33174];
 [33176;33179;33182;33186;33198;33202;33204;33211;33227;33219;33221;33226;33230;33231;33237;33239];
 [33243;33245;33246;33249;33252;33259;33260;33264;33265;33266;33269;33270;33272;33273;33277;33279];
 [33280;33283;33295;33299;33300;33305;33306;33309;33313;33314;33320;33330;33332;33338;33347;33348];
 [33349;33350;33355;33358;33359;33361;33366;33372;33376;33379;33383;33389;33396;33403;33405;33407];
 [33408;33409;33411;33412;33415;33417;33418;33422;33425;33428;33430;33432;33434;33435;33440;33441];
 [33443;33444;33447;33448;33449;33450;33454;33456;33458;33460;33463;33466;33468;33470;33471;33478];
 [33488;33493;33498;33504;33506;33508;33512;33514;33517;33519;33526;33527;33533;33534;33536;33537];
 [33543;33544;33546;33547;33620;33563;33565;33566;33567;33569;33570;33580;33581;33582;33584;33587];
 [33591;33594;33596;33597;33602;33603;33604;33607;33613;33614;33617;33621;33622;33623;33648;33656];
 [33661;33663;33664;33666;33668;33670;33677;33682;33684;33685;33688;33689;33691;33692;33693;33702];
 [33703;33705;33708;33726;33727;33728;33735;33737;33743;33744;33745;33748;33757;33619;33768;33770];
 [33782;33784;33785;33788;33793;33798;33802;33807;33809;33813;33817;33709;33839;33849;33861;33863];
 [33864;33866;33869;33871;33873;33874;33878;33880;33881;33882;33884;33888;33892;33893;33895;33898];
 [33904;33907;33908;33910;33912;33916;33917;33921;33925;33938;33939;33941;33950;33958;33960;33961];
 [33962;33967;33969;33972;33978;33981;33982;33984;33986;33991;33992;33996;33999;34003;34012;34023];
 [34026;34031;34032;34033;34034;34039;34098;34042;34043;34045;34050;34051;34055;34060;34062;34064];
 [34076;34078;34082;34083;34084;34085;34087;34090;34091;34095;34099;34100;34102;34111;34118;34127];
 [34128;34129;34130;34131;34134;34137;34140;34141;34142;34143;34144;34145;34146;34148;34155;34159];
 [34169;34170;34171;34173;34175;34177;34181;34182;34185;34187;34188;34191;34195;34200;34205;34207];
 [34208;34210;34213;34215;34228;34230;34231;34232;34236;34237;34238;34239;34242;34247;34250;34251];
 [34254;34221;34264;34266;34271;34272;34278;34280;34285;34291;34294;34300;34303;34304;34308;34309];
 [34317;34318;34320;34321;34322;34328;34329;34331;34334;34337;34343;34345;34358;34360;34362;34364];
 [34365;34368;34370;34374;34386;34387;34390;34391;34392;34393;34397;34400;34401;34402;34403;34404];
 [34409;34412;34415;34421;34422;34423;34426;34445;34449;34454;34456;34458;34460;34465;34470;34471];
 [34472;34477;34481;34483;34484;34485;34487;34488;34489;34495;34496;34497;34499;34501;34513;34514];
 [34517;34519;34522;34524;34528;34531;34533;34535;34440;34554;34556;34557;34564;34565;34567;34571];
 [34574;34575;34576;34579;34580;34585;34590;34591;34593;34595;34600;34606;34607;34609;34610;34617];
 [34618;34620;34621;34622;34624;34627;34629;34637;34648;34653;34657;34660;34661;34671;34673;34674];
 [34683;34691;34692;34693;34694;34695;34696;34697;34699;34700;34704;34707;34709;34711;34712;34713];
 [34718;34720;34723;34727;34732;34733;34734;34737;34741;34750;34751;34753;34760;34761;34762;34766];
 [34773;34774;34777;34778;34780;34783;34786;34787;34788;34794;34795;34797;34801;34803;34808;34810];
 [34815;34817;34819;34822;34825;34826;34827;34832;34841;34834;34835;34836;34840;34842;34843;34844];
 [34846;34847;34856;34861;34862;34864;34866;34869;34874;34876;34881;34883;34885;34888;34889;34890];
 [34891;34894;34897;34901;34902;34904;34906;34908;34911;34912;34916;34921;34929;34937;34939;34944];
 [34968;34970;34971;34972;34975;34976;34984;34986;35002;35005;35006;35008;35018;35019;35020;35021];
 [35022;35025;35026;35027;35035;35038;35047;35055;35056;35057;35061;35063;35073;35078;35085;35086];
 [35087;35093;35094;35096;35097;35098;35100;35104;35110;35111;35112;35120;35121;35122;35125;35129];
 [35130;35134;35136;35138;35141;35142;35145;35151;35154;35159;35162;35163;35164;35169;35170;35171];
 [35179;35182;35184;35187;35189;35194;35195;35196;35197;35209;35213;35216;35220;35221;35227;35228];
 [35231;35232;35237;35248;35252;35253;35254;35255;35260;35284;35285;35286;35287;35288;35301;35305];
 [35307;35309;35313;35315;35318;35321;35325;35327;35332;35333;35335;35343;35345;35346;35348;35349];
 [35358;35360;35362;35364;35366;35371;35372;35375;35381;35383;35389;35390;35392;35395;35397;35399];
 [35401;35405;35406;35411;35414;35415;35416;35420;35421;35425;35429;35431;35445;35446;35447;35449];
 [35450;35451;35454;35455;35456;35459;35462;35467;35471;35472;35474;35478;35479;35481;35487;35495];
 [35497;35502;35503;35507;35510;35511;35515;35518;35523;35526;35528;35529;35530;35537;35539;35540];
 [35541;35543;35549;35551;35564;35568;35572;35573;35574;35580;35583;35589;35590;35595;35601;35612];
 [35614;35615;35594;35629;35632;35639;35644;35650;35651;35652;35653;35654;35656;35666;35667;35668];
 [35673;35661;35678;35683;35693;35702;35704;35705;35708;35710;35713;35716;35717;35723;35725;35727];
 [35732;35733;35740;35742;35743;35896;35897;35901;35902;35909;35911;35913;35915;35919;35921;35923];
 [35924;35927;35928;35931;35933;35929;35939;35940;35942;35944;35945;35949;35955;35957;35958;35963];
 [35966;35974;35975;35979;35984;35986;35987;35993;35995;35996;36004;36025;36026;36037;36038;36041];
 [36043;36047;36054;36053;36057;36061;36065;36072;36076;36079;36080;36082;36085;36087;36088;36094];
 [36095;36097;36099;36105;36114;36119;36123;36197;36201;36204;36206;36223;36226;36228;36232;36237];
 [36240;36241;36245;36254;36255;36256;36262;36267;36268;36271;36274;36277;36279;36281;36283;36288];
 [36293;36294;36295;36296;36298;36302;36305;36308;36309;36311;36313;36324;36325;36327;36332;36336];
 [36284;36337;36338;36340;36349;36353;36356;36357;36358;36363;36369;36372;36374;36384;36385;36386];
 [36387;36390;36391;36401;36403;36406;36407;36408;36409;36413;36416;36417;36427;36429;36430;36431];
 [36436;36443;36444;36445;36446;36449;36450;36457;36460;36461;36463;36464;36465;36473;36474;36475];
 [36482;36483;36489;36496;36498;36501;36506;36507;36509;36510;36514;36519;36521;36525;36526;36531];
 [36533;36538;36539;36544;36545;36547;36548;36551;36559;36561;36564;36572;36584;36590;36592;36593];
 [36599;36601;36602;36589;36608;36610;36615;36616;36623;36624;36630;36631;36632;36638;36640;36641];
 [36643;36645;36647;36648;36652;36653;36654;36660;36661;36662;36663;36666;36672;36673;36675;36679];
 [36687;36689;36690;36691;36692;36693;36696;36701;36702;36709;36765;36768;36769;36772;36773;36774];
 [36789;36790;36792;36798;36800;36801;36806;36810;36811;36813;36816;36818;36819;36821;36832;36835];
 [36836;36840;36846;36849;36853;36854;36859;36862;36866;36868;36872;36876;36888;36891;36904;36905];
 [36911;36906;36908;36909;36915;36916;36919;36927;36931;36932;36940;36955;36957;36962;36966;36967];
 [36972;36976;36980;36985;36997;37000;37003;37004;37006;37008;37013;37015;37016;37017;37019;37024];
 [37025;37026;37029;37040;37042;37043;37044;37046;37053;37068;37054;37059;37060;37061;37063;37064];
 [37077;37079;37080;37081;37084;37085;37087;37093;37074;37110;37099;37103;37104;37108;37118;37119];
 [37120;37124;37125;37126;37128;37133;37136;37140;37142;37143;37144;37146;37148;37150;37152;37157];
 [37154;37155;37159;37161;37166;37167;37169;37172;37174;37175;37177;37178;37180;37181;37187;37191];
 [37192;37199;37203;37207;37209;37210;37211;37217;37220;37223;37229;37236;37241;37242;37243;37249];
 [37251;37253;37254;37258;37262;37265;37267;37268;37269;37272;37278;37281;37286;37288;37292;37293];
 [37294;37296;37297;37298;37299;37302;37307;37308;37309;37311;37314;37315;37317;37331;37332;37335];
 [37337;37338;37342;37348;37349;37353;37354;37356;37357;37358;37359;37360;37361;37367;37369;37371];
 [37373;37376;37377;37380;37381;37382;37383;37385;37386;37388;37392;37394;37395;37398;37400;37404];
 [37405;37411;37412;37413;37414;37416;37422;37423;37424;37427;37429;37430;37432;37433;37434;37436];
 [37438;37440;37442;37443;37446;37447;37450;37453;37454;37455;37457;37464;37465;37468;37469;37472];
 [37473;37477;37479;37480;37481;37486;37487;37488;37493;37494;37495;37496;37497;37499;37500;37501];
 [37503;37512;37513;37514;37517;37518;37522;37527;37529;37535;37536;37540;37541;37543;37544;37547];
 [37551;37554;37558;37560;37562;37563;37564;37565;37567;37568;37569;37570;37571;37573;37574;37575];
 [37576;37579;37580;37581;37582;37584;37587;37589;37591;37592;37593;37596;37597;37599;37600;37601];
 [37603;37605;37607;37608;37612;37614;37616;37625;37627;37631;37632;37634;37640;37645;37649;37652];
 [37653;37660;37661;37662;37663;37665;37668;37669;37671;37673;37674;37683;37684;37686;37687;37703];
 [37704;37705;37712;37713;37714;37717;37719;37720;37722;37726;37732;37733;37735;37737;37738;37741];
 [37743;37744;37745;37747;37748;37750;37754;37757;37759;37760;37761;37762;37768;37770;37771;37773];
 [37775;37778;37781;37784;37787;37790;37793;37795;37796;37798;37800;37803;37812;37813;37814;37818];
 [37801;37825;37828;37829;37830;37831;37833;37834;37835;37836;37837;37843;37849;37852;37854;37855];
 [37858;37862;37863;37881;37879;37880;37882;37883;37885;37889;37890;37892;37896;37897;37901;37902];
 [37903;37909;37910;37911;37919;37934;37935;37937;37938;37939;37940;37947;37951;37949;37955;37957];
 [37960;37962;37964;37973;37977;37980;37983;37985;37987;37992;37995;37997;37998;37999;38001;38002];
 [38020;38019;38264;38265;38270;38276;38280;38284;38285;38286;38301;38302;38303;38305;38310;38313];
 [38315;38316;38324;38326;38330;38333;38335;38342;38344;38345;38347;38352;38353;38354;38355;38361];
 [38362;38365;38366;38367;38368;38372;38374;38429;38430;38434;38436;38437;38438;38444;38449;38451];
 [38455;38456;38457;38458;38460;38461;38465;38482;38484;38486;38487;38488;38497;38510;38516;38523];
 [38524;38526;38527;38529;38530;38531;38532;38537;38545;38550;38554;38557;38559;38564;38565;38566];
 [38569;38574;38575;38579;38586;38602;38610;23986;38616;38618;38621;38622;38623;38633;38639;38641];
 [38650;38658;38659;38661;38665;38682;38683;38685;38689;38690;38691;38696;38705;38707;38721;38723];
 [38730;38734;38735;38741;38743;38744;38746;38747;38755;38759;38762;38766;38771;38774;38775;38776];
 [38779;38781;38783;38784;38793;38805;38806;38807;38809;38810;38814;38815;38818;38828;38830;38833];
 [38834;38837;38838;38840;38841;38842;38844;38846;38847;38849;38852;38853;38855;38857;38858;38860];
 [38861;38862;38864;38865;38868;38871;38872;38873;38877;38878;38880;38875;38881;38884;38895;38897];
 [38900;38903;38904;38906;38919;38922;38937;38925;38926;38932;38934;38940;38942;38944;38947;38950];
 [38955;38958;38959;38960;38962;38963;38965;38949;38974;38980;38983;38986;38993;38994;38995;38998];
 [38999;39001;39002;39010;39011;39013;39014;39018;39020;39083;39085;39086;39088;39092;39095;39096];
 [39098;39099;39103;39106;39109;39112;39116;39137;39139;39141;39142;39143;39146;39155;39158;39170];
 [39175;39176;39185;39189;39190;39191;39194;39195;39196;39199;39202;39206;39207;39211;39217;39218];
 [39219;39220;39221;39225;39226;39227;39228;39232;39233;39238;39239;39240;39245;39246;39252;39256];
 [39257;39259;39260;39262;39263;39264;39323;39325;39327;39334;39344;39345;39346;39349;39353;39354];
 [39357;39359;39363;39369;39379;39380;39385;39386;39388;39390;39399;39402;39403;39404;39408;39412];
 [39413;39417;39421;39422;39426;39427;39428;39435;39436;39440;39441;39446;39454;39456;39458;39459];
 [39460;39463;39469;39470;39475;39477;39478;39480;39495;39489;39492;39498;39499;39500;39502;39505];
 [39508;39510;39517;39594;39596;39598;39599;39602;39604;39605;39606;39609;39611;39614;39615;39617];
 [39619;39622;39624;39630;39632;39634;39637;39638;39639;39643;39644;39648;39652;39653;39655;39657];
 [39660;39666;39667;39669;39673;39674;39677;39679;39680;39681;39682;39683;39684;39685;39688;39689];
 [39691;39692;39693;39694;39696;39698;39702;39705;39707;39708;39712;39718;39723;39725;39731;39732];
 [39733;39735;39737;39738;39741;39752;39755;39756;39765;39766;39767;39771;39774;39777;39779;39781];
 [39782;39784;39786;39787;39788;39789;39790;39795;39797;39799;39800;39801;39807;39808;39812;39813];
 [39814;39815;39817;39818;39819;39821;39823;39824;39828;39834;39837;39838;39846;39847;39849;39852];
 [39856;39857;39858;39863;39864;39867;39868;39870;39871;39873;39879;39880;39886;39888;39895;39896];
 [39901;39903;39909;39911;39914;39915;39919;39923;39927;39928;39929;39930;39933;39935;39936;39938];
 [39947;39951;39953;39958;39960;39961;39962;39964;39966;39970;39971;39974;39975;39976;39977;39978];
 [39985;39989;39990;39991;39997;40001;40003;40004;40005;40009;40010;40014;40015;40016;40019;40020];
 [40022;40024;40027;40029;40030;40031;40035;40041;40042;40028;40043;40040;40046;40048;40050;40053];
 [40055;40059;40166;40178;40183;40185;40203;40194;40209;40215;40216;40220;40221;40222;40239;40240];
 [40242;40243;40244;40250;40252;40261;40253;40258;40259;40263;40266;40275;40276;40287;40291;40290];
 [40293;40297;40298;40299;40304;40310;40311;40315;40316;40318;40323;40324;40326;40330;40333;40334];
 [40338;40339;40341;40342;40343;40344;40353;40362;40364;40366;40369;40373;40377;40380;40383;40387];
 [40391;40393;40394;40404;40405;40406;40407;40410;40414;40415;40416;40421;40423;40425;40427;40430];
 [40432;40435;40436;40446;40458;40450;40455;40462;40464;40465;40466;40469;40470;40473;40476;40477];
 [40570;40571;40572;40576;40578;40579;40580;40581;40583;40590;40591;40598;40600;40603;40606;40612];
 [40616;40620;40622;40623;40624;40627;40628;40629;40646;40648;40651;40661;40671;40676;40679;40684];
 [40685;40686;40688;40689;40690;40693;40696;40703;40706;40707;40713;40719;40720;40721;40722;40724];
 [40726;40727;40729;40730;40731;40735;40738;40742;40746;40747;40751;40753;40754;40756;40759;40761];
 [40762;40764;40765;40767;40769;40771;40772;40773;40774;40775;40787;40789;40790;40791;40792;40794];
 [40797;40798;40808;40809;40813;40814;40815;40816;40817;40819;40821;40826;40829;40847;40848;40849];
 [40850;40852;40854;40855;40862;40865;40866;40867;40869]].

(* lib/converters/jisx0212.h:963-1723 jisx0212_2charset *)
Definition jisx0212_2charset : tab := mk [
 [8770;8816;8771;8813;8812;8814;8756;8753;8811;8772;10786;10785;10788;10794;10787;10793];
 [10529;10798;10802;10801;10804;10803;10816;10815;10818;10817;10832;10834;10833;10836;10840;10835];
 [10540;10851;10850;10853;10852;10866;10544;10574;11042;11041;11044;11050;11043;11049;10561;11054];
 [11058;11057;11060;11059;11072;11071;11074;11073;10563;11088;11090;11089;11092;11096;11091;10572];
 [11107;11106;11109;11108;11122;10576;11123;10791;11047;10789;11045;10792;11048;10795;11051;10796];
 [11052;10799;11055;10797;11053;10800;11056;10530;10562;10807;11063;10806;11062;10808;11064;10805];
 [11061;10810;11066;10811;11067;10813;11069;10812;10814;11070;10532;10564;10823;11079;10821;11077];
 [10822;11078;10820;10565;10534;10566;10824;11080;10825;11081;10567;10826;11082;10828;11084;10827];
 [11083;10537;10569;10536;10568;10829;11085;10831;11087;10830;11086;10570;10539;10571;10839;11095];
 [10838;11094;10541;10573;10841;11097;10843;11099;10842;11098;10844;11100;10845;11101;10847;11103];
 [10846;11102;10849;11105;10848;11104;10543;10575;10860;11116;10857;11113;10854;11110;10859;11115];
 [10856;11112;10858;11114;10865;11121;10868;11124;10867;10869;11125;10871;11127;10870;11126;10790];
 [11046;10819;11075;10837;11093;10855;11111;10864;11120;10861;11117;10863;11119;10862;11118;11065];
 [8752;8751;8754;8758;8757;8755;8760;8761;9825;9826;9827;9828;9831;9833;9836;9846];
 [9829;9834;9841;9842;9843;9844;9851;9848;9845;9850;9847;9849;9852;10050;10051;10052];
 [10053;10054;10055;10056;10057;10058;10059;10060;10061;10062;10098;10099;10100;10101;10102;10103];
 [10104;10105;10106;10107;10108;10109;10110;8817;8815;12321;12322;12323;12324;12325;12326;12327];
 [12328;12329;12330;12331;12332;12333;12334;12335;12336;12337;12338;12339;12340;12341;12342;12343];
 [12344;12345;12346;12347;12348;12349;12350;12351;12352;12353;12354;12355;12356;12357;12358;12359];
 [12360;12361;12362;12363;12364;12365;12366;12367;12368;12369;12370;12371;12372;12373;12374;12375];
 [12376;12377;12378;12379;12380;12381;12382;12384;12385;12386;12387;12388;12389;12390;12391;12392];
 [12393;12394;12395;12396;12397;12398;12399;12400;12383;12401;12402;12403;12404;12405;12406;12407];
 [12408;12409;12410;12411;12412;12413;12414;12577;12578;12579;12580;12581;12582;12583;12584;12585];
 [12586;12587;12588;12589;12590;12591;12592;12593;12594;12595;12596;12597;12598;12599;12600;12601];
 [12602;12603;12604;12605;12606;12607;12608;12609;12610;12611;12612;12613;12614;12615;12616;12617];
 [12618;12619;12620;12621;12622;12623;12624;12625;12626;12627;12628;12629;12630;12631;12632;12633];
 [12634;12635;12636;12637;12638;12662;12639;12640;12641;12642;12643;12644;12645;12646;12647;12648];
 [12649;12650;12651;12652;12653;12654;12655;12656;12657;12658;12659;12660;12661;12663;12664;12665];
 [12666;12667;12668;12669;12670;12833;12834;12835;12836;12837;12838;12839;12840;12841;12842;12843];
 [12844;12845;12846;12847;12848;12849;12850;12851;12852;12853;12854;12855;12856;12857;12858;12859];
 [12860;12861;12862;12863;12864;12865;12866;12867;12868;12869;12881;12870;12871;12872;12873;12874];
 [12875;12876;12877;12878;12879;12880;12882;12883;12884;12885;12886;12887;12888;12889;12890;12891];
 [12892;12893;12894;12895;12896;12897;12898;12899;12900;12901;12902;12903;12904;12905;12906;12907];
 [12908;12909;12910;12911;12912;12913;12914;12915;12916;12917;12918;12919;12920;12921;12922;12923];
 [12924;12925;12926;13089;13090;13091;13092;13093;13094;13095;13096;13097;13098;13099;13100;13101];
 [13102;13103;13104;13105;13106;13107;13108;13109;13110;13111;13112;13113;13114;13115;13116;13117];
 [13118;13119;13120;13121;13122;13123;13124;13125;13126;13127;13128;13129;13130;13131;13132;13133];
 [13134;13135;13136;13137;13138;13139;13140;13141;13142;13143;13144;13145;13146;13147;13148;13149];
 [13150;13151;13152;13153;13154;13155;13156;13157;13158;13159;13160;13161;13162;13163;13164;13165];
 [13166;13167;13168;13169;13170;13171;13172;13173;13174;13175;13176;13177;13178;13179;13180;13181];
 [13182;13345;13346;13347;13348;13349;13350;13351;13352;13353;13354;13355;13356;13357;13358;13359];
 [13360;13361;13362;13363;13364;13365;13366;13368;13367;13369;13370;13371;13372;13373;13374;13375];
 [13376;13377;13378;13379;13380;13381;13382;13383;13384;13385;13386;13387;13388;13389;13390;13391];
 [13392;13393;13394;13395;13396;13397;13398;13399;13400;13401;13402;13403;13404;13405;13406;13407];
 [13408;13409;13410;13411;13412;13413;13414;13415;13416;13417;13418;13419;13420;13421;13422;13423];
 [13424;13425;13426;13427;13428;13429;13430;13431;13432;13433;13434;13435;13436;13437;13438;13601];
 [13602;13603;13604;13605;13606;13607;13608;13609;13610;13611;13612;13613;13614;13615;13616;13617];
 [13618;13619;13620;13621;13622;13623;13624;13625;13626;13627;13628;13629;13630;13631;13632;13633];
 [13634;13635;13636;13637;13638;13639;13640;13641;13642;13643;13644;13645;13646;13647;13648;13649];
 [13650;13651;13652;13653;13654;13655;13656;13657;13658;13659;13660;13661;13662;13663;13664;13665];
 [13666;13667;13668;13669;13670;13671;13672;13673;13674;13675;13676;13677;13678;13679;13680;13681];
 [13682;13683;13684;13685;13686;13687;13688;13689;13690;13691;13692;13693;13694;13857;13858;13859];
 [13860;13861;13862;13863;13864;13865;13866;13867;13868;13869;13870;13871;13872;13873;13874;13875];
 [13876;13877;13878;13879;13880;13881;13882;13883;13884;13885;13886;13887;13888;13889;13890;13891];
 [13892;13893;13894;13895;13896;13897;13898;13899;13900;13901;13902;13903;13904;13905;13906;13907];
 [13908;13909;13910;13911;13912;13913;13914;13915;13916;13917;13918;13919;13920;13921;13922;13923];
 [13924;13925;13926;13927;13928;13929;13930;13931;13932;13933;13936;13937;13934;13935;13938;13939];
 [13940;13941;13942;13943;13944;13945;13946;13947;13949;13950;13948;14113;14114;14115;14116;14117];
 [14118;14119;14120;14121;14122;14123;14124;14125;14126;14127;14128;14129;14130;14131;14132;14133];
 [14134;14135;14136;14137;14138;14139;14140;14141;14142;14143;14144;14145;14146;14147;14148;14149];
 [14150;14151;14152;14153;14154;14155;14156;14157;14158;14159;14160;14161;14162;14163;14164;14165];
 [14166;14167;14176;14168;14169;14170;14171;14172;14173;14174;14175;14177;14178;14179;14180;14181];
 [14182;14183;14184;14185;14186;14187;14188;14189;14206;14190;14191;14192;14193;14194;14195;14196];
 [14197;14198;14199;14200;14201;14202;14203;14204;14205;14369;14370;14371;14372;14373;14374;14375];
 [14376;14377;14378;14379;14380;14381;14382;14383;14384;14385;14386;14387;14388;14389;14390;14391];
 [14392;14393;14394;14395;14396;14397;14398;14399;14400;14401;14402;14403;14404;14405;14406;14407];
 [14408;14409;14410;14411;14412;14413;14414;14416;14417;14415;14418;14419;14420;14421;14422;14423];
 [14424;14425;14426;14427;14428;14429;14430;14431;14432;14433;14434;14435;14436;14437;14439;14440];
 [14441;14442;14443;14444;14445;14446;14447;14448;14449;14450;14451;14452;14453;14454;14455;14456];
 [14457;14458;14459;14460;14461;14462;14625;14626;14627;14628;14629;14630;14631;14632;14633;14634];
 [14635;14636;14637;14638;14639;14640;14641;14642;14643;14644;14645;14646;14647;14648;14649;14650];
 [14651;14652;14653;14654;14655;14656;14657;14658;14659;14660;14661;14662;14663;14664;14665;14666];
 [14667;14668;14669;14670;14671;14672;14673;14674;14675;14676;14677;14678;14679;14680;14681;14682];
 [14683;14684;14685;14686;14687;14688;14689;14690;14691;14692;14693;14694;14695;14696;14697;14698];
 [14699;14700;14701;14702;14703;14704;14705;14706;14707;14708;14709;14710;14711;14712;14713;14714];
 [14715;14716;14717;14718;14881;14882;14883;14884;14885;14886;14887;14888;14889;14890;14891;14892];
 [14893;14894;14895;14896;14897;14899;14900;14901;14902;14903;14904;14898;14905;14906;14907;14908];
 [14909;14910;14911;14912;14913;14914;14915;14916;14917;14918;14919;14920;14921;14922;14923;14924];
 [14925;14926;14927;14928;14929;14930;14931;14932;14933;14934;14935;14936;14937;14938;14939;14940];
 [14941;14942;14943;14944;14945;14946;14947;14948;14949;14950;14951;14952;14953;14954;14955;14956];
 [14957;14958;14959;14960;14961;14962;14963;14964;14965;14966;14967;14968;14969;14970;14971;14972];
 [14973;14974;15137;15138;15139;15140;15141;15142;15143;15144;15145;15146;15147;15148;15149;15150];
 [15151;15152;15153;15154;15155;15156;15157;15158;15159;15160;15161;15162;15163;15165;15164;15166];
 [15167;15168;15169;15170;15171;15172;15173;15175;15176;15177;15178;15174;15179;15180;15181;15182];
 [15183;15184;15185;15186;15187;15191;15189;15188;15190;15192;15193;15194;15195;15196;15197;15198];
 [15199;15200;15201;15202;15203;15204;15205;15206;15207;15208;15209;15210;15211;15212;15213;15214];
 [15215;15216;15217;15218;26228;15219;15220;15221;15222;15223;15224;15226;15225;15227;15228;15229];
 [15230;15393;15394;15395;15396;15397;15398;15399;15400;15401;15402;15403;15404;15406;15405;15407];
 [15408;15409;15412;15410;15411;15413;15414;15415;15416;15417;15418;15419;15420;15421;15422;15423];
 [15424;15425;15426;15427;15428;15429;15430;15431;15432;15433;15434;15435;15436;15437;15438;15439];
 [15440;15442;15441;15443;15444;15445;15446;15447;15448;15449;15450;15451;15452;15453;15454;15455];
 [15456;15457;15458;15459;15460;15461;15462;15463;15464;15465;15466;15467;15468;15469;15470;15471];
 [15472;15473;15474;15475;15476;15477;15478;15479;15480;15481;15482;15483;15484;15485;15486;15649];
 [15650;15651;15652;15653;15654;15655;15656;15657;15658;15659;15660;15661;15662;15663;15666;15664];
 [15665;15667;15668;15669;15670;15671;15672;15673;15674;15675;15676;15677;15678;15679;15680;15681];
 [15682;15683;15684;15685;15686;15687;15688;15689;15690;15691;15692;15693;15694;15695;15696;15697];
 [15698;15699;15700;15701;15702;15703;15704;15705;15706;15707;15708;15709;15710;15711;15712;15713];
 [15714;15715;15716;15717;15718;15719;15720;15721;15722;15723;15724;15725;15726;15727;15728;15729];
 [15730;15731;15732;15733;15734;15735;15736;15737;15738;15739;15740;15741;15742;15905;15906;15907];
 [15908;15909;15910;15911;15912;15913;15914;15915;15916;15917;15918;15919;15920;15921;15922;15923];
 [15924;15925;15926;15927;15928;15929;15930;15931;15932;15933;15934;15935;15936;15937;15938;15939];
 [15940;15941;15942;15943;15944;15945;15946;15947;15948;15949;15950;15951;15952;15953;15954;15955];
 [15956;15957;15958;15959;15960;15961;15962;15963;15964;15965;15966;15967;15968;15969;15970;15971];
 [15972;15973;15974;15975;15976;15977;15978;15979;15980;15981;15982;15983;15984;15985;15986;15987];
 [15988;15989;15990;15991;15992;15993;15994;15995;15998;15996;15997;16161;16162;16163;16164;16165];
 [16166;16167;16168;16169;16170;16171;16172;16173;16174;16175;16176;16177;16178;16179;16180;16181];
 [16182;16183;16184;16185;16186;16187;16188;16189;16190;16191;16192;16193;16194;16195;16196;16197];
 [16198;16199;16200;16201;16202;16203;16204;16205;16206;16207;16208;16209;16210;16211;16212;16213];
 [16214;16215;16216;16217;16218;16219;16220;16221;16222;16223;16224;16225;16226;16227;16228;16229];
 [16230;16231;16232;16233;16234;16235;16236;16237;16238;16239;16240;16241;16242;16243;16244;16245];
 [16246;16247;16248;16249;16250;16251;16252;16253;16254;16417;16418;16419;16420;16421;16422;16423];
 [16424;16425;16426;16427;16428;16429;16430;16431;16432;16433;16434;16435;16436;16437;16438;16439];
 [16440;16441;16442;16443;16444;16445;16446;16447;16448;16449;16450;16451;16452;16453;16454;16455];
 [16456;16457;16458;16459;16460;16461;16462;16463;16464;16465;16466;16467;16468;16469;16470;16471];
 [16472;16473;16474;16475;16476;16477;16478;16479;16480;16481;16482;16483;16484;16485;16486;16487];
 [16488;16489;16490;16491;16492;16493;16494;16495;16496;16497;16498;16499;16500;16501;16502;16503];
 [16504;16505;16506;16507;16508;16509;16510;16673;16674;16675;16676;16677;16678;16679;16680;16681];
 [16682;16683;16684;16685;16686;16687;16688;16689;16690;16691;16692;16693;16694;16695;16696;16697];
 [16698;16699;16700;16701;16702;16703;16704;16705;16706;16707;16708;16709;16710;16711;16712;16713];
 [16714;16715;16716;16717;16718;16719;16720;16721;16722;16723;16724;16725;16726;16727;16728;16729];
 [16730;16731;16732;16733;16734;16735;16736;16737;16738;16739;16740;16741;16742;16743;16744;16745];
 [16746;16747;16748;16749;16750;16751;16752;16753;16754;16755;16756;16757;16758;16759;16760;16761];
 [16762;16763;16764;16765;16766;16929;16930;16931;16932;16933;16934;16935;16936;16937;16938;16939];
 [16940;16941;16942;16944;16943;16945;16946;16947;16948;16949;16951;16950;16952;16953;16954;16955];
 [16956;16957;16958;16960;16961;16962;16964;16965;16967;16968;16969;16970;16972;16963;16966;16971];
 [16973;16974;16975;16976;16977;16978;16979;16980;16981;16982;16983;16984;16985;16986;16987;16988];
 [16989;16990;16991;16992;16993;16994;16995;16996;16997;16998;16999;17000;17001;17002;17003;17004];
 [17005;16959;17006;17007;17008;17009;17010;17011;17012;17013;17014;17015;17016;17017;17018;17019];
 [17020;17021;17022;17185;17186;17187;17188;17189;17190;17191;17192;17193;17194;17195;17196;17197];
 [17198;17199;17200;17201;17202;17203;17204;17205;17206;17207;17209;17210;17211;17212;17213;17214];
 [17215;17216;17217;17218;17219;17220;17221;17222;17223;17224;17208;17226;17227;17228;17229;17231];
 [17230;17232;17233;17234;17235;17236;17237;17238;17239;17240;17241;17242;17243;17225;17244;17245];
 [17246;17247;17248;17249;17250;17251;17252;17253;17254;17255;17256;17257;17258;17259;17260;17261];
 [17262;17263;17264;17265;17266;17267;17268;17269;17270;17271;17272;17273;17274;17275;17276;17277];
 [17278;17441;17442;17443;17444;17445;17446;17447;17448;17449;17450;17451;17452;17453;17454;17455];
 [17456;17457;17458;17459;17460;17461;17462;17463;17464;17465;17466;17467;17468;17469;17470;17471];
 [17472;17473;17474;17475;17476;17477;17478;17479;17480;17481;17482;17483;17484;17485;17486;17487];
 [17488;17489;17490;17491;17492;17493;17494;17495;17496;17497;17498;17499;17500;17501;17502;17503];
 [17504;17505;17506;17507;17508;17509;17510;17511;17512;17513;17514;17515;17516;17517;17518;17519];
 [17520;17521;17522;17523;17524;17525;17526;17527;17528;17529;17530;17531;17532;17533;17534;17697];
 [17698;17699;17700;17701;17702;17703;17704;17705;17706;17707;17708;17709;17710;17711;17712;17713];
 [17714;17715;17716;17717;17718;17719;17720;17721;17722;17723;17724;17725;17726;17727;17728;17729];
 [17730;17731;17732;17733;17734;17735;17736;17737;17738;17739;17741;17740;17742;17743;17744;17745];
 [17746;17747;17748;17749;17750;17751;17752;17753;17754;17755;17756;17757;17758;17759;17760;17761];
 [17762;17763;17764;17765;17766;17767;17768;17769;17770;17771;17772;17773;17774;17775;17776;17777];
 [17778;17779;17780;17781;17782;17783;17784;17785;17786;17787;17788;17789;17790;17953;17954;17955];
 [17956;17957;17958;17959;17960;17961;17962;17963;17964;17965;17966;17967;17968;17969;17970;17971];
 [17972;17973;17974;17975;17976;17977;17978;17979;17980;17981;17982;17983;17984;17985;17986;17987];
 [17988;17989;17990;17991;17992;17993;17994;17995;17996;17997;17998;17999;18000;18001;18002;18003];
 [18004;18005;18006;18007;18008;18009;18010;18011;18012;18013;18014;18015;18016;18230;18017;18018];
 [18019;18020;18021;18022;18023;18024;18025;18026;18027;18028;18029;18030;18031;18032;18033;18034];
 [18035;18036;18037;18038;18039;18040;18041;18042;18043;18044;18045;18046;18209;18210;18211;18212];
 [18213;18214;18215;18216;18217;18218;18219;18220;18221;18222;18223;18224;18225;18226;18227;18228];
 [18229;18231;18232;18233;18234;18235;18236;18237;18238;18239;18240;18241;18242;18243;18244;18245];
 [18246;18247;18248;18249;18250;18251;18252;18253;18254;18255;18256;18257;18258;18259;18260;18261];
 [18262;18263;18264;18265;18266;18267;18268;18269;18270;18271;18272;18273;18274;18275;18276;18277];
 [18278;18279;18280;18281;18282;18283;18284;18285;18286;18287;18288;18289;18290;18291;18292;18293];
 [18294;18295;18296;18297;18298;18299;18300;18301;18302;18465;18466;18467;18468;18469;18470;18471];
 [18472;18473;18474;18475;18476;18477;18478;18479;18480;18481;18482;18483;18484;18485;18486;18487];
 [18488;18489;18490;18491;18492;18493;18494;18495;18496;18497;18498;18499;18500;18501;18502;18503];
 [18504;18505;18506;18507;18508;18515;18509;18510;18511;18512;18513;18514;18516;18517;18518;18519];
 [18520;18521;18522;18523;18524;18525;18526;18527;18528;18529;18530;18531;18532;18533;18534;18535];
 [18536;18537;18538;18539;18540;18541;18542;18543;18544;18545;18546;18547;18548;18549;18550;18551];
 [18552;18553;18554;18555;18556;18557;18558;18721;18722;18723;18724;18725;18726;18727;18728;18729];
 [18730;18731;18732;18733;18734;18735;18736;18737;18738;18739;18740;18741;18742;18743;18744;18745];
 [18746;18747;18748;18753;18749;18750;18751;18752;18754;18755;18756;18757;18758;18759;18760;18761];
 [18762;18763;18764;18765;18766;18767;18768;18769;18770;18771;18772;18773;18774;18775;18776;18777];
 [18778;18779;18780;18781;18782;18783;18784;18785;18786;18787;18788;18789;18790;18791;18792;18793];
 [18794;18795;18796;18797;18798;18799;18800;18801;18802;18803;18804;18805;18806;18807;18808;18809];
 [18810;18811;18812;18813;18814;18977;18978;18979;18980;18981;18982;18983;18984;18985;18986;18987];
 [18988;18989;18990;18991;18992;18993;18994;18995;18996;18997;18998;18999;19000;19001;19002;19003];
 [19004;19005;19006;19007;19008;19009;19010;19011;19012;19013;19014;19015;19016;19017;19018;19019];
 [19020;19021;19022;19023;19024;19025;19026;19027;19028;19029;19030;19031;19032;19033;19034;19035];
 [19036;19037;19038;19039;19040;19041;19042;19043;19044;19045;19046;19047;19048;19049;19050;19051];
 [19052;19053;19054;19055;19056;19057;19058;19059;19060;19061;19062;19063;19064;19065;19066;19067];
 [19068;19069;19070;19233;19234;19235;19236;19237;19238;19239;19240;19241;19242;19243;19244;19245];
 [19246;19247;19248;19249;19250;19251;19252;19253;19254;19255;19256;19257;19258;19259;19260;19261];
 [19262;19263;19264;19265;19266;19267;19268;19269;19270;19271;19272;19273;19274;19275;19276;19277];
 [19278;19279;19280;19281;19282;19283;19284;19285;19286;19287;19288;19289;19290;19291;19292;19293];
 [19294;19295;19296;19297;19298;19299;19300;19301;19302;19303;19304;19305;19306;19307;19308;19309];
 [19310;19311;19312;19313;19314;19315;19316;19317;19318;19319;19320;19321;19322;19323;19324;19325];
 [19326;19489;19490;19491;19492;19493;19494;19495;19496;19497;19498;19499;19500;19501;19502;19503];
 [19504;19505;19506;19507;19508;19509;19510;19511;19512;19513;19514;19515;19516;19517;19518;19519];
 [19520;19521;19522;19523;19524;19525;19526;19527;19528;19529;19530;19531;19532;19533;19534;19535];
 [19536;19537;19538;19539;19540;19541;19542;19543;19544;19545;19546;19547;19548;19549;19550;19551];
 [19552;19553;19554;19555;19556;19557;19558;19559;19560;19561;19562;19563;19564;19565;19566;19567];
 [19568;19569;19570;19571;19572;19573;19574;19575;19576;19577;19578;19579;19580;19581;19582;19745];
 [19746;19747;19748;19749;19750;19751;19752;19753;19754;19755;19756;19757;19758;19759;19760;19761];
 [19762;19763;19764;19765;19766;19767;19768;19769;19770;19771;19772;19773;19774;19775;19776;19777];
 [19778;19779;19780;19781;19782;19783;19784;19785;19786;19787;19788;19789;19790;19791;19792;19793];
 [19794;19795;19796;19797;19798;19799;19800;19801;19802;19803;19804;19805;19806;19807;19808;19809];
 [19810;19811;19812;19813;19814;19815;19816;19817;19818;19819;19820;19821;19822;19823;19824;19825];
 [19826;19827;19828;19829;19830;19831;19832;19833;19834;19835;19836;19837;19838;20001;20002;20004];
 [20005;20006;20007;20008;20009;20003;20010;20011;20012;20013;20014;20015;20016;20017;20018;20019];
 [20020;20021;20022;20023;20024;20025;20026;20027;20028;20029;20030;20031;20032;20033;20034;20035];
 [20036;20037;20038;20039;20040;20041;20042;20043;20044;20045;20046;20047;20048;20049;20050;20051];
 [20052;20053;20054;20055;20056;20057;20058;20059;20060;20061;20062;20063;20064;20065;20066;20067];
 [20068;20069;20070;20071;20072;20073;20074;20075;20076;20077;20078;20079;20080;20081;20082;20083];
 [20084;20085;20086;20087;20088;20089;20090;20091;20092;20093;20094;20257;20258;20259;20260;20261];
 [20262;20263;20264;20265;20266;20267;20268;20269;20270;20271;20272;20273;20274;20275;20276;20277];
 [20278;20279;20280;20281;20282;20283;20284;20285;20286;20287;20288;20289;20290;20291;20292;20293];
 [20294;20295;20296;20297;20298;20299;20300;20301;20302;20303;20304;20305;20306;20307;20308;20309];
 [20310;20311;20312;20313;20314;20315;20316;20317;20318;20319;20320;20321;20322;20323;20324;20325];
 [20326;20327;20328;20329;20330;20331;20332;20333;20334;20335;20336;20337;20338;20340;20341;20342];
 [20339;20343;20344;20345;20346;20347;20348;20349;20350;20513;20514;20515;20516;20517;20518;20519];
 [20520;20521;20522;20523;20524;20526;20527;20528;20529;20525;20530;20531;20532;20533;20535;20536];
 [20537;20538;20539;20534;20540;20541;20542;20543;20544;20545;20546;20547;20548;20549;20550;20551];
 [20552;20553;20554;20555;20556;20557;20558;20559;20560;20561;20562;20563;20564;20565;20566;20567];
 [20568;20569;20570;20571;20572;20573;20574;20575;20576;20577;20578;20579;20580;20581;20582;20583];
 [20584;20585;20586;20587;20588;20589;20590;20591;20592;20593;20594;20595;20596;20597;20598;20599];
 [20600;20601;20602;20603;20604;20605;20606;20769;20770;20771;20772;20773;20774;20775;20776;20777];
 [20778;20779;20780;20781;20782;20783;20784;20785;20786;20787;20788;20789;20790;20791;20792;20793];
 [20794;20795;20796;20797;20798;20799;20800;20801;20802;20803;20804;20805;20806;20807;20808;20809];
 [20810;20811;20812;20813;20814;20815;20816;20817;20818;20819;20820;20821;20822;20823;20824;20825];
 [20826;20827;20828;20829;20830;20831;20832;20833;20834;20835;20836;20837;20838;20839;20840;20841];
 [20842;20843;20844;20845;20846;20847;20848;20849;20850;20851;20852;20853;20854;20855;20856;20857];
 [20858;20859;20860;20861;20862;21025;21026;21027;21028;21029;21030;21031;21032;21033;21034;21035];
 [21036;21037;21038;21039;21040;21041;21042;21043;21044;21045;21046;21047;21048;21049;21050;21051];
 [21052;21053;21054;21055;21056;21057;21058;21059;21060;21061;21062;21063;21064;21065;21066;21067];
 [21068;21069;21070;21071;21072;21073;21074;21075;21076;21077;21078;21079;21080;21081;21082;21083];
 [21084;21085;21086;21087;21088;21089;21090;21091;21092;21093;21094;21095;21096;21097;21098;21099];
 [21100;21101;21102;21103;21104;21105;21106;21107;21108;21110;21111;21112;21109;21113;21114;21115];
 [21116;21117;21118;21281;21282;21283;21284;21285;21286;21287;21288;21289;21290;21291;21292;21293];
 [21294;21295;21296;21297;21298;21299;21300;21301;21302;21303;21304;21305;21306;21307;21308;21309];
 [21310;21311;21312;21313;21314;21315;21316;21317;21318;21319;21320;21321;21322;21323;21324;21325];
 [21326;21327;21328;21329;21330;21331;21332;21333;21334;21335;21336;21337;21338;21339;21340;21341];
 [21342;21343;21344;21345;21346;21347;21348;21349;21350;21351;21352;21353;21354;21355;21356;21357];
 [21358;21359;21360;21361;21362;21363;21364;21365;21366;21367;21368;21369;21370;21371;21372;21373];
 [21374;21537;21538;21539;21540;21541;21542;21543;21544;21545;21546;21547;21548;21549;21550;21551];
 [21552;21553;21554;21556;21557;21558;21559;21560;21561;21562;21563;21564;21565;21566;21555;21567];
 [21568;21569;21570;21571;21572;21573;21574;21575;21576;21577;21578;21579;21580;21581;21582;21583];
 [21584;21585;21586;21587;21588;21589;21590;21591;21592;21593;21594;21595;21596;21597;21598;21599];
 [21600;21601;21602;21603;21604;21605;21606;21607;21608;21609;21610;21612;21611;21613;21614;21615];
 [21616;21617;21618;21619;21620;21621;21622;21623;21624;21625;21626;21627;21628;21629;21630;21793];
 [21794;21795;21796;21797;21798;21799;21800;21801;21802;21803;21804;21805;21806;21807;21808;21809];
 [21810;21811;21812;21813;21814;21815;21816;21817;21818;21819;21820;21821;21822;21823;21824;21825];
 [21826;21827;21828;21829;21830;21831;21832;21833;21834;21835;21836;21837;21838;21839;21840;21841];
 [21842;21843;21844;21845;21846;21847;21848;21849;21850;21851;21852;21853;21854;21855;21856;21857];
 [21858;21859;21860;21861;21862;21863;21864;21865;21866;21867;21868;21869;21870;21871;21872;21873];
 [21874;21875;21876;21877;21878;21879;21880;21881;21882;21883;21884;21885;21886;22049;22050;22051];
 [22052;22053;22054;22055;22056;22057;22058;22059;22060;22061;22062;22063;22064;22065;22066;22067];
 [22068;22069;22070;22071;22072;22073;22074;22075;22076;22077;22078;22079;22080;22081;22082;22083];
 [22084;22085;22087;22088;22089;22090;22091;22086;22092;22093;22094;22095;22096;22097;22098;22099];
 [22100;22102;22103;22104;22101;22105;22106;22107;22108;22109;22110;22111;22112;22113;22114;22115];
 [22116;22117;22118;22119;22120;22121;22122;22123;22124;22125;22126;22127;22128;22129;22130;22131];
 [22132;22133;22134;22135;22136;22137;22138;22139;22140;22141;22142;22305;22306;22307;22308;22309];
 [22310;22311;22312;22313;22314;22315;22316;22317;22318;22319;22320;22321;22322;22323;22324;22325];
 [22326;22327;22328;22329;22330;22331;22332;22333;22334;22335;22336;22337;22338;22339;22340;22341];
 [22342;22343;22344;22345;22346;22347;22348;22349;22350;22351;22352;22353;22354;22355;22356;22357];
 [22358;22359;22360;22361;22362;22363;22364;22365;22366;22367;22368;22369;22370;22372;22373;22374];
 [22375;22376;22377;22378;22379;22380;22381;22382;22383;22384;22385;22386;22387;22388;22389;22390];
 [22391;22392;22393;22590;22371;22394;22395;22396;22397;22398;22561;22562;22563;22564;22565;22566];
 [22567;22568;22569;22570;22571;22572;22573;22574;22575;22576;22577;22578;22579;22604;22580;22581];
 [22582;22583;22584;22585;22586;22587;22588;22589;22591;22592;22593;22594;22595;22596;22597;22598];
 [22599;22600;22601;22602;22603;22605;22606;22607;22608;22609;22610;22611;22612;22613;22614;22615];
 [22616;22617;22618;22619;22620;22621;22622;22623;22624;22625;22626;22627;22628;22629;22630;22631];
 [22632;22633;22634;22635;22636;22637;22638;22639;22640;22641;22642;22643;22644;22645;22646;22647];
 [22648;22649;22650;22651;22652;22653;22654;22817;22818;22819;22820;22821;22822;22823;22824;22826];
 [22827;22828;22829;22830;22831;22832;22833;22834;22835;22836;22837;22838;22839;22840;22841;22842];
 [22843;22844;22825;22845;22846;22847;22848;22849;22850;22851;22852;22853;22854;22855;22856;22857];
 [22858;22859;22860;22861;22862;22863;22864;22865;22866;22867;22868;22869;22870;22871;22872;22873];
 [22874;22875;22876;22877;22878;22879;22880;22881;22882;22883;22884;22885;22886;22900;22887;22888];
 [22889;22890;22891;22892;22893;22894;22895;22896;22897;22898;22899;22901;22902;22903;22904;22905];
 [22906;22907;22908;22909;22910;23073;23074;23075;23076;23077;23078;23079;23080;23081;23082;23083];
 [23084;23085;23086;23087;23088;23089;23090;23091;23092;23093;23094;14438;23095;23096;23097;23098];
 [23099;23100;23101;23102;23103;23104;23105;23106;23107;23108;23109;23110;23111;23112;23113;23114];
 [23115;23149;23116;23117;23118;23119;23120;23121;23122;23123;23124;23125;23126;23127;23128;23129];
 [23130;23131;23132;23133;23134;23135;23136;23137;23138;23139;23140;23141;23142;23143;23144;23145];
 [23146;23147;23148;23150;23151;23152;23153;23154;23155;23156;23157;23158;23159;23160;23161;23162];
 [23163;23164;23165;23166;23329;23330;23331;23332;23333;23334;23335;23336;23337;23338;23339;23340];
 [23341;23342;23343;23344;23345;23346;23347;23348;23349;23350;23351;23352;23353;23354;23355;23356];
 [23357;23358;23359;23360;23361;23362;23363;23364;23365;23366;23367;23368;23369;23370;23371;23372];
 [23373;23374;23375;23376;23377;23378;23379;23380;23381;23382;23383;23384;23385;23386;23387;23388];
 [23389;23390;23391;23392;23393;23394;23395;23396;23397;23398;23399;23400;23401;23402;23403;23404];
 [23405;23406;23408;23409;23410;23411;23407;23412;23413;23414;23415;23416;23417;23418;23419;23420];
 [23421;23422;23585;23586;23587;23588;23589;23590;23591;23592;23593;23594;23595;23596;23597;23598];
 [23599;23600;23601;23602;23603;23604;23605;23606;23607;23608;23609;23610;23611;23612;23613;23614];
 [23615;23616;23617;23618;23619;23620;23621;23622;23623;23624;23625;23626;23627;23628;23629;23630];
 [23631;23632;23633;23634;23635;23636;23637;23638;23639;23640;23641;23642;23643;23644;23645;23646];
 [23647;23648;23649;23650;23651;23652;23653;23654;23655;23656;23657;23658;23659;23660;23661;23662];
 [23663;23664;23665;23666;23667;23668;23669;23670;23671;23672;23673;23674;23675;23676;23677;23678];
 [23841;23842;23843;23844;23845;23846;23847;23848;23849;23850;23851;23852;23853;23854;23855;23856];
 [23857;23858;23859;23860;23861;23862;23863;23864;23865;23866;23867;23868;23869;23870;23871;23872];
 [23873;23874;23875;23876;23877;23878;23879;23880;23881;23882;23883;23884;23885;23886;23887;23888];
 [23889;23890;23891;23892;23893;23894;23895;23896;23897;23898;23899;23900;23901;23902;23903;23904];
 [23905;23906;23907;23908;23909;23910;23911;23912;23913;23914;23915;23916;23917;23918;23919;23920];
 [23921;23922;23923;23924;23925;23926;23927;23928;23929;23930;23931;23932;23933;23934;24097;24098];
 [24099;24100;24101;24102;24103;24104;24105;24106;24107;24108;24109;24110;24111;24112;24113;24114];
 [24115;24116;24117;24118;24119;24120;24121;24127;24122;24123;24124;24125;24126;24128;24129;24130];
 [24131;24132;24133;24134;24135;24136;24137;24142;24138;24139;24140;24141;24143;24144;24145;24146];
 [24147;24148;24149;24150;24151;24152;24153;24154;24155;24156;24157;24158;24159;24160;24161;24162];
 [24163;24164;24165;24166;24167;24168;24169;24170;24171;24172;24173;24174;24175;24178;24176;24177];
 [24179;24180;24181;24182;24183;24184;24185;24186;24187;24188;24189;24190;24353;24354;24355;24356];
 [24357;24358;24359;24360;24361;24362;24363;24364;24365;24366;24367;24368;24370;24369;24371;24372];
 [24373;24374;24375;24376;24377;24378;24379;24380;24381;24382;24383;24384;24385;24386;24387;24388];
 [24389;24390;24391;24392;24393;24394;24395;24396;24397;24398;24399;24400;24401;24402;24403;24404];
 [24405;24406;24407;24408;24409;24410;24411;24412;24413;24431;24414;24415;24416;24417;24418;24419];
 [24420;24421;24422;24423;24424;24425;24426;24427;24428;24429;24430;24432;24433;24434;24435;24436];
 [24437;24438;24439;24440;24441;24442;24443;24444;24445;24446;24609;24610;24611;24612;24613;24614];
 [24615;24616;24617;24618;24619;24620;24621;24622;24623;24624;24625;24626;24627;24628;24629;24630];
 [24631;24632;24633;24634;24635;24636;24637;24638;24639;24640;24641;24642;24643;24644;24645;24646];
 [24647;24648;24649;24650;24651;24652;24653;24654;24655;24656;24657;24658;24659;24660;24661;24662];
 [24663;24664;24665;24666;24667;24668;24669;24676;24670;24671;24672;24673;24674;24675;24677;24678];
 [24679;24680;24681;24682;24683;24684;24685;24686;24687;24688;24689;24690;24691;24692;24693;24694];
 [24695;24696;24697;24698;24699;24700;24701;24702;24865;24866;24867;24868;24869;24870;24871;24872];
 [24873;24874;24875;24876;24877;24878;24879;24880;24881;24882;24883;24884;24885;24886;24887;24888];
 [24889;24890;24891;24892;24893;24894;24895;24896;24897;24898;24899;24900;24901;24902;24903;24904];
 [24905;24906;24907;24908;24909;24910;24911;24912;24913;24914;24916;24917;24918;24915;24919;24920];
 [24921;24922;24923;24924;24925;24926;24927;24928;24929;24930;24931;24932;24933;24934;24935;24936];
 [24937;24938;24939;24940;24941;24942;24943;24944;24945;24946;24947;24948;24949;24950;24951;24952];
 [24953;24954;24955;24957;24958;25121;25122;25123;25124;24956;25133;25125;25126;25127;25128;25129];
 [25130;25131;25132;25135;25136;25137;25138;25134;25139;25140;25141;25142;25143;25144;25145;25146];
 [25147;25148;25149;25150;25151;25152;25153;25154;25155;25157;25158;25156;25159;25160;25161;25162];
 [25163;25164;25165;25166;25167;25168;25169;25170;25171;25172;25173;25174;25175;25176;25177;25178];
 [25179;25180;25181;25182;25183;25184;25185;25186;25187;25188;25189;25190;25191;25192;25193;25194];
 [25195;25196;25197;25198;25199;25200;25201;25202;25203;25204;25205;25206;25207;25208;25209;25210];
 [25211;25212;25213;25214;25377;25378;25379;25380;25381;25382;25383;25384;25385;25386;25387;25388];
 [25389;25390;25391;25392;25393;25394;25395;25396;25397;25398;25399;25400;25401;25402;25403;25404];
 [25405;25406;25407;25408;25409;25410;25411;25412;25413;25414;25415;25416;25417;25418;25419;25420];
 [25421;25422;25423;25424;25425;25426;25427;25428;25429;25430;25431;25432;25433;25434;25435;25436];
 [25437;25438;25439;25440;25441;25442;25443;25444;25445;25446;25447;25448;25449;25450;25451;25452];
 [25453;25454;25455;25456;25457;25458;25459;25460;25461;25462;25463;25464;25465;25466;25467;25468];
 [25469;25470;25633;25634;25635;25636;25637;25638;25639;25640;25641;25642;25643;25644;25645;25646];
 [25647;25648;25649;25650;25651;25652;25653;25654;25655;25656;25657;25658;25659;25660;25661;25662];
 [25663;25664;25665;25666;25667;25668;25669;25670;25671;25672;25673;25674;25675;25676;25677;25678];
 [25679;25680;25681;25682;25683;25684;25685;25686;25687;25688;25689;25690;25691;25692;25693;25694];
 [25695;25696;25697;25698;25699;25700;25701;25702;25703;25704;25705;25706;25707;25708;25709;25710];
 [25711;25712;25713;25714;25715;25716;25717;25718;25719;25720;25721;25722;25723;25724;25725;25726];
 [25889;25890;25891;25892;25893;25894;25895;25896;25897;25898;25899;25900;25901;25902;25903;25904];
 [25905;25906;25907;25908;25909;25915;25910;25911;25912;25913;25914;25916;25917;25918;25919;25920];
 [25921;25922;25923;25924;25925;25926;25927;25928;25929;25930;25931;25932;25933;25935;25936;25934];
 [25937;25938;25939;25940;25941;25942;25943;25944;25945;25946;25947;25948;25949;25950;25951;25952];
 [25953;25954;25955;25956;25957;25958;25960;25959;25961;25962;25963;25964;25965;25966;25967;25968];
 [25969;25970;25971;25972;25973;25974;25975;25976;25977;25978;25980;25979;25981;25982;26145;26146];
 [26147;26148;26149;26150;26151;26152;26153;26154;26155;26156;26157;26158;26159;26160;26161;26162];
 [26163;26164;26165;26166;26167;26168;26169;26170;26171;26172;26173;26174;26175;26176;26177;26178];
 [26179;26180;26181;26182;26183;26184;26185;26186;26187;26188;26189;26190;26191;26192;26193;26194];
 [26195;26196;26197;26198;26199;26200;26201;26202;26203;26204;26205;26206;26207;26208;26209;26210];
 [26211;26212;26213;26214;26215;26216;26217;26218;26219;26220;26221;26222;26223;26224;26225;26226];
 [26227;26229;26230;26231;26232;26233;26234;26235;26236;26237;26238;26401;26402;26403;26404;26405];
 [26406;26407;26408;26409;26410;26411;26412;26413;26414;26415;26416;26417;26418;26419;26420;26421];
 [26422;26423;26424;26425;26426;26427;26428;26429;26430;26431;26432;26433;26434;26435;26436;26437];
 [26438;26439;26440;26441;26442;26443;26444;26445;26446;26447;26448;26449;26450;26451;26452;26453];
 [26454;26455;26456;26457;26458;26459;26460;26461;26462;26463;26464;26465;26466;26467;26468;26469];
 [26470;26474;26471;26472;26473;26475;26476;26477;26478;26479;26480;26481;26482;26483;26484;26486];
 [26487;26488;26489;26485;26490;26491;26492;26493;26664;26494;26657;26658;26659;26660;26661;26662];
 [26663;26665;26666;26667;26668;26669;26670;26671;26672;26673;26674;26675;26676;26677;26678;26679];
 [26680;26681;26682;26683;26684;26685;26686;26687;26688;26689;26690;26691;26692;26693;26694;26695];
 [26696;26697;26698;26699;26700;26701;26702;26703;26704;26705;26706;26707;26708;26709;26710;26711];
 [26712;26713;26714;26715;26716;26717;26718;26719;26720;26721;26722;26723;26724;26725;26726;26727];
 [26728;26729;26730;26731;26732;26733;26734;26735;26736;26737;26738;26739;26740;26741;26742;26743];
 [26744;26745;26746;26747;26748;26749;26750;26913;26914;26915;26916;26917;26918;26919;26920;26921];
 [26922;26923;26924;26925;26926;26927;26928;26929;26930;26931;26932;26933;26934;26935;26936;26937];
 [26938;26939;26940;26941;26942;26943;26944;26945;26946;26947;26948;26949;26950;26951;26952;26953];
 [26954;26956;26957;26955;26958;26959;26960;26961;26962;26963;26964;26965;26966;26967;26968;26969];
 [26970;26971;26972;26973;26974;26975;26976;26977;26978;26979;26980;26981;26982;26983;26984;26985];
 [26986;26987;26988;26989;26990;26991;26992;26993;26994;26995;26996;26997;26998;26999;27000;27001];
 [27002;27003;27004;27005;27006;27169;27170;27171;27172;27173;27174;27175;27176;27177;27178;27179];
 [27180;27181;27182;27183;27184;27185;27186;27187;27188;27189;27190;27191;27192;27193;27194;27195];
 [27196;27197;27198;27199;27200;27201;27202;27203;27204;27205;27206;27207;27208;27209;27210;27211];
 [27212;27213;27214;27215;27216;27217;27218;27219;27220;27221;27222;27223;27224;27225;27226;27227];
 [27228;27229;27230;27231;27232;27233;27234;27235;27236;27237;27238;27239;27240;27241;27242;27243];
 [27244;27245;27246;27247;27248;27249;27250;27251;27252;27253;27254;27255;27256;27257;27258;27259];
 [27260;27261;27262;27425;27426;27427;27428;27429;27430;27431;27432;27433;27434;27435;27436;27437];
 [27438;27439;27440;27441;27442;27443;27444;27445;27446;27447;27448;27449;27450;27451;27452;27453];
 [27454;27455;27456;27457;27458;27459;27460;27461;27462;27463;27464;27465;27472;27466;27467;27468];
 [27469;27474;27470;27471;27473;27475;27476;27477;27478;27479;27480;27481;27482;27483;27484;27486];
 [27485;27487;27488;27489;27490;27491;27492;27493;27494;27495;27496;27497;27498;27499;27501;27502];
 [27503;27500;27504;27505;27506;27507;27508;27510;27509;27511;27512;27513;27514;27515;27516;27517];
 [27518;27681;27682;27683;27684;27685;27686;27687;27688;27689;27690;27691;27692;27693;27694;27695];
 [27696;27697;27698;27699;27700;27701;27702;27703;27704;27705;27706;27707;27708;27709;27710;27711];
 [27712;27713;27714;27715;27716;27717;27718;27719;27720;27721;27722;27723;27724;27726;27727;27725];
 [27728;27729;27730;27731;27732;27733;27734;27735;27736;27737;27738;27739;27740;27741;27742;27743];
 [27744;27745;27746;27747;27748;27749;27750;27751;27752;27753;27754;27755;27756;27757;27758;27759];
 [27760;27761;27762;27763;27764;27765;27766;27767;27768;27769;27770;27771;27772;27773;27774;27937];
 [27938;27939;27940;27941;27942;27943;27944;27945;27946;27947;27948;27949;27950;27951;27952;27953];
 [27954;27955;27956;27957;27958;27959;27960;27961;27962;27963;27964;27965;27966;27967;27968;27969];
 [27970;27971;27972;27973;27974;27975;27976;27977;27978;27979;27980;27981;27982;27983;27984;27985];
 [27986;27987;27988;27989;27990;27991;27992;27993;27994;27995;27996;27997;27998;27999;28000;28001];
 [28002;28003;8759]].

(* lib/converters/jisx0212.h:1725-1749 jisx0212_uni2indx_page00 (flattened, 2 fields per entry) *)
Definition jisx0212_uni2indx_page00 : tab := mk [
 [0;0;0;0;0;0;0;0;0;0;0;0;0;0;0;0];
 [0;0;0;0;0;50770;7;34048;10;65535;26;65406;40;65535;56;65407];
 [71;65535;87;65487;101;53239;114;65535;130;16383;144;65535;160;65535;176;32767];
 [191;0;191;0;191;0;191;0;191;57344;194;8191;207;0;207;32];
 [208;0;208;0;208;0;208;0;208;0;208;0;208;0;208;0];
 [208;0;208;0;208;0;208;0;208;128;209;12032;214;0;214;0];
 [214;0;214;0;214;0;214;0;214;0;214;0;214;0;214;0];
 [214;55152;223;1;224;64512;230;1;231;31748;237;0;237;0;237;0];
 [237;57340;250;0;250;0;250;0;250;0;250;57340]].

(* lib/converters/jisx0212.h:1750-1753 jisx0212_uni2indx_page21 (flattened, 2 fields per entry) *)
Definition jisx0212_uni2indx_page21 : tab := mk [
 [263;0;263;64;264;4]].

(* lib/converters/jisx0212.h:1754-2164 jisx0212_uni2indx_page4e (flattened, 2 fields per entry) *)
Definition jisx0212_uni2indx_page4e : tab := mk [
 [265;4148;269;32772;271;51480;277;33;279;147;283;5122;286;776;289;33328];
 [293;8192;294;8384;297;32768;298;512;299;8;300;3073;303;33031;308;57386];
 [314;6413;320;740;325;16384;326;19114;333;6917;339;33108;344;21513;349;26498];
 [356;22070;364;50845;373;0;373;31364;380;47971;390;4100;392;5;394;45061];
 [399;21651;406;31113;414;16516;417;2093;422;21607;430;33422;436;9421;443;3];
 [445;50266;452;55389;461;33799;466;9729;470;20633;476;45337;483;33620;489;17478];
 [494;31176;502;31361;509;45448;515;826;521;33796;524;33192;529;80;531;16384];
 [532;18456;536;8448;538;8202;541;54528;546;33028;549;16686;555;16420;558;156];
 [562;38;565;364;570;260;572;4134;576;544;578;38304;584;16451;588;896];
 [591;5157;596;5608;603;33008;608;11713;615;37201;621;6226;626;5922;632;211];
 [637;7177;642;55562;649;15264;656;28709;662;6148;665;2560;667;12330;672;16900];
 [675;16776;679;8728;683;35858;688;9652;695;32801;698;25644;704;193;707;32];
 [708;4;709;1032;711;34178;716;50;719;41112;724;16384;725;27348;733;32784];
 [735;9002;741;36962;746;26306;753;36482;759;25664;763;0;763;37889;767;53312];
 [771;29475;779;32;780;3072;782;14436;788;9858;793;19715;799;83;803;32768];
 [804;49478;810;158;815;8216;818;32772;820;23114;827;18830;834;516;836;32832];
 [838;58656;844;519;848;4096;849;47785;858;43611;867;16400;869;41551;877;38];
 [880;6448;885;58912;891;15296;898;16522;902;48672;909;45569;914;10738;922;194];
 [925;5254;930;11298;935;54845;945;57368;950;12384;954;4;955;59812;963;24251];
 [974;4106;977;63152;986;4994;991;8448;993;37248;997;24608;1000;8914;1006;57697];
 [1013;13080;1019;51200;1022;8385;1026;33284;1029;45568;1033;32801;1036;402;1040;37120];
 [1043;46979;1052;8273;1056;583;1061;4102;1064;24852;1069;9301;1075;518;1078;8];
 [1079;6240;1083;8220;1087;33050;1092;32873;1097;72;1099;59916;1106;43018;1111;6756];
 [1117;22528;1120;32932;1124;57488;1129;5257;1134;9498;1140;57348;1144;49304;1149;150];
 [1153;28689;1158;16396;1161;9624;1167;1;1168;4528;1173;16417;1176;8360;1180;19584];
 [1184;2048;1185;53833;1192;4229;1196;36142;1204;33104;1208;5120;1210;17441;1214;8288];
 [1217;259;1220;10880;1224;8226;1227;272;1229;6146;1232;16452;1235;49408;1238;61440];
 [1242;17490;1247;91;1252;45824;1257;5254;1262;40963;1266;1984;1271;32769;1273;8210];
 [1276;4096;1277;49280;1280;23112;1286;101;1290;0;1290;5632;1293;9100;1299;15409];
 [1306;34176;1310;40964;1313;1101;1318;1076;1322;2560;1324;8324;1327;16384;1328;22];
 [1331;8258;1334;4;1335;2264;1340;41490;1345;1356;1350;33314;1354;9239;1360;50689];
 [1365;1290;1369;35388;1376;2177;1379;789;1384;18568;1388;769;1391;529;1394;768];
 [1396;8321;1399;33076;1404;16641;1407;16420;1410;2560;1412;22851;1419;32000;1425;1];
 [1426;18433;1429;0;1429;5428;1435;57354;1440;22592;1444;20534;1450;2080;1452;0];
 [1452;16836;1457;12800;1460;22814;1468;43089;1474;8369;1479;2321;1483;32921;1488;25908];
 [1495;41472;1498;12352;1501;39060;1507;259;1510;2960;1515;16415;1521;63238;1530;5196];
 [1535;9344;1538;34200;1544;8208;1546;40;1548;4993;1553;8402;1558;130;1560;49154];
 [1563;17732;1568;24874;1574;308;1578;18563;1583;53012;1591;27184;1597;36;1599;12580];
 [1604;5252;1608;21215;1618;3076;1621;739;1627;610;1631;16384;1632;4097;1634;39172];
 [1639;10267;1645;45452;1652;9505;1657;4864;1660;49159;1665;61472;1670;45734;1678;0];
 [1678;154;1682;4136;1685;2701;1691;8704;1693;4188;1698;5207;1705;40976;1708;9224];
 [1711;57344;1714;1;1715;320;1717;50376;1723;16400;1725;1120;1728;1024;1729;12308];
 [1733;11288;1738;329;1742;9728;1745;4704;1749;19550;1757;2332;1762;12384;1766;45362];
 [1773;1172;1777;17969;1783;57424;1788;8192;1789;16674;1793;4154;1798;5153;1802;812];
 [1807;1536;1809;16661;1814;34357;1821;40993;1825;34816;1827;48158;1836;8203;1840;10264];
 [1844;32928;1847;43779;1854;4426;1859;57352;1863;24080;1869;163;1873;9776;1878;34977];
 [1883;34578;1889;51800;1896;16964;1900;13314;1904;648;1907;32789;1911;2177;1914;9216];
 [1916;1058;1919;8484;1923;16457;1927;32796;1931;17156;1935;33105;1940;0;1940;49717];
 [1947;8977;1952;24678;1958;24158;1968;651;1973;21601;1979;7042;1985;7171;1990;56232];
 [1999;14337;2003;40453;2010;8209;2013;34854;2018;53517;2025;34832;2028;22784;2032;3072];
 [2034;16544;2037;4616;2040;5;2042;16392;2044;4512;2048;8240;2051;20544;2054;2128];
 [2057;49170;2061;2890;2067;0;2067;14375;2074;813;2080;4740;2084;66;2086;709];
 [2091;0;2091;41488;2095;45440;2100;34827;2105;5168;2109;2468;2114;51200;2117;7719];
 [2125;340;2129;5440;2133;17962;2139;2052;2141;37152;2145;12875;2152;15648;2158;14435];
 [2165;1600;2168;203;2173;0;2173;2346;2178;16932;2182;2176;2184;4984;2191;35847];
 [2197;8193;2199;324;2202;43362;2209;5504;2213;288;2215;194;2218;49188;2222;16426];
 [2226;32779;2230;9250;2234;273;2237;51349;2244;18016;2249;2151;2255;1168;2258;16394];
 [2261;2762;2267;59394;2272;34848;2275;57363;2281;4928;2285;12401;2291;4240;2294;12295];
 [2299;33484;2305;18563;2310;39184;2315;34912;2319;9280;2322;8516;2326;18561;2330;24609];
 [2334;36;2336;34944;2339;29453;2347;25345;2352;4632;2356;1088;2358;16586;2363;33410];
 [2367;25140;2373;33285;2377;20928;2382;35944;2388;44032;2392;6676;2397;43136;2401;2896];
 [2406;736;2410;37296;2416;0;2416;21;2419;41028;2423;5207;2430;23169;2436;20];
 [2438;50320;2443;1034;2446;49600;2451;37378;2455;0;2455;49280;2458;32930;2462;4097];
 [2464;132;2466;470;2472;5120;2474;41616;2479;50448;2484;43072;2488;33317;2493;4177];
 [2497;17;2499;16384;2500;132;2502;6724;2507;35632;2513;28830;2521;268;2524;10248];
 [2527;8192;2528;520;2530;24705;2534;34826;2538;58763;2547;0;2547;26624;2550;10752];
 [2553;13584;2558;3392;2562;42560;2567;6217;2572;32768;2573;26254;2581;4358;2585;24576];
 [2587;14728;2593;33885;2600;49633;2607;4193;2611;1440;2615;17408;2617;768;2619;12833];
 [2624;8417;2629;128;2630;32777;2633;4752;2637;20248;2644;24624;2648;20528;2652;16480];
 [2655;98;2658;2544;2664;2064;2666;147;2670;1024;2671;4474;2678;16;2679;1024];
 [2680;39160;2688;16384;2689;43009;2693;259;2696;3298;2702;21637;2708;257;2710;512];
 [2711;4257;2715;3076;2718;32773;2721;33805;2726;6163;2731;5704;2736;0;2736;16640];
 [2738;897;2742;42120;2747;34832;2750;784;2753;49198;2759;21609;2766;51465;2772;39298];
 [2778;25104;2782;2056;2784;24832;2787;16402;2790;4738;2794;33120;2798;32;2799;19480];
 [2804;10420;2810;17164;2815;4500;2820;11302;2826;8200;2828;57669;2835;56001;2843;4738];
 [2847;16491;2853;53673;2861;11365;2868;45728;2874;39520;2880;8780;2885;714;2890;44720];
 [2898;1171;2903;3074;2906;65360;2916;515;2919;10457;2926;8326;2930;27076;2937;6];
 [2939;33507;2946;38663;2954;53067;2964;35366;2970;4864;2973;52489;2980;36112;2985;39952];
 [2990;64;2991;196;2994;34451;3001;57920;3006;16777;3011;49285;3016;32770;3018;32258];
 [3025;34;3027;4653;3033;20;3035;33808;3038;53331;3045;36992;3048;53395;3055;514];
 [3057;38301;3066;31340;3075;8808;3080;5932;3087;3643;3095;33312;3098;57392;3103;18];
 [3105;12322;3109;47136;3114;9725;3124;8192;3125;23074;3131;528;3133;4417;3137;4675];
 [3142;17473;3146;5812;3153;57604;3158;25200;3164;58468;3171;53444;3177;5269;3183;9245];
 [3189;12305;3193;33904;3198;50308;3203;16418;3206;520;3208;49702;3214;5201;3219;2323];
 [3224;25184;3229;8194;3231;24590;3236;161;3239;20888;3245;20484;3248;17691;3255;17408];
 [3257;33792;3259;57616;3264;12562;3269;43023;3276;21376;3281;34924;3287;1107;3292;36044];
 [3299;4161;3302;54273;3307;8865;3312;43058;3318;35952;3324;6418;3329;2688;3332;23044];
 [3337;6144;3339;6522;3347;35586;3352;2322;3356;34196;3362;25680;3367;11301;3373;4354];
 [3376;5772;3382;18466;3386;43138;3391;1841;3397;4528;3402;45664;3408;9377;3413;16672];
 [3416;3173;3422;16403;3426;4105;3429;6696;3434;21056;3438;2050;3440;6912;3444;26642];
 [3449;128;3450;32784;3452;61064;3460;40979;3465;16515;3469;32;3470;42577;3477;140];
 [3480;16912;3483;18499;3488;36897;3492;15461;3500;1316;3504;3792;3510;1280;3512;22324];
 [3520;55902;3530;2560;3532;4449;3537;1626;3543;1088;3545;32302;3555;25226;3561;12805];
 [3566;32960;3569;16400;3571;65;3573;40129;3580;41872;3586;9912;3593;2624;3596;32];
 [3597;33672;3602;24654;3608;9288;3612;28674;3616;8579;3621;13962;3628;1184;3631;36097];
 [3636;14702;3645;24770;3650;1216;3653;712;3657;28796;3665;640;3667;11364;3673;1634];
 [3678;257;3680;12451;3686;45441;3692;32840;3695;16560;3699;33029;3703;51238;3709;16648];
 [3712;9410;3717;25890;3723;0;3723;0;3723;0;3723;0;3723;0;3723;0];
 [3723;0;3723;0;3723;0;3723;63488;3728;32920;3732;14348;3737;8314;3743;57346];
 [3747;43009;3751;4291;3756;9286;3761;36880;3764;49417;3769;34816;3771;53544;3777;58372];
 [3782;58752;3788;57434;3795;20561;3800;22193;3808;17;3810;0;3810;8273;3814;34];
 [3816;16642;3819;20480;3821;2240;3824;768;3826;41216;3829;436;3834;24577;3837;17997];
 [3844;2056;3846;20928;3851;4241;3855;5153;3859;5280;3863;132;3865;41859;3872;128];
 [3873;18546;3879;18753;3884;16388;3886;2068;3889;52264;3895;26784;3900;6162;3904;41831];
 [3913;32777;3916;9752;3921;262;3924;1044;3927;51320;3934;4162;3937;8329;3941;43024];
 [3945;18075;3953;3410;3959;18331;3968;54421;3976;64;3977;1057;3980;42261;3987;24768];
 [3991;3459;3997;59392;4001;28678;4006;13449;4012;24732;4018;250;4024;0;4024;41217];
 [4028;8277;4033;15156;4041;12992;4046;49152;4048;33409;4052;8211;4056;1280;4058;4928];
 [4062;33858;4066;546;4069;32768;4070;512;4071;42400;4077;5958;4084;1201;4089;12633];
 [4096;34;4098;16428;4102;34624;4107;25618;4112;37253;4118;4104;4120;33920;4123;11399];
 [4130;20620;4135;20481;4138;36028;4146;32860;4151;32832;4153;62031;4163;34839;4169;44544];
 [4174;39522;4181;41224;4185;8357;4190;61904;4198;19588;4203;34048;4206;8513;4210;36936];
 [4214;24625;4219;19207;4226;642;4229;13632;4234;71;4238;9164;4245;37407;4253;1248];
 [4257;8448;4259;5442;4264;8642;4269;33722;4277;43;4281;5286;4287;169;4291;13312];
 [4294;51376;4300;49689;4306;49418;4311;30214;4318;8233;4322;8448;4324;32818;4328;2054];
 [4331;7160;4340;17321;4347;28809;4353;49186;4357;18178;4362;38496;4368;11292;4374;34058];
 [4379;3658;4385;57117;4396;24832;4399;5157;4404;20266;4412;38242;4419;529;4422;2562];
 [4425;1;4426;40192;4431;1281;4434;25600;4437;31745;4443;18446;4448;32896;4450;163];
 [4454;57410;4459;5984;4465;449;4469;17959;4476;33381;4482;7300;4487;18446;4492;15401];
 [4499;8704;4501;38961;4507;33;4509;4337;4515;0;4515;496;4520;10784;4524;41546];
 [4530;32944;4534;16438;4539;38997;4546;24736;4550;25257;4557;12744;4563;162;4566;52960];
 [4574;34889;4579;33477;4585;49792;4589;18632;4594;1864;4599;41146;4606;4096;4607;36977];
 [4613;3168;4617;53250;4621;8192;4622;4225;4625;8572;4632;16924;4637;8200;4639;21312];
 [4644;43058;4650;53296;4655;0;4655;0;4655;0;4655;0;4655;0;4655;0];
 [4655;0;4655;0;4655;0;4655;25344;4659;35488;4664;11162;4672;9048;4678;18536];
 [4683;2240;4686;6669;4692;16;4693;1536;4695;35424;4700;8800;4704;37122;4708;49573];
 [4715;522;4718;2180;4721;0;4721;0;4721;0;4721;0;4721;21024;4725;32768];
 [4726;8468;4730;49187;4735;38977;4740;6820;4746;17889;4753;690;4758;4272;4762;8215];
 [4767;2162;4772;82;4775;207;4781;9162;4788;59395;4794;30736;4799;45574;4805;3587];
 [4810;524;4813;27685;4820;25220;4825;3112;4829;32923;4835;4114;4838;24832;4841;1667];
 [4846;33157;4851;16833;4856;29099;4865;1264;4870;32907;4875;24894;4883;32;4884;0];
 [4884;0;4884;8192;4885;115;4890;16736;4894;11331;4900;45;4904;16665;4909;18530];
 [4914;4372;4918;2304;4920;46848;4926;32920;4930;4120;4933;10240;4935;4292;4939;529];
 [4942;22816;4947;2977;4953;39;4957;24669;4964;4536;4970;45988;4978;34848;4981;49233];
 [4986;8561;4992;21969;5000;49837;5008;14034;5016;33160;5020;3720;5025;8338;5029;3600];
 [5033;17514;5039;16698;5045;28994;5051;47183;5060;44;5063;18072;5069;63024;5077;10883];
 [5083;5875;5092;12621;5099;49528;5106;22377;5115;58573;5124;13058;5129;50083;5137;48097];
 [5147;26368;5152;33412;5156;35249;5163;48452;5171;31215;5183;45993;5192;20907;5200;35329];
 [5204;8453;5208;61490;5215;1714;5221;216;5225;896;5228;17831;5236;42672;5243;42075];
 [5251;44295;5259;18724;5264;2906;5271;1136;5275;16114;5285;53768;5290;196;5293;12160];
 [5299;58134;5307;32992;5311;49152;5313;43038;5320;5416;5325;37408;5329;59658;5336;6];
 [5338;24;5340;0;5340;0;5340;0;5340;0;5340;0;5340;0;5340;0];
 [5340;0;5340;0;5340;0;5340;0;5340;0;5340;0;5340;0;5340;17152];
 [5343;28944;5348;57344;5351;6722;5356;42064;5361;2880;5365;58895;5374;81;5377;0];
 [5377;0;5377;24576;5379;4212;5384;14218;5392;2;5393;468;5398;16386;5400;55312];
 [5405;542;5410;42050;5415;49776;5421;1032;5423;1024;5424;58628;5430;33280;5432;1026];
 [5434;556;5438;11264;5441;270;5445;10;5447;50186;5452;3488;5457;17544;5461;43464];
 [5468;513;5470;50912;5477;20484;5480;55142;5490;30386;5499;27539;5508;32787;5512;1426];
 [5517;25728;5521;21072;5526;51305;5533;16429;5538;1168;5541;1742;5548;5228;5554;0];
 [5554;0;5554;0;5554;26624;5557;36241;5564;4388;5568;0;5568;1258;5574;72];
 [5576;388;5579;40162;5587;2244;5591;7742;5600;25027;5607;56080;5614;1;5615;0];
 [5615;0;5615;43008;5618;64;5619;42535;5627;520;5629;22040;5635;7296;5639;25137];
 [5645;6172;5650;16451;5654;24733;5661;360;5665;23698;5672;8274;5676;0;5676;0];
 [5676;0;5676;0;5676;54272;5680;51828;5688;16714;5693;6373;5700;4785;5706;42540];
 [5713;31551;5725;6725;5731;10305;5735;9912;5742;6400;5745;18656;5750;32106;5760;33704];
 [5766;44785;5776;25617;5781;4800;5785;55687;5794;16770;5798;41345;5803;36000;5808;42888];
 [5815;34821;5819;22338;5826;1996;5833;8418;5838;50746;5846;63833;5856;20232;5862;2213];
 [5867;0;5867;0;5867;0;5867;0;5867;0;5867;0;5867;64;5868;644];
 [5871;2052;5873;29058;5879;32768;5880;13341;5887;1196;5892;32792;5895;3628;5901;22721];
 [5907;25688;5913;492;5919;21506;5923;37410;5928;1672;5932;50416;5939;19105;5945;16409];
 [5949;17540;5953;12903;5961;0;5961;0;5961;0;5961;0;5961;0;5961;7168];
 [5964;49341;5972;18752;5976;53520;5981;57;5985;2368;5988;32800;5990;28816;5995;33063];
 [6001;33292;6005;36567;6015;35908;6020;46742;6029;250;6035;26088;6043;58112;6048;9259];
 [6054;32768;6055;16599;6062;46]].

(* lib/converters/jisx0212.h:2165-2169 jisx0212_uni2indx_pageff (flattened, 2 fields per entry) *)
Definition jisx0212_uni2indx_pageff : tab := mk [
 [6066;0;6066;0;6066;0;6066;0;6066;0;6066;16384]].

(* lib/converters/cp932ext.h:30-44 cp932ext_2uni_page87 *)
Definition cp932ext_2uni_page87 : tab := mk [
 [9312;9313;9314;9315;9316;9317;9318;9319;9320;9321;9322;9323;9324;9325;9326;9327];
 [9328;9329;9330;9331;8544;8545;8546;8547;8548;8549;8550;8551;8552;8553;65533;13129];
 [13076;13090;13133;13080;13095;13059;13110;13137;13143;13069;13094;13091;13099;13130;13115;13212];
 [13213;13214;13198;13199;13252;13217;65533;65533;65533;65533;65533;65533;65533;65533;13179;12317];
 [12319;8470;13261;8481;12964;12965;12966;12967;12968;12849;12850;12857;13182;13181;13180;8786];
 [8801;8747;8750;8721;8730;8869;8736;8735;8895;8757;8745;8746]].

(* lib/converters/cp932ext.h:45-96 cp932ext_2uni_pageed *)
Definition cp932ext_2uni_pageed : tab := mk [
 [32394;35100;37704;37512;34012;20425;28859;26161;26824;37625;26363;24389;20008;20193;20220;20224];
 [20227;20281;20310;20370;20362;20378;20372;20429;20544;20514;20479;20510;20550;20592;20546;20628];
 [20724;20696;20810;20836;20893;20926;20972;21013;21148;21158;21184;21211;21248;21255;21284;21362];
 [21395;21426;21469;64014;21660;21642;21673;21759;21894;22361;22373;22444;22472;22471;64015;64016];
 [22686;22706;22795;22867;22875;22877;22883;22948;22970;23382;23488;29999;23512;23532;23582;23718];
 [23738;23797;23847;23891;64017;23874;23917;23992;23993;24016;24353;24372;24423;24503;24542;24669];
 [24709;24714;24798;24789;24864;24818;24849;24887;24880;24984;25107;25254;25589;25696;25757;25806];
 [25934;26112;26133;26171;26121;26158;26142;26148;26213;26199;26201;64018;26227;26265;26272;26290];
 [26303;26362;26382;63785;26470;26555;26706;26560;26625;26692;26831;64019;26984;64020;27032;27106];
 [27184;27243;27206;27251;27262;27362;27364;27606;27711;27740;27782;27759;27866;27908;28039;28015];
 [28054;28076;28111;28152;28146;28156;28217;28252;28199;28220;28351;28552;28597;28661;28677;28679];
 [28712;28805;28843;28943;28932;29020;28998;28999;64021;29121;29182;29361;29374;29476;64022;29559];
 [29629;29641;29654;29667;29650;29703;29685;29734;29738;29737;29742;29794;29833;29855;29953;30063];
 [30338;30364;30366;30363;30374;64023;30534;21167;30753;30798;30820;30842;31024;64024;64025;64026];
 [31124;64027;31131;31441;31463;64028;31467;31646;64029;32072;32092;32183;32160;32214;32338;32583];
 [32673;64030;33537;33634;33663;33735;33782;33864;33972;34131;34137;34155;64031;34224;64032;64033];
 [34823;35061;35346;35383;35449;35495;35518;35551;64034;35574;35667;35711;36080;36084;36114;36214];
 [64035;36559;64036;64037;36967;37086;64038;37141;37159;37338;37335;37342;37357;37358;37348;37349];
 [37382;37392;37386;37434;37440;37436;37454;37465;37457;37433;37479;37543;37495;37496;37607;37591];
 [37593;37584;64039;37589;37600;37587;37669;37665;37627;64040;37662;37631;37661;37634;37744;37719];
 [37796;37830;37854;37880;37937;37957;37960;38290;63964;64041;38557;38575;38707;38715;38723;38733];
 [38735;38737;38741;38999;39013;64042;64043;39207;64044;39326;39502;39641;39644;39797;39794;39823];
 [39857;39867;39936;40304;40299;64045;40473;40657;65533;65533;8560;8561;8562;8563;8564;8565];
 [8566;8567;8568;8569;65506;65508;65287;65282]].

(* lib/converters/cp932ext.h:97-151 cp932ext_2uni_pagefa *)
Definition cp932ext_2uni_pagefa : tab := mk [
 [8560;8561;8562;8563;8564;8565;8566;8567;8568;8569;8544;8545;8546;8547;8548;8549];
 [8550;8551;8552;8553;65506;65508;65287;65282;12849;8470;8481;8757;32394;35100;37704;37512];
 [34012;20425;28859;26161;26824;37625;26363;24389;20008;20193;20220;20224;20227;20281;20310;20370];
 [20362;20378;20372;20429;20544;20514;20479;20510;20550;20592;20546;20628;20724;20696;20810;20836];
 [20893;20926;20972;21013;21148;21158;21184;21211;21248;21255;21284;21362;21395;21426;21469;64014];
 [21660;21642;21673;21759;21894;22361;22373;22444;22472;22471;64015;64016;22686;22706;22795;22867];
 [22875;22877;22883;22948;22970;23382;23488;29999;23512;23532;23582;23718;23738;23797;23847;23891];
 [64017;23874;23917;23992;23993;24016;24353;24372;24423;24503;24542;24669;24709;24714;24798;24789];
 [24864;24818;24849;24887;24880;24984;25107;25254;25589;25696;25757;25806;25934;26112;26133;26171];
 [26121;26158;26142;26148;26213;26199;26201;64018;26227;26265;26272;26290;26303;26362;26382;63785];
 [26470;26555;26706;26560;26625;26692;26831;64019;26984;64020;27032;27106;27184;27243;27206;27251];
 [27262;27362;27364;27606;27711;27740;27782;27759;27866;27908;28039;28015;28054;28076;28111;28152];
 [28146;28156;28217;28252;28199;28220;28351;28552;28597;28661;28677;28679;28712;28805;28843;28943];
 [28932;29020;28998;28999;64021;29121;29182;29361;29374;29476;64022;29559;29629;29641;29654;29667];
 [29650;29703;29685;29734;29738;29737;29742;29794;29833;29855;29953;30063;30338;30364;30366;30363];
 [30374;64023;30534;21167;30753;30798;30820;30842;31024;64024;64025;64026;31124;64027;31131;31441];
 [31463;64028;31467;31646;64029;32072;32092;32183;32160;32214;32338;32583;32673;64030;33537;33634];
 [33663;33735;33782;33864;33972;34131;34137;34155;64031;34224;64032;64033;34823;35061;35346;35383];
 [35449;35495;35518;35551;64034;35574;35667;35711;36080;36084;36114;36214;64035;36559;64036;64037];
 [36967;37086;64038;37141;37159;37338;37335;37342;37357;37358;37348;37349;37382;37392;37386;37434];
 [37440;37436;37454;37465;37457;37433;37479;37543;37495;37496;37607;37591;37593;37584;64039;37589];
 [37600;37587;37669;37665;37627;64040;37662;37631;37661;37634;37744;37719;37796;37830;37854;37880];
 [37937;37957;37960;38290;63964;64041;38557;38575;38707;38715;38723;38733;38735;38737;38741;38999];
 [39013;64042;64043;39207;64044;39326;39502;39641;39644;39797;39794;39823;39857;39867;39936;40304];
 [40299;64045;40473;40657]].

(* lib/converters/cp932ext.h:193-252 cp932ext_2charset *)
Definition cp932ext_2charset : tab := mk [
 [64089;64090;64074;64075;64076;64077;64078;64079;64080;64081;64082;64083;64064;64065;64066;64067];
 [64068;64069;64070;64071;64072;64073;34708;34709;34712;34711;34715;34716;34706;34707;64091;34704];
 [34705;34710;34713;34624;34625;34626;34627;34628;34629;34630;34631;34632;34633;34634;34635;34636];
 [34637;34638;34639;34640;34641;34642;34643;34688;34689;64088;34699;34700;34693;34694;34695;34696];
 [34697;34661;34665;34656;34659;34657;34667;34666;34660;34668;34662;34670;34655;34669;34658;34663];
 [34664;34686;34703;34702;34701;34674;34675;34671;34672;34673;34677;34676;34691;64104;64105;64106];
 [64107;64108;64109;64110;64112;64111;64114;64113;64097;64115;64118;64119;64117;64116;64122;64120];
 [64121;64123;64125;64124;64126;64128;64129;64130;64131;64132;64133;64134;64375;64135;64136;64137];
 [64138;64139;64140;64141;64142;64143;64146;64145;64147;64148;64149;64150;64151;64152;64154;64153];
 [64157;64158;64159;64160;64161;64162;64163;64164;64165;64166;64167;64169;64170;64171;64172;64173];
 [64174;64175;64178;64176;64179;64180;64181;64182;64183;64184;64103;64185;64186;64187;64188;64189];
 [64190;64192;64191;64194;64195;64193;64197;64196;64198;64199;64200;64201;64202;64203;64204;64205];
 [64206;64209;64207;64211;64212;64210;64099;64208;64214;64215;64213;64217;64218;64219;64220;64221];
 [64222;64102;64223;64225;64226;64228;64229;64230;64227;64100;64231;64233;64235;64236;64237;64239];
 [64238;64240;64241;64242;64243;64244;64245;64246;64248;64247;64249;64250;64252;64251;64320;64321];
 [64322;64324;64323;64325;64328;64326;64329;64327;64330;64331;64332;64333;64334;64335;64336;64337];
 [64338;64098;64340;64339;64342;64343;64341;64345;64346;64347;64348;64349;64351;64352;64353;64356];
 [64354;64355;64358;64357;64359;64361;64360;64362;64363;64364;64365;64366;64168;64367;64368;64371];
 [64369;64370;64372;64374;64376;64377;64378;64379;64380;64385;64387;64388;64389;64391;64392;64394];
 [64395;64397;64396;64398;64399;64092;64400;64401;64403;64404;64405;64406;64407;64408;64409;64096];
 [64410;64411;64412;64414;64417;64418;64093;64419;64420;64421;64422;64423;64424;64426;64427;64428];
 [64429;64430;64431;64432;64434;64437;64438;64440;64441;64443;64442;64444;64447;64448;64445;64446];
 [64449;64451;64450;64458;64452;64454;64453;64455;64457;64456;64459;64461;64462;64095;64460;64466];
 [64470;64468;64464;64465;64469;64463;64101;64473;64476;64478;64477;64475;64472;64471;64094;64480];
 [64479;64481;64482;64483;64484;64485;64486;64487;64488;64491;64492;64493;64494;64495;64496;64497];
 [64498;64499;64500;64501;64504;64506;64507;64508;64576;64578;64577;64579;64580;64581;64582;64584];
 [64583;64586;64587;64224;64489;64144;64155;64156;64177;64216;64232;64234;64344;64350;64373;64381];
 [64382;64384;64386;64390;64393;64402;64413;64415;64416;64425;64433;64435;64436;64439;64467;64474];
 [64490;64502;64503;64505;64585;64087;64086;64084;64085]].

(* lib/converters/cp932ext.h:254-264 cp932ext_uni2indx_page21 (flattened, 2 fields per entry) *)
Definition cp932ext_uni2indx_page21 : tab := mk [
 [0;0;0;64;1;2;2;0;2;0;2;0;2;1023;12;1023];
 [22;0;22;0;22;0;22;0;22;0;22;0;22;0;22;0];
 [22;0;22;33794;25;19969;30;32;31;0;31;4;32;2;33;0];
 [33;0;33;0;33;32;34;32768]].

(* lib/converters/cp932ext.h:265-269 cp932ext_uni2indx_page24 (flattened, 2 fields per entry) *)
Definition cp932ext_uni2indx_page24 : tab := mk [
 [35;0;35;0;35;0;35;0;35;0;35;0;35;65535;51;15]].

(* lib/converters/cp932ext.h:270-273 cp932ext_uni2indx_page30 (flattened, 2 fields per entry) *)
Definition cp932ext_uni2indx_page30 : tab := mk [
 [55;0;55;40960]].

(* lib/converters/cp932ext.h:274-285 cp932ext_uni2indx_page32 (flattened, 2 fields per entry) *)
Definition cp932ext_uni2indx_page32 : tab := mk [
 [57;0;57;0;57;0;57;518;60;0;60;0;60;0;60;0];
 [60;0;60;0;60;496;65;0;65;0;65;0;65;0;65;0];
 [65;8200;67;272;69;2252;74;2112;76;9728;79;130;81;0;81;30720];
 [85;49152;87;28672;90;2;91;0;91;8208]].

(* lib/converters/cp932ext.h:286-326 cp932ext_uni2indx_page4e (flattened, 2 fields per entry) *)
Definition cp932ext_uni2indx_page4e : tab := mk [
 [93;0;93;0;93;256;94;0;94;0;94;0;94;0;94;0];
 [94;0;94;0;94;0;94;0;94;0;94;0;94;2;95;4096];
 [96;9;98;0;98;0;98;512;99;0;99;64;100;0;100;0];
 [100;1024;101;1044;104;0;104;0;104;8704;106;0;106;0;106;32768];
 [107;0;107;16384;108;4;109;0;109;69;112;0;112;0;112;1];
 [113;0;113;16;114;0;114;0;114;0;114;256;115;0;115;16];
 [116;0;116;0;116;0;116;0;116;1024;117;0;117;16;118;0];
 [118;0;118;8192;119;0;119;16384;120;0;120;0;120;4096;121;0];
 [121;0;121;32;122;0;122;0;122;0;122;0;122;0;122;0];
 [122;0;122;4096;123;32832;125;0;125;1;126;2048;127;0;127;0];
 [127;129;129;0;129;16;130;0;130;0;130;0;130;0;130;4];
 [131;0;131;8;132;0;132;4;133;0;133;8192;134;0;134;0];
 [134;0;134;0;134;0;134;0;134;0;134;0;134;0;134;0];
 [134;1024;135;4096;136;512;137;0;137;0;137;0;137;0;137;32768];
 [138;0;138;0;138;0;138;0;138;0;138;0;138;0;138;0];
 [138;64]].

(* lib/converters/cp932ext.h:327-342 cp932ext_uni2indx_page57 (flattened, 2 fields per entry) *)
Definition cp932ext_uni2indx_page57 : tab := mk [
 [139;0;139;0;139;0;139;0;139;0;139;512;140;32;141;0];
 [141;0;141;0;141;4096;142;0;142;384;144;0;144;0;144;0];
 [144;0;144;0;144;0;144;0;144;0;144;0;144;0;144;0];
 [144;0;144;16384;145;0;145;4;146;0;146;0;146;0;146;0];
 [146;2048;147;0;147;0;147;0;147;0;147;10248;150;8;151;0];
 [151;0;151;0;151;16;152;1024]].

(* lib/converters/cp932ext.h:343-359 cp932ext_uni2indx_page5b (flattened, 2 fields per entry) *)
Definition cp932ext_uni2indx_page5b : tab := mk [
 [153;0;153;0;153;0;153;0;153;0;153;64;154;0;154;0];
 [154;0;154;0;154;0;154;0;154;1;155;256;156;4096;157;0];
 [157;0;157;16384;158;0;158;0;158;0;158;0;158;0;158;0];
 [158;0;158;0;158;64;159;1024;160;0;160;0;160;0;160;32];
 [161;0;161;0;161;128;162;0;162;4;163;8;164;8192;165;0];
 [165;0;165;0;165;0;165;768;167;0;167;1]].

(* lib/converters/cp932ext.h:360-505 cp932ext_uni2indx_page5f (flattened, 2 fields per entry) *)
Definition cp932ext_uni2indx_page5f : tab := mk [
 [168;0;168;0;168;2;169;16;170;32;171;0;171;128;172;0];
 [172;0;172;0;172;0;172;128;173;0;173;16384;174;0;174;0];
 [174;0;174;0;174;0;174;0;174;0;174;8192;175;0;175;0];
 [175;1056;177;0;177;0;177;0;177;0;177;16416;179;0;179;4];
 [180;0;180;2;181;1;182;129;184;0;184;0;184;0;184;0];
 [184;0;184;256;185;0;185;0;185;0;185;0;185;0;185;0];
 [185;0;185;8;186;0;186;0;186;0;186;0;186;0;186;0];
 [186;0;186;0;186;64;187;0;187;0;187;0;187;0;187;0];
 [187;0;187;0;187;0;187;0;187;0;187;0;187;0;187;0];
 [187;0;187;0;187;0;187;0;187;0;187;0;187;0;187;32];
 [188;0;188;0;188;0;188;0;188;0;188;0;188;1;189;0];
 [189;0;189;8192;190;0;190;0;190;16384;191;0;191;0;191;0];
 [191;0;191;0;191;0;191;0;191;16384;192;0;192;0;192;0];
 [192;0;192;0;192;0;192;0;192;0;192;0;192;0;192;0];
 [192;513;194;16416;196;16400;198;2050;200;0;200;640;202;32;203;8];
 [204;0;204;512;205;1;206;32772;208;0;208;0;208;0;208;3072];
 [210;16384;211;0;211;0;211;0;211;0;211;0;211;64;212;0];
 [212;0;212;0;212;0;212;2048;213;1;214;0;214;0;214;0];
 [214;2;215;0;215;0;215;0;215;16;216;4;217;0;217;0];
 [217;0;217;0;217;0;217;0;217;33024;219;0;219;0;219;0];
 [219;0;219;0;219;0;219;0;219;0;219;0;219;256;220;0];
 [220;0;220;256;221;0;221;0;221;0;221;0;221;4;222;0];
 [222;0;222;0;222;0;222;1;223;64;224;0;224;2048;225;16392];
 [227;0;227;0;227;0;227;0;227;0;227;0;227;20;229;0];
 [229;0;229;0;229;0;229;0;229;0;229;0;229;0;229;0];
 [229;0;229;0;229;0;229;0;229;0;229;64;230;0;230;0];
 [230;0;230;0;230;0;230;32768;231;0;231;4096;232;32768;233;0];
 [233;64;234;0;234;0;234;0;234;0;234;1024;235;0;235;0];
 [235;16;236;0;236;0;236;0;236;0;236;0;236;32768;237;0];
 [237;128;238;64;239;4096;240;0;240;32768;241;0;241;0;241;4356];
 [244;0;244;0;244;128;245;4608;247;0;247;4096;248;0;248;0];
 [248;0;248;0;248;0;248;32768;249;0;249;0;249;0;249;0];
 [249;0;249;0;249;0;249;0;249;0;249;0;249;0;249;0];
 [249;256;250;0;250;0;250;32;251;0;251;0;251;0;251;32];
 [252;160;254;0;254;256;255;0;255;0;255;0;255;0;255;0];
 [255;32;256;0;256;2048;257;2048;258;0;258;0;258;0;258;0];
 [258;32784;260;0;260;0;260;0;260;192;262;4096;263;0;263;0];
 [263;0;263;0;263;0;263;0;263;2;264;0;264;0;264;16384];
 [265;0;265;0;265;0;265;0;265;0;265;0;265;0;265;0];
 [265;0;265;0;265;0;265;16386;267;0;267;0;267;0;267;0];
 [267;0;267;0;267;16;268;0;268;0;268;0;268;0;268;128];
 [269;0;269;0;269;0;269;8192;270;512;271;68;273;8;274;32];
 [275;128;276;0;276;17984;280;0;280;0;280;0;280;4;281;0];
 [281;512;282;32768;283;0;283;0;283;0;283;0;283;0;283;0];
 [283;2;284;0;284;32768;285;0;285;0;285;0;285;32768;286;0];
 [286;0;286;0;286;0;286;0;286;0;286;0;286;0;286;0];
 [286;0;286;0;286;0;286;0;286;0;286;0;286;0;286;0];
 [286;4;287;22528;290;64;291;0;291;0;291;0;291;0;291;0];
 [291;0;291;0;291;0;291;0;291;64;292;0;292;0;292;0];
 [292;0;292;0;292;0;292;0;292;0;292;0;292;0;292;0];
 [292;0;292;0;292;2;293;0;293;16384;294;0;294;16;295;1024];
 [296;0;296;0;296;0;296;0;296;0;296;0;296;0;296;0];
 [296;0;296;0;296;0;296;1;297;0;297;0;297;0;297;0];
 [297;0;297;2064;299;0;299;0;299;0;299;0;299;0;299;0];
 [299;0;299;0;299;0;299;0;299;0;299;0;299;0;299;0];
 [299;0;299;0;299;0;299;0;299;0;299;2;300;2176;302;0];
 [302;0;302;0;302;0;302;0;302;0;302;0;302;0;302;0];
 [302;0;302;16384]].

(* lib/converters/cp932ext.h:506-521 cp932ext_uni2indx_page7d (flattened, 2 fields per entry) *)
Definition cp932ext_uni2indx_page7d : tab := mk [
 [303;0;303;0;303;0;303;0;303;256;304;4096;305;0;305;0];
 [305;0;305;0;305;1;306;128;307;0;307;64;308;0;308;0];
 [308;0;308;0;308;0;308;0;308;0;308;4;309;0;309;0];
 [309;1024;310;0;310;0;310;0;310;0;310;0;310;0;310;0];
 [310;0;310;0;310;0;310;0;310;128;311;0;311;0;311;0];
 [311;0;311;0;311;2]].

(* lib/converters/cp932ext.h:522-537 cp932ext_uni2indx_page83 (flattened, 2 fields per entry) *)
Definition cp932ext_uni2indx_page83 : tab := mk [
 [312;2;313;0;313;0;313;0;313;0;313;0;313;4;314;32768];
 [315;0;315;0;315;0;315;0;315;128;316;0;316;0;316;64];
 [317;0;317;0;317;0;317;0;317;256;318;0;318;0;318;0];
 [318;0;318;0;318;0;318;16;319;0;319;4096;320;0;320;0];
 [320;0;320;0;320;0;320;0;320;0;320;520;322;2048;323;0];
 [323;0;323;0;323;0;323;1]].

(* lib/converters/cp932ext.h:538-574 cp932ext_uni2indx_page88 (flattened, 2 fields per entry) *)
Definition cp932ext_uni2indx_page88 : tab := mk [
 [324;128;325;0;325;0;325;0;325;0;325;0;325;0;325;0];
 [325;0;325;0;325;0;325;0;325;0;325;0;325;0;325;32];
 [326;0;326;4096;327;0;327;0;327;0;327;0;327;0;327;0];
 [327;0;327;0;327;0;327;0;327;0;327;0;327;0;327;0];
 [327;0;327;4;328;0;328;128;329;0;329;0;329;0;329;512];
 [330;0;330;0;330;128;331;16384;332;0;332;32768;333;0;333;64];
 [334;0;334;0;334;0;334;0;334;0;334;8;335;0;335;32768];
 [336;0;336;0;336;0;336;0;336;0;336;0;336;0;336;0];
 [336;0;336;0;336;0;336;0;336;0;336;0;336;0;336;0];
 [336;0;336;0;336;0;336;0;336;0;336;0;336;0;336;17];
 [338;0;338;4;339;0;339;0;339;0;339;0;339;0;339;64];
 [340;0;340;0;340;0;340;0;340;0;340;0;340;0;340;0];
 [340;0;340;0;340;0;340;0;340;0;340;0;340;0;340;0];
 [340;0;340;0;340;0;340;0;340;32768]].

(* lib/converters/cp932ext.h:575-651 cp932ext_uni2indx_page90 (flattened, 2 fields per entry) *)
Definition cp932ext_uni2indx_page90 : tab := mk [
 [341;0;341;0;341;0;341;0;341;0;341;0;341;128;342;0];
 [342;0;342;0;342;0;342;0;342;0;342;16384;343;0;343;0];
 [343;0;343;32;344;128;345;0;345;0;345;0;345;0;345;0];
 [345;0;345;0;345;0;345;0;345;0;345;17536;348;24624;352;0];
 [352;1088;354;1;355;0;355;5632;358;16385;360;514;362;128;363;384];
 [365;256;366;0;366;128;367;0;367;0;367;681;372;129;374;35328];
 [377;4;378;24576;380;34;382;0;382;256;383;128;384;0;384;1];
 [385;0;385;0;385;16;386;0;386;64;387;16384;388;0;388;256];
 [389;0;389;0;389;0;389;2;390;288;392;0;392;0;392;0];
 [392;0;392;0;392;0;392;0;392;0;392;0;392;0;392;0];
 [392;0;392;0;392;0;392;0;392;0;392;0;392;0;392;0];
 [392;0;392;4;393;0;393;0;393;0;393;0;393;0;393;0];
 [393;0;393;0;393;0;393;0;393;0;393;0;393;0;393;0];
 [393;0;393;8192;394;32768;395;0;395;0;395;0;395;0;395;0];
 [395;0;395;0;395;0;395;2056;397;40968;400;34;402;0;402;0];
 [402;0;402;0;402;0;402;0;402;0;402;0;402;0;402;0];
 [402;0;402;0;402;0;402;0;402;0;402;128;403;32;404;0];
 [404;0;404;0;404;0;404;0;404;0;404;0;404;0;404;0];
 [404;0;404;0;404;128;405;0;405;0;405;0;405;0;405;0];
 [405;0;405;16384;406;0;406;0;406;0;406;0;406;0;406;0];
 [406;0;406;0;406;0;406;0;406;16384;407;0;407;0;407;0];
 [407;0;407;0;407;0;407;0;407;0;407;4608;409;0;409;0];
 [409;0;409;0;409;0;409;0;409;0;409;0;409;0;409;36];
 [411;32768;412;0;412;0;412;2050;414;0;414;0;414;0;414;0];
 [414;1;415;0;415;0;415;0;415;0;415;0;415;0;415;0];
 [415;0;415;0;415;0;415;0;415;0;415;0;415;0;415;0];
 [415;0;415;0;415;0;415;0;415;0;415;0;415;2048;416;1];
 [417;0;417;0;417;0;417;0;417;0;417;0;417;0;417;0];
 [417;0;417;512;418;0;418;0;418;0;418;0;418;0;418;0];
 [418;0;418;0;418;0;418;0;418;0;418;2]].

(* lib/converters/cp932ext.h:652-660 cp932ext_uni2indx_pagef9 (flattened, 2 fields per entry) *)
Definition cp932ext_uni2indx_pagef9 : tab := mk [
 [419;0;419;0;419;512;420;0;420;0;420;0;420;0;420;0];
 [420;0;420;0;420;0;420;0;420;0;420;4096;421;0;421;0];
 [421;49152;423;65535;439;16383]].

(* lib/converters/cp932ext.h:661-667 cp932ext_uni2indx_pageff (flattened, 2 fields per entry) *)
Definition cp932ext_uni2indx_pageff : tab := mk [
 [453;132;455;0;455;0;455;0;455;0;455;0;455;0;455;0];
 [455;0;455;0;455;0;455;0;455;0;455;0;455;20]].

(* lib/converters/cp50221_0208_ext.h:30-49 cp50221_0208_ext_2uni *)
Definition cp50221_0208_ext_2uni : tab := mk [
 [65533;9312;9313;9314;9315;9316;9317;9318;9319;9320;9321;9322;9323;9324;9325;9326];
 [9327;9328;9329;9330;9331;8544;8545;8546;8547;8548;8549;8550;8551;8552;8553;65533];
 [13129;13076;13090;13133;13080;13095;13059;13110;13137;13143;13069;13094;13091;13099;13130;13115];
 [13212;13213;13214;13198;13199;13252;13217;65533;65533;65533;65533;65533;65533;65533;65533;13179];
 [12318;12319;8470;13261;8481;12964;12965;12966;12967;12968;12849;12850;12857;13182;13181;13180];
 [65533;65533;65533;8750;8721;65533;65533;65533;8735;8895;65533;65533;65533;65533;65533;65533]].

(* lib/converters/cp50221_0208_ext.h:66-79 cp50221_0208_ext_page21 *)
Definition cp50221_0208_ext_page21 : tab := mk [
 [0;0;0;0;0;0;66;0;0;0;0;0;0;0;0;0];
 [0;68;0;0;0;0;0;0;0;0;0;0;0;0;0;0];
 [0;0;0;0;0;0;0;0;0;0;0;0;0;0;0;0];
 [0;0;0;0;0;0;0;0;0;0;0;0;0;0;0;0];
 [0;0;0;0;0;0;0;0;0;0;0;0;0;0;0;0];
 [21;22;23;24;25;26;27;28;29;30;0;0;0;0;0;0]].

(* lib/converters/cp50221_0208_ext.h:80-85 cp50221_0208_ext_page22 *)
Definition cp50221_0208_ext_page22 : tab := mk [
 [0;84;0;0;0;0;0;0;0;0;0;0;0;0;0;88];
 [0;0;0;0;0;0;0;0;0;0;0;0;0;0;83;0]].

(* lib/converters/cp50221_0208_ext.h:86-90 cp50221_0208_ext_page24 *)
Definition cp50221_0208_ext_page24 : tab := mk [
 [1;2;3;4;5;6;7;8;9;10;11;12;13;14;15;16];
 [17;18;19;20;0;0;0;0]].

(* lib/converters/cp50221_0208_ext.h:91-93 cp50221_0208_ext_page30 *)
Definition cp50221_0208_ext_page30 : tab := mk [
 [0;0;0;0;0;64;64;65]].

(* lib/converters/cp50221_0208_ext.h:94-97 cp50221_0208_ext_page32 *)
Definition cp50221_0208_ext_page32 : tab := mk [
 [0;74;75;0;0;0;0;0;0;76;0;0;0;0;0;0]].

(* lib/converters/cp50221_0208_ext.h:98-101 cp50221_0208_ext_page32_1 *)
Definition cp50221_0208_ext_page32_1 : tab := mk [
 [0;0;0;0;69;70;71;72;73;0;0;0;0;0;0;0]].

(* lib/converters/cp50221_0208_ext.h:102-129 cp50221_0208_ext_page33 *)
Definition cp50221_0208_ext_page33 : tab := mk [
 [0;0;0;38;0;0;0;0;0;0;0;0;0;42;0;0];
 [0;0;0;0;33;0;0;0;36;0;0;0;0;0;0;0];
 [0;0;34;44;0;0;43;37;0;0;0;45;0;0;0;0];
 [0;0;0;0;0;0;39;0;0;0;0;47;0;0;0;0];
 [0;0;0;0;0;0;0;0;0;32;46;0;0;35;0;0];
 [0;40;0;0;0;0;0;41;0;0;0;0;0;0;0;0];
 [0;0;0;0;0;0;0;0;0;0;0;0;0;0;0;0];
 [0;0;0;0;0;0;0;0;0;0;0;63;79;78;77;0];
 [0;0;0;0;0;0;0;0;0;0;0;0;0;0;51;52];
 [0;0;0;0;0;0;0;0;0;0;0;0;48;49;50;0];
 [0;54;0;0;0;0;0;0;0;0;0;0;0;0;0;0];
 [0;0;0;0;0;0;0;0;0;0;0;0;0;0;0;0];
 [0;0;0;0;53;0;0;0;0;0;0;0;0;67;0;0]].

(* lib/converters/cp50221_0212_ext.h:30-52 cp50221_0212_ext_2uni *)
Definition cp50221_0212_ext_2uni : tab := mk [
 [65533;8560;8561;8562;8563;8564;8565;8566;8567;8568;8569;65533;65533;65533;65533;65533];
 [65533;65533;65533;65533;65533;65287;65282;65533;65533;65533;28859;20220;20724;20972;21255;21284];
 [64014;21642;22361;64015;64016;22686;23532;23797;23891;64017;24503;24709;24864;25934;65533;26213];
 [64018;63785;26625;64019;64020;27243;27362;28152;28146;28712;64021;64022;29953;30338;30366;64023];
 [31024;64024;64025;64026;64027;31463;64028;64029;32160;32214;64030;33634;64031;34224;64032;64033];
 [34823;64034;35711;36084;36214;64035;64036;64037;37086;64038;37141;64039;64040;38290;63964;64041];
 [38715;65533;38737;64042;64043;64044;39326;39641;39794;64045;40657;65533;65533;65533;65533;65533]].

(* lib/converters/cp50221_0212_ext.h:74-77 cp50221_0212_ext_page21 *)
Definition cp50221_0212_ext_page21 : tab := mk [
 [1;2;3;4;5;6;7;8;9;10;0;0;0;0;0;0]].

(* lib/converters/cp50221_0212_ext.h:78-84 cp50221_0212_ext_page53 *)
Definition cp50221_0212_ext_page53 : tab := mk [
 [0;0;0;0;0;0;0;30;0;0;0;0;0;0;0;0];
 [0;0;0;0;0;0;0;0;0;0;0;0;0;0;0;0];
 [0;0;0;0;31;0;0;0]].

(* lib/converters/cp50221_0212_ext.h:85-88 cp50221_0212_ext_page6d *)
Definition cp50221_0212_ext_page6d : tab := mk [
 [0;0;56;0;0;0;0;0;55;0;0;0;0;0;0;0]].

(* lib/converters/cp50221_0212_ext.h:89-94 cp50221_0212_ext_page76 *)
Definition cp50221_0212_ext_page76 : tab := mk [
 [0;0;61;0;0;0;0;0;0;0;0;0;0;0;0;0];
 [0;0;0;0;0;0;0;0;0;0;0;0;0;0;62;0]].

(* lib/converters/cp50221_0212_ext.h:95-103 cp50221_0212_ext_page7d *)
Definition cp50221_0212_ext_page7d : tab := mk [
 [72;0;0;0;0;0;0;0;0;0;0;0;0;0;0;0];
 [0;0;0;0;0;0;0;0;0;0;0;0;0;0;0;0];
 [0;0;0;0;0;0;0;0;0;0;0;0;0;0;0;0];
 [0;0;0;0;0;0;73;0]].

(* lib/converters/cp50221_0212_ext.h:104-109 cp50221_0212_ext_page97 *)
Definition cp50221_0212_ext_page97 : tab := mk [
 [0;0;0;96;0;0;0;0;0;0;0;0;0;0;0;0];
 [0;0;0;0;0;161;0;0;0;98;0;0;0;0;0;0]].

(* lib/converters/cp50221_0212_ext.h:110-116 cp50221_0212_ext_pagefa *)
Definition cp50221_0212_ext_pagefa : tab := mk [
 [0;0;0;0;0;0;32;35;36;41;48;51;52;58;59;63];
 [65;66;67;68;70;71;74;76;78;79;81;85;86;87;89;91];
 [92;95;99;100;101;105;0;0]].

(* lib/converters/cp50221_0212_ext.h:117-119 cp50221_0212_ext_pageff *)
Definition cp50221_0212_ext_pageff : tab := mk [
 [0;0;22;0;0;0;0;21]].

(* lib/converters/jisx0213.h:37-63 jisx0213_to_ucs_combining (flattened, 2 fields per entry) *)
Definition jisx0213_to_ucs_combining : tab := mk [
 [12363;12442;12365;12442;12367;12442;12369;12442;12371;12442;12459;12442;12461;12442;12463;12442];
 [12465;12442;12467;12442;12475;12442;12484;12442;12488;12442;12791;12442;230;768;596;768];
 [596;769;652;768;652;769;601;768;601;769;602;768;602;769;745;741];
 [741;745]].

(* lib/converters/jisx0213.h:65-1626 jisx0213_to_ucs_main *)
Definition jisx0213_to_ucs_main : tab := mk [
 [4096;4097;4098;33548;33550;4347;33562;33563;33567;33537;4251;4252;180;33600;168;33598];
 [33763;33599;4349;4350;4253;4254;4099;11997;4101;4102;4103;4348;1812;1808;33551;33596];
 [4124;1814;33628;1830;1829;1816;1817;1820;1821;33544;33545;4116;4117;33595;33597;33627];
 [33629;4104;4105;4106;4107;4108;4109;4110;4111;4112;4113;33547;2322;177;215;247];
 [33565;2400;33564;33566;2406;2407;2334;2356;3394;3392;176;1842;1843;2051;33765;33540];
 [162;163;33541;33539;33542;33546;33568;167;3334;3333;3275;3279;3278;3271;3270;3233];
 [3232;3251;3250;3261;3260;1851;4114;2194;2192;2193;2195;4115;33543;33538;33549;33630];
 [4147;4148;4149;4155;4156;4351;4255;2312;2315;2438;2439;2434;2435;2346;2345;2436];
 [2437;2442;2443;2313;2309;2565;2566;2343;2344;172;2258;2260;2304;2307;2453;2454];
 [2455;2341;2342;33631;33632;4120;4121;4118;4119;2336;2469;2578;2306;2311;2401;2386];
 [2410;2411;2330;2365;2333;2357;2347;2348;2402;2371;2373;2376;2422;2423;2196;2091];
 [1840;3439;3437;3434;1824;1825;182;3438;3435;3436;3433;3311;3255;3254;3265;3264];
 [2199;2200;2198;2201;2244;2280;2278;2279;2281;3892;3893;33552;33553;33554;33555;33556];
 [33557;33558;33559;33560;33561;4031;3273;4157;33350;33349;3302;1826;33569;33570;33571;33572];
 [33573;33574;33575;33576;33577;33578;33579;33580;33581;33582;33583;33584;33585;33586;33587;33588];
 [33589;33590;33591;33592;33593;33594;2323;2101;2063;5067;2067;2087;33601;33602;33603;33604];
 [33605;33606;33607;33608;33609;33610;33611;33612;33613;33614;33615;33616;33617;33618;33619;33620];
 [33621;33622;33623;33624;33625;33626;4256;1811;4090;4091;4161;4162;4163;4164;4165;4166];
 [4167;4168;4169;4170;4171;4172;4173;4174;4175;4176;4177;4178;4179;4180;4181;4182];
 [4183;4184;4185;4186;4187;4188;4189;4190;4191;4192;4193;4194;4195;4196;4197;4198];
 [4199;4200;4201;4202;4203;4204;4205;4206;4207;4208;4209;4210;4211;4212;4213;4214];
 [4215;4216;4217;4218;4219;4220;4221;4222;4223;4224;4225;4226;4227;4228;4229;4230];
 [4231;4232;4233;4234;4235;4236;4237;4238;4239;4240;4241;4242;4243;4244;4245;4246];
 [1;2;3;4;5;0;0;0;4257;4258;4259;4260;4261;4262;4263;4264];
 [4265;4266;4267;4268;4269;4270;4271;4272;4273;4274;4275;4276;4277;4278;4279;4280];
 [4281;4282;4283;4284;4285;4286;4287;4288;4289;4290;4291;4292;4293;4294;4295;4296];
 [4297;4298;4299;4300;4301;4302;4303;4304;4305;4306;4307;4308;4309;4310;4311;4312];
 [4313;4314;4315;4316;4317;4318;4319;4320;4321;4322;4323;4324;4325;4326;4327;4328];
 [4329;4330;4331;4332;4333;4334;4335;4336;4337;4338;4339;4340;4341;4342;6;7];
 [8;9;10;11;12;13;913;914;915;916;917;918;919;920;921;922];
 [923;924;925;926;927;928;929;931;932;933;934;935;936;937;3428;3424];
 [3426;3430;3425;3429;3431;3427;945;946;947;948;949;950;951;952;953;954];
 [955;956;957;958;959;960;961;963;964;965;966;967;968;969;962;3061];
 [3062;3063;3064;3065;3066;3067;3068;3069;3070;3350;3351;4128;3342;3328;3329;3330];
 [3331;3432;3249;4592;4593;4594;4595;4596;4597;4598;4599;4600;4601;14;4602;4603];
 [4604;4605;4606;4607;1040;1041;1042;1043;1044;1045;1025;1046;1047;1048;1049;1050];
 [1051;1052;1053;1054;1055;1056;1057;1058;1059;1060;1061;1062;1063;1064;1065;1066];
 [1067;1068;1069;1070;1071;2750;2751;2752;2753;2754;2755;2756;2757;2758;2759;2760];
 [2761;2762;2763;2764;1072;1073;1074;1075;1076;1077;1105;1078;1079;1080;1081;1082];
 [1083;1084;1085;1086;1087;1088;1089;1090;1091;1092;1093;1094;1095;1096;1097;1098];
 [1099;1100;1101;1102;1103;4343;4344;4345;4346;2522;2523;2131;2132;2133;3603;2584];
 [2851;2766;3072;3074;3084;3088;3096;3092;3100;3116;3108;3124;3132;3073;3075;3087];
 [3091;3099;3095;3107;3123;3115;3131;3147;3104;3119;3112;3127;3135;3101;3120;3109];
 [3128;3138;4689;4690;4691;4692;4693;4694;4695;4696;4697;4698;4699;4700;4701;4702];
 [4703;4785;4786;4787;4788;4789;4790;4791;4792;4793;4794;4795;4796;4797;4798;4799];
 [0;0;0;0;0;0;0;0;3280;3281;3282;3283;1852;1863;1864;1865];
 [461;462;464;1342;1343;504;505;465;466;468;470;472;474;476;0;0];
 [1964;160;161;164;166;169;170;171;173;174;175;178;179;183;184;185];
 [186;187;188;189;190;191;192;193;194;195;196;197;198;199;200;201];
 [202;203;204;205;206;207;208;209;210;211;212;213;214;216;217;218];
 [219;220;221;222;223;224;225;226;227;228;229;230;231;232;233;234];
 [235;236;237;238;239;240;241;242;243;244;245;246;248;249;250;251];
 [252;253;254;255;256;298;362;274;332;257;299;363;275;333;260;728];
 [321;317;346;352;350;356;377;381;379;261;731;322;318;347;711;353];
 [351;357;378;733;382;380;340;258;313;262;268;280;282;270;323;327];
 [336;344;366;368;354;341;259;314;263;269;281;283;271;273;324;328];
 [337;345;367;369;355;729;264;284;292;308;348;364;265;285;293;309];
 [349;365;625;651;638;643;658;620;622;633;648;598;627;637;642;656];
 [635;621;607;626;669;654;609;331;624;641;295;661;660;614;664;450];
 [595;599;644;608;403;339;338;616;649;600;629;601;604;606;592;623];
 [650;612;652;596;593;594;653;613;674;673;597;657;634;615;602;15];
 [509;1648;1649;16;17;18;19;20;21;22;23;1650;1651;865;712;716];
 [720;721;774;1855;779;769;772;768;783;780;770;741;742;743;744;745];
 [24;25;805;812;825;796;799;800;776;829;809;815;734;804;816;828];
 [820;797;798;792;793;810;826;827;771;794;3702;3703;3704;3705;3706;3707];
 [3708;3709;3710;3711;3051;3052;3053;3054;3055;3056;3057;3058;3059;3060;2160;2161];
 [2162;2163;2164;2165;2166;2167;2168;2169;2170;2171;3024;3025;3026;3027;3028;3029];
 [3030;3031;3032;3033;3034;3035;3036;3037;3038;3039;3040;3041;3042;3043;3044;3045];
 [3046;3047;3048;3049;4816;4817;4818;4819;4820;4821;4822;4823;4824;4825;4826;4827];
 [4828;4829;4830;4831;4832;4833;4834;4835;4858;4841;4837;4845;4844;0;0;0];
 [0;0;0;0;0;0;1873;1858;2912;2913;2914;2915;2916;2917;2918;2919];
 [2920;2921;2922;2923;2924;2925;2926;2927;2928;2929;2930;2931;2144;2145;2146;2147];
 [2148;2149;2150;2151;2152;2153;2154;4937;4884;4898;4941;4888;4903;4867;4918;4945];
 [4951;4877;4902;4899;4907;4938;4923;5020;5021;5022;5006;5007;5060;5025;2155;0];
 [0;0;0;0;0;0;4987;4125;4127;2070;5069;2081;4772;4773;4774;4775];
 [4776;4657;4658;4665;4990;4989;4988;0;0;0;2350;0;0;0;0;2335];
 [2495;0;0;0;3670;3358;12273;33803;5122;11816;11823;11824;11917;12001;12029;12031];
 [12035;12043;12128;12104;12105;12118;12127;12138;12140;12158;12170;12180;12183;33072;12233;12256];
 [12289;12290;12302;12312;12327;12334;12352;12347;12353;12436;12492;12530;12496;12518;33073;12550];
 [12547;12555;12574;12597;12618;33074;12629;12631;5301;12701;12739;12746;12766;12770;12782;12801];
 [5339;12819;12821;12873;12887;12897;12947;13000;33075;13004;13008;13014;13019;33076;13040;13051];
 [13056;13063;13084;33077;13153;13155;13181;13203;13213;13234;13330;13351;13389;13468;13419;13428];
 [13439;13448;13462;13473;13481;13510;13567;13582;13611;13621;13648;13662;13697;13702;13710;33078];
 [13741;13774;33079;13832;13838;13883;13897;13942;13926;33080;13935;13937;13938;13977;13982;13993];
 [13996;14003;14025;14026;14090;37437;14113;14127;14131;14132;14192;14199;14204;14236;33039;37659];
 [14264;14279;14280;14287;14308;14317;14325;14326;14335;14345;33040;14433;14436;33081;14460;14473];
 [14494;33082;14505;37998;14546;14542;14548;14554;14560;14569;14604;26177;14685;14701;14731;14738];
 [14756;14787;14802;14813;14867;14883;14951;14957;14967;14974;14980;15006;15015;15044;39101;15129];
 [15141;12893;11932;13590;14851;30271;13504;16667;17192;14838;28706;25717;25372;23120;16554;17377];
 [20005;17901;25702;25254;31733;18579;14119;17825;17009;15259;14800;26235;30964;23906;23998;31630];
 [16918;23711;26807;15241;16053;17161;18071;18504;30151;30605;18255;12005;12042;12109;12189;12361];
 [14066;14647;14804;14849;15369;16607;16655;16752;17939;18693;20666;21839;21872;23035;23981;24047];
 [24771;25614;26723;27394;28757;28794;13115;11925;11941;14303;24754;28865;22767;11776;14577;20130];
 [28728;23090;25384;25227;31791;12609;13168;13501;13537;14048;14843;16149;30962;19947;24804;25901];
 [30306;30320;30368;30715;13323;13299;15239;20687;24509;28610;30440;13167;32092;23226;11793;22675];
 [25084;20006;13848;13572;19229;25882;31803;14821;13225;19814;21724;30095;13890;11921;28747;30450];
 [25423;30988;13281;13750;15152;16241;17952;18163;18436;19512;19699;19753;21595;22216;23118;30772];
 [25329;26715;27232;29421;19890;21931;22218;31173;16550;27393;28042;30130;18830;13229;12678;14098];
 [14384;14660;15284;16118;16424;17321;17396;19647;20244;20622;20756;20825;20949;21311;24065;25206];
 [25297;26007;28768;29275;32027;14441;17852;19546;21797;12793;14638;14693;16256;16348;17084;17914];
 [18986;19239;19380;21387;24513;26966;32044;32014;32452;15521;19606;25467;12548;15435;16822;25030];
 [18550;21089;11865;12282;13176;16489;20009;23119;30707;11787;13078;12014;12117;12093;12193;12147];
 [12960;13295;13833;14607;15041;15286;15329;22993;18055;18332;18358;19276;19635;20587;21442;22925];
 [22974;23100;23431;25265;25307;25348;25463;25583;25555;26470;27314;13865;27816;28646;28750;30494];
 [26250;12228;15592;16913;21081;21819;25061;25277;26366;27840;30405;30995;31189;11979;12058;27107];
 [14046;14410;14538;16123;16363;16426;16532;16482;16848;16914;17104;17721;31553;18022;18608;19831];
 [20592;21836;22150;23925;25253;26617;30091;30350;27805;12785;12990;14614;13491;15283;15638;16744];
 [18818;19887;22669;25803;26711;27250;29607;31416;19820;31144;26329;14243;18431;26318;29198;12931];
 [13959;13316;16083;17121;17593;18492;18488;19387;21362;22714;23147;27034;27090;28011;28419;28909];
 [30115;30356;30569;15206;15539;18813;30797;30798;17307;23328;18987;19071;18614;31757;20319;12914];
 [13725;16496;17132;19771;19975;20177;25691;26896;28484;11796;31801;13302;18715;19002;30596;18474];
 [12636;23235;25778;29148;29580;13915;32040;18466;25349;25649;23717;12808;25285;21734;11902;12163];
 [12704;15314;12810;13016;13031;15867;13722;14378;14822;15244;15256;15323;15986;15993;16547;16671];
 [16739;16830;17371;17762;18385;18515;18682;19262;19283;19543;20258;20375;20293;21680;21784;22243];
 [22283;23295;23457;23585;24041;24374;24560;24733;25190;25502;27059;27340;27819;28804;29777;30099];
 [30097;30114;30309;30675;31016;25112;11832;13355;15544;15820;21417;22092;22332;15529;24555;27915];
 [30401;30737;30804;30808;12033;12046;13169;13724;13928;14330;14663;15113;15300;15504;15884;15998];
 [16332;17390;18234;17879;17890;18207;18635;18628;19039;15920;19397;19479;19581;21887;22856;15203];
 [23040;23808;16317;27023;27160;27828;28023;28364;28445;30946;31246;31548;11904;12413;12544;14739];
 [15260;16943;17024;17644;19258;21152;21905;22855;24489;26619;27324;27504;17324;25546;30624;13321];
 [13315;13739;18516;19032;27248;22567;18293;32461;13172;15266;24858;26192;28678;11800;11845;11975];
 [12049;13258;13368;15278;16147;16421;17745;18237;19522;19570;19683;20600;21507;23158;23214;23304];
 [23834;23806;23910;17895;21083;13243;15429;15848;17106;17120;17177;20000;26202;27185;28125;29432];
 [20225;22950;31578;11944;11947;11948;12187;12192;12497;12615;23286;12657;12790;13140;13089;13183];
 [13291;13740;14467;15585;16183;16202;16431;16464;16493;17183;17753;19019;19649;21186;21229;22511];
 [24824;24837;25096;25934;28919;29665;30719;31063;31322;12016;12765;15405;18049;18797;15424;18162];
 [18805;21385;18512;23681;12485;13028;14151;15870;29478;17828;19235;19261;21556;22913;22973;23371];
 [24010;25273;25548;26751;26975;27449;28625;29137;13343;29312;11869;12342;13285;13114;21207;21398];
 [22505;25318;28335;31174;31176;31186;12663;16666;26206;13744;23162;12406;15315;28743;30341;11826];
 [19163;29159;15441;15432;17304;23199;19603;30580;28513;23210;20874;30344;23682;18455;24176;18513];
 [29548;13042;13339;26027;27155;24484;28365;28897;13158;26760;22849;12226;12478;12817;12612;13651];
 [14125;21482;14219;14673;16226;16260;16501;16758;16743;16809;17330;17466;17772;18031;18498;19987];
 [21862;23101;23803;23884;23961;24139;24427;25358;25418;26317;27144;27235;27494;28413;30746;32143];
 [25272;28622;31720;12935;16927;17539;20416;30361;18497;12433;19232;19578;20308;23156;23888;26688];
 [27171;18184;12022;12345;12326;12389;12668;12856;12899;13735;14095;14341;15052;16122;16818;16888];
 [17139;17266;18716;18985;21117;21164;21294;22548;22639;23929;22284;24745;27019;27417;27874;28370];
 [28771;29557;30330;30805;31251;32376;12611;13215;13235;15995;16166;19995;20112;21380;21502;23875];
 [25143;27136;27386;30288;11854;12299;13284;13436;14074;14801;15204;15857;16043;16167;16952;17733];
 [18351;20054;21200;23754;26804;24737;24801;25584;26190;27271;28136;29239;30407;30823;32531;11924];
 [11922;12045;13128;13385;13374;14895;16268;16289;16543;18599;19086;21594;22657;27294;27300;27511];
 [29072;11870;31689;11940;12156;12207;12313;12310;12617;12652;12959;12985;13054;13210;13283;13329];
 [13326;13705;14161;14242;14717;15188;15197;15247;15845;15847;15863;15992;16003;16026;16055;16152];
 [16466;16716;17047;17112;17319;17723;17922;17987;18164;18285;18465;18583;18891;19551;19754;19817];
 [20015;20125;21810;22151;22636;23103;23776;23813;23832;23902;23985;24597;24579;24751;24753;24916];
 [24975;25130;25426;26700;26721;27419;27810;27900;28874;29045;29297;22591;29436;30116;30285;30725];
 [31129;31448;32059;12891;12971;13303;13320;14549;17143;20448;27754;28511;32441;12619;12859;13386];
 [14077;23104;29047;32096;32466;21316;20233;24944;21777;16381;16602;31400;21211;28604;19300;30723];
 [11978;14064;14180;14526;14938;16488;16839;17935;17926;18489;18609;19959;21973;23866;25198;31554];
 [11931;12112;13257;13574;15727;15846;15854;18427;19609;21619;22530;27216;29590;26847;14160;16039];
 [17195;12469;12460;12685;18176;13513;14430;14779;15280;16233;16973;17313;18493;19315;19976;20605];
 [29127;21120;22549;22566;22893;17806;23856;25564;26817;28425;30363;12900;14120;18256;24426;27809];
 [12724;14146;30250;14394;18826;24756;13490;15630;14332;22677;32250;12124;12874;13451;17470;17960];
 [18196;18421;23172;23382;23842;29487;18524;31661;23353;13081;12682;12855;15327;17142;17582;17638];
 [18221;19386;26025;30417;22160;31702;17228;29446;31659;22207;18002;11785;12440;13250;15473;16616];
 [17554;17763;18527;20966;21450;21795;23447;24194;26261;27523;27867;29048;30992;17836;18091;19339];
 [11989;11988;12090;12159;12858;13304;13298;13795;14043;14571;14795;14793;14847;15184;15437;15874];
 [15915;16343;16413;17159;17711;15196;17839;17853;17896;18333;19298;19323;19471;21317;22857;22977];
 [23800;23833;23851;24738;24834;25075;27030;27230;27241;27238;27276;27374;27847;27868;30412;30972];
 [19311;11915;12092;12173;12624;15191;15354;16712;17153;17986;19233;20171;19643;21054;21693;21972];
 [22721;22842;24588;24627;25066;25748;28574;19536;32383;16143;27480;32043;23290;28408;15245;30443];
 [11779;13297;14327;14641;15049;15268;16521;20095;20230;21950;27882;15263;25856;23520;12402;18420];
 [25245;15457;25930;24094;25102;12697;15364;17256;28006;17820;20846;22846;23831;24581;27421;28362];
 [28782;26311;28842;12319;13050;15418;18259;20604;21045;29004;29128;29483;25317;15298;16177;16633];
 [11835;13270;15240;16971;18225;19338;21225;21472;23086;24939;28067;29010;31126;12562;13271;13418];
 [15359;17288;19001;23980;30464;14042;13262;13416;15255;15409;15838;12270;16641;17150;19762;22976];
 [22987;23874;24141;24530;25069;25119;25744;26694;26994;27536;28276;28463;28721;29003;29036;30406];
 [29084;11968;12111;12613;13121;16275;16910;18388;19521;19979;21347;24102;29133;29315;13268;14617];
 [15295;19921;22877;24110;23707;14462;20895;12794;26707;28656;12234;15611;17957;22444;23267;25116];
 [31231;12742;16298;17900;18799;19337;19955;20118;20324;22270;23828;15841;28789;29063;30726;12774];
 [12829;16960;18065;18137;19994;16054;24018;24434;18168;26031;26103;27384;12969;13273;14707;16015];
 [16272;16469;29412;30308;12471;12575;13021;13088;13127;13292;13544;13638;13617;13847;14696;14782];
 [14908;15285;15366;15375;15377;15386;16004;16010;16096;16240;17023;17028;17115;17292;17271;17927];
 [17932;17965;18038;18302;18594;18975;18997;19644;19848;19977;20056;20796;20774;20839;21959;22273];
 [22621;22785;22885;23024;23264;23313;23719;23865;24726;25558;25739;25929;26717;26867;27167;27196];
 [27220;27251;27745;27870;29092;29286;29566;29720;30364;30616;11786;11784;11806;11863;12695;12912];
 [14286;14388;14540;15138;15928;16581;17662;18273;18262;19780;21174;21875;23139;25784;27506;29112];
 [29472;13873;14324;30974;17133;18701;19350;20973;24148;24695;25202;27110;30943;26453;28593;15419];
 [12088;12257;12213;13575;14880;15325;15337;16323;16718;17199;17840;17995;18670;18843;19832;19953];
 [21811;21945;22303;22878;23014;23859;25059;25263;26026;27050;27194;28331;28571;28722;29149;30471];
 [11962;11969;12803;14453;14572;15371;21786;15421;24910;27146;28613;30307;30573;23333;27343;30728];
 [29026;14067;13224;28695;13369;14210;15909;17320;19508;20618;22369;23691;24544;26736;28738;29012];
 [29456;29464;30351;21598;31428;15623;15721;17776;18338;28072;30427;17262;18249;18713;25541;30743];
 [30400;26878;20356;17530;15352;11798;20524;21853;17967;12740;12854;13026;14803;16257;16423;16912];
 [17727;17780;17951;18036;18674;18454;19299;19973;21106;21791;22235;23742;24662;14576;26877;27007];
 [27296;27283;27339;28701;29074;30546;30553;17801;23054;24838;30395;15917;16604;16922;17829;17940];
 [18320;22515;23117;23629;24126;24842;27820;28004;28129;28255;22697;12807;17113;17317;17474;17048];
 [27181;23171;23488;27308;30442;23926;25100;26441;11993;12616;13123;13152;15267;15362;15382;15837];
 [16934;16967;17584;18451;18484;19657;19781;19735;18387;20316;20814;20861;17867;23167;23469;24026];
 [24138;24488;24954;25115;25145;26022;27246;27854;28149;28792;28791;29357;29329;30083;31662;12877];
 [13700;20280;20790;12648;22917;24149;25011;23758;13900;14417;15528;17322;18174;18173;18778;21209];
 [21903;21902;22798;22870;23007;23703;23840;23876;26119;27188;30267;28769;32544;12519;12917;13260];
 [13282;12297;13738;14574;14671;21053;15243;15460;13085;16611;16627;17244;17283;17215;17339;17613];
 [17897;18169;15843;18893;18941;20245;20965;11913;21993;22264;23187;23775;24015;23964;24673;25417];
 [25432;25708;25788;26107;26821;28016;28673;28781;29591;30492;31250;12495;14487;16782;25043;25909];
 [27912;28704;12227;12404;12871;13171;16495;17225;18271;20012;28083;28703;12247;15454;27850;17871];
 [23962;13138;26774;12662;17347;15192;15211;15370;17421;18257;28764;11990;14618;14634;19568;27217];
 [13630;14357;14757;16624;16979;18369;25141;18773;30272;31172;31272;12115;14342;15358;24592;15537];
 [15919;16261;16416;16715;16948;18175;19696;20190;24782;24959;25300;26763;27832;28672;28718;30346];
 [32475;31707;12003;13296;14631;23340;29069;30796;32249;20189;20519;13139;13636;15237;16984;17054];
 [17107;19618;20463;21538;27159;29752;20417;27390;25400;12775;26360;13290;13289;12102;28756;28592];
 [14698;24881;15869;23274;28607;18650;27703;21240;31816;19005;27312;11833;13144;13830;14182;17093];
 [17314;17894;19278;19937;20059;20653;22509;23279;23466;23995;24637;24774;26315;27285;29531;14051];
 [14535;16190;17837;18070;19072;19381;21815;27335;12324;22501;14128;16155;16485;18042;19552;22004];
 [23066;24430;25076;26392;28741;31155;23497;21852;23289;23377;25796;28688;23017;23186;25398;15073];
 [22336;11821;12018;15257;16352;17085;17980;18417;19688;26219;26743;27195;29006;29427;31184;18967];
 [20518;21290;25319;25687;27823;11777;12614;12747;13707;15349;15894;15923;16001;16148;16181;16235];
 [16308;16882;17169;18082;18205;20334;21074;21818;22330;24692;24889;24952;26486;27327;27356;28037];
 [28147;29338;30071;30722;31973;12997;17239;22260;18197;19592;21453;27843;29614;30323;19749;14492];
 [18702;18892;28669;29594;21979;28698;14426;18434;17332;18939;12099;20268;18392;28603;25894;23988];
 [29524;18751;20336;14186;14583;15148;23852;21034;13322;29155;32180;11949;12110;12380;12405;12867];
 [27806;13384;14372;15258;15901;16021;16045;16119;16159;16524;17077;17210;17360;18607;19520;22663];
 [22926;23051;24032;25159;27138;27366;28228;28691;28856;28973;29144;32526;19685;17496;17634;17781];
 [20212;22148;23323;28777;29649;20154;13554;16313;17572;28493;28653;29252;12664;14443;14633;15445];
 [16023;19963;24207;21788;27836;28386;30811;20665;12061;19391;20401;21808;30459;12622;13328;14389];
 [14423;14764;15456;16274;17815;18268;20001;22139;25567;27885;28692;28925;29517;22565;22586;12970];
 [16038;14111;14708;16402;12306;12634;12716;12749;12800;13584;14420;14424;14679;15253;15606;15755];
 [16572;17045;17453;18289;18499;18620;18655;22231;19928;20079;19867;20591;20936;16211;21976;22903];
 [23369;23380;23378;23766;23921;12848;25699;25961;26084;27150;27396;27718;28175;28675;28687;29721];
 [30326;30765;31280;30168;12493;13013;13324;14338;15374;16807;17566;19742;22451;23269;24820;25604];
 [28755;29317;15584;32007;13119;16279;16307;19868;21113;22371;22975;23524;19410;21228;27309;18435];
 [19041;12792;23169;18740;15434;31990;25323;15301;29001;20510;13944;15471;16583;17766;19596;27738];
 [28737;30739;13393;18119;29197;14664;28835;12677;11853;12778;26009;27406;20568;17274;29515;18786];
 [31156;24068;21879;13143;18784;28383;30435;19549;11916;15420;16144;28649;13058;27857;24713;26233];
 [16127;17893;11891;12645;14722;15423;30702;12027;14730;16333;27277;20449;22960;22882;15335;25713];
 [21291;20913;15988;16373;17275;17562;20931;23704;11843;16124;11851;14300;13986;16553;20419;23821];
 [24829;24883;25023;28594;27031;26276;15860;17034;17581;27015;18295;19682;19774;21558;22580;14918];
 [24437;25261;31148;12275;16067;17117;17298;17751;18287;22211;21068;24780;24762;28457;29005;12301];
 [14329;14994;18565;18803;20836;21245;27831;14578;27872;30314;28697;26495;23012;22503;25641;12079];
 [12901;13146;17101;18383;19658;22141;23444;23701;25142;25988;28651;18141;20256;20998;24091;25515];
 [31169;32422;12797;23473;22642;23480;24711;23368;19176;15969;24716;21841;21856;12651;29282;20108];
 [22138;29079;31466;12048;24432;17052;23375;30117;31977;13946;14425;26340;30396;12084;12836;13130];
 [13261;13275;15878;17452;17809;18303;19518;19534;21064;21167;21485;21844;24129;25132;26089;27817];
 [23492;29126;20841;30738;30959;17213;18025;21866;22244;22736;25923;26350;13098;13137;13350;14723];
 [16007;16252;16562;16969;17017;17067;17808;19412;19660;21938;22190;22673;23000;24011;24439;24741];
 [26795;27321;27835;28799;30558;30939;18955;23608;12441;15422;16302;18311;19416;21557;22281;24462];
 [32571;18378;23063;13113;21899;31469;16230;24989;25585;24728;16188;16325;21858;23366;28732;18535];
 [14827;15003;23824;22142;27436;12277;16234;18969;19511;20226;21730;22888;26728;27221;27769;16095];
 [17359;21957;22994;25303;29480;29426;25756;26349;31789;13505;16236;17804;19804;20501;27815;27859];
 [30779;17743;21750;11789;11992;14304;14635;14950;15308;12712;15875;16028;16406;17014;17783;17831];
 [18030;19822;21046;23334;24912;24986;25241;27484;27808;27878;28020;30236;30276;12206;17579;19302];
 [25118;25697;25962;28904;15361;18771;30888;25722;25943;12047;12911;16297;15941;18189;22927;24953];
 [26887;27014;19957;16151;16981;19640;11983;21097;31634;12806;13371;13940;14515;16804;17006;20762];
 [14702;23689;23774;23835;30448;17799;24670;11801;12149;12661;14400;15971;15987;16138;18372;11814];
 [25917;30089;30299;23667;30721;12539;14529;22102;22695;12837;22437;25873;23430;12367;14601;21063];
 [23495;24040;28602;28628;28749;12223;13001;14889;16129;30637;12253;25111;29418;14083;17237;19305];
 [21803;26844;28436;23106;13023;14483;16725;16906;18094;19405;23615;25577;12323;12280;13061;13382];
 [14385;14665;15261;15600;15599;15657;16022;17073;17255;17726;17849;18187;19669;19681;20729;22578];
 [24107;24798;25267;25612;25836;26370;26898;27178;27722;28838;29394;30973;31987;32108;11855;11937];
 [12429;12886;14154;14760;15933;16344;16345;16959;18100;18203;18384;18642;12690;23841;24746;25000];
 [27392;27788;27839;29310;30258;13344;30764;13079;12501;13148;14504;17586;18228;21095;22374;23110];
 [29158;12995;19617;19334;14336;15948;14676;18220;24571;12769;22214;17513;22760;31572;32443;14283];
 [14777;17959;18330;19406;13545;18905;15957;24988;18325;31658;18430;31826;18525;11942;12259;13256];
 [17081;18219;19627;28612;12205;24173;32447;11783;16738;20096;20267;25875;13427;18218;31557;15859];
 [23445;15532;15302;26396;20042;25809;23060;24840;14745;23693;19473;22304;13017;14626;20769;21087];
 [22491;30503;32097;18699;14975;14872;12709;13325;13437;17934;22239;28663;29336;31988;14826;21085];
 [20165;12621;18633;23999;24044;30562;32442;17528;18977;25346;14724;15199;19419;21275;22258;23986];
 [24599;25753;12594;18216;32473;22254;18274;13055;30981;15396;16955;23678;27824;13647;16566;23819];
 [30080;13057;11871;12726;14620;21050;24630;29134;16165;22498;13188;16249;23812;26028;27187;28301];
 [30550;18419;26030;29779;16649;16648;19641;22098;27373;28472;13615;12113;12586;12999;13259;15269];
 [15997;16544;16770;17366;18185;18394;20071;19852;21302;21303;21809;22864;26837;27288;28746;28817];
 [28917;30404;26509;14613;11912;12121;11790;27273;28479;30736;12461;15996;14742;15289;16056;17370];
 [17402;17601;18140;18762;18904;19723;20150;20884;21800;23215;24458;24576;25673;25801;27009;27425];
 [28170;28773;30333;30986;16766;17041;19250;19587;19828;24524;24572;19904;24453;26554;26872;18277];
 [25521;30780;30455;19739;23905;25661;29034;11889;13173;15696;19204;20459;26061;26157;27047;12841];
 [13327;15461;18254;18600;21510;21635;21986;26831;26849;29132;30434;30328;16267;21383;23243;25678];
 [17312;21861;12937;19777;20124;21513;21849;22635;23698;30342;23260;32653;12214;16750;17861;26204];
 [11910;11950;12506;11809;12748;15342;17817;18561;19900;21279;22082;22445;23068;23783;25199;27346];
 [28796;29135;30325;30744;12955;24017;12331;13208;18327;19915;20944;21555;25064;28458;30371;31831];
 [32415;21600;14401;19865;23855;30814;12004;12086;12171;12727;12977;15802;16412;21426;22844;25299];
 [29236;30391;30454;30474;32407;32610;18086;19316;12823;12963;20680;26818;16073;16459;16784;20259];
 [20809;23614;24052;24687;25838;28707;29484;13378;31599;19155;20617;27842;28143;30514;12980;14913];
 [16074;16132;18199;18812;18836;19818;20239;21090;21244;23533;24577;24702;26443;28878;12653;32403];
 [22916;24715;29490;27350;12333;13452;27249;19306;27844;24839;16593;18336;32242;11929;11928;31760];
 [27243;26049;25960;18688;20094;22679;24917;36511;15169;15190;15229;15251;15320;15340;15378;15390];
 [15395;15403;6029;15458;33083;33084;38580;15482;15503;15519;15523;15530;15546;15563;15568;15570];
 [15604;39988;6114;15629;15655;33041;15686;15687;15699;15690;15725;15745;15776;15780;15783;15800];
 [15819;13342;16140;11792;11797;11818;11825;11830;11836;11839;11842;11862;11864;11906;11909;27755];
 [11914;25106;16141;11918;11934;11935;11936;11938;11952;11955;11958;11982;11981;11972;11974;11970];
 [11991;11998;12013;11999;12023;12041;12122;12080;12123;12125;12119;12103;12150;12168;12175;12184];
 [12155;12137;12144;12177;12143;12166;12182;12568;12244;12255;12238;12248;12251;12241;12250;12240];
 [12260;12261;12314;12328;12308;12330;12325;12293;12060;12278;12321;12329;12332;12286;12271;12305];
 [12294;12355;12359;18179;12373;12368;12360;12378;12374;12396;12408;12416;12442;12421;12468;12466];
 [12489;12490;12467;12482;12502;12510;12517;12525;12515;12526;12537;12533;12553;12545;12546;12566];
 [12565;12564;12570;12577;12602;12599;12604;12603;12607;12608;12626;12620;12628;12642;23288;12649];
 [12650;12654;12672;12674;14040;12684;12681;12687;12689;12691;12693;12694;12708;12710;12706;12713];
 [12714;12715;12723;12721;12722;12720;12725;12733;12741;12745;12763;12768;26197;12777;12781;12784];
 [12789;12798;12804;12811;12820;12814;12839;12842;12846;12851;12857;12879;12868;12875;12876;12894];
 [12884;12906;12916;12905;12915;12927;12925;12941;12948;12946;12913;12936;12945;28584;28583;12972];
 [12973;12988;12981;12993;13005;13015;13022;13027;13030;30957;13024;13043;13045;13048;13049;13062];
 [13064;21816;13069;13072;13071;13077;13082;13091;13103;13105;13107;13112;13120;13126;13125;11799];
 [13129;13133;12758;13150;13161;13166;14616;13179;13175;13186;13206;13216;13222;13221;13230;13232];
 [13238;13251;23570;30425;13279;18172;20974;13294;13288;13293;13306;13313;13373;13376;13356;13357];
 [13372;13358;13366;13353;13341;13390;13455;13429;13454;13407;13425;13431;13424;13458;13435;13440];
 [13430;13444;13456;13446;13511;13474;13496;13477;13484;13508;13512;13480;13483;13506;13476;13502];
 [13500;13528;13541;13542;13583;13588;13565;13550;13549;13562;13538;13625;13632;13667;13644;13614];
 [13660;13637;13654;13655;13624;13619;13661;13721;13696;13487;13706;13727;13691;13694;13720;13726];
 [13742;13692;13699;13737;13703;13736;13786;13765;13791;13764;13788;13796;13780;13844;13815;13846];
 [13822;13821;13851;13817;13902;13904;20959;13876;13878;13874;13880;13931;13924;13871;13932;13930];
 [13958;13952;13962;13984;13972;13967;13989;13998;14006;14004;14018;14012;14017;14019;14016;14024];
 [14030;14033;14035;14039;14062;14073;14080;14079;14084;14089;14088;14091;14093;14099;14104;14102];
 [13767;14108;14118;14135;14136;14158;14139;14144;14159;14185;14272;14216;14177;14207;14217;14227];
 [14240;14259;14244;14250;14256;14275;14278;14292;14290;14291;14346;14294;14307;14347;14361;14365];
 [14450;14369;14434;14411;14448;19392;14418;14397;14457;14469;14521;14495;14507;14522;14558;14523];
 [14520;14510;14533;14547;14545;14551;14553;14552;14565;14556;14564;14559;14575;14586;14585;14587];
 [14588;14589;14594;14602;14608;14619;18598;14629;14636;14637;14642;14648;14654;23250;14677;14672];
 [14670;14682;14680;14690;14688;14695;14700;14697;14712;14721;14749;12126;12203;14755;14770;14790];
 [14824;14812;14733;14809;14810;14885;14879;14865;14876;14857;14874;14912;14956;14921;14901;14902];
 [14946;14954;15002;15036;15038;15051;15042;15037;15075;15063;15078;15081;15062;15098;15099;15116];
 [15115;15126;15154;15056;15146;15158;15166;15171;15173;15168;15185;15189;15194;15195;15205;15209];
 [15216;15219;15221;15224;17800;15226;15232;15235;15270;15288;15299;15303;15305;15316;15312;15332];
 [15334;15330;15326;15333;15339;15344;15350;15347;15365;15367;15368;15373;15379;15392;15394;15400];
 [15416;15417;15425;15430;15438;15443;15440;15439;15217;15468;15470;11874;15478;15481;15500;15505];
 [15508;14747;15531;15547;15542;15548;15543;15557;15550;15559;15577;15593;15613;15610;15597;15756];
 [15594;15627;15637;15639;15708;15647;15643;15633;15636;15650;15642;15641;15640;15692;15698;15694];
 [15691;15724;15731;15734;15751;15748;15746;15778;15773;15788;15790;15805;15760;15799;15804;15817];
 [15821;15827;15826;15830;15835;15851;15858;15861;15883;15898;15897;15889;15899;15926;15927;15940];
 [15939;15936;15950;15959;15956;15967;15970;15972;15943;15989;15990;15994;32444;15999;16032;16065];
 [16066;16072;16080;16079;16086;16099;16093;16090;16091;16098;16097;16104;16105;16108;16113;16115];
 [16112;16116;16120;16126;16131;16137;16221;16220;16139;16145;16150;16169;16173;16184;16193;16200];
 [16204;16206;16175;16209;16214;16215;16217;16225;16237;16243;16247;16259;16258;16255;16266;16264];
 [16273;16263;16286;16281;16280;16288;16296;16301;16316;16342;16379;16356;16376;16369;16349;16563];
 [16383;16417;16480;16409;16400;16425;16398;16433;16411;16405;16427;16422;16399;16442;16474;16449];
 [16490;16503;16479;16458;16454;16461;16483;16451;16484;16450;16492;16491;16473;16513;16525;16615];
 [16515;16538;16516;16539;16534;16535;16530;16551;16523;16609;16568;16608;16595;16564;16368;16573];
 [16582;16565;16600;16717;16661;16646;16630;16631;16640;16628;16634;16643;16673;16635;16625;16653];
 [16654;16711;16702;16680;16679;16714;16703;16700;16684;16692;16701;16706;16708;16755;16759;16728];
 [16729;16730;16747;16756;16751;16741;16753;16735;16733;16723;16757;16793;16790;16775;16812;16788];
 [16794;16778;16785;16811;16814;16844;16842;16841;16887;16840;16835;16838;16826;16843;24441;16845];
 [16870;16867;16886;16890;16884;16895;16893;16892;16894;16896;16904;16905;16909;16908;16916;16923];
 [16926;16929;16938;16942;16944;16946;16947;16961;16974;16990;16995;16987;16992;17000;17020;17026];
 [17033;17022;17042;17043;17046;17108;17027;17044;17111;17105;17083;17103;17151;17094;17620;17096];
 [17116;17100;17098;17090;17095;17051;17097;17164;17134;17137;17191;17154;17160;17135;17141;17232];
 [17214;17229;17436;17231;17302;17294;17280;17323;17270;17315;17295;17289;17311;17333;17259;17257];
 [17342;17385;17344;17350;17379;17353;17362;17398;17348;17430;17460;17414;17427;17446;17462;17693];
 [17431;17448;17423;17511;17519;17526;17486;17706;17557;17555;17573;17577;17544;17596;17626;17618];
 [17605;17607;17595;17624;17602;17649;17639;25097;17632;17633;17068;17635;17647;17708;17654;17652];
 [17650;17658;17664;17661;17688;17692;17669;17700;17699;17707;17716;17717;17719;17718;17720;21835];
 [17736;17750;17749;17741;17752;17758;17757;17778;17784;17794;17795;27530;17819;17823;17835;17847];
 [17859;17862;17857;17860;17868;17874;17883;17881;17888;17889;17905;18290;17930;17923;17915;18291];
 [17973;17974;17972;17948;17999;17988;17993;17985;18014;18013;18020;18023;18024;18015;18018;18032];
 [18051;18056;18062;18057;18052;18072;18077;18113;18105;18121;18110;18108;18116;18104;18134;18138];
 [18144;17983;18150;18153;18160;18165;18167;18191;18198;18206;18214;18215;30520;18222;18239;18230];
 [18241;18232;18231;18246;18270;18272;18265;18275;18276;18313;18288;18345;18300;18282;18316;18315];
 [18342;18337;18309;18359;18415;18356;18412;18355;18409;18360;18404;18398;18397;18402;18414;18361];
 [18382;18374;18407;19100;18462;18502;18473;18496;18509;18482;18510;18611;18475;18521;18531;18551];
 [18559;18591;18575;18605;18580;18589;18587;18563;19118;18617;18548;18613;18592;18618;18703;18573];
 [18558;18689;18634;18696;18648;18722;18726;18657;18700;18637;18644;18663;18645;18742;18706;18692];
 [18647;18659;18725;18681;18656;18671;18728;18730;18714;18723;18721;18630;18809;18807;18780;18808];
 [18795;18772;18814;18798;18745;18804;18749;18777;18736;18785;18782;18781;18817;18794;18866;18862];
 [18896;18879;18881;18899;18878;18894;15336;18890;18909;18875;18883;18855;18990;18833;18848;18844];
 [18837;18868;18910;18920;18946;18971;18943;19210;18937;18930;18919;18949;18865;18974;18925;18964];
 [18923;18954;18962;19137;18979;18963;19012;18956;19058;18998;19064;19015;19042;19033;19046;19016];
 [19000;18978;19088;19085;19104;19076;19106;19107;19095;26135;19131;19139;19138;19128;19123;19116];
 [19166;19153;19167;19114;19162;19178;19195;19205;26134;19194;19218;19222;31537;19231;19256;19255];
 [22236;19257;30958;19271;19267;19273;19280;19289;19284;19291;19295;19297;19320;19321;19327;19328];
 [19332;19331;19341;19352;19349;19358;19364;19370;19371;19375;19378;19377;19379;19383;19388;19398];
 [19403;19411;19423;19436;19435;19443;19439;32446;19464;19475;19476;19483;19492;19491;19550;19541];
 [19554;19562;19586;19597;19610;19585;19611;19582;19560;19571;19602;19600;19652;19697;19667;19645];
 [19671;19653;19677;19630;19633;19646;19642;19675;19695;19673;19690;19743;26701;19766;19755;19773];
 [19768;19737;19765;19763;19730;19724;19811;19859;19812;19802;19833;19801;19854;19861;20452;19845];
 [19961;19989;19978;19893;19911;19942;19896;19910;19948;19934;19916;19944;19922;19909;19962;19929];
 [19940;19925;19946;19950;20013;20078;20014;19993;20082;20063;20030;20003;20075;20011;20086;20045];
 [19999;20035;20026;20046;20004;20223;19997;20024;20098;20138;20120;20169;20151;20179;20157;20143];
 [20164;20146;20180;20181;20111;20133;20162;20127;20289;20241;20556;20204;20216;20222;20287;20210];
 [20273;20207;20274;20172;20286;20243;20215;20358;20346;20344;20353;20352;20335;20315;20467;20333];
 [20354;20348;20312;20366;20369;20418;20326;20403;20387;20385;20388;20409;20422;20394;20447;20437];
 [20460;20436;20440;20465;20462;20443;20489;20491;20474;20497;20481;20495;20478;20507;20506;20340];
 [20509;20504;20511;20528;20542;20530;20561;20579;20633;20626;20655;20721;20652;20664;20659;20654];
 [20703;20683;20701;20697;20745;20733;20764;20761;20837;20821;20872;20838;20834;20812;20822;20844];
 [20879;20987;20868;20885;20904;20908;20951;20921;20926;20946;20937;20948;20942;20960;20972;20967];
 [20981;20988;20985;20991;21005;21008;21019;21032;21037;21036;21040;21042;21051;21052;21055;21056];
 [21062;21067;21080;21108;21118;21122;21121;21127;21138;21142;21154;21159;21177;21170;21187;21190];
 [21188;21198;21202;21218;21216;21217;21241;21239;12303;21271;21258;21276;21270;21277;21300;21295];
 [21289;21285;21310;21326;21327;32472;21335;21354;21352;21360;21368;21365;21371;21370;21448;21427];
 [21454;21435;21440;21477;21486;21470;21666;21509;21615;21541;21496;21554;21562;21589;21567;21599];
 [21593;21569;21596;21609;21616;21603;21610;21622;21630;21643;21662;21671;21706;21711;21716;21489];
 [21728;21731;21735;21737;21742;21746;21744;21745;21752;21751;21764;21763;21765;21772;21774;21773];
 [21781;21779;21790;21798;21804;21820;21828;21837;21834;21833;21851;21830;21850;21865;21860;21863];
 [21867;21869;21880;21878;21894;21895;21876;21898;21897;21890;21908;21914;21917;21925;21923;21954];
 [21939;21955;21941;21949;21944;21948;21937;21965;21962;21970;21977;21987;21982;22014;22015;22012];
 [22017;22000;22010;22002;22003;22027;22029;22025;22047;22055;22048;22049;22050;22052;22068;22064];
 [22075;22087;22088;22086;22108;22104;22113;22114;22120;22121;22122;22119;22124;22128;22130;22134];
 [22136;22140;22144;22147;22152;22155;22158;22166;22163;22169;22170;22192;22196;22200;22201;22202];
 [22210;22221;22230;22226;22238;22241;22245;22247;22250;26159;22267;22280;22279;22276;22313;22308];
 [22302;22309;22310;22299;22327;22328;22343;22362;22376;22379;22363;22373;22399;22398;22393;22414];
 [22411;22417;22432;22430;22448;22454;22457;22463;22460;22461;22459;22471;22477;22487;22490;22492];
 [22499;22510;22524;22540;22546;22822;22560;22826;22597;22670;22644;22662;22652;22682;22668;22691];
 [22709;22698;22703;22737;22726;22731;22740;22718;22716;22725;22730;22764;22759;22746;22781;22772];
 [22791;22802;22801;22809;22828;22827;22848;22880;22871;22879;22874;22869;22867;22906;22911;22922];
 [22941;22951;32587;22954;22958;22963;22969;22970;22985;22997;23015;23020;23009;23011;23048;23053];
 [23064;23065;23072;23071;22912;23089;23099;23102;23095;23107;23127;23113;23137;23138;23145;32669];
 [23152;23161;23165;23176;23191;23189;23192;23190;23209;23240;23216;23222;23237;23236;23231;28803];
 [23239;23242;23245;23247;23253;23251;23257;23258;23261;23265;23266;23270;23277;23280;23298;23311];
 [23306;23302;23347;23320;23321;23326;23349;23336;23350;23376;23418;23300;23373;23307;23372;23365];
 [23413;23397;23412;23399;23408;23409;23404;23406;23453;23448;23455;23437;23452;23450;23435;23442];
 [23439;23389;23449;23499;23489;23500;23503;23476;23494;23517;23529;23569;23572;23526;23525;23648];
 [23552;23559;23571;23539;23543;23575;23565;23542;23587;23591;23594;23583;23607;23595;23613;23628];
 [23619;23636;23631;23616;23632;23640;23647;23652;23638;23653;23660;23669;23683;23696;23716;23725];
 [23714;23723;23713;23720;23731;23730;23729;23726;23737;23741;23744;23749;23746;23768;23762;23772];
 [23778;31547;23791;23794;23796;23798;23802;23814;23810;23836;23829;23818;23877;23883;23854;23858];
 [23871;23861;23878;23923;23894;23886;23922;23912;23918;23887;23907;23955;23945;23899;23951;23933];
 [23963;23994;23982;23971;23989;24007;23997;23979;24125;23970;23983;24028;23992;23967;23984;24024];
 [24029;24036;24030;24059;24050;24033;24069;24074;24099;24097;24082;24113;24095;24073;24075;24098];
 [24134;24166;24123;24117;24121;24131;24119;24114;24122;24167;24157;24150;24158;24153;24154;24185];
 [24170;24169;24188;24187;24195;24021;24189;28590;24191;24200;24201;24204;24210;24208;24211;24212];
 [24214;24206;24219;24220;24376;24378;24389;24396;24397;24398;24400;24401;24405;24404;24408;24415];
 [24416;24424;24425;24423;24440;24450;24454;24451;24456;24455;24460;24468;24478;24477;24474;24483];
 [24495;24498;24505;24494;24502;24504;27505;24517;24518;24522;24533;24532;24545;24550;24553;24563];
 [24569;30940;24582;24580;24587;24594;24600;24601;24604;24609;24616;24639;24635;24650;24646;24658];
 [24664;24666;24671;24674;24680;24691;24690;24688;24694;24697;24701;24703;24708;24710;24709;24731];
 [24723;24730;24749;12688;24748;24795;24805;24793;24797;24772;24794;24790;24841;24815;24817;24859];
 [24873;24867;24879;24907;30347;24902;24894;24915;24913;24828;24945;24942;24933;24934;24948;24963];
 [24968;24970;24960;24962;24992;24981;24996;24995;24927;24979;25001;25008;25013;25022;25016;25021];
 [25024;25026;25018;25033;25037;25041;25049;25048;25032;25050;25055;25056;25063;25082;25083;25086];
 [25089;25090;25093;25095;25098;25101;25104;25110;25129;25131;25144;25139;25152;25177;25176;25181];
 [25178;25183;25188;25186;25192;25194;25195;25134;25201;25207;25208;25214;25229;25234;25259;25247];
 [25275;25260;25313;25315;25311;25298;25332;25331;25338;25491;25347;25339;25337;25310;25350;25308];
 [25353;25305;25397;25396;25366;25394;25393;25408;25401;25424;25413;25391;25387;25367;25368;25477];
 [25498;25514;25503;25506;25494;25379;25486;25479;25482;25468;25525;25459;25461;25504;25481;25512];
 [25588;25619;25579;25550;25597;25603;25560;25611;25537;25591;25607;25568;25586;25613;25634;25632];
 [25533;25656;25862;25595;25709;25642;25660;25946;25732;25719;25707;25773;25710;25730;25705;25670];
 [25644;25711;25721;25653;25802;25698;25785;25791;25759;25817;25805;25787;25818;25808;25793;25798];
 [25814;25761;25889;25855;25844;25879;25880;25900;25887;25877;25876;25852;25920;25955;25944;25928];
 [25921;26114;25931;25941;25984;26020;25992;26001;25994;26024;25965;26004;26011;26090;25991;26012];
 [25975;25982;26000;26057;26042;26063;26041;26064;26069;26077;26085;26076;26105;26122;26131;26123];
 [26110;26106;26118;26146;26138;26160;26175;26189;11861;26196;26207;26215;26225;26259;26275;26281];
 [26282;26251;26252;26294;26287;26308;26310;26288;26313;26659;26283;26324;26334;26345;26348;26335];
 [26331;26351;26386;26374;26376;26368;26371;26363;26385;26377;26381;26361;26378;26420;26431;26423];
 [26427;26405;26409;26394;26464;26463;26488;26444;26446;26484;26455;26472;26478;26457;26451;26467];
 [26474;26629;26530;26527;26498;26543;26571;26557;26560;26576;30422;26539;26564;26547;26567;26566];
 [26555;26607;26610;26592;26639;26637;26622;26614;26615;26638;26578;26641;26646;26645;26658;26657];
 [26673;26678;26681;26663;26683;26692;26690;26706;26713;26718;26722;26731;26753;26750;26782;26741];
 [26749;26805;26738;26754;26775;26770;26798;26777;26786;26765;26788;26800;26815;26801;26819;26820];
 [26836;26840;26841;26845;26873;26882;26876;26868;26856;26866;26884;26892;26890;26899;26947;26910];
 [26917;26922;26923;26945;26948;26939;26934;26936;26956;26909;26976;26974;26982;26980;26989;26986];
 [26991;26996;26999;27006;27011;27016;27018;27027;27032;27041;27049;27046;27052;27055;27058;27066];
 [27069;27071;27072;27098;27100;27101;27111;27124;27128;27139;27158;27152;27148;27163;27165;27173];
 [27190;27201;27227;27218;27206;27208;27260;27245;27244;27234;27269;27266;27268;27304;27297;27281];
 [27301;27302;27290;27299;27332;27341;27330;27354;27371;27379;27367;27364;27377;27412;27360;27362];
 [27383;27358;27355;27404;27399;27418;27361;27414;27408;27415;27424;27443;30635;27430;27435;27454];
 [27432;27457;27468;27471;27470;27465;27478;27483;27482;27499;27487;27500;27503;27508;27517;27520];
 [27532;27534;27538;27539;27542;27545;27546;27706;27713;27711;27720;27724;27726;27728;27733;27746];
 [27756;27768;27770;27778;27785;27781;27786;27789;27790;27796;27772;27800;16925;27821;27818;27837];
 [27826;27827;27822;27830;27848;27841;27876;27875;27866;27901;27898;27899;27908;27909;27914;27911];
 [27919;27917;27920;32590;27923;27853;27924;27926;28007;28013;28017;28019;28033;28057;28098;28094];
 [28090;28111;28122;28118;28108;28123;28107;28138;28139;28127;28131;28156;28168;28169;28159;28189];
 [28190;28176;28191;28226;28213;28208;28212;28234;28231;28233;28236;28240;28232;28249;28260;28256];
 [28202;28259;28245;28278;28274;28284;28289;28295;28293;28292;28299;28298;28307;28305;28308;28313];
 [28330;28321;28332;28336;28358;28337;28350;28357;28360;28363;28379;28387;28412;28411;28395;28414];
 [28426;28421;28437;28434;28441;28435;28444;28447;28443;28428;28454;28467;28475;28473;28485;28482];
 [28478;28492;28489;28486;28494;28503;28508;28514;28515;28516;28572;28575;28579;28589;28591;28599];
 [28634;28645;28642;28650;28655;28807;28660;28677;28665;28666;28689;28693;28705;28685;28702;28694];
 [28683;28711;28726;28725;28729;28664;28751;28752;28753;28754;28686;28745;28734;28758;28760;28766];
 [28776;28783;28790;30376;28786;28802;28797;28801;28800;28810;28809;28815;28840;28847;28849;28853];
 [28898;28900;16968;28891;28930;28946;28953;28978;28976;29002;29014;29016;29027;29029;29033;29043];
 [29042;29067;29065;29058;29090;29099;29103;29098;29109;29108;29114;29120;29121;29129;29131;29136];
 [29142;29151;29153;29147;29180;29173;29174;29214;29183;29204;29228;29205;29201;29278;29271;29253];
 [29257;29284;29256;29333;29247;29259;29264;29340;29334;29331;29339;29274;29391;29369;29367;29417];
 [29455;29434;29508;29486;29465;29474;29466;29475;29498;29493;29499;29532;29536;29564;29550;29526];
 [29616;29612;29613;29588;29625;29654;29655;29672;29669;29656;29635;29661;29648;29640;29668;29722];
 [29716;29715;29699;29703;29712;29750;29739;29749;29729;29754;29761;29778;29764;29787;29792;29794];
 [29790;29802;29225;29808;29813;29815;29821;29786;29820;29822;29825;29823;30082;30087;30090;30100];
 [30102;30104;30105;30112;30120;30119;30125;30140;30139;30137;30142;30154;20470;30147;30157;30156];
 [30165;30164;30166;30172;30177;30181;30178;30241;30248;30254;30255;30274;30284;30287;30283;30327];
 [30300;30302;30301;30303;30310;30322;30316;30349;30360;30357;30359;30378;30375;30385;30386;30384];
 [30388;30390;30392;30393;30414;30411;30409;30413;26957;30428;30477;30421;30457;30468;30470;30472];
 [30483;30478;30481;30479;30486;30489;30500;30506;30512;30521;30525;30526;30532;30534;30536;30530];
 [30537;30556;30560;30564;30566;30568;13010;30571;30577;30585;30597;30588;30593;30586;30598;30603];
 [30607;30608;30620;30632;30630;30627;30643;30644;30659;30662;30664;30667;30684;30701;32591;30706];
 [23263;30710;30709;30735;30732;30776;30756;30753;30775;30781;30790;30799;30795;30827;30831;30832];
 [30833;30836;30835;30890;30895;30897;30902;30916;30915;30918;30953;30955;30979;30985;30994;30996];
 [31000;31009;31005;31006;31012;31008;31020;31022;31037;31038;31042;31049;31045;31056;31051;31057];
 [31058;31052;31061;31127;31128;31141;31149;31150;31164;31199;31195;31197;31192;31185;31213;31214];
 [31217;31218;31227;31224;31233;31247;31237;31202;31257;31275;31287;31301;31298;31296;31299;31294];
 [31317;31309;31323;31319;31327;31330;31333;31332;31337;31339;31338;31405;31408;31420;31424;31439];
 [31441;31443;31444;31454;31455;31458;31459;31462;31471;31467;31470;31476;31473;31479;31483;31494];
 [31512;31514;31519;31522;31523;31525;31527;31528;31529;31530;31534;31535;31538;31556;31555;31567];
 [31565;31566;31569;31576;31604;31635;31619;31633;31638;31639;31647;31648;31656;31668;31680;31690];
 [31673;31686;31695;31697;31698;31715;31714;31716;31700;31713;31802;31730;31729;31728;31765;31764];
 [31753;31763;31756;31750;31752;31762;31754;31748;31790;31771;31781;31780;31777;31792;31815;31794];
 [31814;31806;31834;31840;31847;31862;31864;31975;31980;31984;32009;32008;31979;32003;32006;32042];
 [32038;32175;32035;32031;32068;32021;32018;32065;32063;32062;32070;32072;32093;32094;32100;32081];
 [32080;32089;32114;32137;32135;32171;32111;32122;32154;32164;32169;32178;32196;32193;32187;32184];
 [32186;32198;32207;32194;32217;32211;32248;32230;32237;32239;32253;32282;32283;32286;32373;32377];
 [32381;32385;32392;32395;32396;32402;32405;32401;32413;32421;32425;32440;32426;32429;30561;32460];
 [32462;32463;32464;32468;32476;32478;32477;32480;32485;32488;32495;32500;32502;32503;32505;32507];
 [32508;32509;32519;32520;22199;32533;32545;32556;32574;32586;32594;32596;32611;32607;32608;32609];
 [32614;32615;32620;32618;32631;32626;32630;32661;32668;32672;14383;18887;28761;21604;12764;20889];
 [13907;15842;15892;15896;15960;15966;16062;32808;16075;16121;16128;16130;16135;16157;16163;16180];
 [16182;16189;16192;16197;16212;16216;16228;16231;16253;16265;16284;16295;16303;16309;16311;16329];
 [16350;16353;16361;16397;16404;16408;16435;16437;16455;33085;16541;16542;16587;16596;16597;16605];
 [16632;16668;16683;16688;16695;33086;16781;33087;16828;16825;33088;16930;16958;16963;16982;16986];
 [17007;17029;17092;17110;17148;17162;17176;17209;17219;17253;17276;17381;17389;17397;17424;17428];
 [17442;17529;17489;17504;17517;17614;17598;17599;17604;17610;17616;17655;17659;17698;17705;33089];
 [17767;17821;33090;17920;17929;17941;17950;17978;17954;17956;17963;17968;17969;17971;18171;17992];
 [17996;43204;18009;18010;18017;18021;18035;18039;18040;18061;33091;18080;18098;18107;18118;18120];
 [6946;18139;18152;18170;18195;32809;18227;18278;18247;18248;18299;18305;18323;18328;18331;18363];
 [18425;18368;18391;18428;18433;18514;18461;18476;18481;18523;18546;18549;33092;18595;18597;18610];
 [18632;18640;18664;18669;18672;18673;18684;18698;18761;43972;18741;18754;18775;18787;18788;18792];
 [18816;33044;18853;18861;18895;7094;7107;18914;18921;18922;18933;18934;18959;18965;44351;19003];
 [19006;19013;19024;19030;19035;19051;19059;44387;19081;19092;19101;19102;19109;19172;19175;7183];
 [32797;19227;19230;19244;19253;19270;19286;19296;19301;19303;19319;19330;19369;19373;32880;19407];
 [19414;19415;19455;19461;19472;19507;19545;19548;19626;19572;19574;19589;19590;19608;19612;19707];
 [19654;19668;19680;19691;19694;45310;19716;19726;19758;19761;19769;19775;19800;19813;33093;19842];
 [19847;19849;19860;19882;19884;19903;19908;19926;19930;19931;19933;19964;33094;20020;20036;20060];
 [20062;20139;20145;20161;20167;20174;20240;20250;33095;20266;20271;20275;20305;20313;20318;20321];
 [20322;20350;20360;20364;20365;20372;20384;20391;20406;20412;20423;20426;20473;20464;20469;20485];
 [20486;20520;20554;20573;20574;20558;20580;20597;20613;20644;20651;20663;20692;20696;20708;20751];
 [20779;20766;20768;20782;20784;20806;20807;20817;33096;20818;20828;20832;20840;33045;20869;20871];
 [20882;20929;20922;20932;20990;20992;21013;21077;21078;7743;21133;21147;21182;21184;21243;47089];
 [21287;21288;33046;21328;21350;21372;21397;21407;21408;21410;21414;21419;21449;21455;21462;21465];
 [21475;21481;21511;21514;21530;21531;33098;21542;21544;21546;21547;21548;21550;21551;21552;21572];
 [21574;21575;21579;21591;21602;21611;21613;21638;21639;21641;21656;21660;21663;21667;21648;21670];
 [21672;21673;21685;21695;21704;21705;21722;21759;21761;21783;21807;21871;21881;21906;8050;21966];
 [21988;22016;22018;22024;22037;22038;22041;22046;22061;22069;22083;22091;22116;22117;22125;22127];
 [22129;22145;22171;22173;22174;22182;22186;22198;22213;22220;22222;22228;22246;22257;22268;22282];
 [22297;22324;22326;22342;22349;22350;22364;22367;22370;22394;22400;22420;22442;22496;22573;49550];
 [22595;22606;22607;22609;22632;22638;33099;22704;49678;22701;22756;22770;22784;22775;22812;22830];
 [22833;22836;33100;33101;22853;22854;33102;33103;33104;22876;33105;33049;33050;22905;33106;33107];
 [33051;22936;22961;22968;22984;22986;50033;22996;23006;23019;23021;23043;33108;23097;23133;23149];
 [33109;23173;23200;50372;23219;23227;23246;23275;23293;23314;23341;23355;23367;23374;23392;23405];
 [23407;23410;23454;33110;23511;23513;23553;23601;23582;23584;23603;23606;8804;51105;23641;23661];
 [23673;23695;23700;23712;23740;23765;23769;23773;23815;23816;23827;23837;23843;23857;23873;23880];
 [23891;23900;23930;23939;23947;23968;23974;24002;24012;24022;24035;33111;24104;24072;24081;24085];
 [33113;24135;24146;24161;24202;24205;24391;33114;24465;24471;24511;24526;24539;24543;24556;24558];
 [24570;33115;24596;24614;24629;24631;24636;24778;24791;24800;24819;24856;24906;24928;24935;24936];
 [24941;25019;25034;25039;25047;33116;9299;9307;25184;25204;54015;25230;25249;25251;25252;25257];
 [25262;25271;25278;25279;25286;25301;25341;25342;25344;25345;25442;25378;25389;25402;25411;25415];
 [25425;25429;25469;25478;25490;25496;25511;25513;25535;25536;25543;25551;25553;25569;25578;25601];
 [25606;25610;33119;25672;25695;25712;25715;25733;25758;25775;25780;25786;25792;25794;54336;25906];
 [25886;25891;25903;25945;25956;33055;26029;25978;25996;25999;26018;26032;26059;26062;26093;26130];
 [26111;26116;26117;26128;54900;26136;26153;26168;26199;26203;32822;26210;9629;26220;26229;26264];
 [26296;26362;26364;26365;26379;26481;26503;26504;26540;26541;26549;9706;26582;26604;26630;26634];
 [26640;26644;26655;26776;26794;26826;26830;55428;26869;26908;33120;26904;26905;26906;26919;26928];
 [26930;26937;26944;27028;33121;27092;27109;27126;27154;27157;27170;27191;27207;27214;27229;27233];
 [27253;27257;27303;27344;27359;27380;27382;33058;33122;33123;27462;27476;27481;27497;27549;27721];
 [27752;33124;27873;27892;27896;27902;33125;27922;27931;28079;28110;28113;28119;28192;28195;28221];
 [28272;28283;57719;28352;10308;28410;28446;28461;28470;28500;57933;28582;28597;28644;28648;28654];
 [28680;28717;33127;28808;28821;28823;28825;28827;28834;28851;28862;28868;28869;28871;28887;28893];
 [28894;28911;28916;33062;28948;28949;28950;28962;28963;28967;28975;28977;28980;28989;29000;29019];
 [29059;29086;29100;29105;29116;29143;29179;29156;29157;29165;29169;29191;29200;29240;29241;29242];
 [29244;29248;29251;29263;29304;29320;29378;29387;29388;29395;29408;29439;29444;29471;29473;29477];
 [29512;29513;29514;29540;29541;29546;29552;29595;29603;29626;29638;29662;29663;29700;29693;29747];
 [29770;29795;29803;29809;29810;30094;30111;30118;30121;30124;30134;30141;30155;30160;30163;10672];
 [30170;30174;30296;30340;32988;30365;30372;30373;30418;30430;33128;30441;30447;30515;30523;30541];
 [30542;30543;30554;30574;30579;30613;30638;30650;30657;30665;30686;30683;30708;33129;30730;30750];
 [30763;30768;33130;30802;30803;30806;30807;30809;30810;32976;30821;30828;30906;30920;30951;31064];
 [31134;31234;31235;31268;31277;31278;31288;31306;31310;31314;31414;31425;31427;31438;31446;31481];
 [31490;31496;31520;11287;31533;31582;31609;31590;31602;31605;31620;31626;31631;31646;31655;31681];
 [31694;31717;31736;31741;31744;31779;31809;31823;31824;31827;31843;31845;31863;32029;32030;32067];
 [32071;32082;32099;32112;32124;32138;32150;32192;32172;32188;32215;63120;32231;32263;32277;32380];
 [32414;32420;32428;32431;32436;32437;32451;32465;32528;32569;32599;32656;32660;32663;32674;14840];
 [15451;15991;22054;24171;33929;11778;11791;11794;11817;11819;11822;11840;11847;11848;33954;11857];
 [5126;33956;11866;11881;11933;5164;5166;11961;11963;34082;11964;11971;11976;11984;12011;11994];
 [12017;12021;12032;12054;12132;12087;12094;12116;12120;34195;12151;12152;12154;12157;12162;12165];
 [12178;12186;12262;12210;12222;12229;12235;12239;12242;5226;12274;12288;12304;12307;12316;12318];
 [12322;5224;12354;12358;12366;12371;12375;12387;12390;12394;12400;12451;12424;12434;12435;12437];
 [12438;12444;12458;34347;12465;12474;12475;12484;12487;12531;34433;12494;34417;12500;12505;12513];
 [12521;5266;12552;34553;12567;12571;34634;12640;34825;12659;12675;12683;5308;12696;12707;12717];
 [5319;12732;35030;35112;12787;12788;12802;12818;12822;35407;12885;12892;12908;12919;12932;12930];
 [35591;12952;35642;12964;12966;12975;12986;12987;13002;5407;13009;35769;13047;13066;13067;13092];
 [13109;13118;13122;35964;35997;13159;13164;13178;13220;13236;36307;13239;13248;36381;5469;5470];
 [13269;13274;5475;13300;13301;13397;13348;13352;5486;13379;13410;13414;13420;13450;13453;13461];
 [13472;13478;13485;13486;13495;13498;13503;13507;36677;13548;13551;13553;13555;13568;13569;13577];
 [13628;13633;5542;13639;13642;5544;13664;13665;13668;36833;13693;13698;13704;13713;5573;13778];
 [37013;36973;13759;13769;13772;13777;13789;5594;13794;36964;13801;13864;37215;13831;13840;13872];
 [13879;5620;13885;13887;13888;13895;13918;13920;13933;5637;13960;13964;13973;13978;13981;13992];
 [13997;14002;14021;14029;14047;14056;14070;14071;37377;14101;14115;37461;14121;37499;14149;14150];
 [14156;14157;37492;14184;14191;14195;14196;14197;14203;37604;37591;14252;14234;14237;14238;14248];
 [14295;37629;14284;37686;37700;14302;14310;14320;5706;14328;14331;14333;14340;14366;14368;14375];
 [14386;14393;37828;14409;14412;14439;14474;14475;14477;14479;14480;14484;14493;14506;14513;37997];
 [14531;14541;14562;14579;14580;14597;14598;14603;14605;14612;14628;38359;5777;14653;5785;14662];
 [5782;54057;14683;14687;38471;14709;14710;14716;14751;14766;14780;14792;14797;14814;14819;14820];
 [14823;14830;38662;38722;5839;14860;14861;14871;14887;14893;14933;14949;14970;14987;15004;15007];
 [15008;15010;15025;15027;15029;15034;15039;15066;15068;15072;15077;15088;15086;15093;15104;15112];
 [15127;15156;15149;15180;15186;15208;15215;15228;15231;15233;15236;39363;15254;15276;5985;15296];
 [5986;15310;15318;5996;5995;15345;15357;6005;15363;15401;15408;39510;15455;15459;15463;15464];
 [15465;15472;39725;39749;15484;39800;39778;15496;15498;6081;39841;39836;15520;15522;15526;15527];
 [39826;15533;15541;39863;15561;39904;39987;15622;15632;15659;15645;15648;15652;15654;15665;15673];
 [15682;6120;15713;15722;6132;15728;40222;6141;15752;6144;15762;15764;15767;15769;15792;15794];
 [15796;40310;15801;15825;15831;15832;15840;40442;15844;15849;6191;15872;6198;15890;15893;6208];
 [15903;15918;15934;15945;6236;15958;6241;15979;15980;15981;15982;40571;16037;16042;16044;16057];
 [16063;16070;16082;16089;40990;16125;16136;16142;16156;41133;16158;16199;16227;16242;16254;16271];
 [16290;16292;16312;16324;6394;16327;16331;16338;16339;16340;16354;16366;16367;16371;16380;6423];
 [16407;16418;16420;6426;16460;16511;16522;16533;16552;41459;16560;16561;16574;16584;16601;16603];
 [16622;16626;16629;16656;16658;16659;16665;16670;16698;6511;16705;16710;16736;16764;41563;16786];
 [16787;16791;16792;16805;16808;16813;41643;16853;16861;16863;16885;41871;16917;16931;16937;16966];
 [16972;16977;16978;16993;16996;17019;17005;17011;17049;17062;17109;42168;17149;17155;17165;17168];
 [42319;42320;17202;17205;17211;17212;17217;17220;17230;42310;17241;42525;42406;17260;17284;17305];
 [42532;17300;17341;17399;17364;17365;17372;17376;17387;17388;17394;17417;17438;17445;17449;17455];
 [17498;17499;17501;17523;17533;17543;17553;17565;17567;17611;17612;17621;17623;42977;17636;17637];
 [17663;17668;6766;17679;17684;17686;6771;17694;17714;17732;17748;17771;17786;17793;17796;17797];
 [17802;17842;17845;17848;17855;17858;17865;17876;6870;17906;17913;17916;17924;17928;17953;17962];
 [17989;18001;17998;6890;43203;18007;18011;18019;43253;43190;18026;18027;18028;18029;18043;18048];
 [18064;18066;18073;6926;18093;18097;18101;6938;18111;6940;18156;6871;18177;18181;18194;43378];
 [18201;43475;43474;18252;18253;18260;18269;43472;43492;43477;18292;18294;43482;18322;43487;25443];
 [18448;18352;18354;18371;18376;18386;18393;18395;18416;18423;43594;43601;43595;18456;18463;18477];
 [43621;18483;18491;18494;18500;18501;18505;18508;18517;18519;7031;18539;18542;18554;18556;18562];
 [18576;18582;7021;18584;18585;18586;18588;18602;18603;18612;18619;18683;43748;43866;33043;18627];
 [18629;18636;18639;18646;18649;18660;18661;18668;18679;18691;18695;7047;7048;43924;18747;7053];
 [18758;18793;18796;18802;18810;18815;18834;7076;18838;18840;18854;18864;18871;18874;18876;18880];
 [18897;18902;44089;44103;18992;44088;44090;18915;18926;18927;18931;7117;18932;18942;18961;18970];
 [18973;44316;18994;18995;18996;19007;19014;19017;19066;19022;19026;19044;44300;19070;19075;19083];
 [7152;19089;19103;19105;44388;19115;19133;19142;19156;19152;19164;19165;44543;44519;19180;19185];
 [19186;19187;19197;44580;19211;19215;19216;19217;44605;19223;7206;19247;19274;19288;19308;19317];
 [19322;19329;19355;19374;44952;19389;19390;19399;19400;19401;19418;19430;19431;19438;19441;19458];
 [19466;19470;19509;19510;19514;45183;19519;19533;19547;19565;19588;19593;7363;19604;19605;19607];
 [19629;19650;19664;7378;19670;19674;19676;19689;19692;19693;45312;19712;19722;19748;19750;19751];
 [19559;19759;19772;19803;19806;19808;19824;19840;19841;19850;19853;19857;19864;45376;19991;45562];
 [45561;45523;19883;19886;19892;19906;19764;19912;19918;19919;19920;19935;19945;19958;20022;19998];
 [20002;20007;7441;20018;20028;20040;20041;20043;20044;20047;20049;20051;20052;20055;20067;7454];
 [20115;20135;20148;20159;20163;20170;20185;20277;20203;20217;20219;20234;20236;20248;20261;20278];
 [20284;45694;20306;20311;20314;20320;20328;20376;20349;20368;20374;20414;20383;20389;20399;7524];
 [20405;20424;20425;20442;20446;20457;45974;20476;20480;20487;20490;20515;46083;20537;20538;20540];
 [20547;20551;20555;7578;20564;20581;20585;20588;20590;20598;20606;20609;20614;20629;20631;20667];
 [46278;20639;20657;46334;20716;20682;20689;20691;20700;20739;20740;20742;20743;20744;20748;7616];
 [20783;20785;20816;20810;20819;20830;7636;20886;20864;20891;20896;20898;20910;20911;20915;46524];
 [20939;20947;20953;20956;20999;7685;33097;21035;21044;21048;21049;11820;21058;21075;21079;21091];
 [46633;21102;21103;21112;21119;21134;46757;21165;21166;21168;21169;21185;7776;21196;7782;7784];
 [21235;21242;21255;21266;21272;21273;7811;21305;21292;21297;21299;21309;21330;7828;21355;21356];
 [47254;21358;21359;21361;21367;21377;21381;21386;21396;21400;21404;21406;21413;21416;21429;21431];
 [21433;21436;21439;21445;21451;21473;21479;21497;21523;21498;21505;21540;21553;21561;21587;21568];
 [21571;21581;21586;21597;21617;21633;21637;21640;47437;21650;21655;21657;21664;21665;21669;21674];
 [21675;21689;21691;21690;21718;21720;21726;21743;21739;47702;21754;47727;21792;21796;21802;8023];
 [47894;21821;21822;21824;21832;21838;21840;21842;21868;21874;21873;21882;21885;21886;21889;48148];
 [21900;8053;21922;8055;21936;21943;21951;21952;21958;21967;21971;21981;21983;21984;21991;21996];
 [21998;22001;22009;22019;22040;22023;22031;8110;48398;22035;22043;22044;48439;22053;22056;22076];
 [22067;48490;8137;22081;48523;22089;22101;8151;22126;22165;22172;22177;22176;22183;22184;22191];
 [48714;22217;48725;22248;22252;48930;22295;22298;22317;22325;49065;8249;49125;49101;22360;22368];
 [22378;49182;22386;22396;22397;49228;8280;22426;22431;22434;22436;22441;22494;22495;22500;22502];
 [22506;22508;8339;22512;22516;22523;49454;22533;22534;22537;22541;22553;22561;22572;22599;22628];
 [22634;49625;22666;22676;22692;22685;22686;22687;22715;22728;22732;22734;22741;22752;22753;22758];
 [22777;22778;22779;22782;49831;22800;22811;22832;22821;22843;22858;22872;22875;8453;22887;22898];
 [22932;22933;22934;22939;22945;22953;22964;22971;22978;22983;22988;22989;22998;8520;50089;50100];
 [8527;23050;23057;23061;23067;23070;8547;23085;23096;23111;23116;23126;23129;23132;23135;23136];
 [23143;23146;23157;23160;23170;23178;23184;23203;23212;50388;8628;23225;23228;23230;8639;23244];
 [23249;23271;23272;23284;50660;50659;23303;50673;23357;23335;23338;23342;23343;23345;8678;8691];
 [23423;23361;8686;23381;23417;23396;23398;23401;23411;50738;8711;23440;23441;23451;8718;23471];
 [23477;23484;23493;23498;50891;50916;23508;23510;23514;23530;23536;23555;23563;23566;23567;23590];
 [23621;23626;23633;23639;23646;23649;23657;23662;23663;23664;51246;51286;51301;23718;51298;23734];
 [23735;23743;51416;23748;51394;23752;23757;51432;23767;51491;23782;23787;51548;23797;23811;23817];
 [8902;23826;23838;51680;51668;23869;23870;23872;23879;51724;51707;8918;23897;23898;23914;23920];
 [8925;23935;51735;23942;23944;23948;23959;51808;23965;23975;23978;23990;23991;24000;24023;24025];
 [24038;24049;24057;8962;51949;33112;24080;24087;24093;24096;24103;24108;24133;24179;24181;24190];
 [24198;24199;9003;24209;24216;24218;9027;24380;24379;24382;24387;24388;24399;5313;52080;24402];
 [52102;24417;24419;24420;24429;24445;24446;52300;24464;12667;45326;24470;24476;24493;52482;24515];
 [24527;24547;24549;24559;24562;24578;24586;24584;24590;24593;24598;24612;24620;24624;24643;24678];
 [24689;24693;24699;24729;24732;24740;24743;24760;52862;24773;24789;24792;24806;52912;24845;24821];
 [24827;9198;24885;24854;24862;9200;24868;24871;24876;53021;24893;9224;24937;9239;24961;9244];
 [24964;24965;9250;24984;25010;25025;25027;25046;25051;53469;25060;53482;25068;53585;25085;25087];
 [53615;25092;53725;25113;25121;25122;53790;25138;25140;25148;25158;25161;25157;53848;25163;9334];
 [25167;9338;25175;53900;25180;25187;53943;33117;33118;25209;9361;25213;25215;25219;25226;25235];
 [25255;25256;25266;25268;25274;25276;25314;25320;25335;25351;25352;25356;25428;25371;25373;25392];
 [25404;25412;25431;9406;25471;9428;9395;25485;25492;25493;25499;25501;25545;25552;25556;25565];
 [25573;25593;25615;25617;25621;54131;25623;25657;25674;25679;25681;25682;25689;25690;25692;54237];
 [25701;25718;25720;25724;25729;9485;25820;25751;25766;25790;9480;25806;25807;25811;54373;25831];
 [25834;25839;25840;25841;25850;25853;25868;25883;25892;25893;25899;25908;25935;25967;9509;9539];
 [25918;25937;25939;25950;25953;25954;54676;25979;25981;25983;25985;25990;26003;26013;26015;54776];
 [54774;54775;26039;26044;26055;26058;26072;26073;26079;26081;26086;26102;26112;26129;26142;26145];
 [26148;26151;54925;26169;26172;54969;26176;33056;26195;26198;26223;26231;26234;26247;26249;26253];
 [26257;26268;26269;26280;33057;26289;26291;26305;26307;26321;26325;26327;26339;26342;9656;26373];
 [26375;26382;26384;26387;26393;26399;26401;26403;26417;26426;26430;26432;26435;26449;26456;26468];
 [26469;26482;26492;55131;55130;26535;26505;26507;26515;26528;55166;9701;26558;55184;26561;26574];
 [26613;26591;55241;26595;26597;26598;26602;26603;26605;26625;26627;26635;26643;26664;26670;26674];
 [26684;9743;26698;26712;26719;26724;55317;55316;26729;55345;26735;26784;26812;26813;26814;26816];
 [26834;55443;26833;26835;26843;26864;26865;9793;26881;55566;26935;55587;26946;26949;26953;55634];
 [9829;26978;27008;27017;27024;27039;27056;27063;27094;27096;27115;9889;27121;27123;27133;27135];
 [9903;27153;27156;55941;27169;27189;27198;27205;27213;27224;27310;27280;27319;27326;27351;27388];
 [56196;27402;27397;27405;27420;27423;27437;27459;9996;27473;27486;27510;27519;27521;27531;27540];
 [27541;27548;27550;27705;56499;27709;56510;56519;27717;27719;27727;27732;27735;27753;27757;27763];
 [56760;27795;27794;27801;10084;27803;27812;27862;27861;27865;56864;27888;27889;56976;27913;27918];
 [28012;28036;28053;28070;57271;28102;28104;28121;28140;28172;10237;28157;28166;57482;28180;28182];
 [28193;28194;28199;57531;10262;28214;28217;28235;28244;28258;28268;28269;28271;28312;28318;28334];
 [28339;28341;28342;28347;57730;28369;28372;10318;28409;57843;28416;28424;28439;28459;28480;28490];
 [28504;57996;28580;28596;33126;28598;58069;28609;28614;33060;28618;28621;28627;28629;28640;28657];
 [28661;28667;28674;28684;28727;58219;28739;28740;28765;58312;58313;28805;28812;28816;30237;28833];
 [10421;28848;28854;28867;28872;58583;28892;28895;58618;28918;28914;28928;28907;28926;28927;28932];
 [28934;28952;28956;28958;28983;28985;28986;28998;28999;29015;29017;29025;29028;29044;29049;29061];
 [29070;29096;29102;29107;29110;29123;29124;29146;58697;58694;29164;29166;29185;29194;29206;29207];
 [58731;29235;29250;29255;29258;29262;29265;29270;29273;29280;29281;29285;29287;29288;58759;58760];
 [29308;29309;29311;29321;29325;29335;29337;29343;29351;29355;58810;58811;29362;29375;29376;29382];
 [29390;29392;29399;29401;29413;29415;29457;58910;58921;29431;29433;29435;29442;29453;29461;29469];
 [29470;29479;29481;58993;58947;29511;29521;29527;29530;29547;29553;29555;29601;59033;59085;29576];
 [29579;29583;29598;29685;59108;59101;29681;29633;29639;29660;29666;29671;29705;29711;29718;29719];
 [29691;29746;29748;29755;29765;59329;59375;29805;29807;30072;30073;30086;30092;30093;59408;30123];
 [30132;59505;30152;59643;59679;30252;30259;30260;59702;30268;30273;30305;59785;30338;59883;30362];
 [59954;10727;30377;30383;30387;30394;30397;10746;60152;30424;30426;30429;10756;30484;30499;10793];
 [30518;30529;30535;30549;30551;30555;30570;60320;60337;30614;30618;30622;30626;30641;30642;30654];
 [30668;30673;30676;30680;30681;30689;30705;30724;30733;30734;30740;30742;10940;60560;30755;30770];
 [30771;30757;30791;30822;30891;30893;30896;60879;30903;30904;30907;30908;30911;30914;30919;30923];
 [30944;61055;30945;30947;30949;30954;30960;30961;30963;30984;11067;61168;30998;30999;61209;31002];
 [31003;31004;61264;31025;31026;31027;31034;31035;31036;31040;31041;31046;31053;31054;31068;31071];
 [31072;31139;31142;31161;31165;31167;31171;31177;31188;31193;31198;61638;31216;31225;31228;31242];
 [31249;31254;31258;31264;31281;31286;31300;31308;31320;11202;31407;11210;31415;11218;31417;61810];
 [31430;31440;31442;31445;11240;31452;31456;31461;31465;31491;31500;31504;31506;31510;31516;31531];
 [31539;31549;11296;31563;31587;31589;31595;31596;31603;31606;31607;31654;31660;31665;62171;62269];
 [31666;31672;31678;31687;31731;31704;31709;31719;31722;31723;31727;31726;62229;31738;62346;31735];
 [62281;31766;31768;31769;31770;31773;31778;31783;31785;31786;62404;31793;31798;31799;31813;31836];
 [62441;31817;31818;62427;31828;31832;31835;31837;31839;31849;31850;31851;31853;31854;31856;31858];
 [31861;31866;31974;31986;32011;32002;62670;32017;32023;32024;62767;11460;62746;32050;11473;32066];
 [32074;32095;32098;62969;32105;32107;62850;32115;32118;32119;32126;32132;32141;32153;32161;32191];
 [32181;32185;32189;32195;32199;32201;32214;32218;32223;32224;32227;32244;11527;32266;32258;32269];
 [32281;32284;32285;32379;40728;32384;32389;32411;32424;63244;32445;63415;32479;32487;32494;32511];
 [32514;11639;32515;32535;32537;32559;32567;32570;32573;32577;32581;32582;32595;32597;32600;63729];
 [32605;63746;32617;63770;32621;32624;32629;63922;0;0;0;0;0;0;0;0]].

(* lib/converters/jisx0213.h:1628-1661 jisx0213_to_ucs_pagestart *)
Definition jisx0213_to_ucs_pagestart : tab := mk [
 [0;256;512;768;1024;7680;7936;8192;8448;8704;8960;9216;9472;9728;9984;10496];
 [12288;12544;12800;13056;13312;13568;13824;14080;14336;14592;14848;15104;15360;15616;15872;16128];
 [16384;16640;16896;17152;17408;17664;17920;18176;18432;18688;18944;19200;19456;19712;19968;20224];
 [20480;20736;20992;21248;21504;21760;22016;22272;22528;22784;23040;23296;23552;23808;24064;24320];
 [24576;24832;25088;25344;25600;25856;26112;26368;26624;26880;27136;27392;27648;27904;28160;28416];
 [28672;28928;29184;29440;29696;29952;30208;30464;30720;30976;31232;31488;31744;32000;32256;32512];
 [32768;33024;33280;33536;33792;34048;34304;34560;34816;35072;35328;35584;35840;36096;36352;36608];
 [36864;37120;37376;37632;37888;38144;38400;38656;38912;39168;39424;39680;39936;40192;40448;40704];
 [63744;64000;65024;65280;131072;131456;131840;132096;132352;132608;132864;133120;133376;133632;133888;134400];
 [134656;134912;135680;135936;136192;136448;136704;136960;137216;137472;138240;138496;138752;139008;139520;139776];
 [140032;140800;141312;141568;141824;142080;142336;142592;143616;144128;144384;144640;144896;145152;145408;145920];
 [146432;146688;147200;147456;147712;148224;148992;149248;149504;150016;150272;150528;150784;151040;151552;151808];
 [152064;152576;152832;153344;153856;154112;154496;154880;155136;155392;155648;156160;156416;156672;157184;157440];
 [157696;157952;158208;158720;159232;159488;159872;160640;161280;161536;162048;162304;162560;162816;163200;163584];
 [163840;164352;164736;165120;165376;166144;166400;166656;167168;167424;167680;168448;168960;169216;169472;169728];
 [169984;170496;171264;171520;171776;172032;172288;172928;173312;173568]].

(* lib/converters/jisx0213.h:1663-2004 jisx0213_from_ucs_level1 *)
Definition jisx0213_from_ucs_level1 : tab := mk [
 [(-1);(-1);0;1;2;3;4;5;(-1);6;7;8;9;10;11;12];
 [13;14;(-1);(-1);(-1);(-1);(-1);(-1);(-1);(-1);(-1);(-1);(-1);(-1);(-1);(-1)];
 [(-1);(-1);(-1);(-1);(-1);(-1);(-1);(-1);(-1);(-1);(-1);(-1);(-1);(-1);(-1);(-1)];
 [(-1);(-1);(-1);(-1);(-1);(-1);(-1);(-1);(-1);(-1);(-1);(-1);(-1);(-1);(-1);(-1)];
 [(-1);(-1);(-1);(-1);(-1);(-1);(-1);(-1);(-1);(-1);(-1);(-1);(-1);(-1);(-1);(-1)];
 [(-1);(-1);(-1);(-1);(-1);(-1);(-1);(-1);(-1);(-1);(-1);(-1);(-1);(-1);(-1);(-1)];
 [(-1);(-1);(-1);(-1);(-1);(-1);(-1);(-1);(-1);(-1);(-1);(-1);(-1);(-1);(-1);(-1)];
 [(-1);(-1);(-1);(-1);(-1);(-1);(-1);(-1);15;(-1);(-1);(-1);(-1);16;(-1);(-1)];
 [17;18;19;(-1);20;21;22;23;24;25;26;27;28;(-1);29;30];
 [31;32;(-1);33;34;35;36;37;38;39;(-1);(-1);40;41;(-1);(-1)];
 [(-1);(-1);(-1);(-1);42;(-1);43;44;(-1);(-1);(-1);(-1);(-1);(-1);(-1);(-1)];
 [(-1);(-1);(-1);(-1);(-1);(-1);(-1);(-1);(-1);(-1);(-1);(-1);(-1);(-1);(-1);(-1)];
 [45;46;47;48;(-1);(-1);(-1);49;50;51;52;53;54;55;56;57];
 [58;59;60;61;62;63;64;65;66;67;68;69;(-1);70;71;72];
 [73;74;(-1);75;76;77;(-1);(-1);(-1);78;(-1);79;80;81;82;83];
 [84;(-1);(-1);85;86;87;88;89;90;91;92;(-1);(-1);93;94;95];
 [96;97;98;(-1);99;100;101;102;103;104;(-1);105;106;107;(-1);108];
 [109;110;111;112;113;114;115;116;117;118;119;(-1);120;121;(-1);122];
 [123;124;125;(-1);(-1);(-1);126;127;128;(-1);129;(-1);130;(-1);(-1);131];
 [132;(-1);(-1);133;134;135;(-1);(-1);136;137;138;139;140;141;142;143];
 [144;145;146;147;148;149;150;151;152;153;154;155;156;157;158;159];
 [160;161;162;163;164;165;166;167;168;169;170;171;172;173;174;175];
 [176;177;178;179;180;181;182;183;184;185;186;187;188;189;190;191];
 [192;193;194;195;196;197;198;199;200;201;202;203;204;205;206;207];
 [208;209;210;211;212;213;214;215;216;217;218;219;220;221;222;223];
 [224;225;226;227;228;229;230;231;232;233;234;235;236;237;238;239];
 [240;241;242;243;244;245;246;247;248;249;250;251;252;253;254;255];
 [256;257;258;259;260;261;262;263;264;265;266;267;268;269;270;271];
 [272;273;274;275;276;277;278;279;280;281;282;283;284;285;286;287];
 [288;289;290;291;292;293;294;295;296;297;298;299;300;301;302;303];
 [304;305;306;307;308;309;310;311;312;313;314;315;316;317;318;319];
 [320;321;322;323;324;325;326;327;328;329;330;(-1);331;332;333;334];
 [335;336;337;338;339;340;341;342;343;344;345;346;347;348;349;350];
 [351;352;353;354;355;356;357;358;359;360;361;362;363;364;365;366];
 [367;368;369;370;371;372;373;374;375;376;377;378;379;380;381;(-1)];
 [382;383;384;385;386;387;388;389;390;391;392;393;394;395;396;397];
 [398;399;400;401;402;403;404;405;406;407;408;409;410;411;412;413];
 [414;415;416;(-1);(-1);417;418;419;420;421;422;423;424;425;426;427];
 [428;429;430;431;432;433;434;435;436;437;438;439;440;441;442;443];
 [444;445;(-1);446;447;448;449;450;451;452;453;454;455;456;457;(-1)];
 [(-1);(-1);(-1);(-1);(-1);(-1);(-1);(-1);(-1);(-1);(-1);(-1);(-1);(-1);(-1);(-1)];
 [(-1);(-1);(-1);(-1);(-1);(-1);(-1);(-1);(-1);(-1);(-1);(-1);(-1);(-1);(-1);(-1)];
 [(-1);(-1);(-1);(-1);(-1);(-1);(-1);(-1);(-1);(-1);(-1);(-1);(-1);(-1);(-1);(-1)];
 [(-1);(-1);(-1);(-1);(-1);(-1);(-1);(-1);(-1);(-1);(-1);(-1);(-1);(-1);(-1);(-1)];
 [(-1);(-1);(-1);(-1);(-1);(-1);(-1);(-1);(-1);(-1);(-1);(-1);(-1);(-1);(-1);(-1)];
 [(-1);(-1);(-1);(-1);(-1);(-1);(-1);(-1);(-1);(-1);(-1);(-1);(-1);(-1);(-1);(-1)];
 [(-1);(-1);(-1);(-1);(-1);(-1);(-1);(-1);(-1);(-1);(-1);(-1);(-1);(-1);(-1);(-1)];
 [(-1);(-1);(-1);(-1);(-1);(-1);(-1);(-1);(-1);(-1);(-1);(-1);(-1);(-1);(-1);(-1)];
 [(-1);(-1);(-1);(-1);(-1);(-1);(-1);(-1);(-1);(-1);(-1);(-1);(-1);(-1);(-1);(-1)];
 [(-1);(-1);(-1);(-1);(-1);(-1);(-1);(-1);(-1);(-1);(-1);(-1);(-1);(-1);(-1);(-1)];
 [(-1);(-1);(-1);(-1);(-1);(-1);(-1);(-1);(-1);(-1);(-1);(-1);(-1);(-1);(-1);(-1)];
 [(-1);(-1);(-1);(-1);(-1);(-1);(-1);(-1);(-1);(-1);(-1);(-1);(-1);(-1);(-1);(-1)];
 [(-1);(-1);(-1);(-1);(-1);(-1);(-1);(-1);(-1);(-1);(-1);(-1);(-1);(-1);(-1);(-1)];
 [(-1);(-1);(-1);(-1);(-1);(-1);(-1);(-1);(-1);(-1);(-1);(-1);(-1);(-1);(-1);(-1)];
 [(-1);(-1);(-1);(-1);(-1);(-1);(-1);(-1);(-1);(-1);(-1);(-1);(-1);(-1);(-1);(-1)];
 [(-1);(-1);(-1);(-1);(-1);(-1);(-1);(-1);(-1);(-1);(-1);(-1);(-1);(-1);(-1);(-1)];
 [(-1);(-1);(-1);(-1);(-1);(-1);(-1);(-1);(-1);(-1);(-1);(-1);(-1);(-1);(-1);(-1)];
 [(-1);(-1);(-1);(-1);(-1);(-1);(-1);(-1);(-1);(-1);(-1);(-1);(-1);(-1);(-1);(-1)];
 [(-1);(-1);(-1);(-1);(-1);(-1);(-1);(-1);(-1);(-1);(-1);(-1);(-1);(-1);(-1);(-1)];
 [(-1);(-1);(-1);(-1);(-1);(-1);(-1);(-1);(-1);(-1);(-1);(-1);(-1);(-1);(-1);(-1)];
 [(-1);(-1);(-1);(-1);(-1);(-1);(-1);(-1);(-1);(-1);(-1);(-1);(-1);(-1);(-1);(-1)];
 [(-1);(-1);(-1);(-1);(-1);(-1);(-1);(-1);(-1);(-1);(-1);(-1);(-1);(-1);(-1);(-1)];
 [(-1);(-1);(-1);(-1);458;459;(-1);460;461;462;(-1);(-1);(-1);(-1);(-1);(-1)];
 [(-1);(-1);(-1);(-1);(-1);(-1);(-1);(-1);(-1);463;(-1);(-1);464;465;(-1);466];
 [(-1);(-1);(-1);(-1);(-1);(-1);(-1);(-1);(-1);(-1);(-1);(-1);(-1);(-1);(-1);(-1)];
 [(-1);(-1);(-1);(-1);(-1);(-1);(-1);(-1);(-1);(-1);(-1);(-1);(-1);(-1);(-1);(-1)];
 [(-1);(-1);(-1);(-1);(-1);(-1);(-1);(-1);(-1);(-1);(-1);(-1);(-1);(-1);(-1);(-1)];
 [(-1);(-1);(-1);(-1);(-1);(-1);(-1);(-1);(-1);(-1);(-1);(-1);(-1);(-1);(-1);(-1)];
 [(-1);(-1);(-1);(-1);(-1);(-1);(-1);(-1);(-1);(-1);(-1);(-1);(-1);(-1);(-1);(-1)];
 [(-1);(-1);(-1);(-1);(-1);(-1);(-1);(-1);(-1);(-1);(-1);(-1);(-1);(-1);(-1);(-1)];
 [(-1);(-1);(-1);(-1);(-1);(-1);(-1);(-1);(-1);(-1);(-1);(-1);(-1);(-1);(-1);(-1)];
 [(-1);(-1);(-1);(-1);(-1);(-1);(-1);(-1);(-1);(-1);(-1);(-1);(-1);(-1);(-1);(-1)];
 [(-1);(-1);(-1);(-1);(-1);(-1);(-1);(-1);(-1);(-1);(-1);(-1);(-1);(-1);(-1);(-1)];
 [(-1);(-1);(-1);(-1);(-1);(-1);(-1);(-1);(-1);(-1);(-1);(-1);(-1);(-1);(-1);(-1)];
 [(-1);(-1);(-1);(-1);(-1);(-1);(-1);(-1);(-1);(-1);(-1);(-1);(-1);(-1);(-1);(-1)];
 [(-1);(-1);(-1);(-1);(-1);(-1);(-1);(-1);(-1);(-1);(-1);(-1);(-1);(-1);(-1);(-1)];
 [(-1);(-1);(-1);(-1);(-1);(-1);(-1);(-1);(-1);(-1);(-1);(-1);(-1);(-1);(-1);(-1)];
 [(-1);(-1);(-1);(-1);(-1);(-1);(-1);(-1);(-1);(-1);(-1);(-1);(-1);(-1);(-1);(-1)];
 [(-1);(-1);(-1);(-1);(-1);(-1);(-1);(-1);(-1);(-1);(-1);(-1);(-1);(-1);(-1);(-1)];
 [(-1);(-1);(-1);(-1);(-1);(-1);(-1);(-1);(-1);(-1);(-1);(-1);(-1);(-1);(-1);(-1)];
 [(-1);(-1);(-1);(-1);(-1);(-1);(-1);(-1);(-1);(-1);(-1);(-1);(-1);(-1);(-1);(-1)];
 [(-1);(-1);(-1);(-1);(-1);(-1);(-1);(-1);(-1);(-1);(-1);(-1);(-1);(-1);(-1);(-1)];
 [(-1);(-1);(-1);(-1);(-1);(-1);(-1);(-1);(-1);(-1);(-1);(-1);(-1);(-1);(-1);(-1)];
 [(-1);(-1);(-1);(-1);(-1);(-1);(-1);(-1);(-1);(-1);(-1);(-1);(-1);(-1);(-1);(-1)];
 [(-1);(-1);(-1);(-1);(-1);(-1);(-1);(-1);(-1);(-1);(-1);(-1);(-1);(-1);(-1);(-1)];
 [(-1);(-1);(-1);(-1);(-1);(-1);(-1);(-1);(-1);(-1);(-1);(-1);(-1);(-1);(-1);(-1)];
 [(-1);(-1);(-1);(-1);(-1);(-1);(-1);(-1);(-1);(-1);(-1);(-1);(-1);(-1);(-1);(-1)];
 [(-1);(-1);(-1);(-1);(-1);(-1);(-1);(-1);(-1);(-1);(-1);(-1);(-1);(-1);(-1);(-1)];
 [(-1);(-1);(-1);(-1);(-1);(-1);(-1);(-1);(-1);(-1);(-1);(-1);(-1);(-1);(-1);(-1)];
 [(-1);(-1);(-1);(-1);(-1);(-1);(-1);(-1);(-1);(-1);(-1);(-1);(-1);(-1);(-1);(-1)];
 [(-1);(-1);(-1);(-1);(-1);(-1);(-1);(-1);(-1);(-1);(-1);(-1);(-1);(-1);(-1);(-1)];
 [(-1);(-1);(-1);(-1);(-1);(-1);(-1);(-1);(-1);(-1);(-1);(-1);(-1);(-1);(-1);(-1)];
 [(-1);(-1);(-1);(-1);(-1);(-1);(-1);(-1);(-1);(-1);(-1);(-1);(-1);(-1);(-1);(-1)];
 [(-1);(-1);(-1);(-1);(-1);(-1);(-1);(-1);(-1);(-1);(-1);(-1);(-1);(-1);(-1);(-1)];
 [(-1);(-1);(-1);(-1);(-1);(-1);(-1);(-1);(-1);(-1);(-1);(-1);(-1);(-1);(-1);(-1)];
 [(-1);(-1);(-1);(-1);(-1);(-1);(-1);(-1);(-1);(-1);(-1);(-1);(-1);(-1);(-1);(-1)];
 [(-1);(-1);(-1);(-1);(-1);(-1);(-1);(-1);(-1);(-1);(-1);(-1);(-1);(-1);(-1);(-1)];
 [(-1);(-1);(-1);(-1);(-1);(-1);(-1);(-1);(-1);(-1);(-1);(-1);(-1);(-1);(-1);(-1)];
 [(-1);(-1);(-1);(-1);(-1);(-1);(-1);(-1);(-1);(-1);(-1);(-1);(-1);(-1);(-1);(-1)];
 [(-1);(-1);(-1);(-1);(-1);(-1);(-1);(-1);(-1);(-1);(-1);(-1);(-1);(-1);(-1);(-1)];
 [(-1);(-1);(-1);(-1);(-1);(-1);(-1);(-1);(-1);(-1);(-1);(-1);(-1);(-1);(-1);(-1)];
 [(-1);(-1);(-1);(-1);(-1);(-1);(-1);(-1);(-1);(-1);(-1);(-1);(-1);(-1);(-1);(-1)];
 [(-1);(-1);(-1);(-1);(-1);(-1);(-1);(-1);(-1);(-1);(-1);(-1);(-1);(-1);(-1);(-1)];
 [(-1);(-1);(-1);(-1);(-1);(-1);(-1);(-1);(-1);(-1);(-1);(-1);(-1);(-1);(-1);(-1)];
 [(-1);(-1);(-1);(-1);(-1);(-1);(-1);(-1);(-1);(-1);(-1);(-1);(-1);(-1);(-1);(-1)];
 [(-1);(-1);(-1);(-1);(-1);(-1);(-1);(-1);(-1);(-1);(-1);(-1);(-1);(-1);(-1);(-1)];
 [(-1);(-1);(-1);(-1);(-1);(-1);(-1);(-1);(-1);(-1);(-1);(-1);(-1);(-1);(-1);(-1)];
 [(-1);(-1);(-1);(-1);(-1);(-1);(-1);(-1);(-1);(-1);(-1);(-1);(-1);(-1);(-1);(-1)];
 [(-1);(-1);(-1);(-1);(-1);(-1);(-1);(-1);(-1);(-1);(-1);(-1);(-1);(-1);(-1);(-1)];
 [(-1);(-1);(-1);(-1);(-1);(-1);(-1);(-1);(-1);(-1);(-1);(-1);(-1);(-1);(-1);(-1)];
 [(-1);(-1);(-1);(-1);(-1);(-1);(-1);(-1);(-1);(-1);(-1);(-1);(-1);(-1);(-1);(-1)];
 [(-1);(-1);(-1);(-1);(-1);(-1);(-1);(-1);(-1);(-1);(-1);(-1);(-1);(-1);(-1);(-1)];
 [(-1);(-1);(-1);(-1);(-1);(-1);(-1);(-1);(-1);(-1);(-1);(-1);(-1);(-1);(-1);(-1)];
 [(-1);(-1);(-1);(-1);(-1);(-1);(-1);(-1);(-1);(-1);(-1);(-1);(-1);(-1);(-1);(-1)];
 [(-1);(-1);(-1);(-1);(-1);(-1);(-1);(-1);(-1);(-1);(-1);(-1);(-1);(-1);(-1);(-1)];
 [(-1);(-1);(-1);(-1);(-1);(-1);(-1);(-1);(-1);(-1);(-1);(-1);(-1);(-1);(-1);(-1)];
 [(-1);(-1);(-1);(-1);(-1);(-1);(-1);(-1);(-1);(-1);(-1);(-1);(-1);(-1);(-1);(-1)];
 [(-1);(-1);(-1);(-1);(-1);(-1);(-1);(-1);(-1);(-1);(-1);(-1);(-1);(-1);(-1);(-1)];
 [(-1);(-1);(-1);(-1);(-1);(-1);(-1);(-1);(-1);(-1);(-1);(-1);(-1);(-1);(-1);(-1)];
 [(-1);(-1);(-1);(-1);(-1);(-1);(-1);(-1);(-1);(-1);(-1);(-1);(-1);(-1);(-1);(-1)];
 [(-1);(-1);(-1);(-1);(-1);(-1);(-1);(-1);(-1);(-1);(-1);(-1);(-1);(-1);(-1);(-1)];
 [(-1);(-1);(-1);(-1);(-1);(-1);(-1);(-1);(-1);(-1);(-1);(-1);(-1);(-1);(-1);(-1)];
 [(-1);(-1);(-1);(-1);(-1);(-1);(-1);(-1);(-1);(-1);(-1);(-1);(-1);(-1);(-1);(-1)];
 [(-1);(-1);(-1);(-1);(-1);(-1);(-1);(-1);(-1);(-1);(-1);(-1);(-1);(-1);(-1);(-1)];
 [(-1);(-1);(-1);(-1);(-1);(-1);(-1);(-1);(-1);(-1);(-1);(-1);(-1);(-1);(-1);(-1)];
 [(-1);(-1);(-1);(-1);(-1);(-1);(-1);(-1);(-1);(-1);(-1);(-1);(-1);(-1);(-1);(-1)];
 [(-1);(-1);(-1);(-1);(-1);(-1);(-1);(-1);(-1);(-1);(-1);(-1);(-1);(-1);(-1);(-1)];
 [(-1);(-1);(-1);(-1);(-1);(-1);(-1);(-1);(-1);(-1);(-1);(-1);(-1);(-1);(-1);(-1)];
 [467;(-1);468;(-1);(-1);(-1);469;(-1);470;(-1);(-1);(-1);471;472;473;474];
 [(-1);475;(-1);(-1);476;(-1);(-1);477;478;(-1);(-1);(-1);(-1);479;(-1);(-1)];
 [480;(-1);481;(-1);(-1);482;483;(-1);(-1);(-1);(-1);484;485;(-1);486;(-1)];
 [(-1);(-1);(-1);(-1);(-1);487;(-1);488;(-1);489;490;(-1);(-1);491;(-1);(-1)];
 [(-1);(-1);(-1);(-1);(-1);(-1);(-1);(-1);492;493;(-1);494;495;496;(-1);497];
 [(-1);498;(-1);(-1);(-1);(-1);(-1);499;(-1);500;501;(-1);502;503;(-1);(-1)];
 [(-1);(-1);504;(-1);(-1);(-1);(-1);505;(-1);(-1);(-1);(-1);(-1);(-1);(-1);(-1)];
 [(-1);506;(-1);(-1);507;508;509;510;511;(-1);(-1);(-1);512;513;(-1);514];
 [(-1);(-1);(-1);(-1);(-1);515;(-1);(-1);516;(-1);(-1);(-1);517;(-1);518;(-1)];
 [(-1);(-1);(-1);(-1);(-1);(-1);(-1);(-1);(-1);(-1);(-1);519;(-1);(-1);(-1);(-1)];
 [(-1);520;521;(-1);(-1);(-1);522;(-1);(-1);(-1);523;(-1);(-1);524;525;(-1)];
 [526;(-1);(-1);(-1);(-1);(-1);(-1);527;(-1);(-1);(-1);(-1);(-1);(-1);(-1);(-1)];
 [(-1);(-1);(-1);(-1);(-1);(-1);528;529;(-1);(-1);(-1);(-1);(-1);530;(-1);531];
 [(-1);532;(-1);533;(-1);534;535;536;537;538;(-1);(-1);539;540;(-1);541];
 [542;(-1);(-1);(-1);(-1);(-1);(-1);(-1);(-1);(-1);543;(-1);(-1);(-1);(-1);(-1)];
 [(-1);544;(-1);545;546;547;(-1);548;(-1);(-1);(-1);(-1);(-1);549;(-1);(-1)];
 [(-1);(-1);550;(-1);551;(-1);(-1);552;(-1);(-1);(-1);(-1);(-1);(-1);553;(-1)];
 [(-1);(-1);(-1);(-1);(-1);(-1);(-1);(-1);554;(-1);555;(-1);(-1);(-1);(-1);556];
 [(-1);(-1);557;(-1);(-1);(-1);(-1);(-1);(-1);558;(-1);(-1);(-1);559;(-1);(-1)];
 [560;(-1);(-1);(-1);561;(-1);(-1);(-1);562;563;564;(-1);(-1);(-1);(-1);(-1)];
 [(-1);565;(-1);(-1);566;(-1);567;568;569;570;(-1);(-1);(-1);(-1);(-1);(-1)];
 [571;(-1);572;573;574;(-1);575;(-1);(-1);(-1);(-1);(-1);(-1);576;577;(-1)];
 [(-1);(-1);(-1);(-1);(-1);(-1);(-1);578;(-1);(-1);(-1);579;(-1);(-1);580;(-1)];
 [(-1);581;(-1);(-1);(-1);(-1);582;(-1);583;584;(-1);585;586;587;(-1);588];
 [589;590;(-1);591;(-1);(-1);(-1);(-1);(-1);592;593;(-1);(-1);594;(-1);(-1)];
 [595;(-1);(-1);(-1);(-1);(-1);(-1);(-1);(-1);596;597;(-1);598;(-1);(-1);(-1)];
 [(-1);(-1);(-1);599;(-1);600;(-1);601;602;603;604;605;(-1);(-1);(-1);(-1)];
 [606;607;(-1);608;(-1);(-1);(-1);(-1);(-1);609;(-1);(-1);(-1);(-1);610;611];
 [(-1);(-1);(-1);612;613;(-1);(-1);(-1);(-1);(-1);(-1);(-1);(-1);(-1);(-1);614];
 [615;616;(-1);(-1);(-1);(-1);(-1);(-1);617;(-1);618;(-1);619;620;(-1);(-1)];
 [(-1);(-1);(-1);(-1);(-1);(-1);621;(-1);(-1);(-1);622;(-1);(-1);(-1);623;624];
 [(-1);(-1);625;(-1);(-1);(-1);626;(-1);627;(-1);(-1);(-1);(-1);(-1);628;(-1)];
 [(-1);(-1);629;(-1);(-1);(-1);(-1);(-1);(-1);630;631;632;(-1);(-1);(-1);633];
 [634;635;(-1);(-1);(-1);636;(-1);637;(-1);(-1);(-1);638;(-1);(-1);(-1);(-1)];
 [(-1);(-1);(-1);(-1);(-1);639;640;(-1);641;642;643;644;(-1);(-1);(-1);645];
 [(-1);(-1);(-1);(-1);646;647;(-1);648;649;(-1);650;651;652;(-1);(-1);653];
 [(-1);(-1);(-1);(-1);(-1);(-1);(-1);(-1);(-1);(-1);654;(-1);(-1);(-1);(-1);(-1)];
 [(-1);(-1);655;(-1);(-1);(-1);(-1);656;(-1);657;(-1);658;659;660;(-1);(-1)];
 [(-1);(-1);(-1);661;(-1);(-1);(-1);(-1);(-1);662;(-1);(-1);(-1);(-1);(-1);(-1)];
 [(-1);(-1);(-1);(-1);(-1);(-1);(-1);663;664;665;666;667;(-1);(-1);(-1);668];
 [669;(-1);670;671;(-1);(-1);672;(-1);(-1);(-1);(-1);(-1);(-1);(-1);673;(-1)];
 [674;(-1);(-1);(-1);(-1);(-1);(-1);675;676;(-1);677]].

(* lib/converters/jisx0213.h:2006-4497 jisx0213_from_ucs_level2_data *)
Definition jisx0213_from_ucs_level2_data : tab := mk [
 [10530;10531;8561;8562;10532;10533;8568;8495;10534;10535;10536;8780;10537;10538;10539;8555];
 [8542;10540;10541;8493;8825;10542;10543;10544;10545;10546;10547;10548;10549;10550;10551;10552];
 [10553;10554;10555;10556;10557;10558;10559;10560;10561;10562;10563;10564;10565;10566;10567;10568];
 [10569;10570;10571;10572;10573;8543;10574;10575;10576;10577;10578;10579;10580;10581;10582;10583];
 [10584;10585;10586;10587;10716;10589;10590;10591;10592;10593;10594;10595;10596;10597;10598;10599];
 [10600;10601;10602;10603;10604;8544;10605;10606;10607;10608;10609;10610;10611;10612;10613;10618];
 [10810;10825;10785;10796;10812;10827;10841;10847;10813;10828;10816;10831;10832;10616;10621;10814];
 [10829;10815;10830;10842;10848;10843;10849;10877;10614;10619;10844;10850;10811;10826;10788;10799];
 [10787;10798;10817;10833;10818;10834;10874;10617;10622;10819;10835;11051;11050;10809;10824;10820];
 [10836;10789;10800;10845;10851;10791;10803;10790;10802;10823;10839;10792;10804;10615;10620;10846];
 [10852;10821;10837;10822;10838;10793;10805;10795;10808;10794;10807;11049;11044;10351;10352;10353];
 [10358;10359;10360;10361;10362;10363;10364;10356;10357;11077;11059;11065;11066;11045;11192;11071];
 [10862;11046;11054;11184;11203;11057;11058;10869;11048;10873;11062;11068;11042;11074;11052;10858];
 [10868;10859;11060;10875;10853;10870;10863;11055;10860;11073;10867;10864;10855;10876;10865;10856];
 [11047;10861;11053;11061;10854;11191;11067;10872;10866;11072;10857;11041;10878;11043;10871;11070];
 [11069;10801;11091;11092;11093;11094;10786;10840;10797;10806;11121;11232;11105;11106;11107;11236];
 [11100;11098;11103;11133;11099;11095;11117;11097;11102;11101;11128;11129;11134;11114;11126;11127];
 [11115;11116;11122;11111;11119;11130;11112;11120;11123;11125;11113;11131;11132;11124;11118;11090];
 [9761;9762;9763;9764;9765;9766;9767;9768;9769;9770;9771;9772;9773;9774;9775;9776];
 [9777;9778;9779;9780;9781;9782;9783;9784;9793;9794;9795;9796;9797;9798;9799;9800];
 [9801;9802;9803;9804;9805;9806;9807;9808;9809;9817;9810;9811;9812;9813;9814;9815];
 [9816;10023;10017;10018;10019;10020;10021;10022;10024;10025;10026;10027;10028;10029;10030;10031];
 [10032;10033;10034;10035;10036;10037;10038;10039;10040;10041;10042;10043;10044;10045;10046;10047];
 [10048;10049;10065;10066;10067;10068;10069;10070;10072;10073;10074;10075;10076;10077;10078;10079];
 [10080;10081;10082;10083;10084;10085;10086;10087;10088;10089;10090;10091;10092;10093;10094;10095];
 [10096;10097;10071;10354;10355;11078;11079;11088;11089;8510;9084;8509;8514;8518;8519;8520];
 [8521;8823;8824;9024;8517;8516;8819;8556;8557;8744;10347;11096;11390;10348;10349;10350];
 [11389;10529;8558;9053;9055;11618;11620;9056;8818;9052;10104;10105;10106;11573;11574;11575];
 [11576;11577;11578;11579;11580;11581;11582;11583;11607;11317;11318;11319;11320;11321;11322;11323];
 [11324;11325;11326;11327;11328;8747;8748;8746;8749;8817;8999;8997;8998;9000;9001;8781];
 [8782;9003;9004;9002;9005;8783;8799;8784;8775;8800;8762;8774;8763;8541;9051;8805];
 [8807;8551;11640;8796;8788;8789;8778;8779;8769;8768;8809;8810;11635;8552;8808;8806];
 [8812;8813;8814;8802;8546;8801;8811;8549;8550;8803;8804;8815;8816;8766;8767;8770];
 [8771;8764;8765;8772;8773;8785;8786;8787;8797;11641;10102;10103;8776;8777;8798;10108];
 [10050;10051;10052;10053;10054;10055;10056;10057;10058;10059;10060;10061;10062;10063;10064;10110];
 [10109;11553;11554;11555;11556;11557;11558;11559;11560;11561;11562;11563;11564;11565;11566;11567];
 [11568;11569;11570;11571;11572;11329;11330;11331;11332;11333;11334;11335;11336;11337;11338;11339];
 [11340;11341;11342;11343;11344;11345;11346;11347;11348;11349;11350;11351;11352;11353;11354;11307];
 [11308;11309;11310;11311;11312;11313;11314;11315;11316;9818;9819;9820;9821;9822;9823;9824];
 [9825;9826;9827;10273;10284;10274;10285;10275;10286;10276;10287;10278;10289;10277;10288;10279];
 [10300;10295;10290;10281;10302;10297;10292;10280;10296;10301;10291;10282;10298;10303;10293;10283];
 [10299;10304;10294;8739;8738;9837;8741;8740;8994;8993;8743;8742;8996;8995;8737;8574];
 [9019;8571;8573;8572;10343;10344;10345;10346;9023;8830;9832;9833;9834;9835;8570;8569];
 [9831;9828;9829;11646;8554;8553;9786;9789;9787;9792;9785;9790;9788;9791;9836;8829];
 [8822;8827;8828;8821;8826;8820;10107;11645;11297;11298;11299;11300;11301;11302;11303;11304];
 [11305;11306;9006;9007;9018;9085;9086;8481;8482;8483;8503;8505;8506;8507;8530;8531];
 [8532;8533;8534;8535;8536;8537;8538;8539;8745;8750;8524;8525;8794;8795;8792;8793];
 [8513;11616;11617;9830;8755;8756;8757;8758;8759;9020;9249;9250;9251;9252;9253;9254];
 [9255;9256;9257;9258;9387;9260;9389;9262;9391;9264;9393;9266;9395;9268;9269;9270];
 [9271;9272;9273;9274;9275;9276;9277;9278;9279;9280;9281;9282;9283;9284;9285;9286];
 [9287;9288;9289;9290;9291;9292;9293;9294;9295;9296;9297;9298;9299;9300;9301;9302];
 [9303;9304;9305;9306;9307;9308;9309;9310;9311;9312;9313;9314;9315;9316;9317;9318];
 [9319;9320;9321;9322;9323;9324;9325;9326;9327;9328;9329;9330;9331;9332;9333;9334];
 [8491;8492;8501;8502;8761;9083;9505;9506;9507;9508;9509;9510;9511;9512;9513;9514];
 [9643;9516;9645;9518;9647;9520;9649;9522;9651;9524;9525;9526;9527;9528;9529;9530];
 [9659;9532;9533;9534;9535;9536;9537;9538;9539;9668;9541;9542;9543;9672;9545;9546];
 [9547;9548;9549;9550;9551;9552;9553;9554;9555;9556;9557;9558;9559;9560;9561;9562];
 [9563;9564;9565;9566;9567;9568;9569;9570;9571;9572;9573;9574;9575;9576;9577;9578];
 [9579;9580;9581;9582;9583;9584;9585;9586;9587;9588;9589;9590;10098;10099;10100;10101];
 [8486;8508;8499;8500;8760;9838;9839;9840;9841;9842;9843;9844;9973;9846;9847;9849];
 [9850;9851;9852;9853;9854;11626;11627;11628;10305;10306;10307;10308;10309;10310;10311;10312];
 [10313;10314;10315;10316;10317;10318;10319;11621;11622;11623;11624;11625;10320;10321;10322;10323];
 [10324;10325;10326;10327;10328;10329;10330;10331;10332;10333;10334;11355;11356;11357;11358;11359];
 [11360;11361;11362;11363;11364;11365;11366;11367;11368;11369;11370;11371;11372;11373;11374;11377];
 [11376;11379;11378;11375;11590;11594;11585;11588;11586;11596;11595;11589;11597;11591;11599;11584];
 [11598;11587;11592;11593;11615;11631;11630;11629;11603;11604;11600;11601;11602;11606;11605;9054];
 [11619;11811;41261;41266;41267;41310;41302;41342;11859;41771;62568;41775;11867;41800;41821;41822];
 [41825;41831;42019;42022;42031;42040;42050;42058;42105;42303;42307;42305;42327;43043;43045;43049];
 [43048;43052;20319;43070;20335;43094;43097;43100;43102;43119;43121;43124;43129;43131;44091;44102];
 [44106;44128;44379;44383;44401;44598;44412;44590;44594;44596;30025;44653;44645;44840;44841;44844];
 [44852;30078;30241;44872;44893;30266;44919;60987;60994;61041;61054;61248;61268;61296;61303;61480];
 [30566;61503;61505;61506;61513;61520;61748;30797;61766;61768;61788;61799;61804;61986;61997;62009];
 [62052;62068;62071;62077;62259;62263;62279;62283;62280;62291;62295;31085;62507;62518;62523;62542];
 [62557;62561;62782;62786;62792;62794;62796;62799;31321;31322;62828;62830;62839;63029;63026;63028];
 [63065;63060;63085;63086;31569;63311;63340;31584;63524;63546;63555;63566;63571;63595;63785;63807];
 [63817;31819;63836;64039;32088;64362;64368;64373;64376;64567;64597;64806;64808;64810;64817;32318];
 [64831;65066;65069;65099;65120;12396;17274;41250;15415;19324;15974;15152;15973;12860;18772;19775];
 [41251;20514;12591;41252;13166;20515;16420;21058;13654;19002;15975;20030;19010;11812;41253;20516];
 [41254;61486;17254;41255;11813;11814;20517;13946;20518;13405;17200;15463;20519;20520;41256;20521];
 [18229;13655;41257;41258;18231;18019;14403;19251;41260;26953;20522;15976;20523;12853;41263;13925];
 [14448;19561;22054;41264;19824;18045;13349;13621;20524;20525;20027;19773;16744;20527;15222;18035];
 [11815;20530;12606;14431;14430;12390;20299;20298;14899;12321;41265;20531;20532;20533;19252;20534];
 [14450;12391;19314;13692;13693;13694;17506;20028;20535;20536;20537;41268;16205;41269;41271;15674];
 [16206;20542;41272;20540;20541;13656;41273;14883;12912;20539;20538;18985;41274;15174;15173;16958];
 [20543;18773;16487;41276;8504;20544;20546;11816;16997;20065;12362;41275;20545;12862;13892;41277];
 [17255;41278;14191;20547;18212;11817;11818;41279;13419;11819;20548;12363;11820;14432;13420;18810];
 [18482;13657;41280;12913;20583;17729;18284;20550;18492;20066;41282;16173;15175;15223;12864;41283];
 [17489;17186;20554;11822;11823;12364;17507;15675;14900;19748;16974;41284;12863;11824;20553;41285];
 [19774;20549;20551;14958;20552;21796;11825;11821;41281;20560;11826;11827;20563;20561;12866;19003];
 [20555;41287;41288;41289;20559;14451;41290;11828;15176;41291;13350;41292;20564;20556;11829;20067];
 [15224;20557;20562;41293;11830;20565;11831;20558;41294;13857;12365;13858;12865;21797;19321;18798];
 [14452;41296;16175;20023;41297;19032;14136;16933;12900;41298;11833;15699;41299;20569;41300;20574];
 [20572;41301;20567;16943;20570;20573;20571;19037;20568;11834;16174;19315;20575;20576;41295;15652];
 [20589;11809;41303;18256;18742;20584;19056;12854;20588;41304;11835;11836;20582;20591;16722;14404];
 [18268;11837;24647;41305;20590;17757;41306;20579;14454;11838;14453;20577;41307;41308;15450;20585];
 [41309;19055;17229;20581;14193;11839;20578;20586;20580;20049;20587;20289;11840;13926;14192;11842];
 [11841;11843;41311;20592;41312;20593;20597;12366;41313;19024;20596;41314;20595;20599;41315;20598];
 [17508;41316;14194;41317;41318;20600;41319;15429;16934;17509;13942;20601;13622;20602;20604;41321];
 [19253;14182;41322;41323;11844;41324;41325;15153;18551;20603;41326;41320;41327;14917;19779;41329];
 [20606;20771;20605;14916;15741;41330;41331;14137;20772;41332;13903;41333;20769;20770;11845;17967];
 [41336;16764;11847;13859;41338;19277;20773;41339;20029;20774;41340;20777;20775;11848;16718;41341];
 [20776;20778;11846;41334;20780;20779;19016;13623;20782;20783;11851;12847;11850;41761;20781;11852];
 [15476;20786;20785;20784;41763;20566;20787;41764;11853;15742;20788;19749;19545;11854;20790;20789];
 [20792;20791;20793;20794;12404;14389;14139;15676;17275;13860;16488;14455;11855;14702;20796;19528];
 [17734;15225;20795;20797;11857;11858;17758;13173;41766;20798;18046;16692;20800;20801;18476;14456];
 [20283;20802;13862;41768;19004;16950;13937;17717;62580;14195;20803;20804;41769;18018;12639;20807];
 [14973;41770;20806;14918;20808;26222;20809;19265;20810;20811;20812;15977;41772;15436;11860;13351];
 [20815;41773;20813;19517;20814;18778;20816;20817;20818;17759;41774;20822;20820;20821;20819;14947];
 [20823;19562;20068;41776;20824;11861;16424;20825;15706;20826;11862;17276;20031;17760;21061;20827];
 [29733;13893;11863;20828;19294;11864;15720;17020;20830;18020;20831;11865;20832;13102;41779;41780];
 [20833;13863;17996;12666;15696;18465;20834;17761;11866;41781;16207;20835;18988;16474;13346;13353];
 [20836;20838;14138;41782;11868;20837;11869;41783;20083;15721;18493;19020;20839;19832;20840;20841];
 [17790;20842;16425;14974;14196;20843;15177;14703;17510;20845;16935;11870;14959;20846;20847;16688];
 [20844;20849;41785;19254;11871;14692;41786;12158;20848;11872;14197;14942;18285;20852;20850;41787];
 [18811;15978;20859;13156;20853;20851;16719;41788;20855;20854;41790;13124;41789;14176;20860;20013];
 [20856;20861;20858;11873;20857;41792;20047;14457;12867;20084;41794;41795;15733;17752;14693;21026];
 [21027;41796;20069;20267;21029;14458;41797;41798;21028;13103;21030;19286;17468;19750;11874;19033];
 [41799;11876;21031;11877;41801;28757;17968;11878;21032;13354;19507;11879;15905;21033;19047;21037];
 [16426;21034;13904;21035;13355;11881;14126;21038;21039;41803;21040;21041;15451;11882;14459;19550];
 [11883;19560;18039;19057;21042;11884;21043;41804;41805;21045;21047;21046;21048;12861;19276;14972];
 [21049;11885;16729;15906;13865;21050;41806;18523;21051;21052;21053;41807;21054;18724;13928;12389];
 [41808;17983;21055;15677;41809;16489;21057;21056;15907;14433;21059;18494;21060;18524;16948;17006];
 [13864;18030;17201;18286;19278;21062;16490;11887;11888;14133;41812;21063;41813;21064;12588;12405];
 [13421;16936;13649;19825;21067;12855;41814;21066;11889;13866;21068;19569;11890;21069;20050;14460];
 [11891;14390;21070;41815;21072;21071;16223;12601;12638;21073;21074;11892;14391;41816;21075;41818];
 [13678;41819;15154;21076;19316;14901;13658;19751;16720;18495;15485;15687;41823;15464;15477;15734];
 [41824;18496;21079;12611;16721;14461;14405;13927;21083;17185;17022;13867;15908;21084;21082;12868];
 [16998;15416;15179;12582;41826;41827;13168;14694;15178;21085;21086;13641;13126;14695;13640;17503];
 [12581;17969;19518;14625;19833;17735;14462;11893;14127;21095;20350;13923;19274;41829;18525;11894];
 [41830;21094;13406;21089;21090;21092;21093;13659;16225;18989;21091;21087;14435;21088;20260;41832];
 [19058;17512;14434;14704;11895;21096;18013;41828;21100;41833;41834;15486;15478;11897;41835;21103];
 [21101;19491;11898;21098;21107;21102;21105;14406;19519;11899;21106;21108;21110;11900;41836;14960];
 [20290;41837;21099;21097;21109;21104;41838;11901;11896;41839;11902;21112;21283;21114;41840;21118];
 [12065;21281;21115;41841;41842;21310;14953;13105;41843;21113;41844;21285;12406;21284;41845;12325];
 [18762;21282;41846;21116;12066;21111;21117;14920;21286;12407;21295;21287;21288;15909;19305;41848];
 [21293;21292;41849;41850;17711;41851;21294;21291;12067;41852;41853;12596;14902;16176;41854;12068];
 [21289;17762;21290;12322;12069;21300;19747;15911;21306;12070;21305;21296;42017;16963;21297;42018];
 [17007;21302;15910;42020;42021;21299;19556;12071;14140;21303;21304;21301;21307;12072;42023;42024];
 [21298;42025;21313;21318;42027;21314;21309;12073;42028;21319;16689;12074;21321;42029;14626;21311];
 [17277;12075;42030;21315;21308;13357;13422;13157;21316;21312;14198;21322;21320;16723;13642;13868];
 [12077;21317;13940;12612;42035;21326;21324;21543;42036;42037;12078;42038;42032;21329;21323;21327];
 [42039;21325;42041;15180;21328;42043;21331;21336;21334;21333;17202;42046;12080;12869;12081;42047];
 [21330;21332;15912;12595;21335;42044;12894;21346;42048;15996;21342;21340;21341;42049;21343;12082];
 [42051;42052;42053;12605;42054;12083;16697;21337;21338;29735;13178;42055;42056;21345;12085;13423];
 [21348;21344;21347;42057;12087;12088;12089;18990;12084;18005;18488;21350;21349;13125;42059;21351];
 [42060;21354;21353;42061;12090;42062;42063;12091;21352;18233;21355;42064;12092;12093;42065;21356];
 [42066;12094;21358;21357;21360;21363;21361;21359;21362;42067;21364;12095;12096;42068;21365;21366];
 [21367;21368;20805;15484;15181;12915;42069;12408;17220;42070;21369;14884;12367;16222;42071;42072];
 [21370;14407;14705;21372;21371;19040;21373;21537;21374;12097;21538;21539;14199;12640;21540;42074];
 [21542;21541;21544;17754;12099;42075;21545;12341;14943;42077;14141;12100;17231;12101;12102;21546];
 [21547;21549;21550;14948;42079;42080;13905;19255;42081;42082;21548;21551;14913;14627;21555;14885];
 [17203;42084;21552;17498;42085;12103;42086;42087;42088;12104;42089;12105;21556;16226;21554;21557];
 [14143;21558;42093;12106;42094;42095;21559;14628;13120;21561;42096;21562;42092;21563;21560;12109];
 [21553;21564;21565;12110;12111;19300;42099;15979;12112;21567;21568;21566;21570;42097;18232;42102];
 [12392;18774;21571;12113;42103;12114;42104;15997;12115;12116;15417;42106;18269;13424;42107;14955];
 [42108;12117;19289;17970;42109;14200;16975;12118;21569;21572;16964;21573;21574;42110;42273;21576];
 [17513;42274;13358;29729;12641;19059;42275;15980;17736;42276;14950;21582;19005;20061;42278;12916];
 [21578;42279;16698;21581;17763;17737;17764;18489;17485;14921;12120;21577;12121;42280;12662;17718];
 [21579;21575;16208;21583;12123;15694;13869;21584;12124;42281;42282;42283;42284;42285;19048;42286];
 [16765;17478;42287;12125;21586;19279;12127;42288;21587;21592;42289;18991;21591;21585;21588;21590];
 [14886;19017;42291;21593;17221;12917;15981;42292;12130;21595;12129;21594;12131;14696;21596;21598];
 [21597;12132;21600;21589;21602;12133;42293;21601;21599;12134;15182;16209;16724;21603;16444;12397];
 [18276;42294;42295;17499;21605;21604;21606;21607;21608;21609;42296;42297;19025;21610;42298;12135];
 [42299;12870;21611;42300;19772;13104;21065;15688;16959;21612;19563;19508;42301;21614;16999;17719];
 [16960;18775;21615;21616;12667;15418;21617;12368;21618;42304;21619;12642;42306;13425;18016;19060];
 [21623;16725;21622;14144;19291;21621;17765;21625;21624;42309;12137;42310;21627;21626;12668;21628];
 [15913;21630;17189;21629;12138;18995;15735;17755;42312;42313;21793;42314;14629;21794;18209;18526];
 [19537;18213;12139;21803;12140;13624;19781;19503;22060;21795;42315;21798;12141;16965;19256;17738];
 [42316;21799;19301;14922;42317;15914;12142;21800;42318;15184;15183;42319;12345;14408;12143;16427];
 [12369;21804;21805;21802;12144;42320;42321;42322;12600;13359;42323;21801;19525;18737;42324;12328];
 [32378;12409;15185;12370;12323;21810;42328;42329;21808;12145;42330;19516;21811;21809;21807;16177];
 [12146;21806;42331;19034;42332;14436;21815;21816;15915;21812;20268;18252;21814;42333;14887;21817];
 [42334;18776;12147;21818;21813;12148;12149;42335;12150;19515;12151;42336;18270;21819;18738;42337];
 [12152;42338;42339;42340;12153;42341;42342;42343;42344;21820;21824;21821;42345;12871;21823;12154];
 [15419;21822;14201;21836;21829;21826;42346;42347;42348;17252;21825;42349;21827;21828;42351;42350];
 [42352;21830;21831;42353;42354;13426;21833;21832;21834;42355;12156;15982;12157;21837;17500;42357];
 [12613;21835;42356;21838;21839;21842;20309;21840;21841;42358;15186;21843;42359;14630;21844;20310];
 [15226;16952;21845;21846;15194;14631;19538;13608;14409;21847;13144;42360;21848;16953;42361;21849];
 [22051;21850;21851;21852;21854;42362;20311;42363;21855;42364;21856;42365;17008;12583;15465;12354];
 [16727;13360;15413;14632;20312;17766;43041;15649;13361;17256;17514;12344;13625;19061;15426;13650];
 [16491;15420;19752;21857;43042;13660;14923;13106;12643;15916;12872;21858;19782;15689;43044;15460];
 [21859;13427;18002;19497;21860;21861;18777;43046;21863;13352;13943;21862;43047;20313;13362;16178];
 [21867;15137;12873;21866;21864;21868;21865;18219;23629;16179;21869;20314;20032;21870;43050;21872];
 [17278;21871;16419;15227;43051;16976;15479;18805;16492;43053;15437;21873;15917;21874;21875;12371];
 [16954;16210;21876;17971;15918;15919;20315;21877;16493;15920;20316;21878;21879;20317;19552;21880];
 [43054;20318;13894;43055;15650;21881;21882;15452;16172;18036;16212;18552;18210;13897;21883;13679];
 [21884;13950;17999;12848;15187;21885;22050;22049;13949;21886;17720;32379;16944;43057;17739;15432];
 [20320;43058;16728;19834;43059;43060;43061;22052;22053;18006;43062;15155;22055;22056;20324;43065];
 [43068;43069;22057;20325;13428;22058;22059;20326;43073;12844;43074;20327;43075;43076;16699;13412];
 [20328;22061;19496;43078;16978;13145;43079;22063;22065;13407;20329;22062;22064;22067;22066;22068];
 [43081;20330;20331;20332;22069;17981;13870;12901;22070;22075;22073;19063;19062;20333;17767;22072];
 [15700;22071;43084;16242;22076;20336;14954;43085;22082;22083;22077;13107;22078;22087;22086;22085];
 [22081;43087;22080;43088;22084;43089;43090;20337;19064;43086;43091;43092;43093;20339;20340;20342];
 [22091;22088;22090;19826;22089;20341;22079;43095;16243;43096;22092;20343;14903;43098;22093;22094];
 [20344;22097;22096;22095;43101;17768;22074;22103;43103;43104;43105;43106;22099;20345;22098;20346];
 [20347;22100;22101;43107;43108;43109;22104;20348;43111;20070;22105;22102;22106;20349;13408;22107];
 [43112;22109;22108;22110;43113;43114;22111;16494;15651;43115;15716;29736;16739;43117;14633;14904];
 [14634;13680;43118;22112;14905;14410;22113;19494;18243;22114;14635;13356;17191;13906;43120;15188];
 [18779;18497;22115;13429;22118;43122;29737;43123;17441;29738;22117;22116;22119;17515;43125;16227];
 [15189;16458;43126;16979;13602;17442;22120;22121;15983;19257;43127;22124;22123;22122;18813;22131];
 [43128;19290;22125;22127;19307;43130;22126;29739;29740;22128;18472;22129;19006;22130;43132;43133];
 [43134;44065;13363;19007;18223;22132;22133;32380;14636;13364;22134;14392;19780;19753;13430;22136];
 [17443;14637;15921;18527;15922;15736;17516;19065;17721;14638;18780;22137;44067;17753;14914;44068];
 [14411;44069;17517;12355;15726;14639;19783;44070;29741;44071;22138;22139;18257;44072;22140;20087];
 [20269;29743;22142;22141;44073;13127;22305;44074;22308;22309;22307;18752;15923;22311;22310;22306];
 [22312;22313;22314;22317;22315;22316;22318;12644;17518;22319;29744;14202;12918;18230;44076;22320];
 [18043;29745;19035;29746;22321;20270;29747;44077;22322;19008;22325;20513;20529;44078;15408;18037];
 [22326;13661;17444;12410;22327;18982;14640;17232;44079;29748;44081;17519;29749;19567;14393;14412];
 [22328;22329;22335;15461;29750;17445;29751;13871;22330;18731;29752;17222;29753;22331;29754;44082];
 [22332;13872;22333;22334;22336;17782;29755;22337;22338;29756;22339;22324;22323;22340;14145;44083];
 [29757;18727;29758;14924;18743;17446;18763;22341;15924;12614;44084;22342;22343;19570;18528;29759];
 [44085;22346;12669;16428;22345;22344;14146;16980;22350;22348;29760;22347;20007;14437;44086;15737];
 [22349;17740;15678;17984;22353;22352;29761;22351;22354;14438;44087;44088;29762;22355;18812;15707];
 [22356;18553;29763;17985;17447;29764;29765;44089;17712;22357;13611;16180;44090;18732;44092;29766];
 [44093;13431;18214;44094;44095;44096;22358;15190;19258;19259;12670;22363;29767;17257;29768;44097];
 [22360;29769;12919;44098;44099;22573;22362;44100;18224;22361;22359;44101;14714;22365;29770;22371];
 [22377;22369;17756;29771;22374;18781;44103;29772;22368;22373;20071;15191;16981;22366;44104;44105];
 [13662;22376;16429;12645;22370;12920;22375;13873;22372;29773;29774;22378;22380;22390;22388;22385];
 [29775;22384;20088;44107;22386;13874;14641;15738;22393;22379;22383;22367;12922;22387;22389;17233];
 [14888;12856;22381;22392;22391;13875;16937;13158;14147;22382;44108;22394;22397;22561;15421;44109];
 [22567;17520;22395;22565;12921;44110;22563;22564;22398;22562;29777;29778;14439;19754;13365;12633];
 [22566;44111;18234;12333;44113;44114;18529;22364;22572;22576;19557;22569;17769;22574;44115;15984];
 [22575;18007;44116;29779;20295;22571;29780;29781;22577;44117;14715;44118;16459;29782;12372;22570];
 [22568;16730;22396;15156;44119;16966;22589;44120;16731;22584;44121;22581;22582;29783;15462;22585];
 [22588;22583;15653;22586;22580;19580;19579;22590;22591;12373;44122;44123;44124;22579;44125;13938];
 [12326;29784;44126;13366;22587;22595;22594;29785;22599;29786;22600;29787;44127;22598;22601;22593];
 [22597;44129;22602;22603;44130;22592;15228;22596;16982;14642;22578;16181;22616;19049;22606;22607];
 [22608;22615;22614;44131;19325;13367;22612;14149;13108;22609;20024;22611;12374;22613;22604;22610];
 [22617;14148;22605;44132;19805;19755;22620;22624;29789;16766;20089;22625;44134;44135;22622;22619];
 [44136;44137;22618;22623;18992;44138;17972;44139;14150;22626;22621;44140;22627;14203;12849;29792];
 [22635;29791;13368;22633;22634;14889;22632;22630;22629;22636;22628;22638;12923;44142;44143;44144];
 [22640;22639;17448;22643;44145;22641;22631;14204;22642;22646;22645;22647;22644;22648;22649;22650];
 [19050;22652;22651;15679;16430;12902;12924;22653;44147;12351;16460;22654;27715;22817;14177;22818];
 [29794;44148;16495;44149;22819;22820;13626;22821;22822;22823;16983;14413;19553;29795;19260;15722];
 [22824;29796;44150;16496;28221;18530;15466;44151;14925;22825;44152;44153;16967;18983;29797;17009];
 [29798;22828;22826;22829;44154;22827;44155;22830;44157;18993;29799;12343;44158;18782;18531;44156];
 [22831;22834;15925;13627;22832;22839;15926;29800;22833;18244;19806;22835;22836;22840;17770;22837];
 [14643;16478;44321;22854;18484;17010;44322;18532;23085;19066;17521;19317;22843;12833;17258;22852];
 [29801;17204;22846;22853;22848;22855;22851;22850;18287;22844;12925;22842;13681;17011;22838;44323];
 [29802;22841;14644;16475;15927;22849;18258;13682;13128;13159;16161;22857;22862;22858;14205;22863];
 [15138;14697;29803;44325;15654;22845;15229;22860;44326;15192;22861;12356;29804;22856;44327;44328];
 [17449;29805;13683;13876;22859;12327;14915;16182;44331;44332;29806;17522;44333;44334;18516;22865];
 [16734;44335;29807;44336;16938;15147;22866;44337;22868;22864;19041;17469;44339;16732;29808;19067];
 [15438;22880;22879;44342;16248;14206;22873;15929;18024;18225;29809;22871;16733;44343;15480;22876];
 [15928;22870;22875;18259;44346;22869;14113;44344;13149;22877;20011;14926;17205;22874;16476;14645];
 [16228;12646;16700;22872;13637;14151;17487;22878;16735;44347;22881;22883;16951;22889;22884;22886];
 [18753;17523;22887;44349;44350;19756;19784;13369;44351;44352;12334;22885;29810;22882;44353;44354];
 [29811;13432;44355;12647;29812;22888;44348;19785;22892;44356;16955;22899;29813;22893;29814;22890];
 [22897;22867;44357;29815;44358;22894;22898;44359;18498;17771;44360;22891;22895;14152;14961;16477];
 [22903;29817;17702;44361;44362;44363;29818;22900;19296;29819;22901;44364;22902;19534;29816;16418];
 [44365;14178;44366;22909;44367;15157;22906;22905;18226;44368;17973;44369;17713;22907;22908;18799];
 [18245;15139;16497;19280;13129;23077;22910;29821;29822;19786;23079;29985;23075;23076;29986;44370];
 [44371;16736;29820;29987;23074;22847;44372;44373;23078;23073;23083;23084;17703;23086;44375;44376];
 [15140;23081;13628;23087;23080;23091;23090;23089;29988;23092;29989;23094;15985;44377;23093;44378];
 [23097;44380;44381;44382;23095;23096;22896;44384;29990;23099;23098;29991;22904;23100;23088;15193];
 [44385;23101;23102;23104;23103;23105;12926;14646;19068;16431;44386;14414;23107;23110;18770;13663];
 [44387;23109;23108;18260;23111;13877;23113;23112;13370;15158;18008;29993;44388;14153;16244;23114];
 [16432;17704;18783;23115;44389;44390;23116;23117;44391;44392;19000;21853;16454;44393;18764;14936];
 [18533;18499;17741;20033;23119;15440;29994;23120;12342;13908;16461;18784;23121;15170;17223;15195];
 [16183;44394;44395;23122;44396;19069;12663;15196;44397;23125;44398;23123;23126;20025;23124;44399];
 [16507;23127;16946;23128;44400;13434;23130;23129;23131;23132;13435;18044;17206;13676;15197;16737];
 [15708;12336;23133;44402;44403;12834;23137;44404;29996;14647;23136;44405;14891;15930;44406;29997];
 [23135;15931;19520;14890;12375;16462;29998;23142;29999;16433;12615;44407;30001;30002;15701;19302];
 [14962;44408;30003;15932;16423;30004;30005;30006;23141;23139;23140;30000;17259;23334;23146;15230];
 [14648;23144;44409;30008;23145;16184;30009;44411;23143;44410;15151;44414;30011;30012;44577;23148];
 [23147;23152;30013;23153;44578;23149;30014;13090;23150;23151;18517;44581;44582;44583;44584;18785];
 [14154;23154;30015;16434;15933;30016;30017;17234;44585;44586;13895;23155;23159;12875;23156;23158];
 [30018;23157;44587;15723;44588;17224;12357;23160;44589;23161;30020;17450;20081;15171;44591;19051];
 [44592;30021;19261;44593;23330;23163;30022;23166;23165;44595;23162;23329;30023;18014;30024;23164];
 [23331;15724;23332;30026;19787;18296;23333;23335;30027;23336;44597;23337;13898;12616;14649;23338];
 [23339;15729;16738;30028;30007;21080;16702;16701;16984;14919;44599;20594;44600;14190;19757;19070];
 [18814;23340;44601;30029;14963;17471;23341;20271;44603;19262;17451;23342;13436;23343;23344;19546];
 [19492;19318;19292;15141;23346;15467;30031;19281;23348;23351;23350;13433;13664;23347;23349;23352];
 [30033;30034;16249;44606;44607;19835;12361;14944;16956;15453;44608;15987;23355;17742;44609;23353];
 [16939;23354;15986;19549;23356;23357;19816;30032;23362;14650;18261;23359;17772;23134;23138;44613];
 [13647;44614;18247;30035;23361;15934;18500;30036;23367;18554;23358;23364;23363;16463;44616;30037];
 [19309;20051;30038;19303;30039;12876;15198;20296;23366;16245;23365;23360;14415;44620;44621;23372];
 [23370;12877;23368;23374;23380;30040;30042;16968;44622;19009;23382;44623;18722;23381;18288;19263];
 [13371;44624;16503;15680;30043;17491;44625;19758;44626;23377;23376;23378;23375;23383;23373;23371];
 [23379;23369;44627;17260;19576;15430;14964;44628;30041;14906;30044;19311;13121;30045;17486;17994];
 [12617;44619;16498;16436;14122;44632;30047;23385;44633;14651;13180;23387;13172;23393;30048;44634];
 [30049;23390;44636;16499;13131;14892;44637;13130;14927;44638;23388;14181;14155;17773;44639;44640];
 [23386;12358;44641;44642;23389;23391;13901;14124;30046;13372;13643;44643;44644;23394;30050;14969];
 [19313;15159;23395;18736;44646;44647;30051;23407;30052;12851;23396;44648;44649;23413;23397;20034];
 [44650;23404;18271;23412;23399;44651;12340;23401;44652;14652;44654;44655;44656;23403;44657;23402];
 [23398;23409;15935;30054;30055;21613;14440;19836;44658;44659;23400;17524;13091;14893;30056;23392];
 [44660;23408;13153;23406;23410;44661;17774;44666;13438;44667;23602;30057;19529;23415;13437;44668];
 [23422;44669;30058;19264;23585;23587;44670;23591;23417;44833;17194;17775;23595;23420;23592;44834];
 [44835;23586;30059;44836;30060;16185;23596;30061;30062;16435;44837;23594;13373;44662;30063;20304];
 [23414;44838;23590;12376;44839;23416;30064;19514;23421;16162;17479;23411;23589;16250;23599;13169];
 [14369;23601;23418;23600;23593;23419;23597;23598;23615;17998;30067;23588;23611;44843;23613;17496];
 [30068;44845;30065;19788;18806;23608;16970;30069;23614;16703;23605;23618;23617;18031;23616;18026];
 [30070;30071;30072;44846;23620;23607;44847;13896;23610;15709;44848;18272;23612;13899;23604;23606];
 [23603;44849;20272;13146;23609;44850;30073;23619;13109;14951;12637;23636;44851;20273;23639;44853];
 [44854;16186;23638;23637;30075;44855;23634;30076;23622;44856;23651;23621;23640;44857;44858;23632];
 [44859;23627;23624;44860;23625;23633;29730;23630;14653;17480;16740;23628;30077;23623;44861;23626];
 [44862;19789;19306;23631;23641;30242;44868;23649;23642;30243;30244;23655;23653;44869;44870;23648];
 [44871;44873;30245;30246;23647;17488;16741;44874;23645;23643;23650;23656;18549;23662;30247;44875];
 [23657;23660;23654;30248;17268;18744;44876;23644;44877;23652;15936;19535;23672;23659;14370;12835];
 [13151;23635;44865;44879;44880;44881;15937;23664;23671;15481;13170;30250;17198;30251;44882;23661];
 [30252;44883;23666;23670;44884;13878;44886;30253;44887;30254;13644;23668;30255;13601;17995;23667];
 [44888;23669;30256;23663;30257;23665;44885;44890;13152;17225;44891;23676;30259;44892;23674;14441];
 [23673;44894;30260;23841;23384;30261;30262;44895;23675;44896;23677;23678;30263;23852;44898;23848];
 [23405;23847;23846;23843;44899;23658;23845;23844;44900;44902;23850;20262;44901;23853;13947;44903];
 [44904;23849;23851;30264;30265;18471;23854;44907;44908;44909;44910;23858;23855;44911;19827;23856];
 [23646;44913;44914;44915;44916;23859;23860;44918;30268;12597;30269;23862;14183;15393;13909;12836];
 [30270;44920;19807;30271;23864;23863;23866;13629;13910;13374;23869;30272;23868;23870;44921;12878];
 [17207;23871;13375;23873;30273;44922;23872;23874;23875;30274;23876;15199;16437;14881;30275;18800];
 [30276;19042;20292;44923;15221;14928;20082;44924;30277;23877;23878;44925;15200;23879;23880;44926];
 [30278;23882;23881;19288;15710;15468;15172;23883;23885;16163;23884;60961;23886;23887;30279;23888];
 [23889;30280;60962;23890;23892;23891;23893;12837;17226;23894;15142;13132;23895;60964;60965;17730];
 [21580;13603;23896;60966;60967;60968;23897;19052;19304;30282;17991;23898;18534;30283;30284;18555];
 [60969;19539;23899;60970;60971;23901;23900;60972;23903;60973;23902;30285;60974;30286;23905;60975];
 [60976;15201;30287;19505;23906;23907;13604;23908;23910;23909;30288;16229;60977;60978;18745;12618];
 [60979;18501;60981;17525;15681;13665;60982;18502;15406;23912;13376;30289;12664;60983;30290;18034];
 [23911;14654;17235;23913;61007;23921;23914;60984;16961;13666;23922;30292;30293;14184;13605;23920];
 [23918;23915;19808;60985;30294;30295;17472;60986;18009;23916;23924;23923;14115;60988;60989;12845];
 [60990;30296;14907;23917;23919;30297;19287;17012;30291;19319;60991;23932;23933;12879;18984;19581];
 [24097;15395;15938;23928;23934;12648;13879;60992;23925;23930;30299;16500;18289;18535;60993;23927];
 [30300;19233;60995;23929;24100;60996;24098;60997;23931;30301;19234;18248;13667;17701;17261;60998];
 [24101;30302;60999;61000;30303;24099;16985;23926;12619;30298;61002;30305;61003;19790;24112;30306];
 [24111;16502;24108;19820;17974;24102;61004;17477;61005;61006;12620;14655;24105;30307;61008;30308];
 [15655;24110;61029;24109;24104;24107;30309;13160;61009;24106;18249;30310;20014;15988;16501;30311];
 [24118;24116;61010;18765;61011;61012;24113;24115;30312;12602;14656;20274;13117;18786;61013;19809];
 [13092;16187;24117;61014;61015;30314;24122;30315;15939;30316;61016;19760;61017;24119;61018;24114];
 [30317;24120;61019;20062;17779;17986;30318;61025;30319;61026;13110;12629;61027;24126;24129;20035];
 [30320;19812;61028;30321;24136;24130;24127;61030;20052;24133;61031;61032;61033;15690;24135;24140];
 [30322;17777;24138;30323;30324;30325;24132;61034;17208;24139;24128;24134;61035;24141;12412;24131];
 [24142;16188;15711;18981;61036;14894;24123;24137;17722;30326;16438;13161;14929;15940;24125;15682];
 [14156;24124;61021;24146;15725;14394;24161;61038;24155;13684;17743;61039;24150;24159;12335;12594];
 [61040;12857;24152;16940;24143;24145;14657;61042;30328;61037;24162;24157;61043;24149;24156;30329];
 [61044;61045;19499;61046;61047;24154;24158;61048;61049;61050;61051;14416;61052;15941;17209;30330];
 [30331;24148;61053;19759;24151;24144;17778;24147;24153;20305;15422;19326;24163;18478;24175;14395];
 [61217;15712;24165;20015;14658;24178;12398;24176;61218;24164;30332;24170;30333;24172;61219;19791];
 [24167;17710;24169;61220;30334;24177;61221;24171;19527;30497;24166;61222;15394;24190;30498;13162];
 [24168;24173;24174;61223;17004;16986;61225;24182;24188;24186;17705;24355;24183;61226;61227;24184];
 [24160;13689;18746;15423;14711;61228;61229;20275;30499;24180;24354;12649;16742;61230;30500;18297];
 [13377;20090;61231;30502;19489;17490;30503;24187;24189;30504;61224;61232;16690;61233;24353;24185];
 [24179;13379;30505;61235;14185;61236;24367;30506;61237;24362;16504;30507;13155;61238;30508;30509];
 [15713;24371;61239;24364;17452;24361;17497;24396;24358;24357;24366;61241;30510;24360;24359;24365];
 [16417;24356;30511;30512;30513;24368;61242;24369;30514;61243;13378;61240;61245;30515;24374;24373];
 [24375;61246;30516;24378;61247;17731;24372;61249;30517;24376;30518;61244;14179;17017;24370;18235];
 [24377;30519;61250;61251;30520;24382;24380;24383;61252;24386;61253;24379;14698;18216;24121;61254];
 [19828;24381;24385;17013;30522;24384;24363;30523;28521;30521;24389;61256;24393;61257;24391;30524];
 [30525;61258;24387;61259;24388;24392;24390;18766;24398;24395;24394;24397;18004;24399;61260;17269];
 [17005;30526;16421;24400;24402;61262;61263;61264;24401;61265;61266;30527;61267;24181;30530;24403];
 [61269;18023;30528;30529;24404;30531;61270;61271;12880;61272;61273;17780;13093;30532;61274;13668];
 [15454;14930;61275;61276;30533;61277;20263;16230;12650;24406;61278;61279;24405;61282;30534;30535];
 [24409;17210;24412;24407;61283;24411;30536;24410;17728;12377;61280;20085;61286;24414;12584;61287];
 [61288;30537;30538;24416;61289;24415;24413;30539;61285;24408;19235;24418;61290;61291;61292;61293];
 [61294;24417;61295;30540;12651;24420;18994;24419;30542;30543;19509;15943;30541;30544;61297;30545];
 [61298;16691;15942;30546;30547;20091;61300;24426;16505;61299;30548;30550;61301;24422;24427;12652];
 [30551;61302;30552;24425;18273;24421;24424;15944;30553;18513;24428;15441;16506;61305;24431;30555];
 [30556;24423;14119;24429;30557;19792;24432;61304;29734;61306;15695;61307;61308;24433;24434;61309];
 [61310;18222;61473;24436;30559;24437;30558;18227;30560;17781;24439;61475;24441;20053;24438;61476];
 [24440;12653;24435;61477;61478;21339;24442;16743;15160;24444;24443;16164;21081;24445;24609;24430];
 [24446;30561;24610;30562;18298;61479;24611;24612;30563;24613;24614;17502;61482;24616;24615;24617];
 [24618;61483;15455;18787;61484;61485;19564;24619;24620;16726;15396;24621;24622;61487;24623;19026];
 [18503;24624;18263;17453;61488;30564;30565;61489;24625;12903;13677;19526;19510;12852;20276;61490];
 [19282;18986;61492;61493;16439;24626;61494;17987;14371;24627;61495;14932;24629;24628;24630;30567];
 [61496;24631;24632;30568;13630;24633;24634;14372;61498;61499;18504;61500;61501;24636;15989;24635];
 [30569;30570;61502;13880;24637;24639;24638;61504;24640;14417;24641;13929;16704;14717;24643;24644];
 [24642;15469;17992;13881;61507;24646;17196;24645;61508;30571;20277;18274;61509;24649;61510;24651];
 [24648;61511;61512;19540;24650;24652;20036;24656;30573;30574;24655;17270;18221;61515;14373;24654];
 [61516;61517;24653;19761;19762;61514;61518;24657;12654;14710;15202;24658;24659;30576;61519;24661];
 [15683;30577;24663;24662;61521;61522;61524;61525;24664;61526;13133;24666;61527;24665;24668;24667];
 [30578;61528;14396;61529;20008;13900;61530;12838;61531;30579;13930;61532;61533;61534;30580;30581];
 [30582;61535;30583;61536;13409;30584;20072;24670;61537;61538;61539;24672;61540;61541;24673;12881];
 [61542;24669;30585;15161;61543;17473;24671;30586;30587;30588;24676;15470;61544;30589;24674;61545];
 [30590;14142;18505;24675;24702;24681;61546;61548;14397;61549;13669;24678;19837;30753;20016;30754];
 [61547;30755;30756;17014;61550;24680;30758;30759;30760;30761;30762;30763;30764;30765;61551;24682];
 [20054;13911;18556;18250;61552;24683;24685;61554;24688;61555;30766;30767;30768;30769;61556;61557];
 [61553;24684;30770;24687;14442;12621;24689;61558;16240;24686;20060;30771;24692;29732;24690;24693];
 [30772;30773;24679;24691;61559;14908;24694;24695;61560;19838;61561;30774;30775;61562;30776;24696];
 [30781;61564;61565;30777;61566;30778;24697;30779;61729;61730;24677;30780;61731;30782;24698;30783];
 [30784;61732;61733;13380;30785;61734;61736;61735;15397;30786;30787;30788;24699;24700;24701;61737];
 [61738;30789;12603;61739;24865;18747;24866;13348;24867;24868;61741;24869;61740;24871;24872;24870];
 [18771;24874;24873;61743;30790;30791;24876;24875;24877;24878;24880;24879;14713;24882;24881;30792];
 [13381;16211;17724;24883;16440;61745;15162;61746;12665;24884;19793;61747;19043;24885;30793;17732];
 [19763;14659;16189;17227;21044;17454;12904;24886;61750;61751;61752;24887;24892;61753;24890;24889];
 [23106;13094;24888;61754;12378;61755;18474;61756;18506;20017;24893;24891;17244;16422;18475;18733];
 [24895;20012;14157;24896;24894;18518;24897;61757;24898;30794;12379;61759;61758;15990;24903;24900];
 [18029;24899;30795;61760;61761;61762;13606;61763;24906;24901;24902;24905;24904;18725;61765;16706];
 [16705;13631;30796;24907;24908;24909;61767;24911;24910;12630;61769;24919;18536;24913;24915;61770];
 [24917;16190;24918;24916;15424;61771;61772;24912;24914;18754;61773;15945;24921;24920;30798;61774];
 [24922;61775;15398;14895;17783;24923;17483;61776;24925;61777;61778;20001;24924;30799;61779;16745];
 [61780;61781;24930;61782;24932;24933;17236;61783;24931;24928;24926;24927;30800;24929;30801;61784];
 [61786;30802;24936;24934;24935;61787;61790;30803;30804;61785;30805;61791;61792;30806;24937;24939];
 [24940;24941;24942;61794;32381;24938;61795;30807;24944;61797;24943;30808;24945;61796;61800;20037];
 [30809;24948;24946;24947;61802;30810;13410;19582;61803;19018;24950;24949;24951;24952;30811;30812];
 [24956;24953;24954;24955;24957;30813;61805;30814;24958;30815;25121;25122;25123;18479;17744;25124];
 [18290;18740;25125;30816;25126;17706;13095;14660;25127;25128;25129;15145;25131;61806;25130;25132];
 [25133;30817;61807;30818;30819;61809;61808;30820;61810;61811;30821;18537;61812;25134;25135;30822];
 [29545;25136;25137;25138;15150;25139;18262;30823;19295;12622;61814;12631;30824;25140;30825;25142];
 [30826;25141;17776;16441;23865;25143;19521;25144;13382;18519;25145;30827;25146;61816;25147;61817];
 [19548;30828;19541;17470;16746;25149;30829;15714;15946;25152;25151;25150;18557;30830;13383;14377];
 [61819;30831;61820;25158;25155;16191;19506;25154;25156;25157;25153;61821;30832;61822;30833;25159];
 [25160;17455;13411;17253;30834;25161;30835;30836;61989;25162;25165;30837;30838;61990;16231;30839];
 [17988;25166;19283;25163;61991;25164;61993;25169;30840;61994;61995;25168;25167;30841;25171;25170];
 [25172;30842;61998;25174;61999;25173;62000;62001;19021;62002;30843;15702;20038;25175;17975;25176];
 [25177;25181;25179;25180;25178;25182;25183;25184;25185;19511;25186;62003;62004;30844;19568;25187];
 [62005;17230;62006;18282;13931;62007;62008;17211;25188;13882;62010;16464;62011;62012;25189;14909];
 [62014;62015;62016;25190;62017;25191;14374;14933;62018;25193;62019;17750;14934;13646;62020;30845];
 [19236;18251;17751;14684;31009;25195;62021;31010;31011;31012;15947;62022;31013;62023;20018;14661];
 [31014;14375;18467;25197;25199;14443;25198;17526;62025;25201;13111;25196;18538;12592;62026;14956];
 [20306;25200;62028;62029;62030;25202;62027;19019;16473;25204;31018;25205;31016;25203;13134;62031];
 [25211;25210;15399;25212;25207;62032;25213;25208;62033;62034;18520;25206;25209;62035;25378;62036];
 [62037;31019;62038;25377;19297;25214;12395;31020;25380;31022;62039;62040;62041;25379;62042;31021];
 [15948;25381;16707;62044;25383;25382;25384;62045;31023;62047;25192;25194;25386;25385;31024;62046];
 [31025;31026;15400;62048;20073;15442;25387;14135;31029;31030;13632;13607;15203;62049;19764;25393];
 [25392;16708;25389;62050;25391;62051;31034;15691;16192;25390;25388;18218;15949;62053;18748;14935];
 [62054;17784;31038;25394;25395;25417;13912;20285;16693;25396;12882;17527;18977;62055;62056;62057];
 [31042;62058;25397;62059;13690;25398;62060;25400;25401;18217;31043;25402;62061;31044;25403;25404];
 [62062;13913;12883;17989;15656;15204;62063;62064;31045;25405;31046;15657;62065;62066;12874;18755];
 [31048;25406;62067;18539;31049;16709;25409;25410;18281;16193;25407;17249;31050;25408;31051;15950];
 [12380;13609;31052;25411;62072;17528;25412;16455;62073;19501;62074;18723;25413;25414;17237;62075];
 [20039;62076;25416;25415;62078;15471;25418;12400;25421;62241;31054;25419;12884;14158;25420;14662];
 [14706;19046;25422;19284;62242;25424;62243;16465;12623;12858;12332;62244;25423;62245;62246;31055];
 [62247;62248;25425;25426;15991;62249;25427;62250;13135;31056;25429;14186;62251;13670;62252;25430];
 [13941;25431;16508;17997;62253;16480;14965;31058;25432;62254;62255;17250;16747;25434;25436;25433];
 [25435;14114;31059;62256;25437;14118;62257;13671;19794;25439;31061;25440;62260;12590;31062;62261];
 [62262;25443;13174;25442;25441;25445;25438;25446;20009;62264;25447;31063;25448;62265;21620;25450];
 [25449;25451;25452;20021;25453;28783;15951;25454;25455;15703;17976;25456;62266;62267;17192;31064];
 [25457;17212;25458;62268;13861;20799;17245;15411;31065;13384;25459;25634;25462;62271;13672;25461];
 [25636;25460;15952;31066;25464;25465;17707;25466;13150;16218;18788;62274;25468;62275;17000;31067];
 [62276;62277;62278;25463;25467;25469;14971;31068;62273;62282;25638;18734;31069;18470;17785;13914];
 [25637;25635;31070;18485;25470;17246;17787;17786;62284;14966;25656;31071;62286;25640;62287;25642];
 [62288;25645;31072;25646;31073;25643;25644;31074;62289;25641;25639;62285;25633;62281;19023;12885];
 [25653;25650;25655;62292;62293;25654;18291;19495;15163;25648;25657;25652;62294;25651;25647;31075];
 [25649;13385;17213;16509;62296;18466;25662;62297;18468;62298;16481;25659;18511;62299;25663;19027];
 [17243;62300;25658;25660;25661;62303;62304;31077;31078;62305;25664;15428;17990;25669;25668;25665];
 [62306;20278;62307;25674;25678;25675;25671;31079;62308;25672;62309;25677;62310;62311;25666;21077];
 [25673;25667;25676;31081;25682;31082;13386;25679;62312;25680;25681;25684;31080;31083;31084;25683];
 [18550;25685;20092;19053;25690;25687;62313;62314;25686;16466;25689;25691;62315;25688;25695;62316];
 [25692;31087;62317;25693;25670;62318;25694;25696;62319;25697;31088;62320;62321;62322;19014;25698];
 [31089;19554;13902;14121;25699;18996;16232;19504;31090;25700;20019;31091;18292;16710;18228;15693];
 [12352;31092;25705;25703;25701;13345;62326;15953;25706;25704;25702;25710;25709;25708;25707;62328];
 [62329;25711;31093;25712;16442;62330;25713;25715;62332;25714;62334;14418;62497;16696;25717;31094];
 [17788;62499;25716;31095;25718;31096;18997;16748;14663;25719;62501;20040;62502;25721;25722;25723];
 [62504;25724;15205;25725;14159;13674;13610;25889;62505;19571;14664;25726;31097;31098;62506;25892];
 [19558;18236;18739;62508;31099;15715;25891;15443;14665;15206;13673;18998;25890;31100;62509;16711];
 [19266;14967;31101;15207;17501;25895;20063;14937;31102;25896;16194;25898;15954;14896;62512;62513];
 [25897;62514;31265;15658;14398;16712;25893;25899;62515;31266;25894;14160;25902;25906;14187;31267];
 [25901;62519;62520;25910;31268;14666;19821;12348;25907;13675;25904;62521;25905;62522;17789;25903];
 [25900;13096;16484;14376;31269;25912;62524;31270;62526;62527;25909;31271;62528;25911;25908;62529];
 [14161;16947;25913;16750;62531;25926;31272;25922;25916;31273;62532;62533;25920;15482;12381;25915];
 [25923;25927;14667;19542;17494;25917;62534;62535;25925;25914;17214;25919;12349;19530;62536;31274];
 [25918;13915;18540;31275;16749;20048;15727;25966;31276;62537;25928;62538;16510;25924;25929;25931];
 [17529;25934;31277;25930;62539;19028;13387;19531;12382;62540;25933;20093;62541;25932;12655;18028];
 [25935;31280;25942;25936;25943;62545;31281;25939;31282;62546;18299;62547;15434;25941;62548;25938];
 [25944;25937;15684;62549;31279;19237;62550;15692;25940;25952;25948;25951;25949;25953;25947;25921];
 [16467;18507;25950;62551;25945;31284;16673;14162;15659;31285;16165;16694;25956;25958;25959;25955];
 [25957;31286;25946;25954;25962;25961;32382;19322;14123;62552;62553;25960;25964;25963;25967;62554];
 [25969;15164;25965;62555;62556;25970;25971;31287;25972;31288;25978;17723;25974;62558;25973;25975];
 [25976;25977;62559;62560;25979;25980;13388;25981;25982;62563;62562;62564;62565;62566;26145;31289];
 [26146;26147;26148;62567;26149;26150;62570;26152;26151;26153;26154;26155;62572;62573;62574;26158];
 [26156;26157;14945;14163;62575;17238;18483;15728;18253;18541;26159;22637;62576;62577;26160;26162];
 [19813;26161;26164;26163;19795;26165;18558;62579;31291;26166;62582;31292;26169;62583;26168;26167];
 [26170;14130;16674;13633;62584;26174;26171;26172;26175;26176;26173;12585;31293;12839;62586;26178];
 [26179;26180;19810;31294;62587;15660;26182;26181;31295;31296;16233;26183;62588;62589;26184;26185];
 [13413;31297;31298;62590;13389;62753;26186;26187;31299;19293;19811;19796;20279;62754;14669;26190];
 [15444;26189;62756;62755;26191;15401;62757;16977;62758;26192;31301;14668;62759;19543;26193;26194];
 [26195;26196;62760;31302;26197;62761;62762;15402;31303;19565;31304;26199;31305;17215;26198;62763];
 [26201;26200;26202;16443;26203;26204;19001;26205;16751;26206;62764;26207;20094;26210;62765;26209];
 [26208;17456;62766;26211;16166;26212;62767;26213;20280;26214;26215;26217;26216;18469;18041;20286];
 [18473;26219;15955;18730;62768;26220;26218;62769;13390;14420;15208;62770;18542;62771;14378;19267];
 [26223;26221;14670;14671;12393;14952;62772;18265;12383;26228;62774;17216;31306;18264;16987;62775];
 [26230;31307;62776;26226;26229;26224;26227;19238;31308;14421;12413;26225;62777;26232;26233;31309];
 [17977;62780;13883;62781;26406;18237;15209;13884;16456;20294;19502;26231;16468;62779;62784;31310];
 [13651;26234;62785;26236;62787;62788;26235;62789;26237;17190;18238;62783;17457;62791;26403;26402];
 [31311;26238;16213;18789;26405;26404;14672;20307;26421;31312;26409;26410;31313;31314;62793;15472];
 [31315;26408;14712;26407;26411;17458;18978;16675;16988;26415;62795;26416;26412;62797;62798;26413];
 [26414;14673;26422;26418;62800;18790;19308;18728;26417;26420;26419;19268;26423;26424;62801;16695];
 [26425;26427;26431;31316;26428;26426;18239;26429;62802;26430;62803;12850;26437;26432;31317;26433];
 [31318;26434;16929;62804;31319;26436;26435;26438;62805;26439;26440;16195;62807;12905;26441;20055];
 [15403;62809;15661;15210;17239;26442;26443;12593;62811;26444;62812;26445;26446;62814;26447;26448];
 [13885;23082;26449;16485;26450;15435;26451;20528;26452;19038;13404;62816;16676;15704;18801;15662];
 [62817;62818;26453;14674;26454;18508;26468;62820;26456;62821;16969;18293;14399;26455;16677;62822];
 [26457;62825;62823;17530;62824;62827;62829;62831;26459;26458;26461;62833;26460;26462;31323;26464];
 [62834;26463;13391;26465;26466;26467;14897;20041;26469;16167;31324;12656;26470;26471;62838;62840];
 [26472;62841;62842;62843;12402;26473;31326;26474;62844;18791;15431;26476;31327;31328;31329;13097];
 [12338;62845;62846;31330;26475;26478;18254;31331;16196;12886;63009;19239;63010;31332;14173;13916];
 [63011;26477;63012;12906;31333;31334;13347;31335;12657;26482;20074;16989;31336;18756;26494;12887];
 [26492;26490;26481;26479;63013;26480;15459;13932;17271;63014;18001;12625;26484;26483;63015;26489];
 [26485;26488;31337;31338;31339;31340;19536;26487;12888;13181;26491;63016;63017;26493;63018;14164];
 [26659;26668;26669;63020;12331;63021;31342;26676;12401;26667;31343;26666;63022;26661;26660;26658];
 [26657;17251;17019;26663;31344;63023;26662;31345;63024;26665;31346;16752;14165;12609;26664;31347];
 [14675;63019;31348;63025;16753;31341;44618;26682;26683;12889;12846;26680;31349;63027;26670;31350];
 [26678;26685;26679;63030;26677;31351;26486;63031;63032;26675;31352;26671;63033;63034;13392;26673];
 [26684;26674;31353;26686;31354;26672;18300;19817;26681;26703;31355;31356;26695;16251;31357;63035];
 [13638;13917;26690;31358;63036;31521;12891;63037;15956;26693;14938;63038;17745;26698;31522;63039];
 [19054;31523;26689;12890;14422;18729;26699;26687;26696;63040;26706;26691;31524;26692;17978;31525];
 [26697;31526;26694;19240;26700;12384;63041;63042;26688;63043;63045;26702;26701;18283;26708;26719];
 [13182;26722;26704;63046;26709;19822;26718;31528;19797;63047;20010;63048;63049;63050;17272;63051];
 [63052;13163;63053;31529;18802;26724;17953;63055;12337;26717;26713;16754;26707;26715;26720;31530];
 [18220;31531;12330;63056;26712;63057;26721;18808;63058;63059;26716;26711;31532;15957;15663;15404];
 [63062;19544;18759;31533;26727;26736;63063;26714;31534;13175;31535;15992;26725;31536;26730;16755];
 [63064;26726;31537;26733;31538;17247;26734;19798;26723;13112;26729;63066;63067;26732;19500;63068];
 [26735;26728;26731;63061;63070;63071;19241;20257;63072;63073;63074;26739;63075;26746;63076;26738];
 [15427;26705;63077;19022;19490;26745;26744;26740;26741;12598;63078;31541;26743;26737;31542;63079];
 [63080;17493;63081;26742;12414;31543;31540;63082;16930;19011;63087;26747;26913;18521;26750;15958];
 [15433;26915;13886;63083;63088;63089;26916;18809;26749;31544;26710;63090;63091;63092;26748;31545];
 [20303;17954;18803;26923;63084;26929;31548;63094;63095;26930;63096;26917;63097;18294;63098;26927];
 [26919;26921;31549;31550;26931;26920;63099;26924;12658;18021;26925;26928;63100;63101;31551;26918];
 [16678;26922;15143;16197;14128;19572;31547;19577;15730;31552;63267;26935;26933;63268;20302;63269];
 [26932;63270;31553;19829;31554;26934;26936;26937;63271;63272;26940;26938;63273;63274;17955;26939];
 [63275;18509;26926;31555;63276;15731;26941;26946;16756;26945;31557;63277;26914;31558;31559;26947];
 [16713;26942;26944;31560;63278;31556;26943;23857;23842;31562;26949;63279;63280;26948;63281;63282];
 [31563;19830;25148;26950;31564;63284;63285;26951;63287;12136;26952;14423;13652;63289;26954;20829];
 [63290;31565;13685;31566;20026;13939;26955;31568;26956;17262;31570;63291;26957;31571;63292;18042];
 [63293;12346;63294;63295;12899;26962;26963;63296;63297;26958;15165;31572;63298;63299;26959;18242];
 [63300;26960;26961;26971;26965;26968;63302;63303;26964;31573;63304;63305;26966;26967;15448;26969];
 [17217;14166;13122;63306;26972;63307;63308;13119;26977;26973;26976;63309;18490;63310;26974;26975];
 [18760;18522;26978;17021;26988;31574;26984;31575;31576;12907;26982;19242;26983;63312;26980;63313];
 [26981;26986;26989;31577;26987;63314;63315;26985;26979;63316;17240;63317;26996;19498;63318;63319];
 [63320;26994;26995;63321;26990;26992;63322;26993;63323;26991;63324;63325;16486;20281;27000;27001];
 [63326;27169;16170;27003;63327;27006;26998;26997;27170;63328;63329;12892;27004;27171;27005;31578];
 [63330;27002;17459;26999;63331;18280;27175;31579;31580;63335;63336;19771;63337;27174;63338;27173];
 [63334;27182;31581;31582;27176;27184;31583;19814;27187;27178;63341;27179;63343;27183;27186;27185];
 [27177;63344;27180;27197;31585;63346;27190;63348;63349;63350;63351;63352;31586;63353;27188;27189];
 [63345;27194;27195;13098;13634;27193;63354;63355;27172;31587;31588;63356;27192;27196;27191;31589];
 [27198;63357;31590;27200;27199;31591;27202;27201;26970;27206;63358;63521;27203;63522;27204;27205];
 [27207;63523;14188;27209;27208;15664;63525;14676;24103;27210;15697;13113;63526;27211;12626;15959];
 [27212;63527;14677;27213;12385;63528;18749;63531;27214;63533;16234;27221;27218;17263;27219;27216];
 [13918;27215;27222;14134;16990;27228;27224;16949;27223;31592;27226;27217;63534;27227;27229;31593];
 [18543;27225;27230;27232;14419;27220;12353;63535;63536;63537;27231;63538;14939;20086;27233;27234];
 [16757;31594;31595;20002;63541;63539;63542;27235;19765;27236;27237;63543;19044;27238;14912;20003];
 [27243;63544;63545;27244;15960;27242;31597;19815;27239;27241;16445;16254;63547;27240;27245;18979];
 [27247;27246;13164;19243;27248;31600;31601;31602;31598;27260;27250;27251;31603;27252;27253;31604];
 [31605;27257;63549;27258;31606;27256;31607;27254;63551;27249;27255;63552;63553;27259;28727;12840];
 [27262;13919;27261;63556;27426;27425;27428;27427;27429;15665;27430;27431;27432;16446;63557;19799];
 [27433;18980;18246;27434;63558;27435;14379;13612;63559;27436;31608;15211;18241;27437;13136;63560];
 [27438;27440;19831;27439;16198;27441;27442;63561;27443;13393;63562;27444;27445;27446;27447;13137];
 [31610;63563;63564;27448;27449;27450;12914;31611;16168;27451;63565;63567;63568;27452;31612;27453];
 [63569;63570;14400;17531;27454;14167;16214;27457;17956;27456;63572;31613;14129;63573;31614;27455];
 [17015;13613;27458;27459;15961;63575;31777;14189;27460;19244;16479;13686;19573;16714;63576;27461];
 [31778;16199;17264;15962;63577;27462;63578;27465;31779;27466;63579;31780;14910;16962;27464;15963];
 [18750;63580;27463;31781;15212;12627;31782;27470;14168;15214;15213;20301;27469;27468;16679;13645];
 [20291;13114;15964;31783;31784;27467;27472;27473;27471;14424;19776;15215;18215;63582;27476;16448];
 [17218;19766;27479;14444;16447;27475;27480;14445;27477;27478;31785;27474;16482;17993;63581;17199];
 [12893;63583;18544;13635;63584;17460;27483;27481;17228;16449;13394;27482;16219;31786;20042;20288];
 [63585;27484;27495;17461;27494;31787;27491;27499;27492;27488;17532;27487;27485;19745;15216;27489];
 [27486;31788;31789;27493;15732;14401;63586;17018;19269;12634;12386;17957;63589;27497;63588;27496];
 [63590;18022;27501;27490;27500;27502;14380;27498;14678;63591;15445;63592;27503;19800;27506;27509];
 [27507;18741;63593;27504;13920;27508;27510;63594;31793;27514;27511;27513;27512;63596;31794;27515];
 [15409;31795;27517;27516;18792;63597;27681;14169;31796;27518;27682;27683;13636;26177;15993;27684];
 [63598;14446;27685;63599;27686;63600;15166;23118;63601;27687;27688;15666;27689;27690;63602;63603];
 [27691;27692;27693;63604;31797;63605;17195;63606;27694;63608;27696;27695;63611;17958;63612;27697];
 [31798;19245;27698;27699;63613;27700;63614;27701;63777;18010;15965;27702;31799;63778;14699;20526];
 [27703;63779;63780;27704;18751;27705;27713;27706;27708;27707;27709;19270;27710;27711;63783;63782];
 [27712;27714;63784;63786;13101;17511;18793;14946;14679;63787;18767;12895;18510;27717;13395;16469];
 [27716;27721;17273;19555;27719;27720;13614;27722;18275;16991;18545;17725;27718;19271;12908;27724];
 [20264;17474;20293;15217;27723;16945;27740;16680;18040;18768;63789;63788;63790;27727;15167;15218];
 [15966;18277;31801;14381;27726;27725;18794;15425;17746;63792;63793;31802;31803;27729;27730;14680];
 [27728;31804;27731;27732;27734;16931;63795;27733;13414;27736;63796;27735;27737;31806;27739;27741];
 [27742;31807;16470;15439;27743;13138;63797;27744;16758;27745;27746;18795;13615;27747;63798;17462];
 [12635;63799;27748;15473;63800;16246;31808;16941;27751;27750;27749;63802;63803;27757;27755;31809];
 [27752;31810;27754;31811;63804;27753;27756;13687;27760;16471;27761;14425;27758;27759;63805;20265];
 [17463;16681;27762;63808;27765;63809;27763;27764;19801;63806;17959;27768;63811;63812;27766;27767];
 [27769;31812;63813;63814;31813;63815;27945;27772;27773;27771;63818;63819;31814;27770;17533;27937];
 [27941;27938;27774;63820;27939;27940;63821;27947;27942;16472;27944;63822;27946;27943;63823;63824];
 [63825;31815;27949;15667;27948;31816;27950;27951;27954;27953;27952;27956;27955;19574;27958;27957];
 [27959;63826;27960;63827;27962;27961;16200;27963;63828;13933;27964;27966;63829;63830;63831;63832];
 [27967;31818;27968;27965;27969;15446;27970;13616;14131;63834;14382;63835;27971;18032;17726;27972];
 [27975;15412;63837;31820;27974;27973;14170;27976;63839;13139;27978;63840;14940;27977;27986;27980];
 [27982;19045;27979;63841;27981;27985;27983;13617;31821;27984;27987;18266;20056;63842;31822;15668];
 [27988;31823;19746;27990;27989;27993;19777;63843;27992;13165;27991;27996;27995;63844;27994;17714];
 [27997;31824;27998;63845;27999;14700;14117;28000;28001;28002;16201;28003;15405;28004;28005;63847];
 [31826;21025;20862;28006;25968;28007;17188;16171;18240;63848;31827;63850;28008;19029;17492;14718];
 [17193;63852;12586;19320;16215;63853;63855;63856;14174;13921;63857;19030;63858;28009;63859;28011];
 [31828;28010;12896;31829;18038;28012;18295;17715;31830;28013;15698;63860;28015;63861;19522;28030];
 [28017;28018;63862;17481;16992;16759;63863;17960;28016;13653;31831;28025;63864;28022;28197;17961];
 [17248;28019;17534;17747;28020;28024;16224;18279;17484;16450;28023;16942;16932;28021;12329;20258];
 [28026;31832;16993;15669;16202;28028;28027;63865;12399;28029;18735;28199;18011;16235;63867;63868];
 [17241;13944;28198;19767;12607;19031;12897;28193;28194;28195;28196;17979;17187;12387;28200;28201];
 [29731;16957;63869;28202;12659;16716;14383;19802;28203;17708;16760;15447;28204;28207;15717;28205];
 [16683;16682;12388;20043;28209;18546;28211;28210;28208;25444;13396;64034;28014;31834;28213;28212];
 [64035;28214;64036;19768;31835;31836;31837;31838;64038;31839;18017;19246;28215;15449;28216;64040];
 [28217;31840;28218;64041;17697;31841;12394;64042;31842;31843;31844;64043;14681;20282;31845;28222];
 [64045;31846;31847;64046;14132;28219;28220;18804;64051;13140;31848;64049;31849;19769;64048;13887];
 [17748;64052;64053;64050;28223;64054;64055;28224;31851;31852;31853;64056;28225;64057;64058;31854];
 [31855;31856;17698;31857;28227;31858;28226;31859;64059;64060;64061;31860;64062;64063;31861;18003];
 [28228;15670;15456;18267;17265;15474;16236;28229;64064;28230;64065;31862;64066;16221;28231;64067];
 [28232;28233;19823;15671;28235;28234;64068;14682;14707;15168;64069;28238;31863;64070;15718;28237];
 [28236;17001;64071;14447;16451;18480;15673;31864;28239;15967;64072;28242;28240;31865;64073;28241];
 [31866;64074;28244;28243;64075;15994;28245;31867;28246;28247;64076;64077;18512;14931;15457;28248];
 [28249;20004;15685;19566;20044;28250;13922;28251;31868;17699;64078;28254;13176;16203;28252;28253];
 [17504;31870;32033;19285;13948;64081;32034;64082;32035;28256;28257;31869;28255;28259;64083;32036];
 [64084;18015;13123;32037;28263;28260;28262;64085;64086;28258;28495;28261;64088;20075;14426;32038];
 [32039;32040;32041;28271;32042;64089;32043;17716;28266;64090;28269;28267;64091;28272;64092;32044];
 [28273;64093;64094;28265;64095;28278;12660;28264;64096;64097;18477;28268;64098;15968;64099;64100];
 [14683;32045;64103;64104;19272;64105;13924;15686;17980;32046;64106;64107;16685;28276;28270;28275];
 [64108;19523;64109;17464;28277;28274;64110;64111;64112;16684;64115;28281;28280;64116;64117;32047];
 [64118;32048;32049;64119;28279;64120;19247;32050;64121;64122;32051;15739;64123;64124;28282;19039];
 [12628;18758;17266;64290;13688;64291;28284;64292;14685;32052;64293;32053;15148;64294;28283;16237];
 [64125;64295;16238;28449;28451;64296;64297;32054;15995;32055;28450;28452;32056;13907;64298;18757];
 [64299;15458;20259;28286;14968;20287;28454;28453;28455;28285;64302;32057;32058;32059;18025;17749];
 [64303;17495;28460;64304;64305;17219;28456;28457;32060;32061;32062;64306;14125;28459;32063;64307];
 [64308;14384;28458;15969;64312;64313;13177;64314;28464;14911;16761;17482;32064;64315;64309;32065];
 [13115;28462;28463;17475;28461;28465;32066;64320;28471;32067;64321;28474;28473;17709;28466;28467];
 [28470;64322;28472;32068;32069;13888;64323;28475;28469;64324;28468;64319;64316;64329;32071;28479];
 [32070;28480;64325;64326;28481;28478;28477;64327;64328;15970;17962;28476;28485;28483;64330;32072];
 [64331;28484;28482;17016;28486;64332;28487;28489;64333;32073;13397;28488;19578;28500;28490;28493];
 [28491;28492;32074;28494;32075;64336;64337;28496;32076;32077;28497;28498;28501;28499;28502;28504];
 [28503;17465;64338;64339;19559;28505;16686;64340;28506;19012;28507;13099;64341;64342;32078;12604];
 [13399;13398;28508;28509;28510;28511;32079;28512;13400;13141;14686;18486;32080;28514;28513;32081];
 [64344;32082;28515;12636;64345;32083;28518;28517;28516;32084;28519;28522;12359;64347;28520;32085];
 [28524;28523;32086;32087;28526;28525;28527;17966;32089;28528;32090;28529;28531;28530;18796;64037];
 [28532;28533;14949;64350;28534;28535;19273;64351;64352;16715;64354;12324;16971;64355;28536;18797];
 [28539;28537;14687;28538;14402;32091;19013;28541;28705;28542;28706;64356;12577;16216;15740;13401];
 [28707;18278;28709;12578;28708;17476;20045;17963;28540;20006;14385;19803;64358;32092;13945;20020];
 [14120;16994;26401;28710;13100;16239;13142;28712;28713;28711;14180;64360;14941;15971;32094;12579];
 [20057;32095;32096;28715;28206;64363;28714;64364;28718;28716;28717;64365;28719;28720;20076;28721];
 [28722;64366;16457;18491;64367;16253;13415;19770;12909;15672;14427;28725;28724;15219;28726;28723];
 [15144;32097;28730;27181;64370;21078;64371;16247;28728;64372;32098;20005;18033;12587;32100;16483];
 [15414;32101;18999;12608;20077;19819;28731;17733;15483;28732;28733;16204;28734;20078;28729;28736];
 [28738;28737;28735;64374;28739;28740;16762;12898;64375;28741;19512;28742;28743;20266;32102;64377];
 [23345;28744;32103;28745;28746;64378;28750;28747;28748;64379;28749;28751;32104;32105;32106;16452];
 [64380;19575;64381;16453;32107;64382;28752;18547;28753;29523;19532;28754;28755;28756;13143;64545];
 [28758;16217;32108;28759;32109;14116;28760;28764;28762;28763;13171;28761;28765;28766;12360;28767];
 [28768;32110;64548;15972;64549;28769;64550;13639;64551;28772;28771;28770;27505;19036;32111;64552];
 [64553;28773;28774;32112;64554;32113;28775;28776;28777;32114;28778;64555;64556;13402;64557;64558];
 [64559;32116;28779;32115;64560;28780;18211;64561;28782;12859;32117;28785;28784;12580;13889;19015];
 [17466;14882;64562;14688;15719;16220;32119;28787;64563;64564;28786;19778;13416;18514;18012;64565];
 [64566;16252;20046;14171;32120;28790;64569;28789;64572;32121;19275;17964;32122;64570;64571;12624];
 [28791;28788;18769;19818;28792;28793;64573;28795;17002;13147;13148;28794;32124;32125;13417;14386];
 [32126;32289;13418;32290;32291;17727;20064;32293;64574;14428;28796;32294;28797;28798;28961;28963];
 [28962;18807;28964;64575;64576;28965;64577;28966;28967;64579;64580;32295;64581;64582;64583;64584];
 [28969;28968;28970;64585;32296;64586;18548;26188;16169;64587;64589;13618;64590;64591;32297;28971];
 [64592;28972;21036;23867;18515;64593;64594;12411;64595;12347;15220;19248;15998;28973;19551;64596];
 [28974;19804;12610;15169;28975;12910;28976;64599;64600;28977;64602;64603;64604;28979;28980;28982];
 [28978;28981;13403;28983;28984;64606;64607;64608;64609;64610;64611;28985;28986;64612;64613;28987];
 [28989;64614;28988;28991;28994;64615;64616;28990;28992;28993;28995;13890;32298;64617;64618;64619];
 [15475;28996;28997;14689;32299;64620;28998;64621;13118;18255;28999;29000;17242;18027;64622;29001];
 [64623;64624;18301;64625;16972;12632;13934;13935;64626;17267;29006;13936;64627;12911;29005;64628];
 [29003;29004;64629;29002;29016;29007;29008;64631;29009;29010;29012;64632;29011;64633;15705;29013];
 [32300;32301;29015;64634;13619;29014;64635;16763;14387;64636;29017;64637;64638;32302;16973;29018];
 [32303;32304;17965;64801;64802;29019;32305;29024;29022;29021;29023;64803;29020;32306;64804;29026];
 [32307;32308;29025;29028;64805;13891;29027;29029;29030;29032;29031;29033;29035;29034;14716;29036];
 [64807;29037;32309;64809;13116;64811;29038;29039;32310;32311;16241;64813;32312;29040;64814;29041];
 [64815;29042;29043;64816;32313;14690;64818;29044;29045;64819;29046;29047;64820;29048;64821;18481];
 [29050;18726;29051;29049;29053;29052;29054;32314;29217;32315;64822;29218;32316;64823;64824;64825];
 [64826;29219;29220;64827;29221;32317;29222;29223;29224;29225;29226;29227;29228;64828;32319;29229];
 [29230;23861;29231;64829;25720;13620;64830;13089;14898;29233;29232;19493;64832;29235;29236;29234];
 [29237;19298;29238;13691;32320;64833;64834;32322;64835;64836;20261;32323;64837;29239;32324;64838];
 [64839;32321;29241;32325;32326;12350;32327;29242;18987;29240;29243;29244;32328;29245;29246;64840];
 [32329;29247;19310;15149;64841;14970;16687;64842;64845;29248;64846;29251;64847;29249;32330;29252];
 [64848;14449;29250;32331;29253;29254;29255;29259;15146;64850;16996;64851;29260;29257;29256;29258];
 [32332;64852;14175;64853;64854;64856;64855;29264;29263;29262;64849;12339;64860;32333;64858;32334];
 [32335;29274;29270;29271;29267;29273;29269;13154;20300;29272;29268;29266;29265;64862;64863;64864];
 [64865;29276;64866;29279;64867;32336;29278;29277;64868;64869;64870;18761;29275;12403;29280;64872];
 [29282;64873;64874;13167;29261;12599;29284;32337;64875;29283;29281;17197;64878;64879;32338;32339];
 [19312;32340;64881;20058;64882;29285;64883;64876;64884;64885;29286;32341;32342;29287;64886;64887];
 [64888;64889;64890;64891;64892;64893;29288;32343;29289;64894;17467;65057;29290;18487;29295;29291];
 [29292;65058;19249;19524;18000;65060;29296;29297;17982;29294;29293;65059;12842;65062;29305;29304];
 [65063;65064;12661;32344;32345;29302;29301;29299;13179;29298;15410;12841;65068;14691;29308;29307];
 [29306;65070;32346;29303;29309;32347;29310;65071;29477;29476;32348;29478;12589;29473;29474;65072];
 [14708;19513;65073;32349;29475;65075;65076;19250;29483;32350;29479;65078;65079;65080;29484;32351];
 [65081;65082;29481;29480;32352;65083;14172;32353;65084;29485;65085;29486;29487;29482;32355;29300];
 [29488;17505;65087;29492;65088;29493;29491;32356;65089;65086;32354;29490;29496;65090;29489;29494];
 [65091;65092;29495;29498;65093;32357;29497;65094;65095;65096;65097;29500;32359;29501;29502;20297];
 [65098;29499;17003;14957;29503;65101;32360;65100;65102;32361;65103;29504;29505;65104;65105;29506];
 [29507;14388;29508;65106;32362;29509;15407;65108;29510;65109;29511;29512;29513;29516;29514;20284];
 [29515;20079;65110;29517;32363;20059;32364;29518;18302;65111;29519;29521;32365;29522;32366;32367];
 [32368;29520;14701;19533;19299;22135;65113;23904;19323;32369;12843;29524;13648;29525;29526;29527];
 [32370;14709;29528;24660;19547;16995;29529;29531;29530;65115;29532;29533;65116;29534;65117;29535];
 [29536;29537;29538;29539;29540;29541;29542;65118;65119;65121;29543;29544;17700;32371;14429;29546];
 [65122;65123;16717;29547;29548;65124;65125;32372;65126;18721;65127;29549;65128;65129;65130;29550];
 [25399;27738;28781;29551;65131;29552;65132;32373;65133;65135;29554;29555;29556;20080;29553;29557];
 [29558;65137;29560;29559;65139;65140;29562;65141;29563;29561;20022;32374;32375;29564;32376;29565];
 [25428;29566;32377;30267;29742;30030;31567;30281;32292;32093;12107;12119;20338;44665;30074;30554];
 [30575;31036;31037;31041;31546;63288;63301;31790;63854;31850;11832;11849;11856;11875;11880;11886];
 [12076;12079;12086;12122;12126;20321;20322;29776;29788;29790;29793;29992;29995;30019;30053;30313];
 [30327;30501;30549;61481;30757;31015;31027;31028;31031;31032;31033;31035;31039;31040;31053;31057];
 [31076;31278;62544;31283;31290;31300;31320;62836;62837;31527;31599;31609;31791;31792;31800;31805];
 [63849;31833;32099;32118;32123;9022;9021;8490;8752;8564;8560;8563;8565;8751;8522;8523];
 [8566;8540;8484;8753;8485;8511;9008;9009;9010;9011;9012;9013;9014;9015;9016;9017];
 [8487;8488;8547;8545;8548;8489;8567;9025;9026;9027;9028;9029;9030;9031;9032;9033];
 [9034;9035;9036;9037;9038;9039;9040;9041;9042;9043;9044;9045;9046;9047;9048;9049];
 [9050;8526;8512;8527;8496;8498;8494;9057;9058;9059;9060;9061;9062;9063;9064;9065];
 [9066;9067;9068;9069;9070;9071;9072;9073;9074;9075;9076;9077;9078;9079;9080;9081];
 [9082;8528;8515;8529;8754;8790;8791;8497;8559;11810;41249;41259;41262;41270;41286;41328];
 [41337;41335;41762;41765;41767;41777;41778;41784;41791;41793;41802;41810;41811;41817;41820;20308];
 [41847;42026;42042;42034;42033;42045;42073;12098;42076;42083;42078;42091;42090;42098;12108;42100];
 [42101;42277;42290;12128;42302;42311;20323;42325;42326;12155;42366;43056;43063;43064;43067;43066];
 [43077;43072;43071;43080;43082;43083;20334;43099;43110;43116;44066;65107;44075;44080;44112;44133];
 [44141;44146;44324;44338;44329;44330;44341;44340;44345;44374;44580;44413;30010;44579;44602;44610];
 [44605;44604;44612;44615;44617;44611;44629;44631;44630;44635;44663;44664;44842;30066;44866;44863];
 [44867;44864;44889;44878;30249;30258;44897;44906;44905;44912;44917;60963;60980;30304;61001;62581];
 [61020;61024;61023;61022;61234;61255;61261;61281;61284;61474;61491;61497;30572;61523;61563;61742];
 [61744;61749;61764;61789;61793;61798;61801;61813;61815;61818;61985;61988;61987;61992;61996;62013];
 [30846;62024;31017;62043;31047;62069;62070;31060;62258;62270;62269;62272;62290;62301;62302;31086];
 [62323;62324;62327;62325;62333;62331;62498;62500;62503;62511;62510;62517;62516;62525;62530;62543];
 [62569;62571;62578;62585;62773;62778;62790;62806;62808;62810;62813;62815;62819;62826;62832;62835];
 [31325;42308;63044;63054;31539;63069;63093;63265;63266;63102;31561;63283;63286;63333;63332;63339];
 [63342;63347;63530;63529;63532;31596;63540;63548;63550;63554;63574;63587;63607;63609;63610;63781];
 [63791;63794;63801;63810;63816;31817;63833;63838;31825;63846;63851;63866;63870;64033;64044;64047];
 [64080;64079;64087;64101;64102;64113;64114;64126;64289;64301;64300;64310;64311;64318;64317;64334];
 [64335;64343;64346;64348;64349;64353;64357;64359;64361;64369;64546;64547;64568;64578;64588;64598];
 [64601;64605;64630;64812;64843;64857;64844;64861;64859;64871;64880;64877;65061;65067;65065;65077];
 [65074;32358;65112;65114;65134;65136;65138;65142]].

(* lib/converters/jisx0213.h:4499-5856 jisx0213_from_ucs_level2_2indx (flattened, 2 fields per entry) *)
Definition jisx0213_from_ucs_level2_2indx : tab := mk [
 [0;0;0;0;0;65503;15;65503;30;65535;46;65535;62;65535;78;65535];
 [94;62463;108;16142;117;3248;122;26160;128;14750;137;65343;151;64575;163;32259];
 [171;0;171;8;172;0;172;0;172;24580;175;5463;183;0;183;8960];
 [186;0;186;55295;200;61939;211;28207;221;32542;232;8503;239;6;241;0];
 [241;4480;244;27395;251;992;256;0;256;39263;266;63232;273;38449;280;15889];
 [287;0;287;0;287;2;288;0;288;0;288;65534;303;1019;312;65534];
 [327;1023;337;0;337;0;337;0;337;2;338;65535;354;65535;370;65535];
 [386;65535;402;2;403;0;403;0;403;0;403;0;403;0;403;49152];
 [405;0;405;0;405;0;405;15;409;0;409;13145;417;103;422;38925];
 [428;900;432;2;433;0;433;0;433;0;433;0;433;4096;434;0];
 [434;32776;436;72;438;2178;441;32;442;0;442;56;445;4095;457;4095];
 [469;0;469;991;478;0;478;0;478;16;479;20;481;960;485;0];
 [485;2989;493;58380;499;24545;509;8240;512;296;515;4;516;3271;523;192];
 [525;3324;533;224;536;32;537;32768;538;0;538;3072;540;0;540;0];
 [540;96;542;260;544;0;544;0;544;0;544;0;544;0;544;49152];
 [546;24575;560;0;560;0;560;0;560;0;560;0;560;8;561;0];
 [561;0;561;0;561;65535;577;15;581;0;581;65535;597;64511;612;32767];
 [627;36879;633;14745;641;39225;649;39321;657;2052;659;0;659;0;659;0];
 [659;0;659;0;659;3;661;12494;668;51907;676;15;680;32832;682;0];
 [682;16495;689;16576;692;0;692;0;692;5;694;0;694;65535;710;0];
 [710;0;710;8;711;0;711;0;711;0;711;64;712;0;712;65472];
 [722;0;722;0;722;0;722;48;724;0;724;0;724;0;724;32768];
 [725;0;725;0;725;0;725;3072;727;65519;742;46079;755;1;756;14392];
 [762;65534;777;65535;793;65535;809;65535;825;65535;841;63615;853;65535;869;65535];
 [885;65535;901;65535;917;65535;933;65535;949;0;949;0;949;0;949;65535];
 [965;0;965;0;965;0;965;518;968;0;968;65534;983;0;983;0];
 [983;0;983;0;983;496;988;65534;1003;0;1003;65535;1019;12847;1027;1024];
 [1028;8200;1030;272;1032;2252;1037;2112;1039;9728;1042;130;1044;0;1044;30720];
 [1048;49152;1050;28672;1053;2;1054;0;1054;10256;1057;0;1057;0;1057;0];
 [1057;68;1059;0;1059;20480;1061;0;1061;0;1061;0;1061;1280;1063;0];
 [1063;0;1063;4;1064;0;1064;4128;1066;130;1068;2048;1069;0;1069;0];
 [1069;0;1069;32768;1070;0;1070;0;1070;0;1070;24576;1072;16392;1074;0];
 [1074;0;1074;0;1074;320;1076;0;1076;32;1077;1024;1078;0;1078;16];
 [1079;32;1080;0;1080;0;1080;0;1080;1024;1081;0;1081;0;1081;0];
 [1081;0;1081;578;1084;0;1084;0;1084;32768;1085;0;1085;0;1085;0];
 [1085;0;1085;0;1085;6150;1089;32;1090;8192;1091;0;1091;0;1091;0];
 [1091;2;1092;0;1092;260;1094;8208;1096;1;1097;0;1097;32768;1098;64];
 [1099;1;1100;4096;1101;2;1102;0;1102;0;1102;0;1102;0;1102;1024];
 [1103;0;1103;1152;1105;0;1105;0;1105;0;1105;0;1105;32768;1106;0];
 [1106;0;1106;0;1106;16384;1107;8;1108;0;1108;192;1110;1024;1111;0];
 [1111;16384;1112;5120;1114;4;1115;0;1115;0;1115;0;1115;8192;1116;128];
 [1117;8576;1120;0;1120;16;1121;64;1122;8200;1124;0;1124;0;1124;1];
 [1125;32768;1126;0;1126;64;1127;0;1127;8;1128;4;1129;0;1129;0];
 [1129;0;1129;16386;1131;0;1131;0;1131;0;1131;0;1131;16;1132;0];
 [1132;0;1132;1024;1133;0;1133;0;1133;1;1134;16;1135;0;1135;0];
 [1135;32;1136;0;1136;0;1136;32768;1137;0;1137;0;1137;321;1140;0];
 [1140;8;1141;16;1142;0;1142;0;1142;0;1142;128;1143;0;1143;164];
 [1146;0;1146;0;1146;16384;1147;0;1147;512;1148;128;1149;0;1149;0];
 [1149;0;1149;0;1149;0;1149;512;1150;0;1150;256;1151;0;1151;0];
 [1151;0;1151;8;1152;0;1152;0;1152;32;1153;0;1153;0;1153;0];
 [1153;33024;1155;0;1155;8;1156;0;1156;0;1156;0;1156;0;1156;32784];
 [1158;0;1158;0;1158;16448;1160;8;1161;16512;1163;0;1163;0;1163;0];
 [1163;0;1163;0;1163;16;1164;0;1164;64;1165;8256;1167;0;1167;0];
 [1167;4;1168;0;1168;2048;1169;0;1169;8;1170;0;1170;0;1170;0];
 [1170;0;1170;0;1170;16384;1171;1;1172;256;1173;4224;1175;4;1176;0];
 [1176;0;1176;2056;1178;0;1178;1088;1180;0;1180;2;1181;0;1181;16392];
 [1183;0;1183;16;1184;0;1184;0;1184;8448;1186;0;1186;32;1187;0];
 [1187;8;1188;0;1188;0;1188;0;1188;0;1188;8192;1189;0;1189;256];
 [1190;0;1190;0;1190;1056;1192;0;1192;32768;1193;0;1193;0;1193;0];
 [1193;2;1194;0;1194;32;1195;0;1195;0;1195;0;1195;32770;1197;0];
 [1197;4096;1198;0;1198;0;1198;0;1198;0;1198;0;1198;16;1199;0];
 [1199;0;1199;0;1199;0;1199;8192;1200;0;1200;64;1201;0;1201;0];
 [1201;16400;1203;0;1203;0;1203;0;1203;0;1203;0;1203;0;1203;32];
 [1204;0;1204;0;1204;0;1204;1;1205;0;1205;0;1205;128;1206;1024];
 [1207;16;1208;0;1208;512;1209;0;1209;0;1209;0;1209;0;1209;4096];
 [1210;0;1210;0;1210;0;1210;2048;1211;1028;1213;4;1214;256;1215;0];
 [1215;0;1215;128;1216;1;1217;0;1217;16;1218;2;1219;0;1219;0];
 [1219;128;1220;0;1220;0;1220;0;1220;0;1220;0;1220;0;1220;128];
 [1221;61327;1233;17399;1243;65346;1253;39751;1262;59821;1272;59362;1282;516;1284;16394];
 [1287;32613;1298;64310;1309;31095;1320;7753;1327;60895;1340;59377;1351;26682;1358;43239];
 [1367;60939;1376;13379;1382;32768;1383;30161;1392;58312;1400;65531;1415;38417;1421;65001];
 [1433;44396;1442;11734;1451;59395;1457;49252;1462;52796;1471;44439;1481;49275;1489;17774];
 [1497;60007;1507;55135;1519;32766;1533;2624;1536;50127;1546;5353;1553;5224;1558;8565];
 [1565;8481;1569;6014;1579;13320;1583;19646;1592;63156;1602;18035;1610;25322;1618;2604];
 [1623;2911;1632;52724;1642;1026;1644;40100;1651;32763;1665;5301;1672;32549;1682;6634];
 [1690;48749;1701;9199;1711;16253;1723;12543;1733;15992;1742;30784;1747;26311;1756;26491];
 [1767;19935;1778;8446;1786;18096;1792;4041;1800;48792;1809;30960;1817;38458;1825;41151];
 [1834;9116;1841;35102;1848;48729;1858;24114;1866;14250;1875;60391;1887;221;1893;53165];
 [1904;44519;1915;14049;1923;33819;1929;53034;1938;10223;1949;21918;1958;53963;1967;44475];
 [1978;20;1980;42312;1986;25457;1994;2269;2001;32525;2011;36592;2019;65342;2032;1535];
 [2042;65306;2053;59399;2060;31697;2070;31552;2077;26445;2086;32802;2089;7492;2095;47355];
 [2106;64849;2116;4197;2121;64375;2134;62860;2143;991;2152;256;2153;62310;2163;41998];
 [2169;49875;2177;81;2180;51200;2183;21290;2190;38131;2199;28873;2206;27;2210;30720];
 [2214;20447;2226;63234;2234;32640;2242;32833;2245;21168;2251;46102;2258;540;2262;25216];
 [2266;17344;2271;2513;2277;33536;2280;43479;2290;21125;2296;18441;2300;48465;2309;1366];
 [2315;38337;2322;26160;2328;29477;2336;4188;2341;26415;2351;52618;2359;16649;2363;42701];
 [2372;44825;2381;37228;2388;41930;2396;2457;2402;62693;2412;3;2414;34642;2421;39097];
 [2429;2820;2433;29704;2438;5405;2445;265;2448;55753;2457;53468;2465;8281;2470;49137];
 [2482;3701;2490;25120;2494;33939;2500;9783;2508;7683;2514;18326;2522;2710;2528;21029];
 [2534;44584;2541;61593;2549;20224;2554;20234;2561;29866;2569;55230;2581;55861;2590;16031];
 [2601;48740;2610;8049;2619;32436;2629;24966;2635;50128;2642;44467;2652;30629;2662;12664];
 [2669;11294;2676;43596;2683;20792;2689;23044;2694;11080;2700;30239;2710;19960;2719;35136];
 [2723;12810;2728;38282;2735;41641;2742;4192;2745;579;2749;1056;2751;13540;2758;50304];
 [2762;2064;2764;56324;2770;133;2773;62506;2781;6678;2787;5313;2792;17003;2799;3105];
 [2803;6913;2808;704;2811;13348;2816;16469;2821;4139;2826;48631;2839;35704;2847;46379];
 [2856;48059;2868;49128;2879;20604;2886;33657;2894;21245;2904;59741;2914;23542;2925;58731];
 [2935;61438;2949;17486;2955;11037;2963;65283;2973;60771;2983;51243;2990;54207;3002;5699];
 [3008;38144;3012;32787;3016;16335;3028;24042;3038;2720;3042;517;3045;42755;3052;11345];
 [3058;26816;3063;45043;3075;2773;3082;514;3084;23748;3091;4109;3095;46594;3101;73];
 [3104;6550;3111;8853;3117;20629;3123;14229;3132;14848;3136;27086;3145;19455;3157;26814];
 [3166;6221;3172;44918;3183;59424;3188;25033;3195;21177;3203;49648;3210;30750;3218;65532];
 [3232;33946;3238;5344;3243;15585;3251;50144;3258;36686;3267;44621;3276;4879;3283;65499];
 [3297;65439;3311;63995;3324;41704;3331;29170;3340;21923;3348;13274;3357;16094;3368;62095];
 [3378;40895;3391;21391;3400;59287;3411;13240;3419;15032;3427;29660;3437;51735;3445;47403];
 [3454;57344;3457;15349;3468;36855;3480;1066;3484;15566;3493;34341;3499;48957;3511;32929];
 [3515;15898;3523;60660;3533;1993;3540;29055;3551;2528;3556;48954;3567;16779;3573;4095];
 [3585;58187;3594;56877;3604;6530;3609;62609;3617;32214;3628;42792;3635;51629;3644;20731];
 [3653;25732;3658;2015;3668;31664;3677;22084;3683;16328;3692;40993;3696;72;3698;62964];
 [3709;30465;3716;60535;3727;50766;3735;51485;3743;31691;3754;19822;3763;57627;3771;55882];
 [3779;1597;3786;23550;3798;6208;3801;14882;3807;47092;3818;15359;3831;61443;3837;61674];
 [3846;14222;3855;33539;3860;35200;3864;65060;3873;61978;3881;4769;3886;23456;3893;7364];
 [3899;54041;3907;35668;3914;8111;3925;26676;3931;33369;3937;7285;3945;31275;3954;1268];
 [3960;41536;3964;20697;3971;45924;3979;17488;3983;16388;3985;11522;3990;41601;3995;10056];
 [4001;392;4004;58414;4012;27184;4018;55813;4025;31926;4035;1461;4042;37119;4052;60630];
 [4062;32817;4066;29008;4072;40476;4080;52212;4090;41264;4095;25586;4104;6348;4110;1461];
 [4117;22462;4128;47747;4136;47282;4144;45989;4153;39550;4163;2708;4168;13287;4178;7686];
 [4184;55261;4196;53304;4202;44471;4213;38011;4222;56126;4233;61062;4242;65534;4257;3545];
 [4265;25499;4274;9159;4282;26693;4288;56118;4298;978;4304;15936;4310;4929;4315;65469];
 [4329;43819;4338;60156;4349;32192;4357;42458;4366;62402;4375;62043;4385;42111;4395;55551];
 [4407;6818;4413;15789;4423;33351;4429;3037;4438;50523;4447;28575;4459;53908;4466;55995];
 [4477;30;4481;57801;4489;15878;4496;31518;4506;29567;4518;47807;4530;18568;4534;54516];
 [4543;41006;4549;49113;4561;44525;4572;7807;4583;49016;4594;34805;4604;61883;4615;7815];
 [4623;64955;4636;7684;4641;1390;4648;43633;4656;1604;4660;30392;4669;65311;4682;63420];
 [4694;17415;4699;6518;4707;24801;4713;56471;4723;64651;4733;25419;4741;61324;4751;60028];
 [4761;39972;4767;61118;4779;19982;4786;61309;4799;19440;4807;35653;4814;2134;4819;50444];
 [4825;27161;4832;61587;4840;23599;4849;10504;4853;78;4857;64539;4867;5520;4872;11278];
 [4878;35888;4883;59591;4892;37003;4898;26532;4906;22216;4913;35673;4921;38655;4933;36792];
 [4942;11871;4952;18784;4957;60944;4964;64702;4976;60385;4986;36316;4995;55488;5001;32778];
 [5004;50468;5010;2203;5016;24;5018;50680;5027;24583;5032;65185;5042;9605;5048;25693];
 [5056;13182;5066;8189;5078;27654;5084;65290;5094;5750;5102;16121;5113;65327;5126;2059];
 [5130;23569;5136;51844;5142;52976;5151;64382;5164;50;5167;24320;5173;22137;5182;913];
 [5187;30631;5198;6970;5206;56320;5211;37172;5217;55797;5228;61287;5240;24402;5249;7914];
 [5258;4000;5264;61096;5273;64255;5287;21844;5294;65304;5304;55770;5314;51336;5319;49220];
 [5323;36869;5327;45385;5334;36004;5340;42198;5348;24254;5359;25146;5366;38912;5369;52116];
 [5377;38470;5384;1339;5391;39981;5399;53614;5408;34;5410;57238;5421;57687;5430;29969];
 [5437;29015;5446;33235;5453;33979;5461;21098;5468;1999;5477;52528;5484;55827;5492;22123];
 [5501;36579;5510;60706;5518;4552;5523;22021;5529;23688;5535;24850;5540;55864;5548;29025];
 [5555;18018;5561;33444;5566;63504;5572;3978;5579;36096;5583;45850;5591;4112;5593;8706];
 [5596;37848;5604;22032;5609;51267;5615;4163;5619;22208;5625;21103;5634;21493;5644;8192];
 [5645;34225;5652;35444;5659;53509;5665;17930;5670;19226;5677;37565;5686;28897;5693;55840];
 [5699;8385;5703;2081;5706;15616;5711;65397;5724;6597;5731;44012;5741;49806;5748;58132];
 [5755;24711;5761;2116;5764;61573;5771;16967;5777;20575;5785;2693;5790;12807;5796;16264];
 [5804;1152;5806;48068;5815;57248;5824;58074;5833;49200;5837;133;5840;56648;5848;7591];
 [5857;3762;5864;53616;5871;2917;5878;39596;5886;61221;5896;16960;5899;26283;5908;18178];
 [5913;1770;5920;3080;5923;56692;5933;34431;5943;10459;5951;65196;5962;44573;5971;16459];
 [5976;3050;5984;54149;5992;4079;6003;44577;6010;34560;6014;21840;6020;51917;6029;34247];
 [6037;28730;6044;54698;6053;40313;6063;32143;6074;65361;6085;15895;6094;48885;6106;59359];
 [6119;57030;6129;9238;6134;2092;6138;62383;6150;58605;6160;60220;6170;21149;6178;54815];
 [6188;43919;6198;56168;6207;8695;6216;6201;6222;7118;6231;4452;6236;63414;6248;32071];
 [6258;18907;6267;32361;6277;50627;6285;34769;6293;30572;6303;55508;6311;22010;6321;22806];
 [6328;8082;6336;52864;6342;8817;6348;5616;6355;24769;6360;40192;6365;3439;6374;62980];
 [6381;18433;6384;50194;6389;13877;6397;47689;6405;8320;6407;56448;6413;63229;6426;6169];
 [6431;12900;6437;564;6441;12515;6448;33812;6452;49320;6457;8194;6459;56592;6466;4116];
 [6469;29890;6476;58554;6485;42648;6492;23585;6498;23906;6506;1075;6511;37331;6519;28308];
 [6527;16515;6531;6663;6537;23648;6543;23571;6550;2019;6558;65001;6570;8613;6576;34436];
 [6581;58419;6589;10608;6595;18114;6601;61211;6612;16263;6622;49526;6630;15066;6639;2049];
 [6641;27913;6648;57266;6659;24577;6662;64390;6672;62157;6682;45761;6689;11919;6698;42865];
 [6707;1342;6714;33261;6722;54793;6729;56905;6738;64952;6749;46638;6758;44527;6770;42833];
 [6778;36308;6786;19206;6792;62945;6802;10858;6809;64482;6820;8311;6827;62193;6837;34367];
 [6846;43200;6851;65463;6865;41986;6869;4402;6874;40691;6885;9936;6891;9841;6898;201];
 [6902;59531;6910;49310;6917;3275;6924;57802;6932;46121;6939;50131;6948;62003;6957;16937];
 [6962;43534;6969;35253;6977;27127;6988;62158;6998;25909;7006;62436;7016;35013;7022;19828];
 [7030;12285;7042;32701;7055;55311;7063;58927;7073;55807;7086;24137;7094;17742;7101;42607];
 [7111;39752;7118;48776;7126;64717;7137;60919;7150;40069;7157;30694;7168;37723;7177;2582];
 [7182;3890;7189;59559;7198;22991;7208;28326;7217;11498;7225;26228;7233;11970;7240;64041];
 [7249;63436;7260;7519;7270;0;7270;0;7270;0;7270;0;7270;0;7270;23872];
 [7276;61624;7284;33079;7291;28571;7302;25509;7310;21996;7319;29907;7328;58136;7335;41796];
 [7341;54378;7349;34868;7354;55915;7364;7693;7371;23935;7383;5111;7393;4434;7398;47337];
 [7407;1096;7410;50500;7416;33094;7421;60159;7434;6896;7441;16200;7449;46774;7459;1302];
 [7464;21624;7471;28640;7480;32883;7486;14650;7494;10212;7502;19776;7507;37528;7513;25130];
 [7519;19520;7523;32827;7529;27617;7538;34579;7545;34111;7554;13608;7560;793;7565;60717];
 [7575;42831;7585;36810;7594;13753;7603;64536;7611;30646;7622;56261;7632;24070;7639;5116];
 [7648;35553;7655;46976;7662;52573;7672;58326;7682;27656;7687;41484;7692;64506;7705;65438];
 [7718;96;7720;55998;7731;2542;7739;28314;7748;21503;7760;14784;7766;43276;7772;6007];
 [7782;34489;7790;439;7797;12;7799;47272;7806;26336;7813;60796;7824;3973;7831;40994];
 [7835;54947;7844;45403;7853;36387;7860;10903;7868;64730;7879;170;7883;5637;7888;13090];
 [7894;51008;7900;40582;7908;64110;7919;6123;7929;2102;7934;53905;7941;41026;7945;57108];
 [7954;61015;7965;5707;7972;54400;7977;46099;7984;4161;7987;52666;7997;47226;8006;24628];
 [8011;53003;8020;18346;8028;42782;8037;60544;8043;38355;8052;47771;8062;65364;8073;5761];
 [8078;61058;8086;45857;8093;9842;8100;52928;8107;3317;8115;17871;8124;41622;8131;37633];
 [8136;24579;8140;56569;8151;39044;8156;3746;8162;16000;8168;12586;8174;36632;8181;331];
 [8186;27354;8195;51890;8203;62040;8211;32512;8218;28653;8230;38671;8239;554;8243;52370];
 [8250;23049;8256;33706;8263;17785;8271;37206;8278;11140;8284;32776;8286;47237;8293;27688];
 [8299;18643;8306;32837;8310;48233;8319;19172;8326;60522;8335;32891;8342;16782;8348;6726];
 [8354;13397;8361;60300;8370;35614;8378;57509;8385;10502;8390;17348;8396;19477;8402;61619];
 [8411;50239;8420;47934;8431;258;8433;29503;8444;5270;8450;30477;8459;3232;8463;3013];
 [8470;12863;8479;49216;8482;42069;8489;49300;8494;36811;8504;34265;8512;38594;8519;42125];
 [8526;1;8527;13652;8534;2280;8539;41306;8546;21773;8553;43519;8565;9262;8571;23802];
 [8581;25058;8588;26935;8597;31311;8607;4655;8614;12980;8621;17707;8628;29179;8639;53893];
 [8646;47252;8653;56517;8662;26839;8671;21978;8680;29879;8690;48849;8700;14659;8707;16904];
 [8710;53834;8717;57170;8727;39488;8732;41175;8740;23563;8747;30333;8758;0;8758;0];
 [8758;0;8758;0;8758;0;8758;42624;8763;55266;8773;1201;8778;16134;8786;5896];
 [8791;30244;8798;27420;8806;65431;8819;47581;8830;26015;8840;24170;8849;9311;8857;32019];
 [8866;61360;8876;2141;8882;0;8882;0;8882;0;8882;0;8882;14544;8888;155];
 [8893;1074;8897;544;8899;33096;8903;17416;8906;55620;8913;44738;8921;40202;8928;45096];
 [8933;38720;8939;57425;8945;1167;8951;8817;8957;8084;8965;33329;8970;45085;8977;6229];
 [8983;11442;8990;17178;8996;56322;9002;18539;9009;15713;9017;34838;9022;2060;9025;32512];
 [9032;5929;9039;64188;9050;44608;9056;52040;9063;30325;9073;37264;9078;30;9082;0];
 [9082;0;9082;55296;9086;57816;9094;40183;9105;25718;9113;1082;9118;61301;9130;12211];
 [9140;63855;9152;59131;9164;24719;9171;21478;9180;61118;9192;29567;9204;58155;9213;46564];
 [9222;38847;9234;2723;9240;34126;9247;16747;9254;17850;9262;63616;9268;43286;9275;57588];
 [9283;85;9287;21364;9295;41100;9300;9879;9308;32704;9317;3028;9324;5694;9332;956];
 [9339;27308;9347;20613;9352;56596;9360;5498;9368;64475;9381;48579;9391;28922;9400;39010];
 [9406;25730;9411;16627;9418;4608;9420;38808;9428;53181;9440;20163;9448;503;9456;61698];
 [9462;9001;9468;40938;9479;10368;9482;33412;9486;55365;9493;653;9498;9905;9505;40844];
 [9514;41044;9519;59171;9528;56303;9541;3108;9545;12176;9552;7378;9559;23601;9566;20523];
 [9572;39168;9576;19664;9582;28810;9588;1537;9591;458;9596;61891;9605;438;9611;10274];
 [9615;33432;9620;2009;9628;2050;9630;3452;9638;1074;9642;19470;9648;44045;9655;61607];
 [9664;2;9665;0;9665;0;9665;0;9665;0;9665;0;9665;0;9665;896];
 [9668;65229;9680;33626;9687;15357;9699;31316;9707;15752;9714;21881;9723;38;9726;0];
 [9726;0;9726;12288;9728;54530;9734;38940;9740;47127;9748;63745;9755;5246;9763;9709];
 [9772;60788;9782;16304;9791;34745;9800;16351;9813;31475;9824;32614;9835;36620;9842;2757];
 [9848;58833;9857;21082;9864;1176;9868;27469;9877;58326;9887;24292;9896;28503;9907;5658];
 [9913;43122;9920;21857;9927;26957;9935;17438;9941;6986;9948;23322;9956;24578;9959;34942];
 [9967;62846;9979;17887;9989;14394;9996;14749;10005;63680;10012;20476;10023;39136;10029;27];
 [10033;0;10033;0;10033;44288;10038;40387;10047;2524;10054;38912;10057;61103;10069;28703];
 [10077;5928;10083;32221;10095;20755;10101;31758;10109;31335;10119;37287;10127;1;10128;0];
 [10128;0;10128;17344;10133;29032;10140;45592;10146;890;10153;60215;10164;24580;10167;39687];
 [10175;50222;10182;1614;10188;26897;10194;16835;10200;29757;10209;36260;10216;3636;10222;0];
 [10222;0;10222;0;10222;41216;10225;5057;10231;49243;10238;53631;10249;61037;10260;2706];
 [10265;4428;10270;38213;10277;61357;10289;14350;10295;59454;10304;17682;10309;39016;10315;764];
 [10322;50200;10327;49358;10334;32193;10343;17174;10349;50883;10357;10582;10364;52670;10375;9647];
 [10384;14161;10392;12157;10403;59070;10414;20167;10423;34786;10431;48541;10442;28329;10451;1509];
 [10458;0;10458;0;10458;6880;10464;93;10469;19404;10477;59814;10486;7496;10492;51204];
 [10496;1502;10504;61959;10512;39455;10521;21709;10529;42640;10535;1600;10538;39442;10544;48948];
 [10554;33503;10563;34504;10569;41161;10575;10004;10581;9348;10585;32288;10592;0;10592;0];
 [10592;0;10592;0;10592;0;10592;47904;10599;6435;10605;59566;10614;46960;10623;65328];
 [10633;61464;10639;64279;10650;49569;10656;47824;10664;16780;10669;681;10674;36867;10678;28288];
 [10684;52322;10691;41404;10699;14031;10709;229;10714;8192;10715;12465;10721;5;10723;0];
 [10723;0;10723;8192;10724;768;10726;64;10727;0;10727;0;10727;0;10727;1];
 [10728;0;10728;4097;10730;0;10730;0;10730;32768;10731;36475;10741;87;10746;65535];
 [10762;65535;10778;65535;10794;2047;10805;0;10805;96;10807;0;10807;0;10807;0];
 [10807;65534;10822;65535;10838;65535;10854;65535;10870;65535;10886;65535;10902;1;10903;0];
 [10903;0;10903;0;10903;40;10905;0;10905;2048;10906;0;10906;0;10906;0];
 [10906;512;10907;0;10907;20;10909;0;10909;0;10909;0;10909;4;10910;0];
 [10910;0;10910;8;10911;0;10911;0;10911;0;10911;0;10911;2048;10912;0];
 [10912;0;10912;0;10912;0;10912;2;10913;2;10914;0;10914;0;10914;0];
 [10914;0;10914;0;10914;0;10914;512;10915;1024;10916;0;10916;0;10916;0];
 [10916;512;10917;0;10917;0;10917;0;10917;0;10917;64;10918;0;10918;0];
 [10918;0;10918;0;10918;256;10919;0;10919;32768;10920;0;10920;0;10920;0];
 [10920;128;10921;0;10921;0;10921;1024;10922;0;10922;0;10922;0;10922;512];
 [10923;0;10923;0;10923;0;10923;4096;10924;0;10924;8192;10925;0;10925;0];
 [10925;0;10925;8;10926;0;10926;0;10926;0;10926;8192;10927;0;10927;0];
 [10927;0;10927;32768;10928;0;10928;0;10928;32;10929;0;10929;0;10929;0];
 [10929;0;10929;0;10929;2;10930;0;10930;0;10930;0;10930;8208;10932;0];
 [10932;0;10932;32;10933;0;10933;0;10933;0;10933;32768;10934;0;10934;0];
 [10934;2;10935;0;10935;0;10935;8192;10936;0;10936;32;10937;0;10937;2064];
 [10939;0;10939;128;10940;16;10941;8192;10942;0;10942;2048;10943;0;10943;64];
 [10944;16;10945;0;10945;0;10945;0;10945;16;10946;0;10946;0;10946;0];
 [10946;0;10946;0;10946;24576;10948;0;10948;0;10948;128;10949;0;10949;0];
 [10949;128;10950;0;10950;0;10950;0;10950;0;10950;0;10950;0;10950;16];
 [10951;64;10952;0;10952;0;10952;0;10952;4;10953;0;10953;0;10953;0];
 [10953;0;10953;0;10953;0;10953;8192;10954;8;10955;0;10955;0;10955;0];
 [10955;0;10955;64;10956;0;10956;0;10956;0;10956;0;10956;8192;10957;0];
 [10957;32;10958;0;10958;4;10959;256;10960;0;10960;4100;10962;2;10963;128];
 [10964;0;10964;0;10964;1;10965;0;10965;0;10965;0;10965;0;10965;24];
 [10967;0;10967;16384;10968;0;10968;0;10968;0;10968;0;10968;0;10968;64];
 [10969;0;10969;0;10969;0;10969;1024;10970;0;10970;0;10970;0;10970;2048];
 [10971;0;10971;256;10972;0;10972;0;10972;0;10972;16384;10973;0;10973;0];
 [10973;0;10973;0;10973;8192;10974;0;10974;0;10974;0;10974;0;10974;8];
 [10975;0;10975;2048;10976;0;10976;0;10976;0;10976;0;10976;2048;10977;0];
 [10977;32768;10978;0;10978;0;10978;0;10978;0;10978;0;10978;0;10978;256];
 [10979;32832;10981;1;10982;0;10982;0;10982;0;10982;0;10982;64;10983;0];
 [10983;0;10983;8192;10984;16;10985;0;10985;0;10985;0;10985;2;10986;0];
 [10986;0;10986;0;10986;0;10986;64;10987;24;10989;0;10989;0;10989;32];
 [10990;0;10990;0;10990;0;10990;4;10991;0;10991;33837;10997;16;10998;0];
 [10998;3072;11000;2;11001;32;11002;0;11002;0;11002;0;11002;16;11003;0];
 [11003;0;11003;1024;11004;0;11004;0;11004;0;11004;16;11005;0;11005;0];
 [11005;16;11006;0;11006;0;11006;0;11006;0;11006;0;11006;0;11006;1792];
 [11009;128;11010;0;11010;0;11010;0;11010;4096;11011;4096;11012;0;11012;32768];
 [11013;0;11013;0;11013;24;11015;0;11015;0;11015;0;11015;128;11016;32768];
 [11017;0;11017;0;11017;16;11018;8192;11019;0;11019;256;11020;0;11020;0];
 [11020;0;11020;0;11020;0;11020;32768;11021;0;11021;0;11021;0;11021;16384];
 [11022;16385;11024;0;11024;0;11024;0;11024;1;11025;0;11025;0;11025;0];
 [11025;0;11025;8;11026;0;11026;1536;11028;0;11028;0;11028;0;11028;16384];
 [11029;0;11029;64;11030;0;11030;0;11030;8;11031;0;11031;0;11031;0];
 [11031;64;11032;0;11032;0;11032;16384;11033;0;11033;0;11033;0;11033;4096];
 [11034;0;11034;0;11034;512;11035;0;11035;0;11035;0;11035;32;11036;0];
 [11036;0;11036;0;11036;0;11036;2;11037;0;11037;64;11038;0;11038;0];
 [11038;8192;11039;0;11039;0;11039;0;11039;0;11039;64;11040;32768;11041;0];
 [11041;0;11041;64;11042;0;11042;0;11042;0;11042;16;11043;0;11043;0];
 [11043;16384;11044;0;11044;0;11044;128;11045;0;11045;0;11045;1024;11046;0];
 [11046;2048;11047;0;11047;0;11047;0;11047;1024;11048;32;11049;0;11049;0];
 [11049;0;11049;0;11049;4;11050;0;11050;0;11050;0;11050;512;11051;0];
 [11051;8192;11052;0;11052;32;11053;0;11053;0;11053;16384;11054;0;11054;0];
 [11054;4096;11055;0;11055;0;11055;0;11055;0;11055;0;11055;16384;11056;0];
 [11056;16384;11057;0;11057;0;11057;0;11057;0;11057;512;11058;0;11058;0];
 [11058;16384;11059;0;11059;0;11059;0;11059;0;11059;0;11059;128;11060;0];
 [11060;0;11060;0;11060;0;11060;2;11061;0;11061;0;11061;512;11062;16];
 [11063;16;11064;16;11065;0;11065;0;11065;0;11065;0;11065;24;11067;2];
 [11068;0;11068;0;11068;0;11068;4;11069;2048;11070;0;11070;16;11071;0];
 [11071;0;11071;0;11071;2;11072;0;11072;0;11072;0;11072;16384;11073;0];
 [11073;0;11073;64;11074;36;11076;0;11076;4;11077;256;11078;256;11079;0];
 [11079;0;11079;0;11079;8;11080;0;11080;0;11080;4096;11081;0;11081;0];
 [11081;0;11081;16;11082;1;11083;2048;11084;4096;11085;128;11086;0;11086;0];
 [11086;0;11086;0;11086;1;11087;0;11087;0;11087;0;11087;8192;11088;0];
 [11088;0;11088;0;11088;0;11088;1;11089;64;11090;0;11090;0;11090;0];
 [11090;4096;11091;0;11091;0;11091;0;11091;4;11092;0;11092;0;11092;0];
 [11092;0;11092;0;11092;0;11092;16384;11093;0;11093;0;11093;0;11093;1];
 [11094;0;11094;8192;11095;0;11095;0;11095;0;11095;8192;11096;1024;11097;0];
 [11097;0;11097;2;11098;32768;11099;0;11099;0;11099;8192;11100;0;11100;0];
 [11100;0;11100;16384;11101;0;11101;0;11101;0;11101;256;11102;0;11102;0];
 [11102;4096;11103;0;11103;0;11103;128;11104;0;11104;0;11104;0;11104;32768];
 [11105;0;11105;0;11105;512;11106;0;11106;0;11106;0;11106;0;11106;8];
 [11107;0;11107;8192;11108;0;11108;0;11108;1;11109;0;11109;32;11110;0];
 [11110;0;11110;16;11111;0;11111;0;11111;0;11111;0;11111;0;11111;448];
 [11114;0;11114;0;11114;0;11114;16;11115;8192;11116;0;11116;0;11116;512];
 [11117;0;11117;3072;11119;0;11119;16384;11120;0;11120;1;11121;0;11121;0];
 [11121;512;11122;0;11122;0;11122;0;11122;0;11122;48;11124;0;11124;2];
 [11125;16;11126;8;11127;0;11127;0;11127;16384;11128;0;11128;8;11129;0];
 [11129;0;11129;4;11130;0;11130;0;11130;32;11131;0;11131;0;11131;0];
 [11131;16;11132;0;11132;0;11132;0;11132;0;11132;0;11132;0;11132;16392];
 [11134;128;11135;0;11135;0;11135;0;11135;0;11135;0;11135;0;11135;256];
 [11136;0;11136;0;11136;1;11137;0;11137;0;11137;1;11138;0;11138;0];
 [11138;0;11138;0;11138;0;11138;128;11139;1024;11140;0;11140;0;11140;2048];
 [11141;0;11141;0;11141;0;11141;128;11142;4;11143;0;11143;0;11143;0];
 [11143;0;11143;0;11143;0;11143;8;11144;8192;11145;0;11145;0;11145;0];
 [11145;4096;11146;0;11146;0;11146;0;11146;0;11146;32;11147;0;11147;0];
 [11147;0;11147;0;11147;2048;11148;0;11148;768;11150;0;11150;0;11150;0];
 [11150;0;11150;128;11151;0;11151;1024;11152;576;11154;0;11154;2048;11155;0];
 [11155;384;11157;0;11157;0;11157;3072;11159;0;11159;16384;11160;512;11161;0];
 [11161;8;11162;0;11162;0;11162;2;11163;0;11163;512;11164;0;11164;0];
 [11164;8192;11165;8192;11166;16;11167;0;11167;2;11168;0;11168;32768;11169;0];
 [11169;0;11169;1;11170;0;11170;0;11170;0;11170;0;11170;0;11170;2];
 [11171;0;11171;0;11171;0;11171;2048;11172;0;11172;32768;11173;0;11173;64];
 [11174;512;11175;0;11175;0;11175;0;11175;0;11175;0;11175;2048;11176;0];
 [11176;0;11176;0;11176;0;11176;4;11177;0;11177;0;11177;0;11177;256];
 [11178;0;11178;0;11178;1;11179;2;11180;0;11180;1;11181;0;11181;0];
 [11181;32768;11182;0;11182;0;11182;0;11182;0;11182;0;11182;0;11182;32768];
 [11183;0;11183;0;11183;0;11183;1;11184;0;11184;512;11185;0;11185;0];
 [11185;0;11185;1;11186;0;11186;0;11186;64;11187;0;11187;0;11187;0];
 [11187;0;11187;0;11187;0;11187;4;11188;0;11188;2048;11189;0;11189;0];
 [11189;0;11189;32;11190;0;11190;8192;11191;512;11192;0;11192;0;11192;0];
 [11192;1024;11193;0;11193;0;11193;0;11193;16;11194;2048;11195;512;11196;0];
 [11196;16384;11197;0;11197;0;11197;0;11197;0;11197;1024;11198;32768;11199;0];
 [11199;4;11200;0;11200;0;11200;0;11200;0;11200;0;11200;0;11200;512];
 [11201;0;11201;1;11202;0;11202;0;11202;4096;11203;0;11203;0;11203;0];
 [11203;0;11203;0;11203;0;11203;128;11204;0;11204;0;11204;0;11204;2];
 [11205;4;11206;1024;11207;0;11207;0;11207;0;11207;0;11207;0;11207;4]].

