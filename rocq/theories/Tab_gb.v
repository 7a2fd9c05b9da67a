(** GENERATED by tools/gen.py from /repo/lib/converters; do not edit.
    Mapping tables. *)
From Coq Require Import ZArith List Bool.
From Verif Require Import Base.
Import ListNotations.
Open Scope Z_scope.

(* lib/converters/gb2312.h:30-146 gb2312_2uni_page21 *)
Definition gb2312_2uni_page21 : tab := mk [
 [12288;12289;12290;12539;713;711;168;12291;12293;8213;65374;8214;8230;8216;8217;8220];
 [8221;12308;12309;12296;12297;12298;12299;12300;12301;12302;12303;12310;12311;12304;12305;177];
 [215;247;8758;8743;8744;8721;8719;8746;8745;8712;8759;8730;8869;8741;8736;8978];
 [8857;8747;8750;8801;8780;8776;8765;8733;8800;8814;8815;8804;8805;8734;8757;8756];
 [9794;9792;176;8242;8243;8451;65284;164;65504;65505;8240;167;8470;9734;9733;9675];
 [9679;9678;9671;9670;9633;9632;9651;9650;8251;8594;8592;8593;8595;12307;65533;65533];
 [65533;65533;65533;65533;65533;65533;65533;65533;65533;65533;65533;65533;65533;65533;9352;9353];
 [9354;9355;9356;9357;9358;9359;9360;9361;9362;9363;9364;9365;9366;9367;9368;9369];
 [9370;9371;9332;9333;9334;9335;9336;9337;9338;9339;9340;9341;9342;9343;9344;9345];
 [9346;9347;9348;9349;9350;9351;9312;9313;9314;9315;9316;9317;9318;9319;9320;9321];
 [65533;65533;12832;12833;12834;12835;12836;12837;12838;12839;12840;12841;65533;65533;8544;8545];
 [8546;8547;8548;8549;8550;8551;8552;8553;8554;8555;65533;65533;65281;65282;65283;65509];
 [65285;65286;65287;65288;65289;65290;65291;65292;65293;65294;65295;65296;65297;65298;65299;65300];
 [65301;65302;65303;65304;65305;65306;65307;65308;65309;65310;65311;65312;65313;65314;65315;65316];
 [65317;65318;65319;65320;65321;65322;65323;65324;65325;65326;65327;65328;65329;65330;65331;65332];
 [65333;65334;65335;65336;65337;65338;65339;65340;65341;65342;65343;65344;65345;65346;65347;65348];
 [65349;65350;65351;65352;65353;65354;65355;65356;65357;65358;65359;65360;65361;65362;65363;65364];
 [65365;65366;65367;65368;65369;65370;65371;65372;65373;65507;12353;12354;12355;12356;12357;12358];
 [12359;12360;12361;12362;12363;12364;12365;12366;12367;12368;12369;12370;12371;12372;12373;12374];
 [12375;12376;12377;12378;12379;12380;12381;12382;12383;12384;12385;12386;12387;12388;12389;12390];
 [12391;12392;12393;12394;12395;12396;12397;12398;12399;12400;12401;12402;12403;12404;12405;12406];
 [12407;12408;12409;12410;12411;12412;12413;12414;12415;12416;12417;12418;12419;12420;12421;12422];
 [12423;12424;12425;12426;12427;12428;12429;12430;12431;12432;12433;12434;12435;65533;65533;65533];
 [65533;65533;65533;65533;65533;65533;65533;65533;12449;12450;12451;12452;12453;12454;12455;12456];
 [12457;12458;12459;12460;12461;12462;12463;12464;12465;12466;12467;12468;12469;12470;12471;12472];
 [12473;12474;12475;12476;12477;12478;12479;12480;12481;12482;12483;12484;12485;12486;12487;12488];
 [12489;12490;12491;12492;12493;12494;12495;12496;12497;12498;12499;12500;12501;12502;12503;12504];
 [12505;12506;12507;12508;12509;12510;12511;12512;12513;12514;12515;12516;12517;12518;12519;12520];
 [12521;12522;12523;12524;12525;12526;12527;12528;12529;12530;12531;12532;12533;12534;65533;65533];
 [65533;65533;65533;65533;65533;65533;913;914;915;916;917;918;919;920;921;922];
 [923;924;925;926;927;928;929;931;932;933;934;935;936;937;65533;65533];
 [65533;65533;65533;65533;65533;65533;945;946;947;948;949;950;951;952;953;954];
 [955;956;957;958;959;960;961;963;964;965;966;967;968;969;65533;65533];
 [65533;65533;65533;65533;65533;65533;65533;65533;65533;65533;65533;65533;65533;65533;65533;65533];
 [65533;65533;65533;65533;65533;65533;65533;65533;65533;65533;65533;65533;65533;65533;65533;65533];
 [65533;65533;65533;65533;1040;1041;1042;1043;1044;1045;1025;1046;1047;1048;1049;1050];
 [1051;1052;1053;1054;1055;1056;1057;1058;1059;1060;1061;1062;1063;1064;1065;1066];
 [1067;1068;1069;1070;1071;65533;65533;65533;65533;65533;65533;65533;65533;65533;65533;65533];
 [65533;65533;65533;65533;1072;1073;1074;1075;1076;1077;1105;1078;1079;1080;1081;1082];
 [1083;1084;1085;1086;1087;1088;1089;1090;1091;1092;1093;1094;1095;1096;1097;1098];
 [1099;1100;1101;1102;1103;65533;65533;65533;65533;65533;65533;65533;65533;65533;65533;65533];
 [65533;65533;257;225;462;224;275;233;283;232;299;237;464;236;333;243];
 [466;242;363;250;468;249;470;472;474;476;252;234;65533;65533;65533;65533];
 [65533;65533;65533;65533;65533;65533;12549;12550;12551;12552;12553;12554;12555;12556;12557;12558];
 [12559;12560;12561;12562;12563;12564;12565;12566;12567;12568;12569;12570;12571;12572;12573;12574];
 [12575;12576;12577;12578;12579;12580;12581;12582;12583;12584;12585;65533;65533;65533;65533;65533];
 [65533;65533;65533;65533;65533;65533;65533;65533;65533;65533;65533;65533;65533;65533;65533;65533];
 [65533;65533;65533;9472;9473;9474;9475;9476;9477;9478;9479;9480;9481;9482;9483;9484];
 [9485;9486;9487;9488;9489;9490;9491;9492;9493;9494;9495;9496;9497;9498;9499;9500];
 [9501;9502;9503;9504;9505;9506;9507;9508;9509;9510;9511;9512;9513;9514;9515;9516];
 [9517;9518;9519;9520;9521;9522;9523;9524;9525;9526;9527;9528;9529;9530;9531;9532];
 [9533;9534;9535;9536;9537;9538;9539;9540;9541;9542;9543;9544;9545;9546;9547]].

(* lib/converters/gb2312.h:147-1084 gb2312_2uni_page30 *)
Definition gb2312_2uni_page30 : tab := mk [
 [21834;38463;22467;25384;21710;21769;21696;30353;30284;34108;30702;33406;30861;29233;38552;38797];
 [27688;23433;20474;25353;26263;23736;33018;26696;32942;26114;30414;20985;25942;29100;32753;34948];
 [20658;22885;25034;28595;33453;25420;25170;21485;21543;31494;20843;30116;24052;25300;36299;38774];
 [25226;32793;22365;38712;32610;29240;30333;26575;30334;25670;20336;36133;25308;31255;26001;29677];
 [25644;25203;33324;39041;26495;29256;25198;25292;20276;29923;21322;21150;32458;37030;24110;26758];
 [27036;33152;32465;26834;30917;34444;38225;20621;35876;33502;32990;21253;35090;21093;34180;38649];
 [20445;22561;39281;23453;25265;25253;26292;35961;40077;29190;26479;30865;24754;21329;21271;36744];
 [32972;36125;38049;20493;29384;22791;24811;28953;34987;22868;33519;26412;31528;23849;32503;29997];
 [27893;36454;36856;36924;40763;27604;37145;31508;24444;30887;34006;34109;27605;27609;27606;24065];
 [24199;30201;38381;25949;24330;24517;36767;22721;33218;36991;38491;38829;36793;32534;36140;25153];
 [20415;21464;21342;36776;36777;36779;36941;26631;24426;33176;34920;40150;24971;21035;30250;24428];
 [25996;28626;28392;23486;25672;20853;20912;26564;19993;31177;39292;28851;30149;24182;29627;33760];
 [25773;25320;38069;27874;21338;21187;25615;38082;31636;20271;24091;33334;33046;33162;28196;27850];
 [39539;25429;21340;21754;34917;22496;19981;24067;27493;31807;37096;24598;25830;29468;35009;26448];
 [25165;36130;30572;36393;37319;24425;33756;34081;39184;21442;34453;27531;24813;24808;28799;33485];
 [33329;20179;27815;34255;25805;31961;27133;26361;33609;21397;31574;20391;20876;27979;23618;36461];
 [25554;21449;33580;33590;26597;30900;25661;23519;23700;24046;35815;25286;26612;35962;25600;25530];
 [34633;39307;35863;32544;38130;20135;38416;39076;26124;29462;22330;23581;24120;38271;20607;32928];
 [21378;25950;30021;21809;20513;36229;25220;38046;26397;22066;28526;24034;21557;28818;36710;25199];
 [25764;25507;24443;28552;37108;33251;36784;23576;26216;24561;27785;38472;36225;34924;25745;31216];
 [22478;27225;25104;21576;20056;31243;24809;28548;35802;25215;36894;39563;31204;21507;30196;25345];
 [21273;27744;36831;24347;39536;32827;40831;20360;23610;36196;32709;26021;28861;20805;20914;34411];
 [23815;23456;25277;37228;30068;36364;31264;24833;31609;20167;32504;30597;19985;33261;21021;20986];
 [27249;21416;36487;38148;38607;28353;38500;26970;30784;20648;30679;25616;35302;22788;25571;24029];
 [31359;26941;20256;33337;21912;20018;30126;31383;24162;24202;38383;21019;21561;28810;25462;38180];
 [22402;26149;26943;37255;21767;28147;32431;34850;25139;32496;30133;33576;30913;38604;36766;24904];
 [29943;35789;27492;21050;36176;27425;32874;33905;22257;21254;20174;19995;20945;31895;37259;31751];
 [20419;36479;31713;31388;25703;23828;20652;33030;30209;31929;28140;32736;26449;23384;23544;30923];
 [25774;25619;25514;25387;38169;25645;36798;31572;30249;25171;22823;21574;27513;20643;25140;24102];
 [27526;20195;36151;34955;24453;36910;24608;32829;25285;20025;21333;37112;25528;32966;26086;27694];
 [20294;24814;28129;35806;24377;34507;24403;25377;20826;33633;26723;20992;25443;36424;20498;23707];
 [31095;23548;21040;31291;24764;36947;30423;24503;24471;30340;36460;28783;30331;31561;30634;20979];
 [37011;22564;20302;28404;36842;25932;31515;29380;28068;32735;23265;25269;24213;22320;33922;31532];
 [24093;24351;36882;32532;39072;25474;28359;30872;28857;20856;38747;22443;30005;20291;30008;24215];
 [24806;22880;28096;27583;30857;21500;38613;20939;20993;25481;21514;38035;35843;36300;29241;30879];
 [34678;36845;35853;21472;19969;30447;21486;38025;39030;40718;38189;23450;35746;20002;19996;20908];
 [33891;25026;21160;26635;20375;24683;20923;27934;20828;25238;26007;38497;35910;36887;30168;37117];
 [30563;27602;29322;29420;35835;22581;30585;36172;26460;38208;32922;24230;28193;22930;31471;30701];
 [38203;27573;26029;32526;22534;20817;38431;23545;22697;21544;36466;25958;39039;22244;38045;30462];
 [36929;25479;21702;22810;22842;22427;36530;26421;36346;33333;21057;24816;22549;34558;23784;40517];
 [20420;39069;35769;23077;24694;21380;25212;36943;37122;39295;24681;32780;20799;32819;23572;39285];
 [27953;20108;36144;21457;32602;31567;20240;20047;38400;27861;29648;34281;24070;30058;32763;27146];
 [30718;38034;32321;20961;28902;21453;36820;33539;36137;29359;39277;27867;22346;33459;26041;32938];
 [25151;38450;22952;20223;35775;32442;25918;33778;38750;21857;39134;32933;21290;35837;21536;32954];
 [24223;27832;36153;33452;37210;21545;27675;20998;32439;22367;28954;27774;31881;22859;20221;24575];
 [24868;31914;20016;23553;26539;34562;23792;38155;39118;30127;28925;36898;20911;32541;35773;22857];
 [20964;20315;21542;22827;25975;32932;23413;25206;25282;36752;24133;27679;31526;20239;20440;26381];
 [28014;28074;31119;34993;24343;29995;25242;36741;20463;37340;26023;33071;33105;24220;33104;36212];
 [21103;35206;36171;22797;20613;20184;38428;29238;33145;36127;23500;35747;38468;22919;32538;21648];
 [22134;22030;35813;25913;27010;38041;30422;28297;24178;29976;26438;26577;31487;32925;36214;24863];
 [31174;25954;36195;20872;21018;38050;32568;32923;32434;23703;28207;26464;31705;30347;39640;33167];
 [32660;31957;25630;38224;31295;21578;21733;27468;25601;25096;40509;33011;30105;21106;38761;33883];
 [26684;34532;38401;38548;38124;20010;21508;32473;26681;36319;32789;26356;24218;32697;22466;32831];
 [26775;24037;25915;21151;24685;40858;20379;36524;20844;23467;24339;24041;27742;25329;36129;20849];
 [38057;21246;27807;33503;29399;22434;26500;36141;22815;36764;33735;21653;31629;20272;27837;23396];
 [22993;40723;21476;34506;39592;35895;32929;25925;39038;22266;38599;21038;29916;21072;23521;25346];
 [35074;20054;25296;24618;26874;20851;23448;20896;35266;31649;39302;32592;24815;28748;36143;20809];
 [24191;36891;29808;35268;22317;30789;24402;40863;38394;36712;39740;35809;30328;26690;26588;36330];
 [36149;21053;36746;28378;26829;38149;37101;22269;26524;35065;36807;21704;39608;23401;28023;27686];
 [20133;23475;39559;37219;25000;37039;38889;21547;28085;23506;20989;21898;32597;32752;25788;25421];
 [26097;25022;24717;28938;27735;27721;22831;26477;33322;22741;22158;35946;27627;37085;22909;32791];
 [21495;28009;21621;21917;33655;33743;26680;31166;21644;20309;21512;30418;35977;38402;27827;28088];
 [36203;35088;40548;36154;22079;40657;30165;24456;29408;24680;21756;20136;27178;34913;24658;36720];
 [21700;28888;34425;40511;27946;23439;24344;32418;21897;20399;29492;21564;21402;20505;21518;21628];
 [20046;24573;29786;22774;33899;32993;34676;29392;31946;28246;24359;34382;21804;25252;20114;27818];
 [25143;33457;21719;21326;29502;28369;30011;21010;21270;35805;27088;24458;24576;28142;22351;27426];
 [29615;26707;36824;32531;25442;24739;21796;30186;35938;28949;28067;23462;24187;33618;24908;40644];
 [30970;34647;31783;30343;20976;24822;29004;26179;24140;24653;35854;28784;25381;36745;24509;24674];
 [34516;22238;27585;24724;24935;21321;24800;26214;36159;31229;20250;28905;27719;35763;35826;32472];
 [33636;26127;23130;39746;27985;28151;35905;27963;20249;28779;33719;25110;24785;38669;36135;31096];
 [20987;22334;22522;26426;30072;31293;31215;31637;32908;39269;36857;28608;35749;40481;23020;32489];
 [32521;21513;26497;26840;36753;31821;38598;21450;24613;30142;27762;21363;23241;32423;25380;20960];
 [33034;24049;34015;25216;20864;23395;20238;31085;21058;24760;27982;23492;23490;35745;35760;26082];
 [24524;38469;22931;32487;32426;22025;26551;22841;20339;23478;21152;33626;39050;36158;30002;38078];
 [20551;31292;20215;26550;39550;23233;27516;30417;22362;23574;31546;38388;29006;20860;32937;33392];
 [22904;32516;33575;26816;26604;30897;30839;25315;25441;31616;20461;21098;20943;33616;27099;37492];
 [36341;36145;35265;38190;31661;20214;20581;33328;21073;39279;28176;28293;28071;24314;20725;23004];
 [23558;27974;27743;30086;33931;26728;22870;35762;21280;37233;38477;34121;26898;30977;28966;33014];
 [20132;37066;27975;39556;23047;22204;25605;38128;30699;20389;33050;29409;35282;39290;32564;32478];
 [21119;25945;37237;36735;36739;21483;31382;25581;25509;30342;31224;34903;38454;25130;21163;33410];
 [26708;26480;25463;30571;31469;27905;32467;35299;22992;25106;34249;33445;30028;20511;20171;30117];
 [35819;23626;24062;31563;26020;37329;20170;27941;35167;32039;38182;20165;35880;36827;38771;26187];
 [31105;36817;28908;28024;23613;21170;33606;20834;33550;30555;26230;40120;20140;24778;31934;31923];
 [32463;20117;35686;26223;39048;38745;22659;25964;38236;24452;30153;38742;31455;31454;20928;28847];
 [31384;25578;31350;32416;29590;38893;20037;28792;20061;37202;21417;25937;26087;33276;33285;21646];
 [23601;30106;38816;25304;29401;30141;23621;39545;33738;23616;21632;30697;20030;27822;32858;25298];
 [25454;24040;20855;36317;36382;38191;20465;21477;24807;28844;21095;25424;40515;23071;20518;30519];
 [21367;32482;25733;25899;25225;25496;20500;29237;35273;20915;35776;32477;22343;33740;38055;20891];
 [21531;23803;20426;31459;27994;37089;39567;21888;21654;21345;21679;24320;25577;26999;20975;24936];
 [21002;22570;21208;22350;30733;30475;24247;24951;31968;25179;25239;20130;28821;32771;25335;28900];
 [38752;22391;33499;26607;26869;30933;39063;31185;22771;21683;21487;28212;20811;21051;23458;35838];
 [32943;21827;22438;24691;22353;21549;31354;24656;23380;25511;25248;21475;25187;23495;26543;21741];
 [31391;33510;37239;24211;35044;22840;22446;25358;36328;33007;22359;31607;20393;24555;23485;27454];
 [21281;31568;29378;26694;30719;30518;26103;20917;20111;30420;23743;31397;33909;22862;39745;20608];
 [39304;24871;28291;22372;26118;25414;22256;25324;25193;24275;38420;22403;25289;21895;34593;33098];
 [36771;21862;33713;26469;36182;34013;23146;26639;25318;31726;38417;20848;28572;35888;25597;35272];
 [25042;32518;28866;28389;29701;27028;29436;24266;37070;26391;28010;25438;21171;29282;32769;20332];
 [23013;37226;28889;28061;21202;20048;38647;38253;34174;30922;32047;20769;22418;25794;32907;31867];
 [27882;26865;26974;20919;21400;26792;29313;40654;31729;29432;31163;28435;29702;26446;37324;40100];
 [31036;33673;33620;21519;26647;20029;21385;21169;30782;21382;21033;20616;20363;20432;30178;31435];
 [31890;27813;38582;21147;29827;21737;20457;32852;33714;36830;38256;24265;24604;28063;24088;25947];
 [33080;38142;24651;28860;32451;31918;20937;26753;31921;33391;20004;36742;37327;26238;20142;35845];
 [25769;32842;20698;30103;29134;23525;36797;28518;20102;25730;38243;24278;26009;21015;35010;28872];
 [21155;29454;29747;26519;30967;38678;20020;37051;40158;28107;20955;36161;21533;25294;29618;33777];
 [38646;40836;38083;20278;32666;20940;28789;38517;23725;39046;21478;20196;28316;29705;27060;30827];
 [39311;30041;21016;30244;27969;26611;20845;40857;32843;21657;31548;31423;38534;22404;25314;38471];
 [27004;23044;25602;31699;28431;38475;33446;21346;39045;24208;28809;25523;21348;34383;40065;40595];
 [30860;38706;36335;36162;40575;28510;31108;24405;38470;25134;39540;21525;38109;20387;26053;23653];
 [23649;32533;34385;27695;24459;29575;28388;32511;23782;25371;23402;28390;21365;20081;25504;30053];
 [25249;36718;20262;20177;27814;32438;35770;33821;34746;32599;36923;38179;31657;39585;35064;33853];
 [27931;39558;32476;22920;40635;29595;30721;34434;39532;39554;22043;21527;22475;20080;40614;21334];
 [36808;33033;30610;39314;34542;28385;34067;26364;24930;28459;35881;33426;33579;30450;27667;24537];
 [33725;29483;33541;38170;27611;30683;38086;21359;33538;20882;24125;35980;36152;20040;29611;26522];
 [26757;37238;38665;29028;27809;30473;23186;38209;27599;32654;26151;23504;22969;23194;38376;38391];
 [20204;33804;33945;27308;30431;38192;29467;26790;23391;30511;37274;38753;31964;36855;35868;24357];
 [31859;31192;35269;27852;34588;23494;24130;26825;30496;32501;20885;20813;21193;23081;32517;38754];
 [33495;25551;30596;34256;31186;28218;24217;22937;34065;28781;27665;25279;30399;25935;24751;38397];
 [26126;34719;40483;38125;21517;21629;35884;25720;25721;34321;27169;33180;30952;25705;39764;25273];
 [26411;33707;22696;40664;27819;28448;23518;38476;35851;29279;26576;25287;29281;20137;22982;27597];
 [22675;26286;24149;21215;24917;26408;30446;30566;29287;31302;25343;21738;21584;38048;37027;23068];
 [32435;27670;20035;22902;32784;22856;21335;30007;38590;22218;25376;33041;24700;38393;28118;21602];
 [39297;20869;23273;33021;22958;38675;20522;27877;23612;25311;20320;21311;33147;36870;28346;34091];
 [25288;24180;30910;25781;25467;24565;23064;37247;40479;23615;25423;32834;23421;21870;38218;38221];
 [28037;24744;26592;29406;20957;23425;25319;27870;29275;25197;38062;32445;33043;27987;20892;24324];
 [22900;21162;24594;22899;26262;34384;30111;25386;25062;31983;35834;21734;27431;40485;27572;34261];
 [21589;20598;27812;21866;36276;29228;24085;24597;29750;25293;25490;29260;24472;28227;27966;25856];
 [28504;30424;30928;30460;30036;21028;21467;20051;24222;26049;32810;32982;25243;21638;21032;28846];
 [34957;36305;27873;21624;32986;22521;35060;36180;38506;37197;20329;27803;21943;30406;30768;25256];
 [28921;28558;24429;34028;26842;30844;31735;33192;26379;40527;25447;30896;22383;30738;38713;25209];
 [25259;21128;29749;27607;21860;33086;30130;30382;21305;30174;20731;23617;35692;31687;20559;29255];
 [39575;39128;28418;29922;31080;25735;30629;25340;39057;36139;21697;32856;20050;22378;33529;33805];
 [24179;20973;29942;35780;23631;22369;27900;39047;23110;30772;39748;36843;31893;21078;25169;38138];
 [20166;33670;33889;33769;33970;22484;26420;22275;26222;28006;35889;26333;28689;26399;27450;26646];
 [25114;22971;19971;20932;28422;26578;27791;20854;26827;22855;27495;30054;23822;33040;40784;26071];
 [31048;31041;39569;36215;23682;20062;20225;21551;22865;30732;22120;27668;36804;24323;27773;27875];
 [35755;25488;24688;27965;29301;25190;38030;38085;21315;36801;31614;20191;35878;20094;40660;38065];
 [38067;21069;28508;36963;27973;35892;22545;23884;27424;27465;26538;21595;33108;32652;22681;34103];
 [24378;25250;27207;38201;25970;24708;26725;30631;20052;20392;24039;38808;25772;32728;23789;20431];
 [31373;20999;33540;19988;24623;31363;38054;20405;20146;31206;29748;21220;33465;25810;31165;23517];
 [27777;38738;36731;27682;20542;21375;28165;25806;26228;27696;24773;39031;35831;24198;29756;31351];
 [31179;19992;37041;29699;27714;22234;37195;27845;36235;21306;34502;26354;36527;23624;39537;28192];
 [21462;23094;40843;36259;21435;22280;39079;26435;37275;27849;20840;30154;25331;29356;21048;21149];
 [32570;28820;30264;21364;40522;27063;30830;38592;35033;32676;28982;29123;20873;26579;29924;22756];
 [25880;22199;35753;39286;25200;32469;24825;28909;22764;20161;20154;24525;38887;20219;35748;20995];
 [22922;32427;25172;20173;26085;25102;33592;33993;33635;34701;29076;28342;23481;32466;20887;25545];
 [26580;32905;33593;34837;20754;23418;22914;36785;20083;27741;20837;35109;36719;38446;34122;29790];
 [38160;38384;28070;33509;24369;25746;27922;33832;33134;40131;22622;36187;19977;21441;20254;25955];
 [26705;21971;20007;25620;39578;25195;23234;29791;33394;28073;26862;20711;33678;30722;26432;21049];
 [27801;32433;20667;21861;29022;31579;26194;29642;33515;26441;23665;21024;29053;34923;38378;38485];
 [25797;36193;33203;21892;27733;25159;32558;22674;20260;21830;36175;26188;19978;23578;35059;26786];
 [25422;31245;28903;33421;21242;38902;23569;21736;37045;32461;22882;36170;34503;33292;33293;36198];
 [25668;23556;24913;28041;31038;35774;30775;30003;21627;20280;36523;28145;23072;32453;31070;27784];
 [23457;23158;29978;32958;24910;28183;22768;29983;29989;29298;21319;32499;30465;30427;21097;32988];
 [22307;24072;22833;29422;26045;28287;35799;23608;34417;21313;30707;25342;26102;20160;39135;34432];
 [23454;35782;21490;30690;20351;23630;39542;22987;24335;31034;22763;19990;26623;20107;25325;35475];
 [36893;21183;26159;21980;22124;36866;20181;20365;37322;39280;27663;24066;24643;23460;35270;35797];
 [25910;25163;39318;23432;23551;25480;21806;21463;30246;20861;34092;26530;26803;27530;25234;36755];
 [21460;33298;28113;30095;20070;36174;23408;29087;34223;26257;26329;32626;34560;40653;40736;23646];
 [26415;36848;26641;26463;25101;31446;22661;24246;25968;28465;24661;21047;32781;25684;34928;29993];
 [24069;26643;25332;38684;21452;29245;35841;27700;30561;31246;21550;30636;39034;33308;35828;30805];
 [26388;28865;26031;25749;22070;24605;31169;21496;19997;27515;32902;23546;21987;22235;20282;20284];
 [39282;24051;26494;32824;24578;39042;36865;23435;35772;35829;25628;33368;25822;22013;33487;37221];
 [20439;32032;36895;31903;20723;22609;28335;23487;35785;32899;37240;33948;31639;34429;38539;38543];
 [32485;39635;30862;23681;31319;36930;38567;31071;23385;25439;31499;34001;26797;21766;32553;29712];
 [32034;38145;25152;22604;20182;23427;22905;22612;29549;25374;36427;36367;32974;33492;25260;21488];
 [27888;37214;22826;24577;27760;22349;25674;36138;30251;28393;22363;27264;30192;28525;35885;35848];
 [22374;27631;34962;30899;25506;21497;28845;27748;22616;25642;22530;26848;33179;21776;31958;20504];
 [36538;28108;36255;28907;25487;28059;28372;32486;33796;26691;36867;28120;38518;35752;22871;29305];
 [34276;33150;30140;35466;26799;21076;36386;38161;25552;39064;36420;21884;20307;26367;22159;24789];
 [28053;21059;23625;22825;28155;22635;30000;29980;24684;33300;33094;25361;26465;36834;30522;36339];
 [36148;38081;24086;21381;21548;28867;27712;24311;20572;20141;24237;25402;33351;36890;26704;37230];
 [30643;21516;38108;24420;31461;26742;25413;31570;32479;30171;20599;25237;22836;36879;20984;31171];
 [31361;22270;24466;36884;28034;23648;22303;21520;20820;28237;22242;25512;39059;33151;34581;35114];
 [36864;21534;23663;33216;25302;25176;33073;40501;38464;39534;39548;26925;22949;25299;21822;25366];
 [21703;34521;27964;23043;29926;34972;27498;22806;35916;24367;28286;29609;39037;20024;28919;23436];
 [30871;25405;26202;30358;24779;23451;23113;19975;33109;27754;29579;20129;26505;32593;24448;26106];
 [26395;24536;22916;23041;24013;24494;21361;38886;36829;26693;22260;21807;24799;20026;28493;32500];
 [33479;33806;22996;20255;20266;23614;32428;26410;34074;21619;30031;32963;21890;39759;20301;28205];
 [35859;23561;24944;21355;30239;28201;34442;25991;38395;32441;21563;31283;32010;38382;21985;32705];
 [29934;25373;34583;28065;31389;25105;26017;21351;25569;27779;24043;21596;38056;20044;27745;35820];
 [23627;26080;33436;26791;21566;21556;27595;27494;20116;25410;21320;33310;20237;20398;22366;25098];
 [38654;26212;29289;21247;21153;24735;35823;26132;29081;26512;35199;30802;30717;26224;22075;21560];
 [38177;29306;31232;24687;24076;24713;33181;22805;24796;29060;28911;28330;27728;29312;27268;34989];
 [24109;20064;23219;21916;38115;27927;31995;38553;25103;32454;30606;34430;21283;38686;36758;26247];
 [23777;20384;29421;19979;21414;22799;21523;25472;38184;20808;20185;40092;32420;21688;36132;34900];
 [33335;38386;28046;24358;23244;26174;38505;29616;29486;21439;33146;39301;32673;23466;38519;38480];
 [32447;30456;21410;38262;39321;31665;35140;28248;20065;32724;31077;35814;24819;21709;20139;39033];
 [24055;27233;20687;21521;35937;33831;30813;38660;21066;21742;22179;38144;28040;23477;28102;26195];
 [23567;23389;26657;32918;21880;31505;25928;26964;20123;27463;34638;38795;21327;25375;25658;37034];
 [26012;32961;35856;20889;26800;21368;34809;25032;27844;27899;35874;23633;34218;33455;38156;27427];
 [36763;26032;24571;24515;20449;34885;26143;33125;29481;24826;20852;21009;22411;24418;37026;34892];
 [37266;24184;26447;24615;22995;20804;20982;33016;21256;27769;38596;29066;20241;20462;32670;26429];
 [21957;38152;31168;34966;32483;22687;25100;38656;34394;22040;39035;24464;35768;33988;37207;21465];
 [26093;24207;30044;24676;32110;23167;32490;32493;36713;21927;23459;24748;26059;29572;36873;30307];
 [30505;32474;38772;34203;23398;31348;38634;34880;21195;29071;24490;26092;35810;23547;39535;24033];
 [27529;27739;35757;35759;36874;36805;21387;25276;40486;40493;21568;20011;33469;29273;34460;23830];
 [34905;28079;38597;21713;20122;35766;28937;21693;38409;28895;28153;30416;20005;30740;34578;23721];
 [24310;35328;39068;38414;28814;27839;22852;25513;30524;34893;28436;33395;22576;29141;21388;30746];
 [38593;21761;24422;28976;23476;35866;39564;27523;22830;40495;31207;26472;25196;20335;30113;32650];
 [27915;38451;27687;20208;30162;20859;26679;28478;36992;33136;22934;29814;25671;23591;36965;31377];
 [35875;23002;21676;33280;33647;35201;32768;26928;22094;32822;29239;37326;20918;20063;39029;25494];
 [19994;21494;26355;33099;22812;28082;19968;22777;21307;25558;38129;20381;20234;34915;39056;22839];
 [36951;31227;20202;33008;30097;27778;23452;23016;24413;26885;34433;20506;24050;20057;30691;20197];
 [33402;25233;26131;37009;23673;20159;24441;33222;36920;32900;30123;20134;35028;24847;27589;24518];
 [20041;30410;28322;35811;35758;35850;35793;24322;32764;32716;32462;33589;33643;22240;27575;38899];
 [38452;23035;21535;38134;28139;23493;39278;23609;24341;38544;21360;33521;27185;23156;40560;24212];
 [32552;33721;33828;33829;33639;34631;36814;36194;30408;24433;39062;30828;26144;21727;25317;20323];
 [33219;30152;24248;38605;36362;34553;21647;27891;28044;27704;24703;21191;29992;24189;20248;24736];
 [24551;23588;30001;37038;38080;29369;27833;28216;37193;26377;21451;21491;20305;37321;35825;21448];
 [24188;36802;28132;20110;30402;27014;34398;24858;33286;20313;20446;36926;40060;24841;28189;28180];
 [38533;20104;23089;38632;19982;23679;31161;23431;35821;32701;29577;22495;33419;37057;21505;36935];
 [21947;23786;24481;24840;27442;29425;32946;35465;28020;23507;35029;39044;35947;39533;40499;28170];
 [20900;20803;22435;34945;21407;25588;36757;22253;21592;22278;29503;28304;32536;36828;33489;24895];
 [24616;38498;26352;32422;36234;36291;38053;23731;31908;26376;24742;38405;32792;20113;37095;21248];
 [38504;20801;36816;34164;37213;26197;38901;23381;21277;30776;26434;26685;21705;28798;23472;36733];
 [20877;22312;21681;25874;26242;36190;36163;33039;33900;36973;31967;20991;34299;26531;26089;28577];
 [34468;36481;22122;36896;30338;28790;29157;36131;25321;21017;27901;36156;24590;22686;24974;26366];
 [36192;25166;21939;28195;26413;36711;38113;38392;30504;26629;27048;21643;20045;28856;35784;25688];
 [25995;23429;31364;20538;23528;30651;27617;35449;31896;27838;30415;26025;36759;23853;23637;34360];
 [26632;21344;25112;31449;28251;32509;27167;31456;24432;28467;24352;25484;28072;26454;19976;24080];
 [36134;20183;32960;30260;38556;25307;26157;25214;27836;36213;29031;32617;20806;32903;21484;36974];
 [25240;21746;34544;36761;32773;38167;34071;36825;27993;29645;26015;30495;29956;30759;33275;36126];
 [38024;20390;26517;30137;35786;38663;25391;38215;38453;33976;25379;30529;24449;29424;20105;24596];
 [25972;25327;27491;25919;24103;30151;37073;35777;33437;26525;25903;21553;34584;30693;32930;33026];
 [27713;20043;32455;32844;30452;26893;27542;25191;20540;20356;22336;25351;27490;36286;21482;26088];
 [32440;24535;25370;25527;33267;33268;32622;24092;23769;21046;26234;31209;31258;36136;28825;30164];
 [28382;27835;31378;20013;30405;24544;38047;34935;32456;31181;32959;37325;20210;20247;33311;21608];
 [24030;27954;35788;31909;36724;32920;24090;21650;30385;23449;26172;39588;29664;26666;34523;26417];
 [29482;35832;35803;36880;31481;28891;29038;25284;30633;22065;20027;33879;26609;21161;34496;36142];
 [38136;31569;20303;27880;31069;39547;25235;29226;25341;19987;30742;36716;25776;36186;31686;26729];
 [24196;35013;22918;25758;22766;29366;26894;38181;36861;36184;22368;32512;35846;20934;25417;25305];
 [21331;26700;29730;33537;37196;21828;30528;28796;27978;20857;21672;36164;23039;28363;28100;23388];
 [32043;20180;31869;28371;23376;33258;28173;23383;39683;26837;36394;23447;32508;24635;32437;37049];
 [36208;22863;25549;31199;36275;21330;26063;31062;35781;38459;32452;38075;32386;22068;37257;26368];
 [32618;23562;36981;26152;24038;20304;26590;20570;20316;22352;24231;65533;65533;65533;65533;65533];
 [20109;19980;20800;19984;24319;21317;19989;20120;19998;39730;23404;22121;20008;31162;20031;21269];
 [20039;22829;29243;21358;27664;22239;32996;39319;27603;30590;40727;20022;20127;40720;20060;20073];
 [20115;33416;23387;21868;22031;20164;21389;21405;21411;21413;21422;38757;36189;21274;21493;21286];
 [21294;21310;36188;21350;21347;20994;21000;21006;21037;21043;21055;21056;21068;21086;21089;21084];
 [33967;21117;21122;21121;21136;21139;20866;32596;20155;20163;20169;20162;20200;20193;20203;20190];
 [20251;20211;20258;20324;20213;20261;20263;20233;20267;20318;20327;25912;20314;20317;20319;20311];
 [20274;20285;20342;20340;20369;20361;20355;20367;20350;20347;20394;20348;20396;20372;20454;20456];
 [20458;20421;20442;20451;20444;20433;20447;20472;20521;20556;20467;20524;20495;20526;20525;20478];
 [20508;20492;20517;20520;20606;20547;20565;20552;20558;20588;20603;20645;20647;20649;20666;20694];
 [20742;20717;20716;20710;20718;20743;20747;20189;27709;20312;20325;20430;40864;27718;31860;20846];
 [24061;40649;39320;20865;22804;21241;21261;35335;21264;20971;22809;20821;20128;20822;20147;34926];
 [34980;20149;33044;35026;31104;23348;34819;32696;20907;20913;20925;20924;20935;20886;20898;20901];
 [35744;35750;35751;35754;35764;35765;35767;35778;35779;35787;35791;35790;35794;35795;35796;35798];
 [35800;35801;35804;35807;35808;35812;35816;35817;35822;35824;35827;35830;35833;35836;35839;35840];
 [35842;35844;35847;35852;35855;35857;35858;35860;35861;35862;35865;35867;35864;35869;35871;35872];
 [35873;35877;35879;35882;35883;35886;35887;35890;35891;35893;35894;21353;21370;38429;38434;38433];
 [38449;38442;38461;38460;38466;38473;38484;38495;38503;38508;38514;38516;38536;38541;38551;38576];
 [37015;37019;37021;37017;37036;37025;37044;37043;37046;37050;37048;37040;37071;37061;37054;37072];
 [37060;37063;37075;37094;37090;37084;37079;37083;37099;37103;37118;37124;37154;37150;37155;37169];
 [37167;37177;37187;37190;21005;22850;21154;21164;21165;21182;21759;21200;21206;21232;21471;29166];
 [30669;24308;20981;20988;39727;21430;24321;30042;24047;22348;22441;22433;22654;22716;22725;22737];
 [22313;22316;22314;22323;22329;22318;22319;22364;22331;22338;22377;22405;22379;22406;22396;22395];
 [22376;22381;22390;22387;22445;22436;22412;22450;22479;22439;22452;22419;22432;22485;22488;22490];
 [22489;22482;22456;22516;22511;22520;22500;22493;22539;22541;22525;22509;22528;22558;22553;22596];
 [22560;22629;22636;22657;22665;22682;22656;39336;40729;25087;33401;33405;33407;33423;33418;33448];
 [33412;33422;33425;33431;33433;33451;33464;33470;33456;33480;33482;33507;33432;33463;33454;33483];
 [33484;33473;33449;33460;33441;33450;33439;33476;33486;33444;33505;33545;33527;33508;33551;33543];
 [33500;33524;33490;33496;33548;33531;33491;33553;33562;33542;33556;33557;33504;33493;33564;33617];
 [33627;33628;33544;33682;33596;33588;33585;33691;33630;33583;33615;33607;33603;33631;33600;33559];
 [33632;33581;33594;33587;33638;33637;33640;33563;33641;33644;33642;33645;33646;33712;33656;33715];
 [33716;33696;33706;33683;33692;33669;33660;33718;33705;33661;33720;33659;33688;33694;33704;33722];
 [33724;33729;33793;33765;33752;22535;33816;33803;33757;33789;33750;33820;33848;33809;33798;33748];
 [33759;33807;33795;33784;33785;33770;33733;33728;33830;33776;33761;33884;33873;33882;33881;33907];
 [33927;33928;33914;33929;33912;33852;33862;33897;33910;33932;33934;33841;33901;33985;33997;34000];
 [34022;33981;34003;33994;33983;33978;34016;33953;33977;33972;33943;34021;34019;34060;29965;34104];
 [34032;34105;34079;34106;34134;34107;34047;34044;34137;34120;34152;34148;34142;34170;30626;34115];
 [34162;34171;34212;34216;34183;34191;34169;34222;34204;34181;34233;34231;34224;34259;34241;34268];
 [34303;34343;34309;34345;34326;34364;24318;24328;22844;22849;32823;22869;22874;22872;21263;23586];
 [23589;23596;23604;25164;25194;25247;25275;25290;25306;25303;25326;25378;25334;25401;25419;25411];
 [25517;25590;25457;25466;25486;25524;25453;25516;25482;25449;25518;25532;25586;25592;25568;25599];
 [25540;25566;25550;25682;25542;25534;25669;25665;25611;25627;25632;25612;25638;25633;25694;25732];
 [25709;25750;25722;25783;25784;25753;25786;25792;25808;25815;25828;25826;25865;25893;25902;24331];
 [24530;29977;24337;21343;21489;21501;21481;21480;21499;21522;21526;21510;21579;21586;21587;21588];
 [21590;21571;21537;21591;21593;21539;21554;21634;21652;21623;21617;21604;21658;21659;21636;21622];
 [21606;21661;21712;21677;21698;21684;21714;21671;21670;21715;21716;21618;21667;21717;21691;21695];
 [21708;21721;21722;21724;21673;21674;21668;21725;21711;21726;21787;21735;21792;21757;21780;21747];
 [21794;21795;21775;21777;21799;21802;21863;21903;21941;21833;21869;21825;21845;21823;21840;21820];
 [21815;21846;21877;21878;21879;21811;21808;21852;21899;21970;21891;21937;21945;21896;21889;21919];
 [21886;21974;21905;21883;21983;21949;21950;21908;21913;21994;22007;21961;22047;21969;21995;21996];
 [21972;21990;21981;21956;21999;21989;22002;22003;21964;21965;21992;22005;21988;36756;22046;22024];
 [22028;22017;22052;22051;22014;22016;22055;22061;22104;22073;22103;22060;22093;22114;22105;22108];
 [22092;22100;22150;22116;22129;22123;22139;22140;22149;22163;22191;22228;22231;22237;22241;22261];
 [22251;22265;22271;22276;22282;22281;22300;24079;24089;24084;24081;24113;24123;24124;24119;24132];
 [24148;24155;24158;24161;23692;23674;23693;23696;23702;23688;23704;23705;23697;23706;23708;23733];
 [23714;23741;23724;23723;23729;23715;23745;23735;23748;23762;23780;23755;23781;23810;23811;23847];
 [23846;23854;23844;23838;23814;23835;23896;23870;23860;23869;23916;23899;23919;23901;23915;23883];
 [23882;23913;23924;23938;23961;23965;35955;23991;24005;24435;24439;24450;24455;24457;24460;24469];
 [24473;24476;24488;24493;24501;24508;34914;24417;29357;29360;29364;29367;29368;29379;29377;29390];
 [29389;29394;29416;29423;29417;29426;29428;29431;29441;29427;29443;29434;29435;29463;29459;29473];
 [29450;29470;29469;29461;29474;29497;29477;29484;29496;29489;29520;29517;29527;29536;29548;29551];
 [29566;33307;22821;39143;22820;22786;39267;39271;39272;39273;39274;39275;39276;39284;39287;39293];
 [39296;39300;39303;39306;39309;39312;39313;39315;39316;39317;24192;24209;24203;24214;24229;24224];
 [24249;24245;24254;24243;36179;24274;24273;24283;24296;24298;33210;24516;24521;24534;24527;24579];
 [24558;24580;24545;24548;24574;24581;24582;24554;24557;24568;24601;24629;24614;24603;24591;24589];
 [24617;24619;24586;24639;24609;24696;24697;24699;24698;24642;24682;24701;24726;24730;24749;24733];
 [24707;24722;24716;24731;24812;24763;24753;24797;24792;24774;24794;24756;24864;24870;24853;24867];
 [24820;24832;24846;24875;24906;24949;25004;24980;24999;25015;25044;25077;24541;38579;38377;38379];
 [38385;38387;38389;38390;38396;38398;38403;38404;38406;38408;38410;38411;38412;38413;38415;38418];
 [38421;38422;38423;38425;38426;20012;29247;25109;27701;27732;27740;27722;27811;27781;27792;27796];
 [27788;27752;27753;27764;27766;27782;27817;27856;27860;27821;27895;27896;27889;27863;27826;27872];
 [27862;27898;27883;27886;27825;27859;27887;27902;27961;27943;27916;27971;27976;27911;27908;27929];
 [27918;27947;27981;27950;27957;27930;27983;27986;27988;27955;28049;28015;28062;28064;27998;28051];
 [28052;27996;28000;28028;28003;28186;28103;28101;28126;28174;28095;28128;28177;28134;28125;28121];
 [28182;28075;28172;28078;28203;28270;28238;28267;28338;28255;28294;28243;28244;28210;28197;28228];
 [28383;28337;28312;28384;28461;28386;28325;28327;28349;28347;28343;28375;28340;28367;28303;28354];
 [28319;28514;28486;28487;28452;28437;28409;28463;28470;28491;28532;28458;28425;28457;28553;28557];
 [28556;28536;28530;28540;28538;28625;28617;28583;28601;28598;28610;28641;28654;28638;28640;28655];
 [28698;28707;28699;28729;28725;28751;28766;23424;23428;23445;23443;23461;23480;29999;39582;25652];
 [23524;23534;35120;23536;36423;35591;36790;36819;36821;36837;36846;36836;36841;36838;36851;36840];
 [36869;36868;36875;36902;36881;36877;36886;36897;36917;36918;36909;36911;36932;36945;36946;36944];
 [36968;36952;36962;36955;26297;36980;36989;36994;37000;36995;37003;24400;24407;24406;24408;23611];
 [21675;23632;23641;23409;23651;23654;32700;24362;24361;24365;33396;24380;39739;23662;22913;22915];
 [22925;22953;22954;22947;22935;22986;22955;22942;22948;22994;22962;22959;22999;22974;23045;23046];
 [23005;23048;23011;23000;23033;23052;23049;23090;23092;23057;23075;23059;23104;23143;23114;23125];
 [23100;23138;23157;33004;23210;23195;23159;23162;23230;23275;23218;23250;23252;23224;23264;23267];
 [23281;23254;23270;23256;23260;23305;23319;23318;23346;23351;23360;23573;23580;23386;23397;23411];
 [23377;23379;23394;39541;39543;39544;39546;39551;39549;39552;39553;39557;39560;39562;39568;39570];
 [39571;39574;39576;39579;39580;39581;39583;39584;39586;39587;39589;39591;32415;32417;32419;32421];
 [32424;32425;32429;32432;32446;32448;32449;32450;32457;32459;32460;32464;32468;32471;32475;32480];
 [32481;32488;32491;32494;32495;32497;32498;32525;32502;32506;32507;32510;32513;32514;32515;32519];
 [32520;32523;32524;32527;32529;32530;32535;32537;32540;32539;32543;32545;32546;32547;32548;32549];
 [32550;32551;32554;32555;32556;32557;32559;32560;32561;32562;32563;32565;24186;30079;24027;30014];
 [37013;29582;29585;29614;29602;29599;29647;29634;29649;29623;29619;29632;29641;29640;29669;29657];
 [39036;29706;29673;29671;29662;29626;29682;29711;29738;29787;29734;29733;29736;29744;29742;29740];
 [29723;29722;29761;29788;29783;29781;29785;29815;29805;29822;29852;29838;29824;29825;29831;29835];
 [29854;29864;29865;29840;29863;29906;29882;38890;38891;38892;26444;26451;26462;26440;26473;26533];
 [26503;26474;26483;26520;26535;26485;26536;26526;26541;26507;26487;26492;26608;26633;26584;26634];
 [26601;26544;26636;26585;26549;26586;26547;26589;26624;26563;26552;26594;26638;26561;26621;26674];
 [26675;26720;26721;26702;26722;26692;26724;26755;26653;26709;26726;26689;26727;26688;26686;26698];
 [26697;26665;26805;26767;26740;26743;26771;26731;26818;26990;26876;26911;26912;26873;26916;26864];
 [26891;26881;26967;26851;26896;26993;26937;26976;26946;26973;27012;26987;27008;27032;27000;26932];
 [27084;27015;27016;27086;27017;26982;26979;27001;27035;27047;27067;27051;27053;27092;27057;27073];
 [27082;27103;27029;27104;27021;27135;27183;27117;27159;27160;27237;27122;27204;27198;27296;27216];
 [27227;27189;27278;27257;27197;27176;27224;27260;27281;27280;27305;27287;27307;29495;29522;27521];
 [27522;27527;27524;27538;27539;27533;27546;27547;27553;27562;36715;36717;36721;36722;36723;36725];
 [36726;36728;36727;36729;36730;36732;36734;36737;36738;36740;36743;36747;36749;36750;36751;36760];
 [36762;36558;25099;25111;25115;25119;25122;25121;25125;25124;25132;33255;29935;29940;29951;29967];
 [29969;29971;25908;26094;26095;26096;26122;26137;26482;26115;26133;26112;28805;26359;26141;26164];
 [26161;26166;26165;32774;26207;26196;26177;26191;26198;26209;26199;26231;26244;26252;26279;26269];
 [26302;26331;26332;26342;26345;36146;36147;36150;36155;36157;36160;36165;36166;36168;36169;36167];
 [36173;36181;36185;35271;35274;35275;35276;35278;35279;35280;35281;29294;29343;29277;29286;29295];
 [29310;29311;29316;29323;29325;29327;29330;25352;25394;25520;25663;25816;32772;27626;27635;27645];
 [27637;27641;27653;27655;27654;27661;27669;27672;27673;27674;27681;27689;27684;27690;27698;25909];
 [25941;25963;29261;29266;29270;29232;34402;21014;32927;32924;32915;32956;26378;32957;32945;32939];
 [32941;32948;32951;32999;33000;33001;33002;32987;32962;32964;32985;32973;32983;26384;32989;33003];
 [33009;33012;33005;33037;33038;33010;33020;26389;33042;35930;33078;33054;33068;33048;33074;33096];
 [33100;33107;33140;33113;33114;33137;33120;33129;33148;33149;33133;33127;22605;23221;33160;33154];
 [33169;28373;33187;33194;33228;26406;33226;33211;33217;33190;27428;27447;27449;27459;27462;27481];
 [39121;39122;39123;39125;39129;39130;27571;24384;27586;35315;26000;40785;26003;26044;26054;26052];
 [26051;26060;26062;26066;26070;28800;28828;28822;28829;28859;28864;28855;28843;28849;28904;28874];
 [28944;28947;28950;28975;28977;29043;29020;29032;28997;29042;29002;29048;29050;29080;29107;29109];
 [29096;29088;29152;29140;29159;29177;29213;29224;28780;28952;29030;29113;25150;25149;25155;25160];
 [25161;31035;31040;31046;31049;31067;31068;31059;31066;31074;31063;31072;31087;31079;31098;31109];
 [31114;31130;31143;31155;24529;24528;24636;24669;24666;24679;24641;24665;24675;24747;24838;24845];
 [24925;25001;24989;25035;25041;25094;32896;32895;27795;27894;28156;30710;30712;30720;30729;30743];
 [30744;30737;26027;30765;30748;30749;30777;30778;30779;30751;30780;30757;30764;30755;30761;30798];
 [30829;30806;30807;30758;30800;30791;30796;30826;30875;30867;30874;30855;30876;30881;30883;30898];
 [30905;30885;30932;30937;30921;30956;30962;30981;30964;30995;31012;31006;31028;40859;40697;40699];
 [40700;30449;30468;30477;30457;30471;30472;30490;30498;30489;30509;30502;30517;30520;30544;30545];
 [30535;30531;30554;30568;30562;30565;30591;30605;30589;30592;30604;30609;30623;30624;30640;30645];
 [30653;30010;30016;30030;30027;30024;30043;30066;30073;30083;32600;32609;32607;35400;32616;32628];
 [32625;32633;32641;32638;30413;30437;34866;38021;38022;38023;38027;38026;38028;38029;38031;38032];
 [38036;38039;38037;38042;38043;38044;38051;38052;38059;38058;38061;38060;38063;38064;38066;38068];
 [38070;38071;38072;38073;38074;38076;38077;38079;38084;38088;38089;38090;38091;38092;38093;38094];
 [38096;38097;38098;38101;38102;38103;38105;38104;38107;38110;38111;38112;38114;38116;38117;38119];
 [38120;38122;38121;38123;38126;38127;38131;38132;38133;38135;38137;38140;38141;38143;38147;38146];
 [38150;38151;38153;38154;38157;38158;38159;38162;38163;38164;38165;38166;38168;38171;38173;38174];
 [38175;38178;38186;38187;38185;38188;38193;38194;38196;38198;38199;38200;38204;38206;38207;38210];
 [38197;38212;38213;38214;38217;38220;38222;38223;38226;38227;38228;38230;38231;38232;38233;38235];
 [38238;38239;38237;38241;38242;38244;38245;38246;38247;38248;38249;38250;38251;38252;38255;38257];
 [38258;38259;38202;30695;30700;38601;31189;31213;31203;31211;31238;23879;31235;31234;31262;31252];
 [31289;31287;31313;40655;39333;31344;30344;30350;30355;30361;30372;29918;29920;29996;40480;40482];
 [40488;40489;40490;40491;40492;40498;40497;40502;40504;40503;40505;40506;40510;40513;40514;40516];
 [40518;40519;40520;40521;40523;40524;40526;40529;40533;40535;40538;40539;40540;40542;40547;40550];
 [40551;40552;40553;40554;40555;40556;40561;40557;40563;30098;30100;30102;30112;30109;30124;30115];
 [30131;30132;30136;30148;30129;30128;30147;30146;30166;30157;30179;30184;30182;30180;30187;30183];
 [30211;30193;30204;30207;30224;30208;30213;30220;30231;30218;30245;30232;30229;30233;30235;30268];
 [30242;30240;30272;30253;30256;30271;30261;30275;30270;30259;30285;30302;30292;30300;30294;30315];
 [30319;32714;31462;31352;31353;31360;31366;31368;31381;31398;31392;31404;31400;31405;31411;34916];
 [34921;34930;34941;34943;34946;34978;35014;34999;35004;35017;35042;35022;35043;35045;35057;35098];
 [35068;35048;35070;35056;35105;35097;35091;35099;35082;35124;35115;35126;35137;35174;35195;30091];
 [32997;30386;30388;30684;32786;32788;32790;32796;32800;32802;32805;32806;32807;32809;32808;32817];
 [32779;32821;32835;32838;32845;32850;32873;32881;35203;39032;39040;39043;39049;39052;39053;39055];
 [39060;39066;39067;39070;39071;39073;39074;39077;39078;34381;34388;34412;34414;34431;34426;34428];
 [34427;34472;34445;34443;34476;34461;34471;34467;34474;34451;34473;34486;34500;34485;34510;34480];
 [34490;34481;34479;34505;34511;34484;34537;34545;34546;34541;34547;34512;34579;34526;34548;34527];
 [34520;34513;34563;34567;34552;34568;34570;34573;34569;34595;34619;34590;34597;34606;34586;34622];
 [34632;34612;34609;34601;34615;34623;34690;34594;34685;34686;34683;34656;34672;34636;34670;34699];
 [34643;34659;34684;34660;34649;34661;34707;34735;34728;34770;34758;34696;34693;34733;34711;34691];
 [34731;34789;34732;34741;34739;34763;34771;34749;34769;34752;34762;34779;34794;34784;34798;34838];
 [34835;34814;34826;34843;34849;34873;34876;32566;32578;32580;32581;33296;31482;31485;31496;31491];
 [31492;31509;31498;31531;31503;31559;31544;31530;31513;31534;31537;31520;31525;31524;31539;31550];
 [31518;31576;31578;31557;31605;31564;31581;31584;31598;31611;31586;31602;31601;31632;31654;31655];
 [31672;31660;31645;31656;31621;31658;31644;31650;31659;31668;31697;31681;31692;31709;31706;31717];
 [31718;31722;31756;31742;31740;31759;31766;31755;31775;31786;31782;31800;31809;31808;33278;33281];
 [33282;33284;33260;34884;33313;33314;33315;33325;33327;33320;33323;33336;33339;33331;33332;33342];
 [33348;33353;33355;33359;33370;33375;33384;34942;34949;34952;35032;35039;35166;32669;32671;32679];
 [32687;32688;32690;31868;25929;31889;31901;31900;31902;31906;31922;31932;31933;31937;31943;31948];
 [31949;31944;31941;31959;31976;33390;26280;32703;32718;32725;32741;32737;32742;32745;32750;32755];
 [31992;32119;32166;32174;32327;32411;40632;40628;36211;36228;36244;36241;36273;36199;36205;35911];
 [35913;37194;37200;37198;37199;37220;37218;37217;37232;37225;37231;37245;37246;37234;37236;37241];
 [37260;37253;37264;37261;37265;37282;37283;37290;37293;37294;37295;37301;37300;37306;35925;40574];
 [36280;36331;36357;36441;36457;36277;36287;36284;36282;36292;36310;36311;36314;36318;36302;36303];
 [36315;36294;36332;36343;36344;36323;36345;36347;36324;36361;36349;36372;36381;36383;36396;36398];
 [36387;36399;36410;36416;36409;36405;36413;36401;36425;36417;36418;36433;36434;36426;36464;36470];
 [36476;36463;36468;36485;36495;36500;36496;36508;36510;35960;35970;35978;35973;35992;35988;26011];
 [35286;35294;35290;35292;35301;35307;35311;35390;35622;38739;38633;38643;38639;38662;38657;38664];
 [38671;38670;38698;38701;38704;38718;40832;40835;40837;40838;40839;40840;40841;40842;40844;40702];
 [40715;40717;38585;38588;38589;38606;38610;30655;38624;37518;37550;37576;37694;37738;37834;37775];
 [37950;37995;40063;40066;40069;40070;40071;40072;31267;40075;40078;40080;40081;40082;40084;40085];
 [40090;40091;40094;40095;40096;40097;40098;40099;40101;40102;40103;40104;40105;40107;40109;40110];
 [40112;40113;40114;40115;40116;40117;40118;40119;40122;40123;40124;40125;40132;40133;40134;40135];
 [40138;40139;40140;40141;40142;40143;40144;40147;40148;40149;40151;40152;40153;40156;40157;40159];
 [40162;38780;38789;38801;38802;38804;38831;38827;38819;38834;38836;39601;39600;39607;40536;39606];
 [39610;39612;39617;39616;39621;39618;39627;39628;39633;39749;39747;39751;39753;39752;39757;39761];
 [39144;39181;39214;39253;39252;39647;39649;39654;39663;39659;39675;39661;39673;39688;39695;39699];
 [39711;39715;40637;40638;32315;40578;40583;40584;40587;40594;37846;40605;40607;40667;40668;40669];
 [40672;40671;40674;40681;40679;40677;40682;40687;40738;40748;40751;40761;40759;40765;40766;40772]].

(* lib/converters/gb2312.h:1121-2053 gb2312_2charset *)
Definition gb2312_2charset : tab := mk [
 [8552;8556;8487;8547;8512;8513;10276;10274;10280;10278;10298;10284;10282;10288;10286;8514];
 [10292;10290;10297;10273;10277;10279;10281;10285;10289;10275;10283;10287;10291;10293;10294;10295];
 [10296;8486;8485;9761;9762;9763;9764;9765;9766;9767;9768;9769;9770;9771;9772;9773];
 [9774;9775;9776;9777;9778;9779;9780;9781;9782;9783;9784;9793;9794;9795;9796;9797];
 [9798;9799;9800;9801;9802;9803;9804;9805;9806;9807;9808;9809;9810;9811;9812;9813];
 [9814;9815;9816;10023;10017;10018;10019;10020;10021;10022;10024;10025;10026;10027;10028;10029];
 [10030;10031;10032;10033;10034;10035;10036;10037;10038;10039;10040;10041;10042;10043;10044;10045];
 [10046;10047;10048;10049;10065;10066;10067;10068;10069;10070;10072;10073;10074;10075;10076;10077];
 [10078;10079;10080;10081;10082;10083;10084;10085;10086;10087;10088;10089;10090;10091;10092;10093];
 [10094;10095;10096;10097;10071;8490;8492;8494;8495;8496;8497;8493;8555;8548;8549;8569];
 [8550;8557;8817;8818;8819;8820;8821;8822;8823;8824;8825;8826;8827;8828;8571;8572];
 [8570;8573;8522;8519;8518;8524;8536;8542;8527;8526;8516;8517;8521;8520;8530;8531];
 [8544;8543;8515;8523;8535;8534;8533;8537;8532;8540;8541;8538;8539;8529;8525;8528];
 [8793;8794;8795;8796;8797;8798;8799;8800;8801;8802;8773;8774;8775;8776;8777;8778];
 [8779;8780;8781;8782;8783;8784;8785;8786;8787;8788;8789;8790;8791;8792;8753;8754];
 [8755;8756;8757;8758;8759;8760;8761;8762;8763;8764;8765;8766;8767;8768;8769;8770];
 [8771;8772;10532;10533;10534;10535;10536;10537;10538;10539;10540;10541;10542;10543;10544;10545];
 [10546;10547;10548;10549;10550;10551;10552;10553;10554;10555;10556;10557;10558;10559;10560;10561];
 [10562;10563;10564;10565;10566;10567;10568;10569;10570;10571;10572;10573;10574;10575;10576;10577];
 [10578;10579;10580;10581;10582;10583;10584;10585;10586;10587;10588;10589;10590;10591;10592;10593];
 [10594;10595;10596;10597;10598;10599;10600;10601;10602;10603;10604;10605;10606;10607;8566;8565];
 [8568;8567;8564;8563;8560;8562;8561;8559;8558;8546;8545;8481;8482;8483;8488;8489];
 [8500;8501;8502;8503;8504;8505;8506;8507;8510;8511;8574;8498;8499;8508;8509;9249];
 [9250;9251;9252;9253;9254;9255;9256;9257;9258;9259;9260;9261;9262;9263;9264;9265];
 [9266;9267;9268;9269;9270;9271;9272;9273;9274;9275;9276;9277;9278;9279;9280;9281];
 [9282;9283;9284;9285;9286;9287;9288;9289;9290;9291;9292;9293;9294;9295;9296;9297];
 [9298;9299;9300;9301;9302;9303;9304;9305;9306;9307;9308;9309;9310;9311;9312;9313];
 [9314;9315;9316;9317;9318;9319;9320;9321;9322;9323;9324;9325;9326;9327;9328;9329];
 [9330;9331;9505;9506;9507;9508;9509;9510;9511;9512;9513;9514;9515;9516;9517;9518];
 [9519;9520;9521;9522;9523;9524;9525;9526;9527;9528;9529;9530;9531;9532;9533;9534];
 [9535;9536;9537;9538;9539;9540;9541;9542;9543;9544;9545;9546;9547;9548;9549;9550];
 [9551;9552;9553;9554;9555;9556;9557;9558;9559;9560;9561;9562;9563;9564;9565;9566];
 [9567;9568;9569;9570;9571;9572;9573;9574;9575;9576;9577;9578;9579;9580;9581;9582];
 [9583;9584;9585;9586;9587;9588;9589;9590;8484;10309;10310;10311;10312;10313;10314;10315];
 [10316;10317;10318;10319;10320;10321;10322;10323;10324;10325;10326;10327;10328;10329;10330;10331];
 [10332;10333;10334;10335;10336;10337;10338;10339;10340;10341;10342;10343;10344;10345;8805;8806];
 [8807;8808;8809;8810;8811;8812;8813;8814;21051;13857;18015;19826;21833;18557;18767;20290];
 [22562;12859;21355;22564;13171;22312;18258;22567;19008;18288;12667;21045;13396;13867;19263;22569];
 [13866;16701;20815;18725;22573;14454;20798;25436;22096;14177;13358;16729;22588;19816;13604;20010];
 [22135;16502;15961;22575;17483;15939;22577;17204;21093;22062;20058;21799;14965;14118;16470;17977];
 [17746;18247;14676;13131;21074;22591;15941;18034;21042;20272;20327;19049;22592;17010;16978;18537];
 [18220;16715;21352;21881;19010;13950;22561;21338;16247;21574;15141;22593;20069;15918;22568;20807];
 [20521;22589;22895;19830;16186;15675;14885;21088;12922;14944;17462;20333;15913;19748;16705;18263];
 [22897;22900;18507;22633;21082;18994;18506;22636;22634;22598;15734;17997;13168;22635;15729;15721];
 [18516;13395;16984;12886;22352;19019;19323;21836;14390;20297;22874;22640;18218;22638;13434;16750];
 [21076;22637;21063;22639;17223;20854;22105;22642;22645;15486;15451;18510;14173;14146;18035;22648];
 [21057;20073;15423;14204;14117;20573;22106;21317;15215;15201;22641;18721;20016;13355;22643;18763];
 [22646;16983;22647;20017;22649;12846;14656;22819;12393;16742;18796;19269;19270;22820;13672;13611];
 [20027;13645;22305;22388;21331;19557;14926;22818;22876;21344;22653;14192;22391;22654;22650;22817];
 [17507;21302;22644;22877;22651;17765;16464;20848;12379;15441;22822;22821;22828;22830;22827;19001];
 [22825;22070;13150;22824;16509;19020;22826;22823;22832;13873;14633;21056;20288;16962;15684;21868];
 [12896;18248;16235;22829;22831;20074;14958;18262;12643;13401;13933;22836;16161;22878;18254;16510];
 [22840;19287;14205;22837;22839;12579;21345;22841;20549;22838;22833;22834;16681;22835;15475;20574];
 [14377;15971;22845;22842;12339;22850;22852;12598;22847;13625;15987;19528;14962;21072;22851;15720];
 [13099;22853;15979;22854;22843;17503;22846;22849;22848;21806;22069;18275;22856;15449;22858;22844];
 [22859;17963;22857;22390;19747;15649;22860;17724;19765;22861;22855;13093;16254;14389;16508;12408];
 [13430;22862;22863;13346;22864;13407;12353;22865;18741;20337;22866;16709;22870;18734;22869;22868];
 [22871;19291;15657;17959;22867;22872;22873;18533;16476;13945;22563;21578;21546;20566;13156;21847];
 [20296;14690;16203;17250;13906;19779;22894;22896;13619;13877;15908;18539;18475;12363;14635;16761];
 [22882;16444;14642;14680;20555;12664;18020;15967;13668;22344;20856;15462;19038;15421;22886;22631];
 [17498;14420;18493;12897;21593;17200;17249;23074;18527;20532;15996;17705;14682;23075;21545;23076];
 [22907;13868;14187;12665;22908;13157;15990;16246;21041;16484;13875;22910;22909;15931;18016;22332];
 [23073;16697;13682;16744;15477;13397;16733;17533;15416;14130;14191;22892;17982;16173;15179;13642];
 [23369;20567;19769;12348;13174;15223;23370;14895;21604;13622;13683;22614;18512;14166;18256;22615];
 [16175;23355;22616;20556;15150;27454;16720;16757;21618;14421;13364;13173;18750;17744;17753;16507];
 [12656;22617;14670;13629;22618;22086;19234;18479;18738;13388;16204;14708;22619;22620;13927;15425];
 [19562;20343;22621;18224;14672;15651;19550;17994;22624;22622;22623;12414;15975;18979;15476;14385];
 [14446;22626;15691;22628;22627;17788;22629;22630;16678;18480;12396;14630;15443;20081;23357;16723];
 [13871;22138;17708;15705;23358;23359;16504;15906;16461;23360;19014;12842;21314;17251;20779;23362];
 [16469;23363;16177;17468;18266;23364;22888;18775;14644;20080;21576;12412;13394;20569;22889;24139];
 [22891;22576;15151;12593;13143;22606;21585;15667;16239;20283;22608;14155;22609;17957;18296;21053];
 [22610;17508;18990;18215;22566;18813;20071;15196;12395;15146;20525;12592;22372;22335;13605;17012];
 [17487;12841;12855;12645;24370;21820;16168;16940;22613;16945;22612;20052;23136;20032;22580;17198];
 [21281;20003;15412;18484;16977;15981;20534;23137;18276;13095;13938;19580;16506;16503;20793;20833];
 [22599;12894;16485;14961;22600;21549;20321;22601;22602;20291;13176;15943;22603;23372;18469;20312];
 [18558;12878;21334;12902;15408;21329;19243;14132;14114;19045;18465;19036;12644;20592;17745;23365];
 [13694;16218;14661;15972;16749;24374;24373;22075;15696;21849;12360;13859;16201;19496;24371;18999];
 [21330;22607;21046;14917;19262;19518;24375;13680;24372;21365;13140;14455;24378;14927;15402;13685];
 [19756;17275;14963;16500;19778;20338;24376;20293;16960;24377;17008;15997;16735;19788;21111;14157];
 [24385;24388;14193;12361;13910;14164;14892;19581;16212;19249;18036;22056;24389;20066;13107;20092];
 [13365;20039;14960;20065;20797;24384;13428;13130;14438;24379;17477;24380;24381;24382;17723;24383];
 [24386;21553;24387;18234;20056;17496;24394;24399;22108;24393;24410;20022;14919;24398;24392;17758];
 [18795;14964;17276;15959;24390;24397;17752;21798;14925;15948;21309;14400;22116;24391;14654;16167];
 [16764;24395;24396;24400;24411;24421;24407;24406;22345;24419;24420;25963;21031;24402;16169;21595];
 [16200;24404;20300;24413;20810;24414;12327;17975;24403;14949;13919;19803;14718;21589;24415;20332];
 [12325;24423;24401;20806;24405;24408;24409;24412;15145;24416;24417;24418;24422;24424;21300;14439];
 [17718;24426;18778;16680;17476;16222;20344;21852;24430;12856;14943;24428;23361;20836;19316;13373];
 [12326;24433;19526;24434;24429;24425;24427;24431;24432;15165;24435;24436;15139;19035;20008;24615];
 [13098;24614;24609;24446;19801;24444;24442;16208;22340;18764;24440;12321;24445;24443;24610;24616];
 [14152;17953;18742;16434;24437;17726;22596;24441;17526;24611;24612;24613;20517;24628;19556;24625];
 [16166;24623;20025;24619;18758;16430;24622;14957;14896;24617;24438;24627;24632;13357;24633;20274];
 [14920;24624;20602;24620;21627;24439;17767;24621;21367;24630;24631;24644;20577;24636;24649;24650];
 [24638;24618;18724;24641;24626;19016;24643;24629;20043;19267;24653;24646;24642;24651;24634;24639];
 [24640;24645;24647;24648;24652;24635;19284;24661;24662;24658;24656;15438;24657;14402;22597;20586];
 [17007;24655;24637;24660;24659;24663;24668;24664;22134;13104;22380;19259;24666;20091;14937;24673];
 [24669;21037;24674;24667;24665;24671;24672;24670;24676;18039;22572;21611;24678;19017;24677;14401];
 [24679;24680;24681;24675;14911;19559;24682;20345;24683;18498;15680;17490;24684;24685;18292;19268];
 [24686;15192;22582;21106;24687;19781;13914;24689;21552;16423;13393;20007;24688;24690;14668;14714];
 [19772;24691;18004;24692;21554;18470;24694;24693;24695;19777;18981;21594;23383;23385;23384;14695];
 [23388;23389;13656;23386;23387;13089;23391;15224;22071;23392;15993;14139;23376;19502;16178;15157];
 [22392;16211;16233;15457;19507;23390;12371;20075;14168;22329;17986;16420;19513;23399;23393;17978];
 [23395;23400;17783;23402;23401;16192;23398;23397;13369;16428;16930;23394;23396;20557;23405;16477];
 [23410;13922;23411;23378;14648;21547;23404;16209;23408;23377;13670;23403;16229;23406;23409;23417];
 [14625;12323;17009;13127;23407;23416;18002;23412;23413;23415;23414;23422;21362;12858;23421;23588];
 [23419;23418;23420;17760;15225;23587;23589;19523;13905;23872;23585;23586;18229;13929;23591;23590];
 [23593;12580;13644;16176;20831;13890;23592;19322;27507;19292;19326;19521;18555;23594;19566;23595];
 [23379;23599;23596;15923;19067;23597;18762;17465;18237;23598;21622;20582;17451;13909;23380;12634];
 [23381;23382;14910;18496;19007;18505;22323;18809;16199;14968;21052;25146;13350;12600;14388;20292];
 [22887;20262;19810;22893;13920;21049;14651;25145;25143;13427;19564;19499;14194;22578;20843;14907];
 [18983;19767;21060;16228;15440;13921;24133;24134;23356;20825;18022;17486;14190;14172;16252;22368];
 [18037;12604;24136;15665;19543;24138;24137;13676;18781;12354;17710;17707;17484;15465;19325;14915];
 [25977;18535;25978;19837;22321;14398;17000;18513;25979;13898;15435;20861;26145;17262;26148;25982];
 [26149;19799;14145;25980;25981;26147;17501;26152;26151;17219;18014;26154;17463;26146;19004;15715];
 [14659;26150;20565;20015;26153;26160;21030;15658;26157;26159;16465;21068;15399;26161;21110;22347];
 [19838;19806;16934;26155;26156;15679;26158;26163;26162;26166;26168;17519;17480;15978;18799;26167];
 [13936;17252;21353;26164;26165;18466;26173;26169;17989;19825;26171;26172;15209;26174;26170;16439];
 [21284;26175;18804;26179;26180;20598;17213;17220;26178;26177;26183;20273;27508;26186;26181;15454];
 [18729;15413;20307;26184;26185;26190;26192;26193;26187;13653;26188;26191;17499;26182;26189;26194];
 [26196;26195;26197;22904;26198;26199;22355;26205;26206;16215;21584;22358;13414;19311;26202;22595];
 [22350;20514;17231;26207;15422;14658;26203;20775;14882;16975;22571;19051;25966;26204;14197;18534];
 [17525;25906;17534;19324;25907;21804;21358;19032;12338;19278;19818;14954;25909;25908;22362;14681];
 [22118;13864;19824;21067;12582;18997;13160;18803;16205;20603;19026;25910;15170;20316;14636;21591];
 [14886;20839;20348;15442;25911;18525;16237;12662;19294;15429;15428;21114;17244;16220;14395;17218];
 [14894;21538;18270;17455;12908;14673;25915;16712;21807;25916;25918;13415;13908;19266;20784;13628];
 [19033;14178;18788;15659;20030;22384;20513;18777;13947;26200;15458;13118;18768;26201;13090;24140];
 [21320;24141;21026;24142;15949;24143;18988;21116;13151;25962;17505;15905;20018;17522;15958;17960];
 [12899;15955;18300;19563;15724;20061;19002;17985;25964;20540;21817;25965;19060;19776;16965;25967];
 [16964;25968;25976;19789;18749;21081;24872;21356;19306;18033;24876;24871;24873;24874;24879;12909];
 [24875;14426;24877;24878;24880;13626;24881;24883;24888;20818;24886;24885;16747;24887;21568;24882];
 [24890;12342;24884;16249;24889;24891;24894;24892;22085;20287;24893;24895;16973;13931;21368;18253];
 [14181;15998;24896;24897;24903;13159;18025;13406;20802;24904;24902;24901;24899;24898;12608;21816];
 [24900;24907;24908;24906;28538;24915;24914;18230;24905;24910;24912;24916;24913;24909;24911;24917];
 [24918;24919;24920;24922;24923;20001;26461;13352;22109;20786;13106;14628;22387;18249;15966;14638];
 [20055;12910;23375;15418;21073;19272;12365;20335;22883;15725;12626;19024;12860;19239;14123;18982];
 [20259;24696;21834;24699;24698;17729;19579;16689;24697;22115;12847;22084;13659;13432;22049;20271];
 [12399;24700;24865;13091;24701;24702;17201;17245;24866;14201;15183;24867;17467;24868;24869;24870];
 [13361;14409;17981;17514;12834;20562;26459;15171;21335;21316;14691;25167;22319;18284;12627;13362];
 [25169;20594;16942;25168;16226;21286;13655;25170;13674;17261;14461;14382;17747;14159;25172;25171];
 [13896;22393;19749;25176;25174;19068;16181;21305;25173;25175;16686;16456;25179;25178;16426;16718];
 [25180;25181;25182;23368;20819;19746;15656;24131;22565;16170;23373;21100;18042;17706;24132;12631];
 [24366;19005;24369;14637;21117;14373;14955;13146;13660;21829;17238;20306;15137;25971;25970;25972];
 [19812;18549;13615;18239;25974;27696;25958;14697;13617;16956;25960;25959;25961;21069;24938;20558];
 [19758;20837;12874;12651;12658;17773;21827;21296;24924;24925;21083;13113;12619;19833;21879;24926];
 [15926;13437;24927;14940;24928;15154;16969;24929;20588;19773;24930;13635;17735;24931;24932;21369];
 [24933;20781;24934;20002;24935;13634;24936;15189;20548;25184;12632;21092;25185;15433;18508;25187];
 [27774;27773;24367;25186;22078;19836;17190;25411;22098;25191;25192;21319;25196;16236;25197;25189];
 [13120;17518;25198;20547;14966;25193;14174;15155;19500;19275;25188;25190;25194;25195;25207;25204];
 [21621;25203;17709;21882;17730;12864;25199;25202;16687;19260;13601;25209;15409;25201;20564;21561];
 [25205;14678;25206;18259;25200;22364;27937;25208;27941;25214;19025;16693;15184;16214;14947;19233];
 [27942;27939;27938;15190;27943;20596;27940;14942;13943;25377;13874;19569;14631;20258;18209;16210];
 [13937;25210;25211;25213;25212;17493;25378;21313;25383;18244;20260;25385;14903;25384;15194;25379];
 [25380;25386;25382;20082;21318;15164;21571;17530;27944;20604;25381;17269;25389;12591;25394;15426];
 [25388;13631;18281;25392;15914;19823;15219;19560;25391;25393;20263;25390;20009;15197;13675;15973];
 [12882;13133;12601;25387;12881;13612;14687;13928;20331;25399;15180;18503;20554;25400;13166;27945];
 [21370;21348;27946;25401;21090;25397;21342;14416;25395;25398;14175;25396;16418;25402;21560;13384];
 [25403;15173;18807;18789;17469;27947;17021;15195;16174;20031;25404;16182;12655;21623;25406;27949];
 [25407;14889;27948;25405;25408;14902;13870;20536;12355;27950;27951;16449;25409;17715;25410;23602];
 [27952;14442;20076;27175;20583;19065;18518;20279;13129;20050;15716;25438;15218;27176;21821;18013];
 [27177;27178;27180;27179;27182;27181;15704;27183;16958;13377;13431;15143;27750;27749;14143;19321];
 [12642;27751;18760;27752;27753;19030;24144;12869;21626;17995;12359;13426;18515;19792;16184;16219];
 [18212;22068;16425;24145;18728;20847;17700;12391;13110;18501;12386;14198;17786;13939;21842;13136];
 [15420;13101;15985;12369;21078;19043;22309;19766;13878;16185;21851;14375;17751;24146;16217;16981];
 [18240;15140;12584;17770;17787;19495;12583;13654;17448;24147;20794;13161;17266;14199;22132;13603];
 [12912;17460;17513;16429;24148;12392;17732;16736;14677;15964;19800;12366;19791;24150;15952;22334];
 [24149;21840;12381;17506;16931;15472;21301;16441;17697;12838;21617;16424;19011;24151;21884;14640];
 [18477;19241;24153;16189;17972;22311;18992;17475;13142;14674;22072;27260;12340;16230;19572;19802];
 [22079;16974;20046;19490;20526;17491;13618;24152;21877;15415;15187;12324;17714;13420;21873;27261];
 [24154;19750;19820;20070;24156;19761;16422;22333;24155;12358;14900;18771;17523;15976;12854;16460];
 [19312;15473;15163;13623;17781;24166;24163;15965;24159;13367;15709;24160;17517;20294;13664;13918];
 [19034;13684;24165;21830;24161;19533;18046;17733;21044;15986;16979;19517;13112;15699;16216;19782];
 [20826;13419;24164;24157;24167;27262;16944;24162;22080;13607;12916;24168;24178;24173;24177;18528];
 [22369;24175;17256;19553;12901;21054;24174;24171;20053;13351;16171;15934;15698;24169;21550;24158];
 [24170;16447;24172;12915;14441;16935;15681;24181;24184;12843;13348;13418;18726;24182;19281;14435];
 [24183;24186;24185;19522;12385;13422;25914;20527;12907;27425;24180;18787;24179;12378;21025;12663];
 [19503;24176;19236;21802;24187;13405;17446;24189;17278;17441;24353;16716;24188;15983;17970;13125];
 [18550;19258;24190;24356;22322;13111;16707;18251;12837;13417;22315;17516;24354;24355;24357;14899];
 [24358;16478;18755;12889;18278;24359;18268;24360;27426;19283;24362;24361;12865;17738;24363;21596];
 [18497;24364;15984;24365;22055;27191;27446;19029;22652;14404;14629;14149;21886;14666;20519;29773];
 [13648;17268;15944;27447;12349;15692;16690;12630;13096;14418;18722;13912;27448;15924;19069;18243];
 [21883;14195;20036;21803;12659;27699;12383;27701;13879;16719;30074;20529;21861;20051;15727;13154];
 [14379;21814;27965;13903;19257;20546;14141;27702;18985;17748;27705;27704;16963;27703;20605;27706];
 [27707;22373;27708;27709;18028;20062;15432;18517;13609;15945;22076;21607;20782;20593;27192;27193];
 [27194;14901;18993;16245;19834;27200;12346;27198;16421;27195;12925;17271;15208;21079;20084;27199];
 [27196;27203;20551;21299;13370;17217;22386;21841;19015;27205;27204;27207;27206;22119;20308;27211];
 [15182;15738;18766;27212;18745;20350;27210;21582;27213;27215;19821;27209;27214;20078;15198;13119];
 [18005;15920;20090;18279;15911;27216;22087;16704;21597;27217;20286;27218;19054;17711;12341;27220];
 [27219;29791;17466;12585;25951;27221;19055;27222;27223;18008;27224;27225;21563;18298;21047;14460];
 [27202;12892;17020;21624;19558;22382;21570;21328;27459;17779;14206;27476;19255;27486;16458;19835];
 [13103;18010;27516;17470;20020;17449;12606;21629;19061;22124;18003;13924;15226;20576;18737;21587];
 [18472;14411;26686;18748;26683;16494;20563;12868;13413;26684;21832;13893;26685;19064;14428;19573];
 [16436;20846;26687;26690;14908;12589;15708;27197;26691;26694;26699;26700;19273;12389;15403;14649];
 [26689;19831;26698;20086;21869;16726;26692;17206;14715;22054;26696;19040;21606;26688;26693;26695];
 [18233;14179;26697;16221;26706;26711;26709;15452;15439;26715;26718;26714;12666;12376;17459;14412];
 [18018;18494;18529;26703;26708;26710;14705;26712;22389;17531;26716;12905;26705;15469;16194;26701];
 [22137;16760;12913;26719;19009;26713;21796;12650;21819;26702;26704;13872;26707;26717;16440;19063];
 [19240;18012;16501;26729;20515;26738;22122;26720;26721;20857;14923;14457;14449;21588;26735;26734];
 [26732;14704;19538;26726;20006;16242;12344;26737;26736;22336;26724;19753;18723;15160;15707;26730];
 [26722;26723;26725;13621;26727;18245;26731;26733;15664;22318;26744;26741;19760;26742;16698;26728];
 [17207;12400;26740;26743;14627;18770;17230;20064;16486;19315;19549;20533;19041;26739;15468;26745];
 [17246;18021;14711;12404;22360;15404;17775;19524;26918;18733;26914;16482;16195;26750;14679;26747];
 [26916;21070;26915;22066;22325;26919;15671;26748;26749;26913;19798;21036;26930;26921;13354;13371];
 [26923;20520;26917;13182;26924;16483;26922;26937;26936;26926;26746;26920;16172;26929;26938;16933];
 [26927;14405;26925;21340;26932;26933;26935;26951;16454;26949;26928;26939;12401;26940;21797;26942];
 [26943;26945;16753;18486;26941;26946;26947;26931;26934;15153;26944;15479;26948;26950;26954;26958];
 [12891;26952;14126;26955;26956;21825;17443;26968;14945;26953;21283;26964;26967;26960;26959;18241];
 [26962;26969;13128;26963;20336;26957;13175;26966;26970;19508;20269;26965;26972;26971;26974;26961];
 [26973;26975;17226;18231;13390;15158;20544;27683;17719;21371;27684;27685;18011;16238;27686;27687];
 [20522;18232;14440;27688;22073;21885;13387;12861;20068;18023;19809;13429;19264;15455;26978;26979];
 [20842;26981;13433;26980;20787;19042;12880;26984;26982;26983;22067;26985;26986;26987;26988;27695];
 [17721;13902;21107;13678;15193;27697;21091;20067;17464;17215;13886;22585;12616;12623;12625;17790];
 [12624;17195;21809;27428;14913;19514;27429;27431;27432;27430;27433;27435;27434;27436;19023;22581];
 [17265;17189;18040;27437;17482;27438;27439;27440;14165;14202;27441;18274;27443;14884;20853;12337];
 [27442;27444;13610;16968;18280;27445;19246;25439;21312;22875;19745;22061;18291;22880;15203;14906];
 [25442;20267;25440;18759;14905;20788;25441;18538;14639;15661;13144;20059;19520;25448;25449;19828];
 [19501;15411;25450;25451;20570;18043;14170;18271;21066;20054;25444;25452;18802;13121;25447;18019];
 [25445;27955;25446;18739;17766;14645;17211;25443;17725;16676;16985;12887;25453;15142;17453;25456];
 [15962;25467;25461;14931;14160;21325;22094;21843;14657;21812;20824;20537;18294;18474;12852;17242];
 [25454;25468;25455;14120;25463;25460;14138;17698;25462;17757;12840;18044;17504;22306;16481;25465];
 [25466;25469;19497;25459;21310;12611;27956;25457;25458;25464;20538;17987;21619;25470;15712;25639];
 [25638;20851;25635;25641;18551;20276;25640;25646;16997;13876;15730;25634;14953;25642;25644;13949];
 [22110;25650;25645;25633;15214;19805;18210;17737;16759;25636;18227;15660;15677;25637;22343;12898];
 [25643;15427;25647;15211;25648;17704;25649;21859;16163;25658;25655;25659;25661;18006;14918;16459];
 [14369;25652;21537;14883;15742;25660;19775;17529;20347;18790;21311;20305;25651;25656;25657;19561];
 [19534;16468;25653;16688;25654;20048;15169;13651;18547;15655;21831;18732;14370;25674;25676;20804];
 [21050;14893;14932;25667;13677;22349;25664;20349;25663;16732;19530;19047;17495;19540;25672;25671];
 [25665;25668;13613;21337;25670;21113;13411;15156;18798;13374;15212;20813;19565;27957;18277;21544];
 [25675;22357;25666;15653;25669;21350;25673;18808;25662;21349;18302;13897;21628;12851;25687;20034];
 [25677;20028;14427;25686;16202;21326;17260;17736;25688;19780;25679;25684;25685;14974;20326;21823];
 [25682;25680;25678;19813;18986;16419;15654;25683;14408;25703;21556;25691;16751;25705;21095;25695];
 [25696;20266;19293;25690;25681;25701;18524;25699;17511;25698;25697;13180;25704;13665;22348;25702];
 [15148;22354;19535;27512;25700;14710;22093;25689;25692;17018;25694;16971;16452;16976;12661;19506];
 [13646;25711;17967;18017;25717;16937;16492;20829;25710;17454;25709;25718;25716;17022;25693;25712];
 [19070;21828;25713;20858;25707;25708;25714;20011;17739;18225;16954;25706;16714;19510;13105;25723];
 [25715;25722;25725;25724;13134;13114;25719;25721;25720;17772;16445;21608;25890;12356;25892;25891];
 [15396;25893;25889;25726;12660;25896;25897;25894;25895;25898;18009;25899;25901;25900;25903;25902];
 [14688;25904;25905;15216;27745;17264;13638;15186;16745;21614;15940;22342;21590;12883;27710;27201];
 [16943;13366;20823;13108;18482;16187;27712;22091;27711;27713;27717;15974;19519;17754;15932;27718];
 [12670;27716;21800;13667;27714;16694;13155;27715;19256;16451;19582;16722;27720;14950;16467;22130];
 [20812;16190;14131;18773;27719;15202;19532;15741;18504;20265;19817;17771;14185;20809;14904;27721];
 [27722;15168;27723;27746;12602;14169;15673;27724;20838;27725;18491;27729;27731;15181;15461;27727];
 [18743;17210;27747;21845;27728;22131;27730;27726;27732;27733;18751;20264;20572;20780;18523;27734];
 [20085;19052;27738;27737;12350;27735;27736;27748;18492;16711;27740;20832;27739;21615;27741;23366];
 [27742;12588;27743;27744;22310;17728;27452;12334;15988;14392;21039;12374;13689;22579;19244;25437];
 [17964;12390;17734;27449;27450;27451;20800;17699;27250;17458;17461;16462;27251;17473;20079;27248];
 [27252;18812;18211;19544;20094;27253;27254;20268;16487;27255;13887;27256;27257;27258;27259;27249];
 [18478;24939;14136;24940;24941;22324;24942;24943;21324;24945;16241;24944;13650;12599;24947;24946];
 [14972;24948;14647;15953;17532;14941;15686;24949;24951;13888;20289;18984;24950;21880;21372;24952];
 [24956;24953;24954;16490;24958;25121;16455;24955;24957;25125;16724;25123;25128;12926;25122;17229];
 [12866;25127;25126;25124;25129;25131;20553;22125;17192;25132;20311;25134;14959;26976;25133;25130];
 [15147;21555;25136;25135;26977;25137;25138;25139;19489;25140;25141;20606;16970;21361;19829;26464];
 [26465;15937;17002;26468;26467;19814;17205;26466;15159;20310;16737;26473;26472;26484;12835;26474];
 [26470;26476;26475;18746;21860;26469;14121;26471;26478;26483;22121;26477;26482;26481;12384;26485];
 [18290;16453;16493;16752;26480;26486;19318;26658;26657;22337;26490;26489;26491;26487;26494;26493];
 [26492;16725;18265;17789;17731;18285;26659;26662;26661;26663;14967;26488;26660;18544;18730;26665];
 [14693;20862;26664;26666;26669;26670;16679;26671;26672;26668;26676;26667;26673;26677;26674;26675];
 [26679;26678;14671;28716;28717;17968;12394;18495;19807;20045;27185;27186;17983;13385;27187;21863];
 [23929;27188;27189;27190;14410;24368;18805;19568;18810;18811;21315;19238;14374;28718;12610;25912];
 [19567;21321;15447;18794;13671;17488;13673;28206;15149;26462;28207;13097;28210;28209;15719;28208];
 [20023;17743;16756;23374;28211;20595;16980;18024;14124;28212;13163;15227;28213;26460;28214;15662];
 [29026;19048;21065;28762;28763;28764;16710;14445;15950;28766;17713;28765;20849;28768;12364;15722];
 [21087;28767;13359;14184;28774;28773;17955;28769;28770;13379;28771;21870;19547;15954;15410;28776];
 [28775;28772;12833;22050;21304;15927;18476;28778;20855;22092;14939;28777;13883;19764;17958;16673];
 [28779;28782;28781;28784;28780;15166;28783;19509;28786;13141;12628;28787;28788;28790;13409;28785];
 [28791;28794;28792;28789;28797;28793;28796;28798;28961;20033;28964;28963;16758;28795;19037;13425];
 [12657;19505;28966;28967;28972;21838;28969;18483;28962;28971;28968;28965;28970;12329;28973;28975];
 [28977;28976;28974;20770;28978;28979;14703;13639;12375;12377;21613;13636;15700;15178;28711;14430];
 [28712;12328;28713;19822;28714;28715;17956;22117;29028;29029;17267;21339;22097;17768;21295;21094];
 [28225;12347;21813;20814;15456;14928;16248;14407;13633;17740;18978;17227;28226;17471;13858;28012];
 [17188;22065;20320;28015;17742;13916;18977;28013;28016;28017;17212;16180;28014;28020;28018;21862];
 [17247;28019;28022;21795;20771;28021;17232;28023;16244;15980;28024;19575;20827;22341;21878;28028];
 [28027;28025;28026;28029;15910;19247;28193;13885;28194;17472;28030;15710;12871;13891;28197;22586];
 [28195;28198;17257;13170;28199;28196;20281;28200;17015;28201;28202;24107;17971;18246;22133;13641];
 [19250;28203;19755;28204;21808;28205;30276;23367;13347;17196;29030;19000;21075;22058;28530;15960];
 [15683;28531;13900;12331;18991;27958;27959;20089;14127;16243;27960;17003;18736;27961;18038;16179];
 [27964;17784;20816;22313;27962;27963;20834;27967;27968;27972;27976;27974;27982;21864;27977;27975];
 [27966;17769;17990;18793;21586;27969;27970;27971;27973;16505;13345;14696;27984;27985;27978;27983];
 [20088;19254;27980;27981;20341;27986;16754;21298;27979;18487;15471;17776;27990;13679;16949;12333];
 [19305;12590;27988;19819;13666;27989;27987;27991;13690;27992;27993;27996;12620;17782;15470;27994];
 [19516;12906;27995;17515;13381;12405;27999;16474;13416;17741;27997;16196;27998;17445;28000;28001];
 [28003;16727;15175;15672;28002;28004;28006;28005;28007;19006;27754;16497;18791;27755;18030;27756];
 [18029;27757;27760;22374;27763;27761;27758;27759;22307;18801;19310;27764;27762;20329;27766;17969];
 [15424;27765;13627;15222;27767;22903;15739;16955;27768;27769;14371;27770;27771;27772;21357;22574];
 [16491;18269;14924;20579;19261;19770;14417;12668;18287;22102;16198;17259;28533;17240;22370;28535];
 [13139;18264;20845;22088;28536;28534;15229;13126;15701;21062;15200;20257;28540;28539;28537;13132];
 [18772;19248;28542;12382;22089;28541;13165;30293;20040;28706;28705;13630;15450;15228;14437;17474];
 [28707;19307;28710;20776;15935;18286;28982;28983;16213;13353;28984;19771;18260;21805;28985;28986];
 [18255;21028;22095;28987;15697;13360;15933;13404;20049;16223;28989;16250;28988;28991;28990;28992];
 [28993;16766;16674;19066;21822;15930;15929;21826;16162;19759;28981;15711;13899;22129;29507;29508];
 [14413;29510;29511;12362;29509;29513;19313;29515;20518;12618;29512;29519;13649;29527;29522;29524];
 [29523;14203;12607;29518;29514;13658;29520;29521;29525;29517;15459;16765;29526;29530;29516;13640];
 [15726;29532;14116;16240;22142;19762;13424;12895;29528;29529;18744;29533;29534;29537;29535;29539];
 [29538;29531;16234;13167;29536;18217;15474;29547;14655;29540;12845;15230;19299;29549;29545;14684];
 [29550;29541;29542;29546;16993;29548;29551;29544;15485;20324;29552;29543;29554;22317;17962;29555];
 [29553;16936;14429;29557;29556;13403;29558;29559;29560;16442;16489;17777;29563;29562;13400;29566];
 [29561;29564;29565;29729;29731;15177;29730;29732;12862;29734;29733;15406;17239;22881;16480;29772];
 [22353;14171;29774;16675;17993;13398;21811;29776;29775;29777;19290;29778;21569;22112;14176;16696];
 [16699;29779;15916;13410;29780;29781;15915;29782;29787;29783;29786;14973;29784;29785;14434;19527];
 [29788;12890;17235;21603;16183;29789;17716;29801;20277;20041;19288;19319;15732;22351;16475;20597];
 [29802;29803;29804;30563;14129;29805;22379;29806;26233;15936;26234;14956;26235;20299;26236;21564];
 [15414;26237;26238;15437;18514;20019;26401;13375;26402;18740;14425;17481;22365;16986;14167;22077];
 [20038;14148;17702;26403;20319;26404;26405;26406;16695;22377;18800;20280;22063;22101;26407;12397];
 [26408;26409;18780;21103;15917;26410;12403;18526;15713;26411;18502;26412;15206;14456;20772;26413];
 [16999;15992;15690;19763;26414;26415;15982;20581;19303;19536;15436;26416;15400;20599;26417;20600];
 [26418;26419;13378;26420;26421;18814;20012;17248;26423;12609;13169;26424;26425;22363;21824;26426];
 [16972;22330;26427;26428;26429;15466;17253;16450;26430;26431;15401;26432;26433;26422;13904;26434];
 [26435;26436;15162;13662;16966;12640;26437;21557;26438;14399;26440;26439;14188;26441;12920;26442];
 [26443;26444;26445;26446;26447;26448;21287;19317;26449;26450;26451;26452;18761;26453;26454;26455];
 [26456;26457;15689;26458;29502;14423;18481;29503;29504;29505;14686;19832;22632;14897;16990;28215];
 [14115;28217;28216;12373;28219;21846;22383;22083;28221;19056;28220;28222;28224;28223;20850;18236];
 [17216;14433;16743;29766;20575;29767;20315;18490;29768;29769;29770;29771;22906;14462;25969;21360];
 [29792;20044;13153;28980;21102;29793;20328;29794;18252;13652;13412;29796;29795;29797;29798;29799];
 [14898;12351;29800;14125;21101;21035;16463;16188;27427;21855;27208;29043;13944;19235;17485;29031];
 [29032;14459;29033;14916;21573;12370;29034;29035;29036;29037;29038;29039;29041;29040;17749;29042];
 [13946;29044;21038;24135;19274;13148;13602;14626;17524;29045;29046;16708;16763;22064;29047;29048];
 [16682;17976;15963;29049;13391;29050;27954;27953;19296;21086;19265;21848;18530;16479;15393;27457];
 [20516;22114;13895;14424;27456;14414;27455;13094;14665;22059;14196;14154;15463;14142;27462;27463];
 [12345;16207;27461;21373;27464;27465;14158;27458;27460;18806;22103;21837;20530;27471;20024;27472];
 [13608;12595;27474;19493;17750;27475;27473;17759;27470;18980;27477;12411;14970;22583;29027;27466];
 [27467;27468;27469;27478;26176;27481;16232;21064;27479;27484;14444;27480;15674;20568;12343;27485];
 [17500;22060;13408;17014;15417;27482;27483;21600;18026;17492;27487;17703;22901;12849;27492;15685];
 [27490;27491;14380;19793;27493;27489;16691;17954;19571;27494;16432;21048;27495;14383;14381;27496];
 [18235;19827;27498;27499;27501;20552;27506;27502;27505;18553;20860;27500;27497;14393;20313;17509];
 [27503;27504;19546;19784;12402;27510;27509;12850;14432;27511;12652;19525;17444;20261;27513;27682];
 [17778;27514;18757;25183;27518;19790;27681;12635;21303;21084;27517;27515;13116;27184;22356;29739];
 [13172;22081;22082;21865;15946;29735;21032;29736;29737;29738;15947;21343;18784;18785;29506;19046];
 [19570;25142;19252;20072;22107;29741;29742;29743;29746;14909;29747;12387;29744;29745;15650;12885];
 [29750;29751;13926;12848;20303;29748;13356;29749;29752;29753;19751;29754;29755;29756;19282;29757];
 [29758;29759;29790;16700;15464;18731;20830;25973;23603;21077;23604;12332;23605;15706;23609;22594];
 [23607;21363;18774;23610;23606;23611;17186;23612;23621;23613;20063;22053;23631;23629;23634;15718];
 [16939;23608;23627;23630;23614;14162;12357;23623;20542;23617;15144;14140;23628;23622;23615;18267];
 [20799;23616;23626;23632;20013;23618;23619;23624;23625;12884;23633;19285;21559;23643;23647;19494];
 [23654;17255;23644;16193;23641;12410;14646;23653;23635;23620;23638;18548;16224;18747;12605;21282];
 [23642;23637;17979;23646;22338;17199;14134;18257;17193;23650;23640;23659;23636;23645;15909;23639];
 [23648;23651;23652;23672;23649;23842;23655;15467;13380;17187;12903;23674;23666;23663;23676;23662];
 [21104;12904;18519;18531;23675;23661;23671;23669;15907;23668;12893;23667;15478;23656;15172;16499];
 [15444;23657;23658;23665;23670;23673;13620;18521;15207;23678;23677;21291;23841;23843;23845;21105];
 [23844;23846;23847;21033;14921;23849;23862;23857;23860;23856;17998;16498;18735;23660;23854;23863];
 [23664;23855;23864;23852;23865;23859;23853;17450;23848;16435;16683;23850;23851;23858;15217;23861];
 [21288;23866;23867;17191;23890;23868;23889;14653;15957;15994;14922;23882;23877;23871;12875;23875];
 [23883;12836;23893;23870;18000;23888;23892;16738;14150;23886;23887;23876;23869;23885;19537;23881];
 [23874;17224;17980;20014;23884;23880;23873;23878;16988;21289;21290;23891;20340;18552;23910;23879];
 [23904;16996;23905;23895;22136;23897;23896;14448;23894;17999;13869;23906;14969;21601;23911;13392];
 [23898;16251;23907;23903;23901;13657;23899;23900;23902;15663;23908;23909;23925;17225;19298;23922];
 [22625;18001;23924;21876;23923;23920;23916;23919;23912;20590;18520;23918;23913;23914;19314;23917];
 [12621;16438;15419;23921;23927;23926;23915;17774;23931;24100;24099;23928;17263;17019;21857;20021];
 [23933;12876;17512;19039;18238;23930;23932;23934;24098;12330;12622;24108;24102;15670;18543;24097];
 [24101;24105;24104;24103;24109;21580;24115;24106;24110;16473;12577;24118;24113;24114;20774;24117];
 [24111;24112;20541;24116;19053;24121;24120;24119;24123;15717;12888;17258;24122;17722;24124;19545];
 [14122;21605;24125;24127;17442;24129;24126;24128;21818;24130;29230;15138;16946;17712;16967;29231];
 [20585;21341;27453;13158;29232;29233;18989;14951;29235;29237;29236;19300;20282;29234;18996;21071];
 [17004;20035;29240;12406;29239;29246;12879;20801;29242;29244;21609;29243;29238;29247;29245;29241];
 [29255;29252;29254;29258;29250;29248;29253;22139;29249;18297;18783;29256;14662;13616;29251;29257];
 [29264;29270;15191;29269;19804;22123;29266;29268;14450;29259;29262;17017;21853;29260;29261;29263];
 [29267;29273;21308;13930;19057;14180;29271;29272;29274;29277;29275;29276;20817;29265;19785;20047];
 [22057;29283;17243;29280;16431;29292;29278;29281;29288;29282;29287;29286;29289;29279;29284;29290];
 [21292;29285;12917;29298;20523;29301;15176;29305;29296;29302;29304;29306;29299;29297;14971;13691];
 [29295;29303;29293;29294;29291;29478;29475;29474;29300;18522;29307;29477;17272;29309;29479;29481];
 [29476;29308;29483;29482;16989;29486;29488;29473;29489;29484;29487;29310;29485;29490;29492;29480];
 [29491;29493;20535;29496;22905;29497;29495;18532;29494;29498;29499;13376;28227;29500;29501;20778];
 [29740;20550;20560;20828;20302;15702;20803;14946;24937;21058;28994;12857;12653;28995;18752;13124];
 [22898;19237;28996;22100;28997;29760;28998;21548;28999;12352;29761;29762;13436;17755;19515;20580];
 [19808;29000;22899;12603;20270;14372;29002;29003;12867;16721;22320;29001;29004;29006;22902;21089];
 [21539;29763;18489;29764;29005;29007;16227;29008;29012;29014;29009;18769;17761;16995;14716;29011];
 [29013;14675;29019;14934;12413;29017;29016;29010;29018;29015;18540;19786;29021;25917;29020;29022];
 [29023;20325;29765;15731;29024;29025;20087;21034;29051;14386;15483;14683;14694;17241;19027;27240];
 [16448;15989;27241;27242;27243;27244;27245;27246;27247;15687;30075;30077;30078;30076;15714;30241];
 [13349;30242;30243;27698;20820;22890;30244;28218;21810;21374;19548;19012;25920;30245;15919;17961];
 [23077;15430;13865;14396;18511;15397;23078;23079;19542;18499;23080;18045;20789;21097;20790;15431];
 [15666;15204;23081;23082;20808;23083;20589;13935;16987;19279;14189;18792;14147;15991;22052;23084];
 [23085;17984;22375;18998;21801;19295;21871;23086;22111;13386;23088;23087;21099;23089;23090;23091];
 [19028;23092;18987;23093;23094;13135;22127;23095;15152;13614;23096;23097;14702;20783;21096;23098];
 [14403;20330;12911;23099;23100;15723;20060;21359;23101;20083;23102;21333;15205;23103;19253;19280];
 [23104;18283;22126;23105;17717;13889;23106;14156;16206;23107;23108;19245;23109;13687;23110;16706];
 [22331;23111;19512;21098;17457;23112;13693;15185;23113;20531;23114;23115;20029;23116;23117;23118];
 [12919;23121;23119;20840;23120;17237;23122;23123;23124;23125;20539;21029;12409;23126;18219;23127];
 [15735;17185;23128;23129;17277;19511;23130;23131;16446;18007;23132;23133;18228;23134;23135;14664];
 [15213;13881;29816;29817;19811;30009;27488;20339;15167;14912;21541;24921;30068;12586;12914;30069];
 [30071;14929;30070;17202;30073;30072;12596;21866;14394;14641;12870;21616;20301;12380;21835;15221];
 [22090;14135;19504;17974;12641;14650;22140;14689;14113;15482;27226;27227;19577;14707;27228;13435];
 [17203;14161;14936;27229;21620;27230;15446;15199;27231;16734;16952;21599;22346;27232;27233;27236];
 [27234;27235;18782;14387;13892;27237;19050;18765;13389;25177;17762;27238;16437;22328;27239;22316];
 [18556;22611;22605;21598;21625;18756;21294;14419;13152;18786;29814;14933;29815;22367;29809;14384];
 [21844;14415;18032;13123;29810;13100;21565;18295;29812;29811;19531;18468;29813;22371;17727;30016];
 [30011;30019;30018;22074;30017;21566;30020;30028;12367;13688;30025;30026;17756;30021;30022;30023];
 [30027;15968;30024;14458;30032;30035;16231;14706;30012;30029;16951;19576;15481;30030;30031;30033];
 [13925;30034;30037;30013;30036;21307;13164;19492;30038;30039;15969;30040;19551;30043;12872;22361];
 [30041;30042;30044;30050;30048;30047;30045;30049;30046;30052;30053;19555;25919;13624;30051;30056];
 [19491;30054;30055;30014;12612;30015;13637;12900;30060;30057;13911;30061;30058;30059;13402;21610];
 [30062;13177;30063;30065;30064;30066;30067;18797;14634;18299;13923;19529;27174;13109;21630;14700];
 [20601;26989;22314;26990;16982;18541;14948;26991;26992;26993;22113;26994;26995;26997;26996;26998];
 [26999;18273;27000;21592;27001;15694;27002;27003;15695;27004;14376;16702;27005;12594;15188;14709];
 [27006;27169;27170;27171;14200;15405;19044;24654;21551;20285;21815;27172;21854;27173;20545;14652];
 [13383;12633;16433;12646;12647;12648;13117;18536;25921;12639;16713;13423;18216;21336;18041;20792];
 [14717;17013;21293;21579;15740;25922;14133;25923;15161;21858;15736;21558;20005;16684;13145;19574];
 [25926;25924;25928;25930;25927;13647;17992;13692;25925;19062;25929;17236;12613;15395;22327;19787];
 [19277;19018;19539;25932;25931;17510;20769;20791;25933;25936;19768;22128;25935;13661;19774;25937];
 [13882;19752;14692;19013;13137;19289;21612;25938;14186;25934;25941;13438;25942;25939;25940;21085];
 [16991;12614;21346;13917;19308;25943;21366;12649;13940;25946;25944;25945;13632;21061;25948;25950];
 [25949;18226;21027;25947;21602;21850;25952;22385;25953;12636;20859;25954;25956;25955;25957;21080];
 [13643;26463;23157;23160;23158;23159;23162;20559;17479;12398;20528;23161;21322;14890;23330;18289];
 [23164;23163;18779;23165;23329;22366;23166;16730;23333;21364;23335;23332;23336;15676;16457;23331];
 [23334;22051;23337;23341;23342;23340;14914;16164;23339;23338;21575;12863;23343;14713;23344;13115];
 [13606;13884;23345;13941;23346;12617;23348;23347;23349;23351;23350;23352;23353;23354;21327;29818];
 [18293;22339;17764;29820;29821;29819;15942;20591;14163;21581;19498;29986;29985;14888;29822;19286];
 [29988;16466;13162;19754;29989;29987;15668;29992;29993;15693;17208;16225;19297;29994;29990;29991];
 [17520;29996;13372;22381;13399;29995;29998;29997;29999;20561;17233;18473;30000;30001;30002;30003];
 [30004;30005;30007;30006;30008;12873;21332;19021;16495;22104;21040;16703;15728;14378;15480;30278];
 [30279;30280;30281;30282;30284;30283;30569;30285;30286;28228;28229;28230;21867;13860;28232;28231];
 [28233;28234;18213;28235;28236;14128;13686;28237;28239;28238;14406;28240;28241;28242;13915;13102];
 [22099;17478;12597;14422;28243;28244;21567;18261;15995;20057;14643;28246;28245;28248;28247;17701];
 [28249;28250;18222;28251;18223;28252;12839;28253;28254;28255;28256;28257;22378;28258;28259;15448];
 [28260;21323;19578;12844;16741;28261;18214;17197;28262;28263;28264;28265;28266;28267;28268;28269];
 [28270;28271;28272;28273;28274;28276;28275;28277;19757;16961;28278;28279;28280;21793;28281;20275];
 [28282;28283;28284;28285;28449;28286;28450;14453;17274;28451;28452;15682;21055;12921;28453;28454];
 [28455;21112;28456;22141;28457;17996;28458;28459;16692;28460;20346;19320;28462;28461;13178;14712];
 [28463;28464;20578;28465;28466;14182;20543;28467;28468;28469;18545;19552;28470;28471;28472;28473];
 [28474;21856;28475;13421;17194;28476;28477;28478;28479;20093;28480;16992;13368;22326;15733;20295];
 [28483;28481;28482;28484;13863;15484;15970;17228;28485;28486;28487;28495;28488;28489;28490;18242];
 [28529;13901;28491;28492;28493;13894;17214;28494;28496;28497;28498;21874;28499;17527;28500;17528];
 [28501;28502;14436;12407;28503;28504;28505;28506;28507;28508;28509;28510;15925;28513;28511;28512];
 [28514;28515;16717;28516;28517;28518;28519;28520;28521;28522;28523;28524;16472;28525;16685;28526];
 [28527;28528;20322;13092;17221;25413;18753;25414;12629;20042;13363;18546;25415;20304;25416;15460];
 [25417;25418;17222;21794;17494;14699;20037;25419;17270;25420;14119;14451;14930;25421;25422;21572];
 [25423;25424;20811;25425;25426;25427;25428;20822;25429;12923;16443;25430;16427;25431;25432;25433];
 [25434;25435;14391;23138;13907;23140;23139;23142;18542;23141;14144;20852;21109;21875;15703;22376];
 [23144;23143;12322;19795;23145;14397;15434;16957;16932;13122;23146;16938;17456;15669;20318;23147];
 [18754;12637;23148;13880;21562;13181;23149;21577;20309;17763;23150;23151;23152;16746;19541;20317];
 [21351;16929;23153;19301;23154;19302;21118;14452;23155;12335;20278;21839;19309;23156;25412;16677];
 [30271;30272;30273;17489;18488;20835;20571;20805;15407;14669;28532;13382;21306;30274;13179;30275];
 [13681;30277;21354;30247;20777;30249;30248;16739;16471;12578;20077;20584;30251;20342;30250;21872];
 [30252;17209;15220;30254;30253;17502;16728;19242;20284;30255;30256;30257;16950;12372;17785;30258];
 [18272;30246;15928;15922;13669;14151;16191;17234;17254;22604;14447;15737;20773;12368;30512;30513];
 [20524;12336;30514;30515;30516;18250;15951;30519;30518;12638;30517;30520;30521;20004;18509;14891];
 [26680;26681;26682;15938;21108;21583;18776;21043;13861;18282;29052;20334;19251;20587;26479;19815];
 [14667;13913;29053;12388;19276;29054;21540;16941;16748;17988;15921;29217;15445;29218;29219;29220];
 [21059;17973;19783;29221;21297;16197;19554;29222;29223;20821;13934;29224;29225;13663;29226;29227];
 [12924;29228;29229;18471;14183;27689;27690;27691;27692;17966;27693;27694;14153;18995;25144;30543];
 [30544;12877;30545;30547;30546;25147;15394;25148;25149;25150;25151;25152;25153;14137;21115;15652];
 [19022;12581;19271;25154;13948;18500;25155;15688;12669;25156;13942;25157;17497;25158;20314;14685];
 [25159;16417;25160;12918;25161;16755;25162;25163;17016;25164;25165;25166;19031;22584;22885;20323];
 [28709;23600;17005;21542;19796;20785;13147;18301;12853;16959;26208;19003;26209;26210;15956;26211];
 [22308;19797;26213;15453;26212;26214;26215;17006;15678;26216;16998;14887;26217;26218;13138;20841];
 [16165;26219;18031;26220;26221;26222;17965;26223;18727;26224;26225;26226;25913;26227;26228;16994];
 [26229;26230;22120;26231;26232;14663;30523;30522;30526;30524;14881;30527;30528;30530;30529;30532];
 [30531;30533;30534;30535;19304;14431;30548;30549;30550;30552;30554;30551;30555;30553;22359;30556];
 [30557;30558;30559;30560;23371;22570;25975;14701;16253;15210;30537;17991;30536;30538;30540;30539];
 [30541;20026;30542;17447;21347;30287;16947;30288;30289;30290;30291;30292;30294;12587;30295;30296];
 [30297;30298;30299;30300;30301;30302;20298;30303;30304;30305;30306;30307;30308;16496;30309;30310];
 [30311;30312;30313;30314;30315;30316;30317;30318;30319;30320;30321;30322;30323;30324;15912;30325];
 [30326;30327;30328;18554;30329;30330;30331;30332;30333;30334;30497;30498;30499;30500;30501;30502];
 [30503;30504;12654;30505;30506;30507;30508;30509;16731;30510;30511;17521;28719;15398;28720;17273];
 [17720;20795;28721;28722;28723;28724;28725;20796;20844;28727;28726;21543;19794;28728;28730;28729];
 [28731;28732;14443;28733;14952;28734;28735;15977;28736;13932;28737;28738;28739;28740;18485;28741];
 [28742;28743;17780;28744;28745;28746;30525;28747;28748;28749;28750;28751;14935;28752;28753;28754];
 [28755;28756;28757;28758;28760;21285;28759;28761;30010;16953;30564;30565;30566;30567;30568;16948];
 [30570;30571;17011;29808;29807;17001;30561;30562;15174;22884;19058;16488;28708;14938;18221;17452];
 [30572;30573;30574;30576;30575;30577;30580;30579;30578;30581;30582;28009;28010;28011;30268;30269];
 [30270;13862;22590;14660;22587;23601;19059;30583;30584;30585;30587;30586;12615;30588;30589;30590];
 [18027;27700;13149;30259;30260;16740;30261;30262;30263;30264;30265;30266;18467;30267;16762;14632];
 [28008;14698;22879;8993;8994;8995;8551;8997;8998;8999;9000;9001;9002;9003;9004;9005];
 [9006;9007;9008;9009;9010;9011;9012;9013;9014;9015;9016;9017;9018;9019;9020;9021];
 [9022;9023;9024;9025;9026;9027;9028;9029;9030;9031;9032;9033;9034;9035;9036;9037];
 [9038;9039;9040;9041;9042;9043;9044;9045;9046;9047;9048;9049;9050;9051;9052;9053];
 [9054;9055;9056;9057;9058;9059;9060;9061;9062;9063;9064;9065;9066;9067;9068;9069];
 [9070;9071;9072;9073;9074;9075;9076;9077;9078;9079;9080;9081;9082;9083;9084;9085];
 [8491;8553;8554;9086;8996]].

(* lib/converters/gb2312.h:2055-2079 gb2312_uni2indx_page00 (flattened, 2 fields per entry) *)
Definition gb2312_uni2indx_page00 : tab := mk [
 [0;0;0;0;0;0;0;0;0;0;0;0;0;0;0;0];
 [0;0;0;0;0;400;3;3;5;0;5;128;6;14083;13;5772];
 [19;2;20;2056;22;2048;23;0;23;8192;24;0;24;2048;25;0];
 [25;0;25;0;25;0;25;0;25;16384;26;5461;33;0;33;0];
 [33;0;33;0;33;0;33;0;33;0;33;0;33;0;33;0];
 [33;0;33;0;33;0;33;0;33;640;35;0;35;0;35;0];
 [35;0;35;0;35;0;35;0;35;0;35;0;35;0;35;0];
 [35;0;35;65534;50;1019;59;65534;74;1019;83;0;83;0;83;0];
 [83;2;84;65535;100;65535;116;65535;132;65535;148;2]].

(* lib/converters/gb2312.h:2080-2114 gb2312_uni2indx_page20 (flattened, 2 fields per entry) *)
Definition gb2312_uni2indx_page20 : tab := mk [
 [149;0;149;13152;155;64;156;2061;160;0;160;0;160;0;160;0];
 [160;0;160;0;160;0;160;0;160;0;160;0;160;0;160;0];
 [160;8;161;64;162;0;162;0;162;0;162;0;162;4095;174;0];
 [174;0;174;15;178;0;178;0;178;0;178;0;178;0;178;0];
 [178;33024;180;25602;184;20385;192;8432;197;4352;199;0;199;49203;205;0];
 [205;0;205;512;206;32;207;0;207;0;207;0;207;0;207;0];
 [207;0;207;4;208;0;208;0;208;0;208;0;208;0;208;0];
 [208;0;208;0;208;0;208;0;208;0;208;0;208;0;208;0];
 [208;0;208;0;208;0;208;0;208;0;208;0;208;1023;218;65520];
 [230;65535;246;4095;258;0;258;0;258;0;258;0;258;0;258;0];
 [258;65535;274;65535;290;65535;306;65535;322;4095;334;0;334;0;334;0];
 [334;0;334;0;334;3;336;12;338;51392;343;0;343;0;343;0];
 [343;96;345;0;345;0;345;0;345;5]].

(* lib/converters/gb2312.h:2115-2128 gb2312_uni2indx_page30 (flattened, 2 fields per entry) *)
Definition gb2312_uni2indx_page30 : tab := mk [
 [347;65327;360;251;367;0;367;0;367;65534;382;65535;398;65535;414;65535];
 [430;65535;446;15;450;65534;465;65535;481;65535;497;65535;513;65535;529;2175];
 [537;65504;548;65535;564;1023;574;0;574;0;574;0;574;0;574;0];
 [574;0;574;0;574;0;574;0;574;0;574;0;574;0;574;0];
 [574;0;574;0;574;1023]].

(* lib/converters/gb2312.h:2129-2525 gb2312_uni2indx_page4e (flattened, 2 fields per entry) *)
Definition gb2312_uni2indx_page4e : tab := mk [
 [584;32651;595;32635;608;15796;617;61269;628;64424;638;62301;649;579;653;16395];
 [657;64320;665;36158;674;31735;687;35884;693;28415;706;58362;717;7482;725;43245];
 [734;58882;740;53123;749;36085;758;13653;766;57416;771;65451;784;37561;792;55385];
 [800;43800;807;10386;812;55273;823;32800;825;50232;831;62851;840;59210;849;17674];
 [854;45056;857;38676;864;30562;873;21504;876;53640;882;5152;885;4128;887;51392];
 [892;8481;896;0;896;5032;902;3076;905;32768;906;1088;908;28864;913;2088];
 [916;2240;919;4;920;2;921;32768;922;11131;932;5234;938;31012;945;15355];
 [957;13095;965;6884;972;38965;979;14575;989;39633;997;10242;1000;43027;1006;49001];
 [1017;26063;1027;12230;1036;27409;1043;45001;1053;13327;1060;20563;1066;34466;1072;40964];
 [1075;262;1078;59401;1084;16143;1094;49166;1099;2696;1103;33093;1108;16;1109;50689];
 [1114;41313;1120;9953;1127;17483;1133;52736;1138;51114;1147;54510;1157;51935;1168;34235];
 [1177;14964;1185;42272;1190;17260;1197;34880;1200;16134;1208;35794;1216;65401;1229;15343];
 [1241;63322;1252;59631;1263;64459;1275;23350;1284;3401;1290;7165;1301;340;1305;14830];
 [1315;55381;1323;11893;1332;49112;1343;43290;1350;62423;1362;63167;1375;26592;1383;46092];
 [1389;33474;1394;2067;1398;54429;1407;53387;1414;1626;1420;4193;1424;29938;1433;23008];
 [1440;36767;1451;45842;1458;128;1459;27306;1467;12848;1472;45150;1480;40314;1490;24748];
 [1496;54019;1503;51456;1507;12440;1512;35414;1519;28672;1522;5008;1527;7956;1534;6210];
 [1538;49248;1542;8;1543;32776;1545;4224;1547;1024;1548;60560;1555;10263;1561;58931];
 [1570;1880;1576;36864;1578;63240;1586;19977;1592;62597;1600;64643;1609;44883;1619;6344];
 [1624;6268;1631;2060;1634;27359;1645;276;1648;51212;1653;42804;1661;40977;1665;10000];
 [1670;10437;1676;16930;1680;1043;1684;33;1686;12304;1689;16658;1693;6176;1696;16384];
 [1697;555;1702;50700;1708;768;1710;4096;1711;34;1713;34;1715;22544;1719;585];
 [1723;41108;1728;38512;1735;61104;1744;6034;1751;52118;1760;1522;1767;37;1770;9048];
 [1776;9694;1785;17100;1791;53048;1800;18948;1804;3136;1807;13727;1817;4392;1821;35328];
 [1824;5114;1833;37130;1838;553;1842;4182;1847;1601;1851;1056;1853;1156;1856;34032];
 [1862;0;1862;3076;1865;1024;1866;16684;1871;4614;1875;4436;1880;2635;1886;2];
 [1887;512;1888;192;1890;0;1890;148;1893;1;1894;49083;1907;5756;1915;9259];
 [1921;39867;1932;32680;1942;3199;1951;58233;1961;4340;1967;57357;1973;16690;1978;40705];
 [1985;34386;1991;13682;1999;4276;2004;65298;2014;53031;2024;16931;2029;49259;2036;34306];
 [2040;12550;2045;8147;2055;14860;2061;41386;2068;2066;2071;516;2073;9586;2080;2049];
 [2082;16588;2087;18512;2091;25296;2097;24592;2100;7296;2104;10496;2107;39424;2111;16];
 [2112;4;2113;8704;2115;0;2115;128;2116;8224;2118;26624;2121;52198;2131;24734];
 [2138;37230;2146;16243;2157;24768;2161;14722;2167;4148;2171;18480;2175;6;2177;48476];
 [2187;36049;2194;55035;2206;8417;2211;17384;2218;1536;2220;2126;2225;1280;2227;50384];
 [2233;36127;2242;35242;2249;42721;2257;5634;2261;1;2262;8685;2270;13910;2278;6795];
 [2285;8119;2296;5029;2303;25858;2308;12448;2312;45688;2320;9159;2328;27795;2336;59682];
 [2343;58495;2354;14964;2362;36835;2372;38944;2376;10254;2381;9765;2387;49052;2398;48969];
 [2408;12824;2413;44116;2420;47433;2428;6422;2434;3168;2438;46370;2445;64449;2455;1625];
 [2461;58179;2469;33824;2472;2265;2478;32768;2479;21760;2483;8226;2486;388;2489;161];
 [2492;18432;2494;8208;2496;4992;2500;16512;2502;3332;2506;22;2509;64;2510;32800];
 [2512;64832;2520;36327;2530;21558;2537;57496;2543;31627;2553;2334;2559;65224;2569;53833];
 [2576;1553;2580;36334;2590;6455;2598;47650;2605;30708;2616;40925;2628;62444;2639;61658];
 [2648;17286;2654;60482;2661;36159;2671;9732;2675;64108;2685;49185;2689;25230;2696;3266];
 [2701;55173;2710;325;2714;30637;2725;21913;2733;57936;2739;16453;2743;9739;2749;41300];
 [2755;38951;2762;22553;2768;13379;2774;42000;2778;1522;2785;16660;2789;8832;2792;1792];
 [2795;180;2799;16998;2805;29200;2810;5537;2816;24613;2821;16773;2826;84;2829;0];
 [2829;513;2831;260;2833;51232;2837;52080;2845;37664;2850;27234;2857;6220;2862;149];
 [2866;6272;2869;39563;2877;43698;2885;12801;2889;55418;2898;196;2901;62437;2912;1219];
 [2917;54349;2925;41528;2931;41377;2937;20594;2943;38922;2948;34044;2956;49490;2962;17617];
 [2968;4244;2972;8386;2976;16768;2979;16912;2982;0;2982;14848;2986;576;2988;53917];
 [2997;12033;3003;43185;3010;48448;3017;9266;3022;54093;3031;53323;3038;42787;3046;53421];
 [3054;2706;3059;30113;3067;44460;3076;489;3082;32794;3086;30495;3097;37413;3103;40987];
 [3109;57249;3119;8394;3124;1538;3127;29580;3135;22399;3147;59;3152;3071;3163;208];
 [3166;32874;3171;136;3173;41412;3179;41;3182;10757;3187;1316;3191;16393;3194;5667];
 [3200;26658;3205;32773;3208;8209;3211;41489;3216;4;3217;25744;3222;18505;3227;4994];
 [3232;9173;3240;6448;3245;10624;3249;2194;3253;21506;3257;34833;3261;8193;3263;40964];
 [3266;1024;3267;33152;3270;34050;3274;24610;3278;144;3280;2817;3284;34;3286;4610];
 [3289;16401;3292;131;3295;6657;3299;0;3299;0;3299;0;3299;0;3299;0];
 [3299;0;3299;0;3299;159;3305;18052;3310;4808;3315;512;3316;1276;3323;6656];
 [3326;11998;3336;3148;3341;1026;3343;32952;3348;43046;3354;2812;3362;35842;3366;8744];
 [3370;41184;3375;36731;3386;51158;3396;8501;3402;1735;3409;63665;3418;1811;3424;25173];
 [3431;37742;3440;35353;3446;28410;3457;64270;3467;5680;3472;18681;3480;52527;3490;32235];
 [3502;22674;3508;20100;3514;19616;3519;31278;3528;60906;3539;22046;3547;50761;3554;4496];
 [3558;21284;3564;59450;3572;53211;3584;33060;3588;6385;3595;25410;3601;22611;3608;6794];
 [3614;29728;3619;9427;3626;43579;3635;1300;3639;24600;3643;35160;3649;18432;3651;49152];
 [3653;33384;3658;37121;3662;33956;3667;11478;3675;34950;3680;50362;3688;887;3696;528];
 [3698;33348;3702;56;3705;44561;3712;16458;3716;10432;3720;20736;3723;24644;3727;5396];
 [3732;29456;3738;4096;3739;130;3741;584;3744;517;3747;16390;3750;49155;3754;0];
 [3754;0;3754;3074;3757;8;3758;544;3760;36864;3762;16384;3763;47104;3767;53601];
 [3774;17953;3779;12916;3786;63488;3791;15242;3799;1295;3805;35584;3809;48080;3818;8832];
 [3821;1536;3823;1897;3830;32832;3832;67;3835;21536;3839;20480;3841;16848;3846;9484];
 [3851;33808;3854;33552;3858;4353;3861;552;3864;16392;3866;48;3868;16545;3872;512];
 [3873;64;3874;8192;3875;5376;3878;44003;3888;12672;3892;43588;3898;49862;3905;50724];
 [3911;44051;3918;32772;3920;45056;3923;977;3929;24862;3936;17029;3941;62211;3949;7583];
 [3959;17418;3963;30952;3971;24102;3979;50066;3986;8192;3987;133;3990;45057;3994;16384];
 [3995;19088;4000;34882;4004;51716;4009;3213;4015;42757;4022;16899;4026;8865;4031;4];
 [4032;34408;4038;3073;4041;21860;4048;4217;4054;2;4055;56992;4063;8192;4064;16577];
 [4068;18571;4074;20481;4077;896;4080;1024;4081;0;4081;20484;4084;49245;4091;32976];
 [4095;40976;4098;38666;4105;47904;4112;19887;4122;55585;4129;7696;4134;1120;4137;33556];
 [4142;34888;4146;42710;4155;55355;4164;29503;4175;10172;4184;18804;4191;3548;4199;37395];
 [4205;5163;4211;35745;4218;11893;4227;53561;4235;12297;4239;20560;4243;34824;4246;26880];
 [4250;18900;4257;586;4261;16400;4263;32790;4267;58724;4275;35287;4284;49184;4287;21270];
 [4294;11154;4301;34304;4304;41797;4311;5600;4317;139;4321;3075;4325;6510;4333;57856];
 [4337;28721;4343;32774;4346;5797;4353;43049;4359;8192;4360;6272;4363;31404;4372;57672];
 [4378;12807;4384;46550;4394;13032;4401;24465;4410;20641;4415;8421;4421;31744;4426;4224];
 [4428;29312;4433;40330;4441;170;4445;16927;4452;3618;4457;561;4461;4352;4463;1172];
 [4467;34;4469;16392;4471;16;4472;23568;4477;835;4482;64712;4491;41381;4498;1408];
 [4501;33843;4507;1024;4508;128;4509;28168;4515;10827;4522;33062;4527;43736;4535;10497];
 [4539;26701;4546;17552;4550;9;4552;47752;4559;64;4560;130;4562;0;4562;34769];
 [4570;8539;4577;45542;4586;12641;4592;32776;4594;2048;4595;49728;4599;41065;4605;42496];
 [4609;36184;4616;18994;4622;23921;4631;21770;4637;39584;4643;11607;4652;16389;4655;19110];
 [4662;8225;4665;12465;4671;16326;4681;274;4684;4290;4688;9738;4693;17506;4698;20610];
 [4702;39040;4706;32832;4708;1216;4711;33024;4713;8195;4716;0;4716;0;4716;14360];
 [4721;512;4722;61862;4731;17460;4736;29198;4743;13730;4750;37600;4756;33025;4759;2304];
 [4761;1024;4762;0;4762;34949;4767;0;4767;0;4767;0;4767;16384;4768;128];
 [4769;0;4769;0;4769;16448;4771;0;4771;0;4771;0;4771;0;4771;0];
 [4771;0;4771;0;4771;0;4771;2048;4772;130;4774;0;4774;0;4774;0];
 [4774;4;4775;34816;4777;49151;4792;59375;4805;65535;4821;65471;4836;61423;4850;65023];
 [4865;64511;4880;49150;4894;65535;4910;1407;4919;52;4922;34227;4930;18182;4936;16918];
 [4941;21506;4945;58384;4950;32914;4954;45829;4961;21538;4966;33072;4970;16995;4976;6155];
 [4981;14459;4990;5109;4999;2021;5007;43498;5016;15436;5023;1300;5027;1536;5029;32770];
 [5031;6873;5039;48456;5047;60983;5058;62614;5067;28767;5076;32448;5084;49074;5095;13663];
 [5105;58948;5112;17759;5121;36864;5123;16710;5128;7488;5133;1595;5140;25249;5146;65043];
 [5156;34053;5161;14594;5166;1352;5170;3080;5173;5199;5180;0;5180;13448;5185;22552];
 [5190;12407;5198;55317;5205;48398;5214;19451;5225;35472;5230;34048;5233;49408;5236;58909];
 [5245;60692;5253;45958;5261;65394;5273;25499;5282;64914;5292;55742;5303;34939;5311;2706];
 [5316;54270;5328;7346;5335;47488;5341;6010;5350;33481;5356;56343;5365;65531;5380;14720];
 [5385;16992;5389;22796;5395;3841;5400;14303;5412;38051;5419;45392;5425;1571;5430;8967];
 [5436;63578;5445;12546;5449;496;5454;12546;5458;64;5459;7810;5465;14858;5471;1386];
 [5477;23428;5484;4736;5487;32770;5489;42772;5496;9746;5501;41035;5507;4201;5512;36865];
 [5515;4096;5516;33930;5521;6146;5524;16256;5531;1800;5535;16960;5538;272;5540;19988];
 [5546;32944;5550;6144;5552;50448;5557;641;5560;33282;5563;4137;5567;528;5569;34816];
 [5571;32;5572;66;5574;640;5576;4352;5578;57344;5581;17427;5586;22532;5590;65026];
 [5598;15367;5605;12328;5609;38808;5617;1139;5623;52945;5632;51987;5640;25104;5644;17183];
 [5652;10125;5660;21932;5668;16942;5674;51346;5680;21376;5685;648;5688;16441;5693;30801];
 [5700;10540;5706;32904;5709;47360;5714;9256;5718;3137;5722;2062;5726;17441;5730;16896];
 [5732;1032;5734;2152;5738;6;5740;4612;5743;12337;5748;656;5751;23358;5761;57477];
 [5767;10550;5774;4164;5777;10260;5781;4226;5784;16998;5790;33588;5796;316;5801;21275];
 [5809;1028;5811;3597;5817;3106;5821;81;5824;18;5826;49152;5828;64;5829;34816];
 [5831;74;5834;0;5834;0;5834;0;5834;57334;5847;21575;5854;34920;5859;8];
 [5860;129;5862;0;5862;0;5862;16384;5863;256;5864;0;5864;0;5864;512];
 [5865;1536;5867;8;5868;0;5868;0;5868;0;5868;0;5868;0;5868;0];
 [5868;128;5869;0;5869;64;5870;0;5870;0;5870;0;5870;4160;5872;0];
 [5872;0;5872;0;5872;61439;5887;63485;5901;65407;5916;65534;5931;64511;5946;65535];
 [5962;65023;5977;49151;5992;65535;6008;255;6016;4802;6021;1056;6023;3078;6027;1800];
 [6031;5668;6036;272;6038;0;6038;0;6038;0;6038;0;6038;0;6038;0];
 [6038;0;6038;57344;6041;65534;6056;65535;6072;65535;6088;32633;6100;10463;6109;249];
 [6115;3122;6120;32786;6123;8;6124;54586;6133;55384;6140;60610;6148;40216;6155;12200];
 [6163;38432;6168;57360;6172;54796;6179;9762;6184;3991;6193;518;6196;45632;6201;36949];
 [6207;32930;6211;20497;6215;38912;6218;1028;6220;16384;6221;0;6221;0;6221;0];
 [6221;0;6221;0;6221;0;6221;0;6221;0;6221;0;6221;64448;6230;65535];
 [6246;61438;6260;57339;6274;2824;6278;25155;6284;16822;6291;64315;6303;28532;6313;9097];
 [6319;44671;6331;60631;6342;57415;6349;22880;6355;41110;6361;2447;6368;24876;6374;41008];
 [6378;2317;6383;10922;6390;54350;6398;20347;6409;50354;6416;14475;6423;43462;6431;24848];
 [6435;20;6437;16896;6439;32780;6442;514;6444;65096;6453;25733;6459;54846;6469;58359];
 [6481;15008;6487;3079;6492;58380;6498;1072;6501;63104;6508;4098;6510;0;6510;0];
 [6510;0;6510;0;6510;0;6510;0;6510;0;6510;0;6510;0;6510;16];
 [6511;16384;6512;0;6512;16384;6513;0;6513;256;6514;0;6514;0;6514;0];
 [6514;0;6514;0;6514;0;6514;16384;6515;0;6515;0;6515;1024;6516;0];
 [6516;32768;6517;0;6517;0;6517;0;6517;1024;6518;64;6519;0;6519;0];
 [6519;0;6519;0;6519;0;6519;16384;6520;0;6520;0;6520;2048;6521;0];
 [6521;65504;6532;65213;6545;65535;6561;65535;6577;32639;6591;64487;6604;65471;6619;63487];
 [6634;65535;6650;61439;6665;65406;6679;57335;6693;63223;6706;64479;6720;49150;6734;32847];
 [6740;0;6740;0;6740;0;6740;0;6740;0;6740;0;6740;61184;6747;32767];
 [6762;65407;6777;46839;6789;17414;6793;47230;6803;15349;6814;34865;6819;6038;6827;244];
 [6832;43360;6838;5009;6844;128;6845;29257;6852;62195;6863;36;6865;34561;6870;17096];
 [6875;58323;6885;20552;6889;9216;6891;17157;6896;0;6896;19020;6902;551;6907;4184];
 [6911;10272;6914;278;6918;43017;6923;20;6925;0;6925;0;6925;16064;6932;104];
 [6935;0;6935;0;6935;0;6935;0;6935;0;6935;0;6935;0;6935;65504];
 [6946;47103;6960;64987;6973;247;6980;0;6980;16384;6981;50990;6990;384;6992;0];
 [6992;8192;6993;1;6994;16384;6995;0;6995;0;6995;48;6997;65448;7008;46327];
 [7019;44531;7030;1023;7040;288;7042;0;7042;0;7042;0;7042;0;7042;0];
 [7042;0;7042;0;7042;0;7042;0;7042;0;7042;0;7042;61440;7046;65531];
 [7061;40439;7073;64975;7086;447;7094;5571;7101;6183;7107;33034;7111;43074;7116;2560];
 [7118;33032;7121;32776;7123;32776;7125;6148;7128;41918;7138;18;7140;0;7140;0];
 [7140;0;7140;0;7140;0;7140;0;7140;0;7140;0;7140;0;7140;0];
 [7140;0;7140;0;7140;0;7140;0;7140;0;7140;0;7140;0;7140;36864];
 [7142;27110;7151;56375;7161;27647;7174;15871;7187;64760;7198;62457;7210;4]].

(* lib/converters/gb2312.h:2526-2536 gb2312_uni2indx_page9e (flattened, 2 fields per entry) *)
Definition gb2312_uni2indx_page9e : tab := mk [
 [7211;0;7211;32768;7212;49007;7225;59374;7237;57342;7251;23970;7259;16344;7269;49163];
 [7274;2436;7278;40972;7282;64;7283;26896;7288;57872;7293;47378;7300;34469;7307;23040];
 [7311;26624;7314;649;7318;36869;7322;27264;7327;16;7328;3;7330;0;7330;32768];
 [7331;8185;7342;36352;7346;1]].

(* lib/converters/gb2312.h:2537-2543 gb2312_uni2indx_pageff (flattened, 2 fields per entry) *)
Definition gb2312_uni2indx_pageff : tab := mk [
 [7347;65534;7362;65535;7378;65535;7394;65535;7410;65535;7426;32767;7441;0;7441;0];
 [7441;0;7441;0;7441;0;7441;0;7441;0;7441;0;7441;43]].

(* lib/converters/isoir165ext.h:30-96 isoir165ext_2uni_page2b *)
Definition isoir165ext_2uni_page2b : tab := mk [
 [8113;940;8112;8048;275;233;283;232;299;237;464;236;333;243;466;242];
 [363;250;468;249;470;472;474;476;252;234;945;7743;324;328;505;65351];
 [65533;65533;65533;65533;65533;65533;65533;65533;65533;65533;65533;65533;65533;65533;65533;65533];
 [65533;65533;65533;65533;65533;65533;65533;65533;65533;65533;65533;65533;65533;65533;65533;65533];
 [65533;65533;65533;65533;65533;65533;65533;65533;65533;65533;65533;65533;65533;65533;65533;65533];
 [65533;65533;65533;65533;65533;65533;65533;65533;65533;65533;65533;65533;65533;65533;21438;20152];
 [20286;20510;20679;37144;27800;27868;27843;28253;28326;28395;28581;24933;24228;38424;22600;33875];
 [31989;24327;25236;25725;29274;21876;21924;22080;22148;23839;29385;39308;23006;23037;23134;32443];
 [32484;32505;39577;29135;25157;25162;31100;29594;29739;29832;29866;29912;26471;27317;29130;27555];
 [36736;36754;36191;39734;29352;34723;33106;27448;39120;34967;34991;35157;30474;38106;38234;38240];
 [40484;40512;40528;40541;40544;34574;31580;32729;32751;32324;36421;36406;36450;36444;38776;39750];
 [40747;40769;29990;20006;35756;33065;20625;20685;21177;35284;21847;38087;38038;38040;38095;38099];
 [38100;38118;38195;38172;38176;38183;38205;38211;38254;38260;40064;40068;40074;40083;40086;40087];
 [40088;40089;40127;40128;40129;40146;40155;40160;40163;38768;38778;38817;38830;38824;39268;39270];
 [39288;39289;39291;39294;39298;39299;39310;39696;39704;26018;40576;37148;40593;40722;21235;27798];
 [27972;28187;28263;28546;28652;24750;24264;36858;22399;21894;33950;33888;23557;24075;23825;23833];
 [24022;22963;23214;39572;25999;28830;30033;29183;26909;27153;26815;26119;26254;26227;27685;30290];
 [30603;30442;39061;34688;34861;31623;31824;36525;38261;26050;21392;31160;20245;20257;20283;20386];
 [20644;20626;21258;20931;20904;36128;22407;22426;22421;22507;22621;22618;22641;22677;23600;24332];
 [24333;24334;23666;23751;24492;24424;24415;23058;23141;23172;23236;29588;29674;29678;29751;29717];
 [29780;26521;26732;26872;27134;29410;26215;36178;35267;35277;25639;25719;27677;33087;27476;39126];
 [28794;28913;28960;24915;27783;28077;28289;28341;28564;28571;31037;31054;30726;30809;30868;30940];
 [30979;31254;31326;30176;31452;30326;39058;31730;31792;31837;40093;31916;33400;33745;34026;32704];
 [32542;36385;36435;38740;40716;38139;65533;65533;12992;12993;12994;12995;12996;12997;12998;12999];
 [13000;13001;13002;13003;13280;13281;13282;13283;13284;13285;13286;13287;13288;13289;13290;13291];
 [13292;13293;13294;13295;13296;13297;13298;13299;13300;13301;13302;13303;13304;13305;13306;13307];
 [13308;13309;13310;13144;13145;13146;13147;13148;13149;13150;13151;13152;13153;13154;13155;13156];
 [13157;13158;13159;13160;13161;13162;13163;13164;13165;13166;13167;13168;12343;37032;38494;22594];
 [22531;27710;27945;28391;34100;33990;25404;23813;32528;32492;29319;28974;33304;33302;30060;30195];
 [39717;35200;31910;20101;21872;37318]].

(* lib/converters/isoir165ext.h:97-163 isoir165ext_2uni_page7a *)
Definition isoir165ext_2uni_page7a : tab := mk [
 [19983;26431;20034;29994;22828;40673;34386;21276;20871;20879;20720;20235;20259;20227;20321;20346];
 [20331;20459;20469;20532;20514;20470;20594;20150;20910;22800;27610;21036;21042;20404;21144;21179];
 [21180;21197;21210;21239;21446;21447;22384;22380;22449;22431;22430;22462;22476;22542;22540;22517];
 [22537;22588;22595;22597;22598;22589;22611;22664;22660;22776;22189;22848;22867;22893;23594;21669];
 [21789;21814;21871;21837;22170;22172;22263;22288;22297;24087;24097;24104;24170;23668;23676;23720];
 [23710;23747;23763;23779;23783;23807;23812;23808;23834;23820;23886;23898;23941;23955;23954;24002];
 [24009;34898;24495;22790;26024;29249;29250;24252;24267;38380;38399;35354;38407;38419;38427;23468];
 [23463;23645;24354;23022;23164;23190;23155;23198;23213;23258;23274;23323;23382;39538;39555;39561];
 [39565;39566;39573;39590;29589;29593;29600;29617;29605;29606;29654;29680;29693;29667;29732;29710];
 [29703;29686;29690;29746;29743;29764;29762;29809;29816;29794;29830;29855;29856;29848;29874;38888];
 [26437;26527;26491;26568;26606;26699;26784;26642;26655;26730;26812;26875;26735;26801;26817;26859];
 [26899;26833;26897;26835;26860;26923;26856;27070;26985;26944;26991;26975;26978;26933;26969;27068];
 [27077;27098;27100;27147;27109;27238;27286;27316;29405;23793;29460;29498;27541;24423;33022;29947];
 [29955;25948;25961;28454;26104;26107;26121;26173;26210;26206;26220;26253;26251;36177;36183;29283];
 [29303;25521;25185;25184;25219;25316;25283;25372;25382;25519;25598;25634;25618;25837;26387;26392];
 [33112;33233;39119;39124;39127;27030;28824;28892;28922;28940;28956;29131;29215;28893;26013;25158];
 [24599;24775;24787;24752;24793;24852;27711;27751;27780;27802;27757;27816;27846;27829;27977;27960];
 [27921;27962;27944;27984;27956;27989;28001;28066;28005;27995;28004;28084;28314;28252;28274;28320];
 [28295;28302;28361;28355;28471;28376;28394;28502;28533;28511;28596;28604;28692;28685;28684;28732];
 [31043;31047;31050;31056;31090;31128;31136;31140;30716;30715;30754;30752;30785;30810;30837;30902];
 [30945;31027;35423;30459;30491;30508;30598;30635;30637;30052;30063;27011;32637;30429;30438;30444];
 [29985;31230;31300;30335;30366;40487;40494;40496;40500;40525;40530;40531;40532;40534;40537;40545];
 [40546;40549;40559;40564;30114;30212;30216;30237;31441;31365;31374;31395;31416;31422;30686;32816];
 [39051;39054;39065;39075;34435;34565;34648;34767;34786;34827;32980;32589;31562;31566;31615;31635];
 [31727;31753;31728;31765;31747;31776;33338;34950;34986;35008;35016;35110;35190;32657;33411;33468];
 [33447;33555;33534;33536;33629;33605;33604;33565;33702;33689;33790;33818;33788;33833;33849;33960];
 [33999;33951;33986;34039;34160;34227;34210;38616;34232;34272;32730;32430;32436;32444;32470;32522];
 [23363;36202;21061;35944;35950;35949;36374;36390;36391;36432;37016;37024;37053;37064;37059;37082];
 [37119;37146;37132;37152;37186;36789;37092;35974;35313;35761;35771;35783;35818;35849;35870;38658];
 [26832;29446;40833;40834;37574;38033]].

(* lib/converters/isoir165ext.h:200-311 isoir165ext_2charset *)
Definition isoir165ext_2charset : tab := mk [
 [11048;11046;11066;11052;11050;11056;11054;11060;11058;11065;11045;11047;11049;11069;11070;11053];
 [11057;11051;11055;11059;11061;11062;11063;11064;11071;11042;11067;11068;11044;11043;11041;12133];
 [12065;12066;12067;12068;12069;12070;12071;12072;12073;12074;12075;12076;12108;12109;12110;12111];
 [12112;12113;12114;12115;12116;12117;12118;12119;12120;12121;12122;12123;12124;12125;12126;12127];
 [12128;12129;12130;12131;12132;12077;12078;12079;12080;12081;12082;12083;12084;12085;12086;12087];
 [12088;12089;12090;12091;12092;12093;12094;12095;12096;12097;12098;12099;12100;12101;12102;12103];
 [12104;12105;12106;12107;31265;11382;31267;12156;31288;11298;31278;31276;11811;11812;31277;11813];
 [11299;31279;31281;31280;11814;31294;31282;31283;31286;11300;31285;31284;31287;11385;11816;11815];
 [11301;11386;31275;31273;31274;11819;31289;11818;31292;31293;32347;31295;11387;31296;31297;31298];
 [31299;11603;31300;11817;31272;11809;11297;31301;31302;31328;31329;31330;31332;11389;31331;12157];
 [11320;11614;11321;11322;11323;31333;31334;31323;31335;31336;31337;31304;31303;11613;11821;11823];
 [11822;31307;31306;31305;31308;31309;11824;31312;12137;31313;31311;31310;31314;31318;12136;31315];
 [31316;31317;11313;31319;11826;11825;11827;31321;31320;11828;31322;31526;31290;31269;31324;31325];
 [31326;11622;11327;31542;11328;11838;11329;11839;31545;31543;11840;31544;31546;31547;11623;11841];
 [31548;31549;31550;32345;31551;31539;31538;11617;31327;11829;31540;11833;31342;31343;31345;31344];
 [31346;11834;31347;31348;31349;31790;31350;31352;31351;12144;31354;11619;11620;31353;11324;31355];
 [31356;31357;31521;31358;31522;31523;11621;11618;31338;31339;31340;31341;11311;31530;11611;31531];
 [11316;11830;11831;11832;31541;11837;31794;11836;11835;31525;31845;11610;31848;31846;31847;31849];
 [31850;11866;11310;11335;31844;11336;31816;31815;31817;11317;31819;31818;31820;31821;12143;31822];
 [31814;31823;31825;31824;11857;11858;11318;31826;31798;31799;11625;31843;11598;31527;11646;31801];
 [31802;11632;31803;31804;31806;31805;11853;31807;11634;31809;31808;11633;31827;31828;31266;31587];
 [11343;31589;11848;31588;31590;31591;31594;31595;31592;31596;11849;31599;31593;31600;31597;11631];
 [31601;32377;31604;31606;31609;31602;31607;11850;31598;31605;31603;11629;31608;31778;31612;31779];
 [31614;31777;31611;31613;32082;31834;31780;31610;31781;31782;31783;31785;11851;31784;11630;31786];
 [31787;31788;11344;11354;11861;31793;11346;31291;11859;11635;12138;31851;31852;31855;31853;11867];
 [11604;11303;31854;31856;31858;11305;31857;11304;31861;31863;12139;31865;31860;31862;11605;31859];
 [31864;31866;31870;31867;32033;31869;31868;11868;32034;11606;32036;11306;11607;32037;11869;32039];
 [32040;32035;32038;11307;11870;32042;32041;32044;12140;32045;11308;31800;32043;32046;32048;32047];
 [11608;11871;11872;11309;32049;32050;11609;32053;32052;32051;32054;11863;31835;11626;31836;31842];
 [11864;31837;31838;31839;11865;12148;11345;31840;11334;11628;31841;31528;31529;11319;31812;31813];
 [12147;11351;11325;31789;11852;32378;31791;31792;11842;31559;31560;11338;31561;31563;31564;31562];
 [31565;31568;11843;11844;31566;31572;31573;31567;31571;31570;11846;31569;11339;31575;31574;11845];
 [31577;31576;11847;31580;31578;31579;31581;11340;31584;31582;31583;11341;31585;11342;31796;31797];
 [32087;11381;31268;11627;32080;12151;32081;32107;11882;12152;32108;32109;32110;11636;11884;32090];
 [32091;32084;32085;11638;32086;32074;11359;32075;32076;32077;11637;32078;32079;32117;32064;32063];
 [11875;32066;32065;32067;11876;32068;32069;11877;32070;11878;32071;11879;32072;11873;32055;32056];
 [32057;11874;32058;32059;11337;32060;32061;32062;11810;32088;11880;32089;11881;32112;32113;32114];
 [32115;32116;32111;11883;32293;32294;11369;32295;11642;32296;32297;32299;11886;32301;32298;32300];
 [32302;11887;11643;11888;12155;11890;11315;11372;32340;32341;11330;32342;32343;11331;12146;11332];
 [32344;12145;11895;32292;32083;32310;11894;11370;32339;11371;32118;32291;31795;11384;11860;11353];
 [31829;31830;12150;12149;32303;11891;32311;32313;32312;32315;32316;32314;32320;32319;32318;32317];
 [32322;32321;11892;32325;32323;32324;32326;32327;11314;11616;11615;32330;32328;32331;12142;32329];
 [11893;32332;12141;32333;32335;32334;32337;32338;31271;32123;32124;11368;32125;11640;11352;32126];
 [32289;32290;11641;31524;32304;11356;32305;11357;32306;32307;32308;11358;32309;12154;11855;11856];
 [11388;32369;31534;32073;11383;32370;32371;32372;32373;32374;32375;32348;32350;32349;32368;11820];
 [31810;11854;31811;11349;32346;32351;11896;32352;32353;11374;11373;32354;11897;11376;11375;11644];
 [11347;11348;32366;11612;32355;32356;12134;32357;32359;32358;32360;32367;32361;32363;11302;32362];
 [11600;32364;32365;12158;32381;32382;11553;11554;11390;11555;11556;11557;11360;11558;11900;11560];
 [11561;11562;11559;11563;11564;11361;11362;11565;11566;11645;31532;31533;31535;31536;11312;31537];
 [12135;32336;32376;11898;11582;11377;11583;11584;11586;11585;31586;32119;32120;11885;11639;32121];
 [32122;31831;11355;31832;11862;31833;11587;11588;11589;11590;11591;11592;11593;11594;11326;11595];
 [31552;31553;31554;31555;31556;11624;31557;11333;31558;11596;11597;12153;11350;11378;11567;11568];
 [11569;11570;11571;11572;11573;11574;11889;11575;11576;11577;11578;11579;11580;11581;11363;32092];
 [32093;32094;32095;11364;32096;11365;32097;32098;32099;32100;32101;11366;11367;32102;32103;32104];
 [32105;32106;11599;11601;31270;11899;11602;11379;11380;32379;32380;11072]].

(* lib/converters/isoir165ext.h:313-324 isoir165ext_uni2indx_page00 (flattened, 2 fields per entry) *)
Definition isoir165ext_uni2indx_page00 : tab := mk [
 [0;0;0;0;0;0;0;0;0;0;0;0;0;0;0;0];
 [0;0;0;0;0;0;0;0;0;0;0;0;0;14080;5;5644];
 [10;0;10;2056;12;2048;13;0;13;8464;16;0;16;2048;17;0];
 [17;0;17;0;17;0;17;0;17;0;17;5461;24;0;24;512]].

(* lib/converters/isoir165ext.h:325-330 isoir165ext_uni2indx_page03 (flattened, 2 fields per entry) *)
Definition isoir165ext_uni2indx_page03 : tab := mk [
 [25;0;25;0;25;0;25;0;25;0;25;0;25;0;25;0];
 [25;0;25;0;25;4096;26;2]].

(* lib/converters/isoir165ext.h:331-341 isoir165ext_uni2indx_page1e (flattened, 2 fields per entry) *)
Definition isoir165ext_uni2indx_page1e : tab := mk [
 [27;0;27;0;27;0;27;32768;28;0;28;0;28;0;28;0];
 [28;0;28;0;28;0;28;0;28;0;28;0;28;0;28;0];
 [28;0;28;0;28;0;28;0;28;0;28;0;28;0;28;1];
 [29;0;29;0;29;0;29;3]].

(* lib/converters/isoir165ext.h:342-345 isoir165ext_uni2indx_page30 (flattened, 2 fields per entry) *)
Definition isoir165ext_uni2indx_page30 : tab := mk [
 [31;0;31;0;31;0;31;128]].

(* lib/converters/isoir165ext.h:346-357 isoir165ext_uni2indx_page32 (flattened, 2 fields per entry) *)
Definition isoir165ext_uni2indx_page32 : tab := mk [
 [32;0;32;0;32;0;32;0;32;0;32;0;32;0;32;0];
 [32;0;32;0;32;0;32;0;32;4095;44;0;44;0;44;0];
 [44;0;44;0;44;0;44;0;44;0;44;65280;52;65535;68;1];
 [69;0;69;0;69;0;69;0;69;0;69;0;69;65535;85;32767]].

(* lib/converters/isoir165ext.h:358-594 isoir165ext_uni2indx_page4e (flattened, 2 fields per entry) *)
Definition isoir165ext_uni2indx_page4e : tab := mk [
 [100;32768;101;0;101;64;102;0;102;4;103;0;103;0;103;0];
 [103;32;104;0;104;0;104;320;106;0;106;0;106;0;106;0];
 [106;2056;108;32;109;10;111;18432;113;0;113;0;113;2050;115;1024];
 [116;0;116;0;116;4;117;16;118;0;118;0;118;2048;119;96];
 [121;0;121;16384;122;4;123;16;124;0;124;0;124;0;124;4];
 [125;0;125;6;127;16;128;0;128;8320;130;0;130;0;130;1];
 [131;0;131;0;131;0;131;0;131;0;131;0;131;0;131;0];
 [131;32896;133;0;133;16640;135;0;135;8;136;0;136;0;136;0];
 [136;0;136;0;136;4096;137;4;138;32;139;0;139;0;139;0];
 [139;0;139;256;140;0;140;6656;143;8192;144;1024;145;0;145;136];
 [147;1024;148;4096;149;0;149;0;149;0;149;0;149;0;149;0];
 [149;0;149;1;150;0;150;16384;151;192;153;0;153;0;153;0];
 [153;0;153;0;153;0;153;0;153;0;153;0;153;0;153;0];
 [153;0;153;0;153;32;154;0;154;0;154;0;154;0;154;0];
 [154;0;154;8192;155;0;155;64;156;8192;157;128;158;32768;159;17];
 [161;64;162;0;162;16;163;0;163;0;163;0;163;0;163;0];
 [163;0;163;0;163;0;163;0;163;1;164;0;164;0;164;0];
 [164;16;165;5120;167;8192;168;0;168;0;168;0;168;0;168;128];
 [169;0;169;513;171;0;171;0;171;0;171;0;171;4096;172;32769];
 [174;128;175;50208;179;0;179;16386;181;4096;182;0;182;2048;183;32];
 [184;21000;188;0;188;0;188;12288;190;364;195;9224;198;0;198;2];
 [199;272;201;32;202;0;202;0;202;0;202;0;202;0;202;256];
 [203;64;204;1;205;4096;206;0;206;1;207;8;208;8192;209;0];
 [209;0;209;0;209;0;209;8;210;0;210;16384;211;16384;212;8192];
 [213;0;213;4;214;0;214;0;214;0;214;16384;215;32;216;4104];
 [218;16;219;16448;221;24576;223;0;223;16;224;1024;225;1024;226;0];
 [226;0;226;2048;227;0;227;0;227;8;228;64;229;0;229;0];
 [229;0;229;0;229;4224;231;0;231;0;231;0;231;0;231;0];
 [231;32;232;0;232;1024;233;1;234;0;234;8192;235;0;235;4116];
 [238;0;238;16384;239;256;240;0;240;136;242;8;243;136;245;32770];
 [247;4145;251;34306;255;0;255;0;255;16384;256;1024;257;0;257;0];
 [257;32;258;12;260;0;260;0;260;516;262;64;263;0;263;0];
 [263;2048;264;128;265;258;267;0;267;0;267;0;267;1024;268;0];
 [268;0;268;0;268;16;269;4096;270;2304;272;0;272;0;272;0];
 [272;28800;276;0;276;4;277;0;277;0;277;32768;278;384;280;0];
 [280;0;280;0;280;36864;282;0;282;0;282;0;282;0;282;0];
 [282;0;282;128;283;0;283;0;283;0;283;0;283;0;283;0];
 [283;0;283;0;283;16384;284;1;285;128;286;520;288;0;288;0];
 [288;0;288;16;289;0;289;0;289;0;289;8;290;32;291;0];
 [291;0;291;0;291;0;291;0;291;0;291;0;291;0;291;0];
 [291;0;291;0;291;0;291;0;291;1120;294;0;294;3;296;0];
 [296;8;297;16;298;0;298;0;298;8;299;0;299;16;300;0];
 [300;0;300;4096;301;64;302;4096;303;0;303;0;303;0;303;0];
 [303;0;303;0;303;32768;304;2;305;0;305;0;305;0;305;16384];
 [306;0;306;4;307;132;309;0;309;0;309;0;309;0;309;8320];
 [311;0;311;0;311;0;311;0;311;0;311;0;311;8192;312;0];
 [312;0;312;0;312;0;312;0;312;0;312;4096;313;512;314;0];
 [314;32768;315;8192;316;260;318;0;318;4;319;0;319;0;319;2304];
 [321;640;323;0;323;0;323;8192;324;0;324;16384;325;4228;328;8];
 [329;26624;332;0;332;0;332;0;332;0;332;0;332;0;332;0];
 [332;0;332;264;334;0;334;32768;335;32;336;0;336;128;337;2048];
 [338;0;338;33280;340;0;340;0;340;256;341;0;341;16384;342;0];
 [342;0;342;32772;344;0;344;0;344;2048;345;0;345;37888;348;0];
 [348;0;348;0;348;1;349;36866;352;2;353;11;356;6400;359;2304];
 [361;0;361;8202;364;2048;365;32;366;1;367;33280;369;33284;372;0];
 [372;8;373;64;374;0;374;20480;376;32;377;5120;379;32;380;16384];
 [381;2048;382;2;383;0;383;0;383;0;383;0;383;64;384;0];
 [384;0;384;64;385;0;385;48;387;0;387;0;387;0;387;0];
 [387;0;387;0;387;0;387;256;388;0;388;16;389;0;389;0];
 [389;0;389;32;390;8;391;0;391;0;391;1024;392;0;392;0];
 [392;0;392;8192;393;32;394;49152;396;0;396;0;396;8320;398;0];
 [398;144;400;1344;403;256;404;32;405;72;407;4096;408;0;408;0];
 [408;0;408;2;409;768;411;1296;414;528;416;2081;419;50;422;0];
 [422;0;422;0;422;8196;424;16;425;0;425;0;425;0;425;0];
 [425;0;425;2048;426;0;426;0;426;0;426;12288;428;128;429;4];
 [430;16514;433;1024;434;65;436;32;437;520;439;256;440;3200;443;0];
 [443;0;443;0;443;64;444;128;445;0;445;32832;447;0;447;32];
 [448;4;449;2064;451;32;452;4112;454;0;454;0;454;4096;455;0];
 [455;12288;457;16;458;0;458;4096;459;0;459;0;459;0;459;1024];
 [460;0;460;16640;462;0;462;0;462;0;462;12288;464;0;464;1026];
 [466;4096;467;4096;468;16385;470;0;470;0;470;0;470;0;470;0];
 [470;0;470;0;470;0;470;0;470;35840;473;0;473;0;473;32768];
 [474;0;474;32768;475;0;475;0;475;6;477;1024;478;8;479;128];
 [480;128;481;0;481;256;482;0;482;512;483;8192;484;4;485;0];
 [485;64;486;16;487;0;487;1024;488;0;488;0;488;0;488;0];
 [488;0;488;1584;492;97;495;2;496;0;496;64;497;17416;500;9281];
 [504;16512;506;32;507;34832;510;132;512;20;514;16;515;4;516;258];
 [518;320;520;33024;522;1025;524;4;525;0;525;256;526;0;526;2048];
 [527;8;528;0;528;1090;531;0;531;0;531;2;532;36880;535;0];
 [535;0;535;0;535;4;536;0;536;0;536;0;536;1;537;8];
 [538;272;540;8192;541;0;541;0;541;0;541;4;542;0;542;32832];
 [544;0;544;16384;545;0;545;0;545;0;545;8192;546;5184;549;2048];
 [550;1024;551;2048;552;4096;553;0;553;0;553;0;553;0;553;0];
 [553;2112;555;0;555;10240;557;0;557;0;557;16384;558;0;558;6144];
 [560;64;561;0;561;5;563;0;563;2;564;1536;566;0;566;32];
 [567;0;567;16;568;0;568;64;569;0;569;4096;570;2;571;0];
 [571;8;572;0;572;0;572;8200;574;17544;578;1;579;0;579;4100];
 [581;0;581;256;582;17;584;256;585;0;585;0;585;0;585;16384];
 [586;0;586;64;587;0;587;0;587;16;588;16384;589;0;589;0];
 [589;16416;591;0;591;8;592;16640;594;0;594;4098;596;0;596;0];
 [596;0;596;0;596;0;596;0;596;17408;598;4096;599;0;599;32768];
 [600;128;601;8;602;0;602;0;602;0;602;0;602;32768;603;5];
 [605;520;607;32;608;1;609;1;610;0;610;8193;612;0;612;0];
 [612;0;612;0;612;4160;614;0;614;0;614;0;614;0;614;32]].

(* lib/converters/isoir165ext.h:595-701 isoir165ext_uni2indx_page7e (flattened, 2 fields per entry) *)
Definition isoir165ext_uni2indx_page7e : tab := mk [
 [615;0;615;0;615;0;615;0;615;16;616;0;616;0;616;0];
 [616;0;616;0;616;16384;617;6160;620;0;620;64;621;4112;623;512];
 [624;1024;625;16385;627;0;627;0;627;8192;628;0;628;0;628;8192];
 [629;0;629;2;630;0;630;0;630;1;631;1536;633;32768;634;0];
 [634;0;634;0;634;0;634;1;635;0;635;0;635;0;635;0];
 [635;0;635;0;635;0;635;0;635;0;635;16;636;0;636;16384];
 [637;0;637;0;637;512;638;32768;639;0;639;260;641;0;641;0];
 [641;0;641;0;641;0;641;0;641;0;641;2;642;0;642;0];
 [642;0;642;320;644;0;644;1024;645;0;645;0;645;0;645;256];
 [646;8;647;0;647;128;648;4096;649;0;649;0;649;0;649;16384];
 [650;1;651;8200;653;0;653;0;653;48;655;8192;656;0;656;0];
 [656;0;656;512;657;64;658;0;658;0;658;2;659;0;659;20480];
 [661;0;661;1024;662;512;663;512;664;0;664;8;665;1;666;0];
 [666;0;666;49152;668;256;669;0;669;32836;672;0;672;1024;673;128];
 [674;0;674;0;674;0;674;16;675;0;675;0;675;0;675;1];
 [676;0;676;0;676;4;677;264;679;0;679;0;679;1;680;0];
 [680;0;680;0;680;0;680;0;680;0;680;4;681;0;681;0];
 [681;8;682;0;682;0;682;0;682;0;682;0;682;0;682;0];
 [682;16416;684;0;684;0;684;0;684;0;684;256;685;0;685;0];
 [685;1;686;0;686;8;687;0;687;32768;688;0;688;4;689;0];
 [689;2048;690;0;690;8192;691;0;691;0;691;4;692;0;692;0];
 [692;64;693;128;694;33792;696;0;696;257;698;0;698;0;698;0];
 [698;0;698;0;698;64;699;0;699;0;699;32;700;0;700;64];
 [701;1;702;0;702;0;702;0;702;8200;704;16;705;0;705;2];
 [706;0;706;1024;707;0;707;0;707;0;707;32768;708;0;708;0];
 [708;0;708;0;708;0;708;0;708;0;708;0;708;0;708;0];
 [708;0;708;0;708;0;708;0;708;0;708;0;708;0;708;0];
 [708;0;708;0;708;4096;709;2050;711;128;712;0;712;1024;713;0];
 [713;512;714;16384;715;0;715;0;715;0;715;0;715;24832;718;0];
 [718;64;719;0;719;0;719;0;719;0;719;0;719;0;719;0];
 [719;0;719;0;719;1;720;0;720;0;720;32902;724;1024;725;0];
 [725;0;725;0;725;0;725;0;725;0;725;0;725;0;725;0];
 [725;0;725;64;726;194;729;64;730;32;731;4105;734;4;735;0];
 [735;0;735;0;735;8192;736;0;736;0;736;0;736;0;736;0];
 [736;0;736;0;736;0;736;0;736;0;736;0;736;0;736;0];
 [736;1;737;4;738;0;738;32;739;0;739;0;739;0;739;1024];
 [740;0;740;0;740;0;740;0;740;0;740;0;740;0;740;0];
 [740;0;740;256;741;257;743;8192;744;264;746;1024;747;16;748;32768];
 [749;4096;750;5376;753;1;754;0;754;4;755;0;755;0;755;0];
 [755;0;755;0;755;0;755;0;755;64;756;0;756;0;756;0];
 [756;0;756;0;756;0;756;0;756;0;756;0;756;0;756;0];
 [756;0;756;0;756;0;756;0;756;64]].

(* lib/converters/isoir165ext.h:702-748 isoir165ext_uni2indx_page94 (flattened, 2 fields per entry) *)
Definition isoir165ext_uni2indx_page94 : tab := mk [
 [757;0;757;0;757;0;757;0;757;0;757;0;757;0;757;0];
 [757;0;757;322;760;0;760;0;760;32896;762;1048;765;64;766;2048];
 [767;0;767;4096;768;129;770;8200;772;8;773;1024;774;16385;776;48];
 [778;0;778;0;778;0;778;0;778;0;778;0;778;4096;779;32768];
 [780;128;781;2312;784;0;784;0;784;0;784;16384;785;0;785;0];
 [785;0;785;0;785;0;785;0;785;0;785;256;786;0;786;0];
 [786;4;787;0;787;0;787;0;787;0;787;16;788;0;788;1281];
 [791;0;791;0;791;16642;794;0;794;0;794;0;794;256;795;0];
 [795;0;795;0;795;0;795;0;795;0;795;0;795;0;795;0];
 [795;18432;797;548;800;8;801;0;801;32768;802;209;806;0;806;0];
 [806;0;806;0;806;0;806;0;806;0;806;0;806;80;808;19200];
 [812;20492;816;0;816;0;816;0;816;0;816;0;816;0;816;0];
 [816;0;816;0;816;0;816;0;816;0;816;0;816;0;816;4];
 [817;25096;821;560;824;64;825;0;825;0;825;0;825;0;825;0];
 [825;0;825;257;827;32;828;64;829;64;830;0;830;0;830;0];
 [830;0;830;0;830;0;830;0;830;0;830;0;830;0;830;0];
 [830;0;830;0;830;0;830;0;830;0;830;0;830;0;830;0];
 [830;1041;833;9160;839;0;839;32768;840;3;842;2052;844;9]].

(* lib/converters/isoir165ext.h:749-759 isoir165ext_uni2indx_page9e (flattened, 2 fields per entry) *)
Definition isoir165ext_uni2indx_page9e : tab := mk [
 [846;0;846;0;846;16528;849;17;851;8193;853;8797;860;32807;865;16];
 [866;1;867;2;868;0;868;0;868;0;868;0;868;2;869;0];
 [869;4096;870;4;871;2048;872;0;872;2;873;0;873;0;873;0];
 [873;6]].

(* lib/converters/isoir165ext.h:760-764 isoir165ext_uni2indx_pageff (flattened, 2 fields per entry) *)
Definition isoir165ext_uni2indx_pageff : tab := mk [
 [875;0;875;0;875;0;875;0;875;128]].

(* lib/converters/cp936ext.h:30-36 cp936ext_2uni_pagea6 *)
Definition cp936ext_2uni_pagea6 : tab := mk [
 [65077;65078;65081;65082;65087;65088;65085;65086;65089;65090;65091;65092;65533;65533;65083;65084];
 [65079;65080;65073;65533;65075;65076]].

(* lib/converters/cp936ext.h:37-40 cp936ext_2uni_pagea8 *)
Definition cp936ext_2uni_pagea8 : tab := mk [
 [593;65533;324;328;65533;609]].

(* lib/converters/cp936ext.h:77-80 cp936ext_page01 *)
Definition cp936ext_page01 : tab := mk [
 [0;0;0;0;43197;0;0;0;43198;0;0;0;0;0;0;0]].

(* lib/converters/cp936ext.h:81-85 cp936ext_page02 *)
Definition cp936ext_page02 : tab := mk [
 [0;43195;0;0;0;0;0;0;0;0;0;0;0;0;0;0];
 [0;43200;0;0;0;0;0;0]].

(* lib/converters/cp936ext.h:86-90 cp936ext_pagefe *)
Definition cp936ext_pagefe : tab := mk [
 [0;42738;0;42740;42741;42720;42721;42736;42737;42722;42723;42734;42735;42726;42727;42724];
 [42725;42728;42729;42730;42731;0;0;0]].

(* lib/converters/gbkext1.h:30-831 gbkext1_2uni_page81 *)
Definition gbkext1_2uni_page81 : tab := mk [
 [19970;19972;19973;19974;19983;19986;19991;19999;20000;20001;20003;20006;20009;20014;20015;20017];
 [20019;20021;20023;20028;20032;20033;20034;20036;20038;20042;20049;20053;20055;20058;20059;20066];
 [20067;20068;20069;20071;20072;20074;20075;20076;20077;20078;20079;20082;20084;20085;20086;20087];
 [20088;20089;20090;20091;20092;20093;20095;20096;20097;20098;20099;20100;20101;20103;20106;20112];
 [20118;20119;20121;20124;20125;20126;20131;20138;20143;20144;20145;20148;20150;20151;20152;20153];
 [20156;20157;20158;20168;20172;20175;20176;20178;20186;20187;20188;20192;20194;20198;20199;20201];
 [20205;20206;20207;20209;20212;20216;20217;20218;20220;20222;20224;20226;20227;20228;20229;20230];
 [20231;20232;20235;20236;20242;20243;20244;20245;20246;20252;20253;20257;20259;20264;20265;20268];
 [20269;20270;20273;20275;20277;20279;20281;20283;20286;20287;20288;20289;20290;20292;20293;20295];
 [20296;20297;20298;20299;20300;20306;20308;20310;20321;20322;20326;20328;20330;20331;20333;20334];
 [20337;20338;20341;20343;20344;20345;20346;20349;20352;20353;20354;20357;20358;20359;20362;20364];
 [20366;20368;20370;20371;20373;20374;20376;20377;20378;20380;20382;20383;20385;20386;20388;20395];
 [20397;20400;20401;20402;20403;20404;20406;20407;20408;20409;20410;20411;20412;20413;20414;20416];
 [20417;20418;20422;20423;20424;20425;20427;20428;20429;20434;20435;20436;20437;20438;20441;20443];
 [20448;20450;20452;20453;20455;20459;20460;20464;20466;20468;20469;20470;20471;20473;20475;20476];
 [20477;20479;20480;20481;20482;20483;20484;20485;20486;20487;20488;20489;20490;20491;20494;20496];
 [20497;20499;20501;20502;20503;20507;20509;20510;20512;20514;20515;20516;20519;20523;20527;20528];
 [20529;20530;20531;20532;20533;20534;20535;20536;20537;20539;20541;20543;20544;20545;20546;20548];
 [20549;20550;20553;20554;20555;20557;20560;20561;20562;20563;20564;20566;20567;20568;20569;20571];
 [20573;20574;20575;20576;20577;20578;20579;20580;20582;20583;20584;20585;20586;20587;20589;20590];
 [20591;20592;20593;20594;20595;20596;20597;20600;20601;20602;20604;20605;20609;20610;20611;20612];
 [20614;20615;20617;20618;20619;20620;20622;20623;20624;20625;20626;20627;20628;20629;20630;20631];
 [20632;20633;20634;20635;20636;20637;20638;20639;20640;20641;20642;20644;20646;20650;20651;20653];
 [20654;20655;20656;20657;20659;20660;20661;20662;20663;20664;20665;20668;20669;20670;20671;20672];
 [20673;20674;20675;20676;20677;20678;20679;20680;20681;20682;20683;20684;20685;20686;20688;20689];
 [20690;20691;20692;20693;20695;20696;20697;20699;20700;20701;20702;20703;20704;20705;20706;20707];
 [20708;20709;20712;20713;20714;20715;20719;20720;20721;20722;20724;20726;20727;20728;20729;20730];
 [20732;20733;20734;20735;20736;20737;20738;20739;20740;20741;20744;20745;20746;20748;20749;20750];
 [20751;20752;20753;20755;20756;20757;20758;20759;20760;20761;20762;20763;20764;20765;20766;20767];
 [20768;20770;20771;20772;20773;20774;20775;20776;20777;20778;20779;20780;20781;20782;20783;20784];
 [20785;20786;20787;20788;20789;20790;20791;20792;20793;20794;20795;20796;20797;20798;20802;20807];
 [20810;20812;20814;20815;20816;20818;20819;20823;20824;20825;20827;20829;20830;20831;20832;20833];
 [20835;20836;20838;20839;20841;20842;20847;20850;20858;20862;20863;20867;20868;20870;20871;20874];
 [20875;20878;20879;20880;20881;20883;20884;20888;20890;20893;20894;20895;20897;20899;20902;20903];
 [20904;20905;20906;20909;20910;20916;20920;20921;20922;20926;20927;20929;20930;20931;20933;20936];
 [20938;20941;20942;20944;20946;20947;20948;20949;20950;20951;20952;20953;20954;20956;20958;20959];
 [20962;20963;20965;20966;20967;20968;20969;20970;20972;20974;20977;20978;20980;20983;20990;20996];
 [20997;21001;21003;21004;21007;21008;21011;21012;21013;21020;21022;21023;21025;21026;21027;21029];
 [21030;21031;21034;21036;21039;21041;21042;21044;21045;21052;21054;21060;21061;21062;21063;21064];
 [21065;21067;21070;21071;21074;21075;21077;21079;21080;21081;21082;21083;21085;21087;21088;21090];
 [21091;21092;21094;21096;21099;21100;21101;21102;21104;21105;21107;21108;21109;21110;21111;21112];
 [21113;21114;21115;21116;21118;21120;21123;21124;21125;21126;21127;21129;21130;21131;21132;21133];
 [21134;21135;21137;21138;21140;21141;21142;21143;21144;21145;21146;21148;21156;21157;21158;21159];
 [21166;21167;21168;21172;21173;21174;21175;21176;21177;21178;21179;21180;21181;21184;21185;21186];
 [21188;21189;21190;21192;21194;21196;21197;21198;21199;21201;21203;21204;21205;21207;21209;21210];
 [21211;21212;21213;21214;21216;21217;21218;21219;21221;21222;21223;21224;21225;21226;21227;21228];
 [21229;21230;21231;21233;21234;21235;21236;21237;21238;21239;21240;21243;21244;21245;21249;21250];
 [21251;21252;21255;21257;21258;21259;21260;21262;21265;21266;21267;21268;21272;21275;21276;21278];
 [21279;21282;21284;21285;21287;21288;21289;21291;21292;21293;21295;21296;21297;21298;21299;21300];
 [21301;21302;21303;21304;21308;21309;21312;21314;21316;21318;21323;21324;21325;21328;21332;21336];
 [21337;21339;21341;21349;21352;21354;21356;21357;21362;21366;21369;21371;21372;21373;21374;21376];
 [21377;21379;21383;21384;21386;21390;21391;21392;21393;21394;21395;21396;21398;21399;21401;21403];
 [21404;21406;21408;21409;21412;21415;21418;21419;21420;21421;21423;21424;21425;21426;21427;21428];
 [21429;21431;21432;21433;21434;21436;21437;21438;21440;21443;21444;21445;21446;21447;21454;21455];
 [21456;21458;21459;21461;21466;21468;21469;21470;21473;21474;21479;21492;21498;21502;21503;21504];
 [21506;21509;21511;21515;21524;21528;21529;21530;21532;21538;21540;21541;21546;21552;21555;21558];
 [21559;21562;21565;21567;21569;21570;21572;21573;21575;21577;21580;21581;21582;21583;21585;21594];
 [21597;21598;21599;21600;21601;21603;21605;21607;21609;21610;21611;21612;21613;21614;21615;21616];
 [21620;21625;21626;21630;21631;21633;21635;21637;21639;21640;21641;21642;21645;21649;21651;21655];
 [21656;21660;21662;21663;21664;21665;21666;21669;21678;21680;21682;21685;21686;21687;21689;21690];
 [21692;21694;21699;21701;21706;21707;21718;21720;21723;21728;21729;21730;21731;21732;21739;21740];
 [21743;21744;21745;21748;21749;21750;21751;21752;21753;21755;21758;21760;21762;21763;21764;21765];
 [21768;21770;21771;21772;21773;21774;21778;21779;21781;21782;21783;21784;21785;21786;21788;21789];
 [21790;21791;21793;21797;21798;21800;21801;21803;21805;21810;21812;21813;21814;21816;21817;21818];
 [21819;21821;21824;21826;21829;21831;21832;21835;21836;21837;21838;21839;21841;21842;21843;21844];
 [21847;21848;21849;21850;21851;21853;21854;21855;21856;21858;21859;21864;21865;21867;21871;21872];
 [21873;21874;21875;21876;21881;21882;21885;21887;21893;21894;21900;21901;21902;21904;21906;21907];
 [21909;21910;21911;21914;21915;21918;21920;21921;21922;21923;21924;21925;21926;21928;21929;21930];
 [21931;21932;21933;21934;21935;21936;21938;21940;21942;21944;21946;21948;21951;21952;21953;21954];
 [21955;21958;21959;21960;21962;21963;21966;21967;21968;21973;21975;21976;21977;21978;21979;21982];
 [21984;21986;21991;21993;21997;21998;22000;22001;22004;22006;22008;22009;22010;22011;22012;22015];
 [22018;22019;22020;22021;22022;22023;22026;22027;22029;22032;22033;22034;22035;22036;22037;22038];
 [22039;22041;22042;22044;22045;22048;22049;22050;22053;22054;22056;22057;22058;22059;22062;22063];
 [22064;22067;22069;22071;22072;22074;22076;22077;22078;22080;22081;22082;22083;22084;22085;22086];
 [22087;22088;22089;22090;22091;22095;22096;22097;22098;22099;22101;22102;22106;22107;22109;22110];
 [22111;22112;22113;22115;22117;22118;22119;22125;22126;22127;22128;22130;22131;22132;22133;22135];
 [22136;22137;22138;22141;22142;22143;22144;22145;22146;22147;22148;22151;22152;22153;22154;22155];
 [22156;22157;22160;22161;22162;22164;22165;22166;22167;22168;22169;22170;22171;22172;22173;22174];
 [22175;22176;22177;22178;22180;22181;22182;22183;22184;22185;22186;22187;22188;22189;22190;22192];
 [22193;22194;22195;22196;22197;22198;22200;22201;22202;22203;22205;22206;22207;22208;22209;22210];
 [22211;22212;22213;22214;22215;22216;22217;22219;22220;22221;22222;22223;22224;22225;22226;22227];
 [22229;22230;22232;22233;22236;22243;22245;22246;22247;22248;22249;22250;22252;22254;22255;22258];
 [22259;22262;22263;22264;22267;22268;22272;22273;22274;22277;22279;22283;22284;22285;22286;22287];
 [22288;22289;22290;22291;22292;22293;22294;22295;22296;22297;22298;22299;22301;22302;22304;22305];
 [22306;22308;22309;22310;22311;22315;22321;22322;22324;22325;22326;22327;22328;22332;22333;22335];
 [22337;22339;22340;22341;22342;22344;22345;22347;22354;22355;22356;22357;22358;22360;22361;22370];
 [22371;22373;22375;22380;22382;22384;22385;22386;22388;22389;22392;22393;22394;22397;22398;22399];
 [22400;22401;22407;22408;22409;22410;22413;22414;22415;22416;22417;22420;22421;22422;22423;22424];
 [22425;22426;22428;22429;22430;22431;22437;22440;22442;22444;22447;22448;22449;22451;22453;22454];
 [22455;22457;22458;22459;22460;22461;22462;22463;22464;22465;22468;22469;22470;22471;22472;22473];
 [22474;22476;22477;22480;22481;22483;22486;22487;22491;22492;22494;22497;22498;22499;22501;22502];
 [22503;22504;22505;22506;22507;22508;22510;22512;22513;22514;22515;22517;22518;22519;22523;22524];
 [22526;22527;22529;22531;22532;22533;22536;22537;22538;22540;22542;22543;22544;22546;22547;22548];
 [22550;22551;22552;22554;22555;22556;22557;22559;22562;22563;22565;22566;22567;22568;22569;22571];
 [22572;22573;22574;22575;22577;22578;22579;22580;22582;22583;22584;22585;22586;22587;22588;22589];
 [22590;22591;22592;22593;22594;22595;22597;22598;22599;22600;22601;22602;22603;22606;22607;22608];
 [22610;22611;22613;22614;22615;22617;22618;22619;22620;22621;22623;22624;22625;22626;22627;22628];
 [22630;22631;22632;22633;22634;22637;22638;22639;22640;22641;22642;22643;22644;22645;22646;22647];
 [22648;22649;22650;22651;22652;22653;22655;22658;22660;22662;22663;22664;22666;22667;22668;22669];
 [22670;22671;22672;22673;22676;22677;22678;22679;22680;22683;22684;22685;22688;22689;22690;22691];
 [22692;22693;22694;22695;22698;22699;22700;22701;22702;22703;22704;22705;22706;22707;22708;22709];
 [22710;22711;22712;22713;22714;22715;22717;22718;22719;22720;22722;22723;22724;22726;22727;22728];
 [22729;22730;22731;22732;22733;22734;22735;22736;22738;22739;22740;22742;22743;22744;22745;22746];
 [22747;22748;22749;22750;22751;22752;22753;22754;22755;22757;22758;22759;22760;22761;22762;22765];
 [22767;22769;22770;22772;22773;22775;22776;22778;22779;22780;22781;22782;22783;22784;22785;22787];
 [22789;22790;22792;22793;22794;22795;22796;22798;22800;22801;22802;22803;22807;22808;22811;22813];
 [22814;22816;22817;22818;22819;22822;22824;22828;22832;22834;22835;22837;22838;22843;22845;22846];
 [22847;22848;22851;22853;22854;22858;22860;22861;22864;22866;22867;22873;22875;22876;22877;22878];
 [22879;22881;22883;22884;22886;22887;22888;22889;22890;22891;22892;22893;22894;22895;22896;22897];
 [22898;22901;22903;22906;22907;22908;22910;22911;22912;22917;22921;22923;22924;22926;22927;22928];
 [22929;22932;22933;22936;22938;22939;22940;22941;22943;22944;22945;22946;22950;22951;22956;22957];
 [22960;22961;22963;22964;22965;22966;22967;22968;22970;22972;22973;22975;22976;22977;22978;22979];
 [22980;22981;22983;22984;22985;22988;22989;22990;22991;22997;22998;23001;23003;23006;23007;23008];
 [23009;23010;23012;23014;23015;23017;23018;23019;23021;23022;23023;23024;23025;23026;23027;23028];
 [23029;23030;23031;23032;23034;23036;23037;23038;23040;23042;23050;23051;23053;23054;23055;23056];
 [23058;23060;23061;23062;23063;23065;23066;23067;23069;23070;23073;23074;23076;23078;23079;23080];
 [23082;23083;23084;23085;23086;23087;23088;23091;23093;23095;23096;23097;23098;23099;23101;23102];
 [23103;23105;23106;23107;23108;23109;23111;23112;23115;23116;23117;23118;23119;23120;23121;23122];
 [23123;23124;23126;23127;23128;23129;23131;23132;23133;23134;23135;23136;23137;23139;23140;23141];
 [23142;23144;23145;23147;23148;23149;23150;23151;23152;23153;23154;23155;23160;23161;23163;23164];
 [23165;23166;23168;23169;23170;23171;23172;23173;23174;23175;23176;23177;23178;23179;23180;23181];
 [23182;23183;23184;23185;23187;23188;23189;23190;23191;23192;23193;23196;23197;23198;23199;23200];
 [23201;23202;23203;23204;23205;23206;23207;23208;23209;23211;23212;23213;23214;23215;23216;23217];
 [23220;23222;23223;23225;23226;23227;23228;23229;23231;23232;23235;23236;23237;23238;23239;23240];
 [23242;23243;23245;23246;23247;23248;23249;23251;23253;23255;23257;23258;23259;23261;23262;23263];
 [23266;23268;23269;23271;23272;23274;23276;23277;23278;23279;23280;23282;23283;23284;23285;23286];
 [23287;23288;23289;23290;23291;23292;23293;23294;23295;23296;23297;23298;23299;23300;23301;23302];
 [23303;23304;23306;23307;23308;23309;23310;23311;23312;23313;23314;23315;23316;23317;23320;23321];
 [23322;23323;23324;23325;23326;23327;23328;23329;23330;23331;23332;23333;23334;23335;23336;23337];
 [23338;23339;23340;23341;23342;23343;23344;23345;23347;23349;23350;23352;23353;23354;23355;23356];
 [23357;23358;23359;23361;23362;23363;23364;23365;23366;23367;23368;23369;23370;23371;23372;23373];
 [23374;23375;23378;23382;23390;23392;23393;23399;23400;23403;23405;23406;23407;23410;23412;23414];
 [23415;23416;23417;23419;23420;23422;23423;23426;23430;23434;23437;23438;23440;23441;23442;23444];
 [23446;23455;23463;23464;23465;23468;23469;23470;23471;23473;23474;23479;23482;23483;23484;23488];
 [23489;23491;23496;23497;23498;23499;23501;23502;23503;23505;23508;23509;23510;23511;23512;23513];
 [23514;23515;23516;23520;23522;23523;23526;23527;23529;23530;23531;23532;23533;23535;23537;23538];
 [23539;23540;23541;23542;23543;23549;23550;23552;23554;23555;23557;23559;23560;23563;23564;23565];
 [23566;23568;23570;23571;23575;23577;23579;23582;23583;23584;23585;23587;23590;23592;23593;23594];
 [23595;23597;23598;23599;23600;23602;23603;23605;23606;23607;23619;23620;23622;23623;23628;23629];
 [23634;23635;23636;23638;23639;23640;23642;23643;23644;23645;23647;23650;23652;23655;23656;23657];
 [23658;23659;23660;23661;23664;23666;23667;23668;23669;23670;23671;23672;23675;23676;23677;23678];
 [23680;23683;23684;23685;23686;23687;23689;23690;23691;23694;23695;23698;23699;23701;23709;23710];
 [23711;23712;23713;23716;23717;23718;23719;23720;23722;23726;23727;23728;23730;23732;23734;23737];
 [23738;23739;23740;23742;23744;23746;23747;23749;23750;23751;23752;23753;23754;23756;23757;23758];
 [23759;23760;23761;23763;23764;23765;23766;23767;23768;23770;23771;23772;23773;23774;23775;23776];
 [23778;23779;23783;23785;23787;23788;23790;23791;23793;23794;23795;23796;23797;23798;23799;23800];
 [23801;23802;23804;23805;23806;23807;23808;23809;23812;23813;23816;23817;23818;23819;23820;23821];
 [23823;23824;23825;23826;23827;23829;23831;23832;23833;23834;23836;23837;23839;23840;23841;23842];
 [23843;23845;23848;23850;23851;23852;23855;23856;23857;23858;23859;23861;23862;23863;23864;23865];
 [23866;23867;23868;23871;23872;23873;23874;23875;23876;23877;23878;23880;23881;23885;23886;23887];
 [23888;23889;23890;23891;23892;23893;23894;23895;23897;23898;23900;23902;23903;23904;23905;23906];
 [23907;23908;23909;23910;23911;23912;23914;23917;23918;23920;23921;23922;23923;23925;23926;23927];
 [23928;23929;23930;23931;23932;23933;23934;23935;23936;23937;23939;23940;23941;23942;23943;23944];
 [23945;23946;23947;23948;23949;23950;23951;23952;23953;23954;23955;23956;23957;23958;23959;23960];
 [23962;23963;23964;23966;23967;23968;23969;23970;23971;23972;23973;23974;23975;23976;23977;23978];
 [23979;23980;23981;23982;23983;23984;23985;23986;23987;23988;23989;23990;23992;23993;23994;23995];
 [23996;23997;23998;23999;24000;24001;24002;24003;24004;24006;24007;24008;24009;24010;24011;24012];
 [24014;24015;24016;24017;24018;24019;24020;24021;24022;24023;24024;24025;24026;24028;24031;24032];
 [24035;24036;24042;24044;24045;24048;24053;24054;24056;24057;24058;24059;24060;24063;24064;24068];
 [24071;24073;24074;24075;24077;24078;24082;24083;24087;24094;24095;24096;24097;24098;24099;24100];
 [24101;24104;24105;24106;24107;24108;24111;24112;24114;24115;24116;24117;24118;24121;24122;24126];
 [24127;24128;24129;24131;24134;24135;24136;24137;24138;24139;24141;24142;24143;24144;24145;24146];
 [24147;24150;24151;24152;24153;24154;24156;24157;24159;24160;24163;24164;24165;24166;24167;24168];
 [24169;24170;24171;24172;24173;24174;24175;24176;24177;24181;24183;24185;24190;24193;24194;24195];
 [24197;24200;24201;24204;24205;24206;24210;24216;24219;24221;24225;24226;24227;24228;24232;24233];
 [24234;24235;24236;24238;24239;24240;24241;24242;24244;24250;24251;24252;24253;24255;24256;24257];
 [24258;24259;24260;24261;24262;24263;24264;24267;24268;24269;24270;24271;24272;24276;24277;24279];
 [24280;24281;24282;24284;24285;24286;24287;24288;24289;24290;24291;24292;24293;24294;24295;24297];
 [24299;24300;24301;24302;24303;24304;24305;24306;24307;24309;24312;24313;24315;24316;24317;24325];
 [24326;24327;24329;24332;24333;24334;24336;24338;24340;24342;24345;24346;24348;24349;24350;24353];
 [24354;24355;24356;24360;24363;24364;24366;24368;24370;24371;24372;24373;24374;24375;24376;24379];
 [24381;24382;24383;24385;24386;24387;24388;24389;24390;24391;24392;24393;24394;24395;24396;24397];
 [24398;24399;24401;24404;24409;24410;24411;24412;24414;24415;24416;24419;24421;24423;24424;24427];
 [24430;24431;24434;24436;24437;24438;24440;24442;24445;24446;24447;24451;24454;24461;24462;24463];
 [24465;24467;24468;24470;24474;24475;24477;24478;24479;24480;24482;24483;24484;24485;24486;24487];
 [24489;24491;24492;24495;24496;24497;24498;24499;24500;24502;24504;24505;24506;24507;24510;24511];
 [24512;24513;24514;24519;24520;24522;24523;24526;24531;24532;24533;24538;24539;24540;24542;24543];
 [24546;24547;24549;24550;24552;24553;24556;24559;24560;24562;24563;24564;24566;24567;24569;24570];
 [24572;24583;24584;24585;24587;24588;24592;24593;24595;24599;24600;24602;24606;24607;24610;24611];
 [24612;24620;24621;24622;24624;24625;24626;24627;24628;24630;24631;24632;24633;24634;24637;24638];
 [24640;24644;24645;24646;24647;24648;24649;24650;24652;24654;24655;24657;24659;24660;24662;24663];
 [24664;24667;24668;24670;24671;24672;24673;24677;24678;24686;24689;24690;24692;24693;24695;24702];
 [24704;24705;24706;24709;24710;24711;24712;24714;24715;24718;24719;24720;24721;24723;24725;24727];
 [24728;24729;24732;24734;24737;24738;24740;24741;24743;24745;24746;24750;24752;24755;24757;24758];
 [24759;24761;24762;24765;24766;24767;24768;24769;24770;24771;24772;24775;24776;24777;24780;24781];
 [24782;24783;24784;24786;24787;24788;24790;24791;24793;24795;24798;24801;24802;24803;24804;24805];
 [24810;24817;24818;24821;24823;24824;24827;24828;24829;24830;24831;24834;24835;24836;24837;24839];
 [24842;24843;24844;24848;24849;24850;24851;24852;24854;24855;24856;24857;24859;24860;24861;24862];
 [24865;24866;24869;24872;24873;24874;24876;24877;24878;24879;24880;24881;24882;24883;24884;24885];
 [24886;24887;24888;24889;24890;24891;24892;24893;24894;24896;24897;24898;24899;24900;24901;24902];
 [24903;24905;24907;24909;24911;24912;24914;24915;24916;24918;24919;24920;24921;24922;24923;24924];
 [24926;24927;24928;24929;24931;24932;24933;24934;24937;24938;24939;24940;24941;24942;24943;24945];
 [24946;24947;24948;24950;24952;24953;24954;24955;24956;24957;24958;24959;24960;24961;24962;24963];
 [24964;24965;24966;24967;24968;24969;24970;24972;24973;24975;24976;24977;24978;24979;24981;24982];
 [24983;24984;24985;24986;24987;24988;24990;24991;24992;24993;24994;24995;24996;24997;24998;25002];
 [25003;25005;25006;25007;25008;25009;25010;25011;25012;25013;25014;25016;25017;25018;25019;25020];
 [25021;25023;25024;25025;25027;25028;25029;25030;25031;25033;25036;25037;25038;25039;25040;25043];
 [25045;25046;25047;25048;25049;25050;25051;25052;25053;25054;25055;25056;25057;25058;25059;25060];
 [25061;25063;25064;25065;25066;25067;25068;25069;25070;25071;25072;25073;25074;25075;25076;25078];
 [25079;25080;25081;25082;25083;25084;25085;25086;25088;25089;25090;25091;25092;25093;25095;25097];
 [25107;25108;25113;25116;25117;25118;25120;25123;25126;25127;25128;25129;25131;25133;25135;25136];
 [25137;25138;25141;25142;25144;25145;25146;25147;25148;25154;25156;25157;25158;25162;25167;25168];
 [25173;25174;25175;25177;25178;25180;25181;25182;25183;25184;25185;25186;25188;25189;25192;25201];
 [25202;25204;25205;25207;25208;25210;25211;25213;25217;25218;25219;25221;25222;25223;25224;25227];
 [25228;25229;25230;25231;25232;25236;25241;25244;25245;25246;25251;25254;25255;25257;25258;25261];
 [25262;25263;25264;25266;25267;25268;25270;25271;25272;25274;25278;25280;25281;25283;25291;25295];
 [25297;25301;25309;25310;25312;25313;25316;25322;25323;25328;25330;25333;25336;25337;25338;25339];
 [25344;25347;25348;25349;25350;25354;25355;25356;25357;25359;25360;25362;25363;25364;25365;25367];
 [25368;25369;25372;25382;25383;25385;25388;25389;25390;25392;25393;25395;25396;25397;25398;25399];
 [25400;25403;25404;25406;25407;25408;25409;25412;25415;25416;25418;25425;25426;25427;25428;25430];
 [25431;25432;25433;25434;25435;25436;25437;25440;25444;25445;25446;25448;25450;25451;25452;25455];
 [25456;25458;25459;25460;25461;25464;25465;25468;25469;25470;25471;25473;25475;25476;25477;25478];
 [25483;25485;25489;25491;25492;25493;25495;25497;25498;25499;25500;25501;25502;25503;25505;25508];
 [25510;25515;25519;25521;25522;25525;25526;25529;25531;25533;25535;25536;25537;25538;25539;25541];
 [25543;25544;25546;25547;25548;25553;25555;25556;25557;25559;25560;25561;25562;25563;25564;25565];
 [25567;25570;25572;25573;25574;25575;25576;25579;25580;25582;25583;25584;25585;25587;25589;25591];
 [25593;25594;25595;25596;25598;25603;25604;25606;25607;25608;25609;25610;25613;25614;25617;25618];
 [25621;25622;25623;25624;25625;25626;25629;25631;25634;25635;25636;25637;25639;25640;25641;25643];
 [25646;25647;25648;25649;25650;25651;25653;25654;25655;25656;25657;25659;25660;25662;25664;25666];
 [25667;25673;25675;25676;25677;25678;25679;25680;25681;25683;25685;25686;25687;25689;25690;25691];
 [25692;25693;25695;25696;25697;25698;25699;25700;25701;25702;25704;25706;25707;25708;25710;25711];
 [25712;25713;25714;25715;25716;25717;25718;25719;25723;25724;25725;25726;25727;25728;25729;25731];
 [25734;25736;25737;25738;25739;25740;25741;25742;25743;25744;25747;25748;25751;25752;25754;25755];
 [25756;25757;25759;25760;25761;25762;25763;25765;25766;25767;25768;25770;25771;25775;25777;25778];
 [25779;25780;25782;25785;25787;25789;25790;25791;25793;25795;25796;25798;25799;25800;25801;25802];
 [25803;25804;25807;25809;25811;25812;25813;25814;25817;25818;25819;25820;25821;25823;25824;25825];
 [25827;25829;25831;25832;25833;25834;25835;25836;25837;25838;25839;25840;25841;25842;25843;25844];
 [25845;25846;25847;25848;25849;25850;25851;25852;25853;25854;25855;25857;25858;25859;25860;25861];
 [25862;25863;25864;25866;25867;25868;25869;25870;25871;25872;25873;25875;25876;25877;25878;25879];
 [25881;25882;25883;25884;25885;25886;25887;25888;25889;25890;25891;25892;25894;25895;25896;25897];
 [25898;25900;25901;25904;25905;25906;25907;25911;25914;25916;25917;25920;25921;25922;25923;25924];
 [25926;25927;25930;25931;25933;25934;25936;25938;25939;25940;25943;25944;25946;25948;25951;25952];
 [25953;25956;25957;25959;25960;25961;25962;25965;25966;25967;25969;25971;25973;25974;25976;25977];
 [25978;25979;25980;25981;25982;25983;25984;25985;25986;25987;25988;25989;25990;25992;25993;25994];
 [25997;25998;25999;26002;26004;26005;26006;26008;26010;26013;26014;26016;26018;26019;26022;26024];
 [26026;26028;26030;26033;26034;26035;26036;26037;26038;26039;26040;26042;26043;26046;26047;26048];
 [26050;26055;26056;26057;26058;26061;26064;26065;26067;26068;26069;26072;26073;26074;26075;26076];
 [26077;26078;26079;26081;26083;26084;26090;26091;26098;26099;26100;26101;26104;26105;26107;26108];
 [26109;26110;26111;26113;26116;26117;26119;26120;26121;26123;26125;26128;26129;26130;26134;26135];
 [26136;26138;26139;26140;26142;26145;26146;26147;26148;26150;26153;26154;26155;26156;26158;26160];
 [26162;26163;26167;26168;26169;26170;26171;26173;26175;26176;26178;26180;26181;26182;26183;26184];
 [26185;26186;26189;26190;26192;26193;26200;26201;26203;26204;26205;26206;26208;26210;26211;26213];
 [26215;26217;26218;26219;26220;26221;26225;26226;26227;26229;26232;26233;26235;26236;26237;26239];
 [26240;26241;26243;26245;26246;26248;26249;26250;26251;26253;26254;26255;26256;26258;26259;26260];
 [26261;26264;26265;26266;26267;26268;26270;26271;26272;26273;26274;26275;26276;26277;26278;26281];
 [26282;26283;26284;26285;26287;26288;26289;26290;26291;26293;26294;26295;26296;26298;26299;26300];
 [26301;26303;26304;26305;26306;26307;26308;26309;26310;26311;26312;26313;26314;26315;26316;26317];
 [26318;26319;26320;26321;26322;26323;26324;26325;26326;26327;26328;26330;26334;26335;26336;26337];
 [26338;26339;26340;26341;26343;26344;26346;26347;26348;26349;26350;26351;26353;26357;26358;26360];
 [26362;26363;26365;26369;26370;26371;26372;26373;26374;26375;26380;26382;26383;26385;26386;26387];
 [26390;26392;26393;26394;26396;26398;26400;26401;26402;26403;26404;26405;26407;26409;26414;26416];
 [26418;26419;26422;26423;26424;26425;26427;26428;26430;26431;26433;26436;26437;26439;26442;26443];
 [26445;26450;26452;26453;26455;26456;26457;26458;26459;26461;26466;26467;26468;26470;26471;26475];
 [26476;26478;26481;26484;26486;26488;26489;26490;26491;26493;26496;26498;26499;26501;26502;26504];
 [26506;26508;26509;26510;26511;26513;26514;26515;26516;26518;26521;26523;26527;26528;26529;26532];
 [26534;26537;26540;26542;26545;26546;26548;26553;26554;26555;26556;26557;26558;26559;26560;26562];
 [26565;26566;26567;26568;26569;26570;26571;26572;26573;26574;26581;26582;26583;26587;26591;26593];
 [26595;26596;26598;26599;26600;26602;26603;26605;26606;26610;26613;26614;26615;26616;26617;26618];
 [26619;26620;26622;26625;26626;26627;26628;26630;26637;26640;26642;26644;26645;26648;26649;26650];
 [26651;26652;26654;26655;26656;26658;26659;26660;26661;26662;26663;26664;26667;26668;26669;26670];
 [26671;26672;26673;26676;26677;26678;26682;26683;26687;26695;26699;26701;26703;26706;26710;26711];
 [26712;26713;26714;26715;26716;26717;26718;26719;26730;26732;26733;26734;26735;26736;26737;26738];
 [26739;26741;26744;26745;26746;26747;26748;26749;26750;26751;26752;26754;26756;26759;26760;26761];
 [26762;26763;26764;26765;26766;26768;26769;26770;26772;26773;26774;26776;26777;26778;26779;26780];
 [26781;26782;26783;26784;26785;26787;26788;26789;26793;26794;26795;26796;26798;26801;26802;26804];
 [26806;26807;26808;26809;26810;26811;26812;26813;26814;26815;26817;26819;26820;26821;26822;26823];
 [26824;26826;26828;26830;26831;26832;26833;26835;26836;26838;26839;26841;26843;26844;26845;26846];
 [26847;26849;26850;26852;26853;26854;26855;26856;26857;26858;26859;26860;26861;26863;26866;26867];
 [26868;26870;26871;26872;26875;26877;26878;26879;26880;26882;26883;26884;26886;26887;26888;26889];
 [26890;26892;26895;26897;26899;26900;26901;26902;26903;26904;26905;26906;26907;26908;26909;26910];
 [26913;26914;26915;26917;26918;26919;26920;26921;26922;26923;26924;26926;26927;26929;26930;26931];
 [26933;26934;26935;26936;26938;26939;26940;26942;26944;26945;26947;26948;26949;26950;26951;26952];
 [26953;26954;26955;26956;26957;26958;26959;26960;26961;26962;26963;26965;26966;26968;26969;26971];
 [26972;26975;26977;26978;26980;26981;26983;26984;26985;26986;26988;26989;26991;26992;26994;26995];
 [26996;26997;26998;27002;27003;27005;27006;27007;27009;27011;27013;27018;27019;27020;27022;27023];
 [27024;27025;27026;27027;27030;27031;27033;27034;27037;27038;27039;27040;27041;27042;27043;27044];
 [27045;27046;27049;27050;27052;27054;27055;27056;27058;27059;27061;27062;27064;27065;27066;27068];
 [27069;27070;27071;27072;27074;27075;27076;27077;27078;27079;27080;27081;27083;27085;27087;27089];
 [27090;27091;27093;27094;27095;27096;27097;27098;27100;27101;27102;27105;27106;27107;27108;27109];
 [27110;27111;27112;27113;27114;27115;27116;27118;27119;27120;27121;27123;27124;27125;27126;27127];
 [27128;27129;27130;27131;27132;27134;27136;27137;27138;27139;27140;27141;27142;27143;27144;27145];
 [27147;27148;27149;27150;27151;27152;27153;27154;27155;27156;27157;27158;27161;27162;27163;27164];
 [27165;27166;27168;27170;27171;27172;27173;27174;27175;27177;27179;27180;27181;27182;27184;27186];
 [27187;27188;27190;27191;27192;27193;27194;27195;27196;27199;27200;27201;27202;27203;27205;27206];
 [27208;27209;27210;27211;27212;27213;27214;27215;27217;27218;27219;27220;27221;27222;27223;27226];
 [27228;27229;27230;27231;27232;27234;27235;27236;27238;27239;27240;27241;27242;27243;27244;27245];
 [27246;27247;27248;27250;27251;27252;27253;27254;27255;27256;27258;27259;27261;27262;27263;27265];
 [27266;27267;27269;27270;27271;27272;27273;27274;27275;27276;27277;27279;27282;27283;27284;27285];
 [27286;27288;27289;27290;27291;27292;27293;27294;27295;27297;27298;27299;27300;27301;27302;27303];
 [27304;27306;27309;27310;27311;27312;27313;27314;27315;27316;27317;27318;27319;27320;27321;27322];
 [27323;27324;27325;27326;27327;27328;27329;27330;27331;27332;27333;27334;27335;27336;27337;27338];
 [27339;27340;27341;27342;27343;27344;27345;27346;27347;27348;27349;27350;27351;27352;27353;27354];
 [27355;27356;27357;27358;27359;27360;27361;27362;27363;27364;27365;27366;27367;27368;27369;27370];
 [27371;27372;27373;27374;27375;27376;27377;27378;27379;27380;27381;27382;27383;27384;27385;27386];
 [27387;27388;27389;27390;27391;27392;27393;27394;27395;27396;27397;27398;27399;27400;27401;27402];
 [27403;27404;27405;27406;27407;27408;27409;27410;27411;27412;27413;27414;27415;27416;27417;27418];
 [27419;27420;27421;27422;27423;27429;27430;27432;27433;27434;27435;27436;27437;27438;27439;27440];
 [27441;27443;27444;27445;27446;27448;27451;27452;27453;27455;27456;27457;27458;27460;27461;27464];
 [27466;27467;27469;27470;27471;27472;27473;27474;27475;27476;27477;27478;27479;27480;27482;27483];
 [27484;27485;27486;27487;27488;27489;27496;27497;27499;27500;27501;27502;27503;27504;27505;27506];
 [27507;27508;27509;27510;27511;27512;27514;27517;27518;27519;27520;27525;27528;27532;27534;27535];
 [27536;27537;27540;27541;27543;27544;27545;27548;27549;27550;27551;27552;27554;27555;27556;27557];
 [27558;27559;27560;27561;27563;27564;27565;27566;27567;27568;27569;27570;27574;27576;27577;27578];
 [27579;27580;27581;27582;27584;27587;27588;27590;27591;27592;27593;27594;27596;27598;27600;27601];
 [27608;27610;27612;27613;27614;27615;27616;27618;27619;27620;27621;27622;27623;27624;27625;27628];
 [27629;27630;27632;27633;27634;27636;27638;27639;27640;27642;27643;27644;27646;27647;27648;27649];
 [27650;27651;27652;27656;27657;27658;27659;27660;27662;27666;27671;27676;27677;27678;27680;27683];
 [27685;27691;27692;27693;27697;27699;27702;27703;27705;27706;27707;27708;27710;27711;27715;27716];
 [27717;27720;27723;27724;27725;27726;27727;27729;27730;27731;27734;27736;27737;27738;27746;27747];
 [27749;27750;27751;27755;27756;27757;27758;27759;27761;27763;27765;27767;27768;27770;27771;27772];
 [27775;27776;27780;27783;27786;27787;27789;27790;27793;27794;27797;27798;27799;27800;27802;27804];
 [27805;27806;27808;27810;27816;27820;27823;27824;27828;27829;27830;27831;27834;27840;27841;27842];
 [27843;27846;27847;27848;27851;27853;27854;27855;27857;27858;27864;27865;27866;27868;27869;27871];
 [27876;27878;27879;27881;27884;27885;27890;27892;27897;27903;27904;27906;27907;27909;27910;27912];
 [27913;27914;27917;27919;27920;27921;27923;27924;27925;27926;27928;27932;27933;27935;27936;27937];
 [27938;27939;27940;27942;27944;27945;27948;27949;27951;27952;27956;27958;27959;27960;27962;27967];
 [27968;27970;27972;27977;27980;27984;27989;27990;27991;27992;27995;27997;27999;28001;28002;28004];
 [28005;28007;28008;28011;28012;28013;28016;28017;28018;28019;28021;28022;28025;28026;28027;28029];
 [28030;28031;28032;28033;28035;28036;28038;28039;28042;28043;28045;28047;28048;28050;28054;28055];
 [28056;28057;28058;28060;28066;28069;28076;28077;28080;28081;28083;28084;28086;28087;28089;28090];
 [28091;28092;28093;28094;28097;28098;28099;28104;28105;28106;28109;28110;28111;28112;28114;28115];
 [28116;28117;28119;28122;28123;28124;28127;28130;28131;28133;28135;28136;28137;28138;28141;28143];
 [28144;28146;28148;28149;28150;28152;28154;28157;28158;28159;28160;28161;28162;28163;28164;28166];
 [28167;28168;28169;28171;28175;28178;28179;28181;28184;28185;28187;28188;28190;28191;28194;28198];
 [28199;28200;28202;28204;28206;28208;28209;28211;28213;28214;28215;28217;28219;28220;28221;28222];
 [28223;28224;28225;28226;28229;28230;28231;28232;28233;28234;28235;28236;28239;28240;28241;28242];
 [28245;28247;28249;28250;28252;28253;28254;28256;28257;28258;28259;28260;28261;28262;28263;28264];
 [28265;28266;28268;28269;28271;28272;28273;28274;28275;28276;28277;28278;28279;28280;28281;28282];
 [28283;28284;28285;28288;28289;28290;28292;28295;28296;28298;28299;28300;28301;28302;28305;28306];
 [28307;28308;28309;28310;28311;28313;28314;28315;28317;28318;28320;28321;28323;28324;28326;28328];
 [28329;28331;28332;28333;28334;28336;28339;28341;28344;28345;28348;28350;28351;28352;28355;28356];
 [28357;28358;28360;28361;28362;28364;28365;28366;28368;28370;28374;28376;28377;28379;28380;28381];
 [28387;28391;28394;28395;28396;28397;28398;28399;28400;28401;28402;28403;28405;28406;28407;28408];
 [28410;28411;28412;28413;28414;28415;28416;28417;28419;28420;28421;28423;28424;28426;28427;28428];
 [28429;28430;28432;28433;28434;28438;28439;28440;28441;28442;28443;28444;28445;28446;28447;28449];
 [28450;28451;28453;28454;28455;28456;28460;28462;28464;28466;28468;28469;28471;28472;28473;28474];
 [28475;28476;28477;28479;28480;28481;28482;28483;28484;28485;28488;28489;28490;28492;28494;28495];
 [28496;28497;28498;28499;28500;28501;28502;28503;28505;28506;28507;28509;28511;28512;28513;28515];
 [28516;28517;28519;28520;28521;28522;28523;28524;28527;28528;28529;28531;28533;28534;28535;28537];
 [28539;28541;28542;28543;28544;28545;28546;28547;28549;28550;28551;28554;28555;28559;28560;28561];
 [28562;28563;28564;28565;28566;28567;28568;28569;28570;28571;28573;28574;28575;28576;28578;28579];
 [28580;28581;28582;28584;28585;28586;28587;28588;28589;28590;28591;28592;28593;28594;28596;28597];
 [28599;28600;28602;28603;28604;28605;28606;28607;28609;28611;28612;28613;28614;28615;28616;28618];
 [28619;28620;28621;28622;28623;28624;28627;28628;28629;28630;28631;28632;28633;28634;28635;28636];
 [28637;28639;28642;28643;28644;28645;28646;28647;28648;28649;28650;28651;28652;28653;28656;28657];
 [28658;28659;28660;28661;28662;28663;28664;28665;28666;28667;28668;28669;28670;28671;28672;28673];
 [28674;28675;28676;28677;28678;28679;28680;28681;28682;28683;28684;28685;28686;28687;28688;28690];
 [28691;28692;28693;28694;28695;28696;28697;28700;28701;28702;28703;28704;28705;28706;28708;28709];
 [28710;28711;28712;28713;28714;28715;28716;28717;28718;28719;28720;28721;28722;28723;28724;28726];
 [28727;28728;28730;28731;28732;28733;28734;28735;28736;28737;28738;28739;28740;28741;28742;28743];
 [28744;28745;28746;28747;28749;28750;28752;28753;28754;28755;28756;28757;28758;28759;28760;28761];
 [28762;28763;28764;28765;28767;28768;28769;28770;28771;28772;28773;28774;28775;28776;28777;28778];
 [28782;28785;28786;28787;28788;28791;28793;28794;28795;28797;28801;28802;28803;28804;28806;28807];
 [28808;28811;28812;28813;28815;28816;28817;28819;28823;28824;28826;28827;28830;28831;28832;28833];
 [28834;28835;28836;28837;28838;28839;28840;28841;28842;28848;28850;28852;28853;28854;28858;28862];
 [28863;28868;28869;28870;28871;28873;28875;28876;28877;28878;28879;28880;28881;28882;28883;28884];
 [28885;28886;28887;28890;28892;28893;28894;28896;28897;28898;28899;28901;28906;28910;28912;28913];
 [28914;28915;28916;28917;28918;28920;28922;28923;28924;28926;28927;28928;28929;28930;28931;28932];
 [28933;28934;28935;28936;28939;28940;28941;28942;28943;28945;28946;28948;28951;28955;28956;28957];
 [28958;28959;28960;28961;28962;28963;28964;28965;28967;28968;28969;28970;28971;28972;28973;28974];
 [28978;28979;28980;28981;28983;28984;28985;28986;28987;28988;28989;28990;28991;28992;28993;28994];
 [28995;28996;28998;28999;29000;29001;29003;29005;29007;29008;29009;29010;29011;29012;29013;29014];
 [29015;29016;29017;29018;29019;29021;29023;29024;29025;29026;29027;29029;29033;29034;29035;29036];
 [29037;29039;29040;29041;29044;29045;29046;29047;29049;29051;29052;29054;29055;29056;29057;29058];
 [29059;29061;29062;29063;29064;29065;29067;29068;29069;29070;29072;29073;29074;29075;29077;29078];
 [29079;29082;29083;29084;29085;29086;29089;29090;29091;29092;29093;29094;29095;29097;29098;29099];
 [29101;29102;29103;29104;29105;29106;29108;29110;29111;29112;29114;29115;29116;29117;29118;29119];
 [29120;29121;29122;29124;29125;29126;29127;29128;29129;29130;29131;29132;29133;29135;29136;29137];
 [29138;29139;29142;29143;29144;29145;29146;29147;29148;29149;29150;29151;29153;29154;29155;29156];
 [29158;29160;29161;29162;29163;29164;29165;29167;29168;29169;29170;29171;29172;29173;29174;29175];
 [29176;29178;29179;29180;29181;29182;29183;29184;29185;29186;29187;29188;29189;29191;29192;29193];
 [29194;29195;29196;29197;29198;29199;29200;29201;29202;29203;29204;29205;29206;29207;29208;29209];
 [29210;29211;29212;29214;29215;29216;29217;29218;29219;29220;29221;29222;29223;29225;29227;29229];
 [29230;29231;29234;29235;29236;29242;29244;29246;29248;29249;29250;29251;29252;29253;29254;29257];
 [29258;29259;29262;29263;29264;29265;29267;29268;29269;29271;29272;29274;29276;29278;29280;29283];
 [29284;29285;29288;29290;29291;29292;29293;29296;29297;29299;29300;29302;29303;29304;29307;29308];
 [29309;29314;29315;29317;29318;29319;29320;29321;29324;29326;29328;29329;29331;29332;29333;29334];
 [29335;29336;29337;29338;29339;29340;29341;29342;29344;29345;29346;29347;29348;29349;29350;29351];
 [29352;29353;29354;29355;29358;29361;29362;29363;29365;29370;29371;29372;29373;29374;29375;29376];
 [29381;29382;29383;29385;29386;29387;29388;29391;29393;29395;29396;29397;29398;29400;29402;29403]].

(* lib/converters/gbkext2.h:30-1152 gbkext2_2uni_pagea8 *)
Definition gbkext2_2uni_pagea8 : tab := mk [
 [714;715;729;8211;8213;8229;8245;8453;8457;8598;8599;8600;8601;8725;8735;8739];
 [8786;8806;8807;8895;9552;9553;9554;9555;9556;9557;9558;9559;9560;9561;9562;9563];
 [9564;9565;9566;9567;9568;9569;9570;9571;9572;9573;9574;9575;9576;9577;9578;9579];
 [9580;9581;9582;9583;9584;9585;9586;9587;9601;9602;9603;9604;9605;9606;9607;9608];
 [9609;9610;9611;9612;9613;9614;9615;9619;9620;9621;9660;9661;9698;9699;9700;9701];
 [9737;8853;12306;12317;12318;65533;65533;65533;65533;65533;65533;65533;65533;65533;65533;65533];
 [12321;12322;12323;12324;12325;12326;12327;12328;12329;12963;13198;13199;13212;13213;13214;13217];
 [13252;13262;13265;13266;13269;65072;65506;65508;65533;8481;12849;65533;8208;65533;65533;65533];
 [12540;12443;12444;12541;12542;12294;12445;12446;65097;65098;65099;65100;65101;65102;65103;65104];
 [65105;65106;65108;65109;65110;65111;65113;65114;65115;65116;65117;65118;65119;65120;65121;65122];
 [65123;65124;65125;65126;65128;65129;65130;65131;65533;65533;65533;65533;65533;65533;65533;65533];
 [65533;65533;65533;65533;65533;12295;65533;65533;65533;65533;65533;65533;65533;65533;65533;65533];
 [29404;29405;29407;29410;29411;29412;29413;29414;29415;29418;29419;29429;29430;29433;29437;29438];
 [29439;29440;29442;29444;29445;29446;29447;29448;29449;29451;29452;29453;29455;29456;29457;29458];
 [29460;29464;29465;29466;29471;29472;29475;29476;29478;29479;29480;29485;29487;29488;29490;29491];
 [29493;29494;29498;29499;29500;29501;29504;29505;29506;29507;29508;29509;29510;29511;29512;29513];
 [29514;29515;29516;29518;29519;29521;29523;29524;29525;29526;29528;29529;29530;29531;29532;29533];
 [29534;29535;29537;29538;29539;29540;29541;29542;29543;29544;29545;29546;29547;29550;29552;29553];
 [29554;29555;29556;29557;29558;29559;29560;29561;29562;29563;29564;29565;29567;29568;29569;29570];
 [29571;29573;29574;29576;29578;29580;29581;29583;29584;29586;29587;29588;29589;29591;29592;29593];
 [29594;29596;29597;29598;29600;29601;29603;29604;29605;29606;29607;29608;29610;29612;29613;29617];
 [29620;29621;29622;29624;29625;29628;29629;29630;29631;29633;29635;29636;29637;29638;29639;29643];
 [29644;29646;29650;29651;29652;29653;29654;29655;29656;29658;29659;29660;29661;29663;29665;29666];
 [29667;29668;29670;29672;29674;29675;29676;29678;29679;29680;29681;29683;29684;29685;29686;29687];
 [29688;29689;29690;29691;29692;29693;29694;29695;29696;29697;29698;29700;29703;29704;29707;29708];
 [29709;29710;29713;29714;29715;29716;29717;29718;29719;29720;29721;29724;29725;29726;29727;29728];
 [29729;29731;29732;29735;29737;29739;29741;29743;29745;29746;29751;29752;29753;29754;29755;29757];
 [29758;29759;29760;29762;29763;29764;29765;29766;29767;29768;29769;29770;29771;29772;29773;29774];
 [29775;29776;29777;29778;29779;29780;29782;29784;29789;29792;29793;29794;29795;29796;29797;29798];
 [29799;29800;29801;29802;29803;29804;29806;29807;29809;29810;29811;29812;29813;29816;29817;29818];
 [29819;29820;29821;29823;29826;29828;29829;29830;29832;29833;29834;29836;29837;29839;29841;29842];
 [29843;29844;29845;29846;29847;29848;29849;29850;29851;29853;29855;29856;29857;29858;29859;29860];
 [29861;29862;29866;29867;29868;29869;29870;29871;29872;29873;29874;29875;29876;29877;29878;29879];
 [29880;29881;29883;29884;29885;29886;29887;29888;29889;29890;29891;29892;29893;29894;29895;29896];
 [29897;29898;29899;29900;29901;29902;29903;29904;29905;29907;29908;29909;29910;29911;29912;29913];
 [29914;29915;29917;29919;29921;29925;29927;29928;29929;29930;29931;29932;29933;29936;29937;29938];
 [29939;29941;29944;29945;29946;29947;29948;29949;29950;29952;29953;29954;29955;29957;29958;29959];
 [29960;29961;29962;29963;29964;29966;29968;29970;29972;29973;29974;29975;29979;29981;29982;29984];
 [29985;29986;29987;29988;29990;29991;29994;29998;30004;30006;30009;30012;30013;30015;30017;30018];
 [30019;30020;30022;30023;30025;30026;30029;30032;30033;30034;30035;30037;30038;30039;30040;30045];
 [30046;30047;30048;30049;30050;30051;30052;30055;30056;30057;30059;30060;30061;30062;30063;30064];
 [30065;30067;30069;30070;30071;30074;30075;30076;30077;30078;30080;30081;30082;30084;30085;30087];
 [30088;30089;30090;30092;30093;30094;30096;30099;30101;30104;30107;30108;30110;30114;30118;30119];
 [30120;30121;30122;30125;30134;30135;30138;30139;30143;30144;30145;30150;30155;30156;30158;30159];
 [30160;30161;30163;30167;30169;30170;30172;30173;30175;30176;30177;30181;30185;30188;30189;30190];
 [30191;30194;30195;30197;30198;30199;30200;30202;30203;30205;30206;30210;30212;30214;30215;30216];
 [30217;30219;30221;30222;30223;30225;30226;30227;30228;30230;30234;30236;30237;30238;30241;30243];
 [30247;30248;30252;30254;30255;30257;30258;30262;30263;30265;30266;30267;30269;30273;30274;30276];
 [30277;30278;30279;30280;30281;30282;30283;30286;30287;30288;30289;30290;30291;30293;30295;30296];
 [30297;30298;30299;30301;30303;30304;30305;30306;30308;30309;30310;30311;30312;30313;30314;30316];
 [30317;30318;30320;30321;30322;30323;30324;30325;30326;30327;30329;30330;30332;30335;30336;30337];
 [30339;30341;30345;30346;30348;30349;30351;30352;30354;30356;30357;30359;30360;30362;30363;30364];
 [30365;30366;30367;30368;30369;30370;30371;30373;30374;30375;30376;30377;30378;30379;30380;30381];
 [30383;30384;30387;30389;30390;30391;30392;30393;30394;30395;30396;30397;30398;30400;30401;30403];
 [30404;30407;30409;30411;30412;30419;30421;30425;30426;30428;30429;30430;30432;30433;30434;30435];
 [30436;30438;30439;30440;30441;30442;30443;30444;30445;30448;30451;30453;30454;30455;30458;30459];
 [30461;30463;30464;30466;30467;30469;30470;30474;30476;30478;30479;30480;30481;30482;30483;30484];
 [30485;30486;30487;30488;30491;30492;30493;30494;30497;30499;30500;30501;30503;30506;30507;30508];
 [30510;30512;30513;30514;30515;30516;30521;30523;30525;30526;30527;30530;30532;30533;30534;30536];
 [30537;30538;30539;30540;30541;30542;30543;30546;30547;30548;30549;30550;30551;30552;30553;30556];
 [30557;30558;30559;30560;30564;30567;30569;30570;30573;30574;30575;30576;30577;30578;30579;30580];
 [30581;30582;30583;30584;30586;30587;30588;30593;30594;30595;30598;30599;30600;30601;30602;30603];
 [30607;30608;30611;30612;30613;30614;30615;30616;30617;30618;30619;30620;30621;30622;30625;30627];
 [30628;30630;30632;30635;30637;30638;30639;30641;30642;30644;30646;30647;30648;30649;30650;30652];
 [30654;30656;30657;30658;30659;30660;30661;30662;30663;30664;30665;30666;30667;30668;30670;30671];
 [30672;30673;30674;30675;30676;30677;30678;30680;30681;30682;30685;30686;30687;30688;30689;30692];
 [30694;30696;30698;30703;30704;30705;30706;30708;30709;30711;30713;30714;30715;30716;30723;30724];
 [30725;30726;30727;30728;30730;30731;30734;30735;30736;30739;30741;30745;30747;30750;30752;30753];
 [30754;30756;30760;30762;30763;30766;30767;30769;30770;30771;30773;30774;30781;30783;30785;30786];
 [30787;30788;30790;30792;30793;30794;30795;30797;30799;30801;30803;30804;30808;30809;30810;30811];
 [30812;30814;30815;30816;30817;30818;30819;30820;30821;30822;30823;30824;30825;30831;30832;30833];
 [30834;30835;30836;30837;30838;30840;30841;30842;30843;30845;30846;30847;30848;30849;30850;30851];
 [30852;30853;30854;30856;30858;30859;30863;30864;30866;30868;30869;30870;30873;30877;30878;30880];
 [30882;30884;30886;30888;30889;30890;30891;30892;30893;30894;30895;30901;30902;30903;30904;30906];
 [30907;30908;30909;30911;30912;30914;30915;30916;30918;30919;30920;30924;30925;30926;30927;30929];
 [30930;30931;30934;30935;30936;30938;30939;30940;30941;30942;30943;30944;30945;30946;30947;30948];
 [30949;30950;30951;30953;30954;30955;30957;30958;30959;30960;30961;30963;30965;30966;30968;30969];
 [30971;30972;30973;30974;30975;30976;30978;30979;30980;30982;30983;30984;30985;30986;30987;30988];
 [30989;30990;30991;30992;30993;30994;30996;30997;30998;30999;31000;31001;31002;31003;31004;31005];
 [31007;31008;31009;31010;31011;31013;31014;31015;31016;31017;31018;31019;31020;31021;31022;31023];
 [31024;31025;31026;31027;31029;31030;31031;31032;31033;31037;31039;31042;31043;31044;31045;31047];
 [31050;31051;31052;31053;31054;31055;31056;31057;31058;31060;31061;31064;31065;31073;31075;31076];
 [31078;31081;31082;31083;31084;31086;31088;31089;31090;31091;31092;31093;31094;31097;31099;31100];
 [31101;31102;31103;31106;31107;31110;31111;31112;31113;31115;31116;31117;31118;31120;31121;31122];
 [31123;31124;31125;31126;31127;31128;31129;31131;31132;31133;31134;31135;31136;31137;31138;31139];
 [31140;31141;31142;31144;31145;31146;31147;31148;31149;31150;31151;31152;31153;31154;31156;31157];
 [31158;31159;31160;31164;31167;31170;31172;31173;31175;31176;31178;31180;31182;31183;31184;31187];
 [31188;31190;31191;31193;31194;31195;31196;31197;31198;31200;31201;31202;31205;31208;31210;31212];
 [31214;31217;31218;31219;31220;31221;31222;31223;31225;31226;31228;31230;31231;31233;31236;31237];
 [31239;31240;31241;31242;31244;31247;31248;31249;31250;31251;31253;31254;31256;31257;31259;31260];
 [31261;31263;31265;31266;31268;31269;31270;31271;31272;31273;31274;31275;31276;31277;31278;31279];
 [31280;31281;31282;31284;31285;31286;31288;31290;31294;31296;31297;31298;31299;31300;31301;31303];
 [31304;31305;31306;31307;31308;31309;31310;31311;31312;31314;31315;31316;31317;31318;31320;31321];
 [31322;31323;31324;31325;31326;31327;31328;31329;31330;31331;31332;31333;31334;31335;31336;31337];
 [31338;31339;31340;31341;31342;31343;31345;31346;31347;31349;31355;31356;31357;31358;31362;31365];
 [31367;31369;31370;31371;31372;31374;31375;31376;31379;31380;31385;31386;31387;31390;31393;31394];
 [31395;31396;31399;31401;31402;31403;31406;31407;31408;31409;31410;31412;31413;31414;31415;31416];
 [31417;31418;31419;31420;31421;31422;31424;31425;31426;31427;31428;31429;31430;31431;31432;31433];
 [31434;31436;31437;31438;31439;31440;31441;31442;31443;31444;31445;31447;31448;31450;31451;31452];
 [31453;31457;31458;31460;31463;31464;31465;31466;31467;31468;31470;31472;31473;31474;31475;31476];
 [31477;31478;31479;31480;31483;31484;31486;31488;31489;31490;31493;31495;31497;31500;31501;31502];
 [31504;31506;31507;31510;31511;31512;31514;31516;31517;31519;31521;31522;31523;31527;31529;31533];
 [31535;31536;31538;31540;31541;31542;31543;31545;31547;31549;31551;31552;31553;31554;31555;31556];
 [31558;31560;31562;31565;31566;31571;31573;31575;31577;31580;31582;31583;31585;31587;31588;31589];
 [31590;31591;31592;31593;31594;31595;31596;31597;31599;31600;31603;31604;31606;31608;31610;31612];
 [31613;31615;31617;31618;31619;31620;31622;31623;31624;31625;31626;31627;31628;31630;31631;31633];
 [31634;31635;31638;31640;31641;31642;31643;31646;31647;31648;31651;31652;31653;31662;31663;31664];
 [31666;31667;31669;31670;31671;31673;31674;31675;31676;31677;31678;31679;31680;31682;31683;31684];
 [31685;31688;31689;31690;31691;31693;31694;31695;31696;31698;31700;31701;31702;31703;31704;31707];
 [31708;31710;31711;31712;31714;31715;31716;31719;31720;31721;31723;31724;31725;31727;31728;31730];
 [31731;31732;31733;31734;31736;31737;31738;31739;31741;31743;31744;31745;31746;31747;31748;31749];
 [31750;31752;31753;31754;31757;31758;31760;31761;31762;31763;31764;31765;31767;31768;31769;31770];
 [31771;31772;31773;31774;31776;31777;31778;31779;31780;31781;31784;31785;31787;31788;31789;31790];
 [31791;31792;31793;31794;31795;31796;31797;31798;31799;31801;31802;31803;31804;31805;31806;31810];
 [31811;31812;31813;31814;31815;31816;31817;31818;31819;31820;31822;31823;31824;31825;31826;31827];
 [31828;31829;31830;31831;31832;31833;31834;31835;31836;31837;31838;31839;31840;31841;31842;31843];
 [31844;31845;31846;31847;31848;31849;31850;31851;31852;31853;31854;31855;31856;31857;31858;31861];
 [31862;31863;31864;31865;31866;31870;31871;31872;31873;31874;31875;31876;31877;31878;31879;31880];
 [31882;31883;31884;31885;31886;31887;31888;31891;31892;31894;31897;31898;31899;31904;31905;31907];
 [31910;31911;31912;31913;31915;31916;31917;31919;31920;31924;31925;31926;31927;31928;31930;31931];
 [31935;31936;31938;31939;31940;31942;31945;31947;31950;31951;31952;31953;31954;31955;31956;31960];
 [31962;31963;31965;31966;31969;31970;31971;31972;31973;31974;31975;31977;31978;31979;31980;31981];
 [31982;31984;31985;31986;31987;31988;31989;31990;31991;31993;31994;31996;31997;31998;31999;32000];
 [32001;32002;32003;32004;32005;32006;32007;32008;32009;32011;32012;32013;32014;32015;32016;32017];
 [32018;32019;32020;32021;32022;32023;32024;32025;32026;32027;32028;32029;32030;32031;32033;32035];
 [32036;32037;32038;32040;32041;32042;32044;32045;32046;32048;32049;32050;32051;32052;32053;32054];
 [32055;32056;32057;32058;32059;32060;32061;32062;32063;32064;32065;32066;32067;32068;32069;32070];
 [32071;32072;32073;32074;32075;32076;32077;32078;32079;32080;32081;32082;32083;32084;32085;32086];
 [32087;32088;32089;32090;32091;32092;32093;32094;32095;32096;32097;32098;32099;32100;32101;32102];
 [32103;32104;32105;32106;32107;32108;32109;32111;32112;32113;32114;32115;32116;32117;32118;32120];
 [32121;32122;32123;32124;32125;32126;32127;32128;32129;32130;32131;32132;32133;32134;32135;32136];
 [32137;32138;32139;32140;32141;32142;32143;32144;32145;32146;32147;32148;32149;32150;32151;32152];
 [32153;32154;32155;32156;32157;32158;32159;32160;32161;32162;32163;32164;32165;32167;32168;32169];
 [32170;32171;32172;32173;32175;32176;32177;32178;32179;32180;32181;32182;32183;32184;32185;32186];
 [32187;32188;32189;32190;32191;32192;32193;32194;32195;32196;32197;32198;32199;32200;32201;32202];
 [32203;32204;32205;32206;32207;32208;32209;32210;32211;32212;32213;32214;32215;32216;32217;32218];
 [32219;32220;32221;32222;32223;32224;32225;32226;32227;32228;32229;32230;32231;32232;32233;32234];
 [32235;32236;32237;32238;32239;32240;32241;32242;32243;32244;32245;32246;32247;32248;32249;32250];
 [32251;32252;32253;32254;32255;32256;32257;32258;32259;32260;32261;32262;32263;32264;32265;32266];
 [32267;32268;32269;32270;32271;32272;32273;32274;32275;32276;32277;32278;32279;32280;32281;32282];
 [32283;32284;32285;32286;32287;32288;32289;32290;32291;32292;32293;32294;32295;32296;32297;32298];
 [32299;32300;32301;32302;32303;32304;32305;32306;32307;32308;32309;32310;32311;32312;32313;32314];
 [32316;32317;32318;32319;32320;32322;32323;32324;32325;32326;32328;32329;32330;32331;32332;32333];
 [32334;32335;32336;32337;32338;32339;32340;32341;32342;32343;32344;32345;32346;32347;32348;32349];
 [32350;32351;32352;32353;32354;32355;32356;32357;32358;32359;32360;32361;32362;32363;32364;32365];
 [32366;32367;32368;32369;32370;32371;32372;32373;32374;32375;32376;32377;32378;32379;32380;32381];
 [32382;32383;32384;32385;32387;32388;32389;32390;32391;32392;32393;32394;32395;32396;32397;32398];
 [32399;32400;32401;32402;32403;32404;32405;32406;32407;32408;32409;32410;32412;32413;32414;32430];
 [32436;32443;32444;32470;32484;32492;32505;32522;32528;32542;32567;32569;32571;32572;32573;32574];
 [32575;32576;32577;32579;32582;32583;32584;32585;32586;32587;32588;32589;32590;32591;32594;32595];
 [32598;32601;32603;32604;32605;32606;32608;32611;32612;32613;32614;32615;32619;32620;32621;32623];
 [32624;32627;32629;32630;32631;32632;32634;32635;32636;32637;32639;32640;32642;32643;32644;32645];
 [32646;32647;32648;32649;32651;32653;32655;32656;32657;32658;32659;32661;32662;32663;32664;32665];
 [32667;32668;32672;32674;32675;32677;32678;32680;32681;32682;32683;32684;32685;32686;32689;32691];
 [32692;32693;32694;32695;32698;32699;32702;32704;32706;32707;32708;32710;32711;32712;32713;32715];
 [32717;32719;32720;32721;32722;32723;32726;32727;32729;32730;32731;32732;32733;32734;32738;32739];
 [32740;32743;32744;32746;32747;32748;32749;32751;32754;32756;32757;32758;32759;32760;32761;32762];
 [32765;32766;32767;32770;32775;32776;32777;32778;32782;32783;32785;32787;32794;32795;32797;32798];
 [32799;32801;32803;32804;32811;32812;32813;32814;32815;32816;32818;32820;32825;32826;32828;32830];
 [32832;32833;32836;32837;32839;32840;32841;32846;32847;32848;32849;32851;32853;32854;32855;32857];
 [32859;32860;32861;32862;32863;32864;32865;32866;32867;32868;32869;32870;32871;32872;32875;32876];
 [32877;32878;32879;32880;32882;32883;32884;32885;32886;32887;32888;32889;32890;32891;32892;32893];
 [32894;32897;32898;32901;32904;32906;32909;32910;32911;32912;32913;32914;32916;32917;32919;32921];
 [32926;32931;32934;32935;32936;32940;32944;32947;32949;32950;32952;32953;32955;32965;32967;32968];
 [32969;32970;32971;32975;32976;32977;32978;32979;32980;32981;32984;32991;32992;32994;32995;32998];
 [33006;33013;33015;33017;33019;33022;33023;33024;33025;33027;33028;33029;33031;33032;33035;33036];
 [33045;33047;33049;33051;33052;33053;33055;33056;33057;33058;33059;33060;33061;33062;33063;33064];
 [33065;33066;33067;33069;33070;33072;33075;33076;33077;33079;33081;33082;33083;33084;33085;33087];
 [33088;33089;33090;33091;33092;33093;33095;33097;33101;33102;33103;33106;33110;33111;33112;33115];
 [33116;33117;33118;33119;33121;33122;33123;33124;33126;33128;33130;33131;33132;33135;33138;33139];
 [33141;33142;33143;33144;33153;33155;33156;33157;33158;33159;33161;33163;33164;33165;33166;33168];
 [33170;33171;33172;33173;33174;33175;33177;33178;33182;33183;33184;33185;33186;33188;33189;33191];
 [33193;33195;33196;33197;33198;33199;33200;33201;33202;33204;33205;33206;33207;33208;33209;33212];
 [33213;33214;33215;33220;33221;33223;33224;33225;33227;33229;33230;33231;33232;33233;33234;33235];
 [33236;33237;33238;33239;33240;33241;33242;33243;33244;33245;33246;33247;33248;33249;33250;33252];
 [33253;33254;33256;33257;33259;33262;33263;33264;33265;33266;33269;33270;33271;33272;33273;33274];
 [33277;33279;33283;33287;33288;33289;33290;33291;33294;33295;33297;33299;33301;33302;33303;33304];
 [33305;33306;33309;33312;33316;33317;33318;33319;33321;33326;33330;33338;33340;33341;33343;33344];
 [33345;33346;33347;33349;33350;33352;33354;33356;33357;33358;33360;33361;33362;33363;33364;33365];
 [33366;33367;33369;33371;33372;33373;33374;33376;33377;33378;33379;33380;33381;33382;33383;33385];
 [33386;33387;33388;33389;33393;33397;33398;33399;33400;33403;33404;33408;33409;33411;33413;33414];
 [33415;33417;33420;33424;33427;33428;33429;33430;33434;33435;33438;33440;33442;33443;33447;33458];
 [33461;33462;33466;33467;33468;33471;33472;33474;33475;33477;33478;33481;33488;33494;33497;33498];
 [33501;33506;33511;33512;33513;33514;33516;33517;33518;33520;33522;33523;33525;33526;33528;33530];
 [33532;33533;33534;33535;33536;33546;33547;33549;33552;33554;33555;33558;33560;33561;33565;33566];
 [33567;33568;33569;33570;33571;33572;33573;33574;33577;33578;33582;33584;33586;33591;33595;33597];
 [33598;33599;33601;33602;33604;33605;33608;33610;33611;33612;33613;33614;33619;33621;33622;33623];
 [33624;33625;33629;33634;33648;33649;33650;33651;33652;33653;33654;33657;33658;33662;33663;33664];
 [33665;33666;33667;33668;33671;33672;33674;33675;33676;33677;33679;33680;33681;33684;33685;33686];
 [33687;33689;33690;33693;33695;33697;33698;33699;33700;33701;33702;33703;33708;33709;33710;33711];
 [33717;33723;33726;33727;33730;33731;33732;33734;33736;33737;33739;33741;33742;33744;33745;33746];
 [33747;33749;33751;33753;33754;33755;33758;33762;33763;33764;33766;33767;33768;33771;33772;33773];
 [33774;33775;33779;33780;33781;33782;33783;33786;33787;33788;33790;33791;33792;33794;33797;33799];
 [33800;33801;33802;33808;33810;33811;33812;33813;33814;33815;33817;33818;33819;33822;33823;33824];
 [33825;33826;33827;33833;33834;33835;33836;33837;33838;33839;33840;33842;33843;33844;33845;33846];
 [33847;33849;33850;33851;33854;33855;33856;33857;33858;33859;33860;33861;33863;33864;33865;33866];
 [33867;33868;33869;33870;33871;33872;33874;33875;33876;33877;33878;33880;33885;33886;33887;33888];
 [33890;33892;33893;33894;33895;33896;33898;33902;33903;33904;33906;33908;33911;33913;33915;33916];
 [33917;33918;33919;33920;33921;33923;33924;33925;33926;33930;33933;33935;33936;33937;33938;33939];
 [33940;33941;33942;33944;33946;33947;33949;33950;33951;33952;33954;33955;33956;33957;33958;33959];
 [33960;33961;33962;33963;33964;33965;33966;33968;33969;33971;33973;33974;33975;33979;33980;33982];
 [33984;33986;33987;33989;33990;33991;33992;33995;33996;33998;33999;34002;34004;34005;34007;34008];
 [34009;34010;34011;34012;34014;34017;34018;34020;34023;34024;34025;34026;34027;34029;34030;34031];
 [34033;34034;34035;34036;34037;34038;34039;34040;34041;34042;34043;34045;34046;34048;34049;34050];
 [34051;34052;34053;34054;34055;34056;34057;34058;34059;34061;34062;34063;34064;34066;34068;34069];
 [34070;34072;34073;34075;34076;34077;34078;34080;34082;34083;34084;34085;34086;34087;34088;34089];
 [34090;34093;34094;34095;34096;34097;34098;34099;34100;34101;34102;34110;34111;34112;34113;34114];
 [34116;34117;34118;34119;34123;34124;34125;34126;34127;34128;34129;34130;34131;34132;34133;34135];
 [34136;34138;34139;34140;34141;34143;34144;34145;34146;34147;34149;34150;34151;34153;34154;34155];
 [34156;34157;34158;34159;34160;34161;34163;34165;34166;34167;34168;34172;34173;34175;34176;34177];
 [34178;34179;34182;34184;34185;34186;34187;34188;34189;34190;34192;34193;34194;34195;34196;34197];
 [34198;34199;34200;34201;34202;34205;34206;34207;34208;34209;34210;34211;34213;34214;34215;34217];
 [34219;34220;34221;34225;34226;34227;34228;34229;34230;34232;34234;34235;34236;34237;34238;34239];
 [34240;34242;34243;34244;34245;34246;34247;34248;34250;34251;34252;34253;34254;34257;34258;34260];
 [34262;34263;34264;34265;34266;34267;34269;34270;34271;34272;34273;34274;34275;34277;34278;34279];
 [34280;34282;34283;34284;34285;34286;34287;34288;34289;34290;34291;34292;34293;34294;34295;34296];
 [34297;34298;34300;34301;34302;34304;34305;34306;34307;34308;34310;34311;34312;34313;34314;34315];
 [34316;34317;34318;34319;34320;34322;34323;34324;34325;34327;34328;34329;34330;34331;34332;34333];
 [34334;34335;34336;34337;34338;34339;34340;34341;34342;34344;34346;34347;34348;34349;34350;34351];
 [34352;34353;34354;34355;34356;34357;34358;34359;34361;34362;34363;34365;34366;34367;34368;34369];
 [34370;34371;34372;34373;34374;34375;34376;34377;34378;34379;34380;34386;34387;34389;34390;34391];
 [34392;34393;34395;34396;34397;34399;34400;34401;34403;34404;34405;34406;34407;34408;34409;34410];
 [34413;34415;34416;34418;34419;34420;34421;34422;34423;34424;34435;34436;34437;34438;34439;34440];
 [34441;34446;34447;34448;34449;34450;34452;34454;34455;34456;34457;34458;34459;34462;34463;34464];
 [34465;34466;34469;34470;34475;34477;34478;34482;34483;34487;34488;34489;34491;34492;34493;34494];
 [34495;34497;34498;34499;34501;34504;34508;34509;34514;34515;34517;34518;34519;34522;34524;34525];
 [34528;34529;34530;34531;34533;34534;34535;34536;34538;34539;34540;34543;34549;34550;34551;34554];
 [34555;34556;34557;34559;34561;34564;34565;34566;34571;34572;34574;34575;34576;34577;34580;34582];
 [34585;34587;34589;34591;34592;34596;34598;34599;34600;34602;34603;34604;34605;34607;34608;34610];
 [34611;34613;34614;34616;34617;34618;34620;34621;34624;34625;34626;34627;34628;34629;34630;34634];
 [34635;34637;34639;34640;34641;34642;34644;34645;34646;34648;34650;34651;34652;34653;34654;34655];
 [34657;34658;34662;34663;34664;34665;34666;34667;34668;34669;34671;34673;34674;34675;34677;34679];
 [34680;34681;34682;34687;34688;34689;34692;34694;34695;34697;34698;34700;34702;34703;34704;34705];
 [34706;34708;34709;34710;34712;34713;34714;34715;34716;34717;34718;34720;34721;34722;34723;34724];
 [34725;34726;34727;34729;34730;34734;34736;34737;34738;34740;34742;34743;34744;34745;34747;34748];
 [34750;34751;34753;34754;34755;34756;34757;34759;34760;34761;34764;34765;34766;34767;34768;34772];
 [34773;34774;34775;34776;34777;34778;34780;34781;34782;34783;34785;34786;34787;34788;34790;34791];
 [34792;34793;34795;34796;34797;34799;34800;34801;34802;34803;34804;34805;34806;34807;34808;34810];
 [34811;34812;34813;34815;34816;34817;34818;34820;34821;34822;34823;34824;34825;34827;34828;34829];
 [34830;34831;34832;34833;34834;34836;34839;34840;34841;34842;34844;34845;34846;34847;34848;34851];
 [34852;34853;34854;34855;34856;34857;34858;34859;34860;34861;34862;34863;34864;34865;34867;34868];
 [34869;34870;34871;34872;34874;34875;34877;34878;34879;34881;34882;34883;34886;34887;34888;34889];
 [34890;34891;34894;34895;34896;34897;34898;34899;34901;34902;34904;34906;34907;34908;34909;34910];
 [34911;34912;34918;34919;34922;34925;34927;34929;34931;34932;34933;34934;34936;34937;34938;34939];
 [34940;34944;34947;34950;34951;34953;34954;34956;34958;34959;34960;34961;34963;34964;34965;34967];
 [34968;34969;34970;34971;34973;34974;34975;34976;34977;34979;34981;34982;34983;34984;34985;34986];
 [34988;34990;34991;34992;34994;34995;34996;34997;34998;35000;35001;35002;35003;35005;35006;35007];
 [35008;35011;35012;35015;35016;35018;35019;35020;35021;35023;35024;35025;35027;35030;35031;35034];
 [35035;35036;35037;35038;35040;35041;35046;35047;35049;35050;35051;35052;35053;35054;35055;35058];
 [35061;35062;35063;35066;35067;35069;35071;35072;35073;35075;35076;35077;35078;35079;35080;35081];
 [35083;35084;35085;35086;35087;35089;35092;35093;35094;35095;35096;35100;35101;35102;35103;35104];
 [35106;35107;35108;35110;35111;35112;35113;35116;35117;35118;35119;35121;35122;35123;35125;35127];
 [35128;35129;35130;35131;35132;35133;35134;35135;35136;35138;35139;35141;35142;35143;35144;35145];
 [35146;35147;35148;35149;35150;35151;35152;35153;35154;35155;35156;35157;35158;35159;35160;35161];
 [35162;35163;35164;35165;35168;35169;35170;35171;35172;35173;35175;35176;35177;35178;35179;35180];
 [35181;35182;35183;35184;35185;35186;35187;35188;35189;35190;35191;35192;35193;35194;35196;35197];
 [35198;35200;35202;35204;35205;35207;35208;35209;35210;35211;35212;35213;35214;35215;35216;35217];
 [35218;35219;35220;35221;35222;35223;35224;35225;35226;35227;35228;35229;35230;35231;35232;35233];
 [35234;35235;35236;35237;35238;35239;35240;35241;35242;35243;35244;35245;35246;35247;35248;35249];
 [35250;35251;35252;35253;35254;35255;35256;35257;35258;35259;35260;35261;35262;35263;35264;35267];
 [35277;35283;35284;35285;35287;35288;35289;35291;35293;35295;35296;35297;35298;35300;35303;35304];
 [35305;35306;35308;35309;35310;35312;35313;35314;35316;35317;35318;35319;35320;35321;35322;35323];
 [35324;35325;35326;35327;35329;35330;35331;35332;35333;35334;35336;35337;35338;35339;35340;35341];
 [35342;35343;35344;35345;35346;35347;35348;35349;35350;35351;35352;35353;35354;35355;35356;35357];
 [35358;35359;35360;35361;35362;35363;35364;35365;35366;35367;35368;35369;35370;35371;35372;35373];
 [35374;35375;35376;35377;35378;35379;35380;35381;35382;35383;35384;35385;35386;35387;35388;35389];
 [35391;35392;35393;35394;35395;35396;35397;35398;35399;35401;35402;35403;35404;35405;35406;35407];
 [35408;35409;35410;35411;35412;35413;35414;35415;35416;35417;35418;35419;35420;35421;35422;35423];
 [35424;35425;35426;35427;35428;35429;35430;35431;35432;35433;35434;35435;35436;35437;35438;35439];
 [35440;35441;35442;35443;35444;35445;35446;35447;35448;35450;35451;35452;35453;35454;35455;35456];
 [35457;35458;35459;35460;35461;35462;35463;35464;35467;35468;35469;35470;35471;35472;35473;35474];
 [35476;35477;35478;35479;35480;35481;35482;35483;35484;35485;35486;35487;35488;35489;35490;35491];
 [35492;35493;35494;35495;35496;35497;35498;35499;35500;35501;35502;35503;35504;35505;35506;35507];
 [35508;35509;35510;35511;35512;35513;35514;35515;35516;35517;35518;35519;35520;35521;35522;35523];
 [35524;35525;35526;35527;35528;35529;35530;35531;35532;35533;35534;35535;35536;35537;35538;35539];
 [35540;35541;35542;35543;35544;35545;35546;35547;35548;35549;35550;35551;35552;35553;35554;35555];
 [35556;35557;35558;35559;35560;35561;35562;35563;35564;35565;35566;35567;35568;35569;35570;35571];
 [35572;35573;35574;35575;35576;35577;35578;35579;35580;35581;35582;35583;35584;35585;35586;35587];
 [35588;35589;35590;35592;35593;35594;35595;35596;35597;35598;35599;35600;35601;35602;35603;35604];
 [35605;35606;35607;35608;35609;35610;35611;35612;35613;35614;35615;35616;35617;35618;35619;35620];
 [35621;35623;35624;35625;35626;35627;35628;35629;35630;35631;35632;35633;35634;35635;35636;35637];
 [35638;35639;35640;35641;35642;35643;35644;35645;35646;35647;35648;35649;35650;35651;35652;35653];
 [35654;35655;35656;35657;35658;35659;35660;35661;35662;35663;35664;35665;35666;35667;35668;35669];
 [35670;35671;35672;35673;35674;35675;35676;35677;35678;35679;35680;35681;35682;35683;35684;35685];
 [35687;35688;35689;35690;35691;35693;35694;35695;35696;35697;35698;35699;35700;35701;35702;35703];
 [35704;35705;35706;35707;35708;35709;35710;35711;35712;35713;35714;35715;35716;35717;35718;35719];
 [35720;35721;35722;35723;35724;35725;35726;35727;35728;35729;35730;35731;35732;35733;35734;35735];
 [35736;35737;35738;35739;35740;35741;35742;35743;35756;35761;35771;35783;35792;35818;35849;35870];
 [35896;35897;35898;35899;35900;35901;35902;35903;35904;35906;35907;35908;35909;35912;35914;35915];
 [35917;35918;35919;35920;35921;35922;35923;35924;35926;35927;35928;35929;35931;35932;35933;35934];
 [35935;35936;35939;35940;35941;35942;35943;35944;35945;35948;35949;35950;35951;35952;35953;35954];
 [35956;35957;35958;35959;35963;35964;35965;35966;35967;35968;35969;35971;35972;35974;35975;35976];
 [35979;35981;35982;35983;35984;35985;35986;35987;35989;35990;35991;35993;35994;35995;35996;35997];
 [35998;35999;36000;36001;36002;36003;36004;36005;36006;36007;36008;36009;36010;36011;36012;36013];
 [36014;36015;36016;36017;36018;36019;36020;36021;36022;36023;36024;36025;36026;36027;36028;36029];
 [36030;36031;36032;36033;36034;36035;36036;36037;36038;36039;36040;36041;36042;36043;36044;36045];
 [36046;36047;36048;36049;36050;36051;36052;36053;36054;36055;36056;36057;36058;36059;36060;36061];
 [36062;36063;36064;36065;36066;36067;36068;36069;36070;36071;36072;36073;36074;36075;36076;36077];
 [36078;36079;36080;36081;36082;36083;36084;36085;36086;36087;36088;36089;36090;36091;36092;36093];
 [36094;36095;36096;36097;36098;36099;36100;36101;36102;36103;36104;36105;36106;36107;36108;36109];
 [36110;36111;36112;36113;36114;36115;36116;36117;36118;36119;36120;36121;36122;36123;36124;36128];
 [36177;36178;36183;36191;36197;36200;36201;36202;36204;36206;36207;36209;36210;36216;36217;36218];
 [36219;36220;36221;36222;36223;36224;36226;36227;36230;36231;36232;36233;36236;36237;36238;36239];
 [36240;36242;36243;36245;36246;36247;36248;36249;36250;36251;36252;36253;36254;36256;36257;36258];
 [36260;36261;36262;36263;36264;36265;36266;36267;36268;36269;36270;36271;36272;36274;36278;36279];
 [36281;36283;36285;36288;36289;36290;36293;36295;36296;36297;36298;36301;36304;36306;36307;36308];
 [36309;36312;36313;36316;36320;36321;36322;36325;36326;36327;36329;36333;36334;36336;36337;36338];
 [36340;36342;36348;36350;36351;36352;36353;36354;36355;36356;36358;36359;36360;36363;36365;36366];
 [36368;36369;36370;36371;36373;36374;36375;36376;36377;36378;36379;36380;36384;36385;36388;36389];
 [36390;36391;36392;36395;36397;36400;36402;36403;36404;36406;36407;36408;36411;36412;36414;36415];
 [36419;36421;36422;36428;36429;36430;36431;36432;36435;36436;36437;36438;36439;36440;36442;36443];
 [36444;36445;36446;36447;36448;36449;36450;36451;36452;36453;36455;36456;36458;36459;36462;36465];
 [36467;36469;36471;36472;36473;36474;36475;36477;36478;36480;36482;36483;36484;36486;36488;36489];
 [36490;36491;36492;36493;36494;36497;36498;36499;36501;36502;36503;36504;36505;36506;36507;36509];
 [36511;36512;36513;36514;36515;36516;36517;36518;36519;36520;36521;36522;36525;36526;36528;36529];
 [36531;36532;36533;36534;36535;36536;36537;36539;36540;36541;36542;36543;36544;36545;36546;36547];
 [36548;36549;36550;36551;36552;36553;36554;36555;36556;36557;36559;36560;36561;36562;36563;36564];
 [36565;36566;36567;36568;36569;36570;36571;36572;36573;36574;36575;36576;36577;36578;36579;36580];
 [36581;36582;36583;36584;36585;36586;36587;36588;36589;36590;36591;36592;36593;36594;36595;36596];
 [36597;36598;36599;36600;36601;36602;36603;36604;36605;36606;36607;36608;36609;36610;36611;36612];
 [36613;36614;36615;36616;36617;36618;36619;36620;36621;36622;36623;36624;36625;36626;36627;36628];
 [36629;36630;36631;36632;36633;36634;36635;36636;36637;36638;36639;36640;36641;36642;36643;36644];
 [36645;36646;36647;36648;36649;36650;36651;36652;36653;36654;36655;36656;36657;36658;36659;36660];
 [36661;36662;36663;36664;36665;36666;36667;36668;36669;36670;36671;36672;36673;36674;36675;36676];
 [36677;36678;36679;36680;36681;36682;36683;36684;36685;36686;36687;36688;36689;36690;36691;36692];
 [36693;36694;36695;36696;36697;36698;36699;36700;36701;36702;36703;36704;36705;36706;36707;36708];
 [36709;36714;36736;36748;36754;36765;36768;36769;36770;36772;36773;36774;36775;36778;36780;36781];
 [36782;36783;36786;36787;36788;36789;36791;36792;36794;36795;36796;36799;36800;36803;36806;36809];
 [36810;36811;36812;36813;36815;36818;36822;36823;36826;36832;36833;36835;36839;36844;36847;36849];
 [36850;36852;36853;36854;36858;36859;36860;36862;36863;36871;36872;36876;36878;36883;36885;36888];
 [36889;36892;36899;36900;36901;36903;36904;36905;36906;36907;36908;36912;36913;36914;36915;36916];
 [36919;36921;36922;36925;36927;36928;36931;36933;36934;36936;36937;36938;36939;36940;36942;36948];
 [36949;36950;36953;36954;36956;36957;36958;36959;36960;36961;36964;36966;36967;36969;36970;36971];
 [36972;36975;36976;36977;36978;36979;36982;36983;36984;36985;36986;36987;36988;36990;36993;36996];
 [36997;36998;36999;37001;37002;37004;37005;37006;37007;37008;37010;37012;37014;37016;37018;37020];
 [37022;37023;37024;37028;37029;37031;37032;37033;37035;37037;37042;37047;37052;37053;37055;37056];
 [37058;37059;37062;37064;37065;37067;37068;37069;37074;37076;37077;37078;37080;37081;37082;37086];
 [37087;37088;37091;37092;37093;37097;37098;37100;37102;37104;37105;37106;37107;37109;37110;37111];
 [37113;37114;37115;37116;37119;37120;37121;37123;37125;37126;37127;37128;37129;37130;37131;37132];
 [37133;37134;37135;37136;37137;37138;37139;37140;37141;37142;37143;37144;37146;37147;37148;37149];
 [37151;37152;37153;37156;37157;37158;37159;37160;37161;37162;37163;37164;37165;37166;37168;37170];
 [37171;37172;37173;37174;37175;37176;37178;37179;37180;37181;37182;37183;37184;37185;37186;37188];
 [37189;37191;37192;37201;37203;37204;37205;37206;37208;37209;37211;37212;37215;37216;37222;37223];
 [37224;37227;37229;37235;37242;37243;37244;37248;37249;37250;37251;37252;37254;37256;37258;37262];
 [37263;37267;37268;37269;37270;37271;37272;37273;37276;37277;37278;37279;37280;37281;37284;37285];
 [37286;37287;37288;37289;37291;37292;37296;37297;37298;37299;37302;37303;37304;37305;37307;37308];
 [37309;37310;37311;37312;37313;37314;37315;37316;37317;37318;37320;37323;37328;37330;37331;37332];
 [37333;37334;37335;37336;37337;37338;37339;37341;37342;37343;37344;37345;37346;37347;37348;37349];
 [37350;37351;37352;37353;37354;37355;37356;37357;37358;37359;37360;37361;37362;37363;37364;37365];
 [37366;37367;37368;37369;37370;37371;37372;37373;37374;37375;37376;37377;37378;37379;37380;37381];
 [37382;37383;37384;37385;37386;37387;37388;37389;37390;37391;37392;37393;37394;37395;37396;37397];
 [37398;37399;37400;37401;37402;37403;37404;37405;37406;37407;37408;37409;37410;37411;37412;37413];
 [37414;37415;37416;37417;37418;37419;37420;37421;37422;37423;37424;37425;37426;37427;37428;37429];
 [37430;37431;37432;37433;37434;37435;37436;37437;37438;37439;37440;37441;37442;37443;37444;37445];
 [37446;37447;37448;37449;37450;37451;37452;37453;37454;37455;37456;37457;37458;37459;37460;37461];
 [37462;37463;37464;37465;37466;37467;37468;37469;37470;37471;37472;37473;37474;37475;37476;37477];
 [37478;37479;37480;37481;37482;37483;37484;37485;37486;37487;37488;37489;37490;37491;37493;37494];
 [37495;37496;37497;37498;37499;37500;37501;37502;37503;37504;37505;37506;37507;37508;37509;37510];
 [37511;37512;37513;37514;37515;37516;37517;37519;37520;37521;37522;37523;37524;37525;37526;37527];
 [37528;37529;37530;37531;37532;37533;37534;37535;37536;37537;37538;37539;37540;37541;37542;37543];
 [37544;37545;37546;37547;37548;37549;37551;37552;37553;37554;37555;37556;37557;37558;37559;37560];
 [37561;37562;37563;37564;37565;37566;37567;37568;37569;37570;37571;37572;37573;37574;37575;37577];
 [37578;37579;37580;37581;37582;37583;37584;37585;37586;37587;37588;37589;37590;37591;37592;37593];
 [37594;37595;37596;37597;37598;37599;37600;37601;37602;37603;37604;37605;37606;37607;37608;37609];
 [37610;37611;37612;37613;37614;37615;37616;37617;37618;37619;37620;37621;37622;37623;37624;37625];
 [37626;37627;37628;37629;37630;37631;37632;37633;37634;37635;37636;37637;37638;37639;37640;37641];
 [37642;37643;37644;37645;37646;37647;37648;37649;37650;37651;37652;37653;37654;37655;37656;37657];
 [37658;37659;37660;37661;37662;37663;37664;37665;37666;37667;37668;37669;37670;37671;37672;37673];
 [37674;37675;37676;37677;37678;37679;37680;37681;37682;37683;37684;37685;37686;37687;37688;37689];
 [37690;37691;37692;37693;37695;37696;37697;37698;37699;37700;37701;37702;37703;37704;37705;37706];
 [37707;37708;37709;37710;37711;37712;37713;37714;37715;37716;37717;37718;37719;37720;37721;37722];
 [37723;37724;37725;37726;37727;37728;37729;37730;37731;37732;37733;37734;37735;37736;37737;37739];
 [37740;37741;37742;37743;37744;37745;37746;37747;37748;37749;37750;37751;37752;37753;37754;37755];
 [37756;37757;37758;37759;37760;37761;37762;37763;37764;37765;37766;37767;37768;37769;37770;37771];
 [37772;37773;37774;37776;37777;37778;37779;37780;37781;37782;37783;37784;37785;37786;37787;37788];
 [37789;37790;37791;37792;37793;37794;37795;37796;37797;37798;37799;37800;37801;37802;37803;37804];
 [37805;37806;37807;37808;37809;37810;37811;37812;37813;37814;37815;37816;37817;37818;37819;37820];
 [37821;37822;37823;37824;37825;37826;37827;37828;37829;37830;37831;37832;37833;37835;37836;37837];
 [37838;37839;37840;37841;37842;37843;37844;37845;37847;37848;37849;37850;37851;37852;37853;37854];
 [37855;37856;37857;37858;37859;37860;37861;37862;37863;37864;37865;37866;37867;37868;37869;37870];
 [37871;37872;37873;37874;37875;37876;37877;37878;37879;37880;37881;37882;37883;37884;37885;37886];
 [37887;37888;37889;37890;37891;37892;37893;37894;37895;37896;37897;37898;37899;37900;37901;37902];
 [37903;37904;37905;37906;37907;37908;37909;37910;37911;37912;37913;37914;37915;37916;37917;37918];
 [37919;37920;37921;37922;37923;37924;37925;37926;37927;37928;37929;37930;37931;37932;37933;37934];
 [37935;37936;37937;37938;37939;37940;37941;37942;37943;37944;37945;37946;37947;37948;37949;37951];
 [37952;37953;37954;37955;37956;37957;37958;37959;37960;37961;37962;37963;37964;37965;37966;37967];
 [37968;37969;37970;37971;37972;37973;37974;37975;37976;37977;37978;37979;37980;37981;37982;37983];
 [37984;37985;37986;37987;37988;37989;37990;37991;37992;37993;37994;37996;37997;37998;37999;38000];
 [38001;38002;38003;38004;38005;38006;38007;38008;38009;38010;38011;38012;38013;38014;38015;38016];
 [38017;38018;38019;38020;38033;38038;38040;38087;38095;38099;38100;38106;38118;38139;38172;38176];
 [38183;38195;38205;38211;38216;38219;38229;38234;38240;38254;38260;38261;38263;38264;38265;38266];
 [38267;38268;38269;38270;38272;38273;38274;38275;38276;38277;38278;38279;38280;38281;38282;38283];
 [38284;38285;38286;38287;38288;38289;38290;38291;38292;38293;38294;38295;38296;38297;38298;38299];
 [38300;38301;38302;38303;38304;38305;38306;38307;38308;38309;38310;38311;38312;38313;38314;38315];
 [38316;38317;38318;38319;38320;38321;38322;38323;38324;38325;38326;38327;38328;38329;38330;38331];
 [38332;38333;38334;38335;38336;38337;38338;38339;38340;38341;38342;38343;38344;38345;38346;38347];
 [38348;38349;38350;38351;38352;38353;38354;38355;38356;38357;38358;38359;38360;38361;38362;38363];
 [38364;38365;38366;38367;38368;38369;38370;38371;38372;38373;38374;38375;38380;38399;38407;38419];
 [38424;38427;38430;38432;38435;38436;38437;38438;38439;38440;38441;38443;38444;38445;38447;38448];
 [38455;38456;38457;38458;38462;38465;38467;38474;38478;38479;38481;38482;38483;38486;38487;38488];
 [38489;38490;38492;38493;38494;38496;38499;38501;38502;38507;38509;38510;38511;38512;38513;38515];
 [38520;38521;38522;38523;38524;38525;38526;38527;38528;38529;38530;38531;38532;38535;38537;38538];
 [38540;38542;38545;38546;38547;38549;38550;38554;38555;38557;38558;38559;38560;38561;38562;38563];
 [38564;38565;38566;38568;38569;38570;38571;38572;38573;38574;38575;38577;38578;38580;38581;38583];
 [38584;38586;38587;38591;38594;38595;38600;38602;38603;38608;38609;38611;38612;38614;38615;38616];
 [38617;38618;38619;38620;38621;38622;38623;38625;38626;38627;38628;38629;38630;38631;38635;38636];
 [38637;38638;38640;38641;38642;38644;38645;38648;38650;38651;38652;38653;38655;38658;38659;38661];
 [38666;38667;38668;38672;38673;38674;38676;38677;38679;38680;38681;38682;38683;38685;38687;38688];
 [38689;38690;38691;38692;38693;38694;38695;38696;38697;38699;38700;38702;38703;38705;38707;38708];
 [38709;38710;38711;38714;38715;38716;38717;38719;38720;38721;38722;38723;38724;38725;38726;38727];
 [38728;38729;38730;38731;38732;38733;38734;38735;38736;38737;38740;38741;38743;38744;38746;38748];
 [38749;38751;38755;38756;38758;38759;38760;38762;38763;38764;38765;38766;38767;38768;38769;38770];
 [38773;38775;38776;38777;38778;38779;38781;38782;38783;38784;38785;38786;38787;38788;38790;38791];
 [38792;38793;38794;38796;38798;38799;38800;38803;38805;38806;38807;38809;38810;38811;38812;38813];
 [38814;38815;38817;38818;38820;38821;38822;38823;38824;38825;38826;38828;38830;38832;38833;38835];
 [38837;38838;38839;38840;38841;38842;38843;38844;38845;38846;38847;38848;38849;38850;38851;38852];
 [38853;38854;38855;38856;38857;38858;38859;38860;38861;38862;38863;38864;38865;38866;38867;38868];
 [38869;38870;38871;38872;38873;38874;38875;38876;38877;38878;38879;38880;38881;38882;38883;38884];
 [38885;38888;38894;38895;38896;38897;38898;38900;38903;38904;38905;38906;38907;38908;38909;38910];
 [38911;38912;38913;38914;38915;38916;38917;38918;38919;38920;38921;38922;38923;38924;38925;38926];
 [38927;38928;38929;38930;38931;38932;38933;38934;38935;38936;38937;38938;38939;38940;38941;38942];
 [38943;38944;38945;38946;38947;38948;38949;38950;38951;38952;38953;38954;38955;38956;38957;38958];
 [38959;38960;38961;38962;38963;38964;38965;38966;38967;38968;38969;38970;38971;38972;38973;38974];
 [38975;38976;38977;38978;38979;38980;38981;38982;38983;38984;38985;38986;38987;38988;38989;38990];
 [38991;38992;38993;38994;38995;38996;38997;38998;38999;39000;39001;39002;39003;39004;39005;39006];
 [39007;39008;39009;39010;39011;39012;39013;39014;39015;39016;39017;39018;39019;39020;39021;39022];
 [39023;39024;39025;39026;39027;39028;39051;39054;39058;39061;39065;39075;39080;39081;39082;39083];
 [39084;39085;39086;39087;39088;39089;39090;39091;39092;39093;39094;39095;39096;39097;39098;39099];
 [39100;39101;39102;39103;39104;39105;39106;39107;39108;39109;39110;39111;39112;39113;39114;39115];
 [39116;39117;39119;39120;39124;39126;39127;39131;39132;39133;39136;39137;39138;39139;39140;39141];
 [39142;39145;39146;39147;39148;39149;39150;39151;39152;39153;39154;39155;39156;39157;39158;39159];
 [39160;39161;39162;39163;39164;39165;39166;39167;39168;39169;39170;39171;39172;39173;39174;39175];
 [39176;39177;39178;39179;39180;39182;39183;39185;39186;39187;39188;39189;39190;39191;39192;39193];
 [39194;39195;39196;39197;39198;39199;39200;39201;39202;39203;39204;39205;39206;39207;39208;39209];
 [39210;39211;39212;39213;39215;39216;39217;39218;39219;39220;39221;39222;39223;39224;39225;39226];
 [39227;39228;39229;39230;39231;39232;39233;39234;39235;39236;39237;39238;39239;39240;39241;39242];
 [39243;39244;39245;39246;39247;39248;39249;39250;39251;39254;39255;39256;39257;39258;39259;39260];
 [39261;39262;39263;39264;39265;39266;39268;39270;39283;39288;39289;39291;39294;39298;39299;39305];
 [39308;39310;39322;39323;39324;39325;39326;39327;39328;39329;39330;39331;39332;39334;39335;39337];
 [39338;39339;39340;39341;39342;39343;39344;39345;39346;39347;39348;39349;39350;39351;39352;39353];
 [39354;39355;39356;39357;39358;39359;39360;39361;39362;39363;39364;39365;39366;39367;39368;39369];
 [39370;39371;39372;39373;39374;39375;39376;39377;39378;39379;39380;39381;39382;39383;39384;39385];
 [39386;39387;39388;39389;39390;39391;39392;39393;39394;39395;39396;39397;39398;39399;39400;39401];
 [39402;39403;39404;39405;39406;39407;39408;39409;39410;39411;39412;39413;39414;39415;39416;39417];
 [39418;39419;39420;39421;39422;39423;39424;39425;39426;39427;39428;39429;39430;39431;39432;39433];
 [39434;39435;39436;39437;39438;39439;39440;39441;39442;39443;39444;39445;39446;39447;39448;39449];
 [39450;39451;39452;39453;39454;39455;39456;39457;39458;39459;39460;39461;39462;39463;39464;39465];
 [39466;39467;39468;39469;39470;39471;39472;39473;39474;39475;39476;39477;39478;39479;39480;39481];
 [39482;39483;39484;39485;39486;39487;39488;39489;39490;39491;39492;39493;39494;39495;39496;39497];
 [39498;39499;39500;39501;39502;39503;39504;39505;39506;39507;39508;39509;39510;39511;39512;39513];
 [39514;39515;39516;39517;39518;39519;39520;39521;39522;39523;39524;39525;39526;39527;39528;39529];
 [39530;39531;39538;39555;39561;39565;39566;39572;39573;39577;39590;39593;39594;39595;39596;39597];
 [39598;39599;39602;39603;39604;39605;39609;39611;39613;39614;39615;39619;39620;39622;39623;39624];
 [39625;39626;39629;39630;39631;39632;39634;39636;39637;39638;39639;39641;39642;39643;39644;39645];
 [39646;39648;39650;39651;39652;39653;39655;39656;39657;39658;39660;39662;39664;39665;39666;39667];
 [39668;39669;39670;39671;39672;39674;39676;39677;39678;39679;39680;39681;39682;39684;39685;39686];
 [39687;39689;39690;39691;39692;39693;39694;39696;39697;39698;39700;39701;39702;39703;39704;39705];
 [39706;39707;39708;39709;39710;39712;39713;39714;39716;39717;39718;39719;39720;39721;39722;39723];
 [39724;39725;39726;39728;39729;39731;39732;39733;39734;39735;39736;39737;39738;39741;39742;39743];
 [39744;39750;39754;39755;39756;39758;39760;39762;39763;39765;39766;39767;39768;39769;39770;39771];
 [39772;39773;39774;39775;39776;39777;39778;39779;39780;39781;39782;39783;39784;39785;39786;39787];
 [39788;39789;39790;39791;39792;39793;39794;39795;39796;39797;39798;39799;39800;39801;39802;39803];
 [39804;39805;39806;39807;39808;39809;39810;39811;39812;39813;39814;39815;39816;39817;39818;39819];
 [39820;39821;39822;39823;39824;39825;39826;39827;39828;39829;39830;39831;39832;39833;39834;39835];
 [39836;39837;39838;39839;39840;39841;39842;39843;39844;39845;39846;39847;39848;39849;39850;39851];
 [39852;39853;39854;39855;39856;39857;39858;39859;39860;39861;39862;39863;39864;39865;39866;39867];
 [39868;39869;39870;39871;39872;39873;39874;39875;39876;39877;39878;39879;39880;39881;39882;39883];
 [39884;39885;39886;39887;39888;39889;39890;39891;39892;39893;39894;39895;39896;39897;39898;39899];
 [39900;39901;39902;39903;39904;39905;39906;39907;39908;39909;39910;39911;39912;39913;39914;39915];
 [39916;39917;39918;39919;39920;39921;39922;39923;39924;39925;39926;39927;39928;39929;39930;39931];
 [39932;39933;39934;39935;39936;39937;39938;39939;39940;39941;39942;39943;39944;39945;39946;39947];
 [39948;39949;39950;39951;39952;39953;39954;39955;39956;39957;39958;39959;39960;39961;39962;39963];
 [39964;39965;39966;39967;39968;39969;39970;39971;39972;39973;39974;39975;39976;39977;39978;39979];
 [39980;39981;39982;39983;39984;39985;39986;39987;39988;39989;39990;39991;39992;39993;39994;39995];
 [39996;39997;39998;39999;40000;40001;40002;40003;40004;40005;40006;40007;40008;40009;40010;40011];
 [40012;40013;40014;40015;40016;40017;40018;40019;40020;40021;40022;40023;40024;40025;40026;40027];
 [40028;40029;40030;40031;40032;40033;40034;40035;40036;40037;40038;40039;40040;40041;40042;40043];
 [40044;40045;40046;40047;40048;40049;40050;40051;40052;40053;40054;40055;40056;40057;40058;40059];
 [40061;40062;40064;40067;40068;40073;40074;40076;40079;40083;40086;40087;40088;40089;40093;40106];
 [40108;40111;40121;40126;40127;40128;40129;40130;40136;40137;40145;40146;40154;40155;40160;40161];
 [40163;40164;40165;40166;40167;40168;40169;40170;40171;40172;40173;40174;40175;40176;40177;40178];
 [40179;40180;40181;40182;40183;40184;40185;40186;40187;40188;40189;40190;40191;40192;40193;40194];
 [40195;40196;40197;40198;40199;40200;40201;40202;40203;40204;40205;40206;40207;40208;40209;40210];
 [40211;40212;40213;40214;40215;40216;40217;40218;40219;40220;40221;40222;40223;40224;40225;40226];
 [40227;40228;40229;40230;40231;40232;40233;40234;40235;40236;40237;40238;40239;40240;40241;40242];
 [40243;40244;40245;40246;40247;40248;40249;40250;40251;40252;40253;40254;40255;40256;40257;40258];
 [40259;40260;40261;40262;40263;40264;40265;40266;40267;40268;40269;40270;40271;40272;40273;40274];
 [40275;40276;40277;40278;40279;40280;40281;40282;40283;40284;40285;40286;40287;40288;40289;40290];
 [40291;40292;40293;40294;40295;40296;40297;40298;40299;40300;40301;40302;40303;40304;40305;40306];
 [40307;40308;40309;40310;40311;40312;40313;40314;40315;40316;40317;40318;40319;40320;40321;40322];
 [40323;40324;40325;40326;40327;40328;40329;40330;40331;40332;40333;40334;40335;40336;40337;40338];
 [40339;40340;40341;40342;40343;40344;40345;40346;40347;40348;40349;40350;40351;40352;40353;40354];
 [40355;40356;40357;40358;40359;40360;40361;40362;40363;40364;40365;40366;40367;40368;40369;40370];
 [40371;40372;40373;40374;40375;40376;40377;40378;40379;40380;40381;40382;40383;40384;40385;40386];
 [40387;40388;40389;40390;40391;40392;40393;40394;40395;40396;40397;40398;40399;40400;40401;40402];
 [40403;40404;40405;40406;40407;40408;40409;40410;40411;40412;40413;40414;40415;40416;40417;40418];
 [40419;40420;40421;40422;40423;40424;40425;40426;40427;40428;40429;40430;40431;40432;40433;40434];
 [40435;40436;40437;40438;40439;40440;40441;40442;40443;40444;40445;40446;40447;40448;40449;40450];
 [40451;40452;40453;40454;40455;40456;40457;40458;40459;40460;40461;40462;40463;40464;40465;40466];
 [40467;40468;40469;40470;40471;40472;40473;40474;40475;40476;40477;40478;40484;40487;40494;40496];
 [40500;40507;40508;40512;40525;40528;40530;40531;40532;40534;40537;40541;40543;40544;40545;40546];
 [40549;40558;40559;40562;40564;40565;40566;40567;40568;40569;40570;40571;40572;40573;40576;40577];
 [40579;40580;40581;40582;40585;40586;40588;40589;40590;40591;40592;40593;40596;40597;40598;40599];
 [40600;40601;40602;40603;40604;40606;40608;40609;40610;40611;40612;40613;40615;40616;40617;40618];
 [40619;40620;40621;40622;40623;40624;40625;40626;40627;40629;40630;40631;40633;40634;40636;40639];
 [40640;40641;40642;40643;40645;40646;40647;40648;40650;40651;40652;40656;40658;40659;40661;40662];
 [40663;40665;40666;40670;40673;40675;40676;40678;40680;40683;40684;40685;40686;40688;40689;40690];
 [40691;40692;40693;40694;40695;40696;40698;40701;40703;40704;40705;40706;40707;40708;40709;40710];
 [40711;40712;40713;40714;40716;40719;40721;40722;40724;40725;40726;40728;40730;40731;40732;40733];
 [40734;40735;40737;40739;40740;40741;40742;40743;40744;40745;40746;40747;40749;40750;40752;40753];
 [40754;40755;40756;40757;40758;40760;40762;40764;40767;40768;40769;40770;40771;40773;40774;40775];
 [40776;40777;40778;40779;40780;40781;40782;40783;40786;40787;40788;40789;40790;40791;40792;40793];
 [40794;40795;40796;40797;40798;40799;40800;40801;40802;40803;40804;40805;40806;40807;40808;40809];
 [40810;40811;40812;40813;40814;40815;40816;40817;40818;40819;40820;40821;40822;40823;40824;40825];
 [40826;40827;40828;40829;40830;40833;40834;40845;40846;40847;40848;40849;40850;40851;40852;40853];
 [40854;40855;40856;40860;40861;40862;40865;40866;40867;40868;40869;63788;63865;63893;63975;63985];
 [64012;64013;64014;64015;64017;64019;64020;64024;64031;64032;64033;64035;64036;64039;64040;64041]].

(* lib/converters/gbkext_inv.h:30-1821 gbkext_inv_2charset *)
Definition gbkext_inv_2charset : tab := mk [
 [43072;43073;43074;43356;43075;43076;43077;43078;43079;43080;43353;43081;43082;43083;43084;43085];
 [43086;43087;43088;43089;43090;43154;43091;43092;43093;43094;43095;43096;43097;43098;43099;43100];
 [43101;43102;43103;43104;43105;43106;43107;43108;43109;43110;43111;43112;43113;43114;43115;43116];
 [43117;43118;43119;43120;43121;43122;43123;43124;43125;43126;43127;43128;43129;43130;43131;43132];
 [43133;43134;43136;43137;43138;43139;43140;43141;43142;43143;43144;43145;43146;43147;43148;43149];
 [43150;43151;43152;43153;43365;43414;43155;43156;43157;43328;43329;43330;43331;43332;43333;43334];
 [43335;43336;43361;43362;43366;43367;43360;43363;43364;43354;43337;43338;43339;43340;43341;43342];
 [43343;43344;43345;43346;43347;43348;33088;33089;33090;33091;33092;33093;33094;33095;33096;33097];
 [33098;33099;33100;33101;33102;33103;33104;33105;33106;33107;33108;33109;33110;33111;33112;33113];
 [33114;33115;33116;33117;33118;33119;33120;33121;33122;33123;33124;33125;33126;33127;33128;33129];
 [33130;33131;33132;33133;33134;33135;33136;33137;33138;33139;33140;33141;33142;33143;33144;33145];
 [33146;33147;33148;33149;33150;33152;33153;33154;33155;33156;33157;33158;33159;33160;33161;33162];
 [33163;33164;33165;33166;33167;33168;33169;33170;33171;33172;33173;33174;33175;33176;33177;33178];
 [33179;33180;33181;33182;33183;33184;33185;33186;33187;33188;33189;33190;33191;33192;33193;33194];
 [33195;33196;33197;33198;33199;33200;33201;33202;33203;33204;33205;33206;33207;33208;33209;33210];
 [33211;33212;33213;33214;33215;33216;33217;33218;33219;33220;33221;33222;33223;33224;33225;33226];
 [33227;33228;33229;33230;33231;33232;33233;33234;33235;33236;33237;33238;33239;33240;33241;33242];
 [33243;33244;33245;33246;33247;33248;33249;33250;33251;33252;33253;33254;33255;33256;33257;33258];
 [33259;33260;33261;33262;33263;33264;33265;33266;33267;33268;33269;33270;33271;33272;33273;33274];
 [33275;33276;33277;33278;33344;33345;33346;33347;33348;33349;33350;33351;33352;33353;33354;33355];
 [33356;33357;33358;33359;33360;33361;33362;33363;33364;33365;33366;33367;33368;33369;33370;33371];
 [33372;33373;33374;33375;33376;33377;33378;33379;33380;33381;33382;33383;33384;33385;33386;33387];
 [33388;33389;33390;33391;33392;33393;33394;33395;33396;33397;33398;33399;33400;33401;33402;33403];
 [33404;33405;33406;33408;33409;33410;33411;33412;33413;33414;33415;33416;33417;33418;33419;33420];
 [33421;33422;33423;33424;33425;33426;33427;33428;33429;33430;33431;33432;33433;33434;33435;33436];
 [33437;33438;33439;33440;33441;33442;33443;33444;33445;33446;33447;33448;33449;33450;33451;33452];
 [33453;33454;33455;33456;33457;33458;33459;33460;33461;33462;33463;33464;33465;33466;33467;33468];
 [33469;33470;33471;33472;33473;33474;33475;33476;33477;33478;33479;33480;33481;33482;33483;33484];
 [33485;33486;33487;33488;33489;33490;33491;33492;33493;33494;33495;33496;33497;33498;33499;33500];
 [33501;33502;33503;33504;33505;33506;33507;33508;33509;33510;33511;33512;33513;33514;33515;33516];
 [33517;33518;33519;33520;33521;33522;33523;33524;33525;33526;33527;33528;33529;33530;33531;33532];
 [33533;33534;33600;33601;33602;33603;33604;33605;33606;33607;33608;33609;33610;33611;33612;33613];
 [33614;33615;33616;33617;33618;33619;33620;33621;33622;33623;33624;33625;33626;33627;33628;33629];
 [33630;33631;33632;33633;33634;33635;33636;33637;33638;33639;33640;33641;33642;33643;33644;33645];
 [33646;33647;33648;33649;33650;33651;33652;33653;33654;33655;33656;33657;33658;33659;33660;33661];
 [33662;33664;33665;33666;33667;33668;33669;33670;33671;33672;33673;33674;33675;33676;33677;33678];
 [33679;33680;33681;33682;33683;33684;33685;33686;33687;33688;33689;33690;33691;33692;33693;33694];
 [33695;33696;33697;33698;33699;33700;33701;33702;33703;33704;33705;33706;33707;33708;33709;33710];
 [33711;33712;33713;33714;33715;33716;33717;33718;33719;33720;33721;33722;33723;33724;33725;33726];
 [33727;33728;33729;33730;33731;33732;33733;33734;33735;33736;33737;33738;33739;33740;33741;33742];
 [33743;33744;33745;33746;33747;33748;33749;33750;33751;33752;33753;33754;33755;33756;33757;33758];
 [33759;33760;33761;33762;33763;33764;33765;33766;33767;33768;33769;33770;33771;33772;33773;33774];
 [33775;33776;33777;33778;33779;33780;33781;33782;33783;33784;33785;33786;33787;33788;33789;33790];
 [33856;33857;33858;33859;33860;33861;33862;33863;33864;33865;33866;33867;33868;33869;33870;33871];
 [33872;33873;33874;33875;33876;33877;33878;33879;33880;33881;33882;33883;33884;33885;33886;33887];
 [33888;33889;33890;33891;33892;33893;33894;33895;33896;33897;33898;33899;33900;33901;33902;33903];
 [33904;33905;33906;33907;33908;33909;33910;33911;33912;33913;33914;33915;33916;33917;33918;33920];
 [33921;33922;33923;33924;33925;33926;33927;33928;33929;33930;33931;33932;33933;33934;33935;33936];
 [33937;33938;33939;33940;33941;33942;33943;33944;33945;33946;33947;33948;33949;33950;33951;33952];
 [33953;33954;33955;33956;33957;33958;33959;33960;33961;33962;33963;33964;33965;33966;33967;33968];
 [33969;33970;33971;33972;33973;33974;33975;33976;33977;33978;33979;33980;33981;33982;33983;33984];
 [33985;33986;33987;33988;33989;33990;33991;33992;33993;33994;33995;33996;33997;33998;33999;34000];
 [34001;34002;34003;34004;34005;34006;34007;34008;34009;34010;34011;34012;34013;34014;34015;34016];
 [34017;34018;34019;34020;34021;34022;34023;34024;34025;34026;34027;34028;34029;34030;34031;34032];
 [34033;34034;34035;34036;34037;34038;34039;34040;34041;34042;34043;34044;34045;34046;34112;34113];
 [34114;34115;34116;34117;34118;34119;34120;34121;34122;34123;34124;34125;34126;34127;34128;34129];
 [34130;34131;34132;34133;34134;34135;34136;34137;34138;34139;34140;34141;34142;34143;34144;34145];
 [34146;34147;34148;34149;34150;34151;34152;34153;34154;34155;34156;34157;34158;34159;34160;34161];
 [34162;34163;34164;34165;34166;34167;34168;34169;34170;34171;34172;34173;34174;34176;34177;34178];
 [34179;34180;34181;34182;34183;34184;34185;34186;34187;34188;34189;34190;34191;34192;34193;34194];
 [34195;34196;34197;34198;34199;34200;34201;34202;34203;34204;34205;34206;34207;34208;34209;34210];
 [34211;34212;34213;34214;34215;34216;34217;34218;34219;34220;34221;34222;34223;34224;34225;34226];
 [34227;34228;34229;34230;34231;34232;34233;34234;34235;34236;34237;34238;34239;34240;34241;34242];
 [34243;34244;34245;34246;34247;34248;34249;34250;34251;34252;34253;34254;34255;34256;34257;34258];
 [34259;34260;34261;34262;34263;34264;34265;34266;34267;34268;34269;34270;34271;34272;34273;34274];
 [34275;34276;34277;34278;34279;34280;34281;34282;34283;34284;34285;34286;34287;34288;34289;34290];
 [34291;34292;34293;34294;34295;34296;34297;34298;34299;34300;34301;34302;34368;34369;34370;34371];
 [34372;34373;34374;34375;34376;34377;34378;34379;34380;34381;34382;34383;34384;34385;34386;34387];
 [34388;34389;34390;34391;34392;34393;34394;34395;34396;34397;34398;34399;34400;34401;34402;34403];
 [34404;34405;34406;34407;34408;34409;34410;34411;34412;34413;34414;34415;34416;34417;34418;34419];
 [34420;34421;34422;34423;34424;34425;34426;34427;34428;34429;34430;34432;34433;34434;34435;34436];
 [34437;34438;34439;34440;34441;34442;34443;34444;34445;34446;34447;34448;34449;34450;34451;34452];
 [34453;34454;34455;34456;34457;34458;34459;34460;34461;34462;34463;34464;34465;34466;34467;34468];
 [34469;34470;34471;34472;34473;34474;34475;34476;34477;34478;34479;34480;34481;34482;34483;34484];
 [34485;34486;34487;34488;34489;34490;34491;34492;34493;34494;34495;34496;34497;34498;34499;34500];
 [34501;34502;34503;34504;34505;34506;34507;34508;34509;34510;34511;34512;34513;34514;34515;34516];
 [34517;34518;34519;34520;34521;34522;34523;34524;34525;34526;34527;34528;34529;34530;34531;34532];
 [34533;34534;34535;34536;34537;34538;34539;34540;34541;34542;34543;34544;34545;34546;34547;34548];
 [34549;34550;34551;34552;34553;34554;34555;34556;34557;34558;34624;34625;34626;34627;34628;34629];
 [34630;34631;34632;34633;34634;34635;34636;34637;34638;34639;34640;34641;34642;34643;34644;34645];
 [34646;34647;34648;34649;34650;34651;34652;34653;34654;34655;34656;34657;34658;34659;34660;34661];
 [34662;34663;34664;34665;34666;34667;34668;34669;34670;34671;34672;34673;34674;34675;34676;34677];
 [34678;34679;34680;34681;34682;34683;34684;34685;34686;34688;34689;34690;34691;34692;34693;34694];
 [34695;34696;34697;34698;34699;34700;34701;34702;34703;34704;34705;34706;34707;34708;34709;34710];
 [34711;34712;34713;34714;34715;34716;34717;34718;34719;34720;34721;34722;34723;34724;34725;34726];
 [34727;34728;34729;34730;34731;34732;34733;34734;34735;34736;34737;34738;34739;34740;34741;34742];
 [34743;34744;34745;34746;34747;34748;34749;34750;34751;34752;34753;34754;34755;34756;34757;34758];
 [34759;34760;34761;34762;34763;34764;34765;34766;34767;34768;34769;34770;34771;34772;34773;34774];
 [34775;34776;34777;34778;34779;34780;34781;34782;34783;34784;34785;34786;34787;34788;34789;34790];
 [34791;34792;34793;34794;34795;34796;34797;34798;34799;34800;34801;34802;34803;34804;34805;34806];
 [34807;34808;34809;34810;34811;34812;34813;34814;34880;34881;34882;34883;34884;34885;34886;34887];
 [34888;34889;34890;34891;34892;34893;34894;34895;34896;34897;34898;34899;34900;34901;34902;34903];
 [34904;34905;34906;34907;34908;34909;34910;34911;34912;34913;34914;34915;34916;34917;34918;34919];
 [34920;34921;34922;34923;34924;34925;34926;34927;34928;34929;34930;34931;34932;34933;34934;34935];
 [34936;34937;34938;34939;34940;34941;34942;34944;34945;34946;34947;34948;34949;34950;34951;34952];
 [34953;34954;34955;34956;34957;34958;34959;34960;34961;34962;34963;34964;34965;34966;34967;34968];
 [34969;34970;34971;34972;34973;34974;34975;34976;34977;34978;34979;34980;34981;34982;34983;34984];
 [34985;34986;34987;34988;34989;34990;34991;34992;34993;34994;34995;34996;34997;34998;34999;35000];
 [35001;35002;35003;35004;35005;35006;35007;35008;35009;35010;35011;35012;35013;35014;35015;35016];
 [35017;35018;35019;35020;35021;35022;35023;35024;35025;35026;35027;35028;35029;35030;35031;35032];
 [35033;35034;35035;35036;35037;35038;35039;35040;35041;35042;35043;35044;35045;35046;35047;35048];
 [35049;35050;35051;35052;35053;35054;35055;35056;35057;35058;35059;35060;35061;35062;35063;35064];
 [35065;35066;35067;35068;35069;35070;35136;35137;35138;35139;35140;35141;35142;35143;35144;35145];
 [35146;35147;35148;35149;35150;35151;35152;35153;35154;35155;35156;35157;35158;35159;35160;35161];
 [35162;35163;35164;35165;35166;35167;35168;35169;35170;35171;35172;35173;35174;35175;35176;35177];
 [35178;35179;35180;35181;35182;35183;35184;35185;35186;35187;35188;35189;35190;35191;35192;35193];
 [35194;35195;35196;35197;35198;35200;35201;35202;35203;35204;35205;35206;35207;35208;35209;35210];
 [35211;35212;35213;35214;35215;35216;35217;35218;35219;35220;35221;35222;35223;35224;35225;35226];
 [35227;35228;35229;35230;35231;35232;35233;35234;35235;35236;35237;35238;35239;35240;35241;35242];
 [35243;35244;35245;35246;35247;35248;35249;35250;35251;35252;35253;35254;35255;35256;35257;35258];
 [35259;35260;35261;35262;35263;35264;35265;35266;35267;35268;35269;35270;35271;35272;35273;35274];
 [35275;35276;35277;35278;35279;35280;35281;35282;35283;35284;35285;35286;35287;35288;35289;35290];
 [35291;35292;35293;35294;35295;35296;35297;35298;35299;35300;35301;35302;35303;35304;35305;35306];
 [35307;35308;35309;35310;35311;35312;35313;35314;35315;35316;35317;35318;35319;35320;35321;35322];
 [35323;35324;35325;35326;35392;35393;35394;35395;35396;35397;35398;35399;35400;35401;35402;35403];
 [35404;35405;35406;35407;35408;35409;35410;35411;35412;35413;35414;35415;35416;35417;35418;35419];
 [35420;35421;35422;35423;35424;35425;35426;35427;35428;35429;35430;35431;35432;35433;35434;35435];
 [35436;35437;35438;35439;35440;35441;35442;35443;35444;35445;35446;35447;35448;35449;35450;35451];
 [35452;35453;35454;35456;35457;35458;35459;35460;35461;35462;35463;35464;35465;35466;35467;35468];
 [35469;35470;35471;35472;35473;35474;35475;35476;35477;35478;35479;35480;35481;35482;35483;35484];
 [35485;35486;35487;35488;35489;35490;35491;35492;35493;35494;35495;35496;35497;35498;35499;35500];
 [35501;35502;35503;35504;35505;35506;35507;35508;35509;35510;35511;35512;35513;35514;35515;35516];
 [35517;35518;35519;35520;35521;35522;35523;35524;35525;35526;35527;35528;35529;35530;35531;35532];
 [35533;35534;35535;35536;35537;35538;35539;35540;35541;35542;35543;35544;35545;35546;35547;35548];
 [35549;35550;35551;35552;35553;35554;35555;35556;35557;35558;35559;35560;35561;35562;35563;35564];
 [35565;35566;35567;35568;35569;35570;35571;35572;35573;35574;35575;35576;35577;35578;35579;35580];
 [35581;35582;35648;35649;35650;35651;35652;35653;35654;35655;35656;35657;35658;35659;35660;35661];
 [35662;35663;35664;35665;35666;35667;35668;35669;35670;35671;35672;35673;35674;35675;35676;35677];
 [35678;35679;35680;35681;35682;35683;35684;35685;35686;35687;35688;35689;35690;35691;35692;35693];
 [35694;35695;35696;35697;35698;35699;35700;35701;35702;35703;35704;35705;35706;35707;35708;35709];
 [35710;35712;35713;35714;35715;35716;35717;35718;35719;35720;35721;35722;35723;35724;35725;35726];
 [35727;35728;35729;35730;35731;35732;35733;35734;35735;35736;35737;35738;35739;35740;35741;35742];
 [35743;35744;35745;35746;35747;35748;35749;35750;35751;35752;35753;35754;35755;35756;35757;35758];
 [35759;35760;35761;35762;35763;35764;35765;35766;35767;35768;35769;35770;35771;35772;35773;35774];
 [35775;35776;35777;35778;35779;35780;35781;35782;35783;35784;35785;35786;35787;35788;35789;35790];
 [35791;35792;35793;35794;35795;35796;35797;35798;35799;35800;35801;35802;35803;35804;35805;35806];
 [35807;35808;35809;35810;35811;35812;35813;35814;35815;35816;35817;35818;35819;35820;35821;35822];
 [35823;35824;35825;35826;35827;35828;35829;35830;35831;35832;35833;35834;35835;35836;35837;35838];
 [35904;35905;35906;35907;35908;35909;35910;35911;35912;35913;35914;35915;35916;35917;35918;35919];
 [35920;35921;35922;35923;35924;35925;35926;35927;35928;35929;35930;35931;35932;35933;35934;35935];
 [35936;35937;35938;35939;35940;35941;35942;35943;35944;35945;35946;35947;35948;35949;35950;35951];
 [35952;35953;35954;35955;35956;35957;35958;35959;35960;35961;35962;35963;35964;35965;35966;35968];
 [35969;35970;35971;35972;35973;35974;35975;35976;35977;35978;35979;35980;35981;35982;35983;35984];
 [35985;35986;35987;35988;35989;35990;35991;35992;35993;35994;35995;35996;35997;35998;35999;36000];
 [36001;36002;36003;36004;36005;36006;36007;36008;36009;36010;36011;36012;36013;36014;36015;36016];
 [36017;36018;36019;36020;36021;36022;36023;36024;36025;36026;36027;36028;36029;36030;36031;36032];
 [36033;36034;36035;36036;36037;36038;36039;36040;36041;36042;36043;36044;36045;36046;36047;36048];
 [36049;36050;36051;36052;36053;36054;36055;36056;36057;36058;36059;36060;36061;36062;36063;36064];
 [36065;36066;36067;36068;36069;36070;36071;36072;36073;36074;36075;36076;36077;36078;36079;36080];
 [36081;36082;36083;36084;36085;36086;36087;36088;36089;36090;36091;36092;36093;36094;36160;36161];
 [36162;36163;36164;36165;36166;36167;36168;36169;36170;36171;36172;36173;36174;36175;36176;36177];
 [36178;36179;36180;36181;36182;36183;36184;36185;36186;36187;36188;36189;36190;36191;36192;36193];
 [36194;36195;36196;36197;36198;36199;36200;36201;36202;36203;36204;36205;36206;36207;36208;36209];
 [36210;36211;36212;36213;36214;36215;36216;36217;36218;36219;36220;36221;36222;36224;36225;36226];
 [36227;36228;36229;36230;36231;36232;36233;36234;36235;36236;36237;36238;36239;36240;36241;36242];
 [36243;36244;36245;36246;36247;36248;36249;36250;36251;36252;36253;36254;36255;36256;36257;36258];
 [36259;36260;36261;36262;36263;36264;36265;36266;36267;36268;36269;36270;36271;36272;36273;36274];
 [36275;36276;36277;36278;36279;36280;36281;36282;36283;36284;36285;36286;36287;36288;36289;36290];
 [36291;36292;36293;36294;36295;36296;36297;36298;36299;36300;36301;36302;36303;36304;36305;36306];
 [36307;36308;36309;36310;36311;36312;36313;36314;36315;36316;36317;36318;36319;36320;36321;36322];
 [36323;36324;36325;36326;36327;36328;36329;36330;36331;36332;36333;36334;36335;36336;36337;36338];
 [36339;36340;36341;36342;36343;36344;36345;36346;36347;36348;36349;36350;36416;36417;36418;36419];
 [36420;36421;36422;36423;36424;36425;36426;36427;36428;36429;36430;36431;36432;36433;36434;36435];
 [36436;36437;36438;36439;36440;36441;36442;36443;36444;36445;36446;36447;36448;36449;36450;36451];
 [36452;36453;36454;36455;36456;36457;36458;36459;36460;36461;36462;36463;36464;36465;36466;36467];
 [36468;36469;36470;36471;36472;36473;36474;36475;36476;36477;36478;36480;36481;36482;36483;36484];
 [36485;36486;36487;36488;36489;36490;36491;36492;36493;36494;36495;36496;36497;36498;36499;36500];
 [36501;36502;36503;36504;36505;36506;36507;36508;36509;36510;36511;36512;36513;36514;36515;36516];
 [36517;36518;36519;36520;36521;36522;36523;36524;36525;36526;36527;36528;36529;36530;36531;36532];
 [36533;36534;36535;36536;36537;36538;36539;36540;36541;36542;36543;36544;36545;36546;36547;36548];
 [36549;36550;36551;36552;36553;36554;36555;36556;36557;36558;36559;36560;36561;36562;36563;36564];
 [36565;36566;36567;36568;36569;36570;36571;36572;36573;36574;36575;36576;36577;36578;36579;36580];
 [36581;36582;36583;36584;36585;36586;36587;36588;36589;36590;36591;36592;36593;36594;36595;36596];
 [36597;36598;36599;36600;36601;36602;36603;36604;36605;36606;36672;36673;36674;36675;36676;36677];
 [36678;36679;36680;36681;36682;36683;36684;36685;36686;36687;36688;36689;36690;36691;36692;36693];
 [36694;36695;36696;36697;36698;36699;36700;36701;36702;36703;36704;36705;36706;36707;36708;36709];
 [36710;36711;36712;36713;36714;36715;36716;36717;36718;36719;36720;36721;36722;36723;36724;36725];
 [36726;36727;36728;36729;36730;36731;36732;36733;36734;36736;36737;36738;36739;36740;36741;36742];
 [36743;36744;36745;36746;36747;36748;36749;36750;36751;36752;36753;36754;36755;36756;36757;36758];
 [36759;36760;36761;36762;36763;36764;36765;36766;36767;36768;36769;36770;36771;36772;36773;36774];
 [36775;36776;36777;36778;36779;36780;36781;36782;36783;36784;36785;36786;36787;36788;36789;36790];
 [36791;36792;36793;36794;36795;36796;36797;36798;36799;36800;36801;36802;36803;36804;36805;36806];
 [36807;36808;36809;36810;36811;36812;36813;36814;36815;36816;36817;36818;36819;36820;36821;36822];
 [36823;36824;36825;36826;36827;36828;36829;36830;36831;36832;36833;36834;36835;36836;36837;36838];
 [36839;36840;36841;36842;36843;36844;36845;36846;36847;36848;36849;36850;36851;36852;36853;36854];
 [36855;36856;36857;36858;36859;36860;36861;36862;36928;36929;36930;36931;36932;36933;36934;36935];
 [36936;36937;36938;36939;36940;36941;36942;36943;36944;36945;36946;36947;36948;36949;36950;36951];
 [36952;36953;36954;36955;36956;36957;36958;36959;36960;36961;36962;36963;36964;36965;36966;36967];
 [36968;36969;36970;36971;36972;36973;36974;36975;36976;36977;36978;36979;36980;36981;36982;36983];
 [36984;36985;36986;36987;36988;36989;36990;36992;36993;36994;36995;36996;36997;36998;36999;37000];
 [37001;37002;37003;37004;37005;37006;37007;37008;37009;37010;37011;37012;37013;37014;37015;37016];
 [37017;37018;37019;37020;37021;37022;37023;37024;37025;37026;37027;37028;37029;37030;37031;37032];
 [37033;37034;37035;37036;37037;37038;37039;37040;37041;37042;37043;37044;37045;37046;37047;37048];
 [37049;37050;37051;37052;37053;37054;37055;37056;37057;37058;37059;37060;37061;37062;37063;37064];
 [37065;37066;37067;37068;37069;37070;37071;37072;37073;37074;37075;37076;37077;37078;37079;37080];
 [37081;37082;37083;37084;37085;37086;37087;37088;37089;37090;37091;37092;37093;37094;37095;37096];
 [37097;37098;37099;37100;37101;37102;37103;37104;37105;37106;37107;37108;37109;37110;37111;37112];
 [37113;37114;37115;37116;37117;37118;37184;37185;37186;37187;37188;37189;37190;37191;37192;37193];
 [37194;37195;37196;37197;37198;37199;37200;37201;37202;37203;37204;37205;37206;37207;37208;37209];
 [37210;37211;37212;37213;37214;37215;37216;37217;37218;37219;37220;37221;37222;37223;37224;37225];
 [37226;37227;37228;37229;37230;37231;37232;37233;37234;37235;37236;37237;37238;37239;37240;37241];
 [37242;37243;37244;37245;37246;37248;37249;37250;37251;37252;37253;37254;37255;37256;37257;37258];
 [37259;37260;37261;37262;37263;37264;37265;37266;37267;37268;37269;37270;37271;37272;37273;37274];
 [37275;37276;37277;37278;37279;37280;37281;37282;37283;37284;37285;37286;37287;37288;37289;37290];
 [37291;37292;37293;37294;37295;37296;37297;37298;37299;37300;37301;37302;37303;37304;37305;37306];
 [37307;37308;37309;37310;37311;37312;37313;37314;37315;37316;37317;37318;37319;37320;37321;37322];
 [37323;37324;37325;37326;37327;37328;37329;37330;37331;37332;37333;37334;37335;37336;37337;37338];
 [37339;37340;37341;37342;37343;37344;37345;37346;37347;37348;37349;37350;37351;37352;37353;37354];
 [37355;37356;37357;37358;37359;37360;37361;37362;37363;37364;37365;37366;37367;37368;37369;37370];
 [37371;37372;37373;37374;37440;37441;37442;37443;37444;37445;37446;37447;37448;37449;37450;37451];
 [37452;37453;37454;37455;37456;37457;37458;37459;37460;37461;37462;37463;37464;37465;37466;37467];
 [37468;37469;37470;37471;37472;37473;37474;37475;37476;37477;37478;37479;37480;37481;37482;37483];
 [37484;37485;37486;37487;37488;37489;37490;37491;37492;37493;37494;37495;37496;37497;37498;37499];
 [37500;37501;37502;37504;37505;37506;37507;37508;37509;37510;37511;37512;37513;37514;37515;37516];
 [37517;37518;37519;37520;37521;37522;37523;37524;37525;37526;37527;37528;37529;37530;37531;37532];
 [37533;37534;37535;37536;37537;37538;37539;37540;37541;37542;37543;37544;37545;37546;37547;37548];
 [37549;37550;37551;37552;37553;37554;37555;37556;37557;37558;37559;37560;37561;37562;37563;37564];
 [37565;37566;37567;37568;37569;37570;37571;37572;37573;37574;37575;37576;37577;37578;37579;37580];
 [37581;37582;37583;37584;37585;37586;37587;37588;37589;37590;37591;37592;37593;37594;37595;37596];
 [37597;37598;37599;37600;37601;37602;37603;37604;37605;37606;37607;37608;37609;37610;37611;37612];
 [37613;37614;37615;37616;37617;37618;37619;37620;37621;37622;37623;37624;37625;37626;37627;37628];
 [37629;37630;37696;37697;37698;37699;37700;37701;37702;37703;37704;37705;37706;37707;37708;37709];
 [37710;37711;37712;37713;37714;37715;37716;37717;37718;37719;37720;37721;37722;37723;37724;37725];
 [37726;37727;37728;37729;37730;37731;37732;37733;37734;37735;37736;37737;37738;37739;37740;37741];
 [37742;37743;37744;37745;37746;37747;37748;37749;37750;37751;37752;37753;37754;37755;37756;37757];
 [37758;37760;37761;37762;37763;37764;37765;37766;37767;37768;37769;37770;37771;37772;37773;37774];
 [37775;37776;37777;37778;37779;37780;37781;37782;37783;37784;37785;37786;37787;37788;37789;37790];
 [37791;37792;37793;37794;37795;37796;37797;37798;37799;37800;37801;37802;37803;37804;37805;37806];
 [37807;37808;37809;37810;37811;37812;37813;37814;37815;37816;37817;37818;37819;37820;37821;37822];
 [37823;37824;37825;37826;37827;37828;37829;37830;37831;37832;37833;37834;37835;37836;37837;37838];
 [37839;37840;37841;37842;37843;37844;37845;37846;37847;37848;37849;37850;37851;37852;37853;37854];
 [37855;37856;37857;37858;37859;37860;37861;37862;37863;37864;37865;37866;37867;37868;37869;37870];
 [37871;37872;37873;37874;37875;37876;37877;37878;37879;37880;37881;37882;37883;37884;37885;37886];
 [37952;37953;37954;37955;37956;37957;37958;37959;37960;37961;37962;37963;37964;37965;37966;37967];
 [37968;37969;37970;37971;37972;37973;37974;37975;37976;37977;37978;37979;37980;37981;37982;37983];
 [37984;37985;37986;37987;37988;37989;37990;37991;37992;37993;37994;37995;37996;37997;37998;37999];
 [38000;38001;38002;38003;38004;38005;38006;38007;38008;38009;38010;38011;38012;38013;38014;38016];
 [38017;38018;38019;38020;38021;38022;38023;38024;38025;38026;38027;38028;38029;38030;38031;38032];
 [38033;38034;38035;38036;38037;38038;38039;38040;38041;38042;38043;38044;38045;38046;38047;38048];
 [38049;38050;38051;38052;38053;38054;38055;38056;38057;38058;38059;38060;38061;38062;38063;38064];
 [38065;38066;38067;38068;38069;38070;38071;38072;38073;38074;38075;38076;38077;38078;38079;38080];
 [38081;38082;38083;38084;38085;38086;38087;38088;38089;38090;38091;38092;38093;38094;38095;38096];
 [38097;38098;38099;38100;38101;38102;38103;38104;38105;38106;38107;38108;38109;38110;38111;38112];
 [38113;38114;38115;38116;38117;38118;38119;38120;38121;38122;38123;38124;38125;38126;38127;38128];
 [38129;38130;38131;38132;38133;38134;38135;38136;38137;38138;38139;38140;38141;38142;38208;38209];
 [38210;38211;38212;38213;38214;38215;38216;38217;38218;38219;38220;38221;38222;38223;38224;38225];
 [38226;38227;38228;38229;38230;38231;38232;38233;38234;38235;38236;38237;38238;38239;38240;38241];
 [38242;38243;38244;38245;38246;38247;38248;38249;38250;38251;38252;38253;38254;38255;38256;38257];
 [38258;38259;38260;38261;38262;38263;38264;38265;38266;38267;38268;38269;38270;38272;38273;38274];
 [38275;38276;38277;38278;38279;38280;38281;38282;38283;38284;38285;38286;38287;38288;38289;38290];
 [38291;38292;38293;38294;38295;38296;38297;38298;38299;38300;38301;38302;38303;38304;38305;38306];
 [38307;38308;38309;38310;38311;38312;38313;38314;38315;38316;38317;38318;38319;38320;38321;38322];
 [38323;38324;38325;38326;38327;38328;38329;38330;38331;38332;38333;38334;38335;38336;38337;38338];
 [38339;38340;38341;38342;38343;38344;38345;38346;38347;38348;38349;38350;38351;38352;38353;38354];
 [38355;38356;38357;38358;38359;38360;38361;38362;38363;38364;38365;38366;38367;38368;38369;38370];
 [38371;38372;38373;38374;38375;38376;38377;38378;38379;38380;38381;38382;38383;38384;38385;38386];
 [38387;38388;38389;38390;38391;38392;38393;38394;38395;38396;38397;38398;38464;38465;38466;38467];
 [38468;38469;38470;38471;38472;38473;38474;38475;38476;38477;38478;38479;38480;38481;38482;38483];
 [38484;38485;38486;38487;38488;38489;38490;38491;38492;38493;38494;38495;38496;38497;38498;38499];
 [38500;38501;38502;38503;38504;38505;38506;38507;38508;38509;38510;38511;38512;38513;38514;38515];
 [38516;38517;38518;38519;38520;38521;38522;38523;38524;38525;38526;38528;38529;38530;38531;38532];
 [38533;38534;38535;38536;38537;38538;38539;38540;38541;38542;38543;38544;38545;38546;38547;38548];
 [38549;38550;38551;38552;38553;38554;38555;38556;38557;38558;38559;38560;38561;38562;38563;38564];
 [38565;38566;38567;38568;38569;38570;38571;38572;38573;38574;38575;38576;38577;38578;38579;38580];
 [38581;38582;38583;38584;38585;38586;38587;38588;38589;38590;38591;38592;38593;38594;38595;38596];
 [38597;38598;38599;38600;38601;38602;38603;38604;38605;38606;38607;38608;38609;38610;38611;38612];
 [38613;38614;38615;38616;38617;38618;38619;38620;38621;38622;38623;38624;38625;38626;38627;38628];
 [38629;38630;38631;38632;38633;38634;38635;38636;38637;38638;38639;38640;38641;38642;38643;38644];
 [38645;38646;38647;38648;38649;38650;38651;38652;38653;38654;38720;38721;38722;38723;38724;38725];
 [38726;38727;38728;38729;38730;38731;38732;38733;38734;38735;38736;38737;38738;38739;38740;38741];
 [38742;38743;38744;38745;38746;38747;38748;38749;38750;38751;38752;38753;38754;38755;38756;38757];
 [38758;38759;38760;38761;38762;38763;38764;38765;38766;38767;38768;38769;38770;38771;38772;38773];
 [38774;38775;38776;38777;38778;38779;38780;38781;38782;38784;38785;38786;38787;38788;38789;38790];
 [38791;38792;38793;38794;38795;38796;38797;38798;38799;38800;38801;38802;38803;38804;38805;38806];
 [38807;38808;38809;38810;38811;38812;38813;38814;38815;38816;38817;38818;38819;38820;38821;38822];
 [38823;38824;38825;38826;38827;38828;38829;38830;38831;38832;38833;38834;38835;38836;38837;38838];
 [38839;38840;38841;38842;38843;38844;38845;38846;38847;38848;38849;38850;38851;38852;38853;38854];
 [38855;38856;38857;38858;38859;38860;38861;38862;38863;38864;38865;38866;38867;38868;38869;38870];
 [38871;38872;38873;38874;38875;38876;38877;38878;38879;38880;38881;38882;38883;38884;38885;38886];
 [38887;38888;38889;38890;38891;38892;38893;38894;38895;38896;38897;38898;38899;38900;38901;38902];
 [38903;38904;38905;38906;38907;38908;38909;38910;38976;38977;38978;38979;38980;38981;38982;38983];
 [38984;38985;38986;38987;38988;38989;38990;38991;38992;38993;38994;38995;38996;38997;38998;38999];
 [39000;39001;39002;39003;39004;39005;39006;39007;39008;39009;39010;39011;39012;39013;39014;39015];
 [39016;39017;39018;39019;39020;39021;39022;39023;39024;39025;39026;39027;39028;39029;39030;39031];
 [39032;39033;39034;39035;39036;39037;39038;39040;39041;39042;39043;39044;39045;39046;39047;39048];
 [39049;39050;39051;39052;39053;39054;39055;39056;39057;39058;39059;39060;39061;39062;39063;39064];
 [39065;39066;39067;39068;39069;39070;39071;39072;39073;39074;39075;39076;39077;39078;39079;39080];
 [39081;39082;39083;39084;39085;39086;39087;39088;39089;39090;39091;39092;39093;39094;39095;39096];
 [39097;39098;39099;39100;39101;39102;39103;39104;39105;39106;39107;39108;39109;39110;39111;39112];
 [39113;39114;39115;39116;39117;39118;39119;39120;39121;39122;39123;39124;39125;39126;39127;39128];
 [39129;39130;39131;39132;39133;39134;39135;39136;39137;39138;39139;39140;39141;39142;39143;39144];
 [39145;39146;39147;39148;39149;39150;39151;39152;39153;39154;39155;39156;39157;39158;39159;39160];
 [39161;39162;39163;39164;39165;39166;39232;39233;39234;39235;39236;39237;39238;39239;39240;39241];
 [39242;39243;39244;39245;39246;39247;39248;39249;39250;39251;39252;39253;39254;39255;39256;39257];
 [39258;39259;39260;39261;39262;39263;39264;39265;39266;39267;39268;39269;39270;39271;39272;39273];
 [39274;39275;39276;39277;39278;39279;39280;39281;39282;39283;39284;39285;39286;39287;39288;39289];
 [39290;39291;39292;39293;39294;39296;39297;39298;39299;39300;39301;39302;39303;39304;39305;39306];
 [39307;39308;39309;39310;39311;39312;39313;39314;39315;39316;39317;39318;39319;39320;39321;39322];
 [39323;39324;39325;39326;39327;39328;39329;39330;39331;39332;39333;39334;39335;39336;39337;39338];
 [39339;39340;39341;39342;39343;39344;39345;39346;39347;39348;39349;39350;39351;39352;39353;39354];
 [39355;39356;39357;39358;39359;39360;39361;39362;39363;39364;39365;39366;39367;39368;39369;39370];
 [39371;39372;39373;39374;39375;39376;39377;39378;39379;39380;39381;39382;39383;39384;39385;39386];
 [39387;39388;39389;39390;39391;39392;39393;39394;39395;39396;39397;39398;39399;39400;39401;39402];
 [39403;39404;39405;39406;39407;39408;39409;39410;39411;39412;39413;39414;39415;39416;39417;39418];
 [39419;39420;39421;39422;39488;39489;39490;39491;39492;39493;39494;39495;39496;39497;39498;39499];
 [39500;39501;39502;39503;39504;39505;39506;39507;39508;39509;39510;39511;39512;39513;39514;39515];
 [39516;39517;39518;39519;39520;39521;39522;39523;39524;39525;39526;39527;39528;39529;39530;39531];
 [39532;39533;39534;39535;39536;39537;39538;39539;39540;39541;39542;39543;39544;39545;39546;39547];
 [39548;39549;39550;39552;39553;39554;39555;39556;39557;39558;39559;39560;39561;39562;39563;39564];
 [39565;39566;39567;39568;39569;39570;39571;39572;39573;39574;39575;39576;39577;39578;39579;39580];
 [39581;39582;39583;39584;39585;39586;39587;39588;39589;39590;39591;39592;39593;39594;39595;39596];
 [39597;39598;39599;39600;39601;39602;39603;39604;39605;39606;39607;39608;39609;39610;39611;39612];
 [39613;39614;39615;39616;39617;39618;39619;39620;39621;39622;39623;39624;39625;39626;39627;39628];
 [39629;39630;39631;39632;39633;39634;39635;39636;39637;39638;39639;39640;39641;39642;39643;39644];
 [39645;39646;39647;39648;39649;39650;39651;39652;39653;39654;39655;39656;39657;39658;39659;39660];
 [39661;39662;39663;39664;39665;39666;39667;39668;39669;39670;39671;39672;39673;39674;39675;39676];
 [39677;39678;39744;39745;39746;39747;39748;39749;39750;39751;39752;39753;39754;39755;39756;39757];
 [39758;39759;39760;39761;39762;39763;39764;39765;39766;39767;39768;39769;39770;39771;39772;39773];
 [39774;39775;39776;39777;39778;39779;39780;39781;39782;39783;39784;39785;39786;39787;39788;39789];
 [39790;39791;39792;39793;39794;39795;39796;39797;39798;39799;39800;39801;39802;39803;39804;39805];
 [39806;39808;39809;39810;39811;39812;39813;39814;39815;39816;39817;39818;39819;39820;39821;39822];
 [39823;39824;39825;39826;39827;39828;39829;39830;39831;39832;39833;39834;39835;39836;39837;39838];
 [39839;39840;39841;39842;39843;39844;39845;39846;39847;39848;39849;39850;39851;39852;39853;39854];
 [39855;39856;39857;39858;39859;39860;39861;39862;39863;39864;39865;39866;39867;39868;39869;39870];
 [39871;39872;39873;39874;39875;39876;39877;39878;39879;39880;39881;39882;39883;39884;39885;39886];
 [39887;39888;39889;39890;39891;39892;39893;39894;39895;39896;39897;39898;39899;39900;39901;39902];
 [39903;39904;39905;39906;39907;39908;39909;39910;39911;39912;39913;39914;39915;39916;39917;39918];
 [39919;39920;39921;39922;39923;39924;39925;39926;39927;39928;39929;39930;39931;39932;39933;39934];
 [40000;40001;40002;40003;40004;40005;40006;40007;40008;40009;40010;40011;40012;40013;40014;40015];
 [40016;40017;40018;40019;40020;40021;40022;40023;40024;40025;40026;40027;40028;40029;40030;40031];
 [40032;40033;40034;40035;40036;40037;40038;40039;40040;40041;40042;40043;40044;40045;40046;40047];
 [40048;40049;40050;40051;40052;40053;40054;40055;40056;40057;40058;40059;40060;40061;40062;40064];
 [40065;40066;40067;40068;40069;40070;40071;40072;40073;40074;40075;40076;40077;40078;40079;40080];
 [40081;40082;40083;40084;40085;40086;40087;40088;40089;40090;40091;40092;40093;40094;40095;40096];
 [40097;40098;40099;40100;40101;40102;40103;40104;40105;40106;40107;40108;40109;40110;40111;40112];
 [40113;40114;40115;40116;40117;40118;40119;40120;40121;40122;40123;40124;40125;40126;40127;40128];
 [40129;40130;40131;40132;40133;40134;40135;40136;40137;40138;40139;40140;40141;40142;40143;40144];
 [40145;40146;40147;40148;40149;40150;40151;40152;40153;40154;40155;40156;40157;40158;40159;40160];
 [40161;40162;40163;40164;40165;40166;40167;40168;40169;40170;40171;40172;40173;40174;40175;40176];
 [40177;40178;40179;40180;40181;40182;40183;40184;40185;40186;40187;40188;40189;40190;40256;40257];
 [40258;40259;40260;40261;40262;40263;40264;40265;40266;40267;40268;40269;40270;40271;40272;40273];
 [40274;40275;40276;40277;40278;40279;40280;40281;40282;40283;40284;40285;40286;40287;40288;40289];
 [40290;40291;40292;40293;40294;40295;40296;40297;40298;40299;40300;40301;40302;40303;40304;40305];
 [40306;40307;40308;40309;40310;40311;40312;40313;40314;40315;40316;40317;40318;40320;40321;40322];
 [40323;40324;40325;40326;40327;40328;40329;40330;40331;40332;40333;40334;40335;40336;40337;40338];
 [40339;40340;40341;40342;40343;40344;40345;40346;40347;40348;40349;40350;40351;40352;40353;40354];
 [40355;40356;40357;40358;40359;40360;40361;40362;40363;40364;40365;40366;40367;40368;40369;40370];
 [40371;40372;40373;40374;40375;40376;40377;40378;40379;40380;40381;40382;40383;40384;40385;40386];
 [40387;40388;40389;40390;40391;40392;40393;40394;40395;40396;40397;40398;40399;40400;40401;40402];
 [40403;40404;40405;40406;40407;40408;40409;40410;40411;40412;40413;40414;40415;40416;40417;40418];
 [40419;40420;40421;40422;40423;40424;40425;40426;40427;40428;40429;40430;40431;40432;40433;40434];
 [40435;40436;40437;40438;40439;40440;40441;40442;40443;40444;40445;40446;40512;40513;40514;40515];
 [40516;40517;40518;40519;40520;40521;40522;40523;40524;40525;40526;40527;40528;40529;40530;40531];
 [40532;40533;40534;40535;40536;40537;40538;40539;40540;40541;40542;40543;40544;40545;40546;40547];
 [40548;40549;40550;40551;40552;40553;40554;40555;40556;40557;40558;40559;40560;40561;40562;40563];
 [40564;40565;40566;40567;40568;40569;40570;40571;40572;40573;40574;40576;40577;40578;40579;40580];
 [40581;40582;40583;40584;40585;40586;40587;40588;40589;40590;40591;40592;40593;40594;40595;40596];
 [40597;40598;40599;40600;40601;40602;40603;40604;40605;40606;40607;40608;40609;40610;40611;40612];
 [40613;40614;40615;40616;40617;40618;40619;40620;40621;40622;40623;40624;40625;40626;40627;40628];
 [40629;40630;40631;40632;40633;40634;40635;40636;40637;40638;40639;40640;40641;40642;40643;40644];
 [40645;40646;40647;40648;40649;40650;40651;40652;40653;40654;40655;40656;40657;40658;40659;40660];
 [40661;40662;40663;40664;40665;40666;40667;40668;40669;40670;40671;40672;40673;40674;40675;40676];
 [40677;40678;40679;40680;40681;40682;40683;40684;40685;40686;40687;40688;40689;40690;40691;40692];
 [40693;40694;40695;40696;40697;40698;40699;40700;40701;40702;40768;40769;40770;40771;40772;40773];
 [40774;40775;40776;40777;40778;40779;40780;40781;40782;40783;40784;40785;40786;40787;40788;40789];
 [40790;40791;40792;40793;40794;40795;40796;40797;40798;40799;40800;40801;40802;40803;40804;40805];
 [40806;40807;40808;40809;40810;40811;40812;40813;40814;40815;40816;40817;40818;40819;40820;40821];
 [40822;40823;40824;40825;40826;40827;40828;40829;40830;40832;40833;40834;40835;40836;40837;40838];
 [40839;40840;40841;40842;40843;40844;40845;40846;40847;40848;40849;40850;40851;40852;40853;40854];
 [40855;40856;40857;40858;40859;40860;40861;40862;40863;40864;40865;40866;40867;40868;40869;40870];
 [40871;40872;40873;40874;40875;40876;40877;40878;40879;40880;40881;40882;40883;40884;40885;40886];
 [40887;40888;40889;40890;40891;40892;40893;40894;40895;40896;40897;40898;40899;40900;40901;40902];
 [40903;40904;40905;40906;40907;40908;40909;40910;40911;40912;40913;40914;40915;40916;40917;40918];
 [40919;40920;40921;40922;40923;40924;40925;40926;40927;40928;40929;40930;40931;40932;40933;40934];
 [40935;40936;40937;40938;40939;40940;40941;40942;40943;40944;40945;40946;40947;40948;40949;40950];
 [40951;40952;40953;40954;40955;40956;40957;40958;41024;41025;41026;41027;41028;41029;41030;41031];
 [41032;41033;41034;41035;41036;41037;41038;41039;41040;41041;41042;41043;41044;41045;41046;41047];
 [41048;41049;41050;41051;41052;41053;41054;41055;41056;41057;41058;41059;41060;41061;41062;41063];
 [41064;41065;41066;41067;41068;41069;41070;41071;41072;41073;41074;41075;41076;41077;41078;41079];
 [41080;41081;41082;41083;41084;41085;41086;41088;41089;41090;41091;41092;41093;41094;41095;41096];
 [41097;41098;41099;41100;41101;41102;41103;41104;41105;41106;41107;41108;41109;41110;41111;41112];
 [41113;41114;41115;41116;41117;41118;41119;41120;41121;41122;41123;41124;41125;41126;41127;41128];
 [41129;41130;41131;41132;41133;41134;41135;41136;41137;41138;41139;41140;41141;41142;41143;41144];
 [41145;41146;41147;41148;41149;41150;41151;41152;41153;41154;41155;41156;41157;41158;41159;41160];
 [41161;41162;41163;41164;41165;41166;41167;41168;41169;41170;41171;41172;41173;41174;41175;41176];
 [41177;41178;41179;41180;41181;41182;41183;41184;41185;41186;41187;41188;41189;41190;41191;41192];
 [41193;41194;41195;41196;41197;41198;41199;41200;41201;41202;41203;41204;41205;41206;41207;41208];
 [41209;41210;41211;41212;41213;41214;43584;43585;43586;43587;43588;43589;43590;43591;43592;43593];
 [43594;43595;43596;43597;43598;43599;43600;43601;43602;43603;43604;43605;43606;43607;43608;43609];
 [43610;43611;43612;43613;43614;43615;43616;43617;43618;43619;43620;43621;43622;43623;43624;43625];
 [43626;43627;43628;43629;43630;43631;43632;43633;43634;43635;43636;43637;43638;43639;43640;43641];
 [43642;43643;43644;43645;43646;43648;43649;43650;43651;43652;43653;43654;43655;43656;43657;43658];
 [43659;43660;43661;43662;43663;43664;43665;43666;43667;43668;43669;43670;43671;43672;43673;43674];
 [43675;43676;43677;43678;43679;43680;43840;43841;43842;43843;43844;43845;43846;43847;43848;43849];
 [43850;43851;43852;43853;43854;43855;43856;43857;43858;43859;43860;43861;43862;43863;43864;43865];
 [43866;43867;43868;43869;43870;43871;43872;43873;43874;43875;43876;43877;43878;43879;43880;43881];
 [43882;43883;43884;43885;43886;43887;43888;43889;43890;43891;43892;43893;43894;43895;43896;43897];
 [43898;43899;43900;43901;43902;43904;43905;43906;43907;43908;43909;43910;43911;43912;43913;43914];
 [43915;43916;43917;43918;43919;43920;43921;43922;43923;43924;43925;43926;43927;43928;43929;43930];
 [43931;43932;43933;43934;43935;43936;44096;44097;44098;44099;44100;44101;44102;44103;44104;44105];
 [44106;44107;44108;44109;44110;44111;44112;44113;44114;44115;44116;44117;44118;44119;44120;44121];
 [44122;44123;44124;44125;44126;44127;44128;44129;44130;44131;44132;44133;44134;44135;44136;44137];
 [44138;44139;44140;44141;44142;44143;44144;44145;44146;44147;44148;44149;44150;44151;44152;44153];
 [44154;44155;44156;44157;44158;44160;44161;44162;44163;44164;44165;44166;44167;44168;44169;44170];
 [44171;44172;44173;44174;44175;44176;44177;44178;44179;44180;44181;44182;44183;44184;44185;44186];
 [44187;44188;44189;44190;44191;44192;44352;44353;44354;44355;44356;44357;44358;44359;44360;44361];
 [44362;44363;44364;44365;44366;44367;44368;44369;44370;44371;44372;44373;44374;44375;44376;44377];
 [44378;44379;44380;44381;44382;44383;44384;44385;44386;44387;44388;44389;44390;44391;44392;44393];
 [44394;44395;44396;44397;44398;44399;44400;44401;44402;44403;44404;44405;44406;44407;44408;44409];
 [44410;44411;44412;44413;44414;44416;44417;44418;44419;44420;44421;44422;44423;44424;44425;44426];
 [44427;44428;44429;44430;44431;44432;44433;44434;44435;44436;44437;44438;44439;44440;44441;44442];
 [44443;44444;44445;44446;44447;44448;44608;44609;44610;44611;44612;44613;44614;44615;44616;44617];
 [44618;44619;44620;44621;44622;44623;44624;44625;44626;44627;44628;44629;44630;44631;44632;44633];
 [44634;44635;44636;44637;44638;44639;44640;44641;44642;44643;44644;44645;44646;44647;44648;44649];
 [44650;44651;44652;44653;44654;44655;44656;44657;44658;44659;44660;44661;44662;44663;44664;44665];
 [44666;44667;44668;44669;44670;44672;44673;44674;44675;44676;44677;44678;44679;44680;44681;44682];
 [44683;44684;44685;44686;44687;44688;44689;44690;44691;44692;44693;44694;44695;44696;44697;44698];
 [44699;44700;44701;44702;44703;44704;44864;44865;44866;44867;44868;44869;44870;44871;44872;44873];
 [44874;44875;44876;44877;44878;44879;44880;44881;44882;44883;44884;44885;44886;44887;44888;44889];
 [44890;44891;44892;44893;44894;44895;44896;44897;44898;44899;44900;44901;44902;44903;44904;44905];
 [44906;44907;44908;44909;44910;44911;44912;44913;44914;44915;44916;44917;44918;44919;44920;44921];
 [44922;44923;44924;44925;44926;44928;44929;44930;44931;44932;44933;44934;44935;44936;44937;44938];
 [44939;44940;44941;44942;44943;44944;44945;44946;44947;44948;44949;44950;44951;44952;44953;44954];
 [44955;44956;44957;44958;44959;44960;45120;45121;45122;45123;45124;45125;45126;45127;45128;45129];
 [45130;45131;45132;45133;45134;45135;45136;45137;45138;45139;45140;45141;45142;45143;45144;45145];
 [45146;45147;45148;45149;45150;45151;45152;45153;45154;45155;45156;45157;45158;45159;45160;45161];
 [45162;45163;45164;45165;45166;45167;45168;45169;45170;45171;45172;45173;45174;45175;45176;45177];
 [45178;45179;45180;45181;45182;45184;45185;45186;45187;45188;45189;45190;45191;45192;45193;45194];
 [45195;45196;45197;45198;45199;45200;45201;45202;45203;45204;45205;45206;45207;45208;45209;45210];
 [45211;45212;45213;45214;45215;45216;45376;45377;45378;45379;45380;45381;45382;45383;45384;45385];
 [45386;45387;45388;45389;45390;45391;45392;45393;45394;45395;45396;45397;45398;45399;45400;45401];
 [45402;45403;45404;45405;45406;45407;45408;45409;45410;45411;45412;45413;45414;45415;45416;45417];
 [45418;45419;45420;45421;45422;45423;45424;45425;45426;45427;45428;45429;45430;45431;45432;45433];
 [45434;45435;45436;45437;45438;45440;45441;45442;45443;45444;45445;45446;45447;45448;45449;45450];
 [45451;45452;45453;45454;45455;45456;45457;45458;45459;45460;45461;45462;45463;45464;45465;45466];
 [45467;45468;45469;45470;45471;45472;45632;45633;45634;45635;45636;45637;45638;45639;45640;45641];
 [45642;45643;45644;45645;45646;45647;45648;45649;45650;45651;45652;45653;45654;45655;45656;45657];
 [45658;45659;45660;45661;45662;45663;45664;45665;45666;45667;45668;45669;45670;45671;45672;45673];
 [45674;45675;45676;45677;45678;45679;45680;45681;45682;45683;45684;45685;45686;45687;45688;45689];
 [45690;45691;45692;45693;45694;45696;45697;45698;45699;45700;45701;45702;45703;45704;45705;45706];
 [45707;45708;45709;45710;45711;45712;45713;45714;45715;45716;45717;45718;45719;45720;45721;45722];
 [45723;45724;45725;45726;45727;45728;45888;45889;45890;45891;45892;45893;45894;45895;45896;45897];
 [45898;45899;45900;45901;45902;45903;45904;45905;45906;45907;45908;45909;45910;45911;45912;45913];
 [45914;45915;45916;45917;45918;45919;45920;45921;45922;45923;45924;45925;45926;45927;45928;45929];
 [45930;45931;45932;45933;45934;45935;45936;45937;45938;45939;45940;45941;45942;45943;45944;45945];
 [45946;45947;45948;45949;45950;45952;45953;45954;45955;45956;45957;45958;45959;45960;45961;45962];
 [45963;45964;45965;45966;45967;45968;45969;45970;45971;45972;45973;45974;45975;45976;45977;45978];
 [45979;45980;45981;45982;45983;45984;46144;46145;46146;46147;46148;46149;46150;46151;46152;46153];
 [46154;46155;46156;46157;46158;46159;46160;46161;46162;46163;46164;46165;46166;46167;46168;46169];
 [46170;46171;46172;46173;46174;46175;46176;46177;46178;46179;46180;46181;46182;46183;46184;46185];
 [46186;46187;46188;46189;46190;46191;46192;46193;46194;46195;46196;46197;46198;46199;46200;46201];
 [46202;46203;46204;46205;46206;46208;46209;46210;46211;46212;46213;46214;46215;46216;46217;46218];
 [46219;46220;46221;46222;46223;46224;46225;46226;46227;46228;46229;46230;46231;46232;46233;46234];
 [46235;46236;46237;46238;46239;46240;46400;46401;46402;46403;46404;46405;46406;46407;46408;46409];
 [46410;46411;46412;46413;46414;46415;46416;46417;46418;46419;46420;46421;46422;46423;46424;46425];
 [46426;46427;46428;46429;46430;46431;46432;46433;46434;46435;46436;46437;46438;46439;46440;46441];
 [46442;46443;46444;46445;46446;46447;46448;46449;46450;46451;46452;46453;46454;46455;46456;46457];
 [46458;46459;46460;46461;46462;46464;46465;46466;46467;46468;46469;46470;46471;46472;46473;46474];
 [46475;46476;46477;46478;46479;46480;46481;46482;46483;46484;46485;46486;46487;46488;46489;46490];
 [46491;46492;46493;46494;46495;46496;46656;46657;46658;46659;46660;46661;46662;46663;46664;46665];
 [46666;46667;46668;46669;46670;46671;46672;46673;46674;46675;46676;46677;46678;46679;46680;46681];
 [46682;46683;46684;46685;46686;46687;46688;46689;46690;46691;46692;46693;46694;46695;46696;46697];
 [46698;46699;46700;46701;46702;46703;46704;46705;46706;46707;46708;46709;46710;46711;46712;46713];
 [46714;46715;46716;46717;46718;46720;46721;46722;46723;46724;46725;46726;46727;46728;46729;46730];
 [46731;46732;46733;46734;46735;46736;46737;46738;46739;46740;46741;46742;46743;46744;46745;46746];
 [46747;46748;46749;46750;46751;46752;46912;46913;46914;46915;46916;46917;46918;46919;46920;46921];
 [46922;46923;46924;46925;46926;46927;46928;46929;46930;46931;46932;46933;46934;46935;46936;46937];
 [46938;46939;46940;46941;46942;46943;46944;46945;46946;46947;46948;46949;46950;46951;46952;46953];
 [46954;46955;46956;46957;46958;46959;46960;46961;46962;46963;46964;46965;46966;46967;46968;46969];
 [46970;46971;46972;46973;46974;46976;46977;46978;46979;46980;46981;46982;46983;46984;46985;46986];
 [46987;46988;46989;46990;46991;46992;46993;46994;46995;46996;46997;46998;46999;47000;47001;47002];
 [47003;47004;47005;47006;47007;47008;47168;47169;47170;47171;47172;47173;47174;47175;47176;47177];
 [47178;47179;47180;47181;47182;47183;47184;47185;47186;47187;47188;47189;47190;47191;47192;47193];
 [47194;47195;47196;47197;47198;47199;47200;47201;47202;47203;47204;47205;47206;47207;47208;47209];
 [47210;47211;47212;47213;47214;47215;47216;47217;47218;47219;47220;47221;47222;47223;47224;47225];
 [47226;47227;47228;47229;47230;47232;47233;47234;47235;47236;47237;47238;47239;47240;47241;47242];
 [47243;47244;47245;47246;47247;47248;47249;47250;47251;47252;47253;47254;47255;47256;47257;47258];
 [47259;47260;47261;47262;47263;47264;47424;47425;47426;47427;47428;47429;47430;47431;47432;47433];
 [47434;47435;47436;47437;47438;47439;47440;47441;47442;47443;47444;47445;47446;47447;47448;47449];
 [47450;47451;47452;47453;47454;47455;47456;47457;47458;47459;47460;47461;47462;47463;47464;47465];
 [47466;47467;47468;47469;47470;47471;47472;47473;47474;47475;47476;47477;47478;47479;47480;47481];
 [47482;47483;47484;47485;47486;47488;47489;47490;47491;47492;47493;47494;47495;47496;47497;47498];
 [47499;47500;47501;47502;47503;47504;47505;47506;47507;47508;47509;47510;47511;47512;47513;47514];
 [47515;47516;47517;47518;47519;47520;47680;47681;47682;47683;47684;47685;47686;47687;47688;47689];
 [47690;47691;47692;47693;47694;47695;47696;47697;47698;47699;47700;47701;47702;47703;47704;47705];
 [47706;47707;47708;47709;47710;47711;47712;47713;47714;47715;47716;47717;47718;47719;47720;47721];
 [47722;47723;47724;47725;47726;47727;47728;47729;47730;47731;47732;47733;47734;47735;47736;47737];
 [47738;47739;47740;47741;47742;47744;47745;47746;47747;47748;47749;47750;47751;47752;47753;47754];
 [47755;47756;47757;47758;47759;47760;47761;47762;47763;47764;47765;47766;47767;47768;47769;47770];
 [47771;47772;47773;47774;47775;47776;47936;47937;47938;47939;47940;47941;47942;47943;47944;47945];
 [47946;47947;47948;47949;47950;47951;47952;47953;47954;47955;47956;47957;47958;47959;47960;47961];
 [47962;47963;47964;47965;47966;47967;47968;47969;47970;47971;47972;47973;47974;47975;47976;47977];
 [47978;47979;47980;47981;47982;47983;47984;47985;47986;47987;47988;47989;47990;47991;47992;47993];
 [47994;47995;47996;47997;47998;48000;48001;48002;48003;48004;48005;48006;48007;48008;48009;48010];
 [48011;48012;48013;48014;48015;48016;48017;48018;48019;48020;48021;48022;48023;48024;48025;48026];
 [48027;48028;48029;48030;48031;48032;48192;48193;48194;48195;48196;48197;48198;48199;48200;48201];
 [48202;48203;48204;48205;48206;48207;48208;48209;48210;48211;48212;48213;48214;48215;48216;48217];
 [48218;48219;48220;48221;48222;48223;48224;48225;48226;48227;48228;48229;48230;48231;48232;48233];
 [48234;48235;48236;48237;48238;48239;48240;48241;48242;48243;48244;48245;48246;48247;48248;48249];
 [48250;48251;48252;48253;48254;48256;48257;48258;48259;48260;48261;48262;48263;48264;48265;48266];
 [48267;48268;48269;48270;48271;48272;48273;48274;48275;48276;48277;48278;48279;48280;48281;48282];
 [48283;48284;48285;48286;48287;48288;48448;48449;48450;48451;48452;48453;48454;48455;48456;48457];
 [48458;48459;48460;48461;48462;48463;48464;48465;48466;48467;48468;48469;48470;48471;48472;48473];
 [48474;48475;48476;48477;48478;48479;48480;48481;48482;48483;48484;48485;48486;48487;48488;48489];
 [48490;48491;48492;48493;48494;48495;48496;48497;48498;48499;48500;48501;48502;48503;48504;48505];
 [48506;48507;48508;48509;48510;48512;48513;48514;48515;48516;48517;48518;48519;48520;48521;48522];
 [48523;48524;48525;48526;48527;48528;48529;48530;48531;48532;48533;48534;48535;48536;48537;48538];
 [48539;48540;48541;48542;48543;48544;48704;48705;48706;48707;48708;48709;48710;48711;48712;48713];
 [48714;48715;48716;48717;48718;48719;48720;48721;48722;48723;48724;48725;48726;48727;48728;48729];
 [48730;48731;48732;48733;48734;48735;48736;48737;48738;48739;48740;48741;48742;48743;48744;48745];
 [48746;48747;48748;48749;48750;48751;48752;48753;48754;48755;48756;48757;48758;48759;48760;48761];
 [48762;48763;48764;48765;48766;48768;48769;48770;48771;48772;48773;48774;48775;48776;48777;48778];
 [48779;48780;48781;48782;48783;48784;48785;48786;48787;48788;48789;48790;48791;48792;48793;48794];
 [48795;48796;48797;48798;48799;48800;48960;48961;48962;48963;48964;48965;48966;48967;48968;48969];
 [48970;48971;48972;48973;48974;48975;48976;48977;48978;48979;48980;48981;48982;48983;48984;48985];
 [48986;48987;48988;48989;48990;48991;48992;48993;48994;48995;48996;48997;48998;48999;49000;49001];
 [49002;49003;49004;49005;49006;49007;49008;49009;49010;49011;49012;49013;49014;49015;49016;49017];
 [49018;49019;49020;49021;49022;49024;49025;49026;49027;49028;49029;49030;49031;49032;49033;49034];
 [49035;49036;49037;49038;49039;49040;49041;49042;49043;49044;49045;49046;49047;49048;49049;49050];
 [49051;49052;49053;49054;49055;49056;49216;49217;49218;49219;49220;49221;49222;49223;49224;49225];
 [49226;49227;49228;49229;49230;49231;49232;49233;49234;49235;49236;49237;49238;49239;49240;49241];
 [49242;49243;49244;49245;49246;49247;49248;49249;49250;49251;49252;49253;49254;49255;49256;49257];
 [49258;49259;49260;49261;49262;49263;49264;49265;49266;49267;49268;49269;49270;49271;49272;49273];
 [49274;49275;49276;49277;49278;49280;49281;49282;49283;49284;49285;49286;49287;49288;49289;49290];
 [49291;49292;49293;49294;49295;49296;49297;49298;49299;49300;49301;49302;49303;49304;49305;49306];
 [49307;49308;49309;49310;49311;49312;49472;49473;49474;49475;49476;49477;49478;49479;49480;49481];
 [49482;49483;49484;49485;49486;49487;49488;49489;49490;49491;49492;49493;49494;49495;49496;49497];
 [49498;49499;49500;49501;49502;49503;49504;49505;49506;49507;49508;49509;49510;49511;49512;49513];
 [49514;49515;49516;49517;49518;49519;49520;49521;49522;49523;49524;49525;49526;49527;49528;49529];
 [49530;49531;49532;49533;49534;49536;49537;49538;49539;49540;49541;49542;49543;49544;49545;49546];
 [49547;49548;49549;49550;49551;49552;49553;49554;49555;49556;49557;49558;49559;49560;49561;49562];
 [49563;49564;49565;49566;49567;49568;49728;49729;49730;49731;49732;49733;49734;49735;49736;49737];
 [49738;49739;49740;49741;49742;49743;49744;49745;49746;49747;49748;49749;49750;49751;49752;49753];
 [49754;49755;49756;49757;49758;49759;49760;49761;49762;49763;49764;49765;49766;49767;49768;49769];
 [49770;49771;49772;49773;49774;49775;49776;49777;49778;49779;49780;49781;49782;49783;49784;49785];
 [49786;49787;49788;49789;49790;49792;49793;49794;49795;49796;49797;49798;49799;49800;49801;49802];
 [49803;49804;49805;49806;49807;49808;49809;49810;49811;49812;49813;49814;49815;49816;49817;49818];
 [49819;49820;49821;49822;49823;49824;49984;49985;49986;49987;49988;49989;49990;49991;49992;49993];
 [49994;49995;49996;49997;49998;49999;50000;50001;50002;50003;50004;50005;50006;50007;50008;50009];
 [50010;50011;50012;50013;50014;50015;50016;50017;50018;50019;50020;50021;50022;50023;50024;50025];
 [50026;50027;50028;50029;50030;50031;50032;50033;50034;50035;50036;50037;50038;50039;50040;50041];
 [50042;50043;50044;50045;50046;50048;50049;50050;50051;50052;50053;50054;50055;50056;50057;50058];
 [50059;50060;50061;50062;50063;50064;50065;50066;50067;50068;50069;50070;50071;50072;50073;50074];
 [50075;50076;50077;50078;50079;50080;50240;50241;50242;50243;50244;50245;50246;50247;50248;50249];
 [50250;50251;50252;50253;50254;50255;50256;50257;50258;50259;50260;50261;50262;50263;50264;50265];
 [50266;50267;50268;50269;50270;50271;50272;50273;50274;50275;50276;50277;50278;50279;50280;50281];
 [50282;50283;50284;50285;50286;50287;50288;50289;50290;50291;50292;50293;50294;50295;50296;50297];
 [50298;50299;50300;50301;50302;50304;50305;50306;50307;50308;50309;50310;50311;50312;50313;50314];
 [50315;50316;50317;50318;50319;50320;50321;50322;50323;50324;50325;50326;50327;50328;50329;50330];
 [50331;50332;50333;50334;50335;50336;50496;50497;50498;50499;50500;50501;50502;50503;50504;50505];
 [50506;50507;50508;50509;50510;50511;50512;50513;50514;50515;50516;50517;50518;50519;50520;50521];
 [50522;50523;50524;50525;50526;50527;50528;50529;50530;50531;50532;50533;50534;50535;50536;50537];
 [50538;50539;50540;50541;50542;50543;50544;50545;50546;50547;50548;50549;50550;50551;50552;50553];
 [50554;50555;50556;50557;50558;50560;50561;50562;50563;50564;50565;50566;50567;50568;50569;50570];
 [50571;50572;50573;50574;50575;50576;50577;50578;50579;50580;50581;50582;50583;50584;50585;50586];
 [50587;50588;50589;50590;50591;50592;50752;50753;50754;50755;50756;50757;50758;50759;50760;50761];
 [50762;50763;50764;50765;50766;50767;50768;50769;50770;50771;50772;50773;50774;50775;50776;50777];
 [50778;50779;50780;50781;50782;50783;50784;50785;50786;50787;50788;50789;50790;50791;50792;50793];
 [50794;50795;50796;50797;50798;50799;50800;50801;50802;50803;50804;50805;50806;50807;50808;50809];
 [50810;50811;50812;50813;50814;50816;50817;50818;50819;50820;50821;50822;50823;50824;50825;50826];
 [50827;50828;50829;50830;50831;50832;50833;50834;50835;50836;50837;50838;50839;50840;50841;50842];
 [50843;50844;50845;50846;50847;50848;51008;51009;51010;51011;51012;51013;51014;51015;51016;51017];
 [51018;51019;51020;51021;51022;51023;51024;51025;51026;51027;51028;51029;51030;51031;51032;51033];
 [51034;51035;51036;51037;51038;51039;51040;51041;51042;51043;51044;51045;51046;51047;51048;51049];
 [51050;51051;51052;51053;51054;51055;51056;51057;51058;51059;51060;51061;51062;51063;51064;51065];
 [51066;51067;51068;51069;51070;51072;51073;51074;51075;51076;51077;51078;51079;51080;51081;51082];
 [51083;51084;51085;51086;51087;51088;51089;51090;51091;51092;51093;51094;51095;51096;51097;51098];
 [51099;51100;51101;51102;51103;51104;51264;51265;51266;51267;51268;51269;51270;51271;51272;51273];
 [51274;51275;51276;51277;51278;51279;51280;51281;51282;51283;51284;51285;51286;51287;51288;51289];
 [51290;51291;51292;51293;51294;51295;51296;51297;51298;51299;51300;51301;51302;51303;51304;51305];
 [51306;51307;51308;51309;51310;51311;51312;51313;51314;51315;51316;51317;51318;51319;51320;51321];
 [51322;51323;51324;51325;51326;51328;51329;51330;51331;51332;51333;51334;51335;51336;51337;51338];
 [51339;51340;51341;51342;51343;51344;51345;51346;51347;51348;51349;51350;51351;51352;51353;51354];
 [51355;51356;51357;51358;51359;51360;51520;51521;51522;51523;51524;51525;51526;51527;51528;51529];
 [51530;51531;51532;51533;51534;51535;51536;51537;51538;51539;51540;51541;51542;51543;51544;51545];
 [51546;51547;51548;51549;51550;51551;51552;51553;51554;51555;51556;51557;51558;51559;51560;51561];
 [51562;51563;51564;51565;51566;51567;51568;51569;51570;51571;51572;51573;51574;51575;51576;51577];
 [51578;51579;51580;51581;51582;51584;51585;51586;51587;51588;51589;51590;51591;51592;51593;51594];
 [51595;51596;51597;51598;51599;51600;51601;51602;51603;51604;51605;51606;51607;51608;51609;51610];
 [51611;51612;51613;51614;51615;51616;51776;51777;51778;51779;51780;51781;51782;51783;51784;51785];
 [51786;51787;51788;51789;51790;51791;51792;51793;51794;51795;51796;51797;51798;51799;51800;51801];
 [51802;51803;51804;51805;51806;51807;51808;51809;51810;51811;51812;51813;51814;51815;51816;51817];
 [51818;51819;51820;51821;51822;51823;51824;51825;51826;51827;51828;51829;51830;51831;51832;51833];
 [51834;51835;51836;51837;51838;51840;51841;51842;51843;51844;51845;51846;51847;51848;51849;51850];
 [51851;51852;51853;51854;51855;51856;51857;51858;51859;51860;51861;51862;51863;51864;51865;51866];
 [51867;51868;51869;51870;51871;51872;52032;52033;52034;52035;52036;52037;52038;52039;52040;52041];
 [52042;52043;52044;52045;52046;52047;52048;52049;52050;52051;52052;52053;52054;52055;52056;52057];
 [52058;52059;52060;52061;52062;52063;52064;52065;52066;52067;52068;52069;52070;52071;52072;52073];
 [52074;52075;52076;52077;52078;52079;52080;52081;52082;52083;52084;52085;52086;52087;52088;52089];
 [52090;52091;52092;52093;52094;52096;52097;52098;52099;52100;52101;52102;52103;52104;52105;52106];
 [52107;52108;52109;52110;52111;52112;52113;52114;52115;52116;52117;52118;52119;52120;52121;52122];
 [52123;52124;52125;52126;52127;52128;52288;52289;52290;52291;52292;52293;52294;52295;52296;52297];
 [52298;52299;52300;52301;52302;52303;52304;52305;52306;52307;52308;52309;52310;52311;52312;52313];
 [52314;52315;52316;52317;52318;52319;52320;52321;52322;52323;52324;52325;52326;52327;52328;52329];
 [52330;52331;52332;52333;52334;52335;52336;52337;52338;52339;52340;52341;52342;52343;52344;52345];
 [52346;52347;52348;52349;52350;52352;52353;52354;52355;52356;52357;52358;52359;52360;52361;52362];
 [52363;52364;52365;52366;52367;52368;52369;52370;52371;52372;52373;52374;52375;52376;52377;52378];
 [52379;52380;52381;52382;52383;52384;52544;52545;52546;52547;52548;52549;52550;52551;52552;52553];
 [52554;52555;52556;52557;52558;52559;52560;52561;52562;52563;52564;52565;52566;52567;52568;52569];
 [52570;52571;52572;52573;52574;52575;52576;52577;52578;52579;52580;52581;52582;52583;52584;52585];
 [52586;52587;52588;52589;52590;52591;52592;52593;52594;52595;52596;52597;52598;52599;52600;52601];
 [52602;52603;52604;52605;52606;52608;52609;52610;52611;52612;52613;52614;52615;52616;52617;52618];
 [52619;52620;52621;52622;52623;52624;52625;52626;52627;52628;52629;52630;52631;52632;52633;52634];
 [52635;52636;52637;52638;52639;52640;52800;52801;52802;52803;52804;52805;52806;52807;52808;52809];
 [52810;52811;52812;52813;52814;52815;52816;52817;52818;52819;52820;52821;52822;52823;52824;52825];
 [52826;52827;52828;52829;52830;52831;52832;52833;52834;52835;52836;52837;52838;52839;52840;52841];
 [52842;52843;52844;52845;52846;52847;52848;52849;52850;52851;52852;52853;52854;52855;52856;52857];
 [52858;52859;52860;52861;52862;52864;52865;52866;52867;52868;52869;52870;52871;52872;52873;52874];
 [52875;52876;52877;52878;52879;52880;52881;52882;52883;52884;52885;52886;52887;52888;52889;52890];
 [52891;52892;52893;52894;52895;52896;53056;53057;53058;53059;53060;53061;53062;53063;53064;53065];
 [53066;53067;53068;53069;53070;53071;53072;53073;53074;53075;53076;53077;53078;53079;53080;53081];
 [53082;53083;53084;53085;53086;53087;53088;53089;53090;53091;53092;53093;53094;53095;53096;53097];
 [53098;53099;53100;53101;53102;53103;53104;53105;53106;53107;53108;53109;53110;53111;53112;53113];
 [53114;53115;53116;53117;53118;53120;53121;53122;53123;53124;53125;53126;53127;53128;53129;53130];
 [53131;53132;53133;53134;53135;53136;53137;53138;53139;53140;53141;53142;53143;53144;53145;53146];
 [53147;53148;53149;53150;53151;53152;53312;53313;53314;53315;53316;53317;53318;53319;53320;53321];
 [53322;53323;53324;53325;53326;53327;53328;53329;53330;53331;53332;53333;53334;53335;53336;53337];
 [53338;53339;53340;53341;53342;53343;53344;53345;53346;53347;53348;53349;53350;53351;53352;53353];
 [53354;53355;53356;53357;53358;53359;53360;53361;53362;53363;53364;53365;53366;53367;53368;53369];
 [53370;53371;53372;53373;53374;53376;53377;53378;53379;53380;53381;53382;53383;53384;53385;53386];
 [53387;53388;53389;53390;53391;53392;53393;53394;53395;53396;53397;53398;53399;53400;53401;53402];
 [53403;53404;53405;53406;53407;53408;53568;53569;53570;53571;53572;53573;53574;53575;53576;53577];
 [53578;53579;53580;53581;53582;53583;53584;53585;53586;53587;53588;53589;53590;53591;53592;53593];
 [53594;53595;53596;53597;53598;53599;53600;53601;53602;53603;53604;53605;53606;53607;53608;53609];
 [53610;53611;53612;53613;53614;53615;53616;53617;53618;53619;53620;53621;53622;53623;53624;53625];
 [53626;53627;53628;53629;53630;53632;53633;53634;53635;53636;53637;53638;53639;53640;53641;53642];
 [53643;53644;53645;53646;53647;53648;53649;53650;53651;53652;53653;53654;53655;53656;53657;53658];
 [53659;53660;53661;53662;53663;53664;53824;53825;53826;53827;53828;53829;53830;53831;53832;53833];
 [53834;53835;53836;53837;53838;53839;53840;53841;53842;53843;53844;53845;53846;53847;53848;53849];
 [53850;53851;53852;53853;53854;53855;53856;53857;53858;53859;53860;53861;53862;53863;53864;53865];
 [53866;53867;53868;53869;53870;53871;53872;53873;53874;53875;53876;53877;53878;53879;53880;53881];
 [53882;53883;53884;53885;53886;53888;53889;53890;53891;53892;53893;53894;53895;53896;53897;53898];
 [53899;53900;53901;53902;53903;53904;53905;53906;53907;53908;53909;53910;53911;53912;53913;53914];
 [53915;53916;53917;53918;53919;53920;54080;54081;54082;54083;54084;54085;54086;54087;54088;54089];
 [54090;54091;54092;54093;54094;54095;54096;54097;54098;54099;54100;54101;54102;54103;54104;54105];
 [54106;54107;54108;54109;54110;54111;54112;54113;54114;54115;54116;54117;54118;54119;54120;54121];
 [54122;54123;54124;54125;54126;54127;54128;54129;54130;54131;54132;54133;54134;54135;54136;54137];
 [54138;54139;54140;54141;54142;54144;54145;54146;54147;54148;54149;54150;54151;54152;54153;54154];
 [54155;54156;54157;54158;54159;54160;54161;54162;54163;54164;54165;54166;54167;54168;54169;54170];
 [54171;54172;54173;54174;54175;54176;54336;54337;54338;54339;54340;54341;54342;54343;54344;54345];
 [54346;54347;54348;54349;54350;54351;54352;54353;54354;54355;54356;54357;54358;54359;54360;54361];
 [54362;54363;54364;54365;54366;54367;54368;54369;54370;54371;54372;54373;54374;54375;54376;54377];
 [54378;54379;54380;54381;54382;54383;54384;54385;54386;54387;54388;54389;54390;54391;54392;54393];
 [54394;54395;54396;54397;54398;54400;54401;54402;54403;54404;54405;54406;54407;54408;54409;54410];
 [54411;54412;54413;54414;54415;54416;54417;54418;54419;54420;54421;54422;54423;54424;54425;54426];
 [54427;54428;54429;54430;54431;54432;54592;54593;54594;54595;54596;54597;54598;54599;54600;54601];
 [54602;54603;54604;54605;54606;54607;54608;54609;54610;54611;54612;54613;54614;54615;54616;54617];
 [54618;54619;54620;54621;54622;54623;54624;54625;54626;54627;54628;54629;54630;54631;54632;54633];
 [54634;54635;54636;54637;54638;54639;54640;54641;54642;54643;54644;54645;54646;54647;54648;54649];
 [54650;54651;54652;54653;54654;54656;54657;54658;54659;54660;54661;54662;54663;54664;54665;54666];
 [54667;54668;54669;54670;54671;54672;54673;54674;54675;54676;54677;54678;54679;54680;54681;54682];
 [54683;54684;54685;54686;54687;54688;54848;54849;54850;54851;54852;54853;54854;54855;54856;54857];
 [54858;54859;54860;54861;54862;54863;54864;54865;54866;54867;54868;54869;54870;54871;54872;54873];
 [54874;54875;54876;54877;54878;54879;54880;54881;54882;54883;54884;54885;54886;54887;54888;54889];
 [54890;54891;54892;54893;54894;54895;54896;54897;54898;54899;54900;54901;54902;54903;54904;54905];
 [54906;54907;54908;54909;54910;54912;54913;54914;54915;54916;54917;54918;54919;54920;54921;54922];
 [54923;54924;54925;54926;54927;54928;54929;54930;54931;54932;54933;54934;54935;54936;54937;54938];
 [54939;54940;54941;54942;54943;54944;55104;55105;55106;55107;55108;55109;55110;55111;55112;55113];
 [55114;55115;55116;55117;55118;55119;55120;55121;55122;55123;55124;55125;55126;55127;55128;55129];
 [55130;55131;55132;55133;55134;55135;55136;55137;55138;55139;55140;55141;55142;55143;55144;55145];
 [55146;55147;55148;55149;55150;55151;55152;55153;55154;55155;55156;55157;55158;55159;55160;55161];
 [55162;55163;55164;55165;55166;55168;55169;55170;55171;55172;55173;55174;55175;55176;55177;55178];
 [55179;55180;55181;55182;55183;55184;55185;55186;55187;55188;55189;55190;55191;55192;55193;55194];
 [55195;55196;55197;55198;55199;55200;55360;55361;55362;55363;55364;55365;55366;55367;55368;55369];
 [55370;55371;55372;55373;55374;55375;55376;55377;55378;55379;55380;55381;55382;55383;55384;55385];
 [55386;55387;55388;55389;55390;55391;55392;55393;55394;55395;55396;55397;55398;55399;55400;55401];
 [55402;55403;55404;55405;55406;55407;55408;55409;55410;55411;55412;55413;55414;55415;55416;55417];
 [55418;55419;55420;55421;55422;55424;55425;55426;55427;55428;55429;55430;55431;55432;55433;55434];
 [55435;55436;55437;55438;55439;55440;55441;55442;55443;55444;55445;55446;55447;55448;55449;55450];
 [55451;55452;55453;55454;55455;55456;55616;55617;55618;55619;55620;55621;55622;55623;55624;55625];
 [55626;55627;55628;55629;55630;55631;55632;55633;55634;55635;55636;55637;55638;55639;55640;55641];
 [55642;55643;55644;55645;55646;55647;55648;55649;55650;55651;55652;55653;55654;55655;55656;55657];
 [55658;55659;55660;55661;55662;55663;55664;55665;55666;55667;55668;55669;55670;55671;55672;55673];
 [55674;55675;55676;55677;55678;55680;55681;55682;55683;55684;55685;55686;55687;55688;55689;55690];
 [55691;55692;55693;55694;55695;55696;55697;55698;55699;55700;55701;55702;55703;55704;55705;55706];
 [55707;55708;55709;55710;55711;55712;55872;55873;55874;55875;55876;55877;55878;55879;55880;55881];
 [55882;55883;55884;55885;55886;55887;55888;55889;55890;55891;55892;55893;55894;55895;55896;55897];
 [55898;55899;55900;55901;55902;55903;55904;55905;55906;55907;55908;55909;55910;55911;55912;55913];
 [55914;55915;55916;55917;55918;55919;55920;55921;55922;55923;55924;55925;55926;55927;55928;55929];
 [55930;55931;55932;55933;55934;55936;55937;55938;55939;55940;55941;55942;55943;55944;55945;55946];
 [55947;55948;55949;55950;55951;55952;55953;55954;55955;55956;55957;55958;55959;55960;55961;55962];
 [55963;55964;55965;55966;55967;55968;56128;56129;56130;56131;56132;56133;56134;56135;56136;56137];
 [56138;56139;56140;56141;56142;56143;56144;56145;56146;56147;56148;56149;56150;56151;56152;56153];
 [56154;56155;56156;56157;56158;56159;56160;56161;56162;56163;56164;56165;56166;56167;56168;56169];
 [56170;56171;56172;56173;56174;56175;56176;56177;56178;56179;56180;56181;56182;56183;56184;56185];
 [56186;56187;56188;56189;56190;56192;56193;56194;56195;56196;56197;56198;56199;56200;56201;56202];
 [56203;56204;56205;56206;56207;56208;56209;56210;56211;56212;56213;56214;56215;56216;56217;56218];
 [56219;56220;56221;56222;56223;56224;56384;56385;56386;56387;56388;56389;56390;56391;56392;56393];
 [56394;56395;56396;56397;56398;56399;56400;56401;56402;56403;56404;56405;56406;56407;56408;56409];
 [56410;56411;56412;56413;56414;56415;56416;56417;56418;56419;56420;56421;56422;56423;56424;56425];
 [56426;56427;56428;56429;56430;56431;56432;56433;56434;56435;56436;56437;56438;56439;56440;56441];
 [56442;56443;56444;56445;56446;56448;56449;56450;56451;56452;56453;56454;56455;56456;56457;56458];
 [56459;56460;56461;56462;56463;56464;56465;56466;56467;56468;56469;56470;56471;56472;56473;56474];
 [56475;56476;56477;56478;56479;56480;56640;56641;56642;56643;56644;56645;56646;56647;56648;56649];
 [56650;56651;56652;56653;56654;56655;56656;56657;56658;56659;56660;56661;56662;56663;56664;56665];
 [56666;56667;56668;56669;56670;56671;56672;56673;56674;56675;56676;56677;56678;56679;56680;56681];
 [56682;56683;56684;56685;56686;56687;56688;56689;56690;56691;56692;56693;56694;56695;56696;56697];
 [56698;56699;56700;56701;56702;56704;56705;56706;56707;56708;56709;56710;56711;56712;56713;56714];
 [56715;56716;56717;56718;56719;56720;56721;56722;56723;56724;56725;56726;56727;56728;56729;56730];
 [56731;56732;56733;56734;56735;56736;56896;56897;56898;56899;56900;56901;56902;56903;56904;56905];
 [56906;56907;56908;56909;56910;56911;56912;56913;56914;56915;56916;56917;56918;56919;56920;56921];
 [56922;56923;56924;56925;56926;56927;56928;56929;56930;56931;56932;56933;56934;56935;56936;56937];
 [56938;56939;56940;56941;56942;56943;56944;56945;56946;56947;56948;56949;56950;56951;56952;56953];
 [56954;56955;56956;56957;56958;56960;56961;56962;56963;56964;56965;56966;56967;56968;56969;56970];
 [56971;56972;56973;56974;56975;56976;56977;56978;56979;56980;56981;56982;56983;56984;56985;56986];
 [56987;56988;56989;56990;56991;56992;57152;57153;57154;57155;57156;57157;57158;57159;57160;57161];
 [57162;57163;57164;57165;57166;57167;57168;57169;57170;57171;57172;57173;57174;57175;57176;57177];
 [57178;57179;57180;57181;57182;57183;57184;57185;57186;57187;57188;57189;57190;57191;57192;57193];
 [57194;57195;57196;57197;57198;57199;57200;57201;57202;57203;57204;57205;57206;57207;57208;57209];
 [57210;57211;57212;57213;57214;57216;57217;57218;57219;57220;57221;57222;57223;57224;57225;57226];
 [57227;57228;57229;57230;57231;57232;57233;57234;57235;57236;57237;57238;57239;57240;57241;57242];
 [57243;57244;57245;57246;57247;57248;57408;57409;57410;57411;57412;57413;57414;57415;57416;57417];
 [57418;57419;57420;57421;57422;57423;57424;57425;57426;57427;57428;57429;57430;57431;57432;57433];
 [57434;57435;57436;57437;57438;57439;57440;57441;57442;57443;57444;57445;57446;57447;57448;57449];
 [57450;57451;57452;57453;57454;57455;57456;57457;57458;57459;57460;57461;57462;57463;57464;57465];
 [57466;57467;57468;57469;57470;57472;57473;57474;57475;57476;57477;57478;57479;57480;57481;57482];
 [57483;57484;57485;57486;57487;57488;57489;57490;57491;57492;57493;57494;57495;57496;57497;57498];
 [57499;57500;57501;57502;57503;57504;57664;57665;57666;57667;57668;57669;57670;57671;57672;57673];
 [57674;57675;57676;57677;57678;57679;57680;57681;57682;57683;57684;57685;57686;57687;57688;57689];
 [57690;57691;57692;57693;57694;57695;57696;57697;57698;57699;57700;57701;57702;57703;57704;57705];
 [57706;57707;57708;57709;57710;57711;57712;57713;57714;57715;57716;57717;57718;57719;57720;57721];
 [57722;57723;57724;57725;57726;57728;57729;57730;57731;57732;57733;57734;57735;57736;57737;57738];
 [57739;57740;57741;57742;57743;57744;57745;57746;57747;57748;57749;57750;57751;57752;57753;57754];
 [57755;57756;57757;57758;57759;57760;57920;57921;57922;57923;57924;57925;57926;57927;57928;57929];
 [57930;57931;57932;57933;57934;57935;57936;57937;57938;57939;57940;57941;57942;57943;57944;57945];
 [57946;57947;57948;57949;57950;57951;57952;57953;57954;57955;57956;57957;57958;57959;57960;57961];
 [57962;57963;57964;57965;57966;57967;57968;57969;57970;57971;57972;57973;57974;57975;57976;57977];
 [57978;57979;57980;57981;57982;57984;57985;57986;57987;57988;57989;57990;57991;57992;57993;57994];
 [57995;57996;57997;57998;57999;58000;58001;58002;58003;58004;58005;58006;58007;58008;58009;58010];
 [58011;58012;58013;58014;58015;58016;58176;58177;58178;58179;58180;58181;58182;58183;58184;58185];
 [58186;58187;58188;58189;58190;58191;58192;58193;58194;58195;58196;58197;58198;58199;58200;58201];
 [58202;58203;58204;58205;58206;58207;58208;58209;58210;58211;58212;58213;58214;58215;58216;58217];
 [58218;58219;58220;58221;58222;58223;58224;58225;58226;58227;58228;58229;58230;58231;58232;58233];
 [58234;58235;58236;58237;58238;58240;58241;58242;58243;58244;58245;58246;58247;58248;58249;58250];
 [58251;58252;58253;58254;58255;58256;58257;58258;58259;58260;58261;58262;58263;58264;58265;58266];
 [58267;58268;58269;58270;58271;58272;58432;58433;58434;58435;58436;58437;58438;58439;58440;58441];
 [58442;58443;58444;58445;58446;58447;58448;58449;58450;58451;58452;58453;58454;58455;58456;58457];
 [58458;58459;58460;58461;58462;58463;58464;58465;58466;58467;58468;58469;58470;58471;58472;58473];
 [58474;58475;58476;58477;58478;58479;58480;58481;58482;58483;58484;58485;58486;58487;58488;58489];
 [58490;58491;58492;58493;58494;58496;58497;58498;58499;58500;58501;58502;58503;58504;58505;58506];
 [58507;58508;58509;58510;58511;58512;58513;58514;58515;58516;58517;58518;58519;58520;58521;58522];
 [58523;58524;58525;58526;58527;58528;58688;58689;58690;58691;58692;58693;58694;58695;58696;58697];
 [58698;58699;58700;58701;58702;58703;58704;58705;58706;58707;58708;58709;58710;58711;58712;58713];
 [58714;58715;58716;58717;58718;58719;58720;58721;58722;58723;58724;58725;58726;58727;58728;58729];
 [58730;58731;58732;58733;58734;58735;58736;58737;58738;58739;58740;58741;58742;58743;58744;58745];
 [58746;58747;58748;58749;58750;58752;58753;58754;58755;58756;58757;58758;58759;58760;58761;58762];
 [58763;58764;58765;58766;58767;58768;58769;58770;58771;58772;58773;58774;58775;58776;58777;58778];
 [58779;58780;58781;58782;58783;58784;58944;58945;58946;58947;58948;58949;58950;58951;58952;58953];
 [58954;58955;58956;58957;58958;58959;58960;58961;58962;58963;58964;58965;58966;58967;58968;58969];
 [58970;58971;58972;58973;58974;58975;58976;58977;58978;58979;58980;58981;58982;58983;58984;58985];
 [58986;58987;58988;58989;58990;58991;58992;58993;58994;58995;58996;58997;58998;58999;59000;59001];
 [59002;59003;59004;59005;59006;59008;59009;59010;59011;59012;59013;59014;59015;59016;59017;59018];
 [59019;59020;59021;59022;59023;59024;59025;59026;59027;59028;59029;59030;59031;59032;59033;59034];
 [59035;59036;59037;59038;59039;59040;59200;59201;59202;59203;59204;59205;59206;59207;59208;59209];
 [59210;59211;59212;59213;59214;59215;59216;59217;59218;59219;59220;59221;59222;59223;59224;59225];
 [59226;59227;59228;59229;59230;59231;59232;59233;59234;59235;59236;59237;59238;59239;59240;59241];
 [59242;59243;59244;59245;59246;59247;59248;59249;59250;59251;59252;59253;59254;59255;59256;59257];
 [59258;59259;59260;59261;59262;59264;59265;59266;59267;59268;59269;59270;59271;59272;59273;59274];
 [59275;59276;59277;59278;59279;59280;59281;59282;59283;59284;59285;59286;59287;59288;59289;59290];
 [59291;59292;59293;59294;59295;59296;59456;59457;59458;59459;59460;59461;59462;59463;59464;59465];
 [59466;59467;59468;59469;59470;59471;59472;59473;59474;59475;59476;59477;59478;59479;59480;59481];
 [59482;59483;59484;59485;59486;59487;59488;59489;59490;59491;59492;59493;59494;59495;59496;59497];
 [59498;59499;59500;59501;59502;59503;59504;59505;59506;59507;59508;59509;59510;59511;59512;59513];
 [59514;59515;59516;59517;59518;59520;59521;59522;59523;59524;59525;59526;59527;59528;59529;59530];
 [59531;59532;59533;59534;59535;59536;59537;59538;59539;59540;59541;59542;59543;59544;59545;59546];
 [59547;59548;59549;59550;59551;59552;59712;59713;59714;59715;59716;59717;59718;59719;59720;59721];
 [59722;59723;59724;59725;59726;59727;59728;59729;59730;59731;59732;59733;59734;59735;59736;59737];
 [59738;59739;59740;59741;59742;59743;59744;59745;59746;59747;59748;59749;59750;59751;59752;59753];
 [59754;59755;59756;59757;59758;59759;59760;59761;59762;59763;59764;59765;59766;59767;59768;59769];
 [59770;59771;59772;59773;59774;59776;59777;59778;59779;59780;59781;59782;59783;59784;59785;59786];
 [59787;59788;59789;59790;59791;59792;59793;59794;59795;59796;59797;59798;59799;59800;59801;59802];
 [59803;59804;59805;59806;59807;59808;59968;59969;59970;59971;59972;59973;59974;59975;59976;59977];
 [59978;59979;59980;59981;59982;59983;59984;59985;59986;59987;59988;59989;59990;59991;59992;59993];
 [59994;59995;59996;59997;59998;59999;60000;60001;60002;60003;60004;60005;60006;60007;60008;60009];
 [60010;60011;60012;60013;60014;60015;60016;60017;60018;60019;60020;60021;60022;60023;60024;60025];
 [60026;60027;60028;60029;60030;60032;60033;60034;60035;60036;60037;60038;60039;60040;60041;60042];
 [60043;60044;60045;60046;60047;60048;60049;60050;60051;60052;60053;60054;60055;60056;60057;60058];
 [60059;60060;60061;60062;60063;60064;60224;60225;60226;60227;60228;60229;60230;60231;60232;60233];
 [60234;60235;60236;60237;60238;60239;60240;60241;60242;60243;60244;60245;60246;60247;60248;60249];
 [60250;60251;60252;60253;60254;60255;60256;60257;60258;60259;60260;60261;60262;60263;60264;60265];
 [60266;60267;60268;60269;60270;60271;60272;60273;60274;60275;60276;60277;60278;60279;60280;60281];
 [60282;60283;60284;60285;60286;60288;60289;60290;60291;60292;60293;60294;60295;60296;60297;60298];
 [60299;60300;60301;60302;60303;60304;60305;60306;60307;60308;60309;60310;60311;60312;60313;60314];
 [60315;60316;60317;60318;60319;60320;60480;60481;60482;60483;60484;60485;60486;60487;60488;60489];
 [60490;60491;60492;60493;60494;60495;60496;60497;60498;60499;60500;60501;60502;60503;60504;60505];
 [60506;60507;60508;60509;60510;60511;60512;60513;60514;60515;60516;60517;60518;60519;60520;60521];
 [60522;60523;60524;60525;60526;60527;60528;60529;60530;60531;60532;60533;60534;60535;60536;60537];
 [60538;60539;60540;60541;60542;60544;60545;60546;60547;60548;60549;60550;60551;60552;60553;60554];
 [60555;60556;60557;60558;60559;60560;60561;60562;60563;60564;60565;60566;60567;60568;60569;60570];
 [60571;60572;60573;60574;60575;60576;60736;60737;60738;60739;60740;60741;60742;60743;60744;60745];
 [60746;60747;60748;60749;60750;60751;60752;60753;60754;60755;60756;60757;60758;60759;60760;60761];
 [60762;60763;60764;60765;60766;60767;60768;60769;60770;60771;60772;60773;60774;60775;60776;60777];
 [60778;60779;60780;60781;60782;60783;60784;60785;60786;60787;60788;60789;60790;60791;60792;60793];
 [60794;60795;60796;60797;60798;60800;60801;60802;60803;60804;60805;60806;60807;60808;60809;60810];
 [60811;60812;60813;60814;60815;60816;60817;60818;60819;60820;60821;60822;60823;60824;60825;60826];
 [60827;60828;60829;60830;60831;60832;60992;60993;60994;60995;60996;60997;60998;60999;61000;61001];
 [61002;61003;61004;61005;61006;61007;61008;61009;61010;61011;61012;61013;61014;61015;61016;61017];
 [61018;61019;61020;61021;61022;61023;61024;61025;61026;61027;61028;61029;61030;61031;61032;61033];
 [61034;61035;61036;61037;61038;61039;61040;61041;61042;61043;61044;61045;61046;61047;61048;61049];
 [61050;61051;61052;61053;61054;61056;61057;61058;61059;61060;61061;61062;61063;61064;61065;61066];
 [61067;61068;61069;61070;61071;61072;61073;61074;61075;61076;61077;61078;61079;61080;61081;61082];
 [61083;61084;61085;61086;61087;61088;61248;61249;61250;61251;61252;61253;61254;61255;61256;61257];
 [61258;61259;61260;61261;61262;61263;61264;61265;61266;61267;61268;61269;61270;61271;61272;61273];
 [61274;61275;61276;61277;61278;61279;61280;61281;61282;61283;61284;61285;61286;61287;61288;61289];
 [61290;61291;61292;61293;61294;61295;61296;61297;61298;61299;61300;61301;61302;61303;61304;61305];
 [61306;61307;61308;61309;61310;61312;61313;61314;61315;61316;61317;61318;61319;61320;61321;61322];
 [61323;61324;61325;61326;61327;61328;61329;61330;61331;61332;61333;61334;61335;61336;61337;61338];
 [61339;61340;61341;61342;61343;61344;61504;61505;61506;61507;61508;61509;61510;61511;61512;61513];
 [61514;61515;61516;61517;61518;61519;61520;61521;61522;61523;61524;61525;61526;61527;61528;61529];
 [61530;61531;61532;61533;61534;61535;61536;61537;61538;61539;61540;61541;61542;61543;61544;61545];
 [61546;61547;61548;61549;61550;61551;61552;61553;61554;61555;61556;61557;61558;61559;61560;61561];
 [61562;61563;61564;61565;61566;61568;61569;61570;61571;61572;61573;61574;61575;61576;61577;61578];
 [61579;61580;61581;61582;61583;61584;61585;61586;61587;61588;61589;61590;61591;61592;61593;61594];
 [61595;61596;61597;61598;61599;61600;61760;61761;61762;61763;61764;61765;61766;61767;61768;61769];
 [61770;61771;61772;61773;61774;61775;61776;61777;61778;61779;61780;61781;61782;61783;61784;61785];
 [61786;61787;61788;61789;61790;61791;61792;61793;61794;61795;61796;61797;61798;61799;61800;61801];
 [61802;61803;61804;61805;61806;61807;61808;61809;61810;61811;61812;61813;61814;61815;61816;61817];
 [61818;61819;61820;61821;61822;61824;61825;61826;61827;61828;61829;61830;61831;61832;61833;61834];
 [61835;61836;61837;61838;61839;61840;61841;61842;61843;61844;61845;61846;61847;61848;61849;61850];
 [61851;61852;61853;61854;61855;61856;62016;62017;62018;62019;62020;62021;62022;62023;62024;62025];
 [62026;62027;62028;62029;62030;62031;62032;62033;62034;62035;62036;62037;62038;62039;62040;62041];
 [62042;62043;62044;62045;62046;62047;62048;62049;62050;62051;62052;62053;62054;62055;62056;62057];
 [62058;62059;62060;62061;62062;62063;62064;62065;62066;62067;62068;62069;62070;62071;62072;62073];
 [62074;62075;62076;62077;62078;62080;62081;62082;62083;62084;62085;62086;62087;62088;62089;62090];
 [62091;62092;62093;62094;62095;62096;62097;62098;62099;62100;62101;62102;62103;62104;62105;62106];
 [62107;62108;62109;62110;62111;62112;62272;62273;62274;62275;62276;62277;62278;62279;62280;62281];
 [62282;62283;62284;62285;62286;62287;62288;62289;62290;62291;62292;62293;62294;62295;62296;62297];
 [62298;62299;62300;62301;62302;62303;62304;62305;62306;62307;62308;62309;62310;62311;62312;62313];
 [62314;62315;62316;62317;62318;62319;62320;62321;62322;62323;62324;62325;62326;62327;62328;62329];
 [62330;62331;62332;62333;62334;62336;62337;62338;62339;62340;62341;62342;62343;62344;62345;62346];
 [62347;62348;62349;62350;62351;62352;62353;62354;62355;62356;62357;62358;62359;62360;62361;62362];
 [62363;62364;62365;62366;62367;62368;62528;62529;62530;62531;62532;62533;62534;62535;62536;62537];
 [62538;62539;62540;62541;62542;62543;62544;62545;62546;62547;62548;62549;62550;62551;62552;62553];
 [62554;62555;62556;62557;62558;62559;62560;62561;62562;62563;62564;62565;62566;62567;62568;62569];
 [62570;62571;62572;62573;62574;62575;62576;62577;62578;62579;62580;62581;62582;62583;62584;62585];
 [62586;62587;62588;62589;62590;62592;62593;62594;62595;62596;62597;62598;62599;62600;62601;62602];
 [62603;62604;62605;62606;62607;62608;62609;62610;62611;62612;62613;62614;62615;62616;62617;62618];
 [62619;62620;62621;62622;62623;62624;62784;62785;62786;62787;62788;62789;62790;62791;62792;62793];
 [62794;62795;62796;62797;62798;62799;62800;62801;62802;62803;62804;62805;62806;62807;62808;62809];
 [62810;62811;62812;62813;62814;62815;62816;62817;62818;62819;62820;62821;62822;62823;62824;62825];
 [62826;62827;62828;62829;62830;62831;62832;62833;62834;62835;62836;62837;62838;62839;62840;62841];
 [62842;62843;62844;62845;62846;62848;62849;62850;62851;62852;62853;62854;62855;62856;62857;62858];
 [62859;62860;62861;62862;62863;62864;62865;62866;62867;62868;62869;62870;62871;62872;62873;62874];
 [62875;62876;62877;62878;62879;62880;63040;63041;63042;63043;63044;63045;63046;63047;63048;63049];
 [63050;63051;63052;63053;63054;63055;63056;63057;63058;63059;63060;63061;63062;63063;63064;63065];
 [63066;63067;63068;63069;63070;63071;63072;63073;63074;63075;63076;63077;63078;63079;63080;63081];
 [63082;63083;63084;63085;63086;63087;63088;63089;63090;63091;63092;63093;63094;63095;63096;63097];
 [63098;63099;63100;63101;63102;63104;63105;63106;63107;63108;63109;63110;63111;63112;63113;63114];
 [63115;63116;63117;63118;63119;63120;63121;63122;63123;63124;63125;63126;63127;63128;63129;63130];
 [63131;63132;63133;63134;63135;63136;63296;63297;63298;63299;63300;63301;63302;63303;63304;63305];
 [63306;63307;63308;63309;63310;63311;63312;63313;63314;63315;63316;63317;63318;63319;63320;63321];
 [63322;63323;63324;63325;63326;63327;63328;63329;63330;63331;63332;63333;63334;63335;63336;63337];
 [63338;63339;63340;63341;63342;63343;63344;63345;63346;63347;63348;63349;63350;63351;63352;63353];
 [63354;63355;63356;63357;63358;63360;63361;63362;63363;63364;63365;63366;63367;63368;63369;63370];
 [63371;63372;63373;63374;63375;63376;63377;63378;63379;63380;63381;63382;63383;63384;63385;63386];
 [63387;63388;63389;63390;63391;63392;63552;63553;63554;63555;63556;63557;63558;63559;63560;63561];
 [63562;63563;63564;63565;63566;63567;63568;63569;63570;63571;63572;63573;63574;63575;63576;63577];
 [63578;63579;63580;63581;63582;63583;63584;63585;63586;63587;63588;63589;63590;63591;63592;63593];
 [63594;63595;63596;63597;63598;63599;63600;63601;63602;63603;63604;63605;63606;63607;63608;63609];
 [63610;63611;63612;63613;63614;63616;63617;63618;63619;63620;63621;63622;63623;63624;63625;63626];
 [63627;63628;63629;63630;63631;63632;63633;63634;63635;63636;63637;63638;63639;63640;63641;63642];
 [63643;63644;63645;63646;63647;63648;63808;63809;63810;63811;63812;63813;63814;63815;63816;63817];
 [63818;63819;63820;63821;63822;63823;63824;63825;63826;63827;63828;63829;63830;63831;63832;63833];
 [63834;63835;63836;63837;63838;63839;63840;63841;63842;63843;63844;63845;63846;63847;63848;63849];
 [63850;63851;63852;63853;63854;63855;63856;63857;63858;63859;63860;63861;63862;63863;63864;63865];
 [63866;63867;63868;63869;63870;63872;63873;63874;63875;63876;63877;63878;63879;63880;63881;63882];
 [63883;63884;63885;63886;63887;63888;63889;63890;63891;63892;63893;63894;63895;63896;63897;63898];
 [63899;63900;63901;63902;63903;63904;64064;64065;64066;64067;64068;64069;64070;64071;64072;64073];
 [64074;64075;64076;64077;64078;64079;64080;64081;64082;64083;64084;64085;64086;64087;64088;64089];
 [64090;64091;64092;64093;64094;64095;64096;64097;64098;64099;64100;64101;64102;64103;64104;64105];
 [64106;64107;64108;64109;64110;64111;64112;64113;64114;64115;64116;64117;64118;64119;64120;64121];
 [64122;64123;64124;64125;64126;64128;64129;64130;64131;64132;64133;64134;64135;64136;64137;64138];
 [64139;64140;64141;64142;64143;64144;64145;64146;64147;64148;64149;64150;64151;64152;64153;64154];
 [64155;64156;64157;64158;64159;64160;64320;64321;64322;64323;64324;64325;64326;64327;64328;64329];
 [64330;64331;64332;64333;64334;64335;64336;64337;64338;64339;64340;64341;64342;64343;64344;64345];
 [64346;64347;64348;64349;64350;64351;64352;64353;64354;64355;64356;64357;64358;64359;64360;64361];
 [64362;64363;64364;64365;64366;64367;64368;64369;64370;64371;64372;64373;64374;64375;64376;64377];
 [64378;64379;64380;64381;64382;64384;64385;64386;64387;64388;64389;64390;64391;64392;64393;64394];
 [64395;64396;64397;64398;64399;64400;64401;64402;64403;64404;64405;64406;64407;64408;64409;64410];
 [64411;64412;64413;64414;64415;64416;64576;64577;64578;64579;64580;64581;64582;64583;64584;64585];
 [64586;64587;64588;64589;64590;64591;64592;64593;64594;64595;64596;64597;64598;64599;64600;64601];
 [64602;64603;64604;64605;64606;64607;64608;64609;64610;64611;64612;64613;64614;64615;64616;64617];
 [64618;64619;64620;64621;64622;64623;64624;64625;64626;64627;64628;64629;64630;64631;64632;64633];
 [64634;64635;64636;64637;64638;64640;64641;64642;64643;64644;64645;64646;64647;64648;64649;64650];
 [64651;64652;64653;64654;64655;64656;64657;64658;64659;64660;64661;64662;64663;64664;64665;64666];
 [64667;64668;64669;64670;64671;64672;64832;64833;64834;64835;64836;64837;64838;64839;64840;64841];
 [64842;64843;64844;64845;64846;64847;64848;64849;64850;64851;64852;64853;64854;64855;64856;64857];
 [64858;64859;64860;64861;64862;64863;64864;64865;64866;64867;64868;64869;64870;64871;64872;64873];
 [64874;64875;64876;64877;64878;64879;64880;64881;64882;64883;64884;64885;64886;64887;64888;64889];
 [64890;64891;64892;64893;64894;64896;64897;64898;64899;64900;64901;64902;64903;64904;64905;64906];
 [64907;64908;64909;64910;64911;64912;64913;64914;64915;64916;64917;64918;64919;64920;64921;64922];
 [64923;64924;64925;64926;64927;64928;65088;65089;65090;65091;65092;65093;65094;65095;65096;65097];
 [65098;65099;65100;65101;65102;65103;43349;43368;43369;43370;43371;43372;43373;43374;43375;43376];
 [43377;43378;43379;43380;43381;43382;43383;43384;43385;43386;43387;43388;43389;43390;43392;43393];
 [43394;43395;43396;43397;43398;43399;43400;43350;43351]].

(* lib/converters/gbkext_inv.h:1823-1829 gbkext_inv_uni2indx_page02 (flattened, 2 fields per entry) *)
Definition gbkext_inv_uni2indx_page02 : tab := mk [
 [0;0;0;0;0;0;0;0;0;0;0;0;0;0;0;0];
 [0;0;0;0;0;0;0;0;0;3072;2;512]].

(* lib/converters/gbkext_inv.h:1830-1845 gbkext_inv_uni2indx_page20 (flattened, 2 fields per entry) *)
Definition gbkext_inv_uni2indx_page20 : tab := mk [
 [3;0;3;41;6;32;7;32;8;0;8;0;8;0;8;0];
 [8;0;8;0;8;0;8;0;8;0;8;0;8;0;8;0];
 [8;544;10;0;10;2;11;0;11;0;11;0;11;0;11;0];
 [11;0;11;960;15;0;15;0;15;0;15;0;15;0;15;0];
 [15;0;15;32800;17;8;18;0;18;0;18;4;19;192;21;0];
 [21;0;21;32;22;0;22;32768]].

(* lib/converters/gbkext_inv.h:1846-1854 gbkext_inv_uni2indx_page25 (flattened, 2 fields per entry) *)
Definition gbkext_inv_uni2indx_page25 : tab := mk [
 [23;0;23;0;23;0;23;0;23;0;23;65535;39;65535;55;15];
 [59;65534;74;56;77;0;77;12288;79;0;79;0;79;60;83;0];
 [83;512]].

(* lib/converters/gbkext_inv.h:1855-1861 gbkext_inv_uni2indx_page30 (flattened, 2 fields per entry) *)
Definition gbkext_inv_uni2indx_page30 : tab := mk [
 [84;192;86;24580;89;1022;98;0;98;0;98;0;98;0;98;0];
 [98;0;98;30720;102;0;102;0;102;0;102;0;102;0;102;28672]].

(* lib/converters/gbkext_inv.h:1862-1873 gbkext_inv_uni2indx_page32 (flattened, 2 fields per entry) *)
Definition gbkext_inv_uni2indx_page32 : tab := mk [
 [105;0;105;0;105;0;105;2;106;0;106;0;106;0;106;0];
 [106;0;106;0;106;8;107;0;107;0;107;0;107;0;107;0];
 [107;0;107;0;107;0;107;0;107;0;107;0;107;0;107;0];
 [107;49152;109;28672;112;2;113;0;113;16400;115;38]].

(* lib/converters/gbkext_inv.h:1874-2284 gbkext_inv_uni2indx_page4e (flattened, 2 fields per entry) *)
Definition gbkext_inv_uni2indx_page4e : tab := mk [
 [118;32884;123;32900;126;49739;133;4266;138;1111;144;3234;149;64956;161;49140];
 [173;1215;181;29377;188;33800;191;29651;201;37120;204;7173;209;58053;217;22290];
 [224;6653;234;12412;241;29450;248;51882;256;8119;267;84;270;27974;278;10150];
 [286;21735;295;55149;306;10262;311;32735;325;15303;335;2684;342;6325;349;47861];
 [360;20479;373;26859;382;34973;389;44031;402;11895;412;60383;425;61407;439;14143];
 [450;57054;462;65535;478;60503;488;62459;501;32767;516;64447;530;36671;541;63447];
 [554;63295;567;65531;582;65533;597;32767;612;54404;618;60301;628;34523;637;50180];
 [641;52440;649;58651;658;26570;667;50960;673;25902;681;55293;694;22508;704;16534];
 [709;39472;715;53305;722;38126;731;20534;737;52208;746;44972;756;31069;766;24571];
 [779;65273;792;6134;802;49392;808;16369;819;62839;831;32442;842;65519;857;14846];
 [868;24222;878;55582;887;48052;897;12799;908;14421;915;11025;921;13600;926;31300];
 [933;50571;941;23263;952;48275;961;30655;974;49401;982;29741;990;134;993;50192];
 [997;2213;1002;5904;1007;1076;1011;42185;1018;62134;1028;58370;1033;65195;1045;50705];
 [1051;10154;1059;53642;1066;16423;1071;22245;1080;3112;1084;2368;1087;38943;1095;19443];
 [1105;32061;1116;63468;1128;11106;1135;12148;1144;63909;1154;61342;1166;35597;1173;42527];
 [1182;28768;1187;19693;1196;65407;1211;38229;1219;52687;1230;20385;1238;25221;1244;40787];
 [1254;11516;1263;14079;1275;53095;1286;30121;1295;36863;1308;60527;1319;57579;1328;59325];
 [1340;16287;1352;65527;1367;32759;1381;61311;1395;64511;1410;4975;1419;55272;1429;6604];
 [1436;63655;1446;28671;1460;2295;1468;45558;1478;2938;1486;892;1493;20652;1499;59191];
 [1510;59267;1519;63475;1532;38176;1537;65259;1550;14323;1561;22731;1569;24558;1581;55535];
 [1592;55098;1602;48605;1614;64492;1626;65502;1640;53231;1653;48877;1665;59359;1678;49151];
 [1693;64980;1704;14835;1714;64767;1728;61439;1743;65501;1757;65501;1771;42991;1783;64950];
 [1795;24427;1806;27023;1815;4431;1822;59501;1831;13417;1838;64013;1847;65498;1860;56487];
 [1870;55841;1877;48435;1887;12487;1894;46587;1906;62399;1919;51808;1925;61143;1937;30207];
 [1950;60421;1957;28405;1968;64982;1980;61353;1991;63934;2003;64479;2017;64379;2030;31503];
 [2040;65535;2056;62459;2069;64511;2084;48851;2095;60921;2107;61099;2118;62900;2128;65533];
 [2143;65023;2158;65343;2172;65535;2188;65387;2201;65534;2216;16452;2219;59779;2227;56276];
 [2237;25668;2242;32855;2248;62336;2255;7302;2261;61195;2271;8178;2281;48845;2292;24830];
 [2301;31149;2311;51853;2319;61259;2330;237;2336;12504;2342;48604;2353;16276;2362;31229];
 [2374;52985;2385;57388;2391;50675;2401;24149;2410;63469;2423;65019;2437;55949;2446;63486];
 [2460;48947;2471;47023;2483;40239;2493;40943;2506;58239;2518;55039;2531;26111;2543;65519];
 [2558;65531;2573;56831;2587;65535;2603;65407;2618;57311;2632;38911;2645;13337;2651;40801];
 [2660;28305;2668;49292;2673;40767;2685;50813;2695;61387;2707;47055;2719;65529;2733;17059];
 [2739;29486;2748;10500;2752;57118;2763;48151;2772;63999;2786;63409;2797;64255;2811;15151];
 [2821;29408;2828;30293;2837;22814;2845;59901;2857;65534;2872;56850;2880;51625;2888;58740];
 [2897;57416;2902;60506;2911;39677;2922;53087;2934;19847;2942;56376;2950;37740;2958;5853];
 [2967;7040;2972;50571;2980;28700;2986;26591;2998;55281;3009;55770;3019;16483;3024;16566];
 [3030;52711;3041;21419;3050;18102;3058;59113;3068;62367;3080;19165;3089;1086;3095;63910];
 [3105;7356;3113;31711;3126;63270;3136;32767;3151;43775;3163;57309;3176;65147;3189;65374];
 [3202;47103;3216;57327;3230;60543;3242;49023;3256;62203;3268;65513;3281;65471;3296;32735];
 [3310;703;3318;29208;3324;43977;3333;8039;3343;33908;3349;63201;3359;311;3365;11702];
 [3374;63982;3386;29201;3392;59080;3400;17885;3409;34827;3414;24610;3418;3091;3423;3877];
 [3430;48249;3440;5053;3449;29376;3455;55803;3467;1427;3473;16350;3485;40305;3494;62269];
 [3505;10362;3512;65210;3524;34898;3529;43622;3537;7599;3547;49082;3559;55796;3569;24235];
 [3579;26584;3588;42982;3598;52156;3608;23535;3620;64013;3629;48875;3641;56703;3654;63743];
 [3667;65355;3679;48537;3689;36335;3700;59998;3710;40922;3721;48762;3732;65451;3745;65535];
 [3761;65022;3775;65275;3789;14303;3801;13455;3809;27871;3820;38301;3829;59315;3840;65386];
 [3852;59263;3865;25972;3873;21837;3881;52734;3893;10117;3900;65339;3913;3098;3918;64316];
 [3929;11186;3937;24007;3947;24158;3957;44941;3967;26613;3978;31491;3986;16045;3996;47918];
 [4006;61291;4018;57149;4030;48767;4043;48623;4056;65535;4072;50687;4084;64959;4098;11618];
 [4105;53502;4115;22350;4124;17087;4133;56269;4144;11442;4151;12212;4160;22748;4168;12114];
 [4176;62829;4187;35422;4195;21075;4202;65046;4212;32741;4224;35040;4229;28122;4239;24548];
 [4249;8286;4255;57141;4266;63997;4279;35955;4287;43136;4291;65476;4302;62464;4307;65327];
 [4320;32661;4331;65399;4345;24123;4355;65494;4368;54778;4379;64219;4391;49142;4404;59868];
 [4414;38877;4425;32762;4438;57326;4451;24046;4462;65531;4477;39791;4488;47030;4499;60541];
 [4510;56362;4518;59087;4529;54911;4541;63341;4553;44029;4565;30702;4577;57342;4591;24571];
 [4604;64511;4619;32383;4632;31485;4644;40925;4656;65391;4670;62718;4682;65501;4696;60925];
 [4709;49134;4722;65404;4735;58878;4747;65535;4763;65535;4779;65535;4795;65535;4811;65535];
 [4827;65535;4843;65535;4859;65376;4869;47483;4880;60727;4891;65023;4906;64259;4915;58879];
 [4928;53537;4934;62387;4945;64509;4959;32583;4970;22489;4980;62723;4988;29693;5000;56791];
 [5012;24351;5023;28804;5028;14377;5034;57034;5044;63800;5053;1870;5060;63724;5070;40362];
 [5079;27793;5086;30182;5096;37125;5101;1265;5107;59855;5118;46854;5126;13008;5132;33300];
 [5136;42861;5146;45435;5156;45919;5167;34257;5174;4629;5179;43489;5187;14774;5196;61039];
 [5208;44251;5218;6085;5226;12324;5230;32475;5242;59150;5251;40125;5261;42924;5270;58741];
 [5280;35807;5291;56108;5300;21956;5307;64235;5319;40935;5331;30375;5341;47103;5355;16383];
 [5369;32151;5380;28414;5392;31579;5403;54057;5411;30585;5422;15173;5430;64648;5438;65007];
 [5452;32187;5464;65479;5477;20974;5486;49077;5498;55103;5510;44799;5523;40891;5535;60139];
 [5546;36079;5556;61439;5571;65405;5585;64951;5598;65018;5611;49145;5624;16380;5636;65535];
 [5652;65535;5668;62461;5681;65527;5696;64991;5710;28671;5724;49151;5739;18431;5751;11934];
 [5760;47582;5771;52619;5780;2047;5791;50293;5799;64240;5809;29951;5821;17455;5828;56703];
 [5841;63999;5855;63638;5864;32703;5878;65468;5891;43999;5903;45055;5917;48687;5928;56051];
 [5939;31727;5952;31983;5964;61182;5977;64983;5990;49143;6004;65487;6018;48990;6030;65023];
 [6045;65471;6060;57343;6075;60159;6088;21532;6094;52863;6106;21947;6116;15673;6125;14811];
 [6135;21484;6144;32763;6158;20479;6171;64558;6181;40673;6190;48506;6201;3324;6209;57952];
 [6215;48117;6227;34583;6235;41433;6243;15469;6252;57343;6267;65402;6280;20478;6292;49151];
 [6307;46447;6318;30653;6330;13819;6341;62322;6351;22778;6360;48636;6372;56670;6383;65531];
 [6398;31127;6408;62462;6421;43675;6430;61318;6440;65533;6455;8543;6463;57343;6478;48958];
 [6490;46964;6500;45054;6513;64639;6526;64511;6541;65535;6557;45051;6570;16290;6579;32559];
 [6591;24559;6604;26869;6613;17631;6622;45648;6628;9950;6637;57839;6648;64415;6661;31979];
 [6672;30647;6684;22825;6691;10180;6698;36032;6703;55363;6710;46731;6719;61987;6727;28140];
 [6737;60372;6747;29790;6756;53642;6763;11974;6771;53238;6783;44975;6795;30711;6808;38655];
 [6820;46635;6829;64949;6841;49135;6855;32745;6867;6811;6875;30248;6882;16351;6895;44265];
 [6904;54381;6913;31231;6926;23738;6935;59935;6945;65396;6957;62460;6969;59025;6977;7679];
 [6989;36814;6999;32761;7012;59738;7021;22486;7031;57343;7046;59263;7059;34131;7066;7863];
 [7076;52728;7086;18985;7092;52503;7101;41070;7108;44894;7119;57114;7129;33791;7140;61311];
 [7154;36223;7165;25205;7173;65365;7185;48608;7194;61917;7205;64974;7217;61183;7231;64363];
 [7243;65501;7257;49143;7271;65519;7286;41967;7297;64700;7308;823;7315;24154;7324;64127];
 [7337;31692;7347;64511;7362;65407;7377;37367;7387;54708;7396;32473;7407;21799;7415;55038];
 [7427;38834;7436;47983;7448;65526;7462;17783;7471;65471;7486;65405;7500;65535;7516;30766];
 [7524;56996;7533;19993;7540;52894;7550;32759;7564;63487;7579;15807;7591;24470;7601;23039];
 [7613;29351;7622;46541;7632;41614;7639;43765;7649;25951;7659;53928;7666;49146;7679;46425];
 [7688;57310;7701;53070;7711;49209;7717;65261;7730;61245;7742;55797;7753;48029;7764;44925];
 [7776;26495;7788;32703;7802;64319;7815;32511;7829;57340;7842;65535;7858;65535;7874;51175];
 [7885;65023;7900;3673;7907;48075;7918;36337;7927;51805;7936;27935;7946;32510;7959;63231];
 [7973;64511;7988;65535;8004;30586;8015;65535;8031;65535;8047;65535;8063;49151;8078;65407];
 [8093;65535;8109;65535;8125;49087;8139;65535;8155;65535;8171;65535;8187;65535;8203;65535];
 [8219;65535;8235;65535;8251;65535;8267;63487;8282;65405;8296;65535;8312;65535;8328;65535];
 [8344;65531;8359;30719;8373;16384;8374;6160;8377;0;8377;64;8378;4112;8380;512];
 [8381;1024;8382;16385;8384;0;8384;64128;8391;65483;8404;31308;8412;47353;8422;48617];
 [8433;44029;8445;7151;8456;32621;8468;19706;8477;43997;8488;32463;8500;48540;8510;59380];
 [8521;51076;8528;60426;8535;63514;8543;22037;8550;50099;8559;64235;8571;63999;8585;32765];
 [8599;58662;8607;17079;8615;4552;8620;2921;8627;36768;8634;33087;8642;16461;8647;51872];
 [8653;6587;8662;47776;8669;28671;8683;48825;8694;58047;8705;63940;8714;40286;8724;492];
 [8730;31482;8741;50941;8752;64183;8764;62455;8777;60336;8786;65535;8802;52087;8813;42983];
 [8824;53128;8832;10218;8841;17137;8848;46084;8853;30063;8864;31487;8877;16127;8890;6626];
 [8897;4843;8905;19577;8913;141;8917;40036;8924;621;8930;9793;8935;30596;8943;62829];
 [8954;11265;8958;58189;8967;18047;8977;59525;8984;32054;8994;9192;9001;4;9002;50815];
 [9013;48543;9025;42739;9035;61694;9046;51232;9050;27484;9059;20143;9069;63964;9080;56568];
 [9090;1957;9097;52989;9109;65039;9120;52989;9132;65471;9147;57725;9157;50677;9167;64149];
 [9177;42107;9186;60799;9199;32765;9213;22763;9222;55789;9233;24500;9243;61334;9254;28670];
 [9267;61439;9282;31605;9293;59389;9306;49279;9315;63735;9327;48575;9340;65263;9354;45547];
 [9364;32591;9376;59391;9390;15087;9401;64894;9414;32253;9427;61398;9439;65007;9453;30719];
 [9467;65503;9482;65469;9496;64895;9510;61183;9524;8191;9537;48108;9548;43003;9560;509];
 [9568;50168;9577;53207;9589;26727;9597;64396;9607;12590;9614;13548;9622;40431;9634;48352];
 [9642;55410;9650;43603;9658;48593;9668;14189;9678;44159;9689;64887;9702;49094;9713;34734];
 [9722;54995;9732;32631;9745;18175;9756;56279;9768;62398;9780;63473;9792;48094;9804;48639];
 [9818;64503;9832;63383;9844;65529;9858;60923;9871;53198;9882;64879;9895;42177;9901;8058];
 [9911;54985;9920;61371;9933;55275;9945;61309;9958;48537;9968;31947;9978;65219;9989;44260];
 [9997;64507;10011;61938;10021;62429;10033;65454;10046;65517;10060;16383;10074;65471;10089;30719];
 [10103;65461;10116;65535;10132;65535;10148;65535;10164;8201;10167;43960;10176;30615;10187;65527];
 [10202;65406;10216;65535;10232;65535;10248;49151;10263;65279;10278;65535;10294;65535;10310;65023];
 [10325;63999;10339;65527;10354;65535;10370;65535;10386;65535;10402;65535;10418;65535;10434;65535];
 [10450;65407;10465;65535;10481;65471;10496;65535;10512;65535;10528;65535;10544;61375;10558;65535];
 [10574;65535;10590;65535;10606;4096;10607;2050;10609;128;10610;1;10611;1024;10612;0];
 [10612;512;10613;16384;10614;0;10614;65280;10622;60733;10633;64479;10647;62457;10659;63735];
 [10671;59867;10682;65263;10696;65535;10712;65535;10728;65535;10744;65535;10760;65535;10776;65535];
 [10792;65535;10808;8191;10821;1;10822;0;10822;0;10822;32902;10826;55072;10833;65286];
 [10843;62413;10854;32749;10867;65527;10882;10949;10889;10151;10898;4925;10906;25319;10915;53335];
 [10923;27103;10934;8175;10946;10739;10955;55773;10966;61544;10973;65017;10986;19903;10997;28586];
 [11007;32605;11019;45038;11031;26623;11044;64507;11058;49151;11073;65535;11089;65535;11105;65535];
 [11121;65535;11137;65535;11153;65535;11169;65535;11185;65535;11201;65535;11217;1087;11224;0];
 [11224;4097;11226;8196;11228;62711;11240;40380;11250;48713;11259;1220;11263;37003;11269;56438];
 [11279;20864;11283;4904;11288;8120;11297;42655;11307;24425;11317;63088;11326;40659;11336;24527];
 [11348;63218;11359;54613;11368;11185;11376;45188;11381;15181;11390;51060;11399;22073;11407;40687];
 [11419;65515;11433;48639;11447;32755;11460;65021;11474;439;11481;39802;11491;10689;11497;7176];
 [11501;50527;11511;62456;11522;7155;11532;64463;11545;2431;11554;61437;11568;65535;11584;65535];
 [11600;65535;11616;65535;11632;65535;11648;65535;11664;65535;11680;65535;11696;65535;11712;65519];
 [11727;49151;11742;65535;11758;49151;11773;65535;11789;65279;11804;65535;11820;65535;11836;65535];
 [11852;65535;11868;65535;11884;65535;11900;49151;11915;65535;11931;65535;11947;64511;11962;65535];
 [11978;32767;11993;65535;12009;65535;12025;65535;12041;64511;12056;65471;12071;65535;12087;65535];
 [12103;65535;12119;65535;12135;65535;12151;49151;12166;65535;12182;65535;12198;63487;12213;65535];
 [12229;31;12234;322;12237;0;12237;0;12237;32896;12239;1048;12242;64;12243;2048];
 [12244;0;12244;4096;12245;129;12247;8200;12249;2312;12252;1056;12254;16385;12256;32688];
 [12266;65535;12282;65535;12298;65535;12314;65535;12330;65535;12346;65535;12362;4351;12371;32768];
 [12372;128;12373;18696;12377;48121;12389;18305;12395;50186;12400;30670;12411;59497;12419;65291];
 [12430;22175;12440;60526;12450;65407;12465;36278;12474;3340;12479;65499;12493;30974;12504;48439];
 [12515;7212;12521;44983;12533;56319;12547;48378;12558;65535;12574;46515;12584;64984;12595;61351];
 [12607;55263;12620;65257;12632;22518;12643;65515;12657;65535;12673;65535;12689;49471;12698;65431];
 [12711;65535;12727;65535;12743;65535;12759;65535;12775;65535;12791;65535;12807;65535;12823;31];
 [12828;18432;12830;548;12833;65288;12842;65535;12858;49151;12873;14545;12880;65151;12894;65535];
 [12910;57343;12925;65534;12940;49151;12955;65535;12971;65535;12987;65487;13001;87;13006;19208];
 [13011;21004;13016;64512;13022;65247;13036;65535;13052;65535;13068;65535;13084;65535;13100;65535];
 [13116;65535;13132;65535;13148;65535;13164;65535;13180;65535;13196;65535;13212;4095;13224;4];
 [13225;25096;13229;560;13232;65088;13240;59964;13249;59352;13259;32501;13271;22461;13282;62975];
 [13296;32503;13309;32759;13323;32759;13337;59387;13350;23617;13356;65517;13370;65535;13386;65535];
 [13402;65535;13418;65535;13434;65535;13450;65535;13466;65535;13482;65535;13498;65535;13514;65535];
 [13530;65535;13546;65535;13562;65535;13578;65535;13594;65535;13610;65535;13626;65535;13642;28671];
 [13656;38425;13663;9160;13669;37888;13672;49664;13675;775;13680;3078;13684;65531;13699;65535];
 [13715;65535;13731;65535;13747;65535;13763;65535;13779;65535;13795;65535;13811;65535;13827;65535];
 [13843;65535;13859;65535;13875;65535;13891;65535;13907;65535;13923;65535;13939;65535;13955;65535];
 [13971;65535;13987;32767;14002;16528;14005;6161;14009;8193;14011;41565;14019;49191;14025;16372];
 [14036;63099;14048;24563;14060;65471;14075;38639;14086;7663;14097;18157;14106;31066;14115;42495];
 [14127;38911;14140;64886;14152;28666;14164;38271;14175;65519;14190;65532;14204;65535;14220;32767];
 [14235;57350;14240;29183;14252;62]].

(* lib/converters/gbkext_inv.h:2285-2293 gbkext_inv_uni2indx_pagef9 (flattened, 2 fields per entry) *)
Definition gbkext_inv_uni2indx_pagef9 : tab := mk [
 [14257;0;14257;0;14257;4096;14258;0;14258;0;14258;0;14258;0;14258;512];
 [14259;0;14259;32;14260;0;14260;0;14260;0;14260;0;14260;128;14261;2];
 [14262;61440;14266;33050;14271;923]].

(* lib/converters/gbkext_inv.h:2294-2305 gbkext_inv_uni2indx_pagefe (flattened, 2 fields per entry) *)
Definition gbkext_inv_uni2indx_pagefe : tab := mk [
 [14278;0;14278;0;14278;0;14278;1;14279;65024;14286;65271;14300;3967;14311;0];
 [14311;0;14311;0;14311;0;14311;0;14311;0;14311;0;14311;0;14311;0];
 [14311;0;14311;0;14311;0;14311;0;14311;0;14311;0;14311;0;14311;0];
 [14311;0;14311;0;14311;0;14311;0;14311;0;14311;0;14311;20]].

(* lib/converters/gb18030ext.h:30-34 gb18030ext_2uni_pagea9 *)
Definition gb18030ext_2uni_pagea9 : tab := mk [
 [12350;12272;12273;12274;12275;12276;12277;12278;12279;12280;12281;12282;12283]].

(* lib/converters/gb18030ext.h:35-49 gb18030_2005_ext_2uni_pagefe *)
Definition gb18030_2005_ext_2uni_pagefe : tab := mk [
 [65533;65533;65533;65533;65533;65533;65533;65533;65533;65533;65533;65533;65533;65533;65533;65533];
 [11905;131207;131209;131276;11908;13427;13383;11912;11915;40884;13726;13850;13838;11916;11927;14702];
 [14616;40885;14799;14815;14963;14800;40886;40887;15182;15470;15584;11943;136663;40888;11946;16470];
 [16735;11950;17207;11955;11958;11959;141711;17329;17324;11963;17373;17622;18017;17996;40889;18211];
 [18217;18300;18317;11978;18759;18810;18813;18818;18819;18821;18822;18847;18843;18871;18870;40890];
 [147966;19619;19615;19616;19617;19575;19618;19731;19732;19733;19734;19735;19736;19737;19886;40891]].

(* lib/converters/gb18030ext.h:51-65 gb18030_2022_ext_2uni_pagefe *)
Definition gb18030_2022_ext_2uni_pagefe : tab := mk [
 [65533;65533;65533;65533;65533;65533;65533;65533;65533;65533;65533;65533;65533;65533;65533;65533];
 [11905;59414;59415;59416;11908;13427;13383;11912;11915;40884;13726;13850;13838;11916;11927;14702];
 [14616;40885;14799;14815;14963;14800;40886;40887;15182;15470;15584;11943;59441;40888;11946;16470];
 [16735;11950;17207;11955;11958;11959;59451;17329;17324;11963;17373;17622;18017;17996;40889;18211];
 [18217;18300;18317;11978;18759;18810;18813;18818;18819;18821;18822;18847;18843;18871;18870;40890];
 [59477;19619;19615;19616;19617;19575;19618;19731;19732;19733;19734;19735;19736;19737;19886;40891]].

(* lib/converters/gb18030ext.h:275-286 gb18030ext_page2e *)
Definition gb18030ext_page2e : tab := mk [
 [0;65104;0;0;65108;0;0;0;65111;0;0;65112;65117;0;0;0];
 [0;0;0;0;0;0;0;65118;0;0;0;0;0;0;0;0];
 [0;0;0;0;0;0;0;65131;0;0;65134;0;0;0;65137;0];
 [0;0;0;65139;0;0;65140;65141;0;0;0;65145;0;0;0;0];
 [0;0;0;0;0;0;0;0;0;0;65156;0;0;0;0;0]].

(* lib/converters/gb18030ext.h:287-290 gb18030ext_page2f *)
Definition gb18030ext_page2f : tab := mk [
 [43402;43403;43404;43405;43406;43407;43408;43409;43410;43411;43412;43413;0;0;0;0]].

(* lib/converters/gb18030ext.h:291-299 gb18030ext_page34 *)
Definition gb18030ext_page34 : tab := mk [
 [0;0;0;0;0;0;0;65110;0;0;0;0;0;0;0;0];
 [0;0;0;0;0;0;0;0;0;0;0;0;0;0;0;0];
 [0;0;0;0;0;0;0;0;0;0;0;0;0;0;0;0];
 [0;0;0;65109;0;0;0;0]].

(* lib/converters/gb18030ext.h:300-304 gb18030ext_page36 *)
Definition gb18030ext_page36 : tab := mk [
 [0;0;0;0;0;0;65116;0;0;0;0;0;0;0;0;0];
 [0;0;65115;0;0;0;0;0]].

(* lib/converters/gb18030ext.h:305-309 gb18030ext_page39 *)
Definition gb18030ext_page39 : tab := mk [
 [0;0;0;0;0;0;0;65122;65125;0;0;0;0;0;0;0];
 [0;0;0;0;0;0;0;65123]].

(* lib/converters/gb18030ext.h:310-318 gb18030ext_page43 *)
Definition gb18030ext_page43 : tab := mk [
 [0;0;0;0;65144;0;0;0;0;65143;0;0;0;0;0;0];
 [0;0;0;0;0;0;0;0;0;0;0;0;0;0;0;0];
 [0;0;0;0;0;0;0;0;0;0;0;0;0;0;0;0];
 [0;0;0;0;0;65146;0;0]].

(* lib/converters/gb18030ext.h:319-324 gb18030ext_page46 *)
Definition gb18030ext_page46 : tab := mk [
 [0;0;0;0;65149;0;0;0;0;0;0;0;0;0;0;0];
 [0;0;0;0;0;0;0;0;0;65148;0;0;0;0;0;0]].

(* lib/converters/gb18030ext.h:325-328 gb18030ext_page47_1 *)
Definition gb18030ext_page47_1 : tab := mk [
 [0;0;0;65152;0;0;0;0;0;65153;0;0;0;0;0;0]].

(* lib/converters/gb18030ext.h:329-333 gb18030ext_page47_2 *)
Definition gb18030ext_page47_2 : tab := mk [
 [0;0;0;0;65154;0;0;0;0;0;0;0;0;0;0;0];
 [0;0;0;0;0;65155;0;0]].

(* lib/converters/gb18030ext.h:334-350 gb18030ext_page49 *)
Definition gb18030ext_page49 : tab := mk [
 [0;0;0;0;0;0;0;65157;0;0;0;0;0;0;0;0];
 [0;0;0;0;0;0;0;0;0;0;0;0;0;0;0;0];
 [0;0;0;0;0;0;0;0;0;0;0;0;0;0;0;0];
 [0;0;0;0;0;0;0;0;0;0;65158;0;0;65159;0;0];
 [0;0;65160;65161;0;65162;65163;0;0;0;0;0;0;0;0;0];
 [0;0;0;0;0;0;0;0;0;0;0;65165;0;0;0;65164];
 [0;0;0;0;0;0;0;0;0;0;0;0;0;0;0;0];
 [0;0;0;0;0;0;65167;65166]].

(* lib/converters/gb18030ext.h:351-359 gb18030ext_page4c *)
Definition gb18030ext_page4c : tab := mk [
 [0;0;0;0;0;0;0;65174;0;0;0;0;0;0;0;0];
 [0;0;0;0;0;0;0;0;0;0;0;0;0;0;0;0];
 [0;0;0;0;0;0;0;0;0;0;0;0;0;0;0;65171];
 [65172;65173;65175;65170;0;0;0;0]].

(* lib/converters/gb18030ext.h:360-363 gb18030ext_page4d *)
Definition gb18030ext_page4d : tab := mk [
 [0;0;0;65176;65177;65178;65179;65180;65181;65182;0;0;0;0;0;0]].

(* lib/converters/gb18030ext.h:364-367 gb18030ext_page9f *)
Definition gb18030ext_page9f : tab := mk [
 [0;0;0;0;65113;65121;65126;65127;65133;65150;65168;65184;0;0;0;0]].

(* lib/converters/gb18030ext.h:368-371 gb18030ext_pagefe *)
Definition gb18030ext_pagefe : tab := mk [
 [42713;42715;42714;42716;42717;42718;42719;42732;42733;42739;0;0;0;0;0;0]].

(* lib/converters/gb18030uni.h:30-85 gb18030uni_charset2uni_ranges *)
Definition gb18030uni_charset2uni_ranges : tab := mk [
 [0;35;36;37;38;44;45;49;50;80;81;88;89;94;95;95];
 [96;99;100;102;103;103;104;104;105;108;109;125;126;132;133;147];
 [148;171;172;174;175;178;179;207;208;305;306;306;307;307;308;308];
 [309;309;310;310;311;311;312;312;313;340;341;427;428;442;443;543];
 [544;544;545;557;558;740;741;741;742;748;749;749;750;804;805;818];
 [819;819;820;7921;7922;7923;7924;7924;7925;7926;7927;7933;7934;7942;7943;7943];
 [7944;7944;7945;7949;7950;8061;8062;8147;8148;8148;8149;8151;8152;8163;8164;8173];
 [8174;8235;8236;8239;8240;8261;8262;8263;8264;8373;8374;8379;8380;8380;8381;8383];
 [8384;8387;8388;8389;8390;8391;8392;8392;8393;8393;8394;8395;8396;8400;8401;8405];
 [8406;8415;8416;8418;8419;8423;8424;8436;8437;8438;8439;8444;8445;8481;8482;8484];
 [8485;8495;8496;8520;8521;8602;8603;8935;8936;8945;8946;9045;9046;9049;9050;9062];
 [9063;9065;9066;9075;9076;9091;9092;9099;9100;9107;9108;9110;9111;9112;9113;9130];
 [9131;9161;9162;9163;9164;9217;9218;9218;9219;11328;11329;11330;11331;11333;11334;11335];
 [11336;11345;11346;11360;11361;11362;11363;11365;11366;11369;11370;11371;11372;11374;11375;11388];
 [11389;11681;11682;11685;11686;11686;11687;11691;11692;11693;11694;11713;11714;11715;11716;11722];
 [11723;11724;11725;11729;11730;11735;11736;11981;11982;11988;11989;12101;12102;12335;12336;12347];
 [12348;12349;12350;12383;12384;12392;12393;12394;12395;12396;12397;12509;12510;12552;12553;12850];
 [12851;12961;12962;12972;12973;13737;13738;13822;13823;13918;13919;13932;13933;14079;14080;14297];
 [14298;14584;14585;14697;14698;15582;15583;15846;15847;16317;16318;16433;16434;16437;16438;16480];
 [16481;16728;16729;17101;17102;17121;17122;17314;17315;17319;17320;17401;17402;17417;17418;17858];
 [17859;17908;17909;17910;17911;17914;17915;17915;17916;17935;17936;17938;17939;17960;17961;18663];
 [18664;18702;18703;18813;18814;18961;18962;19042;19043;33468;33469;33469;33470;33470;33471;33483];
 [33484;33484;33485;33489;33490;33496;33497;33500;33501;33504;33505;33512;33513;33519;33520;33535];
 [33536;33549;33550;37844;37845;37920;37921;37947;37948;38028;38029;38037;38038;38063;38064;38064];
 [38065;38065;38066;38068;38069;38074;38075;38075;38076;38077;38078;39107;39108;39108;39109;39112];
 [39113;39113;39114;39114;39115;39115;39116;39264;39265;39393;39394;39419]].

(* lib/converters/gb18030uni.h:87-142 gb18030uni_uni2charset_ranges *)
Definition gb18030uni_uni2charset_ranges : tab := mk [
 [128;163;165;166;169;175;178;182;184;214;216;223;226;231;235;235];
 [238;241;244;246;248;248;251;251;253;256;258;274;276;282;284;298];
 [300;323;325;327;329;332;334;362;364;461;463;463;465;465;467;467];
 [469;469;471;471;473;473;475;475;477;504;506;592;594;608;610;710];
 [712;712;716;728;730;912;930;930;938;944;962;962;970;1024;1026;1039];
 [1104;1104;1106;8207;8209;8210;8215;8215;8218;8219;8222;8228;8231;8239;8241;8241];
 [8244;8244;8246;8250;8252;8363;8365;8450;8452;8452;8454;8456;8458;8469;8471;8480];
 [8482;8543;8556;8559;8570;8591;8596;8597;8602;8711;8713;8718;8720;8720;8722;8724];
 [8726;8729;8731;8732;8737;8738;8740;8740;8742;8742;8748;8749;8751;8755;8760;8764];
 [8766;8775;8777;8779;8781;8785;8787;8799;8802;8803;8808;8813;8816;8852;8854;8856];
 [8858;8868;8870;8894;8896;8977;8979;9311;9322;9331;9372;9471;9548;9551;9588;9600];
 [9616;9618;9622;9631;9634;9649;9652;9659;9662;9669;9672;9674;9676;9677;9680;9697];
 [9702;9732;9735;9736;9738;9791;9793;9793;9795;11904;11906;11907;11909;11911;11913;11914];
 [11917;11926;11928;11942;11944;11945;11947;11949;11951;11954;11956;11957;11960;11962;11964;11977];
 [11979;12271;12284;12287;12292;12292;12312;12316;12319;12320;12330;12349;12351;12352;12436;12442];
 [12447;12448;12535;12539;12543;12548;12586;12831;12842;12848;12850;12962;12964;13197;13200;13211];
 [13215;13216;13218;13251;13253;13261;13263;13264;13267;13268;13270;13382;13384;13426;13428;13725];
 [13727;13837;13839;13849;13851;14615;14617;14701;14703;14798;14801;14814;14816;14962;14964;15181];
 [15183;15469;15471;15583;15585;16469;16471;16734;16736;17206;17208;17323;17325;17328;17330;17372];
 [17374;17621;17623;17995;17997;18016;18018;18210;18212;18216;18218;18299;18301;18316;18318;18758];
 [18760;18809;18811;18812;18814;18817;18820;18820;18823;18842;18844;18846;18848;18869;18872;19574];
 [19576;19614;19620;19730;19738;19885;19887;19967;40870;55295;59244;59244;59336;59336;59367;59379];
 [59413;59413;59417;59421;59423;59429;59431;59434;59437;59440;59443;59450;59452;59458;59460;59475];
 [59478;59491;59493;63787;63789;63864;63866;63892;63894;63974;63976;63984;63986;64011;64016;64016];
 [64018;64018;64021;64023;64025;64030;64034;64034;64037;64038;64042;65071;65074;65074;65093;65096];
 [65107;65107;65112;65112;65127;65127;65132;65280;65375;65503;65510;65535]].

(* lib/converters/gb18030uni.h:144-173 gb18030uni_ranges *)
Definition gb18030uni_ranges : tab := mk [
 [128;129;131;133;134;135;137;140;142;144;145;147;148;149;150;151];
 [152;153;154;155;156;157;158;159;160;161;162;163;164;165;166;167];
 [168;171;172;189;196;213;220;221;285;286;287;291;293;295;297;298];
 [300;301;302;303;304;305;306;307;308;320;330;334;338;339;340;341];
 [342;343;347;348;349;354;355;359;360;361;362;363;365;369;371;372];
 [373;374;375;376;386;426;502;538;553;556;558;560;562;564;565;567];
 [571;573;574;575;576;577;578;579;581;582;583;584;585;586;588;589];
 [590;602;606;625;627;636;637;720;724;810;813;850;860;861;862;864];
 [867;868;869;870;872;873;874;875;876;877;878;879;880;882;883;884];
 [885;886;887;888;889;890;891;892;893;894;895;896;897;898;899;900];
 [901;902;903;905;907;908;909;911;912;917;924;925;21827;25775;25866;25896];
 [25929;25932;25933;25934;25936;25938;25939;25940;25942;25943;25944;25945;25946;25947;25948;25952];
 [25953;25955;25956;25959;25961;25964;25966;25984;25994;25998;26012;26016;26110;26116]].

(* lib/converters/gb18030uni.h:175-177 gb18030_2022_charset2uni_pua1 *)
Definition gb18030_2022_charset2uni_pua1 : tab := mk [
 [59422;59430;59435;59436;59442;59459;59476;59492]].

(* lib/converters/gb18030uni.h:179-181 gb18030_2022_charset2uni_pua2 *)
Definition gb18030_2022_charset2uni_pua2 : tab := mk [
 [59277;59279;59278;59280;59281;59282;59283;59284;59285;59286]].

(* lib/converters/gb18030uni.h:321-328 gb18030_2022_uni2charset_pua1 *)
Definition gb18030_2022_uni2charset_pua1 : tab := mk [
 [1;0;0;0;0;0;0;0;2;0;0;0;0;3;4;0];
 [0;0;0;0;5;0;0;0;0;0;0;0;0;0;0;0];
 [0;0;0;0;0;6;0;0;0;0;0;0;0;0;0;0];
 [0;0;0;0;0;0;7;0;0;0;0;0;0;0;0;0];
 [0;0;0;0;0;0;8]].

(* lib/converters/gb18030uni.h:330-332 gb18030_2022_uni2charset_pua2 *)
Definition gb18030_2022_uni2charset_pua2 : tab := mk [
 [0;2;1;3;4;5;6;7;8;9]].

(* lib/converters/gb18030_2005.h:293-330 gb18030_2005_pua2charset (flattened, 3 fields per entry) *)
Definition gb18030_2005_pua2charset : tab := mk [
 [59238;59243;41643;59245;59245;41700;59246;59247;41711;59248;59249;41725;59250;59260;42228;59261];
 [59268;42487;59269;59276;42681;59277;59283;42713;59284;59285;42732;59286;59286;42739;59287;59295];
 [42742;59296;59310;42946;59311;59323;42994;59324;59334;43158;59337;59340;43201;59341;59361;43242];
 [59362;59362;43352;59363;59363;43355;59364;59366;43357;59380;59392;43415;59393;59407;43504;59408];
 [59412;55290;59414;59414;2503118897;59415;59415;2503118899;59416;59416;2503120688;59422;59422;65113;59430;59430];
 [65121;59435;59436;65126;59441;59441;2503391543;59442;59442;65133;59451;59451;2519775797;59459;59459;65150];
 [59476;59476;65168;59477;59477;2520102448;59492;59492;65184]].

(* lib/converters/gb18030_2022.h:139-164 gb18030_2022_pua2charset *)
Definition gb18030_2022_pua2charset : tab := mk [
 [59238;59243;41643;59245;59245;41700;59246;59247;41711;59248;59249;41725;59250;59260;42228;59261];
 [59268;42487;59269;59276;42681;59287;59295;42742;59296;59310;42946;59311;59323;42994;59324;59334];
 [43158;59337;59340;43201;59341;59361;43242;59362;59362;43352;59363;59363;43355;59364;59366;43357];
 [59380;59392;43415;59393;59407;43504;59408;59412;55290;59414;59416;65105;59441;59441;65132;59451];
 [59451;65142;59477;59477;65169]].

