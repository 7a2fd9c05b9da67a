(** GENERATED by tools/gen.py from /repo/lib/converters; do not edit.
    Mapping tables. *)
From Coq Require Import ZArith List Bool.
From Verif Require Import Base.
Import ListNotations.
Open Scope Z_scope.

(* lib/converters/big5.h:30-851 big5_2uni_pagea1 *)
Definition big5_2uni_pagea1 : tab := mk [
 [12288;65292;12289;12290;65294;8226;65307;65306;65311;65281;65072;8230;8229;65104;65380;65106];
 [183;65108;65109;65110;65111;65372;8211;65073;8212;65075;65533;65076;65103;65288;65289;65077];
 [65078;65371;65373;65079;65080;12308;12309;65081;65082;12304;12305;65083;65084;12298;12299;65085];
 [65086;12296;12297;65087;65088;12300;12301;65089;65090;12302;12303;65091;65092;65113;65114;65115];
 [65116;65117;65118;8216;8217;8220;8221;12317;12318;8245;8242;65283;65286;65290;8251;167];
 [12291;9675;9679;9651;9650;9678;9734;9733;9671;9670;9633;9632;9661;9660;12963;8453];
 [8254;65533;65343;65533;65097;65098;65101;65102;65099;65100;65119;65120;65121;65291;65293;215];
 [247;177;8730;65308;65310;65309;8806;8807;8800;8734;8786;8801;65122;65123;65124;65125];
 [65126;8764;8745;8746;8869;8736;8735;8895;13266;13265;8747;8750;8757;8756;9792;9794];
 [9793;9737;8593;8595;8592;8594;8598;8599;8601;8600;8741;8739;65533;65533;65295;65340];
 [65284;165;12306;162;163;65285;65312;8451;8457;65129;65130;65131;13269;13212;13213;13214];
 [13262;13217;13198;13199;13252;176;20825;20827;20830;20829;20833;20835;21991;29929;31950;9601];
 [9602;9603;9604;9605;9606;9607;9608;9615;9614;9613;9612;9611;9610;9609;9532;9524];
 [9516;9508;9500;9620;9472;9474;9621;9484;9488;9492;9496;9581;9582;9584;9583;9552];
 [9566;9578;9569;9698;9699;9701;9700;9585;9586;9587;65296;65297;65298;65299;65300;65301];
 [65302;65303;65304;65305;8544;8545;8546;8547;8548;8549;8550;8551;8552;8553;12321;12322];
 [12323;12324;12325;12326;12327;12328;12329;65533;21316;65533;65313;65314;65315;65316;65317;65318];
 [65319;65320;65321;65322;65323;65324;65325;65326;65327;65328;65329;65330;65331;65332;65333;65334];
 [65335;65336;65337;65338;65345;65346;65347;65348;65349;65350;65351;65352;65353;65354;65355;65356];
 [65357;65358;65359;65360;65361;65362;65363;65364;65365;65366;65367;65368;65369;65370;913;914];
 [915;916;917;918;919;920;921;922;923;924;925;926;927;928;929;931];
 [932;933;934;935;936;937;945;946;947;948;949;950;951;952;953;954];
 [955;956;957;958;959;960;961;963;964;965;966;967;968;969;12549;12550];
 [12551;12552;12553;12554;12555;12556;12557;12558;12559;12560;12561;12562;12563;12564;12565;12566];
 [12567;12568;12569;12570;12571;12572;12573;12574;12575;12576;12577;12578;12579;12580;12581;12582];
 [12583;12584;12585;729;713;714;711;715;65533;65533;65533;65533;65533;65533;65533;65533];
 [65533;65533;65533;65533;65533;65533;65533;65533;65533;65533;65533;65533;65533;65533;65533;65533];
 [65533;65533;65533;65533;65533;65533;65533;65533;65533;65533;65533;65533;65533;65533;65533;65533];
 [65533;65533;65533;65533;65533;65533;65533;65533;65533;65533;65533;65533;65533;65533;65533;65533];
 [65533;65533;65533;65533;65533;65533;65533;19968;20057;19969;19971;20035;20061;20102;20108;20154];
 [20799;20837;20843;20960;20992;20993;21147;21269;21313;21340;21448;19977;19979;19976;19978;20011];
 [20024;20961;20037;20040;20063;20062;20110;20129;20800;20995;21242;21315;21449;21475;22303;22763];
 [22805;22823;22899;23376;23377;23379;23544;23567;23586;23608;23665;24029;24037;24049;24050;24051];
 [24062;24178;24318;24331;24339;25165;19985;19984;19981;20013;20016;20025;20043;23609;20104;20113];
 [20117;20114;20116;20130;20161;20160;20163;20166;20167;20173;20170;20171;20164;20803;20801;20839];
 [20845;20846;20844;20887;20982;20998;20999;21000;21243;21246;21247;21270;21305;21320;21319;21317];
 [21342;21380;21451;21450;21453;22764;22825;22827;22826;22829;23380;23569;23588;23610;23663;24052];
 [24187;24319;24340;24341;24515;25096;25142;25163;25166;25903;25991;26007;26020;26041;26085;26352];
 [26376;26408;27424;27490;27513;27595;27604;27611;27663;27700;28779;29226;29238;29243;29255;29273];
 [29275;29356;29579;19993;19990;19989;19988;19992;20027;20045;20047;20046;20197;20184;20180;20181];
 [20182;20183;20195;20196;20185;20190;20805;20804;20873;20874;20908;20985;20986;20984;21002;21152];
 [21151;21253;21254;21271;21277;20191;21322;21321;21345;21344;21359;21358;21435;21487;21476;21491];
 [21484;21486;21481;21480;21500;21496;21493;21483;21478;21482;21490;21489;21488;21477;21485;21499];
 [22235;22234;22806;22830;22833;22900;22902;23381;23427;23612;24040;24039;24038;24066;24067;24179];
 [24188;24321;24344;24343;24517;25098;25171;25172;25170;25169;26021;26086;26414;26412;26410;26411];
 [26413;27491;27597;27665;27664;27704;27713;27712;27710;29359;29572;29577;29916;29926;29976;29983];
 [29992;29993;30000;30001;30002;30003;30091;30333;30382;30399;30446;30683;30690;30707;31034;31166];
 [31348;31435;19998;19999;20050;20051;20073;20121;20132;20134;20133;20223;20233;20249;20234;20245];
 [20237;20240;20241;20239;20210;20214;20219;20208;20211;20221;20225;20235;20809;20807;20806;20808];
 [20840;20849;20877;20912;21015;21009;21010;21006;21014;21155;21256;21281;21280;21360;21361;21513];
 [21519;21516;21514;21520;21505;21515;21508;21521;21517;21512;21507;21518;21510;21522;22240;22238];
 [22237;22323;22320;22312;22317;22316;22319;22313;22809;22810;22839;22840;22916;22904;22915;22909];
 [22905;22914;22913;23383;23384;23431;23432;23429;23433;23546;23574;23673;24030;24070;24182;24180];
 [24335;24347;24537;24534;25102;25100;25101;25104;25187;25179;25176;25910;26089;26088;26092;26093];
 [26354;26355;26377;26429;26420;26417;26421;27425;27492;27515;27670;27741;27735;27737;27743;27744];
 [27728;27733;27745;27739;27725;27726;28784;29279;29277;30334;31481;31859;31992;32566;32650;32701];
 [32769;32771;32780;32786;32819;32895;32905;32907;32908;33251;33258;33267;33276;33292;33307;33311];
 [33390;33394;33406;34411;34880;34892;34915;35199;38433;20018;20136;20301;20303;20295;20311;20318];
 [20276;20315;20309;20272;20304;20305;20285;20282;20280;20291;20308;20284;20294;20323;20316;20320];
 [20271;20302;20278;20313;20317;20296;20314;20812;20811;20813;20853;20918;20919;21029;21028;21033];
 [21034;21032;21163;21161;21162;21164;21283;21363;21365;21533;21549;21534;21566;21542;21582;21543];
 [21574;21571;21555;21576;21570;21531;21545;21578;21561;21563;21560;21550;21557;21558;21536;21564];
 [21568;21553;21547;21535;21548;22250;22256;22244;22251;22346;22353;22336;22349;22343;22350;22334];
 [22352;22351;22331;22767;22846;22941;22930;22952;22942;22947;22937;22934;22925;22948;22931;22922];
 [22949;23389;23388;23386;23387;23436;23435;23439;23596;23616;23617;23615;23614;23696;23697;23700];
 [23692;24043;24076;24207;24199;24202;24311;24324;24351;24420;24418;24439;24441;24536;24524;24535];
 [24525;24561;24555;24568;24554;25106;25105;25220;25239;25238;25216;25206;25225;25197;25226;25212];
 [25214;25209;25203;25234;25199;25240;25198;25237;25235;25233;25222;25913;25915;25912;26097;26356];
 [26463;26446;26447;26448;26449;26460;26454;26462;26441;26438;26464;26451;26455;27493;27599;27714];
 [27742;27801;27777;27784;27785;27781;27803;27754;27770;27792;27760;27788;27752;27798;27794;27773];
 [27779;27762;27774;27764;27782;27766;27789;27796;27800;27778;28790;28796;28797;28792;29282;29281];
 [29280;29380;29378;29590;29996;29995;30007;30008;30338;30447;30691;31169;31168;31167;31350;31995];
 [32597;32918;32915;32925;32920;32923;32922;32946;33391;33426;33419;33421;35211;35282;35328;35895];
 [35910;35925;35997;36196;36208;36275;36523;36554;36763;36784;36802;36806;36805;36804;24033;37009];
 [37026;37034;37030;37027;37193;37318;37324;38450;38446;38449;38442;38444;20006;20054;20083;20107];
 [20123;20126;20139;20140;20335;20381;20365;20339;20351;20332;20379;20363;20358;20355;20336;20341];
 [20360;20329;20347;20374;20350;20367;20369;20346;20820;20818;20821;20841;20855;20854;20856;20925];
 [20989;21051;21048;21047;21050;21040;21038;21046;21057;21182;21179;21330;21332;21331;21329;21350];
 [21367;21368;21369;21462;21460;21463;21619;21621;21654;21624;21653;21632;21627;21623;21636;21650];
 [21638;21628;21648;21617;21622;21644;21658;21602;21608;21643;21629;21646;22266;22403;22391;22378];
 [22377;22369;22374;22372;22396;22812;22857;22855;22856;22852;22868;22974;22971;22996;22969;22958];
 [22993;22982;22992;22989;22987;22995;22986;22959;22963;22994;22981;23391;23396;23395;23447;23450];
 [23448;23452;23449;23451;23578;23624;23621;23622;23735;23713;23736;23721;23723;23729;23731;24088];
 [24090;24086;24085;24091;24081;24184;24218;24215;24220;24213;24214;24310;24358;24359;24361;24448];
 [24449;24447;24444;24541;24544;24573;24565;24575;24591;24596;24623;24629;24598;24618;24597;24609];
 [24615;24617;24619;24603;25110;25109;25151;25150;25152;25215;25289;25292;25284;25279;25282;25273];
 [25298;25307;25259;25299;25300;25291;25288;25256;25277;25276;25296;25305;25287;25293;25269;25306];
 [25265;25304;25302;25303;25286;25260;25294;25918;26023;26044;26106;26132;26131;26124;26118;26114];
 [26126;26112;26127;26133;26122;26119;26381;26379;26477;26507;26517;26481;26524;26483;26487;26503];
 [26525;26519;26479;26480;26495;26505;26494;26512;26485;26522;26515;26492;26474;26482;27427;27494];
 [27495;27519;27667;27675;27875;27880;27891;27825;27852;27877;27827;27837;27838;27836;27874;27819];
 [27861;27859;27832;27844;27833;27841;27822;27863;27845;27889;27839;27835;27873;27867;27850;27820];
 [27887;27868;27862;27872;28821;28814;28818;28810;28825;29228;29229;29240;29256;29287;29289;29376];
 [29390;29401;29399;29392;29609;29608;29599;29611;29605;30013;30109;30105;30106;30340;30402;30450];
 [30452;30693;30717;31038;31040;31041;31177;31176;31354;31353;31482;31998;32596;32652;32651;32773];
 [32954;32933;32930;32945;32929;32939;32937;32948;32938;32943;33253;33278;33293;33459;33437;33433];
 [33453;33469;33439;33465;33457;33452;33445;33455;33464;33443;33456;33470;33463;34382;34417;21021];
 [34920;36555;36814;36820;36817;37045;37048;37041;37046;37319;37329;38263;38272;38428;38464;38463];
 [38459;38468;38466;38585;38632;38738;38750;20127;20141;20142;20449;20405;20399;20415;20448;20433];
 [20431;20445;20419;20406;20440;20447;20426;20439;20398;20432;20420;20418;20442;20430;20446;20407];
 [20823;20882;20881;20896;21070;21059;21066;21069;21068;21067;21063;21191;21193;21187;21185;21261];
 [21335;21371;21402;21467;21676;21696;21672;21710;21705;21688;21670;21683;21703;21698;21693;21674];
 [21697;21700;21704;21679;21675;21681;21691;21673;21671;21695;22271;22402;22411;22432;22435;22434];
 [22478;22446;22419;22869;22865;22863;22862;22864;23004;23000;23039;23011;23016;23043;23013;23018];
 [23002;23014;23041;23035;23401;23459;23462;23460;23458;23461;23553;23630;23631;23629;23627;23769];
 [23762;24055;24093;24101;24095;24189;24224;24230;24314;24328;24365;24421;24456;24453;24458;24459];
 [24455;24460;24457;24594;24605;24608;24613;24590;24616;24653;24688;24680;24674;24646;24643;24684];
 [24683;24682;24676;25153;25308;25366;25353;25340;25325;25345;25326;25341;25351;25329;25335;25327];
 [25324;25342;25332;25361;25346;25919;25925;26027;26045;26082;26149;26157;26144;26151;26159;26143];
 [26152;26161;26148;26359;26623;26579;26609;26580;26576;26604;26550;26543;26613;26601;26607;26564];
 [26577;26548;26586;26597;26552;26575;26590;26611;26544;26585;26594;26589;26578;27498;27523;27526];
 [27573;27602;27607;27679;27849;27915;27954;27946;27969;27941;27916;27953;27934;27927;27963;27965];
 [27966;27958;27931;27893;27961;27943;27960;27945;27950;27957;27918;27947;28843;28858;28851;28844];
 [28847;28845;28856;28846;28836;29232;29298;29295;29300;29417;29408;29409;29623;29642;29627;29618];
 [29645;29632;29619;29978;29997;30031;30028;30030;30027;30123;30116;30117;30114;30115;30328;30342];
 [30343;30344;30408;30406;30403;30405;30465;30457;30456;30473;30475;30462;30460;30471;30684;30722];
 [30740;30732;30733;31046;31049;31048;31047;31161;31162;31185;31186;31179;31359;31361;31487;31485];
 [31869;32002;32005;32000;32009;32007;32004;32006;32568;32654;32703;32772;32784;32781;32785;32822];
 [32982;32997;32986;32963;32964;32972;32993;32987;32974;32990;32996;32989;33268;33314;33511;33539];
 [33541;33507;33499;33510;33540;33509;33538;33545;33490;33495;33521;33537;33500;33492;33489;33502];
 [33491;33503;33519;33542;34384;34425;34427;34426;34893;34923;35201;35284;35336;35330;35331;35998];
 [36000;36212;36211;36276;36557;36556;36848;36838;36834;36842;36837;36845;36843;36836;36840;37066];
 [37070;37057;37059;37195;37194;37325;38274;38480;38475;38476;38477;38754;38761;38859;38893;38899];
 [38913;39080;39131;39135;39318;39321;20056;20147;20492;20493;20515;20463;20518;20517;20472;20521];
 [20502;20486;20540;20511;20506;20498;20497;20474;20480;20500;20520;20465;20513;20491;20505;20504];
 [20467;20462;20525;20522;20478;20523;20489;20860;20900;20901;20898;20941;20940;20934;20939;21078];
 [21084;21076;21083;21085;21290;21375;21407;21405;21471;21736;21776;21761;21815;21756;21733;21746];
 [21766;21754;21780;21737;21741;21729;21769;21742;21738;21734;21799;21767;21757;21775;22275;22276];
 [22466;22484;22475;22467;22537;22799;22871;22872;22874;23057;23064;23068;23071;23067;23059;23020];
 [23072;23075;23081;23077;23052;23049;23403;23640;23472;23475;23478;23476;23470;23477;23481;23480];
 [23556;23633;23637;23632;23789;23805;23803;23786;23784;23792;23798;23809;23796;24046;24109;24107];
 [24235;24237;24231;24369;24466;24465;24464;24665;24675;24677;24656;24661;24685;24681;24687;24708];
 [24735;24730;24717;24724;24716;24709;24726;25159;25331;25352;25343;25422;25406;25391;25429;25410];
 [25414;25423;25417;25402;25424;25405;25386;25387;25384;25421;25420;25928;25929;26009;26049;26053];
 [26178;26185;26191;26179;26194;26188;26181;26177;26360;26388;26389;26391;26657;26680;26696;26694];
 [26707;26681;26690;26708;26665;26803;26647;26700;26705;26685;26612;26704;26688;26684;26691;26666];
 [26693;26643;26648;26689;27530;27529;27575;27683;27687;27688;27686;27684;27888;28010;28053;28040];
 [28039;28006;28024;28023;27993;28051;28012;28041;28014;27994;28020;28009;28044;28042;28025;28037];
 [28005;28052;28874;28888;28900;28889;28872;28879;29241;29305;29436;29433;29437;29432;29431;29574];
 [29677;29705;29678;29664;29674;29662;30036;30045;30044;30042;30041;30142;30149;30151;30130;30131];
 [30141;30140;30137;30146;30136;30347;30384;30410;30413;30414;30505;30495;30496;30504;30697;30768];
 [30759;30776;30749;30772;30775;30757;30765;30752;30751;30770;31061;31056;31072;31071;31062;31070];
 [31069;31063;31066;31204;31203;31207;31199;31206;31209;31192;31364;31368;31449;31494;31505;31881];
 [32033;32023;32011;32010;32032;32034;32020;32016;32021;32026;32028;32013;32025;32027;32570;32607];
 [32660;32709;32705;32774;32792;32789;32793;32791;32829;32831;33009;33026;33008;33029;33005;33012];
 [33030;33016;33011;33032;33021;33034;33020;33007;33261;33260;33280;33296;33322;33323;33320;33324];
 [33467;33579;33618;33620;33610;33592;33616;33609;33589;33588;33615;33586;33593;33590;33559;33600];
 [33585;33576;33603;34388;34442;34474;34451;34468;34473;34444;34467;34460;34928;34935;34945;34946];
 [34941;34937;35352;35344;35342;35340;35349;35338;35351;35347;35350;35343;35345;35912;35962;35961];
 [36001;36002;36215;36524;36562;36564;36559;36785;36865;36870;36855;36864;36858;36852;36867;36861];
 [36869;36856;37013;37089;37085;37090;37202;37197;37196;37336;37341;37335;37340;37337;38275;38498];
 [38499;38497;38491;38493;38500;38488;38494;38587;39138;39340;39592;39640;39717;39730;39740;20094];
 [20602;20605;20572;20551;20547;20556;20570;20553;20581;20598;20558;20565;20597;20596;20599;20559];
 [20495;20591;20589;20828;20885;20976;21098;21103;21202;21209;21208;21205;21264;21263;21273;21311];
 [21312;21310;21443;26364;21830;21866;21862;21828;21854;21857;21827;21834;21809;21846;21839;21845];
 [21807;21860;21816;21806;21852;21804;21859;21811;21825;21847;22280;22283;22281;22495;22533;22538];
 [22534;22496;22500;22522;22530;22581;22519;22521;22816;22882;23094;23105;23113;23142;23146;23104];
 [23100;23138;23130;23110;23114;23408;23495;23493;23492;23490;23487;23494;23561;23560;23559;23648];
 [23644;23645;23815;23814;23822;23835;23830;23842;23825;23849;23828;23833;23844;23847;23831;24034];
 [24120;24118;24115;24119;24247;24248;24246;24245;24254;24373;24375;24407;24428;24425;24427;24471];
 [24473;24478;24472;24481;24480;24476;24703;24739;24713;24736;24744;24779;24756;24806;24765;24773];
 [24763;24757;24796;24764;24792;24789;24774;24799;24760;24794;24775;25114;25115;25160;25504;25511];
 [25458;25494;25506;25509;25463;25447;25496;25514;25457;25513;25481;25475;25499;25451;25512;25476];
 [25480;25497;25505;25516;25490;25487;25472;25467;25449;25448;25466;25949;25942;25937;25945;25943];
 [21855;25935;25944;25941;25940;26012;26011;26028;26063;26059;26060;26062;26205;26202;26212;26216];
 [26214;26206;26361;21207;26395;26753;26799;26786;26771;26805;26751;26742;26801;26791;26775;26800];
 [26755;26820;26797;26758;26757;26772;26781;26792;26783;26785;26754;27442;27578;27627;27628;27691];
 [28046;28092;28147;28121;28082;28129;28108;28132;28155;28154;28165;28103;28107;28079;28113;28078];
 [28126;28153;28088;28151;28149;28101;28114;28186;28085;28122;28139;28120;28138;28145;28142;28136];
 [28102;28100;28074;28140;28095;28134;28921;28937;28938;28925;28911;29245;29309;29313;29468;29467];
 [29462;29459;29465;29575;29701;29706;29699;29702;29694;29709;29920;29942;29943;29980;29986;30053];
 [30054;30050;30064;30095;30164;30165;30133;30154;30157;30350;30420;30418;30427;30519;30526;30524];
 [30518;30520;30522;30827;30787;30798;31077;31080;31085;31227;31378;31381;31520;31528;31515;31532];
 [31526;31513;31518;31534;31890;31895;31893;32070;32067;32113;32046;32057;32060;32064;32048;32051];
 [32068;32047;32066;32050;32049;32573;32670;32666;32716;32718;32722;32796;32842;32838;33071;33046];
 [33059;33067;33065;33072;33060;33282;33333;33335;33334;33337;33678;33694;33688;33656;33698;33686];
 [33725;33707;33682;33674;33683;33673;33696;33655;33659;33660;33670;33703;34389;24426;34503;34496];
 [34486;34500;34485;34502;34507;34481;34479;34505;34899;34974;34952;34987;34962;34966;34957;34955];
 [35219;35215;35370;35357;35363;35365;35377;35373;35359;35355;35362;35913;35930;36009;36012;36011];
 [36008;36010;36007;36199;36198;36286;36282;36571;36575;36889;36877;36890;36887;36899;36895;36893];
 [36880;36885;36894;36896;36879;36898;36886;36891;36884;37096;37101;37117;37207;37326;37365;37350];
 [37347;37351;37357;37353;38281;38506;38517;38515;38520;38512;38516;38518;38519;38508;38592;38634];
 [38633;31456;31455;38914;38915;39770;40165;40565;40575;40613;40635;20642;20621;20613;20633;20625];
 [20608;20630;20632;20634;26368;20977;21106;21108;21109;21097;21214;21213;21211;21338;21413;21883];
 [21888;21927;21884;21898;21917;21912;21890;21916;21930;21908;21895;21899;21891;21939;21934;21919];
 [21822;21938;21914;21947;21932;21937;21886;21897;21931;21913;22285;22575;22570;22580;22564;22576];
 [22577;22561;22557;22560;22777;22778;22880;23159;23194;23167;23186;23195;23207;23411;23409;23506];
 [23500;23507;23504;23562;23563;23601;23884;23888;23860;23879;24061;24133;24125;24128;24131;24190];
 [24266;24257;24258;24260;24380;24429;24489;24490;24488;24785;24801;24754;24758;24800;24860;24867];
 [24826;24853;24816;24827;24820;24936;24817;24846;24822;24841;24832;24850;25119;25161;25507;25484];
 [25551;25536;25577;25545;25542;25549;25554;25571;25552;25569;25558;25581;25582;25462;25588;25578];
 [25563;25682;25562;25593;25950;25958;25954;25955;26001;26000;26031;26222;26224;26228;26230;26223];
 [26257;26234;26238;26231;26366;26367;26399;26397;26874;26837;26848;26840;26839;26885;26847;26869];
 [26862;26855;26873;26834;26866;26851;26827;26829;26893;26898;26894;26825;26842;26990;26875;27454];
 [27450;27453;27544;27542;27580;27631;27694;27695;27692;28207;28216;28244;28193;28210;28263;28234];
 [28192;28197;28195;28187;28251;28248;28196;28246;28270;28205;28198;28271;28212;28237;28218;28204];
 [28227;28189;28222;28363;28297;28185;28238;28259;28228;28274;28265;28255;28953;28954;28966;28976];
 [28961;28982;29038;28956;29260;29316;29312;29494;29477;29492;29481;29754;29738;29747;29730;29733];
 [29749;29750;29748;29743;29723;29734;29736;29989;29990;30059;30058;30178;30171;30179;30169;30168];
 [30174;30176;30331;30332;30358;30355;30388;30428;30543;30701;30813;30828;30831;31245;31240;31243];
 [31237;31232;31384;31383;31382;31461;31459;31561;31574;31558;31568;31570;31572;31565;31563;31567];
 [31569;31903;31909;32094;32080;32104;32085;32043;32110;32114;32097;32102;32098;32112;32115;21892];
 [32724;32725;32779;32850;32901;33109;33108;33099;33105;33102;33081;33094;33086;33100;33107;33140];
 [33298;33308;33769;33795;33784;33805;33760;33733;33803;33729;33775;33777;33780;33879;33802;33776];
 [33804;33740;33789;33778;33738;33848;33806;33796;33756;33799;33748;33759;34395;34527;34521;34541];
 [34516;34523;34532;34512;34526;34903;35009;35010;34993;35203;35222;35387;35424;35413;35422;35388];
 [35393;35412;35419;35408;35398;35380;35386;35382;35414;35937;35970;36015;36028;36019;36029;36033];
 [36027;36032;36020;36023;36022;36031;36024;36234;36229;36225;36302;36317;36299;36314;36305;36300];
 [36315;36294;36603;36600;36604;36764;36910;36917;36913;36920;36914;36918;37122;37109;37129;37118];
 [37219;37221;37327;37396;37397;37411;37385;37406;37389;37392;37383;37393;38292;38287;38283;38289];
 [38291;38290;38286;38538;38542;38539;38525;38533;38534;38541;38514;38532;38593;38597;38596;38598];
 [38599;38639;38642;38860;38917;38918;38920;39143;39146;39151;39145;39154;39149;39342;39341;40643];
 [40653;40657;20098;20653;20661;20658;20659;20677;20670;20652;20663;20667;20655;20679;21119;21111];
 [21117;21215;21222;21220;21218;21219;21295;21983;21992;21971;21990;21966;21980;21959;21969;21987];
 [21988;21999;21978;21985;21957;21958;21989;21961;22290;22291;22622;22609;22616;22615;22618;22612];
 [22635;22604;22637;22602;22626;22610;22603;22887;23233;23241;23244;23230;23229;23228;23219;23234];
 [23218;23913;23919;24140;24185;24265;24264;24338;24409;24492;24494;24858;24847;24904;24863;24819];
 [24859;24825;24833;24840;24910;24908;24900;24909;24894;24884;24871;24845;24838;24887;25121;25122];
 [25619;25662;25630;25642;25645;25661;25644;25615;25628;25620;25613;25654;25622;25623;25606;25964];
 [26015;26032;26263;26249;26247;26248;26262;26244;26264;26253;26371;27028;26989;26970;26999;26976];
 [26964;26997;26928;27010;26954;26984;26987;26974;26963;27001;27014;26973;26979;26971;27463;27506];
 [27584;27583;27603;27645;28322;28335;28371;28342;28354;28304;28317;28359;28357;28325;28312;28348];
 [28346;28331;28369;28310;28316;28356;28372;28330;28327;28340;29006;29017;29033;29028;29001;29031];
 [29020;29036;29030;29004;29029;29022;28998;29032;29014;29242;29266;29495;29509;29503;29502;29807];
 [29786;29781;29791;29790;29761;29759;29785;29787;29788;30070;30072;30208;30192;30209;30194;30193];
 [30202;30207;30196;30195;30430;30431;30555;30571;30566;30558;30563;30585;30570;30572;30556;30565];
 [30568;30562;30702;30862;30896;30871;30872;30860;30857;30844;30865;30867;30847;31098;31103;31105];
 [33836;31165;31260;31258;31264;31252;31263;31262;31391;31392;31607;31680;31584;31598;31591;31921];
 [31923;31925;32147;32121;32145;32129;32143;32091;32622;32617;32618;32626;32681;32680;32676;32854];
 [32856;32902;32900;33137;33136;33144;33125;33134;33139;33131;33145;33146;33126;33285;33351;33922];
 [33911;33853;33841;33909;33894;33899;33865;33900;33883;33852;33845;33889;33891;33897;33901;33862];
 [34398;34396;34399;34553;34579;34568;34567;34560;34558;34555;34562;34563;34566;34570;34905;35039];
 [35028;35033;35036;35032;35037;35041;35018;35029;35026;35228;35299;35435;35442;35443;35430;35433];
 [35440;35463;35452;35427;35488;35441;35461;35437;35426;35438;35436;35449;35451;35390;35432;35938];
 [35978;35977;36042;36039;36040;36036;36018;36035;36034;36037;36321;36319;36328;36335;36339;36346];
 [36330;36324;36326;36530;36611;36617;36606;36618;36767;36786;36939;36938;36947;36930;36948;36924];
 [36949;36944;36935;36943;36942;36941;36945;36926;36929;37138;37143;37228;37226;37225;37321;37431];
 [37463;37432;37437;37440;37438;37467;37451;37476;37457;37428;37449;37453;37445;37433;37439;37466];
 [38296;38552;38548;38549;38605;38603;38601;38602;38647;38651;38649;38646;38742;38772;38774;38928];
 [38929;38931;38922;38930;38924;39164;39156;39165;39166;39347;39345;39348;39649;40169;40578;40718];
 [40723;40736;20711;20718;20709;20694;20717;20698;20693;20687;20689;20721;20686;20713;20834;20979];
 [21123;21122;21297;21421;22014;22016;22043;22039;22013;22036;22022;22025;22029;22030;22007;22038];
 [22047;22024;22032;22006;22296;22294;22645;22654;22659;22675;22666;22649;22661;22653;22781;22821];
 [22818;22820;22890;22889;23265;23270;23273;23255;23254;23256;23267;23413;23518;23527;23521;23525];
 [23526;23528;23522;23524;23519;23565;23650;23940;23943;24155;24163;24149;24151;24148;24275;24278];
 [24330;24390;24432;24505;24903;24895;24907;24951;24930;24931;24927;24922;24920;24949;25130;25735];
 [25688;25684;25764;25720;25695;25722;25681;25703;25652;25709;25723;25970;26017;26071;26070;26274];
 [26280;26269;27036;27048;27029;27073;27054;27091;27083;27035;27063;27067;27051;27060;27088;27085];
 [27053;27084;27046;27075;27043;27465;27468;27699;28467;28436;28414;28435;28404;28457;28478;28448];
 [28460;28431;28418;28450;28415;28399;28422;28465;28472;28466;28451;28437;28459;28463;28552;28458];
 [28396;28417;28402;28364;28407;29076;29081;29053;29066;29060;29074;29246;29330;29334;29508;29520];
 [29796;29795;29802;29808;29805;29956;30097;30247;30221;30219;30217;30227;30433;30435;30596;30589];
 [30591;30561;30913;30879;30887;30899;30889;30883;31118;31119;31117;31278;31281;31402;31401;31469];
 [31471;31649;31637;31627;31605;31639;31645;31636;31631;31672;31623;31620;31929;31933;31934;32187];
 [32176;32156;32189;32190;32160;32202;32180;32178;32177;32186;32162;32191;32181;32184;32173;32210];
 [32199;32172;32624;32736;32737;32735;32862;32858;32903;33104;33152;33167;33160;33162;33151;33154];
 [33255;33274;33287;33300;33310;33355;33993;33983;33990;33988;33945;33950;33970;33948;33995;33976];
 [33984;34003;33936;33980;34001;33994;34623;34588;34619;34594;34597;34612;34584;34645;34615;34601];
 [35059;35074;35060;35065;35064;35069;35048;35098;35055;35494;35468;35486;35491;35469;35489;35475];
 [35492;35498;35493;35496;35480;35473;35482;35495;35946;35981;35980;36051;36049;36050;36203;36249];
 [36245;36348;36628;36626;36629;36627;36771;36960;36952;36956;36963;36953;36958;36962;36957;36955];
 [37145;37144;37150;37237;37240;37239;37236;37496;37504;37509;37528;37526;37499;37523;37532;37544];
 [37500;37521;38305;38312;38313;38307;38309;38308;38553;38556;38555;38604;38610;38656;38780;38789];
 [38902;38935;38936;39087;39089;39171;39173;39180;39177;39361;39599;39600;39654;39745;39746;40180];
 [40182;40179;40636;40763;40778;20740;20736;20731;20725;20729;20738;20744;20745;20741;20956;21127];
 [21128;21129;21133;21130;21232;21426;22062;22075;22073;22066;22079;22068;22057;22099;22094;22103];
 [22132;22070;22063;22064;22656;22687;22686;22707;22684;22702;22697;22694;22893;23305;23291;23307];
 [23285;23308;23304;23534;23532;23529;23531;23652;23653;23965;23956;24162;24159;24161;24290;24282];
 [24287;24285;24291;24288;24392;24433;24503;24501;24950;24935;24942;24925;24917;24962;24956;24944];
 [24939;24958;24999;24976;25003;24974;25004;24986;24996;24980;25006;25134;25705;25711;25721;25758];
 [25778;25736;25744;25776;25765;25747;25749;25769;25746;25774;25773;25771;25754;25772;25753;25762];
 [25779;25973;25975;25976;26286;26283;26292;26289;27171;27167;27112;27137;27166;27161;27133;27169];
 [27155;27146;27123;27138;27141;27117;27153;27472;27470;27556;27589;27590;28479;28540;28548;28497];
 [28518;28500;28550;28525;28507;28536;28526;28558;28538;28528;28516;28567;28504;28373;28527;28512];
 [28511;29087;29100;29105;29096;29270;29339;29518;29527;29801;29835;29827;29822;29824;30079;30240];
 [30249;30239;30244;30246;30241;30242;30362;30394;30436;30606;30599;30604;30609;30603;30923;30917];
 [30906;30922;30910;30933;30908;30928;31295;31292;31296;31293;31287;31291;31407;31406;31661;31665];
 [31684;31668;31686;31687;31681;31648;31692;31946;32224;32244;32239;32251;32216;32236;32221;32232];
 [32227;32218;32222;32233;32158;32217;32242;32249;32629;32631;32687;32745;32806;33179;33180;33181];
 [33184;33178;33176;34071;34109;34074;34030;34092;34093;34067;34065;34083;34081;34068;34028;34085];
 [34047;34054;34690;34676;34678;34656;34662;34680;34664;34649;34647;34636;34643;34907;34909;35088];
 [35079;35090;35091;35093;35082;35516;35538;35527;35524;35477;35531;35576;35506;35529;35522;35519];
 [35504;35542;35533;35510;35513;35547;35916;35918;35948;36064;36062;36070;36068;36076;36077;36066];
 [36067;36060;36074;36065;36205;36255;36259;36395;36368;36381;36386;36367;36393;36383;36385;36382];
 [36538;36637;36635;36639;36649;36646;36650;36636;36638;36645;36969;36974;36968;36973;36983;37168];
 [37165;37159;37169;37255;37257;37259;37251;37573;37563;37559;37610;37548;37604;37569;37555;37564];
 [37586;37575;37616;37554;38317;38321;38660;38662;38663;38665;38752;38797;38795;38799;38945;38955];
 [38940;39091;39178;39187;39186;39192;39389;39376;39391;39387;39377;39381;39378;39385;39607;39662];
 [39663;39719;39749;39748;39799;39791;40198;40201;40195;40617;40638;40654;22696;40786;20754;20760];
 [20756;20752;20757;20864;20906;20957;21137;21139;21235;22105;22123;22137;22121;22116;22136;22122];
 [22120;22117;22129;22127;22124;22114;22134;22721;22718;22727;22725;22894;23325;23348;23416;23536];
 [23566;24394;25010;24977;25001;24970;25037;25014;25022;25034;25032;25136;25797;25793;25803;25787];
 [25788;25818;25796;25799;25794;25805;25791;25810;25812;25790;25972;26310;26313;26297;26308;26311];
 [26296;27197;27192;27194;27225;27243;27224;27193;27204;27234;27233;27211;27207;27189;27231;27208];
 [27481;27511;27653;28610;28593;28577;28611;28580;28609;28583;28595;28608;28601;28598;28582;28576];
 [28596;29118;29129;29136;29138;29128;29141;29113;29134;29145;29148;29123;29124;29544;29852;29859];
 [29848;29855;29854;29922;29964;29965;30260;30264;30266;30439;30437;30624;30622;30623;30629;30952];
 [30938;30956;30951;31142;31309;31310;31302;31308;31307;31418;31705;31761;31689;31716;31707;31713];
 [31721;31718;31957;31958;32266;32273;32264;32283;32291;32286;32285;32265;32272;32633;32690;32752];
 [32753;32750;32808;33203;33193;33192;33275;33288;33368;33369;34122;34137;34120;34152;34153;34115];
 [34121;34157;34154;34142;34691;34719;34718;34722;34701;34913;35114;35122;35109;35115;35105;35242];
 [35238;35558;35578;35563;35569;35584;35548;35559;35566;35582;35585;35586;35575;35565;35571;35574];
 [35580;35947;35949;35987;36084;36420;36401;36404;36418;36409;36405;36667;36655;36664;36659;36776];
 [36774;36981;36980;36984;36978;36988;36986;37172;37266;37664;37686;37624;37683;37679;37666;37628];
 [37675;37636;37658;37648;37670;37665;37653;37678;37657;38331;38567;38568;38570;38613;38670;38673];
 [38678;38669;38675;38671;38747;38748;38758;38808;38960;38968;38971;38967;38957;38969;38948;39184];
 [39208;39198;39195;39201;39194;39405;39394;39409;39608;39612;39675;39661;39720;39825;40213;40227];
 [40230;40232;40210;40219;40664;40660;40845;40860;20778;20767;20769;20786;21237;22158;22144;22160];
 [22149;22151;22159;22741;22739;22737;22734;23344;23338;23332;23418;23607;23656;23996;23994;23997];
 [23992;24171;24396;24509;25033;25026;25031;25062;25035;25138;25140;25806;25802;25816;25824;25840];
 [25830;25836;25841;25826;25837;25986;25987;26329;26326;27264;27284;27268;27298;27292;27355;27299];
 [27262;27287;27280;27296;27484;27566;27610;27656;28632;28657;28639;28640;28635;28644;28651;28655];
 [28544;28652;28641;28649;28629;28654;28656;29159;29151;29166;29158;29157;29165;29164;29172;29152];
 [29237;29254;29552;29554;29865;29872;29862;29864;30278;30274;30284;30442;30643;30634;30640;30636];
 [30631;30637;30703;30967;30970;30964;30959;30977;31143;31146;31319;31423;31751;31757;31742;31735];
 [31756;31712;31968;31964;31966;31970;31967;31961;31965;32302;32318;32326;32311;32306;32323;32299];
 [32317;32305;32325;32321;32308;32313;32328;32309;32319;32303;32580;32755;32764;32881;32882;32880];
 [32879;32883;33222;33219;33210;33218;33216;33215;33213;33225;33214;33256;33289;33393;34218;34180];
 [34174;34204;34193;34196;34223;34203;34183;34216;34186;34407;34752;34769;34739;34770;34758;34731];
 [34747;34746;34760;34763;35131;35126;35140;35128;35133;35244;35598;35607;35609;35611;35594;35616];
 [35613;35588;35600;35905;35903;35955;36090;36093;36092;36088;36091;36264;36425;36427;36424;36426];
 [36676;36670;36674;36677;36671;36991;36989;36996;36993;36994;36992;37177;37283;37278;37276;37709];
 [37762;37672;37749;37706;37733;37707;37656;37758;37740;37723;37744;37722;37716;38346;38347;38348];
 [38344;38342;38577;38584;38614;38684;38686;38816;38867;38982;39094;39221;39425;39423;39854;39851];
 [39850;39853;40251;40255;40587;40655;40670;40668;40669;40667;40766;40779;21474;22165;22190;22745];
 [22744;23352;24413;25059;25139;25844;25842;25854;25862;25850;25851;25847;26039;26332;26406;27315];
 [27308;27331;27323;27320;27330;27310;27311;27487;27512;27567;28681;28683;28670;28678;28666;28689];
 [28687;29179;29180;29182;29176;29559;29557;29863;29887;29973;30294;30296;30290;30653;30655;30651];
 [30652;30990;31150;31329;31330;31328;31428;31429;31787;31783;31786;31774;31779;31777;31975;32340];
 [32341;32350;32346;32353;32338;32345;32584;32761;32763;32887;32886;33229;33231;33290;34255;34217];
 [34253;34256;34249;34224;34234;34233;34214;34799;34796;34802;34784;35206;35250;35316;35624;35641];
 [35628;35627;35920;36101;36441;36451;36454;36452;36447;36437;36544;36681;36685;36999;36995;37000];
 [37291;37292;37328;37780;37770;37782;37794;37811;37806;37804;37808;37784;37786;37783;38356;38358];
 [38352;38357;38626;38620;38617;38619;38622;38692;38819;38822;38829;38905;38989;38991;38988;38990];
 [38995;39098;39230;39231;39229;39214;39333;39438;39617;39683;39686;39759;39758;39757;39882;39881];
 [39933;39880;39872;40273;40285;40288;40672;40725;40748;20787;22181;22750;22751;22754;23541;40848];
 [24300;25074;25079;25078;25077;25856;25871;26336;26333;27365;27357;27354;27347;28699;28703;28712];
 [28698;28701;28693;28696;29190;29197;29272;29346;29560;29562;29885;29898;29923;30087;30086;30303];
 [30305;30663;31001;31153;31339;31337;31806;31807;31800;31805;31799;31808;32363;32365;32377;32361];
 [32362;32645;32371;32694;32697;32696;33240;34281;34269;34282;34261;34276;34277;34295;34811;34821];
 [34829;34809;34814;35168;35167;35158;35166;35649;35676;35672;35657;35674;35662;35663;35654;35673];
 [36104;36106;36476;36466;36487;36470;36460;36474;36468;36692;36686;36781;37002;37003;37297;37294];
 [37857;37841;37855;37827;37832;37852;37853;37846;37858;37837;37848;37860;37847;37864;38364;38580];
 [38627;38698;38695;38753;38876;38907;39006;39000;39003;39100;39237;39241;39446;39449;39693;39912];
 [39911;39894;39899;40329;40289;40306;40298;40300;40594;40599;40595;40628;21240;22184;22199;22198];
 [22196;22204;22756;23360;23363;23421;23542;24009;25080;25082;25880;25876;25881;26342;26407;27372];
 [28734;28720;28722;29200;29563;29903;30306;30309;31014;31018;31020;31019;31431;31478;31820;31811];
 [31821;31983;31984;36782;32381;32380;32386;32588;32768;33242;33382;34299;34297;34321;34298;34310];
 [34315;34311;34314;34836;34837;35172;35258;35320;35696;35692;35686;35695;35679;35691;36111;36109];
 [36489;36481;36485;36482;37300;37323;37912;37891;37885;38369;38704;39108;39250;39249;39336;39467];
 [39472;39479;39477;39955;39949;40569;40629;40680;40751;40799;40803;40801;20791;20792;22209;22208];
 [22210;22804;23660;24013;25084;25086;25885;25884;26005;26345;27387;27396;27386;27570;28748;29211];
 [29351;29910;29908;30313;30675;31824;32399;32396;32700;34327;34349;34330;34851;34850;34849;34847];
 [35178;35180;35261;35700;35703;35709;36115;36490;36493;36491;36703;36783;37306;37934;37939;37941];
 [37946;37944;37938;37931;38370;38712;38713;38706;38911;39015;39013;39255;39493;39491;39488;39486];
 [39631;39764;39761;39981;39973;40367;40372;40386;40376;40605;40687;40729;40796;40806;40807;20796];
 [20795;22216;22218;22217;23423;24020;24018;24398;25087;25892;27402;27489;28753;28760;29568;29924];
 [30090;30318;30316;31155;31840;31839;32894;32893;33247;35186;35183;35324;35712;36118;36119;36497];
 [36499;36705;37192;37956;37969;37970;38717;38718;38851;38849;39019;39253;39509;39501;39634;39706];
 [40009;39985;39998;39995;40403;40407;40756;40812;40810;40852;22220;24022;25088;25891;25899;25898];
 [26348;27408;29914;31434;31844;31843;31845;32403;32406;32404;33250;34360;34367;34865;35722;37008];
 [37007;37987;37984;37988;38760;39023;39260;39514;39515;39511;39635;39636;39633;40020;40023;40022];
 [40421;40607;40692;22225;22761;25900;28766;30321;30322;30679;32592;32648;34870;34873;34914;35731];
 [35730;35734;33399;36123;37312;37994;38722;38728;38724;38854;39024;39519;39714;39768;40031;40441];
 [40442;40572;40573;40711;40823;40818;24307;27414;28771;31852;31854;34875;35264;36513;37313;38002];
 [38000;39025;39262;39638;39715;40652;28772;30682;35738;38007;38857;39522;39525;32412;35740;36522];
 [37317;38013;38014;38012;40055;40056;40695;35924;38015;40474;29224;39530;39729;40475;40478;31858];
 [12542;12445;12446;12293;12353;12354;12355;12356;12357;12358;12359;12360;12361;12362;12363;12364];
 [12365;12366;12367;12368;12369;12370;12371;12372;12373;12374;12375;12376;12377;12378;12379;12380];
 [12381;12382;12383;12384;12385;12386;12387;12388;12389;12390;12391;12392;12393;12394;12395;12396];
 [12397;12398;12399;12400;12401;12402;12403;12404;12405;12406;12407;12408;12409;12410;12411;12412];
 [12413;12414;12415;12416;12417;12418;12419;12420;12421;12422;12423;12424;12425;12426;12427;12428];
 [12429;12430;12431;12432;12433;12434;12435;12449;12450;12451;12452;12453;12454;12455;12456;12457];
 [12458;12459;12460;12461;12462;12463;12464;12465;12466;12467;12468;12469;12470;12471;12472;12473];
 [12474;12475;12476;12477;12478;12479;12480;12481;12482;12483;12484;12485;12486;12487;12488;12489];
 [12490;12491;12492;12493;12494;12495;12496;12497;12498;12499;12500;12501;12502;12503;12504;12505];
 [12506;12507;12508;12509;12510;12511;12512;12513;12514;12515;12516;12517;12518;12519;12520;12521];
 [12522;12523;12524;12525;12526;12527;12528;12529;12530;12531;12532;12533;12534;1044;1045;1025];
 [1046;1047;1048;1049;1050;1051;1052;1059;1060;1061;1062;1063;1064;1065;1066;1067];
 [1068;1069;1070;1071;1072;1073;1074;1075;1076;1077;1105;1078;1079;1080;1081;1082];
 [1083;1084;1085;1086;1087;1088;1089;1090;1091;1092;1093;1094;1095;1096;1097;1098];
 [1099;1100;1101;1102;1103;9312;9313;9314;9315;9316;9317;9318;9319;9320;9321;9332];
 [9333;9334;9335;9336;9337;9338;9339;9340;9341]].

(* lib/converters/big5.h:852-1878 big5_2uni_pagec9 *)
Definition big5_2uni_pagec9 : tab := mk [
 [20034;20060;20981;21274;21378;19975;19980;20039;20109;22231;64012;23662;24435;19983;20871;19982];
 [20014;20115;20162;20169;20168;20888;21244;21356;21433;22304;22787;22828;23568;24063;26081;27571];
 [27596;27668;29247;20017;20028;20200;20188;20201;20193;20189;20186;21004;21276;21324;22306;22307];
 [22807;22831;23425;23428;23570;23611;23668;23667;24068;24192;24194;24521;25097;25168;27669;27702];
 [27715;27711;27707;29358;29360;29578;31160;32906;38430;20238;20248;20268;20213;20244;20209;20224];
 [20215;20232;20253;20226;20229;20258;20243;20228;20212;20242;20913;21011;21001;21008;21158;21282];
 [21279;21325;21386;21511;22241;22239;22318;22314;22324;22844;22912;22908;22917;22907;22910;22903];
 [22911;23382;23573;23589;23676;23674;23675;23678;24031;24181;24196;24322;24346;24436;24533;24532];
 [24527;25180;25182;25188;25185;25190;25186;25177;25184;25178;25189;26095;26094;26430;26425;26424];
 [26427;26426;26431;26428;26419;27672;27718;27730;27740;27727;27722;27732;27723;27724;28785;29278];
 [29364;29365;29582;29994;30335;31349;32593;33400;33404;33408;33405;33407;34381;35198;37017;37015];
 [37016;37019;37012;38434;38436;38432;38435;20310;20283;20322;20297;20307;20324;20286;20327;20306];
 [20319;20289;20312;20269;20275;20287;20321;20879;20921;21020;21022;21025;21165;21166;21257;21347];
 [21362;21390;21391;21552;21559;21546;21588;21573;21529;21532;21541;21528;21565;21583;21569;21544];
 [21540;21575;22254;22247;22245;22337;22341;22348;22345;22347;22354;22790;22848;22950;22936;22944];
 [22935;22926;22946;22928;22927;22951;22945;23438;23442;23592;23594;23693;23695;23688;23691;23689];
 [23698;23690;23686;23699;23701;24032;24074;24078;24203;24201;24204;24200;24205;24325;24349;24440];
 [24438;24530;24529;24528;24557;24552;24558;24563;24545;24548;24547;24570;24559;24567;24571;24576];
 [24564;25146;25219;25228;25230;25231;25236;25223;25201;25211;25210;25200;25217;25224;25207;25213];
 [25202;25204;25911;26096;26100;26099;26098;26101;26437;26439;26457;26453;26444;26440;26461;26445];
 [26458;26443;27600;27673;27674;27768;27751;27755;27780;27787;27791;27761;27759;27753;27802;27757];
 [27783;27797;27804;27750;27763;27749;27771;27790;28788;28794;29283;29375;29373;29379;29382;29377];
 [29370;29381;29589;29591;29587;29588;29586;30010;30009;30100;30101;30337;31037;32820;32917;32921];
 [32912;32914;32924;33424;33423;33413;33422;33425;33427;33418;33411;33412;35960;36809;36799;37023];
 [37025;37029;37022;37031;37024;38448;38440;38447;38445;20019;20376;20348;20357;20349;20352;20359];
 [20342;20340;20361;20356;20343;20300;20375;20330;20378;20345;20353;20344;20368;20380;20372;20382];
 [20370;20354;20373;20331;20334;20894;20924;20926;21045;21042;21043;21062;21041;21180;21258;21259];
 [21308;21394;21396;21639;21631;21633;21649;21634;21640;21611;21626;21630;21605;21612;21620;21606];
 [21645;21615;21601;21600;21656;21603;21607;21604;22263;22265;22383;22386;22381;22379;22385;22384];
 [22390;22400;22389;22395;22387;22388;22370;22376;22397;22796;22853;22965;22970;22991;22990;22962];
 [22988;22977;22966;22972;22979;22998;22961;22973;22976;22984;22964;22983;23394;23397;23443;23445];
 [23620;23623;23726;23716;23712;23733;23727;23720;23724;23711;23715;23725;23714;23722;23719;23709];
 [23717;23734;23728;23718;24087;24084;24089;24360;24354;24355;24356;24404;24450;24446;24445;24542];
 [24549;24621;24614;24601;24626;24587;24628;24586;24599;24627;24602;24606;24620;24610;24589;24592];
 [24622;24595;24593;24588;24585;24604;25108;25149;25261;25268;25297;25278;25258;25270;25290;25262];
 [25267;25263;25275;25257;25264;25272;25917;26024;26043;26121;26108;26116;26130;26120;26107;26115];
 [26123;26125;26117;26109;26129;26128;26358;26378;26501;26476;26510;26514;26486;26491;26520;26502];
 [26500;26484;26509;26508;26490;26527;26513;26521;26499;26493;26497;26488;26489;26516;27429;27520];
 [27518;27614;27677;27795;27884;27883;27886;27865;27830;27860;27821;27879;27831;27856;27842;27834];
 [27843;27846;27885;27890;27858;27869;27828;27786;27805;27776;27870;27840;27952;27853;27847;27824];
 [27897;27855;27881;27857;28820;28824;28805;28819;28806;28804;28817;28822;28802;28826;28803;29290];
 [29398;29387;29400;29385;29404;29394;29396;29402;29388;29393;29604;29601;29613;29606;29602;29600];
 [29612;29597;29917;29928;30015;30016;30014;30092;30104;30383;30451;30449;30448;30453;30712;30716];
 [30713;30715;30714;30711;31042;31039;31173;31352;31355;31483;31861;31997;32821;32911;32942;32931];
 [32952;32949;32941;33312;33440;33472;33451;33434;33432;33435;33461;33447;33454;33468;33438;33466];
 [33460;33448;33441;33449;33474;33444;33475;33462;33442;34416;34415;34413;34414;35926;36818;36811];
 [36819;36813;36822;36821;36823;37042;37044;37039;37043;37040;38457;38461;38460;38458;38467;20429];
 [20421;20435;20402;20425;20427;20417;20436;20444;20441;20411;20403;20443;20423;20438;20410;20416];
 [20409;20460;21060;21065;21184;21186;21309;21372;21399;21398;21401;21400;21690;21665;21677;21669];
 [21711;21699;33549;21687;21678;21718;21686;21701;21702;21664;21616;21692;21666;21694;21618;21726];
 [21680;22453;22430;22431;22436;22412;22423;22429;22427;22420;22424;22415;22425;22437;22426;22421];
 [22772;22797;22867;23009;23006;23022;23040;23025;23005;23034;23037;23036;23030;23012;23026;23031];
 [23003;23017;23027;23029;23008;23038;23028;23021;23464;23628;23760;23768;23756;23767;23755;23771];
 [23774;23770;23753;23751;23754;23766;23763;23764;23759;23752;23750;23758;23775;23800;24057;24097];
 [24098;24099;24096;24100;24240;24228;24226;24219;24227;24229;24327;24366;24406;24454;24631;24633];
 [24660;24690;24670;24645;24659;24647;24649;24667;24652;24640;24642;24671;24612;24644;24664;24678];
 [24686;25154;25155;25295;25357;25355;25333;25358;25347;25323;25337;25359;25356;25336;25334;25344];
 [25363;25364;25338;25365;25339;25328;25921;25923;26026;26047;26166;26145;26162;26165;26140;26150];
 [26146;26163;26155;26170;26141;26164;26169;26158;26383;26384;26561;26610;26568;26554;26588;26555];
 [26616;26584;26560;26551;26565;26603;26596;26591;26549;26573;26547;26615;26614;26606;26595;26562];
 [26553;26574;26599;26608;26546;26620;26566;26605;26572;26542;26598;26587;26618;26569;26570;26563];
 [26602;26571;27432;27522;27524;27574;27606;27608;27616;27680;27681;27944;27956;27949;27935;27964];
 [27967;27922;27914;27866;27955;27908;27929;27962;27930;27921;27904;27933;27970;27905;27928;27959];
 [27907;27919;27968;27911;27936;27948;27912;27938;27913;27920;28855;28831;28862;28849;28848;28833];
 [28852;28853;28841;29249;29257;29258;29292;29296;29299;29294;29386;29412;29416;29419;29407;29418];
 [29414;29411;29573;29644;29634;29640;29637;29625;29622;29621;29620;29675;29631;29639;29630;29635];
 [29638;29624;29643;29932;29934;29998;30023;30024;30119;30122;30329;30404;30472;30467;30468;30469];
 [30474;30455;30459;30458;30695;30696;30726;30737;30738;30725;30736;30735;30734;30729;30723;30739];
 [31050;31052;31051;31045;31044;31189;31181;31183;31190;31182;31360;31358;31441;31488;31489;31866];
 [31864;31865;31871;31872;31873;32003;32008;32001;32600;32657;32653;32702;32775;32782;32783;32788];
 [32823;32984;32967;32992;32977;32968;32962;32976;32965;32995;32985;32988;32970;32981;32969;32975];
 [32983;32998;32973;33279;33313;33428;33497;33534;33529;33543;33512;33536;33493;33594;33515;33494];
 [33524;33516;33505;33522;33525;33548;33531;33526;33520;33514;33508;33504;33530;33523;33517;34423];
 [34420;34428;34419;34881;34894;34919;34922;34921;35283;35332;35335;36210;36835;36833;36846;36832];
 [37105;37053;37055;37077;37061;37054;37063;37067;37064;37332;37331;38484;38479;38481;38483;38474];
 [38478;20510;20485;20487;20499;20514;20528;20507;20469;20468;20531;20535;20524;20470;20471;20503];
 [20508;20512;20519;20533;20527;20529;20494;20826;20884;20883;20938;20932;20933;20936;20942;21089];
 [21082;21074;21086;21087;21077;21090;21197;21262;21406;21798;21730;21783;21778;21735;21747;21732];
 [21786;21759;21764;21768;21739;21777;21765;21745;21770;21755;21751;21752;21728;21774;21763;21771];
 [22273;22274;22476;22578;22485;22482;22458;22470;22461;22460;22456;22454;22463;22471;22480;22457];
 [22465;22798;22858;23065;23062;23085;23086;23061;23055;23063;23050;23070;23091;23404;23463;23469];
 [23468;23555;23638;23636;23788;23807;23790;23793;23799;23808;23801;24105;24104;24232;24238;24234];
 [24236;24371;24368;24423;24669;24666;24679;24641;24738;24712;24704;24722;24705;24733;24707;24725];
 [24731;24727;24711;24732;24718;25113;25158;25330;25360;25430;25388;25412;25413;25398;25411;25572];
 [25401;25419;25418;25404;25385;25409;25396;25432;25428;25433;25389;25415;25395;25434;25425;25400];
 [25431;25408;25416;25930;25926;26054;26051;26052;26050;26186;26207;26183;26193;26386;26387;26655];
 [26650;26697;26674;26675;26683;26699;26703;26646;26673;26652;26677;26667;26669;26671;26702;26692];
 [26676;26653;26642;26644;26662;26664;26670;26701;26682;26661;26656;27436;27439;27437;27441;27444];
 [27501;32898;27528;27622;27620;27624;27619;27618;27623;27685;28026;28003;28004;28022;27917;28001];
 [28050;27992;28002;28013;28015;28049;28045;28143;28031;28038;27998;28007;28000;28055;28016;28028];
 [27999;28034;28056;27951;28008;28043;28030;28032;28036;27926;28035;28027;28029;28021;28048;28892];
 [28883;28881;28893;28875;32569;28898;28887;28882;28894;28896;28884;28877;28869;28870;28871;28890];
 [28878;28897;29250;29304;29303;29302;29440;29434;29428;29438;29430;29427;29435;29441;29651;29657];
 [29669;29654;29628;29671;29667;29673;29660;29650;29659;29652;29661;29658;29655;29656;29672;29918];
 [29919;29940;29941;29985;30043;30047;30128;30145;30139;30148;30144;30143;30134;30138;30346;30409];
 [30493;30491;30480;30483;30482;30499;30481;30485;30489;30490;30498;30503;30755;30764;30754;30773];
 [30767;30760;30766;30763;30753;30761;30771;30762;30769;31060;31067;31055;31068;31059;31058;31057];
 [31211;31212;31200;31214;31213;31210;31196;31198;31197;31366;31369;31365;31371;31372;31370;31367];
 [31448;31504;31492;31507;31493;31503;31496;31498;31502;31497;31506;31876;31889;31882;31884;31880];
 [31885;31877;32030;32029;32017;32014;32024;32022;32019;32031;32018;32015;32012;32604;32609;32606];
 [32608;32605;32603;32662;32658;32707;32706;32704;32790;32830;32825;33018;33010;33017;33013;33025];
 [33019;33024;33281;33327;33317;33587;33581;33604;33561;33617;33573;33622;33599;33601;33574;33564];
 [33570;33602;33614;33563;33578;33544;33596;33613;33558;33572;33568;33591;33583;33577;33607;33605];
 [33612;33619;33566;33580;33611;33575;33608;34387;34386;34466;34472;34454;34445;34449;34462;34439];
 [34455;34438;34443;34458;34437;34469;34457;34465;34471;34453;34456;34446;34461;34448;34452;34883];
 [34884;34925;34933;34934;34930;34944;34929;34943;34927;34947;34942;34932;34940;35346;35911;35927];
 [35963;36004;36003;36214;36216;36277;36279;36278;36561;36563;36862;36853;36866;36863;36859;36868];
 [36860;36854;37078;37088;37081;37082;37091;37087;37093;37080;37083;37079;37084;37092;37200;37198];
 [37199;37333;37346;37338;38492;38495;38588;39139;39647;39727;20095;20592;20586;20577;20574;20576];
 [20563;20555;20573;20594;20552;20557;20545;20571;20554;20578;20501;20549;20575;20585;20587;20579];
 [20580;20550;20544;20590;20595;20567;20561;20944;21099;21101;21100;21102;21206;21203;21293;21404];
 [21877;21878;21820;21837;21840;21812;21802;21841;21858;21814;21813;21808;21842;21829;21772;21810];
 [21861;21838;21817;21832;21805;21819;21824;21835;22282;22279;22523;22548;22498;22518;22492;22516];
 [22528;22509;22525;22536;22520;22539;22515;22479;22535;22510;22499;22514;22501;22508;22497;22542];
 [22524;22544;22503;22529;22540;22513;22505;22512;22541;22532;22876;23136;23128;23125;23143;23134];
 [23096;23093;23149;23120;23135;23141;23148;23123;23140;23127;23107;23133;23122;23108;23131;23112];
 [23182;23102;23117;23097;23116;23152;23145;23111;23121;23126;23106;23132;23410;23406;23489;23488];
 [23641;23838;23819;23837;23834;23840;23820;23848;23821;23846;23845;23823;23856;23826;23843;23839];
 [23854;24126;24116;24241;24244;24249;24242;24243;24374;24376;24475;24470;24479;24714;24720;24710];
 [24766;24752;24762;24787;24788;24783;24804;24793;24797;24776;24753;24795;24759;24778;24767;24771];
 [24781;24768;25394;25445;25482;25474;25469;25533;25502;25517;25501;25495;25515;25486;25455;25479];
 [25488;25454;25519;25461;25500;25453;25518;25468;25508;25403;25503;25464;25477;25473;25489;25485];
 [25456;25939;26061;26213;26209;26203;26201;26204;26210;26392;26745;26759;26768;26780;26733;26734];
 [26798;26795;26966;26735;26787;26796;26793;26741;26740;26802;26767;26743;26770;26748;26731;26738];
 [26794;26752;26737;26750;26779;26774;26763;26784;26761;26788;26744;26747;26769;26764;26762;26749];
 [27446;27443;27447;27448;27537;27535;27533;27534;27532;27690;28096;28075;28084;28083;28276;28076];
 [28137;28130;28087;28150;28116;28160;28104;28128;28127;28118;28094;28133;28124;28125;28123;28148];
 [28106;28093;28141;28144;28090;28117;28098;28111;28105;28112;28146;28115;28157;28119;28109;28131];
 [28091;28922;28941;28919;28951;28916;28940;28912;28932;28915;28944;28924;28927;28934;28947;28928];
 [28920;28918;28939;28930;28942;29310;29307;29308;29311;29469;29463;29447;29457;29464;29450;29448];
 [29439;29455;29470;29576;29686;29688;29685;29700;29697;29693;29703;29696;29690;29692;29695;29708];
 [29707;29684;29704;30052;30051;30158;30162;30159;30155;30156;30161;30160;30351;30345;30419;30521];
 [30511;30509;30513;30514;30516;30515;30525;30501;30523;30517;30792;30802;30793;30797;30794;30796];
 [30758;30789;30800;31076;31079;31081;31082;31075;31083;31073;31163;31226;31224;31222;31223;31375];
 [31380;31376;31541;31559;31540;31525;31536;31522;31524;31539;31512;31530;31517;31537;31531;31533];
 [31535;31538;31544;31514;31523;31892;31896;31894;31907;32053;32061;32056;32054;32058;32069;32044];
 [32041;32065;32071;32062;32063;32074;32059;32040;32611;32661;32668;32669;32667;32714;32715;32717];
 [32720;32721;32711;32719;32713;32799;32798;32795;32839;32835;32840;33048;33061;33049;33051;33069];
 [33055;33068;33054;33057;33045;33063;33053;33058;33297;33336;33331;33338;33332;33330;33396;33680];
 [33699;33704;33677;33658;33651;33700;33652;33679;33665;33685;33689;33653;33684;33705;33661;33667];
 [33676;33693;33691;33706;33675;33662;33701;33711;33672;33687;33712;33663;33702;33671;33710;33654];
 [33690;34393;34390;34495;34487;34498;34497;34501;34490;34480;34504;34489;34483;34488;34508;34484];
 [34491;34492;34499;34493;34494;34898;34953;34965;34984;34978;34986;34970;34961;34977;34975;34968];
 [34983;34969;34971;34967;34980;34988;34956;34963;34958;35202;35286;35289;35285;35376;35367;35372];
 [35358;35897;35899;35932;35933;35965;36005;36221;36219;36217;36284;36290;36281;36287;36289;36568];
 [36574;36573;36572;36567;36576;36577;36900;36875;36881;36892;36876;36897;37103;37098;37104;37108];
 [37106;37107;37076;37099;37100;37097;37206;37208;37210;37203;37205;37356;37364;37361;37363;37368];
 [37348;37369;37354;37355;37367;37352;37358;38266;38278;38280;38524;38509;38507;38513;38511;38591];
 [38762;38916;39141;39319;20635;20629;20628;20638;20619;20643;20611;20620;20622;20637;20584;20636];
 [20626;20610;20615;20831;20948;21266;21265;21412;21415;21905;21928;21925;21933;21879;22085;21922];
 [21907;21896;21903;21941;21889;21923;21906;21924;21885;21900;21926;21887;21909;21921;21902;22284];
 [22569;22583;22553;22558;22567;22563;22568;22517;22600;22565;22556;22555;22579;22591;22582;22574];
 [22585;22584;22573;22572;22587;22881;23215;23188;23199;23162;23202;23198;23160;23206;23164;23205];
 [23212;23189;23214;23095;23172;23178;23191;23171;23179;23209;23163;23165;23180;23196;23183;23187];
 [23197;23530;23501;23499;23508;23505;23498;23502;23564;23600;23863;23875;23915;23873;23883;23871];
 [23861;23889;23886;23893;23859;23866;23890;23869;23857;23897;23874;23865;23881;23864;23868;23858];
 [23862;23872;23877;24132;24129;24408;24486;24485;24491;24777;24761;24780;24802;24782;24772;24852];
 [24818;24842;24854;24837;24821;24851;24824;24828;24830;24769;24835;24856;24861;24848;24831;24836];
 [24843;25162;25492;25521;25520;25550;25573;25576;25583;25539;25757;25587;25546;25568;25590;25557];
 [25586;25589;25697;25567;25534;25565;25564;25540;25560;25555;25538;25543;25548;25547;25544;25584];
 [25559;25561;25906;25959;25962;25956;25948;25960;25957;25996;26013;26014;26030;26064;26066;26236];
 [26220;26235;26240;26225;26233;26218;26226;26369;26892;26835;26884;26844;26922;26860;26858;26865];
 [26895;26838;26871;26859;26852;26870;26899;26896;26867;26849;26887;26828;26888;26992;26804;26897];
 [26863;26822;26900;26872;26832;26877;26876;26856;26891;26890;26903;26830;26824;26845;26846;26854];
 [26868;26833;26886;26836;26857;26901;26917;26823;27449;27451;27455;27452;27540;27543;27545;27541];
 [27581;27632;27634;27635;27696;28156;28230;28231;28191;28233;28296;28220;28221;28229;28258;28203];
 [28223;28225;28253;28275;28188;28211;28235;28224;28241;28219;28163;28206;28254;28264;28252;28257];
 [28209;28200;28256;28273;28267;28217;28194;28208;28243;28261;28199;28280;28260;28279;28245;28281];
 [28242;28262;28213;28214;28250;28960;28958;28975;28923;28974;28977;28963;28965;28962;28978;28959];
 [28968;28986;28955;29259;29274;29320;29321;29318;29317;29323;29458;29451;29488;29474;29489;29491];
 [29479;29490;29485;29478;29475;29493;29452;29742;29740;29744;29739;29718;29722;29729;29741;29745];
 [29732;29731;29725;29737;29728;29746;29947;29999;30063;30060;30183;30170;30177;30182;30173;30175];
 [30180;30167;30357;30354;30426;30534;30535;30532;30541;30533;30538;30542;30539;30540;30686;30700];
 [30816;30820;30821;30812;30829;30833;30826;30830;30832;30825;30824;30814;30818;31092;31091;31090];
 [31088;31234;31242;31235;31244;31236;31385;31462;31460;31562;31547;31556;31560;31564;31566;31552];
 [31576;31557;31906;31902;31912;31905;32088;32111;32099;32083;32086;32103;32106;32079;32109;32092];
 [32107;32082;32084;32105;32081;32095;32078;32574;32575;32613;32614;32674;32672;32673;32727;32849];
 [32847;32848;33022;32980;33091;33098;33106;33103;33095;33085;33101;33082;33254;33262;33271;33272];
 [33273;33284;33340;33341;33343;33397;33595;33743;33785;33827;33728;33768;33810;33767;33764;33788];
 [33782;33808;33734;33736;33771;33763;33727;33793;33757;33765;33752;33791;33761;33739;33742;33750];
 [33781;33737;33801;33807;33758;33809;33798;33730;33779;33749;33786;33735;33745;33770;33811;33731];
 [33772;33774;33732;33787;33751;33762;33819;33755;33790;34520;34530;34534;34515;34531;34522;34538];
 [34525;34539;34524;34540;34537;34519;34536;34513;34888;34902;34901;35002;35031;35001;35000;35008];
 [35006;34998;35004;34999;35005;34994;35073;35017;35221;35224;35223;35293;35290;35291;35406;35405];
 [35385;35417;35392;35415;35416;35396;35397;35410;35400;35409;35402;35404;35407;35935;35969;35968];
 [36026;36030;36016;36025;36021;36228;36224;36233;36312;36307;36301;36295;36310;36316;36303;36309];
 [36313;36296;36311;36293;36591;36599;36602;36601;36582;36590;36581;36597;36583;36584;36598;36587];
 [36593;36588;36596;36585;36909;36916;36911;37126;37164;37124;37119;37116;37128;37113;37115;37121];
 [37120;37127;37125;37123;37217;37220;37215;37218;37216;37377;37386;37413;37379;37402;37414;37391];
 [37388;37376;37394;37375;37373;37382;37380;37415;37378;37404;37412;37401;37399;37381;37398;38267];
 [38285;38284;38288;38535;38526;38536;38537;38531;38528;38594;38600;38595;38641;38640;38764;38768];
 [38766;38919;39081;39147;40166;40697;20099;20100;20150;20669;20671;20678;20654;20676;20682;20660];
 [20680;20674;20656;20673;20666;20657;20683;20681;20662;20664;20951;21114;21112;21115;21116;21955];
 [21979;21964;21968;21963;21962;21981;21952;21972;21956;21993;21951;21970;21901;21967;21973;21986];
 [21974;21960;22002;21965;21977;21954;22292;22611;22632;22628;22607;22605;22601;22639;22613;22606];
 [22621;22617;22629;22619;22589;22627;22641;22780;23239;23236;23243;23226;23224;23217;23221;23216];
 [23231;23240;23227;23238;23223;23232;23242;23220;23222;23245;23225;23184;23510;23512;23513;23583];
 [23603;23921;23907;23882;23909;23922;23916;23902;23912;23911;23906;24048;24143;24142;24138;24141];
 [24139;24261;24268;24262;24267;24263;24384;24495;24493;24823;24905;24906;24875;24901;24886;24882];
 [24878;24902;24879;24911;24873;24896;25120;37224;25123;25125;25124;25541;25585;25579;25616;25618];
 [25609;25632;25636;25651;25667;25631;25621;25624;25657;25655;25634;25635;25612;25638;25648;25640];
 [25665;25653;25647;25610;25626;25664;25637;25639;25611;25575;25627;25646;25633;25614;25967;26002];
 [26067;26246;26252;26261;26256;26251;26250;26265;26260;26232;26400;26982;26975;26936;26958;26978];
 [26993;26943;26949;26986;26937;26946;26967;26969;27002;26952;26953;26933;26988;26931;26941;26981];
 [26864;27000;26932;26985;26944;26991;26948;26998;26968;26945;26996;26956;26939;26955;26935;26972];
 [26959;26961;26930;26962;26927;27003;26940;27462;27461;27459;27458;27464;27457;27547;64013;27643];
 [27644;27641;27639;27640;28315;28374;28360;28303;28352;28319;28307;28308;28320;28337;28345;28358];
 [28370;28349;28353;28318;28361;28343;28336;28365;28326;28367;28338;28350;28355;28380;28376;28313];
 [28306;28302;28301;28324;28321;28351;28339;28368;28362;28311;28334;28323;28999;29012;29010;29027];
 [29024;28993;29021;29026;29042;29048;29034;29025;28994;29016;28995;29003;29040;29023;29008;29011];
 [28996;29005;29018;29263;29325;29324;29329;29328;29326;29500;29506;29499;29498;29504;29514;29513];
 [29764;29770;29771;29778;29777;29783;29760;29775;29776;29774;29762;29766;29773;29780;29921;29951];
 [29950;29949;29981;30073;30071;27011;30191;30223;30211;30199;30206;30204;30201;30200;30224;30203];
 [30198;30189;30197;30205;30361;30389;30429;30549;30559;30560;30546;30550;30554;30569;30567;30548];
 [30553;30573;30688;30855;30874;30868;30863;30852;30869;30853;30854;30881;30851;30841;30873;30848];
 [30870;30843;31100;31106;31101;31097;31249;31256;31257;31250;31255;31253;31266;31251;31259;31248];
 [31395;31394;31390;31467;31590;31588;31597;31604;31593;31602;31589;31603;31601;31600;31585;31608];
 [31606;31587;31922;31924;31919;32136;32134;32128;32141;32127;32133;32122;32142;32123;32131;32124];
 [32140;32148;32132;32125;32146;32621;32619;32615;32616;32620;32678;32677;32679;32731;32732;32801];
 [33124;33120;33143;33116;33129;33115;33122;33138;26401;33118;33142;33127;33135;33092;33121;33309];
 [33353;33348;33344;33346;33349;34033;33855;33878;33910;33913;33935;33933;33893;33873;33856;33926];
 [33895;33840;33869;33917;33882;33881;33908;33907;33885;34055;33886;33847;33850;33844;33914;33859];
 [33912;33842;33861;33833;33753;33867;33839;33858;33837;33887;33904;33849;33870;33868;33874;33903];
 [33989;33934;33851;33863;33846;33843;33896;33918;33860;33835;33888;33876;33902;33872;34571;34564];
 [34551;34572;34554;34518;34549;34637;34552;34574;34569;34561;34550;34573;34565;35030;35019;35021];
 [35022;35038;35035;35034;35020;35024;35205;35227;35295;35301;35300;35297;35296;35298;35292;35302];
 [35446;35462;35455;35425;35391;35447;35458;35460;35445;35459;35457;35444;35450;35900;35915;35914];
 [35941;35940;35942;35974;35972;35973;36044;36200;36201;36241;36236;36238;36239;36237;36243;36244];
 [36240;36242;36336;36320;36332;36337;36334;36304;36329;36323;36322;36327;36338;36331;36340;36614];
 [36607;36609;36608;36613;36615;36616;36610;36619;36946;36927;36932;36937;36925;37136;37133;37135];
 [37137;37142;37140;37131;37134;37230;37231;37448;37458;37424;37434;37478;37427;37477;37470;37507];
 [37422;37450;37446;37485;37484;37455;37472;37479;37487;37430;37473;37488;37425;37460;37475;37456];
 [37490;37454;37459;37452;37462;37426;38303;38300;38302;38299;38546;38547;38545;38551;38606;38650];
 [38653;38648;38645;38771;38775;38776;38770;38927;38925;38926;39084;39158;39161;39343;39346;39344];
 [39349;39597;39595;39771;40170;40173;40167;40576;40701;20710;20692;20695;20712;20723;20699;20714];
 [20701;20708;20691;20716;20720;20719;20707;20704;20952;21120;21121;21225;21227;21296;21420;22055];
 [22037;22028;22034;22012;22031;22044;22017;22035;22018;22010;22045;22020;22015;22009;22665;22652];
 [22672;22680;22662;22657;22655;22644;22667;22650;22663;22673;22670;22646;22658;22664;22651;22676];
 [22671;22782;22891;23260;23278;23269;23253;23274;23258;23277;23275;23283;23266;23264;23259;23276];
 [23262;23261;23257;23272;23263;23415;23520;23523;23651;23938;23936;23933;23942;23930;23937;23927];
 [23946;23945;23944;23934;23932;23949;23929;23935;24152;24153;24147;24280;24273;24279;24270;24284];
 [24277;24281;24274;24276;24388;24387;24431;24502;24876;24872;24897;24926;24945;24947;24914;24915];
 [24946;24940;24960;24948;24916;24954;24923;24933;24891;24938;24929;24918;25129;25127;25131;25643];
 [25677;25691;25693;25716;25718;25714;25715;25725;25717;25702;25766;25678;25730;25694;25692;25675];
 [25683;25696;25680;25727;25663;25708;25707;25689;25701;25719;25971;26016;26273;26272;26271;26373];
 [26372;26402;27057;27062;27081;27040;27086;27030;27056;27052;27068;27025;27033;27022;27047;27021];
 [27049;27070;27055;27071;27076;27069;27044;27092;27065;27082;27034;27087;27059;27027;27050;27041];
 [27038;27097;27031;27024;27074;27061;27045;27078;27466;27469;27467;27550;27551;27552;27587;27588];
 [27646;28366;28405;28401;28419;28453;28408;28471;28411;28462;28425;28494;28441;28442;28455;28440];
 [28475;28434;28397;28426;28470;28531;28409;28398;28461;28480;28464;28476;28469;28395;28423;28430];
 [28483;28421;28413;28406;28473;28444;28412;28474;28447;28429;28446;28424;28449;29063;29072;29065];
 [29056;29061;29058;29071;29051;29062;29057;29079;29252;29267;29335;29333;29331;29507;29517;29521];
 [29516;29794;29811;29809;29813;29810;29799;29806;29952;29954;29955;30077;30096;30230;30216;30220];
 [30229;30225;30218;30228;30392;30593;30588;30597;30594;30574;30592;30575;30590;30595;30898;30890];
 [30900;30893;30888;30846;30891;30878;30885;30880;30892;30882;30884;31128;31114;31115;31126;31125];
 [31124;31123;31127;31112;31122;31120;31275;31306;31280;31279;31272;31270;31400;31403;31404;31470];
 [31624;31644;31626;31633;31632;31638;31629;31628;31643;31630;31621;31640;21124;31641;31652;31618];
 [31931;31935;31932;31930;32167;32183;32194;32163;32170;32193;32192;32197;32157;32206;32196;32198];
 [32203;32204;32175;32185;32150;32188;32159;32166;32174;32169;32161;32201;32627;32738;32739;32741];
 [32734;32804;32861;32860;33161;33158;33155;33159;33165;33164;33163;33301;33943;33956;33953;33951];
 [33978;33998;33986;33964;33966;33963;33977;33972;33985;33997;33962;33946;33969;34000;33949;33959];
 [33979;33954;33940;33991;33996;33947;33961;33967;33960;34006;33944;33974;33999;33952;34007;34004];
 [34002;34011;33968;33937;34401;34611;34595;34600;34667;34624;34606;34590;34593;34585;34587;34627];
 [34604;34625;34622;34630;34592;34610;34602;34605;34620;34578;34618;34609;34613;34626;34598;34599];
 [34616;34596;34586;34608;34577;35063;35047;35057;35058;35066;35070;35054;35068;35062;35067;35056];
 [35052;35051;35229;35233;35231;35230;35305;35307;35304;35499;35481;35467;35474;35471;35478;35901];
 [35944;35945;36053;36047;36055;36246;36361;36354;36351;36365;36349;36362;36355;36359;36358;36357];
 [36350;36352;36356;36624;36625;36622;36621;37155;37148;37152;37154;37151;37149;37146;37156;37153];
 [37147;37242;37234;37241;37235;37541;37540;37494;37531;37498;37536;37524;37546;37517;37542;37530];
 [37547;37497;37527;37503;37539;37614;37518;37506;37525;37538;37501;37512;37537;37514;37510;37516];
 [37529;37543;37502;37511;37545;37533;37515;37421;38558;38561;38655;38744;38781;38778;38782;38787];
 [38784;38786;38779;38788;38785;38783;38862;38861;38934;39085;39086;39170;39168;39175;39325;39324];
 [39363;39353;39355;39354;39362;39357;39367;39601;39651;39655;39742;39743;39776;39777;39775;40177];
 [40178;40181;40615;20735;20739;20784;20728;20742;20743;20726;20734;20747;20748;20733;20746;21131];
 [21132;21233;21231;22088;22082;22092;22069;22081;22090;22089;22086;22104;22106;22080;22067;22077];
 [22060;22078;22072;22058;22074;22298;22699;22685;22705;22688;22691;22703;22700;22693;22689;22783];
 [23295;23284;23293;23287;23286;23299;23288;23298;23289;23297;23303;23301;23311;23655;23961;23959];
 [23967;23954;23970;23955;23957;23968;23964;23969;23962;23966;24169;24157;24160;24156;32243;24283];
 [24286;24289;24393;24498;24971;24963;24953;25009;25008;24994;24969;24987;24979;25007;25005;24991];
 [24978;25002;24993;24973;24934;25011;25133;25710;25712;25750;25760;25733;25751;25756;25743;25739];
 [25738;25740;25763;25759;25704;25777;25752;25974;25978;25977;25979;26034;26035;26293;26288;26281];
 [26290;26295;26282;26287;27136;27142;27159;27109;27128;27157;27121;27108;27168;27135;27116;27106];
 [27163;27165;27134;27175;27122;27118;27156;27127;27111;27200;27144;27110;27131;27149;27132;27115];
 [27145;27140;27160;27173;27151;27126;27174;27143;27124;27158;27473;27557;27555;27554;27558;27649];
 [27648;27647;27650;28481;28454;28542;28551;28614;28562;28557;28553;28556;28514;28495;28549;28506];
 [28566;28534;28524;28546;28501;28530;28498;28496;28503;28564;28563;28509;28416;28513;28523;28541];
 [28519;28560;28499;28555;28521;28543;28565;28515;28535;28522;28539;29106;29103;29083;29104;29088];
 [29082;29097;29109;29085;29093;29086;29092;29089;29098;29084;29095;29107;29336;29338;29528;29522];
 [29534;29535;29536;29533;29531;29537;29530;29529;29538;29831;29833;29834;29830;29825;29821;29829];
 [29832;29820;29817;29960;29959;30078;30245;30238;30233;30237;30236;30243;30234;30248;30235;30364];
 [30365;30366;30363;30605;30607;30601;30600;30925;30907;30927;30924;30929;30926;30932;30920;30915];
 [30916;30921;31130;31137;31136;31132;31138;31131;27510;31289;31410;31412;31411;31671;31691;31678];
 [31660;31694;31663;31673;31690;31669;31941;31944;31948;31947;32247;32219;32234;32231;32215;32225];
 [32259;32250;32230;32246;32241;32240;32238;32223;32630;32684;32688;32685;32749;32747;32746;32748];
 [32742;32744;32868;32871;33187;33183;33182;33173;33186;33177;33175;33302;33359;33363;33362;33360];
 [33358;33361;34084;34107;34063;34048;34089;34062;34057;34061;34079;34058;34087;34076;34043;34091];
 [34042;34056;34060;34036;34090;34034;34069;34039;34027;34035;34044;34066;34026;34025;34070;34046];
 [34088;34077;34094;34050;34045;34078;34038;34097;34086;34023;34024;34032;34031;34041;34072;34080];
 [34096;34059;34073;34095;34402;34646;34659;34660;34679;34785;34675;34648;34644;34651;34642;34657];
 [34650;34641;34654;34669;34666;34640;34638;34655;34653;34671;34668;34682;34670;34652;34661;34639];
 [34683;34677;34658;34663;34665;34906;35077;35084;35092;35083;35095;35096;35097;35078;35094;35089];
 [35086;35081;35234;35236;35235;35309;35312;35308;35535;35526;35512;35539;35537;35540;35541;35515];
 [35543;35518;35520;35525;35544;35523;35514;35517;35545;35902;35917;35983;36069;36063;36057;36072];
 [36058;36061;36071;36256;36252;36257;36251;36384;36387;36389;36388;36398;36373;36379;36374;36369];
 [36377;36390;36391;36372;36370;36376;36371;36380;36375;36378;36652;36644;36632;36634;36640;36643];
 [36630;36631;36979;36976;36975;36967;36971;37167;37163;37161;37162;37170;37158;37166;37253;37254];
 [37258;37249;37250;37252;37248;37584;37571;37572;37568;37593;37558;37583;37617;37599;37592;37609];
 [37591;37597;37580;37615;37570;37608;37578;37576;37582;37606;37581;37589;37577;37600;37598;37607];
 [37585;37587;37557;37601;37574;37556;38268;38316;38315;38318;38320;38564;38562;38611;38661;38664];
 [38658;38746;38794;38798;38792;38864;38863;38942;38941;38950;38953;38952;38944;38939;38951;39090];
 [39176;39162;39185;39188;39190;39191;39189;39388;39373;39375;39379;39380;39374;39369;39382;39384];
 [39371;39383;39372;39603;39660;39659;39667;39666;39665;39750;39747;39783;39796;39793;39782;39798];
 [39797;39792;39784;39780;39788;40188;40186;40189;40191;40183;40199;40192;40185;40187;40200;40197];
 [40196;40579;40659;40719;40720;20764;20755;20759;20762;20753;20958;21300;21473;22128;22112;22126];
 [22131;22118;22115;22125;22130;22110;22135;22300;22299;22728;22717;22729;22719;22714;22722;22716];
 [22726;23319;23321;23323;23329;23316;23315;23312;23318;23336;23322;23328;23326;23535;23980;23985];
 [23977;23975;23989;23984;23982;23978;23976;23986;23981;23983;23988;24167;24168;24166;24175;24297];
 [24295;24294;24296;24293;24395;24508;24989;25000;24982;25029;25012;25030;25025;25036;25018;25023];
 [25016;24972;25815;25814;25808;25807;25801;25789;25737;25795;25819;25843;25817;25907;25983;25980];
 [26018;26312;26302;26304;26314;26315;26319;26301;26299;26298;26316;26403;27188;27238;27209;27239];
 [27186;27240;27198;27229;27245;27254;27227;27217;27176;27226;27195;27199;27201;27242;27236;27216];
 [27215;27220;27247;27241;27232;27196;27230;27222;27221;27213;27214;27206;27477;27476;27478;27559];
 [27562;27563;27592;27591;27652;27651;27654;28589;28619;28579;28615;28604;28622;28616;28510;28612];
 [28605;28574;28618;28584;28676;28581;28590;28602;28588;28586;28623;28607;28600;28578;28617;28587];
 [28621;28591;28594;28592;29125;29122;29119;29112;29142;29120;29121;29131;29140;29130;29127;29135];
 [29117;29144;29116;29126;29146;29147;29341;29342;29545;29542;29543;29548;29541;29547;29546;29823];
 [29850;29856;29844;29842;29845;29857;29963;30080;30255;30253;30257;30269;30259;30268;30261;30258];
 [30256;30395;30438;30618;30621;30625;30620;30619;30626;30627;30613;30617;30615;30941;30953;30949];
 [30954;30942;30947;30939;30945;30946;30957;30943;30944;31140;31300;31304;31303;31414;31416;31413];
 [31409;31415;31710;31715;31719;31709;31701;31717;31706;31720;31737;31700;31722;31714;31708;31723];
 [31704;31711;31954;31956;31959;31952;31953;32274;32289;32279;32268;32287;32288;32275;32270;32284];
 [32277;32282;32290;32267;32271;32278;32269;32276;32293;32292;32579;32635;32636;32634;32689;32751];
 [32810;32809;32876;33201;33190;33198;33209;33205;33195;33200;33196;33204;33202;33207;33191;33266];
 [33365;33366;33367;34134;34117;34155;34125;34131;34145;34136;34112;34118;34148;34113;34146;34116];
 [34129;34119;34147;34110;34139;34161;34126;34158;34165;34133;34151;34144;34188;34150;34141;34132];
 [34149;34156;34403;34405;34404;34715;34703;34711;34707;34706;34696;34689;34710;34712;34681;34695];
 [34723;34693;34704;34705;34717;34692;34708;34716;34714;34697;35102;35110;35120;35117;35118;35111];
 [35121;35106;35113;35107;35119;35116;35103;35313;35552;35554;35570;35572;35573;35549;35604;35556];
 [35551;35568;35528;35550;35553;35560;35583;35567;35579;35985;35986;35984;36085;36078;36081;36080];
 [36083;36204;36206;36261;36263;36403;36414;36408;36416;36421;36406;36412;36413;36417;36400;36415];
 [36541;36662;36654;36661;36658;36665;36663;36660;36982;36985;36987;36998;37114;37171;37173;37174];
 [37267;37264;37265;37261;37263;37671;37662;37640;37663;37638;37647;37754;37688;37692;37659;37667];
 [37650;37633;37702;37677;37646;37645;37579;37661;37626;37669;37651;37625;37623;37684;37634;37668];
 [37631;37673;37689;37685;37674;37652;37644;37643;37630;37641;37632;37627;37654;38332;38349;38334];
 [38329;38330;38326;38335;38325;38333;38569;38612;38667;38674;38672;38809;38807;38804;38896;38904];
 [38965;38959;38962;39204;39199;39207;39209;39326;39406;39404;39397;39396;39408;39395;39402;39401];
 [39399;39609;39615;39604;39611;39670;39674;39673;39671;39731;39808;39813;39815;39804;39806;39803];
 [39810;39827;39826;39824;39802;39829;39805;39816;40229;40215;40224;40222;40212;40233;40221;40216];
 [40226;40208;40217;40223;40584;40582;40583;40622;40621;40661;40662;40698;40722;40765;20774;20773];
 [20770;20772;20768;20777;21236;22163;22156;22157;22150;22148;22147;22142;22146;22143;22145;22742];
 [22740;22735;22738;23341;23333;23346;23331;23340;23335;23334;23343;23342;23419;23537;23538;23991];
 [24172;24170;24510;24507;25027;25013;25020;25063;25056;25061;25060;25064;25054;25839;25833;25827];
 [25835;25828;25832;25985;25984;26038;26074;26322;27277;27286;27265;27301;27273;27295;27291;27297];
 [27294;27271;27283;27278;27285;27267;27304;27300;27281;27263;27302;27290;27269;27276;27282;27483];
 [27565;27657;28620;28585;28660;28628;28643;28636;28653;28647;28646;28638;28658;28637;28642;28648];
 [29153;29169;29160;29170;29156;29168;29154;29555;29550;29551;29847;29874;29867;29840;29866;29869];
 [29873;29861;29871;29968;29969;29970;29967;30084;30275;30280;30281;30279;30372;30441;30645;30635];
 [30642;30647;30646;30644;30641;30632;30704;30963;30973;30978;30971;30972;30962;30981;30969;30974];
 [30980;31147;31144;31324;31323;31318;31320;31316;31322;31422;31424;31425;31749;31759;31730;31744];
 [31743;31739;31758;31732;31755;31731;31746;31753;31747;31745;31736;31741;31750;31728;31729;31760];
 [31754;31976;32301;32316;32322;32307;38984;32312;32298;32329;32320;32327;32297;32332;32304;32315];
 [32310;32324;32314;32581;32639;32638;32637;32756;32754;32812;33211;33220;33228;33226;33221;33223];
 [33212;33257;33371;33370;33372;34179;34176;34191;34215;34197;34208;34187;34211;34171;34212;34202];
 [34206;34167;34172;34185;34209;34170;34168;34135;34190;34198;34182;34189;34201;34205;34177;34210];
 [34178;34184;34181;34169;34166;34200;34192;34207;34408;34750;34730;34733;34757;34736;34732;34745];
 [34741;34748;34734;34761;34755;34754;34764;34743;34735;34756;34762;34740;34742;34751;34744;34749];
 [34782;34738;35125;35123;35132;35134;35137;35154;35127;35138;35245;35247;35246;35314;35315;35614];
 [35608;35606;35601;35589;35595;35618;35599;35602;35605;35591;35597;35592;35590;35612;35603;35610];
 [35919;35952;35954;35953;35951;35989;35988;36089;36207;36430;36429;36435;36432;36428;36423;36675];
 [36672;36997;36990;37176;37274;37282;37275;37273;37279;37281;37277;37280;37793;37763;37807;37732];
 [37718;37703;37756;37720;37724;37750;37705;37712;37713;37728;37741;37775;37708;37738;37753;37719];
 [37717;37714;37711;37745;37751;37755;37729;37726;37731;37735;37760;37710;37721;38343;38336;38345];
 [38339;38341;38327;38574;38576;38572;38688;38687;38680;38685;38681;38810;38817;38812;38814;38813];
 [38869;38868;38897;38977;38980;38986;38985;38981;38979;39205;39211;39212;39210;39219;39218;39215];
 [39213;39217;39216;39320;39331;39329;39426;39418;39412;39415;39417;39416;39414;39419;39421;39422];
 [39420;39427;39614;39678;39677;39681;39676;39752;39834;39848;39838;39835;39846;39841;39845;39844];
 [39814;39842;39840;39855;40243;40257;40295;40246;40238;40239;40241;40248;40240;40261;40258;40259];
 [40254;40247;40256;40253;32757;40237;40586;40585;40589;40624;40648;40666;40699;40703;40740;40739];
 [40738;40788;40864;20785;20781;20782;22168;22172;22167;22170;22173;22169;22896;23356;23657;23658];
 [24000;24173;24174;25048;25055;25069;25070;25073;25066;25072;25067;25046;25065;25855;25860;25853];
 [25848;25857;25859;25852;26004;26075;26330;26331;26328;27333;27321;27325;27361;27334;27322;27318];
 [27319;27335;27316;27309;27486;27593;27659;28679;28684;28685;28673;28677;28692;28686;28671;28672];
 [28667;28710;28668;28663;28682;29185;29183;29177;29187;29181;29558;29880;29888;29877;29889;29886];
 [29878;29883;29890;29972;29971;30300;30308;30297;30288;30291;30295;30298;30374;30397;30444;30658];
 [30650;30975;30988;30995;30996;30985;30992;30994;30993;31149;31148;31327;31772;31785;31769;31776];
 [31775;31789;31773;31782;31784;31778;31781;31792;32348;32336;32342;32355;32344;32354;32351;32337];
 [32352;32343;32339;32693;32691;32759;32760;32885;33233;33234;33232;33375;33374;34228;34246;34240];
 [34243;34242;34227;34229;34237;34247;34244;34239;34251;34254;34248;34245;34225;34230;34258;34340];
 [34232;34231;34238;34409;34791;34790;34786;34779;34795;34794;34789;34783;34803;34788;34772;34780];
 [34771;34797;34776;34787;34724;34775;34777;34817;34804;34792;34781;35155;35147;35151;35148;35142];
 [35152;35153;35145;35626;35623;35619;35635;35632;35637;35655;35631;35644;35646;35633;35621;35639];
 [35622;35638;35630;35620;35643;35645;35642;35906;35957;35993;35992;35991;36094;36100;36098;36096];
 [36444;36450;36448;36439;36438;36446;36453;36455;36443;36442;36449;36445;36457;36436;36678;36679];
 [36680;36683;37160;37178;37179;37182;37288;37285;37287;37295;37290;37813;37772;37778;37815;37787];
 [37789;37769;37799;37774;37802;37790;37798;37781;37768;37785;37791;37773;37809;37777;37810;37796];
 [37800;37812;37795;37797;38354;38355;38353;38579;38615;38618;24002;38623;38616;38621;38691;38690];
 [38693;38828;38830;38824;38827;38820;38826;38818;38821;38871;38873;38870;38872;38906;38992;38993];
 [38994;39096;39233;39228;39226;39439;39435;39433;39437;39428;39441;39434;39429;39431;39430;39616];
 [39644;39688;39684;39685;39721;39733;39754;39756;39755;39879;39878;39875;39871;39873;39861;39864];
 [39891;39862;39876;39865;39869;40284;40275;40271;40266;40283;40267;40281;40278;40268;40279;40274];
 [40276;40287;40280;40282;40590;40588;40671;40705;40704;40726;40741;40747;40746;40745;40744;40780];
 [40789;20788;20789;21142;21239;21428;22187;22189;22182;22183;22186;22188;22746;22749;22747;22802];
 [23357;23358;23359;24003;24176;24511;25083;25863;25872;25869;25865;25868;25870;25988;26078;26077];
 [26334;27367;27360;27340;27345;27353;27339;27359;27356;27344;27371;27343;27341;27358;27488;27568];
 [27660;28697;28711;28704;28694;28715;28705;28706;28707;28713;28695;28708;28700;28714;29196;29194];
 [29191;29186;29189;29349;29350;29348;29347;29345;29899;29893;29879;29891;29974;30304;30665;30666];
 [30660;30705;31005;31003;31009;31004;30999;31006;31152;31335;31336;31795;31804;31801;31788;31803];
 [31980;31978;32374;32373;32376;32368;32375;32367;32378;32370;32372;32360;32587;32586;32643;32646];
 [32695;32765;32766;32888;33239;33237;33380;33377;33379;34283;34289;34285;34265;34273;34280;34266];
 [34263;34284;34290;34296;34264;34271;34275;34268;34257;34288;34278;34287;34270;34274;34816;34810];
 [34819;34806;34807;34825;34828;34827;34822;34812;34824;34815;34826;34818;35170;35162;35163;35159];
 [35169;35164;35160;35165;35161;35208;35255;35254;35318;35664;35656;35658;35648;35667;35670;35668];
 [35659;35669;35665;35650;35666;35671;35907;35959;35958;35994;36102;36103;36105;36268;36266;36269];
 [36267;36461;36472;36467;36458;36463;36475;36546;36690;36689;36687;36688;36691;36788;37184;37183];
 [37296;37293;37854;37831;37839;37826;37850;37840;37881;37868;37836;37849;37801;37862;37834;37844];
 [37870;37859;37845;37828;37838;37824;37842;37863;38269;38362;38363;38625;38697;38699;38700;38696];
 [38694;38835;38839;38838;38877;38878;38879;39004;39001;39005;38999;39103;39101;39099;39102;39240];
 [39239;39235;39334;39335;39450;39445;39461;39453;39460;39451;39458;39456;39463;39459;39454;39452];
 [39444;39618;39691;39690;39694;39692;39735;39914;39915;39904;39902;39908;39910;39906;39920;39892];
 [39895;39916;39900;39897;39909;39893;39905;39898;40311;40321;40330;40324;40328;40305;40320;40312];
 [40326;40331;40332;40317;40299;40308;40309;40304;40297;40325;40307;40315;40322;40303;40313;40319];
 [40327;40296;40596;40593;40640;40700;40749;40768;40769;40781;40790;40791;40792;21303;22194;22197];
 [22195;22755;23365;24006;24007;24302;24303;24512;24513;25081;25879;25878;25877;25875;26079;26344];
 [26339;26340;27379;27376;27370;27368;27385;27377;27374;27375;28732;28725;28719;28727;28724;28721];
 [28738;28728;28735;28730;28729;28736;28731;28723;28737;29203;29204;29352;29565;29564;29882;30379];
 [30378;30398;30445;30668;30670;30671;30669;30706;31013;31011;31015;31016;31012;31017;31154;31342];
 [31340;31341;31479;31817;31816;31818;31815;31813;31982;32379;32382;32385;32384;32698;32767;32889];
 [33243;33241;33291;33384;33385;34338;34303;34305;34302;34331;34304;34294;34308;34313;34309;34316];
 [34301;34841;34832;34833;34839;34835;34838;35171;35174;35257;35319;35680;35690;35677;35688;35683];
 [35685;35687;35693;36270;36486;36488;36484;36697;36694;36695;36693;36696;36698;37005;37187;37185];
 [37303;37301;37298;37299;37899;37907;37883;37920;37903;37908;37886;37909;37904;37928;37913;37901];
 [37877;37888;37879;37895;37902;37910;37906;37882;37897;37880;37898;37887;37884;37900;37878;37905];
 [37894;38366;38368;38367;38702;38703;38841;38843;38909;38910;39008;39010;39011;39007;39105;39106];
 [39248;39246;39257;39244;39243;39251;39474;39476;39473;39468;39466;39478;39465;39470;39480;39469];
 [39623;39626;39622;39696;39698;39697;39947;39944;39927;39941;39954;39928;40000;39943;39950;39942];
 [39959;39956;39945;40351;40345;40356;40349;40338;40344;40336;40347;40352;40340;40348;40362;40343];
 [40353;40346;40354;40360;40350;40355;40383;40361;40342;40358;40359;40601;40603;40602;40677;40676];
 [40679;40678;40752;40750;40795;40800;40798;40797;40793;40849;20794;20793;21144;21143;22211;22205];
 [22206;23368;23367;24011;24015;24305;25085;25883;27394;27388;27395;27384;27392;28739;28740;28746];
 [28744;28745;28741;28742;29213;29210;29209;29566;29975;30314;30672;31021;31025;31023;31828;31827];
 [31986;32394;32391;32392;32395;32390;32397;32589;32699;32816;33245;34328;34346;34342;34335;34339];
 [34332;34329;34343;34350;34337;34336;34345;34334;34341;34857;34845;34843;34848;34852;34844;34859];
 [34890;35181;35177;35182;35179;35322;35705;35704;35653;35706;35707;36112;36116;36271;36494;36492];
 [36702;36699;36701;37190;37188;37189;37305;37951;37947;37942;37929;37949;37948;37936;37945;37930];
 [37943;37932;37952;37937;38373;38372;38371;38709;38714;38847;38881;39012;39113;39110;39104;39256];
 [39254;39481;39485;39494;39492;39490;39489;39482;39487;39629;39701;39703;39704;39702;39738;39762];
 [39979;39965;39964;39980;39971;39976;39977;39972;39969;40375;40374;40380;40385;40391;40394;40399];
 [40382;40389;40387;40379;40373;40398;40377;40378;40364;40392;40369;40365;40396;40371;40397;40370];
 [40570;40604;40683;40686;40685;40731;40728;40730;40753;40782;40805;40804;40850;20153;22214;22213];
 [22219;22897;23371;23372;24021;24017;24306;25889;25888;25894;25890;27403;27400;27401;27661;28757];
 [28758;28759;28754;29214;29215;29353;29567;29912;29909;29913;29911;30317;30381;31029;31156;31344];
 [31345;31831;31836;31833;31835;31834;31988;31985;32401;32591;32647;33246;33387;34356;34357;34355];
 [34348;34354;34358;34860;34856;34854;34858;34853;35185;35263;35262;35323;35710;35716;35714;35718];
 [35717;35711;36117;36501;36500;36506;36498;36496;36502;36503;36704;36706;37191;37964;37968;37962];
 [37963;37967;37959;37957;37960;37961;37958;38719;38883;39018;39017;39115;39252;39259;39502;39507];
 [39508;39500;39503;39496;39498;39497;39506;39504;39632;39705;39723;39739;39766;39765;40006;40008];
 [39999;40004;39993;39987;40001;39996;39991;39988;39986;39997;39990;40411;40402;40414;40410;40395];
 [40400;40412;40401;40415;40425;40409;40408;40406;40437;40405;40413;40630;40688;40757;40755;40754];
 [40770;40811;40853;40866;20797;21145;22760;22759;22898;23373;24024;34863;24399;25089;25091;25092];
 [25897;25893;26006;26347;27409;27410;27407;27594;28763;28762;29218;29570;29569;29571;30320;30676];
 [31847;31846;32405;33388;34362;34368;34361;34364;34353;34363;34366;34864;34866;34862;34867;35190];
 [35188;35187;35326;35724;35726;35723;35720;35909;36121;36504;36708;36707;37308;37986;37973;37981];
 [37975;37982;38852;38853;38912;39510;39513;39710;39711;39712;40018;40024;40016;40010;40013;40011];
 [40021;40025;40012;40014;40443;40439;40431;40419;40427;40440;40420;40438;40417;40430;40422;40434];
 [40432;40418;40428;40436;40435;40424;40429;40642;40656;40690;40691;40710;40732;40760;40759;40758];
 [40771;40783;40817;40816;40814;40815;22227;22221;23374;23661;25901;26349;26350;27411;28767;28769];
 [28765;28768;29219;29915;29925;30677;31032;31159;31158;31850;32407;32649;33389;34371;34872;34871];
 [34869;34891;35732;35733;36510;36511;36512;36509;37310;37309;37314;37995;37992;37993;38629;38726];
 [38723;38727;38855;38885;39518;39637;39769;40035;40039;40038;40034;40030;40032;40450;40446;40455];
 [40451;40454;40453;40448;40449;40457;40447;40445;40452;40608;40734;40774;40820;40821;40822;22228];
 [25902;26040;27416;27417;27415;27418;28770;29222;29354;30680;30681;31033;31849;31851;31990;32410];
 [32408;32411;32409;33248;33249;34374;34375;34376;35193;35194;35196;35195;35327;35736;35737;36517];
 [36516;36515;37998;37997;37999;38001;38003;38729;39026;39263;40040;40046;40045;40459;40461;40464];
 [40463;40466;40465;40609;40693;40713;40775;40824;40827;40826;40825;22302;28774;31855;34876;36274];
 [36518;37315;38004;38008;38006;38005;39520;40052;40051;40049;40053;40468;40467;40694;40714;40868];
 [28776;28773;31991;34410;34878;34877;34879;35742;35996;36521;36553;38731;39027;39028;39116;39265];
 [39339;39524;39526;39527;39716;40469;40471;40776;25095;27422;29223;34380;36520;38018;38016;38017];
 [39529;39528;39726;40473;29225;34379;35743;38019;40057;40631;30325;39531;40058;40477;28777;28778];
 [40612;40830;40777;40856]].

(* lib/converters/big5.h:1915-3630 big5_2charset *)
Definition big5_2charset : tab := mk [
 [41542;41543;41540;41393;41560;41427;41296;41425;41426;41918;41916;41917;41919;41915;41796;41797];
 [41798;41799;41800;41801;41802;41803;41804;41805;41806;41807;41808;41809;41810;41811;41812;41813];
 [41814;41815;41816;41817;41818;41819;41820;41821;41822;41823;41824;41825;41826;41827;41828;41829];
 [41830;41831;41832;41833;41834;41835;41836;41837;41838;41839;41840;41841;41842;41843;51123;51121];
 [51122;51124;51125;51126;51127;51128;51129;51130;51131;51132;51133;51134;51135;51136;51137;51138];
 [51139;51140;51141;51142;51143;51144;51145;51146;51147;51148;51149;51151;51152;51153;51154;51155];
 [51156;51157;51158;51159;51160;51161;51162;51163;51164;51165;51166;51167;51168;51169;51170;51171];
 [51172;51173;51174;51175;51176;51150;41302;41304;41381;41382;41383;41384;41285;41292;41291;41388];
 [41387;41392;41410;41546;41409;41547;41657;41658;41659;41660;41661;41662;41663;41664;41665;41666];
 [41462;41460;41463;41461;41464;41465;41467;41466;41428;41435;41448;41447;41469;41468;41444;41445];
 [41452;41453;41455;41454;41443;41436;41434;41437;41432;41433;41446;41449;51177;51178;51179;51180];
 [51181;51182;51183;51184;51185;51186;51187;51188;51189;51190;51191;51192;51193;51194;51195;51196];
 [41591;41592;41594;41595;41596;41597;41589;41588;41587;41586;41585;41636;41637;41639;41638;41598];
 [41633;41635;41634;41644;41645;41646;41570;41571;41572;41573;41574;41575;41576;41577;41584;41583];
 [41582;41581;41580;41579;41578;41590;41593;41405;41404;41398;41397;41407;41406;41403;41402;41395];
 [41399;41396;41640;41641;41643;41642;41401;41400;41459;41456;41458;41457;41280;41282;41283;41394];
 [50852;41329;41330;41325;41326;41333;41334;41337;41338;41321;41322;41541;41317;41318;41385;41386];
 [41667;41668;41669;41670;41671;41672;41673;41674;41675;50853;50854;50855;50856;50857;50858;50859];
 [50860;50861;50862;50863;50864;50865;50866;50867;50868;50869;50870;50871;50872;50873;50874;50875];
 [50876;50877;50878;50879;50880;50881;50882;50883;50884;50885;50886;50887;50888;50889;50890;50891];
 [50892;50893;50894;50895;50896;50897;50898;50899;50900;50901;50902;50903;50904;50905;50906;50907];
 [50908;50909;50910;50911;50912;50913;50914;50915;50916;50917;50918;50919;50920;50921;50922;50923];
 [50924;50925;50926;50927;50928;50929;50930;50931;50932;50933;50934;50935;50850;50851;50936;50937];
 [50938;50939;50940;50941;50942;51008;51009;51010;51011;51012;51013;51014;51015;51016;51017;51018];
 [51019;51020;51021;51022;51023;51024;51025;51026;51027;51028;51029;51030;51031;51032;51033;51034];
 [51035;51036;51037;51038;51039;51040;51041;51042;51043;51044;51045;51046;51047;51048;51049;51050];
 [51051;51052;51053;51054;51055;51056;51057;51058;51059;51060;51061;51062;51063;51064;51065;51066];
 [51067;51068;51069;51070;51105;51106;51107;51108;51109;51110;51111;51112;51113;51114;51115;51116];
 [51117;51118;51119;51120;50849;41844;41845;41846;41847;41848;41849;41850;41851;41852;41853;41854];
 [41889;41890;41891;41892;41893;41894;41895;41896;41897;41898;41899;41900;41901;41902;41903;41904];
 [41905;41906;41907;41908;41909;41910;41911;41912;41913;41914;41408;41557;41558;41552;41553;41554];
 [41556;41559;41555;41451;41450;41551;42048;42050;42051;51525;42070;42068;42071;42069;51526;42147];
 [51535;51533;42146;42145;42306;42305;42304;42307;42238;42464;42465;43203;42072;42148;51536;42149];
 [51555;42730;52145;42073;42150;42308;51556;51520;42052;42075;51527;42076;42151;42309;42311;42310];
 [42466;42467;43204;44476;42049;51521;42053;42078;42077;42468;43205;45230;54347;46787;56497;56498];
 [42054;42153;43206;42055;51528;42079;42154;42156;51537;42157;42155;42469;43207;43208;43845;42080];
 [42158;42470;42472;42471;42731;43209;43210;43846;43847;44477;56499;63190;42056;42160;42159;51538];
 [42161;42167;42162;42163;51540;51539;42165;42166;42164;42314;42315;42316;42317;42313;42320;51562];
 [51558;51561;42321;42337;51560;42318;42319;42312;51557;51559;42485;51632;42482;42486;51642;51630];
 [42483;51634;42484;42487;42473;51633;42488;51637;51641;51638;51635;42474;42476;42489;42478;51627];
 [42481;42479;42480;51643;51640;51631;42477;51628;42475;51636;51639;51629;51814;42818;42740;51815];
 [42737;42820;42745;42744;51803;42748;42743;51808;51816;51812;42746;42749;42734;42823;51805;52157];
 [42732;42819;42733;42741;42742;51810;51806;42747;42739;51802;42735;51813;42821;42824;42738;42816];
 [42822;42736;51811;42817;51817;51804;42750;51807;51809;43224;52159;52171;43216;52172;43211;43221];
 [43214;52153;43222;52152;52156;52163;52161;43230;43225;52147;52149;43227;43215;52150;52162;52169];
 [43220;52155;52148;43219;52151;43223;52154;43218;43213;43228;52164;43229;52168;52166;52170;43226];
 [52158;52146;52160;43217;52165;43212;52167;43862;43850;52704;52712;43849;43857;43869;52718;52716];
 [52711;43851;52717;52707;43865;43856;43864;52702;52714;52705;43860;52706;52701;43867;43854;43863];
 [43853;52703;52708;52715;43861;43858;52710;43866;52713;52709;43855;43868;43859;43852;43848;52719];
 [44503;44481;44497;44502;53456;53455;53460;53461;44484;44493;44506;44494;53449;44487;53450;44508];
 [44499;44478;44479;53469;45247;44492;44491;53451;44495;54363;44486;53462;44501;44500;44490;53454];
 [53463;53448;44489;53464;44498;53452;44480;44483;44482;53465;44496;44485;44505;44507;53459;44504];
 [53467;53453;53468;53457;53466;53458;44488;54371;54359;45235;54364;54370;45234;54357;45238;54361];
 [54354;45236;54358;45241;45246;54375;54353;45242;54374;45237;54360;45233;54355;54351;54365;54352];
 [54350;54362;54368;54369;45239;55387;54366;54349;54367;45249;54372;45248;54348;54356;54373;45244];
 [45243;45240;45245;45231;45232;46024;55390;55383;46021;55391;55381;55384;46020;55385;46023;55389];
 [55379;55378;46025;46026;46022;46027;55377;55388;55386;55380;46019;55382;46794;46788;56503;46797];
 [56509;56512;46790;46791;56506;46789;56515;46795;56516;56511;46796;56500;46793;56501;56510;56508];
 [56504;46792;56502;46798;56507;56514;56505;56513;47542;47539;47540;57593;57585;47538;47535;57586];
 [47537;57589;57591;57598;57597;57592;47534;57584;47532;57587;47543;57590;57594;47536;47533;57596];
 [57595;47541;57588;48120;58604;58601;48121;48119;58608;58605;58598;48118;48122;58599;48117;48125];
 [58602;58603;48123;48124;58609;58606;58607;48810;59640;48807;59637;48809;48811;59638;48808;59639];
 [59636;49270;60605;49271;60603;60604;60602;60601;60606;49269;61368;61369;58600;61367;49272;50015];
 [61931;61932;50391;50392;62913;62912;50540;50539;63440;42057;42081;42169;42168;42323;42322;42492];
 [42491;42493;42490;42826;42825;42827;43232;43231;43233;43870;41561;53470;41562;45250;41564;41563];
 [55392;41565;47544;41566;42058;42170;42494;43234;42059;42173;42171;42172;42560;42828;43236;43235];
 [43237;44509;48812;51534;42324;42325;42561;51818;43872;43871;53472;53471;45251;42174;51541;52173];
 [43873;44512;44510;44511;48813;42326;42562;51644;42829;42830;51819;52174;43238;52175;53474;53475];
 [44515;53476;53473;44516;44514;44513;53477;54376;55393;56517;57664;48126;48814;59641;42060;42074];
 [45252;46029;47545;51522;42175;42329;42327;42328;43239;42061;42062;42082;42176;42177;42178;51646];
 [42330;51563;42566;51647;42564;42565;51645;42567;42563;51820;43756;51821;51822;42832;42831;42835];
 [42833;42834;43245;43244;52180;52177;52178;52176;43246;43242;43241;43243;43240;43247;43875;52720];
 [52179;43880;52721;43876;43879;43878;43877;43874;53480;44519;53483;44517;53479;44520;44518;44521];
 [53481;53482;53478;53484;46033;45253;54377;54379;54378;54380;45254;46030;46031;46032;46800;56519];
 [56518;56520;56521;46801;46799;57665;57666;47547;47546;58202;48192;48193;48194;48196;58610;58611];
 [48195;48815;48816;61933;62915;62914;63441;42063;42332;42331;42568;51648;42837;42838;42836;42839];
 [51823;51824;43249;52181;43248;52722;43884;52723;43883;43881;43882;53485;45255;54382;45258;54381];
 [45541;45257;45256;46036;46035;46034;46802;46805;46806;46804;46803;57667;57668;58613;48197;58612];
 [48817;60607;49273;61934;50261;42083;42179;51542;42180;42181;42333;42334;42569;51825;52182;52183];
 [43885;53486;45260;45259;55395;55394;42064;42182;42335;45261;51523;51564;42336;51650;42571;42570];
 [51649;42840;44522;54383;46807;57669;47548;59642;62461;42183;52184;52724;45264;45262;45263;42065];
 [42084;41677;42186;42185;42184;42339;42338;51565;51651;43253;43250;43252;43251;43886;46037;42066];
 [42187;42341;42340;51826;43254;51543;42343;42342;42572;42573;51827;42841;42842;43255;43256;43257];
 [43887;52725;44523;51524;42188;51652;51828;51829;52185;52186;52727;52726;52729;52728;43888;54384];
 [44525;53487;44524;55396;46038;55397;57670;47549;48198;61935;51544;42344;45265;42067;42085;42190];
 [42189;42191;43259;43258;43260;43889;44526;59643;49743;42086;42346;42361;42356;42351;42350;42357];
 [42355;42348;42362;42349;42345;42360;42359;42358;42347;42354;42353;42363;42352;42579;42585;42581];
 [42587;51653;42584;42574;42577;42580;42576;42583;42586;42575;42578;42582;42588;51838;51835;42855];
 [51836;42843;42845;42869;42864;51877;51837;42847;42849;51876;42856;51832;42868;42870;42844;42861];
 [51830;42867;42852;42862;42863;51831;42860;42858;42859;42865;51873;42846;42866;51875;42854;42851];
 [51834;42850;51878;42853;42857;42848;51874;51833;52203;52202;43343;52205;52207;52196;52199;52206];
 [43344;52193;52197;52201;52809;43339;52813;43261;52198;43262;43340;43333;43329;52194;43332;43337];
 [43346;52195;52188;43331;52189;52191;43334;43336;52187;52192;43345;43341;52200;43347;43338;52190];
 [43335;43330;43328;52204;43342;52808;52731;52811;52733;43896;43944;43892;43943;43901;43940;43890];
 [52732;52803;43939;52815;43941;43897;52805;52802;43895;52730;43942;52810;43900;52812;43945;43891];
 [43902;43899;52800;43937;52806;52807;43898;43938;43894;43893;52734;52804;52814;53572;44539;53489];
 [53494;44532;44608;53492;44527;44537;44542;53499;44538;44541;53502;44533;53493;53570;53571;44535];
 [53569;44531;44611;53496;44529;53574;53497;53501;44534;44610;53498;44540;53568;53575;54433;53573];
 [44612;44528;53500;53491;44536;53490;53495;53488;44609;54391;45284;54439;45282;45279;54396;45275];
 [54434;45286;54390;54395;54394;44530;45281;54437;54440;54387;46056;54441;45287;45273;45270;54398];
 [45267;54438;45274;54442;54388;54436;45277;54389;54392;54397;45278;45276;45288;45283;45271;45522];
 [45272;54393;45285;45280;54435;45269;45268;54385;54386;55402;46039;46042;55413;46062;55416;46040];
 [55409;46046;46052;46525;46050;55406;46063;46043;46051;55414;56535;55419;55407;55398;55411;55405];
 [46049;55417;46045;46065;46058;46047;46044;46055;55418;55404;55410;55412;55400;55415;46041;55399];
 [46048;46064;46060;55401;46054;46061;46057;46053;55408;46059;56533;56529;56544;56522;56531;46821];
 [46822;46814;56540;46824;56527;56526;56524;56542;46812;56536;56525;46815;56534;46810;56530;56537];
 [56539;56543;46819;56523;46813;56528;46808;46820;56538;46816;46817;46823;46811;41567;46809;56532];
 [46818;56541;47565;47560;57685;57681;57675;47554;47550;57684;47551;57678;57680;57683;47556;47563];
 [47557;57673;47558;47559;57676;47564;57674;57679;47555;57672;47561;47553;47552;57677;57682;47562];
 [57671;48205;58695;58692;48199;48211;48212;48202;58690;48204;58617;48210;58694;48201;58696;48200];
 [58691;58693;48203;58689;58618;58615;55403;58621;58614;58620;58619;58616;48207;48206;48208;58622];
 [48818;58688;59717;59645;48830;59714;48822;48826;59713;48825;48821;48824;48819;48829;59715;59646];
 [48828;59644;48827;59716;59712;48209;48831;59718;48823;48820;60614;60616;49275;60617;60615;60613];
 [60612;49277;60611;49278;60609;60610;49274;49313;49276;60608;49744;61372;61370;61375;61373;61371];
 [61374;50016;61938;61939;50262;61940;61936;61941;61937;49745;62462;62529;50265;62528;50264;50263];
 [50266;62917;62918;50394;50393;50395;62916;63192;63191;50541;50543;50542;63193;50632;63654;50673];
 [63653;63726;51529;42365;42364;42591;42590;51655;42589;51654;42873;51881;51880;42871;42874;51879];
 [42872;52208;52209;43348;43946;53576;53577;44613;44614;54444;45289;45291;54443;45290;55420;46066];
 [46825;46826;56545;47567;47566;58697;59720;59719;63851;42087;51545;51566;51567;42594;42598;51657];
 [42596;42595;51656;42597;42593;42592;51658;42918;42915;42877;51882;51883;42913;51885;42875;51886];
 [51884;42878;42914;42917;42916;42876;51887;43353;52222;43355;43354;52288;43352;43351;52213;52212];
 [52210;52215;52214;52211;52220;52221;52218;52216;43350;52219;43356;52289;52217;43947;43349;43948];
 [52820;52826;43954;52824;52830;52821;52825;52827;52829;52823;52822;52817;52818;43949;43951;43950];
 [52819;52828;43953;52816;53587;53586;53591;53582;53585;53584;53588;53592;44615;44618;53583;53589];
 [44617;53578;43952;54458;53590;53581;44616;53580;54449;45292;45296;54465;54447;54461;45297;54463];
 [54469;54473;54464;54452;54460;54474;54472;54462;54457;54450;55462;54448;45301;54455;45302;45298];
 [54445;54467;54453;54451;54470;45299;54476;45293;45295;54459;54454;44619;45294;54456;54471;54475];
 [54466;54468;54446;55457;55466;55465;46074;55458;46075;46073;55460;46070;55464;55459;55461;55421];
 [46068;55474;55473;55470;46067;46071;46072;53579;55467;46069;45300;55469;55422;55472;55471;55475];
 [56559;55468;55463;56551;46836;46839;46834;56550;56554;56549;46828;46838;56546;46832;56553;46830];
 [46829;56556;46831;56558;56555;46827;46837;56560;56548;56557;56547;46833;46835;56552;56561;57693];
 [47568;57699;47573;57695;57702;57687;47575;47569;57692;48213;57691;57700;47570;47574;57690;57696];
 [57701;57686;47572;57694;57698;57704;57688;57697;47571;57703;57689;48217;58699;48215;48214;58701];
 [58706;58702;58705;48220;48805;48219;58698;58704;48218;58703;58700;48216;59725;59727;59722;48833];
 [59724;48832;59726;48835;59728;48834;59721;59723;49317;60620;49316;60621;49315;60619;49314;60618];
 [49747;49746;61942;61944;61943;50017;50018;50019;62530;50267;63443;63442;50674;42088;42192;42919];
 [52831;46076;46077;56562;47576;57705;58707;51546;51888;52290;52832;53593;44620;61945;50396;42089];
 [42366;51568;42599;42600;43357;45303;47578;47579;47577;42090;42193;42195;42194;51547;42196;42401];
 [51569;42402;42601;42602;51659;42920;51889;43361;52291;43359;43360;43358;53594;43958;43957;43959];
 [43956;52833;43362;43955;44621;44622;44623;54477;46078;55476;45304;46840;47581;47580;57706;48221];
 [48836;61376;63194;63444;42091;42403;42404;51665;42604;42607;51663;51661;42606;51664;51666;51660];
 [42609;42608;42605;42603;51662;42931;42928;51894;51897;51896;42922;42930;42927;51893;51891;42926];
 [42921;42924;51892;51899;51895;42925;42929;42932;51890;51898;42923;43367;43375;52303;52296;43376];
 [52307;52292;52299;43366;52293;43364;52300;52304;43363;52305;52298;52301;43378;43369;52308;52306];
 [43374;43372;52297;43371;52295;52294;43370;43368;43377;43373;43365;52302;43961;43968;52847;43960];
 [52839;52835;52851;52834;43963;52844;43966;43969;43964;52848;43967;44630;52854;52836;52838;52845];
 [52849;52853;52850;52843;52846;52840;43971;52842;52841;52852;43962;52837;43970;43965;44636;53602];
 [44635;53600;44624;44629;53599;53596;53601;44625;53595;44628;44626;53603;44627;44631;44632;44634];
 [44633;53597;53598;53604;54484;45305;55490;54483;54502;45376;54500;45310;45306;54509;54493;54496];
 [45379;54506;54498;45307;45380;54503;54501;54486;54507;54495;54490;54480;54508;54492;54479;45378];
 [54497;54510;54494;54482;54487;54478;45377;54491;54488;45308;54481;54505;45309;54489;54485;54504];
 [46144;55483;55480;55497;55485;55498;46146;55494;55491;55492;55495;55499;54499;55501;56647;46147];
 [55502;55478;55488;55493;46145;46148;55500;55503;55482;55479;55481;55486;55484;46149;55496;55487];
 [55489;55477;56570;56568;46914;46912;56643;56569;56644;56640;56567;56646;56566;56573;46846;46845];
 [46844;56571;56641;46841;46913;56564;56574;56563;56572;46842;56642;56565;46843;56645;57710;47586];
 [47585;47587;57722;57712;57718;57707;57721;57720;57724;57717;47582;57716;47588;57709;47583;57723];
 [47584;57711;57714;57719;57713;57708;57715;58709;48225;58712;58711;58714;58716;48223;58710;58708];
 [58717;58715;58713;58719;58718;48227;48222;48224;48226;58720;59735;59734;59733;59736;59729;59730];
 [59738;59731;48837;59740;59739;59732;60625;49320;60623;60628;60627;59737;49319;60626;60622;60630];
 [60629;49318;60624;48838;49748;61377;61946;61947;61948;50268;50269;62531;62920;62919;63195;63196];
 [63445;63655;42092;42093;42094;42197;42405;51667;42610;42611;42935;42936;42934;42933;43379;52309];
 [43381;43380;52310;43972;44637;53605;54512;45381;46151;54511;46150;47589;57725;48839;49321;60631];
 [50270;50544;51570;42406;51571;42614;42612;42613;42615;42938;42937;51900;42939;51901;52311;52312];
 [43382;43384;43386;43383;43387;43385;43976;43973;43975;43977;43974;53606;52855;53608;53607;44643];
 [44639;44640;44642;44644;44641;44646;44645;45386;54514;54513;45385;45384;45383;45387;45382;55509];
 [55506;46153;55505;55510;46155;55508;46152;46154;55507;56648;56649;56650;47590;47598;57726;47592];
 [47596;57761;47597;47593;47594;47591;47595;48230;55504;48231;48229;48228;59741;48840;60632;60633];
 [50020;50271;42095;42616;43978;53609;44647;45390;45389;45388;46156;46157;55511;47599;48841;42096];
 [51548;42198;51572;51668;42617;43388;56651;42097;42199;51669;51902;51903;42940;55512;46158;56652];
 [49322;42098;42152;42200;51573;42407;42944;42943;42941;42942;52313;43390;43425;52314;43389;43982];
 [52856;43981;43979;43980;44650;44648;53611;44649;53610;44638;54515;45392;45393;45391;47600;57762];
 [48232;48233;58721;49323;61378;61379;50397;63656;51531;42201;42099;51575;51574;42618;51671;51672];
 [51670;51673;51911;51906;51908;51910;51907;42948;51904;51905;42945;42946;51909;51912;42947;51913];
 [52328;52322;52317;43427;52325;52323;52316;52329;52332;52327;52320;43429;52326;43430;52321;52324];
 [52315;52319;52331;43431;43432;52318;52330;43426;43428;52907;52900;52906;52899;52901;52861;52859];
 [52908;52905;52857;43984;52903;52904;52902;52860;52858;43983;52898;52862;52897;52909;44655;44654];
 [53612;44651;53614;44656;53615;44659;44657;53616;52910;53618;44653;44652;53613;53617;44658;45395];
 [45394;54517;54521;54523;45396;54526;45400;54593;45402;45398;45406;45403;54519;45397;54518;54516];
 [54595;54520;45399;54594;45404;54525;54524;45405;54522;45401;54596;54592;55527;55534;55523;46161];
 [55519;55535;55513;55532;55530;55524;55533;55526;55518;55536;55516;55529;55514;55537;46162;55531];
 [56655;55517;46159;55521;46160;55520;55525;55522;55528;56659;56662;56654;56656;56661;56660;46915];
 [55515;56658;46916;56653;56657;57769;57776;57767;57774;57765;57773;57777;57764;57768;57763;47601];
 [57766;47602;57772;57771;57770;57775;58725;58727;48235;58728;58723;58722;58732;58730;48234;58733];
 [58724;58729;58731;58726;59745;59750;59744;59749;59742;59752;59748;59753;59747;59743;59751;59754];
 [59746;60634;49327;49325;49324;49326;61380;61810;61949;62532;62533;50272;62921;50398;62922;63198];
 [50546;50545;63197;50633;63446;42100;42619;51674;51914;43189;45407;42101;42410;42409;42408;42949];
 [44660;56663;42102;42103;42104;42202;43985;52911;46163;42105;51549;42411;42412;51576;42620;51915];
 [42950;51916;43438;52334;43436;43435;52333;43433;52335;43434;43437;43986;43988;52915;52912;52913];
 [52914;52916;43987;53620;53619;44662;44661;45410;54598;45409;45411;45408;46165;54597;46166;55539];
 [46167;55538;46164;56666;56668;46917;56667;56665;56664;57780;47607;47605;47606;57778;57779;47603];
 [58737;58735;48237;58736;48238;48236;47604;59757;59755;59756;58734;60636;49328;60635;61381;61382];
 [59758;61950;42106;42413;42622;51675;42621;43439;46918;42203;42414;43989;46168;51577;51578;51676];
 [42952;51920;51918;42953;51917;51919;51921;42951;43443;43444;43441;43440;52920;43442;43990;52919];
 [52921;52918;52922;43991;44665;53621;53623;44663;53624;44664;53622;52917;54599;54602;54603;54600];
 [45415;45414;45412;45413;54601;45416;46170;46171;46172;56669;56671;56673;46920;46919;46169;56672];
 [56670;57784;57782;57788;47608;57789;57786;47609;57783;57781;57787;48240;58739;57785;48242;58740];
 [48241;48244;58741;48239;48243;59763;59761;59760;59762;59759;50022;62534;62535;62923;63199;50773];
 [43445;42954;43992;42107;42204;42415;51677;42955;51922;52923;43993;47610;42108;42657;46921;42109];
 [42205;42206;42417;42416;51678;42658;51923;42956;52337;52338;52339;43446;43447;52336;43448;43994];
 [52924;53626;44666;53625;45417;54604;45418;54605;46173;56674;57791;57790;47611;48245;58742;48842];
 [59764;49329;50547;63448;52340;52925;45419;55540;46922;49749;42958;42957;43995;53627;45421;45891];
 [45422;45420;46174;57792;47612;48246;51532;51679;51925;42959;51924;42960;43452;52343;52342;43451];
 [43449;43450;52341;43997;52926;44000;43996;44002;43998;43999;44001;44669;44668;44667;54607;45423];
 [45426;45424;54606;45429;45425;54608;45428;45427;55542;55541;46177;46175;46176;55543;46923;56676];
 [46924;56675;58743;48248;57793;48247;47613;60638;59765;49330;60637;62016;62536;62537;42207;42418];
 [51579;42962;42964;51682;51928;51927;51926;51681;51680;42660;42963;42961;42659;43453;52344;43454];
 [51933;51935;51934;52345;51930;42968;42966;51929;51931;51937;42965;51932;51941;43456;51938;42967];
 [51936;51939;43455;43457;51940;52399;52386;52350;52398;52393;44007;43458;52394;52397;44003;52396];
 [43459;43464;43462;52387;52348;52389;43469;52400;44004;52390;44005;43465;52392;52941;44006;52347];
 [43466;44008;43467;43463;43468;52391;52346;52395;43460;52349;52388;52385;43461;52927;52928;52938];
 [53665;52939;44014;52942;52932;44013;52934;52935;52937;44009;44707;52933;52929;44708;52943;44670];
 [53629;52936;53628;52931;52940;44012;44705;44018;44706;52944;53630;44011;44710;44017;44016;44015];
 [44709;52945;44711;44010;52930;45430;53668;53670;53672;44712;44718;54611;53676;53667;45432;54609];
 [44717;44715;53678;54610;53669;44716;53673;44719;53675;44714;53674;53677;53671;44713;45433;53666];
 [45431;45434;54613;54622;46180;45436;45475;46181;54624;45482;55545;54614;45474;45477;45438;54612];
 [54626;54629;55625;54627;55549;45473;45480;45484;54621;55544;54625;45435;55546;54628;55548;54617];
 [46178;54615;54616;45479;45478;54619;45483;54623;45476;54620;45481;46182;46179;55547;54618;45437];
 [46187;46191;55616;46929;46189;55620;46193;56677;55622;46931;46185;46188;55623;55624;55630;46195];
 [46932;55626;55631;55619;46942;46933;46194;55617;55632;46941;46192;46926;55629;46196;55621;55550];
 [46186;55618;55627;46925;46930;46183;55628;46928;46184;46940;57795;56688;56680;57794;56684;56686];
 [56683;46939;56682;46943;57810;46938;47680;56689;57796;46936;56681;56685;47614;46927;56678;56679];
 [47681;46935;46937;46934;56687;57800;57801;57806;48253;57813;47687;47686;57808;48252;57797;47685];
 [57812;47683;47684;57809;58794;48250;46190;57811;48291;57803;48251;48290;57798;57802;57799;57805];
 [47688;48249;47682;58746;57807;48289;48292;57804;48254;58745;58750;48846;58744;59811;58793;48296];
 [48294;48844;58790;58786;48300;59768;48298;58785;59766;58789;58792;58749;48299;48293;59767;48845];
 [58791;48295;48297;58788;48301;58787;58748;58747;48843;58795;59770;60640;48848;59810;59774;60641];
 [48849;59809;59772;49332;60639;59769;59771;49333;48851;49331;48850;49335;59773;48847;61391;61383];
 [60647;61384;60643;49750;60645;60644;49334;60642;60646;61392;61388;61390;61385;61386;61389;61387];
 [50023;50026;50025;50024;50273;62538;50274;62017;50399;62924;50400;50548;50634;63449;63450;63451];
 [63930;42208;51580;42419;42662;42663;42661;42664;42970;42969;52401;43471;43470;53679;45485;45486];
 [46197;56690;46944;46945;56692;56694;56693;57815;57814;47689;57816;58796;48302;48852;49336;49751];
 [49337;42209;51942;52402;43473;43472;43474;44019;52946;52947;53680;44720;45487;46198;55633;42210];
 [42110;42211;51581;42423;42422;42420;42421;42667;51689;51691;42666;51683;51684;51690;51686;51688];
 [42665;51685;51692;51687;42977;42986;42984;51952;51949;51957;42982;51958;42975;51955;42981;51951];
 [51950;42979;51956;42980;43475;42974;51953;51943;42971;42990;51948;51954;42976;42978;51944;51945];
 [51946;42989;42983;42988;51947;42987;42973;42972;42985;43489;52414;52407;43484;43503;52403;52410];
 [52412;52415;43498;52411;52404;43496;52408;52416;43481;52413;43491;43490;52406;43479;43480;43478];
 [43502;43494;43488;43476;52409;43487;43477;43495;43504;52948;43492;52405;43482;43485;43486;43500];
 [43501;43499;43493;43497;43483;44020;52954;44097;44024;44026;44096;52966;44029;53681;44721;44099];
 [52951;52959;44030;52958;52955;52963;52965;44023;44027;44098;44723;52960;44025;44101;52953;44028];
 [44722;44022;52950;52957;52949;52952;52956;53682;44100;52961;52962;52964;44021;44737;53694;44735];
 [44736;53684;53700;44726;54630;53702;53696;53687;53705;53690;44732;54653;53693;44734;44725;53707];
 [53695;44728;53688;53685;53686;44729;53701;53708;44731;53692;53691;44739;44738;44724;44730;44733];
 [53704;53698;44727;53683;53706;53697;53699;53703;54631;45495;45515;45514;45503;54649;54645;54642];
 [54694;45498;45490;54647;46248;45494;54689;45516;45513;54651;54634;45512;54691;54633;45501;45505];
 [54690;54643;45506;45500;54632;46200;54693;54641;45511;54644;54692;45510;55634;45491;54639;45496];
 [45507;45502;54648;54638;54636;54654;45488;45508;45492;46199;54652;45493;45489;45504;45499;45497];
 [54640;45509;54637;54650;54646;55636;55635;54635;55652;46202;55658;55641;55655;56695;46205;55659];
 [55662;46204;55644;55661;55660;46206;55637;46201;46243;46241;55657;55647;46245;55664;55656;55665];
 [46253;46251;55654;55653;55651;55645;46244;46242;53689;55638;56759;55639;46203;46250;56697;46246];
 [46247;55640;55663;56696;55648;55643;46249;55649;55646;46254;46960;56700;56753;56758;56746;46956];
 [56763;46953;56698;56699;46946;46955;56740;46958;46959;56741;56754;56760;46954;46948;56739;56701];
 [56762;56744;56745;56702;56756;56747;56757;56749;46949;57817;46952;46950;56761;56752;56748;56737];
 [47699;56751;46957;56743;56742;46951;46947;57838;56755;56750;56738;57833;57818;57829;57836;47697];
 [46252;57834;47692;47691;57841;57819;57832;57820;57831;47695;57835;55650;57842;57827;47698;58810];
 [48303;57840;57839;47700;58797;48304;58798;57823;57824;57821;57826;57822;57843;47694;48305;47696];
 [47701;57825;57837;57830;58801;47690;48308;59818;58806;58805;58807;58804;48309;48315;48312;48313];
 [58799;58802;58812;48321;48319;58803;55642;48306;58809;58800;48322;58808;47693;48311;57828;48314];
 [48318;48320;48317;48316;48310;58811;48307;48323;48856;48857;59817;48866;48863;48854;48861;59819];
 [48859;48853;48860;59816;49339;48855;48862;49338;59815;59814;48864;48865;59813;59812;49340;59822];
 [48858;59820;49341;49346;60650;60652;49343;60653;60649;60651;49344;49347;60648;49342;49345;49753];
 [59821;49752;49758;61396;49756;49757;61399;61395;49754;61393;50027;61397;61398;61394;49755;62018];
 [62021;62022;62020;62023;50028;62019;62542;50276;62541;62540;62539;50275;50277;62925;50402;50401];
 [63201;63200;63203;50635;50549;63453;63202;63452;50637;50636;50675;63657;63727;42212;55666;59823];
 [42668;51959;42993;42991;42992;52417;43505;44102;52967;52968;44103;53710;44740;44741;53709;45523];
 [45519;54695;45526;45525;45518;45521;45524;45520;55670;45517;46255;46257;46258;55669;55672;46256];
 [55667;55671;55668;46961;56764;47702;57844;48867;48324;58813;48325;48326;58815;58814;58816;59825];
 [59824;60655;60654;49348;49349;62024;42213;55673;46260;46259;56765;61400;50403;63454;42214;44742];
 [45528;45527;55674;55675;46962;57845;47703;59826;42215;42424;43506;52418;52969;44104;45529;55676];
 [46261;46963;58817;58818;60656;49759;63728;42216;52419;43507;44105;52970;44743;53714;53712;53713];
 [44744;53711;45531;45532;54696;45533;45530;55677;55678;56766;47705;47704;60657;61401;62026;62025];
 [62543;51550;44106;42217;42425;42670;42669;42671;42672;51694;51693;51960;42994;51963;51962;51961];
 [51964;43508;52425;52421;52430;43515;43513;52426;52422;52429;43512;43584;52424;52420;43518;52427];
 [43511;52428;43514;43516;52432;52431;52423;43510;43509;43517;52975;52981;44112;44109;52972;52977];
 [44115;44107;52976;44110;44113;52979;44108;52984;44111;44114;52973;52978;52982;52974;52971;52983];
 [52980;44752;44745;44748;44751;53717;44746;53715;44750;44747;53718;44749;54700;45535;54699;54701];
 [45534;45539;53716;54698;54702;45536;54697;45538;45537;55719;55714;46262;46266;46263;55717;55720];
 [46264;46265;46270;56775;55718;46268;55715;55713;46269;55716;46969;56767;46966;46967;46965;56772];
 [56771;56768;46971;56770;46267;56774;56769;46968;46964;46970;56773;47708;57848;57847;57846;47706];
 [47707;58821;58824;48328;48327;58825;58820;48330;58822;48329;58819;58823;48873;48870;59835;59834];
 [59833;59828;59829;48871;48868;48872;59827;48869;59830;59831;59836;59832;60658;49351;61404;49350];
 [61402;61403;49760;50030;62027;50029;62545;62546;50278;62544;50404;63455;50638;63658;63659;42218];
 [42673;42674;42995;52433;44116;44753;45540;45266;46271;46272;46028;55721;46972;57850;57849;42219];
 [42675;52434;43586;43585;52985;52986;53719;53720;44754;44755;44756;54703;45542;46274;46273;56776];
 [57210;57851;59837;49761;50279;42220;42428;42429;42427;42430;42426;42678;51702;42677;42679;51697];
 [51696;51699;51698;51701;42676;51695;51700;51965;43005;51966;52035;43004;52039;52034;52037;42997];
 [42998;42999;43000;43072;52033;43002;43073;52032;52038;43001;52036;43003;42996;43006;43607;52436];
 [43587;43597;43598;43590;43608;43592;52444;43603;52439;43593;52454;52455;52447;52440;43606;52452];
 [43601;43599;52453;52451;52443;52435;52442;43594;43600;43588;52446;52445;52437;43602;52449;52438];
 [43605;52456;43589;43596;52441;52450;43604;43591;43595;52448;53083;44124;44137;53078;53068;44130];
 [53066;44123;53061;44133;53074;52990;53057;53060;52987;53073;53089;44128;53062;53080;52989;53087];
 [53088;53091;53082;53067;53075;44134;44121;44129;44141;44118;44120;53059;44138;44131;53085;53056];
 [44140;44135;53065;44139;53072;53064;44132;53084;53076;44126;53090;53063;44122;53081;53071;44127];
 [53077;44119;52988;44136;44771;44125;53070;53069;53058;53086;53079;44117;53740;44778;53741;53729];
 [44767;44779;53722;53731;53739;53721;53748;44757;53747;53742;53743;44765;44776;53733;53734;53744];
 [53735;53730;53724;53725;53738;53732;44758;44762;53746;53726;44774;44770;44773;44780;44763;44775];
 [53737;44777;44760;44759;53723;53727;44768;53745;53736;53728;44772;44769;44761;44764;54724;54708];
 [54709;54713;54728;54725;54718;54717;45549;54721;54736;54704;54737;54723;54741;54729;45548;54727];
 [45543;45564;45554;45558;45557;54705;54734;54740;54732;54739;54720;54706;54738;54722;45546;45559];
 [54731;45552;54730;54707;45560;45562;54733;45563;45545;54714;54735;45551;45561;54716;54726;54711];
 [54715;45556;54710;45544;45553;45550;54719;44766;55744;45547;45555;55747;55769;55758;46294;46289];
 [55741;46290;55757;55750;55763;46286;55723;55765;46276;55731;46279;46278;46295;55725;55759;55760];
 [46281;46277;55739;46288;55734;55761;46284;55753;55766;55728;55733;55727;46283;55746;56798;55729];
 [46287;55738;55762;46282;55735;55732;55749;46285;46275;46297;55752;55751;55724;46280;55764;55740];
 [55742;55755;55754;55722;46291;46293;55730;55737;55745;46292;55736;55748;55767;55756;55768;55726];
 [56818;47014;56816;56795;56800;56793;56812;56779;56786;56810;56820;56796;56783;56802;56807;56787];
 [56804;56784;56791;56792;47016;56811;56809;56780;56814;56815;56817;47020;47012;54712;56788;56806];
 [56789;47009;47025;56813;47023;47019;56778;47011;56781;47024;56797;56777;47017;56801;56785;47018];
 [56794;46974;46296;56803;55743;56782;56808;47013;56805;47010;56799;47021;56790;56819;47015;57030];
 [47022;57930;57928;57950;57926;57944;46973;47711;57922;57949;57927;57941;47716;47709;57947;57920];
 [57946;47727;57937;57953;47725;57929;47710;57931;57945;47719;57924;47723;47713;57933;57923;57852];
 [57943;47720;57952;57853;47717;57939;47718;57925;57936;57932;57934;47712;57951;47726;57935;57954];
 [57854;57940;47715;47724;47722;57921;57942;47721;47714;57938;57948;58837;58833;58829;58849;58846];
 [48333;58853;58836;48344;58843;58832;58842;48341;58862;58859;58845;58830;58850;58852;48337;58840];
 [58835;58826;48334;48342;58855;48343;58827;58861;58848;58854;48340;58851;58858;48345;48339;58844];
 [58831;58863;58828;58856;48336;58838;58839;48335;48332;58834;48338;48331;58857;58860;58841;59850];
 [59842;59838;48886;48875;48880;48876;59852;59863;48874;59844;59853;58847;59854;48881;59869;48885];
 [48888;59840;48884;59867;59868;59858;59857;59849;59859;59866;59865;48879;48877;59851;59848;59845];
 [59864;48887;59862;48883;48882;59856;59839;59841;59843;59861;59855;48878;59846;59860;59847;49359];
 [60741;49352;60661;60737;49354;60744;60668;60663;60745;60659;60670;49361;60740;60746;60669;49353];
 [60736;60660;49360;60743;60665;49356;60667;60664;49362;60666;49355;49358;60739;60662;60742;60738];
 [49763;61415;49768;49769;49762;61414;61411;61412;49766;61406;61410;49765;61407;49767;49764;61405];
 [61409;61413;62033;62030;62039;62038;62036;62031;50034;62032;50033;49357;62035;50032;62040;62034];
 [62029;61408;50031;62028;62550;62549;62037;50280;62553;62554;62548;62552;62547;62929;62551;50407];
 [50405;62927;62930;62926;62928;50406;63205;63206;50550;63204;63458;50639;63456;63457;63660;50774];
 [63731;63729;63730;63732;63931;42221;42680;43609;52457;53092;53749;53751;53750;53752;45565;54743];
 [53753;54742;54744;54745;55770;46299;55771;55773;46300;46298;55772;56826;56824;56823;56822;56821];
 [47026;56825;47728;57955;57957;47729;57956;48347;48346;58864;59871;59870;59872;48889;60747;49363];
 [61416;49770;62041;50551;42222;42431;42681;43074;43610;43611;44142;53754;47027;59089;48890;49771];
 [42223;42682;52459;43612;52458;53093;44143;53094;44144;53756;44782;44781;54750;54748;54749;54747];
 [54746;55774;55777;46302;55775;46301;55776;56827;57958;57959;57960;58867;58866;48348;58865;58868];
 [59873;59874;59875;60748;49364;49772;62042;50408;51551;44145;53095;44783;45566;46303;55778;47029];
 [47028;57961;57962;48349;48350;59877;59876;61417;63459;42224;51552;42432;43075;52040;44146;47030];
 [42225;53096;44147;53097;49365;42226;52460;53098;53826;53825;53758;53757;53827;53824;45632;45633];
 [46304;55779;55780;55781;56897;56898;56896;56829;56830;47031;57963;58871;58870;58869;58872;59879];
 [59878;48891;59880;49366;60749;61418;62043;63207;42227;42434;42433;43613;51553;51582;42683;51703];
 [52041;52042;43614;52461;44148;53099;53100;44784;44788;53828;44787;44785;44786;54751;45634;46307];
 [46305;46306;55782;47730;42228;51617;42435;51620;42438;51619;42437;42436;43076;51618;51704;51708];
 [51710;51776;42693;42694;51707;42689;51705;51709;42690;42685;42686;42692;51706;42684;43077;42687];
 [42688;42691;52059;52057;52044;43089;52051;43084;52045;52053;52050;43087;52049;43094;52058;43096];
 [43098;52043;43085;52060;43092;43095;52549;43079;43102;43093;52046;43082;43097;52054;43080;43081];
 [52547;52047;43088;43099;52061;52048;43086;43091;52462;43100;52055;43090;43101;43078;52052;43083];
 [52056;52548;43626;43642;52469;43633;52555;43618;43621;52546;52467;52471;43629;43631;52474;43638];
 [43624;43622;43623;43637;52551;43632;52473;52475;43630;43635;52476;52554;44149;43641;43619;52553];
 [52557;52472;52559;52544;43628;52468;43627;43645;43634;52466;53109;43640;43644;52545;52550;43646];
 [43639;43625;43615;43620;52470;43616;52558;52464;52463;52477;52465;43643;44789;43636;52478;43617];
 [44198;52556;53116;53153;53156;53111;53159;53162;53164;53108;44150;44155;53833;44205;53157;53165];
 [53115;53107;53860;44158;53154;53112;53114;44197;53117;44157;53104;53160;53163;44154;44200;53101];
 [44202;44152;44206;53161;53103;44203;53854;52552;44156;44151;53110;53102;44204;44196;53155;44201];
 [44199;53113;44193;53105;44194;44195;53106;53158;44153;53118;53836;44797;44867;53845;53851;53847];
 [53834;53837;53830;53831;44874;44794;53846;53855;44869;44790;44864;53838;44866;53839;53849;44868];
 [53864;53832;44796;44795;44872;53829;53862;53850;53863;53857;53843;53858;53852;53861;53859;44873];
 [53844;44793;44792;44865;44871;53856;44870;53841;45635;53865;53840;53835;44798;44875;44791;53848];
 [53853;45669;54753;54757;45650;45648;45639;54755;54754;45659;54760;45653;54778;54855;45636;54775];
 [54768;45671;54752;54780;45668;45656;45667;45646;54764;54782;54774;45647;45641;54853;54781;54848];
 [45649;45657;54850;54762;54779;54767;54852;45662;45638;45660;54772;54770;54771;45651;54766;54765];
 [45640;54759;54854;45642;54769;45672;45666;54758;45663;45661;45670;54776;45665;53842;54777;45664];
 [54849;45637;54773;45655;54761;45654;45652;45644;45643;55783;54851;54763;55804;45645;46401;45658];
 [46318;55798;46332;55786;46315;46311;55881;46317;46321;46316;46325;55885;55876;55793;46330;46324];
 [55805;46308;55882;55875;46312;55799;46327;55893;55894;46309;55880;46329;55803;55789;55790;46333];
 [55794;55801;55795;46331;46404;55791;55784;55785;55787;46314;55800;46328;46402;55802;55891;55883];
 [46310;55889;46322;46320;55895;46319;55873;55796;55806;46407;55877;55874;55792;46403;55887;55884];
 [55892;46313;55872;46406;55879;46323;46326;55878;46405;55797;54756;55888;55886;55890;55788;46400];
 [56929;56928;56902;47037;56927;56905;56906;47047;56936;47042;56926;56899;47048;47038;56914;56904];
 [56907;56931;47032;56938;56930;47041;56919;47052;47051;47045;56937;47033;56917;56908;56921;56933];
 [47053;47035;56916;56909;47044;47043;56912;56922;56932;56903;56913;47036;56923;47049;47040;56910];
 [47039;56901;56915;56935;46334;47792;56918;57964;56920;56934;47046;56911;47034;47050;48368;56900];
 [56925;56924;58026;47789;57981;58020;47778;57966;47791;47735;57965;58032;47793;57969;58019;57971];
 [58035;58031;47733;47777;58963;47790;47741;57967;58030;47779;58027;58040;57973;57982;58038;58028];
 [47740;57980;47734;47732;47784;57978;57975;57976;58034;58039;58037;47738;58041;47742;47783;57968];
 [58874;57977;47736;47788;47785;47739;58021;57972;47786;58023;47780;47782;47731;58025;58017;57970];
 [47781;58033;58036;57979;58024;47737;48351;58022;58873;58029;57974;58948;58958;48354;58957;58969];
 [48356;58955;58959;48367;58950;48359;58962;59888;48371;48370;58964;58947;58974;48365;48355;58967];
 [58971;58976;58965;58953;48358;48361;48369;48364;58956;58018;58952;58975;48360;48363;58977;48352];
 [58966;58875;58972;49375;58954;48353;58949;48357;58876;47787;58945;58970;58946;58944;48362;58968];
 [58878;58961;58960;58973;58951;48366;59891;48969;48894;59968;59883;48961;59895;48968;48963;59893];
 [60751;59899;59970;59898;59881;59896;59972;59974;48893;59973;48964;48970;48967;59902;48966;59897];
 [59885;59890;59901;48965;48962;48892;48960;59889;58877;59884;59887;59969;59892;59882;60750;59971];
 [59886;59900;60753;49379;49367;49371;60755;60761;60759;49369;49370;49377;60762;60754;49372;60758];
 [60757;60763;49378;49373;49376;60756;49380;49374;49381;49368;60760;60752;61431;49777;61428;61430];
 [49775;61426;61427;61422;59894;61423;49776;61419;49773;61432;49774;61420;61421;61425;49779;49778];
 [61424;50040;62047;62053;50041;62044;50038;50035;62055;50039;50036;62046;62049;62050;62051;62054];
 [61429;62045;50037;62052;62056;62048;62557;50282;62560;50283;62568;62559;62556;62558;62562;62565];
 [62564;62567;62555;50281;62563;62566;62569;62561;62931;62932;62936;62937;62934;62935;62933;50409];
 [50552;63211;63208;63209;63210;50553;63461;63460;63663;50676;63661;63664;63662;63733;50775;50789];
 [63907;63852;63906;63952;63953;42229;42695;51777;52062;43103;43106;52063;43104;43105;52568;52570];
 [52565;52562;52564;43684;43682;52566;43683;52563;52560;43681;52567;52561;43685;52569;53167;53171];
 [44215;53174;44207;44210;44212;44214;44211;53170;53169;44209;53172;53173;53166;44213;44208;53168];
 [53879;53880;53881;44880;44876;53870;53878;53883;44881;53868;53874;53867;53877;53873;44877;44879];
 [53882;53866;53869;53875;53876;53884;53872;44878;45677;54862;54864;54860;54872;54858;54871;45673];
 [54856;55899;54866;45676;54867;54870;54874;54863;54868;45674;45675;54873;54861;54857;54875;54865];
 [54869;54859;46408;46409;55909;46415;55897;55906;55896;46412;55904;55902;55903;46410;55907;55900];
 [55898;46411;55901;55905;46413;55908;56944;56951;56953;56993;47066;56939;47058;56954;47063;56994];
 [47054;56957;56941;56958;56940;47068;56952;47055;56995;47060;56945;47065;56956;56943;56950;56946];
 [56942;47057;47064;47062;47059;47067;47056;56949;47061;46414;56955;56947;56948;58049;47796;58045];
 [58051;58047;47798;58046;58050;58042;58044;47797;58048;58043;47799;47794;58052;47795;58983;58980];
 [58992;58986;58988;48372;58982;58990;58989;58987;58993;48375;58984;58991;48373;58979;58981;48374];
 [58978;58994;58985;59978;48977;59989;59987;48971;59977;59980;59981;59976;48981;48982;59975;59990];
 [59985;48975;48972;59984;59982;48978;59986;48973;48974;59983;48976;59979;59988;48979;59991;59992];
 [48980;49383;49390;60764;60770;60768;49386;49385;49382;60766;49388;49387;49384;60769;60765;60767];
 [49389;49783;61435;49780;49781;61437;49782;61434;61433;62060;61436;62061;50042;62059;62058;62057];
 [50043;50284;62570;62571;62940;62939;50410;62938;63212;63213;63462;63665;63734;63932;50809;63942];
 [42230;43686;43687;44216;49391;42231;43688;44882;47069;42232;45678;47800;51554;53175;53885;58053];
 [49392;42233;43689;53176;53177;55910;46416;56996;47070;58054;48376;50044;42234;55911;42235;42697];
 [51778;42696;43109;43108;43107;52064;43690;43691;52571;53178;53181;44218;53179;44217;53180;44219];
 [53922;53921;53886;44883;54877;54878;45679;54876;54879;46418;45680;46417;55915;55914;55912;55913];
 [55916;56998;56997;57001;57000;56999;47801;58057;58056;47802;58055;58995;58996;48377;59993;59994];
 [62066;50045;62065;62064;62062;62063;50411;62572;63214;63735;42236;51621;42439;51622;51779;51780];
 [52070;52066;52065;43692;52069;43111;52067;43110;52071;52068;52575;53182;52573;52580;43693;43696];
 [52581;52577;52578;52572;43695;52574;43694;52579;52576;53186;44221;44222;53189;53183;53188;53184];
 [44220;53187;53185;53928;53925;53927;44888;44887;44885;53924;53929;44884;44886;53926;54887;53923];
 [53930;54882;54886;54885;55918;55929;54888;54883;55917;45684;45683;54881;54884;45685;45682;45681];
 [54880;54889;55920;55927;46420;55926;55923;46422;55925;55919;55921;55924;55922;46421;55928;46419];
 [47071;57005;57004;57002;47074;47073;57006;57003;58058;47803;47072;57008;57007;58061;58059;48378];
 [47804;58060;58998;48379;58997;59006;59005;59003;59002;58999;59000;59001;59004;59041;59999;59996];
 [59997;48983;59995;60001;60000;59998;60772;60773;49393;49394;60771;49785;61438;49784;50046;50081];
 [50285;62574;62573;62941;63215;50554;63464;63463;63465;42440;53190;44889;45686;54890;42441;51623];
 [42237;51781;52076;52074;52075;52072;43112;52073;52589;43699;52587;52583;52586;52582;43701;52585];
 [43698;43697;43700;52588;52584;44226;44229;53198;53197;53196;44223;53205;53195;44225;53935;53202];
 [53200;44228;53192;53203;53194;53204;53201;53193;44224;53206;53191;44227;53940;53931;53942;53934];
 [53945;53946;53932;53944;53941;53939;53943;44895;44893;53937;53933;53936;53947;53938;44894;53199];
 [44890;44892;54904;54893;54891;54892;54899;54900;54896;45691;54901;54898;54895;45689;54894;45687];
 [45690;54897;54905;44891;45688;54903;54902;45692;55934;55969;46432;55975;55977;55970;46426;55974];
 [55973;46427;46433;46434;55976;46424;55933;55931;55971;55930;46431;55932;55972;55978;46425;46430];
 [46428;46429;46423;47081;57015;47080;57019;57009;57020;57010;57011;57021;57018;57016;57017;57013];
 [57012;57022;47077;57014;47082;47076;47083;47084;47079;47078;58062;47806;47805;58067;48380;47807];
 [47809;58068;47075;47808;58064;58066;58063;58065;59051;59050;59047;48448;60002;48449;59046;48382];
 [59048;59045;59042;59049;59043;59044;48381;60777;60006;60005;60007;60774;48986;60003;48984;48988];
 [48987;60004;60008;48985;60781;49397;49786;49398;49395;60778;60776;60779;60782;49396;60780;60775];
 [61506;61509;62069;61504;62575;61510;50082;61508;49787;61505;61507;61511;62070;62068;50083;62067];
 [50286;50413;63217;50412;63219;63216;63218;50640;63666;42442;52590;53948;53949;45693;57023;48989];
 [50084;50555;63667;42443;52591;41568;53207;53208;53950;53951;45694;45729;55979;57026;57025;57024];
 [58069;58070;58071;47810;59053;59052;60009;48990;48991;60786;60783;60784;60785;61513;61512;49788];
 [62071;62942;42444;44230;45730;57027;42445;53952;45731;46435;46436;42446;42447;51782;43114;43113];
 [44231;53209;55980;42448;42449;42450;42451;43115;43116;52078;52077;43702;52594;52592;52593;53210];
 [53211;44235;44233;44234;44232;44896;44900;44899;53953;44898;44897;53954;45734;54907;54906;45732];
 [45733;46438;46437;55982;55981;45735;47085;57029;47086;57028;58072;59054;48450;60010;60787;50086];
 [50085;50556;42452;52595;45736;58073;47811;52079;52080;52596;43704;43705;43703;44239;44240;44237];
 [44238;53212;53213;44236;53955;44904;44905;45739;53961;44910;44908;53962;53957;44907;44906;44901];
 [53960;53959;53956;44909;53958;44902;44903;45740;54945;54946;45741;54908;54910;54948;54947;54909];
 [45737;45738;55990;46443;46442;55984;46440;55987;46444;55988;46445;55985;46439;46441;55989;55986];
 [55983;57042;57031;47088;47091;47090;47095;47094;57043;57041;57034;57038;57037;47092;57040;57036];
 [57044;57035;47093;47087;47089;57033;58075;47815;58079;47814;58076;47813;57032;57039;58078;47816];
 [58080;58077;58074;59057;59061;59063;59059;59058;59056;48453;48451;48456;48457;59060;48454;59055];
 [48455;47812;59062;48452;60012;60011;60019;60013;60018;60015;48992;60017;48993;48994;60016;60014];
 [49400;60788;49399;60791;60789;60790;49401;61517;49825;61518;49789;61519;49790;61516;61520;61514];
 [50087;62072;50088;50287;61515;50288;50414;62943;50558;63220;50557;63466;50677;50678;63948;44241];
 [53214;46446;46447;42453;42698;51783;52081;43117;43706;44242;44243;44244;54950;53963;44911;45742];
 [54949;55992;46449;55991;46448;57045;48458;59067;59064;59065;59066;60792;61521;62577;62576;63221];
 [42454;52597;44912;46450;57046;58081;48459;60020;61522;62578;42455;43707;44247;53215;44248;44246];
 [44245;53964;44913;44914;44915;45744;54951;45743;55993;45745;46451;57047;47096;47097;47817;47818];
 [48460;48996;60021;48995;60793;49402;61523;62579;42456;43118;52600;52599;43708;52598;43709;52601];
 [53221;44251;44250;53223;53222;44255;44254;44249;53217;53218;53219;44256;53216;44252;53220;44253];
 [53967;53971;53969;53968;53972;53973;53974;53966;53965;44917;44918;53975;53970;54960;53976;44919];
 [44916;54954;54953;54955;54956;54958;54957;54962;45749;45746;45750;54952;45751;54961;45748;54959];
 [45747;55996;55998;55994;55995;55999;56001;56002;55997;56000;46452;57051;57056;57048;57052;57057];
 [57053;47098;47171;47101;57049;57050;47822;47174;47102;47172;47100;57055;47173;57054;47169;47099];
 [47170;57058;58086;58088;47168;58083;47820;58089;47821;58087;58082;58085;58090;47819;58084;48462];
 [59071;59070;48465;48463;59068;48461;59069;48464;60029;60065;60030;60022;60026;60025;60023;48998];
 [48999;48997;60024;60027;60028;49000;49472;60835;49404;60795;49406;49473;49405;60834;60796;49403];
 [60833;60794;60798;60797;61525;49828;49829;49826;49827;61524;62075;50089;62073;62074;62580;62583];
 [62581;62582;62944;50415;63467;63668;50679;63736;63737;50790;42457;44257;56003;57059;42458;43119];
 [43710;53224;53225;44920;56004;46453;47175;49474;60836;62076;62584;42459;52641;52602;52604;52606];
 [52605;52603;43711;44258;53234;53229;53226;53233;44260;44261;53232;53231;53230;53227;53228;53235];
 [44259;44924;44964;44963;53985;53979;53977;44961;54969;44922;53982;53986;53988;53984;53978;44962];
 [53983;53981;44921;53989;44965;53987;44925;53980;44926;44923;45753;54970;54963;54965;54967;54968];
 [54966;45754;54971;54964;56008;46454;56016;56005;56017;56006;56007;56015;56014;56011;45752;46455];
 [56009;56012;46456;56013;56010;57070;57074;47182;58096;47185;57072;57069;57064;57066;57067;57060];
 [47181;47180;47176;57063;47183;47184;57062;57065;57073;47178;47179;57071;57061;58098;47824;58100];
 [57068;58102;47828;58103;58099;47825;58095;47827;58092;58097;58101;58094;47177;58091;47826;58093];
 [48468;59073;48472;48470;47823;59080;59081;48467;59079;59082;48469;48466;59075;59072;59077;59074];
 [48473;59076;59078;48471;49002;60072;60066;60070;60076;60077;60073;60074;60071;60068;49004;49001];
 [60067;60069;49003;60075;49478;60842;60837;49477;49475;60844;49476;60840;60841;60838;60845;61526];
 [49479;60839;60846;60843;61530;61527;49830;61531;61533;61532;61528;61529;62115;50090;62078;62114];
 [62077;62116;62113;62586;62589;62585;50289;62587;62588;62590;50290;50292;50291;62945;62947;62946];
 [63222;63669;63738;42460;52082;43712;52643;43713;43714;52642;53240;53239;44262;44265;44264;44263];
 [53236;53238;53237;53992;44967;53996;53995;53994;53990;44966;44970;44973;44974;53991;53993;44972];
 [44971;44969;44968;54978;54976;54972;45755;54973;45756;54974;54975;54977;45757;56021;56020;56019];
 [56018;57078;47186;57075;57077;47187;47188;57076;58177;58105;58106;47831;47829;47830;58179;58178];
 [58110;58109;58108;58107;58176;58104;59083;59088;59086;59085;59084;59087;60078;49005;49480;60848];
 [49481;60847;61535;61534;49831;62117;50091;62625;50593;63223;63671;63670;51624;44266;44267;54979];
 [47190;42461;43122;43121;43120;52644;43716;43715;44270;53242;53245;53243;44268;44269;53241;53244];
 [44981;54003;54005;54004;44978;53999;44976;44975;44979;44977;44980;54002;53997;53998;54001;54000];
 [54982;54983;54981;54980;45758;46461;56022;56024;56026;46460;46458;56023;46459;56025;46457;57153];
 [57079;57082;57086;47194;57084;57083;57080;57081;47192;57152;47191;47196;47195;47193;57085;58185];
 [58184;58180;47832;58183;58182;47833;48478;59090;48479;48475;48477;48474;48476;60079;49008;60081];
 [60080;58181;49010;49009;49006;49007;60853;60851;49482;60852;60854;60850;60849;61536;49834;49832];
 [49833;62118;62119;50093;50092;62627;62628;62626;63224;63225;42462;51784;43123;52645;43718;43717];
 [52646;53312;44271;53246;44272;44982;54008;54006;54012;44983;54007;54011;54009;54010;54984;54986];
 [45759;54985;45760;46498;46497;46462;56027;57156;47197;47198;57155;57154;58186;47835;47834;58187];
 [58188;48481;48480;60085;59091;59093;59092;60084;60082;60086;60083;49011;60855;49483;60856;60857];
 [49835;49836;50293;50641;42463;53313;54013;44984;46010;46009;46500;56029;46499;56028;57157;47836];
 [58189;47837;50294;62629;42699;43719;52647;44274;44273;53314;53315;54080;54082;44985;54084;54087];
 [54085;54086;54083;54014;44986;54088;54081;54995;45766;55004;45763;54997;45767;45761;54992;55005];
 [54993;54990;45765;45762;54996;54999;45764;55000;45768;55001;54991;54998;55002;54994;54989;54987];
 [55003;56031;56036;56032;56038;46503;54988;56033;46501;56030;46508;56034;46507;56035;46509;46504];
 [46510;46505;46506;46502;56037;47201;57168;57171;57159;57164;57158;47203;57162;57160;47202;57167];
 [57166;57163;57165;57161;47841;57170;47199;57169;58205;47848;58200;47847;58190;58192;47840;58197];
 [58196;58199;47845;58194;58193;47844;47839;58195;47842;58201;58203;58198;58191;47843;48489;47838];
 [58204;59097;48482;59099;48483;48485;59102;59094;47846;59100;59096;47200;48488;48484;48486;48487];
 [49014;59101;59095;48490;59098;60096;60091;60101;49012;60093;49016;60099;60090;60087;60102;49489];
 [49017;60098;60088;49015;60092;49019;60089;60094;49018;60097;60100;60875;60876;60860;60867;60865];
 [49487;60872;60095;60863;60873;49486;60862;60861;60871;60868;60870;60858;60874;49484;60869;60878];
 [60866;49488;49485;60864;60859;60877;49013;61539;61537;61543;49840;61541;61540;49842;61546;49841];
 [61547;61544;49838;61545;61538;49839;49837;62123;61542;61548;62120;50098;50096;62122;62124;62121];
 [50097;50094;50095;50099;50296;62634;62633;62631;62630;62632;50295;50297;50416;62949;62948;63226];
 [63228;63230;63229;63227;50595;50594;50643;50642;50644;63469;63468;63739;63672;63740;50776;50777];
 [63853;50814;42700;52648;53317;53318;53316;44275;53319;53320;53321;54089;54095;54093;44987;54091];
 [54092;54094;54090;45769;55006;45771;55008;45770;55007;56040;46511;56042;56039;55009;46512;56041];
 [57174;47204;57172;47205;57173;47206;47849;58209;58206;58208;47850;47851;58207;59103;59104;48491];
 [59106;59105;41569;60106;60107;60103;60104;49020;49021;60105;49495;49491;49496;49492;49494;49490];
 [49493;49843;60879;62126;62125;62635;50298;50299;63297;62950;63296;63741;63908;42701;43124;52649];
 [43720;44278;53324;44276;53322;44281;44277;44282;44280;53323;44279;44991;44990;54106;44999;54099];
 [54105;44995;54098;54104;54102;44994;44996;54101;44989;54100;45000;44997;45001;44998;54097;54096];
 [54103;44992;44988;44993;55024;55017;46517;55016;45775;45782;45779;45785;45784;45780;55010;55013];
 [55012;45776;55014;55023;45777;55011;55020;55021;45778;55018;45783;45773;45781;55015;45772;55019];
 [55022;56059;56050;46514;56057;56054;56046;56055;46516;56047;56043;47212;56052;46513;56058;46520];
 [46522;56045;46521;56048;46515;56056;56049;56053;56051;46518;56044;46523;45774;46519;46524;47208];
 [57181;57183;57185;57189;57179;57177;47210;57184;57188;57180;57176;57175;57186;57178;57182;47211];
 [47209;57190;47207;57187;58226;47854;58218;48504;58228;47857;58232;47863;58213;58229;58210;58231];
 [58214;47870;47867;58230;58224;47853;47861;47860;47859;47865;58211;47866;58225;47862;47852;58227];
 [47855;47856;47864;58216;58215;58212;58220;58217;58221;47869;58233;47858;58222;58223;58219;47868];
 [59111;48496;48505;48501;59108;48498;48502;59120;48492;59112;48500;59115;59110;48499;48503;59109];
 [48497;59119;48494;59118;59117;48506;58738;48493;59116;59107;48507;59114;48495;59113;49058;49063];
 [49022;60120;60111;60123;60115;60121;49064;49057;60108;60114;60124;60117;60122;60110;60118;49059];
 [60116;49062;49061;60112;60113;60109;60119;49060;60126;60125;60890;60886;49503;60880;49497;49513];
 [60892;49505;49501;60883;49508;49511;60894;49500;60885;49509;60896;60893;60881;49504;49498;49512];
 [60888;49507;60882;49502;60895;49506;49499;60889;49510;60887;60891;61550;61556;49849;61559;49844];
 [49845;61551;61558;61553;49850;49847;61549;49846;61555;61557;49848;61554;61552;62136;50103;50104];
 [50100;50101;62132;62130;62134;50106;62135;62128;62127;62131;62129;50102;62133;62636;50302;50301];
 [62637;62639;62638;50337;62955;62952;62953;62951;62954;50418;62956;50417;63298;50645;50647;63470];
 [50646;63673;63808;63810;63742;63809;50796;42702;44283;53871;45002;45786;56060;56061;60127;49514];
 [60897;49851;62138;62137;50338;62957;63299;50680;51785;43721;43125;53325;54112;54107;54111;54109];
 [45003;54110;54108;55025;56062;56128;57193;57194;47214;47215;57192;57195;57191;47213;47936;47216];
 [58234;48508;59121;48509;49065;60130;60128;60129;60900;60899;60898;62139;50105;62140;63300;50681];
 [63674;42703;43723;43722;53327;44284;53326;54114;45004;55026;54113;45788;55029;55027;55028;45787];
 [56130;56131;56129;47219;57197;57196;57198;47218;47217;59122;59124;48510;59123;60131;49066;61561];
 [61560;50107;62141;50109;50108;62640;62958;50419;42704;53328;44285;54117;45006;54116;54115;45005];
 [55035;55037;55030;55031;45789;55032;45790;55036;55033;55034;45791;46526;46527;56132;57199;57200];
 [58238;47939;47937;47938;58235;58236;58237;59129;59130;48545;59127;59126;59128;59125;49069;60132];
 [49067;49068;60902;49515;60901;61352;61562;61563;49852;49853;49516;62142;62143;62641;50339;42705];
 [42706;44286;43724;45007;53329;46528;42707;44353;53330;53331;44352;44354;42708;53332;45009;54118];
 [45011;45008;45010;55105;45792;55104;55038;57201;58273;48546;49070;60134;60133;60903;62959;42709];
 [52083;52650;44355;53333;54120;45012;54119;45013;55107;45794;55106;55108;45793;56134;56135;56133];
 [46529;47220;47221;47941;58275;58274;47940;59131;59132;60135;49520;49519;49517;49518;49521;61564];
 [49855;49854;62144;62642;50597;50596;42710;53755;47223;46530;47222;47942;42711;51625;42712;42713];
 [52651;52086;52087;43127;52084;43126;43129;52085;43131;43130;52088;43128;43729;43727;52653;43726];
 [43731;43733;43730;52656;52652;43734;43728;43132;43732;52655;52654;43725;53339;44359;44360;53341];
 [53335;53338;53347;53345;44361;53351;44364;53348;53340;53337;56137;53346;44356;53349;53334;53343];
 [44358;44363;53344;44367;44365;53336;44362;53342;44366;44357;53350;45018;45027;45016;45014;54122];
 [45022;45019;54124;45021;54123;54121;54126;45026;45024;56136;54127;54125;45015;45017;45020;45023];
 [45025;55118;45796;55109;55111;55112;55120;55116;55114;55117;55121;45797;45801;55110;55119;45799];
 [45798;55115;55113;45795;45800;46536;56145;56143;46538;56138;57249;46537;56142;56139;46533;46539];
 [56144;46535;56141;47943;46534;56140;46540;46532;46531;57207;57205;57211;57203;57250;57208;57202];
 [47227;47267;57213;57206;47230;47228;57214;47225;47224;57209;47229;46541;57212;57204;47226;47265];
 [47266;47948;47944;47949;58278;58277;58279;47946;58276;47947;58282;58281;58280;47945;59201;59204];
 [48552;59203;48551;48547;48548;48549;59200;59134;48550;59202;59133;60137;60147;49073;49072;60141];
 [60143;60138;60142;60136;60145;49071;60144;60140;60146;60139;49524;60904;60910;49528;49530;49527];
 [49526;49525;49523;60905;60908;49522;60909;49529;60907;60906;49856;49857;61601;61565;61566;62146];
 [62145;50110;62644;50340;62643;62960;63301;50598;63811;63812;50648;42714;43735;56146;47950;49531];
 [60911;42715;45029;45028;56147;60148;42716;44368;56148;56149;56150;47951;49074;42717;43736;53352];
 [45030;54128;45802;56151;47268;47952;49075;49532;49858;62645;42718;43737;45031;55122;46542;47953];
 [58283;59205;42719;46543;57251;47954;42720;52657;53353;44369;54130;45034;45032;45033;45035;54129];
 [55127;55124;55126;45803;45805;45804;55123;45806;55125;56152;56153;56154;57254;57255;57253;57256];
 [47269;57252;47955;59210;59206;59209;59211;59208;59207;60149;60150;60151;49076;49077;60913;60912];
 [60914;61603;61602;62148;62149;62147;50341;62646;62647;63302;63471;63675;42721;43133;49533;42722];
 [55128;56155;50753;51786;51787;51789;42723;51790;51788;52130;52131;52091;52129;43169;43170;52092];
 [52090;52089;52093;43134;52094;53354;52662;43740;52661;52663;43739;52668;43743;52658;52672;52678];
 [43750;52675;43747;52665;52671;52673;52660;43746;43741;52666;43748;43751;43745;43738;52670;52664];
 [52677;43753;43749;43744;52669;45036;52667;43742;43752;52659;52674;52676;44386;44380;44388;44385];
 [53361;53364;44381;53355;44374;44384;44387;44389;53410;53367;44373;53409;44377;44375;44370;53359];
 [53374;53363;53366;53413;44390;53373;44382;53368;53412;53365;53369;53372;53357;53411;53371;53356];
 [53360;44383;44378;44371;44376;44372;44391;53358;54181;44379;53370;52801;54184;45050;54134;54179];
 [54141;54194;54186;54142;54185;54136;54140;54197;45053;54189;54180;45037;54195;54132;54188;45052];
 [45047;54131;45045;45044;45049;54187;45041;45048;53362;56156;54182;54138;45051;54139;54177;45054];
 [54133;54191;54190;54198;45043;45040;54196;54192;54183;54178;45046;45042;54135;45038;54193;45039];
 [54137;55134;55136;55141;55161;45820;45810;55133;45821;45822;55144;55151;55157;55138;55145;45888];
 [55159;55154;45818;45816;55150;55146;55132;45807;55137;55129;45815;45817;55142;55139;45812;55155];
 [45809;55140;55162;55148;55147;45808;45819;45811;55130;55135;55152;55158;45889;55131;55143;55149];
 [45814;55160;55153;55156;45813;56172;56160;46551;56189;56231;56234;46549;56168;56227;56169;56183];
 [46562;56179;46559;56180;56157;56228;46568;56225;56181;56236;56176;57288;56239;46566;56174;56186];
 [46569;46548;56178;56237;56171;56164;56175;56163;56161;46544;56229;56170;56232;56233;46552;46557];
 [46553;46561;56190;46554;56182;56166;46546;56158;56226;56235;56165;46560;56240;56177;56173;46545];
 [46565;56188;46567;56184;46556;46550;46558;46547;46564;56185;56167;56187;56162;56230;56238;56159];
 [57287;57309;47189;57292;57290;57269;47273;57285;57305;57281;47281;57304;57279;46563;57295;57280];
 [57302;47280;47272;57258;57266;57291;57283;57308;57286;47286;57303;47277;57289;57297;57270;57296];
 [57313;57265;57298;57311;57259;46555;57273;57272;47279;57276;57278;57293;57310;47282;47283;57264];
 [47275;57268;57306;47284;47276;47278;47285;57312;57299;57294;57275;57274;47274;57260;47271;57284];
 [57261;57282;57271;57307;47270;57267;57263;57301;57262;47968;58323;58306;58284;58314;47960;58299];
 [58309;47963;58302;47961;58287;58317;58286;58305;58285;58303;58312;58310;58298;58293;58291;58292];
 [58311;58322;58300;47962;58295;58315;47965;58294;58288;58304;47969;47957;47966;58296;58290;47959];
 [57300;47958;58307;47956;47971;47964;58308;58297;58289;58316;58301;47970;58320;47967;58319;58313];
 [58318;58321;59251;59252;59239;59238;59234;48564;48556;59254;59253;57257;59231;59235;59229;59248];
 [59233;59255;59226;59224;59236;59246;59241;48566;59215;59245;48567;57277;59227;59218;59221;59259];
 [59228;59219;59217;59214;48560;59237;48559;48563;59232;59240;48553;59256;59260;48555;59223;59243];
 [59247;59220;59257;48562;48561;59212;48565;59250;59222;59242;59216;59230;59225;48557;48558;59244];
 [59261;59258;59249;59213;48554;60233;60224;60227;49083;60229;60153;60225;60231;49080;49084;49078];
 [60155;60236;60230;60156;60245;60239;60152;60998;60158;49079;60234;60244;49087;60241;60157;60228];
 [60232;60226;60246;60243;60240;49081;49082;49086;60154;60247;49085;60237;60235;60238;61011;60992];
 [60997;61010;60996;60923;60993;49570;60916;61005;61007;60915;49569;61009;61001;49576;61008;60994];
 [49578;60921;60242;61002;60999;60917;61013;49572;49573;60919;61000;61012;61003;60925;49575;49571];
 [61004;60926;61014;60920;60995;61006;60922;60924;49867;60918;49577;49860;49534;49574;49864;61619];
 [61609;61604;61610;61620;61624;61623;49866;49865;61611;61625;61614;61606;61608;61607;61613;61618];
 [61605;61612;61617;49863;61615;49861;61616;49859;49862;62165;61621;50114;62157;62161;62153;62156];
 [62164;50112;62169;62162;62154;62170;62163;50115;50116;62167;62155;50111;50113;62150;62158;62152];
 [62168;62166;62151;62159;62654;50117;62160;50343;50345;50342;62659;62651;62649;62653;62650;62655];
 [62657;50346;50348;62656;50349;50347;62658;50344;50420;62961;62967;50422;62652;62966;62973;62964];
 [62971;62970;62648;62965;61622;62974;62963;62968;62972;62962;63306;50421;62969;63476;63307;63305];
 [63303;63304;63308;50649;63474;63472;63477;63475;63478;50650;63473;63676;63813;63814;63815;63943];
 [63933;51791;43754;44392;54200;54199;45120;45890;55164;55163;46570;47288;47287;47289;58324;59262];
 [60248;60250;60249;49579;61015;61626;63909;42724;52681;52682;52680;52679;43755;53417;53415;53414];
 [44393;44395;44394;53416;54212;54209;54207;45121;54210;45126;54204;54219;54221;54205;45123;54222];
 [54217;54203;54208;54218;54214;54211;45128;54220;54206;54215;54201;45127;45124;54213;54216;54202];
 [45125;45122;45900;55205;45899;55208;55211;45896;45894;55166;55209;55207;55204;55212;55213;55215];
 [55216;55165;45893;55202;55201;55214;45895;55203;45897;45892;55206;45901;45898;55210;46577;56255];
 [56244;46574;57319;56253;56241;46572;56246;46575;56250;56248;46578;46571;56242;56245;46576;56243];
 [56254;56252;56247;56249;56251;46573;57320;57326;57316;57322;47290;57318;47296;47295;47294;57325];
 [47297;47298;57315;57328;47299;47293;47292;57324;47300;57314;57317;57327;57323;58356;58345;47291];
 [47978;58333;58354;58334;47973;58331;58340;58332;47975;58326;58353;47976;58350;58351;58327;47981];
 [58342;58336;58343;58330;58355;58347;58341;58325;47977;58348;47980;58352;58346;47974;58344;58338];
 [47972;58329;58337;58349;58335;58339;48577;57321;59314;59323;59313;59309;59306;48578;59304;47979];
 [59297;48576;59303;48575;59308;59305;59321;59316;59310;59315;48571;59307;59326;59298;59299;59322];
 [48572;59327;48574;59328;59312;58328;59318;59311;59320;59317;59302;48569;59325;48570;59300;48573];
 [60260;59319;59324;60257;48568;49088;60267;60263;60261;60256;60271;49092;60252;60264;60265;60255];
 [60254;60268;60258;60253;60259;60270;60251;60269;60266;49090;49089;49091;60262;61643;61017;49585];
 [61021;61018;61025;61031;61020;61040;49582;61034;61023;61035;61030;61037;61022;49587;49586;61024];
 [61038;61016;61036;49580;61028;61027;61032;61019;49584;49588;61026;61033;49589;61029;49581;49583];
 [61639;61637;61644;61641;61645;61630;61638;61649;61039;61634;49871;59301;61629;61642;61636;61633];
 [61628;61627;61648;61632;61631;49869;61640;49868;49870;61635;61647;62174;62175;50121;62172;50118];
 [62180;50122;62182;62171;61646;62184;62173;50119;62179;62181;62176;62183;62178;62177;50120;62661];
 [62662;62664;50350;50351;62665;62663;62660;63042;63045;63041;50426;63043;50425;50424;50423;63044];
 [63313;63311;63310;63040;63312;63046;63309;63481;63447;63479;50651;63480;63482;63679;50682;63678];
 [63677;50683;50778;63854;63911;63910;63912;42725;53418;54223;54224;56256;63047;63680;42726;44396];
 [53419;55217;45902;56258;56257;46579;47301;59329;48579;48580;49093;50684;42727;53420;43757;53422];
 [53421;44397;54225;54232;45129;54230;54228;54235;54226;54227;45130;45134;54236;45133;54234;54231];
 [54229;45131;45132;54233;45904;55218;45909;55234;45908;55236;55224;45906;55235;55219;45907;55231];
 [55227;55229;55223;55230;45903;55226;55225;55221;55232;55228;55220;55222;45905;55233;46582;56269];
 [56265;56267;56262;56261;56259;56266;56268;56264;56263;46580;46581;56271;47309;57330;57336;57331];
 [57332;57337;47311;47303;47310;57329;56260;47306;47304;57335;57334;47305;47307;57333;47302;47308];
 [58358;47988;58434;58433;58363;47990;58432;58359;58360;47982;47984;58365;58357;47986;47985;58361];
 [58366;58364;47987;58362;56270;47983;59330;59337;48582;59341;48586;59333;59331;59340;48581;59339];
 [48583;48584;59332;48585;59338;59334;59335;59336;47989;60272;60284;49098;60279;60281;49096;60273];
 [60277;60280;49094;49097;60283;60275;60276;60282;60274;60278;49095;61042;61041;49591;61047;49593];
 [49590;61043;49594;61044;61045;61048;49592;61654;61657;61651;61653;61652;61655;61656;61046;61650];
 [50125;62188;62191;62193;62186;62187;62190;62192;50126;50124;50123;62189;62185;62666;50352;62667];
 [63049;50427;63051;50428;63048;63050;50600;63314;50599;63485;63484;63483;63816;63817;63819;63818];
 [51792;42728;44398;55237;46583;57338;49872;62194;43171;45911;45910;56272;46584;56274;56273;57339];
 [47312;58435;58438;58437;58436;59342;59344;59343;49100;49099;49595;61049;61051;61050;49873;62196];
 [62195;62668;50353;50429;63316;63315;50779;43172;53423;44399;55240;55238;55239;56276;56277;57411];
 [56275;57340;57409;57408;57410;47313;57342;57341;57412;58441;58439;58440;59347;59345;59346;60285];
 [61052;61053;49874;62197;62669;50354;63052;63317;50601;63486;63820;43173;44401;44402;53424;53425];
 [44400;45140;45138;45137;45144;45136;45145;54237;45142;45139;45143;45141;45135;45919;45913;55244];
 [45918;45920;45914;45915;55242;45912;55243;45917;55241;45916;46660;46662;56280;46661;46585;46589];
 [47332;57417;56282;46590;56285;56286;46659;56288;56290;56291;56279;56278;56292;46658;56289;56287];
 [46656;46587;46663;56283;56284;56281;46657;46588;46586;57416;47327;47322;47317;47333;47318;47314];
 [47329;47326;47328;47319;47324;47315;47316;57424;57421;57413;57418;47330;57425;47331;47321;57415];
 [57423;57419;57422;57420;47325;57414;47320;58444;47992;47995;58446;48037;58445;47997;48591;58447];
 [48036;58443;48038;47993;47323;47996;47994;47998;48034;47991;48039;48035;48033;58442;48598;48594];
 [48601;59350;48602;59362;59355;48587;59363;59357;48597;59358;48596;59361;48590;59359;59349;48589];
 [60330;48595;48592;48600;59348;59352;48588;59351;59353;59354;48599;59356;59360;59364;48603;49106];
 [60325;60331;60328;60286;60332;60321;60327;49101;49107;60333;49103;49113;49108;60335;60329;49104];
 [60322;49114;60323;60324;49115;49112;48593;49102;60336;49116;49109;60334;49105;49110;49111;49603];
 [61092;61101;61098;61100;49600;61093;61099;49596;61095;49604;61091;61096;61103;60326;61097;61090];
 [49597;61089;49598;61104;49599;61102;49602;61054;49601;61094;61660;61674;61669;61671;61659;49875];
 [61658;49878;49877;61673;61665;61662;61668;61661;61663;61672;61670;49876;61677;61675;61666;61676];
 [61667;62201;50127;62273;63055;50134;61664;62199;50130;62200;62205;50132;50133;62198;62272;62274];
 [62202;62204;62206;62203;62275;50129;50135;50131;50128;62672;50359;62670;62674;62675;50357;62676];
 [62673;62671;50360;50356;62677;50358;50355;50430;50496;63054;63053;63056;63057;50497;63318;63323];
 [50602;63320;63319;63322;63321;63555;50652;63554;63552;63553;50686;50685;63681;63682;50752;63821];
 [63822;50791;50797;63913;63944;43174;55245;55246;57426;58448;59365;49606;49605;61678;62276;63556];
 [43175;54238;45146;45921;57428;57427;48604;59366;48605;61105;49879;50806;43176;52683;54239;45922];
 [55247;55248;56293;46664;47334;57430;57429;57431;58449;58450;48040;49117;48606;49118;61109;61106];
 [61108;61107;49607;61679;62278;62277;52132;45148;45147;54240;55249;56295;56294;46665;57433;57434];
 [57432;47336;47335;48042;48041;59367;60339;60337;60338;49119;61111;61110;61682;61681;61680;62279];
 [63914;43177;44403;44404;45149;45150;54242;54241;55250;45928;45926;45923;45927;45925;45924;46666];
 [56298;47341;46668;46673;56300;46675;46674;46677;56299;56296;46671;46667;46669;56297;46676;46672];
 [46670;47343;47342;47340;47344;47338;47339;47337;57435;58452;48044;48045;48043;58451;58453;59370];
 [59372;48615;59373;48608;59369;48607;48617;48613;48614;48610;59368;48609;59374;59371;48616;48611];
 [48612;60341;60343;60342;60344;49120;60340;49611;61112;49608;49612;49610;49609;61683;61686;61685];
 [61684;49880;62280;62281;50136;62282;50137;50362;50361;63058;50498;63059;63324;50603;50604;63557];
 [50754;43178;45930;45929;57436;57437;48046;60345;48618;60346;61113;43179;53426;44406;44405;54243];
 [45151;54244;55253;55252;55251;56302;46680;56301;46679;56303;46678;57439;57442;57440;57441;57445];
 [57438;57446;57443;57444;48048;58454;48047;59378;59376;48619;59375;59377;48620;60347;60348;49613];
 [62284;62286;62283;62285;62678;63060;63855;43180;44407;54245;54247;54246;55256;45932;55254;45931];
 [55257;55258;55255;56315;46688;56307;56313;46683;46686;56306;46681;56310;57452;46685;56305;56311];
 [56308;56314;56304;56312;46684;46687;56309;46682;47346;57448;47345;57455;57454;47352;47353;57456];
 [47347;57453;47351;57458;57449;57451;47348;57447;57450;57457;47349;57459;47350;48049;58459;58465];
 [58457;58466;58456;58461;58467;58464;58463;58462;58455;58460;58458;48625;48622;59387;59457;59459];
 [59456;59384;59386;59461;59458;59388;59462;59385;59460;48623;48629;48627;59379;48628;48624;59380];
 [59382;59381;59389;59390;48626;48621;59383;60358;49122;60349;49123;49126;60354;60351;49125;60355];
 [60356;60350;60359;60352;60357;49124;49121;60353;61119;49616;49614;49617;49615;61118;61115;61114];
 [61117;61116;61765;49886;61691;61690;49881;61761;61760;61687;61763;61692;49885;61689;61762;61688];
 [49882;49884;61693;49883;61694;61764;62290;50142;62287;62291;50139;62289;50144;50141;62288;50143];
 [62292;50138;50364;50366;62681;50365;62679;50140;62680;50363;50499;50501;63062;50500;63061;63329];
 [50605;63328;50606;63326;63325;63330;63331;63558;63327;63686;63683;63684;63685;50780;63825;63824];
 [63823;63856;63934;63915;50798;43181;45152;47354;48630;60360;49887;62293;63916;43182;43758;44409];
 [44408;45155;54248;45153;54249;45154;55263;55259;45933;55262;55261;55260;45934;55264;55265;56387];
 [56385;56389;56390;56396;56392;56394;56386;56316;56393;56395;56388;56391;56317;46690;56384;56318];
 [46689;46691;47357;57461;57463;57462;57467;47355;57464;57460;57465;57466;47356;47358;57468;58471];
 [58470;58468;58469;48051;48053;48050;48052;59469;59470;59465;59466;48632;48637;48631;48638;48633];
 [59467;59468;59464;48704;48635;48634;48636;59463;60362;49128;60364;49130;60367;60363;60361;60366];
 [49129;60365;49127;49619;49622;61121;49620;61120;49618;49621;61766;61767;61768;49888;61769;49889];
 [50146;62296;62297;62295;62294;62298;50145;62685;62683;62684;62686;62682;62687;63064;63065;63063];
 [50502;63332;50607;63333;63560;63559;43183;46692;47424;48054;49132;49131;50147;50300;50503;43184];
 [45156;47425;62299;52134;43185;43188;43187;43186;52133;52685;52687;43759;43761;52684;52686;43760];
 [52689;52688;52690;53430;53428;44412;53427;44451;44414;44411;44452;44413;44450;44449;53429;44410];
 [45162;54251;54257;45159;45166;45161;54254;54256;45164;54250;54253;45160;45157;54252;45163;54255];
 [45165;45158;55267;55270;45936;45946;45942;55268;45950;45943;45948;45938;45935;45937;45949;55269];
 [45941;45944;45940;45945;55271;45947;45939;55266;56397;46693;56399;46695;46697;56398;46694;46698];
 [46696;47431;57507;47439;57470;47440;47429;57505;47434;57506;47427;47426;47437;47436;47435;47433];
 [47438;57469;47428;47430;47432;48056;48059;48063;48057;48062;48060;48055;48061;48058;59474;48707];
 [48705;59475;48708;48706;59473;59472;49136;59471;49134;49133;60368;48709;49135;60369;49138;60370];
 [49137;49624;61123;49623;49628;49626;49627;49891;49625;61122;60371;49890;49892;50148;50149;62688];
 [50654;50653;43190;51797;45167;51794;51795;51793;51796;52138;52135;52140;52136;43191;43194;52137];
 [43193;52139;43192;52693;52695;43764;52691;52694;52692;43762;43765;43763;53432;53436;53433;44455];
 [44456;53435;53437;53439;44453;53438;44454;55278;53434;54258;54267;54265;54260;54261;54266;54268];
 [45169;54263;54259;45168;45170;54262;54269;54264;45985;55281;55273;55279;55280;45986;55272;55274];
 [53431;55276;55277;55275;46700;56406;60372;56407;56404;45987;46702;56403;56409;56408;46699;56412];
 [56402;56411;56400;56410;56405;46701;57514;57509;57515;57510;57508;57511;47441;57513;57512;47442];
 [48065;48064;58478;58481;58473;58477;48066;58476;58474;58480;58475;58472;58479;59481;48712;61770];
 [59478;59479;59477;56401;48711;59482;59476;48710;48713;59480;60373;49139;60374;60375;61124;49629];
 [61771;61772;61773;62301;62300;62690;62689;63067;63068;63066;63334;50608;43195;44458;44457;45173];
 [45172;54336;54337;54270;45171;55285;55286;55282;45988;55283;55284;56415;56417;56413;56416;46703];
 [56414;46704;56691;47445;47444;47443;57516;57517;58483;58485;48070;48067;48069;48068;58484;58482];
 [59489;59486;59487;48717;59488;59483;59484;48714;48715;59485;48716;60379;60380;60377;60378;49140];
 [60376;61128;61125;61127;49632;61131;49631;61129;61132;61130;61126;49630;61775;61776;61774;61778];
 [49893;49894;62303;50151;61777;62302;50150;62693;62694;50367;62692;62691;63069;50504;63561;63688];
 [63687;50755;50781;63689;63857;50799;43196;43766;47446;50368;43197;44459;45989;46705;49895;43767];
 [53441;53440;54338;45176;45174;45178;54340;45177;45175;54339;45992;55292;45991;45993;55362;45995];
 [55294;55360;55287;45994;55363;55289;55290;55288;45990;55361;55291;55293;56429;56428;56426;56418];
 [56433;56421;56431;56438;56430;46713;46709;56419;56425;46711;56424;46712;46714;56427;46706;46707];
 [56439;56437;56436;56422;56434;46710;46708;56435;56420;56423;56432;58554;57527;57520;57539;57548];
 [57523;47457;57536;47447;47449;47461;57521;47450;47452;47462;47451;47460;57529;57518;47458;57528];
 [47454;57546;47459;57544;57532;57542;47456;57519;57545;57540;57547;47448;47463;47453;57525;57533];
 [57537;57541;47455;57524;57522;57534;57531;57530;57535;57538;57543;58488;48071;58532;58490;48076];
 [48080;58541;58549;58534;48072;58538;57526;48073;58545;58550;58542;58544;58553;58546;58494;58537];
 [48081;48077;58492;58539;48075;58533;48074;58547;58530;58489;48078;58552;58491;58543;58540;58535];
 [58487;58486;58529;58548;48079;58551;58493;58531;48722;48730;48725;59556;59553;59495;48720;48719];
 [48726;59493;48724;59505;59491;59492;48718;59555;48728;59508;59513;59507;60398;59503;59511;59509];
 [59496;59490;59517;48727;59518;59512;59501;59499;59494;59502;59515;59498;59514;59554;48723;59510];
 [59516;59506;59500;48721;58536;59504;48729;59497;60404;49143;60403;60400;60484;49147;60481;60408];
 [60483;60393;60406;49149;60385;60383;60482;60480;60414;60397;60396;60386;49216;60392;60402;60413];
 [49219;60485;49640;49221;49150;60390;60399;60382;60384;49141;49218;49146;60391;60407;60401;49217];
 [60381;49635;60409;60412;49148;60395;49220;49145;49144;60405;60411;49142;60388;60410;60389;60394];
 [61138;61143;49637;49639;61149;49633;61164;61155;61144;61145;61154;49646;61153;61137;61152;61140];
 [61165;49645;49643;61141;61160;61146;61159;61161;61136;49638;61162;61150;49642;61147;49644;61156];
 [49636;61142;61157;61151;60387;61158;61139;49641;61163;49634;61134;61792;61785;49897;61780;61795];
 [61787;61148;61797;61781;49896;61791;49898;49906;49904;61793;49905;61783;61784;61789;61794;61133];
 [49899;61802;61799;61803;61790;61786;61800;62314;61788;49902;49901;61135;49903;61796;61798;49900];
 [61801;61779;61782;62323;62307;50155;62321;62305;50156;62316;62312;50161;62322;62306;62309;50153];
 [62324;62317;62320;50159;50164;50162;62313;62308;50157;50158;62304;50154;50152;50160;62319;50163];
 [62315;62325;50165;62311;62318;62707;62786;62709;62716;62310;62714;62697;62784;50371;62701;62718];
 [62708;50370;62788;62710;62715;62717;62695;62785;62706;62711;62699;62703;62787;62713;62696;62700];
 [62702;62712;50369;62705;62698;62704;63073;63078;50511;63080;50505;63076;63082;50510;50506;50507];
 [63072;63079;50509;63077;50508;63071;63075;63074;63070;63081;50609;63341;63344;63340;63342;63343];
 [63337;63338;63335;63339;63336;50610;50611;63563;63565;63564;63566;50656;63562;50655;50657;63691];
 [63692;50756;63690;63827;63826;63828;50783;63829;50782;63830;63858;63861;63860;50792;63859;50802];
 [50800;50801;50807;63936;63937;63935;63945;43768;55364;56440;59557;62326;43769;44460;45179;55365];
 [55366;45996;46717;56442;56441;46755;46716;56443;46718;46754;46753;46715;47464;57552;57550;57551];
 [57549;48082;48085;48087;48086;48083;48084;59559;59558;48731;59560;59561;48732;60493;60491;61171];
 [60489;60490;49222;60486;60494;60488;60492;61167;61169;61170;49651;61166;49650;61168;49647;49648];
 [49649;60487;49909;61806;61804;61805;49907;49910;49908;62327;62328;50166;62789;62791;62790;50372];
 [50512;63085;63084;63083;43770;51626;51800;42729;51798;51801;51799;52142;43201;43202;52144;43199];
 [52143;52141;43200;43198;52696;52699;43773;52698;52697;43772;43771;43840;52700;43774;53446;44462];
 [44463;44464;53447;53443;44461;53444;53445;53442;45220;45217;54341;45218;45221;54342;45182;45180];
 [45181;45219;45997;55369;46005;55368;55371;46001;55370;46763;45999;46002;45998;46003;46004;46000];
 [55367;46759;56445;56483;56482;46764;46760;46761;56444;56446;56481;46756;46758;46762;46757;57555];
 [57553;57554;47466;47467;57556;47465;48088;48090;48089;58555;58556;59563;59562;49223;49224;60495];
 [49225;61174;61172;61173;49652;61807;50167;49653;43841;45222;54343;55372;46006;46765;56484;56486];
 [46767;46766;46768;46769;56485;47470;47471;47469;48091;47468;57557;48092;59564;60496;49226;49654];
 [61808;61812;49913;61809;49914;49912;61813;49915;61811;62329;49911;50168;63693;43842;46008;46007];
 [46770;56488;56487;46771;57561;47475;47472;57560;47474;57558;47473;57559;58557;48093;59567;48733];
 [59565;48734;48735;59566;48736;60497;49230;49227;49232;60499;49228;60498;49231;49229;61177;61179];
 [49655;61178;49656;61176;61175;61815;61814;49916;61816;62334;50170;62333;62330;50169;62331;62332];
 [62792;62793;50373;50515;63086;50513;50514;63087;50612;50613;63345;50757;63695;50759;63694;63696];
 [50758;63831;63917;43843;47476;58558;59568;49233;49234;43844;48737;50171;44465;49235;50658;44466];
 [55373;56489;56491;56490;57565;57562;47477;47478;57563;57564;58560;58565;48094;58559;58561;58568];
 [58563;58567;58564;58562;58566;48095;59571;59569;48739;48738;59570;48740;60502;60501;49236;60500];
 [61180;61182;61249;61248;49657;61181;61857;49917;61821;61858;49918;61819;61822;61820;61817;49984];
 [61818;62369;62371;62370;62794;62795;63088;50615;50614;63567;63568;50760;63697;50793;44467;46772];
 [58570;58569;59573;59572;49658;61251;61250;61861;61859;61862;61860;50172;62372;62373;62374;63089];
 [63346;63698;44468;60503;61252;44469;48096;60504;49985;61863;50173;62796;62797;50516;63569;44470];
 [46011;46012;55374;46773;46774;56492;46775;47482;47484;57567;57568;57566;47479;47480;47483;47481];
 [58571;48097;48098;59580;48743;59575;59574;59579;48741;49243;59576;59581;59578;59577;48742;49241];
 [60506;49237;60507;60505;49240;49238;49242;49239;61253;61258;61254;61257;49659;60884;61256;61255];
 [49988;49986;49989;49987;61864;61865;61866;49990;62378;50240;62376;50241;62375;62377;50174;62801];
 [62798;62799;62800;63090;50518;50517;63348;63347;50616;50659;50761;50784;63832;63918;63919;44471];
 [56493;57569;58572;58573;48099;48100;59582;48744;49660;61867;49991;62381;50242;62380;62382;62379];
 [63093;62802;62803;50374;63092;63091;63349;63920;44472;44473;45223;54344;55375;46776;46779;46777];
 [56494;46781;46778;46780;47486;57570;57571;59584;47485;47521;47522;58575;58574;48101;48102;58576];
 [59583;48104;48745;48103;49244;59585;48747;48746;59586;59589;59587;59588;48748;49249;49247;49246];
 [60509;49248;60508;61259;60510;49245;60511;61262;61260;61261;61266;49995;61265;61268;61267;61264];
 [61263;49661;61870;61869;49994;49992;49993;61868;62385;50243;62384;62383;50244;62808;62807;62805];
 [62804;50376;50375;62809;63350;50617;63095;50519;63094;62806;63351;50660;50785;63833;63921;44474];
 [55376;61269;44475;58578;58577;60512;61271;61270;49996;62386;62387;50377;63922;45224;46783;46782];
 [57572;57574;47524;57573;47523;47525;57575;58580;58582;58581;58584;48105;58583;58579;58585;59596];
 [59599;59601;59591;59595;59592;48750;48753;48755;59593;59594;48754;59597;59600;59598;48756;48752];
 [59590;48749;48751;49251;60518;60516;60515;60521;60520;60519;60514;49250;60513;60517;49252;61274];
 [61278;61275;61277;61276;61273;61279;61282;61280;61281;49728;49662;61272;61283;61875;61878;61880];
 [61879;61873;61877;61872;61874;49997;61871;61876;62400;62389;50245;50246;62388;62393;62399;62391];
 [62398;62395;62394;62397;62392;62390;62396;62816;62814;50378;62813;62819;62817;50379;62812;62810];
 [62811;50381;62815;50380;62818;63096;63102;63097;50523;63137;50522;63101;63100;50521;63099;50520];
 [63098;63357;63393;63358;63355;50619;63352;63356;63395;63394;63353;63354;50618;63570;50663;63571];
 [50661;50662;63699;50762;63862;50794;63923;50795;63924;63925;63939;63938;50810;63949;45225;57577];
 [57576;48106;48107;58586;59602;60524;48757;49253;60522;60525;49254;61284;60523;61881;49998;62401];
 [62822;62820;62821;63138;50524;63396;50666;50620;50664;50665;63700;50786;45226;61882;54345;47526];
 [58587;48108;58588;59604;59603;49256;48758;48759;59607;59606;59605;60526;60529;60528;60527;49255];
 [61288;61286;61285;61287;49999;61884;61885;50000;61883;62403;62402;62405;50247;62404;62823;62825];
 [62824;63139;63142;63140;63141;63397;50621;63572;63573;63574;50763;50787;63926;45227;48760;49257];
 [61886;63398;63940;54346;50811;45228;60530;61887;62406;63143;63399;45229;58589;58590;48109;48110];
 [59609;48762;48761;59608;61289;61888;61890;61889;50003;50002;50001;50526;63144;50525;63401;63400];
 [50764;63701;46013;57578;58593;58591;58592;59618;59613;59610;59617;59619;48764;59616;59612;59611];
 [59615;59614;48763;60541;60536;60534;60577;60535;60531;60537;60532;61298;60533;60578;60540;49258];
 [60539;60538;60542;61290;61293;61292;61300;61295;61299;61297;61296;61294;61291;49731;49730;49732];
 [49729;61301;61896;61899;61897;61901;61902;61894;50008;61895;61893;61900;61892;61891;50007;50005];
 [50004;61898;62415;62421;50250;62416;62419;62423;50251;62418;62410;62409;62422;62413;62411;62420];
 [62412;50249;50248;62407;62408;62417;62414;62828;62831;50006;62829;62835;62833;62827;62838;62826];
 [50383;62834;62830;50382;62837;62836;63147;63146;63153;63149;63152;50528;63150;63151;63145;63148];
 [50527;50623;63412;63407;63411;63414;63410;63406;50625;63409;63413;50624;63404;62832;63408;63405];
 [63402;63403;50622;63578;63580;63583;63579;63584;63577;63575;50667;63581;50669;50668;63576;63582];
 [63706;50765;63707;63705;63702;63704;63703;63834;63836;63835;63865;63864;63863;63866;50803;50804];
 [63946;63950;46014;56495;57581;47527;57579;57580;58594;58595;48113;48111;58596;48112;59624;59627];
 [59621;59628;59620;59622;59623;59626;48801;59631;59630;48765;59625;59629;48766;60588;49263;60583];
 [49259;60580;60586;60589;49264;60585;60582;60590;60581;60587;49260;60579;49261;49262;60584;61353];
 [61306;61307;61310;61308;61302;61305;61349;61309;49733;61351;61348;49734;61350;61303;61346;61347];
 [61345;61906;61908;61911;61905;50009;61913;61904;61914;61910;61912;61916;61909;61917;61907;61903];
 [50010;61915;50011;50253;61304;62449;62440;50255;62436;50256;62445;62439;62429;50254;62442;62437];
 [62438;62424;62431;62446;62443;62435;62447;62430;62425;62444;62427;62441;62432;62448;62428;50252];
 [62426;62433;62434;62845;62843;62882;62894;62885;62844;62840;62887;62846;62883;62842;62890;62839];
 [62881;62886;62888;62891;62841;62895;62896;62889;62893;62884;63169;63172;50529;63171;63176;63174];
 [50530;63165;63155;63154;50532;63167;63168;63164;63156;63161;62892;63157;50531;63163;63162;63158];
 [63170;63159;63419;63173;63175;63166;63160;63420;63422;63416;50626;63429;63427;50627;63426;63425];
 [63418;63415;63421;63430;63417;63423;63593;63598;63588;63591;50670;63595;63602;63424;63589;63599];
 [63603;63594;63587;63597;63596;63601;63600;63428;63592;63586;63590;50766;50767;63585;63718;63709];
 [63717;63714;63715;63708;63711;63719;63713;63712;63710;63716;63837;63838;63840;63839;63842;63841];
 [63868;63867;63927;63928;63941;50808;50812;63951;50813;46015;50384;63177;50768;50769;46016;57582];
 [47528;59632;60592;60593;60591;61355;61354;49735;61919;61356;61918;62451;50257;50259;62450;50258];
 [62897;62899;62898;63178;50533;50671;63720;63843;63954;46017;58597;48802;60595;60594;61357;50260];
 [50385;63431;63947;46018;48114;48803;62452;63604;46784;61358;50788;46785;48804;49736;63605;46786];
 [59633;49266;60596;60597;49265;61359;49740;49738;49739;49737;61920;50012;62901;62900;62903;62902];
 [50386;63179;63181;63180;50534;63432;63606;63607;50672;63844;63869;50805;56496;60598;61360;62453];
 [57583;61361;61922;61921;63608;50770;63845;63870;47529;59634;59635;60599;47530;50013;61923;63183];
 [50535;63184;63182;63609;63721;47531;61364;61363;61362;61924;61928;61927;61926;61925;50014;62454];
 [62905;50387;62904;63185;63435;63434;50628;63433;63612;63611;63610;48115;60600;49741;62455;62456];
 [63436;63613;63722;63846;63929;63956;48116;49742;61929;62457;63186;63614;48806;61365;61930;62458];
 [62459;62460;62910;62906;50536;62909;62908;50388;62907;50390;50389;63188;63187;50537;50538;50630];
 [63437;50629;63651;63652;63650;63649;50772;63723;63724;63725;50771;63847;63850;63849;63848;63955];
 [49267;50021;62911;63189;50631;63438;63957;49268;61366;63439;63905;51530;56828;41290;41303;41305];
 [41307;41311;41312;41315;41316;41319;41320;41323;41324;41327;41328;41331;41332;41335;41336;41339];
 [41340;41414;41415;41418;41419;41416;41417;41308;41293;41295;41297;41298;41299;41300;41341;41342];
 [41377;41378;41379;41380;41420;41421;41422;41438;41439;41440;41441;41442;41548;41549;41550;41289];
 [41389;41539;41544;41390;41309;41310;41391;41423;41281;41424;41284;41537;41647;41648;41649;41650];
 [41651;41652;41653;41654;41655;41656;41287;41286;41429;41431;41430;41288;41545;41679;41680;41681];
 [41682;41683;41684;41685;41686;41687;41688;41689;41690;41691;41692;41693;41694;41695;41696;41697];
 [41698;41699;41700;41701;41702;41703;41704;41538;41412;41705;41706;41707;41708;41709;41710;41711];
 [41712;41713;41714;41715;41716;41717;41718;41719;41720;41721;41722;41723;41724;41725;41726;41792];
 [41793;41794;41795;41313;41301;41314;41294]].

(* lib/converters/big5.h:3632-3639 big5_uni2indx_page00 (flattened, 2 fields per entry) *)
Definition big5_uni2indx_page00 : tab := mk [
 [0;0;0;0;0;0;0;0;0;0;0;0;0;0;0;0];
 [0;0;0;0;0;172;4;131;7;0;7;128;8;0;8;128]].

(* lib/converters/big5.h:3640-3655 big5_uni2indx_page02 (flattened, 2 fields per entry) *)
Definition big5_uni2indx_page02 : tab := mk [
 [9;0;9;0;9;0;9;0;9;0;9;0;9;0;9;0];
 [9;0;9;0;9;0;9;0;9;3712;13;512;14;0;14;0];
 [14;0;14;0;14;0;14;0;14;0;14;0;14;0;14;0];
 [14;0;14;65534;29;1019;38;65534;53;1019;62;0;62;0;62;0];
 [62;2;63;8176;72;65528;85;65535;101;65535;117;2]].

(* lib/converters/big5.h:3656-3672 big5_uni2indx_page20 (flattened, 2 fields per entry) *)
Definition big5_uni2indx_page20 : tab := mk [
 [118;0;118;13080;124;100;127;18468;131;0;131;0;131;0;131;0];
 [131;0;131;0;131;0;131;0;131;0;131;0;131;0;131;0];
 [131;552;134;0;134;0;134;0;134;0;134;0;134;1023;144;0];
 [144;0;144;975;152;0;152;0;152;0;152;0;152;0;152;0];
 [152;0;152;50176;155;20009;162;4144;165;0;165;4;166;195;170;0];
 [170;0;170;0;170;32;171;32768]].

(* lib/converters/big5.h:3673-3688 big5_uni2indx_page24 (flattened, 2 fields per entry) *)
Definition big5_uni2indx_page24 : tab := mk [
 [172;0;172;0;172;0;172;0;172;0;172;0;172;1023;182;16368];
 [192;0;192;0;192;0;192;0;192;0;192;0;192;0;192;0];
 [192;4101;195;4369;199;4112;201;4112;203;0;203;16385;205;58370;210;15];
 [214;65534;229;48;231;3;233;12300;237;51392;242;0;242;60;246;0];
 [246;608;249;0;249;0;249;0;249;7]].

(* lib/converters/big5.h:3689-3711 big5_uni2indx_page30 (flattened, 2 fields per entry) *)
Definition big5_uni2indx_page30 : tab := mk [
 [252;65327;265;24631;272;1022;281;0;281;65534;296;65535;312;65535;328;65535];
 [344;65535;360;24591;366;65534;381;65535;397;65535;413;65535;429;65535;445;16511];
 [453;65504;464;65535;480;1023;490;0;490;0;490;0;490;0;490;0];
 [490;0;490;0;490;0;490;0;490;0;490;0;490;0;490;0];
 [490;0;490;0;490;0;490;0;490;0;490;0;490;0;490;0];
 [490;0;490;0;490;8;491;0;491;0;491;0;491;0;491;0];
 [491;0;491;0;491;0;491;0;491;0;491;0;491;0;491;0];
 [491;49152;493;28672;496;2;497;0;497;16400;499;38]].

(* lib/converters/big5.h:3712-4123 big5_uni2indx_page4e (flattened, 2 fields per entry) *)
Definition big5_uni2indx_page4e : tab := mk [
 [502;65419;514;50035;523;26688;527;6927;535;59820;544;62284;553;512;554;49160];
 [557;31068;566;51774;575;31094;585;1608;589;12255;601;63472;612;826;618;43263];
 [629;61239;641;9023;650;45060;654;64857;665;62410;675;65535;691;56991;703;65529];
 [717;44031;730;32247;743;49152;745;36588;754;61119;767;65499;781;53251;786;17914];
 [795;64225;805;57342;819;49135;833;4267;839;65515;853;64682;863;61247;876;9469];
 [885;30893;894;32630;906;61452;912;60927;926;53238;938;11514;947;63481;960;60267];
 [971;8189;983;38335;994;26231;1004;49087;1018;15355;1030;65204;1041;31662;1052;4578];
 [1058;42625;1064;16830;1072;5173;1078;29379;1086;32112;1095;29073;1102;3;1104;10091];
 [1113;22475;1123;28879;1132;18226;1139;3567;1149;32474;1160;64628;1170;65030;1179;48564];
 [1189;16287;1201;35786;1209;32329;1218;22528;1221;8847;1228;60396;1239;35420;1246;56763];
 [1258;61280;1267;46823;1278;41999;1285;62099;1294;14267;1305;21662;1313;53323;1320;39855];
 [1331;50196;1336;63444;1347;12464;1352;2580;1356;12040;1362;35024;1367;65406;1381;6447];
 [1389;65498;1402;64263;1412;32753;1424;31723;1436;50671;1447;16;1448;39423;1460;65023];
 [1475;31191;1486;1383;1493;65511;1507;64971;1519;50175;1531;16448;1533;28663;1546;48526];
 [1556;57338;1569;1175;1575;62656;1582;23551;1595;60795;1607;53479;1616;1150;1623;63712];
 [1631;65439;1645;46910;1656;32254;1669;34862;1675;65533;1690;48767;1703;33790;1713;63172];
 [1722;62295;1733;47357;1744;54912;1750;61309;1763;22375;1773;18312;1779;65405;1793;50143];
 [1804;61695;1816;14249;1825;32224;1834;28924;1843;16239;1855;60570;1864;19635;1872;34433];
 [1877;16286;1888;56668;1898;63245;1908;18457;1913;65187;1924;7;1927;44886;1937;14591];
 [1948;38925;1954;61368;1965;16445;1971;46944;1979;55502;1988;36917;1994;29375;2005;16383];
 [2019;32759;2033;31249;2040;63419;2053;44031;2066;65280;2074;28606;2086;43324;2094;65138];
 [2105;53231;2118;61723;2127;56171;2138;62474;2145;50150;2154;61310;2167;39836;2176;62992];
 [2183;61512;2189;5876;2197;65205;2209;20866;2214;51121;2223;5563;2232;28295;2241;64479];
 [2255;58431;2265;25549;2274;49663;2285;32382;2297;65003;2310;32095;2322;30587;2334;64766];
 [2347;38411;2354;56298;2365;25129;2371;21480;2379;14303;2391;65007;2405;14069;2415;48513];
 [2423;56344;2430;64701;2442;53988;2450;65535;2466;16343;2478;65504;2489;32623;2502;44024];
 [2512;39854;2522;28377;2532;62971;2545;61717;2553;31145;2562;48635;2575;23100;2583;44463];
 [2594;56250;2605;8108;2614;29180;2624;33657;2632;31991;2644;50015;2654;57343;2669;1383];
 [2676;65434;2688;33895;2695;5428;2701;57227;2712;63987;2724;13171;2733;63421;2746;24090];
 [2754;48960;2762;41023;2770;65535;2786;491;2793;57280;2802;53213;2814;29952;2819;43987];
 [2829;63683;2838;61142;2849;17405;2859;47103;2873;24239;2884;16935;2890;39852;2899;63110];
 [2908;10199;2918;63164;2929;63367;2940;13751;2950;43725;2959;57718;2968;18919;2977;58015];
 [2987;21596;2994;45042;3005;11071;3015;25048;3022;64571;3033;48056;3043;65487;3057;31613];
 [3069;49045;3080;7392;3086;32253;3099;17407;3110;24566;3122;65534;3137;54255;3149;50382];
 [3157;36278;3166;44476;3176;25564;3185;4587;3193;57177;3204;9168;3210;48820;3220;62427];
 [3232;8167;3243;56263;3254;65379;3266;64228;3276;45611;3284;25591;3295;60731;3306;44474];
 [3316;65025;3324;32511;3338;65527;3353;700;3359;13055;3370;61241;3381;65532;3395;32773];
 [3398;30715;3411;48373;3422;269;3426;65527;3441;65531;3456;48954;3467;87;3472;57343];
 [3487;61307;3500;48509;3512;56200;3520;51412;3527;65523;3541;60796;3552;24046;3563;22271];
 [3575;32269;3584;44127;3594;65430;3606;54655;3618;16366;3630;49472;3634;28665;3646;65511];
 [3660;30619;3671;36471;3681;28351;3693;58461;3702;28623;3714;24351;3725;57471;3735;65247];
 [3749;55259;3761;510;3769;65280;3777;64379;3790;65492;3802;8159;3814;63488;3819;65535];
 [3835;64399;3847;123;3853;48896;3860;32604;3871;65535;3887;2035;3896;60320;3904;15847];
 [3915;63423;3929;64471;3942;65471;3957;24579;3961;65533;3976;49133;3989;61371;4002;639];
 [4010;65088;4018;56829;4031;65023;4046;58105;4056;26635;4062;64287;4074;64483;4086;45053];
 [4099;40868;4108;63469;4121;31357;4132;63503;4141;61118;4153;4053;4162;47965;4173;64927];
 [4186;62171;4197;15353;4208;65151;4222;60364;4232;34666;4240;29690;4251;38396;4261;40956];
 [4273;4255;4280;64247;4293;56759;4305;48077;4316;63614;4327;60621;4337;62310;4347;15423];
 [4357;65533;4372;45119;4381;59895;4393;1662;4401;38574;4410;65030;4419;54646;4429;24535];
 [4441;16337;4451;41971;4461;52999;4470;28599;4482;40913;4492;32580;4501;31577;4511;54237];
 [4522;44859;4533;43453;4543;32207;4555;65338;4567;64480;4577;63211;4589;46081;4594;65535];
 [4610;31482;4621;47039;4634;49152;4636;4093;4647;65407;4662;65311;4675;65276;4688;38399];
 [4700;0;4700;46556;4710;61283;4721;16190;4732;64383;4746;27;4750;59392;4754;64502];
 [4767;40687;4779;47327;4790;65439;4804;63;4810;31696;4819;62975;4833;57307;4846;16383];
 [4860;65008;4871;191;4878;33824;4881;48061;4893;57143;4905;65502;4919;65389;4932;4083];
 [4942;24652;4947;24315;4959;65531;4974;64251;4987;65118;4999;537;5003;31220;5013;63966];
 [5025;42999;5037;60410;5049;491;5056;65332;5067;60371;5078;61299;5090;45015;5102;49216];
 [5105;29371;5115;56575;5128;61823;5140;12248;5149;47340;5158;65035;5168;56739;5178;7947];
 [5186;36637;5195;18383;5205;45355;5213;65502;5227;32750;5240;55923;5250;9471;5260;52164];
 [5268;63325;5280;52210;5290;60669;5302;46317;5312;49145;5325;19933;5335;39389;5345;64397];
 [5356;47999;5369;44923;5381;56827;5394;51545;5402;64591;5413;64181;5424;45027;5435;27999];
 [5446;65535;5462;16253;5474;30720;5478;65499;5492;46847;5505;32511;5519;64431;5532;559];
 [5538;65435;5551;61383;5563;65445;5575;65535;5591;7;5594;50944;5599;63487;5614;65521];
 [5627;32765;5641;447;5649;56320;5654;64956;5666;49141;5679;65535;5695;65407;5710;16127];
 [5723;41;5726;48640;5732;63999;5746;65407;5761;28411;5773;64894;5786;52223;5799;926];
 [5806;58112;5811;64477;5824;52479;5836;63199;5849;65535;5865;4479;5874;63488;5879;64502];
 [5892;59375;5905;55100;5915;65263;5929;57327;5943;49163;5948;60863;5961;65247;5975;64973];
 [5987;31733;5999;16637;6007;65535;6023;46943;6035;65503;6050;63792;6058;64479;6072;56471];
 [6082;65267;6095;49138;6107;36831;6119;57279;6133;6015;6144;60902;6155;3967;6166;13651];
 [6174;17532;6181;34686;6191;64018;6199;17851;6208;60896;6217;30622;6228;32791;6233;49113];
 [6245;32341;6255;56969;6264;49519;6273;1095;6278;31454;6289;63325;6301;22527;6314;10501];
 [6319;34551;6329;65173;6340;38835;6350;62255;6361;53247;6375;40821;6386;29175;6397;64279];
 [6408;13550;6417;60953;6426;14284;6435;61281;6445;40918;6456;61260;6466;54927;6476;64477];
 [6489;31603;6500;28143;6512;55294;6525;42033;6531;24191;6543;38871;6554;3931;6563;65496];
 [6575;40323;6583;31694;6594;8940;6601;56575;6614;30269;6624;61319;6635;57319;6648;65005];
 [6661;20479;6674;41212;6682;15223;6693;56316;6705;15853;6716;32732;6728;28585;6738;62832];
 [6747;16379;6760;11328;6764;65407;6779;33919;6788;60503;6798;57015;6810;59036;6819;61999];
 [6829;4075;6839;54709;6849;45035;6861;60903;6873;35887;6881;65520;6893;21375;6904;59632];
 [6912;47517;6922;46591;6935;65382;6947;59279;6958;55681;6965;48656;6972;40060;6981;58305];
 [6989;40145;6997;10035;7005;3260;7012;65389;7025;64695;7037;61367;7050;41183;7059;65535];
 [7075;48907;7085;65147;7098;41983;7110;13631;7120;5068;7127;38861;7137;30263;7147;64295];
 [7158;53206;7169;32364;7179;60496;7186;60721;7195;26492;7205;64540;7214;63226;7226;24511];
 [7239;4026;7248;44591;7258;41901;7267;32766;7281;64752;7291;56948;7301;65519;7316;61952];
 [7321;64447;7335;65186;7345;15791;7356;48383;7369;63124;7378;24505;7389;62381;7400;16271];
 [7411;62060;7420;40991;7427;65519;7442;447;7450;30504;7458;28677;7463;65333;7475;55811];
 [7482;54009;7492;51194;7503;16319;7516;23581;7524;65338;7536;60467;7545;47023;7557;65180];
 [7568;21046;7575;31391;7586;49146;7599;59170;7607;40951;7620;64767;7634;12219;7645;46621];
 [7654;60678;7662;7677;7673;32215;7685;61407;7699;60195;7708;61798;7717;32473;7728;3520];
 [7733;15677;7743;57279;7757;51525;7764;47747;7772;32209;7782;40400;7790;31623;7800;53107];
 [7811;40947;7823;50165;7833;57101;7843;50686;7854;3251;7861;33538;7865;59513;7874;44736];
 [7881;51059;7891;28431;7901;64893;7914;2367;7922;65521;7935;343;7941;25339;7951;511];
 [7960;64948;7971;15347;7982;45075;7988;17330;7995;24275;8005;65328;8015;4095;8027;60319];
 [8039;65263;8053;61955;8060;16367;8073;64393;8083;14249;8092;40601;8101;57081;8113;42796];
 [8121;14131;8130;49654;8139;33070;8145;65086;8157;23840;8163;62199;8175;54661;8183;27095];
 [8193;65535;8209;65535;8225;56071;8234;65391;8248;50431;8259;55679;8271;61390;8283;48655];
 [8293;61819;8304;61534;8313;63183;8325;65463;8339;24311;8351;61316;8360;55243;8371;3807];
 [8381;65288;8390;64767;8404;60991;8416;65535;8432;5119;8443;55295;8457;44815;8467;32765];
 [8481;48583;8492;8186;8503;0;8503;0;8503;0;8503;0;8503;0;8503;0];
 [8503;0;8503;0;8503;0;8503;59200;8510;48440;8519;63795;8529;32747;8542;65261];
 [8555;32744;8566;31862;8576;46071;8588;65519;8603;65199;8616;55479;8626;65391;8640;64447];
 [8654;63739;8666;56311;8679;5970;8686;58105;8696;34248;8702;30023;8711;37008;8715;58351];
 [8727;40692;8737;16237;8748;60974;8758;1334;8764;63420;8776;32755;8789;41083;8797;32575];
 [8810;1383;8817;60256;8825;47806;8836;26113;8841;64728;8851;22591;8860;51959;8871;34783];
 [8882;49101;8894;65440;8904;23501;8914;65215;8928;46845;8940;61351;8952;30703;8965;57244];
 [8976;16311;8988;63607;8999;40231;9008;47100;9020;51893;9029;57327;9043;64346;9054;61878];
 [9064;60473;9073;61215;9085;64447;9099;32763;9113;13;9116;56062;9128;48635;9141;20095];
 [9152;13311;9164;23232;9170;49141;9183;40958;9196;65471;9211;95;9217;0;9217;65016];
 [9229;65482;9241;28669;9254;53245;9267;40961;9270;57343;9285;64498;9297;57279;9311;65407];
 [9326;65242;9338;2063;9343;47624;9349;49151;9364;31485;9376;61143;9388;64491;9401;26617];
 [9412;57412;9417;65427;9429;57239;9441;40791;9452;65271;9466;2271;9474;57216;9482;65247];
 [9496;65477;9508;63486;9522;65531;9537;26627;9542;26619;9554;27642;9565;32767;9580;24546];
 [9590;65535;9606;65395;9619;34783;9630;59387;9643;60413;9656;63399;9668;49022;9681;61383];
 [9693;7923;9703;57218;9712;30463;9725;57214;9738;31177;9747;55933;9758;61374;9771;7835];
 [9780;31968;9788;30715;9801;34750;9811;65531;9826;7167;9838;65499;9852;16220;9862;20448];
 [9870;32767;9885;24334;9894;30719;9908;56767;9921;61519;9930;65535;9946;65535;9962;4088];
 [9971;41918;9981;64991;9995;64540;10004;65533;10019;8061;10030;64414;10042;48639;10056;57052];
 [10067;16239;10079;47867;10091;57215;10105;64495;10119;32027;10129;12012;10138;44942;10148;62199];
 [10160;31503;10170;53230;10182;7574;10190;30662;10200;32263;10209;65525;10223;55682;10230;32735];
 [10244;24294;10254;51199;10267;65262;10280;31215;10292;39510;10300;65487;10314;65119;10327;56926];
 [10338;35182;10346;63976;10356;62558;10366;59076;10374;1;10375;48764;10386;15231;10398;56799];
 [10411;54685;10421;59887;10433;13484;10440;56915;10450;62835;10461;19447;10472;31567;10483;40703];
 [10496;47358;10507;18286;10516;3579;10526;65349;10537;44029;10549;64510;10563;59863;10574;56831];
 [10588;60919;10601;32767;10616;56829;10629;32491;10641;53223;10653;47103;10667;48617;10678;61329];
 [10688;23925;10698;55164;10709;0;10709;0;10709;0;10709;0;10709;0;10709;0];
 [10709;0;10709;0;10709;0;10709;64128;10716;65518;10730;46321;10739;49014;10751;12271];
 [10763;46711;10774;30655;10787;40895;10800;65533;10815;38335;10826;63150;10837;30207;10850;32571];
 [10862;42997;10873;2809;10881;0;10881;0;10881;0;10881;0;10881;64464;10891;11229];
 [10901;63027;10911;39551;10922;64939;10934;55036;10945;63974;10956;49131;10969;57311;10983;62495];
 [10993;42749;11004;65535;11020;19199;11031;62331;11043;32695;11056;65273;11069;46847;11082;7516];
 [11090;32758;11103;58879;11116;8059;11127;9220;11130;48645;11138;63902;11149;56291;11160;57330];
 [11172;28655;11185;65023;11200;54905;11210;52220;11221;60413;11234;61439;11249;31;11254;0];
 [11254;0;11254;38912;11257;57672;11263;32791;11268;27252;11276;254;11283;28031;11295;65009];
 [11307;47231;11318;65267;11331;57375;11339;61814;11349;61078;11359;31551;11371;60301;11381;65533];
 [11396;44543;11409;52147;11419;34031;11428;57727;11439;19882;11447;49136;11458;48959;11471;65087];
 [11484;60415;11498;65495;11512;65503;11527;53119;11540;65531;11555;34285;11564;55103;11576;1980];
 [11584;44799;11597;65039;11608;64943;11621;30399;11633;64239;11646;14267;11657;32732;11669;41914];
 [11678;46847;11691;22263;11702;24824;11709;59359;11722;65377;11733;19679;11743;45307;11753;65349];
 [11764;32237;11776;16378;11788;8191;11801;6396;11809;65535;11825;58287;11836;51155;11846;57219];
 [11856;64343;11868;61309;11881;61439;11896;4984;11903;65216;11912;24567;11925;13499;11934;24291];
 [11944;63245;11954;61430;11967;55294;11980;191;11987;62877;11998;63479;12012;20958;12021;65504];
 [12032;65225;12043;895;12052;24321;12059;49135;12073;40945;12084;24743;12091;61213;12102;61951];
 [12115;15;12119;0;12119;0;12119;0;12119;0;12119;0;12119;0;12119;0];
 [12119;0;12119;0;12119;0;12119;0;12119;0;12119;0;12119;0;12119;15488];
 [12124;64333;12135;55583;12145;31546;12155;65251;12167;16361;12178;56447;12190;63;12196;0];
 [12196;0;12196;20480;12198;62751;12209;48647;12218;64541;12228;63771;12238;48158;12247;29183];
 [12259;28665;12271;23486;12282;22422;12291;39707;12300;32767;12315;65532;12329;34606;12337;45031];
 [12349;60405;12361;62287;12372;57341;12386;59173;12395;3036;12403;23876;12410;22343;12419;64989];
 [12432;60735;12444;30608;12452;32127;12465;35528;12471;64250;12483;62457;12495;8234;12499;61259];
 [12510;62975;12524;31183;12535;43987;12545;2981;12552;63354;12564;64399;12576;36541;12586;31];
 [12591;0;12591;0;12591;62208;12597;64846;12608;6743;12616;34816;12618;44716;12627;30292];
 [12635;6061;12644;52735;12657;65458;12669;62511;12679;23466;12688;56319;12702;2;12703;0];
 [12703;0;12703;29632;12710;63978;12721;11839;12731;64142;12741;48127;12755;30396;12765;65491];
 [12778;61182;12791;32370;12801;32445;12813;59383;12826;63359;12840;52989;12852;4085;12862;0];
 [12862;0;12862;0;12862;43264;12866;56219;12877;42183;12885;37247;12895;63690;12904;32462];
 [12915;32122;12926;51175;12937;52157;12948;56494;12958;64894;12971;36726;12981;37331;12989;31987];
 [13000;485;13006;19503;13014;60791;13026;41824;13032;2011;13041;24312;13051;7671;13062;8577];
 [13066;27616;13074;12444;13080;15162;13089;64222;13101;32595;13112;50165;13122;25037;13130;1978];
 [13138;0;13138;0;13138;0;13138;0;13138;0;13138;0;13138;9952;13144;48894];
 [13157;1017;13165;60341;13176;58221;13186;59851;13196;39983;13205;49118;13218;40835;13227;43967];
 [13239;8183;13251;65493;13264;47071;13277;57342;13291;64942;13303;65519;13318;64382;13331;61437];
 [13345;43775;13357;28351;13369;0;13369;0;13369;0;13369;0;13369;0;13369;46624];
 [13375;32717;13387;48798;13398;25267;13406;22769;13414;61709;13422;64891;13435;59889;13445;48893];
 [13458;50883;13466;24429;13477;65341;13490;27135;13502;65487;13516;64500;13528;56571;13540;20471];
 [13552;8192;13553;4407;13560;21]].

(* lib/converters/big5.h:4124-4128 big5_uni2indx_pagefa (flattened, 2 fields per entry) *)
Definition big5_uni2indx_pagefa : tab := mk [
 [13563;12288]].

(* lib/converters/big5.h:4129-4139 big5_uni2indx_pagefe (flattened, 2 fields per entry) *)
Definition big5_uni2indx_pagefe : tab := mk [
 [13565;0;13565;0;13565;0;13565;65531;13580;65055;13592;65269;13605;3711;13615;0];
 [13615;0;13615;0;13615;0;13615;0;13615;0;13615;0;13615;0;13615;0];
 [13615;65402;13628;65535;13644;65535;13660;38911;13673;65534;13688;16383;13702;16]].

(* lib/converters/hkscs1999.h:30-115 hkscs1999_2uni_page88 *)
Definition hkscs1999_2uni_page88 : tab := mk [
 [1728;1729;1730;1731;1732;29196;1733;29137;29133;1734;1735;29131;35944;1736;29130;1737];
 [1738;1739;1740;29198;1741;1742;128;65;269;64;146;73;154;72;204;83];
 [273;82;28925;702;28925;704;74;129;97;270;96;337;147;105;155;104];
 [171;109;272;108;205;115;274;114;235;122;276;121;278;280;282;284];
 [124;28925;703;28925;705;106;353;1050;1051;28925;28925;28925;28925;28925;28925;28925];
 [28925;28925;28925;28925;28925;28925;28925;28925;28925;28925;28925;28925;28925;28925;28925;28925];
 [28925;28925;28925;28925;28925;28925;28925;28925;28925;28925;28925;28925;28925;28925;28925;28925];
 [28925;28925;28925;28925;28925;28925;28925;28925;28925;28925;28925;28925;28925;28925;28925;28925];
 [28925;28925;28925;28925;28925;28925;28925;28925;28925;28925;28925;28925;28925;28925;28925;28925];
 [28925;28925;28925;28925;28925;28925;28925;28925;28925;28925;28925;28925;28925;61481;32773;28925];
 [14154;28925;28925;8317;16605;28110;25311;28925;28925;53877;14033;8538;8552;8680;9110;9140];
 [9180;9252;9441;9448;9595;9614;9745;9752;10530;11056;11076;11079;11122;11124;11686;11742];
 [11743;11994;12486;12923;14281;14910;14916;15013;16270;17084;18229;20644;20652;20666;20679;20687];
 [20703;20742;20791;21626;21711;21871;23366;23870;23906;24742;24743;24750;17937;20220;20429;15238];
 [19657;9319;28925;28925;28925;28925;25228;19128;25182;21180;28925;24139;21238;30951;28925;28925];
 [21151;28487;8077;28233;28300;7934;60342;52558;28298;61043;2305;28925;16538;21566;18201;28925];
 [7185;27500;27535;28697;19335;56492;35466;30288;38182;8292;8385;8384;8391;8447;8491;8567];
 [1932;8701;4424;8771;8904;1981;2003;2021;9158;11077;9243;9276;9285;8393;9401;9424];
 [9575;2311;9705;2193;9712;2195;9730;9827;2221;2226;2497;9939;9955;9972;9977;10000];
 [10031;10072;10083;10088;2264;10111;2277;2303;10263;2309;55172;10085;28925;31490;31701;46123];
 [10192;38598;3372;29697;24454;45368;58981;4947;55678;18810;38456;3444;6869;55837;51122;45418];
 [14109;31804;32372;31637;32692;14029;24510;32086;31435;32292;38569;56022;43539;28925;31750;59853];
 [55721;6900;45607;38594;27570;3495;59124;4845;2118;46471;59220;54216;38724;28142;26901;28925];
 [5849;49125;14068;10019;38732;38346;32567;3387;32559;50330;50390;54432;14122;45970;31491;24488];
 [36321;57676;30513;28925;6923;29289;4858;10931;38797;28925;43720;30140;49111;32268;31830;10169];
 [5051;5818;28925;7540;38118;32605;21418;27125;31836;13753;3390;37493;24320;10465;14012;4419];
 [28925;61697;31945;38159;38601;28925;32648;41282;3282;3398;56091;2232;48585;36103;10386;32241];
 [38578;59168;2044;15997;45499;28925;28925;53492;39051;36424;61787;57933;32058;31476;50652;20883];
 [32655;37635;37945;2363;46243;32076;32333;32106;4755;32240;31751;32783;32012;28925;32107;31337];
 [31752;32640;32765;4857;37270;13938;32365;40244;53689;38350;31806;31807;38481;38485;3416;32088];
 [32647;32238;61746;51344;57938;58073;57930;26282;9996;21700;10233;28925;60547;27942;27574;53918];
 [38894;17216;21357;21228;11868;50098;21300;2775;9631;55677;25270;32186;31951;32055;32187;2333];
 [45419;2377;31638;10479;37557;32649;31952;32056;32568;32776;55943;33557;32057;45520;38820;11412];
 [32477;32478;32693;32694;10716;31953;53780;56141;32373;32059;46206;2627;32374;32832;46488;61373];
 [44634;34426;42679;56060;10969;9384;2394;47293;19890;11688;6912;7660;28583;7399;27935;27789];
 [47988;39613;10299;2354;10441;8296;11074;35073;62008;26705;29062;8347;8443;2174;11875;12689];
 [12804;3130;13452;14197;15802;15989;15994;17004;17451;8300;17581;44393;20818;19259;20217;20819];
 [49450;2049;28925;49611;20994;21120;50194;50961;9629;23012;23361;54194;23840;24157;25989;26232];
 [26239;26344;58127;26854;26997;27086;27102;27235;59280;28028;28319;28484;15791;28743;8311;29063];
 [26397;13431;26018]].

(* lib/converters/hkscs1999.h:116-537 hkscs1999_2uni_page8d *)
Definition hkscs1999_2uni_page8d : tab := mk [
 [28925;28925;28925;28925;28925;28925;28925;28925;28925;28925;28925;28925;28925;28925;28925;28925];
 [28925;28925;28925;28925;28925;28925;28925;28925;28925;28925;28925;28925;28925;28925;28925;28925];
 [12158;12168;12182;4348;2895;12260;12281;2912;2936;12418;12541;12645;12739;3144;3156;3199];
 [3213;13079;13181;12069;3273;13303;13305;13327;3320;13420;13520;13605;13656;3384;10481;3395];
 [13858;13883;13895;13978;3467;14080;12117;10337;28703;3543;14278;3581;14399;14483;3634;14546];
 [3682;14678;3714;14820;14912;3736;14986;15044;3762;3761;3771;15177;15235;17500;15268;15327];
 [15301;3836;15382;3869;15525;15540;15537;15554;3884;15577;3890;15595;15605;15636;15670;15809];
 [15873;15914;16053;16106;4043;16194;16198;16230;16321;4079;16356;16369;16405;16408;16425;16518];
 [57280;16571;16610;16602;28671;16616;16617;16676;16692;4166;42113;16769;16830;4202;4213;17335];
 [11993;4234;16940;4241;16976;16980;17007;17023;17033;29669;5825;2353;32152;42007;10750;52243];
 [17214;47392;2446;15330;57833;11700;19529;47521;58969;19557;19581;47724;19643;19632;19650;19651];
 [17361;49933;5322;19674;19677;19690;5359;9970;48129;19723;19797;19753;46542;48382;19874;19823];
 [21916;48052;51647;19920;22049;19858;28925;48416;4269;48229;22162;19962;28925;20021;48321;20036];
 [20099;44290;20134;14525;43704;20169;20167;20198;20084;20211;20213;28925;20583;6173;52100;20317];
 [52246;18061;20361;20395;17205;20403;28925;42391;49001;20452;4115;20469;34361;20453;56301;28925];
 [49185;49242;20590;20626;5675;25964;20519;20800;20801;20807;19254;49488;27361;20887;49617;20899];
 [33953;29032;6236;41062;6147;56250;20986;49929;28925;21000;21021;28925;21039;60871;51715;21051];
 [21052;21089;37396;7305;50214;41827;50344;14693;21159;57416;21255;21274;10992;37366;16063;49944];
 [45816;14119;33610;21528;34462;15507;44773;44821;6010;21545;31245;51218;41726;8761;33725;22242];
 [21858;51274;44583;40496;34227;41848;21674;15195;62164;5339;22347;21712;21786;31958;34292;2561];
 [39677;40538;21627;21730;21784;41931;51939;51269;51415;40654;4287;21789;10284;21893;6155;51941];
 [21932;28925;21971;1982;52244;15511;22362;2006;52098;39151;22104;48100;22129;4307;6116;15591];
 [22090;41589;19288;28925;51414;52151;52099;22238;28925;21905;6048;22163;22244;48273;5440;48320];
 [6211;22324;11570;52185;6183;22387;6166;14847;22486;56805;56827;22401;52680;22466;33794;52749];
 [62194;6250;22504;2440;34530;9783;53210;22590;22769;60984;22894;38439;22833;22874;22927;10401];
 [22572;14998;6415;22981;22982;53600;41785;53604;23006;23068;6491;23092;23093;13825;23109;18807];
 [53839;23303;23306;28925;28925;23335;23356;57381;23399;54308;54717;23580;18835;25342;23568;54617];
 [19689;54842;42191;6675;54840;17276;23692;23711;46640;46821;23743;23756;23757;23593;44794;23824];
 [23835;23599;34079;6421;22991;24027;55124;55183;62228;2661;55123;24086;55192;55229;24146;24131];
 [34640;24091;16988;24145;45193;4560;28925;24297;55490;32468;44554;3772;55932;52812;19687;24557];
 [24566;24579;25556;24665;24685;56293;56402;24805;25603;61343;31056;24819;7210;57310;56637;41787];
 [12600;39906;24889;60820;56892;56577;36581;3264;52247;24951;56636;54718;24993;56684;56779;25064];
 [56979;25092;56934;25070;28925;25191;3632;25257;25284;20140;57139;35593;25358;16095;25409;25442];
 [46905;28925;57542;41563;57612;46939;31729;25644;25707;57569;57835;17039;11523;57570;57573;7269];
 [25412;57836;57913;57855;25715;25947;24572;26245;26278;25894;26272;16886;5561;37242;56920;33084];
 [41902;7391;15964;26491;26518;5228;26531;52245;13338;26550;19189;57568;26557;9740;7329;51704];
 [29492;49808;58479;58533;44881;34645;40074;26673;22530;26678;7439;6205;6277;44905;17013;11649];
 [26651;28925;58773;26711;11658;58795;26719;25893;8976;39479;39484;26761;26783;26801;26814;26816];
 [26834;26848;46700;26862;17948;58867;28925;26869;58845;54394;7569;26932;26931;26955;26982;3662];
 [52917;4177;30384;42652;47238;27082;27063;27080;27079;7615;51815;34067;10224;27105;27110;27116];
 [25720;27193;44713;7730;59351;59525;27381;27404;27451;27408;27480;47269;2564;58481;59989;27616];
 [27618;59909;27636;7886;27668;27693;56768;8820;27700;51048;3075;39421;27728;27712;60158;11397];
 [34467;27790;42891;27906;27903;27916;60456;28244;60727;61138;61163;60961;61027;61215;28158;28163];
 [61044;28302;15048;28228;36251;61139;61280;34683;61299;28089;60921;61364;28432;28437;28446;28450];
 [8180;28458;28463;43172;28481;3744;3365;4125;8562;2814;57899;28546;28552;7766;25892;51938];
 [28567;28925;28601;10463;10442;28613;27320;58443;26866;22143;28642;28649;19676;28686;17430;7806];
 [44533;44603;17271;44664;43144;44753;17822;57818;34618;19359;57214;58166;25705;25843;57412;25580];
 [25729;25803;57196;43513;17431;4587;18802;19523;17104;43443;43320;17278;34351;17059;34558;40601];
 [4551;34501;46639;34360;2658;34107;34425;2593;34228;34577;48843;2659;34048;10651;44709;33470];
 [33128;33414;33654;22275;40870;28925;22101;44564;52901;41905;46812;42043;52626;6132;40942;59677];
 [52326;14905;2675;3925;4327;10924;34658;14928;4951;41023;42529;42443;42575;51553;9995;10462];
 [50289;10450;32415;31336;31949;25798;57619;25756;8504;9067;2905;43382;8444;29989;29759;8587];
 [8650;47057;11432;29291;29835;3289;29642;29908;1909;8553;29568;58291;29493;23642;29388;8408];
 [8973;9037;8674;8515;44686;41930;8578;8814;8876;8897;8716;8741;8856;9020;28925;28925];
 [28925;28925;16502;40597;41913;41983;16306;34500;41929;9192;9219;30304;6109;30051;30034;30033];
 [24250;57500;30478;9369;9444;30707;9505;28925;6522;17292;43212;31456;44588;32676;15377;31965];
 [28925;4574;18073;17940;18006;17816;7758;44860;42445;9744;2244;17423;42505;10228;29701;9997];
 [31366;10589;25437;26612;25702;10781;10701;10687;2430;11019;11481;57414;34106;34223;34128;11372];
 [11256;25487;11454;11535;11346;47622;34867;34465;42965;2613;16197;17987;11361;48643;11457;57815];
 [29907;25824;18060;33219;17157;7282;25864;57339;25789;2784;11870;11998;12446;12424;34774;34748];
 [41454;12557;11663;34627;34628;2625;34528;2589;34110;2579;21290;57415;35450;40370;57256;12620];
 [12622;34663;34283;11435;34171;11652;22484;53629;23008;12990;37728;37163;12827;4536;37103;37118];
 [58440;52403;13312;28990;28998;37147;13273;13272;12981;38555;38663;43988;58637;14001;43877;38314];
 [3433;38242;40336;59498;39032;13687;61595;14070;13681;13841;44643;38759;13540;38561;13947;14251];
 [15282;3892;39438;39981;44553;39979;10061;40032;34585;58879;14606;39945;39731;3616;5264;46852];
 [57634;46863;34108;46811;46629;19182;39555;34410;39860;1956;39823;39682;43017;14542;51812;14507];
 [7763;14448;54128;35499;14499;40018;40033;14430;47474;3089;41274;41148;3801;41122;40254;18128];
 [3798;14799;43818;15094;14942;3844;15614;2979;41173;43463;15475;15506;15625;15685;34642;14161];
 [15064;15500;3863;15546;15767;42240;41562;25760;25586;57834;57547;25481;55518;57308;25959;16357];
 [16651;44652;28925;42175;4239;16388;42364;11389;16394;10887;16228;19010;17211;43098;42934;17137];
 [17488;17543;17556;44111;44069;9145;44836;30315;18042;42040;40799;44746;44439;48929;4614;4529];
 [44895;57891;42101;13031;4595;18124;17980;25735;17975;6047;52010;6225;18307;4707;45209;45254];
 [4696;18261;18547;61638;3673;18024;57548;44587;44558;3643;4301;44750;4607;44613;44403;25338];
 [10610;25666;57571;34468;8991;46305;46247;18808;39858;18702;18703;18811;43927;41089;3486;44400];
 [17976;18075;4543;44858;44871;5064;44822;49326;25607;46849;18974;19085;19080;19154;17872;19289];
 [53889;47203;5134;28925;22166;19365;15469;42042;19514;19444;5230;34086;5170;25397;19441;31756];
 [44556;29529;41786;34222;2263;10155;2224;2538;29332;31437;19682;11417;37365;47855;47836;11341];
 [29467;19184;11370;48070;19710;5369;20061;20077;5393;48051;48700;48678;20173;44665;34288;20110];
 [20092;20142;15602;20444;20487;20435;20814;49441;49244;54856;20375;48642;5482;51381;30806;14870];
 [29006;40655;10756;49810;49784;44514;20957;19751;30636;47913;48451;19724;48526;27366;22533;27491];
 [15452;40319;3362;44663;50157;27423;50144;22144;52839;51729;6122;21303;5890;21190;21257;21314];
 [50548;27075;51202;21602;21605;51217;22099;51943;22480;53019;11462;5247;34432;11627;34529;11556];
 [34584;22624;62204;41743;22957;53282;11330;23022;8581;23047;23103;23142;23269;23245;47107;23252];
 [53957;53956;57845;57817;57756;57337;4525;22179;6645;6607;2866;23485;23452;58888;12685;25387];
 [42948;14356;17193;17092;34437;28141;24031;24105;55260;11226;18883;11312;5742;2580;24426;24551];
 [45065;24688;24714;5620;16024;16827;36577;7067;16761;16523;34330;27881;2549;44463;25083;28925];
 [10161;7174;25275;25860;57419;4962;57596;25895;57885;57915;22245;23467;26265;26279;26263;26262];
 [58036;17989;4546;44415;44738;43306;4583;39845;26511;58343;58214;58213;4556;44653;44792;42286];
 [17938;18027;4604;26689;58480;14983;7453;58451;47391;28925;25704;57225;57894;57647;49726;25530];
 [11601;23785;7228;17913;42843;26779;26737;27192;32230;12289;57797;44850;26911;58970;25590;59095];
 [25317;6080;57680;44775;57700;27100;57413;4608;25386;7205;22036;27195;27213;54790;4349;27291];
 [7727;27306;27484;57701;47496;15567;27425;11582;27439;59505;7760;59592;27324;7805;7767;25725];
 [10930;33218;10850;44600;33704;19012;37407;41784;15109;4221;25944;3175;13200;37505;37995;13127];
 [27983;27987;28027;27957;27920;27775;27855;60397;27807;61237;60990;28065;8046;42564;28312;8048];
 [28044;61172;60973;60979;59567;28197;22205;52050;52511;51394;22460;6195;51940;52164;52016;22048];
 [22446;52032;41175;49060;19426;40604;40768;7213;44638;4194;25819;25534;25672;29567;19129;25463];
 [25933;8740;1920;24996;46813;19005;19028;19126;19019;34199;39753;44481;2522;8626;16858;16857];
 [28925;16926;9812;42741;10747;11059;10698;28054;10775;17204;2031;42732;17387;51584;45783;28925];
 [34293;57417;13132;11534;11339;5564;43464;2668;7739;57340;25787;25784;34582;32221;22130;51712];
 [33491;43066;38438;43265;11220;41783;50433;20392;49243;49124;44601;44555;57338;25573;17890;4585];
 [18100;57699;34527;4577;44851;15640;17907;17915;4566;44734;44820;34329;44774;29799;33508;44645];
 [17992;44438;17061;44534;25476;17894;25695;30142;25649;57550;57366;25734;57831;46933;7221;57474];
 [17259;44483;31679;10468;30362;31403;31608;10050;19396;34362;20478;34050;44752;34450;6190;25857];
 [2634;57536;44589;11248;34559;34499;53380;11489;2594;41691;2544;25439;11449;57473;34466;25716];
 [4045;31156;7510;3274;9012;4201;4172;33372;17269;5627;55960;16399;58532;6123;16279;55311];
 [16999;16111;4054;42285;41901;16386;16652;4207;29877;18257;2556;2056;6528;4570;7025;11268];
 [25454;7230;24705;57884;51456;10834;10760;2582;33554;17150;43170;44785;39267;33136;36669;15097];
 [15271;33368;40421;54964;40927;57475;41174;40250;45151;15450;40877;51703;22078;6111;6094;51814];
 [51857;51650;52510;16663;52809;21821;34170;21997;51648;52627;34331;11209;11458;34291;11425;11441];
 [34629;42812;2669;11311;34172;2567;17294;25744;14554;42981;11438;11371;42963;15467;42041;53878];
 [43419;43018;17181;42905;57313;8688;51816;12034;43534;55309;43261;15436;42902;33220;17062;17203];
 [43305;4261;16159;61925;44751;20581;11307;12143;4339;12700;44765;34335;20388;22054;9925;41466];
 [40064;29396;10686;30741;30361;4837;35870;61366;16899;58651;12208;17807;20179;57433;58848;8712];
 [20967;17613;17680;54772;17720;17721;47222;17729;17736;4521;54808;25004;17397;44402;17889;21494];
 [4554;18700;4561;16098;10557;17945;17950;17951;4578;4592;4596;4602;18131;4622;4691;18242];
 [18285;18290;18317;4732;18376;18396;4800;18509;4823;18548;4828;18554;45724;17288;10339;23296];
 [10921;4893;18755;4921;14753;4933;2331;18840;4970;4975;11934;18878;18891;11058;18968;17081];
 [18972;5032;19001;19015;19025;19046;22088;46773;19251;14915;19250;5123;5129;19345;19353;24827];
 [19462;24828;5223;19601;5298;19644;21625;5316;19663;19675;5327;8289;19810;19820;19835;19986];
 [19995;5472;5498;20091;20124;5516;20152;5524;20205;24787;17088;31631;20431;20436;20432;20477];
 [20910;20916;17567;5783;21024;21029;19769;21038;21041;21076;4300;10740;17056;21175;21225;5869];
 [21260;17706;21262;21266;18272;21268;5889;3705;21334;21337;21338;5907;10874;21372;21380;5925];
 [21395;5933;21413;10799;21441;21476;21588;6031;21670;21622;21706;21720;21759;6064;21847;26473];
 [15306;22021;17141;22116;13091;22152;6148;22206;22241;22264;22288;22328;22354;6203;22383;22384];
 [22432;6263;22578;22610;22642;22703;26437;22795;6406;6423;23086;23167;23204;23239;23313;54375];
 [23465;23480;23572;23604;23953;24084;24114;24156;6808;10911;24323;6893;8494;24442;10264;10644];
 [24497;10293;24560;6967;24590;24610;24612;24621;24626;24823;24833;24842;24844;24947;27332;7085];
 [27104;25363;7198;25384;25432;25451;25521;25518;25535;25571;25579;25587;25588;25597;25667;25732];
 [25773;7237;7249;28479;25879;9537;25885;25901;25918;7274;25940;25977;26157;26274;7335;26356];
 [26419;7397;14816;7460;26688;7477;26802;26818;10388;7588;13096;27065;7641;27121;10884;27150];
 [27161;9204;27164;27191;27202;27229;27234;7728;27333;7773;27452;27663;19587;27753;27777;27869];
 [27889;27892;7981;27936;2735;35074;28105;27962;28542;10384;28179;28221;28224;28284;26102;24822];
 [28411;28460;28465;28477;28486;26076;28514;28529;28536;19656;28612;29076;29559;29792;15194;26051];
 [11244;30103;10880;26049;2809;30293;30357;30454;34042;10647;17267;31170;31181;31359;9898;61947];
 [31371;9950;31419;31483;31507;31525;31548;13095;31565;10426;31605;31645;31661;31791;31858;31880];
 [15253;27951;22821;31940;31950;32151;32336;32237;32051;11872;32380;12363;32540;32527;32566;14686];
 [32571;32584;32598;2439;32639;32659;32751;32763;9636;22189;33187;33333;33270;23809;33783;33881];
 [34307;34311;8376;17083;34413;34730;34925;34949;35178;35248;35308;35656;13571;35669;35733;17304];
 [14997;35973;15401;2568;36540;36695;36730;37418;37745;37967;21757;37991;38035;38165;23333;38184];
 [24800;38222;26808;38271;26951;27581;38476;28925;38536;38583;48104;38664;38674;38839;38805;38978];
 [39220;39244;39347;39398;40095;40222;12785;14472;14591;54649;40551;40691;28925;44602;28925;40730];
 [40982;28925;29702;10997;14670;15192;41383;53719;48930;41873;41977;53630;36058;7120;7544;42585];
 [57498;43054;43085;42363;43124;43222;44741;30282;9234;30353;11231;35624;3838;41663;43332;43542];
 [10696;43892;3291;44079;56744;59721;2722;36355;23774;57678;28925;44242;44411;44693;17417;44864];
 [31544;11173;45605;45766;30585;24602;45932;9423;10623;17265;46425;46617;42122;44839;10236;46662];
 [46702;51346;28925;1971;46783;53682;46814;6680;46818;46822;47367;44479;47453;8870;2107;40204];
 [28925;47555;6780;57160;47854;48009;48134;35408;10721;17233;28925;49154;54994;24982;49330;45786];
 [23778;49794;49866;12187;51511;28925;49924;34652;23658;44662;49928;42287;50002;7808;50175;50293];
 [37403;25957;47393;13269;11367;62093;28925;10489;43617;50364;8362;44468;26454;16335;51709;2392];
 [23287;50521;50734;49809;50718;28925;50823;19778;58496;30993;50918;28925;50937;19525;28925;51130];
 [27430;51181;2463;49897;28961;19331;51188;51355;12140;40473;28925;51421;6608;51684;18235;23013];
 [51950;10998;2652;37069;52619;52941;3988;53056;53061;25473;36282;53067;25648;53158;44624;15993];
 [26015;53328;32184;22951;23157;37926;56499;34289;16568;44714;34400;3300;2553;28925;28925;6207];
 [14582;60077;59428;23235;54028;54104;10518;5087;33866;3297;41007;55720;33413;17325;21862;54493];
 [58728;28925;8055;52719;57259;54525;54538;54795;55142;42682;19779;19326;55497;16821;61407;15427];
 [56216;9698;52039;25791;14966;26717;55855;55523;51061;33453;39855;55560;12229;57904;55619;10581];
 [26915;57161;12267;44552;14334;15381;9746;44837;42177;3921;14710;55632;55732;55790;35873;55823];
 [55881;55919;55962;56198;56239;56330;2314;56488;56874;7162;13862;57174;18952;25429;57272;5874];
 [57319;5855;57320;57670;57812;11320;57865;28925;58373;58540;28925;58576;58620;4343;58654;44874];
 [24848;17551;10443;58983;59113;59056;59064;59186;59473;59593;59626;59715;59816;59918;60186;60251];
 [20639;60600;60643;8036;26183;61331;17314;61439;8209;24914;61643;8220;31580;24830;10241;24826];
 [36848;24825;44819;6153;20607;16726;15601;8490;2084;57644;54173;2682;24512;34357;55524;57708];
 [57753;54590;50287;4331;53717;41591;47029;47638;8410;48641;49432;10495;32045;24398;11693;41928];
 [45150;13854;28925;34358;34491;14192;10349;48202;9818;46545;4294;60248;7997;10338;10334;20809];
 [48728;11189;41664;22768;8284;32426;31753;40890;21271;28126;24152;18491;27973;18510;18873;25669];
 [9842;21320;21751;10341;21298;22040;21181;10282;19298;10371;9814;32093;2318;10309;10289;14641];
 [56162;2413;18228;10288;10234;9943;10162;31489;31574;12560;46152;32054;38498;32098;28459;20314];
 [10270;32565;13533;26733;9940;24077;17398;25206;13884;13817;13886;10153;38275;28018;39091;9178];
 [2079;31847;9191;9869;10078;10067;18534;24429;50762;18353;21174;22916;22790;23111;21430;22044];
 [32641;6124;17668;44038;11728;21771;50771;10427;37364;55087;42723;55155;52240;53110;25200;32921];
 [25352;41660;61865;32108;32185;17510;35298;6734;45826;55481;32427;5114;27997;14175;38816;7155];
 [44192;60220;32428;31946;28925;53539;32429;28925;49032;32839;17315;20622;28112;8282;8260;2231];
 [11597;16114;9639;2540;3356;9661;2533;43800;10970;44974;21549;9867;10730;47829;30905;28925];
 [3474;36773;17780;60524;8137;27885;41662;60656;7963;45801;59038;60766;22108;41782;53106;50547];
 [40992;13678;20261;42039;41900;3434;24904;9484;4468;2490;6377;30030;18496;11568;32118;19066];
 [55406;10983;5055;10428;27787;12212;18516;61556;28421;8097;28925;2875;13145;39514;43314;28925];
 [10397;33129;10727;44515;60358;9332;52718;2285;28925;28156;20054;27705;10782;34220;11923;14099];
 [58960;49589;52900;22637;31720;51810;44898;31793;28925;9278;35727;12238;26627;35473;28417;24972];
 [19743;27650;12049;19875;13480;13685;27647;19919;27690;20094;28925;20034;20102;27925;19964;27657];
 [28925;27931;44478;28634;10163;11779;8765;28440;8754;9376;4358;9489;10663;8854;11255;12370];
 [26824;28203;24732;9897;26804;27200;26810;9580;13168;15212;9754;27914;28034;7931;26433;15296];
 [8934;18246;34221;27354;9395;28925;25177;26497;25180;28925;25169;58263;13759;51811;15626;10321];
 [25230;18298;13509;29884;17743;20080;48161;41661;28925;44441;18646;27805;8298;31636;21950;22978];
 [28925;11914;15360;28925;10682;9311;12341;8462;15985;29362;8569;9948;10010;9434;24258;2366];
 [28925;2355;28925;15762;25212;28709;27799;26926;27060;27578;28456;28420;17274;19732;28925;15930];
 [22936;20856;28925;10336;61770;24503;28627;28925;24340;24463;28316;24385;13506;56317;24424;24501];
 [19667;44791;19518;19160;16170;23527;18439;57434;28582;16142;22870;18371;61362;19027;61952;24140];
 [17634;17777;23725;17666;18161;24107;44859;22511;12794;23072;6071;28925;34427;52037;28925;23550];
 [36955;28925;13117;18535;27607;28100;25710;27791;22901;28925;28925;24119;17708;26657;27824;2326];
 [17586;7879;20049;27210;49241;13209;7876;28438;13245;28925;10655;13231;13542;13433;28925;3484];
 [13346;9706;40245;13732;14914;2322;12183;57794;24858;58169;28925;8985;35334;19206;9586;26424];
 [32251;4965;28925;18942;28925;20162;48794;20186;19501;21094;21091;20301;18181;18162;23316;21530];
 [14668;21090;53382;21083;18160;21251;18724;23305;50572;18259;52241;22825;22862;21448;22796;23497];
 [24045;23747;18731;18168;22234;2421;15346;24294;28925;23337;28925;16377;22849;42321;18151;4315];
 [17270;13028;13276;4049;28925;12983;28925;20849;57645;28925;13097;7742;9312;3928;41607;48727];
 [53718;46769;34692;33214;59523;51996;52717;12033;49325;57359;40823;29166;50694;45646;6242;11615];
 [49612;28624;28454;49451]].

(* lib/converters/hkscs1999.h:538-602 hkscs1999_2uni_pagec6 *)
Definition hkscs1999_2uni_pagec6 : tab := mk [
 [28925;28925;28925;28925;28925;28925;28925;28925;28925;28925;28925;28925;28925;28925;28925;28925];
 [28925;28925;28925;28925;28925;28925;28925;28925;28925;28925;28925;28925;28925;28925;28925;28925];
 [28925;28925;28925;28925;28925;28925;28925;28925;28925;28925;28925;28925;28925;28925;28925;28925];
 [28925;28925;28925;28925;28925;28925;28925;28925;28925;28925;28925;28925;28925;28925;28925;1120];
 [1121;1122;1123;1124;1125;1126;1127;1128;1129;1140;1141;1142;1143;1144;1145;1146];
 [1147;1148;1149;880;881;882;883;884;885;886;887;888;889;8310;8319;8389];
 [8416;9154;9174;9195;9529;9592;9641;9718;11082;11712;12315;1459;12479;28925;12688;12705];
 [14196;28925;18322;28925;24821;28925;40;454;1725;1726;1629;1630;28925;28925;1477;1478];
 [1479;1724;28859;28861;1277;1537;1538;1539;1540;1541;1542;1543;1544;1545;1546;1547];
 [1548;1549;1550;1551;1552;1553;1554;1555;1556;1557;1558;1559;1560;1561;1562;1563];
 [1564;1565;1566;1567;1568;1569;1570;1571;1572;1573;1574;1575;1576;1577;1578;1579];
 [1580;1581;1582;1583;1584;1585;1586;1587;1588;1589;1590;1591;1592;1593;1594;1595];
 [1596;1597;1598;1599;1600;1601;1602;1603;1604;1605;1606;1607;1608;1609;1610;1611];
 [1612;1613;1614;1615;1616;1617;1618;1619;1633;1634;1635;1636;1637;1638;1639;1640];
 [1641;1642;1643;1644;1645;1646;1647;1648;1649;1650;1651;1652;1653;1654;1655;1656];
 [1657;1658;1659;1660;1661;1662;1663;1664;1665;1666;1667;1668;1669;1670;1671;1672];
 [1673;1674;1675;1676;1677;1678;1679;1680;1681;1682;1683;1684;1685;1686;1687;1688];
 [1689;1690;1691;1692;1693;1694;1695;1696;1697;1698;1699;1700;1701;1702;1703;1704];
 [1705;1706;1707;1708;1709;1710;1711;1712;1713;1714;1715;1716;1717;1718;528;529];
 [530;531;532;533;513;534;535;536;537;538;539;540;541;542;543;544];
 [545;546;547;548;549;550;551;552;553;554;555;556;557;558;559;560];
 [561;562;563;564;565;593;566;567;568;569;570;571;572;573;574;575];
 [576;577;578;579;580;581;582;583;584;585;586;587;588;589;590;591];
 [999;952;953;1743;29132;8346;29066;9282;6033;28720;9160;28721;53639;28925;28925;28925];
 [28925;28925;28925;28925;28925;28925;28925;28925;28925;28925;28925;28925;28925;28925;28925;28925];
 [28925;28925;28925;28925;28925;28925;28925;28925;28925;28925;28925;28925;28925;28925;28925;28925];
 [28925;28925;28925;28925;28925;28898;28900;28807;28802;1841;790;801;1627;1628;1280;1284];
 [1286;1287;1288;1290;1292;1293;1301;1308;1309;1317;1319;1322;1324;1326;1334;1340];
 [1342;1350;1354;1356;1357;1359;1366;1367;1374;1379;28925;28925;28925;387;336;347];
 [340;373;211;120;203;394;362]].

(* lib/converters/hkscs1999.h:603-730 hkscs1999_2uni_pagef9 *)
Definition hkscs1999_2uni_pagef9 : tab := mk [
 [28925;28925;28925;28925;28925;28925;28925;28925;28925;28925;28925;28925;28925;28925;28925;28925];
 [28925;28925;28925;28925;28925;28925;28925;28925;28925;28925;28925;28925;28925;28925;28925;28925];
 [28925;28925;28925;28925;28925;28925;28925;28925;28925;28925;28925;28925;28925;28925;28925;28925];
 [28925;28925;28925;28925;28925;28925;28925;28925;28925;28925;28925;28925;28925;28925;28925;28925];
 [28925;28925;28925;28925;28925;28925;28925;28925;28925;28925;28925;28925;28925;28925;28925;28925];
 [28925;28925;28925;28925;28925;28925;28925;28925;28925;28925;28925;28925;28925;28925;28925;28925];
 [28925;28925;28925;28925;28925;28925;28925;28925;28925;28925;28925;28925;28925;28925;28925;28925];
 [28925;28925;28925;28925;19073;25529;23119;11003;12946;20135;11578;1172;1190;1175;1184;1196];
 [1187;1178;1193;1181;1170;1188;1173;1182;1194;1185;1176;1191;1179;1171;1189;1174];
 [1183;1195;1186;1177;1192;1180;1169;1168;1197;1198;1200;1199;28909;30151;25563;30303];
 [42245;22348;5557;17903;9205;2441;44482;57316;25668;34843;21742;41608;19004;14724;13599;44467];
 [57258;29536;51443;33221;8683;36909;8776;51817;54660;40704;44849;36947;28925;29758;12772;29760];
 [29703;16603;29919;28925;9025;1978;9038;26988;2691;22038;44580;30023;9120;40180;9130;31423];
 [36156;29605;36976;30222;39859;34755;11714;22781;30259;41561;9202;9208;28084;9225;9231;9233];
 [4060;9235;44838;9203;9250;9602;9261;21965;15230;41005;12731;9291;9318;9340;9461;9367];
 [9428;9465;9477;19989;22338;9504;22477;51283;28925;57566;10121;16601;42176;30868;42284;9587];
 [28925;31394;16139;34150;14939;17877;12938;4522;3084;34088;17373;6050;9645;9652;56875;9662];
 [28925;33814;33875;18918;9683;57499;9696;9707;9710;17831;47346;4697;17820;9729;9733;16009];
 [8329;10814;9753;3563;31311;9760;42283;38819;9782;31543;9811;17017;10091;14487;16283;9901];
 [51347;31796;10141;9935;9956;6822;34125;32157;4276;31757;57276;37272;10119;8109;9839;17943];
 [10182;10217;28925;34583;42362;6226;43381;14579;32628;10359;14605;39946;14564;14573;10381;10383];
 [19185;10545;26759;9790;10560;10543;10541;57702;2403;33039;10630;42725;16046;17035;10626;2545];
 [51646;10790;33494;10819;33556;43171;10854;45045;10908;10986;2209;11040;11036;33020;11067;11839];
 [10627;61072;42936;25811;2273;11103;15078;2563;16473;33918;11364;10131;34002;22277;11273;31758];
 [51649;51818;34332;11289;34363;34290;51942;16305;34408;34069;11321;52101;11499;11427;2598;44585];
 [28925;2632;11478;18021;11539;52449;37012;4229;34641;2674;34040;12483;9488;11702;14280;11708];
 [54542;4868;7005;29380;11797;13216;34932;47756;30245;11827;11741;8144;11845;35012;11859;17870];
 [11860;35301;51304;11913;7133;11973;12073;12079;12235;35513;35575;12112;12120;12166;35620;12026];
 [12311;21756;2925;44417;35977;36275;21639;2934;3842;12398;15562;28925;12474;43516;31635;9702];
 [8439;28925;9704;34225;12361;12596;56514;12601;12603;3040;12604;14974;25883;12621;29313;62036];
 [3614;7086;33274;12666;50760;36688;28925;36785;12707;26813;52142;12722;25664;57398;12775;12278];
 [4191;46352;35818;52792;37224;25302;29534;57385;12913;14533;34487;3235;4295;2425;10704;37556];
 [19313;4416;13022;28925;13043;44546;44559;54611;18084;8993;11488;13220;22052;13186;62054;52242];
 [13249;9268;30422;13255;11754;42231;37727;13331;57757;59613;13328;3186;38016;37825;12899;13212];
 [14174;13771;29208;13573;34224;13589;38925;13740;44639;3415;13944;13880;33358;34364;28925;16778];
 [38966;26900;42444;47261;14113;14117;25979;3494;13946;3479;14221;16662;44712;44707;14277;14253];
 [14239;39422;14325;44480;7671;14353;5080;34409;14368;14371;12831;40256;14424;39799;39800;14468];
 [39716;39717;14475;32053;14503;46246;14515;28925;35581;39857;56756;39752;46547;18885;37879;27300];
 [14658;43228;44705;3691;15418;41154;28925;14759;14754;42765;58541;14871;6121;14946;16464;25404];
 [14913;40230;51936;15005;40367;15393;15435;57567;15283;15107;40653;15169;15168;4146;3393;40764];
 [3776;14828;15265;57418;5628;15222;15320;3809;29833;21859;8912;15417;40793;36202;15493;40963];
 [15581;3891;14833;15624;58716;3917;15709;30819;13086;15733;15796;37581;16565;41435;29813;34712];
 [2688;9825;41498;15905;42044;15900;15991;36811;44401;51345;16026;21542;16057;41788;6085;41789];
 [42724;44428;44416;41609;2597;4075;31730;27779;39801;36817;20879;14967;51813;51937;52011;16342];
 [16284;16508;16644;44543;42437;52146;22323;52404;9223;28925;28925;22062;57633;28925;41903;18003];
 [42178;19404;16463;11473;39371;16888;2637;16797;41904;16634;33623;42365;6229;25840;16708;16732];
 [4174;16756;58672;4155;16799;42628;16851;42449;42645;42361;42288;42228;42623;9247;42646;42647];
 [42624;49373;16971;17022;17063;17025;17100;17109;17110;17119;5124;4328;17332;17302;42935;17195];
 [17221;11464;17226;28925;11996;43173;17231;25698;43009;17196;43418;44711;44706;17338;57832;17085];
 [17422;25922;17429;11089;25923;17444;25665;46981;17454;17472;44532;15101;17493;17495;4437;39364];
 [14925;16701;17538;28925;17707;44259;57067;7149;57028;17704;17710;17871;17834;31482;51182;17865];
 [17993;42786;34087;44708;14435;2565;44599;44557;44667;17911;17941;15171;44710;17977;30275;4567];
 [28925;37805;18016;58290;17991;17892;18038;21945;18028;2672;18036;25841;15468;18050;7251;44812];
 [42655;44793;57743;11654;57859;34526;18120;34760;18190;28925;18206;58329;34955;11799;58284;25733];
 [18253;18250;18279;18286;45762;4612;45267;18318;18013;18334;18356;18434;18476;18513;18511;18543];
 [18550;49781;18576;21487;2872;50897;50894;18593;18597;18615;18636;52447;22114;46045;46205;35548];
 [18718;18726;18752;14063;46304;18776;39980;18863;57188;57192;34049;18932;28925;33334;44690;15114];
 [19119;19143;19155;26533;19246;46944;19159;19252;19121;53644;24824;23044;57643;49091;37148;19334];
 [23168;15170;19328;47447;19357;54841;19260;19369;16426;52838;4520;19398;58573;19412]].

(* lib/converters/hkscs1999.h:732-855 hkscs1999_2uni_upages *)
Definition hkscs1999_2uni_upages : tab := mk [
 [128;192;256;320;448;576;640;704;1024;1088;7808;7872;8448;8512;8576;8640];
 [9152;9280;9536;9984;11904;11968;12032;12288;12352;12416;12480;12736;12800;13312;13376;13440];
 [13504;13568;13632;13696;13760;13824;13888;13952;14016;14080;14144;14208;14272;14336;14400;14464];
 [14528;14592;14656;14720;14784;14848;14912;14976;15040;15104;15168;15232;15296;15360;15424;15552];
 [15616;15680;15744;15808;15872;15936;16000;16064;16128;16192;16256;16320;16384;16448;16512;16576];
 [16640;16704;16768;16832;16896;16960;17024;17088;17152;17216;17280;17344;17408;17472;17536;17600];
 [17664;17728;17792;17856;17920;17984;18048;18112;18176;18240;18304;18368;18432;18496;18560;18624];
 [18688;18752;18816;18880;18944;19072;19136;19200;19264;19328;19392;19456;19520;19584;19648;19712];
 [19840;19968;20032;20096;20160;20224;20288;20352;20416;20480;20544;20608;20672;20736;20800;20864];
 [20928;20992;21056;21120;21184;21248;21312;21376;21440;21504;21568;21632;21696;21760;21824;21888];
 [21952;22016;22080;22144;22208;22272;22336;22400;22464;22528;22592;22656;22720;22784;22848;22912];
 [22976;23040;23104;23168;23232;23296;23360;23424;23488;23552;23616;23680;23744;23808;23872;23936];
 [24000;24064;24128;24192;24256;24320;24384;24448;24512;24576;24640;24704;24768;24832;24896;24960];
 [25024;25088;25152;25216;25280;25344;25408;25472;25536;25600;25664;25728;25792;25856;25920;25984];
 [26048;26112;26176;26240;26304;26368;26432;26496;26560;26624;26688;26752;26816;26880;26944;27008];
 [27072;27136;27200;27264;27328;27392;27456;27520;27584;27648;27712;27776;27840;27904;27968;28032];
 [28160;28224;28288;28352;28416;28480;28544;28608;28672;28736;28800;28864;28928;28992;29056;29120];
 [29184;29248;29312;29376;29440;29504;29568;29632;29696;29760;29824;29888;29952;30016;30080;30144];
 [30208;30272;30336;30400;30464;30528;30592;30656;30720;30784;30848;30912;30976;31040;31104;31168];
 [31232;31296;31360;31424;31488;31552;31616;31680;31744;31808;31872;31936;32000;32064;32128;32192];
 [32256;32320;32384;32448;32512;32576;32640;32704;32768;32832;32896;32960;33024;33088;33152;33216];
 [33280;33344;33408;33472;33536;33600;33664;33728;33792;33856;33920;33984;34048;34112;34240;34304];
 [34368;34432;34496;34624;34688;34752;34816;34880;34944;35008;35072;35136;35200;35264;35328;35392];
 [35456;35520;35584;35648;35712;35776;35904;35968;36032;36096;36160;36224;36288;36352;36416;36480];
 [36544;36608;36672;36736;36800;36864;36928;36992;37056;37184;37248;37312;37376;37440;37504;37568];
 [37632;37696;37760;37824;37888;37952;38016;38080;38144;38208;38272;38336;38400;38464;38528;38592];
 [38656;38720;38784;38848;38912;38976;39040;39104;39168;39232;39296;39360;39424;39488;39552;39616];
 [39680;39744;39808;39872;39936;40000;40192;40256;40320;40384;40448;40512;40576;40640;40704;40768];
 [40832;63744;65280;65472;131072;131136;131200;131264;131328;131456;131520;131584;131648;131712;131776;131840];
 [131904;131968;132032;132096;132160;132224;132288;132416;132480;132544;132608;132672;132864;132928;133120;133184];
 [133312;133376;133440;133568;133632;133696;133760;133824;133888;134016;134080;134144;134208;134272;134336;134400];
 [134464;134528;134592;134656;134720;134784;134848;134912;134976;135040;135104;135168;135232;135296;135360;135424];
 [135488;135552;135616;135680;135744;135808;135872;135936;136000;136064;136128;136192;136256;136320;136384;136512];
 [136576;136704;136768;136832;136896;136960;137024;137088;137152;137216;137280;137344;137408;137472;137536;137600];
 [137664;137728;137792;138048;138176;138240;138304;138368;138560;138624;138688;138752;138880;138944;139008;139072];
 [139136;139200;139328;139392;139456;139520;139584;139648;139712;139776;139840;140032;140160;140224;140352;140416];
 [140480;140544;140608;140672;140800;140864;140928;140992;141056;141120;141184;141248;141312;141376;141440;141504];
 [141568;141632;141696;141888;142016;142080;142144;142272;142336;142400;142464;142528;142592;142656;142720;142784];
 [142848;142912;142976;143040;143168;143296;143360;143424;143488;143552;143616;143680;143744;143808;143872;143936];
 [144000;144064;144128;144256;144320;144384;144448;144576;144640;144704;144768;144832;144896;144960;145024;145088];
 [145152;145216;145280;145344;145408;145856;146048;146112;146240;146560;146624;146752;146816;146880;146944;147072];
 [147136;147200;147264;147328;147392;147456;147520;147584;147648;147712;147776;147840;147904;147968;148032;148096];
 [148160;148224;148288;148352;148416;148480;148544;148608;148672;148736;148800;148928;148992;149056;149120;149184];
 [149248;149376;149440;149504;149632;149696;149760;149824;149888;149952;150016;150080;150144;150208;150336;150464];
 [150528;150656;150720;150784;150912;150976;151040;151104;151168;151296;151360;151424;151488;151552;151616;151680];
 [151808;151872;152000;152064;152128;152192;152256;152320;152576;152640;152832;152896;152960;153024;153088;153152];
 [153216;153280;153344;153408;153536;153664;153792;153856;153920;153984;154048;154240;154304;154432;154496;154560];
 [154624;154688;154752;154816;154880;154944;155136;155200;155264;155328;155392;155456;155584;155648;155712;155776];
 [155904;155968;156032;156096;156224;156352;156416;156480;156544;156608;156672;156736;156800;156928;156992;157056];
 [157184;157312;157376;157440;157504;157568;157632;157696;157760;157824;157888;157952;158016;158080;158144;158208];
 [158272;158464;158528;158592;158656;158720;158784;158848;158912;158976;159040;159104;159168;159232;159296;159360];
 [159424;159488;159552;159616;159680;159744;159808;159872;159936;160000;160064;160192;160256;160384;160448;160640];
 [160768;160832;160896;161088;161152;161216;161280;161344;161408;161536;161600;161664;161728;161856;161920;161984];
 [162048;162112;162176;162240;162304;162368;162432;162496;162560;162624;162752;162816;163072;163136;163200;163264];
 [163392;163584;163776;163840;163904;163968;164032;164096;164160;164224;164352;164416;164480;164544;164608;164672];
 [164736;164864;164928;164992;165120;165184;165312;165376;165504;165568;165632;165888;166144;166208;166272;166336];
 [166400;166464;166528;166592;166656;166720;166784;166848;166912;167104;167168;167296;167424;167488;167552;167616];
 [167872;168064;168128;168192;168256;168320;168384;168960;169024;169152;169344;169408;169728;169920;169984;170048];
 [170112;170176;170240;170304;170368;170432;170496;170560;170752;170944;171136;171264;171328;171392;171456;171520];
 [171584;171648;171712;171776;171904;171968;172032;172160;172224;172288;172352;172416;172480;172544;172672;172736];
 [172928;173056;173120;173504;173568;173632;173696;194560;194624;194688;194752;194944;195008]].

(* lib/converters/hkscs1999.h:904-1493 hkscs1999_2charset *)
Definition hkscs1999_2charset : tab := mk [
 [50904;34905;34903;34909;34907;34918;34913;34911;34922;34920;34927;34925;34983;34931;34929;34935];
 [34933;51451;34939;34937;34978;34902;34919;34906;34924;34908;34926;34928;51452;34910;34932;51450];
 [34936;34904;34921;34930;34912;34934;34938;34940;34941;34942;34977;51446;34923;51448;51447;34984];
 [51454;51449;51445;51453;50905;51193;51187;51188;51189;51190;51191;51192;51194;51195;51196;51197];
 [51198;51264;51265;51266;51267;51268;51269;51270;51271;51272;51273;51274;51275;51276;51277;51278];
 [51279;51280;51281;51282;51283;51284;51285;51286;51287;51288;51289;51290;51292;51293;51294;51295];
 [51296;51297;51298;51299;51300;51301;51302;51303;51304;51305;51306;51307;51308;51309;51310;51311];
 [51312;51313;51314;51315;51316;51317;51291;34915;34980;34917;34982;51410;51411;50869;50870;50871];
 [50872;50873;50874;50875;50876;50877;50878;51319;51320;51318;34985;34986;50849;50850;50851;50852];
 [50853;50854;50855;50856;50857;50858;50859;50860;50861;50862;50863;50864;50865;50866;50867;50868];
 [63993;63992;63974;63983;63965;63976;63985;63967;63980;63989;63971;63982;63991;63973;63977;63986];
 [63968;63979;63988;63970;63975;63984;63966;63981;63990;63972;63978;63987;63969;63994;63995;63997];
 [63996;50918;51414;51415;51416;51417;51418;51419;51420;51421;51422;51423;51424;51425;51426;51427];
 [51428;51429;51430;51431;51432;51433;51434;51435;51436;51437;51438;51439;51440;51441;50893;50912];
 [50913;50914;50919;50920;50921;50922;50923;50924;50925;50926;50927;50928;50929;50930;50931;50932];
 [50933;50934;50935;50936;50937;50938;50939;50940;50941;50942;51008;51009;51010;51011;51012;51013];
 [51014;51015;51016;51017;51018;51019;51020;51021;51022;51023;51024;51025;51026;51027;51028;51029];
 [51030;51031;51032;51033;51034;51035;51036;51037;51038;51039;51040;51041;51042;51043;51044;51045];
 [51046;51047;51048;51049;51050;51051;51052;51053;51054;51055;51056;51057;51058;51059;51060;51061];
 [51062;51063;51064;51065;51066;51412;51413;50908;50909;51067;51068;51069;51070;51105;51106;51107];
 [51108;51109;51110;51111;51112;51113;51114;51115;51116;51117;51118;51119;51120;51121;51122;51123];
 [51124;51125;51126;51127;51128;51129;51130;51131;51132;51133;51134;51135;51136;51137;51138;51139];
 [51140;51141;51142;51143;51144;51145;51146;51147;51148;51149;51150;51151;51152;51153;51154;51155];
 [51156;51157;51158;51159;51160;51161;51162;51163;51164;51165;51166;51167;51168;51169;51170;51171];
 [51172;51173;51174;51175;51176;51177;51178;51179;51180;51181;51182;51183;51184;51185;51186;50915];
 [50906;50907;34880;34881;34882;34883;34884;34886;34889;34890;34893;34895;34896;34897;34898;34900];
 [34901;51321;51409;37495;38623;35285;37837;39903;64104;35290;36697;35291;36701;35292;38647;35546];
 [35804;38875;40531;40362;39914;35438;35784;35304;35306;64368;35309;38109;35310;40628;35539;37595];
 [38107;35321;64378;35323;40700;35324;35263;35326;35302;40262;40430;41086;41064;39145;35688;36349];
 [35774;40921;35563;40919;35690;40028;35761;64350;40435;41168;64614;37609;39660;36779;64072;36421];
 [40047;40670;35311;38633;40635;38110;40632;38842;64357;38358;40123;38874;36677;64381;37208;65124];
 [38998;39757;37723;38343;38887;37721;37365;38840;64930;64438;37626;37719;35750;64441;38832;64964];
 [40097;37362;37369;36849;38725;38995;65144;64449;37457;40365;64876;64107;39874;39547;35680;37707];
 [39613;37303;38324;65221;40688;36196;37481;36199;64490;64495;36200;37867;64578;37222;64205;37853];
 [35788;36205;36206;38568;64678;36207;36208;64612;36960;36212;38851;35536;37492;39870;40136;40122];
 [36216;40633;38234;37300;35400;36221;35453;35522;64842;36257;35537;64692;35655;37796;40666;35409];
 [36262;40645;64708;41080;38069;64706;35435;36267;64232;36269;64585;37825;36975;36272;38014;37114];
 [38009;36274;64750;39291;36276;36279;37299;36283;36282;36284;36932;64844;37860;37856;64851;36291];
 [39864;64496;37865;37878;36293;36298;36300;64861;37813;64865;40184;37458;41192;40101;36310;38848];
 [41182;38866;64165;64931;36315;36527;37301;64841;64977;36331;38854;64974;37116;64601;38614;38853];
 [36335;38871;36336;38566;64447;36339;37961;36341;39026;36459;64253;36688;40396;64613;39278;38049];
 [36707;41178;37459;65001;40373;39033;40285;36195;38505;40816;64618;35527;35287;65101;40669;65275];
 [39100;64204;38320;37988;37743;38073;38380;37358;39107;38390;36861;39109;38758;65134;38877;37586];
 [38753;39115;38384;38749;37347;39116;37993;39117;39118;38396;38051;38498;65206;37987;39120;39121];
 [38005;64224;38002;39126;35568;39129;39131;39133;39080;35437;35579;35502;64457;39140;39142;39144];
 [35405;37463;38367;41132;39147;39148;39156;35512;40679;38076;64721;40134;40574;39166;65000;39232];
 [38089;38099;39238;37056;38097;38259;37826;39240;39243;36437;39246;36606;36441;38124;38127;36724];
 [39253;38212;39254;39257;39259;64069;37047;38723;38349;38857;64848;36537;38342;39271;35513;36348];
 [35446;40273;39283;40271;39290;38244;39329;39333;39335;36589;39341;51326;37998;36720;64208;39347];
 [41043;38492;64890;38910;37565;38909;36708;64759;38242;38861;40548;37452;36553;39356;40357;36692];
 [36732;36514;36730;38830;38600;39363;37078;40126;36726;38000;64331;64970;36551;41209;36777;39367];
 [37079;40671;39374;36794;36843;39375;36802;37577;38876;38323;40057;38322;36827;39907;40570;39918];
 [39390;64250;35410;39393;35431;35765;35500;39401;64458;38878;38353;39413;64586;39849;64476;65110];
 [40612;40265;38363;35269;39416;38500;36949;38612;38780;38477;38881;39496;39497;65149;37034;39504];
 [37703;36568;37065;39509;37052;39512;35768;37077;38465;39514;39516;38850;35515;39850;37109;39520];
 [37189;39523;35766;64719;38507;39534;37199;38726;41190;37591;38517;37844;37307;38521;39536;38520];
 [37325;40010;41071;41066;37215;40869;35258;40653;39545;40398;40307;38585;38588;40145;35255;40686];
 [64323;40649;64467;37294;40312;40315;40627;40626;40406;39247;35278;35776;40900;35796;50879;35833];
 [35142;50880;64229;51323;35782;40023;39675;35280;35279;50881;35281;35298;37502;40378;50882;64504];
 [35783;37483;35282;40911;40361;35283;39394;37479;37540;35150;35151;37496;37302;35284;40914;37543];
 [38306;37486;38634;37487;37539;35152;64087;39014;35286;39090;37547;38622;37548;40814;36594;40812];
 [35288;64089;37544;37219;40819;37549;39913;37545;37546;35289;64854;40872;37537;37091;41126;38059];
 [64626;38852;37550;64103;37538;64105;37480;35153;64111;64113;35154;37978;50883;35293;51362;50884];
 [40530;35155;40533;37562;50885;64125;64168;39528;64071;64126;37563;64950;64162;64163;64164;39860];
 [64166;35295;64987;64169;35156;64171;64634;35296;40783;51325;35297;64176;40909;41191;64177;35238];
 [40698;64178;64180;37572;40815;35760;40876;35299;39891;35300;64181;40917;35157;37573;35158;64179];
 [64182;64183;40668;64452;40817;64186;37575;50886;39500;35301;40829;41129;64196;50887;35159;64170];
 [35160;35811;35681;39665;40631;50888;64209;64210;40634;64212;64217;64219;40160;64503;64506;35303];
 [41082;64220;64221;35305;50889;64226;35307;64227;37064;37594;35161;40181;35162;64231;40866;64234];
 [64237;36781;64345;64239;38639;40428;40394;64877;35308;64324;40418;40640;40534;40825;39623;64244];
 [39073;64248;35312;40519;40439;40915;39626;35313;64249;36442;35314;35315;37469;35665;37600;35316];
 [40916;35449;35317;38823;37818;40536;35318;40535;35319;35393;35320;64241;35322;64322;64191;64419];
 [64247;40526;38108;38362;40440;40810;35511;64326;35398;64327;37192;37598;35667;40438;39898;40318];
 [35325;39396;40515;40425;36690;40437;40432;39399;35773;40431;40887;40400;40939;36265;40399;39137];
 [40421;40392;64335;40427;64340;64341;39586;35542;39519;40693;36791;39634;40554;40680;35775;37314];
 [40290;37472;37470;37313;35525;38819;35692;36222;40020;40381;40133;35163;64348;64347;64343;39111];
 [64346;40174;37602;38055;39892;64356;64374;64352;39397;39618;37371;41075;40818;40908;39077;37608];
 [39868;38643;37607;64615;35709;39924;40695;40641;39279;38641;36417;38218;38886;38645;37606;40770];
 [64359;39337;64230;64361;38885;38525;64364;39330;39611;39525;37966;64366;39391;39139;37460;38523];
 [35503;35759;40637;40678;64367;36577;39805;40062;63961;37610;64370;64369;35164;39152;38642;64372];
 [35777;35165;35294;35166;50890;65090;64379;35167;35168;39885;40403;38988;38738;38339;39862;39609];
 [38835;40820;37617;38879;64422;64427;39031;38996;38341;40277;64434;38270;38722;38118;37621;37629];
 [64418;40017;38121;39004;37616;37964;37227;35704;38114;38991;64437;37489;37733;39003;38992;38844];
 [37619;37696;38989;38258;65007;64961;64442;37611;64627;38839;64436;37031;38721;37620;64444;38263];
 [40674;36728;63964;38514;40629;38475;41210;38261;37082;37735;65188;37087;37716;35169;35764;40384];
 [36424;64453;64455;50891;64121;40551;64466;35170;35171;64637;40811;64460;65198;64465;64373;64468];
 [64470;64472;35677;37708;39650;35785;64475;40905;40772;39149;64477;36338;35172;65010;37709;64487];
 [41202;39016;40792;36211;64478;64479;64483;36264;64484;40053;39032;36192;64485;36193;36194;41121];
 [40000;39085;40682;40171;64480;40785;36197;40177;64600;36198;38484;64488;50892;40910;64508;39652];
 [40821;64497;36201;37711;37710;64500;50894;64451;35173;36202;37715;40443;64509;36953;64576;64577];
 [64579;37729;64582;37730;36203;64588;38328;50896;35786;39034;50897;64593;64596;64175;36204;64097];
 [64599;39792;41041;35787;37742;64725;64681;64609;35174;64203;63962;37754;41184;37739;64619;41180];
 [37992;64621;36209;64868;39354;39632;39521;41189;41051;38572;38720;40689;40830;36210;64630;38569];
 [41070;64682;64461;64628;41076;41073;64633;64636;40016;37753;37752;41181;36213;36214;37748;36215];
 [64677;64674;37059;41081;36217;35836;41078;35789;40794;40948;40890;36218;40517;37808;41077;39750];
 [64686;64688;64081;36219;36220;40662;37804;40795;37801;41084;64690;35521;40884;64684;40524;36805];
 [37805;40387;36258;40266;64694;36259;40523;40525;36260;35581;64693;64707;37810;36261;37793;35526];
 [35419;35149;65236;35448;37803;36263;40773;35414;64703;64704;36582;35492;35139;37875;64683;40610];
 [40391;50898;35790;64709;64715;37811;64714;64713;36268;64454;35175;64717;40179;64720;38331;64723];
 [64724;36270;64727;37851;65123;37845;64730;39793;64733;36271;64242;37848;64735;37843;64737;36470];
 [64610;37841;36273;39001;64338;64339;64333;40127;39794;64336;37822;40433;64747;41147;39806;36275];
 [39656;36572;40185;64080;39143;64755;64754;37861;39513;36277;64845;64862;36733;38215;64758;37456];
 [35176;36278;64763;41085;39164;35177;65103;37462;64201;37864;64760;40163;64937;64580;38464;36280];
 [39754;36793;64766;35178;36281;37246;37876;64380;37863;38895;65098;64837;38565;65248;64840;64839];
 [65266;65130;36285;39841;39607;36604;40865;64849;64173;36286;35236;39641;64846;36288;38896;37812];
 [64836;40871;36290;39350;64850;36289;36422;41169;40906;37583;40180;36292;64833;39756;64855;64751];
 [40158;64834;39020;38905;38232;39006;65147;38093;37870;64858;37877;37871;36586;36699;36294;36296];
 [36295;37879;36297;64498;38512;36299;64860;36709;36301;40360;38137;36302;37866;64863;37872;40886];
 [36303;38755;36304;37873;64866;64869;40923;37880;35831;64870;35791;36305;36306;64881;64879;36307];
 [40935;37053;40912;35792;64882;40110;35793;35547;64228;38350;64886;64354;36308;64888;36579;36982];
 [39110;36309;38865;40630;64199;41026;39027;40956;36311;37627;36312;37967;36313;35179;38862;64243];
 [64942;64431;37559;36314;40026;64941;36316;37956;36317;41174;38869;37962;37965;38859;36318;36319];
 [36320;65273;64960;64761;64382;37555;64943;36321;38355;35265;64872;40119;36323;64192;36325;64100];
 [35143;36324;36327;36328;64967;64944;37957;38870;64710;38980;36329;36330;65104;64972;40359;64973];
 [64975;38354;36333;64698;64965;64978;40156;38351;36334;64980;38636;38635;37046;64963;39083;38638];
 [36340;64992;36342;36343;36858;38864;35794;36344;37081;64240;64993;36345;64995;36346;64355;37030];
 [39280;37355;38768;39023;64994;39154;39676;35180;65021;39262;38333;64996;37350;64997;64998;64999];
 [37972;39352;38889;37702;39011;38332;65005;65015;39024;38646;36521;37969;36419;35674;65006;65008];
 [65012;39925;38782;39893;39619;38856;41179;37328;40932;36829;37353;39136;37578;38999;65003;39753];
 [40310;40623;40140;65002;36337;65019;36435;64207;38649;39103;40521;39882;65022;37596;65089;37324];
 [37346;65092;35795;65095;65096;37973;65099;65100;36287;40568;65105;37974;40289;37975;39270;35797];
 [41065;39092;41033;41036;40549;39093;65112;39285;65107;41061;65113;39095;39096;39098;39099;40892];
 [41034;40647;39086;37590;64225;37332;64222;65115;65118;64471;65114;38085;64202;39105;38748;65140];
 [38771;64070;38756;65128;38478;38757;35233;38394;37588;65129;64325;39112;37103;39113;39114;37997];
 [38071;65132;37995;37628;38379;65139;38766;65119;64957;37589;65209;65137;64443;38010;38395;65143];
 [65145;65141;37981;65148;37700;36518;37587;38072;64625;38750;65191;37994;37859;39119;41177;41151];
 [41037;41144;41166;41143;65193;35267;65195;40436;35181;40059;39122;40873;65202;65201;38873;41156];
 [38006;39288;65203;39123;65204;39124;40889;38001;39125;65208;50900;65210;40540;65211;41028;39127];
 [39128;65212;40958;65213;40413;40673;39130;40415;65215;65214;40683;40537;41052;65216;38007;39132];
 [65217;39134;65219;65224;65225;65226;65227;40898;39108;38064;38065;65233;41153;65234;41165;65235];
 [39141;65238;37348;36807;38062;35407;38066;36820;39146;65240;40416;39150;38340;64744;39151;64216];
 [65244;41134;40268;39153;39155;38081;39157;64079;38626;37968;38562;39158;38629;39159;41030;38627];
 [39160;40676;63958;38083;38082;65249;65257;38628;35244;38619;65250;38084;65251;65255;40955;37833];
 [38120;64342;37061;41128;65253;39165;39163;65256;36543;35800;65271;36712;38086;40426;64617;40154];
 [65267;40050;65264;35273;39233;39234;65269;37335;38092;65272;38824;65276;64959;65278;38609;38101];
 [38096;39236;41139;38095;40954;37349;40042;36425;36428;36429;39539;39239;36432;36431;39241;36433];
 [36434;39602;35237;39244;40952;36438;39245;37322;36439;38113;36935;36824;36440;38123;36444;38227];
 [40933;40790;38223;36446;39274;40036;40153;36445;39248;39249;36450;39250;36456;36449;40793;35763];
 [40797;36454;36462;40804;39251;64184;39252;36464;40801;36466;41067;40768;38125;38126;40893;36475];
 [39255;38135;40799;36467;40802;38134;39256;36469;63963;36978;38136;39258;41136;36473;36472;38131];
 [39087;41138;36474;39260;36476;36477;35801;35234;40663;41142;40514;36516;36519;38210;39037;38741];
 [36520;36522;35235;39264;39266;38140;39265;38138;36526;36530;36528;39267;38826;38139;36539;39030];
 [36513;36535;40358;40624;36536;40304;35182;35183;35184;35185;35186;35187;35188;35189;36540;36541];
 [36542;40401;38141;35799;35802;41186;40937;64936;35559;36546;36548;39268;39269;38222;39091;36555];
 [35807;36558;36559;39272;39273;39275;36561;39276;36564;36565;39277;41150;36566;41148;41141;41140];
 [35808;35253;36573;40541;39281;35246;40424;38245;39282;35676;35249;41152;36575;38246;39284;39286];
 [39287;39289;40410;36576;37724;40422;35679;38243;38247;40419;39292;39293;39294;35675;39331;39332];
 [39334;39336;35518;40545;39338;41160;39339;65220;39106;36584;41146;64887;36590;40639;35266;39340];
 [38251;38252;39343;39242;35190;36680;64494;39342;36603;35666;39344;35191;36673;39345;36681;64077];
 [40420;64489;39764;39346;40552;36682;36674;36689;38982;39348;36597;64853;40141;35192;36691;36719];
 [36451;36694;65142;40902;64172;36696;38984;39351;38501;64108;40423;40546;38604;36455;64629;39038];
 [64953;38908;39161;36710;38254;37445;36704;40657;65229;39353;36706;38732;37319;38239;39355;36461];
 [36721;38091;38321;39666;38595;39357;41167;36717;39358;36596;36722;38372;39359;37442;64421;39360];
 [64948;36727;39361;64185;36672;64068;39362;36700;39364;39365;36731;36771;39366;38605;38599;36773];
 [64187;38256;37736;36734;36778;41040;37075;38230;36792;39368;36783;39369;38265;40777;39370;39371];
 [40405;36784;64122;40543;39373;41161;39643;41158;36788;41175;41159;41027;36789;36786;41057;40542];
 [36790;40936;40114;38268;40903;36795;36796;36844;36800;37738;35812;40060;38305;65260;38307;36801];
 [41042;39376;36803;36804;38308;36806;40544;63960;38309;40115;39377;65265;39378;40130;39379;38311];
 [38313;38310;40029;39138;36809;41154;36810;39380;41145;39768;36813;41172;36814;35813;35193;36816];
 [38326;39382;38373;39383;38325;41162;40957;41048;36822;39384;36819;36837;36841;39385;37500;40005];
 [36830;36831;41035;36834;41164;36835;36836;39876;39932;38476;39670;36839;36840;35815;35194;35195];
 [39386;36845;38336;41163;40520;39387;36851;36857;38337;41038;39388;41060;36855;35248;41032;36859];
 [36854;40412;39389;35816;37569;40918;41170;36928;35524;39392;40944;40947;40383;40950;38344;40538];
 [39395;35402;40945;35495;39398;40951;40941;35420;40366;38345;36936;39400;36937;37041;36938;39402];
 [39889;39403;39404;39405;39406;36940;36941;38347;38882;38348;40824;35196;35197;35198;39261;39770];
 [36944;36948;50902;39592;39407;65259;40355;40353;39235;39237;40317;39408;39409;39410;40288;41123];
 [36955;40667;40313;39411;36962;40789;39929;36965;38624;39102;36968;36972;38360;36970;40882;40878];
 [40880;35245;36974;40561;40522;40924;35243;40888;36976;35683;38364;36977;64606;35145;38491;38054];
 [36821;40563;36981;39415;39417;38499;38329;38100;64762;36983;37035;40269;39418;37603;38843;36984];
 [39419;38880;38620;40104;38770;37952;37618;39421;39420;63959;38474;38616;39422;36939;64065;39488];
 [38747;39489;37341;37884;39490;39491;38489;39492;36945;38079;37026;40107;38774;64597;65093;38056];
 [39493;64075;40417;38617;38772;65013;37605;38469;37338;37027;41055;37039;38847;37196;38522;37342];
 [39494;65200;38777;37996;39000;37478;37883;39495;38729;38728;37706;40162;37476;37343;64377;38615];
 [37699;64971;65146;37339;38831;38365;37704;39499;64581;39501;37308;37090;37044;38369;39502;39503];
 [65088;65091;38621;39505;38567;37040;40014;37955;36538;39506;64705;35817;40111;35837;39612;39608];
 [39598;39591;39507;40308;35818;35819;37042;38377;38376;38374;37045;39508;37043;38375;35664;35820];
 [39510;35835;39511;41130;40870;39372;40025;39349;37054;40879;38386;37055;37057;65252;37060;37063];
 [37604;40786;37083;41062;37074;37076;39515;38397;35780;37086;40164;37089;40518;38481;64344;37094];
 [38480;37095;37096;39517;40826;39772;40828;64594;37097;37098;39518;40822;37099;37100;35822;37102];
 [37318;37106;64700;35444;38487;40175;40927;37111;37110;39774;37112;37113;64106;35823;40928;37186];
 [39522;38249;37188;37187;37185;35824;38496;35825;39414;37193;37194;37195;39524;35519;39526;39527];
 [39529;39530;38482;37197;38502;40827;39531;41068;38503;39532;39533;35826;38506;64746;38508;37316];
 [38519;39412;39535;40875;36545;38229;37202;37203;37205;38237;38513;40045;38515;37204;39537;37206];
 [38509;38231;35270;35271;35434;35671;40929;39775;41053;37211;37212;37214;40796;40791;40805;39538];
 [37216;40798;37217;37220;40769;37225;37224;39540;38578;39541;64933;40681;35770;37229;41056;40926];
 [40899;38581;41063;38579;39542;38357;40650;39543;39544;37232;37231;40867;37233;38577;40803;40807];
 [35769;39546;35670;39642;38576;39550;40414;38573;38574;40609;40528;38575;35828;40868;38589;38644];
 [38584;64161;37287;41054;39549;35144;40625;40411;38335;35443;40702;37242;37243;39587;38594;40823];
 [39588;39589;37281;35256;37235;39590;35261;35257;37245;38587;40946;35829;39593;40788;40931;40685];
 [37290;37291;41072;40813;37292;37293;41213;40930;37295;40513;39594;37296;39595;39596;39498;37298];
 [35830;39597;35254;39599;39600;39601;39585;37305;37306;37310;41025;35767;37312;39603;37315;41212];
 [40942;40809;37320;37321;36326;37323;35272;36266;40925;51361;51363;35832;51408;51407;50916;50917];
 [51405;51406;63998;40049;37749;37750;38216;36550;35781;35834;51324;39604;34894;34891;51322;34888];
 [34887;41206;34885;34899;64685;35501;37490;64583;38111;40913;64459;37501;39076;38119;37067;37499];
 [38104;64607;64084;39605;38618;37497;64116;37493;36347;35401;37599;39804;64099;64096;37485;64098];
 [39606;38763;64874;64852;37491;38872;40891;37698;37494;64101;37484;64110;40672;37568;37567;37566];
 [39610;35507;38773;64064;64118;64464;64123;65133;39859;35276;39614;64066;37564;37980;39861;39615];
 [39079;38820;37117;64635;39616;37571;35498;39888;38224;37574;39078;38214;64867;64194;40643;35250];
 [40038;36947;38849;39620;39621;36591;64233;37474;35575;39622;37601;39625;64198;38821;39627;64114];
 [35422;38112;37580;35557;65116;39628;40441;35395;35494;39629;39630;64238;39884;39631;39633;40442];
 [40316;39635;38822;39263;64502;40901;35417;35691;39636;39637;38818;35396;40778;37025;64932;35428];
 [35570;35576;40408;38102;64254;64423;39638;40781;64246;35415;35651;35652;35510;35520;40532;39639];
 [39640;39644;35530;40616;37475;39645;35685;35695;35710;36675;37584;35572;40382;39649;64734;40445];
 [35686;35696;35701;35556;35748;35565;35421;35656;40429;40512;35567;35574;40566;40675;39646;36350];
 [64252;40113;40567;35684;35687;38731;38483;39648;35658;35569;35543;41131;35509;35423;35566;39647];
 [35582;35416;35747;35751;39651;37473;40407;40573;40615;40619;36930;35705;35706;39654;39653;35454];
 [40516;39655;35452;35697;39657;39658;39659;35517;64334;39661;35577;40547;35657;35534;35694;35560];
 [39662;37582;35418;35707;35708;39663;39664;35578;35137;35698;35571;35752;40622;40562;64371;64351];
 [37050;37374;40694;38893;39667;41198;38524;37701;39022;64086;39669;64587;39668;65246;64695;38897];
 [38855;40139;37440;40168;37373;38734;64360;38764;38888;64362;35700;36583;64968;37441;38561;36595];
 [39671;36774;64214;40135;64215;39672;64417;36549;64420;64450;39617;37370;65243;38827;37191;64433];
 [36842;38098;65121;64206;37613;37363;37830;37722;64251;37615;64200;38983;37734;38997;38630;40771];
 [40874;38106;37614;64687;64507;36601;37366;37732;38133;40118;64429;38990;36676;38653;39673;39674];
 [38761;38356;38987;64426;39036;37354;40367;40389;37361;36529;38825;64428;64696;40121;64432;64722];
 [37835;39677;37364;35756;41045;38260;38334;38829;36585;37624;38846;37228;38058;64611;40390;38837];
 [37560;37359;65190;38752;37720;38262;36780;37356;38836;37367;38730;64329;38264;37820;37334;37717];
 [37718;38993;36856;64448;37874;37072;40004;37461;37731;37285;41197;64875;39678;37713;64120;65192];
 [37712;64076;37623;39744;64462;39745;65197;64469;35778;39548;39746;39747;40569;64473;39748;41127];
 [39923;37726;35275;40787;37847;64481;65232;64482;64739;36980;64486;39863;39749;39751;40784;39752];
 [64603;39081;40189;34892;39755;64492;39848;35541;64115;64857;37282;64493;40105;35496;39875;35553];
 [39758;38352;36959;38894;64590;39759;39760;40646;64592;64883;64935;40354;64088;64094;41049;64117];
 [64446;40098;37744;37745;37751;65263;37741;64605;37048;35580;64321;40555;38115;36578;36567;40013];
 [38563;39761;35523;38570;64616;35693;64871;35561;64673;37740;39762;65136;64680;64745;40116;35562];
 [39763;39765;38571;64679;39766;35516;35531;39767;35277;39769;39771;37797;39773;40527;37795;35451];
 [35650;38736;36787;35408;39776;35653;35654;40446;39778;37755;37809;35424;35544;39779;35433;35399];
 [35532;37756;39781;39782;35442;35450;37807;35504;39784;40611;64236;35703;39783;35673;64689;64699];
 [39785;37800;35552;40529;36703;39786;39787;38892;39788;65102;64962;39789;37223;64716;37814;37092];
 [37093;40690;37834;35772;36678;37839;64731;64732;37824;64742;38631;64728;64729;64934;37838;38385];
 [40169;64740;38063;64119;37836;36954;37823;64337;37817;65239;37815;37849;37819;37850;39075;37073];
 [39790;64112;39915;39791;64764;35648;41083;38903;37858;64726;38233;37798;64832;37727;38898;40054];
 [36600;36679;39796;37556;37357;38610;64838;36687;38217;39797;64092;39801;64843;38611;64856;37983];
 [41205;37443;38906;40409;38900;37453;64859;39802;40661;64174;40137;37464;36552;38068;37857;37855];
 [64752;37868;38902;38607;37854;35535;39842;64873;37714;39074;64878;64124;37882;36988;36711;40375];
 [41193;64078;64929;40564;40895;40651;39865;40404;38841;36593;38267;40658;38739;38564;36798;38105];
 [36952;64889;64891;36570;36602;39845;40665;38868;37051;64956;64966;37448;37557;40385;37561;37542];
 [36683;39846;37558;36416;40664;37982;39007;38094;37450;64880;37991;36332;39896;37960;64193;40183];
 [64958;36826;64985;64638;37881;64067;64235;64195;38867;38393;40008;64984;41176;64983;64330;39855];
 [37963;64969;36524;64946;37466;64701;37593;64981;37597;37465;38586;37467;39851;64986;64990;64979];
 [64982;64988;64989;37118;65185;35757;40152;40557;64892;64353;38648;38640;64756;65120;38994;38479];
 [37230;39021;39012;37971;65004;64376;38330;39005;37625;39002;65014;37840;39010;39853;38735;39854];
 [37970;39856;37330;38890;64363;37297;65011;37579;39857;64748;39019;38737;39025;38383;40691;37352];
 [39866;64332;37482;65016;39009;37351;37869;38724;37345;64501;39017;35426;39867;40021;36471;35506];
 [40636;37862;37794;39869;38067;37757;40550;37977;39871;37976;40613;39879;65108;36468;35798;38070];
 [64884;39104;38053;39880;38381;64894;64491;64893;38767;37985;40897;38359;64082;40024;40808;39911];
 [64718;38632;64073;38817;38221;40696;65097;37326;38769;64945;64622;40178;37816;36931;38745;38103];
 [65126;38013;64623;37446;64109;36599;64439;38012;37581;38834;65125;38526;38744;39799;37327;38052];
 [40109;35755;38613;64691;37806;38765;37958;38391;40006;38235;37329;38132;65127;37541;65247;39881];
 [64749;65018;64712;65122;37372;65131;65017;64711;37198;40120;38759;38382;39858;37984;38050;39029];
 [38828;37331;39035;36587;38762;38494;38891;40953;38392;65186;36838;65150;40356;38760;36588;38077];
 [37979;40182;64167;39897;64093;38486;38754;38074;41039;37592;39883;38075;40287;37071;37989;40780];
 [37080;40638;64365;38346;40386;38904;36860;38003;38004;65207;35403;35413;35689;35548;35702;39886];
 [35432;41208;39135;65205;39887;38651;39931;40654;36581;40571;39890;35493;65230;35397;40444;65231];
 [35749;35564;64736;38061;65237;38060;64602;39894;35439;35753;36447;40395;64743;39895;37832;37360];
 [36832;39899;37101;39900;41196;39162;39904;37831;37449;38625;39906;39908;36833;39909;38080;37827];
 [37829;36985;38779;36990;65254;65094;40376;37488;38312;38088;39097;37184;64702;37207;35762;64223];
 [39910;38467;36420;40015;65268;39912;37852;38511;36426;39917;37622;40377;36430;64463;40642;38117];
 [39920;38116;38225;35771;39921;38128;36452;38122;36705;39780;36443;39922;40894;40393;36460;36723];
 [36725;36465;36448;36458;38226;38228;35540;40379;38211;37630;38130;38129;41194;40402;41137;37368];
 [37986;39844;36525;40621;38608;65262;35508;38743;35447;39927;36533;41069;36534;38742;38208;41203];
 [38078;39930;64991;40380;38142;35803;41214;36544;40775;35806;41211;36547;38473;65218;38220;39933];
 [37068;40032;38219;39934;40048;40003;40007;36556;36436;36580;40009;35678;38238;38236;40011;35809];
 [36569;40372;37471;40012;35489;36571;40022;35490;38740;40030;40660;38248;41155;35558;41207;40033];
 [40031;64589;40539;40553;40035;65223;65222;40039;40041;35810;37221;40167;35412;40044;40046;65117];
 [40051;38250;38253;36592;36685;36598;64188;64474;35660;64885;39901;64245;40052;38213;38598;36714];
 [36686;40056;64085;38884;40001;37468;38650;64358;36453;38985;64424;38978;40058;38907;37066;40027];
 [38733;36563;38241;40779;40885;37842;64938;38976;37190;39015;64090;64425;38977;64765;64939;37309];
 [36684;38601;36693;64430;38255;40061;41200;37999;64940;38603;38606;41046;40161;38596;36702;36716];
 [36515;64435;64595;64947;36715;38602;36729;40559;41157;64632;36418;36698;37058;36517;36961;37455];
 [37747;64949;65228;64445;38979;38597;35260;40099;37451;38986;36772;41201;40699;40146;36775;64604];
 [38981;36934;65274;38240;40776;37447;37115;40100;38257;40102;40103;40106;40659;40560;40108;36782];
 [38269;40112;38838;41149;35551;40618;36797;36799;37737;39847;51364;65258;39905;35649;40374;41195];
 [39843;35745;36808;35148;39008;38087;35672;38315;38314;40131;40132;37846;40364;35814;35441;36817];
 [39381;37108;35491;40142;40148;40149;64456;40371;64624;36823;39795;64091;36818;36964;39094;38504];
 [40150;39101;36828;65270;36825;38209;38899;39928;40556;36850;36846;40151;40558;35392;36847;36852];
 [36853;38338;39018;38863;40677;40572;36929;40155;37953;40166;40368;40170;40173;40186;35682;35406];
 [40138;35430;40187;40188;40190;35411;40165;40256;40257;36933;35699;38858;40258;35425;35758;35538];
 [35746;40434;40259;40159;40260;36554;36942;36531;40949;40261;36943;40263;35274;40117;64510;36958];
 [36963;36951;36966;39872;64741;37218;36967;36769;36770;40264;64211;36957;37049;36971;36969;65111];
 [65109;36979;39919;40176;40267;65241;65242;37344;37336;38470;37728;64083;40147;40270;64320;36322];
 [37954;36950;39013;64074;40272;40274;38319;38746;37705;38727;41204;38776;36815;64608;64598;37340];
 [38497;37612;37725;36574;38654;64847;38366;39088;41024;38845;38781;38901;39852;64218;37570;38833];
 [36987;37886;38011;38775;64190;64835;37062;37028;37032;38057;37033;38368;36989;37477;64954;37828];
 [65261;40363;41187;38472;40275;35497;39877;38493;38751;38495;38510;64349;40369;65187;40370;38318];
 [64675;41122;38485;40276;37697;38317;37333;38778;65020;36423;37885;37029;37036;38316;37038;65189];
 [40278;38883;38370;37990;38471;37304;40172;37037;38371;35663;35555;35661;38378;35662;35821;37337];
 [41124;38389;38388;40883;65199;65138;37498;65196;38387;40280;37746;37317;38466;37069;38398;37209];
 [40037;38860;37070;40281;64757;65277;40283;40284;37758;39084;40286;64976;64864;40143;37085;37088];
 [37107;39089;37104;37821;38327;40774;36427;38488;35404;40291;40655;40293;40294;38490;40292;35436];
 [35545;40295;35440;35827;37200;40129;40296;37799;38516;41199;37201;38593;38518;40297;64676;40298];
 [37454;40299;39873;40300;35429;37213;40301;37210;40128;37226;40302;40614;40397;40303;35259;40697];
 [38580;37234;40648;35669;40305;40306;40652;37236;40656;36956;36562;37288;37239;38591;38592;36785];
 [38583;37240;35262;37244;64375;37237;37283;37238;38590;37241;38582;37284;37286;40309;36946;41029];
 [37289;39082;35754;40157;40311;35136;40684;37802;38008;40314;35529;35659;40940;35554;40565;39028];
 [39624;41031;35779;64584;64631;40018;36605;36776;38266;36848]].

(* lib/converters/hkscs1999.h:1495-1511 hkscs1999_uni2indx_page00 (flattened, 2 fields per entry) *)
Definition hkscs1999_uni2indx_page00 : tab := mk [
 [0;0;0;0;0;0;0;0;0;0;0;0;0;0;0;0];
 [0;0;0;0;0;256;1;0;1;1795;6;12;8;14083;15;5900];
 [21;3;23;3084;27;2048;28;0;28;14336;31;8;32;2048;33;0];
 [33;0;33;0;33;0;33;0;33;24576;35;5463;43;0;43;0];
 [43;0;43;0;43;0;43;0;43;0;43;2067;47;1026;49;32];
 [50;1032;52;0;52;0;52;0;52;64]].

(* lib/converters/hkscs1999.h:1512-1516 hkscs1999_uni2indx_page04 (flattened, 2 fields per entry) *)
Definition hkscs1999_uni2indx_page04 : tab := mk [
 [53;2;54;65535;70;65535;86;65535;102;65535;118;2]].

(* lib/converters/hkscs1999.h:1517-1523 hkscs1999_uni2indx_page1e (flattened, 2 fields per entry) *)
Definition hkscs1999_uni2indx_page1e : tab := mk [
 [119;0;119;0;119;0;119;0;119;0;119;0;119;0;119;0];
 [119;0;119;0;119;0;119;49152;121;3]].

(* lib/converters/hkscs1999.h:1524-1530 hkscs1999_uni2indx_page21 (flattened, 2 fields per entry) *)
Definition hkscs1999_uni2indx_page21 : tab := mk [
 [123;0;123;64;124;2;125;0;125;0;125;0;125;0;125;1023];
 [135;0;135;0;135;0;135;768;137;0;137;0;137;128]].

(* lib/converters/hkscs1999.h:1531-1545 hkscs1999_uni2indx_page23 (flattened, 2 fields per entry) *)
Definition hkscs1999_uni2indx_page23 : tab := mk [
 [138;0;138;0;138;0;138;0;138;0;138;0;138;0;138;0];
 [138;0;138;0;138;0;138;0;138;0;138;3072;140;0;140;0];
 [140;0;140;0;140;0;140;0;140;0;140;0;140;1023;150;16368];
 [160;0;160;0;160;0;160;0;160;0;160;0;160;0;160;0];
 [160;0;160;0;160;0;160;0;160;0;160;65535;176;65535;192;1]].

(* lib/converters/hkscs1999.h:1546-1549 hkscs1999_uni2indx_page27 (flattened, 2 fields per entry) *)
Definition hkscs1999_uni2indx_page27 : tab := mk [
 [193;0;193;0;193;0;193;8192]].

(* lib/converters/hkscs1999.h:1550-1573 hkscs1999_uni2indx_page2e (flattened, 2 fields per entry) *)
Definition hkscs1999_uni2indx_page2e : tab := mk [
 [194;0;194;0;194;0;194;0;194;0;194;0;194;0;194;0];
 [194;13777;202;12320;205;21664;210;20544;213;46144;218;16576;221;8;222;0];
 [222;0;222;0;222;0;222;8;223;0;223;0;223;0;223;0];
 [223;0;223;0;223;0;223;0;223;0;223;0;223;0;223;0];
 [223;224;226;0;226;0;226;0;226;65534;241;65535;257;65535;273;65535];
 [289;65535;305;30735;313;65534;328;65535;344;65535;360;65535;376;65535;392;28799];
 [402;0;402;0;402;0;402;0;402;0;402;0;402;0;402;0];
 [402;0;402;0;402;0;402;0;402;65535;418;0;418;0;418;0];
 [418;0;418;0;418;0;418;2]].

(* lib/converters/hkscs1999.h:1574-2114 hkscs1999_uni2indx_page34 (flattened, 2 fields per entry) *)
Definition hkscs1999_uni2indx_page34 : tab := mk [
 [419;0;419;0;419;0;419;32;420;4097;422;0;422;16;423;25608];
 [427;0;427;72;429;32800;431;4096;432;258;434;32768;435;16;436;2048];
 [437;64;438;0;438;0;438;16384;439;0;439;10;441;8194;443;389];
 [447;16;448;384;450;8226;453;32768;454;17570;459;10308;463;0;463;18446];
 [468;512;469;1280;471;8200;473;16928;476;17280;480;32768;481;0;481;1024];
 [482;2;483;1024;484;5152;487;4643;492;442;498;8280;502;102;506;32];
 [507;9482;512;4096;513;12332;518;1037;522;9;524;0;524;32772;526;0];
 [526;0;526;128;527;1;528;16896;530;0;530;0;530;0;530;2308];
 [533;32768;534;512;535;8193;537;320;539;0;539;0;539;8;540;0];
 [540;0;540;0;540;1;541;0;541;4104;543;2;544;0;544;1024];
 [545;256;546;16;547;128;548;32772;550;8192;551;0;551;8;552;0];
 [552;1537;555;2564;558;18;560;256;561;0;561;4096;562;4132;565;18688];
 [568;74;571;384;573;1536;575;16;576;2048;577;20612;581;192;583;0];
 [583;0;583;128;584;2048;585;8192;586;0;586;16384;587;1;588;2053];
 [591;16384;592;512;593;2052;595;512;596;4;597;256;598;1;599;6150];
 [603;1;604;576;606;2;607;20480;609;20;611;8320;613;4096;614;28];
 [617;8192;618;290;621;0;621;0;621;0;621;16;622;0;622;0];
 [622;0;622;0;622;0;622;0;622;10240;624;4162;627;34816;629;0];
 [629;0;629;8200;631;0;631;2052;633;20544;636;32770;638;34308;642;8224];
 [644;33824;647;2;648;8224;650;32784;652;12480;656;2056;658;2432;661;12424];
 [665;64;666;0;666;0;666;0;666;265;669;32;670;0;670;16];
 [671;0;671;0;671;9984;675;33026;678;5252;682;17603;688;2694;693;37913];
 [699;16465;703;0;703;0;703;0;703;0;703;776;706;8;707;4096];
 [708;0;708;8;709;0;709;0;709;1;710;4224;712;8224;714;1536];
 [716;16;717;8192;718;0;718;512;719;32;720;136;722;33828;726;0];
 [726;0;726;0;726;256;727;34816;729;256;730;33024;732;0;732;1024];
 [733;16920;737;0;737;0;737;4;738;0;738;0;738;20608;741;32768];
 [742;0;742;1;743;0;743;4;744;33808;747;2048;748;32768;749;512];
 [750;0;750;2;751;0;751;0;751;1;752;0;752;1025;754;1024];
 [755;4096;756;16;757;0;757;4640;760;0;760;0;760;0;760;6160];
 [763;0;763;0;763;2048;764;0;764;0;764;0;764;16384;765;0];
 [765;0;765;128;766;0;766;1024;767;2;768;33280;770;8192;771;4];
 [772;6;774;8;775;8224;777;0;777;0;777;0;777;0;777;1024];
 [778;32768;779;32770;781;5;783;129;785;16417;788;40960;790;7696;795;16];
 [796;2584;800;8256;802;16512;804;43016;808;8;809;4134;813;1028;815;128];
 [816;32;817;0;817;0;817;0;817;0;817;0;817;512;818;0];
 [818;32832;820;160;822;0;822;0;822;0;822;2048;823;0;823;1024];
 [824;1;825;0;825;0;825;0;825;32768;826;1;827;0;827;32];
 [828;0;828;264;830;0;830;0;830;16384;831;0;831;0;831;4096];
 [832;0;832;256;833;64;834;0;834;0;834;32;835;8192;836;16];
 [837;2049;839;0;839;0;839;128;840;0;840;8192;841;0;841;2];
 [842;0;842;2048;843;24576;845;0;845;0;845;8193;847;8192;848;1032];
 [850;64;851;16386;853;9248;856;20512;859;32;860;10;862;1056;864;4];
 [865;512;866;0;866;130;868;0;868;0;868;32768;869;160;871;0];
 [871;32768;872;8192;873;16;874;32;875;0;875;0;875;0;875;0];
 [875;0;875;64;876;0;876;272;878;0;878;2;879;16;880;32768];
 [881;0;881;512;882;4096;883;128;884;0;884;0;884;32768;885;18437];
 [889;16384;890;8393;895;0;895;24576;897;1;898;0;898;0;898;0];
 [898;16528;901;0;901;0;901;18432;903;0;903;2048;904;8192;905;8192];
 [906;0;906;0;906;16400;908;129;910;8192;911;0;911;8194;913;0];
 [913;512;914;1;915;0;915;16;916;0;916;0;916;0;916;0];
 [916;0;916;4098;918;0;918;0;918;0;918;0;918;0;918;0];
 [918;16;919;5120;921;5394;926;41152;930;512;931;3072;933;1024;934;256];
 [935;675;940;1280;942;1;943;39040;947;16384;948;0;948;19456;951;256];
 [952;8;953;1024;954;768;956;644;959;2084;962;0;962;0;962;4];
 [963;1024;964;0;964;2308;967;8193;969;4352;971;0;971;48;973;8708];
 [976;264;978;0;978;16384;979;16;980;0;980;320;982;4160;984;0];
 [984;258;986;1;987;64;988;0;988;8192;989;33281;992;2;993;4112];
 [995;24578;998;0;998;2048;999;0;999;0;999;64;1000;1025;1002;528];
 [1004;324;1007;5184;1010;2432;1013;316;1018;33416;1022;34830;1027;8212;1030;20496];
 [1033;2084;1036;32768;1037;193;1040;4112;1042;0;1042;640;1044;257;1046;520];
 [1048;32768;1049;1041;1052;274;1055;544;1057;4128;1059;3;1061;3;1063;512];
 [1064;2;1065;0;1065;4224;1067;2316;1071;16388;1073;40960;1075;8848;1079;24592];
 [1082;0;1082;8;1083;20293;1091;65;1093;4134;1097;1799;1103;1;1104;16576];
 [1107;0;1107;1112;1111;32778;1114;4;1115;10240;1117;0;1117;9728;1120;0];
 [1120;32800;1122;20632;1127;24;1129;532;1132;14336;1135;1025;1137;32776;1139;0];
 [1139;8196;1141;16648;1144;2344;1148;32768;1149;640;1151;8200;1153;2560;1155;526];
 [1159;64;1160;1;1161;512;1162;5649;1167;2;1168;16768;1171;5120;1173;2083];
 [1177;32;1178;16386;1180;8239;1186;128;1187;40968;1190;8213;1194;2;1195;7168];
 [1198;3584;1201;49156;1204;32786;1207;33282;1210;0;1210;64;1211;40964;1214;8194];
 [1216;1;1217;8224;1219;0;1219;32772;1221;76;1224;34960;1228;128;1229;50176];
 [1232;9472;1235;4097;1237;1154;1240;18448;1243;272;1245;24704;1248;32832;1250;16384];
 [1251;8;1252;4;1253;68;1255;1024;1256;145;1259;36864;1261;4608;1263;12];
 [1265;0;1265;1536;1267;1152;1269;2145;1273;2048;1274;4096;1275;1;1276;2061];
 [1280;1204;1285;32770;1287;0;1287;20;1289;0;1289;0;1289;32;1290;32];
 [1291;512;1292;33808;1295;4096;1296;385;1299;528;1301;512;1302;34816;1304;769];
 [1307;10244;1310;4;1311;7314;1317;8192;1318;32;1319;528;1321;18698;1326;16898];
 [1329;326;1333;578;1336;2051;1339;0;1339;49160;1342;8;1343;16;1344;17413];
 [1348;8192;1349;32770;1351;2048;1352;0;1352;33874;1357;0;1357;8512;1360;4176];
 [1363;5;1365;57345;1369;1024;1370;0;1370;8;1371;160;1373;0;1373;32776];
 [1375;32;1376;20504;1380;9;1382;0;1382;1536;1384;16392;1386;0;1386;0];
 [1386;32;1387;22016;1391;0;1391;1024;1392;6;1394;2;1395;33312;1398;0];
 [1398;0;1398;289;1401;36864;1403;16384;1404;320;1406;2240;1409;0;1409;17];
 [1411;18464;1414;0;1414;2064;1416;576;1418;2;1419;2176;1421;0;1421;32];
 [1422;2560;1424;4;1425;16384;1426;0;1426;260;1428;16384;1429;0;1429;33792];
 [1431;72;1433;0;1433;0;1433;8192;1434;8192;1435;1;1436;0;1436;6928];
 [1441;28672;1444;0;1444;32;1445;1024;1446;8192;1447;4099;1450;10;1452;2052];
 [1454;8;1455;0;1455;144;1457;1026;1459;16;1460;34816;1462;0;1462;0];
 [1462;0;1462;0;1462;8;1463;2050;1465;1024;1466;4;1467;0;1467;16544];
 [1470;0;1470;16384;1471;144;1473;8;1474;0;1474;16512;1476;904;1480;8192];
 [1481;4224;1483;512;1484;0;1484;8193;1486;4;1487;4609;1490;32785;1493;8192];
 [1494;130;1496;4896;1500;0;1500;640;1502;32769;1504;1033;1507;4;1508;0];
 [1508;0;1508;0;1508;4096;1509;640;1511;4096;1512;0;1512;256;1513;0];
 [1513;36;1515;8193;1517;80;1519;0;1519;40;1521;32800;1523;32;1524;0];
 [1524;0;1524;256;1525;16384;1526;162;1529;0;1529;0;1529;4112;1531;33280];
 [1533;2048;1534;0;1534;0;1534;512;1535;2;1536;16386;1538;68;1540;22784];
 [1544;128;1545;0;1545;0;1545;3332;1549;0;1549;1024;1550;0;1550;4098];
 [1552;8192;1553;2;1554;32768;1555;80;1557;1;1558;8200;1560;1186;1564;0];
 [1564;1024;1565;49154;1568;0;1568;49;1571;8192;1572;32768;1573;10240;1575;0];
 [1575;864;1579;0;1579;0;1579;16416;1581;0;1581;18;1583;9;1585;32768];
 [1586;0;1586;16640;1588;8;1589;1;1590;2320;1593;136;1595;2184;1598;8200];
 [1600;16416;1602;1028;1604;8208;1606;32840;1609;24576;1611;0;1611;0;1611;2];
 [1612;20484;1615;16448;1617;32;1618;64;1619;16;1620;0;1620;134;1623;0];
 [1623;32768;1624;0;1624;4113;1627;32770;1629;0;1629;192;1631;0;1631;16896];
 [1633;8223;1639;18433;1642;4;1643;16576;1646;1152;1648;8288;1651;32;1652;0];
 [1652;272;1654;256;1655;64;1656;8768;1659;1064;1662;0;1662;0;1662;0];
 [1662;527;1667;3328;1670;4096;1671;16448;1673;72;1675;32;1676;146;1679;12];
 [1681;1057;1684;33024;1686;4;1687;4;1688;1;1689;98;1692;514;1694;1536];
 [1696;6152;1699;5120;1701;14336;1704;8;1705;4128;1707;140;1710;32;1711;1042];
 [1714;33796;1717;8704;1719;2176;1721;16422;1725;1792;1728;272;1730;0;1730;64];
 [1731;32;1732;8192;1733;0;1733;32;1734;0;1734;132;1736;32768;1737;1040];
 [1739;2;1740;0;1740;0;1740;0;1740;2;1741;4096;1742;1026;1744;1024];
 [1745;0;1745;4096;1746;0;1746;9890;1752;512;1753;1280;1755;16384;1756;33312];
 [1759;0;1759;32768;1760;33796;1763;4;1764;18432;1766;32768;1767;1024;1768;0];
 [1768;100;1771;0;1771;80;1773;0;1773;16384;1774;6272;1777;0;1777;6];
 [1779;32770;1781;64;1782;48;1784;514;1786;0;1786;0;1786;0;1786;0];
 [1786;33812;1790;288;1792;1536;1794;0;1794;32768;1795;513;1797;0;1797;4160];
 [1799;2112;1801;1024;1802;0;1802;2336;1805;0;1805;11776;1809;772;1812;1024];
 [1813;6160;1816;192;1818;16;1819;8208;1821;16;1822;4160;1824;0;1824;528];
 [1826;1026;1828;40960;1830;0;1830;18464;1833;0;1833;1544;1836;0;1836;320];
 [1838;8;1839;16384;1840;4096;1841;0;1841;2048;1842;4113;1845;36992;1848;49696];
 [1852;35330;1856;0;1856;233;1861;14848;1865;4113;1868;32865;1872;0;1872;16418];
 [1875;32;1876;8192;1877;6656;1880;18488;1885;33825;1889;2;1890;2048;1891;21738];
 [1899;20736;1902;320;1904;8204;1907;1168;1910;0;1910;8194;1912;2048;1913;96];
 [1915;49664;1918;224;1921;18448;1924;0;1924;1;1925;4257;1929;64;1930;0];
 [1930;32900;1933;32784;1935;8192;1936;4;1937;8192;1938;0;1938;4;1939;0];
 [1939;20;1941;1;1942;23808;1947;768;1949;33026;1952;0;1952;0;1952;18];
 [1954;32768;1955;20736;1958;1152;1960;0;1960;49664;1963;33;1965;32854;1970;2696];
 [1974;0;1974;53942;1983;0;1983;4992;1987;936;1992;8264;1995;6433;2000;1104];
 [2003;12292;2006;2560;2008;16;2009;16;2010;4352;2012;9;2014;128;2015;263];
 [2019;16416;2021;16896;2023;0;2023;2096;2026;9284;2030;42;2033;24705;2037;1028];
 [2039;24584;2042;16388;2044;0;2044;18;2046;264;2048;4096;2049;0;2049;0];
 [2049;132;2051;0;2051;4096;2052;2048;2053;57345;2057;18;2059;32960;2062;1112];
 [2066;0;2066;1;2067;34;2069;128;2070;4096;2071;64;2072;0;2072;0];
 [2072;53248;2075;16384;2076;2128;2079;0;2079;9;2081;256;2082;0;2082;3460];
 [2087;0;2087;264;2089;32768;2090;16896;2092;2088;2095;0;2095;64;2096;16400];
 [2098;256;2099;20736;2102;0;2102;12800;2105;2196;2109;26;2112;64;2113;1024];
 [2114;8450;2117;0;2117;32768;2118;834;2122;128;2123;396;2127;16384;2128;35];
 [2131;64;2132;0;2132;16384;2133;6236;2139;0;2139;768;2141;4;2142;16386];
 [2144;201;2148;41474;2152;544;2154;0;2154;4176;2157;16;2158;4;2159;18];
 [2161;64;2162;0;2162;8192;2163;17408;2165;552;2168;0;2168;32;2169;8192];
 [2170;8;2171;2;2172;0;2172;6145;2175;33548;2180;15368;2185;1668;2189;16384];
 [2190;6144;2192;32784;2194;640;2196;512;2197;12;2199;32;2200;36868;2203;2048];
 [2204;0;2204;4;2205;12;2207;4;2208;32768;2209;1;2210;0;2210;5120];
 [2212;0;2212;2084;2215;0;2215;32;2216;20;2218;8258;2221;8192;2222;22545];
 [2227;16456;2230;4096;2231;20672;2235;256;2236;8836;2240;1032;2242;8256;2244;4648];
 [2248;0;2248;0;2248;32;2249;0;2249;8192;2250;9216;2252;0;2252;0];
 [2252;512;2253;128;2254;2320;2257;8;2258;40960;2260;4121;2264;48;2266;24608];
 [2269;128;2270;0;2270;128;2271;0;2271;0;2271;0;2271;16544;2274;32768];
 [2275;16384;2276;32772;2278;4112;2280;1024;2281;32896;2283;32768;2284;0;2284;0];
 [2284;64;2285;0;2285;0;2285;128;2286;17027;2291;12;2293;0;2293;258];
 [2295;32768;2296;136;2298;16392;2300;16;2301;0;2301;8192;2302;128;2303;1024];
 [2304;260;2306;8192;2307;49185;2311;6146;2314;0;2314;2064;2316;78;2320;0];
 [2320;1;2321;32768;2322;128;2323;12480;2327;64;2328;0;2328;4608;2330;64];
 [2331;21128;2336;1172;2340;1024;2341;148;2344;260;2346;1600;2349;8192;2350;4096];
 [2351;16;2352;8;2353;1056;2355;64;2356;258;2358;0;2358;32784;2360;64];
 [2361;0;2361;1280;2363;8768;2366;16384;2367;0;2367;16;2368;36;2370;3648];
 [2374;128;2375;0;2375;1088;2377;0;2377;33808;2380;257;2382;16388;2384;45184];
 [2388;2048;2389;9472;2392;0;2392;8192;2393;0;2393;128;2394;32844;2398;0];
 [2398;32;2399;4098;2401;4096;2402;16896;2404;8192;2405;8;2406;8192;2407;0];
 [2407;32;2408;4432;2412;16467;2417;16384;2418;1280;2420;4392;2424;20;2426;32774];
 [2429;257;2431;76;2434;8200;2436;24576;2438;0;2438;17408;2440;54;2444;256];
 [2445;40;2447;1;2448;0;2448;280;2451;6148;2454;1028;2456;32768;2457;9];
 [2459;0;2459;0;2459;0;2459;0;2459;2;2460;0;2460;16385;2462;4096];
 [2463;8196;2465;81;2468;33024;2470;0;2470;36;2472;0;2472;4096;2473;16388];
 [2475;0;2475;4;2476;8193;2478;4;2479;0;2479;0;2479;32768;2480;0];
 [2480;0;2480;0;2480;0;2480;0;2480;0;2480;0;2480;0;2480;8195];
 [2483;6208;2486;0;2486;544;2488;2;2489;16386;2491;1088;2493;16384;2494;32];
 [2495;32784;2497;256;2498;8320;2500;0;2500;32868;2504;16384;2505;16433;2509;0];
 [2509;144;2511;4096;2512;16385;2514;32816;2517;32928;2520;0;2520;64;2521;32800];
 [2523;1;2524;0;2524;16;2525;0;2525;8328;2528;16;2529;32;2530;128];
 [2531;1665;2535;18;2537;672;2540;4096;2541;66;2543;0;2543;128;2544;0];
 [2544;0;2544;4096;2545;2560;2547;8448;2549;512;2550;0;2550;128;2551;16384];
 [2552;0;2552;4113;2555;33280;2557;16;2558;0;2558;1024;2559;1024;2560;0];
 [2560;4096;2561;32768;2562;8192;2563;32768;2564;12296;2567;16384;2568;516;2570;0];
 [2570;2;2571;2049;2573;1;2574;16384;2575;0;2575;0;2575;4;2576;0];
 [2576;0;2576;0;2576;0;2576;0;2576;0;2576;2;2577;0;2577;0];
 [2577;0;2577;34816;2579;8192;2580;0;2580;8192;2581;2128;2584;2560;2586;132];
 [2588;6152;2591;12550;2596;0;2596;0;2596;0;2596;0;2596;0;2596;1024];
 [2597;4;2598;0;2598;576;2600;0;2600;9;2602;16;2603;0;2603;0];
 [2603;16386;2605;0;2605;9472;2608;1024;2609;32832;2611;0;2611;256;2612;16546];
 [2616;1;2617;0;2617;8320;2619;4161;2622;16392;2624;1024;2625;8212;2628;4];
 [2629;0;2629;512;2630;8192;2631;1;2632;1026;2634;4096;2635;16576;2638;0];
 [2638;0;2638;8;2639;33;2641;24552;2651;5122;2654;1025;2656;0;2656;512];
 [2657;256;2658;4;2659;0;2659;136;2661;4096;2662;64;2663;4114;2666;0];
 [2666;0;2666;0;2666;16640;2668;2048;2669;16;2670;0;2670;0;2670;0];
 [2670;0;2670;0;2670;0;2670;0;2670;0;2670;20994;2674;128;2675;4161];
 [2678;20480;2680;0;2680;512;2681;2112;2683;16;2684;32832;2686;32;2687;17408];
 [2689;16640;2691;8;2692;3328;2695;4128;2697;18;2699;41248;2703;18436;2706;128];
 [2707;33298;2711;0;2711;16384;2712;50690;2717;0;2717;2064;2719;6184;2723;8284];
 [2728;136;2730;0;2730;4096;2731;3;2733;319;2740;32768;2741;19268;2747;8472];
 [2751;242;2756;4097;2758;8193;2760;43264;2764;2112;2766;2056;2768;1;2769;11];
 [2772;274;2775;10368;2778;8432;2783;16384;2784;8204;2787;2320;2790;4256;2793;2560];
 [2795;32;2796;32768;2797;4;2798;0;2798;10;2800;4096;2801;0;2801;64];
 [2802;0;2802;0;2802;8192;2803;0;2803;128;2804;0;2804;0;2804;33024];
 [2806;32;2807;704;2810;1221;2815;0;2815;0;2815;0;2815;256;2816;16];
 [2817;0;2817;8192;2818;0;2818;264;2820;34;2822;64;2823;512;2824;2048];
 [2825;32770;2827;64;2828;40;2830;8256;2832;0;2832;0;2832;0;2832;16];
 [2833;8;2834;2048;2835;2;2836;66;2838;3;2840;41090;2844;8192;2845;2];
 [2846;640;2848;34816;2850;0;2850;25878;2857;261;2860;4;2861;16449;2864;36];
 [2866;0;2866;32816;2869;16392;2871;24;2873;2176;2875;0;2875;4160;2877;32];
 [2878;0;2878;0;2878;0;2878;656;2881;17800;2886;20480;2888;4163;2892;34];
 [2894;16384;2895;4608;2897;0;2897;2944;2901;9221;2905;8192;2906;12;2908;0];
 [2908;0;2908;2048;2909;1040;2911;4352;2913;48;2915;1024;2916;66;2918;32];
 [2919;4096;2920;32769;2922;32834;2925;6144;2927;0;2927;4352;2929;4104;2931;0];
 [2931;32768;2932;0;2932;0;2932;9284;2936;0;2936;128;2937;5;2939;32784];
 [2941;33284;2944;16;2945;9216;2947;528;2949;1;2950;1;2951;512;2952;32768];
 [2953;59402;2959;41088;2962;0;2962;1;2963;32768;2964;8192;2965;8704;2967;32786];
 [2970;5124;2973;34849;2977;32833;2980;1056;2982;32800;2984;8200;2986;0;2986;6148];
 [2989;0;2989;0;2989;0;2989;0;2989;0;2989;0;2989;0;2989;0];
 [2989;4100;2991;64;2992;2;2993;528;2995;16912;2998;16385;3000;24576;3002;20480];
 [3004;8;3005;8;3006;2080;3008;8192;3009;529;3012;16;3013;0;3013;4096];
 [3014;21504;3017;37120;3020;0;3020;0;3020;0;3020;0;3020;0;3020;2048];
 [3021;50;3024;16737;3029;40260;3036;40962;3039;210;3043;0;3043;4;3044;16642];
 [3047;260;3049;128;3050;192;3052;512;3053;48;3055;1033;3058;516;3060;32768];
 [3061;16384;3062;33280;3064;32;3065;3]].

(* lib/converters/hkscs1999.h:2115-2118 hkscs1999_uni2indx_pagef9 (flattened, 2 fields per entry) *)
Definition hkscs1999_uni2indx_pagef9 : tab := mk [
 [3067;128]].

(* lib/converters/hkscs1999.h:2119-2125 hkscs1999_uni2indx_pageff (flattened, 2 fields per entry) *)
Definition hkscs1999_uni2indx_pageff : tab := mk [
 [3068;132;3070;0;3070;0;3070;10240;3072;0;3072;0;3072;0;3072;0];
 [3072;0;3072;0;3072;0;3072;0;3072;0;3072;0;3072;8212]].

(* lib/converters/hkscs1999.h:2126-2857 hkscs1999_uni2indx_page200 (flattened, 2 fields per entry) *)
Definition hkscs1999_uni2indx_page200 : tab := mk [
 [3075;0;3075;0;3075;2;3076;16384;3077;16448;3079;0;3079;256;3080;0];
 [3080;1216;3083;16;3084;0;3084;0;3084;15360;3088;2;3089;16384;3090;0];
 [3090;20480;3092;256;3093;0;3093;0;3093;0;3093;0;3093;0;3093;0];
 [3093;0;3093;0;3093;2560;3095;0;3095;2;3096;16;3097;0;3097;4];
 [3098;4112;3100;16;3101;0;3101;0;3101;0;3101;2048;3102;0;3102;48];
 [3104;0;3104;16896;3106;1;3107;32896;3109;1;3110;0;3110;32;3111;0];
 [3111;1024;3112;0;3112;32;3113;0;3113;226;3117;0;3117;0;3117;49152];
 [3119;1;3120;0;3120;129;3122;32;3123;2560;3125;0;3125;0;3125;4128];
 [3127;0;3127;32792;3130;0;3130;0;3130;0;3130;0;3130;32;3131;0];
 [3131;16512;3133;6;3135;8;3136;0;3136;0;3136;128;3137;0;3137;20480];
 [3139;0;3139;0;3139;0;3139;0;3139;128;3140;0;3140;0;3140;0];
 [3140;16384;3141;0;3141;32;3142;8;3143;1032;3145;32801;3148;2049;3150;0];
 [3150;0;3150;1570;3154;0;3154;1;3155;0;3155;64;3156;0;3156;64];
 [3157;0;3157;0;3157;0;3157;0;3157;0;3157;0;3157;0;3157;0];
 [3157;16384;3158;0;3158;0;3158;2;3159;0;3159;0;3159;0;3159;512];
 [3160;0;3160;0;3160;0;3160;0;3160;0;3160;0;3160;0;3160;0];
 [3160;0;3160;0;3160;4096;3161;0;3161;0;3161;0;3161;0;3161;8];
 [3162;0;3162;0;3162;0;3162;0;3162;0;3162;32;3163;0;3163;0];
 [3163;0;3163;64;3164;8;3165;0;3165;0;3165;16;3166;0;3166;512];
 [3167;0;3167;0;3167;0;3167;0;3167;0;3167;0;3167;128;3168;0];
 [3168;0;3168;2;3169;0;3169;0;3169;0;3169;1;3170;0;3170;0];
 [3170;0;3170;0;3170;0;3170;16;3171;8196;3173;0;3173;0;3173;0];
 [3173;8192;3174;0;3174;0;3174;0;3174;0;3174;0;3174;0;3174;0];
 [3174;32768;3175;0;3175;768;3177;32768;3178;2112;3180;0;3180;2052;3182;34816];
 [3184;10240;3186;0;3186;1;3187;3088;3190;14;3193;8;3194;32;3195;4480];
 [3198;8192;3199;4160;3201;0;3201;288;3203;32768;3204;8312;3209;8192;3210;32768];
 [3211;0;3211;32;3212;256;3213;6;3215;29632;3222;0;3222;32768;3223;53266];
 [3228;0;3228;4160;3230;128;3231;4;3232;256;3233;0;3233;0;3233;0];
 [3233;58896;3239;8259;3243;0;3243;0;3243;4096;3244;0;3244;8192;3245;4072];
 [3253;4096;3254;8512;3257;7172;3261;64;3262;0;3262;8576;3265;0;3265;3840];
 [3269;0;3269;8192;3270;24640;3273;2051;3276;4096;3277;0;3277;16;3278;0];
 [3278;8192;3279;1;3280;8192;3281;4208;3285;0;3285;32768;3286;15360;3290;0];
 [3290;0;3290;24592;3293;0;3293;0;3293;32768;3294;4096;3295;32768;3296;2528];
 [3301;256;3302;8256;3304;0;3304;32784;3306;33667;3312;8;3313;16;3314;112];
 [3317;0;3317;0;3317;32768;3318;10240;3320;33056;3323;0;3323;0;3323;0];
 [3323;129;3325;0;3325;0;3325;0;3325;0;3325;512;3326;0;3326;0];
 [3326;0;3326;0;3326;0;3326;4096;3327;32768;3328;0;3328;0;3328;4096];
 [3329;0;3329;0;3329;768;3331;1;3332;0;3332;0;3332;8;3333;16384];
 [3334;60;3338;0;3338;0;3338;1088;3340;0;3340;0;3340;0;3340;96];
 [3342;16384;3343;4352;3345;0;3345;0;3345;96;3347;0;3347;8192;3348;16384];
 [3349;0;3349;72;3351;16;3352;0;3352;0;3352;52;3355;0;3355;0];
 [3355;1024;3356;128;3357;0;3357;64;3358;0;3358;0;3358;256;3359;8192];
 [3360;0;3360;0;3360;0;3360;0;3360;0;3360;0;3360;0;3360;128];
 [3361;4;3362;64;3363;0;3363;0;3363;0;3363;0;3363;0;3363;0];
 [3363;1024;3364;520;3366;0;3366;16384;3367;0;3367;0;3367;2;3368;0];
 [3368;0;3368;4;3369;0;3369;1280;3371;7;3374;32808;3377;448;3380;23552];
 [3384;8192;3385;1;3386;64;3387;7168;3390;0;3390;128;3391;61440;3395;27];
 [3399;0;3399;0;3399;2048;3400;63;3406;136;3408;40448;3413;32768;3414;8032];
 [3421;0;3421;0;3421;9985;3426;3584;3429;33;3431;16388;3433;30;3437;2176];
 [3439;56;3442;49152;3444;7;3447;49152;3449;0;3449;962;3454;0;3454;1024];
 [3455;56;3458;4135;3463;132;3465;2048;3466;16;3467;256;3468;1024;3469;4096];
 [3470;264;3472;64;3473;0;3473;0;3473;0;3473;2048;3474;0;3474;8];
 [3475;0;3475;0;3475;8192;3476;16;3477;2080;3479;0;3479;0;3479;0];
 [3479;0;3479;0;3479;0;3479;0;3479;0;3479;0;3479;0;3479;0];
 [3479;0;3479;0;3479;0;3479;0;3479;16;3480;0;3480;0;3480;0];
 [3480;0;3480;0;3480;0;3480;0;3480;6;3482;0;3482;0;3482;0];
 [3482;0;3482;0;3482;1024;3483;0;3483;0;3483;0;3483;0;3483;1];
 [3484;0;3484;0;3484;4132;3487;0;3487;0;3487;0;3487;0;3487;0];
 [3487;0;3487;0;3487;0;3487;0;3487;64;3488;0;3488;0;3488;0];
 [3488;0;3488;1;3489;0;3489;1024;3490;1024;3491;2;3492;2048;3493;512];
 [3494;0;3494;4096;3495;0;3495;8320;3497;0;3497;0;3497;0;3497;0];
 [3497;512;3498;0;3498;272;3500;0;3500;256;3501;32;3502;0;3502;0];
 [3502;32768;3503;32;3504;0;3504;0;3504;0;3504;0;3504;1024;3505;0];
 [3505;0;3505;16384;3506;2;3507;0;3507;0;3507;0;3507;256;3508;0];
 [3508;0;3508;0;3508;0;3508;0;3508;544;3510;0;3510;0;3510;0];
 [3510;0;3510;1024;3511;0;3511;0;3511;128;3512;0;3512;0;3512;4096];
 [3513;0;3513;0;3513;1024;3514;0;3514;0;3514;2048;3515;0;3515;1032];
 [3517;0;3517;0;3517;2;3518;0;3518;8;3519;0;3519;0;3519;0];
 [3519;256;3520;0;3520;0;3520;0;3520;0;3520;0;3520;0;3520;4096];
 [3521;0;3521;0;3521;0;3521;0;3521;0;3521;0;3521;0;3521;0];
 [3521;0;3521;0;3521;34;3523;0;3523;0;3523;0;3523;0;3523;0];
 [3523;0;3523;0;3523;0;3523;8192;3524;0;3524;129;3526;0;3526;1024];
 [3527;0;3527;0;3527;0;3527;0;3527;0;3527;0;3527;32;3528;2];
 [3529;2048;3530;2;3531;0;3531;1;3532;0;3532;0;3532;8192;3533;0];
 [3533;0;3533;2056;3535;0;3535;1;3536;0;3536;16;3537;0;3537;0];
 [3537;8192;3538;0;3538;32768;3539;16384;3540;0;3540;0;3540;0;3540;0];
 [3540;0;3540;6144;3542;2048;3543;0;3543;0;3543;0;3543;256;3544;1024];
 [3545;0;3545;320;3547;0;3547;0;3547;0;3547;0;3547;0;3547;112];
 [3550;0;3550;34832;3553;1024;3554;0;3554;0;3554;0;3554;0;3554;32];
 [3555;2;3556;0;3556;0;3556;48;3558;8192;3559;0;3559;0;3559;0];
 [3559;8;3560;0;3560;0;3560;0;3560;0;3560;32768;3561;1;3562;2];
 [3563;0;3563;0;3563;8192;3564;0;3564;2;3565;0;3565;0;3565;128];
 [3566;0;3566;0;3566;64;3567;512;3568;32768;3569;0;3569;2176;3571;0];
 [3571;1;3572;8;3573;0;3573;0;3573;0;3573;0;3573;0;3573;0];
 [3573;0;3573;0;3573;0;3573;0;3573;0;3573;0;3573;64;3574;0];
 [3574;0;3574;0;3574;0;3574;0;3574;32768;3575;32;3576;320;3578;0];
 [3578;16384;3579;0;3579;4;3580;32768;3581;8;3582;0;3582;1024;3583;0];
 [3583;0;3583;0;3583;0;3583;0;3583;17408;3585;0;3585;0;3585;0];
 [3585;0;3585;0;3585;192;3587;256;3588;4096;3589;34;3591;4;3592;0];
 [3592;256;3593;2048;3594;514;3596;132;3598;580;3601;0;3601;0;3601;0];
 [3601;384;3603;4;3604;0;3604;0;3604;4112;3606;0;3606;128;3607;0];
 [3607;8192;3608;32;3609;25;3612;128;3613;0;3613;0;3613;16384;3614;0];
 [3614;8192;3615;0;3615;0;3615;64;3616;4;3617;0;3617;0;3617;256];
 [3618;2048;3619;0;3619;0;3619;8;3620;0;3620;0;3620;32768;3621;0];
 [3621;0;3621;0;3621;0;3621;0;3621;0;3621;0;3621;0;3621;16];
 [3622;0;3622;0;3622;0;3622;0;3622;4096;3623;0;3623;8;3624;0];
 [3624;0;3624;0;3624;0;3624;8;3625;2064;3627;0;3627;64;3628;24576];
 [3630;16384;3631;0;3631;0;3631;4224;3633;0;3633;1024;3634;0;3634;0];
 [3634;8;3635;0;3635;0;3635;8192;3636;0;3636;0;3636;0;3636;8192];
 [3637;4;3638;0;3638;48;3640;8;3641;768;3643;0;3643;0;3643;896];
 [3646;32768;3647;0;3647;32800;3649;30;3653;0;3653;0;3653;4;3654;0];
 [3654;1536;3656;0;3656;14336;3659;0;3659;0;3659;4;3660;3;3662;0];
 [3662;1025;3664;32768;3665;0;3665;0;3665;0;3665;0;3665;0;3665;0];
 [3665;0;3665;0;3665;0;3665;16;3666;4096;3667;16384;3668;64;3669;17456];
 [3673;1;3674;0;3674;0;3674;32768;3675;0;3675;1;3676;32768;3677;4];
 [3678;0;3678;0;3678;0;3678;0;3678;0;3678;0;3678;32;3679;0];
 [3679;0;3679;512;3680;0;3680;1;3681;0;3681;1024;3682;128;3683;0];
 [3683;0;3683;4640;3686;0;3686;0;3686;57344;3689;0;3689;0;3689;8];
 [3690;1;3691;1024;3692;0;3692;4096;3693;1;3694;33280;3696;0;3696;128];
 [3697;0;3697;0;3697;8256;3699;1024;3700;0;3700;32768;3701;16384;3702;0];
 [3702;8;3703;64;3704;40961;3707;32768;3708;0;3708;0;3708;64;3709;0];
 [3709;2;3710;0;3710;4;3711;4096;3712;4;3713;224;3716;0;3716;0];
 [3716;0;3716;0;3716;0;3716;1024;3717;0;3717;0;3717;0;3717;0];
 [3717;0;3717;0;3717;0;3717;0;3717;0;3717;0;3717;0;3717;0];
 [3717;0;3717;0;3717;0;3717;0;3717;0;3717;0;3717;0;3717;0];
 [3717;0;3717;0;3717;0;3717;0;3717;4;3718;0;3718;0;3718;0];
 [3718;0;3718;0;3718;0;3718;0;3718;0;3718;0;3718;0;3718;0];
 [3718;0;3718;0;3718;128;3719;0;3719;0;3719;2048;3720;16384;3721;1024];
 [3722;0;3722;0;3722;0;3722;0;3722;0;3722;1024;3723;0;3723;0];
 [3723;0;3723;0;3723;0;3723;0;3723;0;3723;0;3723;0;3723;0];
 [3723;0;3723;0;3723;0;3723;0;3723;0;3723;0;3723;0;3723;0];
 [3723;0;3723;3584;3726;0;3726;160;3728;896;3731;0;3731;0;3731;61440];
 [3735;0;3735;0;3735;0;3735;0;3735;1;3736;2048;3737;0;3737;16384];
 [3738;32768;3739;0;3739;0;3739;16320;3747;0;3747;0;3747;8;3748;256];
 [3749;0;3749;2;3750;61440;3754;515;3757;0;3757;0;3757;0;3757;0];
 [3757;3840;3761;0;3761;0;3761;33280;3763;0;3763;128;3764;0;3764;8064];
 [3770;0;3770;0;3770;0;3770;32;3771;1026;3773;0;3773;0;3773;32768];
 [3774;32775;3778;0;3778;0;3778;144;3780;33;3782;0;3782;63488;3787;1];
 [3788;0;3788;2;3789;0;3789;15872;3794;0;3794;128;3795;0;3795;0];
 [3795;14368;3799;2;3800;0;3800;0;3800;512;3801;0;3801;2;3802;0];
 [3802;32784;3804;512;3805;0;3805;32768;3806;17;3808;37088;3813;0;3813;1152];
 [3815;0;3815;0;3815;4152;3819;32;3820;8192;3821;0;3821;4;3822;4096];
 [3823;0;3823;2048;3824;0;3824;0;3824;2048;3825;576;3827;0;3827;448];
 [3830;16;3831;40;3833;32;3834;0;3834;1538;3837;0;3837;16384;3838;1024];
 [3839;8192;3840;1024;3841;0;3841;16;3842;256;3843;0;3843;60;3847;0];
 [3847;4096;3848;4160;3850;0;3850;8192;3851;2;3852;0;3852;1536;3854;260];
 [3856;16;3857;0;3857;0;3857;96;3859;0;3859;3072;3861;0;3861;8];
 [3862;384;3864;0;3864;0;3864;4608;3866;16384;3867;72;3869;0;3869;0];
 [3869;0;3869;0;3869;2;3870;0;3870;0;3870;0;3870;0;3870;256];
 [3871;0;3871;0;3871;0;3871;0;3871;256;3872;0;3872;0;3872;0];
 [3872;0;3872;256;3873;1024;3874;0;3874;0;3874;0;3874;32;3875;16];
 [3876;0;3876;128;3877;0;3877;0;3877;0;3877;16;3878;0;3878;0];
 [3878;64;3879;0;3879;32800;3881;0;3881;0;3881;0;3881;0;3881;0];
 [3881;32768;3882;0;3882;0;3882;0;3882;0;3882;0;3882;1;3883;0];
 [3883;0;3883;4;3884;8;3885;0;3885;0;3885;0;3885;0;3885;0];
 [3885;4;3886;0;3886;0;3886;0;3886;0;3886;0;3886;512;3887;34831];
 [3893;4099;3896;704;3899;32768;3900;49176;3904;15;3908;0;3908;12;3910;32880];
 [3914;65284;3923;16;3924;14992;3930;3968;3935;32;3936;50177;3940;12328;3944;3008];
 [3949;16384;3950;36;3952;2046;3962;16384;3963;50212;3968;8195;3971;224;3974;1922];
 [3979;4096;3980;120;3984;240;3988;7182;3994;1153;3997;32770;3999;516;4001;0];
 [4001;0;4001;0;4001;0;4001;0;4001;0;4001;0;4001;16384;4002;0];
 [4002;0;4002;0;4002;0;4002;0;4002;0;4002;0;4002;0;4002;32];
 [4003;512;4004;0;4004;0;4004;0;4004;0;4004;0;4004;0;4004;0];
 [4004;0;4004;49152;4006;0;4006;0;4006;512;4007;512;4008;0;4008;0];
 [4008;64;4009;8;4010;0;4010;0;4010;0;4010;0;4010;0;4010;0];
 [4010;0;4010;0;4010;0;4010;256;4011;0;4011;0;4011;3072;4013;0];
 [4013;0;4013;0;4013;0;4013;2048;4014;0;4014;1;4015;0;4015;0];
 [4015;0;4015;0;4015;160;4017;0;4017;0;4017;0;4017;0;4017;0];
 [4017;16384;4018;0;4018;0;4018;0;4018;0;4018;4096;4019;0;4019;0];
 [4019;68;4021;1152;4023;512;4024;256;4025;4;4026;0;4026;0;4026;0];
 [4026;0;4026;0;4026;4096;4027;0;4027;0;4027;4;4028;0;4028;0];
 [4028;0;4028;8192;4029;0;4029;0;4029;0;4029;0;4029;0;4029;0];
 [4029;0;4029;0;4029;2048;4030;0;4030;256;4031;0;4031;0;4031;24576];
 [4033;0;4033;0;4033;0;4033;0;4033;0;4033;0;4033;200;4036;0];
 [4036;0;4036;0;4036;3;4038;0;4038;0;4038;1;4039;0;4039;0];
 [4039;0;4039;512;4040;0;4040;0;4040;128;4041;256;4042;0;4042;0];
 [4042;16384;4043;10;4045;0;4045;0;4045;0;4045;0;4045;0;4045;0];
 [4045;0;4045;0;4045;0;4045;0;4045;0;4045;0;4045;0;4045;0];
 [4045;0;4045;512;4046;32800;4048;1;4049;64;4050;0;4050;20480;4052;0];
 [4052;0;4052;0;4052;0;4052;0;4052;0;4052;0;4052;0;4052;0];
 [4052;0;4052;0;4052;0;4052;32802;4055;0;4055;30720;4059;100;4062;0];
 [4062;32786;4065;0;4065;0;4065;512;4066;0;4066;2080;4068;1;4069;0];
 [4069;32;4070;0;4070;0;4070;32;4071;0;4071;2;4072;0;4072;0];
 [4072;8;4073;0;4073;0;4073;0;4073;0;4073;0;4073;8;4074;64];
 [4075;64;4076;8192;4077;32;4078;8192;4079;0;4079;0;4079;0;4079;4];
 [4080;0;4080;0;4080;0;4080;0;4080;128;4081;32768;4082;3;4084;0];
 [4084;0;4084;0;4084;0;4084;0;4084;0;4084;8320;4086;0;4086;4];
 [4087;0;4087;0;4087;0;4087;0;4087;256;4088;0;4088;2;4089;0];
 [4089;8;4090;0;4090;0;4090;0;4090;64;4091;64;4092;0;4092;0];
 [4092;0;4092;0;4092;4096;4093;0;4093;4096;4094;0;4094;0;4094;0];
 [4094;0;4094;0;4094;0;4094;0;4094;0;4094;0;4094;0;4094;0];
 [4094;0;4094;4128;4096;49152;4098;0;4098;0;4098;0;4098;512;4099;0];
 [4099;0;4099;0;4099;0;4099;0;4099;0;4099;0;4099;0;4099;16];
 [4100;512;4101;0;4101;0;4101;24;4103;64;4104;0;4104;272;4106;0];
 [4106;66;4108;0;4108;2;4109;0;4109;1024;4110;0;4110;32;4111;0];
 [4111;0;4111;2;4112;0;4112;0;4112;3;4114;0;4114;0;4114;16384];
 [4115;0;4115;0;4115;1;4116;0;4116;8;4117;0;4117;0;4117;0];
 [4117;0;4117;0;4117;0;4117;0;4117;0;4117;0;4117;0;4117;0];
 [4117;16384;4118;0;4118;0;4118;0;4118;512;4119;0;4119;0;4119;0];
 [4119;14;4122;0;4122;64;4123;4096;4124;0;4124;384;4126;0;4126;0];
 [4126;0;4126;1024;4127;0;4127;0;4127;2048;4128;0;4128;0;4128;0];
 [4128;0;4128;0;4128;0;4128;0;4128;0;4128;0;4128;6;4130;0];
 [4130;0;4130;0;4130;512;4131;0;4131;256;4132;0;4132;16;4133;0];
 [4133;8;4134;128;4135;48;4137;0;4137;0;4137;0;4137;0;4137;0];
 [4137;4;4138;0;4138;2;4139;0;4139;0;4139;7680;4143;0;4143;0];
 [4143;0;4143;0;4143;24576;4145;4;4146;0;4146;8192;4147;0;4147;0];
 [4147;0;4147;0;4147;0;4147;0;4147;0;4147;256;4148;3074;4151;0];
 [4151;0;4151;0;4151;0;4151;0;4151;0;4151;1;4152;0;4152;0];
 [4152;0;4152;0;4152;0;4152;32;4153;6144;4155;2;4156;0;4156;0];
 [4156;0;4156;0;4156;0;4156;16384;4157;0;4157;0;4157;0;4157;288];
 [4159;4;4160;7;4163;0;4163;0;4163;1024;4164;0;4164;512;4165;0];
 [4165;8976;4169;256;4170;0;4170;0;4170;0;4170;0;4170;0;4170;0];
 [4170;0;4170;4;4171;0;4171;0;4171;0;4171;0;4171;0;4171;4];
 [4172;0;4172;0;4172;8193;4174;32768;4175;0;4175;0;4175;0;4175;0];
 [4175;0;4175;4;4176;64;4177;0;4177;0;4177;0;4177;0;4177;0];
 [4177;0;4177;0;4177;32768;4178;34;4180;0;4180;1024;4181;256;4182;4096];
 [4183;0;4183;64;4184;0;4184;0;4184;2;4185;0;4185;0;4185;0];
 [4185;0;4185;512;4186;0;4186;24;4188;4096;4189;0;4189;0;4189;0];
 [4189;0;4189;4096;4190;0;4190;0;4190;64;4191;16384;4192;16384;4193;0];
 [4193;1280;4195;8;4196;0;4196;0;4196;128;4197;0;4197;0;4197;0];
 [4197;16384;4198;2;4199;64;4200;512;4201;0;4201;2;4202;0;4202;0];
 [4202;0;4202;0;4202;256;4203;32;4204;0;4204;0;4204;0;4204;1028];
 [4206;0;4206;0;4206;24576;4208;16;4209;4;4210;6;4212;0;4212;0];
 [4212;0;4212;0;4212;0;4212;0;4212;0;4212;0;4212;0;4212;0];
 [4212;1056;4214;8;4215;256;4216;0;4216;0;4216;2063;4221;0;4221;32];
 [4222;4;4223;8384;4226;0;4226;8;4227;1;4228;0;4228;0;4228;128];
 [4229;0;4229;0;4229;2;4230;0;4230;1;4231;0;4231;0;4231;49152];
 [4233;7;4236;0;4236;16;4237;8576;4240;9;4242;2;4243;0;4243;0];
 [4243;0;4243;0;4243;2044;4252;0;4252;0;4252;2;4253;0;4253;0];
 [4253;0;4253;0;4253;16639;4262;0;4262;0;4262;4096;4263;3072;4265;1];
 [4266;161;4269;4;4270;0;4270;0;4270;60;4274;0;4274;16384;4275;132];
 [4277;16;4278;512;4279;0;4279;0;4279;0;4279;255;4287;0;4287;0];
 [4287;0;4287;0;4287;64;4288;0;4288;0;4288;0;4288;0;4288;24];
 [4290;0;4290;32768;4291;2;4292;0;4292;0;4292;49152;4294;0;4294;0];
 [4294;16384;4295;0;4295;0;4295;0;4295;2048;4296;12;4298;0;4298;0];
 [4298;256;4299;0;4299;57344;4302;0;4302;8192;4303;0;4303;0;4303;256];
 [4304;4608;4306;0;4306;192;4308;0;4308;0;4308;0;4308;48;4310;32];
 [4311;0;4311;0;4311;0;4311;0;4311;8192;4312;0;4312;0;4312;0];
 [4312;0;4312;2048;4313;0;4313;0;4313;0;4313;0;4313;0;4313;0];
 [4313;2081;4316;0;4316;0;4316;68;4318;0;4318;0;4318;64;4319;0];
 [4319;0;4319;0;4319;0;4319;0;4319;0;4319;0;4319;0;4319;0];
 [4319;0;4319;1024;4320;0;4320;0;4320;0;4320;0;4320;0;4320;0];
 [4320;0;4320;0;4320;4;4321;0;4321;0;4321;1;4322;0;4322;0];
 [4322;80;4324;0;4324;0;4324;0;4324;0;4324;0;4324;0;4324;0];
 [4324;0;4324;0;4324;0;4324;0;4324;0;4324;0;4324;0;4324;16];
 [4325;0;4325;0;4325;8;4326;0;4326;0;4326;0;4326;17;4328;24576];
 [4330;4224;4332;0;4332;0;4332;516;4334;0;4334;224;4337;0;4337;0];
 [4337;0;4337;16;4338;0;4338;0;4338;0;4338;0;4338;0;4338;0];
 [4338;32768;4339;0;4339;0;4339;96;4341;2;4342;16384;4343;0;4343;0];
 [4343;48;4345;0;4345;0;4345;0;4345;4096;4346;0;4346;0;4346;0];
 [4346;0;4346;0;4346;0;4346;0;4346;0;4346;256;4347;0;4347;1];
 [4348;0;4348;8192;4349;0;4349;4;4350;256;4351;0;4351;0;4351;0];
 [4351;0;4351;0;4351;16;4352;0;4352;0;4352;0;4352;128;4353;1024];
 [4354;0;4354;0;4354;1;4355;0;4355;0;4355;8192;4356;0;4356;8192];
 [4357;17408;4359;0;4359;0;4359;16384;4360;0;4360;520;4362;0;4362;512];
 [4363;16;4364;0;4364;0;4364;24576;4366;0;4366;0;4366;0;4366;16];
 [4367;2112;4369;256;4370;0;4370;1792;4373;256;4374;0;4374;0;4374;0];
 [4374;0;4374;0;4374;0;4374;0;4374;0;4374;0;4374;0;4374;16];
 [4375;0;4375;4;4376;0;4376;0;4376;0;4376;0;4376;0;4376;0];
 [4376;0;4376;0;4376;0;4376;0;4376;0;4376;0;4376;0;4376;0];
 [4376;0;4376;0;4376;32768;4377;0;4377;0;4377;24;4379;64;4380;8];
 [4381;32784;4383;256;4384;0;4384;8192;4385;0;4385;4096;4386;0;4386;0];
 [4386;0;4386;0;4386;0;4386;0;4386;40960;4388;0;4388;0;4388;0];
 [4388;0;4388;0;4388;0;4388;0;4388;0;4388;0;4388;0;4388;0];
 [4388;0;4388;0;4388;16384;4389;0;4389;0;4389;0;4389;0;4389;0];
 [4389;0;4389;0;4389;0;4389;0;4389;0;4389;0;4389;0;4389;512];
 [4390;516;4392;16384;4393;24;4395;0;4395;256;4396;0;4396;0;4396;0];
 [4396;8;4397;1;4398;0;4398;24576;4400;0;4400;0;4400;768;4402;16];
 [4403;0;4403;0;4403;16384;4404;0;4404;32768;4405;8192;4406;32768;4407;0];
 [4407;512;4408;0;4408;32768;4409;4096;4410;0;4410;0;4410;0;4410;0];
 [4410;128;4411;1280;4413;0;4413;0;4413;0;4413;64;4414;0;4414;4096];
 [4415;0;4415;2048;4416;0;4416;0;4416;8192;4417;0;4417;4;4418;0];
 [4418;64;4419;256;4420;32768;4421;1024;4422;0;4422;0;4422;8224;4424;8192];
 [4425;1024;4426;0;4426;0;4426;0;4426;0;4426;0;4426;0;4426;0];
 [4426;0;4426;4;4427;0;4427;0;4427;0;4427;0;4427;4352;4429;8];
 [4430;4;4431;0;4431;0;4431;0;4431;0;4431;0;4431;0;4431;0];
 [4431;2;4432;0;4432;0;4432;12288;4434;0;4434;0;4434;4096;4435;0];
 [4435;0;4435;0;4435;0;4435;0;4435;0;4435;0;4435;256;4436;16];
 [4437;2049;4439;0;4439;32;4440;2048;4441;0;4441;0;4441;0;4441;0];
 [4441;0;4441;0;4441;3072;4443;4096;4444;0;4444;256;4445;64;4446;0];
 [4446;0;4446;8;4447;0;4447;0;4447;0;4447;0;4447;0;4447;0];
 [4447;0;4447;0;4447;0;4447;0;4447;0;4447;0;4447;0;4447;0];
 [4447;16;4448;0;4448;2048;4449;0;4449;0;4449;0;4449;0;4449;0];
 [4449;0;4449;0;4449;0;4449;0;4449;0;4449;0;4449;0;4449;0];
 [4449;0;4449;0;4449;0;4449;8;4450;768;4452;64;4453;4368;4456;16384];
 [4457;512;4458;0;4458;3328;4461;4352;4463;1;4464;20480;4466;402;4470;7680];
 [4474;32768;4475;64;4476;544;4478;64;4479;4080;4487;1536;4489;0;4489;0];
 [4489;14;4492;7168;4495;0;4495;0;4495;22593;4500;49152;4502;47;4507;4096];
 [4508;4096;4509;8;4510;47110;4516;0;4516;20544;4519;1;4520;4216;4525;0];
 [4525;32768;4526;12800;4529;0;4529;0;4529;36;4531;1680;4535;8064;4541;32800];
 [4543;520;4545;12288;4547;2120;4550;2561;4553;0;4553;0;4553;0;4553;0];
 [4553;0;4553;0;4553;0;4553;0;4553;9216;4555;4;4556;0;4556;0];
 [4556;0;4556;0;4556;0;4556;16;4557;0;4557;0;4557;0;4557;0];
 [4557;0;4557;512;4558;0;4558;0;4558;0;4558;0;4558;0;4558;0];
 [4558;32768;4559;0;4559;0;4559;576;4561;0;4561;0;4561;96;4563;0];
 [4563;0;4563;128;4564;4096;4565;12;4567;0;4567;512;4568;128;4569;0];
 [4569;0;4569;0;4569;0;4569;0;4569;0;4569;0;4569;0;4569;0];
 [4569;0;4569;0;4569;0;4569;0;4569;32;4570;0;4570;0;4570;0];
 [4570;0;4570;0;4570;0;4570;0;4570;0;4570;0;4570;0;4570;0];
 [4570;2304;4572;8;4573;32768;4574;3;4576;1;4577;0;4577;12336;4581;0];
 [4581;8192;4582;1;4583;0;4583;4096;4584;8192;4585;18432;4587;0;4587;1];
 [4588;0;4588;4096;4589;256;4590;0;4590;0;4590;32;4591;2048]].

(* lib/converters/hkscs1999.h:2858-2869 hkscs1999_uni2indx_page294 (flattened, 2 fields per entry) *)
Definition hkscs1999_uni2indx_page294 : tab := mk [
 [4592;0;4592;8192;4593;1;4594;32776;4596;256;4597;0;4597;0;4597;0];
 [4597;0;4597;0;4597;0;4597;0;4597;0;4597;1537;4600;160;4602;0];
 [4602;0;4602;0;4602;0;4602;0;4602;0;4602;0;4602;0;4602;0];
 [4602;0;4602;16384;4603;0;4603;257;4605;0;4605;128;4606;512;4607;16]].

(* lib/converters/hkscs1999.h:2870-2950 hkscs1999_uni2indx_page297 (flattened, 2 fields per entry) *)
Definition hkscs1999_uni2indx_page297 : tab := mk [
 [4608;0;4608;0;4608;1;4609;4;4610;0;4610;0;4610;0;4610;0];
 [4610;0;4610;0;4610;0;4610;0;4610;0;4610;16;4611;0;4611;0];
 [4611;0;4611;1;4612;0;4612;0;4612;0;4612;128;4613;0;4613;0];
 [4613;0;4613;0;4613;16;4614;0;4614;0;4614;2;4615;1024;4616;2];
 [4617;40;4619;0;4619;32768;4620;0;4620;768;4622;8192;4623;1024;4624;0];
 [4624;0;4624;8192;4625;0;4625;0;4625;520;4627;0;4627;0;4627;0];
 [4627;0;4627;0;4627;256;4628;0;4628;8192;4629;0;4629;0;4629;0];
 [4629;0;4629;0;4629;0;4629;0;4629;0;4629;0;4629;0;4629;0];
 [4629;16416;4631;0;4631;0;4631;0;4631;0;4631;0;4631;0;4631;0];
 [4631;0;4631;0;4631;0;4631;0;4631;0;4631;32;4632;0;4632;0];
 [4632;0;4632;0;4632;0;4632;0;4632;0;4632;0;4632;0;4632;0];
 [4632;0;4632;0;4632;8192;4633;0;4633;0;4633;0;4633;0;4633;0];
 [4633;0;4633;0;4633;0;4633;16384;4634;0;4634;1024;4635;0;4635;4096];
 [4636;0;4636;2304;4638;0;4638;0;4638;0;4638;0;4638;0;4638;64];
 [4639;64;4640;0;4640;8192;4641;0;4641;0;4641;0;4641;256;4642;0];
 [4642;0;4642;0;4642;4096;4643;0;4643;8;4644;0;4644;0;4644;256];
 [4645;0;4645;0;4645;8;4646;1;4647;0;4647;0;4647;0;4647;0];
 [4647;0;4647;0;4647;0;4647;128;4648;0;4648;16384;4649;0;4649;0];
 [4649;0;4649;16;4650;0;4650;0;4650;0;4650;0;4650;0;4650;0];
 [4650;128;4651;0;4651;0;4651;512;4652;0;4652;0;4652;8194;4654;16648];
 [4657;0;4657;0;4657;8;4658;24;4660;0;4660;1;4661;0;4661;0];
 [4661;0;4661;12;4663;2048;4664;16;4665;0;4665;32768;4666;0;4666;32];
 [4667;0;4667;0;4667;1;4668;8;4669;0;4669;0;4669;0;4669;0];
 [4669;0;4669;32776;4671;0;4671;8276;4675;0;4675;32768;4676;0;4676;32768];
 [4677;0;4677;0;4677;0;4677;0;4677;0;4677;0;4677;0;4677;0];
 [4677;0;4677;0;4677;512;4678;0;4678;0;4678;0;4678;0;4678;0];
 [4678;0;4678;0;4678;0;4678;16;4679;0;4679;2048;4680;0;4680;0];
 [4680;0;4680;0;4680;0;4680;0;4680;0;4680;0;4680;0;4680;0];
 [4680;0;4680;0;4680;0;4680;0;4680;0;4680;0;4680;0;4680;0];
 [4680;0;4680;0;4680;0;4680;0;4680;2112;4682;0;4682;0;4682;0];
 [4682;2;4683;0;4683;0;4683;4;4684;1024;4685;2048;4686;0;4686;0];
 [4686;0;4686;0;4686;512]].

(* lib/converters/hkscs1999.h:2951-2962 hkscs1999_uni2indx_page2f8 (flattened, 2 fields per entry) *)
Definition hkscs1999_uni2indx_page2f8 : tab := mk [
 [4687;0;4687;0;4687;32;4688;2048;4689;1;4690;0;4690;0;4690;256];
 [4691;0;4691;16;4692;64;4693;0;4693;8192;4694;0;4694;0;4694;0];
 [4694;0;4694;0;4694;0;4694;0;4694;0;4694;0;4694;0;4694;0];
 [4694;0;4694;16;4695;0;4695;4100;4697;0;4697;16]].

(* lib/converters/hkscs2001.h:30-48 hkscs2001_2uni_page8c *)
Definition hkscs2001_2uni_page8c : tab := mk [
 [2619;7422;21107;14246;713;11663;16718;7543;4853;1568;17869;89;18480;5666;20274;12455];
 [12790;7825;6169;8378;16001;21255;395;14976;1552;9444;8450;2990;19727;1033;6755;21690];
 [1315;11279;14589;9514;20807;20458;13397;7501;3108;15486;13300;8921;20195;14247;9181;2211];
 [2544;2748;2095;2327;14248;3380;10379;3986;4048;15286;5266;5273;5570;15634;6027;16377];
 [6425;6723;16483;7167;14589;7936;16901;8332;987;17427;4373;8633;11907;18340;18069;9619];
 [9964;10179;10604;11000;11159;14249;11664;14250;12217;14251;12495;11103;14048;12833;14252;20665];
 [14655;1137;1442;4122;14589;14589;14589;13672;6251;1398;3645;14589;11222;17275;10943;19469];
 [1921;19060;4987;18709;19390;14253;14254;4502;14255;14589;10587]].

(* lib/converters/hkscs2001.h:50-62 hkscs2001_2uni_upages *)
Definition hkscs2001_2uni_upages : tab := mk [
 [13568;15360;15616;15872;16384;16896;19200;19456;19968;20224;20480;20736;21248;21504;22272;22528];
 [23040;23296;23552;23808;24064;24320;24832;25856;26368;26880;27136;27648;27904;28672;28928;29184];
 [29440;29696;30208;30464;30720;31232;31488;31744;32000;32256;33280;34048;34304;34816;35584;36352];
 [36608;37120;37376;37632;38656;38912;39168;40704;65280;136192;137472;138496;139264;141056;143872;144128];
 [146432;147712;148736;149760;150016;151808;153088;154624;154880;158464;158976;159488;160000;165632;166144;166400];
 [167168;170240;171008;172288;172544]].

(* lib/converters/hkscs2001.h:94-110 hkscs2001_2charset *)
Definition hkscs2001_2charset : tab := mk [
 [35915;35926;35908;36010;35933;36035;35936;36043;36036;35928;35913;36050;35954;35951;35955;35952];
 [35904;35953;35931;35944;35957;36044;35959;35960;36037;36012;36057;35912;36052;35962;35963;35964];
 [35917;35966;35922;36042;36002;36003;35934;36005;35905;35943;35911;35921;36007;36009;35923;35930];
 [36013;35947;35950;35929;35939;36017;36018;36019;35958;36060;36020;36048;36021;36029;36022;36046];
 [35937;35909;36024;36014;36026;35919;36028;35920;36031;35946;35942;36041;36030;35907;35949;35956];
 [36023;36025;36027;36032;36055;36056;36058;36034;35927;35961;35945;35965;35924;36001;36004;35910];
 [36008;36047;36011;35914;36016;36015;35916;36053;36051;36054;36049;35932;35948;35918;35941;36033];
 [35940;35906;35925;35935]].

(* lib/converters/hkscs2001.h:112-116 hkscs2001_uni2indx_page35 (flattened, 2 fields per entry) *)
Definition hkscs2001_uni2indx_page35 : tab := mk [
 [0;0;0;0;0;0;0;0;0;0;0;512]].

(* lib/converters/hkscs2001.h:117-133 hkscs2001_uni2indx_page3c (flattened, 2 fields per entry) *)
Definition hkscs2001_uni2indx_page3c : tab := mk [
 [1;0;1;0;1;0;1;0;1;0;1;0;1;0;1;0];
 [1;2048;2;0;2;0;2;0;2;0;2;0;2;0;2;0];
 [2;0;2;0;2;0;2;0;2;0;2;0;2;0;2;0];
 [2;0;2;0;2;0;2;0;2;512;3;0;3;0;3;0];
 [3;0;3;0;3;0;3;0;3;0;3;0;3;0;3;0];
 [3;0;3;0;3;0;3;0;3;0;3;2048]].

(* lib/converters/hkscs2001.h:134-138 hkscs2001_uni2indx_page40 (flattened, 2 fields per entry) *)
Definition hkscs2001_uni2indx_page40 : tab := mk [
 [4;512;5;0;5;0;5;0;5;0;5;0;5;0;5;2]].

(* lib/converters/hkscs2001.h:139-144 hkscs2001_uni2indx_page42 (flattened, 2 fields per entry) *)
Definition hkscs2001_uni2indx_page42 : tab := mk [
 [6;0;6;0;6;8;7;0;7;0;7;0;7;0;7;64];
 [8;0;8;0;8;4]].

(* lib/converters/hkscs2001.h:145-155 hkscs2001_uni2indx_page4b (flattened, 2 fields per entry) *)
Definition hkscs2001_uni2indx_page4b : tab := mk [
 [9;0;9;1;10;1;11;0;11;0;11;0;11;0;11;0];
 [11;0;11;0;11;0;11;0;11;0;11;0;11;0;11;0];
 [11;0;11;0;11;0;11;0;11;0;11;0;11;0;11;0];
 [11;2]].

(* lib/converters/hkscs2001.h:156-176 hkscs2001_uni2indx_page4e (flattened, 2 fields per entry) *)
Definition hkscs2001_uni2indx_page4e : tab := mk [
 [12;0;12;0;12;32768;13;0;13;0;13;0;13;0;13;0];
 [13;0;13;0;13;8;14;0;14;0;14;0;14;0;14;0];
 [14;0;14;128;15;0;15;0;15;0;15;0;15;0;15;0];
 [15;0;15;0;15;0;15;0;15;0;15;0;15;0;15;1];
 [16;0;16;0;16;0;16;2048;17;0;17;0;17;0;17;0];
 [17;0;17;0;17;0;17;4096;18;0;18;0;18;0;18;0];
 [18;0;18;0;18;0;18;0;18;0;18;0;18;0;18;0];
 [18;0;18;0;18;16384]].

(* lib/converters/hkscs2001.h:177-185 hkscs2001_uni2indx_page53 (flattened, 2 fields per entry) *)
Definition hkscs2001_uni2indx_page53 : tab := mk [
 [19;0;19;0;19;16;20;0;20;0;20;0;20;0;20;0];
 [20;0;20;0;20;0;20;0;20;0;20;0;20;0;20;0];
 [20;0;20;0;20;0;20;16]].

(* lib/converters/hkscs2001.h:186-197 hkscs2001_uni2indx_page57 (flattened, 2 fields per entry) *)
Definition hkscs2001_uni2indx_page57 : tab := mk [
 [21;0;21;0;21;0;21;8192;22;0;22;0;22;0;22;0];
 [22;0;22;0;22;0;22;0;22;0;22;0;22;0;22;0];
 [22;0;22;0;22;0;22;0;22;0;22;0;22;0;22;0];
 [22;0;22;4;23;0;23;0;23;0;23;1]].

(* lib/converters/hkscs2001.h:198-229 hkscs2001_uni2indx_page5a (flattened, 2 fields per entry) *)
Definition hkscs2001_uni2indx_page5a : tab := mk [
 [24;0;24;1024;25;0;25;0;25;0;25;0;25;0;25;0];
 [25;0;25;0;25;0;25;0;25;0;25;0;25;0;25;0];
 [25;0;25;32;26;0;26;0;26;0;26;0;26;0;26;0];
 [26;0;26;64;27;0;27;0;27;0;27;0;27;0;27;0];
 [27;0;27;0;27;0;27;0;27;0;27;0;27;0;27;0];
 [27;0;27;0;27;0;27;0;27;0;27;0;27;0;27;32];
 [28;0;28;0;28;0;28;0;28;0;28;0;28;0;28;2048];
 [29;0;29;0;29;0;29;0;29;0;29;0;29;0;29;0];
 [29;0;29;0;29;0;29;0;29;0;29;0;29;0;29;0];
 [29;0;29;516;31;0;31;0;31;0;31;0;31;0;31;0];
 [31;0;31;0;31;0;31;0;31;0;31;0;31;0;31;0];
 [31;0;31;0;31;0;31;0;31;4]].

(* lib/converters/hkscs2001.h:230-233 hkscs2001_uni2indx_page61 (flattened, 2 fields per entry) *)
Definition hkscs2001_uni2indx_page61 : tab := mk [
 [32;0;32;0;32;4]].

(* lib/converters/hkscs2001.h:234-239 hkscs2001_uni2indx_page65 (flattened, 2 fields per entry) *)
Definition hkscs2001_uni2indx_page65 : tab := mk [
 [33;0;33;0;33;0;33;0;33;0;33;0;33;0;33;0];
 [33;2048]].

(* lib/converters/hkscs2001.h:240-244 hkscs2001_uni2indx_page67 (flattened, 2 fields per entry) *)
Definition hkscs2001_uni2indx_page67 : tab := mk [
 [34;0;34;512;35;0;35;0;35;0;35;0;35;2048]].

(* lib/converters/hkscs2001.h:245-254 hkscs2001_uni2indx_page69 (flattened, 2 fields per entry) *)
Definition hkscs2001_uni2indx_page69 : tab := mk [
 [36;0;36;512;37;0;37;0;37;0;37;0;37;0;37;0];
 [37;0;37;0;37;0;37;0;37;0;37;0;37;0;37;0];
 [37;0;37;0;37;0;37;0;37;8;38;0;38;8]].

(* lib/converters/hkscs2001.h:255-266 hkscs2001_uni2indx_page6c (flattened, 2 fields per entry) *)
Definition hkscs2001_uni2indx_page6c : tab := mk [
 [39;0;39;0;39;0;39;0;39;0;39;0;39;0;39;0];
 [39;0;39;0;39;0;39;0;39;0;39;0;39;0;39;32768];
 [40;0;40;0;40;0;40;0;40;0;40;0;40;0;40;0];
 [40;0;40;0;40;0;40;0;40;0;40;0;40;0;40;16384]].

(* lib/converters/hkscs2001.h:267-292 hkscs2001_uni2indx_page70 (flattened, 2 fields per entry) *)
Definition hkscs2001_uni2indx_page70 : tab := mk [
 [41;0;41;0;41;0;41;0;41;8192;42;0;42;0;42;128];
 [43;0;43;0;43;0;43;0;43;0;43;0;43;0;43;0];
 [43;0;43;0;43;0;43;0;43;0;43;0;43;0;43;0];
 [43;0;43;2;44;0;44;0;44;0;44;0;44;0;44;0];
 [44;1;45;0;45;0;45;0;45;0;45;0;45;0;45;0];
 [45;0;45;0;45;0;45;0;45;0;45;0;45;0;45;0];
 [45;0;45;0;45;0;45;0;45;0;45;0;45;0;45;0];
 [45;4096;46;0;46;0;46;1024;47;0;47;0;47;0;47;0];
 [47;4;48;0;48;0;48;0;48;0;48;0;48;0;48;0];
 [48;0;48;0;48;0;48;512]].

(* lib/converters/hkscs2001.h:293-309 hkscs2001_uni2indx_page76 (flattened, 2 fields per entry) *)
Definition hkscs2001_uni2indx_page76 : tab := mk [
 [49;0;49;0;49;0;49;0;49;0;49;0;49;0;49;0];
 [49;0;49;0;49;0;49;0;49;0;49;512;50;0;50;0];
 [50;0;50;0;50;0;50;0;50;0;50;0;50;0;50;0];
 [50;0;50;0;50;0;50;0;50;0;50;8192;51;0;51;0];
 [51;0;51;0;51;0;51;0;51;0;51;0;51;0;51;0];
 [51;0;51;0;51;0;51;0;51;0;51;0;51;16]].

(* lib/converters/hkscs2001.h:310-334 hkscs2001_uni2indx_page7a (flattened, 2 fields per entry) *)
Definition hkscs2001_uni2indx_page7a : tab := mk [
 [52;0;52;0;52;1024;53;0;53;0;53;0;53;0;53;0];
 [53;0;53;8;54;0;54;0;54;0;54;0;54;0;54;0];
 [54;0;54;0;54;0;54;0;54;0;54;0;54;0;54;0];
 [54;0;54;0;54;0;54;0;54;0;54;0;54;4096;55;0];
 [55;0;55;0;55;0;55;0;55;0;55;0;55;0;55;0];
 [55;0;55;0;55;0;55;0;55;8;56;0;56;0;56;0];
 [56;0;56;0;56;0;56;0;56;0;56;0;56;0;56;0];
 [56;2048;57;0;57;0;57;0;57;0;57;0;57;0;57;0];
 [57;0;57;0;57;0;57;0;57;0;57;2048;58;4096]].

(* lib/converters/hkscs2001.h:335-341 hkscs2001_uni2indx_page82 (flattened, 2 fields per entry) *)
Definition hkscs2001_uni2indx_page82 : tab := mk [
 [59;0;59;0;59;0;59;0;59;0;59;0;59;0;59;0];
 [59;0;59;0;59;0;59;32768;60;0;60;0;60;0;60;256]].

(* lib/converters/hkscs2001.h:342-350 hkscs2001_uni2indx_page85 (flattened, 2 fields per entry) *)
Definition hkscs2001_uni2indx_page85 : tab := mk [
 [61;0;61;0;61;0;61;0;61;0;61;32768;62;0;62;0];
 [62;0;62;128;63;0;63;0;63;0;63;64;64;0;64;0];
 [64;32768]].

(* lib/converters/hkscs2001.h:351-356 hkscs2001_uni2indx_page88 (flattened, 2 fields per entry) *)
Definition hkscs2001_uni2indx_page88 : tab := mk [
 [65;0;65;0;65;0;65;0;65;0;65;0;65;0;65;0];
 [65;32768;66;1]].

(* lib/converters/hkscs2001.h:357-362 hkscs2001_uni2indx_page8b (flattened, 2 fields per entry) *)
Definition hkscs2001_uni2indx_page8b : tab := mk [
 [67;0;67;0;67;0;67;0;67;0;67;0;67;0;67;0];
 [67;8]].

(* lib/converters/hkscs2001.h:363-374 hkscs2001_uni2indx_page8e (flattened, 2 fields per entry) *)
Definition hkscs2001_uni2indx_page8e : tab := mk [
 [68;0;68;0;68;0;68;0;68;0;68;0;68;0;68;0];
 [68;0;68;0;68;0;68;512;69;0;69;0;69;0;69;0];
 [69;0;69;0;69;0;69;0;69;0;69;0;69;0;69;0];
 [69;0;69;0;69;128;70;0;70;32768]].

(* lib/converters/hkscs2001.h:375-391 hkscs2001_uni2indx_page91 (flattened, 2 fields per entry) *)
Definition hkscs2001_uni2indx_page91 : tab := mk [
 [71;0;71;0;71;0;71;0;71;0;71;0;71;0;71;0];
 [71;0;71;0;71;0;71;0;71;0;71;0;71;0;71;64];
 [72;0;72;0;72;2;73;0;73;0;73;0;73;0;73;0];
 [73;0;73;0;73;0;73;0;73;0;73;0;73;0;73;0];
 [73;0;73;0;73;0;73;0;73;0;73;0;73;0;73;0];
 [73;0;73;0;73;0;73;0;73;0;73;0;73;0;73;16]].

(* lib/converters/hkscs2001.h:392-408 hkscs2001_uni2indx_page97 (flattened, 2 fields per entry) *)
Definition hkscs2001_uni2indx_page97 : tab := mk [
 [74;0;74;0;74;0;74;0;74;0;74;32;75;0;75;0];
 [75;0;75;0;75;0;75;0;75;0;75;0;75;0;75;0];
 [75;0;75;0;75;0;75;0;75;0;75;0;75;256;76;0];
 [76;0;76;0;76;0;76;0;76;0;76;0;76;0;76;0];
 [76;0;76;0;76;0;76;0;76;0;76;0;76;0;76;0];
 [76;0;76;0;76;0;76;0;76;0;76;0;76;1]].

(* lib/converters/hkscs2001.h:409-414 hkscs2001_uni2indx_page9f (flattened, 2 fields per entry) *)
Definition hkscs2001_uni2indx_page9f : tab := mk [
 [77;0;77;0;77;0;77;0;77;0;77;0;77;0;77;0];
 [77;0;77;0;77;65472]].

(* lib/converters/hkscs2001.h:415-418 hkscs2001_uni2indx_page214 (flattened, 2 fields per entry) *)
Definition hkscs2001_uni2indx_page214 : tab := mk [
 [87;0;87;0;87;0;87;32768]].

(* lib/converters/hkscs2001.h:419-424 hkscs2001_uni2indx_page219 (flattened, 2 fields per entry) *)
Definition hkscs2001_uni2indx_page219 : tab := mk [
 [88;0;88;0;88;0;88;0;88;0;88;0;88;0;88;0];
 [88;1]].

(* lib/converters/hkscs2001.h:425-430 hkscs2001_uni2indx_page21d (flattened, 2 fields per entry) *)
Definition hkscs2001_uni2indx_page21d : tab := mk [
 [89;0;89;0;89;0;89;0;89;0;89;0;89;0;89;0];
 [89;0;89;0;89;0;89;64]].

(* lib/converters/hkscs2001.h:431-435 hkscs2001_uni2indx_page220 (flattened, 2 fields per entry) *)
Definition hkscs2001_uni2indx_page220 : tab := mk [
 [90;0;90;0;90;0;90;0;90;0;90;0;90;0;90;16384]].

(* lib/converters/hkscs2001.h:436-439 hkscs2001_uni2indx_page227 (flattened, 2 fields per entry) *)
Definition hkscs2001_uni2indx_page227 : tab := mk [
 [91;0;91;4]].

(* lib/converters/hkscs2001.h:440-451 hkscs2001_uni2indx_page232 (flattened, 2 fields per entry) *)
Definition hkscs2001_uni2indx_page232 : tab := mk [
 [92;0;92;0;92;0;92;0;92;0;92;0;92;0;92;0];
 [92;2;93;0;93;0;93;0;93;0;93;0;93;0;93;0];
 [93;0;93;0;93;0;93;0;93;0;93;0;93;0;93;0];
 [93;0;93;0;93;0;93;0;93;0;93;0;93;0;93;512]].

(* lib/converters/hkscs2001.h:452-456 hkscs2001_uni2indx_page23c (flattened, 2 fields per entry) *)
Definition hkscs2001_uni2indx_page23c : tab := mk [
 [94;0;94;0;94;0;94;0;94;0;94;0;94;8]].

(* lib/converters/hkscs2001.h:457-461 hkscs2001_uni2indx_page241 (flattened, 2 fields per entry) *)
Definition hkscs2001_uni2indx_page241 : tab := mk [
 [95;0;95;0;95;0;95;0;95;16384]].

(* lib/converters/hkscs2001.h:462-465 hkscs2001_uni2indx_page245 (flattened, 2 fields per entry) *)
Definition hkscs2001_uni2indx_page245 : tab := mk [
 [96;32]].

(* lib/converters/hkscs2001.h:466-474 hkscs2001_uni2indx_page249 (flattened, 2 fields per entry) *)
Definition hkscs2001_uni2indx_page249 : tab := mk [
 [97;0;97;0;97;0;97;0;97;0;97;0;97;0;97;2048];
 [98;0;98;0;98;0;98;0;98;0;98;0;98;0;98;0];
 [98;0;98;8]].

(* lib/converters/hkscs2001.h:475-481 hkscs2001_uni2indx_page251 (flattened, 2 fields per entry) *)
Definition hkscs2001_uni2indx_page251 : tab := mk [
 [99;0;99;0;99;0;99;0;99;0;99;0;99;0;99;0];
 [99;0;99;0;99;0;99;0;99;8192]].

(* lib/converters/hkscs2001.h:482-487 hkscs2001_uni2indx_page256 (flattened, 2 fields per entry) *)
Definition hkscs2001_uni2indx_page256 : tab := mk [
 [100;0;100;0;100;0;100;0;100;0;100;0;100;0;100;0];
 [100;0;100;32]].

(* lib/converters/hkscs2001.h:488-496 hkscs2001_uni2indx_page25c (flattened, 2 fields per entry) *)
Definition hkscs2001_uni2indx_page25c : tab := mk [
 [101;0;101;0;101;0;101;0;101;0;101;0;101;0;101;0];
 [101;0;101;0;101;16;102;0;102;0;102;0;102;0;102;0];
 [102;0;102;0;102;0;102;1]].

(* lib/converters/hkscs2001.h:497-500 hkscs2001_uni2indx_page26b (flattened, 2 fields per entry) *)
Definition hkscs2001_uni2indx_page26b : tab := mk [
 [103;0;103;32]].

(* lib/converters/hkscs2001.h:501-505 hkscs2001_uni2indx_page26d (flattened, 2 fields per entry) *)
Definition hkscs2001_uni2indx_page26d : tab := mk [
 [104;0;104;0;104;0;104;0;104;0;104;0;104;0;104;16]].

(* lib/converters/hkscs2001.h:506-511 hkscs2001_uni2indx_page26f (flattened, 2 fields per entry) *)
Definition hkscs2001_uni2indx_page26f : tab := mk [
 [105;0;105;0;105;0;105;0;105;0;105;0;105;0;105;0];
 [105;0;105;0;105;0;105;16384]].

(* lib/converters/hkscs2001.h:512-515 hkscs2001_uni2indx_page271 (flattened, 2 fields per entry) *)
Definition hkscs2001_uni2indx_page271 : tab := mk [
 [106;8192]].

(* lib/converters/hkscs2001.h:516-519 hkscs2001_uni2indx_page287 (flattened, 2 fields per entry) *)
Definition hkscs2001_uni2indx_page287 : tab := mk [
 [107;32768]].

(* lib/converters/hkscs2001.h:520-531 hkscs2001_uni2indx_page289 (flattened, 2 fields per entry) *)
Definition hkscs2001_uni2indx_page289 : tab := mk [
 [108;0;108;0;108;0;108;0;108;0;108;0;108;0;108;0];
 [108;0;108;0;108;0;108;0;108;0;108;0;108;8;109;0];
 [109;0;109;0;109;0;109;4;110;0;110;0;110;0;110;0];
 [110;0;110;0;110;0;110;0;110;0;110;0;110;1024]].

(* lib/converters/hkscs2001.h:532-537 hkscs2001_uni2indx_page28d (flattened, 2 fields per entry) *)
Definition hkscs2001_uni2indx_page28d : tab := mk [
 [111;0;111;0;111;0;111;0;111;0;111;0;111;0;111;0];
 [111;0;111;0;111;0;111;512]].

(* lib/converters/hkscs2001.h:538-542 hkscs2001_uni2indx_page299 (flattened, 2 fields per entry) *)
Definition hkscs2001_uni2indx_page299 : tab := mk [
 [112;0;112;0;112;0;112;0;112;128]].

(* lib/converters/hkscs2001.h:543-547 hkscs2001_uni2indx_page29c (flattened, 2 fields per entry) *)
Definition hkscs2001_uni2indx_page29c : tab := mk [
 [113;0;113;0;113;0;113;0;113;0;113;0;113;0;113;8]].

(* lib/converters/hkscs2001.h:548-558 hkscs2001_uni2indx_page2a1 (flattened, 2 fields per entry) *)
Definition hkscs2001_uni2indx_page2a1 : tab := mk [
 [114;128;115;0;115;0;115;0;115;0;115;0;115;0;115;0];
 [115;0;115;0;115;0;115;0;115;0;115;0;115;0;115;0];
 [115;0;115;0;115;0;115;0;115;0;115;0;115;0;115;0];
 [115;0;115;0;115;0;115;1024]].

(* lib/converters/hkscs2004.h:30-40 hkscs2004_2uni_page87 *)
Definition hkscs2004_2uni_page87 : tab := mk [
 [2800;4146;3331;3238;3192;16743;4471;3251;17585;4322;17605;1429;3638;3652;4167;4160];
 [14783;13335;16978;16267;16594;4183;19793;3663;3290;4229;17516;4359;4004;3489;15651;7717];
 [15444;11619;13830;14177;6733;5115;10493;8597;5149;18361;1780;9524;17391;5851;11870;5540];
 [293;19376;5585;5815;6140;7022;9107;19013;8033;8093]].

(* lib/converters/hkscs2004.h:41-68 hkscs2004_2uni_page8c *)
Definition hkscs2004_2uni_page8c : tab := mk [
 [10493;10493;10493;10493;10493;10493;10493;10493;10493;10493;10493;10493;10493;10493;10493;10493];
 [10493;10493;10493;10493;10493;10493;10493;10493;10493;10493;10493;10493;10493;10493;10493;10493];
 [10493;10493;11119;10493;10493;10493;10493;10493;10493;10493;10493;10493;10493;10493;10493;10493];
 [10493;10493;10493;10493;10493;10493;10493;10493;10493;10493;10493;10493;10493;10493;10493;10493];
 [10493;10493;10493;10493;10493;10493;10493;10493;10493;10493;10493;10493;10493;10493;10493;10493];
 [10493;10493;10493;10493;10493;10493;10493;10493;10493;10493;10493;10493;10493;10493;10493;10493];
 [10493;10493;10493;10493;10493;10493;10493;10493;10493;10493;10493;10493;10493;10493;10493;10493];
 [10493;10493;10493;10493;10493;10493;10493;10493;10493;6887;10493;7255;8394;1672;3011;12886];
 [12694;2714;3126;10493;6101;13594;9465;6008;1554;13137;6264;10162;7511;3160;14572;12067];
 [4215;1144;74;10660;15937;9420;4788;10809;5311;8812;9814;18938;6459;11423;10493;12481];
 [18029;2306;3515;18553;1799;10163;19637;2296;726;3575;15942;2428;17842;17151;3181;980];
 [15258;3169;3099;4489;4219;4470;3306;1992;14863;353;3038;3005;2541]].

(* lib/converters/hkscs2004.h:70-81 hkscs2004_2uni_upages *)
Definition hkscs2004_2uni_upages : tab := mk [
 [13312;13824;14080;14336;14592;15104;15616;16128;16384;16640;17152;17408;17664;17920;18176;18944];
 [19456;19712;20224;22016;22784;23040;23296;23552;23808;24320;26112;26368;28160;28928;29184;29696];
 [30976;32000;33024;34048;35328;38656;38912;40704;65280;131328;131584;133632;133888;137728;138496;138752];
 [139520;141056;143872;144640;144896;146176;146944;147200;147456;147968;150272;152576;154112;158464;158720;159232];
 [159744;160256;160512;162560;162816;165376;166144;166656;167936;169984;170240;171520;172288;172800]].

(* lib/converters/hkscs2004.h:119-136 hkscs2004_2charset *)
Definition hkscs2004_2charset : tab := mk [
 [36084;34672;36188;36171;36178;36083;34635;36074;36063;34666;36167;36186;36170;36164;36174;36191];
 [36067;34624;36190;36064;36189;36181;36068;36079;36180;36177;34628;34627;34631;34648;36185;34626];
 [34653;36165;36172;34636;34637;34647;34652;34625;34639;34638;34645;36082;36183;34649;34633;34651];
 [36184;34630;36182;36088;34661;34664;36090;34671;34674;34675;34669;36073;36070;34676;36076;36094];
 [34660;36059;34677;36061;36078;34655;34680;34681;36062;34663;36091;34678;36087;36072;34667;36092];
 [36077;36168;36085;36089;35938;36160;34657;34670;36081;36162;36066;36065;36075;34641;36071;34658];
 [34659;36080;34640;36187;36179;34656;34654;36086;36173;34643;34644;34629;34642;36176;34668;34650];
 [34632;34634;36175;36163;34665;36166;36093;34679;34673;36169;34646]].

(* lib/converters/hkscs2004.h:138-142 hkscs2004_uni2indx_page34 (flattened, 2 fields per entry) *)
Definition hkscs2004_uni2indx_page34 : tab := mk [
 [0;0;0;0;0;0;0;0;0;1024]].

(* lib/converters/hkscs2004.h:143-162 hkscs2004_uni2indx_page36 (flattened, 2 fields per entry) *)
Definition hkscs2004_uni2indx_page36 : tab := mk [
 [1;0;1;0;1;32;2;0;2;0;2;0;2;2;3;0];
 [3;0;3;0;3;0;3;0;3;0;3;0;3;0;3;0];
 [3;0;3;0;3;0;3;0;3;0;3;0;3;0;3;0];
 [3;0;3;0;3;0;3;0;3;0;3;64;4;0;4;0];
 [4;0;4;0;4;0;4;0;4;0;4;0;4;0;4;0];
 [4;0;4;0;4;0;4;0;4;0;4;16;5;0;5;0];
 [5;0;5;0;5;0;5;0;5;0;5;0;5;0;5;256]].

(* lib/converters/hkscs2004.h:163-168 hkscs2004_uni2indx_page3b (flattened, 2 fields per entry) *)
Definition hkscs2004_uni2indx_page3b : tab := mk [
 [6;0;6;0;6;0;6;0;6;0;6;0;6;0;6;0];
 [6;0;6;32]].

(* lib/converters/hkscs2004.h:169-175 hkscs2004_uni2indx_page3d (flattened, 2 fields per entry) *)
Definition hkscs2004_uni2indx_page3d : tab := mk [
 [7;0;7;4;8;0;8;0;8;0;8;0;8;0;8;0];
 [8;256;9;0;9;0;9;0;9;0;9;0;9;0;9;16]].

(* lib/converters/hkscs2004.h:176-192 hkscs2004_uni2indx_page3f (flattened, 2 fields per entry) *)
Definition hkscs2004_uni2indx_page3f : tab := mk [
 [10;128;11;0;11;0;11;0;11;0;11;0;11;0;11;0];
 [11;0;11;0;11;0;11;0;11;256;12;0;12;0;12;0];
 [12;0;12;0;12;0;12;0;12;0;12;0;12;0;12;0];
 [12;0;12;0;12;0;12;0;12;0;12;0;12;0;12;256];
 [13;4;14;0;14;0;14;0;14;0;14;0;14;0;14;4096];
 [15;0;15;0;15;0;15;0;15;0;15;0;15;8192]].

(* lib/converters/hkscs2004.h:193-217 hkscs2004_uni2indx_page43 (flattened, 2 fields per entry) *)
Definition hkscs2004_uni2indx_page43 : tab := mk [
 [16;0;16;0;16;0;16;0;16;0;16;0;16;0;16;0];
 [16;0;16;1024;17;0;17;0;17;0;17;0;17;0;17;1];
 [18;0;18;0;18;0;18;0;18;0;18;0;18;0;18;0];
 [18;0;18;0;18;0;18;8192;19;8;20;16384;21;0;21;0];
 [21;0;21;2048;22;0;22;64;23;0;23;256;24;8194;26;256];
 [27;0;27;0;27;64;28;8;29;0;29;1024;30;1024;31;0];
 [31;8;32;0;32;0;32;0;32;0;32;0;32;0;32;0];
 [32;0;32;0;32;2;33;2048;34;0;34;0;34;0;34;128];
 [35;0;35;0;35;0;35;64;36;32784]].

(* lib/converters/hkscs2004.h:218-223 hkscs2004_uni2indx_page4a (flattened, 2 fields per entry) *)
Definition hkscs2004_uni2indx_page4a : tab := mk [
 [38;0;38;0;38;0;38;0;38;0;38;0;38;0;38;0];
 [38;0;38;0;38;16]].

(* lib/converters/hkscs2004.h:224-234 hkscs2004_uni2indx_page4c (flattened, 2 fields per entry) *)
Definition hkscs2004_uni2indx_page4c : tab := mk [
 [39;0;39;0;39;0;39;4;40;129;42;128;43;0;43;2176];
 [45;32;46;0;46;0;46;0;46;0;46;0;46;4;47;0];
 [47;128;48;0;48;0;48;0;48;0;48;0;48;0;48;192];
 [50;512]].

(* lib/converters/hkscs2004.h:235-240 hkscs2004_uni2indx_page4f (flattened, 2 fields per entry) *)
Definition hkscs2004_uni2indx_page4f : tab := mk [
 [51;0;51;0;51;0;51;0;51;0;51;0;51;0;51;0];
 [51;0;51;0;51;0;51;16]].

(* lib/converters/hkscs2004.h:241-247 hkscs2004_uni2indx_page56 (flattened, 2 fields per entry) *)
Definition hkscs2004_uni2indx_page56 : tab := mk [
 [52;0;52;0;52;0;52;0;52;0;52;0;52;0;52;0];
 [52;0;52;0;52;0;52;0;52;0;52;0;52;0;52;2048]].

(* lib/converters/hkscs2004.h:248-272 hkscs2004_uni2indx_page59 (flattened, 2 fields per entry) *)
Definition hkscs2004_uni2indx_page59 : tab := mk [
 [53;0;53;8192;54;0;54;0;54;0;54;0;54;0;54;0];
 [54;0;54;0;54;0;54;32768;55;0;55;0;55;0;55;0];
 [55;0;55;0;55;0;55;0;55;0;55;0;55;0;55;0];
 [55;0;55;0;55;16;56;0;56;0;56;2;57;0;57;0];
 [57;0;57;0;57;0;57;0;57;0;57;0;57;0;57;0];
 [57;0;57;0;57;0;57;128;58;0;58;2048;59;0;59;0];
 [59;0;59;0;59;0;59;0;59;0;59;0;59;0;59;256];
 [60;0;60;0;60;0;60;0;60;0;60;32;61;0;61;4096];
 [62;0;62;0;62;0;62;0;62;0;62;0;62;0;62;256]].

(* lib/converters/hkscs2004.h:273-276 hkscs2004_uni2indx_page5f (flattened, 2 fields per entry) *)
Definition hkscs2004_uni2indx_page5f : tab := mk [
 [63;0;63;0;63;0;63;2048]].

(* lib/converters/hkscs2004.h:277-286 hkscs2004_uni2indx_page66 (flattened, 2 fields per entry) *)
Definition hkscs2004_uni2indx_page66 : tab := mk [
 [64;0;64;0;64;0;64;0;64;8192;65;0;65;0;65;0];
 [65;0;65;0;65;0;65;0;65;0;65;0;65;128;66;0];
 [66;0;66;0;66;0;66;0;66;0;66;0;66;16384]].

(* lib/converters/hkscs2004.h:287-291 hkscs2004_uni2indx_page6e (flattened, 2 fields per entry) *)
Definition hkscs2004_uni2indx_page6e : tab := mk [
 [67;0;67;0;67;0;67;0;67;0;67;128]].

(* lib/converters/hkscs2004.h:292-300 hkscs2004_uni2indx_page71 (flattened, 2 fields per entry) *)
Definition hkscs2004_uni2indx_page71 : tab := mk [
 [68;0;68;0;68;0;68;0;68;0;68;128;69;0;69;0];
 [69;0;69;0;69;0;69;0;69;0;69;0;69;0;69;0];
 [69;0;69;0;69;32]].

(* lib/converters/hkscs2004.h:301-306 hkscs2004_uni2indx_page74 (flattened, 2 fields per entry) *)
Definition hkscs2004_uni2indx_page74 : tab := mk [
 [70;0;70;0;70;0;70;0;70;0;70;0;70;2;71;0];
 [71;0;71;8192]].

(* lib/converters/hkscs2004.h:307-313 hkscs2004_uni2indx_page79 (flattened, 2 fields per entry) *)
Definition hkscs2004_uni2indx_page79 : tab := mk [
 [72;0;72;0;72;0;72;0;72;0;72;0;72;0;72;0];
 [72;0;72;0;72;0;72;0;72;1024]].

(* lib/converters/hkscs2004.h:314-319 hkscs2004_uni2indx_page7d (flattened, 2 fields per entry) *)
Definition hkscs2004_uni2indx_page7d : tab := mk [
 [73;0;73;0;73;0;73;0;73;0;73;0;73;0;73;0];
 [73;0;73;32]].

(* lib/converters/hkscs2004.h:320-324 hkscs2004_uni2indx_page81 (flattened, 2 fields per entry) *)
Definition hkscs2004_uni2indx_page81 : tab := mk [
 [74;0;74;0;74;0;74;0;74;0;74;0;74;4096]].

(* lib/converters/hkscs2004.h:325-330 hkscs2004_uni2indx_page85 (flattened, 2 fields per entry) *)
Definition hkscs2004_uni2indx_page85 : tab := mk [
 [75;0;75;0;75;0;75;0;75;0;75;0;75;0;75;0];
 [75;0;75;8]].

(* lib/converters/hkscs2004.h:331-337 hkscs2004_uni2indx_page8a (flattened, 2 fields per entry) *)
Definition hkscs2004_uni2indx_page8a : tab := mk [
 [76;0;76;0;76;0;76;0;76;0;76;0;76;0;76;0];
 [76;0;76;0;76;0;76;0;76;4096;77;0;77;0;77;512]].

(* lib/converters/hkscs2004.h:338-347 hkscs2004_uni2indx_page97 (flattened, 2 fields per entry) *)
Definition hkscs2004_uni2indx_page97 : tab := mk [
 [78;0;78;0;78;0;78;16;79;0;79;0;79;0;79;0];
 [79;0;79;0;79;0;79;0;79;0;79;0;79;0;79;0];
 [79;0;79;0;79;0;79;0;79;0;79;64]].

(* lib/converters/hkscs2004.h:348-353 hkscs2004_uni2indx_page9f (flattened, 2 fields per entry) *)
Definition hkscs2004_uni2indx_page9f : tab := mk [
 [80;0;80;0;80;0;80;0;80;0;80;0;80;0;80;0];
 [80;0;80;0;80;0;80;12]].

(* lib/converters/hkscs2004.h:354-362 hkscs2004_uni2indx_page201 (flattened, 2 fields per entry) *)
Definition hkscs2004_uni2indx_page201 : tab := mk [
 [82;0;82;0;82;0;82;0;82;0;82;0;82;0;82;0];
 [82;0;82;0;82;16;83;0;83;0;83;0;83;0;83;0];
 [83;0;83;0;83;0;83;512]].

(* lib/converters/hkscs2004.h:363-373 hkscs2004_uni2indx_page20a (flattened, 2 fields per entry) *)
Definition hkscs2004_uni2indx_page20a : tab := mk [
 [84;0;84;0;84;0;84;0;84;0;84;0;84;32768;85;0];
 [85;0;85;0;85;0;85;0;85;0;85;0;85;0;85;0];
 [85;0;85;0;85;0;85;0;85;0;85;0;85;0;85;0];
 [85;0;85;32768]].

(* lib/converters/hkscs2004.h:374-378 hkscs2004_uni2indx_page21a (flattened, 2 fields per entry) *)
Definition hkscs2004_uni2indx_page21a : tab := mk [
 [86;0;86;0;86;0;86;0;86;0;86;0;86;8]].

(* lib/converters/hkscs2004.h:379-387 hkscs2004_uni2indx_page21d (flattened, 2 fields per entry) *)
Definition hkscs2004_uni2indx_page21d : tab := mk [
 [87;0;87;0;87;0;87;0;87;0;87;16384;88;0;88;0];
 [88;0;88;0;88;0;88;0;88;0;88;0;88;0;88;0];
 [88;0;88;0;88;8]].

(* lib/converters/hkscs2004.h:388-394 hkscs2004_uni2indx_page221 (flattened, 2 fields per entry) *)
Definition hkscs2004_uni2indx_page221 : tab := mk [
 [89;0;89;0;89;0;89;0;89;0;89;0;89;0;89;0];
 [89;0;89;0;89;0;89;0;89;2]].

(* lib/converters/hkscs2004.h:395-400 hkscs2004_uni2indx_page227 (flattened, 2 fields per entry) *)
Definition hkscs2004_uni2indx_page227 : tab := mk [
 [90;0;90;0;90;0;90;0;90;0;90;0;90;0;90;0];
 [90;0;90;64]].

(* lib/converters/hkscs2004.h:401-405 hkscs2004_uni2indx_page232 (flattened, 2 fields per entry) *)
Definition hkscs2004_uni2indx_page232 : tab := mk [
 [91;0;91;0;91;0;91;0;91;0;91;64]].

(* lib/converters/hkscs2004.h:406-414 hkscs2004_uni2indx_page235 (flattened, 2 fields per entry) *)
Definition hkscs2004_uni2indx_page235 : tab := mk [
 [92;0;92;0;92;0;92;0;92;0;92;2;93;0;93;0];
 [93;0;93;0;93;0;93;0;93;0;93;0;93;0;93;0];
 [93;0;93;128]].

(* lib/converters/hkscs2004.h:415-418 hkscs2004_uni2indx_page23b (flattened, 2 fields per entry) *)
Definition hkscs2004_uni2indx_page23b : tab := mk [
 [94;0;94;1024]].

(* lib/converters/hkscs2004.h:419-435 hkscs2004_uni2indx_page23e (flattened, 2 fields per entry) *)
Definition hkscs2004_uni2indx_page23e : tab := mk [
 [95;64;96;0;96;0;96;0;96;0;96;0;96;0;96;0];
 [96;0;96;0;96;0;96;0;96;0;96;0;96;0;96;0];
 [96;0;96;0;96;0;96;0;96;0;96;0;96;2;97;0];
 [97;0;97;0;97;0;97;0;97;0;97;0;97;0;97;0];
 [97;0;97;0;97;0;97;0;97;0;97;0;97;0;97;0];
 [97;0;97;0;97;0;97;0;97;0;97;0;97;4096]].

(* lib/converters/hkscs2004.h:436-441 hkscs2004_uni2indx_page242 (flattened, 2 fields per entry) *)
Definition hkscs2004_uni2indx_page242 : tab := mk [
 [98;0;98;0;98;0;98;0;98;0;98;0;98;0;98;0];
 [98;0;98;0;98;0;98;32768]].

(* lib/converters/hkscs2004.h:442-445 hkscs2004_uni2indx_page24b (flattened, 2 fields per entry) *)
Definition hkscs2004_uni2indx_page24b : tab := mk [
 [99;32768]].

(* lib/converters/hkscs2004.h:446-451 hkscs2004_uni2indx_page254 (flattened, 2 fields per entry) *)
Definition hkscs2004_uni2indx_page254 : tab := mk [
 [100;0;100;0;100;0;100;0;100;0;100;0;100;0;100;0];
 [100;0;100;1024]].

(* lib/converters/hkscs2004.h:452-456 hkscs2004_uni2indx_page25a (flattened, 2 fields per entry) *)
Definition hkscs2004_uni2indx_page25a : tab := mk [
 [101;0;101;0;101;0;101;0;101;0;101;16]].

(* lib/converters/hkscs2004.h:457-466 hkscs2004_uni2indx_page26b (flattened, 2 fields per entry) *)
Definition hkscs2004_uni2indx_page26b : tab := mk [
 [102;0;102;0;102;8;103;0;103;0;103;0;103;0;103;0];
 [103;0;103;0;103;0;103;0;103;0;103;0;103;0;103;0];
 [103;0;103;0;103;0;103;0;103;66]].

(* lib/converters/hkscs2004.h:467-472 hkscs2004_uni2indx_page26e (flattened, 2 fields per entry) *)
Definition hkscs2004_uni2indx_page26e : tab := mk [
 [105;0;105;0;105;0;105;0;105;0;105;0;105;0;105;0];
 [105;2048]].

(* lib/converters/hkscs2004.h:473-479 hkscs2004_uni2indx_page270 (flattened, 2 fields per entry) *)
Definition hkscs2004_uni2indx_page270 : tab := mk [
 [106;0;106;0;106;0;106;0;106;0;106;0;106;0;106;0];
 [106;0;106;0;106;0;106;0;106;0;106;4]].

(* lib/converters/hkscs2004.h:480-491 hkscs2004_uni2indx_page272 (flattened, 2 fields per entry) *)
Definition hkscs2004_uni2indx_page272 : tab := mk [
 [107;0;107;0;107;0;107;0;107;0;107;0;107;128;108;0];
 [108;0;108;0;108;0;108;0;108;0;108;0;108;0;108;0];
 [108;0;108;0;108;0;108;0;108;0;108;4;109;0;109;0];
 [109;0;109;0;109;0;109;0;109;0;109;0;109;0;109;32768]].

(* lib/converters/hkscs2004.h:492-503 hkscs2004_uni2indx_page27b (flattened, 2 fields per entry) *)
Definition hkscs2004_uni2indx_page27b : tab := mk [
 [110;0;110;0;110;0;110;0;110;0;110;0;110;0;110;0];
 [110;0;110;0;110;0;110;0;110;0;110;0;110;32768;111;0];
 [111;0;111;0;111;0;111;0;111;0;111;0;111;4096;112;0];
 [112;0;112;0;112;0;112;2;113;32]].

(* lib/converters/hkscs2004.h:504-509 hkscs2004_uni2indx_page286 (flattened, 2 fields per entry) *)
Definition hkscs2004_uni2indx_page286 : tab := mk [
 [114;0;114;0;114;0;114;0;114;0;114;0;114;0;114;0];
 [114;0;114;0;114;0;114;4]].

(* lib/converters/hkscs2004.h:510-514 hkscs2004_uni2indx_page289 (flattened, 2 fields per entry) *)
Definition hkscs2004_uni2indx_page289 : tab := mk [
 [115;0;115;0;115;0;115;0;115;0;115;0;115;8192]].

(* lib/converters/hkscs2004.h:515-520 hkscs2004_uni2indx_page28b (flattened, 2 fields per entry) *)
Definition hkscs2004_uni2indx_page28b : tab := mk [
 [116;0;116;0;116;0;116;0;116;0;116;0;116;0;116;0];
 [116;0;116;0;116;0;116;512]].

(* lib/converters/hkscs2004.h:521-525 hkscs2004_uni2indx_page290 (flattened, 2 fields per entry) *)
Definition hkscs2004_uni2indx_page290 : tab := mk [
 [117;0;117;0;117;0;117;0;117;0;117;0;117;0;117;512]].

(* lib/converters/hkscs2004.h:526-535 hkscs2004_uni2indx_page298 (flattened, 2 fields per entry) *)
Definition hkscs2004_uni2indx_page298 : tab := mk [
 [118;0;118;0;118;0;118;0;118;0;118;0;118;0;118;0];
 [118;0;118;0;118;0;118;0;118;0;118;0;118;0;118;1024];
 [119;0;119;0;119;0;119;0;119;32]].

(* lib/converters/hkscs2004.h:536-541 hkscs2004_uni2indx_page29e (flattened, 2 fields per entry) *)
Definition hkscs2004_uni2indx_page29e : tab := mk [
 [120;0;120;0;120;0;120;0;120;0;120;0;120;0;120;0];
 [120;0;120;0;120;0;120;1]].

(* lib/converters/hkscs2004.h:542-547 hkscs2004_uni2indx_page2a1 (flattened, 2 fields per entry) *)
Definition hkscs2004_uni2indx_page2a1 : tab := mk [
 [121;0;121;0;121;0;121;0;121;0;121;0;121;0;121;0];
 [121;0;121;0;121;0;121;32]].

(* lib/converters/hkscs2004.h:548-552 hkscs2004_uni2indx_page2a3 (flattened, 2 fields per entry) *)
Definition hkscs2004_uni2indx_page2a3 : tab := mk [
 [122;0;122;0;122;0;122;0;122;0;122;2]].

(* lib/converters/hkscs2008.h:30-48 hkscs2008_2uni_page87 *)
Definition hkscs2008_2uni_page87 : tab := mk [
 [8957;8957;8957;8957;8957;8957;8957;8957;8957;8957;8957;8957;8957;8957;8957;8957];
 [8957;8957;8957;8957;8957;8957;8957;8957;8957;8957;8957;8957;8957;8957;8957;8957];
 [8957;8957;8957;8957;8957;8957;8957;8957;8957;8957;8957;8957;8957;8957;8957;8957];
 [8957;8957;8957;8957;8957;8957;8957;8957;8957;8957;373;9299;10654;11553;1004;11230];
 [757;5884;8599;10849;12301;9962;9098;10078;1546;6276;8598;7983;2352;6675;3478;8266];
 [7704;5584;5682;3936;4393;7069;5196;6085;4226;5676;2639;7494;230;5060;11449;5318];
 [8647;3251;2351;2892;1329;10638;3352;5746;12133;7311;2222;11912;1409;11417;6062;9660];
 [8648;9665;9673;9676;8649;6404;10427;1204;8650;2017;12799;3777;4718;8651]].

(* lib/converters/hkscs2008.h:50-58 hkscs2008_2uni_upages *)
Definition hkscs2008_2uni_upages : tab := mk [
 [13312;14336;14848;15872;16384;16640;17152;17408;17920;18688;20992;21504;22272;22528;25088;26112];
 [26368;27136;28672;29440;29696;30976;31232;31488;33792;34048;34304;34816;35584;36864;37376;37888];
 [38656;40704;65280;133632;138496;140288;143616;143872;144640;144896;147712;153600;154880;155648;159232;162560];
 [166144;175360]].

(* lib/converters/hkscs2008.h:90-100 hkscs2008_2charset *)
Definition hkscs2008_2charset : tab := mk [
 [34750;34682;34722;34686;34777;34758;34766;34730;34779;34764;34756;34734;34748;34757;34755;34760];
 [34736;34781;34741;34746;34742;34782;34751;34744;34753;34739;34747;34740;34761;34723;34768;34745];
 [34731;34775;34735;34743;34763;34749;34738;34733;34737;34732;34724;34754;34770;34774;34778;34783];
 [34728;34683;34769;34771;34772;34773;34727;34729;34776;34759;34684;34725;34721;34767;34752;34685];
 [34765;34762;34726;34780]].

(* lib/converters/hkscs2008.h:102-108 hkscs2008_uni2indx_page34 (flattened, 2 fields per entry) *)
Definition hkscs2008_uni2indx_page34 : tab := mk [
 [0;0;0;0;0;0;0;0;0;0;0;0;0;0;0;0];
 [0;0;0;0;0;0;0;0;0;0;0;0;0;64]].

(* lib/converters/hkscs2008.h:109-113 hkscs2008_uni2indx_page38 (flattened, 2 fields per entry) *)
Definition hkscs2008_uni2indx_page38 : tab := mk [
 [1;0;1;0;1;0;1;0;1;0;1;0;1;0;1;32]].

(* lib/converters/hkscs2008.h:114-120 hkscs2008_uni2indx_page3a (flattened, 2 fields per entry) *)
Definition hkscs2008_uni2indx_page3a : tab := mk [
 [2;0;2;0;2;0;2;0;2;0;2;0;2;0;2;0];
 [2;0;2;0;2;0;2;0;2;0;2;0;2;0;2;32]].

(* lib/converters/hkscs2008.h:121-127 hkscs2008_uni2indx_page3e (flattened, 2 fields per entry) *)
Definition hkscs2008_uni2indx_page3e : tab := mk [
 [3;0;3;0;3;0;3;0;3;0;3;0;3;0;3;0];
 [3;0;3;0;3;0;3;0;3;0;3;0;3;4096]].

(* lib/converters/hkscs2008.h:128-138 hkscs2008_uni2indx_page40 (flattened, 2 fields per entry) *)
Definition hkscs2008_uni2indx_page40 : tab := mk [
 [4;0;4;0;4;0;4;0;4;0;4;0;4;0;4;0];
 [4;0;4;0;4;0;4;16;5;0;5;0;5;0;5;0];
 [5;0;5;0;5;0;5;2;6;0;6;0;6;0;6;0];
 [6;2]].

(* lib/converters/hkscs2008.h:139-150 hkscs2008_uni2indx_page43 (flattened, 2 fields per entry) *)
Definition hkscs2008_uni2indx_page43 : tab := mk [
 [7;1024;8;0;8;0;8;0;8;0;8;0;8;0;8;0];
 [8;0;8;0;8;0;8;0;8;0;8;0;8;0;8;0];
 [8;0;8;0;8;0;8;0;8;0;8;0;8;0;8;0];
 [8;0;8;0;8;0;8;0;8;0;8;0;8;2]].

(* lib/converters/hkscs2008.h:151-156 hkscs2008_uni2indx_page46 (flattened, 2 fields per entry) *)
Definition hkscs2008_uni2indx_page46 : tab := mk [
 [9;0;9;0;9;0;9;0;9;0;9;0;9;0;9;0];
 [9;0;9;0;9;16384]].

(* lib/converters/hkscs2008.h:157-160 hkscs2008_uni2indx_page49 (flattened, 2 fields per entry) *)
Definition hkscs2008_uni2indx_page49 : tab := mk [
 [10;0;10;0;10;32768;11;1]].

(* lib/converters/hkscs2008.h:161-165 hkscs2008_uni2indx_page52 (flattened, 2 fields per entry) *)
Definition hkscs2008_uni2indx_page52 : tab := mk [
 [12;0;12;0;12;0;12;0;12;32768]].

(* lib/converters/hkscs2008.h:166-170 hkscs2008_uni2indx_page54 (flattened, 2 fields per entry) *)
Definition hkscs2008_uni2indx_page54 : tab := mk [
 [13;0;13;0;13;0;13;0;13;4096]].

(* lib/converters/hkscs2008.h:171-181 hkscs2008_uni2indx_page57 (flattened, 2 fields per entry) *)
Definition hkscs2008_uni2indx_page57 : tab := mk [
 [14;0;14;0;14;0;14;0;14;0;14;0;14;0;14;0];
 [14;0;14;0;14;0;14;8;15;0;15;0;15;0;15;0];
 [15;0;15;256;16;0;16;0;16;0;16;0;16;0;16;0];
 [16;0;16;64]].

(* lib/converters/hkscs2008.h:182-188 hkscs2008_uni2indx_page62 (flattened, 2 fields per entry) *)
Definition hkscs2008_uni2indx_page62 : tab := mk [
 [17;0;17;0;17;0;17;0;17;0;17;0;17;0;17;0];
 [17;0;17;0;17;0;17;0;17;2]].

(* lib/converters/hkscs2008.h:189-199 hkscs2008_uni2indx_page66 (flattened, 2 fields per entry) *)
Definition hkscs2008_uni2indx_page66 : tab := mk [
 [18;0;18;0;18;0;18;0;18;0;18;0;18;1;19;0];
 [19;0;19;0;19;0;19;0;19;0;19;0;19;0;19;0];
 [19;0;19;0;19;0;19;0;19;0;19;0;19;0;19;0];
 [19;4]].

(* lib/converters/hkscs2008.h:200-203 hkscs2008_uni2indx_page6a (flattened, 2 fields per entry) *)
Definition hkscs2008_uni2indx_page6a : tab := mk [
 [20;0;20;0;20;512]].

(* lib/converters/hkscs2008.h:204-208 hkscs2008_uni2indx_page70 (flattened, 2 fields per entry) *)
Definition hkscs2008_uni2indx_page70 : tab := mk [
 [21;0;21;0;21;0;21;0;21;0;21;0;21;16384]].

(* lib/converters/hkscs2008.h:209-220 hkscs2008_uni2indx_page73 (flattened, 2 fields per entry) *)
Definition hkscs2008_uni2indx_page73 : tab := mk [
 [22;0;22;0;22;0;22;0;22;0;22;0;22;0;22;0];
 [22;0;22;0;22;0;22;0;22;16;23;0;23;0;23;0];
 [23;0;23;0;23;0;23;0;23;4096;24;0;24;0;24;0];
 [24;0;24;0;24;0;24;0;24;64]].

(* lib/converters/hkscs2008.h:221-237 hkscs2008_uni2indx_page79 (flattened, 2 fields per entry) *)
Definition hkscs2008_uni2indx_page79 : tab := mk [
 [25;0;25;0;25;0;25;0;25;0;25;0;25;0;25;0];
 [25;0;25;0;25;0;25;0;25;0;25;1;26;0;26;0];
 [26;0;26;0;26;4096;27;4;28;0;28;0;28;0;28;4];
 [29;0;29;0;29;0;29;0;29;0;29;0;29;0;29;4096];
 [30;0;30;0;30;0;30;0;30;0;30;0;30;0;30;0];
 [30;0;30;0;30;16384;31;0;31;32]].

(* lib/converters/hkscs2008.h:238-251 hkscs2008_uni2indx_page84 (flattened, 2 fields per entry) *)
Definition hkscs2008_uni2indx_page84 : tab := mk [
 [32;0;32;0;32;0;32;0;32;0;32;0;32;0;32;0];
 [32;16;33;0;33;0;33;0;33;0;33;0;33;0;33;0];
 [33;16;34;0;34;0;34;0;34;0;34;0;34;0;34;0];
 [34;0;34;0;34;0;34;0;34;0;34;0;34;0;34;0];
 [34;0;34;8]].

(* lib/converters/hkscs2008.h:252-257 hkscs2008_uni2indx_page88 (flattened, 2 fields per entry) *)
Definition hkscs2008_uni2indx_page88 : tab := mk [
 [35;0;35;0;35;0;35;0;35;0;35;0;35;0;35;0];
 [35;0;35;8192]].

(* lib/converters/hkscs2008.h:258-263 hkscs2008_uni2indx_page8b (flattened, 2 fields per entry) *)
Definition hkscs2008_uni2indx_page8b : tab := mk [
 [36;0;36;0;36;0;36;0;36;0;36;0;36;0;36;0];
 [36;32768]].

(* lib/converters/hkscs2008.h:264-268 hkscs2008_uni2indx_page90 (flattened, 2 fields per entry) *)
Definition hkscs2008_uni2indx_page90 : tab := mk [
 [37;0;37;0;37;0;37;0;37;64]].

(* lib/converters/hkscs2008.h:269-272 hkscs2008_uni2indx_page92 (flattened, 2 fields per entry) *)
Definition hkscs2008_uni2indx_page92 : tab := mk [
 [38;0;38;256]].

(* lib/converters/hkscs2008.h:273-276 hkscs2008_uni2indx_page94 (flattened, 2 fields per entry) *)
Definition hkscs2008_uni2indx_page94 : tab := mk [
 [39;0;39;0;39;32768]].

(* lib/converters/hkscs2008.h:277-281 hkscs2008_uni2indx_page97 (flattened, 2 fields per entry) *)
Definition hkscs2008_uni2indx_page97 : tab := mk [
 [40;0;40;0;40;0;40;0;40;1024]].

(* lib/converters/hkscs2008.h:282-288 hkscs2008_uni2indx_page9f (flattened, 2 fields per entry) *)
Definition hkscs2008_uni2indx_page9f : tab := mk [
 [41;0;41;0;41;0;41;0;41;0;41;0;41;0;41;0];
 [41;0;41;192;43;0;43;0;43;3968]].

(* lib/converters/hkscs2008.h:289-294 hkscs2008_uni2indx_page20a (flattened, 2 fields per entry) *)
Definition hkscs2008_uni2indx_page20a : tab := mk [
 [48;0;48;0;48;0;48;0;48;0;48;0;48;0;48;0];
 [48;1024]].

(* lib/converters/hkscs2008.h:295-299 hkscs2008_uni2indx_page21d (flattened, 2 fields per entry) *)
Definition hkscs2008_uni2indx_page21d : tab := mk [
 [49;0;49;0;49;0;49;0;49;0;49;8]].

(* lib/converters/hkscs2008.h:300-306 hkscs2008_uni2indx_page224 (flattened, 2 fields per entry) *)
Definition hkscs2008_uni2indx_page224 : tab := mk [
 [50;0;50;0;50;0;50;0;50;0;50;0;50;0;50;0];
 [50;0;50;0;50;0;50;4096;51;4610]].

(* lib/converters/hkscs2008.h:307-316 hkscs2008_uni2indx_page231 (flattened, 2 fields per entry) *)
Definition hkscs2008_uni2indx_page231 : tab := mk [
 [54;0;54;0;54;0;54;0;54;0;54;0;54;0;54;0];
 [54;0;54;0;54;0;54;0;54;0;54;0;54;1024;55;0];
 [55;0;55;0;55;0;55;0;55;0;55;16384]].

(* lib/converters/hkscs2008.h:317-327 hkscs2008_uni2indx_page235 (flattened, 2 fields per entry) *)
Definition hkscs2008_uni2indx_page235 : tab := mk [
 [56;0;56;0;56;0;56;0;56;0;56;0;56;0;56;0];
 [56;0;56;0;56;0;56;2048;57;0;57;0;57;0;57;0];
 [57;0;57;0;57;0;57;0;57;0;57;0;57;0;57;0];
 [57;16384;58;16384]].

(* lib/converters/hkscs2008.h:328-332 hkscs2008_uni2indx_page241 (flattened, 2 fields per entry) *)
Definition hkscs2008_uni2indx_page241 : tab := mk [
 [59;0;59;0;59;0;59;0;59;0;59;0;59;2]].

(* lib/converters/hkscs2008.h:333-339 hkscs2008_uni2indx_page258 (flattened, 2 fields per entry) *)
Definition hkscs2008_uni2indx_page258 : tab := mk [
 [60;0;60;0;60;0;60;0;60;0;60;0;60;0;60;0];
 [60;0;60;0;60;0;60;0;60;0;60;16384]].

(* lib/converters/hkscs2008.h:340-345 hkscs2008_uni2indx_page25d (flattened, 2 fields per entry) *)
Definition hkscs2008_uni2indx_page25d : tab := mk [
 [61;0;61;0;61;0;61;0;61;0;61;0;61;0;61;0];
 [61;0;61;512;62;0;62;512]].

(* lib/converters/hkscs2008.h:346-349 hkscs2008_uni2indx_page260 (flattened, 2 fields per entry) *)
Definition hkscs2008_uni2indx_page260 : tab := mk [
 [63;0;63;0;63;2]].

(* lib/converters/hkscs2008.h:350-355 hkscs2008_uni2indx_page26e (flattened, 2 fields per entry) *)
Definition hkscs2008_uni2indx_page26e : tab := mk [
 [64;0;64;0;64;0;64;0;64;0;64;0;64;0;64;0];
 [64;256]].

(* lib/converters/hkscs2008.h:356-360 hkscs2008_uni2indx_page27b (flattened, 2 fields per entry) *)
Definition hkscs2008_uni2indx_page27b : tab := mk [
 [65;0;65;0;65;0;65;0;65;0;65;0;65;32]].

(* lib/converters/hkscs2008.h:361-364 hkscs2008_uni2indx_page289 (flattened, 2 fields per entry) *)
Definition hkscs2008_uni2indx_page289 : tab := mk [
 [66;8192]].

(* lib/converters/hkscs2008.h:365-371 hkscs2008_uni2indx_page2ad (flattened, 2 fields per entry) *)
Definition hkscs2008_uni2indx_page2ad : tab := mk [
 [67;0;67;0;67;0;67;0;67;0;67;0;67;0;67;0];
 [67;0;67;0;67;0;67;0;67;0;67;0;67;0;67;32768]].

(* lib/converters/cp950ext.h:30-38 cp950ext_2uni_pagef9 *)
Definition cp950ext_2uni_pagef9 : tab := mk [
 [30849;37561;35023;22715;24658;31911;23290;9556;9574;9559;9568;9580;9571;9562;9577;9565];
 [9554;9572;9557;9566;9578;9569;9560;9575;9563;9555;9573;9558;9567;9579;9570;9561];
 [9576;9564;9553;9552;9581;9582;9584;9583;9619]].

(* lib/converters/cp950ext.h:69-76 cp950ext_2charset *)
Definition cp950ext_2charset : tab := mk [
 [63993;63992;63974;63983;63965;63976;63985;63967;63980;63989;63971;63982;63991;63973;63977;63986];
 [63968;63979;63988;63970;63975;63984;63966;63981;63990;63972;63978;63987;63969;63994;63995;63997];
 [63996;63998;63961;63964;63962;63958;63963;63960;63959]].

(* lib/converters/cp950ext.h:78-83 cp950ext_uni2indx_page25 (flattened, 2 fields per entry) *)
Definition cp950ext_uni2indx_page25 : tab := mk [
 [0;0;0;0;0;0;0;0;0;0;0;65535;16;65535;32;1];
 [33;0;33;8]].

(* lib/converters/cp950ext.h:84-89 cp950ext_uni2indx_page58 (flattened, 2 fields per entry) *)
Definition cp950ext_uni2indx_page58 : tab := mk [
 [34;0;34;0;34;0;34;0;34;0;34;0;34;0;34;0];
 [34;0;34;0;34;0;34;2048]].

(* lib/converters/cp950ext.h:90-96 cp950ext_uni2indx_page5a (flattened, 2 fields per entry) *)
Definition cp950ext_uni2indx_page5a : tab := mk [
 [35;0;35;0;35;0;35;0;35;0;35;0;35;0;35;0];
 [35;0;35;0;35;0;35;0;35;0;35;0;35;0;35;1024]].

(* lib/converters/cp950ext.h:97-101 cp950ext_uni2indx_page60 (flattened, 2 fields per entry) *)
Definition cp950ext_uni2indx_page60 : tab := mk [
 [36;0;36;0;36;0;36;0;36;0;36;4]].

(* lib/converters/cp950ext.h:102-107 cp950ext_uni2indx_page78 (flattened, 2 fields per entry) *)
Definition cp950ext_uni2indx_page78 : tab := mk [
 [37;0;37;0;37;0;37;0;37;0;37;0;37;0;37;0];
 [37;2]].

(* lib/converters/cp950ext.h:108-113 cp950ext_uni2indx_page7c (flattened, 2 fields per entry) *)
Definition cp950ext_uni2indx_page7c : tab := mk [
 [38;0;38;0;38;0;38;0;38;0;38;0;38;0;38;0];
 [38;0;38;0;38;128]].

(* lib/converters/cp950ext.h:114-120 cp950ext_uni2indx_page88 (flattened, 2 fields per entry) *)
Definition cp950ext_uni2indx_page88 : tab := mk [
 [39;0;39;0;39;0;39;0;39;0;39;0;39;0;39;0];
 [39;0;39;0;39;0;39;0;39;32768]].

(* lib/converters/cp950ext.h:121-126 cp950ext_uni2indx_page92 (flattened, 2 fields per entry) *)
Definition cp950ext_uni2indx_page92 : tab := mk [
 [40;0;40;0;40;0;40;0;40;0;40;0;40;0;40;0];
 [40;0;40;0;40;0;40;512]].

(* lib/converters/cp950.h:94-137 cp950_2uni_pagea1 *)
Definition cp950_2uni_pagea1 : tab := mk [
 [12288;65292;12289;12290;65294;8231;65307;65306;65311;65281;65072;8230;8229;65104;65105;65106];
 [183;65108;65109;65110;65111;65372;8211;65073;8212;65075;9588;65076;65103;65288;65289;65077];
 [65078;65371;65373;65079;65080;12308;12309;65081;65082;12304;12305;65083;65084;12298;12299;65085];
 [65086;12296;12297;65087;65088;12300;12301;65089;65090;12302;12303;65091;65092;65113;65114;65115];
 [65116;65117;65118;8216;8217;8220;8221;12317;12318;8245;8242;65283;65286;65290;8251;167];
 [12291;9675;9679;9651;9650;9678;9734;9733;9671;9670;9633;9632;9661;9660;12963;8453];
 [175;65507;65343;717;65097;65098;65101;65102;65099;65100;65119;65120;65121;65291;65293;215];
 [247;177;8730;65308;65310;65309;8806;8807;8800;8734;8786;8801;65122;65123;65124;65125];
 [65126;65374;8745;8746;8869;8736;8735;8895;13266;13265;8747;8750;8757;8756;9792;9794];
 [8853;8857;8593;8595;8592;8594;8598;8599;8601;8600;8741;8739;65295;65340;8725;65128];
 [65284;65509;12306;65504;65505;65285;65312;8451;8457;65129;65130;65131;13269;13212;13213;13214];
 [13262;13217;13198;13199;13252;176;20825;20827;20830;20829;20833;20835;21991;29929;31950;9601];
 [9602;9603;9604;9605;9606;9607;9608;9615;9614;9613;9612;9611;9610;9609;9532;9524];
 [9516;9508;9500;9620;9472;9474;9621;9484;9488;9492;9496;9581;9582;9584;9583;9552];
 [9566;9578;9569;9698;9699;9701;9700;9585;9586;9587;65296;65297;65298;65299;65300;65301];
 [65302;65303;65304;65305;8544;8545;8546;8547;8548;8549;8550;8551;8552;8553;12321;12322];
 [12323;12324;12325;12326;12327;12328;12329;21313;21316;21317;65313;65314;65315;65316;65317;65318];
 [65319;65320;65321;65322;65323;65324;65325;65326;65327;65328;65329;65330;65331;65332;65333;65334];
 [65335;65336;65337;65338;65345;65346;65347;65348;65349;65350;65351;65352;65353;65354;65355;65356];
 [65357;65358;65359;65360;65361;65362;65363;65364;65365;65366]].

(* lib/converters/big5_2003.h:122-166 big5_2003_2uni_pagea1 *)
Definition big5_2003_2uni_pagea1 : tab := mk [
 [12288;65292;12289;12290;65294;8231;65307;65306;65311;65281;65072;8230;8229;65104;65105;65106];
 [183;65108;65109;65110;65111;65372;8213;65073;8212;65075;9588;65076;65103;65288;65289;65077];
 [65078;65371;65373;65079;65080;12308;12309;65081;65082;12304;12305;65083;65084;12298;12299;65085];
 [65086;12296;12297;65087;65088;12300;12301;65089;65090;12302;12303;65091;65092;65113;65114;65115];
 [65116;65117;65118;8216;8217;8220;8221;12317;12318;8245;8242;65283;65286;65290;8251;167];
 [12291;9675;9679;9651;9650;9678;9734;9733;9671;9670;9633;9632;9661;9660;12963;8453];
 [8254;65507;65343;717;65097;65098;65101;65102;65099;65100;65119;65120;65121;65291;65293;215];
 [247;177;8730;65308;65310;65309;8806;8807;8800;8734;8786;8801;65122;65123;65124;65125];
 [65126;65374;8745;8746;8869;8736;8735;8895;13266;13265;8747;8750;8757;8756;9792;9794];
 [8853;8857;8593;8595;8592;8594;8598;8599;8601;8600;8741;8739;65295;65340;8725;65128];
 [65284;65509;12306;65504;65505;65285;65312;8451;8457;65129;65130;65131;13269;13212;13213;13214];
 [13262;13217;13198;13199;13252;176;20825;20827;20830;20829;20833;20835;21991;29929;31950;9601];
 [9602;9603;9604;9605;9606;9607;9608;9615;9614;9613;9612;9611;9610;9609;9532;9524];
 [9516;9508;9500;9620;9472;9474;9621;9484;9488;9492;9496;9581;9582;9584;9583;9473];
 [9501;9535;9509;9698;9699;9701;9700;9585;9586;9587;65296;65297;65298;65299;65300;65301];
 [65302;65303;65304;65305;8544;8545;8546;8547;8548;8549;8550;8551;8552;8553;12321;12322];
 [12323;12324;12325;12326;12327;12328;12329;12344;12345;12346;65313;65314;65315;65316;65317;65318];
 [65319;65320;65321;65322;65323;65324;65325;65326;65327;65328;65329;65330;65331;65332;65333;65334];
 [65335;65336;65337;65338;65345;65346;65347;65348;65349;65350;65351;65352;65353;65354;65355;65356];
 [65357;65358;65359;65360;65361;65362;65363;65364;65365;65366]].

(* lib/converters/big5_2003.h:168-180 big5_2003_2uni_pagec6 *)
Definition big5_2003_2uni_pagec6 : tab := mk [
 [9312;9313;9314;9315;9316;9317;9318;9319;9320;9321;9332;9333;9334;9335;9336;9337];
 [9338;9339;9340;9341;8560;8561;8562;8563;8564;8565;8566;8567;8568;8569;12034;12035];
 [12037;12039;12044;12045;12046;12051;12054;12057;12059;12066;12071;12078;12083;12084;12085;12089];
 [12090;12097;12102;12135;12136;12193;12202;168;65342;12541;12542;12445;12446;65533;65533;12293];
 [12294;12295;12540;65339;65341;10045]].

(* lib/converters/big5_2003.h:182-193 big5_2003_2uni_pagef9 *)
Definition big5_2003_2uni_pagef9 : tab := mk [
 [30849;37561;35023;22715;24658;31911;23290;9556;9574;9559;9568;9580;9571;9562;9577;9565];
 [9554;9572;9557;9566;9578;9569;9560;9575;9563;9555;9573;9558;9567;9579;9570;9561];
 [9576;9564;9553;9552;9556;9559;9562;9565;9619]].

(* lib/converters/big5_2003.h:298-302 big5_2003_2charset_page25 *)
Definition big5_2003_2charset_page25 : tab := mk [
 [249;248;230;239;221;232;241;223;236;245;227;238;247;229;233;242];
 [224;235;244;226;231;240;222;237;246;228;234;243;225]].

