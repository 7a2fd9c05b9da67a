(** GENERATED by tools/gen.py from /repo/lib/converters; do not edit.
    Mapping tables. *)
From Coq Require Import ZArith List Bool.
From Verif Require Import Base.
Import ListNotations.
Open Scope Z_scope.

(* lib/converters/cns11643_1.h:30-101 cns11643_1_2uni_page21 *)
Definition cns11643_1_2uni_page21 : tab := mk [
 [12288;65292;12289;12290;65294;12539;65307;65306;65311;65281;65072;8230;8229;65104;65105;65106];
 [183;65108;65109;65110;65111;65073;8212;65074;8211;65533;65533;65533;65533;65288;65289;65077];
 [65078;65371;65373;65079;65080;12308;12309;65081;65082;12304;12305;65083;65084;12298;12299;65085];
 [65086;12296;12297;65087;65088;12300;12301;65089;65090;12302;12303;65091;65092;65113;65114;65115];
 [65116;65117;65118;8216;8217;8220;8221;12317;12318;8242;8245;65283;65286;65290;8251;167];
 [12291;9675;9679;9651;9650;9678;9734;9733;9671;9670;9633;9632;9661;9660;12963;8453];
 [8254;65533;65343;65533;65097;65098;65101;65102;65099;65100;65119;65120;65121;65291;65293;215];
 [247;177;8730;65308;65310;65309;8806;8807;8800;8734;8786;8801;65122;65123;65124;65126];
 [65125;8764;8745;8746;8869;8736;8735;8895;13266;13265;8747;8750;8757;8756;9792;9794];
 [9793;9737;8593;8595;8594;8592;8598;8599;8601;8600;8214;65372;65295;65340;8725;65128];
 [65284;65509;12306;65504;65505;65285;65312;8451;8457;65129;65130;65131;13269;13212;13213;13214];
 [13262;13217;13198;13199;13252;176;20825;20827;20830;20829;20833;20835;21991;29929;31950;9601];
 [9602;9603;9604;9605;9606;9607;9608;9615;9614;9613;9612;9611;9610;9609;9532;9524];
 [9516;9508;9500;9620;9472;9474;9621;9484;9488;9492;9496;9581;9582;9584;9583;9552];
 [9566;9578;9569;9698;9699;9701;9700;9585;9586;9587;65533;65533;65533;65533;65533;65533];
 [65533;65533;65533;65533;65533;65533;65533;65533;65533;65533;65533;65533;65533;65533;65533;65533];
 [65533;65533;65533;65533;65533;65533;65533;65533;65533;65533;65533;65533;65533;65533;65533;65533];
 [65533;65533;65533;65533;65533;65533;65533;65533;65533;65533;65296;65297;65298;65299;65300;65301];
 [65302;65303;65304;65305;8544;8545;8546;8547;8548;8549;8550;8551;8552;8553;12321;12322];
 [12323;12324;12325;12326;12327;12328;12329;65533;21316;65533;65313;65314;65315;65316;65317;65318];
 [65319;65320;65321;65322;65323;65324;65325;65326;65327;65328;65329;65330;65331;65332;65333;65334];
 [65335;65336;65337;65338;65345;65346;65347;65348;65349;65350;65351;65352;65353;65354;65355;65356];
 [65357;65358;65359;65360;65361;65362;65363;65364;65365;65366;65367;65368;65369;65370;913;914];
 [915;916;917;918;919;920;921;922;923;924;925;926;927;928;929;931];
 [932;933;934;935;936;937;945;946;947;948;949;950;951;952;953;954];
 [955;956;957;958;959;960;961;963;964;965;966;967;968;969;12549;12550];
 [12551;12552;12553;12554;12555;12556;12557;12558;12559;12560;12561;12562;12563;12564;12565;12566];
 [12567;12568;12569;12570;12571;12572;12573;12574;12575;12576;12577;12578;12579;12580;12581;12582];
 [12583;12584;12585;729;713;714;711;715;65533;65533;65533;65533;65533;65533;65533;65533];
 [65533;65533;65533;65533;65533;65533;9312;9313;9314;9315;9316;9317;9318;9319;9320;9321];
 [9332;9333;9334;9335;9336;9337;9338;9339;9340;9341;8560;8561;8562;8563;8564;8565];
 [8566;8567;8568;8569]].

(* lib/converters/cns11643_1.h:102-109 cns11643_1_2uni_page42 *)
Definition cns11643_1_2uni_page42 : tab := mk [
 [9216;9217;9218;9219;9220;9221;9222;9223;9224;9225;9226;9227;9228;9229;9230;9231];
 [9232;9233;9234;9235;9236;9237;9238;9239;9240;9241;9242;9243;9244;9245;9246;9247];
 [9249;8364]].

(* lib/converters/cns11643_1.h:110-859 cns11643_1_2uni_page44 *)
Definition cns11643_1_2uni_page44 : tab := mk [
 [19968;20057;19969;19971;20035;20061;20102;20108;20154;20799;20837;20843;20960;20992;20993;21147];
 [21269;21313;21340;21448;19977;19979;19976;19978;20011;20024;20961;20037;20040;20063;20062;20110];
 [20129;20800;20995;21242;21315;21449;21475;22303;22763;22805;22823;22899;23376;23377;23379;23544];
 [23567;23586;23608;23665;24029;24037;24049;24050;24051;24062;24178;24318;24331;24339;25165;19985];
 [19984;19981;20013;20016;20025;20043;23609;20104;20113;20117;20114;20116;20130;20161;20160;20163];
 [20166;20167;20173;20170;20171;20164;20803;20801;20839;20845;20846;20844;20887;20982;20998;20999];
 [21000;21243;21246;21247;21270;21305;21320;21319;21317;21342;21380;21451;21450;21453;22764;22825];
 [22827;22826;22829;23380;23569;23588;23610;23663;24052;24187;24319;24340;24341;24515;25096;25142];
 [25163;25166;25903;25991;26007;26020;26041;26085;26352;26376;26408;27424;27490;27513;27595;27604];
 [27611;27663;27700;28779;29226;29238;29243;29255;29273;29275;29356;29579;19993;19990;19989;19988];
 [19992;20027;20045;20047;20046;20197;20184;20180;20181;20182;20183;20195;20196;20185;20190;20805];
 [20804;20873;20874;20908;20985;20986;20984;21002;21152;21151;21253;21254;21271;21277;20191;21322];
 [21321;21345;21344;21359;21358;21435;21487;21476;21491;21484;21486;21481;21480;21500;21496;21493];
 [21483;21478;21482;21490;21489;21488;21477;21485;21499;22235;22234;22806;22830;22833;22900;22902];
 [23381;23427;23612;24040;24039;24038;24066;24067;24179;24188;24321;24344;24343;24517;25098;25171];
 [25172;25170;25169;26021;26086;26414;26412;26410;26411;26413;27491;27597;27665;27664;27704;27713];
 [27712;27710;29359;29572;29577;29916;29926;29976;29983;29992;29993;30000;30001;30002;30003;30091];
 [30333;30382;30399;30446;30683;30690;30707;31034;31166;31348;31435;19998;19999;20050;20051;20073];
 [20121;20132;20134;20133;20223;20233;20249;20234;20245;20237;20240;20241;20239;20210;20214;20219];
 [20208;20211;20221;20225;20235;20809;20807;20806;20808;20840;20849;20877;20912;21015;21009;21010];
 [21006;21014;21155;21256;21281;21280;21360;21361;21513;21519;21516;21514;21520;21505;21515;21508];
 [21521;21517;21512;21507;21518;21510;21522;22240;22238;22237;22323;22320;22312;22317;22316;22319];
 [22313;22809;22810;22839;22840;22916;22904;22915;22909;22905;22914;22913;23383;23384;23431;23432];
 [23429;23433;23546;23574;23673;24030;24070;24182;24180;24335;24347;24537;24534;25102;25100;25101];
 [25104;25187;25179;25176;25910;26089;26088;26092;26093;26354;26355;26377;26429;26420;26417;26421];
 [27425;27492;27515;27670;27741;27735;27737;27743;27744;27728;27733;27745;27739;27725;27726;28784];
 [29279;29277;30334;31481;31859;31992;32566;32650;32701;32769;32771;32780;32786;32819;32895;32905];
 [32907;32908;33251;33258;33267;33276;33292;33307;33311;33390;33394;33406;34411;34880;34892;34915];
 [35199;38433;20018;20136;20301;20303;20295;20311;20318;20276;20315;20309;20272;20304;20305;20285];
 [20282;20280;20291;20308;20284;20294;20323;20316;20320;20271;20302;20278;20313;20317;20296;20314];
 [20812;20811;20813;20853;20918;20919;21029;21028;21033;21034;21032;21163;21161;21162;21164;21283];
 [21363;21365;21533;21549;21534;21566;21542;21582;21543;21574;21571;21555;21576;21570;21531;21545];
 [21578;21561;21563;21560;21550;21557;21558;21536;21564;21568;21553;21547;21535;21548;22250;22256];
 [22244;22251;22346;22353;22336;22349;22343;22350;22334;22352;22351;22331;22767;22846;22941;22930];
 [22952;22942;22947;22937;22934;22925;22948;22931;22922;22949;23389;23388;23386;23387;23436;23435];
 [23439;23596;23616;23617;23615;23614;23696;23697;23700;23692;24043;24076;24207;24199;24202;24311];
 [24324;24351;24420;24418;24439;24441;24536;24524;24535;24525;24561;24555;24568;24554;25106;25105];
 [25220;25239;25238;25216;25206;25225;25197;25226;25212;25214;25209;25203;25234;25199;25240;25198];
 [25237;25235;25233;25222;25913;25915;25912;26097;26356;26463;26446;26447;26448;26449;26460;26454];
 [26462;26441;26438;26464;26451;26455;27493;27599;27714;27742;27801;27777;27784;27785;27781;27803];
 [27754;27770;27792;27760;27788;27752;27798;27794;27773;27779;27762;27774;27764;27782;27766;27789];
 [27796;27800;27778;28790;28796;28797;28792;29282;29281;29280;29380;29378;29590;29996;29995;30007];
 [30008;30338;30447;30691;31169;31168;31167;31350;31995;32597;32918;32915;32925;32920;32923;32922];
 [32946;33391;33426;33419;33421;35211;35282;35328;35895;35910;35925;35997;36196;36208;36275;36523];
 [36554;36763;36784;36802;36806;36805;36804;24033;37009;37026;37034;37030;37027;37193;37318;37324];
 [38450;38446;38449;38442;38444;20006;20054;20083;20107;20123;20126;20139;20140;20335;20381;20365];
 [20339;20351;20332;20379;20363;20358;20355;20336;20341;20360;20329;20347;20374;20350;20367;20369];
 [20346;20820;20818;20821;20841;20855;20854;20856;20925;20989;21051;21048;21047;21050;21040;21038];
 [21046;21057;21182;21179;21330;21332;21331;21329;21350;21367;21368;21369;21462;21460;21463;21619];
 [21621;21654;21624;21653;21632;21627;21623;21636;21650;21638;21628;21648;21617;21622;21644;21658];
 [21602;21608;21643;21629;21646;22266;22403;22391;22378;22377;22369;22374;22372;22396;22812;22857];
 [22855;22856;22852;22868;22974;22971;22996;22969;22958;22993;22982;22992;22989;22987;22995;22986];
 [22959;22963;22994;22981;23391;23396;23395;23447;23450;23448;23452;23449;23451;23578;23624;23621];
 [23622;23735;23713;23736;23721;23723;23729;23731;24088;24090;24086;24085;24091;24081;24184;24218];
 [24215;24220;24213;24214;24310;24358;24359;24361;24448;24449;24447;24444;24541;24544;24573;24565];
 [24575;24591;24596;24623;24629;24598;24618;24597;24609;24615;24617;24619;24603;25110;25109;25151];
 [25150;25152;25215;25289;25292;25284;25279;25282;25273;25298;25307;25259;25299;25300;25291;25288];
 [25256;25277;25276;25296;25305;25287;25293;25269;25306;25265;25304;25302;25303;25286;25260;25294];
 [25918;26023;26044;26106;26132;26131;26124;26118;26114;26126;26112;26127;26133;26122;26119;26381];
 [26379;26477;26507;26517;26481;26524;26483;26487;26503;26525;26519;26479;26480;26495;26505;26494];
 [26512;26485;26522;26515;26492;26474;26482;27427;27494;27495;27519;27667;27675;27875;27880;27891];
 [27825;27852;27877;27827;27837;27838;27836;27874;27819;27861;27859;27832;27844;27833;27841;27822];
 [27863;27845;27889;27839;27835;27873;27867;27850;27820;27887;27868;27862;27872;28821;28814;28818];
 [28810;28825;29228;29229;29240;29256;29287;29289;29376;29390;29401;29399;29392;29609;29608;29599];
 [29611;29605;30013;30109;30105;30106;30340;30402;30450;30452;30693;30717;31038;31040;31041;31177];
 [31176;31354;31353;31482;31998;32596;32652;32651;32773;32954;32933;32930;32945;32929;32939;32937];
 [32948;32938;32943;33253;33278;33293;33459;33437;33433;33453;33469;33439;33465;33457;33452;33445];
 [33455;33464;33443;33456;33470;33463;34382;34417;21021;34920;36555;36814;36820;36817;37045;37048];
 [37041;37046;37319;37329;38263;38272;38428;38464;38463;38459;38468;38466;38585;38632;38738;38750];
 [20127;20141;20142;20449;20405;20399;20415;20448;20433;20431;20445;20419;20406;20440;20447;20426];
 [20439;20398;20432;20420;20418;20442;20430;20446;20407;20823;20882;20881;20896;21070;21059;21066];
 [21069;21068;21067;21063;21191;21193;21187;21185;21261;21335;21371;21402;21467;21676;21696;21672];
 [21710;21705;21688;21670;21683;21703;21698;21693;21674;21697;21700;21704;21679;21675;21681;21691];
 [21673;21671;21695;22271;22402;22411;22432;22435;22434;22478;22446;22419;22869;22865;22863;22862];
 [22864;23004;23000;23039;23011;23016;23043;23013;23018;23002;23014;23041;23035;23401;23459;23462];
 [23460;23458;23461;23553;23630;23631;23629;23627;23769;23762;24055;24093;24101;24095;24189;24224];
 [24230;24314;24328;24365;24421;24456;24453;24458;24459;24455;24460;24457;24594;24605;24608;24613];
 [24590;24616;24653;24688;24680;24674;24646;24643;24684;24683;24682;24676;25153;25308;25366;25353];
 [25340;25325;25345;25326;25341;25351;25329;25335;25327;25324;25342;25332;25361;25346;25919;25925];
 [26027;26045;26082;26149;26157;26144;26151;26159;26143;26152;26161;26148;26359;26623;26579;26609];
 [26580;26576;26604;26550;26543;26613;26601;26607;26564;26577;26548;26586;26597;26552;26575;26590];
 [26611;26544;26585;26594;26589;26578;27498;27523;27526;27573;27602;27607;27679;27849;27915;27954];
 [27946;27969;27941;27916;27953;27934;27927;27963;27965;27966;27958;27931;27893;27961;27943;27960];
 [27945;27950;27957;27918;27947;28843;28858;28851;28844;28847;28845;28856;28846;28836;29232;29298];
 [29295;29300;29417;29408;29409;29623;29642;29627;29618;29645;29632;29619;29978;29997;30031;30028];
 [30030;30027;30123;30116;30117;30114;30115;30328;30342;30343;30344;30408;30406;30403;30405;30465];
 [30457;30456;30473;30475;30462;30460;30471;30684;30722;30740;30732;30733;31046;31049;31048;31047];
 [31161;31162;31185;31186;31179;31359;31361;31487;31485;31869;32002;32005;32000;32009;32007;32004];
 [32006;32568;32654;32703;32784;32781;32785;32822;32982;32997;32986;32963;32964;32972;32993;32987];
 [32974;32990;32996;32989;33268;33314;33511;33539;33541;33507;33499;33510;33540;33509;33538;33545];
 [33490;33495;33521;33537;33500;33492;33489;33502;33491;33503;33519;33542;34384;34425;34427;34426];
 [34893;34923;35201;35284;35336;35330;35331;35998;36000;36212;36211;36276;36557;36556;36848;36838];
 [36834;36842;36837;36845;36843;36836;36840;37066;37070;37057;37059;37195;37194;37325;38274;38480];
 [38475;38476;38477;38754;38761;38859;38893;38899;38913;39080;39131;39135;39318;39321;20056;20147];
 [20492;20493;20515;20463;20518;20517;20472;20521;20502;20486;20540;20511;20506;20498;20497;20474];
 [20480;20500;20520;20465;20513;20491;20505;20504;20467;20462;20525;20522;20478;20523;20489;20860];
 [20900;20901;20898;20941;20940;20934;20939;21078;21084;21076;21083;21085;21290;21375;21407;21405];
 [21471;21736;21776;21761;21815;21756;21733;21746;21766;21754;21780;21737;21741;21729;21769;21742];
 [21738;21734;21799;21767;21757;21775;22275;22276;22466;22484;22475;22467;22537;22799;22871;22872];
 [22874;23057;23064;23068;23071;23067;23059;23020;23072;23075;23081;23077;23052;23049;23403;23640];
 [23472;23475;23478;23476;23470;23477;23481;23480;23556;23633;23637;23632;23789;23805;23803;23786];
 [23784;23792;23798;23809;23796;24046;24109;24107;24235;24237;24231;24369;24466;24465;24464;24665];
 [24675;24677;24656;24661;24685;24681;24687;24708;24735;24730;24717;24724;24716;24709;24726;25159];
 [25331;25352;25343;25422;25406;25391;25429;25410;25414;25423;25417;25402;25424;25405;25386;25387];
 [25384;25421;25420;25928;25929;26009;26049;26053;26178;26185;26191;26179;26194;26188;26181;26177];
 [26360;26388;26389;26391;26657;26680;26696;26694;26707;26681;26690;26708;26665;26803;26647;26700];
 [26705;26685;26612;26704;26688;26684;26691;26666;26693;26643;26648;26689;27530;27529;27575;27683];
 [27687;27688;27686;27684;27888;28010;28053;28040;28039;28006;28024;28023;27993;28051;28012;28041];
 [28014;27994;28020;28009;28044;28042;28025;28037;28005;28052;28874;28888;28900;28889;28872;28879];
 [29241;29305;29436;29433;29437;29432;29431;29574;29677;29705;29678;29664;29674;29662;30036;30045];
 [30044;30042;30041;30142;30149;30151;30130;30131;30141;30140;30137;30146;30136;30347;30384;30410];
 [30413;30414;30505;30495;30496;30504;30697;30768;30759;30776;30749;30772;30775;30757;30765;30752];
 [30751;30770;31061;31056;31072;31071;31062;31070;31069;31063;31066;31204;31203;31207;31199;31206];
 [31209;31192;31364;31368;31449;31494;31505;31881;32033;32023;32011;32010;32032;32034;32020;32016];
 [32021;32026;32028;32013;32025;32027;32570;32607;32660;32709;32705;32774;32772;32792;32789;32793];
 [32791;32829;32831;33009;33026;33008;33029;33005;33012;33030;33016;33011;33032;33021;33034;33020];
 [33007;33261;33260;33280;33296;33322;33323;33320;33324;33467;33579;33618;33620;33610;33592;33616];
 [33609;33589;33588;33615;33586;33593;33590;33559;33600;33585;33576;33603;34388;34442;34474;34451];
 [34468;34473;34444;34467;34460;34928;34935;34945;34946;34941;34937;35352;35344;35342;35340;35349];
 [35338;35351;35347;35350;35343;35345;35912;35962;35961;36001;36002;36215;36524;36562;36564;36559];
 [36785;36865;36870;36855;36864;36858;36852;36867;36861;36869;36856;37013;37089;37085;37090;37202];
 [37197;37196;37336;37341;37335;37340;37337;38275;38498;38499;38497;38491;38493;38500;38488;38494];
 [38587;39138;39340;39592;39640;39717;39730;39740;20094;20602;20605;20572;20551;20547;20556;20570];
 [20553;20581;20598;20558;20565;20597;20596;20599;20559;20495;20591;20589;20828;20885;20976;21098];
 [21103;21202;21209;21208;21205;21264;21263;21273;21311;21312;21310;21443;26364;21830;21866;21862];
 [21828;21854;21857;21827;21834;21809;21846;21839;21845;21807;21860;21816;21806;21852;21804;21859];
 [21811;21825;21847;22280;22283;22281;22495;22533;22538;22534;22496;22500;22522;22530;22581;22519];
 [22521;22816;22882;23094;23105;23113;23142;23146;23104;23100;23138;23130;23110;23114;23408;23495];
 [23493;23492;23490;23487;23494;23561;23560;23559;23648;23644;23645;23815;23814;23822;23835;23830];
 [23842;23825;23849;23828;23833;23844;23847;23831;24034;24120;24118;24115;24119;24247;24248;24246];
 [24245;24254;24373;24375;24407;24428;24425;24427;24471;24473;24478;24472;24481;24480;24476;24703];
 [24739;24713;24736;24744;24779;24756;24806;24765;24773;24763;24757;24796;24764;24792;24789;24774];
 [24799;24760;24794;24775;25114;25115;25160;25504;25511;25458;25494;25506;25509;25463;25447;25496];
 [25514;25457;25513;25481;25475;25499;25451;25512;25476;25480;25497;25505;25516;25490;25487;25472];
 [25467;25449;25448;25466;25949;25942;25937;25945;25943;21855;25935;25944;25941;25940;26012;26011];
 [26028;26063;26059;26060;26062;26205;26202;26212;26216;26214;26206;26361;21207;26395;26753;26799];
 [26786;26771;26805;26751;26742;26801;26791;26775;26800;26755;26820;26797;26758;26757;26772;26781];
 [26792;26783;26785;26754;27442;27578;27627;27628;27691;28046;28092;28147;28121;28082;28129;28108];
 [28132;28155;28154;28165;28103;28107;28079;28113;28078;28126;28153;28088;28151;28149;28101;28114];
 [28186;28085;28122;28139;28120;28138;28145;28142;28136;28102;28100;28074;28140;28095;28134;28921];
 [28937;28938;28925;28911;29245;29309;29313;29468;29467;29462;29459;29465;29575;29701;29706;29699];
 [29702;29694;29709;29920;29942;29943;29980;29986;30053;30054;30050;30064;30095;30164;30165;30133];
 [30154;30157;30350;30420;30418;30427;30519;30526;30524;30518;30520;30522;30827;30787;30798;31077];
 [31080;31085;31227;31378;31381;31520;31528;31515;31532;31526;31513;31518;31534;31890;31895;31893];
 [32070;32067;32113;32046;32057;32060;32064;32048;32051;32068;32047;32066;32050;32049;32573;32670];
 [32666;32716;32718;32722;32796;32842;32838;33071;33046;33059;33067;33065;33072;33060;33282;33333];
 [33335;33334;33337;33678;33694;33688;33656;33698;33686;33725;33707;33682;33674;33683;33673;33696];
 [33655;33659;33660;33670;33703;34389;24426;34503;34496;34486;34500;34485;34502;34507;34481;34479];
 [34505;34899;34974;34952;34987;34962;34966;34957;34955;35219;35215;35370;35357;35363;35365;35377];
 [35373;35359;35355;35362;35913;35930;36009;36012;36011;36008;36010;36007;36199;36198;36286;36282];
 [36571;36575;36889;36877;36890;36887;36899;36895;36893;36880;36885;36894;36896;36879;36898;36886];
 [36891;36884;37096;37101;37117;37207;37326;37365;37350;37347;37351;37357;37353;38281;38506;38517];
 [38515;38520;38512;38516;38518;38519;38508;38592;38634;38633;31456;31455;38914;38915;39770;40165];
 [40565;40575;40613;40635;20642;20621;20613;20633;20625;20608;20630;20632;20634;26368;20977;21106];
 [21108;21109;21097;21214;21213;21211;21338;21413;21883;21888;21927;21884;21898;21917;21912;21890];
 [21916;21930;21908;21895;21899;21891;21939;21934;21919;21822;21938;21914;21947;21932;21937;21886];
 [21897;21931;21913;22285;22575;22570;22580;22564;22576;22577;22561;22557;22560;22777;22778;22880];
 [23159;23194;23167;23186;23195;23207;23411;23409;23506;23500;23507;23504;23562;23563;23601;23884];
 [23888;23860;23879;24061;24133;24125;24128;24131;24190;24266;24257;24258;24260;24380;24429;24489];
 [24490;24488;24785;24801;24754;24758;24800;24860;24867;24826;24853;24816;24827;24820;24936;24817];
 [24846;24822;24841;24832;24850;25119;25161;25507;25484;25551;25536;25577;25545;25542;25549;25554];
 [25571;25552;25569;25558;25581;25582;25462;25588;25578;25563;25682;25562;25593;25950;25958;25954];
 [25955;26001;26000;26031;26222;26224;26228;26230;26223;26257;26234;26238;26231;26366;26367;26399];
 [26397;26874;26837;26848;26840;26839;26885;26847;26869;26862;26855;26873;26834;26866;26851;26827];
 [26829;26893;26898;26894;26825;26842;26990;26875;27454;27450;27453;27544;27542;27580;27631;27694];
 [27695;27692;28207;28216;28244;28193;28210;28263;28234;28192;28197;28195;28187;28251;28248;28196];
 [28246;28270;28205;28198;28271;28212;28237;28218;28204;28227;28189;28222;28363;28297;28185;28238];
 [28259;28228;28274;28265;28255;28953;28954;28966;28976;28961;28982;29038;28956;29260;29316;29312];
 [29494;29477;29492;29481;29754;29738;29747;29730;29733;29749;29750;29748;29743;29723;29734;29736];
 [29989;29990;30059;30058;30178;30171;30179;30169;30168;30174;30176;30331;30332;30358;30355;30388];
 [30428;30543;30701;30813;30828;30831;31245;31240;31243;31237;31232;31384;31383;31382;31461;31459];
 [31561;31574;31558;31568;31570;31572;31565;31563;31567;31569;31903;31909;32094;32080;32104;32085];
 [32043;32110;32114;32097;32102;32098;32112;32115;21892;32724;32725;32779;32850;32901;33109;33108];
 [33099;33105;33102;33081;33094;33086;33100;33107;33140;33298;33308;33769;33795;33784;33805;33760];
 [33733;33803;33729;33775;33777;33780;33879;33802;33776;33804;33740;33789;33778;33738;33848;33806];
 [33796;33756;33799;33748;33759;34395;34527;34521;34541;34516;34523;34532;34512;34526;34903;35009];
 [35010;34993;35203;35222;35387;35424;35413;35422;35388;35393;35412;35419;35408;35398;35380;35386];
 [35382;35414;35937;35970;36015;36028;36019;36029;36033;36027;36032;36020;36023;36022;36031;36024];
 [36234;36229;36225;36302;36317;36299;36314;36305;36300;36315;36294;36603;36600;36604;36764;36910];
 [36917;36913;36920;36914;36918;37122;37109;37129;37118;37219;37221;37327;37396;37397;37411;37385];
 [37406;37389;37392;37383;37393;38292;38287;38283;38289;38291;38290;38286;38538;38542;38539;38525];
 [38533;38534;38541;38514;38532;38593;38597;38596;38598;38599;38639;38642;38860;38917;38918;38920];
 [39143;39146;39151;39145;39154;39149;39342;39341;40643;40653;40657;20098;20653;20661;20658;20659];
 [20677;20670;20652;20663;20667;20655;20679;21119;21111;21117;21215;21222;21220;21218;21219;21295];
 [21983;21992;21971;21990;21966;21980;21959;21969;21987;21988;21999;21978;21985;21957;21958;21989];
 [21961;22290;22291;22622;22609;22616;22615;22618;22612;22635;22604;22637;22602;22626;22610;22603];
 [22887;23233;23241;23244;23230;23229;23228;23219;23234;23218;23913;23919;24140;24185;24265;24264];
 [24338;24409;24492;24494;24858;24847;24904;24863;24819;24859;24825;24833;24840;24910;24908;24900];
 [24909;24894;24884;24871;24845;24838;24887;25121;25122;25619;25662;25630;25642;25645;25661;25644];
 [25615;25628;25620;25613;25654;25622;25623;25606;25964;26015;26032;26263;26249;26247;26248;26262];
 [26244;26264;26253;26371;27028;26989;26970;26999;26976;26964;26997;26928;27010;26954;26984;26987];
 [26974;26963;27001;27014;26973;26979;26971;27463;27506;27584;27583;27603;27645;28322;28335;28371];
 [28342;28354;28304;28317;28359;28357;28325;28312;28348;28346;28331;28369;28310;28316;28356;28372];
 [28330;28327;28340;29006;29017;29033;29028;29001;29031;29020;29036;29030;29004;29029;29022;28998];
 [29032;29014;29242;29266;29495;29509;29503;29502;29807;29786;29781;29791;29790;29761;29759;29785];
 [29787;29788;30070;30072;30208;30192;30209;30194;30193;30202;30207;30196;30195;30430;30431;30555];
 [30571;30566;30558;30563;30585;30570;30572;30556;30565;30568;30562;30702;30862;30896;30871;30872];
 [30860;30857;30844;30865;30867;30847;31098;31103;31105;33836;31165;31260;31258;31264;31252;31263];
 [31262;31391;31392;31607;31680;31584;31598;31591;31921;31923;31925;32147;32121;32145;32129;32143];
 [32091;32622;32617;32618;32626;32681;32680;32676;32854;32856;32902;32900;33137;33136;33144;33125];
 [33134;33139;33131;33145;33146;33126;33285;33351;33922;33911;33853;33841;33909;33894;33899;33865];
 [33900;33883;33852;33845;33889;33891;33897;33901;33862;34398;34396;34399;34553;34579;34568;34567];
 [34560;34558;34555;34562;34563;34566;34570;34905;35039;35028;35033;35036;35032;35037;35041;35018];
 [35029;35026;35228;35299;35435;35442;35443;35430;35433;35440;35463;35452;35427;35488;35441;35461];
 [35437;35426;35438;35436;35449;35451;35390;35432;35938;35978;35977;36042;36039;36040;36036;36018];
 [36035;36034;36037;36321;36319;36328;36335;36339;36346;36330;36324;36326;36530;36611;36617;36606];
 [36618;36767;36786;36939;36938;36947;36930;36948;36924;36949;36944;36935;36943;36942;36941;36945];
 [36926;36929;37138;37143;37228;37226;37225;37321;37431;37463;37432;37437;37440;37438;37467;37451];
 [37476;37457;37428;37449;37453;37445;37433;37439;37466;38296;38552;38548;38549;38605;38603;38601];
 [38602;38647;38651;38649;38646;38742;38772;38774;38928;38929;38931;38922;38930;38924;39164;39156];
 [39165;39166;39347;39345;39348;39649;40169;40578;40718;40723;40736;20711;20718;20709;20694;20717];
 [20698;20693;20687;20689;20721;20686;20713;20834;20979;21123;21122;21297;21421;22014;22016;22043];
 [22039;22013;22036;22022;22025;22029;22030;22007;22038;22047;22024;22032;22006;22296;22294;22645];
 [22654;22659;22675;22666;22649;22661;22653;22781;22821;22818;22820;22890;22889;23265;23270;23273];
 [23255;23254;23256;23267;23413;23518;23527;23521;23525;23526;23528;23522;23524;23519;23565;23650];
 [23940;23943;24155;24163;24149;24151;24148;24275;24278;24330;24390;24432;24505;24903;24895;24907];
 [24951;24930;24931;24927;24922;24920;24949;25130;25735;25688;25684;25764;25720;25695;25722;25681];
 [25703;25652;25709;25723;25970;26017;26071;26070;26274;26280;26269;27036;27048;27029;27073;27054];
 [27091;27083;27035;27063;27067;27051;27060;27088;27085;27053;27084;27046;27075;27043;27465;27468];
 [27699;28467;28436;28414;28435;28404;28457;28478;28448;28460;28431;28418;28450;28415;28399;28422];
 [28465;28472;28466;28451;28437;28459;28463;28552;28458;28396;28417;28402;28364;28407;29076;29081];
 [29053;29066;29060;29074;29246;29330;29334;29508;29520;29796;29795;29802;29808;29805;29956;30097];
 [30247;30221;30219;30217;30227;30433;30435;30596;30589;30591;30561;30913;30879;30887;30899;30889];
 [30883;31118;31119;31117;31278;31281;31402;31401;31469;31471;31649;31637;31627;31605;31639;31645];
 [31636;31631;31672;31623;31620;31929;31933;31934;32187;32176;32156;32189;32190;32160;32202;32180];
 [32178;32177;32186;32162;32191;32181;32184;32173;32210;32199;32172;32624;32736;32737;32735;32862];
 [32858;32903;33104;33152;33167;33160;33162;33151;33154;33255;33274;33287;33300;33310;33355;33993];
 [33983;33990;33988;33945;33950;33970;33948;33995;33976;33984;34003;33936;33980;34001;33994;34623];
 [34588;34619;34594;34597;34612;34584;34645;34615;34601;35059;35074;35060;35065;35064;35069;35048];
 [35098;35055;35494;35468;35486;35491;35469;35489;35475;35492;35498;35493;35496;35480;35473;35482];
 [35495;35946;35981;35980;36051;36049;36050;36203;36249;36245;36348;36628;36626;36629;36627;36771];
 [36960;36952;36956;36963;36953;36958;36962;36957;36955;37145;37144;37150;37237;37240;37239;37236];
 [37496;37548;37504;37509;37528;37526;37499;37523;37532;37544;37500;37521;38305;38312;38313;38307];
 [38309;38308;38553;38556;38555;38604;38610;38656;38780;38789;38902;38935;38936;39087;39089;39171];
 [39173;39180;39177;39361;39599;39600;39654;39745;39746;40180;40182;40179;40636;40763;40778;20740];
 [20736;20731;20725;20729;20738;20744;20745;20741;20956;21127;21128;21129;21133;21130;21232;21426];
 [22062;22075;22073;22066;22079;22068;22057;22099;22094;22103;22132;22070;22063;22064;22656;22687];
 [22686;22707;22684;22702;22697;22694;22893;23305;23291;23307;23285;23308;23304;23534;23532;23529];
 [23531;23652;23653;23965;23956;24162;24159;24161;24290;24282;24287;24285;24291;24288;24392;24433];
 [24503;24501;24950;24935;24942;24925;24917;24962;24956;24944;24939;24958;24999;24976;25003;24974];
 [25004;24986;24996;24980;25006;25134;25705;25711;25721;25758;25778;25736;25744;25776;25765;25747];
 [25749;25769;25746;25774;25773;25771;25754;25772;25753;25762;25779;25973;25975;25976;26286;26283];
 [26292;26289;27171;27167;27112;27137;27166;27161;27133;27169;27155;27146;27123;27138;27141;27117];
 [27153;27472;27470;27556;27589;27590;28479;28540;28548;28497;28518;28500;28550;28525;28507;28536];
 [28526;28558;28538;28528;28516;28567;28504;28373;28527;28512;28511;29087;29100;29105;29096;29270];
 [29339;29518;29527;29801;29835;29827;29822;29824;30079;30240;30249;30239;30244;30246;30241;30242];
 [30362;30394;30436;30606;30599;30604;30609;30603;30923;30917;30906;30922;30910;30933;30908;30928];
 [31295;31292;31296;31293;31287;31291;31407;31406;31661;31665;31684;31668;31686;31687;31681;31648];
 [31692;31946;32224;32244;32239;32251;32216;32236;32221;32232;32227;32218;32222;32233;32158;32217];
 [32242;32249;32629;32631;32687;32745;32806;33179;33180;33181;33184;33178;33176;34071;34109;34074];
 [34030;34092;34093;34067;34065;34083;34081;34068;34028;34085;34047;34054;34690;34676;34678;34656];
 [34662;34680;34664;34649;34647;34636;34643;34907;34909;35088;35079;35090;35091;35093;35082;35516];
 [35538;35527;35524;35477;35531;35576;35506;35529;35522;35519;35504;35542;35533;35510;35513;35547];
 [35916;35918;35948;36064;36062;36070;36068;36076;36077;36066;36067;36060;36074;36065;36205;36255];
 [36259;36395;36368;36381;36386;36367;36393;36383;36385;36382;36538;36637;36635;36639;36649;36646];
 [36650;36636;36638;36645;36969;36974;36968;36973;36983;37168;37165;37159;37169;37255;37257;37259];
 [37251;37573;37563;37559;37610;37604;37569;37555;37564;37586;37575;37616;37554;38317;38321;38660];
 [38662;38663;38665;38752;38797;38795;38799;38945;38955;38940;39091;39178;39187;39186;39192;39389];
 [39376;39391;39387;39377;39381;39378;39385;39607;39662;39663;39719;39749;39748;39799;39791;40198];
 [40201;40195;40617;40638;40654;22696;40786;20754;20760;20756;20752;20757;20864;20906;20957;21137];
 [21139;21235;22105;22123;22137;22121;22116;22136;22122;22120;22117;22129;22127;22124;22114;22134];
 [22721;22718;22727;22725;22894;23325;23348;23416;23536;23566;24394;25010;24977;25001;24970;25037];
 [25014;25022;25034;25032;25136;25797;25793;25803;25787;25788;25818;25796;25799;25794;25805;25791];
 [25810;25812;25790;25972;26310;26313;26297;26308;26311;26296;27197;27192;27194;27225;27243;27224];
 [27193;27204;27234;27233;27211;27207;27189;27231;27208;27481;27511;27653;28610;28593;28577;28611];
 [28580;28609;28583;28595;28608;28601;28598;28582;28576;28596;29118;29129;29136;29138;29128;29141];
 [29113;29134;29145;29148;29123;29124;29544;29852;29859;29848;29855;29854;29922;29964;29965;30260];
 [30264;30266;30439;30437;30624;30622;30623;30629;30952;30938;30956;30951;31142;31309;31310;31302];
 [31308;31307;31418;31705;31761;31689;31716;31707;31713;31721;31718;31957;31958;32266;32273;32264];
 [32283;32291;32286;32285;32265;32272;32633;32690;32752;32753;32750;32808;33203;33193;33192;33275];
 [33288;33368;33369;34122;34137;34120;34152;34153;34115;34121;34157;34154;34142;34691;34719;34718];
 [34722;34701;34913;35114;35122;35109;35115;35105;35242;35238;35558;35578;35563;35569;35584;35548];
 [35559;35566;35582;35585;35586;35575;35565;35571;35574;35580;35947;35949;35987;36084;36420;36401];
 [36404;36418;36409;36405;36667;36655;36664;36659;36776;36774;36981;36980;36984;36978;36988;36986];
 [37172;37266;37664;37686;37624;37683;37679;37666;37628;37675;37636;37658;37648;37670;37665;37653];
 [37678;37657;38331;38567;38568;38570;38613;38670;38673;38678;38669;38675;38671;38747;38748;38758];
 [38808;38960;38968;38971;38967;38957;38969;38948;39184;39208;39198;39195;39201;39194;39405;39394];
 [39409;39608;39612;39675;39661;39720;39825;40213;40227;40230;40232;40210;40219;40664;40660;40845];
 [40860;20778;20767;20769;20786;21237;22158;22144;22160;22149;22151;22159;22741;22739;22737;22734];
 [23344;23338;23332;23418;23607;23656;23996;23994;23997;23992;24171;24396;24509;25033;25026;25031];
 [25062;25035;25138;25140;25806;25802;25816;25824;25840;25830;25836;25841;25826;25837;25986;25987];
 [26329;26326;27264;27284;27268;27298;27292;27355;27299;27262;27287;27280;27296;27484;27566;27610];
 [27656;28632;28657;28639;28640;28635;28644;28651;28655;28544;28652;28641;28649;28629;28654;28656];
 [29159;29151;29166;29158;29157;29165;29164;29172;29152;29237;29254;29552;29554;29865;29872;29862];
 [29864;30278;30274;30284;30442;30643;30634;30640;30636;30631;30637;30703;30967;30970;30964;30959];
 [30977;31143;31146;31319;31423;31751;31757;31742;31735;31756;31712;31968;31964;31966;31970;31967];
 [31961;31965;32302;32318;32326;32311;32306;32323;32299;32317;32305;32325;32321;32308;32313;32328];
 [32309;32319;32303;32580;32755;32764;32881;32882;32880;32879;32883;33222;33219;33210;33218;33216];
 [33215;33213;33225;33214;33256;33289;33393;34218;34180;34174;34204;34193;34196;34223;34203;34183];
 [34216;34186;34214;34407;34752;34769;34739;34770;34758;34731;34747;34746;34760;34763;35131;35126];
 [35140;35128;35133;35244;35598;35607;35609;35611;35594;35616;35613;35588;35600;35905;35903;35955];
 [36090;36093;36092;36088;36091;36264;36425;36427;36424;36426;36676;36670;36674;36677;36671;36991];
 [36989;36996;36993;36994;36992;37177;37283;37278;37276;37709;37762;37672;37749;37706;37733;37707];
 [37656;37758;37740;37723;37744;37722;37716;38346;38347;38348;38344;38342;38577;38584;38614;38684];
 [38686;38816;38867;38982;39094;39221;39425;39423;39854;39851;39850;39853;40251;40255;40587;40655];
 [40670;40668;40669;40667;40766;40779;21474;22165;22190;22745;22744;23352;24414;25059;25139;25844];
 [25842;25854;25862;25850;25851;25847;26039;26332;26406;27315;27308;27331;27323;27320;27330;27310];
 [27311;27487;27512;27567;28681;28683;28670;28678;28666;28689;28687;29179;29180;29182;29176;29559];
 [29557;29863;29887;29973;30294;30296;30290;30653;30655;30651;30652;30990;31150;31329;31330;31328];
 [31428;31429;31787;31783;31786;31774;31779;31777;31975;32340;32341;32350;32346;32353;32338;32345];
 [32584;32761;32763;32887;32886;33229;33231;33290;34255;34217;34253;34256;34249;34224;34234;34233];
 [34799;34796;34802;34784;35206;35250;35316;35624;35641;35628;35627;35920;36101;36441;36451;36454];
 [36452;36447;36437;36544;36681;36685;36999;36995;37000;37291;37292;37328;37780;37770;37782;37794];
 [37811;37806;37804;37808;37784;37786;37783;38356;38358;38352;38357;38626;38620;38617;38619;38622];
 [38692;38819;38822;38829;38905;38989;38991;38988;38990;38995;39098;39230;39231;39229;39214;39333];
 [39438;39617;39683;39686;39759;39758;39757;39882;39881;39933;39880;39872;40273;40285;40288;40672];
 [40725;40748;20787;22181;22184;22750;22751;22754;23541;40848;24300;25074;25079;25078;25077;25856];
 [25871;26336;26333;27365;27357;27354;27347;28699;28703;28712;28698;28701;28693;28696;29190;29197];
 [29272;29346;29560;29562;29885;29898;29923;30087;30086;30303;30305;30663;31001;31153;31339;31337];
 [31806;31807;31800;31805;31799;31808;32363;32365;32377;32361;32362;32371;32645;32694;32697;32696];
 [33240;34281;34269;34282;34261;34276;34277;34295;34811;34821;34829;34809;34814;35168;35167;35158];
 [35166;35649;35676;35672;35657;35674;35662;35663;35654;35673;36104;36106;36476;36466;36487;36470];
 [36460;36474;36468;36692;36686;36781;37002;37003;37297;37294;37857;37841;37855;37827;37832;37852];
 [37853;37846;37858;37837;37848;37860;37847;37864;38364;38580;38627;38698;38695;38753;38876;38907];
 [39006;39000;39003;39100;39237;39241;39446;39449;39693;39912;39911;39894;39899;40329;40289;40306];
 [40298;40300;40594;40599;40595;40628;21240;22199;22198;22196;22204;22756;23360;23363;23421;23542];
 [24009;25080;25082;25880;25876;25881;26342;26407;27372;28734;28720;28722;29200;29563;29903;30306];
 [30309;31014;31018;31020;31019;31431;31478;31820;31811;31821;31983;31984;36782;32381;32380;32386];
 [32588;32768;33242;33382;34299;34297;34321;34298;34310;34315;34311;34314;34836;34837;35172;35258];
 [35320;35696;35692;35686;35695;35679;35691;36111;36109;36489;36481;36485;36482;37300;37323;37912];
 [37891;37885;38369;38704;39108;39250;39249;39336;39467;39472;39479;39477;39955;39949;40569;40629];
 [40680;40751;40799;40803;40801;20791;20792;22209;22208;22210;22804;23660;24013;25084;25086;25885];
 [25884;26005;26345;27387;27396;27386;27570;28748;29211;29351;29910;29908;30313;30675;31824;32399];
 [32396;32700;34327;34349;34330;34851;34850;34849;34847;35178;35180;35261;35700;35703;35709;36115];
 [36490;36493;36491;36703;36783;37306;37934;37939;37941;37946;37944;37938;37931;38370;38712;38713];
 [38706;38911;39015;39013;39255;39493;39491;39488;39486;39631;39764;39761;39981;39973;40367;40372];
 [40386;40376;40605;40687;40729;40796;40806;40807;20796;20795;22216;22218;22217;23423;24020;24018];
 [24398;25087;25892;27402;27489;28753;28760;29568;29924;30090;30318;30316;31155;31840;31839;32894];
 [32893;33247;35186;35183;35324;35712;36118;36119;36497;36499;36705;37192;37956;37969;37970;38717];
 [38718;38851;38849;39019;39253;39509;39501;39634;39706;40009;39985;39998;39995;40403;40407;40756];
 [40812;40810;40852;22220;24022;25088;25891;25899;25898;26348;27408;29914;31434;31844;31843;31845];
 [32403;32406;32404;33250;34360;34367;34865;35722;37008;37007;37987;37984;37988;38760;39023;39260];
 [39514;39515;39511;39635;39636;39633;40020;40023;40022;40421;40607;40692;22225;22761;25900;28766];
 [30321;30322;30679;32592;32648;34870;34873;34914;35731;35730;35734;33399;36123;37312;37994;38722];
 [38728;38724;38854;39024;39519;39714;39768;40031;40441;40442;40572;40573;40711;40823;40818;24307];
 [27414;28771;31852;31854;34875;35264;36513;37313;38002;38000;39025;39262;39638;39715;40652;28772];
 [30682;35738;38007;38857;39522;39525;32412;35740;36522;37317;38013;38014;38012;40055;40056;40695];
 [35924;38015;40474;29224;39530;39729;40475;40478;31858]].

(* lib/converters/cns11643_2.h:30-1091 cns11643_2_2uni_page21 *)
Definition cns11643_2_2uni_page21 : tab := mk [
 [20034;20060;20981;21274;21378;19975;19980;20039;20109;22231;23662;24435;19983;20871;19982;20014];
 [20115;20162;20169;20168;20888;21244;21356;21433;22304;22787;22828;23568;24063;26081;27571;27596];
 [27668;29247;20017;20028;20200;20188;20201;20193;20189;20186;21004;21001;21276;21324;22306;22307];
 [22807;22831;23425;23428;23570;23611;23668;23667;24068;24192;24194;24521;25097;25168;27669;27702];
 [27715;27711;27707;29358;29360;29578;31160;32906;38430;20238;20248;20268;20213;20244;20209;20224];
 [20215;20232;20253;20226;20229;20258;20243;20228;20212;20242;20913;21011;21008;21158;21282;21279];
 [21325;21386;21511;22241;22239;22318;22314;22324;22844;22912;22908;22917;22907;22910;22903;22911];
 [23382;23573;23589;23676;23674;23675;23678;24031;24181;24196;24322;24346;24436;24533;24532;24527];
 [25180;25182;25188;25185;25190;25186;25177;25184;25178;25189;25911;26095;26094;26430;26425;26424];
 [26427;26426;26431;26428;26419;27672;27718;27730;27740;27727;27722;27732;27723;27724;28785;29278];
 [29364;29365;29582;29994;30335;31349;32593;33400;33404;33408;33405;33407;34381;35198;37017;37015];
 [37016;37019;37012;38434;38436;38432;38435;20310;20283;20322;20297;20307;20324;20286;20327;20306];
 [20319;20289;20312;20269;20275;20287;20321;20879;20921;21020;21022;21025;21165;21166;21257;21347];
 [21362;21390;21391;21552;21559;21546;21588;21573;21529;21532;21541;21528;21565;21583;21569;21544];
 [21540;21575;22254;22247;22245;22337;22341;22348;22345;22347;22354;22790;22848;22950;22936;22944];
 [22935;22926;22946;22928;22927;22951;22945;23438;23442;23592;23594;23693;23695;23688;23691;23689];
 [23698;23690;23686;23699;23701;24032;24074;24078;24203;24201;24204;24200;24205;24325;24349;24440];
 [24438;24530;24529;24528;24557;24552;24558;24563;24545;24548;24547;24570;24559;24567;24571;24576];
 [24564;25146;25219;25228;25230;25231;25236;25223;25201;25211;25210;25200;25217;25224;25207;25213];
 [25202;25204;26096;26100;26099;26098;26101;26437;26439;26457;26453;26444;26440;26461;26445;26458];
 [26443;27600;27673;27674;27768;27751;27755;27780;27787;27791;27761;27759;27753;27802;27757;27783];
 [27797;27804;27750;27763;27749;27771;27790;28788;28794;29283;29375;29373;29379;29382;29377;29370];
 [29381;29589;29591;29587;29588;29586;30010;30009;30100;30101;30337;31037;32820;32917;32921;32912];
 [32914;32924;33424;33423;33413;33422;33425;33427;33418;33411;33412;35960;36809;36799;37023;37025];
 [37029;37022;37031;37024;38448;38440;38447;38445;20019;20376;20348;20357;20349;20352;20359;20342];
 [20340;20361;20356;20343;20300;20375;20330;20378;20345;20353;20344;20368;20380;20372;20382;20370];
 [20354;20373;20331;20334;20894;20924;20926;21045;21042;21043;21062;21041;21180;21258;21259;21308];
 [21394;21396;21639;21631;21633;21649;21634;21640;21611;21626;21630;21605;21612;21620;21606;21645];
 [21615;21601;21600;21656;21603;21607;21604;22263;22265;22383;22386;22381;22379;22385;22384;22390];
 [22400;22389;22395;22387;22388;22370;22376;22397;22796;22853;22965;22970;22991;22990;22962;22988];
 [22977;22966;22972;22979;22998;22961;22973;22976;22984;22964;22983;23394;23397;23443;23445;23620];
 [23623;23726;23716;23712;23733;23727;23720;23724;23711;23715;23725;23714;23722;23719;23709;23717];
 [23734;23728;23718;24087;24084;24089;24360;24354;24355;24356;24404;24450;24446;24445;24542;24549];
 [24621;24614;24601;24626;24587;24628;24586;24599;24627;24602;24606;24620;24610;24589;24592;24622];
 [24595;24593;24588;24585;24604;25108;25149;25261;25268;25297;25278;25258;25270;25290;25262;25267];
 [25263;25275;25257;25264;25272;25917;26024;26043;26121;26108;26116;26130;26120;26107;26115;26123];
 [26125;26117;26109;26129;26128;26358;26378;26501;26476;26510;26514;26486;26491;26520;26502;26500];
 [26484;26509;26508;26490;26527;26513;26521;26499;26493;26497;26488;26489;26516;27429;27520;27518];
 [27614;27677;27795;27884;27883;27886;27865;27830;27860;27821;27879;27831;27856;27842;27834;27843];
 [27846;27885;27890;27858;27869;27828;27786;27805;27776;27870;27840;27952;27853;27847;27824;27897];
 [27855;27881;27857;28820;28824;28805;28819;28806;28804;28817;28822;28802;28826;28803;29290;29398];
 [29387;29400;29385;29404;29394;29396;29402;29388;29393;29604;29601;29613;29606;29602;29600;29612];
 [29597;29917;29928;30015;30016;30014;30092;30104;30383;30451;30449;30448;30453;30712;30716;30713];
 [30715;30714;30711;31042;31039;31173;31352;31355;31483;31861;31997;32821;32911;32942;32931;32952];
 [32949;32941;33312;33440;33472;33451;33434;33432;33435;33461;33447;33454;33468;33438;33466;33460];
 [33448;33441;33449;33474;33444;33475;33462;33442;34416;34415;34413;34414;35926;36818;36811;36819];
 [36813;36822;36821;36823;37042;37044;37039;37043;37040;38457;38461;38460;38458;38467;20429;20421];
 [20435;20402;20425;20427;20417;20436;20444;20441;20411;20403;20443;20423;20438;20410;20416;20409];
 [20460;21060;21065;21184;21186;21309;21372;21399;21398;21401;21400;21690;21665;21677;21669;21711];
 [21699;33549;21687;21678;21718;21686;21701;21702;21664;21616;21692;21666;21694;21618;21726;21680];
 [22453;22430;22431;22436;22412;22423;22429;22427;22420;22424;22415;22425;22437;22426;22421;22772];
 [22797;22867;23009;23006;23022;23040;23025;23005;23034;23037;23036;23030;23012;23026;23031;23003];
 [23017;23027;23029;23008;23038;23028;23021;23464;23628;23760;23768;23756;23767;23755;23771;23774];
 [23770;23753;23751;23754;23766;23763;23764;23759;23752;23750;23758;23775;23800;24057;24097;24098];
 [24099;24096;24100;24240;24228;24226;24219;24227;24229;24327;24366;24406;24454;24631;24633;24660];
 [24690;24670;24645;24659;24647;24649;24667;24652;24640;24642;24671;24612;24644;24664;24678;24686];
 [25154;25155;25295;25357;25355;25333;25358;25347;25323;25337;25359;25356;25336;25334;25344;25363];
 [25364;25338;25365;25339;25328;25921;25923;26026;26047;26166;26145;26162;26165;26140;26150;26146];
 [26163;26155;26170;26141;26164;26169;26158;26383;26384;26561;26610;26568;26554;26588;26555;26616];
 [26584;26560;26551;26565;26603;26596;26591;26549;26573;26547;26615;26614;26606;26595;26562;26553];
 [26574;26599;26608;26546;26620;26566;26605;26572;26542;26598;26587;26618;26569;26570;26563;26602];
 [26571;27432;27522;27524;27574;27606;27608;27616;27680;27681;27944;27956;27949;27935;27964;27967];
 [27922;27914;27866;27955;27908;27929;27962;27930;27921;27904;27933;27970;27905;27928;27959;27907];
 [27919;27968;27911;27936;27948;27912;27938;27913;27920;28855;28831;28862;28849;28848;28833;28852];
 [28853;28841;29249;29257;29258;29292;29296;29299;29294;29386;29412;29416;29419;29407;29418;29414];
 [29411;29573;29644;29634;29640;29637;29625;29622;29621;29620;29675;29631;29639;29630;29635;29638];
 [29624;29643;29932;29934;29998;30023;30024;30119;30122;30329;30404;30472;30467;30468;30469;30474];
 [30455;30459;30458;30695;30696;30726;30737;30738;30725;30736;30735;30734;30729;30723;30739;31050];
 [31052;31051;31045;31044;31189;31181;31183;31190;31182;31360;31358;31441;31488;31489;31866;31864];
 [31865;31871;31872;31873;32003;32008;32001;32600;32657;32653;32702;32775;32782;32783;32788;32823];
 [32984;32967;32992;32977;32968;32962;32976;32965;32995;32985;32988;32970;32981;32969;32975;32983];
 [32998;32973;33279;33313;33428;33497;33534;33529;33543;33512;33536;33493;33594;33515;33494;33524];
 [33516;33505;33522;33525;33548;33531;33526;33520;33514;33508;33504;33530;33523;33517;34423;34420];
 [34428;34419;34881;34894;34919;34922;34921;35283;35332;35335;36210;36835;36833;36846;36832;37105];
 [37053;37055;37077;37061;37054;37063;37067;37064;37332;37331;38484;38479;38481;38483;38474;38478];
 [20510;20485;20487;20499;20514;20528;20507;20469;20468;20531;20535;20524;20470;20471;20503;20508];
 [20512;20519;20533;20527;20529;20494;20826;20884;20883;20938;20932;20933;20936;20942;21089;21082];
 [21074;21086;21087;21077;21090;21197;21262;21406;21798;21730;21783;21778;21735;21747;21732;21786];
 [21759;21764;21768;21739;21777;21765;21745;21770;21755;21751;21752;21728;21774;21763;21771;22273];
 [22274;22476;22578;22485;22482;22458;22470;22461;22460;22456;22454;22463;22471;22480;22457;22465];
 [22798;22858;23065;23062;23085;23086;23061;23055;23063;23050;23070;23091;23404;23463;23469;23468];
 [23555;23638;23636;23788;23807;23790;23793;23799;23808;23801;24105;24104;24232;24238;24234;24236];
 [24371;24368;24423;24669;24666;24679;24641;24738;24712;24704;24722;24705;24733;24707;24725;24731];
 [24727;24711;24732;24718;25113;25158;25330;25360;25430;25388;25412;25413;25398;25411;25572;25401];
 [25419;25418;25404;25385;25409;25396;25432;25428;25433;25389;25415;25395;25434;25425;25400;25431];
 [25408;25416;25930;25926;26054;26051;26052;26050;26186;26207;26183;26193;26386;26387;26655;26650];
 [26697;26674;26675;26683;26699;26703;26646;26673;26652;26677;26667;26669;26671;26702;26692;26676];
 [26653;26642;26644;26662;26664;26670;26701;26682;26661;26656;27436;27439;27437;27441;27444;27501];
 [32898;27528;27622;27620;27624;27619;27618;27623;27685;28026;28003;28004;28022;27917;28001;28050];
 [27992;28002;28013;28015;28049;28045;28143;28031;28038;27998;28007;28000;28055;28016;28028;27999];
 [28034;28056;27951;28008;28043;28030;28032;28036;27926;28035;28027;28029;28021;28048;28892;28883];
 [28881;28893;28875;32569;28898;28887;28882;28894;28896;28884;28877;28869;28870;28871;28890;28878];
 [28897;29250;29304;29303;29302;29440;29434;29428;29438;29430;29427;29435;29441;29651;29657;29669];
 [29654;29628;29671;29667;29673;29660;29650;29659;29652;29661;29658;29655;29656;29672;29918;29919];
 [29940;29941;29985;30043;30047;30128;30145;30139;30148;30144;30143;30134;30138;30346;30409;30493];
 [30491;30480;30483;30482;30499;30481;30485;30489;30490;30498;30503;30755;30764;30754;30773;30767];
 [30760;30766;30763;30753;30761;30771;30762;30769;31060;31067;31055;31068;31059;31058;31057;31211];
 [31212;31200;31214;31213;31210;31196;31198;31197;31366;31369;31365;31371;31372;31370;31367;31448];
 [31504;31492;31507;31493;31503;31496;31498;31502;31497;31506;31876;31889;31882;31884;31880;31885];
 [31877;32030;32029;32017;32014;32024;32022;32019;32031;32018;32015;32012;32604;32609;32606;32608];
 [32605;32603;32662;32658;32707;32706;32704;32790;32830;32825;33018;33010;33017;33013;33025;33019];
 [33024;33281;33327;33317;33587;33581;33604;33561;33617;33573;33622;33599;33601;33574;33564;33570];
 [33602;33614;33563;33578;33544;33596;33613;33558;33572;33568;33591;33583;33577;33607;33605;33612];
 [33619;33566;33580;33611;33575;33608;34387;34386;34466;34472;34454;34445;34449;34462;34439;34455];
 [34438;34443;34458;34437;34469;34457;34465;34471;34453;34456;34446;34461;34448;34452;34883;34884];
 [34925;34933;34934;34930;34944;34929;34943;34927;34947;34942;34932;34940;35346;35911;35927;35963];
 [36004;36003;36214;36216;36277;36279;36278;36561;36563;36862;36853;36866;36863;36859;36868;36860];
 [36854;37078;37088;37081;37082;37091;37087;37093;37080;37083;37079;37084;37092;37200;37198;37199];
 [37333;37346;37338;38492;38495;38588;39139;39647;39727;20095;20592;20586;20577;20574;20576;20563];
 [20555;20573;20594;20552;20557;20545;20571;20554;20578;20501;20549;20575;20585;20587;20579;20580];
 [20550;20544;20590;20595;20567;20561;20944;21099;21101;21100;21102;21206;21203;21293;21404;21877];
 [21878;21820;21837;21840;21812;21802;21841;21858;21814;21813;21808;21842;21829;21772;21810;21861];
 [21838;21817;21832;21805;21819;21824;21835;22282;22279;22523;22548;22498;22518;22492;22516;22528];
 [22509;22525;22536;22520;22539;22515;22479;22535;22510;22499;22514;22501;22508;22497;22542;22524];
 [22544;22503;22529;22540;22513;22505;22512;22541;22532;22876;23136;23128;23125;23143;23134;23096];
 [23093;23149;23120;23135;23141;23148;23123;23140;23127;23107;23133;23122;23108;23131;23112;23182];
 [23102;23117;23097;23116;23152;23145;23111;23121;23126;23106;23132;23410;23406;23489;23488;23641];
 [23838;23819;23837;23834;23840;23820;23848;23821;23846;23845;23823;23856;23826;23843;23839;23854];
 [24126;24116;24241;24244;24249;24242;24243;24374;24376;24475;24470;24479;24714;24720;24710;24766];
 [24752;24762;24787;24788;24783;24804;24793;24797;24776;24753;24795;24759;24778;24767;24771;24781];
 [24768;25394;25445;25482;25474;25469;25533;25502;25517;25501;25495;25515;25486;25455;25479;25488];
 [25454;25519;25461;25500;25453;25518;25468;25508;25403;25503;25464;25477;25473;25489;25485;25456];
 [25939;26061;26213;26209;26203;26201;26204;26210;26392;26745;26759;26768;26780;26733;26734;26798];
 [26795;26966;26735;26787;26796;26793;26741;26740;26802;26767;26743;26770;26748;26731;26738;26794];
 [26752;26737;26750;26779;26774;26763;26784;26761;26788;26744;26747;26769;26764;26762;26749;27446];
 [27443;27447;27448;27537;27535;27533;27534;27532;27690;28096;28075;28084;28083;28276;28076;28137];
 [28130;28087;28150;28116;28160;28104;28128;28127;28118;28094;28133;28124;28125;28123;28148;28106];
 [28093;28141;28144;28090;28117;28098;28111;28105;28112;28146;28115;28157;28119;28109;28131;28091];
 [28922;28941;28919;28951;28916;28940;28912;28932;28915;28944;28924;28927;28934;28947;28928;28920];
 [28918;28939;28930;28942;29310;29307;29308;29311;29469;29463;29447;29457;29464;29450;29448;29439];
 [29455;29470;29576;29686;29688;29685;29700;29697;29693;29703;29696;29690;29692;29695;29708;29707];
 [29684;29704;30052;30051;30158;30162;30159;30155;30156;30161;30160;30351;30345;30419;30521;30511];
 [30509;30513;30514;30516;30515;30525;30501;30523;30517;30792;30802;30793;30797;30794;30796;30758];
 [30789;30800;31076;31079;31081;31082;31075;31083;31073;31163;31226;31224;31222;31223;31375;31380];
 [31376;31541;31547;31540;31525;31536;31522;31524;31539;31512;31530;31517;31537;31531;31533;31535];
 [31538;31544;31514;31523;31892;31896;31894;31907;32053;32061;32056;32054;32058;32069;32044;32041];
 [32065;32071;32062;32063;32074;32059;32040;32611;32661;32668;32669;32667;32714;32715;32717;32720];
 [32721;32711;32719;32713;32799;32798;32795;32839;32835;32840;33048;33061;33049;33051;33069;33055];
 [33068;33054;33057;33045;33063;33053;33058;33297;33336;33331;33338;33332;33330;33396;33680;33699];
 [33704;33677;33658;33651;33700;33652;33679;33665;33685;33689;33653;33684;33705;33661;33667;33676];
 [33693;33691;33706;33675;33662;33701;33711;33672;33687;33712;33663;33702;33671;33710;33654;34393];
 [34390;34495;34487;34498;34497;34501;34490;34480;34504;34489;34483;34488;34508;34484;34491;34492];
 [34499;34493;34494;34898;34953;34965;34984;34978;34986;34970;34961;34977;34975;34968;34983;34969];
 [34971;34967;34980;34988;34956;34963;34958;35202;35286;35289;35285;35376;35367;35372;35358;35897];
 [35899;35932;35933;35965;36005;36221;36219;36217;36284;36290;36281;36287;36289;36568;36574;36573];
 [36572;36567;36576;36577;36900;36875;36881;36892;36876;36897;37103;37098;37104;37108;37106;37107];
 [37076;37099;37100;37097;37206;37208;37210;37203;37205;37356;37364;37361;37363;37368;37348;37369];
 [37354;37355;37367;37352;37358;38266;38278;38280;38524;38509;38507;38513;38511;38591;38762;38916];
 [39141;39319;20635;20629;20628;20638;20619;20643;20611;20620;20622;20637;20584;20636;20626;20610];
 [20615;20831;20948;21266;21265;21412;21415;21905;21928;21925;21933;21879;22085;21922;21907;21896];
 [21903;21941;21889;21923;21906;21924;21885;21900;21926;21887;21909;21921;21902;22284;22569;22583];
 [22553;22558;22567;22563;22568;22517;22600;22565;22556;22555;22579;22591;22582;22574;22585;22584];
 [22573;22572;22587;22881;23215;23188;23199;23162;23202;23198;23160;23206;23164;23205;23212;23189];
 [23214;23095;23172;23178;23191;23171;23179;23209;23163;23165;23180;23196;23183;23187;23197;23530];
 [23501;23499;23508;23505;23498;23502;23564;23600;23863;23875;23915;23873;23883;23871;23861;23889];
 [23886;23893;23859;23866;23890;23869;23857;23897;23874;23865;23881;23864;23868;23858;23862;23872];
 [23877;24132;24129;24408;24486;24485;24491;24777;24761;24780;24802;24782;24772;24852;24818;24842];
 [24854;24837;24821;24851;24824;24828;24830;24769;24835;24856;24861;24848;24831;24836;24843;25162];
 [25492;25521;25520;25550;25573;25576;25583;25539;25757;25587;25546;25568;25590;25557;25586;25589];
 [25697;25567;25534;25565;25564;25540;25560;25555;25538;25543;25548;25547;25544;25584;25559;25561];
 [25906;25959;25962;25956;25948;25960;25957;25996;26013;26014;26030;26064;26066;26236;26220;26235];
 [26240;26225;26233;26218;26226;26369;26892;26835;26884;26844;26922;26860;26858;26865;26895;26838];
 [26871;26859;26852;26870;26899;26896;26867;26849;26887;26828;26888;26992;26804;26897;26863;26822];
 [26900;26872;26832;26877;26876;26856;26891;26890;26903;26830;26824;26845;26846;26854;26868;26833];
 [26886;26836;26857;26901;26917;26823;27449;27451;27455;27452;27540;27543;27545;27541;27581;27632];
 [27634;27635;27696;28156;28230;28231;28191;28233;28296;28220;28221;28229;28258;28203;28223;28225];
 [28253;28275;28188;28211;28235;28224;28241;28219;28163;28206;28254;28264;28252;28257;28209;28200];
 [28256;28273;28267;28217;28194;28208;28243;28261;28199;28280;28260;28279;28245;28281;28242;28262];
 [28213;28214;28250;28960;28958;28975;28923;28974;28977;28963;28965;28962;28978;28959;28968;28986];
 [28955;29259;29274;29320;29321;29318;29317;29323;29458;29451;29488;29474;29489;29491;29479;29490];
 [29485;29478;29475;29493;29452;29742;29740;29744;29739;29718;29722;29729;29741;29745;29732;29731];
 [29725;29737;29728;29746;29947;29999;30063;30060;30183;30170;30177;30182;30173;30175;30180;30167];
 [30357;30354;30426;30534;30535;30532;30541;30533;30538;30542;30539;30540;30686;30700;30816;30820];
 [30821;30812;30829;30833;30826;30830;30832;30825;30824;30814;30818;31092;31091;31090;31088;31234];
 [31242;31235;31244;31236;31385;31462;31460;31562;31559;31556;31560;31564;31566;31552;31576;31557];
 [31906;31902;31912;31905;32088;32111;32099;32083;32086;32103;32106;32079;32109;32092;32107;32082];
 [32084;32105;32081;32095;32078;32574;32575;32613;32614;32674;32672;32673;32727;32849;32847;32848];
 [33022;32980;33091;33098;33106;33103;33095;33085;33101;33082;33254;33262;33271;33272;33273;33284];
 [33340;33341;33343;33397;33595;33743;33785;33827;33728;33768;33810;33767;33764;33788;33782;33808];
 [33734;33736;33771;33763;33727;33793;33757;33765;33752;33791;33761;33739;33742;33750;33781;33737];
 [33801;33807;33758;33809;33798;33730;33779;33749;33786;33735;33745;33770;33811;33690;33731;33772];
 [33774;33732;33787;33751;33762;33819;33755;33790;34520;34530;34534;34515;34531;34522;34538;34525];
 [34539;34524;34540;34537;34519;34536;34513;34888;34902;34901;35002;35031;35001;35000;35008;35006];
 [34998;35004;34999;35005;34994;35073;35017;35221;35224;35223;35293;35290;35291;35406;35405;35385];
 [35417;35392;35415;35416;35396;35397;35410;35400;35409;35402;35404;35407;35935;35969;35968;36026];
 [36030;36016;36025;36021;36228;36224;36233;36312;36307;36301;36295;36310;36316;36303;36309;36313];
 [36296;36311;36293;36591;36599;36602;36601;36582;36590;36581;36597;36583;36584;36598;36587;36593];
 [36588;36596;36585;36909;36916;36911;37126;37164;37124;37119;37116;37128;37113;37115;37121;37120];
 [37127;37125;37123;37217;37220;37215;37218;37216;37377;37386;37413;37379;37402;37414;37391;37388];
 [37376;37394;37375;37373;37382;37380;37415;37378;37404;37412;37401;37399;37381;37398;38267;38285];
 [38284;38288;38535;38526;38536;38537;38531;38528;38594;38600;38595;38641;38640;38764;38768;38766];
 [38919;39081;39147;40166;40697;20099;20100;20150;20669;20671;20678;20654;20676;20682;20660;20680];
 [20674;20656;20673;20666;20657;20683;20681;20662;20664;20951;21114;21112;21115;21116;21955;21979];
 [21964;21968;21963;21962;21981;21952;21972;21956;21993;21951;21970;21901;21967;21973;21986;21974];
 [21960;22002;21965;21977;21954;22292;22611;22632;22628;22607;22605;22601;22639;22613;22606;22621];
 [22617;22629;22619;22589;22627;22641;22780;23239;23236;23243;23226;23224;23217;23221;23216;23231];
 [23240;23227;23238;23223;23232;23242;23220;23222;23245;23225;23184;23510;23512;23513;23583;23603];
 [23921;23907;23882;23909;23922;23916;23902;23912;23911;23906;24048;24143;24142;24138;24141;24139];
 [24261;24268;24262;24267;24263;24384;24495;24493;24823;24905;24906;24875;24901;24886;24882;24878];
 [24902;24879;24911;24873;24896;25120;37224;25123;25125;25124;25541;25585;25579;25616;25618;25609];
 [25632;25636;25651;25667;25631;25621;25624;25657;25655;25634;25635;25612;25638;25648;25640;25665];
 [25653;25647;25610;25626;25664;25637;25639;25611;25575;25627;25646;25633;25614;25967;26002;26067];
 [26246;26252;26261;26256;26251;26250;26265;26260;26232;26400;26982;26975;26936;26958;26978;26993];
 [26943;26949;26986;26937;26946;26967;26969;27002;26952;26953;26933;26988;26931;26941;26981;26864];
 [27000;26932;26985;26944;26991;26948;26998;26968;26945;26996;26956;26939;26955;26935;26972;26959];
 [26961;26930;26962;26927;27003;26940;27462;27461;27459;27458;27464;27457;27547;27643;27644;27641];
 [27639;27640;28315;28374;28360;28303;28352;28319;28307;28308;28320;28337;28345;28358;28370;28349];
 [28353;28318;28361;28343;28336;28365;28326;28367;28338;28350;28355;28380;28376;28313;28306;28302];
 [28301;28324;28321;28351;28339;28368;28362;28311;28334;28323;28999;29012;29010;29027;29024;28993];
 [29021;29026;29042;29048;29034;29025;28994;29016;28995;29003;29040;29023;29008;29011;28996;29005];
 [29018;29263;29325;29324;29329;29328;29326;29500;29506;29499;29498;29504;29514;29513;29764;29770];
 [29771;29778;29777;29783;29760;29775;29776;29774;29762;29766;29773;29780;29921;29951;29950;29949];
 [29981;30073;30071;27011;30191;30223;30211;30199;30206;30204;30201;30200;30224;30203;30198;30189];
 [30197;30205;30361;30389;30429;30549;30559;30560;30546;30550;30554;30569;30567;30548;30553;30573];
 [30688;30855;30874;30868;30863;30852;30869;30853;30854;30881;30851;30841;30873;30848;30870;30843];
 [31100;31106;31101;31097;31249;31256;31257;31250;31255;31253;31266;31251;31259;31248;31395;31394];
 [31390;31467;31590;31588;31597;31604;31593;31602;31589;31603;31601;31600;31585;31608;31606;31587];
 [31922;31924;31919;32136;32134;32128;32141;32127;32133;32122;32142;32123;32131;32124;32140;32148];
 [32132;32125;32146;32621;32619;32615;32616;32620;32678;32677;32679;32731;32732;32801;33124;33120];
 [33143;33116;33129;33115;33122;33138;26401;33118;33142;33127;33135;33092;33121;33309;33353;33348];
 [33344;33346;33349;34033;33855;33878;33910;33913;33935;33933;33893;33873;33856;33926;33895;33840];
 [33869;33917;33882;33881;33908;33907;33885;34055;33886;33847;33850;33844;33914;33859;33912;33842];
 [33861;33833;33753;33867;33839;33858;33837;33887;33904;33849;33870;33868;33874;33903;33989;33934];
 [33851;33863;33846;33843;33896;33918;33860;33835;33888;33876;33902;33872;34571;34564;34551;34572];
 [34554;34518;34549;34637;34552;34574;34569;34561;34550;34573;34565;35030;35019;35021;35022;35038];
 [35035;35034;35020;35024;35205;35227;35295;35301;35300;35297;35296;35298;35292;35302;35446;35462];
 [35455;35425;35391;35447;35458;35460;35445;35459;35457;35444;35450;35900;35915;35914;35941;35940];
 [35942;35974;35972;35973;36044;36200;36201;36241;36236;36238;36239;36237;36243;36244;36240;36242];
 [36336;36320;36332;36337;36334;36304;36329;36323;36322;36327;36338;36331;36340;36614;36607;36609];
 [36608;36613;36615;36616;36610;36619;36946;36927;36932;36937;36925;37136;37133;37135;37137;37142];
 [37140;37131;37134;37230;37231;37448;37458;37424;37434;37478;37427;37477;37470;37507;37422;37450];
 [37446;37485;37484;37455;37472;37479;37487;37430;37473;37488;37425;37460;37475;37456;37490;37454];
 [37459;37452;37462;37426;38303;38300;38302;38299;38546;38547;38545;38551;38606;38650;38653;38648];
 [38645;38771;38775;38776;38770;38927;38925;38926;39084;39158;39161;39343;39346;39344;39349;39597];
 [39595;39771;40170;40173;40167;40576;40701;20710;20692;20695;20712;20723;20699;20714;20701;20708];
 [20691;20716;20720;20719;20707;20704;20952;21120;21121;21225;21227;21296;21420;22055;22037;22028];
 [22034;22012;22031;22044;22017;22035;22018;22010;22045;22020;22015;22009;22665;22652;22672;22680];
 [22662;22657;22655;22644;22667;22650;22663;22673;22670;22646;22658;22664;22651;22676;22671;22782];
 [22891;23260;23278;23269;23253;23274;23258;23277;23275;23283;23266;23264;23259;23276;23262;23261];
 [23257;23272;23263;23415;23520;23523;23651;23938;23936;23933;23942;23930;23937;23927;23946;23945];
 [23944;23934;23932;23949;23929;23935;24152;24153;24147;24280;24273;24279;24270;24284;24277;24281];
 [24274;24276;24388;24387;24431;24502;24876;24872;24897;24926;24945;24947;24914;24915;24946;24940];
 [24960;24948;24916;24954;24923;24933;24891;24938;24929;24918;25129;25127;25131;25643;25677;25691];
 [25693;25716;25718;25714;25715;25725;25717;25702;25766;25678;25730;25694;25692;25675;25683;25696];
 [25680;25727;25663;25708;25707;25689;25701;25719;25971;26016;26273;26272;26271;26373;26372;26402];
 [27057;27062;27081;27040;27086;27030;27056;27052;27068;27025;27033;27022;27047;27021;27049;27070];
 [27055;27071;27076;27069;27044;27092;27065;27082;27034;27087;27059;27027;27050;27041;27038;27097];
 [27031;27024;27074;27061;27045;27078;27466;27469;27467;27550;27551;27552;27587;27588;27646;28366];
 [28405;28401;28419;28453;28408;28471;28411;28462;28425;28494;28441;28442;28455;28440;28475;28434];
 [28397;28426;28470;28531;28409;28398;28461;28480;28464;28476;28469;28395;28423;28430;28483;28421];
 [28413;28406;28473;28444;28412;28474;28447;28429;28446;28424;28449;29063;29072;29065;29056;29061];
 [29058;29071;29051;29062;29057;29079;29252;29267;29335;29333;29331;29507;29517;29521;29516;29794];
 [29811;29809;29813;29810;29799;29806;29952;29954;29955;30077;30096;30230;30216;30220;30229;30225];
 [30218;30228;30392;30593;30588;30597;30594;30574;30592;30575;30590;30595;30898;30890;30900;30893];
 [30888;30846;30891;30878;30885;30880;30892;30882;30884;31128;31114;31115;31126;31125;31124;31123];
 [31127;31112;31122;31120;31275;31306;31280;31279;31272;31270;31400;31403;31404;31470;31624;31644];
 [31626;31633;31632;31638;31629;31628;31643;31630;31621;31640;21124;31641;31652;31618;31931;31935];
 [31932;31930;32167;32183;32194;32163;32170;32193;32192;32197;32157;32206;32196;32198;32203;32204];
 [32175;32185;32150;32188;32159;32166;32174;32169;32161;32201;32627;32738;32739;32741;32734;32804];
 [32861;32860;33161;33158;33155;33159;33165;33164;33163;33301;33943;33956;33953;33951;33978;33998];
 [33986;33964;33966;33963;33977;33972;33985;33997;33962;33946;33969;34000;33949;33959;33979;33954];
 [33940;33991;33996;33947;33961;33967;33960;34006;33944;33974;33999;33952;34007;34004;34002;34011];
 [33968;33937;34401;34611;34595;34600;34667;34624;34606;34590;34593;34585;34587;34627;34604;34625];
 [34622;34630;34592;34610;34602;34605;34620;34578;34618;34609;34613;34626;34598;34599;34616;34596];
 [34586;34608;34577;35063;35047;35057;35058;35066;35070;35054;35068;35062;35067;35056;35052;35051];
 [35229;35233;35231;35230;35305;35307;35304;35499;35481;35467;35474;35471;35478;35901;35944;35945];
 [36053;36047;36055;36246;36361;36354;36351;36365;36349;36362;36355;36359;36358;36357;36350;36352];
 [36356;36624;36625;36622;36621;37155;37148;37152;37154;37151;37149;37146;37156;37153;37147;37242];
 [37234;37241;37235;37541;37540;37494;37531;37498;37536;37524;37546;37517;37542;37530;37547;37497];
 [37527;37503;37539;37614;37518;37506;37525;37538;37501;37512;37537;37514;37510;37516;37529;37543];
 [37502;37511;37545;37533;37515;37421;38558;38561;38655;38744;38781;38778;38782;38787;38784;38786];
 [38779;38788;38785;38783;38862;38861;38934;39085;39086;39170;39168;39175;39325;39324;39363;39353];
 [39355;39354;39362;39357;39367;39601;39651;39655;39742;39743;39776;39777;39775;40177;40178;40181];
 [40615;20735;20739;20784;20728;20742;20743;20726;20734;20747;20748;20733;20746;21131;21132;21233];
 [21231;22088;22082;22092;22069;22081;22090;22089;22086;22104;22106;22080;22067;22077;22060;22078];
 [22072;22058;22074;22298;22699;22685;22705;22688;22691;22703;22700;22693;22689;22783;23295;23284];
 [23293;23287;23286;23299;23288;23298;23289;23297;23303;23301;23311;23655;23961;23959;23967;23954];
 [23970;23955;23957;23968;23964;23969;23962;23966;24169;24157;24160;24156;32243;24283;24286;24289];
 [24393;24498;24971;24963;24953;25009;25008;24994;24969;24987;24979;25007;25005;24991;24978;25002];
 [24993;24973;24934;25011;25133;25710;25712;25750;25760;25733;25751;25756;25743;25739;25738;25740];
 [25763;25759;25704;25777;25752;25974;25978;25977;25979;26034;26035;26293;26288;26281;26290;26295];
 [26282;26287;27136;27142;27159;27109;27128;27157;27121;27108;27168;27135;27116;27106;27163;27165];
 [27134;27175;27122;27118;27156;27127;27111;27200;27144;27110;27131;27149;27132;27115;27145;27140];
 [27160;27173;27151;27126;27174;27143;27124;27158;27473;27557;27555;27554;27558;27649;27648;27647];
 [27650;28481;28454;28542;28551;28614;28562;28557;28553;28556;28514;28495;28549;28506;28566;28534];
 [28524;28546;28501;28530;28498;28496;28503;28564;28563;28509;28416;28513;28523;28541;28519;28560];
 [28499;28555;28521;28543;28565;28515;28535;28522;28539;29106;29103;29083;29104;29088;29082;29097];
 [29109;29085;29093;29086;29092;29089;29098;29084;29095;29107;29336;29338;29528;29522;29534;29535];
 [29536;29533;29531;29537;29530;29529;29538;29831;29833;29834;29830;29825;29821;29829;29832;29820];
 [29817;29960;29959;30078;30245;30238;30233;30237;30236;30243;30234;30248;30235;30364;30365;30366];
 [30363;30605;30607;30601;30600;30925;30907;30927;30924;30929;30926;30932;30920;30915;30916;30921];
 [31130;31137;31136;31132;31138;31131;27510;31289;31410;31412;31411;31671;31691;31678;31660;31694];
 [31663;31673;31690;31669;31941;31944;31948;31947;32247;32219;32234;32231;32215;32225;32259;32250];
 [32230;32246;32241;32240;32238;32223;32630;32684;32688;32685;32749;32747;32746;32748;32742;32744];
 [32868;32871;33187;33183;33182;33173;33186;33177;33175;33302;33359;33363;33362;33360;33358;33361];
 [34084;34107;34063;34048;34089;34062;34057;34061;34079;34058;34087;34076;34043;34091;34042;34056];
 [34060;34036;34090;34034;34069;34039;34027;34035;34044;34066;34026;34025;34070;34046;34088;34077];
 [34094;34050;34045;34078;34038;34097;34086;34023;34024;34032;34031;34041;34072;34080;34096;34059];
 [34073;34095;34402;34646;34659;34660;34679;34785;34675;34648;34644;34651;34642;34657;34650;34641];
 [34654;34669;34666;34640;34638;34655;34653;34671;34668;34682;34670;34652;34661;34639;34683;34677];
 [34658;34663;34665;34906;35077;35084;35092;35083;35095;35096;35097;35078;35094;35089;35086;35081];
 [35234;35236;35235;35309;35312;35308;35535;35526;35512;35539;35537;35540;35541;35515;35543;35518];
 [35520;35525;35544;35523;35514;35517;35545;35902;35917;35983;36069;36063;36057;36072;36058;36061];
 [36071;36256;36252;36257;36251;36384;36387;36389;36388;36398;36373;36379;36374;36369;36377;36390];
 [36391;36372;36370;36376;36371;36380;36375;36378;36652;36644;36632;36634;36640;36643;36630;36631];
 [36979;36976;36975;36967;36971;37167;37163;37161;37162;37170;37158;37166;37253;37254;37258;37249];
 [37250;37252;37248;37584;37571;37572;37568;37593;37558;37583;37617;37599;37592;37609;37591;37597];
 [37580;37615;37570;37608;37578;37576;37582;37606;37581;37589;37577;37600;37598;37607;37585;37587];
 [37557;37601;37669;37574;37556;38268;38316;38315;38318;38320;38564;38562;38611;38661;38664;38658];
 [38746;38794;38798;38792;38864;38863;38942;38941;38950;38953;38952;38944;38939;38951;39090;39176];
 [39162;39185;39188;39190;39191;39189;39388;39373;39375;39379;39380;39374;39369;39382;39384;39371];
 [39383;39372;39603;39660;39659;39667;39666;39665;39750;39747;39783;39796;39793;39782;39798;39797];
 [39792;39784;39780;39788;40188;40186;40189;40191;40183;40199;40192;40185;40187;40200;40197;40196];
 [40579;40659;40719;40720;20764;20755;20759;20762;20753;20958;21300;21473;22128;22112;22126;22131];
 [22118;22115;22125;22130;22110;22135;22300;22299;22728;22717;22729;22719;22714;22722;22716;22726];
 [23319;23321;23323;23329;23316;23315;23312;23318;23336;23322;23328;23326;23535;23980;23985;23977];
 [23975;23989;23984;23982;23978;23976;23986;23981;23983;23988;24167;24168;24166;24175;24297;24295];
 [24294;24296;24293;24395;24508;24507;24989;25000;24982;25029;25012;25030;25025;25036;25018;25023];
 [25016;24972;25815;25814;25808;25807;25801;25789;25737;25795;25819;25843;25817;25907;25983;25980];
 [26018;26312;26302;26304;26314;26315;26319;26301;26299;26298;26316;26403;27188;27238;27209;27239];
 [27186;27240;27198;27229;27245;27254;27227;27217;27176;27226;27195;27199;27201;27242;27236;27216];
 [27215;27220;27247;27241;27232;27196;27230;27222;27221;27213;27214;27206;27477;27476;27478;27559];
 [27562;27563;27592;27591;27652;27651;27654;28589;28619;28579;28615;28604;28622;28616;28510;28612];
 [28605;28574;28618;28584;28676;28581;28590;28602;28588;28586;28623;28607;28600;28578;28617;28587];
 [28621;28591;28594;28592;29125;29122;29119;29112;29142;29120;29121;29131;29140;29130;29127;29135];
 [29117;29144;29116;29126;29146;29147;29341;29342;29545;29542;29543;29548;29541;29547;29546;29823];
 [29850;29856;29844;29842;29845;29857;29963;30080;30255;30253;30257;30269;30259;30268;30261;30258];
 [30256;30395;30438;30618;30621;30625;30620;30619;30626;30627;30613;30617;30615;30941;30953;30949];
 [30954;30942;30947;30939;30945;30946;30957;30943;30944;31140;31300;31304;31303;31414;31416;31413];
 [31409;31415;31710;31715;31719;31709;31701;31717;31706;31720;31737;31700;31722;31714;31708;31723];
 [31704;31711;31954;31956;31959;31952;31953;32274;32289;32279;32268;32287;32288;32275;32270;32284];
 [32277;32282;32290;32267;32271;32278;32269;32276;32293;32292;32579;32635;32636;32634;32689;32751];
 [32810;32809;32876;33201;33190;33198;33209;33205;33195;33200;33196;33204;33202;33207;33191;33266];
 [33365;33366;33367;34134;34117;34155;34125;34131;34145;34136;34112;34118;34148;34113;34146;34116];
 [34129;34119;34147;34110;34139;34161;34126;34158;34165;34133;34151;34144;34188;34150;34141;34132];
 [34149;34156;34403;34405;34404;34724;34715;34703;34711;34707;34706;34696;34689;34710;34712;34681];
 [34695;34723;34693;34704;34705;34717;34692;34708;34716;34714;34697;35102;35110;35120;35117;35118];
 [35111;35121;35106;35113;35107;35119;35116;35103;35313;35552;35554;35570;35572;35573;35549;35604];
 [35556;35551;35568;35528;35550;35553;35560;35583;35567;35579;35985;35986;35984;36085;36078;36081];
 [36080;36083;36204;36206;36261;36263;36403;36414;36408;36416;36421;36406;36412;36413;36417;36400];
 [36415;36541;36662;36654;36661;36658;36665;36663;36660;36982;36985;36987;36998;37114;37171;37173];
 [37174;37267;37264;37265;37261;37263;37671;37662;37640;37663;37638;37647;37754;37688;37692;37659];
 [37667;37650;37633;37702;37677;37646;37645;37579;37661;37626;37651;37625;37623;37684;37634;37668];
 [37631;37673;37689;37685;37674;37652;37644;37643;37630;37641;37632;37627;37654;38332;38349;38334];
 [38329;38330;38326;38335;38325;38333;38569;38612;38667;38674;38672;38809;38807;38804;38896;38904];
 [38965;38959;38962;39204;39199;39207;39209;39326;39406;39404;39397;39396;39408;39395;39402;39401];
 [39399;39609;39615;39604;39611;39670;39674;39673;39671;39731;39808;39813;39815;39804;39806;39803];
 [39810;39827;39826;39824;39802;39829;39805;39816;40229;40215;40224;40222;40212;40233;40221;40216];
 [40226;40208;40217;40223;40584;40582;40583;40622;40621;40661;40662;40698;40722;40765;20774;20773];
 [20770;20772;20768;20777;21236;22163;22156;22157;22150;22148;22147;22142;22146;22143;22145;22742];
 [22740;22735;22738;23341;23333;23346;23331;23340;23335;23334;23343;23342;23419;23537;23538;23991];
 [24172;24170;24510;25027;25013;25020;25063;25056;25061;25060;25064;25054;25839;25833;25827;25835];
 [25828;25832;25985;25984;26038;26074;26322;27277;27286;27265;27301;27273;27295;27291;27297;27294];
 [27271;27283;27278;27285;27267;27304;27300;27281;27263;27302;27290;27269;27276;27282;27483;27565];
 [27657;28620;28585;28660;28628;28643;28636;28653;28647;28646;28638;28658;28637;28642;28648;29153];
 [29169;29160;29170;29156;29168;29154;29555;29550;29551;29847;29874;29867;29840;29866;29869;29873];
 [29861;29871;29968;29969;29970;29967;30084;30275;30280;30281;30279;30372;30441;30645;30635;30642];
 [30647;30646;30644;30641;30632;30704;30963;30973;30978;30971;30972;30975;30962;30981;30969;30974];
 [30980;31147;31144;31324;31323;31318;31320;31316;31322;31422;31424;31425;31749;31759;31730;31744];
 [31743;31739;31758;31732;31755;31731;31746;31753;31747;31745;31736;31741;31750;31728;31729;31760];
 [31754;31976;32301;32316;32322;32307;38984;32312;32298;32329;32320;32327;32297;32332;32304;32315];
 [32310;32324;32314;32581;32639;32638;32637;32756;32754;32812;33211;33220;33228;33226;33221;33223];
 [33212;33257;33371;33370;33372;34179;34176;34191;34215;34197;34208;34187;34211;34171;34212;34202];
 [34206;34167;34172;34185;34209;34170;34168;34135;34190;34198;34182;34189;34201;34205;34177;34210];
 [34178;34184;34181;34169;34166;34200;34192;34207;34408;34750;34730;34733;34757;34736;34732;34745];
 [34741;34748;34734;34761;34755;34754;34764;34743;34735;34756;34762;34740;34742;34751;34744;34749];
 [34782;34738;35125;35123;35132;35134;35137;35154;35127;35138;35245;35247;35246;35314;35315;35614];
 [35608;35606;35601;35589;35595;35618;35599;35602;35605;35591;35597;35592;35590;35612;35603;35610];
 [35919;35952;35954;35953;35951;35989;35988;36089;36207;36430;36429;36435;36432;36428;36423;36675];
 [36672;36997;36990;37176;37274;37282;37275;37273;37279;37281;37277;37280;37793;37763;37807;37732];
 [37718;37703;37756;37720;37724;37750;37705;37712;37713;37728;37741;37775;37708;37738;37753;37719];
 [37717;37714;37711;37745;37751;37755;37729;37726;37731;37735;37710;37721;38343;38336;38345;38339];
 [38341;38327;38574;38576;38572;38688;38687;38680;38685;38681;38810;38817;38812;38814;38813;38869];
 [38868;38897;38977;38980;38986;38985;38981;38979;39205;39211;39212;39210;39219;39218;39215;39213];
 [39217;39216;39320;39331;39329;39426;39418;39412;39415;39417;39416;39414;39419;39421;39422;39420];
 [39427;39614;39678;39677;39681;39676;39752;39834;39848;39838;39835;39846;39841;39845;39844;39814];
 [39842;39840;39855;40243;40257;40295;40246;40238;40239;40241;40248;40240;40261;40258;40259;40254];
 [40247;40256;40253;32757;40237;40586;40585;40589;40624;40648;40666;40699;40703;40740;40739;40738];
 [40788;40864;20785;20781;20782;22168;22172;22167;22170;22173;22169;22896;23356;23657;23658;24000];
 [24173;24174;25048;25055;25069;25070;25073;25066;25072;25067;25046;25065;25855;25860;25853;25848];
 [25857;25859;25852;26004;26075;26330;26331;26328;27333;27321;27325;27361;27334;27322;27318;27319];
 [27335;27316;27309;27486;27593;27659;28679;28684;28685;28673;28677;28692;28686;28671;28672;28667];
 [28710;28668;28663;28682;29185;29183;29177;29187;29181;29558;29880;29888;29877;29889;29886;29878];
 [29883;29890;29972;29971;30300;30308;30297;30288;30291;30295;30298;30374;30397;30444;30658;30650];
 [30988;30995;30996;30985;30992;30994;30993;31149;31148;31327;31772;31785;31769;31776;31775;31789];
 [31773;31782;31784;31778;31781;31792;32348;32336;32342;32355;32344;32354;32351;32337;32352;32343];
 [32339;32693;32691;32759;32760;32885;33233;33234;33232;33375;33374;34228;34246;34240;34243;34242];
 [34227;34229;34237;34247;34244;34239;34251;34254;34248;34245;34225;34230;34258;34340;34232;34231];
 [34238;34409;34791;34790;34786;34779;34795;34794;34789;34783;34803;34788;34772;34780;34771;34797];
 [34776;34787;34775;34777;34817;34804;34792;34781;35155;35147;35151;35148;35142;35152;35153;35145];
 [35626;35623;35619;35635;35632;35637;35655;35631;35644;35646;35633;35621;35639;35622;35638;35630];
 [35620;35643;35645;35642;35906;35957;35993;35992;35991;36094;36100;36098;36096;36444;36450;36448];
 [36439;36438;36446;36453;36455;36443;36442;36449;36445;36457;36436;36678;36679;36680;36683;37160];
 [37178;37179;37182;37288;37285;37287;37295;37290;37813;37772;37778;37815;37787;37789;37769;37799];
 [37774;37802;37790;37798;37781;37768;37785;37791;37760;37773;37809;37777;37810;37796;37800;37812];
 [37795;38354;38355;38353;38579;38615;38618;24002;38623;38616;38621;38691;38690;38693;38828;38830];
 [38824;38827;38820;38826;38818;38821;38871;38873;38870;38872;38906;38992;38993;38994;39096;39233];
 [39228;39226;39439;39435;39433;39437;39428;39441;39434;39429;39431;39430;39616;39644;39688;39684];
 [39685;39721;39733;39754;39756;39755;39879;39878;39875;39871;39873;39861;39864;39891;39862;39876];
 [39865;39869;40284;40275;40271;40266;40283;40267;40281;40278;40268;40279;40274;40276;40287;40280];
 [40282;40590;40588;40671;40705;40704;40726;40741;40747;40746;40745;40744;40780;40789;20788;20789];
 [21142;21239;21428;22187;22189;22182;22183;22186;22188;22746;22749;22747;22802;23357;23358;23359];
 [24003;24176;24511;25083;25863;25872;25869;25865;25868;25870;25988;26078;26077;26334;27367;27360];
 [27340;27345;27353;27339;27359;27356;27344;27371;27343;27341;27358;27488;27568;27660;28697;28711];
 [28704;28694;28715;28705;28706;28707;28713;28695;28708;28700;29196;29194;29191;29186;29189;29349];
 [29350;29348;29347;29345;29899;29893;29879;29891;29974;30304;30665;30666;30660;30705;31005;31003];
 [31009;31004;30999;31006;31152;31335;31336;31795;31804;31801;31788;31803;31980;31978;32374;32373];
 [32376;32368;32375;32367;32378;32370;32372;32360;32587;32586;32643;32646;32695;32765;32766;32888];
 [33239;33237;33291;33380;33377;33379;34283;34289;34285;34265;34273;34280;34266;34263;34284;34290];
 [34296;34264;34271;34275;34268;34257;34288;34278;34287;34270;34274;34816;34810;34819;34806;34807];
 [34825;34828;34827;34822;34812;34824;34815;34826;34818;35170;35162;35163;35159;35169;35164;35160];
 [35165;35161;35208;35255;35254;35318;35664;35656;35658;35648;35667;35670;35668;35659;35669;35665];
 [35650;35666;35671;35907;35959;35958;35994;36102;36103;36105;36268;36266;36269;36267;36461;36472];
 [36467;36458;36463;36475;36546;36690;36689;36687;36688;36691;36788;37184;37183;37296;37293;37854];
 [37831;37839;37826;37850;37840;37881;37868;37836;37849;37801;37862;37834;37844;37870;37859;37845];
 [37828;37838;37824;37842;37797;37863;38269;38362;38363;38625;38697;38699;38700;38696;38694;38835];
 [38839;38838;38877;38878;38879;39004;39001;39005;38999;39103;39101;39099;39102;39240;39239;39235];
 [39334;39335;39450;39445;39461;39453;39460;39451;39458;39456;39463;39459;39454;39452;39444;39618];
 [39691;39690;39694;39692;39735;39914;39915;39904;39902;39908;39910;39906;39920;39892;39895;39916];
 [39900;39897;39909;39893;39905;39898;40311;40321;40330;40324;40328;40305;40320;40312;40326;40331];
 [40332;40317;40299;40308;40309;40304;40297;40325;40307;40315;40322;40303;40313;40319;40327;40296];
 [40596;40593;40640;40700;40749;40768;40769;40781;40790;40791;40792;21303;22194;22197;22195;22755];
 [23365;24006;24007;24302;24303;24512;24513;25081;25879;25878;25877;25875;26079;26344;26339;26340];
 [27379;27376;27370;27368;27385;27377;27374;27375;28732;28725;28719;28727;28724;28721;28738;28728];
 [28735;28730;28729;28714;28736;28731;28723;28737;29203;29204;29352;29565;29564;29882;30379;30378];
 [30398;30445;30668;30670;30671;30669;30706;31013;31011;31015;31016;31012;31017;31154;31342;31340];
 [31341;31479;31817;31816;31818;31815;31813;31982;32379;32382;32385;32384;32698;32767;32889;33243];
 [33241;33384;33385;34338;34303;34305;34302;34331;34304;34294;34308;34313;34309;34316;34301;34841];
 [34832;34833;34839;34835;34838;35171;35174;35257;35319;35680;35690;35677;35688;35683;35685;35687];
 [35693;36270;36486;36488;36484;36697;36694;36695;36693;36696;36698;37005;37187;37185;37303;37301];
 [37298;37299;37899;37907;37883;37920;37903;37908;37886;37909;37904;37928;37913;37901;37877;37888];
 [37879;37895;37902;37910;37906;37882;37897;37880;37948;37898;37887;37884;37900;37878;37905;37894];
 [38366;38368;38367;38702;38703;38841;38843;38909;38910;39008;39010;39011;39007;39105;39106;39248];
 [39246;39257;39244;39243;39251;39474;39476;39473;39468;39466;39478;39465;39470;39480;39469;39623];
 [39626;39622;39696;39698;39697;39947;39944;39927;39941;39954;39928;40000;39943;39950;39942;39959];
 [39956;39945;40351;40345;40356;40349;40338;40344;40336;40347;40352;40340;40348;40362;40343;40353];
 [40346;40354;40360;40350;40355;40383;40361;40342;40358;40359;40601;40603;40602;40677;40676;40679];
 [40678;40752;40750;40795;40800;40798;40797;40793;40849;20794;20793;21144;21143;22211;22205;22206];
 [23368;23367;24011;24015;24305;25085;25883;27394;27388;27395;27384;27392;28739;28740;28746;28744];
 [28745;28741;28742;29213;29210;29209;29566;29975;30314;30672;31021;31025;31023;31828;31827;31986];
 [32394;32391;32392;32395;32390;32397;32589;32699;32816;33245;34328;34346;34342;34335;34339;34332];
 [34329;34343;34350;34337;34336;34345;34334;34341;34857;34845;34843;34848;34852;34844;34859;34890];
 [35181;35177;35182;35179;35322;35705;35704;35653;35706;35707;36112;36116;36271;36494;36492;36702];
 [36699;36701;37190;37188;37189;37305;37951;37947;37942;37929;37949;37936;37945;37930;37943;37932];
 [37952;37937;38373;38372;38371;38709;38714;38847;38881;39012;39113;39110;39104;39256;39254;39481];
 [39485;39494;39492;39490;39489;39482;39487;39629;39701;39703;39704;39702;39738;39762;39979;39965];
 [39964;39980;39971;39976;39977;39972;39969;40375;40374;40380;40385;40391;40394;40399;40382;40389];
 [40387;40379;40373;40398;40377;40378;40364;40392;40369;40365;40396;40371;40397;40370;40570;40604];
 [40683;40686;40685;40731;40728;40730;40753;40782;40805;40804;40850;20153;22214;22213;22219;22897];
 [23371;23372;24021;24017;24306;25889;25888;25894;25890;27403;27400;27401;27661;28757;28758;28759];
 [28754;29214;29215;29353;29567;29912;29909;29913;29911;30317;30381;31029;31156;31344;31345;31831];
 [31836;31833;31835;31834;31988;31985;32401;32591;32647;33246;33387;34356;34357;34355;34348;34354];
 [34358;34860;34856;34854;34858;34853;35185;35263;35262;35323;35710;35716;35714;35718;35717;35711];
 [36117;36501;36500;36506;36498;36496;36502;36503;36704;36706;37191;37964;37968;37962;37963;37967];
 [37959;37957;37960;37961;37958;38719;38883;39018;39017;39115;39252;39259;39502;39507;39508;39500];
 [39503;39496;39498;39497;39506;39504;39632;39705;39723;39739;39766;39765;40006;40008;39999;40004];
 [39993;39987;40001;39996;39991;39988;39986;39997;39990;40411;40402;40414;40410;40395;40400;40412];
 [40401;40415;40425;40409;40408;40406;40437;40405;40413;40630;40688;40757;40755;40754;40770;40811];
 [40853;40866;20797;21145;22760;22759;22898;23373;24024;34863;24399;25089;25091;25092;25897;25893];
 [26006;26347;27409;27410;27407;27594;28763;28762;29218;29570;29569;29571;30320;30676;31847;31846];
 [32405;33388;34362;34368;34361;34364;34353;34363;34366;34864;34866;34862;34867;35190;35188;35187];
 [35326;35724;35726;35723;35720;35909;36121;36504;36708;36707;37308;37986;37973;37981;37975;37982];
 [38852;38853;38912;39510;39513;39710;39711;39712;40018;40024;40016;40010;40013;40011;40021;40025];
 [40012;40014;40443;40439;40431;40419;40427;40440;40420;40438;40417;40430;40422;40434;40432;40418];
 [40428;40436;40435;40424;40429;40642;40656;40690;40691;40710;40732;40760;40759;40758;40771;40783];
 [40817;40816;40814;40815;22227;22221;23374;23661;25901;26349;26350;27411;28767;28769;28765;28768];
 [29219;29915;29925;30677;31032;31159;31158;31850;32407;32649;33389;34371;34872;34871;34869;34891];
 [35732;35733;36510;36511;36512;36509;37310;37309;37314;37995;37992;37993;38629;38726;38723;38727];
 [38855;38885;39518;39637;39769;40035;40039;40038;40034;40030;40032;40450;40446;40455;40451;40454];
 [40453;40448;40449;40457;40447;40445;40452;40608;40734;40774;40820;40821;40822;22228;25902;26040];
 [27416;27417;27415;27418;28770;29222;29354;30680;30681;31033;31849;31851;31990;32410;32408;32411];
 [32409;33248;33249;34374;34375;34376;35193;35194;35196;35195;35327;35736;35737;36517;36516;36515];
 [37998;37997;37999;38001;38003;38729;39026;39263;40040;40046;40045;40459;40461;40464;40463;40466];
 [40465;40609;40693;40713;40775;40824;40827;40826;40825;22302;28774;31855;34876;36274;36518;37315];
 [38004;38008;38006;38005;39520;39726;40052;40051;40049;40053;40468;40467;40694;40714;40868;28776];
 [28773;31991;34410;34878;34877;34879;35742;35996;36521;36553;38731;39027;39028;39116;39265;39339];
 [39524;39526;39527;39716;40469;40471;40776;25095;27422;29223;34380;36520;38018;38016;38017;39529];
 [39528;40473;34379;35743;38019;40057;40631;30325;39531;40058;40477;28777;28778;29225;40612;40830];
 [40777;40856]].

(* lib/converters/cns11643_3.h:30-883 cns11643_3_2uni_page21 *)
Definition cns11643_3_2uni_page21 : tab := mk [
 [6696;6710;6719;6789;6661;6660;7554;7574;7992;8041;8118;6698;6791;6729;7650;6726];
 [6799;6844;6846;7526;7651;7684;7836;8004;9474;9482;10112;10715;10874;10879;10996;11088];
 [11089;11105;25117;27915;6755;6754;6819;7557;6853;6863;6862;6860;7556;7558;34071;197];
 [7652;7685;7838;7837;7933;7936;7994;313;8006;8029;8070;8119;341;8140;347;8142];
 [8993;930;10752;11020;11831;11832;12596;12597;12768;2598;16269;6807;6880;50;28329;6887];
 [51;6886;52;674;49;176;8920;7563;7564;7577;7653;34128;7691;220;542;7940];
 [7939;7943;34090;7966;8031;8045;8073;8122;8144;357;8182;8183;8185;356;8180;541];
 [550;8996;9476;9496;9522;9520;9524;654;9589;842;10114;10233;10260;907;934;932];
 [933;935;1071;1074;10881;10883;11021;11090;1236;11210;11207;11833;1477;11855;12775;13103];
 [14202;14393;2234;2233;14391;14404;14405;16268;16786;17014;23699;23698;5299;5562;6689;6688];
 [6690;6760;6793;6808;6905;6895;59;60;6904;6918;6915;6908;6894;6934;57;6952];
 [6940;6919;6938;6906;6935;7498;178;7538;34069;7604;7603;7602;199;7656;43;7700];
 [7695;7701;7704;7848;34092;8011;8015;315;8016;324;8075;322;8126;348;8146;8214];
 [8191;359;8192;358;8197;8211;8213;34107;543;8931;9013;9014;9009;9010;9454;9477];
 [6740;655;9526;656;680;676;9594;675;9606;829;844;10118;11091;10264;908;10301];
 [10360;936;941;943;30534;10368;1065;10760;1078;1137;1136;1135;10997;11022;1193;1194];
 [1275;11219;11226;1276;11227;1454;11791;11869;11871;11879;11863;27472;1731;12779;12778;1840];
 [13111;1857;13106;13110;14114;14286;2188;14424;14417;14455;14396;2235;14426;31878;14419;15471];
 [15474;15470;34101;2465;15475;16049;16050;2728;16271;2730;2731;3222;17724;3522;19597;19598];
 [4243;20091;4244;22897;23481;23702;23706;5563;6692;6769;34075;6812;6981;6986;6969;6967];
 [67;6962;6978;66;6980;6987;68;6976;6965;6961;7505;34062;7504;7502;179;183];
 [7581;200;7605;7608;7660;7715;7719;7718;7711;7723;7712;7860;7859;280;7973;7995];
 [8052;327;326;325;363;361;8269;370;369;8250;364;367;8260;8268;8227;8218];
 [8242;8267;8225;371;8244;8265;8272;8226;8255;8273;8282;8239;374;8937;8946;8947];
 [8943;8941;8940;8934;9032;551;9028;9023;9020;9043;9046;560;9055;9027;9048;9047];
 [553;554;559;9030;556;9021;557;9026;9044;9045;9457;9458;9456;9483;27302;8945];
 [9533;659;9620;9612;685;9628;684;683;9631;681;9627;686;9609;9626;682;12680];
 [846;10125;848;10238;10239;10237;10283;946;10372;10382;10396;949;950;10373;10741;10761];
 [1081;1083;10763;1138;10898;10896;11011;1196;11038;11107;1288;11239;11262;11238;11228;11214];
 [1283;11260;11231;11244;11254;31191;11250;11248;11257;1291;11795;1455;34226;11835;11836;11906];
 [1486;1483;1484;11896;11915;1485;11934;11941;11931;11932;11929;11917;11909;11933;11893;1664];
 [1711;1747;12790;1749;1748;1751;13045;13147;1858;13140;13138;1860;13144;13124;13130;13153];
 [2246;14463;14481;14494;2240;14446;14460;14495;14453;2238;14422;14498;14457;2250;14497;2244];
 [14506;14496;2242;15481;15479;15486;2468;15477;15483;15972;2601;16059;16060;16071;16057;16062];
 [16054;2656;2654;16280;2733;2734;2732;2903;16787;17024;3037;17027;17088;17089;3086;3223];
 [17396;17397;3367;18124;18125;18682;19615;19601;19607;19604;4245;20102;20108;34447;20117;4248];
 [21100;4509;23477;23486;23495;5258;23489;23721;23716;5301;5302;5303;23720;25127;25126;25131];
 [25139;25140;25129;6717;40;6813;7059;7050;77;73;7021;7054;7072;7074;7073;7071];
 [7075;28425;7026;81;7052;7510;34063;34065;7568;203;202;204;7661;7678;7727;29164];
 [7740;7732;7737;7865;7861;7871;8021;317;8054;8058;8083;328;8129;8130;8149;8325];
 [376;8287;8339;8329;8313;27390;8335;8297;8301;378;8340;8298;8330;375;8957;8955];
 [8952;545;8956;8950;9061;9089;9059;9063;561;9070;9080;9087;563;564;9459;9547];
 [9548;705;688;692;9645;696;9668;700;9666;9648;703;693;689;701;9663;699];
 [9673;9656;9644;691;694;698;9655;9687;695;10080;832;10134;10142;10132;10143;10141];
 [850;10240;10265;912;913;10313;10314;958;10427;10433;960;961;953;10425;10398;10420];
 [10426;10742;10771;10770;10871;1145;10904;1147;10905;10909;11000;1184;11001;41;11014;11041];
 [1198;11045;11093;1229;1227;1241;11140;11139;11312;11271;1292;11318;1281;1285;1282;11241];
 [11325;11272;1299;1297;11962;11954;1508;11959;12004;11943;1498;1493;1491;11989;12001;11997];
 [11942;11969;11973;11968;11999;12000;11998;1494;12681;1716;12710;12730;1753;12799;1752;12823];
 [12824;12801;12798;1843;13068;1864;13163;13206;13186;13194;1863;13219;1867;13218;13199;1866];
 [13305;13184;14118;14119;14184;14185;2138;14209;14260;14289;2190;2228;14364;2253;2252;2255];
 [2251;2254;14487;14444;14559;2258;14570;2257;14564;14552;14514;14542;14536;2470;15499;15496];
 [15504;15503;2474;15495;15497;15501;15489;2472;15500;2579;2586;15936;2589;2590;15973;15974];
 [15976;2661;2662;16077;16083;16091;2660;16079;16295;16291;16286;2736;16303;2739;2741;16298];
 [16284;2841;16706;16708;16699;16705;30783;16795;16798;2933;17860;17859;17862;3371;3372;17863];
 [3373;17866;32814;3523;18127;18550;18548;18687;18684;186;3920;19289;19624;4051;4048;19632];
 [4060;19635;4050;19620;19638;19623;19628;4059;19622;8039;19982;20164;20286;20124;4261;4255];
 [4250;4252;4258;20138;4251;20169;4259;4253;20134;20146;4488;4634;5261;23500;23513;23498];
 [23512;23503;23735;5304;23725;23737;25143;5571;25153;25150;25270;25425;25443;6743;6777;6834];
 [6832;6831;6833;7122;7125;93;7102;7096;7088;7089;7112;90;87;7110;7116;7141];
 [7139;7092;7530;184;7583;194;7617;207;7618;7619;7749;7752;231;233;7759;4178];
 [232;7877;7882;7876;7975;8024;8061;330;8157;8156;8154;8153;8377;384;8400;8372];
 [8394;391;8355;8410;8356;388;8370;8350;8351;8373;386;385;8397;387;8396;546];
 [8960;9132;9105;9102;9101;9106;9121;9104;9126;9128;571;9116;9110;9127;570;568];
 [569;566;9461;645;9481;9480;2132;9554;666;708;9695;709;9707;9711;9712;9685];
 [9741;9732;9721;9730;9720;9698;9689;9703;10090;852;853;10155;854;10267;10287;918];
 [12860;917;916;964;10449;10460;10470;10465;10445;34170;10466;10461;10469;10747;10746;10782];
 [1092;10913;1149;1150;11004;11003;11055;1202;1206;11110;34201;1244;1247;11356;1320;11342];
 [11345;1305;1296;11299;11313;11388;11346;1324;11360;11338;11361;1307;11800;1474;1519;1507];
 [1509;1514;1510;1518;12063;12055;12010;12065;12036;12037;1512;12593;12612;12608;1669;12610];
 [12734;1760;12841;12827;1757;12835;12844;12826;12848;12859;12830;12855;12856;1761;13070;1873];
 [1877;13288;13270;1874;13255;13244;13394;13247;13269;13310;20323;13307;34271;13233;13313;13317];
 [13312;13271;3230;14122;14187;2130;2142;2144;2143;14305;2194;2262;14627;14591;14612;14597];
 [14611;14598;14625;2270;14613;14511;14580;14594;14661;34302;14630;2265;14660;2269;14628;15525];
 [2476;15523;2480;15522;15547;15520;15530;2479;2478;15528;15542;15538;15527;2477;2475;15545];
 [15918;2582;15932;2608;15981;2611;2609;16103;16109;2670;16108;16101;16098;2737;16324;16317];
 [16335;16329;16321;16336;2743;16334;16621;16619;2842;16623;16713;16720;16710;16714;2905;16717];
 [16806;2938;2936;2939;16808;3038;3052;17095;17151;3102;17149;17382;17418;3227;17412;17419];
 [17415;3229;17429;17416;3325;17875;17876;17872;17879;18044;3476;3475;18045;18051;18050;3526];
 [18132;18133;18131;18128;18130;18174;18172;18551;18556;18555;3768;34410;3767;3769;3923;32563];
 [3922;3921;19343;19667;4067;19659;19666;4066;19721;19682;19679;19654;4195;20004;20215;20184];
 [20189;4266;4262;20216;20220;4264;4265;20201;4267;20206;4268;20176;20238;20194;20235;20221];
 [7545;21110;4510;21112;4511;4512;21109;21117;4623;21570;21606;4636;21900;22021;4782;22022];
 [4784;22687;5076;23537;23527;23529;23535;23746;23740;5307;23750;23744;5313;5314;23757;23753];
 [5310;23748;5349;24961;5574;26860;7218;7161;7197;7167;7172;7152;7171;4654;7170;7164];
 [7154;7204;7176;7222;7214;101;7184;7224;7225;7165;7254;7163;7587;7590;7585;209];
 [208;7623;7625;7776;7780;7769;7781;7783;7767;7779;238;7763;239;7887;286;7886];
 [7888;7889;7884;331;333;342;8461;8436;402;8467;8431;8437;8441;8450;8448;403];
 [400;8472;8432;8438;34113;407;8473;547;8965;9161;575;9143;9165;579;578;580];
 [9150;9147;581;9179;9160;9156;9157;9169;9162;9152;729;734;9761;9770;719;9757];
 [717;9739;733;718;723;726;9762;732;721;9764;720;9748;9777;725;9775;9754];
 [9746;724;731;9766;30254;835;10172;10171;10167;10245;10246;10322;10323;973;977;10490];
 [10475;970;10483;10485;10473;10479;980;10794;10800;10798;10796;10799;10927;10921;1158;11005];
 [11058;11150;11155;11151;11343;11417;1331;11390;1335;11380;11339;11379;11381;1322;1311;11350];
 [11433;11403;11430;1337;11411;11438;11422;11431;11845;1522;1528;12078;1527;12114;12080;12123];
 [1524;12057;12059;1521;12081;12125;12087;12085;12115;1525;12124;12095;12619;1671;3945;12683];
 [1718;12698;12880;12870;12878;12864;1769;12875;12872;1771;12896;12868;12877;1844;13367;13348];
 [1890;1884;13339;13366;1888;13356;13337;13398;13383;13374;13342;34273;13333;13346;13351;13401];
 [13400;13397;13360;13347;14126;14123;14128;14188;2145;14219;2175;14313;14314;14309;14699;2277];
 [2278;14707;14679;2281;2291;14685;14678;14735;14683;14620;14746;14747;14745;2286;14721;14705];
 [2285;2284;14706;14684;14742;15556;15579;15564;15568;15587;15583;2483;15574;15598;15573;2485];
 [2599;2613;2614;15994;2673;16117;16130;2744;2754;16354;16364;16341;16377;16351;16358;2760];
 [2752;2753;2756;16356;16353;16627;2847;2844;2845;2893;16726;16725;16728;16727;16734;16835];
 [2951;2946;16820;2941;16817;3039;3072;17099;17100;17194;3104;17174;17167;3106;3108;17215];
 [17195;17166;17188;3105;17185;17176;17373;3236;3237;17444;17462;3329;17752;17753;3331;17762];
 [17882;17881;3383;17889;17893;17896;17883;3384;17890;17904;3481;3480;3479;3529;18138;18141];
 [3527;18139;18140;3545;3547;18189;18187;18196;18574;18566;3707;18567;18563;18571;3708;3773];
 [3772;3779;18724;3777;3775;3780;18725;19298;19347;19353;19351;3966;3967;19396;19398;19466];
 [4020;4019;19520;19516;19515;19702;19711;19694;19716;19715;19719;34435;4070;19703;4185;4186];
 [20013;4196;20007;20009;20255;20311;4276;4281;4279;4277;20257;4289;4273;20248;20312;4275];
 [4282;4492;4491;4493;21124;21151;21147;21129;21158;21138;21135;21152;21583;21624;21626;21614];
 [21627;21636;21619;4728;4727;22029;22027;22041;4786;5078;23248;5189;5266;5269;23545;23561];
 [23560;5318;23774;23889;5351;5352;24027;24031;24030;24022;24032;24965;25184;25177;5579;25174];
 [5581;5617;25277;5922;33;7234;7257;111;7236;7270;7250;7252;7281;7248;7291;7292];
 [7256;112;100;7289;7276;7288;7592;7633;7631;7784;7798;7892;301;8096;8132;344];
 [8536;8524;8552;422;8521;420;415;8541;8489;29614;8532;8531;419;8538;416;8506];
 [8511;8491;9194;586;9199;583;584;9181;9214;34133;9182;9190;585;9192;9215;9219];
 [9463;13478;9503;670;9563;9565;9566;30007;744;9771;748;9787;749;742;9825;9786];
 [9838;9803;9835;747;743;9797;9806;9832;9789;9841;9791;9839;9845;745;9843;9772];
 [9817;9812;9807;9827;860;861;10184;864;10179;859;10331;10337;921;10529;10506;10505];
 [984;10540;10504;986;989;10538;10517;992;10512;10515;997;10543;10520;983;10723;10809];
 [10805;10810;10802;1102;1164;1160;34189;10939;10938;11060;11065;1230;34204;1253;1254;11416];
 [1330;11472;1344;1351;1356;11479;11434;1333;11425;11428;1328;11502;1347;11495;1357;11496];
 [11486;1463;1523;12158;12171;1538;1547;12153;12166;12179;1540;12147;12138;34234;12140;1544];
 [12159;1532;12210;12218;1535;1536;12134;12148;1675;12634;1677;12622;12621;12685;12686;12717];
 [1738;12743;12746;1739;12745;34251;12771;12887;1779;12899;12903;13082;13081;13078;1846;1898];
 [13470;13494;13464;13427;1899;13466;13454;13495;13531;13477;13420;13505;13444;1905;1896;13461];
 [13434;13465;1906;13496;13497;13424;2094;14133;2146;14224;14267;14317;2200;2229;2283;14785];
 [14787;14798;2299;2296;14765;14852;2293;14777;2312;14823;34311;14856;14854;2314;14858;14768];
 [2310;14840;14860;2301;14769;2298;14850;14855;14857;14849;14871;14847;14866;2490;2489;15619];
 [15623;15617;15605;15601;15624;15602;15631;2491;15614;2584;2624;2621;16154;16144;16142;16386];
 [16371;2765;2761;16379;2763;2762;2766;16667;16675;16737;16744;2910;16743;16851;2961;2956];
 [17040;3041;3074;17109;17111;17110;17200;3115;17190;3114;17216;2580;17182;3245;3235;3243];
 [17479;3247;17483;17489;17487;17474;17478;3332;17774;17772;17906;3396;17905;17909;17907;17913];
 [3389;3399;3484;18074;18067;18065;18145;3552;3556;18209;18204;18198;18199;18230;18207;3712];
 [18579;18585;18586;18588;3786;18761;3796;18740;18743;3794;18733;3787;18764;3790;3795;18760];
 [3908;3912;19259;3909;3969;3974;3973;19464;19482;4003;19485;4021;19529;19525;19524;18587];
 [4090;4089;19754;19758;4091;4082;19761;4079;19738;19764;19735;4187;4198;4302;20253;20337];
 [20356;20352;20338;20385;436;20345;20369;4296;20383;20397;4305;4293;20259;4306;20357;20380];
 [20407;21080;21082;4495;21079;21170;4519;21166;4517;4516;4625;21573;21660;21652;21667;21647];
 [21669;21673;21670;21642;21664;21648;21906;21905;21908;4789;22054;22066;22056;4788;4797;22044];
 [4795;22059;22048;4793;22057;4802;4798;4794;22049;22586;1719;22619;22616;22652;4952;22694];
 [22702;22701;22885;5019;22910;5020;22908;22911;22906;22973;5082;5086;22976;22971;23213;23215];
 [23254;5197;5190;5191;5195;5196;23257;5192;5273;23570;23566;23589;5275;23571;23790;5326];
 [23723;23799;5355;23897;23892;24050;24048;24037;24054;5404;5516;24967;5585;25178;5590;5587];
 [25198;5588;5584;5589;25209;5643;25825;25830;6086;27332;27346;6784;36;6785;7311;7319];
 [7304;7305;116;122;7297;7520;28772;195;10818;7635;212;213;7634;7638;7795;251];
 [7792;247;306;34099;8104;8102;8133;8599;8670;442;447;8598;8628;455;8581;439];
 [8603;8608;441;8537;451;8582;445;464;8623;8570;449;446;461;8606;459;8617];
 [8975;8974;9242;591;9247;595;9276;9240;9278;9254;597;9274;29796;9250;593;9467];
 [9571;9572;671;9896;9891;9858;9864;9889;9861;9880;766;9881;763;9865;9857;9878];
 [9856;753;757;9873;751;772;771;756;9935;755;770;759;762;765;750;9863];
 [9888;752;9849;754;9862;9899;9898;9892;9869;9854;836;10197;866;887;2505;10270];
 [10335;10334;10564;10558;1000;10568;10524;1007;10587;10573;998;1005;10583;999;10579;10575];
 [1003;10555;10566;1069;1109;10822;10823;1107;10824;10944;10941;10943;1168;11025;1214;11070];
 [11067;1213;11066;1231;1232;1260;11175;1355;11498;1352;11527;11554;11532;1365;1361;11443];
 [11478;11474;1358;11491;11493;11497;1387;1374;11537;11517;1376;1383;11550;11552;11553;11806];
 [1464;12258;12254;12262;1556;1551;1543;1555;12280;1559;12286;12225;12223;12279;12241;12639];
 [12640;12641;1690;1720;12753;1783;1784;12925;12907;12927;1789;1781;12915;12929;12909;12905];
 [1786;1848;13086;13549;1927;1920;1928;1913;13571;1916;13566;13541;13598;13570;1923;1925];
 [13577;13514;13568;34277;13569;13592;13538;13519;1915;13614;13509;13567;1926;13596;13507;2100];
 [14191;2133;14190;2152;14270;2204;14324;14381;2300;14774;14965;14878;2330;14872;2327;14920];
 [2331;14927;2323;14914;14954;14960;14846;2309;2311;14957;2332;14971;14974;14937;2321;14935];
 [2326;14976;14928;2325;14889;14966;14890;14924;15658;2507;15669;15660;15671;15645;2501;2498];
 [15672;2509;15668;15659;15667;15655;15652;2506;15661;15922;16003;16002;16007;16134;16164;16184];
 [16170;16172;16171;2691;16175;16168;16407;2774;2773;16409;16440;2769;16415;16404;16444;16375];
 [16412;16405;16408;16441;16633;16676;34356;2898;2911;16750;16749;16753;16782;2965;16869;2973];
 [2968;2974;2966;17044;17075;3075;17113;3119;17224;17225;17219;3121;3123;17218;17375;3252];
 [17507;17526;3248;17503;17510;17766;17777;3336;3335;17782;17796;17781;17919;17927;3406;17934];
 [17929;3408;3410;3489;3491;3493;3532;18151;18146;18261;3567;3562;18243;18263;18284;18242];
 [18259;3565;18241;3717;3716;18599;18592;18598;18596;18804;3803;18777;3801;18784;18775;18796];
 [18814;18788;3799;18778;18781;3802;3806;3800;18806;18765;18805;3797;19411;19414;3996;3997];
 [19552;19534;19781;19771;4094;19784;19778;19785;19776;19732;19777;4103;19951;19958;19971;4202];
 [20461;4327;20442;20504;20434;20488;4322;20480;4319;4321;4325;20503;20294;20500;20435;20485];
 [20511;20482;20502;20429;20454;4497;21085;21205;21217;4532;4528;4533;4526;21230;21575;21574];
 [4653;4652;21691;4651;21695;21684;4649;21685;4735;21914;22083;4809;4811;22106;4805;4806];
 [4810;22069;22072;22082;22089;22109;22091;22077;4818;4816;4909;4917;22624;22622;22655;22654];
 [22659;4972;22705;22919;5021;5024;22920;22915;5026;5023;22918;22923;22914;22986;22994;5099];
 [5090;22996;22985;23216;5174;5170;5200;23282;23268;23283;23274;5199;23293;5202;23453;23595];
 [23594;5278;23592;23593;23596;5280;5276;23610;23600;23607;23611;5329;23818;5359;5360;5361];
 [24062;24096;5405;24075;5407;24088;24098;5406;24091;24072;5408;24078;24083;5518;5521;24981];
 [33757;5520;5591;25228;25211;25215;25217;5593;25218;5620;5622;352;5621;5619;25326;25325];
 [5644;25324;25439;25455;5713;25453;5798;5799;5800;5927;5924;5925;25840;5930;6004;6087];
 [26281;6119;6125;26336;6839;46;123;7372;7356;124;7338;7353;125;7339;7363;7373];
 [7550;7806;7801;253;34083;7905;7904;7911;8064;8107;8106;8105;8160;8682;474;8663];
 [470;475;8641;8981;603;9324;604;9308;9296;9313;9322;9321;9302;9312;9318;9311];
 [9507;9574;9576;774;779;9934;781;9925;9923;778;787;9936;784;786;777;776];
 [785;783;10100;10102;10204;10199;10202;10203;871;10272;10605;10598;1014;10596;10606;34174];
 [10592;11074;11098;11118;1380;1388;11568;11578;11562;11587;11545;11569;1389;11581;1402;1397];
 [1549;12296;12338;12344;1566;12337;1563;12313;1578;12305;1567;1570;12329;12317;1573;1575];
 [1577;12348;1572;12358;12359;1576;1574;12346;12295;1571;12651;1695;12656;12653;1713;12772];
 [12947;1795;1799;1804;1798;12943;1796;1801;12946;1797;12942;1800;13638;1942;1948;1951];
 [1947;1944;1945;1940;13617;1933;1955;13630;1939;13692;13635;1938;13683;34280;13653;1934];
 [1932;13701;13645;13648;13639;13671;13622;13668;13665;1946;13693;14148;14144;14193;14195;14236];
 [2154;2157;2180;14273;2208;14330;14385;14386;2333;2342;15032;15016;2355;14993;15035;2360];
 [15002;2352;2344;15017;2343;2346;15029;14956;15080;2353;15069;15066;15078;15020;2356;2350];
 [2363;15065;15075;15081;15067;2345;15727;2514;2520;15688;2511;15690;15723;2521;15695;15703];
 [15732;2510;2515;2512;15685;15697;15725;1953;15953;15952;15950;2631;16193;2699;16174;16198];
 [2772;16423;2782;16456;16467;16445;2783;16477;16470;2775;16414;16455;16451;16472;16457;2785];
 [16460;16453;16446;2863;16641;16670;2914;2915;16762;16878;16898;17047;17048;3042;3076;3139];
 [17245;17252;17235;17240;17538;17552;17546;3262;17530;17533;3258;17547;17528;3260;34382;17549];
 [17544;17554;17537;17790;17795;3341;3342;3345;17792;3343;3346;3413;17935;3417;3419;17949];
 [3415;18081;18084;3534;18153;18154;3582;18274;18283;3580;18270;3573;18297;3577;3578;18287];
 [18280;3720;3721;18606;3722;3719;3723;18608;3814;18832;3821;18826;3813;18827;18841;18837];
 [3808;18823;18808;18839;18825;18840;3809;3931;3932;19363;3983;3979;3981;19421;19543;4025];
 [19811;19818;19820;4111;4121;4115;19805;19829;4120;19807;4118;19837;19821;4179;34445;20033];
 [20559;20612;4342;20607;4341;20552;20522;20603;20594;20580;20526;20572;20563;4343;20545;20680];
 [4336;20578;20608;20542;20611;20593;4345;20554;20565;20568;4498;4501;4502;21244;21245;21269];
 [4537;21270;21247;4541;4536;4626;21592;21711;21728;4736;4737;4762;4760;21991;22122;22144];
 [4820;22127;22117;4826;22136;22141;22152;4822;4827;22116;22142;4828;22119;22627;22664;4977];
 [22733;4978;22729;5032;23021;5104;34523;5105;5117;5176;5175;5177;23217;5205;5203;23300];
 [23454;23456;23619;23622;23624;23621;23616;23628;5333;5309;23820;23827;23829;5365;23915;23911];
 [24157;24149;24117;5409;24153;24111;24124;24207;24156;24170;24162;24159;24171;24174;24123;24132];
 [24129;24986;5522;24985;5598;5595;5594;25231;5599;25238;5625;5624;5626;25332;25340;5646];
 [25429;5699;25465;5718;5715;5790;25582;25589;5801;25611;5882;25843;5937;5936;25847;25855];
 [25845;5938;25836;25841;5929;5934;26010;6006;26338;26429;26461;26856;6309;26859;26863;26862];
 [27265;27412;7376;7385;7388;7384;140;7393;7403;139;137;7412;7394;7390;141;134];
 [215;7668;260;263;259;7917;7914;290;7986;337;8110;8112;353;8699;8707;8715];
 [489;8711;485;8696;484;8744;8734;483;8728;8721;8785;8709;8983;9362;613;9356];
 [611;9336;9348;9331;9389;9367;9365;9335;9330;9366;9357;9488;652;9580;794;9959];
 [789;9956;800;801;9967;8742;796;795;9968;10619;1022;10627;1028;1025;10635;10636];
 [1024;10616;10834;1133;1171;10960;10959;1185;11187;11188;1398;1401;1394;11643;1411;11631];
 [11649;11580;11586;11576;11571;34214;11616;11625;11645;11654;11820;11816;1592;12364;1584;12375];
 [12412;1588;1594;12373;12386;12401;12394;12374;12347;12417;1589;12367;12414;12388;1599;1600];
 [1586;1585;1590;12657;31418;1807;12965;12954;12956;1808;12966;1805;12964;13711;13765;13768];
 [13714;13746;1961;1972;1964;13795;13760;13782;13777;13727;13730;13778;1976;1966;31731;13793];
 [13781;13725;1971;1978;13720;2111;14196;14241;2364;15088;15091;2370;2368;15131;15116;15133];
 [15156;15144;15127;2366;15172;15170;15108;15121;15098;15178;15761;15758;2529;15755;15757;15743];
 [15756;15742;15740;15747;2534;15752;2528;2581;16020;2707;16213;16211;16207;16212;16492;16485];
 [16486;16481;16491;16488;16502;2791;16480;32271;16500;16646;16910;2989;16903;2990;3043;17081];
 [3061;17079;17122;3078;17268;17271;17270;17269;3151;17272;17265;3156;17274;15707;17275;17574];
 [17582;17592;3275;3299;3273;17585;17583;3347;17801;17799;3349;3425;17961;3430;17962;3428];
 [17965;17964;3424;17970;3427;18156;18160;18305;18334;18307;3594;18322;3588;18339;18335;18323];
 [3591;18310;18616;18615;3725;3727;3728;3730;3820;18888;18870;34412;18897;3815;18856;18859];
 [3826;18867;18893;3822;18895;18852;3823;3916;19265;19311;19313;3934;3935;3958;3956;3954];
 [3984;19491;19547;4030;19553;19551;19841;4134;4133;19844;19987;4212;20042;20044;4349;4357];
 [4353;20669;20629;4361;20626;20675;4364;20630;20645;20661;20659;20643;20708;20696;20693;4365];
 [20663;20653;20698;20627;21302;4544;4549;4553;21309;21291;21319;21305;4565;21317;21277;4673];
 [21759;21738;4659;21749;4666;21760;21741;21763;21737;4672;4674;21994;4840;22171;22158;22178];
 [4836;22172;22164;22160;22185;22188;4839;22175;4838;4833;22173;4921;22631;4956;4981;22736];
 [22742;22740;22936;22938;22935;5038;5040;5114;23051;23048;23041;23220;23219;5211;23457;23458];
 [5285;23642;5282;23649;23647;5339;5338;23845;23931;23926;23932;5412;24201;24310;24241;24237];
 [24210;24193;24196;5414;24238;24208;24222;5528;5526;5530;24994;24999;5527;5601;5600;5603];
 [5602;25248;25245;25247;25296;5627;25297;5650;5652;25433;5701;25444;5724;5725;5816;25625];
 [5818;25620;25621;25626;5891;5941;5942;5945;25862;5933;25848;25857;6010;26046;26044;26039];
 [26038;26048;6008;26040;6011;6012;6014;26052;6013;26047;6089;26330;26340;26345;26344;26346];
 [26341;6131;26406;6170;6169;26432;6175;6310;6311;6312;6315;6313;6446;27325;6494;149];
 [147;146;7438;150;7415;151;7420;7437;7425;7642;7641;7643;7814;7822;7918;7987];
 [8113;501;8775;8749;8788;490;8779;8786;8753;8772;8790;8784;8747;499;8781;8759];
 [8783;9378;9399;617;9394;619;9386;9397;9392;620;9396;9380;9383;616;9510;9982];
 [808;9988;806;9980;805;9990;9994;9978;9997;9984;9998;875;1039;1032;10641;1036];
 [10639;10640;10648;10660;10651;10659;10646;10724;10842;1120;1122;10846;1176;11192;11607;11612];
 [11686;11669;11656;1418;11683;11663;1412;11620;1407;11609;11640;1410;11653;11655;11678;1430];
 [1417;11672;11676;1421;1468;11823;12416;12443;12430;12429;12436;12486;1604;12456;12419;1596];
 [12473;12422;12468;12463;12433;1614;12458;12449;12455;12982;12979;1812;12988;12972;1813;12973];
 [13838;1998;13852;13850;2016;1986;13835;1983;13807;13836;13808;13858;1988;13784;1999;13842];
 [13818;1992;13866;1996;13840;1997;1991;13865;13817;13802;13868;13860;6327;13801;14162;14159];
 [14163;2115;2230;15120;15205;15221;2385;2378;2381;2390;15312;2387;15196;15165;15217;2393];
 [15249;15115;15225;15233;15247;2382;15193;15220;2542;15790;2540;15779;15789;2539;2543;15787];
 [15782;15778;2541;7922;15959;15957;16025;16203;16506;2802;2799;2801;16524;16516;2797;2800];
 [16514;16531;16507;2798;16649;6171;2896;2918;644;3000;3062;17290;3159;17296;3166;17606];
 [17619;17600;17618;17607;17602;3353;17823;17821;17822;3440;17985;3438;17976;17978;17986;3442];
 [3446;17982;18096;18350;18355;3602;3615;18367;3601;3606;18381;3609;18354;3620;3604;3621];
 [3733;3734;3731;3732;18628;18637;18626;18630;18627;18633;18631;3744;18936;3835;18925;18914];
 [3836;3840;3832;18908;18946;18945;3833;18902;3844;18916;18942;3843;18944;18940;18941;3827];
 [18933;18943;3834;18923;18917;19320;19374;19431;4031;19557;19562;19558;19560;19563;19860;19873];
 [19858;19862;19859;4217;4368;20737;4372;20728;4366;20725;4378;20740;4377;4385;4387;4383];
 [20763;20739;20787;20788;20717;4389;4395;20789;4374;20741;4386;4379;4558;4559;21373;4555];
 [4561;4556;21361;4631;21596;21734;21775;21787;4689;21929;21925;21998;22193;4845;22220;22222];
 [4852;22199;4849;22197;22249;22196;4856;22195;22209;22191;22218;22224;4911;4958;4957;22670];
 [4982;4983;22761;22747;4990;22763;22948;5046;22946;22941;5043;5116;5123;5120;23082;23080];
 [5130;5122;23224;23222;23225;23223;23330;23339;23335;23321;23460;5255;23475;5286;23665;23658];
 [5289;5342;23944;23948;24255;24248;24254;24284;24293;5422;5421;24276;24278;5424;24282;24301];
 [24307;24283;5419;24249;24290;24299;25007;5534;25010;25011;5535;5605;5604;25251;25253;5629];
 [5628;5655;5657;25354;5656;25479;25481;25484;25583;25642;25634;5823;25631;5948;25881;5995];
 [26058;26074;6019;6017;6016;26078;26056;26080;6090;26294;26293;6094;26356;6134;26475;26473];
 [26482;26467;6201;26893;6318;26881;26892;6325;26872;6323;6324;26878;26882;27268;6434;27307];
 [27306;7453;7446;153;7467;7454;7451;7824;7828;7956;29321;514;8807;513;8827;673];
 [8799;8801;509;627;628;624;630;629;626;9411;9418;9403;9408;9412;9473;10015];
 [10008;10001;10005;809;10002;10012;810;10018;10105;10662;1046;10675;10667;10986;1177;11099];
 [1235;1269;11703;11726;11705;11709;11727;11712;11673;11671;1428;11707;11728;11716;11825;1622];
 [12499;12480;1625;1624;1621;1618;12508;12497;12488;1623;12501;12995;1819;1820;12991;12997];
 [1817;13005;12993;13062;1855;13092;13923;13890;13906;2011;13891;13875;2018;13932;13911;2007];
 [13900;13934;2014;2021;2020;2022;2006;13879;2015;13937;13898;13878;2012;13907;2010;13893];
 [13936;2003;2000;13916;14168;14167;2182;2183;2221;2231;2392;2410;15291;2402;2401;15294];
 [2409;2412;2405;15285;15315;15263;2406;15287;15349;15799;2549;15803;2548;15825;2551;15802];
 [2552;15798;15820;2555;2556;15827;16539;2805;2808;16534;16546;16541;16650;16654;2876;16769];
 [16940;16951;16950;16955;3013;17057;3170;3171;17304;3175;17302;3174;3289;3291;17622;17643];
 [3288;17628;3355;17829;17833;25652;18003;17989;3449;17999;3453;18109;18107;18161;3628;3639];
 [18412;18413;3632;3738;18643;5632;18657;3845;18969;3847;3849;3850;18983;18982;3961;4034];
 [19566;19887;4152;4151;19885;4129;19882;19992;4190;4413;4407;4416;20847;20812;4381;20802];
 [4403;20828;20848;20831;4405;20826;20811;20799;21386;4568;21387;21409;21390;4572;4574;21401];
 [21598;21599;21796;21927;22250;22269;22265;22243;22245;4858;4859;22252;4925;4923;4927;4959];
 [22770;4991;22767;4996;22950;5052;5140;5135;23099;23107;5134;23090;23345;23344;5216;23341];
 [23356;23463;23461;5291;5292;5290;23863;23957;23950;5380;23958;5384;24389;24330;5427;5428];
 [24317;24343;24348;24327;24369;24370;24364;24368;24323;24325;5538;25026;5540;25016;5541;25025];
 [5543;5542;5607;25259;25271;5631;5630;25365;25364;5661;5660;25356;25367;5735;25491;5780];
 [25554;5829;5832;25654;25649;25651;25660;25646;25658;5833;25661;5831;25781;25890;25891;25888];
 [25884;25885;5996;26016;6026;26095;26088;26091;6024;6023;6022;26081;26086;6095;6096;26360];
 [26357;6172;6179;26499;26516;26500;6217;26507;26511;6211;26508;6216;26505;6215;26510;6214];
 [6207;6212;26916;26895;6334;26899;26890;6338;6330;6332;6342;26922;26906;6344;26919;26902];
 [26913;6435;27269;27308;27334;27333;27351;27475;157;7464;7463;7647;292;7989;8115;519];
 [8842;8829;8841;633;9421;9424;632;10027;10035;10025;10037;10033;10039;10294;10686;1049];
 [10681;1052;10683;1048;11746;11739;11741;11740;11738;34223;11737;1469;1629;12511;1626;1630];
 [12513;1628;12526;1627;12725;13012;13013;1825;13008;13009;13006;13015;1824;1842;13949;13962];
 [2034;13991;2037;13977;13954;13960;2030;2028;13958;2026;13976;13981;2029;2035;13967;2038];
 [13994;2120;14173;2121;14346;2421;15319;15318;15333;2415;2427;2419;15321;15322;15338;2416];
 [15350;32057;2424;15843;2558;15849;2560;15851;15855;15859;15850;2561;34337;2645;2646;2717];
 [16241;2809;16558;2815;16563;2813;16556;2883;2881;16771;16965;16974;16964;17059;17061;17318];
 [17316;3183;17321;17327;3210;3301;3302;17648;17656;17649;3455;17993;3509;3510;3515;18114];
 [18162;18163;18426;3648;18422;18428;18456;18440;18450;3741;3740;18651;18650;3855;3857;3853];
 [18988;19021;3860;3859;19270;19446;19499;19572;19896;19912;4226;4227;4429;20882;20883;4431];
 [20863;20907;20887;4428;4433;20908;4590;4584;6347;21454;4587;21453;4578;4582;21441;21425];
 [21447;4588;21824;4697;21823;21817;4701;21827;4695;4699;4694;21931;4862;22303;22281;22284];
 [4864;4865;22592;4930;22678;4960;22774;22775;5149;23110;23119;5182;5225;5221;23357;23361];
 [24422;24440;24413;24425;24436;24445;24430;24434;24435;24418;24392;24403;24415;24424;5432;24447];
 [24427;5550;25028;5549;25263;25261;25266;5634;5663;25370;25371;5666;5664;34549;5740;25499];
 [25503;5736;5741;5742;5792;5838;5840;5841;5835;25664;5842;25671;5843;25783;5920;5966];
 [5963;6002;6000;26018;6034;6031;26112;26099;6032;33847;26101;6105;6101;26301;26368;26370];
 [6138;26420;26441;26527;6219;26531;26573;26521;26525;6352;6350;26937;6351;26948;6340;6348];
 [26933;6354;6453;27311;2563;7471;158;175;27534;524;8863;8859;8862;8854;8852;8864];
 [636;10043;816;817;10042;10689;11085;11101;11763;1441;1438;1640;1633;12534;12517;12522];
 [12519;12549;1637;12537;1638;1642;1707;13995;14061;14002;14000;14005;14014;14017;14024;2041];
 [14016;14012;14001;14020;14015;2136;2186;15368;15363;15357;15376;15362;15379;2564;15866;15872];
 [16569;16572;2818;16987;16977;16975;17131;17336;3193;17337;17345;17344;17342;17675;3307;17671];
 [17674;17672;3305;17677;17670;17685;17839;3360;3361;3457;18165;3661;3673;18478;3672;18459];
 [33233;18458;18468;3749;3753;18662;18659;3866;3865;19037;19023;19046;19035;19271;19380;3990];
 [3992;3991;19450;19502;33503;4040;19918;4163;4165;19993;4434;4439;20940;20914;4437;20923];
 [20929;4438;4440;4594;21481;21486;21488;21462;21518;21466;21832;21834;21838;21837;21937;21936];
 [21939;4871;22328;22322;4872;22317;4874;22324;3867;22313;22644;4961;4962;22787;5058;5062];
 [22953;23128;5150;5157;23231;23233;23370;23468;5296;23689;23869;23868;23977;24480;5437;24464];
 [5438;24467;24459;24493;24507;24504;5446;5445;24476;25048;25047;5635;5670;5671;25437;25513];
 [25562;5784;5805;5845;5850;25684;5849;25685;25675;5853;25663;25785;5909;5910;5911;5921];
 [25912;25910;25920;5964;25915;25913;26020;6038;6040;26120;26124;6043;26128;6143;26375;6181];
 [26578;6223;26562;26555;26572;26571;6230;6228;26957;26979;26958;6360;26960;26965;6359;26974];
 [6438;27280;27314;27313;6456;27338;27394;27431;27430;6538;8879;9440;9436;820;10041;821];
 [34154;10108;10227;34160;929;10347;10692;12555;12552;12554;1644;1645;12764;1833;1834;13025];
 [13023;14030;14036;14051;14039;14050;2048;2056;2054;2053;14040;14037;14034;2225;2440;15390];
 [15404;15397;15347;15876;15880;15893;2569;16580;16585;16583;16584;17065;17350;17349;17688;17690];
 [17696;3362;18022;18020;18026;3541;3681;3677;3682;3663;3680;18485;18484;3754;3874;19052];
 [3873;19054;19057;4166;19924;19926;19994;20066;20069;20086;20955;20950;4450;20967;4448;4452];
 [20980;34486;21501;21461;21511;4598;21519;21496;34497;4633;21895;4753;21941;22005;4877;22335];
 [22339;22348;4965;22795;23147;23144;23152;23157;23159;5183;23235;5451;24553;24554;24523;24517];
 [24518;5448;24557;24531;5458;24549;5450;5457;24539;24555;24544;24513;5456;5452;25053;5614];
 [5636;5638;5677;5678;5679;5755;5752;5751;25522;25524;25521;25525;25586;5794;5793;5859];
 [25686;5914;5913;5975;25924;6046;26150;26143;26136;26145;26135;6109;26377;6149;6184;26565];
 [26591;6240;26595;6246;26601;26606;6247;6248;26982;27002;6366;26990;27025;27011;26998;27006];
 [26989;6369;27285;27363;6505;6519;27395;27396;34585;27415;166;7478;165;7990;532;10050];
 [822;824;10052;10054;10110;10698;10696;10700;10992;1648;12677;13029;13031;1835;2065;2058];
 [14068;2061;14057;2070;2064;2057;2062;2170;15421;2444;15414;2449;15894;2570;15890;15887];
 [15895;15889;15883;2568;2571;16589;16592;16588;16590;16593;2823;16777;3314;18031;18507;18500];
 [18517;3758;3876;3878;3879;19071;22385;3993;19503;19578;19579;19580;4447;4458;4465;20988];
 [21008;20994;4460;4463;20974;20995;4456;21005;21011;21000;21007;21528;21522;4609;4712;21863];
 [21861;21947;22377;22370;4883;22382;4886;22369;4888;22372;22349;22609;5001;5064;23171;23238];
 [5252;24607;5460;24580;24599;24584;24581;5462;24563;24606;24578;24602;24603;24615;24604;5466];
 [25269;5637;5639;25395;5681;25396;25393;25528;25530;5795;25596;5867;5916;25795;5978;25933];
 [5979;26159;6054;6058;6053;26313;6113;26312;26308;26410;26424;26448;6186;26634;26619;26628];
 [26620;26622;6258;6255;6259;26626;26614;26651;26617;26645;26640;26623;26624;26636;6251;6374];
 [27029;27045;6377;6380;6376;6384;27288;27329;6540;27482;7524;8891;533;9446;10057;10231];
 [881;1062;10704;1222;11202;1448;12561;1651;14079;14078;14077;2069;14081;2456;2455;15435];
 [15437;15431;16595;17000;16999;3031;3200;17361;17712;17714;17710;3464;27549;18121;18120;3689];
 [18518;18513;3691;3881;3880;19077;19081;19086;19076;4191;20074;21035;21039;21032;4468;21014];
 [21013;21021;21530;4610;4714;4756;21948;22389;22396;5002;22801;22802;23388;23995;5476;24564];
 [5470;5473;24621;5477;5478;25316;25399;25398;25447;25534;25533;25570;25704;25702;25800;25802];
 [25799;25820;5983;25935;26025;26172;6063;26171;26318;6157;26388;26451;6268;26670;6266;26655];
 [6262;6265;6269;6263;27056;27069;6390;6385;27054;27076;27259;3083;6441;27294;6511;27397];
 [6554;27497;27553;8903;8989;10058;10707;1129;11122;11778;1451;11829;12583;12574;12575;1836];
 [1837;14087;14086;2071;2458;15444;15900;15904;18168;3694;18525;18520;3884;19090;19278;4042];
 [4472;4614;21543;4615;22401;22403;4896;22596;4947;5070;5242;5241;24642;24653;24660;24654];
 [5483;24643;5479;5485;25404;25408;25536;5765;5808;5875;5987;25946;26193;6070;26333;6274];
 [6271;26680;6278;26693;26682;6276;26677;6396;6397;6394;27377;6535;27539;7834;538;537];
 [21057;10711;1653;12584;2074;2075;2073;15443;15449;2460;15905;2576;17007;17719;17845;18530];
 [18526;18677;4475;4476;21053;4616;21549;21897;22413;22407;22416;22810;23193;5185;5347;5490];
 [24671;5491;5480;24662;24673;24667;24666;24668;24677;5685;25409;5768;5789;25710;25708;25709];
 [3701;26026;26204;26200;26334;6287;26703;26705;6286;26707;6405;6404;6399;27132;27449;6558];
 [7486;340;8914;641;10063;14100;3322;18034;18035;3890;4720;4718;22417;34518;5244;23999];
 [5493;24684;5492;5495;25318;25413;5687;25544;25572;25949;6074;26401;6161;26412;26455;6290];
 [6297;26717;26721;26725;27144;6410;6442;6443;6468;6521;27461;170;840;11781;13039;14107];
 [14109;15909;15908;18541;3764;21058;21065;4621;21880;21898;22423;4948;22683;22812;5168;23202];
 [5641;5688;5686;5771;5879;5990;6077;6174;26732;6294;26735;6413;27150;6515;27400;27421];
 [27555;827;828;11104;14108;2464;3323;27901;18675;4481;22427;23207;24004;5496;24698;5773];
 [6003;26209;26211;26327;26742;6566;27557;1453;15463;2577;16043;21066;21885;22429;22611;23397];
 [24699;5689;25805;25821;6079;26416;27158;6415;6567;6581;3036;5169;25319;27160;27298;6568];
 [27516;3365;19102;24708;6081;27164;3472;18545;25546;4758;5247;6416;27299;5642;26747;27543];
 [6418;5690;25424;5691]].

(* lib/converters/cns11643_3.h:884-927 cns11643_3_2uni_page64 *)
Definition cns11643_3_2uni_page64 : tab := mk [
 [27901;27901;27901;27901;27901;27901;27901;27901;27901;27901;27901;27901;27901;27901;27901;27901];
 [27901;27901;27901;27901;27901;27901;27901;27901;27901;27901;27901;27901;27901;27901;27901;27901];
 [27901;27901;27901;27901;27901;27901;27901;7014;7016;7143;7231;27901;7334;7439;7742;7972];
 [8037;8091;7551;8395;8563;8561;8555;8692;8738;8736;8850;8890;8849;8880;9049;9098];
 [9231;9234;9235;9287;9371;9472;9549;9937;9939;10087;10327;10359;10453;10613;10638;10661];
 [10678;10687;10853;10957;10989;11156;11162;11194;11557;11600;11939;12128;12132;12214;12291;12470];
 [12570;17957;10273;13026;13058;13220;13228;13328;13318;13406;13402;13612;13609;13869;13943;13946];
 [14026;14054;14069;14093;14094;14300;14301;14326;14366;14435;14757;14863;14986;14980;14987;14972];
 [15180;15176;15177;15261;15257;15352;15406;15405;15452;17868;15551;15594;15589;15633;15634;15679];
 [15673;15675;15677;15735;15733;15734;15729;15766;15763;15796;15837;15838;15886;9489;15896;16199];
 [16200;16367;16402;16443;16548;16525;16564;17011;17015;17084;17433;17435;17469;17491;17492;17496];
 [17591;17624;17646;17698;17741;17798;17817;17827;17852;18087;18231;18265;18384;18479;18482;18498];
 [18510;18536;18601;18669;18896;18951;18899;19044;19264;27901;19521;19555;19643;13073;13093;20040];
 [20240;20322;20242;20513;20510;20706;20702;20705;20851;20948;20981;21047;21061;21106;21322;21417];
 [21413;21493;21556;21584;21639;21844;21892;22275;22610;22744;22796;22808;22960;23228;23253;23466];
 [23708;27901;23900;24107;24097;24179;24308;24309;24383;24386;24454;24510;24508;24509;24561;24562];
 [24559;24610;24611;24612;24679;24678;24983;25038;25063;25403;25421;25828;25922;26397;26520;27901];
 [26953;12361;10865;10885;11731;25870;19458;17438;27901;27901;8488;8562;8634;8688;8686;8888];
 [8889;8900;19539;24240]].

(* lib/converters/cns11643_3.h:929-947 cns11643_3_2uni_upages *)
Definition cns11643_3_2uni_upages : tab := mk [
 [13312;13568;13824;14080;14336;14592;14848;15104;15360;15616;15872;16128;16384;16640;16896;17152];
 [17408;17664;17920;18176;18432;18688;18944;19200;19456;19712;19968;20224;20480;20736;20992;21248];
 [21504;21760;22016;22272;22528;22784;23040;23296;23552;23808;24064;24320;24576;24832;25088;25344];
 [25600;25856;26112;26368;26624;26880;27136;27392;27648;27904;28160;28416;28672;28928;29184;29440];
 [29696;29952;30208;30464;30720;30976;31232;31488;31744;32000;32256;32512;32768;33024;33280;33536];
 [33792;34048;34304;34560;34816;35072;35328;35584;35840;36096;36352;36608;36864;37120;37376;37632];
 [37888;38144;38400;38656;38912;39168;39424;39680;39936;40192;40448;40704;65280;131072;131328;131584];
 [132352;132608;133888;134400;135936;136704;136960;138496;140032;140544;143360;144640;146432;147456;150016;151808];
 [153856;154624;156928;166912;170240;194560;194816;195072]].

(* lib/converters/cns11643_4a.h:30-435 cns11643_4a_2uni_page21 *)
Definition cns11643_4a_2uni_page21 : tab := mk [
 [23174;6208;6209;6234;30184;6146;6185;23310;24615;7170;318;10204;24380;24693;53544;7490];
 [7530;9554;28476;53621;53624;10692;11340;14765;6162;6191;6294;6352;6978;7043;53529;24741];
 [24746;25359;25614;7555;7608;26012;26011;27196;9000;29122;9763;10241;10496;34740;2232;14188];
 [14635;7048;18553;20918;6167;23141;12;23474;48;6370;6363;24183;24386;7085;24627;7159];
 [218;24751;25142;275;7451;7560;7559;25890;7631;7677;355;7655;8412;27043;8409;8485];
 [8487;9011;9747;29221;29220;9845;30290;30601;31423;1476;1475;12273;34741;41548;17746;50964];
 [50962;1;23203;23202;6225;6250;23478;6412;23477;23476;6398;6427;23490;23480;58;24185];
 [171;7027;24328;7054;24442;24502;24765;24759;24764;221;24772;24777;7333;277;7335;7332];
 [25392;25475;25477;25618;25652;7613;25828;25822;25898;7682;26031;26036;26035;26033;8491;8987];
 [9013;27870;679;677;28088;28080;678;28610;23037;9751;892;29226;9840;9853;937;30185];
 [10217;30295;1076;1077;30646;30679;30686;1192;10521;10524;10613;31426;31659;1279;10696;32399];
 [1479;1478;1480;32621;33461;1744;1745;34752;34751;2137;35769;36124;13330;2237;36480;37252];
 [37253;2600;14771;38180;2729;14992;15414;43596;4044;45558;18561;20920;50032;5300;50037;50967];
 [6179;22;44;23537;6446;23514;6991;24505;7098;223;224;7202;24782;24786;24784;279];
 [25155;7343;7344;7345;25165;25396;303;25561;7524;25624;7635;25912;362;26071;368;365];
 [26076;26059;26070;26072;366;26065;53566;53564;26066;555;552;27225;23037;9023;27877;27878];
 [658;27880;9099;28093;9105;9109;28094;28489;831;28621;9610;847;884;29022;29136;893];
 [29446;951;931;944;945;9863;939;29564;29553;30191;1082;1079;10253;1080;1088;30605];
 [30647;10382;1183;31027;31103;10618;31730;1284;1289;1286;1277;1290;1287;32554;32651;1482];
 [32643;32650;11408;1481;32654;11418;33462;11836;11834;1663;11928;34008;1746;34134;34770;12389];
 [53723;1859;34754;35463;35457;35778;35772;36131;2241;36499;2245;2467;37261;37262;2602;2655];
 [38203;38221;2653;38196;38193;38642;38640;2839;39445;39720;2929;2930;39973;40423;3087;40425];
 [40983;16578;3473;43372;43392;43595;4018;4047;4046;18078;45022;45051;18411;45137;18569;4246];
 [45569;45570;18582;45573;18567;45571;4247;49489;20928;5259;20931;49491;50042;50040;50038;50041];
 [50063;50044;21880;50971;50972;22053;36754;6261;6260;23342;23340;45;23564;6553;23563;80];
 [75;23557;79;76;53509;6513;6995;7103;24514;24515;7104;24648;7150;24646;228;227];
 [24810;225;24811;226;24814;7229;281;7357;7436;25304;39454;25567;25566;321;17719;25679];
 [7616;350;26125;26120;377;26121;7790;7811;26130;26213;7774;7773;8574;8569;27273;8570];
 [8556;27268;27294;27275;562;8583;27746;8989;660;9030;663;27897;9027;27895;662;664];
 [27910;28125;690;28121;28127;28130;697;9569;9574;23281;9616;885;895;894;9769;911];
 [29247;29246;29451;957;9906;29571;955;956;29574;9920;30332;1085;1086;1140;30711;1146];
 [1142;1144;1141;30715;31035;1199;1200;1223;1228;31737;31690;1302;31743;1298;1309;31753];
 [31747;1301;1295;1300;10783;10722;31760;32410;32415;1456;1471;1472;32647;1490;1497;33463];
 [1658;33544;33529;1665;1666;33524;12054;12025;1754;44375;12424;34774;12443;53726;12398;12446];
 [34772;2082;2079;35472;35469;2081;13092;35680;35790;35791;2140;13181;35793;2173;2189;2191];
 [13542;36554;13515;2256;36535;2264;36530;36539;36537;13493;2471;37278;14231;37298;14235;2578];
 [37743;37804;2607;37923;14699;2606;2604;2652;38252;14805;38194;38238;2658;2663;2740;38651];
 [39209;39357;39455;15427;31041;39453;15516;39729;39727;3050;40259;3067;40257;3092;40437;3091];
 [3090;3088;3089;40434;3206;16100;3224;40990;41556;3370;41558;41769;41767;41768;16846;3765];
 [43385;43390;43958;43959;17939;4054;4056;18103;4057;4052;4055;53889;18105;23037;44365;18404];
 [18429;18447;4192;45321;45320;4254;4257;45598;45594;45603;45589;45593;45590;18623;18634;45588];
 [45592;18625;4256;46367;46813;46815;49513;20944;23037;49516;5305;50067;21166;50069;50068;50065];
 [50071;50992;5569;5570;22072;54040;28;23601;94;6588;89;92;23606;95;6633;6589];
 [6626;7000;24521;24522;206;24856;24850;24857;24848;24854;7366;25183;7368;25311;25367;7464];
 [25404;7465;25578;25577;25628;25688;25700;25843;351;26263;389;26202;26201;390;26254;8628];
 [27324;8617;647;27917;27900;27916;28167;28170;714;28162;707;28198;28168;28189;706;9576];
 [28494;833;28653;28654;28655;896;897;29264;29260;915;914;29263;965;29652;23037;29616];
 [1094;1089;1093;1090;1087;30373;30729;1154;1153;1151;1189;10539;1203;1205;31219;31191];
 [10637;1242;31452;1243;1293;10776;1294;31755;1310;1317;1318;1308;1313;10839;10824;1319];
 [1306;31802;31757;31761;10808;31776;31745;1316;31799;53667;10865;32426;1473;1505;32743;32744];
 [11538;1515;32757;1506;1495;1513;32821;32742;11530;32760;11555;32753;1668;33556;33557;33545];
 [1717;1724;1756;1758;1759;34171;12074;34174;34662;34663;34826;1876;12512;12478;1875;2084];
 [2085;13097;2088;2087;35484;35682;35809;35806;35807;35817;2187;36580;36599;2268;13635;36586];
 [36598;36626;53761;14246;2482;14272;37337;14639;37727;2587;37747;2610;14705;37951;38264;2667];
 [38269;2668;2669;38674;2745;2746;2825;2826;39215;15338;2843;39216;39387;15392;2904;39465];
 [2906;53814;39744;2935;39741;39742;2937;15529;39736;15749;40008;3051;40144;3069;3068;15878];
 [3093;3096;15862;3094;3095;3097;15872;3099;40462;40457;15874;40455;3207;40799;40800;3228];
 [41002;3226;41001;3327;3326;41293;3377;3374;3376;3378;41580;23037;3375;41575;3477;3478];
 [41785;41780;42073;3525;3706;43299;3906;43394;3924;43395;43432;43605;43769;43768;43772;43770];
 [17929;53882;3999;4000;4002;4064;44404;4065;44395;44401;4063;44406;45326;4194;4193;45328];
 [45327;4263;45624;45625;45626;18650;45623;45630;18698;4489;46236;46378;46394;46379;46376;46762];
 [46863;4637;46864;47334;4906;48421;48782;5075;5186;5187;49547;5265;49548;49562;5264;5311];
 [50099;5308;50098;5312;5575;5573;22101;51012;22098;6197;23384;23719;6708;6657;23651;6666];
 [102;23658;23653;23659;173;24301;24537;24891;24882;7256;24885;24881;24894;24899;24886;25197];
 [285;25316;305;7467;25588;332;25705;25707;405;401;404;26303;26307;26286;399;7916];
 [26289;7957;7934;26299;26287;26288;7907;7958;576;27375;577;27373;8659;27376;27795;27956];
 [27947;9049;9255;728;722;730;9256;9232;727;9230;834;855;28676;28675;28674;9647];
 [28677;9658;9649;28672;29044;888;898;919;29285;29283;969;29655;968;982;972;29672];
 [976;29659;29656;974;967;9980;29705;975;971;9970;9982;29669;29671;10232;30271;1095];
 [30400;1096;30393;30394;1155;1157;1156;30752;31055;10540;1208;1212;31377;31376;31470;31475];
 [31468;31473;31467;31474;31476;31469;31809;31816;31813;1329;1332;1334;10882;31871;31883;1315];
 [31803;31822;1338;10897;10895;31868;1460;1461;1517;1516;1496;32752;32822;32831;32835;32817];
 [32820;32838;1526;1511;32815;33475;1660;1659;33590;1672;11847;11852;33569;53704;11914;33907];
 [1726;34022;1767;1765;1774;12513;12618;34879;1881;1886;34923;1882;12607;1889;1880;1883];
 [12477;34929;1887;53730;2090;2093;35504;2083;2091;2092;35827;2174;53749;2195;2201;36193];
 [36191;2227;2279;2282;36648;36638;36649;53762;36587;36710;2484;37366;14281;2583;37728;37751];
 [37819;2593;37820;2616;2615;2676;2675;2677;38306;38322;38302;2678;2680;38714;38712;15034];
 [2828;2848;2846;39501;2907;39518;2908;39703;2947;15558;2944;2945;2942;2952;2949;2953];
 [2943;2958;39780;39783;2948;15543;15756;40025;15757;40154;3054;3053;3070;40273;3071;40277];
 [40507;40500;3107;40503;15895;40497;15900;3103;40511;40537;15892;40801;3215;3216;41048;41058];
 [41040;3232;41041;3238;3231;41030;3239;3233;41261;3330;3382;41800;41809;41802;41807;41808];
 [41801;42083;3528;42086;42080;3544;16908;3549;3548;42225;3543;42247;3546;3770;42907;42915];
 [42909;3774;3778;3771;3776;42921;42919;42916;17443;42938;30657;43302;3907;3925;43412;43411];
 [3927;3944;17816;17808;43783;43789;43778;43788;43785;43784;43795;4001;43986;17978;44094;44092];
 [44391;44446;4074;44461;4071;44505;44354;44451;44448;4072;4073;44412;45060;4180;45144;45152];
 [45257;45256;18470;4197;45340;45338;4234;45684;4272;45678;45679;45689;4284;18734;45687;18773];
 [18714;4280;18749;45692;4274;45680;18736;4285;45690;45698;4490;19281;4513;46404;4514;46403];
 [19336;46405;4629;46885;46879;4640;4723;47336;19854;19853;47369;47543;47545;47716;47715;19977];
 [19988;4785;47714;47717;4907;48044;4933;48426;5015;5016;48790;5077;49090;53982;5267;5270];
 [20999;5268;49578;49584;5319;5317;50132;50125;50134;5316;50416;21881;21892;5582;5578;5580];
 [22103;5577;22202;23037;53323;23394;110;23735;6759;23724;23723;113;23745;187;211;24552];
 [24937;24925;24927;243;237;245;24932;24930;241;242;246;288;25337;296;25326;7448];
 [7468;7513;25515;25516;25514;7528;7550;25734;25722;7585;26408;417;8027;426;425;26417];
 [437;421;424;8002;423;8007;26413;53571;7997;26411;26418;8032;8683;27433;27430;27475];
 [589;27443;27444;27805;668;9055;27969;746;741;28305;28265;9583;28706;862;28724;53613];
 [28974;902;900;29172;9818;29736;985;29724;990;29713;29732;29717;987;29718;29780;29731];
 [30207;1073;30415;30416;1099;30414;1097;1098;1100;30663;30812;1162;30774;1161;1163;30787];
 [1211;10658;10653;1252;31530;31489;10659;31499;31503;1339;1326;1342;1350;1363;31967;1348];
 [31954;1343;1346;1359;31949;1362;1354;10946;31963;1370;10917;1353;31951;11292;32448;11293];
 [1539;32897;32898;32906;32936;32908;11669;11674;1537;1542;1531;1529;32910;1541;1530;32907];
 [11686;32918;1534;32972;1661;1676;33615;33610;11856;1678;33611;33597;11858;33604;33609;33950];
 [34035;11976;34037;1776;1778;34227;12120;1777;1766;34277;34230;53720;12680;34950;1903;1901];
 [1897;34998;34949;1902;34987;2095;2096;2147;35853;35979;35980;13240;2176;13241;2202;2196];
 [2198;2197;2199;36210;2292;2302;36751;2305;36729;2306;36727;2297;36752;36744;36736;36766];
 [2294;2295;36738;36660;36745;2303;36741;36734;36730;36774;13835;36789;37364;2495;2492;14341];
 [37417;37414;37418;2494;2496;37758;2619;2617;37979;37985;37984;2620;38299;14868;14852;38339];
 [2685;38349;2687;2682;2684;14853;2686;14869;14861;2688;2751;2755;38740;38745;2764;2830];
 [2829;39157;2854;2852;2853;2851;2849;2857;39529;39525;2959;2957;39804;2955;2962;39808];
 [2960;40037;3055;3056;40159;40288;3073;40286;3118;3117;15918;3112;3113;3116;40591;40545];
 [40538;15937;3208;40807;3218;3217;16106;40891;16196;3241;3244;3246;3242;3334;3333;3402];
 [3390;3388;3387;41627;3394;3393;3395;41641;3397;41830;3482;3483;3487;3486;42098;42102];
 [42260;3550;3554;3558;42255;16937;3555;16935;3551;42561;42566;17309;42571;42563;3710;3785];
 [3788;42950;3793;42951;3792;42958;3791;3784;42953;3789;42955;42949;3913;3911;3928;3947];
 [3948;3946;43625;3968;3970;3972;17864;3971;43806;43962;4022;44114;44113;44115;44447;44507];
 [18214;4081;44515;4086;4083;4080;18204;44503;44521;18216;4085;4084;4087;44510;44508;45116];
 [53899;4181;45346;45362;45347;4235;4299;4290;45780;45768;45756;4298;4300;45773;4295;4297];
 [18800;45758;4294;45888;45782;4291;18818;45757;18860;45754;4292;45760;53915;53917;45761;46246];
 [46245;46248;4521;19373;4520;4518;46431;46448;46442;46437;46439;46447;46471;19402;19537;46909];
 [46915;4642;46912;4646;4644;4645;19613;4650;4724;47384;4729;19856;4730;47385;47553;19928];
 [19927;4759;47548;47560;20014;47729;4796;47726;4787;47736;4799;4791;53965;47738;48049;48047];
 [48048;4916;4934;4936;20313;48296;48294;4950;4967;48456;48453;4968;5017;5018;48800;48804];
 [5080;49108;5083;5084;5085;5079;49106;49186;5193;5194;20698;49335;49356;21043;49638;21016];
 [5274;49608;5325;5322;50164;5323;50157;5327;50046;53987;5324;5354;5357;50425;50429;5353];
 [50439;5402;21487;5517;5586;51064;51066;51065;51338;5618;51579;51925;51945;5693;51947;5694];
 [5880;5923;22745;6324;23404;6816;6800;117;6790;6788;23802;6794;118;115;6815;6817];
 [23832;6803;189;24566;7125;24970;24969;249;24959;24968;250;24963;24964;24984;24931;24967];
 [289;53543;297;25333;25424;312;334;25735;25738;25957;26551;26561;26567;456;444;26565];
 [26571;8080;26577;443;450;448;26552;26570;458;26590;457;26574;440;8464;8727;27496];
 [590;27499;8772;592;8747;27498;8773;27494;27511;27542;27502;53590;650;27991;9061;27990];
 [28316;28318;764;761;28321;867;28738;9679;28742;28734;28979;903;904;29178;922;29335];
 [29339;29354;10070;29811;29820;1001;29830;1002;10068;1104;30451;30448;1110;1106;1103;1108];
 [1105;30444;30895;1166;1167;30820;30824;31066;10557;31519;31525;1261;1259;10660;31942;31958];
 [31939;1378;32044;1373;32046;32094;32051;1377;1381;1372;32045;32070;1375;31937;32058;32460];
 [32925;32899;33014;11756;1558;1546;33016;1550;1554;33022;33011;1553;33003;33018;1552;33031];
 [33020;1545;11770;1557;11732;33650;33651;33652;1681;1685;1683;1682;1679;33631;33632;33962];
 [34100;1782;34228;1787;34288;12149;1785;34317;34291;34319;12316;1917;35017;1914;1919;35013];
 [1912;35031;35020;12761;35047;1904;1922;35009;1924;35048;2099;35531;2098;2102;35528;35706];
 [2134;35705;35710;2151;35867;2149;2148;2150;35871;35865;2177;2178;2179;2206;36233;13297];
 [2205;36235;2319;2322;36873;36862;36864;2320;2328;36875;2324;2329;13879;23037;36938;13949];
 [13958;2504;2500;2502;37497;2503;2499;37484;37529;53787;37474;37652;2585;2588;37832;37847];
 [37900;2625;38000;2626;2627;38001;38367;38372;2690;38375;2689;2708;2692;38800;2770;2831];
 [2850;39244;2855;2858;15354;2856;39247;2912;39549;39550;39548;15474;39565;39705;2971;2972];
 [39872;2963;2964;15580;2976;2969;39862;2977;39848;3057;40171;40167;40303;40647;3126;40607];
 [3127;3135;3132;40644;3124;3129;3131;3125;3120;3122;3128;3134;3130;40603;40599;40645];
 [40811;40910;3254;16231;41137;41134;41136;3251;3337;16503;41534;41653;41658;3404;41650;41652];
 [3411;3405;3409;3407;16795;41847;3490;41862;41851;3533;42110;42286;3559;42287;3568;42295];
 [3561;3564;42290;3560;3566;3586;42294;42297;42293;42588;3714;3715;3718;42619;42593;42990];
 [42987;42991;43040;17450;17509;3914;43312;3930;17764;43454;3950;43623;43644;3952;3951;43812];
 [3978;3975;3976;43817;44015;17952;4023;4093;18208;44557;4101;18236;4104;4099;4098;4100];
 [1849;4105;4095;44644;18239;44565;4092;4097;4106;18416;18421;4203;4204;45365;45366;45364];
 [45367;45895;45867;4318;45889;45891;4315;45890;4317;4323;45874;4320;4313;4312;4324;45892];
 [45898;4314;4335;53920;18965;18878;45908;45934;45906;4311;4531;4539;19429;4530;19410;4525];
 [46482;4527;53944;19424;46527;4630;4648;4643;19635;46913;46953;46949;4725;4734;4732;47394];
 [47389;47570;47578;47579;4814;4813;4815;20051;47780;47774;20023;20039;20060;47773;4804;4812];
 [4808;4807;47789;47782;47783;48051;48096;48181;48183;4954;4970;48458;4971;4973;4975;48734];
 [5022;48832;5028;5027;5092;5096;5097;5088;5091;49145;5098;5089;5101;5172;5173;5201];
 [20720;49648;5277;49651;49691;49650;49659;50204;50195;5328;50191;5358;50454;50449;50450;5362];
 [50446;21533;5512;50791;50930;50906;5519;50908;5592;51348;51355;51346;51354;51592;51590;5695];
 [51951;5714;22379;52062;5712;52312;5809;52310;52308;5881;52635;52886;52900;5926;5928;52890];
 [53010;128;6848;129;23915;126;127;23863;23868;53514;24311;190;24422;214;25001;25006];
 [25005;25032;24997;25008;25237;7397;25381;308;25753;7599;25972;25968;25967;26689;26708;469];
 [472;26688;26680;468;8152;473;26706;26682;26711;53578;26713;8465;8807;27572;27584;605];
 [8771;606;601;27509;602;672;28000;27975;773;28400;775;28399;782;780;28396;28547];
 [837;28548;28559;868;28769;869;28777;9693;870;28770;905;1004;1009;10096;10090;1008];
 [1016;10100;10079;29870;10081;10099;29874;1010;1012;30475;1112;30480;30477;1114;1113;1111];
 [1115;10320;30847;30849;1190;1218;1217;10559;31243;31566;1263;10672;32234;32069;1384;11061];
 [11053;1395;1390;1396;11010;1382;32040;32093;32476;1465;11302;32468;1548;33124;33128;1568];
 [33122;1565;33121;1564;33126;1569;1562;1561;33010;33129;33127;1662;33690;33691;33669;33692];
 [1693;33700;1694;1692;11886;33689;33670;33680;33921;33966;11953;11988;1741;34104;1803;1802];
 [12165;35131;1935;12914;1941;1936;1937;35148;12858;1977;35143;35125;1943;1950;35123;1931];
 [35202;35136;2107;2106;2108;2109;2105;2110;2155;2156;35894;36110;2210;2209;2207;36269];
 [36266;36887;2349;36967;2358;2347;36978;2359;53770;36961;37040;13997;2341;2351;2348;36974];
 [36964;2354;37004;36966;13973;36971;36959;36980;36965;37563;37566;2517;37561;2516;2518;37615];
 [2513;14659;37850;2630;14735;38032;38377;2700;2698;2696;38417;38413;38381;38433;2781;38785];
 [38833;39169;2861;39262;39266;2862;2860;2859;2864;39259;2894;39574;39571;2916;2913;39570];
 [15477;53817;2928;2982;2980;39876;39879;39875;2984;2978;39880;2983;15596;2981;39882;2985];
 [39877;39887;39900;40060;40193;3133;40659;40668;3140;3141;3142;40660;15959;40652;3143;3144];
 [3138;40662;40667;3137;40661;40921;3220;40925;40924;40928;41164;3264;3256;3265;3266;3259];
 [3261;3263;3257;3255;41170;3271;41171;3340;3339;16507;3344;41357;3421;16673;3418;3416];
 [3414;41688;3412;16662;41660;3496;3495;3535;3536;42122;16872;42123;42125;3537;3563;42323];
 [3579;17002;42329;3581;3576;3575;3584;42326;42327;3574;16991;42611;43035;3807;43041;43030];
 [43032;3810;3812;43076;17538;43046;3811;43318;3929;3953;3982;3980;43834;4004;44020;18005];
 [4116;44642]].

(* lib/converters/cns11643_4a.h:437-465 cns11643_4a_2uni_upages *)
Definition cns11643_4a_2uni_upages : tab := mk [
 [13312;13568;13824;14080;14336;14592;14848;15104;15360;15616;15872;16128;16384;16640;16896;17152];
 [17408;17664;17920;18176;18432;18688;18944;19200;19968;20224;20480;20736;20992;21248;21504;21760];
 [22016;22272;22528;22784;23040;23296;23552;23808;24064;24320;24576;24832;25088;25344;25856;26112];
 [26368;26624;26880;27392;27648;27904;28160;28672;28928;29184;29440;29696;29952;30208;30464;30720];
 [30976;31232;31488;31744;32000;32512;32768;33024;33280;33536;33792;34304;34816;35072;35328;35840];
 [36352;36608;36864;37120;37376;38144;38400;38656;39424;65280;131072;131328;131584;131840;132096;132352];
 [132608;132864;133120;133376;133632;133888;134144;134400;134656;135424;135680;135936;136448;136704;136960;137472];
 [137728;137984;138240;138496;138752;139008;139264;139520;139776;140032;140288;140544;140800;141056;141568;141824];
 [142080;142336;142848;143104;143360;143616;143872;144128;144384;144640;145408;145664;145920;146176;146432;146688];
 [146944;147712;147968;148736;148992;149248;149504;149760;150016;150272;150528;150784;151296;151552;151808;152320];
 [152576;153088;153344;153856;154112;154368;155136;155392;155648;156160;156416;156672;156928;157184;157440;157696];
 [157952;158208;158464;158720;160000;160256;161024;161280;161536;161792;162048;162560;162816;163072;163328;163584];
 [164352;164864;165120;165376;165632;165888;166912;167424;167680;167936;168192;168448;168960;169216;169472;170496];
 [171264;194560;194816;195072]].

(* lib/converters/cns11643_4b.h:30-639 cns11643_4b_2uni_page40 *)
Definition cns11643_4b_2uni_page40 : tab := mk [
 [46683;46698;4113;46696;4123;4114;4110;4117;16232;4112;46721;4119;16454;16451;4208;4333];
 [47847;4334;47846;47825;47889;16769;47824;47833;47882;4340;47834;47837;47816;47842;47849;47819];
 [16764;47820;47809;16746;47838;16776;4338;4344;4339;47953;47890;4346;47840;47915;63156;49368];
 [49361;17424;49362;49357;17439;4534;4535;49469;17423;49354;4538;49355;4540;49367;50164;4667];
 [17875;4655;50311;50315;50307;4663;4761;51141;51154;51142;51155;4825;4824;4823;51184;51149];
 [51148;51164;51158;4918;51686;51777;51775;18823;51909;51904;51910;51902;51903;18886;4976;52067];
 [52435;52442;52437;5029;5030;5033;5102;5204;53486;5207;53500;53780;5281;54051;54050;54064];
 [54453;5331;54584;5332;54591;5335;19916;20077;20080;5367;5366;5369;5368;20312;20290;20328];
 [20329;55144;55143;20291;55141;20295;5514;55925;56055;56051;56054;5524;56064;5523;56063;56053];
 [21149;5597;5596;5623;21455;56978;57350;5698;57351;57451;5716;57452;5717;57747;5775;57748];
 [21748;5812;5811;57954;57955;21769;57951;57956;57947;57945;5883;5885;58276;58284;21931;5884];
 [58549;5932;5935;58542;5931;58565;5939;5940;22011;58939;22444;22446;22442;6120;59583;59947];
 [60036;60032;60237;60239;22620;60236;60818;6493;6866;133;136;24494;24441;142;132;24433];
 [6879;24499;131;24364;24439;24879;25539;258;25549;262;261;25545;254;257;256;25550];
 [25765;25760;25854;25945;26266;487;7705;26852;26839;26844;486;26855;493;482;491;26853];
 [488;492;7690;548;8090;28180;610;28145;609;608;612;651;28598;28782;28780;28801];
 [28994;793;790;792;802;28954;797;791;798;28967;28965;28951;28956;28989;28960;873];
 [874;29569;876;890;906;29961;30150;30148;924;30149;1021;1017;30447;1023;30431;30430];
 [30446;30453;30444;1020;30429;9093;1019;1026;1119;9302;1118;1117;1116;30754;9297;1170];
 [31127;31125;1172;1173;1233;31657;1265;31827;9649;31830;31829;1399;1391;32227;32226;1415];
 [1405;1404;1406;1413;1419;1414;1408;24061;32169;1400;62891;32307;32266;1466;32857;1587];
 [33212;1581;33220;33223;33222;1591;10074;10083;33208;33242;1582;33207;33216;1597;33229;1696];
 [33980;33963;1699;34182;10651;34650;10659;1806;10654;34883;1974;35244;1963;1965;1958;35262];
 [10936;1962;10938;1969;35243;1960;1967;1968;1959;1970;1949;1957;1973;29758;10951;10967];
 [36089;2113;36083;36087;11376;36421;36424;2162;11421;2159;2161;36420;2181;36527;36529;2212];
 [2213;2214;36815;2216;36811;36813;2211;36944;37356;37402;11542;11556;37336;2371;37328;37329];
 [2365;2373;37243;37330;2372;37332;37351;37343;37342;11589;37337;37327;38157;2531;12153;24061];
 [2527;2532;12154;2533;38200;12372;2594;2634;39081;2633;2628;2635;2695;2697;2706;2705];
 [2704;2702;39230;39238;39661;63024;2834;2832;2833;40044;2866;2868;2871;2867;2870;2869];
 [2917;40364;13180;13179;40649;13330;2992;40722;2991;2986;40701;40705;40721;2987;40841;40709];
 [40702;40715;40736;40708;41096;3059;41218;3060;41219;13494;13536;3080;3150;3157;3147;41513];
 [41531;3149;13683;41478;3154;13682;3148;13680;3152;3155;41475;3153;41848;41849;41853;3209];
 [41855;3221;3276;3272;3278;42034;3274;41984;13981;42018;3277;42409;3420;3431;3433;3429];
 [3426;42756;14375;14389;63065;3498;43192;43419;3538;14754;3587;3596;43666;3593;3590;3589];
 [14729;43663;3595;3592;43672;14757;43694;3726;44445;15030;3816;44873;44880;44870;3818;44878];
 [15269;15299;44885;3817;3819;44900;3824;45368;3915;15787;3955;3957;3986;3985;3987;15909];
 [4007;4006;4008;4010;46078;4009;15961;4027;4028;4026;4029;4135;16261;46758;4132;4126];
 [4127;4125;4128;4131;4137;4130;46748;46745;4124;16270;4136;46773;46755;46752;46759;46747];
 [47327;47329;4209;4211;4210;47437;4354;48115;47983;47977;4350;16830;47979;47992;48007;4360];
 [48005;48002;48016;4359;4356;48000;47975;4352;4348;47969;4420;48019;4337;48114;48006;16806];
 [4358;49101;49092;4550;4547;4545;4546;49423;4548;4551;49421;4543;4562;49523;4554;63162];
 [49418;17455;49416;49427;4627;50168;4656;4670;4665;50347;50344;4668;4671;50341;4660;4669];
 [50371;50340;4664;50388;50362;50673;18080;4738;50751;4739;50922;4763;51191;4832;4829;51194];
 [51189;4830;51198;4835;4837;51200;18327;4834;51202;51195;51207;4831;51226;4910;51640;4919];
 [4920;51689;51691;51792;51791;18827;52102;354;52110;5012;5011;5035;5037;52464;52475;5109];
 [5111;52802;5110;5112;52869;5115;5113;5208;5210;53509;5209;19471;5253;5284;5336;5337];
 [54603;5341;5320;54627;5370;5371;20341;5415;20383;5418;5413;55193;5416;55937;56087;56080];
 [56082;21158;5525;21402;56570;56563;56562;56565;56566;56763;56770;56999;5647;5649;57000;56995];
 [5648;57002;5653;5651;21591;57308;5703;5702;57359;5721;5723;57465;5726;57471;57477;5722];
 [5777;5778;5776;5779;57883;21751;5822;57975;57974;58008;5820;5819;5815;5817;57978;5889];
 [5886;58300;58298;5890;58294;5887;21936;58292;5888;58575;5943;5946;5999;6007;6009;22214];
 [59003;6088;59420;59425;59421;59584;6130;59647;6129;6128;22626;60246;6196;60833;60834;60838];
 [61526;61527;6444;6445;61697;61933;63260;62450;6906;24504;145;24512;148;24503;24545;196];
 [266;25576;7301;25778;338;26286;345;623;27006;498;500;7747;26998;497;7740;27030];
 [618;28192;28193;28195;28201;28791;29009;804;29014;803;29064;29017;29013;807;29335;29336];
 [877;8685;878;879;29601;29603;8757;927;1034;1030;1038;30474;1037;1029;30525;30476];
 [1035;1040;1070;30781;30777;31152;31154;31150;1174;1175;1220;9543;1221;31520;1234;31854];
 [31853;31850;1409;32306;1422;1424;1423;32313;1425;1429;1427;32163;9837;32383;32309;32317];
 [32756;32757;1595;1608;33352;33320;1606;1607;33319;33330;33324;1612;33326;1610;1616;1603];
 [33315;33329;62917;1609;1702;1701;1700;33993;34185;1721;34235;1742;1743;1811;34967;34963];
 [35368;1990;1989;1994;2009;1985;35352;35387;10997;35367;35364;35355;35377;1995;35366;35491];
 [35391;35362;35353;11011;35393;35371;11109;2114;36108;11381;2164;2163;36430;36537;36602;36841];
 [36840;36836;11658;11606;2386;37471;37469;37458;2384;37492;2379;37446;2380;2413;37546;11672];
 [37450;37465;37451;2383;11624;2544;38224;12340;12357;2637;2636;39120;2639;2638;2640;39116];
 [12636;2710;12630;39268;39269;2711;2709;2712;39260;39701;2796;2795;2835;2836;2872;2874];
 [2873;40057;2920;2919;40389;40376;40748;3006;3004;40759;40757;40753;3003;40751;3002;40747];
 [3001;2999;40749;40746;3009;41109;3063;41534;3168;41543;41541;3161;3164;3162;3160;41554];
 [3163;41584;41552;41560;41553;41533;3165;41537;41484;41532;41862;41859;41865;41971;3284;3283];
 [14015;3282;14013;42029;3287;3281;14052;3285;42437;63061;3437;3439;14388;3445;3436;3444];
 [42819;3443;42807;42821;14390;3500;43237;43430;43739;3600;43738;43750;14778;14780;3599;14792];
 [3619;14787;3613;14774;3598;43768;43753;3605;14786;3603;43752;43766;3611;14789;3618;3622];
 [43751;14781;14768;3617;3612;3607;43733;3610;14779;44499;44487;44497;3737;44483;3735;44928];
 [44952;3837;44932;3830;3838;3829;3839;3831;44951;44931;44929;3841;15364;44940;45378;45739];
 [3959;45731;45734;45916;45929;45927;4011;46219;46248;4032;46808;4145;4142;63113;46812;4140];
 [46816;46821;4146;4143;4139;4141;4147;47128;47129;16369;4183;4188;4219;47455;47454;4218];
 [48130;16930;4371;4382;4375;4384;4394;4369;4373;4367;4376;16952;48146;48182;4396;16946];
 [63144;16912;48163;48131;4380;48128;4393;48198;48225;4370;16975;4503;49540;17522;49515;49506];
 [49494;49514;49490;49493;4564;4560;17532;49505;63163;49496;49527;4563;4628;50391;4678;4677];
 [50398;4675;50399;17933;4676;4680;50385;4679;50402;50401;50397;17928;4681;4741;50763;4740];
 [50766;4765;50940;4766;4768;50938;4764;50939;4767;50942;4855;4842;51249;4847;4841;4851];
 [4848;4843;51256;4844;4850;4853;4846;51258;51643;4922;4939;51801;4938;4940;51931;51935];
 [51938;4985;4987;4984;52126;52129;5045;52496;5044;5047;19102;5129;5118;5128;5127;52854];
 [52863;52861;5126;5124;5125;5119;5131;52866;53335;5179;5213;5212;5215;5214;19496;53550];
 [19489;5251;54155;54157;5287;19814;19820;54160;5288;54508;54639;54635;54641;54648;19958;5344];
 [5343;5374;5372;5375;5373;55213;5420;20460;20410;20451;20413;5533;56111;21172;56696;5696];
 [57336;57369;5727;57499;57492;57495;57497;57766;57764;57767;21713;58005;5824;21795;58000;5825];
 [5830;58011;58308;5892;5893;58310;22027;5950;5949;5952;5951;58595;5954;58591;58589;58599];
 [6020;6018;6015;6021;59437;59436;6092;22450;6091;6093;59444;59448;22491;59677;6133;59674];
 [59675;59668;22512;59671;59937;6176;6177;60074;60065;6199;6206;22643;6205;22638;60259;60281];
 [60256;22629;60258;6204;60257;6200;22634;60272;22637;60266;6203;60872;6320;60869;60862;60866];
 [6317;6322;6328;23051;60871;6319;60848;60874;6426;23414;6432;6433;6448;23464;6447;61709];
 [61703;61846;61935;6495;6496;61982;61981;23569;62352;24555;138;6937;156;24558;154;24559];
 [24556;25594;268;267;269;7314;25860;27091;510;27089;27130;511;507;508;521;27080];
 [512;27093;7797;27085;27090;27131;27690;28296;28257;625;28259;28258;8303;24151;29128;29080];
 [811;29633;30527;30529;1044;1041;1042;30802;1123;30814;1134;1178;31175;1179;31344;31527];
 [1224;31601;31664;1270;32322;32323;9893;1420;1431;1442;9888;32343;32413;33417;33421;33419];
 [33408;33426;33418;33480;1620;33423;33427;33425;1704;34034;34014;1705;34248;10420;10456;10690];
 [1816;1815;1821;34727;34721;1841;35468;35455;2008;2005;35451;35477;35481;2017;35470;2004];
 [35546;35466;35484;2019;35454;2116;2117;36122;36437;2166;2165;36448;11432;2184;2218;36859];
 [2219;2220;36861;2391;11651;2400;2397;2411;37584;2403;2407;37573;2398;37586;37649;11717];
 [12237;2553;2547;38317;38308;38313;38320;38301;2550;38808;12444;2641;2643;2642;39314;2715];
 [39306;2716;39309;39318;2807;12953;12943;12945;39749;39755;39951;39958;2875;40074;2878;2877];
 [40393;2921;40392;40394;40804;3011;3012;3015;40797;40803;13369;3014;13358;3016;40840;41018];
 [41017;13471;13472;3046;3064;41239;41363;3079;41365;3172;3176;41590;13716;3173;13742;41600];
 [41595;3177;41544;41640;41608;41867;41866;41868;41980;3290;3296;14054;42072;3294;42065;42069];
 [42067;3356;3357;3354;42460;3451;3450;3452;42844;3448;3447;42853;63066;3505;43246;3506];
 [3504;43248;14524;43250;3638;43829;3630;43810;14806;43808;3636;43821;43816;43814;43836;3626];
 [43832;3635;3629;3631;3633;3627;3634;43818;3637;43802;43824;43747;43801;44521;44519;15055];
 [45014;44996;3848;44935;3846;44999;45017;15384;45023;3917;3937;45578;45569;45745;3960;45761];
 [3988;3989;45942;46093;46094;4033;4035;15981;46855;4153;46857;46870;4154;4155;4149;4150];
 [46862;4156;16272;46854;47134;47178;4184;4220;4221;4237;4236;48294;48273;4411;4415;48312];
 [48278;4402;4397;48325;4399;4409;4398;4410;48394;4406;4401;4414;4408;16978;4404;48306];
 [4417;48311;48308;48265;48269;4400;48263;48322;48284;48274;4419;48330;16976;48266;49120;4504];
 [49126;49125;17568;49573;49587;17542;4570;4567;49589;49583;17557;49584;49612;17548;49570;49598];
 [49606;49580;49582;4632;17760;63171;50440;50437;4690;17960;50430;4686;17952;50432;4687;4688];
 [50788;50792;18088;4742;4743;4745;50794;50793;50957;50962;4770;4771;50959;4769;51303;51321];
 [51314;51302;51324;4857;4861;51304;51333;51318;51316;51313;51300;4926;4924;51704;4941;51820];
 [4942;51947;4993;4995;4994;52152;4992;5000;52525;52526;52520;52521;52529;5049;52527;52522];
 [19258;52900;52919;52927;5137;5133;5136;5139;53347;5180;5218;5219;53607;54206;63200;54677];
 [54684;5379;5382;5378;5377;54897;54898;5381;54895;20116;20497;55281;20535;5430;55272;5429];
 [20547;63210;5537;5539;56137;56164;5536;56136;5610;21414;5608;56620;56801;56815;57024;5665];
 [5659;57047;57044;5705;5704;57517;21653;5730;5729;5732;5728;5731;57518;57516;21654;5734];
 [5804;5803;57895;58030;5827;58032;5828;21797;58048;58052;5896;5897;5898;5894;5895;5953];
 [58631;5957;58621;5955;5956;22054;22068;5959;63236;58907;58908;6001;59058;59060;59063;59057];
 [59059;59054;6027;6100;6099;6097;22458;6098;59455;59702;6135;6136;59697;59707;59701;59706];
 [59703;59938;59958;59954;6178;60096;6213;6209;22657;6208;22666;60293;22655;6210;60297;6337];
 [6341;60897;6331;6329;6333;6345;60938;23057;60937;6335;6343;60904;6339;6436;6449;6451];
 [61720;6450;6452;6482;6497;23513;6522;6530;23612;62405;6947;24589;24588;24609;6956;25110];
 [25614;271;7317;25623;291;293;27208;518;520;7816;27221;27209;27212;7819;27215;27197];
 [634;631;28298;28328;28810;814;29131;815;29141;30932;1051;1043;30556;30581;1126;30817];
 [1125;28822;1271;31882;32464;9953;9943;32329;32463;1436;33494;33407;1619;33490;33487;34054];
 [34057;1722;10403;1826;10707;35590;35569;35588;11147;35578;35572;2027;2013;35577;2031;35467];
 [35587;2119;2118;36258;2168;11436;2185;36876;36875;2408;2422;2420;2425;37668;2426;2423];
 [62996;2417;37669;2418;38390;2559;38395;2565;38706;38907;2644;39154;39155;2718;2719;12660];
 [39324;39794;2810;39796;2884;2879;2880;40070;2882;40078;40080;2897;40141;40183;40406;40836];
 [40853;40842;13376;3018;40855;13377;3022;3017;41120;41121;41250;41382;41380;3081;13544;3180];
 [3182;3184;3181;3179;3185;3186;41647;41648;41661;3212;3300;42102;3297;42107;42105;14070];
 [3303;14080;3298;3359;42478;42481;3454;42900;3456;14425;14421;42897;3513;3511;3512;43280];
 [3514;14580;43439;3539;3647;14852;3653;3649;14869;3650;3651;3643;3640;43899;43895;3642];
 [14837;43904;43974;3644;43900;43920;3646;43939;43901;43965;3742;3743;3745;44563;3739;3858];
 [45073;45124;45069;3864;3852;45588;3938;45752;3962;45751;45955;4014;4015;46100;4013;46108];
 [4036;4039;4038;4037;46292;46293;16321;4160;46915;46914;4159;4161;63114;46913;47182;4223];
 [47495;4230;4225;4224;4238;4426;48441;4423;48527;48426;4427;4422;4430;17021;48427;17061];
 [48464;4424;48494;4421;48443;48467;48479;48431;48432;48440;48460;49137;4571;4583;4580;49671];
 [49686;4577;49684;4585;49659;4581;4576;4579;49656;49680;49693;49663;49675;49668;4586;49662];
 [50175;17978;4692;4696;4700;50467;4693;4747;4748;4774;4773;50986;51360;51352;51356;4863];
 [51358;51366;51381;51376;4912;4928;4929;51961;51957;4998;52178;5055;5053;52560;52558;52555];
 [52562;52557;5054;5145;52964;5148;52954;5147;5143;5144;19281;52959;52968;5181;5226;5222];
 [53616;53618;5223;53623;5224;5293;5294;54246;54698;5334;5385;54924;20120;54921;5388;5386];
 [55346;5435;5434;20612;20609;55418;20591;55966;55968;56176;5551;5546;5547;56174;56166;5553];
 [56165;5548;5612;56703;56800;5633;56831;57078;57079;57077;5667;57084;5668;5662;57081;5706];
 [5733;5738;57546;57539;57542;5737;57784;57789;5781;57788;57861;58080;58089;21826;58079;58092];
 [5836;58085;58078;63232;5839;58096;58083;5903;58348;5902;5899;5904;5901;5900;58354;58351];
 [58345;58619;5958;5960;22071;5961;58679;59102;6033;6030;59098;6104;6102;59467;6106;59465];
 [6103;59605;22527;6137;59730;59719;6140;59720;60108;60112;22697;6218;22695;6222;22707;22700];
 [22704;60294;60327;60323;22684;60342;60333;60947;23100;23068;23098;6355;6349;6353;60951;60962];
 [23090;23092;61001;60966;63244;60988;60968;61608;23495;61947;6498;62002;62166;62280;6531;23615];
 [62406;6546;159;160;24613;24614;24612;24627;24944;295;26512;523;27285;27297;27282;27279];
 [27295;27286;27288;27293;27296;653;28823;29163;880;30599;9451;31538;1434;1439;1437;32472];
 [32507;32518;1435;32465;9941;62896;1632;1636;1641;1635;1639;1634;33526;33540;33534;10242];
 [33535;33527;34072;1708;34068;34253;34336;34782;1830;1827;1829;35653;35667;2040;35659;35669];
 [35649;2039;2043;2042;35676;35668;36465;36560;2224;2223;36947;37673;37758;2430;37753;2429];
 [2432;37744;37738;2431;2438;37765;37732;11794;37752;2433;38450;38439;38447;2596;2648;2647];
 [2720;39354;2814;39793;39820;2837;39962;2887;2886;40088;40420;2923;2924;13189;13396;40898];
 [3020;40890;13397;40904;3019;13479;13480;3065;41401;41400;41381;41698;3192;3194;3189;41689];
 [3190;3191;41644;41693;3306;3310;3309;42141;3308;14095;42513;42499;3460;3461;3459;42990];
 [3516;3517;3540;43940;43992;43997;43998;3669;44007;3664;3660;3656;43988;3667;43982;3671];
 [3668;3662;3658;3665;44017;43987;3657;3659;3683;43978;44009;3751;3750;3748;44570;44609];
 [63080;15076;15077;45117;45120;15461;15438;3863;45123;3862;45119;45116;3939;45601;45600;15746];
 [45766;3963;3964;45777;45770;45966;45969;4016;15917;46307;46984;4162;46960;4164;47261;47517];
 [47505;47512;47513;4232;4239;4435;4443;48575;4441;48558;48561;48588;48644;17098;48662;48589];
 [4436;17084;48608;48587;48596;48585;49151;4505;49149;49751;49746;49744;49733;49741;4593;49747];
 [4591;49794;49732;50126;50127;50130;50178;50511;50520;4706;50499;4707;50514;4704;4705;4703];
 [50505;50515;50509;4749;50820;4750;50819;50994;51426;4873;51428;51411;4869;51413;51421;4867];
 [4870;51436;51430;51410;51450;51418;4913;51718;51716;4943;51835;51972;51970;4966;18943;5060];
 [52576;5059;5057;5061;52999;52997;53004;5153;53082;5151;5154;53018;5159;5152;53642;5229];
 [5228;5227;5231;5232;53644;54281;54950;20134;54956;54953;5442;55435;20662;55436;5444;5440];
 [55432;55433;5439;55443;20651;5515;56195;56655;5669;5672;57120;21537;57398;57570;5749;5746];
 [57582;5743;57575;57577;5750;5745;21671;57567;5783;57799;5847;58121;5846;58113;5848;5852];
 [5851;5844;21822;5907;5905;5908;58373;58380;58744;58717;5969;5968;5971;5972;5970;58718];
 [58720;58727;5997;63237;59124;6037;6041;59121;6042;59130;6035;6039;59128;59129;59145;59133];
 [59127;6108;59481;6141;59744;59752;6142;6144;6146;6145;6147;59754;59924;59966;60132;6183];
 [6182;6180;6220;22716;6224;6229;6227;22711;6226;60370;6231;22718;6232;6358;61016;61008];
 [6356;61020;6362;6361;53017;23138;6357;6372;63246;6364;6427;23439;6455;6454;6475;23499];
 [6502;6518;62175;6526;6525;6527;6532;6539;62425;6548;161;273;25958;528;7849;27361];
 [27375;27368;27699;8211;29182;818;8692;29679;29676;30188;30620;1056;30617;30832;30830;1181];
 [31553;9964;9967;32514;32513;1445;32795;33571;33573;33572;33574;33587;33583;34191;34902;2050];
 [2046;2049;11222;2051;2047;35737;2052;62957;2122;36569;2439;37815;2436;37814;2437;12297];
 [38484;38487;38522;2649;12665;39822;12998;39824;39865;2820;2889;2888;40431;2925;3026;3027];
 [40930;3025;40918;40920;40922;40926;3047;3082;13763;41736;41732;41738;41739;41730;3312;42154];
 [42177;14111;42967;42969;14437;42974;42970;3518;3519;43306;14534;14906;44081;14902;44075;44076];
 [44073;44078;3678;44071;44072;3675;44127;44080;44068;15083;3755;44602;3756;44601;44608;45184];
 [45188;3871;3869;45173;45174;3868;45180;3870;45176;45211;45182;45402;3940;45612;15748;45980];
 [46919;46986;4168;4167;47143;48714;4446;4449;48679;17120;17139;48686;48678;49160;4599;49853];
 [49814;4596;4600;17694;49854;49806;50548;4708;50560;4754;4751;4752;18100;4755;4776;51004];
 [51005;4777;51002;51010;18169;51492;51462;18500;4878;51477;4879;51458;51468;4875;51464;51466];
 [51461;51484;4880;4945;51842;4944;51846;4963;52227;52603;5063;52602;19313;5156;5158;19310];
 [53120;19321;53080;19396;5236;5235;5234;53674;53675;53814;53834;5297;19852;54742;5390;5393];
 [5392;5391;5394;5449;20681;5455;5453;55555;55503;5461;56223;56226;56874;56879;57156;57152];
 [5676;5675;57617;57615;5753;57613;57607;57603;5754;21680;5785;5786;57909;5806;5807;58116];
 [5860;5857;5854;5862;5855;58150;5863;5858;5856;58142;5861;21850;58382;5912;58397;58398];
 [58399;5974;58760;22086;58765;58769;58752;5998;58964;58965;6045;6048;6044;59173;59162;6049];
 [6050;6047;6111;6110;22467;6122;59784;6150;59770;6148;22543;59776;60190;60412;60453;6239];
 [22772;22778;6236;60427;6238;60422;60420;22749;6233;60409;60416;6244;6237;6242;60418;6245];
 [60423;22765;6235;22767;61109;6365;61063;6367;61075;63247;6370;61118;61542;6439;61639;61647];
 [23446;6458;6460;61757;6457;61756;61767;6461;6459;23475;6476;61891;6504;23522;62235;6528];
 [6533;62409;6549;62429;6550;62611;23695;24637;164;274;7857;549;28390;8513;823;29687];
 [30640;30638;24061;1128;1127;1182;31903;31902;32560;1450;32591;1449;1444;32551;32593;1649];
 [1647;33617;33620;33622;34087;1709;34084;11254;2060;11250;2059;35820;35780;2063;2169;37880];
 [37878;37879;37869;2445;2447;37876;37871;2446;2572;38527;38562;38526;2726;39365;2723;2724];
 [2725;13192;2926;40945;40946;3066;41263;3196;3198;3195;3197;41763;41769;3213;3316;3315];
 [42523;42987;3465;42986;43315;3520;44131;3685;44178;44133;3757;3877;45216;63088;45406;4041];
 [47018;4170;47017;16487;4233;48796;4454;4464;48786;4461;4457;4455;48774;4466;17166;4462];
 [48771;4508;4604;4605;4612;4607;63170;4606;4608;49870;4710;4713;50579;4778;4779;4887];
 [51502;51495;51496;4885;18526;4882;18958;52248;52246;52621;5066;52622;5065;5067;52624;52623];
 [53121;5161;5160;53130;53132;53389;5184;5237;5238;53682;5256;54745;20150;5463;20737;55565];
 [5471;55571;20765;5464;5467;55579;20783;56236;5555;56243;5615;57182;5680;57184;57192;57187];
 [57193;57191;5697;5707;57640;5757;57646;57648;5756;57638;57649;57665;21728;57818;21723;63226];
 [57867;21857;58164;58163;5864;5866;5865;58169;58171;58176;58416;5915;58418;58423;5973;22090];
 [5977;5976;58753;58783;58791;6052;6051;59204;59207;59208;59197;22323;6055;59209;6112;59520];
 [59808;59805;6152;6154;6153;59804;59975;60167;6257;22799;6252;60489;22801;60484;22787;22785];
 [6254;60639;22806;60492;24061;60495;6368;6382;61121;6379;61113;61131;61135;61124;23187;6378];
 [6383;6375;61130;61123;61648;61777;6472;6473;61864;61895;61894;6477;61898;61954;6485;62045];
 [62042;6506;6508;62041;6507;62156;62236;62412;6552;6553;6551;62440;62444;62442;62637;62640];
 [24671;24664;24663;7515;26515;534;27451;7871;27444;28402;825;29693;29981;1061;9166;31236];
 [31560;32600;33615;1652;33646;33650;1710;34094;35836;35828;36918;37902;2450;2452;37908;2453];
 [37913;2573;38566;2597;39881;39872;39884;39963;40106;40104;40963;3029;3030;13484;3048;41269];
 [3199;13778;3317;3318;3319;42201;3364;3469;3466;43327;43325;3692;3686;3690;44171;3687];
 [3693;3688;14930;44136;44170;44632;44631;45262;45244;45248;45249;45247;45227;45407;3941;45990];
 [3994;46121;4017;4171;4173;4172;4174;47032;4467;4469;48861;48854;63153;48853;48871;48856];
 [49900;4611;49920;49927;49917;49905;49919;50602;50608;51528;4894;51539;18547;51533;4889;4892];
 [4890;4893;18550;51523;51536;4931;4946;51852;52263;5013;52633;5068;53169;5163;53168;53162];
 [53164;5162;19399;5239;53704;53706;54338;54752;55015;55016;55014;5395;5396;20788;55643;55638];
 [5469;55642;5472;20798;5474;55992;56261;5554;5616;56904;57213;57212;57217;57218;57186;5708];
 [57669;5762;21692;5761;5787;57827;5796;5870;5868;58192;5869;58191;5872;5871;58425;5917];
 [58426;5984;5982;5981;58817;59214;59246;6065;6059;6060;6061;59249;6062;59532;59529;6114];
 [59621;59827;59830;59828;59981;22585;60179;60536;22826;6267;22822;6264;6261;22823;60530;6386];
 [6388;6387;23232;23241;61557;61658;61655;6463;6462;6464;6478;6487;6489;6488;63254;62057];
 [62055;6510;62054;62063;62065;23532;62159;62243;6529;6534;62373;6543;62462;62459;62461;23656];
 [6555;6577;6579;27501;826;29701;29984;1063;30664;30665;1130;1452;34343;2072;35870;36150];
 [2124;37949;2454;39383;2890;40109;40448;3201;41786;3203;3321;3320;42534;3470;3471;3521];
 [44215;44214;44224;3696;44187;3697;45272;3882;3885;3965;15922;15921;47040;4175;47039;47551];
 [4240;48928;48848;48910;4473;48925;48926;48917;48916;49950;49964;4613;50617;50616;50614;50846];
 [50844;51021;18173;51566;51552;4897;51556;51554;45285;4914;52643;5069;5071;53714;53717;19854];
 [5398;5397;5557;5640;56917;5682;57235;5683;5684;5692;57686;21698;57833;5788;57925;5876];
 [5874;58492;5986;58835;5985;5988;6069;22347;6068;59278;59543;6115;59547;59545;22556;6158];
 [59855;22555;59993;6188;6187;60192;60195;60202;6277;6273;6270;6275;6272;60592;22850;61231];
 [23252;6395;6391;61234;61251;61247;61241;6392;61232;61661;61914;61915;6490;62084;62079;62066];
 [62080;62190;6520;62250;62242;62321;62413;6557;6556;62479;62488;24682;169;191;7888;7887];
 [29708;9178;31910;1655;1654;34103;1723;10730;36578;2459;38588;2575;2651;39893;2892;2927];
 [3033;40978;3202;41803;41793;41889;42220;3700;3698;44244;44248;44249;3699;44250;44652;44653];
 [3761;3886;45287;45291;45292;45410;3918;46123;46349;47053;47555;48959;48956;48958;48957;48954];
 [48952;49988;49989;4619;49992;50000;4716;18569;51576;51577;5003;52286;5072;5165;54356;5348];
 [5489;55737;20824;5487;56927;5767;5797;58226;58229;5918;5989;6073;6071;6072;6116;59555];
 [59557;59868;59869;59994;6284;6281;6282;60635;60636;6283;61355;61316;61302;6401;6398;23271];
 [6403;6406;61315;23274;23281;61567;6429;6467;61811;61869;61872;6479;61967;61964;6491;6512];
 [62329;6536;62327;62330;6537;23620;62514;62503;62506;62508;23661;62504;62505;62520;25647;27515];
 [29709;9177;30678;30677;33697;35916;2462;2463;2727;2891;3035;3034;41152;13782;3214;3702];
 [44276;3888;3887;45296;3942;45631;4478;50013;50034;50018;17722;50022;18037;4719;51592;5073];
 [5167;53224;53220;5298;5400;5399;55039;5494;57263;57262;5711;5769;57842;57928;58241;58238];
 [5877;5919;58450;58863;22365;6117;59565;59878;6160;59885;6159;59881;60001;60000;60211;6191];
 [6192;22884;60683;60680;6291;6292;60679;6407;6409;6408;61386;6411;61382;23306;61572;61675];
 [61821;6480;6513;62107;62114;62113;62112;62108;6523;6524;62336;23667;62528;6561;62521;62524];
 [6560;6562;25802;539;27529;642;34108;36160;37987;37993;3049;41811;3204;13793;43031;43034];
 [44288;3763;3892;3891;4480;50031;50859;4781;51601;4932;4949;52657;5074;53231;56305;56306];
 [57271;57269;5770;58246;58458;5991;59334;59339;6118;59570;6163;59891;22573;60711;6295;23308];
 [61397;61400;6412;61420;61575;61682;6470;6492;6516;6514;62125;62128;62205;23583;62343;62538];
 [6564;6563;62542;62537;62545;62541;6580;24690;310;29718;35949;36161;2226;38001;38004;2838];
 [14960;3703;44668;4479;49034;51030;5245;20857;55802;21578;5772;58459;5992;6078;6165;61429];
 [61424;61683;61823;61971;6517;6565;29721;32645;33712;38007;42239;3704;3893;15517;4482;49031];
 [4483;49035;4721;51614;5246;5774;58255;22112;5993;58937;59348;59633;59906;60011;60224;6298];
 [6299;61456;62142;62137;6544;62564;23710;39913;49040;4486;4485;49180;4622;50066;50862;51619];
 [5401;57289;6080;59352;60228;61476;23544;23610;23677;62576;62675;3085;6166;62147;6569;6570];
 [3205;44321;47562;50076;60019;61830;62401;59913;23702;62677;6082;6193;6417;6571;6300;57300]].

(* lib/converters/cns11643_4b.h:641-674 cns11643_4b_2uni_upages *)
Definition cns11643_4b_2uni_upages : tab := mk [
 [13312;13568;13824;14080;14336;14592;14848;15104;15360;15616;15872;16128;16384;16640;16896;17152];
 [17408;17664;17920;18176;18432;18688;18944;19200;19456;19712;20480;20736;20992;21248;22016;22528];
 [22784;23296;23552;23808;24064;24320;24832;25600;25856;26112;26880;27136;27392;28416;28672;28928];
 [29184;29440;29696;29952;30208;30464;30720;30976;31232;31488;31744;32000;32256;32512;32768;33024];
 [33280;33792;34048;34304;34560;34816;35072;35328;35584;35840;36096;36352;36608;36864;37120;37376];
 [37632;37888;38144;38400;38656;38912;39168;39424;39680;39936;40192;40448;40704;65280;131072;131840];
 [132096;132352;132608;132864;133120;133376;133632;133888;134656;134912;135168;135424;135680;135936;136192;136448];
 [136704;137216;137472;137728;137984;138240;138752;139008;139520;139776;140032;140288;140544;141056;141312;141568];
 [141824;142336;142592;142848;143104;143360;143616;143872;144128;144640;144896;145152;145408;145664;145920;146176];
 [146432;146944;147200;147456;147712;148224;148480;148736;148992;149504;149760;150016;150272;150528;150784;151040];
 [151296;151552;152064;152320;152832;153088;153344;153600;153856;154112;154368;154624;154880;155136;155392;155648];
 [155904;156160;156416;156672;156928;157184;157440;157696;157952;158208;158720;158976;159232;159488;159744;160000];
 [160256;160512;160768;161024;161280;161536;161792;162048;162304;162560;162816;163072;163328;163584;163840;164096];
 [164352;164608;164864;165120;165376;165632;165888;166144;166400;166656;166912;167168;167424;167680;167936;168192];
 [168448;168704;168960;169216;169472;169728;169984;170240;170496;170752;171008;171264;171520;171776;172032;172288];
 [172544;172800;173056;173312;173568;194560;194816;195072]].

(* lib/converters/cns11643_5.h:30-1223 cns11643_5_2uni_page21 *)
Definition cns11643_5_2uni_page21 : tab := mk [
 [15313;15307;15305;15372;15104;15239;15373;15375;57885;24216;15314;15377;15230;17875;20562;22526];
 [24745;29762;15113;15318;16349;16348;16386;16499;16758;16807;16808;17203;17356;17677;17708;17947];
 [346;17949;18073;19774;22573;22575;24217;28339;29878;30235;32751;33769;15124;15252;15329;16390];
 [16458;16452;16689;16762;16813;16814;16817;17208;17207;17533;17534;17709;17714;17955;17958;57914];
 [18080;20904;21567;21692;22212;22587;23321;23320;23731;24234;24510;24748;25893;25958;25963;29763];
 [29877;30188;30582;2236;33044;20700;33308;33309;40912;41234;42483;49513;5561;51473;51477;51472];
 [51475;15268;15269;15568;15546;15563;16507;16774;16827;16826;16835;16825;16832;222;17209;17211];
 [17217;17361;17359;17362;17454;17518;17548;17544;17717;323;17722;17723;17720;17721;17966;17964];
 [18120;18101;18093;18096;18091;19635;19625;20923;20921;22106;22221;22315;22533;940;938;22609];
 [22603;23274;23277;23350;23394;23382;23381;23396;23384;7175;23770;23768;24237;24235;24512;24515];
 [24755;24759;24762;7627;1278;24775;24757;25742;25971;25964;25972;58036;25970;25969;25986;25968];
 [27711;28346;28344;29879;33315;33313;33323;33318;33314;34853;35812;36629;40932;41267;41258;41266];
 [41257;42491;46171;46172;46888;49519;49517;49515;49518;51478;15138;15382;15432;15576;15616;65];
 [16256;16356;180;16359;16396;16467;16567;17896;16849;16869;16856;16854;16858;16857;16853;16870];
 [16852;16851;17220;17366;17367;17427;15101;17520;17554;17627;17626;17729;17731;17971;18166;18132];
 [18141;18128;18180;18137;18139;18181;18131;18145;19840;19831;19841;19842;19843;57948;20577;20576];
 [20952;20950;20951;33029;21581;21576;22230;22223;22233;22232;22333;947;22612;22619;22620;948];
 [22617;22616;22618;22613;22614;22658;23280;23324;23402;23401;23409;23399;23404;23406;23417;23691];
 [23736;23783;23784;23780;23782;23781;23792;24195;24247;24251;24249;24261;24403;24516;24518;24523];
 [24776;58015;24777;24795;25748;26005;25992;25997;27116;27118;27121;27694;27721;28255;28369;28363];
 [29573;2077;29770;29767;29771;29883;29892;2172;30210;30594;30609;30607;30610;31887;31889;31924];
 [31890;32756;32938;33333;33335;33341;33340;33327;33328;33784;33775;34342;2901;34854;34855;35393];
 [35526;35527;35819;35816;35818;36634;36633;3366;37923;37924;39205;41269;41268;42247;44317;45793];
 [46763;48992;49527;49533;5564;51486;51482;51485;15211;15405;15436;15658;74;15637;15660;15622];
 [15624;15626;78;16470;16516;201;16582;16885;16905;16888;16872;16891;16873;16886;6839;6840];
 [17234;6838;6842;17236;17233;17465;17466;17560;17742;379;18230;18188;18192;18226;18193;18200];
 [18204;18202;18201;18187;18191;18205;18209;18195;18203;18197;544;19665;19656;19853;19893;649];
 [661;20728;20960;20961;702;20958;20990;20956;20993;20989;20992;21719;21718;21721;22117;22226];
 [22236;22241;22238;22338;22347;963;22670;22673;22667;22672;22664;22665;22660;22698;23437;23439];
 [23421;23423;23419;23424;23422;23427;23425;23430;23434;23741;23742;1143;23796;23795;23810;23798];
 [23797;23794;23812;24125;24262;24457;24532;24534;24530;24826;24838;24844;24842;24847;25903;1492];
 [26039;26046;26044;26082;27142;27127;27143;27126;30261;27743;27749;27748;27745;27738;27741;58071];
 [28375;28373;28382;28385;28384;28377;1868;28378;28383;28406;28419;2080;29587;29579;29585;29586];
 [29578;29577;29583;29782;29785;29898;29900;2139;29904;29901;29910;29899;30083;30082;30214;30250];
 [30252;30251;30249;30653;30643;30654;30656;30645;30646;31901;31903;33056;2605;33054;33052;33074];
 [33055;33067;33057;33062;33060;33053;33063;33371;33369;33408;33365;33360;33370;33366;33379;33362];
 [33368;2659;33337;33785;34344;2840;34492;34518;34565;34592;2932;34867;35398;35394;35395;35399];
 [35531;35650;35653;35837;35828;35833;35834;36446;36637;3368;37464;37461;38231;38232;38361;38364];
 [38363;39207;39557;39559;39562;40331;40527;41008;41007;41320;41289;4058;41288;41279;41291;41308];
 [41286;41280;42253;42523;42525;42519;4260;42530;45223;45320;45830;49021;5262;48995;48996;49023];
 [49003;49020;49000;48997;49002;49560;49561;49582;51499;51501;51505;51502;51503;15213;15409;15661];
 [15673;15672;91;15674;15669;15714;16362;16363;16405;16588;16584;16589;16603;16587;16913;16934];
 [17250;17246;17249;17473;17471;17525;29797;17993;17643;17690;17751;18283;18345;18260;18274;18346];
 [18264;18290;18275;18291;18315;18316;18268;18257;18198;18272;18273;18270;18269;18276;18259;18271];
 [18267;18286;18261;18258;18280;19666;19670;19667;19896;19899;19947;19944;19894;19946;19943;19945];
 [20625;20752;20750;20751;21003;20995;21035;21001;21032;21036;21029;21031;21007;21737;21740;851];
 [22055;22131;22242;22246;57974;22369;22353;22546;22542;22701;22703;22705;22739;23444;23442;23440];
 [23453;23443;23445;23448;23447;1152;57994;23815;23819;23816;24281;24277;24535;24543;1245;24542];
 [24547;24546;1246;24903;1314;24893;24888;25924;25914;26040;26154;26112;26099;26098;26091;26106];
 [26093;26092;26111;26107;7942;26190;26095;26103;27152;27153;27148;27147;27613;27696;1755;27770];
 [27767;28200;28199;28261;28430;28427;28481;28435;28431;28434;28464;29600;29603;29598;29591;29601];
 [29597;29595;29795;29923;29924;29926;29927;29917;8581;29932;29925;29937;30267;30265;30266;30268];
 [30269;30279;30271;30276;30536;30537;30560;30691;30697;30704;2266;2267;30706;30701;30700;30694];
 [30742;2263;31932;31934;31936;31968;32768;32770;32766;32862;32947;32951;33082;33081;33086;33080];
 [33085;33103;33390;33375;33409;33410;33393;33403;33401;33399;33395;33391;33431;33406;33788;33809];
 [33842;33841;33808;34284;34283;34348;34349;34522;34606;34604;34602;34611;34635;34840;34882;34875];
 [34879;34881;34883;34876;35404;35402;35401;35414;35535;35655;35656;35654;35867;35857;35860;35869];
 [35863;35870;35851;35868;35858;35862;35853;35861;35859;35864;3098;36524;36676;36652;36677;37478];
 [37486;37477;37480;37508;37944;37947;37946;37951;38367;38365;38366;38370;3542;39212;39215;39567];
 [39568;39564;39571;40229;40328;40359;40695;40891;41016;41017;41015;41236;41326;41339;4062;41324];
 [41343;41336;41338;41327;4069;41982;42568;42571;42561;42569;42555;44333;45283;45338;45325;45331];
 [45329;45340;4722;46005;4783;46889;47009;47140;47803;48545;49027;49037;49031;49029;49034;49059];
 [49033;49028;49058;49585;49584;49583;49590;49609;49610;49608;49588;51033;51145;51521;51532;5572];
 [51525;51546;15289;15764;15726;15778;15719;99;15779;15734;15724;15716;15781;15664;15782;15721];
 [15780;16272;16479;16480;16602;16600;16605;236;16985;16987;16986;16953;16948;16964;16947;16956];
 [16984;17002;17263;17266;17264;17265;17262;17392;17387;17481;17484;17653;17696;17770;17778;17995];
 [18013;18256;18425;18426;18427;18467;18359;18466;18357;18372;18356;18415;408;18381;18416;18360];
 [18379;18417;18362;18435;18424;18358;18364;18355;18465;18423;18370;18366;18377;18365;18382;18361];
 [18375;18378;18380;18470;19684;19680;19696;19948;20004;19992;20015;20005;20520;20514;20586;15447];
 [20628;20626;20636;20770;20784;20765;20771;21045;21043;21039;21069;21041;21083;21082;21042;21084];
 [21081;21085;21609;21613;23858;856;21770;21792;21791;21773;22248;22252;22391;22384;22385;22776];
 [22742;22745;22750;22741;22753;979;22754;22749;22752;22798;22792;22748;22794;22796;23476;23473];
 [23478;23484;23837;23844;23833;23835;23842;23834;23836;23841;24294;24292;24295;24298;1250;58011];
 [24560;24565;24559;24898;24942;24892;24983;24972;24961;24945;25038;25018;24954;24958;1364;24946];
 [25019;1327;24947;24962;1462;25786;25784;25931;25928;26155;26100;26156;26178;26184;26180;26181];
 [26172;26167;26163;26177;26162;26247;27175;27171;27181;27167;27180;27176;27509;27508;27623;27698];
 [27697;27801;27798;27800;27805;27794;27796;27797;27799;41401;1845;28433;28475;28537;28482;28483];
 [1885;28536;29612;2089;29617;29620;29619;29615;29610;29618;29800;29938;29950;29944;29945;29951];
 [29941;29943;29949;29952;30088;30318;30301;30307;30304;30561;30775;30833;30755;30754;30751;30757];
 [31997;32017;32035;31984;31983;32782;32780;32954;2591;33106;33109;33107;33108;33105;33112;33456];
 [33439;2674;33441;33434;33470;33440;33847;2827;34289;34290;34356;34359;34357;24204;34527;34636];
 [34638;34660;34659;34614;34904;34920;34907;34911;34905;34917;34912;34910;35541;35542;35662;35666];
 [35893;35897;35928;35905;35927;35896;35901;35890;35908;58180;36451;36450;36536;36528;36529;36685];
 [36707;36720;36683;36687;36686;36691;36679;3234;36692;36690;36697;36734;37163;37166;37503;37502];
 [37505;37507;37959;37972;37965;37964;37963;37975;38245;38244;38241;38242;38384;38387;38393;38388];
 [38389;38383;38392;38396;38391;38397;38423;39220;39222;39224;39599;39598;39596;39586;40232;27074];
 [40348;40371;40336;40710;40708;40715;40709;41024;41039;41387;41373;41400;41394;41426;41423;41378];
 [4076;41381;41385;41383;41424;41986;42191;42192;42262;42265;42613;42609;42641;42610;42638;42605];
 [42632;42611;4283;42625;42614;42619;42623;42640;42616;44363;44360;44379;44369;44349;44352;44358];
 [44365;44347;44362;44353;44350;44366;45228;45286;45289;45353;4641;45363;45358;45342;4639;58309];
 [45346;45351;45799;45835;46182;46765;46766;12344;46891;46890;47148;47149;5009;5014;47503;47507];
 [47814;47813;48405;48403;48561;48553;12750;49064;49067;49086;49068;49065;49062;49089;49612;49617];
 [49619;49636;49611;49633;49618;49635;49615;49616;49637;49678;51148;51146;51147;51548;51553;51549];
 [51545;52087;53636;15169;15357;15386;15459;15798;15794;15849;15847;15830;15920;15852;15837;15848];
 [15792;15797;15841;16280;16281;188;16531;16613;216;16992;16990;244;17275;17393;17395;17791];
 [57912;18007;18008;18489;18599;18485;18528;18513;18530;18498;18492;18499;18603;18601;18612;18553];
 [18538;18491;18602;18483;18487;18471;18600;18544;18479;18486;18613;18480;18490;18488;18609;18604];
 [18478;18549;18608;19703;19712;19697;19699;20064;20065;20018;20013;20042;20010;20583;20642;20643];
 [20638;20644;20804;20786;21147;21144;21145;21146;21094;21090;21099;32866;21095;21819;21795;21801];
 [22142;22259;901;22261;899;22400;22398;22396;22399;22397;22401;22821;22825;22807;22883;22887];
 [22885;22826;22888;22822;22884;22811;22882;22889;23294;23364;23362;23479;23506;23508;23511;23516];
 [23505;23509;23501;23512;23706;23874;23861;23896;23860;23868;23867;23870;23869;23898;23873;23864];
 [23877;23859;24102;1210;24311;24303;24304;24302;24477;24582;24593;24584;24578;24586;24583;24977];
 [24974;24965;25064;25111;25044;1385;25028;25045;1349;25048;24960;25054;25154;25799;25791;26253];
 [26249;26256;26266;26312;26258;26273;26244;27223;27207;27255;27194;27216;27202;27203;27299;27511];
 [27826;27874;27837;28276;28546;28600;1900;28602;28601;28603;28551;58084;28547;28599;15171;29646];
 [29626;29811;29961;29962;29963;29959;29957;29966;30103;30327;30331;30330;30324;30329;30854;30965];
 [30885;30877;30910;30870;30945;30884;30881;30966;2308;30861;30859;30840;30872;30986;32093;32039];
 [32095;32960;32961;33133;33118;33162;33122;33124;2618;33472;33482;33489;2681;33479;33486;8969];
 [33477;33846;33879;33911;34294;34295;34389;34372;34366;34370;34386;34529;34568;34664;34663;2909];
 [58167;34942;34963;34937;34945;34941;34939;34964;2954;35430;35545;35552;58174;35679;35935;35934];
 [35944;3111;35976;35946;35948;35942;35943;35977;35936;35973;15914;36456;36537;36538;36542;36719];
 [36736;36724;36737;36730;36764;36723;36738;36735;36775;36729;36728;36733;36776;36732;37224;37198];
 [37534;3398;3392;37528;3391;37509;37532;37573;37530;37992;37989;37991;37985;37984;3485;3531];
 [38267;3553;38425;38414;38449;38418;38416;38421;38463;38429;38430;39245;39240;39237;39234;39241];
 [39242;39239;3711;39244;39629;39637;39620;39626;39619;3910;40233;40372;40557;40550;40554;40725];
 [40915;40940;41045;4122;41430;41432;41553;41440;41475;41476;41434;41450;41474;41427;41444;41445];
 [42043;42086;42284;42273;42278;42452;42453;42457;42709;42731;42693;4307;42791;42736;42681;42776];
 [42734;4304;42679;42683;42735;42680;42719;42714;42723;42697;42732;44196;4494;44195;44382;44385];
 [44386;44387;44430;44393;44395;44421;44429;44388;44397;45388;45385;45383;45384;45378;45381;45403];
 [45405;45382;45843;45850;45838;45839;45851;45842;46019;46014;46013;46201;46204;4803;4790;46208];
 [46197;46235;12079;46196;4800;4792;23361;24468;46896;47015;47013;47012;47162;47451;47519;47528];
 [47539;47521;47527;47538;47517;47523;47522;47855;47833;5081;47829;47837;47834;47854;47831;48410];
 [48409;48408;48563;48575;48571;48576;48569;48568;48597;48913;48912;49091;49090;49129;49101;49125];
 [49098;49095;49128;49649;49676;49647;49646;49651;49677;49654;49648;5356;49909;49908;49912;49918];
 [50193;50210;50242;51036;51034;51037;51153;51152;51573;51579;51849;53069;53641;53650;53644;53640];
 [54119;54120;15905;15858;15881;15864;15856;15859;15861;15867;15863;15855;15883;16290;16629;16627];
 [16628;16626;16792;17000;17024;17029;17038;17039;15860;17030;17060;17286;17289;17287;17285;6876];
 [17288;17919;18022;460;18627;418;18628;18747;18663;18680;18683;438;18622;18630;453;454];
 [18684;18624;18739;18633;18686;18650;18636;18619;18685;18655;18637;18626;18632;18738;18733;18642];
 [18737;18643;18734;18639;19711;19721;19708;20082;20138;20139;20135;20091;20086;20136;20140;643];
 [6945;20650;17667;20652;20653;20651;20816;20824;21213;760;21166;21154;21163;21219;21167;21216];
 [21220;758;21159;21162;21218;21217;21215;21165;21221;21201;21164;21205;21155;21151;21625;21622];
 [21827;21821;21831;21828;21823;21851;22143;22426;22428;923;22558;22920;22890;22902;22898;22896];
 [22910;22892;22895;22901;22903;22904;22922;22905;22932;23297;23557;23537;23534;23535;23556;7231];
 [23546;23559;23540;23541;23708;23917;23913;23910;23906;23878;1165;23909;23901;23902;23903;24206];
 [24322;24326;24324;24323;24418;24615;24609;24608;24612;24617;24625;24611;24610;25052;25165;25061];
 [25043;25070;25062;1366;25142;25152;25407;25149;25156;1371;25183;25129;25161;25226;25130;25223];
 [25164;25137;25160;25131;25147;25153;25033;25140;25171;25141;25159;25144;25809;25810;25937;25941];
 [25938;25939;26255;26356;26439;26381;26396;26363;26393;26359;26361;26357;26345;26378;26350;26379];
 [26365;26374;26370;26390;26392;26352;27092;27238;27242;27253;27254;27264;27245;1686;27241;27239];
 [27240;27229;27556;27646;27645;27884;27881;27937;27883;27879;27890;27936;28282;28717;28718;28618];
 [28719;28616;1918;28619;28611;28548;28626;28614;1921;28623;28629;28628;28637;28715;28835;28635];
 [28716;28691;2101;29649;29644;29653;29641;29647;29650;29819;29820;29987;29981;29980;29982;29986];
 [29988;29984;29976;29985;30344;30346;30356;30351;30350;30352;2203;30375;30564;2304;31000;30996];
 [31005;30981;30975;31003;31002;31001;30979;30990;31047;30980;31066;30983;31008;32106;32102;32122];
 [32101;32175;32973;32975;32977;32974;33119;33143;33140;33160;33141;33161;33138;33478;33514;33504];
 [33543;33510;33509;33501;33507;33498;33966;33918;33917;33919;2771;34009;34298;34299;34381;34388];
 [34385;34384;34968;34965;34973;35009;34970;34971;2975;34972;35031;34980;34966;34976;35377;35561];
 [35694;35994;36005;35988;36006;35993;35979;35992;35985;35980;36001;36003;36038;36463;36461;36458];
 [36460;36465;36462;36575;36780;36778;3249;36789;36781;36786;36787;36779;36790;36807;36806;37228];
 [37232;37555;3403;38028;38017;38019;38013;38021;38032;38050;38029;38031;38014;38026;38015;38006];
 [38023;38008;38272;38274;38273;38275;38490;38452;38444;38442;38464;38445;38451;38443;38475;10303];
 [38460;39258;39287;39264;39674;39673;39676;3798;39669;39656;39689;39655;39654;39657;40242;40236];
 [40381;40380;40570;40574;40569;3977;40739;40752;40744;40916;42446;40945;40944;41056;41061;41384];
 [41482;41499;41490;41479;41551;41486;41554;41494;4096;41555;41556;58244;41558;42093;42098;42287];
 [42794;4316;42851;42884;42927;42821;42864;42838;42774;42813;42808;42863;42871;42798;42801;42828];
 [42847;42869;42809;42810;42796;42797;42815;42799;42800;42814;10960;4496;44210;44471;44431;4529];
 [44438;44446;44439;44437;44453;44440;11239;44451;44442;44461;44454;44470;44441;44463;44460;4522];
 [44447;44436;45291;45423;45421;45438;45420;45409;45411;45419;45406;45374;45412;45485;4733;45856];
 [46033;46037;46254;46255;46239;46248;46282;46817;46905;46904;46907;47021;47029;47023;47025;47022];
 [47028;47024;47179;47185;47180;4969;47200;47550;47545;47543;47542;5025;47549;47544;47553;47863];
 [47859;47860;47867;47869;47861;5095;47866;47892;5100;47858;47868;47872;5087;48427;48425;48430];
 [5171;48599;48603;48601;48600;48614;48598;48593;48615;48592;48604;49133;49178;49177;49174;49132];
 [49135;49134;49140;49199;49712;49689;49688;49681;49686;49682;49680;49684;49932;49933;50192;50217];
 [50216;51045;51046;51166;51167;51168;51161;51163;51160;51171;51159;51622;51623;51647;51624;51615];
 [51617;51618;51629;51619;51616;52099;52101;52098;52100;52462;52573;52882;53077;53075;58364;53073];
 [53074;53072;53405;53639;53655;53659;53661;54121;54545;6126;55162;6194;27972;15302;15936;15918];
 [15976;15917;15924;15922;15977;15921;15978;15934;15983;15989;16374;16416;16424;16487;16635;16638];
 [16636;16637;16639;16634;17068;17071;17073;252;17087;17086;17063;17066;17300;17299;17305;298];
 [17402;17494;17698;17809;17810;17928;17926;18646;18743;18763;18894;18896;18745;18788;18895;18758];
 [18790;18774;18755;18762;18776;18789;18778;18779;18773;18768;18764;18893;18769;18759;467;18771];
 [18786;18892;471;18815;18765;19722;19724;19727;20155;20153;20203;20142;20161;20202;20158;20159];
 [20154;20151;20147;20201;20590;20655;20659;20658;20840;20841;20842;21214;21227;21265;21229;21225];
 [21239;21236;21226;21266;21224;21267;21646;21638;21859;21861;22169;22466;22446;22448;22445;22964];
 [22993;22957;1011;22973;22967;22955;22959;22977;22965;23567;23566;23580;23571;23562;23582;23572];
 [23578;23755;23943;23955;1169;23940;23941;23954;23936;24107;24163;24330;1216;24422;24628;24627];
 [24653;25225;25175;7703;25162;1379;25145;25151;25232;25231;25266;25247;25237;25249;25244;25230];
 [25248;25262;25238;25290;25260;1392;25254;25239;25235;16054;25814;25824;25816;25942;26478;26494];
 [26484;26487;26496;26490;26475;26463;26486;26544;26467;27282;27266;27293;27284;27267;27275;27268];
 [27479;27524;27573;27657;27878;1794;27941;27985;28222;58074;28293;28735;28738;28728;28730;28750];
 [28741;28729;28727;28740;58087;28836;28733;28737;29663;29662;29642;29673;29666;29664;29833;29831];
 [30002;30003;30124;30201;30221;30393;31070;31082;2357;31105;31081;31148;31104;31093;31089;31094];
 [31087;32182;32259;32191;32257;32178;32196;32987;32988;32984;53618;33205;33192;33167;33182;33166];
 [33502;33506;33568;33565;33562;33561;33579;33560;33552;33550;33572;33567;33555;33589;33923;2784];
 [34007;34306;34307;34396;34399;34503;34714;34711;34723;35063;35014;35020;35030;35021;35065;35033];
 [35032;2970;35025;35022;35029;2979;35028;35064;35450;35449;35455;35571;35573;35574;35572;35575];
 [3077;35705;35996;36063;36085;36095;36049;36058;36047;36045;36062;36056;30125;36064;36094;35998];
 [36469;36467;36466;36568;36816;36822;36823;36810;36813;37258;37257;37259;37587;37594;37582;37586];
 [3422;37588;37591;37589;37627;37581;37626;37590;3494;38043;38046;38045;38052;38047;38053;38056];
 [38287;38284;38293;38496;38485;38492;38511;38481;38497;38567;38494;38498;38484;38510;38482;38488];
 [38509;38495;38508;38480;38493;38542;39282;39288;39285;39286;39292;39294;39293;39701;39700;39709];
 [39708;39715;39767;40392;3933;40393;40389;40583;40586;40596;40761;40768;40766;40760;40918;4024];
 [41079;41080;41085;41437;41566;41591;41684;41574;41567;41587;41586;41623;41562;41622;41565;41573];
 [41584;41589;41588;41564;41568;4148;41581;42049;42300;42302;4207;42313;42724;43020;43029;43022];
 [42964;42951;43028;42971;43103;42989;43017;42959;43007;43034;42997;42990;42981;43021;42975;42988];
 [42967;43052;42957;42979;43008;42987;43005;43023;43053;43088;43006;42948;42977;43001;44219;44220];
 [4500;4499;44218;44496;44502;44494;44513;44501;44495;44499;11284;44500;45237;45456;45473;45441];
 [45445;45422;45448;45442;45446;45455;45449;45440;45444;11729;45865;45867;45866;45872;46050;46051];
 [46049;46293;46276;46281;46304;46303;46283;46301;46312;46292;46364;46773;46774;46821;46917;46921];
 [46912;46918;46916;46922;47049;47044;47042;47208;12491;47234;47211;47207;47212;47213;47217;5010];
 [47575;47570;47577;5034;47548;47581;47574;5031;47576;47904;47894;47896;47893;47897;47911;47952];
 [47901;47916;47900;47913;47915;47908;5103;47912;48441;48626;48624;12781;48621;48623;48618;48641];
 [49084;49244;49243;49242;49190;49731;49715;49722;49719;49718;49724;49716;49738;49723;49717;49725];
 [49728;49726;49687;49958;49956;49936;49974;49957;5410;50278;51071;51066;51195;51197;51196;51194];
 [51670;51666;51656;51650;51655;51661;51649;51654;51660;51873;52117;52116;52119;52118;52115;52129];
 [52489;52488;52583;52581;52578;52577;52887;52993;53017;53016;53084;53095;53100;5813;58365;53094];
 [53089;53102;53085;53082;53410;53417;53413;53414;53426;53411;53676;53674;53679;53675;53681;53702];
 [53677;53689;54128;6005;55052;55169;55171;55166;55377;55961;55956;55957;56830;57112;15365;15986];
 [130;16025;16301;16646;17090;17099;17109;17106;17100;17111;17093;17098;6892;17314;17315;17313];
 [6888;17318;17316;17407;17408;309;17670;17701;17823;18047;18922;18923;18910;18968;18912;18920];
 [18911;18929;18924;18970;18918;18913;19037;15223;18974;496;19072;19735;20253;20215;20207;20206];
 [20205;20213;20254;20669;37631;20670;20845;20854;21324;21273;21320;21278;21322;21321;21286;21653];
 [21893;21886;21911;21885;22082;22174;22284;22283;22286;22479;23000;23008;23016;23017;23010;23009];
 [23002;23011;23001;23024;23015;23012;23587;23601;23603;23564;42208;23590;23588;23602;23591;23585];
 [23600;23714;23756;23958;57999;23960;23964;23963;24171;24338;24340;24666;24660;24657;24670;24664];
 [1264;24665;25242;25330;25261;25376;25329;25328;25331;25332;25321;25342;25390;25320;25319;25343];
 [25333;25829;25831;25830;25833;25944;26476;26585;1598;26571;1593;26558;26549;26577;26562;26550];
 [26579;58050;27098;1698;27310;1697;27308;27305;27322;27303;27315;27325;27313;27662;27665;27663];
 [27986;28010;27988;27989;27987;27991;58064;27995;27992;27993;1851;28856;28853;28863;28865;28859];
 [1975;28867;28845;28840;28846;28842;28880;28849;28860;28855;28848;28922;28923;28857;29703;29692];
 [29695;29682;29688;29684;2135;2160;30126;30223;30224;54721;30407;30406;30414;2215;30428;31189];
 [31187;31264;31202;31217;31195;31210;31211;31201;31231;31190;31200;31191;31205;2388;32283;32272];
 [32271;32270;32313;32266;32276;32268;32803;32858;32994;33171;33200;33195;33213;33201;33165;33197];
 [33194;33196;33212;33225;33607;33634;33600;33604;33599;33603;33597;33632;33631;33594;33602;33630];
 [33629;33980;34016;34030;34027;34061;34313;34316;34409;34420;34407;2865;9255;34733;35071;35094];
 [35080;35081;35072;35068;35091;35092;35082;54078;35113;35095;35131;35067;3007;35086;3044;35592];
 [36123;36122;36121;36098;3146;36119;36103;36115;36105;36106;36114;36266;36152;36475;36476;36474];
 [36586;36587;36591;36592;36873;36866;36865;36907;36871;3279;36904;36859;36906;36862;36868;36905];
 [36874;9868;37314;9873;37286;3348;27334;22279;37642;37629;37638;37645;37641;37643;37632;37637];
 [37693;38101;38079;38074;38087;38296;38298;3597;38564;38556;38557;38562;38550;38549;38565;38570];
 [38573;38554;38563;38551;38544;38575;38541;3585;38568;38638;39331;39321;39329;39324;39332;39371];
 [39766;39752;39769;39754;39772;3825;39759;39757;39773;40250;40419;40417;40414;40599;40602;40776];
 [40778;40780;40782;40783;40779;40781;40775;40785;40922;40953;40956;40955;40957;40952;40954;41098];
 [41102;41096;41097;41101;41104;58238;41500;41643;41636;41640;41645;41631;41626;41648;41637;41685];
 [41634;41650;41629;41633;42005;42050;42099;42116;42205;42332;42316;4214;42315;42855;43176;43135];
 [43149;43147;43255;43177;43252;43162;43148;43157;43134;43127;4362;4355;43121;43261;43144;43161];
 [43117;43220;43153;43133;43107;43125;43257;43150;43124;43225;43110;43258;43253;11104;44225;44233];
 [44547;44588;44596;44567;44553;44548;44550;44570;44558;44583;44549;44551;44569;44564;44556;44573];
 [44578;44579;45243;45244;45242;45481;45493;45484;45482;45487;45495;4661;4662;45885;45893;45896];
 [45884;45886;46060;46061;46057;46346;46347;46328;46340;46326;46329;46931;46930;46944;46947;47054];
 [47053;47056;47052;47239;47245;47261;4979;47459;47604;47601;47615;47605;47612;47602;47606;5041];
 [47610;5039;47918;47941;47939;47953;47948;47987;47943;47947;47951;5108;47940;47949;47950;47946];
 [47937;47954;48031;47956;47961;48034;48459;48456;48653;48671;48648;48654;48669;48644;48920;48923];
 [49254;49250;49283;49255;49762;49743;49742;49767;49747;49741;49740;49768;49745;5340;49752;49755];
 [49744;49770;49977;49976;50306;50308;50310;51072;51078;51237;51217;5529;51214;51221;51215;51224];
 [51213;51219;51222;51225;51720;51703;51707;51708;51892;51902;51905;52134;52133;52130;52132;52498];
 [52494;52602;52600;52605;52606;52609;52611;52608;52610;52891;52889;52892;52890;52897;53018;53020];
 [53130;53113;53107;53109;53116;53112;53088;53123;53104;5814;5821;53127;53124;53115;53118;53108];
 [53433;53432;53431;53429;53708;53710;53713;13572;53707;13723;54142;54138;54135;54156;54241;54560];
 [54558;54722;54799;54784;6132;54800;55053;55054;55182;55181;55178;55179;55180;55183;55383;6197];
 [55381;55387;55980;55975;55968;55966;6314;56717;6431;56979;56980;56978;15489;16086;16067;16100];
 [16098;16137;16063;16072;16071;16309;16306;16652;16651;16650;16645;17107;17126;17129;17136;17130];
 [17127;17329;17331;17332;17328;17500;17501;17502;17600;17839;336;18054;18051;18052;19036;19056];
 [19084;19067;19046;19065;19043;19141;19051;19053;19058;19049;19061;19081;19142;19109;16103;19050];
 [19095;20314;20316;20313;20260;20261;20272;20312;20273;20598;20673;20869;20861;21349;21383;21330];
 [21332;21386;21328;21382;21327;21352;21661;21920;21946;21949;21944;22182;891;22494;22488;22481];
 [23059;1033;23054;23067;23098;1031;23068;23058;23062;23066;20296;23627;23607;23606;23608;23610];
 [23625;23612;23626;23985;24002;23989;24004;23990;24350;24351;24495;24683;24687;25234;25316;25388];
 [25327;7812;25423;25426;25424;25402;25399;25415;25444;25408;25404;25413;25409;25843;1467;26561];
 [26548;1611;26666;26658;26665;1613;26686;26684;26672;27335;27349;27350;27347;27342;27336;27484];
 [27487;27490;1730;27581;27583;27996;28086;1818;28061;28031;1810;28052;28033;28231;28230;1852];
 [28308;29045;28954;28970;28978;28951;28963;29044;1987;29046;28974;28965;28960;29041;28950;29040];
 [28972;28975;28959;29028;1984;29704;29716;29706;29707;30031;30041;30036;30033;30134;30444;30445];
 [30442;31214;31322;31347;31333;31329;31317;31339;31332;31323;31308;31343;31364;31344;32349;32343];
 [32358;32339;32408;32407;32808;33003;33002;33000;33004;33007;33233;33226;8863;33231;33229;33230];
 [33648;33639;33651;33645;33654;33657;33642;33675;33650;33649;33646;33658;34070;34105;34107;34320];
 [34454;34427;34428;34429;34750;35164;35128;35129;35118;35124;35122;35163;35123;35132;3045;35598];
 [35599;35600;35719;36187;36179;3167;36188;36159;36185;36170;36164;36172;36160;36191;36190;36174];
 [36180;36163;36231;36482;36485;36913;36935;36910;36911;36936;36916;3352;16543;37682;37686;37683];
 [37681;37696;37697;38109;38098;38105;3501;38111;38107;38104;38099;38110;38112;38100;38103;38106];
 [38311;38654;38621;38720;38626;3614;38614;38622;38639;3623;38635;38634;38628;38609;3608;38636];
 [38650;38617;38643;38625;38620;38629;38623;38612;3616;38661;39382;39381;39376;39368;39364;39369];
 [39373;39378;39372;39370;39840;39826;3828;3842;39819;39841;39829;39816;39814;39821;39813;39825];
 [39817;39842;40432;40435;40436;40431;40454;40610;40798;40803;40800;40795;40827;40792;40793;40797];
 [40965;40966;40962;40963;40964;41122;41127;41126;41124;41132;41129;41703;41729;41695;41689;41699];
 [41743;42010;42053;42056;42107;42117;42118;42238;42239;42340;42353;42354;42337;42338;42348;42336];
 [42333;42339;42343;43265;43306;43312;43270;43389;43298;43449;43274;43280;43151;43392;43283;43310];
 [43288;43287;43290;43284;43335;43363;43320;4388;43391;43297;43319;43313;43291;43429;43628;44243];
 [44680;44654;44636;44660;44628;44675;11376;44645;44640;44656;44655;44653;44658;44652;44662;44661];
 [44633;44743;45249;45305;45539;45543;45526;45519;45530;45545;45522;45909;45903;45901;45905;45910];
 [46073;46072;46086;46083;46089;46071;46069;46407;46405;46398;46406;46377;46388;46399;46404;46389];
 [46426;46378;46387;46391;46403;46393;46384;46429;46386;46375;46781;46778;46780;46833;46832;46945];
 [46940;46936;46941;47066;47065;47069;47068;47070;4989;47264;47266;47631;47635;47634;47633;47636];
 [47641;47630;47639;47649;47648;47638;47992;12599;48007;47993;48000;47991;48001;47942;47994;48028];
 [48003;48004;48045;48029;48030;48469;48694;48683;48679;48710;48684;48709;48691;48685;48692;48674];
 [5220;48927;49331;49292;49295;49327;49325;49294;49324;49328;49329;49326;49305;49643;49780;49781];
 [49806;49773;49776;49804;49999;50001;50008;49996;49998;50197;50366;50395;50355;50350;51079;51082];
 [51080;51083;51084;51268;51245;51242;51249;51244;51269;51248;51241;51270;51700;51732;51728;51727];
 [51730;51723;51724;51722;51731;51726;51929;51920;13315;52161;52159;52157;52156;52154;52155;52177];
 [52158;52176;52153;52506;52508;52507;52625;52630;52639;52636;52634;52637;52909;52901;52910;52995];
 [53030;53024;53027;53028;53025;53032;53029;53022;53140;53139;53135;53146;53165;5826;53450;53445];
 [53691;53729;53738;53732;53741;53734;53728;53736;53733;54042;54164;54166;54174;54165;54177;54158];
 [54171;54162;54167;54169;54163;54578;54575;54574;54579;54812;54814;54801;54816;54815;54809;54806];
 [55212;55225;55219;55206;55202;55209;55207;55404;55405;55401;55424;55398;55397;55409;55403;55997];
 [56001;56019;55990;6316;55993;56020;55991;56027;55992;56000;55996;56021;55999;56003;56009;56664];
 [56720;56725;56727;56841;56840;56838;56837;56848;56983;56981;57070;57119;58394;22091;15502;16104];
 [16112;16116;16134;16109;155;16105;16128;16312;16493;17156;17153;17155;17154;6902;294;17506];
 [17850;17939;19166;19159;19172;19150;19171;19165;19258;19163;19158;19168;19156;19147;19169;19145];
 [19167;19260;19196;19151;20345;20342;20344;20871;21404;21425;21441;21402;21394;3503;21442;21398];
 [21440;21393;21397;21666;21955;21952;21954;18058;22192;22294;23110;23114;23102;23109;23106;1045];
 [23131;23108;23300;31522;23637;23639;23633;23630;23642;24006;24003;1180;24005;24012;24177;24358];
 [24498;24698;24708;24699;25460;25484;25425;25416;25485;25490;25496;25491;25520;25422;25494;25495];
 [25500;25546;26675;26755;26756;26778;26764;8396;26777;27104;27364;27384;27373;27379;27380;27381];
 [27389;27673;28062;28100;28063;28315;28319;28314;29098;29085;29074;29090;29103;29163;29088;29089];
 [29076;29080;29071;29063;29060;29097;29052;29720;30047;30050;30049;30144;30229;30460;30457;31432];
 [31433;31454;31434;31458;2404;2414;31492;31436;31453;31460;31443;31431;31430;2399;31543;32472];
 [32494;32434;32419;32435;32493;32504;32817;32859;32870;32873;32918;32923;33015;33011;33012;33013];
 [33250;33255;33253;33257;33254;33251;33652;33663;33679;33680;33687;33699;33678;33688;33676;34114];
 [34116;34153;34115;34152;2806;34445;34440;34443;34441;34764;34847;35200;35166;35175;35176;35173];
 [9546;35188;35177;35169;35170;35180;35219;35206;35485;35483;35611;35606;35609;35604;35608;35605];
 [35737;35736;36189;36233;36218;36221;36171;3187;36216;36223;36215;36222;36217;36267;36220;36212];
 [36213;36263;36493;36942;36966;36961;36941;36943;3293;36948;36988;37338;37342;37336;37341;37343];
 [37734;37730;37727;37732;37731;37728;37768;37738;37735;37767;37695;37740;37742;37805;38129;38132];
 [38134;38133;38136;38139;38124;38127;38125;10169;38135;38137;38141;38321;38710;38683;38706;38722];
 [38733;38687;38689;38684;38705;38702;38727;38715;38721;38680;38713;38685;38695;38691;10455;39406];
 [39400;39397;39407;39396;39404;39408;39895;39896;39892;39882;39890;39883;39891;39910;39906;40265];
 [40264;40447;40457;40624;40623;40828;40824;40826;40818;40825;40830;40972;40971;41165;41150;41148];
 [41151;41152;41149;41784;41736;41733;41787;41744;41740;41741;41732;41786;41747;41783;41785;42015];
 [42059;42222;42357;42360;42364;42356;42358;42474;42475;43259;43289;43431;43404;43484;43416;43454];
 [43422;43535;43423;43485;43411;43451;43446;43408;43425;43453;43486;43322;43554;43415;43412;43459];
 [43406;43432;43417;43437;43419;43426;43553;43436;43534;43569;44257;44254;44255;44252;44253;44268];
 [44263;44649;44728;44705;44712;44730;44738;44710;44708;44707;44715;44732;44727;44735;44717;44721];
 [44746;44740;44729;45256;45254;45255;45578;45581;45563;45571;45570;45564;45561;45560;45934;45923];
 [45922;45921;45931;4744;45935;45926;45932;46094;46101;46102;46096;46103;46097;46446;46444;46471];
 [46467;46435;46556;46784;46839;46842;46960;46954;46952;46953;46980;47084;47079;47086;47290;47282];
 [47285;47307;17163;47312;47469;47468;5051;47685;47686;47668;47660;47669;47684;5050;47734;48049];
 [48042;48033;48050;5138;48038;48053;48052;48056;48047;48048;48035;48482;48484;48726;48721;48719];
 [48744;48716;48720;5217;48712;48714;48929;49379;49337;49374;49335;49377;49334;49333;49375;5345];
 [49815;49818;49819;49816;49810;49811;49879;49779;50027;50036;50040;50029;50200;50409;50421;50410];
 [50478;50407;50430;50405;50486;50416;50406;50476;51081;51093;51091;51277;51274;51279;51280;51275];
 [51754;51755;51759;51758;51836;51949;51938;52192;52188;52186;52182;52212;52185;52181;52514;52513];
 [52516;52517;52518;52515;52650;52655;52656;52651;52911;52919;52917;52914;52915;53035;53208;53186];
 [53167;53180;53176;53182;53175;53172;53183;53171;53169;53179;53181;53206;53213;53464;53459;53461];
 [53475;53474;53465;53470;53471;53466;53460;53747;53730;53773;53761;53765;53786;53763;53791;53782];
 [53754;53756;53770;13727;54204;54218;54198;54215;54207;6025;54201;6028;54192;54200;54205;54161];
 [54203;54206;54590;54589;54840;54845;54841;54835;55091;55227;55238;55237;55239;55243;55208;55240];
 [55230;55233;55229;55426;55454;55425;55428;13965;55446;55438;55432;55431;56032;56077;56031;56036];
 [56034;56029;56044;56030;56039;56042;56035;56668;14711;56669;56732;56861;56989;56990;56987;57013];
 [57017;57014;57075;57074;57076;57126;57127;57125;57350;57355;57402;57404;16138;16139;16319;16381];
 [16664;52447;36496;16798;17148;17168;17167;17165;17337;17335;17338;17418;19265;19339;19270;19283];
 [19426;19263;19068;19275;19278;19338;19271;20371;47310;20364;20399;20425;20678;20680;20881;21455];
 [21460;21454;21981;21972;23113;23139;23133;1050;23143;23227;23136;23168;23647;23648;24026;24018];
 [24029;24718;24712;24684;25502;25545;25508;1432;25561;25554;25562;25565;25550;25596;25876;25952];
 [26839;26827;26829;26837;27111;27392;27402;27407;27394;27393;27677;28106;28107;28109;28239;28316];
 [29056;29197;29186;2033;29191;29175;29176;29181;29220;29179;29241;29242;29730;8617;30058;30061];
 [30068;30478;31455;31531;31459;31526;31530;31523;31541;31562;32509;32512;32542;32511;32926;33018];
 [33265;33685;33704;33702;34158;34179;34157;34447;2922;34783;34773;34784;34771;34776;35212;9547];
 [35220;35222;35205;35215;35241;35214;35216;35256;35267;35259;35493;35490;9634;35491;35765;35756];
 [35752;36269;36280;36276;36270;36278;4229;36289;36287;36498;36608;36609;36981;36978;36984;36976];
 [36990;36989;36991;37359;37741;37774;37775;37770;37773;37781;37771;37772;37808;37779;38140;38165];
 [38158;38168;38161;38157;38331;38323;3641;38817;38810;38788;38816;38790;38813;38826;38776;38797];
 [38794;38822;38778;38807;38792;38798;3645;3652;38774;38785;38789;38773;38824;38799;38801;38818];
 [38812;38793;38783;38806;38777;38815;38823;3654;38791;38811;38821;38795;38857;39423;39427;39424];
 [39426;39428;39429;39398;39455;39956;3854;39948;39951;39961;39947;39955;39893;3856;39964;40272];
 [40270;40466;40633;40837;40840;40848;40979;41168;41169;41170;41175;41174;41189;41798;41835;41797];
 [41791;41790;4158;41834;41832;41804;42019;42018;42135;42129;38325;42136;42140;42377;4228;42379];
 [42378;42381;42382;42376;43598;43588;43575;43637;43604;43638;43572;43627;43570;43607;43602;43589];
 [4425;43441;43595;43591;43571;43584;43580;43587;43599;43605;43585;43698;43712;44852;44793;44825];
 [44813;44794;44830;44831;44814;44864;44808;4575;44819;44876;4592;45260;45259;45604;45605;45629];
 [45600;45607;45606;45597;45598;45618;45676;45657;4746;45946;45945;46107;46126;46115;46112;46111];
 [46518;46521;46497;46499;46504;46511;46490;46489;46498;46493;4866;46507;46793;46846;46848;46844];
 [46855;46965;46962;46963;46964;47098;47100;47096;47094;47099;47309;47313;47311;47476;47474;47475];
 [47700;47697;5056;47699;47689;47692;47690;47695;47702;48128;48085;48087;48127;48089;48099;48083];
 [5141;48088;48084;48094;48497;48756;48776;48767;48747;48775;48761;48760;48777;48768;48758;48937];
 [48936;48943;49381;49412;49411;49392;49384;49386;49393;49409;49410;49833;49835;49847;49846;5346];
 [50080;50062;50054;50055;50053;50059;50056;50064;50202;50228;50487;50479;50480;50489;50484;50483];
 [50565;50564;50490;51103;51305;51308;51306;51303;51307;51775;51776;51979;52178;52216;52225;52218];
 [52246;58358;52524;52525;52527;52526;52673;52725;52676;52702;52684;52690;52674;52685;52687;52701];
 [52680;52922;52926;52927;53038;53040;53223;53230;53224;53222;53218;53220;53243;53244;53226;53485];
 [53494;53491;53492;53489;53495;53493;53482;53483;53760;53804;53778;53821;53811;5965;53808;53824];
 [53809;53847;5962;53813;53810;53805;53814;53816;53858;53855;53898;54230;54232;54237;54244;54243];
 [54605;54743;54858;54860;54864;54859;54862;54863;55097;55250;55245;55251;55265;55246;55253;55261];
 [55252;55247;55499;55462;55490;55461;55465;55458;55460;55472;55500;55471;55487;56100;56090;56084];
 [56122;56096;56091;56097;56101;56094;56127;56128;56088;56108;56085;56109;56095;56105;56139;56755];
 [56741;56743;56747;56742;56746;56866;56867;56993;56995;56992;57021;57018;57082;57080;57084;57078];
 [57140;57155;6499;57300;57357;57411;57409;57405;57408;57406;57407;57414;6547;57556;16181;16182];
 [16178;16186;16328;16438;16670;16669;16671;17180;17181;17184;270;17344;19354;19347;19421;522];
 [19363;19369;19356;19355;525;19351;20401;20426;20403;20429;21482;21486;21487;21983;22096;22203];
 [23176;23177;23180;23173;23134;23188;23189;23659;23658;23657;24035;24049;24375;24371;24721;24719];
 [24727;25556;25566;25555;25568;25667;25611;25599;25604;25607;26873;26874;26875;26872;27410;27408];
 [27679;28127;28131;28242;28329;29285;29319;29250;29266;29260;29087;29185;29256;29263;29310;29261];
 [29272;29255;29278;29257;29262;29277;29274;29318;29265;29737;29862;29863;30064;30063;30163;30162];
 [30504;30491;30490;30492;30497;31538;31590;31613;31603;31615;31589;31616;31585;31605;31598;31591];
 [31601;31596;31587;31586;31619;31666;31617;31599;31595;31618;31626;32553;32560;32561;32919;33024];
 [33023;33718;33717;33731;34189;34328;34460;34458;34457;35255;35268;35270;35271;35260;35264;35269];
 [35277;35265;35262;35495;35512;35619;3188;36328;36318;36323;36335;36316;36324;36321;36325;36501];
 [36500;36499;36494;37016;37020;37017;37024;37022;37380;37843;37812;37819;37815;37816;37821;37814];
 [37817;37813;38178;38177;38339;38332;38911;38885;38903;38866;38912;38875;38896;38882;38861;3670];
 [38881;38898;38876;38860;38870;38899;38906;38902;38892;38890;38883;38864;3674;38805;38869;38900];
 [38859;38874;38856;38879;38901;38863;38855;38871;39460;3747;39452;39457;39454;39448;39451;3752];
 [40006;40011;40008;40007;40039;40020;40469;40482;40645;40489;40647;40845;40987;40992;41186;41191];
 [41192;41185;41842;41851;41844;41841;41849;41845;41872;41847;41853;42063;42064;42147;42146;42228];
 [42388;42394;42395;42407;42391;42389;42386;42396;42390;43702;43704;43696;43800;43717;43701;43714];
 [43782;43801;43705;43797;43734;43692;4412;43718;43699;43715;43722;43727;43709;43726;43796;43706];
 [43802;43713;43707;4507;4506;44289;44284;44890;44884;44897;44892;44885;44874;44875;44881;44905];
 [44907;11505;44902;44888;44893;44903;44886;44936;44900;44878;45655;45658;45649;45642;45643;4702];
 [45639;45679;45674;45675;45638;45677;45652;45678;45644;45944;45958;45954;4775;46561;46565;46555];
 [46558;46551;46851;46972;46974;47109;47111;47334;47329;47355;47333;47335;47327;47359;47478;47715];
 [47718;47717;47710;47716;47723;47711;47719;47720;48136;48137;48151;48149;48155;48139;48168;48142];
 [48152;48211;48197;48141;48138;48147;48202;48505;48801;48781;48802;48784;5230;48945;48944;49439];
 [49433;49420;49438;49437;49415;49766;49861;49850;49853;49858;49859;49855;5389;50081;50082;50088];
 [50083;50090;50095;50105;50231;50575;5443;50574;50567;50570;50578;50583;50591;50693;51113;51111];
 [51338;51330;51333;51339;51337;51329;51328;51335;51334;51789;51996;51999;52257;52253;52258;52222];
 [52251;52282;52279;52247;52280;52262;52248;52532;52533;52530;5747;52705;52733;52707;52712;52729];
 [52735;52734;5748;52704;52736;5744;52716;52708;52719;52730;52938;53041;53042;53044;53057;53248];
 [53254;53256;53253;53251;53259;53250;53258;53488;53523;53514;53519;53521;53512;53515;53522;53517];
 [53851;53859;53857;53864;53850;54094;54093;54096;54268;54290;54261;54302;54256;54259;54258;54273];
 [54255;54254;54294;54262;54267;54300;6107;54621;54624;54630;54623;54625;54619;54626;54615;54889];
 [54891;54881;54903;54879;54883;54882;54885;55279;55266;55296;55272;55282;55271;6185;55269;55509];
 [55504;55514;55507;6225;55513;55503;55510;55512;55541;55502;55511;55540;55501;55553;14010;56146];
 [56149;56154;56141;56148;56147;56158;56167;56165;56142;6363;56143;56161;56174;56145;56155;56675];
 [56759;56758;56771;56763;56757;56878;56880;56883;56881;56996;57025;57019;57022;57088;57087;57152];
 [6501;57151;57156;6500;6503;57307;57359;57361;57422;57421;57419;57420;57493;16187;16197;16196];
 [16190;16188;16191;16332;16334;16674;16675;16799;17349;17348;19433;19353;529;19430;19431;19447];
 [20434;819;21501;21516;21515;22509;1057;1058;23195;23306;23663;23669;24050;24056;24382;25636];
 [25614;25622;25624;25616;25649;25668;1446;25641;25647;25675;25654;1443;26932;26880;26923;27424];
 [27425;27422;27421;28149;28146;28150;29328;29341;29340;29330;29332;29393;29331;29367;29335;29360];
 [29343;29385;29741;29740;30071;30508;31680;31673;32595;32832;33282;33275;2721;34187;34222;34219];
 [34465;56781;34794;35293;35292;35289;35499;35500;35501;35506;35628;35627;35778;36352;36365;36358];
 [36351;36355;36353;36368;36367;36357;36504;36503;36502;36505;37036;37035;37394;37848;37855;37846];
 [38189;38194;38975;38959;38950;38970;38969;3679;38971;38965;38954;38945;38968;38967;38964;3676];
 [38946;38966;38980;39493;39483;39478;39490;40058;40070;40075;40063;40065;40490;40661;40863;40861];
 [40998;41204;41205;41749;41870;41871;42022;42151;42159;42413;42412;42411;42410;43823;43809;43811];
 [43939;43849;43834;43848;43821;43813;43817;43826;43828;43812;43820;43851;43835;43808;43816;44952];
 [4597;44951;11524;44957;44968;45269;45687;45688;45682;45683;45826;46139;46590;46603;46591;46599];
 [4881;4876;46640;46797;46799;46864;46858;46979;47125;47118;47116;47362;47358;47365;47381;47368];
 [47743;47735;47740;47746;47742;47736;47741;47737;47745;48203;48227;48228;48214;48212;48206;48144];
 [48207;48215;48222;48209;48234;48233;48813;48804;48812;48809;48814;16204;49488;49461;49458;49880];
 [49873;49871;49854;50133;50113;50118;50115;50114;50112;50117;50119;50111;50116;50132;50576;50642];
 [5454;50644;51119;51118;51122;51117;51356;51360;51382;51773;51798;51842;52008;52011;52284;52286];
 [52287;52290;52285;52289;52283;52297;52291;52537;52536;52770;52744;52748;52742;52755;52740;52768];
 [52765;52741;52746;52950;52951;53046;53047;53283;53282;53280;53274;53277;53532;53536;53623;53887];
 [53899;53885;53913;53892;53897;53893;53891;53894;53918;54099;54295;6036;54297;54304;54303;54307];
 [54296;54305;54313;54308;54310;54622;54639;54638;54644;54642;54643;54909;54910;54917;54911;54916];
 [55108;55285;55288;55299;55286;55592;6243;55609;55547;55566;55549;55583;6241;55555;14040;55568];
 [6234;55565;55591;55617;56178;56184;56192;6371;56197;56187;14460;56189;56209;56200;56234;56205];
 [56201;56213;56219;56204;56222;56188;56198;56196;56680;56773;56772;56777;56774;56898;56901;56897];
 [56900;56998;57026;57154;57161;57160;57162;57164;57163;57367;57368;57365;57426;57428;57427;57498];
 [57499;57564;57572;57745;6575;57786;16209;16219;16335;28165;19475;19477;19476;19491;531;19473];
 [19474;640;20464;20891;21522;21526;21527;21685;22516;23217;23673;24063;24060;24059;24383;24388];
 [24733;25650;25676;25643;25690;25887;26881;26925;26919;26969;26970;26957;26968;27427;27429;27435];
 [28159;28334;29387;29386;29392;29390;29388;29400;29382;29394;29391;29384;30231;6576;31684;52544];
 [31721;31730;31740;31722;31723;31741;32632;32631;32627;32670;32633;32930;33027;33284;33285;33742];
 [34239;35318;35319;35633;35632;35785;35783;36380;36392;36378;36382;36379;36383;37055;37051;37052];
 [37056;37402;37871;37868;37865;37872;37886;38196;39018;39061;39020;39026;39015;39008;39019;39006];
 [39023;39014;10566;39010;39005;39004;58213;39504;40095;3875;40094;40102;40501;40504;40502;40506];
 [40668;41852;41899;4169;41896;41895;42027;42028;42024;17451;42153;42154;42155;42232;42417;42480];
 [42479;43944;43915;43924;43934;43919;43912;43902;43905;43824;43931;43906;43920;43909;43903;43945];
 [43998;44301;4602;45007;45003;45016;45021;45011;45008;45013;45014;45270;45714;45717;57547;45709];
 [45723;45725;45711;45726;45734;45974;45970;46614;46634;46633;46636;46869;46866;46865;46867;46984];
 [46987;46986;46983;47127;47126;47130;47385;47383;47761;47764;48267;48272;48271;48262;48259;48270];
 [48263;48296;48261;48294;48258;48295;48825;48823;48820;48822;48819;48838;49468;49472;49464;49809];
 [49830;49882;50138;50136;50137;50139;50135;50710;50706;50719;5465;50708;50714;50704;51123;51374];
 [51393;51376;51375;51377;51373;51378;51396;52028;52031;52321;52326;52540;52539;52780;5758;52778];
 [52798;52783;52786;52775;52777;52800;52959;52958;53052;53051;53054;53281;53318;53308;53302;53304];
 [53301;53553;53558;53549;53555;53551;53550;53557;53932;53929;53926;6056;54348;54339;54337;54351];
 [54338;54353;6057;54336;54352;54341;54346;54347;54659;54658;54657;54752;54936;54943;54939;54938];
 [54937;54934;54958;54942;55305;55309;55630;55626;55629;55616;55614;55624;55618;55650;55621;55633];
 [56262;56272;56256;56247;56258;56252;56261;56284;56283;56274;56263;56246;56265;56268;56273;56269];
 [56282;56250;56275;56270;56310;56253;56285;56264;56333;56373;56689;56686;56687;56790;56908;56911];
 [56916;56915;57033;57032;57091;6484;57092;6486;57175;57170;57171;6509;57174;57180;57173;57444];
 [57437;57438;57506;57507;6542;57575;57574;57752;57772;57775;57774;16217;16553;17194;17351;19521];
 [19511;19509;19507;19513;19506;20479;20481;20472;21531;21529;22207;23228;23230;23229;23677;24390];
 [24391;24740;25889;25954;27014;1650;27439;27441;2068;29432;29429;29433;29426;29434;29427;29460];
 [29437;29455;29454;29441;29751;29749;29748;29745;30074;30075;30519;31787;31739;31766;31763;2451];
 [31761;31759;31771;31800;32676;33289;33287;33291;33747;33745;33752;34333;34473;34512;44309;35330];
 [35333;35329;35328;36398;36400;36399;36401;37074;37075;37890;38208;38210;38203;38350;39064;39055];
 [39060;39057;3695;39098;39056;39046;39066;39052;39059;39047;39048;39063;39053;39068;39101;39484];
 [39513;3760;40145;40123;40126;40285;40674;41221;41914;302;41972;42162;42233;42423;42422;43913];
 [44025;43993;44008;43988;43995;44002;43999;43985;44009;44010;44307;44305;45050;45048;45044;45051];
 [45070;45058;45071;45712;45741;45737;46152;46682;46671;46670;46677;46676;46666;46805;46872;46989];
 [47133;47129;47398;47400;47403;47485;47776;47770;47771;48309;48301;48306;48532;48841;49486;49487];
 [49476;49490;50153;50233;5481;13182;51399;51411;51398;51395;5556;51410;51814;52351;52352;52356];
 [52357;52451;5709;52545;52548;52547;52814;52815;5763;52809;52810;52811;52803;52960;52965;52961];
 [52966;52962;53004;53056;53321;53322;53332;53324;53333;53334;53563;53565;53924;53928;53955;53951];
 [53960;53954;53962;53964;53961;53950;53965;53959;53957;54109;6064;54380;54379;54384;54381;54383];
 [54409;54404;54669;54666;54670;54673;54965;54961;54959;54969;54967;54960;6156;55063;6168;55119];
 [55321;55312;55320;55313;55324;55314;55670;55665;14112;55674;55679;14114;55667;55723;14110;55671];
 [55668;55678;55707;55684;55676;56361;56363;56334;56320;56331;56318;56314;56343;56319;56332;56335];
 [6389;56322;56321;56316;56393;56326;56338;56339;56696;56923;56930;56927;56925;57003;57045;57044];
 [57043;57095;57196;57200;57198;57192;57197;57207;57194;57294;57324;57449;57448;57510;57513;57514];
 [57600;57613;57592;57596;57610;57591;57601;57782;57787;57783;57785;57802;16233;16677;19545;20487];
 [20489;21538;22023;22020;28175;22520;23239;23249;23678;24072;24394;58008;24505;27016;27025;27012];
 [26995;27017;27013;27443;28179;29469;29471;29468;29472;29466;29467;29753;29871;30181;30524;31799];
 [31802;32699;2574;33296;33293;34479;34577;3032;35341;35340;35339;35796;36413;36414;36411;36419];
 [36416;36422;36625;37085;37087;37098;37450;37894;39105;39097;39110;39096;39099;39112;39109;39103];
 [39111;39108;39525;39527;40151;40155;40148;40150;40680;41226;42429;42430;44058;44045;44047;44059];
 [44048;44049;44051;44312;45088;45087;45091;45085;45111;45093;45092;45098;45095;45107;45096;45108];
 [45754;11888;45981;46156;46684;46698;46685;46693;46691;46686;46873;46999;47423;47411;47410;47777];
 [47781;47780;47778;48321;5164;48327;48324;48326;48325;48340;48330;49491;50161;50209;5486;50871];
 [50834;51412;51780;52376;52379;52369;52373;52378;52370;52819;52823;5766;52828;52829;52836;52970];
 [52973;53058;53059;53348;53345;53344;53629;53972;53973;53977;54407;54425;54412;54410;54415;6067];
 [54411;54402;54427;6123;54984;54980;54988;54983;54979;54982;54987;54986;54985;54989;55123;55329];
 [55337;55325;55332;55336;14147;55729;55730;55733;55766;55727;55754;55736;58386;58385;56389;56391];
 [56372;56430;56386;56369;56366;56406;56376;56375;56395;56365;56371;56374;14560;56392;56796;6466];
 [56934;56941;56931;56932;6465;56935;57049;57099;57214;57227;57382;57388;57385;57455;57451;57453];
 [57454;57628;57617;57616;57636;57618;57621;57623;6572;16239;16555;17198;17353;18070;19589;20896];
 [21547;24077;27446;15101;1839;1838;28337;29514;29495;29500;29496;29498;29502;29513;2125;2171];
 [30080;30079;30179;30527;31826;31822;31818;31819;32725;34264;34336;34483;34481;34480;35351;35801];
 [36425;36627;37101;37099;37102;37898;37899;38218;39125;39127;39134;39132;39150;39536;3762;40153];
 [40663;41931;41927;42236;44091;44089;44107;44099;44096;44102;45133;45123;45127;45131;45141;45138];
 [46687;4898;46716;46715;47784;47785;48350;48343;48349;48342;48344;48539;48864;48872;48870;50168];
 [50171;50875;12889;50872;5488;51137;51136;52388;52395;52557;52837;52839;52842;52838;52841;53363];
 [53376;53359;53361;53988;53990;53991;54432;54436;54690;54695;54692;55006;55003;55128;55132;55343];
 [55342;55773;55780;55768;55783;55770;55669;6293;56441;56448;56447;56444;56437;56443;56450;6400];
 [56457;56436;56445;56442;56454;56488;56434;6402;56459;56465;56499;56449;56706;56801;56803;56802];
 [56950;56948;56946;56949;57102;57101;57236;57234;57235;57233;57231;57237;57296;57335;57462;57519];
 [6559;57638;57637;57645;57760;57795;16343;17868;19577;19578;20501;23259;23685;25712;25723;27045];
 [27039;28183;28338;29497;29504;29518;29758;30184;30183;31846;31841;32730;33300;33759;35352;35641];
 [35642;37424;37426;37902;38220;39144;39153;39147;39148;39540;39539;40177;40514;40510;40513;41004];
 [41938;42171;44120;44119;44118;44122;4477;45153;45160;45157;45151;45156;45150;45147;45159;45763];
 [45986;46163;46717;46880;47790;47791;47792;48359;48358;48361;48881;48875;48874;48873;49507;50178];
 [50174;50910;51138;51430;51805;52397;52853;52850;52855;5878;53585;53992;53997;53998;54457;54433];
 [54454;54702;55016;6162;55070;55345;55346;6289;55822;55826;55817;55813;6288;55811;55839;55821];
 [55820;55812;55818;56514;56511;56521;56498;56513;56495;56500;56496;56502;56503;56507;56497;56816];
 [56952;56954;56953;57060;57062;57247;57245;57240;57241;57337;57392;57474;57473;57523;57471;57658];
 [57662;57672;19590;21558;22035;22306;23261;24743;25725;1657;28188;29541;29536;29543;2126;30234];
 [34275;37428;37912;38226;39164;39545;39544;39542;40186;40184;41005;41942;42173;42175;42174;44100];
 [44144;44130;44142;45166;45180;45172;45176;45168;45177;45169;45772;45991;45990;46739;46881;47004];
 [48541;48884;48883;51440;52408;52406;52413;52851;52866;53383;53590;53593;54006;54473;54469;54471];
 [54474;54466;54468;55026;55024;55355;55354;55846;55848;55860;55853;56535;56530;56534;56540;56531];
 [56529;56710;6430;56815;56814;57064;57260;57257;57258;57259;57339;57395;57480;57526;57527;57552];
 [57551;57679;57689;57676;22040;23264;29545;31859;31858;34280;37115;37916;39177;39178;39176;39549];
 [39551;40295;44154;44155;45777;58315;46749;47005;48380;48379;48381;48885;48886;50959;50973;52423];
 [52417;52415;52564;52863;52981;53386;53388;53596;54117;54479;54480;54712;55034;55142;55872;55873];
 [14194;56567;56563;56559;56564;56557;56562;56561;56569;57268;57340;57532;57694;57691;57695;57693];
 [57807;57806;21562;23265;24085;24084;31864;31865;32742;34488;35362;37118;41947;42246;42440;44169];
 [45190;45997;46745;46808;46883;47139;47797;48889;50183;50974;51451;51826;51827;52871;53065;53597];
 [54008;55043;55886;55885;55888;55893;56585;56583;56588;56579;56582;56587;56586;56713;57275;57343];
 [57398;57483;57702;57705;57703;57794;57810;23266;1064;25736;28251;29558;31869;32934;36442;39191];
 [41948;44175;45204;45205;47798;48388;49902;52874;52985;55047;55071;55082;55365;55900;55899;55905];
 [55901;56600;56607;56963;57110;57108;57279;57280;57715;57792;20503;25737;37918;37919;38228;39192];
 [40197;44181;45208;45211;46169;48392;48897;52430;52986;54718;55367;55914;55913;55912;55911;56613];
 [56616;57284;57399;57485;57484;6545;58144;39202;39554;45785;51000;52987;54497;55154;55368;55916];
 [55920;56625;56624;57721;39203;41976;55156;55923;56628;56967;57010;57538;57725;23269;52876;55927];
 [55925;56632;56634;57731;57729;31872;44185;4487;53066;55370;56636;57800;37124;45999;57737;56826];
 [53601;56639;44179;57289;45790;52881;57742;57741;44184;42181;57765]].

(* lib/converters/cns11643_5.h:1225-1256 cns11643_5_2uni_upages *)
Definition cns11643_5_2uni_upages : tab := mk [
 [13312;13568;13824;14080;14336;14592;14848;15104;15360;15616;15872;16128;16384;16640;16896;17152];
 [17408;17664;17920;18176;18432;18688;18944;19200;19456;19712;20992;22784;24064;24320;24832;25344];
 [25600;27392;29184;29440;29952;30208;30976;31232;31488;31744;33536;34304;34560;34816;35072;35328];
 [35840;36352;37888;38144;38656;39168;39680;39936;40192;40448;65280;131072;131328;131584;131840;132096];
 [132352;132608;132864;133120;133376;133632;133888;134144;134400;134656;134912;135168;135424;135680;135936;136192];
 [136448;136704;136960;137216;137472;137728;137984;138240;138496;138752;139008;139264;139520;139776;140032;140288];
 [140544;140800;141056;141312;141568;141824;142080;142336;142592;142848;143104;143360;143616;143872;144128;144384];
 [144640;144896;145152;145408;145664;145920;146176;146432;146688;146944;147200;147456;147712;147968;148224;148480];
 [148736;148992;149248;149504;149760;150016;150272;150528;150784;151040;151296;151552;151808;152064;152320;152576];
 [152832;153088;153344;153600;153856;154112;154368;154624;154880;155136;155392;155648;155904;156160;156416;156672];
 [156928;157184;157440;157696;157952;158208;158464;158720;158976;159232;159488;159744;160000;160256;160512;160768];
 [161024;161280;161536;161792;162048;162304;162560;162816;163072;163328;163584;163840;164096;164352;164608;164864];
 [165120;165376;165632;165888;166144;166400;166656;166912;167168;167424;167680;167936;168192;168448;168704;168960];
 [169216;169472;169728;169984;170240;170496;170752;171008;171264;171520;171776;172032;172288;172544;172800;173056];
 [173312;173568;194560;194816;195072]].

(* lib/converters/cns11643_6.h:30-916 cns11643_6_2uni_page21 *)
Definition cns11643_6_2uni_page21 : tab := mk [
 [51458;13154;5;13192;13264;13263;13342;13343;13344;15374;15404;13153;13060;13061;13059;4];
 [51457;13181;13197;13475;13476;14299;14336;51486;14755;15154;319;15828;15829;20003;21804;21882];
 [14339;13063;13064;13199;13212;13269;13330;13331;13332;13345;13480;13478;14198;14337;14397;51476];
 [14398;14633;14711;14712;14758;14761;14764;15156;14340;15483;15632;14639;15831;15900;15903;15898];
 [51510;15902;16030;16026;17312;17313;18386;18387;19385;19741;19797;20223;20967;1066;21009;21011];
 [21010;21423;21425;51600;21805;21883;21917;21914;1191;21919;21920;21916;22205;1274;22442;25196];
 [25233;28020;30058;51753;34309;36715;36714;13280;13074;0;13183;13216;13209;13205;13214;13279];
 [13278;13487;13485;13488;14303;14403;14401;14408;14453;51482;14642;14715;14713;14771;219;16039];
 [14770;14768;14772;51497;15309;15310;51499;15376;15488;15571;15664;13208;15663;15665;15834;15833];
 [15911;15912;15905;15909;16038;16034;16033;16036;51513;16042;16037;16035;13156;17471;17476;18203];
 [18259;18308;18310;18389;51552;19262;19264;19914;19913;20006;20224;20273;20284;20272;20275;20274];
 [20280;21044;21075;21076;21428;21426;21807;21925;21927;21924;21928;21929;21922;21923;21926;22145];
 [22144;22445;23588;23653;23656;23657;25404;25403;25949;27204;29058;29937;30059;30491;30955;31674];
 [31699;32019;35106;38900;43791;43792;14343;49419;49418;13081;13082;13080;13158;13186;13224;13285];
 [13287;13284;13333;13347;13348;13379;13507;13500;13499;56;13495;13497;13519;51469;14202;14203];
 [14305;14304;14345;14413;51478;14411;14457;14513;14646;14645;14647;14648;14719;14720;14721;38483];
 [14718;14797;14783;14782;14786;14776;14785;8240;15409;15407;15471;15490;314;15495;15494;15501];
 [15508;15575;15572;15576;15638;15636;15662;15670;15671;20974;15840;15845;15839;15915;15913;15917];
 [15919;16055;16073;16065;16074;16050;16044;16046;17330;17320;17328;17319;51537;17490;17482;18262];
 [18261;18271;18270;18312;51549;18397;18402;18401;18399;18400;18607;18609;18618;19269;19267;19389];
 [19400;51564;19390;19391;51572;19801;20009;20012;20015;20013;20014;20228;20226;20225;20288;20298];
 [20287;20303;20289;20302;20971;20972;13228;21083;21091;21082;21081;21468;21467;21465;21472;21469];
 [13088;21936;21937;21938;21942;22097;22098;22096;22148;1225;22147;22467;22456;22457;22450;23440];
 [23590;23593;23662;25408;25406;25409;25950;26043;26044;26041;51695;27008;2127;27205;27322;27325];
 [27990;27989;28021;28023;28033;51706;28035;28043;28036;29062;29059;29067;30061;30230;30504;30954];
 [31700;31747;32021;32573;32574;33814;51788;34310;34637;36642;36723;36717;36718;37297;14414;37677];
 [4045;38393;38482;38912;38908;38906;4242;38903;38904;51856;51908;42535;43793;13230;44368;44367];
 [44365;44913;51938;44914;46360;15684;13089;13159;13231;13232;13097;13335;13346;51459;13093;13352];
 [13567;13529;13531;13534;13554;13566;13556;13533;69;51460;13569;13532;14205;14209;14206;14207];
 [14309;14351;181;14346;182;14347;14417;14418;14416;14520;14653;14654;14652;14727;14807;14811];
 [14799;14816;15180;15170;15316;15377;15380;15381;15378;15411;15413;311;15473;304;15505;15507];
 [15509;15580;15682;15680;33702;15846;17551;15922;51511;15921;16117;16077;16094;16085;16090;16110];
 [16108;16079;16078;51517;16076;16115;17345;17348;17350;17332;17347;17336;17339;17335;17340;17343];
 [17351;17342;17504;17501;17526;17516;17525;17499;17521;17523;17505;17498;17506;17522;17503;17496];
 [18206;18264;18315;18314;18420;18416;18642;18637;18638;18620;18640;19270;19271;830;845;849];
 [19406;19407;19404;19403;51570;19808;19807;19805;19924;20026;20024;20028;20022;20232;20350;20318];
 [20334;20307;20336;20311;20317;20323;20346;20345;20371;51585;21021;21096;21107;21108;21094;21103];
 [21109;21114;21104;21101;21093;21386;21485;21481;21475;21487;1139;21482;21809;51601;21816;38944];
 [21813;21818;21889;21888;21944;21953;21946;22152;22223;22218;22215;22213;22216;22224;22217;22459];
 [22454;22461;51613;22452;22465;22481;22482;22476;22484;22475;22478;22485;22488;23445;23443;23449];
 [23446;1470;23689;23700;23697;23695;23684;23703;23686;23685;23692;24818;24813;24815;25305;25414];
 [25415;25419;25424;25418;25422;25420;25416;25955;25953;25954;25952;26051;26053;26049;26064;51676];
 [27010;2078;27014;27012;27212;27208;27320;27327;27329;27334;27333;27335;27328;27331;27629;27651];
 [27682;27681;28063;28048;28062;2248;28064;28052;28053;28065;2243;2247;29082;29072;29938;29939];
 [30062;30123;30121;30234;30232;30235;30560;30540;30530;30515;30527;30526;30520;30531;30534;30518];
 [30958;30965;30964;2902;31771;320;32043;32041;32042;32046;32831;32998;33703;33704;33816;34312];
 [34640;34643;35414;35413;36719;36735;37299;37690;37688;37687;37686;14420;51840;38365;38396;38394];
 [38451;38916;38919;38920;38918;38921;51857;51859;40222;51922;44299;44355;44370;44376;44382;44904];
 [44941;44930;44923;45912;5565;51456;13100;13102;18443;13101;13161;13234;13238;13225;13293;13337];
 [13391;13590;13571;13582;13572;13575;13584;13607;13608;13581;13609;13583;13602;13585;14213;14212];
 [14211;14218;14214;14352;14424;14426;14860;14532;14533;14663;14665;14666;14667;21435;14733;14731];
 [14855;14854;51488;14831;14832;14829;14841;14850;14823;14836;14839;14833;15187;15189;282;15322];
 [15321;300;15416;15513;15522;15516;15514;15515;15589;15587;15585;15584;15586;15588;13053;15592];
 [51503;15635;15702;15691;15690;15693;15692;329;15850;15849;15851;15852;15930;15932;15929;15931];
 [16148;16142;16181;16138;16191;16184;380;16206;16151;51519;16158;17334;17358;17354;17355;17356];
 [17353;17588;17580;17544;17542;17548;17555;17546;17572;17543;17573;17574;17541;17571;17550;18207];
 [18275;18317;18426;18427;18441;18430;18431;18434;18436;18429;18437;18681;18679;18651;18650;19281];
 [19280;19287;19426;19416;19418;19420;19744;19743;19817;19933;20032;20033;20035;20237;20236;20359];
 [20393;20370;20357;959;20364;20386;20367;20362;954;20365;20977;21047;21131;21127;21122;21390];
 [21436;21496;21498;21483;21497;21500;21509;21787;21789;21790;51602;21820;21822;21892;21960;21961];
 [21971;21959;21970;22101;51606;22156;22154;22229;22227;1240;22232;22480;22510;22513;22523;22483];
 [22508;22477;22549;22566;22542;22567;22570;22528;22532;22568;22536;22548;23451;1458;23457;23453];
 [23456;23454;23458;23452;23602;23604;23699;23702;23696;23732;23733;51638;23734;23746;51637;23738];
 [23698;24827;24837;24819;24830;24829;30045;24826;25155;25237;25236;1732;25455;25459;25436;25435];
 [25446;25460;25443;25447;25440;25442;25457;25458;25438;25891;25894;25956;51670;26098;26113;26077];
 [26076;26075;26099;26109;26072;26104;26107;27011;27020;27022;27209;27220;27218;27214;27224;27217];
 [27221;27219;27223;27216;27215;27213;27346;27347;27337;27348;27631;51704;13233;27653;27652;27694];
 [27693;27973;27995;27994;27993;28061;28046;28092;28125;28090;51709;28120;28107;28121;28122;28100];
 [28088;28095;28123;28097;51708;28101;51737;29105;29103;51736;29943;29942;29944;30032;30033;30065];
 [30064;30128;30127;30126;30125;30245;30252;30242;30259;30260;2603;30522;30528;30568;2657;30564];
 [30556;30551;30547;30543;30545;30548;30566;9181;2738;30989;30984;51755;30970;31466;31530;31675];
 [31701;31703;20388;13296;13237;31750;31784;31778;31777;22102;31779;17357;32048;32052;32713;32714];
 [32712;51773;32836;33011;51777;33016;33020;33014;33019;33015;33024;33026;51776;51789;33828;34317];
 [3369;34658;35120;35115;35114;3474;35117;35546;35880;36230;36727;36732;36944;36942;37106;37298];
 [37326;37327;37349;26119;37429;37425;37651;37675;37676;37701;37728;37697;37720;37703;37723;37712];
 [51842;37727;37706;37718;37699;37700;37713;38397;38452;38453;38484;38485;38668;38667;38666;38905];
 [38965;38948;38931;38940;39017;38949;38945;51861;51862;51864;40224;40873;40872;40926;40969;40970];
 [40971;41443;41479;41650;41651;41821;43096;43142;43143;43449;43448;44300;44356;44390;44416;44405];
 [44397;44414;44391;44417;44407;44968;44962;44965;44955;45911;46351;46386;46380;46387;47335;13166];
 [13239;13302;13298;13299;14359;13360;13396;13395;13650;13629;13628;13620;13619;13652;13615;88];
 [13653;13631;13623;13654;13665;13656;51462;13627;13618;13614;13630;13115;14220;14221;14355;14358];
 [14354;14427;14474;14551;14542;14672;14673;14671;14734;14735;14834;51489;14888;14874;14885;14877];
 [14868;14880;14879;14875;14871;14869;14876;14867;51493;15200;284;15206;15331;15326;15328;15329];
 [15386;15387;15384;15388;15385;15426;15424;15422;15428;15476;15427;51501;15602;15643;15641;15646];
 [51504;15710;15718;15709;15706;15711;15712;15707;15708;15705;15856;15857;15939;15936;15938;15937];
 [15935;16215;16233;16239;16299;16241;16275;16214;16272;16237;16236;16240;16230;16231;17367;17333];
 [17371;17368;17365;17364;17594;17591;17598;17593;567;17632;17629;17630;31000;17624;17597;17627];
 [18205;18213;18721;18700;18729;18733;18715;18702;18719;18692;18716;18693;18694;18720;18701;18730];
 [18723;18705;19292;19302;19291;19279;19294;19293;19441;19434;19444;19435;19440;19450;19451;19752];
 [19756;19819;19754;19818;19823;19931;19936;32721;19939;19941;19943;20045;20053;20052;20051;20050];
 [20046;20064;21440;20239;20241;20243;20422;20403;20423;20434;20408;20396;20398;20431;20421;51579];
 [20428;20395;20425;20409;20987;20984;20983;20985;21024;21051;21049;21150;21146;21162;21163;21167];
 [21142;21161;21158;21137;1091;21166;21151;21164;21152;21394;21393;21439;21527;21514;21516;21834];
 [21830;21812;21829;21827;21828;51603;21895;21894;21898;21978;21976;1204;14360;13364;21974;21972];
 [22100;22105;22106;22103;1248;22237;22249;22240;22533;22546;22547;22535;22550;22563;22530;51617];
 [22602;22582;22592;22614;22595;51616;22603;22598;22590;22601;23463;23478;23462;23464;23468;23465];
 [23467;23608;23607;23609;23617;23614;23744;23739;23743;23741;23806;23838;23790;23804;51639;23801];
 [23814;23780;23785;23781;23811;23805;23881;24766;24842;34342;24856;24845;24847;24846;24864;25201];
 [25241;25314;25311;25310;25464;25465;1764;25468;25469;25476;25483;25482;51666;25481;25900;25897];
 [25964;8452;26121;26120;26124;26125;26128;2086;27039;27032;27042;27034;27349;27362;27376;27370];
 [27371;27373;27368;27360;27525;27526;27632;20550;27717;27704;27710;27714;27712;27975;27996;27998];
 [28084;28098;28180;28133;28181;28177;51711;28142;28135;28149;28148;28136;28161;28143;28145;51712];
 [29147;29119;29146;29127;29149;51738;29163;29153;29121;29117;29959;29949;29953;29962;29955;30066];
 [30068;30069;30130;30129;30132;30284;30274;30272;30281;30268;30285;30282;30267;30561;30580;51750];
 [30591;30586;30600;30588;2671;30576;30991;31016;30995;31018;31469;31471;31534;31681;31709;15943];
 [31789;31787;31797;31791;31793;31796;51765;31792;32058;32057;32055;32075;32084;32077;32081;32071];
 [32551;32592;32589;32590;32596;32722;32718;32843;32841;33029;33039;33049;51779;33030;33036;33065];
 [33028;33032;33061;3100;33027;33063;33040;33034;51778;39005;33706;33707;33705;33857;33850;33852];
 [33835;33865;34325;3328;34326;51795;34353;27978;34620;34684;34669;34666;34659;34667;34683;34660];
 [34682;34665;34671;35127;35125;35132;35126;35133;35134;35553;35552;35885;35883;36237;36242;3766];
 [36238;51819;36241;36246;36731;36728;36737;36758;36771;36757;36759;36948;36946;37109;37120;37115];
 [37108;37110;37352;37354;37694;37693;37691;37760;4068;37768;37761;37762;37838;37763;37751;37753];
 [37747;37741;37744;37773;37749;37772;37738;37777;37769;37774;17628;38399;38489;38599;38674;38676];
 [38675;38859;38978;4269;38973;11007;38976;38980;39010;38979;38975;38981;38972;51863;38982;38983];
 [51891;40094;40093;40236;40233;40239;40238;40240;40929;40930;40974;40985;40978;41652;42458;42790];
 [43097;43098;43144;43456;43450;43936;51933;43938;44422;12268;44445;44424;44431;44430;44443;44993];
 [44995;44996;44950;44999;44998;44991;5315;45583;46421;46402;46406;46411;46403;46419;46408;46409];
 [46410;46414;31710;14737;47947;48512;48513;48515;13706;48514;21826;15394;13168;13169;13244;20248];
 [13246;13242;13304;13367;13365;15868;13398;13401;13406;13677;13713;13714;13672;13670;13683;103];
 [13718;13707;13708;14230;14318;14364;14362;14361;14363;14429;14430;51480;14556;14562;14674;14738];
 [14896;14930;14914;14913;14917;14903;14912;14911;14909;14904;14906;14921;15211;15224;15225;51494];
 [15212;15337;15334;15333;15338;15335;15336;15391;15435;15434;15443;15478;15523;15524;15606;15603];
 [15609;15607;15612;15645;15725;15729;15724;15726;15728;15727;15719;15720;15866;15865;15950;6622];
 [15949;15951;15946;15948;406;51522;16366;16306;16320;16321;16372;16328;16325;16326;16301;17378];
 [17386;17379;17377;17655;17665;17682;17654;17649;17695;17646;51538;17651;17685;17686;17687;17656];
 [17689;17650;17652;17653;17683;17670;18214;18212;18266;24776;18327;18325;18330;18463;15867;18473];
 [18464;51554;51555;18764;18736;18744;18749;18769;18767;18762;18740;18742;6960;19306;19304;19484];
 [19470;19486;857;19465;19464;19475;19457;19471;19476;19462;19463;7346;51571;886;19833;19946];
 [19949;19945;19950;20072;20068;20071;20082;20066;20084;20089;20249;20247;20245;20246;20454;36772];
 [20462;978;20447;20452;20442;20458;20461;20451;20457;20989;14679;21025;21190;21176;21195;51589];
 [21181;21173;21179;21183;21182;21170;21185;21186;21401;21446;21548;21549;21541;21534;21535;21539];
 [21840;21838;21837;21842;21993;21996;21992;22104;22108;22107;22159;27250;22262;22272;22268;22264];
 [22250;22270;22263;22269;22640;22626;22596;1312;22605;22604;22591;22630;22581;1321;22580;22669];
 [22660;1336;22662;22665;22663;22659;22645;22649;22703;22704;23479;23483;23481;23622;23623;23621];
 [23786;23798;23912;23865;51641;23869;23867;23885;23856;23882;23870;23872;23884;23879;23864;23890];
 [23866;23891;24772;24769;24860;24861;24874;24862;24879;24866;24878;24869;1673;1712;25162;25163];
 [25206;1727;25320;25327;25321;1733;25322;51660;1770;25499;25502;25491;25511;25500;25504;25498];
 [25515;25534;25513;25901;25966;26180;26173;26170;26216;26172;26218;51680;26168;26213;26169;26221];
 [26166;51683;26174;26238;26167;27033;27049;27053;27047;27048;27238;27241;27245;27239;27243;27242];
 [27374;27393;27395;27380;27387;2103;27382;27388;27636;27656;27658;27657;27757;27746;27713;27742];
 [27740;28147;28198;2276;28217;51716;28268;28203;28206;28219;28254;28411;28199;28196;28265;28208];
 [51717;28258;28216;28213;28202;28204;28264;28209;28207;28205;28218;28214;51715;28193;28220;28192];
 [28260;28222;2280;29175;29202;29169;29173;29218;29170;29151;29205;29206;30074;30070;30142;2592];
 [30141;30217;30216;30295;30627;30655;30648;30639;30620;30629;30578;30581;30621;30617;30649;31054];
 [31033;31035;31029;31036;31061;31472;31475;31476;31547;31548;31546;31542;31751;16363;31829;31824];
 [31823;31826;31830;13245;31794;32099;32107;32102;32087;32093;2950;32109;32097;32105;32090;32092];
 [32098;32554;32553;32600;32602;32727;32731;32732;32733;32728;32852;32859;32860;32851;32847;32854];
 [32848;32858;32875;33078;33107;33082;33084;33086;33097;33088;51782;51783;33636;33637;33717;33718];
 [33714;33864;33866;33906;33897;33882;33868;34348;34352;34379;34377;34370;34372;34378;34383;34706];
 [51799;34711;34688;34690;34694;35155;35166;35154;35163;35150;35437;35438;35578;35574;35579;35891];
 [35901;35895;35902;35893;36250;36267;36262;36272;36249;36256;36254;36264;36257;36266;36269;36283];
 [36252;36261;13235;36647;36749;36750;36751;36754;3926;36753;36781;36951;36952;36958;36957;36956];
 [36955;3943;37130;37123;37134;37304;37453;37439;37447;37451;37450;37437;10296;37441;37452;10369];
 [37730;37737;37729;4049;37802;37798;37804;37821;37819;37796;37818;37786;4075;37793;37825;38368];
 [38410;38403;38406;38457;38458;38454;38491;38495;38494;38503;38497;38498;38493;38602;38604;38606];
 [38680;38685;38687;38688;38679;38677;38943;38951;38950;20496;39051;39086;39050;51865;39058;39049];
 [39047;4278;39055;39044;39043;39052;39059;39053;39064;39037;39038;39122;39040;39065;40108;40272];
 [40277;40258;40255;40252;4515;40268;40265;40279;40280;40271;40284;40263;51895;40875;4624;40879];
 [40877;40936;40935;41008;40998;41007;41000;41003;40989;41005;40992;41002;41004;41013;40993;40995];
 [40996;41014;41015;41449;41658;41656;51916;41837;41834;41832;41833;41835;41825;42460;42459;42541];
 [42540;42658;42795;42802;51927;43156;43154;43152;43465;43460;43457;43459;43469;43796;43943;43951];
 [43946;44301;44372;44379;44385;44462;44467;44480;44484;44479;44491;44461;44455;44452;44477;44463];
 [44466;44453;45031;45024;45006;45022;45013;45023;45017;45298;45603;45632;5403;45630;5511;46031];
 [15956;46427;46424;46434;46431;46439;46435;46430;46432;46725;46726;46727;47336;47334;48497;48517];
 [51970;48518;48656;15608;13247;15969;13310;13308;13369;13409;13408;13794;13802;13795;13748;13742];
 [13758;13752;13736;13738;13737;13747;13781;13741;13753;13755;13745;13762;51464;13803;13754;13778];
 [13780;14321;14365;51474;14434;14476;14566;14567;14682;14680;14681;14742;14743;14945;14951;14961];
 [14949;14973;14974;15229;15236;15228;15230;15231;15232;15343;15348;15390;15438;15611;15610;15613];
 [51505;51506;15737;15740;15741;15748;15739;15736;343;15966;15962;15964;15961;15957;15971;15958];
 [15967;15968;15963;16458;16485;16563;16428;16503;16445;16466;16481;16426;16446;16436;16425;16562];
 [16557;16448;16467;51524;16447;16449;16498;17398;17397;17396;17394;17401;17703;17748;17749;17710];
 [51540;51539;17708;17720;17721;17713;17743;17779;17712;17707;17745;18220;18267;18268;18280;18284];
 [18283;18281;18335;18488;18492;18490;18485;669;18489;18486;18491;18784;18785;18787;18788;18836];
 [18835;18782;18792;18794;18789;51558;18832;18783;18802;51557;19516;19495;19492;19494;19493;863];
 [19496;19510;19761;19760;19764;19841;19837;19842;19840;889;13779;19954;20070;20108;20091;20099];
 [920;20110;20090;20114;20113;20098;20251;20252;20519;20513;988;7467;20547;991;20504;20603];
 [20506;20555;20554;20557;20559;20505;20533;20499;20562;20500;20510;20524;20512;20514;20498;20511];
 [20992;21027;21056;21059;21220;21211;21226;21213;21196;21209;21224;21238;21219;21203;21210;21206];
 [21223;21562;21567;21568;21576;21593;21559;21572;51596;51595;21589;21561;21844;21845;21846;21847];
 [21848;21849;21901;22002;22008;22005;22006;22012;22014;22001;22013;22110;22166;22167;22172;22171];
 [22165;51610;22298;22281;22276;22286;22300;22296;22285;22288;22284;22275;22651;22694;22647;22664];
 [22644;22746;22646;22648;22666;22671;22653;22672;22765;22745;22736;22810;22743;22754;22753;22725];
 [22752;22730;22821;22732;51635;23494;23489;23629;23883;23908;23957;23961;51644;23956;23970;23982];
 [23966;23975;23942;1533;23972;23953;23955;51643;23944;24781;24778;24895;24896;24902;24897;24901];
 [24920;24891;24904;25166;25170;25167;25211;25210;25248;25247;25339;25335;25528;25529;25531;25527];
 [1780;25530;1775;25562;25525;25535;25532;25536;51667;51673;25973;25977;25974;26165;26176;26304];
 [26241;26285;26287;26284;26255;26280;26282;26281;26248;26239;26240;26300;27054;27067;27069;2097];
 [27256;27252;27404;27409;27400;27398;27408;27535;27536;27533;27534;27542;27541;27659;27660;27772];
 [27763;27765;27766;27773;27768;27761;27979;27982;28211;28210;2307;28305;28391;28393;28322;28308];
 [28295;28323;28381;28283;28291;28289;28383;28284;28388;28386;28307;28285;28351;28315;28302;28319];
 [2313;28300;28287;28316;28292;28226;28390;29265;29258;29284;29221;29231;29230;29227;29224;29234];
 [29229;29233;29241;29228;29281;29969;29968;29970;30035;30037;30075;30081;30077;30076;30146;30149];
 [51746;30148;51747;30315;30312;2622;30300;30301;30314;51748;31862;30582;2679;30660;30667;30664];
 [30676;30677;30665;30679;2683;31096;31066;31067;31068;31062;31064;31089;38612;31552;51763;31551];
 [31555;31553;31714;31712;31715;31846;31859;31852;31857;31850;31853;31854;31851;32140;32119;51770];
 [32127;32137;32122;32133;32120;32138;32134;32556;32615;32603;32741;32737;32865;32873;32874;33125];
 [33133;33123;33158;33116;33122;51784;33145;33129;33136;33142;33117;33159;33134;33137;33148;33139];
 [33115;33131;33727;33729;33725;33737;33724;33730;33728;33938;33961;33935;33910;33915;33909;33956];
 [34404;34621;34735;3386;51800;34717;34713;34737;35171;35170;35172;35177;3488;35445;35443;35441];
 [35444;35596;35606;3557;35601;35615;35610;35597;35611;35603;35918;35925;35920;3709;36306;36307];
 [36305;36337;36316;36296;36300;36304;36303;36319;36651;36654;36653;36765;36766;36767;36777;36768];
 [36760;36769;36779;36783;36974;36959;36954;3949;36965;36968;36978;37143;37142;37144;37145;37146];
 [37154;37147;37148;37310;37358;37466;37456;37464;37460;37463;37462;37653;37787;37779;37778;37746];
 [37784;37785;37855;4088;37845;10584;37844;37875;37876;37863;37857;37862;37867;37868;13787;4176];
 [38413;38412;19759;38504;38501;38507;38505;38609;38611;38695;38696;4200;4199;38692;38871;39114];
 [39111;51870;39128;39137;39110;39160;39107;39156;39191;39146;39115;39046;39108;39129;39193;39106];
 [39138;4303;39134;39149;51868;4301;39197;39133;39131;39144;39145;39103;39136;39121;39132;39118];
 [39198;39116;39154;39155;51871;51874;51875;51873;40107;40106;40103;40105;40328;40309;40288;40300];
 [40307;4523;40302;40308;40310;40296;40311;40326;40938;41041;41040;41048;41037;41039;41038;41052];
 [41042;41028;41034;41035;41450;41488;41489;41677;41663;41668;41680;41678;41664;41666;41679;41673];
 [41659;41879;41874;41839;41854;41882;4801;41862;41843;11556;41847;41871;41840;41857;41858;41881];
 [41853;41855;41851;41863;42418;42543;42548;42542;42546;4935;42666;4951;42665;42808;42806;42807];
 [42823;42803;42809;42805;42820;43173;43174;43166;43491;43487;43475;43505;43492;43488;43478;11971];
 [43494;43480;43486;43483;43484;43803;43807;43805;43804;43806;43808;43809;5198;43958;43964;43974];
 [43975;43962;43966;43965;43957;43956;44303;44386;44523;44505;44516;44503;44504;44502;44494;44509];
 [44519;44498;44485;44489;44507;44946;44938;44939;44937;45064;45059;45062;45061;45045;45067;45051];
 [45308;45313;45314;45306;45320;45303;45312;45311;45318;45302;45307;45322;45605;45635;45636;45924];
 [45922;45918;45915;46038;13170;13250;46455;46466;46460;46461;46470;46465;46468;46454;46467;46463];
 [46462;46728;46733;46731;46737;46735;46972;46969;46970;47338;47948;48281;13777;48523;48525;48522];
 [48526;48657;21590;51989;13172;13251;13252;13339;13407;13418;13417;13419;13836;13814;13805;13865];
 [13822;13809;13847;13823;13806;13821;13852;13820;13824;13856;119;13817;13927;13832;14238;14323];
 [14373;14375;14367;14437;14435;14484;14487;14577;14687;14690;6386;14688;51490;14988;14978;14992];
 [14987;14989;14977;15005;15246;15247;15250;15395;15442;51502;15616;15617;15618;15647;15756;15753];
 [15755;15752;15757;15759;36997;15872;15877;15873;15976;15982;15975;15989;6838;51525;16599;51526];
 [13128;16596;16600;51527;51528;16570;51529;16603;16575;16693;16572;16601;452;16605;16640;16597];
 [16688;16573;16604;17405;17406;17415;29975;17775;17769;17776;17767;17833;17813;17808;17772;17815];
 [17777;594;17780;17773;17806;18223;50715;18345;18510;51551;18522;18504;18517;18508;18505;18511];
 [18506;18902;18848;18857;51559;18845;18900;18852;18856;18854;18918;19325;19319;19322;19521;19529];
 [19545;19525;19528;19520;19854;19861;19856;19959;19960;19958;19963;20126;20125;20121;51575;20131];
 [20137;20120;20128;20118;20116;20117;20127;20129;20257;20253;20255;20589;51580;20634;20626;20602];
 [20605;20641;20637;20633;20587;20590;51581;21061;51588;21243;21227;21234;21241;51590;21240;21229];
 [21249;21239;21254;21403;21450;1131;7875;21611;21612;21620;21607;21595;21600;21622;21603;21601];
 [21800;21851;21854;21856;21853;21852;22004;22016;22024;22023;22017;22021;22116;22115;22174;22176];
 [22177;22175;22310;22317;22312;22301;22764;22755;22763;22806;22728;37659;22761;22756;22820;22737];
 [1345;22749;22722;22731;22727;22759;1360;22762;22859;51621;22880;22909;22846;51620;22866;22862];
 [22844;22834;22832;22819;23498;23499;23497;23496;23501;23960;23968;23967;23964;23971;23959;51646];
 [24049;24073;24067;24042;24133;24045;24069;24090;24085;24065;24044;24078;24087;24130;24082;24080];
 [24047;24063;24064;24076;24079;24068;24072;24084;24131;51645;24091;24081;24083;24783;24782;24943];
 [24942;24954;24944;24932;24926;24940;51657;24923;24929;24933;25215;25216;25212;25255;25254;25249];
 [1728;25256;25251;25250;25261;25253;25345;25343;25340;25344;25397;25582;25583;25590;25576;25578];
 [25571;25631;1788;25572;25594;25585;25595;51668;25917;25916;121;25976;25975;4107;26321;26311];
 [26335;26320;26336;26326;26328;26390;26382;26329;26383;26385;26317;26249;26318;26388;26330;26386];
 [26323;26306;26337;26345;26346;26334;26389;27097;27094;27085;27088;27091;51696;27266;27269;27263];
 [27261;27265;27267;27268;44448;27432;27407;27415;27418;27429;51703;27547;27545;27794;27788;27797];
 [27789;27811;27795;27793;28379;28313;28314;28424;28492;28429;28417;28494;28418;28493;28449;28412];
 [51721;28298;51720;28309;28433;28434;28486;28444;28489;28428;2334;28435;28438;28413;28431;28447];
 [29232;29294;29291;29339;29307;29283;29335;29293;29340;29336;29295;29287;29289;29973;30051;30086];
 [30090;30087;30088;30085;30089;30154;30151;30155;30156;30153;30221;30339;30340;30328;30338;30323];
 [30329;30348;30672;30671;30674;30681;30668;30699;30717;30700;30696;30712;30714;51751;2693;30689];
 [30715;30951;51758;31141;31121;31142;31100;31122;31138;31136;31484;31486;31575;31571;31576;31719];
 [31886;51768;31875;31883;31876;2967;32162;32183;32169;32165;32159;32170;32151;32161;32158;32171];
 [32153;32163;32560;32562;32559;32624;32620;32623;32744;32750;32746;32877;32886;32880;32881;32876];
 [33259;33205;33174;33168;33165;51785;33186;33200;33170;33184;33171;33219;33166;33206;33181;33173];
 [33203;33188;33648;33748;3219;33743;13424;33940;9569;33984;33972;33985;3250;33981;33967;34423];
 [34424;34411;34413;34414;34418;34415;34417;25259;34444;34623;34742;34743;9734;34747;34744;15004];
 [34745;9729;35211;35194;35204;35208;35217;35193;35214;35200;35202;35196;3492;35460;35455;3570];
 [35643;35697;35645;35632;3569;35646;35640;35934;35940;3713;35933;35949;35919;35938;35935;36332];
 [36338;36340;36343;36342;36359;36333;36330;36336;36344;36339;3804;51826;36657;36655;36790;36782];
 [36778;36799;36812;36807;39299;36992;36987;36991;36989;36995;51832;37190;37165;37157;37158;37164];
 [37175;37169;37171;37170;37159;37162;37166;37167;37312;37489;37473;37474;37478;37656;37829;37827];
 [37828;37826;37806;37904;37896;37919;37946;37947;37942;37900;37894;37930;37975;37968;37920;51845];
 [37932;37921;37899;37913;37941;37912;37903;37907;37973;37945;37914;4108;37911;38372;38377;30091];
 [38416;38418;38463;38510;29976;51852;38614;38613;38615;15874;4205;38705;38704;38714;39045;39019];
 [39240;39243;39223;39291;39276;39301;39269;39222;39302;39220;39272;39258;39256;39282;39274;39123];
 [39228;39219;39227;39245;39247;39292;39344;39259;39253;39268;39275;39251;4326;39255;39262;39277];
 [39221;39273;39257;39270;39248;39249;39260;39517;39303;39288;39241;39246;39153;39283;39304;39119];
 [51876;40113;40115;40348;40356;40336;40376;40352;40349;40360;40361;51897;40369;40339;40347;40354];
 [40353;40368;40359;40883;11081;40884;40945;40941;40940;41064;41077;41066;41058;41063;41056;41079];
 [41055;41081;41507;41505;41500;11417;41503;41502;41686;41683;41689;41687;41684;41692;41688;41891];
 [4817;41918;41897;41889;41888;41899;41890;41914;41922;41884;41915;41898;41900;41893;41921;4908];
 [42466;42550;42557;42554;22113;42568;42556;42679;42668;42675;42678;42674;4974;42845;42825;42830];
 [42831;42829;42844;43101;43195;43214;43199;43194;43203;5093;43526;43512;43518;43539;43510;5094];
 [43828;43821;43818;43829;43820;43988;43994;43987;43986;43982;43983;5279;44541;44555;44542;44536];
 [44535;44567;44538;44537;44544;44533;44529;44547;44549;44572;44972;44954;44973;44960;45083;45093];
 [45092;45094;45095;45096;45098;45082;45102;45077;45333;45332;45335;45336;45327;45331;45323;45346];
 [17786;45606;12319;45649;45645;45646;45642;45643;45644;45648;45666;45647;45650;45928;45929;46053];
 [46064;46049;46050;51954;46501;46505;46500;46511;46508;46510;46506;46741;46745;46739;46749;46744];
 [46748;46743;5645;46985;46983;47319;47341;47345;47344;47365;47363;47364;47455;47959;48284;48289];
 [48282;48527;48531;48542;48547;48536;48537;48533;48750;48746;49140;49143;49529;50063;50065;50187];
 [51202;13188;13316;13440;13871;13887;13883;13922;13892;13875;13919;13867;51465;13881;13878;13896];
 [13877;13932;13912;13882;14248;14324;14377;14490;14592;15035;15037;15031;15026;248;15016;15019];
 [15014;15036;15255;15254;15352;6419;15441;307;15541;15540;15542;316;15543;15621;15651;15765];
 [15768;335;15764;15763;15879;15987;15985;15986;15992;16735;16746;16743;16747;16745;16782;16713];
 [16768;476;16708;16783;16709;51532;16719;16739;16694;16712;16732;16787;16737;16736;16718;16734];
 [16703;16804;6880;16744;17419;17425;17421;17422;17858;51543;17840;17859;17864;17765;17879;17853];
 [17848;17846;17863;17852;17841;17839;51547;18229;18224;18269;15990;18287;18352;51550;18356;18524];
 [18525;18952;18926;18955;18930;18941;18929;18960;51560;18964;19339;19340;19333;19578;19564;19552];
 [19559;19558;19562;19551;19565;19560;19556;19770;19771;19769;19970;19972;19971;20148;20147;20155];
 [20140;20150;20145;20143;20149;20158;20146;20260;20662;20665;20652;20656;20695;20667;20734;20683];
 [51583;1013;20659;20670;20685;20668;20666;20679;21270;21275;21271;21269;21407;51598;21634;21635];
 [21646;21610;21641;21652;21638;21648;21858;21904;22028;22031;1219;22181;22183;22182;22180;22325];
 [22328;22326;22339;22343;22327;22851;22946;22865;22898;22893;22831;22868;22894;22869;22839;22863];
 [22864;7993;22942;51624;22963;22951;1393;23033;22929;51623;22966;23005;22937;23519;23509;30709];
 [24104;24128;24177;24216;24213;24165;24184;24191;24160;24188;24214;24170;24185;24179;24178;24187];
 [24176;24789;24791;24975;24969;24990;24967;24992;24973;24968;24959;24972;24979;25177;48304;25265];
 [33268;25263;25266;25352;25354;25398;25399;51663;1793;25654;25641;25674;25638;25640;25636;25642];
 [25672;25924;25988;25996;26308;26332;26503;26451;26495;26417;26449;26443;26450;26496;26533;26497];
 [26435;26420;26422;26418;26440;26441;26428;26445;26442;51686;26506;26438;26430;26499;26448;26548];
 [27120;27108;27107;27109;27110;27111;27105;27119;27112;27101;27139;27272;27430;27414;27451;27439];
 [27449;27444;51700;27445;27441;27448;16001;27562;27555;27556;27552;27553;27561;27557;27823;27825];
 [27819;27822;27824;27827;27820;27817;27826;27816;27828;27842;27983;28006;28446;28437;28432;28543];
 [28542;28512;28620;28594;28514;28557;28558;28535;28540;28559;28509;28525;28515;28591;28560;28541];
 [28538;28422;51723;28520;28596;28536;28593;8919;51724;2369;29416;29417;29376;2519;29418;29367];
 [29370;29365;51741;29364;29372;29382;29368;29373;29378;29517;29424;29383;29377;29379;29425;29420];
 [2530;29980;29984;30040;30053;30052;30092;30093;30169;30176;30224;30356;30354;30358;30357;30399];
 [30368;2629;30708;30710;30684;9277;30742;30741;30748;30735;30764;30740;30757;30743;30738;30750];
 [31104;31144;31151;31190;31202;31156;31155;31152;31154;31137;31584;31590;31585;31566;31581;31587];
 [31718;31727;31724;31896;31911;31892;31893;31889;31901;31897;31899;31900;32029;32028;32208;32224];
 [32203;32219;32218;32194;32211;32229;32637;32635;32767;3058;32761;32887;32892;32888;32891;32890];
 [33234;33227;33225;33230;33252;33226;33232;24997;3145;33241;33262;33245;33280;33249;33758;33762];
 [33754;33998;51791;33999;34010;34001;34004;34029;33995;34005;34033;34460;34440;34625;34768;34807];
 [34767;34769;34779;34782;34808;34780;34777;35232;35250;35233;35242;35241;3497;35238;35228;35253];
 [35239;35470;35472;35473;35717;35675;35696;35684;35687;35683;35703;35688;35685;35690;35704;35686];
 [35976;35998;35956;35962;35961;35979;35967;36371;36382;36375;36378;36386;36419;36377;36383;36391];
 [36370;36388;36389;13918;36661;36660;36817;36804;36810;36806;36811;36813;36834;37001;37003;36998];
 [37000;37005;37179;37180;37181;37365;37497;37493;37506;37503;37509;37494;37500;37502;37499;37504];
 [37498;22344;4043;37661;37878;37879;37881;37987;37996;37998;37908;4109;37991;37999;37993;38006];
 [38037;38001;37985;38008;37995;38021;38020;38420;38518;35254;38517;38516;38626;38719;38724;38717];
 [38727;38728;38875;38876;38877;39141;39142;39362;39470;39453;39416;39408;39414;39365;39366;39420];
 [39506;39471;39440;39411;39378;39402;39388;39451;39419;39363;39446;39431;39369;39384;39472;39443];
 [39473;39418;39410;39651;39381;39425;39409;39452;39382;39432;39435;39447;39456;39370;39474;39429];
 [39396;39374;39475;39426;39449;39454;39379;39415;39400;39455;39412;39640;40127;40126;40125;40412];
 [40413;40363;40393;40392;40415;40409;40411;40396;40416;40431;40435;40366;40449;40887;40889;40886];
 [40888;40950;40947;40949;40946;41105;41117;41115;41106;41101;41118;41100;4657;51911;41109;51910];
 [41098;41102;41116;41455;41517;41554;41525;41512;41518;41701;41962;41969;41963;41944;41936;41971];
 [41947;41934;4821;41946;41943;41953;41970;41928;41945;41950;41937;41959;41935;42423;42567;42562];
 [42563;51923;42691;42689;42695;42852;42858;42854;42832;42862;42853;27116;42879;51925;42906;42857];
 [42866;42863;42877;42864;43104;43202;43239;43217;43243;43220;43228;43227;43575;43557;43551;43550];
 [43553;43547;43543;43554;43562;43546;43565;43555;43558;43574;43519;43834;43840;43842;43832;43835];
 [43836;43843;44008;5206;44025;44011;44017;44009;44012;44309;44359;44358;44357;44580;44630;44577];
 [44583;44621;44593;44574;44588;44623;44587;44627;44625;44628;44585;44624;44575;44594;44586;44573];
 [44584;44590;44589;44988;44987;44989;51940;45127;45121;51941;45129;5364;45358;45351;45674;45691];
 [45683;45685;45673;45689;45682;45942;45943;45940;45939;46082;46078;46081;46073;46068;46547;46549];
 [46552;46531;46538;46544;46539;46542;46533;46566;46532;46528;46548;46568;46710;46754;46766;46760];
 [46755;46759;46742;46761;46757;46767;46756;46763;46762;46758;46752;47000;47323;47350;47349;47372];
 [47370;12661;47464;47459;47462;5720;47460;47466;47465;47765;47874;47978;47966;47976;47977;47973];
 [51966;48295;48302;48296;48307;48540;48553;48566;48563;48562;51971;48568;48576;48575;48570;48552];
 [48700;48754;48753;48757;48755;48919;48917;48918;48923;49146;49145;49452;49541;49538;49535;49533];
 [49544;29427;49742;49744;50067;50071;50072;50075;50076;50070;50571;50685;50684;51991;27275;13320];
 [13319;13939;13986;13999;13954;13947;13940;14000;13942;14009;13982;14001;13985;14002;13934;51467];
 [135;13944;13946;13955;13978;14328;14385;14441;14440;14492;14596;14745;15047;15046;15068;15044];
 [15064;15060;15071;15057;15056;15062;15055;15277;15279;15271;15357;15451;15450;15623;15773;15771];
 [15787;15780;15772;15774;15781;15786;15782;15886;15998;15996;16878;16853;16873;16706;16866;16931];
 [16857;16852;16867;16917;16879;16880;16854;16861;16886;16924;16856;16859;16858;16877;17937;17429];
 [17432;17434;17439;17430;51533;17433;51531;17904;17929;17947;42471;17910;17908;17845;17936;17906];
 [17941;17907;17912;18233;18235;18230;17934;18290;18292;18361;18359;18360;18546;18539;18973;18999];
 [18978;19011;19021;19000;19035;19065;18971;18931;19345;19579;19604;51567;19606;19583;19599;19588];
 [19580;19598;19600;19608;19587;19584;19603;19586;13053;19773;19777;19873;19871;19978;19981;20168];
 [20169;20167;20173;20261;20657;20700;51584;20709;20724;20671;20699;20714;20722;1018;20721;20717];
 [20710;20994;51586;21285;21272;21279;21280;21455;21661;21657;21672;21864;21862;21863;21905;22035];
 [22037;22045;22038;22041;22123;22120;22122;22125;22121;22186;22359;22354;22352;22367;22375;22351];
 [1266;22363;22364;22365;23071;22941;22961;22960;22932;22979;22959;22952;23004;22936;22980;22948];
 [22955;22954;22949;23073;23019;23014;23031;23032;23036;23034;23008;51626;23030;51625;23009;23532];
 [23522;23524;23545;24175;27468;24251;24289;24320;24280;1583;24278;24290;24259;24243;24274;51649];
 [24270;24272;24277;24249;24250;24271;24253;24795;25002;25005;25016;25014;25013;25007;25012;25015];
 [25000;25017;25022;25218;25276;25272;25270;25273;1729;25360;25639;25705;25712;25686;25707;25722];
 [25708;25709;51669;38081;25997;26000;26550;26640;26642;26554;26557;26629;26562;26631;26613;51689];
 [26543;26612;26615;26616;26641;27126;27125;27131;27137;27136;27138;27134;27130;27133;2112;27447];
 [27465;27467;27462;27463;27571;27570;27568;27575;27665;27852;27871;27859;27861;27867;27845;27848];
 [27849;27874;27850;27857;27858;27869;28524;28531;28705;28656;28703;28731;28706;28707;28648;28637];
 [2367;28699;28653;51726;28658;2374;28636;28649;28701;28634;28646;29459;29461;29462;29500;29451];
 [29468;29498;29501;29594;29469;29449;29448;29499;29986;29990;29989;29988;13979;30095;30096;30182];
 [30179;30181;30225;51749;30382;30398;30388;30387;30383;30353;30402;30390;30386;30807;30779;30808];
 [30801;30785;30777;2703;30809;30789;30817;30952;31226;31210;31215;31218;31216;31496;31600;31594];
 [31603;31592;31688;31730;15995;31918;31915;31925;31919;31922;31926;31920;32030;32259;32262;32287];
 [2988;32271;32258;32281;32280;32290;32277;32263;32269;32292;32268;32286;32649;32650;32778;32779];
 [32775;32772;32777;32900;32899;33304;33300;33285;33302;33294;33297;33288;33291;33301;32901;33335];
 [33322;33293;33295;33662;33654;33655;33772;34044;34056;34047;34051;34064;34053;34054;34042;34503];
 [34496;34499;34471;34472;34475;34497;34474;34504;34627;34818;34830;34817;34814;34819;3432;34850];
 [34849;34823;34824;34828;35274;35260;35262;35261;51804;35259;35257;3499;35269;35481;35691;35731];
 [35732;35753;35744;35750;51809;35755;35742;35739;35729;35737;36022;36024;35994;3729;35992;35995];
 [36019;36002;21674;36000;35999;36443;36464;36436;36465;36453;36433;36509;36449;36442;36468;36428];
 [36427;36446;36440;36435;36434;36667;36665;36822;36839;36823;36824;36825;36826;36827;36828;36832];
 [36836;36829;36853;36849;37016;37021;37017;37200;37193;10212;37218;37335;37377;37367;51837;37516];
 [37532;10376;37663;37662;37949;37951;37905;37977;37950;37976;38144;38046;38070;38058;38063;38060];
 [4144;38080;38057;15888;38382;38519;38521;38522;38525;38527;38531;38520;38526;38628;38630;38629];
 [4189;38734;38745;4213;51854;38735;38730;38883;38878;38882;39284;39340;39265;39266;39286;39290];
 [39289;39264;39524;39809;39647;39556;39562;39570;39545;39646;39576;39532;39649;51877;39548;39538];
 [39553;39648;39525;4351;39530;39575;39594;39635;39595;39534;39596;39542;39547;39597;51878;39572];
 [39639;39536;39637;39665;39546;39528;39574;4363;39539;39598;39645;39642;39599;39600;39643;39522];
 [39672;40130;40135;40136;40133;40131;40134;40414;4552;40465;40469;40488;40481;40493;40529;40491];
 [40470;40484;40501;40479;40466;40464;40576;40507;40489;40490;40475;40472;40480;40511;40476;40486];
 [40459;40894;40900;40893;40954;40955;41137;41138;41136;41145;41126;41149;41142;41144;41140;41139];
 [41127;41134;41148;41458;41459;41460;41531;41536;41542;41712;41710;41704;41713;41707;41711;41980];
 [42016;41993;41990;41987;51919;42009;42020;42011;42013;41981;42014;41972;41985;41992;41989;42019];
 [41983;42474;42573;42574;42582;42583;42577;42581;42580;42699;42708;42705;42703;42706;42698;42710];
 [42891;42888;42885;42889;19611;42939;42892;4980;42905;42890;43244;43247;43257;43273;43256;43251];
 [43264;43293;5036;43261;43592;43612;43605;43614;43593;43619;43616;43603;43618;43584;43849;43850];
 [43852;43853;44042;44038;44079;44065;44039;44041;44034;44054;44035;44043;44047;44640;44648;44638];
 [44637;44643;44639;44644;44664;44641;44649;44645;45018;45030;45019;45020;45113;45143;45141;45157];
 [45153;45140;45381;45377;45374;45367;45586;45587;45612;45718;51945;45724;45725;45701;51944;45727];
 [45731;45954;45955;51950;46109;46100;46111;46112;46407;46464;46537;46585;46598;46576;46584;46575];
 [46589;46577;46590;46776;46784;46787;46773;46774;46793;51955;46781;46778;46783;46771;46790;46770];
 [46780;46775;46777;46792;47029;47027;5654;47020;47017;47021;47377;47373;47382;47497;47484;47499];
 [47483;47496;47492;47773;47768;48008;48006;48002;48011;51967;47985;47986;48001;48012;48000;48009];
 [48315;48321;48318;51969;48317;48577;48564;48567;48584;5947;48595;48592;48560;48586;48589;48661];
 [48665;48663;48703;48704;48708;48764;48760;48761;48776;51974;48777;48765;48931;48932;48934;48930];
 [48935;48927;49097;49091;49162;49163;49156;6127;49155;49153;49161;49423;49454;49453;49553;49561];
 [49566;49552;49556;49565;49560;49563;49564;49562;49748;50077;50079;50083;50084;50085;50690;50967];
 [50971;50969;51153;18231]].

(* lib/converters/cns11643_6.h:918-946 cns11643_6_2uni_upages *)
Definition cns11643_6_2uni_upages : tab := mk [
 [13312;13568;13824;14080;14336;14592;14848;15104;15360;15616;15872;16128;16384;16640;16896;17152];
 [17408;17664;17920;18176;18432;18688;18944;19200;20736;21248;21760;23040;23296;23808;24064;24832];
 [25856;26624;28160;29184;29440;30720;31232;32512;32768;33024;33280;34816;35072;35328;36096;36608];
 [37376;38656;65280;131072;131328;131584;131840;132096;132352;132608;132864;133120;133376;133632;133888;134144];
 [134400;134656;134912;135424;135680;135936;136192;136448;136704;136960;137216;137472;137728;137984;138240;138496];
 [138752;139008;139264;139520;139776;140032;140288;140544;140800;141056;141312;141568;141824;142080;142336;142592];
 [142848;143104;143360;143616;143872;144128;144384;144640;144896;145408;145664;145920;146176;146432;146688;146944];
 [147200;147712;147968;148224;148480;148736;148992;149248;149504;149760;150016;150272;150528;150784;151040;151296];
 [151552;151808;152064;152320;152576;152832;153088;153344;153600;153856;154112;154368;155136;155392;155648;156160];
 [156416;156672;156928;157184;157440;157696;157952;158208;158464;158720;158976;159232;160000;160256;160512;161024];
 [161280;161536;161792;162048;162304;162560;162816;163072;163328;163584;163840;164352;164608;164864;165120;165376];
 [165632;165888;166144;166912;167168;167424;167680;167936;168192;168448;168704;168960;169216;169472;169984;170496];
 [170752;171008;171264;171776;172032;172544;172800;173056;173312;194560;194816;195072]].

(* lib/converters/cns11643_7.h:30-937 cns11643_7_2uni_page21 *)
Definition cns11643_7_2uni_page21 : tab := mk [
 [11093;11394;11401;11399;11710;11709;11722;11732;11708;11716;11713;11714;11735;11632;11706;11747];
 [11707;11953;11958;11952;12140;12301;12295;12785;12789;12781;12783;12779;12780;12782;12807;13252];
 [13320;13491;13485;13488;13585;11402;13955;13946;13954;13928;13937;14000;13999;502;13932;13935];
 [13922;13925;13953;13951;13924;13939;13934;13927;13940;13949;13944;13957;13994;13960;13990;49998];
 [13962;13956;6741;14628;14626;14627;14898;14939;14927;615;14886;14910;14914;14919;14882;12443];
 [14922;14879;14921;14891;14899;50008;14890;14888;15165;15164;15295;15481;15488;15484;15482;15480];
 [15746;15708;15706;15691;15740;15743;15647;15753;15755;15703;15742;15741;15699;16287;16316;16293];
 [16262;16348;16292;16310;16290;16308;16456;16454;16551;16660;16658;16657;16865;16848;16934;16936];
 [16937;17199;17165;17189;17172;17212;17163;17169;17200;17176;17177;17206;17175;17168;17173;17411];
 [17449;17484;17727;17726;17716;17730;17717;12787;17869;17873;17874;18093;18106;18113;18107;18100];
 [18108;18284;18322;18465;18468;24345;18605;18606;18603;18604;18800;18806;18801;18807;7295;19180];
 [19228;19195;19182;19426;19197;19230;19259;19274;50094;1426;19325;19286;19268;19275;19706;19688];
 [19704;19711;19703;19702;19710;19719;19805;20180;50115;20168;20165;50112;20169;20301;20256;20278];
 [20277;20360;20261;20257;20262;1605;20287;20283;20260;20291;20302;20303;20292;20288;20289;20281];
 [20267;20701;20702;20941;20939;20955;20952;20953;20946;20938;20945;20948;20985;20944;21086;21085];
 [21130;21268;21635;21636;21659;21634;21629;21628;21657;21630;21658;21653;21627;21638;21832;21906];
 [22194;22338;22386;22293;22320;22339;22363;22301;22387;22317;1993;22305;22300;50154;22313;22302];
 [22323;23056;23054;50161;23053;23057;23058;23063;23049;23055;23192;23188;23190;23193;23189;23191];
 [23376;23378;23373;23383;23379;23382;23480;23570;23793;23792;23790;23791;23781;23787;23783;23794];
 [23782;23799;23817;23915;23914;24185;24269;24303;24292;24291;24428;24423;24418;24408;24425;24491];
 [24407;24493;24404;24494;24438;24393;24389;24399;50191;24400;24445;24388;24422;24392;24483;24401];
 [24403;50192;24416;24391;24414;24453;24492;24429;24437;24488;2389;24387;24398;24412;24406;24430];
 [24419;24426;25174;25106;25180;25176;25173;25214;25256;25105;25177;25178;25191;25172;25179;25328];
 [25641;25644;25642;25639;25703;25704;25747;25749;25754;25838;25841;25837;25833;26059;26079;26075];
 [26428;26446;26476;26491;26492;26499;26475;26470;26467;26528;26501;26472;26530;26860;2792;26855];
 [26896;26904;26938;26906;26936;26945;26907;26900;26908;26909;27154;27149;27143;27262;27263;13497];
 [27264;27258;27379;27577;27579;27578;27581;27575;27583;27681;27962;27965;27958;27977;28033;2998];
 [27967;27981;27966;3005;27952;27983;28215;28312;28313;28433;28429;28552;28554;28700;28757;28758];
 [28770;28759;28738;28688;28749;28762;28774;28742;19326;28751;33017;29063;29060;29172;29173;29170];
 [29175;29509;50256;29513;29493;29437;29488;29507;29510;3286;29491;29894;50262;29908;36312;29920];
 [13991;30020;11672;30292;30270;30261;30266;3441;30260;30265;30278;30298;30299;30268;30684;30678];
 [30672;50270;30892;50269;30885;31220;31268;31200;31229;31218;31228;31234;31217;31231;31186;31192];
 [31187;31225;50275;31213;31223;31216;31191;31241;31221;31938;31941;31951;3736;31937;31942;31956];
 [31950;32411;32409;32399;32439;32386;32403;32436;32449;32400;32410;32404;32412;32437;50287;50286];
 [32415;32398;32414;32828;32839;32833;33003;33004;33005;33006;32991;33010;33037;33038;11398;33193];
 [33188;33189;33375;33370;33382;33384;33386;33380;33381;33473;33496;50299;33497;33545;33706;33699];
 [33721;30690;33701;33707;33824;34185;34187;34267;34276;34287;34274;34281;34288;34291;34269;34334];
 [34589;34630;34684;34688;34689;34690;34695;34696;34698;34700;34791;34795;34794;34920;34923;34921];
 [34918;34922;34917;35045;35044;35046;35096;35364;35400;35375;35454;35209;35358;35401;35366;35337];
 [35380;35373;35402;35349;50345;35379;35368;35367;35360;35371;35369;35434;35339;35342;35356;35327];
 [50346;35381;35345;35403;35404;35359;35343;35385;35432;35357;35336;35340;35341;35426;35503;35378];
 [35372;35428;35332;35350;35405;35335;35502;36308;36305;36309;36304;36721;36701;36699;36730;50365];
 [36735;36729;36711;36766;36756;36708;36702;36737;36698;36695;36732;36760;36710;36734;36738;36712];
 [36703;36707;36759;4557;36691;36731;36733;36728;36870;37312;37314;37315;37596;37606;37612;37618];
 [37608;37611;37610;37605;37600;37584;37592;37589;37587;37604;37619;37595;37679;37881;37981;37979];
 [37964;37976;37984;37971;37968;38151;38152;38132;38134;38148;38141;38149;38440;38486;38466;38492];
 [38461;38447;38443;38488;38497;38444;38481;38480;38460;38454;4854;38496;38491;38446;38464;38495];
 [38438;38445;38494;38459;38895;38899;38894;38893;39002;39010;39003;39007;39006;39012;39136;39137];
 [39141;39333;39323;39327;39324;4986;39338;39332;39331;39527;39718;39706;5048;39708;39701;39707];
 [39704;39710;39717;50396;40059;40053;40083;40079;40060;40091;40072;40081;40062;5121;40070;40539];
 [40532;40757;40768;40759;40745;40742;40739;40752;40736;40744;40754;40746;40753;40740;40769;40770];
 [40771;40741;40760;40988;40989;40990;41206;41381;41353;41373;41354;41351;41387;41350;41374;41363];
 [41377;41352;41379;41375;41376;41727;41728;41730;41720;41719;41729;41863;41865;41846;41838;41847];
 [41858;41861;41859;41860;42071;42059;42070;42077;42080;42061;42069;42068;42067;42064;42083;42082];
 [42263;42262;42285;42457;42431;5423;42418;42412;42416;42447;42424;5425;42451;42417;42415;42446];
 [42420;42423;42453;5532;43320;43304;43327;43328;43329;43315;43307;43310;43793;43800;43799;43801];
 [43798;5606;43789;43814;43897;43992;44019;43991;43980;43983;43979;43985;43982;43988;43989;43987];
 [43990;43981;43994;43986;43998;44236;44216;44215;44226;44227;44538;44537;44575;44573;25218;44710];
 [44688;44702;44696;44691;44690;44709;44693;44969;44968;44970;44971;44972;45087;45090;45226;45206];
 [45201;45227;45218;45220;45213;45207;45181;45215;45212;45209;45222;45202;45223;45513;45512;45511];
 [45515;45684;45769;5944;45778;45787;45803;45801;45807;45806;45817;45790;46102;46149;46207;46232];
 [46239;46214;46224;46234;46237;46221;46236;46240;46247;46223;46657;46645;46647;46640;46650;46646];
 [50440;46794;46866;46869;46882;46867;46872;46881;47120;47136;47151;47269;47267;47286;47275;47464];
 [47463;47471;47479;47460;47480;6202;47478;47470;6321;48080;48051;48075;48086;48049;48052;48087];
 [48070;48058;48081;48082;48053;48068;48076;48059;48050;48731;48730;48729;48793;48788;48790;48787];
 [48785;48783;48792;48908;48906;48910;48914;48913;48907;49050;6471;49076;6481;49180;49184;49185];
 [49363;49362;49464;11005;27599;11293;11410;11407;11404;11754;11961;12142;12192;44509;12306;12311];
 [12397;12805;12795;12797;12806;12800;12799;12798;12982;13061;13063;13500;13499;13707;13703;38907];
 [14055;14054;14050;41427;14041;14026;14098;14096;14044;14032;13963;14099;19728;14042;49999;14077];
 [14053;14028;14137;14023;14040;14944;14948;14982;14942;14950;14943;14967;14978;14998;15166;15225];
 [15226;15496;15497;15500;25312;15483;15494;15764;15767;15799;15797;15800;15763;15794;15796;15769];
 [15811;15773;15771;15779;839;16031;16030;16035;16032;16033;16325;16326;16318;16324;16319;16460];
 [16458;16561;16661;16663;16656;16664;16864;16863;16935;17219;17224;17181;17232;17240;17223;17236];
 [17235;17216;17237;1047;17242;18544;17755;17741;17750;17743;50055;17753;50056;17748;17747;17744];
 [18099;18286;1187;18287;18323;18473;18469;18472;18543;21688;50071;18611;18809;18814;18812;18819];
 [50092;19200;19252;19301;19254;19367;19289;19288;19249;19298;19256;19315;19262;19285;19284;19349];
 [50093;19365;19348;19354;19355;19353;19359;19283;19730;19722;19721;19724;19723;19726;19725;19720];
 [20280;20282;20279;20285;20269;20354;20373;20359;20381;20405;20353;20423;20379;20376;20372;20358];
 [20368;20276;20366;20357;20390;20374;20970;20959;21693;20983;20971;20960;20968;20961;20969;20974];
 [20965;20972;21091;21190;21186;21185;21184;21187;21272;21678;21667;21701;21664;21684;21669;1822];
 [21668;21672;21670;22440;22413;22402;22430;22409;22403;22417;22438;22426;22416;22405;22397;50156];
 [22427;22437;22512;22422;22408;22486;22488;22406;22436;22423;23068;23065;23198;23199;23197;23196];
 [23389;23390;23411;23395;23486;23489;23484;23487;23483;23485;23571;23572;23800;23802;23814;23806];
 [23889;24587;24561;24489;24533;24540;24523;24562;24671;24539;24534;24537;24529;24527;24536;24544];
 [24532;24563;24581;24526;24564;50194;24538;24590;24582;24535;24525;24583;24545;24584;25278;25327];
 [25305;25306;8151;25248;25311;25246;25279;25263;25255;25258;25332;25262;25269;25272;25307;25280];
 [25271;25250;25309;25249;25253;25268;25254;25259;25260;25247;25265;25340;25646;25648;25753;25848];
 [25846;26100;26091;26081;26084;26485;26473;2714;26521;26526;26516;26515;26513;26905;26903;26953];
 [26951;26952;26962;26944;26979;26950;26975;27150;27269;27271;27339;27340;27337;27595;16871;27680];
 [27999;28000;28010;28022;28019;28017;28006;3010;28011;28025;28027;28220;28318;28316;28444;28446];
 [28449;28566;28577;28598;28576;28564;28567;28801;28806;28864;28810;50251;28805;28821;28745;28802];
 [28804;19320;28816;28849;29182;29179;29520;29526;29530;29516;3292;29527;29921;29913;29915;29940];
 [30021;30023;30324;30315;30312;30313;30329;50267;30336;30337;30305;30320;30319;30323;30301;30714];
 [3507;30707;30730;30743;50271;30896;31294;31302;31311;31300;31337;31283;31279;31310;31290;31275];
 [31401;31312;31301;31287;31269;31276;31295;31284;31273;31262;31293;31981;50278;31987;31978;31979];
 [32460;32462;32464;32483;32480;32465;32476;32477;32496;32475;32485;32497;32457;32488;32487;32456];
 [32478;32461;32453;32454;32484;32451;33019;33020;33022;33027;33024;33021;33029;33043;33191;33204];
 [33392;33396;33393;33397;33405;33395;33476;33475;33502;33501;33553;33551;33552;33731;33730;33738];
 [33729;33827;34225;34340;34321;34341;34314;34335;34336;34324;34344;34307;34322;34315;34327;19729];
 [34633;34697;34704;34703;34710;34709;34707;34797;34800;25310;34949;34935;34938;34948;34937;34941];
 [34939;35053;35052;35318;35227;35485;35601;35524;35528;35551;35519;35507;35514;35600;35590;35464];
 [35482;35552;35532;35509;35553;35516;35526;35595;35492;35477;35491;35554;35533;35555;35499;35531];
 [35471;50347;35497;35620;35556;35602;35557;35687;35498;35488;35558;35521;35559;35597;35462;35504];
 [35467;35560;35529;35609;35520;35596;35561;35562;36333;36323;36324;36328;36306;36322;9318;36815];
 [36817;36803;36809;36842;36788;36828;36797;36838;36808;36844;36786;36777;36819;36800;36841;36821];
 [4569;36805;4573;36811;36816;36818;36836;36840;36813;36790;36778;36820;41033;36801;36829;36814];
 [37321;37322;37629;37593;37631;37636;37626;37638;37653;37649;37639;37643;37884;37885;37997;37989];
 [38164;38163;38156;38155;38168;38178;38525;38511;38517;38523;38528;38527;38550;38509;38507;38534];
 [38515;38498;38519;38529;38505;38530;38551;38532;4860;38520;50384;38522;38506;38501;38526;38548];
 [38850;38849;38905;39025;39019;39021;39023;39022;39154;39144;39151;39145;39146;39149;39155;39142];
 [39369;39348;39347;39353;39370;39345;39350;39367;39364;39351;39535;39731;39730;39711;50393;39723];
 [39728;39734;39746;39745;50392;40101;40107;40105;40115;40103;40096;40146;40104;40118;40108;40110];
 [40166;40549;40775;40803;40781;40799;40779;40800;40777;40787;50399;9786;40791;40782;40786;40788];
 [40992;40994;41409;41431;41429;41412;41424;41403;41442;41419;41400;41407;41432;41408;41402;41396];
 [41404;41428;41453;41410;41433;41420;41775;41763;41878;41869;41886;41881;42115;5383;42090;42089];
 [42101;42092;42112;42094;42113;42103;42102;42099;42096;42116;42265;42482;10045;42476;42475;42486];
 [42479;42484;42478;42483;42477;43163;43160;43156;14970;43162;50416;43340;5544;43351;43345;43362];
 [43346;43356;43347;50415;43653;43821;43838;43824;43901;44006;44022;44004;44009;44012;44018;44008];
 [44003;44011;44016;44010;44007;44029;44005;44014;44021;44025;44017;44020;50420;44049;44254;44248];
 [44253;44251;44243;44257;44510;44540;44584;44727;44728;44743;44722;44713;44729;44732;44723;44753];
 [44976;44977;44982;45060;45100;45249;45214;45242;5834;45265;45267;45268;45269;45253;45238;45234];
 [45237;45251;45241;45254;45526;45536;45531;45527;45533;45845;45836;45839;45838;45822;45828;45835];
 [45826;45823;45832;45840;45847;45843;45830;45833;46116;46118;46117;46152;46261;46290;46293;46276];
 [46255;46253;46273;46272;46284;46285;46275;46280;46277;46266;46288;46274;46286;6029;46659;46658];
 [46656;46641;46799;46798;46896;46900;46898;46915;46908;47121;47157;47156;47159;47153;47295;47292];
 [47298;47305;47491;47499;47520;47501;47500;47514;47498;47505;48113;48143;48129;48135;48140;6336];
 [48092;48110;48119;48114;48120;48107;6346;48102;48109;48105;48136;48128;48101;48124;48737;48734];
 [48735;6437;48795;48918;48917;48928;48916;48922;48919;49052;6474;49137;6483;49136;49192;49188];
 [49194;49195;49365;49412;49413;49553;49554;49830;11273;11810;11802;11790;11803;11784;28595;49948];
 [12445;12818;12830;12987;12991;12988;13064;13065;13155;13256;22568;13710;13709;14147;14157;14189];
 [14146;14162;14161;14185;14160;14166;14188;14148;14149;14187;517;14184;14167;14638;14641;14637];
 [14987;15026;14989;15011;15012;14992;14985;14990;14994;15227;15504;15503;15849;15821;15813;15824];
 [15817;15825;15815;15826;15711;15841;15820;15814;15844;16041;16339;16346;16338;16347;16461;16462];
 [16668;16872;17260;17247;17254;17252;17272;17253;17261;17249;17274;17415;17766;17768;17762;18131];
 [18132;18129;18140;18291;18290;18477;18476;18479;18546;18612;18825;19405;19366;19362;19360;19270];
 [19361;34391;19363;19377;19419;19446;19420;19414;19731;20380;20375;20440;20452;20436;20453;20443];
 [20432;20442;20428;20444;20461;20435;20433;20430;20441;20445;50118;20710;20709;20713;20991;20990];
 [21006;21132;21194;21195;21274;21719;21711;21712;21705;21708;21715;21924;21923;22401;22566;22515];
 [22567;22514;22527;22517;22524;22542;2032;22518;22528;22563;22533;22565;22536;22608;23077;23072];
 [23075;23073;23201;23401;23404;23400;23403;23500;23501;23824;23821;23818;23830;23828;23890;24616];
 [24622;24620;24653;24649;24625;24624;24627;24621;24630;24638;24623;24615;24628;24652;25342;25362];
 [25375;25367;25333;25365;25335;2562;17277;25338;25337;25419;25756;25757;2595;26096;26102;26095];
 [26525;26522;26535;26543;26538;26980;27014;26997;26992;27012;26987;27013;26988;27159;27284;27283];
 [27602;27607;27604;28070;28071;28060;28043;28045;28056;28089;28059;28061;28057;28072;28049;28039];
 [28058;28326;28447;28583;28593;28594;28599;28880;28851;28853;28868;28867;28860;28850;28858;28859];
 [28866;28877;28862;28855;29071;29187;29188;29553;29559;29556;29579;29562;50257;29580;29555;29951];
 [29947;29949;29936;29939;29948;29938;30354;30366;30382;30358;30740;30738;30739;30742;30735;30902];
 [30909;31372;31406;31404;31403;31385;31378;31419;31390;31358;31407;31420;31384;32001;32009;32006];
 [50279;32007;32008;32463;32526;32562;3861;32530;32534;32535;32539;32533;32561;32536;32538;32528];
 [32522;32521;32847;50291;33039;33040;50293;33064;33041;33046;33047;33026;33211;33210;33219;33212];
 [33418;33412;33414;33504;33559;33560;33566;33557;33747;33754;33753;34278;34292;34273;34409;34368];
 [34392;34412;34381;34593;34713;34801;24424;34950;35675;35676;35703;35628;50349;35672;35684;35681];
 [35656;35735;35673;35625;35682;35630;35688;35728;35642;35645;35678;35654;35689;35685;35646;35657];
 [35670;35809;35704;35705;35686;35658;35637;35706;35730;35680;35638;35665;35650;4445;35647;35707];
 [35677;35732;35690;50357;36338;36795;36891;36890;36915;36887;36874;36885;36882;36865;36909;36861];
 [36899;36869;36881;36864;36892;36917;36910;36918;13503;36911;36876;36873;36913;36860;36879;36888];
 [36866;37376;37663;37687;4698;37688;37675;37678;37665;37680;37673;37681;50377;37633;37676;37666];
 [37887;38007;37991;38015;38013;38011;38014;38174;38172;38177;38182;38183;38185;38188;38173;38187];
 [38591;38564;38570;38574;38559;38608;38577;38573;38555;38578;38569;38579;38580;38586;38565;38583];
 [38572;38603;38607;38854;38913;38911;38909;39031;39032;39030;39159;39372;4997;39380;39383;39381];
 [39382;39379;39773;39765;40160;40264;40174;40155;40167;40150;40165;40161;40157;40162;40560;40550];
 [40559;40558;40833;40809;40814;40813;40812;40836;40837;40817;40819;40810;40815;40827;41322;41340];
 [41341;41345;41466;41477;41451;41467;41449;41455;41468;41447;50401;41454;41469;41778;41895;41909];
 [41905;41913;41896;41907;50406;42122;42129;42125;42137;5387;42138;42139;42130;42127;42155;27611];
 [5433;42613;42545;42552;5431;42549;42601;42555;42557;42604;42617;42556;42558;43159;43173;43170];
 [43165;43169;43368;43375;43373;43378;43381;43383;43385;43701;43754;43691;43843;43841;43842;44041];
 [44040;44038;44033;44035;44032;44036;44042;44046;44045;44039;44047;44052;44034;44053;44044;44048];
 [44037;44285;44287;44292;44288;44297;44587;50423;44593;44763;44741;44755;44750;5739;44745;44735];
 [44747;44736;44752;44756;44993;44985;44987;44995;45001;45063;45101;45304;45281;45306;45295;45309];
 [5837;45291;45297;45293;45310;45560;45571;45550;45544;45569;45804;45858;45844;45876;45871;45881];
 [45889;45884;45897;45912;45882;45890;45887;46114;46115;46154;46300;46297;46299;46306;50439;46303];
 [46304;46295;46671;46662;46675;46677;46670;46666;46668;46691;46929;46931;46936;46925;46938;46921];
 [46941;47122;47164;47313;47327;47318;47320;47328;47321;47537;47532;47530;47598;47549;6221;47555];
 [47528;47534;47531;48157;48167;48184;48146;48200;48171;48150;48153;48189;48163;48170;48740;48813];
 [48812;50452;48817;48815;48940;48932;48933;48936;49145;49143;49149;49150;49209;49203;49367;49368];
 [49380;15009;49422;49467;49476;49474;49556;49555;49621;49831;11825;11811;11816;11815;11974;12195];
 [12321;12827;272;12993;12995;13098;13161;13351;14262;14247;14244;14246;14224;14238;14228;14248];
 [14245;14242;14225;635;15036;15037;15028;15024;15076;15173;15179;15230;15231;15229;15299;15868];
 [15863;15856;15853;15857;15864;16361;16875;1053;17296;17293;17286;17297;17290;17416;17488;18154];
 [18150;18146;18151;18157;18145;18484;18550;18549;18547;18613;18832;18834;19425;19423;19413;19442];
 [19454;19475;19502;19737;20488;7669;20485;20489;20486;20483;20477;20476;20482;20546;21018;21009];
 [21013;21014;21196;21199;21200;21282;21278;21281;21733;1831;21844;21743;21843;21841;21933;22631];
 [22632;22692;22647;22665;22596;22667;22649;22619;22595;22615;22602;22652;22598;22651;22614;23208];
 [23414;23410;23510;23512;23505;23842;23840;23843;23838;23918;24739;24695;24742;24685;24738;24700];
 [24708;24680;24692;24710;24741;24699;24698;24681;24690;24694;25418;25399;25386;25389;25414;25384];
 [25382;25410;25388;25400;25387;25395;25413;25657;26105;26106;26552;26551;26555;26553;26548;26991];
 [27015;27023;27042;27043;50225;27291;27293;27342;3023;28093;28095;28050;3021;28143;28105;28324];
 [28328;28330;28456;28452;28453;28454;28585;28602;28606;28604;28608;28912;28895;28896;28909;28891];
 [28923;28857;28890;28907;28908;29594;29599;29595;29591;29601;29967;29957;30024;3458;30396;30394];
 [30911;31489;31464;31471;31460;31462;31490;31467;31456;31469;31449;50276;31508;31470;3666;31507];
 [31481;31480;32037;50281;32025;32032;32067;32063;32581;32588;32585;32591;32577;32574;32589;32594];
 [32586;32590;32627;32578;32593;32597;32592;32620;11005;32618;32595;32616;32853;32854;33052;33053];
 [8832;33054;33059;33055;33249;33229;33227;33228;33224;33225;33435;33428;33426;33430;33427;33429];
 [33423;33565;33570;33569;33769;33775;33760;33766;33764;34345;34348;34422;34435;34424;34364;25411];
 [34426;4177;34546;34718;34715;34714;34806;34805;34981;34963;34980;35458;35527;35767;35869;35810];
 [35799;35811;35812;35772;35795;4442;35674;35794;35629;50351;35780;35792;35813;35845;35847;35814];
 [35867;35815;35800;35774;35863;35764;35801;35816;35757;35759;35784;35817;35818;36350;36347;36352];
 [36978;36976;36934;36953;36958;36936;36943;36977;36960;36959;36974;36979;50368;50367;36935;36973];
 [36975;36993;36972;36984;36995;36937;36968;36980;36963;36970;34437;36965;36962;37064;37328;37332];
 [37329;37379;37698;37731;37718;37723;37717;37712;37677;37700;37704;37701;37762;4709;37730;38021];
 [38029;38198;38191;38193;38199;38567;38617;38640;38642;38653;38632;38635;38638;38624;38633;38637];
 [38614;38648;38612;38623;38631;38616;38627;38639;38671;38858;15174;38917;38924;38925;39039;39040];
 [39041;39169;39171;39410;39394;39395;39390;39401;39400;39392;39425;39413;39396;9473;39543;39796];
 [39791;39778;39777;39789;39795;39786;39785;40210;40237;40212;40207;40233;40214;40195;40262;40284];
 [40209;40198;40156;40235;40234;40236;40231;40570;40860;40857;40853;40843;40856;40854;41010;41380];
 [41386;41499;5295;41485;41500;41482;41504;41480;41498;41491;41489;41821;41823;41822;41824;41915];
 [41916;41921;41920;41928;41934;42151;42162;42166;42149;42170;42165;42157;42148;42195;42160;42161];
 [42269;42637;5441;42641;42678;42679;42685;42684;42646;42644;42656;43176;43174;43396;43414;43400];
 [43418;43729;43727;43856;43857;43854;43904;43905;44059;44055;44064;44057;44058;44065;44062;44056];
 [44061;5673;44333;44324;44327;44334;44325;44316;44313;5674;44323;44319;44314;44331;44318;44512];
 [44595;44774;44796;44773;44792;44790;44778;44786;44781;44779;44784;44785;44998;45000;45006;44997];
 [5782;45003;45331;45332;45319;45324;45594;5906;45591;45574;45590;45575;45584;45577;45593;45589];
 [45934;45883;45886;45932;45925;45924;45913;45948;45936;45945;46124;46162;46161;46156;46336;46352];
 [46355;46335;46334;46317;46682;46680;46684;46810;46968;46942;46951;46948;47123;47139;47169;47167];
 [47168;47341;47331;47338;47344;47334;47337;47345;47342;47572;47569;47580;47596;48233;48237;48215];
 [48230;48377;48202;48224;48214;48217;48204;48234;48226;48227;48240;48223;50445;48228;48221;48232];
 [48287;48826;48824;48828;48825;48820;48955;48941;48952;48943;48946;49217;49355;49374;49373;49370];
 [49372;49424;49487;49481;49560;49558;49559;49607;11420;49626;49624;49832;11274;11421;11979;12088];
 [12089;12198;12835;12834;12833;13262;13714;13713;14316;14304;14317;14344;14309;14318;14308;14315];
 [14307;14314;14346;50009;15057;15075;15060;15056;15065;638;7137;15066;15059;15180;15181;15228];
 [15232;15308;15871;15880;49416;15873;50027;15872;16365;16371;16366;16369;16368;16350;16465;17282];
 [17321;17304;17309;17306;17310;17311;17318;17319;17417;17455;17777;17773;17778;18159;18160;18491];
 [18489;18492;18488;27389;18490;18552;18553;18551;18840;18844;18841;18842;19473;19466;19453;19471];
 [19481;19459;19477;19468;19465;19474;19508;19498;19464;19501;19496;50097;19500;19494;19507;1447];
 [19738;19742;20487;20524;20530;20520;20529;20521;20528;20522;20548;20526;21201;21284;21751;21748];
 [21747;21752;22709;22678;22680;22677;22673;22706;22686;22617;22691;22682;22683;3872;32643;23514];
 [23519;23574;23839;23853;23854;23851;24760;24763;24767;24762;24789;24803;24769;24766;24765;24756];
 [24770;24737;24711;24791;24778;24757;24794;24793;24755;24792;25447;25457;25442;25436;25448;25426];
 [25430;14345;11842;25760;26112;26110;26111;26571;50216;26570;26537;26568;27060;27052;27050;27049];
 [27406;27625;27629;27634;27627;27630;28136;28123;28119;28131;28133;28142;28117;28339;28461;28609];
 [28611;28940;28942;28935;28951;28937;28950;29082;29084;29620;29623;29619;15182;29971;29972;30438];
 [30428;30440;30437;30766;30764;30763;30925;31549;31538;31533;31557;31550;31568;31525;31571;31523];
 [32055;32056;32071;32061;32062;32073;32074;32029;8681;32677;32652;32653;32649;32662;32645;32655];
 [32631;32654;32642;32650;32648;32635;32663;32637;32633;32857;33060;33069;33070;33067;50294;33242];
 [33240;33238;33415;33440;33576;33573;33567;33779;33783;33782;34347;34395;34376;9163;34396;34413];
 [34461;34457;34444;34449;34459;34458;34460;34453;34445;34454;34469;34602;34721;34724;34733;34985];
 [34990;34992;35853;35683;35697;35921;35924;35882;35908;35925;35993;35897;35903;35902;35919;35917];
 [35893;35904;35889;35797;35883;35891;35905;35926;35916;35910;35900;35909;35907;35901;35952;35927];
 [35896;35928;4453;35895;36359;36358;36361;37035;37008;37011;37052;37033;37022;37055;37034;37009];
 [37028;37018;37031;37025;37020;37026;37019;37023;37012;37007;36592;37010;37013;37029;37030;37380];
 [37788;37753;37754;37758;37755;37745;37761;37759;37756;37757;37749;37750;38030;38031;38206;38207];
 [38208;38209;4868;38669;38679;38672;38670;38634;38685;38659;38690;38660;38656;38688;38689;38691];
 [38675;38665;38673;38859;38862;38864;38860;38868;15067;38921;38923;39045;39174;39181;4964;39188];
 [39183;39433;39444;39435;39420;39428;39434;39424;39421;39431;39430;39441;39545;39544;39816;39808];
 [39819;40281;40289;40309;5155;40277;40283;40287;40274;40290;40306;40285;40296;40305;40293;40294];
 [40295;40310;40268;40288;40308;40272;40586;40577;40582;40575;40576;40869;40871;40872;40870;40879];
 [32661;40881;41013;41017;41411;41520;41514;41515;41517;41518;41516;41507;41505;41506;41836;41857];
 [41871;41856;41936;41933;41941;41940;42193;42174;42187;42190;42173;42192;42756;42709;42704;42707];
 [42747;42712;42705;42749;42713;42710;42726;42745;43425;43421;43422;10457;43775;43871;43863;43872];
 [43865;44076;44069;44071;44080;44068;44070;44077;44078;44073;44081;44357;44359;44370;44362;44368];
 [44358;44367;44366;44371;44833;44809;44826;44827;28949;44816;50425;44820;44814;44818;44811;45007];
 [45010;45008;45012;45011;45009;13592;50427;45065;45340;45351;45349;45339;45353;45343;45360;45348];
 [45352;45337;45359;45604;45601;45605;45606;45607;45686;45926;45941;45929;45950;45967;45940;36368];
 [45997;46123;46122;46168;46370;46365;46379;46380;46381;46387;46363;46375;46378;46376;46395;46718];
 [46705;46713;46712;46704;46701;46717;46709;46710;46814;46950;46979;46983;46971;46985;46982;46978];
 [46972;46977;47171;47173;47351;47353;47354;47621;47614;47631;47615;47610;47625;47648;47628;47676];
 [47650;47608;47626;47624;47607;48270;48247;48267;48308;48266;48282;48249;48259;48255;48289;48271];
 [48291;48257;48276;48254;48258;48272;48293;48301;48285;48743;48745;48843;48840;48849;48960;48971];
 [48969;48966;48958;48963;48959;49061;49063;49230;49229;18843;49381;49377;49378;49430;49428;50459];
 [49497;49489;49503;49482;49495;49496;49610;49627;49630;49632;49633;49631;49634;49635;49810;49855];
 [49854;11275;11858;11854;185;49939;12199;12838;12839;12998;13067;13162;13176;14362;14358;14361];
 [14359;14363;14360;14368;14647;15084;15233;44605;15887;16045;16379;16466;17327;17335;17330;17784];
 [17836;18176;18174;18178;18173;18179;18496;18499;18498;18615;18850;19456;19509;19521;19461;11859];
 [19536;19534;19539;20563;20560;20567;20575;20565;20714;21030;46128;21034;21032;21036;21037;21204];
 [21767;21848;21849;22725;22733;22727;22760;2123;23090;49815;23518;23858;13512;50197;24817;24816];
 [24812;24841;24825;24821;24830;25460;25473;25468;25461;25481;25474;25495;25478;25469;25491;25500];
 [25462;25472;25669;12449;26115;26569;26573;26576;27053;27077;27298;27628;27638;27635;28147;28154];
 [28153;28149;28148;28152;28342;28340;28466;28621;28616;28622;28618;28970;28961;28957;29629;29630];
 [29634;3313;29641;29983;30449;30445;30450;30432;30455;30768;30775;30769;30774;30920;31597;31593];
 [31613;31585;31600;31601;31603;31606;31605;31608;31609;31588;31598;32081;32079;32034;32687;32682];
 [32675;32669;32668;32673;32694;32684;32674;32679;32688;32681;32707;33073;33074;33075;33076;33079];
 [33084;33241;33245;33246;33247;33248;33445;33450;33442;33443;33796;33795;33790;33832;34479;34477];
 [34470;34732;34725;34736;34737;34817;34994;35026;35057;35793;35911;36041;36007;36040;35989;35982];
 [35985;35965;36078;35981;35980;36016;35990;35906;35964;36017;36018;35972;35997;36001;35992;36019];
 [35874;35963;35978;36046;35968;35991;36020;36021;35994;35999;35987;36370;36363;36366;37027;37068];
 [37084;37089;37086;37074;37083;37081;37079;37076;37065;37099;37082;37073;37124;37066;37090;37335];
 [37772;37785;37794;37782;37780;37791;4711;37774;37891;38036;38035;38212;38703;38709;38699;38706];
 [38701;38710;4884;38705;38674;38707;38687;38708;38720;38719;38721;38867;39049;39192;39184;39450];
 [39461;39454;39826;39829;39827;40324;40346;40329;40333;40328;40337;40347;40348;45384;40590;40594];
 [40901;40897;40888;40894;40885;40903;41020;5257;41452;41535;41529;41527;41889;41876;41888;41950];
 [41947;41951;41948;42198;42204;42205;42208;42211;42209;42776;42777;42835;50412;42820;42766;42767];
 [42823;42775;42781;42769;43188;43190;43447;43454;43458;43444;43825;43797;43907;44091;44086;44098];
 [44112;44096;44084;44088;44093;44094;44085;44090;44102;44087;44089;44101;44407;44381;44394;44406];
 [44395;44396;44389;44388;44401;44383;44402;44542;44543;44606;44843;44854;44845;44857;44863;44859];
 [44851;44866;44858;45013;45016;45017;45069;45066;45113;45114;45373;45381;45370;45367;45374;45378];
 [45959;45964;45954;45931;45984;45978;45968;45966;45985;46013;46002;46005;46007;45994;45986;45989];
 [45998;45995;46012;46130;46170;46436;46428;46413;46399;46398;46418;46424;46423;46430;46419;46420];
 [46422;43877;46724;46725;46726;46999;47009;47010;6155;50442;47011;47014;6167;47125;47140;47178];
 [47177;47176;47179;47374;46434;47371;47370;47368;47366;47683;47687;47679;47686;47696;6253;47691];
 [6256;47698;48343;48319;48344;48352;48359;48312;48341;48367;48358;48356;48340;48342;48362;6381];
 [48315;48361;50448;48749;48752;48755;48754;48852;48846;48853;48986;48984;48978;48976;48981;48974];
 [48973;49099;49100;49101;49105;49240;49251;49246;49236;49243;49385;49383;49384;49437;49511;49498];
 [49500;49499;49505;49569;6541;49572;49641;49647;49637;49653;49643;49645;49814;49813;49843;49845];
 [49841;167;11853;12324;12843;13263;13513;14390;14385;14420;14394;14392;14649;14648;15092;15091];
 [15094;15100;15093;15089;15516;15896;15898;16380;16382;16387;16467;16939;17350;17345;17787;18182];
 [18505;18616;18851;19538;19533;19551;19550;19553;19747;20620;20591;20597;20596;20593;20592;20588];
 [21286;21768;7687;22768;22767;22779;22800;22796;22774;22782;23420;23521;23864;23919;24856;24853];
 [24860;24848;24885;50199;24855;24861;24870;24872;24873;24874;24858;50198;18183;25515;25516;25505];
 [25518;25507;25511;25672;25860;26109;2650;26120;26578;27078;27070;27164;27302;27303;27307;27392];
 [27643;27644;27641;27649;28166;28164;50236;28468;28982;28978;28994;28973;28981;29656;29987;29984];
 [30465;30464;30467;49852;30780;30785;30773;30921;31630;31646;31641;31668;31658;31647;31638;31645];
 [31683;31604;31659;3759;32099;32091;32090;32709;32708;32719;32712;32676;32701;32723;32864;33083];
 [33251;33255;33448;33452;33449;33578;33800;33801;34489;35009;35010;35000;36065;36075;36069;36090];
 [36068;36107;36055;36079;36064;36076;36091;50352;36051;36070;36092;36067;36047;36058;36060;36050];
 [36004;4459;36375;36374;37106;37116;37144;37110;37118;37107;37111;37121;37113;37126;37109;37136];
 [37087;37123;37128;37336;37381;37783;37811;37806;37807;37799;37809;37800;37804;37803;37892;38042];
 [38218;38722;38744;38731;38725;38729;38732;38745;38742;4891;38726;38724;38747;38761;39054;39055];
 [39198;34492;39471;39838;39837;39839;39836;40372;40366;40363;40371;40367;40386;40595;40597;40598];
 [40599;40911;40910;40907;41035;41542;41539;41541;41553;41902;41903;41904;41912;41954;41955;41958];
 [42221;42218;42298;42841;42884;42847;42876;42844;42840;42837;42845;42878;42880;42883;42839;5475];
 [42846;43194;43477;43864;43880;43879;44106;44108;44114;44105;44110;44103;44109;44107;44111;44414];
 [44423;44419;44425;27082;44422;44424;44615;44610;44617;44616;5760;5764;5759;44868;44881;44870];
 [44871;45028;45071;45119;45387;45399;45394;5873;45393;45400;45406;45395;45405;45389;45628;45631];
 [45638;45630;45636;45637;45633;45624;45634;45635;45690;45987;46010;46016;46020;46022;46027;46177];
 [46458;46451;46450;46452;46464;46465;10567;46741;46735;46736;46738;46740;46731;46822;47026;47032];
 [47037;47038;47054;47034;47126;47142;47141;47180;47184;47182;47185;47186;47380;47381;47387;47746];
 [47769;47770;47741;47749;47750;47772;47737;47739;47744;47747;47745;48414;48411;48426;48379;48389];
 [48416;48401;48388;48381;48387;48400;48408;48394;48462;48393;48391;48412;6428;48759;48758;48856];
 [48857;48993;48988;48990;48992;49066;49110;49112;49161;49160;49259;49253;49267;49268;49389;49444];
 [49445;49514;49575;49576;49675;49658;49657;49663;49668;49654;49669;49817;49835;49853;49848;168];
 [11876;11866;12146;13178;13717;14431;14433;14430;14426;14428;14429;14446;14423;14424;15106;15115];
 [15112;15185;15909;15912;15907;15905;15908;15913;16390;16394;17354;17356;17355;17359;17791;17788];
 [17878;18185;18187;18294;18557;18853;19547;19548;19549;19557;20589;20610;20611;20615;20629;20618];
 [21206;21288;21773;22830;50158;22829;22817;22809;23099;23100;23098;23422;23867;24903;24889;24884];
 [24886;24902;24891;24897;24901;25536;25540;25530;25533;25534;25763;26124;26585;27085;27310;27647];
 [27684;28347;28348;28470;28629;28627;28630;28988;28991;29662;29667;29991;29993;3467;30469;30471];
 [30476;30928;31678;31676;31696;31682;31669;31689;32102;3883;32725;32738;32732;32739;32730;32706];
 [32744;33257;33455;33453;33454;33803;34497;34742;34745;35008;36005;36136;36130;36137;36120;36127];
 [36124;36114;36138;4474;36129;36139;36119;36080;36118;36131;37163;37158;37181;37154;37178;37169];
 [37170;37204;37153;37173;4617;37166;37168;37167;37174;37338;37337;37819;37820;37815;37826;37821];
 [37810;4717;28996;31697;38738;38763;38759;4895;38753;38764;38737;38772;38775;38767;38765;38760];
 [50385;38788;39056;39058;39059;39199;39473;39480;39481;39479;39851;40387;40392;40395;40399;40600];
 [40916;40915;40920;40921;40925;40913;40918;41022;41560;41559;41557;41924;41956;42222;42223;42227];
 [42226;42224;42923;42906;42927;42903;5482;5484;42943;42900;42899;43198;43195;43196;43481;43884];
 [44115;44116;44123;44120;44118;44119;44447;44436;44438;44439;44618;44619;44885;44890;44894;44895];
 [44889;44891;44888;44884;45032;45035;45036;45075;45414;45419;45410;45417;45411;45407;45390;45640];
 [45642;46051;46043;46040;46038;46470;46480;46481;46472;46484;46467;6066;46492;46477;46469;46744];
 [46746;46748;46823;47045;47056;47057;47129;47143;6173;47188;47405;47394;6189;47391;47805;47790];
 [47803;47789;47804;47801;47796;47819;47799;47795;47802;47798;47821;47806;47817;50443;48479;48443];
 [48481;48476;48522;48474;48461;48454;48452;48445;48448;48444;48524;48449;48460;48446;48458;48764];
 [48762;48997;49006;49001;49002;49007;49004;49008;49000;49003;6469;49068;49118;49117;49116;25541];
 [49292;49283;49282;49288;49285;49281;49397;49391;49396;49394;49398;49395;49392;49393;49451;49447];
 [49448;49516;49582;49678;49691;49686;49695;49698;49696;49697;49684;49683;49821;49820;49822;49823];
 [11883;13000;14456;14454;14448;14449;15114;15916;18193;18558;19543;19558;19561;19559;19560;19569];
 [19567;49070;20619;20630;21045;21050;21099;21782;22851;22854;22847;22843;22845;23217;23218;23524];
 [23872;24925;24913;24909;24908;24923;25556;25554;25546;25544;25552;25545;25673;25764;26130;26127];
 [26129;26587;26589;26588;27092;27169;27314;27652;27650;28177;28182;28176;28350;36378;29004;29002];
 [29682;29681;29994;29996;29999;30001;30481;30482;30795;31707;31702;31709;31714;31716;31712;31711];
 [31715;32110;32113;32745;32746;32867;33259;33258;34493;34491;34502;34508;34504;25551;34505;34506];
 [34511;34512;34746;34811;34819;35012;36169;36179;36150;36170;36161;36174;36121;36173;36165;36172];
 [36167;36168;36175;36151;36162;37194;37190;4618;37193;37199;37201;37196;4620;37382;38225;38778];
 [38787;38782;38783;38784;27317;39057;39060;39061;39201;39200;39485;39488;39494;39556;39852;39853];
 [5166;40410;40409;40930;40929;40931;40932;40926;40927;41537;41561;41564;41562;41960;42230;42236];
 [42231;42234;42233;42948;42942;42962;42941;42901;42964;43492;44129;44130;44131;44132;44128;44124];
 [44125;44126;44453;44454;44620;44904;44910;44913;44907;44911;45038;45041;45040;45039;45077;45076];
 [43886;45127;45436;45434;45428;45430;45422;45432;45421;45420;45646;46039;46058;46053;46180;46515];
 [46499;46501;46503;46498;46495;46502;46494;46504;46761;46758;46762;46763;46752;46753;46760;46824];
 [46825;46826;47076;47071;47072;47144;47197;47195;47190;47191;47199;47202;47841;47843;47838;47833];
 [47848;47858;47862;47846;47860;47861;47845;47842;6285;48534;48554;48535;48496;48545;48541;48553];
 [48495;48510;48532;48538;48499;48519;48497;48503;48520;48525;48517;48504;48557;48768;48769;48869];
 [48871;49020;49071;49121;49302;49315;49296;49400;49454;49525;49534;49533;49531;49528;49584;49716];
 [49718;49712;50461;49710;49719;13518;13719;13720;14460;14462;14461;14463;15119;15524;15921;15918];
 [15919;15922;16940;17364;17372;17368;17422;17795;17796;18194;19570;19580;19582;20646;20640;20638];
 [20642;21290;21784;22861;22872;22875;30484;50162;23526;24932;24936;24928;24930;25559;25675;26592];
 [27170;27653;28185;28186;28355;28632;28636;29007;29687;29684;29688;30483;30800;31728;31721;31727];
 [31725;31722;31736;31749;31730;32114;3889;32761;32755;32758;32754;32759;32870;32869;33088;50295];
 [34513;34515;34820;36185;36192;36187;36189;36190;36201;36188;36193;36202;36191;37198;37212;37216];
 [37219;37339;37834;37833;37832;38053;38051;38798;38791;38793;38789;38790;38799;38794;38800;39064];
 [39067;39495;39497;39496;40421;40426;40429;40944;40943;40946;40940;41024;41568;41567;41963;41964];
 [42240;42241;42978;42975;42976;42977;42979;43203;43499;43498;43873;43889;44139;44136;44137;44135];
 [44464;44465;44466;44625;44916;45439;45444;45651;45652;46064;46068;46065;46135;46527;6076;6075];
 [46525;46526;46519;46528;46522;46520;46524;46523;46827;47079;47133;47132;47203;18507;47416;47414];
 [47412;47415;47878;47900;47874;47901;47902;47840;47889;47896;47905;47904;47888;48573;48558;48565];
 [48568;48569;48574;48580;48572;48570;48771;48874;48876;49022;49019;49125;49319;49310;49306;49455];
 [49457;49539;49589;49734;49729;49731;49725;49730;49723;49735;13163;13264;14478;16401;50033;50057];
 [18508;21291;22863;22878;22883;22891;23103;23529;24941;24939;24938;47914;25568;25565;25569;25566];
 [25564;25677;26134;26595;27109;27108;28189;30027;49857;30798;30934;31741;31751;31742;31747;31755];
 [31743;32122;32119;32763;33091;33261;34748;25567;34821;35014;35013;36212;36211;36210;36216;37235];
 [37242;28188;37238;37237;37239;37839;37838;37837;38056;38808;38802;38804;39066;39860;40427;40436];
 [40435;40430;40434;40432;41572;43013;43003;43004;43507;44140;44474;44921;44926;44920;45044;45078];
 [45655;46536;46531;46542;46771;46829;46830;47089;47096;6164;47204;47205;47925;47913;47916;47921];
 [47915;47918;47909;48602;48608;48596;48609;48605;49127;49170;49326;49327;49542;49541;49617;49752];
 [49727;49746;49739;49747;49744;49750;49751;49869;49867;12849;12848;13265;540;14482;14480;14479];
 [14483;14481;882;18195;18559;20652;24944;25573;27171;27172;27656;27655;28191;28192;28193;28641];
 [29012;29015;29013;29690;30008;36230;30007;30803;32126;32123;50289;32765;32764;33094;34610;35015];
 [36209;36227;36207;36222;36221;36225;36220;37258;37246;37248;37245;37247;37250;37844;37840;37842];
 [38229;38811;38810;39502;40433;40952;40957;41566;41574;42245;43018;43019;43022;43021;43025;43017];
 [43024;43020;43026;43204;43511;43512;43882;43883;44480;44482;44933;44928;44932;44929;44484;45451];
 [45453;45454;46775;46777;46831;47099;47103;47207;47208;47209;47423;47932;47948;47933;47934;47935];
 [47931;48639;6414;48630;48622;48636;48632;48641;48634;48776;49024;49169;49406;49408;49461;28476];
 [49597;49595;49756;49754;49873;49872;13323;22899;15929;16410;17379;17799;18295;18296;20657;22890];
 [22900;23531;24955;25765;26596;27659;27662;27660;30009;31760;31761;31766;32129;32128;32766;32769];
 [32768;33095;33263;36232;37259;37261;37255;37253;37263;37252;37256;37262;37260;37847;37846;38815];
 [17800;40451;40958;41967;42249;42248;43040;43044;43039;44144;44630;45047;45048;45046;45456;45662];
 [46071;46550;46549;46779;46832;47105;47212;47425;47426;47951;47955;47960;48658;48644;48659;48645];
 [48653;49026;49025;49333;49338;49598;49765;49763;49774;49770;49772;49860;13164;38821;16402;18509];
 [21791;22903;22904;23876;24956;25579;25578;25580;25767;26137;28195;8308;29697;31772;32771;33096];
 [34522;36241;36242;37270;37271;37265;37267;37848;37845;38231;38232;38818;40453;40954;42252;42250];
 [43054;43049;43055;43205;44146;44488;44634;44633;44937;44936;46555;46553;46554;46780;6124;47110];
 [47109;47215;47213;47216;47968;47966;47971;47962;47967;48665;48669;48667;48674;48668;48670;48887];
 [49028;49173;49336;49345;49409;49418;49618;49781;49780;49778;13520;16411;17424;18297;25581;27321];
 [28196;28357;29699;33098;34551;34753;34754;36244;37273;37274;38234;38824;38949;39070;41025;43058];
 [43059;44491;44490;44492;45459;46560;47217;47979;48683;48681;48666;48678;48679;48682;48888;28477];
 [49782;15128;22906;24959;3705;33264;36250;36246;37278;37277;37340;37850;40459;40962;41026;41575];
 [44939;46562;47985;48687;48686;49350;49550;49787;49783;49784;49788;22908;32775;36247;38873;42253];
 [42254;46563;46564;46835;47221;48695;48693;49551;49792;49791;49876;20660;49132;43893;27664;32873];
 [37284;37851;44497;44941;47990;48697;49796;49794;13522;25582;27665;32132;43892;44943;44942;48699];
 [13003;49800;49798;21852;29092;44149;49803;15129;39071;46565;48704;27666;48891;49804;29093;47223];
 [47224;49878;37855;44498;15130;38825;44499;49354;34756;38065;45668]].

(* lib/converters/cns11643_7.h:939-966 cns11643_7_2uni_upages *)
Definition cns11643_7_2uni_upages : tab := mk [
 [13312;13568;13824;14080;14336;14592;14848;15104;15360;15616;15872;16128;16384;16640;16896;17152];
 [17408;17664;17920;18176;18432;18688;18944;19200;19456;19712;22016;22528;24832;25600;26368;28928];
 [30208;31744;32512;33024;34304;36096;36608;37632;38144;39424;65280;131072;131328;131840;132096;132352];
 [132608;132864;133120;133376;133632;133888;134912;135168;135424;135680;136192;136448;136704;137216;137472;137728];
 [137984;138240;138496;139008;139264;139520;139776;140032;140288;140544;141056;141312;141568;141824;142336;142592];
 [142848;143104;143360;143616;143872;144128;144640;144896;145152;145408;145664;145920;146176;146432;146944;147200];
 [147456;147712;148224;148480;148736;148992;149248;149504;149760;150016;150272;150528;150784;151040;151296;151552];
 [152064;152320;152576;152832;153088;153344;153600;153856;154112;154368;154624;154880;155136;155392;155648;155904];
 [156160;156416;156672;156928;157184;157440;157696;157952;158208;158976;159232;159488;159744;160000;160256;160512];
 [160768;161024;161280;161536;161792;162048;162304;162560;162816;163072;163328;163584;163840;164096;164352;164608];
 [164864;165120;165376;165632;165888;166144;166400;166656;166912;167168;167424;167680;167936;168192;168448;168704];
 [168960;169216;169472;169728;169984;170240;170496;170752;171008;171264;171520;171776;172032;172288;172544;172800];
 [173056;173312;173568;194560;194816;195072]].

(* lib/converters/cns11643_15.h:30-1025 cns11643_15_2uni_page21 *)
Definition cns11643_15_2uni_page21 : tab := mk [
 [21250;21388;21460;21669;21394;21395;21464;21465;21671;22827;22828;22829;22832;22830;22955;6657];
 [23597;23661;64052;23823;21245;24221;25762;26836;28246;28355;29460;21245;39450;21263;21264;21402];
 [21403;21245;21676;54;21399;22598;3663;22646;22647;22702;22842;22909;28357;24232;21245;6906];
 [25921;25922;26840;26841;27050;27051;27714;27713;20633;28358;21245;28725;28726;28727;64131;46669];
 [21245;29877;30231;30594;34486;11593;36722;39004;39080;17847;26851;6;21245;21478;21572;21573];
 [5929;62;21700;21701;21702;21703;21704;21705;21706;21716;22653;46450;22706;22708;22914;22983];
 [22984;21245;23356;23357;23358;23359;64036;23507;21575;6734;23869;24034;24248;24249;24258;24250];
 [24262;24251;25773;25932;25933;21245;27058;27059;27060;27061;27843;27844;27845;27846;27847;21245];
 [28366;28464;28743;28744;8833;29532;21245;29535;30232;30233;30334;9232;30896;32117;9576;32118];
 [33601;33858;21245;34493;10306;10304;6378;36382;36383;36743;11618;36728;38024;38025;38026;39191];
 [39189;21245;21245;12945;41957;43273;43579;43599;21245;47406;47407;48639;48637;48638;17851;17852];
 [21245;21283;21482;21546;21577;21578;21579;21727;21728;21729;21730;22721;21731;21732;21733;22720];
 [21734;21751;21245;21735;21736;21737;21738;21739;22542;22656;22657;22714;22715;22716;22717;22847];
 [22848;22920;64031;23366;21245;23367;23368;23606;23666;23702;23879;24039;24116;24117;24118;24119];
 [24291;24292;24293;24299;373;24294;24295;24296;21245;21245;25785;7656;25786;7771;25955;25956];
 [21245;25957;21245;25958;25980;25959;64090;26713;26857;26858;26859;26860;26861;26862;26863;27071];
 [27083;27075;27093;27076;27077;27091;27078;27079;27080;27081;27082;27722;21245;27857;28257;28471];
 [21245;28772;28774;8857;28775;28776;28777;8855;28787;28778;28779;10338;21245;29554;1084;29881];
 [30236;30262;30396;30398;30399;30400;30599;30940;30941;30965;30942;30943;64158;30944;30945;30946];
 [32044;32045;9636;32169;32156;32157;32158;32159;32160;32161;32162;21245;32163;32164;32167;33602];
 [33683;33873;21245;33874;33860;33875;34338;34502;34503;34505;64221;34506;10342;34504;36388;36389];
 [36390;21245;36391;36392;21245;36696;64251;36775;36744;36745;36773;36776;36777;36778;36779;36780];
 [36781;11683;36729;21245;38036;38037;38038;2469;21245;38039;12415;38040;38990;38991;39193;21245];
 [39489;64298;39927;40708;40729;40727;41792;41964;42779;42780;14070;43278;43602;44504;45350;46452];
 [21245;46453;48326;48651;48652;48653;48654;48655;48656;17864;55129;55130;55683;55684;55685;21245];
 [19189;57632;57633;57634;57635;57636;57641;21492;21245;26767;21585;6059;21783;21784;21851;21785];
 [21786;83;21787;21788;21789;21790;21791;21792;21793;22411;22408;8749;22661;46471;22727;22860];
 [22861;23036;23037;23038;23039;21245;21245;23382;23383;23384;23385;23516;23517;23667;23709;23713];
 [23710;23711;23712;23782;23889;23890;24125;24354;7068;24355;24356;24357;24358;24359;24360;24361];
 [24362;24363;21245;24384;24364;24365;24366;24367;24368;25808;26024;26004;26005;26006;26007;26008];
 [26012;26011;21245;26017;26016;26009;26010;26023;7816;26724;21245;26880;26881;21245;21245;27109];
 [27113;27131;27132;27114;27115;27116;27117;27118;27119;27130;27120;27121;27122;27123;27124;27730];
 [27731;27732;27733;27736;27734;21245;27869;27870;27875;27871;27872;28194;28195;28264;28383;172];
 [28484;28820;28821;28822;28823;28824;28825;64121;28826;28827;28829;28830;28831;28832;29427;29426];
 [29471;29576;29839;29840;21245;29949;29950;29951;29952;29953;31002;21245;30947;30948;30949;30950];
 [30951;30955;30952;30953;30954;31005;31908;31907;32212;32198;32199;32200;32201;32202;32203;32204];
 [32205;1502;32206;9667;33208;33209;33210;33646;33755;33756;33896;33897;33898;33899;33900;33901];
 [33902;10009;34340;34341;21245;34560;34533;34553;34535;34536;34537;34558;34538;34539;34540;1865];
 [34541;10401;34542;10406;34543;21245;34583;34544;34545;35732;35931;35932;35933;36399;2193;36400];
 [36401;36402;36403;36812;36813;36814;36782;36783;36784;2259;36815;36816;36817;36818;36819;21245];
 [36820;2473;38054;38055;38056;38064;38057;38058;38059;38060;38061;38907;38908;21245;39213;39214];
 [39248;39215;39216;39525;39910;39948;39938;39939;39940;39941;39942;21245;40640;40740;40741;40982];
 [41010;42784;42785;42786;42787;14078;42789;43289;43300;43290;43291;43292;43293;64338;43294;43610];
 [43611;43612;43613;43614;44081;21245;45353;21245;45704;45705;46473;15703;46678;47057;47078;47154];
 [47155;47442;47443;3797;47444;47445;21245;21245;48681;48682;48683;48684;48685;64402;48686;48687];
 [48688;48689;48690;48691;16069;48692;50331;50467;50468;21245;50469;50471;51478;53152;55151;17887];
 [55152;55153;17884;5004;55154;55155;55156;55708;55722;55709;55710;3225;55723;55711;57653;57656];
 [63117;21301;21302;44526;21428;63945;21554;21589;21828;21829;21830;21831;6116;21832;21833;21245];
 [21834;21835;21836;21837;21838;21839;21840;21841;46489;22737;21245;22738;22739;22740;22741;23073];
 [23074;23075;23400;23401;23402;23522;23621;23788;23789;23790;23791;21245;23906;23907;24052;21359];
 [24132;24133;24441;7195;24442;24443;24444;24445;24446;24447;24448;392;21245;24449;24450;24451];
 [24452;24453;24454;24455;24463;24456;24457;26053;26054;7850;26055;26056;26057;26058;26059;26060];
 [7851;26061;26062;26083;26063;26064;26065;26066;26067;26052;26068;26069;26070;26656;26657;26906];
 [26898;26900;26901;26902;26905;26903;26904;713;64097;21245;27154;27155;27156;27157;27158;27159];
 [27160;27161;27745;27746;27747;27893;8617;27894;27895;27896;28201;1303;28509;28503;28504;28505];
 [28506;28507;28859;28881;28860;28861;48095;28880;28862;28863;28864;28865;28866;28867;28868;48748];
 [29601;29602;29603;29843;29965;29967;29966;29968;29969;29970;64149;30693;31023;21245;31063;31024];
 [31080;31019;31025;31064;64162;31026;31065;21245;31066;31027;31067;31068;31069;31006;31918;31919];
 [32059;32060;32061;32263;32264;32265;32266;32267;32268;32269;32270;32271;32272;32290;32273;32274];
 [32275;32276;32277;32278;32279;32280;64184;21245;33606;33607;33608;33761;33921;33923;24437;21245];
 [33925;33926;34346;64209;34347;34411;34584;34585;34586;21245;34587;34588;34589;34590;34591;34592];
 [34593;34594;34595;10513;34596;34597;34598;34599;34600;34601;34602;36079;36425;36426;36427;36428];
 [36429;36430;36431;36432;36433;36434;36435;36436;36442;36437;36703;36866;36867;36868;36869;36821];
 [36870;36871;36822;36872;36873;36874;36875;36823;36876;36877;38088;38089;38090;38091;38092;38093];
 [38094;38095;38096;38097;38098;13393;38099;38100;38101;38102;38103;38114;38104;38916;38917;38918];
 [21245;39235;39236;39556;39567;39557;39558;39983;39962;39963;39964;2749;39965;39966;39967;39968];
 [39969;39970;64300;39971;39972;39950;39973;39979;39980;39947;40430;21245;40643;40664;40665;40760];
 [40761;40762;40763;13395;40764;40765;40766;40767;40768;41032;41036;41512;41553;41554;41804;42019];
 [64325;42020;42801;42802;42803;14104;42804;42805;42806;42816;42807;21245;42808;42813;43320;43321];
 [43322;43323;43324;43340;43635;43636;3379;43637;43638;43641;44097;44098;44099;44379;21245;14807];
 [35750;44380;44517;44518;44519;44520;44525;45360;15230;45361;45716;46673;46845;46846;47081;21245];
 [47539;47492;47508;21245;47516;21245;47493;48128;48183;48215;48724;48744;48725;48732;48726;48727];
 [48728;48729;48730;48731;50484;16510;50485;21245;50489;50486;50487;50488;51429;51545;21245;51514];
 [51515;53288;53641;21245;53642;53643;53644;53645;53948;54691;4932;54692;55187;55188;55189;55190];
 [55191;55737;57679;57680;57681;58230;21245;21499;21379;21560;21597;21873;21245;21879;21880;64007];
 [21955;21881;21882;21883;21884;21874;21885;21920;21886;21887;21888;21889;21890;21891;21918;21892];
 [21893;21894;21895;21896;22419;22420;22421;22511;22512;21245;22669;22671;22672;22673;22674;22750];
 [22753;22867;6502;23114;23115;23116;23121;23117;23112;23412;23413;23584;23585;23717;23718;23923];
 [23924;24144;24145;24146;24147;24539;24540;7200;24541;24542;24575;21245;21245;24543;24544;7201];
 [24545;24546;24547;24548;24549;24550;24551;24552;24553;24554;26119;26120;26121;26122;26123;26124];
 [26125;7895;26138;26126;26127;26128;26140;26663;26726;26776;26777;26931;26916;26917;26918;21245];
 [737;27198;64100;27199;27223;27200;27201;27224;27202;27203;27204;27205;27206;738;27207;27755];
 [27756;27920;27921;8638;28277;28399;28522;28523;21245;28524;28525;28526;28911;28912;28913;28914];
 [28915;28916;28917;28927;28918;28930;28919;29474;29636;29635;29992;1148;30240;30245;30242;30243];
 [30443;1251;30713;30714;31129;31130;31131;31075;21245;31070;31071;31072;31132;31073;31133;32340];
 [32341;32342;32343;32344;32345;32346;32281;32362;32347;32348;32349;32358;21245;32350;32351;32282];
 [32352;32353;21245;32354;32283;32355;46864;46865;33612;33691;33771;33772;33773;33774;33955;33960];
 [33958;1772;34351;34352;34353;34354;34355;34639;34641;34642;34685;34643;34644;34645;34646;34647];
 [34648;34649;34650;34651;34652;10583;34653;34654;34655;34671;34656;34657;34658;34659;34674;34660];
 [21245;34670;35765;36453;36454;36455;36456;36457;36458;36459;36460;36878;36931;21245;36879;36932];
 [36933;36934;36935;36936;36937;36880;36938;36939;36940;36941;2271;36942;36943;36944;36945;36946];
 [36947;36948;36949;36950;36951;36952;36953;36954;36893;36955;36956;36957;64262;21245;38142;38143];
 [38144;38145;38146;38147;38148;38149;38150;38151;38168;38152;38153;38131;38154;38155;38171;38156];
 [38157;38158;38159;38160;38927;39009;39033;39617;39596;39597;40003;40004;40005;40006;40007;40008];
 [40009;40036;40010;40011;40012;40013;2759;64301;40505;40791;40792;40793;40799;40794;41066;41515];
 [41565;41566;41567;21245;41568;41569;41816;41817;42058;42059;42060;42061;42062;42839;42675;42676];
 [42862;42843;42844;21245;42845;42846;21245;42860;43325;43348;43326;43349;43350;43327;43351;43352];
 [43353;43354;43355;43356;43656;43657;21245;44120;44121;44122;21245;44391;44392;44393;44394;21245];
 [44395;44396;44542;44543;44544;44545;44546;44547;44548;44549;45369;45370;45371;45372;21245;21245];
 [45746;45747;45748;45749;45750;45751;45752;15676;46498;46689;46690;46868;21245;47083;47170;47176];
 [21245;47171;47182;47172;47173;47540;47541;21245;21245;21245;47542;21245;48097;48133;21245;15987];
 [48794;21245;48795;48796;48797;48798;48799;64410;48800;48801;48802;48821;48803;48804;21245;48805];
 [48806;48807;48808;48815;48809;48810;48811;48812;48813;48819;21245;50336;50518;51508;4391;51516];
 [51980;21245;53054;53155;53296;53297;53655;53656;53657;53658;53659;54706;54699;54700;55804;55784];
 [55785;55786;56049;56383;57294;57709;57710;57711;57712;57713;57714;57715;19390;58232;60218;21607];
 [10234;21604;21605;22023;21956;21957;21958;21959;21960;21961;21989;21962;21963;21245;21964;21965];
 [21966;21967;21968;22423;22426;22427;22762;22764;22765;22775;22766;22767;22875;22876;22877;23149];
 [23150;21245;23151;23425;23426;23631;23725;55818;23934;24169;24660;24661;24662;24663;427;24664];
 [24665;24666;24667;24668;24669;21245;21245;24670;24671;26171;26166;26172;26173;26174;26175;26176];
 [26177;26178;587;26179;26180;26181;26167;21245;21245;26182;26183;26184;26185;26669;26789;26941];
 [26943;27758;27367;27253;27254;27255;27256;27257;27258;27259;27260;27278;27261;27262;8306;27263];
 [27264;27265;27266;27267;27268;27269;27270;27271;27272;27273;27274;27275;27276;27759;27760;27761];
 [27762;27946;27947;27948;27949;27950;27951;27952;27953;28291;28548;28549;28563;21245;28550;28551];
 [28552;28553;28554;28555;28982;28984;28985;28986;994;28987;28988;28989;28990;28991;21245;28992];
 [28993;28994;29662;29663;29664;29665;30026;30027;30028;30029;30030;30031;30032;30247;30457;30458];
 [30459;30616;30617;30618;21245;30750;31134;31223;31135;31136;31216;31224;31225;31137;31138;31139];
 [31140;31141;31226;31227;31228;31229;31230;31263;31231;31232;31372;31233;31938;31939;21245;31955];
 [32078;32431;32432;32433;32434;32435;32454;32436;21245;32437;32438;32439;32440;32441;32442;32443];
 [32444;32445;32446;32447;32449;32448;32450;32451;33361;33362;33363;33364;33365;33626;33616;33617];
 [33656;33784;33785;33990;33995;33996;33997;33998;33999;34000;34001;34002;34003;34004;34005;21245];
 [34359;34360;34419;34704;34705;34751;34706;34707;34708;34709;34710;34711;34712;34713;10685;34714];
 [34715;34716;34717;34718;34719;34720;34721;34722;34723;34724;34725;21245;34726;34727;35775;35776];
 [35777;35778;35779;35780;35781;35782;35957;36163;36114;36255;36241;64246;36242;36243;36244;36478];
 [36479;36480;36481;36482;36684;36707;37056;37057;37058;38202;37059;37060;37061;37062;11797;37063];
 [21245;37064;36979;37065;37066;37067;37068;37069;2318;21245;21245;37070;37071;37072;37073;37074];
 [37075;37076;37077;38203;38204;38205;38206;21245;38207;38208;38209;38210;38211;2497;38212;38213];
 [38233;38214;38215;38216;21245;38217;38931;39042;39043;39270;39271;40037;13075;40038;2777;40053];
 [40052;40039;40045;40054;40040;40041;40042;40043;40015;40044;40440;40517;13304;40518;40676;40837];
 [40815;40816;41090;41091;41092;41099;41517;41576;41577;41591;41572;41578;21245;41714;41698;41827];
 [41828;41829;41830;14909;41831;41832;13784;21245;42098;42109;42601;42884;42886;42887;42888;42910];
 [21245;42889;42890;42902;42891;42892;42893;43385;43395;43386;43357;43387;21245;43679;3400;43680];
 [43681;43682;14588;44138;44139;44140;44141;44142;44408;21245;44409;44412;44577;44578;44579;44580];
 [14905;44581;44582;45393;45394;45398;21245;15435;45793;21245;21245;45782;45783;45784;45785;46517];
 [46700;46703;46704;47036;47037;47085;47195;47196;47197;47198;47494;47495;47597;21245;47598;21245];
 [48142;48143;21245;48429;48426;48430;48588;48889;48890;48891;48892;16313;48893;48923;48894;48895];
 [48896;48897;48898;48899;48929;48900;48901;48902;48903;48904;48905;48906;48907;48908;48909;48910];
 [48911;48912;48913;48914;48915;48916;48917;50555;50556;50557;50558;16591;50559;50560;50534;50561];
 [50562;50563;51378;21245;51583;51570;51546;51947;51989;21245;51990;64458;51991;21245;52165;52166];
 [52167;52360;52361;21245;52362;52363;52364;52365;52959;21245;53307;53308;53309;53310;53311;53312];
 [53313;53314;53596;53679;53673;53674;53675;53676;53685;53677;53678;53986;54564;17582;54724;21245];
 [55274;55251;55252;55253;55686;21245;55687;55805;56069;56393;57183;57299;57301;57738;57739;57740];
 [57741;57742;57743;57744;57745;57746;57747;58237;58238;19435;21245;21245;58604;58715;61319;61318];
 [21245;21318;21319;21506;21613;21614;21615;22029;22030;22031;22032;22033;22034;22035;22036;22431];
 [22432;22433;22435;22561;22562;34428;22677;22678;22881;22887;23185;23186;23187;23188;23434;23435];
 [23543;23588;23728;23729;23950;24068;24170;24171;24172;24173;24808;24844;24809;24810;24845;21245];
 [24811;24812;24813;24814;24815;24816;24817;24818;24854;24819;24836;24861;24820;24821;24822;24823];
 [7344;25858;25859;25860;26266;26236;26309;26237;26238;26239;26240;26241;8000;8002;26242;26243];
 [26244;26245;26246;26247;26798;26957;27312;27356;27318;27319;27320;27321;27322;27323;27355;27324];
 [27325;27326;21245;27327;27328;27329;27330;27331;27342;769;27353;27332;27333;27354;27334;27335];
 [27336;27337;27338;27774;27771;27982;27983;27984;27985;27986;27987;27988;27989;28303;28412;28582];
 [28583;28584;28707;29067;21245;29068;29069;29070;29071;29092;22681;29476;29510;29511;29512;29693];
 [29694;21245;30062;30076;30063;30064;30065;30066;30249;30250;30303;30626;30768;30763;31329;31234];
 [31235;31236;31237;31238;31239;21245;31240;31241;31330;31242;31243;31244;31245;31246;31331;31271];
 [31247;21245;31259;31332;31248;31249;31361;31250;31333;31251;31950;32553;32452;32554;21245;32555];
 [32556;32557;32558;32559;32560;32561;32562;32563;32564;21245;32565;32566;32483;32567;32568;32569];
 [32570;32571;32589;32572;32573;32574;21245;33232;33233;33621;33794;33796;34044;34055;34045;34046];
 [21245;34047;34048;34056;34049;34050;34101;34051;34052;21245;34363;34441;34433;34434;47667;34795];
 [34796;21245;34797;34798;34799;21245;34800;34801;34802;10795;34803;10774;34804;34805;21323;34806];
 [34807;34808;34809;34810;34811;34812;34813;34814;34815;34816;10779;34817;34818;34819;34820;34821];
 [34822;34823;10791;34824;34825;34826;34827;34828;34829;35799;35800;36137;36252;36344;36504;36516];
 [36505;36506;36507;36503;36508;11509;36509;21245;36510;36511;36709;37078;2336;37170;37171;37172];
 [11906;37173;37174;37175;37079;21245;37080;37176;37177;37178;37179;37180;37181;37182;37183;37184];
 [37081;37185;37186;2337;37187;37188;11898;38268;38269;38270;38271;38272;38273;38274;21245;38275];
 [38276;38277;38278;38309;38279;38280;38281;38282;38283;38284;38285;38286;21245;21245;38287;21245];
 [38288;38289;38290;38291;38292;38293;21245;12585;38294;38998;38999;39137;39182;39183;39290;39291];
 [39307;39666;39667;40083;40084;40085;40086;40087;40109;40088;40107;40059;40089;40090;40091;40069];
 [40092;40093;2778;21245;40108;40057;40094;40100;40445;40683;40682;40847;40848;40838;40839;40840];
 [41132;41133;41708;41843;41844;21245;42154;42155;42156;42705;42711;42937;42938;42939;42940;43406];
 [43407;43408;43388;43409;43410;43411;43412;64340;43418;43413;43414;43415;43709;43719;43710;21245];
 [43711;21245;44179;27998;44422;44423;44424;44425;44609;44610;44611;44612;44613;44614;44618;44615];
 [44616;44617;45419;45414;21245;45415;15275;45416;15276;21245;45821;45822;45823;45824;45825;45826];
 [45827;45828;45829;45830;46387;46530;46544;64372;46741;46742;46901;46902;47207;47208;47209;47210];
 [47218;47211;47212;47213;47214;47215;47650;21245;21245;47651;47681;47652;47653;47654;47655;47656];
 [47657;47543;21245;21245;21245;48346;48591;48602;49033;49079;49034;49035;49246;49036;21245;49037];
 [49038;49039;49040;49041;49042;49043;49044;49078;49045;49046;49047;16375;21245;49048;49049;49050];
 [4074;21245;49051;49085;49052;49053;49054;49055;49088;49056;49057;49058;49059;49060;49061;49062];
 [49063;49064;49065;49066;21245;50356;50357;50358;50617;50618;50619;50577;50620;51438;51439;51606];
 [51607;51571;51608;51609;51949;51950;52190;52400;52401;52402;52403;52404;52405;52406;64462;52407];
 [52963;53177;53333;53374;53334;53335;53336;53337;53338;21245;53700;53701;53702;53703;53704;53705];
 [53742;53711;53706;53707;53708;54025;64474;54019;54575;54576;54577;54578;55310;55311;55312;55313];
 [55314;21245;55315;55316;55317;55295;55839;55840;55841;55853;21245;56091;56092;56093;56094;56403];
 [56404;56405;56406;56420;56409;56407;21245;56408;57195;5257;21245;57319;57320;57321;57322;57323];
 [57324;19094;57325;57777;57780;21245;58250;58253;58252;58610;58611;21245;29704;59159;5554;59551];
 [59808;21245;60269;33661;62096;63684;21324;21620;21621;21622;22089;22090;22091;22092;22093;22094];
 [22095;22096;22097;22098;22099;22100;22101;22102;22436;22441;22570;22571;23219;23233;23448;23547];
 [23548;23740;23958;24074;21245;24994;21245;24961;24962;24963;24964;24965;24966;24967;24968;24969];
 [24970;24971;24972;7409;24973;25041;25876;26313;26314;26315;60925;26316;26317;26318;26319;26320];
 [26321;26322;26323;26324;26325;26737;21325;26978;27406;27390;27391;27392;21245;27393;27394;27395];
 [27413;27396;27397;21245;27783;27785;28014;28015;28016;28017;64110;28018;28019;28020;28317;28600];
 [28601;28602;29122;29123;29141;29124;29120;29125;29126;30090;30091;30092;30308;44684;9281;30477];
 [30632;30779;30780;30781;30782;30783;30784;31334;31435;31415;31416;31417;31418;31335;31419;31336];
 [31337;31338;31420;21245;31963;32641;32642;32643;32644;32645;32646;32647;32648;32649;64191;32650];
 [32651;21245;32652;32653;32654;32655;32656;32673;32657;33238;33439;33624;33669;33803;33804;34103];
 [34104;64206;34105;34106;34107;34108;34109;34110;34112;34113;34114;21245;34115;34442;34443;34960];
 [34905;34907;34908;34909;34910;10890;34911;34912;34913;34914;34915;34916;34963;34917;34918;34919];
 [34920;34921;34922;34923;34965;34924;34925;34926;34927;10892;34928;34929;34930;34931;34932;34933];
 [34934;34935;34936;34937;10880;34938;10879;34939;34985;34940;35825;35819;35978;36157;36262;36263];
 [36538;21245;36539;36540;36541;37265;37266;37267;37268;37269;37270;37271;37082;37272;37273;37274];
 [21245;21245;37275;37276;37277;37278;37279;37280;37311;37281;37282;37283;37284;37285;37286;37287];
 [37211;64269;37288;38347;21245;2522;38348;38479;38349;38350;38351;38478;38352;38353;38354;21245];
 [38355;38356;38357;38358;38359;38360;38361;38394;38362;38363;64284;38364;21245;21245;38365;38366];
 [38367;38368;38369;38370;38371;38372;38373;2523;38374;38375;39054;39320;39321;21245;39690;21245];
 [39718;39719;40125;40159;2786;40126;40158;40127;40128;40129;40130;40095;40131;40132;40133;40134];
 [40135;2787;40136;40137;40163;40138;40139;40140;40141;40142;40143;40144;40145;40146;40147;64303];
 [40148;40452;40549;40686;40864;40865;41181;41182;41603;41722;41855;41856;42216;42217;42218;34982];
 [42721;21245;42971;42972;42973;42974;42975;42976;42977;42978;42979;42980;42981;42982;14236;42983];
 [43440;43416;43441;43417;43442;43443;43444;43445;43446;43447;43448;43449;43746;43747;43748;43749];
 [43750;43751;43752;43753;44205;44239;44206;44207;44208;44209;44434;44435;44436;44665;14971;44666];
 [44667;44668;44669;44670;44671;44672;44673;44674;44675;44676;45463;45444;45445;45449;45446;45447];
 [45868;45869;45870;45871;45872;45873;45874;45875;45876;45877;45878;45879;46546;46916;47104;47235];
 [47236;64390;47738;47739;47740;47741;47742;21245;47743;47751;47744;48451;49204;4681;49205;49206];
 [49207;49208;49209;49210;49211;49212;49213;49214;49215;49216;49217;49218;49219;49220;49221;49222];
 [49223;49224;49225;49226;21245;49227;49228;49229;49230;50663;50664;50665;50666;50667;50668;50669];
 [50670;51447;51610;51661;64456;51619;51662;52017;52018;52019;52452;21245;52453;52454;53192;53364];
 [53365;53366;53367;53368;53369;53370;53601;53727;53728;53729;53730;53731;53732;53733;53734;4851];
 [54065;54589;54590;54591;54772;54773;54774;21245;55063;55361;55362;55363;55364;55365;55366;55367];
 [55368;55369;55370;55371;18130;55738;55876;56362;56429;18292;64487;56446;56430;56431;56432;56433];
 [56438;57209;19104;21245;57348;57336;57349;57818;57819;57820;57821;57822;57823;57824;57825;58309];
 [58266;58267;58268;58584;58585;58586;58734;5463;59243;53379;21245;59862;59837;21245;34094;60924];
 [61523;61623;62860;63118;62975;21366;21510;21630;22148;22149;22150;22151;22152;22183;22153;22154];
 [22155;22156;22157;22158;22159;22179;22160;22161;22162;22163;22188;22164;22165;22166;22442;22443];
 [22686;6313;22792;22793;22888;22889;22890;22938;23257;23258;23259;23464;23553;23592;23671;23741];
 [23742;25184;23968;23970;24079;24197;25086;25087;25088;25089;25110;25090;25091;25092;25093;25094];
 [25095;25096;25122;25097;25098;25099;25100;25108;25129;24942;25101;25102;25103;25104;25105;25106];
 [25107;25883;25884;25885;26387;26367;26368;26369;26370;26371;26372;26378;26373;26374;26375;26376];
 [26682;26739;26991;26992;26993;21330;21245;28058;27488;64105;27435;27428;27436;27437;27438;27439];
 [27440;27441;27442;27443;27444;27445;27461;27446;27794;27795;28040;28041;28042;28043;28223;21245];
 [28618;29174;29175;29176;29177;29739;21245;29860;29902;21245;30110;30111;30112;30113;30114;30115];
 [30116;30117;30118;30488;30816;30817;30818;30819;30820;31421;31422;31499;31423;31424;21245;31500];
 [31373;31501;31502;31582;31503;31504;31425;31505;21245;31426;31978;31979;32739;32740;32741;32742];
 [32743;32658;32842;21245;32744;32745;32746;32769;32747;32748;32751;32749;32750;32752;32753;32754];
 [32755;32756;32757;32758;32759;32760;32761;32766;32762;32763;32764;34147;34148;34149;34150;34151];
 [34152;35083;35085;1980;35086;35087;1956;35092;35028;35029;35030;35031;35032;35033;35034;35035];
 [35036;35037;35038;35039;35040;35041;35042;35043;35044;35045;35046;35047;35048;35049;35050;35051];
 [35052;35308;35053;35054;35055;35072;35056;35844;21245;35845;64243;36277;64249;36566;36567;36568];
 [36569;37289;37376;37377;37378;37379;37380;37381;37382;37439;37383;37384;37385;37386;37302;37387];
 [37388;21245;21245;37389;21245;37390;37391;37392;37393;37394;37429;37395;37396;37290;21245;37569];
 [37397;37398;37399;38430;38431;38432;38433;21245;38434;38435;12693;38436;38437;38438;38439;38440];
 [38441;38442;38443;38407;38444;38445;38446;2536;21245;38447;38448;38472;38449;38450;12696;38451];
 [21245;38452;38453;38454;39001;39057;39143;39352;39353;39354;39355;39368;39757;39817;39760;39720];
 [40187;40188;40189;40190;40191;13176;40192;40193;40194;40164;40165;40195;40196;40197;40198;40199];
 [40211;40200;40201;40166;40202;40203;40204;40459;40692;40714;40881;41245;64315;41611;41612;41615];
 [41613;41614;41734;41862;42274;42275;42276;42277;42278;42279;42280;42737;14265;43043;43026;21245];
 [43027;43028;43029;43030;43031;43032;43033;43083;43034;43035;43036;21245;43037;43038;43039;43040];
 [43466;30124;43467;43468;43469;43470;21245;43471;43792;43793;43794;43795;43796;43791;43797;43798];
 [43799;14643;43800;44230;44447;44448;44452;44449;44725;44726;44727;44728;44729;44730;44752;44742];
 [44731;44732;44733;44734;44735;44736;44737;44738;64352;45479;45480;45481;45482;45483;45484;45500];
 [45485;45486;15296;45487;45488;45489;15297;45492;45490;45926;45927;45928;45929;45930;45931;45932];
 [45933;45934;45935;21245;46398;46399;46400;46568;46930;46931;46932;46933;47249;47250;47251;47252];
 [47253;47254;47255;47256;21245;47257;47258;47259;47799;47800;47801;21245;47802;47803;47805;21245];
 [47804;64392;64391;48107;48108;48150;48196;48355;48472;48467;48468;48608;49329;49330;49331;49386];
 [21245;49332;49392;49333;49334;49335;49336;49337;49338;49339;49340;49341;49342;49343;49344;49345];
 [49346;49347;21245;49348;49349;49350;49404;49351;49352;49353;49354;49355;49356;49540;49357;49358];
 [49359;49360;49361;49362;50378;50379;50742;50743;50847;50744;50745;50746;16708;51646;51696;51647];
 [51648;51959;51960;51962;52035;52036;52495;52496;52497;52498;17325;52499;52500;52501;52502;21245];
 [21245;53203;53207;21245;53424;53400;53392;53393;53394;53399;53395;53604;53761;53762;53763;53764];
 [53765;53766;53767;54106;54107;54606;54607;54608;54809;54810;54811;21245;54812;21245;55065;55066];
 [4998;56458;55406;55407;18020;55408;55409;55410;55411;55412;55413;55414;56122;56123;56124;56154];
 [56125;56130;56459;56480;56460;56461;56462;56491;56463;18295;56464;56465;56466;56490;18351;56467];
 [56468;56478;56488;21245;21245;57856;57857;57858;57859;57860;57861;58052;58053;21245;58286;58290];
 [21245;21245;58615;58643;59038;59269;42624;59336;60225;60289;60290;60291;60292;60868;60869;60870];
 [61333;61334;61335;61528;61529;21245;62121;62122;62123;62862;62979;63155;24194;21331;21635;21636];
 [21637;22220;22221;22222;22223;22224;21245;22225;22226;22234;22451;22452;21245;22803;22798;22891];
 [23555;23649;23745;23746;23989;21568;25240;25241;25242;25243;25244;25245;25246;25247;25326;25248];
 [25249;25222;25893;26420;26421;26449;26413;38498;26452;26450;621;26422;26423;26424;26425;26426];
 [26427;26472;26428;622;26743;34198;27006;27007;27497;27498;27499;27500;27501;27502;27503;27485];
 [27504;27525;27505;27506;27507;27508;27509;27510;27524;27511;27523;27802;28071;28072;28073;28074];
 [28075;28076;28087;28077;28078;21245;28229;28627;28628;28629;28630;28631;29222;29223;29224;21245];
 [29225;29226;29445;9060;29904;30135;21245;30136;30137;30498;30499;30835;30836;31631;31506;31507];
 [31508;31509;31510;31511;31512;31585;31590;31591;31513;31592;31514;31593;32004;32005;21245;32006];
 [31997;32848;32849;32850;32851;32852;32853;32867;64196;32854;32855;32856;32857;32858;32859;21245];
 [32860;32861;32862;32863;33495;21245;33632;33633;33815;33849;34191;34248;34192;34193;34456;34457];
 [35140;35141;35142;35161;35310;11051;35143;35144;21245;35145;35146;35147;35148;35149;35150;35151];
 [35152;35153;35154;35155;35156;35157;35158;35861;35994;36184;36348;36349;37510;37511;37512;37513];
 [37514;37515;37516;21245;37663;37517;37518;37519;37520;37521;37522;37523;64273;37524;37525;37322];
 [37400;21245;37526;37527;37528;37529;37530;37531;37532;37533;37534;37535;12102;21245;37536;37537];
 [12186;37559;21245;38550;38504;38505;38540;38506;38507;38508;38509;38510;38511;38527;38532;38512];
 [38513;38533;38514;38515;38516;38517;38518;21245;38519;38520;38521;38522;38523;38524;64286;39060];
 [39381;39721;40235;40236;40237;40238;40239;40240;40254;40241;40242;40243;40244;40245;40465;2899];
 [40896;41282;41283;41284;41285;41286;41868;41869;41870;41871;41872;41873;42339;42340;42341;21245];
 [64330;21245;42742;43062;43063;43052;43064;43065;21245;43066;43491;43490;43509;43847;21245;43848];
 [43849;43850;43851;43852;44456;44457;44458;21245;44811;44806;44915;44812;44813;44814;44815;44816];
 [21245;44817;64354;44818;44820;44821;44822;21245;44819;44823;45529;45530;45531;21245;45532;45990];
 [45991;45992;45993;45994;45995;21245;64365;45996;45997;45998;21245;21245;45999;46000;46001;46404];
 [46405;46583;46584;46955;46956;46945;47122;47279;47280;47281;47282;47283;47284;47285;47286;47394];
 [47850;47851;47852;47853;3901;48109;48155;48199;48360;48592;48615;48616;48617;49486;49487;49488];
 [49522;49489;49490;64423;4134;49491;49492;49493;49494;49495;49527;49496;49497;49498;49499;49500];
 [49518;49501;4135;21245;49502;4136;49503;21245;50391;50825;50826;21245;64446;50827;50828;50829];
 [50830;64444;50831;21245;50842;50832;50833;50834;50835;51730;51697;21245;51966;51963;52055;52553];
 [52554;52555;52556;21245;52557;52569;52558;52559;52980;53093;53414;53415;53416;53794;53795;54155];
 [54156;54157;54158;54616;21245;54617;54843;54844;54845;54846;55112;55444;55445;55446;55447;55448];
 [55933;55806;55934;55935;21245;56155;56156;56548;56513;56573;56514;56534;56515;56516;21245;56540];
 [56517;56518;56519;56545;56520;56521;56522;56523;18418;56524;56525;57397;57398;57415;57399;57883];
 [57884;57885;57886;57887;57888;57979;57978;58110;58310;58311;58312;58313;58314;21245;59296;59297];
 [59596;59597;59889;59863;60226;60230;60323;60325;60326;60875;60876;60966;60967;60968;60969;61358];
 [61359;61360;61555;21245;61564;61556;21245;62080;61557;19577;21245;62159;21245;63119;22896;21381];
 [22167;22262;22263;22264;22266;22267;22458;22459;22460;22461;22580;22581;22690;22804;22801;22894];
 [22895;23304;23480;23817;23997;23998;24200;25342;7546;25343;25344;25345;25346;25347;25348;25349];
 [25350;21245;25351;25352;25353;25354;25355;25356;25357;25358;25359;21245;21245;21245;25900;26475];
 [21245;26476;26503;26477;26744;27019;27556;27557;27558;27559;27582;27560;27561;27562;27533;27563];
 [27564;27583;21245;812;27565;27566;27812;27813;28103;28104;28105;53436;28106;28107;28108;28109];
 [28110;28441;28646;29260;29261;29262;29446;21245;30157;30158;30159;30160;9308;30849;30850;22579];
 [31594;31595;31666;31596;31597;31692;31662;31667;31633;21245;31598;31668;31599;32969;32935;32936];
 [32937;32938;32939;32940;32941;32942;32943;32944;32864;32945;33249;33507;33526;9945;34223;34224];
 [34225;34234;34226;34227;34380;21245;34464;34465;35248;35249;35250;35251;35252;64235;35253;35254];
 [35255;35256;35257;35258;11122;35259;35260;35261;35262;35263;35295;35264;35265;35266;35267;35268];
 [11128;21245;35269;35270;35271;35272;35273;35274;35388;35275;35276;35277;35278;35279;35280;35281];
 [11354;35869;35870;36196;36197;36293;36294;36295;36351;36607;36608;36609;36610;37621;37724;37622];
 [37623;37552;37624;37625;37725;37712;37626;37627;37538;37628;37629;37630;37631;64275;37632;64287];
 [38593;38594;38595;38596;38597;38598;38599;38600;38601;38602;38603;58351;38615;38604;38605;38606];
 [38690;38607;38608;21245;38609;38610;38633;38611;38612;38613;38968;25403;39805;22639;39841;40275];
 [40276;2811;40277;40252;40278;21245;40294;2812;40279;40280;40281;40282;40283;40295;40284;21245];
 [21245;40298;40285;40253;40286;40293;40929;40909;62225;41327;41328;41754;41882;41883;41884;41886];
 [41887;64319;42382;21245;42749;21245;43102;43103;43104;43109;43111;43112;43113;21245;43114;43151];
 [43115;43116;43117;43511;43512;43513;43492;43514;43953;43893;43894;44287;44288;44289;44290;44291];
 [44462;44461;44881;44882;21245;44883;44884;44885;44886;44887;44888;44889;44890;44891;44892;44893];
 [44894;44895;44896;44897;44898;44899;44900;44876;44902;45553;45554;46066;46067;46068;46069;46070];
 [46071;46072;46073;46074;46412;46411;46619;46798;46771;46975;64377;64380;47130;47300;47301;47302];
 [47303;47304;47305;21245;47897;47900;47898;48204;48270;48510;49643;49644;49645;49646;49647;49648];
 [49649;49624;49625;49626;49627;49650;49651;49652;49671;21245;64428;21245;49653;49685;21245;49654];
 [49655;49656;49657;49658;49659;49660;49661;49662;49831;49663;49664;49665;49666;49667;49668;49669];
 [50409;50410;50411;50910;50911;21245;50912;50913;50914;50915;51774;51775;51776;51777;52081;52082];
 [52083;52616;52617;52618;52619;52620;52621;52622;52623;52624;52625;52626;21245;53233;53438;53439];
 [53440;53441;53442;53443;53614;53815;53847;53816;53817;53818;53819;53820;53821;53822;53799;53823];
 [21245;21245;54208;54209;17598;54631;21245;54632;54872;54885;54873;54874;55076;55501;55502;55503];
 [55506;55967;55842;56189;56190;56575;56613;56576;56577;18491;56578;56579;56580;20776;56581;56582];
 [56583;56598;56584;56599;56585;56586;18496;56587;56588;56617;18490;56589;21245;56590;56592;56593];
 [56605;56594;56595;21245;56596;56597;57229;57428;57429;57430;57907;57908;57909;57910;58106;58339];
 [58342;58349;58343;58344;58345;58346;58347;58663;58656;64504;59178;59337;21245;59338;59339;59353];
 [59340;59341;59342;21245;59617;59931;59932;59933;59934;60231;60369;60361;60880;60881;60991;60992];
 [60993;64521;60994;61380;61595;61586;61587;19606;61588;61589;21245;21245;62195;62196;62197;62198];
 [62816;62878;62880;62881;63004;63135;21334;22290;22303;22293;22294;22295;64012;22296;22466;22467];
 [22468;22689;22811;22812;22897;23315;24087;24207;25439;25440;25516;21245;21245;25441;25442;25443];
 [25444;25445;21245;26521;26522;26523;26524;26525;26526;26527;26528;27610;27611;27612;27613;27614];
 [27615;28117;28118;28119;28120;28128;28340;21245;29294;29295;29296;29795;21245;30165;30166;30167];
 [30168;30512;31669;31670;31681;31735;1440;31691;31720;21245;31721;31671;32021;32998;32999;33000];
 [33001;33002;33003;64202;33547;33548;33636;34260;34261;34262;34264;34469;21339;35343;35344;21245];
 [35345;35346;35347;35348;35349;35350;35351;35352;35353;35354;35375;35355;35356;35391;35357;35358];
 [35372;35359;35876;36004;36005;46417;36350;36625;36626;36627;36692;37726;37665;37695;37696;37697];
 [37698;37699;37700;37664;37701;21245;37702;37808;37703;37719;37633;37809;37722;37704;38660;38661];
 [12789;38735;38736;38662;38663;38664;38665;38666;38667;38668;38669;38670;38671;38672;38673;38963];
 [38964;38965;39164;39165;39856;39857;39858;39859;2817;40315;40316;40317;40318;40319;40320;40321];
 [40322;40697;40922;41377;21245;21245;41901;41902;21245;42440;42441;42442;43138;43139;43140;43141];
 [43142;43143;43144;43145;43146;21245;43527;43528;43521;43529;43522;43530;43531;43532;43943;43928];
 [43929;43930;43931;43932;14672;43933;44314;44466;44976;44977;15124;44978;44979;44980;44981;44982];
 [44992;44983;44984;44985;44986;45085;45580;45581;45582;45621;45583;45584;45585;45586;46114;46115];
 [46116;21245;46117;46118;46119;46120;46121;46122;46123;46124;46125;46126;46418;46419;46617;46783];
 [46987;46988;47139;47140;47345;47320;64383;47950;47951;47957;47952;47953;47954;47955;47874;47956];
 [48113;48164;48593;49788;49789;49790;49791;49792;49823;49793;49794;49795;49796;49797;49798;49799];
 [49800;49819;49801;49802;49803;49804;21245;49825;49805;49806;50419;50420;50421;50980;50981;50982];
 [50983;50984;50985;50986;21245;50987;51405;51457;30861;51824;52096;52097;52672;52673;52674;52675];
 [52676;52677;52678;52679;52680;53246;21245;53465;53468;53466;53621;53848;53849;53850;53851;53852];
 [54252;4890;54259;54642;54643;54914;54915;55082;55083;55084;55085;55542;55552;55543;55544;55545];
 [21245;56212;56213;56214;56347;56710;56652;56653;56707;21245;56706;56654;56655;56656;56657;56705];
 [18567;56658;56659;56660;56661;21245;56662;56663;18565;56664;56667;56668;56669;56670;56671;56672];
 [56673;56700;56674;5180;21245;56675;56676;57459;57925;57926;57927;57932;58130;21245;58131;58425];
 [58371;58381;58672;58837;59072;59378;59379;59380;59381;59382;59383;59642;59643;59973;59974;60233];
 [60391;60392;60888;60889;61013;61014;61015;61402;61403;61404;61624;61625;61626;19633;61627;62089];
 [61628;62256;62257;62258;62259;21245;62260;62261;62262;20039;62263;62898;63120;63014;63138;63288];
 [21245;22318;21245;22319;22320;22314;22315;22473;22583;22816;22898;23327;23653;23754;24000;24001];
 [24002;25527;25528;25529;25530;25531;21245;21245;25532;25533;25534;25586;26549;26551;26552;25567];
 [26553;26581;26554;26555;26698;27634;27635;27636;27642;27637;27650;28130;28131;29326;29323;30180];
 [30187;30181;30517;30867;31722;31723;21245;31724;31725;31767;31726;31727;31728;33038;33039;33040];
 [33049;33048;33041;33042;33043;64199;33044;33045;1643;33046;33637;34282;34283;34284;34285;21245];
 [34286;34476;35522;35433;35457;35434;35435;35436;35437;35438;35439;35440;2036;35441;35442;35443];
 [35468;35444;35445;35446;36644;36650;37774;37807;37775;37776;37777;21245;37778;37779;37780;37781];
 [37782;37783;37784;37785;37786;37787;37788;38713;38715;38714;38716;38717;38718;38719;38768;38720];
 [38721;39872;39873;40356;40343;40357;40344;40345;40346;21245;40347;40358;40348;40349;40350;40351];
 [56782;40392;40352;40473;40717;41919;42473;42474;43170;43171;43172;43173;43174;43541;43543;43967];
 [43968;43969;43970;43971;43972;43973;27661;44323;44478;45059;45060;45061;45062;45063;45064;45065];
 [45066;45067;45068;45088;45069;45070;45071;21245;45606;45607;45608;46173;46174;46175;46176;46177];
 [46178;46179;46180;46181;46423;46799;46800;47001;47002;47338;47339;47340;47998;47999;48000;21245];
 [21245;48001;48002;48115;48165;48287;48288;48371;48384;49899;49900;49901;49902;49903;21245;4188];
 [49904;49905;49906;49907;49908;49909;49913;49914;49915;49916;49917;49918;49919;49920;64430;49921];
 [49922;50435;51078;51065;21245;51066;51067;51068;51076;51069;51070;51071;51846;51847;51968;51969];
 [52104;52105;52106;52725;21245;52773;52726;53483;53484;53485;53486;4743;53487;53488;53868;54305];
 [54306;54307;54308;54309;54310;54651;54652;54929;54930;54931;55566;55567;55568;56243;56374;56774];
 [56737;56738;18617;56739;56780;56740;56741;56742;56779;56743;21245;56744;56745;56746;21245;56747];
 [56748;56749;18623;56750;56751;56752;57484;57485;57486;64497;57490;57487;57938;57939;57940;57941];
 [58409;21245;58867;58868;59405;59406;59407;59408;59668;60017;60018;60431;60420;60422;21245;60423];
 [60892;60893;61037;61049;61038;21245;61420;61661;61662;61663;61664;61665;61666;61667;61668;61754];
 [61669;19663;61670;62315;62316;38734;20068;62909;62910;62911;63028;20415;63506;22336;22337;25602];
 [25603;25604;25605;25606;26583;26572;27032;27654;27655;27823;27824;28138;28146;29346;29347;29348];
 [29814;30197;30198;30199;21245;31803;31781;31802;31804;31805;31806;33079;33080;33081;33082;33083];
 [33084;33085;33086;33087;33099;21245;33088;33570;33639;33747;34298;21245;35516;21245;21245;35493];
 [2055;35510;21245;35494;35515;35495;35496;35497;35498;35499;35500;35519;35501;35502;35503;35886];
 [36352;37789;37790;37835;37836;37837;37838;37839;21245;37791;37840;37841;37842;37843;37844;21245];
 [21245;38749;38750;38751;38752;2821;40378;40380;2822;40373;40381;40374;40375;40376;40360;64306];
 [40702;40700;41441;41924;41925;42516;43182;43183;43184;43185;43193;44007;45126;21245;45127;45128];
 [45129;45086;45087;45130;45131;45132;45133;45134;21245;45638;45643;46224;46225;21245;46226;46227];
 [46228;46427;47346;47352;47353;48020;48036;48023;48024;48169;48302;48559;50009;50010;21245;50011];
 [50012;50013;50014;50015;50016;50017;49834;50018;50019;50020;50021;50022;50023;50024;50025;50026];
 [50027;50028;50029;50030;50031;21245;51122;51123;51124;4345;51125;51126;51127;51128;51129;51130];
 [51131;51848;17080;52761;52762;52763;53014;53516;53517;53518;53519;21245;53891;53892;53893;54659];
 [54660;54960;21245;55590;55591;55606;55592;55593;21245;21245;56807;56808;56809;5203;56810;56811];
 [21245;56812;56813;56814;56815;56816;56817;56844;56818;56819;56820;56821;56822;56823;56824;57507];
 [57508;57509;57510;57511;21245;57948;21245;58443;58593;58901;21245;58902;58903;59436;59437;59682];
 [59683;60054;60055;21245;60462;60464;60465;21245;60895;61067;61068;21245;61069;61436;61437;61438];
 [61439;61719;61741;61720;19699;61721;21245;61714;61722;61723;61724;5737;21245;62359;5861;62360];
 [62361;21245;63172;22351;22477;24007;25628;25629;25630;26599;26601;26602;26603;27669;28657;28658];
 [29366;30880;31818;32032;33120;33121;33089;33122;34307;34308;35545;35546;35547;35548;35549;21245];
 [35550;35551;35552;35553;35554;2066;35555;21245;36657;37893;37894;37895;38770;38794;38795;38792];
 [21245;38796;38797;38798;38799;38800;38978;38979;21245;40385;40386;40387;40388;41931;42530;21245];
 [21245;43203;43204;43205;43206;43550;43557;44019;44020;21245;44021;44344;44360;44490;15183;45178];
 [45179;45653;45654;46257;46258;46259;21245;46260;46261;47012;47360;47361;47362;48044;21245;48307];
 [50102;50103;50104;50105;50106;50107;50108;50109;50110;50111;50112;50113;50114;50115;50116;50117];
 [50118;50119;51171;51172;51173;51174;51175;21245;51893;51873;52117;52795;52796;52797;52798;53012];
 [53536;53537;53538;53539;53540;53910;53911;53912;54420;54421;54422;54423;54424;54671;54672;54972];
 [55099;55613;21245;56287;56350;56867;56868;56905;56869;56870;56871;56872;18725;56873;56874;56878];
 [56879;56910;56880;64491;56881;56882;56883;56884;56885;56886;21245;56887;56912;56888;21245;56889];
 [56890;56891;56892;56893;56894;57528;57529;57954;57955;58177;58477;21245;58962;58935;59099;59455];
 [59700;60251;60486;60506;60507;60897;60898;60899;60900;61095;61096;61097;61455;61483;61782;61783];
 [61784;61790;61785;61786;61787;61788;21245;61800;21245;62508;62434;62451;62930;63062;63182;63329];
 [63899;63924;22364;64016;22482;22641;22899;23340;24212;21245;25663;25664;26617;26618;26621;26619];
 [27676;27677;28159;28160;28663;40958;21245;30646;31828;33143;33145;33146;33147;33641;35586;35587];
 [35588;35589;35590;35591;35592;35593;35594;35595;35637;21245;36665;37918;37919;37920;37921;21245];
 [37922;37923;37924;37932;38835;38837;38838;38839;38840;40400;40954;41479;41661;41943;41938;43227];
 [43222;22365;44355;44495;45219;45220;45221;45222;45223;45224;45225;45661;45662;46281;46282;46283];
 [46284;47366;47367;21245;48069;48117;48308;48312;48309;50173;4215;50174;50175;50176;50177;50178];
 [50179;50185;50180;50181;50182;50183;51217;51218;51219;51220;51221;17015;52120;52121;53564;53549];
 [53550;21245;54459;54460;4984;55101;55623;55624;55625;55626;56033;56039;56299;56352;56376;56930];
 [56935;56936;56937;56938;56939;56941;56942;56943;56944;56945;56946;56975;56947;56948;56949;56950];
 [56951;57545;57546;19174;57547;57548;57549;58193;21245;21245;58693;59481;59482;59483;59712;60111];
 [60254;60539;60819;61116;61462;61488;21245;61837;61838;19759;61839;61840;61841;61842;61843;61844];
 [61845;61846;62499;62484;62939;63242;63694;22374;22376;22375;22483;25699;26628;27038;27686;27690];
 [31852;31844;33167;33168;33588;34318;35621;35622;35623;21245;35624;11276;21245;35625;35626;35627];
 [35628;36670;37954;37955;37939;38849;38850;38851;40406;40407;43233;43234;43563;44497;45260;45261];
 [45262;45263;46302;46303;46304;46305;48118;50220;21245;50260;50221;50222;51265;51266;51911;52128];
 [52129;52848;52849;52850;21245;53556;53557;53558;53926;54476;21245;54681;56308;56987;56990;56991];
 [56992;56993;56994;56995;56996;56997;56998;56999;57000;57563;57564;57565;57559;57566;57567;58201];
 [59206;59493;59721;21245;60125;60565;60566;60567;61140;61142;61478;19783;5768;61896;61893;61894];
 [61895;62545;62546;62547;62548;62549;62942;21245;22381;22485;25714;29870;30223;31851;31853;31854];
 [31864;33176;33177;33178;35652;35676;35653;36353;37976;37977;37978;21245;38873;38870;40410;40415];
 [40411;40963;43247;14390;43571;44498;45281;45679;46436;47374;50256;50257;50258;51286;51287;51288];
 [21245;52865;52866;53021;53022;53571;53930;56317;21245;57030;57031;57049;57047;21245;57032;57033];
 [57034;57035;57050;21245;57036;57037;57038;57039;57040;57041;57020;57569;57570;57571;58537;58702];
 [59511;21245;21245;60588;60589;60854;61157;61944;61930;62093;61931;62613;22382;22488;25731;27043];
 [27696;28175;31865;31866;33191;33192;33193;33194;34329;35664;35665;35666;11285;35688;35667;35668];
 [39906;40412;44053;44054;44367;45301;45302;45303;46324;47052;47375;50278;50279;21245;50280;52132];
 [52875;52876;54522;57062;57069;57070;57071;57072;57086;57575;57576;58547;58596;59523;60908;21245];
 [61974;21245;21245;61975;62659;62636;62957;21245;21245;63668;21245;25738;25739;27700;28180;29407];
 [30651;31871;31873;33197;33198;35682;35694;21245;37998;21245;39447;40422;40720;44057;21245;47376];
 [48626;50294;50295;52885;52886;57088;57089;57137;64493;57116;58221;61172;61173;61501;62002;62003];
 [62964;21245;22387;27703;21245;35697;45327;21245;45326;47377;50309;57108;57109;57110;57111;57112];
 [57113;57114;58563;62018;62019;62020;62024;62715;27045;27832;33202;33597;35698;38887;38888;42585];
 [43578;45332;46335;48320;50317;4228;50318;21245;57122;21245;21245;61188;61225;62033;62054;62734];
 [64531;21245;25755;25756;30230;31878;31879;21245;57132;57136;57128;59743;21245;38014;45337;54538];
 [57142;57596;62061;62062;63942;6837;35707;46342;51359;62770;54541;31883;57147;21245;62781;57148];
 [57149]].

(* lib/converters/cns11643_15.h:1027-1060 cns11643_15_2uni_upages *)
Definition cns11643_15_2uni_upages : tab := mk [
 [13312;13568;13824;14080;14336;14592;14848;15104;15360;15616;15872;16128;16384;16640;17152;17408];
 [17664;17920;18176;18432;18688;18944;19456;20224;20736;20992;21248;21504;21760;22016;22272;22528];
 [23040;23296;23552;24064;24320;25088;25856;26112;26368;26624;26880;27136;27392;27648;28160;28416];
 [28672;28928;29440;29696;29952;30208;30464;30720;30976;31232;31488;31744;32000;32512;33280;33536];
 [34304;34560;35072;35328;36352;36608;36864;37376;37632;37888;38144;38400;39680;39936;40192;40448];
 [40704;64000;65280;131072;131328;131584;131840;132096;132352;132608;132864;133120;133376;133632;133888;134144];
 [134400;134656;134912;135168;135424;135680;135936;136192;136448;136704;136960;137216;137472;137728;137984;138240];
 [138496;138752;139008;139264;139520;139776;140032;140288;140544;140800;141056;141312;141568;141824;142080;142336];
 [142592;142848;143104;143360;143616;143872;144128;144384;144640;144896;145152;145408;145664;145920;146176;146432];
 [146688;146944;147200;147456;147712;147968;148224;148480;148736;148992;149248;149504;149760;150016;150272;150528];
 [150784;151040;151296;151552;151808;152064;152320;152576;152832;153088;153344;153600;153856;154112;154368;154624];
 [154880;155136;155392;155648;155904;156160;156416;156672;156928;157184;157440;157696;157952;158208;158464;158720];
 [158976;159232;159488;159744;160000;160256;160512;160768;161024;161280;161536;161792;162048;162304;162560;162816];
 [163072;163328;163584;163840;164096;164352;164608;164864;165120;165376;165632;165888;166144;166400;166656;166912];
 [167168;167424;167680;167936;168192;168448;168704;168960;169216;169472;169728;169984;170240;170496;170752;171008];
 [171264;171520;171776;172032;172288;172544;172800;173056;173312;173568;194560;194816;195072]].

