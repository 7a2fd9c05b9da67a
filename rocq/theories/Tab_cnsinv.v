(** GENERATED by tools/gen.py from /repo/lib/converters; do not edit.
    Mapping tables. *)
From Coq Require Import ZArith List Bool.
From Verif Require Import Base Tab_cnsinv1 Tab_cnsinv2 Tab_cnsinv3.
Import ListNotations.
Open Scope Z_scope.

(* lib/converters/cns11643_inv.h:30-13893 cns11643_inv_2charset *)
Definition cns11643_inv_2charset : tab := mk (cns11643_inv_2charset_part1 ++ cns11643_inv_2charset_part2 ++ cns11643_inv_2charset_part3).

(* lib/converters/cns11643_inv.h:13895-13902 cns11643_inv_uni2indx_page00 (flattened, 2 fields per entry) *)
Definition cns11643_inv_uni2indx_page00 : tab := mk [
 [0;0;0;0;0;0;0;0;0;0;0;0;0;0;0;0];
 [0;0;0;0;0;128;1;131;4;0;4;128;5;0;5;128]].

(* lib/converters/cns11643_inv.h:13903-13915 cns11643_inv_uni2indx_page02 (flattened, 2 fields per entry) *)
Definition cns11643_inv_uni2indx_page02 : tab := mk [
 [6;0;6;0;6;0;6;0;6;0;6;0;6;0;6;0];
 [6;0;6;0;6;0;6;0;6;3712;10;512;11;0;11;0];
 [11;0;11;0;11;0;11;0;11;0;11;0;11;0;11;0];
 [11;0;11;65534;26;1019;35;65534;50;1019]].

(* lib/converters/cns11643_inv.h:13916-13932 cns11643_inv_uni2indx_page20 (flattened, 2 fields per entry) *)
Definition cns11643_inv_uni2indx_page20 : tab := mk [
 [59;0;59;13144;66;96;68;18468;72;0;72;0;72;0;72;0];
 [72;0;72;0;72;4096;73;0;73;0;73;0;73;0;73;0];
 [73;552;76;0;76;0;76;0;76;0;76;0;76;1023;86;1023];
 [96;0;96;975;104;0;104;0;104;0;104;0;104;0;104;0];
 [104;0;104;50208;108;19969;113;4144;116;0;116;4;117;195;121;0];
 [121;0;121;0;121;32;122;32768]].

(* lib/converters/cns11643_inv.h:13933-13948 cns11643_inv_uni2indx_page24 (flattened, 2 fields per entry) *)
Definition cns11643_inv_uni2indx_page24 : tab := mk [
 [123;65535;139;65535;155;2;156;0;156;0;156;0;156;1023;166;16368];
 [176;0;176;0;176;0;176;0;176;0;176;0;176;0;176;0];
 [176;4101;179;4369;183;4112;185;4112;187;0;187;16385;189;58370;194;15];
 [198;65534;213;48;215;3;217;12300;221;51392;226;0;226;60;230;0];
 [230;608;233;0;233;0;233;0;233;7]].

(* lib/converters/cns11643_inv.h:13949-14510 cns11643_inv_uni2indx_page30 (flattened, 2 fields per entry) *)
Definition cns11643_inv_uni2indx_page30 : tab := mk [
 [236;65295;248;24631;255;1022;264;0;264;0;264;0;264;0;264;0];
 [264;0;264;0;264;0;264;0;264;0;264;0;264;0;264;2048];
 [265;65504;276;65535;292;1023;302;0;302;0;302;0;302;0;302;0];
 [302;0;302;0;302;0;302;0;302;0;302;0;302;0;302;0];
 [302;0;302;0;302;0;302;0;302;0;302;0;302;0;302;0];
 [302;0;302;0;302;8;303;0;303;0;303;0;303;0;303;0];
 [303;0;303;0;303;0;303;0;303;0;303;0;303;0;303;0];
 [303;49152;305;28672;308;2;309;0;309;16400;311;38;314;0;314;0];
 [314;4211;320;4160;322;31506;330;24415;342;65086;354;65419;366;49400;373;65275];
 [387;32767;402;65278;416;49139;429;65533;444;57276;456;65019;470;62367;482;32766];
 [496;64767;510;30639;522;63487;537;65535;553;65535;569;57335;583;65279;598;8175];
 [610;33279;620;33279;630;4095;642;65520;654;16383;668;8185;679;16380;691;63615];
 [703;16359;715;65147;728;49151;743;36831;755;61375;769;32303;780;65471;795;24575];
 [809;65215;823;62973;836;32767;851;65535;867;58942;877;32767;892;65510;905;32767];
 [920;65534;935;32751;949;57343;964;65535;980;62911;993;64511;1008;65277;1022;65527];
 [1037;40959;1051;40959;1065;49150;1079;65279;1094;65467;1108;65503;1123;49125;1135;65407];
 [1150;65527;1165;16383;1179;59367;1191;65526;1205;57343;1220;65535;1236;61421;1249;65535];
 [1265;65407;1280;65535;1296;55275;1308;32125;1320;64511;1335;65311;1348;47229;1358;64743];
 [1370;65534;1385;65279;1400;55295;1414;53247;1428;65535;1444;64639;1457;64511;1472;63487];
 [1487;65279;1502;65023;1517;65535;1533;65525;1547;32767;1562;18428;1572;65534;1587;65534];
 [1602;65535;1618;65279;1633;59391;1647;65535;1663;32761;1676;32765;1690;49151;1705;65279];
 [1720;64439;1733;62574;1743;64383;1757;57331;1770;60479;1781;65471;1796;57075;1808;16383];
 [1822;65534;1837;32701;1850;65263;1864;39807;1876;8094;1886;65342;1899;65287;1910;65287];
 [1921;63999;1935;65535;1951;65530;1965;38911;1978;65535;1994;65529;2008;64639;2021;53247];
 [2035;65535;2051;61431;2065;65535;2081;65279;2096;65535;2112;57332;2124;48639;2138;65407];
 [2153;65535;2169;65534;2184;48639;2198;32767;2213;65023;2228;65487;2242;32752;2253;65528];
 [2266;51199;2279;32767;2294;65507;2307;63999;2321;64639;2334;58367;2347;65535;2363;61439];
 [2378;61939;2389;56830;2402;65531;2417;56893;2428;61439;2443;36863;2456;63871;2469;56313];
 [2481;65343;2495;65535;2511;65535;2527;32751;2541;65279;2556;65535;2572;63743;2585;65534];
 [2600;57279;2614;65023;2629;32763;2643;42943;2655;32671;2668;59134;2680;63887;2691;65511];
 [2705;65270;2718;65535;2734;65535;2750;65535;2766;32735;2780;65519;2795;65535;2811;61367];
 [2824;65535;2840;65535;2856;65535;2872;65473;2883;65534;2898;65518;2912;65534;2927;65535];
 [2943;61439;2958;57343;2973;65439;2987;65535;3003;65534;3018;65471;3033;64509;3047;65535];
 [3063;63487;3078;65535;3094;65279;3109;65503;3124;65415;3136;32766;3150;32511;3164;61439];
 [3179;64511;3194;48959;3207;65527;3222;64975;3235;65023;3250;32767;3265;62463;3279;65535];
 [3295;61247;3308;65535;3324;49151;3339;65519;3354;64495;3368;65535;3384;65535;3400;32743];
 [3413;65535;3429;65535;3445;64767;3459;65535;3475;65407;3490;65535;3506;65519;3521;65535];
 [3537;61439;3552;65535;3568;65531;3583;65535;3599;65311;3612;57343;3627;65535;3643;65535];
 [3659;63487;3674;65535;3690;65535;3706;63;3712;65532;3726;65535;3742;65534;3757;65535];
 [3773;65535;3789;47103;3803;61407;3817;65535;3833;65535;3849;57343;3864;40959;3878;65535];
 [3894;65471;3909;65535;3925;64511;3940;65535;3956;65535;3972;65471;3987;48639;4001;48767];
 [4014;65407;4029;65021;4043;16383;4057;16383;4071;65534;4086;65423;4099;58623;4111;63487];
 [4126;65535;4142;65535;4158;65535;4174;65535;4190;65531;4205;65534;4220;65527;4235;65471];
 [4250;65535;4266;65535;4282;61439;4297;49151;4312;65535;4328;65471;4343;57343;4358;63479];
 [4372;65535;4388;47103;4402;65535;4418;65531;4433;50175;4445;65527;4460;63487;4475;63423];
 [4489;65535;4505;65503;4520;61423;4534;65535;4550;65535;4566;65527;4581;65535;4597;65535];
 [4613;65535;4629;65535;4645;64519;4654;65527;4669;65535;4685;62975;4699;65535;4715;61439];
 [4730;4095;4742;65534;4757;65535;4773;65531;4788;65535;4804;65535;4820;65535;4836;65531];
 [4851;61439;4866;65471;4881;65535;4897;64511;4912;65535;4928;65535;4944;65535;4960;63485];
 [4974;32760;4986;65151;5000;65527;5015;64511;5030;65023;5045;65531;5060;65471;5075;65527];
 [5090;65534;5105;65535;5121;65015;5135;65531;5150;65407;5165;61439;5180;65535;5196;511];
 [5205;65408;5214;63487;5229;65023;5244;15934;5254;32510;5267;65535;5283;54783;5296;65535];
 [5312;65535;5328;64511;5343;65535;5359;65535;5375;49135;5389;65535;5405;65535;5421;65535];
 [5437;65535;5453;32767;5468;64511;5483;65535;5499;65535;5515;65535;5531;65535;5547;65535];
 [5563;65535;5579;65535;5595;65535;5611;65535;5627;32767;5642;61439;5657;64511;5672;65535];
 [5688;65535;5704;65535;5720;65535;5736;65535;5752;65479;5765;65535;5781;65023;5796;63487];
 [5811;65407;5826;65535;5842;49151;5857;65463;5871;65535;5887;65535;5903;64511;5918;65519];
 [5933;65407;5948;7935;5960;65504;5971;65471;5986;65535;6002;65535;6018;65535;6034;65023];
 [6049;65535;6065;64519;6074;65279;6089;65535;6105;65535;6121;65535;6137;65535;6153;65535];
 [6169;65535;6185;65535;6201;40959;6215;59;6220;0;6220;0;6220;0;6220;0];
 [6220;65471;6235;50167;6246;61279;6259;47983;6271;60399;6284;63454;6297;1804;6302;49722];
 [6309;64511;6324;64510;6338;63871;6351;22239;6362;65535;6378;65521;6391;50175;6403;65535];
 [6419;65535;6435;16383;6449;62212;6456;65535;6472;65535;6488;65535;6504;65503;6519;65535];
 [6535;65535;6551;65535;6567;51215;6574;65535;6590;65535;6606;65535;6622;53951;6633;65535];
 [6649;65535;6665;65535;6681;65535;6697;37887;6709;65535;6725;65535;6741;65535;6757;16383];
 [6771;65535;6787;65535;6803;64591;6814;65535;6830;65535;6846;65535;6862;65535;6878;65531];
 [6893;65535;6909;65535;6925;65535;6941;65535;6957;65535;6973;65535;6989;32767;7004;54254];
 [7015;65533;7030;58367;7043;16255;7056;63487;7071;65535;7087;65535;7103;30015;7114;26623];
 [7127;57343;7142;61951;7155;53247;7169;32767;7184;65530;7198;65532;7212;65535;7228;65533];
 [7243;32767;7258;65535;7274;65529;7288;65531;7303;63487;7318;64511;7333;65535;7349;65535];
 [7365;65531;7380;65535;7396;49087;7410;65535;7426;65535;7442;65471;7457;63483;7471;65535];
 [7487;53213;7499;65500;7512;65523;7526;28671;7540;65343;7554;65277;7568;65535;7584;49151];
 [7599;65535;7615;65391;7629;65535;7645;65535;7661;65535;7677;58387;7684;65535;7700;65535];
 [7716;65535;7732;54655;7744;65535;7760;65535;7776;65535;7792;17473;7796;65535;7812;65535];
 [7828;65535;7844;4095;7856;65475;7868;65535;7884;65535;7900;65535;7916;3455;7926;64750];
 [7938;65535;7954;65535;7970;65535;7986;35967;7996;65535;8012;65535;8028;51199;8041;65495];
 [8055;65535;8071;64511;8086;65477;8098;65535;8114;65535;8130;51199;8143;65535;8159;61439];
 [8174;65535;8190;65535;8206;65505;8218;65535;8234;49151;8249;65439;8263;65531;8278;49103];
 [8291;65471;8306;65023;8321;65471;8336;63615;8348;65535;8364;35839;8376;65534;8391;65535];
 [8407;64911;8419;65535;8435;24575;8449;65520;8461;65535;8477;63679;8489;65535;8505;65535];
 [8521;65535;8537;65437;8550;65535;8566;65535;8582;65469;8596;65535;8612;49151;8627;65534];
 [8642;65535;8658;65023;8673;65535;8689;64703;8702;59391;8716;65407;8731;56287;8744;65215];
 [8758;65407;8773;49151;8788;65535;8804;61951;8817;65529;8831;65471;8846;65535;8862;65535];
 [8878;65151;8892;65535;8908;61951;8921;65535;8937;65535;8953;65535;8969;65535;8985;65535];
 [9001;65055;9013;65535;9029;65535;9045;65515;9059;65535;9075;65535;9091;65535;9107;65455];
 [9121;65535;9137;65535;9153;57343;9168;65535;9184;65535;9200;65515;9214;65535;9230;65529];
 [9244;65535;9260;65535;9276;65535;9292;65471;9307;65535;9323;48639;9337;57343;9352;65535];
 [9368;65535;9384;65533;9399;64508;9412;57343;9427;65023;9442;65535;9458;65535;9474;59391];
 [9488;65531;9503;53247;9517;48959;9530;65515;9544;65523;9558;65535;9574;65471;9589;32699];
 [9602;65523;9616;62143;9628;65535;9644;4095;9656;65475;9668;65535;9684;65382;9696;65535];
 [9712;65475;9724;65535;9740;57343;9755;65535;9771;65535;9787;51967;9799;65535;9815;65471];
 [9830;65535;9846;65535;9862;65535;9878;65535;9894;65503;9909;65535;9925;19455;9937;61439];
 [9952;32735;9966;61438;9980;65343;9994;59389;10007;65023;10022;65535;10038;65535;10054;65535];
 [10070;65471;10085;16357;10096;65535;10112;61439;10127;65535;10143;65535;10159;65519;10174;65535];
 [10190;65023;10205;65471;10220;64510;10234;65535;10250;65503;10265;32767;10280;65279;10295;63487];
 [10310;65535;10326;65503;10341;65535;10357;65535;10373;65471;10388;65535;10404;65535;10420;65535];
 [10436;65409;10446;65535;10462;65535;10478;9215;10489;65535;10505;65535;10521;65535;10537;53311];
 [10546;65535;10562;65535;10578;18431;10590;65535;10606;65535;10622;65535;10638;18431;10650;65535];
 [10666;65535;10682;65535;10698;65455;10712;65535;10728;65535;10744;65533;10759;65535;10775;65535];
 [10791;65535;10807;65535;10823;65535;10839;65535;10855;65535;10871;65513;10884;65535;10900;65519];
 [10915;63423;10929;65407;10944;65535;10960;65535;10976;65519;10991;65439;11005;57855;11017;65535];
 [11033;65535;11049;32767;11064;65528;11077;65535;11093;65535;11109;65535;11125;64531;11134;65535];
 [11150;65535;11166;35583;11177;65290;11187;65535;11203;65535;11219;16383;11233;65521;11246;65535];
 [11262;65535;11278;65535;11294;65535;11310;58439;11318;65535;11334;65535;11350;65535;11366;18431];
 [11378;65480;11389;65535;11405;65535;11421;65535;11437;64203;11448;65535;11464;65535;11480;65535];
 [11496;65519;11511;65535;11527;65535;11543;64095;11555;65535;11571;40959;11585;65535;11601;65535];
 [11617;65535;11633;65531;11648;65535;11664;65535;11680;65535;11696;63487;11711;65023;11726;40959];
 [11740;32703;11754;65527;11769;65023;11784;65535;11800;65534;11815;65503;11830;65535;11846;65151];
 [11860;65535;11876;65535;11892;65535;11908;8191;11921;65535;11937;65415;11949;65535;11965;65535];
 [11981;65523;11995;65535;12011;65407;12026;65535;12042;65535;12058;65535;12074;65535;12090;55295];
 [12104;65535;12120;65535;12136;65023;12151;65534;12166;65525;12180;65535;12196;64615;12207;65535];
 [12223;65535;12239;65535;12255;53342;12263;65535;12279;65535;12295;65535;12311;65535;12327;57343];
 [12342;115;12347;65535;12363;65535;12379;65535;12395;65535;12411;18431;12423;63488;12428;65535];
 [12444;57343;12459;65535;12475;65535;12491;9215;12502;65530;12516;65535;12532;65535;12548;65535];
 [12564;65535;12580;23039;12592;56992;12600;65535;12616;65535;12632;65535;12648;65535;12664;49151];
 [12679;62573;12689;65535;12705;65535;12721;65535;12737;65535;12753;1023;12763;65534;12778;65535];
 [12794;65535;12810;65535;12826;16383;12840;65532;12854;65535;12870;65535;12886;65535;12902;58823];
 [12912;65535;12928;65535;12944;65023;12959;65535;12975;65023;12990;65535;13006;65519;13021;65407];
 [13036;65503;13051;32767;13066;65535;13082;65535;13098;65535;13114;65535;13130;65535;13146;61439];
 [13161;65407;13176;64499;13189;65535;13205;65533;13220;65531;13235;32223;13248;49151;13263;65535];
 [13279;49023;13293;65407;13308;65019;13322;56287;13335;65151;13349;65535;13365;65519;13380;65535];
 [13396;65535;13412;65535;13428;64527;13438;65535;13454;65535;13470;65535;13486;65535;13502;33343];
 [13510;65535;13526;65535;13542;65535;13558;65535;13574;63;13580;65472;13590;65535;13606;65535];
 [13622;65535;13638;4095;13650;64544;13657;65535;13673;65535;13689;65535;13705;65535;13721;65535];
 [13737;40959;13751;65444;13762;65535;13778;65535;13794;65535;13810;65535;13826;65535;13842;32767];
 [13857;61269;13868;65535;13884;65535;13900;65535;13916;65535;13932;16383;13946;64328;13955;65535];
 [13971;65535;13987;65535;14003;65535;14019;65535;14035;55167;14048;65535;14064;65535;14080;65535];
 [14096;65535;14112;59391;14126;65535;14142;65535;14158;65535;14174;65529;14188;65535;14204;65023];
 [14219;65535;14235;65535;14251;65535;14267;65535;14283;16383;14297;65534;14312;57343;14327;65535];
 [14343;65534;14358;36863;14371;65535;14387;53247;14401;65521;14414;65535;14430;50239;14439;65535];
 [14455;65535;14471;65167;14483;65535;14499;45055;14513;65534;14528;65503;14543;65535;14559;65527];
 [14574;65535;14590;65535;14606;65535;14622;65535;14638;65535;14654;65535;14670;65535;14686;65343];
 [14700;65535;14716;65535;14732;65535;14748;65397;14761;57343;14776;61439;14791;65535;14807;65503];
 [14822;64511;14837;65535;14853;65534;14868;65151;14882;65279;14897;49151;14912;16383;14926;65528];
 [14939;65527;14954;32767;14969;65532;14983;65023;14998;65535;15014;65535;15030;57319;15043;65535];
 [15059;65535;15075;61951;15088;49151;15103;65532;15117;65535;15133;65533;15148;65535;15164;65528];
 [15177;16383;15191;65532;15205;65535;15221;65407;15236;65535;15252;65535;15268;65535;15284;65407];
 [15299;49151;15314;65535;15330;65535;15346;65535;15362;65535;15378;65531;15393;65407;15408;61432];
 [15420;65503;15435;65023;15450;65535;15466;61391;15479;65503;15494;65531;15509;65022;15523;65511];
 [15537;57339;15551;32575;15564;4092;15574;65535;15590;64767;15604;65471;15619;61695;15631;65535];
 [15647;65423;15660;65151;15674;62463;15688;16383;15702;57343;15717;40959;15731;63415;15744;64511];
 [15759;65535;15775;65533;15790;65535;15806;65529;15820;32767;15835;65532;15849;65535;15865;65535];
 [15881;53247;15895;65535;15911;61439;15926;65535;15942;65535;15958;65532;15972;65535;15988;65535];
 [16004;65471;16019;65523;16033;65535;16049;65535;16065;63231;16079;65535;16095;63487;16110;32767];
 [16125;65532;16139;60223;16151;65535;16167;8703;16177;65532;16191;61727;16201;65535;16217;65347];
 [16228;65535;16244;63487;16259;65535;16275;65439;16289;65535;16305;64895;16319;65535;16335;65503];
 [16350;65527;16365;65471;16380;65535;16396;63463;16409;49143;16423;65535;16439;32767;16454;65279];
 [16469;65503;16484;65535;16500;65535;16516;65535;16532;65535;16548;65535;16564;32767;16579;40943];
 [16592;65535;16608;65535;16624;65511;16638;65535;16654;65527;16669;40953;16681;65527;16696;65407];
 [16711;40959;16725;53247;16739;57247;16752;65535;16768;65527;16783;49087;16797;65535;16813;65535];
 [16829;65395;16842;65503;16857;65535;16873;44031;16886;65535;16902;50175;16914;65535;16930;3071];
 [16941;65534;16956;64511;16971;61503;16981;65535;16997;32767;17012;65521;17025;16383;17039;65535];
 [17055;65535;17071;65335;17084;65535;17100;65533;17115;65533;17130;65535;17146;65533;17161;65535];
 [17177;32763;17191;65534;17206;56319;17220;65535;17236;65535;17252;65279;17267;65535;17283;65023];
 [17298;65535;17314;65535;17330;65343;17344;65535;17360;65535;17376;65535;17392;65535;17408;65407];
 [17423;65535;17439;62463;17453;65535;17469;65535;17485;65535;17501;65487;17515;65535;17531;65535];
 [17547;65439;17561;65535;17577;65279;17592;65535;17608;62463;17622;65535;17638;65407;17653;65535];
 [17669;65527;17684;32766;17698;0;17698;0;17698;0;17698;0;17698;0;17698;0];
 [17698;0;17698;0;17698;0;17698;65472;17708;65019;17722;64439;17735;65535;17751;65519];
 [17766;65533;17781;32767;17796;64511;17811;65535;17827;65535;17843;63743;17856;65535;17872;65535];
 [17888;65535;17904;65535;17920;65403;17934;65535;17950;51195;17962;65519;17977;65019;17991;65535];
 [18007;65526;18021;65535;18037;65534;18052;4095;18064;65532;18078;65535;18094;57471;18104;65535];
 [18120;2047;18131;65520;18143;65535;18159;65043;18169;65535;18185;63807;18197;65535;18213;43007];
 [18226;65535;18242;65533;18257;65487;18271;65471;18286;65535;18302;61431;18316;65535;18332;65535];
 [18348;65471;18363;65407;18378;49143;18392;47100;18404;57343;18419;57327;18433;65534;18448;64510];
 [18462;65275;18476;65407;18491;65535;18507;65535;18523;1599;18531;65535;18547;65535;18563;65535];
 [18579;32767;18594;65477;18606;65535;18622;65535;18638;65535;18654;511;18663;12;18665;65535];
 [18681;65535;18697;65535;18713;65535;18729;57985;18735;65535;18751;65535;18767;65535;18783;65535];
 [18799;65535;18815;51711;18827;65034;18836;65535;18852;65535;18868;65535;18884;65535;18900;65535];
 [18916;57695;18926;65535;18942;65535;18958;65535;18974;65535;18990;19967;19002;65430;19014;65535];
 [19030;65535;19046;65535;19062;65535;19078;59711;19089;65535;19105;65535;19121;65535;19137;65515];
 [19151;65535;19167;65535;19183;40959;19197;65535;19213;65535;19229;65527;19244;65535;19260;65535];
 [19276;65535;19292;65515;19306;65535;19322;65534;19337;32751;19351;65535;19367;65535;19383;32767];
 [19398;65520;19410;65535;19426;59391;19440;65535;19456;40959;19470;65535;19486;32767;19501;65504];
 [19512;65535;19528;65407;19543;65535;19559;65535;19575;62719;19588;65535;19604;65535;19620;16383];
 [19634;65534;19649;65535;19665;65087;19678;65535;19694;32767;19709;65534;19724;65535;19740;65535];
 [19756;65535;19772;65535;19788;65535;19804;65535;19820;65535;19836;65519;19851;61391;19864;65535];
 [19880;65439;19894;65535;19910;8191;19923;65534;19938;65031;19948;65535;19964;65475;19976;65535];
 [19992;65519;20007;53247;20021;65535;20037;65519;20052;65375;20066;65503;20081;65279;20096;65535];
 [20112;65534;20127;65535;20143;65535;20159;65535;20175;1;20176;49148;20189;32767;20204;65535];
 [20220;65533;20235;64511;20250;65535;20266;65527;20281;65535;20297;32767;20312;65535;20328;65535];
 [20344;63999;20358;65535;20374;49151;20389;65535;20405;65535;20421;64511;20436;65535;20452;65535];
 [20468;65535;20484;65535;20500;65533;20515;65535;20531;65535;20547;63487;20562;65535;20578;65531];
 [20593;32767;20608;65535;20624;0;20624;0;20624;0;20624;0;20624;0;20624;0];
 [20624;0;20624;0;20624;0;20624;65408;20633;65535;20649;65535;20665;49151;20680;65535];
 [20696;65535;20712;65535;20728;65535;20744;65535;20760;49151;20775;65535;20791;65535;20807;65535];
 [20823;65535;20839;8191;20852;0;20852;0;20852;0;20852;0;20852;64496;20863;65503];
 [20878;65535;20894;65535;20910;65535;20926;65277;20940;65519;20955;49151;20970;65503;20985;62495];
 [20995;45055;21009;65535;21025;20479;21038;65535;21054;65535;21070;65531;21085;65535;21101;8191];
 [21114;32766;21128;59391;21142;65535;21158;63455;21172;65247;21186;65535;21202;65523;21216;65535];
 [21232;61439;21247;65535;21263;65535;21279;65535;21295;61439;21310;65535;21326;63;21332;0];
 [21332;0;21332;63488;21337;62975;21351;56319;21365;65535;21381;37887;21393;65535;21409;65523];
 [21423;64511;21438;65535;21454;65343;21468;65023;21483;65535;21499;65343;21513;65503;21528;65535];
 [21544;65535;21560;57343;21575;61439;21590;62463;21604;32767;21619;65524;21632;65343;21646;65279];
 [21661;65535;21677;65535;21693;65535;21709;65535;21725;65531;21740;38911;21753;65471;21768;8189];
 [21780;65535;21796;65407;21811;65519;21826;65279;21841;64255;21855;65531;21870;65533;21885;58367];
 [21898;65535;21914;65535;21930;59647;21942;65535;21958;65535;21974;65535;21990;65535;22006;65533];
 [22021;65535;22037;65535;22053;65535;22069;65535;22085;65535;22101;65535;22117;65535;22133;65535];
 [22149;65535;22165;65535;22181;65535;22197;49151;22212;65517;22226;65535;22242;65535;22258;65535];
 [22274;65535;22290;65535;22306;65535;22322;64511;22337;65535;22353;65535;22369;65535;22385;65534];
 [22400;65535;22416;65535;22432;65469;22446;65535;22462;65533;22477;65527;22492;65535;22508;65535];
 [22524;31;22529;0;22529;0;22529;0;22529;0;22529;0;22529;0;22529;0];
 [22529;0;22529;0;22529;0;22529;0;22529;0;22529;0;22529;0;22529;32640];
 [22537;64511;22552;65535;22568;64511;22583;65535;22599;32767;22614;65535;22630;255;22638;32];
 [22639;0;22639;28672;22642;65535;22658;65439;22672;64543;22683;65535;22699;64543;22710;64511];
 [22725;65535;22741;65534;22756;65535;22772;65535;22788;65535;22804;65535;22820;65534;22835;49143];
 [22849;65533;22864;65535;22880;57343;22895;65535;22911;12287;22924;65511;22938;65503;22953;65533];
 [22968;65471;22983;65528;22996;32767;23011;65535;23027;65535;23043;65535;23059;57407;23068;65535];
 [23084;65535;23100;65535;23116;61439;23131;65535;23147;65535;23163;65535;23179;65535;23195;31];
 [23200;0;23200;0;23200;64256;23207;65519;23222;16351;23235;47104;23239;48894;23252;65535];
 [23268;24575;23282;65535;23298;65535;23314;65535;23330;65535;23346;65535;23362;3;23364;0];
 [23364;0;23364;65472;23374;65535;23390;65535;23406;65503;23421;65535;23437;65535;23453;65531];
 [23468;65535;23484;65523;23498;65279;23513;65535;23529;65535;23545;65535;23561;4095;23573;0];
 [23573;0;23573;0;23573;65280;23581;65535;23597;59359;23610;65535;23626;65535;23642;65535];
 [23658;65535;23674;65527;23689;65535;23705;65471;23720;65407;23735;49151;23750;65535;23766;65279];
 [23781;65535;23797;65407;23812;65535;23828;65515;23842;49151;23857;65532;23871;65535;23887;65497];
 [23900;65535;23916;63743;23929;65535;23945;65534;23960;65535;23976;58367;23989;61951;24002;4094];
 [24013;0;24013;0;24013;0;24013;0;24013;0;24013;0;24013;65504;24024;65534];
 [24039;49151;24054;65535;24070;59391;24084;65535;24100;65215;24114;65535;24130;65503;24145;65535];
 [24161;8191;24174;65535;24190;63487;24205;65535;24221;65471;24236;65535;24252;65535;24268;65535];
 [24284;65535;24300;32767;24315;0;24315;0;24315;0;24315;0;24315;0;24315;48864];
 [24324;65535;24340;65535;24356;65535;24372;63743;24385;65023;24400;65535;24416;63997;24429;65535];
 [24445;51199;24458;65535;24474;65533;24489;65535;24505;65535;24521;65533;24536;65531;24551;32767];
 [24566;57344;24569;29695;24582;63]].

(* lib/converters/cns11643_inv.h:14511-14515 cns11643_inv_uni2indx_pagefa (flattened, 2 fields per entry) *)
Definition cns11643_inv_uni2indx_pagefa : tab := mk [
 [24588;0;24588;0;24588;256]].

(* lib/converters/cns11643_inv.h:14516-14528 cns11643_inv_uni2indx_pagefe (flattened, 2 fields per entry) *)
Definition cns11643_inv_uni2indx_pagefe : tab := mk [
 [24589;0;24589;0;24589;0;24589;65511;24603;32287;24614;65271;24628;3967;24639;0];
 [24639;0;24639;0;24639;0;24639;0;24639;0;24639;0;24639;0;24639;0];
 [24639;65402;24652;65535;24668;65535;24684;38911;24697;65534;24712;16383;24726;0;24726;0];
 [24726;0;24726;0;24726;0;24726;0;24726;0;24726;0;24726;35]].

(* lib/converters/cns11643_inv.h:14529-15366 cns11643_inv_uni2indx_page200 (flattened, 2 fields per entry) *)
Definition cns11643_inv_uni2indx_page200 : tab := mk [
 [24729;35773;24739;1813;24745;29231;24754;2144;24757;14794;24765;2284;24771;60150;24782;57559];
 [24791;45564;24801;24508;24812;54077;24822;63231;24836;35420;24843;50039;24853;9459;24861;31071];
 [24872;65524;24885;61182;24898;29983;24908;951;24916;40889;24927;58362;24938;65215;24952;16497];
 [24957;55039;24970;12292;24973;46072;24983;8181;24994;36860;25005;65297;25015;4095;25027;49302];
 [25033;65531;25048;65507;25061;63367;25072;65535;25088;65520;25100;2423;25108;32766;25122;65486];
 [25135;7679;25147;16470;25152;32765;25166;20479;25179;65534;25194;10367;25203;65454;25216;65535];
 [25232;64385;25241;4511;25249;65027;25258;57087;25272;65297;25282;49535;25292;57220;25301;4095];
 [25313;65532;25327;20479;25340;53390;25347;65487;25361;62879;25373;1239;25380;65438;25393;3537];
 [25400;32577;25409;36324;25417;52734;25429;64623;25441;61495;25450;49038;25461;61392;25471;61132];
 [25481;15739;25492;53241;25504;12063;25514;49023;25528;64348;25539;47532;25548;60595;25558;8667];
 [25566;57311;25580;49133;25593;36775;25603;29690;25614;27998;25624;60767;25636;62461;25649;12015];
 [25660;46131;25668;55039;25681;19151;25690;16342;25701;32767;25716;32702;25729;62950;25740;64766];
 [25753;32753;25765;63966;25777;64191;25790;62959;25803;49089;25813;49039;25825;61319;25836;61423];
 [25850;59847;25860;61382;25871;65514;25884;65439;25898;58271;25909;4095;25921;65505;25933;64503];
 [25947;4804;25952;49151;25967;367;25974;65535;25990;16191;26002;61190;26011;59327;26024;57346];
 [26028;65535;26044;12575;26052;65520;26064;63631;26074;65534;26089;40959;26103;65472;26113;64555];
 [26123;59903;26136;63629;26145;56527;26156;64479;26170;12766;26179;50174;26190;65351;26202;64311];
 [26214;53239;26227;1020;26235;41471;26246;40927;26259;65531;26274;63454;26287;53247;26301;65467];
 [26315;53179;26327;57279;26341;64831;26354;55163;26366;56895;26378;32335;26389;65134;26401;28159];
 [26414;12781;26423;65406;26437;15487;26448;28915;26457;50455;26465;57243;26477;65407;26492;16380];
 [26504;60399;26517;65373;26530;61613;26539;12279;26551;64671;26563;65478;26575;65501;26589;65311];
 [26602;65488;26613;65406;26627;60533;26637;65065;26647;21383;26655;50877;26665;8181;26676;40475];
 [26685;50679;26696;64907;26707;65518;26721;49150;26735;65215;26749;65535;26765;65515;26779;55679];
 [26791;61438;26805;32767;26820;65023;26835;4031;26846;65350;26857;32767;26872;23034;26882;104];
 [26885;65328;26895;32767;26910;65534;26925;33125;26931;16385;26933;65535;26949;64511;26964;65071];
 [26976;56319;26990;137;26993;60928;26999;65535;27015;32767;27030;63488;27035;53247;27049;36755];
 [27058;8;27059;0;27059;65486;27072;65535;27088;1039;27093;65534;27108;1063;27113;677];
 [27118;0;27118;0;27118;32640;27126;64959;27140;65535;27156;65534;27171;65408;27180;31231];
 [27193;12305;27197;8256;27199;24576;27201;36847;27213;65535;27229;57343;27244;20479;27257;32768];
 [27258;65535;27274;8;27275;20;27277;0;27277;61440;27281;65523;27295;65535;27311;49219];
 [27316;65535;27332;21887;27343;524;27346;0;27346;0;27346;12288;27348;65533;27363;65407];
 [27378;8063;27390;65472;27400;34019;27407;1;27408;65504;27419;65535;27435;16639;27444;64512];
 [27450;65535;27466;13;27469;0;27469;48640;27475;64510;27489;33007;27497;15167;27508;0];
 [27508;35840;27511;65535;27527;5119;27538;32704;27547;0;27547;40960;27549;65535;27565;132];
 [27567;1916;27575;32766;27589;9;27591;36862;27603;3;27605;63376;27614;24586;27618;65351];
 [27630;52840;27638;6159;27644;9103;27652;57341;27666;32730;27678;2559;27688;1055;27694;62207];
 [27707;65181;27719;49138;27731;29756;27739;54154;27747;13334;27753;44804;27760;4351;27769;4334];
 [27776;65535;27792;24568;27803;4603;27812;32752;27823;65520;27835;31103;27847;65417;27858;511];
 [27867;65474;27878;38893;27889;65264;27900;64479;27914;34815;27926;58;27930;65523;27944;64767];
 [27958;16639;27967;1249;27972;57216;27980;65531;27995;65455;28009;191;28016;60928;28022;33279];
 [28032;18431;28044;59451;28053;12159;28065;24575;28079;34692;28085;57110;28095;14687;28105;1984];
 [28110;32708;28120;65101;28131;33051;28137;16319;28150;13824;28154;3775;28164;7896;28172;49023];
 [28186;36758;28195;61344;28204;45559;28215;32481;28225;31840;28232;65390;28245;57311;28259;65502];
 [28273;44371;28282;63422;28295;65084;28306;58333;28317;4426;28322;62268;28332;65391;28346;65425];
 [28357;64119;28369;42997;28380;2685;28388;49149;28402;63378;28412;13793;28420;65285;28430;65479];
 [28443;40931;28454;22979;28462;36153;28470;65343;28484;28664;28495;65517;28509;65063;28520;32415];
 [28532;65535;28548;48126;28561;65515;28575;57727;28586;46335;28598;65410;28608;4095;28620;65508];
 [28632;24575;28646;65307;28658;65503;28673;65473;28684;18431;28696;65138;28707;65535;28723;57503];
 [28732;18751;28741;65215;28755;63733;28766;8703;28776;48940;28786;48895;28800;65313;28810;62207];
 [28823;12284;28834;16382;28847;32760;28859;49590;28867;64495;28881;64567;28892;60946;28900;62911];
 [28913;47559;28923;16356;28933;57214;28946;54999;28957;59375;28970;31231;28983;65358;28995;28359];
 [29005;56056;29015;58798;29025;41535;29034;62241;29042;63996;29054;63426;29064;65037;29074;3571];
 [29083;59391;29097;53275;29104;65533;29119;63571;29128;50175;29140;51775;29150;63487;29165;64543];
 [29176;53119;29189;36313;29198;32703;29212;62928;29221;32767;29236;65020;29249;62989;29258;63631];
 [29268;46329;29278;44894;29289;55181;29299;60955;29309;32102;29319;58991;29330;36643;29338;57912];
 [29345;49167;29351;57889;29357;194;29360;34835;29365;59004;29375;64341;29386;63471;29400;7676];
 [29410;32412;29420;13303;29431;65149;29444;62913;29453;63519;29463;12223;29475;32255;29489;65175];
 [29501;24575;29515;65534;29530;63435;29542;20351;29554;42996;29564;49659;29574;14787;29582;49558];
 [29589;63863;29601;64494;29614;48122;29626;39407;29637;52675;29646;32762;29659;20440;29668;22027];
 [29675;65532;29689;61439;29704;65045;29714;64267;29724;37631;29735;65535;29751;59391;29765;33279];
 [29775;22276;29781;57343;29796;6143;29808;65376;29818;44111;29827;20;29829;65468;29842;32749];
 [29855;64832;29863;9748;29868;63506;29875;65279;29890;10495;29900;65442;29911;63487;29926;17399];
 [29936;31744;29941;16383;29955;34784;29962;62529;29969;30719;29983;64825;29994;61691;30005;9505];
 [30010;32741;30022;65331;30034;49884;30042;30919;30051;40898;30060;47474;30069;65455;30083;60303];
 [30094;18431;30106;45855;30116;33311;30123;35536;30129;4607;30139;40957;30152;63484;30165;65087];
 [30178;44495;30189;58879;30202;56943;30214;65526;30228;63583;30239;65535;30255;64923;30267;28671];
 [30281;65010;30293;56825;30305;2303;30314;63487;30329;60932;30336;52991;30349;61263;30361;64359];
 [30373;61368;30384;40463;30393;53268;30398;64510;30412;64707;30422;32727;30435;45049;30447;65533];
 [30462;65463;30476;65159;30487;12607;30496;65532;30510;64895;30524;65377;30535;65535;30551;36951];
 [30558;24319;30571;64509;30585;62847;30598;8191;30611;61694;30622;13823;30634;44286;30645;63975];
 [30657;43997;30668;31742;30681;49133;30694;64890;30706;58494;30716;65525;30730;55773;30741;53199];
 [30753;29915;30763;46863;30773;12285;30785;57287;30797;995;30804;2044;30813;57296;30823;32767];
 [30838;48639;30852;58236;30862;46079;30875;57277;30888;16351;30901;24575;30915;44894;30926;58351];
 [30938;38815;30949;65523;30963;65527;30978;60413;30991;36861;31003;61949;31015;65069;31026;30719];
 [31040;65503;31055;62723;31063;12287;31076;63995;31089;57737;31096;65535;31112;64671;31124;24283];
 [31135;59166;31145;65423;31158;16125;31170;12285;31182;32650;31192;63935;31205;24575;31219;36390];
 [31226;65535;31242;25727;31252;36297;31260;65023;31275;32767;31290;65472;31300;16719;31307;65535];
 [31323;65535;31339;65155;31349;32895;31357;3073;31360;65534;31375;65535;31391;32767;31406;65409];
 [31416;65535;31432;36047;31441;65464;31453;65535;31469;65535;31485;57535;31495;26623;31508;8196];
 [31510;63106;31518;63487;31533;65535;31549;65487;31563;3103;31570;12288;31572;57311;31586;65535];
 [31602;64513;31609;55295;31623;20483;31627;65534;31642;53247;31656;17407;31667;65526;31681;57624];
 [31687;45056;31690;65534;31705;16639;31714;255;31722;65026;31730;65407;31745;65287;31756;63685];
 [31765;57343;31780;1007;31789;65520;31801;31871;31813;64538;31822;64927;31835;64498;31847;65287];
 [31858;52194;31867;65145;31879;57311;31893;36800;31900;32719;31913;39294;31923;8181;31934;59384];
 [31945;32752;31956;52799;31967;46715;31978;32660;31988;27122;31997;9070;32005;31589;32015;127];
 [32022;65532;32036;61695;32048;671;32055;65008;32066;32709;32077;16;32078;65524;32091;65535];
 [32107;65481;32119;20479;32132;39940;32137;65535;32153;32767;32168;65532;32182;1375;32190;0];
 [32190;65502;32204;63487;32219;49567;32228;65535;32244;4447;32252;0;32252;65032;32260;65535];
 [32276;65535;32292;8191;32305;65280;32313;32767;32328;8365;32334;32768;32335;57343;32350;57311];
 [32364;65535;32380;359;32386;2;32387;32761;32400;60415;32414;1919;32424;65534;32439;24575];
 [32453;3;32455;0;32455;32767;32470;65535;32486;58651;32495;65535;32511;9;32513;32768];
 [32514;65535;32530;16383;32544;65472;32554;35;32557;64384;32565;16383;32579;12272;32588;65472];
 [32598;50175;32610;895;32619;65528;32632;65439;32646;43031;32653;34811;32664;61447;32671;3775];
 [32681;40956;32693;51043;32702;30695;32714;18423;32725;58654;32734;27891;32744;63203;32755;28382];
 [32766;65504;32777;61747;32786;62895;32798;44096;32803;36863;32816;59839;32828;63475;32841;34045];
 [32850;48125;32863;65053;32874;65465;32887;30714;32899;28608;32907;52223;32920;32571;32932;58364];
 [32943;56903;32953;25975;32963;65023;32978;13562;32987;56782;32998;63399;33010;23231;33021;48634];
 [33033;38519;33043;51770;33051;60927;33065;48998;33076;48463;33087;64347;33099;65478;33111;64424];
 [33121;57111;33132;59283;33142;19927;33152;56311;33165;24535;33177;64591;33188;65535;33204;32670];
 [33216;3706;33224;32764;33237;3017;33244;65532;33258;63553;33265;1087;33272;57340;33285;64591];
 [33296;41375;33305;32768;33306;18419;33316;32736;33326;1311;33333;8190;33345;16376;33356;64513];
 [33363;32862;33369;61043;33380;49659;33390;9567;33399;48944;33408;49657;33417;64552;33425;34300];
 [33434;57784;33442;37832;33449;49148;33462;31119;33472;37336;33479;64350;33491;22783;33502;6136];
 [33511;15926;33520;40861;33531;29243;33540;49022;33553;4079;33564;65527;33579;65443;33591;27471];
 [33601;65419;33613;65423;33626;2047;33637;65505;33649;32799;33655;65534;33670;60735;33682;58118];
 [33689;33791;33700;65535;33716;49151;33731;40896;33739;65535;33755;65535;33771;65411;33782;65535];
 [33798;65535;33814;126;33820;63488;33825;65534;33840;32767;33855;64015;33865;65535;33881;40959];
 [33895;1167;33901;41;33904;65400;33916;65527;33931;14;33934;65521;33947;65535;33963;3513];
 [33971;59553;33978;65527;33993;65535;34009;34831;34015;65534;34030;2687;34039;16;34040;63615];
 [34052;65535;34068;65527;34083;34687;34094;65535;34110;65535;34126;34115;34132;22528;34135;49151];
 [34150;57855;34162;65535;34178;37368;34186;38400;34190;65534;34205;32767;34220;65440;34230;23295];
 [34242;6850;34248;65535;34264;65528;34277;39141;34285;65524;34298;65287;34309;37135;34316;32637];
 [34329;57342;34343;65041;34352;32739;34364;65440;34374;63097;34385;22815;34394;28589;34405;7646];
 [34415;65279;34430;65439;34444;63439;34457;44095;34467;65407;34482;58351;34494;39935;34507;65535];
 [34523;65471;34538;30647;34550;29247;34560;57078;34572;65471;34587;15359;34600;12269;34611;65340];
 [34623;4030;34633;63472;34644;33270;34652;49126;34664;65279;34679;57471;34689;65535;34705;64511];
 [34720;65515;34734;65479;34747;33663;34757;11262;34768;64504;34780;58367;34793;48959;34806;56543];
 [34818;63853;34829;39679;34841;63227;34854;64495;34868;12515;34875;51023;34885;48126;34898;63249];
 [34907;65407;34922;56575;34935;65534;34950;65327;34963;65207;34976;62527;34987;32751;35001;65534];
 [35016;65287;35027;65471;35042;65432;35053;15903;35063;65508;35075;48110;35087;65524;35100;65415];
 [35112;32327;35122;56415;35133;32031;35144;56262;35154;57265;35165;57215;35179;52347;35189;1012];
 [35196;52191;35208;57407;35217;65443;35229;65533;35244;64567;35255;12287;35268;65528;35281;255];
 [35289;65534;35304;57463;35313;65535;35329;24575;35343;65532;35357;32767;35372;4948;35378;65418];
 [35389;65535;35405;65407;35420;126;35426;49184;35429;65535;35445;45055;35459;726;35465;63584];
 [35472;65535;35488;65535;35504;3;35506;65532;35520;30431;35532;60416;35537;65535;35553;65534];
 [35568;61443;35574;65535;35590;38911;35603;32855;35609;46080;35613;65535;35629;65535;35645;32775];
 [35649;65535;35665;45055;35679;15;35683;34848;35686;57336;35698;65535;35714;65535;35730;8313];
 [35736;65520;35748;65535;35764;32527;35775;129;35777;65506;35789;65535;35805;31;35810;65534];
 [35825;18931;35834;32770;35836;65535;35852;49919;35863;14335;35876;62593;35883;65534;35898;65535];
 [35914;50431;35925;65535;35941;32878;35947;61439;35962;64535;35972;1983;35982;48648;35989;31735];
 [36002;49888;36008;65531;36023;8031;36034;12280;36044;31982;36055;12038;36062;28511;36074;64415];
 [36087;61309;36100;58871;36112;49088;36121;61463;36129;65411;36140;45055;36154;34823;36159;57599];
 [36170;65535;36186;2407;36193;65516;36206;65031;36216;2047;36227;41474;36231;65278;36245;65024];
 [36252;65535;36268;7167;36280;32800;36282;65524;36295;63711;36307;65535;36323;38911;36336;1035];
 [36340;65418;36351;63615;36363;65535;36379;16255;36392;57600;36396;16377;36408;65476;36419;57343];
 [36434;4148;36438;58816;36445;65535;36461;49599;36471;65535;36487;61375;36501;57857;36506;65521];
 [36519;65521;36532;49319;36539;49092;36549;65423;36562;52335;36572;61661;36582;389;36586;63487];
 [36601;65351;36613;20617;36618;22750;36627;32232;36637;34623;36647;63221;36659;64995;36671;31198];
 [36682;54527;36694;4543;36703;22525;36715;831;36723;60205;36733;65515;36747;61439;36762;32511];
 [36776;65518;36790;32763;36804;65533;36819;31903;36830;65463;36844;8066;36851;65519;36866;48634];
 [36878;62265;36888;65523;36902;63743;36915;65309;36927;46621;36936;63935;36949;11735;36959;4031];
 [36970;65308;36981;17279;36991;65281;37000;65407;37015;65284;37024;34851;37029;35582;37039;61023];
 [37051;48061;37063;16087;37074;35166;37082;65535;37098;45135;37106;57343;37121;53627;37131;65535];
 [37147;33143;37155;65152;37163;45103;37171;49925;37177;65531;37192;63159;37204;16383;37218;11644];
 [37227;58496;37232;63487;37247;7155;37257;65056;37265;24831;37275;62339;37284;32767;37299;48767];
 [37312;65064;37321;30719;37335;34767;37345;4095;37357;28459;37367;48015;37378;53213;37390;8117];
 [37400;63868;37411;64783;37422;40255;37433;8166;37443;65528;37456;8176;37465;16368;37475;64498];
 [37487;43;37491;65535;37507;63863;37519;61471;37528;65535;37544;49887;37554;64765;37567;64517];
 [37575;49151;37590;16377;37602;63488;37607;32575;37620;3071;37631;65532;37645;65528;37658;63543];
 [37668;63743;37681;65409;37691;32637;37704;63472;37715;14207;37727;40433;37737;65400;37749;32255];
 [37763;64414;37775;16327;37786;63327;37799;57073;37810;61567;37821;63935;37834;6127;37845;65049];
 [37855;61409;37866;16217;37876;61382;37887;16175;37898;31627;37908;61433;37921;56543;37933;29340];
 [37941;26105;37951;60067;37960;65343;37974;65407;37989;63489;37995;51173;38005;65528;38018;28747];
 [38025;59896;38035;16383;38049;63627;38058;61415;38071;48929;38080;36348;38090;65043;38100;56908];
 [38109;22975;38120;62447;38133;53235;38145;65439;38159;14735;38168;65426;38179;12287;38192;65408];
 [38201;7807;38212;65528;38225;16191;38237;192;38239;65535;38255;32763;38269;33;38271;64384];
 [38279;65535;38295;58366;38307;65045;38317;65535;38333;41596;38341;63488;38346;40959;38360;2651];
 [38367;65523;38381;16383;38395;962;38400;65408;38409;9215;38420;32736;38430;49454;38437;2046];
 [38447;14591;38458;47047;38469;49087;38483;30343;38492;30670;38503;61271;38515;38899;38526;48769];
 [38534;65288;38543;31520;38550;15871;38563;31068;38572;53225;38583;49127;38596;24487;38607;34556];
 [38616;61406;38629;57331;38642;47486;38653;46711;38664;56319;38678;57215;38692;65531;38707;40923];
 [38719;62969;38731;57339;38745;29683;38756;55278;38768;28607;38781;5116;38790;8178;38800;16380];
 [38812;65533;38827;31743;38841;696;38846;65534;38861;32275;38870;65416;38880;32751;38894;12879];
 [38902;64480;38912;65535;38928;7295;38938;105;38942;65272;38954;65407;38969;20243;38977;49200];
 [38981;65517;38995;8191;39008;2044;39017;63872;39024;65535;39040;65535;39056;124;39061;65521];
 [39074;18423;39085;33;39087;64896;39095;65535;39111;10015;39120;65025;39128;48959;39141;34817];
 [39144;65535;39160;64753;39171;59150;39180;64615;39191;40543;39202;50872;39210;65471;39225;65519];
 [39240;65277;39254;6141;39265;8178;39275;65407;39290;49671;39296;63378;39306;39943;39313;30975];
 [39325;27;39329;32746;39341;7743;39351;13822;39362;65523;39376;32671;39389;53772;39395;65405];
 [39409;49111;39422;20564;39427;65424;39437;15999;39449;64707;39459;64767;39473;8447;39482;64514];
 [39489;2047;39500;65533;39515;65293;39526;2047;39537;64488;39548;50683;39559;16355;39570;65535];
 [39586;40956;39598;65408;39607;56447;39619;64155;39630;639;39638;60236;39647;64526;39656;52630];
 [39665;25466;39674;32352;39682;30800;39688;65283;39698;65044;39707;16368;39717;63760;39724;8071];
 [39733;65288;39742;6143;39754;4032;39760;1023;39770;65007;39784;65296;39793;49183;39800;49087];
 [39814;40894;39826;52414;39836;40681;39846;65439;39860;48570;39871;32125;39883;65532;39897;56952];
 [39907;895;39916;65412;39926;33287;39931;65534;39946;57504;39951;24575;39965;1020;39973;60800];
 [39980;65535;39996;511;40005;6;40007;63230;40020;8171;40031;48144;40037;65535;40053;633];
 [40059;64899;40069;32638;40082;24704;40085;49139;40098;63;40104;55240;40113;65505;40125;16575];
 [40133;23791;40144;55294;40157;28572;40167;65523;40181;65422;40193;20383;40204;32767;40219;65472];
 [40229;65023;40244;63499;40252;59383;40265;65383;40278;34016;40283;65533;40298;61477;40305;49151];
 [40320;58383;40328;1535;40338;31758;40346;47615;40359;56591;40369;7165;40380;32767;40395;56190];
 [40407;65503;40422;36671;40433;63475;40446;63599;40457;59144;40464;65351;40476;57831;40486;65531];
 [40501;61631;40512;61183;40526;64638;40538;64511;40553;4095;40565;65535;40581;65023;40596;65411];
 [40607;61503;40617;32767;40632;61437;40646;65504;40657;71;40661;65535;40677;65535;40693;63487];
 [40708;64100;40717;65535;40733;65535;40749;65535;40765;61687;40776;65535;40792;607;40799;65512];
 [40811;65523;40825;65511;40839;57343;40854;16383;40868;65473;40879;65535;40895;65535;40911;34815];
 [40923;65535;40939;57368;40944;65535;40960;61431;40974;32752;40985;61449;40991;65535;41007;12159];
 [41019;64960;41028;65535;41044;4088;41053;65520;41065;62463;41079;65523;41093;65311;41106;61943];
 [41118;53161;41128;5075;41136;48110;41148;32763;41162;65518;41176;62567;41186;10711;41195;65532];
 [41209;3056;41216;65408;41225;65439;41239;4447;41247;65534;41262;7807;41273;65520;41285;32783];
 [41290;62463;41304;65295;41316;503;41324;65504;41335;36591;41346;28643;41357;61672;41365;65503];
 [41380;63479;41394;32351;41406;65535;41422;3581;41432;65528;41445;37871;41456;65474;41467;63487];
 [41482;767;41491;65532;41505;61695;41517;255;41525;65368;41536;32767;41551;65522;41564;19];
 [41567;64511;41582;65471;41597;65479;41610;179;41615;65530;41629;64511;41644;509;41652;2047];
 [41663;65024;41670;8191;41683;32764;41696;61446;41702;65535;41718;57407;41727;5567;41737;65512];
 [41749;65407;41764;63743;41777;40703;41790;63615;41802;57151;41815;57338;41828;8111;41839;65503];
 [41854;235;41860;0;41860;64492;41872;57215;41886;56247;41898;61167;41911;65277;41925;56252];
 [41936;60303;41947;62463;41961;61343;41974;61560;41982;16372;41993;65479;42006;63903;42018;64447];
 [42032;58991;42043;64255;42057;32543;42069;56830;42082;64975;42095;65015;42109;63462;42121;65029];
 [42130;12265;42140;10224;42148;35580;42157;40859;42168;65514;42181;63459;42193;44943;42204;32757];
 [42217;32765;42231;24571;42244;63484;42257;32751;42271;65489;42283;65343;42297;8191;42310;65407];
 [42325;65016;42337;48767;42350;63357;42363;32206;42374;53275;42381;26591;42393;65393;42405;32691];
 [42417;64127;42430;64959;42444;49023;42458;62383;42470;64959;42484;32255;42498;65511;42512;65510];
 [42525;32573;42537;8191;42550;40956;42562;62079;42574;10239;42586;34815;42598;40959;42612;17406];
 [42622;61439;42637;59711;42648;65293;42659;60924;42671;12287;42684;39423;42696;65415;42708;40959];
 [42722;29695;42735;65310;42747;32767;42762;12284;42773;49214;42780;65533;42795;32507;42808;728];
 [42813;64988;42825;40959;42839;6143;42851;61032;42860;32770;42862;65535;42878;65535;42894;65023];
 [42909;2739;42916;65248;42926;49151;42941;16359;42953;3;42955;47920;42963;48895;42977;25];
 [42980;65535;42996;55039;43009;6961;43016;57216;43024;61935;43036;6591;43046;16128;43052;65527];
 [43067;62767;43078;16371;43090;49136;43101;48896;43108;49123;43120;64591;43131;31251;43139;65534];
 [43154;62589;43165;61301;43177;8190;43189;40700;43200;57334;43213;60351;43226;27623;43237;65532];
 [43251;55295;43265;65515;43279;65215;43293;65407;43308;55287;43321;42235;43331;28159;43344;56187];
 [43356;65531;43371;47101;43384;62943;43397;62711;43409;65432;43420;62232;43428;8191;43441;32758];
 [43454;28656;43464;16382;43477;65200;43487;57799;43496;56831;43510;32439;43522;49149;43536;65503];
 [43551;64511;43566;65529;43580;65279;43595;65471;43610;3071;43621;16368;43631;64260;43639;65535];
 [43655;65535;43671;65295;43683;65535;43699;65448;43710;65535;43726;65406;43740;65407;43755;65311];
 [43768;65535;43784;27647;43797;64642;43805;65535;43821;65471;43836;57343;43851;65535;43867;8189];
 [43879;65528;43892;65535;43908;38911;43921;8385;43925;65535;43941;65535;43957;32767;43972;65535];
 [43988;65447;44001;65535;44017;63489;44023;65535;44039;32767;44054;57351;44060;65534;44075;65535];
 [44091;65527;44106;4095;44118;65280;44126;65535;44142;65535;44158;61375;44172;1035;44176;49151];
 [44191;65503;44206;65535;44222;65503;44237;2047;44248;65472;44258;65535;44274;17694;44281;57476];
 [44286;65495;44300;65535;44316;65535;44332;65535;44348;16383;44362;65280;44370;65535;44386;65535];
 [44402;64767;44416;551;44421;65046;44431;65535;44447;57343;44462;65535;44478;24575;44492;65506];
 [44504;65535;44520;34965;44526;62594;44533;65535;44549;65407;44564;1023;44574;65535;44590;65087];
 [44603;8439;44611;12272;44620;65535;44636;65471;44651;49151;44666;65522;44679;65535;44695;63489];
 [44701;65407;44716;65535;44732;954;44739;65535;44755;50175;44767;65535;44783;57343;44798;65025];
 [44806;60159;44819;65535;44835;32527;44846;65472;44856;65535;44872;65503;44887;51143;44897;32223];
 [44910;61418;44922;32767;44937;8185;44948;64638;44960;12286;44972;61887;44984;16383;44998;63550];
 [45008;27595;45018;62959;45031;65465;45044;65521;45057;65535;45073;55779;45083;65535;45099;63737];
 [45110;57839;45121;65535;45137;64511;45152;40899;45162;65280;45170;64511;45185;65411;45196;9];
 [45198;65530;45212;49151;45227;16351;45240;45040;45250;0;45250;65534;45265;65535;45281;65535];
 [45297;65311;45310;50591;45320;65406;45334;65535;45350;65535;45366;61503;45376;5983;45386;65280];
 [45394;65527;45409;65535;45425;61432;45437;122;45442;65521;45455;63487;45470;65535;45486;65311];
 [45499;49502;45507;65023;45522;4094;45533;65532;45547;57088;45554;65535;45570;6398;45579;65534];
 [45594;49631;45604;57663;45614;56831;45628;9471;45638;65534;45653;63991;45666;49663;45677;63487];
 [45692;65013;45705;65534;45720;49040;45729;32764;45742;65503;45757;65527;45772;65518;45786;36862];
 [45798;61311;45812;63055;45823;65535;45839;31993;45850;65535;45866;65287;45877;65471;45892;49836];
 [45899;65535;45915;32743;45928;65530;45942;63487;45957;57353;45962;65535;45978;8191;45991;65295];
 [46003;11775;46015;57382;46021;64255;46035;57735;46043;49151;46058;4095;46070;64524;46078;65535];
 [46094;61895;46104;64253;46117;65478;46129;16367;46142;63372;46152;53239;46165;61386;46176;65438];
 [46189;56031;46201;65519;46216;28431;46226;63535;46236;63865;46247;10735;46257;65535;46273;61326];
 [46284;59263;46297;30588;46308;59903;46321;65470;46335;58367;46348;24575;46362;65326;46374;32755];
 [46387;64504;46399;63999;46413;57039;46425;64710;46435;13591;46443;16362;46454;61310;46467;65467];
 [46481;49095;46493;65156;46502;65535;46518;19711;46529;65398;46542;65535;46558;3571;46567;65535];
 [46583;36863;46596;32383;46609;65497;46622;65535;46638;65277;46652;65347;46663;65535;46679;65534];
 [46694;65535;46710;65495;46724;65535;46740;34559;46751;35327;46762;65533;46777;65535;46793;58725];
 [46802;65533;46817;48879;46830;65471;46845;63615;46857;65407;46872;65407;46887;65471;46902;65431];
 [46915;57343;46930;61311;46944;64300;46954;15855;46966;65095;46977;40761;46987;61167;47000;65435];
 [47013;16123;47025;25471;47036;65451;47049;65525;47063;59391;47077;65535;47093;65343;47107;55807];
 [47120;65535;47136;64959;47150;63487;47165;49919;47176;65535;47192;65247;47206;65511;47220;24558];
 [47232;61694;47243;59377;47254;15739;47265;65519;47280;65463;47294;14307;47304;65529;47318;59383];
 [47331;32748;47343;65423;47356;1535;47366;57343;47381;65183;47394;55039;47407;64511;47422;63525];
 [47430;65535;47446;18418;47455;59903;47468;62462;47481;17353;47488;32512;47495;61595;47504;9212];
 [47513;65488;47524;61405;47537;65535;47553;65516;47566;57343;47581;49150;47595;55551;47607;49023];
 [47621;49919;47632;65535;47648;65519;47663;65535;47679;65142;47691;65535;47707;49151;47722;65496];
 [47734;59711;47745;65535;47761;65407;47776;8051;47786;8831;47795;65532;47809;49245;47816;65534];
 [47831;585;47835;65528;47848;32767;47863;194;47866;65535;47882;24127;47893;13;47896;65512];
 [47908;63999;47922;63498;47929;65535;47945;33279;47955;3;47957;65532;47971;20991;47982;32776];
 [47984;65513;47997;4095;48009;16382;48022;0;48022;56672;48030;65535;48046;2047;48057;118];
 [48062;65535;48078;7667;48088;64960;48097;6207;48105;40446;48117;26576;48125;61424;48136;15391];
 [48145;44344;48153;65339;48166;65047;48177;65335;48190;65293;48201;2993;48208;49660;48217;40463];
 [48226;58459;48235;11261;48246;40607;48257;65534;48272;53457;48279;8191;48292;65472;48302;4727];
 [48310;61438;48324;48704;48331;65535;48347;31231;48360;65519;48375;34783;48386;65449;48398;35807];
 [48409;16319;48422;4975;48431;65526;48445;21503;48457;53218;48467;58238;48478;40799;48490;26495];
 [48502;47110;48508;65459;48521;48919;48532;31335;48542;45055;48556;20255;48566;49151;48581;61631];
 [48592;65531;48607;11512;48615;65533;48630;61453;48637;28607;48650;11260;48660;65520;48672;61439];
 [48687;51241;48693;65279;48708;65502;48722;7;48725;45054;48738;64603;48749;51199;48762;12671];
 [48772;65482;48784;58361;48795;64571;48806;57339;48820;63519;48830;50109;48840;65518;48854;16323];
 [48864;63423;48878;65035;48888;32719;48901;46053;48911;51199;48924;55231;48937;60377;48948;32743];
 [48961;44796;48972;65534;48987;64805;48997;48767;49010;65498;49023;56959;49036;65531;49051;63995];
 [49064;64879;49077;40959;49091;58879;49104;65533;49119;65179;49131;59835;49142;65007;49156;57851];
 [49167;62143;49179;57342;49193;53187;49203;65515;49217;57663;49227;57331;49240;55775;49252;65527];
 [49267;64999;49280;31231;49293;16628;49299;32704;49308;63526;49316;15867;49328;65037;49338;25087];
 [49349;65531;49364;3703;49373;49151;49388;58991;49399;18687;49409;49147;49423;61387;49435;65503];
 [49450;63399;49462;28655;49475;14191;49486;51152;49494;65053;49505;1023;49515;59380;49526;19055];
 [49535;64628;49545;62047;49556;64777;49565;49567;49574;65534;49589;6760;49595;65522;49608;57471];
 [49618;32767;49633;8447;49642;53792;49647;32767;49662;61440;49666;63999;49680;4639;49687;5664];
 [49691;65534;49706;32991;49714;65535;49730;12481;49735;55360;49740;895;49749;65472;49759;11263];
 [49771;61496;49778;45023;49791;51192;49801;32767;49816;17040;49820;65513;49833;61316;49842;20735];
 [49852;32793;49856;52412;49865;35327;49876;64384;49884;65488;49895;50839;49904;57423;49912;23553];
 [49917;65059;49927;63479;49941;54037;49949;14671;49958;0;49958;65408;49967;3060;49975;34552];
 [49983;16335;49995;60856;50005;58343;50016;23900;50025;56895;50037;65515;50051;16303;50063;65533];
 [50078;57399;50086;41983;50098;65313;50108;33259;50116;49139;50129;4351;50138;65524;50151;685];
 [50157;65535;50173;62532;50180;61695;50192;17375;50202;16126;50214;64188;50225;3550;50234;6543];
 [50242;32768;50243;32255;50257;64031;50268;303;50274;57342;50288;65323;50300;57487;50308;65519];
 [50323;64639;50336;32783;50341;65535;50357;32818;50361;65535;50377;64895;50391;34115;50397;65535];
 [50413;64895;50427;64511;50442;64577;50450;57467;50459;61695;50471;46079;50484;24047;50496;49022];
 [50509;45039;50522;16382;50535;53247;50549;65532;50563;64383;50577;18431;50589;65535;50605;59007];
 [50617;65535;50633;65471;50648;65523;50662;65523;50676;65511;50690;64511;50705;15263;50716;32741];
 [50728;14332;50739;7676;50749;30718;50762;65452;50774;6127;50785;32767;50800;45003;50811;63472];
 [50822;8731;50828;65472;50838;27391;50850;65408;50859;52991;50872;57357;50878;16383;50892;61638];
 [50900;1023;50910;36350;50921;60016;50929;42479;50940;24479;50952;65470;50966;65499;50980;55279];
 [50993;63480;51005;48718;51015;63999;51029;31615;51042;32703;51056;61010;51065;24574;51078;65280];
 [51086;2879;51095;65535;51111;65120;51120;37773;51128;65535;51144;59455;51154;65535;51170;63359];
 [51184;65529;51198;11519;51209;65479;51222;52943;51233;52991;51246;65534;51261;53232;51271;50110];
 [51281;65463;51295;32702;51308;65522;51321;65519;51336;53227;51348;53247;51362;65407;51377;4087];
 [51388;48830;51400;57336;51412;32255;51426;57079;51439;16367;51452;65535;51468;24575;51482;32767];
 [51497;40959;51511;65535;51527;60631;51538;65535;51554;32639;51568;58234;51578;65535;51594;32255];
 [51608;65535;51624;65049;51634;46079;51647;65529;51661;65381;51673;61439;51688;64127;51701;54782];
 [51713;64731;51725;48649;51733;21502;51744;32765;51758;16370;51769;61432;51781;65295;51793;3583];
 [51804;65514;51817;63231;51831;57599;51842;65535;51858;18303;51869;65246;51882;18;51884;13526];
 [51892;65535;51908;32748;51920;65305;51931;45055;51945;65379;51957;59599;51967;65535;51983;65034];
 [51992;65535;52008;64765;52021;45060;52025;65535;52041;615;52047;61312;52055;23551;52068;62263];
 [52079;65535;52095;50883;52103;32767;52118;62628;52126;49151;52141;11256;52150;58872;52160;467];
 [52166;0;52166;7907;52175;7292;52183;56965;52192;30711;52205;27967;52216;26546;52225;65455];
 [52239;62302;52250;65535;52266;57579;52275;65535;52291;30655;52304;65511;52318;57759;52328;65535];
 [52344;33491;52351;65485;52364;32767;52379;59531;52387;65535;52403;24031;52415;63508;52422;3103];
 [52429;65535;52445;56051;52456;12799;52467;65480;52478;53245;52491;3953;52499;63;52505;0];
 [52505;0;52505;63718;52515;61663;52526;58879;52539;65103;52551;65448;52562;57423;52570;25471];
 [52581;65151;52595;8127;52607;28671;52621;56268;52631;56959;52644;63395;52655;65535;52671;46747];
 [52681;36379;52689;65535;52705;967;52712;49151;52727;65423;52740;58863;52752;28671;52766;65408];
 [52775;15359;52788;65472;52798;50127;52808;30719;52822;65528;52835;63571;52844;9201;52852;36159];
 [52862;65278;52876;62207;52889;65535;52905;54014;52916;65467;52930;49119;52944;48127;52958;59327];
 [52971;65023;52986;32755;52999;57326;53012;64073;53021;64503;53035;49023;53049;63487;53064;63463];
 [53077;61385;53088;64383;53102;61279;53115;44511;53127;64951;53140;3067;53150;65535;53166;5115];
 [53176;32767;53191;19582;53200;65533;53215;49091;53226;63500;53233;63487;53248;20607;53257;65456];
 [53268;65535;53284;40837;53293;8613;53299;54784;53304;65535;53320;24519;53331;260;53333;65534];
 [53348;57471;53358;7807;53369;59392;53373;32767;53388;12256;53396;65344;53405;3583;53416;372];
 [53421;32764;53434;61895;53444;32739;53456;63550;53466;61727;53476;64811;53487;32715;53499;235];
 [53505;41473;53509;64511;53524;7935;53536;65535;53552;40959;53566;63743;53579;32767;53594;4606];
 [53603;49027;53613;61438;53627;16383;53641;46591;53654;65281;53663;65535;53679;32767;53694;64389];
 [53704;65535;53720;61371;53733;9258;53738;65520;53750;65535;53766;15871;53779;34517;53787;65096];
 [53796;65279;53811;22943;53821;65033;53830;64511;53845;32767;53860;38014;53869;49154;53872;65535];
 [53888;16383;53902;9458;53909;65282;53918;65535;53934;1630;53941;13822;53952;61443;53958;40959];
 [53972;32506;53984;65293;53995;53236;54006;49079;54019;1;54020;65472;54030;58331;54041;38383];
 [54052;64479;54066;23547;54078;48611;54089;65534;54104;60408;54115;32759;54129;64686;54140;64925];
 [54152;32750;54165;15863;54177;61821;54188;63775;54199;64255;54213;64895;54227;65535;54243;65405];
 [54257;57567;54267;64765;54280;65023;54295;28285;54306;32734;54319;32634;54331;61938;54341;65503];
 [54356;65437;54369;64510;54383;3571;54392;33564;54398;32543;54410;32764;54423;65514;54436;49311];
 [54444;39231;54454;65407;54469;65167;54481;53041;54490;56923;54501;65023;54516;62390;54527;64511];
 [54542;60791;54554;14839;54565;57340;54578;65003;54591;65375;54605;65438;54618;65426;54629;61410];
 [54640;63983;54653;3583;54664;51198;54676;30969;54686;65270;54699;65335;54712;49151;54727;65508];
 [54739;60467;54748;39423;54760;30711;54773;65493;54786;65487;54800;65487;54814;22264;54823;48125];
 [54836;31583;54848;64494;54861;63969;54871;65531;54886;61279;54899;127]].

(* lib/converters/cns11643_inv.h:15367-15380 cns11643_inv_uni2indx_page2f8 (flattened, 2 fields per entry) *)
Definition cns11643_inv_uni2indx_page2f8 : tab := mk [
 [54906;65535;54922;65535;54938;65535;54954;65535;54970;65534;54985;65535;55001;65535;55017;65535];
 [55033;65535;55049;65519;55064;65535;55080;65535;55096;57343;55111;65535;55127;65535;55143;65535];
 [55159;65535;55175;65535;55191;65535;55207;65535;55223;65535;55239;65535;55255;65535;55271;65535];
 [55287;65535;55303;65519;55318;65535;55334;65531;55349;65535;55365;65519;55380;65535;55396;65535];
 [55412;65535;55428;16383]].

