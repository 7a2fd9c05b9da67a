(** Charmaps, generated by tools/gencharmap.py from tests/data/*.TXT and tests/data/*.IRREVERSIBLE.TXT of /repo. *)
From Coq Require Import ZArith List.
From Verif Require Import Charmap.
Import ListNotations.
Open Scope Z_scope.
(* tests/data/MacCyrillic.TXT *)
Definition map_mac_cyrillic : charmap :=
 [([], 0, [0;1;2;3;4;5;6;7;8;9;0xa;0xb;0xc;0xd;0xe;0xf;0x10;0x11;0x12;0x13;0x14;0x15;0x16;0x17;0x18;0x19;0x1a;0x1b;0x1c;0x1d;0x1e;0x1f;0x20;0x21;0x22;0x23;0x24;
  0x25;0x26;0x27;0x28;0x29;0x2a;0x2b;0x2c;0x2d;0x2e;0x2f;0x30;0x31;0x32;0x33;0x34;0x35;0x36;0x37;0x38;0x39;0x3a;0x3b;0x3c;0x3d;0x3e;0x3f;0x40;0x41;0x42;
  0x43;0x44;0x45;0x46;0x47;0x48;0x49;0x4a;0x4b;0x4c;0x4d;0x4e;0x4f;0x50;0x51;0x52;0x53;0x54;0x55;0x56;0x57;0x58;0x59;0x5a;0x5b;0x5c;0x5d;0x5e;0x5f;0x60;
  0x61;0x62;0x63;0x64;0x65;0x66;0x67;0x68;0x69;0x6a;0x6b;0x6c;0x6d;0x6e;0x6f;0x70;0x71;0x72;0x73;0x74;0x75;0x76;0x77;0x78;0x79;0x7a;0x7b;0x7c;0x7d;0x7e;
  0x7f;0x410;0x411;0x412;0x413;0x414;0x415;0x416;0x417;0x418;0x419;0x41a;0x41b;0x41c;0x41d;0x41e;0x41f;0x420;0x421;0x422;0x423;0x424;0x425;0x426;0x427;
  0x428;0x429;0x42a;0x42b;0x42c;0x42d;0x42e;0x42f;0x2020;0xb0;0xa2;0xa3;0xa7;0x2022;0xb6;0x406;0xae;0xa9;0x2122;0x402;0x452;0x2260;0x403;0x453;0x221e;
  0xb1;0x2264;0x2265;0x456;0xb5;0x2202;0x408;0x404;0x454;0x407;0x457;0x409;0x459;0x40a;0x45a;0x458;0x405;0xac;0x221a;0x192;0x2248;0x2206;0xab;0xbb;
  0x2026;0xa0;0x40b;0x45b;0x40c;0x45c;0x455;0x2013;0x2014;0x201c;0x201d;0x2018;0x2019;0xf7;0x201e;0x40e;0x45e;0x40f;0x45f;0x2116;0x401;0x451;0x44f;
  0x430;0x431;0x432;0x433;0x434;0x435;0x436;0x437;0x438;0x439;0x43a;0x43b;0x43c;0x43d;0x43e;0x43f;0x440;0x441;0x442;0x443;0x444;0x445;0x446;0x447;0x448;
  0x449;0x44a;0x44b;0x44c;0x44d;0x44e;0xa4])].
(* tests/data/(no irreversible pairs) *)
Definition irr_mac_cyrillic : pairs := [].
(* tests/data/MacUkraine.TXT *)
Definition map_mac_ukraine : charmap :=
 [([], 0, [0;1;2;3;4;5;6;7;8;9;0xa;0xb;0xc;0xd;0xe;0xf;0x10;0x11;0x12;0x13;0x14;0x15;0x16;0x17;0x18;0x19;0x1a;0x1b;0x1c;0x1d;0x1e;0x1f;0x20;0x21;0x22;0x23;0x24;
  0x25;0x26;0x27;0x28;0x29;0x2a;0x2b;0x2c;0x2d;0x2e;0x2f;0x30;0x31;0x32;0x33;0x34;0x35;0x36;0x37;0x38;0x39;0x3a;0x3b;0x3c;0x3d;0x3e;0x3f;0x40;0x41;0x42;
  0x43;0x44;0x45;0x46;0x47;0x48;0x49;0x4a;0x4b;0x4c;0x4d;0x4e;0x4f;0x50;0x51;0x52;0x53;0x54;0x55;0x56;0x57;0x58;0x59;0x5a;0x5b;0x5c;0x5d;0x5e;0x5f;0x60;
  0x61;0x62;0x63;0x64;0x65;0x66;0x67;0x68;0x69;0x6a;0x6b;0x6c;0x6d;0x6e;0x6f;0x70;0x71;0x72;0x73;0x74;0x75;0x76;0x77;0x78;0x79;0x7a;0x7b;0x7c;0x7d;0x7e;
  0x7f;0x410;0x411;0x412;0x413;0x414;0x415;0x416;0x417;0x418;0x419;0x41a;0x41b;0x41c;0x41d;0x41e;0x41f;0x420;0x421;0x422;0x423;0x424;0x425;0x426;0x427;
  0x428;0x429;0x42a;0x42b;0x42c;0x42d;0x42e;0x42f;0x2020;0xb0;0x490;0xa3;0xa7;0x2022;0xb6;0x406;0xae;0xa9;0x2122;0x402;0x452;0x2260;0x403;0x453;0x221e;
  0xb1;0x2264;0x2265;0x456;0xb5;0x491;0x408;0x404;0x454;0x407;0x457;0x409;0x459;0x40a;0x45a;0x458;0x405;0xac;0x221a;0x192;0x2248;0x2206;0xab;0xbb;
  0x2026;0xa0;0x40b;0x45b;0x40c;0x45c;0x455;0x2013;0x2014;0x201c;0x201d;0x2018;0x2019;0xf7;0x201e;0x40e;0x45e;0x40f;0x45f;0x2116;0x401;0x451;0x44f;
  0x430;0x431;0x432;0x433;0x434;0x435;0x436;0x437;0x438;0x439;0x43a;0x43b;0x43c;0x43d;0x43e;0x43f;0x440;0x441;0x442;0x443;0x444;0x445;0x446;0x447;0x448;
  0x449;0x44a;0x44b;0x44c;0x44d;0x44e;0xa4])].
(* tests/data/(no irreversible pairs) *)
Definition irr_mac_ukraine : pairs := [].
(* tests/data/MacGreek.TXT *)
Definition map_mac_greek : charmap :=
 [([], 0, [0;1;2;3;4;5;6;7;8;9;0xa;0xb;0xc;0xd;0xe;0xf;0x10;0x11;0x12;0x13;0x14;0x15;0x16;0x17;0x18;0x19;0x1a;0x1b;0x1c;0x1d;0x1e;0x1f;0x20;0x21;0x22;0x23;0x24;
  0x25;0x26;0x27;0x28;0x29;0x2a;0x2b;0x2c;0x2d;0x2e;0x2f;0x30;0x31;0x32;0x33;0x34;0x35;0x36;0x37;0x38;0x39;0x3a;0x3b;0x3c;0x3d;0x3e;0x3f;0x40;0x41;0x42;
  0x43;0x44;0x45;0x46;0x47;0x48;0x49;0x4a;0x4b;0x4c;0x4d;0x4e;0x4f;0x50;0x51;0x52;0x53;0x54;0x55;0x56;0x57;0x58;0x59;0x5a;0x5b;0x5c;0x5d;0x5e;0x5f;0x60;
  0x61;0x62;0x63;0x64;0x65;0x66;0x67;0x68;0x69;0x6a;0x6b;0x6c;0x6d;0x6e;0x6f;0x70;0x71;0x72;0x73;0x74;0x75;0x76;0x77;0x78;0x79;0x7a;0x7b;0x7c;0x7d;0x7e;
  0x7f;0xc4;0xb9;0xb2;0xc9;0xb3;0xd6;0xdc;0x385;0xe0;0xe2;0xe4;0x384;0xa8;0xe7;0xe9;0xe8;0xea;0xeb;0xa3;0x2122;0xee;0xef;0x2022;0xbd;0x2030;0xf4;0xf6;
  0xa6;0xad;0xf9;0xfb;0xfc;0x2020;0x393;0x394;0x398;0x39b;0x39e;0x3a0;0xdf;0xae;0xa9;0x3a3;0x3aa;0xa7;0x2260;0xb0;0x387;0x391;0xb1;0x2264;0x2265;0xa5;
  0x392;0x395;0x396;0x397;0x399;0x39a;0x39c;0x3a6;0x3ab;0x3a8;0x3a9;0x3ac;0x39d;0xac;0x39f;0x3a1;0x2248;0x3a4;0xab;0xbb;0x2026;0xa0;0x3a5;0x3a7;0x386;
  0x388;0x153;0x2013;0x2015;0x201c;0x201d;0x2018;0x2019;0xf7;0x389;0x38a;0x38c;0x38e;0x3ad;0x3ae;0x3af;0x3cc;0x38f;0x3cd;0x3b1;0x3b2;0x3c8;0x3b4;0x3b5;
  0x3c6;0x3b3;0x3b7;0x3b9;0x3be;0x3ba;0x3bb;0x3bc;0x3bd;0x3bf;0x3c0;0x3ce;0x3c1;0x3c3;0x3c4;0x3b8;0x3c9;0x3c2;0x3c7;0x3c5;0x3b6;0x3ca;0x3cb;0x390;0x3b0])].
(* tests/data/(no irreversible pairs) *)
Definition irr_mac_greek : pairs := [].
(* tests/data/MacTurkish.TXT *)
Definition map_mac_turkish : charmap :=
 [([], 0, [0;1;2;3;4;5;6;7;8;9;0xa;0xb;0xc;0xd;0xe;0xf;0x10;0x11;0x12;0x13;0x14;0x15;0x16;0x17;0x18;0x19;0x1a;0x1b;0x1c;0x1d;0x1e;0x1f;0x20;0x21;0x22;0x23;0x24;
  0x25;0x26;0x27;0x28;0x29;0x2a;0x2b;0x2c;0x2d;0x2e;0x2f;0x30;0x31;0x32;0x33;0x34;0x35;0x36;0x37;0x38;0x39;0x3a;0x3b;0x3c;0x3d;0x3e;0x3f;0x40;0x41;0x42;
  0x43;0x44;0x45;0x46;0x47;0x48;0x49;0x4a;0x4b;0x4c;0x4d;0x4e;0x4f;0x50;0x51;0x52;0x53;0x54;0x55;0x56;0x57;0x58;0x59;0x5a;0x5b;0x5c;0x5d;0x5e;0x5f;0x60;
  0x61;0x62;0x63;0x64;0x65;0x66;0x67;0x68;0x69;0x6a;0x6b;0x6c;0x6d;0x6e;0x6f;0x70;0x71;0x72;0x73;0x74;0x75;0x76;0x77;0x78;0x79;0x7a;0x7b;0x7c;0x7d;0x7e;
  0x7f;0xc4;0xc5;0xc7;0xc9;0xd1;0xd6;0xdc;0xe1;0xe0;0xe2;0xe4;0xe3;0xe5;0xe7;0xe9;0xe8;0xea;0xeb;0xed;0xec;0xee;0xef;0xf1;0xf3;0xf2;0xf4;0xf6;0xf5;0xfa;
  0xf9;0xfb;0xfc;0x2020;0xb0;0xa2;0xa3;0xa7;0x2022;0xb6;0xdf;0xae;0xa9;0x2122;0xb4;0xa8;0x2260;0xc6;0xd8;0x221e;0xb1;0x2264;0x2265;0xa5;0xb5;0x2202;
  0x2211;0x220f;0x3c0;0x222b;0xaa;0xba;0x2126;0xe6;0xf8;0xbf;0xa1;0xac;0x221a;0x192;0x2248;0x2206;0xab;0xbb;0x2026;0xa0;0xc0;0xc3;0xd5;0x152;0x153;
  0x2013;0x2014;0x201c;0x201d;0x2018;0x2019;0xf7;0x25ca;0xff;0x178;0x11e;0x11f;0x130;0x131;0x15e;0x15f;0x2021;0xb7;0x201a;0x201e;0x2030;0xc2;0xca;0xc1;
  0xcb;0xc8;0xcd;0xce;0xcf;0xcc;0xd3;0xd4;-1;0xd2;0xda;0xdb;0xd9;-1;0x2c6;0x2dc;0xaf;0x2d8;0x2d9;0x2da;0xb8;0x2dd;0x2db;0x2c7])].
(* tests/data/(no irreversible pairs) *)
Definition irr_mac_turkish : pairs := [].
(* tests/data/MacHebrew.TXT *)
Definition map_mac_hebrew : charmap :=
 [([], 0, [0;1;2;3;4;5;6;7;8;9;0xa;0xb;0xc;0xd;0xe;0xf;0x10;0x11;0x12;0x13;0x14;0x15;0x16;0x17;0x18;0x19;0x1a;0x1b;0x1c;0x1d;0x1e;0x1f;0x20;0x21;0x22;0x23;0x24;
  0x25;0x26;0x27;0x28;0x29;0x2a;0x2b;0x2c;0x2d;0x2e;0x2f;0x30;0x31;0x32;0x33;0x34;0x35;0x36;0x37;0x38;0x39;0x3a;0x3b;0x3c;0x3d;0x3e;0x3f;0x40;0x41;0x42;
  0x43;0x44;0x45;0x46;0x47;0x48;0x49;0x4a;0x4b;0x4c;0x4d;0x4e;0x4f;0x50;0x51;0x52;0x53;0x54;0x55;0x56;0x57;0x58;0x59;0x5a;0x5b;0x5c;0x5d;0x5e;0x5f;0x60;
  0x61;0x62;0x63;0x64;0x65;0x66;0x67;0x68;0x69;0x6a;0x6b;0x6c;0x6d;0x6e;0x6f;0x70;0x71;0x72;0x73;0x74;0x75;0x76;0x77;0x78;0x79;0x7a;0x7b;0x7c;0x7d;0x7e;
  0x7f;0xc4;0xfb1f;0xc7;0xc9;0xd1;0xd6;0xdc;0xe1;0xe0;0xe2;0xe4;0xe3;0xe5;0xe7;0xe9;0xe8;0xea;0xeb;0xed;0xec;0xee;0xef;0xf1;0xf3;0xf2;0xf4;0xf6;0xf5;
  0xfa;0xf9;0xfb;0xfc;-1;-1;-1;-1;-1;-1;0x20aa;-1;-1;-1;-1;-1;-1;-1;-1;-1;-1;-1;-1;-1;-1;-1;-1;-1;-1;-1;-1;-1;-1;-1;-1;-1;-1;0x201e;-1;-1;-1;-1;0x5bc;
  0xfb4b;0xfb35;0x2026;0xa0;0x5b8;0x5b7;0x5b5;0x5b6;0x5b4;0x2013;0x2014;0x201c;0x201d;0x2018;0x2019;0xfb2a;0xfb2b;0x5bf;0x5b0;0x5b2;0x5b1;0x5bb;0x5b9;
  -1;0x5b3;0x5d0;0x5d1;0x5d2;0x5d3;0x5d4;0x5d5;0x5d6;0x5d7;0x5d8;0x5d9;0x5da;0x5db;0x5dc;0x5dd;0x5de;0x5df;0x5e0;0x5e1;0x5e2;0x5e3;0x5e4;0x5e5;0x5e6;
  0x5e7;0x5e8;0x5e9;0x5ea])].
(* tests/data/(no irreversible pairs) *)
Definition irr_mac_hebrew : pairs := [].
(* tests/data/MacArabic.TXT *)
Definition map_mac_arabic : charmap :=
 [([], 0, [0;1;2;3;4;5;6;7;8;9;0xa;0xb;0xc;0xd;0xe;0xf;0x10;0x11;0x12;0x13;0x14;0x15;0x16;0x17;0x18;0x19;0x1a;0x1b;0x1c;0x1d;0x1e;0x1f;0x20;0x21;0x22;0x23;0x24;
  0x25;0x26;0x27;0x28;0x29;0x2a;0x2b;0x2c;0x2d;0x2e;0x2f;0x30;0x31;0x32;0x33;0x34;0x35;0x36;0x37;0x38;0x39;0x3a;0x3b;0x3c;0x3d;0x3e;0x3f;0x40;0x41;0x42;
  0x43;0x44;0x45;0x46;0x47;0x48;0x49;0x4a;0x4b;0x4c;0x4d;0x4e;0x4f;0x50;0x51;0x52;0x53;0x54;0x55;0x56;0x57;0x58;0x59;0x5a;0x5b;0x5c;0x5d;0x5e;0x5f;0x60;
  0x61;0x62;0x63;0x64;0x65;0x66;0x67;0x68;0x69;0x6a;0x6b;0x6c;0x6d;0x6e;0x6f;0x70;0x71;0x72;0x73;0x74;0x75;0x76;0x77;0x78;0x79;0x7a;0x7b;0x7c;0x7d;0x7e;
  0x7f;0xc4;0xa0;0xc7;0xc9;0xd1;0xd6;0xdc;0xe1;0xe0;0xe2;0xe4;0x6ba;0xab;0xe7;0xe9;0xe8;0xea;0xeb;0xed;0x2026;0xee;0xef;0xf1;0xf3;0xbb;0xf4;0xf6;0xf7;
  0xfa;0xf9;0xfb;0xfc;-1;-1;-1;-1;-1;0x66a;-1;-1;-1;-1;-1;-1;0x60c;-1;-1;-1;0x660;0x661;0x662;0x663;0x664;0x665;0x666;0x667;0x668;0x669;-1;0x61b;-1;-1;
  -1;0x61f;0x66d;0x621;0x622;0x623;0x624;0x625;0x626;0x627;0x628;0x629;0x62a;0x62b;0x62c;0x62d;0x62e;0x62f;0x630;0x631;0x632;0x633;0x634;0x635;0x636;
  0x637;0x638;0x639;0x63a;-1;-1;-1;-1;-1;0x640;0x641;0x642;0x643;0x644;0x645;0x646;0x647;0x648;0x649;0x64a;0x64b;0x64c;0x64d;0x64e;0x64f;0x650;0x651;
  0x652;0x67e;0x679;0x686;0x6d5;0x6a4;0x6af;0x688;0x691;-1;-1;-1;0x698;0x6d2])].
(* tests/data/(no irreversible pairs) *)
Definition irr_mac_arabic : pairs := [].
(* tests/data/MacThai.TXT *)
Definition map_mac_thai : charmap :=
 [([], 0, [0;1;2;3;4;5;6;7;8;9;0xa;0xb;0xc;0xd;0xe;0xf;0x10;0x11;0x12;0x13;0x14;0x15;0x16;0x17;0x18;0x19;0x1a;0x1b;0x1c;0x1d;0x1e;0x1f;0x20;0x21;0x22;0x23;0x24;
  0x25;0x26;0x27;0x28;0x29;0x2a;0x2b;0x2c;0x2d;0x2e;0x2f;0x30;0x31;0x32;0x33;0x34;0x35;0x36;0x37;0x38;0x39;0x3a;0x3b;0x3c;0x3d;0x3e;0x3f;0x40;0x41;0x42;
  0x43;0x44;0x45;0x46;0x47;0x48;0x49;0x4a;0x4b;0x4c;0x4d;0x4e;0x4f;0x50;0x51;0x52;0x53;0x54;0x55;0x56;0x57;0x58;0x59;0x5a;0x5b;0x5c;0x5d;0x5e;0x5f;0x60;
  0x61;0x62;0x63;0x64;0x65;0x66;0x67;0x68;0x69;0x6a;0x6b;0x6c;0x6d;0x6e;0x6f;0x70;0x71;0x72;0x73;0x74;0x75;0x76;0x77;0x78;0x79;0x7a;0x7b;0x7c;0x7d;0x7e;
  0x7f;0xab;0xbb;0x2026;0xf88c;0xf88f;0xf892;0xf895;0xf898;0xf88b;0xf88e;0xf891;0xf894;0xf897;0x201c;0x201d;0xf899;-1;0x2022;0xf884;0xf889;0xf885;
  0xf886;0xf887;0xf888;0xf88a;0xf88d;0xf890;0xf893;0xf896;0x2018;0x2019;-1;0xa0;0xe01;0xe02;0xe03;0xe04;0xe05;0xe06;0xe07;0xe08;0xe09;0xe0a;0xe0b;0xe0c;
  0xe0d;0xe0e;0xe0f;0xe10;0xe11;0xe12;0xe13;0xe14;0xe15;0xe16;0xe17;0xe18;0xe19;0xe1a;0xe1b;0xe1c;0xe1d;0xe1e;0xe1f;0xe20;0xe21;0xe22;0xe23;0xe24;0xe25;
  0xe26;0xe27;0xe28;0xe29;0xe2a;0xe2b;0xe2c;0xe2d;0xe2e;0xe2f;0xe30;0xe31;0xe32;0xe33;0xe34;0xe35;0xe36;0xe37;0xe38;0xe39;0xe3a;0xfeff;0x200b;0x2013;
  0x2014;0xe3f;0xe40;0xe41;0xe42;0xe43;0xe44;0xe45;0xe46;0xe47;0xe48;0xe49;0xe4a;0xe4b;0xe4c;0xe4d;0x2122;0xe4f;0xe50;0xe51;0xe52;0xe53;0xe54;0xe55;
  0xe56;0xe57;0xe58;0xe59;0xae;0xa9])].
(* tests/data/(no irreversible pairs) *)
Definition irr_mac_thai : pairs := [].
(* tests/data/HP-ROMAN8.TXT *)
Definition map_hp_roman8 : charmap :=
 [([], 0, [0;1;2;3;4;5;6;7;8;9;0xa;0xb;0xc;0xd;0xe;0xf;0x10;0x11;0x12;0x13;0x14;0x15;0x16;0x17;0x18;0x19;0x1a;0x1b;0x1c;0x1d;0x1e;0x1f;0x20;0x21;0x22;0x23;0x24;
  0x25;0x26;0x27;0x28;0x29;0x2a;0x2b;0x2c;0x2d;0x2e;0x2f;0x30;0x31;0x32;0x33;0x34;0x35;0x36;0x37;0x38;0x39;0x3a;0x3b;0x3c;0x3d;0x3e;0x3f;0x40;0x41;0x42;
  0x43;0x44;0x45;0x46;0x47;0x48;0x49;0x4a;0x4b;0x4c;0x4d;0x4e;0x4f;0x50;0x51;0x52;0x53;0x54;0x55;0x56;0x57;0x58;0x59;0x5a;0x5b;0x5c;0x5d;0x5e;0x5f;0x60;
  0x61;0x62;0x63;0x64;0x65;0x66;0x67;0x68;0x69;0x6a;0x6b;0x6c;0x6d;0x6e;0x6f;0x70;0x71;0x72;0x73;0x74;0x75;0x76;0x77;0x78;0x79;0x7a;0x7b;0x7c;0x7d;0x7e;
  0x7f;0x80;0x81;0x82;0x83;0x84;0x85;0x86;0x87;0x88;0x89;0x8a;0x8b;0x8c;0x8d;0x8e;0x8f;0x90;0x91;0x92;0x93;0x94;0x95;0x96;0x97;0x98;0x99;0x9a;0x9b;0x9c;
  0x9d;0x9e;0x9f;0xa0;0xc0;0xc2;0xc8;0xca;0xcb;0xce;0xcf;0xb4;0x2cb;0x2c6;0xa8;0x2dc;0xd9;0xdb;0x20a4;0xaf;0xdd;0xfd;0xb0;0xc7;0xe7;0xd1;0xf1;0xa1;0xbf;
  0xa4;0xa3;0xa5;0xa7;0x192;0xa2;0xe2;0xea;0xf4;0xfb;0xe1;0xe9;0xf3;0xfa;0xe0;0xe8;0xf2;0xf9;0xe4;0xeb;0xf6;0xfc;0xc5;0xee;0xd8;0xc6;0xe5;0xed;0xf8;
  0xe6;0xc4;0xec;0xd6;0xdc;0xc9;0xef;0xdf;0xd4;0xc1;0xc3;0xe3;0xd0;0xf0;0xcd;0xcc;0xd3;0xd2;0xd5;0xf5;0x160;0x161;0xda;0x178;0xff;0xde;0xfe;0xb7;0xb5;
  0xb6;0xbe;0x2014;0xbc;0xbd;0xaa;0xba;0xab;0x25a0;0xbb;0xb1])].
(* tests/data/(no irreversible pairs) *)
Definition irr_hp_roman8 : pairs := [].
(* tests/data/NEXTSTEP.TXT *)
Definition map_nextstep : charmap :=
 [([], 0, [0;1;2;3;4;5;6;7;8;9;0xa;0xb;0xc;0xd;0xe;0xf;0x10;0x11;0x12;0x13;0x14;0x15;0x16;0x17;0x18;0x19;0x1a;0x1b;0x1c;0x1d;0x1e;0x1f;0x20;0x21;0x22;0x23;0x24;
  0x25;0x26;0x27;0x28;0x29;0x2a;0x2b;0x2c;0x2d;0x2e;0x2f;0x30;0x31;0x32;0x33;0x34;0x35;0x36;0x37;0x38;0x39;0x3a;0x3b;0x3c;0x3d;0x3e;0x3f;0x40;0x41;0x42;
  0x43;0x44;0x45;0x46;0x47;0x48;0x49;0x4a;0x4b;0x4c;0x4d;0x4e;0x4f;0x50;0x51;0x52;0x53;0x54;0x55;0x56;0x57;0x58;0x59;0x5a;0x5b;0x5c;0x5d;0x5e;0x5f;0x60;
  0x61;0x62;0x63;0x64;0x65;0x66;0x67;0x68;0x69;0x6a;0x6b;0x6c;0x6d;0x6e;0x6f;0x70;0x71;0x72;0x73;0x74;0x75;0x76;0x77;0x78;0x79;0x7a;0x7b;0x7c;0x7d;0x7e;
  0x7f;0xa0;0xc0;0xc1;0xc2;0xc3;0xc4;0xc5;0xc7;0xc8;0xc9;0xca;0xcb;0xcc;0xcd;0xce;0xcf;0xd0;0xd1;0xd2;0xd3;0xd4;0xd5;0xd6;0xd9;0xda;0xdb;0xdc;0xdd;0xde;
  0xb5;0xd7;0xf7;0xa9;0xa1;0xa2;0xa3;0x2044;0xa5;0x192;0xa7;0xa4;0x2019;0x201c;0xab;0x2039;0x203a;0xfb01;0xfb02;0xae;0x2013;0x2020;0x2021;0xb7;0xa6;
  0xb6;0x2022;0x201a;0x201e;0x201d;0xbb;0x2026;0x2030;0xac;0xbf;0xb9;0x2cb;0xb4;0x2c6;0x2dc;0xaf;0x2d8;0x2d9;0xa8;0xb2;0x2da;0xb8;0xb3;0x2dd;0x2db;
  0x2c7;0x2014;0xb1;0xbc;0xbd;0xbe;0xe0;0xe1;0xe2;0xe3;0xe4;0xe5;0xe7;0xe8;0xe9;0xea;0xeb;0xec;0xc6;0xed;0xaa;0xee;0xef;0xf0;0xf1;0x141;0xd8;0x152;0xba;
  0xf2;0xf3;0xf4;0xf5;0xf6;0xe6;0xf9;0xfa;0xfb;0x131;0xfc;0xfd;0x142;0xf8;0x153;0xdf;0xfe;0xff])].
(* tests/data/(no irreversible pairs) *)
Definition irr_nextstep : pairs := [].
(* tests/data/ARMSCII-8.TXT *)
Definition map_armscii_8 : charmap :=
 [([], 0, [0;1;2;3;4;5;6;7;8;9;0xa;0xb;0xc;0xd;0xe;0xf;0x10;0x11;0x12;0x13;0x14;0x15;0x16;0x17;0x18;0x19;0x1a;0x1b;0x1c;0x1d;0x1e;0x1f;0x20;0x21;0x22;0x23;0x24;
  0x25;0x26;0x27;0x28;0x29;0x2a;0x2b;0x2c;0x2d;0x2e;0x2f;0x30;0x31;0x32;0x33;0x34;0x35;0x36;0x37;0x38;0x39;0x3a;0x3b;0x3c;0x3d;0x3e;0x3f;0x40;0x41;0x42;
  0x43;0x44;0x45;0x46;0x47;0x48;0x49;0x4a;0x4b;0x4c;0x4d;0x4e;0x4f;0x50;0x51;0x52;0x53;0x54;0x55;0x56;0x57;0x58;0x59;0x5a;0x5b;0x5c;0x5d;0x5e;0x5f;0x60;
  0x61;0x62;0x63;0x64;0x65;0x66;0x67;0x68;0x69;0x6a;0x6b;0x6c;0x6d;0x6e;0x6f;0x70;0x71;0x72;0x73;0x74;0x75;0x76;0x77;0x78;0x79;0x7a;0x7b;0x7c;0x7d;0x7e;
  0x7f;0x80;0x81;0x82;0x83;0x84;0x85;0x86;0x87;0x88;0x89;0x8a;0x8b;0x8c;0x8d;0x8e;0x8f;0x90;0x91;0x92;0x93;0x94;0x95;0x96;0x97;0x98;0x99;0x9a;0x9b;0x9c;
  0x9d;0x9e;0x9f;0xa0;-1;0x587;0x589;0x29;0x28;0xbb;0xab;0x2014;0x2e;0x55d;0x2c;0x2d;0x58a;0x2026;0x55c;0x55b;0x55e;0x531;0x561;0x532;0x562;0x533;0x563;
  0x534;0x564;0x535;0x565;0x536;0x566;0x537;0x567;0x538;0x568;0x539;0x569;0x53a;0x56a;0x53b;0x56b;0x53c;0x56c;0x53d;0x56d;0x53e;0x56e;0x53f;0x56f;0x540;
  0x570;0x541;0x571;0x542;0x572;0x543;0x573;0x544;0x574;0x545;0x575;0x546;0x576;0x547;0x577;0x548;0x578;0x549;0x579;0x54a;0x57a;0x54b;0x57b;0x54c;0x57c;
  0x54d;0x57d;0x54e;0x57e;0x54f;0x57f;0x550;0x580;0x551;0x581;0x552;0x582;0x553;0x583;0x554;0x584;0x555;0x585;0x556;0x586;0x55a])].
(* tests/data/ARMSCII-8.IRREVERSIBLE.TXT *)
Definition irr_armscii_8 : pairs := [([0x28], 0x28);([0x29], 0x29);([0x2c], 0x2c);([0x2d], 0x2d);([0x2e], 0x2e)].
(* tests/data/Georgian-Academy.TXT *)
Definition map_georgian_academy : charmap :=
 [([], 0, [0;1;2;3;4;5;6;7;8;9;0xa;0xb;0xc;0xd;0xe;0xf;0x10;0x11;0x12;0x13;0x14;0x15;0x16;0x17;0x18;0x19;0x1a;0x1b;0x1c;0x1d;0x1e;0x1f;0x20;0x21;0x22;0x23;0x24;
  0x25;0x26;0x27;0x28;0x29;0x2a;0x2b;0x2c;0x2d;0x2e;0x2f;0x30;0x31;0x32;0x33;0x34;0x35;0x36;0x37;0x38;0x39;0x3a;0x3b;0x3c;0x3d;0x3e;0x3f;0x40;0x41;0x42;
  0x43;0x44;0x45;0x46;0x47;0x48;0x49;0x4a;0x4b;0x4c;0x4d;0x4e;0x4f;0x50;0x51;0x52;0x53;0x54;0x55;0x56;0x57;0x58;0x59;0x5a;0x5b;0x5c;0x5d;0x5e;0x5f;0x60;
  0x61;0x62;0x63;0x64;0x65;0x66;0x67;0x68;0x69;0x6a;0x6b;0x6c;0x6d;0x6e;0x6f;0x70;0x71;0x72;0x73;0x74;0x75;0x76;0x77;0x78;0x79;0x7a;0x7b;0x7c;0x7d;0x7e;
  0x7f;0x80;0x81;0x201a;0x192;0x201e;0x2026;0x2020;0x2021;0x2c6;0x2030;0x160;0x2039;0x152;0x8d;0x8e;0x8f;0x90;0x2018;0x2019;0x201c;0x201d;0x2022;0x2013;
  0x2014;0x2dc;0x2122;0x161;0x203a;0x153;0x9d;0x9e;0x178;0xa0;0xa1;0xa2;0xa3;0xa4;0xa5;0xa6;0xa7;0xa8;0xa9;0xaa;0xab;0xac;0xad;0xae;0xaf;0xb0;0xb1;0xb2;
  0xb3;0xb4;0xb5;0xb6;0xb7;0xb8;0xb9;0xba;0xbb;0xbc;0xbd;0xbe;0xbf;0x10d0;0x10d1;0x10d2;0x10d3;0x10d4;0x10d5;0x10d6;0x10d7;0x10d8;0x10d9;0x10da;0x10db;
  0x10dc;0x10dd;0x10de;0x10df;0x10e0;0x10e1;0x10e2;0x10e3;0x10e4;0x10e5;0x10e6;0x10e7;0x10e8;0x10e9;0x10ea;0x10eb;0x10ec;0x10ed;0x10ee;0x10ef;0x10f0;
  0x10f1;0x10f2;0x10f3;0x10f4;0x10f5;0x10f6;0xe7;0xe8;0xe9;0xea;0xeb;0xec;0xed;0xee;0xef;0xf0;0xf1;0xf2;0xf3;0xf4;0xf5;0xf6;0xf7;0xf8;0xf9;0xfa;0xfb;
  0xfc;0xfd;0xfe;0xff])].
(* tests/data/(no irreversible pairs) *)
Definition irr_georgian_academy : pairs := [].
(* tests/data/Georgian-PS.TXT *)
Definition map_georgian_ps : charmap :=
 [([], 0, [0;1;2;3;4;5;6;7;8;9;0xa;0xb;0xc;0xd;0xe;0xf;0x10;0x11;0x12;0x13;0x14;0x15;0x16;0x17;0x18;0x19;0x1a;0x1b;0x1c;0x1d;0x1e;0x1f;0x20;0x21;0x22;0x23;0x24;
  0x25;0x26;0x27;0x28;0x29;0x2a;0x2b;0x2c;0x2d;0x2e;0x2f;0x30;0x31;0x32;0x33;0x34;0x35;0x36;0x37;0x38;0x39;0x3a;0x3b;0x3c;0x3d;0x3e;0x3f;0x40;0x41;0x42;
  0x43;0x44;0x45;0x46;0x47;0x48;0x49;0x4a;0x4b;0x4c;0x4d;0x4e;0x4f;0x50;0x51;0x52;0x53;0x54;0x55;0x56;0x57;0x58;0x59;0x5a;0x5b;0x5c;0x5d;0x5e;0x5f;0x60;
  0x61;0x62;0x63;0x64;0x65;0x66;0x67;0x68;0x69;0x6a;0x6b;0x6c;0x6d;0x6e;0x6f;0x70;0x71;0x72;0x73;0x74;0x75;0x76;0x77;0x78;0x79;0x7a;0x7b;0x7c;0x7d;0x7e;
  0x7f;0x80;0x81;0x201a;0x192;0x201e;0x2026;0x2020;0x2021;0x2c6;0x2030;0x160;0x2039;0x152;0x8d;0x8e;0x8f;0x90;0x2018;0x2019;0x201c;0x201d;0x2022;0x2013;
  0x2014;0x2dc;0x2122;0x161;0x203a;0x153;0x9d;0x9e;0x178;0xa0;0xa1;0xa2;0xa3;0xa4;0xa5;0xa6;0xa7;0xa8;0xa9;0xaa;0xab;0xac;0xad;0xae;0xaf;0xb0;0xb1;0xb2;
  0xb3;0xb4;0xb5;0xb6;0xb7;0xb8;0xb9;0xba;0xbb;0xbc;0xbd;0xbe;0xbf;0x10d0;0x10d1;0x10d2;0x10d3;0x10d4;0x10d5;0x10d6;0x10f1;0x10d7;0x10d8;0x10d9;0x10da;
  0x10db;0x10dc;0x10f2;0x10dd;0x10de;0x10df;0x10e0;0x10e1;0x10e2;0x10f3;0x10e3;0x10e4;0x10e5;0x10e6;0x10e7;0x10e8;0x10e9;0x10ea;0x10eb;0x10ec;0x10ed;
  0x10ee;0x10f4;0x10ef;0x10f0;0x10f5;0xe6;0xe7;0xe8;0xe9;0xea;0xeb;0xec;0xed;0xee;0xef;0xf0;0xf1;0xf2;0xf3;0xf4;0xf5;0xf6;0xf7;0xf8;0xf9;0xfa;0xfb;0xfc;
  0xfd;0xfe;0xff])].
(* tests/data/(no irreversible pairs) *)
Definition irr_georgian_ps : pairs := [].
(* tests/data/KOI8-T.TXT *)
Definition map_koi8_t : charmap :=
 [([], 0, [0;1;2;3;4;5;6;7;8;9;0xa;0xb;0xc;0xd;0xe;0xf;0x10;0x11;0x12;0x13;0x14;0x15;0x16;0x17;0x18;0x19;0x1a;0x1b;0x1c;0x1d;0x1e;0x1f;0x20;0x21;0x22;0x23;0x24;
  0x25;0x26;0x27;0x28;0x29;0x2a;0x2b;0x2c;0x2d;0x2e;0x2f;0x30;0x31;0x32;0x33;0x34;0x35;0x36;0x37;0x38;0x39;0x3a;0x3b;0x3c;0x3d;0x3e;0x3f;0x40;0x41;0x42;
  0x43;0x44;0x45;0x46;0x47;0x48;0x49;0x4a;0x4b;0x4c;0x4d;0x4e;0x4f;0x50;0x51;0x52;0x53;0x54;0x55;0x56;0x57;0x58;0x59;0x5a;0x5b;0x5c;0x5d;0x5e;0x5f;0x60;
  0x61;0x62;0x63;0x64;0x65;0x66;0x67;0x68;0x69;0x6a;0x6b;0x6c;0x6d;0x6e;0x6f;0x70;0x71;0x72;0x73;0x74;0x75;0x76;0x77;0x78;0x79;0x7a;0x7b;0x7c;0x7d;0x7e;
  0x7f;0x49b;0x493;0x201a;0x492;0x201e;0x2026;0x2020;0x2021;-1;0x2030;0x4b3;0x2039;0x4b2;0x4b7;0x4b6;-1;0x49a;0x2018;0x2019;0x201c;0x201d;0x2022;0x2013;
  0x2014;-1;0x2122;-1;0x203a;-1;-1;-1;-1;-1;0x4ef;0x4ee;0x451;0xa4;0x4e3;0xa6;0xa7;-1;-1;-1;0xab;0xac;0xad;0xae;-1;0xb0;0xb1;0xb2;0x401;-1;0x4e2;0xb6;
  0xb7;-1;0x2116;-1;0xbb;-1;-1;-1;0xa9;0x44e;0x430;0x431;0x446;0x434;0x435;0x444;0x433;0x445;0x438;0x439;0x43a;0x43b;0x43c;0x43d;0x43e;0x43f;0x44f;
  0x440;0x441;0x442;0x443;0x436;0x432;0x44c;0x44b;0x437;0x448;0x44d;0x449;0x447;0x44a;0x42e;0x410;0x411;0x426;0x414;0x415;0x424;0x413;0x425;0x418;0x419;
  0x41a;0x41b;0x41c;0x41d;0x41e;0x41f;0x42f;0x420;0x421;0x422;0x423;0x416;0x412;0x42c;0x42b;0x417;0x428;0x42d;0x429;0x427;0x42a])].
(* tests/data/(no irreversible pairs) *)
Definition irr_koi8_t : pairs := [].
(* tests/data/PT154.TXT *)
Definition map_pt154 : charmap :=
 [([], 0, [0;1;2;3;4;5;6;7;8;9;0xa;0xb;0xc;0xd;0xe;0xf;0x10;0x11;0x12;0x13;0x14;0x15;0x16;0x17;0x18;0x19;0x1a;0x1b;0x1c;0x1d;0x1e;0x1f;0x20;0x21;0x22;0x23;0x24;
  0x25;0x26;0x27;0x28;0x29;0x2a;0x2b;0x2c;0x2d;0x2e;0x2f;0x30;0x31;0x32;0x33;0x34;0x35;0x36;0x37;0x38;0x39;0x3a;0x3b;0x3c;0x3d;0x3e;0x3f;0x40;0x41;0x42;
  0x43;0x44;0x45;0x46;0x47;0x48;0x49;0x4a;0x4b;0x4c;0x4d;0x4e;0x4f;0x50;0x51;0x52;0x53;0x54;0x55;0x56;0x57;0x58;0x59;0x5a;0x5b;0x5c;0x5d;0x5e;0x5f;0x60;
  0x61;0x62;0x63;0x64;0x65;0x66;0x67;0x68;0x69;0x6a;0x6b;0x6c;0x6d;0x6e;0x6f;0x70;0x71;0x72;0x73;0x74;0x75;0x76;0x77;0x78;0x79;0x7a;0x7b;0x7c;0x7d;0x7e;
  0x7f;0x496;0x492;0x4ee;0x493;0x201e;0x2026;0x4b6;0x4ae;0x4b2;0x4af;0x4a0;0x4e2;0x4a2;0x49a;0x4ba;0x4b8;0x497;0x2018;0x2019;0x201c;0x201d;0x2022;
  0x2013;0x2014;0x4b3;0x4b7;0x4a1;0x4e3;0x4a3;0x49b;0x4bb;0x4b9;0xa0;0x40e;0x45e;0x408;0x4e8;0x498;0x4b0;0xa7;0x401;0xa9;0x4d8;0xab;0xac;0x4ef;0xae;
  0x49c;0xb0;0x4b1;0x406;0x456;0x499;0x4e9;0xb6;0xb7;0x451;0x2116;0x4d9;0xbb;0x458;0x4aa;0x4ab;0x49d;0x410;0x411;0x412;0x413;0x414;0x415;0x416;0x417;
  0x418;0x419;0x41a;0x41b;0x41c;0x41d;0x41e;0x41f;0x420;0x421;0x422;0x423;0x424;0x425;0x426;0x427;0x428;0x429;0x42a;0x42b;0x42c;0x42d;0x42e;0x42f;0x430;
  0x431;0x432;0x433;0x434;0x435;0x436;0x437;0x438;0x439;0x43a;0x43b;0x43c;0x43d;0x43e;0x43f;0x440;0x441;0x442;0x443;0x444;0x445;0x446;0x447;0x448;0x449;
  0x44a;0x44b;0x44c;0x44d;0x44e;0x44f])].
(* tests/data/(no irreversible pairs) *)
Definition irr_pt154 : pairs := [].
(* tests/data/RK1048.TXT *)
Definition map_rk1048 : charmap :=
 [([], 0, [0;1;2;3;4;5;6;7;8;9;0xa;0xb;0xc;0xd;0xe;0xf;0x10;0x11;0x12;0x13;0x14;0x15;0x16;0x17;0x18;0x19;0x1a;0x1b;0x1c;0x1d;0x1e;0x1f;0x20;0x21;0x22;0x23;0x24;
  0x25;0x26;0x27;0x28;0x29;0x2a;0x2b;0x2c;0x2d;0x2e;0x2f;0x30;0x31;0x32;0x33;0x34;0x35;0x36;0x37;0x38;0x39;0x3a;0x3b;0x3c;0x3d;0x3e;0x3f;0x40;0x41;0x42;
  0x43;0x44;0x45;0x46;0x47;0x48;0x49;0x4a;0x4b;0x4c;0x4d;0x4e;0x4f;0x50;0x51;0x52;0x53;0x54;0x55;0x56;0x57;0x58;0x59;0x5a;0x5b;0x5c;0x5d;0x5e;0x5f;0x60;
  0x61;0x62;0x63;0x64;0x65;0x66;0x67;0x68;0x69;0x6a;0x6b;0x6c;0x6d;0x6e;0x6f;0x70;0x71;0x72;0x73;0x74;0x75;0x76;0x77;0x78;0x79;0x7a;0x7b;0x7c;0x7d;0x7e;
  0x7f;0x402;0x403;0x201a;0x453;0x201e;0x2026;0x2020;0x2021;0x20ac;0x2030;0x409;0x2039;0x40a;0x49a;0x4ba;0x40f;0x452;0x2018;0x2019;0x201c;0x201d;0x2022;
  0x2013;0x2014;-1;0x2122;0x459;0x203a;0x45a;0x49b;0x4bb;0x45f;0xa0;0x4b0;0x4b1;0x4d8;0xa4;0x4e8;0xa6;0xa7;0x401;0xa9;0x492;0xab;0xac;0xad;0xae;0x4ae;
  0xb0;0xb1;0x406;0x456;0x4e9;0xb5;0xb6;0xb7;0x451;0x2116;0x493;0xbb;0x4d9;0x4a2;0x4a3;0x4af;0x410;0x411;0x412;0x413;0x414;0x415;0x416;0x417;0x418;
  0x419;0x41a;0x41b;0x41c;0x41d;0x41e;0x41f;0x420;0x421;0x422;0x423;0x424;0x425;0x426;0x427;0x428;0x429;0x42a;0x42b;0x42c;0x42d;0x42e;0x42f;0x430;0x431;
  0x432;0x433;0x434;0x435;0x436;0x437;0x438;0x439;0x43a;0x43b;0x43c;0x43d;0x43e;0x43f;0x440;0x441;0x442;0x443;0x444;0x445;0x446;0x447;0x448;0x449;0x44a;
  0x44b;0x44c;0x44d;0x44e;0x44f])].
(* tests/data/(no irreversible pairs) *)
Definition irr_rk1048 : pairs := [].
(* tests/data/MuleLao-1.TXT *)
Definition map_mulelao : charmap :=
 [([], 0, [0;1;2;3;4;5;6;7;8;9;0xa;0xb;0xc;0xd;0xe;0xf;0x10;0x11;0x12;0x13;0x14;0x15;0x16;0x17;0x18;0x19;0x1a;0x1b;0x1c;0x1d;0x1e;0x1f;0x20;0x21;0x22;0x23;0x24;
  0x25;0x26;0x27;0x28;0x29;0x2a;0x2b;0x2c;0x2d;0x2e;0x2f;0x30;0x31;0x32;0x33;0x34;0x35;0x36;0x37;0x38;0x39;0x3a;0x3b;0x3c;0x3d;0x3e;0x3f;0x40;0x41;0x42;
  0x43;0x44;0x45;0x46;0x47;0x48;0x49;0x4a;0x4b;0x4c;0x4d;0x4e;0x4f;0x50;0x51;0x52;0x53;0x54;0x55;0x56;0x57;0x58;0x59;0x5a;0x5b;0x5c;0x5d;0x5e;0x5f;0x60;
  0x61;0x62;0x63;0x64;0x65;0x66;0x67;0x68;0x69;0x6a;0x6b;0x6c;0x6d;0x6e;0x6f;0x70;0x71;0x72;0x73;0x74;0x75;0x76;0x77;0x78;0x79;0x7a;0x7b;0x7c;0x7d;0x7e;
  0x7f;0x80;0x81;0x82;0x83;0x84;0x85;0x86;0x87;0x88;0x89;0x8a;0x8b;0x8c;0x8d;0x8e;0x8f;0x90;0x91;0x92;0x93;0x94;0x95;0x96;0x97;0x98;0x99;0x9a;0x9b;0x9c;
  0x9d;0x9e;0x9f;0xa0;0xe81;0xe82;-1;0xe84;-1;-1;0xe87;0xe88;-1;0xe8a;-1;-1;0xe8d;-1;-1;-1;-1;-1;-1;0xe94;0xe95;0xe96;0xe97;-1;0xe99;0xe9a;0xe9b;0xe9c;
  0xe9d;0xe9e;0xe9f;-1;0xea1;0xea2;0xea3;-1;0xea5;-1;0xea7;-1;-1;0xeaa;0xeab;-1;0xead;0xeae;0xeaf;0xeb0;0xeb1;0xeb2;0xeb3;0xeb4;0xeb5;0xeb6;0xeb7;0xeb8;
  0xeb9;-1;0xebb;0xebc;0xebd;-1;-1;0xec0;0xec1;0xec2;0xec3;0xec4;-1;0xec6;-1;0xec8;0xec9;0xeca;0xecb;0xecc;0xecd;-1;-1;0xed0;0xed1;0xed2;0xed3;0xed4;
  0xed5;0xed6;0xed7;0xed8;0xed9;-1;-1;0xedc;0xedd])].
(* tests/data/(no irreversible pairs) *)
Definition irr_mulelao : pairs := [].
(* tests/data/CP1133.TXT *)
Definition map_cp1133 : charmap :=
 [([], 0, [0;1;2;3;4;5;6;7;8;9;0xa;0xb;0xc;0xd;0xe;0xf;0x10;0x11;0x12;0x13;0x14;0x15;0x16;0x17;0x18;0x19;0x1a;0x1b;0x1c;0x1d;0x1e;0x1f;0x20;0x21;0x22;0x23;0x24;
  0x25;0x26;0x27;0x28;0x29;0x2a;0x2b;0x2c;0x2d;0x2e;0x2f;0x30;0x31;0x32;0x33;0x34;0x35;0x36;0x37;0x38;0x39;0x3a;0x3b;0x3c;0x3d;0x3e;0x3f;0x40;0x41;0x42;
  0x43;0x44;0x45;0x46;0x47;0x48;0x49;0x4a;0x4b;0x4c;0x4d;0x4e;0x4f;0x50;0x51;0x52;0x53;0x54;0x55;0x56;0x57;0x58;0x59;0x5a;0x5b;0x5c;0x5d;0x5e;0x5f;0x60;
  0x61;0x62;0x63;0x64;0x65;0x66;0x67;0x68;0x69;0x6a;0x6b;0x6c;0x6d;0x6e;0x6f;0x70;0x71;0x72;0x73;0x74;0x75;0x76;0x77;0x78;0x79;0x7a;0x7b;0x7c;0x7d;0x7e;
  0x7f;0x80;0x81;0x82;0x83;0x84;0x85;0x86;0x87;0x88;0x89;0x8a;0x8b;0x8c;0x8d;0x8e;0x8f;0x90;0x91;0x92;0x93;0x94;0x95;0x96;0x97;0x98;0x99;0x9a;0x9b;0x9c;
  0x9d;0x9e;0x9f;0xa0;0xe81;0xe82;0xe84;0xe87;0xe88;0xeaa;0xe8a;0xe8d;0xe94;0xe95;0xe96;0xe97;0xe99;0xe9a;0xe9b;0xe9c;0xe9d;0xe9e;0xe9f;0xea1;0xea2;
  0xea3;0xea5;0xea7;0xeab;0xead;0xeae;-1;-1;-1;0xeaf;0xeb0;0xeb2;0xeb3;0xeb4;0xeb5;0xeb6;0xeb7;0xeb8;0xeb9;0xebc;0xeb1;0xebb;0xebd;-1;-1;-1;0xec0;0xec1;
  0xec2;0xec3;0xec4;0xec8;0xec9;0xeca;0xecb;0xecc;0xecd;0xec6;-1;0xedc;0xedd;0x20ad;-1;-1;-1;-1;-1;-1;-1;-1;-1;-1;-1;-1;-1;-1;-1;-1;0xed0;0xed1;0xed2;
  0xed3;0xed4;0xed5;0xed6;0xed7;0xed8;0xed9;-1;-1;0xa2;0xac;0xa6])].
(* tests/data/(no irreversible pairs) *)
Definition irr_cp1133 : pairs := [].
(* tests/data/TIS-620.TXT *)
Definition map_tis620 : charmap :=
 [([], 0, [0;1;2;3;4;5;6;7;8;9;0xa;0xb;0xc;0xd;0xe;0xf;0x10;0x11;0x12;0x13;0x14;0x15;0x16;0x17;0x18;0x19;0x1a;0x1b;0x1c;0x1d;0x1e;0x1f;0x20;0x21;0x22;0x23;0x24;
  0x25;0x26;0x27;0x28;0x29;0x2a;0x2b;0x2c;0x2d;0x2e;0x2f;0x30;0x31;0x32;0x33;0x34;0x35;0x36;0x37;0x38;0x39;0x3a;0x3b;0x3c;0x3d;0x3e;0x3f;0x40;0x41;0x42;
  0x43;0x44;0x45;0x46;0x47;0x48;0x49;0x4a;0x4b;0x4c;0x4d;0x4e;0x4f;0x50;0x51;0x52;0x53;0x54;0x55;0x56;0x57;0x58;0x59;0x5a;0x5b;0x5c;0x5d;0x5e;0x5f;0x60;
  0x61;0x62;0x63;0x64;0x65;0x66;0x67;0x68;0x69;0x6a;0x6b;0x6c;0x6d;0x6e;0x6f;0x70;0x71;0x72;0x73;0x74;0x75;0x76;0x77;0x78;0x79;0x7a;0x7b;0x7c;0x7d;0x7e;
  0x7f;-1;-1;-1;-1;-1;-1;-1;-1;-1;-1;-1;-1;-1;-1;-1;-1;-1;-1;-1;-1;-1;-1;-1;-1;-1;-1;-1;-1;-1;-1;-1;-1;-1;0xe01;0xe02;0xe03;0xe04;0xe05;0xe06;0xe07;
  0xe08;0xe09;0xe0a;0xe0b;0xe0c;0xe0d;0xe0e;0xe0f;0xe10;0xe11;0xe12;0xe13;0xe14;0xe15;0xe16;0xe17;0xe18;0xe19;0xe1a;0xe1b;0xe1c;0xe1d;0xe1e;0xe1f;0xe20;
  0xe21;0xe22;0xe23;0xe24;0xe25;0xe26;0xe27;0xe28;0xe29;0xe2a;0xe2b;0xe2c;0xe2d;0xe2e;0xe2f;0xe30;0xe31;0xe32;0xe33;0xe34;0xe35;0xe36;0xe37;0xe38;0xe39;
  0xe3a;-1;-1;-1;-1;0xe3f;0xe40;0xe41;0xe42;0xe43;0xe44;0xe45;0xe46;0xe47;0xe48;0xe49;0xe4a;0xe4b;0xe4c;0xe4d;0xe4e;0xe4f;0xe50;0xe51;0xe52;0xe53;0xe54;
  0xe55;0xe56;0xe57;0xe58;0xe59;0xe5a;0xe5b])].
(* tests/data/(no irreversible pairs) *)
Definition irr_tis620 : pairs := [].
(* tests/data/CP874.TXT *)
Definition map_cp874 : charmap :=
 [([], 0, [0;1;2;3;4;5;6;7;8;9;0xa;0xb;0xc;0xd;0xe;0xf;0x10;0x11;0x12;0x13;0x14;0x15;0x16;0x17;0x18;0x19;0x1a;0x1b;0x1c;0x1d;0x1e;0x1f;0x20;0x21;0x22;0x23;0x24;
  0x25;0x26;0x27;0x28;0x29;0x2a;0x2b;0x2c;0x2d;0x2e;0x2f;0x30;0x31;0x32;0x33;0x34;0x35;0x36;0x37;0x38;0x39;0x3a;0x3b;0x3c;0x3d;0x3e;0x3f;0x40;0x41;0x42;
  0x43;0x44;0x45;0x46;0x47;0x48;0x49;0x4a;0x4b;0x4c;0x4d;0x4e;0x4f;0x50;0x51;0x52;0x53;0x54;0x55;0x56;0x57;0x58;0x59;0x5a;0x5b;0x5c;0x5d;0x5e;0x5f;0x60;
  0x61;0x62;0x63;0x64;0x65;0x66;0x67;0x68;0x69;0x6a;0x6b;0x6c;0x6d;0x6e;0x6f;0x70;0x71;0x72;0x73;0x74;0x75;0x76;0x77;0x78;0x79;0x7a;0x7b;0x7c;0x7d;0x7e;
  0x7f;0x20ac;-1;-1;-1;-1;0x2026;-1;-1;-1;-1;-1;-1;-1;-1;-1;-1;-1;0x2018;0x2019;0x201c;0x201d;0x2022;0x2013;0x2014;-1;-1;-1;-1;-1;-1;-1;-1;0xa0;0xe01;
  0xe02;0xe03;0xe04;0xe05;0xe06;0xe07;0xe08;0xe09;0xe0a;0xe0b;0xe0c;0xe0d;0xe0e;0xe0f;0xe10;0xe11;0xe12;0xe13;0xe14;0xe15;0xe16;0xe17;0xe18;0xe19;0xe1a;
  0xe1b;0xe1c;0xe1d;0xe1e;0xe1f;0xe20;0xe21;0xe22;0xe23;0xe24;0xe25;0xe26;0xe27;0xe28;0xe29;0xe2a;0xe2b;0xe2c;0xe2d;0xe2e;0xe2f;0xe30;0xe31;0xe32;0xe33;
  0xe34;0xe35;0xe36;0xe37;0xe38;0xe39;0xe3a;-1;-1;-1;-1;0xe3f;0xe40;0xe41;0xe42;0xe43;0xe44;0xe45;0xe46;0xe47;0xe48;0xe49;0xe4a;0xe4b;0xe4c;0xe4d;0xe4e;
  0xe4f;0xe50;0xe51;0xe52;0xe53;0xe54;0xe55;0xe56;0xe57;0xe58;0xe59;0xe5a;0xe5b])].
(* tests/data/(no irreversible pairs) *)
Definition irr_cp874 : pairs := [].
(* tests/data/VISCII.TXT *)
Definition map_viscii : charmap :=
 [([], 0, [0;1;0x1eb2;3;4;0x1eb4;0x1eaa;7;8;9;0xa;0xb;0xc;0xd;0xe;0xf;0x10;0x11;0x12;0x13;0x1ef6;0x15;0x16;0x17;0x18;0x1ef8;0x1a;0x1b;0x1c;0x1d;0x1ef4;0x1f;
  0x20;0x21;0x22;0x23;0x24;0x25;0x26;0x27;0x28;0x29;0x2a;0x2b;0x2c;0x2d;0x2e;0x2f;0x30;0x31;0x32;0x33;0x34;0x35;0x36;0x37;0x38;0x39;0x3a;0x3b;0x3c;0x3d;
  0x3e;0x3f;0x40;0x41;0x42;0x43;0x44;0x45;0x46;0x47;0x48;0x49;0x4a;0x4b;0x4c;0x4d;0x4e;0x4f;0x50;0x51;0x52;0x53;0x54;0x55;0x56;0x57;0x58;0x59;0x5a;0x5b;
  0x5c;0x5d;0x5e;0x5f;0x60;0x61;0x62;0x63;0x64;0x65;0x66;0x67;0x68;0x69;0x6a;0x6b;0x6c;0x6d;0x6e;0x6f;0x70;0x71;0x72;0x73;0x74;0x75;0x76;0x77;0x78;0x79;
  0x7a;0x7b;0x7c;0x7d;0x7e;0x7f;0x1ea0;0x1eae;0x1eb0;0x1eb6;0x1ea4;0x1ea6;0x1ea8;0x1eac;0x1ebc;0x1eb8;0x1ebe;0x1ec0;0x1ec2;0x1ec4;0x1ec6;0x1ed0;0x1ed2;
  0x1ed4;0x1ed6;0x1ed8;0x1ee2;0x1eda;0x1edc;0x1ede;0x1eca;0x1ece;0x1ecc;0x1ec8;0x1ee6;0x168;0x1ee4;0x1ef2;0xd5;0x1eaf;0x1eb1;0x1eb7;0x1ea5;0x1ea7;
  0x1ea9;0x1ead;0x1ebd;0x1eb9;0x1ebf;0x1ec1;0x1ec3;0x1ec5;0x1ec7;0x1ed1;0x1ed3;0x1ed5;0x1ed7;0x1ee0;0x1a0;0x1ed9;0x1edd;0x1edf;0x1ecb;0x1ef0;0x1ee8;
  0x1eea;0x1eec;0x1a1;0x1edb;0x1af;0xc0;0xc1;0xc2;0xc3;0x1ea2;0x102;0x1eb3;0x1eb5;0xc8;0xc9;0xca;0x1eba;0xcc;0xcd;0x128;0x1ef3;0x110;0x1ee9;0xd2;0xd3;
  0xd4;0x1ea1;0x1ef7;0x1eeb;0x1eed;0xd9;0xda;0x1ef9;0x1ef5;0xdd;0x1ee1;0x1b0;0xe0;0xe1;0xe2;0xe3;0x1ea3;0x103;0x1eef;0x1eab;0xe8;0xe9;0xea;0x1ebb;0xec;
  0xed;0x129;0x1ec9;0x111;0x1ef1;0xf2;0xf3;0xf4;0xf5;0x1ecf;0x1ecd;0x1ee5;0xf9;0xfa;0x169;0x1ee7;0xfd;0x1ee3;0x1eee])].
(* tests/data/(no irreversible pairs) *)
Definition irr_viscii : pairs := [].
(* tests/data/ISO646-JP.TXT *)
Definition map_iso646_jp : charmap :=
 [([], 0, [0;1;2;3;4;5;6;7;8;9;0xa;0xb;0xc;0xd;0xe;0xf;0x10;0x11;0x12;0x13;0x14;0x15;0x16;0x17;0x18;0x19;0x1a;0x1b;0x1c;0x1d;0x1e;0x1f;0x20;0x21;0x22;0x23;0x24;
  0x25;0x26;0x27;0x28;0x29;0x2a;0x2b;0x2c;0x2d;0x2e;0x2f;0x30;0x31;0x32;0x33;0x34;0x35;0x36;0x37;0x38;0x39;0x3a;0x3b;0x3c;0x3d;0x3e;0x3f;0x40;0x41;0x42;
  0x43;0x44;0x45;0x46;0x47;0x48;0x49;0x4a;0x4b;0x4c;0x4d;0x4e;0x4f;0x50;0x51;0x52;0x53;0x54;0x55;0x56;0x57;0x58;0x59;0x5a;0x5b;0xa5;0x5d;0x5e;0x5f;0x60;
  0x61;0x62;0x63;0x64;0x65;0x66;0x67;0x68;0x69;0x6a;0x6b;0x6c;0x6d;0x6e;0x6f;0x70;0x71;0x72;0x73;0x74;0x75;0x76;0x77;0x78;0x79;0x7a;0x7b;0x7c;0x7d;
  0x203e;0x7f])].
(* tests/data/(no irreversible pairs) *)
Definition irr_iso646_jp : pairs := [].
(* tests/data/JIS_X0201.TXT *)
Definition map_jisx0201 : charmap :=
 [([], 0, [0;1;2;3;4;5;6;7;8;9;0xa;0xb;0xc;0xd;0xe;0xf;0x10;0x11;0x12;0x13;0x14;0x15;0x16;0x17;0x18;0x19;0x1a;0x1b;0x1c;0x1d;0x1e;0x1f;0x20;0x21;0x22;0x23;0x24;
  0x25;0x26;0x27;0x28;0x29;0x2a;0x2b;0x2c;0x2d;0x2e;0x2f;0x30;0x31;0x32;0x33;0x34;0x35;0x36;0x37;0x38;0x39;0x3a;0x3b;0x3c;0x3d;0x3e;0x3f;0x40;0x41;0x42;
  0x43;0x44;0x45;0x46;0x47;0x48;0x49;0x4a;0x4b;0x4c;0x4d;0x4e;0x4f;0x50;0x51;0x52;0x53;0x54;0x55;0x56;0x57;0x58;0x59;0x5a;0x5b;0xa5;0x5d;0x5e;0x5f;0x60;
  0x61;0x62;0x63;0x64;0x65;0x66;0x67;0x68;0x69;0x6a;0x6b;0x6c;0x6d;0x6e;0x6f;0x70;0x71;0x72;0x73;0x74;0x75;0x76;0x77;0x78;0x79;0x7a;0x7b;0x7c;0x7d;
  0x203e;0x7f;-1;-1;-1;-1;-1;-1;-1;-1;-1;-1;-1;-1;-1;-1;-1;-1;-1;-1;-1;-1;-1;-1;-1;-1;-1;-1;-1;-1;-1;-1;-1;-1;-1;0xff61;0xff62;0xff63;0xff64;0xff65;
  0xff66;0xff67;0xff68;0xff69;0xff6a;0xff6b;0xff6c;0xff6d;0xff6e;0xff6f;0xff70;0xff71;0xff72;0xff73;0xff74;0xff75;0xff76;0xff77;0xff78;0xff79;0xff7a;
  0xff7b;0xff7c;0xff7d;0xff7e;0xff7f;0xff80;0xff81;0xff82;0xff83;0xff84;0xff85;0xff86;0xff87;0xff88;0xff89;0xff8a;0xff8b;0xff8c;0xff8d;0xff8e;0xff8f;
  0xff90;0xff91;0xff92;0xff93;0xff94;0xff95;0xff96;0xff97;0xff98;0xff99;0xff9a;0xff9b;0xff9c;0xff9d;0xff9e;0xff9f])].
(* tests/data/(no irreversible pairs) *)
Definition irr_jisx0201 : pairs := [].
(* tests/data/ISO646-CN.TXT *)
Definition map_iso646_cn : charmap :=
 [([], 0, [0;1;2;3;4;5;6;7;8;9;0xa;0xb;0xc;0xd;0xe;0xf;0x10;0x11;0x12;0x13;0x14;0x15;0x16;0x17;0x18;0x19;0x1a;0x1b;0x1c;0x1d;0x1e;0x1f;0x20;0x21;0x22;0x23;0xa5;
  0x25;0x26;0x27;0x28;0x29;0x2a;0x2b;0x2c;0x2d;0x2e;0x2f;0x30;0x31;0x32;0x33;0x34;0x35;0x36;0x37;0x38;0x39;0x3a;0x3b;0x3c;0x3d;0x3e;0x3f;0x40;0x41;0x42;
  0x43;0x44;0x45;0x46;0x47;0x48;0x49;0x4a;0x4b;0x4c;0x4d;0x4e;0x4f;0x50;0x51;0x52;0x53;0x54;0x55;0x56;0x57;0x58;0x59;0x5a;0x5b;0x5c;0x5d;0x5e;0x5f;0x60;
  0x61;0x62;0x63;0x64;0x65;0x66;0x67;0x68;0x69;0x6a;0x6b;0x6c;0x6d;0x6e;0x6f;0x70;0x71;0x72;0x73;0x74;0x75;0x76;0x77;0x78;0x79;0x7a;0x7b;0x7c;0x7d;
  0x203e;0x7f])].
(* tests/data/(no irreversible pairs) *)
Definition irr_iso646_cn : pairs := [].
(* tests/data/CP856.TXT *)
Definition map_cp856 : charmap :=
 [([], 0, [0;1;2;3;4;5;6;7;8;9;0xa;0xb;0xc;0xd;0xe;0xf;0x10;0x11;0x12;0x13;0x14;0x15;0x16;0x17;0x18;0x19;0x1a;0x1b;0x1c;0x1d;0x1e;0x1f;0x20;0x21;0x22;0x23;0x24;
  0x25;0x26;0x27;0x28;0x29;0x2a;0x2b;0x2c;0x2d;0x2e;0x2f;0x30;0x31;0x32;0x33;0x34;0x35;0x36;0x37;0x38;0x39;0x3a;0x3b;0x3c;0x3d;0x3e;0x3f;0x40;0x41;0x42;
  0x43;0x44;0x45;0x46;0x47;0x48;0x49;0x4a;0x4b;0x4c;0x4d;0x4e;0x4f;0x50;0x51;0x52;0x53;0x54;0x55;0x56;0x57;0x58;0x59;0x5a;0x5b;0x5c;0x5d;0x5e;0x5f;0x60;
  0x61;0x62;0x63;0x64;0x65;0x66;0x67;0x68;0x69;0x6a;0x6b;0x6c;0x6d;0x6e;0x6f;0x70;0x71;0x72;0x73;0x74;0x75;0x76;0x77;0x78;0x79;0x7a;0x7b;0x7c;0x7d;0x7e;
  0x7f;0x5d0;0x5d1;0x5d2;0x5d3;0x5d4;0x5d5;0x5d6;0x5d7;0x5d8;0x5d9;0x5da;0x5db;0x5dc;0x5dd;0x5de;0x5df;0x5e0;0x5e1;0x5e2;0x5e3;0x5e4;0x5e5;0x5e6;0x5e7;
  0x5e8;0x5e9;0x5ea;-1;0xa3;-1;0xd7;-1;-1;-1;-1;-1;-1;-1;-1;-1;-1;0xae;0xac;0xbd;0xbc;-1;0xab;0xbb;0x2591;0x2592;0x2593;0x2502;0x2524;-1;-1;-1;0xa9;
  0x2563;0x2551;0x2557;0x255d;0xa2;0xa5;0x2510;0x2514;0x2534;0x252c;0x251c;0x2500;0x253c;-1;-1;0x255a;0x2554;0x2569;0x2566;0x2560;0x2550;0x256c;0xa4;-1;
  -1;-1;-1;-1;-1;-1;-1;-1;0x2518;0x250c;0x2588;0x2584;0xa6;-1;0x2580;-1;-1;-1;-1;-1;-1;0xb5;-1;-1;-1;-1;-1;-1;-1;0xaf;0xb4;0xad;0xb1;0x2017;0xbe;0xb6;
  0xa7;0xf7;0xb8;0xb0;0xa8;0xb7;0xb9;0xb3;0xb2;0x25a0;0xa0])].
(* tests/data/(no irreversible pairs) *)
Definition irr_cp856 : pairs := [].
(* tests/data/CP922.TXT *)
Definition map_cp922 : charmap :=
 [([], 0, [0;1;2;3;4;5;6;7;8;9;0xa;0xb;0xc;0xd;0xe;0xf;0x10;0x11;0x12;0x13;0x14;0x15;0x16;0x17;0x18;0x19;0x1a;0x1b;0x1c;0x1d;0x1e;0x1f;0x20;0x21;0x22;0x23;0x24;
  0x25;0x26;0x27;0x28;0x29;0x2a;0x2b;0x2c;0x2d;0x2e;0x2f;0x30;0x31;0x32;0x33;0x34;0x35;0x36;0x37;0x38;0x39;0x3a;0x3b;0x3c;0x3d;0x3e;0x3f;0x40;0x41;0x42;
  0x43;0x44;0x45;0x46;0x47;0x48;0x49;0x4a;0x4b;0x4c;0x4d;0x4e;0x4f;0x50;0x51;0x52;0x53;0x54;0x55;0x56;0x57;0x58;0x59;0x5a;0x5b;0x5c;0x5d;0x5e;0x5f;0x60;
  0x61;0x62;0x63;0x64;0x65;0x66;0x67;0x68;0x69;0x6a;0x6b;0x6c;0x6d;0x6e;0x6f;0x70;0x71;0x72;0x73;0x74;0x75;0x76;0x77;0x78;0x79;0x7a;0x7b;0x7c;0x7d;0x7e;
  0x7f;0x80;0x81;0x82;0x83;0x84;0x85;0x86;0x87;0x88;0x89;0x8a;0x8b;0x8c;0x8d;0x8e;0x8f;0x90;0x91;0x92;0x93;0x94;0x95;0x96;0x97;0x98;0x99;0x9a;0x9b;0x9c;
  0x9d;0x9e;0x9f;0xa0;0xa1;0xa2;0xa3;0xa4;0xa5;0xa6;0xa7;0xa8;0xa9;0xaa;0xab;0xac;0xad;0xae;0x203e;0xb0;0xb1;0xb2;0xb3;0xb4;0xb5;0xb6;0xb7;0xb8;0xb9;
  0xba;0xbb;0xbc;0xbd;0xbe;0xbf;0xc0;0xc1;0xc2;0xc3;0xc4;0xc5;0xc6;0xc7;0xc8;0xc9;0xca;0xcb;0xcc;0xcd;0xce;0xcf;0x160;0xd1;0xd2;0xd3;0xd4;0xd5;0xd6;
  0xd7;0xd8;0xd9;0xda;0xdb;0xdc;0xdd;0x17d;0xdf;0xe0;0xe1;0xe2;0xe3;0xe4;0xe5;0xe6;0xe7;0xe8;0xe9;0xea;0xeb;0xec;0xed;0xee;0xef;0x161;0xf1;0xf2;0xf3;
  0xf4;0xf5;0xf6;0xf7;0xf8;0xf9;0xfa;0xfb;0xfc;0xfd;0x17e;0xff])].
(* tests/data/(no irreversible pairs) *)
Definition irr_cp922 : pairs := [].
(* tests/data/CP1046.TXT *)
Definition map_cp1046 : charmap :=
 [([], 0, [0;1;2;3;4;5;6;7;8;9;0xa;0xb;0xc;0xd;0xe;0xf;0x10;0x11;0x12;0x13;0x14;0x15;0x16;0x17;0x18;0x19;0x1a;0x1b;0x1c;0x1d;0x1e;0x1f;0x20;0x21;0x22;0x23;0x24;
  0x25;0x26;0x27;0x28;0x29;0x2a;0x2b;0x2c;0x2d;0x2e;0x2f;0x30;0x31;0x32;0x33;0x34;0x35;0x36;0x37;0x38;0x39;0x3a;0x3b;0x3c;0x3d;0x3e;0x3f;0x40;0x41;0x42;
  0x43;0x44;0x45;0x46;0x47;0x48;0x49;0x4a;0x4b;0x4c;0x4d;0x4e;0x4f;0x50;0x51;0x52;0x53;0x54;0x55;0x56;0x57;0x58;0x59;0x5a;0x5b;0x5c;0x5d;0x5e;0x5f;0x60;
  0x61;0x62;0x63;0x64;0x65;0x66;0x67;0x68;0x69;0x6a;0x6b;0x6c;0x6d;0x6e;0x6f;0x70;0x71;0x72;0x73;0x74;0x75;0x76;0x77;0x78;0x79;0x7a;0x7b;0x7c;0x7d;0x7e;
  0x7f;0xfe88;0xd7;0xf7;0xf8f6;0xf8f5;0xf8f4;0xf8f7;0xfe71;0x88;0x25a0;0x2502;0x2500;0x2510;0x250c;0x2514;0x2518;0xfe79;0xfe7b;0xfe7d;0xfe7f;0xfe77;
  0xfe8a;0xfef0;0xfef3;0xfef2;0xfece;0xfecf;0xfed0;0xfef6;0xfef8;0xfefa;0xfefc;0xa0;0xf8fa;0xf8f9;0xf8f8;0xa4;0xf8fb;0xfe8b;0xfe91;0xfe97;0xfe9b;0xfe9f;
  0xfea3;0x60c;0xad;0xfea7;0xfeb3;0x660;0x661;0x662;0x663;0x664;0x665;0x666;0x667;0x668;0x669;0xfeb7;0x61b;0xfebb;0xfebf;0xfeca;0x61f;0xfecb;0x621;
  0x622;0x623;0x624;0x625;0x626;0x627;0x628;0x629;0x62a;0x62b;0x62c;0x62d;0x62e;0x62f;0x630;0x631;0x632;0x633;0x634;0x635;0x636;0x637;0xfec7;0x639;
  0x63a;0xfecc;0xfe82;0xfe84;0xfe8e;0xfed3;0x640;0x641;0x642;0x643;0x644;0x645;0x646;0x647;0x648;0x649;0x64a;0x64b;0x64c;0x64d;0x64e;0x64f;0x650;0x651;
  0x652;0xfed7;0xfedb;0xfedf;0xf8fc;0xfef5;0xfef7;0xfef9;0xfefb;0xfee3;0xfee7;0xfeec;0xfee9])].
(* tests/data/(no irreversible pairs) *)
Definition irr_cp1046 : pairs := [].
(* tests/data/CP1124.TXT *)
Definition map_cp1124 : charmap :=
 [([], 0, [0;1;2;3;4;5;6;7;8;9;0xa;0xb;0xc;0xd;0xe;0xf;0x10;0x11;0x12;0x13;0x14;0x15;0x16;0x17;0x18;0x19;0x1a;0x1b;0x1c;0x1d;0x1e;0x1f;0x20;0x21;0x22;0x23;0x24;
  0x25;0x26;0x27;0x28;0x29;0x2a;0x2b;0x2c;0x2d;0x2e;0x2f;0x30;0x31;0x32;0x33;0x34;0x35;0x36;0x37;0x38;0x39;0x3a;0x3b;0x3c;0x3d;0x3e;0x3f;0x40;0x41;0x42;
  0x43;0x44;0x45;0x46;0x47;0x48;0x49;0x4a;0x4b;0x4c;0x4d;0x4e;0x4f;0x50;0x51;0x52;0x53;0x54;0x55;0x56;0x57;0x58;0x59;0x5a;0x5b;0x5c;0x5d;0x5e;0x5f;0x60;
  0x61;0x62;0x63;0x64;0x65;0x66;0x67;0x68;0x69;0x6a;0x6b;0x6c;0x6d;0x6e;0x6f;0x70;0x71;0x72;0x73;0x74;0x75;0x76;0x77;0x78;0x79;0x7a;0x7b;0x7c;0x7d;0x7e;
  0x7f;0x80;0x81;0x82;0x83;0x84;0x85;0x86;0x87;0x88;0x89;0x8a;0x8b;0x8c;0x8d;0x8e;0x8f;0x90;0x91;0x92;0x93;0x94;0x95;0x96;0x97;0x98;0x99;0x9a;0x9b;0x9c;
  0x9d;0x9e;0x9f;0xa0;0x401;0x402;0x490;0x404;0x405;0x406;0x407;0x408;0x409;0x40a;0x40b;0x40c;0xad;0x40e;0x40f;0x410;0x411;0x412;0x413;0x414;0x415;
  0x416;0x417;0x418;0x419;0x41a;0x41b;0x41c;0x41d;0x41e;0x41f;0x420;0x421;0x422;0x423;0x424;0x425;0x426;0x427;0x428;0x429;0x42a;0x42b;0x42c;0x42d;0x42e;
  0x42f;0x430;0x431;0x432;0x433;0x434;0x435;0x436;0x437;0x438;0x439;0x43a;0x43b;0x43c;0x43d;0x43e;0x43f;0x440;0x441;0x442;0x443;0x444;0x445;0x446;0x447;
  0x448;0x449;0x44a;0x44b;0x44c;0x44d;0x44e;0x44f;0x2116;0x451;0x452;0x491;0x454;0x455;0x456;0x457;0x458;0x459;0x45a;0x45b;0x45c;0xa7;0x45e;0x45f])].
(* tests/data/(no irreversible pairs) *)
Definition irr_cp1124 : pairs := [].
(* tests/data/CP1129.TXT *)
Definition map_cp1129 : charmap :=
 [([], 0, [0;1;2;3;4;5;6;7;8;9;0xa;0xb;0xc;0xd;0xe;0xf;0x10;0x11;0x12;0x13;0x14;0x15;0x16;0x17;0x18;0x19;0x1a;0x1b;0x1c;0x1d;0x1e;0x1f;0x20;0x21;0x22;0x23;0x24;
  0x25;0x26;0x27;0x28;0x29;0x2a;0x2b;0x2c;0x2d;0x2e;0x2f;0x30;0x31;0x32;0x33;0x34;0x35;0x36;0x37;0x38;0x39;0x3a;0x3b;0x3c;0x3d;0x3e;0x3f;0x40;0x41;0x42;
  0x43;0x44;0x45;0x46;0x47;0x48;0x49;0x4a;0x4b;0x4c;0x4d;0x4e;0x4f;0x50;0x51;0x52;0x53;0x54;0x55;0x56;0x57;0x58;0x59;0x5a;0x5b;0x5c;0x5d;0x5e;0x5f;0x60;
  0x61;0x62;0x63;0x64;0x65;0x66;0x67;0x68;0x69;0x6a;0x6b;0x6c;0x6d;0x6e;0x6f;0x70;0x71;0x72;0x73;0x74;0x75;0x76;0x77;0x78;0x79;0x7a;0x7b;0x7c;0x7d;0x7e;
  0x7f;0x80;0x81;0x82;0x83;0x84;0x85;0x86;0x87;0x88;0x89;0x8a;0x8b;0x8c;0x8d;0x8e;0x8f;0x90;0x91;0x92;0x93;0x94;0x95;0x96;0x97;0x98;0x99;0x9a;0x9b;0x9c;
  0x9d;0x9e;0x9f;0xa0;0xa1;0xa2;0xa3;0xa4;0xa5;0xa6;0xa7;0x153;0xa9;0xaa;0xab;0xac;0xad;0xae;0xaf;0xb0;0xb1;0xb2;0xb3;0x178;0xb5;0xb6;0xb7;0x152;0xb9;
  0xba;0xbb;0xbc;0xbd;0xbe;0xbf;0xc0;0xc1;0xc2;0x102;0xc4;0xc5;0xc6;0xc7;0xc8;0xc9;0xca;0xcb;0x300;0xcd;0xce;0xcf;0x110;0xd1;0x309;0xd3;0xd4;0x1a0;0xd6;
  0xd7;0xd8;0xd9;0xda;0xdb;0xdc;0x1af;0x303;0xdf;0xe0;0xe1;0xe2;0x103;0xe4;0xe5;0xe6;0xe7;0xe8;0xe9;0xea;0xeb;0x301;0xed;0xee;0xef;0x111;0xf1;0x323;
  0xf3;0xf4;0x1a1;0xf6;0xf7;0xf8;0xf9;0xfa;0xfb;0xfc;0x1b0;0x20ab;0xff])].
(* tests/data/(no irreversible pairs) *)
Definition irr_cp1129 : pairs := [].
(* tests/data/CP1161.TXT *)
Definition map_cp1161 : charmap :=
 [([], 0, [0;1;2;3;4;5;6;7;8;9;0xa;0xb;0xc;0xd;0xe;0xf;0x10;0x11;0x12;0x13;0x14;0x15;0x16;0x17;0x18;0x19;0x1a;0x1b;0x1c;0x1d;0x1e;0x1f;0x20;0x21;0x22;0x23;0x24;
  0x25;0x26;0x27;0x28;0x29;0x2a;0x2b;0x2c;0x2d;0x2e;0x2f;0x30;0x31;0x32;0x33;0x34;0x35;0x36;0x37;0x38;0x39;0x3a;0x3b;0x3c;0x3d;0x3e;0x3f;0x40;0x41;0x42;
  0x43;0x44;0x45;0x46;0x47;0x48;0x49;0x4a;0x4b;0x4c;0x4d;0x4e;0x4f;0x50;0x51;0x52;0x53;0x54;0x55;0x56;0x57;0x58;0x59;0x5a;0x5b;0x5c;0x5d;0x5e;0x5f;0x60;
  0x61;0x62;0x63;0x64;0x65;0x66;0x67;0x68;0x69;0x6a;0x6b;0x6c;0x6d;0x6e;0x6f;0x70;0x71;0x72;0x73;0x74;0x75;0x76;0x77;0x78;0x79;0x7a;0x7b;0x7c;0x7d;0x7e;
  0x7f;-1;-1;-1;-1;-1;-1;-1;-1;-1;-1;-1;-1;-1;-1;-1;-1;-1;-1;-1;-1;-1;-1;-1;-1;-1;-1;-1;-1;-1;-1;-1;-1;0xe48;0xe01;0xe02;0xe03;0xe04;0xe05;0xe06;0xe07;
  0xe08;0xe09;0xe0a;0xe0b;0xe0c;0xe0d;0xe0e;0xe0f;0xe10;0xe11;0xe12;0xe13;0xe14;0xe15;0xe16;0xe17;0xe18;0xe19;0xe1a;0xe1b;0xe1c;0xe1d;0xe1e;0xe1f;0xe20;
  0xe21;0xe22;0xe23;0xe24;0xe25;0xe26;0xe27;0xe28;0xe29;0xe2a;0xe2b;0xe2c;0xe2d;0xe2e;0xe2f;0xe30;0xe31;0xe32;0xe33;0xe34;0xe35;0xe36;0xe37;0xe38;0xe39;
  0xe3a;0xe49;0xe4a;0xe4b;0x20ac;0xe3f;0xe40;0xe41;0xe42;0xe43;0xe44;0xe45;0xe46;0xe47;0xe48;0xe49;0xe4a;0xe4b;0xe4c;0xe4d;0xe4e;0xe4f;0xe50;0xe51;
  0xe52;0xe53;0xe54;0xe55;0xe56;0xe57;0xe58;0xe59;0xe5a;0xe5b;0xa2;0xac;0xa6;0xa0])].
(* tests/data/CP1161.IRREVERSIBLE.TXT *)
Definition irr_cp1161 : pairs := [([0xa0], 0xe48);([0xdb], 0xe49);([0xdc], 0xe4a);([0xdd], 0xe4b)].
(* tests/data/CP1162.TXT *)
Definition map_cp1162 : charmap :=
 [([], 0, [0;1;2;3;4;5;6;7;8;9;0xa;0xb;0xc;0xd;0xe;0xf;0x10;0x11;0x12;0x13;0x14;0x15;0x16;0x17;0x18;0x19;0x1a;0x1b;0x1c;0x1d;0x1e;0x1f;0x20;0x21;0x22;0x23;0x24;
  0x25;0x26;0x27;0x28;0x29;0x2a;0x2b;0x2c;0x2d;0x2e;0x2f;0x30;0x31;0x32;0x33;0x34;0x35;0x36;0x37;0x38;0x39;0x3a;0x3b;0x3c;0x3d;0x3e;0x3f;0x40;0x41;0x42;
  0x43;0x44;0x45;0x46;0x47;0x48;0x49;0x4a;0x4b;0x4c;0x4d;0x4e;0x4f;0x50;0x51;0x52;0x53;0x54;0x55;0x56;0x57;0x58;0x59;0x5a;0x5b;0x5c;0x5d;0x5e;0x5f;0x60;
  0x61;0x62;0x63;0x64;0x65;0x66;0x67;0x68;0x69;0x6a;0x6b;0x6c;0x6d;0x6e;0x6f;0x70;0x71;0x72;0x73;0x74;0x75;0x76;0x77;0x78;0x79;0x7a;0x7b;0x7c;0x7d;0x7e;
  0x7f;0x20ac;0x81;0x82;0x83;0x84;0x2026;0x86;0x87;0x88;0x89;0x8a;0x8b;0x8c;0x8d;0x8e;0x8f;0x90;0x2018;0x2019;0x201c;0x201d;0x2022;0x2013;0x2014;0x98;
  0x99;0x9a;0x9b;0x9c;0x9d;0x9e;0x9f;0xa0;0xe01;0xe02;0xe03;0xe04;0xe05;0xe06;0xe07;0xe08;0xe09;0xe0a;0xe0b;0xe0c;0xe0d;0xe0e;0xe0f;0xe10;0xe11;0xe12;
  0xe13;0xe14;0xe15;0xe16;0xe17;0xe18;0xe19;0xe1a;0xe1b;0xe1c;0xe1d;0xe1e;0xe1f;0xe20;0xe21;0xe22;0xe23;0xe24;0xe25;0xe26;0xe27;0xe28;0xe29;0xe2a;0xe2b;
  0xe2c;0xe2d;0xe2e;0xe2f;0xe30;0xe31;0xe32;0xe33;0xe34;0xe35;0xe36;0xe37;0xe38;0xe39;0xe3a;-1;-1;-1;-1;0xe3f;0xe40;0xe41;0xe42;0xe43;0xe44;0xe45;0xe46;
  0xe47;0xe48;0xe49;0xe4a;0xe4b;0xe4c;0xe4d;0xe4e;0xe4f;0xe50;0xe51;0xe52;0xe53;0xe54;0xe55;0xe56;0xe57;0xe58;0xe59;0xe5a;0xe5b])].
(* tests/data/(no irreversible pairs) *)
Definition irr_cp1162 : pairs := [].
(* tests/data/CP1163.TXT *)
Definition map_cp1163 : charmap :=
 [([], 0, [0;1;2;3;4;5;6;7;8;9;0xa;0xb;0xc;0xd;0xe;0xf;0x10;0x11;0x12;0x13;0x14;0x15;0x16;0x17;0x18;0x19;0x1a;0x1b;0x1c;0x1d;0x1e;0x1f;0x20;0x21;0x22;0x23;0x24;
  0x25;0x26;0x27;0x28;0x29;0x2a;0x2b;0x2c;0x2d;0x2e;0x2f;0x30;0x31;0x32;0x33;0x34;0x35;0x36;0x37;0x38;0x39;0x3a;0x3b;0x3c;0x3d;0x3e;0x3f;0x40;0x41;0x42;
  0x43;0x44;0x45;0x46;0x47;0x48;0x49;0x4a;0x4b;0x4c;0x4d;0x4e;0x4f;0x50;0x51;0x52;0x53;0x54;0x55;0x56;0x57;0x58;0x59;0x5a;0x5b;0x5c;0x5d;0x5e;0x5f;0x60;
  0x61;0x62;0x63;0x64;0x65;0x66;0x67;0x68;0x69;0x6a;0x6b;0x6c;0x6d;0x6e;0x6f;0x70;0x71;0x72;0x73;0x74;0x75;0x76;0x77;0x78;0x79;0x7a;0x7b;0x7c;0x7d;0x7e;
  0x7f;0x80;0x81;0x82;0x83;0x84;0x85;0x86;0x87;0x88;0x89;0x8a;0x8b;0x8c;0x8d;0x8e;0x8f;0x90;0x91;0x92;0x93;0x94;0x95;0x96;0x97;0x98;0x99;0x9a;0x9b;0x9c;
  0x9d;0x9e;0x9f;0xa0;0xa1;0xa2;0xa3;0x20ac;0xa5;0xa6;0xa7;0x153;0xa9;0xaa;0xab;0xac;0xad;0xae;0xaf;0xb0;0xb1;0xb2;0xb3;0x178;0xb5;0xb6;0xb7;0x152;0xb9;
  0xba;0xbb;0xbc;0xbd;0xbe;0xbf;0xc0;0xc1;0xc2;0x102;0xc4;0xc5;0xc6;0xc7;0xc8;0xc9;0xca;0xcb;0x300;0xcd;0xce;0xcf;0x110;0xd1;0x309;0xd3;0xd4;0x1a0;0xd6;
  0xd7;0xd8;0xd9;0xda;0xdb;0xdc;0x1af;0x303;0xdf;0xe0;0xe1;0xe2;0x103;0xe4;0xe5;0xe6;0xe7;0xe8;0xe9;0xea;0xeb;0x301;0xed;0xee;0xef;0x111;0xf1;0x323;
  0xf3;0xf4;0x1a1;0xf6;0xf7;0xf8;0xf9;0xfa;0xfb;0xfc;0x1b0;0x20ab;0xff])].
(* tests/data/CP1163.IRREVERSIBLE.TXT *)
Definition irr_cp1163 : pairs := [([0xaf], 0x203e);([0xd0], 0xd0)].
(* tests/data/CP437.TXT *)
Definition map_cp437 : charmap :=
 [([], 0, [0;1;2;3;4;5;6;7;8;9;0xa;0xb;0xc;0xd;0xe;0xf;0x10;0x11;0x12;0x13;0x14;0x15;0x16;0x17;0x18;0x19;0x1a;0x1b;0x1c;0x1d;0x1e;0x1f;0x20;0x21;0x22;0x23;0x24;
  0x25;0x26;0x27;0x28;0x29;0x2a;0x2b;0x2c;0x2d;0x2e;0x2f;0x30;0x31;0x32;0x33;0x34;0x35;0x36;0x37;0x38;0x39;0x3a;0x3b;0x3c;0x3d;0x3e;0x3f;0x40;0x41;0x42;
  0x43;0x44;0x45;0x46;0x47;0x48;0x49;0x4a;0x4b;0x4c;0x4d;0x4e;0x4f;0x50;0x51;0x52;0x53;0x54;0x55;0x56;0x57;0x58;0x59;0x5a;0x5b;0x5c;0x5d;0x5e;0x5f;0x60;
  0x61;0x62;0x63;0x64;0x65;0x66;0x67;0x68;0x69;0x6a;0x6b;0x6c;0x6d;0x6e;0x6f;0x70;0x71;0x72;0x73;0x74;0x75;0x76;0x77;0x78;0x79;0x7a;0x7b;0x7c;0x7d;0x7e;
  0x7f;0xc7;0xfc;0xe9;0xe2;0xe4;0xe0;0xe5;0xe7;0xea;0xeb;0xe8;0xef;0xee;0xec;0xc4;0xc5;0xc9;0xe6;0xc6;0xf4;0xf6;0xf2;0xfb;0xf9;0xff;0xd6;0xdc;0xa2;0xa3;
  0xa5;0x20a7;0x192;0xe1;0xed;0xf3;0xfa;0xf1;0xd1;0xaa;0xba;0xbf;0x2310;0xac;0xbd;0xbc;0xa1;0xab;0xbb;0x2591;0x2592;0x2593;0x2502;0x2524;0x2561;0x2562;
  0x2556;0x2555;0x2563;0x2551;0x2557;0x255d;0x255c;0x255b;0x2510;0x2514;0x2534;0x252c;0x251c;0x2500;0x253c;0x255e;0x255f;0x255a;0x2554;0x2569;0x2566;
  0x2560;0x2550;0x256c;0x2567;0x2568;0x2564;0x2565;0x2559;0x2558;0x2552;0x2553;0x256b;0x256a;0x2518;0x250c;0x2588;0x2584;0x258c;0x2590;0x2580;0x3b1;
  0xdf;0x393;0x3c0;0x3a3;0x3c3;0xb5;0x3c4;0x3a6;0x398;0x3a9;0x3b4;0x221e;0x3c6;0x3b5;0x2229;0x2261;0xb1;0x2265;0x2264;0x2320;0x2321;0xf7;0x2248;0xb0;
  0x2219;0xb7;0x221a;0x207f;0xb2;0x25a0;0xa0])].
(* tests/data/(no irreversible pairs) *)
Definition irr_cp437 : pairs := [].
(* tests/data/CP737.TXT *)
Definition map_cp737 : charmap :=
 [([], 0, [0;1;2;3;4;5;6;7;8;9;0xa;0xb;0xc;0xd;0xe;0xf;0x10;0x11;0x12;0x13;0x14;0x15;0x16;0x17;0x18;0x19;0x1a;0x1b;0x1c;0x1d;0x1e;0x1f;0x20;0x21;0x22;0x23;0x24;
  0x25;0x26;0x27;0x28;0x29;0x2a;0x2b;0x2c;0x2d;0x2e;0x2f;0x30;0x31;0x32;0x33;0x34;0x35;0x36;0x37;0x38;0x39;0x3a;0x3b;0x3c;0x3d;0x3e;0x3f;0x40;0x41;0x42;
  0x43;0x44;0x45;0x46;0x47;0x48;0x49;0x4a;0x4b;0x4c;0x4d;0x4e;0x4f;0x50;0x51;0x52;0x53;0x54;0x55;0x56;0x57;0x58;0x59;0x5a;0x5b;0x5c;0x5d;0x5e;0x5f;0x60;
  0x61;0x62;0x63;0x64;0x65;0x66;0x67;0x68;0x69;0x6a;0x6b;0x6c;0x6d;0x6e;0x6f;0x70;0x71;0x72;0x73;0x74;0x75;0x76;0x77;0x78;0x79;0x7a;0x7b;0x7c;0x7d;0x7e;
  0x7f;0x391;0x392;0x393;0x394;0x395;0x396;0x397;0x398;0x399;0x39a;0x39b;0x39c;0x39d;0x39e;0x39f;0x3a0;0x3a1;0x3a3;0x3a4;0x3a5;0x3a6;0x3a7;0x3a8;0x3a9;
  0x3b1;0x3b2;0x3b3;0x3b4;0x3b5;0x3b6;0x3b7;0x3b8;0x3b9;0x3ba;0x3bb;0x3bc;0x3bd;0x3be;0x3bf;0x3c0;0x3c1;0x3c3;0x3c2;0x3c4;0x3c5;0x3c6;0x3c7;0x3c8;
  0x2591;0x2592;0x2593;0x2502;0x2524;0x2561;0x2562;0x2556;0x2555;0x2563;0x2551;0x2557;0x255d;0x255c;0x255b;0x2510;0x2514;0x2534;0x252c;0x251c;0x2500;
  0x253c;0x255e;0x255f;0x255a;0x2554;0x2569;0x2566;0x2560;0x2550;0x256c;0x2567;0x2568;0x2564;0x2565;0x2559;0x2558;0x2552;0x2553;0x256b;0x256a;0x2518;
  0x250c;0x2588;0x2584;0x258c;0x2590;0x2580;0x3c9;0x3ac;0x3ad;0x3ae;0x3ca;0x3af;0x3cc;0x3cd;0x3cb;0x3ce;0x386;0x388;0x389;0x38a;0x38c;0x38e;0x38f;0xb1;
  0x2265;0x2264;0x3aa;0x3ab;0xf7;0x2248;0xb0;0x2219;0xb7;0x221a;0x207f;0xb2;0x25a0;0xa0])].
(* tests/data/(no irreversible pairs) *)
Definition irr_cp737 : pairs := [].
(* tests/data/CP775.TXT *)
Definition map_cp775 : charmap :=
 [([], 0, [0;1;2;3;4;5;6;7;8;9;0xa;0xb;0xc;0xd;0xe;0xf;0x10;0x11;0x12;0x13;0x14;0x15;0x16;0x17;0x18;0x19;0x1a;0x1b;0x1c;0x1d;0x1e;0x1f;0x20;0x21;0x22;0x23;0x24;
  0x25;0x26;0x27;0x28;0x29;0x2a;0x2b;0x2c;0x2d;0x2e;0x2f;0x30;0x31;0x32;0x33;0x34;0x35;0x36;0x37;0x38;0x39;0x3a;0x3b;0x3c;0x3d;0x3e;0x3f;0x40;0x41;0x42;
  0x43;0x44;0x45;0x46;0x47;0x48;0x49;0x4a;0x4b;0x4c;0x4d;0x4e;0x4f;0x50;0x51;0x52;0x53;0x54;0x55;0x56;0x57;0x58;0x59;0x5a;0x5b;0x5c;0x5d;0x5e;0x5f;0x60;
  0x61;0x62;0x63;0x64;0x65;0x66;0x67;0x68;0x69;0x6a;0x6b;0x6c;0x6d;0x6e;0x6f;0x70;0x71;0x72;0x73;0x74;0x75;0x76;0x77;0x78;0x79;0x7a;0x7b;0x7c;0x7d;0x7e;
  0x7f;0x106;0xfc;0xe9;0x101;0xe4;0x123;0xe5;0x107;0x142;0x113;0x156;0x157;0x12b;0x179;0xc4;0xc5;0xc9;0xe6;0xc6;0x14d;0xf6;0x122;0xa2;0x15a;0x15b;0xd6;
  0xdc;0xf8;0xa3;0xd8;0xd7;0xa4;0x100;0x12a;0xf3;0x17b;0x17c;0x17a;0x201d;0xa6;0xa9;0xae;0xac;0xbd;0xbc;0x141;0xab;0xbb;0x2591;0x2592;0x2593;0x2502;
  0x2524;0x104;0x10c;0x118;0x116;0x2563;0x2551;0x2557;0x255d;0x12e;0x160;0x2510;0x2514;0x2534;0x252c;0x251c;0x2500;0x253c;0x172;0x16a;0x255a;0x2554;
  0x2569;0x2566;0x2560;0x2550;0x256c;0x17d;0x105;0x10d;0x119;0x117;0x12f;0x161;0x173;0x16b;0x17e;0x2518;0x250c;0x2588;0x2584;0x258c;0x2590;0x2580;0xd3;
  0xdf;0x14c;0x143;0xf5;0xd5;0xb5;0x144;0x136;0x137;0x13b;0x13c;0x146;0x112;0x145;0x2019;0xad;0xb1;0x201c;0xbe;0xb6;0xa7;0xf7;0x201e;0xb0;0x2219;0xb7;
  0xb9;0xb3;0xb2;0x25a0;0xa0])].
(* tests/data/(no irreversible pairs) *)
Definition irr_cp775 : pairs := [].
(* tests/data/CP852.TXT *)
Definition map_cp852 : charmap :=
 [([], 0, [0;1;2;3;4;5;6;7;8;9;0xa;0xb;0xc;0xd;0xe;0xf;0x10;0x11;0x12;0x13;0x14;0x15;0x16;0x17;0x18;0x19;0x1a;0x1b;0x1c;0x1d;0x1e;0x1f;0x20;0x21;0x22;0x23;0x24;
  0x25;0x26;0x27;0x28;0x29;0x2a;0x2b;0x2c;0x2d;0x2e;0x2f;0x30;0x31;0x32;0x33;0x34;0x35;0x36;0x37;0x38;0x39;0x3a;0x3b;0x3c;0x3d;0x3e;0x3f;0x40;0x41;0x42;
  0x43;0x44;0x45;0x46;0x47;0x48;0x49;0x4a;0x4b;0x4c;0x4d;0x4e;0x4f;0x50;0x51;0x52;0x53;0x54;0x55;0x56;0x57;0x58;0x59;0x5a;0x5b;0x5c;0x5d;0x5e;0x5f;0x60;
  0x61;0x62;0x63;0x64;0x65;0x66;0x67;0x68;0x69;0x6a;0x6b;0x6c;0x6d;0x6e;0x6f;0x70;0x71;0x72;0x73;0x74;0x75;0x76;0x77;0x78;0x79;0x7a;0x7b;0x7c;0x7d;0x7e;
  0x7f;0xc7;0xfc;0xe9;0xe2;0xe4;0x16f;0x107;0xe7;0x142;0xeb;0x150;0x151;0xee;0x179;0xc4;0x106;0xc9;0x139;0x13a;0xf4;0xf6;0x13d;0x13e;0x15a;0x15b;0xd6;
  0xdc;0x164;0x165;0x141;0xd7;0x10d;0xe1;0xed;0xf3;0xfa;0x104;0x105;0x17d;0x17e;0x118;0x119;0xac;0x17a;0x10c;0x15f;0xab;0xbb;0x2591;0x2592;0x2593;
  0x2502;0x2524;0xc1;0xc2;0x11a;0x15e;0x2563;0x2551;0x2557;0x255d;0x17b;0x17c;0x2510;0x2514;0x2534;0x252c;0x251c;0x2500;0x253c;0x102;0x103;0x255a;
  0x2554;0x2569;0x2566;0x2560;0x2550;0x256c;0xa4;0x111;0x110;0x10e;0xcb;0x10f;0x147;0xcd;0xce;0x11b;0x2518;0x250c;0x2588;0x2584;0x162;0x16e;0x2580;0xd3;
  0xdf;0xd4;0x143;0x144;0x148;0x160;0x161;0x154;0xda;0x155;0x170;0xfd;0xdd;0x163;0xb4;0xad;0x2dd;0x2db;0x2c7;0x2d8;0xa7;0xf7;0xb8;0xb0;0xa8;0x2d9;0x171;
  0x158;0x159;0x25a0;0xa0])].
(* tests/data/(no irreversible pairs) *)
Definition irr_cp852 : pairs := [].
