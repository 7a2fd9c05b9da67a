(** Charmaps, generated by tools/gencharmap.py from tests/data/*.TXT and tests/data/*.IRREVERSIBLE.TXT of /repo. *)
From Coq Require Import ZArith List.
From Verif Require Import Charmap.
Import ListNotations.
Open Scope Z_scope.
(* tests/data/IBM-1112.TXT *)
Definition map_ebcdic1112 : charmap :=
 [([], 0, [0;1;2;3;0x9c;9;0x86;0x7f;0x97;0x8d;0x8e;0xb;0xc;0xd;0xe;0xf;0x10;0x11;0x12;0x13;0x9d;0x85;8;0x87;0x18;0x19;0x92;0x8f;0x1c;0x1d;0x1e;0x1f;0x80;0x81;
  0x82;0x83;0x84;0xa;0x17;0x1b;0x88;0x89;0x8a;0x8b;0x8c;5;6;7;0x90;0x91;0x16;0x93;0x94;0x95;0x96;4;0x98;0x99;0x9a;0x9b;0x14;0x15;0x9e;0x1a;0x20;0xa0;
  0x161;0xe4;0x105;0x12f;0x16b;0xe5;0x113;0x17e;0xa2;0x2e;0x3c;0x28;0x2b;0x7c;0x26;0xe9;0x119;0x117;0x10d;0x173;0x201e;0x201c;0x123;0xdf;0x21;0x24;0x2a;
  0x29;0x3b;0xac;0x2d;0x2f;0x160;0xc4;0x104;0x12e;0x16a;0xc5;0x112;0x17d;0xa6;0x2c;0x25;0x5f;0x3e;0x3f;0xf8;0xc9;0x118;0x116;0x10c;0x172;0x12a;0x13b;
  0x122;0x60;0x3a;0x23;0x40;0x27;0x3d;0x22;0xd8;0x61;0x62;0x63;0x64;0x65;0x66;0x67;0x68;0x69;0xab;0xbb;0x101;0x17c;0x144;0xb1;0xb0;0x6a;0x6b;0x6c;0x6d;
  0x6e;0x6f;0x70;0x71;0x72;0x156;0x157;0xe6;0x137;0xc6;0xa4;0xb5;0x7e;0x73;0x74;0x75;0x76;0x77;0x78;0x79;0x7a;0x201d;0x17a;0x100;0x17b;0x143;0xae;0x5e;
  0xa3;0x12b;0xb7;0xa9;0xa7;0xb6;0xbc;0xbd;0xbe;0x5b;0x5d;0x179;0x136;0x13c;0xd7;0x7b;0x41;0x42;0x43;0x44;0x45;0x46;0x47;0x48;0x49;0xad;0x14d;0xf6;
  0x146;0xf3;0xf5;0x7d;0x4a;0x4b;0x4c;0x4d;0x4e;0x4f;0x50;0x51;0x52;0xb9;0x107;0xfc;0x142;0x15b;0x2019;0x5c;0xf7;0x53;0x54;0x55;0x56;0x57;0x58;0x59;
  0x5a;0xb2;0x14c;0xd6;0x145;0xd3;0xd5;0x30;0x31;0x32;0x33;0x34;0x35;0x36;0x37;0x38;0x39;0xb3;0x106;0xdc;0x141;0x15a;0x9f])].
(* tests/data/(no irreversible pairs) *)
Definition irr_ebcdic1112 : pairs := [].
(* tests/data/IBM-1122.TXT *)
Definition map_ebcdic1122 : charmap :=
 [([], 0, [0;1;2;3;0x9c;9;0x86;0x7f;0x97;0x8d;0x8e;0xb;0xc;0xd;0xe;0xf;0x10;0x11;0x12;0x13;0x9d;0x85;8;0x87;0x18;0x19;0x92;0x8f;0x1c;0x1d;0x1e;0x1f;0x80;0x81;
  0x82;0x83;0x84;0xa;0x17;0x1b;0x88;0x89;0x8a;0x8b;0x8c;5;6;7;0x90;0x91;0x16;0x93;0x94;0x95;0x96;4;0x98;0x99;0x9a;0x9b;0x14;0x15;0x9e;0x1a;0x20;0xa0;
  0xe2;0x7b;0xe0;0xe1;0xe3;0x7d;0xe7;0xf1;0xa7;0x2e;0x3c;0x28;0x2b;0x21;0x26;0x60;0xea;0xeb;0xe8;0xed;0xee;0xef;0xec;0xdf;0xa4;0xc5;0x2a;0x29;0x3b;0x5e;
  0x2d;0x2f;0xc2;0x23;0xc0;0xc1;0xc3;0x24;0xc7;0xd1;0xf6;0x2c;0x25;0x5f;0x3e;0x3f;0xf8;0x5c;0xca;0xcb;0xc8;0xcd;0xce;0xcf;0xcc;0xe9;0x3a;0xc4;0xd6;0x27;
  0x3d;0x22;0xd8;0x61;0x62;0x63;0x64;0x65;0x66;0x67;0x68;0x69;0xab;0xbb;0x161;0xfd;0x17e;0xb1;0xb0;0x6a;0x6b;0x6c;0x6d;0x6e;0x6f;0x70;0x71;0x72;0xaa;
  0xba;0xe6;0xb8;0xc6;0x5d;0xb5;0xfc;0x73;0x74;0x75;0x76;0x77;0x78;0x79;0x7a;0xa1;0xbf;0x160;0xdd;0x17d;0xae;0xa2;0xa3;0xa5;0xb7;0xa9;0x5b;0xb6;0xbc;
  0xbd;0xbe;0xac;0x7c;0xaf;0xa8;0xb4;0xd7;0xe4;0x41;0x42;0x43;0x44;0x45;0x46;0x47;0x48;0x49;0xad;0xf4;0xa6;0xf2;0xf3;0xf5;0xe5;0x4a;0x4b;0x4c;0x4d;0x4e;
  0x4f;0x50;0x51;0x52;0xb9;0xfb;0x7e;0xf9;0xfa;0xff;0xc9;0xf7;0x53;0x54;0x55;0x56;0x57;0x58;0x59;0x5a;0xb2;0xd4;0x40;0xd2;0xd3;0xd5;0x30;0x31;0x32;0x33;
  0x34;0x35;0x36;0x37;0x38;0x39;0xb3;0xdb;0xdc;0xd9;0xda;0x9f])].
(* tests/data/(no irreversible pairs) *)
Definition irr_ebcdic1122 : pairs := [].
(* tests/data/IBM-1123.TXT *)
Definition map_ebcdic1123 : charmap :=
 [([], 0, [0;1;2;3;0x9c;9;0x86;0x7f;0x97;0x8d;0x8e;0xb;0xc;0xd;0xe;0xf;0x10;0x11;0x12;0x13;0x9d;0x85;8;0x87;0x18;0x19;0x92;0x8f;0x1c;0x1d;0x1e;0x1f;0x80;0x81;
  0x82;0x83;0x84;0xa;0x17;0x1b;0x88;0x89;0x8a;0x8b;0x8c;5;6;7;0x90;0x91;0x16;0x93;0x94;0x95;0x96;4;0x98;0x99;0x9a;0x9b;0x14;0x15;0x9e;0x1a;0x20;0xa0;
  0x452;0x491;0x451;0x454;0x455;0x456;0x457;0x458;0x5b;0x2e;0x3c;0x28;0x2b;0x21;0x26;0x459;0x45a;0x45b;0x45c;0x45e;0x45f;0x42a;0x2116;0x402;0x5d;0x24;
  0x2a;0x29;0x3b;0x5e;0x2d;0x2f;0x490;0x401;0x404;0x405;0x406;0x407;0x408;0x409;0x7c;0x2c;0x25;0x5f;0x3e;0x3f;0x40a;0x40b;0x40c;0xad;0x40e;0x40f;0x44e;
  0x430;0x431;0x60;0x3a;0x23;0x40;0x27;0x3d;0x22;0x446;0x61;0x62;0x63;0x64;0x65;0x66;0x67;0x68;0x69;0x434;0x435;0x444;0x433;0x445;0x438;0x439;0x6a;0x6b;
  0x6c;0x6d;0x6e;0x6f;0x70;0x71;0x72;0x43a;0x43b;0x43c;0x43d;0x43e;0x43f;0x44f;0x7e;0x73;0x74;0x75;0x76;0x77;0x78;0x79;0x7a;0x440;0x441;0x442;0x443;
  0x436;0x432;0x44c;0x44b;0x437;0x448;0x44d;0x449;0x447;0x44a;0x42e;0x410;0x411;0x426;0x414;0x415;0x424;0x413;0x7b;0x41;0x42;0x43;0x44;0x45;0x46;0x47;
  0x48;0x49;0x425;0x418;0x419;0x41a;0x41b;0x41c;0x7d;0x4a;0x4b;0x4c;0x4d;0x4e;0x4f;0x50;0x51;0x52;0x41d;0x41e;0x41f;0x42f;0x420;0x421;0x5c;0xa7;0x53;
  0x54;0x55;0x56;0x57;0x58;0x59;0x5a;0x422;0x423;0x416;0x412;0x42c;0x42b;0x30;0x31;0x32;0x33;0x34;0x35;0x36;0x37;0x38;0x39;0x417;0x428;0x42d;0x429;
  0x427;0x9f])].
(* tests/data/(no irreversible pairs) *)
Definition irr_ebcdic1123 : pairs := [].
(* tests/data/IBM-1130.TXT *)
Definition map_ebcdic1130 : charmap :=
 [([], 0, [0;1;2;3;0x9c;9;0x86;0x7f;0x97;0x8d;0x8e;0xb;0xc;0xd;0xe;0xf;0x10;0x11;0x12;0x13;0x9d;0x85;8;0x87;0x18;0x19;0x92;0x8f;0x1c;0x1d;0x1e;0x1f;0x80;0x81;
  0x82;0x83;0x84;0xa;0x17;0x1b;0x88;0x89;0x8a;0x8b;0x8c;5;6;7;0x90;0x91;0x16;0x93;0x94;0x95;0x96;4;0x98;0x99;0x9a;0x9b;0x14;0x15;0x9e;0x1a;0x20;0xa0;
  0xe2;0xe4;0xe0;0xe1;0x103;0xe5;0xe7;0xf1;0x5b;0x2e;0x3c;0x28;0x2b;0x21;0x26;0xe9;0xea;0xeb;0xe8;0xed;0xee;0xef;0x303;0xdf;0x5d;0x24;0x2a;0x29;0x3b;
  0x5e;0x2d;0x2f;0xc2;0xc4;0xc0;0xc1;0x102;0xc5;0xc7;0xd1;0xa6;0x2c;0x25;0x5f;0x3e;0x3f;0xf8;0xc9;0xca;0xcb;0xc8;0xcd;0xce;0xcf;0x20ab;0x60;0x3a;0x23;
  0x40;0x27;0x3d;0x22;0xd8;0x61;0x62;0x63;0x64;0x65;0x66;0x67;0x68;0x69;0xab;0xbb;0x111;0x309;0x300;0xb1;0xb0;0x6a;0x6b;0x6c;0x6d;0x6e;0x6f;0x70;0x71;
  0x72;0xaa;0xba;0xe6;0x152;0xc6;0xa4;0xb5;0x7e;0x73;0x74;0x75;0x76;0x77;0x78;0x79;0x7a;0xa1;0xbf;0x110;0x323;0x301;0xae;0xa2;0xa3;0xa5;0xb7;0xa9;0xa7;
  0xb6;0xbc;0xbd;0xbe;0xac;0x7c;0xaf;0x153;0x178;0xd7;0x7b;0x41;0x42;0x43;0x44;0x45;0x46;0x47;0x48;0x49;0xad;0xf4;0xf6;0x1b0;0xf3;0x1a1;0x7d;0x4a;0x4b;
  0x4c;0x4d;0x4e;0x4f;0x50;0x51;0x52;0xb9;0xfb;0xfc;0xf9;0xfa;0xff;0x5c;0xf7;0x53;0x54;0x55;0x56;0x57;0x58;0x59;0x5a;0xb2;0xd4;0xd6;0x1af;0xd3;0x1a0;
  0x30;0x31;0x32;0x33;0x34;0x35;0x36;0x37;0x38;0x39;0xb3;0xdb;0xdc;0xd9;0xda;0x9f])].
(* tests/data/(no irreversible pairs) *)
Definition irr_ebcdic1130 : pairs := [].
(* tests/data/IBM-1132.TXT *)
Definition map_ebcdic1132 : charmap :=
 [([], 0, [0;1;2;3;0x9c;9;0x86;0x7f;0x97;0x8d;0x8e;0xb;0xc;0xd;0xe;0xf;0x10;0x11;0x12;0x13;0x9d;0x85;8;0x87;0x18;0x19;0x92;0x8f;0x1c;0x1d;0x1e;0x1f;0x80;0x81;
  0x82;0x83;0x84;0xa;0x17;0x1b;0x88;0x89;0x8a;0x8b;0x8c;5;6;7;0x90;0x91;0x16;0x93;0x94;0x95;0x96;4;0x98;0x99;0x9a;0x9b;0x14;0x15;0x9e;0x1a;0x20;0xa0;
  0xe81;0xe82;0xe84;0xe87;0xe88;0xeaa;0xe8a;0x5b;0xa2;0x2e;0x3c;0x28;0x2b;0x7c;0x26;-1;0xe8d;0xe94;0xe95;0xe96;0xe97;0xe99;0xe9a;0x5d;0x21;0x24;0x2a;
  0x29;0x3b;0xac;0x2d;0x2f;0xe9b;0xe9c;0xe9d;0xe9e;0xe9f;0xea1;0xea2;0x5e;0xa6;0x2c;0x25;0x5f;0x3e;0x3f;0x20ad;-1;0xea3;0xea5;0xea7;0xeab;0xead;0xeae;
  -1;0x60;0x3a;0x23;0x40;0x27;0x3d;0x22;-1;0x61;0x62;0x63;0x64;0x65;0x66;0x67;0x68;0x69;-1;-1;0xeaf;0xeb0;0xeb2;0xeb3;-1;0x6a;0x6b;0x6c;0x6d;0x6e;0x6f;
  0x70;0x71;0x72;0xeb4;0xeb5;0xeb6;0xeb7;0xeb8;0xeb9;-1;0x7e;0x73;0x74;0x75;0x76;0x77;0x78;0x79;0x7a;0xebc;0xeb1;0xebb;0xebd;-1;-1;0xed0;0xed1;0xed2;
  0xed3;0xed4;0xed5;0xed6;0xed7;0xed8;0xed9;-1;0xec0;0xec1;0xec2;0xec3;0xec4;0x7b;0x41;0x42;0x43;0x44;0x45;0x46;0x47;0x48;0x49;-1;0xec8;0xec9;0xeca;
  0xecb;0xecc;0x7d;0x4a;0x4b;0x4c;0x4d;0x4e;0x4f;0x50;0x51;0x52;0xecd;0xec6;-1;0xedc;0xedd;-1;0x5c;-1;0x53;0x54;0x55;0x56;0x57;0x58;0x59;0x5a;-1;-1;-1;
  -1;-1;-1;0x30;0x31;0x32;0x33;0x34;0x35;0x36;0x37;0x38;0x39;-1;-1;-1;-1;-1;0x9f])].
(* tests/data/(no irreversible pairs) *)
Definition irr_ebcdic1132 : pairs := [].
(* tests/data/IBM-1137.TXT *)
Definition map_ebcdic1137 : charmap :=
 [([], 0, [0;1;2;3;0x9c;9;0x86;0x7f;0x97;0x8d;0x8e;0xb;0xc;0xd;0xe;0xf;0x10;0x11;0x12;0x13;0x9d;0x85;8;0x87;0x18;0x19;0x92;0x8f;0x1c;0x1d;0x1e;0x1f;0x80;0x81;
  0x82;0x83;0x84;0xa;0x17;0x1b;0x88;0x89;0x8a;0x8b;0x8c;5;6;7;0x90;0x91;0x16;0x93;0x94;0x95;0x96;4;0x98;0x99;0x9a;0x9b;0x14;0x15;0x9e;0x1a;0x20;0xa0;
  0x901;0x902;0x903;0x905;0x906;0x907;0x908;0x909;0x90a;0x2e;0x3c;0x28;0x2b;0x7c;0x26;0x90b;0x90c;0x90d;0x90e;0x90f;0x910;0x911;0x912;0x913;0x21;0x24;
  0x2a;0x29;0x3b;0x5e;0x2d;0x2f;0x914;0x915;0x916;0x917;0x918;0x919;0x91a;0x91b;0x91c;0x2c;0x25;0x5f;0x3e;0x3f;0x91d;0x91e;0x91f;0x920;0x921;0x922;
  0x923;0x924;0x925;0x60;0x3a;0x23;0x40;0x27;0x3d;0x22;0x926;0x61;0x62;0x63;0x64;0x65;0x66;0x67;0x68;0x69;0x927;0x928;0x92a;0x92b;0x92c;0x92d;0x92e;
  0x6a;0x6b;0x6c;0x6d;0x6e;0x6f;0x70;0x71;0x72;0x92f;0x930;0x932;0x933;0x935;0x936;0x200c;0x7e;0x73;0x74;0x75;0x76;0x77;0x78;0x79;0x7a;0x937;0x938;
  0x939;0x5b;0x93c;0x93d;0x93e;0x93f;0x940;0x941;0x942;0x943;0x944;0x945;0x946;0x947;0x948;0x949;0x94a;0x5d;0x94b;0x94c;0x7b;0x41;0x42;0x43;0x44;0x45;
  0x46;0x47;0x48;0x49;0x94d;0x950;0x951;0x952;-1;-1;0x7d;0x4a;0x4b;0x4c;0x4d;0x4e;0x4f;0x50;0x51;0x52;0x960;0x961;0x962;0x963;0x964;0x965;0x5c;0x200d;
  0x53;0x54;0x55;0x56;0x57;0x58;0x59;0x5a;0x966;0x967;0x968;0x969;0x96a;0x96b;0x30;0x31;0x32;0x33;0x34;0x35;0x36;0x37;0x38;0x39;0x96c;0x96d;0x96e;0x96f;
  0x970;0x9f])].
(* tests/data/(no irreversible pairs) *)
Definition irr_ebcdic1137 : pairs := [].
(* tests/data/IBM-1140.TXT *)
Definition map_ebcdic1140 : charmap :=
 [([], 0, [0;1;2;3;0x9c;9;0x86;0x7f;0x97;0x8d;0x8e;0xb;0xc;0xd;0xe;0xf;0x10;0x11;0x12;0x13;0x9d;0x85;8;0x87;0x18;0x19;0x92;0x8f;0x1c;0x1d;0x1e;0x1f;0x80;0x81;
  0x82;0x83;0x84;0xa;0x17;0x1b;0x88;0x89;0x8a;0x8b;0x8c;5;6;7;0x90;0x91;0x16;0x93;0x94;0x95;0x96;4;0x98;0x99;0x9a;0x9b;0x14;0x15;0x9e;0x1a;0x20;0xa0;
  0xe2;0xe4;0xe0;0xe1;0xe3;0xe5;0xe7;0xf1;0xa2;0x2e;0x3c;0x28;0x2b;0x7c;0x26;0xe9;0xea;0xeb;0xe8;0xed;0xee;0xef;0xec;0xdf;0x21;0x24;0x2a;0x29;0x3b;0xac;
  0x2d;0x2f;0xc2;0xc4;0xc0;0xc1;0xc3;0xc5;0xc7;0xd1;0xa6;0x2c;0x25;0x5f;0x3e;0x3f;0xf8;0xc9;0xca;0xcb;0xc8;0xcd;0xce;0xcf;0xcc;0x60;0x3a;0x23;0x40;0x27;
  0x3d;0x22;0xd8;0x61;0x62;0x63;0x64;0x65;0x66;0x67;0x68;0x69;0xab;0xbb;0xf0;0xfd;0xfe;0xb1;0xb0;0x6a;0x6b;0x6c;0x6d;0x6e;0x6f;0x70;0x71;0x72;0xaa;0xba;
  0xe6;0xb8;0xc6;0x20ac;0xb5;0x7e;0x73;0x74;0x75;0x76;0x77;0x78;0x79;0x7a;0xa1;0xbf;0xd0;0xdd;0xde;0xae;0x5e;0xa3;0xa5;0xb7;0xa9;0xa7;0xb6;0xbc;0xbd;
  0xbe;0x5b;0x5d;0xaf;0xa8;0xb4;0xd7;0x7b;0x41;0x42;0x43;0x44;0x45;0x46;0x47;0x48;0x49;0xad;0xf4;0xf6;0xf2;0xf3;0xf5;0x7d;0x4a;0x4b;0x4c;0x4d;0x4e;0x4f;
  0x50;0x51;0x52;0xb9;0xfb;0xfc;0xf9;0xfa;0xff;0x5c;0xf7;0x53;0x54;0x55;0x56;0x57;0x58;0x59;0x5a;0xb2;0xd4;0xd6;0xd2;0xd3;0xd5;0x30;0x31;0x32;0x33;0x34;
  0x35;0x36;0x37;0x38;0x39;0xb3;0xdb;0xdc;0xd9;0xda;0x9f])].
(* tests/data/(no irreversible pairs) *)
Definition irr_ebcdic1140 : pairs := [].
(* tests/data/IBM-1141.TXT *)
Definition map_ebcdic1141 : charmap :=
 [([], 0, [0;1;2;3;0x9c;9;0x86;0x7f;0x97;0x8d;0x8e;0xb;0xc;0xd;0xe;0xf;0x10;0x11;0x12;0x13;0x9d;0x85;8;0x87;0x18;0x19;0x92;0x8f;0x1c;0x1d;0x1e;0x1f;0x80;0x81;
  0x82;0x83;0x84;0xa;0x17;0x1b;0x88;0x89;0x8a;0x8b;0x8c;5;6;7;0x90;0x91;0x16;0x93;0x94;0x95;0x96;4;0x98;0x99;0x9a;0x9b;0x14;0x15;0x9e;0x1a;0x20;0xa0;
  0xe2;0x7b;0xe0;0xe1;0xe3;0xe5;0xe7;0xf1;0xc4;0x2e;0x3c;0x28;0x2b;0x21;0x26;0xe9;0xea;0xeb;0xe8;0xed;0xee;0xef;0xec;0x7e;0xdc;0x24;0x2a;0x29;0x3b;0x5e;
  0x2d;0x2f;0xc2;0x5b;0xc0;0xc1;0xc3;0xc5;0xc7;0xd1;0xf6;0x2c;0x25;0x5f;0x3e;0x3f;0xf8;0xc9;0xca;0xcb;0xc8;0xcd;0xce;0xcf;0xcc;0x60;0x3a;0x23;0xa7;0x27;
  0x3d;0x22;0xd8;0x61;0x62;0x63;0x64;0x65;0x66;0x67;0x68;0x69;0xab;0xbb;0xf0;0xfd;0xfe;0xb1;0xb0;0x6a;0x6b;0x6c;0x6d;0x6e;0x6f;0x70;0x71;0x72;0xaa;0xba;
  0xe6;0xb8;0xc6;0x20ac;0xb5;0xdf;0x73;0x74;0x75;0x76;0x77;0x78;0x79;0x7a;0xa1;0xbf;0xd0;0xdd;0xde;0xae;0xa2;0xa3;0xa5;0xb7;0xa9;0x40;0xb6;0xbc;0xbd;
  0xbe;0xac;0x7c;0xaf;0xa8;0xb4;0xd7;0xe4;0x41;0x42;0x43;0x44;0x45;0x46;0x47;0x48;0x49;0xad;0xf4;0xa6;0xf2;0xf3;0xf5;0xfc;0x4a;0x4b;0x4c;0x4d;0x4e;0x4f;
  0x50;0x51;0x52;0xb9;0xfb;0x7d;0xf9;0xfa;0xff;0xd6;0xf7;0x53;0x54;0x55;0x56;0x57;0x58;0x59;0x5a;0xb2;0xd4;0x5c;0xd2;0xd3;0xd5;0x30;0x31;0x32;0x33;0x34;
  0x35;0x36;0x37;0x38;0x39;0xb3;0xdb;0x5d;0xd9;0xda;0x9f])].
(* tests/data/(no irreversible pairs) *)
Definition irr_ebcdic1141 : pairs := [].
(* tests/data/IBM-1142.TXT *)
Definition map_ebcdic1142 : charmap :=
 [([], 0, [0;1;2;3;0x9c;9;0x86;0x7f;0x97;0x8d;0x8e;0xb;0xc;0xd;0xe;0xf;0x10;0x11;0x12;0x13;0x9d;0x85;8;0x87;0x18;0x19;0x92;0x8f;0x1c;0x1d;0x1e;0x1f;0x80;0x81;
  0x82;0x83;0x84;0xa;0x17;0x1b;0x88;0x89;0x8a;0x8b;0x8c;5;6;7;0x90;0x91;0x16;0x93;0x94;0x95;0x96;4;0x98;0x99;0x9a;0x9b;0x14;0x15;0x9e;0x1a;0x20;0xa0;
  0xe2;0xe4;0xe0;0xe1;0xe3;0x7d;0xe7;0xf1;0x23;0x2e;0x3c;0x28;0x2b;0x21;0x26;0xe9;0xea;0xeb;0xe8;0xed;0xee;0xef;0xec;0xdf;0x20ac;0xc5;0x2a;0x29;0x3b;
  0x5e;0x2d;0x2f;0xc2;0xc4;0xc0;0xc1;0xc3;0x24;0xc7;0xd1;0xf8;0x2c;0x25;0x5f;0x3e;0x3f;0xa6;0xc9;0xca;0xcb;0xc8;0xcd;0xce;0xcf;0xcc;0x60;0x3a;0xc6;0xd8;
  0x27;0x3d;0x22;0x40;0x61;0x62;0x63;0x64;0x65;0x66;0x67;0x68;0x69;0xab;0xbb;0xf0;0xfd;0xfe;0xb1;0xb0;0x6a;0x6b;0x6c;0x6d;0x6e;0x6f;0x70;0x71;0x72;0xaa;
  0xba;0x7b;0xb8;0x5b;0x5d;0xb5;0xfc;0x73;0x74;0x75;0x76;0x77;0x78;0x79;0x7a;0xa1;0xbf;0xd0;0xdd;0xde;0xae;0xa2;0xa3;0xa5;0xb7;0xa9;0xa7;0xb6;0xbc;0xbd;
  0xbe;0xac;0x7c;0xaf;0xa8;0xb4;0xd7;0xe6;0x41;0x42;0x43;0x44;0x45;0x46;0x47;0x48;0x49;0xad;0xf4;0xf6;0xf2;0xf3;0xf5;0xe5;0x4a;0x4b;0x4c;0x4d;0x4e;0x4f;
  0x50;0x51;0x52;0xb9;0xfb;0x7e;0xf9;0xfa;0xff;0x5c;0xf7;0x53;0x54;0x55;0x56;0x57;0x58;0x59;0x5a;0xb2;0xd4;0xd6;0xd2;0xd3;0xd5;0x30;0x31;0x32;0x33;0x34;
  0x35;0x36;0x37;0x38;0x39;0xb3;0xdb;0xdc;0xd9;0xda;0x9f])].
(* tests/data/(no irreversible pairs) *)
Definition irr_ebcdic1142 : pairs := [].
(* tests/data/IBM-1143.TXT *)
Definition map_ebcdic1143 : charmap :=
 [([], 0, [0;1;2;3;0x9c;9;0x86;0x7f;0x97;0x8d;0x8e;0xb;0xc;0xd;0xe;0xf;0x10;0x11;0x12;0x13;0x9d;0x85;8;0x87;0x18;0x19;0x92;0x8f;0x1c;0x1d;0x1e;0x1f;0x80;0x81;
  0x82;0x83;0x84;0xa;0x17;0x1b;0x88;0x89;0x8a;0x8b;0x8c;5;6;7;0x90;0x91;0x16;0x93;0x94;0x95;0x96;4;0x98;0x99;0x9a;0x9b;0x14;0x15;0x9e;0x1a;0x20;0xa0;
  0xe2;0x7b;0xe0;0xe1;0xe3;0x7d;0xe7;0xf1;0xa7;0x2e;0x3c;0x28;0x2b;0x21;0x26;0x60;0xea;0xeb;0xe8;0xed;0xee;0xef;0xec;0xdf;0x20ac;0xc5;0x2a;0x29;0x3b;
  0x5e;0x2d;0x2f;0xc2;0x23;0xc0;0xc1;0xc3;0x24;0xc7;0xd1;0xf6;0x2c;0x25;0x5f;0x3e;0x3f;0xf8;0x5c;0xca;0xcb;0xc8;0xcd;0xce;0xcf;0xcc;0xe9;0x3a;0xc4;0xd6;
  0x27;0x3d;0x22;0xd8;0x61;0x62;0x63;0x64;0x65;0x66;0x67;0x68;0x69;0xab;0xbb;0xf0;0xfd;0xfe;0xb1;0xb0;0x6a;0x6b;0x6c;0x6d;0x6e;0x6f;0x70;0x71;0x72;0xaa;
  0xba;0xe6;0xb8;0xc6;0x5d;0xb5;0xfc;0x73;0x74;0x75;0x76;0x77;0x78;0x79;0x7a;0xa1;0xbf;0xd0;0xdd;0xde;0xae;0xa2;0xa3;0xa5;0xb7;0xa9;0x5b;0xb6;0xbc;0xbd;
  0xbe;0xac;0x7c;0xaf;0xa8;0xb4;0xd7;0xe4;0x41;0x42;0x43;0x44;0x45;0x46;0x47;0x48;0x49;0xad;0xf4;0xa6;0xf2;0xf3;0xf5;0xe5;0x4a;0x4b;0x4c;0x4d;0x4e;0x4f;
  0x50;0x51;0x52;0xb9;0xfb;0x7e;0xf9;0xfa;0xff;0xc9;0xf7;0x53;0x54;0x55;0x56;0x57;0x58;0x59;0x5a;0xb2;0xd4;0x40;0xd2;0xd3;0xd5;0x30;0x31;0x32;0x33;0x34;
  0x35;0x36;0x37;0x38;0x39;0xb3;0xdb;0xdc;0xd9;0xda;0x9f])].
(* tests/data/(no irreversible pairs) *)
Definition irr_ebcdic1143 : pairs := [].
(* tests/data/IBM-1144.TXT *)
Definition map_ebcdic1144 : charmap :=
 [([], 0, [0;1;2;3;0x9c;9;0x86;0x7f;0x97;0x8d;0x8e;0xb;0xc;0xd;0xe;0xf;0x10;0x11;0x12;0x13;0x9d;0x85;8;0x87;0x18;0x19;0x92;0x8f;0x1c;0x1d;0x1e;0x1f;0x80;0x81;
  0x82;0x83;0x84;0xa;0x17;0x1b;0x88;0x89;0x8a;0x8b;0x8c;5;6;7;0x90;0x91;0x16;0x93;0x94;0x95;0x96;4;0x98;0x99;0x9a;0x9b;0x14;0x15;0x9e;0x1a;0x20;0xa0;
  0xe2;0xe4;0x7b;0xe1;0xe3;0xe5;0x5c;0xf1;0xb0;0x2e;0x3c;0x28;0x2b;0x21;0x26;0x5d;0xea;0xeb;0x7d;0xed;0xee;0xef;0x7e;0xdf;0xe9;0x24;0x2a;0x29;0x3b;0x5e;
  0x2d;0x2f;0xc2;0xc4;0xc0;0xc1;0xc3;0xc5;0xc7;0xd1;0xf2;0x2c;0x25;0x5f;0x3e;0x3f;0xf8;0xc9;0xca;0xcb;0xc8;0xcd;0xce;0xcf;0xcc;0xf9;0x3a;0xa3;0xa7;0x27;
  0x3d;0x22;0xd8;0x61;0x62;0x63;0x64;0x65;0x66;0x67;0x68;0x69;0xab;0xbb;0xf0;0xfd;0xfe;0xb1;0x5b;0x6a;0x6b;0x6c;0x6d;0x6e;0x6f;0x70;0x71;0x72;0xaa;0xba;
  0xe6;0xb8;0xc6;0x20ac;0xb5;0xec;0x73;0x74;0x75;0x76;0x77;0x78;0x79;0x7a;0xa1;0xbf;0xd0;0xdd;0xde;0xae;0xa2;0x23;0xa5;0xb7;0xa9;0x40;0xb6;0xbc;0xbd;
  0xbe;0xac;0x7c;0xaf;0xa8;0xb4;0xd7;0xe0;0x41;0x42;0x43;0x44;0x45;0x46;0x47;0x48;0x49;0xad;0xf4;0xf6;0xa6;0xf3;0xf5;0xe8;0x4a;0x4b;0x4c;0x4d;0x4e;0x4f;
  0x50;0x51;0x52;0xb9;0xfb;0xfc;0x60;0xfa;0xff;0xe7;0xf7;0x53;0x54;0x55;0x56;0x57;0x58;0x59;0x5a;0xb2;0xd4;0xd6;0xd2;0xd3;0xd5;0x30;0x31;0x32;0x33;0x34;
  0x35;0x36;0x37;0x38;0x39;0xb3;0xdb;0xdc;0xd9;0xda;0x9f])].
(* tests/data/(no irreversible pairs) *)
Definition irr_ebcdic1144 : pairs := [].
(* tests/data/IBM-1145.TXT *)
Definition map_ebcdic1145 : charmap :=
 [([], 0, [0;1;2;3;0x9c;9;0x86;0x7f;0x97;0x8d;0x8e;0xb;0xc;0xd;0xe;0xf;0x10;0x11;0x12;0x13;0x9d;0x85;8;0x87;0x18;0x19;0x92;0x8f;0x1c;0x1d;0x1e;0x1f;0x80;0x81;
  0x82;0x83;0x84;0xa;0x17;0x1b;0x88;0x89;0x8a;0x8b;0x8c;5;6;7;0x90;0x91;0x16;0x93;0x94;0x95;0x96;4;0x98;0x99;0x9a;0x9b;0x14;0x15;0x9e;0x1a;0x20;0xa0;
  0xe2;0xe4;0xe0;0xe1;0xe3;0xe5;0xe7;0xa6;0x5b;0x2e;0x3c;0x28;0x2b;0x7c;0x26;0xe9;0xea;0xeb;0xe8;0xed;0xee;0xef;0xec;0xdf;0x5d;0x24;0x2a;0x29;0x3b;0xac;
  0x2d;0x2f;0xc2;0xc4;0xc0;0xc1;0xc3;0xc5;0xc7;0x23;0xf1;0x2c;0x25;0x5f;0x3e;0x3f;0xf8;0xc9;0xca;0xcb;0xc8;0xcd;0xce;0xcf;0xcc;0x60;0x3a;0xd1;0x40;0x27;
  0x3d;0x22;0xd8;0x61;0x62;0x63;0x64;0x65;0x66;0x67;0x68;0x69;0xab;0xbb;0xf0;0xfd;0xfe;0xb1;0xb0;0x6a;0x6b;0x6c;0x6d;0x6e;0x6f;0x70;0x71;0x72;0xaa;0xba;
  0xe6;0xb8;0xc6;0x20ac;0xb5;0xa8;0x73;0x74;0x75;0x76;0x77;0x78;0x79;0x7a;0xa1;0xbf;0xd0;0xdd;0xde;0xae;0xa2;0xa3;0xa5;0xb7;0xa9;0xa7;0xb6;0xbc;0xbd;
  0xbe;0x5e;0x21;0xaf;0x7e;0xb4;0xd7;0x7b;0x41;0x42;0x43;0x44;0x45;0x46;0x47;0x48;0x49;0xad;0xf4;0xf6;0xf2;0xf3;0xf5;0x7d;0x4a;0x4b;0x4c;0x4d;0x4e;0x4f;
  0x50;0x51;0x52;0xb9;0xfb;0xfc;0xf9;0xfa;0xff;0x5c;0xf7;0x53;0x54;0x55;0x56;0x57;0x58;0x59;0x5a;0xb2;0xd4;0xd6;0xd2;0xd3;0xd5;0x30;0x31;0x32;0x33;0x34;
  0x35;0x36;0x37;0x38;0x39;0xb3;0xdb;0xdc;0xd9;0xda;0x9f])].
(* tests/data/(no irreversible pairs) *)
Definition irr_ebcdic1145 : pairs := [].
(* tests/data/IBM-1146.TXT *)
Definition map_ebcdic1146 : charmap :=
 [([], 0, [0;1;2;3;0x9c;9;0x86;0x7f;0x97;0x8d;0x8e;0xb;0xc;0xd;0xe;0xf;0x10;0x11;0x12;0x13;0x9d;0x85;8;0x87;0x18;0x19;0x92;0x8f;0x1c;0x1d;0x1e;0x1f;0x80;0x81;
  0x82;0x83;0x84;0xa;0x17;0x1b;0x88;0x89;0x8a;0x8b;0x8c;5;6;7;0x90;0x91;0x16;0x93;0x94;0x95;0x96;4;0x98;0x99;0x9a;0x9b;0x14;0x15;0x9e;0x1a;0x20;0xa0;
  0xe2;0xe4;0xe0;0xe1;0xe3;0xe5;0xe7;0xf1;0x24;0x2e;0x3c;0x28;0x2b;0x7c;0x26;0xe9;0xea;0xeb;0xe8;0xed;0xee;0xef;0xec;0xdf;0x21;0xa3;0x2a;0x29;0x3b;0xac;
  0x2d;0x2f;0xc2;0xc4;0xc0;0xc1;0xc3;0xc5;0xc7;0xd1;0xa6;0x2c;0x25;0x5f;0x3e;0x3f;0xf8;0xc9;0xca;0xcb;0xc8;0xcd;0xce;0xcf;0xcc;0x60;0x3a;0x23;0x40;0x27;
  0x3d;0x22;0xd8;0x61;0x62;0x63;0x64;0x65;0x66;0x67;0x68;0x69;0xab;0xbb;0xf0;0xfd;0xfe;0xb1;0xb0;0x6a;0x6b;0x6c;0x6d;0x6e;0x6f;0x70;0x71;0x72;0xaa;0xba;
  0xe6;0xb8;0xc6;0x20ac;0xb5;0xaf;0x73;0x74;0x75;0x76;0x77;0x78;0x79;0x7a;0xa1;0xbf;0xd0;0xdd;0xde;0xae;0xa2;0x5b;0xa5;0xb7;0xa9;0xa7;0xb6;0xbc;0xbd;
  0xbe;0x5e;0x5d;0x7e;0xa8;0xb4;0xd7;0x7b;0x41;0x42;0x43;0x44;0x45;0x46;0x47;0x48;0x49;0xad;0xf4;0xf6;0xf2;0xf3;0xf5;0x7d;0x4a;0x4b;0x4c;0x4d;0x4e;0x4f;
  0x50;0x51;0x52;0xb9;0xfb;0xfc;0xf9;0xfa;0xff;0x5c;0xf7;0x53;0x54;0x55;0x56;0x57;0x58;0x59;0x5a;0xb2;0xd4;0xd6;0xd2;0xd3;0xd5;0x30;0x31;0x32;0x33;0x34;
  0x35;0x36;0x37;0x38;0x39;0xb3;0xdb;0xdc;0xd9;0xda;0x9f])].
(* tests/data/(no irreversible pairs) *)
Definition irr_ebcdic1146 : pairs := [].
(* tests/data/IBM-1147.TXT *)
Definition map_ebcdic1147 : charmap :=
 [([], 0, [0;1;2;3;0x9c;9;0x86;0x7f;0x97;0x8d;0x8e;0xb;0xc;0xd;0xe;0xf;0x10;0x11;0x12;0x13;0x9d;0x85;8;0x87;0x18;0x19;0x92;0x8f;0x1c;0x1d;0x1e;0x1f;0x80;0x81;
  0x82;0x83;0x84;0xa;0x17;0x1b;0x88;0x89;0x8a;0x8b;0x8c;5;6;7;0x90;0x91;0x16;0x93;0x94;0x95;0x96;4;0x98;0x99;0x9a;0x9b;0x14;0x15;0x9e;0x1a;0x20;0xa0;
  0xe2;0xe4;0x40;0xe1;0xe3;0xe5;0x5c;0xf1;0xb0;0x2e;0x3c;0x28;0x2b;0x21;0x26;0x7b;0xea;0xeb;0x7d;0xed;0xee;0xef;0xec;0xdf;0xa7;0x24;0x2a;0x29;0x3b;0x5e;
  0x2d;0x2f;0xc2;0xc4;0xc0;0xc1;0xc3;0xc5;0xc7;0xd1;0xf9;0x2c;0x25;0x5f;0x3e;0x3f;0xf8;0xc9;0xca;0xcb;0xc8;0xcd;0xce;0xcf;0xcc;0xb5;0x3a;0xa3;0xe0;0x27;
  0x3d;0x22;0xd8;0x61;0x62;0x63;0x64;0x65;0x66;0x67;0x68;0x69;0xab;0xbb;0xf0;0xfd;0xfe;0xb1;0x5b;0x6a;0x6b;0x6c;0x6d;0x6e;0x6f;0x70;0x71;0x72;0xaa;0xba;
  0xe6;0xb8;0xc6;0x20ac;0x60;0xa8;0x73;0x74;0x75;0x76;0x77;0x78;0x79;0x7a;0xa1;0xbf;0xd0;0xdd;0xde;0xae;0xa2;0x23;0xa5;0xb7;0xa9;0x5d;0xb6;0xbc;0xbd;
  0xbe;0xac;0x7c;0xaf;0x7e;0xb4;0xd7;0xe9;0x41;0x42;0x43;0x44;0x45;0x46;0x47;0x48;0x49;0xad;0xf4;0xf6;0xf2;0xf3;0xf5;0xe8;0x4a;0x4b;0x4c;0x4d;0x4e;0x4f;
  0x50;0x51;0x52;0xb9;0xfb;0xfc;0xa6;0xfa;0xff;0xe7;0xf7;0x53;0x54;0x55;0x56;0x57;0x58;0x59;0x5a;0xb2;0xd4;0xd6;0xd2;0xd3;0xd5;0x30;0x31;0x32;0x33;0x34;
  0x35;0x36;0x37;0x38;0x39;0xb3;0xdb;0xdc;0xd9;0xda;0x9f])].
(* tests/data/(no irreversible pairs) *)
Definition irr_ebcdic1147 : pairs := [].
(* tests/data/IBM-1148.TXT *)
Definition map_ebcdic1148 : charmap :=
 [([], 0, [0;1;2;3;0x9c;9;0x86;0x7f;0x97;0x8d;0x8e;0xb;0xc;0xd;0xe;0xf;0x10;0x11;0x12;0x13;0x9d;0x85;8;0x87;0x18;0x19;0x92;0x8f;0x1c;0x1d;0x1e;0x1f;0x80;0x81;
  0x82;0x83;0x84;0xa;0x17;0x1b;0x88;0x89;0x8a;0x8b;0x8c;5;6;7;0x90;0x91;0x16;0x93;0x94;0x95;0x96;4;0x98;0x99;0x9a;0x9b;0x14;0x15;0x9e;0x1a;0x20;0xa0;
  0xe2;0xe4;0xe0;0xe1;0xe3;0xe5;0xe7;0xf1;0x5b;0x2e;0x3c;0x28;0x2b;0x21;0x26;0xe9;0xea;0xeb;0xe8;0xed;0xee;0xef;0xec;0xdf;0x5d;0x24;0x2a;0x29;0x3b;0x5e;
  0x2d;0x2f;0xc2;0xc4;0xc0;0xc1;0xc3;0xc5;0xc7;0xd1;0xa6;0x2c;0x25;0x5f;0x3e;0x3f;0xf8;0xc9;0xca;0xcb;0xc8;0xcd;0xce;0xcf;0xcc;0x60;0x3a;0x23;0x40;0x27;
  0x3d;0x22;0xd8;0x61;0x62;0x63;0x64;0x65;0x66;0x67;0x68;0x69;0xab;0xbb;0xf0;0xfd;0xfe;0xb1;0xb0;0x6a;0x6b;0x6c;0x6d;0x6e;0x6f;0x70;0x71;0x72;0xaa;0xba;
  0xe6;0xb8;0xc6;0x20ac;0xb5;0x7e;0x73;0x74;0x75;0x76;0x77;0x78;0x79;0x7a;0xa1;0xbf;0xd0;0xdd;0xde;0xae;0xa2;0xa3;0xa5;0xb7;0xa9;0xa7;0xb6;0xbc;0xbd;
  0xbe;0xac;0x7c;0xaf;0xa8;0xb4;0xd7;0x7b;0x41;0x42;0x43;0x44;0x45;0x46;0x47;0x48;0x49;0xad;0xf4;0xf6;0xf2;0xf3;0xf5;0x7d;0x4a;0x4b;0x4c;0x4d;0x4e;0x4f;
  0x50;0x51;0x52;0xb9;0xfb;0xfc;0xf9;0xfa;0xff;0x5c;0xf7;0x53;0x54;0x55;0x56;0x57;0x58;0x59;0x5a;0xb2;0xd4;0xd6;0xd2;0xd3;0xd5;0x30;0x31;0x32;0x33;0x34;
  0x35;0x36;0x37;0x38;0x39;0xb3;0xdb;0xdc;0xd9;0xda;0x9f])].
(* tests/data/(no irreversible pairs) *)
Definition irr_ebcdic1148 : pairs := [].
(* tests/data/IBM-1149.TXT *)
Definition map_ebcdic1149 : charmap :=
 [([], 0, [0;1;2;3;0x9c;9;0x86;0x7f;0x97;0x8d;0x8e;0xb;0xc;0xd;0xe;0xf;0x10;0x11;0x12;0x13;0x9d;0x85;8;0x87;0x18;0x19;0x92;0x8f;0x1c;0x1d;0x1e;0x1f;0x80;0x81;
  0x82;0x83;0x84;0xa;0x17;0x1b;0x88;0x89;0x8a;0x8b;0x8c;5;6;7;0x90;0x91;0x16;0x93;0x94;0x95;0x96;4;0x98;0x99;0x9a;0x9b;0x14;0x15;0x9e;0x1a;0x20;0xa0;
  0xe2;0xe4;0xe0;0xe1;0xe3;0xe5;0xe7;0xf1;0xde;0x2e;0x3c;0x28;0x2b;0x21;0x26;0xe9;0xea;0xeb;0xe8;0xed;0xee;0xef;0xec;0xdf;0xc6;0x24;0x2a;0x29;0x3b;0xd6;
  0x2d;0x2f;0xc2;0xc4;0xc0;0xc1;0xc3;0xc5;0xc7;0xd1;0xa6;0x2c;0x25;0x5f;0x3e;0x3f;0xf8;0xc9;0xca;0xcb;0xc8;0xcd;0xce;0xcf;0xcc;0xf0;0x3a;0x23;0xd0;0x27;
  0x3d;0x22;0xd8;0x61;0x62;0x63;0x64;0x65;0x66;0x67;0x68;0x69;0xab;0xbb;0x60;0xfd;0x7b;0xb1;0xb0;0x6a;0x6b;0x6c;0x6d;0x6e;0x6f;0x70;0x71;0x72;0xaa;0xba;
  0x7d;0xb8;0x5d;0x20ac;0xb5;0xf6;0x73;0x74;0x75;0x76;0x77;0x78;0x79;0x7a;0xa1;0xbf;0x40;0xdd;0x5b;0xae;0xa2;0xa3;0xa5;0xb7;0xa9;0xa7;0xb6;0xbc;0xbd;
  0xbe;0xac;0x7c;0xaf;0xa8;0x5c;0xd7;0xfe;0x41;0x42;0x43;0x44;0x45;0x46;0x47;0x48;0x49;0xad;0xf4;0x7e;0xf2;0xf3;0xf5;0xe6;0x4a;0x4b;0x4c;0x4d;0x4e;0x4f;
  0x50;0x51;0x52;0xb9;0xfb;0xfc;0xf9;0xfa;0xff;0xb4;0xf7;0x53;0x54;0x55;0x56;0x57;0x58;0x59;0x5a;0xb2;0xd4;0x5e;0xd2;0xd3;0xd5;0x30;0x31;0x32;0x33;0x34;
  0x35;0x36;0x37;0x38;0x39;0xb3;0xdb;0xdc;0xd9;0xda;0x9f])].
(* tests/data/(no irreversible pairs) *)
Definition irr_ebcdic1149 : pairs := [].
(* tests/data/IBM-1153.TXT *)
Definition map_ebcdic1153 : charmap :=
 [([], 0, [0;1;2;3;0x9c;9;0x86;0x7f;0x97;0x8d;0x8e;0xb;0xc;0xd;0xe;0xf;0x10;0x11;0x12;0x13;0x9d;0x85;8;0x87;0x18;0x19;0x92;0x8f;0x1c;0x1d;0x1e;0x1f;0x80;0x81;
  0x82;0x83;0x84;0xa;0x17;0x1b;0x88;0x89;0x8a;0x8b;0x8c;5;6;7;0x90;0x91;0x16;0x93;0x94;0x95;0x96;4;0x98;0x99;0x9a;0x9b;0x14;0x15;0x9e;0x1a;0x20;0xa0;
  0xe2;0xe4;0x163;0xe1;0x103;0x10d;0xe7;0x107;0x5b;0x2e;0x3c;0x28;0x2b;0x21;0x26;0xe9;0x119;0xeb;0x16f;0xed;0xee;0x13e;0x13a;0xdf;0x5d;0x24;0x2a;0x29;
  0x3b;0x5e;0x2d;0x2f;0xc2;0xc4;0x2dd;0xc1;0x102;0x10c;0xc7;0x106;0x7c;0x2c;0x25;0x5f;0x3e;0x3f;0x2c7;0xc9;0x118;0xcb;0x16e;0xcd;0xce;0x13d;0x139;0x60;
  0x3a;0x23;0x40;0x27;0x3d;0x22;0x2d8;0x61;0x62;0x63;0x64;0x65;0x66;0x67;0x68;0x69;0x15b;0x148;0x111;0xfd;0x159;0x15f;0xb0;0x6a;0x6b;0x6c;0x6d;0x6e;
  0x6f;0x70;0x71;0x72;0x142;0x144;0x161;0xb8;0x2db;0x20ac;0x105;0x7e;0x73;0x74;0x75;0x76;0x77;0x78;0x79;0x7a;0x15a;0x147;0x110;0xdd;0x158;0x15e;0x2d9;
  0x104;0x17c;0x162;0x17b;0xa7;0x17e;0x17a;0x17d;0x179;0x141;0x143;0x160;0xa8;0xb4;0xd7;0x7b;0x41;0x42;0x43;0x44;0x45;0x46;0x47;0x48;0x49;0xad;0xf4;
  0xf6;0x155;0xf3;0x151;0x7d;0x4a;0x4b;0x4c;0x4d;0x4e;0x4f;0x50;0x51;0x52;0x11a;0x171;0xfc;0x165;0xfa;0x11b;0x5c;0xf7;0x53;0x54;0x55;0x56;0x57;0x58;
  0x59;0x5a;0x10f;0xd4;0xd6;0x154;0xd3;0x150;0x30;0x31;0x32;0x33;0x34;0x35;0x36;0x37;0x38;0x39;0x10e;0x170;0xdc;0x164;0xda;0x9f])].
(* tests/data/(no irreversible pairs) *)
Definition irr_ebcdic1153 : pairs := [].
(* tests/data/IBM-1154.TXT *)
Definition map_ebcdic1154 : charmap :=
 [([], 0, [0;1;2;3;0x9c;9;0x86;0x7f;0x97;0x8d;0x8e;0xb;0xc;0xd;0xe;0xf;0x10;0x11;0x12;0x13;0x9d;0x85;8;0x87;0x18;0x19;0x92;0x8f;0x1c;0x1d;0x1e;0x1f;0x80;0x81;
  0x82;0x83;0x84;0xa;0x17;0x1b;0x88;0x89;0x8a;0x8b;0x8c;5;6;7;0x90;0x91;0x16;0x93;0x94;0x95;0x96;4;0x98;0x99;0x9a;0x9b;0x14;0x15;0x9e;0x1a;0x20;0xa0;
  0x452;0x453;0x451;0x454;0x455;0x456;0x457;0x458;0x5b;0x2e;0x3c;0x28;0x2b;0x21;0x26;0x459;0x45a;0x45b;0x45c;0x45e;0x45f;0x42a;0x2116;0x402;0x5d;0x24;
  0x2a;0x29;0x3b;0x5e;0x2d;0x2f;0x403;0x401;0x404;0x405;0x406;0x407;0x408;0x409;0x7c;0x2c;0x25;0x5f;0x3e;0x3f;0x40a;0x40b;0x40c;0xad;0x40e;0x40f;0x44e;
  0x430;0x431;0x60;0x3a;0x23;0x40;0x27;0x3d;0x22;0x446;0x61;0x62;0x63;0x64;0x65;0x66;0x67;0x68;0x69;0x434;0x435;0x444;0x433;0x445;0x438;0x439;0x6a;0x6b;
  0x6c;0x6d;0x6e;0x6f;0x70;0x71;0x72;0x43a;0x43b;0x43c;0x43d;0x43e;0x43f;0x44f;0x7e;0x73;0x74;0x75;0x76;0x77;0x78;0x79;0x7a;0x440;0x441;0x442;0x443;
  0x436;0x432;0x44c;0x44b;0x437;0x448;0x44d;0x449;0x447;0x44a;0x42e;0x410;0x411;0x426;0x414;0x415;0x424;0x413;0x7b;0x41;0x42;0x43;0x44;0x45;0x46;0x47;
  0x48;0x49;0x425;0x418;0x419;0x41a;0x41b;0x41c;0x7d;0x4a;0x4b;0x4c;0x4d;0x4e;0x4f;0x50;0x51;0x52;0x41d;0x41e;0x41f;0x42f;0x420;0x421;0x5c;0x20ac;0x53;
  0x54;0x55;0x56;0x57;0x58;0x59;0x5a;0x422;0x423;0x416;0x412;0x42c;0x42b;0x30;0x31;0x32;0x33;0x34;0x35;0x36;0x37;0x38;0x39;0x417;0x428;0x42d;0x429;
  0x427;0x9f])].
(* tests/data/(no irreversible pairs) *)
Definition irr_ebcdic1154 : pairs := [].
(* tests/data/IBM-1155.TXT *)
Definition map_ebcdic1155 : charmap :=
 [([], 0, [0;1;2;3;0x9c;9;0x86;0x7f;0x97;0x8d;0x8e;0xb;0xc;0xd;0xe;0xf;0x10;0x11;0x12;0x13;0x9d;0x85;8;0x87;0x18;0x19;0x92;0x8f;0x1c;0x1d;0x1e;0x1f;0x80;0x81;
  0x82;0x83;0x84;0xa;0x17;0x1b;0x88;0x89;0x8a;0x8b;0x8c;5;6;7;0x90;0x91;0x16;0x93;0x94;0x95;0x96;4;0x98;0x99;0x9a;0x9b;0x14;0x15;0x9e;0x1a;0x20;0xa0;
  0xe2;0xe4;0xe0;0xe1;0xe3;0xe5;0x7b;0xf1;0xc7;0x2e;0x3c;0x28;0x2b;0x21;0x26;0xe9;0xea;0xeb;0xe8;0xed;0xee;0xef;0xec;0xdf;0x11e;0x130;0x2a;0x29;0x3b;
  0x5e;0x2d;0x2f;0xc2;0xc4;0xc0;0xc1;0xc3;0xc5;0x5b;0xd1;0x15f;0x2c;0x25;0x5f;0x3e;0x3f;0xf8;0xc9;0xca;0xcb;0xc8;0xcd;0xce;0xcf;0xcc;0x131;0x3a;0xd6;
  0x15e;0x27;0x3d;0xdc;0xd8;0x61;0x62;0x63;0x64;0x65;0x66;0x67;0x68;0x69;0xab;0xbb;0x7d;0x60;0xa6;0xb1;0xb0;0x6a;0x6b;0x6c;0x6d;0x6e;0x6f;0x70;0x71;
  0x72;0xaa;0xba;0xe6;0xb8;0xc6;0x20ac;0xb5;0xf6;0x73;0x74;0x75;0x76;0x77;0x78;0x79;0x7a;0xa1;0xbf;0x5d;0x24;0x40;0xae;0xa2;0xa3;0xa5;0xb7;0xa9;0xa7;
  0xb6;0xbc;0xbd;0xbe;0xac;0x7c;0xaf;0xa8;0xb4;0xd7;0xe7;0x41;0x42;0x43;0x44;0x45;0x46;0x47;0x48;0x49;0xad;0xf4;0x7e;0xf2;0xf3;0xf5;0x11f;0x4a;0x4b;
  0x4c;0x4d;0x4e;0x4f;0x50;0x51;0x52;0xb9;0xfb;0x5c;0xf9;0xfa;0xff;0xfc;0xf7;0x53;0x54;0x55;0x56;0x57;0x58;0x59;0x5a;0xb2;0xd4;0x23;0xd2;0xd3;0xd5;0x30;
  0x31;0x32;0x33;0x34;0x35;0x36;0x37;0x38;0x39;0xb3;0xdb;0x22;0xd9;0xda;0x9f])].
(* tests/data/(no irreversible pairs) *)
Definition irr_ebcdic1155 : pairs := [].
(* tests/data/IBM-1156.TXT *)
Definition map_ebcdic1156 : charmap :=
 [([], 0, [0;1;2;3;0x9c;9;0x86;0x7f;0x97;0x8d;0x8e;0xb;0xc;0xd;0xe;0xf;0x10;0x11;0x12;0x13;0x9d;0x85;8;0x87;0x18;0x19;0x92;0x8f;0x1c;0x1d;0x1e;0x1f;0x80;0x81;
  0x82;0x83;0x84;0xa;0x17;0x1b;0x88;0x89;0x8a;0x8b;0x8c;5;6;7;0x90;0x91;0x16;0x93;0x94;0x95;0x96;4;0x98;0x99;0x9a;0x9b;0x14;0x15;0x9e;0x1a;0x20;0xa0;
  0x161;0xe4;0x105;0x12f;0x16b;0xe5;0x113;0x17e;0xa2;0x2e;0x3c;0x28;0x2b;0x7c;0x26;0xe9;0x119;0x117;0x10d;0x173;0x201e;0x201c;0x123;0xdf;0x21;0x24;0x2a;
  0x29;0x3b;0xac;0x2d;0x2f;0x160;0xc4;0x104;0x12e;0x16a;0xc5;0x112;0x17d;0xa6;0x2c;0x25;0x5f;0x3e;0x3f;0xf8;0xc9;0x118;0x116;0x10c;0x172;0x12a;0x13b;
  0x122;0x60;0x3a;0x23;0x40;0x27;0x3d;0x22;0xd8;0x61;0x62;0x63;0x64;0x65;0x66;0x67;0x68;0x69;0xab;0xbb;0x101;0x17c;0x144;0xb1;0xb0;0x6a;0x6b;0x6c;0x6d;
  0x6e;0x6f;0x70;0x71;0x72;0x156;0x157;0xe6;0x137;0xc6;0x20ac;0xb5;0x7e;0x73;0x74;0x75;0x76;0x77;0x78;0x79;0x7a;0x201d;0x17a;0x100;0x17b;0x143;0xae;
  0x5e;0xa3;0x12b;0xb7;0xa9;0xa7;0xb6;0xbc;0xbd;0xbe;0x5b;0x5d;0x179;0x136;0x13c;0xd7;0x7b;0x41;0x42;0x43;0x44;0x45;0x46;0x47;0x48;0x49;0xad;0x14d;0xf6;
  0x146;0xf3;0xf5;0x7d;0x4a;0x4b;0x4c;0x4d;0x4e;0x4f;0x50;0x51;0x52;0xb9;0x107;0xfc;0x142;0x15b;0x2019;0x5c;0xf7;0x53;0x54;0x55;0x56;0x57;0x58;0x59;
  0x5a;0xb2;0x14c;0xd6;0x145;0xd3;0xd5;0x30;0x31;0x32;0x33;0x34;0x35;0x36;0x37;0x38;0x39;0xb3;0x106;0xdc;0x141;0x15a;0x9f])].
(* tests/data/(no irreversible pairs) *)
Definition irr_ebcdic1156 : pairs := [].
(* tests/data/IBM-1157.TXT *)
Definition map_ebcdic1157 : charmap :=
 [([], 0, [0;1;2;3;0x9c;9;0x86;0x7f;0x97;0x8d;0x8e;0xb;0xc;0xd;0xe;0xf;0x10;0x11;0x12;0x13;0x9d;0x85;8;0x87;0x18;0x19;0x92;0x8f;0x1c;0x1d;0x1e;0x1f;0x80;0x81;
  0x82;0x83;0x84;0xa;0x17;0x1b;0x88;0x89;0x8a;0x8b;0x8c;5;6;7;0x90;0x91;0x16;0x93;0x94;0x95;0x96;4;0x98;0x99;0x9a;0x9b;0x14;0x15;0x9e;0x1a;0x20;0xa0;
  0xe2;0x7b;0xe0;0xe1;0xe3;0x7d;0xe7;0xf1;0xa7;0x2e;0x3c;0x28;0x2b;0x21;0x26;0x60;0xea;0xeb;0xe8;0xed;0xee;0xef;0xec;0xdf;0x20ac;0xc5;0x2a;0x29;0x3b;
  0x5e;0x2d;0x2f;0xc2;0x23;0xc0;0xc1;0xc3;0x24;0xc7;0xd1;0xf6;0x2c;0x25;0x5f;0x3e;0x3f;0xf8;0x5c;0xca;0xcb;0xc8;0xcd;0xce;0xcf;0xcc;0xe9;0x3a;0xc4;0xd6;
  0x27;0x3d;0x22;0xd8;0x61;0x62;0x63;0x64;0x65;0x66;0x67;0x68;0x69;0xab;0xbb;0x161;0xfd;0x17e;0xb1;0xb0;0x6a;0x6b;0x6c;0x6d;0x6e;0x6f;0x70;0x71;0x72;
  0xaa;0xba;0xe6;0xb8;0xc6;0x5d;0xb5;0xfc;0x73;0x74;0x75;0x76;0x77;0x78;0x79;0x7a;0xa1;0xbf;0x160;0xdd;0x17d;0xae;0xa2;0xa3;0xa5;0xb7;0xa9;0x5b;0xb6;
  0xbc;0xbd;0xbe;0xac;0x7c;0xaf;0xa8;0xb4;0xd7;0xe4;0x41;0x42;0x43;0x44;0x45;0x46;0x47;0x48;0x49;0xad;0xf4;0xa6;0xf2;0xf3;0xf5;0xe5;0x4a;0x4b;0x4c;0x4d;
  0x4e;0x4f;0x50;0x51;0x52;0xb9;0xfb;0x7e;0xf9;0xfa;0xff;0xc9;0xf7;0x53;0x54;0x55;0x56;0x57;0x58;0x59;0x5a;0xb2;0xd4;0x40;0xd2;0xd3;0xd5;0x30;0x31;0x32;
  0x33;0x34;0x35;0x36;0x37;0x38;0x39;0xb3;0xdb;0xdc;0xd9;0xda;0x9f])].
(* tests/data/(no irreversible pairs) *)
Definition irr_ebcdic1157 : pairs := [].
(* tests/data/IBM-1158.TXT *)
Definition map_ebcdic1158 : charmap :=
 [([], 0, [0;1;2;3;0x9c;9;0x86;0x7f;0x97;0x8d;0x8e;0xb;0xc;0xd;0xe;0xf;0x10;0x11;0x12;0x13;0x9d;0x85;8;0x87;0x18;0x19;0x92;0x8f;0x1c;0x1d;0x1e;0x1f;0x80;0x81;
  0x82;0x83;0x84;0xa;0x17;0x1b;0x88;0x89;0x8a;0x8b;0x8c;5;6;7;0x90;0x91;0x16;0x93;0x94;0x95;0x96;4;0x98;0x99;0x9a;0x9b;0x14;0x15;0x9e;0x1a;0x20;0xa0;
  0x452;0x491;0x451;0x454;0x455;0x456;0x457;0x458;0x5b;0x2e;0x3c;0x28;0x2b;0x21;0x26;0x459;0x45a;0x45b;0x45c;0x45e;0x45f;0x42a;0x2116;0x402;0x5d;0x24;
  0x2a;0x29;0x3b;0x5e;0x2d;0x2f;0x490;0x401;0x404;0x405;0x406;0x407;0x408;0x409;0x7c;0x2c;0x25;0x5f;0x3e;0x3f;0x40a;0x40b;0x40c;0xad;0x40e;0x40f;0x44e;
  0x430;0x431;0x60;0x3a;0x23;0x40;0x27;0x3d;0x22;0x446;0x61;0x62;0x63;0x64;0x65;0x66;0x67;0x68;0x69;0x434;0x435;0x444;0x433;0x445;0x438;0x439;0x6a;0x6b;
  0x6c;0x6d;0x6e;0x6f;0x70;0x71;0x72;0x43a;0x43b;0x43c;0x43d;0x43e;0x43f;0x44f;0x7e;0x73;0x74;0x75;0x76;0x77;0x78;0x79;0x7a;0x440;0x441;0x442;0x443;
  0x436;0x432;0x44c;0x44b;0x437;0x448;0x44d;0x449;0x447;0x44a;0x42e;0x410;0x411;0x426;0x414;0x415;0x424;0x413;0x7b;0x41;0x42;0x43;0x44;0x45;0x46;0x47;
  0x48;0x49;0x425;0x418;0x419;0x41a;0x41b;0x41c;0x7d;0x4a;0x4b;0x4c;0x4d;0x4e;0x4f;0x50;0x51;0x52;0x41d;0x41e;0x41f;0x42f;0x420;0x421;0x5c;0x20ac;0x53;
  0x54;0x55;0x56;0x57;0x58;0x59;0x5a;0x422;0x423;0x416;0x412;0x42c;0x42b;0x30;0x31;0x32;0x33;0x34;0x35;0x36;0x37;0x38;0x39;0x417;0x428;0x42d;0x429;
  0x427;0x9f])].
(* tests/data/(no irreversible pairs) *)
Definition irr_ebcdic1158 : pairs := [].
(* tests/data/IBM-1160.TXT *)
Definition map_ebcdic1160 : charmap :=
 [([], 0, [0;1;2;3;0x9c;9;0x86;0x7f;0x97;0x8d;0x8e;0xb;0xc;0xd;0xe;0xf;0x10;0x11;0x12;0x13;0x9d;0x85;8;0x87;0x18;0x19;0x92;0x8f;0x1c;0x1d;0x1e;0x1f;0x80;0x81;
  0x82;0x83;0x84;0xa;0x17;0x1b;0x88;0x89;0x8a;0x8b;0x8c;5;6;7;0x90;0x91;0x16;0x93;0x94;0x95;0x96;4;0x98;0x99;0x9a;0x9b;0x14;0x15;0x9e;0x1a;0x20;0xa0;
  0xe01;0xe02;0xe03;0xe04;0xe05;0xe06;0xe07;0x5b;0xa2;0x2e;0x3c;0x28;0x2b;0x7c;0x26;0xe48;0xe08;0xe09;0xe0a;0xe0b;0xe0c;0xe0d;0xe0e;0x5d;0x21;0x24;0x2a;
  0x29;0x3b;0xac;0x2d;0x2f;0xe0f;0xe10;0xe11;0xe12;0xe13;0xe14;0xe15;0x5e;0xa6;0x2c;0x25;0x5f;0x3e;0x3f;0xe3f;0xe4e;0xe16;0xe17;0xe18;0xe19;0xe1a;0xe1b;
  0xe1c;0x60;0x3a;0x23;0x40;0x27;0x3d;0x22;0xe4f;0x61;0x62;0x63;0x64;0x65;0x66;0x67;0x68;0x69;0xe1d;0xe1e;0xe1f;0xe20;0xe21;0xe22;0xe5a;0x6a;0x6b;0x6c;
  0x6d;0x6e;0x6f;0x70;0x71;0x72;0xe23;0xe24;0xe25;0xe26;0xe27;0xe28;0xe5b;0x7e;0x73;0x74;0x75;0x76;0x77;0x78;0x79;0x7a;0xe29;0xe2a;0xe2b;0xe2c;0xe2d;
  0xe2e;0xe50;0xe51;0xe52;0xe53;0xe54;0xe55;0xe56;0xe57;0xe58;0xe59;0xe2f;0xe30;0xe31;0xe32;0xe33;0xe34;0x7b;0x41;0x42;0x43;0x44;0x45;0x46;0x47;0x48;
  0x49;0xe49;0xe35;0xe36;0xe37;0xe38;0xe39;0x7d;0x4a;0x4b;0x4c;0x4d;0x4e;0x4f;0x50;0x51;0x52;0xe3a;0xe40;0xe41;0xe42;0xe43;0xe44;0x5c;0xe4a;0x53;0x54;
  0x55;0x56;0x57;0x58;0x59;0x5a;0xe45;0xe46;0xe47;0xe48;0xe49;0xe4a;0x30;0x31;0x32;0x33;0x34;0x35;0x36;0x37;0x38;0x39;0xe4b;0xe4c;0xe4d;0xe4b;0x20ac;
  0x9f])].
(* tests/data/IBM-1160.IRREVERSIBLE.TXT *)
Definition irr_ebcdic1160 : pairs := [([0x51], 0xe48);([0xca], 0xe49);([0xe1], 0xe4a);([0xfd], 0xe4b)].
(* tests/data/IBM-1164.TXT *)
Definition map_ebcdic1164 : charmap :=
 [([], 0, [0;1;2;3;0x9c;9;0x86;0x7f;0x97;0x8d;0x8e;0xb;0xc;0xd;0xe;0xf;0x10;0x11;0x12;0x13;0x9d;0x85;8;0x87;0x18;0x19;0x92;0x8f;0x1c;0x1d;0x1e;0x1f;0x80;0x81;
  0x82;0x83;0x84;0xa;0x17;0x1b;0x88;0x89;0x8a;0x8b;0x8c;5;6;7;0x90;0x91;0x16;0x93;0x94;0x95;0x96;4;0x98;0x99;0x9a;0x9b;0x14;0x15;0x9e;0x1a;0x20;0xa0;
  0xe2;0xe4;0xe0;0xe1;0x103;0xe5;0xe7;0xf1;0x5b;0x2e;0x3c;0x28;0x2b;0x21;0x26;0xe9;0xea;0xeb;0xe8;0xed;0xee;0xef;0x303;0xdf;0x5d;0x24;0x2a;0x29;0x3b;
  0x5e;0x2d;0x2f;0xc2;0xc4;0xc0;0xc1;0x102;0xc5;0xc7;0xd1;0xa6;0x2c;0x25;0x5f;0x3e;0x3f;0xf8;0xc9;0xca;0xcb;0xc8;0xcd;0xce;0xcf;0x20ab;0x60;0x3a;0x23;
  0x40;0x27;0x3d;0x22;0xd8;0x61;0x62;0x63;0x64;0x65;0x66;0x67;0x68;0x69;0xab;0xbb;0x111;0x309;0x300;0xb1;0xb0;0x6a;0x6b;0x6c;0x6d;0x6e;0x6f;0x70;0x71;
  0x72;0xaa;0xba;0xe6;0x152;0xc6;0x20ac;0xb5;0x7e;0x73;0x74;0x75;0x76;0x77;0x78;0x79;0x7a;0xa1;0xbf;0x110;0x323;0x301;0xae;0xa2;0xa3;0xa5;0xb7;0xa9;
  0xa7;0xb6;0xbc;0xbd;0xbe;0xac;0x7c;0xaf;0x153;0x178;0xd7;0x7b;0x41;0x42;0x43;0x44;0x45;0x46;0x47;0x48;0x49;0xad;0xf4;0xf6;0x1b0;0xf3;0x1a1;0x7d;0x4a;
  0x4b;0x4c;0x4d;0x4e;0x4f;0x50;0x51;0x52;0xb9;0xfb;0xfc;0xf9;0xfa;0xff;0x5c;0xf7;0x53;0x54;0x55;0x56;0x57;0x58;0x59;0x5a;0xb2;0xd4;0xd6;0x1af;0xd3;
  0x1a0;0x30;0x31;0x32;0x33;0x34;0x35;0x36;0x37;0x38;0x39;0xb3;0xdb;0xdc;0xd9;0xda;0x9f])].
(* tests/data/(no irreversible pairs) *)
Definition irr_ebcdic1164 : pairs := [].
(* tests/data/IBM-1165.TXT *)
Definition map_ebcdic1165 : charmap :=
 [([], 0, [0;1;2;3;0x9c;9;0x86;0x7f;0x97;0x8d;0x8e;0xb;0xc;0xd;0xe;0xf;0x10;0x11;0x12;0x13;0x9d;0x85;8;0x87;0x18;0x19;0x92;0x8f;0x1c;0x1d;0x1e;0x1f;0x80;0x81;
  0x82;0x83;0x84;0xa;0x17;0x1b;0x88;0x89;0x8a;0x8b;0x8c;5;6;7;0x90;0x91;0x16;0x93;0x94;0x95;0x96;4;0x98;0x99;0x9a;0x9b;0x14;0x15;0x9e;0x1a;0x20;0xa0;
  0xe2;0xe4;0x163;0xe1;0x103;0x10d;0xe7;0x107;0xdd;0x2e;0x3c;0x28;0x2b;0x7c;0x26;0xe9;0x119;0xeb;0x16f;0xed;0xee;0x13e;0x13a;0xdf;0x21;0x24;0x2a;0x29;
  0x3b;0x5e;0x2d;0x2f;0xc2;0xc4;0x2dd;0xc1;0x102;0x10c;0xc7;0x106;0xa8;0x2c;0x25;0x5f;0x3e;0x3f;0x2c7;0xc9;0x118;0xcb;0x16e;0xcd;0xce;0x13d;0x139;0x60;
  0x3a;0x23;0x40;0x27;0x3d;0x22;0x2d8;0x61;0x62;0x63;0x64;0x65;0x66;0x67;0x68;0x69;0x15b;0x148;0x111;0xfd;0x159;0x15f;0xb0;0x6a;0x6b;0x6c;0x6d;0x6e;
  0x6f;0x70;0x71;0x72;0x142;0x144;0x161;0xb8;0x2db;0x20ac;0x105;0x7e;0x73;0x74;0x75;0x76;0x77;0x78;0x79;0x7a;0x15a;0x147;0x110;0x5b;0x158;0x15e;0x2d9;
  0x104;0x17c;0x162;0x17b;0xa7;0x17e;0x17a;0x17d;0x179;0x141;0x143;0x160;0x5d;0xb4;0xd7;0x7b;0x41;0x42;0x43;0x44;0x45;0x46;0x47;0x48;0x49;0xad;0xf4;
  0xf6;0x155;0xf3;0x151;0x7d;0x4a;0x4b;0x4c;0x4d;0x4e;0x4f;0x50;0x51;0x52;0x11a;0x171;0xfc;0x165;0xfa;0x11b;0x5c;0xf7;0x53;0x54;0x55;0x56;0x57;0x58;
  0x59;0x5a;0x10f;0xd4;0xd6;0x154;0xd3;0x150;0x30;0x31;0x32;0x33;0x34;0x35;0x36;0x37;0x38;0x39;0x10e;0x170;0xdc;0x164;0xda;0x9f])].
(* tests/data/(no irreversible pairs) *)
Definition irr_ebcdic1165 : pairs := [].
(* tests/data/IBM-1166.TXT *)
Definition map_ebcdic1166 : charmap :=
 [([], 0, [0;1;2;3;0x9c;9;0x86;0x7f;0x97;0x8d;0x8e;0xb;0xc;0xd;0xe;0xf;0x10;0x11;0x12;0x13;0x9d;0x85;8;0x87;0x18;0x19;0x92;0x8f;0x1c;0x1d;0x1e;0x1f;0x80;0x81;
  0x82;0x83;0x84;0xa;0x17;0x1b;0x88;0x89;0x8a;0x8b;0x8c;5;6;7;0x90;0x91;0x16;0x93;0x94;0x95;0x96;4;0x98;0x99;0x9a;0x9b;0x14;0x15;0x9e;0x1a;0x20;0xa0;
  0x4d9;0x493;0x451;0x454;0x455;0x456;0x49b;0x458;0x5b;0x2e;0x3c;0x28;0x2b;0x21;0x26;0x4a3;0x4e9;0x4b1;0x4af;0x45e;0x4bb;0x42a;0x2116;0x4d8;0x5d;0x24;
  0x2a;0x29;0x3b;0x5e;0x2d;0x2f;0x492;0x401;0x404;0x405;0x406;0x49a;0x408;0x4a2;0x7c;0x2c;0x25;0x5f;0x3e;0x3f;0x4e8;0x4b0;0x4ae;0xad;0x40e;0x4ba;0x44e;
  0x430;0x431;0x60;0x3a;0x23;0x40;0x27;0x3d;0x22;0x446;0x61;0x62;0x63;0x64;0x65;0x66;0x67;0x68;0x69;0x434;0x435;0x444;0x433;0x445;0x438;0x439;0x6a;0x6b;
  0x6c;0x6d;0x6e;0x6f;0x70;0x71;0x72;0x43a;0x43b;0x43c;0x43d;0x43e;0x43f;0x44f;0x7e;0x73;0x74;0x75;0x76;0x77;0x78;0x79;0x7a;0x440;0x441;0x442;0x443;
  0x436;0x432;0x44c;0x44b;0x437;0x448;0x44d;0x449;0x447;0x44a;0x42e;0x410;0x411;0x426;0x414;0x415;0x424;0x413;0x7b;0x41;0x42;0x43;0x44;0x45;0x46;0x47;
  0x48;0x49;0x425;0x418;0x419;0x41a;0x41b;0x41c;0x7d;0x4a;0x4b;0x4c;0x4d;0x4e;0x4f;0x50;0x51;0x52;0x41d;0x41e;0x41f;0x42f;0x420;0x421;0x5c;0x20ac;0x53;
  0x54;0x55;0x56;0x57;0x58;0x59;0x5a;0x422;0x423;0x416;0x412;0x42c;0x42b;0x30;0x31;0x32;0x33;0x34;0x35;0x36;0x37;0x38;0x39;0x417;0x428;0x42d;0x429;
  0x427;0x9f])].
(* tests/data/(no irreversible pairs) *)
Definition irr_ebcdic1166 : pairs := [].
(* tests/data/IBM-4971.TXT *)
Definition map_ebcdic4971 : charmap :=
 [([], 0, [0;1;2;3;0x9c;9;0x86;0x7f;0x97;0x8d;0x8e;0xb;0xc;0xd;0xe;0xf;0x10;0x11;0x12;0x13;0x9d;0x85;8;0x87;0x18;0x19;0x92;0x8f;0x1c;0x1d;0x1e;0x1f;0x80;0x81;
  0x82;0x83;0x84;0xa;0x17;0x1b;0x88;0x89;0x8a;0x8b;0x8c;5;6;7;0x90;0x91;0x16;0x93;0x94;0x95;0x96;4;0x98;0x99;0x9a;0x9b;0x14;0x15;0x9e;0x1a;0x20;0x391;
  0x392;0x393;0x394;0x395;0x396;0x397;0x398;0x399;0x5b;0x2e;0x3c;0x28;0x2b;0x21;0x26;0x39a;0x39b;0x39c;0x39d;0x39e;0x39f;0x3a0;0x3a1;0x3a3;0x5d;0x24;
  0x2a;0x29;0x3b;0x5e;0x2d;0x2f;0x3a4;0x3a5;0x3a6;0x3a7;0x3a8;0x3a9;0x3aa;0x3ab;0x7c;0x2c;0x25;0x5f;0x3e;0x3f;0xa8;0x386;0x388;0x389;0xa0;0x38a;0x38c;
  0x38e;0x38f;0x60;0x3a;0x23;0x40;0x27;0x3d;0x22;0x385;0x61;0x62;0x63;0x64;0x65;0x66;0x67;0x68;0x69;0x3b1;0x3b2;0x3b3;0x3b4;0x3b5;0x3b6;0xb0;0x6a;0x6b;
  0x6c;0x6d;0x6e;0x6f;0x70;0x71;0x72;0x3b7;0x3b8;0x3b9;0x3ba;0x3bb;0x3bc;0xb4;0x7e;0x73;0x74;0x75;0x76;0x77;0x78;0x79;0x7a;0x3bd;0x3be;0x3bf;0x3c0;
  0x3c1;0x3c3;0xa3;0x3ac;0x3ad;0x3ae;0x3ca;0x3af;0x3cc;0x3cd;0x3cb;0x3ce;0x3c2;0x3c4;0x3c5;0x3c6;0x3c7;0x3c8;0x7b;0x41;0x42;0x43;0x44;0x45;0x46;0x47;
  0x48;0x49;0xad;0x3c9;0x390;0x3b0;0x2018;0x2015;0x7d;0x4a;0x4b;0x4c;0x4d;0x4e;0x4f;0x50;0x51;0x52;0xb1;0xbd;-1;0x387;0x2019;0xa6;0x5c;-1;0x53;0x54;
  0x55;0x56;0x57;0x58;0x59;0x5a;0xb2;0xa7;-1;-1;0xab;0xac;0x30;0x31;0x32;0x33;0x34;0x35;0x36;0x37;0x38;0x39;0xb3;0xa9;0x20ac;-1;0xbb;0x9f])].
(* tests/data/(no irreversible pairs) *)
Definition irr_ebcdic4971 : pairs := [].
(* tests/data/IBM-12712.TXT *)
Definition map_ebcdic12712 : charmap :=
 [([], 0, [0;1;2;3;0x9c;9;0x86;0x7f;0x97;0x8d;0x8e;0xb;0xc;0xd;0xe;0xf;0x10;0x11;0x12;0x13;0x9d;0x85;8;0x87;0x18;0x19;0x92;0x8f;0x1c;0x1d;0x1e;0x1f;0x80;0x81;
  0x82;0x83;0x84;0xa;0x17;0x1b;0x88;0x89;0x8a;0x8b;0x8c;5;6;7;0x90;0x91;0x16;0x93;0x94;0x95;0x96;4;0x98;0x99;0x9a;0x9b;0x14;0x15;0x9e;0x1a;0x20;0x5d0;
  0x5d1;0x5d2;0x5d3;0x5d4;0x5d5;0x5d6;0x5d7;0x5d8;0xa2;0x2e;0x3c;0x28;0x2b;0x7c;0x26;0x5d9;0x5da;0x5db;0x5dc;0x5dd;0x5de;0x5df;0x5e0;0x5e1;0x21;0x24;
  0x2a;0x29;0x3b;0xac;0x2d;0x2f;0x5e2;0x5e3;0x5e4;0x5e5;0x5e6;0x5e7;0x5e8;0x5e9;0xa6;0x2c;0x25;0x5f;0x3e;0x3f;-1;0x5ea;-1;-1;0xa0;-1;-1;-1;0x2017;0x60;
  0x3a;0x23;0x40;0x27;0x3d;0x22;-1;0x61;0x62;0x63;0x64;0x65;0x66;0x67;0x68;0x69;0xab;0xbb;-1;-1;-1;0xb1;0xb0;0x6a;0x6b;0x6c;0x6d;0x6e;0x6f;0x70;0x71;
  0x72;-1;-1;0x20ac;0xb8;0x20aa;0xa4;0xb5;0x7e;0x73;0x74;0x75;0x76;0x77;0x78;0x79;0x7a;-1;-1;-1;-1;-1;0xae;0x5e;0xa3;0xa5;0x2022;0xa9;0xa7;0xb6;0xbc;
  0xbd;0xbe;0x5b;0x5d;0x203e;0xa8;0xb4;0xd7;0x7b;0x41;0x42;0x43;0x44;0x45;0x46;0x47;0x48;0x49;0xad;-1;-1;-1;-1;-1;0x7d;0x4a;0x4b;0x4c;0x4d;0x4e;0x4f;
  0x50;0x51;0x52;0xb9;0x202d;0x202e;0x202c;-1;-1;0x5c;0xf7;0x53;0x54;0x55;0x56;0x57;0x58;0x59;0x5a;0xb2;-1;-1;-1;-1;-1;0x30;0x31;0x32;0x33;0x34;0x35;
  0x36;0x37;0x38;0x39;0xb3;0x202a;0x202b;0x200e;0x200f;0x9f])].
(* tests/data/(no irreversible pairs) *)
Definition irr_ebcdic12712 : pairs := [].
(* tests/data/IBM-16804.TXT *)
Definition map_ebcdic16804 : charmap :=
 [([], 0, [0;1;2;3;0x9c;9;0x86;0x7f;0x97;0x8d;0x8e;0xb;0xc;0xd;0xe;0xf;0x10;0x11;0x12;0x13;0x9d;0x85;8;0x87;0x18;0x19;0x92;0x8f;0x1c;0x1d;0x1e;0x1f;0x80;0x81;
  0x82;0x83;0x84;0xa;0x17;0x1b;0x88;0x89;0x8a;0x8b;0x8c;5;6;7;0x90;0x91;0x16;0x93;0x94;0x95;0x96;4;0x98;0x99;0x9a;0x9b;0x14;0x15;0x9e;0x1a;0x20;0xa0;
  0x651;0xfe7d;0x640;0x200b;0x621;0x622;0xfe82;0x623;0xa2;0x2e;0x3c;0x28;0x2b;0x7c;0x26;0xfe84;0x624;-1;-1;0x626;0x627;0xfe8e;0x628;0xfe91;0x21;0x24;
  0x2a;0x29;0x3b;0xac;0x2d;0x2f;0x629;0x62a;0xfe97;0x62b;0xfe9b;0x62c;0xfe9f;0x62d;0xa6;0x2c;0x25;0x5f;0x3e;0x3f;0xfea3;0x62e;0xfea7;0x62f;0x630;0x631;
  0x632;0x633;0xfeb3;0x60c;0x3a;0x23;0x40;0x27;0x3d;0x22;0x634;0x61;0x62;0x63;0x64;0x65;0x66;0x67;0x68;0x69;0xfeb7;0x635;0xfebb;0x636;0xfebf;0x637;
  0x638;0x6a;0x6b;0x6c;0x6d;0x6e;0x6f;0x70;0x71;0x72;0x639;0xfeca;0xfecb;0xfecc;0x63a;0xfece;0xfecf;0xf7;0x73;0x74;0x75;0x76;0x77;0x78;0x79;0x7a;0xfed0;
  0x641;0xfed3;0x642;0xfed7;0x643;0xfedb;0x644;0xfef5;0xfef6;0xfef7;0xfef8;-1;-1;0xfefb;0xfefc;0xfedf;0x645;0xfee3;0x646;0xfee7;0x647;0x61b;0x41;0x42;
  0x43;0x44;0x45;0x46;0x47;0x48;0x49;0xad;0xfeeb;-1;0xfeec;-1;0x648;0x61f;0x4a;0x4b;0x4c;0x4d;0x4e;0x4f;0x50;0x51;0x52;0x649;0xfef0;0x64a;0xfef2;0xfef3;
  0x660;0xd7;0x2007;0x53;0x54;0x55;0x56;0x57;0x58;0x59;0x5a;0x661;0x662;-1;0x663;0x664;0x665;0x30;0x31;0x32;0x33;0x34;0x35;0x36;0x37;0x38;0x39;0x20ac;
  0x666;0x667;0x668;0x669;0x9f])].
(* tests/data/(no irreversible pairs) *)
Definition irr_ebcdic16804 : pairs := [].
(* tests/data/TDS565.TXT *)
Definition map_tds565 : charmap :=
 [([], 0, [0;1;2;3;4;5;6;7;8;9;0xa;0xb;0xc;0xd;0xe;0xf;0x10;0x11;0x12;0x13;0x14;0x15;0x16;0x17;0x18;0x19;0x1a;0x1b;0x1c;0x1d;0x1e;0x1f;0x20;0x21;0x22;0x23;0x24;
  0x25;0x26;0x27;0x28;0x29;0x2a;0x2b;0x2c;0x2d;0x2e;0x2f;0x30;0x31;0x32;0x33;0x34;0x35;0x36;0x37;0x38;0x39;0x3a;0x3b;0x3c;0x3d;0x3e;0x3f;0x40;0x41;0x42;
  0xc7;0x44;0x45;0xc4;0x46;0x47;0x48;0x49;0x4a;0x17d;0x4b;0x4c;0x4d;0x4e;0x147;0x4f;0xd6;0x50;0x52;0x53;0x15e;0x54;0x55;0xdc;0x57;0x59;0xdd;0x5a;0x5f;
  0x2116;0x61;0x62;0xe7;0x64;0x65;0xe4;0x66;0x67;0x68;0x69;0x6a;0x17e;0x6b;0x6c;0x6d;0x6e;0x148;0x6f;0xf6;0x70;0x72;0x73;0x15f;0x74;0x75;0xfc;0x77;0x79;
  0xfd;0x7a;0x7f])].
(* tests/data/(no irreversible pairs) *)
Definition irr_tds565 : pairs := [].
(* tests/data/ATARIST.TXT *)
Definition map_atarist : charmap :=
 [([], 0, [0;1;2;3;4;5;6;7;8;9;0xa;0xb;0xc;0xd;0xe;0xf;0x10;0x11;0x12;0x13;0x14;0x15;0x16;0x17;0x18;0x19;0x1a;0x1b;0x1c;0x1d;0x1e;0x1f;0x20;0x21;0x22;0x23;0x24;
  0x25;0x26;0x27;0x28;0x29;0x2a;0x2b;0x2c;0x2d;0x2e;0x2f;0x30;0x31;0x32;0x33;0x34;0x35;0x36;0x37;0x38;0x39;0x3a;0x3b;0x3c;0x3d;0x3e;0x3f;0x40;0x41;0x42;
  0x43;0x44;0x45;0x46;0x47;0x48;0x49;0x4a;0x4b;0x4c;0x4d;0x4e;0x4f;0x50;0x51;0x52;0x53;0x54;0x55;0x56;0x57;0x58;0x59;0x5a;0x5b;0x5c;0x5d;0x5e;0x5f;0x60;
  0x61;0x62;0x63;0x64;0x65;0x66;0x67;0x68;0x69;0x6a;0x6b;0x6c;0x6d;0x6e;0x6f;0x70;0x71;0x72;0x73;0x74;0x75;0x76;0x77;0x78;0x79;0x7a;0x7b;0x7c;0x7d;0x7e;
  0x7f;0xc7;0xfc;0xe9;0xe2;0xe4;0xe0;0xe5;0xe7;0xea;0xeb;0xe8;0xef;0xee;0xec;0xc4;0xc5;0xc9;0xe6;0xc6;0xf4;0xf6;0xf2;0xfb;0xf9;0xff;0xd6;0xdc;0xa2;0xa3;
  0xa5;0xdf;0x192;0xe1;0xed;0xf3;0xfa;0xf1;0xd1;0xaa;0xba;0xbf;0x2310;0xac;0xbd;0xbc;0xa1;0xab;0xbb;0xe3;0xf5;0xd8;0xf8;0x153;0x152;0xc0;0xc3;0xd5;0xa8;
  0xb4;0x2020;0xb6;0xa9;0xae;0x2122;0x133;0x132;0x5d0;0x5d1;0x5d2;0x5d3;0x5d4;0x5d5;0x5d6;0x5d7;0x5d8;0x5d9;0x5db;0x5dc;0x5de;0x5e0;0x5e1;0x5e2;0x5e4;
  0x5e6;0x5e7;0x5e8;0x5e9;0x5ea;0x5df;0x5da;0x5dd;0x5e3;0x5e5;0xa7;0x2227;0x221e;0x3b1;0x3b2;0x393;0x3c0;0x3a3;0x3c3;0xb5;0x3c4;0x3a6;0x398;0x3a9;0x3b4;
  0x222e;0x3c6;0x2208;0x2229;0x2261;0xb1;0x2265;0x2264;0x2320;0x2321;0xf7;0x2248;0xb0;0x2219;0xb7;0x221a;0x207f;0xb2;0xb3;0xaf])].
(* tests/data/(no irreversible pairs) *)
Definition irr_atarist : pairs := [].
(* tests/data/RISCOS-LATIN1.TXT *)
Definition map_riscos1 : charmap :=
 [([], 0, [0;1;2;3;4;5;6;7;8;9;0xa;0xb;0xc;0xd;0xe;0xf;0x10;0x11;0x12;0x13;0x14;0x15;0x16;0x17;0x18;0x19;0x1a;0x1b;0x1c;0x1d;0x1e;0x1f;0x20;0x21;0x22;0x23;0x24;
  0x25;0x26;0x27;0x28;0x29;0x2a;0x2b;0x2c;0x2d;0x2e;0x2f;0x30;0x31;0x32;0x33;0x34;0x35;0x36;0x37;0x38;0x39;0x3a;0x3b;0x3c;0x3d;0x3e;0x3f;0x40;0x41;0x42;
  0x43;0x44;0x45;0x46;0x47;0x48;0x49;0x4a;0x4b;0x4c;0x4d;0x4e;0x4f;0x50;0x51;0x52;0x53;0x54;0x55;0x56;0x57;0x58;0x59;0x5a;0x5b;0x5c;0x5d;0x5e;0x5f;0x60;
  0x61;0x62;0x63;0x64;0x65;0x66;0x67;0x68;0x69;0x6a;0x6b;0x6c;0x6d;0x6e;0x6f;0x70;0x71;0x72;0x73;0x74;0x75;0x76;0x77;0x78;0x79;0x7a;0x7b;0x7c;0x7d;0x7e;
  0x7f;0x221a;0x174;0x175;0x83;0x2573;0x176;0x177;0x87;0x21e6;0x21e8;0x21e9;0x21e7;0x2026;0x2122;0x2030;0x2022;0x2018;0x2019;0x2039;0x203a;0x201c;
  0x201d;0x201e;0x2013;0x2014;0x2212;0x152;0x153;0x2020;0x2021;0xfb01;0xfb02;0xa0;0xa1;0xa2;0xa3;0xa4;0xa5;0xa6;0xa7;0xa8;0xa9;0xaa;0xab;0xac;0xad;0xae;
  0xaf;0xb0;0xb1;0xb2;0xb3;0xb4;0xb5;0xb6;0xb7;0xb8;0xb9;0xba;0xbb;0xbc;0xbd;0xbe;0xbf;0xc0;0xc1;0xc2;0xc3;0xc4;0xc5;0xc6;0xc7;0xc8;0xc9;0xca;0xcb;0xcc;
  0xcd;0xce;0xcf;0xd0;0xd1;0xd2;0xd3;0xd4;0xd5;0xd6;0xd7;0xd8;0xd9;0xda;0xdb;0xdc;0xdd;0xde;0xdf;0xe0;0xe1;0xe2;0xe3;0xe4;0xe5;0xe6;0xe7;0xe8;0xe9;0xea;
  0xeb;0xec;0xed;0xee;0xef;0xf0;0xf1;0xf2;0xf3;0xf4;0xf5;0xf6;0xf7;0xf8;0xf9;0xfa;0xfb;0xfc;0xfd;0xfe;0xff])].
(* tests/data/(no irreversible pairs) *)
Definition irr_riscos1 : pairs := [].
