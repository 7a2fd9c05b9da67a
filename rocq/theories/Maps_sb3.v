(** Charmaps, generated by tools/gencharmap.py from tests/data/*.TXT and tests/data/*.IRREVERSIBLE.TXT of /repo. *)
From Coq Require Import ZArith List.
From Verif Require Import Charmap.
Import ListNotations.
Open Scope Z_scope.
(* tests/data/CP853.TXT *)
Definition map_cp853 : charmap :=
 [([], 0, [0;1;2;3;4;5;6;7;8;9;0xa;0xb;0xc;0xd;0xe;0xf;0x10;0x11;0x12;0x13;0x14;0x15;0x16;0x17;0x18;0x19;0x1a;0x1b;0x1c;0x1d;0x1e;0x1f;0x20;0x21;0x22;0x23;0x24;
  0x25;0x26;0x27;0x28;0x29;0x2a;0x2b;0x2c;0x2d;0x2e;0x2f;0x30;0x31;0x32;0x33;0x34;0x35;0x36;0x37;0x38;0x39;0x3a;0x3b;0x3c;0x3d;0x3e;0x3f;0x40;0x41;0x42;
  0x43;0x44;0x45;0x46;0x47;0x48;0x49;0x4a;0x4b;0x4c;0x4d;0x4e;0x4f;0x50;0x51;0x52;0x53;0x54;0x55;0x56;0x57;0x58;0x59;0x5a;0x5b;0x5c;0x5d;0x5e;0x5f;0x60;
  0x61;0x62;0x63;0x64;0x65;0x66;0x67;0x68;0x69;0x6a;0x6b;0x6c;0x6d;0x6e;0x6f;0x70;0x71;0x72;0x73;0x74;0x75;0x76;0x77;0x78;0x79;0x7a;0x7b;0x7c;0x7d;0x7e;
  0x7f;0xc7;0xfc;0xe9;0xe2;0xe4;0xe0;0x109;0xe7;0xea;0xeb;0xe8;0xef;0xee;0xec;0xc4;0x108;0xc9;0x10b;0x10a;0xf4;0xf6;0xf2;0xfb;0xf9;0x130;0xd6;0xdc;
  0x11d;0xa3;0x11c;0xd7;0x135;0xe1;0xed;0xf3;0xfa;0xf1;0xd1;0x11e;0x11f;0x124;0x125;-1;0xbd;0x134;0x15f;0xab;0xbb;0x2591;0x2592;0x2593;0x2502;0x2524;
  0xc1;0xc2;0xc0;0x15e;0x2563;0x2551;0x2557;0x255d;0x17b;0x17c;0x2510;0x2514;0x2534;0x252c;0x251c;0x2500;0x253c;0x15c;0x15d;0x255a;0x2554;0x2569;0x2566;
  0x2560;0x2550;0x256c;0xa4;-1;-1;0xca;0xcb;0xc8;0x131;0xcd;0xce;0xcf;0x2518;0x250c;0x2588;0x2584;-1;0xcc;0x2580;0xd3;0xdf;0xd4;0xd2;0x120;0x121;0xb5;
  0x126;0x127;0xda;0xdb;0xd9;0x16c;0x16d;-1;0xb4;0xad;-1;0x2113;0x149;0x2d8;0xa7;0xf7;0xb8;0xb0;0xa8;0x2d9;-1;0xb3;0xb2;0x25a0;0xa0])].
(* tests/data/(no irreversible pairs) *)
Definition irr_cp853 : pairs := [].
(* tests/data/CP855.TXT *)
Definition map_cp855 : charmap :=
 [([], 0, [0;1;2;3;4;5;6;7;8;9;0xa;0xb;0xc;0xd;0xe;0xf;0x10;0x11;0x12;0x13;0x14;0x15;0x16;0x17;0x18;0x19;0x1a;0x1b;0x1c;0x1d;0x1e;0x1f;0x20;0x21;0x22;0x23;0x24;
  0x25;0x26;0x27;0x28;0x29;0x2a;0x2b;0x2c;0x2d;0x2e;0x2f;0x30;0x31;0x32;0x33;0x34;0x35;0x36;0x37;0x38;0x39;0x3a;0x3b;0x3c;0x3d;0x3e;0x3f;0x40;0x41;0x42;
  0x43;0x44;0x45;0x46;0x47;0x48;0x49;0x4a;0x4b;0x4c;0x4d;0x4e;0x4f;0x50;0x51;0x52;0x53;0x54;0x55;0x56;0x57;0x58;0x59;0x5a;0x5b;0x5c;0x5d;0x5e;0x5f;0x60;
  0x61;0x62;0x63;0x64;0x65;0x66;0x67;0x68;0x69;0x6a;0x6b;0x6c;0x6d;0x6e;0x6f;0x70;0x71;0x72;0x73;0x74;0x75;0x76;0x77;0x78;0x79;0x7a;0x7b;0x7c;0x7d;0x7e;
  0x7f;0x452;0x402;0x453;0x403;0x451;0x401;0x454;0x404;0x455;0x405;0x456;0x406;0x457;0x407;0x458;0x408;0x459;0x409;0x45a;0x40a;0x45b;0x40b;0x45c;0x40c;
  0x45e;0x40e;0x45f;0x40f;0x44e;0x42e;0x44a;0x42a;0x430;0x410;0x431;0x411;0x446;0x426;0x434;0x414;0x435;0x415;0x444;0x424;0x433;0x413;0xab;0xbb;0x2591;
  0x2592;0x2593;0x2502;0x2524;0x445;0x425;0x438;0x418;0x2563;0x2551;0x2557;0x255d;0x439;0x419;0x2510;0x2514;0x2534;0x252c;0x251c;0x2500;0x253c;0x43a;
  0x41a;0x255a;0x2554;0x2569;0x2566;0x2560;0x2550;0x256c;0xa4;0x43b;0x41b;0x43c;0x41c;0x43d;0x41d;0x43e;0x41e;0x43f;0x2518;0x250c;0x2588;0x2584;0x41f;
  0x44f;0x2580;0x42f;0x440;0x420;0x441;0x421;0x442;0x422;0x443;0x423;0x436;0x416;0x432;0x412;0x44c;0x42c;0x2116;0xad;0x44b;0x42b;0x437;0x417;0x448;
  0x428;0x44d;0x42d;0x449;0x429;0x447;0x427;0xa7;0x25a0;0xa0])].
(* tests/data/(no irreversible pairs) *)
Definition irr_cp855 : pairs := [].
(* tests/data/CP857.TXT *)
Definition map_cp857 : charmap :=
 [([], 0, [0;1;2;3;4;5;6;7;8;9;0xa;0xb;0xc;0xd;0xe;0xf;0x10;0x11;0x12;0x13;0x14;0x15;0x16;0x17;0x18;0x19;0x1a;0x1b;0x1c;0x1d;0x1e;0x1f;0x20;0x21;0x22;0x23;0x24;
  0x25;0x26;0x27;0x28;0x29;0x2a;0x2b;0x2c;0x2d;0x2e;0x2f;0x30;0x31;0x32;0x33;0x34;0x35;0x36;0x37;0x38;0x39;0x3a;0x3b;0x3c;0x3d;0x3e;0x3f;0x40;0x41;0x42;
  0x43;0x44;0x45;0x46;0x47;0x48;0x49;0x4a;0x4b;0x4c;0x4d;0x4e;0x4f;0x50;0x51;0x52;0x53;0x54;0x55;0x56;0x57;0x58;0x59;0x5a;0x5b;0x5c;0x5d;0x5e;0x5f;0x60;
  0x61;0x62;0x63;0x64;0x65;0x66;0x67;0x68;0x69;0x6a;0x6b;0x6c;0x6d;0x6e;0x6f;0x70;0x71;0x72;0x73;0x74;0x75;0x76;0x77;0x78;0x79;0x7a;0x7b;0x7c;0x7d;0x7e;
  0x7f;0xc7;0xfc;0xe9;0xe2;0xe4;0xe0;0xe5;0xe7;0xea;0xeb;0xe8;0xef;0xee;0x131;0xc4;0xc5;0xc9;0xe6;0xc6;0xf4;0xf6;0xf2;0xfb;0xf9;0x130;0xd6;0xdc;0xf8;
  0xa3;0xd8;0x15e;0x15f;0xe1;0xed;0xf3;0xfa;0xf1;0xd1;0x11e;0x11f;0xbf;0xae;0xac;0xbd;0xbc;0xa1;0xab;0xbb;0x2591;0x2592;0x2593;0x2502;0x2524;0xc1;0xc2;
  0xc0;0xa9;0x2563;0x2551;0x2557;0x255d;0xa2;0xa5;0x2510;0x2514;0x2534;0x252c;0x251c;0x2500;0x253c;0xe3;0xc3;0x255a;0x2554;0x2569;0x2566;0x2560;0x2550;
  0x256c;0xa4;0xba;0xaa;0xca;0xcb;0xc8;-1;0xcd;0xce;0xcf;0x2518;0x250c;0x2588;0x2584;0xa6;0xcc;0x2580;0xd3;0xdf;0xd4;0xd2;0xf5;0xd5;0xb5;-1;0xd7;0xda;
  0xdb;0xd9;0xec;0xff;0xaf;0xb4;0xad;0xb1;-1;0xbe;0xb6;0xa7;0xf7;0xb8;0xb0;0xa8;0xb7;0xb9;0xb3;0xb2;0x25a0;0xa0])].
(* tests/data/(no irreversible pairs) *)
Definition irr_cp857 : pairs := [].
(* tests/data/CP858.TXT *)
Definition map_cp858 : charmap :=
 [([], 0, [0;1;2;3;4;5;6;7;8;9;0xa;0xb;0xc;0xd;0xe;0xf;0x10;0x11;0x12;0x13;0x14;0x15;0x16;0x17;0x18;0x19;0x1a;0x1b;0x1c;0x1d;0x1e;0x1f;0x20;0x21;0x22;0x23;0x24;
  0x25;0x26;0x27;0x28;0x29;0x2a;0x2b;0x2c;0x2d;0x2e;0x2f;0x30;0x31;0x32;0x33;0x34;0x35;0x36;0x37;0x38;0x39;0x3a;0x3b;0x3c;0x3d;0x3e;0x3f;0x40;0x41;0x42;
  0x43;0x44;0x45;0x46;0x47;0x48;0x49;0x4a;0x4b;0x4c;0x4d;0x4e;0x4f;0x50;0x51;0x52;0x53;0x54;0x55;0x56;0x57;0x58;0x59;0x5a;0x5b;0x5c;0x5d;0x5e;0x5f;0x60;
  0x61;0x62;0x63;0x64;0x65;0x66;0x67;0x68;0x69;0x6a;0x6b;0x6c;0x6d;0x6e;0x6f;0x70;0x71;0x72;0x73;0x74;0x75;0x76;0x77;0x78;0x79;0x7a;0x7b;0x7c;0x7d;0x7e;
  0x7f;0xc7;0xfc;0xe9;0xe2;0xe4;0xe0;0xe5;0xe7;0xea;0xeb;0xe8;0xef;0xee;0xec;0xc4;0xc5;0xc9;0xe6;0xc6;0xf4;0xf6;0xf2;0xfb;0xf9;0xff;0xd6;0xdc;0xf8;0xa3;
  0xd8;0xd7;0x192;0xe1;0xed;0xf3;0xfa;0xf1;0xd1;0xaa;0xba;0xbf;0xae;0xac;0xbd;0xbc;0xa1;0xab;0xbb;0x2591;0x2592;0x2593;0x2502;0x2524;0xc1;0xc2;0xc0;
  0xa9;0x2563;0x2551;0x2557;0x255d;0xa2;0xa5;0x2510;0x2514;0x2534;0x252c;0x251c;0x2500;0x253c;0xe3;0xc3;0x255a;0x2554;0x2569;0x2566;0x2560;0x2550;
  0x256c;0xa4;0xf0;0xd0;0xca;0xcb;0xc8;0x20ac;0xcd;0xce;0xcf;0x2518;0x250c;0x2588;0x2584;0xa6;0xcc;0x2580;0xd3;0xdf;0xd4;0xd2;0xf5;0xd5;0xb5;0xfe;0xde;
  0xda;0xdb;0xd9;0xfd;0xdd;0xaf;0xb4;0xad;0xb1;0x2017;0xbe;0xb6;0xa7;0xf7;0xb8;0xb0;0xa8;0xb7;0xb9;0xb3;0xb2;0x25a0;0xa0])].
(* tests/data/(no irreversible pairs) *)
Definition irr_cp858 : pairs := [].
(* tests/data/CP860.TXT *)
Definition map_cp860 : charmap :=
 [([], 0, [0;1;2;3;4;5;6;7;8;9;0xa;0xb;0xc;0xd;0xe;0xf;0x10;0x11;0x12;0x13;0x14;0x15;0x16;0x17;0x18;0x19;0x1a;0x1b;0x1c;0x1d;0x1e;0x1f;0x20;0x21;0x22;0x23;0x24;
  0x25;0x26;0x27;0x28;0x29;0x2a;0x2b;0x2c;0x2d;0x2e;0x2f;0x30;0x31;0x32;0x33;0x34;0x35;0x36;0x37;0x38;0x39;0x3a;0x3b;0x3c;0x3d;0x3e;0x3f;0x40;0x41;0x42;
  0x43;0x44;0x45;0x46;0x47;0x48;0x49;0x4a;0x4b;0x4c;0x4d;0x4e;0x4f;0x50;0x51;0x52;0x53;0x54;0x55;0x56;0x57;0x58;0x59;0x5a;0x5b;0x5c;0x5d;0x5e;0x5f;0x60;
  0x61;0x62;0x63;0x64;0x65;0x66;0x67;0x68;0x69;0x6a;0x6b;0x6c;0x6d;0x6e;0x6f;0x70;0x71;0x72;0x73;0x74;0x75;0x76;0x77;0x78;0x79;0x7a;0x7b;0x7c;0x7d;0x7e;
  0x7f;0xc7;0xfc;0xe9;0xe2;0xe3;0xe0;0xc1;0xe7;0xea;0xca;0xe8;0xcd;0xd4;0xec;0xc3;0xc2;0xc9;0xc0;0xc8;0xf4;0xf5;0xf2;0xda;0xf9;0xcc;0xd5;0xdc;0xa2;0xa3;
  0xd9;0x20a7;0xd3;0xe1;0xed;0xf3;0xfa;0xf1;0xd1;0xaa;0xba;0xbf;0xd2;0xac;0xbd;0xbc;0xa1;0xab;0xbb;0x2591;0x2592;0x2593;0x2502;0x2524;0x2561;0x2562;
  0x2556;0x2555;0x2563;0x2551;0x2557;0x255d;0x255c;0x255b;0x2510;0x2514;0x2534;0x252c;0x251c;0x2500;0x253c;0x255e;0x255f;0x255a;0x2554;0x2569;0x2566;
  0x2560;0x2550;0x256c;0x2567;0x2568;0x2564;0x2565;0x2559;0x2558;0x2552;0x2553;0x256b;0x256a;0x2518;0x250c;0x2588;0x2584;0x258c;0x2590;0x2580;0x3b1;
  0xdf;0x393;0x3c0;0x3a3;0x3c3;0xb5;0x3c4;0x3a6;0x398;0x3a9;0x3b4;0x221e;0x3c6;0x3b5;0x2229;0x2261;0xb1;0x2265;0x2264;0x2320;0x2321;0xf7;0x2248;0xb0;
  0x2219;0xb7;0x221a;0x207f;0xb2;0x25a0;0xa0])].
(* tests/data/(no irreversible pairs) *)
Definition irr_cp860 : pairs := [].
(* tests/data/CP861.TXT *)
Definition map_cp861 : charmap :=
 [([], 0, [0;1;2;3;4;5;6;7;8;9;0xa;0xb;0xc;0xd;0xe;0xf;0x10;0x11;0x12;0x13;0x14;0x15;0x16;0x17;0x18;0x19;0x1a;0x1b;0x1c;0x1d;0x1e;0x1f;0x20;0x21;0x22;0x23;0x24;
  0x25;0x26;0x27;0x28;0x29;0x2a;0x2b;0x2c;0x2d;0x2e;0x2f;0x30;0x31;0x32;0x33;0x34;0x35;0x36;0x37;0x38;0x39;0x3a;0x3b;0x3c;0x3d;0x3e;0x3f;0x40;0x41;0x42;
  0x43;0x44;0x45;0x46;0x47;0x48;0x49;0x4a;0x4b;0x4c;0x4d;0x4e;0x4f;0x50;0x51;0x52;0x53;0x54;0x55;0x56;0x57;0x58;0x59;0x5a;0x5b;0x5c;0x5d;0x5e;0x5f;0x60;
  0x61;0x62;0x63;0x64;0x65;0x66;0x67;0x68;0x69;0x6a;0x6b;0x6c;0x6d;0x6e;0x6f;0x70;0x71;0x72;0x73;0x74;0x75;0x76;0x77;0x78;0x79;0x7a;0x7b;0x7c;0x7d;0x7e;
  0x7f;0xc7;0xfc;0xe9;0xe2;0xe4;0xe0;0xe5;0xe7;0xea;0xeb;0xe8;0xd0;0xf0;0xde;0xc4;0xc5;0xc9;0xe6;0xc6;0xf4;0xf6;0xfe;0xfb;0xdd;0xfd;0xd6;0xdc;0xf8;0xa3;
  0xd8;0x20a7;0x192;0xe1;0xed;0xf3;0xfa;0xc1;0xcd;0xd3;0xda;0xbf;0x2310;0xac;0xbd;0xbc;0xa1;0xab;0xbb;0x2591;0x2592;0x2593;0x2502;0x2524;0x2561;0x2562;
  0x2556;0x2555;0x2563;0x2551;0x2557;0x255d;0x255c;0x255b;0x2510;0x2514;0x2534;0x252c;0x251c;0x2500;0x253c;0x255e;0x255f;0x255a;0x2554;0x2569;0x2566;
  0x2560;0x2550;0x256c;0x2567;0x2568;0x2564;0x2565;0x2559;0x2558;0x2552;0x2553;0x256b;0x256a;0x2518;0x250c;0x2588;0x2584;0x258c;0x2590;0x2580;0x3b1;
  0xdf;0x393;0x3c0;0x3a3;0x3c3;0xb5;0x3c4;0x3a6;0x398;0x3a9;0x3b4;0x221e;0x3c6;0x3b5;0x2229;0x2261;0xb1;0x2265;0x2264;0x2320;0x2321;0xf7;0x2248;0xb0;
  0x2219;0xb7;0x221a;0x207f;0xb2;0x25a0;0xa0])].
(* tests/data/(no irreversible pairs) *)
Definition irr_cp861 : pairs := [].
(* tests/data/CP863.TXT *)
Definition map_cp863 : charmap :=
 [([], 0, [0;1;2;3;4;5;6;7;8;9;0xa;0xb;0xc;0xd;0xe;0xf;0x10;0x11;0x12;0x13;0x14;0x15;0x16;0x17;0x18;0x19;0x1a;0x1b;0x1c;0x1d;0x1e;0x1f;0x20;0x21;0x22;0x23;0x24;
  0x25;0x26;0x27;0x28;0x29;0x2a;0x2b;0x2c;0x2d;0x2e;0x2f;0x30;0x31;0x32;0x33;0x34;0x35;0x36;0x37;0x38;0x39;0x3a;0x3b;0x3c;0x3d;0x3e;0x3f;0x40;0x41;0x42;
  0x43;0x44;0x45;0x46;0x47;0x48;0x49;0x4a;0x4b;0x4c;0x4d;0x4e;0x4f;0x50;0x51;0x52;0x53;0x54;0x55;0x56;0x57;0x58;0x59;0x5a;0x5b;0x5c;0x5d;0x5e;0x5f;0x60;
  0x61;0x62;0x63;0x64;0x65;0x66;0x67;0x68;0x69;0x6a;0x6b;0x6c;0x6d;0x6e;0x6f;0x70;0x71;0x72;0x73;0x74;0x75;0x76;0x77;0x78;0x79;0x7a;0x7b;0x7c;0x7d;0x7e;
  0x7f;0xc7;0xfc;0xe9;0xe2;0xc2;0xe0;0xb6;0xe7;0xea;0xeb;0xe8;0xef;0xee;0x2017;0xc0;0xa7;0xc9;0xc8;0xca;0xf4;0xcb;0xcf;0xfb;0xf9;0xa4;0xd4;0xdc;0xa2;
  0xa3;0xd9;0xdb;0x192;0xa6;0xb4;0xf3;0xfa;0xa8;0xb8;0xb3;0xaf;0xce;0x2310;0xac;0xbd;0xbc;0xbe;0xab;0xbb;0x2591;0x2592;0x2593;0x2502;0x2524;0x2561;
  0x2562;0x2556;0x2555;0x2563;0x2551;0x2557;0x255d;0x255c;0x255b;0x2510;0x2514;0x2534;0x252c;0x251c;0x2500;0x253c;0x255e;0x255f;0x255a;0x2554;0x2569;
  0x2566;0x2560;0x2550;0x256c;0x2567;0x2568;0x2564;0x2565;0x2559;0x2558;0x2552;0x2553;0x256b;0x256a;0x2518;0x250c;0x2588;0x2584;0x258c;0x2590;0x2580;
  0x3b1;0xdf;0x393;0x3c0;0x3a3;0x3c3;0xb5;0x3c4;0x3a6;0x398;0x3a9;0x3b4;0x221e;0x3c6;0x3b5;0x2229;0x2261;0xb1;0x2265;0x2264;0x2320;0x2321;0xf7;0x2248;
  0xb0;0x2219;0xb7;0x221a;0x207f;0xb2;0x25a0;0xa0])].
(* tests/data/(no irreversible pairs) *)
Definition irr_cp863 : pairs := [].
(* tests/data/CP864.TXT *)
Definition map_cp864 : charmap :=
 [([], 0, [0;1;2;3;4;5;6;7;8;9;0xa;0xb;0xc;0xd;0xe;0xf;0x10;0x11;0x12;0x13;0x14;0x15;0x16;0x17;0x18;0x19;0x1a;0x1b;0x1c;0x1d;0x1e;0x1f;0x20;0x21;0x22;0x23;0x24;
  0x66a;0x26;0x27;0x28;0x29;0x2a;0x2b;0x2c;0x2d;0x2e;0x2f;0x30;0x31;0x32;0x33;0x34;0x35;0x36;0x37;0x38;0x39;0x3a;0x3b;0x3c;0x3d;0x3e;0x3f;0x40;0x41;
  0x42;0x43;0x44;0x45;0x46;0x47;0x48;0x49;0x4a;0x4b;0x4c;0x4d;0x4e;0x4f;0x50;0x51;0x52;0x53;0x54;0x55;0x56;0x57;0x58;0x59;0x5a;0x5b;0x5c;0x5d;0x5e;0x5f;
  0x60;0x61;0x62;0x63;0x64;0x65;0x66;0x67;0x68;0x69;0x6a;0x6b;0x6c;0x6d;0x6e;0x6f;0x70;0x71;0x72;0x73;0x74;0x75;0x76;0x77;0x78;0x79;0x7a;0x7b;0x7c;0x7d;
  0x7e;0x7f;0xb0;0xb7;0x2219;0x221a;0x2592;0x2500;0x2502;0x253c;0x2524;0x252c;0x251c;0x2534;0x2510;0x250c;0x2514;0x2518;0x3b2;0x221e;0x3c6;0xb1;0xbd;
  0xbc;0x2248;0xab;0xbb;0xfef7;0xfef8;-1;-1;0xfefb;0xfefc;-1;0xa0;0xad;0xfe82;0xa3;0xa4;0xfe84;-1;-1;0xfe8e;0xfe8f;0xfe95;0xfe99;0x60c;0xfe9d;0xfea1;
  0xfea5;0x660;0x661;0x662;0x663;0x664;0x665;0x666;0x667;0x668;0x669;0xfed1;0x61b;0xfeb1;0xfeb5;0xfeb9;0x61f;0xa2;0xfe80;0xfe81;0xfe83;0xfe85;0xfeca;
  0xfe8b;0xfe8d;0xfe91;0xfe93;0xfe97;0xfe9b;0xfe9f;0xfea3;0xfea7;0xfea9;0xfeab;0xfead;0xfeaf;0xfeb3;0xfeb7;0xfebb;0xfebf;0xfec1;0xfec5;0xfecb;0xfecf;
  0xa6;0xac;0xf7;0xd7;0xfec9;0x640;0xfed3;0xfed7;0xfedb;0xfedf;0xfee3;0xfee7;0xfeeb;0xfeed;0xfeef;0xfef3;0xfebd;0xfecc;0xfece;0xfecd;0xfee1;0xfe7d;
  0x651;0xfee5;0xfee9;0xfeec;0xfef0;0xfef2;0xfed0;0xfed5;0xfef5;0xfef6;0xfedd;0xfed9;0xfef1;0x25a0])].
(* tests/data/(no irreversible pairs) *)
Definition irr_cp864 : pairs := [].
(* tests/data/CP865.TXT *)
Definition map_cp865 : charmap :=
 [([], 0, [0;1;2;3;4;5;6;7;8;9;0xa;0xb;0xc;0xd;0xe;0xf;0x10;0x11;0x12;0x13;0x14;0x15;0x16;0x17;0x18;0x19;0x1a;0x1b;0x1c;0x1d;0x1e;0x1f;0x20;0x21;0x22;0x23;0x24;
  0x25;0x26;0x27;0x28;0x29;0x2a;0x2b;0x2c;0x2d;0x2e;0x2f;0x30;0x31;0x32;0x33;0x34;0x35;0x36;0x37;0x38;0x39;0x3a;0x3b;0x3c;0x3d;0x3e;0x3f;0x40;0x41;0x42;
  0x43;0x44;0x45;0x46;0x47;0x48;0x49;0x4a;0x4b;0x4c;0x4d;0x4e;0x4f;0x50;0x51;0x52;0x53;0x54;0x55;0x56;0x57;0x58;0x59;0x5a;0x5b;0x5c;0x5d;0x5e;0x5f;0x60;
  0x61;0x62;0x63;0x64;0x65;0x66;0x67;0x68;0x69;0x6a;0x6b;0x6c;0x6d;0x6e;0x6f;0x70;0x71;0x72;0x73;0x74;0x75;0x76;0x77;0x78;0x79;0x7a;0x7b;0x7c;0x7d;0x7e;
  0x7f;0xc7;0xfc;0xe9;0xe2;0xe4;0xe0;0xe5;0xe7;0xea;0xeb;0xe8;0xef;0xee;0xec;0xc4;0xc5;0xc9;0xe6;0xc6;0xf4;0xf6;0xf2;0xfb;0xf9;0xff;0xd6;0xdc;0xf8;0xa3;
  0xd8;0x20a7;0x192;0xe1;0xed;0xf3;0xfa;0xf1;0xd1;0xaa;0xba;0xbf;0x2310;0xac;0xbd;0xbc;0xa1;0xab;0xa4;0x2591;0x2592;0x2593;0x2502;0x2524;0x2561;0x2562;
  0x2556;0x2555;0x2563;0x2551;0x2557;0x255d;0x255c;0x255b;0x2510;0x2514;0x2534;0x252c;0x251c;0x2500;0x253c;0x255e;0x255f;0x255a;0x2554;0x2569;0x2566;
  0x2560;0x2550;0x256c;0x2567;0x2568;0x2564;0x2565;0x2559;0x2558;0x2552;0x2553;0x256b;0x256a;0x2518;0x250c;0x2588;0x2584;0x258c;0x2590;0x2580;0x3b1;
  0xdf;0x393;0x3c0;0x3a3;0x3c3;0xb5;0x3c4;0x3a6;0x398;0x3a9;0x3b4;0x221e;0x3c6;0x3b5;0x2229;0x2261;0xb1;0x2265;0x2264;0x2320;0x2321;0xf7;0x2248;0xb0;
  0x2219;0xb7;0x221a;0x207f;0xb2;0x25a0;0xa0])].
(* tests/data/(no irreversible pairs) *)
Definition irr_cp865 : pairs := [].
(* tests/data/CP869.TXT *)
Definition map_cp869 : charmap :=
 [([], 0, [0;1;2;3;4;5;6;7;8;9;0xa;0xb;0xc;0xd;0xe;0xf;0x10;0x11;0x12;0x13;0x14;0x15;0x16;0x17;0x18;0x19;0x1a;0x1b;0x1c;0x1d;0x1e;0x1f;0x20;0x21;0x22;0x23;0x24;
  0x25;0x26;0x27;0x28;0x29;0x2a;0x2b;0x2c;0x2d;0x2e;0x2f;0x30;0x31;0x32;0x33;0x34;0x35;0x36;0x37;0x38;0x39;0x3a;0x3b;0x3c;0x3d;0x3e;0x3f;0x40;0x41;0x42;
  0x43;0x44;0x45;0x46;0x47;0x48;0x49;0x4a;0x4b;0x4c;0x4d;0x4e;0x4f;0x50;0x51;0x52;0x53;0x54;0x55;0x56;0x57;0x58;0x59;0x5a;0x5b;0x5c;0x5d;0x5e;0x5f;0x60;
  0x61;0x62;0x63;0x64;0x65;0x66;0x67;0x68;0x69;0x6a;0x6b;0x6c;0x6d;0x6e;0x6f;0x70;0x71;0x72;0x73;0x74;0x75;0x76;0x77;0x78;0x79;0x7a;0x7b;0x7c;0x7d;0x7e;
  0x7f;-1;-1;-1;-1;-1;-1;0x386;-1;0xb7;0xac;0xa6;0x2018;0x2019;0x388;0x2015;0x389;0x38a;0x3aa;0x38c;-1;-1;0x38e;0x3ab;0xa9;0x38f;0xb2;0xb3;0x3ac;0xa3;
  0x3ad;0x3ae;0x3af;0x3ca;0x390;0x3cc;0x3cd;0x391;0x392;0x393;0x394;0x395;0x396;0x397;0xbd;0x398;0x399;0xab;0xbb;0x2591;0x2592;0x2593;0x2502;0x2524;
  0x39a;0x39b;0x39c;0x39d;0x2563;0x2551;0x2557;0x255d;0x39e;0x39f;0x2510;0x2514;0x2534;0x252c;0x251c;0x2500;0x253c;0x3a0;0x3a1;0x255a;0x2554;0x2569;
  0x2566;0x2560;0x2550;0x256c;0x3a3;0x3a4;0x3a5;0x3a6;0x3a7;0x3a8;0x3a9;0x3b1;0x3b2;0x3b3;0x2518;0x250c;0x2588;0x2584;0x3b4;0x3b5;0x2580;0x3b6;0x3b7;
  0x3b8;0x3b9;0x3ba;0x3bb;0x3bc;0x3bd;0x3be;0x3bf;0x3c0;0x3c1;0x3c3;0x3c2;0x3c4;0x384;0xad;0xb1;0x3c5;0x3c6;0x3c7;0xa7;0x3c8;0x385;0xb0;0xa8;0x3c9;
  0x3cb;0x3b0;0x3ce;0x25a0;0xa0])].
(* tests/data/(no irreversible pairs) *)
Definition irr_cp869 : pairs := [].
(* tests/data/CP1125.TXT *)
Definition map_cp1125 : charmap :=
 [([], 0, [0;1;2;3;4;5;6;7;8;9;0xa;0xb;0xc;0xd;0xe;0xf;0x10;0x11;0x12;0x13;0x14;0x15;0x16;0x17;0x18;0x19;0x1a;0x1b;0x1c;0x1d;0x1e;0x1f;0x20;0x21;0x22;0x23;0x24;
  0x25;0x26;0x27;0x28;0x29;0x2a;0x2b;0x2c;0x2d;0x2e;0x2f;0x30;0x31;0x32;0x33;0x34;0x35;0x36;0x37;0x38;0x39;0x3a;0x3b;0x3c;0x3d;0x3e;0x3f;0x40;0x41;0x42;
  0x43;0x44;0x45;0x46;0x47;0x48;0x49;0x4a;0x4b;0x4c;0x4d;0x4e;0x4f;0x50;0x51;0x52;0x53;0x54;0x55;0x56;0x57;0x58;0x59;0x5a;0x5b;0x5c;0x5d;0x5e;0x5f;0x60;
  0x61;0x62;0x63;0x64;0x65;0x66;0x67;0x68;0x69;0x6a;0x6b;0x6c;0x6d;0x6e;0x6f;0x70;0x71;0x72;0x73;0x74;0x75;0x76;0x77;0x78;0x79;0x7a;0x7b;0x7c;0x7d;0x7e;
  0x7f;0x410;0x411;0x412;0x413;0x414;0x415;0x416;0x417;0x418;0x419;0x41a;0x41b;0x41c;0x41d;0x41e;0x41f;0x420;0x421;0x422;0x423;0x424;0x425;0x426;0x427;
  0x428;0x429;0x42a;0x42b;0x42c;0x42d;0x42e;0x42f;0x430;0x431;0x432;0x433;0x434;0x435;0x436;0x437;0x438;0x439;0x43a;0x43b;0x43c;0x43d;0x43e;0x43f;
  0x2591;0x2592;0x2593;0x2502;0x2524;0x2561;0x2562;0x2556;0x2555;0x2563;0x2551;0x2557;0x255d;0x255c;0x255b;0x2510;0x2514;0x2534;0x252c;0x251c;0x2500;
  0x253c;0x255e;0x255f;0x255a;0x2554;0x2569;0x2566;0x2560;0x2550;0x256c;0x2567;0x2568;0x2564;0x2565;0x2559;0x2558;0x2552;0x2553;0x256b;0x256a;0x2518;
  0x250c;0x2588;0x2584;0x258c;0x2590;0x2580;0x440;0x441;0x442;0x443;0x444;0x445;0x446;0x447;0x448;0x449;0x44a;0x44b;0x44c;0x44d;0x44e;0x44f;0x401;0x451;
  0x490;0x491;0x404;0x454;0x406;0x456;0x407;0x457;0xb7;0x221a;0x2116;0xa4;0x25a0;0xa0])].
(* tests/data/(no irreversible pairs) *)
Definition irr_cp1125 : pairs := [].
(* tests/data/IBM-037.TXT *)
Definition map_ebcdic037 : charmap :=
 [([], 0, [0;1;2;3;0x9c;9;0x86;0x7f;0x97;0x8d;0x8e;0xb;0xc;0xd;0xe;0xf;0x10;0x11;0x12;0x13;0x9d;0x85;8;0x87;0x18;0x19;0x92;0x8f;0x1c;0x1d;0x1e;0x1f;0x80;0x81;
  0x82;0x83;0x84;0xa;0x17;0x1b;0x88;0x89;0x8a;0x8b;0x8c;5;6;7;0x90;0x91;0x16;0x93;0x94;0x95;0x96;4;0x98;0x99;0x9a;0x9b;0x14;0x15;0x9e;0x1a;0x20;0xa0;
  0xe2;0xe4;0xe0;0xe1;0xe3;0xe5;0xe7;0xf1;0xa2;0x2e;0x3c;0x28;0x2b;0x7c;0x26;0xe9;0xea;0xeb;0xe8;0xed;0xee;0xef;0xec;0xdf;0x21;0x24;0x2a;0x29;0x3b;0xac;
  0x2d;0x2f;0xc2;0xc4;0xc0;0xc1;0xc3;0xc5;0xc7;0xd1;0xa6;0x2c;0x25;0x5f;0x3e;0x3f;0xf8;0xc9;0xca;0xcb;0xc8;0xcd;0xce;0xcf;0xcc;0x60;0x3a;0x23;0x40;0x27;
  0x3d;0x22;0xd8;0x61;0x62;0x63;0x64;0x65;0x66;0x67;0x68;0x69;0xab;0xbb;0xf0;0xfd;0xfe;0xb1;0xb0;0x6a;0x6b;0x6c;0x6d;0x6e;0x6f;0x70;0x71;0x72;0xaa;0xba;
  0xe6;0xb8;0xc6;0xa4;0xb5;0x7e;0x73;0x74;0x75;0x76;0x77;0x78;0x79;0x7a;0xa1;0xbf;0xd0;0xdd;0xde;0xae;0x5e;0xa3;0xa5;0xb7;0xa9;0xa7;0xb6;0xbc;0xbd;0xbe;
  0x5b;0x5d;0xaf;0xa8;0xb4;0xd7;0x7b;0x41;0x42;0x43;0x44;0x45;0x46;0x47;0x48;0x49;0xad;0xf4;0xf6;0xf2;0xf3;0xf5;0x7d;0x4a;0x4b;0x4c;0x4d;0x4e;0x4f;0x50;
  0x51;0x52;0xb9;0xfb;0xfc;0xf9;0xfa;0xff;0x5c;0xf7;0x53;0x54;0x55;0x56;0x57;0x58;0x59;0x5a;0xb2;0xd4;0xd6;0xd2;0xd3;0xd5;0x30;0x31;0x32;0x33;0x34;0x35;
  0x36;0x37;0x38;0x39;0xb3;0xdb;0xdc;0xd9;0xda;0x9f])].
(* tests/data/(no irreversible pairs) *)
Definition irr_ebcdic037 : pairs := [].
(* tests/data/IBM-273.TXT *)
Definition map_ebcdic273 : charmap :=
 [([], 0, [0;1;2;3;0x9c;9;0x86;0x7f;0x97;0x8d;0x8e;0xb;0xc;0xd;0xe;0xf;0x10;0x11;0x12;0x13;0x9d;0x85;8;0x87;0x18;0x19;0x92;0x8f;0x1c;0x1d;0x1e;0x1f;0x80;0x81;
  0x82;0x83;0x84;0xa;0x17;0x1b;0x88;0x89;0x8a;0x8b;0x8c;5;6;7;0x90;0x91;0x16;0x93;0x94;0x95;0x96;4;0x98;0x99;0x9a;0x9b;0x14;0x15;0x9e;0x1a;0x20;0xa0;
  0xe2;0x7b;0xe0;0xe1;0xe3;0xe5;0xe7;0xf1;0xc4;0x2e;0x3c;0x28;0x2b;0x21;0x26;0xe9;0xea;0xeb;0xe8;0xed;0xee;0xef;0xec;0x7e;0xdc;0x24;0x2a;0x29;0x3b;0x5e;
  0x2d;0x2f;0xc2;0x5b;0xc0;0xc1;0xc3;0xc5;0xc7;0xd1;0xf6;0x2c;0x25;0x5f;0x3e;0x3f;0xf8;0xc9;0xca;0xcb;0xc8;0xcd;0xce;0xcf;0xcc;0x60;0x3a;0x23;0xa7;0x27;
  0x3d;0x22;0xd8;0x61;0x62;0x63;0x64;0x65;0x66;0x67;0x68;0x69;0xab;0xbb;0xf0;0xfd;0xfe;0xb1;0xb0;0x6a;0x6b;0x6c;0x6d;0x6e;0x6f;0x70;0x71;0x72;0xaa;0xba;
  0xe6;0xb8;0xc6;0xa4;0xb5;0xdf;0x73;0x74;0x75;0x76;0x77;0x78;0x79;0x7a;0xa1;0xbf;0xd0;0xdd;0xde;0xae;0xa2;0xa3;0xa5;0xb7;0xa9;0x40;0xb6;0xbc;0xbd;0xbe;
  0xac;0x7c;0xaf;0xa8;0xb4;0xd7;0xe4;0x41;0x42;0x43;0x44;0x45;0x46;0x47;0x48;0x49;0xad;0xf4;0xa6;0xf2;0xf3;0xf5;0xfc;0x4a;0x4b;0x4c;0x4d;0x4e;0x4f;0x50;
  0x51;0x52;0xb9;0xfb;0x7d;0xf9;0xfa;0xff;0xd6;0xf7;0x53;0x54;0x55;0x56;0x57;0x58;0x59;0x5a;0xb2;0xd4;0x5c;0xd2;0xd3;0xd5;0x30;0x31;0x32;0x33;0x34;0x35;
  0x36;0x37;0x38;0x39;0xb3;0xdb;0x5d;0xd9;0xda;0x9f])].
(* tests/data/(no irreversible pairs) *)
Definition irr_ebcdic273 : pairs := [].
(* tests/data/IBM-277.TXT *)
Definition map_ebcdic277 : charmap :=
 [([], 0, [0;1;2;3;0x9c;9;0x86;0x7f;0x97;0x8d;0x8e;0xb;0xc;0xd;0xe;0xf;0x10;0x11;0x12;0x13;0x9d;0x85;8;0x87;0x18;0x19;0x92;0x8f;0x1c;0x1d;0x1e;0x1f;0x80;0x81;
  0x82;0x83;0x84;0xa;0x17;0x1b;0x88;0x89;0x8a;0x8b;0x8c;5;6;7;0x90;0x91;0x16;0x93;0x94;0x95;0x96;4;0x98;0x99;0x9a;0x9b;0x14;0x15;0x9e;0x1a;0x20;0xa0;
  0xe2;0xe4;0xe0;0xe1;0xe3;0x7d;0xe7;0xf1;0x23;0x2e;0x3c;0x28;0x2b;0x21;0x26;0xe9;0xea;0xeb;0xe8;0xed;0xee;0xef;0xec;0xdf;0xa4;0xc5;0x2a;0x29;0x3b;0x5e;
  0x2d;0x2f;0xc2;0xc4;0xc0;0xc1;0xc3;0x24;0xc7;0xd1;0xf8;0x2c;0x25;0x5f;0x3e;0x3f;0xa6;0xc9;0xca;0xcb;0xc8;0xcd;0xce;0xcf;0xcc;0x60;0x3a;0xc6;0xd8;0x27;
  0x3d;0x22;0x40;0x61;0x62;0x63;0x64;0x65;0x66;0x67;0x68;0x69;0xab;0xbb;0xf0;0xfd;0xfe;0xb1;0xb0;0x6a;0x6b;0x6c;0x6d;0x6e;0x6f;0x70;0x71;0x72;0xaa;0xba;
  0x7b;0xb8;0x5b;0x5d;0xb5;0xfc;0x73;0x74;0x75;0x76;0x77;0x78;0x79;0x7a;0xa1;0xbf;0xd0;0xdd;0xde;0xae;0xa2;0xa3;0xa5;0xb7;0xa9;0xa7;0xb6;0xbc;0xbd;0xbe;
  0xac;0x7c;0xaf;0xa8;0xb4;0xd7;0xe6;0x41;0x42;0x43;0x44;0x45;0x46;0x47;0x48;0x49;0xad;0xf4;0xf6;0xf2;0xf3;0xf5;0xe5;0x4a;0x4b;0x4c;0x4d;0x4e;0x4f;0x50;
  0x51;0x52;0xb9;0xfb;0x7e;0xf9;0xfa;0xff;0x5c;0xf7;0x53;0x54;0x55;0x56;0x57;0x58;0x59;0x5a;0xb2;0xd4;0xd6;0xd2;0xd3;0xd5;0x30;0x31;0x32;0x33;0x34;0x35;
  0x36;0x37;0x38;0x39;0xb3;0xdb;0xdc;0xd9;0xda;0x9f])].
(* tests/data/(no irreversible pairs) *)
Definition irr_ebcdic277 : pairs := [].
(* tests/data/IBM-278.TXT *)
Definition map_ebcdic278 : charmap :=
 [([], 0, [0;1;2;3;0x9c;9;0x86;0x7f;0x97;0x8d;0x8e;0xb;0xc;0xd;0xe;0xf;0x10;0x11;0x12;0x13;0x9d;0x85;8;0x87;0x18;0x19;0x92;0x8f;0x1c;0x1d;0x1e;0x1f;0x80;0x81;
  0x82;0x83;0x84;0xa;0x17;0x1b;0x88;0x89;0x8a;0x8b;0x8c;5;6;7;0x90;0x91;0x16;0x93;0x94;0x95;0x96;4;0x98;0x99;0x9a;0x9b;0x14;0x15;0x9e;0x1a;0x20;0xa0;
  0xe2;0x7b;0xe0;0xe1;0xe3;0x7d;0xe7;0xf1;0xa7;0x2e;0x3c;0x28;0x2b;0x21;0x26;0x60;0xea;0xeb;0xe8;0xed;0xee;0xef;0xec;0xdf;0xa4;0xc5;0x2a;0x29;0x3b;0x5e;
  0x2d;0x2f;0xc2;0x23;0xc0;0xc1;0xc3;0x24;0xc7;0xd1;0xf6;0x2c;0x25;0x5f;0x3e;0x3f;0xf8;0x5c;0xca;0xcb;0xc8;0xcd;0xce;0xcf;0xcc;0xe9;0x3a;0xc4;0xd6;0x27;
  0x3d;0x22;0xd8;0x61;0x62;0x63;0x64;0x65;0x66;0x67;0x68;0x69;0xab;0xbb;0xf0;0xfd;0xfe;0xb1;0xb0;0x6a;0x6b;0x6c;0x6d;0x6e;0x6f;0x70;0x71;0x72;0xaa;0xba;
  0xe6;0xb8;0xc6;0x5d;0xb5;0xfc;0x73;0x74;0x75;0x76;0x77;0x78;0x79;0x7a;0xa1;0xbf;0xd0;0xdd;0xde;0xae;0xa2;0xa3;0xa5;0xb7;0xa9;0x5b;0xb6;0xbc;0xbd;0xbe;
  0xac;0x7c;0xaf;0xa8;0xb4;0xd7;0xe4;0x41;0x42;0x43;0x44;0x45;0x46;0x47;0x48;0x49;0xad;0xf4;0xa6;0xf2;0xf3;0xf5;0xe5;0x4a;0x4b;0x4c;0x4d;0x4e;0x4f;0x50;
  0x51;0x52;0xb9;0xfb;0x7e;0xf9;0xfa;0xff;0xc9;0xf7;0x53;0x54;0x55;0x56;0x57;0x58;0x59;0x5a;0xb2;0xd4;0x40;0xd2;0xd3;0xd5;0x30;0x31;0x32;0x33;0x34;0x35;
  0x36;0x37;0x38;0x39;0xb3;0xdb;0xdc;0xd9;0xda;0x9f])].
(* tests/data/(no irreversible pairs) *)
Definition irr_ebcdic278 : pairs := [].
(* tests/data/IBM-280.TXT *)
Definition map_ebcdic280 : charmap :=
 [([], 0, [0;1;2;3;0x9c;9;0x86;0x7f;0x97;0x8d;0x8e;0xb;0xc;0xd;0xe;0xf;0x10;0x11;0x12;0x13;0x9d;0x85;8;0x87;0x18;0x19;0x92;0x8f;0x1c;0x1d;0x1e;0x1f;0x80;0x81;
  0x82;0x83;0x84;0xa;0x17;0x1b;0x88;0x89;0x8a;0x8b;0x8c;5;6;7;0x90;0x91;0x16;0x93;0x94;0x95;0x96;4;0x98;0x99;0x9a;0x9b;0x14;0x15;0x9e;0x1a;0x20;0xa0;
  0xe2;0xe4;0x7b;0xe1;0xe3;0xe5;0x5c;0xf1;0xb0;0x2e;0x3c;0x28;0x2b;0x21;0x26;0x5d;0xea;0xeb;0x7d;0xed;0xee;0xef;0x7e;0xdf;0xe9;0x24;0x2a;0x29;0x3b;0x5e;
  0x2d;0x2f;0xc2;0xc4;0xc0;0xc1;0xc3;0xc5;0xc7;0xd1;0xf2;0x2c;0x25;0x5f;0x3e;0x3f;0xf8;0xc9;0xca;0xcb;0xc8;0xcd;0xce;0xcf;0xcc;0xf9;0x3a;0xa3;0xa7;0x27;
  0x3d;0x22;0xd8;0x61;0x62;0x63;0x64;0x65;0x66;0x67;0x68;0x69;0xab;0xbb;0xf0;0xfd;0xfe;0xb1;0x5b;0x6a;0x6b;0x6c;0x6d;0x6e;0x6f;0x70;0x71;0x72;0xaa;0xba;
  0xe6;0xb8;0xc6;0xa4;0xb5;0xec;0x73;0x74;0x75;0x76;0x77;0x78;0x79;0x7a;0xa1;0xbf;0xd0;0xdd;0xde;0xae;0xa2;0x23;0xa5;0xb7;0xa9;0x40;0xb6;0xbc;0xbd;0xbe;
  0xac;0x7c;0xaf;0xa8;0xb4;0xd7;0xe0;0x41;0x42;0x43;0x44;0x45;0x46;0x47;0x48;0x49;0xad;0xf4;0xf6;0xa6;0xf3;0xf5;0xe8;0x4a;0x4b;0x4c;0x4d;0x4e;0x4f;0x50;
  0x51;0x52;0xb9;0xfb;0xfc;0x60;0xfa;0xff;0xe7;0xf7;0x53;0x54;0x55;0x56;0x57;0x58;0x59;0x5a;0xb2;0xd4;0xd6;0xd2;0xd3;0xd5;0x30;0x31;0x32;0x33;0x34;0x35;
  0x36;0x37;0x38;0x39;0xb3;0xdb;0xdc;0xd9;0xda;0x9f])].
(* tests/data/(no irreversible pairs) *)
Definition irr_ebcdic280 : pairs := [].
(* tests/data/IBM-282.TXT *)
Definition map_ebcdic282 : charmap :=
 [([], 0, [0;1;2;3;0x9c;9;0x86;0x7f;0x97;0x8d;0x8e;0xb;0xc;0xd;0xe;0xf;0x10;0x11;0x12;0x13;0x9d;0x85;8;0x87;0x18;0x19;0x92;0x8f;0x1c;0x1d;0x1e;0x1f;0x80;0x81;
  0x82;0x83;0x84;0xa;0x17;0x1b;0x88;0x89;0x8a;0x8b;0x8c;5;6;7;0x90;0x91;0x16;0x93;0x94;0x95;0x96;4;0x98;0x99;0x9a;0x9b;0x14;0x15;0x9e;0x1a;0x20;0xa0;
  0xe2;0xe4;0xe0;0xe1;0x7b;0xe5;0x7e;0xf1;0x5b;0x2e;0x3c;0x28;0x2b;0x21;0x26;0xe9;0xea;0xeb;0xe8;0xed;0xee;0xef;0xec;0xdf;0x5d;0x24;0x2a;0x29;0x3b;0x5e;
  0x2d;0x2f;0xc2;0xc4;0xc0;0xc1;0x23;0xc5;0x5c;0xd1;0xf5;0x2c;0x25;0x5f;0x3e;0x3f;0xf8;0xc9;0xca;0xcb;0xc8;0xcd;0xce;0xcf;0xcc;0x60;0x3a;0xc3;0xd5;0x27;
  0x3d;0x22;0xd8;0x61;0x62;0x63;0x64;0x65;0x66;0x67;0x68;0x69;0xab;0xbb;0xf0;0xfd;0xfe;0xb1;0xb0;0x6a;0x6b;0x6c;0x6d;0x6e;0x6f;0x70;0x71;0x72;0xaa;0xba;
  0xe6;0xb8;0xc6;0xa4;0xb5;0xe7;0x73;0x74;0x75;0x76;0x77;0x78;0x79;0x7a;0xa1;0xbf;0xd0;0xdd;0xde;0xae;0xa2;0xa3;0xa5;0xb7;0xa9;0xa7;0xb6;0xbc;0xbd;0xbe;
  0xac;0x7c;0xaf;0xa8;0x7d;0xd7;0xe3;0x41;0x42;0x43;0x44;0x45;0x46;0x47;0x48;0x49;0xad;0xf4;0xf6;0xf2;0xf3;0xa6;0xb4;0x4a;0x4b;0x4c;0x4d;0x4e;0x4f;0x50;
  0x51;0x52;0xb9;0xfb;0xfc;0xf9;0xfa;0xff;0xc7;0xf7;0x53;0x54;0x55;0x56;0x57;0x58;0x59;0x5a;0xb2;0xd4;0xd6;0xd2;0xd3;0x40;0x30;0x31;0x32;0x33;0x34;0x35;
  0x36;0x37;0x38;0x39;0xb3;0xdb;0xdc;0xd9;0xda;0x9f])].
(* tests/data/(no irreversible pairs) *)
Definition irr_ebcdic282 : pairs := [].
(* tests/data/IBM-284.TXT *)
Definition map_ebcdic284 : charmap :=
 [([], 0, [0;1;2;3;0x9c;9;0x86;0x7f;0x97;0x8d;0x8e;0xb;0xc;0xd;0xe;0xf;0x10;0x11;0x12;0x13;0x9d;0x85;8;0x87;0x18;0x19;0x92;0x8f;0x1c;0x1d;0x1e;0x1f;0x80;0x81;
  0x82;0x83;0x84;0xa;0x17;0x1b;0x88;0x89;0x8a;0x8b;0x8c;5;6;7;0x90;0x91;0x16;0x93;0x94;0x95;0x96;4;0x98;0x99;0x9a;0x9b;0x14;0x15;0x9e;0x1a;0x20;0xa0;
  0xe2;0xe4;0xe0;0xe1;0xe3;0xe5;0xe7;0xa6;0x5b;0x2e;0x3c;0x28;0x2b;0x7c;0x26;0xe9;0xea;0xeb;0xe8;0xed;0xee;0xef;0xec;0xdf;0x5d;0x24;0x2a;0x29;0x3b;0xac;
  0x2d;0x2f;0xc2;0xc4;0xc0;0xc1;0xc3;0xc5;0xc7;0x23;0xf1;0x2c;0x25;0x5f;0x3e;0x3f;0xf8;0xc9;0xca;0xcb;0xc8;0xcd;0xce;0xcf;0xcc;0x60;0x3a;0xd1;0x40;0x27;
  0x3d;0x22;0xd8;0x61;0x62;0x63;0x64;0x65;0x66;0x67;0x68;0x69;0xab;0xbb;0xf0;0xfd;0xfe;0xb1;0xb0;0x6a;0x6b;0x6c;0x6d;0x6e;0x6f;0x70;0x71;0x72;0xaa;0xba;
  0xe6;0xb8;0xc6;0xa4;0xb5;0xa8;0x73;0x74;0x75;0x76;0x77;0x78;0x79;0x7a;0xa1;0xbf;0xd0;0xdd;0xde;0xae;0xa2;0xa3;0xa5;0xb7;0xa9;0xa7;0xb6;0xbc;0xbd;0xbe;
  0x5e;0x21;0xaf;0x7e;0xb4;0xd7;0x7b;0x41;0x42;0x43;0x44;0x45;0x46;0x47;0x48;0x49;0xad;0xf4;0xf6;0xf2;0xf3;0xf5;0x7d;0x4a;0x4b;0x4c;0x4d;0x4e;0x4f;0x50;
  0x51;0x52;0xb9;0xfb;0xfc;0xf9;0xfa;0xff;0x5c;0xf7;0x53;0x54;0x55;0x56;0x57;0x58;0x59;0x5a;0xb2;0xd4;0xd6;0xd2;0xd3;0xd5;0x30;0x31;0x32;0x33;0x34;0x35;
  0x36;0x37;0x38;0x39;0xb3;0xdb;0xdc;0xd9;0xda;0x9f])].
(* tests/data/(no irreversible pairs) *)
Definition irr_ebcdic284 : pairs := [].
(* tests/data/IBM-285.TXT *)
Definition map_ebcdic285 : charmap :=
 [([], 0, [0;1;2;3;0x9c;9;0x86;0x7f;0x97;0x8d;0x8e;0xb;0xc;0xd;0xe;0xf;0x10;0x11;0x12;0x13;0x9d;0x85;8;0x87;0x18;0x19;0x92;0x8f;0x1c;0x1d;0x1e;0x1f;0x80;0x81;
  0x82;0x83;0x84;0xa;0x17;0x1b;0x88;0x89;0x8a;0x8b;0x8c;5;6;7;0x90;0x91;0x16;0x93;0x94;0x95;0x96;4;0x98;0x99;0x9a;0x9b;0x14;0x15;0x9e;0x1a;0x20;0xa0;
  0xe2;0xe4;0xe0;0xe1;0xe3;0xe5;0xe7;0xf1;0x24;0x2e;0x3c;0x28;0x2b;0x7c;0x26;0xe9;0xea;0xeb;0xe8;0xed;0xee;0xef;0xec;0xdf;0x21;0xa3;0x2a;0x29;0x3b;0xac;
  0x2d;0x2f;0xc2;0xc4;0xc0;0xc1;0xc3;0xc5;0xc7;0xd1;0xa6;0x2c;0x25;0x5f;0x3e;0x3f;0xf8;0xc9;0xca;0xcb;0xc8;0xcd;0xce;0xcf;0xcc;0x60;0x3a;0x23;0x40;0x27;
  0x3d;0x22;0xd8;0x61;0x62;0x63;0x64;0x65;0x66;0x67;0x68;0x69;0xab;0xbb;0xf0;0xfd;0xfe;0xb1;0xb0;0x6a;0x6b;0x6c;0x6d;0x6e;0x6f;0x70;0x71;0x72;0xaa;0xba;
  0xe6;0xb8;0xc6;0xa4;0xb5;0xaf;0x73;0x74;0x75;0x76;0x77;0x78;0x79;0x7a;0xa1;0xbf;0xd0;0xdd;0xde;0xae;0xa2;0x5b;0xa5;0xb7;0xa9;0xa7;0xb6;0xbc;0xbd;0xbe;
  0x5e;0x5d;0x7e;0xa8;0xb4;0xd7;0x7b;0x41;0x42;0x43;0x44;0x45;0x46;0x47;0x48;0x49;0xad;0xf4;0xf6;0xf2;0xf3;0xf5;0x7d;0x4a;0x4b;0x4c;0x4d;0x4e;0x4f;0x50;
  0x51;0x52;0xb9;0xfb;0xfc;0xf9;0xfa;0xff;0x5c;0xf7;0x53;0x54;0x55;0x56;0x57;0x58;0x59;0x5a;0xb2;0xd4;0xd6;0xd2;0xd3;0xd5;0x30;0x31;0x32;0x33;0x34;0x35;
  0x36;0x37;0x38;0x39;0xb3;0xdb;0xdc;0xd9;0xda;0x9f])].
(* tests/data/(no irreversible pairs) *)
Definition irr_ebcdic285 : pairs := [].
(* tests/data/IBM-297.TXT *)
Definition map_ebcdic297 : charmap :=
 [([], 0, [0;1;2;3;0x9c;9;0x86;0x7f;0x97;0x8d;0x8e;0xb;0xc;0xd;0xe;0xf;0x10;0x11;0x12;0x13;0x9d;0x85;8;0x87;0x18;0x19;0x92;0x8f;0x1c;0x1d;0x1e;0x1f;0x80;0x81;
  0x82;0x83;0x84;0xa;0x17;0x1b;0x88;0x89;0x8a;0x8b;0x8c;5;6;7;0x90;0x91;0x16;0x93;0x94;0x95;0x96;4;0x98;0x99;0x9a;0x9b;0x14;0x15;0x9e;0x1a;0x20;0xa0;
  0xe2;0xe4;0x40;0xe1;0xe3;0xe5;0x5c;0xf1;0xb0;0x2e;0x3c;0x28;0x2b;0x21;0x26;0x7b;0xea;0xeb;0x7d;0xed;0xee;0xef;0xec;0xdf;0xa7;0x24;0x2a;0x29;0x3b;0x5e;
  0x2d;0x2f;0xc2;0xc4;0xc0;0xc1;0xc3;0xc5;0xc7;0xd1;0xf9;0x2c;0x25;0x5f;0x3e;0x3f;0xf8;0xc9;0xca;0xcb;0xc8;0xcd;0xce;0xcf;0xcc;0xb5;0x3a;0xa3;0xe0;0x27;
  0x3d;0x22;0xd8;0x61;0x62;0x63;0x64;0x65;0x66;0x67;0x68;0x69;0xab;0xbb;0xf0;0xfd;0xfe;0xb1;0x5b;0x6a;0x6b;0x6c;0x6d;0x6e;0x6f;0x70;0x71;0x72;0xaa;0xba;
  0xe6;0xb8;0xc6;0xa4;0x60;0xa8;0x73;0x74;0x75;0x76;0x77;0x78;0x79;0x7a;0xa1;0xbf;0xd0;0xdd;0xde;0xae;0xa2;0x23;0xa5;0xb7;0xa9;0x5d;0xb6;0xbc;0xbd;0xbe;
  0xac;0x7c;0xaf;0x7e;0xb4;0xd7;0xe9;0x41;0x42;0x43;0x44;0x45;0x46;0x47;0x48;0x49;0xad;0xf4;0xf6;0xf2;0xf3;0xf5;0xe8;0x4a;0x4b;0x4c;0x4d;0x4e;0x4f;0x50;
  0x51;0x52;0xb9;0xfb;0xfc;0xa6;0xfa;0xff;0xe7;0xf7;0x53;0x54;0x55;0x56;0x57;0x58;0x59;0x5a;0xb2;0xd4;0xd6;0xd2;0xd3;0xd5;0x30;0x31;0x32;0x33;0x34;0x35;
  0x36;0x37;0x38;0x39;0xb3;0xdb;0xdc;0xd9;0xda;0x9f])].
(* tests/data/(no irreversible pairs) *)
Definition irr_ebcdic297 : pairs := [].
(* tests/data/IBM-423.TXT *)
Definition map_ebcdic423 : charmap :=
 [([], 0, [0;1;2;3;0x9c;9;0x86;0x7f;0x97;0x8d;0x8e;0xb;0xc;0xd;0xe;0xf;0x10;0x11;0x12;0x13;0x9d;0x85;8;0x87;0x18;0x19;0x92;0x8f;0x1c;0x1d;0x1e;0x1f;0x80;0x81;
  0x82;0x83;0x84;0xa;0x17;0x1b;0x88;0x89;0x8a;0x8b;0x8c;5;6;7;0x90;0x91;0x16;0x93;0x94;0x95;0x96;4;0x98;0x99;0x9a;0x9b;0x14;0x15;0x9e;0x1a;0x20;0x391;
  0x392;0x393;0x394;0x395;0x396;0x397;0x398;0x399;0x5b;0x2e;0x3c;0x28;0x2b;0x21;0x26;0x39a;0x39b;0x39c;0x39d;0x39e;0x39f;0x3a0;0x3a1;0x3a3;0x5d;0x24;
  0x2a;0x29;0x3b;0x5e;0x2d;0x2f;0x3a4;0x3a5;0x3a6;0x3a7;0x3a8;0x3a9;-1;-1;0x7c;0x2c;0x25;0x5f;0x3e;0x3f;-1;0x386;0x388;0x389;0xa0;0x38a;0x38c;0x38e;
  0x38f;0x60;0x3a;0xa3;0xa7;0x27;0x3d;0x22;0xc4;0x61;0x62;0x63;0x64;0x65;0x66;0x67;0x68;0x69;0x3b1;0x3b2;0x3b3;0x3b4;0x3b5;0x3b6;0xd6;0x6a;0x6b;0x6c;
  0x6d;0x6e;0x6f;0x70;0x71;0x72;0x3b7;0x3b8;0x3b9;0x3ba;0x3bb;0x3bc;0xdc;0xa8;0x73;0x74;0x75;0x76;0x77;0x78;0x79;0x7a;0x3bd;0x3be;0x3bf;0x3c0;0x3c1;
  0x3c3;-1;0x3ac;0x3ad;0x3ae;0x3ca;0x3af;0x3cc;0x3cd;0x3cb;0x3ce;0x3c2;0x3c4;0x3c5;0x3c6;0x3c7;0x3c8;0xb8;0x41;0x42;0x43;0x44;0x45;0x46;0x47;0x48;0x49;
  0xad;0x3c9;0xe2;0xe0;0xe4;0xea;0xb4;0x4a;0x4b;0x4c;0x4d;0x4e;0x4f;0x50;0x51;0x52;0xb1;0xe9;0xe8;0xeb;0xee;0xef;0xb0;-1;0x53;0x54;0x55;0x56;0x57;0x58;
  0x59;0x5a;0xbd;0xf6;0xf4;0xfb;0xf9;0xfc;0x30;0x31;0x32;0x33;0x34;0x35;0x36;0x37;0x38;0x39;0xff;0xe7;0xc7;-1;-1;0x9f])].
(* tests/data/(no irreversible pairs) *)
Definition irr_ebcdic423 : pairs := [].
(* tests/data/IBM-424.TXT *)
Definition map_ebcdic424 : charmap :=
 [([], 0, [0;1;2;3;0x9c;9;0x86;0x7f;0x97;0x8d;0x8e;0xb;0xc;0xd;0xe;0xf;0x10;0x11;0x12;0x13;0x9d;0x85;8;0x87;0x18;0x19;0x92;0x8f;0x1c;0x1d;0x1e;0x1f;0x80;0x81;
  0x82;0x83;0x84;0xa;0x17;0x1b;0x88;0x89;0x8a;0x8b;0x8c;5;6;7;0x90;0x91;0x16;0x93;0x94;0x95;0x96;4;0x98;0x99;0x9a;0x9b;0x14;0x15;0x9e;0x1a;0x20;0x5d0;
  0x5d1;0x5d2;0x5d3;0x5d4;0x5d5;0x5d6;0x5d7;0x5d8;0xa2;0x2e;0x3c;0x28;0x2b;0x7c;0x26;0x5d9;0x5da;0x5db;0x5dc;0x5dd;0x5de;0x5df;0x5e0;0x5e1;0x21;0x24;
  0x2a;0x29;0x3b;0xac;0x2d;0x2f;0x5e2;0x5e3;0x5e4;0x5e5;0x5e6;0x5e7;0x5e8;0x5e9;0xa6;0x2c;0x25;0x5f;0x3e;0x3f;-1;0x5ea;-1;-1;0xa0;-1;-1;-1;0x2017;0x60;
  0x3a;0x23;0x40;0x27;0x3d;0x22;-1;0x61;0x62;0x63;0x64;0x65;0x66;0x67;0x68;0x69;0xab;0xbb;-1;-1;-1;0xb1;0xb0;0x6a;0x6b;0x6c;0x6d;0x6e;0x6f;0x70;0x71;
  0x72;-1;-1;-1;0xb8;-1;0xa4;0xb5;0x7e;0x73;0x74;0x75;0x76;0x77;0x78;0x79;0x7a;-1;-1;-1;-1;-1;0xae;0x5e;0xa3;0xa5;0x2022;0xa9;0xa7;0xb6;0xbc;0xbd;0xbe;
  0x5b;0x5d;0x203e;0xa8;0xb4;0xd7;0x7b;0x41;0x42;0x43;0x44;0x45;0x46;0x47;0x48;0x49;0xad;-1;-1;-1;-1;-1;0x7d;0x4a;0x4b;0x4c;0x4d;0x4e;0x4f;0x50;0x51;
  0x52;0xb9;-1;-1;-1;-1;-1;0x5c;0xf7;0x53;0x54;0x55;0x56;0x57;0x58;0x59;0x5a;0xb2;-1;-1;-1;-1;-1;0x30;0x31;0x32;0x33;0x34;0x35;0x36;0x37;0x38;0x39;0xb3;
  -1;-1;-1;-1;0x9f])].
(* tests/data/(no irreversible pairs) *)
Definition irr_ebcdic424 : pairs := [].
(* tests/data/IBM-425.TXT *)
Definition map_ebcdic425 : charmap :=
 [([], 0, [0;1;2;3;0x9c;9;0x86;0x7f;0x97;0x8d;0x8e;0xb;0xc;0xd;0xe;0xf;0x10;0x11;0x12;0x13;0x9d;0x85;8;0x87;0x18;0x19;0x92;0x8f;0x1c;0x1d;0x1e;0x1f;0x80;0x81;
  0x82;0x83;0x84;0xa;0x17;0x1b;0x88;0x89;0x8a;0x8b;0x8c;5;6;7;0x90;0x91;0x16;0x93;0x94;0x95;0x96;4;0x98;0x99;0x9a;0x9b;0x14;0x15;0x9e;0x1a;0x20;0xa0;
  0xe2;0x60c;0xe0;0x61b;0x640;0x61f;0xe7;0x621;0x622;0x2e;0x3c;0x28;0x2b;0x7c;0x26;0xe9;0xea;0xeb;0xe8;0x623;0xee;0xef;0x624;0x625;0x21;0x24;0x2a;0x29;
  0x3b;0x5e;0x2d;0x2f;0xc2;0x626;0xc0;0x627;0x628;0x629;0xc7;0x62a;0x62b;0x2c;0x25;0x5f;0x3e;0x3f;0x62c;0xc9;0xca;0xcb;0xc8;0x62d;0xce;0xcf;0x62e;0x60;
  0x3a;0x23;0x40;0x27;0x3d;0x22;0x62f;0x61;0x62;0x63;0x64;0x65;0x66;0x67;0x68;0x69;0xab;0xbb;0x630;0x631;0x632;0x633;0x634;0x6a;0x6b;0x6c;0x6d;0x6e;
  0x6f;0x70;0x71;0x72;0x635;0x636;0xe6;0x637;0xc6;0x20ac;0xb5;0x7e;0x73;0x74;0x75;0x76;0x77;0x78;0x79;0x7a;0x638;0x639;0x63a;0x5b;0x641;0x642;0x643;
  0x644;0x645;0x646;0xa9;0xa7;0x647;0x152;0x153;0x178;0x648;0x649;0x64a;0x5d;0x64b;0xd7;0x7b;0x41;0x42;0x43;0x44;0x45;0x46;0x47;0x48;0x49;0xad;0xf4;
  0x64c;0x64d;0x64e;0x64f;0x7d;0x4a;0x4b;0x4c;0x4d;0x4e;0x4f;0x50;0x51;0x52;0x650;0xfb;0xfc;0xf9;0x651;0xff;0x5c;0xf7;0x53;0x54;0x55;0x56;0x57;0x58;
  0x59;0x5a;0x652;0xd4;0x200c;0x200d;0x200e;0x200f;0x30;0x31;0x32;0x33;0x34;0x35;0x36;0x37;0x38;0x39;-1;0xdb;0xdc;0xd9;0xa4;0x9f])].
(* tests/data/(no irreversible pairs) *)
Definition irr_ebcdic425 : pairs := [].
(* tests/data/IBM-500.TXT *)
Definition map_ebcdic500 : charmap :=
 [([], 0, [0;1;2;3;0x9c;9;0x86;0x7f;0x97;0x8d;0x8e;0xb;0xc;0xd;0xe;0xf;0x10;0x11;0x12;0x13;0x9d;0x85;8;0x87;0x18;0x19;0x92;0x8f;0x1c;0x1d;0x1e;0x1f;0x80;0x81;
  0x82;0x83;0x84;0xa;0x17;0x1b;0x88;0x89;0x8a;0x8b;0x8c;5;6;7;0x90;0x91;0x16;0x93;0x94;0x95;0x96;4;0x98;0x99;0x9a;0x9b;0x14;0x15;0x9e;0x1a;0x20;0xa0;
  0xe2;0xe4;0xe0;0xe1;0xe3;0xe5;0xe7;0xf1;0x5b;0x2e;0x3c;0x28;0x2b;0x21;0x26;0xe9;0xea;0xeb;0xe8;0xed;0xee;0xef;0xec;0xdf;0x5d;0x24;0x2a;0x29;0x3b;0x5e;
  0x2d;0x2f;0xc2;0xc4;0xc0;0xc1;0xc3;0xc5;0xc7;0xd1;0xa6;0x2c;0x25;0x5f;0x3e;0x3f;0xf8;0xc9;0xca;0xcb;0xc8;0xcd;0xce;0xcf;0xcc;0x60;0x3a;0x23;0x40;0x27;
  0x3d;0x22;0xd8;0x61;0x62;0x63;0x64;0x65;0x66;0x67;0x68;0x69;0xab;0xbb;0xf0;0xfd;0xfe;0xb1;0xb0;0x6a;0x6b;0x6c;0x6d;0x6e;0x6f;0x70;0x71;0x72;0xaa;0xba;
  0xe6;0xb8;0xc6;0xa4;0xb5;0x7e;0x73;0x74;0x75;0x76;0x77;0x78;0x79;0x7a;0xa1;0xbf;0xd0;0xdd;0xde;0xae;0xa2;0xa3;0xa5;0xb7;0xa9;0xa7;0xb6;0xbc;0xbd;0xbe;
  0xac;0x7c;0xaf;0xa8;0xb4;0xd7;0x7b;0x41;0x42;0x43;0x44;0x45;0x46;0x47;0x48;0x49;0xad;0xf4;0xf6;0xf2;0xf3;0xf5;0x7d;0x4a;0x4b;0x4c;0x4d;0x4e;0x4f;0x50;
  0x51;0x52;0xb9;0xfb;0xfc;0xf9;0xfa;0xff;0x5c;0xf7;0x53;0x54;0x55;0x56;0x57;0x58;0x59;0x5a;0xb2;0xd4;0xd6;0xd2;0xd3;0xd5;0x30;0x31;0x32;0x33;0x34;0x35;
  0x36;0x37;0x38;0x39;0xb3;0xdb;0xdc;0xd9;0xda;0x9f])].
(* tests/data/(no irreversible pairs) *)
Definition irr_ebcdic500 : pairs := [].
(* tests/data/IBM-838.TXT *)
Definition map_ebcdic838 : charmap :=
 [([], 0, [0;1;2;3;0x9c;9;0x86;0x7f;0x97;0x8d;0x8e;0xb;0xc;0xd;0xe;0xf;0x10;0x11;0x12;0x13;0x9d;0x85;8;0x87;0x18;0x19;0x92;0x8f;0x1c;0x1d;0x1e;0x1f;0x80;0x81;
  0x82;0x83;0x84;0xa;0x17;0x1b;0x88;0x89;0x8a;0x8b;0x8c;5;6;7;0x90;0x91;0x16;0x93;0x94;0x95;0x96;4;0x98;0x99;0x9a;0x9b;0x14;0x15;0x9e;0x1a;0x20;0xa0;
  0xe01;0xe02;0xe03;0xe04;0xe05;0xe06;0xe07;0x5b;0xa2;0x2e;0x3c;0x28;0x2b;0x7c;0x26;0xe48;0xe08;0xe09;0xe0a;0xe0b;0xe0c;0xe0d;0xe0e;0x5d;0x21;0x24;0x2a;
  0x29;0x3b;0xac;0x2d;0x2f;0xe0f;0xe10;0xe11;0xe12;0xe13;0xe14;0xe15;0x5e;0xa6;0x2c;0x25;0x5f;0x3e;0x3f;0xe3f;0xe4e;0xe16;0xe17;0xe18;0xe19;0xe1a;0xe1b;
  0xe1c;0x60;0x3a;0x23;0x40;0x27;0x3d;0x22;0xe4f;0x61;0x62;0x63;0x64;0x65;0x66;0x67;0x68;0x69;0xe1d;0xe1e;0xe1f;0xe20;0xe21;0xe22;0xe5a;0x6a;0x6b;0x6c;
  0x6d;0x6e;0x6f;0x70;0x71;0x72;0xe23;0xe24;0xe25;0xe26;0xe27;0xe28;0xe5b;0x7e;0x73;0x74;0x75;0x76;0x77;0x78;0x79;0x7a;0xe29;0xe2a;0xe2b;0xe2c;0xe2d;
  0xe2e;0xe50;0xe51;0xe52;0xe53;0xe54;0xe55;0xe56;0xe57;0xe58;0xe59;0xe2f;0xe30;0xe31;0xe32;0xe33;0xe34;0x7b;0x41;0x42;0x43;0x44;0x45;0x46;0x47;0x48;
  0x49;0xe49;0xe35;0xe36;0xe37;0xe38;0xe39;0x7d;0x4a;0x4b;0x4c;0x4d;0x4e;0x4f;0x50;0x51;0x52;0xe3a;0xe40;0xe41;0xe42;0xe43;0xe44;0x5c;0xe4a;0x53;0x54;
  0x55;0x56;0x57;0x58;0x59;0x5a;0xe45;0xe46;0xe47;0xe48;0xe49;0xe4a;0x30;0x31;0x32;0x33;0x34;0x35;0x36;0x37;0x38;0x39;0xe4b;0xe4c;0xe4d;0xe4b;0xe4c;
  0x9f])].
(* tests/data/IBM-838.IRREVERSIBLE.TXT *)
Definition irr_ebcdic838 : pairs := [([0x51], 0xe48);([0xca], 0xe49);([0xe1], 0xe4a);([0xfd], 0xe4b);([0xfe], 0xe4c)].
(* tests/data/IBM-870.TXT *)
Definition map_ebcdic870 : charmap :=
 [([], 0, [0;1;2;3;0x9c;9;0x86;0x7f;0x97;0x8d;0x8e;0xb;0xc;0xd;0xe;0xf;0x10;0x11;0x12;0x13;0x9d;0x85;8;0x87;0x18;0x19;0x92;0x8f;0x1c;0x1d;0x1e;0x1f;0x80;0x81;
  0x82;0x83;0x84;0xa;0x17;0x1b;0x88;0x89;0x8a;0x8b;0x8c;5;6;7;0x90;0x91;0x16;0x93;0x94;0x95;0x96;4;0x98;0x99;0x9a;0x9b;0x14;0x15;0x9e;0x1a;0x20;0xa0;
  0xe2;0xe4;0x163;0xe1;0x103;0x10d;0xe7;0x107;0x5b;0x2e;0x3c;0x28;0x2b;0x21;0x26;0xe9;0x119;0xeb;0x16f;0xed;0xee;0x13e;0x13a;0xdf;0x5d;0x24;0x2a;0x29;
  0x3b;0x5e;0x2d;0x2f;0xc2;0xc4;0x2dd;0xc1;0x102;0x10c;0xc7;0x106;0x7c;0x2c;0x25;0x5f;0x3e;0x3f;0x2c7;0xc9;0x118;0xcb;0x16e;0xcd;0xce;0x13d;0x139;0x60;
  0x3a;0x23;0x40;0x27;0x3d;0x22;0x2d8;0x61;0x62;0x63;0x64;0x65;0x66;0x67;0x68;0x69;0x15b;0x148;0x111;0xfd;0x159;0x15f;0xb0;0x6a;0x6b;0x6c;0x6d;0x6e;
  0x6f;0x70;0x71;0x72;0x142;0x144;0x161;0xb8;0x2db;0xa4;0x105;0x7e;0x73;0x74;0x75;0x76;0x77;0x78;0x79;0x7a;0x15a;0x147;0x110;0xdd;0x158;0x15e;0x2d9;
  0x104;0x17c;0x162;0x17b;0xa7;0x17e;0x17a;0x17d;0x179;0x141;0x143;0x160;0xa8;0xb4;0xd7;0x7b;0x41;0x42;0x43;0x44;0x45;0x46;0x47;0x48;0x49;0xad;0xf4;
  0xf6;0x155;0xf3;0x151;0x7d;0x4a;0x4b;0x4c;0x4d;0x4e;0x4f;0x50;0x51;0x52;0x11a;0x171;0xfc;0x165;0xfa;0x11b;0x5c;0xf7;0x53;0x54;0x55;0x56;0x57;0x58;
  0x59;0x5a;0x10f;0xd4;0xd6;0x154;0xd3;0x150;0x30;0x31;0x32;0x33;0x34;0x35;0x36;0x37;0x38;0x39;0x10e;0x170;0xdc;0x164;0xda;0x9f])].
(* tests/data/(no irreversible pairs) *)
Definition irr_ebcdic870 : pairs := [].
(* tests/data/IBM-871.TXT *)
Definition map_ebcdic871 : charmap :=
 [([], 0, [0;1;2;3;0x9c;9;0x86;0x7f;0x97;0x8d;0x8e;0xb;0xc;0xd;0xe;0xf;0x10;0x11;0x12;0x13;0x9d;0x85;8;0x87;0x18;0x19;0x92;0x8f;0x1c;0x1d;0x1e;0x1f;0x80;0x81;
  0x82;0x83;0x84;0xa;0x17;0x1b;0x88;0x89;0x8a;0x8b;0x8c;5;6;7;0x90;0x91;0x16;0x93;0x94;0x95;0x96;4;0x98;0x99;0x9a;0x9b;0x14;0x15;0x9e;0x1a;0x20;0xa0;
  0xe2;0xe4;0xe0;0xe1;0xe3;0xe5;0xe7;0xf1;0xde;0x2e;0x3c;0x28;0x2b;0x21;0x26;0xe9;0xea;0xeb;0xe8;0xed;0xee;0xef;0xec;0xdf;0xc6;0x24;0x2a;0x29;0x3b;0xd6;
  0x2d;0x2f;0xc2;0xc4;0xc0;0xc1;0xc3;0xc5;0xc7;0xd1;0xa6;0x2c;0x25;0x5f;0x3e;0x3f;0xf8;0xc9;0xca;0xcb;0xc8;0xcd;0xce;0xcf;0xcc;0xf0;0x3a;0x23;0xd0;0x27;
  0x3d;0x22;0xd8;0x61;0x62;0x63;0x64;0x65;0x66;0x67;0x68;0x69;0xab;0xbb;0x60;0xfd;0x7b;0xb1;0xb0;0x6a;0x6b;0x6c;0x6d;0x6e;0x6f;0x70;0x71;0x72;0xaa;0xba;
  0x7d;0xb8;0x5d;0xa4;0xb5;0xf6;0x73;0x74;0x75;0x76;0x77;0x78;0x79;0x7a;0xa1;0xbf;0x40;0xdd;0x5b;0xae;0xa2;0xa3;0xa5;0xb7;0xa9;0xa7;0xb6;0xbc;0xbd;0xbe;
  0xac;0x7c;0xaf;0xa8;0x5c;0xd7;0xfe;0x41;0x42;0x43;0x44;0x45;0x46;0x47;0x48;0x49;0xad;0xf4;0x7e;0xf2;0xf3;0xf5;0xe6;0x4a;0x4b;0x4c;0x4d;0x4e;0x4f;0x50;
  0x51;0x52;0xb9;0xfb;0xfc;0xf9;0xfa;0xff;0xb4;0xf7;0x53;0x54;0x55;0x56;0x57;0x58;0x59;0x5a;0xb2;0xd4;0x5e;0xd2;0xd3;0xd5;0x30;0x31;0x32;0x33;0x34;0x35;
  0x36;0x37;0x38;0x39;0xb3;0xdb;0xdc;0xd9;0xda;0x9f])].
(* tests/data/(no irreversible pairs) *)
Definition irr_ebcdic871 : pairs := [].
(* tests/data/IBM-875.TXT *)
Definition map_ebcdic875 : charmap :=
 [([], 0, [0;1;2;3;0x9c;9;0x86;0x7f;0x97;0x8d;0x8e;0xb;0xc;0xd;0xe;0xf;0x10;0x11;0x12;0x13;0x9d;0x85;8;0x87;0x18;0x19;0x92;0x8f;0x1c;0x1d;0x1e;0x1f;0x80;0x81;
  0x82;0x83;0x84;0xa;0x17;0x1b;0x88;0x89;0x8a;0x8b;0x8c;5;6;7;0x90;0x91;0x16;0x93;0x94;0x95;0x96;4;0x98;0x99;0x9a;0x9b;0x14;0x15;0x9e;0x1a;0x20;0x391;
  0x392;0x393;0x394;0x395;0x396;0x397;0x398;0x399;0x5b;0x2e;0x3c;0x28;0x2b;0x21;0x26;0x39a;0x39b;0x39c;0x39d;0x39e;0x39f;0x3a0;0x3a1;0x3a3;0x5d;0x24;
  0x2a;0x29;0x3b;0x5e;0x2d;0x2f;0x3a4;0x3a5;0x3a6;0x3a7;0x3a8;0x3a9;0x3aa;0x3ab;0x7c;0x2c;0x25;0x5f;0x3e;0x3f;0xa8;0x386;0x388;0x389;0xa0;0x38a;0x38c;
  0x38e;0x38f;0x60;0x3a;0x23;0x40;0x27;0x3d;0x22;0x385;0x61;0x62;0x63;0x64;0x65;0x66;0x67;0x68;0x69;0x3b1;0x3b2;0x3b3;0x3b4;0x3b5;0x3b6;0xb0;0x6a;0x6b;
  0x6c;0x6d;0x6e;0x6f;0x70;0x71;0x72;0x3b7;0x3b8;0x3b9;0x3ba;0x3bb;0x3bc;0xb4;0x7e;0x73;0x74;0x75;0x76;0x77;0x78;0x79;0x7a;0x3bd;0x3be;0x3bf;0x3c0;
  0x3c1;0x3c3;0xa3;0x3ac;0x3ad;0x3ae;0x3ca;0x3af;0x3cc;0x3cd;0x3cb;0x3ce;0x3c2;0x3c4;0x3c5;0x3c6;0x3c7;0x3c8;0x7b;0x41;0x42;0x43;0x44;0x45;0x46;0x47;
  0x48;0x49;0xad;0x3c9;0x390;0x3b0;0x2018;0x2015;0x7d;0x4a;0x4b;0x4c;0x4d;0x4e;0x4f;0x50;0x51;0x52;0xb1;0xbd;-1;0x387;0x2019;0xa6;0x5c;-1;0x53;0x54;
  0x55;0x56;0x57;0x58;0x59;0x5a;0xb2;0xa7;-1;-1;0xab;0xac;0x30;0x31;0x32;0x33;0x34;0x35;0x36;0x37;0x38;0x39;0xb3;0xa9;-1;-1;0xbb;0x9f])].
(* tests/data/(no irreversible pairs) *)
Definition irr_ebcdic875 : pairs := [].
(* tests/data/IBM-880.TXT *)
Definition map_ebcdic880 : charmap :=
 [([], 0, [0;1;2;3;0x9c;9;0x86;0x7f;0x97;0x8d;0x8e;0xb;0xc;0xd;0xe;0xf;0x10;0x11;0x12;0x13;0x9d;0x85;8;0x87;0x18;0x19;0x92;0x8f;0x1c;0x1d;0x1e;0x1f;0x80;0x81;
  0x82;0x83;0x84;0xa;0x17;0x1b;0x88;0x89;0x8a;0x8b;0x8c;5;6;7;0x90;0x91;0x16;0x93;0x94;0x95;0x96;4;0x98;0x99;0x9a;0x9b;0x14;0x15;0x9e;0x1a;0x20;0xa0;
  0x452;0x453;0x451;0x454;0x455;0x456;0x457;0x458;0x5b;0x2e;0x3c;0x28;0x2b;0x21;0x26;0x459;0x45a;0x45b;0x45c;0x45e;0x45f;0x42a;0x2116;0x402;0x5d;0x24;
  0x2a;0x29;0x3b;0x5e;0x2d;0x2f;0x403;0x401;0x404;0x405;0x406;0x407;0x408;0x409;0x7c;0x2c;0x25;0x5f;0x3e;0x3f;0x40a;0x40b;0x40c;0xad;0x40e;0x40f;0x44e;
  0x430;0x431;0x60;0x3a;0x23;0x40;0x27;0x3d;0x22;0x446;0x61;0x62;0x63;0x64;0x65;0x66;0x67;0x68;0x69;0x434;0x435;0x444;0x433;0x445;0x438;0x439;0x6a;0x6b;
  0x6c;0x6d;0x6e;0x6f;0x70;0x71;0x72;0x43a;0x43b;0x43c;0x43d;0x43e;0x43f;0x44f;0x7e;0x73;0x74;0x75;0x76;0x77;0x78;0x79;0x7a;0x440;0x441;0x442;0x443;
  0x436;0x432;0x44c;0x44b;0x437;0x448;0x44d;0x449;0x447;0x44a;0x42e;0x410;0x411;0x426;0x414;0x415;0x424;0x413;0x7b;0x41;0x42;0x43;0x44;0x45;0x46;0x47;
  0x48;0x49;0x425;0x418;0x419;0x41a;0x41b;0x41c;0x7d;0x4a;0x4b;0x4c;0x4d;0x4e;0x4f;0x50;0x51;0x52;0x41d;0x41e;0x41f;0x42f;0x420;0x421;0x5c;0xa4;0x53;
  0x54;0x55;0x56;0x57;0x58;0x59;0x5a;0x422;0x423;0x416;0x412;0x42c;0x42b;0x30;0x31;0x32;0x33;0x34;0x35;0x36;0x37;0x38;0x39;0x417;0x428;0x42d;0x429;
  0x427;0x9f])].
(* tests/data/(no irreversible pairs) *)
Definition irr_ebcdic880 : pairs := [].
(* tests/data/IBM-905.TXT *)
Definition map_ebcdic905 : charmap :=
 [([], 0, [0;1;2;3;0x9c;9;0x86;0x7f;0x97;0x8d;0x8e;0xb;0xc;0xd;0xe;0xf;0x10;0x11;0x12;0x13;0x9d;0x85;8;0x87;0x18;0x19;0x92;0x8f;0x1c;0x1d;0x1e;0x1f;0x80;0x81;
  0x82;0x83;0x84;0xa;0x17;0x1b;0x88;0x89;0x8a;0x8b;0x8c;5;6;7;0x90;0x91;0x16;0x93;0x94;0x95;0x96;4;0x98;0x99;0x9a;0x9b;0x14;0x15;0x9e;0x1a;0x20;0xa0;
  0xe2;0xe4;0xe0;0xe1;-1;0x10b;0x7b;0xf1;0xc7;0x2e;0x3c;0x28;0x2b;0x21;0x26;0xe9;0xea;0xeb;0xe8;0xed;0xee;0xef;0xec;0xdf;0x11e;0x130;0x2a;0x29;0x3b;
  0x5e;0x2d;0x2f;0xc2;0xc4;0xc0;0xc1;-1;0x10a;0x5b;0xd1;0x15f;0x2c;0x25;0x5f;0x3e;0x3f;-1;0xc9;0xca;0xcb;0xc8;0xcd;0xce;0xcf;0xcc;0x131;0x3a;0xd6;0x15e;
  0x27;0x3d;0xdc;0x2d8;0x61;0x62;0x63;0x64;0x65;0x66;0x67;0x68;0x69;0x127;0x109;0x15d;0x16d;-1;0x7c;0xb0;0x6a;0x6b;0x6c;0x6d;0x6e;0x6f;0x70;0x71;0x72;
  0x125;0x11d;0x135;0xb8;-1;0xa4;0xb5;0xf6;0x73;0x74;0x75;0x76;0x77;0x78;0x79;0x7a;0x126;0x108;0x15c;0x16c;-1;0x40;0x2d9;0xa3;0x17c;0x7d;0x17b;0xa7;
  0x5d;0xb7;0xbd;0x24;0x124;0x11c;0x134;0xa8;0xb4;0xd7;0xe7;0x41;0x42;0x43;0x44;0x45;0x46;0x47;0x48;0x49;0xad;0xf4;0x7e;0xf2;0xf3;0x121;0x11f;0x4a;0x4b;
  0x4c;0x4d;0x4e;0x4f;0x50;0x51;0x52;0x60;0xfb;0x5c;0xf9;0xfa;-1;0xfc;0xf7;0x53;0x54;0x55;0x56;0x57;0x58;0x59;0x5a;0xb2;0xd4;0x23;0xd2;0xd3;0x120;0x30;
  0x31;0x32;0x33;0x34;0x35;0x36;0x37;0x38;0x39;0xb3;0xdb;0x22;0xd9;0xda;0x9f])].
(* tests/data/(no irreversible pairs) *)
Definition irr_ebcdic905 : pairs := [].
(* tests/data/IBM-924.TXT *)
Definition map_ebcdic924 : charmap :=
 [([], 0, [0;1;2;3;0x9c;9;0x86;0x7f;0x97;0x8d;0x8e;0xb;0xc;0xd;0xe;0xf;0x10;0x11;0x12;0x13;0x9d;0x85;8;0x87;0x18;0x19;0x92;0x8f;0x1c;0x1d;0x1e;0x1f;0x80;0x81;
  0x82;0x83;0x84;0xa;0x17;0x1b;0x88;0x89;0x8a;0x8b;0x8c;5;6;7;0x90;0x91;0x16;0x93;0x94;0x95;0x96;4;0x98;0x99;0x9a;0x9b;0x14;0x15;0x9e;0x1a;0x20;0xa0;
  0xe2;0xe4;0xe0;0xe1;0xe3;0xe5;0xe7;0xf1;0xdd;0x2e;0x3c;0x28;0x2b;0x7c;0x26;0xe9;0xea;0xeb;0xe8;0xed;0xee;0xef;0xec;0xdf;0x21;0x24;0x2a;0x29;0x3b;0x5e;
  0x2d;0x2f;0xc2;0xc4;0xc0;0xc1;0xc3;0xc5;0xc7;0xd1;0x160;0x2c;0x25;0x5f;0x3e;0x3f;0xf8;0xc9;0xca;0xcb;0xc8;0xcd;0xce;0xcf;0xcc;0x60;0x3a;0x23;0x40;
  0x27;0x3d;0x22;0xd8;0x61;0x62;0x63;0x64;0x65;0x66;0x67;0x68;0x69;0xab;0xbb;0xf0;0xfd;0xfe;0xb1;0xb0;0x6a;0x6b;0x6c;0x6d;0x6e;0x6f;0x70;0x71;0x72;0xaa;
  0xba;0xe6;0x17e;0xc6;0x20ac;0xb5;0x7e;0x73;0x74;0x75;0x76;0x77;0x78;0x79;0x7a;0xa1;0xbf;0xd0;0x5b;0xde;0xae;0xa2;0xa3;0xa5;0xb7;0xa9;0xa7;0xb6;0x152;
  0x153;0x178;0xac;0x161;0xaf;0x5d;0x17d;0xd7;0x7b;0x41;0x42;0x43;0x44;0x45;0x46;0x47;0x48;0x49;0xad;0xf4;0xf6;0xf2;0xf3;0xf5;0x7d;0x4a;0x4b;0x4c;0x4d;
  0x4e;0x4f;0x50;0x51;0x52;0xb9;0xfb;0xfc;0xf9;0xfa;0xff;0x5c;0xf7;0x53;0x54;0x55;0x56;0x57;0x58;0x59;0x5a;0xb2;0xd4;0xd6;0xd2;0xd3;0xd5;0x30;0x31;0x32;
  0x33;0x34;0x35;0x36;0x37;0x38;0x39;0xb3;0xdb;0xdc;0xd9;0xda;0x9f])].
(* tests/data/(no irreversible pairs) *)
Definition irr_ebcdic924 : pairs := [].
(* tests/data/IBM-1025.TXT *)
Definition map_ebcdic1025 : charmap :=
 [([], 0, [0;1;2;3;0x9c;9;0x86;0x7f;0x97;0x8d;0x8e;0xb;0xc;0xd;0xe;0xf;0x10;0x11;0x12;0x13;0x9d;0x85;8;0x87;0x18;0x19;0x92;0x8f;0x1c;0x1d;0x1e;0x1f;0x80;0x81;
  0x82;0x83;0x84;0xa;0x17;0x1b;0x88;0x89;0x8a;0x8b;0x8c;5;6;7;0x90;0x91;0x16;0x93;0x94;0x95;0x96;4;0x98;0x99;0x9a;0x9b;0x14;0x15;0x9e;0x1a;0x20;0xa0;
  0x452;0x453;0x451;0x454;0x455;0x456;0x457;0x458;0x5b;0x2e;0x3c;0x28;0x2b;0x21;0x26;0x459;0x45a;0x45b;0x45c;0x45e;0x45f;0x42a;0x2116;0x402;0x5d;0x24;
  0x2a;0x29;0x3b;0x5e;0x2d;0x2f;0x403;0x401;0x404;0x405;0x406;0x407;0x408;0x409;0x7c;0x2c;0x25;0x5f;0x3e;0x3f;0x40a;0x40b;0x40c;0xad;0x40e;0x40f;0x44e;
  0x430;0x431;0x60;0x3a;0x23;0x40;0x27;0x3d;0x22;0x446;0x61;0x62;0x63;0x64;0x65;0x66;0x67;0x68;0x69;0x434;0x435;0x444;0x433;0x445;0x438;0x439;0x6a;0x6b;
  0x6c;0x6d;0x6e;0x6f;0x70;0x71;0x72;0x43a;0x43b;0x43c;0x43d;0x43e;0x43f;0x44f;0x7e;0x73;0x74;0x75;0x76;0x77;0x78;0x79;0x7a;0x440;0x441;0x442;0x443;
  0x436;0x432;0x44c;0x44b;0x437;0x448;0x44d;0x449;0x447;0x44a;0x42e;0x410;0x411;0x426;0x414;0x415;0x424;0x413;0x7b;0x41;0x42;0x43;0x44;0x45;0x46;0x47;
  0x48;0x49;0x425;0x418;0x419;0x41a;0x41b;0x41c;0x7d;0x4a;0x4b;0x4c;0x4d;0x4e;0x4f;0x50;0x51;0x52;0x41d;0x41e;0x41f;0x42f;0x420;0x421;0x5c;0xa7;0x53;
  0x54;0x55;0x56;0x57;0x58;0x59;0x5a;0x422;0x423;0x416;0x412;0x42c;0x42b;0x30;0x31;0x32;0x33;0x34;0x35;0x36;0x37;0x38;0x39;0x417;0x428;0x42d;0x429;
  0x427;0x9f])].
(* tests/data/(no irreversible pairs) *)
Definition irr_ebcdic1025 : pairs := [].
(* tests/data/IBM-1026.TXT *)
Definition map_ebcdic1026 : charmap :=
 [([], 0, [0;1;2;3;0x9c;9;0x86;0x7f;0x97;0x8d;0x8e;0xb;0xc;0xd;0xe;0xf;0x10;0x11;0x12;0x13;0x9d;0x85;8;0x87;0x18;0x19;0x92;0x8f;0x1c;0x1d;0x1e;0x1f;0x80;0x81;
  0x82;0x83;0x84;0xa;0x17;0x1b;0x88;0x89;0x8a;0x8b;0x8c;5;6;7;0x90;0x91;0x16;0x93;0x94;0x95;0x96;4;0x98;0x99;0x9a;0x9b;0x14;0x15;0x9e;0x1a;0x20;0xa0;
  0xe2;0xe4;0xe0;0xe1;0xe3;0xe5;0x7b;0xf1;0xc7;0x2e;0x3c;0x28;0x2b;0x21;0x26;0xe9;0xea;0xeb;0xe8;0xed;0xee;0xef;0xec;0xdf;0x11e;0x130;0x2a;0x29;0x3b;
  0x5e;0x2d;0x2f;0xc2;0xc4;0xc0;0xc1;0xc3;0xc5;0x5b;0xd1;0x15f;0x2c;0x25;0x5f;0x3e;0x3f;0xf8;0xc9;0xca;0xcb;0xc8;0xcd;0xce;0xcf;0xcc;0x131;0x3a;0xd6;
  0x15e;0x27;0x3d;0xdc;0xd8;0x61;0x62;0x63;0x64;0x65;0x66;0x67;0x68;0x69;0xab;0xbb;0x7d;0x60;0xa6;0xb1;0xb0;0x6a;0x6b;0x6c;0x6d;0x6e;0x6f;0x70;0x71;
  0x72;0xaa;0xba;0xe6;0xb8;0xc6;0xa4;0xb5;0xf6;0x73;0x74;0x75;0x76;0x77;0x78;0x79;0x7a;0xa1;0xbf;0x5d;0x24;0x40;0xae;0xa2;0xa3;0xa5;0xb7;0xa9;0xa7;0xb6;
  0xbc;0xbd;0xbe;0xac;0x7c;0xaf;0xa8;0xb4;0xd7;0xe7;0x41;0x42;0x43;0x44;0x45;0x46;0x47;0x48;0x49;0xad;0xf4;0x7e;0xf2;0xf3;0xf5;0x11f;0x4a;0x4b;0x4c;
  0x4d;0x4e;0x4f;0x50;0x51;0x52;0xb9;0xfb;0x5c;0xf9;0xfa;0xff;0xfc;0xf7;0x53;0x54;0x55;0x56;0x57;0x58;0x59;0x5a;0xb2;0xd4;0x23;0xd2;0xd3;0xd5;0x30;0x31;
  0x32;0x33;0x34;0x35;0x36;0x37;0x38;0x39;0xb3;0xdb;0x22;0xd9;0xda;0x9f])].
(* tests/data/(no irreversible pairs) *)
Definition irr_ebcdic1026 : pairs := [].
(* tests/data/IBM-1047.TXT *)
Definition map_ebcdic1047 : charmap :=
 [([], 0, [0;1;2;3;0x9c;9;0x86;0x7f;0x97;0x8d;0x8e;0xb;0xc;0xd;0xe;0xf;0x10;0x11;0x12;0x13;0x9d;0x85;8;0x87;0x18;0x19;0x92;0x8f;0x1c;0x1d;0x1e;0x1f;0x80;0x81;
  0x82;0x83;0x84;0xa;0x17;0x1b;0x88;0x89;0x8a;0x8b;0x8c;5;6;7;0x90;0x91;0x16;0x93;0x94;0x95;0x96;4;0x98;0x99;0x9a;0x9b;0x14;0x15;0x9e;0x1a;0x20;0xa0;
  0xe2;0xe4;0xe0;0xe1;0xe3;0xe5;0xe7;0xf1;0xa2;0x2e;0x3c;0x28;0x2b;0x7c;0x26;0xe9;0xea;0xeb;0xe8;0xed;0xee;0xef;0xec;0xdf;0x21;0x24;0x2a;0x29;0x3b;0x5e;
  0x2d;0x2f;0xc2;0xc4;0xc0;0xc1;0xc3;0xc5;0xc7;0xd1;0xa6;0x2c;0x25;0x5f;0x3e;0x3f;0xf8;0xc9;0xca;0xcb;0xc8;0xcd;0xce;0xcf;0xcc;0x60;0x3a;0x23;0x40;0x27;
  0x3d;0x22;0xd8;0x61;0x62;0x63;0x64;0x65;0x66;0x67;0x68;0x69;0xab;0xbb;0xf0;0xfd;0xfe;0xb1;0xb0;0x6a;0x6b;0x6c;0x6d;0x6e;0x6f;0x70;0x71;0x72;0xaa;0xba;
  0xe6;0xb8;0xc6;0xa4;0xb5;0x7e;0x73;0x74;0x75;0x76;0x77;0x78;0x79;0x7a;0xa1;0xbf;0xd0;0x5b;0xde;0xae;0xac;0xa3;0xa5;0xb7;0xa9;0xa7;0xb6;0xbc;0xbd;0xbe;
  0xdd;0xa8;0xaf;0x5d;0xb4;0xd7;0x7b;0x41;0x42;0x43;0x44;0x45;0x46;0x47;0x48;0x49;0xad;0xf4;0xf6;0xf2;0xf3;0xf5;0x7d;0x4a;0x4b;0x4c;0x4d;0x4e;0x4f;0x50;
  0x51;0x52;0xb9;0xfb;0xfc;0xf9;0xfa;0xff;0x5c;0xf7;0x53;0x54;0x55;0x56;0x57;0x58;0x59;0x5a;0xb2;0xd4;0xd6;0xd2;0xd3;0xd5;0x30;0x31;0x32;0x33;0x34;0x35;
  0x36;0x37;0x38;0x39;0xb3;0xdb;0xdc;0xd9;0xda;0x9f])].
(* tests/data/(no irreversible pairs) *)
Definition irr_ebcdic1047 : pairs := [].
(* tests/data/IBM-1097.TXT *)
Definition map_ebcdic1097 : charmap :=
 [([], 0, [0;1;2;3;0x9c;9;0x86;0x7f;0x97;0x8d;0x8e;0xb;0xc;0xd;0xe;0xf;0x10;0x11;0x12;0x13;0x9d;0x85;8;0x87;0x18;0x19;0x92;0x8f;0x1c;0x1d;0x1e;0x1f;0x80;0x81;
  0x82;0x83;0x84;0xa;0x17;0x1b;0x88;0x89;0x8a;0x8b;0x8c;5;6;7;0x90;0x91;0x16;0x93;0x94;0x95;0x96;4;0x98;0x99;0x9a;0x9b;0x14;0x15;0x9e;0x1a;0x20;0xa0;
  0x60c;0x64b;0xfe81;0xfe82;0xf8fa;0xfe8d;0xfe8e;0xf8fb;0xa4;0x2e;0x3c;0x28;0x2b;0x7c;0x26;0xfe80;0xfe83;0xfe84;0xf8f9;0xfe85;0xfe8b;0xfe8f;0xfe91;
  0xfb56;0x21;0x24;0x2a;0x29;0x3b;0xac;0x2d;0x2f;0xfb58;0xfe95;0xfe97;0xfe99;0xfe9b;0xfe9d;0xfe9f;0xfb7a;0x61b;0x2c;0x25;0x5f;0x3e;0x3f;0xfb7c;0xfea1;
  0xfea3;0xfea5;0xfea7;0xfea9;0xfeab;0xfead;0xfeaf;0x60;0x3a;0x23;0x40;0x27;0x3d;0x22;0xfb8a;0x61;0x62;0x63;0x64;0x65;0x66;0x67;0x68;0x69;0xab;0xbb;
  0xfeb1;0xfeb3;0xfeb5;0xfeb7;0xfeb9;0x6a;0x6b;0x6c;0x6d;0x6e;0x6f;0x70;0x71;0x72;0xfebb;0xfebd;0xfebf;0xfec1;0xfec3;0xfec5;0xfec7;0x7e;0x73;0x74;0x75;
  0x76;0x77;0x78;0x79;0x7a;0xfec9;0xfeca;0xfecb;0xfecc;0xfecd;0xfece;0xfecf;0xfed0;0xfed1;0xfed3;0xfed5;0xfed7;0xfb8e;0xfedb;0xfb92;0xfb94;0x5b;0x5d;
  0xfedd;0xfedf;0xfee1;0xd7;0x7b;0x41;0x42;0x43;0x44;0x45;0x46;0x47;0x48;0x49;0xad;0xfee3;0xfee5;0xfee7;0xfeed;0xfee9;0x7d;0x4a;0x4b;0x4c;0x4d;0x4e;
  0x4f;0x50;0x51;0x52;0xfeeb;0xfeec;0xfba4;0xfbfc;0xfbfd;0xfbfe;0x5c;0x61f;0x53;0x54;0x55;0x56;0x57;0x58;0x59;0x5a;0x640;0x6f0;0x6f1;0x6f2;0x6f3;0x6f4;
  0x30;0x31;0x32;0x33;0x34;0x35;0x36;0x37;0x38;0x39;0x6f5;0x6f6;0x6f7;0x6f8;0x6f9;0x9f])].
(* tests/data/(no irreversible pairs) *)
Definition irr_ebcdic1097 : pairs := [].
