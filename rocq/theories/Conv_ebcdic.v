(** GENERATED by tools/gen.py from /repo/lib/converters; do not edit.
    Converter functions, one definition per basic block that is reached from several places. *)
From Coq Require Import ZArith List Bool.
From Verif Require Import Base.
Import ListNotations.
Open Scope Z_scope.

(* lib/converters/ebcdic037.h:30-79 ebcdic037_2uni *)
Definition ebcdic037_2uni : tab := mk [
 [0;1;2;3;156;9;134;127;151;141;142;11;12;13;14;15];
 [16;17;18;19;157;133;8;135;24;25;146;143;28;29;30;31];
 [128;129;130;131;132;10;23;27;136;137;138;139;140;5;6;7];
 [144;145;22;147;148;149;150;4;152;153;154;155;20;21;158;26];
 [32;160;226;228;224;225;227;229;231;241;162;46;60;40;43;124];
 [38;233;234;235;232;237;238;239;236;223;33;36;42;41;59;172];
 [45;47;194;196;192;193;195;197;199;209;166;44;37;95;62;63];
 [248;201;202;203;200;205;206;207;204;96;58;35;64;39;61;34];
 [216;97;98;99;100;101;102;103;104;105;171;187;240;253;254;177];
 [176;106;107;108;109;110;111;112;113;114;170;186;230;184;198;164];
 [181;126;115;116;117;118;119;120;121;122;161;191;208;221;222;174];
 [94;163;165;183;169;167;182;188;189;190;91;93;175;168;180;215];
 [123;65;66;67;68;69;70;71;72;73;173;244;246;242;243;245];
 [125;74;75;76;77;78;79;80;81;82;185;251;252;249;250;255];
 [92;247;83;84;85;86;87;88;89;90;178;212;214;210;211;213];
 [48;49;50;51;52;53;54;55;56;57;179;219;220;217;218;159]].

(* lib/converters/ebcdic037.h:88-121 ebcdic037_page00 *)
Definition ebcdic037_page00 : tab := mk [
 [0;1;2;3;55;45;46;47;22;5;37;11;12;13;14;15];
 [16;17;18;19;60;61;50;38;24;25;63;39;28;29;30;31];
 [64;90;127;123;91;108;80;125;77;93;92;78;107;96;75;97];
 [240;241;242;243;244;245;246;247;248;249;122;94;76;126;110;111];
 [124;193;194;195;196;197;198;199;200;201;209;210;211;212;213;214];
 [215;216;217;226;227;228;229;230;231;232;233;186;224;187;176;109];
 [121;129;130;131;132;133;134;135;136;137;145;146;147;148;149;150];
 [151;152;153;162;163;164;165;166;167;168;169;192;79;208;161;7];
 [32;33;34;35;36;21;6;23;40;41;42;43;44;9;10;27];
 [48;49;26;51;52;53;54;8;56;57;58;59;4;20;62;255];
 [65;170;74;177;159;178;106;181;189;180;154;138;95;202;175;188];
 [144;143;234;250;190;160;182;179;157;218;155;139;183;184;185;171];
 [100;101;98;102;99;103;158;104;116;113;114;115;120;117;118;119];
 [172;105;237;238;235;239;236;191;128;253;254;251;252;173;174;89];
 [68;69;66;70;67;71;156;72;84;81;82;83;88;85;86;87];
 [140;73;205;206;203;207;204;225;112;221;222;219;220;141;142;223]].

(* lib/converters/ebcdic037.h:81-86 ebcdic037_mbtowc *)
Definition ebcdic037_mbtowc (s : list Z) (n : nat) : res (Z * option Z) :=
  let pwc := (None : option Z) in
  rd s 0%nat (fun c =>
  tget ebcdic037_2uni c (fun x2 =>
  let pwc := Some x2 in
  Ok (1, pwc))).

(* lib/converters/ebcdic037.h:123-134 ebcdic037_wctomb *)
Definition ebcdic037_wctomb_j (c : Z) (wc : Z) (r : wlog) : res (Z * wlog) :=
  if ((negb (c =? 0)) ||| (wc =? 0)) then
   let r := wr r 0%nat c in
   Ok (1, r)
  else
   Ok ((-1), r).
(* lib/converters/ebcdic037.h:123-134 ebcdic037_wctomb *)
Definition ebcdic037_wctomb (wc : Z) (n : nat) : res (Z * wlog) :=
  let r := ([] : wlog) in
  let c := 0 in
  if (wc <? 0x100) then
   tget ebcdic037_page00 wc (fun c =>
   ebcdic037_wctomb_j c wc r)
  else
   ebcdic037_wctomb_j c wc r.

(* lib/converters/ebcdic273.h:30-79 ebcdic273_2uni *)
Definition ebcdic273_2uni : tab := mk [
 [0;1;2;3;156;9;134;127;151;141;142;11;12;13;14;15];
 [16;17;18;19;157;133;8;135;24;25;146;143;28;29;30;31];
 [128;129;130;131;132;10;23;27;136;137;138;139;140;5;6;7];
 [144;145;22;147;148;149;150;4;152;153;154;155;20;21;158;26];
 [32;160;226;123;224;225;227;229;231;241;196;46;60;40;43;33];
 [38;233;234;235;232;237;238;239;236;126;220;36;42;41;59;94];
 [45;47;194;91;192;193;195;197;199;209;246;44;37;95;62;63];
 [248;201;202;203;200;205;206;207;204;96;58;35;167;39;61;34];
 [216;97;98;99;100;101;102;103;104;105;171;187;240;253;254;177];
 [176;106;107;108;109;110;111;112;113;114;170;186;230;184;198;164];
 [181;223;115;116;117;118;119;120;121;122;161;191;208;221;222;174];
 [162;163;165;183;169;64;182;188;189;190;172;124;175;168;180;215];
 [228;65;66;67;68;69;70;71;72;73;173;244;166;242;243;245];
 [252;74;75;76;77;78;79;80;81;82;185;251;125;249;250;255];
 [214;247;83;84;85;86;87;88;89;90;178;212;92;210;211;213];
 [48;49;50;51;52;53;54;55;56;57;179;219;93;217;218;159]].

(* lib/converters/ebcdic273.h:88-121 ebcdic273_page00 *)
Definition ebcdic273_page00 : tab := mk [
 [0;1;2;3;55;45;46;47;22;5;37;11;12;13;14;15];
 [16;17;18;19;60;61;50;38;24;25;63;39;28;29;30;31];
 [64;79;127;123;91;108;80;125;77;93;92;78;107;96;75;97];
 [240;241;242;243;244;245;246;247;248;249;122;94;76;126;110;111];
 [181;193;194;195;196;197;198;199;200;201;209;210;211;212;213;214];
 [215;216;217;226;227;228;229;230;231;232;233;99;236;252;95;109];
 [121;129;130;131;132;133;134;135;136;137;145;146;147;148;149;150];
 [151;152;153;162;163;164;165;166;167;168;169;67;187;220;89;7];
 [32;33;34;35;36;21;6;23;40;41;42;43;44;9;10;27];
 [48;49;26;51;52;53;54;8;56;57;58;59;4;20;62;255];
 [65;170;176;177;159;178;204;124;189;180;154;138;186;202;175;188];
 [144;143;234;250;190;160;182;179;157;218;155;139;183;184;185;171];
 [100;101;98;102;74;103;158;104;116;113;114;115;120;117;118;119];
 [172;105;237;238;235;239;224;191;128;253;254;251;90;173;174;161];
 [68;69;66;70;192;71;156;72;84;81;82;83;88;85;86;87];
 [140;73;205;206;203;207;106;225;112;221;222;219;208;141;142;223]].

(* lib/converters/ebcdic273.h:81-86 ebcdic273_mbtowc *)
Definition ebcdic273_mbtowc (s : list Z) (n : nat) : res (Z * option Z) :=
  let pwc := (None : option Z) in
  rd s 0%nat (fun c =>
  tget ebcdic273_2uni c (fun x2 =>
  let pwc := Some x2 in
  Ok (1, pwc))).

(* lib/converters/ebcdic273.h:123-134 ebcdic273_wctomb *)
Definition ebcdic273_wctomb_j (c : Z) (wc : Z) (r : wlog) : res (Z * wlog) :=
  if ((negb (c =? 0)) ||| (wc =? 0)) then
   let r := wr r 0%nat c in
   Ok (1, r)
  else
   Ok ((-1), r).
(* lib/converters/ebcdic273.h:123-134 ebcdic273_wctomb *)
Definition ebcdic273_wctomb (wc : Z) (n : nat) : res (Z * wlog) :=
  let r := ([] : wlog) in
  let c := 0 in
  if (wc <? 0x100) then
   tget ebcdic273_page00 wc (fun c =>
   ebcdic273_wctomb_j c wc r)
  else
   ebcdic273_wctomb_j c wc r.

(* lib/converters/ebcdic277.h:30-79 ebcdic277_2uni *)
Definition ebcdic277_2uni : tab := mk [
 [0;1;2;3;156;9;134;127;151;141;142;11;12;13;14;15];
 [16;17;18;19;157;133;8;135;24;25;146;143;28;29;30;31];
 [128;129;130;131;132;10;23;27;136;137;138;139;140;5;6;7];
 [144;145;22;147;148;149;150;4;152;153;154;155;20;21;158;26];
 [32;160;226;228;224;225;227;125;231;241;35;46;60;40;43;33];
 [38;233;234;235;232;237;238;239;236;223;164;197;42;41;59;94];
 [45;47;194;196;192;193;195;36;199;209;248;44;37;95;62;63];
 [166;201;202;203;200;205;206;207;204;96;58;198;216;39;61;34];
 [64;97;98;99;100;101;102;103;104;105;171;187;240;253;254;177];
 [176;106;107;108;109;110;111;112;113;114;170;186;123;184;91;93];
 [181;252;115;116;117;118;119;120;121;122;161;191;208;221;222;174];
 [162;163;165;183;169;167;182;188;189;190;172;124;175;168;180;215];
 [230;65;66;67;68;69;70;71;72;73;173;244;246;242;243;245];
 [229;74;75;76;77;78;79;80;81;82;185;251;126;249;250;255];
 [92;247;83;84;85;86;87;88;89;90;178;212;214;210;211;213];
 [48;49;50;51;52;53;54;55;56;57;179;219;220;217;218;159]].

(* lib/converters/ebcdic277.h:88-121 ebcdic277_page00 *)
Definition ebcdic277_page00 : tab := mk [
 [0;1;2;3;55;45;46;47;22;5;37;11;12;13;14;15];
 [16;17;18;19;60;61;50;38;24;25;63;39;28;29;30;31];
 [64;79;127;74;103;108;80;125;77;93;92;78;107;96;75;97];
 [240;241;242;243;244;245;246;247;248;249;122;94;76;126;110;111];
 [128;193;194;195;196;197;198;199;200;201;209;210;211;212;213;214];
 [215;216;217;226;227;228;229;230;231;232;233;158;224;159;95;109];
 [121;129;130;131;132;133;134;135;136;137;145;146;147;148;149;150];
 [151;152;153;162;163;164;165;166;167;168;169;156;187;71;220;7];
 [32;33;34;35;36;21;6;23;40;41;42;43;44;9;10;27];
 [48;49;26;51;52;53;54;8;56;57;58;59;4;20;62;255];
 [65;170;176;177;90;178;112;181;189;180;154;138;186;202;175;188];
 [144;143;234;250;190;160;182;179;157;218;155;139;183;184;185;171];
 [100;101;98;102;99;91;123;104;116;113;114;115;120;117;118;119];
 [172;105;237;238;235;239;236;191;124;253;254;251;252;173;174;89];
 [68;69;66;70;67;208;192;72;84;81;82;83;88;85;86;87];
 [140;73;205;206;203;207;204;225;106;221;222;219;161;141;142;223]].

(* lib/converters/ebcdic277.h:81-86 ebcdic277_mbtowc *)
Definition ebcdic277_mbtowc (s : list Z) (n : nat) : res (Z * option Z) :=
  let pwc := (None : option Z) in
  rd s 0%nat (fun c =>
  tget ebcdic277_2uni c (fun x2 =>
  let pwc := Some x2 in
  Ok (1, pwc))).

(* lib/converters/ebcdic277.h:123-134 ebcdic277_wctomb *)
Definition ebcdic277_wctomb_j (c : Z) (wc : Z) (r : wlog) : res (Z * wlog) :=
  if ((negb (c =? 0)) ||| (wc =? 0)) then
   let r := wr r 0%nat c in
   Ok (1, r)
  else
   Ok ((-1), r).
(* lib/converters/ebcdic277.h:123-134 ebcdic277_wctomb *)
Definition ebcdic277_wctomb (wc : Z) (n : nat) : res (Z * wlog) :=
  let r := ([] : wlog) in
  let c := 0 in
  if (wc <? 0x100) then
   tget ebcdic277_page00 wc (fun c =>
   ebcdic277_wctomb_j c wc r)
  else
   ebcdic277_wctomb_j c wc r.

(* lib/converters/ebcdic278.h:30-79 ebcdic278_2uni *)
Definition ebcdic278_2uni : tab := mk [
 [0;1;2;3;156;9;134;127;151;141;142;11;12;13;14;15];
 [16;17;18;19;157;133;8;135;24;25;146;143;28;29;30;31];
 [128;129;130;131;132;10;23;27;136;137;138;139;140;5;6;7];
 [144;145;22;147;148;149;150;4;152;153;154;155;20;21;158;26];
 [32;160;226;123;224;225;227;125;231;241;167;46;60;40;43;33];
 [38;96;234;235;232;237;238;239;236;223;164;197;42;41;59;94];
 [45;47;194;35;192;193;195;36;199;209;246;44;37;95;62;63];
 [248;92;202;203;200;205;206;207;204;233;58;196;214;39;61;34];
 [216;97;98;99;100;101;102;103;104;105;171;187;240;253;254;177];
 [176;106;107;108;109;110;111;112;113;114;170;186;230;184;198;93];
 [181;252;115;116;117;118;119;120;121;122;161;191;208;221;222;174];
 [162;163;165;183;169;91;182;188;189;190;172;124;175;168;180;215];
 [228;65;66;67;68;69;70;71;72;73;173;244;166;242;243;245];
 [229;74;75;76;77;78;79;80;81;82;185;251;126;249;250;255];
 [201;247;83;84;85;86;87;88;89;90;178;212;64;210;211;213];
 [48;49;50;51;52;53;54;55;56;57;179;219;220;217;218;159]].

(* lib/converters/ebcdic278.h:88-121 ebcdic278_page00 *)
Definition ebcdic278_page00 : tab := mk [
 [0;1;2;3;55;45;46;47;22;5;37;11;12;13;14;15];
 [16;17;18;19;60;61;50;38;24;25;63;39;28;29;30;31];
 [64;79;127;99;103;108;80;125;77;93;92;78;107;96;75;97];
 [240;241;242;243;244;245;246;247;248;249;122;94;76;126;110;111];
 [236;193;194;195;196;197;198;199;200;201;209;210;211;212;213;214];
 [215;216;217;226;227;228;229;230;231;232;233;181;113;159;95;109];
 [81;129;130;131;132;133;134;135;136;137;145;146;147;148;149;150];
 [151;152;153;162;163;164;165;166;167;168;169;67;187;71;220;7];
 [32;33;34;35;36;21;6;23;40;41;42;43;44;9;10;27];
 [48;49;26;51;52;53;54;8;56;57;58;59;4;20;62;255];
 [65;170;176;177;90;178;204;74;189;180;154;138;186;202;175;188];
 [144;143;234;250;190;160;182;179;157;218;155;139;183;184;185;171];
 [100;101;98;102;123;91;158;104;116;224;114;115;120;117;118;119];
 [172;105;237;238;235;239;124;191;128;253;254;251;252;173;174;89];
 [68;69;66;70;192;208;156;72;84;121;82;83;88;85;86;87];
 [140;73;205;206;203;207;106;225;112;221;222;219;161;141;142;223]].

(* lib/converters/ebcdic278.h:81-86 ebcdic278_mbtowc *)
Definition ebcdic278_mbtowc (s : list Z) (n : nat) : res (Z * option Z) :=
  let pwc := (None : option Z) in
  rd s 0%nat (fun c =>
  tget ebcdic278_2uni c (fun x2 =>
  let pwc := Some x2 in
  Ok (1, pwc))).

(* lib/converters/ebcdic278.h:123-134 ebcdic278_wctomb *)
Definition ebcdic278_wctomb_j (c : Z) (wc : Z) (r : wlog) : res (Z * wlog) :=
  if ((negb (c =? 0)) ||| (wc =? 0)) then
   let r := wr r 0%nat c in
   Ok (1, r)
  else
   Ok ((-1), r).
(* lib/converters/ebcdic278.h:123-134 ebcdic278_wctomb *)
Definition ebcdic278_wctomb (wc : Z) (n : nat) : res (Z * wlog) :=
  let r := ([] : wlog) in
  let c := 0 in
  if (wc <? 0x100) then
   tget ebcdic278_page00 wc (fun c =>
   ebcdic278_wctomb_j c wc r)
  else
   ebcdic278_wctomb_j c wc r.

(* lib/converters/ebcdic280.h:30-79 ebcdic280_2uni *)
Definition ebcdic280_2uni : tab := mk [
 [0;1;2;3;156;9;134;127;151;141;142;11;12;13;14;15];
 [16;17;18;19;157;133;8;135;24;25;146;143;28;29;30;31];
 [128;129;130;131;132;10;23;27;136;137;138;139;140;5;6;7];
 [144;145;22;147;148;149;150;4;152;153;154;155;20;21;158;26];
 [32;160;226;228;123;225;227;229;92;241;176;46;60;40;43;33];
 [38;93;234;235;125;237;238;239;126;223;233;36;42;41;59;94];
 [45;47;194;196;192;193;195;197;199;209;242;44;37;95;62;63];
 [248;201;202;203;200;205;206;207;204;249;58;163;167;39;61;34];
 [216;97;98;99;100;101;102;103;104;105;171;187;240;253;254;177];
 [91;106;107;108;109;110;111;112;113;114;170;186;230;184;198;164];
 [181;236;115;116;117;118;119;120;121;122;161;191;208;221;222;174];
 [162;35;165;183;169;64;182;188;189;190;172;124;175;168;180;215];
 [224;65;66;67;68;69;70;71;72;73;173;244;246;166;243;245];
 [232;74;75;76;77;78;79;80;81;82;185;251;252;96;250;255];
 [231;247;83;84;85;86;87;88;89;90;178;212;214;210;211;213];
 [48;49;50;51;52;53;54;55;56;57;179;219;220;217;218;159]].

(* lib/converters/ebcdic280.h:88-121 ebcdic280_page00 *)
Definition ebcdic280_page00 : tab := mk [
 [0;1;2;3;55;45;46;47;22;5;37;11;12;13;14;15];
 [16;17;18;19;60;61;50;38;24;25;63;39;28;29;30;31];
 [64;79;127;177;91;108;80;125;77;93;92;78;107;96;75;97];
 [240;241;242;243;244;245;246;247;248;249;122;94;76;126;110;111];
 [181;193;194;195;196;197;198;199;200;201;209;210;211;212;213;214];
 [215;216;217;226;227;228;229;230;231;232;233;144;72;81;95;109];
 [221;129;130;131;132;133;134;135;136;137;145;146;147;148;149;150];
 [151;152;153;162;163;164;165;166;167;168;169;68;187;84;88;7];
 [32;33;34;35;36;21;6;23;40;41;42;43;44;9;10;27];
 [48;49;26;51;52;53;54;8;56;57;58;59;4;20;62;255];
 [65;170;176;123;159;178;205;124;189;180;154;138;186;202;175;188];
 [74;143;234;250;190;160;182;179;157;218;155;139;183;184;185;171];
 [100;101;98;102;99;103;158;104;116;113;114;115;120;117;118;119];
 [172;105;237;238;235;239;236;191;128;253;254;251;252;173;174;89];
 [192;69;66;70;67;71;156;224;208;90;82;83;161;85;86;87];
 [140;73;106;206;203;207;204;225;112;121;222;219;220;141;142;223]].

(* lib/converters/ebcdic280.h:81-86 ebcdic280_mbtowc *)
Definition ebcdic280_mbtowc (s : list Z) (n : nat) : res (Z * option Z) :=
  let pwc := (None : option Z) in
  rd s 0%nat (fun c =>
  tget ebcdic280_2uni c (fun x2 =>
  let pwc := Some x2 in
  Ok (1, pwc))).

(* lib/converters/ebcdic280.h:123-134 ebcdic280_wctomb *)
Definition ebcdic280_wctomb_j (c : Z) (wc : Z) (r : wlog) : res (Z * wlog) :=
  if ((negb (c =? 0)) ||| (wc =? 0)) then
   let r := wr r 0%nat c in
   Ok (1, r)
  else
   Ok ((-1), r).
(* lib/converters/ebcdic280.h:123-134 ebcdic280_wctomb *)
Definition ebcdic280_wctomb (wc : Z) (n : nat) : res (Z * wlog) :=
  let r := ([] : wlog) in
  let c := 0 in
  if (wc <? 0x100) then
   tget ebcdic280_page00 wc (fun c =>
   ebcdic280_wctomb_j c wc r)
  else
   ebcdic280_wctomb_j c wc r.

(* lib/converters/ebcdic282.h:30-79 ebcdic282_2uni *)
Definition ebcdic282_2uni : tab := mk [
 [0;1;2;3;156;9;134;127;151;141;142;11;12;13;14;15];
 [16;17;18;19;157;133;8;135;24;25;146;143;28;29;30;31];
 [128;129;130;131;132;10;23;27;136;137;138;139;140;5;6;7];
 [144;145;22;147;148;149;150;4;152;153;154;155;20;21;158;26];
 [32;160;226;228;224;225;123;229;126;241;91;46;60;40;43;33];
 [38;233;234;235;232;237;238;239;236;223;93;36;42;41;59;94];
 [45;47;194;196;192;193;35;197;92;209;245;44;37;95;62;63];
 [248;201;202;203;200;205;206;207;204;96;58;195;213;39;61;34];
 [216;97;98;99;100;101;102;103;104;105;171;187;240;253;254;177];
 [176;106;107;108;109;110;111;112;113;114;170;186;230;184;198;164];
 [181;231;115;116;117;118;119;120;121;122;161;191;208;221;222;174];
 [162;163;165;183;169;167;182;188;189;190;172;124;175;168;125;215];
 [227;65;66;67;68;69;70;71;72;73;173;244;246;242;243;166];
 [180;74;75;76;77;78;79;80;81;82;185;251;252;249;250;255];
 [199;247;83;84;85;86;87;88;89;90;178;212;214;210;211;64];
 [48;49;50;51;52;53;54;55;56;57;179;219;220;217;218;159]].

(* lib/converters/ebcdic282.h:88-121 ebcdic282_page00 *)
Definition ebcdic282_page00 : tab := mk [
 [0;1;2;3;55;45;46;47;22;5;37;11;12;13;14;15];
 [16;17;18;19;60;61;50;38;24;25;63;39;28;29;30;31];
 [64;79;127;102;91;108;80;125;77;93;92;78;107;96;75;97];
 [240;241;242;243;244;245;246;247;248;249;122;94;76;126;110;111];
 [239;193;194;195;196;197;198;199;200;201;209;210;211;212;213;214];
 [215;216;217;226;227;228;229;230;231;232;233;74;104;90;95;109];
 [121;129;130;131;132;133;134;135;136;137;145;146;147;148;149;150];
 [151;152;153;162;163;164;165;166;167;168;169;70;187;190;72;7];
 [32;33;34;35;36;21;6;23;40;41;42;43;44;9;10;27];
 [48;49;26;51;52;53;54;8;56;57;58;59;4;20;62;255];
 [65;170;176;177;159;178;207;181;189;180;154;138;186;202;175;188];
 [144;143;234;250;208;160;182;179;157;218;155;139;183;184;185;171];
 [100;101;98;123;99;103;158;224;116;113;114;115;120;117;118;119];
 [172;105;237;238;235;124;236;191;128;253;254;251;252;173;174;89];
 [68;69;66;192;67;71;156;161;84;81;82;83;88;85;86;87];
 [140;73;205;206;203;106;204;225;112;221;222;219;220;141;142;223]].

(* lib/converters/ebcdic282.h:81-86 ebcdic282_mbtowc *)
Definition ebcdic282_mbtowc (s : list Z) (n : nat) : res (Z * option Z) :=
  let pwc := (None : option Z) in
  rd s 0%nat (fun c =>
  tget ebcdic282_2uni c (fun x2 =>
  let pwc := Some x2 in
  Ok (1, pwc))).

(* lib/converters/ebcdic282.h:123-134 ebcdic282_wctomb *)
Definition ebcdic282_wctomb_j (c : Z) (wc : Z) (r : wlog) : res (Z * wlog) :=
  if ((negb (c =? 0)) ||| (wc =? 0)) then
   let r := wr r 0%nat c in
   Ok (1, r)
  else
   Ok ((-1), r).
(* lib/converters/ebcdic282.h:123-134 ebcdic282_wctomb *)
Definition ebcdic282_wctomb (wc : Z) (n : nat) : res (Z * wlog) :=
  let r := ([] : wlog) in
  let c := 0 in
  if (wc <? 0x100) then
   tget ebcdic282_page00 wc (fun c =>
   ebcdic282_wctomb_j c wc r)
  else
   ebcdic282_wctomb_j c wc r.

(* lib/converters/ebcdic284.h:30-79 ebcdic284_2uni *)
Definition ebcdic284_2uni : tab := mk [
 [0;1;2;3;156;9;134;127;151;141;142;11;12;13;14;15];
 [16;17;18;19;157;133;8;135;24;25;146;143;28;29;30;31];
 [128;129;130;131;132;10;23;27;136;137;138;139;140;5;6;7];
 [144;145;22;147;148;149;150;4;152;153;154;155;20;21;158;26];
 [32;160;226;228;224;225;227;229;231;166;91;46;60;40;43;124];
 [38;233;234;235;232;237;238;239;236;223;93;36;42;41;59;172];
 [45;47;194;196;192;193;195;197;199;35;241;44;37;95;62;63];
 [248;201;202;203;200;205;206;207;204;96;58;209;64;39;61;34];
 [216;97;98;99;100;101;102;103;104;105;171;187;240;253;254;177];
 [176;106;107;108;109;110;111;112;113;114;170;186;230;184;198;164];
 [181;168;115;116;117;118;119;120;121;122;161;191;208;221;222;174];
 [162;163;165;183;169;167;182;188;189;190;94;33;175;126;180;215];
 [123;65;66;67;68;69;70;71;72;73;173;244;246;242;243;245];
 [125;74;75;76;77;78;79;80;81;82;185;251;252;249;250;255];
 [92;247;83;84;85;86;87;88;89;90;178;212;214;210;211;213];
 [48;49;50;51;52;53;54;55;56;57;179;219;220;217;218;159]].

(* lib/converters/ebcdic284.h:88-121 ebcdic284_page00 *)
Definition ebcdic284_page00 : tab := mk [
 [0;1;2;3;55;45;46;47;22;5;37;11;12;13;14;15];
 [16;17;18;19;60;61;50;38;24;25;63;39;28;29;30;31];
 [64;187;127;105;91;108;80;125;77;93;92;78;107;96;75;97];
 [240;241;242;243;244;245;246;247;248;249;122;94;76;126;110;111];
 [124;193;194;195;196;197;198;199;200;201;209;210;211;212;213;214];
 [215;216;217;226;227;228;229;230;231;232;233;74;224;90;186;109];
 [121;129;130;131;132;133;134;135;136;137;145;146;147;148;149;150];
 [151;152;153;162;163;164;165;166;167;168;169;192;79;208;189;7];
 [32;33;34;35;36;21;6;23;40;41;42;43;44;9;10;27];
 [48;49;26;51;52;53;54;8;56;57;58;59;4;20;62;255];
 [65;170;176;177;159;178;73;181;161;180;154;138;95;202;175;188];
 [144;143;234;250;190;160;182;179;157;218;155;139;183;184;185;171];
 [100;101;98;102;99;103;158;104;116;113;114;115;120;117;118;119];
 [172;123;237;238;235;239;236;191;128;253;254;251;252;173;174;89];
 [68;69;66;70;67;71;156;72;84;81;82;83;88;85;86;87];
 [140;106;205;206;203;207;204;225;112;221;222;219;220;141;142;223]].

(* lib/converters/ebcdic284.h:81-86 ebcdic284_mbtowc *)
Definition ebcdic284_mbtowc (s : list Z) (n : nat) : res (Z * option Z) :=
  let pwc := (None : option Z) in
  rd s 0%nat (fun c =>
  tget ebcdic284_2uni c (fun x2 =>
  let pwc := Some x2 in
  Ok (1, pwc))).

(* lib/converters/ebcdic284.h:123-134 ebcdic284_wctomb *)
Definition ebcdic284_wctomb_j (c : Z) (wc : Z) (r : wlog) : res (Z * wlog) :=
  if ((negb (c =? 0)) ||| (wc =? 0)) then
   let r := wr r 0%nat c in
   Ok (1, r)
  else
   Ok ((-1), r).
(* lib/converters/ebcdic284.h:123-134 ebcdic284_wctomb *)
Definition ebcdic284_wctomb (wc : Z) (n : nat) : res (Z * wlog) :=
  let r := ([] : wlog) in
  let c := 0 in
  if (wc <? 0x100) then
   tget ebcdic284_page00 wc (fun c =>
   ebcdic284_wctomb_j c wc r)
  else
   ebcdic284_wctomb_j c wc r.

(* lib/converters/ebcdic285.h:30-79 ebcdic285_2uni *)
Definition ebcdic285_2uni : tab := mk [
 [0;1;2;3;156;9;134;127;151;141;142;11;12;13;14;15];
 [16;17;18;19;157;133;8;135;24;25;146;143;28;29;30;31];
 [128;129;130;131;132;10;23;27;136;137;138;139;140;5;6;7];
 [144;145;22;147;148;149;150;4;152;153;154;155;20;21;158;26];
 [32;160;226;228;224;225;227;229;231;241;36;46;60;40;43;124];
 [38;233;234;235;232;237;238;239;236;223;33;163;42;41;59;172];
 [45;47;194;196;192;193;195;197;199;209;166;44;37;95;62;63];
 [248;201;202;203;200;205;206;207;204;96;58;35;64;39;61;34];
 [216;97;98;99;100;101;102;103;104;105;171;187;240;253;254;177];
 [176;106;107;108;109;110;111;112;113;114;170;186;230;184;198;164];
 [181;175;115;116;117;118;119;120;121;122;161;191;208;221;222;174];
 [162;91;165;183;169;167;182;188;189;190;94;93;126;168;180;215];
 [123;65;66;67;68;69;70;71;72;73;173;244;246;242;243;245];
 [125;74;75;76;77;78;79;80;81;82;185;251;252;249;250;255];
 [92;247;83;84;85;86;87;88;89;90;178;212;214;210;211;213];
 [48;49;50;51;52;53;54;55;56;57;179;219;220;217;218;159]].

(* lib/converters/ebcdic285.h:88-121 ebcdic285_page00 *)
Definition ebcdic285_page00 : tab := mk [
 [0;1;2;3;55;45;46;47;22;5;37;11;12;13;14;15];
 [16;17;18;19;60;61;50;38;24;25;63;39;28;29;30;31];
 [64;90;127;123;74;108;80;125;77;93;92;78;107;96;75;97];
 [240;241;242;243;244;245;246;247;248;249;122;94;76;126;110;111];
 [124;193;194;195;196;197;198;199;200;201;209;210;211;212;213;214];
 [215;216;217;226;227;228;229;230;231;232;233;177;224;187;186;109];
 [121;129;130;131;132;133;134;135;136;137;145;146;147;148;149;150];
 [151;152;153;162;163;164;165;166;167;168;169;192;79;208;188;7];
 [32;33;34;35;36;21;6;23;40;41;42;43;44;9;10;27];
 [48;49;26;51;52;53;54;8;56;57;58;59;4;20;62;255];
 [65;170;176;91;159;178;106;181;189;180;154;138;95;202;175;161];
 [144;143;234;250;190;160;182;179;157;218;155;139;183;184;185;171];
 [100;101;98;102;99;103;158;104;116;113;114;115;120;117;118;119];
 [172;105;237;238;235;239;236;191;128;253;254;251;252;173;174;89];
 [68;69;66;70;67;71;156;72;84;81;82;83;88;85;86;87];
 [140;73;205;206;203;207;204;225;112;221;222;219;220;141;142;223]].

(* lib/converters/ebcdic285.h:81-86 ebcdic285_mbtowc *)
Definition ebcdic285_mbtowc (s : list Z) (n : nat) : res (Z * option Z) :=
  let pwc := (None : option Z) in
  rd s 0%nat (fun c =>
  tget ebcdic285_2uni c (fun x2 =>
  let pwc := Some x2 in
  Ok (1, pwc))).

(* lib/converters/ebcdic285.h:123-134 ebcdic285_wctomb *)
Definition ebcdic285_wctomb_j (c : Z) (wc : Z) (r : wlog) : res (Z * wlog) :=
  if ((negb (c =? 0)) ||| (wc =? 0)) then
   let r := wr r 0%nat c in
   Ok (1, r)
  else
   Ok ((-1), r).
(* lib/converters/ebcdic285.h:123-134 ebcdic285_wctomb *)
Definition ebcdic285_wctomb (wc : Z) (n : nat) : res (Z * wlog) :=
  let r := ([] : wlog) in
  let c := 0 in
  if (wc <? 0x100) then
   tget ebcdic285_page00 wc (fun c =>
   ebcdic285_wctomb_j c wc r)
  else
   ebcdic285_wctomb_j c wc r.

(* lib/converters/ebcdic297.h:30-79 ebcdic297_2uni *)
Definition ebcdic297_2uni : tab := mk [
 [0;1;2;3;156;9;134;127;151;141;142;11;12;13;14;15];
 [16;17;18;19;157;133;8;135;24;25;146;143;28;29;30;31];
 [128;129;130;131;132;10;23;27;136;137;138;139;140;5;6;7];
 [144;145;22;147;148;149;150;4;152;153;154;155;20;21;158;26];
 [32;160;226;228;64;225;227;229;92;241;176;46;60;40;43;33];
 [38;123;234;235;125;237;238;239;236;223;167;36;42;41;59;94];
 [45;47;194;196;192;193;195;197;199;209;249;44;37;95;62;63];
 [248;201;202;203;200;205;206;207;204;181;58;163;224;39;61;34];
 [216;97;98;99;100;101;102;103;104;105;171;187;240;253;254;177];
 [91;106;107;108;109;110;111;112;113;114;170;186;230;184;198;164];
 [96;168;115;116;117;118;119;120;121;122;161;191;208;221;222;174];
 [162;35;165;183;169;93;182;188;189;190;172;124;175;126;180;215];
 [233;65;66;67;68;69;70;71;72;73;173;244;246;242;243;245];
 [232;74;75;76;77;78;79;80;81;82;185;251;252;166;250;255];
 [231;247;83;84;85;86;87;88;89;90;178;212;214;210;211;213];
 [48;49;50;51;52;53;54;55;56;57;179;219;220;217;218;159]].

(* lib/converters/ebcdic297.h:88-121 ebcdic297_page00 *)
Definition ebcdic297_page00 : tab := mk [
 [0;1;2;3;55;45;46;47;22;5;37;11;12;13;14;15];
 [16;17;18;19;60;61;50;38;24;25;63;39;28;29;30;31];
 [64;79;127;177;91;108;80;125;77;93;92;78;107;96;75;97];
 [240;241;242;243;244;245;246;247;248;249;122;94;76;126;110;111];
 [68;193;194;195;196;197;198;199;200;201;209;210;211;212;213;214];
 [215;216;217;226;227;228;229;230;231;232;233;144;72;181;95;109];
 [160;129;130;131;132;133;134;135;136;137;145;146;147;148;149;150];
 [151;152;153;162;163;164;165;166;167;168;169;81;187;84;189;7];
 [32;33;34;35;36;21;6;23;40;41;42;43;44;9;10;27];
 [48;49;26;51;52;53;54;8;56;57;58;59;4;20;62;255];
 [65;170;176;123;159;178;221;90;161;180;154;138;186;202;175;188];
 [74;143;234;250;190;121;182;179;157;218;155;139;183;184;185;171];
 [100;101;98;102;99;103;158;104;116;113;114;115;120;117;118;119];
 [172;105;237;238;235;239;236;191;128;253;254;251;252;173;174;89];
 [124;69;66;70;67;71;156;224;208;192;82;83;88;85;86;87];
 [140;73;205;206;203;207;204;225;112;106;222;219;220;141;142;223]].

(* lib/converters/ebcdic297.h:81-86 ebcdic297_mbtowc *)
Definition ebcdic297_mbtowc (s : list Z) (n : nat) : res (Z * option Z) :=
  let pwc := (None : option Z) in
  rd s 0%nat (fun c =>
  tget ebcdic297_2uni c (fun x2 =>
  let pwc := Some x2 in
  Ok (1, pwc))).

(* lib/converters/ebcdic297.h:123-134 ebcdic297_wctomb *)
Definition ebcdic297_wctomb_j (c : Z) (wc : Z) (r : wlog) : res (Z * wlog) :=
  if ((negb (c =? 0)) ||| (wc =? 0)) then
   let r := wr r 0%nat c in
   Ok (1, r)
  else
   Ok ((-1), r).
(* lib/converters/ebcdic297.h:123-134 ebcdic297_wctomb *)
Definition ebcdic297_wctomb (wc : Z) (n : nat) : res (Z * wlog) :=
  let r := ([] : wlog) in
  let c := 0 in
  if (wc <? 0x100) then
   tget ebcdic297_page00 wc (fun c =>
   ebcdic297_wctomb_j c wc r)
  else
   ebcdic297_wctomb_j c wc r.

(* lib/converters/ebcdic423.h:30-79 ebcdic423_2uni *)
Definition ebcdic423_2uni : tab := mk [
 [0;1;2;3;156;9;134;127;151;141;142;11;12;13;14;15];
 [16;17;18;19;157;133;8;135;24;25;146;143;28;29;30;31];
 [128;129;130;131;132;10;23;27;136;137;138;139;140;5;6;7];
 [144;145;22;147;148;149;150;4;152;153;154;155;20;21;158;26];
 [32;913;914;915;916;917;918;919;920;921;91;46;60;40;43;33];
 [38;922;923;924;925;926;927;928;929;931;93;36;42;41;59;94];
 [45;47;932;933;934;935;936;937;65533;65533;124;44;37;95;62;63];
 [65533;902;904;905;160;906;908;910;911;96;58;163;167;39;61;34];
 [196;97;98;99;100;101;102;103;104;105;945;946;947;948;949;950];
 [214;106;107;108;109;110;111;112;113;114;951;952;953;954;955;956];
 [220;168;115;116;117;118;119;120;121;122;957;958;959;960;961;963];
 [65533;940;941;942;970;943;972;973;971;974;962;964;965;966;967;968];
 [184;65;66;67;68;69;70;71;72;73;173;969;226;224;228;234];
 [180;74;75;76;77;78;79;80;81;82;177;233;232;235;238;239];
 [176;65533;83;84;85;86;87;88;89;90;189;246;244;251;249;252];
 [48;49;50;51;52;53;54;55;56;57;255;231;199;65533;65533;159]].

(* lib/converters/ebcdic423.h:93-126 ebcdic423_page00 *)
Definition ebcdic423_page00 : tab := mk [
 [0;1;2;3;55;45;46;47;22;5;37;11;12;13;14;15];
 [16;17;18;19;60;61;50;38;24;25;63;39;28;29;30;31];
 [64;79;127;0;91;108;80;125;77;93;92;78;107;96;75;97];
 [240;241;242;243;244;245;246;247;248;249;122;94;76;126;110;111];
 [0;193;194;195;196;197;198;199;200;201;209;210;211;212;213;214];
 [215;216;217;226;227;228;229;230;231;232;233;74;0;90;95;109];
 [121;129;130;131;132;133;134;135;136;137;145;146;147;148;149;150];
 [151;152;153;162;163;164;165;166;167;168;169;0;106;0;0;7];
 [32;33;34;35;36;21;6;23;40;41;42;43;44;9;10;27];
 [48;49;26;51;52;53;54;8;56;57;58;59;4;20;62;255];
 [116;0;0;123;0;0;0;124;161;0;0;0;0;202;0;0];
 [224;218;0;0;208;0;0;0;192;0;0;0;0;234;0;0];
 [0;0;0;0;128;0;0;252;0;0;0;0;0;0;0;0];
 [0;0;0;0;0;0;144;0;0;0;0;0;160;0;0;0];
 [205;0;204;0;206;0;0;251;220;219;207;221;0;0;222;223];
 [0;0;0;0;236;0;235;0;0;238;0;237;239;0;0;250]].

(* lib/converters/ebcdic423.h:127-138 ebcdic423_page03 *)
Definition ebcdic423_page03 : tab := mk [
 [0;0;0;0;0;0;113;0;114;115;117;0;118;0;119;120];
 [0;65;66;67;68;69;70;71;72;73;81;82;83;84;85;86];
 [87;88;0;89;98;99;100;101;102;103;0;0;177;178;179;181];
 [0;138;139;140;141;142;143;154;155;156;157;158;159;170;171;172];
 [173;174;186;175;187;188;189;190;191;203;180;184;182;183;185;0]].

(* lib/converters/ebcdic423.h:81-91 ebcdic423_mbtowc *)
Definition ebcdic423_mbtowc (s : list Z) (n : nat) : res (Z * option Z) :=
  let pwc := (None : option Z) in
  rd s 0%nat (fun c =>
  tget ebcdic423_2uni c (fun wc =>
  if (negb (wc =? 0xfffd)) then
   let pwc := Some wc in
   Ok (1, pwc)
  else
   Ok ((-1), pwc))).

(* lib/converters/ebcdic423.h:140-153 ebcdic423_wctomb *)
Definition ebcdic423_wctomb_j (c : Z) (wc : Z) (r : wlog) : res (Z * wlog) :=
  if ((negb (c =? 0)) ||| (wc =? 0)) then
   let r := wr r 0%nat c in
   Ok (1, r)
  else
   Ok ((-1), r).
(* lib/converters/ebcdic423.h:140-153 ebcdic423_wctomb *)
Definition ebcdic423_wctomb (wc : Z) (n : nat) : res (Z * wlog) :=
  let r := ([] : wlog) in
  let c := 0 in
  if (wc <? 0x100) then
   tget ebcdic423_page00 wc (fun c =>
   ebcdic423_wctomb_j c wc r)
  else
   if ((wc >=? 0x380) &&& (wc <? 0x3d0)) then
    tget ebcdic423_page03 (wc - 0x380) (fun c =>
    ebcdic423_wctomb_j c wc r)
   else
    ebcdic423_wctomb_j c wc r.

(* lib/converters/ebcdic424.h:30-79 ebcdic424_2uni *)
Definition ebcdic424_2uni : tab := mk [
 [0;1;2;3;156;9;134;127;151;141;142;11;12;13;14;15];
 [16;17;18;19;157;133;8;135;24;25;146;143;28;29;30;31];
 [128;129;130;131;132;10;23;27;136;137;138;139;140;5;6;7];
 [144;145;22;147;148;149;150;4;152;153;154;155;20;21;158;26];
 [32;1488;1489;1490;1491;1492;1493;1494;1495;1496;162;46;60;40;43;124];
 [38;1497;1498;1499;1500;1501;1502;1503;1504;1505;33;36;42;41;59;172];
 [45;47;1506;1507;1508;1509;1510;1511;1512;1513;166;44;37;95;62;63];
 [65533;1514;65533;65533;160;65533;65533;65533;8215;96;58;35;64;39;61;34];
 [65533;97;98;99;100;101;102;103;104;105;171;187;65533;65533;65533;177];
 [176;106;107;108;109;110;111;112;113;114;65533;65533;65533;184;65533;164];
 [181;126;115;116;117;118;119;120;121;122;65533;65533;65533;65533;65533;174];
 [94;163;165;8226;169;167;182;188;189;190;91;93;8254;168;180;215];
 [123;65;66;67;68;69;70;71;72;73;173;65533;65533;65533;65533;65533];
 [125;74;75;76;77;78;79;80;81;82;185;65533;65533;65533;65533;65533];
 [92;247;83;84;85;86;87;88;89;90;178;65533;65533;65533;65533;65533];
 [48;49;50;51;52;53;54;55;56;57;179;65533;65533;65533;65533;159]].

(* lib/converters/ebcdic424.h:93-125 ebcdic424_page00 *)
Definition ebcdic424_page00 : tab := mk [
 [0;1;2;3;55;45;46;47;22;5;37;11;12;13;14;15];
 [16;17;18;19;60;61;50;38;24;25;63;39;28;29;30;31];
 [64;90;127;123;91;108;80;125;77;93;92;78;107;96;75;97];
 [240;241;242;243;244;245;246;247;248;249;122;94;76;126;110;111];
 [124;193;194;195;196;197;198;199;200;201;209;210;211;212;213;214];
 [215;216;217;226;227;228;229;230;231;232;233;186;224;187;176;109];
 [121;129;130;131;132;133;134;135;136;137;145;146;147;148;149;150];
 [151;152;153;162;163;164;165;166;167;168;169;192;79;208;161;7];
 [32;33;34;35;36;21;6;23;40;41;42;43;44;9;10;27];
 [48;49;26;51;52;53;54;8;56;57;58;59;4;20;62;255];
 [116;0;74;177;159;178;106;181;189;180;0;138;95;202;175;0];
 [144;143;234;250;190;160;182;0;157;218;0;139;183;184;185;0];
 [0;0;0;0;0;0;0;0;0;0;0;0;0;0;0;0];
 [0;0;0;0;0;0;0;191;0;0;0;0;0;0;0;0];
 [0;0;0;0;0;0;0;0;0;0;0;0;0;0;0;0];
 [0;0;0;0;0;0;0;225]].

(* lib/converters/ebcdic424.h:126-131 ebcdic424_page05 *)
Definition ebcdic424_page05 : tab := mk [
 [65;66;67;68;69;70;71;72;73;81;82;83;84;85;86;87];
 [88;89;98;99;100;101;102;103;104;105;113;0;0;0;0;0]].

(* lib/converters/ebcdic424.h:132-139 ebcdic424_page20 *)
Definition ebcdic424_page20 : tab := mk [
 [0;0;0;0;0;0;0;120;0;0;0;0;0;0;0;0];
 [0;0;179;0;0;0;0;0;0;0;0;0;0;0;0;0];
 [0;0;0;0;0;0;0;0;0;0;0;0;0;0;188;0]].

(* lib/converters/ebcdic424.h:81-91 ebcdic424_mbtowc *)
Definition ebcdic424_mbtowc (s : list Z) (n : nat) : res (Z * option Z) :=
  let pwc := (None : option Z) in
  rd s 0%nat (fun c =>
  tget ebcdic424_2uni c (fun wc =>
  if (negb (wc =? 0xfffd)) then
   let pwc := Some wc in
   Ok (1, pwc)
  else
   Ok ((-1), pwc))).

(* lib/converters/ebcdic424.h:141-156 ebcdic424_wctomb *)
Definition ebcdic424_wctomb_j (c : Z) (wc : Z) (r : wlog) : res (Z * wlog) :=
  if ((negb (c =? 0)) ||| (wc =? 0)) then
   let r := wr r 0%nat c in
   Ok (1, r)
  else
   Ok ((-1), r).
(* lib/converters/ebcdic424.h:141-156 ebcdic424_wctomb *)
Definition ebcdic424_wctomb (wc : Z) (n : nat) : res (Z * wlog) :=
  let r := ([] : wlog) in
  let c := 0 in
  if (wc <? 0xf8) then
   tget ebcdic424_page00 wc (fun c =>
   ebcdic424_wctomb_j c wc r)
  else
   if ((wc >=? 0x5d0) &&& (wc <? 0x5f0)) then
    tget ebcdic424_page05 (wc - 0x5d0) (fun c =>
    ebcdic424_wctomb_j c wc r)
   else
    if ((wc >=? 0x2010) &&& (wc <? 0x2040)) then
     tget ebcdic424_page20 (wc - 0x2010) (fun c =>
     ebcdic424_wctomb_j c wc r)
    else
     ebcdic424_wctomb_j c wc r.

(* lib/converters/ebcdic425.h:30-79 ebcdic425_2uni *)
Definition ebcdic425_2uni : tab := mk [
 [0;1;2;3;156;9;134;127;151;141;142;11;12;13;14;15];
 [16;17;18;19;157;133;8;135;24;25;146;143;28;29;30;31];
 [128;129;130;131;132;10;23;27;136;137;138;139;140;5;6;7];
 [144;145;22;147;148;149;150;4;152;153;154;155;20;21;158;26];
 [32;160;226;1548;224;1563;1600;1567;231;1569;1570;46;60;40;43;124];
 [38;233;234;235;232;1571;238;239;1572;1573;33;36;42;41;59;94];
 [45;47;194;1574;192;1575;1576;1577;199;1578;1579;44;37;95;62;63];
 [1580;201;202;203;200;1581;206;207;1582;96;58;35;64;39;61;34];
 [1583;97;98;99;100;101;102;103;104;105;171;187;1584;1585;1586;1587];
 [1588;106;107;108;109;110;111;112;113;114;1589;1590;230;1591;198;8364];
 [181;126;115;116;117;118;119;120;121;122;1592;1593;1594;91;1601;1602];
 [1603;1604;1605;1606;169;167;1607;338;339;376;1608;1609;1610;93;1611;215];
 [123;65;66;67;68;69;70;71;72;73;173;244;1612;1613;1614;1615];
 [125;74;75;76;77;78;79;80;81;82;1616;251;252;249;1617;255];
 [92;247;83;84;85;86;87;88;89;90;1618;212;8204;8205;8206;8207];
 [48;49;50;51;52;53;54;55;56;57;65533;219;220;217;164;159]].

(* lib/converters/ebcdic425.h:93-126 ebcdic425_page00 *)
Definition ebcdic425_page00 : tab := mk [
 [0;1;2;3;55;45;46;47;22;5;37;11;12;13;14;15];
 [16;17;18;19;60;61;50;38;24;25;63;39;28;29;30;31];
 [64;90;127;123;91;108;80;125;77;93;92;78;107;96;75;97];
 [240;241;242;243;244;245;246;247;248;249;122;94;76;126;110;111];
 [124;193;194;195;196;197;198;199;200;201;209;210;211;212;213;214];
 [215;216;217;226;227;228;229;230;231;232;233;173;224;189;95;109];
 [121;129;130;131;132;133;134;135;136;137;145;146;147;148;149;150];
 [151;152;153;162;163;164;165;166;167;168;169;192;79;208;161;7];
 [32;33;34;35;36;21;6;23;40;41;42;43;44;9;10;27];
 [48;49;26;51;52;53;54;8;56;57;58;59;4;20;62;255];
 [65;0;0;0;254;0;0;181;0;180;0;138;0;202;0;0];
 [0;0;0;0;0;160;0;0;0;0;0;139;0;0;0;0];
 [100;0;98;0;0;0;158;104;116;113;114;115;0;0;118;119];
 [0;0;0;0;235;0;0;191;0;253;0;251;252;0;0;0];
 [68;0;66;0;0;0;156;72;84;81;82;83;0;0;86;87];
 [0;0;0;0;203;0;0;225;0;221;0;219;220;0;0;223]].

(* lib/converters/ebcdic425.h:127-134 ebcdic425_page01 *)
Definition ebcdic425_page01 : tab := mk [
 [0;0;183;184;0;0;0;0;0;0;0;0;0;0;0;0];
 [0;0;0;0;0;0;0;0;0;0;0;0;0;0;0;0];
 [0;0;0;0;0;0;0;0;185;0;0;0;0;0;0;0]].

(* lib/converters/ebcdic425.h:135-146 ebcdic425_page06 *)
Definition ebcdic425_page06 : tab := mk [
 [0;0;0;0;67;0;0;0;0;0;0;0;0;0;0;0];
 [0;0;0;69;0;0;0;71;0;73;74;85;88;89;99;101];
 [102;103;105;106;112;117;120;128;140;141;142;143;144;154;155;157];
 [170;171;172;0;0;0;0;0;70;174;175;176;177;178;179;182];
 [186;187;188;190;204;205;206;207;218;222;234;0;0;0;0;0]].

(* lib/converters/ebcdic425.h:147-149 ebcdic425_page20 *)
Definition ebcdic425_page20 : tab := mk [
 [0;0;0;0;236;237;238;239]].

(* lib/converters/ebcdic425.h:81-91 ebcdic425_mbtowc *)
Definition ebcdic425_mbtowc (s : list Z) (n : nat) : res (Z * option Z) :=
  let pwc := (None : option Z) in
  rd s 0%nat (fun c =>
  tget ebcdic425_2uni c (fun wc =>
  if (negb (wc =? 0xfffd)) then
   let pwc := Some wc in
   Ok (1, pwc)
  else
   Ok ((-1), pwc))).

(* lib/converters/ebcdic425.h:151-170 ebcdic425_wctomb *)
Definition ebcdic425_wctomb_j (c : Z) (wc : Z) (r : wlog) : res (Z * wlog) :=
  if ((negb (c =? 0)) ||| (wc =? 0)) then
   let r := wr r 0%nat c in
   Ok (1, r)
  else
   Ok ((-1), r).
(* lib/converters/ebcdic425.h:151-170 ebcdic425_wctomb *)
Definition ebcdic425_wctomb (wc : Z) (n : nat) : res (Z * wlog) :=
  let r := ([] : wlog) in
  let c := 0 in
  if (wc <? 0x100) then
   tget ebcdic425_page00 wc (fun c =>
   ebcdic425_wctomb_j c wc r)
  else
   if ((wc >=? 0x150) &&& (wc <? 0x180)) then
    tget ebcdic425_page01 (wc - 0x150) (fun c =>
    ebcdic425_wctomb_j c wc r)
   else
    if ((wc >=? 0x608) &&& (wc <? 0x658)) then
     tget ebcdic425_page06 (wc - 0x608) (fun c =>
     ebcdic425_wctomb_j c wc r)
    else
     if ((wc >=? 0x2008) &&& (wc <? 0x2010)) then
      tget ebcdic425_page20 (wc - 0x2008) (fun c =>
      ebcdic425_wctomb_j c wc r)
     else
      if (wc =? 0x20ac) then
       let c := 0x9f in
       ebcdic425_wctomb_j c wc r
      else
       ebcdic425_wctomb_j c wc r.

(* lib/converters/ebcdic500.h:30-79 ebcdic500_2uni *)
Definition ebcdic500_2uni : tab := mk [
 [0;1;2;3;156;9;134;127;151;141;142;11;12;13;14;15];
 [16;17;18;19;157;133;8;135;24;25;146;143;28;29;30;31];
 [128;129;130;131;132;10;23;27;136;137;138;139;140;5;6;7];
 [144;145;22;147;148;149;150;4;152;153;154;155;20;21;158;26];
 [32;160;226;228;224;225;227;229;231;241;91;46;60;40;43;33];
 [38;233;234;235;232;237;238;239;236;223;93;36;42;41;59;94];
 [45;47;194;196;192;193;195;197;199;209;166;44;37;95;62;63];
 [248;201;202;203;200;205;206;207;204;96;58;35;64;39;61;34];
 [216;97;98;99;100;101;102;103;104;105;171;187;240;253;254;177];
 [176;106;107;108;109;110;111;112;113;114;170;186;230;184;198;164];
 [181;126;115;116;117;118;119;120;121;122;161;191;208;221;222;174];
 [162;163;165;183;169;167;182;188;189;190;172;124;175;168;180;215];
 [123;65;66;67;68;69;70;71;72;73;173;244;246;242;243;245];
 [125;74;75;76;77;78;79;80;81;82;185;251;252;249;250;255];
 [92;247;83;84;85;86;87;88;89;90;178;212;214;210;211;213];
 [48;49;50;51;52;53;54;55;56;57;179;219;220;217;218;159]].

(* lib/converters/ebcdic500.h:88-121 ebcdic500_page00 *)
Definition ebcdic500_page00 : tab := mk [
 [0;1;2;3;55;45;46;47;22;5;37;11;12;13;14;15];
 [16;17;18;19;60;61;50;38;24;25;63;39;28;29;30;31];
 [64;79;127;123;91;108;80;125;77;93;92;78;107;96;75;97];
 [240;241;242;243;244;245;246;247;248;249;122;94;76;126;110;111];
 [124;193;194;195;196;197;198;199;200;201;209;210;211;212;213;214];
 [215;216;217;226;227;228;229;230;231;232;233;74;224;90;95;109];
 [121;129;130;131;132;133;134;135;136;137;145;146;147;148;149;150];
 [151;152;153;162;163;164;165;166;167;168;169;192;187;208;161;7];
 [32;33;34;35;36;21;6;23;40;41;42;43;44;9;10;27];
 [48;49;26;51;52;53;54;8;56;57;58;59;4;20;62;255];
 [65;170;176;177;159;178;106;181;189;180;154;138;186;202;175;188];
 [144;143;234;250;190;160;182;179;157;218;155;139;183;184;185;171];
 [100;101;98;102;99;103;158;104;116;113;114;115;120;117;118;119];
 [172;105;237;238;235;239;236;191;128;253;254;251;252;173;174;89];
 [68;69;66;70;67;71;156;72;84;81;82;83;88;85;86;87];
 [140;73;205;206;203;207;204;225;112;221;222;219;220;141;142;223]].

(* lib/converters/ebcdic500.h:81-86 ebcdic500_mbtowc *)
Definition ebcdic500_mbtowc (s : list Z) (n : nat) : res (Z * option Z) :=
  let pwc := (None : option Z) in
  rd s 0%nat (fun c =>
  tget ebcdic500_2uni c (fun x2 =>
  let pwc := Some x2 in
  Ok (1, pwc))).

(* lib/converters/ebcdic500.h:123-134 ebcdic500_wctomb *)
Definition ebcdic500_wctomb_j (c : Z) (wc : Z) (r : wlog) : res (Z * wlog) :=
  if ((negb (c =? 0)) ||| (wc =? 0)) then
   let r := wr r 0%nat c in
   Ok (1, r)
  else
   Ok ((-1), r).
(* lib/converters/ebcdic500.h:123-134 ebcdic500_wctomb *)
Definition ebcdic500_wctomb (wc : Z) (n : nat) : res (Z * wlog) :=
  let r := ([] : wlog) in
  let c := 0 in
  if (wc <? 0x100) then
   tget ebcdic500_page00 wc (fun c =>
   ebcdic500_wctomb_j c wc r)
  else
   ebcdic500_wctomb_j c wc r.

(* lib/converters/ebcdic838.h:30-79 ebcdic838_2uni *)
Definition ebcdic838_2uni : tab := mk [
 [0;1;2;3;156;9;134;127;151;141;142;11;12;13;14;15];
 [16;17;18;19;157;133;8;135;24;25;146;143;28;29;30;31];
 [128;129;130;131;132;10;23;27;136;137;138;139;140;5;6;7];
 [144;145;22;147;148;149;150;4;152;153;154;155;20;21;158;26];
 [32;160;3585;3586;3587;3588;3589;3590;3591;91;162;46;60;40;43;124];
 [38;3656;3592;3593;3594;3595;3596;3597;3598;93;33;36;42;41;59;172];
 [45;47;3599;3600;3601;3602;3603;3604;3605;94;166;44;37;95;62;63];
 [3647;3662;3606;3607;3608;3609;3610;3611;3612;96;58;35;64;39;61;34];
 [3663;97;98;99;100;101;102;103;104;105;3613;3614;3615;3616;3617;3618];
 [3674;106;107;108;109;110;111;112;113;114;3619;3620;3621;3622;3623;3624];
 [3675;126;115;116;117;118;119;120;121;122;3625;3626;3627;3628;3629;3630];
 [3664;3665;3666;3667;3668;3669;3670;3671;3672;3673;3631;3632;3633;3634;3635;3636];
 [123;65;66;67;68;69;70;71;72;73;3657;3637;3638;3639;3640;3641];
 [125;74;75;76;77;78;79;80;81;82;3642;3648;3649;3650;3651;3652];
 [92;3658;83;84;85;86;87;88;89;90;3653;3654;3655;3656;3657;3658];
 [48;49;50;51;52;53;54;55;56;57;3659;3660;3661;3659;3660;159]].

(* lib/converters/ebcdic838.h:88-111 ebcdic838_page00 *)
Definition ebcdic838_page00 : tab := mk [
 [0;1;2;3;55;45;46;47;22;5;37;11;12;13;14;15];
 [16;17;18;19;60;61;50;38;24;25;63;39;28;29;30;31];
 [64;90;127;123;91;108;80;125;77;93;92;78;107;96;75;97];
 [240;241;242;243;244;245;246;247;248;249;122;94;76;126;110;111];
 [124;193;194;195;196;197;198;199;200;201;209;210;211;212;213;214];
 [215;216;217;226;227;228;229;230;231;232;233;73;224;89;105;109];
 [121;129;130;131;132;133;134;135;136;137;145;146;147;148;149;150];
 [151;152;153;162;163;164;165;166;167;168;169;192;79;208;161;7];
 [32;33;34;35;36;21;6;23;40;41;42;43;44;9;10;27];
 [48;49;26;51;52;53;54;8;56;57;58;59;4;20;62;255];
 [65;0;74;0;0;0;106;0;0;0;0;0;95;0;0;0]].

(* lib/converters/ebcdic838.h:112-125 ebcdic838_page0e *)
Definition ebcdic838_page0e : tab := mk [
 [0;66;67;68;69;70;71;72;82;83;84;85;86;87;88;98];
 [99;100;101;102;103;104;114;115;116;117;118;119;120;138;139;140];
 [141;142;143;154;155;156;157;158;159;170;171;172;173;174;175;186];
 [187;188;189;190;191;203;204;205;206;207;218;0;0;0;0;112];
 [219;220;221;222;223;234;235;236;237;238;239;250;251;252;113;128];
 [176;177;178;179;180;181;182;183;184;185;144;160;0;0;0;0]].

(* lib/converters/ebcdic838.h:81-86 ebcdic838_mbtowc *)
Definition ebcdic838_mbtowc (s : list Z) (n : nat) : res (Z * option Z) :=
  let pwc := (None : option Z) in
  rd s 0%nat (fun c =>
  tget ebcdic838_2uni c (fun x2 =>
  let pwc := Some x2 in
  Ok (1, pwc))).

(* lib/converters/ebcdic838.h:127-140 ebcdic838_wctomb *)
Definition ebcdic838_wctomb_j (c : Z) (wc : Z) (r : wlog) : res (Z * wlog) :=
  if ((negb (c =? 0)) ||| (wc =? 0)) then
   let r := wr r 0%nat c in
   Ok (1, r)
  else
   Ok ((-1), r).
(* lib/converters/ebcdic838.h:127-140 ebcdic838_wctomb *)
Definition ebcdic838_wctomb (wc : Z) (n : nat) : res (Z * wlog) :=
  let r := ([] : wlog) in
  let c := 0 in
  if (wc <? 0xb0) then
   tget ebcdic838_page00 wc (fun c =>
   ebcdic838_wctomb_j c wc r)
  else
   if ((wc >=? 0xe00) &&& (wc <? 0xe60)) then
    tget ebcdic838_page0e (wc - 0xe00) (fun c =>
    ebcdic838_wctomb_j c wc r)
   else
    ebcdic838_wctomb_j c wc r.

(* lib/converters/ebcdic870.h:30-79 ebcdic870_2uni *)
Definition ebcdic870_2uni : tab := mk [
 [0;1;2;3;156;9;134;127;151;141;142;11;12;13;14;15];
 [16;17;18;19;157;133;8;135;24;25;146;143;28;29;30;31];
 [128;129;130;131;132;10;23;27;136;137;138;139;140;5;6;7];
 [144;145;22;147;148;149;150;4;152;153;154;155;20;21;158;26];
 [32;160;226;228;355;225;259;269;231;263;91;46;60;40;43;33];
 [38;233;281;235;367;237;238;318;314;223;93;36;42;41;59;94];
 [45;47;194;196;733;193;258;268;199;262;124;44;37;95;62;63];
 [711;201;280;203;366;205;206;317;313;96;58;35;64;39;61;34];
 [728;97;98;99;100;101;102;103;104;105;347;328;273;253;345;351];
 [176;106;107;108;109;110;111;112;113;114;322;324;353;184;731;164];
 [261;126;115;116;117;118;119;120;121;122;346;327;272;221;344;350];
 [729;260;380;354;379;167;382;378;381;377;321;323;352;168;180;215];
 [123;65;66;67;68;69;70;71;72;73;173;244;246;341;243;337];
 [125;74;75;76;77;78;79;80;81;82;282;369;252;357;250;283];
 [92;247;83;84;85;86;87;88;89;90;271;212;214;340;211;336];
 [48;49;50;51;52;53;54;55;56;57;270;368;220;356;218;159]].

(* lib/converters/ebcdic870.h:88-138 ebcdic870_page00 *)
Definition ebcdic870_page00 : tab := mk [
 [0;1;2;3;55;45;46;47;22;5;37;11;12;13;14;15];
 [16;17;18;19;60;61;50;38;24;25;63;39;28;29;30;31];
 [64;79;127;123;91;108;80;125;77;93;92;78;107;96;75;97];
 [240;241;242;243;244;245;246;247;248;249;122;94;76;126;110;111];
 [124;193;194;195;196;197;198;199;200;201;209;210;211;212;213;214];
 [215;216;217;226;227;228;229;230;231;232;233;74;224;90;95;109];
 [121;129;130;131;132;133;134;135;136;137;145;146;147;148;149;150];
 [151;152;153;162;163;164;165;166;167;168;169;192;106;208;161;7];
 [32;33;34;35;36;21;6;23;40;41;42;43;44;9;10;27];
 [48;49;26;51;52;53;54;8;56;57;58;59;4;20;62;255];
 [65;0;0;0;159;0;0;181;189;0;0;0;0;202;0;0];
 [144;0;0;0;190;0;0;0;157;0;0;0;0;0;0;0];
 [0;101;98;0;99;0;0;104;0;113;0;115;0;117;118;0];
 [0;0;0;238;235;0;236;191;0;0;254;0;252;173;0;89];
 [0;69;66;0;67;0;0;72;0;81;0;83;0;85;86;0];
 [0;0;0;206;203;0;204;225;0;0;222;0;220;141;0;0];
 [0;0;102;70;177;160;105;73;0;0;0;0;103;71;250;234];
 [172;140;0;0;0;0;0;0;114;82;218;223;0;0;0;0];
 [0;0;0;0;0;0;0;0;0;0;0;0;0;0;0;0];
 [0;0;0;0;0;0;0;0;0;120;88;0;0;119;87;0];
 [0;186;154;187;155;0;0;171;139;0;0;0;0;0;0;0];
 [239;207;0;0;237;205;0;0;174;142;170;138;0;0;175;143];
 [188;156;179;68;253;221;0;0;0;0;0;0;0;0;116;84];
 [251;219;0;0;0;0;0;0;0;185;183;180;178;184;182;0]].

(* lib/converters/ebcdic870.h:139-144 ebcdic870_page02 *)
Definition ebcdic870_page02 : tab := mk [
 [0;0;0;0;0;0;0;112;0;0;0;0;0;0;0;0];
 [0;0;0;0;0;0;0;0;128;176;0;158;0;100;0;0]].

(* lib/converters/ebcdic870.h:81-86 ebcdic870_mbtowc *)
Definition ebcdic870_mbtowc (s : list Z) (n : nat) : res (Z * option Z) :=
  let pwc := (None : option Z) in
  rd s 0%nat (fun c =>
  tget ebcdic870_2uni c (fun x2 =>
  let pwc := Some x2 in
  Ok (1, pwc))).

(* lib/converters/ebcdic870.h:146-159 ebcdic870_wctomb *)
Definition ebcdic870_wctomb_j (c : Z) (wc : Z) (r : wlog) : res (Z * wlog) :=
  if ((negb (c =? 0)) ||| (wc =? 0)) then
   let r := wr r 0%nat c in
   Ok (1, r)
  else
   Ok ((-1), r).
(* lib/converters/ebcdic870.h:146-159 ebcdic870_wctomb *)
Definition ebcdic870_wctomb (wc : Z) (n : nat) : res (Z * wlog) :=
  let r := ([] : wlog) in
  let c := 0 in
  if (wc <? 0x180) then
   tget ebcdic870_page00 wc (fun c =>
   ebcdic870_wctomb_j c wc r)
  else
   if ((wc >=? 0x2c0) &&& (wc <? 0x2e0)) then
    tget ebcdic870_page02 (wc - 0x2c0) (fun c =>
    ebcdic870_wctomb_j c wc r)
   else
    ebcdic870_wctomb_j c wc r.

(* lib/converters/ebcdic871.h:30-79 ebcdic871_2uni *)
Definition ebcdic871_2uni : tab := mk [
 [0;1;2;3;156;9;134;127;151;141;142;11;12;13;14;15];
 [16;17;18;19;157;133;8;135;24;25;146;143;28;29;30;31];
 [128;129;130;131;132;10;23;27;136;137;138;139;140;5;6;7];
 [144;145;22;147;148;149;150;4;152;153;154;155;20;21;158;26];
 [32;160;226;228;224;225;227;229;231;241;222;46;60;40;43;33];
 [38;233;234;235;232;237;238;239;236;223;198;36;42;41;59;214];
 [45;47;194;196;192;193;195;197;199;209;166;44;37;95;62;63];
 [248;201;202;203;200;205;206;207;204;240;58;35;208;39;61;34];
 [216;97;98;99;100;101;102;103;104;105;171;187;96;253;123;177];
 [176;106;107;108;109;110;111;112;113;114;170;186;125;184;93;164];
 [181;246;115;116;117;118;119;120;121;122;161;191;64;221;91;174];
 [162;163;165;183;169;167;182;188;189;190;172;124;175;168;92;215];
 [254;65;66;67;68;69;70;71;72;73;173;244;126;242;243;245];
 [230;74;75;76;77;78;79;80;81;82;185;251;252;249;250;255];
 [180;247;83;84;85;86;87;88;89;90;178;212;94;210;211;213];
 [48;49;50;51;52;53;54;55;56;57;179;219;220;217;218;159]].

(* lib/converters/ebcdic871.h:88-121 ebcdic871_page00 *)
Definition ebcdic871_page00 : tab := mk [
 [0;1;2;3;55;45;46;47;22;5;37;11;12;13;14;15];
 [16;17;18;19;60;61;50;38;24;25;63;39;28;29;30;31];
 [64;79;127;123;91;108;80;125;77;93;92;78;107;96;75;97];
 [240;241;242;243;244;245;246;247;248;249;122;94;76;126;110;111];
 [172;193;194;195;196;197;198;199;200;201;209;210;211;212;213;214];
 [215;216;217;226;227;228;229;230;231;232;233;174;190;158;236;109];
 [140;129;130;131;132;133;134;135;136;137;145;146;147;148;149;150];
 [151;152;153;162;163;164;165;166;167;168;169;142;187;156;204;7];
 [32;33;34;35;36;21;6;23;40;41;42;43;44;9;10;27];
 [48;49;26;51;52;53;54;8;56;57;58;59;4;20;62;255];
 [65;170;176;177;159;178;106;181;189;180;154;138;186;202;175;188];
 [144;143;234;250;224;160;182;179;157;218;155;139;183;184;185;171];
 [100;101;98;102;99;103;90;104;116;113;114;115;120;117;118;119];
 [124;105;237;238;235;239;95;191;128;253;254;251;252;173;74;89];
 [68;69;66;70;67;71;208;72;84;81;82;83;88;85;86;87];
 [121;73;205;206;203;207;161;225;112;221;222;219;220;141;192;223]].

(* lib/converters/ebcdic871.h:81-86 ebcdic871_mbtowc *)
Definition ebcdic871_mbtowc (s : list Z) (n : nat) : res (Z * option Z) :=
  let pwc := (None : option Z) in
  rd s 0%nat (fun c =>
  tget ebcdic871_2uni c (fun x2 =>
  let pwc := Some x2 in
  Ok (1, pwc))).

(* lib/converters/ebcdic871.h:123-134 ebcdic871_wctomb *)
Definition ebcdic871_wctomb_j (c : Z) (wc : Z) (r : wlog) : res (Z * wlog) :=
  if ((negb (c =? 0)) ||| (wc =? 0)) then
   let r := wr r 0%nat c in
   Ok (1, r)
  else
   Ok ((-1), r).
(* lib/converters/ebcdic871.h:123-134 ebcdic871_wctomb *)
Definition ebcdic871_wctomb (wc : Z) (n : nat) : res (Z * wlog) :=
  let r := ([] : wlog) in
  let c := 0 in
  if (wc <? 0x100) then
   tget ebcdic871_page00 wc (fun c =>
   ebcdic871_wctomb_j c wc r)
  else
   ebcdic871_wctomb_j c wc r.

(* lib/converters/ebcdic875.h:30-79 ebcdic875_2uni *)
Definition ebcdic875_2uni : tab := mk [
 [0;1;2;3;156;9;134;127;151;141;142;11;12;13;14;15];
 [16;17;18;19;157;133;8;135;24;25;146;143;28;29;30;31];
 [128;129;130;131;132;10;23;27;136;137;138;139;140;5;6;7];
 [144;145;22;147;148;149;150;4;152;153;154;155;20;21;158;26];
 [32;913;914;915;916;917;918;919;920;921;91;46;60;40;43;33];
 [38;922;923;924;925;926;927;928;929;931;93;36;42;41;59;94];
 [45;47;932;933;934;935;936;937;938;939;124;44;37;95;62;63];
 [168;902;904;905;160;906;908;910;911;96;58;35;64;39;61;34];
 [901;97;98;99;100;101;102;103;104;105;945;946;947;948;949;950];
 [176;106;107;108;109;110;111;112;113;114;951;952;953;954;955;956];
 [180;126;115;116;117;118;119;120;121;122;957;958;959;960;961;963];
 [163;940;941;942;970;943;972;973;971;974;962;964;965;966;967;968];
 [123;65;66;67;68;69;70;71;72;73;173;969;912;944;8216;8213];
 [125;74;75;76;77;78;79;80;81;82;177;189;65533;903;8217;166];
 [92;65533;83;84;85;86;87;88;89;90;178;167;65533;65533;171;172];
 [48;49;50;51;52;53;54;55;56;57;179;169;65533;65533;187;159]].

(* lib/converters/ebcdic875.h:93-118 ebcdic875_page00 *)
Definition ebcdic875_page00 : tab := mk [
 [0;1;2;3;55;45;46;47;22;5;37;11;12;13;14;15];
 [16;17;18;19;60;61;50;38;24;25;63;39;28;29;30;31];
 [64;79;127;123;91;108;80;125;77;93;92;78;107;96;75;97];
 [240;241;242;243;244;245;246;247;248;249;122;94;76;126;110;111];
 [124;193;194;195;196;197;198;199;200;201;209;210;211;212;213;214];
 [215;216;217;226;227;228;229;230;231;232;233;74;224;90;95;109];
 [121;129;130;131;132;133;134;135;136;137;145;146;147;148;149;150];
 [151;152;153;162;163;164;165;166;167;168;169;192;106;208;161;7];
 [32;33;34;35;36;21;6;23;40;41;42;43;44;9;10;27];
 [48;49;26;51;52;53;54;8;56;57;58;59;4;20;62;255];
 [116;0;0;176;0;0;223;235;112;251;0;238;239;202;0;0];
 [144;218;234;250;160;0;0;0;0;0;0;254;0;219;0;0]].

(* lib/converters/ebcdic875.h:119-130 ebcdic875_page03 *)
Definition ebcdic875_page03 : tab := mk [
 [0;0;0;0;0;128;113;221;114;115;117;0;118;0;119;120];
 [204;65;66;67;68;69;70;71;72;73;81;82;83;84;85;86];
 [87;88;0;89;98;99;100;101;102;103;104;105;177;178;179;181];
 [205;138;139;140;141;142;143;154;155;156;157;158;159;170;171;172];
 [173;174;186;175;187;188;189;190;191;203;180;184;182;183;185;0]].

(* lib/converters/ebcdic875.h:131-134 ebcdic875_page20 *)
Definition ebcdic875_page20 : tab := mk [
 [0;0;0;0;0;207;0;0;206;222;0;0;0;0;0;0]].

(* lib/converters/ebcdic875.h:81-91 ebcdic875_mbtowc *)
Definition ebcdic875_mbtowc (s : list Z) (n : nat) : res (Z * option Z) :=
  let pwc := (None : option Z) in
  rd s 0%nat (fun c =>
  tget ebcdic875_2uni c (fun wc =>
  if (negb (wc =? 0xfffd)) then
   let pwc := Some wc in
   Ok (1, pwc)
  else
   Ok ((-1), pwc))).

(* lib/converters/ebcdic875.h:136-151 ebcdic875_wctomb *)
Definition ebcdic875_wctomb_j (c : Z) (wc : Z) (r : wlog) : res (Z * wlog) :=
  if ((negb (c =? 0)) ||| (wc =? 0)) then
   let r := wr r 0%nat c in
   Ok (1, r)
  else
   Ok ((-1), r).
(* lib/converters/ebcdic875.h:136-151 ebcdic875_wctomb *)
Definition ebcdic875_wctomb (wc : Z) (n : nat) : res (Z * wlog) :=
  let r := ([] : wlog) in
  let c := 0 in
  if (wc <? 0xc0) then
   tget ebcdic875_page00 wc (fun c =>
   ebcdic875_wctomb_j c wc r)
  else
   if ((wc >=? 0x380) &&& (wc <? 0x3d0)) then
    tget ebcdic875_page03 (wc - 0x380) (fun c =>
    ebcdic875_wctomb_j c wc r)
   else
    if ((wc >=? 0x2010) &&& (wc <? 0x2020)) then
     tget ebcdic875_page20 (wc - 0x2010) (fun c =>
     ebcdic875_wctomb_j c wc r)
    else
     ebcdic875_wctomb_j c wc r.

(* lib/converters/ebcdic880.h:30-79 ebcdic880_2uni *)
Definition ebcdic880_2uni : tab := mk [
 [0;1;2;3;156;9;134;127;151;141;142;11;12;13;14;15];
 [16;17;18;19;157;133;8;135;24;25;146;143;28;29;30;31];
 [128;129;130;131;132;10;23;27;136;137;138;139;140;5;6;7];
 [144;145;22;147;148;149;150;4;152;153;154;155;20;21;158;26];
 [32;160;1106;1107;1105;1108;1109;1110;1111;1112;91;46;60;40;43;33];
 [38;1113;1114;1115;1116;1118;1119;1066;8470;1026;93;36;42;41;59;94];
 [45;47;1027;1025;1028;1029;1030;1031;1032;1033;124;44;37;95;62;63];
 [1034;1035;1036;173;1038;1039;1102;1072;1073;96;58;35;64;39;61;34];
 [1094;97;98;99;100;101;102;103;104;105;1076;1077;1092;1075;1093;1080];
 [1081;106;107;108;109;110;111;112;113;114;1082;1083;1084;1085;1086;1087];
 [1103;126;115;116;117;118;119;120;121;122;1088;1089;1090;1091;1078;1074];
 [1100;1099;1079;1096;1101;1097;1095;1098;1070;1040;1041;1062;1044;1045;1060;1043];
 [123;65;66;67;68;69;70;71;72;73;1061;1048;1049;1050;1051;1052];
 [125;74;75;76;77;78;79;80;81;82;1053;1054;1055;1071;1056;1057];
 [92;164;83;84;85;86;87;88;89;90;1058;1059;1046;1042;1068;1067];
 [48;49;50;51;52;53;54;55;56;57;1047;1064;1069;1065;1063;159]].

(* lib/converters/ebcdic880.h:88-111 ebcdic880_page00 *)
Definition ebcdic880_page00 : tab := mk [
 [0;1;2;3;55;45;46;47;22;5;37;11;12;13;14;15];
 [16;17;18;19;60;61;50;38;24;25;63;39;28;29;30;31];
 [64;79;127;123;91;108;80;125;77;93;92;78;107;96;75;97];
 [240;241;242;243;244;245;246;247;248;249;122;94;76;126;110;111];
 [124;193;194;195;196;197;198;199;200;201;209;210;211;212;213;214];
 [215;216;217;226;227;228;229;230;231;232;233;74;224;90;95;109];
 [121;129;130;131;132;133;134;135;136;137;145;146;147;148;149;150];
 [151;152;153;162;163;164;165;166;167;168;169;192;106;208;161;7];
 [32;33;34;35;36;21;6;23;40;41;42;43;44;9;10;27];
 [48;49;26;51;52;53;54;8;56;57;58;59;4;20;62;255];
 [65;0;0;0;225;0;0;0;0;0;0;0;0;115;0;0]].

(* lib/converters/ebcdic880.h:112-125 ebcdic880_page04 *)
Definition ebcdic880_page04 : tab := mk [
 [0;99;89;98;100;101;102;103;104;105;112;113;114;0;116;117];
 [185;186;237;191;188;189;236;250;203;204;205;206;207;218;219;220];
 [222;223;234;235;190;202;187;254;251;253;87;239;238;252;184;221];
 [119;120;175;141;138;139;174;178;143;144;154;155;156;157;158;159];
 [170;171;172;173;140;142;128;182;179;181;183;177;176;180;118;160];
 [0;68;66;67;69;70;71;72;73;81;82;83;84;0;85;86]].

(* lib/converters/ebcdic880.h:81-86 ebcdic880_mbtowc *)
Definition ebcdic880_mbtowc (s : list Z) (n : nat) : res (Z * option Z) :=
  let pwc := (None : option Z) in
  rd s 0%nat (fun c =>
  tget ebcdic880_2uni c (fun x2 =>
  let pwc := Some x2 in
  Ok (1, pwc))).

(* lib/converters/ebcdic880.h:127-142 ebcdic880_wctomb *)
Definition ebcdic880_wctomb_j (c : Z) (wc : Z) (r : wlog) : res (Z * wlog) :=
  if ((negb (c =? 0)) ||| (wc =? 0)) then
   let r := wr r 0%nat c in
   Ok (1, r)
  else
   Ok ((-1), r).
(* lib/converters/ebcdic880.h:127-142 ebcdic880_wctomb *)
Definition ebcdic880_wctomb (wc : Z) (n : nat) : res (Z * wlog) :=
  let r := ([] : wlog) in
  let c := 0 in
  if (wc <? 0xb0) then
   tget ebcdic880_page00 wc (fun c =>
   ebcdic880_wctomb_j c wc r)
  else
   if ((wc >=? 0x400) &&& (wc <? 0x460)) then
    tget ebcdic880_page04 (wc - 0x400) (fun c =>
    ebcdic880_wctomb_j c wc r)
   else
    if (wc =? 0x2116) then
     let c := 0x58 in
     ebcdic880_wctomb_j c wc r
    else
     ebcdic880_wctomb_j c wc r.

(* lib/converters/ebcdic905.h:30-79 ebcdic905_2uni *)
Definition ebcdic905_2uni : tab := mk [
 [0;1;2;3;156;9;134;127;151;141;142;11;12;13;14;15];
 [16;17;18;19;157;133;8;135;24;25;146;143;28;29;30;31];
 [128;129;130;131;132;10;23;27;136;137;138;139;140;5;6;7];
 [144;145;22;147;148;149;150;4;152;153;154;155;20;21;158;26];
 [32;160;226;228;224;225;65533;267;123;241;199;46;60;40;43;33];
 [38;233;234;235;232;237;238;239;236;223;286;304;42;41;59;94];
 [45;47;194;196;192;193;65533;266;91;209;351;44;37;95;62;63];
 [65533;201;202;203;200;205;206;207;204;305;58;214;350;39;61;220];
 [728;97;98;99;100;101;102;103;104;105;295;265;349;365;65533;124];
 [176;106;107;108;109;110;111;112;113;114;293;285;309;184;65533;164];
 [181;246;115;116;117;118;119;120;121;122;294;264;348;364;65533;64];
 [729;163;380;125;379;167;93;183;189;36;292;284;308;168;180;215];
 [231;65;66;67;68;69;70;71;72;73;173;244;126;242;243;289];
 [287;74;75;76;77;78;79;80;81;82;96;251;92;249;250;65533];
 [252;247;83;84;85;86;87;88;89;90;178;212;35;210;211;288];
 [48;49;50;51;52;53;54;55;56;57;179;219;34;217;218;159]].

(* lib/converters/ebcdic905.h:93-126 ebcdic905_page00 *)
Definition ebcdic905_page00 : tab := mk [
 [0;1;2;3;55;45;46;47;22;5;37;11;12;13;14;15];
 [16;17;18;19;60;61;50;38;24;25;63;39;28;29;30;31];
 [64;79;252;236;185;108;80;125;77;93;92;78;107;96;75;97];
 [240;241;242;243;244;245;246;247;248;249;122;94;76;126;110;111];
 [175;193;194;195;196;197;198;199;200;201;209;210;211;212;213;214];
 [215;216;217;226;227;228;229;230;231;232;233;104;220;182;95;109];
 [218;129;130;131;132;133;134;135;136;137;145;146;147;148;149;150];
 [151;152;153;162;163;164;165;166;167;168;169;72;143;179;204;7];
 [32;33;34;35;36;21;6;23;40;41;42;43;44;9;10;27];
 [48;49;26;51;52;53;54;8;56;57;58;59;4;20;62;255];
 [65;0;0;177;159;0;0;181;189;0;0;0;0;202;0;0];
 [144;0;234;250;190;160;0;183;157;0;0;0;0;184;0;0];
 [100;101;98;0;99;0;0;74;116;113;114;115;120;117;118;119];
 [0;105;237;238;235;0;123;191;0;253;254;251;127;0;0;89];
 [68;69;66;0;67;0;0;192;84;81;82;83;88;85;86;87];
 [0;73;205;206;203;0;161;225;0;221;222;219;224;0;0;0]].

(* lib/converters/ebcdic905.h:127-143 ebcdic905_page01 *)
Definition ebcdic905_page01 : tab := mk [
 [171;139;103;71;0;0;0;0;0;0;0;0;0;0;0;0];
 [0;0;0;0;187;155;90;208;239;207;0;0;186;154;170;138];
 [0;0;0;0;0;0;0;0;91;121;0;0;188;156;0;0];
 [0;0;0;0;0;0;0;0;0;0;0;0;0;0;0;0];
 [0;0;0;0;0;0;0;0;0;0;0;0;0;0;0;0];
 [0;0;0;0;172;140;124;106;0;0;0;0;0;0;0;0];
 [0;0;0;0;173;141;0;0;0;0;0;0;0;0;0;0];
 [0;0;0;180;178;0;0;0]].

(* lib/converters/ebcdic905.h:144-146 ebcdic905_page02 *)
Definition ebcdic905_page02 : tab := mk [
 [128;176;0;0;0;0;0;0]].

(* lib/converters/ebcdic905.h:81-91 ebcdic905_mbtowc *)
Definition ebcdic905_mbtowc (s : list Z) (n : nat) : res (Z * option Z) :=
  let pwc := (None : option Z) in
  rd s 0%nat (fun c =>
  tget ebcdic905_2uni c (fun wc =>
  if (negb (wc =? 0xfffd)) then
   let pwc := Some wc in
   Ok (1, pwc)
  else
   Ok ((-1), pwc))).

(* lib/converters/ebcdic905.h:148-163 ebcdic905_wctomb *)
Definition ebcdic905_wctomb_j (c : Z) (wc : Z) (r : wlog) : res (Z * wlog) :=
  if ((negb (c =? 0)) ||| (wc =? 0)) then
   let r := wr r 0%nat c in
   Ok (1, r)
  else
   Ok ((-1), r).
(* lib/converters/ebcdic905.h:148-163 ebcdic905_wctomb *)
Definition ebcdic905_wctomb (wc : Z) (n : nat) : res (Z * wlog) :=
  let r := ([] : wlog) in
  let c := 0 in
  if (wc <? 0x100) then
   tget ebcdic905_page00 wc (fun c =>
   ebcdic905_wctomb_j c wc r)
  else
   if ((wc >=? 0x108) &&& (wc <? 0x180)) then
    tget ebcdic905_page01 (wc - 0x108) (fun c =>
    ebcdic905_wctomb_j c wc r)
   else
    if ((wc >=? 0x2d8) &&& (wc <? 0x2e0)) then
     tget ebcdic905_page02 (wc - 0x2d8) (fun c =>
     ebcdic905_wctomb_j c wc r)
    else
     ebcdic905_wctomb_j c wc r.

(* lib/converters/ebcdic924.h:30-79 ebcdic924_2uni *)
Definition ebcdic924_2uni : tab := mk [
 [0;1;2;3;156;9;134;127;151;141;142;11;12;13;14;15];
 [16;17;18;19;157;133;8;135;24;25;146;143;28;29;30;31];
 [128;129;130;131;132;10;23;27;136;137;138;139;140;5;6;7];
 [144;145;22;147;148;149;150;4;152;153;154;155;20;21;158;26];
 [32;160;226;228;224;225;227;229;231;241;221;46;60;40;43;124];
 [38;233;234;235;232;237;238;239;236;223;33;36;42;41;59;94];
 [45;47;194;196;192;193;195;197;199;209;352;44;37;95;62;63];
 [248;201;202;203;200;205;206;207;204;96;58;35;64;39;61;34];
 [216;97;98;99;100;101;102;103;104;105;171;187;240;253;254;177];
 [176;106;107;108;109;110;111;112;113;114;170;186;230;382;198;8364];
 [181;126;115;116;117;118;119;120;121;122;161;191;208;91;222;174];
 [162;163;165;183;169;167;182;338;339;376;172;353;175;93;381;215];
 [123;65;66;67;68;69;70;71;72;73;173;244;246;242;243;245];
 [125;74;75;76;77;78;79;80;81;82;185;251;252;249;250;255];
 [92;247;83;84;85;86;87;88;89;90;178;212;214;210;211;213];
 [48;49;50;51;52;53;54;55;56;57;179;219;220;217;218;159]].

(* lib/converters/ebcdic924.h:88-121 ebcdic924_page00 *)
Definition ebcdic924_page00 : tab := mk [
 [0;1;2;3;55;45;46;47;22;5;37;11;12;13;14;15];
 [16;17;18;19;60;61;50;38;24;25;63;39;28;29;30;31];
 [64;90;127;123;91;108;80;125;77;93;92;78;107;96;75;97];
 [240;241;242;243;244;245;246;247;248;249;122;94;76;126;110;111];
 [124;193;194;195;196;197;198;199;200;201;209;210;211;212;213;214];
 [215;216;217;226;227;228;229;230;231;232;233;173;224;189;95;109];
 [121;129;130;131;132;133;134;135;136;137;145;146;147;148;149;150];
 [151;152;153;162;163;164;165;166;167;168;169;192;79;208;161;7];
 [32;33;34;35;36;21;6;23;40;41;42;43;44;9;10;27];
 [48;49;26;51;52;53;54;8;56;57;58;59;4;20;62;255];
 [65;170;176;177;0;178;0;181;0;180;154;138;186;202;175;188];
 [144;143;234;250;0;160;182;179;0;218;155;139;0;0;0;171];
 [100;101;98;102;99;103;158;104;116;113;114;115;120;117;118;119];
 [172;105;237;238;235;239;236;191;128;253;254;251;252;74;174;89];
 [68;69;66;70;67;71;156;72;84;81;82;83;88;85;86;87];
 [140;73;205;206;203;207;204;225;112;221;222;219;220;141;142;223]].

(* lib/converters/ebcdic924.h:122-129 ebcdic924_page01 *)
Definition ebcdic924_page01 : tab := mk [
 [0;0;183;184;0;0;0;0;0;0;0;0;0;0;0;0];
 [106;187;0;0;0;0;0;0;0;0;0;0;0;0;0;0];
 [0;0;0;0;0;0;0;0;185;0;0;0;0;190;157;0]].

(* lib/converters/ebcdic924.h:81-86 ebcdic924_mbtowc *)
Definition ebcdic924_mbtowc (s : list Z) (n : nat) : res (Z * option Z) :=
  let pwc := (None : option Z) in
  rd s 0%nat (fun c =>
  tget ebcdic924_2uni c (fun x2 =>
  let pwc := Some x2 in
  Ok (1, pwc))).

(* lib/converters/ebcdic924.h:131-146 ebcdic924_wctomb *)
Definition ebcdic924_wctomb_j (c : Z) (wc : Z) (r : wlog) : res (Z * wlog) :=
  if ((negb (c =? 0)) ||| (wc =? 0)) then
   let r := wr r 0%nat c in
   Ok (1, r)
  else
   Ok ((-1), r).
(* lib/converters/ebcdic924.h:131-146 ebcdic924_wctomb *)
Definition ebcdic924_wctomb (wc : Z) (n : nat) : res (Z * wlog) :=
  let r := ([] : wlog) in
  let c := 0 in
  if (wc <? 0x100) then
   tget ebcdic924_page00 wc (fun c =>
   ebcdic924_wctomb_j c wc r)
  else
   if ((wc >=? 0x150) &&& (wc <? 0x180)) then
    tget ebcdic924_page01 (wc - 0x150) (fun c =>
    ebcdic924_wctomb_j c wc r)
   else
    if (wc =? 0x20ac) then
     let c := 0x9f in
     ebcdic924_wctomb_j c wc r
    else
     ebcdic924_wctomb_j c wc r.

(* lib/converters/ebcdic1025.h:30-79 ebcdic1025_2uni *)
Definition ebcdic1025_2uni : tab := mk [
 [0;1;2;3;156;9;134;127;151;141;142;11;12;13;14;15];
 [16;17;18;19;157;133;8;135;24;25;146;143;28;29;30;31];
 [128;129;130;131;132;10;23;27;136;137;138;139;140;5;6;7];
 [144;145;22;147;148;149;150;4;152;153;154;155;20;21;158;26];
 [32;160;1106;1107;1105;1108;1109;1110;1111;1112;91;46;60;40;43;33];
 [38;1113;1114;1115;1116;1118;1119;1066;8470;1026;93;36;42;41;59;94];
 [45;47;1027;1025;1028;1029;1030;1031;1032;1033;124;44;37;95;62;63];
 [1034;1035;1036;173;1038;1039;1102;1072;1073;96;58;35;64;39;61;34];
 [1094;97;98;99;100;101;102;103;104;105;1076;1077;1092;1075;1093;1080];
 [1081;106;107;108;109;110;111;112;113;114;1082;1083;1084;1085;1086;1087];
 [1103;126;115;116;117;118;119;120;121;122;1088;1089;1090;1091;1078;1074];
 [1100;1099;1079;1096;1101;1097;1095;1098;1070;1040;1041;1062;1044;1045;1060;1043];
 [123;65;66;67;68;69;70;71;72;73;1061;1048;1049;1050;1051;1052];
 [125;74;75;76;77;78;79;80;81;82;1053;1054;1055;1071;1056;1057];
 [92;167;83;84;85;86;87;88;89;90;1058;1059;1046;1042;1068;1067];
 [48;49;50;51;52;53;54;55;56;57;1047;1064;1069;1065;1063;159]].

(* lib/converters/ebcdic1025.h:88-111 ebcdic1025_page00 *)
Definition ebcdic1025_page00 : tab := mk [
 [0;1;2;3;55;45;46;47;22;5;37;11;12;13;14;15];
 [16;17;18;19;60;61;50;38;24;25;63;39;28;29;30;31];
 [64;79;127;123;91;108;80;125;77;93;92;78;107;96;75;97];
 [240;241;242;243;244;245;246;247;248;249;122;94;76;126;110;111];
 [124;193;194;195;196;197;198;199;200;201;209;210;211;212;213;214];
 [215;216;217;226;227;228;229;230;231;232;233;74;224;90;95;109];
 [121;129;130;131;132;133;134;135;136;137;145;146;147;148;149;150];
 [151;152;153;162;163;164;165;166;167;168;169;192;106;208;161;7];
 [32;33;34;35;36;21;6;23;40;41;42;43;44;9;10;27];
 [48;49;26;51;52;53;54;8;56;57;58;59;4;20;62;255];
 [65;0;0;0;0;0;0;225;0;0;0;0;0;115;0;0]].

(* lib/converters/ebcdic1025.h:81-86 ebcdic1025_mbtowc *)
Definition ebcdic1025_mbtowc (s : list Z) (n : nat) : res (Z * option Z) :=
  let pwc := (None : option Z) in
  rd s 0%nat (fun c =>
  tget ebcdic1025_2uni c (fun x2 =>
  let pwc := Some x2 in
  Ok (1, pwc))).

(* lib/converters/ebcdic1025.h:131-146 ebcdic1025_wctomb *)
Definition ebcdic1025_wctomb_j (c : Z) (wc : Z) (r : wlog) : res (Z * wlog) :=
  if ((negb (c =? 0)) ||| (wc =? 0)) then
   let r := wr r 0%nat c in
   Ok (1, r)
  else
   Ok ((-1), r).
(* lib/converters/ebcdic1025.h:131-146 ebcdic1025_wctomb *)
Definition ebcdic1025_wctomb (wc : Z) (n : nat) : res (Z * wlog) :=
  let r := ([] : wlog) in
  let c := 0 in
  if (wc <? 0xb0) then
   tget ebcdic1025_page00 wc (fun c =>
   ebcdic1025_wctomb_j c wc r)
  else
   if ((wc >=? 0x400) &&& (wc <? 0x460)) then
    tget ebcdic880_page04 (wc - 0x400) (fun c =>
    ebcdic1025_wctomb_j c wc r)
   else
    if (wc =? 0x2116) then
     let c := 0x58 in
     ebcdic1025_wctomb_j c wc r
    else
     ebcdic1025_wctomb_j c wc r.

(* lib/converters/ebcdic1026.h:30-79 ebcdic1026_2uni *)
Definition ebcdic1026_2uni : tab := mk [
 [0;1;2;3;156;9;134;127;151;141;142;11;12;13;14;15];
 [16;17;18;19;157;133;8;135;24;25;146;143;28;29;30;31];
 [128;129;130;131;132;10;23;27;136;137;138;139;140;5;6;7];
 [144;145;22;147;148;149;150;4;152;153;154;155;20;21;158;26];
 [32;160;226;228;224;225;227;229;123;241;199;46;60;40;43;33];
 [38;233;234;235;232;237;238;239;236;223;286;304;42;41;59;94];
 [45;47;194;196;192;193;195;197;91;209;351;44;37;95;62;63];
 [248;201;202;203;200;205;206;207;204;305;58;214;350;39;61;220];
 [216;97;98;99;100;101;102;103;104;105;171;187;125;96;166;177];
 [176;106;107;108;109;110;111;112;113;114;170;186;230;184;198;164];
 [181;246;115;116;117;118;119;120;121;122;161;191;93;36;64;174];
 [162;163;165;183;169;167;182;188;189;190;172;124;175;168;180;215];
 [231;65;66;67;68;69;70;71;72;73;173;244;126;242;243;245];
 [287;74;75;76;77;78;79;80;81;82;185;251;92;249;250;255];
 [252;247;83;84;85;86;87;88;89;90;178;212;35;210;211;213];
 [48;49;50;51;52;53;54;55;56;57;179;219;34;217;218;159]].

(* lib/converters/ebcdic1026.h:88-121 ebcdic1026_page00 *)
Definition ebcdic1026_page00 : tab := mk [
 [0;1;2;3;55;45;46;47;22;5;37;11;12;13;14;15];
 [16;17;18;19;60;61;50;38;24;25;63;39;28;29;30;31];
 [64;79;252;236;173;108;80;125;77;93;92;78;107;96;75;97];
 [240;241;242;243;244;245;246;247;248;249;122;94;76;126;110;111];
 [174;193;194;195;196;197;198;199;200;201;209;210;211;212;213;214];
 [215;216;217;226;227;228;229;230;231;232;233;104;220;172;95;109];
 [141;129;130;131;132;133;134;135;136;137;145;146;147;148;149;150];
 [151;152;153;162;163;164;165;166;167;168;169;72;187;140;204;7];
 [32;33;34;35;36;21;6;23;40;41;42;43;44;9;10;27];
 [48;49;26;51;52;53;54;8;56;57;58;59;4;20;62;255];
 [65;170;176;177;159;178;142;181;189;180;154;138;186;202;175;188];
 [144;143;234;250;190;160;182;179;157;218;155;139;183;184;185;171];
 [100;101;98;102;99;103;158;74;116;113;114;115;120;117;118;119];
 [0;105;237;238;235;239;123;191;128;253;254;251;127;0;0;89];
 [68;69;66;70;67;71;156;192;84;81;82;83;88;85;86;87];
 [0;73;205;206;203;207;161;225;112;221;222;219;224;0;0;223]].

(* lib/converters/ebcdic1026.h:122-132 ebcdic1026_page01 *)
Definition ebcdic1026_page01 : tab := mk [
 [0;0;0;0;0;0;90;208;0;0;0;0;0;0;0;0];
 [0;0;0;0;0;0;0;0;91;121;0;0;0;0;0;0];
 [0;0;0;0;0;0;0;0;0;0;0;0;0;0;0;0];
 [0;0;0;0;0;0;0;0;0;0;0;0;0;0;0;0];
 [0;0;0;0;0;0;124;106]].

(* lib/converters/ebcdic1026.h:81-86 ebcdic1026_mbtowc *)
Definition ebcdic1026_mbtowc (s : list Z) (n : nat) : res (Z * option Z) :=
  let pwc := (None : option Z) in
  rd s 0%nat (fun c =>
  tget ebcdic1026_2uni c (fun x2 =>
  let pwc := Some x2 in
  Ok (1, pwc))).

(* lib/converters/ebcdic1026.h:134-147 ebcdic1026_wctomb *)
Definition ebcdic1026_wctomb_j (c : Z) (wc : Z) (r : wlog) : res (Z * wlog) :=
  if ((negb (c =? 0)) ||| (wc =? 0)) then
   let r := wr r 0%nat c in
   Ok (1, r)
  else
   Ok ((-1), r).
(* lib/converters/ebcdic1026.h:134-147 ebcdic1026_wctomb *)
Definition ebcdic1026_wctomb (wc : Z) (n : nat) : res (Z * wlog) :=
  let r := ([] : wlog) in
  let c := 0 in
  if (wc <? 0x100) then
   tget ebcdic1026_page00 wc (fun c =>
   ebcdic1026_wctomb_j c wc r)
  else
   if ((wc >=? 0x118) &&& (wc <? 0x160)) then
    tget ebcdic1026_page01 (wc - 0x118) (fun c =>
    ebcdic1026_wctomb_j c wc r)
   else
    ebcdic1026_wctomb_j c wc r.

(* lib/converters/ebcdic1047.h:30-79 ebcdic1047_2uni *)
Definition ebcdic1047_2uni : tab := mk [
 [0;1;2;3;156;9;134;127;151;141;142;11;12;13;14;15];
 [16;17;18;19;157;133;8;135;24;25;146;143;28;29;30;31];
 [128;129;130;131;132;10;23;27;136;137;138;139;140;5;6;7];
 [144;145;22;147;148;149;150;4;152;153;154;155;20;21;158;26];
 [32;160;226;228;224;225;227;229;231;241;162;46;60;40;43;124];
 [38;233;234;235;232;237;238;239;236;223;33;36;42;41;59;94];
 [45;47;194;196;192;193;195;197;199;209;166;44;37;95;62;63];
 [248;201;202;203;200;205;206;207;204;96;58;35;64;39;61;34];
 [216;97;98;99;100;101;102;103;104;105;171;187;240;253;254;177];
 [176;106;107;108;109;110;111;112;113;114;170;186;230;184;198;164];
 [181;126;115;116;117;118;119;120;121;122;161;191;208;91;222;174];
 [172;163;165;183;169;167;182;188;189;190;221;168;175;93;180;215];
 [123;65;66;67;68;69;70;71;72;73;173;244;246;242;243;245];
 [125;74;75;76;77;78;79;80;81;82;185;251;252;249;250;255];
 [92;247;83;84;85;86;87;88;89;90;178;212;214;210;211;213];
 [48;49;50;51;52;53;54;55;56;57;179;219;220;217;218;159]].

(* lib/converters/ebcdic1047.h:88-121 ebcdic1047_page00 *)
Definition ebcdic1047_page00 : tab := mk [
 [0;1;2;3;55;45;46;47;22;5;37;11;12;13;14;15];
 [16;17;18;19;60;61;50;38;24;25;63;39;28;29;30;31];
 [64;90;127;123;91;108;80;125;77;93;92;78;107;96;75;97];
 [240;241;242;243;244;245;246;247;248;249;122;94;76;126;110;111];
 [124;193;194;195;196;197;198;199;200;201;209;210;211;212;213;214];
 [215;216;217;226;227;228;229;230;231;232;233;173;224;189;95;109];
 [121;129;130;131;132;133;134;135;136;137;145;146;147;148;149;150];
 [151;152;153;162;163;164;165;166;167;168;169;192;79;208;161;7];
 [32;33;34;35;36;21;6;23;40;41;42;43;44;9;10;27];
 [48;49;26;51;52;53;54;8;56;57;58;59;4;20;62;255];
 [65;170;74;177;159;178;106;181;187;180;154;138;176;202;175;188];
 [144;143;234;250;190;160;182;179;157;218;155;139;183;184;185;171];
 [100;101;98;102;99;103;158;104;116;113;114;115;120;117;118;119];
 [172;105;237;238;235;239;236;191;128;253;254;251;252;186;174;89];
 [68;69;66;70;67;71;156;72;84;81;82;83;88;85;86;87];
 [140;73;205;206;203;207;204;225;112;221;222;219;220;141;142;223]].

(* lib/converters/ebcdic1047.h:81-86 ebcdic1047_mbtowc *)
Definition ebcdic1047_mbtowc (s : list Z) (n : nat) : res (Z * option Z) :=
  let pwc := (None : option Z) in
  rd s 0%nat (fun c =>
  tget ebcdic1047_2uni c (fun x2 =>
  let pwc := Some x2 in
  Ok (1, pwc))).

(* lib/converters/ebcdic1047.h:123-134 ebcdic1047_wctomb *)
Definition ebcdic1047_wctomb_j (c : Z) (wc : Z) (r : wlog) : res (Z * wlog) :=
  if ((negb (c =? 0)) ||| (wc =? 0)) then
   let r := wr r 0%nat c in
   Ok (1, r)
  else
   Ok ((-1), r).
(* lib/converters/ebcdic1047.h:123-134 ebcdic1047_wctomb *)
Definition ebcdic1047_wctomb (wc : Z) (n : nat) : res (Z * wlog) :=
  let r := ([] : wlog) in
  let c := 0 in
  if (wc <? 0x100) then
   tget ebcdic1047_page00 wc (fun c =>
   ebcdic1047_wctomb_j c wc r)
  else
   ebcdic1047_wctomb_j c wc r.

(* lib/converters/ebcdic1097.h:30-79 ebcdic1097_2uni *)
Definition ebcdic1097_2uni : tab := mk [
 [0;1;2;3;156;9;134;127;151;141;142;11;12;13;14;15];
 [16;17;18;19;157;133;8;135;24;25;146;143;28;29;30;31];
 [128;129;130;131;132;10;23;27;136;137;138;139;140;5;6;7];
 [144;145;22;147;148;149;150;4;152;153;154;155;20;21;158;26];
 [32;160;1548;1611;65153;65154;63738;65165;65166;63739;164;46;60;40;43;124];
 [38;65152;65155;65156;63737;65157;65163;65167;65169;64342;33;36;42;41;59;172];
 [45;47;64344;65173;65175;65177;65179;65181;65183;64378;1563;44;37;95;62;63];
 [64380;65185;65187;65189;65191;65193;65195;65197;65199;96;58;35;64;39;61;34];
 [64394;97;98;99;100;101;102;103;104;105;171;187;65201;65203;65205;65207];
 [65209;106;107;108;109;110;111;112;113;114;65211;65213;65215;65217;65219;65221];
 [65223;126;115;116;117;118;119;120;121;122;65225;65226;65227;65228;65229;65230];
 [65231;65232;65233;65235;65237;65239;64398;65243;64402;64404;91;93;65245;65247;65249;215];
 [123;65;66;67;68;69;70;71;72;73;173;65251;65253;65255;65261;65257];
 [125;74;75;76;77;78;79;80;81;82;65259;65260;64420;64508;64509;64510];
 [92;1567;83;84;85;86;87;88;89;90;1600;1776;1777;1778;1779;1780];
 [48;49;50;51;52;53;54;55;56;57;1781;1782;1783;1784;1785;159]].

(* lib/converters/ebcdic1097.h:88-116 ebcdic1097_page00 *)
Definition ebcdic1097_page00 : tab := mk [
 [0;1;2;3;55;45;46;47;22;5;37;11;12;13;14;15];
 [16;17;18;19;60;61;50;38;24;25;63;39;28;29;30;31];
 [64;90;127;123;91;108;80;125;77;93;92;78;107;96;75;97];
 [240;241;242;243;244;245;246;247;248;249;122;94;76;126;110;111];
 [124;193;194;195;196;197;198;199;200;201;209;210;211;212;213;214];
 [215;216;217;226;227;228;229;230;231;232;233;186;224;187;0;109];
 [121;129;130;131;132;133;134;135;136;137;145;146;147;148;149;150];
 [151;152;153;162;163;164;165;166;167;168;169;192;79;208;161;7];
 [32;33;34;35;36;21;6;23;40;41;42;43;44;9;10;27];
 [48;49;26;51;52;53;54;8;56;57;58;59;4;20;62;255];
 [65;0;0;0;74;0;0;0;0;0;0;138;95;202;0;0];
 [0;0;0;0;0;0;0;0;0;0;0;139;0;0;0;0];
 [0;0;0;0;0;0;0;0;0;0;0;0;0;0;0;0];
 [0;0;0;0;0;0;0;191]].

(* lib/converters/ebcdic1097.h:117-127 ebcdic1097_page06 *)
Definition ebcdic1097_page06 : tab := mk [
 [0;0;0;0;66;0;0;0;0;0;0;0;0;0;0;0];
 [0;0;0;106;0;0;0;225;0;0;0;0;0;0;0;0];
 [0;0;0;0;0;0;0;0;0;0;0;0;0;0;0;0];
 [0;0;0;0;0;0;0;0;234;0;0;0;0;0;0;0];
 [0;0;0;67;0;0;0;0]].

(* lib/converters/ebcdic1097.h:128-131 ebcdic1097_page06_1 *)
Definition ebcdic1097_page06_1 : tab := mk [
 [235;236;237;238;239;250;251;252;253;254;0;0;0;0;0;0]].

(* lib/converters/ebcdic1097.h:132-134 ebcdic1097_pagef8 *)
Definition ebcdic1097_pagef8 : tab := mk [
 [0;84;70;73;0;0;0;0]].

(* lib/converters/ebcdic1097.h:135-147 ebcdic1097_pagefb *)
Definition ebcdic1097_pagefb : tab := mk [
 [0;0;0;0;0;0;89;0;98;0;0;0;0;0;0;0];
 [0;0;0;0;0;0;0;0;0;0;0;0;0;0;0;0];
 [0;0;0;0;0;0;0;0;0;0;105;0;112;0;0;0];
 [0;0;0;0;0;0;0;0;0;0;128;0;0;0;182;0];
 [0;0;184;0;185;0;0;0;0;0;0;0;0;0;0;0];
 [0;0;0;0;220;0;0;0]].

(* lib/converters/ebcdic1097.h:148-150 ebcdic1097_pagefb_2 *)
Definition ebcdic1097_pagefb_2 : tab := mk [
 [0;0;0;0;221;222;223;0]].

(* lib/converters/ebcdic1097.h:151-166 ebcdic1097_pagefe *)
Definition ebcdic1097_pagefe : tab := mk [
 [81;68;69;82;83;85;0;0;0;0;0;86;0;71;72;87];
 [0;88;0;0;0;99;0;100;0;101;0;102;0;103;0;104];
 [0;113;0;114;0;115;0;116;0;117;0;118;0;119;0;120];
 [0;140;0;141;0;142;0;143;0;144;0;154;0;155;0;156];
 [0;157;0;158;0;159;0;160;0;170;171;172;173;174;175;176];
 [177;178;0;179;0;180;0;181;0;0;0;183;0;188;0;189];
 [0;190;0;203;0;204;0;205;0;207;0;218;219;206;0;0]].

(* lib/converters/ebcdic1097.h:81-86 ebcdic1097_mbtowc *)
Definition ebcdic1097_mbtowc (s : list Z) (n : nat) : res (Z * option Z) :=
  let pwc := (None : option Z) in
  rd s 0%nat (fun c =>
  tget ebcdic1097_2uni c (fun x2 =>
  let pwc := Some x2 in
  Ok (1, pwc))).

(* lib/converters/ebcdic1097.h:168-191 ebcdic1097_wctomb *)
Definition ebcdic1097_wctomb_j (c : Z) (wc : Z) (r : wlog) : res (Z * wlog) :=
  if ((negb (c =? 0)) ||| (wc =? 0)) then
   let r := wr r 0%nat c in
   Ok (1, r)
  else
   Ok ((-1), r).
(* lib/converters/ebcdic1097.h:168-191 ebcdic1097_wctomb *)
Definition ebcdic1097_wctomb (wc : Z) (n : nat) : res (Z * wlog) :=
  let r := ([] : wlog) in
  let c := 0 in
  if (wc <? 0xd8) then
   tget ebcdic1097_page00 wc (fun c =>
   ebcdic1097_wctomb_j c wc r)
  else
   if ((wc >=? 0x608) &&& (wc <? 0x650)) then
    tget ebcdic1097_page06 (wc - 0x608) (fun c =>
    ebcdic1097_wctomb_j c wc r)
   else
    if ((wc >=? 0x6f0) &&& (wc <? 0x700)) then
     tget ebcdic1097_page06_1 (wc - 0x6f0) (fun c =>
     ebcdic1097_wctomb_j c wc r)
    else
     if ((wc >=? 0xf8f8) &&& (wc <? 0xf900)) then
      tget ebcdic1097_pagef8 (wc - 0xf8f8) (fun c =>
      ebcdic1097_wctomb_j c wc r)
     else
      if ((wc >=? 0xfb50) &&& (wc <? 0xfba8)) then
       tget ebcdic1097_pagefb (wc - 0xfb50) (fun c =>
       ebcdic1097_wctomb_j c wc r)
      else
       if ((wc >=? 0xfbf8) &&& (wc <? 0xfc00)) then
        tget ebcdic1097_pagefb_2 (wc - 0xfbf8) (fun c =>
        ebcdic1097_wctomb_j c wc r)
       else
        if ((wc >=? 0xfe80) &&& (wc <? 0xfef0)) then
         tget ebcdic1097_pagefe (wc - 0xfe80) (fun c =>
         ebcdic1097_wctomb_j c wc r)
        else
         ebcdic1097_wctomb_j c wc r.

(* lib/converters/ebcdic1112.h:30-79 ebcdic1112_2uni *)
Definition ebcdic1112_2uni : tab := mk [
 [0;1;2;3;156;9;134;127;151;141;142;11;12;13;14;15];
 [16;17;18;19;157;133;8;135;24;25;146;143;28;29;30;31];
 [128;129;130;131;132;10;23;27;136;137;138;139;140;5;6;7];
 [144;145;22;147;148;149;150;4;152;153;154;155;20;21;158;26];
 [32;160;353;228;261;303;363;229;275;382;162;46;60;40;43;124];
 [38;233;281;279;269;371;8222;8220;291;223;33;36;42;41;59;172];
 [45;47;352;196;260;302;362;197;274;381;166;44;37;95;62;63];
 [248;201;280;278;268;370;298;315;290;96;58;35;64;39;61;34];
 [216;97;98;99;100;101;102;103;104;105;171;187;257;380;324;177];
 [176;106;107;108;109;110;111;112;113;114;342;343;230;311;198;164];
 [181;126;115;116;117;118;119;120;121;122;8221;378;256;379;323;174];
 [94;163;299;183;169;167;182;188;189;190;91;93;377;310;316;215];
 [123;65;66;67;68;69;70;71;72;73;173;333;246;326;243;245];
 [125;74;75;76;77;78;79;80;81;82;185;263;252;322;347;8217];
 [92;247;83;84;85;86;87;88;89;90;178;332;214;325;211;213];
 [48;49;50;51;52;53;54;55;56;57;179;262;220;321;346;159]].

(* lib/converters/ebcdic1112.h:88-138 ebcdic1112_page00 *)
Definition ebcdic1112_page00 : tab := mk [
 [0;1;2;3;55;45;46;47;22;5;37;11;12;13;14;15];
 [16;17;18;19;60;61;50;38;24;25;63;39;28;29;30;31];
 [64;90;127;123;91;108;80;125;77;93;92;78;107;96;75;97];
 [240;241;242;243;244;245;246;247;248;249;122;94;76;126;110;111];
 [124;193;194;195;196;197;198;199;200;201;209;210;211;212;213;214];
 [215;216;217;226;227;228;229;230;231;232;233;186;224;187;176;109];
 [121;129;130;131;132;133;134;135;136;137;145;146;147;148;149;150];
 [151;152;153;162;163;164;165;166;167;168;169;192;79;208;161;7];
 [32;33;34;35;36;21;6;23;40;41;42;43;44;9;10;27];
 [48;49;26;51;52;53;54;8;56;57;58;59;4;20;62;255];
 [65;0;74;177;159;0;106;181;0;180;0;138;95;202;175;0];
 [144;143;234;250;0;160;182;179;0;218;0;139;183;184;185;0];
 [0;0;0;0;99;103;158;0;0;113;0;0;0;0;0;0];
 [0;0;0;238;0;239;236;191;128;0;0;0;252;0;0;89];
 [0;0;0;0;67;71;156;0;0;81;0;0;0;0;0;0];
 [0;0;0;206;0;207;204;225;112;0;0;0;220;0;0;0];
 [172;140;0;0;100;68;251;219;0;0;0;0;116;84;0;0];
 [0;0;104;72;0;0;115;83;114;82;0;0;0;0;0;0];
 [0;0;120;88;0;0;0;0;0;0;118;178;0;0;101;69];
 [0;0;0;0;0;0;189;157;0;0;0;119;190;0;0;0];
 [0;253;221;174;142;237;205;0;0;0;0;0;235;203;0;0];
 [0;0;0;0;0;0;154;155;0;0;254;222;0;0;0;0];
 [98;66;0;0;0;0;0;0;0;0;102;70;0;0;0;0];
 [0;0;117;85;0;0;0;0;0;188;171;173;141;105;73;0]].

(* lib/converters/ebcdic1112.h:139-141 ebcdic1112_page20 *)
Definition ebcdic1112_page20 : tab := mk [
 [0;223;0;0;87;170;86;0]].

(* lib/converters/ebcdic1112.h:81-86 ebcdic1112_mbtowc *)
Definition ebcdic1112_mbtowc (s : list Z) (n : nat) : res (Z * option Z) :=
  let pwc := (None : option Z) in
  rd s 0%nat (fun c =>
  tget ebcdic1112_2uni c (fun x2 =>
  let pwc := Some x2 in
  Ok (1, pwc))).

(* lib/converters/ebcdic1112.h:143-156 ebcdic1112_wctomb *)
Definition ebcdic1112_wctomb_j (c : Z) (wc : Z) (r : wlog) : res (Z * wlog) :=
  if ((negb (c =? 0)) ||| (wc =? 0)) then
   let r := wr r 0%nat c in
   Ok (1, r)
  else
   Ok ((-1), r).
(* lib/converters/ebcdic1112.h:143-156 ebcdic1112_wctomb *)
Definition ebcdic1112_wctomb (wc : Z) (n : nat) : res (Z * wlog) :=
  let r := ([] : wlog) in
  let c := 0 in
  if (wc <? 0x180) then
   tget ebcdic1112_page00 wc (fun c =>
   ebcdic1112_wctomb_j c wc r)
  else
   if ((wc >=? 0x2018) &&& (wc <? 0x2020)) then
    tget ebcdic1112_page20 (wc - 0x2018) (fun c =>
    ebcdic1112_wctomb_j c wc r)
   else
    ebcdic1112_wctomb_j c wc r.

(* lib/converters/ebcdic1122.h:30-79 ebcdic1122_2uni *)
Definition ebcdic1122_2uni : tab := mk [
 [0;1;2;3;156;9;134;127;151;141;142;11;12;13;14;15];
 [16;17;18;19;157;133;8;135;24;25;146;143;28;29;30;31];
 [128;129;130;131;132;10;23;27;136;137;138;139;140;5;6;7];
 [144;145;22;147;148;149;150;4;152;153;154;155;20;21;158;26];
 [32;160;226;123;224;225;227;125;231;241;167;46;60;40;43;33];
 [38;96;234;235;232;237;238;239;236;223;164;197;42;41;59;94];
 [45;47;194;35;192;193;195;36;199;209;246;44;37;95;62;63];
 [248;92;202;203;200;205;206;207;204;233;58;196;214;39;61;34];
 [216;97;98;99;100;101;102;103;104;105;171;187;353;253;382;177];
 [176;106;107;108;109;110;111;112;113;114;170;186;230;184;198;93];
 [181;252;115;116;117;118;119;120;121;122;161;191;352;221;381;174];
 [162;163;165;183;169;91;182;188;189;190;172;124;175;168;180;215];
 [228;65;66;67;68;69;70;71;72;73;173;244;166;242;243;245];
 [229;74;75;76;77;78;79;80;81;82;185;251;126;249;250;255];
 [201;247;83;84;85;86;87;88;89;90;178;212;64;210;211;213];
 [48;49;50;51;52;53;54;55;56;57;179;219;220;217;218;159]].

(* lib/converters/ebcdic1122.h:88-121 ebcdic1122_page00 *)
Definition ebcdic1122_page00 : tab := mk [
 [0;1;2;3;55;45;46;47;22;5;37;11;12;13;14;15];
 [16;17;18;19;60;61;50;38;24;25;63;39;28;29;30;31];
 [64;79;127;99;103;108;80;125;77;93;92;78;107;96;75;97];
 [240;241;242;243;244;245;246;247;248;249;122;94;76;126;110;111];
 [236;193;194;195;196;197;198;199;200;201;209;210;211;212;213;214];
 [215;216;217;226;227;228;229;230;231;232;233;181;113;159;95;109];
 [81;129;130;131;132;133;134;135;136;137;145;146;147;148;149;150];
 [151;152;153;162;163;164;165;166;167;168;169;67;187;71;220;7];
 [32;33;34;35;36;21;6;23;40;41;42;43;44;9;10;27];
 [48;49;26;51;52;53;54;8;56;57;58;59;4;20;62;255];
 [65;170;176;177;90;178;204;74;189;180;154;138;186;202;175;188];
 [144;143;234;250;190;160;182;179;157;218;155;139;183;184;185;171];
 [100;101;98;102;123;91;158;104;116;224;114;115;120;117;118;119];
 [0;105;237;238;235;239;124;191;128;253;254;251;252;173;0;89];
 [68;69;66;70;192;208;156;72;84;121;82;83;88;85;86;87];
 [0;73;205;206;203;207;106;225;112;221;222;219;161;141;0;223]].

(* lib/converters/ebcdic1122.h:122-127 ebcdic1122_page01 *)
Definition ebcdic1122_page01 : tab := mk [
 [172;140;0;0;0;0;0;0;0;0;0;0;0;0;0;0];
 [0;0;0;0;0;0;0;0;0;0;0;0;0;174;142;0]].

(* lib/converters/ebcdic1122.h:81-86 ebcdic1122_mbtowc *)
Definition ebcdic1122_mbtowc (s : list Z) (n : nat) : res (Z * option Z) :=
  let pwc := (None : option Z) in
  rd s 0%nat (fun c =>
  tget ebcdic1122_2uni c (fun x2 =>
  let pwc := Some x2 in
  Ok (1, pwc))).

(* lib/converters/ebcdic1122.h:129-142 ebcdic1122_wctomb *)
Definition ebcdic1122_wctomb_j (c : Z) (wc : Z) (r : wlog) : res (Z * wlog) :=
  if ((negb (c =? 0)) ||| (wc =? 0)) then
   let r := wr r 0%nat c in
   Ok (1, r)
  else
   Ok ((-1), r).
(* lib/converters/ebcdic1122.h:129-142 ebcdic1122_wctomb *)
Definition ebcdic1122_wctomb (wc : Z) (n : nat) : res (Z * wlog) :=
  let r := ([] : wlog) in
  let c := 0 in
  if (wc <? 0x100) then
   tget ebcdic1122_page00 wc (fun c =>
   ebcdic1122_wctomb_j c wc r)
  else
   if ((wc >=? 0x160) &&& (wc <? 0x180)) then
    tget ebcdic1122_page01 (wc - 0x160) (fun c =>
    ebcdic1122_wctomb_j c wc r)
   else
    ebcdic1122_wctomb_j c wc r.

(* lib/converters/ebcdic1123.h:30-79 ebcdic1123_2uni *)
Definition ebcdic1123_2uni : tab := mk [
 [0;1;2;3;156;9;134;127;151;141;142;11;12;13;14;15];
 [16;17;18;19;157;133;8;135;24;25;146;143;28;29;30;31];
 [128;129;130;131;132;10;23;27;136;137;138;139;140;5;6;7];
 [144;145;22;147;148;149;150;4;152;153;154;155;20;21;158;26];
 [32;160;1106;1169;1105;1108;1109;1110;1111;1112;91;46;60;40;43;33];
 [38;1113;1114;1115;1116;1118;1119;1066;8470;1026;93;36;42;41;59;94];
 [45;47;1168;1025;1028;1029;1030;1031;1032;1033;124;44;37;95;62;63];
 [1034;1035;1036;173;1038;1039;1102;1072;1073;96;58;35;64;39;61;34];
 [1094;97;98;99;100;101;102;103;104;105;1076;1077;1092;1075;1093;1080];
 [1081;106;107;108;109;110;111;112;113;114;1082;1083;1084;1085;1086;1087];
 [1103;126;115;116;117;118;119;120;121;122;1088;1089;1090;1091;1078;1074];
 [1100;1099;1079;1096;1101;1097;1095;1098;1070;1040;1041;1062;1044;1045;1060;1043];
 [123;65;66;67;68;69;70;71;72;73;1061;1048;1049;1050;1051;1052];
 [125;74;75;76;77;78;79;80;81;82;1053;1054;1055;1071;1056;1057];
 [92;167;83;84;85;86;87;88;89;90;1058;1059;1046;1042;1068;1067];
 [48;49;50;51;52;53;54;55;56;57;1047;1064;1069;1065;1063;159]].

(* lib/converters/ebcdic1123.h:116-136 ebcdic1123_page04 *)
Definition ebcdic1123_page04 : tab := mk [
 [0;99;89;0;100;101;102;103;104;105;112;113;114;0;116;117];
 [185;186;237;191;188;189;236;250;203;204;205;206;207;218;219;220];
 [222;223;234;235;190;202;187;254;251;253;87;239;238;252;184;221];
 [119;120;175;141;138;139;174;178;143;144;154;155;156;157;158;159];
 [170;171;172;173;140;142;128;182;179;181;183;177;176;180;118;160];
 [0;68;66;0;69;70;71;72;73;81;82;83;84;0;85;86];
 [0;0;0;0;0;0;0;0;0;0;0;0;0;0;0;0];
 [0;0;0;0;0;0;0;0;0;0;0;0;0;0;0;0];
 [0;0;0;0;0;0;0;0;0;0;0;0;0;0;0;0];
 [98;67;0;0;0;0;0;0]].

(* lib/converters/ebcdic1123.h:81-86 ebcdic1123_mbtowc *)
Definition ebcdic1123_mbtowc (s : list Z) (n : nat) : res (Z * option Z) :=
  let pwc := (None : option Z) in
  rd s 0%nat (fun c =>
  tget ebcdic1123_2uni c (fun x2 =>
  let pwc := Some x2 in
  Ok (1, pwc))).

(* lib/converters/ebcdic1123.h:138-153 ebcdic1123_wctomb *)
Definition ebcdic1123_wctomb_j (c : Z) (wc : Z) (r : wlog) : res (Z * wlog) :=
  if ((negb (c =? 0)) ||| (wc =? 0)) then
   let r := wr r 0%nat c in
   Ok (1, r)
  else
   Ok ((-1), r).
(* lib/converters/ebcdic1123.h:138-153 ebcdic1123_wctomb *)
Definition ebcdic1123_wctomb (wc : Z) (n : nat) : res (Z * wlog) :=
  let r := ([] : wlog) in
  let c := 0 in
  if (wc <? 0xb0) then
   tget ebcdic1025_page00 wc (fun c =>
   ebcdic1123_wctomb_j c wc r)
  else
   if ((wc >=? 0x400) &&& (wc <? 0x498)) then
    tget ebcdic1123_page04 (wc - 0x400) (fun c =>
    ebcdic1123_wctomb_j c wc r)
   else
    if (wc =? 0x2116) then
     let c := 0x58 in
     ebcdic1123_wctomb_j c wc r
    else
     ebcdic1123_wctomb_j c wc r.

(* lib/converters/ebcdic1130.h:30-79 ebcdic1130_2uni *)
Definition ebcdic1130_2uni : tab := mk [
 [0;1;2;3;156;9;134;127;151;141;142;11;12;13;14;15];
 [16;17;18;19;157;133;8;135;24;25;146;143;28;29;30;31];
 [128;129;130;131;132;10;23;27;136;137;138;139;140;5;6;7];
 [144;145;22;147;148;149;150;4;152;153;154;155;20;21;158;26];
 [32;160;226;228;224;225;259;229;231;241;91;46;60;40;43;33];
 [38;233;234;235;232;237;238;239;771;223;93;36;42;41;59;94];
 [45;47;194;196;192;193;258;197;199;209;166;44;37;95;62;63];
 [248;201;202;203;200;205;206;207;8363;96;58;35;64;39;61;34];
 [216;97;98;99;100;101;102;103;104;105;171;187;273;777;768;177];
 [176;106;107;108;109;110;111;112;113;114;170;186;230;338;198;164];
 [181;126;115;116;117;118;119;120;121;122;161;191;272;803;769;174];
 [162;163;165;183;169;167;182;188;189;190;172;124;175;339;376;215];
 [123;65;66;67;68;69;70;71;72;73;173;244;246;432;243;417];
 [125;74;75;76;77;78;79;80;81;82;185;251;252;249;250;255];
 [92;247;83;84;85;86;87;88;89;90;178;212;214;431;211;416];
 [48;49;50;51;52;53;54;55;56;57;179;219;220;217;218;159]].

(* lib/converters/ebcdic1130.h:88-145 ebcdic1130_page00 *)
Definition ebcdic1130_page00 : tab := mk [
 [0;1;2;3;55;45;46;47;22;5;37;11;12;13;14;15];
 [16;17;18;19;60;61;50;38;24;25;63;39;28;29;30;31];
 [64;79;127;123;91;108;80;125;77;93;92;78;107;96;75;97];
 [240;241;242;243;244;245;246;247;248;249;122;94;76;126;110;111];
 [124;193;194;195;196;197;198;199;200;201;209;210;211;212;213;214];
 [215;216;217;226;227;228;229;230;231;232;233;74;224;90;95;109];
 [121;129;130;131;132;133;134;135;136;137;145;146;147;148;149;150];
 [151;152;153;162;163;164;165;166;167;168;169;192;187;208;161;7];
 [32;33;34;35;36;21;6;23;40;41;42;43;44;9;10;27];
 [48;49;26;51;52;53;54;8;56;57;58;59;4;20;62;255];
 [65;170;176;177;159;178;106;181;0;180;154;138;186;202;175;188];
 [144;143;234;250;0;160;182;179;0;218;155;139;183;184;185;171];
 [100;101;98;0;99;103;158;104;116;113;114;115;0;117;118;119];
 [0;105;0;238;235;0;236;191;128;253;254;251;252;0;0;89];
 [68;69;66;0;67;71;156;72;84;81;82;83;0;85;86;87];
 [0;73;0;206;203;0;204;225;112;221;222;219;220;0;0;223];
 [0;0;102;70;0;0;0;0;0;0;0;0;0;0;0;0];
 [172;140;0;0;0;0;0;0;0;0;0;0;0;0;0;0];
 [0;0;0;0;0;0;0;0;0;0;0;0;0;0;0;0];
 [0;0;0;0;0;0;0;0;0;0;0;0;0;0;0;0];
 [0;0;0;0;0;0;0;0;0;0;0;0;0;0;0;0];
 [0;0;157;189;0;0;0;0;0;0;0;0;0;0;0;0];
 [0;0;0;0;0;0;0;0;0;0;0;0;0;0;0;0];
 [0;0;0;0;0;0;0;0;190;0;0;0;0;0;0;0];
 [0;0;0;0;0;0;0;0;0;0;0;0;0;0;0;0];
 [0;0;0;0;0;0;0;0;0;0;0;0;0;0;0;0];
 [239;207;0;0;0;0;0;0;0;0;0;0;0;0;0;237];
 [205;0;0;0;0;0;0;0]].

(* lib/converters/ebcdic1130.h:146-152 ebcdic1130_page03 *)
Definition ebcdic1130_page03 : tab := mk [
 [142;174;0;88;0;0;0;0;0;141;0;0;0;0;0;0];
 [0;0;0;0;0;0;0;0;0;0;0;0;0;0;0;0];
 [0;0;0;173;0;0;0;0]].

(* lib/converters/ebcdic1130.h:81-86 ebcdic1130_mbtowc *)
Definition ebcdic1130_mbtowc (s : list Z) (n : nat) : res (Z * option Z) :=
  let pwc := (None : option Z) in
  rd s 0%nat (fun c =>
  tget ebcdic1130_2uni c (fun x2 =>
  let pwc := Some x2 in
  Ok (1, pwc))).

(* lib/converters/ebcdic1130.h:154-169 ebcdic1130_wctomb *)
Definition ebcdic1130_wctomb_j (c : Z) (wc : Z) (r : wlog) : res (Z * wlog) :=
  if ((negb (c =? 0)) ||| (wc =? 0)) then
   let r := wr r 0%nat c in
   Ok (1, r)
  else
   Ok ((-1), r).
(* lib/converters/ebcdic1130.h:154-169 ebcdic1130_wctomb *)
Definition ebcdic1130_wctomb (wc : Z) (n : nat) : res (Z * wlog) :=
  let r := ([] : wlog) in
  let c := 0 in
  if (wc <? 0x1b8) then
   tget ebcdic1130_page00 wc (fun c =>
   ebcdic1130_wctomb_j c wc r)
  else
   if ((wc >=? 0x300) &&& (wc <? 0x328)) then
    tget ebcdic1130_page03 (wc - 0x300) (fun c =>
    ebcdic1130_wctomb_j c wc r)
   else
    if (wc =? 0x20ab) then
     let c := 0x78 in
     ebcdic1130_wctomb_j c wc r
    else
     ebcdic1130_wctomb_j c wc r.

(* lib/converters/ebcdic1132.h:30-79 ebcdic1132_2uni *)
Definition ebcdic1132_2uni : tab := mk [
 [0;1;2;3;156;9;134;127;151;141;142;11;12;13;14;15];
 [16;17;18;19;157;133;8;135;24;25;146;143;28;29;30;31];
 [128;129;130;131;132;10;23;27;136;137;138;139;140;5;6;7];
 [144;145;22;147;148;149;150;4;152;153;154;155;20;21;158;26];
 [32;160;3713;3714;3716;3719;3720;3754;3722;91;162;46;60;40;43;124];
 [38;65533;3725;3732;3733;3734;3735;3737;3738;93;33;36;42;41;59;172];
 [45;47;3739;3740;3741;3742;3743;3745;3746;94;166;44;37;95;62;63];
 [8365;65533;3747;3749;3751;3755;3757;3758;65533;96;58;35;64;39;61;34];
 [65533;97;98;99;100;101;102;103;104;105;65533;65533;3759;3760;3762;3763];
 [65533;106;107;108;109;110;111;112;113;114;3764;3765;3766;3767;3768;3769];
 [65533;126;115;116;117;118;119;120;121;122;3772;3761;3771;3773;65533;65533];
 [3792;3793;3794;3795;3796;3797;3798;3799;3800;3801;65533;3776;3777;3778;3779;3780];
 [123;65;66;67;68;69;70;71;72;73;65533;3784;3785;3786;3787;3788];
 [125;74;75;76;77;78;79;80;81;82;3789;3782;65533;3804;3805;65533];
 [92;65533;83;84;85;86;87;88;89;90;65533;65533;65533;65533;65533;65533];
 [48;49;50;51;52;53;54;55;56;57;65533;65533;65533;65533;65533;159]].

(* lib/converters/ebcdic1132.h:121-134 ebcdic1132_page0e *)
Definition ebcdic1132_page0e : tab := mk [
 [0;66;67;0;68;0;0;69;70;0;72;0;0;82;0;0];
 [0;0;0;0;83;84;85;86;0;87;88;98;99;100;101;102];
 [0;103;104;114;0;115;0;116;0;0;71;117;0;118;119;140];
 [141;171;142;143;154;155;156;157;158;159;0;172;170;173;0;0];
 [187;188;189;190;191;0;219;0;203;204;205;206;207;218;0;0];
 [176;177;178;179;180;181;182;183;184;185;0;0;221;222;0;0]].

(* lib/converters/ebcdic1132.h:81-91 ebcdic1132_mbtowc *)
Definition ebcdic1132_mbtowc (s : list Z) (n : nat) : res (Z * option Z) :=
  let pwc := (None : option Z) in
  rd s 0%nat (fun c =>
  tget ebcdic1132_2uni c (fun wc =>
  if (negb (wc =? 0xfffd)) then
   let pwc := Some wc in
   Ok (1, pwc)
  else
   Ok ((-1), pwc))).

(* lib/converters/ebcdic1132.h:136-151 ebcdic1132_wctomb *)
Definition ebcdic1132_wctomb_j (c : Z) (wc : Z) (r : wlog) : res (Z * wlog) :=
  if ((negb (c =? 0)) ||| (wc =? 0)) then
   let r := wr r 0%nat c in
   Ok (1, r)
  else
   Ok ((-1), r).
(* lib/converters/ebcdic1132.h:136-151 ebcdic1132_wctomb *)
Definition ebcdic1132_wctomb (wc : Z) (n : nat) : res (Z * wlog) :=
  let r := ([] : wlog) in
  let c := 0 in
  if (wc <? 0xb0) then
   tget ebcdic838_page00 wc (fun c =>
   ebcdic1132_wctomb_j c wc r)
  else
   if ((wc >=? 0xe80) &&& (wc <? 0xee0)) then
    tget ebcdic1132_page0e (wc - 0xe80) (fun c =>
    ebcdic1132_wctomb_j c wc r)
   else
    if (wc =? 0x20ad) then
     let c := 0x70 in
     ebcdic1132_wctomb_j c wc r
    else
     ebcdic1132_wctomb_j c wc r.

(* lib/converters/ebcdic1137.h:30-79 ebcdic1137_2uni *)
Definition ebcdic1137_2uni : tab := mk [
 [0;1;2;3;156;9;134;127;151;141;142;11;12;13;14;15];
 [16;17;18;19;157;133;8;135;24;25;146;143;28;29;30;31];
 [128;129;130;131;132;10;23;27;136;137;138;139;140;5;6;7];
 [144;145;22;147;148;149;150;4;152;153;154;155;20;21;158;26];
 [32;160;2305;2306;2307;2309;2310;2311;2312;2313;2314;46;60;40;43;124];
 [38;2315;2316;2317;2318;2319;2320;2321;2322;2323;33;36;42;41;59;94];
 [45;47;2324;2325;2326;2327;2328;2329;2330;2331;2332;44;37;95;62;63];
 [2333;2334;2335;2336;2337;2338;2339;2340;2341;96;58;35;64;39;61;34];
 [2342;97;98;99;100;101;102;103;104;105;2343;2344;2346;2347;2348;2349];
 [2350;106;107;108;109;110;111;112;113;114;2351;2352;2354;2355;2357;2358];
 [8204;126;115;116;117;118;119;120;121;122;2359;2360;2361;91;2364;2365];
 [2366;2367;2368;2369;2370;2371;2372;2373;2374;2375;2376;2377;2378;93;2379;2380];
 [123;65;66;67;68;69;70;71;72;73;2381;2384;2385;2386;65533;65533];
 [125;74;75;76;77;78;79;80;81;82;2400;2401;2402;2403;2404;2405];
 [92;8205;83;84;85;86;87;88;89;90;2406;2407;2408;2409;2410;2411];
 [48;49;50;51;52;53;54;55;56;57;2412;2413;2414;2415;2416;159]].

(* lib/converters/ebcdic1137.h:93-115 ebcdic1137_page00 *)
Definition ebcdic1137_page00 : tab := mk [
 [0;1;2;3;55;45;46;47;22;5;37;11;12;13;14;15];
 [16;17;18;19;60;61;50;38;24;25;63;39;28;29;30;31];
 [64;90;127;123;91;108;80;125;77;93;92;78;107;96;75;97];
 [240;241;242;243;244;245;246;247;248;249;122;94;76;126;110;111];
 [124;193;194;195;196;197;198;199;200;201;209;210;211;212;213;214];
 [215;216;217;226;227;228;229;230;231;232;233;173;224;189;95;109];
 [121;129;130;131;132;133;134;135;136;137;145;146;147;148;149;150];
 [151;152;153;162;163;164;165;166;167;168;169;192;79;208;161;7];
 [32;33;34;35;36;21;6;23;40;41;42;43;44;9;10;27];
 [48;49;26;51;52;53;54;8;56;57;58;59;4;20;62;255];
 [65;0;0;0;0;0;0;0]].

(* lib/converters/ebcdic1137.h:116-132 ebcdic1137_page09 *)
Definition ebcdic1137_page09 : tab := mk [
 [0;66;67;68;0;69;70;71;72;73;74;81;82;83;84;85];
 [86;87;88;89;98;99;100;101;102;103;104;105;106;112;113;114];
 [115;116;117;118;119;120;128;138;139;0;140;141;142;143;144;154];
 [155;0;156;157;0;158;159;170;171;172;0;0;174;175;176;177];
 [178;179;180;181;182;183;184;185;186;187;188;190;191;202;0;0];
 [203;204;205;0;0;0;0;0;0;0;0;0;0;0;0;0];
 [218;219;220;221;222;223;234;235;236;237;238;239;250;251;252;253];
 [254;0;0;0;0;0;0;0]].

(* lib/converters/ebcdic1137.h:133-135 ebcdic1137_page20 *)
Definition ebcdic1137_page20 : tab := mk [
 [0;0;0;0;160;225;0;0]].

(* lib/converters/ebcdic1137.h:81-91 ebcdic1137_mbtowc *)
Definition ebcdic1137_mbtowc (s : list Z) (n : nat) : res (Z * option Z) :=
  let pwc := (None : option Z) in
  rd s 0%nat (fun c =>
  tget ebcdic1137_2uni c (fun wc =>
  if (negb (wc =? 0xfffd)) then
   let pwc := Some wc in
   Ok (1, pwc)
  else
   Ok ((-1), pwc))).

(* lib/converters/ebcdic1137.h:137-152 ebcdic1137_wctomb *)
Definition ebcdic1137_wctomb_j (c : Z) (wc : Z) (r : wlog) : res (Z * wlog) :=
  if ((negb (c =? 0)) ||| (wc =? 0)) then
   let r := wr r 0%nat c in
   Ok (1, r)
  else
   Ok ((-1), r).
(* lib/converters/ebcdic1137.h:137-152 ebcdic1137_wctomb *)
Definition ebcdic1137_wctomb (wc : Z) (n : nat) : res (Z * wlog) :=
  let r := ([] : wlog) in
  let c := 0 in
  if (wc <? 0xa8) then
   tget ebcdic1137_page00 wc (fun c =>
   ebcdic1137_wctomb_j c wc r)
  else
   if ((wc >=? 0x900) &&& (wc <? 0x978)) then
    tget ebcdic1137_page09 (wc - 0x900) (fun c =>
    ebcdic1137_wctomb_j c wc r)
   else
    if ((wc >=? 0x2008) &&& (wc <? 0x2010)) then
     tget ebcdic1137_page20 (wc - 0x2008) (fun c =>
     ebcdic1137_wctomb_j c wc r)
    else
     ebcdic1137_wctomb_j c wc r.

(* lib/converters/ebcdic1140.h:30-79 ebcdic1140_2uni *)
Definition ebcdic1140_2uni : tab := mk [
 [0;1;2;3;156;9;134;127;151;141;142;11;12;13;14;15];
 [16;17;18;19;157;133;8;135;24;25;146;143;28;29;30;31];
 [128;129;130;131;132;10;23;27;136;137;138;139;140;5;6;7];
 [144;145;22;147;148;149;150;4;152;153;154;155;20;21;158;26];
 [32;160;226;228;224;225;227;229;231;241;162;46;60;40;43;124];
 [38;233;234;235;232;237;238;239;236;223;33;36;42;41;59;172];
 [45;47;194;196;192;193;195;197;199;209;166;44;37;95;62;63];
 [248;201;202;203;200;205;206;207;204;96;58;35;64;39;61;34];
 [216;97;98;99;100;101;102;103;104;105;171;187;240;253;254;177];
 [176;106;107;108;109;110;111;112;113;114;170;186;230;184;198;8364];
 [181;126;115;116;117;118;119;120;121;122;161;191;208;221;222;174];
 [94;163;165;183;169;167;182;188;189;190;91;93;175;168;180;215];
 [123;65;66;67;68;69;70;71;72;73;173;244;246;242;243;245];
 [125;74;75;76;77;78;79;80;81;82;185;251;252;249;250;255];
 [92;247;83;84;85;86;87;88;89;90;178;212;214;210;211;213];
 [48;49;50;51;52;53;54;55;56;57;179;219;220;217;218;159]].

(* lib/converters/ebcdic1140.h:88-121 ebcdic1140_page00 *)
Definition ebcdic1140_page00 : tab := mk [
 [0;1;2;3;55;45;46;47;22;5;37;11;12;13;14;15];
 [16;17;18;19;60;61;50;38;24;25;63;39;28;29;30;31];
 [64;90;127;123;91;108;80;125;77;93;92;78;107;96;75;97];
 [240;241;242;243;244;245;246;247;248;249;122;94;76;126;110;111];
 [124;193;194;195;196;197;198;199;200;201;209;210;211;212;213;214];
 [215;216;217;226;227;228;229;230;231;232;233;186;224;187;176;109];
 [121;129;130;131;132;133;134;135;136;137;145;146;147;148;149;150];
 [151;152;153;162;163;164;165;166;167;168;169;192;79;208;161;7];
 [32;33;34;35;36;21;6;23;40;41;42;43;44;9;10;27];
 [48;49;26;51;52;53;54;8;56;57;58;59;4;20;62;255];
 [65;170;74;177;0;178;106;181;189;180;154;138;95;202;175;188];
 [144;143;234;250;190;160;182;179;157;218;155;139;183;184;185;171];
 [100;101;98;102;99;103;158;104;116;113;114;115;120;117;118;119];
 [172;105;237;238;235;239;236;191;128;253;254;251;252;173;174;89];
 [68;69;66;70;67;71;156;72;84;81;82;83;88;85;86;87];
 [140;73;205;206;203;207;204;225;112;221;222;219;220;141;142;223]].

(* lib/converters/ebcdic1140.h:81-86 ebcdic1140_mbtowc *)
Definition ebcdic1140_mbtowc (s : list Z) (n : nat) : res (Z * option Z) :=
  let pwc := (None : option Z) in
  rd s 0%nat (fun c =>
  tget ebcdic1140_2uni c (fun x2 =>
  let pwc := Some x2 in
  Ok (1, pwc))).

(* lib/converters/ebcdic1140.h:123-136 ebcdic1140_wctomb *)
Definition ebcdic1140_wctomb_j (c : Z) (wc : Z) (r : wlog) : res (Z * wlog) :=
  if ((negb (c =? 0)) ||| (wc =? 0)) then
   let r := wr r 0%nat c in
   Ok (1, r)
  else
   Ok ((-1), r).
(* lib/converters/ebcdic1140.h:123-136 ebcdic1140_wctomb *)
Definition ebcdic1140_wctomb (wc : Z) (n : nat) : res (Z * wlog) :=
  let r := ([] : wlog) in
  let c := 0 in
  if (wc <? 0x100) then
   tget ebcdic1140_page00 wc (fun c =>
   ebcdic1140_wctomb_j c wc r)
  else
   if (wc =? 0x20ac) then
    let c := 0x9f in
    ebcdic1140_wctomb_j c wc r
   else
    ebcdic1140_wctomb_j c wc r.

(* lib/converters/ebcdic1141.h:30-79 ebcdic1141_2uni *)
Definition ebcdic1141_2uni : tab := mk [
 [0;1;2;3;156;9;134;127;151;141;142;11;12;13;14;15];
 [16;17;18;19;157;133;8;135;24;25;146;143;28;29;30;31];
 [128;129;130;131;132;10;23;27;136;137;138;139;140;5;6;7];
 [144;145;22;147;148;149;150;4;152;153;154;155;20;21;158;26];
 [32;160;226;123;224;225;227;229;231;241;196;46;60;40;43;33];
 [38;233;234;235;232;237;238;239;236;126;220;36;42;41;59;94];
 [45;47;194;91;192;193;195;197;199;209;246;44;37;95;62;63];
 [248;201;202;203;200;205;206;207;204;96;58;35;167;39;61;34];
 [216;97;98;99;100;101;102;103;104;105;171;187;240;253;254;177];
 [176;106;107;108;109;110;111;112;113;114;170;186;230;184;198;8364];
 [181;223;115;116;117;118;119;120;121;122;161;191;208;221;222;174];
 [162;163;165;183;169;64;182;188;189;190;172;124;175;168;180;215];
 [228;65;66;67;68;69;70;71;72;73;173;244;166;242;243;245];
 [252;74;75;76;77;78;79;80;81;82;185;251;125;249;250;255];
 [214;247;83;84;85;86;87;88;89;90;178;212;92;210;211;213];
 [48;49;50;51;52;53;54;55;56;57;179;219;93;217;218;159]].

(* lib/converters/ebcdic1141.h:88-121 ebcdic1141_page00 *)
Definition ebcdic1141_page00 : tab := mk [
 [0;1;2;3;55;45;46;47;22;5;37;11;12;13;14;15];
 [16;17;18;19;60;61;50;38;24;25;63;39;28;29;30;31];
 [64;79;127;123;91;108;80;125;77;93;92;78;107;96;75;97];
 [240;241;242;243;244;245;246;247;248;249;122;94;76;126;110;111];
 [181;193;194;195;196;197;198;199;200;201;209;210;211;212;213;214];
 [215;216;217;226;227;228;229;230;231;232;233;99;236;252;95;109];
 [121;129;130;131;132;133;134;135;136;137;145;146;147;148;149;150];
 [151;152;153;162;163;164;165;166;167;168;169;67;187;220;89;7];
 [32;33;34;35;36;21;6;23;40;41;42;43;44;9;10;27];
 [48;49;26;51;52;53;54;8;56;57;58;59;4;20;62;255];
 [65;170;176;177;0;178;204;124;189;180;154;138;186;202;175;188];
 [144;143;234;250;190;160;182;179;157;218;155;139;183;184;185;171];
 [100;101;98;102;74;103;158;104;116;113;114;115;120;117;118;119];
 [172;105;237;238;235;239;224;191;128;253;254;251;90;173;174;161];
 [68;69;66;70;192;71;156;72;84;81;82;83;88;85;86;87];
 [140;73;205;206;203;207;106;225;112;221;222;219;208;141;142;223]].

(* lib/converters/ebcdic1141.h:81-86 ebcdic1141_mbtowc *)
Definition ebcdic1141_mbtowc (s : list Z) (n : nat) : res (Z * option Z) :=
  let pwc := (None : option Z) in
  rd s 0%nat (fun c =>
  tget ebcdic1141_2uni c (fun x2 =>
  let pwc := Some x2 in
  Ok (1, pwc))).

(* lib/converters/ebcdic1141.h:123-136 ebcdic1141_wctomb *)
Definition ebcdic1141_wctomb_j (c : Z) (wc : Z) (r : wlog) : res (Z * wlog) :=
  if ((negb (c =? 0)) ||| (wc =? 0)) then
   let r := wr r 0%nat c in
   Ok (1, r)
  else
   Ok ((-1), r).
(* lib/converters/ebcdic1141.h:123-136 ebcdic1141_wctomb *)
Definition ebcdic1141_wctomb (wc : Z) (n : nat) : res (Z * wlog) :=
  let r := ([] : wlog) in
  let c := 0 in
  if (wc <? 0x100) then
   tget ebcdic1141_page00 wc (fun c =>
   ebcdic1141_wctomb_j c wc r)
  else
   if (wc =? 0x20ac) then
    let c := 0x9f in
    ebcdic1141_wctomb_j c wc r
   else
    ebcdic1141_wctomb_j c wc r.

(* lib/converters/ebcdic1142.h:30-79 ebcdic1142_2uni *)
Definition ebcdic1142_2uni : tab := mk [
 [0;1;2;3;156;9;134;127;151;141;142;11;12;13;14;15];
 [16;17;18;19;157;133;8;135;24;25;146;143;28;29;30;31];
 [128;129;130;131;132;10;23;27;136;137;138;139;140;5;6;7];
 [144;145;22;147;148;149;150;4;152;153;154;155;20;21;158;26];
 [32;160;226;228;224;225;227;125;231;241;35;46;60;40;43;33];
 [38;233;234;235;232;237;238;239;236;223;8364;197;42;41;59;94];
 [45;47;194;196;192;193;195;36;199;209;248;44;37;95;62;63];
 [166;201;202;203;200;205;206;207;204;96;58;198;216;39;61;34];
 [64;97;98;99;100;101;102;103;104;105;171;187;240;253;254;177];
 [176;106;107;108;109;110;111;112;113;114;170;186;123;184;91;93];
 [181;252;115;116;117;118;119;120;121;122;161;191;208;221;222;174];
 [162;163;165;183;169;167;182;188;189;190;172;124;175;168;180;215];
 [230;65;66;67;68;69;70;71;72;73;173;244;246;242;243;245];
 [229;74;75;76;77;78;79;80;81;82;185;251;126;249;250;255];
 [92;247;83;84;85;86;87;88;89;90;178;212;214;210;211;213];
 [48;49;50;51;52;53;54;55;56;57;179;219;220;217;218;159]].

(* lib/converters/ebcdic1142.h:88-121 ebcdic1142_page00 *)
Definition ebcdic1142_page00 : tab := mk [
 [0;1;2;3;55;45;46;47;22;5;37;11;12;13;14;15];
 [16;17;18;19;60;61;50;38;24;25;63;39;28;29;30;31];
 [64;79;127;74;103;108;80;125;77;93;92;78;107;96;75;97];
 [240;241;242;243;244;245;246;247;248;249;122;94;76;126;110;111];
 [128;193;194;195;196;197;198;199;200;201;209;210;211;212;213;214];
 [215;216;217;226;227;228;229;230;231;232;233;158;224;159;95;109];
 [121;129;130;131;132;133;134;135;136;137;145;146;147;148;149;150];
 [151;152;153;162;163;164;165;166;167;168;169;156;187;71;220;7];
 [32;33;34;35;36;21;6;23;40;41;42;43;44;9;10;27];
 [48;49;26;51;52;53;54;8;56;57;58;59;4;20;62;255];
 [65;170;176;177;0;178;112;181;189;180;154;138;186;202;175;188];
 [144;143;234;250;190;160;182;179;157;218;155;139;183;184;185;171];
 [100;101;98;102;99;91;123;104;116;113;114;115;120;117;118;119];
 [172;105;237;238;235;239;236;191;124;253;254;251;252;173;174;89];
 [68;69;66;70;67;208;192;72;84;81;82;83;88;85;86;87];
 [140;73;205;206;203;207;204;225;106;221;222;219;161;141;142;223]].

(* lib/converters/ebcdic1142.h:81-86 ebcdic1142_mbtowc *)
Definition ebcdic1142_mbtowc (s : list Z) (n : nat) : res (Z * option Z) :=
  let pwc := (None : option Z) in
  rd s 0%nat (fun c =>
  tget ebcdic1142_2uni c (fun x2 =>
  let pwc := Some x2 in
  Ok (1, pwc))).

(* lib/converters/ebcdic1142.h:123-136 ebcdic1142_wctomb *)
Definition ebcdic1142_wctomb_j (c : Z) (wc : Z) (r : wlog) : res (Z * wlog) :=
  if ((negb (c =? 0)) ||| (wc =? 0)) then
   let r := wr r 0%nat c in
   Ok (1, r)
  else
   Ok ((-1), r).
(* lib/converters/ebcdic1142.h:123-136 ebcdic1142_wctomb *)
Definition ebcdic1142_wctomb (wc : Z) (n : nat) : res (Z * wlog) :=
  let r := ([] : wlog) in
  let c := 0 in
  if (wc <? 0x100) then
   tget ebcdic1142_page00 wc (fun c =>
   ebcdic1142_wctomb_j c wc r)
  else
   if (wc =? 0x20ac) then
    let c := 0x5a in
    ebcdic1142_wctomb_j c wc r
   else
    ebcdic1142_wctomb_j c wc r.

(* lib/converters/ebcdic1143.h:30-79 ebcdic1143_2uni *)
Definition ebcdic1143_2uni : tab := mk [
 [0;1;2;3;156;9;134;127;151;141;142;11;12;13;14;15];
 [16;17;18;19;157;133;8;135;24;25;146;143;28;29;30;31];
 [128;129;130;131;132;10;23;27;136;137;138;139;140;5;6;7];
 [144;145;22;147;148;149;150;4;152;153;154;155;20;21;158;26];
 [32;160;226;123;224;225;227;125;231;241;167;46;60;40;43;33];
 [38;96;234;235;232;237;238;239;236;223;8364;197;42;41;59;94];
 [45;47;194;35;192;193;195;36;199;209;246;44;37;95;62;63];
 [248;92;202;203;200;205;206;207;204;233;58;196;214;39;61;34];
 [216;97;98;99;100;101;102;103;104;105;171;187;240;253;254;177];
 [176;106;107;108;109;110;111;112;113;114;170;186;230;184;198;93];
 [181;252;115;116;117;118;119;120;121;122;161;191;208;221;222;174];
 [162;163;165;183;169;91;182;188;189;190;172;124;175;168;180;215];
 [228;65;66;67;68;69;70;71;72;73;173;244;166;242;243;245];
 [229;74;75;76;77;78;79;80;81;82;185;251;126;249;250;255];
 [201;247;83;84;85;86;87;88;89;90;178;212;64;210;211;213];
 [48;49;50;51;52;53;54;55;56;57;179;219;220;217;218;159]].

(* lib/converters/ebcdic1143.h:88-121 ebcdic1143_page00 *)
Definition ebcdic1143_page00 : tab := mk [
 [0;1;2;3;55;45;46;47;22;5;37;11;12;13;14;15];
 [16;17;18;19;60;61;50;38;24;25;63;39;28;29;30;31];
 [64;79;127;99;103;108;80;125;77;93;92;78;107;96;75;97];
 [240;241;242;243;244;245;246;247;248;249;122;94;76;126;110;111];
 [236;193;194;195;196;197;198;199;200;201;209;210;211;212;213;214];
 [215;216;217;226;227;228;229;230;231;232;233;181;113;159;95;109];
 [81;129;130;131;132;133;134;135;136;137;145;146;147;148;149;150];
 [151;152;153;162;163;164;165;166;167;168;169;67;187;71;220;7];
 [32;33;34;35;36;21;6;23;40;41;42;43;44;9;10;27];
 [48;49;26;51;52;53;54;8;56;57;58;59;4;20;62;255];
 [65;170;176;177;0;178;204;74;189;180;154;138;186;202;175;188];
 [144;143;234;250;190;160;182;179;157;218;155;139;183;184;185;171];
 [100;101;98;102;123;91;158;104;116;224;114;115;120;117;118;119];
 [172;105;237;238;235;239;124;191;128;253;254;251;252;173;174;89];
 [68;69;66;70;192;208;156;72;84;121;82;83;88;85;86;87];
 [140;73;205;206;203;207;106;225;112;221;222;219;161;141;142;223]].

(* lib/converters/ebcdic1143.h:81-86 ebcdic1143_mbtowc *)
Definition ebcdic1143_mbtowc (s : list Z) (n : nat) : res (Z * option Z) :=
  let pwc := (None : option Z) in
  rd s 0%nat (fun c =>
  tget ebcdic1143_2uni c (fun x2 =>
  let pwc := Some x2 in
  Ok (1, pwc))).

(* lib/converters/ebcdic1143.h:123-136 ebcdic1143_wctomb *)
Definition ebcdic1143_wctomb_j (c : Z) (wc : Z) (r : wlog) : res (Z * wlog) :=
  if ((negb (c =? 0)) ||| (wc =? 0)) then
   let r := wr r 0%nat c in
   Ok (1, r)
  else
   Ok ((-1), r).
(* lib/converters/ebcdic1143.h:123-136 ebcdic1143_wctomb *)
Definition ebcdic1143_wctomb (wc : Z) (n : nat) : res (Z * wlog) :=
  let r := ([] : wlog) in
  let c := 0 in
  if (wc <? 0x100) then
   tget ebcdic1143_page00 wc (fun c =>
   ebcdic1143_wctomb_j c wc r)
  else
   if (wc =? 0x20ac) then
    let c := 0x5a in
    ebcdic1143_wctomb_j c wc r
   else
    ebcdic1143_wctomb_j c wc r.

(* lib/converters/ebcdic1144.h:30-79 ebcdic1144_2uni *)
Definition ebcdic1144_2uni : tab := mk [
 [0;1;2;3;156;9;134;127;151;141;142;11;12;13;14;15];
 [16;17;18;19;157;133;8;135;24;25;146;143;28;29;30;31];
 [128;129;130;131;132;10;23;27;136;137;138;139;140;5;6;7];
 [144;145;22;147;148;149;150;4;152;153;154;155;20;21;158;26];
 [32;160;226;228;123;225;227;229;92;241;176;46;60;40;43;33];
 [38;93;234;235;125;237;238;239;126;223;233;36;42;41;59;94];
 [45;47;194;196;192;193;195;197;199;209;242;44;37;95;62;63];
 [248;201;202;203;200;205;206;207;204;249;58;163;167;39;61;34];
 [216;97;98;99;100;101;102;103;104;105;171;187;240;253;254;177];
 [91;106;107;108;109;110;111;112;113;114;170;186;230;184;198;8364];
 [181;236;115;116;117;118;119;120;121;122;161;191;208;221;222;174];
 [162;35;165;183;169;64;182;188;189;190;172;124;175;168;180;215];
 [224;65;66;67;68;69;70;71;72;73;173;244;246;166;243;245];
 [232;74;75;76;77;78;79;80;81;82;185;251;252;96;250;255];
 [231;247;83;84;85;86;87;88;89;90;178;212;214;210;211;213];
 [48;49;50;51;52;53;54;55;56;57;179;219;220;217;218;159]].

(* lib/converters/ebcdic1144.h:88-121 ebcdic1144_page00 *)
Definition ebcdic1144_page00 : tab := mk [
 [0;1;2;3;55;45;46;47;22;5;37;11;12;13;14;15];
 [16;17;18;19;60;61;50;38;24;25;63;39;28;29;30;31];
 [64;79;127;177;91;108;80;125;77;93;92;78;107;96;75;97];
 [240;241;242;243;244;245;246;247;248;249;122;94;76;126;110;111];
 [181;193;194;195;196;197;198;199;200;201;209;210;211;212;213;214];
 [215;216;217;226;227;228;229;230;231;232;233;144;72;81;95;109];
 [221;129;130;131;132;133;134;135;136;137;145;146;147;148;149;150];
 [151;152;153;162;163;164;165;166;167;168;169;68;187;84;88;7];
 [32;33;34;35;36;21;6;23;40;41;42;43;44;9;10;27];
 [48;49;26;51;52;53;54;8;56;57;58;59;4;20;62;255];
 [65;170;176;123;0;178;205;124;189;180;154;138;186;202;175;188];
 [74;143;234;250;190;160;182;179;157;218;155;139;183;184;185;171];
 [100;101;98;102;99;103;158;104;116;113;114;115;120;117;118;119];
 [172;105;237;238;235;239;236;191;128;253;254;251;252;173;174;89];
 [192;69;66;70;67;71;156;224;208;90;82;83;161;85;86;87];
 [140;73;106;206;203;207;204;225;112;121;222;219;220;141;142;223]].

(* lib/converters/ebcdic1144.h:81-86 ebcdic1144_mbtowc *)
Definition ebcdic1144_mbtowc (s : list Z) (n : nat) : res (Z * option Z) :=
  let pwc := (None : option Z) in
  rd s 0%nat (fun c =>
  tget ebcdic1144_2uni c (fun x2 =>
  let pwc := Some x2 in
  Ok (1, pwc))).

(* lib/converters/ebcdic1144.h:123-136 ebcdic1144_wctomb *)
Definition ebcdic1144_wctomb_j (c : Z) (wc : Z) (r : wlog) : res (Z * wlog) :=
  if ((negb (c =? 0)) ||| (wc =? 0)) then
   let r := wr r 0%nat c in
   Ok (1, r)
  else
   Ok ((-1), r).
(* lib/converters/ebcdic1144.h:123-136 ebcdic1144_wctomb *)
Definition ebcdic1144_wctomb (wc : Z) (n : nat) : res (Z * wlog) :=
  let r := ([] : wlog) in
  let c := 0 in
  if (wc <? 0x100) then
   tget ebcdic1144_page00 wc (fun c =>
   ebcdic1144_wctomb_j c wc r)
  else
   if (wc =? 0x20ac) then
    let c := 0x9f in
    ebcdic1144_wctomb_j c wc r
   else
    ebcdic1144_wctomb_j c wc r.

(* lib/converters/ebcdic1145.h:30-79 ebcdic1145_2uni *)
Definition ebcdic1145_2uni : tab := mk [
 [0;1;2;3;156;9;134;127;151;141;142;11;12;13;14;15];
 [16;17;18;19;157;133;8;135;24;25;146;143;28;29;30;31];
 [128;129;130;131;132;10;23;27;136;137;138;139;140;5;6;7];
 [144;145;22;147;148;149;150;4;152;153;154;155;20;21;158;26];
 [32;160;226;228;224;225;227;229;231;166;91;46;60;40;43;124];
 [38;233;234;235;232;237;238;239;236;223;93;36;42;41;59;172];
 [45;47;194;196;192;193;195;197;199;35;241;44;37;95;62;63];
 [248;201;202;203;200;205;206;207;204;96;58;209;64;39;61;34];
 [216;97;98;99;100;101;102;103;104;105;171;187;240;253;254;177];
 [176;106;107;108;109;110;111;112;113;114;170;186;230;184;198;8364];
 [181;168;115;116;117;118;119;120;121;122;161;191;208;221;222;174];
 [162;163;165;183;169;167;182;188;189;190;94;33;175;126;180;215];
 [123;65;66;67;68;69;70;71;72;73;173;244;246;242;243;245];
 [125;74;75;76;77;78;79;80;81;82;185;251;252;249;250;255];
 [92;247;83;84;85;86;87;88;89;90;178;212;214;210;211;213];
 [48;49;50;51;52;53;54;55;56;57;179;219;220;217;218;159]].

(* lib/converters/ebcdic1145.h:88-121 ebcdic1145_page00 *)
Definition ebcdic1145_page00 : tab := mk [
 [0;1;2;3;55;45;46;47;22;5;37;11;12;13;14;15];
 [16;17;18;19;60;61;50;38;24;25;63;39;28;29;30;31];
 [64;187;127;105;91;108;80;125;77;93;92;78;107;96;75;97];
 [240;241;242;243;244;245;246;247;248;249;122;94;76;126;110;111];
 [124;193;194;195;196;197;198;199;200;201;209;210;211;212;213;214];
 [215;216;217;226;227;228;229;230;231;232;233;74;224;90;186;109];
 [121;129;130;131;132;133;134;135;136;137;145;146;147;148;149;150];
 [151;152;153;162;163;164;165;166;167;168;169;192;79;208;189;7];
 [32;33;34;35;36;21;6;23;40;41;42;43;44;9;10;27];
 [48;49;26;51;52;53;54;8;56;57;58;59;4;20;62;255];
 [65;170;176;177;0;178;73;181;161;180;154;138;95;202;175;188];
 [144;143;234;250;190;160;182;179;157;218;155;139;183;184;185;171];
 [100;101;98;102;99;103;158;104;116;113;114;115;120;117;118;119];
 [172;123;237;238;235;239;236;191;128;253;254;251;252;173;174;89];
 [68;69;66;70;67;71;156;72;84;81;82;83;88;85;86;87];
 [140;106;205;206;203;207;204;225;112;221;222;219;220;141;142;223]].

(* lib/converters/ebcdic1145.h:81-86 ebcdic1145_mbtowc *)
Definition ebcdic1145_mbtowc (s : list Z) (n : nat) : res (Z * option Z) :=
  let pwc := (None : option Z) in
  rd s 0%nat (fun c =>
  tget ebcdic1145_2uni c (fun x2 =>
  let pwc := Some x2 in
  Ok (1, pwc))).

(* lib/converters/ebcdic1145.h:123-136 ebcdic1145_wctomb *)
Definition ebcdic1145_wctomb_j (c : Z) (wc : Z) (r : wlog) : res (Z * wlog) :=
  if ((negb (c =? 0)) ||| (wc =? 0)) then
   let r := wr r 0%nat c in
   Ok (1, r)
  else
   Ok ((-1), r).
(* lib/converters/ebcdic1145.h:123-136 ebcdic1145_wctomb *)
Definition ebcdic1145_wctomb (wc : Z) (n : nat) : res (Z * wlog) :=
  let r := ([] : wlog) in
  let c := 0 in
  if (wc <? 0x100) then
   tget ebcdic1145_page00 wc (fun c =>
   ebcdic1145_wctomb_j c wc r)
  else
   if (wc =? 0x20ac) then
    let c := 0x9f in
    ebcdic1145_wctomb_j c wc r
   else
    ebcdic1145_wctomb_j c wc r.

(* lib/converters/ebcdic1146.h:30-79 ebcdic1146_2uni *)
Definition ebcdic1146_2uni : tab := mk [
 [0;1;2;3;156;9;134;127;151;141;142;11;12;13;14;15];
 [16;17;18;19;157;133;8;135;24;25;146;143;28;29;30;31];
 [128;129;130;131;132;10;23;27;136;137;138;139;140;5;6;7];
 [144;145;22;147;148;149;150;4;152;153;154;155;20;21;158;26];
 [32;160;226;228;224;225;227;229;231;241;36;46;60;40;43;124];
 [38;233;234;235;232;237;238;239;236;223;33;163;42;41;59;172];
 [45;47;194;196;192;193;195;197;199;209;166;44;37;95;62;63];
 [248;201;202;203;200;205;206;207;204;96;58;35;64;39;61;34];
 [216;97;98;99;100;101;102;103;104;105;171;187;240;253;254;177];
 [176;106;107;108;109;110;111;112;113;114;170;186;230;184;198;8364];
 [181;175;115;116;117;118;119;120;121;122;161;191;208;221;222;174];
 [162;91;165;183;169;167;182;188;189;190;94;93;126;168;180;215];
 [123;65;66;67;68;69;70;71;72;73;173;244;246;242;243;245];
 [125;74;75;76;77;78;79;80;81;82;185;251;252;249;250;255];
 [92;247;83;84;85;86;87;88;89;90;178;212;214;210;211;213];
 [48;49;50;51;52;53;54;55;56;57;179;219;220;217;218;159]].

(* lib/converters/ebcdic1146.h:88-121 ebcdic1146_page00 *)
Definition ebcdic1146_page00 : tab := mk [
 [0;1;2;3;55;45;46;47;22;5;37;11;12;13;14;15];
 [16;17;18;19;60;61;50;38;24;25;63;39;28;29;30;31];
 [64;90;127;123;74;108;80;125;77;93;92;78;107;96;75;97];
 [240;241;242;243;244;245;246;247;248;249;122;94;76;126;110;111];
 [124;193;194;195;196;197;198;199;200;201;209;210;211;212;213;214];
 [215;216;217;226;227;228;229;230;231;232;233;177;224;187;186;109];
 [121;129;130;131;132;133;134;135;136;137;145;146;147;148;149;150];
 [151;152;153;162;163;164;165;166;167;168;169;192;79;208;188;7];
 [32;33;34;35;36;21;6;23;40;41;42;43;44;9;10;27];
 [48;49;26;51;52;53;54;8;56;57;58;59;4;20;62;255];
 [65;170;176;91;0;178;106;181;189;180;154;138;95;202;175;161];
 [144;143;234;250;190;160;182;179;157;218;155;139;183;184;185;171];
 [100;101;98;102;99;103;158;104;116;113;114;115;120;117;118;119];
 [172;105;237;238;235;239;236;191;128;253;254;251;252;173;174;89];
 [68;69;66;70;67;71;156;72;84;81;82;83;88;85;86;87];
 [140;73;205;206;203;207;204;225;112;221;222;219;220;141;142;223]].

(* lib/converters/ebcdic1146.h:81-86 ebcdic1146_mbtowc *)
Definition ebcdic1146_mbtowc (s : list Z) (n : nat) : res (Z * option Z) :=
  let pwc := (None : option Z) in
  rd s 0%nat (fun c =>
  tget ebcdic1146_2uni c (fun x2 =>
  let pwc := Some x2 in
  Ok (1, pwc))).

(* lib/converters/ebcdic1146.h:123-136 ebcdic1146_wctomb *)
Definition ebcdic1146_wctomb_j (c : Z) (wc : Z) (r : wlog) : res (Z * wlog) :=
  if ((negb (c =? 0)) ||| (wc =? 0)) then
   let r := wr r 0%nat c in
   Ok (1, r)
  else
   Ok ((-1), r).
(* lib/converters/ebcdic1146.h:123-136 ebcdic1146_wctomb *)
Definition ebcdic1146_wctomb (wc : Z) (n : nat) : res (Z * wlog) :=
  let r := ([] : wlog) in
  let c := 0 in
  if (wc <? 0x100) then
   tget ebcdic1146_page00 wc (fun c =>
   ebcdic1146_wctomb_j c wc r)
  else
   if (wc =? 0x20ac) then
    let c := 0x9f in
    ebcdic1146_wctomb_j c wc r
   else
    ebcdic1146_wctomb_j c wc r.

(* lib/converters/ebcdic1147.h:30-79 ebcdic1147_2uni *)
Definition ebcdic1147_2uni : tab := mk [
 [0;1;2;3;156;9;134;127;151;141;142;11;12;13;14;15];
 [16;17;18;19;157;133;8;135;24;25;146;143;28;29;30;31];
 [128;129;130;131;132;10;23;27;136;137;138;139;140;5;6;7];
 [144;145;22;147;148;149;150;4;152;153;154;155;20;21;158;26];
 [32;160;226;228;64;225;227;229;92;241;176;46;60;40;43;33];
 [38;123;234;235;125;237;238;239;236;223;167;36;42;41;59;94];
 [45;47;194;196;192;193;195;197;199;209;249;44;37;95;62;63];
 [248;201;202;203;200;205;206;207;204;181;58;163;224;39;61;34];
 [216;97;98;99;100;101;102;103;104;105;171;187;240;253;254;177];
 [91;106;107;108;109;110;111;112;113;114;170;186;230;184;198;8364];
 [96;168;115;116;117;118;119;120;121;122;161;191;208;221;222;174];
 [162;35;165;183;169;93;182;188;189;190;172;124;175;126;180;215];
 [233;65;66;67;68;69;70;71;72;73;173;244;246;242;243;245];
 [232;74;75;76;77;78;79;80;81;82;185;251;252;166;250;255];
 [231;247;83;84;85;86;87;88;89;90;178;212;214;210;211;213];
 [48;49;50;51;52;53;54;55;56;57;179;219;220;217;218;159]].

(* lib/converters/ebcdic1147.h:88-121 ebcdic1147_page00 *)
Definition ebcdic1147_page00 : tab := mk [
 [0;1;2;3;55;45;46;47;22;5;37;11;12;13;14;15];
 [16;17;18;19;60;61;50;38;24;25;63;39;28;29;30;31];
 [64;79;127;177;91;108;80;125;77;93;92;78;107;96;75;97];
 [240;241;242;243;244;245;246;247;248;249;122;94;76;126;110;111];
 [68;193;194;195;196;197;198;199;200;201;209;210;211;212;213;214];
 [215;216;217;226;227;228;229;230;231;232;233;144;72;181;95;109];
 [160;129;130;131;132;133;134;135;136;137;145;146;147;148;149;150];
 [151;152;153;162;163;164;165;166;167;168;169;81;187;84;189;7];
 [32;33;34;35;36;21;6;23;40;41;42;43;44;9;10;27];
 [48;49;26;51;52;53;54;8;56;57;58;59;4;20;62;255];
 [65;170;176;123;0;178;221;90;161;180;154;138;186;202;175;188];
 [74;143;234;250;190;121;182;179;157;218;155;139;183;184;185;171];
 [100;101;98;102;99;103;158;104;116;113;114;115;120;117;118;119];
 [172;105;237;238;235;239;236;191;128;253;254;251;252;173;174;89];
 [124;69;66;70;67;71;156;224;208;192;82;83;88;85;86;87];
 [140;73;205;206;203;207;204;225;112;106;222;219;220;141;142;223]].

(* lib/converters/ebcdic1147.h:81-86 ebcdic1147_mbtowc *)
Definition ebcdic1147_mbtowc (s : list Z) (n : nat) : res (Z * option Z) :=
  let pwc := (None : option Z) in
  rd s 0%nat (fun c =>
  tget ebcdic1147_2uni c (fun x2 =>
  let pwc := Some x2 in
  Ok (1, pwc))).

(* lib/converters/ebcdic1147.h:123-136 ebcdic1147_wctomb *)
Definition ebcdic1147_wctomb_j (c : Z) (wc : Z) (r : wlog) : res (Z * wlog) :=
  if ((negb (c =? 0)) ||| (wc =? 0)) then
   let r := wr r 0%nat c in
   Ok (1, r)
  else
   Ok ((-1), r).
(* lib/converters/ebcdic1147.h:123-136 ebcdic1147_wctomb *)
Definition ebcdic1147_wctomb (wc : Z) (n : nat) : res (Z * wlog) :=
  let r := ([] : wlog) in
  let c := 0 in
  if (wc <? 0x100) then
   tget ebcdic1147_page00 wc (fun c =>
   ebcdic1147_wctomb_j c wc r)
  else
   if (wc =? 0x20ac) then
    let c := 0x9f in
    ebcdic1147_wctomb_j c wc r
   else
    ebcdic1147_wctomb_j c wc r.

(* lib/converters/ebcdic1148.h:30-79 ebcdic1148_2uni *)
Definition ebcdic1148_2uni : tab := mk [
 [0;1;2;3;156;9;134;127;151;141;142;11;12;13;14;15];
 [16;17;18;19;157;133;8;135;24;25;146;143;28;29;30;31];
 [128;129;130;131;132;10;23;27;136;137;138;139;140;5;6;7];
 [144;145;22;147;148;149;150;4;152;153;154;155;20;21;158;26];
 [32;160;226;228;224;225;227;229;231;241;91;46;60;40;43;33];
 [38;233;234;235;232;237;238;239;236;223;93;36;42;41;59;94];
 [45;47;194;196;192;193;195;197;199;209;166;44;37;95;62;63];
 [248;201;202;203;200;205;206;207;204;96;58;35;64;39;61;34];
 [216;97;98;99;100;101;102;103;104;105;171;187;240;253;254;177];
 [176;106;107;108;109;110;111;112;113;114;170;186;230;184;198;8364];
 [181;126;115;116;117;118;119;120;121;122;161;191;208;221;222;174];
 [162;163;165;183;169;167;182;188;189;190;172;124;175;168;180;215];
 [123;65;66;67;68;69;70;71;72;73;173;244;246;242;243;245];
 [125;74;75;76;77;78;79;80;81;82;185;251;252;249;250;255];
 [92;247;83;84;85;86;87;88;89;90;178;212;214;210;211;213];
 [48;49;50;51;52;53;54;55;56;57;179;219;220;217;218;159]].

(* lib/converters/ebcdic1148.h:88-121 ebcdic1148_page00 *)
Definition ebcdic1148_page00 : tab := mk [
 [0;1;2;3;55;45;46;47;22;5;37;11;12;13;14;15];
 [16;17;18;19;60;61;50;38;24;25;63;39;28;29;30;31];
 [64;79;127;123;91;108;80;125;77;93;92;78;107;96;75;97];
 [240;241;242;243;244;245;246;247;248;249;122;94;76;126;110;111];
 [124;193;194;195;196;197;198;199;200;201;209;210;211;212;213;214];
 [215;216;217;226;227;228;229;230;231;232;233;74;224;90;95;109];
 [121;129;130;131;132;133;134;135;136;137;145;146;147;148;149;150];
 [151;152;153;162;163;164;165;166;167;168;169;192;187;208;161;7];
 [32;33;34;35;36;21;6;23;40;41;42;43;44;9;10;27];
 [48;49;26;51;52;53;54;8;56;57;58;59;4;20;62;255];
 [65;170;176;177;0;178;106;181;189;180;154;138;186;202;175;188];
 [144;143;234;250;190;160;182;179;157;218;155;139;183;184;185;171];
 [100;101;98;102;99;103;158;104;116;113;114;115;120;117;118;119];
 [172;105;237;238;235;239;236;191;128;253;254;251;252;173;174;89];
 [68;69;66;70;67;71;156;72;84;81;82;83;88;85;86;87];
 [140;73;205;206;203;207;204;225;112;221;222;219;220;141;142;223]].

(* lib/converters/ebcdic1148.h:81-86 ebcdic1148_mbtowc *)
Definition ebcdic1148_mbtowc (s : list Z) (n : nat) : res (Z * option Z) :=
  let pwc := (None : option Z) in
  rd s 0%nat (fun c =>
  tget ebcdic1148_2uni c (fun x2 =>
  let pwc := Some x2 in
  Ok (1, pwc))).

(* lib/converters/ebcdic1148.h:123-136 ebcdic1148_wctomb *)
Definition ebcdic1148_wctomb_j (c : Z) (wc : Z) (r : wlog) : res (Z * wlog) :=
  if ((negb (c =? 0)) ||| (wc =? 0)) then
   let r := wr r 0%nat c in
   Ok (1, r)
  else
   Ok ((-1), r).
(* lib/converters/ebcdic1148.h:123-136 ebcdic1148_wctomb *)
Definition ebcdic1148_wctomb (wc : Z) (n : nat) : res (Z * wlog) :=
  let r := ([] : wlog) in
  let c := 0 in
  if (wc <? 0x100) then
   tget ebcdic1148_page00 wc (fun c =>
   ebcdic1148_wctomb_j c wc r)
  else
   if (wc =? 0x20ac) then
    let c := 0x9f in
    ebcdic1148_wctomb_j c wc r
   else
    ebcdic1148_wctomb_j c wc r.

(* lib/converters/ebcdic1149.h:30-79 ebcdic1149_2uni *)
Definition ebcdic1149_2uni : tab := mk [
 [0;1;2;3;156;9;134;127;151;141;142;11;12;13;14;15];
 [16;17;18;19;157;133;8;135;24;25;146;143;28;29;30;31];
 [128;129;130;131;132;10;23;27;136;137;138;139;140;5;6;7];
 [144;145;22;147;148;149;150;4;152;153;154;155;20;21;158;26];
 [32;160;226;228;224;225;227;229;231;241;222;46;60;40;43;33];
 [38;233;234;235;232;237;238;239;236;223;198;36;42;41;59;214];
 [45;47;194;196;192;193;195;197;199;209;166;44;37;95;62;63];
 [248;201;202;203;200;205;206;207;204;240;58;35;208;39;61;34];
 [216;97;98;99;100;101;102;103;104;105;171;187;96;253;123;177];
 [176;106;107;108;109;110;111;112;113;114;170;186;125;184;93;8364];
 [181;246;115;116;117;118;119;120;121;122;161;191;64;221;91;174];
 [162;163;165;183;169;167;182;188;189;190;172;124;175;168;92;215];
 [254;65;66;67;68;69;70;71;72;73;173;244;126;242;243;245];
 [230;74;75;76;77;78;79;80;81;82;185;251;252;249;250;255];
 [180;247;83;84;85;86;87;88;89;90;178;212;94;210;211;213];
 [48;49;50;51;52;53;54;55;56;57;179;219;220;217;218;159]].

(* lib/converters/ebcdic1149.h:88-121 ebcdic1149_page00 *)
Definition ebcdic1149_page00 : tab := mk [
 [0;1;2;3;55;45;46;47;22;5;37;11;12;13;14;15];
 [16;17;18;19;60;61;50;38;24;25;63;39;28;29;30;31];
 [64;79;127;123;91;108;80;125;77;93;92;78;107;96;75;97];
 [240;241;242;243;244;245;246;247;248;249;122;94;76;126;110;111];
 [172;193;194;195;196;197;198;199;200;201;209;210;211;212;213;214];
 [215;216;217;226;227;228;229;230;231;232;233;174;190;158;236;109];
 [140;129;130;131;132;133;134;135;136;137;145;146;147;148;149;150];
 [151;152;153;162;163;164;165;166;167;168;169;142;187;156;204;7];
 [32;33;34;35;36;21;6;23;40;41;42;43;44;9;10;27];
 [48;49;26;51;52;53;54;8;56;57;58;59;4;20;62;255];
 [65;170;176;177;0;178;106;181;189;180;154;138;186;202;175;188];
 [144;143;234;250;224;160;182;179;157;218;155;139;183;184;185;171];
 [100;101;98;102;99;103;90;104;116;113;114;115;120;117;118;119];
 [124;105;237;238;235;239;95;191;128;253;254;251;252;173;74;89];
 [68;69;66;70;67;71;208;72;84;81;82;83;88;85;86;87];
 [121;73;205;206;203;207;161;225;112;221;222;219;220;141;192;223]].

(* lib/converters/ebcdic1149.h:81-86 ebcdic1149_mbtowc *)
Definition ebcdic1149_mbtowc (s : list Z) (n : nat) : res (Z * option Z) :=
  let pwc := (None : option Z) in
  rd s 0%nat (fun c =>
  tget ebcdic1149_2uni c (fun x2 =>
  let pwc := Some x2 in
  Ok (1, pwc))).

(* lib/converters/ebcdic1149.h:123-136 ebcdic1149_wctomb *)
Definition ebcdic1149_wctomb_j (c : Z) (wc : Z) (r : wlog) : res (Z * wlog) :=
  if ((negb (c =? 0)) ||| (wc =? 0)) then
   let r := wr r 0%nat c in
   Ok (1, r)
  else
   Ok ((-1), r).
(* lib/converters/ebcdic1149.h:123-136 ebcdic1149_wctomb *)
Definition ebcdic1149_wctomb (wc : Z) (n : nat) : res (Z * wlog) :=
  let r := ([] : wlog) in
  let c := 0 in
  if (wc <? 0x100) then
   tget ebcdic1149_page00 wc (fun c =>
   ebcdic1149_wctomb_j c wc r)
  else
   if (wc =? 0x20ac) then
    let c := 0x9f in
    ebcdic1149_wctomb_j c wc r
   else
    ebcdic1149_wctomb_j c wc r.

(* lib/converters/ebcdic1153.h:30-79 ebcdic1153_2uni *)
Definition ebcdic1153_2uni : tab := mk [
 [0;1;2;3;156;9;134;127;151;141;142;11;12;13;14;15];
 [16;17;18;19;157;133;8;135;24;25;146;143;28;29;30;31];
 [128;129;130;131;132;10;23;27;136;137;138;139;140;5;6;7];
 [144;145;22;147;148;149;150;4;152;153;154;155;20;21;158;26];
 [32;160;226;228;355;225;259;269;231;263;91;46;60;40;43;33];
 [38;233;281;235;367;237;238;318;314;223;93;36;42;41;59;94];
 [45;47;194;196;733;193;258;268;199;262;124;44;37;95;62;63];
 [711;201;280;203;366;205;206;317;313;96;58;35;64;39;61;34];
 [728;97;98;99;100;101;102;103;104;105;347;328;273;253;345;351];
 [176;106;107;108;109;110;111;112;113;114;322;324;353;184;731;8364];
 [261;126;115;116;117;118;119;120;121;122;346;327;272;221;344;350];
 [729;260;380;354;379;167;382;378;381;377;321;323;352;168;180;215];
 [123;65;66;67;68;69;70;71;72;73;173;244;246;341;243;337];
 [125;74;75;76;77;78;79;80;81;82;282;369;252;357;250;283];
 [92;247;83;84;85;86;87;88;89;90;271;212;214;340;211;336];
 [48;49;50;51;52;53;54;55;56;57;270;368;220;356;218;159]].

(* lib/converters/ebcdic1153.h:88-138 ebcdic1153_page00 *)
Definition ebcdic1153_page00 : tab := mk [
 [0;1;2;3;55;45;46;47;22;5;37;11;12;13;14;15];
 [16;17;18;19;60;61;50;38;24;25;63;39;28;29;30;31];
 [64;79;127;123;91;108;80;125;77;93;92;78;107;96;75;97];
 [240;241;242;243;244;245;246;247;248;249;122;94;76;126;110;111];
 [124;193;194;195;196;197;198;199;200;201;209;210;211;212;213;214];
 [215;216;217;226;227;228;229;230;231;232;233;74;224;90;95;109];
 [121;129;130;131;132;133;134;135;136;137;145;146;147;148;149;150];
 [151;152;153;162;163;164;165;166;167;168;169;192;106;208;161;7];
 [32;33;34;35;36;21;6;23;40;41;42;43;44;9;10;27];
 [48;49;26;51;52;53;54;8;56;57;58;59;4;20;62;255];
 [65;0;0;0;0;0;0;181;189;0;0;0;0;202;0;0];
 [144;0;0;0;190;0;0;0;157;0;0;0;0;0;0;0];
 [0;101;98;0;99;0;0;104;0;113;0;115;0;117;118;0];
 [0;0;0;238;235;0;236;191;0;0;254;0;252;173;0;89];
 [0;69;66;0;67;0;0;72;0;81;0;83;0;85;86;0];
 [0;0;0;206;203;0;204;225;0;0;222;0;220;141;0;0];
 [0;0;102;70;177;160;105;73;0;0;0;0;103;71;250;234];
 [172;140;0;0;0;0;0;0;114;82;218;223;0;0;0;0];
 [0;0;0;0;0;0;0;0;0;0;0;0;0;0;0;0];
 [0;0;0;0;0;0;0;0;0;120;88;0;0;119;87;0];
 [0;186;154;187;155;0;0;171;139;0;0;0;0;0;0;0];
 [239;207;0;0;237;205;0;0;174;142;170;138;0;0;175;143];
 [188;156;179;68;253;221;0;0;0;0;0;0;0;0;116;84];
 [251;219;0;0;0;0;0;0;0;185;183;180;178;184;182;0]].

(* lib/converters/ebcdic1153.h:81-86 ebcdic1153_mbtowc *)
Definition ebcdic1153_mbtowc (s : list Z) (n : nat) : res (Z * option Z) :=
  let pwc := (None : option Z) in
  rd s 0%nat (fun c =>
  tget ebcdic1153_2uni c (fun x2 =>
  let pwc := Some x2 in
  Ok (1, pwc))).

(* lib/converters/ebcdic1153.h:150-165 ebcdic1153_wctomb *)
Definition ebcdic1153_wctomb_j (c : Z) (wc : Z) (r : wlog) : res (Z * wlog) :=
  if ((negb (c =? 0)) ||| (wc =? 0)) then
   let r := wr r 0%nat c in
   Ok (1, r)
  else
   Ok ((-1), r).
(* lib/converters/ebcdic1153.h:150-165 ebcdic1153_wctomb *)
Definition ebcdic1153_wctomb (wc : Z) (n : nat) : res (Z * wlog) :=
  let r := ([] : wlog) in
  let c := 0 in
  if (wc <? 0x180) then
   tget ebcdic1153_page00 wc (fun c =>
   ebcdic1153_wctomb_j c wc r)
  else
   if ((wc >=? 0x2c0) &&& (wc <? 0x2e0)) then
    tget ebcdic870_page02 (wc - 0x2c0) (fun c =>
    ebcdic1153_wctomb_j c wc r)
   else
    if (wc =? 0x20ac) then
     let c := 0x9f in
     ebcdic1153_wctomb_j c wc r
    else
     ebcdic1153_wctomb_j c wc r.

(* lib/converters/ebcdic1154.h:30-79 ebcdic1154_2uni *)
Definition ebcdic1154_2uni : tab := mk [
 [0;1;2;3;156;9;134;127;151;141;142;11;12;13;14;15];
 [16;17;18;19;157;133;8;135;24;25;146;143;28;29;30;31];
 [128;129;130;131;132;10;23;27;136;137;138;139;140;5;6;7];
 [144;145;22;147;148;149;150;4;152;153;154;155;20;21;158;26];
 [32;160;1106;1107;1105;1108;1109;1110;1111;1112;91;46;60;40;43;33];
 [38;1113;1114;1115;1116;1118;1119;1066;8470;1026;93;36;42;41;59;94];
 [45;47;1027;1025;1028;1029;1030;1031;1032;1033;124;44;37;95;62;63];
 [1034;1035;1036;173;1038;1039;1102;1072;1073;96;58;35;64;39;61;34];
 [1094;97;98;99;100;101;102;103;104;105;1076;1077;1092;1075;1093;1080];
 [1081;106;107;108;109;110;111;112;113;114;1082;1083;1084;1085;1086;1087];
 [1103;126;115;116;117;118;119;120;121;122;1088;1089;1090;1091;1078;1074];
 [1100;1099;1079;1096;1101;1097;1095;1098;1070;1040;1041;1062;1044;1045;1060;1043];
 [123;65;66;67;68;69;70;71;72;73;1061;1048;1049;1050;1051;1052];
 [125;74;75;76;77;78;79;80;81;82;1053;1054;1055;1071;1056;1057];
 [92;8364;83;84;85;86;87;88;89;90;1058;1059;1046;1042;1068;1067];
 [48;49;50;51;52;53;54;55;56;57;1047;1064;1069;1065;1063;159]].

(* lib/converters/ebcdic1154.h:88-111 ebcdic1154_page00 *)
Definition ebcdic1154_page00 : tab := mk [
 [0;1;2;3;55;45;46;47;22;5;37;11;12;13;14;15];
 [16;17;18;19;60;61;50;38;24;25;63;39;28;29;30;31];
 [64;79;127;123;91;108;80;125;77;93;92;78;107;96;75;97];
 [240;241;242;243;244;245;246;247;248;249;122;94;76;126;110;111];
 [124;193;194;195;196;197;198;199;200;201;209;210;211;212;213;214];
 [215;216;217;226;227;228;229;230;231;232;233;74;224;90;95;109];
 [121;129;130;131;132;133;134;135;136;137;145;146;147;148;149;150];
 [151;152;153;162;163;164;165;166;167;168;169;192;106;208;161;7];
 [32;33;34;35;36;21;6;23;40;41;42;43;44;9;10;27];
 [48;49;26;51;52;53;54;8;56;57;58;59;4;20;62;255];
 [65;0;0;0;0;0;0;0;0;0;0;0;0;115;0;0]].

(* lib/converters/ebcdic1154.h:81-86 ebcdic1154_mbtowc *)
Definition ebcdic1154_mbtowc (s : list Z) (n : nat) : res (Z * option Z) :=
  let pwc := (None : option Z) in
  rd s 0%nat (fun c =>
  tget ebcdic1154_2uni c (fun x2 =>
  let pwc := Some x2 in
  Ok (1, pwc))).

(* lib/converters/ebcdic1154.h:131-148 ebcdic1154_wctomb *)
Definition ebcdic1154_wctomb_j (c : Z) (wc : Z) (r : wlog) : res (Z * wlog) :=
  if ((negb (c =? 0)) ||| (wc =? 0)) then
   let r := wr r 0%nat c in
   Ok (1, r)
  else
   Ok ((-1), r).
(* lib/converters/ebcdic1154.h:131-148 ebcdic1154_wctomb *)
Definition ebcdic1154_wctomb (wc : Z) (n : nat) : res (Z * wlog) :=
  let r := ([] : wlog) in
  let c := 0 in
  if (wc <? 0xb0) then
   tget ebcdic1154_page00 wc (fun c =>
   ebcdic1154_wctomb_j c wc r)
  else
   if ((wc >=? 0x400) &&& (wc <? 0x460)) then
    tget ebcdic880_page04 (wc - 0x400) (fun c =>
    ebcdic1154_wctomb_j c wc r)
   else
    if (wc =? 0x20ac) then
     let c := 0xe1 in
     ebcdic1154_wctomb_j c wc r
    else
     if (wc =? 0x2116) then
      let c := 0x58 in
      ebcdic1154_wctomb_j c wc r
     else
      ebcdic1154_wctomb_j c wc r.

(* lib/converters/ebcdic1155.h:30-79 ebcdic1155_2uni *)
Definition ebcdic1155_2uni : tab := mk [
 [0;1;2;3;156;9;134;127;151;141;142;11;12;13;14;15];
 [16;17;18;19;157;133;8;135;24;25;146;143;28;29;30;31];
 [128;129;130;131;132;10;23;27;136;137;138;139;140;5;6;7];
 [144;145;22;147;148;149;150;4;152;153;154;155;20;21;158;26];
 [32;160;226;228;224;225;227;229;123;241;199;46;60;40;43;33];
 [38;233;234;235;232;237;238;239;236;223;286;304;42;41;59;94];
 [45;47;194;196;192;193;195;197;91;209;351;44;37;95;62;63];
 [248;201;202;203;200;205;206;207;204;305;58;214;350;39;61;220];
 [216;97;98;99;100;101;102;103;104;105;171;187;125;96;166;177];
 [176;106;107;108;109;110;111;112;113;114;170;186;230;184;198;8364];
 [181;246;115;116;117;118;119;120;121;122;161;191;93;36;64;174];
 [162;163;165;183;169;167;182;188;189;190;172;124;175;168;180;215];
 [231;65;66;67;68;69;70;71;72;73;173;244;126;242;243;245];
 [287;74;75;76;77;78;79;80;81;82;185;251;92;249;250;255];
 [252;247;83;84;85;86;87;88;89;90;178;212;35;210;211;213];
 [48;49;50;51;52;53;54;55;56;57;179;219;34;217;218;159]].

(* lib/converters/ebcdic1155.h:88-121 ebcdic1155_page00 *)
Definition ebcdic1155_page00 : tab := mk [
 [0;1;2;3;55;45;46;47;22;5;37;11;12;13;14;15];
 [16;17;18;19;60;61;50;38;24;25;63;39;28;29;30;31];
 [64;79;252;236;173;108;80;125;77;93;92;78;107;96;75;97];
 [240;241;242;243;244;245;246;247;248;249;122;94;76;126;110;111];
 [174;193;194;195;196;197;198;199;200;201;209;210;211;212;213;214];
 [215;216;217;226;227;228;229;230;231;232;233;104;220;172;95;109];
 [141;129;130;131;132;133;134;135;136;137;145;146;147;148;149;150];
 [151;152;153;162;163;164;165;166;167;168;169;72;187;140;204;7];
 [32;33;34;35;36;21;6;23;40;41;42;43;44;9;10;27];
 [48;49;26;51;52;53;54;8;56;57;58;59;4;20;62;255];
 [65;170;176;177;0;178;142;181;189;180;154;138;186;202;175;188];
 [144;143;234;250;190;160;182;179;157;218;155;139;183;184;185;171];
 [100;101;98;102;99;103;158;74;116;113;114;115;120;117;118;119];
 [0;105;237;238;235;239;123;191;128;253;254;251;127;0;0;89];
 [68;69;66;70;67;71;156;192;84;81;82;83;88;85;86;87];
 [0;73;205;206;203;207;161;225;112;221;222;219;224;0;0;223]].

(* lib/converters/ebcdic1155.h:81-86 ebcdic1155_mbtowc *)
Definition ebcdic1155_mbtowc (s : list Z) (n : nat) : res (Z * option Z) :=
  let pwc := (None : option Z) in
  rd s 0%nat (fun c =>
  tget ebcdic1155_2uni c (fun x2 =>
  let pwc := Some x2 in
  Ok (1, pwc))).

(* lib/converters/ebcdic1155.h:138-153 ebcdic1155_wctomb *)
Definition ebcdic1155_wctomb_j (c : Z) (wc : Z) (r : wlog) : res (Z * wlog) :=
  if ((negb (c =? 0)) ||| (wc =? 0)) then
   let r := wr r 0%nat c in
   Ok (1, r)
  else
   Ok ((-1), r).
(* lib/converters/ebcdic1155.h:138-153 ebcdic1155_wctomb *)
Definition ebcdic1155_wctomb (wc : Z) (n : nat) : res (Z * wlog) :=
  let r := ([] : wlog) in
  let c := 0 in
  if (wc <? 0x100) then
   tget ebcdic1155_page00 wc (fun c =>
   ebcdic1155_wctomb_j c wc r)
  else
   if ((wc >=? 0x118) &&& (wc <? 0x160)) then
    tget ebcdic1026_page01 (wc - 0x118) (fun c =>
    ebcdic1155_wctomb_j c wc r)
   else
    if (wc =? 0x20ac) then
     let c := 0x9f in
     ebcdic1155_wctomb_j c wc r
    else
     ebcdic1155_wctomb_j c wc r.

(* lib/converters/ebcdic1156.h:30-79 ebcdic1156_2uni *)
Definition ebcdic1156_2uni : tab := mk [
 [0;1;2;3;156;9;134;127;151;141;142;11;12;13;14;15];
 [16;17;18;19;157;133;8;135;24;25;146;143;28;29;30;31];
 [128;129;130;131;132;10;23;27;136;137;138;139;140;5;6;7];
 [144;145;22;147;148;149;150;4;152;153;154;155;20;21;158;26];
 [32;160;353;228;261;303;363;229;275;382;162;46;60;40;43;124];
 [38;233;281;279;269;371;8222;8220;291;223;33;36;42;41;59;172];
 [45;47;352;196;260;302;362;197;274;381;166;44;37;95;62;63];
 [248;201;280;278;268;370;298;315;290;96;58;35;64;39;61;34];
 [216;97;98;99;100;101;102;103;104;105;171;187;257;380;324;177];
 [176;106;107;108;109;110;111;112;113;114;342;343;230;311;198;8364];
 [181;126;115;116;117;118;119;120;121;122;8221;378;256;379;323;174];
 [94;163;299;183;169;167;182;188;189;190;91;93;377;310;316;215];
 [123;65;66;67;68;69;70;71;72;73;173;333;246;326;243;245];
 [125;74;75;76;77;78;79;80;81;82;185;263;252;322;347;8217];
 [92;247;83;84;85;86;87;88;89;90;178;332;214;325;211;213];
 [48;49;50;51;52;53;54;55;56;57;179;262;220;321;346;159]].

(* lib/converters/ebcdic1156.h:88-138 ebcdic1156_page00 *)
Definition ebcdic1156_page00 : tab := mk [
 [0;1;2;3;55;45;46;47;22;5;37;11;12;13;14;15];
 [16;17;18;19;60;61;50;38;24;25;63;39;28;29;30;31];
 [64;90;127;123;91;108;80;125;77;93;92;78;107;96;75;97];
 [240;241;242;243;244;245;246;247;248;249;122;94;76;126;110;111];
 [124;193;194;195;196;197;198;199;200;201;209;210;211;212;213;214];
 [215;216;217;226;227;228;229;230;231;232;233;186;224;187;176;109];
 [121;129;130;131;132;133;134;135;136;137;145;146;147;148;149;150];
 [151;152;153;162;163;164;165;166;167;168;169;192;79;208;161;7];
 [32;33;34;35;36;21;6;23;40;41;42;43;44;9;10;27];
 [48;49;26;51;52;53;54;8;56;57;58;59;4;20;62;255];
 [65;0;74;177;0;0;106;181;0;180;0;138;95;202;175;0];
 [144;143;234;250;0;160;182;179;0;218;0;139;183;184;185;0];
 [0;0;0;0;99;103;158;0;0;113;0;0;0;0;0;0];
 [0;0;0;238;0;239;236;191;128;0;0;0;252;0;0;89];
 [0;0;0;0;67;71;156;0;0;81;0;0;0;0;0;0];
 [0;0;0;206;0;207;204;225;112;0;0;0;220;0;0;0];
 [172;140;0;0;100;68;251;219;0;0;0;0;116;84;0;0];
 [0;0;104;72;0;0;115;83;114;82;0;0;0;0;0;0];
 [0;0;120;88;0;0;0;0;0;0;118;178;0;0;101;69];
 [0;0;0;0;0;0;189;157;0;0;0;119;190;0;0;0];
 [0;253;221;174;142;237;205;0;0;0;0;0;235;203;0;0];
 [0;0;0;0;0;0;154;155;0;0;254;222;0;0;0;0];
 [98;66;0;0;0;0;0;0;0;0;102;70;0;0;0;0];
 [0;0;117;85;0;0;0;0;0;188;171;173;141;105;73;0]].

(* lib/converters/ebcdic1156.h:81-86 ebcdic1156_mbtowc *)
Definition ebcdic1156_mbtowc (s : list Z) (n : nat) : res (Z * option Z) :=
  let pwc := (None : option Z) in
  rd s 0%nat (fun c =>
  tget ebcdic1156_2uni c (fun x2 =>
  let pwc := Some x2 in
  Ok (1, pwc))).

(* lib/converters/ebcdic1156.h:147-162 ebcdic1156_wctomb *)
Definition ebcdic1156_wctomb_j (c : Z) (wc : Z) (r : wlog) : res (Z * wlog) :=
  if ((negb (c =? 0)) ||| (wc =? 0)) then
   let r := wr r 0%nat c in
   Ok (1, r)
  else
   Ok ((-1), r).
(* lib/converters/ebcdic1156.h:147-162 ebcdic1156_wctomb *)
Definition ebcdic1156_wctomb (wc : Z) (n : nat) : res (Z * wlog) :=
  let r := ([] : wlog) in
  let c := 0 in
  if (wc <? 0x180) then
   tget ebcdic1156_page00 wc (fun c =>
   ebcdic1156_wctomb_j c wc r)
  else
   if ((wc >=? 0x2018) &&& (wc <? 0x2020)) then
    tget ebcdic1112_page20 (wc - 0x2018) (fun c =>
    ebcdic1156_wctomb_j c wc r)
   else
    if (wc =? 0x20ac) then
     let c := 0x9f in
     ebcdic1156_wctomb_j c wc r
    else
     ebcdic1156_wctomb_j c wc r.

(* lib/converters/ebcdic1157.h:30-79 ebcdic1157_2uni *)
Definition ebcdic1157_2uni : tab := mk [
 [0;1;2;3;156;9;134;127;151;141;142;11;12;13;14;15];
 [16;17;18;19;157;133;8;135;24;25;146;143;28;29;30;31];
 [128;129;130;131;132;10;23;27;136;137;138;139;140;5;6;7];
 [144;145;22;147;148;149;150;4;152;153;154;155;20;21;158;26];
 [32;160;226;123;224;225;227;125;231;241;167;46;60;40;43;33];
 [38;96;234;235;232;237;238;239;236;223;8364;197;42;41;59;94];
 [45;47;194;35;192;193;195;36;199;209;246;44;37;95;62;63];
 [248;92;202;203;200;205;206;207;204;233;58;196;214;39;61;34];
 [216;97;98;99;100;101;102;103;104;105;171;187;353;253;382;177];
 [176;106;107;108;109;110;111;112;113;114;170;186;230;184;198;93];
 [181;252;115;116;117;118;119;120;121;122;161;191;352;221;381;174];
 [162;163;165;183;169;91;182;188;189;190;172;124;175;168;180;215];
 [228;65;66;67;68;69;70;71;72;73;173;244;166;242;243;245];
 [229;74;75;76;77;78;79;80;81;82;185;251;126;249;250;255];
 [201;247;83;84;85;86;87;88;89;90;178;212;64;210;211;213];
 [48;49;50;51;52;53;54;55;56;57;179;219;220;217;218;159]].

(* lib/converters/ebcdic1157.h:88-121 ebcdic1157_page00 *)
Definition ebcdic1157_page00 : tab := mk [
 [0;1;2;3;55;45;46;47;22;5;37;11;12;13;14;15];
 [16;17;18;19;60;61;50;38;24;25;63;39;28;29;30;31];
 [64;79;127;99;103;108;80;125;77;93;92;78;107;96;75;97];
 [240;241;242;243;244;245;246;247;248;249;122;94;76;126;110;111];
 [236;193;194;195;196;197;198;199;200;201;209;210;211;212;213;214];
 [215;216;217;226;227;228;229;230;231;232;233;181;113;159;95;109];
 [81;129;130;131;132;133;134;135;136;137;145;146;147;148;149;150];
 [151;152;153;162;163;164;165;166;167;168;169;67;187;71;220;7];
 [32;33;34;35;36;21;6;23;40;41;42;43;44;9;10;27];
 [48;49;26;51;52;53;54;8;56;57;58;59;4;20;62;255];
 [65;170;176;177;0;178;204;74;189;180;154;138;186;202;175;188];
 [144;143;234;250;190;160;182;179;157;218;155;139;183;184;185;171];
 [100;101;98;102;123;91;158;104;116;224;114;115;120;117;118;119];
 [0;105;237;238;235;239;124;191;128;253;254;251;252;173;0;89];
 [68;69;66;70;192;208;156;72;84;121;82;83;88;85;86;87];
 [0;73;205;206;203;207;106;225;112;221;222;219;161;141;0;223]].

(* lib/converters/ebcdic1157.h:81-86 ebcdic1157_mbtowc *)
Definition ebcdic1157_mbtowc (s : list Z) (n : nat) : res (Z * option Z) :=
  let pwc := (None : option Z) in
  rd s 0%nat (fun c =>
  tget ebcdic1157_2uni c (fun x2 =>
  let pwc := Some x2 in
  Ok (1, pwc))).

(* lib/converters/ebcdic1157.h:133-148 ebcdic1157_wctomb *)
Definition ebcdic1157_wctomb_j (c : Z) (wc : Z) (r : wlog) : res (Z * wlog) :=
  if ((negb (c =? 0)) ||| (wc =? 0)) then
   let r := wr r 0%nat c in
   Ok (1, r)
  else
   Ok ((-1), r).
(* lib/converters/ebcdic1157.h:133-148 ebcdic1157_wctomb *)
Definition ebcdic1157_wctomb (wc : Z) (n : nat) : res (Z * wlog) :=
  let r := ([] : wlog) in
  let c := 0 in
  if (wc <? 0x100) then
   tget ebcdic1157_page00 wc (fun c =>
   ebcdic1157_wctomb_j c wc r)
  else
   if ((wc >=? 0x160) &&& (wc <? 0x180)) then
    tget ebcdic1122_page01 (wc - 0x160) (fun c =>
    ebcdic1157_wctomb_j c wc r)
   else
    if (wc =? 0x20ac) then
     let c := 0x5a in
     ebcdic1157_wctomb_j c wc r
    else
     ebcdic1157_wctomb_j c wc r.

(* lib/converters/ebcdic1158.h:30-79 ebcdic1158_2uni *)
Definition ebcdic1158_2uni : tab := mk [
 [0;1;2;3;156;9;134;127;151;141;142;11;12;13;14;15];
 [16;17;18;19;157;133;8;135;24;25;146;143;28;29;30;31];
 [128;129;130;131;132;10;23;27;136;137;138;139;140;5;6;7];
 [144;145;22;147;148;149;150;4;152;153;154;155;20;21;158;26];
 [32;160;1106;1169;1105;1108;1109;1110;1111;1112;91;46;60;40;43;33];
 [38;1113;1114;1115;1116;1118;1119;1066;8470;1026;93;36;42;41;59;94];
 [45;47;1168;1025;1028;1029;1030;1031;1032;1033;124;44;37;95;62;63];
 [1034;1035;1036;173;1038;1039;1102;1072;1073;96;58;35;64;39;61;34];
 [1094;97;98;99;100;101;102;103;104;105;1076;1077;1092;1075;1093;1080];
 [1081;106;107;108;109;110;111;112;113;114;1082;1083;1084;1085;1086;1087];
 [1103;126;115;116;117;118;119;120;121;122;1088;1089;1090;1091;1078;1074];
 [1100;1099;1079;1096;1101;1097;1095;1098;1070;1040;1041;1062;1044;1045;1060;1043];
 [123;65;66;67;68;69;70;71;72;73;1061;1048;1049;1050;1051;1052];
 [125;74;75;76;77;78;79;80;81;82;1053;1054;1055;1071;1056;1057];
 [92;8364;83;84;85;86;87;88;89;90;1058;1059;1046;1042;1068;1067];
 [48;49;50;51;52;53;54;55;56;57;1047;1064;1069;1065;1063;159]].

(* lib/converters/ebcdic1158.h:81-86 ebcdic1158_mbtowc *)
Definition ebcdic1158_mbtowc (s : list Z) (n : nat) : res (Z * option Z) :=
  let pwc := (None : option Z) in
  rd s 0%nat (fun c =>
  tget ebcdic1158_2uni c (fun x2 =>
  let pwc := Some x2 in
  Ok (1, pwc))).

(* lib/converters/ebcdic1158.h:142-159 ebcdic1158_wctomb *)
Definition ebcdic1158_wctomb_j (c : Z) (wc : Z) (r : wlog) : res (Z * wlog) :=
  if ((negb (c =? 0)) ||| (wc =? 0)) then
   let r := wr r 0%nat c in
   Ok (1, r)
  else
   Ok ((-1), r).
(* lib/converters/ebcdic1158.h:142-159 ebcdic1158_wctomb *)
Definition ebcdic1158_wctomb (wc : Z) (n : nat) : res (Z * wlog) :=
  let r := ([] : wlog) in
  let c := 0 in
  if (wc <? 0xb0) then
   tget ebcdic1154_page00 wc (fun c =>
   ebcdic1158_wctomb_j c wc r)
  else
   if ((wc >=? 0x400) &&& (wc <? 0x498)) then
    tget ebcdic1123_page04 (wc - 0x400) (fun c =>
    ebcdic1158_wctomb_j c wc r)
   else
    if (wc =? 0x20ac) then
     let c := 0xe1 in
     ebcdic1158_wctomb_j c wc r
    else
     if (wc =? 0x2116) then
      let c := 0x58 in
      ebcdic1158_wctomb_j c wc r
     else
      ebcdic1158_wctomb_j c wc r.

(* lib/converters/ebcdic1160.h:30-79 ebcdic1160_2uni *)
Definition ebcdic1160_2uni : tab := mk [
 [0;1;2;3;156;9;134;127;151;141;142;11;12;13;14;15];
 [16;17;18;19;157;133;8;135;24;25;146;143;28;29;30;31];
 [128;129;130;131;132;10;23;27;136;137;138;139;140;5;6;7];
 [144;145;22;147;148;149;150;4;152;153;154;155;20;21;158;26];
 [32;160;3585;3586;3587;3588;3589;3590;3591;91;162;46;60;40;43;124];
 [38;3656;3592;3593;3594;3595;3596;3597;3598;93;33;36;42;41;59;172];
 [45;47;3599;3600;3601;3602;3603;3604;3605;94;166;44;37;95;62;63];
 [3647;3662;3606;3607;3608;3609;3610;3611;3612;96;58;35;64;39;61;34];
 [3663;97;98;99;100;101;102;103;104;105;3613;3614;3615;3616;3617;3618];
 [3674;106;107;108;109;110;111;112;113;114;3619;3620;3621;3622;3623;3624];
 [3675;126;115;116;117;118;119;120;121;122;3625;3626;3627;3628;3629;3630];
 [3664;3665;3666;3667;3668;3669;3670;3671;3672;3673;3631;3632;3633;3634;3635;3636];
 [123;65;66;67;68;69;70;71;72;73;3657;3637;3638;3639;3640;3641];
 [125;74;75;76;77;78;79;80;81;82;3642;3648;3649;3650;3651;3652];
 [92;3658;83;84;85;86;87;88;89;90;3653;3654;3655;3656;3657;3658];
 [48;49;50;51;52;53;54;55;56;57;3659;3660;3661;3659;8364;159]].

(* lib/converters/ebcdic1160.h:81-86 ebcdic1160_mbtowc *)
Definition ebcdic1160_mbtowc (s : list Z) (n : nat) : res (Z * option Z) :=
  let pwc := (None : option Z) in
  rd s 0%nat (fun c =>
  tget ebcdic1160_2uni c (fun x2 =>
  let pwc := Some x2 in
  Ok (1, pwc))).

(* lib/converters/ebcdic1160.h:135-150 ebcdic1160_wctomb *)
Definition ebcdic1160_wctomb_j (c : Z) (wc : Z) (r : wlog) : res (Z * wlog) :=
  if ((negb (c =? 0)) ||| (wc =? 0)) then
   let r := wr r 0%nat c in
   Ok (1, r)
  else
   Ok ((-1), r).
(* lib/converters/ebcdic1160.h:135-150 ebcdic1160_wctomb *)
Definition ebcdic1160_wctomb (wc : Z) (n : nat) : res (Z * wlog) :=
  let r := ([] : wlog) in
  let c := 0 in
  if (wc <? 0xb0) then
   tget ebcdic838_page00 wc (fun c =>
   ebcdic1160_wctomb_j c wc r)
  else
   if ((wc >=? 0xe00) &&& (wc <? 0xe60)) then
    tget ebcdic838_page0e (wc - 0xe00) (fun c =>
    ebcdic1160_wctomb_j c wc r)
   else
    if (wc =? 0x20ac) then
     let c := 0xfe in
     ebcdic1160_wctomb_j c wc r
    else
     ebcdic1160_wctomb_j c wc r.

(* lib/converters/ebcdic1164.h:30-79 ebcdic1164_2uni *)
Definition ebcdic1164_2uni : tab := mk [
 [0;1;2;3;156;9;134;127;151;141;142;11;12;13;14;15];
 [16;17;18;19;157;133;8;135;24;25;146;143;28;29;30;31];
 [128;129;130;131;132;10;23;27;136;137;138;139;140;5;6;7];
 [144;145;22;147;148;149;150;4;152;153;154;155;20;21;158;26];
 [32;160;226;228;224;225;259;229;231;241;91;46;60;40;43;33];
 [38;233;234;235;232;237;238;239;771;223;93;36;42;41;59;94];
 [45;47;194;196;192;193;258;197;199;209;166;44;37;95;62;63];
 [248;201;202;203;200;205;206;207;8363;96;58;35;64;39;61;34];
 [216;97;98;99;100;101;102;103;104;105;171;187;273;777;768;177];
 [176;106;107;108;109;110;111;112;113;114;170;186;230;338;198;8364];
 [181;126;115;116;117;118;119;120;121;122;161;191;272;803;769;174];
 [162;163;165;183;169;167;182;188;189;190;172;124;175;339;376;215];
 [123;65;66;67;68;69;70;71;72;73;173;244;246;432;243;417];
 [125;74;75;76;77;78;79;80;81;82;185;251;252;249;250;255];
 [92;247;83;84;85;86;87;88;89;90;178;212;214;431;211;416];
 [48;49;50;51;52;53;54;55;56;57;179;219;220;217;218;159]].

(* lib/converters/ebcdic1164.h:88-145 ebcdic1164_page00 *)
Definition ebcdic1164_page00 : tab := mk [
 [0;1;2;3;55;45;46;47;22;5;37;11;12;13;14;15];
 [16;17;18;19;60;61;50;38;24;25;63;39;28;29;30;31];
 [64;79;127;123;91;108;80;125;77;93;92;78;107;96;75;97];
 [240;241;242;243;244;245;246;247;248;249;122;94;76;126;110;111];
 [124;193;194;195;196;197;198;199;200;201;209;210;211;212;213;214];
 [215;216;217;226;227;228;229;230;231;232;233;74;224;90;95;109];
 [121;129;130;131;132;133;134;135;136;137;145;146;147;148;149;150];
 [151;152;153;162;163;164;165;166;167;168;169;192;187;208;161;7];
 [32;33;34;35;36;21;6;23;40;41;42;43;44;9;10;27];
 [48;49;26;51;52;53;54;8;56;57;58;59;4;20;62;255];
 [65;170;176;177;0;178;106;181;0;180;154;138;186;202;175;188];
 [144;143;234;250;0;160;182;179;0;218;155;139;183;184;185;171];
 [100;101;98;0;99;103;158;104;116;113;114;115;0;117;118;119];
 [0;105;0;238;235;0;236;191;128;253;254;251;252;0;0;89];
 [68;69;66;0;67;71;156;72;84;81;82;83;0;85;86;87];
 [0;73;0;206;203;0;204;225;112;221;222;219;220;0;0;223];
 [0;0;102;70;0;0;0;0;0;0;0;0;0;0;0;0];
 [172;140;0;0;0;0;0;0;0;0;0;0;0;0;0;0];
 [0;0;0;0;0;0;0;0;0;0;0;0;0;0;0;0];
 [0;0;0;0;0;0;0;0;0;0;0;0;0;0;0;0];
 [0;0;0;0;0;0;0;0;0;0;0;0;0;0;0;0];
 [0;0;157;189;0;0;0;0;0;0;0;0;0;0;0;0];
 [0;0;0;0;0;0;0;0;0;0;0;0;0;0;0;0];
 [0;0;0;0;0;0;0;0;190;0;0;0;0;0;0;0];
 [0;0;0;0;0;0;0;0;0;0;0;0;0;0;0;0];
 [0;0;0;0;0;0;0;0;0;0;0;0;0;0;0;0];
 [239;207;0;0;0;0;0;0;0;0;0;0;0;0;0;237];
 [205;0;0;0;0;0;0;0]].

(* lib/converters/ebcdic1164.h:157-159 ebcdic1164_page20 *)
Definition ebcdic1164_page20 : tab := mk [
 [0;0;0;120;159;0;0;0]].

(* lib/converters/ebcdic1164.h:81-86 ebcdic1164_mbtowc *)
Definition ebcdic1164_mbtowc (s : list Z) (n : nat) : res (Z * option Z) :=
  let pwc := (None : option Z) in
  rd s 0%nat (fun c =>
  tget ebcdic1164_2uni c (fun x2 =>
  let pwc := Some x2 in
  Ok (1, pwc))).

(* lib/converters/ebcdic1164.h:161-176 ebcdic1164_wctomb *)
Definition ebcdic1164_wctomb_j (c : Z) (wc : Z) (r : wlog) : res (Z * wlog) :=
  if ((negb (c =? 0)) ||| (wc =? 0)) then
   let r := wr r 0%nat c in
   Ok (1, r)
  else
   Ok ((-1), r).
(* lib/converters/ebcdic1164.h:161-176 ebcdic1164_wctomb *)
Definition ebcdic1164_wctomb (wc : Z) (n : nat) : res (Z * wlog) :=
  let r := ([] : wlog) in
  let c := 0 in
  if (wc <? 0x1b8) then
   tget ebcdic1164_page00 wc (fun c =>
   ebcdic1164_wctomb_j c wc r)
  else
   if ((wc >=? 0x300) &&& (wc <? 0x328)) then
    tget ebcdic1130_page03 (wc - 0x300) (fun c =>
    ebcdic1164_wctomb_j c wc r)
   else
    if ((wc >=? 0x20a8) &&& (wc <? 0x20b0)) then
     tget ebcdic1164_page20 (wc - 0x20a8) (fun c =>
     ebcdic1164_wctomb_j c wc r)
    else
     ebcdic1164_wctomb_j c wc r.

(* lib/converters/ebcdic1165.h:30-79 ebcdic1165_2uni *)
Definition ebcdic1165_2uni : tab := mk [
 [0;1;2;3;156;9;134;127;151;141;142;11;12;13;14;15];
 [16;17;18;19;157;133;8;135;24;25;146;143;28;29;30;31];
 [128;129;130;131;132;10;23;27;136;137;138;139;140;5;6;7];
 [144;145;22;147;148;149;150;4;152;153;154;155;20;21;158;26];
 [32;160;226;228;355;225;259;269;231;263;221;46;60;40;43;124];
 [38;233;281;235;367;237;238;318;314;223;33;36;42;41;59;94];
 [45;47;194;196;733;193;258;268;199;262;168;44;37;95;62;63];
 [711;201;280;203;366;205;206;317;313;96;58;35;64;39;61;34];
 [728;97;98;99;100;101;102;103;104;105;347;328;273;253;345;351];
 [176;106;107;108;109;110;111;112;113;114;322;324;353;184;731;8364];
 [261;126;115;116;117;118;119;120;121;122;346;327;272;91;344;350];
 [729;260;380;354;379;167;382;378;381;377;321;323;352;93;180;215];
 [123;65;66;67;68;69;70;71;72;73;173;244;246;341;243;337];
 [125;74;75;76;77;78;79;80;81;82;282;369;252;357;250;283];
 [92;247;83;84;85;86;87;88;89;90;271;212;214;340;211;336];
 [48;49;50;51;52;53;54;55;56;57;270;368;220;356;218;159]].

(* lib/converters/ebcdic1165.h:88-138 ebcdic1165_page00 *)
Definition ebcdic1165_page00 : tab := mk [
 [0;1;2;3;55;45;46;47;22;5;37;11;12;13;14;15];
 [16;17;18;19;60;61;50;38;24;25;63;39;28;29;30;31];
 [64;90;127;123;91;108;80;125;77;93;92;78;107;96;75;97];
 [240;241;242;243;244;245;246;247;248;249;122;94;76;126;110;111];
 [124;193;194;195;196;197;198;199;200;201;209;210;211;212;213;214];
 [215;216;217;226;227;228;229;230;231;232;233;173;224;189;95;109];
 [121;129;130;131;132;133;134;135;136;137;145;146;147;148;149;150];
 [151;152;153;162;163;164;165;166;167;168;169;192;79;208;161;7];
 [32;33;34;35;36;21;6;23;40;41;42;43;44;9;10;27];
 [48;49;26;51;52;53;54;8;56;57;58;59;4;20;62;255];
 [65;0;0;0;0;0;0;181;106;0;0;0;0;202;0;0];
 [144;0;0;0;190;0;0;0;157;0;0;0;0;0;0;0];
 [0;101;98;0;99;0;0;104;0;113;0;115;0;117;118;0];
 [0;0;0;238;235;0;236;191;0;0;254;0;252;74;0;89];
 [0;69;66;0;67;0;0;72;0;81;0;83;0;85;86;0];
 [0;0;0;206;203;0;204;225;0;0;222;0;220;141;0;0];
 [0;0;102;70;177;160;105;73;0;0;0;0;103;71;250;234];
 [172;140;0;0;0;0;0;0;114;82;218;223;0;0;0;0];
 [0;0;0;0;0;0;0;0;0;0;0;0;0;0;0;0];
 [0;0;0;0;0;0;0;0;0;120;88;0;0;119;87;0];
 [0;186;154;187;155;0;0;171;139;0;0;0;0;0;0;0];
 [239;207;0;0;237;205;0;0;174;142;170;138;0;0;175;143];
 [188;156;179;68;253;221;0;0;0;0;0;0;0;0;116;84];
 [251;219;0;0;0;0;0;0;0;185;183;180;178;184;182;0]].

(* lib/converters/ebcdic1165.h:81-86 ebcdic1165_mbtowc *)
Definition ebcdic1165_mbtowc (s : list Z) (n : nat) : res (Z * option Z) :=
  let pwc := (None : option Z) in
  rd s 0%nat (fun c =>
  tget ebcdic1165_2uni c (fun x2 =>
  let pwc := Some x2 in
  Ok (1, pwc))).

(* lib/converters/ebcdic1165.h:150-165 ebcdic1165_wctomb *)
Definition ebcdic1165_wctomb_j (c : Z) (wc : Z) (r : wlog) : res (Z * wlog) :=
  if ((negb (c =? 0)) ||| (wc =? 0)) then
   let r := wr r 0%nat c in
   Ok (1, r)
  else
   Ok ((-1), r).
(* lib/converters/ebcdic1165.h:150-165 ebcdic1165_wctomb *)
Definition ebcdic1165_wctomb (wc : Z) (n : nat) : res (Z * wlog) :=
  let r := ([] : wlog) in
  let c := 0 in
  if (wc <? 0x180) then
   tget ebcdic1165_page00 wc (fun c =>
   ebcdic1165_wctomb_j c wc r)
  else
   if ((wc >=? 0x2c0) &&& (wc <? 0x2e0)) then
    tget ebcdic870_page02 (wc - 0x2c0) (fun c =>
    ebcdic1165_wctomb_j c wc r)
   else
    if (wc =? 0x20ac) then
     let c := 0x9f in
     ebcdic1165_wctomb_j c wc r
    else
     ebcdic1165_wctomb_j c wc r.

(* lib/converters/ebcdic1166.h:30-79 ebcdic1166_2uni *)
Definition ebcdic1166_2uni : tab := mk [
 [0;1;2;3;156;9;134;127;151;141;142;11;12;13;14;15];
 [16;17;18;19;157;133;8;135;24;25;146;143;28;29;30;31];
 [128;129;130;131;132;10;23;27;136;137;138;139;140;5;6;7];
 [144;145;22;147;148;149;150;4;152;153;154;155;20;21;158;26];
 [32;160;1241;1171;1105;1108;1109;1110;1179;1112;91;46;60;40;43;33];
 [38;1187;1257;1201;1199;1118;1211;1066;8470;1240;93;36;42;41;59;94];
 [45;47;1170;1025;1028;1029;1030;1178;1032;1186;124;44;37;95;62;63];
 [1256;1200;1198;173;1038;1210;1102;1072;1073;96;58;35;64;39;61;34];
 [1094;97;98;99;100;101;102;103;104;105;1076;1077;1092;1075;1093;1080];
 [1081;106;107;108;109;110;111;112;113;114;1082;1083;1084;1085;1086;1087];
 [1103;126;115;116;117;118;119;120;121;122;1088;1089;1090;1091;1078;1074];
 [1100;1099;1079;1096;1101;1097;1095;1098;1070;1040;1041;1062;1044;1045;1060;1043];
 [123;65;66;67;68;69;70;71;72;73;1061;1048;1049;1050;1051;1052];
 [125;74;75;76;77;78;79;80;81;82;1053;1054;1055;1071;1056;1057];
 [92;8364;83;84;85;86;87;88;89;90;1058;1059;1046;1042;1068;1067];
 [48;49;50;51;52;53;54;55;56;57;1047;1064;1069;1065;1063;159]].

(* lib/converters/ebcdic1166.h:116-147 ebcdic1166_page04 *)
Definition ebcdic1166_page04 : tab := mk [
 [0;99;0;0;100;101;102;0;104;0;0;0;0;0;116;0];
 [185;186;237;191;188;189;236;250;203;204;205;206;207;218;219;220];
 [222;223;234;235;190;202;187;254;251;253;87;239;238;252;184;221];
 [119;120;175;141;138;139;174;178;143;144;154;155;156;157;158;159];
 [170;171;172;173;140;142;128;182;179;181;183;177;176;180;118;160];
 [0;68;0;0;69;70;71;0;73;0;0;0;0;0;85;0];
 [0;0;0;0;0;0;0;0;0;0;0;0;0;0;0;0];
 [0;0;0;0;0;0;0;0;0;0;0;0;0;0;0;0];
 [0;0;0;0;0;0;0;0;0;0;0;0;0;0;0;0];
 [0;0;98;67;0;0;0;0;0;0;103;72;0;0;0;0];
 [0;0;105;81;0;0;0;0;0;0;0;0;0;0;114;84];
 [113;83;0;0;0;0;0;0;0;0;117;86;0;0;0;0];
 [0;0;0;0;0;0;0;0;0;0;0;0;0;0;0;0];
 [0;0;0;0;0;0;0;0;89;66;0;0;0;0;0;0];
 [0;0;0;0;0;0;0;0;112;82;0;0;0;0;0;0]].

(* lib/converters/ebcdic1166.h:81-86 ebcdic1166_mbtowc *)
Definition ebcdic1166_mbtowc (s : list Z) (n : nat) : res (Z * option Z) :=
  let pwc := (None : option Z) in
  rd s 0%nat (fun c =>
  tget ebcdic1166_2uni c (fun x2 =>
  let pwc := Some x2 in
  Ok (1, pwc))).

(* lib/converters/ebcdic1166.h:149-166 ebcdic1166_wctomb *)
Definition ebcdic1166_wctomb_j (c : Z) (wc : Z) (r : wlog) : res (Z * wlog) :=
  if ((negb (c =? 0)) ||| (wc =? 0)) then
   let r := wr r 0%nat c in
   Ok (1, r)
  else
   Ok ((-1), r).
(* lib/converters/ebcdic1166.h:149-166 ebcdic1166_wctomb *)
Definition ebcdic1166_wctomb (wc : Z) (n : nat) : res (Z * wlog) :=
  let r := ([] : wlog) in
  let c := 0 in
  if (wc <? 0xb0) then
   tget ebcdic1154_page00 wc (fun c =>
   ebcdic1166_wctomb_j c wc r)
  else
   if ((wc >=? 0x400) &&& (wc <? 0x4f0)) then
    tget ebcdic1166_page04 (wc - 0x400) (fun c =>
    ebcdic1166_wctomb_j c wc r)
   else
    if (wc =? 0x20ac) then
     let c := 0xe1 in
     ebcdic1166_wctomb_j c wc r
    else
     if (wc =? 0x2116) then
      let c := 0x58 in
      ebcdic1166_wctomb_j c wc r
     else
      ebcdic1166_wctomb_j c wc r.

(* lib/converters/ebcdic4971.h:30-79 ebcdic4971_2uni *)
Definition ebcdic4971_2uni : tab := mk [
 [0;1;2;3;156;9;134;127;151;141;142;11;12;13;14;15];
 [16;17;18;19;157;133;8;135;24;25;146;143;28;29;30;31];
 [128;129;130;131;132;10;23;27;136;137;138;139;140;5;6;7];
 [144;145;22;147;148;149;150;4;152;153;154;155;20;21;158;26];
 [32;913;914;915;916;917;918;919;920;921;91;46;60;40;43;33];
 [38;922;923;924;925;926;927;928;929;931;93;36;42;41;59;94];
 [45;47;932;933;934;935;936;937;938;939;124;44;37;95;62;63];
 [168;902;904;905;160;906;908;910;911;96;58;35;64;39;61;34];
 [901;97;98;99;100;101;102;103;104;105;945;946;947;948;949;950];
 [176;106;107;108;109;110;111;112;113;114;951;952;953;954;955;956];
 [180;126;115;116;117;118;119;120;121;122;957;958;959;960;961;963];
 [163;940;941;942;970;943;972;973;971;974;962;964;965;966;967;968];
 [123;65;66;67;68;69;70;71;72;73;173;969;912;944;8216;8213];
 [125;74;75;76;77;78;79;80;81;82;177;189;65533;903;8217;166];
 [92;65533;83;84;85;86;87;88;89;90;178;167;65533;65533;171;172];
 [48;49;50;51;52;53;54;55;56;57;179;169;8364;65533;187;159]].

(* lib/converters/ebcdic4971.h:81-91 ebcdic4971_mbtowc *)
Definition ebcdic4971_mbtowc (s : list Z) (n : nat) : res (Z * option Z) :=
  let pwc := (None : option Z) in
  rd s 0%nat (fun c =>
  tget ebcdic4971_2uni c (fun wc =>
  if (negb (wc =? 0xfffd)) then
   let pwc := Some wc in
   Ok (1, pwc)
  else
   Ok ((-1), pwc))).

(* lib/converters/ebcdic4971.h:148-165 ebcdic4971_wctomb *)
Definition ebcdic4971_wctomb_j (c : Z) (wc : Z) (r : wlog) : res (Z * wlog) :=
  if ((negb (c =? 0)) ||| (wc =? 0)) then
   let r := wr r 0%nat c in
   Ok (1, r)
  else
   Ok ((-1), r).
(* lib/converters/ebcdic4971.h:148-165 ebcdic4971_wctomb *)
Definition ebcdic4971_wctomb (wc : Z) (n : nat) : res (Z * wlog) :=
  let r := ([] : wlog) in
  let c := 0 in
  if (wc <? 0xc0) then
   tget ebcdic875_page00 wc (fun c =>
   ebcdic4971_wctomb_j c wc r)
  else
   if ((wc >=? 0x380) &&& (wc <? 0x3d0)) then
    tget ebcdic875_page03 (wc - 0x380) (fun c =>
    ebcdic4971_wctomb_j c wc r)
   else
    if ((wc >=? 0x2010) &&& (wc <? 0x2020)) then
     tget ebcdic875_page20 (wc - 0x2010) (fun c =>
     ebcdic4971_wctomb_j c wc r)
    else
     if (wc =? 0x20ac) then
      let c := 0xfc in
      ebcdic4971_wctomb_j c wc r
     else
      ebcdic4971_wctomb_j c wc r.

(* lib/converters/ebcdic12712.h:30-79 ebcdic12712_2uni *)
Definition ebcdic12712_2uni : tab := mk [
 [0;1;2;3;156;9;134;127;151;141;142;11;12;13;14;15];
 [16;17;18;19;157;133;8;135;24;25;146;143;28;29;30;31];
 [128;129;130;131;132;10;23;27;136;137;138;139;140;5;6;7];
 [144;145;22;147;148;149;150;4;152;153;154;155;20;21;158;26];
 [32;1488;1489;1490;1491;1492;1493;1494;1495;1496;162;46;60;40;43;124];
 [38;1497;1498;1499;1500;1501;1502;1503;1504;1505;33;36;42;41;59;172];
 [45;47;1506;1507;1508;1509;1510;1511;1512;1513;166;44;37;95;62;63];
 [65533;1514;65533;65533;160;65533;65533;65533;8215;96;58;35;64;39;61;34];
 [65533;97;98;99;100;101;102;103;104;105;171;187;65533;65533;65533;177];
 [176;106;107;108;109;110;111;112;113;114;65533;65533;8364;184;8362;164];
 [181;126;115;116;117;118;119;120;121;122;65533;65533;65533;65533;65533;174];
 [94;163;165;8226;169;167;182;188;189;190;91;93;8254;168;180;215];
 [123;65;66;67;68;69;70;71;72;73;173;65533;65533;65533;65533;65533];
 [125;74;75;76;77;78;79;80;81;82;185;8237;8238;8236;65533;65533];
 [92;247;83;84;85;86;87;88;89;90;178;65533;65533;65533;65533;65533];
 [48;49;50;51;52;53;54;55;56;57;179;8234;8235;8206;8207;159]].

(* lib/converters/ebcdic12712.h:140-148 ebcdic12712_page20 *)
Definition ebcdic12712_page20 : tab := mk [
 [0;0;0;0;0;0;253;254;0;0;0;0;0;0;0;120];
 [0;0;0;0;0;0;0;0;0;0;179;0;0;0;0;0];
 [0;0;251;252;221;219;220;0;0;0;0;0;0;0;0;0];
 [0;0;0;0;0;0;188;0]].

(* lib/converters/ebcdic12712.h:149-151 ebcdic12712_page20_1 *)
Definition ebcdic12712_page20_1 : tab := mk [
 [0;0;158;0;156;0;0;0]].

(* lib/converters/ebcdic12712.h:81-91 ebcdic12712_mbtowc *)
Definition ebcdic12712_mbtowc (s : list Z) (n : nat) : res (Z * option Z) :=
  let pwc := (None : option Z) in
  rd s 0%nat (fun c =>
  tget ebcdic12712_2uni c (fun wc =>
  if (negb (wc =? 0xfffd)) then
   let pwc := Some wc in
   Ok (1, pwc)
  else
   Ok ((-1), pwc))).

(* lib/converters/ebcdic12712.h:153-170 ebcdic12712_wctomb *)
Definition ebcdic12712_wctomb_j (c : Z) (wc : Z) (r : wlog) : res (Z * wlog) :=
  if ((negb (c =? 0)) ||| (wc =? 0)) then
   let r := wr r 0%nat c in
   Ok (1, r)
  else
   Ok ((-1), r).
(* lib/converters/ebcdic12712.h:153-170 ebcdic12712_wctomb *)
Definition ebcdic12712_wctomb (wc : Z) (n : nat) : res (Z * wlog) :=
  let r := ([] : wlog) in
  let c := 0 in
  if (wc <? 0xf8) then
   tget ebcdic424_page00 wc (fun c =>
   ebcdic12712_wctomb_j c wc r)
  else
   if ((wc >=? 0x5d0) &&& (wc <? 0x5f0)) then
    tget ebcdic424_page05 (wc - 0x5d0) (fun c =>
    ebcdic12712_wctomb_j c wc r)
   else
    if ((wc >=? 0x2008) &&& (wc <? 0x2040)) then
     tget ebcdic12712_page20 (wc - 0x2008) (fun c =>
     ebcdic12712_wctomb_j c wc r)
    else
     if ((wc >=? 0x20a8) &&& (wc <? 0x20b0)) then
      tget ebcdic12712_page20_1 (wc - 0x20a8) (fun c =>
      ebcdic12712_wctomb_j c wc r)
     else
      ebcdic12712_wctomb_j c wc r.

(* lib/converters/ebcdic16804.h:30-79 ebcdic16804_2uni *)
Definition ebcdic16804_2uni : tab := mk [
 [0;1;2;3;156;9;134;127;151;141;142;11;12;13;14;15];
 [16;17;18;19;157;133;8;135;24;25;146;143;28;29;30;31];
 [128;129;130;131;132;10;23;27;136;137;138;139;140;5;6;7];
 [144;145;22;147;148;149;150;4;152;153;154;155;20;21;158;26];
 [32;160;1617;65149;1600;8203;1569;1570;65154;1571;162;46;60;40;43;124];
 [38;65156;1572;65533;65533;1574;1575;65166;1576;65169;33;36;42;41;59;172];
 [45;47;1577;1578;65175;1579;65179;1580;65183;1581;166;44;37;95;62;63];
 [65187;1582;65191;1583;1584;1585;1586;1587;65203;1548;58;35;64;39;61;34];
 [1588;97;98;99;100;101;102;103;104;105;65207;1589;65211;1590;65215;1591];
 [1592;106;107;108;109;110;111;112;113;114;1593;65226;65227;65228;1594;65230];
 [65231;247;115;116;117;118;119;120;121;122;65232;1601;65235;1602;65239;1603];
 [65243;1604;65269;65270;65271;65272;65533;65533;65275;65276;65247;1605;65251;1606;65255;1607];
 [1563;65;66;67;68;69;70;71;72;73;173;65259;65533;65260;65533;1608];
 [1567;74;75;76;77;78;79;80;81;82;1609;65264;1610;65266;65267;1632];
 [215;8199;83;84;85;86;87;88;89;90;1633;1634;65533;1635;1636;1637];
 [48;49;50;51;52;53;54;55;56;57;8364;1638;1639;1640;1641;159]].

(* lib/converters/ebcdic16804.h:93-125 ebcdic16804_page00 *)
Definition ebcdic16804_page00 : tab := mk [
 [0;1;2;3;55;45;46;47;22;5;37;11;12;13;14;15];
 [16;17;18;19;60;61;50;38;24;25;63;39;28;29;30;31];
 [64;90;127;123;91;108;80;125;77;93;92;78;107;96;75;97];
 [240;241;242;243;244;245;246;247;248;249;122;94;76;126;110;111];
 [124;193;194;195;196;197;198;199;200;201;209;210;211;212;213;214];
 [215;216;217;226;227;228;229;230;231;232;233;0;0;0;0;109];
 [0;129;130;131;132;133;134;135;136;137;145;146;147;148;149;150];
 [151;152;153;162;163;164;165;166;167;168;169;0;79;0;0;7];
 [32;33;34;35;36;21;6;23;40;41;42;43;44;9;10;27];
 [48;49;26;51;52;53;54;8;56;57;58;59;4;20;62;255];
 [65;0;74;0;0;0;106;0;0;0;0;0;95;202;0;0];
 [0;0;0;0;0;0;0;0;0;0;0;0;0;0;0;0];
 [0;0;0;0;0;0;0;0;0;0;0;0;0;0;0;0];
 [0;0;0;0;0;0;0;224;0;0;0;0;0;0;0;0];
 [0;0;0;0;0;0;0;0;0;0;0;0;0;0;0;0];
 [0;0;0;0;0;0;0;161]].

(* lib/converters/ebcdic16804.h:126-140 ebcdic16804_page06 *)
Definition ebcdic16804_page06 : tab := mk [
 [0;0;0;0;121;0;0;0;0;0;0;0;0;0;0;0];
 [0;0;0;192;0;0;0;208;0;70;71;73;82;0;85;86];
 [88;98;99;101;103;105;113;115;116;117;118;119;128;139;141;143];
 [144;154;158;0;0;0;0;0;68;171;173;175;177;187;189;191];
 [207;218;220;0;0;0;0;0;0;66;0;0;0;0;0;0];
 [0;0;0;0;0;0;0;0;223;234;235;237;238;239;251;252];
 [253;254;0;0;0;0;0;0]].

(* lib/converters/ebcdic16804.h:141-144 ebcdic16804_page20 *)
Definition ebcdic16804_page20 : tab := mk [
 [0;0;0;0;0;0;0;225;0;0;0;69;0;0;0;0]].

(* lib/converters/ebcdic16804.h:145-163 ebcdic16804_pagefe *)
Definition ebcdic16804_pagefe : tab := mk [
 [0;0;0;0;0;67;0;0;0;0;72;0;81;0;0;0];
 [0;0;0;0;0;0;87;0;0;89;0;0;0;0;0;100];
 [0;0;0;102;0;0;0;104;0;0;0;112;0;0;0;114];
 [0;0;0;0;0;0;0;0;0;0;0;120;0;0;0;138];
 [0;0;0;140;0;0;0;142;0;0;0;0;0;0;0;0];
 [0;0;155;156;157;0;159;160;170;0;0;172;0;0;0;174];
 [0;0;0;176;0;0;0;186;0;0;0;188;0;0;0;190];
 [0;0;0;203;205;0;0;0;219;0;221;222;0;178;179;180];
 [181;0;0;184;185;0;0;0]].

(* lib/converters/ebcdic16804.h:81-91 ebcdic16804_mbtowc *)
Definition ebcdic16804_mbtowc (s : list Z) (n : nat) : res (Z * option Z) :=
  let pwc := (None : option Z) in
  rd s 0%nat (fun c =>
  tget ebcdic16804_2uni c (fun wc =>
  if (negb (wc =? 0xfffd)) then
   let pwc := Some wc in
   Ok (1, pwc)
  else
   Ok ((-1), pwc))).

(* lib/converters/ebcdic16804.h:165-184 ebcdic16804_wctomb *)
Definition ebcdic16804_wctomb_j (c : Z) (wc : Z) (r : wlog) : res (Z * wlog) :=
  if ((negb (c =? 0)) ||| (wc =? 0)) then
   let r := wr r 0%nat c in
   Ok (1, r)
  else
   Ok ((-1), r).
(* lib/converters/ebcdic16804.h:165-184 ebcdic16804_wctomb *)
Definition ebcdic16804_wctomb (wc : Z) (n : nat) : res (Z * wlog) :=
  let r := ([] : wlog) in
  let c := 0 in
  if (wc <? 0xf8) then
   tget ebcdic16804_page00 wc (fun c =>
   ebcdic16804_wctomb_j c wc r)
  else
   if ((wc >=? 0x608) &&& (wc <? 0x670)) then
    tget ebcdic16804_page06 (wc - 0x608) (fun c =>
    ebcdic16804_wctomb_j c wc r)
   else
    if ((wc >=? 0x2000) &&& (wc <? 0x2010)) then
     tget ebcdic16804_page20 (wc - 0x2000) (fun c =>
     ebcdic16804_wctomb_j c wc r)
    else
     if (wc =? 0x20ac) then
      let c := 0xfa in
      ebcdic16804_wctomb_j c wc r
     else
      if ((wc >=? 0xfe78) &&& (wc <? 0xff00)) then
       tget ebcdic16804_pagefe (wc - 0xfe78) (fun c =>
       ebcdic16804_wctomb_j c wc r)
      else
       ebcdic16804_wctomb_j c wc r.

