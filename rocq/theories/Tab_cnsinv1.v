(** GENERATED by tools/gen.py from /repo/lib/converters; do not edit.
    Mapping tables. *)
From Coq Require Import ZArith List Bool.
From Verif Require Import Base.
Import ListNotations.
Open Scope Z_scope.

(* lib/converters/cns11643_inv.h:30-13893 cns11643_inv_2charset, part 1 of 3 *)
Definition cns11643_inv_2charset_part1 : list (list Z) := [
 [1;33;112;1;34;120;1;34;52;1;33;49;1;34;50;1];
 [34;51;1;37;111;1;37;109;1;37;110;1;37;112;1;37];
 [108;1;36;117;1;36;118;1;36;119;1;36;120;1;36;121];
 [1;36;122;1;36;123;1;36;124;1;36;125;1;36;126;1];
 [37;33;1;37;34;1;37;35;1;37;36;1;37;37;1;37];
 [38;1;37;39;1;37;40;1;37;41;1;37;42;1;37;43];
 [1;37;44;1;37;45;1;37;46;1;37;47;1;37;48;1];
 [37;49;1;37;50;1;37;51;1;37;52;1;37;53;1;37];
 [54;1;37;55;1;37;56;1;37;57;1;37;58;1;37;59];
 [1;37;60;1;37;61;1;37;62;1;37;63;1;37;64;1];
 [37;65;1;37;66;1;37;67;1;37;68;1;37;69;1;37];
 [70;1;33;57;1;33;55;1;34;93;1;33;100;1;33;101];
 [1;33;102;1;33;103;1;33;45;1;33;44;1;33;106;1];
 [33;107;1;33;111;1;34;35;1;66;66;1;34;106;1;34];
 [34;1;34;107;1;36;43;1;36;44;1;36;45;1;36;46];
 [1;36;47;1;36;48;1;36;49;1;36;50;1;36;51;1];
 [36;52;1;38;53;1;38;54;1;38;55;1;38;56;1;38];
 [57;1;38;58;1;38;59;1;38;60;1;38;61;1;38;62];
 [1;34;88;1;34;85;1;34;87;1;34;86;1;34;89;1];
 [34;90;1;34;92;1;34;91;1;34;97;1;34;53;1;34];
 [60;1;34;73;1;34;72;1;34;69;1;34;70;1;34;77];
 [1;34;78;1;34;80;1;34;79;1;34;68;1;34;61;1];
 [34;59;1;34;62;1;34;57;1;34;58;1;34;71;1;34];
 [74;1;66;33;1;66;34;1;66;35;1;66;36;1;66;37];
 [1;66;38;1;66;39;1;66;40;1;66;41;1;66;42;1];
 [66;43;1;66;44;1;66;45;1;66;46;1;66;47;1;66];
 [48;1;66;49;1;66;50;1;66;51;1;66;52;1;66;53];
 [1;66;54;1;66;55;1;66;56;1;66;57;1;66;58;1];
 [66;59;1;66;60;1;66;61;1;66;62;1;66;63;1;66];
 [64;1;66;65;1;38;33;1;38;34;1;38;35;1;38;36];
 [1;38;37;1;38;38;1;38;39;1;38;40;1;38;41;1];
 [38;42;1;38;43;1;38;44;1;38;45;1;38;46;1;38];
 [47;1;38;48;1;38;49;1;38;50;1;38;51;1;38;52];
 [1;35;57;1;35;58;1;35;60;1;35;61;1;35;62;1];
 [35;63;1;35;55;1;35;54;1;35;53;1;35;52;1;35];
 [51;1;35;68;1;35;69;1;35;71;1;35;70;1;35;64];
 [1;35;65;1;35;67;1;35;66;1;35;76;1;35;77;1];
 [35;78;1;35;36;1;35;37;1;35;38;1;35;39;1;35];
 [40;1;35;41;1;35;42;1;35;43;1;35;50;1;35;49];
 [1;35;48;1;35;47;1;35;46;1;35;45;1;35;44;1];
 [35;56;1;35;59;1;33;124;1;33;123;1;33;117;1;33];
 [116;1;33;126;1;33;125;1;33;122;1;33;121;1;33;114];
 [1;33;118;1;33;115;1;35;72;1;35;73;1;35;75;1];
 [35;74;1;33;120;1;33;119;1;34;84;1;34;81;1;34];
 [83;1;34;82;1;33;33;1;33;35;1;33;36;1;33;113];
 [1;33;82;1;33;83;1;33;78;1;33;79;1;33;86;1];
 [33;87;1;33;90;1;33;91;1;33;74;1;33;75;1;34];
 [101;1;33;70;1;33;71;1;33;104;1;33;105;1;36;53];
 [1;36;54;1;36;55;1;36;56;1;36;57;1;36;58;1];
 [36;59;1;36;60;1;36;61;1;33;38;1;37;71;1;37];
 [72;1;37;73;1;37;74;1;37;75;1;37;76;1;37;77];
 [1;37;78;1;37;79;1;37;80;1;37;81;1;37;82;1];
 [37;83;1;37;84;1;37;85;1;37;86;1;37;87;1;37];
 [88;1;37;89;1;37;90;1;37;91;1;37;92;1;37;93];
 [1;37;94;1;37;95;1;37;96;1;37;97;1;37;98;1];
 [37;99;1;37;100;1;37;101;1;37;102;1;37;103;1;37];
 [104;1;37;105;1;37;106;1;37;107;1;34;33;1;34;117];
 [1;34;118;1;34;112;1;34;113;1;34;114;1;34;116;1];
 [34;119;1;34;115;1;34;76;1;34;75;1;34;111;6;34];
 [44;4;34;36;6;33;48;6;33;35;15;33;108;4;33;87];
 [4;35;54;4;40;53;3;52;59;3;57;109;3;39;65;3];
 [40;108;3;35;35;4;35;55;4;37;52;3;64;52;4;33];
 [89;3;33;117;3;33;110;3;33;113;3;33;115;15;33;68];
 [6;35;78;3;34;113;4;34;49;3;34;105;3;34;106;15];
 [33;114;5;35;52;3;36;74;3;36;71;3;36;77;6;37];
 [113;3;39;70;5;37;37;4;37;57;4;37;60;3;39;69];
 [5;37;43;4;37;59;4;37;56;3;39;80;15;37;74;3];
 [43;49;6;46;90;4;40;57;3;43;48;5;40;33;4;40];
 [58;3;43;42;4;40;55;4;40;60;5;43;108;3;52;73];
 [3;47;82;4;43;101;6;53;56;4;48;69;3;52;62;3];
 [52;72;4;48;74;4;54;56;3;57;115;4;54;50;4;54];
 [55;6;70;85;6;73;123;3;57;116;3;64;53;3;64;56];
 [3;64;59;4;60;44;4;60;45;4;60;40;4;60;42;5];
 [68;87;4;66;55;4;66;51;4;66;46;3;69;120;6;90];
 [115;4;66;47;3;69;115;4;79;89;3;69;114;3;69;111];
 [3;69;119;4;66;50;4;72;123;3;75;38;3;75;37;4];
 [72;125;3;75;36;3;75;40;3;75;42;3;80;50;4;79];
 [93;5;83;89;4;79;91;3;84;63;3;87;83;4;90;103];
 [4;90;104;4;95;73;4;99;47;3;92;51;3;92;49;7];
 [82;116;7;87;76;4;106;65;3;97;60;4;34;51;15;38];
 [90;4;43;105;3;87;84;3;33;118;3;34;121;3;36;85];
 [5;35;55;6;37;123;6;37;125;3;36;86;3;43;56;7];
 [77;61;3;42;76;4;48;76;5;49;38;4;54;61;4;60];
 [50;4;106;66;3;43;58;3;57;120;4;73;34;3;33;80];
 [3;35;33;3;36;88;5;37;46;3;39;87;3;39;86;3];
 [39;88;4;40;67;3;43;60;3;47;93;3;47;92;4;48];
 [77;3;57;123;3;57;124;4;60;52;3;69;121;5;49;41];
 [4;33;97;6;34;65;3;33;126;4;34;60;5;34;48;4];
 [35;62;4;35;63;4;37;74;4;37;76;4;37;72;4;37];
 [71;3;43;65;3;43;69;3;43;66;5;43;124;4;48;83];
 [3;47;103;3;47;105;4;48;87;4;48;88;4;48;82;5];
 [49;44;4;48;84;4;48;89;3;58;36;6;80;108;4;54];
 [66;4;54;69;3;58;34;5;61;112;3;64;66;4;66;65];
 [4;66;67;4;66;66;4;66;60;3;69;125;3;69;123;4];
 [66;63;4;66;62;3;69;124;4;73;35;4;79;98;4;79];
 [97;4;79;99;5;97;59;4;85;108;7;62;125;4;95;74];
 [4;99;48;4;33;100;4;34;64;4;35;68;3;36;100;4];
 [37;79;6;41;111;6;47;39;4;43;117;3;47;107;4;48];
 [90;4;54;75;3;70;34;4;85;111;3;84;67;4;85;112];
 [5;83;99;4;90;110;4;48;92;4;54;77;5;61;120;6];
 [41;114;3;52;83;5;112;120;4;35;75;6;38;56;4;43];
 [119;3;58;37;6;80;118;4;60;62;5;68;108;4;109;83];
 [6;38;54;4;54;80;3;33;88;6;35;113;3;35;44;6];
 [80;122;3;39;100;4;33;43;6;33;59;6;40;100;4;37];
 [86;3;35;48;5;34;60;3;35;46;3;36;106;3;36;105];
 [3;36;104;3;39;104;6;42;42;3;43;76;3;47;112;4];
 [43;122;3;47;113;4;54;81;6;81;34;5;76;49;3;70];
 [36;4;73;39;3;96;112;3;33;93;3;47;114;6;61;97];
 [3;52;86;4;73;41;5;33;65;3;33;95;3;35;50;4];
 [37;90;4;40;87;3;63;120;3;70;39;4;71;86;4;33];
 [107;3;34;48;3;34;44;3;35;56;3;35;54;3;36;108];
 [4;35;81;3;36;107;3;36;113;4;35;84;4;35;89;3];
 [36;114;4;35;83;3;36;111;3;36;110;3;36;122;15;35];
 [73;3;37;37;3;39;122;3;39;109;4;37;93;3;39;118];
 [5;37;66;6;42;57;3;43;82;3;43;96;3;43;95;3];
 [43;98;3;43;90;4;40;89;4;40;92;3;43;86;15;41];
 [92;4;44;37;3;47;125;4;43;126;3;47;117;3;47;124];
 [4;44;33;4;43;125;6;53;125;3;48;36;5;44;67;3];
 [52;93;3;52;101;4;48;106;5;54;112;3;52;99;3;52];
 [92;4;48;112;3;52;90;4;48;115;4;48;113;4;48;109];
 [4;48;108;15;51;67;3;56;83;4;48;111;5;54;118;3];
 [58;50;4;54;103;3;58;53;3;58;44;4;54;94;4;54];
 [89;3;58;57;3;58;62;3;58;45;4;54;96;3;58;61];
 [4;54;95;3;58;55;6;71;57;5;54;121;5;54;122;3];
 [58;48;4;54;88;4;54;101;4;54;99;3;58;65;5;54];
 [110;3;58;63;3;58;58;5;62;57;4;60;74;4;60;70];
 [3;64;79;5;62;61;4;60;71;4;60;76;3;64;77;3];
 [64;80;6;81;50;4;66;82;3;70;50;3;70;47;3;70];
 [45;4;66;79;4;66;74;4;66;85;3;70;43;3;75;58];
 [4;66;83;4;66;86;4;66;81;5;69;34;4;73;48;4];
 [73;44;3;75;66;4;73;45;3;75;54;7;33;78;4;79];
 [107;4;79;108;3;80;65;4;79;103;4;79;106;4;79;111];
 [3;80;60;3;80;58;7;55;55;4;85;114;3;84;70;4];
 [85;115;4;79;109;5;97;64;4;90;112;3;87;86;5;97];
 [69;4;95;76;5;103;89;5;107;115;3;92;53;3;94;39];
 [4;102;50;3;96;46;3;96;45;4;108;108;7;98;47;3];
 [34;50;3;34;33;3;35;61;5;37;83;3;39;126;3;43];
 [100;3;48;38;4;66;88;4;99;50;3;34;51;3;37;46];
 [4;35;95;3;37;57;3;37;58;4;35;94;3;37;61;3];
 [37;63;3;37;59;3;37;52;3;40;39;4;37;109;3;40];
 [43;3;40;44;3;43;118;6;47;101;3;43;116;3;43;117];
 [3;43;115;3;43;111;3;48;41;4;44;47;4;44;49;3];
 [48;45;3;48;44;3;48;46;3;48;49;3;52;108;3;52];
 [109;3;52;115;3;52;106;15;51;87;4;49;33;4;54;107];
 [3;58;70;4;54;110;3;58;81;6;71;78;3;58;72;3];
 [58;77;4;60;89;4;60;91;3;64;83;3;64;85;4;60];
 [86;4;60;88;4;66;94;4;66;93;4;66;91;3;70;59];
 [4;66;95;3;70;57;7;33;106;3;75;82;3;75;72;4];
 [73;51;3;75;74;3;75;78;15;78;37;15;78;46;4;73];
 [42;3;80;68;4;79;120;3;80;71;3;80;66;3;80;67];
 [3;80;70;3;80;69;4;85;124;3;84;77;3;84;74;4];
 [85;123;7;63;48;3;87;93;7;70;68;5;107;118;3;96];
 [114;4;108;110;5;55;60;3;77;65;3;43;120;4;40;97];
 [5;37;88;4;54;119;4;66;96;3;70;71;4;90;122;3];
 [34;58;3;35;70;3;35;72;4;35;101;3;37;74;4;37];
 [113;5;37;89;4;37;119;4;37;115;4;37;120;3;43;125];
 [4;49;37;6;62;66;3;52;122;3;58;85;4;60;92;3];
 [80;62;3;33;116;3;35;76;3;35;74;4;34;86;4;34];
 [89;4;34;85;3;35;73;3;37;82;3;37;87;3;37;80];
 [3;37;79;3;37;77;3;37;84;3;40;49;3;40;59;4];
 [37;123;3;40;66;3;40;50;3;40;58;3;40;67;3;40];
 [71;3;40;52;4;38;33;3;40;68;3;40;62;3;40;54];
 [3;40;60;5;37;93;3;40;57;3;40;48;4;40;109;4];
 [40;105;3;43;126;3;44;34;15;42;42;4;40;103;3;48];
 [63;3;48;66;3;48;61;3;48;73;3;48;71;4;44;59];
 [3;48;67;3;48;80;3;48;76;3;48;68;4;44;63;4];
 [44;58;3;48;57;4;44;60;3;48;81;3;48;70;3;48];
 [65;3;48;58;15;46;107;15;46;120;4;49;41;3;53;38];
 [3;53;45;3;53;33;3;53;54;4;49;40;3;53;44;3];
 [53;35;3;53;37;3;58;113;3;58;103;3;58;116;3;58];
 [100;3;58;118;3;58;108;3;58;106;3;58;101;5;55;78];
 [3;58;110;5;55;70;4;54;126;3;58;111;3;58;95;4];
 [54;125;3;58;112;3;58;93;15;58;60;3;58;109;3;58];
 [105;3;58;104;4;60;95;3;64;98;4;60;97;3;64;110];
 [3;64;109;3;64;104;3;64;99;4;60;100;3;64;101;4];
 [60;99;3;64;112;3;64;107;3;64;111;3;64;108;3;64];
 [105;3;70;75;4;66;103;4;66;108;4;66;104;4;66;102];
 [3;70;73;3;70;82;3;70;81;4;66;107;4;66;109;3];
 [70;77;3;70;78;4;66;105;4;73;60;4;73;58;3;75];
 [89;3;75;87;4;73;64;3;75;85;3;80;82;3;80;85];
 [4;80;33;15;84;42;4;86;34;4;86;36;3;87;95;3];
 [87;96;4;95;84;5;103;94;3;90;48;3;90;50;3;92];
 [55;4;99;53;3;92;56;4;102;55;4;104;101;3;97;98];
 [3;97;99;3;35;78;6;38;120;4;35;109;3;40;73;4];
 [40;112;4;44;65;3;48;84;3;58;125;4;60;103;7;45];
 [45;3;97;61;3;34;60;3;35;79;6;38;121;3;37;89];
 [4;35;112;3;37;91;6;38;122;3;40;79;5;40;110;3];
 [44;48;3;44;49;3;44;51;4;44;66;5;44;124;6;54];
 [93;3;53;66;3;53;61;3;53;62;4;49;46;6;62;90];
 [3;53;64;3;59;33;4;55;34;4;60;106;4;60;108;4];
 [60;111;3;64;119;4;66;116;4;66;117;3;75;96;4;66];
 [119;4;73;67;4;73;69;4;73;70;4;90;125;3;94;43];
 [7;98;53;4;35;113;4;38;38;6;54;104;3;59;34;4];
 [44;76;6;62;100;4;66;120;5;76;99;4;34;93;4;35];
 [116;4;38;40;4;38;39;4;40;116;4;40;117;4;44;77];
 [5;49;117;4;49;51;5;49;115;4;49;50;4;55;40;4];
 [55;41;4;60;113;4;66;121;3;34;64;3;35;83;4;38];
 [42;3;40;82;3;40;83;4;40;121;4;40;120;3;44;57];
 [3;44;56;3;44;54;4;44;78;6;62;107;3;53;69;4];
 [55;43;5;55;102;4;66;125;4;73;74;3;90;55;3;33];
 [98;4;35;119;3;34;66;3;34;67;3;34;65;3;34;68];
 [3;35;86;4;34;97;5;34;81;4;35;123;5;34;80;3];
 [35;87;3;35;88;4;35;120;4;35;121;3;37;96;5;35];
 [112;5;35;116;3;37;100;3;37;101;4;35;118;3;40;91];
 [6;42;123;4;38;49;4;38;50;4;38;46;3;40;86;6];
 [42;118;3;40;89;3;40;90;5;37;110;3;44;58;4;40];
 [123;4;44;91;4;44;83;4;44;81;3;48;96;4;44;95];
 [4;44;85;3;48;92;4;44;90;4;44;94;4;44;87;3];
 [48;93;6;54;124;5;45;46;3;48;101;4;44;84;3;53];
 [86;3;53;73;4;49;55;3;53;76;4;49;61;6;62;117];
 [3;53;77;4;49;57;6;62;120;3;53;80;15;52;63;3];
 [53;83;3;59;47;3;59;50;3;59;41;4;55;50;4;55];
 [52;3;59;53;4;60;114;3;59;48;3;59;44;4;60;118];
 [4;60;115;4;60;126;5;62;109;4;61;33;6;82;52;3];
 [64;123;4;60;119;4;67;34;6;92;68;4;67;45;4;67];
 [42;4;67;33;3;70;85;4;67;36;3;70;91;3;70;88];
 [4;67;46;3;70;87;4;73;80;4;73;76;5;76;108;3];
 [75;98;5;76;104;4;73;75;4;73;83;3;75;100;4;73];
 [79;4;73;77;3;75;97;4;73;84;4;80;38;4;80;39];
 [4;86;40;4;80;37;5;84;54;3;80;89;7;45;76;3];
 [84;90;3;84;86;5;91;60;4;86;39;3;84;88;7;63];
 [68;4;95;90;5;103;99;5;103;100;4;102;58;3;94;44];
 [4;104;104;5;123;61;3;35;91;6;33;110;3;59;56;4];
 [73;85;3;34;69;4;49;66;3;34;70;4;34;101;4;34];
 [102;3;35;93;4;36;34;4;36;36;3;37;105;4;36;33];
 [3;37;106;15;36;37;4;38;54;4;38;55;4;41;37;4];
 [36;37;4;41;34;4;41;36;6;48;99;3;44;71;4;41];
 [35;4;41;33;4;44;102;4;44;104;4;49;71;4;49;72];
 [4;49;69;4;49;73;3;53;92;4;55;59;4;55;54;4];
 [55;61;4;55;58;3;59;60;4;55;60;3;59;57;4;55];
 [57;4;61;40;4;61;35;4;61;39;4;61;38;4;61;41];
 [4;67;51;4;67;50;4;67;49;4;67;47;3;75;110;3];
 [75;111;4;80;41;4;86;45;4;86;43;4;99;59;4;99];
 [58;3;95;68;4;104;107;6;72;68;3;70;94;4;80;43];
 [3;35;96;3;35;95;3;35;94;3;37;108;6;39;71;4];
 [38;56;4;38;61;4;38;59;5;38;38;4;38;60;3;40];
 [100;4;38;58;3;40;102;15;47;56;3;44;73;3;44;74];
 [4;41;42;5;41;38;4;41;41;4;41;40;4;44;107;4];
 [44;109;4;44;108;3;48;109;3;53;94;4;49;78;4;49];
 [76;4;49;79;3;53;93;5;56;41;4;55;64;4;55;65];
 [3;59;65;5;63;33;4;67;54;3;70;95;4;67;57;4];
 [67;58;4;73;91;4;73;92;3;75;113;3;80;93;4;80];
 [44;4;80;46;5;84;66;4;95;94;4;99;60;4;36;41];
 [3;40;106;3;70;98;7;45;91;4;41;43;4;61;45;6];
 [33;121;4;34;106;3;35;99;3;35;100;3;37;112;3;40];
 [111;4;38;64;4;38;65;3;44;78;4;41;45;6;48;122];
 [4;41;46;3;44;79;4;44;113;5;50;70;4;49;81;4];
 [44;114;3;59;70;3;59;67;5;63;41;4;61;47;4;61];
 [46;6;82;77;4;73;93;4;73;95;3;94;46;4;38;66];
 [4;80;49;6;36;112;3;40;115;4;38;67;3;40;114;3];
 [53;100;3;59;72;3;59;73;4;67;59;4;73;97;3;80];
 [95;3;34;75;6;43;62;3;40;116;4;41;50;4;41;52];
 [3;44;82;5;41;47;5;41;51;3;44;83;6;49;37;5];
 [45;71;15;47;62;4;49;84;3;53;102;3;53;103;4;55];
 [73;3;59;74;4;55;72;4;61;51;5;69;105;4;67;61];
 [6;92;103;3;80;96;4;80;52;4;86;47;6;33;126;3];
 [35;101;3;35;104;4;36;49;5;34;103;4;34;112;3;40];
 [123;3;40;125;3;37;121;4;36;46;3;40;124;4;36;48];
 [4;36;51;3;37;115;4;36;47;4;36;50;3;38;36;3];
 [40;121;4;41;53;4;41;55;4;38;77;3;44;89;3;41];
 [36;4;38;72;3;41;35;4;38;78;4;38;76;4;38;70];
 [15;42;62;3;44;88;4;41;65;3;44;98;4;41;60;4];
 [38;73;4;41;57;3;48;125;6;55;84;4;41;61;5;41];
 [53;4;45;40;4;41;72;4;41;58;4;41;59;4;41;64];
 [3;44;85;6;55;90;3;48;124;3;44;94;4;49;91;5];
 [45;90;3;53;115;4;45;34;3;53;105;3;48;117;4;45];
 [35;3;53;112;4;45;36;3;48;119;6;55;94;3;49;36];
 [4;45;43;4;49;90;4;49;92;4;49;98;3;53;107;6];
 [72;111;4;49;99;3;53;117;4;49;96;5;50;91;4;49];
 [93;3;53;108;3;59;78;4;49;108;4;49;103;3;59;76];
 [3;53;109;3;53;119;3;59;87;4;49;100;6;72;117;3];
 [59;83;4;49;102;4;49;94;5;45;87;3;59;82;5;56];
 [66;4;49;106;5;56;72;4;55;86;4;55;80;3;59;92];
 [4;55;89;3;59;95;4;55;84;4;55;78;5;63;50;3];
 [65;37;4;55;85;4;61;62;3;59;96;4;61;55;5;50];
 [88;3;59;91;3;65;38;3;65;45;4;61;59;4;67;67];
 [5;63;66;6;82;105;3;70;103;4;61;58;4;61;60;3];
 [65;48;3;70;101;4;67;66;4;67;80;3;70;102;3;65];
 [47;4;67;72;4;67;71;4;67;73;3;75;125;4;67;77];
 [4;73;101;3;76;34;3;70;105;3;75;123;4;67;74;4];
 [67;76;4;67;70;3;76;39;3;75;120;4;67;75;4;80];
 [56;3;76;42;4;73;103;4;73;105;4;73;104;4;73;107];
 [7;34;124;4;73;109;3;80;105;4;73;108;3;76;38;4];
 [80;57;5;91;76;4;91;35;4;91;41;4;86;54;4;91];
 [37;3;87;103;4;91;36;15;90;41;3;87;102;4;80;58];
 [5;103;120;4;99;67;4;95;100;5;103;115;7;71;44;3];
 [94;48;4;99;66;4;99;64;3;95;71;4;104;108;3;97];
 [120;3;35;106;3;38;38;4;38;84;6;43;82;4;45;47];
 [4;45;48;5;45;93;3;53;122;3;59;101;4;61;66;4];
 [67;84;5;77;55;3;76;43;3;84;98;6;39;110;4;38];
 [85;4;38;86;4;41;77;3;44;100;4;33;123;4;33;122];
 [3;34;79;4;34;116;4;34;115;4;34;117;4;36;58;4];
 [36;54;3;38;44;3;38;45;3;38;48;3;38;43;4;38];
 [88;3;41;45;5;38;58;3;41;44;3;41;56;4;41;85];
 [4;45;51;4;38;89;3;41;43;15;39;46;4;41;78;4];
 [41;84;3;44;102;3;41;39;3;44;103;3;44;105;4;45];
 [60;3;44;113;4;41;86;3;44;104;4;41;82;4;45;50];
 [4;45;49;3;44;106;3;44;101;3;49;52;3;49;42;3];
 [53;123;3;49;49;3;49;58;4;45;59;3;49;45;3;49];
 [43;4;49;124;4;50;33;4;49;123;3;54;44;6;64;50];
 [4;50;37;3;54;47;3;54;48;4;49;121;3;53;126;4];
 [49;113;3;54;37;4;49;126;4;49;122;3;59;107;3;54];
 [42;4;55;110;4;55;98;3;54;33;4;61;69;3;65;49];
 [4;55;100;3;59;106;4;55;107;4;55;104;4;55;101;3];
 [59;108;3;59;105;4;55;112;4;55;97;3;59;110;4;61];
 [80;4;61;79;3;65;55;4;61;76;4;61;74;3;65;53];
 [3;65;59;4;61;72;4;61;78;3;65;60;3;65;74;3];
 [65;67;3;65;63;3;65;71;3;65;64;3;65;70;3;65];
 [65;3;65;57;4;67;88;4;67;97;6;93;50;3;70;121];
 [3;71;46;3;71;45;4;67;86;3;70;124;3;71;39;3];
 [71;47;4;67;92;3;70;119;5;70;37;3;70;125;4;73];
 [117;3;76;54;4;67;100;5;70;35;3;71;43;3;71;44];
 [4;74;36;3;76;51;7;35;58;4;73;121;4;73;122;4];
 [73;118;4;74;40;4;74;34;5;77;58;4;73;126;5;77];
 [62;3;76;60;4;74;35;3;80;116;4;86;57;4;80;69];
 [3;80;115;3;80;110;3;80;120;3;80;114;3;80;113;3];
 [84;101;3;84;106;3;84;104;3;84;99;3;84;102;4;91];
 [45;3;87;105;4;91;50;4;91;48;4;91;46;3;87;111];
 [3;87;113;4;91;49;3;87;104;4;91;47;3;87;114;15];
 [94;115;3;90;61;3;90;62;4;99;71;3;92;64;4;99];
 [70;5;112;36;3;94;50;4;102;64;3;96;49;4;106;73];
 [4;106;72;5;121;42;4;38;91;4;45;64;4;45;63;4];
 [50;39;4;61;84;4;36;64;3;38;58;4;38;94;4;38];
 [95;4;41;93;3;44;117;3;49;62;4;45;66;6;56;43];
 [3;54;51;4;50;40;3;54;53;4;50;44;4;55;121;4];
 [55;117;4;55;120;4;55;119;4;55;118;5;56;124;3;59];
 [119;4;61;92;4;61;89;4;61;91;3;65;76;4;67;102];
 [5;70;48;5;70;46;4;67;105;4;74;43;4;74;42;4];
 [74;41;4;80;73;4;80;76;3;87;115;4;91;58;4;99];
 [76;4;102;67;3;38;59;6;56;44;3;65;79;3;41;58];
 [4;41;97;3;49;65;3;57;43;3;59;120;4;74;46;4];
 [86;62;4;106;75;4;41;98;4;45;73;6;56;48;6;73];
 [97;6;93;81;5;77;75;3;35;113;6;43;112;6;56;52];
 [3;54;59;3;54;62;4;61;101;4;74;48;4;74;49;4];
 [34;120;4;34;121;4;36;67;3;38;60;3;38;63;3;38];
 [62;3;38;64;3;41;63;3;41;61;4;38;99;5;41;79];
 [4;41;99;3;44;123;4;41;100;4;41;101;3;44;120;3];
 [45;38;6;49;103;4;45;76;4;50;59;4;45;75;3;49];
 [71;6;56;55;3;49;74;15;47;110;4;45;77;6;64;81];
 [4;50;54;4;50;58;4;50;55;3;54;67;6;64;79;3];
 [60;34;4;55;126;3;59;122;3;59;123;4;56;37;3;60];
 [39;4;56;34;6;73;115;3;60;33;6;83;61;5;63;98];
 [3;65;82;3;65;87;3;65;90;3;65;85;3;65;83;3];
 [65;92;3;65;88;4;61;104;4;61;103;3;65;84;3;71];
 [56;4;67;110;3;71;50;3;71;54;5;77;83;4;74;50];
 [3;76;66;3;76;69;4;80;82;4;80;81;3;81;33;5];
 [77;80;3;80;123;3;80;124;4;80;83;7;46;90;3;84];
 [115;3;84;110;4;86;64;4;91;64;4;91;65;4;91;63];
 [7;63;118;3;90;64;3;90;65;3;92;68;3;95;76;3];
 [95;77;5;117;110;5;117;109;3;35;116;4;80;86;3;84];
 [116;3;41;68;3;49;78;5;46;37;3;54;73;3;60;40];
 [4;58;67;5;70;69;5;77;88;3;81;37;3;35;118;3];
 [38;67;4;36;72;3;38;70;3;41;75;3;41;70;15;39];
 [76;3;41;80;3;41;77;5;38;81;3;45;40;3;45;44];
 [4;41;111;4;41;108;3;45;41;4;45;87;4;45;81;4];
 [45;84;4;45;88;3;49;82;5;46;43;4;45;82;4;45];
 [91;3;49;85;4;45;86;3;49;81;3;54;89;4;50;67];
 [3;54;74;3;54;79;5;50;121;4;50;66;4;50;70;4];
 [50;65;4;56;52;3;54;88;3;54;93;4;56;47;3;60];
 [46;4;56;44;3;60;63;3;60;48;4;56;42;5;57;51];
 [4;56;45;3;60;44;5;57;57;4;56;53;3;60;53;4];
 [56;55;3;60;54;3;60;67;3;60;43;3;60;45;4;61];
 [120;3;65;113;3;65;102;3;65;112;4;61;107;4;61;110];
 [4;61;111;3;65;108;3;65;105;3;65;100;4;61;109;3];
 [65;94;4;61;117;3;65;98;3;65;99;3;65;122;3;65];
 [97;3;65;95;4;68;35;4;61;118;3;65;96;3;66;90];
 [3;65;103;15;72;85;4;68;36;4;67;117;4;68;33;4];
 [67;124;3;71;63;4;67;120;4;67;115;3;71;65;4;67];
 [116;3;71;74;4;67;125;4;67;126;4;67;122;4;68;34];
 [3;71;79;3;71;64;4;68;37;4;67;113;5;70;75;3];
 [71;73;4;61;114;3;71;80;15;72;82;3;76;78;5;77];
 [109;4;74;58;3;76;76;5;77;97;3;76;83;4;74;55];
 [4;74;54;3;76;93;3;76;88;7;35;111;4;74;56;4];
 [74;66;3;76;90;3;76;92;3;76;72;3;76;85;3;81];
 [67;3;81;66;4;80;96;4;80;90;3;81;55;3;81;48];
 [4;80;89;4;74;57;3;81;63;3;81;42;3;81;61;4];
 [86;73;3;81;51;3;81;57;3;76;75;4;80;94;3;81];
 [45;4;80;100;3;81;53;3;81;52;3;81;54;3;85;34];
 [4;86;72;3;84;126;3;85;37;3;84;125;4;86;75;7];
 [56;85;5;91;104;3;84;119;3;85;38;15;95;41;3;84];
 [121;3;85;40;4;91;72;4;91;68;3;87;124;4;91;74];
 [4;91;73;4;95;111;4;95;115;3;90;73;4;95;112;4];
 [95;110;4;95;114;4;95;117;3;90;76;3;90;75;15;98];
 [83;3;90;74;3;92;76;3;92;70;4;99;81;4;99;79];
 [3;92;72;3;92;77;4;99;84;3;92;75;3;92;69;15];
 [101;62;5;112;39;3;94;54;3;92;74;3;95;80;4;104];
 [110;3;96;53;3;96;51;3;96;52;5;36;72;6;40;48];
 [4;38;109;5;38;86;4;38;112;4;38;108;4;45;96;4];
 [41;112;4;41;113;6;49;120;4;41;116;4;41;115;5;46];
 [46;4;45;93;4;45;97;4;45;98;4;45;94;3;54;97];
 [4;50;72;4;50;73;6;64;110;4;56;59;4;56;57;3];
 [60;70;5;57;67;4;56;60;6;56;100;4;62;33;4;61];
 [124;4;61;123;4;61;125;4;61;126;4;62;34;3;71;82];
 [6;93;119;4;68;42;4;74;76;3;76;104;4;80;102;4];
 [80;103;4;86;79;4;86;78;3;85;42;3;85;44;4;95];
 [119;7;78;34;4;104;113;5;117;119;5;121;47;6;37;37];
 [3;45;62;3;43;123;3;60;72;4;56;63;5;70;95;3];
 [88;36;4;34;124;3;41;87;5;38;98;4;38;117;3;45];
 [63;3;45;65;3;45;64;3;49;105;3;54;99;4;50;74];
 [4;56;69;4;56;68;4;56;70;4;56;66;3;60;74;3];
 [66;35;4;62;35;4;62;36;3;66;36;4;68;50;5;70];
 [96;4;68;51;4;68;48;4;74;80;4;74;79;4;80;107];
 [4;80;106;4;86;81;4;99;85;3;92;78;5;117;120;5];
 [36;78;4;38;120;4;45;100;3;49;107;4;50;79;4;56];
 [73;4;56;74;4;56;75;3;66;37;4;68;53;3;81;71];
 [3;81;72;4;80;110;4;86;83;3;88;37;4;41;123;3];
 [35;123;4;38;121;3;41;91;4;38;122;15;39;91;3;45];
 [67;4;45;102;4;50;82;4;50;84;4;50;83;4;50;85];
 [3;54;103;4;45;103;4;50;81;5;57;91;3;60;76;4];
 [56;79;4;56;76;4;62;41;3;66;39;4;62;40;4;62];
 [39;4;68;63;4;68;56;4;68;57;4;68;58;5;70;104];
 [4;68;60;4;80;111;4;80;113;4;80;114;3;81;73;4];
 [91;80;4;91;79;3;90;80;4;109;87;4;45;106;3;41];
 [92;3;54;104;3;76;105;3;81;74;4;33;79;3;34;86];
 [3;34;85;3;36;34;5;33;116;4;35;34;3;38;84;3];
 [38;79;4;36;79;3;38;93;6;40;73;3;38;90;4;36];
 [81;3;38;75;6;40;74;6;40;68;3;38;88;3;41;97];
 [3;41;95;3;41;94;3;41;98;3;41;96;4;38;126;3];
 [41;104;3;41;102;15;39;102;3;45;68;5;42;36;4;39];
 [34;3;45;84;5;41;123;5;41;124;4;41;126;3;45;86];
 [3;45;76;15;48;73;6;56;114;3;49;112;3;49;113;4];
 [45;107;6;57;51;3;49;116;4;45;108;3;54;105;3;50];
 [36;3;50;35;3;49;126;3;49;117;4;50;87;3;54;113];
 [4;50;99;4;50;100;3;54;110;4;50;94;3;55;34;3];
 [54;109;3;60;79;3;54;126;4;50;88;4;50;104;5;57];
 [94;4;50;90;4;50;92;6;65;43;5;51;61;3;60;94];
 [3;54;123;3;60;95;3;54;115;6;65;65;3;54;120;15];
 [54;51;4;56;81;4;56;86;3;60;101;4;56;82;3;60];
 [89;4;56;89;3;60;106;3;60;103;3;60;85;4;56;87];
 [4;56;90;3;60;83;3;60;87;3;60;97;3;66;43;6];
 [74;109;15;60;67;15;60;90;4;62;55;3;66;44;3;66];
 [55;3;66;53;3;66;72;3;66;56;4;62;48;4;62;57];
 [4;62;45;3;66;66;4;62;56;3;66;52;3;66;60;4];
 [62;60;3;66;47;3;66;65;5;64;39;4;62;47;4;62];
 [50;3;66;50;3;66;67;3;71;85;4;68;73;3;71;96];
 [6;94;59;3;71;89;6;84;80;3;71;88;4;68;70;4];
 [68;77;4;68;74;6;94;64;3;76;110;4;74;95;4;74];
 [97;3;76;111;3;76;124;4;74;104;4;74;93;3;76;109];
 [4;74;89;3;76;114;5;70;120;7;36;97;3;76;112;4];
 [80;116;3;81;75;3;76;118;4;80;119;4;80;125;5;85];
 [54;4;80;118;3;81;79;3;81;78;4;80;122;5;85;45];
 [3;81;83;3;81;87;4;80;123;4;86;86;3;81;81;3];
 [81;76;4;80;120;3;81;82;4;74;98;5;85;46;3;85];
 [50;3;85;56;4;86;94;4;86;96;3;85;52;4;86;88];
 [3;85;46;4;86;87;4;86;92;3;85;59;4;86;89;4];
 [86;91;3;85;51;4;91;86;4;91;84;4;91;90;4;91];
 [87;4;91;96;4;95;123;4;95;125;4;91;91;4;95;121];
 [3;90;81;3;92;80;4;99;90;4;99;94;4;99;91;3];
 [92;82;4;102;73;5;112;62;4;102;74;4;102;76;4;104];
 [115;3;94;57;3;94;56;3;95;81;4;106;78;3;96;56];
 [4;107;109;4;107;110;3;97;102;3;36;42;4;36;82;3];
 [38;97;15;36;110;3;41;110;4;39;39;3;41;120;15;39];
 [110;3;41;115;3;45;103;3;45;89;3;45;102;3;45;97];
 [3;45;96;3;45;91;4;42;39;3;50;46;4;45;115;3];
 [50;50;3;55;43;3;55;42;3;55;52;4;50;113;4;50];
 [118;4;50;112;4;50;119;15;54;72;3;60;118;4;56;101];
 [4;56;97;3;60;117;4;56;98;4;56;100;4;56;96;3];
 [59;35;3;60;126;3;60;112;3;60;120;3;66;84;3;66];
 [77;3;66;86;4;62;75;3;66;74;3;66;85;4;62;72];
 [4;62;70;4;62;73;6;84;84;3;66;75;3;66;80;15];
 [66;120;15;67;60;4;68;89;3;71;115;3;71;105;6;84];
 [103;4;68;86;4;68;90;4;68;92;3;71;113;15;73;88];
 [3;77;38;3;77;35;3;77;43;3;77;33;3;77;39;4];
 [74;106;4;81;37;3;81;93;3;81;91;4;81;43;3;81];
 [95;3;81;97;4;81;36;3;81;100;3;81;101;3;85;61];
 [4;86;98;3;85;63;3;85;68;7;57;38;3;87;81;3];
 [88;44;4;86;100;3;92;90;3;90;89;3;92;84;3;92];
 [91;4;99;95;4;102;78;5;115;87;4;106;80;3;96;58];
 [3;97;122;4;39;44;3;41;122;3;55;88;3;71;116;3];
 [45;106;4;45;118;3;55;54;4;56;107;3;41;123;4;42];
 [44;4;56;108;3;41;125;3;41;126;5;46;83;6;57;64];
 [4;45;122;4;68;95;7;57;45;4;91;100;4;102;80;3];
 [33;106;3;50;51;4;35;38;3;38;101;4;36;85;6;44];
 [113;4;39;51;5;38;119;4;39;50;4;39;47;3;45;108];
 [3;45;111;4;42;46;3;45;110;3;50;52;3;50;53;4];
 [45;125;4;45;124;4;50;122;5;51;77;4;50;121;4;50];
 [126;3;55;56;6;65;102;3;55;55;4;56;112;4;56;114];
 [4;56;115;4;68;99;6;84;120;4;62;78;3;66;94;4];
 [68;98;4;68;96;4;68;100;4;74;111;4;74;110;4;74];
 [114;4;74;113;4;74;115;4;81;46;4;81;48;4;81;47];
 [4;86;103;3;85;70;3;85;71;4;91;102;4;91;101;4];
 [96;36;7;83;107;4;106;81;4;39;52;4;36;89;3;38];
 [109;4;36;86;3;38;108;6;44;117;4;39;57;5;39;46];
 [3;42;41;3;42;36;3;42;37;4;39;58;4;42;50;4];
 [42;52;4;42;53;3;45;114;6;50;103;3;50;55;5;46];
 [92;4;46;33;4;45;126;4;46;34;4;46;38;6;65;109];
 [4;46;39;5;51;81;4;51;40;6;65;117;4;51;41;4];
 [51;37;4;51;43;4;51;39;4;51;46;4;56;121;4;56];
 [119;3;61;44;4;56;123;6;75;67;4;68;101;4;62;84];
 [4;68;102;4;62;83;3;66;96;4;62;82;4;68;106;6];
 [94;110;4;68;105;4;68;104;4;68;103;3;71;118;4;56];
 [122;4;74;123;4;74;118;4;74;122;4;74;124;7;47;116];
 [4;81;50;4;81;52;3;85;72;4;86;106;4;86;107;4];
 [91;103;5;104;59;4;99;101;4;99;102;4;99;103;4;99];
 [99;4;107;111;3;36;46;4;35;41;3;36;48;3;36;49];
 [3;38;113;3;38;111;3;38;112;3;42;46;3;45;118;6];
 [45;33;3;42;48;4;39;59;3;42;49;3;45;125;3;50];
 [58;4;42;55;4;42;56;15;44;50;4;51;47;3;50;67];
 [3;50;68;3;50;59;4;51;48;3;50;69;15;49;39;3];
 [50;66;3;55;63;3;55;66;3;55;65;4;51;51;3;55];
 [62;3;55;67;3;61;52;4;56;125;5;58;45;3;66;99];
 [3;61;49;3;61;48;3;66;108;15;54;89;15;61;59;4];
 [62;89;3;66;101;3;66;105;5;64;78;3;66;114;15;67];
 [73;15;67;86;3;72;36;7;37;55;4;75;34;4;75;33];
 [3;77;55;3;77;60;3;77;51;3;77;56;3;77;52;3];
 [77;50;3;81;104;5;85;93;4;81;55;3;81;105;3;85];
 [74;4;86;111;15;85;122;15;86;34;3;85;78;4;91;105];
 [3;85;76;15;91;45;3;88;49;4;96;42;15;98;120;15];
 [98;123;3;92;97;4;42;57;4;42;58;5;46;98;4;46];
 [43;4;51;53;4;51;52;4;56;126;4;68;112;4;68;113];
 [4;68;111;4;75;35;4;75;36;4;91;108;4;109;90;4];
 [36;94;5;39;50;3;42;52;3;46;35;4;42;61;3;50];
 [74;3;50;75;4;46;45;3;50;73;4;46;44;4;51;59];
 [4;57;33;4;51;58;4;51;56;4;51;57;4;51;55;4];
 [57;35;4;57;38;4;51;60;4;57;36;4;62;98;4;62];
 [97;4;62;93;4;62;96;3;66;118;4;62;99;5;71;72];
 [4;68;115;4;68;118;4;68;116;4;68;120;4;68;119;4];
 [68;117;4;75;37;4;75;39;4;75;38;4;81;63;3;81];
 [111;4;81;66;4;81;65;4;86;114;4;86;115;3;85;81];
 [4;86;117;3;85;80;4;86;113;4;91;111;4;91;110;4];
 [96;44;4;96;43;4;104;117;4;107;112;4;106;83;3;50];
 [76;4;62;101;3;77;63;4;86;120;3;61;64;15;80;78];
 [5;36;99;6;40;98;3;38;114;4;42;65;3;46;41;4];
 [42;67;4;46;47;4;46;49;5;51;100;3;55;72;3;61];
 [65;4;57;40;4;62;105;3;66;121;3;66;122;4;62;104];
 [4;68;121;3;77;64;4;75;42;4;75;41;4;81;68;5];
 [92;47;4;91;114;4;91;115;4;96;46;4;99;105;4;106];
 [84;4;62;109;4;36;97;4;36;98;5;39;55;3;42;60];
 [4;42;70;3;46;45;4;42;73;3;46;44;3;46;46;3];
 [50;86;4;46;55;4;46;59;4;46;53;4;46;54;3;50];
 [84;4;46;51;4;46;63;4;46;57;6;57;107;3;50;83];
 [4;46;56;4;46;58;5;51;109;4;51;66;3;55;76;4];
 [51;64;4;46;60;4;51;63;4;51;69;3;55;75;4;51];
 [67;4;57;50;4;57;51;3;61;70;3;61;75;6;75;90];
 [3;61;73;4;57;54;5;64;96;4;57;47;4;57;48;3];
 [61;72;3;61;74;5;58;59;4;57;53;4;57;56;4;62];
 [116;5;64;100;4;62;111;4;62;120;4;62;110;4;62;118];
 [4;62;115;4;62;122;4;69;36;4;69;40;6;95;45;3];
 [72;42;3;72;44;4;69;35;4;69;33;7;37;88;4;75];
 [56;3;77;66;4;75;55;4;75;53;4;75;51;4;75;47];
 [7;37;92;4;75;46;5;71;89;4;75;59;7;48;54;4];
 [81;72;4;81;73;3;81;117;4;81;78;4;81;74;4;81];
 [80;4;87;38;4;87;34;4;91;123;4;91;119;7;64;107];
 [4;87;37;7;64;103;4;96;50;4;96;47;4;96;48;4];
 [102;88;4;102;89;3;94;64;5;115;92;4;106;85;4;107];
 [114;4;107;113;3;98;45;3;38;117;3;46;48;3;50;88];
 [3;55;78;3;67;34;3;72;45;5;71;91;5;78;89;4];
 [81;86;4;96;55;4;102;91;4;108;115;4;39;70;4;42];
 [78;3;46;49;4;46;70;4;46;69;4;51;71;4;51;72];
 [4;57;58;6;85;82;4;69;48;4;69;50;3;72;47;3];
 [77;67;4;75;61;4;81;87;4;91;126;4;99;108;4;39];
 [72;4;42;81;4;42;80;4;46;71;4;46;73;3;50;89];
 [4;51;75;3;55;79;3;61;78;3;67;35;5;64;111;3];
 [72;50;4;81;90;4;69;54;4;87;44;4;96;56;3;95];
 [56;4;110;72;3;38;121;4;36;101;4;39;78;4;39;79];
 [4;39;77;4;39;76;4;39;74;4;42;83;4;42;86;4];
 [42;87;4;42;84;4;42;88;5;42;109;4;42;90;6;51];
 [56;3;46;52;4;46;82;3;50;93;3;50;102;3;50;96];
 [4;46;77;3;50;97;5;51;118;4;51;80;4;51;81;3];
 [55;86;3;55;84;4;51;82;4;51;78;4;51;77;3;61];
 [80;4;57;73;3;61;84;4;57;74;3;61;85;4;57;69];
 [4;57;72;4;57;63;4;57;65;4;57;75;4;57;70;4];
 [57;77;4;57;71;4;57;67;4;63;34;4;57;76;4;57];
 [66;4;63;48;4;63;45;3;67;36;4;63;37;4;63;38];
 [4;63;39;4;63;43;4;63;44;6;85;97;5;71;97;4];
 [69;57;4;69;65;4;69;60;4;69;55;3;72;55;4;69];
 [67;4;69;70;4;69;63;4;69;68;3;72;58;4;69;56];
 [3;77;69;4;75;69;4;75;66;4;75;68;4;75;71;4];
 [75;67;4;75;77;3;77;71;5;78;96;4;75;63;3;81];
 [119;3;81;120;4;81;92;4;81;96;3;81;124;3;81;122];
 [4;81;93;4;81;100;4;87;50;4;87;46;4;87;49;4];
 [87;47;3;85;90;4;87;48;4;87;51;4;87;52;5;86];
 [34;5;98;105;4;92;39;4;92;41;4;92;42;4;92;37];
 [3;88;55;4;92;38;4;99;112;4;99;110;4;99;113;4];
 [99;111;4;102;93;3;94;65;4;104;120;4;106;87;4;104];
 [122;4;108;117;4;110;77;4;39;81;4;42;95;4;51;87];
 [4;69;74;3;85;93;4;87;56;4;99;116;4;107;117;4];
 [46;87;4;46;88;4;51;90;4;51;89;6;76;43;4;63];
 [51;4;69;76;3;36;50;3;38;122;4;39;83;15;40;122];
 [4;42;100;3;46;56;4;42;98;3;46;60;3;45;59;4];
 [46;95;4;46;92;4;46;98;5;47;52;3;55;91;3;50];
 [106;3;50;107;4;46;94;4;46;97;4;51;94;4;51;97];
 [3;55;92;4;51;95;3;55;90;4;51;96;3;55;94;3];
 [61;91;5;58;89;6;76;51;4;57;88;3;61;88;4;57];
 [83;4;63;64;4;63;57;4;63;63;3;67;47;4;63;60];
 [3;67;50;4;63;61;3;67;44;4;63;62;4;63;56;4];
 [63;58;4;63;59;4;63;66;4;69;78;3;72;67;4;69];
 [81;3;72;65;4;69;77;4;69;85;4;69;79;5;71;118];
 [4;75;92;4;75;88;4;75;86;4;75;85;4;75;94;7];
 [38;36;4;75;91;3;82;35;3;81;125;4;81;108;3;81];
 [126;7;48;89;5;86;51;4;81;112;4;81;109;4;87;59];
 [4;87;65;3;72;66;4;87;57;3;85;94;3;85;95;4];
 [87;63;3;88;65;4;92;45;3;88;61;4;92;49;4;92];
 [47;4;92;46;4;96;63;7;78;92;3;92;99;4;99;118];
 [4;99;117;4;102;95;4;102;96;4;102;97;4;104;124;4];
 [104;123;3;96;117;3;97;103;3;46;63;4;42;103;4;42];
 [102;6;51;72;3;50;110;4;46;100;3;50;113;3;55;100];
 [4;51;99;4;51;98;3;61;97;3;61;96;4;57;89;4];
 [63;69;4;63;68;3;67;58;3;67;59;3;67;62;4;63];
 [71;3;67;60;3;67;63;3;72;70;5;72;36;3;72;73];
 [5;78;118;3;77;78;4;81;118;3;82;37;4;81;116;4];
 [81;117;4;87;66;3;88;70;3;88;71;3;90;100;4;102];
 [99;3;98;52;5;36;110;3;38;125;5;39;70;6;45;73];
 [4;39;86;3;42;64;3;42;65;3;42;67;4;42;106;4];
 [42;111;4;42;107;4;42;105;4;42;108;15;44;109;4;46];
 [101;3;50;117;3;50;122;6;66;102;4;51;103;4;51;102];
 [3;55;109;4;51;101;5;52;59;5;52;57;4;51;106;4];
 [51;105;4;51;107;3;55;104;4;51;109;5;52;56;3;55];
 [110;15;55;59;4;51;100;5;58;101;4;57;94;4;57;98];
 [3;61;103;4;57;100;3;61;106;4;57;99;3;61;107;4];
 [57;97;4;63;79;3;67;64;4;63;77;3;67;69;4;63];
 [76;3;67;66;4;63;75;3;67;67;4;69;87;4;63;73];
 [5;65;49;3;72;81;3;72;74;4;69;91;3;72;83;3];
 [72;78;4;69;90;3;72;76;4;69;88;6;95;107;4;69];
 [89;4;75;101;4;75;97;3;77;84;4;75;98;3;77;82];
 [7;38;50;3;77;88;4;75;104;4;75;102;4;75;100;3];
 [77;89;4;81;125;4;81;124;3;82;43;4;81;121;4;81];
 [120;4;81;122;3;82;45;4;87;69;3;85;99;4;87;71];
 [3;88;72;7;65;46;4;92;55;4;92;53;4;92;54;3];
 [94;70;4;99;121;4;102;101;7;88;76;4;102;100;4;104];
 [126;4;105;33;3;98;57;4;36;105;6;45;78;3;46;70];
 [3;46;69;4;42;113;4;42;114;3;51;33;3;50;126;3];
 [50;125;4;51;111;4;51;112;3;55;111;5;52;69;4;51];
 [114;4;51;113;6;66;111;3;61;108;4;57;103;3;61;109];
 [6;76;83;3;61;110;5;65;57;4;63;83;4;63;82;6];
 [86;39;4;69;96;6;95;120;4;75;108;5;79;35;5;84];
 [36;4;82;37;4;82;34;4;82;36;7;48;111;3;85;101];
 [3;85;102;4;87;76;4;87;77;4;87;75;4;87;79;3];
 [85;103;4;92;57;4;92;58;4;96;72;4;96;73;4;99];
 [124;4;105;34;3;36;52;3;42;70;4;42;118;3;46;74];
 [3;51;37;4;46;109;3;51;34;5;52;70;3;61;111;4];
 [57;106;3;67;72;4;63;84;4;63;85;4;63;90;4;69];
 [99;4;87;82;4;92;59;3;90;104;5;43;33;4;46;117];
 [4;46;112;3;51;40;4;46;119;3;51;41;4;46;115;4];
 [46;114;4;51;118;4;51;125;3;55;116;5;52;72;4;51];
 [119;4;51;123;3;55;117;6;66;118;4;51;120;4;57;109];
 [4;57;116;4;57;113;3;61;116;4;63;91;4;57;114;3];
 [61;122;4;57;117;3;61;115;4;57;111;6;76;91;6;76];
 [86;3;67;80;4;63;102;4;63;98;4;63;97;3;67;82];
 [3;67;83;4;63;93;3;67;78;4;63;96;3;67;75;4];
 [63;99;5;72;70;4;57;118;4;69;101;3;72;91;4;69];
 [106;4;69;105;3;72;95;4;69;110;4;69;104;3;72;89];
 [4;69;109;4;69;102;5;72;54;4;75;123;4;75;117;4];
 [75;112;3;77;97;3;77;94;4;76;34;3;77;103;4;75];
 [126;3;77;98;4;76;46;5;79;59;3;77;100;4;76;48];
 [4;76;37;4;76;45;4;75;121;5;79;50;3;77;95;5];
 [79;69;4;76;44;4;76;39;4;75;119;3;77;102;3;77];
 [104;4;76;40;5;79;54;4;82;52;4;82;58;3;82;49];
 [4;82;55;4;82;43;4;82;56;3;82;53;4;82;57;4];
 [82;59;4;82;54;4;82;47;4;82;61;4;82;41;3;82];
 [50;4;87;91;5;92;109;4;87;94;4;87;90;4;87;98];
 [5;92;125;4;87;101;4;87;83;3;85;108;4;87;86;4];
 [87;88;4;87;89;5;92;126;4;87;85;5;93;48;4;92];
 [68;4;92;79;4;92;75;4;92;80;4;92;67;3;88;74];
 [4;92;74;3;90;108;4;92;66;4;92;76;7;65;63;4];
 [92;70;4;92;73;4;92;64;5;99;52;4;92;72;3;88];
 [77;3;88;75;5;99;65;4;96;86;5;104;110;3;90;106];
 [4;96;83;5;104;102;3;90;109;3;90;105;3;90;107;4];
 [92;81;4;99;126;4;102;105;4;102;108;4;102;110;3;94];
 [74;4;102;106;3;94;77;4;102;104;4;102;109;3;95;86];
 [5;112;97;4;105;38;4;105;40;4;106;93;4;106;97;4];
 [106;92;3;96;95;4;107;118;4;109;92;4;109;118;7;101];
 [93;4;42;119;3;51;47;3;51;51;6;67;34;4;52;37];
 [5;52;89;3;55;124;6;76;96;4;57;123;4;57;124;3];
 [61;125;3;61;124;4;57;125;3;67;90;3;67;86;3;67];
 [87;3;67;89;3;67;91;3;72;99;4;69;114;3;72;100];
 [3;72;101;6;96;44;3;72;102;3;77;107;3;77;108;3];
 [77;105;3;77;106;4;76;55;7;38;87;4;76;53;3;82];
 [54;4;87;109;3;85;115;3;85;114;4;87;105;4;87;106];
 [3;77;116;4;87;107;5;99;78;4;92;86;3;88;82;4];
 [92;85;4;92;84;5;99;84;3;88;83;3;90;112;4;96];
 [91;4;96;93;4;100;35;3;92;104;7;84;58;5;112;112];
 [4;106;101;5;118;57;4;108;122;3;97;69;4;39;92;6];
 [51;100;3;46;87;3;46;85;3;46;88;4;46;120;4;46];
 [126;3;51;53;3;51;52;4;46;124;3;51;57;4;47;33];
 [3;51;56;4;46;125;3;51;54;3;51;58;4;52;46;4];
 [52;38;3;56;35;3;56;42;4;52;39;4;52;48;3;56];
 [44;4;52;45;4;52;43;4;52;41;3;56;40;3;56;45];
 [3;56;37;3;62;54;5;59;44;3;62;45;3;62;50;3];
 [62;39;3;62;48;3;62;37;6;76;113;3;62;49;4;63];
 [106;3;67;101;3;67;107;4;63;110;4;63;115;4;63;111];
 [3;67;97;3;67;93;3;72;108;4;69;117;4;69;126;4];
 [69;121;4;70;33;3;72;103;3;67;95;3;72;114;3;72];
 [117;4;70;35;5;72;84;3;72;111;3;78;42;5;79;83];
 [4;76;62;4;76;60;4;76;64;3;77;123;3;78;33;3];
 [78;45;3;77;118;3;77;121;4;76;58;4;76;61;4;76];
 [63;3;77;122;4;76;68;5;79;84;3;78;38;3;78;35];
 [3;82;58;4;82;73;3;82;60;4;82;71;3;82;61;3];
 [82;62;4;87;115;3;85;120;5;93;63;3;85;118;5;93];
 [70;3;85;119;4;87;110;3;85;124;3;85;123;7;58;57];
 [4;92;98;4;92;96;4;87;114;3;88;87;3;88;86;3];
 [89;41;4;96;102;4;96;99;4;96;104;4;96;98;7;71];
 [74;3;90;115;3;90;113;5;109;34;3;92;105;4;100;36];
 [3;92;106;3;92;107;3;94;79;3;94;78;4;105;42;7];
 [88;88;3;95;89;4;105;43;4;106;102;4;107;121;4;107];
 [120;7;95;51;3;96;120;4;108;124;4;108;123;4;109;119];
 [4;42;121;4;47;41;3;56;47;3;56;50;5;52;96;4];
 [52;52;3;56;48;4;52;51;4;58;40;4;70;37;3;72];
 [118;4;82;78;4;106;107;15;33;71;3;42;77;3;46;92];
 [3;46;91;3;46;89;4;42;123;4;47;42;6;58;107;4];
 [47;45;4;52;53;4;63;117;4;58;42;3;67;108;3;67];
 [109;5;65;101;3;72;122;3;72;123;4;82;79;4;87;117];
 [4;92;101;4;96;109;4;102;123;4;107;123;6;58;116;4];
 [47;46;3;49;63;4;52;56;4;52;54;4;52;55;6;67];
 [60;4;58;45;4;58;49;4;58;48;4;63;118;3;72;126];
 [4;70;39;3;72;125;4;70;40;3;72;124;4;76;73;4];
 [82;83;3;82;65;4;87;119;4;92;106;4;92;107;4;105];
 [44;3;51;64;3;51;65;4;52;58;3;56;51;4;52;59];
 [4;52;62;4;52;60;3;56;53;3;56;52;4;58;52;4];
 [58;53;5;59;58;4;58;51;3;67;112;4;63;120;3;67];
 [113;4;63;119;3;67;111;3;73;33;4;70;42;4;70;41];
 [4;70;43;4;82;85;4;82;86;3;88;94;3;88;96;3];
 [88;95;3;92;110;4;102;125;3;62;57;3;62;58;4;43];
 [39;4;43;40;4;47;56;4;43;41;3;56;56;4;63;122];
 [4;70;46;4;70;45;4;70;47;4;70;50;4;70;48;4];
 [76;79;4;87;125;4;87;122;4;87;123;4;92;112;4;103];
 [33;4;36;109;3;51;70;3;51;69;3;56;58;4;52;65];
 [4;58;57;5;65;112;3;67;116;4;70;54;4;70;52;4];
 [70;53;4;70;55;3;73;36;3;78;51;4;76;82;4;82];
 [90;3;82;66;4;82;91;4;88;33;4;88;36;4;88;35];
 [4;88;34;3;88;100;4;100;40;3;95;92;6;86;109;4];
 [35;45;6;37;73;4;36;111;4;36;110;3;42;81;6;59];
 [40;3;42;85;3;42;80;4;39;102;15;40;82;4;39;98];
 [4;39;103;4;39;99;4;39;101;5;39;88;3;42;90;3];
 [42;83;5;43;51;4;43;47;4;43;42;4;43;44;3;46];
 [98;3;46;95;6;51;125;5;43;57;3;51;81;4;47;65];
 [4;47;70;4;47;71;4;47;63;6;59;49;5;47;109;3];
 [56;70;4;52;76;4;52;72;3;56;68;4;52;75;4;52];
 [82;4;52;81;4;52;74;4;52;83;6;67;88;3;56;64];
 [3;56;63;3;56;67;4;58;73;4;58;58;3;62;63;4];
 [58;69;5;59;77;4;58;74;4;58;65;4;58;64;4;58];
 [66;4;58;61;3;62;70;4;58;63;4;58;68;4;58;75];
 [6;73;126;6;77;84;6;86;118;4;64;39;3;67;120;4];
 [64;42;4;64;35;4;64;38;3;67;122;4;63;125;4;64];
 [40;3;68;33;4;64;44;3;67;125;3;67;121;5;52;106];
 [4;64;37;4;70;69;4;70;62;4;70;60;4;70;61;4];
 [70;63;3;82;72;4;70;66;4;70;64;4;70;59;3;73];
 [41;3;73;40;4;70;56;4;70;71;4;70;65;4;76;93];
 [4;76;88;4;76;94;4;76;85;4;76;92;6;96;111;4];
 [76;84;4;76;91;4;76;95;5;66;40;4;82;99;4;82];
 [100;3;82;70;3;82;69;4;82;94;4;82;97;4;82;98];
 [4;82;102;15;81;85;5;93;91;4;88;43;4;88;40;4];
 [88;44;4;92;116;3;88;102;4;92;118;3;88;103;3;90];
 [118;4;96;116;4;96;115;5;109;44;4;100;42;4;103;34];
 [4;103;36;4;103;35;4;103;37;4;105;48;6;67;100;7];
 [66;36;3;43;68;3;68;36;4;47;74;4;52;88;4;76];
 [99;4;82;107;3;51;83;3;51;84;3;56;74;4;76;100];
 [6;97;33;3;82;75;3;94;84;4;39;111;4;43;51;4];
 [43;50;3;46;103;3;51;86;4;47;80;3;56;75;6;67];
 [113;6;67;112;3;62;74;4;58;78;4;58;79;6;77;99];
 [5;66;45;4;64;47;4;70;79;4;70;81;4;70;80;3];
 [73;44;6;97;36;5;73;44;3;78;62;4;76;104;4;76];
 [101;4;82;108;4;82;109;4;88;48;4;88;52;4;88;51];
 [3;86;37;3;86;38;5;93;103;5;92;77;4;88;50;4];
 [92;124;4;100;45;4;47;83;4;52;92;4;82;111;4;82];
 [110;4;88;53;4;92;125;4;105;51;6;37;79;3;36;55];
 [3;36;57;3;39;39;4;36;118;4;36;125;3;39;44;3];
 [42;99;3;42;103;3;42;100;3;42;106;4;39;114;3;42];
 [98;4;40;33;4;39;115;3;42;101;3;42;105;5;39;99];
 [3;42;97;3;46;109;4;43;54;3;46;112;3;46;113;3];
 [46;108;3;46;115;3;46;117;6;52;58;4;47;85;3;51];
 [97;4;47;97;3;51;100;3;51;91;3;51;94;6;59;86];
 [3;51;93;4;47;94;3;51;92;3;51;101;5;48;33;4];
 [47;89;4;47;100;3;51;96;4;52;94;4;52;108;4;52];
 [113;3;56;90;4;52;105;4;52;101;3;56;86;4;52;102];
 [4;52;98;4;52;93;4;52;99;6;68;44;3;56;76;6];
 [68;40;5;53;42;3;56;89;3;56;92;5;53;36;4;58];
 [108;4;58;96;4;58;95;4;58;100;4;58;89;5;59;86];
 [4;58;91;4;58;86;3;62;83;4;58;94;3;62;84;3];
 [62;81;4;58;92;4;58;97;3;62;85;6;78;39;3;62];
 [76;15;62;107;4;64;48;4;64;50;4;58;101;3;68;55];
 [4;70;105;4;64;71;4;64;73;4;64;58;3;68;43;3];
 [68;41;3;68;52;4;64;72;3;68;61;4;64;76;4;70];
 [101;3;73;47;4;70;87;6;97;68;4;70;100;3;73;49];
 [4;70;83;5;73;60;4;70;97;3;73;48;4;70;109;4];
 [70;96;4;70;92;3;73;52;5;73;59;6;97;88;3;73];
 [55;3;73;64;3;78;67;4;76;114;3;78;63;4;76;112];
 [4;77;36;4;76;107;3;78;65;4;76;113;3;78;83;4];
 [76;109;4;76;115;3;78;71;3;78;69;3;78;86;4;76];
 [125;3;82;81;4;76;108;3;78;74;4;76;110;3;78;72];
 [3;78;85;3;78;73;5;80;70;3;78;80;15;81;101;15];
 [81;115;15;81;118;4;77;33;4;76;111;3;78;81;4;76];
 [119;4;82;119;4;82;123;4;82;121;4;83;44;4;83;33];
 [4;82;118;3;82;83;4;83;37;3;82;87;4;82;126;3];
 [82;77;4;83;35;4;82;122;4;82;124;4;82;114;5;100];
 [45;3;82;76;4;83;34;4;82;115;3;82;78;4;83;39];
 [4;83;49;4;70;103;4;88;68;4;88;60;4;88;56;4];
 [88;66;5;93;121;4;88;54;4;88;59;3;86;46;3;86];
 [39;4;88;61;3;86;42;3;86;47;3;88;105;4;92;126];
 [4;93;43;3;88;109;3;88;112;3;88;106;3;88;113;4];
 [93;35;7;66;56;4;93;33;15;96;78;7;59;50;4;96];
 [119;3;92;115;3;91;35;4;96;120;3;91;33;3;91;36];
 [7;73;83;4;100;47;4;100;52;3;92;125;4;100;51;3];
 [92;116;7;84;104;3;92;121;4;100;50;4;100;56;3;92];
 [122;4;100;48;3;92;117;4;100;54;4;103;39;3;94;89];
 [4;103;40;15;104;57;3;95;93;4;105;55;7;88;114;3];
 [96;65;3;96;66;5;120;37;4;107;125;4;109;94;4;108];
 [125;3;97;106;4;109;121;4;109;123;15;108;108;4;110;55];
 [4;110;54;5;124;62;3;42;109;4;43;62;4;47;103;3];
 [51;103;3;51;102;3;51;104;5;53;53;3;56;98;5;59];
 [112;3;62;96;3;68;65;5;66;84;5;66;83;3;68;66];
 [3;68;67;4;77;38;4;83;54;4;93;50;5;100;59;5];
 [100;58;4;100;58;3;39;46;3;46;125;3;47;33;3;47];
 [34;4;47;105;4;47;107;6;59;105;3;56;104;3;56;103];
 [4;52;124;3;56;101;4;52;123;4;52;121;5;60;38;6];
 [68;72;4;58;114;3;62;103;4;58;116;3;62;101;5;59];
 [116;4;58;112;4;58;109;3;62;100;3;62;102;4;64;86];
 [4;64;87;3;68;75;3;68;71;4;64;91;4;58;110;4];
 [64;93;3;68;74;4;70;120;3;73;70;4;70;114;4;70];
 [115;4;70;113;4;70;117;3;73;71;4;70;112;4;70;118];
 [6;97;105;3;73;72;4;70;123;3;78;90;3;78;92;7];
 [40;66;3;78;87;3;78;88;4;77;48;3;78;91;4;70];
 [121;4;77;54;4;77;47;3;73;77;4;83;62;3;82;92];
 [7;50;115;4;83;61;4;88;77;3;82;96;7;50;117;3];
 [82;97;5;94;50;4;88;87;4;88;82;3;86;55;4;88];
 [88;4;88;79;4;88;86;3;86;56;4;88;78;3;86;50];
 [4;88;84;4;88;95;3;86;53;3;86;60;3;86;49;4];
 [93;59;5;94;53;4;93;57;3;88;114;4;97;36;5;105];
 [65;3;91;42;4;97;33;4;97;37;15;99;110;5;109;75];
 [4;100;59;4;100;60;4;100;64;4;100;62;4;100;65;3];
 [93;38;3;94;94;4;103;48;4;100;61;4;105;62;3;95];
 [94;3;95;96;3;96;68;7;89;37;7;92;94;4;106;120];
 [7;92;99;3;97;72;4;110;57;3;47;37;6;59;115;3];
 [56;105;3;68;76;4;71;35;4;77;55;4;47;111;4;58];
 [120;3;78;94;4;83;74;3;91;46;3;42;110;3;47;40];
 [4;43;70;5;48;61;4;47;114;5;48;57;4;53;42;4];
 [58;122;4;53;45;4;53;46;4;53;44;15;50;81;4;58];
 [121;3;62;113;4;53;48;3;62;110;3;62;108;3;62;107];
 [3;47;74;4;64;98;4;71;37;6;88;43;3;73;83;4];
 [71;45;5;73;108;5;73;109;4;64;102;4;71;49;4;71];
 [39;3;73;85;4;64;96;4;71;42;4;71;46;4;71;38];
 [4;71;43;3;73;90;3;73;80;3;73;91;4;77;60;4];
 [77;63;4;77;58;4;77;57;4;77;66;4;77;64;4;77];
 [71;4;83;82;4;83;85;4;83;86;3;78;99;4;83;79];
 [4;88;99;4;88;103;3;86;69;3;86;67;4;88;100;3];
 [86;62;7;59;89;3;86;68;4;88;101;3;86;65;5;100];
 [86;4;93;74;4;93;72;4;93;73;4;93;68;4;93;70];
 [4;97;42;7;67;34;4;100;67;7;80;37;3;93;39;4];
 [100;68;3;94;95;4;106;123;7;89;50;3;96;122;4;108];
 [38;3;96;121;4;109;125;5;43;71;4;47;115;4;53;49];
 [4;59;33;3;51;121;3;51;120;4;53;51;4;53;53;4];
 [59;35;5;60;53;4;59;34;3;62;115;3;68;80;3;68];
 [81;4;71;54;4;71;56;4;77;74;4;77;72;4;83;90];
 [4;83;91;5;88;50;4;83;92;5;94;67;4;88;104;4];
 [88;105;4;93;78;4;93;80;4;97;45;4;97;46;3;91];
 [48;4;97;44;4;97;48;3;94;96;3;98;60;4;53;58];
 [3;68;83;4;64;103;3;68;82;4;71;58;4;77;81;4];
 [77;76;4;77;78;4;77;83;4;77;79;4;83;100;4;83];
 [97;4;83;98;4;88;107;4;88;106;5;100;99;4;97;49];
 [4;97;52;4;100;70;4;100;71;4;109;34;3;47;43;5];
 [43;73;3;47;45;4;47;126;3;51;125;4;53;65;3;56];
 [124;3;56;120;5;53;87;4;53;68;5;53;94;3;57;36];
 [3;57;40;3;57;33;4;53;63;3;56;125;3;57;39;4];
 [53;67;5;53;93;6;68;109;3;57;38;5;53;86;4;59];
 [51;3;62;121;3;62;122;4;59;54;4;59;53;3;62;118];
 [3;62;123;3;62;119;4;59;52;4;59;42;4;59;41;4];
 [59;43;3;63;38;6;78;107;3;63;37;3;68;87;6;88];
 [65;3;68;94;4;64;110;4;64;109;4;64;108;3;68;90];
 [3;68;95;3;68;98;4;71;61;4;71;64;4;71;74;4];
 [71;60;3;73;106;4;71;70;4;71;66;3;73;97;4;71];
 [67;3;73;105;3;73;103;3;73;93;4;77;89;4;77;86];
 [4;77;92;4;77;94;3;78;104;4;77;97;4;77;88;4];
 [77;91;3;78;109;4;77;95;4;77;90;3;78;107;4;77];
 [96;7;40;121;4;77;85;3;78;113;4;83;106;3;82;108];
 [3;82;109;7;51;77;4;83;107;3;86;71;4;88;112;3];
 [86;75;3;86;76;5;94;85;4;93;90;7;74;37;4;93];
 [87;4;93;91;3;89;34;3;89;37;4;93;84;3;89;39];
 [4;97;64;5;105;82;3;91;51;4;97;59;4;97;61;4];
 [97;69;5;105;81;4;100;78;3;93;45;7;80;49;4;100];
 [76;3;93;47;4;100;72;3;93;49;4;103;61;4;103;63];
 [7;85;50;4;103;62;4;103;64;4;103;57;7;89;56;3];
 [95;99;4;105;72;5;118;76;4;43;73;4;48;35;6;78];
 [122;3;63;39;4;71;76;3;78;119;4;88;117;4;93;97];
 [4;105;76;4;53;74;3;63;40;4;64;116;4;71;78;4];
 [71;79;3;73;108;4;77;100;3;82;112;4;83;115;3;82];
 [111;4;83;114;3;82;113;4;88;118;4;88;119;3;86;78];
 [4;103;68;4;109;36;4;48;37;4;53;75;6;69;34;4];
 [53;76;15;68;116;4;77;103;4;77;101;4;77;104;4;83];
 [117;4;83;119;4;93;100;4;97;72;4;97;70;4;103;69];
 [3;95;101;3;97;76;4;109;37;4;53;80;6;69;36;3];
 [57;47;4;59;62;3;73;110;3;78;121;3;78;120;3;82];
 [114;3;86;80;3;89;44;3;89;45;4;97;74;7;74;65];
 [3;91;55;4;93;104;4;53;81;4;53;84;5;60;76;4];
 [59;63;4;59;65;3;63;46;4;59;66;6;79;41;4;59];
 [67;4;65;33;3;68;102;3;68;104;5;74;41;6;98;106];
 [3;73;111;3;78;123;3;78;124;4;77;110;4;77;108;7];
 [41;54;4;77;109;5;81;57;3;79;33;3;82;116;4;83];
 [125;4;83;121;4;83;123;4;83;122;3;82;118;7;60;51];
 [4;88;122;15;96;122;4;83;126;3;93;53;3;94;100;4];
 [107;33;5;48;75;5;67;52;4;71;89;4;71;88;4;103];
 [72;5;48;76;4;48;39;4;48;40;4;53;85;4;53;86];
 [3;57;52;3;57;54;3;63;49;4;59;69;3;63;54;3];
 [63;50;5;60;82;3;63;53;4;59;72;4;59;71;4;65];
 [38;4;65;39;5;67;60;3;68;106;4;65;40;5;67;56];
 [4;71;90;6;98;117;4;71;91;3;73;118;5;74;52;3];
 [73;119;5;74;50;3;79;39;4;77;115;4;77;113;3;79];
 [36;4;77;116;7;41;61;4;84;38;5;88;92;5;88;85];
 [3;82;120;4;88;125;4;89;37;4;88;124;5;94;109;4];
 [93;109;3;89;47;4;93;108;4;93;106;4;93;110;3;89];
 [48;4;97;77;3;93;54;4;100;85;4;100;83;4;100;86];
 [4;103;74;4;105;78;3;95;102;4;105;79;4;107;35;4];
 [108;40;4;109;39;4;43;76;3;47;47;4;48;42;3;51];
 [126;4;53;94;4;53;89;5;53;114;3;57;59;4;53;91];
 [4;53;92;4;53;93;3;57;60;5;60;99;4;59;76;4];
 [59;80;3;63;61;4;59;77;4;59;73;6;79;54;6;79];
 [60;5;60;92;4;59;74;4;59;75;4;59;79;3;63;60];
 [5;60;95;4;59;81;4;65;41;5;67;75;3;68;108;3];
 [68;110;15;69;88;5;74;62;4;71;94;4;71;97;4;71];
 [95;4;71;98;4;71;101;3;73;120;4;71;100;3;79;40];
 [3;68;111;4;77;119;4;78;34;3;79;42;7;41;78;3];
 [79;46;3;79;41;4;77;126;4;78;33;4;77;125;4;77];
 [121;4;77;120;4;77;118;3;79;45;4;78;35;4;84;46];
 [3;82;125;3;82;122;4;84;47;4;84;45;5;88;98;4];
 [84;48;3;82;121;5;94;123;4;89;43;4;89;44;4;89];
 [38;15;92;120;4;89;42;4;89;40;3;86;83;3;89;51];
 [4;93;116;4;93;120;4;93;114;4;93;117;7;74;87;4];
 [97;80;3;89;52;4;97;81;4;93;119;4;100;91;4;100];
 [90;4;103;80;4;103;76;5;116;75;4;107;36;7;92;119];
 [4;108;41;3;97;79;3;98;46;3;63;66;5;60;103;4];
 [59;82;4;59;83;3;63;65;3;68;113;3;68;112;3;68];
 [114;4;78;38;4;84;50;4;89;48;3;86;86;3;91;62];
 [4;100;95;3;96;76;4;43;77;4;43;78;15;45;83;3];
 [52;34;3;57;67;3;57;68;3;57;72;4;53;97;4;53];
 [98;3;57;69;3;57;70;3;57;66;6;69;69;3;63;72];
 [3;63;67;4;59;84;3;63;74;3;68;117;4;65;42;3];
 [68;116;6;89;36;4;65;44;4;71;102;4;71;105;4;71];
 [103;3;73;126;4;78;40;4;78;39;4;78;42;4;78;41];
 [3;83;35;5;88;114;4;84;51;4;84;52;5;81;97;3];
 [86;88;4;89;50;4;89;53;4;89;55;3;86;87;4;89];
 [49;4;93;124;4;93;123;4;93;122;5;101;53;4;93;125];
 [4;93;126;4;97;89;4;97;88;4;97;87;4;100;96;4];
 [100;97;4;103;82;15;104;83;3;95;104;3;95;103;3;96];
 [125;4;109;97;4;110;33;3;98;61;4;78;46;3;93;57];
 [4;71;107;15;76;103;3;79;56;4;100;99;7;80;86;3];
 [39;50;4;37;34;15;40;114;3;42;111;5;39;105;4;43];
 [83;4;43;80;3;52;35;4;48;45;4;48;48;3;52;36];
 [4;48;46;3;57;73;4;53;105;3;57;77;3;63;83;4];
 [59;87;3;63;78;6;79;72;3;63;82;4;65;47;3;74];
 [37;4;71;108;3;74;35;3;79;58;4;78;49;4;78;53];
 [3;79;61;3;83;42;3;83;40;3;83;41;4;89;56;4];
 [89;57;7;67;119;3;89;57;4;97;94;4;108;44;3;34];
 [95;4;35;50;3;39;54;3;39;55;3;39;56;3;42;118];
 [4;40;41;3;47;54;4;43;86;3;69;34;3;47;61;4];
 [43;84;4;43;88;3;47;57;3;47;58;6;52;109;4;48];
 [56;4;48;52;3;52;40;4;48;51;4;71;113;4;53;108];
 [4;53;110;4;53;115;4;53;107;3;57;80;4;53;112;4];
 [59;94;3;63;88;4;65;52;4;65;54;3;69;33;4;89];
 [60;4;65;56;4;71;109;4;71;110;3;74;41;3;74;40];
 [5;74;96;4;71;112;3;79;62;4;78;61;4;78;60;5];
 [88;126;5;95;60;3;96;77;4;107;38;3;47;63;3;52];
 [43;3;52;44;4;53;120;4;53;116;3;57;83;5;54;54];
 [4;53;117;4;59;96;3;63;90;3;63;91;3;63;92;4];
 [59;100;6;89;76;3;69;38;4;65;61;4;65;60;4;65];
 [63;4;65;62;4;71;115;4;71;116;4;78;63;4;78;65];
 [4;78;62;4;78;64;4;84;61;4;84;60;4;84;58;3];
 [83;46;4;84;64;4;84;59;7;52;84;3;83;48;4;89];
 [61;4;89;66;7;60;112;4;89;65;5;101;69;4;97;97];
 [4;97;100;4;97;99;4;97;98;4;97;101;4;103;90;4];
 [103;91;4;105;84;4;105;83;4;108;46;4;108;45;4;110];
 [61;4;53;122;6;60;99;3;57;90;3;63;95;3;63;100];
 [3;63;97;3;63;103;3;69;44;5;67;109;3;74;46;4];
 [71;121;3;74;54;4;71;118;4;71;123;4;71;120;3;79];
 [79;4;78;67;3;79;71;3;79;70;7;42;56;3;79;74];
 [7;42;62;3;83;51;3;83;52;4;84;72;4;84;70;7];
 [60;123;3;86;105;7;60;119;4;89;69;4;89;68;15;93];
 [76;3;89;63;3;89;65;4;94;47;4;94;44;7;68;57];
 [4;94;39;5;101;79;4;94;43;3;89;72;3;89;71;3];
 [91;70;4;97;102;3;91;75;3;91;64;3;91;82;4;97];
 [105;5;106;51;4;97;104;3;91;81;3;91;76;3;91;73];
 [15;100;52;3;93;59;4;97;108;3;93;64;4;100;102;4];
 [100;108;5;110;53;3;93;72;4;100;109;4;103;95;3;94];
 [107;4;100;105;4;103;97;3;94;108;4;103;99;7;85;104];
 [3;94;105;3;94;110;3;94;111;3;95;111;3;96;81;5];
 [113;85;7;89;103;3;95;109;7;89;104;3;95;112;5;116];
 [85;4;107;42;5;118;95;4;107;39;3;96;78;3;96;80];
 [3;97;35;3;97;33;4;108;48;3;97;36;3;97;110;6];
 [60;101;4;59;103;15;63;118;4;65;73;4;94;50;3;57];
 [91;4;53;124;3;63;106;4;59;107;3;63;110;3;63;107];
 [3;69;59;4;65;80;4;65;78;4;72;35;3;74;59;3];
 [74;63;3;74;58;5;74;110;3;74;60;7;42;70;4;78];
 [72;3;79;84;3;79;87;4;84;79;4;84;75;3;83;63];
 [4;84;76;3;83;65;3;83;67;3;83;70;3;83;69;7];
 [52;115;4;89;78;4;89;79;4;89;84;3;86;110;3;86];
 [108;4;89;77;4;89;82;4;103;102;4;100;113;5;113;91];
 [4;105;85;5;33;125;3;34;96;3;36;62;5;36;123;6];
 [41;53;4;40;49;4;40;50;3;42;122;5;43;100;4;43];
 [90;3;47;65;4;43;89;4;48;64;4;48;61;3;52;53];
 [4;48;62;3;52;55;4;48;60;3;57;99;3;57;93;4];
 [53;125;3;57;96;3;57;98;3;57;100;3;57;95;3;63];
 [111;4;59;109;3;63;116;3;69;63;3;69;62;4;65;85];
 [4;65;84;3;69;61;3;69;65;3;74;65;3;74;64;3];
 [74;67;3;74;66;3;79;89;3;79;88;7;42;84;3;83];
 [71;4;84;83;4;84;81;4;89;85;3;91;84;4;100;115];
 [4;103;103;3;52;56;4;54;36;3;63;122;3;63;118;3];
 [63;121;3;63;119;4;65;86;3;69;68;3;69;67;3;69];
 [69;3;74;72;3;79;93;3;79;92;3;83;75;3;83;74];
 [3;82;56;4;89;88;3;86;114;3;89;76;3;91;85;3];
 [93;74;3;91;86;3;93;75;4;105;86;3;97;81;3;98];
 [64;3;57;102;3;63;125;6;80;49;3;69;72;4;72;45];
 [4;72;49;4;72;46;3;74;74;4;72;52;3;74;75;4];
 [72;51;6;99;123;3;79;94;3;79;97;3;79;95;4;84];
 [89;3;83;79;3;83;78;4;89;96;3;86;115;3;86;119];
 [4;84;88;3;86;118;4;89;93;4;89;95;4;94;53;3];
 [89;77;3;89;78;4;94;54;7;68;88;7;68;96;4;97];
 [116;4;97;115;3;91;87;3;91;88;3;91;89;4;100;117];
 [3;93;77;4;105;88;4;105;90;4;105;91;3;96;88;3];
 [97;83;3;97;39;3;97;82;3;98;36;3;98;68;3;98];
 [70;4;105;92;4;54;40;4;54;42;4;59;116;4;78;76];
 [4;100;123;4;65;90;3;69;74;3;74;77;4;72;56;4];
 [72;55;4;84;93;4;84;92;4;89;98;4;100;124;4;103];
 [110;5;113;99;4;108;51;4;59;121;3;64;35;4;59;118];
 [3;69;77;4;65;93;4;65;95;3;69;76;15;70;50;6];
 [90;40;4;72;58;4;72;64;4;72;59;3;74;79;3;74];
 [80;4;72;61;4;78;79;4;84;99;4;84;97;4;84;96];
 [4;84;100;4;84;98;4;89;99;4;84;104;3;83;82;3];
 [86;124;4;89;104;4;89;100;7;61;86;3;86;121;3;86];
 [125;3;86;126;4;94;62;5;101;126;4;94;66;4;94;60];
 [5;101;115;5;101;123;4;94;59;4;94;65;3;91;92;3];
 [91;91;4;97;119;4;97;123;3;91;90;4;101;35;4;100];
 [126;5;110;73;7;86;39;7;86;37;4;103;114;4;103;112];
 [5;113;105;7;86;38;3;95;116;5;116;98;4;107;44;3];
 [96;90;4;108;52;4;109;45;3;97;84;4;109;101;3;97];
 [112;4;110;34;4;65;97;4;72;67;4;72;65;4;72;66];
 [4;72;68;3;83;84;4;89;107;7;68;119;4;94;69;3];
 [89;82;4;97;125;4;97;126;4;103;115;4;105;96;3;96];
 [91;3;69;78;3;87;33;3;91;99;3;91;98;3;93;82];
 [4;103;117;4;107;45;3;64;37;3;64;38;3;64;39;3];
 [69;81;4;84;106;4;84;105;3;89;83;4;98;34;4;98];
 [35;3;95;117;4;59;123;15;64;45;4;65;101;4;65;100];
 [5;68;52;5;75;62;4;72;77;3;74;81;4;72;78;3];
 [74;83;4;72;76;4;72;75;5;75;63;4;72;71;3;79];
 [104;4;78;89;4;78;92;5;82;96;4;84;109;4;84;111];
 [3;83;86;4;78;93;3;83;96;3;83;87;3;83;94;7];
 [53;81;3;87;37;4;89;115;7;61;105;3;87;34;4;89];
 [119;3;87;35;3;87;36;3;87;39;3;87;41;4;94;78];
 [3;89;84;4;94;73;4;94;71;4;94;75;3;89;87;3];
 [89;85;4;94;77;4;94;76;3;89;90;4;98;39;4;98];
 [41;4;98;45;4;98;38;4;98;44;3;91;100;4;98;37];
 [4;98;47;4;98;40;4;98;43;4;101;47;4;101;49;4];
 [101;48;3;93;84;4;103;119;4;103;121;4;103;118;4;103];
 [124;4;103;123;7;86;50;4;105;99;3;95;118;4;105;98];
 [4;108;57;5;120;72;3;97;85;4;54;43;4;59;126;3];
 [69;83;4;65;109;4;65;114;4;65;110;4;72;81;4;72];
 [86;4;72;89;4;72;80;4;72;84;3;74;87;4;78;96];
 [4;78;97;4;84;118;4;84;119;4;84;115;4;84;116;4];
 [84;117;4;89;125;4;90;34;4;90;33;4;89;124;4;89];
 [122;4;89;126;4;94;81;7;68;126;4;94;80;4;94;82];
 [3;89;93;3;89;94;3;89;95;4;98;50;3;91;103;3];
 [91;102;4;101;54;3;93;85;4;103;126;4;107;48;4;108];
 [58;3;87;43;3;89;96;3;52;58;4;54;44;3;64;41];
 [3;64;42;4;60;36;3;64;40;4;60;37;3;69;93;3];
 [64;44;4;65;119;4;65;116;3;74;92;3;69;94;4;65];
 [117;3;69;86;3;69;85;3;69;90;4;65;121;4;65;122];
 [3;74;88;3;74;89;4;72;91;7;43;56;3;74;90;4];
 [72;92;6;100;64;3;79;106;4;78;101;4;78;100;4;78];
 [103;4;78;102;4;84;120;4;78;105;4;84;124;4;84;125];
 [4;84;122;4;90;39;4;85;34;4;90;40;4;90;42;5];
 [96;49;3;87;45;3;89;100;5;96;44;3;87;44;4;94];
 [88;4;94;87;4;94;91;4;94;89;4;94;90;4;101;57];
 [4;98;54;3;91;104;4;101;60;4;101;59;3;93;87;3];
 [93;89;4;104;36;4;104;35;3;94;125;4;104;34;4;105];
 [103;4;105;101;3;95;119;4;105;104;4;107;49;3;97;86];
 [4;109;48;4;109;103;4;110;37;3;79;108;3;83;103;4];
 [94;95;4;98;60;4;72;93;3;87;47;4;85;38;3;87];
 [46;3;97;113;3;64;45;5;68;74;3;69;96;4;72;94];
 [3;74;101;4;72;95;3;74;95;3;74;103;3;74;104;3];
 [74;107;3;74;105;4;78;111;3;79;113;3;79;112;4;78];
 [110;3;79;111;4;78;109;4;78;112;3;83;111;3;83;110];
 [3;83;109;5;90;44;3;83;105;4;85;45;5;90;46;7];
 [54;40;4;90;46;3;87;50;3;87;53;4;90;45;3;87];
 [49;4;94;103;5;106;110;4;94;98;3;89;104;4;94;104];
 [3;89;105;4;94;99;4;94;101;3;89;108;4;98;65;4];
 [98;63;3;91;106;4;98;70;4;98;64;4;98;68;4;98];
 [69;4;101;65;4;101;64;3;93;93;3;93;91;4;101;71];
 [5;110;102;5;110;109;3;93;92;4;104;41;4;104;42;4];
 [104;43;4;104;45;3;95;35;5;114;45;4;104;40;7;90];
 [62;5;116;118;4;105;107;4;105;105;3;95;122;4;107;51];
 [4;107;52;4;107;50;3;97;43;7;96;46;7;96;45;3];
 [97;87;4;109;104;3;98;39;4;110;63;3;98;55;4;110];
 [87;3;57;105;3;64;46;4;72;98;3;74;109;3;79;117];
 [4;78;117;4;78;115;4;78;118;3;79;120;3;83;114;3];
 [83;115;4;85;48;4;85;50;4;85;47;4;85;46;3;87];
 [57;4;90;49;4;90;53;4;90;48;3;87;56;4;90;51];
 [5;102;81;4;94;110;3;91;112;4;98;72;4;98;71;4];
 [101;73;3;93;95;4;104;48;4;105;110;4;107;53;4;108];
 [62;4;109;51;3;64;48;4;66;34;4;98;74;5;116;122];
 [7;100;117;3;64;49;5;61;82;6;100;94;4;72;106;4];
 [72;105;4;72;103;3;74;116;5;75;89;4;78;123;3;79];
 [122;4;85;53;4;85;54;4;90;56;3;87;61;4;90;59];
 [4;94;112;4;94;115;3;89;110;4;94;116;4;94;118;4];
 [94;117;4;94;119;4;98;78;3;91;114;4;98;76;4;101];
 [77;4;101;79;4;101;78;7;81;121;5;114;63;3;95;38];
 [4;105;114;4;108;67;4;108;65;3;97;45;5;120;82;4];
 [109;53;7;97;106;4;109;105;4;110;73;7;81;125;5;114];
 [65;3;74;119;3;74;118;3;77;62;3;83;118;7;90;75];
 [3;97;88;3;74;121;4;79;36;4;79;37;4;85;63;3];
 [83;119;4;94;126;3;89;112;4;94;125;4;94;124;3;91];
 [115;5;102;104;3;93;101;4;105;119;4;105;118;7;90;79];
 [4;108;72;4;108;73;4;110;88;5;61;84;4;72;109;5];
 [75;100;4;79;40;4;79;52;3;80;33;7;43;106;4;79];
 [57;4;79;50;4;79;43;4;79;41;3;84;39;4;85;68];
 [4;85;66;4;85;72;3;83;126;3;84;40;4;85;65;3];
 [84;38;3;84;36;3;84;34;3;83;123;4;90;64;3;87];
 [65;4;95;33;7;62;73;4;90;66;3;89;114;4;95;35];
 [5;102;110;4;95;39;4;95;37;3;89;120;4;95;36;3];
 [89;119;4;95;41;4;95;43;4;98;93;5;107;53;4;98];
 [103;4;98;87;4;98;97;4;98;89;4;98;84;3;91;118];
 [5;107;49;4;98;98;5;107;43;4;98;96;4;98;100;3];
 [91;120;3;91;123;3;91;124;15;100;114;3;93;119;4;101];
 [85;7;82;49;4;101;91;3;93;108;7;82;51;4;101;83];
 [3;93;107;3;93;109;4;104;61;3;95;45;3;95;48;4];
 [104;60;3;95;46;3;95;43;4;104;58;3;95;41;3;95];
 [47;4;105;125;3;95;125;4;106;33;4;105;124;3;95;124];
 [4;105;126;3;96;36;4;105;123;3;96;33;15;106;63;4];
 [107;60;4;107;61;4;107;64;4;107;59;7;94;35;3;96];
 [103;3;96;100;5;120;91;5;120;86;3;97;48;4;108;77];
 [4;108;78;5;119;36;3;97;90;4;109;57;3;97;49;4];
 [110;44;4;110;45;4;110;91;3;69;101;3;74;122;3;74];
 [123;3;74;124;3;74;126;5;75;107;3;74;125;5;83;56];
 [4;79;63;3;80;35;4;79;68;4;79;59;7;43;109;4];
 [79;64;3;80;40;3;80;41;3;80;38;3;76;99;4;79];
 [65;4;85;78;3;84;47;4;85;77;3;84;48;4;85;79];
 [3;84;43;4;85;84;7;54;74;4;85;74;3;84;46;4];
 [85;87;3;87;75;4;85;75;3;84;49;4;85;85;3;84];
 [52;4;85;80;7;54;81;3;86;51;3;87;76;4;90;81];
 [3;87;71;3;87;73;3;87;70;4;90;82;3;87;78;4];
 [90;80;4;95;47;4;95;53;4;95;44;3;90;33;3;89];
 [124;4;95;50;4;95;49;5;103;38;4;95;56;4;98;106];
 [3;92;33;4;98;108;4;101;97;3;92;40;4;98;111;5];
 [107;60;4;95;54;15;100;117;3;93;120;4;101;108;3;93];
 [125;3;93;123;4;101;106;4;101;100;3;93;124;7;82;66];
 [4;101;98;4;101;107;3;93;126;3;95;52;4;104;64;4];
 [104;66;4;104;65;5;114;99;3;95;51;4;106;39;4;106];
 [44;3;96;40;4;106;38;3;96;38;3;96;39;4;107;69];
 [3;96;107;5;119;44;4;107;68;5;119;52;4;107;71;3];
 [96;106;3;96;105;4;107;72;4;108;80;4;108;82;4;108];
 [81;3;97;54;4;108;84;4;109;61;3;97;92;7;99;55];
 [3;98;42;3;98;62;4;110;89;3;98;67;4;79;71;4];
 [95;57;7;87;41;4;107;77;5;121;115;5;75;109;4;79];
 [73;4;79;74;3;80;45;3;84;56;4;85;88;7;54;92];
 [3;90;35;4;98;114;3;95;57;3;97;55;3;97;56;4];
 [72;115;4;72;116;3;75;33;4;79;77;4;79;75;4;85];
 [89;4;85;92;4;85;90;4;85;93;3;87;79;4;95;60];
 [4;95;59;3;90;39;4;98;121;4;98;118;4;98;125;4];
 [98;119;4;98;124;4;104;73;4;104;72;4;104;74;5;117];
 [77;5;117;72;4;107;78;3;97;57;7;90;125;4;109;65];
 [7;44;49;4;101;113;4;101;114;7;54;101;4;95;61;4];
 [99;33;4;101;118;4;104;75;4;107;82;4;108;90;7;44];
 [51;4;85;94;7;54;103;5;111;82;4;101;121;5;111;84];
 [4;104;76;4;104;78;4;104;77;4;106;49;4;107;85;4];
 [109;66;4;66;44;3;75;35;4;79;82;4;79;83;4;85];
 [95;4;90;95;5;97;35;5;103;64;5;103;61;4;95;63];
 [5;103;65;4;99;35;3;92;43;4;101;124;4;102;33;4];
 [101;125;5;111;88;4;104;82;3;95;59;4;107;86;4;108];
 [91;4;109;68;3;97;94;4;109;67;4;109;111;4;95;64];
 [3;92;44;4;106;55;3;97;58;4;85;97;4;108;97;4];
 [108;98;4;95;67;4;95;66;4;95;68;4;99;38;4;104];
 [89;4;85;98;4;90;99;4;95;69;4;99;39;4;104;90];
 [3;96;42;4;107;88;4;107;91;3;90;44;4;95;70;3];
 [94;35;7;82;103;5;111;97;4;104;92;4;110;49;5;123];
 [122;4;90;102;5;97;45;4;95;72;4;99;41;4;99;43];
 [4;102;39;4;102;37;4;102;38;3;95;61;4;104;97;4];
 [106;61;4;106;60;3;96;110;5;119;77;4;108;105;4;108];
 [102;4;108;106;4;109;76;4;109;75;4;109;112;3;97;118];
 [3;98;43;3;98;50;4;110;75;4;110;76;4;110;90;5];
 [117;97;5;107;105;5;108;68;4;104;98;4;104;99;4;109];
 [81;3;98;44;1;68;33;1;68;35;4;33;38;1;68;36];
 [3;33;38;3;33;37;2;33;38;1;68;55;1;68;53;1];
 [68;56;1;68;54;2;33;39;1;68;98;2;33;47;2;33];
 [45;1;68;97;1;68;96;4;33;57;1;69;98;1;69;97];
 [1;69;96;4;33;85;1;69;99;1;69;95;1;71;34;1];
 [71;35;3;34;98;3;34;97;3;34;99;4;35;53;3;36];
 [63;1;75;100;3;33;33;4;33;39;3;33;44;1;68;57];
 [1;68;99;2;33;48;4;33;58;1;68;100;2;33;67;1];
 [72;107;2;37;49;4;43;94;3;33;34;1;68;58;1;68];
 [101;1;69;100;2;33;68;3;39;64;3;33;35;4;33;34];
 [4;33;35;2;33;33;1;68;37;1;68;60;3;33;48;2];
 [33;40;1;68;61;3;33;46;1;68;102;1;69;101;1;69];
 [103;1;69;102;4;34;39;1;71;36;1;71;37;3;35;69];
 [1;75;101;3;43;34;1;83;125;1;68;34;4;33;36;2];
 [33;34;1;68;38;1;68;63;1;68;62;3;33;70;3;33];
 [69;3;34;100;1;71;38;4;34;40;3;36;64;1;75;102];
 [4;37;49;4;37;48;3;43;35;1;88;113;2;51;78;3];
 [57;108;3;57;110;1;99;42;2;65;86;2;65;87;3;33];
 [36;1;68;39;3;33;45;1;68;104;3;34;101;1;75;103];
 [1;68;40;2;33;41;1;68;64;3;33;49;1;68;105;1];
 [68;107;2;33;49;1;68;108;1;68;106;4;33;59;3;33];
 [108;3;34;102;1;71;39;1;75;104;3;36;66;3;39;66];
 [1;75;105;1;79;103;1;39;40;1;68;65;1;68;109;3];
 [33;71;1;71;40;1;71;42;1;71;41;1;72;108;1;75];
 [106;1;75;107;1;79;104;1;79;105;3;43;38;3;43;37];
 [3;43;39;3;43;36;1;83;126;4;54;46;2;65;88;3];
 [64;51;2;109;68;1;68;41;3;33;50;3;33;51;1;68];
 [111;1;68;110;2;33;50;1;68;112;1;68;118;3;33;73];
 [1;68;113;1;68;114;2;33;52;2;33;51;1;68;116;1];
 [68;117;3;33;76;1;68;115;3;33;75;3;33;74;4;33];
 [60;1;69;106;1;69;107;1;69;108;1;69;109;1;69;105];
 [1;69;112;2;33;74;4;33;91;2;33;70;2;33;73;1];
 [69;113;1;70;35;3;33;109;2;33;72;4;33;90;1;69];
 [110;1;69;111;1;69;104;3;33;114;3;33;112;2;33;69];
 [2;33;71;3;34;111;3;34;104;1;71;55;2;33;111;1];
 [71;52;1;71;56;2;33;121;2;33;109;1;71;53;2;33];
 [113;3;34;107;3;34;103;3;34;118;1;71;54;3;34;110];
 [1;71;57;4;34;45;1;71;43;2;33;112;1;71;58;2];
 [33;116;3;34;109;2;33;120;2;33;117;3;34;108;3;34];
 [116;2;33;114;1;71;44;1;71;46;1;71;59;4;34;42];
 [1;71;48;2;33;106;1;71;51;1;71;49;1;71;50;2];
 [33;122;2;33;119;2;33;110;1;71;47;3;34;112;3;34];
 [119;2;33;107;1;71;45;3;34;117;4;34;46;3;34;115];
 [2;33;115;2;33;118;3;34;114;15;33;113;2;33;108;2];
 [35;40;4;35;57;1;73;36;1;72;117;3;36;80;3;36];
 [72;2;35;41;1;72;114;3;36;79;1;73;38;3;36;70];
 [1;72;122;3;36;69;1;72;121;2;34;123;1;72;125;1];
 [72;120;2;35;34;2;35;42;3;36;78;2;35;38;3;36];
 [73;1;72;123;3;36;75;3;36;67;1;72;126;1;72;111];
 [1;73;41;2;34;125;3;36;68;3;36;76;2;37;61;1];
 [72;109;1;73;37;1;72;110;1;72;118;1;72;119;2;35];
 [36;2;34;126;1;72;124;1;72;116;2;34;122;1;72;112];
 [2;35;39;1;73;39;1;73;42;1;72;115;1;73;34;1];
 [73;40;1;72;113;2;35;37;1;73;35;2;35;43;2;34];
 [124;1;73;33;2;35;33;3;100;72;2;35;35;3;100;73];
 [1;75;121;2;37;63;2;37;75;1;75;113;3;39;71;2];
 [37;76;1;75;108;1;75;118;4;37;62;3;39;79;1;75];
 [111;2;37;57;1;75;119;2;37;56;2;37;60;2;37;67];
 [2;37;65;1;76;33;1;75;122;2;37;51;2;37;53;1];
 [75;124;1;75;112;2;37;54;2;37;66;2;37;73;1;75];
 [117;2;37;59;2;37;52;1;75;116;2;37;55;1;75;120];
 [2;37;58;3;39;68;1;75;115;3;39;81;1;75;110;3];
 [39;72;1;75;125;2;37;68;1;75;126;2;37;72;3;39];
 [67;2;37;70;2;37;74;1;75;123;2;37;62;2;37;50];
 [4;37;54;2;37;64;1;75;114;2;37;69;1;75;109;2];
 [37;71;3;39;76;3;39;73;3;39;75;3;39;74;3;39];
 [77;15;37;68;1;79;120;1;79;108;3;43;45;3;43;46];
 [2;41;34;2;41;42;3;43;54;1;79;107;1;79;115;1];
 [80;33;3;43;44;2;41;48;2;41;46;2;41;41;4;40];
 [56;4;40;62;3;43;43;1;79;109;2;41;47;2;41;37];
 [1;79;123;1;79;114;1;79;122;2;40;126;3;43;50;2];
 [41;44;3;43;47;2;41;35;1;79;118;2;41;36;3;43];
 [51;2;40;125;1;79;125;1;79;112;1;79;121;1;79;111];
 [3;43;40;2;41;33;2;41;38;3;43;41;2;41;45;1];
 [79;119;1;79;116;2;41;40;1;79;124;2;41;43;2;41];
 [39;1;79;113;1;79;126;1;79;117;1;79;110;1;79;106];
 [4;40;63;3;43;53;15;41;45;3;43;52;3;100;74;4];
 [40;61;2;41;49;1;84;58;1;84;36;3;47;72;1;84];
 [52;3;47;77;1;84;57;2;45;113;2;45;112;2;45;117];
 [2;45;118;1;84;39;3;47;68;1;84;48;3;47;88;3];
 [47;76;3;47;86;1;84;61;3;47;70;1;84;49;4;43];
 [98;3;47;75;3;47;73;3;47;71;2;45;106;1;84;42];
 [2;45;107;3;47;79;1;84;63;4;43;100;1;84;54;1];
 [84;33;1;84;34;2;45;126;1;89;36;3;47;83;1;84];
 [47;1;84;46;2;45;108;1;84;50;2;51;94;1;84;41];
 [2;45;119;1;84;56;1;84;55;1;84;45;2;45;111;2];
 [45;120;3;47;69;2;45;105;1;84;44;2;45;121;1;84];
 [53;2;45;109;1;84;35;3;47;78;1;84;38;1;84;37];
 [2;45;122;1;84;51;1;84;40;1;84;60;1;84;62;2];
 [45;116;1;84;59;3;47;81;2;45;124;2;45;110;2;45];
 [125;3;47;67;2;45;114;4;43;97;2;45;123;3;47;80];
 [2;45;115;3;47;84;3;47;85;1;84;43;3;100;75;2];
 [51;102;2;51;90;3;52;60;1;88;118;3;52;63;2;51];
 [95;2;51;101;1;88;117;2;51;88;1;88;121;2;51;92];
 [2;51;85;1;88;119;2;51;89;1;88;124;1;89;35;3];
 [52;68;2;51;106;3;52;65;2;51;84;3;52;66;1;88];
 [125;3;47;87;2;51;105;3;52;71;3;52;61;1;88;120];
 [2;51;91;1;88;116;2;51;86;2;51;82;2;51;96;2];
 [51;83;2;51;81;2;51;93;2;51;99;2;51;100;1;88];
 [122;3;52;64;4;48;71;2;58;63;2;51;97;2;51;80];
 [2;51;98;3;52;75;1;89;38;2;51;103;1;89;37;2];
 [51;79;3;52;67;2;51;87;2;51;104;1;89;33;1;88];
 [126;1;88;123;1;89;34;3;52;76;3;52;74;1;88;114];
 [3;52;69;3;52;70;1;88;115;1;94;46;3;57;117;2];
 [58;66;2;58;59;4;54;52;1;94;43;4;54;51;2;58];
 [67;3;57;113;3;57;114;4;54;54;2;58;57;2;58;60];
 [1;94;42;2;58;61;3;57;111;4;54;49;1;94;45;2];
 [58;65;4;54;60;2;58;55;2;58;54;1;94;47;3;57];
 [112;1;94;48;1;94;44;1;94;49;2;58;53;2;58;64];
 [2;58;62;2;58;56;4;54;57;4;54;48;4;54;58;1];
 [94;41;2;58;58;3;100;77;3;64;57;3;64;60;1;99];
 [49;1;99;43;2;65;92;1;99;52;2;65;98;2;65;101];
 [1;99;45;1;99;46;2;65;95;1;99;44;2;65;104;1];
 [99;50;2;65;105;3;64;58;2;65;100;1;99;51;3;64];
 [55;2;65;89;1;99;48;2;65;90;4;60;41;2;65;99];
 [2;65;97;3;64;61;2;65;93;1;99;47;2;65;91;1];
 [99;53;2;65;96;2;65;103;2;65;94;2;65;102;3;64];
 [54;3;64;62;1;103;124;1;103;121;3;69;107;1;103;122];
 [4;66;45;2;73;33;2;72;119;1;103;120;1;103;117;2];
 [72;120;3;69;110;3;69;108;1;103;119;2;72;123;3;69];
 [109;2;72;125;3;69;118;4;66;53;2;73;38;3;69;112];
 [3;69;117;2;73;37;2;72;126;1;103;116;2;72;118;1];
 [103;114;2;72;121;1;103;125;2;72;124;3;69;113;2;73];
 [34;1;103;118;1;103;115;2;73;36;2;73;35;1;103;123];
 [2;72;122;3;69;116;1;108;35;2;79;84;3;75;41;2];
 [79;81;1;108;36;4;72;121;1;108;34;3;75;43;2;79];
 [88;2;79;85;2;79;78;1;108;33;3;75;45;1;108;37];
 [2;79;79;1;107;126;1;108;40;2;79;82;2;79;83;1];
 [108;38;1;108;39;2;79;89;2;79;86;2;79;87;3;75];
 [44;3;75;39;3;100;78;1;112;51;2;86;67;1;112;48];
 [2;86;64;1;112;50;1;112;52;3;80;49;2;86;65;1];
 [112;49;4;79;90;2;86;66;3;80;53;2;86;63;3;80];
 [48;3;80;52;1;115;65;2;92;73;1;115;66;2;92;71];
 [4;85;101;2;92;72;2;92;70;2;92;69;3;84;65;3];
 [84;64;2;92;74;1;115;64;3;80;51;4;85;105;2;97];
 [68;2;97;69;3;87;82;2;79;80;2;97;67;1;115;67];
 [1;120;43;2;101;55;2;101;56;3;92;50;1;122;98;1];
 [122;99;2;107;79;2;107;78;1;123;88;1;123;87;2;110];
 [125;3;96;111;1;68;42;1;68;66;1;68;120;4;33;61];
 [1;68;119;1;69;115;1;69;114;1;71;62;1;71;61;1];
 [71;63;1;71;60;3;34;120;1;73;44;1;73;43;1;73];
 [45;3;36;84;4;35;59;3;36;83;3;36;81;1;76;35];
 [4;37;63;1;76;34;1;76;36;3;39;82;1;80;34;4];
 [40;64;1;34;121;2;46;33;1;34;122;1;89;39;1;34];
 [124;1;34;123;2;58;68;3;57;118;1;34;125;1;103;126];
 [1;34;126;3;94;37;1;68;43;3;33;52;1;68;121;1];
 [71;64;1;76;37;3;43;55;1;68;44;1;68;124;1;68];
 [122;1;68;123;1;71;65;3;34;122;4;34;52;1;73;46];
 [1;76;39;1;76;38;1;76;40;3;46;123;1;84;64;3];
 [64;63;3;100;83;1;112;53;3;33;39;4;33;62;3;33];
 [77;3;33;72;3;33;78;2;33;46;4;33;82;1;69;116];
 [1;69;117;3;33;120;3;33;121;1;71;66;4;34;54;2];
 [35;44;3;39;85;1;80;36;1;80;35;2;46;35;2;46];
 [34;1;89;40;3;33;40;1;68;125;2;33;53;3;33;122];
 [3;36;87;2;37;77;3;43;57;1;80;37;3;47;91;1];
 [84;67;3;47;89;1;84;65;1;84;66;3;47;90;3;52];
 [77;15;70;92;1;112;54;1;39;47;1;69;118;4;33;94];
 [1;71;67;2;33;123;3;34;126;3;34;125;3;34;124;3];
 [36;89;1;73;47;1;73;48;3;36;90;2;35;45;4;35];
 [61;2;37;78;1;76;41;2;37;79;4;37;64;4;37;67];
 [3;43;59;3;43;61;3;43;62;2;46;37;2;46;38;1];
 [84;70;3;47;94;2;46;39;3;47;95;2;46;36;1;84];
 [71;1;84;69;1;84;68;2;46;40;3;52;79;2;51;107];
 [3;52;78;3;57;125;3;57;122;2;58;69;4;54;63;3];
 [57;126;2;65;106;2;73;39;3;75;47;3;75;46;3;75];
 [48;1;108;41;1;112;55;2;86;68;3;84;66;1;68;45];
 [1;68;59;3;33;47;3;33;53;3;33;81;3;33;123;3];
 [35;34;15;34;89;3;36;91;3;39;89;4;37;69;1;89];
 [41;1;94;51;6;70;101;1;104;33;3;69;122;2;33;35];
 [1;68;126;4;33;96;1;69;121;1;69;119;1;69;120;1];
 [76;42;3;39;90;1;68;46;1;68;47;4;33;42;1;68];
 [67;3;33;54;3;33;82;1;69;33;1;69;34;1;69;35];
 [2;33;76;1;69;122;3;33;125;2;33;75;1;71;71;3];
 [35;37;2;33;125;1;71;69;1;71;70;2;33;124;3;35];
 [36;3;35;38;1;71;72;1;71;68;3;35;39;2;35;46];
 [1;79;79;2;35;47;3;36;95;3;36;97;2;35;48;4];
 [35;64;3;36;92;1;73;50;1;73;49;3;36;94;3;36];
 [93;1;73;53;1;73;51;1;73;52;3;36;96;1;76;48];
 [3;39;91;1;76;47;2;37;84;2;37;81;2;37;82;3];
 [39;94;2;37;80;1;76;49;1;76;45;1;76;44;3;39];
 [95;1;76;46;1;76;43;3;39;93;4;37;78;3;100;79];
 [1;76;50;1;80;39;2;41;50;3;43;63;2;37;83;1];
 [80;44;3;43;64;2;41;51;1;80;40;1;80;43;1;80];
 [42;1;80;41;1;80;38;3;43;67;2;46;43;3;47;104];
 [1;84;74;2;46;46;1;84;72;3;47;101;4;43;110;3];
 [47;98;2;46;42;1;84;75;1;84;73;1;84;76;2;46];
 [44;2;46;45;3;47;96;2;46;41;2;46;47;3;47;102];
 [3;47;97;3;47;99;15;46;45;3;47;100;3;52;80;1];
 [94;55;1;89;42;2;51;108;2;51;110;2;51;109;2;51];
 [111;1;89;43;3;58;35;1;94;52;3;58;33;1;94;53];
 [1;94;54;3;52;81;1;99;55;2;65;108;3;64;65;2];
 [65;107;2;65;109;2;65;110;1;99;56;3;64;64;1;99];
 [54;2;73;40;2;73;41;1;104;35;1;104;34;2;76;97];
 [4;73;37;3;75;49;1;108;42;1;108;43;1;108;44;1];
 [108;46;2;79;90;2;79;91;1;108;45;3;75;50;3;80];
 [54;1;112;56;4;79;100;1;112;57;3;80;55;4;85;109];
 [2;101;57;2;107;81;2;107;80;2;110;126;3;96;44;1];
 [68;48;3;33;55;3;33;84;3;33;83;1;69;124;1;69];
 [123;1;71;73;4;34;66;4;34;63;2;33;126;4;34;65];
 [3;35;40;1;73;55;1;73;56;1;73;54;1;73;57;2];
 [35;49;2;35;50;4;35;70;4;35;71;4;35;72;3;36];
 [99;3;36;98;3;39;97;5;37;58;5;37;55;5;37;56];
 [3;39;96;5;37;59;1;76;52;2;37;85;4;37;80;1];
 [76;51;3;39;98;2;41;52;1;80;48;2;41;53;1;80];
 [47;3;43;72;3;43;70;4;40;73;1;80;45;4;40;75];
 [1;80;46;3;43;71;3;47;111;2;46;48;3;47;108;3];
 [47;106;3;47;109;3;47;110;1;89;44;2;51;113;3;52];
 [82;1;89;47;2;51;112;1;91;43;1;89;46;1;89;45];
 [1;94;58;5;54;106;1;94;57;1;94;56;1;99;57;3];
 [64;69;3;64;68;1;99;60;1;99;61;1;99;59;4;60];
 [60;1;99;58;3;64;70;5;68;103;2;73;42;3;70;33];
 [2;73;43;5;68;99;3;69;126;3;75;51;2;79;93;1];
 [108;47;2;79;92;3;77;44;1;112;58;2;92;75;1;115];
 [68;5;83;98;2;101;58;1;121;97;1;39;52;1;68;68];
 [1;69;36;2;33;54;3;33;85;1;69;37;1;69;38;3];
 [33;86;15;33;48;3;34;35;3;34;34;1;69;125;1;69];
 [126;3;34;36;1;71;74;2;35;51;2;37;86;2;37;87];
 [4;37;81;1;80;49;2;46;49;1;89;49;1;89;48;2];
 [58;71;2;58;70;6;80;116;3;80;56;1;68;49;1;69];
 [39;1;70;33;4;48;94;1;89;50;2;33;36;4;33;101];
 [2;33;77;1;70;34;3;34;38;2;34;34;1;71;76;1];
 [71;75;2;34;33;1;73;58;3;100;80;3;36;101;3;43];
 [73;4;40;78;4;40;80;1;84;77;4;43;120;4;48;95];
 [2;51;114;1;99;62;2;73;44;1;104;36;3;70;35;3];
 [75;52;2;86;69;3;84;68;3;92;52;2;104;106;3;33];
 [41;1;69;40;3;33;87;3;36;102;2;37;88;2;41;54];
 [1;89;53;1;89;51;1;89;52;1;68;50;4;33;48;1];
 [68;69;1;36;63;1;69;43;3;33;89;1;69;42;1;69];
 [41;1;70;37;1;70;36;3;35;42;2;33;78;2;34;35];
 [15;34;44;3;35;43;3;35;45;1;76;56;1;76;53;1];
 [76;55;1;76;54;3;39;99;1;80;50;3;43;74;4;48];
 [96;1;94;59;4;102;48;1;68;51;3;33;90;1;69;44];
 [3;34;39;1;70;39;1;70;38;2;35;52;4;35;77;3];
 [100;81;1;76;57;3;42;92;4;48;100;3;33;42;4;33];
 [49;2;33;55;3;34;40;1;70;41;1;70;40;1;71;77];
 [1;71;78;2;35;53;1;73;59;3;36;103;1;73;60;3];
 [39;101;1;76;58;1;76;59;1;76;60;3;39;102;1;80];
 [51;2;41;55;3;43;75;4;48;101;1;84;78;3;64;71];
 [2;33;37;4;33;68;1;69;45;3;33;91;4;33;103;4];
 [33;102;3;34;41;2;34;36;3;35;47;2;35;54;2;35];
 [55;2;37;89;3;39;103;2;37;90;2;41;57;2;41;56];
 [2;41;59;2;41;58;1;80;52;3;100;82;2;51;115;1];
 [84;80;2;46;50;1;84;79;3;52;84;4;48;104;2;58];
 [72;1;94;60;3;58;40;2;58;73;3;58;39;3;64;74];
 [3;64;73;3;64;72;2;73;45;1;104;37;3;70;37;4];
 [60;64;3;70;38;3;75;53;1;108;48;3;84;69;2;101];
 [59;15;109;46;3;33;43;3;33;92;4;33;69;2;33;56];
 [3;34;42;1;70;42;4;34;72;3;35;49;4;37;89;3];
 [39;105;3;39;106;1;89;54;3;52;85;3;58;41;1;68];
 [52;1;68;70;1;69;47;1;69;46;3;33;94;1;69;48];
 [3;33;96;4;33;105;3;34;43;3;35;51;4;35;79;1];
 [76;62;3;39;107;1;76;61;1;76;63;3;43;80;3;43];
 [79;1;80;53;3;43;78;3;43;77;6;53;120;1;84;81];
 [3;64;75;2;86;70;1;118;59;1;68;71;1;70;44;1];
 [70;59;1;70;54;4;33;108;1;70;49;1;70;48;1;70];
 [55;1;70;53;1;70;46;1;70;60;1;70;47;1;70;43];
 [1;70;58;1;70;57;1;70;56;1;70;45;3;34;49;1];
 [70;52;3;34;45;3;34;46;1;70;51;3;34;47;15;33];
 [80;1;70;61;1;70;50;4;33;106;3;35;53;3;35;55];
 [1;71;84;4;34;76;1;71;90;1;71;86;3;35;57;1];
 [71;92;2;34;37;1;71;89;1;71;79;1;71;82;1;71];
 [85;1;71;81;1;71;88;1;71;91;1;71;80;1;71;83];
 [1;71;87;1;71;93;3;35;58;3;35;59;3;35;52;2];
 [35;64;2;35;61;3;36;118;1;73;73;2;35;62;1;73];
 [61;1;73;63;1;73;87;1;73;82;3;36;121;3;36;126];
 [3;36;117;2;35;69;2;35;63;1;73;65;1;73;67;2];
 [35;68;1;73;74;2;35;58;1;73;86;1;73;88;1;73];
 [62;1;73;79;3;37;36;2;35;56;1;73;85;3;36;119];
 [1;73;70;3;36;123;1;73;80;1;73;81;2;35;57;1];
 [73;78;1;73;76;3;36;112;1;73;77;1;73;83;2;35];
 [65;1;73;64;3;37;33;1;73;84;2;35;67;1;73;72];
 [1;73;69;3;36;115;2;35;60;1;73;68;2;35;70;1];
 [73;71;3;36;124;1;73;75;3;36;120;3;36;116;3;36];
 [109;1;73;66;2;35;66;3;36;125;3;37;34;2;35;59];
 [3;37;35;4;37;100;4;37;99;3;39;110;2;37;107;2];
 [37;106;1;76;81;2;37;109;2;37;111;2;37;100;2;37];
 [103;2;37;110;1;76;82;3;39;116;3;39;120;2;37;97];
 [2;37;101;3;39;117;4;37;95;2;37;105;2;41;74;1];
 [76;77;2;41;78;1;76;64;2;37;102;1;76;65;1;76];
 [78;1;76;71;1;76;67;3;39;113;2;37;98;1;76;70];
 [1;76;75;1;76;84;2;37;99;2;37;92;1;76;69;2];
 [37;93;2;37;95;4;37;96;1;76;72;3;39;108;1;76];
 [74;2;37;91;2;37;96;3;39;112;3;39;121;1;76;83];
 [1;76;79;2;37;104;1;76;85;3;39;115;1;76;76;2];
 [37;94;1;76;73;3;39;111;3;39;119;1;76;68;1;76];
 [66;2;37;108;1;76;80;15;37;113;3;43;92;3;43;93];
 [2;41;73;2;41;61;2;41;76;3;43;87;3;43;89;2];
 [41;63;1;80;60;1;80;74;1;80;56;1;80;73;1;80];
 [65;1;80;70;1;80;54;2;41;62;2;41;68;1;80;69];
 [2;41;80;1;80;71;3;43;91;1;80;61;3;43;84;3];
 [43;94;2;41;70;2;41;67;1;80;59;3;43;81;2;41];
 [60;1;80;72;2;41;75;1;80;64;2;41;77;1;80;75];
 [1;80;55;1;80;66;1;80;63;2;41;65;1;80;67;2];
 [41;71;2;41;72;1;80;62;1;80;68;1;80;58;3;43];
 [85;3;100;84;3;43;99;3;43;97;1;80;57;2;41;64];
 [3;43;83;2;41;69;3;43;88;2;41;79;2;46;70;1];
 [84;94;2;46;52;4;44;45;2;46;57;1;84;87;1;84];
 [98;2;46;55;1;84;82;1;84;92;1;84;97;2;46;62];
 [4;44;38;1;84;93;1;84;96;3;47;119;3;48;33;2];
 [46;65;1;84;88;2;46;56;3;47;116;3;47;120;3;48];
 [34;2;46;68;2;46;69;3;47;121;1;84;90;2;46;67];
 [1;84;86;1;84;101;4;44;41;2;46;59;3;47;123;1];
 [84;84;3;47;122;2;46;72;2;46;60;2;46;64;1;84];
 [89;1;84;100;2;46;61;1;84;95;2;46;66;2;46;73];
 [2;52;36;3;47;115;2;46;71;1;84;102;1;84;83;2];
 [46;63;2;46;54;3;47;118;1;84;91;4;44;40;4;44];
 [46;2;46;53;3;47;126;3;48;37;2;46;58;15;41;84];
 [15;46;66;15;46;74;2;46;51;1;84;99;3;103;33;3];
 [52;95;2;51;122;3;52;104;1;89;73;2;52;42;1;89];
 [71;1;89;68;2;52;33;1;89;64;2;52;37;1;89;75];
 [2;51;121;2;51;126;2;51;125;1;84;85;1;89;70;2];
 [52;40;3;52;102;2;52;43;2;51;118;4;48;119;1;94];
 [78;3;52;103;2;52;44;1;89;76;4;48;114;1;89;62];
 [1;89;59;2;52;35;1;89;56;4;48;116;2;52;41;3];
 [52;91;1;89;63;2;52;45;3;52;88;2;51;119;2;52];
 [39;1;89;66;2;51;120;2;51;123;2;52;34;3;52;98];
 [3;52;97;1;89;67;1;89;65;1;89;77;3;52;87;3];
 [58;54;3;52;100;4;48;107;1;89;72;3;52;94;1;89];
 [60;1;90;118;4;48;122;1;89;61;2;51;124;1;89;74];
 [1;89;69;2;52;38;1;89;58;3;52;89;1;89;57;3];
 [100;87;3;100;86;3;103;34;3;100;85;2;51;116;2;51];
 [117;2;58;78;3;58;60;1;94;61;1;94;64;2;58;89];
 [1;94;84;2;58;92;1;94;62;2;58;85;1;94;68;1];
 [94;74;1;97;67;3;58;49;3;58;56;1;94;72;2;58];
 [82;1;94;85;1;94;65;1;94;73;2;58;90;2;65;124];
 [2;58;95;2;58;83;4;54;92;2;58;74;2;58;87;2];
 [58;81;1;94;71;2;58;93;3;58;46;3;58;42;1;94];
 [67;1;94;87;1;94;80;3;58;51;1;94;69;1;94;66];
 [3;58;64;1;94;77;3;58;52;2;58;94;2;58;80;2];
 [58;86;2;58;88;2;58;76;2;58;91;1;94;63;2;58];
 [75;3;58;66;1;94;70;1;94;86;1;94;82;2;58;77];
 [1;94;76;3;58;59;15;57;113;1;94;83;1;94;79;1];
 [94;75;3;58;47;2;58;84;6;71;41;3;103;35;1;94];
 [81;2;65;122;2;65;118;3;64;81;2;66;39;2;65;111];
 [2;65;120;1;99;76;1;99;77;1;99;69;2;66;35;1];
 [99;79;2;65;116;2;65;115;2;65;113;2;66;37;1;99];
 [67;2;65;125;2;65;114;1;99;70;2;65;123;1;99;65];
 [2;65;119;2;65;126;2;66;34;3;64;78;4;60;75;2];
 [66;38;1;99;74;2;65;112;1;99;68;2;65;117;3;58];
 [43;1;99;63;6;81;67;1;99;75;2;66;33;1;99;71];
 [1;99;72;1;99;78;1;99;66;1;35;33;1;99;64;2];
 [65;121;3;64;76;3;103;37;1;99;73;3;103;36;15;64];
 [98;2;66;36;3;100;88;1;104;53;1;104;48;3;70;46];
 [2;73;60;2;73;56;3;70;40;2;73;50;1;104;42;1];
 [104;38;2;73;59;1;104;39;2;73;53;2;73;55;3;70];
 [41;2;73;58;3;70;54;1;104;44;3;70;44;1;104;51];
 [1;104;45;4;66;87;3;70;42;2;73;48;1;104;46;1];
 [104;47;2;73;51;1;104;52;3;70;52;2;73;49;2;73];
 [54;1;104;43;2;73;47;1;104;49;1;104;41;3;70;51];
 [4;66;75;1;104;40;2;73;52;2;73;57;3;70;49;1];
 [104;50;3;100;90;3;100;89;3;70;80;2;73;46;3;70];
 [48;1;108;55;2;79;110;3;75;65;2;79;107;3;75;56];
 [1;108;49;1;108;61;1;108;62;3;75;61;1;108;52;2];
 [79;105;1;108;54;2;79;97;1;108;60;3;75;68;2;79];
 [109;1;108;51;2;79;111;1;108;50;4;73;49;2;79;106];
 [2;79;108;1;108;53;2;79;104;2;79;98;2;79;95;4];
 [73;46;3;75;62;2;58;79;2;79;101;3;75;55;2;79];
 [94;2;79;100;2;79;99;3;75;59;2;79;96;3;75;67];
 [1;108;57;3;75;69;3;75;64;3;70;53;3;75;60;1];
 [108;56;3;75;57;7;33;99;3;75;63;1;108;58;2;79];
 [102;1;112;59;2;79;103;2;86;79;3;80;63;2;86;72];
 [3;80;64;1;112;71;2;86;76;1;112;63;1;112;67;2];
 [86;75;3;80;59;1;112;66;1;112;62;1;112;65;1;112];
 [60;1;112;70;2;86;77;2;86;73;1;112;69;2;86;71];
 [1;112;68;2;86;78;2;86;74;1;108;59;4;79;113;1];
 [112;72;2;86;80;1;112;64;1;112;61;15;83;93;3;80];
 [61;3;84;72;2;92;82;2;92;84;1;115;70;2;92;85];
 [2;92;83;2;92;81;2;92;80;1;115;72;2;92;79;1];
 [115;73;4;85;116;3;84;73;3;84;71;4;85;120;2;92];
 [77;2;92;78;1;115;69;1;115;74;1;115;71;3;100;93];
 [3;100;91;2;92;76;3;87;91;1;118;60;3;87;90;2];
 [97;72;2;97;70;2;97;75;2;97;73;3;87;88;2;97];
 [71;2;97;74;3;87;89;3;87;87;3;87;92;1;120;44];
 [2;101;62;2;101;63;1;120;45;4;95;77;2;101;64;2];
 [101;60;2;101;65;2;101;61;1;118;61;3;90;45;3;100];
 [94;4;99;49;2;104;107;2;104;109;1;121;100;2;104;108];
 [1;121;99;1;121;98;3;103;38;3;103;39;3;100;92;3];
 [94;38;1;121;101;2;107;83;2;107;84;4;102;52;1;122];
 [101;1;122;100;1;122;102;2;107;82;3;103;40;2;109;70];
 [2;109;69;3;95;64;1;123;89;1;123;91;1;123;90;2];
 [109;71;1;124;52;2;112;52;4;106;68;4;106;67;1;124];
 [93;3;96;113;2;112;51;2;112;124;2;33;42;3;33;119];
 [4;33;111;1;70;63;1;70;62;4;33;109;1;71;96;1];
 [71;95;2;34;39;1;71;94;2;34;38;3;35;62;1;73];
 [91;2;35;73;3;37;44;2;35;72;15;35;80;3;37;38];
 [1;73;89;1;73;92;3;37;43;3;37;42;2;35;71;3];
 [37;41;1;73;90;3;37;72;3;37;39;3;37;40;3;40];
 [34;2;37;112;3;39;125;2;37;113;1;76;86;3;39;124];
 [3;40;33;3;39;123;1;80;76;3;43;101;2;46;74;2];
 [46;75;1;84;103;1;84;104;3;48;39;2;52;47;1;89];
 [78;1;89;80;2;52;46;1;89;79;2;58;96;1;94;88];
 [3;58;68;3;58;67;4;54;104;4;60;82;1;99;80;1];
 [99;81;2;66;40;3;64;82;1;104;55;3;70;55;1;104];
 [54;2;79;112;2;86;82;2;86;81;3;95;65;2;113;90];
 [1;68;72;2;33;57;3;33;97;2;33;79;2;33;80;3];
 [34;52;4;33;112;4;33;113;1;71;99;1;71;103;2;34];
 [41;4;34;81;1;71;101;1;71;100;2;34;40;1;71;102];
 [1;71;98;3;35;65;3;35;66;1;71;97;2;34;42;3];
 [35;63;3;35;64;1;73;102;3;37;49;3;37;62;1;73];
 [99;3;37;48;1;73;95;2;35;74;3;37;64;3;37;54];
 [3;37;47;2;35;75;3;37;60;1;73;97;3;37;45;2];
 [35;77;1;73;93;2;35;78;2;35;76;1;73;96;1;73];
 [98;1;73;101;1;73;100;1;73;94;2;35;79;3;37;50];
 [3;37;65;3;37;66;3;37;51;3;37;56;3;37;55;3];
 [100;95;15;35;82;3;37;53;1;76;91;2;37;126;3;40];
 [37;1;76;93;3;40;35;1;76;92;3;40;38;2;38;33];
 [1;76;90;1;76;89;2;37;117;4;37;105;2;37;116;3];
 [40;40;2;37;114;2;37;119;2;37;118;2;37;115;2;37];
 [124;2;37;125;2;37;122;2;37;120;1;76;88;3;40;41];
 [4;37;102;4;37;104;2;37;123;1;76;94;2;38;34;4];
 [37;101;3;40;42;2;37;121;3;40;36;1;80;77;1;76];
 [87;4;37;110;15;38;51;3;100;96;1;80;78;2;41;85];
 [3;43;105;3;43;104;2;41;91;3;43;108;3;43;103;3];
 [43;106;1;80;84;2;41;89;2;41;95;3;43;113;2;41];
 [86;2;41;90;2;41;92;2;41;94;2;41;88;3;43;112];
 [2;41;87;2;41;82;2;41;83;1;80;79;3;43;107;1];
 [80;81;1;80;80;2;41;84;2;41;93;3;43;109;3;43];
 [114;3;43;110;4;40;96;15;41;106;15;41;113;3;43;102];
 [1;80;83;4;40;94;2;41;81;2;46;85;3;48;42;2];
 [46;84;2;46;89;2;46;80;3;48;48;2;46;83;2;46];
 [82;3;48;47;2;46;86;3;48;56;2;46;90;1;84;105];
 [1;84;108;3;48;52;3;48;53;2;46;81;2;46;87;3];
 [48;51;3;48;40;3;48;55;1;84;107;2;46;76;3;48];
 [43;1;80;82;2;52;61;2;46;88;3;48;54;2;46;79];
 [4;44;51;1;84;106;2;46;78;15;46;92;3;48;50;2];
 [52;52;3;52;110;3;52;113;1;89;81;1;89;85;2;52];
 [68;2;52;50;2;52;64;1;89;86;2;52;66;3;52;114];
 [2;52;72;3;52;116;2;52;76;3;52;105;4;48;123;2];
 [52;67;2;52;55;2;52;63;3;52;107;2;52;77;2;52];
 [75;2;52;65;2;52;60;2;52;53;2;58;104;2;52;51];
 [1;89;90;2;52;58;1;89;91;1;89;87;2;52;48;2];
 [52;70;2;52;56;3;52;111;3;52;117;2;52;54;2;52];
 [73;1;89;88;3;52;118;2;52;79;1;89;82;1;89;84];
 [2;52;62;2;52;57;1;84;109;1;89;83;2;52;59;2];
 [52;74;2;52;78;2;52;69;3;100;97;2;52;71;3;100];
 [98;3;100;99;2;52;49;4;54;105;3;58;74;2;58;99];
 [3;58;69;2;58;108;2;58;107;1;94;96;2;58;100;3];
 [58;71;1;94;97;1;94;95;3;58;80;2;58;102;1;94];
 [92;2;58;106;3;58;76;2;58;101;2;58;103;2;58;97];
 [1;94;90;4;54;111;2;58;116;2;58;115;2;58;112;1];
 [94;89;1;94;93;1;94;94;2;46;77;2;58;109;1;94];
 [91;1;89;89;2;58;111;2;58;98;2;58;114;2;58;113];
 [3;58;78;2;58;117;3;58;73;2;66;54;3;58;75;2];
 [58;110;15;57;125;15;57;126;4;60;87;4;54;109;4;54];
 [113;3;100;100;2;58;105;2;66;46;1;99;91;1;99;94];
 [1;99;89;2;66;45;2;66;49;2;66;44;3;64;87;1];
 [99;83;1;99;93;2;66;41;1;99;87;2;66;48;3;64];
 [91;1;99;85;1;99;84;2;66;51;1;99;86;2;66;53];
 [3;64;86;2;66;50;1;99;82;3;64;94;3;64;92;3];
 [64;88;1;99;92;2;66;55;2;66;43;2;66;52;3;64];
 [93;4;60;83;2;66;42;3;64;90;3;64;89;1;99;88];
 [3;64;84;1;99;90;2;66;47;2;66;56;3;70;67;3];
 [70;62;2;73;68;1;104;56;2;73;74;3;70;66;3;70];
 [60;1;104;61;2;73;70;2;73;77;2;73;62;1;104;63];
 [1;104;57;2;73;67;1;108;63;2;73;66;2;73;75;1];
 [104;58;3;70;61;1;104;62;2;73;65;2;73;71;2;73];
 [76;2;73;61;1;104;60;2;73;69;3;70;58;3;70;69];
 [2;73;73;2;73;79;2;73;63;2;73;72;3;70;56;1];
 [104;59;2;73;78;3;70;65;3;70;68;3;70;64;2;73];
 [64;4;66;89;3;100;101;1;108;67;2;79;114;1;108;65];
 [1;108;64;2;79;116;2;79;121;3;75;70;2;79;117;3];
 [75;80;2;79;120;1;108;70;3;75;81;1;112;46;1;108];
 [69;3;75;75;2;79;113;2;79;119;3;70;63;1;108;68];
 [2;79;118;3;75;77;2;79;115;3;75;73;1;108;66;3];
 [75;79;3;75;76;3;75;71;2;86;87;3;80;74;2;86];
 [89;2;86;84;1;112;74;2;86;86;3;80;75;1;112;73];
 [2;86;88;3;80;72;3;80;76;1;112;76;2;86;90;1];
 [112;75;2;86;83;2;86;85;3;80;73;3;84;75;1;115];
 [78;2;92;88;3;84;76;1;115;77;2;92;89;1;115;76];
 [2;92;87;1;115;75;2;92;86;1;118;63;1;118;62;2];
 [101;66;2;101;68;3;90;47;2;101;67;1;120;46;1;120];
 [47;3;90;46;7;70;69;1;120;48;2;104;110;1;121;102];
 [3;94;40;2;111;34;2;111;33;1;124;94;1;68;73;1];
 [69;49;3;35;67;1;73;103;3;37;69;3;37;67;3;37];
 [68;3;40;45;2;41;96;3;43;119;3;52;119;1;94;98];
 [1;94;99;3;58;82;2;66;57;1;104;64;2;73;80;2];
 [79;122;3;100;102;3;80;77;3;33;57;2;33;58;3;34];
 [53;3;35;68;2;35;80;3;43;122;3;43;121;3;33;58];
 [3;37;70;2;38;35;2;41;97;2;46;91;1;84;110;3];
 [70;70;3;101;96;2;101;69;4;95;82;1;122;103;1;68];
 [74;1;70;64;2;33;81;3;34;54;1;71;104;1;71;105];
 [4;34;82;1;76;95;4;37;112;3;52;121;1;89;92;5];
 [55;61;1;104;66;3;64;95;1;104;67;1;104;65;3;75];
 [83;1;68;75;4;33;73;1;69;50;1;69;52;1;69;51];
 [2;33;59;1;69;53;1;70;65;2;33;82;3;34;56;1];
 [70;66;3;34;55;4;33;114;3;34;57;4;34;83;3;35];
 [71;1;71;106;1;71;107;2;34;43;3;37;73;1;73;104];
 [4;35;98;2;35;81;4;37;117;1;76;99;2;38;36;4];
 [37;114;1;76;97;1;76;98;1;76;96;2;46;92;3;40];
 [46;3;40;47;3;100;103;1;80;88;1;80;87;1;80;89];
 [1;80;86;3;43;124;2;41;98;1;76;100;1;80;85;1];
 [84;111;1;84;112;4;44;56;1;84;113;3;52;123;2;52];
 [80;3;52;124;3;52;125;4;49;38;1;94;100;2;58;118];
 [1;89;93;3;58;83;3;58;84;4;54;121;3;64;96;1];
 [99;95;3;64;97;1;104;69;1;104;68;2;73;81;3;70];
 [72;1;108;71;1;112;77;4;79;123;2;97;76;2;109;72];
 [2;111;35;1;68;76;1;70;67;3;34;59;1;70;68;2];
 [34;49;1;71;109;1;71;112;3;35;75;2;34;47;2;34];
 [45;1;71;111;2;34;48;2;34;50;2;34;44;1;71;114];
 [1;71;113;1;71;110;1;71;108;2;34;46;3;35;77;3];
 [37;85;1;73;115;4;35;103;3;37;76;1;73;112;2;35];
 [86;2;35;89;2;35;88;4;35;105;1;73;106;1;73;114];
 [3;37;75;4;35;106;1;73;111;2;35;85;2;35;83;1];
 [73;110;3;37;86;3;37;83;3;37;78;1;73;105;1;73];
 [108;3;37;81;2;35;84;2;35;91;2;35;87;1;73;109];
 [1;73;113;1;73;116;2;35;82;2;35;90;1;73;107;3];
 [40;65;3;40;51;1;76;105;1;76;113;3;40;56;2;38];
 [48;2;38;41;1;76;114;2;38;52;2;38;37;2;38;44];
 [3;40;69;3;40;64;1;76;104;2;38;38;1;76;102;2];
 [38;45;2;38;49;1;76;101;3;40;61;2;38;50;2;38];
 [43;3;40;55;2;38;46;3;40;53;1;76;116;1;76;107];
 [2;38;53;2;38;51;3;40;63;1;76;112;1;76;110;2];
 [38;42;1;76;109;2;38;40;2;38;39;1;76;108;1;76];
 [106;1;76;115;1;76;111;1;76;103;3;44;38;2;38;47];
 [3;40;70;1;80;91;3;44;45;1;80;98;2;41;112;1];
 [80;90;2;41;104;2;41;100;3;44;33;2;41;116;2;41];
 [99;3;44;44;1;80;93;2;41;109;1;80;96;1;80;99];
 [3;44;46;1;80;94;2;41;113;1;80;97;3;44;35;1];
 [84;120;2;41;119;2;41;101;3;44;36;3;44;37;2;41];
 [103;2;41;110;2;41;114;2;41;118;2;41;115;2;41;108];
 [2;41;111;3;44;43;3;44;41;2;41;105;1;80;101;2];
 [41;107;2;41;106;2;41;117;1;80;92;2;41;102;1;80];
 [100;3;44;42;1;80;95;3;44;40;1;84;126;2;46;100];
 [3;48;64;1;84;125;3;44;39;4;44;64;2;46;98;4];
 [44;62;1;84;114;3;48;79;1;84;119;3;48;74;2;46];
 [97;2;46;94;2;46;99;1;84;115;2;46;93;3;48;78];
 [1;84;118;1;84;116;3;48;62;2;46;101;1;84;117;1];
 [84;121;3;48;59;3;48;69;1;84;122;3;48;72;1;84];
 [124;3;48;82;4;44;57;4;44;61;1;84;123;3;48;60];
 [3;53;34;3;53;56;2;46;95;2;46;96;3;48;77;6];
 [54;87;3;48;75;2;46;102;2;52;87;1;89;94;2;59];
 [38;2;52;86;2;52;105;3;53;40;3;53;36;1;89;100];
 [3;53;49;2;52;103;3;53;51;1;89;99;1;89;95;2];
 [52;112;2;52;96;2;52;99;3;53;46;1;89;103;2;52];
 [109;2;52;101;1;89;96;1;89;104;3;53;42;2;52;106];
 [2;52;104;3;53;47;3;53;59;2;52;89;2;52;110;2];
 [52;98;2;52;93;3;53;58;2;52;83;2;52;111;2;52];
 [95;2;52;82;3;53;57;1;89;102;2;52;100;2;52;113];
 [2;52;97;2;52;85;2;52;90;2;52;81;3;53;39;1];
 [89;101;3;53;60;2;52;94;2;52;91;1;89;97;2;52];
 [84;3;53;48;2;52;108;1;89;98;3;53;43;2;52;92];
 [2;52;88;3;53;41;3;53;52;2;52;107;3;53;50;15];
 [51;115;3;53;55;3;53;53;1;94;101;2;58;125;3;58];
 [117;2;58;122;2;59;45;2;59;33;2;59;46;3;58;124];
 [1;94;103;3;58;99;3;58;97;3;58;88;2;59;42;2];
 [59;39;3;58;91;3;58;119;3;58;114;3;58;89;3;58];
 [96;2;59;40;2;59;43;2;59;47;3;58;123;2;52;102];
 [2;59;49;2;66;77;3;58;102;1;94;104;2;59;50;2];
 [58;120;2;59;36;3;58;98;2;59;41;3;58;92;3;58];
 [94;1;94;102;1;94;105;2;59;48;2;59;51;2;58;124];
 [2;58;121;3;58;115;3;58;90;2;58;123;3;58;87;3];
 [58;122;2;59;34;2;58;126;1;94;106;3;58;86;2;59];
 [44;3;58;121;3;58;120;2;59;35;2;59;37;2;58;119];
 [2;66;65;2;66;63;1;99;104;1;99;102;2;66;73;2];
 [66;64;2;66;74;2;66;70;2;66;62;2;66;76;2;66];
 [61;2;66;68;1;99;101;1;99;100;1;99;99;2;66;66];
 [2;66;71;1;99;96;1;99;103;3;64;103;2;66;59;3];
 [64;102;2;66;69;2;66;58;2;66;67;1;99;97;2;66];
 [72;2;66;60;1;99;98;2;66;75;3;64;100;3;58;107];
 [3;64;106;3;100;104;3;100;105;2;73;85;1;104;74;1];
 [104;73;1;104;75;2;73;97;2;73;87;2;73;93;2;73];
 [82;2;73;96;2;73;95;2;73;99;2;73;92;1;104;70];
 [2;73;91;1;104;76;3;70;76;2;73;84;1;104;71;3];
 [70;74;2;73;98;1;104;72;2;73;86;2;73;89;2;73];
 [94;2;73;88;2;73;83;3;70;79;3;70;83;2;73;90];
 [2;79;124;1;108;75;2;80;33;2;79;126;2;80;35;2];
 [80;37;3;75;92;1;108;73;3;75;88;2;79;125;3;75];
 [84;2;79;123;3;75;94;2;80;38;2;80;36;2;80;34];
 [3;75;86;2;80;40;3;75;90;2;80;39;1;108;77;1];
 [108;72;3;75;91;1;108;74;1;108;76;3;75;93;3;75];
 [95;2;80;41;2;86;97;3;80;80;3;80;83;2;86;96];
 [2;86;95;3;80;81;2;86;98;2;86;91;3;80;79;2];
 [86;92;2;86;100;2;86;93;3;80;84;1;112;78;2;86];
 [102;3;80;78;2;86;101;2;86;94;3;80;86;2;92;93];
 [1;115;81;2;92;91;2;92;96;2;92;95;2;86;99;3];
 [84;80;1;115;80;3;84;78;2;92;94;2;92;90;2;92];
 [98;2;92;97;1;115;79;3;84;82;2;92;92;3;84;79];
 [1;112;79;3;84;81;3;84;83;1;118;64;3;90;49;3];
 [87;97;3;87;94;2;97;77;2;101;70;2;101;71;2;101];
 [72;1;121;103;4;99;52;3;92;54;1;121;104;3;92;57];
 [2;104;111;3;92;58;2;107;86;2;107;85;3;94;41;3];
 [95;66;2;109;73;2;109;74;2;111;36;2;112;53;3;96];
 [115;1;68;77;1;68;78;4;33;50;1;68;79;1;69;54];
 [1;70;69;2;34;51;1;71;115;1;71;116;1;73;119;1];
 [73;120;1;73;118;1;73;117;1;76;117;3;40;72;4;38];
 [34;2;38;54;1;76;119;1;76;118;2;38;55;4;38;35];
 [3;100;106;4;40;110;1;80;102;3;44;47;1;85;33;2];
 [46;103;2;52;115;4;49;44;1;89;105;1;94;108;2;52];
 [114;1;94;107;3;64;113;1;104;77;3;64;114;2;73;100];
 [1;112;80;3;80;87;1;115;82;2;92;99;3;90;52;1];
 [121;105;3;92;59;1;123;92;3;33;59;2;33;83;3;34];
 [61;1;70;70;2;33;84;1;71;119;3;35;80;1;71;117];
 [1;71;118;1;71;120;4;35;111;1;73;122;1;73;121;3];
 [37;90;2;35;92;1;73;123;4;38;37;2;35;93;2;38];
 [56;3;40;76;2;38;57;3;40;74;1;76;120;1;76;122];
 [1;76;124;1;76;121;1;76;125;1;76;123;3;40;78;3];
 [40;75;3;40;77;1;80;106;1;80;103;1;80;105;1;80];
 [107;1;80;104;2;46;104;2;41;120;15;42;57;3;44;50];
 [2;46;106;2;46;105;1;85;39;4;44;70;1;85;35;4];
 [44;73;6;54;102;1;85;36;1;85;38;1;85;40;1;85];
 [37;3;48;87;1;85;42;1;85;41;4;44;72;3;48;86];
 [3;48;85;15;46;126;1;89;110;2;52;117;2;52;116;1];
 [89;109;3;53;65;1;89;108;1;89;107;1;89;111;1;89];
 [106;3;53;63;2;59;57;2;59;54;1;94;110;2;59;53];
 [2;59;58;4;55;36;1;94;112;2;59;56;1;94;109;1];
 [94;111;2;59;55;3;58;126;2;66;78;3;64;116;2;66];
 [79;2;66;80;3;64;117;3;64;118;3;64;115;4;60;110];
 [1;104;78;1;104;86;2;73;101;1;104;80;1;104;84;2];
 [73;102;1;104;85;1;104;81;1;104;82;1;104;79;1;104];
 [83;1;108;80;2;59;52;1;108;81;1;108;79;4;73;68];
 [1;108;78;2;86;103;1;112;81;2;92;100;2;92;101;3];
 [90;53;4;95;85;1;120;49;1;121;106;3;94;42;1;68];
 [80;3;34;62;1;71;121;3;37;94;3;37;92;3;37;93];
 [3;40;80;1;80;108;2;46;107;1;85;43;3;48;88;3];
 [48;89;1;89;114;1;89;113;1;89;112;1;94;113;1;94];
 [114;2;59;59;1;104;87;1;112;82;1;68;81;2;33;60];
 [1;69;55;2;33;85;4;33;115;3;34;63;2;34;52;1];
 [71;122;4;34;92;3;35;82;3;40;81;1;76;126;3;44];
 [52;3;59;36;2;66;81;3;64;120;3;101;37;1;68;82];
 [4;33;75;1;69;56;2;34;53;2;35;94;4;38;41;2];
 [35;95;3;37;95;1;73;124;15;37;84;3;44;53;2;59];
 [60;1;94;115;2;66;82;4;73;73;3;84;84;1;115;83];
 [1;68;83;1;68;103;1;69;57;2;33;86;1;70;71;3];
 [35;84;1;74;34;1;74;33;1;73;125;1;73;126;2;38];
 [58;1;77;34;1;77;35;2;38;59;1;77;33;3;40;84];
 [3;40;85;1;80;112;2;41;121;1;80;111;1;80;109;1];
 [80;110;1;85;46;1;85;44;3;48;90;3;48;91;2;46];
 [109;1;85;45;2;46;108;3;100;107;1;85;34;2;52;118];
 [4;49;53;3;53;67;1;89;116;1;89;117;3;59;38;3];
 [59;37;1;89;115;3;53;68;1;104;88;2;73;103;1;108];
 [82;1;108;83;2;80;42;1;115;84;2;97;78;2;97;79];
 [3;90;56;1;122;104;2;112;54;2;33;43;1;69;58;4];
 [34;95;1;68;84;2;33;88;2;33;87;4;33;118;3;100];
 [108;3;35;85;1;71;123;2;34;55;2;34;56;2;34;54];
 [4;34;96;2;34;57;3;35;90;15;34;71;3;37;97;3];
 [37;102;2;35;103;4;35;122;2;35;98;2;35;100;2;35];
 [102;2;35;99;1;74;38;2;35;96;3;37;98;2;35;97];
 [1;74;35;1;74;36;2;35;101;2;35;104;1;74;37;2];
 [35;105;15;35;124;15;35;120;3;37;99;2;38;73;3;40];
 [93;2;38;67;2;38;62;1;77;37;2;38;70;2;38;68];
 [2;38;61;2;38;74;2;38;77;2;38;72;2;38;65;1];
 [77;39;2;38;71;1;77;40;2;38;66;2;38;69;2;38];
 [60;2;38;64;2;38;76;1;77;41;4;38;47;1;77;42];
 [3;40;94;2;38;63;2;38;75;1;77;36;1;77;38;3];
 [40;92;3;40;95;3;40;87;4;38;52;3;40;88;2;42];
 [44;2;42;37;2;42;43;2;42;36;2;42;38;2;41;126];
 [2;41;124;3;44;63;2;42;45;2;42;42;2;41;122;3];
 [44;59;1;80;114;2;42;40;2;42;41;3;100;109;2;42];
 [39;2;41;125;2;41;123;1;80;113;2;42;35;2;42;33];
 [3;44;60;3;44;66;2;42;34;2;42;46;3;44;62;3];
 [44;65;3;44;67;3;44;61;1;85;51;3;48;99;1;85];
 [50;3;48;95;2;46;110;1;85;47;2;46;112;3;48;100];
 [1;85;52;2;46;113;4;44;96;3;48;97;1;85;55;3];
 [48;98;1;85;53;2;46;114;2;42;47;2;46;116;3;48];
 [94;1;85;49;4;44;92;1;85;48;4;44;97;2;46;111];
 [2;46;115;1;85;54;1;89;119;1;89;118;3;53;75;3];
 [53;72;3;53;71;2;52;120;2;52;124;2;52;126;1;89];
 [120;2;53;35;3;53;81;1;89;124;2;53;37;3;53;82];
 [1;89;126;3;53;79;1;89;122;1;90;36;3;53;85;1];
 [90;33;2;52;122;1;89;121;3;59;43;2;52;121;2;52];
 [119;2;53;39;2;52;123;3;53;70;1;89;123;2;53;38];
 [1;90;34;2;53;34;2;53;33;1;90;35;2;52;125;1];
 [89;125;3;53;78;6;62;118;3;53;74;2;53;40;3;53];
 [84;2;53;36;2;59;75;2;59;82;2;59;71;1;94;118];
 [2;59;67;2;59;83;2;59;61;2;59;80;2;59;78;2];
 [59;72;3;59;54;2;59;81;2;59;74;3;59;40;2;59];
 [66;2;59;84;2;59;64;2;59;77;2;59;62;3;59;39];
 [2;59;85;3;59;55;1;94;119;3;59;42;2;59;79;2];
 [66;85;2;59;65;1;94;116;3;59;46;2;59;69;3;59];
 [52;1;94;117;2;59;68;2;59;73;3;59;51;4;55;53];
 [2;59;70;4;55;47;3;59;49;2;59;76;3;59;45;2];
 [66;89;4;60;121;3;65;33;4;60;123;2;66;92;2;66];
 [84;3;64;124;2;66;86;3;64;122;2;66;91;2;66;90];
 [1;99;105;4;60;117;2;59;63;2;66;88;3;64;121;3];
 [64;125;1;99;106;4;60;116;2;66;83;2;66;87;4;60];
 [124;4;60;120;3;100;110;2;73;110;3;70;92;2;73;117];
 [2;73;108;3;70;84;2;73;115;2;73;106;2;73;114;2];
 [73;118;2;73;105;2;73;109;2;73;104;3;70;86;1;104];
 [89;4;67;44;2;73;107;1;104;90;2;73;113;2;73;112];
 [2;73;111;3;70;89;3;70;90;2;73;116;3;100;111;3];
 [75;101;3;75;102;3;75;99;2;80;46;2;80;48;1;108];
 [85;2;80;49;3;75;107;2;80;44;3;75;103;2;80;43];
 [2;80;53;3;75;105;2;80;51;1;108;84;2;80;54;2];
 [80;45;2;80;50;2;80;52;2;80;47;3;75;106;3;75];
 [104;3;100;112;3;80;88;2;86;107;2;86;112;2;86;106];
 [2;86;111;3;80;91;2;86;104;2;86;114;2;86;110;2];
 [86;115;2;86;109;2;86;105;2;86;113;3;80;90;2;86];
 [116;2;86;108;3;100;113;2;92;102;1;115;88;3;84;87];
 [1;115;86;3;84;89;1;115;85;1;115;87;3;84;85;3];
 [100;114;2;97;80;3;87;98;2;100;62;2;101;73;3;90];
 [57;2;104;112;2;104;113;3;92;61;1;121;107;3;92;60];
 [2;107;87;3;92;62;1;122;105;4;102;59;2;107;88;3];
 [94;45;2;109;76;1;123;94;3;95;67;1;123;93;2;109];
 [75;1;124;53;3;96;48;2;111;37;4;107;104;4;106;70];
 [3;33;60;4;33;44;1;68;85;1;71;124;2;34;58;2];
 [35;106;1;75;86;1;90;37;3;53;87;3;75;108;1;68];
 [86;1;70;74;1;70;73;1;70;72;4;34;99;1;74;39];
 [1;85;56;2;66;93;1;68;87;1;68;88;1;68;89;1];
 [69;59;3;37;103;3;40;96;1;80;115;4;44;100;2;42];
 [48;3;44;69;3;44;68;1;94;120;1;68;90;2;33;61];
 [3;33;99;4;33;76;1;70;75;1;70;76;2;33;89;1];
 [71;125;5;34;92;3;35;92;3;37;104;2;35;107;3;37];
 [107;1;74;40;4;36;35;2;35;108;1;77;48;3;40;98];
 [3;40;97;2;38;79;1;77;46;1;77;45;2;38;78;1];
 [77;43;2;38;80;1;77;44;1;77;47;1;80;116;3;44];
 [70;1;80;118;2;42;52;2;42;49;2;42;50;2;42;51];
 [2;42;53;1;80;117;2;46;118;2;46;117;3;48;102;1];
 [85;58;3;48;105;1;85;57;3;48;104;3;48;106;3;48];
 [103;3;53;91;1;90;40;2;53;42;3;53;89;1;90;39];
 [1;90;41;1;90;38;3;53;88;3;53;90;1;94;122;2];
 [53;41;5;55;124;1;94;123;2;59;87;3;57;121;1;94];
 [124;2;59;86;1;94;121;3;59;58;3;59;59;3;59;61];
 [2;66;96;2;66;98;1;99;107;2;66;97;2;66;95;2];
 [66;94;4;61;42;4;67;53;3;70;93;2;73;121;1;104];
 [95;1;104;93;4;67;48;1;104;94;2;73;119;2;73;120];
 [3;75;109;1;104;91;2;80;58;2;80;56;3;75;112;1];
 [108;87;2;80;57;1;108;88;1;108;86;1;104;92;15;78];
 [94;3;100;115;2;86;119;2;86;117;2;86;118;2;80;55];
 [2;92;104;1;115;89;2;92;103;2;97;81;2;97;82;2];
 [86;120;2;101;74;3;102;119;1;68;91;1;70;77;1;72];
 [33;2;34;59;1;71;126;3;40;99;1;77;49;1;99;108];
 [3;33;61;1;69;60;1;70;78;1;80;119;1;94;125;3];
 [33;62;2;33;90;3;34;71;2;33;91;3;34;72;2;34];
 [60;3;102;120;1;74;42;2;35;112;2;35;110;1;74;43];
 [2;35;109;2;35;111;2;35;113;4;36;40;1;74;41;3];
 [37;110;3;37;109;1;77;53;1;77;54;1;77;51;3;40];
 [101;3;40;103;1;77;50;2;42;57;1;77;52;3;40;104];
 [1;80;120;3;44;72;2;42;56;2;42;58;2;42;55;2];
 [42;59;1;80;121;1;85;61;2;46;119;3;48;108;2;46];
 [121;1;85;59;2;46;122;1;85;60;2;46;120;3;48;107];
 [2;42;54;2;53;43;2;53;46;2;53;47;2;53;44;1];
 [90;45;1;90;44;1;90;42;1;90;43;2;53;45;3;53];
 [97;3;53;96;3;59;63;1;90;46;3;59;64;3;59;62];
 [1;95;33;1;95;34;6;72;69;1;95;35;2;66;99;2];
 [66;101;2;66;103;1;99;110;1;99;109;1;94;126;2;66];
 [102;2;66;100;3;100;116;2;73;125;3;70;97;3;70;96];
 [2;73;123;2;74;35;1;104;96;2;74;36;2;74;33;1];
 [104;97;2;73;124;2;73;122;2;74;34;1;108;90;2;80];
 [60;2;73;126;1;108;92;2;80;61;1;108;91;1;108;94];
 [2;80;62;1;108;89;1;108;93;2;86;125;2;86;123;2];
 [86;122;2;86;124;2;86;121;3;80;92;4;91;33;1;120];
 [51;3;100;117;2;104;114;2;104;115;3;92;63;2;107;89];
 [2;109;77;1;125;34;3;33;63;3;35;97;1;77;55;1];
 [74;44;3;40;105;3;40;107;1;80;122;3;44;76;3;44];
 [75;3;48;110;1;68;92;1;69;61;4;33;77;1;70;79];
 [2;34;61;3;37;111;1;74;45;2;35;114;3;40;109;2];
 [42;60;1;80;123;1;104;98;1;68;93;3;33;100;3;34];
 [73;3;35;98;1;72;34;15;34;78;3;59;66;1;99;111];
 [1;68;94;1;69;62;1;69;63;1;70;81;1;70;80;4];
 [34;107;2;34;62;1;72;35;4;34;108;2;35;115;3;37];
 [113;1;74;46;3;40;110;2;38;82;2;38;83;2;38;84];
 [3;40;112;1;77;56;1;77;57;2;38;81;1;77;58;4];
 [41;44;4;44;112;1;80;124;2;42;61;3;44;77;2;46];
 [124;1;85;62;3;48;111;2;46;123;3;53;98;1;90;47];
 [2;53;48;1;90;48;2;53;49;3;53;99;3;59;71;3];
 [59;69;1;95;36;4;55;69;3;59;68;4;61;48;2;66];
 [104;15;65;63;3;65;34;2;74;38;2;74;37;1;104;99];
 [4;73;94;1;108;95;2;80;63;1;112;83;2;86;126;1];
 [115;90;3;87;99;1;123;95;2;111;39;3;33;64;3;33];
 [65;3;34;74;3;35;81;2;38;85;3;40;113;2;42;62];
 [1;90;49;2;59;88;1;99;112;3;65;35;3;80;94;15];
 [84;67;3;87;100;1;118;65;3;97;100;3;33;66;1;74];
 [48;3;37;114;1;74;47;1;80;125;3;44;80;2;46;125];
 [1;90;51;1;93;41;1;90;52;1;90;50;1;95;37;3];
 [65;36;2;74;39;1;104;100;1;108;96;3;95;69;2;33];
 [44;2;34;63;4;34;109;2;35;117;1;74;49;2;35;116];
 [1;74;50;4;36;44;1;77;62;2;38;88;2;38;87;1];
 [77;61;1;77;59;1;77;60;2;38;86;3;40;118;3;40];
 [117;1;81;33;2;42;63;1;81;36;1;80;126;1;81;38];
 [1;81;34;1;81;35;1;81;37;4;41;49;3;48;112;3];
 [48;114;1;85;65;1;85;64;1;85;63;3;48;113;3;100];
 [118;2;53;51;1;90;53;1;90;56;1;90;54;3;100;119];
 [2;53;50;1;90;59;4;49;83;1;90;55;2;53;52;1];
 [90;58;1;90;57;4;49;82;4;49;87;4;55;74;2;59];
 [90;2;59;89;3;59;75;1;95;40;1;95;38;1;95;39];
 [2;59;91;1;99;113;2;66;106;1;99;114;2;66;105;4];
 [61;52;4;67;63;2;80;64;3;70;99;3;70;100;1;108];
 [98;2;74;40;1;108;97;3;75;114;1;104;101;3;100;120];
 [2;87;34;2;87;33;1;115;91;2;92;105;2;101;75;2];
 [104;116;2;104;117;3;94;47;1;69;64;4;33;54;1;70];
 [82;3;34;77;4;34;113;2;33;92;3;34;76;5;34;102];
 [1;74;52;1;74;54;3;37;120;2;34;66;2;35;120;2];
 [35;119;2;35;118;3;35;102;2;34;65;2;34;64;1;72];
 [37;1;74;53;1;74;51;1;72;36;3;35;103;3;35;105];
 [3;37;119;1;77;63;2;38;89;3;37;123;1;77;64;2];
 [35;125;4;38;80;2;36;33;2;35;126;2;38;90;3;37];
 [118;3;37;116;2;35;122;3;40;126;1;74;58;1;74;56];
 [3;37;124;2;35;121;2;35;123;2;36;35;3;38;34;1];
 [74;55;3;38;33;2;35;124;2;36;39;1;77;66;3;37];
 [125;2;36;36;1;74;57;3;38;35;2;36;34;2;36;37];
 [3;37;122;1;77;65;3;37;117;1;77;67;2;36;38;3];
 [40;120;3;41;34;2;38;110;2;38;97;2;38;95;2;38];
 [109;2;38;104;1;81;43;1;77;68;2;38;105;2;38;108];
 [1;81;39;2;38;107;1;77;69;1;77;74;1;77;72;2];
 [38;98;4;41;54;2;38;93;2;38;100;1;77;79;2;38];
 [111;1;81;40;2;38;101;4;38;79;1;81;41;1;77;75];
 [2;38;103;3;44;90;2;42;78;1;81;42;2;38;92;1];
 [77;76;1;81;44;1;77;77;1;77;73;1;77;78;2;38];
 [102;2;38;91;2;38;106;1;77;70;3;40;119;3;44;91];
 [2;38;94;2;38;99;2;38;96;1;77;71;3;40;122;2];
 [42;64;4;41;69;2;42;65;3;41;33;2;42;75;2;47];
 [35;2;42;76;1;81;50;2;42;79;2;42;69;1;81;49];
 [2;42;71;4;41;63;2;42;72;3;44;96;3;48;121;2];
 [42;74;1;81;45;3;44;86;3;48;115;1;85;69;3;44];
 [87;3;44;93;2;42;70;2;42;66;1;85;70;3;48;126];
 [4;41;62;2;42;80;1;85;66;2;47;33;2;42;73;3];
 [44;84;2;46;126;2;42;68;2;42;77;3;44;95;3;44];
 [97;1;81;48;1;85;67;1;81;54;1;85;68;2;42;81];
 [2;47;34;1;81;47;1;85;72;1;81;53;1;81;52;1];
 [81;51;1;85;71;2;42;82;1;85;73;1;81;46;4;41];
 [75;2;42;67;3;48;122;3;48;120;3;48;123;3;44;92];
 [3;48;118;1;90;60;2;47;38;2;47;40;4;45;37;2];
 [47;42;1;85;74;1;85;80;2;53;55;2;47;46;2;47];
 [37;1;90;62;2;53;53;3;49;34;1;85;79;1;85;77];
 [2;47;48;4;45;45;2;53;54;4;45;44;2;47;39;3];
 [49;37;1;85;78;2;47;43;1;85;81;2;47;45;3;53];
 [104;3;48;116;1;85;76;2;47;44;2;47;47;2;47;41];
 [3;49;39;1;85;75;1;90;63;3;53;113;2;47;36;1];
 [90;61;3;53;114;4;49;107;3;49;35;3;49;40;1;90];
 [64;3;49;33;3;53;111;3;49;38;2;53;57;2;53;66];
 [1;95;43;3;59;84;1;90;66;1;90;71;1;95;44;2];
 [53;68;1;90;78;2;59;93;2;53;58;1;90;70;1;90];
 [73;1;90;68;2;53;56;2;53;70;2;53;73;2;59;108];
 [4;49;104;2;53;71;2;59;97;1;90;69;1;90;76;1];
 [90;80;2;53;65;2;59;92;2;53;69;1;90;65;2;59];
 [94;2;53;72;2;59;96;2;53;61;3;53;106;1;95;41];
 [3;59;86;2;53;59;2;53;60;1;90;75;3;59;85;3];
 [53;110;1;90;74;2;53;63;1;90;79;2;53;67;1;90];
 [72;2;53;64;3;53;121;1;90;77;1;95;45;1;95;42];
 [2;59;95;3;59;88;2;53;62;3;59;89;1;90;67;3];
 [53;118;3;53;120;3;59;90;3;59;77;3;53;116;1;95];
 [50;1;95;54;2;59;99;1;99;119;1;95;52;2;59;103];
 [1;95;56;2;66;107;2;59;105;1;99;121;1;95;48;1];
 [95;51;2;59;106;3;59;94;2;59;107;2;59;113;1;95];
 [58;1;99;122;4;61;61;2;59;109;2;59;114;2;59;102];
 [1;100;38;3;59;79;1;99;123;1;95;57;2;59;100;2];
 [59;115;3;59;81;1;100;37;1;95;55;1;99;116;2;59];
 [112;3;59;93;1;95;59;2;59;104;2;59;98;1;95;49];
 [2;59;101;5;63;48;2;59;110;3;65;43;1;99;115;1];
 [99;120;1;95;46;2;59;111;3;59;97;1;99;118;3;59];
 [98;3;59;99;3;59;80;1;95;47;3;100;121;1;100;36];
 [2;74;42;2;66;118;3;65;41;2;66;110;2;74;41;4];
 [61;57;2;66;114;2;66;116;3;65;39;3;65;44;2;66];
 [113;3;70;111;1;100;35;4;61;56;2;66;112;1;100;39];
 [3;70;110;6;82;100;3;65;40;2;74;57;3;70;108;3];
 [65;46;1;100;34;1;104;103;2;66;119;2;74;43;3;70];
 [109;3;65;42;1;99;126;2;66;111;2;66;115;1;104;102];
 [1;99;117;2;66;108;2;66;109;1;104;104;1;99;125;1];
 [100;33;1;99;124;2;66;117;3;100;122;2;74;47;2;74];
 [48;2;74;53;1;108;103;2;74;60;3;75;115;1;104;110];
 [3;75;126;1;104;109;2;74;55;3;75;116;1;108;102;2];
 [74;44;1;104;108;3;70;113;2;74;59;1;104;106;1;104];
 [107;3;75;124;2;74;56;2;80;81;1;108;100;1;95;53];
 [3;70;114;2;74;58;1;108;107;2;74;50;4;73;111;1];
 [108;101;3;70;106;1;108;106;2;74;45;2;74;49;2;74];
 [46;2;74;52;1;104;111;1;108;99;1;104;105;3;76;33];
 [2;80;67;2;74;54;3;70;104;1;108;105;3;70;115;1];
 [108;108;7;34;113;2;74;51;3;70;107;1;108;104;2;80];
 [66;5;77;42;3;76;35;3;70;116;3;76;36;3;75;119];
 [2;80;71;1;112;87;2;80;65;2;87;46;2;80;80;1];
 [108;112;3;75;122;1;108;110;1;112;85;2;80;77;2;80];
 [73;1;108;116;3;75;118;2;87;37;3;80;104;3;76;40];
 [3;80;103;1;108;114;2;80;72;3;76;41;2;87;35;3];
 [76;37;2;80;76;4;80;59;2;80;79;2;80;70;3;75];
 [121;1;108;115;4;80;55;3;75;117;1;108;109;2;87;36];
 [1;112;86;2;80;78;1;108;111;1;108;113;2;80;75;1];
 [108;117;2;80;74;2;80;69;2;80;68;1;112;84;2;80];
 [82;2;87;39;2;92;107;1;112;89;3;80;97;2;87;45];
 [3;80;99;2;87;43;3;80;106;2;92;108;3;80;100;1];
 [112;90;2;87;44;3;80;102;2;87;41;1;115;93;2;92];
 [106;3;80;108;2;87;38;2;87;40;1;115;94;1;112;92];
 [1;115;92;1;112;91;1;115;96;2;87;42;1;112;88;3];
 [80;98;3;80;101;3;80;107;3;102;121;4;91;43;2;97];
 [91;4;86;51;2;97;83;3;84;97;3;84;95;3;84;92];
 [3;84;94;3;84;93;2;92;114;2;97;84;2;92;110;4];
 [86;50;3;84;91;1;118;66;2;92;112;2;92;111;1;115];
 [95;2;92;109;2;92;113;2;97;92;2;97;88;2;97;90];
 [4;95;96;2;97;85;2;97;86;4;95;97;2;97;89;2];
 [97;87;1;120;52;3;87;101;1;120;55;1;120;54;1;120];
 [53;1;121;108;2;104;118;1;121;109;2;101;76;1;122;106];
 [2;107;90;1;122;107;1;123;96;1;124;54;2;111;40;3];
 [95;70;2;111;41;2;111;42;3;97;62;2;114;42;1;69];
 [65;2;33;93;1;70;83;1;72;39;1;72;40;1;72;38];
 [3;35;107;1;72;41;1;74;60;1;74;59;3;38;37;2];
 [38;112;1;77;81;1;77;80;3;44;99;2;47;49;1;90];
 [81;1;90;82;4;49;110;4;49;112;3;59;100;1;95;60];
 [2;66;120;1;100;40;1;100;41;2;66;122;2;66;124;2];
 [66;123;4;61;67;2;74;62;3;70;118;2;74;61;1;104];
 [112;2;74;63;3;70;117;2;80;83;1;108;118;3;76;44];
 [1;112;93;3;80;109;1;115;97;1;118;67;1;115;98;3];
 [95;72;1;69;66;3;33;101;3;33;102;3;34;78;2;36];
 [40;3;38;40;3;38;41;2;38;113;1;77;83;1;77;82];
 [1;77;84;1;81;55;2;42;83;2;42;84;3;49;41;2];
 [47;50;1;85;82;1;90;83;1;95;61;2;59;116;1;69];
 [67;4;33;55;1;68;95;1;69;68;3;34;80;2;33;94];
 [1;70;87;1;70;86;1;70;84;1;70;85;3;35;111;1];
 [72;44;2;34;73;2;34;75;1;72;43;2;34;67;3;35];
 [108;2;34;68;3;35;109;2;34;74;2;34;70;2;34;72];
 [1;72;42;2;34;69;2;34;76;2;34;71;3;35;110;15];
 [34;81;1;74;67;1;74;76;1;74;74;2;36;50;2;36];
 [47;2;36;55;1;74;72;2;36;56;3;38;57;1;74;65];
 [2;36;53;3;38;46;1;74;71;2;36;49;2;36;48;1];
 [74;69;2;36;54;1;74;70;1;77;85;1;74;64;2;36];
 [51;3;38;42;2;36;41;1;74;61;3;38;55;1;74;80];
 [2;36;46;2;36;52;1;74;66;1;74;68;3;38;47;2];
 [36;42;3;38;54;2;36;43;2;36;44;4;36;57;1;74];
 [79;1;74;73;1;74;78;2;36;45;1;74;77;1;74;63];
 [1;74;62;1;74;75;3;38;53;4;36;60;3;38;51;3];
 [38;52;3;38;56;3;38;49;3;100;123;15;36;57;3;38];
 [50;3;41;49;3;41;42;1;77;99;2;38;125;2;38;118];
 [1;77;94;1;77;113;2;38;114;2;38;121;2;38;123;2];
 [38;126;1;77;108;3;41;38;2;38;122;2;38;115;1;77];
 [106;2;38;119;3;41;40;2;39;33;1;77;91;3;41;37];
 [2;38;124;1;77;101;1;77;100;2;38;117;1;77;89;3];
 [41;52;3;41;50;1;77;90;15;39;48;1;77;88;3;41];
 [51;1;77;112;1;77;104;1;77;98;1;77;86;2;38;120];
 [1;77;97;1;77;87;1;77;105;1;77;114;2;42;85;1];
 [77;102;2;38;116;1;77;92;1;77;95;1;77;96;3;41];
 [46;1;77;110;1;77;111;1;77;109;1;77;103;1;77;107];
 [1;77;93;1;81;56;3;41;48;3;41;55;3;41;53;3];
 [41;54;3;41;47;3;41;41;3;44;109;2;42;91;1;81];
 [68;1;81;60;1;81;62;1;81;67;2;42;103;1;81;65];
 [2;47;51;1;85;83;1;81;70;2;42;88;2;42;96;1];
 [81;66;2;42;95;2;42;92;2;42;100;2;42;102;1;81];
 [59;1;81;63;1;81;69;1;85;85;2;42;97;1;81;61];
 [1;81;72;2;42;90;3;44;111;3;44;112;5;41;69;1];
 [81;64;1;85;84;1;81;58;4;41;89;2;42;87;2;42];
 [94;2;42;86;2;42;89;2;42;93;2;47;52;1;81;71];
 [4;41;81;2;42;98;2;42;99;2;42;101;1;81;57;3];
 [44;108;3;49;50;3;49;51;3;44;107;3;44;110;4;41];
 [91;1;85;99;2;47;64;1;85;97;1;85;98;2;47;54];
 [2;47;70;3;49;44;1;85;88;3;49;47;3;49;53;2];
 [53;74;2;47;72;2;47;66;3;49;56;2;47;57;3;49];
 [55;2;47;75;2;47;60;1;85;94;2;53;97;2;47;63];
 [1;85;96;1;85;87;3;49;60;2;47;77;2;47;65;1];
 [85;90;2;47;58;2;47;55;2;47;56;1;85;91;2;47];
 [71;2;47;78;1;85;93;2;47;62;2;47;61;1;85;101];
 [1;85;100;1;85;86;1;85;92;1;85;95;2;47;74;3];
 [49;46;3;49;57;2;47;68;1;85;89;2;47;53;2;47];
 [76;2;47;67;2;47;69;2;47;73;3;49;48;3;49;59];
 [3;49;54;3;100;124;3;100;125;2;53;75;3;54;49;1];
 [90;91;1;90;111;1;90;110;3;54;39;1;90;99;3;54];
 [41;2;53;93;2;53;89;2;53;86;2;53;104;1;90;94];
 [1;90;86;3;54;38;3;54;50;2;53;91;1;95;77;1];
 [90;90;2;53;99;3;54;34;1;90;112;1;90;109;2;53];
 [95;2;53;78;3;53;124;3;54;43;1;90;108;2;53;101];
 [2;53;77;1;90;97;1;90;101;2;53;100;3;54;35;2];
 [53;87;1;90;102;1;90;96;2;53;76;3;53;125;1;95];
 [63;2;53;103;2;53;85;1;90;107;2;53;88;2;53;102];
 [1;90;106;3;54;36;2;59;117;4;49;119;1;90;87;2];
 [53;83;1;90;92;1;90;103;4;49;120;1;90;98;2;53];
 [92;2;53;82;2;53;80;2;53;98;1;90;84;1;90;104];
 [1;90;88;1;95;62;2;53;96;1;90;89;4;50;35;1];
 [90;85;1;90;100;1;90;95;1;90;93;2;53;84;1;90];
 [105;2;53;81;2;53;94;2;53;90;2;59;119;2;59;118];
 [3;54;45;3;100;126;3;54;46;2;53;79;2;60;41;3];
 [59;113;1;95;65;3;59;112;2;60;47;2;59;124;2;60];
 [44;2;66;125;1;95;68;2;60;48;2;60;51;1;95;67];
 [2;60;33;2;60;50;2;60;49;1;95;69;2;59;120;1];
 [95;64;1;95;72;3;59;115;1;95;70;2;60;46;4;55];
 [113;2;60;36;1;95;74;2;60;53;2;60;45;2;60;54];
 [1;95;82;1;95;80;2;60;43;2;60;42;3;59;103;2];
 [60;40;2;60;34;1;95;73;3;59;102;1;95;71;2;47];
 [59;2;59;121;3;59;104;2;67;61;2;59;122;1;95;66];
 [1;95;79;2;67;33;4;55;96;1;95;75;1;95;76;2];
 [59;123;2;60;52;2;66;126;2;60;37;2;59;126;1;95];
 [78;2;60;38;2;60;35;3;59;114;3;59;109;1;95;83];
 [4;55;111;3;59;111;3;101;33;1;100;56;3;65;73;3];
 [65;50;2;67;36;2;67;55;2;67;60;2;67;48;1;100];
 [52;2;67;65;1;100;49;2;67;34;3;65;58;2;67;35];
 [1;100;42;1;100;51;2;67;42;1;100;54;1;100;55;2];
 [67;43;3;65;56;2;67;56;2;67;62;1;100;50;3;65];
 [62;1;100;44;2;67;41;2;67;37;2;67;64;2;67;46];
 [2;67;47;2;67;38;2;67;58;2;67;49;2;67;59;2];
 [67;51;3;65;61;1;100;45;2;74;64;1;100;48;1;100];
 [46;2;67;63;2;67;54;2;67;50;3;65;54;3;65;51];
 [2;67;39;1;104;122;2;67;53;1;100;53;2;67;45;3];
 [65;52;2;67;44;3;65;72;3;71;37;3;65;66;1;100];
 [47;1;100;43;2;74;85;2;67;57;2;67;52;2;67;40];
 [3;65;68;3;65;69;3;102;118;2;74;80;3;70;120;2];
 [74;65;2;74;76;3;71;40;2;74;83;1;104;120;1;95];
 [81;2;74;81;1;104;115;3;70;126;3;71;36;3;70;122];
 [1;104;114;2;74;88;4;67;93;2;74;66;2;74;79;2];
 [74;67;2;74;78;1;104;118;2;74;82;2;60;39;3;71];
 [33;4;67;94;3;71;42;2;74;89;2;74;74;1;104;121];
 [2;80;97;1;108;119;3;71;35;2;74;87;2;74;86;1];
 [104;123;2;80;84;1;108;120;2;80;85;3;71;34;2;74];
 [70;2;74;71;2;74;68;2;74;73;2;74;69;2;74;90];
 [1;104;117;1;108;121;1;104;119;1;104;124;3;70;123;2];
 [74;72;3;71;41;2;74;84;3;76;45;3;71;38;2;74];
 [77;3;76;53;2;80;88;3;76;56;1;104;113;1;108;124];
 [2;87;53;2;80;93;2;80;92;2;80;94;3;76;48;3];
 [76;47;2;80;91;1;108;125;3;76;59;1;109;37;1;109];
 [34;3;76;49;1;109;35;2;80;86;2;80;89;2;80;99];
 [1;109;43;1;109;41;3;76;46;2;80;90;2;59;125;1];
 [108;122;2;80;96;2;80;87;3;76;62;1;109;44;2;80];
 [95;1;104;116;1;109;33;2;74;75;3;76;63;3;76;52];
 [1;109;36;3;76;61;1;109;40;1;109;42;1;109;39;1];
 [109;38;3;76;58;1;108;126;2;80;98;1;108;123;1;109];
 [45;3;76;57;3;101;34;3;76;55;1;112;97;1;112;98];
 [2;87;52;1;112;107;1;112;104;3;80;112;1;112;95;1];
 [112;102;2;87;54;1;112;100;1;112;94;3;76;50;1;112];
 [101;3;80;119;2;87;51;1;115;100;1;112;96;5;84;94];
 [1;112;103;1;115;99;2;87;50;2;87;49;3;80;118;1];
 [112;105;3;80;111;1;112;106;3;80;121;2;87;48;2;87];
 [47;1;115;101;2;87;57;1;112;99;2;87;55;3;80;117];
 [3;84;100;1;115;102;3;84;103;1;115;107;2;92;117;2];
 [92;119;3;87;107;1;115;104;3;87;109;2;92;120;2;92];
 [116;3;87;108;2;92;118;1;115;105;1;115;108;3;84;105];
 [2;92;115;1;115;103;1;115;106;1;118;69;2;87;56;1];
 [118;68;7;63;98;3;87;106;1;118;74;2;97;96;3;87];
 [112;1;118;72;1;118;73;2;97;99;2;97;95;1;118;70];
 [2;97;93;1;120;56;2;97;97;4;91;54;2;97;98;2];
 [97;94;3;87;110;1;118;71;2;101;77;3;90;59;2;101];
 [80;3;90;60;3;90;58;2;101;81;2;101;79;2;101;82];
 [1;120;57;2;101;78;3;94;49;2;104;122;1;121;111;2];
 [104;121;2;104;120;2;104;119;1;121;110;1;121;112;3;101];
 [35;2;107;91;1;122;109;1;122;108;3;95;74;3;95;75];
 [2;109;79;2;109;78;2;109;81;1;124;55;1;123;97;2];
 [111;44;2;109;80;3;95;73;3;96;50;2;111;43;1;124];
 [57;1;124;56;1;124;95;2;112;55;2;112;125;1;69;69];
 [6;35;108;3;44;114;2;60;55;2;87;58;3;33;103;3];
 [33;104;1;72;45;2;34;77;1;74;83;1;74;81;4;36];
 [63;1;74;82;4;36;62;2;39;34;1;77;115;1;81;73];
 [3;44;116;2;42;104;3;44;118;2;42;105;3;44;115;1];
 [81;74;2;47;80;4;45;67;1;85;102;1;85;103;2;47];
 [79;3;49;61;4;45;68;3;54;55;3;54;54;1;90;119];
 [4;50;43;1;90;115;4;50;47;2;53;105;1;90;122;1];
 [90;121;1;90;114;1;90;117;1;90;120;1;90;116;3;54];
 [52;2;60;59;1;90;113;1;95;84;3;59;116;3;59;117];
 [3;59;118;1;95;86;1;95;87;2;60;58;2;60;61;1];
 [95;85;2;60;56;2;60;60;2;60;57;3;65;75;1;100];
 [57;3;65;78;4;61;93;2;67;66;3;65;77;3;71;48];
 [1;104;125;2;74;91;1;112;108;1;109;46;2;80;100;1];
 [109;47;1;109;48;2;80;102;2;80;101;2;80;103;2;87];
 [60;2;87;59;2;92;122;2;92;121;1;115;109;1;115;110];
 [2;101;83;3;92;65;1;69;70;3;37;88;3;41;57;4];
 [45;71;3;49;64;2;60;62;3;54;56;3;54;57;1;95];
 [89;1;95;88;2;67;67;2;97;100;1;122;110;2;111;45];
 [1;69;71;4;36;65;1;85;104;3;49;66;1;90;124;1];
 [90;123;2;60;63;2;60;64;1;100;58;2;74;92;1;104];
 [126;2;87;61;4;86;63;1;69;72;1;70;88;3;41;59];
 [1;77;116;2;39;35;2;42;106;1;81;75;1;90;125;3];
 [54;58;2;60;65;1;95;90;1;100;59;4;61;99;2;80];
 [104;2;80;105;4;80;78;3;84;107;2;92;123;1;118;75];
 [2;112;126;1;69;73;3;41;60;2;39;36;1;77;117;1];
 [81;76;3;44;119;2;42;107;1;85;105;2;47;84;2;47];
 [82;2;47;83;1;85;106;2;47;81;3;54;60;4;50;52];
 [3;54;63;3;54;61;1;91;33;1;91;34;2;53;106;1];
 [91;35;1;90;126;2;60;66;3;59;121;2;60;67;2;67];
 [68;4;61;100;1;105;34;1;105;33;4;80;79;15;84;100];
 [2;92;124;2;97;101;3;90;63;2;101;85;2;101;84;2];
 [104;123;3;33;105;2;33;62;1;81;77;3;54;65;3;65];
 [80;1;69;74;1;70;89;3;34;81;1;72;47;1;72;46];
 [3;35;115;3;35;114;1;72;48;1;72;49;2;34;79;2];
 [34;78;2;36;57;1;74;84;2;36;60;2;36;59;2;36];
 [58;2;36;61;3;38;61;4;38;98;1;77;118;2;39;42];
 [2;39;38;2;39;47;3;41;67;3;41;62;1;77;125;3];
 [41;66;1;77;123;2;39;43;2;39;39;2;39;46;1;77];
 [122;1;78;35;2;39;41;2;39;37;1;78;34;2;39;44];
 [1;77;121;2;39;45;1;77;124;1;77;126;2;39;49;2];
 [39;48;2;39;40;1;77;120;1;77;119;1;78;33;4;38];
 [97;3;41;64;3;41;65;15;39;62;3;44;126;3;44;122];
 [2;42;112;2;42;118;3;45;35;1;81;83;1;81;80;2];
 [42;109;2;42;114;3;44;124;1;81;86;1;81;78;2;42];
 [113;1;81;81;1;81;84;3;44;121;4;41;103;2;42;116];
 [3;44;125;1;81;79;2;42;121;1;81;82;3;45;33;1];
 [81;85;2;42;110;2;42;115;2;42;119;2;42;111;2;42];
 [108;3;45;36;3;45;37;2;42;120;2;42;117;3;45;34];
 [3;44;55;3;49;70;1;85;114;1;85;107;1;85;110;3];
 [49;76;1;85;113;3;49;68;2;47;87;3;49;73;1;85];
 [108;2;47;85;3;49;72;1;85;112;3;49;77;3;49;69];
 [1;85;109;3;49;67;2;47;88;1;85;111;3;54;66;4];
 [50;57;2;53;110;1;91;37;2;53;109;2;53;111;1;91];
 [36;1;91;41;2;47;86;3;49;75;2;53;108;2;53;112];
 [3;54;68;1;91;38;2;53;107;1;91;40;3;54;69;1];
 [91;39;3;60;38;2;60;74;3;59;125;2;60;69;3;60];
 [37;1;95;91;1;95;95;1;95;92;2;60;72;2;60;75];
 [3;60;35;1;95;93;4;56;36;1;95;94;1;95;99;2];
 [67;77;2;60;73;1;95;97;2;60;70;2;60;68;3;59];
 [124;1;95;98;3;59;126;2;60;71;3;60;36;1;100;65];
 [4;61;105;2;67;69;1;100;62;1;100;63;1;100;61;2];
 [67;74;2;67;73;2;67;70;1;100;67;3;65;91;3;65];
 [86;2;67;72;1;95;96;3;65;89;3;65;81;2;67;76];
 [2;67;71;1;100;64;1;100;60;1;100;66;2;67;75;3];
 [71;52;4;67;107;3;71;53;1;105;37;4;67;111;2;74];
 [95;2;74;94;2;74;93;1;105;35;4;67;109;3;71;57];
 [3;71;51;3;71;55;1;105;36;2;80;108;2;80;111;1];
 [109;50;3;76;68;3;76;70;1;109;49;2;80;112;2;80];
 [107;1;109;52;2;80;109;3;76;65;1;109;51;2;80;106];
 [3;76;64;2;80;110;1;112;114;1;112;111;2;87;70;2];
 [87;69;3;76;67;2;87;68;2;87;63;3;80;125;2;87];
 [64;3;81;35;4;80;80;3;80;122;1;112;112;3;80;126];
 [1;112;109;1;112;113;2;87;62;1;112;110;2;87;65;2];
 [87;66;2;87;71;3;81;34;3;84;113;2;87;67;3;84];
 [111;3;84;112;2;92;125;4;86;65;3;84;108;3;84;109];
 [1;115;112;3;84;114;2;97;104;1;115;111;2;97;102;2];
 [97;103;1;118;76;1;120;59;2;101;86;3;90;67;1;120];
 [58;3;90;66;3;101;38;2;104;125;2;104;126;3;92;66];
 [1;121;113;3;92;67;2;104;124;1;122;111;4;106;76;2];
 [111;46;1;124;58;2;112;56;2;112;57;3;97;63;1;69];
 [75;4;33;124;1;72;50;1;72;51;1;74;85;3;38;65];
 [2;39;50;1;81;87;1;85;115;1;91;42;15;50;115;1];
 [89;55;1;95;100;1;95;101;1;94;50;2;60;76;3;101];
 [39;1;100;68;2;74;97;2;74;96;3;81;36;7;83;71];
 [1;69;76;1;72;52;2;39;51;1;78;37;3;41;69;1];
 [78;36;3;45;39;2;42;122;2;42;123;3;102;50;2;47];
 [89;2;47;90;1;85;116;1;85;117;3;54;72;1;85;118];
 [2;53;113;3;54;71;3;54;70;1;91;44;4;56;41;1];
 [95;103;3;60;41;1;95;102;2;67;78;2;70;65;2;74];
 [98;2;87;72;3;81;38;3;102;51;1;118;77;1;121;114];
 [1;69;77;1;70;92;1;70;93;1;70;91;1;70;94;1];
 [70;90;3;34;82;1;72;55;3;35;119;2;34;87;1;72];
 [54;1;72;56;3;35;120;3;35;117;2;34;82;2;34;81];
 [2;34;84;2;34;83;2;34;86;1;72;53;2;34;80;2];
 [34;85;15;34;88;15;34;87;3;38;72;2;36;62;1;74];
 [95;2;36;63;2;36;67;1;74;94;3;38;73;2;36;71];
 [2;36;66;2;36;69;1;74;87;1;74;88;1;74;89;1];
 [74;90;3;38;69;1;74;97;3;38;68;2;36;65;1;74];
 [92;1;74;98;3;38;71;2;36;64;2;36;70;3;38;66];
 [1;74;91;2;36;68;1;74;93;1;74;86;1;74;96;3];
 [38;74;15;36;34;4;36;70;15;36;83;1;78;58;3;41];
 [71;2;39;53;1;78;38;4;38;105;1;78;48;1;78;49];
 [1;78;41;1;78;59;1;78;43;2;39;61;1;78;54;2];
 [39;56;1;78;44;2;39;71;2;39;72;2;39;64;2;39];
 [57;1;78;57;2;39;69;1;78;52;1;78;50;3;41;82];
 [2;39;70;3;41;73;2;39;68;2;39;60;2;39;52;2];
 [39;59;1;78;45;4;38;101;1;78;51;3;41;74;1;78];
 [39;2;39;63;2;39;62;2;39;54;3;41;79;1;78;53];
 [2;39;66;2;39;55;1;78;56;2;39;73;1;78;40;3];
 [41;72;1;78;47;2;39;58;2;39;67;1;78;55;4;38];
 [103;1;78;42;1;78;46;4;38;106;2;39;65;15;39;78];
 [3;41;78;3;41;76;3;101;40;15;39;80;3;101;41;2];
 [43;61;1;81;95;1;81;108;3;45;54;2;43;56;2;43];
 [46;1;81;101;2;43;44;1;81;94;2;43;39;1;81;104];
 [2;43;52;2;43;33;2;43;35;3;45;46;4;45;89;4];
 [41;110;3;45;48;2;43;38;2;42;124;2;43;51;2;43];
 [67;1;81;99;2;43;40;2;43;58;3;45;45;2;42;126];
 [2;43;65;2;43;66;2;43;69;2;43;60;2;43;45;2];
 [43;53;1;81;105;1;81;92;1;81;100;1;81;112;1;81];
 [89;1;81;91;3;45;49;3;45;43;3;45;58;2;43;37];
 [1;81;109;1;81;102;2;43;63;2;43;34;1;81;111;1];
 [81;106;2;43;43;4;41;109;4;45;78;1;81;110;2;43];
 [50;2;43;42;1;81;103;2;43;62;2;43;54;3;45;42];
 [1;81;97;2;43;68;2;43;41;1;81;93;2;43;59;2];
 [43;49;1;81;98;2;43;55;1;81;90;2;42;125;1;81];
 [107;1;86;39;1;81;96;2;43;48;2;43;47;2;43;36];
 [3;41;81;2;43;64;3;45;52;2;43;57;3;45;50;1];
 [81;88;3;45;57;3;45;55;6;49;114;3;45;56;3;101];
 [43;3;101;42;15;43;72;2;47;110;1;86;46;2;47;111];
 [3;49;93;2;47;99;1;86;35;1;86;47;3;49;87;2];
 [47;92;3;49;83;2;47;101;2;47;109;3;49;91;2;47];
 [91;2;47;118;1;85;119;3;49;94;3;49;100;3;49;80];
 [2;47;117;2;47;112;3;49;95;2;47;113;1;86;33;1];
 [86;44;2;47;103;3;49;86;2;47;104;2;47;114;2;47];
 [105;3;49;99;2;47;100;2;47;94;2;47;95;2;47;108];
 [2;47;102;3;49;84;3;49;79;1;85;120;1;85;124;2];
 [47;116;2;47;96;1;86;42;1;86;38;3;49;90;4;45];
 [85;1;86;41;1;86;48;1;85;125;1;86;43;2;47;107];
 [1;86;45;1;85;122;3;49;89;1;85;121;2;47;93;4];
 [45;79;2;47;97;1;86;36;2;47;115;2;47;106;2;47];
 [98;1;86;40;1;86;37;3;45;47;1;85;123;1;85;126];
 [3;49;98;3;49;88;15;48;36;3;49;97;3;49;96;3];
 [101;45;3;101;44;2;54;40;3;54;85;2;53;118;2;53];
 [119;2;53;123;3;54;96;2;54;44;2;54;41;3;54;78];
 [2;54;34;2;54;33;1;91;51;2;54;37;2;54;52;2];
 [53;114;3;54;91;2;54;53;2;54;39;2;54;57;2;54];
 [45;1;91;50;2;54;43;1;91;45;1;91;66;1;91;56];
 [3;54;87;1;91;60;1;91;59;2;53;115;4;50;63;2];
 [54;50;2;54;56;2;54;48;2;54;55;3;54;81;2;54];
 [36;2;53;116;2;54;54;2;54;38;1;91;48;1;91;61];
 [3;54;90;2;54;47;1;91;54;3;54;77;3;54;92;3];
 [54;80;2;54;46;2;53;117;1;91;62;3;54;75;1;91];
 [64;2;54;49;1;91;65;1;91;47;2;53;124;2;54;51];
 [3;54;84;3;52;120;1;91;53;1;91;63;2;53;126;2];
 [54;42;2;53;121;2;53;125;1;91;58;2;53;120;1;91];
 [46;1;91;55;1;91;52;2;54;35;1;86;34;2;60;99];
 [1;91;49;3;54;76;3;54;82;3;54;94;3;54;95;15];
 [53;87;3;54;86;3;60;69;1;91;57;3;60;65;2;60];
 [102;2;60;124;2;60;113;1;95;123;3;60;56;1;95;118];
 [2;60;96;1;95;119;2;60;112;3;60;62;2;60;105;2];
 [60;118;1;95;115;2;60;78;2;60;120;1;95;105;2;60];
 [86;1;95;108;1;95;107;4;56;50;1;95;124;3;54;83];
 [2;60;80;2;60;114;2;60;115;1;95;110;1;95;106;2];
 [60;94;3;60;61;1;95;117;2;60;89;3;60;50;2;60];
 [116;1;95;113;2;60;108;2;60;121;2;60;83;2;60;88];
 [2;60;82;3;60;42;1;95;112;2;60;101;2;67;100;2];
 [60;84;1;95;116;2;60;93;2;60;117;1;95;111;2;60];
 [90;2;60;87;2;60;104;1;95;114;1;95;104;1;95;126];
 [2;60;107;2;60;106;3;60;49;3;60;66;3;60;57;3];
 [60;59;3;60;52;3;60;47;2;60;79;1;95;109;2;60];
 [119;2;60;95;2;60;97;3;60;55;2;60;110;2;60;109];
 [2;60;77;1;95;120;1;95;122;2;60;85;2;60;92;2];
 [60;100;1;95;121;2;60;91;2;60;103;2;60;122;15;59];
 [112;2;60;111;3;60;60;15;60;33;3;60;68;3;60;51];
 [2;60;123;15;60;41;3;101;47;2;60;81;15;59;110;3];
 [101;46;3;60;64;2;67;120;1;100;76;3;65;101;2;67];
 [118;2;67;97;2;67;102;2;67;95;3;65;119;2;67;114];
 [2;67;81;2;67;88;4;61;113;2;67;112;2;67;122;2];
 [67;98;3;65;104;2;67;85;2;67;104;2;67;109;2;67];
 [89;3;65;107;2;67;106;2;67;86;3;65;93;3;65;117];
 [2;67;93;2;67;94;1;100;78;2;67;113;2;67;111;3];
 [65;115;2;67;82;2;67;116;3;65;116;2;67;117;2;67];
 [119;1;100;82;1;100;74;3;65;111;2;53;122;2;67;90];
 [2;67;108;2;67;91;1;100;71;1;100;87;2;67;115;1];
 [100;85;1;100;81;2;67;80;1;100;73;3;65;121;2;67];
 [83;1;100;86;3;65;120;2;67;99;2;67;79;3;65;118];
 [1;100;79;2;67;103;2;67;87;1;100;80;2;67;96;1];
 [100;70;1;95;125;2;67;105;2;60;98;2;67;84;4;61];
 [108;3;65;109;2;67;110;1;100;75;2;67;107;1;100;72];
 [2;67;101;1;100;83;2;67;92;2;67;121;3;65;106;3];
 [65;123;15;66;73;15;66;71;1;100;77;2;69;44;3;65];
 [114;1;100;84;15;66;40;15;66;60;2;74;112;2;74;110];
 [3;71;58;2;75;38;2;74;108;3;71;61;2;74;126;1];
 [100;69;1;105;40;2;74;104;2;75;37;3;71;81;2;74];
 [109;2;74;123;1;105;45;1;105;38;3;71;78;2;75;35];
 [3;71;70;2;74;102;2;75;34;3;71;71;1;105;56;2];
 [74;119;2;75;41;1;105;54;2;74;111;1;105;39;2;74];
 [113;2;75;33;1;105;48;2;74;106;1;105;52;1;105;42];
 [2;74;115;2;74;105;2;74;99;3;71;62;2;74;125;1];
 [105;49;2;75;40;2;74;100;1;105;46;4;67;119;2;74];
 [121;4;67;121;1;105;47;2;74;107;2;74;118;2;74;114];
 [2;74;116;3;71;67;1;105;41;2;75;39;1;105;55;2];
 [74;117;3;71;59;2;75;42;4;68;39;3;71;60;2;74];
 [101;2;74;122;1;105;44;1;105;53;1;105;51;2;74;103];
 [2;74;124;1;105;50;3;71;69;3;71;72;1;105;43;2];
 [74;120;3;71;77;3;71;68;4;68;40;3;76;84;2;75];
 [36;3;71;76;2;80;124;3;71;66;2;80;120;2;80;116];
 [2;81;42;2;81;39;1;109;55;3;76;100;3;76;96;2];
 [81;46;2;80;123;1;109;66;2;81;36;3;76;79;3;76];
 [81;2;80;119;2;81;35;1;109;63;2;81;55;4;74;61];
 [2;81;52;2;81;38;2;80;117;3;76;95;3;76;87;2];
 [81;43;2;81;45;1;109;59;2;81;33;2;80;122;2;80];
 [113;1;109;56;1;109;64;4;74;72;2;81;48;1;109;65];
 [2;80;114;2;81;54;2;81;41;2;81;47;1;109;62;3];
 [76;77;3;76;80;2;81;44;3;76;71;2;81;51;3;76];
 [91;1;109;67;3;76;86;1;109;61;2;81;37;2;80;118];
 [2;81;56;2;80;115;2;81;49;1;109;58;3;76;74;2];
 [80;125;3;76;73;2;80;126;1;109;57;1;109;54;2;80];
 [121;1;109;60;3;76;82;1;109;53;3;76;98;2;81;50];
 [2;81;53;2;81;34;2;87;85;3;76;94;3;76;89;15];
 [79;66;3;76;97;3;101;48;2;87;77;3;81;44;2;87];
 [73;1;113;33;3;81;60;3;81;56;1;112;116;1;112;121];
 [1;112;117;2;87;87;2;87;98;1;112;115;2;87;79;2];
 [87;88;2;81;40;2;87;89;3;81;40;3;81;43;1;112];
 [122;3;81;64;2;87;104;1;112;126;1;113;35;2;87;75];
 [3;81;59;1;112;125;3;81;49;2;87;102;2;87;103;2];
 [87;93;2;87;92;2;87;84;3;81;41;3;81;62;2;87];
 [94;2;87;101;2;87;100;3;81;47;1;112;120;1;112;118];
 [2;87;86;2;87;83;3;81;68;2;87;80;2;87;99;1];
 [113;34;2;87;97;1;112;124;1;112;123;3;81;39;2;87];
 [91;4;74;75;2;87;74;2;87;76;2;87;78;2;87;96];
 [2;87;90;1;112;119;3;81;46;2;87;81;3;81;50;2];
 [87;95;3;81;65;3;81;58;15;84;123;2;87;82;3;101];
 [49;15;85;41;3;101;50;3;84;117;1;115;120;2;93;49];
 [1;115;113;2;93;34;3;84;123;2;93;45;1;115;115;2];
 [93;52;3;85;33;2;93;41;3;84;124;2;93;36;3;84];
 [118;4;86;69;2;93;53;2;92;126;2;93;43;3;85;39];
 [1;115;122;2;93;48;2;93;54;2;93;42;1;115;114;2];
 [93;44;2;93;33;1;115;121;3;85;35;3;84;122;2;93];
 [51;2;93;38;1;115;117;3;85;36;2;93;40;2;93;37];
 [1;115;123;2;93;39;1;115;116;1;115;119;2;93;47;2];
 [93;35;2;93;50;3;84;120;2;93;46;3;85;41;3;87];
 [116;1;118;79;2;97;115;1;118;84;1;118;85;3;87;119];
 [3;88;33;3;87;118;1;118;78;2;97;114;3;87;120;2];
 [97;111;2;97;112;1;118;82;2;97;106;2;97;110;1;118];
 [81;3;87;126;2;97;107;3;87;121;3;88;35;3;87;125];
 [3;87;122;1;118;83;1;118;80;3;88;34;2;97;105;2];
 [97;109;2;97;113;3;87;123;3;101;51;2;101;92;2;101];
 [89;2;101;98;3;90;68;2;101;97;2;101;95;2;101;90];
 [3;90;79;1;120;63;3;90;69;3;90;78;4;95;113;3];
 [90;71;3;90;77;2;101;91;1;120;62;1;115;118;2;101];
 [94;1;120;61;2;101;99;2;101;93;2;101;88;2;97;108];
 [3;90;72;3;90;70;1;120;60;3;101;52;2;101;87;2];
 [105;36;3;92;73;2;105;35;2;101;96;1;121;115;3;87];
 [117;2;105;39;2;105;40;2;105;34;2;105;38;4;99;80];
 [2;105;33;3;92;71;3;101;53;4;99;78;2;107;95;2];
 [105;37;1;122;114;1;122;112;2;107;93;3;94;53;3;94];
 [52;3;94;51;2;107;96;3;94;55;2;107;92;2;107;94];
 [1;122;113;3;95;79;3;95;78;2;109;83;2;109;84;1];
 [123;98;2;109;82;15;105;76;3;101;54;3;101;55;2;111];
 [49;1;124;59;2;111;47;2;111;48;2;112;58;3;96;116];
 [15;107;81;1;125;35;2;113;35;2;113;33;2;113;34;2];
 [113;36;3;97;64;3;97;101;3;97;65;2;114;43;1;69];
 [78;1;72;57;3;35;121;1;78;60;4;38;113;2;39;74];
 [3;41;83;3;41;84;2;43;70;4;41;114;3;45;60;3];
 [49;102;2;47;119;2;47;121;3;49;101;2;47;120;3;49];
 [103;2;47;122;1;91;67;2;54;59;2;47;123;3;54;98];
 [2;54;58;2;54;60;2;54;61;2;60;125;1;96;34;2];
 [60;126;2;61;34;1;96;35;1;96;33;2;61;33;3;65];
 [125;2;68;34;2;67;126;2;67;125;3;65;124;2;67;124];
 [2;67;123;1;100;88;2;68;33;1;105;57;2;75;43;2];
 [75;45;1;105;58;2;75;44;1;109;69;3;76;102;1;109];
 [68;2;81;57;3;76;101;3;76;103;2;87;106;2;87;105];
 [2;87;107;3;81;70;3;81;69;1;113;36;15;85;57;2];
 [93;55;1;115;124;3;85;43;2;97;116;1;118;86;2;101];
 [100;1;123;99;1;69;79;1;70;95;1;72;58;1;74;99];
 [1;78;61;1;78;62;3;41;85;3;41;86;1;81;113;3];
 [45;61;3;49;104;2;47;124;3;60;73;3;60;71;4;68];
 [45;3;65;126;1;100;89;3;66;33;3;71;83;4;74;78];
 [2;82;89;1;113;37;1;118;87;1;69;80;3;34;83;1];
 [72;59;4;38;118;2;39;76;1;78;63;2;39;75;3;41];
 [88;2;43;71;1;81;114;2;43;72;5;41;105;1;81;115];
 [2;47;126;1;86;50;1;86;49;3;49;106;2;54;66;2];
 [54;64;2;54;65;2;54;63;3;54;100;2;54;62;2;61];
 [35;2;61;38;1;96;37;2;61;36;1;96;36;2;61;37];
 [2;68;35;3;66;34;4;68;49;2;75;46;2;75;47;2];
 [75;48;3;71;84;2;81;60;2;81;59;1;109;70;2;81];
 [58;2;81;61;2;87;108;4;80;109;5;91;114;2;87;109];
 [2;87;110;4;86;82;2;93;56;1;115;125;1;118;88;2];
 [101;101;1;122;115;2;33;63;3;41;89;1;81;116;2;43];
 [73;1;86;51;4;50;78;4;50;80;1;91;68;3;54;101];
 [1;96;38;2;61;39;3;60;75;1;100;91;1;100;90;3];
 [66;38;2;75;49;2;75;50;1;109;71;1;109;72;2;87];
 [112;2;87;111;2;97;117;2;111;50;1;69;81;2;33;64];
 [1;70;96;3;35;122;1;74;100;2;36;72;3;41;90;1];
 [81;117;1;100;92;1;69;82;2;43;74;1;81;118;2;43];
 [75;1;115;126;1;69;83;3;101;56;3;101;57;2;39;77];
 [2;43;76;3;45;66;2;48;37;2;48;36;2;48;34;3];
 [49;110;2;48;33;2;48;38;2;48;35;3;49;108;3;49];
 [109;1;91;69;1;91;70;3;54;102;1;96;39;2;61;40];
 [4;56;78;2;61;41;2;61;42;3;60;77;15;60;60;3];
 [101;58;2;68;39;2;68;40;2;68;38;3;66;40;2;68];
 [36;2;68;37;1;100;93;2;75;51;2;81;64;2;81;63];
 [2;81;62;2;81;65;2;87;114;2;87;113;1;113;38;2];
 [87;115;1;116;33;2;93;57;3;85;45;2;97;118;2;101];
 [102;2;109;85;1;69;84;1;70;98;1;70;97;4;35;33];
 [1;78;64;2;33;65;2;33;95;1;72;60;2;34;88;2];
 [36;73;2;36;74;1;78;65;3;41;93;2;39;78;3;101];
 [59;1;81;119;2;43;77;2;43;78;1;86;52;1;86;56];
 [2;48;39;1;86;55;1;86;53;1;86;54;2;54;67;1];
 [91;71;1;96;42;3;60;78;1;96;40;1;96;41;2;61];
 [43;3;66;41;3;66;42;1;105;59;1;69;85;2;33;96];
 [3;34;87;1;70;99;3;34;84;2;33;99;3;36;33;1];
 [70;102;2;33;98;1;70;101;1;70;100;1;74;101;2;33];
 [97;3;34;88;3;34;89;2;34;89;15;33;102;2;34;93];
 [2;34;95;2;34;96;1;72;70;1;72;71;2;34;92;1];
 [72;66;3;35;125;2;34;90;3;36;37;2;34;94;1;72];
 [67;3;38;85;1;72;62;3;35;124;1;72;63;3;36;35];
 [1;72;69;2;34;91;1;72;61;1;74;102;1;72;64;1];
 [72;65;1;72;68;15;34;93;3;101;60;2;36;91;2;36];
 [89;2;36;76;1;74;114;2;36;83;1;74;109;2;36;77];
 [3;41;100;2;36;85;3;38;80;2;36;82;1;74;112;2];
 [36;81;1;74;119;2;36;90;1;74;121;3;38;83;1;74];
 [123;3;35;126;2;36;75;3;38;87;1;74;110;2;36;92];
 [3;38;81;1;74;117;1;74;120;3;38;76;2;39;101;1];
 [74;104;1;75;33;1;74;118;2;36;78;1;74;107;1;74];
 [122;2;36;86;1;74;105;1;74;106;2;39;99;2;36;79];
 [1;74;113;1;74;124;2;36;93;2;36;80;1;74;111;3];
 [38;77;1;74;116;2;39;79;1;74;125;2;36;87;1;74];
 [115;3;41;99;1;74;126;1;74;103;2;36;84;1;74;108];
 [2;36;88;2;39;100;3;38;78;3;38;82;3;38;92;3];
 [38;89;3;38;86;15;36;104;3;38;91;1;78;77;1;78];
 [93;2;39;86;1;78;84;3;45;78;2;39;107;1;78;69];
 [3;41;107;1;78;72;2;39;98;4;39;38;2;39;84;2];
 [39;88;1;78;80;1;78;82;2;39;91;1;78;89;1;78];
 [75;1;78;73;1;78;74;1;78;88;2;39;103;1;78;83];
 [2;39;90;2;39;92;1;78;81;1;78;86;2;39;93;2];
 [39;106;3;41;109;1;81;120;1;78;92;4;38;125;1;78];
 [70;2;39;105;3;41;108;2;39;109;2;39;89;2;39;111];
 [2;39;96;1;78;79;2;39;85;1;78;78;1;78;96;1];
 [78;85;3;41;106;2;39;83;2;43;87;1;78;91;1;78];
 [95;2;39;97;2;39;102;3;41;101;1;78;97;1;78;90];
 [1;78;76;1;78;66;3;41;105;1;78;71;4;38;123;2];
 [39;87;1;78;67;2;39;110;3;41;103;2;39;81;2;39];
 [80;2;39;94;2;39;82;1;78;94;1;86;57;1;78;87];
 [2;39;95;1;78;68;3;45;79;1;82;41;2;39;108;3];
 [45;70;2;43;94;2;43;97;3;45;80;2;43;100;2;43];
 [89;3;45;72;3;45;74;2;43;103;2;43;106;2;43;108];
 [2;43;86;1;81;121;1;81;126;2;48;44;1;82;48;2];
 [43;101;2;43;109;2;43;93;2;43;85;3;45;73;3;45];
 [71;3;45;77;2;48;71;1;82;35;2;43;98;2;43;90];
 [2;43;92;1;82;40;3;49;122;2;43;95;1;82;34;2];
 [43;82;2;43;104;3;45;75;2;43;107;3;45;69;3;45];
 [87;1;81;125;3;45;83;1;82;43;2;43;79;1;82;45];
 [1;81;123;1;82;49;2;43;105;2;43;81;1;82;46;2];
 [48;65;2;39;104;1;82;33;1;81;122;2;43;88;2;43];
 [80;1;82;47;1;82;39;2;43;99;1;82;44;1;82;42];
 [2;43;91;1;82;36;2;43;83;1;82;37;1;82;38;2];
 [43;84;2;43;102;1;81;124;2;43;96;4;42;33;3;45];
 [85;3;45;81;3;49;119;3;49;115;2;48;47;1;86;65];
 [1;86;70;3;49;121;3;50;38;3;49;118;2;48;56;2];
 [48;62;2;48;58;2;48;45;2;48;48;2;48;41;2;48];
 [42;1;86;77;1;86;62;2;48;57;2;48;66;1;86;72];
 [1;86;58;3;49;111;1;86;67;2;48;49;1;86;69;2];
 [48;50;2;48;60;3;50;34;3;50;37;3;49;114;1;86];
 [71;2;48;75;2;48;43;1;86;64;1;86;63;1;86;75];
 [2;48;40;2;48;73;2;48;61;2;48;74;2;48;68;2];
 [48;54;2;48;69;3;50;33;2;48;63;2;48;72;2;48];
 [70;1;86;76;2;48;55;1;86;61;1;86;60;1;86;68];
 [1;86;74;2;48;67;1;86;73;2;48;52;1;91;72;3];
 [49;120;2;48;76;2;48;51;2;48;46;1;86;66;1;86];
 [78;1;86;59;3;50;39;2;48;59;2;48;64;3;49;125];
 [3;49;123;3;49;124;3;101;61;1;91;106;2;54;69;2];
 [54;73;3;54;111;1;91;87;1;91;85;3;54;122;3;55];
 [33;1;91;76;2;54;71;2;54;70;1;91;96;3;60;80];
 [2;54;76;1;91;90;3;54;114;2;54;94;2;54;106;1];
 [91;73;2;54;91;2;54;84;1;91;108;2;54;68;3;54];
 [106;2;54;96;3;54;107;1;91;105;1;91;93;1;91;104];
 [1;91;83;2;54;80;2;54;98;2;54;90;1;91;84;1];
 [91;78;2;54;104;3;54;108;2;54;97;2;54;99;1;91];
 [86;1;91;94;2;54;101;2;54;78;2;54;95;2;54;83];
 [2;54;103;1;91;99;1;91;75;1;91;97;2;54;88;2];
 [54;86;2;54;87;1;91;88;2;54;82;2;54;81;1;91];
 [77;2;54;75;2;54;105;1;91;79;2;54;85;1;91;109];
 [3;54;116;1;91;103;2;54;74;1;91;100;1;91;98;1];
 [91;107;2;54;92;1;91;102;2;48;53;2;54;93;1;91];
 [101;2;54;100;1;91;74;2;54;89;1;91;92;2;54;77];
 [1;91;91;3;54;124;1;91;89;1;91;81;1;91;80;2];
 [61;44;2;54;102;3;60;93;3;55;40;2;54;79;3;55];
 [38;3;55;35;2;61;65;3;54;112;1;91;82;3;54;119];
 [3;55;36;3;54;118;3;55;37;3;54;121;4;50;109;3];
 [54;125;3;101;62;3;55;41;15;54;41;3;55;39;3;60];
 [84;1;96;71;1;91;95;1;96;53;2;61;59;1;96;67];
 [3;60;82;2;61;47;1;96;50;1;96;46;2;61;77;1];
 [96;52;1;96;56;1;96;51;1;96;60;2;61;81;2;61];
 [72;3;60;107;3;60;109;2;61;54;1;96;65;1;96;59];
 [2;61;66;1;96;43;2;61;78;2;61;71;1;96;47;2];
 [61;60;1;96;62;2;61;89;2;61;90;4;56;91;1;96];
 [44;2;61;76;1;96;64;2;61;64;2;61;50;2;61;51];
 [1;96;68;2;61;55;2;61;62;2;61;56;3;60;90;1];
 [96;66;1;96;74;2;61;52;2;61;45;2;61;46;3;60];
 [86;2;61;48;1;96;49;2;61;61;3;60;110;1;96;63];
 [1;96;72;3;60;88;3;60;105;2;61;63;2;61;87;2];
 [61;79;1;96;45;2;61;85;1;96;57;3;60;102;1;96];
 [55;3;60;100;2;61;91;1;96;54;2;61;69;2;61;57];
 [2;61;67;1;96;77;2;61;73;2;61;70;2;61;53;1];
 [96;73;2;61;83;2;61;80;2;61;88;1;96;48;2;61];
 [68;1;96;76;3;60;91;2;61;75;3;66;58;3;60;96];
 [1;96;58;1;96;61;3;60;92;2;61;74;1;96;75;2];
 [61;58;2;54;72;3;60;81;3;60;108;2;61;84;2;61];
 [82;2;61;86;15;60;93;3;60;98;3;101;66;4;56;94];
 [3;60;99;3;60;104;15;60;71;3;101;64;4;56;95;2];
 [61;49;1;96;70;3;101;63;3;101;65;2;68;71;2;68];
 [70;2;68;44;1;100;99;3;66;48;2;68;69;2;68;47];
 [2;68;48;4;62;63;1;100;109;2;68;78;1;100;104;2];
 [68;68;3;66;51;2;68;41;1;100;110;1;100;100;2;68];
 [56;2;68;46;2;68;49;2;68;73;1;100;94;2;68;80];
 [2;68;72;1;100;103;2;68;61;1;100;114;3;66;46;3];
 [66;54;1;100;113;1;100;107;3;66;64;4;62;54;2;68];
 [79;1;100;95;2;68;59;2;68;50;2;68;63;2;68;75];
 [1;100;115;3;66;57;1;100;97;2;68;58;3;66;45;2];
 [68;51;1;100;106;3;66;49;1;100;105;2;68;54;2;68];
 [64;2;68;74;2;68;45;2;68;55;1;100;98;2;68;65];
 [1;100;111;1;100;102;2;68;52;1;100;101;2;68;43;2];
 [68;57;2;68;77;1;96;69;1;105;87;2;68;60;2;75];
 [52;2;68;62;2;68;76;1;100;108;2;68;53;1;100;96];
 [1;100;112;1;109;90;2;68;42;6;84;78;2;68;67;3];
 [66;68;3;66;62;3;66;71;2;68;66;3;66;61;3;66];
 [69;3;66;63;3;66;59;3;66;70;2;75;80;1;105;84];
 [2;75;69;2;75;74;1;105;73;3;71;86;2;75;54;1];
 [105;86;3;71;87;1;105;64;2;75;53;2;75;86;1;105];
 [88;2;75;57;2;75;73;3;71;101;2;75;59;2;75;89];
 [2;75;85;1;105;62;1;105;72;2;81;91;1;105;85;1];
 [105;70;2;75;55;3;71;99;2;75;84;1;105;74;2;75];
 [81;2;75;94;2;75;61;2;75;70;3;76;120;3;71;91];
 [2;75;92;2;75;82;1;105;69;3;76;106;3;71;100;2];
 [75;68;1;105;63;1;105;61;1;105;79;4;68;67;3;71];
 [95;2;75;66;2;75;63;2;75;64;3;71;90;2;75;88];
 [3;71;92;2;75;93;2;75;91;1;105;67;2;75;95;1];
 [105;71;1;105;78;4;68;68;2;75;56;2;81;67;2;75];
 [65;3;71;94;1;105;65;1;105;83;1;105;80;1;105;68];
 [2;75;75;2;75;60;1;105;81;2;75;77;1;105;75;1];
 [105;77;1;105;60;3;71;93;2;75;79;2;75;71;2;75];
 [58;1;105;76;2;75;87;2;75;90;2;75;67;2;75;78];
 [3;76;116;1;105;66;1;109;73;2;75;76;2;81;66;3];
 [71;98;2;75;83;3;71;97;4;68;82;15;79;121;3;101];
 [68;3;101;69;3;71;102;3;101;67;2;75;62;2;81;76];
 [2;81;86;1;109;76;2;81;85;2;81;97;1;109;78;2];
 [81;83;4;74;88;2;81;87;1;109;89;3;76;125;2;81];
 [78;1;109;81;3;76;115;2;81;90;2;87;123;1;109;93];
 [1;109;92;2;81;92;2;81;75;2;81;102;1;109;87;3];
 [76;107;1;109;77;2;81;95;4;74;105;2;81;99;2;81];
 [104;2;81;93;2;81;81;1;109;80;1;109;83;1;109;91];
 [1;109;86;3;76;117;2;81;84;2;75;72;3;76;126;3];
 [76;108;2;81;80;2;81;103;1;109;82;3;76;121;1;109];
 [85;2;81;105;1;109;74;2;81;94;2;81;68;2;81;100];
 [1;116;42;3;76;122;2;81;82;4;80;117;1;109;75;2];
 [81;77;1;109;79;2;81;69;1;105;82;2;81;73;4;74];
 [87;2;81;98;2;81;74;2;81;72;1;109;84;3;76;123];
 [2;81;96;3;76;119;2;81;71;2;81;89;2;81;88;2];
 [81;101;2;81;79;1;109;88;4;74;100;3;101;71;15;79];
 [125;3;101;70;2;87;126;3;81;86;1;113;51;1;113;41];
 [2;88;44;2;87;118;1;113;43;2;88;36;1;113;50;1];
 [113;45;2;88;34;2;93;59;2;88;40;2;88;46;2;88];
 [39;2;87;116;2;88;37;2;88;48;2;88;50;1;113;40];
 [2;88;49;1;113;46;1;113;52;3;81;84;1;113;49;3];
 [81;88;2;88;43;1;113;48;2;88;38;3;81;77;2;87];
 [120;2;87;125;3;81;80;2;88;42;1;113;47;1;113;44];
 [1;113;39;1;113;42;2;87;124;4;81;34;2;81;70;2];
 [87;119;2;87;122;2;88;45;2;88;33;2;87;117;2;93];
 [58;2;88;47;2;87;121;2;88;41;3;76;113;3;81;85];
 [2;93;61;1;116;46;3;85;48;3;85;47;1;116;34;3];
 [85;53;3;85;54;1;116;38;2;93;63;2;93;69;2;93];
 [67;1;116;36;1;116;37;1;116;44;2;93;70;2;93;62];
 [1;116;39;3;85;49;2;93;66;2;93;65;2;93;71;1];
 [116;45;3;85;55;1;116;40;1;116;43;2;93;64;1;116];
 [47;1;116;41;1;116;48;1;116;35;2;93;68;3;90;85];
 [2;93;60;3;81;89;3;85;57;2;98;37;3;101;72;1];
 [118;93;2;98;34;2;98;36;3;88;40;1;118;91;2;97];
 [126;2;98;33;2;97;122;3;88;42;3;88;39;2;88;35];
 [2;97;123;1;118;92;2;97;119;3;88;38;1;118;89;2];
 [98;38;1;118;90;2;97;120;2;97;121;2;97;125;1;118];
 [95;3;88;41;1;118;94;4;91;94;3;88;43;2;97;124];
 [1;120;69;2;101;106;2;101;112;1;120;70;2;101;103;1];
 [120;67;1;120;64;2;101;114;1;120;68;3;90;82;1;120];
 [65;2;101;105;2;101;108;2;101;109;2;101;110;2;101;113];
 [3;90;84;2;98;35;2;101;104;1;120;66;2;101;111;2];
 [105;52;2;101;107;3;90;83;3;101;74;3;101;73;2;105];
 [43;1;121;117;2;105;46;1;121;118;2;105;55;2;105;45];
 [2;105;42;3;92;81;2;105;44;2;105;48;2;105;51;2];
 [105;50;2;105;54;2;105;41;3;92;79;1;121;116;2;105];
 [49;2;105;53;2;105;56;2;105;47;2;107;97;2;107;98];
 [2;107;102;2;107;103;3;94;60;2;107;100;2;107;101;2];
 [107;99;3;94;58;1;122;116;3;94;59;1;123;100;2;109];
 [89;3;96;54;3;95;82;2;109;86;2;109;87;2;109;88];
 [1;123;101;3;96;55;2;111;52;2;111;51;3;101;75;2];
 [112;61;1;124;96;2;112;59;2;112;62;2;112;60;2;113];
 [37;1;125;36;1;125;50;2;113;113;2;113;91;3;97;121];
 [2;113;112;2;114;62;2;114;63;1;69;86;4;33;80;3];
 [36;40;3;36;38;1;72;72;2;34;97;3;36;39;3;36];
 [43;2;36;94;3;38;98;1;75;34;3;38;95;1;75;37];
 [3;38;94;2;36;95;3;38;99;1;75;35;1;75;36;3];
 [38;96;15;36;113;3;41;119;2;39;120;2;39;122;2;39];
 [117;2;39;114;2;39;116;3;41;116;3;41;112;3;41;117];
 [1;78;101;3;41;111;3;41;121;3;41;118;1;78;99;3];
 [41;114;3;41;113;2;39;118;1;78;100;2;39;115;2;39];
 [112;1;78;98;2;39;119;4;39;41;2;39;113;1;78;102];
 [2;39;121;4;39;43;2;43;111;3;45;94;2;43;115;3];
 [45;92;3;45;90;1;82;58;3;45;88;4;42;38;3;45];
 [101;3;45;98;2;43;118;3;45;95;1;82;50;1;82;53];
 [1;82;55;1;82;57;1;82;54;2;43;114;2;43;113;3];
 [45;100;1;82;52;2;43;116;2;43;117;3;45;99;2;43];
 [110;1;82;56;3;45;104;1;82;51;3;45;93;2;43;112];
 [3;101;77;4;42;40;3;50;40;2;48;90;2;48;91;2];
 [48;92;1;86;83;4;45;117;1;86;79;2;48;81;3;50];
 [42;2;48;89;2;48;94;1;86;84;3;50;43;2;48;79];
 [2;48;85;2;48;78;2;48;88;3;50;49;3;50;47;2];
 [48;84;1;86;80;1;86;82;2;48;93;3;50;41;2;48];
 [77;2;48;80;2;48;86;3;50;45;2;48;87;2;48;95];
 [2;48;83;3;50;44;1;86;81;3;101;79;3;101;78;3];
 [50;48;1;91;114;2;54;113;3;55;48;3;55;50;2;54];
 [115;2;54;111;3;55;47;2;54;123;2;54;109;2;54;122];
 [1;91;110;2;54;107;2;61;95;2;54;117;1;91;113;3];
 [55;53;2;54;118;2;54;121;3;55;46;2;54;125;3;55];
 [44;2;54;114;4;50;114;2;54;119;3;55;45;3;55;49];
 [1;91;111;1;91;112;2;54;124;2;54;112;2;54;108;2];
 [54;126;3;55;51;2;54;116;3;101;80;3;101;81;2;54];
 [120;2;54;110;1;96;78;1;96;79;2;61;105;1;96;85];
 [3;60;116;2;61;93;2;61;102;2;61;92;1;96;82;2];
 [61;100;2;61;98;3;60;125;2;61;99;1;96;80;3;60];
 [124;2;61;103;15;60;126;3;60;111;3;60;122;3;60;114];
 [3;61;33;2;61;96;2;61;94;1;96;81;2;61;97;2];
 [61;101;3;60;123;3;60;121;3;60;113;1;96;83;3;60];
 [115;3;60;119;3;101;83;2;61;104;3;101;84;3;101;85];
 [3;101;82;2;68;86;2;68;93;2;68;95;2;68;101;3];
 [66;87;1;101;34;2;68;81;3;66;76;1;100;120;3;66];
 [78;2;68;96;1;100;125;2;68;102;1;100;116;3;66;81];
 [2;68;99;3;66;88;2;68;83;2;68;100;2;68;82;1];
 [101;36;3;66;82;2;68;94;1;100;117;2;68;103;3;72];
 [60;1;100;122;2;68;87;1;101;33;2;68;98;2;68;85];
 [2;68;92;2;68;88;2;68;84;1;100;119;1;100;126;1];
 [100;124;1;100;121;1;101;35;1;100;118;2;68;91;3;66];
 [79;1;100;123;3;66;89;1;96;84;3;66;73;2;68;97];
 [3;101;89;2;68;89;3;66;83;3;101;87;3;101;88;3];
 [101;86;2;68;90;4;68;87;4;68;91;2;75;103;3;71];
 [111;1;105;91;3;71;110;3;71;108;2;75;99;2;75;105];
 [2;75;101;3;71;112;1;105;93;2;75;100;2;75;104;2];
 [75;96;3;71;114;2;75;98;1;105;92;3;71;106;3;71];
 [109;3;71;107;3;71;104;2;75;102;2;75;97;3;71;103];
 [1;105;94;3;101;91;1;105;89;15;73;75;3;101;90;2];
 [75;106;15;73;95;1;105;90;2;81;111;2;81;108;2;81];
 [120;2;81;114;2;81;116;1;109;94;2;81;110;2;81;118];
 [3;77;42;3;77;36;2;81;117;2;81;115;3;77;41;2];
 [81;121;1;109;97;2;81;112;2;81;119;3;77;40;1;109];
 [95;3;77;37;3;77;34;2;81;107;2;81;109;1;109;96];
 [2;81;106;2;81;122;3;101;92;2;81;113;3;81;98;3];
 [81;90;2;88;54;1;113;59;3;81;96;3;81;92;2;88];
 [65;2;88;63;1;113;53;2;88;53;2;88;56;2;88;57];
 [2;88;52;1;113;63;1;113;64;2;88;51;2;88;66;2];
 [88;61;1;113;57;1;113;54;2;88;60;2;88;58;3;81];
 [99;4;81;35;1;113;60;2;88;62;1;113;55;3;81;94];
 [1;113;56;3;81;102;2;88;59;1;113;58;2;88;55;7];
 [47;79;2;88;64;1;113;61;2;88;67;2;88;68;1;113];
 [62;3;101;93;3;101;94;1;116;50;1;116;57;2;93;72];
 [2;93;78;3;85;60;2;93;76;1;116;53;1;116;52;1];
 [116;49;2;93;74;3;85;62;3;85;67;3;85;64;1;116];
 [55;1;116;54;1;116;51;3;85;65;2;93;77;2;93;73];
 [2;93;75;3;85;66;1;116;56;15;90;115;1;118;99;2];
 [98;41;3;88;45;1;118;96;1;118;97;2;98;43;1;118];
 [98;2;98;40;3;88;46;2;98;39;2;101;118;2;98;42];
 [3;90;86;2;101;119;1;120;71;2;101;117;3;90;87;4];
 [95;126;2;101;116;3;92;89;2;101;115;1;120;72;3;101];
 [95;3;92;86;1;121;119;3;92;88;3;92;85;2;105;57];
 [2;105;58;3;90;88;3;92;83;3;92;87;3;101;97;2];
 [107;106;2;107;105;1;122;117;3;95;83;2;107;104;2;109];
 [90;2;109;91;3;95;84;3;96;57;2;111;53;2;112;63];
 [3;97;67;3;97;66;2;113;38;2;114;44;1;125;70;2];
 [114;64;1;69;87;4;33;81;1;78;103;1;78;104;3;45];
 [105;4;42;42;1;82;59;3;61;34;4;74;108;1;116;58];
 [1;69;88;1;78;105;1;86;85;1;101;37;1;69;89;3];
 [45;107;1;91;115;1;105;95;2;33;66;3;41;124;2;43];
 [119;2;48;96;4;62;76;2;75;107;4;74;109;1;116;59];
 [1;69;90;1;78;106;2;43;120;2;43;121;2;61;106;1];
 [96;86;3;66;93;2;68;104;3;66;92;3;66;91;1;101];
 [38;2;75;108;4;68;94;3;77;46;1;109;98;3;77;45];
 [1;120;73;1;69;91;2;61;107;1;69;92;1;72;74;2];
 [34;98;1;72;73;1;75;40;1;75;39;1;75;38;2;36];
 [96;3;38;100;3;42;33;3;42;34;1;78;107;3;42;35];
 [1;78;108;2;39;123;4;39;49;2;43;122;3;45;109;2];
 [43;125;1;82;61;2;43;123;4;42;47;1;82;60;2;43];
 [124;1;82;62;2;48;99;2;48;98;2;48;97;1;86;86];
 [3;50;54;2;55;34;2;55;35;1;91;116;2;55;33;2];
 [55;36;1;96;88;1;91;117;3;61;36;3;61;35;1;96];
 [87;2;61;111;2;61;110;3;61;37;2;61;108;2;61;109];
 [2;61;112;2;68;106;2;68;105;2;68;109;4;62;79;2];
 [68;108;2;68;107;1;105;96;2;75;111;3;71;117;2;75];
 [110;1;105;97;2;75;109;2;81;123;3;77;47;2;81;124];
 [1;109;99;4;81;45;2;88;69;2;88;70;5;78;55;2];
 [101;124;1;120;74;2;101;123;2;101;122;2;101;120;2;101];
 [121;1;122;118;2;105;59;2;109;92;2;113;39;3;97;123];
 [1;69;93;4;33;56;2;33;100;1;70;103;2;33;101;3];
 [36;44;3;36;45;4;35;39;2;34;99;2;34;100;3;38];
 [107;3;38;105;2;36;102;3;38;102;3;38;103;2;36;98];
 [3;38;106;2;36;97;1;78;109;2;36;101;1;75;42;2];
 [36;99;1;75;41;2;36;103;2;36;100;3;38;104;2;40];
 [33;2;43;126;2;39;125;2;40;38;3;42;38;1;78;110];
 [3;42;42;1;78;113;2;40;39;2;40;35;3;42;39;2];
 [40;36;4;39;54;2;39;124;1;78;112;2;39;126;1;78];
 [111;2;40;37;3;42;40;2;40;34;6;44;126;2;44;36];
 [1;82;64;1;82;65;3;45;117;2;44;39;2;44;33;3];
 [45;116;2;44;38;3;45;112;2;44;34;1;82;63;2;44];
 [37;2;44;35;3;45;115;3;45;113;2;48;105;2;48;102];
 [3;50;56;2;48;104;1;86;91;1;86;90;1;86;88;2];
 [48;101;2;48;106;1;86;87;1;86;89;2;48;103;2;55];
 [44;2;48;100;2;48;107;3;50;57;4;51;35;4;51;42];
 [3;61;38;2;55;39;2;55;43;5;51;84;2;55;42;2];
 [61;114;2;61;125;4;51;45;3;55;59;2;55;45;3;55];
 [58;2;55;40;2;61;113;1;91;121;4;51;34;4;51;44];
 [1;91;120;2;55;38;2;55;41;1;91;122;3;55;57;1];
 [91;119;1;91;118;2;55;37;2;55;46;2;61;116;2;61];
 [123;3;61;39;1;96;90;2;61;122;2;61;119;3;61;46];
 [1;96;92;3;61;41;3;61;43;3;61;42;2;61;121;3];
 [66;97;3;61;45;2;61;115;2;61;117;2;61;120;2;61];
 [118;1;96;91;2;61;124;1;96;89;1;101;39;3;61;40];
 [2;68;113;2;68;112;2;68;110;6;84;124;1;101;42;1];
 [101;41;2;68;114;3;66;95;2;68;111;2;75;112;1;105];
 [98;1;101;40;3;66;98;3;101;98;3;101;99;2;68;116];
 [2;68;115;3;77;48;2;75;115;2;75;113;1;109;100;3];
 [71;121;1;105;99;2;75;114;2;81;126;3;71;120;3;71];
 [122;3;71;119;4;74;119;1;109;101;2;81;125;2;82;40];
 [2;82;39;2;82;37;4;74;117;2;82;36;2;82;33;2];
 [82;34;2;82;35;2;82;38;2;82;41;2;88;75;2;88];
 [72;2;88;73;1;113;65;2;88;71;2;88;77;2;88;76];
 [2;88;74;2;93;80;2;93;81;1;116;60;3;85;73;1];
 [116;61;2;93;79;4;86;108;1;118;101;2;98;44;1;118];
 [100;1;120;75;4;96;37;1;120;76;1;121;120;2;105;61];
 [2;105;60;2;107;107;2;109;93;1;123;102;2;111;55;2];
 [111;54;2;111;56;1;70;104;2;44;40;1;86;92;1;91];
 [123;2;55;47;1;70;105;2;33;102;1;69;94;3;34;90];
 [3;33;107;2;34;101;3;36;47;4;35;42;15;34;102;2];
 [36;108;2;36;106;2;36;107;2;36;104;1;75;43;2;36];
 [105;3;38;110;3;42;51;2;40;47;3;42;45;1;78;116];
 [2;40;45;2;40;41;2;40;44;3;42;44;2;40;40;1];
 [78;118;2;40;43;3;42;43;1;78;115;1;78;114;3;42];
 [50;1;78;117;2;40;46;2;40;42;3;42;47;1;82;69];
 [1;82;72;2;44;48;2;44;47;2;44;46;1;82;66;2];
 [44;55;2;44;45;4;46;42;1;82;68;2;48;112;3;45];
 [120;2;44;52;2;44;50;1;82;71;3;45;123;2;44;42];
 [2;44;53;3;45;119;2;44;44;2;44;54;2;44;51;2];
 [44;43;3;45;122;1;82;67;2;44;56;2;44;41;1;82];
 [70;3;45;126;3;45;121;3;45;124;2;48;117;2;48;108];
 [2;48;119;3;50;62;2;48;111;2;48;122;2;48;123;2];
 [48;109;2;48;121;2;48;118;2;48;116;2;48;120;1;86];
 [98;3;50;64;1;86;96;3;50;71;3;50;60;2;48;114];
 [3;50;70;2;48;110;3;50;65;2;48;113;2;48;124;2];
 [48;115;1;86;97;2;44;49;3;50;61;1;86;93;1;86];
 [95;3;101;100;3;55;61;2;55;61;2;55;50;2;55;48];
 [3;61;56;2;55;49;3;50;63;2;55;56;3;55;64;2];
 [55;57;2;55;53;1;92;34;2;55;58;2;55;55;2;55];
 [52;3;55;60;1;91;126;2;55;51;1;91;124;1;92;33];
 [2;55;54;2;55;62;1;86;94;1;91;125;2;55;60;2];
 [55;59;1;92;35;3;101;101;15;54;87;3;61;54;3;61];
 [58;2;62;36;3;61;47;3;61;59;3;61;50;2;62;37];
 [1;96;102;3;61;57;2;62;43;3;66;109;3;61;53;2];
 [62;45;2;62;38;1;96;96;2;62;42;2;62;41;1;96];
 [97;1;96;103;3;66;100;1;96;104;2;62;44;1;96;94];
 [2;62;35;2;62;33;2;62;39;2;61;126;1;96;101;2];
 [62;34;2;62;40;2;62;46;1;96;95;1;96;100;1;96];
 [98;1;96;99;3;61;51;3;61;60;1;96;93;3;101;102];
 [3;61;55;3;66;104;3;66;117;1;101;49;2;68;123;1];
 [101;48;2;69;33;3;66;111;2;68;117;3;66;116;2;69];
 [34;3;66;110;3;66;102;3;66;113;2;68;118;2;68;119];
 [3;66;115;2;69;35;2;68;126;2;68;124;2;68;125;2];
 [68;121;2;68;120;3;66;103;2;69;36;1;101;45;3;66];
 [107;2;68;122;3;66;112;1;101;50;1;101;44;1;101;51];
 [1;101;52;3;66;106;1;101;47;1;101;46;3;72;37;3];
 [71;126;2;75;116;1;105;101;1;105;100;3;71;124;3;71];
 [125;2;75;121;3;72;34;1;109;102;1;105;102;3;72;33];
 [3;71;123;1;105;104;2;75;122;1;101;43;1;105;103;2];
 [75;118;2;75;120;2;75;117;3;72;39;2;75;119;3;72];
 [35;15;73;118;2;82;51;3;77;49;3;77;59;2;82;50];
 [2;82;47;1;109;105;2;88;78;1;109;106;2;82;46;3];
 [77;57;1;109;104;3;77;54;2;82;48;2;82;45;2;82];
 [42;2;82;49;2;82;43;2;82;44;1;109;103;3;77;53];
 [3;101;104;4;81;57;2;93;85;4;81;58;2;88;82;3];
 [77;58;2;88;81;2;88;83;3;81;106;2;93;82;1;113];
 [68;4;81;56;2;88;79;3;81;103;1;113;66;3;81;108];
 [1;113;70;1;113;69;2;88;80;2;88;84;3;81;107;1];
 [113;67;3;101;103;2;93;89;1;116;64;1;118;102;1;116];
 [65;1;116;62;2;93;86;2;93;84;3;85;79;2;93;87];
 [3;85;75;2;93;90;1;116;63;2;93;88;2;93;83;3];
 [85;77;3;101;105;2;98;47;2;98;50;2;102;33;2;98];
 [45;3;88;47;2;105;62;2;98;51;3;88;48;1;120;77];
 [2;98;49;1;118;103;2;98;46;2;98;48;2;98;52;2];
 [102;34;3;90;90;2;101;126;4;96;39;3;90;92;3;90];
 [93;3;90;91;1;120;78;2;101;125;3;92;94;3;92;92];
 [3;92;95;1;121;121;3;92;93;3;92;96;3;94;61;1];
 [122;120;2;109;95;1;122;119;2;109;97;2;109;94;2;109];
 [96;1;124;60;2;112;64;1;70;106;2;40;48;2;48;125];
 [2;48;126;1;92;36;2;69;37;1;113;71;1;120;79;1];
 [123;103;2;112;65;1;70;107;2;40;49;1;35;34;4;42];
 [60;3;46;34;2;44;57;3;46;33;2;44;58;3;46;36];
 [3;50;72;2;49;33;2;49;34;1;92;37;1;92;38;15];
 [54;103;3;61;61;4;57;37;2;62;47;2;69;40;2;69];
 [39;2;69;38;2;75;123;3;66;119;2;75;124;2;75;125];
 [1;105;105;3;72;40;2;82;53;2;82;52;3;77;61;3];
 [81;109;2;88;85;1;113;72;1;113;73;3;81;110;2;93];
 [94;2;93;91;2;93;92;2;93;93;2;98;54;2;98;53];
 [1;118;104;2;102;35;2;107;108;1;70;108;1;82;73;3];
 [55;68;1;92;39;2;69;41;3;66;120;1;70;109;4;42];
 [64;2;49;35;1;92;40;3;55;69;3;61;62;1;96;105];
 [1;96;106;5;71;73;1;70;110;1;70;111;2;34;102;1];
 [75;45;1;75;44;1;82;74;2;44;59;2;62;48;1;70];
 [112;1;70;113;1;70;114;1;70;115;4;35;43;1;75;46];
 [1;75;47;2;36;110;2;36;109;3;42;55;1;78;119;2];
 [40;52;2;40;50;2;40;51;3;42;56;3;42;53;4;39];
 [64;3;42;54;3;46;39;2;44;60;2;44;61;3;46;37];
 [3;46;40;1;82;78;1;82;76;3;46;42;1;82;77;1];
 [82;75;3;46;38;15;43;122;15;44;74;1;86;99;3;50];
 [78;3;50;77;3;50;80;3;50;79;1;86;103;1;86;102];
 [2;49;36;1;86;101;1;86;100;3;50;81;2;49;37;3];
 [55;70;1;92;43;2;55;64;2;55;63;1;92;41;1;92];
 [42;3;55;73;3;55;71;1;96;108;1;96;107;2;62;50];
 [3;61;67;3;61;66;2;62;49;1;92;44;3;61;68;4];
 [57;44;4;62;107;1;101;53;2;69;43;1;101;54;2;69];
 [42;3;66;123;4;68;124;4;68;123;2;75;126;2;82;54];
 [1;109;107;2;88;86;3;81;112;3;85;82;2;93;95;4];
 [91;116;1;120;81;1;120;80;4;99;104;3;92;98;1;123];
 [104;1;70;116;2;40;53;3;61;69;1;92;45;2;76;33];
 [1;105;106;3;34;91;3;38;115;2;36;111;2;36;112;2];
 [40;54;1;78;121;1;78;122;3;42;58;4;39;67;1;78];
 [120;3;42;59;1;82;82;1;82;83;1;82;80;1;82;81];
 [3;46;43;2;44;62;3;46;47;4;42;74;2;44;63;1];
 [82;79;2;49;38;3;50;87;1;86;107;1;86;108;3;50];
 [85;1;92;48;2;49;44;4;46;64;1;86;113;1;86;111];
 [2;49;45;2;49;40;1;86;110;1;86;109;1;86;104;2];
 [49;43;2;49;42;2;49;39;1;86;112;3;50;82;2;49];
 [41;1;86;105;4;46;52;1;86;106;1;92;49;2;55;68];
 [2;55;69;1;92;50;2;55;65;2;55;67;2;55;71;2];
 [55;70;2;55;66;3;55;74;1;92;46;1;92;47;2;62];
 [58;1;96;113;1;96;112;2;62;52;1;96;110;4;57;52];
 [2;62;55;1;96;114;2;62;56;1;96;115;2;62;53;1];
 [96;109;1;96;111;2;62;57;3;61;71;2;62;54;2;62];
 [51;4;62;119;2;69;56;3;66;124;2;69;45;1;101;56];
 [1;101;59;1;101;58;1;101;63;1;101;62;2;69;57;2];
 [69;55;2;69;48;2;69;52;2;69;51;1;101;60;2;69];
 [54;2;69;50;2;69;58;2;69;49;1;101;61;1;101;55];
 [1;101;57;3;66;125;2;69;47;3;72;43;2;76;35;1];
 [105;110;2;76;39;1;105;109;2;76;36;1;105;108;3;72];
 [41;2;69;46;2;69;53;2;76;38;4;68;126;1;105;111];
 [2;76;40;2;76;37;2;76;34;2;82;57;2;82;61;2];
 [82;63;2;82;59;2;82;58;2;82;56;1;109;110;1;109];
 [108;1;109;113;1;109;114;2;82;60;1;109;111;2;82;55];
 [1;109;112;1;105;107;2;82;62;1;109;109;3;81;113;2];
 [88;88;4;81;79;2;88;87;2;88;95;2;88;89;2;88];
 [94;2;88;91;1;113;74;2;88;93;3;81;115;3;81;114];
 [1;113;75;4;81;77;1;113;76;3;81;116;2;88;92;2];
 [88;90;4;87;33;4;87;36;1;116;67;2;93;96;3;85];
 [85;3;85;83;1;116;66;2;93;99;2;93;97;2;93;98];
 [5;85;105;5;92;54;1;116;68;3;85;84;3;88;52;2];
 [98;58;3;88;51;1;118;107;2;98;59;4;91;117;4;91];
 [121;1;118;105;2;98;60;1;118;106;2;98;57;2;98;61];
 [3;88;50;2;98;55;1;120;82;2;102;36;1;120;83;1];
 [121;122;2;98;56;1;121;123;3;94;63;3;94;62;1;122];
 [121;2;107;109;1;123;106;2;109;98;1;123;105;3;96;59];
 [2;111;57;1;124;97;1;124;98;3;101;106;7;100;82;2];
 [114;58;3;34;92;3;101;107;1;82;84;2;44;64;1;96];
 [116;1;96;117;1;70;117;1;72;75;2;34;103;3;38;116];
 [2;36;113;1;75;48;3;38;118;1;78;123;4;42;76;1];
 [82;85;1;82;86;1;82;87;2;55;73;2;49;46;1;86];
 [114;4;46;65;4;46;67;1;92;51;2;55;72;3;55;77];
 [2;62;60;1;96;119;3;61;76;2;62;59;1;96;118;3];
 [66;126;3;67;33;2;69;59;1;109;115;2;82;67;2;82];
 [64;2;82;65;2;82;66;4;81;84;4;81;85;3;81;118];
 [5;92;67;3;85;86;2;93;100;3;85;87;2;98;62;4];
 [91;124;4;91;125;3;90;94;2;105;64;2;105;63;4;102];
 [90;2;109;99;1;70;118;2;40;55;1;86;115;3;61;77];
 [1;96;120;2;69;60;4;69;52;3;72;48;2;76;41;3];
 [72;46;1;109;116;2;88;96;3;101;108;2;98;63;2;105];
 [65;1;70;119;3;38;119;3;38;120;1;78;124;1;82;90];
 [2;44;65;1;82;91;1;82;89;3;46;50;1;82;88;2];
 [49;47;1;86;116;3;50;90;3;50;91;1;86;117;1;86];
 [118;1;92;53;2;55;74;1;92;52;3;55;80;3;55;82];
 [3;55;81;15;55;35;3;61;79;2;62;61;1;92;54;1];
 [96;121;2;69;61;1;101;64;1;101;65;4;69;53;1;105];
 [112;3;72;49;1;105;113;1;109;117;1;113;78;2;88;97];
 [1;113;77;4;87;45;2;93;101;1;116;69;3;88;53;2];
 [98;64;2;105;66;1;70;120;1;75;49;2;40;58;2;40];
 [57;1;78;125;2;40;56;1;78;126;2;40;59;4;42;85];
 [2;44;71;1;82;94;1;82;93;2;44;73;2;44;72;1];
 [82;98;3;46;53;1;82;97;3;46;51;4;42;89;1;82];
 [92;4;42;93;2;44;67;2;44;68;2;44;69;4;42;82];
 [1;82;99;2;44;66;1;82;95;2;44;70;1;82;96;3];
 [50;100;3;50;95;2;49;50;2;49;54;2;49;52;2;49];
 [51;4;46;85;2;49;55;3;50;94;4;46;79;3;50;104];
 [2;49;56;2;49;57;2;49;49;4;46;81;2;49;48;3];
 [55;89;1;86;120;1;86;121;3;50;103;2;49;58;2;49];
 [53;3;50;101;2;55;83;3;55;85;2;49;59;1;86;122];
 [1;86;119;3;50;92;3;50;99;2;55;77;4;51;79;2];
 [55;76;3;55;83;2;55;78;2;55;79;2;55;81;2;55];
 [80;2;55;85;1;92;58;1;92;55;1;92;59;2;55;75];
 [1;92;60;2;55;84;1;92;57;2;55;82;1;92;56;3];
 [50;98;3;55;87;4;51;86;3;61;86;3;61;83;2;62];
 [64;2;62;66;2;62;62;2;62;63;3;61;81;3;61;82];
 [2;62;67;2;62;69;2;62;70;2;62;65;2;62;68;1];
 [96;122;2;69;65;3;67;39;2;69;70;2;69;62;2;69];
 [66;4;63;41;3;67;40;2;69;71;2;69;67;1;101;66];
 [1;101;74;3;67;37;1;101;69;2;69;63;2;69;64;1];
 [105;117;1;101;77;1;101;70;3;67;38;1;101;75;1;101];
 [68;2;69;69;1;101;76;2;69;68;1;101;72;1;101;67];
 [1;101;73;2;69;72;2;76;46;2;76;48;4;69;66;3];
 [72;57;4;69;64;4;69;61;3;72;51;3;72;54;3;72];
 [53;3;72;52;3;72;56;1;101;71;3;72;59;3;72;61];
 [2;76;43;1;105;115;2;76;49;1;105;116;2;76;47;2];
 [76;42;2;76;45;2;76;50;1;105;114;2;76;44;1;109];
 [119;2;82;71;2;82;70;3;77;68;1;109;122;1;109;120];
 [2;82;68;1;109;118;2;82;69;3;77;70;1;109;121;4];
 [81;95;2;88;105;3;81;123;2;88;107;3;81;121;2;88];
 [106;2;88;98;2;88;102;2;88;101;2;88;99;1;113;80];
 [1;113;81;1;113;79;2;88;100;2;88;103;2;88;104;3];
 [85;89;1;113;82;3;85;88;1;116;74;2;93;109;3;85];
 [91;1;116;71;2;93;103;1;116;73;1;116;75;4;81;97];
 [3;85;92;1;116;72;2;93;108;2;93;104;1;116;70;2];
 [93;107;2;93;102;2;93;106;2;93;105;3;88;54;3;88];
 [56;2;98;66;1;118;110;1;118;111;1;118;108;3;88;59];
 [1;118;109;3;88;58;3;88;57;2;98;65;4;96;57;2];
 [102;39;3;90;96;3;90;95;1;120;84;2;102;37;2;102];
 [38;2;105;67;2;105;70;2;105;68;2;105;69;2;107;110];
 [3;94;66;4;102;94;1;122;122;2;111;58;2;112;66;4];
 [107;116;1;124;99;2;113;40;2;113;41;1;125;51;1;70];
 [121;1;82;100;3;50;105;2;62;71;3;61;87;2;69;73];
 [4;108;118;1;70;122;1;75;50;4;39;82;1;79;33;3];
 [46;54;2;44;74;2;44;75;1;86;123;4;51;91;2;62];
 [72;1;96;123;1;101;78;1;116;76;2;93;110;2;102;40];
 [2;105;71;1;70;123;3;38;123;3;38;124;15;37;35;2];
 [40;65;2;40;60;2;40;62;2;40;64;2;40;63;2;40];
 [61;1;79;34;15;40;52;1;82;101;2;44;84;3;46;57];
 [2;44;79;2;44;76;3;46;59;3;46;62;2;44;83;3];
 [46;55;3;46;58;1;82;103;1;82;104;2;44;82;2;44];
 [81;2;44;80;2;44;77;2;44;78;2;44;85;1;82;102];
 [3;46;61;15;44;92;3;101;109;3;101;110;1;87;33;3];
 [102;124;1;87;39;1;87;38;2;49;68;2;49;62;2;49];
 [60;3;50;108;1;87;36;2;55;92;1;86;125;2;49;65];
 [2;49;69;2;49;71;2;49;67;2;49;61;1;87;37;2];
 [49;66;2;49;64;1;86;124;2;49;72;1;87;40;2;49];
 [70;1;87;34;2;49;63;3;50;109;1;87;35;1;86;126];
 [3;101;111;3;55;98;1;92;62;4;51;93;2;55;93;3];
 [55;99;3;55;93;2;55;86;2;55;88;2;55;90;3;55];
 [95;2;55;91;2;55;89;1;92;63;3;55;97;2;55;94];
 [3;55;96;2;55;87;3;101;112;3;101;113;3;101;114;2];
 [62;76;1;96;124;2;62;84;3;61;92;2;62;73;6;76];
 [47;2;62;85;3;61;89;2;62;74;2;62;75;3;61;93];
 [4;57;84;2;62;83;2;62;82;2;62;79;1;92;61;1];
 [96;125;2;62;77;2;62;80;1;96;126;2;62;81;2;62];
 [78;3;61;90;3;67;49;2;69;84;3;67;45;2;69;88];
 [1;101;85;3;67;46;2;76;56;1;101;88;2;69;86;3];
 [67;55;3;67;41;2;69;83;2;69;78;2;69;80;2;69];
 [81;2;69;74;3;67;53;1;101;84;3;67;43;3;67;48];
 [1;101;83;3;67;52;1;101;79;2;69;77;3;67;42;1];
 [101;86;3;67;54;1;101;87;2;69;76;2;69;79;2;69];
 [87;1;101;81;1;101;82;2;69;85;2;69;75;15;68;37];
 [4;69;83;2;76;58;1;105;119;2;76;60;2;69;82;2];
 [76;62;1;105;123;2;76;63;2;76;59;3;72;62;1;105];
 [120;2;76;55;1;105;122;2;76;52;2;76;57;2;76;61];
 [2;76;54;3;72;63;3;72;69;1;101;80;3;72;68;2];
 [76;51;1;105;121;2;76;53;3;101;115;3;72;64;15;74];
 [63;1;109;125;2;82;73;1;110;35;4;75;89;1;110;33];
 [4;75;87;3;77;74;1;105;118;3;77;77;2;82;80;2];
 [82;81;1;109;124;3;77;72;3;77;76;2;82;79;2;82];
 [82;1;109;126;1;109;123;2;82;75;2;82;72;2;82;77];
 [2;82;74;1;110;36;2;82;76;3;77;75;3;77;73;2];
 [82;78;1;110;34;3;82;33;3;101;116;1;113;84;2;88];
 [114;3;82;36;2;88;108;2;88;112;2;88;118;2;88;119];
 [2;88;115;2;88;116;2;88;113;4;75;93;2;88;110;4];
 [81;110;1;113;86;1;113;83;2;88;109;2;88;111;3;82];
 [34;1;113;85;2;88;117;3;101;117;1;116;80;3;85;96];
 [3;85;98;2;93;117;2;93;111;1;116;79;4;87;62;1];
 [116;77;3;85;97;2;93;119;1;116;78;2;93;114;2;93];
 [115;2;93;112;2;93;120;2;93;116;4;87;64;1;116;81];
 [2;93;113;2;93;121;2;93;118;3;88;67;3;88;62;3];
 [88;64;2;98;70;3;88;63;3;88;60;2;98;67;3;88];
 [66;1;118;112;4;92;50;2;98;71;2;98;73;2;98;72];
 [2;98;68;2;98;69;3;88;68;2;102;45;3;90;97;1];
 [120;85;3;90;98;2;102;42;2;102;44;2;102;41;2;102];
 [46;4;96;66;3;90;99;2;102;43;3;101;118;2;105;73];
 [2;105;76;2;105;72;1;121;124;2;105;74;2;105;75;2];
 [105;77;1;121;125;1;122;33;1;121;126;2;107;111;3;94];
 [69;2;107;113;3;94;67;2;107;112;3;94;68;2;109;100];
 [15;106;102;3;96;60;2;112;67;2;113;42;1;70;124;3];
 [36;51;2;36;114;1;79;35;2;40;67;1;79;36;1;79];
 [37;2;40;66;2;44;90;2;44;89;1;82;105;1;82;108];
 [1;82;107;1;82;106;2;44;86;2;44;88;2;44;87;3];
 [101;119;2;49;75;1;87;42;2;49;79;2;49;78;2;49];
 [77;2;49;73;1;87;41;1;87;45;1;87;48;3;50;111];
 [3;50;112;1;87;49;2;49;74;2;49;76;1;87;47;1];
 [87;46;1;87;44;1;87;43;2;55;101;3;50;114;2;55];
 [99;2;55;95;1;92;64;3;61;94;2;55;96;1;92;65];
 [2;55;97;2;55;98;2;55;100;3;55;102;1;92;66;3];
 [55;101;2;62;89;3;61;95;2;62;88;2;62;87;2;62];
 [86;3;61;100;3;61;98;4;57;90;2;69;92;1;101;89];
 [4;63;70;2;69;89;2;69;91;3;67;56;1;101;90;3];
 [67;61;1;101;91;2;69;90;3;67;57;3;61;99;3;101];
 [120;3;72;72;2;76;72;3;72;71;2;76;65;2;76;66];
 [5;71;126;1;105;126;1;105;124;1;105;125;2;76;74;5];
 [72;34;2;76;73;2;76;70;2;76;69;2;76;68;2;76];
 [67;2;76;71;2;76;64;3;101;121;2;82;83;2;82;88];
 [2;82;86;3;77;80;3;77;81;3;77;79;2;82;85;2];
 [82;84;2;82;87;3;101;122;2;88;120;3;82;38;1;113];
 [87;1;116;82;2;93;123;3;82;39;1;116;83;2;93;122];
 [2;98;75;2;98;74;1;118;113;3;88;69;2;102;47;1];
 [120;86;2;105;78;1;123;107;2;109;101;3;96;61;2;112];
 [69;2;112;68;2;33;103;1;82;109;1;82;110;2;55;102];
 [3;101;123;1;101;93;1;70;125;1;75;53;1;75;52;1];
 [75;51;4;36;104;3;42;62;3;42;61;2;40;68;3;42];
 [63;3;42;66;1;79;39;1;79;38;3;42;68;1;82;113];
 [3;101;76;2;44;92;2;44;95;2;44;93;3;46;66;1];
 [82;111;1;82;112;3;46;64;3;46;65;2;44;91;2;44];
 [94;3;46;67;1;87;56;3;50;116;3;50;115;3;50;121];
 [2;49;86;2;49;88;2;49;87;1;87;53;2;49;82;3];
 [50;118;3;50;123;1;87;51;1;87;50;3;50;119;1;87];
 [54;1;87;52;3;50;120;1;87;55;2;49;85;2;49;80];
 [2;49;81;2;49;84;2;49;83;3;50;124;3;55;105;3];
 [55;103;3;55;107;3;55;106;2;55;105;2;55;106;2;55];
 [104;3;55;108;2;55;103;1;92;67;15;55;63;3;61;101];
 [1;97;37;6;76;72;2;62;90;2;62;92;2;62;94;1];
 [97;36;6;76;67;3;61;102;1;97;34;3;61;105;2;62];
 [91;1;97;35;2;62;93;1;97;33;3;61;104;3;67;65];
 [2;69;102;2;69;93;2;69;96;2;69;100;1;101;97;2];
 [69;98;4;63;80;2;69;97;2;69;94;2;69;95;1;101];
 [95;2;69;101;1;101;94;3;67;68;1;101;99;1;101;98];
 [1;101;96;4;63;74;2;69;99;3;101;36;2;76;80;4];
 [69;93;2;76;79;3;72;75;3;72;77;2;76;75;3;72];
 [80;3;72;79;1;106;33;2;76;78;2;76;77;1;106;34];
 [3;72;82;15;74;100;4;75;99;4;69;94;4;75;107;1];
 [110;41;3;77;85;2;82;90;3;77;86;1;110;42;1;110];
 [38;1;110;40;3;77;90;1;110;37;1;110;39;3;77;83];
 [3;77;87;2;88;121;3;82;42;1;113;90;2;88;123;2];
 [88;122;3;85;100;2;76;76;1;113;92;1;113;91;1;113];
 [88;1;113;89;3;82;44;15;91;89;3;82;41;2;94;34];
 [4;87;73;2;93;126;1;116;84;2;94;33;4;87;72;2];
 [94;35;2;93;125;2;93;124;2;98;76;1;118;116;1;118];
 [114;1;118;115;3;90;102;4;96;69;3;90;101;2;102;48];
 [2;102;49;1;120;88;3;90;103;1;120;87;2;105;80;2];
 [105;81;2;105;79;3;92;100;2;109;102;2;109;103;3;96];
 [118;3;96;119;1;70;126;2;34;104;1;75;54;2;40;69];
 [1;79;41;1;79;40;2;40;70;3;46;68;3;46;71;2];
 [44;97;1;82;114;2;44;96;1;82;115;3;46;73;3;46];
 [72;1;87;57;2;49;91;2;49;89;2;49;95;1;87;58];
 [2;49;90;2;49;94;2;49;92;2;49;93;2;55;107;2];
 [55;109;3;55;114;1;92;68;3;55;113;2;55;108;1;92];
 [69;1;97;40;1;97;39;1;97;38;2;62;95;3;55;112];
 [4;57;101;2;69;105;1;101;100;1;101;101;3;67;70;2];
 [69;104;2;69;103;3;67;71;3;101;124;2;76;81;1;106];
 [36;1;106;35;2;76;82;2;76;83;1;110;44;1;110;43];
 [3;77;91;2;89;33;2;82;91;2;82;93;2;82;92;2];
 [88;126;2;88;124;2;89;34;2;88;125;5;86;82;1;113];
 [93;3;82;47;4;82;39;3;82;46;2;94;36;1;116;85];
 [2;94;37;2;94;38;3;85;104;1;118;117;1;118;118;4];
 [96;75;1;122;34;3;94;73;3;94;72;1;124;61;1;71];
 [33;3;38;126;3;39;33;4;39;91;3;42;71;3;46;78];
 [2;44;98;3;46;79;3;46;77;3;46;75;3;46;76;15];
 [44;118;2;49;96;1;87;59;3;51;35;3;51;38;3;51];
 [39;3;51;36;1;93;126;1;93;125;3;55;115;3;61;113];
 [1;97;42;2;62;97;1;97;41;2;62;96;3;61;112;4];
 [63;87;3;67;73;3;67;74;2;69;106;3;72;84;1;106];
 [37;2;76;84;1;106;38;3;72;85;3;82;48;3;85;105];
 [3;85;106;4;87;80;3;88;73;1;122;35;2;105;82;3];
 [95;85;1;72;76;1;79;42;2;40;71;3;46;81;1;82];
 [117;3;46;80;1;82;116;2;44;99;2;44;100;2;49;98];
 [2;49;100;1;87;60;2;49;102;2;49;105;2;49;103;3];
 [51;43;4;46;113;3;51;42;2;49;104;2;49;101;2;49];
 [97;1;87;61;2;49;106;2;49;99;3;51;44;3;55;120];
 [3;55;121;2;55;118;1;92;75;2;56;33;1;92;72;3];
 [55;119;2;55;120;1;92;76;3;55;123;1;92;70;3;55];
 [118;2;55;115;2;56;34;2;55;116;2;55;113;1;92;74];
 [4;51;124;1;92;71;4;51;122;2;55;119;2;55;122;1];
 [92;73;2;55;123;1;92;77;2;55;124;2;55;114;2;55];
 [121;2;55;125;2;55;117;2;55;112;2;55;110;3;55;122];
 [3;101;125;2;55;126;15;55;77;2;55;111;15;54;126;5];
 [59;36;2;62;104;3;61;123;3;61;120;3;61;117;2;62];
 [100;2;62;106;1;97;45;2;62;99;2;62;101;1;97;43];
 [2;62;98;1;97;50;2;62;102;1;97;49;2;62;103;1];
 [97;51;1;97;46;1;97;52;1;97;47;3;61;121;1;97];
 [48;3;61;114;1;97;44;3;61;118;2;62;105;3;101;126];
 [3;67;79;4;63;103;1;101;104;2;69;117;3;67;76;2];
 [69;120;2;69;108;2;69;113;2;69;107;1;101;106;3;67];
 [85;2;69;111;4;63;94;3;67;77;3;61;119;2;69;109];
 [1;101;105;3;67;84;2;69;116;2;69;115;2;69;112;2];
 [69;114;2;69;110;1;106;42;2;69;119;1;101;102;2;69];
 [118;3;67;81;15;68;69;3;72;86;2;76;100;3;72;88];
 [1;106;49;2;76;95;3;72;96;1;106;48;2;76;85;4];
 [69;107;2;76;87;1;106;41;2;76;92;2;76;91;2;76];
 [94;1;106;46;2;76;89;2;76;88;3;72;90;3;72;94];
 [1;106;45;1;106;40;2;76;90;1;106;43;2;76;96;2];
 [76;98;2;76;93;2;76;86;1;106;44;3;72;87;3;72];
 [93;1;110;52;1;106;39;4;69;100;3;72;92;2;76;99];
 [4;69;112;2;82;97;1;110;45;3;77;92;2;82;99;4];
 [76;43;1;110;46;3;77;101;3;77;93;1;110;48;2;82];
 [102;4;75;122;2;82;94;1;106;47;2;82;100;4;75;115];
 [4;76;49;4;75;116;4;76;42;2;82;96;3;77;96;1];
 [101;103;1;110;51;4;76;33;4;75;120;1;110;47;4;76];
 [38;1;110;49;1;110;50;4;75;118;1;113;96;2;82;101];
 [2;82;95;1;110;53;3;77;99;2;82;98;3;102;33;2];
 [89;44;2;89;39;4;82;45;5;86;105;2;89;49;1;113];
 [94;2;89;41;1;113;98;2;89;47;2;89;38;2;89;35];
 [2;89;50;1;116;91;1;113;99;2;89;46;2;89;36;1];
 [113;97;2;89;40;1;113;101;2;89;37;2;89;42;1;113];
 [100;2;89;45;2;89;48;3;82;51;3;82;52;2;94;56];
 [2;94;57;2;94;41;2;94;48;2;94;46;4;87;95;3];
 [85;109;1;116;89;2;94;53;2;89;43;3;85;107;2;94];
 [44;3;85;110;2;94;54;1;116;88;2;94;43;2;94;42];
 [2;94;52;2;94;49;2;94;51;4;87;84;2;94;39;2];
 [94;55;1;116;86;3;85;112;2;94;50;2;94;59;2;94];
 [47;1;116;90;1;116;87;2;94;45;2;94;40;2;94;58];
 [1;113;95;3;85;113;15;91;95;4;87;87;3;85;111;2];
 [98;79;3;88;80;3;88;78;2;98;77;2;98;83;1;118];
 [122;2;98;81;2;98;80;1;118;124;2;98;86;1;118;123];
 [3;88;81;2;98;87;2;98;84;1;118;120;2;98;85;2];
 [98;78;1;118;121;1;118;119;2;102;53;2;98;82;3;88];
 [76;3;102;34;2;98;88;3;102;35;2;102;50;3;90;111];
 [3;90;110;4;96;78;1;120;93;1;120;91;2;102;52;4];
 [96;76;2;102;54;2;102;51;1;120;92;1;120;89;1;120];
 [90;1;120;94;3;102;36;1;122;37;3;92;102;2;105;87];
 [5;108;121;2;105;86;2;105;84;2;105;83;2;105;85;3];
 [92;101;1;122;36;1;122;38;3;102;37;15;101;103;1;122];
 [123;3;94;76;4;102;111;2;107;115;2;107;114;3;92;103];
 [3;94;75;2;109;104;3;95;88;2;109;106;2;109;108;2];
 [109;107;2;109;105;3;95;87;3;96;63;1;123;109;1;123];
 [108;3;96;62;1;124;63;1;124;62;1;124;64;2;111;60];
 [2;111;59;3;102;38;2;113;43;2;112;70;2;113;44;1];
 [125;37;3;97;68;1;125;38;2;113;92;4;109;91;3;98];
 [58;1;125;75;1;72;77;3;42;73;2;40;72;3;42;72];
 [3;46;82;2;44;102;2;44;103;2;44;101;3;46;84;3];
 [46;83;1;82;118;15;45;33;2;44;104;2;44;105;2;44];
 [106;3;51;49;2;49;107;2;49;113;3;51;46;3;51;48];
 [2;49;111;1;87;62;2;49;109;3;51;50;2;49;110;2];
 [49;112;3;51;45;2;49;108;1;92;78;3;55;125;2;56];
 [35;1;92;80;2;56;37;1;92;79;2;56;36;3;55;126];
 [3;56;33;3;56;62;3;56;34;4;52;34;2;62;108;1];
 [97;53;3;62;33;2;62;110;2;62;107;2;56;38;3;62];
 [35;1;97;54;3;62;34;3;61;126;2;62;109;3;102;39];
 [15;62;33;15;62;35;3;67;88;2;69;123;3;67;92;1];
 [101;107;2;69;121;1;101;108;2;69;122;1;101;109;4;69];
 [116;3;72;98;3;72;97;1;106;50;2;76;104;2;76;101];
 [2;76;103;1;106;51;1;106;52;2;76;102;15;75;39;15];
 [75;43;3;77;111;3;77;113;3;77;109;2;82;103;3;77];
 [112;3;77;115;2;82;104;3;77;114;1;110;54;2;82;106];
 [2;82;105;3;77;110;1;35;35;4;82;68;2;89;54;2];
 [89;55;2;89;51;3;82;55;2;89;52;1;113;102;1;113];
 [103;2;89;53;1;116;97;3;85;117;3;85;116;1;116;93];
 [1;116;98;1;116;94;1;116;96;1;116;92;3;82;57;1];
 [116;95;3;88;85;4;92;90;4;92;91;3;88;84;1;118];
 [125;2;94;60;7;72;87;2;102;56;4;96;90;2;102;55];
 [3;102;40;2;105;88;1;122;39;1;122;40;2;109;110;2];
 [107;116;3;97;105;2;109;109;3;96;64;2;113;45;2;113];
 [114;1;72;78;3;39;34;1;75;55;3;42;75;2;40;73];
 [1;79;43;3;42;74;1;82;121;2;44;109;1;82;119;2];
 [44;107;1;82;124;1;82;120;1;82;125;1;82;123;2;44];
 [108;1;82;122;1;87;66;1;87;65;2;49;124;1;87;74];
 [2;49;117;2;49;123;1;87;70;2;49;116;2;49;122;2];
 [49;120;1;87;69;1;87;71;2;49;119;1;87;64;2;49];
 [118;1;87;75;1;87;72;1;87;76;1;87;73;2;49;115];
 [2;49;114;2;49;121;1;87;67;1;87;63;1;87;68;4];
 [47;37;3;51;55;3;51;59;2;56;53;2;56;46;4;58];
 [38;1;97;59;2;56;45;3;56;41;1;92;84;1;92;91];
 [1;92;88;1;92;94;1;92;93;1;92;89;3;56;38;2];
 [56;39;2;56;42;3;56;39;2;56;41;1;92;85;2;56];
 [43;2;56;52;1;92;86;2;56;40;2;56;49;2;56;50];
 [1;92;87;2;56;47;1;92;92;1;92;82;1;92;90;2];
 [56;44;1;92;81;2;56;48;3;56;46;3;56;36;2;56];
 [51;15;55;84;3;56;43;3;62;52;2;63;33;2;62;118];
 [1;97;56;2;62;125;2;62;122;2;62;114;2;62;123;1];
 [97;58;2;62;115;3;62;41;2;62;111;3;62;38;3;62];
 [46;1;101;115;2;62;120;3;62;47;1;97;55;2;62;126];
 [3;62;40;1;97;62;1;97;64;2;62;113;3;62;44;4];
 [58;39;1;97;63;2;62;116;1;97;57;2;62;124;2;62];
 [117;2;62;121;3;62;42;2;62;119;1;97;60;2;62;112];
 [1;97;65;1;92;83;1;97;61;1;97;66;3;62;36;3];
 [62;53;3;62;51;3;67;103;1;101;111;2;70;36;2;70];
 [38;2;70;40;2;70;44;3;62;43;2;70;34;2;69;126];
 [1;101;113;4;63;113;2;70;39;2;70;43;2;70;35;2];
 [69;125;3;67;102;2;69;124;3;67;105;3;67;96;3;67];
 [98;2;70;41;2;70;33;2;70;37;1;101;114;3;67;94];
 [1;101;112;2;70;45;1;101;110;2;70;42;3;67;100;2];
 [76;121;3;67;104;3;67;106;3;67;99;1;106;55;2;76];
 [113;1;110;67;2;76;123;1;106;58;2;77;33;1;106;64];
 [2;76;108;3;72;116;4;69;123;2;76;124;2;76;105;3];
 [72;109;2;76;126;2;76;109;3;72;110;1;106;71;1;106];
 [68;2;76;125;2;76;119;1;106;54;1;106;62;1;106;61];
 [3;72;112;1;106;60;1;106;66;3;72;105;2;76;106;1];
 [106;67;2;76;120;1;106;63;1;106;53;2;76;122;1;106];
 [56;1;106;57;1;106;65;2;76;111;2;76;110;2;76;107];
 [4;69;124;2;76;115;2;76;112;2;76;116;1;106;70;3];
 [72;104;2;77;34;1;106;59;2;76;117;2;76;118;3;72];
 [113;2;76;114;3;72;115;3;102;41;3;72;107;1;106;69];
 [3;102;43;3;78;34;2;82;111;1;110;59;1;110;68;1];
 [110;64;2;82;108;3;77;124;1;110;61;1;110;65;2;82];
 [120;1;110;55;2;82;112;3;77;120;1;110;63;3;78;36];
 [3;78;47;2;82;115;2;82;110;1;110;62;1;110;66;2];
 [82;109;3;78;46;1;110;60;3;77;119;2;82;119;1;110];
 [57;2;82;118;2;82;117;1;110;69;2;80;59;1;110;56];
 [3;78;43;2;82;116;2;82;107;3;77;117;1;110;70;2];
 [82;114;1;110;58;3;78;40;3;78;41;3;78;37;3;78];
 [44;3;78;39;3;77;126;3;77;125;2;82;113;4;76;69];
 [3;102;42;1;113;106;1;113;111;1;113;104;2;89;68;2];
 [89;59;2;89;71;2;89;63;2;89;69;1;113;112;1;113];
 [105;2;89;56;2;89;62;2;89;72;2;89;65;2;89;70];
 [2;89;58;4;82;76;3;82;59;2;89;66;1;113;107;2];
 [89;64;1;113;110;1;113;109;2;89;60;2;89;61;2;89];
 [57;2;89;67;1;113;108;2;89;74;2;89;73;3;82;64];
 [3;82;63;2;94;71;2;94;67;1;116;105;3;85;121;2];
 [94;61;1;116;99;1;116;115;2;94;73;1;116;107;1;116];
 [103;2;94;64;1;116;110;1;116;113;2;94;75;1;116;102];
 [2;94;66;1;116;111;2;94;77;2;94;74;2;94;62;1];
 [116;106;1;116;100;1;116;114;2;94;69;1;116;109;2;94];
 [63;1;116;104;2;94;76;1;116;108;1;116;101;2;94;70];
 [1;116;112;2;94;68;2;94;72;3;85;122;4;92;95;3];
 [88;89;2;98;90;2;98;96;1;119;37;2;98;99;1;118];
 [126;1;119;33;2;98;91;2;98;98;2;98;93;1;119;38];
 [1;119;35;3;88;91;2;98;89;3;88;88;1;119;34;2];
 [98;95;2;98;97;1;119;36;2;98;94;2;98;92;3;102];
 [44;4;92;94;3;88;90;2;102;66;1;120;98;1;120;99];
 [1;120;95;3;90;114;1;120;96;3;90;116;2;102;62;2];
 [102;60;3;90;117;2;102;64;1;120;100;2;102;65;2;102];
 [58;2;102;57;2;102;61;2;102;59;1;120;97;2;102;63];
 [2;105;89;1;122;43;1;122;42;2;105;90;3;92;108;2];
 [105;92;2;105;91;1;122;44;3;94;83;3;94;80;2;107];
 [121;2;107;118;2;107;119;3;94;81;2;107;117;2;107;120];
 [1;122;125;2;107;122;3;94;82;1;122;124;2;109;111;3];
 [95;90;1;124;65;1;124;67;2;111;61;1;124;66;2;112];
 [71;2;113;47;2;113;49;2;113;46;2;113;48;1;125;57];
 [4;109;120;3;98;53;1;72;79;4;37;87;1;82;126;2];
 [48;82;1;87;77;3;56;49;15;49;120;1;92;95;2;63];
 [34;2;63;35;3;102;45;3;72;119;2;89;75;1;116;116];
 [2;94;78;3;85;125;3;88;92;1;119;39;2;102;68;2];
 [102;67;1;122;45;2;107;123;3;95;91;2;109;112;1;124];
 [100;2;34;105;4;34;33;1;79;44;1;75;56;15;40;74];
 [2;44;110;3;42;78;2;50;36;2;49;125;2;50;35;2];
 [50;33;1;87;78;2;50;34;2;49;126;3;51;60;2;56];
 [54;4;58;43;2;63;36;2;63;37;2;70;48;2;70;49];
 [1;101;117;1;101;118;2;70;47;2;70;50;2;70;46;1];
 [101;116;3;72;120;1;106;72;3;72;121;1;101;119;2;77];
 [35;1;110;71;2;82;121;1;110;72;3;78;48;1;113;113];
 [2;89;78;2;89;76;2;89;77;2;94;81;2;94;80;2];
 [94;79;7;65;97;4;92;104;2;102;69;4;96;111;1;120];
 [101;2;102;70;2;109;113;1;124;101;2;112;72;1;72;80];
 [1;79;46;1;79;45;2;44;112;1;83;33;3;46;93;4];
 [47;48;2;44;111;2;50;38;3;51;61;1;87;79;2;56];
 [55;2;50;37;3;51;63;4;47;47;3;51;62;1;92;97];
 [2;56;58;2;56;56;2;56;57;1;92;96;2;63;39;2];
 [63;40;2;63;38;3;67;110;1;101;122;2;70;52;2;70];
 [51;2;70;53;1;101;121;1;101;120;4;70;38;2;82;122];
 [2;82;124;3;78;49;1;110;73;2;82;123;2;89;79;1];
 [113;114;2;98;101;3;88;93;2;98;100;1;120;102;2;102];
 [71;1;120;104;1;120;103;2;105;93;2;107;124;1;122;126];
 [1;72;81;2;44;113;1;83;34;2;50;41;1;87;81;2];
 [50;40;2;50;39;3;51;66;1;87;80;3;51;67;2;56];
 [64;4;52;61;2;56;66;2;56;59;2;56;60;1;92;98];
 [2;56;61;1;92;99;2;56;65;2;56;62;2;56;63;1];
 [92;100;3;62;55;1;97;68;1;97;69;3;62;56;2;63];
 [41;2;70;54;2;70;55;3;67;114;2;77;39;1;106;75];
 [1;106;73;1;106;74;2;77;36;2;77;37;6;96;88;2];
 [77;38;2;83;35;3;78;50;2;83;36;1;110;74;2;83];
 [33;2;82;126;2;83;34;2;82;125;1;113;117;2;89;80];
 [1;113;115;1;113;116;2;94;83;1;116;117;2;94;82;2];
 [97;52;3;85;126;2;98;102;2;98;103;1;119;40;3;88];
 [97;1;119;41;1;116;118;2;102;72;2;102;73;2;105;94];
 [1;122;46;1;72;82;3;102;123;1;72;83;1;87;83;1];
 [79;47;1;87;82;2;44;114;3;56;54;4;43;37;3;51];
 [68;1;97;70;1;72;84;1;83;36;2;44;115;2;44;116];
 [1;83;35;1;83;37;1;72;85;4;39;97;2;44;117;1];
 [87;85;2;50;42;1;87;87;1;87;84;1;87;86;3;56];
 [55;2;56;69;1;92;101;3;56;57;2;56;68;2;56;67];
 [4;58;56;2;70;56;3;73;34;2;77;40;4;70;44;1];
 [110;75;1;113;118;2;89;82;2;89;81;3;86;33;2;94];
 [84;4;92;113;3;88;98;3;92;111;2;107;125;4;105;46];
 [4;105;45;1;72;86;2;36;115;2;40;74;1;83;38;2];
 [44;118;6;59;33;2;50;44;4;47;58;3;51;73;3;51];
 [72;1;87;88;2;50;43;1;87;89;3;51;71;3;102;47];
 [2;56;71;3;56;61;3;56;60;1;92;103;2;56;70;2];
 [56;72;3;56;59;1;92;102;3;62;60;2;63;43;2;63];
 [44;2;63;42;1;97;71;3;103;41;4;63;124;1;101;123];
 [3;67;115;1;101;124;4;70;51;1;106;77;3;73;35;2];
 [77;42;2;77;41;1;106;76;3;73;38;3;62;59;3;73];
 [37;3;102;48;2;83;37;3;78;52;3;78;54;2;83;38];
 [3;78;55;3;78;53;3;78;56;2;89;83;4;82;92;3];
 [82;67;1;116;122;1;116;121;1;116;119;1;116;120;1;116];
 [123;3;86;34;2;98;104;1;119;43;1;119;42;2;102;74];
 [2;105;95;3;92;112;3;92;113;3;92;114;1;123;111;1];
 [123;110;1;72;87;6;59;36;2;47;125;1;101;126;1;97];
 [72;1;101;125;1;106;78;6;96;96;1;72;88;2;33;104];
 [1;72;89;1;72;90;3;36;53;3;36;54;2;40;75;2];
 [36;118;3;39;36;2;36;119;1;75;58;3;39;38;2;36];
 [116;1;75;57;3;39;37;1;75;60;2;36;117;1;75;62];
 [1;75;61;2;36;120;1;75;59;4;36;112;3;39;35;1];
 [79;52;1;79;50;2;40;77;3;42;86;1;79;49;3;42];
 [91;3;42;88;3;42;79;1;79;54;1;79;56;1;79;53];
 [3;42;89;2;40;80;2;40;76;1;79;57;3;42;82;1];
 [79;51;1;75;63;3;42;84;1;79;55;2;40;79;3;42];
 [87;4;39;100;2;40;78;4;39;105;1;79;48;3;102;49];
 [2;44;124;1;83;42;1;83;43;2;44;126;3;46;102;2];
 [44;120;2;44;123;2;45;38;2;45;36;3;46;96;1;83];
 [44;2;45;42;1;83;47;2;45;39;2;44;125;2;44;122];
 [3;46;97;3;46;94;2;63;46;2;45;37;1;83;39;2];
 [45;40;2;44;119;2;45;34;1;83;41;1;83;46;2;45];
 [35;1;83;50;1;83;48;3;46;101;2;44;121;1;83;45];
 [3;46;100;2;45;33;1;83;49;1;83;40;2;45;41;1];
 [87;94;3;51;76;1;87;103;1;87;92;1;87;90;2;50];
 [46;1;87;98;1;87;95;2;50;48;3;51;74;3;51;82];
 [1;87;97;2;50;47;2;50;45;2;50;50;1;87;102;1];
 [87;100;2;63;45;3;51;75;2;50;51;2;50;49;1;87];
 [91;3;51;78;3;51;77;1;87;93;1;87;96;3;51;79];
 [1;87;99;3;46;99;1;87;101;3;62;68;2;56;82;1];
 [92;105;3;56;73;2;56;73;2;56;75;3;56;71;2;56];
 [76;4;52;77;2;56;84;2;56;80;2;56;78;4;58;59];
 [2;56;81;2;56;85;1;92;106;1;92;110;2;56;74;4];
 [52;71;2;56;83;4;52;80;1;92;108;3;56;65;1;92];
 [107;2;56;79;2;56;77;3;56;66;1;92;104;1;92;109];
 [3;56;69;3;56;72;1;97;78;2;63;54;3;62;62;4];
 [58;62;2;63;52;1;97;80;4;58;71;3;62;67;3;62];
 [69;3;62;65;2;63;47;2;70;70;3;62;61;1;97;79];
 [2;63;51;3;62;64;3;62;66;2;63;48;1;97;75;1];
 [97;81;2;63;53;1;97;77;2;63;50;1;106;79;1;97];
 [76;2;63;49;1;97;82;1;97;74;1;97;73;6;67;90];
 [2;70;62;2;70;60;3;67;123;2;70;66;3;67;126;2];
 [70;58;2;70;71;2;70;63;3;67;117;2;70;57;1;102];
 [36;1;102;42;2;70;68;4;64;41;2;70;61;3;67;118];
 [1;102;39;3;67;119;3;68;35;1;102;37;2;70;69;1];
 [102;34;1;102;33;2;70;64;1;102;38;1;97;83;3;67];
 [124;2;70;67;2;70;59;1;102;35;1;102;40;1;102;41];
 [3;68;34;1;106;84;1;106;80;3;73;39;1;106;85;2];
 [77;45;3;73;42;4;70;57;2;77;44;2;77;46;1;106];
 [82;2;77;43;1;106;83;2;77;49;2;77;48;2;77;47];
 [4;70;70;1;106;81;4;82;103;3;78;59;3;78;61;3];
 [78;57;2;83;42;3;78;60;2;83;45;1;110;81;2;83];
 [44;1;110;80;1;110;76;1;110;77;1;110;78;2;83;41];
 [2;83;40;1;110;79;3;78;58;2;83;43;2;83;39;2];
 [89;85;2;89;95;1;113;121;1;113;120;3;82;73;2;89];
 [89;2;89;91;3;82;71;2;89;86;3;82;68;2;89;90];
 [2;89;84;2;89;93;1;113;119;2;89;92;2;89;88;2];
 [89;94;3;86;35;2;89;87;1;116;126;2;94;85;2;94];
 [91;1;117;36;1;117;38;1;117;35;1;117;34;4;88;39];
 [1;117;33;1;116;125;2;94;86;2;94;89;1;116;124;2];
 [94;90;3;86;36;1;117;37;2;94;88;7;72;124;2;94];
 [87;1;119;44;3;88;101;1;119;45;2;98;107;2;98;105];
 [2;98;106;3;90;119;2;102;76;3;90;120;2;102;75;1];
 [120;105;2;105;97;1;122;47;2;105;96;2;107;126;2;109];
 [114;1;123;112;2;113;50;2;113;51;1;124;68;1;72;91];
 [4;39;108;1;79;58;2;63;55;1;106;86;1;117;39;2];
 [94;92;1;72;92;4;36;115;1;87;105;1;87;104;2;63];
 [56;3;62;71;4;58;76;4;76;98;2;89;96;1;72;93];
 [1;83;51;4;58;77;3;62;72;2;63;57;2;63;58;2];
 [63;59;1;106;87;1;113;122;1;72;94;4;39;109;1;79];
 [59;2;45;43;1;87;106;2;50;52;1;92;111;3;62;73];
 [2;63;60;1;102;43;1;106;88;1;113;123;1;117;40;1];
 [119;46;2;102;77;1;72;95;1;79;60;3;42;93;4;39];
 [110;1;87;107;2;56;86;1;97;84;3;73;43;1;106;89];
 [2;77;50;2;83;46;3;82;74;3;88;104;3;90;121;1];
 [72;96;1;97;85;2;70;72;1;106;90;1;72;97;2;40];
 [81;2;45;44;1;83;52;3;46;104;2;50;54;4;47;79];
 [3;51;87;1;87;110;3;51;88;1;87;108;1;87;109;1];
 [87;111;3;51;85;2;50;53;2;56;91;2;56;88;2;56];
 [90;1;92;112;1;92;114;1;92;113;2;56;87;1;92;115];
 [2;56;89;2;63;61;2;63;62;2;63;63;2;70;75;3];
 [68;38;2;70;76;4;64;46;2;70;74;2;70;77;4;64];
 [45;1;102;44;3;102;52;2;70;73;3;73;45;1;106;91];
 [3;73;46;2;83;51;2;83;47;2;83;50;2;83;52;2];
 [83;49;2;83;48;2;89;97;2;89;98;2;89;99;1;113];
 [124;1;113;125;2;94;94;2;94;93;2;94;95;2;98;109];
 [2;98;108;2;102;79;3;90;122;2;102;80;2;102;78;3];
 [90;123;1;122;48;4;100;44;2;105;98;2;105;99;3;94];
 [85;2;109;115;2;111;62;2;112;73;1;72;98;1;75;64];
 [1;117;41;1;72;99;15;50;50;2;56;92;2;63;64;3];
 [90;124;1;124;108;2;34;106;4;33;83;3;36;56;2;34];
 [107;2;34;109;1;72;100;2;34;110;2;34;108;4;35;47];
 [2;37;34;2;37;35;2;36;123;3;39;40;4;36;123;4];
 [36;117;2;37;33;1;75;66;3;39;41;1;75;67;2;36];
 [124;2;36;122;2;36;121;2;36;125;1;75;65;2;36;126];
 [2;45;45;3;39;43;4;36;121;2;40;86;1;79;63;2]].

