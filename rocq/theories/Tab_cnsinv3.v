(** GENERATED by tools/gen.py from /repo/lib/converters; do not edit.
    Mapping tables. *)
From Coq Require Import ZArith List Bool.
From Verif Require Import Base.
Import ListNotations.
Open Scope Z_scope.

(* lib/converters/cns11643_inv.h:30-13893 cns11643_inv_2charset, part 3 of 3 *)
Definition cns11643_inv_2charset_part3 : list (list Z) := [
 [51;6;75;48;6;75;49;5;57;122;5;57;124;5;51;74];
 [15;61;41;6;75;54;5;71;43;5;64;62;5;64;60;4];
 [62;80;6;94;100;6;84;115;5;71;38;6;84;114;6;84];
 [117;6;84;116;15;67;64;15;67;65;5;64;61;6;84;119];
 [5;64;59;4;68;97;5;71;45;5;71;40;5;71;46;5];
 [71;44;6;94;95;6;94;99;5;71;39;5;71;42;6;94];
 [103;6;94;98;6;94;97;5;64;58;6;94;102;15;73;104];
 [15;73;105;15;73;106;15;73;107;5;71;47;5;71;41;6];
 [94;96;6;84;118;6;94;101;15;73;108;5;71;48;5;78];
 [54;7;37;38;4;74;116;5;78;57;5;78;58;5;78;56];
 [4;74;112;5;78;53;15;80;63;7;37;40;7;37;39;7];
 [47;112;5;85;73;5;85;78;7;47;113;5;85;75;5;85];
 [77;5;85;74;5;85;76;7;47;111;7;57;48;7;57;46];
 [5;92;39;4;86;104;4;86;105;7;47;110;7;57;47;7];
 [64;87;7;64;88;5;104;58;7;83;106;7;71;114;7;71];
 [115;7;71;113;5;104;57;7;78;63;5;108;84;5;108;85];
 [5;112;69;7;83;108;5;112;68;5;112;70;7;88;58;5];
 [115;89;7;91;116;5;115;88;7;91;117;7;91;115;5;119];
 [105;7;97;35;15;108;49;7;100;80;15;33;61;6;35;50];
 [5;33;119;5;33;120;5;34;120;5;34;123;5;34;119;4];
 [35;40;5;34;122;6;37;55;5;34;121;5;36;94;5;36];
 [95;4;36;91;4;39;55;6;40;88;4;36;90;5;36;90];
 [6;40;94;5;36;91;6;40;91;5;39;47;6;44;114;4];
 [36;87;5;36;93;5;36;92;6;40;90;6;40;89;6;44];
 [115;15;36;119;6;40;87;6;40;92;6;40;93;6;40;86];
 [4;36;88;6;44;122;5;39;40;6;44;123;5;39;44;6];
 [44;121;6;44;124;5;39;39;5;39;42;6;44;120;5;39];
 [45;5;39;37;5;39;41;5;39;36;6;44;119;4;39;56];
 [5;42;54;6;40;85;6;50;96;5;39;43;6;44;118;15];
 [40;34;6;44;125;6;44;116;4;39;53;5;42;53;5;42];
 [62;6;50;104;5;42;57;6;57;75;5;42;61;6;50;97];
 [6;57;76;6;65;108;5;42;60;4;42;49;5;42;59;6];
 [50;100;5;42;58;6;50;102;4;42;51;5;42;64;6;50];
 [99;5;39;38;5;42;55;5;42;56;15;44;42;15;44;44];
 [15;44;45;6;50;101;15;44;43;5;42;63;6;57;78;5];
 [46;94;4;51;33;6;57;73;6;57;77;4;46;37;5;46];
 [91;5;46;96;5;46;93;4;46;35;6;57;69;6;57;74];
 [15;48;119;15;48;120;6;57;72;5;46;90;4;46;36;6];
 [57;71;6;57;79;5;46;95;6;57;70;5;51;78;15;48];
 [118;4;51;36;6;65;110;5;51;85;5;57;126;5;51;82];
 [6;65;112;6;65;115;5;51;79;6;65;111;6;75;59;4];
 [51;38;5;51;83;6;75;56;6;75;55;5;51;80;6;75];
 [57;6;65;113;6;65;114;6;65;116;6;75;58;5;58;40];
 [6;84;123;5;58;38;5;64;63;4;56;117;5;58;34;6];
 [75;68;5;64;64;5;58;39;4;56;118;5;58;37;5;58];
 [36;4;56;120;6;75;63;4;62;81;5;58;33;6;75;60];
 [6;75;62;4;62;87;15;61;42;15;61;43;6;84;121;6];
 [82;114;6;84;122;6;75;64;6;75;65;6;75;69;6;75];
 [61;5;58;35;15;67;67;4;62;86;5;64;72;6;85;34];
 [5;64;71;4;62;85;6;85;39;5;64;75;6;85;36;6];
 [84;126;6;84;125;6;85;38;5;64;70;5;64;68;5;64];
 [67;6;85;33;5;64;66;6;85;40;5;64;74;5;64;65];
 [4;62;88;5;64;73;6;85;37;15;67;69;15;67;70;15];
 [73;112;15;80;64;5;64;69;6;85;35;5;64;76;6;94];
 [109;5;71;58;6;94;105;7;37;41;5;71;55;4;68;107];
 [5;71;53;5;71;51;6;94;108;5;71;59;5;71;54;5];
 [71;52;6;94;112;4;68;108;5;71;49;15;73;109;7;37];
 [42;15;73;111;6;94;107;6;94;104;6;94;106;6;94;111];
 [4;74;125;5;71;61;5;71;60;5;71;57;5;71;56;6];
 [94;113;5;71;50;7;37;49;4;74;120;4;74;121;7;37];
 [48;5;78;60;7;37;52;7;47;115;5;78;65;7;37;47];
 [7;37;43;5;78;62;5;78;69;5;78;59;5;78;68;5];
 [78;67;5;78;61;5;85;79;7;47;114;5;78;63;5;78];
 [64;5;78;70;7;37;44;7;37;45;15;85;117;5;85;80];
 [7;37;46;7;37;51;15;73;110;4;81;51;5;78;66;5];
 [85;87;4;81;53;5;85;85;5;85;81;5;85;82;7;47];
 [121;4;81;49;7;47;120;7;47;119;5;92;40;4;81;54];
 [5;85;83;5;85;86;7;47;117;7;57;50;4;86;109;7];
 [57;49;7;47;118;7;37;50;15;85;119;7;37;53;5;85];
 [84;5;92;42;7;57;51;5;92;41;7;71;119;7;57;53];
 [7;57;52;15;91;41;15;91;42;15;91;43;15;91;44;7];
 [64;93;5;98;85;5;98;84;7;64;90;7;64;89;7;64];
 [92;4;91;104;7;64;91;15;95;78;15;95;79;5;98;86];
 [4;99;100;7;71;120;7;78;64;7;71;118;7;71;116;7];
 [78;65;5;108;86;7;78;66;5;112;72;7;83;109;5;112];
 [71;4;104;116;5;112;73;7;88;59;7;91;118;7;91;120];
 [7;91;119;5;119;106;7;94;122;15;107;85;7;97;36;7];
 [99;89;15;40;35;6;75;70;6;94;114;5;33;76;6;37];
 [56;6;35;51;6;40;95;5;36;97;4;36;93;4;36;92];
 [6;40;97;6;40;96;15;36;121;5;36;96;5;39;48;6];
 [45;37;4;39;60;5;42;65;15;40;37;15;40;38;15;40];
 [39;15;40;40;15;40;41;6;45;35;15;44;64;15;40;36];
 [6;45;34;15;44;60;6;50;105;5;42;69;5;42;66;4];
 [42;54;6;50;107;6;47;105;15;44;47;15;44;48;15;44];
 [49;15;44;51;15;44;52;15;44;53;15;44;54;15;44;55];
 [15;44;56;15;44;58;15;44;59;15;44;61;6;50;106;6];
 [50;108;15;44;62;15;44;63;15;44;46;5;42;68;5;42];
 [67;6;57;83;5;51;86;5;46;97;4;46;41;6;57;81];
 [4;46;40;6;57;82;6;57;84;15;48;121;15;48;122;15];
 [48;123;15;48;124;15;48;125;15;48;126;15;49;33;15;49];
 [35;15;49;36;15;49;37;15;49;38;6;57;80;15;54;99];
 [4;51;49;6;57;85;6;65;122;5;51;87;6;65;123;4];
 [51;50;6;65;119;6;65;120;6;65;121;15;49;34;15;54];
 [86;15;54;88;15;54;92;15;54;95;15;54;96;15;54;97];
 [15;54;98;15;54;100;15;54;93;6;65;124;15;54;91;15];
 [54;90;15;54;94;5;51;88;6;65;118;15;61;62;15;61];
 [52;6;75;75;5;58;43;5;58;42;5;58;44;6;85;41];
 [4;62;90;5;64;77;15;61;56;4;56;124;6;75;73;6];
 [75;76;15;61;44;15;61;45;15;61;46;15;61;47;15;61];
 [48;15;61;50;15;61;53;15;61;54;15;61;55;15;61;57];
 [15;61;58;15;61;63;15;67;80;6;75;78;6;85;50;6];
 [75;77;15;61;64;6;75;72;6;75;74;6;85;42;15;61];
 [51;15;61;61;15;61;49;5;58;41;6;85;43;6;85;48];
 [4;62;91;6;85;49;6;85;47;6;85;46;5;71;62;15];
 [67;71;15;67;74;15;67;76;15;67;77;15;67;78;15;67];
 [79;15;67;81;15;67;82;15;67;83;15;67;84;15;67;85];
 [15;67;87;15;67;88;15;67;90;15;67;91;15;67;92;15];
 [67;93;15;67;94;15;67;95;15;67;96;15;67;97;15;67];
 [98;15;67;99;15;67;101;6;85;44;5;64;79;5;58;46];
 [15;67;75;15;67;72;5;71;63;6;85;45;15;67;89;15];
 [73;122;15;73;123;15;74;38;7;37;56;6;94;116;5;71];
 [65;7;37;54;4;68;109;5;71;64;6;94;117;6;94;119];
 [6;94;118;6;94;115;15;73;113;15;73;114;15;73;115;15];
 [73;116;15;73;117;15;73;119;15;73;120;15;73;121;15;73];
 [124;15;73;125;15;73;126;15;74;33;15;74;34;15;74;36];
 [15;74;37;15;74;39;15;74;40;15;74;41;5;71;66;3];
 [72;38;7;37;57;15;74;35;7;37;64;4;74;126;5;78];
 [71;7;47;123;7;37;58;7;47;122;7;37;60;7;37;63];
 [7;37;65;7;37;66;15;80;65;15;80;66;15;80;67;15];
 [80;68;15;80;69;15;80;70;15;80;72;15;80;73;15;80];
 [74;15;80;75;15;80;76;7;37;61;5;78;72;7;37;59];
 [5;78;73;15;85;124;15;86;46;15;80;71;7;48;34;7];
 [37;62;5;85;88;5;85;91;5;85;89;4;81;59;7;48];
 [36;7;47;125;7;47;126;7;47;124;4;81;60;7;48;33];
 [15;85;120;15;85;121;15;85;123;15;85;125;15;86;35;15];
 [86;36;15;86;37;15;86;38;15;86;39;15;86;41;15;86];
 [45;15;86;47;7;48;37;7;48;35;7;57;54;15;86;48];
 [15;86;33;15;86;40;5;85;92;5;85;90;15;86;44;7];
 [57;59;7;57;61;5;92;45;5;92;43;7;64;94;7;57];
 [57;4;91;106;4;86;110;4;86;112;7;57;56;15;91;46];
 [15;91;47;15;91;48;15;91;49;15;91;50;15;91;51;15];
 [91;52;15;91;53;5;92;44;7;57;58;7;57;60;7;57];
 [55;7;64;95;5;104;60;4;91;107;5;98;87;4;96;38];
 [7;64;96;4;96;40;15;95;81;15;95;83;15;95;84;15];
 [95;85;15;95;87;15;95;89;15;95;90;15;95;91;15;95];
 [92;15;95;95;7;64;97;7;64;98;15;95;80;15;95;82];
 [15;95;88;15;99;35;7;71;124;7;71;123;5;104;62;7];
 [71;122;7;78;67;5;104;61;7;71;121;15;98;124;15;98];
 [126;15;99;33;15;99;34;4;96;41;15;98;121;15;98;122];
 [15;98;125;7;83;111;5;108;87;4;102;82;15;101;82;15];
 [101;83;15;101;84;15;101;85;7;78;68;7;83;110;15;95];
 [94;4;102;81;7;85;124;4;102;83;7;88;60;15;103;118];
 [7;91;121;4;106;82;15;105;89;15;105;90;5;118;36;15];
 [106;97;15;106;99;15;107;86;15;106;98;5;121;49;7;97];
 [38;7;97;37;15;108;50;5;122;44;4;110;52;6;45;38];
 [5;42;71;5;42;70;6;50;109;15;44;65;6;50;110;6];
 [57;86;5;46;99;5;46;100;6;57;87;6;57;88;4;51];
 [54;5;51;89;5;51;90;15;54;101;5;58;47;5;58;48];
 [6;75;79;15;61;65;6;75;80;4;62;92;5;64;80;5];
 [64;81;15;67;102;7;37;69;6;94;120;5;71;67;15;74];
 [42;5;71;68;7;37;68;7;48;38;4;81;61;5;78;74];
 [15;80;77;7;37;67;4;81;62;7;57;62;5;98;88;15];
 [95;96;4;91;109;4;102;84;7;83;112;5;112;74;5;118];
 [37;7;91;122;7;94;123;7;98;59;7;98;60;5;36;98];
 [5;39;49;4;39;61;6;45;39;5;42;72;5;42;73;6];
 [50;111;4;42;59;4;42;62;5;46;101;5;46;103;6;57];
 [92;5;46;102;15;49;41;6;57;91;6;57;89;6;57;90];
 [5;51;93;6;66;34;6;65;126;6;66;36;5;51;94;6];
 [66;35;5;51;92;15;54;102;15;54;104;4;57;34;5;58];
 [49;6;85;54;4;57;39;5;58;52;5;58;51;5;51;95];
 [6;75;82;5;58;50;5;51;91;6;75;81;6;75;83;4];
 [62;100;5;64;82;6;85;55;4;62;94;5;64;83;6;85];
 [51;6;85;53;4;62;95;6;85;56;15;67;103;6;85;52];
 [5;71;71;6;94;124;5;71;69;6;94;122;4;68;114;6];
 [94;121;6;94;123;5;71;70;4;75;40;7;37;74;5;78];
 [76;5;78;77;5;78;78;7;37;70;7;37;71;7;37;73];
 [7;48;39;4;86;116;7;48;40;5;85;95;5;85;97;4];
 [81;64;5;85;96;5;85;94;4;86;118;5;92;46;4;86];
 [119;7;57;64;7;57;63;5;78;75;4;91;112;5;98;91];
 [5;98;90;7;64;100;5;98;89;7;64;101;5;104;63;7];
 [78;69;7;83;113;7;83;114;4;102;86;5;112;75;4;102];
 [85;7;83;115;4;104;118;7;88;61;5;115;90;5;118;40];
 [5;118;39;7;91;123;5;118;38;7;92;107;5;122;108;7];
 [101;56;6;35;52;6;45;40;5;39;51;4;39;62;15;40];
 [43;6;50;112;15;44;67;5;64;84;6;94;125;7;48;43];
 [7;48;41;7;48;42;4;86;121;7;64;102;5;112;76;6];
 [35;53;6;37;57;6;45;41;5;39;52;6;45;42;15;44];
 [68;15;44;69;5;42;74;4;42;63;6;50;113;6;52;121];
 [5;46;105;6;66;38;5;51;96;6;66;37;6;66;39;15];
 [54;105;6;85;57;6;75;84;15;61;67;15;61;66;6;85];
 [59;15;67;104;6;85;58;6;94;126;7;37;75;15;74;43];
 [4;86;122;15;91;54;15;99;38;7;70;110;15;99;37;7];
 [83;116;6;37;58;15;36;122;5;39;53;6;45;46;6;57];
 [93;5;51;97;15;74;44;15;95;97;7;71;125;15;108;51];
 [5;115;91;4;36;95;15;36;124;15;36;123;6;40;99;4];
 [39;66;4;37;83;4;39;63;5;39;54;6;45;49;6;45];
 [48;6;45;51;15;40;44;15;40;45;6;45;47;4;42;66];
 [5;42;77;6;50;116;5;42;76;6;50;115;5;42;75;6];
 [50;118;6;50;122;6;50;119;6;57;101;5;42;78;6;50];
 [120;6;50;117;5;46;110;15;44;70;15;44;71;15;44;72];
 [15;44;73;15;44;75;15;44;76;15;44;77;15;44;78;15];
 [44;79;5;42;79;5;46;106;4;46;46;5;46;107;6;57];
 [97;6;57;96;6;57;98;6;57;95;6;57;99;15;49;42];
 [15;49;43;15;49;44;15;49;46;4;46;48;15;49;45;5];
 [46;109;5;46;108;4;51;62;6;66;40;5;51;99;5;51];
 [98;4;51;61;6;66;44;6;66;47;6;66;42;6;66;45];
 [6;66;46;15;54;107;15;54;108;6;66;43;6;66;41;6];
 [65;107;4;57;43;4;57;41;4;57;42;6;75;87;6;75];
 [89;15;54;106;15;61;70;15;61;71;15;61;72;6;75;88];
 [4;57;45;6;75;85;15;61;68;15;61;69;6;85;64;4];
 [62;106;4;62;103;6;85;62;6;85;63;4;62;102;5;64];
 [86;6;85;60;6;85;66;5;64;85;6;85;67;6;85;68];
 [6;85;65;15;67;105;15;67;106;5;64;87;6;85;61;6];
 [95;35;4;68;122;5;71;74;6;95;34;6;95;37;6;95];
 [40;15;74;45;6;95;38;6;95;36;6;95;39;7;37;80];
 [4;75;44;7;37;76;7;37;78;7;37;77;7;37;79;5];
 [78;79;7;37;81;15;80;79;4;75;43;4;81;69;4;81];
 [67;4;81;70;7;48;44;5;85;98;15;86;50;7;44;59];
 [7;57;65;5;92;51;7;57;67;5;92;49;4;86;123;7];
 [57;66;5;92;52;15;91;55;7;60;118;5;92;48;5;92];
 [50;15;86;49;4;91;113;7;71;126;5;104;65;7;72;35];
 [7;78;70;7;72;33;7;72;36;4;96;45;7;72;34;7];
 [78;72;7;78;71;7;83;119;15;103;119;7;83;117;7;83];
 [118;15;103;82;7;88;62;4;104;119;7;83;120;7;91;125];
 [15;106;100;7;91;124;7;94;124;7;98;62;7;98;61;7];
 [99;90;7;99;92;7;99;91;7;102;41;7;102;53;7;102];
 [70;6;35;54;6;37;59;15;40;46;4;46;50;5;42;80];
 [4;57;46;6;85;70;6;85;69;6;95;41;5;85;99;7];
 [48;46;7;37;82;7;88;63;5;34;124;5;36;100;5;36];
 [101;4;36;96;6;40;102;6;40;103;6;40;101;6;40;104];
 [4;39;69;6;45;53;4;39;68;15;40;47;5;39;56;6];
 [45;54;6;50;125;4;42;75;6;50;124;6;50;123;5;42];
 [82;5;42;86;4;42;71;4;42;72;5;42;83;4;42;69];
 [5;42;84;5;42;81;5;42;85;6;51;36;15;44;80;6];
 [50;126;15;44;81;6;51;34;6;51;35;6;51;33;6;57];
 [105;5;46;111;5;46;115;6;57;111;5;46;113;6;57;112];
 [6;57;106;5;46;118;5;46;114;5;46;117;6;57;109;6];
 [57;113;6;57;102;4;46;61;5;46;116;6;57;104;4;46];
 [62;5;46;112;6;57;110;15;49;47;6;57;103;6;57;108];
 [6;66;49;6;66;55;5;51;104;6;66;53;5;51;107;4];
 [51;65;5;51;106;5;51;102;6;66;51;4;51;68;5;51];
 [105;15;54;109;15;54;110;15;54;111;6;66;54;6;66;57];
 [6;66;52;6;66;56;15;54;112;6;66;48;5;51;103;5];
 [51;108;5;58;54;5;58;63;6;75;97;5;58;53;6;75];
 [101;5;58;57;5;58;58;5;58;60;5;58;55;6;75;99];
 [6;75;95;5;58;64;6;75;98;6;75;91;6;75;102;5];
 [58;62;6;75;94;4;57;57;6;75;93;6;75;96;6;75];
 [100;15;61;73;15;61;74;4;57;55;6;75;92;4;57;49];
 [5;58;56;6;85;76;4;62;114;4;62;112;4;62;123;5];
 [64;89;4;62;113;4;62;117;4;68;125;4;62;121;6;85];
 [73;5;64;90;5;64;92;5;64;98;4;62;124;6;85;71];
 [5;64;97;6;85;77;5;64;101;5;64;99;5;64;91;5];
 [58;61;5;64;95;5;64;94;6;85;75;6;85;74;4;62];
 [125;15;67;107;15;67;108;6;85;72;6;85;78;5;64;88];
 [5;64;102;5;64;93;5;71;88;5;71;80;4;69;37;4];
 [69;43;5;71;75;5;71;79;4;69;38;6;95;47;6;95];
 [42;4;69;46;4;69;42;6;95;43;6;95;52;5;71;77];
 [5;71;78;5;71;83;4;69;44;6;95;55;6;95;53;5];
 [71;90;6;95;46;4;69;39;4;69;34;5;71;81;5;71];
 [82;6;95;51;5;71;76;5;71;86;6;95;49;6;95;48];
 [15;74;46;6;95;56;6;95;44;4;69;45;6;95;50;6];
 [95;54;5;71;85;4;75;58;4;75;54;4;75;45;4;75];
 [57;5;78;83;4;75;52;7;37;93;4;75;50;5;78;85];
 [5;78;87;5;78;84;4;75;49;7;37;85;4;75;48;5];
 [78;81;5;78;82;7;37;83;5;71;87;5;78;88;7;37];
 [84;7;37;91;7;37;89;15;80;80;15;80;81;15;80;82];
 [15;80;83;15;80;84;7;37;86;7;37;90;7;37;94;5];
 [78;86;5;78;80;4;81;75;5;85;101;7;48;47;7;48];
 [48;5;85;108;5;85;109;4;81;76;4;81;71;5;85;104];
 [7;48;53;5;85;102;5;85;103;5;85;107;7;48;49;7];
 [48;55;5;85;110;15;86;52;15;86;53;7;48;52;7;48];
 [51;5;85;106;7;48;50;7;48;56;7;48;57;5;85;100];
 [7;37;87;4;86;124;5;92;57;5;85;112;7;57;80;4];
 [81;81;4;69;41;4;86;126;7;57;71;5;92;53;7;57];
 [72;5;92;60;5;92;58;5;92;61;7;57;79;7;64;106];
 [5;85;111;5;92;55;4;86;125;5;92;56;4;87;35;7];
 [57;73;7;57;77;7;57;81;7;57;75;7;57;70;7;57];
 [76;15;91;56;7;57;68;7;57;69;7;57;78;5;92;59];
 [5;98;92;5;92;62;7;57;74;4;91;120;5;92;64;5];
 [98;96;7;64;104;5;98;101;7;64;105;5;98;97;5;98];
 [100;4;91;118;5;92;63;5;98;93;5;98;98;5;98;94];
 [5;98;95;4;91;122;7;64;109;5;98;99;7;72;43;4];
 [96;51;7;72;39;4;96;52;5;104;68;4;96;53;7;72];
 [38;5;104;67;5;104;66;4;96;54;15;99;39;4;96;49];
 [7;72;40;7;72;41;7;72;37;7;72;42;7;64;108;4];
 [99;106;4;99;107;7;78;73;7;78;77;7;78;76;5;108];
 [88;5;108;89;7;78;78;7;78;75;7;78;74;5;112;81];
 [5;112;80;5;112;78;4;102;87;7;83;122;5;112;79;7];
 [83;121;15;103;120;5;115;95;5;115;94;5;115;93;7;92];
 [34;7;91;126;4;106;86;7;92;33;5;118;41;5;119;107];
 [7;94;125;7;94;126;7;97;66;7;97;39;7;98;63;7];
 [98;64;7;98;65;5;122;109;7;100;81;7;101;57;4;36];
 [99;6;51;37;15;44;82;6;57;115;6;57;114;15;49;48];
 [6;66;58;15;54;113;6;75;105;6;75;103;5;58;65;6];
 [75;104;7;37;95;4;81;83;4;81;82;7;48;58;6;37];
 [60;6;37;61;5;36;102;5;39;58;5;39;59;5;39;57];
 [5;39;60;4;42;77;5;42;89;5;42;88;5;42;87;6];
 [51;39;6;51;40;6;51;38;15;44;83;15;44;84;6;51];
 [41;5;42;90;6;57;116;4;46;66;6;57;117;6;66;60];
 [15;49;49;15;49;50;15;49;51;15;49;53;15;49;54;15];
 [54;117;4;51;70;5;51;110;6;66;59;15;54;114;15;54];
 [115;15;54;118;6;75;107;6;75;108;6;75;106;15;54;116];
 [5;64;104;5;64;103;6;85;80;4;62;126;6;85;79;5];
 [64;105;15;67;109;4;69;47;6;95;57;6;95;58;15;74];
 [48;15;74;49;15;74;51;15;74;52;15;74;50;4;75;60];
 [7;37;96;7;37;97;5;85;114;7;48;60;5;85;113;7];
 [48;59;4;87;39;4;87;40;5;92;66;5;92;68;7;64];
 [110;5;92;65;7;57;82;5;98;102;7;64;111;7;64;112];
 [5;104;69;5;104;70;5;104;71;5;104;72;7;72;44;7];
 [78;80;7;78;79;5;98;103;7;88;64;7;88;65;15;103];
 [121;7;92;35;4;107;115;7;95;33;7;101;58;5;36;103];
 [5;36;104;6;45;57;6;45;55;6;45;56;5;39;61;6];
 [51;43;5;42;91;4;42;79;6;48;54;6;51;42;5;46];
 [119;5;46;120;6;57;118;6;57;122;5;51;111;4;46;68];
 [6;57;119;6;57;120;6;57;121;4;51;73;5;51;112;6];
 [66;62;15;54;121;6;66;61;4;57;60;6;75;109;5;58];
 [66;6;75;111;4;57;59;15;61;75;6;75;110;15;54;120];
 [5;64;106;5;64;109;5;64;107;5;64;108;5;64;110;6];
 [85;83;15;67;110;6;85;81;4;63;33;4;69;49;4;69];
 [51;6;95;62;15;74;53;6;95;61;5;71;92;6;95;63];
 [6;95;59;6;95;60;7;37;99;5;78;90;5;78;91;5];
 [78;92;7;37;98;5;85;118;5;85;120;5;85;116;4;81];
 [88;5;85;119;5;85;117;15;86;54;5;85;115;7;48;61];
 [7;48;62;7;57;83;7;48;63;4;87;41;5;98;104;7];
 [64;114;7;64;115;7;64;116;7;64;113;5;104;74;5;104];
 [73;7;72;45;4;99;109;5;108;91;5;108;90;7;78;81];
 [7;83;124;4;102;92;7;88;66;5;119;108;5;119;109;7];
 [99;68;7;101;88;6;40;105;15;36;125;4;39;73;5;39];
 [62;4;39;71;6;45;59;5;39;63;5;42;94;5;42;92];
 [5;42;93;6;51;45;6;51;44;15;44;85;5;46;121;6];
 [58;33;6;58;35;4;46;72;5;46;122;6;57;126;6;57];
 [123;4;46;74;6;58;34;15;49;55;15;49;56;6;58;36];
 [6;57;124;6;57;125;4;51;76;5;51;114;4;51;74;6];
 [66;63;15;54;122;15;54;123;15;54;124;15;54;125;15;55];
 [33;15;55;34;6;66;64;6;66;65;6;58;37;6;75;116];
 [6;75;112;5;58;67;4;57;61;6;75;114;6;75;115;15];
 [61;76;15;61;77;6;75;113;6;85;84;6;85;86;5;64];
 [112;6;85;88;6;85;87;6;85;85;15;67;111;15;67;112];
 [6;95;65;6;95;64;6;95;75;15;74;54;5;78;93;7];
 [37;100;7;37;101;15;80;85;15;80;86;15;80;87;15;80];
 [88;15;80;89;15;80;90;4;81;89;7;48;68;4;81;91];
 [7;48;64;7;48;69;5;85;122;5;85;121;15;86;55;15];
 [86;56;15;86;57;15;86;58;15;86;59;7;48;67;7;48];
 [65;4;87;43;4;92;35;4;87;42;7;57;84;5;92;71];
 [7;64;117;5;92;70;15;91;59;15;91;60;7;57;85;7];
 [57;86;7;54;121;5;92;69;7;48;66;7;57;87;4;92];
 [34;4;92;33;7;64;118;7;64;120;7;64;119;15;95;98];
 [7;64;121;7;72;46;5;104;75;7;72;47;15;99;40;15];
 [99;41;5;108;93;7;78;83;5;108;92;7;78;85;15;101];
 [86;7;78;82;7;78;84;15;103;123;7;88;68;5;115;96];
 [7;88;67;7;88;69;15;103;122;7;95;34;5;118;42;7];
 [95;35;7;98;66;5;34;125;15;34;103;6;40;106;4;36];
 [100;5;36;106;4;36;102;5;36;107;5;36;105;15;36;126];
 [4;39;80;6;45;60;5;39;65;4;39;75;6;45;64;6];
 [45;66;6;45;62;5;39;66;5;39;67;6;45;65;6;45];
 [63;5;39;64;6;45;67;6;45;68;6;51;57;6;51;53];
 [6;51;46;6;51;50;4;42;94;6;51;54;4;42;92;6];
 [51;60;5;42;101;6;51;51;5;42;105;4;42;91;6;51];
 [47;6;51;59;5;42;96;5;42;103;5;42;107;5;42;97];
 [5;42;106;5;42;104;5;42;99;5;42;108;6;51;48;5];
 [42;95;5;42;102;5;42;98;5;42;100;15;44;86;15;44];
 [88;6;51;55;6;51;58;6;51;52;4;46;80;5;47;36];
 [3;46;90;4;46;76;5;46;123;6;58;38;4;46;78;5];
 [47;34;5;46;124;6;58;40;4;46;75;6;58;41;5;47];
 [35;6;58;42;4;46;83;6;58;44;5;46;126;5;47;37];
 [6;58;43;15;49;57;15;49;58;15;49;59;15;49;60;15];
 [49;61;6;58;39;5;47;33;5;46;125;4;46;84;4;51];
 [85;6;66;83;6;66;70;6;66;77;5;51;116;5;51;115];
 [5;51;125;4;51;84;6;66;71;6;66;68;6;66;66;5];
 [51;122;5;51;123;5;51;117;6;66;74;5;51;120;6;66];
 [84;5;51;121;6;66;67;6;66;79;6;66;75;6;66;80];
 [15;55;37;6;66;82;6;66;76;6;66;73;6;66;81;15];
 [55;38;5;51;126;6;66;69;6;66;78;5;51;119;5;51];
 [124;5;58;73;5;58;76;6;75;121;6;76;35;4;51;83];
 [6;75;120;5;58;75;6;75;125;6;76;33;5;58;70;6];
 [76;38;6;75;119;4;57;79;5;58;74;5;58;72;5;58];
 [68;4;57;78;5;64;113;6;76;37;5;64;126;4;57;64];
 [6;75;126;5;58;77;6;75;123;5;58;78;6;76;40;5];
 [58;69;5;58;71;15;61;79;15;61;80;15;61;81;6;75];
 [124;6;76;39;6;75;118;6;76;36;6;76;34;4;57;68];
 [4;57;80;5;58;79;4;57;62;6;85;91;6;85;94;6];
 [85;90;4;63;42;5;64;120;6;85;92;5;64;119;6;85];
 [95;5;64;117;6;85;89;4;63;35;4;63;40;4;63;49];
 [4;63;46;5;64;122;6;85;98;5;64;118;4;63;47;4];
 [63;36;6;85;100;5;64;121;5;64;114;5;64;124;6;85];
 [102;6;85;93;15;67;113;15;67;114;15;67;115;6;75;117];
 [6;85;99;6;83;53;5;64;115;5;64;125;5;64;116;6];
 [85;101;5;71;96;4;69;69;6;95;68;4;69;62;5;71];
 [99;6;95;72;5;71;101;5;71;102;6;95;73;4;75;79];
 [6;95;78;6;95;70;6;95;79;7;37;108;6;95;71;5];
 [71;103;5;71;100;6;95;67;6;95;74;6;95;69;5;71];
 [98;6;95;66;5;71;95;5;71;94;5;71;93;7;37;102];
 [15;74;55;15;74;56;15;74;57;15;74;58;15;74;59;15];
 [74;60;15;74;61;4;69;58;6;95;77;6;95;76;5;71];
 [105;4;69;59;4;75;80;4;75;76;4;75;62;5;78;98];
 [5;78;103;4;75;78;7;37;107;5;78;108;5;78;101;4];
 [75;65;7;37;112;4;75;64;4;81;101;7;48;77;5;78];
 [100;5;86;33;5;78;102;7;37;109;5;78;106;7;37;114];
 [4;75;73;4;75;75;4;75;70;5;78;95;5;78;107;7];
 [37;103;7;37;104;7;37;106;4;75;74;5;78;99;7;37];
 [110;5;78;94;5;78;97;5;85;123;5;78;105;5;78;104];
 [7;37;105;15;80;91;15;80;92;15;80;93;7;37;111;4];
 [75;72;5;86;42;5;86;43;4;81;94;5;86;37;5;86];
 [35;5;86;39;5;85;125;4;81;99;5;86;41;5;85;126];
 [5;86;38;5;86;36;4;81;98;7;48;70;7;48;78;7];
 [48;79;7;48;75;7;48;71;5;78;109;4;81;103;5;85];
 [124;7;48;73;15;86;61;7;48;81;7;48;76;5;86;44];
 [4;81;102;5;71;104;5;86;40;4;92;43;5;92;72;5];
 [92;75;4;87;53;4;87;54;7;48;82;7;57;94;7;57];
 [89;5;92;74;7;57;90;5;92;76;7;57;100;5;92;73];
 [7;65;34;7;57;95;7;57;96;7;57;93;4;87;55;7];
 [57;99;5;92;79;7;48;72;5;92;78;7;57;97;7;57];
 [92;7;57;91;15;91;62;15;91;63;15;91;64;7;57;98];
 [7;57;88;4;92;40;7;65;35;7;64;126;5;98;110;4];
 [92;44;5;98;107;7;64;123;7;64;124;5;98;112;4;92];
 [36;5;98;108;5;98;111;5;98;113;5;98;106;15;95;99];
 [15;95;100;7;65;36;7;65;37;7;64;125;5;98;109;7];
 [64;122;7;65;33;5;104;79;5;104;76;5;104;81;4;96];
 [62;5;104;80;4;96;59;5;104;84;5;104;78;7;72;50];
 [4;96;58;7;72;52;4;96;60;4;96;61;7;72;48;5];
 [104;77;7;72;49;5;104;83;5;104;82;15;99;42;7;75];
 [93;7;72;53;7;72;51;5;108;96;5;108;98;5;108;94];
 [7;78;88;5;108;97;5;108;99;7;78;87;15;101;87;4];
 [99;114;5;108;95;4;99;115;7;78;86;7;84;34;5;112];
 [82;5;112;84;5;112;83;5;112;85;7;83;126;7;84;35];
 [7;83;125;4;104;121;5;115;99;7;88;70;5;115;97;5];
 [115;98;7;88;71;5;115;101;4;106;89;7;84;33;5;115];
 [100;7;89;51;5;115;102;5;118;43;7;92;38;4;106;88];
 [7;92;37;7;95;36;4;108;116;7;98;67;7;98;69;7];
 [98;68;15;108;102;5;123;67;5;39;68;4;42;96;4;42];
 [97;4;46;86;5;47;40;5;47;39;6;58;47;6;58;48];
 [4;51;88;5;52;34;15;55;39;5;58;82;4;57;81;5];
 [58;83;5;58;81;5;58;85;5;58;80;6;76;41;5;58];
 [84;5;65;35;5;65;34;5;65;33;6;95;81;6;95;82];
 [4;69;71;4;69;72;5;71;108;5;71;106;5;71;107;4];
 [69;73;6;95;80;4;69;75;15;77;63;5;78;110;4;75];
 [82;7;37;117;5;78;111;4;75;81;7;37;116;4;75;83];
 [4;81;105;4;81;104;4;81;106;5;86;45;5;98;117;7];
 [57;101;5;90;117;5;92;80;5;98;116;5;98;115;5;98];
 [114;5;104;87;5;104;86;5;104;85;5;104;88;7;72;54];
 [7;72;55;4;106;90;7;102;63;7;102;73;6;38;63;6];
 [40;107;6;40;108;6;51;65;6;51;63;6;51;64;5;42];
 [110;5;47;42;5;47;43;6;58;51;15;49;63;15;49;64];
 [6;58;49;6;58;50;5;47;41;5;52;35;5;52;36;4];
 [51;92;6;66;89;6;66;87;5;52;37;6;66;85;6;66];
 [91;6;66;86;6;66;90;6;66;88;4;57;82;6;76;44];
 [15;61;82;6;76;42;15;61;83;5;65;36;4;63;50;6];
 [85;105;4;63;53;4;63;52;6;85;103;5;58;86;4;63];
 [54;15;67;117;6;85;104;5;71;109;5;71;110;6;95;83];
 [5;71;111;5;71;112;15;74;62;7;37;120;4;75;84;7];
 [37;118;7;37;119;15;80;97;7;37;121;7;48;84;4;81];
 [107;15;86;63;7;48;83;5;92;81;5;92;82;7;57;102];
 [7;57;103;5;115;103;5;118;44;5;34;126;6;37;62;4];
 [36;103;6;40;109;5;36;109;5;36;108;15;37;33;15;37];
 [34;5;39;69;4;39;84;15;40;48;15;40;49;15;40;50];
 [15;40;51;6;45;71;15;40;53;4;42;101;4;42;99;6];
 [51;69;5;42;112;15;44;89;15;44;90;15;44;91;15;44];
 [93;15;44;94;15;44;95;15;44;97;15;44;99;6;51;67];
 [6;51;68;15;44;100;15;44;96;6;51;66;5;42;111;5];
 [42;113;4;46;96;5;47;51;6;58;52;6;51;70;6;58];
 [53;5;47;47;6;58;57;5;47;44;5;47;49;5;47;48];
 [4;46;91;4;46;93;5;47;54;5;47;50;5;47;53;15];
 [49;62;4;46;89;5;47;55;6;58;56;15;49;66;15;49];
 [67;15;49;69;15;49;70;4;46;90;5;47;45;6;58;55];
 [15;49;72;15;49;65;5;52;38;5;47;46;6;58;54;5];
 [52;44;5;52;40;6;66;97;6;66;95;5;52;49;5;52];
 [48;5;52;42;6;66;96;5;52;52;5;52;50;5;47;56];
 [5;52;46;5;52;39;5;52;41;5;52;45;15;55;40;15];
 [55;41;15;55;42;15;55;43;15;55;46;15;55;47;15;55];
 [49;15;55;50;15;55;51;6;66;94;6;66;92;6;76;46];
 [15;55;48;5;52;43;15;55;44;6;66;98;5;52;47;5];
 [52;51;6;66;93;5;58;88;5;58;94;5;58;87;5;58];
 [91;4;57;86;6;76;53;4;57;87;4;57;85;5;58;92];
 [5;58;93;6;76;49;5;58;90;5;58;95;15;61;84;15];
 [61;85;15;61;86;15;61;87;6;76;52;6;76;48;6;76];
 [50;5;58;97;5;58;96;5;65;40;6;85;113;4;63;55];
 [5;65;41;6;85;106;6;85;108;5;65;37;6;85;110;4];
 [63;65;4;63;67;6;85;111;6;85;114;5;65;38;5;65];
 [39;6;85;109;15;67;119;15;67;120;15;67;121;15;67;122];
 [15;67;123;15;67;124;15;67;125;15;67;126;15;68;33;15];
 [68;34;15;68;35;15;68;36;15;68;38;6;85;112;6;85];
 [115;6;95;91;5;71;120;6;95;84;7;37;126;5;71;122];
 [6;95;86;4;69;82;5;71;115;5;71;114;6;95;87;5];
 [71;123;6;95;89;6;95;90;5;71;117;6;95;85;5;71];
 [113;5;71;125;6;95;88;15;74;65;15;74;67;15;74;68];
 [15;74;69;15;74;70;15;74;71;15;74;72;15;74;73;15];
 [74;75;15;74;76;15;74;77;15;74;79;15;74;80;15;74];
 [81;15;74;82;4;69;84;15;74;64;5;71;119;5;71;124];
 [5;71;121;5;71;116;15;80;100;4;75;90;5;78;114;5];
 [78;115;7;38;33;5;78;112;4;69;80;7;38;37;5;78];
 [117;7;37;125;15;80;98;15;80;99;15;80;101;15;80;102];
 [15;80;104;7;38;34;7;37;122;7;38;35;5;78;113;5];
 [78;116;7;37;124;15;74;74;7;48;88;5;86;49;5;86];
 [46;5;86;50;7;48;85;4;81;113;4;81;115;5;86;52];
 [4;81;114;7;48;86;7;48;90;4;81;111;7;48;87;15];
 [86;65;15;86;66;15;86;67;5;86;48;15;86;68;5;86];
 [47;15;86;69;15;86;70;15;86;71;15;86;73;15;86;75];
 [15;86;76;15;86;77;5;92;86;7;57;104;5;92;84;7];
 [57;111;7;57;106;5;92;83;4;87;58;7;57;105;5;92];
 [85;4;87;61;7;57;108;4;87;60;5;86;53;5;92;88];
 [5;92;87;5;92;89;15;91;65;15;91;66;15;91;67;15];
 [91;68;15;91;69;15;91;70;15;91;71;15;91;72;15;91];
 [73;7;57;107;7;57;110;15;86;74;7;65;41;5;98;118];
 [5;98;120;7;65;38;7;65;40;5;98;119;4;92;48;5];
 [98;122;7;65;39;5;98;121;7;65;42;15;95;101;15;95];
 [102;15;95;103;15;95;104;15;95;105;4;96;64;5;104;90];
 [5;104;89;15;99;43;15;99;44;15;99;45;15;99;46;7];
 [72;58;7;72;56;7;72;57;15;99;47;5;108;101;5;108];
 [102;7;78;89;7;78;90;5;108;100;5;108;103;4;96;65];
 [7;78;91;15;101;90;15;101;91;15;101;92;15;101;93;7];
 [78;93;5;112;86;5;112;87;15;103;125;7;84;36;4;102];
 [98;15;103;124;5;115;104;7;88;72;5;115;105;15;105;91];
 [15;105;92;7;88;73;5;115;106;5;118;46;4;106;91;5];
 [118;45;5;118;47;15;106;101;7;92;40;7;92;39;7;95];
 [38;7;95;37;7;95;39;7;98;70;5;122;45;5;122;110];
 [4;109;117;7;100;83;7;101;59;5;124;67;6;34;39;6];
 [37;64;6;40;110;15;34;104;6;45;72;15;37;36;6;51];
 [71;6;51;73;15;40;54;15;40;56;15;40;57;15;40;58];
 [15;40;59;15;40;61;15;40;55;6;49;90;5;47;57;6];
 [58;58;4;46;99;5;47;58;6;58;59;6;51;75;15;44];
 [101;15;44;102;15;44;103;15;44;104;15;44;105;15;49;73];
 [15;49;75;15;49;78;6;58;62;6;58;63;6;58;61;6];
 [58;64;6;58;60;15;44;106;4;42;104;5;52;54;6;58];
 [65;15;49;74;15;49;76;15;49;77;15;49;79;15;49;80];
 [15;49;81;15;49;82;15;49;83;15;49;84;15;55;55;6];
 [66;99;5;52;53;6;76;56;5;58;98;6;76;57;6;76];
 [58;6;76;60;5;58;99;6;76;61;6;76;59;6;76;54];
 [6;76;55;15;55;52;15;55;54;15;55;56;15;61;91;15];
 [55;53;6;85;117;5;65;43;5;65;42;5;65;44;6;76];
 [63;4;63;72;15;61;88;15;61;89;15;61;90;15;61;92];
 [15;61;93;15;61;94;15;61;95;15;61;98;15;61;99;15];
 [61;100;15;68;40;15;68;42;15;61;97;6;85;116;5;72];
 [35;6;95;95;6;95;96;4;69;86;6;95;99;6;95;97];
 [15;68;39;15;68;41;15;68;43;15;68;44;15;68;45;15];
 [68;46;15;68;47;15;68;48;15;68;49;15;68;50;6;95];
 [93;6;95;98;5;72;33;6;95;94;4;75;95;7;38;38];
 [6;95;92;6;95;100;15;74;83;15;74;85;15;74;86;15];
 [74;87;15;74;88;15;74;90;7;38;40;5;86;56;7;48];
 [92;5;86;54;7;48;93;4;81;119;5;86;57;5;86;55];
 [5;86;58;7;38;42;7;48;91;15;80;106;15;80;105;15];
 [86;81;4;87;67;5;92;90;7;57;115;4;87;68;7;57];
 [118;7;57;116;7;48;94;15;80;107;15;86;78;15;86;79];
 [15;86;80;15;86;82;7;57;113;7;57;117;7;57;114;7];
 [57;112;15;91;77;15;91;79;4;92;52;5;98;123;7;65];
 [44;15;91;75;15;91;76;15;91;78;15;91;80;15;91;81];
 [15;91;82;7;65;43;4;92;51;5;104;91;7;72;60;7];
 [72;61;15;95;106;15;95;107;5;108;104;4;99;119;15;101];
 [94;7;78;94;7;84;38;7;84;37;15;101;95;4;104;125];
 [7;88;74;7;88;75;7;92;41;15;105;93;7;92;42;7];
 [92;43;5;119;110;7;92;44;5;119;111;15;106;103;5;121];
 [50;7;98;73;7;98;71;7;99;93;15;108;103;15;34;105];
 [6;51;77;6;66;100;4;57;91;6;76;64;6;85;118;6];
 [95;101;7;38;44;7;48;95;7;48;96;7;65;45;5;115];
 [107;7;97;40;4;33;126;6;37;65;15;34;106;6;40;111];
 [15;37;37;6;40;112;4;39;85;5;39;72;4;39;87;5];
 [39;71;15;40;62;15;40;63;15;40;64;15;40;65;15;40];
 [66;6;45;74;6;51;81;6;51;84;5;42;116;5;42;114];
 [4;42;112;5;42;117;6;51;86;6;51;80;6;51;82;4];
 [42;109;6;51;79;5;42;115;6;51;87;15;44;107;15;44];
 [108;15;44;110;15;44;111;15;44;112;6;51;85;6;51;83];
 [6;51;78;5;47;60;5;47;59;6;58;69;5;47;61;6];
 [58;70;5;47;62;5;42;118;5;52;60;6;58;71;15;49];
 [85;15;49;86;6;58;66;6;58;68;5;52;58;6;66;105];
 [5;52;63;4;51;104;5;52;61;6;66;104;5;52;55;15];
 [55;58;15;55;60;15;55;61;15;55;62;4;51;108;6;66];
 [101;6;66;106;4;57;95;5;58;100;4;57;96;4;57;92];
 [6;76;65;6;76;66;6;76;69;6;76;71;4;57;93;6];
 [76;68;4;63;81;15;61;101;15;61;103;15;61;105;5;52];
 [62;15;61;102;5;65;54;5;65;47;6;85;121;6;85;119];
 [6;85;122;5;65;48;5;65;45;5;65;50;5;65;52;5];
 [65;56;5;65;51;4;63;78;6;86;33;5;65;46;6;85];
 [123;6;85;126;6;85;124;15;68;51;15;68;52;15;68;53];
 [15;68;54;15;68;55;15;68;56;15;68;57;15;68;58;6];
 [85;120;6;85;125;5;65;55;5;65;53;5;72;40;6;95];
 [105;5;69;45;5;72;45;6;95;104;6;95;102;6;95;106];
 [4;69;92;5;72;46;5;72;41;6;95;110;6;95;111;5];
 [72;43;5;72;39;5;72;44;6;95;112;5;72;42;6;95];
 [103;15;74;96;15;74;91;15;74;92;15;74;93;15;74;94];
 [15;74;95;15;74;97;15;74;98;15;74;99;15;74;101;6];
 [95;109;6;95;108;5;78;123;5;78;120;5;78;122;7;38];
 [51;7;38;48;5;78;121;4;75;105;7;38;52;7;38;49];
 [7;38;56;5;72;47;7;38;47;5;86;69;5;78;124;5];
 [78;125;4;75;103;4;75;106;7;38;53;15;80;108;15;80];
 [110;15;80;111;15;80;112;15;80;113;15;80;114;7;38;46];
 [7;38;54;7;38;55;4;81;123;7;48;109;5;86;61;5];
 [86;64;7;48;105;5;86;60;5;86;63;5;86;62;4;81];
 [126;5;86;59;5;86;67;7;48;99;7;48;100;5;86;66];
 [7;48;98;5;86;70;5;92;91;5;86;71;7;48;107;7];
 [48;106;7;48;108;7;48;97;15;86;84;15;86;85;7;48];
 [101;7;48;103;7;48;104;5;86;68;5;86;65;5;92;94];
 [5;92;97;5;92;98;5;92;95;5;92;92;5;92;93;4];
 [87;74;7;57;119;5;92;100;4;87;70;5;92;96;7;57];
 [122;15;91;84;15;91;85;15;91;86;15;91;87;15;91;88];
 [15;91;90;7;57;120;15;91;83;5;86;72;7;57;121;5];
 [92;99;15;86;83;5;98;125;5;99;38;5;99;36;5;99];
 [33;5;99;34;5;99;37;7;65;48;5;98;126;7;65;47];
 [5;99;35;15;95;108;15;95;109;15;95;110;15;95;111;15];
 [95;112;15;95;113;15;95;114;5;98;124;5;104;94;4;96];
 [67;5;104;92;4;96;68;4;96;71;7;72;63;4;96;70];
 [5;104;93;7;78;98;7;72;65;7;72;62;15;99;48;7];
 [72;64;5;108;107;4;99;122;4;99;120;5;108;106;7;78];
 [96;4;92;56;5;108;105;5;108;108;7;78;95;7;78;97];
 [15;101;96;15;101;97;15;101;99;7;78;99;5;108;109;7];
 [84;40;7;84;39;5;112;88;7;84;41;7;88;77;5;115];
 [108;7;88;78;5;118;48;5;118;49;7;88;79;5;119;112];
 [7;92;45;7;92;46;7;95;40;7;94;113;15;107;87;15];
 [107;88;4;108;119;5;121;51;15;108;52;4;108;120;5;122];
 [46;5;123;97;5;123;98;6;35;55;5;36;111;5;36;112];
 [4;39;89;4;39;90;4;39;88;6;45;77;6;45;76;6];
 [45;79;3;42;69;6;45;75;15;40;67;4;42;116;6;51];
 [89;6;51;91;6;51;88;5;42;119;4;42;115;5;42;121];
 [5;42;120;6;51;90;6;51;92;6;51;93;5;42;122;15];
 [44;113;15;44;114;15;44;115;5;47;63;4;46;102;4;46];
 [107;4;46;104;5;47;67;5;47;66;5;47;65;6;58;76];
 [4;46;105;4;46;106;4;46;103;6;58;74;6;58;72;5];
 [47;64;5;47;68;15;49;88;15;49;89;15;49;90;6;58];
 [75;6;58;73;5;52;68;5;52;67;6;66;108;6;66;107];
 [6;66;109;5;52;65;4;51;110;5;52;66;5;52;64;6];
 [66;110;15;55;64;15;55;65;15;55;66;15;55;67;15;55];
 [68;5;58;114;4;57;102;5;58;116;6;76;78;6;76;74];
 [4;57;105;6;76;82;5;58;105;5;58;111;5;58;113;6];
 [76;80;5;58;103;6;76;81;5;58;104;6;76;75;5;58];
 [106;4;57;104;5;58;115;6;76;76;5;58;112;6;76;73];
 [5;58;102;5;58;109;6;76;79;5;58;110;5;58;107;6];
 [76;77;15;61;107;5;65;58;6;86;41;5;65;60;5;65];
 [59;5;65;62;6;86;34;6;86;36;5;58;108;5;65;61];
 [5;65;63;6;86;40;6;86;43;5;65;64;6;86;38;6];
 [86;37;15;68;59;15;68;61;15;68;62;15;68;63;15;68];
 [64;6;86;35;6;86;42;6;87;38;4;69;97;6;95;119];
 [5;72;50;6;95;118;6;95;114;6;95;116;6;95;115;5];
 [72;49;6;95;121;15;74;102;5;72;51;6;95;113;15;68];
 [60;7;38;59;5;79;33;5;79;39;5;79;42;5;72;48];
 [7;38;58;5;79;43;5;79;38;5;79;34;5;79;44;5];
 [79;37;7;38;57;5;78;126;5;79;40;5;79;36;5;79];
 [41;7;39;46;4;75;109;5;86;79;5;86;81;4;82;35];
 [5;86;80;4;82;38;5;86;73;4;82;40;7;48;112;5];
 [86;74;5;86;76;5;86;75;5;86;83;5;86;77;5;86];
 [84;7;48;110;5;86;78;5;92;101;5;86;85;15;86;86];
 [15;86;87;15;86;88;15;86;89;15;86;90;7;48;113;5];
 [92;106;5;92;103;7;58;33;4;87;78;5;92;105;7;57];
 [124;7;57;125;7;57;123;5;92;102;7;57;126;7;48;114];
 [5;92;104;15;91;91;5;99;40;5;99;39;15;95;116;4];
 [96;74;7;72;68;7;72;67;5;104;95;7;72;66;7;78];
 [100;7;78;102;5;104;96;4;99;123;5;108;110;7;84;45];
 [7;78;103;7;78;101;15;101;100;5;112;91;7;84;43;4];
 [102;103;4;102;102;5;112;89;7;84;44;5;112;90;15;104];
 [33;15;101;101;5;118;50;7;92;47;5;119;113;7;97;42];
 [15;107;89;7;95;41;5;121;52;7;98;74;5;123;99;6];
 [40;114;6;40;113;5;39;73;5;39;74;4;42;117;15;44];
 [116;15;44;120;4;46;111;5;47;71;5;47;72;4;46;108];
 [5;47;70;5;47;69;4;46;110;15;49;92;15;49;93;15];
 [49;94;15;49;95;15;49;97;15;49;98;6;58;77;6;58];
 [78;6;66;114;4;51;115;6;66;113;6;66;115;6;66;112];
 [4;51;116;15;55;69;15;55;71;5;52;71;15;55;72;4];
 [57;107;6;76;85;5;58;117;5;58;119;5;58;118;5;58];
 [120;6;76;84;15;61;109;15;61;110;15;61;111;15;61;112];
 [4;63;86;4;63;88;5;65;66;4;63;89;6;86;44;5];
 [65;65;6;86;45;6;86;46;15;68;65;15;68;66;15;68];
 [67;5;65;67;5;72;52;6;95;122;5;72;53;4;69;98];
 [15;74;103;15;74;104;15;74;106;15;74;105;7;38;63;4];
 [75;110;5;79;45;15;80;115;15;80;116;15;80;117;7;38];
 [61;15;86;92;15;86;91;4;87;81;7;48;116;5;86;86];
 [15;91;92;5;92;108;5;93;99;7;58;34;5;92;107;5];
 [99;42;7;58;35;15;95;117;7;65;49;5;99;41;7;78];
 [104;7;84;46;15;101;102;7;72;69;5;112;92;15;104;34];
 [7;88;80;15;105;94;15;106;104;7;97;43;15;37;38;5];
 [39;75;6;45;80;5;39;77;5;39;76;5;42;124;5;42];
 [125;5;42;123;6;51;95;6;51;94;5;42;126;15;44;121];
 [15;44;122;15;44;123;15;44;124;15;44;125;15;41;36;5];
 [47;78;5;47;73;4;46;116;5;47;74;5;47;76;5;47];
 [77;6;58;80;5;47;81;5;47;79;5;47;75;6;58;79];
 [6;58;81;5;47;80;5;47;82;15;49;99;15;49;100;15];
 [49;101;15;49;102;15;49;103;15;49;104;15;49;105;15;49];
 [106;4;46;118;6;66;116;6;66;122;5;52;74;4;51;121];
 [5;52;77;6;66;119;5;52;76;6;66;124;4;51;117;5];
 [52;78;6;66;117;5;47;83;5;52;73;6;66;121;6;66];
 [123;5;52;80;5;52;81;6;66;120;15;55;73;15;55;74];
 [15;55;75;15;55;76;15;55;78;15;55;79;5;58;124;5];
 [59;34;5;58;123;5;58;126;4;57;108;4;57;110;6;76];
 [90;5;52;75;4;57;115;5;59;33;5;58;122;4;57;121];
 [4;57;119;4;57;112;6;76;93;4;57;120;6;76;87;5];
 [59;37;6;76;89;6;76;92;5;52;79;5;58;125;15;61];
 [113;15;61;114;15;61;115;15;61;116;15;61;117;15;61;118];
 [15;61;120;15;61;121;15;61;122;15;61;119;5;59;35;5];
 [65;84;5;65;72;5;65;79;4;63;92;5;65;77;5;65];
 [69;4;63;100;4;63;101;5;65;80;4;63;95;5;58;121];
 [6;86;48;5;65;70;5;65;85;5;65;75;5;65;82;5];
 [65;68;5;65;73;5;65;76;6;86;52;6;86;50;6;86];
 [55;6;86;58;6;86;51;6;86;54;6;86;56;6;95;123];
 [5;65;83;5;65;81;5;65;78;5;65;71;6;86;49;6];
 [76;88;6;86;53;6;86;57;15;68;68;15;68;70;15;68];
 [71;15;68;72;15;68;73;15;68;74;15;68;75;15;68;76];
 [15;68;77;15;68;78;15;68;79;15;68;80;6;86;47;15];
 [65;62;5;72;69;5;65;86;4;69;108;5;72;67;6;96];
 [39;4;69;103;6;95;124;6;95;125;5;72;60;5;72;59];
 [5;72;66;4;69;111;6;96;40;5;72;64;6;96;38;5];
 [72;56;5;72;57;6;96;37;6;96;33;5;72;58;5;72];
 [65;5;72;55;5;72;61;6;96;34;5;65;74;5;72;71];
 [6;95;126;5;72;62;6;96;36;5;72;63;4;69;113;5];
 [72;68;15;74;107;15;74;108;15;74;109;15;74;110;15;74];
 [111;15;74;112;15;74;115;15;74;116;15;74;117;15;74;118];
 [15;74;119;15;74;120;15;74;121;15;74;122;15;74;114;15];
 [74;113;5;79;58;7;38;73;7;38;75;5;79;68;4;76];
 [47;5;79;51;7;38;81;7;38;74;5;79;62;4;75;113];
 [4;75;111;5;79;65;5;79;47;5;79;52;5;79;67;7];
 [38;66;5;79;64;5;79;49;4;82;64;5;79;57;5;79];
 [66;4;75;114;4;76;41;4;76;35;4;75;125;5;79;56];
 [5;79;55;5;79;60;7;38;78;5;72;72;5;79;53;7];
 [38;80;7;38;71;7;38;68;5;79;63;7;38;64;7;38];
 [83;4;76;36;7;38;79;4;75;124;7;38;76;5;79;61];
 [7;38;69;7;38;67;5;79;46;7;38;72;7;38;70;5];
 [79;70;15;80;120;7;38;82;15;80;119;15;80;122;15;80];
 [123;15;80;124;15;80;125;15;80;126;15;81;34;15;81;36];
 [15;81;41;15;81;37;15;81;38;15;81;39;15;81;42;5];
 [86;100;4;82;65;4;82;62;5;86;88;5;86;94;5;86];
 [102;7;49;42;5;86;92;4;82;46;5;86;93;4;82;44];
 [5;86;104;7;38;65;7;49;37;4;82;50;5;86;103;4];
 [82;49;7;49;41;4;82;60;7;48;126;7;49;38;4;82];
 [48;5;86;96;7;48;123;4;82;63;5;86;95;5;86;89];
 [7;48;122;7;49;40;4;82;42;5;86;87;7;49;36;4];
 [82;53;5;86;101;7;48;125;5;86;98;4;82;51;7;49];
 [43;7;48;117;7;49;39;5;79;48;5;86;99;5;86;90];
 [7;48;120;7;49;35;7;48;118;5;86;97;15;86;114;5];
 [86;91;7;48;124;7;48;119;7;49;34;15;86;93;15;86];
 [94;15;86;96;15;86;97;15;86;98;15;86;99;15;86;100];
 [15;86;101;15;86;102;15;86;103;15;86;104;15;86;105;15];
 [86;106;15;86;107;15;86;108;15;86;109;15;86;110;15;86];
 [111;15;86;112;15;86;113;15;86;115;7;48;121;15;80;121];
 [5;93;36;5;93;33;4;87;93;5;92;117;5;93;45;5];
 [92;121;4;87;92;4;87;99;4;87;103;7;58;44;5;93];
 [43;4;87;96;5;93;34;5;92;112;5;93;35;5;92;114];
 [5;93;49;5;92;123;5;93;42;5;92;119;5;93;52;7];
 [58;36;5;92;118;5;92;124;5;93;38;4;87;100;5;93];
 [39;7;58;41;5;99;66;5;93;44;5;92;122;7;58;47];
 [7;58;40;5;92;111;5;93;50;5;93;41;5;92;115;7];
 [58;43;5;93;46;5;92;113;5;92;110;5;93;40;4;87];
 [102;4;92;60;5;93;51;5;92;120;5;93;47;5;93;37];
 [7;49;33;5;92;116;7;58;39;7;58;38;7;58;37;7];
 [58;45;15;91;93;15;91;94;15;91;96;15;91;97;15;91];
 [98;15;91;99;15;91;100;15;91;102;15;91;103;15;91;104];
 [15;91;105;7;58;42;7;58;46;4;87;104;15;91;101;4];
 [87;97;5;99;75;5;99;71;5;93;53;4;92;82;5;99];
 [69;5;99;56;5;99;51;4;92;71;5;99;74;5;99;64];
 [3;88;79;5;99;46;4;92;78;4;92;69;5;99;67;5];
 [99;57;5;99;76;4;92;61;7;65;59;5;99;70;5;99];
 [48;5;99;55;4;92;62;4;92;63;5;99;72;7;65;57];
 [5;99;53;5;99;50;5;99;63;7;65;53;5;99;44;7];
 [65;54;4;92;65;7;65;51;4;92;83;5;99;62;7;65];
 [56;5;99;61;7;65;58;7;65;62;7;65;52;5;99;49];
 [4;92;77;5;99;54;5;99;58;5;99;68;5;99;73;5];
 [99;60;5;99;45;7;65;66;7;65;65;5;99;59;5;99];
 [43;5;99;47;7;65;50;7;65;55;15;95;118;15;95;119];
 [15;95;120;15;95;121;15;95;122;15;95;123;15;95;124;15];
 [95;125;15;95;126;15;96;33;15;96;35;15;96;36;15;96];
 [37;7;65;64;7;65;61;15;91;106;15;99;54;15;99;55];
 [15;96;34;5;104;106;5;104;111;7;72;78;4;96;89;7];
 [72;76;5;104;99;4;96;84;4;96;85;4;96;81;5;104];
 [105;4;96;79;4;96;80;7;72;72;4;96;82;5;104;98];
 [4;96;88;4;96;77;7;72;71;5;104;109;5;104;104;5];
 [104;112;5;104;108;5;104;107;5;104;101;5;104;100;5;104];
 [103;7;72;70;7;72;74;5;104;97;5;104;113;7;72;73];
 [15;99;49;15;99;51;15;99;52;15;99;53;15;99;56;15];
 [99;57;15;99;58;15;99;59;15;99;60;7;72;75;7;72];
 [77;5;108;124;5;108;123;5;108;118;4;96;87;5;108;116];
 [7;78;108;5;108;122;4;99;125;7;78;116;4;100;34;5];
 [108;120;5;108;115;4;102;112;7;78;106;5;108;111;5;108];
 [117;5;108;113;7;78;105;7;78;117;5;108;119;7;78;109];
 [7;78;110;5;108;114;7;78;111;7;84;56;7;78;113;7];
 [78;112;7;78;114;7;78;115;15;101;104;15;101;105;7;78];
 [107;5;112;100;5;112;104;5;112;105;4;102;113;4;102;107];
 [5;112;102;5;112;107;7;84;47;5;112;94;5;112;99;5];
 [112;96;4;100;33;5;112;103;5;112;95;5;108;112;7;84];
 [53;5;112;106;5;112;93;7;84;49;5;112;101;4;105;39];
 [5;112;108;7;84;54;7;84;48;7;84;52;15;104;35;15];
 [104;36;15;104;37;15;104;38;15;104;39;15;104;40;15;104];
 [41;7;84;51;7;84;57;7;84;50;7;88;85;4;105;36];
 [4;105;35;5;115;112;5;115;110;5;112;98;5;115;113;7];
 [88;82;5;112;109;7;88;81;5;115;116;4;105;37;5;115];
 [109;7;88;84;7;84;55;5;115;118;5;115;115;5;115;111];
 [5;115;117;5;115;114;7;88;86;15;105;95;15;105;96;15];
 [105;97;15;105;98;7;88;83;7;89;52;4;106;94;5;118];
 [51;7;92;49;5;118;52;4;106;95;4;106;96;4;106;98];
 [7;92;48;5;118;54;7;92;50;5;118;53;7;92;54;7];
 [92;53;15;106;105;7;92;51;7;92;55;7;92;52;5;119];
 [114;7;95;43;7;95;46;5;119;116;5;119;117;7;95;45];
 [5;118;55;7;95;44;7;95;42;5;119;115;7;95;49;4];
 [107;119;15;107;90;15;107;91;15;107;92;7;95;47;5;121];
 [53;7;97;44;7;97;46;7;97;49;4;108;121;7;97;47];
 [7;95;48;7;97;45;5;122;49;5;122;47;5;122;48;7];
 [97;48;15;108;79;15;108;77;7;99;94;7;99;95;15;108];
 [104;7;99;96;5;123;68;5;123;100;15;109;39;7;100;84];
 [4;110;78;5;123;124;5;124;43;5;36;113;15;37;39;5];
 [39;78;6;45;81;15;40;69;6;51;97;5;43;34;6;51];
 [96;5;43;35;15;44;126;15;45;34;6;58;82;5;47;84];
 [6;58;86;5;47;85;6;58;84;5;47;86;15;49;107;15];
 [49;108;15;49;109;15;49;110;6;58;83;6;58;85;4;51];
 [126;5;52;85;4;52;36;5;52;84;4;52;33;5;52;88];
 [5;52;83;5;52;86;5;52;87;4;52;35;5;52;90;5];
 [52;82;6;66;125;6;76;99;6;67;33;15;55;80;15;55];
 [81;6;66;126;15;55;82;5;59;38;4;57;122;6;76;97];
 [6;76;94;6;76;101;5;59;40;4;58;33;6;76;100;6];
 [76;95;15;61;124;15;61;126;15;62;34;15;61;123;6;76];
 [98;5;65;87;4;63;104;6;86;61;5;65;89;5;65;90];
 [5;59;39;5;65;88;6;86;63;6;86;62;4;57;126;5];
 [65;91;5;65;93;5;65;92;6;86;65;15;68;82;15;68];
 [83;15;68;85;15;68;86;6;86;59;15;68;84;6;86;64];
 [15;68;81;6;96;45;5;72;74;6;96;43;6;96;46;5];
 [72;76;4;69;115;6;86;60;6;96;51;6;96;50;5;72];
 [75;6;96;48;5;72;73;5;72;77;15;74;124;15;74;125];
 [15;74;126;15;75;33;15;75;34;15;75;35;15;75;37;15];
 [75;38;15;75;40;15;75;41;15;75;42;15;75;45;6;96];
 [47;15;75;44;6;96;41;6;96;42;15;75;36;7;38;88];
 [7;38;84;4;76;54;5;79;75;7;38;85;7;38;89;4];
 [76;51;5;79;74;5;79;76;5;79;80;5;72;78;5;79];
 [79;5;79;77;7;38;91;7;38;86;5;79;73;4;76;52];
 [5;79;78;4;76;50;7;38;90;5;79;72;5;79;71;15];
 [81;43;15;81;44;15;81;45;15;81;47;5;86;110;5;86];
 [108;5;93;60;4;82;67;5;86;107;4;82;66;7;49;47];
 [7;49;48;5;86;111;7;49;44;5;86;106;5;86;109;5];
 [86;112;15;86;116;15;86;117;7;49;46;5;93;54;5;93];
 [56;7;58;48;5;93;57;5;93;55;5;93;58;5;93;59];
 [7;58;50;7;58;52;7;58;53;7;58;49;15;91;107;15];
 [91;108;15;91;109;15;91;111;15;91;112;15;91;113;15;91];
 [114;4;87;108;5;99;82;7;65;69;4;92;87;5;99;83];
 [5;99;79;7;72;86;5;99;81;5;93;61;7;65;70;5];
 [99;80;7;78;120;5;99;77;7;65;67;15;96;39;15;96];
 [40;15;96;41;15;91;110;5;104;116;7;72;79;7;72;80];
 [4;96;94;4;96;92;5;104;115;5;112;110;7;72;82;7];
 [72;83;7;65;72;4;96;95;4;92;88;5;104;117;7;65];
 [71;5;104;114;15;99;62;7;72;81;7;72;84;7;72;85];
 [15;99;63;7;78;119;5;108;126;7;78;118;15;101;106;15];
 [101;107;4;102;115;4;102;114;5;112;111;7;84;61;7;84];
 [60;15;104;42;15;104;43;7;84;59;5;115;119;7;88;87];
 [5;115;120;4;106;99;4;106;100;7;92;56;15;106;106;5];
 [118;56;7;92;57;7;95;50;5;119;119;5;119;118;5;121];
 [56;7;97;51;5;121;55;5;121;54;7;97;50;7;98;76];
 [4;109;93;5;122;50;7;98;75;5;122;51;7;99;98;7];
 [99;97;5;123;125;7;102;54;5;39;79;6;45;82;5;39];
 [80;15;40;71;15;40;72;5;39;81;5;43;38;6;51;98];
 [6;51;101;5;43;36;5;43;37;6;51;103;6;51;99;5];
 [43;39;15;45;35;6;51;104;6;58;91;6;58;87;4;46];
 [121;6;58;99;4;46;123;6;58;93;6;58;92;6;58;95];
 [5;47;90;4;46;122;4;47;36;6;58;100;6;58;89;4];
 [47;35;6;58;94;4;47;34;6;58;96;6;58;88;5;47];
 [89;6;58;97;5;47;88;5;47;87;6;58;90;15;49;113];
 [15;49;114;15;49;115;15;49;116;15;49;117;15;49;118;15];
 [49;119;4;47;38;6;58;98;5;52;95;5;52;93;4;52];
 [50;4;52;40;4;52;42;6;67;40;4;52;47;5;52;94];
 [4;52;49;6;67;41;5;52;91;4;52;44;6;67;43;6];
 [67;42;6;67;37;6;67;35;6;67;36;5;52;92;15;55];
 [88;15;55;89;15;55;90;15;55;91;6;67;39;6;67;44];
 [15;55;85;5;59;49;5;59;48;5;59;46;5;59;50;6];
 [76;109;4;58;35;6;76;102;6;76;108;4;58;34;4;58];
 [36;6;76;110;6;67;38;6;76;103;6;76;112;6;76;104];
 [5;59;45;6;76;106;6;76;105;6;76;111;5;59;42;5];
 [59;41;5;59;43;15;62;37;15;62;38;15;62;39;15;62];
 [40;15;62;41;15;62;42;15;62;43;15;62;44;15;62;45];
 [15;62;46;6;76;107;5;59;47;6;86;75;6;86;66;5];
 [65;95;5;65;94;4;63;108;6;86;68;4;63;109;6;86];
 [72;6;86;69;4;63;105;5;65;97;5;65;96;6;86;67];
 [6;86;73;4;58;37;4;63;107;6;86;70;5;65;98;6];
 [86;76;6;86;77;4;63;114;6;86;74;15;68;87;15;68];
 [88;15;68;89;15;68;90;15;68;91;15;68;92;15;68;93];
 [15;68;94;15;68;95;15;68;96;15;68;97;15;68;98;6];
 [86;71;4;63;112;4;69;120;5;72;80;4;69;118;5;72];
 [82;6;96;63;6;96;62;5;72;86;4;69;122;5;72;85];
 [4;69;119;6;96;57;6;96;67;6;96;66;6;96;54;4];
 [69;125;5;72;79;5;65;99;6;96;65;5;72;81;6;96];
 [60;6;96;52;5;72;83;5;72;87;6;96;64;6;96;59];
 [4;70;34;6;96;56;15;75;46;15;75;47;15;75;48;15];
 [75;49;15;75;50;15;75;51;15;75;52;15;75;53;15;75];
 [54;15;75;55;6;96;53;6;96;55;6;96;61;4;76;56];
 [4;76;67;7;38;96;4;76;66;4;76;59;5;79;91;5];
 [79;89;4;82;72;5;79;88;5;79;93;5;79;85;4;76];
 [70;5;79;90;7;38;108;7;38;94;7;38;100;5;79;92];
 [5;79;82;7;38;97;7;38;102;5;79;87;4;76;65;4];
 [76;57;7;38;93;7;38;101;7;38;92;7;38;103;6;96];
 [58;7;38;109;7;38;107;5;79;81;5;79;86;5;79;94];
 [15;81;48;15;81;49;15;81;50;15;81;51;15;81;52;15];
 [81;53;15;81;56;15;81;57;15;81;58;15;81;61;15;81];
 [62;15;81;63;7;38;98;7;38;104;7;38;95;7;38;99];
 [7;49;70;4;82;70;7;49;67;7;49;68;4;82;74;7];
 [49;64;7;49;61;5;86;116;5;86;118;7;49;49;7;49];
 [66;7;49;50;7;58;54;7;49;51;7;49;54;5;86;117];
 [5;86;119;5;86;115;5;93;69;4;82;69;5;86;113;5];
 [86;114;4;82;75;7;49;58;7;49;55;7;49;56;7;49];
 [65;4;82;77;7;49;53;5;86;121;7;49;52;7;49;69];
 [7;49;59;5;86;120;7;49;63;7;49;62;7;49;57;7];
 [49;60;15;86;118;15;86;119;15;86;120;15;86;121;15;86];
 [122;15;86;123;15;86;124;15;86;125;15;86;126;7;58;68];
 [7;58;67;5;93;67;5;93;64;4;87;113;7;58;55;5];
 [93;65;7;58;66;4;87;111;7;58;58;5;93;68;5;93];
 [62;7;58;62;7;58;59;7;58;60;7;58;64;5;93;66];
 [7;58;65;7;58;61;5;93;71;15;91;115;15;91;116;15];
 [91;117;15;91;119;15;91;120;15;91;121;15;91;122;15;91];
 [123;15;91;124;15;91;125;15;91;126;15;92;33;15;92;34];
 [7;58;63;7;58;56;4;92;100;4;92;92;7;65;78;4];
 [92;99;4;92;93;7;65;77;7;65;84;4;92;97;4;87];
 [112;7;65;73;5;99;85;5;99;88;5;99;87;7;65;75];
 [7;65;81;5;99;86;7;65;74;7;65;79;7;65;82;7];
 [65;76;7;65;87;7;65;85;7;65;80;7;65;91;5;99];
 [90;7;65;86;15;96;42;15;96;43;15;96;44;15;96;45];
 [15;96;46;15;96;47;15;96;48;15;96;49;15;96;50;5];
 [99;89;7;65;92;7;65;90;7;65;88;7;65;83;4;96];
 [100;4;96;101;7;72;95;4;96;105;7;72;103;5;104;118];
 [7;72;100;4;96;103;7;72;102;4;96;107;5;104;121;4];
 [96;96;5;104;122;7;72;97;7;71;75;4;96;97;7;72];
 [93;5;104;119;7;72;99;7;72;91;7;72;98;5;104;120];
 [7;72;89;7;72;90;7;72;96;7;72;94;15;99;64;15];
 [99;65;15;99;67;15;99;68;15;99;69;7;74;115;7;72];
 [92;7;72;101;4;96;106;7;78;125;7;78;124;5;109;35];
 [5;109;33;4;100;37;7;78;126;7;79;35;7;78;123;7];
 [84;66;7;72;88;5;109;36;7;79;36;7;79;38;7;78];
 [122;4;102;121;7;79;34;7;78;121;7;79;37;15;101;108];
 [15;101;109;15;101;110;15;101;112;15;101;113;7;79;33;5];
 [112;114;4;102;117;7;84;67;5;112;115;4;102;120;4;102];
 [118;4;102;119;7;88;94;7;79;39;7;84;63;7;84;62];
 [7;84;65;15;104;44;15;104;45;15;104;46;15;104;47;4];
 [102;116;7;84;64;5;112;113;7;84;68;5;115;123;7;88];
 [89;5;115;124;5;115;121;4;105;41;5;118;58;7;88;93];
 [5;115;122;7;88;91;15;105;99;15;105;100;15;105;101;15];
 [105;102;7;88;90;7;88;92;4;105;75;4;106;103;7;88];
 [95;7;92;58;7;92;59;4;106;104;4;106;105;4;107;122];
 [5;119;120;7;95;55;7;95;53;15;107;93;7;95;54;7];
 [95;56;5;121;58;7;95;52;5;121;57;7;97;52;7;98];
 [79;7;98;78;7;99;99;15;108;105;7;99;101;7;99;100];
 [7;100;85;5;123;101;15;109;48;7;101;117;6;37;66;4];
 [42;120;5;43;40;4;47;40;6;58;102;5;47;91;5;52];
 [97;6;67;45;5;59;52;6;67;47;6;67;46;6;76;116];
 [4;58;41;6;76;115;5;59;51;15;62;47;6;86;80;6];
 [86;79;4;63;116;4;70;36;6;96;69;5;72;88;6;96];
 [68;7;38;110;15;75;57;15;75;58;15;75;59;7;38;112];
 [4;76;71;15;81;64;15;81;65;7;38;111;5;86;123;5];
 [86;122;15;87;34;15;87;33;5;93;73;7;58;69;5;93];
 [72;15;90;88;15;92;35;15;92;36;7;65;93;7;65;94];
 [15;96;51;7;72;104;4;96;108;15;99;70;5;112;116;4];
 [100;39;4;102;122;7;84;69;4;106;106;7;92;60;15;106];
 [107;7;95;58;7;95;57;5;122;52;7;102;42;6;34;41];
 [6;34;40;4;36;106;6;37;68;6;37;69;6;40;115;15];
 [33;124;6;37;67;15;37;40;15;37;42;6;45;83;6;51];
 [106;4;39;93;6;51;105;6;45;84;4;39;94;6;40;116];
 [4;36;107;6;51;107;4;42;122;4;42;124;15;37;86;5];
 [43;41;15;40;73;5;39;82;6;58;103;6;58;104;6;58];
 [105;5;47;95;6;58;108;6;58;106;4;47;44;4;47;43];
 [6;51;110;6;51;108;6;51;111;6;67;53;15;41;57;5];
 [47;93;6;67;48;6;67;49;6;67;50;6;67;52;6;67];
 [54;15;49;121;6;51;109;6;54;122;5;43;42;4;42;125];
 [6;67;51;6;76;119;6;67;55;6;58;109;6;76;118;6];
 [67;56;5;47;94;5;52;98;15;55;92;6;76;117;5;59];
 [54;5;59;53;4;58;44;6;76;120;15;62;48;6;86;82];
 [5;65;103;6;86;84;6;76;122;5;65;100;5;65;102;6];
 [86;83;6;86;85;6;76;121;6;86;86;15;62;49;6;86];
 [81;15;68;99;6;96;70;6;96;72;6;96;73;6;96;74];
 [6;96;75;6;96;76;6;96;77;6;96;80;5;72;91;7];
 [38;117;6;96;78;5;72;90;6;86;87;5;72;89;6;96];
 [79;6;96;71;15;75;60;7;38;113;7;38;114;7;38;115];
 [7;38;116;5;79;98;5;79;95;6;96;82;7;38;118;5];
 [79;96;5;79;97;6;96;81;15;81;66;15;81;67;7;37];
 [115;7;49;71;7;49;72;7;49;76;7;49;73;5;86;124];
 [7;49;75;4;82;81;7;58;78;7;49;74;7;49;77;5];
 [79;99;5;86;125;4;82;80;7;38;119;7;38;120;7;58];
 [71;7;58;72;7;58;75;5;93;74;7;49;78;4;87;116];
 [5;99;91;7;58;76;7;58;77;15;92;37;15;87;35;7];
 [65;95;7;65;96;7;65;98;7;65;100;4;92;103;4;92];
 [102;5;99;92;7;65;99;7;72;105;7;58;74;5;99;94];
 [5;104;123;7;72;108;4;96;110;7;72;106;7;72;107;7];
 [79;40;7;79;41;7;79;42;7;79;43;5;109;37;5;109];
 [39;7;79;44;5;109;38;5;109;40;7;84;70;7;79;45];
 [5;119;122;4;107;124;7;95;59;5;119;123;5;119;121;7];
 [97;53;7;98;80;7;99;102;7;100;86;7;101;60;4;36];
 [108;4;35;44;15;33;96;6;45;86;5;39;83;6;45;85];
 [15;45;36;6;51;113;6;51;112;4;42;126;15;40;75;6];
 [58;110;6;58;111;6;67;59;6;58;115;6;58;114;6;58];
 [113;6;58;112;6;67;58;15;49;122;15;49;123;6;67;61];
 [5;52;100;4;58;46;6;67;62;4;52;57;5;52;101;15];
 [55;93;5;52;99;6;67;57;15;55;94;15;55;95;6;67];
 [63;5;59;57;5;59;55;6;76;125;4;58;47;6;77;33];
 [5;59;56;6;76;126;6;76;124;6;77;34;6;71;33;6];
 [86;90;5;65;104;6;86;91;6;86;88;5;65;105;6;86];
 [89;6;86;92;5;65;106;15;62;51;15;62;52;5;72;92];
 [6;96;83;6;96;85;5;72;93;6;96;84;5;79;100;4];
 [76;74;7;38;123;7;38;124;4;76;75;7;49;79;7;38];
 [122;4;76;72;5;87;33;5;86;126;4;82;82;15;87;37];
 [7;49;80;4;87;120;4;87;118;5;93;75;7;58;80;7];
 [58;79;7;58;82;15;92;38;4;82;84;7;58;81;5;99];
 [93;4;92;105;5;99;95;7;65;105;7;65;106;4;92;109];
 [7;65;103;7;65;104;7;65;102;15;87;36;15;96;52;15];
 [96;53;4;92;108;5;104;124;7;72;112;5;118;59;7;72];
 [111;7;79;46;7;72;110;5;109;41;7;79;47;7;79;48];
 [7;79;49;7;79;50;7;65;101;5;112;117;7;84;71;7];
 [84;72;5;115;125;7;88;96;7;92;62;7;92;61;7;97];
 [54;7;99;103;7;101;94;6;45;87;6;51;117;6;51;114];
 [6;51;118;5;43;43;4;43;34;4;43;33;4;43;36;6];
 [51;116;4;43;35;15;45;37;15;45;38;6;51;115;4;47];
 [51;6;58;118;5;47;97;5;47;99;5;47;96;4;47;49];
 [4;47;54;4;47;53;6;58;117;5;47;98;4;47;52;4];
 [47;50;6;58;119;15;47;99;15;47;100;4;47;55;15;49];
 [124;5;52;102;6;67;65;6;67;64;6;67;66;6;67;67];
 [6;67;68;6;67;70;6;67;71;4;52;63;6;67;69;5];
 [59;59;4;58;50;6;77;38;6;77;39;6;77;45;5;59];
 [61;4;58;54;6;77;46;6;77;40;6;77;37;6;77;47];
 [6;77;48;5;59;60;6;77;42;6;77;44;6;77;43;15];
 [62;53;15;62;54;6;77;41;5;65;110;5;65;107;4;63];
 [121;6;86;93;6;86;94;6;86;95;5;65;109;5;65;108];
 [15;68;100;6;77;36;5;72;101;5;72;94;6;96;87;5];
 [72;95;5;72;99;5;72;96;5;72;100;5;72;97;5;72];
 [98;6;96;86;5;72;102;15;75;61;15;75;62;15;75;63];
 [15;75;64;5;79;106;5;79;107;7;38;126;5;79;104;4];
 [76;76;5;79;108;5;79;101;7;38;125;5;79;103;15;81];
 [70;6;96;89;5;79;102;7;39;36;7;39;37;7;39;33];
 [4;76;78;7;39;34;4;76;77;7;39;35;15;81;68;15];
 [81;69;7;49;81;7;49;83;5;87;37;7;49;86;7;49];
 [82;7;49;84;4;82;87;5;87;35;5;87;38;5;87;36];
 [5;79;105;5;87;34;7;49;85;5;87;39;15;87;38;4];
 [87;121;7;58;84;5;93;76;7;58;85;7;72;113;5;93];
 [77;7;58;83;15;92;39;15;92;40;5;99;96;4;92;110];
 [7;65;113;5;93;78;4;92;111;7;65;109;7;65;111;7];
 [65;108;7;65;112;7;65;110;15;96;54;15;96;55;7;65];
 [107;4;96;112;5;104;126;5;104;125;7;72;114;7;79;53];
 [7;79;54;15;101;114;7;79;51;4;102;124;7;84;73;7];
 [84;75;7;79;52;7;84;74;7;88;98;7;88;99;7;88];
 [97;6;37;70;6;45;88;6;40;117;4;39;95;4;39;96];
 [6;58;120;4;52;64;5;43;44;15;55;96;15;55;97;6];
 [67;72;6;77;49;7;39;38;7;49;88;7;49;87;15;107];
 [94;6;45;89;6;45;90;5;33;121;15;40;76;4;47;57];
 [5;52;103;5;59;62;5;65;111;6;96;90;7;39;39;7];
 [39;41;5;72;103;7;49;90;7;49;89;7;58;86;5;35];
 [33;6;45;91;15;40;77;6;51;119;15;45;39;6;51;120];
 [15;49;126;5;52;104;15;55;98;6;67;73;4;58;55;5];
 [59;65;5;59;64;4;63;123;6;86;96;6;96;92;5;72];
 [108;5;72;104;5;72;109;5;72;106;5;72;105;5;72;107];
 [4;70;49;15;68;101;6;96;91;5;79;111;5;79;112;5];
 [79;113;5;79;109;5;79;110;7;39;42;5;87;41;5;87];
 [40;4;82;88;4;82;89;7;49;92;7;49;93;7;49;91];
 [15;81;71;5;93;79;4;87;124;7;58;90;7;58;87;7];
 [58;88;15;87;41;5;99;97;4;87;126;7;65;114;7;58];
 [89;7;72;117;5;99;98;7;65;116;7;65;115;15;92;41];
 [15;92;42;7;72;116;5;105;33;7;72;115;4;102;126;7];
 [84;76;4;106;108;5;119;124;5;121;59;5;39;85;5;39];
 [84;6;45;94;15;40;78;15;40;79;6;45;93;5;43;47];
 [5;43;45;5;43;46;4;47;60;6;58;126;4;47;59;6];
 [58;122;5;47;100;6;59;34;15;50;33;15;50;36;15;50];
 [38;15;50;39;6;58;123;15;50;34;6;58;125;6;58;124];
 [6;59;35;6;58;121;15;50;37;5;47;101;6;67;75;4];
 [52;67;4;52;66;4;52;68;6;67;77;5;52;105;6;67];
 [79;6;67;78;6;67;76;6;67;74;15;55;99;15;55;100];
 [15;55;101;15;55;102;5;59;66;6;77;51;6;77;52;5];
 [59;67;6;77;53;15;62;55;15;62;56;15;62;57;15;62];
 [58;15;62;60;15;62;61;15;62;62;15;62;63;15;62;64];
 [6;77;50;15;62;59;6;86;98;6;86;102;5;65;113;5];
 [65;114;6;86;97;6;86;107;6;86;105;6;86;103;5;65];
 [115;6;86;104;6;86;100;6;86;106;6;86;99;15;68;102];
 [15;68;103;6;86;101;5;72;112;5;72;113;5;72;110;4];
 [76;80;6;96;94;5;72;114;5;72;111;5;72;115;15;75];
 [65;15;75;66;15;75;67;15;75;68;15;75;69;15;75;70];
 [15;75;71;15;75;72;15;75;74;15;75;75;15;75;76;6];
 [96;95;5;79;114;7;39;44;5;79;117;7;39;47;5;79];
 [116;5;79;115;4;76;81;5;79;119;7;39;43;7;39;48];
 [5;79;118;15;81;72;15;81;73;15;81;74;15;81;75;15];
 [81;76;15;81;77;15;81;78;15;81;79;7;39;45;5;87];
 [44;5;87;47;5;87;43;5;87;45;5;87;46;7;49;97];
 [7;49;95;7;49;94;15;87;42;15;87;43;15;87;44;15];
 [87;45;15;87;46;15;87;47;7;49;96;5;87;42;5;93];
 [80;5;93;81;5;93;82;7;58;91;4;88;37;4;88;38];
 [5;93;84;5;93;83;15;92;44;7;58;93;7;58;92;3];
 [88;99;7;65;119;5;99;102;5;99;99;4;92;114;7;65];
 [121;5;93;85;7;65;120;5;99;100;5;99;101;7;65;117];
 [15;96;56;15;96;57;15;96;58;7;65;118;15;92;43;15];
 [99;71;7;72;118;5;105;34;5;105;35;7;72;120;7;72];
 [119;15;99;72;15;99;73;7;79;57;15;101;115;15;101;116];
 [15;101;117;7;79;56;7;79;55;5;112;118;15;104;48;15];
 [104;49;7;84;77;7;84;78;5;115;126;7;88;100;4;106];
 [109;15;106;108;15;107;95;15;108;54;15;108;80;5;33;122];
 [6;45;95;5;43;48;6;67;80;6;77;54;6;72;106;6];
 [86;110;6;96;98;6;96;97;7;39;49;15;81;80;7;49];
 [98;7;79;58;5;35;37;5;35;35;6;45;96;6;45;97];
 [6;37;72;15;34;108;15;34;109;5;35;36;5;35;34;5];
 [36;115;5;36;114;6;40;121;6;40;120;6;40;119;6;40];
 [118;6;51;123;6;51;122;6;51;121;5;39;90;5;39;94];
 [6;45;100;4;47;67;6;45;109;6;45;110;6;45;98;5];
 [39;93;6;45;102;5;39;89;5;39;87;6;45;107;5;39];
 [91;4;39;107;6;45;104;6;45;111;15;40;80;15;40;81];
 [15;40;83;15;40;84;6;45;108;4;38;100;6;45;101;6];
 [45;103;5;39;92;6;45;106;6;45;99;6;59;39;6;59];
 [37;4;47;61;5;39;86;6;59;38;6;52;45;4;43;45];
 [5;43;52;6;52;40;5;43;49;5;43;56;6;52;41;4];
 [43;46;6;67;84;6;52;39;4;43;43;6;52;43;4;43];
 [48;6;52;37;5;43;54;6;52;38;5;43;55;5;43;50];
 [4;47;72;5;43;53;6;51;124;6;52;33;6;52;34;6];
 [52;36;15;45;42;15;45;47;15;55;103;15;55;104;6;51];
 [126;6;52;47;6;52;44;6;52;42;6;52;48;6;52;46];
 [6;67;83;6;67;82;15;45;43;6;67;85;6;67;86;6];
 [59;48;6;67;81;15;45;45;5;47;103;4;47;62;4;52];
 [69;4;47;69;6;59;50;5;47;108;4;47;68;6;59;46];
 [5;47;110;6;59;42;5;47;112;5;59;68;5;47;111;6];
 [59;41;5;47;102;6;59;43;4;47;64;6;77;59;5;47];
 [105;15;45;41;15;50;40;15;50;41;15;50;45;15;62;76];
 [5;47;104;5;46;36;6;59;47;6;59;45;6;59;44;6];
 [59;51;6;77;58;6;77;56;6;77;57;6;77;55;6;52];
 [35;5;47;107;5;47;113;5;47;106;5;52;116;6;67;91];
 [6;67;89;5;52;107;4;52;78;5;52;108;4;47;66;5];
 [52;113;4;52;70;4;52;85;5;65;116;4;52;84;6;67];
 [87;5;52;110;6;67;95;4;52;73;5;52;117;5;52;118];
 [6;67;96;6;67;94;4;52;79;5;52;114;6;67;97;6];
 [67;98;15;55;105;15;55;107;6;67;92;6;67;93;6;86];
 [111;6;86;112;6;86;113;5;52;115;5;52;111;5;52;112];
 [6;77;67;5;59;72;6;77;61;5;59;69;6;77;75;6];
 [77;66;4;58;60;5;59;74;6;77;79;6;77;60;6;96];
 [101;5;59;71;6;77;80;6;86;117;4;58;72;5;59;76];
 [6;77;85;6;77;78;6;77;76;6;77;83;5;59;70;5];
 [72;117;6;77;62;6;77;71;6;77;74;15;62;65;15;62];
 [68;15;62;70;15;62;71;15;62;72;15;62;73;15;62;74];
 [15;62;75;6;77;68;6;77;73;15;59;99;6;77;77;6];
 [77;65;6;77;82;6;77;63;6;77;64;6;96;99;6;96];
 [103;6;96;100;15;62;69;5;59;73;6;77;70;5;52;109];
 [5;59;75;5;59;78;5;59;79;6;77;81;5;59;81;6];
 [77;69;6;96;104;6;96;102;5;65;125;4;64;33;5;66];
 [38;5;66;33;5;65;117;5;65;121;5;66;39;6;86;125];
 [4;63;126;6;86;114;4;58;70;5;66;34;5;65;120;6];
 [86;119;4;64;36;6;86;121;4;64;34;6;87;33;6;86];
 [115;5;66;41;6;86;116;6;86;120;5;66;35;6;86;124];
 [5;65;123;5;65;122;5;66;37;5;66;36;6;86;122;5];
 [65;118;6;86;126;15;68;105;15;68;106;15;68;107;15;68];
 [108;15;68;109;15;68;111;15;68;113;4;64;43;6;87;35];
 [6;87;34;15;68;112;7;39;50;7;39;51;6;86;123;5];
 [65;126;5;65;124;4;70;68;5;72;123;4;70;76;4;70];
 [67;5;73;35;6;96;106;5;72;122;4;70;74;5;73;36];
 [5;73;33;4;70;73;5;72;119;5;72;125;4;70;58;4];
 [70;75;5;72;120;6;96;113;6;96;108;5;72;118;6;96];
 [110;5;72;121;6;96;109;5;72;124;7;49;99;5;73;34];
 [4;70;72;6;96;107;15;75;77;15;75;78;15;75;79;15];
 [75;81;15;75;82;15;75;85;15;75;83;6;96;112;6;93];
 [92;5;65;119;5;72;126;4;76;83;5;79;123;7;39;52];
 [4;76;87;7;39;59;5;79;122;4;76;89;7;58;96;7];
 [39;55;5;79;124;7;39;53;4;76;90;7;58;94;5;79];
 [120;7;39;56;15;81;81;15;81;82;15;81;83;15;81;84];
 [7;39;54;7;39;57;7;39;58;7;58;95;6;96;105;5];
 [79;121;15;92;53;7;49;108;5;87;55;5;87;50;4;82];
 [104;4;82;93;5;87;49;4;82;95;7;49;103;7;49;110];
 [5;87;53;5;87;54;4;82;101;5;79;125;5;87;52;7];
 [49;101;7;49;109;5;87;57;7;49;106;5;105;36;4;82];
 [96;7;49;111;15;87;49;15;87;51;15;87;50;7;39;60];
 [7;49;104;7;49;105;7;49;100;7;49;102;7;49;107;7];
 [65;122;7;72;121;7;65;123;5;87;58;5;87;48;5;87];
 [59;5;87;56;5;87;51;7;66;33;5;93;90;5;93;89];
 [7;58;98;4;88;46;4;88;42;4;88;41;5;93;88;5];
 [93;86;4;96;113;7;72;123;5;93;94;7;58;101;15;92];
 [46;15;92;47;15;92;49;15;92;50;15;92;51;15;92;52];
 [15;92;54;15;92;48;7;55;126;7;58;99;7;72;122;7];
 [72;125;5;93;93;7;58;97;5;93;92;5;93;87;7;58];
 [100;7;72;126;4;92;117;5;99;106;5;99;103;5;99;105];
 [5;99;108;7;65;124;5;99;110;7;65;126;5;99;107;7];
 [66;35;5;99;104;5;109;42;5;99;111;15;96;59;15;96];
 [60;15;96;61;15;96;64;15;96;65;7;65;125;7;66;109];
 [4;92;115;4;96;114;7;73;35;7;73;41;5;105;37;5];
 [105;38;5;99;109;7;73;36;15;99;74;7;73;40;7;73];
 [42;15;99;76;15;99;77;7;73;34;7;73;38;7;73;37];
 [7;73;39;7;73;33;15;99;75;7;73;43;7;79;61;5];
 [109;46;5;109;45;4;100;43;4;100;41;5;109;43;15;101];
 [118;7;79;60;7;79;59;4;103;38;7;84;79;5;112;119];
 [7;92;64;7;85;58;7;92;63;4;105;49;4;105;47;7];
 [88;101;15;104;51;7;92;65;5;118;61;7;92;67;7;92];
 [69;7;92;70;5;118;60;7;92;66;4;106;110;7;92;71];
 [7;92;72;7;95;61;5;119;125;7;95;62;5;121;60;7];
 [100;87;5;122;111;5;123;69;6;40;124;4;36;113;15;42];
 [73;6;59;52;15;50;47;6;77;86;6;77;87;15;75;88];
 [15;75;89;15;81;86;6;96;115;15;92;55;7;66;37;15];
 [96;66;5;112;121;15;104;52;15;105;103;7;101;61;5;124];
 [44;6;37;74;6;40;126;4;36;114;6;40;125;6;45;112];
 [5;43;58;6;52;50;15;45;48;5;47;114;6;59;54;4];
 [47;73;15;50;48;6;59;55;6;59;53;6;67;102;6;67];
 [101;15;55;109;15;55;110;6;77;89;6;77;90;6;87;36];
 [5;73;37;15;75;90;4;76;96;4;76;97;5;79;126;15];
 [81;87;7;39;61;4;82;105;5;87;60;7;58;102;5;93];
 [96;5;93;95;15;92;56;15;96;67;5;105;39;4;96;117];
 [5;109;49;15;99;78;7;73;44;5;109;47;5;109;48;7];
 [98;81;6;41;33;6;45;113;6;45;114;6;59;58;15;45];
 [49;6;59;56;6;59;57;5;52;119;4;52;86;6;77;91];
 [5;66;42;5;73;38;15;75;91;5;80;33;7;39;62;15];
 [81;88;5;80;34;7;49;113;4;82;106;5;87;61;15;87];
 [52;4;88;47;5;99;112;5;99;113;4;36;116;6;37;75];
 [6;35;100;6;45;115;6;45;116;15;45;50;4;47;75;6];
 [52;51;6;59;59;6;59;65;6;59;61;6;59;60;4;47];
 [76;6;59;63;6;59;64;6;67;105;5;52;120;6;59;62];
 [6;67;104;6;67;107;6;67;106;5;59;82;6;77;92;5];
 [59;83;5;73;39;6;87;40;6;87;39;6;87;37;6;96];
 [116;6;96;122;6;96;117;6;96;118;5;80;35;7;39;63];
 [6;96;119;6;96;123;6;96;120;7;39;64;7;39;65;7];
 [39;66;6;96;121;5;73;40;5;80;36;5;80;37;7;39];
 [67;7;39;68;7;49;114;7;39;69;7;39;70;15;87;53];
 [7;49;116;7;49;115;5;93;98;7;49;119;7;49;118;7];
 [49;117;5;93;97;5;93;100;7;58;103;7;66;40;7;66];
 [39;5;93;101;4;92;119;7;66;38;15;96;68;15;96;69];
 [7;73;45;5;99;115;5;99;114;7;73;46;7;79;63;5];
 [105;40;5;109;51;5;109;52;5;109;53;7;79;62;7;73];
 [47;15;99;79;5;105;41;7;79;64;7;79;65;5;112;122];
 [15;101;120;15;104;53;15;104;55;7;88;102;15;104;54;7];
 [88;103;7;92;73;5;119;126;7;97;55;5;121;61;5;121];
 [63;5;121;62;15;108;106;7;101;62;7;101;63;7;102;83];
 [5;124;80;15;37;43;6;52;52;4;47;78;4;47;77;6];
 [59;66;6;59;67;6;59;68;5;47;115;5;47;116;6;67];
 [108;6;67;109;6;65;125;6;77;96;6;77;95;6;77;97];
 [15;62;80;5;73;41;4;70;77;5;69;83;4;70;78;6];
 [87;41;15;75;92;6;96;124;6;96;126;6;96;125;7;39];
 [71;15;81;89;7;39;73;7;39;72;7;49;120;5;87;62];
 [7;49;121;7;58;104;15;96;70;5;99;116;7;66;42;7];
 [66;41;5;109;54;5;112;123;7;92;74;5;118;62;5;80];
 [38;5;80;39;15;96;71;7;79;66;7;92;75;7;95;63];
 [7;97;57;5;122;112;5;36;116;4;39;113;4;39;112;6];
 [45;119;6;45;118;6;45;117;5;39;95;4;43;49;4;43];
 [53;4;43;52;6;52;53;6;52;55;6;52;54;6;59;74];
 [5;47;117;6;59;73;6;59;69;5;47;118;4;47;82;4];
 [47;81;6;59;70;6;59;71;6;59;72;5;52;122;4;52];
 [89;4;52;91;6;67;114;5;52;123;6;67;110;6;67;111];
 [15;55;113;5;52;121;15;55;112;15;55;114;5;59;84;6];
 [77;101;6;77;100;4;52;90;4;58;82;4;58;80;4;58];
 [81;4;58;83;6;77;102;5;66;43;6;87;44;5;66;44];
 [6;87;42;15;68;114;6;87;43;6;87;45;6;87;46;5];
 [66;46;6;97;39;5;73;45;5;73;43;4;70;82;6;97];
 [34;6;97;38;15;75;94;15;75;95;15;75;93;6;97;35];
 [5;73;42;5;80;47;4;76;103;4;76;102;5;80;46;5];
 [80;43;5;80;44;5;80;48;5;80;40;7;39;79;7;39];
 [77;5;80;49;7;39;74;7;39;76;7;39;78;7;39;75];
 [5;80;45;5;80;41;5;80;42;5;87;66;5;87;63;5];
 [87;67;7;49;124;5;87;64;7;50;33;7;49;125;7;50];
 [35;5;87;65;7;50;34;15;87;54;7;49;126;7;49;123];
 [7;58;106;4;88;49;5;93;108;5;93;102;5;93;105;5];
 [93;104;5;93;106;5;93;107;4;92;121;5;99;123;7;66];
 [44;5;99;117;5;99;122;5;99;125;5;99;121;4;92;122];
 [4;92;123;5;99;118;5;99;119;5;99;124;4;92;120;7];
 [66;45;7;66;43;5;99;120;7;73;48;5;105;45;5;105];
 [44;5;105;43;5;105;42;7;73;49;15;99;80;7;73;50];
 [5;109;55;7;79;67;5;112;125;5;112;124;7;84;82;5];
 [116;33;5;116;34;4;105;50;7;88;104;7;84;80;7;84];
 [81;4;106;111;7;92;76;7;97;59;7;97;58;7;98;82];
 [5;122;113;4;110;79;6;52;56;15;55;115;5;59;63;15];
 [62;81;15;81;90;15;92;57;7;79;68;5;52;124;5;52];
 [125;6;67;115;5;52;126;15;62;82;6;87;47;6;87;48];
 [6;87;49;6;97;41;15;75;96;6;97;42;6;97;40;7];
 [39;81;7;39;80;7;39;82;15;81;91;15;81;92;15;81];
 [93;5;87;68;5;87;69;7;50;37;7;50;36;5;109;57];
 [5;109;56;7;79;69;15;108;55;5;33;123;6;35;56;4];
 [35;46;6;37;80;6;37;81;6;45;120;6;37;78;5;35];
 [38;6;37;77;15;34;111;15;34;112;15;34;110;6;37;76];
 [4;36;119;4;36;120;4;36;124;6;41;34;4;36;122;6];
 [41;37;6;41;35;6;41;36;6;41;38;15;37;44;15;37];
 [45;15;37;46;15;37;47;15;37;48;15;37;49;6;45;123];
 [4;39;124;4;39;119;4;39;121;5;39;98;4;39;125;4];
 [39;120;4;39;117;5;39;96;6;45;124;5;39;97;4;39];
 [116;6;59;75;6;39;76;6;46;33;5;39;100;4;39;118];
 [6;45;122;6;45;126;6;59;77;6;59;76;15;40;87;15];
 [40;88;15;40;89;15;40;90;15;40;91;15;40;93;15;40];
 [94;15;40;95;15;40;96;15;40;97;15;40;98;15;40;100];
 [6;45;121;4;43;59;4;43;55;4;43;56;4;43;57;5];
 [43;63;6;52;67;6;52;59;4;43;60;6;52;65;6;52];
 [61;5;43;61;6;52;57;6;52;64;6;52;62;6;52;66];
 [6;52;69;6;52;70;5;43;59;5;43;62;5;43;60;15];
 [45;51;15;45;53;15;45;55;15;45;56;15;45;57;15;45];
 [58;15;45;59;15;45;60;15;45;54;6;51;62;6;52;63];
 [15;45;52;6;45;125;6;77;104;15;42;82;5;47;124;4];
 [47;86;4;47;87;4;47;98;5;47;120;5;47;122;5;47];
 [126;4;47;84;5;47;119;5;48;35;4;47;91;5;48;39];
 [4;47;88;4;47;101;5;48;36;4;47;96;6;59;94;6];
 [59;95;5;48;37;6;59;97;5;48;34;4;47;102;6;59];
 [89;6;59;88;6;77;103;6;68;34;6;59;85;5;47;125];
 [6;59;84;6;59;81;6;59;79;6;59;90;6;59;92;5];
 [47;123;6;59;87;5;48;38;5;47;121;6;59;83;6;59];
 [91;6;59;93;6;59;98;15;50;51;15;50;53;15;50;54];
 [15;50;55;15;50;56;15;50;57;15;50;59;15;50;60;15];
 [50;61;15;50;63;15;50;64;15;50;66;15;50;67;15;50];
 [68;15;50;69;15;50;71;15;50;72;15;50;73;15;50;74];
 [15;50;75;6;59;80;15;50;70;15;50;76;15;50;62;5];
 [53;43;5;53;46;5;53;39;4;52;112;5;53;44;4;52];
 [97;4;52;110;4;52;104;6;68;50;4;52;114;4;52;117];
 [6;68;38;6;67;123;6;68;35;5;53;35;6;67;121;6];
 [67;117;4;52;96;5;53;50;6;67;116;6;68;33;6;68];
 [56;4;52;100;6;68;54;6;78;58;6;68;52;6;59;96];
 [6;77;120;4;52;95;5;53;33;4;52;107;6;67;119;6];
 [68;36;5;53;48;6;68;47;6;68;53;6;68;46;6;68];
 [41;5;53;47;6;68;51;6;67;120;6;68;39;5;53;49];
 [5;66;47;6;87;50;6;87;51;6;68;48;6;68;49;6];
 [67;126;5;53;34;5;53;51;6;68;42;5;53;41;5;53];
 [45;5;53;38;6;78;55;6;68;57;6;68;58;6;67;124];
 [6;67;122;15;55;116;15;55;117;15;55;118;15;55;119;15];
 [55;121;15;55;123;15;55;124;15;55;125;15;55;126;15;56];
 [33;15;56;34;15;56;36;15;56;37;15;56;38;15;56;39];
 [15;56;40;15;56;41;15;56;42;15;56;43;15;56;44;15];
 [56;45;15;56;46;15;56;47;15;56;48;15;56;49;15;56];
 [50;15;56;51;15;56;52;15;56;53;5;59;93;6;67;125];
 [5;53;40;6;68;37;15;55;122;6;68;45;6;68;55;15];
 [56;35;5;53;37;5;59;85;4;58;85;5;59;105;5;59];
 [106;5;59;98;5;59;108;5;59;109;5;59;99;4;58;93];
 [6;77;122;6;77;114;6;78;43;6;77;112;6;77;107;5];
 [59;95;5;59;103;5;59;104;6;77;123;6;77;121;5;59];
 [94;5;59;110;5;59;107;4;52;106;4;58;87;4;58;90];
 [4;58;88;4;58;98;5;59;90;4;58;84;6;77;105;6];
 [78;53;4;58;99;6;77;106;5;59;100;6;77;124;6;78];
 [54;6;77;125;6;78;47;6;78;48;4;58;107;6;78;38];
 [4;58;105;6;78;35;5;59;92;6;78;40;6;77;117;6];
 [78;45;6;77;116;6;78;34;6;78;49;6;78;41;5;59];
 [101;6;97;50;6;97;45;6;97;46;5;59;87;6;78;36];
 [6;77;111;6;78;46;5;73;46;6;77;115;6;78;44;6];
 [77;119;6;78;37;6;77;109;6;78;42;4;58;106;5;59];
 [96;5;59;91;6;77;118;6;78;56;6;97;43;5;59;102];
 [6;97;47;5;59;97;6;78;52;6;97;49;6;97;48;6];
 [77;108;6;77;126;6;76;123;5;59;88;6;77;110;6;77];
 [113;6;78;51;6;78;57;15;62;83;15;62;85;15;62;86];
 [15;62;88;15;62;90;15;62;91;15;62;92;15;62;93;15];
 [62;94;15;62;95;15;62;96;15;62;97;15;62;99;15;62];
 [100;15;62;101;15;62;104;15;62;105;15;62;106;15;62;109];
 [15;62;111;15;62;112;15;62;113;15;62;114;15;62;116;15];
 [62;117;15;62;118;15;62;119;15;62;120;15;62;121;15;62];
 [122;15;62;123;15;62;124;15;62;125;15;62;126;6;97;44];
 [5;59;89;6;78;33;15;62;98;15;62;84;15;62;110;15];
 [62;115;4;64;67;6;87;52;6;87;70;5;66;78;6;87];
 [58;6;87;59;5;66;52;4;64;61;6;87;73;6;87;90];
 [4;64;64;4;64;66;5;66;69;6;87;94;5;66;58;4];
 [64;55;4;64;52;6;87;65;6;87;99;5;66;51;6;87];
 [81;6;87;85;5;66;67;6;87;74;4;64;56;4;64;59];
 [5;66;54;6;87;67;4;64;60;4;64;69;5;66;65;4];
 [64;77;5;66;79;4;64;62;5;66;70;6;87;93;5;66];
 [63;4;64;51;4;64;49;6;87;101;4;64;63;6;87;66];
 [5;66;72;5;66;66;5;66;56;5;66;62;6;87;56;6];
 [87;83;6;87;79;6;87;64;6;87;103;5;66;61;6;87];
 [57;6;87;100;6;87;55;5;66;80;6;87;78;6;87;69];
 [6;87;60;5;66;73;5;66;77;5;66;59;5;66;71;6];
 [87;82;6;87;96;6;87;92;6;87;72;6;87;86;5;66];
 [57;4;64;57;6;87;87;5;66;48;5;66;64;5;66;50];
 [5;66;74;6;87;63;4;64;53;4;64;75;6;87;76;5];
 [66;53;5;66;49;6;87;71;6;87;88;7;39;83;6;87];
 [97;5;66;60;6;87;68;6;87;84;6;87;54;6;87;98];
 [6;87;102;6;87;89;4;64;78;5;66;68;5;66;75;6];
 [87;53;6;87;62;6;87;75;6;87;77;6;87;91;6;87];
 [95;15;68;115;15;68;117;15;68;118;15;68;119;15;68;120];
 [15;68;121;15;68;122;15;68;123;15;68;124;15;68;125;15];
 [68;126;15;69;33;15;69;34;15;69;35;15;69;36;15;69];
 [37;15;69;38;15;69;39;15;69;40;15;69;41;15;69;42];
 [15;69;43;15;69;44;15;69;46;15;69;47;15;69;48;15];
 [69;49;5;66;76;4;64;74;6;87;61;6;78;50;15;62];
 [87;5;66;55;4;70;102;6;97;96;5;73;69;6;97;51];
 [6;97;67;5;73;75;4;70;99;6;97;86;4;70;86;6];
 [97;69;4;70;89;6;97;60;5;73;65;6;97;74;4;70];
 [85;6;97;82;5;73;61;6;97;64;6;97;89;5;73;73];
 [5;73;70;6;97;76;5;73;58;4;70;90;6;97;57;6];
 [97;85;6;97;77;6;97;63;5;73;68;5;73;57;5;73];
 [48;4;70;98;6;97;65;4;70;94;6;97;54;4;70;93];
 [4;70;107;4;70;91;5;73;63;7;39;88;6;97;55;5];
 [73;50;5;73;55;5;73;49;5;73;72;5;80;59;4;70];
 [95;5;73;67;6;97;56;4;70;104;6;97;80;5;73;56];
 [6;97;87;6;97;70;6;97;59;5;73;64;5;73;54;7];
 [50;39;5;73;47;5;73;52;6;97;71;6;97;73;6;97];
 [75;6;97;78;6;97;90;6;97;93;6;97;94;15;75;97];
 [15;75;98;15;75;99;15;75;102;15;75;104;15;75;105;15];
 [75;106;15;75;107;15;75;108;15;75;109;15;75;110;15;75];
 [111;15;75;112;15;75;113;15;75;114;15;75;115;15;75;116];
 [15;75;117;15;75;118;15;75;120;15;75;121;15;75;122;15];
 [75;124;15;75;125;15;75;126;15;76;33;15;76;34;15;76];
 [35;15;76;37;15;76;38;15;76;39;15;76;40;15;76;41];
 [15;76;42;6;97;72;5;73;66;6;97;83;6;97;81;6];
 [87;104;5;73;74;6;97;92;6;97;95;6;97;91;6;97];
 [58;6;97;53;6;97;66;6;97;61;6;87;80;15;75;100];
 [15;75;103;6;97;84;4;70;106;4;70;84;5;73;53;5];
 [73;77;7;50;38;5;73;51;6;97;97;5;73;71;5;73];
 [76;5;87;70;15;75;123;5;73;62;7;39;108;4;76;126];
 [5;80;50;4;76;105;4;76;124;7;40;33;5;80;53;7];
 [40;36;7;39;119;7;39;92;5;80;57;7;39;105;7;39];
 [120;7;39;121;7;39;106;7;39;115;5;80;58;7;39;111];
 [4;76;117;5;80;61;5;80;66;7;39;96;7;40;34;5];
 [80;64;5;80;63;5;87;71;5;80;65;5;80;75;7;39];
 [107;7;39;118;7;39;89;7;39;114;7;39;101;5;80;72];
 [5;80;55;4;76;123;7;39;84;7;39;91;7;39;100;7];
 [39;99;7;39;103;5;80;51;7;39;102;7;39;125;7;39];
 [94;5;80;62;7;39;86;5;80;52;5;80;74;7;39;124];
 [7;39;98;7;39;93;7;39;110;4;76;118;5;80;73;5];
 [80;69;7;39;116;5;87;88;4;77;34;5;80;67;7;39];
 [85;7;39;90;7;39;95;7;39;112;7;39;113;7;40;35];
 [15;81;94;15;81;95;15;81;96;15;81;98;15;81;99;15];
 [81;102;15;81;103;15;81;104;15;81;105;15;81;106;15;81];
 [108;15;81;109;15;81;110;15;81;111;15;81;112;15;81;114];
 [15;81;117;15;81;119;4;77;35;7;39;122;5;80;68;7];
 [39;126;7;39;117;7;39;104;15;81;113;15;81;97;15;81];
 [107;5;80;54;7;39;87;5;80;71;5;80;60;6;97;52];
 [7;66;46;15;76;36;7;50;81;4;83;45;7;50;50;4];
 [83;42;4;83;52;7;50;83;5;87;73;4;83;43;5;87];
 [93;7;50;67;5;87;84;4;82;113;4;83;48;5;87;81];
 [5;87;91;7;50;60;4;82;117;5;87;90;5;87;75;5];
 [87;95;7;50;51;5;87;97;4;83;47;7;50;40;5;87];
 [77;5;87;79;7;50;76;5;87;85;5;87;98;7;50;61];
 [7;50;59;5;80;76;4;82;112;5;87;72;5;87;94;7];
 [50;69;7;50;75;7;50;65;5;87;100;5;87;96;7;40];
 [37;7;39;123;7;50;82;5;93;122;4;83;38;7;50;46];
 [4;83;41;7;50;54;5;87;83;4;83;40;4;82;116;5];
 [80;56;7;50;47;5;87;82;7;50;56;5;87;86;5;87];
 [76;7;50;45;7;50;87;7;50;78;4;83;46;5;87;92];
 [7;50;42;4;82;120;7;50;57;7;66;47;7;50;43;7];
 [50;85;4;83;50;7;50;66;7;50;53;7;50;63;15;87];
 [62;15;87;63;15;87;64;15;87;65;5;87;74;5;87;80];
 [5;87;87;7;50;44;7;50;52;7;50;55;7;50;62;7];
 [50;64;7;50;71;7;50;73;7;50;77;7;50;79;7;50];
 [84;7;50;89;7;50;90;15;87;55;15;87;56;15;87;57];
 [15;87;58;15;87;59;15;87;60;15;87;61;15;87;66;15];
 [87;67;15;87;68;15;87;73;15;87;76;15;87;77;15;87];
 [78;15;87;79;15;87;80;15;87;81;15;87;82;15;87;83];
 [15;87;84;15;87;86;15;87;87;15;87;88;15;87;89;15];
 [87;90;15;87;91;15;87;92;7;50;49;15;87;69;4;82];
 [125;7;50;58;7;50;88;7;50;80;5;87;101;5;87;78];
 [7;50;48;7;50;41;7;50;72;15;87;74;7;50;86;5];
 [87;99;5;87;89;7;50;70;7;58;118;4;88;58;4;88];
 [63;7;58;110;7;66;59;7;58;120;4;88;72;4;88;73];
 [5;87;102;5;93;117;5;93;125;5;93;115;7;59;43;7];
 [59;47;5;93;111;4;88;74;4;88;55;7;58;123;4;88];
 [69;5;94;33;7;58;124;7;59;35;7;59;51;5;93;126];
 [5;94;37;7;59;49;5;94;34;5;93;110;5;93;120;7];
 [58;126;5;93;124;7;58;115;7;59;36;7;59;42;5;93];
 [123;4;88;75;5;93;109;5;94;35;4;88;65;7;59;48];
 [5;93;119;4;88;70;5;93;113;5;94;36;7;59;37;5];
 [93;118;7;58;112;7;58;117;7;66;57;7;58;107;7;58];
 [108;7;59;53;7;58;125;4;88;71;7;59;46;7;58;114];
 [7;58;119;7;73;52;7;58;113;7;59;34;7;59;41;7];
 [50;74;7;58;121;7;59;33;7;59;55;5;93;116;5;80];
 [77;4;88;67;7;73;53;5;93;112;5;93;114;7;58;109];
 [7;59;39;7;59;40;7;59;44;7;59;52;15;92;58;15];
 [92;59;15;92;60;15;92;61;15;92;62;15;92;64;15;92];
 [65;15;92;66;15;92;67;15;92;68;15;92;69;15;92;70];
 [15;92;71;15;92;73;15;92;74;15;92;75;15;92;76;15];
 [92;79;15;92;80;4;88;57;7;58;122;7;59;45;7;59];
 [54;7;58;116;15;92;72;15;92;63;15;92;78;15;87;85];
 [15;99;91;5;100;44;7;66;75;4;93;36;7;66;76;5];
 [100;34;4;93;37;5;94;38;5;100;47;7;66;72;5;100];
 [37;5;99;126;7;66;48;5;100;33;5;100;41;5;100;54];
 [5;100;57;7;66;54;5;100;51;7;66;70;4;93;34;5];
 [94;39;5;100;56;5;100;38;5;100;48;7;66;61;5;100];
 [36;5;100;46;7;66;77;4;93;48;5;100;49;4;93;46];
 [4;93;38;4;93;42;5;100;52;5;100;50;7;66;62;7];
 [79;70;7;66;58;7;66;55;4;93;47;7;73;68;5;100];
 [43;7;66;51;7;66;69;7;66;73;4;93;45;7;59;38];
 [7;66;50;7;66;52;7;66;53;7;66;63;7;66;66;7];
 [66;68;7;66;74;7;66;78;7;66;79;15;96;72;15;96];
 [73;15;96;74;15;96;75;15;96;76;15;96;79;15;96;80];
 [15;96;81;15;96;82;15;96;83;15;96;84;15;96;85;15];
 [96;86;15;96;87;15;96;88;15;96;89;15;96;90;15;96];
 [91;15;96;92;15;96;94;15;96;95;4;93;39;7;66;64];
 [5;100;39;7;66;65;7;73;51;5;100;53;5;100;42;4];
 [93;41;7;66;71;5;100;35;5;100;40;5;100;55;7;66];
 [67;7;66;49;5;105;62;5;105;47;7;79;93;5;105;48];
 [5;105;58;5;105;54;4;96;125;4;96;121;5;105;63;5];
 [105;55;7;73;56;7;73;69;5;105;59;5;105;53;4;96];
 [124;5;105;46;5;109;66;7;73;67;5;105;56;7;73;70];
 [5;105;57;7;73;65;7;73;84;7;73;81;7;73;60;5];
 [105;51;5;105;61;7;73;75;7;73;78;7;73;62;7;73];
 [61;7;73;66;7;73;71;7;79;84;7;73;77;7;73;57];
 [7;73;76;7;73;74;7;79;71;5;105;52;5;105;50;4];
 [96;118;5;105;60;7;73;73;7;73;64;7;73;63;7;73];
 [54;7;73;55;7;73;58;7;73;72;7;73;80;7;73;82];
 [15;99;81;15;99;82;15;99;84;15;99;85;15;99;86;15];
 [99;87;15;99;88;15;99;89;15;99;90;15;99;92;15;99];
 [93;15;99;94;15;99;95;15;99;96;15;99;97;15;99;98];
 [15;99;99;15;99;100;15;99;101;15;99;102;15;99;103;15];
 [99;104;15;99;105;7;73;79;7;79;94;7;79;85;7;79];
 [78;5;109;64;5;109;71;7;79;97;5;109;65;5;109;68];
 [4;100;57;7;79;88;5;109;70;4;100;53;5;109;63;5];
 [112;126;7;79;95;5;109;59;7;79;81;7;79;80;7;79];
 [76;5;109;62;5;109;69;7;79;77;4;100;49;7;79;103];
 [5;109;60;7;79;75;7;79;83;7;79;98;7;79;91;7];
 [73;59;7;79;101;5;109;67;4;100;46;7;79;89;5;109];
 [61;7;79;102;7;79;90;5;105;49;7;84;103;7;88;105];
 [7;79;73;5;109;58;5;109;72;7;79;82;7;79;86;7];
 [79;87;7;79;92;7;79;99;7;79;100;15;101;121;15;101];
 [122;15;101;123;15;101;124;15;101;125;15;101;126;15;102;33];
 [15;102;34;15;102;35;15;102;36;15;102;37;15;102;38;15];
 [102;39;15;102;40;15;102;41;15;102;42;15;102;43;15;102];
 [44;7;79;74;7;79;72;7;79;96;7;84;99;4;105;53];
 [5;113;40;7;84;102;7;84;95;5;113;36;4;103;44;4];
 [103;42;7;84;89;4;103;46;5;113;34;7;84;100;5;113];
 [37;7;84;101;4;103;41;5;109;73;5;113;39;7;84;91];
 [7;84;83;5;113;38;7;84;98;7;84;87;7;84;85;7];
 [84;96;4;103;45;5;113;35;5;113;41;5;113;42;7;84];
 [84;7;84;92;7;79;79;7;84;90;7;88;118;5;113;33];
 [7;84;86;7;84;93;7;84;97;15;104;56;15;104;58;15];
 [104;59;15;104;60;15;104;61;15;104;62;15;104;63;15;104];
 [65;15;104;66;15;104;67;15;104;68;15;104;64;7;84;88];
 [5;116;36;4;105;54;5;116;37;5;116;39;5;116;40;7];
 [88;112;5;116;41;4;105;59;4;105;58;7;88;119;7;88];
 [117;7;88;109;7;92;83;5;116;35;5;116;38;7;88;111];
 [4;105;56;4;105;57;7;88;110;4;105;52;7;88;115;7];
 [88;107;7;88;120;7;88;106;7;88;108;7;88;113;7;88];
 [116;15;105;104;15;105;107;15;105;108;7;92;79;7;92;90];
 [4;106;117;5;118;64;4;106;116;5;118;63;4;106;113;4];
 [106;115;4;106;114;4;106;112;5;118;67;7;92;81;7;92];
 [91;5;118;66;5;121;64;7;92;85;5;118;68;7;92;87];
 [7;92;88;7;92;77;7;92;80;5;118;65;7;92;86;7];
 [92;84;7;92;82;7;92;89;15;106;109;15;106;110;15;106];
 [111;7;92;78;15;105;106;5;120;35;5;120;34;5;120;33];
 [7;95;64;5;120;36;7;95;66;7;95;70;7;95;67;7];
 [95;68;7;95;73;7;95;65;7;95;71;5;121;66;15;107];
 [96;15;107;97;15;107;99;7;95;69;7;95;72;5;121;67];
 [7;98;85;5;121;65;7;98;83;7;97;62;7;97;61;7];
 [97;60;15;108;56;15;108;57;7;97;63;5;122;53;5;122];
 [54;7;98;89;7;98;87;7;98;86;7;98;88;7;98;84];
 [15;108;81;7;98;72;4;109;122;7;99;104;5;122;114;4];
 [109;95;4;109;124;15;108;107;15;108;109;5;123;70;4;110];
 [53;7;100;88;7;100;89;5;124;73;7;101;64;5;123;102];
 [7;101;96;7;101;118;5;124;79;5;124;61;7;101;95;15];
 [40;101;4;43;63;6;52;73;6;52;72;15;50;78;5;53];
 [54;5;53;52;4;52;119;4;52;118;6;68;65;4;52;120];
 [6;68;66;6;68;64;6;68;63;6;59;99;6;78;60;5];
 [59;113;6;78;61;15;63;34;15;63;35;15;63;36;5;66];
 [85;5;66;81;5;66;82;6;87;107;6;87;106;6;87;105];
 [5;73;79;6;97;98;6;97;102;4;70;111;6;97;101;6];
 [97;103;6;97;99;6;97;100;5;73;80;15;76;43;15;76];
 [44;4;70;110;7;40;41;7;40;39;7;50;95;5;80;78];
 [7;40;38;7;40;40;15;81;121;7;38;41;5;87;106;5];
 [87;107;5;87;104;5;87;105;4;83;53;5;87;103;7;50];
 [96;7;50;92;7;50;93;4;83;56;4;83;55;5;87;109];
 [7;50;94;15;87;93;15;87;94;15;87;95;5;87;108;7];
 [50;91;4;88;76;7;59;57;15;92;81;15;92;82;15;92];
 [83;7;66;81;5;100;61;4;93;51;7;66;80;4;93;49];
 [7;66;82;5;100;60;15;96;96;7;73;86;7;73;85;4];
 [96;126;7;73;87;7;79;105;5;109;74;7;79;106;7;76];
 [38;5;113;44;7;79;104;5;113;43;5;112;77;7;84;106];
 [7;84;105;5;116;42;7;92;36;4;110;56;5;36;117;6];
 [41;41;4;40;34;6;46;37;15;40;102;15;40;103;15;40];
 [105;15;40;106;4;43;67;6;52;75;4;43;64;4;43;66];
 [6;52;74;5;43;64;6;52;77;6;52;76;6;52;78;15];
 [45;61;15;45;63;15;45;66;15;45;67;15;45;68;15;45];
 [65;4;43;65;5;48;48;6;59;104;5;48;44;5;48;51];
 [6;59;103;5;48;45;5;48;50;6;59;102;4;47;108;4];
 [47;106;4;47;110;5;48;46;6;59;112;5;48;41;6;59];
 [107;5;48;49;5;48;40;6;59;106;5;48;47;5;48;52];
 [6;59;110;6;59;100;5;48;43;6;59;101;15;50;79;6];
 [59;108;6;59;109;5;48;42;6;59;111;5;53;55;4;52];
 [125;6;68;69;5;53;56;5;53;57;5;53;58;5;53;64];
 [4;53;34;15;56;61;4;53;35;6;68;76;5;53;60;4];
 [53;33;5;53;61;6;68;70;5;53;65;6;68;73;4;53];
 [36;4;52;126;6;68;71;6;68;74;6;68;68;6;68;75];
 [6;68;77;15;56;54;15;56;55;15;56;56;15;56;57;15];
 [56;59;15;56;60;15;56;62;15;56;63;15;56;64;5;53];
 [62;6;68;78;4;53;37;6;68;67;5;53;63;5;53;59];
 [5;59;115;6;78;64;15;63;40;4;58;115;6;78;72;5];
 [60;40;5;59;120;5;59;117;5;59;119;5;59;122;5;60];
 [35;5;59;125;6;78;73;6;78;62;6;78;67;5;59;118];
 [5;60;39;6;78;66;6;78;75;6;78;74;5;59;124;6];
 [78;63;5;59;121;5;60;33;6;78;77;6;78;68;6;78];
 [69;6;87;110;5;60;37;5;59;126;6;87;120;5;60;36];
 [6;78;76;6;78;71;5;60;34;5;59;114;6;78;65;15];
 [63;37;15;63;38;15;63;39;15;63;41;4;58;119;6;87];
 [112;6;87;111;4;64;90;4;64;92;6;87;116;4;64;84];
 [5;66;88;5;66;91;5;66;86;4;64;81;4;64;83;5];
 [66;92;5;66;94;5;66;90;5;66;87;4;64;94;4;64];
 [80;6;87;114;6;87;115;6;87;108;6;87;109;6;97;104];
 [6;87;113;6;87;117;5;66;89;15;69;50;15;69;51;15];
 [69;52;15;69;53;15;69;54;15;69;55;15;69;56;15;69];
 [57;6;87;118;7;73;107;6;87;119;6;87;121;5;73;81];
 [5;73;86;5;73;91;5;73;87;5;73;92;4;71;33;5];
 [73;85;4;70;125;6;98;35;5;73;95;4;70;119;5;73];
 [89;4;70;116;6;97;118;6;97;106;6;97;117;4;71;34];
 [5;73;94;6;97;107;6;97;113;5;73;84;6;97;124;5];
 [73;93;5;73;88;6;97;123;6;98;33;5;73;96;6;97];
 [116;6;97;125;6;97;109;5;73;97;5;73;98;6;97;114];
 [6;98;34;5;73;90;6;97;108;6;97;121;6;97;122;6];
 [97;112;5;73;82;6;97;110;5;73;83;6;97;115;15;76];
 [45;15;76;46;15;76;48;15;76;49;15;76;50;6;97;120];
 [4;64;88;6;97;126;6;97;111;4;77;45;7;40;67;5];
 [80;83;4;77;46;4;77;43;7;40;56;4;77;52;5;80];
 [95;7;40;55;7;40;44;5;80;81;7;40;43;7;40;53];
 [7;40;63;5;80;87;4;77;50;4;77;42;7;40;64;7];
 [40;52;5;80;86;7;40;59;7;40;49;7;40;62;5;87];
 [110;4;77;44;4;77;41;5;80;92;5;80;90;5;80;80];
 [5;80;89;5;80;88;7;40;42;5;80;91;4;70;122;5];
 [80;82;5;80;94;5;80;93;4;77;53;7;40;70;7;40];
 [48;7;40;45;7;40;68;7;40;57;7;40;69;7;40;60];
 [7;40;47;6;97;119;7;40;54;7;40;61;5;80;84;4];
 [77;39;5;80;79;15;81;122;15;81;123;15;81;126;15;82];
 [33;15;82;34;15;82;35;15;82;37;15;82;40;15;82;41];
 [15;82;42;15;82;43;7;40;51;7;40;65;7;40;58;15];
 [82;39;7;40;50;15;76;47;5;87;112;4;83;69;5;87];
 [118;5;87;117;4;83;58;5;87;116;5;87;113;7;50;110];
 [7;50;125;5;87;119;4;83;72;5;87;123;4;83;73;4];
 [83;64;4;83;66;5;87;124;7;50;109;4;83;59;7;50];
 [103;4;83;63;7;50;124;5;87;121;5;87;111;5;88;33];
 [5;87;114;7;59;58;5;87;120;7;50;105;4;83;70;5];
 [87;122;7;50;112;7;51;34;5;87;115;7;50;100;5;87];
 [126;7;50;116;4;83;71;5;80;96;7;50;107;7;50;101];
 [5;87;125;7;50;118;4;83;67;7;50;123;7;51;36;7];
 [50;98;7;50;119;7;50;99;7;50;120;7;50;111;7;50];
 [126;7;50;114;7;50;104;7;51;35;15;87;96;15;87;97];
 [15;87;99;15;87;100;15;87;101;15;87;102;7;50;121;7];
 [50;106;7;50;122;7;50;113;7;50;102;7;50;108;4;88];
 [89;5;94;41;5;94;44;4;88;85;7;59;82;7;59;68];
 [4;88;96;4;88;92;7;59;72;7;59;66;7;59;85;4];
 [88;94;7;59;70;7;40;71;4;88;80;5;94;49;7;59];
 [80;7;59;63;4;88;93;7;59;79;5;94;43;5;94;47];
 [7;59;83;4;88;90;7;59;71;7;59;65;5;94;51;4];
 [88;83;7;59;64;4;88;81;7;59;62;7;59;84;5;94];
 [42;7;59;60;7;59;59;7;59;73;4;88;91;5;94;45];
 [5;94;46;7;59;69;15;92;84;15;92;85;15;92;86;15];
 [92;87;15;92;88;15;92;89;15;92;90;15;92;92;7;59];
 [67;7;59;75;7;59;78;7;59;81;7;59;61;5;94;40];
 [7;59;74;7;59;76;5;94;48;4;93;61;4;93;55;7];
 [66;85;7;66;97;7;66;88;7;66;104;5;100;67;5;100];
 [68;5;94;52;4;93;56;5;100;80;7;66;89;4;93;54];
 [5;100;69;4;93;53;4;93;58;5;100;63;5;100;66;5];
 [100;77;4;93;52;5;100;74;7;66;86;5;100;62;5;100];
 [65;5;100;75;7;66;87;7;66;92;7;66;91;5;100;64];
 [7;66;111;7;66;107;5;100;79;7;66;110;5;100;73;5];
 [100;76;7;66;105;5;100;70;7;66;108;5;100;71;7;66];
 [101;7;66;98;7;66;93;7;66;99;7;66;84;7;66;90];
 [7;66;83;7;66;94;7;66;106;7;66;102;15;96;98;15];
 [96;100;15;96;101;15;96;102;15;96;104;15;96;105;15;96];
 [106;7;66;100;4;93;60;7;66;103;15;96;103;15;96;97];
 [5;100;78;4;97;40;7;73;106;7;73;89;7;73;96;7];
 [73;108;7;73;90;7;73;105;7;73;109;4;97;35;5;105];
 [66;5;105;64;7;73;98;7;73;103;7;73;101;5;105;68];
 [7;73;93;7;73;104;7;73;100;7;73;102;7;79;107;7];
 [73;97;7;73;110;7;73;111;7;73;99;5;105;69;7;73];
 [92;7;73;95;7;73;88;15;99;107;15;99;108;15;99;109];
 [15;99;111;15;99;112;15;99;113;15;99;114;15;99;115;15];
 [99;116;15;99;117;7;73;91;4;97;34;4;97;39;7;73];
 [94;7;66;112;7;79;117;7;79;122;5;109;77;7;79;108];
 [4;100;66;5;109;76;5;109;81;7;79;120;7;79;112;5];
 [109;80;7;79;116;5;109;82;5;109;83;7;79;115;5;109];
 [78;7;79;114;7;79;119;7;79;113;7;79;109;5;109;79];
 [7;79;111;7;84;119;7;79;110;7;79;123;15;102;45;15];
 [102;46;15;102;47;15;102;48;15;102;49;7;79;118;4;103];
 [47;4;103;52;7;84;107;7;84;112;5;113;47;7;84;117];
 [7;84;110;7;84;113;5;113;46;7;84;115;5;113;45;5];
 [113;48;7;84;108;4;103;51;7;84;111;4;103;53;4;103];
 [49;7;84;114;5;113;50;7;84;120;7;79;121;7;84;116];
 [4;103;50;7;84;121;5;113;49;5;113;51;7;84;118;15];
 [104;69;15;104;70;15;104;71;15;104;72;15;104;73;7;84];
 [109;5;116;46;4;105;60;5;116;44;5;116;43;7;89;35];
 [7;88;124;5;116;45;5;116;49;5;116;48;7;88;122;5];
 [116;51;5;116;53;5;116;50;7;88;121;4;105;61;7;89];
 [38;7;89;40;7;89;39;7;88;126;7;89;33;5;116;52];
 [5;116;54;7;89;36;7;89;41;5;116;47;7;88;125;7];
 [88;123;15;105;109;15;105;110;5;118;70;4;106;118;4;106];
 [119;7;92;93;5;118;71;4;106;121;7;92;95;7;92;92];
 [5;118;72;7;92;98;5;118;69;7;95;74;7;92;96;4];
 [106;122;7;92;97;5;118;74;7;89;34;5;118;73;15;106];
 [112;15;106;113;15;106;114;5;120;44;7;95;75;4;107;126];
 [5;120;43;5;120;41;7;95;76;5;120;38;4;108;34;7];
 [95;77;5;120;42;5;120;40;4;108;36;5;120;45;5;120];
 [39;5;121;68;4;108;126;5;121;72;5;121;74;4;108;33];
 [7;97;64;5;121;70;7;97;68;7;97;67;7;97;69;5];
 [121;71;5;121;73;7;97;65;5;121;69;7;98;93;7;98];
 [91;7;98;94;7;98;92;7;98;95;7;99;110;7;99;108];
 [5;122;115;7;99;107;7;99;111;7;98;90;7;99;105;7];
 [99;113;7;99;106;7;99;112;7;99;109;7;100;92;4;110];
 [58;7;100;93;5;123;71;5;123;72;7;100;90;7;100;91];
 [5;123;103;7;101;65;7;101;66;5;123;104;4;110;80;7];
 [101;98;7;101;97;15;109;49;7;102;43;5;39;101;6;46];
 [39;6;46;38;4;43;68;6;59;114;5;48;53;6;59;117];
 [6;59;116;15;56;65;6;78;78;6;78;80;5;66;95;6];
 [87;124;6;87;122;6;87;125;6;87;123;5;73;101;5;73];
 [99;5;73;100;6;98;38;6;98;36;7;40;72;5;80;97];
 [7;40;73;7;40;74;6;98;37;5;88;35;5;88;36;5];
 [88;34;7;51;37;7;51;38;5;94;55;5;94;54;15;92];
 [93;4;93;62;4;93;63;7;66;113;7;66;115;4;93;64];
 [7;66;114;5;105;70;5;109;84;7;79;124;7;84;122;7];
 [89;43;7;89;42;7;95;78;7;101;99;4;40;35;6;46];
 [40;4;40;36;6;52;79;6;52;80;5;43;65;15;45;69];
 [5;48;54;6;59;119;6;59;118;5;48;55;6;68;79;5];
 [60;41;6;78;83;6;78;82;15;63;42;15;63;43;6;78];
 [81;6;88;35;6;88;33;4;64;95;6;88;34;6;87;126];
 [15;69;58;4;71;36;5;80;98;6;98;39;6;98;40;4];
 [88;97;7;59;86;15;92;94;4;93;65;7;66;116;7;73];
 [112;7;84;123;7;92;100;5;39;102;6;46;41;6;46;42];
 [6;46;43;5;43;67;6;52;81;4;43;69;4;43;71;5];
 [43;69;6;52;83;5;43;68;15;40;107;6;52;82;5;43];
 [66;5;43;70;6;59;125;5;48;60;4;47;113;6;60;33];
 [6;60;37;5;48;63;6;60;38;6;60;39;4;47;112;6];
 [59;121;5;48;64;6;59;123;5;48;56;6;60;34;6;59];
 [124;6;60;35;6;59;126;5;48;59;6;59;122;6;59;120];
 [5;48;58;15;50;80;6;60;36;6;60;40;6;60;41;15];
 [45;72;15;45;73;15;50;82;4;53;40;5;60;50;4;53];
 [43;4;58;124;5;53;70;4;53;41;6;68;88;5;53;71];
 [5;53;74;5;53;68;5;53;69;5;53;67;6;68;89;6];
 [68;90;5;53;66;6;68;83;6;68;85;6;68;84;6;68];
 [81;6;68;80;6;68;87;6;68;82;15;45;70;15;56;69];
 [5;53;72;6;68;86;5;53;73;5;60;49;6;78;91;6];
 [78;89;5;60;46;6;78;87;5;60;47;5;60;51;4;58];
 [126;6;78;88;6;78;84;4;58;125;6;78;86;5;60;48];
 [5;60;45;5;60;43;5;66;100;5;60;42;15;56;68;15];
 [63;46;6;78;85;6;78;90;6;78;92;5;60;44;15;56];
 [67;5;66;106;5;66;98;5;66;102;4;64;101;5;66;107];
 [5;66;99;5;66;103;4;64;99;5;66;101;5;66;105;6];
 [88;47;4;64;100;6;88;42;6;88;40;6;88;48;5;66];
 [104;5;66;96;6;88;36;6;88;39;6;88;45;15;63;44];
 [15;63;45;15;63;47;15;63;48;15;69;59;6;88;38;6];
 [88;49;6;88;37;6;88;41;5;66;97;15;69;62;4;71];
 [48;4;71;44;6;98;45;6;98;51;4;71;41;5;73;102];
 [5;73;105;4;71;40;5;73;104;5;60;52;6;98;52;5];
 [73;106;6;98;43;6;98;41;6;98;42;6;98;50;6;98];
 [49;5;73;103;6;98;47;5;73;107;6;98;48;6;98;44];
 [4;71;51;6;98;53;6;98;46;15;76;52;15;76;54;15];
 [76;55;4;71;47;15;69;60;15;69;63;5;80;102;7;40];
 [84;4;77;65;5;80;105;7;40;87;4;71;50;7;40;86];
 [5;80;101;4;77;56;7;40;85;7;51;40;5;80;103;7];
 [40;90;7;40;75;4;77;69;4;77;59;4;77;61;7;40];
 [83;4;77;68;4;77;67;5;80;99;7;40;88;7;40;82];
 [7;40;76;5;80;100;7;40;79;5;80;104;7;40;81;7];
 [40;80;7;40;77;15;76;53;15;82;45;7;40;78;7;40];
 [89;5;88;44;5;88;43;7;51;43;5;88;39;5;88;42];
 [7;51;39;4;83;81;7;51;41;4;83;84;7;59;98;5];
 [88;41;5;88;40;7;51;42;4;83;78;7;51;44;7;51];
 [47;4;83;77;5;88;37;7;51;48;5;88;38;7;51;46];
 [15;82;44;7;51;45;5;94;62;5;94;63;7;59;87;5];
 [94;59;7;59;93;7;59;100;4;88;102;5;94;56;5;94];
 [57;5;94;61;5;94;60;7;59;95;7;59;91;7;59;99];
 [7;66;123;7;59;92;7;40;91;7;59;94;7;59;96;5];
 [94;64;7;59;88;7;59;90;5;94;58;15;87;103;15;87];
 [104;15;87;105;15;87;106;7;66;117;4;93;69;7;66;124];
 [7;66;126;5;100;91;5;100;87;7;66;125;4;93;75;5];
 [100;84;5;100;85;5;100;95;4;93;77;4;93;66;7;66];
 [122;5;100;83;4;93;71;4;93;76;5;100;93;7;66;121];
 [7;66;119;5;100;81;4;93;67;5;94;66;5;100;82;7];
 [66;120;7;67;35;7;66;118;5;100;89;5;100;90;5;94];
 [65;5;100;92;5;100;94;5;100;88;15;92;96;7;73;118];
 [5;105;73;5;105;74;4;97;41;7;73;123;7;73;124;5];
 [105;71;5;105;72;7;73;114;7;73;115;7;73;117;7;73];
 [121;7;73;122;7;73;116;7;73;120;4;97;43;7;73;119];
 [7;67;33;15;96;107;15;96;108;15;99;118;7;79;125;5];
 [109;88;7;80;38;5;109;91;5;113;52;5;109;85;4;100];
 [69;7;80;35;5;109;86;7;80;34;7;84;124;7;79;126];
 [5;109;89;7;73;113;5;109;90;5;109;92;7;80;36;15];
 [102;52;7;80;33;5;109;93;7;85;34;7;85;36;5;113];
 [54;4;103;54;7;85;38;7;85;37;5;113;53;7;84;126];
 [7;85;33;4;103;55;7;85;35;7;89;49;7;84;125;15];
 [102;51;4;105;65;7;89;46;4;105;64;4;105;63;5;116];
 [55;7;89;44;7;89;45;7;89;48;7;89;47;5;120;46];
 [15;105;111;7;95;81;7;95;80;7;95;79;5;121;75;7];
 [97;72;7;97;71;7;97;70;7;98;97;5;122;55;7;98];
 [98;7;98;96;7;100;95;7;99;115;7;99;114;7;100;94];
 [5;123;126;7;101;100;7;102;44;5;124;75;7;102;77;5];
 [36;118;6;46;44;4;43;72;5;48;65;4;47;116;6;60];
 [42;6;68;91;15;56;70;15;63;49;15;63;50;6;88;50];
 [4;71;52;6;98;54;6;98;55;6;98;56;15;76;56;15];
 [76;57;7;40;92;15;76;58;15;82;48;7;51;49;7;51];
 [50;15;82;47;7;59;101;15;96;109;15;96;110;5;105;75];
 [7;80;39;7;85;39;5;39;103;6;46;45;4;47;119;5];
 [48;66;15;50;83;5;53;77;5;53;78;6;68;92;6;68];
 [93;5;53;80;5;53;75;15;56;71;15;56;73;15;56;75];
 [4;53;50;4;53;54;5;53;76;5;53;79;6;78;95;4];
 [59;37;6;78;98;6;78;97;5;60;54;6;78;94;4;59];
 [36;6;78;93;6;88;54;5;66;109;5;66;111;5;66;110];
 [6;88;51;6;88;55;5;66;112;15;69;64;15;69;65;15];
 [69;66;6;88;53;6;98;57;5;73;113;5;73;110;5;73];
 [114;4;71;55;6;98;58;15;76;59;15;76;60;5;73;111];
 [6;98;59;5;73;112;4;77;73;7;40;95;5;80;108;4];
 [77;75;5;80;107;7;40;99;5;80;109;6;88;52;7;40];
 [98;5;80;106;5;80;110;15;82;49;7;40;96;7;40;94];
 [7;40;93;7;40;97;5;88;48;5;88;47;5;88;46;4];
 [83;87;7;51;52;5;88;52;7;59;103;4;83;88;4;83];
 [94;4;83;93;5;88;49;5;88;53;7;51;51;5;88;45];
 [5;88;51;15;87;107;15;87;108;15;87;109;7;59;102;5];
 [100;96;5;94;69;5;94;68;7;59;106;7;59;105;7;59];
 [107;7;59;104;15;92;97;15;92;98;5;100;98;4;93;81];
 [4;93;79;7;67;36;5;100;97;15;96;111;15;96;112;15];
 [96;113;7;67;37;7;73;125;7;73;126;5;109;95;7;80];
 [41;7;80;40;15;102;53;5;109;94;15;104;75;15;104;76];
 [7;85;40;4;105;67;5;116;57;4;105;66;15;105;112;15];
 [105;113;5;120;47;7;95;83;15;107;100;7;95;82;5;121];
 [77;5;121;76;7;97;73;4;109;33;5;122;116;4;110;59];
 [5;124;68;7;102;84;6;46;46;6;46;47;6;52;84;5];
 [43;72;4;47;120;6;60;44;4;47;121;6;60;43;6;68];
 [103;4;53;59;5;53;83;5;53;82;6;68;95;6;68;99];
 [4;53;55;6;68;100;5;53;81;6;68;96;15;56;77;15];
 [56;78;15;56;79;4;53;60;6;68;102;6;68;94;6;68];
 [98;6;68;101;6;68;97;5;60;55;4;59;38;6;78;100];
 [6;78;103;5;60;56;6;78;99;6;78;102;6;78;105;6];
 [78;101;4;59;39;4;59;40;6;78;104;15;63;51;5;66];
 [115;5;66;113;5;66;114;6;88;56;6;98;62;5;73;117];
 [4;71;57;6;98;64;5;73;115;5;73;116;6;98;61;6];
 [98;65;6;98;60;6;98;63;7;40;102;5;80;117;7;40];
 [103;5;80;116;5;80;112;5;80;111;4;77;80;4;77;82];
 [4;77;77;7;40;105;4;77;84;5;80;114;7;40;104;7];
 [40;106;5;80;113;7;40;100;7;40;101;5;80;115;7;51];
 [56;7;51;55;4;83;95;5;88;54;4;83;99;5;88;57];
 [5;88;59;4;83;96;7;51;54;7;51;53;5;88;55;5];
 [88;56;5;88;58;7;51;57;5;94;70;7;59;109;7;59];
 [115;7;59;108;5;94;74;5;94;73;7;59;110;7;51;58];
 [5;94;72;7;59;111;7;59;112;7;59;113;4;88;108;7];
 [59;116;7;59;114;5;94;71;7;67;39;7;67;40;4;93];
 [82;7;67;38;7;67;41;4;97;53;5;105;76;4;97;50];
 [4;97;51;7;74;33;7;74;34;7;74;35;7;74;36;4];
 [97;54;7;80;42;5;113;55;7;85;41;5;116;58;4;105];
 [68;7;92;101;5;120;48;7;98;99;4;109;96;7;100;96];
 [7;100;97;5;123;105;7;101;67;5;35;39;5;35;40;6];
 [46;48;6;60;51;4;48;33;4;47;123;4;47;122;4;48];
 [34;5;48;67;6;60;48;6;60;49;6;60;47;6;60;50];
 [6;60;46;4;53;64;6;68;106;6;68;115;4;53;62;6];
 [68;111;5;53;92;5;53;89;6;68;113;4;53;66;5;53];
 [84;4;53;70;6;68;121;5;53;85;6;68;119;6;68;107];
 [6;68;120;5;53;88;6;68;116;6;68;117;6;68;110;6];
 [68;122;15;56;80;15;56;81;15;56;83;15;56;84;15;56];
 [85;15;56;86;6;68;114;6;68;105;6;68;104;6;68;118];
 [6;68;108;5;53;90;6;78;116;4;59;50;4;59;46;5];
 [60;59;6;78;111;6;78;110;6;78;113;6;78;106;4;59];
 [45;6;78;120;4;59;56;4;59;57;5;60;60;6;78;109];
 [6;78;118;6;78;112;6;78;119;4;59;55;5;60;57;5];
 [60;58;15;63;52;15;63;53;15;63;54;15;63;55;15;63];
 [56;15;63;57;15;63;58;15;63;60;6;78;114;6;78;117];
 [6;78;108;6;78;121;6;78;115;5;66;117;4;64;104;4];
 [64;106;6;88;70;5;66;118;5;60;61;5;66;121;4;64];
 [113;4;64;112;6;88;64;6;88;75;6;88;61;6;88;73];
 [4;64;105;4;64;107;5;66;124;5;66;116;4;64;115;6];
 [88;67;6;88;60;6;88;71;6;88;66;6;88;63;4;64];
 [114;5;66;122;6;88;72;5;66;120;5;66;119;6;88;68];
 [15;69;67;15;69;69;15;69;70;6;88;74;5;66;123;6];
 [88;57;6;88;59;4;64;111;6;88;58;6;88;69;6;88];
 [62;6;98;78;4;71;63;5;73;122;4;71;59;5;73;120];
 [5;73;123;4;71;62;4;71;72;6;98;66;6;98;76;4];
 [71;65;6;98;83;4;71;68;6;98;79;4;71;71;6;98];
 [70;5;73;121;6;98;81;6;98;69;4;71;73;6;98;80];
 [6;98;68;5;73;118;5;73;119;15;76;61;15;76;62;15];
 [76;63;15;76;64;15;76;66;15;76;67;15;76;68;15;76];
 [69;6;98;72;4;71;75;6;98;74;5;66;125;6;98;75];
 [6;98;77;6;98;67;6;98;82;6;98;73;7;41;33;5];
 [81;42;7;40;107;5;80;122;5;81;34;7;40;113;7;40];
 [116;7;41;34;7;40;124;7;40;112;5;81;39;4;77;87];
 [5;81;41;5;81;35;5;80;123;5;80;126;7;40;120;5];
 [81;36;4;77;93;5;81;38;4;77;98;7;41;36;7;40];
 [119;7;40;111;5;80;120;5;80;124;7;40;125;7;40;109];
 [5;81;37;5;80;125;5;80;119;5;80;121;5;80;118;15];
 [82;50;15;82;51;15;82;52;15;82;53;15;82;55;15;82];
 [57;15;82;58;7;40;118;7;40;117;7;40;108;7;40;114];
 [15;82;56;5;81;33;7;40;123;7;40;110;5;81;40;7];
 [41;35;7;40;126;7;40;122;7;40;115;7;51;70;5;88];
 [64;4;83;113;7;51;82;4;83;104;4;83;101;4;83;108];
 [7;51;73;7;51;81;7;51;67;5;88;61;7;51;66;5];
 [88;60;7;51;60;4;83;112;4;83;103;7;51;69;4;83];
 [111;7;51;61;4;83;110;7;51;71;7;51;78;4;83;102];
 [7;51;80;7;51;62;4;83;105;7;51;59;7;51;83;7];
 [51;64;7;51;63;7;51;72;7;51;74;5;88;63;7;51];
 [76;4;83;109;7;51;68;5;88;62;15;87;110;15;87;111];
 [15;87;112;15;87;113;15;87;114;15;87;115;15;87;116;15];
 [87;117;15;87;118;15;87;119;15;87;120;7;51;84;7;51];
 [65;7;51;75;4;88;110;5;94;82;5;94;81;7;59;125];
 [4;88;111;5;94;84;4;88;113;7;59;121;4;88;109;5];
 [94;77;5;94;83;5;94;78;7;59;118;7;60;37;4;88];
 [114;7;67;42;5;94;79;7;60;33;7;59;119;5;94;86];
 [7;60;39;7;59;124;7;59;120;5;94;80;4;88;116;7];
 [59;123;7;59;126;7;60;34;7;60;35;4;88;115;5;94];
 [75;7;60;38;5;94;76;7;60;36;7;59;117;15;92;99];
 [15;92;100;15;92;101;15;92;102;15;92;103;15;92;104;15];
 [92;105;15;92;106;15;92;107;7;60;40;7;60;41;7;59];
 [122;4;93;94;4;93;86;7;67;55;4;93;88;7;67;53];
 [5;100;104;7;67;58;7;67;43;4;93;96;5;100;102;5];
 [88;65;4;93;89;5;100;103;7;67;56;7;67;50;5;100];
 [100;4;93;83;7;67;59;4;93;85;5;100;101;4;93;93];
 [7;67;57;7;67;47;7;67;51;7;74;42;7;67;48;4];
 [93;92;7;67;52;7;67;49;7;67;60;7;67;44;7;67];
 [45;15;96;114;15;96;117;7;67;54;4;93;95;7;67;46];
 [5;105;77;5;105;79;7;74;47;4;97;62;7;74;44;7];
 [74;46;4;97;67;4;97;57;5;105;80;4;97;65;7;74];
 [52;4;97;66;5;105;78;4;97;63;7;74;38;7;74;41];
 [7;67;61;7;74;40;7;74;53;7;80;51;7;74;51;4];
 [97;60;5;109;96;7;74;39;15;99;120;15;99;121;15;99];
 [122;4;97;68;7;74;43;7;80;53;7;74;48;7;74;49];
 [7;74;45;7;74;50;4;97;56;15;96;116;4;100;74;4];
 [100;75;5;109;98;5;109;97;7;80;45;5;109;99;7;80];
 [47;4;100;73;7;80;43;5;105;83;7;80;50;7;80;46];
 [7;80;52;7;80;54;7;80;44;7;80;48;15;102;54;15];
 [102;55;15;102;56;15;102;57;7;80;56;7;80;55;7;80];
 [57;7;85;42;4;103;66;7;85;52;7;85;45;7;85;51];
 [4;103;56;7;85;46;5;113;61;7;85;44;7;85;47;4];
 [103;60;5;113;58;5;113;57;4;103;67;7;89;59;7;89];
 [53;4;103;58;5;113;60;5;113;59;7;85;49;7;85;43];
 [7;85;48;5;113;56;7;85;53;5;116;59;5;116;61;5];
 [116;64;5;118;75;4;105;71;7;89;57;4;105;74;5;116];
 [63;4;105;73;5;116;62;7;89;55;7;89;64;7;85;54];
 [5;116;60;7;89;54;7;89;58;7;89;63;4;105;70;7];
 [89;62;15;105;114;15;105;115;15;105;116;7;89;60;7;89];
 [61;4;106;125;4;106;126;7;92;102;5;118;78;5;118;77];
 [5;120;49;7;92;104;7;92;105;7;92;106;15;106;116;15];
 [106;117;7;92;103;7;89;66;7;95;87;7;95;88;7;95];
 [85;4;108;39;7;95;86;7;95;90;15;107;101;15;107;102];
 [7;95;84;7;95;89;7;95;91;4;109;35;7;97;75;5];
 [121;78;7;97;76;15;108;58;15;108;59;7;97;74;5;122];
 [117;7;98;101;7;98;100;5;122;57;4;109;126;7;99;116];
 [7;100;98;4;110;60;7;100;68;7;101;68;7;102;80;5];
 [36;119;4;48;36;5;48;68;5;48;69;4;53;72;4;53];
 [73;4;53;71;6;68;123;4;59;58;5;66;126;5;67;33];
 [6;88;76;4;71;77;5;81;44;4;77;99;5;81;45;5];
 [81;43;5;88;66;7;51;86;7;51;85;7;60;42;5;94];
 [87;7;67;62;7;74;54;7;74;57;5;105;84;7;74;55];
 [5;105;85;7;74;56;7;80;58;7;74;58;5;113;62;5];
 [122;118;7;101;119;6;52;85;6;60;53;6;60;52;15;56];
 [87;4;59;59;5;60;62;6;78;123;15;63;61;5;67;34];
 [4;64;117;6;91;95;4;71;80;6;98;84;4;71;81;7];
 [41;40;7;41;39;7;41;37;5;81;47;5;81;46;7;41];
 [38;15;82;59;5;88;67;4;83;116;7;51;87;5;88;68];
 [7;44;86;5;94;90;7;60;45;5;94;88;7;60;44;5];
 [94;89;7;60;43;5;100;105;4;93;99;7;67;64;4;93];
 [98;5;94;91;7;74;60;5;105;87;7;74;61;7;67;65];
 [7;67;66;5;105;86;5;109;102;5;109;101;5;109;103;15];
 [102;58;5;109;100;15;99;123;5;113;63;5;116;65;15;106];
 [118;15;106;119;5;120;50;5;121;79;5;122;119;7;101;69];
 [6;37;84;5;35;41;5;43;74;5;48;72;5;48;71;6];
 [60;55;6;60;54;6;68;126;6;68;124;5;53;97;6;69];
 [33;6;68;125;4;59;60;6;78;124;4;59;61;5;60;64];
 [5;60;63;6;78;126;5;60;65;6;79;35;6;78;125;15];
 [50;85;4;64;119;5;67;37;4;64;118;6;88;78;6;88];
 [79;5;67;39;5;67;35;5;67;38;6;88;77;6;79;34];
 [5;67;36;5;67;40;6;98;85;6;98;86;4;71;83;4];
 [71;82;6;98;89;5;73;125;5;73;124;6;98;91;6;98];
 [90;6;98;87;6;98;88;5;81;50;4;77;102;7;41;41];
 [7;41;43;5;81;49;5;81;51;7;41;45;7;41;44;5];
 [73;126;5;81;48;7;41;42;5;74;33;7;41;46;15;82];
 [60;5;88;71;5;88;72;5;88;70;7;51;89;4;83;118];
 [7;51;90;7;51;92;7;51;91;5;88;69;7;51;88;5];
 [94;93;5;94;94;5;94;95;5;94;92;7;60;48;7;60];
 [46;7;60;47;4;93;101;5;100;106;5;100;107;7;67;67];
 [7;67;68;7;67;69;4;97;71;5;105;88;5;88;73;7];
 [74;62;4;97;73;5;109;107;5;109;104;7;80;59;5;109];
 [106;5;109;105;4;103;70;5;113;64;7;85;55;7;85;56];
 [7;89;67;7;92;108;7;89;68;7;89;69;7;92;109;7];
 [92;110;5;116;66;7;95;92;7;97;77;7;95;93;5;121];
 [80;5;122;58;7;101;70;7;102;67;15;40;108;5;43;75];
 [6;60;56;15;50;86;5;53;100;5;53;99;4;53;79;5];
 [53;98;4;53;78;6;69;37;6;69;35;6;79;37;5;60];
 [66;5;60;70;5;60;68;5;60;72;5;60;69;6;79;40];
 [6;79;38;5;60;71;5;60;67;6;79;39;6;79;36;15];
 [63;62;4;64;124;4;64;125;4;64;122;6;88;82;5;67];
 [43;6;88;81;5;67;42;4;64;121;4;64;123;6;88;83];
 [15;69;71;5;67;41;6;98;97;6;98;92;5;74;37;5];
 [74;35;5;74;34;6;98;95;5;74;36;6;98;94;6;98];
 [96;15;76;72;6;98;93;6;98;98;15;76;73;5;81;53];
 [5;81;52;4;77;105;5;81;55;5;81;54;5;81;56;4];
 [77;106;7;41;47;7;41;48;4;77;107;7;41;49;7;51];
 [100;5;88;75;7;51;94;7;51;96;7;51;97;4;83;120];
 [5;88;74;7;51;98;5;88;76;7;51;95;15;87;122;7];
 [51;93;7;51;99;4;88;121;5;94;99;7;60;49;5;94];
 [98;4;88;120;5;94;96;5;94;100;5;94;97;15;92;108];
 [7;67;70;4;93;103;7;67;71;4;93;102;5;100;108;7];
 [74;63;5;100;109;5;105;91;7;74;64;5;105;90;7;74];
 [67;7;80;61;7;74;66;5;105;89;5;109;109;5;109;108];
 [7;80;60;5;113;66;5;109;110;5;113;65;7;85;57;7];
 [89;70;7;92;112;7;92;111;5;122;120;5;43;76;4;43];
 [74;6;52;86;15;45;74;4;48;38;6;60;57;5;48;73];
 [5;48;74;15;50;87;15;50;88;6;60;58;6;69;42;6];
 [69;44;6;69;39;6;69;40;6;69;38;6;69;43;5;53];
 [101;15;56;89;15;56;90;15;56;91;15;56;92;15;56;93];
 [15;56;94;15;56;95;15;56;96;6;69;45;4;53;83;6];
 [69;41;4;53;82;6;79;43;4;59;64;5;60;73;5;60];
 [75;6;79;46;6;79;44;6;79;45;6;88;87;5;60;74];
 [15;63;63;15;63;65;15;63;66;15;63;67;15;63;68;15];
 [63;69;6;79;47;6;79;42;5;60;77;4;65;34;6;88];
 [84;6;88;89;6;88;86;5;67;48;5;67;44;6;88;94];
 [6;88;85;5;67;47;5;67;49;5;67;50;6;88;88;6];
 [88;96;6;88;98;5;67;51;6;88;95;15;69;72;15;69];
 [73;15;69;74;15;69;75;15;69;76;15;69;77;15;69;78];
 [6;88;97;15;63;64;6;88;91;5;67;46;15;70;52;6];
 [98;101;4;71;85;5;74;38;6;98;100;6;98;102;6;98];
 [108;6;98;99;6;98;105;5;74;39;4;71;87;15;76;77];
 [15;76;78;15;76;79;15;76;81;15;76;80;15;76;76;6];
 [98;107;6;88;93;7;41;51;7;41;53;5;74;40;4;77];
 [111;7;41;52;5;81;58;4;77;112;5;81;59;7;41;57];
 [7;41;56;7;41;50;15;82;61;15;82;62;15;82;63;7];
 [41;55;15;76;75;7;51;106;5;88;78;7;51;103;7;51];
 [102;5;88;79;7;51;107;7;51;110;4;83;124;7;51;104];
 [5;88;77;6;98;104;15;84;50;15;87;123;15;87;124;15];
 [87;125;15;87;126;15;88;33;15;88;34;7;51;109;7;51];
 [108;7;51;101;7;51;105;5;88;80;7;60;50;5;94;101];
 [5;91;45;5;94;103;5;88;82;5;94;102;4;88;123;7];
 [60;56;7;60;52;7;60;54;7;60;55;7;60;53;15;92];
 [110;15;92;112;15;92;111;7;67;75;5;100;115;7;67;78];
 [5;100;111;7;67;73;7;67;74;7;67;81;5;100;113;5];
 [100;110;5;100;114;7;67;77;7;67;76;15;96;118;15;96];
 [119;15;96;120;15;96;121;15;96;123;15;96;124;7;67;72];
 [7;67;80;5;100;112;7;74;71;7;74;75;5;105;93;5];
 [100;116;7;74;74;7;67;79;5;105;92;4;97;75;7;74];
 [72;5;105;94;7;74;77;7;74;76;5;105;96;7;74;68];
 [7;74;73;7;74;70;15;99;124;15;99;125;15;99;126;15];
 [100;33;7;74;78;7;74;69;5;105;95;4;100;81;5;109];
 [112;4;100;80;5;109;111;7;80;62;7;80;64;15;102;59];
 [15;102;60;15;102;61;15;102;62;15;102;63;7;80;63;5];
 [113;67;4;103;71;5;113;68;5;113;69;15;104;78;15;104];
 [79;7;85;59;7;89;71;5;116;69;5;116;68;15;105;118];
 [15;105;119;15;105;120;7;89;74;7;89;72;7;89;73;15];
 [104;77;7;92;113;4;107;34;5;116;67;7;92;114;15;106];
 [120;7;92;115;7;95;94;7;95;96;7;95;95;7;98;102];
 [6;46;49;6;52;87;6;52;88;5;53;102;15;56;97;6];
 [79;48;4;59;68;6;88;99;15;69;79;5;74;42;15;76];
 [82;7;41;58;5;88;84;5;88;83;15;88;35;7;51;111];
 [5;94;105;5;94;106;5;94;104;15;92;113;5;100;117;7];
 [67;83;7;74;80;7;74;79;5;113;70;7;92;116;6;46];
 [50;6;46;51;6;52;89;15;45;75;15;45;77;15;45;78];
 [15;45;79;15;45;80;4;43;75;5;48;77;6;60;62;6];
 [60;61;5;48;78;6;60;60;4;48;41;15;50;89;15;50];
 [90;15;50;91;15;50;92;15;50;93;5;53;109;6;69;48];
 [5;53;103;4;53;87;5;53;106;5;53;111;5;53;110;4];
 [53;88;6;69;46;6;69;47;5;53;107;5;53;104;15;56];
 [99;15;56;100;15;56;101;15;56;102;15;56;104;15;56;105];
 [15;56;98;5;53;108;5;53;105;15;56;103;5;60;81;5];
 [60;80;5;60;84;5;60;79;6;79;52;6;79;49;5;67];
 [57;5;60;83;5;60;78;6;79;51;4;59;70;5;60;85];
 [6;88;100;6;79;53;15;63;71;15;63;72;15;63;73;15];
 [63;74;15;63;75;15;63;76;15;63;79;15;63;80;15;63];
 [81;6;79;50;15;63;78;6;88;102;5;67;54;4;65;35];
 [6;88;104;4;65;37;5;67;59;5;67;53;5;67;61;5];
 [67;55;4;65;36;6;88;106;6;88;105;5;67;58;15;69];
 [80;15;69;81;15;69;82;15;69;83;15;69;84;15;69;85];
 [15;69;86;15;69;87;6;88;101;6;88;103;6;98;109;15];
 [63;77;6;98;110;4;71;92;5;74;44;5;74;48;6;98];
 [114;5;74;43;5;74;46;5;74;49;6;98;113;6;98;111];
 [5;74;51;4;71;93;5;74;47;6;98;118;5;74;45;6];
 [98;115;15;76;83;15;76;84;15;76;85;15;76;86;15;76];
 [87;15;76;88;15;76;89;6;98;112;5;81;66;5;81;60];
 [4;77;114;5;81;63;5;81;62;5;81;61;5;81;64;7];
 [41;63;5;81;70;5;81;67;7;41;65;5;81;65;7;41];
 [60;7;41;64;7;41;62;6;98;116;7;41;66;7;51;114];
 [5;81;69;5;81;68;15;82;64;15;82;65;7;41;67;7];
 [41;59;15;88;45;4;84;35;4;84;36;4;84;40;7;51];
 [116;5;88;89;4;84;33;4;84;34;4;84;39;7;51;117];
 [4;84;37;7;51;113;7;51;112;5;88;88;5;88;90;7];
 [51;118;15;88;36;15;88;38;15;88;39;15;88;40;15;88];
 [41;15;88;42;15;88;43;15;88;44;15;88;46;7;51;120];
 [7;51;119;5;88;91;5;88;86;5;88;87;5;94;111;5];
 [94;113;4;89;34;5;94;112;4;89;36;4;89;33;5;94];
 [114;4;88;126;5;94;108;4;89;35;5;94;110;5;94;107];
 [7;60;58;5;94;115;15;88;37;15;92;114;15;92;115;15];
 [92;116;15;92;117;15;92;118;7;60;57;5;100;121;5;100];
 [124;4;93;107;7;67;87;7;67;86;5;100;118;5;100;122];
 [5;100;120;5;100;119;5;100;125;5;100;126;7;67;91;7];
 [67;90;5;100;123;15;96;125;7;67;88;7;67;85;7;67];
 [89;7;67;84;5;88;93;5;105;98;5;105;102;5;105;104];
 [4;97;78;4;97;76;5;105;99;5;105;103;5;105;101;5];
 [105;97;7;74;82;5;105;105;5;105;100;15;100;35;15;100];
 [36;15;100;37;7;74;81;7;74;83;4;100;82;4;100;84];
 [4;100;88;4;100;87;5;109;113;7;80;65;7;80;67;5];
 [109;114;7;80;66;15;102;64;15;102;65;15;102;66;4;103];
 [73;5;113;72;5;113;73;7;85;63;7;85;61;7;85;60];
 [7;85;62;5;113;71;5;116;70;5;116;73;4;105;77;5];
 [116;72;5;116;71;15;105;121;5;118;79;5;118;80;15;106];
 [121;7;89;75;7;92;117;7;92;118;5;120;51;5;120;52];
 [5;120;53;4;109;38;7;97;78;5;122;121;5;123;73;6];
 [46;53;6;46;52;6;52;91;5;43;77;15;45;81;6;52];
 [90;6;60;65;4;48;43;6;60;66;6;60;64;5;48;80];
 [5;48;79;6;60;63;6;60;67;4;53;95;6;69;51;4];
 [53;90;5;53;115;6;69;55;5;53;119;6;69;58;5;53];
 [113;5;53;117;6;69;60;6;69;61;5;53;116;6;69;59];
 [6;69;50;6;69;54;15;56;106;6;69;49;6;69;53;6];
 [69;57;5;53;118;5;53;112;6;69;52;5;60;96;5;60];
 [87;5;60;88;5;60;91;6;79;59;5;60;86;6;79;56];
 [4;59;78;5;60;93;5;60;89;5;60;97;5;60;90;6];
 [79;57;6;88;121;5;60;98;15;63;84;6;79;55;15;63];
 [82;6;79;58;5;60;94;5;67;65;5;67;63;6;88;113];
 [5;67;64;5;67;66;6;88;116;6;88;112;5;67;71;5];
 [67;69;6;88;110;6;88;109;5;67;62;6;88;111;6;88];
 [114;6;88;118;5;67;74;6;88;108;6;88;119;5;67;67];
 [5;67;76;5;67;72;6;88;115;5;67;73;5;67;70;6];
 [88;117;5;74;53;15;69;89;6;88;120;6;88;107;6;99];
 [34;5;74;67;4;71;96;5;74;55;5;74;63;5;74;54];
 [5;81;78;5;74;59;6;98;119;6;98;123;5;74;66;5];
 [74;60;5;74;57;5;74;64;5;74;65;5;74;61;5;67];
 [68;5;74;56;5;74;68;6;98;126;5;74;70;6;98;121];
 [5;74;71;15;76;90;15;76;91;6;98;120;6;98;122;6];
 [98;125;6;99;33;6;98;124;5;74;58;7;41;70;4;77];
 [122;5;81;76;5;81;71;5;81;74;5;81;79;7;41;69];
 [7;41;73;4;77;124;7;41;77;4;77;123;5;81;75;5];
 [81;77;4;78;36;5;81;81;5;81;82;4;71;99;7;41];
 [79;5;81;73;7;41;75;15;82;66;15;82;67;15;82;68];
 [15;82;69;7;41;72;7;41;76;7;41;71;7;41;74;5];
 [81;80;5;81;84;5;81;85;5;74;69;7;52;33;5;88];
 [96;5;74;72;5;88;105;4;84;42;7;51;122;5;88;99];
 [7;51;126;7;52;35;7;51;124;5;88;95;7;51;123;7];
 [52;37;5;81;83;7;52;38;5;88;103;5;88;104;5;88];
 [94;5;88;97;7;51;125;5;88;101;5;88;100;7;52;36];
 [4;84;43;5;88;102;4;84;44;15;88;49;15;88;50;7];
 [52;34;5;94;122;5;94;125;5;94;117;7;60;64;5;94];
 [118;5;94;124;5;94;120;4;89;41;7;60;62;7;67;103];
 [7;60;67;5;94;126;4;89;46;7;60;59;7;60;66;7];
 [60;68;5;94;121;4;89;39;7;60;65;7;52;39;7;60];
 [63;4;89;47;15;92;119;7;60;61;15;92;121;5;94;119];
 [5;94;116;7;67;98;4;93;112;7;67;102;4;93;111;5];
 [101;33;5;101;34;5;101;45;5;101;38;4;93;113;5;101];
 [44;5;101;40;7;67;95;5;105;112;7;67;101;7;67;92];
 [5;101;46;7;67;94;5;101;36;7;67;97;5;101;35;5];
 [101;41;4;95;51;4;93;118;5;101;37;15;96;126;15;97];
 [33;15;97;34;15;97;35;15;97;36;15;97;37;7;67;107];
 [5;101;39;7;67;96;7;67;105;7;67;104;7;67;106;7];
 [67;93;5;101;43;7;67;99;7;60;60;5;101;47;5;105];
 [106;7;74;101;5;105;111;5;105;113;7;74;104;5;105;116];
 [7;74;91;5;101;42;5;105;110;7;74;88;5;105;109;5];
 [105;114;4;97;85;7;74;84;4;93;115;7;74;89;7;67];
 [100;7;74;94;5;105;115;7;74;90;7;74;102;7;74;85];
 [7;74;92;5;105;107;5;105;108;7;74;97;7;74;98;7];
 [74;99;7;74;95;5;105;118;5;105;117;7;74;96;7;74];
 [93;7;74;103;7;74;86;7;74;100;4;97;83;4;100;89];
 [5;109;125;5;109;119;7;80;68;5;109;123;5;109;118;5];
 [109;121;7;80;72;7;80;70;4;100;92;5;109;115;4;100];
 [93;7;80;71;5;109;120;5;109;117;5;109;116;7;80;73];
 [15;102;67;15;102;68;15;102;69;15;102;70;15;102;71;7];
 [80;69;7;80;74;7;80;75;5;109;124;5;109;126;5;109];
 [122;4;103;78;7;85;66;4;103;79;5;113;75;7;85;65];
 [7;85;68;4;103;77;4;103;75;5;113;76;7;85;67;7];
 [85;64;5;113;74;15;104;81;15;104;82;5;116;74;7;85];
 [69;7;89;76;5;116;77;5;116;79;5;116;78;5;116;76];
 [7;89;77;5;116;81;7;89;78;15;105;122;7;89;79;5];
 [116;80;5;118;84;5;118;82;5;118;85;7;92;121;7;92];
 [120;5;118;83;5;118;81;4;108;43;7;95;97;5;120;55];
 [5;120;54;4;108;42;5;120;56;7;95;98;7;97;79;7];
 [95;99;7;97;82;4;109;40;7;97;84;7;98;103;7;97];
 [83;7;97;81;7;97;80;15;107;103;5;122;60;5;122;59];
 [5;122;61;7;99;118;5;123;74;7;100;99;5;123;106;15];
 [109;40;7;101;101;15;109;51;6;35;57;6;35;58;6;37];
 [85;5;48;82;6;60;68;5;48;81;5;53;122;5;53;121];
 [5;53;120;6;69;62;6;69;65;6;69;64;6;69;66;6];
 [69;63;6;69;67;6;69;68;4;53;96;15;56;107;5;60];
 [101;6;79;63;5;60;100;6;79;65;6;79;62;5;60;102];
 [15;63;85;15;63;86;15;63;87;15;63;88;6;79;61;6];
 [79;64;6;88;125;5;67;77;6;88;122;6;88;126;6;89];
 [33;15;69;90;15;69;91;15;69;92;6;88;123;6;88;124];
 [6;89;34;5;74;74;6;99;35;6;99;36;5;74;73;6];
 [99;37;6;99;38;15;76;92;15;76;93;15;76;94;7;41];
 [81;5;81;86;4;78;37;15;82;70;15;82;72;7;41;80];
 [5;88;106;4;84;49;5;88;107;7;52;40;7;60;70;15];
 [88;52;15;88;54;7;60;72;7;60;71;7;60;69;5;95];
 [33;15;92;122;15;92;123;5;101;48;7;67;108;15;97;38];
 [15;97;39;7;74;108;7;74;109;7;74;106;15;100;38;15];
 [100;39;7;74;107;7;74;105;4;100;94;7;80;77;15;102];
 [72;15;102;73;7;80;78;7;85;70;5;113;77;7;85;71];
 [7;85;72;7;85;73;7;89;80;15;105;124;5;118;86;5];
 [121;81;6;52;92;5;43;78;6;52;94;15;45;82;15;45];
 [84;6;60;69;5;48;84;6;60;71;15;50;95;15;50;96];
 [6;60;70;5;48;83;15;50;94;5;53;123;6;69;78;6];
 [69;77;6;69;70;4;53;100;5;54;34;5;54;33;6;69];
 [74;5;53;125;6;69;71;6;69;76;6;69;75;5;53;124];
 [5;53;126;15;56;109;6;69;72;6;69;73;4;53;101;6];
 [79;70;6;79;71;5;60;112;5;60;110;6;79;69;6;79];
 [68;6;79;66;5;54;35;5;60;109;5;60;104;5;60;107];
 [5;60;106;6;79;67;5;60;105;5;60;113;5;60;108;5];
 [60;111;6;89;35;6;89;40;5;67;83;6;89;38;6;89];
 [41;5;67;81;4;65;43;5;67;82;5;67;79;6;89;39];
 [5;67;78;15;69;93;15;69;94;15;69;95;6;89;37;4];
 [65;45;5;67;84;6;99;45;6;99;47;5;74;80;4;71];
 [104;6;99;40;6;99;43;5;74;77;6;99;44;6;99;39];
 [6;99;48;5;74;75;5;74;78;6;99;49;6;99;46;15];
 [76;95;15;76;96;15;76;97;15;76;99;5;74;79;5;74];
 [76;7;41;89;6;99;42;5;81;96;7;41;87;7;41;94];
 [7;41;98;7;41;86;5;81;89;7;41;90;7;41;85;7];
 [41;92;5;81;88;5;81;91;5;81;94;4;78;44;6;99];
 [41;7;41;88;7;41;93;7;41;91;5;81;93;5;81;95];
 [7;41;82;5;81;87;7;41;84;7;41;99;15;82;73;15];
 [82;74;15;82;75;15;82;76;7;41;83;7;41;95;7;41];
 [96;7;41;97;5;81;92;5;81;90;7;52;41;5;88;115];
 [7;52;47;5;88;116;7;52;45;5;88;112;7;52;43;7];
 [52;52;5;88;110;5;88;113;5;88;109;7;52;53;7;52];
 [48;7;52;54;5;88;108;7;52;51;15;88;55;15;88;57];
 [15;88;58;7;52;44;7;52;46;7;52;42;15;88;56;4];
 [84;53;5;88;111;7;60;74;7;60;82;5;95;37;7;60];
 [77;7;60;76;7;60;75;7;60;83;4;89;51;7;60;80];
 [4;89;52;7;60;81;5;95;34;5;95;43;4;89;54;5];
 [95;40;5;95;39;7;60;84;5;95;36;5;95;42;7;60];
 [73;15;92;124;15;92;125;7;60;78;7;60;79;5;95;38];
 [5;95;35;5;95;41;4;93;121;7;67;112;4;94;33;5];
 [101;50;5;101;52;15;97;40;15;97;41;15;97;42;7;67];
 [111;7;67;114;7;67;113;7;67;110;7;67;109;5;101;49];
 [5;101;51;5;105;120;7;74;110;7;74;113;7;74;111;7];
 [74;112;5;105;122;4;97;90;4;97;91;5;105;121;5;105];
 [119;5;105;123;7;74;114;15;100;40;7;74;116;4;100;98];
 [5;110;37;5;110;35;7;80;83;5;110;36;5;110;34;7];
 [80;81;5;110;33;15;102;74;7;80;82;7;80;80;7;80];
 [79;5;110;38;7;80;84;4;103;83;5;113;78;4;103;84];
 [7;85;76;7;85;75;7;85;74;7;89;86;4;105;80;7];
 [89;82;7;89;81;4;105;81;7;89;87;7;89;83;7;89];
 [84;7;89;85;7;92;126;7;93;33;5;118;87;7;92;123];
 [7;92;122;7;92;124;7;92;125;5;118;89;5;118;88;5];
 [120;60;5;120;59;5;120;58;7;95;103;7;95;101;7;95];
 [100;5;120;57;7;95;102;5;121;83;5;121;82;5;122;62];
 [5;122;63;7;98;104;5;122;122;7;100;100;7;98;105;7];
 [99;119;5;123;107;7;101;102;6;41;43;6;46;54;6;60];
 [72;6;69;79;5;54;37;5;54;36;4;65;46;6;89;42];
 [15;69;97;5;74;81;15;76;101;15;76;102;5;74;82;7];
 [41;100;7;41;101;7;41;102;5;81;98;7;52;55;5;88];
 [117;7;52;56;15;88;59;5;95;45;5;95;44;15;92;126];
 [15;93;33;15;93;34;15;93;35;5;95;46;5;101;55;5];
 [101;54;7;67;115;7;74;117;4;97;92;7;74;118;15;102];
 [75;7;80;85;15;104;84;7;89;88;7;95;104;7;101;71];
 [7;101;103;6;41;44;6;46;55;6;89;45;6;89;44;6];
 [89;43;15;82;77;7;51;33;4;97;93;7;85;77;6;37];
 [89;6;37;88;6;37;87;4;36;126;6;41;45;4;37;36];
 [6;60;73;6;41;46;15;37;51;15;37;52;6;60;74;6];
 [41;47;5;36;120;6;60;75;6;69;80;5;39;106;5;39];
 [107;5;39;112;6;46;56;6;46;61;5;39;111;4;40;37];
 [5;39;113;5;39;109;4;40;40;6;46;59;15;40;109;15];
 [40;111;15;40;112;15;40;115;15;40;116;15;40;117;6;46];
 [58;6;46;63;5;39;110;5;39;104;6;46;60;5;39;108];
 [6;46;57;6;46;62;5;43;79;5;43;86;5;43;82;6];
 [52;95;5;43;81;6;52;98;5;43;85;5;43;83;4;43];
 [79;4;43;81;5;43;80;6;52;100;6;52;99;15;45;85];
 [15;45;86;15;45;87;15;45;88;15;45;89;4;43;82;6];
 [52;101;6;52;97;6;74;71;5;43;87;5;43;84;6;60];
 [84;6;60;88;5;48;91;6;60;83;5;48;86;5;48;90];
 [4;48;49;5;48;87;5;48;89;6;60;82;6;60;76;6];
 [60;86;4;48;50;6;60;87;6;60;77;5;67;85;6;60];
 [85;5;48;88;6;60;80;6;60;78;5;48;92;5;54;39];
 [5;54;38;6;60;79;6;69;91;5;54;44;4;53;106;6];
 [69;92;5;54;43;6;60;81;5;54;41;6;69;87;6;69];
 [90;15;56;112;15;56;113;15;56;114;6;69;86;6;69;84];
 [6;69;85;6;69;82;6;69;93;6;69;88;6;69;83;5];
 [54;42;4;53;103;6;69;89;5;54;45;5;54;40;15;56];
 [111;6;69;81;5;60;118;5;60;114;5;60;120;5;60;119];
 [4;59;86;6;79;83;4;59;90;4;59;88;5;60;121;6];
 [79;82;7;41;103;6;79;77;6;79;76;6;79;80;6;79];
 [79;4;59;91;6;79;73;6;79;75;15;63;98;6;79;81];
 [6;79;84;6;79;85;6;79;74;15;63;89;15;63;90;15];
 [63;91;15;63;92;15;63;93;15;63;95;15;63;96;15;63];
 [97;5;60;117;6;79;78;5;60;116;5;60;115;4;59;89];
 [6;79;86;6;89;64;6;89;52;6;89;61;6;89;48;4];
 [65;49;4;65;48;6;89;46;5;67;89;6;89;49;6;89];
 [65;6;89;59;6;89;63;6;89;55;6;89;53;6;89;67];
 [6;89;66;5;60;122;4;65;50;6;89;51;6;89;62;15];
 [69;98;15;69;99;15;69;100;15;69;101;15;69;102;15;69];
 [103;15;69;104;15;69;105;15;69;106;15;69;107;15;69;108];
 [6;89;50;6;89;54;6;89;60;6;89;57;6;89;56;6];
 [89;58;6;89;47;5;67;88;5;67;87;5;67;86;6;99];
 [53;6;99;52;6;99;55;6;99;50;6;99;58;5;74;84];
 [6;99;54;6;99;56;6;99;60;5;74;83;5;74;86;6];
 [99;51;6;99;59;7;60;85;15;76;105;15;76;106;15;76];
 [108;15;76;109;15;76;110;15;76;111;15;76;112;15;76;113];
 [15;76;114;6;99;57;7;60;86;7;60;87;7;60;88;5];
 [74;85;7;41;110;7;41;108;7;41;114;7;41;105;7;41];
 [107;4;78;47;5;81;100;4;78;48;5;81;104;5;81;101];
 [4;78;52;7;41;112;15;82;78;15;82;79;15;82;80;15];
 [82;81;15;82;82;5;81;109;7;41;106;7;41;111;7;41];
 [116;7;41;117;7;41;113;7;41;115;7;67;116;7;41;104];
 [7;67;117;7;41;109;5;81;105;5;81;103;5;81;108;5];
 [81;102;5;81;106;5;81;107;5;81;99;7;52;70;5;88];
 [124;5;88;123;5;88;121;7;52;65;5;88;119;7;52;69];
 [7;52;62;7;52;71;4;84;54;7;52;66;7;52;68;7];
 [52;57;7;52;74;7;74;119;7;52;60;7;52;64;7;52];
 [76;15;88;60;15;88;61;15;88;62;7;52;61;15;88;63];
 [7;44;90;7;52;72;7;52;59;7;52;58;7;52;67;7];
 [52;75;5;88;120;5;88;125;5;88;122;7;52;63;5;88];
 [118;5;95;47;4;89;58;7;60;96;5;95;51;7;60;93];
 [5;95;52;7;60;91;7;80;87;7;52;73;7;60;98;7];
 [60;94;5;95;50;5;95;53;15;93;36;15;93;38;15;93];
 [39;15;93;40;7;60;89;7;60;92;7;60;95;7;60;99];
 [15;93;37;5;95;54;5;95;55;5;95;49;5;95;48;7];
 [60;90;5;101;61;7;67;124;4;94;34;7;67;122;5;101];
 [58;7;67;120;15;97;43;15;97;44;15;97;45;7;68;33];
 [7;67;126;5;101;57;7;67;125;7;67;118;7;67;121;5];
 [101;60;5;101;59;5;101;56;7;67;123;7;75;33;7;75];
 [34;7;74;126;15;100;42;15;100;43;15;100;45;15;100;46];
 [7;74;121;7;74;122;7;74;125;7;74;123;7;74;124;7];
 [74;120;5;106;33;5;105;126;15;100;44;7;80;90;5;110];
 [41;7;80;89;5;110;39;15;102;76;7;80;88;5;110;40];
 [7;93;34;4;103;85;7;85;79;5;113;81;7;85;80;7];
 [85;78;15;104;85;15;104;86;15;104;87;15;104;88;5;113];
 [79;5;113;80;5;105;125;7;85;81;5;113;82;5;116;82];
 [4;107;37;7;89;91;7;89;90;7;89;89;7;93;35;7];
 [93;37;7;93;36;7;98;106;7;95;106;7;95;105;5;120];
 [61;7;97;85;7;98;107;7;101;104;6;41;48;5;33;124];
 [5;35;44;5;35;43;5;35;45;5;35;42;4;35;49;6];
 [37;90;6;37;92;4;35;51;4;37;39;5;36;121;4;37];
 [38;4;37;40;4;37;37;6;41;51;4;37;42;5;36;122];
 [4;53;113;6;41;50;15;37;53;15;37;54;15;37;55;15];
 [56;115;15;56;117;6;69;97;6;69;95;6;69;96;6;41];
 [49;4;37;41;4;40;46;6;69;94;4;40;42;4;40;45];
 [4;40;44;6;52;105;4;40;47;5;39;114;5;39;115;6];
 [79;88;6;46;67;15;40;118;15;40;120;15;40;121;15;40];
 [124;6;79;90;6;46;65;6;46;66;6;46;64;15;40;119];
 [15;40;123;6;79;87;6;79;89;5;39;116;5;43;90;5];
 [43;89;5;43;88;4;43;87;4;43;85;5;43;95;4;65];
 [51;5;43;91;15;45;90;15;69;110;6;89;69;6;89;68];
 [6;89;70;6;52;108;6;52;102;6;52;103;6;52;104;6];
 [52;107;6;52;106;5;43;94;5;43;92;5;43;93;5;48];
 [97;5;48;93;4;48;54;6;60;91;5;48;101;5;48;102];
 [5;48;94;5;48;99;5;48;95;4;48;53;6;60;93;4];
 [48;55;6;60;95;6;99;61;6;99;63;6;99;64;6;60];
 [92;6;60;94;6;60;90;5;48;98;5;48;100;5;48;96];
 [5;48;103;6;99;62;6;60;89;15;50;98;15;50;99;15];
 [50;100;5;81;110;4;78;54;4;53;111;5;54;49;5;54];
 [48;5;54;53;5;54;46;5;54;50;4;53;109;6;69;102];
 [5;54;52;7;41;122;7;41;121;6;69;104;15;50;97;15];
 [56;118;15;82;84;7;41;118;7;41;119;7;41;123;7;41];
 [120;6;69;99;6;69;101;6;69;100;6;69;98;15;51;60];
 [6;69;103;5;54;47;5;54;51;5;48;104;4;59;95;5];
 [61;35;5;60;126;5;61;34;4;59;93;5;61;36;6;79];
 [100;5;61;33;5;67;103;5;60;125;5;60;124;6;79;98];
 [6;79;91;4;59;92;15;63;99;15;63;100;15;63;101;15];
 [88;65;7;52;78;6;79;93;6;79;92;6;79;94;6;79];
 [95;6;79;96;6;79;97;15;63;102;6;79;99;7;52;77];
 [5;60;123;7;60;100;5;67;91;5;67;96;5;67;99;5];
 [67;94;5;67;93;4;65;53;6;99;65;5;67;92;5;67];
 [98;5;67;95;5;67;100;5;67;102;4;65;55;5;67;101];
 [6;89;73;5;67;90;15;69;111;6;89;72;6;89;75;5];
 [67;97;4;71;111;5;74;93;5;74;92;5;74;89;5;74];
 [88;5;74;99;5;74;95;5;74;91;6;99;70;6;99;67];
 [6;99;66;5;74;97;5;74;98;7;68;34;7;68;36;7];
 [68;35;7;68;37;6;99;69;5;74;87;4;71;114;6;99];
 [68;5;101;62;5;74;90;5;74;94;5;74;100;4;78;56];
 [7;75;35;5;81;114;7;42;33;4;78;55;5;81;115;4];
 [78;57;5;89;40;5;81;111;5;81;112;7;41;126;7;42];
 [34;4;78;58;15;82;83;15;82;85;15;82;86;7;75;38];
 [7;75;36;7;42;35;7;42;37;7;42;38;7;42;36;7];
 [41;124;7;41;125;5;81;116;7;52;80;5;81;113;7;75];
 [37;5;110;42;5;89;37;5;89;38;7;80;92;4;84;56];
 [7;52;79;5;89;33;5;89;36;7;52;82;5;89;34;5];
 [89;35;4;84;57;7;52;81;15;88;64;7;80;93;7;80];
 [91;5;110;43;7;60;101;7;60;105;5;95;56;4;89;59];
 [5;95;57;7;85;82;7;85;83;7;85;84;7;60;103;7];
 [60;106;7;60;102;5;95;59;5;95;58;7;85;85;7;60];
 [104;5;101;64;7;68;38;7;68;39;5;101;65;5;106;37];
 [5;101;68;7;68;41;7;68;40;5;101;66;5;101;67;7];
 [89;92;5;101;63;7;68;42;7;75;40;7;68;43;5;106];
 [36;7;75;39;5;106;35;7;75;42;7;75;41;4;97;96];
 [5;89;39;5;106;34;4;100;100;5;110;44;7;80;95;7];
 [80;97;7;80;94;7;80;96;4;103;86;15;104;89;7;85];
 [86;7;85;87;7;89;93;7;85;88;15;104;90;7;93;38];
 [7;95;107;7;95;108;5;123;75;7;99;120;4;48;57;15];
 [50;101;6;60;96;5;54;56;5;54;55;6;69;114;6;69];
 [110;5;54;57;4;53;118;6;69;108;6;69;115;6;69;105];
 [4;53;119;5;54;58;6;69;112;6;69;111;6;69;106;6];
 [69;107;15;56;119;6;69;113;4;53;121;6;69;109;6;69];
 [116;6;79;107;5;61;37;5;61;38;4;59;101;6;79;105];
 [5;67;106;4;59;98;4;59;99;6;79;106;6;79;102;6];
 [79;101;4;59;97;6;79;103;6;79;104;15;63;104;15;63];
 [105;15;63;106;15;63;107;6;79;108;5;67;105;5;67;108];
 [5;67;104;6;89;78;6;89;77;5;67;107;6;99;74;5];
 [74;102;5;74;101;15;76;115;15;76;116;15;76;117;15;76];
 [119;6;99;73;6;99;72;15;76;120;6;99;71;7;42;40];
 [5;81;120;7;42;44;5;81;121;5;81;117;7;42;48;5];
 [81;118;7;42;47;7;42;46;7;42;45;7;42;41;7;42];
 [39;5;81;119;15;76;118;15;82;88;15;82;89;7;42;42];
 [7;42;43;7;42;50;7;42;49;7;52;86;7;52;85;5];
 [89;41;7;52;88;5;89;44;7;52;90;4;84;65;7;52];
 [95;4;84;62;4;84;63;7;52;94;5;89;42;7;52;87];
 [7;52;93;7;52;92;5;89;43;15;88;66;15;88;67;7];
 [52;89;7;52;91;7;52;83;7;52;96;5;95;65;5;95];
 [63;5;95;64;5;95;67;4;89;64;7;60;108;5;95;66];
 [4;89;62;7;60;110;5;95;62;7;60;116;5;95;68;7];
 [60;109;7;60;115;15;93;42;15;93;43;15;93;44;7;60];
 [111;7;60;113;7;60;114;5;95;61;5;101;70;5;101;71];
 [5;101;73;7;68;51;7;68;47;4;94;35;7;68;44;5];
 [101;72;4;94;38;5;101;74;7;60;117;4;94;37;7;68];
 [50;5;101;75;7;68;53;7;68;54;7;68;45;15;97;46];
 [7;68;49;7;68;46;5;101;76;7;68;48;7;75;47;7];
 [75;44;5;106;46;5;106;43;5;106;39;5;106;42;5;106];
 [41;5;106;47;5;106;44;5;106;40;5;106;45;7;75;45];
 [7;75;46;7;75;48;7;75;43;7;68;52;5;106;48;5];
 [106;38;7;80;98;5;110;49;5;110;46;5;110;47;5;110];
 [45;5;110;48;7;80;99;7;80;100;15;102;78;7;80;101];
 [7;80;103;7;80;102;4;103;89;4;103;87;4;103;88;5];
 [113;83;7;85;90;15;104;91;7;85;89;7;89;94;7;89];
 [95;7;89;98;5;116;83;7;89;97;7;89;96;15;105;125];
 [7;93;39;7;93;41;5;118;90;7;93;43;7;93;42;5];
 [118;91;7;93;40;15;106;122;5;120;63;4;108;47;7;95];
 [109;7;95;110;5;120;62;7;98;108;5;122;123;7;99;122];
 [7;99;121;7;100;102;7;100;101;7;101;120;7;101;121;6];
 [52;110;5;61;39;5;54;59;6;99;75;6;99;76;5;81];
 [122;7;42;52;7;42;51;5;89;45;7;52;97;5;95;69];
 [15;93;45;7;68;55;15;102;79;15;104;92;5;116;84;5];
 [54;60;6;60;97;6;69;117;6;79;110;5;61;41;5;61];
 [40;15;69;112;6;99;77;7;42;53;5;95;70;15;97;47];
 [5;101;77;15;104;93;5;113;84;7;85;91;6;60;100;15];
 [50;102;6;60;98;5;54;61;6;69;118;6;69;119;15;56];
 [120;6;79;115;6;79;116;6;79;117;6;79;113;6;79;114];
 [6;79;120;6;79;118;6;79;112;6;79;121;15;63;108;15];
 [63;109;15;63;110;15;63;111;15;63;114;15;63;116;15;63];
 [113;6;79;119;15;63;112;4;65;71;5;67;110;4;65;69];
 [4;65;68;6;89;83;6;89;79;15;69;113;15;69;117;15];
 [69;118;15;69;119;15;69;120;6;89;85;6;89;81;6;89];
 [82;15;69;121;6;89;84;6;89;80;15;69;116;5;74;103];
 [5;74;104;6;99;82;5;74;105;15;76;104;15;76;121;15];
 [76;123;15;76;124;15;76;125;15;77;33;15;77;35;15;77];
 [36;15;77;37;15;77;40;15;77;41;6;99;78;4;71;122];
 [6;99;80;6;99;81;15;77;42;6;99;84;15;76;122;6];
 [99;85;15;77;43;15;77;38;15;76;126;7;42;58;4;78];
 [66;5;81;126;7;42;65;7;42;59;7;42;64;7;42;57];
 [5;81;125;7;42;67;7;42;68;7;42;61;5;81;123;7];
 [42;55;15;82;91;15;82;93;15;82;95;15;82;96;15;82];
 [99;15;82;100;15;82;101;15;82;103;15;82;104;15;82;105];
 [15;82;106;15;82;108;15;82;109;7;42;66;7;42;60;7];
 [42;63;7;42;69;15;82;94;7;42;54;5;81;124;15;82];
 [98;15;82;102;15;82;90;5;89;52;5;89;55;5;89;50];
 [4;84;71;5;89;46;5;89;48;7;52;101;7;52;100;7];
 [52;107;7;52;105;7;52;103;5;89;54;4;84;68;7;52];
 [98;7;52;106;7;52;104;5;89;47;7;52;102;15;82;92];
 [5;89;51;15;88;68;15;88;70;15;88;71;15;88;73;15];
 [88;74;15;88;75;15;88;77;15;88;78;15;88;79;15;88];
 [81;15;88;83;15;88;84;15;88;86;15;88;87;15;88;90];
 [15;88;92;15;88;93;15;88;94;15;88;96;15;88;97;15];
 [88;99;15;88;100;15;88;80;15;88;82;15;88;95;15;88];
 [69;15;88;88;5;89;56;5;89;49;5;95;72;5;95;73];
 [7;60;121;4;89;67;5;95;76;5;95;75;7;60;124;5];
 [89;53;5;95;71;7;60;122;5;95;74;5;95;79;7;60];
 [126;7;61;36;7;61;33;7;61;37;15;93;47;15;93;48];
 [15;93;52;15;93;53;15;93;54;15;93;55;15;93;58;15];
 [93;59;15;93;60;15;93;61;15;93;63;15;93;64;15;93];
 [66;15;93;67;15;93;68;15;93;69;15;93;70;15;93;71];
 [15;93;72;15;93;73;15;93;75;15;93;78;15;93;79;7];
 [60;125;7;61;34;7;60;120;7;61;35;4;89;72;15;93];
 [74;15;93;56;15;93;51;15;93;49;5;95;78;5;95;77];
 [15;93;46;5;101;81;4;94;45;4;94;46;5;101;82;4];
 [94;40;4;94;42;7;68;56;5;101;80;5;101;78;5;106];
 [49;7;68;58;5;101;83;4;94;48;7;68;64;7;68;63];
 [5;101;84;5;101;85;7;68;65;15;97;49;15;97;50;15];
 [97;52;15;97;54;15;97;55;15;97;56;15;97;58;15;97];
 [60;15;97;61;15;97;62;15;97;64;15;97;65;15;97;66];
 [15;97;68;15;97;69;15;97;70;7;68;59;7;68;60;7];
 [68;62;7;68;61;15;97;48;15;97;57;15;97;53;15;95];
 [93;4;97;107;7;75;51;7;75;55;5;106;50;7;75;52];
 [5;106;52;7;75;50;7;75;58;7;75;54;7;75;57;7];
 [75;59;15;100;49;15;100;50;15;100;51;15;100;53;15;100];
 [54;15;100;56;15;100;57;15;100;58;15;100;59;15;100;60];
 [15;100;61;15;100;63;15;100;64;15;100;65;15;100;66;15];
 [100;67;15;100;68;15;100;69;7;75;60;7;75;53;7;75];
 [56;4;97;106;7;75;49;5;101;86;15;100;62;4;100;104];
 [7;80;109;7;80;110;5;110;56;7;80;114;5;110;51;4];
 [100;106;5;110;54;5;110;50;7;80;112;7;80;104;7;80];
 [105;5;110;55;4;100;110;7;80;113;5;110;52;15;102;80];
 [15;102;81;15;102;83;15;102;84;15;102;85;15;102;86;15];
 [102;88;15;102;89;15;102;90;15;102;91;15;102;93;15;102];
 [95;15;102;96;15;102;97;15;102;98;15;102;99;15;102;100];
 [15;102;102;15;102;104;15;102;106;15;102;107;15;102;108;15];
 [102;109;15;102;110;15;102;111;7;80;108;7;80;111;15;102];
 [82;15;102;92;15;102;103;7;80;106;7;85;98;4;103;94];
 [7;85;103;7;85;97;7;85;92;4;103;96;4;103;93;7];
 [85;96;7;85;99;7;85;105;7;85;94;15;104;94;15;104];
 [95;15;104;96;15;104;97;15;104;98;15;104;99;15;104;100];
 [15;104;101;15;104;102;15;104;103;15;104;104;15;104;105;15];
 [104;107;15;104;108;15;104;109;15;104;110;15;104;111;7;85];
 [95;7;85;100;7;85;101;7;85;102;7;85;93;15;104;106];
 [5;116;87;7;89;107;7;89;106;7;93;48;7;89;102;7];
 [89;100;15;105;126;15;106;33;15;106;34;15;106;35;15;106];
 [36;15;106;37;15;106;38;15;106;39;15;106;40;15;106;41];
 [15;106;42;15;106;43;7;89;99;7;89;101;5;116;86;5];
 [118;94;4;107;40;5;118;92;15;107;47;7;93;47;7;93];
 [45;7;89;105;7;93;44;15;106;124;15;106;125;15;107;35];
 [15;107;36;15;107;37;15;107;38;15;107;41;15;107;42;15];
 [107;43;15;107;44;15;107;45;15;107;46;7;93;46;7;93];
 [49;15;107;33;15;106;126;15;107;39;5;120;64;7;95;112];
 [7;95;113;7;95;114;7;95;111;7;95;115;15;107;104;15];
 [107;105;15;107;106;15;107;107;15;107;108;4;109;99;7;97];
 [87;7;97;88;15;107;109;15;108;60;15;108;61;7;97;86];
 [7;98;114;7;98;109;7;98;110;7;98;116;7;98;112;7];
 [98;111;5;122;64;7;98;115;7;98;113;7;98;117;15;108];
 [82;15;108;83;15;108;84;15;108;85;15;108;86;15;108;87];
 [15;108;88;15;108;64;5;122;65;5;122;124;7;99;125;7];
 [99;123;15;108;111;7;99;124;15;109;35;7;100;104;15;109];
 [33;7;100;103;7;100;105;15;109;34;15;108;62;7;101;72];
 [7;101;73;15;109;41;5;124;33;15;109;53;15;109;56;15];
 [109;57;6;46;68;6;41;52;5;43;96;5;54;63;6;69];
 [123;5;54;62;5;54;64;6;69;122;15;56;121;6;69;121];
 [6;69;120;5;61;42;5;61;43;4;59;104;6;79;122;6];
 [79;123;15;63;117;6;89;89;6;89;88;4;65;74;6;89];
 [86;6;89;87;15;69;122;5;67;112;5;67;111;5;74;106];
 [4;71;124;6;99;86;6;99;87;5;74;107;5;82;33;5];
 [82;35;5;89;57;5;82;34;5;82;36;5;82;37;15;88];
 [101;5;89;59;7;52;110;5;89;58;7;61;38;7;52;109];
 [7;52;112;7;52;108;7;61;41;4;89;74;5;95;80;4];
 [89;75;7;61;42;7;61;40;7;61;39;7;68;67;5;101];
 [88;7;68;66;5;101;87;5;106;56;5;106;54;5;106;53];
 [5;106;55;5;110;57;7;80;115;7;80;116;4;103;100;7];
 [85;106;7;89;109;7;89;110;7;89;108;5;118;97;5;118];
 [96;5;120;65;7;95;116;7;98;118;7;100;106;5;43;97];
 [5;48;106;5;48;107;5;48;105;15;50;103;6;60;102;5];
 [54;66;5;54;65;15;56;122;15;56;123;6;69;124;5;61];
 [51;5;61;49;5;61;47;4;59;106;5;61;48;4;59;108];
 [3;63;109;5;61;44;5;61;45;5;61;46;6;79;126;6];
 [80;33;5;61;50;6;79;124;15;63;120;15;63;121;15;63];
 [122;15;63;123;15;63;124;15;63;125;15;64;33;6;79;125];
 [4;59;105;4;65;76;6;89;94;4;65;82;4;65;77;4];
 [65;75;15;69;126;6;89;93;5;67;116;5;67;113;5;67];
 [115;5;67;114;6;89;91;4;65;81;4;65;79;6;89;92];
 [6;89;90;15;69;125;15;70;33;5;74;115;5;74;111;5];
 [74;113;4;71;126;5;74;109;4;72;33;5;74;116;6;99];
 [90;5;74;112;5;74;117;4;71;125;5;74;114;5;74;118];
 [6;99;89;6;99;91;6;99;92;5;74;108;7;42;72;5];
 [82;45;5;82;40;7;42;77;5;82;42;5;82;39;7;42];
 [78;4;78;73;5;82;44;5;82;41;7;42;76;15;82;110];
 [15;82;111;15;82;113;7;42;71;7;42;73;7;42;74;7];
 [42;75;5;82;38;5;82;43;5;82;46;15;82;112;4;84];
 [80;4;84;77;5;89;61;5;89;64;7;52;114;5;89;60];
 [5;89;62;5;89;63;7;52;117;7;52;119;7;52;121;15];
 [88;102;15;88;103;15;88;104;7;52;116;7;52;120;7;52];
 [118;4;84;78;4;89;83;4;89;81;5;95;84;7;61;43];
 [5;95;81;5;95;83;5;95;85;5;95;82;7;61;45;4];
 [89;80;7;61;44;4;89;76;7;61;46;15;93;80;7;61];
 [47;7;61;48;7;61;49;5;101;95;5;101;94;5;101;90];
 [4;94;51;7;68;68;5;101;91;5;101;97;5;101;96;7];
 [68;70;5;101;93;5;101;89;5;101;92;15;97;71;15;97];
 [72;15;97;73;15;97;76;15;97;75;7;68;69;7;68;71];
 [5;106;57;7;75;62;7;75;63;4;97;109;5;106;58;7];
 [75;61;4;97;110;15;100;70;15;100;71;15;100;72;15;100];
 [73;15;100;74;4;100;112;5;110;63;5;110;58;5;110;61];
 [5;110;60;5;110;62;5;110;64;4;100;114;7;80;120;5];
 [106;59;7;80;117;15;102;112;15;102;113;7;80;118;5;110];
 [59;7;80;119;5;113;90;5;110;65;4;103;101;5;113;89];
 [5;113;87;15;104;112;15;104;113;15;104;115;15;104;116;15];
 [104;117;5;113;92;5;113;88;5;116;88;7;85;107;15;106];
 [47;7;89;111;15;106;44;15;106;45;15;106;46;15;106;48];
 [15;106;49;15;107;48;15;107;49;15;107;50;7;93;50;5];
 [120;66;15;107;110;15;107;111;7;95;118;7;95;117;5;121];
 [84;4;109;41;4;109;42;7;97;89;7;98;119;7;98;120];
 [5;122;125;15;109;42;6;46;69;5;34;34;5;33;126;4];
 [34;35;5;34;35;4;34;34;5;34;33;5;35;46;4;35];
 [52;6;37;93;5;36;125;4;37;44;4;37;45;5;36;126];
 [5;36;124;15;37;58;15;37;59;15;37;60;15;37;61;15];
 [37;62;15;37;63;5;39;117;6;46;71;5;39;118;5;39];
 [120;5;39;121;4;40;48;5;39;119;6;46;70;6;46;72];
 [15;40;125;15;40;126;5;43;98;6;52;112;6;52;115;4];
 [43;92;5;43;101;6;52;113;6;99;93;6;52;117;6;52];
 [118;6;52;119;6;52;114;5;43;99;6;52;120;15;45;91];
 [15;45;92;15;45;93;6;52;116;6;52;111;6;60;105;5];
 [48;111;5;43;102;6;60;104;5;48;108;5;48;110;6;60];
 [110;6;60;107;6;60;111;5;48;109;6;60;106;6;60;109];
 [6;60;108;15;50;104;15;50;105;15;50;106;15;50;107;15];
 [50;108;15;50;109;15;50;110;5;54;67;6;70;40;6;70];
 [33;4;53;126;4;54;34;4;54;33;5;54;68;6;70;35];
 [6;70;36;6;70;43;6;70;42;6;99;94;6;70;38;6];
 [70;34;6;70;41;6;70;39;7;52;123;6;70;37;15;56];
 [124;15;56;125;15;56;126;15;57;33;15;57;34;15;57;35];
 [15;57;36;15;57;37;15;57;38;15;57;39;5;61;56;5];
 [61;61;5;61;57;5;61;58;5;61;60;6;80;37;6;80];
 [35;5;61;52;5;61;53;5;61;55;6;80;36;6;80;41];
 [7;61;52;6;80;39;5;61;59;6;80;40;6;80;38;15];
 [64;34;15;64;35;7;61;50;5;61;54;6;89;106;5;67];
 [123;5;67;120;6;89;98;6;89;105;6;89;103;5;67;124];
 [5;67;121;5;67;119;6;99;95;6;89;99;6;89;101;5];
 [67;125;5;67;122;6;89;102;7;68;73;6;89;100;7;68];
 [72;5;67;118;6;89;95;6;89;107;6;89;96;5;67;117];
 [6;89;97;15;70;34;15;70;35;15;70;36;15;70;37;15];
 [70;38;15;70;39;15;70;40;15;70;41;6;89;104;6;89];
 [108;7;61;51;6;99;100;6;99;98;6;99;102;4;72;39];
 [4;72;38;5;82;47;4;72;40;4;72;41;5;74;120;6];
 [99;99;6;99;96;4;72;37;5;74;121;5;74;122;6;99];
 [101;6;99;103;7;75;65;15;77;46;15;77;47;15;77;48];
 [15;77;49;15;77;50;15;77;51;6;99;97;5;74;119;5];
 [82;54;5;82;52;5;82;53;7;42;85;5;82;56;5;82];
 [50;5;82;49;7;42;79;5;82;51;5;82;55;5;82;48];
 [7;80;122;7;42;83;7;42;81;7;42;80;7;42;82;15];
 [82;114;15;82;115;15;82;116;15;82;117;15;82;118;15;82];
 [119;7;42;86;5;89;65;5;89;66;4;84;84;7;52;124];
 [5;89;68;5;89;67;7;52;126;7;80;121;15;88;105;15];
 [88;106;15;88;107;15;88;108;5;106;60;7;52;125;5;95];
 [86;5;95;87;7;61;54;7;61;55;7;61;53;5;116;89];
 [15;93;81;15;93;82;15;93;83;15;93;84;5;101;98;7];
 [68;76;4;94;52;7;68;74;7;68;75;15;97;77;15;97];
 [78;15;97;79;15;97;80;5;106;61;7;75;67;7;85;108];
 [7;75;69;15;100;76;5;120;67;7;75;66;7;75;68;7];
 [95;119;15;102;114;15;102;115;7;81;114;5;113;93;7;85];
 [110;7;85;109;7;98;121;7;98;122;7;89;112;7;93;73];
 [7;95;120;5;122;126;5;123;33;7;102;55;7;102;40;6];
 [89;109;4;78;75;7;42;87;15;82;121;15;82;120;5;89];
 [69;7;53;33;4;89;86;7;68;77;7;68;78;5;106;62];
 [7;80;123;6;60;112;6;60;113;6;60;114;6;70;44;5];
 [54;69;4;54;35;6;70;46;6;70;45;6;70;48;6;70];
 [47;4;59;112;6;80;44;4;59;110;6;80;42;6;89;115];
 [6;80;48;6;80;46;6;80;43;4;59;113;4;59;111;6];
 [80;47;6;80;45;6;89;123;5;67;126;6;89;110;6;89];
 [113;6;89;119;6;89;117;6;89;122;6;89;114;6;89;112];
 [6;89;116;6;89;121;6;89;120;6;89;111;6;89;118;6];
 [99;116;6;99;114;5;74;123;6;99;107;6;99;108;6;99];
 [118;6;99;104;6;99;119;6;99;112;4;72;42;6;99;117];
 [6;99;111;5;74;124;6;99;113;6;99;105;5;74;125;4];
 [72;43;6;99;106;15;77;52;15;77;53;6;99;115;6;99];
 [120;6;99;109;7;42;93;7;42;91;7;42;100;7;42;95];
 [7;42;92;5;82;58;7;42;94;7;42;102;7;42;98;7];
 [42;96;7;42;97;7;42;99;7;42;90;7;42;88;5;82];
 [57;7;42;101;7;42;103;4;89;87;4;84;85;5;89;71];
 [7;53;41;7;53;36;7;53;47;7;53;34;7;53;45;7];
 [53;40;7;53;37;7;53;44;7;53;42;7;53;38;5;89];
 [70;7;53;48;4;84;86;7;53;43;7;53;51;7;53;39];
 [7;42;89;7;53;52;7;53;49;7;53;35;7;53;50;15];
 [88;109;7;53;46;15;82;122;4;89;89;7;61;61;7;61];
 [59;7;61;69;7;61;60;7;61;62;7;61;73;7;61;58];
 [7;61;66;7;61;57;7;61;56;7;61;63;5;95;88;7];
 [61;71;7;61;65;7;61;64;7;61;67;7;61;72;7;53];
 [54;15;93;85;15;93;87;7;61;68;7;61;70;7;68;80];
 [7;68;86;7;68;82;7;68;83;7;68;79;5;101;99;7];
 [68;87;7;68;85;5;101;100;7;68;81;7;68;84;7;75];
 [74;7;75;71;7;75;75;7;75;72;5;106;63;7;75;78];
 [4;97;111;5;106;64;7;75;70;7;75;76;7;75;77;4];
 [97;112;7;75;73;7;75;79;7;81;35;7;81;39;7;80];
 [125;7;81;42;7;81;36;7;81;43;7;81;40;7;80;124];
 [5;110;66;7;81;37;7;81;38;5;110;67;7;81;34;15];
 [102;116;7;80;126;7;81;44;7;81;41;7;85;116;4;103];
 [104;7;85;114;7;85;111;7;85;118;7;85;112;7;85;117];
 [7;85;115;7;85;119;7;81;33;15;104;118;7;85;113;7];
 [89;113;7;89;114;4;105;87;7;89;117;7;89;118;7;89];
 [116;15;106;50;7;89;115;7;93;56;7;93;57;7;93;58];
 [4;107;43;7;93;55;7;93;51;7;93;52;7;93;53;7];
 [93;54;7;95;124;7;95;122;7;95;123;7;95;121;7;97];
 [90;15;108;65;7;99;126;7;100;107;7;102;64;15;45;94];
 [5;48;112;15;50;112;6;70;50;6;70;51;4;54;37;6];
 [70;49;15;57;40;15;57;41;5;61;64;5;61;62;5;61];
 [65;5;61;63;4;59;115;6;80;51;4;59;114;6;80;50];
 [15;64;37;15;64;39;15;64;38;4;65;88;5;68;37;5];
 [68;34;5;68;33;5;68;36;5;68;35;6;89;124;15;70];
 [43;15;70;44;15;70;45;5;68;38;5;75;34;4;72;48];
 [5;75;35;5;75;33;5;74;126;4;72;44;4;72;47;6];
 [99;125;4;72;50;6;99;124;6;99;126;15;77;55;15;77];
 [56;6;99;122;6;99;121;7;42;106;7;42;105;5;82;69];
 [5;82;64;5;82;65;5;82;63;5;82;62;5;82;67;5];
 [82;61;4;84;87;5;82;60;7;42;107;7;42;108;15;70];
 [42;15;82;123;15;82;124;15;82;125;15;82;126;15;83;33];
 [7;42;104;5;82;68;5;82;66;5;95;89;7;53;59;4];
 [84;91;5;89;78;5;89;75;4;84;90;7;53;56;5;89];
 [77;5;89;74;7;53;58;5;89;73;7;53;57;7;53;55];
 [5;89;72;7;53;60;15;88;110;15;88;111;15;88;113;15];
 [88;114;15;88;115;15;88;116;15;88;117;15;88;112;15;85];
 [100;5;89;76;4;89;92;4;89;90;4;89;91;5;95;90];
 [4;89;97;5;95;92;4;89;94;7;61;74;5;101;104;7];
 [61;75;7;61;77;5;95;91;15;93;89;7;61;76;7;61];
 [78;15;93;90;5;95;93;5;101;108;5;101;111;7;68;95];
 [7;68;99;5;101;105;7;68;94;5;101;102;7;68;101;7];
 [68;98;4;94;55;5;101;101;5;101;103;7;68;97;7;68];
 [90;7;68;93;5;101;110;7;68;91;15;97;81;7;68;100];
 [7;68;89;7;68;92;5;101;107;5;101;109;15;93;88;5];
 [101;106;5;106;71;5;106;65;5;106;69;5;106;66;5;106];
 [67;4;97;114;5;106;70;5;106;68;5;106;73;4;97;113];
 [7;75;80;7;75;85;7;75;81;5;106;72;7;75;83;15];
 [100;78;7;75;87;7;75;86;7;75;84;7;75;82;7;75];
 [88;7;81;46;4;100;116;7;81;54;4;100;118;5;110;68];
 [4;103;109;4;100;120;7;81;52;7;81;51;5;110;69;4];
 [100;122;4;100;119;4;100;121;7;81;47;7;81;49;7;81];
 [50;15;102;117;7;81;53;7;81;55;7;81;48;7;81;45];
 [4;103;106;4;103;105;7;85;120;5;113;94;5;113;95;4];
 [103;107;4;103;108;7;85;122;5;113;96;5;113;97;7;85];
 [125;7;85;121;7;85;126;7;85;123;5;116;92;5;116;95];
 [4;105;89;7;89;120;5;116;93;7;89;121;7;89;122;5];
 [116;90;5;116;94;5;116;91;7;89;119;5;118;98;7;93];
 [59;7;93;60;15;107;51;5;118;99;5;120;68;4;108;50];
 [4;108;49;7;95;125;7;95;126;7;96;33;15;107;112;4];
 [109;44;5;121;86;4;109;43;5;121;85;7;97;91;5;121];
 [87;5;122;68;7;98;123;5;122;67;7;98;124;15;108;89];
 [7;99;35;5;122;66;7;100;108;4;110;62;7;101;75;7];
 [101;74;7;101;76;5;123;108;7;102;45;7;102;78;7;102];
 [81;4;110;92;4;54;38;6;80;52;15;70;46;15;70;47];
 [15;70;48;6;89;125;4;72;54;7;44;68;7;53;61;5];
 [90;116;7;68;102;15;100;79;5;113;98;15;107;113;6;60];
 [116;6;46;73;6;60;115;4;54;39;6;70;52;4;54;41];
 [15;57;45;6;80;53;5;61;66;4;59;117;6;80;55;6];
 [80;54;15;64;40;15;64;41;6;90;33;6;89;126;15;77];
 [59;4;78;77;7;42;110;7;42;109;7;53;62;7;81;56];
 [7;81;57;6;80;57;6;80;58;6;80;56;4;65;89;4];
 [65;91;5;68;40;5;68;39;6;90;35;6;90;34;6;100];
 [34;5;75;37;4;72;57;6;100;33;5;75;36;15;77;60];
 [6;100;35;4;78;78;5;82;70;5;82;72;5;82;71;7];
 [42;112;7;42;111;15;88;119;5;89;80;5;89;79;5;89];
 [84;5;89;81;5;89;82;5;89;83;15;88;118;7;53;63];
 [7;61;79;5;95;95;5;95;96;5;95;98;5;95;97;15];
 [93;91;7;61;81;5;101;114;7;68;103;5;101;112;5;101];
 [113;4;94;57;5;106;75;5;106;74;5;110;71;5;110;70];
 [7;77;80;7;81;58;5;108;70;5;113;100;7;86;34;5];
 [113;102;5;113;101;15;104;121;7;86;33;7;86;36;7;86];
 [35;7;89;123;7;89;124;7;93;61;5;118;100;15;107;52];
 [7;96;34;5;122;69;7;100;33;7;100;110;7;100;109;15];
 [57;46;5;61;67;4;59;120;6;80;59;5;68;44;5;68];
 [43;6;90;38;6;90;41;5;68;42;6;90;39;5;68;41];
 [6;90;37;6;90;43;6;90;42;4;65;92;4;65;94;15];
 [70;49;5;75;39;4;72;60;5;75;38;6;100;39;6;100];
 [37;5;75;40;5;75;41;4;72;62;5;75;44;5;75;42];
 [5;75;45;5;75;43;6;100;41;4;72;63;6;100;40;6];
 [100;36;6;100;38;7;42;115;5;82;73;7;42;119;7;42];
 [118;4;78;81;7;42;121;5;82;74;4;78;82;7;42;117];
 [4;78;83;5;82;77;4;78;80;5;82;76;5;82;78;7];
 [42;116;5;82;75;7;42;120;7;42;114;7;53;68;5;89];
 [85;5;89;88;4;84;102;4;84;94;4;84;101;5;89;86];
 [5;89;87;7;53;67;7;53;71;7;53;64;7;53;65;7];
 [53;69;7;53;70;7;61;88;7;61;90;5;95;99;5;95];
 [105;4;89;102;5;95;101;7;61;83;4;89;103;7;53;66];
 [5;95;109;7;61;87;4;89;101;7;61;89;5;95;103;5];
 [95;106;7;61;85;5;95;107;7;61;91;7;53;72;5;95];
 [104;7;61;84;7;61;92;15;93;92;7;61;82;5;95;108];
 [5;95;102;4;94;68;5;101;124;5;101;116;4;94;58;5];
 [101;118;5;102;34;7;68;106;7;68;104;4;94;63;5;101];
 [119;4;94;64;7;68;109;7;68;112;5;102;33;7;68;111];
 [4;94;61;5;102;35;7;68;113;7;68;114;7;68;110;15];
 [97;83;15;97;84;5;95;100;7;68;108;7;68;107;5;101];
 [120;5;102;36;7;68;105;5;101;117;5;101;122;5;101;121];
 [5;101;125;4;97;122;5;106;81;5;106;84;5;106;79;4];
 [97;121;5;106;77;7;75;90;5;106;85;7;75;99;5;106];
 [78;4;97;120;7;75;97;4;97;118;7;75;94;4;97;117];
 [7;75;98;5;106;80;7;75;96;15;100;80;15;100;82;15];
 [100;83;7;75;91;7;75;92;5;106;83;5;106;82;7;75];
 [89;5;106;76;4;101;36;5;110;78;4;100;125;5;110;79];
 [5;110;74;7;81;59;5;110;72;7;81;61;4;101;33;5];
 [110;76;4;101;34;4;101;37;5;110;77;7;81;65;7;81];
 [60;15;102;120;7;81;62;7;81;67;7;81;64;5;110;75];
 [7;81;63;5;110;80;4;101;38;7;81;66;5;113;109;7];
 [86;40;4;103;111;7;86;42;7;86;43;5;113;106;5;113];
 [107;5;113;108;5;113;103;5;113;104;7;86;41;15;102;119];
 [5;116;96;7;90;38;7;89;125;4;105;93;5;116;97;7];
 [90;37;7;90;35;7;89;126;7;90;36;5;116;99;5;116];
 [100;7;90;33;7;90;34;5;116;101;5;118;101;5;118;104];
 [5;118;102;7;93;62;5;118;105;5;118;103;7;93;65;7];
 [93;63;7;93;66;7;93;64;5;120;70;5;121;88;7;96];
 [35;5;120;69;5;120;71;7;97;94;7;97;92;7;97;93];
 [5;122;70;7;98;126;7;99;34;5;121;89;7;99;33;7];
 [98;125;5;123;34;7;100;112;7;100;111;5;123;76;7;101];
 [105;5;124;53;7;102;46;7;102;57;7;102;56;5;124;76];
 [5;61;68;4;65;96;4;65;98;6;90;44;5;68;45;6];
 [100;43;5;75;47;5;75;49;5;75;46;5;75;48;6;100];
 [42;15;77;61;5;75;50;4;78;85;5;82;80;4;78;84];
 [4;78;86;7;42;123;7;42;122;7;42;124;7;42;125;7];
 [42;126;5;82;79;5;82;81;5;89;89;7;53;73;7;53];
 [74;5;89;92;5;89;93;5;89;91;7;53;75;5;89;90];
 [4;89;105;7;61;94;5;95;110;7;61;95;4;89;108;4];
 [89;106;5;95;111;5;95;112;15;93;93;7;61;93;7;61];
 [96;7;68;118;7;68;115;4;94;70;7;68;116;7;61;97];
 [5;102;37;7;68;120;7;68;117;7;75;100;7;75;102;7];
 [75;105;7;75;101;7;75;104;7;75;103;7;81;68;5;106];
 [86;5;106;87;7;81;69;7;81;70;4;101;40;15;102;121];
 [5;110;82;5;110;81;5;113;110;5;113;112;5;113;114;4];
 [103;116;7;86;44;5;113;111;5;113;113;7;90;39;4;105];
 [95;5;116;102;7;90;40;7;90;41;5;116;103;7;93;67];
 [7;93;70;7;93;69;7;93;68;4;108;53;7;97;95;5];
 [122;71;7;100;36;7;100;34;7;100;35;5;123;77;5;123];
 [109;5;124;34;5;68;46;6;90;45;5;82;82;7;53;76];
 [4;89;109;7;61;98;7;75;108;7;81;72;4;101;43;5];
 [113;115;7;81;71;7;86;45;7;90;42;7;93;72;7;93];
 [71;7;97;96;15;64;44;5;68;48;5;68;47;5;75;51];
 [4;72;69;5;75;52;5;82;90;7;43;33;5;82;84;5];
 [82;87;7;43;34;5;82;85;5;82;86;5;82;89;5;82];
 [83;4;84;107;5;82;88;15;88;121;5;89;94;7;53;77];
 [7;61;99;5;95;113;5;95;114;5;102;38;5;102;39;5];
 [102;40;4;98;33;5;106;88;5;106;89;7;81;73;7;81];
 [74;5;110;84;5;110;83;5;110;85;7;86;46;5;113;116];
 [5;102;41;5;116;104;5;116;105;4;105;97;15;106;51;7];
 [93;74;4;108;54;5;123;35;5;124;63;6;52;123;6;70];
 [53;5;54;70;5;61;74;5;61;72;5;61;73;5;61;70];
 [4;59;125;5;61;69;4;59;124;6;80;60;4;59;122;4];
 [65;108;5;68;58;4;65;107;5;68;49;5;68;57;6;90];
 [47;4;65;105;5;75;59;5;68;55;4;65;102;4;65;103];
 [4;65;106;6;90;50;5;68;54;5;68;50;6;90;48;6];
 [90;49;6;90;46;15;70;51;5;68;51;5;68;56;5;75];
 [61;6;100;49;6;100;50;5;75;55;5;75;68;5;75;56];
 [4;72;73;4;72;72;5;75;58;5;75;54;4;72;79;5];
 [75;66;5;75;57;7;43;43;5;75;67;6;100;53;6;100];
 [51;6;100;46;5;75;60;5;75;65;15;77;62;6;100;45];
 [5;75;64;6;100;44;6;100;54;5;75;53;6;100;47;6];
 [100;52;5;82;93;4;78;91;7;43;37;7;43;48;5;82];
 [92;5;82;91;4;78;88;7;43;36;7;43;42;4;72;74];
 [7;43;46;5;82;94;4;78;94;7;43;45;7;43;41;7];
 [53;79;7;43;44;15;83;35;15;83;36;7;43;39;7;43];
 [40;7;43;47;7;43;49;7;43;35;7;43;38;5;82;95];
 [4;84;108;5;89;97;4;84;110;5;89;105;7;53;88;5];
 [89;104;5;89;102;7;53;89;7;53;87;5;89;101;5;89];
 [99;7;53;91;7;53;80;5;89;106;5;89;98;5;89;107];
 [5;89;100;5;89;103;4;84;113;7;53;78;5;89;96;7];
 [53;90;4;84;114;7;53;86;7;53;92;15;77;64;15;88];
 [122;15;88;124;15;88;125;15;89;33;15;89;34;15;89;35];
 [7;53;82;7;53;83;7;53;84;7;53;85;5;89;108;5];
 [89;95;15;88;126;5;89;109;4;89;117;4;89;113;4;89];
 [110;7;61;101;5;95;119;4;89;121;5;95;120;4;89;116];
 [5;95;118;5;95;115;5;95;117;4;89;111;5;95;123;7];
 [61;106;4;89;114;7;61;108;5;95;116;7;61;103;4;89];
 [120;7;61;107;15;93;94;15;93;95;15;93;96;15;93;97];
 [15;93;98;15;93;99;7;61;100;7;61;102;5;95;121;5];
 [95;122;7;61;104;7;61;109;5;102;42;4;94;74;5;102];
 [48;5;102;46;4;98;36;5;102;45;5;102;43;7;68;123];
 [5;102;44;4;94;72;5;102;49;5;102;47;7;68;124;15];
 [97;85;15;97;86;15;97;87;15;97;88;7;68;121;7;68];
 [122;7;75;118;5;106;93;7;75;112;7;75;109;5;106;94];
 [4;98;46;7;75;114;5;106;92;5;110;86;5;106;91;5];
 [106;90;7;75;116;7;75;111;4;98;42;7;75;110;7;75];
 [117;7;75;113;15;100;84;15;100;85;7;75;119;7;75;115];
 [4;101;46;4;101;45;5;110;91;5;110;89;7;81;78;5];
 [110;90;4;101;50;7;81;77;4;101;51;5;110;88;7;81];
 [75;7;81;79;15;102;122;4;101;52;7;81;80;7;81;76];
 [5;110;87;7;80;76;5;113;117;5;113;118;7;86;47;5];
 [113;120;7;86;56;7;90;49;4;103;122;4;103;120;7;86];
 [51;7;86;49;7;86;54;5;113;119;5;113;121;5;113;122];
 [7;86;48;7;86;52;15;104;122;15;104;123;15;104;124;7];
 [86;55;7;86;53;7;90;48;5;116;108;5;116;107;7;90];
 [45;7;90;47;5;116;106;15;106;52;7;90;43;7;90;46];
 [7;90;44;7;93;82;7;93;81;7;93;79;5;118;108;5];
 [118;109;4;107;46;5;118;106;7;93;77;4;107;47;7;93];
 [78;15;107;53;7;93;80;7;93;76;7;93;75;4;108;56];
 [7;96;36;5;118;107;4;108;55;15;107;114;7;96;37;4];
 [109;46;5;121;90;5;122;72;7;99;36;5;122;73;7;99];
 [37;7;99;38;4;110;35;7;100;37;7;101;77;6;70;54];
 [6;80;63;4;60;33;6;80;61;5;61;75;15;64;46;6];
 [80;62;5;68;59;5;68;64;4;65;111;5;68;61;5;68];
 [62;6;90;52;6;90;54;5;68;60;4;65;112;6;90;53];
 [6;83;51;5;68;63;6;90;55;4;72;88;5;75;72;4];
 [72;85;5;75;71;5;75;70;5;75;69;4;72;83;6;100];
 [55;4;72;82;6;100;59;6;100;57;6;100;56;4;78;95];
 [5;82;98;4;78;98;7;43;52;7;43;51;7;43;50;5];
 [82;97;7;43;53;15;83;37;15;83;38;5;89;111;5;89];
 [119;5;89;112;7;53;93;7;53;96;5;89;110;5;89;115];
 [5;89;118;7;53;95;7;53;97;5;89;116;5;89;117;7];
 [53;94;15;89;37;5;89;114;5;89;113;7;61;113;4;90];
 [37;5;96;37;5;96;38;4;89;123;5;95;124;7;61;112];
 [4;90;36;5;102;50;5;96;34;4;90;35;5;95;126;5];
 [96;33;5;96;36;5;95;125;5;96;35;7;61;110;15;93];
 [100;15;93;101;7;61;114;7;61;111;4;94;83;7;69;34];
 [7;69;36;5;102;55;7;69;38;5;102;52;5;102;56;4];
 [94;84;5;102;58;4;98;49;5;102;53;7;69;37;5;102];
 [54;5;102;57;5;102;51;15;97;89;7;69;40;7;69;35];
 [7;69;33;7;69;39;7;68;125;5;106;95;4;98;51;4];
 [98;52;4;98;53;5;106;96;7;75;121;15;100;86;15;100];
 [87;7;75;120;7;75;122;7;75;123;7;75;124;5;110;94];
 [5;110;97;5;110;96;4;101;53;5;110;92;4;101;55;5];
 [110;95;15;102;123;5;110;98;5;110;93;4;101;56;7;86];
 [64;4;103;125;4;104;33;5;113;123;7;86;57;5;113;124];
 [7;86;60;7;86;58;15;104;125;7;86;63;7;86;65;7];
 [86;66;7;86;61;7;86;62;7;86;59;7;90;50;15;106];
 [53;7;90;51;7;93;83;5;120;73;4;108;59;7;96;38];
 [7;96;39;5;121;91;7;97;97;5;121;92;4;109;47;4];
 [109;102;5;122;74;5;123;36;7;100;38;15;109;36;5;124];
 [71;7;102;85;6;60;117;5;64;57;7;43;54;7;75;125];
 [5;106;97;7;86;67;4;105;100;5;116;109;6;52;124;6];
 [52;125;6;53;34;6;52;126;5;48;113;6;60;118;6;60];
 [120;5;61;76;5;54;74;5;54;71;6;70;58;6;70;56];
 [5;54;73;6;70;57;6;70;59;6;80;64;5;54;72;6];
 [80;65;6;80;70;4;60;34;5;61;77;6;80;68;6;80];
 [69;4;60;38;5;61;78;6;90;56;5;61;79;6;80;66];
 [15;64;47;6;80;67;4;60;35;6;90;66;6;90;57;5];
 [68;66;5;68;68;5;68;65;5;68;71;4;65;118;5;68];
 [67;6;100;67;5;68;69;6;90;60;6;90;59;6;100;61];
 [4;65;115;6;90;58;6;100;62;6;90;62;5;68;72;6];
 [90;65;5;82;99;15;70;55;6;90;64;6;90;63;6;100];
 [60;4;65;120;5;68;70;6;100;63;7;43;55;6;100;68];
 [5;75;77;5;75;73;6;100;69;5;75;74;4;72;90;6];
 [100;66;5;75;75;7;43;57;6;100;65;15;70;54;15;83];
 [40;7;43;58;4;78;107;7;43;64;4;78;106;5;82;105];
 [5;82;100;5;89;121;4;78;104;5;82;102;5;82;107;5];
 [82;104;4;78;108;5;82;106;7;43;60;5;82;101;7;43];
 [59;7;61;115;5;82;103;7;43;62;7;43;61;15;83;39];
 [5;89;120;7;43;63;5;90;35;4;90;38;5;90;36;4];
 [84;123;7;53;102;7;53;106;5;96;39;5;89;123;7;53];
 [105;5;89;126;7;53;103;5;89;124;7;53;111;4;84;121];
 [7;53;107;7;53;112;5;90;37;7;53;104;7;53;99;5];
 [89;122;7;53;101;7;53;100;7;53;108;5;96;41;7;53];
 [110;7;61;117;7;53;98;5;90;34;7;53;109;5;89;125];
 [15;89;38;15;89;39;15;89;40;15;89;41;5;90;33;7];
 [61;116;5;96;40;5;96;52;7;61;119;5;96;45;5;96];
 [47;5;96;51;5;96;43;7;61;118;5;96;50;5;96;53];
 [4;90;43;5;96;54;7;61;120;7;61;125;7;69;42;7];
 [61;122;5;96;42;7;69;43;7;62;33;5;96;46;7;61];
 [121;7;61;126;15;93;102;15;93;103;7;61;123;5;96;48];
 [7;61;124;7;69;47;5;102;63;5;102;59;4;94;86;4];
 [94;92;5;96;56;4;94;93;5;102;61;5;96;55;5;102];
 [60;7;69;46;7;69;45;7;75;126;4;94;94;5;102;62];
 [7;76;34;7;81;84;7;69;44;7;69;41;7;69;49;15];
 [97;90;15;97;91;7;76;37;7;76;33;4;94;85;7;69];
 [50;7;69;48;5;106;100;7;76;35;5;106;98;4;98;59];
 [4;101;61;7;81;83;5;106;105;5;106;102;5;106;104;5];
 [106;106;7;81;81;4;98;55;5;106;103;5;96;57;5;106];
 [99;7;81;82;4;98;57;7;81;88;7;76;36;7;81;87];
 [4;98;58;15;100;88;15;100;89;5;106;101;7;81;86;5];
 [106;107;4;101;62;7;81;85;7;81;89;7;81;95;7;86];
 [68;5;113;125;7;81;96;5;110;101;4;101;63;5;113;126];
 [5;110;100;7;81;94;7;81;98;5;110;99;7;76;39;7];
 [81;97;7;81;91;7;81;92;7;81;93;7;86;69;7;81];
 [99;7;81;90;5;114;40;5;114;34;7;86;70;4;104;37];
 [5;114;36;5;114;33;7;86;71;5;114;43;7;86;72;5];
 [114;42;5;114;35;5;114;39;5;114;37;7;86;73;5;114];
 [38;5;114;41;15;104;126;4;105;102;5;116;110;5;116;111];
 [7;90;55;7;93;84;7;90;54;5;116;112;7;90;53;15];
 [106;55;7;90;52;5;118;110;7;93;86;5;118;111;5;118];
 [112;5;120;74;7;93;85;5;120;75;5;120;76;4;108;60];
 [7;96;40;7;96;42;7;96;41;5;121;93;7;100;39;5];
 [123;37;6;60;121;6;70;60;6;100;70;7;43;65;6;100];
 [72;6;100;71;5;82;108;4;85;36;4;85;37;7;62;34];
 [7;62;35;7;53;113;7;53;115;7;53;114;7;76;41;7];
 [76;40;7;69;51;7;77;115;7;81;100;7;96;43;4;110];
 [38;15;50;113;4;65;124;6;90;67;5;71;84;6;100;73];
 [6;100;74;15;77;65;15;83;41;6;100;75;7;43;66;15];
 [83;42;15;89;42;7;53;116;15;93;104;7;62;36;7;69];
 [54;5;102;65;5;102;64;5;102;66;7;69;53;7;69;52];
 [5;106;108;4;98;61;4;98;62;7;76;42;7;81;101;15];
 [102;124;5;114;44;15;105;33;7;86;74;7;93;87;5;122];
 [75;5;54;75;5;54;76;5;61;80;6;80;72;15;64;49];
 [6;80;71;5;68;73;6;90;69;6;90;68;6;90;71;6];
 [90;70;5;75;81;6;100;77;6;100;78;5;75;80;4;72];
 [97;6;100;76;6;100;82;5;75;79;7;43;67;15;77;66];
 [15;77;67;15;77;68;15;77;69;7;43;70;6;100;79;6];
 [100;81;5;75;82;7;43;74;5;82;114;7;43;78;7;43];
 [71;5;90;50;5;82;116;5;82;119;5;82;109;5;82;112];
 [5;82;110;5;82;117;7;43;68;5;82;118;7;43;72;5];
 [82;115;7;43;75;7;43;73;5;82;111;7;43;69;7;43];
 [76;5;82;113;15;83;43;15;83;44;15;83;45;7;43;77];
 [7;53;122;4;85;44;7;53;121;5;90;47;4;85;42;4];
 [85;39;4;85;43;4;85;40;7;53;117;5;90;41;4;85];
 [41;5;90;48;5;90;45;7;54;36;5;90;51;5;90;39];
 [5;90;49;5;90;52;5;90;43;7;53;124;7;53;123;7];
 [54;38;7;54;33;7;53;120;7;54;35;5;90;42;7;54];
 [34;15;89;44;5;90;40;7;53;125;7;53;126;7;54;39];
 [7;54;37;15;89;43;7;53;118;7;53;119;5;96;58;7];
 [62;44;5;96;59;7;62;38;4;90;47;7;62;39;7;62];
 [37;5;96;60;4;90;44;7;62;42;7;62;43;5;75;83];
 [7;62;40;5;96;62;5;96;61;15;93;105;15;93;106;7];
 [69;60;5;102;76;5;102;75;5;102;71;4;94;100;5;102];
 [73;5;102;72;4;94;97;5;102;69;5;102;78;4;94;109];
 [4;94;105;4;94;106;4;94;102;5;102;79;5;102;67;4];
 [94;108;7;69;59;7;69;58;7;69;55;5;102;74;15;97];
 [93;15;97;94;15;97;96;4;94;107;15;97;92;7;69;56];
 [5;102;68;7;69;57;5;102;77;5;106;109;5;106;115;5];
 [106;111;4;98;67;7;76;49;5;102;80;7;76;44;5;102];
 [70;5;106;113;5;106;112;5;106;116;7;76;43;5;106;114];
 [5;106;118;4;98;66;5;106;119;7;76;50;7;76;52;5];
 [106;117;7;76;51;7;76;45;7;76;46;7;76;47;15;100];
 [91;15;100;92;15;100;93;7;76;48;3;87;54;7;76;53];
 [4;101;69;7;81;106;7;81;105;5;110;110;5;110;105;5];
 [110;107;5;110;104;4;101;66;5;110;112;15;102;125;4;101];
 [67;4;101;68;4;101;72;5;110;113;5;110;114;5;110;103];
 [7;81;104;4;104;38;5;110;106;5;110;111;5;110;108;7];
 [81;107;7;81;111;7;81;112;7;81;113;7;81;109;7;81];
 [108;15;102;126;15;103;33;7;81;103;7;81;110;7;82;39];
 [7;81;102;5;114;47;5;114;46;5;114;49;4;104;39;5];
 [114;50;5;114;48;4;104;44;7;86;77;7;86;76;7;86];
 [78;7;86;75;15;105;34;7;86;79;7;86;80;5;116;120];
 [7;90;61;5;114;52;7;90;65;7;90;56;5;116;113;7];
 [90;59;5;114;51;5;116;116;5;116;119;5;116;115;7;90];
 [64;4;105;108;5;116;117;7;90;57;7;90;58;7;90;60];
 [15;106;56;15;106;57;15;106;58;5;116;114;5;116;121;7];
 [90;63;7;93;95;7;93;93;5;118;113;5;120;78;7;93];
 [92;7;93;89;5;118;114;7;93;90;7;93;94;7;93;91];
 [7;93;96;15;107;56;15;107;57;7;93;88;5;120;79;7];
 [96;49;7;96;52;5;120;77;7;96;51;7;96;54;7;96];
 [53;7;96;47;7;96;48;7;96;44;7;96;50;5;121;98];
 [7;97;99;5;121;99;5;121;95;4;109;49;5;121;96;7];
 [97;98;5;121;94;5;121;97;4;109;50;7;97;100;5;122];
 [76;5;122;77;4;110;39;7;100;41;7;100;40;4;110;64];
 [7;100;114;7;100;115;7;100;113;7;101;78;5;124;35;7];
 [101;106;7;101;122;7;101;123;7;102;68;5;61;81;4;60];
 [39;6;90;73;6;90;74;6;90;72;6;90;75;4;72;99];
 [4;72;101;5;75;85;6;100;88;5;75;84;4;72;100;6];
 [100;86;6;100;83;6;100;84;6;100;85;6;100;87;4;78];
 [114;4;78;113;5;82;122;5;82;121;7;43;82;7;54;44];
 [5;82;120;5;82;123;4;78;119;7;43;80;7;43;84;7];
 [43;81;4;78;120;7;43;83;5;90;54;5;90;53;4;85];
 [51;7;54;43;7;43;79;7;54;42;7;54;41;7;62;46];
 [4;90;52;7;62;50;4;90;50;7;62;51;5;96;63;7];
 [62;49;7;62;45;7;62;47;7;62;48;5;102;89;7;69];
 [62;4;94;111;7;69;61;5;102;87;7;69;63;5;102;82];
 [5;106;120;5;102;85;5;102;83;5;102;86;5;102;88;7];
 [62;52;5;102;84;7;76;59;5;106;122;5;106;121;7;76];
 [58;7;76;55;5;106;124;5;106;125;5;106;123;7;76;61];
 [7;76;62;7;76;57;7;76;56;7;76;60;7;76;54;4];
 [101;74;5;110;117;5;110;116;5;110;115;7;81;115;7;81];
 [116;7;81;117;4;104;47;5;114;54;7;86;87;4;104;46];
 [5;114;53;5;114;55;7;86;83;7;86;84;5;114;56;7];
 [86;85;15;105;35;7;86;86;7;86;82;4;105;109;7;90];
 [66;4;105;112;7;90;67;4;105;111;7;90;68;7;93;101];
 [7;93;102;5;118;115;4;107;54;5;118;117;4;107;55;7];
 [93;98;5;118;116;7;93;103;7;93;97;7;93;99;7;93];
 [100;4;108;63;5;120;80;4;109;52;7;97;101;15;107;58];
 [7;99;39;5;122;78;7;99;40;7;100;42;7;100;116;5];
 [123;110;4;66;35;4;72;102;5;70;100;5;75;86;6;100];
 [90;15;77;70;15;77;71;15;77;72;6;100;89;7;43;86];
 [15;83;46;15;83;47;7;54;46;7;54;45;15;89;45;15];
 [89;46;4;90;54;5;96;64;15;93;107;15;93;108;7;69];
 [64;15;97;97;15;97;98;7;76;63;15;100;95;5;110;118];
 [15;103;34;15;103;35;15;103;36;15;103;37;4;104;49;7];
 [86;88;7;90;69;7;93;104;7;93;105;7;93;106;7;96];
 [55;15;107;115;7;97;102;7;97;103;7;99;41;7;100;43];
 [4;110;40;7;101;124;6;80;73;6;80;74;6;90;77;6];
 [90;76;15;70;58;15;64;105;4;72;104;5;75;88;6;100];
 [96;6;100;95;6;100;93;6;100;97;6;100;91;6;100;92];
 [5;75;87;5;75;90;5;82;126;7;43;87;7;43;90;4];
 [78;126;7;43;88;5;83;36;4;79;34;7;43;91;5;83];
 [35;4;78;124;4;78;125;5;82;124;4;78;122;5;82;125];
 [5;83;34;5;83;33;7;43;92;7;43;89;15;83;48;15];
 [83;49;15;83;50;15;83;51;7;54;47;4;85;55;7;54];
 [49;5;90;58;7;54;48;4;85;57;4;85;52;4;85;59];
 [5;90;55;5;90;57;4;85;58;4;85;56;7;54;51;5];
 [90;56;15;89;47;15;89;48;15;89;49;15;89;51;7;54];
 [50;4;90;58;4;90;60;7;62;58;5;96;65;5;96;68];
 [5;96;66;7;62;56;5;96;69;5;96;70;5;96;67;7];
 [62;53;4;90;57;7;62;54;15;93;109;15;93;110;15;93];
 [111;7;62;55;7;62;57;7;62;59;7;69;66;5;102;94];
 [4;94;113;5;102;92;5;102;96;5;102;95;7;69;68;5];
 [102;97;7;76;64;7;69;67;4;94;114;5;102;90;4;94];
 [120;5;102;91;15;97;99;15;97;101;5;102;93;7;69;65];
 [15;97;100;4;98;77;7;76;67;7;76;71;5;106;126;5];
 [107;33;5;107;35;4;98;80;7;76;72;7;76;70;7;76];
 [65;5;107;36;5;107;34;7;76;69;7;76;66;4;98;75];
 [7;76;68;15;100;96;15;100;97;15;100;99;5;110;124;7];
 [81;118;5;110;119;5;110;123;5;110;122;5;110;121;4;101];
 [80;4;101;76;5;110;126;5;110;120;4;101;75;7;81;119];
 [7;81;120;7;81;123;7;81;124;15;103;38;15;103;39;15];
 [103;40;5;110;125;5;114;59;5;114;62;5;114;58;7;86];
 [89;4;104;50;4;104;52;5;114;57;4;104;51;5;114;61];
 [7;86;90;5;114;60;7;86;94;15;105;36;7;86;91;7];
 [86;92;5;117;33;5;116;124;7;90;70;5;117;34;5;116];
 [126;5;116;123;5;117;37;5;117;36;5;117;35;5;116;125];
 [5;117;38;7;86;93;4;105;115;7;90;71;7;90;72;15];
 [106;59;15;106;60;5;118;119;4;107;56;4;107;57;5;118];
 [118;7;93;108;7;93;109;7;93;107;15;107;59;4;108;64];
 [7;96;56;5;120;81;4;108;68;4;108;66;5;121;101;7];
 [97;104;5;121;100;4;109;54;15;108;66;15;108;67;7;97];
 [105;5;122;79;7;99;42;7;99;43;7;100;44;4;110;41];
 [5;123;38;15;108;114;7;100;119;7;100;118;5;123;78;4];
 [110;84;6;35;61;6;35;60;5;68;75;5;75;91;5;75];
 [92;6;100;98;7;43;93;7;54;52;7;62;60;7;69;69];
 [4;94;121;7;81;126;7;86;95;5;114;64;7;90;73;7];
 [96;58;7;96;57;5;120;83;5;123;79;7;43;94;4;79];
 [35;4;85;60;7;69;70;7;82;33;7;86;97;7;86;96];
 [7;90;74;7;93;110;15;108;115;5;123;80;4;66;36;6];
 [90;78;6;100;100;6;100;99;7;43;95;7;54;56;4;85];
 [62;5;90;59;7;54;54;7;54;53;4;85;61;7;54;55];
 [5;96;71;7;62;61;4;94;122;7;69;72;7;69;73;7];
 [69;71;7;76;73;5;107;37;7;76;74;4;101;81;7;82];
 [36;7;82;35;7;82;34;7;82;37;7;86;98;4;104;53];
 [7;86;100;5;114;66;7;86;99;7;86;101;7;86;102;5];
 [117;39;7;90;76;7;93;113;7;93;114;5;118;120;4;105];
 [117;4;107;58;7;93;112;5;118;121;7;93;111;7;93;115];
 [4;108;70;4;108;69;7;93;116;7;96;59;7;97;107;7];
 [97;108;5;122;80;7;99;44;7;99;45;7;99;46;4;110];
 [42;7;100;45;7;100;121;7;100;120;7;100;122;7;101;79];
 [5;124;36;4;110;81;5;124;45;7;101;125;7;102;74;7];
 [102;75;6;80;75;5;61;83;6;90;82;5;68;78;6;90];
 [81;4;66;38;5;68;76;6;90;80;5;68;77;4;66;37];
 [6;90;79;15;57;48;15;57;47;6;90;83;5;75;95;5];
 [75;96;5;75;97;5;75;94;5;75;93;5;75;98;6;100];
 [104;6;100;101;6;100;105;15;77;73;15;77;74;15;77;75];
 [6;100;107;6;100;102;6;100;110;6;100;108;6;100;109;6];
 [100;106;6;100;103;4;79;39;5;83;41;7;43;97;7;43];
 [96;5;83;40;5;83;43;5;90;65;5;83;42;4;79;38];
 [7;43;99;5;83;37;15;83;52;15;83;53;15;83;54;5];
 [83;39;7;43;98;5;83;38;5;90;60;7;54;58;5;90];
 [69;5;90;67;7;54;57;4;85;64;5;90;68;7;54;59];
 [15;89;52;5;90;62;5;90;61;5;90;63;5;90;66;7];
 [54;60;5;90;64;4;90;61;5;96;73;5;96;76;5;96];
 [80;4;90;62;7;62;62;5;96;72;5;96;74;5;96;79];
 [5;96;77;7;62;64;7;62;65;7;62;67;15;93;112;15];
 [93;113;15;93;114;5;96;78;7;62;63;7;62;66;5;96];
 [75;5;102;99;7;69;75;4;94;123;5;102;105;7;69;78];
 [5;102;103;5;102;101;7;69;79;7;69;76;15;97;103;7];
 [69;74;7;69;81;5;102;98;7;69;77;7;69;80;5;102];
 [102;5;107;38;5;107;41;7;76;75;5;107;39;7;76;76];
 [7;76;77;15;100;100;15;100;101;15;100;102;15;100;103;5];
 [102;100;5;107;40;7;82;43;4;101;82;7;82;42;5;111];
 [33;7;82;41;7;82;40;5;111;34;7;82;38;15;103;41];
 [5;114;68;5;114;70;5;114;72;4;104;55;7;86;103;7];
 [86;104;15;105;37;5;114;69;5;114;67;7;86;105;5;114];
 [71;5;117;42;4;98;81;7;90;80;4;105;120;5;117;40];
 [7;90;78;4;105;121;5;117;43;15;106;61;5;117;44;5];
 [117;41;4;105;122;15;103;42;7;90;77;5;118;123;5;118];
 [122;15;105;38;5;120;84;5;120;85;4;108;71;7;96;63];
 [7;96;62;7;96;64;7;96;61;5;121;103;5;121;102;15];
 [108;68;7;99;47;4;110;43;7;100;46;7;100;47;4;110];
 [65;5;123;81;5;123;111;5;124;37;5;124;64;4;48;67];
 [4;66;42;4;66;39;6;90;85;4;66;40;6;90;86;5];
 [68;79;15;70;59;6;100;111;5;75;101;4;72;108;5;75];
 [99;15;77;76;15;77;77;5;75;102;4;79;47;4;79;51];
 [4;79;49;4;79;45;7;43;104;5;83;49;5;83;48;7];
 [43;101;7;43;100;5;83;46;4;79;56;5;83;51;5;83];
 [44;5;83;45;7;43;108;7;43;102;4;79;54;5;83;50];
 [15;83;55;15;83;58;15;83;61;7;43;107;7;43;103;7];
 [43;105;4;79;46;15;83;57;5;83;47;5;90;72;5;90];
 [70;7;54;61;5;90;73;4;85;70;4;90;70;5;90;78];
 [5;90;77;4;85;73;7;54;67;7;54;62;7;54;65;7];
 [54;64;5;90;76;7;54;68;15;89;54;15;89;55;15;89];
 [57;15;89;58;5;90;75;7;54;66;15;89;53;5;90;71];
 [7;54;63;5;96;86;4;90;72;5;96;87;5;96;84;5];
 [96;82;4;90;71;7;62;75;5;96;85;7;62;70;7;62];
 [77;7;62;69;4;90;75;7;62;76;5;96;90;5;96;88];
 [7;62;68;4;90;74;15;70;60;15;93;115;15;93;116;15];
 [93;117;15;93;119;15;93;121;7;62;72;5;96;91;5;96];
 [83;7;62;74;5;96;81;5;96;89;5;102;119;5;102;116];
 [5;102;112;5;102;107;7;69;83;4;95;40;5;102;109;7];
 [69;82;5;102;106;5;102;113;5;102;117;5;102;114;5;102];
 [111;5;102;108;7;69;84;15;97;104;15;97;105;15;97;106];
 [15;97;107;15;97;108;15;97;109;15;97;110;15;97;111;15];
 [97;113;15;97;115;7;69;85;7;62;71;5;102;118;5;102];
 [115;7;76;91;7;76;88;4;98;94;7;76;82;5;107;45];
 [4;98;82;5;107;47;7;76;79;7;76;81;4;98;95;5];
 [102;120;4;98;99;5;107;50;4;98;91;7;76;78;4;98];
 [90;4;98;101;7;76;90;7;76;83;7;76;89;4;98;88];
 [7;76;85;5;107;54;5;107;46;7;76;80;5;107;52;15];
 [100;110;15;100;104;15;100;106;15;100;108;15;100;111;15;100];
 [112;15;100;113;5;107;48;7;76;84;7;76;87;4;98;83];
 [5;107;55;5;107;42;15;100;105;5;107;44;15;97;112;7];
 [76;86;5;111;39;7;82;46;5;111;38;5;107;56;5;111];
 [41;7;82;44;4;101;88;5;111;43;7;82;47;7;82;45];
 [5;111;40;4;101;86;5;111;36;7;82;50;4;101;94;5];
 [111;37;5;111;35;4;101;96;7;82;48;5;111;44;7;82];
 [52;15;103;43;15;103;44;15;103;45;15;103;47;15;103;48];
 [15;103;49;15;103;50;15;103;46;5;111;42;15;103;52;5];
 [114;74;4;104;63;5;114;79;5;114;83;5;119;35;5;114];
 [73;5;114;82;4;104;56;7;86;113;5;114;76;7;86;114];
 [5;114;87;7;86;109;5;114;84;5;114;77;7;86;115;7];
 [86;117;7;86;106;7;86;116;5;114;86;7;86;110;7;86];
 [111;15;105;40;15;105;41;15;105;43;15;105;44;15;105;45];
 [15;105;46;15;105;47;15;105;48;15;105;49;15;105;50;7];
 [86;107;7;86;108;5;114;85;7;86;112;5;114;80;7;90];
 [84;7;90;82;5;117;50;4;106;34;5;117;46;5;117;47];
 [7;90;90;7;90;87;5;117;48;7;90;92;7;90;89;5];
 [117;52;7;90;86;7;90;91;7;90;83;7;90;85;7;90];
 [81;7;90;94;15;106;65;15;106;66;15;106;67;15;106;64];
 [7;90;95;5;117;51;7;90;88;7;90;93;5;117;49;5];
 [118;126;7;93;120;5;119;34;4;107;62;4;107;63;5;118];
 [124;7;93;119;4;101;92;7;96;70;7;93;117;7;94;34];
 [7;93;118;5;118;125;7;94;33;7;93;124;5;119;33;7];
 [93;121;15;107;61;15;107;63;7;93;122;7;93;125;7;93];
 [126;7;93;123;15;107;60;7;96;67;5;120;92;5;120;96];
 [5;120;90;7;96;65;4;108;79;4;108;76;5;120;89;5];
 [120;97;4;108;75;5;120;95;5;120;94;5;120;87;7;96];
 [75;7;96;71;5;120;88;15;107;117;15;107;120;7;96;72];
 [7;96;66;7;96;68;7;96;69;5;120;93;7;96;74;7];
 [96;73;7;97;115;5;121;104;4;109;56;5;121;105;7;97];
 [110;7;96;122;7;97;113;7;97;111;5;121;107;7;97;114];
 [7;97;112;15;108;69;15;108;70;5;121;106;7;97;109;7];
 [99;53;7;99;48;7;99;50;7;99;51;7;99;52;5;122];
 [81;5;122;82;15;108;90;15;108;91;15;108;92;15;108;93];
 [7;99;49;5;123;40;5;123;39;7;100;48;5;123;41;15];
 [108;116;7;100;49;5;123;42;7;100;50;7;100;126;5;123];
 [83;5;123;82;5;123;85;7;100;124;7;101;33;7;100;123];
 [5;123;84;7;100;125;15;108;117;5;123;115;5;123;114;5];
 [123;113;5;123;112;7;101;80;5;124;38;15;109;43;15;109];
 [44;5;124;39;7;101;107;5;124;46;5;124;55;7;102;47];
 [5;124;54;15;83;60;15;93;120;15;107;62;6;80;76;15];
 [64;51;6;80;77;4;66;43;6;90;87;5;68;81;5;68];
 [82;6;90;92;6;90;88;6;90;89;5;68;80;6;90;90];
 [6;90;91;6;100;112;5;75;106;6;100;113;5;75;105;4];
 [72;110;4;72;111;6;100;114;6;100;115;6;100;116;4;72];
 [112;5;75;104;15;77;79;15;77;80;15;77;81;5;75;103];
 [4;79;69;7;43;114;7;43;125;7;43;111;7;43;115;7];
 [43;121;5;83;55;5;83;59;5;83;61;5;83;57;7;43];
 [118;7;43;124;5;83;63;5;83;52;4;79;61;5;83;65];
 [5;83;62;5;83;53;4;79;62;5;83;66;7;43;122;4];
 [79;60;7;43;117;4;79;67;4;79;58;5;83;67;4;79];
 [70;7;43;112;7;43;123;15;83;64;7;43;110;7;43;119];
 [7;43;120;5;83;54;5;83;58;5;83;64;7;43;113;7];
 [43;116;5;83;60;7;54;75;5;90;84;5;90;86;5;90];
 [81;5;90;79;4;85;76;5;90;83;5;90;89;5;90;82];
 [7;54;87;7;54;82;5;90;87;4;85;86;7;54;84;5];
 [90;88;7;54;80;5;90;85;7;54;83;7;54;76;7;54];
 [69;7;54;78;15;89;61;15;89;62;15;89;63;15;89;64];
 [7;54;77;7;54;79;7;54;88;7;54;86;7;54;71;7];
 [54;72;7;54;85;4;85;83;4;85;81;6;80;78;7;54];
 [73;5;90;80;7;54;70;15;86;51;7;62;81;4;90;76];
 [5;96;94;5;96;105;7;62;84;4;90;83;5;96;103;7];
 [62;85;5;96;93;5;96;97;7;62;78;5;96;100;5;96];
 [107;5;96;96;5;96;98;4;90;84;7;62;87;5;96;92];
 [5;96;99;4;90;88;7;62;79;4;90;91;5;96;108;7];
 [62;88;7;62;83;5;96;104;5;96;106;15;93;122;15;93];
 [123;15;93;124;15;93;125;15;94;33;15;94;34;15;94;35];
 [15;94;37;7;62;80;5;96;95;4;90;90;7;62;86;5];
 [96;101;5;96;102;7;62;82;4;90;87;7;69;91;5;96];
 [109;7;69;95;5;102;125;5;103;37;5;103;39;4;95;46];
 [5;103;42;5;102;122;5;103;33;5;102;126;5;102;123;7];
 [69;93;7;69;88;4;95;45;7;69;94;5;102;124;5;103];
 [43;4;95;48;7;69;103;5;103;34;7;69;100;7;69;92];
 [5;103;40;7;69;97;7;69;98;7;69;102;5;103;36;7];
 [69;89;5;103;35;7;69;104;7;69;86;7;69;96;15;97];
 [116;15;97;117;7;69;87;5;103;41;7;69;99;5;107;57];
 [7;76;93;5;107;58;7;76;98;5;107;62;5;107;74;5];
 [107;64;7;76;106;7;76;100;5;107;59;7;76;104;7;76];
 [107;7;76;99;5;107;76;5;107;61;5;107;75;4;98;107];
 [5;107;66;5;107;69;7;76;96;7;76;94;5;107;72;5];
 [107;68;7;76;92;7;76;102;7;76;108;5;107;65;4;98];
 [109;7;76;105;5;107;70;15;100;116;15;100;118;15;100;119];
 [7;76;97;5;107;71;7;76;111;5;107;73;7;69;105;7];
 [76;101;7;76;103;7;76;109;5;107;67;7;76;110;7;76];
 [95;4;98;105;5;111;56;5;111;48;7;82;58;4;101;101];
 [5;111;62;7;82;67;5;111;50;5;111;66;4;98;112;7];
 [82;54;5;111;47;4;101;99;5;111;49;4;101;110;4;101];
 [104;5;111;51;5;111;45;5;111;55;5;111;68;5;111;57];
 [4;101;109;4;101;102;5;111;58;5;111;60;5;111;64;4];
 [101;103;5;111;46;5;111;59;5;111;54;5;111;63;7;82];
 [63;7;82;59;7;82;64;7;82;53;7;82;55;5;111;61];
 [5;111;53;5;111;52;5;111;67;7;82;56;15;103;55;7];
 [82;62;7;82;61;7;82;57;7;82;68;7;82;65;7;82];
 [60;15;103;56;5;111;65;7;69;90;5;114;94;7;86;121];
 [5;114;102;7;86;126;5;114;93;5;114;96;5;114;91;5];
 [114;101;5;114;100;7;87;33;7;86;125;7;86;122;5;114];
 [104;7;87;39;7;87;38;7;87;36;5;114;92;5;114;97];
 [5;111;69;5;114;90;5;114;98;7;87;34;7;86;124;5];
 [114;105;5;114;106;15;105;52;5;114;95;7;87;35;7;86];
 [119;7;87;40;7;86;118;7;86;123;15;105;51;5;114;88];
 [7;86;120;5;114;89;15;103;54;5;117;66;5;117;61;4];
 [106;36;4;106;45;5;117;60;4;106;40;5;117;67;5;117];
 [57;5;111;70;5;117;68;5;117;64;5;117;63;4;106;43];
 [7;90;98;7;90;108;7;90;106;7;90;112;4;106;42;7];
 [90;107;7;90;110;5;117;59;4;106;41;7;90;105;5;117];
 [55;7;90;104;5;117;56;5;117;70;5;114;103;7;90;113];
 [5;117;65;7;90;111;7;90;103;7;87;37;15;106;68;15];
 [106;69;15;106;70;15;106;71;15;106;72;5;117;62;7;90];
 [102;7;90;100;7;90;97;7;90;99;5;117;58;7;94;43];
 [7;94;39;7;94;49;5;119;51;7;94;47;5;119;46;5];
 [119;41;4;107;67;7;94;50;7;94;54;5;119;37;5;119];
 [48;5;119;42;5;119;40;5;119;47;7;94;44;5;119;39];
 [5;119;38;5;119;56;5;119;43;4;107;73;4;107;66;7];
 [94;53;5;119;49;7;94;48;7;94;51;5;119;45;7;90];
 [101;5;119;53;7;90;109;7;94;52;5;119;54;7;94;45];
 [15;107;64;7;94;36;7;94;38;7;94;46;7;94;41;7];
 [94;40;5;119;50;7;94;42;7;94;37;4;107;65;15;107];
 [122;7;94;55;7;96;77;5;120;103;5;120;105;5;120;109];
 [5;120;101;5;119;55;5;120;104;7;96;78;5;120;106;5];
 [120;107;7;96;79;7;96;80;7;96;84;5;120;108;7;96];
 [83;7;96;76;7;96;81;5;120;99;5;120;102;5;120;98];
 [15;107;121;7;96;82;4;108;85;5;120;100;4;108;83;5];
 [121;113;5;121;109;5;121;112;7;97;118;4;109;59;5;121];
 [110;5;121;108;4;109;60;7;97;116;5;121;111;7;97;120];
 [7;97;117;7;97;119;4;109;62;5;122;88;7;99;57;5];
 [122;86;4;109;107;5;122;90;5;122;89;5;122;85;5;122];
 [87;4;109;106;7;99;56;5;122;84;7;99;59;5;122;91];
 [7;99;61;15;108;94;7;99;58;7;99;54;7;99;60;5];
 [123;46;7;100;52;7;100;54;5;123;47;5;123;44;5;123];
 [43;5;123;49;5;123;48;5;123;45;7;100;55;15;108;118];
 [4;110;46;7;100;51;7;100;53;5;123;86;7;101;34;7];
 [101;83;7;101;36;7;101;38;7;101;35;7;101;39;5;123];
 [87;7;101;37;4;110;66;5;123;116;7;101;84;7;101;85];
 [5;123;117;7;101;82;7;101;86;7;101;81;7;101;109;7];
 [101;108;5;124;41;5;124;40;15;109;50;5;124;47;7;102];
 [33;7;101;126;5;124;56;7;102;48;5;124;57;7;102;58];
 [5;124;65;15;109;55;5;124;72;7;102;69;4;72;113;4];
 [72;114;5;83;68;7;44;34;7;44;33;7;43;126;5;90];
 [90;5;90;92;7;54;90;7;54;91;15;89;65;7;54;89];
 [5;103;44;7;62;89;4;98;113;7;76;112;5;107;77;7];
 [76;113;7;82;70;5;111;72;5;111;73;7;82;71;5;111];
 [71;7;82;73;7;82;72;4;104;69;7;87;43;7;87;42];
 [5;114;107;7;90;115;7;90;114;4;107;76;7;94;56;7];
 [94;57;5;119;57;7;96;85;4;108;87;5;121;114;4;109];
 [63;7;99;62;5;123;50;6;90;93;15;70;61;5;75;108];
 [15;77;82;7;44;40;5;83;69;7;44;39;7;44;38;7];
 [44;36;5;83;70;7;44;37;5;83;71;7;44;41;7;44];
 [35;7;54;93;5;90;93;15;89;66;15;89;67;15;89;68];
 [5;96;111;5;96;114;5;96;112;4;90;92;5;96;115;5];
 [96;113;7;62;91;7;62;90;7;62;94;7;62;93;15;94];
 [38;5;96;110;7;69;110;5;103;49;5;103;46;5;103;45];
 [7;69;107;7;69;109;7;69;106;5;103;48;7;69;108;15];
 [97;120;15;97;121;15;97;122;5;103;47;5;107;79;5;107];
 [78;5;107;81;4;98;115;7;76;115;5;107;80;7;76;114];
 [5;104;64;7;82;75;4;98;116;4;101;111;7;76;116;15];
 [103;57;7;82;74;7;82;76;5;111;74;4;104;71;7;87];
 [44;7;87;45;4;104;70;15;105;53;5;117;71;4;106;46];
 [15;106;73;5;119;58;5;119;60;5;119;59;7;94;58;7];
 [94;59;7;96;86;4;108;88;7;96;87;15;107;123;5;121];
 [117;5;121;116;5;120;110;4;109;64;4;109;108;15;108;71];
 [7;101;40;7;101;87;5;124;70;7;102;71;6;90;95;6];
 [90;94;5;68;83;15;70;63;4;72;117;6;100;117;15;77];
 [83;5;83;75;5;83;74;4;79;79;5;83;73;5;83;72];
 [7;44;43;7;44;47;7;44;42;4;79;78;7;44;44;5];
 [83;76;7;44;46;7;44;45;7;54;97;7;54;95;7;54];
 [94;7;54;99;4;85;91;7;54;98;6;71;83;15;89;69];
 [5;90;94;7;54;96;5;96;116;5;96;117;7;62;96;7];
 [62;97;15;94;40;7;62;98;7;62;95;7;69;112;5;103];
 [50;7;69;114;5;103;51;5;103;53;7;69;115;5;103;52];
 [15;97;123;7;69;113;7;69;111;4;98;122;4;98;120;7];
 [76;121;7;76;123;7;76;117;5;107;84;5;107;82;7;76];
 [122;5;107;85;5;107;83;7;76;120;4;98;123;7;76;119];
 [7;76;118;5;111;75;7;82;83;7;82;82;5;111;76;7];
 [82;80;4;101;112;7;82;79;5;111;78;5;111;77;7;82];
 [81;15;103;58;7;82;78;7;82;77;5;114;108;7;87;47];
 [5;114;111;7;87;48;5;114;110;7;87;49;7;87;46;5];
 [114;109;5;117;75;5;117;76;7;90;116;5;117;73;5;117];
 [78;7;90;123;7;90;118;7;90;119;7;90;124;7;90;121];
 [5;117;74;7;90;117;7;90;120;7;90;122;5;119;63;4];
 [107;79;5;119;62;5;119;64;5;119;61;5;120;111;5;120];
 [113;5;120;112;7;96;89;7;94;60;4;108;89;7;96;88];
 [4;109;109;7;99;63;7;100;57;7;100;56;5;123;88;7];
 [101;41;4;110;82;5;124;48;15;41;33;15;70;62;15;83];
 [66;15;94;39;5;75;112;5;75;110;5;75;111;5;83;78];
 [4;79;80;5;83;77;7;44;48;5;90;97;7;54;100;5];
 [90;95;5;90;96;15;89;70;5;96;120;5;96;118;15;94];
 [41;5;96;119;5;103;54;7;76;124;5;107;86;7;76;125];
 [4;101;115;7;87;50;5;114;112;7;90;126;4;107;80;7];
 [91;86;7;94;61;4;107;81;5;124;49;15;77;84;7;44];
 [50;5;90;98;5;90;100;5;90;99;5;96;122;5;103;56];
 [5;96;121;5;103;57;5;103;55;5;107;87;4;99;34;15];
 [100;121;4;101;117;4;101;116;5;111;80;5;111;79;4;101];
 [119;7;82;84;7;82;85;7;82;86;15;103;59;7;82;87];
 [5;114;115;5;114;114;5;114;113;7;87;51;7;87;52;5];
 [117;79;4;106;47;4;106;48;7;91;35;7;91;34;7;91];
 [33;7;94;62;5;120;114;7;96;90;5;120;115;7;97;121];
 [5;121;118;7;102;39;4;72;118;5;83;79;4;79;81;7];
 [54;104;7;54;102;5;90;102;5;90;101;5;90;103;5;96];
 [126;7;62;100;5;96;124;7;62;99;5;96;123;4;90;94];
 [5;96;125;7;62;101;7;62;102;5;103;59;5;103;58;4];
 [101;120;5;111;81;5;111;83;5;114;116;7;87;54;7;87];
 [53;15;105;54;5;117;80;4;107;84;5;119;66;5;119;65];
 [4;107;83;7;99;64;7;97;122;4;109;110;5;123;90;7];
 [101;42;5;123;89;6;100;118;5;68;84;6;100;120;6;100];
 [119;7;44;52;4;79;85;4;79;84;5;83;80;7;44;53];
 [7;44;54;7;54;106;5;90;106;5;90;104;5;90;105;7];
 [54;105;7;54;107;7;54;108;4;90;96;7;62;104;5;97];
 [33;15;94;42;7;62;103;5;103;62;5;103;60;7;69;116];
 [5;107;88;5;97;34;5;103;63;5;107;90;5;107;89;5];
 [107;91;5;107;93;5;107;92;7;77;33;7;76;126;5;111];
 [86;5;111;87;7;82;91;5;111;91;5;111;89;5;111;85];
 [7;82;88;4;101;126;4;101;123;7;82;92;5;111;90;4];
 [101;122;7;82;90;15;103;60;7;82;89;7;87;56;4;104];
 [83;4;104;81;5;114;120;4;104;80;5;114;123;7;87;55];
 [5;114;117;5;114;121;5;114;119;4;104;84;5;114;118;4];
 [104;85;4;106;52;7;87;57;7;87;58;5;114;122;5;117];
 [81;4;106;51;4;106;53;7;91;42;7;91;39;7;91;38];
 [4;106;50;7;91;41;7;91;40;5;117;82;7;91;37;5];
 [119;71;7;94;65;5;119;70;5;119;68;5;119;69;5;119];
 [67;5;119;72;7;94;63;5;120;118;5;120;119;7;96;93];
 [4;108;92;4;108;96;5;120;117;7;96;92;5;120;116;4];
 [108;95;4;108;94;4;108;93;7;94;64;7;96;91;5;121];
 [120;5;121;121;5;121;122;5;121;119;4;109;69;7;97;123];
 [7;97;124;4;109;70;5;122;92;7;100;58;7;101;43;4];
 [110;48;7;100;59;5;123;51;4;110;47;5;123;91;5;123];
 [92;7;101;44;4;110;74;5;123;118;7;101;110;5;124;74];
 [7;102;82;7;69;117;4;102;34;5;114;124;4;104;87;5];
 [119;73;6;100;121;7;44;56;7;44;55;5;97;36;7;54];
 [109;4;90;97;7;62;105;7;62;106;7;69;120;5;103;66];
 [7;69;121;7;69;119;7;69;118;4;95;65;7;77;36;7];
 [77;37;7;62;107;7;77;35;7;82;94;7;82;95;7;82];
 [93;5;114;125;7;87;59;4;106;54;7;91;44;7;91;49];
 [7;91;50;7;91;46;7;91;48;7;91;45;7;91;43;7];
 [91;47;5;119;74;7;94;66;5;120;120;5;121;123;5;122];
 [93;4;109;71;7;99;65;5;123;52;7;99;66;7;101;45];
 [6;80;79;7;54;110;7;54;111;5;90;107;7;70;79;7];
 [101;46;5;90;108;5;97;37;7;62;109;5;103;67;7;69];
 [122;5;103;68;15;97;125;7;77;39;5;107;96;7;77;38];
 [5;107;94;5;107;95;4;99;37;4;102;35;7;82;96;4];
 [106;57;4;104;88;7;87;60;7;87;61;5;117;83;7;91];
 [52;7;91;53;5;117;85;4;106;56;7;91;51;5;117;84];
 [7;94;67;7;96;94;5;120;121;7;96;95;5;121;124;7];
 [99;67;5;123;53;5;123;119;7;44;57;5;90;109;7;62];
 [110;5;90;110;5;97;40;5;97;42;5;97;43;5;97;41];
 [5;97;39;7;62;112;5;97;38;7;62;111;5;97;44;4];
 [90;98;7;69;124;7;77;44;5;103;71;5;103;72;5;103];
 [70;5;103;69;7;69;123;7;77;42;5;107;97;5;107;99];
 [5;107;98;7;77;45;7;77;46;7;77;41;7;82;98;7];
 [82;100;7;82;99;5;111;93;5;111;94;7;77;43;7;82];
 [101;5;111;92;7;82;97;5;115;33;5;114;126;7;87;62];
 [5;117;87;7;91;54;5;117;88;5;117;89;5;117;86;4];
 [106;58;7;94;68;5;119;75;4;107;89;7;94;72;4;107];
 [87;4;107;90;7;94;71;7;94;70;7;94;69;5;120;125];
 [4;108;99;5;120;123;5;120;122;7;96;96;7;97;126;7];
 [97;125;4;109;73;5;121;125;5;123;54;5;123;121;5;123];
 [120;7;101;111;7;102;34;4;79;87;7;54;112;7;54;113];
 [7;62;114;7;62;113;5;103;73;7;69;126;7;70;33;7];
 [69;125;5;107;100;5;107;101;7;82;102;5;111;95;5;111];
 [96;7;82;104;4;104;91;5;115;34;7;87;63;7;87;64];
 [5;115;35;5;115;36;7;91;55;5;119;76;7;94;73;5];
 [120;124;15;107;126;7;96;97;5;121;126;5;122;33;7;99];
 [70;5;122;94;7;99;69;7;100;60;4;110;83;5;124;50];
 [15;64;52;4;85;100;4;90;101;7;70;34;4;99;40;7];
 [77;47;5;109;87;4;102;36;4;106;59;15;105;55;5;122];
 [35;5;122;34;7;98;33;7;101;47;5;97;46;7;62;115];
 [7;70;37;4;95;71;7;70;36;7;77;48;5;107;102;4];
 [99;42;7;77;49;7;77;52;7;77;50;7;77;51;7;77];
 [53;7;77;54;5;107;103;7;82;107;5;111;99;5;111;98];
 [4;102;40;7;82;105;4;102;42;7;82;109;4;102;41;7];
 [82;110;7;82;106;4;72;120;7;82;108;7;87;70;5;115];
 [42;5;115;39;7;87;67;7;87;66;4;104;94;5;115;40];
 [4;104;95;4;104;93;7;87;68;5;115;37;5;115;43;7];
 [87;69;7;87;71;5;115;41;7;87;65;5;115;38;7;91];
 [56;4;106;62;5;117;92;5;117;91;5;117;94;7;91;64];
 [7;91;63;5;117;95;7;91;58;5;117;96;4;106;63;7];
 [91;57;5;117;90;7;91;59;7;91;61;7;91;62;7;91];
 [60;5;117;93;5;119;79;5;119;78;4;107;94;4;107;98];
 [4;107;99;4;107;95;4;107;96;5;119;80;7;94;78;7];
 [94;76;4;107;93;7;94;74;7;94;75;7;94;79;4;107];
 [100;4;108;103;5;120;126;7;96;103;4;108;104;7;96;101];
 [5;121;33;7;98;35;4;108;101;7;96;99;7;96;102;7];
 [96;100;7;96;98;7;96;104;5;121;34;4;109;78;4;109];
 [74;7;98;37;5;122;38;4;109;80;4;109;77;5;122;36];
 [7;98;39;4;109;79;7;98;36;7;98;38;7;98;40;7];
 [98;41;7;98;34;5;122;37;7;99;72;5;122;96;7;99];
 [71;5;122;98;5;122;95;5;122;97;7;100;62;4;110;50];
 [7;100;61;5;123;55;5;123;57;5;123;56;7;100;64;7];
 [100;65;7;100;63;4;110;70;7;101;50;5;123;93;7;101];
 [49;7;101;48;7;101;89;7;101;113;7;101;114;5;124;42];
 [7;101;112;7;101;115;5;124;51;7;102;36;7;102;35;5];
 [124;59;7;102;50;5;124;58;7;102;49;7;102;61;7;102];
 [60;5;124;69;7;102;65;7;102;72;5;124;78;5;124;77];
 [5;107;104;7;77;55;4;99;44;7;82;112;7;82;111;7];
 [78;36;5;111;100;7;87;72;15;103;61;7;91;66;7;91];
 [65;7;91;67;7;91;68;5;119;81;5;124;81;7;54;114];
 [7;62;116;7;70;38;7;87;73;5;111;101;4;102;43;5];
 [111;103;5;111;102;4;102;44;7;82;115;7;82;113;15;103];
 [62;7;82;114;5;115;44;5;115;46;7;87;75;5;115;47];
 [5;107;106;5;115;45;7;84;42;7;87;74;7;77;57;7];
 [77;56;5;123;94;7;97;41;5;123;58;5;119;82;7;100];
 [66;15;109;45;5;124;66;15;41;38;5;115;48;7;98;43];
 [7;98;42;5;122;100;5;122;99;7;99;74;7;99;73;5];
 [123;59;4;110;71;7;102;37;4;110;86;7;102;76;6;41];
 [54;6;33;49;6;33;33;6;37;102;6;37;114;4;37;61];
 [6;46;97;15;45;104;6;61;53;6;80;91;4;60;48;6];
 [90;114;15;89;77;6;35;82;3;36;82;3;39;83;15;103];
 [64;3;39;84;6;61;60;7;77;62;6;33;80;3;34;123];
 [6;35;89;3;33;79;6;53;68;4;33;63;6;34;60;3];
 [36;65;7;54;122;5;33;41;6;33;56;15;35;55;6;41];
 [99;6;46;118;6;70;103;3;64;67;15;34;41;6;47;37];
 [6;53;88;4;54;76;4;33;47;6;34;70;3;34;37;6];
 [34;73;3;35;41;6;47;56;6;70;116;6;42;35;6;47];
 [61;6;61;89;6;61;90;3;58;38;15;33;51;3;36;41];
 [6;33;97;6;38;67;5;49;49;6;34;91;5;33;96;3];
 [35;60;4;35;92;6;38;78;4;35;91;6;42;60;3;48];
 [35;6;53;126;4;48;118;6;61;124;6;71;42;6;71;44];
 [6;71;48;6;71;49;6;71;51;4;60;80;6;91;91;6];
 [81;54;6;91;89;7;33;96;7;44;101;3;33;124;6;36];
 [51;6;54;53;6;62;44;6;62;43;3;52;112;4;54;118];
 [6;81;74;7;33;118;7;70;62;15;35;91;6;81;87;5];
 [35;98;6;36;59;6;81;94;6;71;86;6;34;103;15;42];
 [43;6;54;76;6;54;77;15;46;109;6;62;84;6;62;80];
 [6;71;97;6;81;105;15;71;70;3;90;51;7;70;81;6];
 [36;72;4;49;48;15;65;43;6;92;34;3;90;54;7;96];
 [109;6;39;33;6;54;103;6;36;75;4;33;52;5;40;115];
 [6;71;123;4;33;53;15;38;98;3;44;64;6;48;78;6];
 [72;43;6;72;53;3;64;126;6;82;51;6;92;61;6;39];
 [54;6;92;73;15;33;95;6;72;55;6;55;44;6;72;60];
 [7;45;83;7;45;85;7;96;110;5;41;39;6;63;70;6];
 [63;69;3;53;95;6;82;64;5;69;93;6;33;116;6;39];
 [74;6;43;47;6;48;116;15;42;93;6;43;57;7;45;99];
 [5;115;64;3;44;81;6;63;94;5;45;72;3;53;101;6];
 [39;95;15;36;51;5;36;56;6;49;54;6;49;48;15;42];
 [103;4;41;74;6;72;124;6;72;120;3;70;112;6;82;108];
 [6;82;102;6;93;38;6;93;36;4;67;81;7;45;105;7];
 [45;121;7;34;123;3;84;96;4;91;44;7;71;40;3;38];
 [39;6;64;35;5;34;110;6;43;99;6;43;96;6;49;79];
 [15;43;43;6;55;113;3;54;40;6;64;54;6;64;43;6];
 [73;74;6;73;48;15;65;95;7;35;48;6;93;56;5;70];
 [44;7;35;45;15;79;37;4;74;39;7;56;57;15;94;112];
 [4;45;70;6;73;87;15;90;54;3;54;64;6;56;54;15];
 [65;114;6;83;60;5;70;65;15;43;56;6;49;109;6;64];
 [87;6;73;120;6;93;91;6;44;35;5;38;74;4;50;62];
 [6;64;88;5;63;102;4;36;71;6;40;46;15;36;81;4];
 [38;104;3;45;53;6;56;74;3;49;92;4;45;92;6;56];
 [80;5;50;126;3;60;58;6;83;94;5;63;113;3;65;110];
 [6;93;104;7;35;114;15;84;116;7;46;106;4;95;118;7];
 [88;35;6;37;35;6;74;63;7;35;120;7;94;114;15;72];
 [121;6;83;119;4;45;101;15;53;116;6;74;77;6;44;66];
 [15;72;123;6;37;46;15;36;93;6;44;91;6;44;81;3];
 [45;82;6;50;57;6;50;66;4;42;37;4;45;112;6;57];
 [45;6;56;116;6;57;33;15;48;91;3;54;117;6;74;101];
 [6;74;99;4;62;51;6;84;73;6;84;79;15;66;116;6];
 [94;62;7;36;79;7;36;88;15;79;105;7;47;66;15;85];
 [86;4;86;93;7;78;40;7;83;96;7;83;88;6;44;96];
 [6;44;93;6;50;72;4;56;104;15;67;47;6;84;89;15];
 [80;61;15;85;88;5;123;123;3;85;69;6;65;97;6;65];
 [99;6;65;106;6;94;94;6;50;98;6;75;66;7;71;117];
 [6;34;38;15;36;120;6;45;36;15;44;57;15;49;40;6];
 [75;71;15;67;100;4;68;110;7;64;99;15;99;36;6;66];
 [33;3;61;63;6;50;121;4;42;68;5;51;101;6;75;86];
 [4;62;108;6;66;50;15;74;47;7;83;123;6;45;58;5];
 [51;113;15;86;60;6;45;69;6;45;61;6;51;61;6;51];
 [49;5;47;38;15;44;87;6;58;45;6;58;46;6;66;72];
 [6;75;122;15;80;95;7;48;74;6;37;63;6;45;70;3];
 [67;51;6;85;107;7;37;123;7;57;109;15;40;60;6;51];
 [74;15;61;96;4;75;96;7;38;39;6;58;67;6;66;103];
 [4;69;95;4;82;33;7;48;102;6;95;117;7;38;62;7];
 [38;60;7;48;115;15;74;123;6;96;35;15;81;35;7;38];
 [77;7;65;60;5;108;125;7;49;45;7;58;51;4;92;89];
 [7;65;68;3;46;86;6;51;102;3;72;106;15;81;55;7];
 [38;106;7;38;105;4;100;38;7;98;77;6;76;114;7;58];
 [70;15;62;50;7;58;73;7;72;109;7;95;60;6;77;35];
 [15;87;39;4;43;38;7;39;40;15;87;40;6;96;93;5];
 [72;116;15;92;45;6;40;123;4;39;104;6;45;105;3;51];
 [80;5;59;80;6;77;72;15;68;104;15;75;87;15;75;86];
 [4;76;86;4;88;45;4;52;87;6;77;94;3;68;37;6];
 [97;37;3;39;42;6;37;82;6;41;39;15;40;92;6;41];
 [40;6;46;34;6;46;35;6;52;68;6;46;36;6;59;82];
 [15;50;58;4;52;115;6;68;43;4;52;116;6;67;118;6];
 [68;59;4;58;102;6;68;62;6;68;60;6;68;61;6;78];
 [59;6;97;62;6;97;79;15;81;100;4;76;121;7;39;97];
 [7;39;109;7;50;68;15;87;71;7;58;111;15;96;93;7];
 [66;60;7;84;94;4;103;43;6;52;71;4;64;79;7;59];
 [56;3;91;38;6;59;113;4;58;117;6;78;70;4;70;124];
 [4;77;51;15;82;36;7;40;46;15;81;125;7;66;96;7];
 [66;95;3;91;45;4;100;63;4;83;76;6;37;83;5;48];
 [62;6;88;46;6;88;44;15;69;61;7;59;97;15;56;74];
 [5;122;56;6;60;45;4;53;69;15;63;59;6;98;71;7];
 [51;79;7;89;65;6;41;42;6;88;80;6;88;92;3;96];
 [124;6;60;59;7;51;121;7;51;115;15;63;83;3;68;109];
 [7;41;68;6;52;93;4;48;44;7;52;49;4;84;55;7];
 [60;97;6;37;91;4;53;114;6;89;71;6;89;74;7;60];
 [107;15;69;115;6;99;83;6;99;79;4;84;74;15;102;94];
 [7;80;107;15;108;63;6;99;88;7;52;122;7;52;113;15];
 [97;74;6;80;34;6;99;110;7;53;53;3;86;120;5;95];
 [94;7;61;80;15;88;120;7;75;95;4;101;42;7;75;107];
 [5;61;71;5;68;53;6;90;51;6;100;48;4;89;118;6];
 [100;58;6;60;119;6;90;61;4;85;35;4;94;96;6;100];
 [80;7;62;41;7;43;85;15;89;50;7;81;122;7;90;96];
 [4;90;89;7;69;101;4;95;55;4;98;110;7;82;69;5];
 [117;54;5;117;53;15;108;119;7;62;92;6;70;62;4;104];
 [79;6;90;96;4;40;52;3;92;47;5;83;81;7;77;40];
 [4;72;119;7;94;77]].

