(** GENERATED by tools/gen.py from /repo/lib/converters; do not edit.
    Mapping tables. *)
From Coq Require Import ZArith List Bool.
From Verif Require Import Base.
Import ListNotations.
Open Scope Z_scope.

(* lib/converters/cns11643_inv.h:30-13893 cns11643_inv_2charset, part 2 of 3 *)
Definition cns11643_inv_2charset_part2 : list (list Z) := [
 [40;85;2;40;87;3;42;96;1;79;62;2;40;92;1;79];
 [66;2;40;82;2;40;96;2;40;102;1;79;73;2;40;99];
 [1;79;70;3;42;107;2;40;89;2;40;95;2;40;97;3];
 [42;102;2;40;84;1;79;69;1;79;64;2;40;90;1;79];
 [71;1;79;74;1;79;68;3;42;108;1;79;61;2;40;94];
 [2;40;88;2;40;101;1;79;76;1;79;72;1;79;67;2];
 [40;93;1;87;112;2;40;91;1;79;65;1;79;75;4;39];
 [122;2;40;83;4;39;126;2;40;98;2;40;100;3;42;94];
 [15;40;99;3;42;104;4;39;123;3;46;118;1;83;69;1];
 [83;63;1;83;71;1;83;68;2;45;52;2;45;55;1;83];
 [64;3;46;106;2;45;46;4;43;58;1;83;57;1;83;67];
 [3;46;107;1;83;70;1;83;72;2;45;67;2;45;58;3];
 [46;120;1;83;56;2;45;66;1;83;60;1;83;58;1;83];
 [53;2;45;50;3;46;114;2;45;65;2;45;54;2;45;57];
 [2;45;70;3;46;116;1;83;73;2;45;64;1;83;65;2];
 [45;59;2;45;69;2;45;56;2;45;60;2;45;63;3;46];
 [105;3;46;110;2;45;48;2;45;68;2;45;62;3;46;111];
 [3;46;122;2;45;47;6;52;60;2;45;51;1;83;66;1];
 [83;61;1;83;54;1;83;59;1;83;55;1;83;74;2;45];
 [49;2;50;71;1;83;62;4;43;61;3;46;121;2;45;61];
 [2;41;66;3;46;119;3;102;53;3;102;55;2;50;74;1];
 [87;126;3;51;98;2;50;58;4;47;93;2;50;69;2;50];
 [65;3;56;77;2;50;84;3;51;89;2;50;76;3;51;95];
 [2;50;66;3;56;91;2;50;75;2;50;60;2;50;64;2];
 [50;87;1;88;35;2;50;79;2;50;70;1;87;113;2;50];
 [85;2;50;56;4;47;90;2;50;78;4;47;99;1;88;34];
 [1;87;123;2;50;55;1;87;121;1;87;120;1;87;125;2];
 [50;77;1;87;117;1;87;124;2;45;53;2;63;65;2;50];
 [72;4;47;95;3;42;95;2;50;62;1;88;33;2;50;63];
 [2;50;67;1;88;36;2;50;57;2;50;81;3;62;87;2];
 [50;80;2;50;88;1;87;119;1;87;116;2;50;86;2;50];
 [82;2;50;73;2;50;68;1;87;122;1;87;118;2;50;59];
 [1;87;114;2;50;83;1;87;115;4;47;92;2;50;61;3];
 [51;90;3;51;99;3;102;54;3;45;51;4;52;103;3;56];
 [78;3;56;81;2;56;98;2;56;100;2;56;105;2;56;125];
 [1;93;35;1;92;119;3;56;84;2;56;97;1;93;36;1];
 [93;37;2;56;108;2;56;115;2;56;121;3;56;80;2;56];
 [102;4;52;109;2;56;109;3;56;79;3;56;93;1;93;38];
 [2;56;123;2;56;118;1;93;33;1;92;125;2;56;114;2];
 [56;110;2;56;96;1;92;116;2;56;101;2;56;93;3;56];
 [85;1;92;124;1;92;126;2;56;106;2;56;103;1;92;121];
 [2;56;119;1;92;118;2;56;104;2;63;106;2;56;112;3];
 [56;94;2;56;111;1;92;117;3;56;87;1;93;34;3;56];
 [82;1;92;120;2;56;94;2;56;99;2;56;116;2;56;122];
 [1;93;39;2;56;95;2;56;107;2;56;113;1;92;123;4];
 [52;111;3;56;88;2;56;124;2;56;117;2;56;120;3;56];
 [95;15;55;120;1;92;122;4;58;104;2;63;81;2;63;69];
 [1;97;93;2;63;98;2;63;107;2;63;110;1;97;91;2];
 [63;77;2;63;102;2;63;78;2;63;92;1;97;104;2;63];
 [88;1;97;101;3;62;94;2;63;89;2;63;66;5;59;111];
 [2;63;103;3;62;79;3;62;89;1;97;110;2;63;100;2];
 [63;90;2;63;112;2;63;85;2;70;109;3;62;77;2;63];
 [115;1;97;108;2;63;83;2;63;95;1;97;111;1;97;90];
 [2;63;87;2;63;113;2;63;80;2;63;73;2;63;84;3];
 [62;95;2;63;72;2;63;70;1;97;86;2;63;104;2;63];
 [79;2;63;108;3;62;75;2;63;109;1;97;94;1;97;99];
 [1;97;95;1;97;103;2;63;99;1;97;96;2;63;91;2];
 [63;75;15;62;102;1;97;88;2;63;67;2;63;101;2;63];
 [111;2;63;74;1;97;102;2;63;116;2;63;86;3;62;82];
 [2;63;82;3;62;92;1;97;87;1;97;107;3;62;90;2];
 [63;97;1;97;109;3;62;80;2;63;93;1;97;98;1;97];
 [92;1;97;100;1;97;89;1;97;106;2;63;94;2;63;76];
 [2;63;96;2;63;71;2;63;105;3;62;88;4;58;103;3];
 [62;93;3;62;86;3;62;78;2;63;114;3;102;57;3;62];
 [91;3;102;56;2;63;68;2;70;108;3;68;45;2;71;36];
 [1;101;92;2;70;113;3;68;49;2;70;111;2;70;90;1];
 [102;48;2;70;106;2;70;126;2;70;102;1;102;56;2;70];
 [125;2;70;100;1;97;105;2;70;116;2;70;101;2;70;123];
 [1;102;55;1;102;47;3;68;58;2;70;79;2;70;87;3];
 [68;53;2;70;112;2;70;104;2;71;35;2;70;107;1;102];
 [61;2;70;124;3;68;44;1;102;52;3;68;62;2;70;110];
 [2;70;118;2;70;91;2;70;117;3;68;39;2;71;40;2];
 [70;86;2;70;119;3;68;51;2;71;38;3;68;63;2;70];
 [80;1;97;97;3;68;64;2;70;94;2;70;93;1;102;54];
 [3;68;50;2;70;97;2;70;99;2;70;114;2;71;37;1];
 [102;57;3;68;56;1;102;58;3;68;48;2;70;85;1;102];
 [50;2;70;89;2;71;33;1;102;59;4;64;68;1;102;51];
 [1;102;53;1;102;60;2;71;39;2;70;120;2;70;115;3];
 [68;60;3;68;47;2;70;96;2;70;95;1;102;49;2;70];
 [81;1;102;46;2;70;105;2;70;82;2;70;103;3;68;46];
 [4;64;65;2;70;92;2;71;34;3;68;42;3;68;57;4];
 [64;54;1;102;45;3;68;59;3;68;40;2;70;88;4;64];
 [70;2;70;84;2;70;122;2;70;83;1;106;104;2;77;90];
 [3;73;53;3;73;68;2;77;73;3;73;51;3;73;56;2];
 [77;51;2;77;81;1;106;96;2;77;66;2;77;76;1;106];
 [99;2;77;69;1;106;97;2;77;54;2;77;84;2;77;53];
 [2;77;72;3;73;60;2;77;52;3;73;57;4;70;108;2];
 [77;70;2;77;79;2;77;77;2;77;65;2;77;60;2;77];
 [58;3;73;66;2;77;59;2;77;78;2;77;89;2;77;67];
 [1;106;98;3;73;59;2;77;62;3;73;58;2;77;82;3];
 [73;65;1;106;101;2;77;61;2;77;55;2;77;71;1;106];
 [105;3;73;50;4;70;88;1;106;93;1;106;102;2;77;63];
 [2;77;57;3;73;54;1;106;95;2;70;121;1;106;94;2];
 [77;74;3;68;54;1;106;92;1;106;107;1;106;100;2;77];
 [75;2;77;64;2;77;56;2;77;83;2;77;68;1;106;106];
 [2;77;87;1;106;103;2;77;86;3;73;63;2;77;80;2];
 [77;85;3;73;62;3;73;67;2;77;88;3;102;59;3;102];
 [60;3;102;58;3;73;61;2;83;92;2;83;93;2;83;80];
 [2;83;79;2;83;75;1;110;93;3;78;79;1;110;85;2];
 [83;95;2;83;94;2;70;78;2;83;72;2;83;76;2;83];
 [70;3;78;68;2;83;89;2;83;74;3;78;66;2;83;96];
 [2;83;67;2;83;65;2;83;77;2;83;87;2;83;82;1];
 [110;95;2;83;56;3;78;64;2;83;86;3;78;76;3;78];
 [70;3;78;84;1;110;96;2;70;98;2;83;68;2;83;59];
 [2;83;62;2;83;100;2;83;69;2;83;60;2;83;58;2];
 [83;55;4;76;122;1;110;89;2;83;78;1;110;88;1;110];
 [92;2;83;73;2;83;81;1;110;82;2;83;97;2;83;101];
 [1;110;84;3;78;75;2;83;64;2;83;84;2;83;88;2];
 [83;61;2;83;98;1;110;91;4;76;106;1;110;90;2;83];
 [53;1;110;94;2;83;91;2;83;63;2;83;83;2;83;57];
 [2;83;71;2;83;66;1;110;86;1;110;87;2;83;85;2];
 [83;102;2;83;99;2;83;90;4;76;120;3;78;77;3;78];
 [78;3;78;82;4;76;116;2;83;54;1;110;83;2;89;116];
 [3;82;90;2;89;107;2;89;110;3;82;82;1;114;37;2];
 [89;112;2;89;101;2;89;108;2;89;114;1;114;34;1;114];
 [38;1;113;126;3;82;89;3;82;80;2;89;103;2;89;119];
 [4;77;37;4;83;51;2;89;113;4;83;36;2;89;104;2];
 [90;34;2;89;122;2;89;100;2;94;114;2;89;106;1;114];
 [33;3;82;88;2;89;117;3;82;84;2;90;33;1;114;41];
 [3;82;86;2;89;124;2;89;105;2;89;111;2;89;115;2];
 [89;109;2;90;35;2;89;126;2;89;123;1;114;35;1;114];
 [36;1;114;40;2;89;102;2;90;36;1;114;39;2;89;120];
 [3;82;79;3;82;85;2;89;118;3;102;61;2;89;121;2];
 [95;33;2;94;108;2;94;113;2;94;126;2;94;112;2;94];
 [104;2;94;109;4;88;62;1;117;44;3;86;43;2;94;97];
 [2;94;121;2;94;123;2;94;96;1;117;43;2;94;125;2];
 [94;117;1;117;50;2;94;124;2;94;110;1;117;52;2;94];
 [102;2;89;125;2;94;118;2;94;115;2;94;98;2;95;35];
 [1;117;46;3;86;40;3;86;41;1;117;47;2;94;100;2];
 [94;116;3;86;45;2;95;34;2;94;119;2;94;106;1;117];
 [49;1;117;45;2;94;120;2;94;107;2;95;36;2;94;101];
 [2;94;111;2;94;122;2;94;103;2;94;105;4;88;64;1];
 [117;53;2;94;99;1;117;51;1;119;48;1;117;42;3;86];
 [44;3;86;48;1;117;48;1;119;52;2;98;125;3;88;108];
 [2;98;115;2;98;110;2;98;116;2;98;126;2;99;36;2];
 [99;35;1;119;54;1;119;53;3;88;110;4;93;44;2;98];
 [117;2;99;37;2;98;120;2;98;112;3;88;111;2;98;114];
 [2;98;113;2;98;119;2;98;124;2;98;111;2;98;118;2];
 [98;123;1;119;51;4;93;40;2;98;121;3;88;107;1;119];
 [49;2;98;122;1;119;47;1;119;50;2;102;96;2;99;33];
 [3;102;62;1;120;109;3;90;126;2;102;88;2;102;92;2];
 [102;84;2;102;87;3;90;125;2;102;95;1;120;107;2;102];
 [100;2;102;93;4;96;122;2;102;85;2;102;101;2;102;94];
 [1;120;110;1;120;111;2;102;98;3;91;34;2;102;86;1];
 [120;106;1;120;108;2;102;81;2;102;89;2;102;83;3;92];
 [123;2;102;99;2;102;97;2;102;82;2;102;90;4;96;123];
 [3;91;37;3;102;63;2;105;106;1;120;112;2;102;91;1];
 [122;50;1;122;52;1;122;49;3;92;118;2;105;111;2;105];
 [103;2;105;101;2;105;105;2;105;102;3;92;120;3;92;124];
 [2;105;107;2;105;109;1;122;53;1;122;55;3;93;34;2];
 [105;108;1;122;56;1;122;54;2;105;110;3;92;126;4;100];
 [55;3;93;35;3;92;119;1;122;51;3;93;33;3;94;91];
 [3;94;90;1;123;33;2;108;33;2;108;39;1;123;35;2];
 [105;104;2;108;38;3;94;92;2;108;45;2;108;36;2;108];
 [43;2;108;42;2;105;100;2;108;37;2;99;34;2;108;46];
 [2;108;35;2;108;40;3;94;88;2;108;44;2;108;34;3];
 [94;86;2;109;119;1;123;34;2;108;41;3;94;87;2;111];
 [67;2;109;120;2;109;118;2;109;116;2;109;117;2;109;121];
 [3;102;64;1;124;69;2;111;65;2;111;63;2;111;68;2];
 [111;66;3;96;67;2;111;69;1;124;70;2;111;64;3;96];
 [47;3;97;70;2;112;74;3;102;65;2;113;52;2;113;53];
 [2;113;54;3;97;71;3;97;124;2;114;53;2;114;45;2];
 [34;111;1;79;77;1;83;75;4;47;104;2;50;90;2;50];
 [89;1;88;37;1;93;40;2;57;33;3;56;99;3;56;96];
 [2;56;126;3;56;97;1;97;112;1;102;63;3;62;97;1];
 [102;62;1;102;64;5;73;78;2;77;91;2;83;103;2;90];
 [37;2;90;39;2;90;38;7;50;97;1;117;54;2;95;37];
 [2;99;38;2;113;115;1;72;101;3;39;45;2;40;105;2];
 [40;106;2;40;104;2;40;103;1;79;78;3;102;66;2;45];
 [74;2;45;72;3;47;35;3;46;124;2;45;71;3;46;126];
 [1;83;76;1;83;78;1;83;77;2;45;73;3;47;36;15];
 [45;62;3;51;105;2;50;102;2;50;99;2;50;97;4;47];
 [109;3;51;108;1;88;38;2;50;100;1;88;43;2;50;94];
 [2;50;109;3;51;111;2;50;111;2;50;95;3;51;110;1];
 [88;40;2;50;112;2;50;107;2;50;93;2;50;98;2;50];
 [108;2;50;104;2;50;101;3;51;107;1;88;45;2;50;110];
 [2;50;96;3;51;106;3;51;112;2;50;105;2;50;91;1];
 [88;44;1;88;41;2;50;103;3;51;109;2;50;106;2;50];
 [92;1;88;42;1;88;39;4;52;122;3;56;102;1;93;50];
 [2;57;40;1;93;49;3;56;100;2;57;43;2;57;46;1];
 [93;46;1;93;44;2;57;35;2;57;44;2;57;42;2;57];
 [39;2;57;47;2;57;48;2;57;50;2;57;51;2;57;34];
 [1;93;43;2;57;37;2;57;36;2;57;49;1;93;45;2];
 [57;38;1;93;47;1;93;42;2;57;41;1;93;51;4;53];
 [38;1;93;48;2;57;45;15;56;58;1;97;119;2;64;37];
 [4;58;113;2;63;120;1;97;116;3;62;98;2;71;46;2];
 [64;35;2;63;117;1;97;114;2;63;122;1;97;117;2;63];
 [126;2;63;124;1;97;120;1;97;113;4;58;118;3;62;99];
 [2;63;118;2;63;121;1;97;118;4;58;111;2;63;119;5];
 [59;123;2;64;36;2;64;34;2;63;123;2;63;125;2;64];
 [33;1;97;115;3;62;104;2;71;47;2;71;53;2;71;43];
 [2;71;49;1;102;65;2;71;45;1;102;71;3;68;68;3];
 [68;69;1;102;70;3;68;73;1;102;69;2;71;52;1;102];
 [72;1;102;73;2;71;42;2;71;55;1;102;74;1;102;68];
 [1;102;67;2;71;51;1;102;75;2;71;41;2;71;44;2];
 [71;54;2;71;50;4;64;89;4;64;82;2;77;123;2;77];
 [112;1;102;66;5;66;93;3;68;70;3;68;72;1;106;114];
 [2;77;100;2;77;121;2;77;101;1;106;109;3;73;79;2];
 [77;98;4;64;85;2;77;107;2;77;99;1;106;111;2;77];
 [93;2;77;120;1;106;112;2;77;117;2;77;118;2;77;94];
 [1;106;117;2;77;109;3;73;74;2;77;103;2;77;110;2];
 [77;97;4;70;126;2;77;122;2;77;114;2;77;108;2;77];
 [92;1;106;113;2;77;115;3;73;69;1;106;116;2;77;119];
 [3;73;76;2;77;113;1;106;110;2;77;111;3;73;73;2];
 [77;105;1;106;108;2;77;96;2;77;104;2;77;116;2;77];
 [102;15;76;51;3;73;78;2;77;106;3;73;75;3;102;67];
 [1;110;106;2;71;48;2;83;121;2;84;36;2;83;120;2];
 [83;116;2;83;113;1;110;107;2;83;111;1;106;115;2;83];
 [104;1;110;105;2;83;110;1;110;104;2;83;115;2;83;112];
 [2;84;34;2;83;123;2;83;117;2;83;122;1;110;100;2];
 [83;114;2;84;39;2;83;105;2;83;106;2;84;35;1;110];
 [101;2;84;40;1;110;103;2;84;41;2;83;119;2;77;95];
 [2;83;125;2;83;118;2;84;33;2;83;124;5;80;85;3];
 [78;93;4;77;40;2;83;109;1;110;98;2;84;38;1;110];
 [99;2;83;107;1;110;102;2;90;50;2;83;126;2;84;37];
 [4;77;49;3;78;89;2;90;47;1;110;97;1;114;42;2];
 [90;57;2;90;53;4;83;60;2;90;51;2;90;46;2;90];
 [61;3;82;91;3;82;93;4;83;68;1;114;46;3;82;95];
 [2;90;42;2;90;54;2;90;55;2;90;45;2;90;44;2];
 [90;58;4;83;65;2;90;48;2;90;43;2;90;49;3;82];
 [98;2;90;60;2;90;41;2;90;59;2;90;56;1;114;44];
 [1;114;43;4;83;57;3;82;94;1;114;45;2;90;52;2];
 [90;40;3;102;69;3;102;68;2;95;39;1;117;60;2;95];
 [43;2;95;40;2;95;47;2;95;53;2;95;42;3;86;58];
 [2;95;62;1;117;57;2;95;56;2;95;45;2;95;57;2];
 [95;52;2;95;59;2;95;44;1;117;62;1;117;61;2;95];
 [46;2;95;60;2;95;38;2;95;58;1;117;55;3;86;57];
 [2;95;50;2;95;49;2;95;54;2;95;41;1;117;59;3];
 [86;59;1;117;63;2;95;48;2;95;55;1;117;64;2;95];
 [51;3;86;54;3;86;52;1;117;56;1;117;58;2;99;51];
 [2;99;49;3;91;40;3;88;118;2;99;55;2;99;53;2];
 [99;56;3;88;120;2;99;42;2;99;50;2;99;60;2;95];
 [61;2;99;46;1;119;58;2;83;108;2;99;41;2;99;54];
 [2;99;48;2;99;45;2;99;40;2;99;39;2;99;59;3];
 [88;115;2;99;44;2;99;43;1;119;56;2;99;52;3;88];
 [116;1;119;55;3;88;117;5;100;72;1;119;57;2;99;47];
 [2;99;58;3;102;70;2;102;105;2;102;106;3;91;44;1];
 [120;116;2;102;103;1;120;113;2;102;111;3;91;39;1;120];
 [117;2;102;113;2;102;102;2;99;57;2;102;115;2;102;104];
 [5;105;67;1;120;114;2;102;110;3;91;41;2;102;112;2];
 [102;107;2;102;114;2;102;109;2;102;108;1;120;115;3;88];
 [119;3;91;43;2;105;113;2;105;114;3;93;37;2;105;116];
 [1;122;57;1;122;58;2;105;117;2;105;115;3;93;36;2];
 [105;112;3;94;93;2;108;49;2;108;52;2;108;48;4;97];
 [38;1;123;39;2;108;50;1;123;38;1;123;37;1;123;36];
 [2;108;51;2;109;126;2;109;124;3;95;95;2;109;123;2];
 [108;47;2;109;125;2;108;53;2;109;122;3;96;69;2;111];
 [72;2;111;38;2;111;70;1;124;71;2;111;71;2;111;73];
 [3;102;71;2;112;77;1;124;102;2;112;76;2;112;75;1];
 [124;103;4;108;35;1;125;39;2;113;93;2;113;117;2;113];
 [116;2;113;118;1;72;102;2;45;75;3;47;38;2;50;113];
 [2;50;114;3;56;106;3;62;106;3;62;105;2;64;38;6];
 [78;79;2;108;54;2;112;78;1;72;103;1;83;79;2;45];
 [76;3;51;113;3;102;72;4;53;39;2;57;52;1;93;52];
 [2;64;40;2;64;39;1;97;121;3;68;77;1;102;76;2];
 [84;42;1;110;108;3;78;95;1;110;109;3;82;99;3;82];
 [100;4;83;75;1;114;47;1;124;104;1;72;104;3;47;39];
 [2;45;77;1;79;80;2;45;79;2;45;78;1;83;80;2];
 [50;115;3;51;116;2;50;122;1;88;46;2;50;120;2;50];
 [118;3;51;119;2;50;125;2;50;116;2;50;117;1;88;47];
 [3;51;114;1;88;51;3;51;115;3;51;117;2;50;126;1];
 [88;50;2;50;124;2;50;121;2;50;119;1;88;48;1;88];
 [49;2;50;123;3;51;118;3;102;73;1;93;54;2;57;53];
 [3;56;114;1;93;59;2;57;69;1;93;58;2;57;71;3];
 [56;110;3;56;116;2;57;59;1;93;56;2;57;70;3;56];
 [108;2;57;54;1;93;57;2;57;66;2;57;62;2;57;64];
 [2;57;58;2;57;65;3;56;107;4;53;47;1;93;53;2];
 [57;61;3;56;115;2;57;60;2;57;56;3;56;109;2;57];
 [67;3;56;111;3;56;113;2;57;63;2;57;55;3;56;112];
 [2;57;57;1;93;55;2;57;68;1;97;124;2;64;51;4];
 [58;123;3;62;112;3;62;114;2;64;47;2;64;49;2;64];
 [44;2;64;43;2;64;41;3;62;109;2;64;48;2;64;50];
 [2;64;46;3;62;111;2;64;45;1;97;122;1;97;123;2];
 [64;53;1;102;84;2;71;57;2;71;63;2;71;58;2;71];
 [59;3;68;78;2;71;64;5;66;108;1;102;86;4;64;97];
 [1;102;78;1;102;85;2;71;56;2;64;42;1;102;81;1];
 [102;79;2;71;62;2;71;61;1;102;80;1;102;82;2;71];
 [60;1;102;77;3;68;79;1;102;83;3;78;96;2;77;125];
 [1;106;124;3;73;89;3;73;82;2;78;42;2;78;41;3];
 [73;87;2;78;36;1;106;126;2;78;40;2;77;126;2;78];
 [33;1;106;118;1;106;120;3;73;84;2;78;38;2;77;124];
 [1;106;122;1;106;121;2;78;34;2;78;39;2;78;37;1];
 [106;123;2;78;35;3;73;81;3;73;86;2;64;52;1;106];
 [119;3;73;88;2;84;43;2;84;50;1;110;111;4;77;70];
 [2;84;54;1;110;115;2;84;46;2;84;44;4;77;62;2];
 [84;53;3;78;97;1;110;110;2;84;52;1;110;112;1;110];
 [113;2;84;45;1;110;114;2;84;51;2;84;47;2;84;48];
 [2;84;49;1;106;125;3;78;98;2;90;62;2;90;74;4];
 [83;83;1;114;52;2;90;69;2;90;71;3;82;101;1;114];
 [50;2;90;63;2;90;67;4;83;80;2;90;70;1;114;48];
 [1;114;51;2;90;73;2;90;65;2;90;66;2;90;72;2];
 [90;64;2;90;68;1;114;49;2;95;64;2;95;63;1;117];
 [66;2;95;69;1;117;68;3;86;64;4;88;98;1;117;65];
 [2;95;65;1;117;69;2;95;66;3;86;63;3;86;61;2];
 [95;67;2;95;70;3;86;66;1;117;67;2;99;65;3;88];
 [121;2;99;68;3;88;122;2;99;62;2;99;64;3;88;124];
 [3;88;123;2;99;63;2;99;66;2;99;67;2;95;68;2];
 [99;61;3;102;74;1;120;120;2;102;119;2;102;122;2;102];
 [124;2;102;117;2;102;118;2;102;121;2;102;123;1;120;121];
 [1;120;119;1;120;118;2;102;120;2;102;116;2;105;118;1];
 [122;59;3;93;41;2;105;119;3;93;40;2;108;56;1;123];
 [40;2;108;58;1;123;41;2;108;55;2;108;57;1;123;114];
 [5;116;56;2;110;33;1;123;113;2;111;76;2;111;75;4];
 [108;37;2;111;74;15;104;74;3;97;73;2;113;55;2;113];
 [56;2;113;58;2;113;57;3;97;125;2;34;112;1;72;105];
 [1;83;81;2;57;72;1;97;125;3;102;75;2;71;65;1];
 [119;59;3;91;47;2;102;125;3;96;70;3;97;74;1;75];
 [68;3;47;41;4;47;118;4;47;117;1;93;61;4;53;52];
 [3;56;118;3;56;117;1;93;60;3;56;119;2;64;54;1];
 [97;126;2;64;56;2;64;55;6;78;96;3;62;116;2;71];
 [66;1;102;87;2;78;43;2;78;46;2;78;45;4;71;53];
 [2;78;44;2;84;55;2;84;57;2;84;56;3;78;101;1];
 [114;54;3;82;102;4;83;89;3;78;100;1;114;53;3;86];
 [70;1;117;70;2;95;71;2;95;73;2;95;72;3;88;126];
 [3;88;125;1;119;60;3;89;33;4;97;47;3;91;49;2];
 [103;33;2;102;126;15;99;119;2;105;120;1;122;60;3;93];
 [42;3;94;97;1;123;42;2;110;35;2;110;34;1;125;40];
 [1;75;69;2;45;80;1;83;82;2;57;75;2;57;73;4];
 [53;57;4;53;56;2;57;74;2;64;58;2;64;59;2;71];
 [73;2;64;57;2;71;67;2;71;71;2;71;70;2;71;72];
 [1;102;88;2;71;69;2;71;68;2;71;74;3;68;84;2];
 [78;49;2;78;47;3;73;92;2;78;48;2;84;60;2;84];
 [58;3;78;102;2;84;59;2;90;75;2;95;74;2;95;75];
 [1;119;61;3;91;50;2;103;34;2;105;121;1;122;61;4];
 [97;55;2;108;59;2;110;36;1;123;115;4;105;69;2;111];
 [77;2;113;59;1;75;70;1;83;84;1;83;85;2;45;81];
 [3;47;42;3;47;44;2;45;82;1;83;83;4;47;124;1];
 [88;57;3;51;123;1;88;55;3;51;122;1;88;54;1;88];
 [61;1;88;53;1;88;62;2;51;33;1;88;59;4;47;125];
 [1;88;56;1;88;60;1;88;58;1;88;52;3;51;124;1];
 [93;69;3;56;126;1;93;63;2;57;79;1;93;68;3;57];
 [35;3;57;41;1;93;70;1;93;64;6;68;112;1;93;65];
 [3;56;121;2;57;77;3;56;123;3;57;37;1;93;62;3];
 [57;34;2;57;78;1;93;67;4;53;61;5;53;91;2;57];
 [76;1;93;66;3;56;122;1;98;43;3;62;124;1;98;45];
 [4;59;47;3;62;125;2;64;62;1;98;44;1;98;33;1];
 [98;37;3;63;36;1;102;107;2;71;79;2;64;64;1;98];
 [38;3;62;126;3;62;117;2;64;67;2;64;68;1;98;42];
 [4;59;48;2;64;70;3;63;33;2;64;72;3;63;35;2];
 [64;73;2;64;61;2;64;60;2;64;74;1;98;41;2;64];
 [71;2;64;69;4;59;44;1;98;39;1;98;35;1;98;46];
 [2;64;65;2;64;66;2;64;63;3;62;120;1;98;40;4];
 [59;49;3;63;34;1;98;36;1;98;34;2;71;78;1;102];
 [102;1;102;97;3;68;96;3;68;89;1;102;92;3;68;99];
 [1;102;108;1;102;93;3;68;85;1;102;89;1;102;104;1];
 [102;101;1;102;103;3;68;88;1;102;94;1;102;99;1;102];
 [90;1;102;91;2;71;86;2;71;83;2;71;75;2;71;80];
 [3;68;91;1;102;105;2;71;87;1;102;106;1;102;96;3];
 [68;92;3;68;97;2;71;77;3;68;86;2;71;85;2;71];
 [81;2;71;84;2;71;82;1;102;100;2;71;76;1;102;95];
 [3;68;93;2;78;52;1;107;34;1;107;37;3;73;95;2];
 [78;54;3;73;100;1;107;45;2;78;53;1;107;39;3;73];
 [99;1;110;120;2;78;55;4;71;69;1;107;44;2;78;51];
 [1;107;46;3;73;94;3;73;98;3;73;107;1;107;35;3];
 [73;104;1;102;98;1;107;38;3;73;96;1;107;36;1;107];
 [40;1;107;42;1;107;33;1;107;47;1;107;43;3;73;101];
 [1;107;41;2;78;50;3;73;102;15;76;65;3;78;116;1];
 [111;33;3;78;103;1;110;123;3;78;114;3;78;112;3;78];
 [110;1;111;36;3;78;108;2;84;63;1;111;37;2;84;75];
 [2;84;68;1;110;116;2;84;76;2;84;70;1;110;126;2];
 [84;71;3;78;115;1;110;125;2;84;74;1;110;119;2;84];
 [72;2;84;62;1;110;118;2;90;86;1;110;124;3;78;117];
 [1;110;121;3;78;105;1;111;35;3;78;106;2;84;61;3];
 [78;118;2;84;65;1;110;117;2;84;64;2;84;66;2;84];
 [67;1;111;34;2;84;69;2;84;73;2;84;77;1;111;38];
 [1;114;60;2;90;81;2;90;87;2;90;84;2;90;76;2];
 [90;88;2;90;77;3;82;106;2;90;83;3;82;107;1;114];
 [55;1;114;61;2;90;89;3;78;111;3;82;103;1;114;57];
 [3;82;110;1;114;67;1;114;62;2;90;91;2;90;85;1];
 [114;58;2;90;78;1;114;68;2;90;79;2;90;80;1;114];
 [69;1;114;66;1;110;122;3;82;105;1;114;56;2;90;92];
 [1;114;70;3;82;104;1;114;63;2;90;90;1;114;59;1];
 [114;64;1;114;65;3;102;76;1;117;78;2;95;80;2;95];
 [89;2;95;86;2;95;88;3;86;73;1;117;75;2;95;81];
 [3;86;74;2;95;87;1;117;71;2;95;83;1;117;79;2];
 [95;79;2;95;84;2;95;91;2;90;82;2;95;85;2;95];
 [78;1;117;72;2;95;77;1;117;73;2;95;92;1;117;74];
 [2;95;90;1;117;77;2;95;76;3;86;72;1;117;76;2];
 [95;82;2;99;71;2;99;85;2;99;80;2;99;82;2;99];
 [70;1;119;62;3;89;42;2;99;69;1;119;65;1;119;64];
 [3;89;38;2;99;84;2;99;76;2;99;73;2;99;79;3];
 [89;36;2;99;72;3;89;40;2;99;74;2;99;83;2;99];
 [81;3;89;35;1;119;63;2;99;88;2;99;86;2;99;77];
 [2;99;87;2;99;78;3;91;52;2;103;38;1;120;122;2];
 [103;45;3;91;53;4;97;58;2;108;62;1;121;35;2;99];
 [75;2;103;36;1;120;125;2;103;37;2;103;42;3;91;54];
 [3;93;51;1;121;33;1;121;34;2;103;35;2;103;44;2];
 [103;46;2;103;39;2;103;41;2;103;43;2;103;40;2;103];
 [47;1;120;124;1;121;36;1;120;126;1;120;123;2;105;124];
 [4;100;77;1;122;66;2;105;122;3;93;48;3;93;44;2];
 [105;126;3;93;50;2;106;33;1;122;64;2;106;34;2;105];
 [125;3;93;43;2;105;123;1;122;67;1;122;63;2;106;35];
 [3;93;46;1;122;65;1;122;62;3;92;109;4;103;59;1];
 [123;43;3;94;98;4;103;65;1;123;44;2;108;61;2;108];
 [60;2;108;63;2;108;64;3;94;99;1;123;45;2;110;37];
 [2;110;42;1;123;116;3;95;97;2;110;39;3;95;98;2];
 [110;38;2;110;41;2;110;40;3;96;72;2;111;81;4;106];
 [124;1;124;72;2;111;80;2;111;78;3;96;71;2;111;79];
 [3;96;73;3;96;123;1;124;106;1;124;105;2;112;79;2];
 [112;80;1;124;107;3;97;75;2;113;60;2;113;61;1;125];
 [52;3;97;107;1;125;58;3;97;126;2;113;119;2;114;54];
 [1;75;71;5;48;70;2;57;80;3;57;42;2;57;81;2];
 [71;88;2;78;56;2;84;78;1;117;81;3;86;77;1;117];
 [80;2;99;89;2;103;48;3;95;100;2;111;82;1;75;72];
 [2;51;34;1;88;63;1;93;71;2;71;90;2;71;89;1];
 [111;39;2;84;79;1;111;40;2;95;93;1;119;66;3;93];
 [52;3;102;77;3;98;33;1;125;67;1;75;73;2;40;107];
 [2;51;35;3;57;45;4;53;77;1;93;72;3;57;44;2];
 [57;82;2;57;83;3;63;42;2;64;75;3;63;41;1;98];
 [47;1;102;109;3;68;100;2;71;92;2;71;91;2;71;93];
 [3;73;109;2;78;57;2;78;58;1;107;48;1;114;71;1];
 [111;41;1;114;72;2;95;97;2;95;94;2;95;96;2;95];
 [95;1;117;82;3;89;43;2;99;90;2;103;50;2;103;49];
 [2;37;36;1;88;65;1;88;64;2;51;36;3;57;46;2];
 [57;84;3;63;44;3;63;43;2;64;77;2;64;76;1;98];
 [48;3;63;45;2;71;95;2;71;96;2;71;94;4;64;120];
 [3;68;101;1;102;111;1;102;110;4;71;84;1;107;50;1];
 [107;49;3;78;122;2;84;80;2;90;95;2;90;93;2;90];
 [94;1;114;73;2;95;99;2;95;98;3;86;79;2;99;93];
 [2;99;92;2;99;91;2;103;51;3;97;77;2;113;120;1];
 [75;74;1;83;86;3;47;46;1;83;87;1;88;66;1;88];
 [67;2;51;38;2;51;37;2;57;85;3;57;48;1;93;78];
 [1;93;76;1;93;73;1;93;77;1;93;75;1;93;74;3];
 [57;50;3;57;49;1;98;49;2;64;80;3;63;47;1;102];
 [116;1;98;51;1;98;56;2;64;82;1;98;58;1;98;57];
 [1;98;60;2;64;81;2;64;78;1;98;54;1;98;50;1];
 [98;52;2;64;79;1;98;59;1;98;55;1;98;53;1;102];
 [118;1;102;117;1;102;115;1;102;119;4;64;126;1;102;113];
 [1;102;114;3;68;105;1;102;112;5;67;45;2;71;97;3];
 [68;103;2;78;60;3;73;112;1;107;52;1;107;53;1;107];
 [51;3;73;114;2;78;59;3;73;113;2;78;61;3;102;78];
 [2;84;83;2;84;85;3;78;126;1;111;50;2;84;86;1];
 [111;43;2;84;82;1;111;42;1;111;52;1;111;48;1;111];
 [49;1;111;45;2;84;81;1;111;44;2;84;87;2;84;84];
 [3;78;125;1;111;51;3;79;34;1;111;46;1;111;47;2];
 [90;97;3;82;117;2;90;99;2;90;98;3;82;115;2;90];
 [100;1;114;74;2;90;96;3;86;81;3;86;82;1;117;86];
 [2;95;100;1;117;83;1;117;87;1;117;85;1;117;84;2];
 [99;94;4;93;105;2;99;97;7;67;82;2;99;96;3;89];
 [46;2;99;95;1;119;67;2;103;52;2;103;53;1;121;37];
 [2;103;54;1;121;38;3;91;56;3;102;79;1;122;69;4];
 [100;79;1;122;68;2;108;65;3;94;101;3;94;102;1;123];
 [46;2;108;66;2;110;43;1;123;117;1;123;118;3;102;80];
 [2;111;83;3;96;74;1;124;109;3;97;78;1;75;75;3];
 [57;51;1;93;80;1;93;79;2;71;98;2;71;99;1;107];
 [54;2;90;101;1;111;53;2;90;102;2;95;101;1;75;76];
 [3;36;58;2;45;83;1;83;89;1;83;88;2;51;39;1];
 [88;68;2;51;40;2;57;88;3;57;57;2;57;87;3;57];
 [55;2;57;86;3;57;53;3;57;56;2;64;84;1;98;63];
 [3;63;57;3;63;52;2;64;83;1;98;62;3;63;55;3];
 [63;48;3;63;51;2;64;85;1;98;61;3;63;56;2;71];
 [101;2;71;104;2;71;102;2;71;103;2;71;107;2;71;100];
 [2;71;108;2;71;105;2;71;106;1;107;56;2;78;62;3];
 [73;117;3;73;115;1;107;55;3;73;116;2;84;91;2;84];
 [89;3;79;38;4;77;117;1;111;54;2;84;88;2;84;90];
 [3;79;37;1;111;55;3;79;35;2;90;103;3;82;119;2];
 [90;104;1;117;88;3;89;49;2;103;56;2;103;58;2;103];
 [55;2;103;57;2;106;36;2;108;67;3;102;81;2;113;94];
 [1;75;77;1;83;90;2;51;41;2;51;43;2;51;42;2];
 [57;91;1;93;82;3;57;62;2;57;89;3;57;58;1;93];
 [81;2;57;92;3;57;61;2;57;93;2;57;90;6;69;56];
 [2;64;97;1;98;71;2;64;89;2;64;95;3;63;63;3];
 [63;58;1;98;66;1;98;69;2;64;88;1;98;64;2;64];
 [92;2;71;114;1;98;68;3;63;59;2;64;87;3;63;62];
 [2;64;93;2;64;90;2;64;96;2;64;86;2;64;94;1];
 [98;67;1;98;70;2;64;91;1;98;65;1;102;121;2;71];
 [110;1;102;120;2;71;117;2;71;116;1;103;33;1;103;34];
 [2;71;118;1;102;122;2;71;115;1;102;126;2;71;120;2];
 [71;111;3;68;107;2;71;113;1;102;123;2;71;109;2;71];
 [112;2;71;119;1;102;124;2;71;121;1;102;125;1;107;57];
 [2;78;67;2;78;73;2;78;65;2;78;74;3;73;123;2];
 [78;64;2;78;69;2;78;75;2;78;72;2;78;71;2;78];
 [70;3;73;122;2;78;63;2;78;68;3;73;121;2;78;66];
 [1;111;60;1;111;57;2;84;100;2;84;105;2;84;107;2];
 [84;104;2;84;97;2;84;99;2;84;109;2;84;106;2;84];
 [101;2;84;110;2;84;98;2;84;108;1;111;58;1;111;64];
 [1;111;62;2;84;92;1;111;63;1;111;59;2;84;93;2];
 [84;95;2;84;94;2;84;102;2;84;103;3;79;44;1;111];
 [61;3;79;43;1;111;56;2;84;96;2;90;114;1;114;76];
 [3;82;126;2;90;105;1;114;77;1;114;80;2;90;110;5];
 [81;72;2;90;107;1;114;79;4;84;41;3;82;123;2;90];
 [111;2;90;112;2;90;106;2;90;115;2;90;108;2;90;113];
 [1;114;78;3;82;124;1;114;75;2;90;109;3;86;84;2];
 [95;107;1;117;91;1;117;89;1;117;92;1;117;90;2;95];
 [106;2;95;103;2;95;102;3;86;85;2;95;105;4;89;45];
 [2;95;104;2;99;111;1;119;73;2;99;102;2;99;101;3];
 [89;50;1;119;68;2;99;107;2;99;106;2;99;98;2;99];
 [109;2;99;103;1;119;72;2;99;100;2;99;108;2;99;99];
 [1;119;69;1;119;71;2;99;104;1;119;70;2;99;105;3];
 [91;58;2;99;110;2;103;62;3;91;57;1;121;43;2;103];
 [59;4;97;82;2;103;63;3;91;59;4;97;79;1;121;40];
 [2;103;61;1;121;45;3;91;60;1;121;42;3;91;61;2];
 [103;60;4;97;84;1;121;44;2;103;64;1;121;39;1;122];
 [71;1;122;73;3;93;55;2;106;39;1;122;72;2;106;37];
 [1;121;41;2;106;38;1;122;70;1;123;47;1;123;49;2];
 [108;69;1;123;48;2;108;68;2;110;48;1;123;119;2;110];
 [47;1;123;120;2;110;45;2;110;44;2;110;49;2;110;50];
 [2;111;84;3;96;75;2;110;46;2;112;84;2;112;81;2];
 [112;82;2;112;83;1;125;41;3;97;80;2;113;64;2;113];
 [63;2;113;62;2;113;95;3;97;108;2;114;46;2;113;121];
 [1;125;59;1;75;78;1;88;69;3;57;63;15;56;108;3];
 [57;64;3;63;64;3;68;115;1;103;35;3;73;125;3;73];
 [124;3;79;48;3;79;50;3;79;47;3;79;49;1;111;65];
 [3;102;82;2;90;116;15;88;51;3;89;53;1;119;74;3];
 [89;54;2;103;65;3;91;63;4;97;86;3;93;56;4;103];
 [81;2;113;122;1;75;79;1;79;81;1;83;92;1;83;91];
 [5;48;85;1;88;72;3;52;33;2;51;44;1;88;70;2];
 [51;45;1;88;71;3;102;83;3;57;65;2;57;98;2;57];
 [94;3;57;71;4;53;99;1;93;83;2;57;97;2;57;96];
 [2;57;95;1;93;84;2;57;99;2;57;100;3;63;69;2];
 [64;104;2;64;102;2;64;106;2;64;107;2;64;113;3;63];
 [71;2;64;109;2;64;111;5;67;80;2;64;103;2;64;98];
 [4;59;85;2;64;110;3;63;68;3;63;70;2;64;112;2];
 [64;105;2;64;108;2;64;99;1;98;73;2;64;101;2;64];
 [100;1;98;72;1;98;74;3;63;73;1;103;38;2;71;123];
 [2;71;125;2;71;124;2;72;35;1;103;36;3;68;118;2];
 [71;126;2;71;122;2;72;33;2;72;34;1;103;37;1;103];
 [39;2;72;36;2;78;79;2;78;78;4;71;106;2;78;76];
 [2;78;77;1;107;59;1;107;61;1;107;58;1;107;60;2];
 [84;117;2;84;118;2;84;113;3;79;54;2;84;114;1;111];
 [67;1;111;72;1;111;66;1;111;73;1;111;68;2;84;115];
 [4;78;45;3;79;51;2;84;116;2;84;112;1;111;74;1];
 [111;70;3;79;53;4;78;43;1;111;69;1;111;71;3;79];
 [52;2;84;111;3;83;36;2;90;118;1;114;82;3;83;34];
 [3;83;33;2;90;120;1;114;84;2;90;123;2;90;119;2];
 [90;117;2;90;122;1;114;83;2;90;121;7;52;50;1;114];
 [81;3;83;37;3;86;89;1;117;94;1;117;97;2;95;109];
 [3;86;90;1;117;95;2;95;108;1;117;93;1;117;96;2];
 [99;112;2;99;113;2;99;114;1;119;75;3;89;55;2;99];
 [115;1;119;76;1;121;47;2;103;68;2;103;69;2;103;67];
 [2;103;66;2;103;70;1;121;46;2;106;43;2;106;41;2];
 [106;42;2;106;44;2;106;40;2;106;45;2;108;71;3;94];
 [103;2;108;72;2;108;70;1;123;50;2;110;51;1;123;121];
 [2;110;52;2;111;86;2;111;85;3;98;34;1;75;80;1];
 [98;75;3;63;75;3;68;119;1;103;40;3;68;120;3;74];
 [33;3;74;34;1;107;62;3;79;55;3;83;39;1;114;86];
 [3;83;38;1;114;85;3;102;84;3;89;56;1;121;48;1];
 [122;41;1;123;51;1;75;81;1;88;73;1;103;41;3;79];
 [57;2;103;71;3;39;47;4;33;84;15;33;106;4;35;48];
 [3;36;59;15;34;113;15;34;114;3;39;48;2;37;38;4];
 [37;33;3;39;51;1;75;82;4;37;35;1;75;85;1;75];
 [84;1;75;83;3;39;49;15;37;50;2;37;37;3;42;114];
 [2;40;109;3;42;112;2;40;111;1;79;82;3;42;116;4];
 [40;38;1;79;84;2;40;108;2;40;110;1;79;83;2;40];
 [113;2;40;112;2;40;114;3;42;115;3;42;113;15;40;113];
 [15;40;110;2;45;87;2;45;85;1;83;95;2;45;84;1];
 [83;100;1;83;97;1;83;94;3;47;49;1;83;101;3;47];
 [50;1;83;96;1;83;99;6;52;96;1;83;98;2;45;86];
 [3;47;51;1;83;93;3;47;48;1;88;79;2;51;47;2];
 [51;53;1;88;76;1;88;83;3;52;37;1;88;78;2;51];
 [50;2;51;52;1;88;81;2;51;46;2;51;49;1;88;77];
 [1;88;74;2;51;48;1;88;80;2;51;51;1;88;82;1];
 [88;75;4;48;47;3;52;39;3;52;38;2;57;102;2;57];
 [105;1;93;86;3;57;75;1;93;96;1;93;92;2;57;103];
 [3;57;74;3;57;78;1;93;100;1;93;93;1;93;98;1];
 [93;88;4;53;104;1;93;85;1;93;87;1;93;99;2;57];
 [104;1;93;91;1;93;94;1;93;90;1;93;95;2;57;106];
 [1;93;97;1;93;89;2;57;101;3;57;76;3;63;79;3];
 [63;80;3;63;77;3;63;76;3;63;81;2;64;114;1;98];
 [76;2;64;116;3;63;85;1;98;78;1;98;80;4;53;102];
 [2;64;115;1;98;77;1;98;81;3;63;86;1;98;79;3];
 [63;84;3;63;87;1;103;47;2;72;41;1;103;55;2;72];
 [38;3;68;125;1;103;56;1;103;45;3;68;121;2;72;39];
 [3;68;124;3;68;122;1;103;50;3;68;123;2;72;40;1];
 [103;43;1;103;42;3;68;126;1;103;53;1;103;52;1;103];
 [51;1;103;49;1;103;54;2;72;37;1;103;44;1;103;46];
 [1;103;48;1;107;64;1;107;67;3;74;36;1;107;71;1];
 [107;65;1;107;70;1;107;68;3;74;39;1;107;63;3;74];
 [38;1;107;69;1;107;66;15;76;107;4;78;50;2;84;122];
 [1;111;77;1;111;75;3;79;60;2;84;123;4;78;51;1];
 [111;78;1;111;76;2;84;121;2;84;120;3;79;59;1;114];
 [90;2;84;119;1;114;88;1;114;87;2;90;124;1;111;79];
 [1;114;89;2;90;125;1;114;92;2;90;126;1;114;91;1];
 [117;99;2;95;111;1;117;98;1;117;103;1;117;101;1;117];
 [102;1;119;78;1;117;100;2;95;110;2;91;33;1;119;77];
 [1;119;79;3;89;58;1;121;49;1;121;50;4;97;95;2];
 [106;46;4;105;82;1;124;74;1;124;73;1;75;87;3;34];
 [94;3;34;93;2;34;117;1;88;84;3;36;60;2;34;114];
 [2;34;115;2;34;113;3;36;61;2;34;116;3;102;85;2];
 [37;42;2;37;39;2;37;44;2;37;40;1;75;88;1;75];
 [91;3;39;53;2;37;41;1;75;90;2;37;43;3;39;57];
 [3;39;52;1;75;89;3;57;81;3;42;119;4;40;43;2];
 [40;117;2;40;119;1;79;87;2;40;115;2;40;118;2;40];
 [116;1;79;85;1;79;88;3;42;117;1;79;86;3;42;120];
 [3;47;53;2;45;89;2;45;93;2;45;90;3;47;56;1];
 [83;104;3;47;52;1;83;105;3;47;62;2;45;92;3;47];
 [55;2;45;94;2;45;96;3;47;60;1;83;102;2;45;95];
 [4;65;57;3;47;59;1;83;103;15;69;109;2;57;113;2];
 [45;91;2;51;54;2;51;63;2;51;61;2;51;56;2;51];
 [57;2;51;62;2;51;64;1;88;86;3;52;41;2;51;59];
 [2;51;55;1;88;85;1;88;87;2;51;58;2;51;65;2];
 [51;60;1;93;101;2;57;116;2;57;108;2;57;114;2;57];
 [115;1;93;102;3;57;79;2;57;107;2;57;109;2;45;88];
 [2;57;111;2;57;112;2;57;110;1;98;83;4;78;59;3];
 [57;82;2;64;123;2;91;34;2;64;124;2;64;121;1;93];
 [103;1;98;85;2;64;120;2;64;126;2;64;125;1;98;82];
 [2;65;35;2;64;119;2;65;34;2;64;117;2;65;33;2];
 [64;122;1;98;84;3;63;89;2;72;48;3;69;35;2;72];
 [43;2;72;49;2;72;44;2;72;42;2;72;45;1;103;57];
 [3;69;36;2;72;47;3;69;37;2;72;46;1;103;58;1];
 [107;73;1;107;72;2;78;86;2;78;89;2;78;81;2;78];
 [85;1;107;74;2;78;84;2;78;82;2;78;88;2;78;83];
 [2;78;80;2;78;87;3;74;42;2;85;35;1;111;82;2];
 [99;116;2;84;126;2;85;33;2;84;125;2;64;118;1;111];
 [81;2;85;36;2;84;124;1;111;80;1;111;83;2;85;34];
 [2;91;35;1;114;93;2;91;36;2;91;37;3;83;43;2];
 [95;112;1;117;104;2;99;117;2;99;118;3;89;60;3;89];
 [59;2;99;119;2;103;73;2;103;72;2;106;48;2;106;47];
 [2;108;74;2;108;75;2;108;73;2;110;53;1;123;122;1];
 [75;92;1;83;107;1;83;106;1;88;90;1;88;89;2;51];
 [67;2;51;68;2;51;66;3;52;42;1;88;88;2;57;120];
 [3;57;85;2;57;121;2;57;117;1;93;104;2;57;118;3];
 [57;84;2;57;119;3;102;87;2;65;38;2;65;40;2;65];
 [36;2;65;39;1;98;86;2;65;37;1;98;87;3;69;40];
 [2;66;121;1;103;61;1;103;60;3;69;39;1;103;59;4];
 [65;58;2;72;50;2;72;51;4;65;59;2;78;91;2;78];
 [93;1;107;78;1;107;75;3;74;44;1;107;77;1;107;76];
 [2;78;92;2;78;90;3;74;43;3;74;45;2;85;43;2];
 [85;40;2;85;41;1;111;87;2;85;42;2;85;37;2;85];
 [38;1;111;84;3;79;63;1;111;85;2;85;39;1;111;86];
 [3;79;64;2;91;41;3;83;45;2;91;42;2;91;39;2];
 [91;40;1;114;94;2;91;38;4;84;66;3;83;44;3;83];
 [47;4;89;63;2;95;116;2;95;113;2;95;115;1;117;107];
 [2;95;119;1;117;106;2;95;117;2;95;120;2;95;118;2];
 [95;114;1;117;105;2;99;121;4;94;36;2;99;122;2;99];
 [120;3;89;61;2;99;124;1;119;80;1;119;81;2;103;75];
 [1;121;52;2;99;123;2;103;74;1;121;51;2;106;51;2];
 [106;52;1;122;74;2;106;50;4;100;101;2;106;49;2;108];
 [76;1;123;52;3;94;104;2;111;87;2;112;86;2;112;85];
 [3;96;126;1;124;110;1;125;42;2;112;87;2;113;96;3];
 [97;109;1;125;60;1;75;93;1;79;89;1;103;62;1;122];
 [75;1;75;94;1;83;108;1;93;105;1;98;88;1;119;82];
 [1;79;90;2;45;98;2;45;97;2;51;69;3;52;48;1];
 [88;93;1;88;91;1;88;95;2;51;71;3;52;45;1;88];
 [94;1;88;92;3;52;47;3;52;46;3;52;49;2;51;70];
 [1;93;108;2;58;33;3;57;88;1;93;107;1;93;109;2];
 [58;38;1;93;111;2;58;35;2;58;36;2;57;122;1;93];
 [110;2;58;39;4;53;123;3;57;87;2;57;124;3;57;86];
 [2;57;125;2;57;123;1;93;106;3;57;89;2;58;37;2];
 [57;126;2;58;34;2;65;52;3;63;93;2;65;51;2;65];
 [49;2;65;41;2;65;56;2;65;44;2;65;54;2;65;61];
 [2;65;53;1;98;96;3;63;102;1;98;92;2;65;42;3];
 [63;96;2;65;48;1;98;94;3;63;104;2;65;47;1;98];
 [95;1;98;97;2;65;50;3;63;105;1;98;89;1;98;90];
 [2;65;62;2;65;60;3;63;98;2;65;59;2;65;45;3];
 [63;101;2;65;57;4;59;102;1;98;93;6;79;111;3;63];
 [94;3;102;89;3;63;99;1;98;91;2;65;58;2;65;43];
 [2;65;46;2;65;55;3;102;88;2;79;34;2;72;61;3];
 [69;46;2;72;54;2;72;73;2;72;82;2;72;57;1;103];
 [73;3;69;43;2;72;70;1;103;63;1;103;65;1;103;77];
 [2;72;55;3;69;55;3;69;47;1;103;66;1;103;68;1];
 [103;78;1;103;67;3;69;57;4;65;65;4;65;70;3;69];
 [56;1;103;76;2;72;63;4;65;72;2;72;52;1;103;74];
 [2;72;62;1;103;70;2;72;80;1;103;75;2;72;78;2];
 [72;66;2;72;76;1;103;72;2;72;53;2;72;79;2;72];
 [74;3;69;42;2;72;81;1;103;64;4;65;64;3;69;45];
 [1;103;79;1;103;69;3;69;49;3;69;41;2;72;59;3];
 [69;52;2;72;67;2;72;71;3;69;51;2;72;75;1;103];
 [71;2;72;58;2;72;56;2;72;68;4;65;66;4;65;67];
 [3;69;50;3;69;53;2;72;65;2;72;64;3;69;54;2];
 [72;69;2;72;72;2;72;77;3;102;90;15;69;114;4;71];
 [117;2;78;96;15;77;34;1;107;79;2;78;106;2;78;98];
 [1;107;85;1;107;89;2;78;115;2;78;123;2;78;108;1];
 [107;81;3;74;52;2;78;112;2;72;60;3;74;53;1;107];
 [82;2;78;119;2;78;124;2;78;116;3;74;47;2;78;118];
 [2;79;33;2;78;120;2;78;102;2;78;111;3;69;48;3];
 [74;56;1;107;90;3;74;51;1;107;86;2;78;100;2;78];
 [113;1;107;84;2;78;107;1;107;83;2;78;121;2;78;104];
 [2;78;97;1;107;87;2;78;126;3;74;57;4;71;119;2];
 [78;99;2;78;117;2;78;114;2;78;109;2;78;95;2;78];
 [94;2;78;103;2;78;122;1;107;88;2;78;125;2;78;101];
 [2;78;105;1;107;80;3;74;50;3;74;55;15;77;39;3];
 [103;42;3;74;49;1;111;99;1;111;94;2;85;77;2;85];
 [73;2;85;49;1;111;90;3;79;66;3;79;80;4;78;69];
 [1;111;89;1;111;95;4;78;71;3;79;67;3;79;65;2];
 [85;47;1;111;93;2;85;59;2;85;45;2;85;46;1;111];
 [88;2;85;76;1;111;97;2;85;62;2;85;67;2;85;61];
 [2;91;60;2;85;57;2;85;65;2;85;63;2;85;50;2];
 [85;44;2;85;71;1;111;96;2;85;72;3;79;72;2;85];
 [66;3;79;73;2;85;55;2;85;53;2;85;48;3;79;75];
 [3;79;78;3;79;68;2;85;56;2;85;69;2;85;52;2];
 [85;68;2;85;74;3;79;81;4;78;70;1;111;92;3;79];
 [69;2;85;64;2;85;70;2;85;60;2;85;54;1;111;91];
 [3;79;82;4;78;68;3;79;76;2;78;110;2;85;58;1];
 [111;98;2;85;51;15;82;107;3;79;77;3;102;91;3;102];
 [92;3;74;48;2;91;65;1;114;97;2;91;64;2;91;62];
 [2;91;80;1;114;101;3;83;53;2;91;77;2;91;69;2];
 [91;79;2;91;55;2;91;67;3;83;61;1;114;103;3;83];
 [62;2;91;47;3;83;56;2;91;45;2;91;78;3;83;50];
 [2;91;76;2;91;75;2;91;59;2;91;58;2;91;48;1];
 [114;105;4;84;67;2;91;54;2;91;63;2;91;74;1;114];
 [108;2;91;81;3;83;54;1;117;115;1;114;110;1;114;104];
 [2;91;52;3;83;55;2;91;61;2;91;44;2;91;46;1];
 [114;95;1;114;107;1;114;100;2;91;53;2;91;68;2;85];
 [75;1;114;106;2;91;43;1;117;110;2;91;70;2;91;73];
 [1;114;102;3;83;59;2;91;57;1;114;109;1;114;99;3];
 [83;60;3;83;57;3;83;58;1;114;98;2;91;66;2;91];
 [72;1;114;96;4;84;69;2;91;50;2;91;71;15;88;89];
 [15;88;72;2;91;51;7;52;99;3;102;93;15;88;85;3];
 [102;94;4;84;73;3;83;49;2;91;56;2;95;126;3;86];
 [101;2;96;37;1;117;112;1;117;114;2;96;43;1;117;108];
 [2;96;57;2;96;49;2;96;38;2;96;39;2;96;48;3];
 [86;102;1;117;121;2;96;47;2;95;125;2;96;46;2;96];
 [34;2;96;58;1;117;120;1;117;118;2;96;35;3;86;93];
 [2;96;54;3;86;103;2;96;40;2;96;53;3;86;100;2];
 [96;55;2;95;124;1;117;113;3;86;91;2;96;56;3;86];
 [104;3;86;94;2;96;44;3;86;107;1;117;117;2;96;41];
 [3;86;97;4;89;73;1;117;119;2;96;50;3;86;98;3];
 [86;99;3;86;95;1;117;111;2;96;36;2;96;51;3;86];
 [92;2;96;45;2;91;49;2;96;52;2;96;33;3;86;96];
 [1;117;116;3;86;106;2;100;47;4;89;71;1;117;109;2];
 [95;122;4;89;70;15;93;65;3;102;95;15;93;57;2;100];
 [44;2;100;37;1;119;84;3;89;67;2;99;126;2;100;48];
 [2;100;39;2;96;42;3;89;64;2;100;50;2;100;33;3];
 [89;66;1;119;83;2;100;43;1;119;85;1;119;93;1;119];
 [91;2;100;45;1;119;92;2;100;35;3;89;73;2;100;36];
 [2;100;41;2;100;46;3;89;62;2;95;121;1;119;86;2];
 [100;55;2;100;52;2;103;97;2;100;42;2;100;38;2;100];
 [53;2;103;86;2;100;40;4;94;49;1;119;89;3;89;68];
 [1;119;88;2;95;123;1;119;90;2;100;49;2;100;51;1];
 [119;87;2;100;54;2;99;125;4;94;41;2;100;34;3;89];
 [70;15;97;51;3;89;69;3;102;97;3;102;98;3;102;96];
 [15;97;67;2;103;95;3;91;80;2;103;79;1;121;56;2];
 [103;93;3;91;68;3;91;69;2;103;77;1;121;57;4;97];
 [103;2;103;88;3;91;67;2;103;84;1;121;62;2;103;94];
 [2;103;78;2;103;81;1;121;54;2;103;96;3;91;72;2];
 [103;89;2;103;92;1;121;60;1;121;65;1;121;63;2;103];
 [85;2;103;80;3;91;77;1;121;58;1;121;59;2;103;76];
 [1;121;55;3;91;79;1;121;53;1;121;61;2;103;91;1];
 [121;64;3;91;74;2;103;87;2;103;98;1;121;66;3;91];
 [65;3;91;66;3;91;78;2;103;83;3;91;71;2;103;90];
 [3;102;101;3;102;99;3;102;100;3;93;65;3;94;106;2];
 [106;65;2;106;80;2;106;67;2;106;74;2;103;82;2;106];
 [72;2;106;55;2;106;78;1;122;78;2;106;59;2;106;77];
 [2;106;66;4;100;103;3;93;67;1;122;77;3;93;60;3];
 [93;63;2;106;82;2;106;68;3;93;62;2;106;73;2;106];
 [76;2;106;53;2;106;79;2;106;64;2;106;69;2;106;57];
 [2;106;61;2;106;81;2;106;71;2;106;54;2;106;58;2];
 [106;60;2;106;70;3;93;61;1;122;76;2;106;63;3;93];
 [68;3;93;69;3;93;71;4;100;107;3;93;66;3;93;58];
 [2;106;56;3;102;102;3;102;103;3;102;104;15;102;87;3];
 [93;70;2;106;62;2;108;80;2;108;84;1;123;59;2;108];
 [86;3;94;109;1;123;53;4;100;111;2;108;82;2;108;88];
 [1;123;58;1;123;54;4;103;92;1;123;55;2;108;79;2];
 [108;85;1;123;57;2;108;83;1;123;56;2;108;78;2;106];
 [75;2;108;81;4;103;98;2;108;77;2;108;87;3;95;105];
 [3;95;110;1;123;123;2;110;60;2;110;63;2;110;59;2];
 [110;61;2;110;62;2;110;56;2;110;57;2;110;54;3;95];
 [106;3;95;108;2;110;58;2;110;55;1;123;124;1;123;125];
 [3;95;107;2;111;89;3;96;82;2;111;91;4;107;41;5];
 [118;93;3;96;85;3;96;84;3;96;86;2;111;90;2;111];
 [92;3;96;79;1;124;76;3;96;83;2;111;88;1;124;75];
 [1;124;77;3;96;87;3;102;106;3;102;105;2;112;89;2];
 [112;90;1;124;111;2;112;88;3;97;34;2;113;66;2;113];
 [65;2;113;67;1;125;44;2;113;68;1;125;43;2;113;69];
 [2;113;97;2;113;100;2;113;99;1;125;53;2;113;98;4];
 [109;98;3;97;111;3;98;35;1;125;63;1;125;61;1;125];
 [62;1;125;68;2;114;48;2;114;49;2;114;47;2;114;55];
 [3;98;54;1;79;91;4;37;43;4;48;58;2;58;40;2];
 [65;63;2;85;78;2;103;99;5;113;86;1;79;92;3;47];
 [64;1;83;109;1;88;96;4;48;59;3;52;50;2;58;41];
 [3;57;92;2;58;42;1;93;112;1;98;100;2;65;65;2];
 [65;64;1;98;104;1;98;99;2;65;66;1;98;101;1;98];
 [103;1;98;102;1;98;98;3;63;108;15;63;126;3;102;107];
 [1;103;80;3;69;60;3;69;58;2;72;86;2;72;84;4];
 [65;83;2;72;85;2;72;83;15;69;123;1;107;91;3;74];
 [61;1;107;94;1;107;96;1;107;95;4;72;34;3;74;62];
 [1;107;92;1;107;93;2;85;80;2;85;79;1;111;100;2];
 [85;81;3;79;83;2;85;82;1;111;101;3;79;85;3;79];
 [86;4;78;74;2;91;89;2;91;87;2;96;64;3;83;66];
 [2;91;85;2;91;86;1;114;111;2;91;82;2;91;90;2];
 [91;84;2;91;88;2;96;60;3;83;68;3;83;64;2;96];
 [62;3;86;109;2;96;63;1;117;126;2;96;59;1;117;125];
 [2;96;61;1;117;122;1;117;123;1;117;124;2;91;83;3];
 [102;108;1;119;96;2;100;58;2;100;56;2;100;57;1;119];
 [94;1;119;97;1;119;95;3;89;75;3;89;74;7;75;64];
 [2;103;100;2;103;101;1;121;67;3;91;83;2;106;83;2];
 [106;85;2;106;84;1;122;79;1;123;60;2;108;91;2;108];
 [90;2;108;89;15;104;114;3;102;109;15;37;57;1;79;93];
 [3;33;67;2;33;105;2;34;120;1;72;106;2;34;118;2];
 [34;121;2;34;119;4;37;46;3;39;59;3;39;58;2;37];
 [46;3;39;63;1;75;98;3;39;60;1;75;99;2;37;48];
 [1;75;96;2;37;47;2;37;45;1;75;97;1;75;95;3];
 [39;61;3;39;62;3;42;121;4;40;51;2;40;120;2;40];
 [123;1;79;96;2;40;122;2;40;121;3;42;124;1;79;95];
 [1;79;94;3;42;123;1;79;98;2;40;124;1;79;97;2];
 [45;103;1;83;111;1;83;112;1;83;113;2;45;104;2;45];
 [100;1;83;110;2;45;101;4;43;93;2;45;102;2;45;99];
 [4;43;91;3;52;54;4;48;63;1;88;103;3;52;52;3];
 [57;94;1;88;100;2;51;72;1;88;101;1;88;104;2;51];
 [73;3;52;51;1;88;99;1;88;97;1;88;98;1;88;102];
 [1;93;113;2;58;45;1;93;121;2;58;44;3;57;97;2];
 [58;47;1;93;117;2;58;46;1;98;112;1;93;115;1;93];
 [118;1;93;114;1;93;119;1;93;120;1;93;116;3;57;101];
 [3;63;113;2;58;43;1;98;108;2;65;68;3;63;114;2];
 [65;72;3;63;115;3;63;117;2;65;71;1;98;113;1;98];
 [109;1;98;110;2;65;67;2;65;69;2;65;70;1;98;105];
 [1;98;107;3;63;112;1;98;111;1;98;106;3;69;64;2];
 [72;89;2;72;87;2;72;88;1;103;82;1;103;83;3;69];
 [66;2;72;90;1;103;81;1;107;97;4;72;36;1;107;99];
 [1;107;98;3;74;69;2;79;35;3;74;70;3;74;68;2];
 [79;36;2;85;84;3;79;90;2;85;83;3;79;91;4;84];
 [82;1;114;112;1;114;113;2;91;91;1;114;114;3;83;72];
 [2;96;67;3;86;112;2;96;65;3;86;111;2;96;66;1];
 [118;33;3;86;113;2;100;59;1;121;68;3;93;73;3;42];
 [125;3;83;73;1;118;34;1;79;99;4;48;65;1;88;105];
 [2;51;74;3;52;57;15;50;111;2;58;48;1;93;122;1];
 [98;114;2;65;73;2;65;75;1;98;116;1;98;115;1;98];
 [117;1;98;118;2;65;74;1;103;86;1;103;87;1;103;85];
 [1;107;100;1;103;84;2;72;91;4;65;87;3;74;71;3];
 [74;73;1;107;101;2;85;85;2;91;92;1;114;115;1;118];
 [35;2;100;60;2;100;64;1;119;100;2;100;61;1;119;101];
 [1;119;99;2;100;65;1;119;102;2;100;63;2;103;102;1];
 [119;98;1;121;69;3;94;112;2;112;91;3;97;37;3;98];
 [47;1;79;100;1;93;124;1;93;123;15;57;42;3;63;126];
 [3;63;124;3;63;123;1;98;119;2;65;77;2;65;76;1];
 [98;120;3;69;70;2;72;95;1;103;91;1;103;88;2;72];
 [94;1;103;90;2;72;92;1;103;89;3;69;71;2;72;93];
 [2;79;37;1;107;102;2;85;88;5;82;59;1;111;102;2];
 [85;86;1;111;103;1;111;104;2;85;87;1;111;105;3;79];
 [96;2;91;93;3;83;80;1;114;119;1;114;116;1;114;121];
 [2;91;95;1;114;117;2;91;94;1;114;120;3;83;77;3];
 [83;76;1;114;118;3;83;81;2;96;70;2;96;72;3;86];
 [116;3;86;117;1;118;36;2;96;71;1;118;37;2;96;69];
 [2;96;68;4;94;56;2;100;67;2;100;66;1;119;103;2];
 [100;68;2;103;107;1;121;71;2;103;106;2;103;103;1;121];
 [70;2;103;104;2;103;105;2;106;86;2;106;87;1;122;80];
 [3;93;79;1;123;63;3;93;76;3;93;78;2;108;92;3];
 [94;114;3;94;113;1;123;61;1;123;62;2;108;93;3;102];
 [110;3;95;113;1;123;126;1;124;33;2;110;64;3;95;114];
 [3;96;89;1;124;112;2;112;93;1;124;114;3;97;38;2];
 [112;92;2;112;94;1;124;113;2;113;70;4;109;100;2;113];
 [123;3;102;111;3;98;69;3;42;126;1;79;101;3;69;73];
 [1;103;92;4;72;53;2;79;38;3;74;76;2;85;89;1];
 [114;122;1;114;123;3;89;79;1;79;102;3;64;33;1;111];
 [106;1;121;72;1;83;114;3;43;33;3;74;78;1;114;124];
 [3;94;115;1;124;78;1;83;115;2;58;49;4;59;119;2];
 [65;78;3;64;36;2;65;80;3;64;34;2;65;79;2;72];
 [99;2;72;96;1;103;93;6;90;36;1;103;94;2;72;97];
 [2;72;98;3;69;75;2;79;40;2;79;45;1;107;103;2];
 [79;39;2;79;41;2;79;48;2;79;43;2;79;47;2;79];
 [44;2;79;42;2;79;46;1;107;104;3;79;98;2;85;92];
 [3;79;99;2;85;90;1;111;108;3;79;100;1;111;107;2];
 [85;91;1;111;109;3;83;83;2;91;98;4;84;95;4;84];
 [103;2;91;97;1;114;125;2;91;96;2;96;73;3;86;122];
 [2;96;75;2;96;77;2;96;76;3;86;123;1;118;38;2];
 [96;74;2;100;75;1;119;104;2;100;73;2;100;76;1;119];
 [105;4;94;67;2;100;71;3;89;80;2;100;74;2;100;72];
 [2;100;69;1;119;106;2;100;70;4;97;124;3;91;95;3];
 [91;93;2;103;108;3;91;94;3;91;96;2;103;110;2;103];
 [109;3;93;80;2;106;88;3;93;81;2;106;89;4;103;113];
 [3;94;117;3;94;116;2;108;94;3;95;115;1;124;35;4];
 [105;94;1;124;34;2;111;93;2;111;94;1;124;115;2;112];
 [95;3;97;40;1;125;54;3;98;59;1;83;116;1;98;121];
 [2;79;50;2;79;49;2;85;94;2;85;93;4;78;87;3];
 [83;85;1;118;39;2;96;79;2;96;78;2;100;79;2;100];
 [77;2;100;80;2;100;78;3;89;81;4;101;41;1;121;73];
 [2;103;111;2;103;112;2;103;113;4;101;39;2;108;95;3];
 [94;118;2;110;65;3;97;41;2;112;96;1;83;117;3;69];
 [79;3;79;101;2;91;99;2;96;80;3;91;97;1;83;118];
 [4;65;99;3;69;80;1;107;105;4;72;70;2;91;100;1];
 [119;107;2;100;81;1;121;74;3;93;83;2;106;90;2;106];
 [91;1;123;64;2;111;95;1;83;119;1;94;33;1;94;34];
 [2;58;50;1;98;122;1;98;123;2;65;81;1;98;124;4];
 [65;104;1;103;98;3;69;82;1;103;100;2;72;101;2;72];
 [102;2;72;100;1;103;95;1;103;96;1;103;99;1;103;97];
 [3;74;84;3;74;85;2;79;51;1;107;106;1;107;107;3];
 [74;82;3;74;86;2;85;101;1;111;112;2;85;96;2;85];
 [95;3;79;105;2;85;100;1;111;110;3;79;103;4;78;90];
 [1;115;38;4;84;112;2;85;97;2;85;102;2;85;99;2];
 [85;98;3;79;102;1;111;111;1;115;36;3;83;92;2;91];
 [102;1;114;126;3;83;89;2;91;103;3;83;90;3;82;40];
 [2;91;101;3;83;88;1;115;35;1;115;33;1;115;37;3];
 [83;93;1;115;34;3;83;91;3;83;95;4;94;79;3;89];
 [91;3;87;38;2;96;81;4;89;112;2;96;86;2;96;82];
 [2;96;85;1;118;40;3;87;40;2;94;65;2;96;84;2];
 [96;83;3;89;89;1;119;110;1;119;108;1;119;111;1;119];
 [109;2;100;82;2;100;83;2;100;84;1;119;112;3;89;86];
 [3;89;88;3;91;101;2;103;117;1;121;76;2;103;115;4];
 [98;48;1;121;77;2;103;114;2;103;116;1;121;75;2;106];
 [95;2;106;92;4;101;44;2;106;93;2;106;94;2;108;96];
 [1;123;66;3;94;120;1;123;65;3;94;119;2;110;67;2];
 [110;66;1;124;36;3;96;93;3;96;94;3;96;92;1;124];
 [79;1;124;116;1;125;45;2;113;71;2;113;124;2;113;125];
 [1;83;120;2;65;82;4;65;113;2;72;103;2;79;52;2];
 [79;53;1;107;108;4;72;87;1;107;109;2;85;103;1;111];
 [113;3;83;97;1;118;41;3;87;42;2;100;85;3;89;92];
 [1;119;113;2;103;120;1;121;78;2;103;119;2;103;121;2];
 [103;118;2;108;99;2;106;96;2;106;97;3;93;86;1;122];
 [81;2;108;98;3;94;123;3;94;121;2;108;97;3;94;122];
 [2;110;68;2;113;126;3;98;37;1;83;121;3;94;124;3];
 [98;38;1;83;122;3;57;103;1;88;106;2;51;75;3;102];
 [112;2;58;51;3;57;104;1;98;125;1;99;34;1;98;126];
 [2;65;83;3;69;91;1;99;36;1;99;33;3;64;43;3];
 [69;92;1;99;35;3;69;84;1;103;102;3;69;89;2;72];
 [104;3;69;87;3;74;93;2;72;105;2;85;105;4;65;123];
 [1;103;101;1;103;103;1;103;104;3;69;88;2;79;55;3];
 [74;94;2;79;54;1;107;110;5;75;76;1;107;111;3;74];
 [91;2;79;56;2;85;104;1;107;113;1;111;114;4;78;99];
 [1;107;112;3;102;122;1;115;39;2;85;106;1;111;116;1];
 [111;115;2;85;107;2;85;110;2;85;108;2;85;109;1;111];
 [117;3;79;107;1;115;44;1;115;42;3;83;101;3;83;102];
 [1;115;41;2;91;105;3;83;100;1;115;43;3;83;98;3];
 [83;99;2;91;104;2;96;87;4;84;126;2;91;106;1;115];
 [40;2;91;107;2;96;90;2;96;88;2;96;89;2;96;94];
 [1;119;117;2;96;93;2;96;96;2;96;95;2;96;92;2];
 [96;91;4;85;33;1;118;42;3;89;98;4;90;41;3;89];
 [97;3;89;102;2;100;88;3;89;101;2;100;87;1;119;116];
 [1;119;114;1;119;115;3;89;99;2;100;86;3;102;113;2];
 [103;124;3;91;105;1;121;79;4;98;56;2;103;123;2;103];
 [122;1;121;80;4;101;58;2;106;102;2;106;101;3;93;88];
 [2;106;99;3;94;126;2;106;98;1;122;83;1;122;82;2];
 [106;103;2;110;69;1;124;37;2;108;101;1;123;67;2;108];
 [100;2;106;100;3;95;120;2;110;70;1;124;80;3;97;42];
 [1;125;46;2;113;72;4;110;36;2;114;33;1;83;123;2];
 [58;52;2;96;97;1;83;124;3;69;95;5;75;78;2;79];
 [58;2;79;57;2;91;108;5;90;38;3;83;104;2;96;99];
 [3;87;48;2;96;98;3;89;103;1;119;118;2;103;125;2];
 [103;126;1;122;84;3;95;33;3;96;96;2;114;34;1;88];
 [107;1;99;38;1;99;37;2;72;106;2;72;108;1;103;106];
 [2;72;107;1;103;105;1;103;107;2;72;109;3;74;99;3];
 [74;98;3;74;102;2;79;60;2;79;62;2;79;61;3;74];
 [97;2;79;64;3;74;96;3;74;108;3;74;100;1;107;114];
 [2;79;63;2;79;59;3;74;106;4;72;96;2;79;65;3];
 [79;115;2;85;117;3;79;109;2;85;120;2;85;122;2;85];
 [112;2;85;116;2;85;113;1;111;119;1;111;122;1;111;124];
 [2;85;114;2;85;115;1;111;123;2;85;118;2;85;121;2];
 [85;119;1;111;125;3;79;110;1;111;121;2;85;111;1;111];
 [118;3;79;114;1;111;120;3;79;116;3;83;112;1;115;46];
 [2;91;114;2;91;112;2;91;111;3;83;113;2;91;117;3];
 [83;107;2;91;116;2;91;115;3;83;108;2;91;110;1;115];
 [45;2;91;109;3;83;106;2;91;113;1;115;47;3;87;52];
 [2;96;102;3;87;55;2;96;106;2;96;103;2;96;105;2];
 [96;104;2;96;101;2;96;107;2;96;110;2;96;108;2;96];
 [109;1;118;44;3;87;51;1;118;43;2;96;100;2;96;111];
 [2;100;93;2;100;96;2;100;98;2;100;97;3;89;106;2];
 [100;91;2;100;95;2;100;90;3;89;107;2;100;92;1;119];
 [119;2;100;89;3;89;109;2;100;94;2;104;45;2;104;34];
 [1;121;81;3;91;111;3;91;109;1;121;82;2;104;33;2];
 [104;38;2;104;44;2;104;36;2;104;43;3;91;108;2;104];
 [40;3;91;110;2;104;39;2;104;42;2;104;37;2;104;35];
 [3;91;107;2;104;41;2;106;110;2;106;108;1;122;85;2];
 [106;107;2;106;113;2;106;111;3;93;90;1;122;86;2;106];
 [106;2;106;104;4;101;70;2;106;105;1;122;88;2;106;109];
 [1;122;87;2;106;112;2;108;102;2;108;108;3;95;36;3];
 [95;34;2;108;103;1;123;71;2;108;109;1;123;70;2;108];
 [107;2;108;106;1;123;69;2;108;105;1;123;68;2;108;104];
 [7;86;81;2;110;76;2;110;78;2;110;77;4;105;106;2];
 [110;74;1;124;39;2;110;71;2;110;75;2;110;80;3;95];
 [121;2;110;79;2;110;72;2;110;73;1;124;38;2;111;96];
 [1;124;83;3;96;98;2;111;97;1;124;81;1;124;82;3];
 [96;97;4;108;61;2;112;97;1;124;117;2;113;101;3;97];
 [114;1;125;55;3;97;115;2;114;35;1;125;56;2;114;36];
 [2;114;37;2;114;51;2;114;50;1;125;71;2;114;59;1];
 [88;108;3;64;47;4;66;33;2;72;111;4;65;125;2;72];
 [110;4;65;126;1;107;115;1;107;116;2;79;66;4;78;116];
 [2;85;123;2;91;120;3;79;119;3;79;118;1;111;126;1];
 [115;48;2;91;118;4;85;49;2;91;121;1;115;49;3;87];
 [58;2;96;112;2;91;119;2;100;99;1;119;120;2;104;46];
 [4;98;73;3;93;97;2;106;116;2;106;114;3;93;96;3];
 [93;94;2;106;115;2;108;110;3;95;37;1;123;72;2;110];
 [81;1;124;86;1;124;40;1;124;84;1;124;85;2;112;98];
 [1;125;47;3;97;116;1;88;109;4;54;45;3;74;110;4];
 [78;121;2;100;100;3;95;123;3;96;99;2;51;76;3;64];
 [50;1;103;108;3;69;97;2;79;67;3;74;111;3;74;115];
 [1;107;117;2;79;68;3;74;113;3;74;112;3;74;114;2];
 [85;125;2;85;124;1;115;51;1;112;33;1;112;34;4;79];
 [33;2;86;34;2;86;33;2;85;126;3;79;121;3;83;117];
 [2;91;122;2;91;125;3;83;116;2;91;124;2;91;123;1];
 [115;50;2;96;116;2;96;114;2;96;113;4;90;55;3;87];
 [59;2;96;115;3;87;60;1;119;121;2;100;102;2;100;103];
 [1;119;122;3;89;111;2;100;101;3;91;113;2;104;48;2];
 [104;47;2;104;50;1;121;83;2;104;49;4;98;79;2;106];
 [117;2;106;119;2;106;118;3;95;39;2;108;111;2;108;114];
 [2;108;112;2;108;113;2;110;82;1;124;41;4;105;116;4];
 [105;113;3;102;114;2;111;98;2;111;99;2;111;100;3;97];
 [44;1;124;118;1;125;48;2;114;38;1;88;110;3;74;117];
 [1;112;35;1;115;52;2;100;104;3;93;98;2;110;83;3];
 [97;46;4;109;55;2;113;102;2;51;77;3;98;40;1;125];
 [72;1;88;111;2;91;126;3;87;62;2;100;105;2;104;51];
 [3;93;99;4;104;54;2;108;115;2;110;84;1;88;112;3];
 [69;98;2;79;69;2;79;70;3;74;120;1;107;118;1;107];
 [119;2;86;36;1;112;37;1;112;36;2;86;35;2;96;117];
 [3;87;63;2;100;106;2;100;108;2;100;107;1;119;125;1];
 [119;124;1;119;123;3;93;100;1;123;74;2;108;116;3;95];
 [40;1;123;73;2;110;86;2;110;85;3;97;47;1;124;119];
 [2;112;99;1;94;35;2;72;112;4;66;41;3;69;99;2];
 [79;73;2;79;71;2;79;72;4;72;107;3;79;126;2;86];
 [45;4;79;48;2;86;40;2;86;37;2;86;44;3;79;124];
 [4;79;53;3;79;123;2;86;46;4;79;55;4;79;44;1];
 [112;39;2;86;43;2;86;39;3;79;125;4;79;42;2;86];
 [38;2;86;42;2;86;41;1;112;38;15;83;62;2;92;43];
 [2;92;38;2;92;36;2;92;45;2;92;37;4;85;71;2];
 [92;33;4;85;67;2;92;39;3;83;120;3;83;122;2;92];
 [34;2;96;126;2;92;35;2;92;46;3;84;35;4;85;69];
 [3;83;124;3;84;33;5;90;74;3;84;37;3;83;125;2];
 [92;42;1;115;53;2;92;41;2;92;40;3;83;121;2;92];
 [44;15;89;56;3;102;115;3;87;68;2;96;118;2;96;121];
 [4;90;73;3;87;69;2;96;120;3;87;64;2;97;34;2];
 [96;123;2;97;33;3;87;66;2;96;125;2;96;124;2;96];
 [122;4;90;65;2;96;119;4;90;63;1;118;47;1;118;46];
 [4;90;68;1;118;48;1;118;45;2;97;35;4;90;69;15];
 [93;118;4;90;67;2;100;114;2;100;117;4;95;38;2;100];
 [115;2;100;119;5;102;121;3;89;116;4;95;34;2;100;120];
 [4;95;42;2;100;112;1;120;36;2;100;113;3;89;115;2];
 [100;111;2;100;118;3;91;116;2;100;110;2;100;109;1;120];
 [35;1;120;33;1;119;126;3;89;118;3;89;117;3;87;67];
 [15;97;114;3;89;113;2;100;116;2;104;60;2;104;66;1];
 [121;86;2;104;61;5;107;51;2;104;64;2;104;68;1;121];
 [87;2;104;63;4;98;92;2;104;55;3;91;117;2;104;54];
 [2;104;67;2;104;58;3;91;119;2;104;56;2;104;65;2];
 [104;57;1;121;85;1;121;84;3;91;121;2;104;52;2;104];
 [53;2;104;62;4;98;102;3;91;122;4;98;104;2;104;59];
 [15;100;107;4;98;85;3;93;111;2;106;122;2;106;125;3];
 [93;113;4;98;86;3;93;103;3;93;105;1;120;34;3;93];
 [106;3;93;116;3;93;117;4;101;90;3;93;110;4;101;89];
 [3;93;104;2;106;123;2;107;35;2;107;33;2;106;121;2];
 [107;38;3;93;102;2;106;120;3;93;118;1;122;90;2;107];
 [34;4;101;84;3;93;115;4;101;87;2;106;124;1;122;89];
 [2;107;37;3;93;114;4;101;93;2;107;36;3;93;112;2];
 [108;119;2;108;118;5;114;81;3;95;44;5;114;75;2;108];
 [125;5;114;78;2;108;121;2;108;124;1;123;76;4;104;59];
 [4;104;62;2;108;122;2;108;123;4;104;57;2;108;117;2];
 [108;120;1;123;75;3;95;42;15;105;42;1;124;43;2;110];
 [97;2;110;92;2;110;96;3;96;37;2;110;99;2;110;95];
 [3;95;126;2;110;91;3;96;35;1;124;45;2;110;94;2];
 [110;98;1;124;44;2;110;89;2;106;126;2;110;93;4;106];
 [35;5;117;45;2;110;90;3;96;34;2;110;87;15;106;62];
 [2;110;88;1;124;42;2;111;104;2;111;106;2;111;109;2];
 [111;105;2;111;110;3;96;101;2;111;103;3;96;102;2;111];
 [101;3;96;104;1;124;87;2;111;107;1;124;89;1;124;88];
 [2;111;102;2;111;108;3;97;50;2;112;104;1;124;120;2];
 [112;105;3;97;51;2;112;103;2;112;100;4;108;74;3;97];
 [52;2;112;102;2;112;101;2;113;73;3;97;89;2;113;75];
 [2;113;74;3;97;91;2;113;105;5;122;83;2;113;104;2];
 [113;103;2;113;106;3;97;117;1;125;64;1;125;65;2;114];
 [56;2;114;60;3;98;65;1;94;36;2;65;84;2;72;115];
 [3;69;100;1;103;109;2;72;113;3;69;102;3;47;66;2];
 [72;114;3;69;104;3;69;103;2;79;74;2;79;75;1;107];
 [122;1;107;120;2;79;76;1;107;121;2;86;51;3;80;39];
 [2;86;54;2;86;48;2;86;55;2;86;47;2;86;49;3];
 [80;42;2;86;50;2;86;53;3;80;36;3;80;43;1;112];
 [42;2;86;58;2;86;57;1;112;40;2;86;52;2;86;56];
 [1;112;41;3;84;45;4;79;66;3;80;37;3;80;34;3];
 [84;42;2;92;56;4;85;82;1;115;58;3;84;44;2;92];
 [51;1;115;54;3;84;54;2;92;48;2;92;54;2;92;57];
 [3;84;51;1;115;59;4;90;78;2;92;53;2;92;50;2];
 [92;58;2;92;49;3;84;55;2;92;55;1;115;55;3;84];
 [41;2;92;47;1;115;56;3;84;53;1;115;57;2;92;52];
 [3;84;50;2;97;53;2;97;40;2;97;41;2;97;44;2];
 [97;42;4;90;85;2;97;36;4;90;86;3;87;77;2;97];
 [39;2;97;49;2;97;43;3;87;72;4;90;79;1;118;49];
 [4;90;77;2;97;51;2;97;48;1;118;50;2;97;50;2];
 [97;37;2;97;46;2;97;47;3;87;74;2;97;45;15;94];
 [36;3;102;117;2;100;124;2;100;126;2;101;35;3;89;121];
 [3;89;123;2;100;123;3;89;125;1;120;37;2;101;37;2];
 [100;122;2;101;38;3;89;126;2;101;34;2;101;36;2;101];
 [40;2;101;33;2;101;41;2;100;125;2;100;121;1;120;38];
 [3;90;34;2;101;39;1;120;39;1;121;89;4;95;52;3];
 [89;122;15;97;119;3;91;125;2;97;38;2;104;94;2;104];
 [85;1;121;91;2;104;81;1;121;92;3;92;39;3;92;34];
 [2;104;90;2;104;84;2;104;74;1;121;90;2;104;87;2];
 [104;82;2;104;83;3;92;37;2;104;69;2;104;76;2;104];
 [91;3;91;126;2;104;88;5;107;63;2;104;80;3;92;38];
 [2;104;92;2;104;75;2;104;70;2;104;89;3;92;36;2];
 [104;72;2;104;86;2;104;77;2;104;93;2;104;73;1;121];
 [88;2;104;71;2;104;78;2;104;79;2;107;45;3;92;35];
 [2;107;43;4;101;105;2;107;48;3;93;121;2;107;60;2];
 [107;51;2;107;44;2;107;40;2;107;53;2;107;46;2;107];
 [49;2;107;42;2;107;56;2;107;39;2;107;47;2;107;52];
 [2;107;54;2;107;57;2;107;41;3;93;122;2;107;61;2];
 [107;62;2;107;55;2;107;59;2;107;50;2;109;47;2;109];
 [50;3;95;53;1;123;77;3;95;49;2;109;49;2;109;54];
 [2;109;52;1;123;78;2;109;43;2;109;33;2;108;126;1];
 [123;80;2;109;45;2;109;46;2;109;42;2;109;34;3;95];
 [50;2;109;39;2;107;58;4;104;67;2;109;35;1;123;79];
 [2;109;41;3;95;54;2;109;40;2;109;36;2;109;48;4];
 [104;68;2;109;37;2;110;104;2;109;51;2;109;53;2;109];
 [44;2;109;38;2;110;105;2;110;107;2;110;101;1;124;46];
 [4;106;37;2;110;114;2;110;112;1;124;47;2;110;111;2];
 [110;110;2;110;103;2;110;100;2;110;106;2;110;115;2;110];
 [102;2;110;108;5;117;69;2;111;119;2;111;124;2;111;114];
 [2;111;117;1;124;90;2;111;121;4;107;70;2;112;34;2];
 [110;109;4;107;74;2;111;115;2;111;125;2;112;35;2;111];
 [120;2;111;113;2;111;123;4;107;75;2;111;122;2;112;33];
 [2;111;126;2;110;113;2;111;118;2;111;112;2;111;116;1];
 [124;121;1;124;122;2;111;111;3;96;108;2;112;116;2;112];
 [107;2;112;115;2;112;112;2;112;113;2;112;106;2;112;109];
 [2;112;117;2;112;111;2;112;110;2;112;108;3;97;53;2];
 [112;114;4;108;86;2;113;76;4;109;58;2;113;77;3;97];
 [93;2;113;79;2;113;78;2;113;81;2;113;80;2;113;108];
 [2;113;107;2;114;39;3;98;41;2;114;40;3;98;48;2];
 [114;52;1;125;69;1;125;73;3;98;56;2;114;61;1;125];
 [74;1;94;37;4;79;72;5;90;91;1;122;91;2;109;55];
 [3;95;55;1;124;123;1;124;124;1;94;38;2;72;116;3];
 [69;105;1;103;110;2;86;59;3;80;44;3;84;57;2;92];
 [60;2;92;61;2;92;59;2;97;55;2;97;54;1;118;51];
 [2;101;43;2;97;56;2;101;42;4;95;58;3;90;36;2];
 [104;96;1;121;93;1;121;95;2;104;95;3;92;41;4;98];
 [117;1;121;94;3;94;33;2;107;63;2;107;65;2;107;64];
 [2;109;56;1;123;81;3;95;58;1;124;91;2;112;118;2];
 [113;82;3;98;49;3;98;63;2;114;65;1;94;39;3;37];
 [71;2;79;77;4;79;76;1;112;43;3;80;47;3;80;46];
 [3;84;58;2;92;63;2;92;62;3;87;80;2;97;57;3];
 [90;38;3;90;37;4;98;126;1;121;96;1;122;92;2;110];
 [116;2;114;57;1;94;40;1;107;123;3;75;34;1;112;44];
 [15;97;124;2;104;97;3;94;34;2;112;36;1;99;39;3];
 [57;106;3;84;60;3;84;59;4;90;93;2;97;58;3;90];
 [40;4;95;62;1;125;49;1;99;40;1;112;45;1;118;52];
 [2;112;37;1;99;41;3;57;107;2;86;60;1;115;61;2];
 [92;64;2;92;65;3;84;61;1;115;60;4;85;96;2;97];
 [59;1;118;56;1;118;54;1;118;55;1;118;53;2;101;44];
 [1;120;40;4;99;36;3;92;42;2;107;67;2;107;66;2];
 [107;69;2;107;68;1;122;93;2;109;57;4;104;86;2;109];
 [59;2;109;58;1;123;82;2;110;117;3;96;41;2;112;38];
 [2;112;39;1;124;92;2;113;83;2;113;109;1;125;66;4];
 [110;67;2;65;85;2;92;66;2;97;60;2;104;98;2;72];
 [117;3;39;114;2;97;61;2;101;46;2;101;45;3;90;41];
 [3;92;45;3;92;46;3;95;60;2;112;40;1;124;125;3];
 [97;95;2;113;84;2;113;110;1;103;111;2;86;61;2;86];
 [62;4;79;86;2;92;67;1;103;112;3;69;106;1;120;41];
 [2;101;47;3;92;48;2;109;61;1;123;83;2;109;62;2];
 [109;60;2;112;41;3;97;96;2;112;119;4;109;72;1;103];
 [113;2;97;64;2;97;63;2;97;62;2;101;48;3;90;43];
 [3;90;42;2;101;52;2;101;51;2;101;50;2;101;49;1];
 [120;42;2;104;99;2;107;71;1;122;94;2;107;70;2;109];
 [63;2;110;120;2;110;119;1;124;48;2;110;118;2;112;44];
 [2;112;43;2;112;42;3;96;109;4;110;68;1;107;124;4];
 [85;99;2;92;68;1;118;57;4;90;100;2;104;100;2;104];
 [101;2;110;121;2;112;45;4;107;92;3;97;59;2;112;120];
 [2;113;85;2;114;41;2;114;67;1;107;125;1;118;58;2];
 [101;53;2;104;102;2;109;64;2;112;46;3;35;112;1;112];
 [47;3;84;62;2;97;65;2;101;54;2;104;103;2;104;104];
 [2;104;105;2;107;76;3;94;36;2;107;72;1;123;84;2];
 [107;75;2;107;74;1;122;95;2;107;73;1;122;97;1;122];
 [96;2;109;66;2;109;65;1;123;85;1;123;86;4;104;96];
 [3;95;62;1;124;50;2;110;122;1;124;49;4;107;97;2];
 [112;49;2;112;50;2;112;48;2;112;47;1;125;33;4;108];
 [100;2;112;121;2;112;122;2;112;123;1;124;126;2;113;86];
 [2;113;89;2;113;88;2;113;87;3;98;51;4;110;69;2];
 [114;66;1;115;62;3;87;85;4;99;45;1;120;50;2;107];
 [77;2;109;67;3;96;43;1;124;51;2;110;123;4;110;85];
 [3;98;66;2;114;68;15;33;89;1;115;63;3;94;71;4];
 [110;51;2;97;66;3;95;63;2;110;124;3;97;97;2;113];
 [111;3;97;119;15;88;76;1;33;43;1;33;54;1;33;56];
 [1;33;64;1;33;65;1;33;68;1;33;69;1;33;72;1];
 [33;73;1;33;76;1;33;77;1;33;80;1;33;81;1;33];
 [84;1;33;85;1;33;88;1;33;89;1;33;92;1;33;93];
 [1;34;39;1;34;40;1;34;43;1;34;44;1;34;41;1];
 [34;42;1;33;46;1;33;47;1;33;48;1;33;50;1;33];
 [51;1;33;52;1;33;53;1;33;94;1;33;95;1;33;96];
 [1;33;97;1;33;98;1;33;99;1;34;45;1;34;46;1];
 [34;47;1;34;63;1;34;64;1;34;65;1;34;67;1;34];
 [66;1;34;98;1;34;108;1;34;109;1;34;110;1;33;42];
 [1;33;108;1;34;99;1;34;104;1;33;109;1;33;62;1];
 [33;63;1;33;110;1;34;48;1;33;34;1;34;49;1;33];
 [37;1;34;95;1;36;33;1;36;34;1;36;35;1;36;36];
 [1;36;37;1;36;38;1;36;39;1;36;40;1;36;41;1];
 [36;42;1;33;40;1;33;39;1;34;54;1;34;56;1;34];
 [55;1;33;41;1;34;105;1;36;65;1;36;66;1;36;67];
 [1;36;68;1;36;69;1;36;70;1;36;71;1;36;72;1];
 [36;73;1;36;74;1;36;75;1;36;76;1;36;77;1;36];
 [78;1;36;79;1;36;80;1;36;81;1;36;82;1;36;83];
 [1;36;84;1;36;85;1;36;86;1;36;87;1;36;88;1];
 [36;89;1;36;90;1;34;96;1;34;37;1;36;91;1;36];
 [92;1;36;93;1;36;94;1;36;95;1;36;96;1;36;97];
 [1;36;98;1;36;99;1;36;100;1;36;101;1;36;102;1];
 [36;103;1;36;104;1;36;105;1;36;106;1;36;107;1;36];
 [108;1;36;109;1;36;110;1;36;111;1;36;112;1;36;113];
 [1;36;114;1;36;115;1;36;116;1;33;66;1;34;94;1];
 [33;67;1;34;102;1;34;103;1;34;100;5;33;37;15;33];
 [33;6;33;47;6;33;45;6;33;46;6;33;66;6;33;67];
 [5;33;51;3;33;68;15;33;62;15;33;63;6;34;43;5];
 [33;77;6;35;64;6;35;62;6;35;63;6;36;103;6;37];
 [95;5;35;47;15;34;116;6;37;103;6;37;99;6;41;55];
 [6;41;58;6;41;56;15;41;34;15;41;35;6;46;102;5];
 [48;114;5;51;35;15;57;50;15;57;51;6;71;45;15;59];
 [115;15;64;53;15;64;117;15;71;66;15;77;86;7;33;33];
 [15;89;71;4;79;124;15;90;63;6;33;44;6;33;34;6];
 [34;95;4;33;86;6;35;65;6;37;96;6;41;59;5;37];
 [33;5;39;122;6;46;74;15;41;80;6;53;37;6;53;38];
 [6;69;125;6;70;63;15;70;64;5;68;126;6;33;50;5];
 [33;45;6;34;45;6;35;66;15;45;97;6;80;80;15;83];
 [68;4;33;33;5;33;38;6;33;36;15;33;34;6;33;51];
 [6;33;68;15;33;37;15;33;38;5;33;78;6;34;48;15];
 [33;69;6;34;78;6;34;47;15;33;64;15;33;65;6;33];
 [69;6;34;49;6;34;46;4;34;38;4;34;37;5;34;36];
 [5;34;37;6;35;67;6;41;62;6;36;93;6;37;86;6];
 [37;97;6;37;98;6;44;67;6;41;60;6;58;101;15;41];
 [37;6;45;45;6;41;61;6;46;75;5;43;103;6;53;42];
 [6;53;39;6;57;100;6;53;41;6;60;123;6;69;126;6];
 [70;64;6;70;65;5;61;86;5;33;35;5;33;34;6;33];
 [38;6;33;37;5;33;33;5;33;43;15;33;35;6;33;70];
 [5;33;52;15;33;39;15;33;40;6;34;51;6;34;50;6];
 [34;42;5;33;79;6;35;70;6;35;68;15;33;110;6;35];
 [69;15;34;117;6;41;63;6;45;44;4;38;36;6;46;77];
 [6;46;78;15;37;64;6;46;76;6;53;43;15;45;96;6];
 [60;126;5;48;115;6;60;125;15;57;52;6;80;81;5;68];
 [85;15;70;65;6;90;99;6;90;98;7;54;115;7;70;39];
 [7;77;58;5;33;36;5;33;39;4;33;40;5;33;40;5];
 [33;44;6;33;71;6;33;72;6;33;73;6;35;71;5;35];
 [48;6;37;100;6;41;64;5;48;116;6;70;66;7;44;60];
 [6;33;39;6;33;40;6;33;41;6;33;74;6;37;101;6];
 [35;72;6;35;73;6;37;104;15;34;118;4;37;51;5;37];
 [34;4;37;50;6;46;80;5;39;123;15;41;39;6;48;124];
 [6;53;45;6;53;44;15;45;98;6;61;33;15;77;110;6];
 [35;74;15;33;111;15;33;112;15;34;43;5;35;49;15;34];
 [119;15;34;120;15;34;121;5;37;35;6;41;65;15;37;67];
 [6;46;82;6;46;81;15;41;40;6;53;47;5;44;102;4];
 [43;95;6;53;48;15;45;99;6;53;49;6;70;67;6;61];
 [35;6;61;34;4;48;68;5;48;117;15;50;116;15;50;117];
 [15;50;114;6;70;69;6;70;68;6;70;70;4;54;47;15];
 [57;53;15;57;54;15;57;55;6;76;45;15;64;54;15;64];
 [55;15;64;56;15;70;66;6;80;82;5;75;113;7;33;34];
 [15;77;87;15;77;88;15;77;89;7;38;121;7;33;36;7];
 [33;35;7;33;70;7;44;63;5;83;83;7;44;62;7;44];
 [61;7;70;35;7;70;40;6;33;52;6;33;53;15;33;36];
 [6;33;76;15;33;41;6;33;75;3;33;111;15;33;67;6];
 [34;53;6;34;52;6;34;54;4;33;88;4;34;44;4;34];
 [43;4;34;41;6;35;79;4;34;48;6;35;80;5;34;39];
 [6;35;77;6;35;76;4;34;47;6;35;75;15;33;115;15];
 [33;116;15;33;117;15;33;118;15;33;119;15;33;120;15;33];
 [121;5;34;40;6;35;81;5;34;38;15;33;122;5;35;50];
 [6;37;106;4;35;58;6;37;107;6;37;116;6;37;112;6];
 [37;108;15;34;122;15;34;123;15;34;124;15;34;125;15;35];
 [33;15;35;34;15;35;35;15;35;37;15;35;40;15;35;41];
 [15;35;42;15;35;43;15;35;44;4;35;56;6;37;109;6];
 [37;111;15;35;38;6;37;110;6;37;105;5;35;51;6;37];
 [115;6;41;67;6;41;69;4;37;58;5;37;40;6;41;70];
 [5;37;41;3;39;78;5;37;42;4;37;55;4;37;53;6];
 [41;74;6;41;68;6;41;76;6;41;71;6;41;78;5;37];
 [38;6;41;66;15;37;69;15;37;70;15;37;72;15;37;73];
 [15;37;75;15;37;76;15;37;77;15;37;78;15;37;79;15];
 [37;80;15;37;81;6;41;77;6;41;72;6;41;73;6;41];
 [75;5;37;36;5;37;39;5;39;124;6;46;100;6;46;89];
 [5;43;114;4;40;54;6;46;99;6;46;87;6;46;86;5];
 [40;35;4;40;59;6;46;93;5;39;126;5;39;125;5;40];
 [34;6;46;98;6;46;85;6;46;84;6;46;101;6;46;92];
 [15;41;41;15;41;42;15;41;43;15;41;44;15;41;46;15];
 [41;47;15;41;49;15;41;50;15;41;51;15;41;52;15;41];
 [53;15;41;54;15;41;55;15;41;56;6;46;83;6;46;88];
 [6;46;91;6;46;94;6;46;96;15;37;71;6;46;95;5];
 [40;36;4;43;99;5;43;112;4;43;103;6;53;54;5;43];
 [107;6;53;53;5;43;116;4;43;102;4;43;104;5;43;111];
 [6;53;50;5;43;105;15;45;100;15;45;110;6;53;55;5];
 [43;110;15;45;102;15;45;103;15;45;106;15;45;107;15;45];
 [108;15;45;109;15;45;111;15;45;113;15;45;114;15;45;115];
 [15;45;116;15;45;117;15;45;118;15;45;120;15;45;121;15];
 [45;122;15;45;123;15;45;124;6;53;33;6;53;58;6;53];
 [59;6;53;51;6;53;52;5;43;104;6;53;57;15;45;119];
 [15;45;112;5;43;106;5;43;109;5;43;117;5;43;113;5];
 [43;115;4;43;96;6;61;43;6;61;45;6;61;44;4;48];
 [73;4;48;72;6;61;48;6;61;40;5;49;33;6;61;51];
 [5;48;119;6;61;46;6;61;39;5;49;34;5;48;118;4];
 [48;70;6;61;42;6;61;49;6;61;55;6;61;50;6;61];
 [41;4;48;75;6;61;52;15;45;105;15;50;119;15;50;120];
 [15;50;121;15;50;122;15;50;123;15;50;124;15;50;126;15];
 [51;33;15;51;35;15;51;36;15;51;37;15;51;38;15;51];
 [39;6;70;55;6;61;56;6;62;101;6;61;57;6;61;47];
 [5;48;122;6;67;99;5;48;125;5;49;35;6;61;36;6];
 [61;38;15;50;125;5;48;121;5;48;126;5;48;120;6;61];
 [37;6;61;54;5;48;124;6;70;73;6;70;79;5;54;86];
 [5;54;81;6;70;76;5;54;78;5;54;82;5;54;99;5];
 [54;83;6;70;72;5;54;85;5;54;80;6;70;86;4;54];
 [53;5;54;84;6;70;82;6;70;80;6;70;75;6;70;78];
 [6;70;83;15;50;118;6;70;88;5;54;79;5;54;87;6];
 [70;71;15;57;56;15;57;57;15;57;58;15;57;59;15;57];
 [60;15;57;61;15;57;62;15;57;63;6;70;77;4;54;59];
 [6;70;81;6;70;84;5;54;77;6;70;74;5;52;33;6];
 [80;90;4;66;56;5;61;90;5;61;88;6;80;83;5;48];
 [123;5;61;94;5;61;92;6;80;88;5;61;91;6;80;95];
 [6;80;93;4;60;46;6;80;92;6;80;98;6;80;85;4];
 [60;47;5;61;96;6;80;84;5;61;87;6;80;87;6;80];
 [94;15;64;57;15;64;58;15;64;59;15;64;60;15;64;61];
 [15;64;62;15;64;63;15;64;64;15;64;65;15;64;66;15];
 [64;67;15;64;68;15;64;69;15;64;70;6;80;97;6;86];
 [78;6;80;89;6;80;86;6;70;87;5;61;89;5;61;93];
 [5;61;95;4;60;43;6;80;96;6;90;113;5;61;97;7];
 [33;46;4;66;52;5;68;86;6;90;100;6;90;105;5;61];
 [98;6;90;107;4;66;57;6;90;116;4;66;49;6;90;117];
 [6;90;104;6;90;103;6;90;118;15;70;67;15;70;68;15];
 [70;69;15;70;70;15;70;71;15;70;73;15;70;74;15;70];
 [75;15;70;76;15;70;77;15;70;78;15;70;79;15;70;81];
 [15;70;82;15;70;83;15;70;84;15;70;86;15;70;87;15];
 [70;88;15;83;69;7;38;45;5;68;88;6;90;119;6;94];
 [87;6;90;109;6;90;111;6;90;101;15;70;80;15;70;72];
 [15;70;85;4;66;48;6;90;102;6;90;106;6;90;110;6];
 [90;112;4;66;54;5;63;70;4;72;126;4;72;122;6;90];
 [108;7;33;47;7;33;49;7;33;41;7;33;38;7;33;37];
 [5;75;119;4;72;124;7;33;43;7;33;44;5;75;115;7];
 [33;42;5;75;121;5;75;120;7;33;39;15;77;90;15;77];
 [91;15;77;92;15;77;93;15;77;94;15;77;96;15;77;97];
 [7;33;40;5;75;114;7;33;45;15;77;98;4;73;33;5];
 [75;117;7;33;48;5;75;116;5;76;69;5;83;84;5;83];
 [90;7;44;64;4;79;88;4;79;95;5;83;88;4;79;92];
 [4;79;94;5;83;85;5;83;86;15;83;70;15;83;71;15];
 [83;72;15;83;73;15;83;74;5;83;91;5;83;87;7;54];
 [120;5;75;118;5;90;111;5;90;112;4;85;103;4;85;102];
 [7;54;118;15;89;72;15;89;74;15;89;75;15;89;76;15];
 [89;78;7;54;117;7;54;119;15;89;73;4;85;104;7;54];
 [116;7;62;118;4;90;107;4;90;105;4;90;106;7;62;120];
 [7;62;119;15;94;48;15;94;49;15;94;44;15;94;46;15];
 [94;47;7;62;117;5;97;49;4;90;108;5;97;47;5;97];
 [48;5;97;50;5;103;74;5;103;78;4;99;46;5;103;77];
 [5;103;79;15;97;126;15;98;33;7;71;111;5;103;76;5];
 [103;75;5;105;124;7;82;117;7;77;60;15;100;122;5;107];
 [107;7;77;59;7;77;104;4;102;47;4;102;46;5;111;104];
 [7;87;78;5;107;108;15;103;63;15;103;126;4;102;45;7];
 [87;77;15;105;56;15;105;58;15;105;57;5;115;49;4;106];
 [64;7;91;69;15;106;75;15;107;65;5;117;98;4;109;82];
 [15;108;73;6;33;77;4;33;92;4;34;50;6;35;83;6];
 [35;84;6;37;117;6;37;119;6;37;120;5;35;53;6;37];
 [118;6;41;81;6;41;80;6;41;79;6;41;83;15;37;83];
 [6;41;82;15;37;82;6;46;103;6;46;104;5;43;118;15];
 [45;125;15;45;126;15;46;33;6;53;60;15;51;40;5;49];
 [36;5;49;37;15;51;41;15;51;42;6;70;89;15;57;64];
 [15;57;65;15;57;66;5;54;88;15;57;67;15;64;71;6];
 [80;99;15;64;72;15;70;89;15;70;90;5;68;89;7;33];
 [52;7;33;50;5;75;123;15;77;99;15;77;100;5;75;122];
 [7;33;51;5;83;92;7;44;65;15;83;75;15;83;76;15];
 [83;77;15;83;78;5;90;113;15;89;79;15;89;80;15;89];
 [81;7;62;121;5;97;51;15;94;50;7;70;41;5;103;80];
 [15;100;123;5;103;81;5;107;109;15;103;65;15;105;59;15];
 [106;76;5;119;83;15;107;66;6;33;54;5;33;54;5;33];
 [53;6;34;55;6;35;86;6;35;85;5;35;54;6;37;121];
 [5;35;56;5;40;37;5;40;38;4;43;106;6;53;61;15];
 [46;34;15;46;35;6;61;58;6;70;90;6;80;100;5;61];
 [99;4;60;49;6;90;120;5;90;114;6;33;55;6;33;78];
 [5;33;55;6;33;65;6;33;89;5;33;80;6;35;59;4];
 [34;53;6;35;87;6;37;124;6;37;126;5;35;57;15;35];
 [45;6;37;122;6;41;84;6;46;107;6;46;105;5;40;39];
 [6;46;106;6;46;79;6;48;123;6;53;64;6;53;63;6];
 [53;65;6;53;62;6;61;59;6;70;93;5;61;100;15;57];
 [68;15;57;69;6;70;91;6;70;92;5;61;101;6;80;101];
 [15;64;73;15;64;74;4;66;58;6;90;121;15;84;70;15];
 [83;79;15;83;80;5;97;52;15;94;51;7;70;42;7;70];
 [43;4;33;45;6;33;79;6;33;81;6;34;57;4;33;93];
 [6;34;56;5;33;82;15;33;70;6;34;58;5;33;81;6];
 [35;90;6;35;88;6;37;71;6;38;35;6;38;33;6;38];
 [34;5;35;58;6;40;122;5;37;44;6;41;85;6;41;86];
 [6;46;108;6;53;66;6;53;67;5;43;119;5;43;120;6];
 [61;61;6;70;95;3;57;119;6;70;94;4;60;51;5;61];
 [102;6;90;123;6;90;122;7;33;53;5;83;93;7;44;66];
 [15;85;118;4;90;109;15;103;66;7;87;79;5;33;56;6];
 [34;59;15;33;72;15;33;73;6;35;91;4;34;55;5;34];
 [41;15;33;123;15;35;46;15;35;47;5;37;45;15;37;85];
 [6;46;109;6;61;62;15;46;37;15;46;38;15;46;39;15];
 [46;40;15;46;41;5;49;39;6;70;96;15;57;71;15;57];
 [72;6;70;97;15;58;93;6;80;102;6;90;124;15;70;91];
 [5;78;119;7;44;67;15;89;82;15;83;81;7;62;122;7];
 [70;44;7;77;63;5;111;105;5;117;99;15;33;74;6;35];
 [92;15;33;125;15;33;126;4;34;56;5;35;59;6;38;36];
 [4;35;60;15;35;48;15;35;49;15;35;50;15;35;51;15];
 [35;36;15;34;126;4;37;65;4;37;66;6;41;88;6;41];
 [89;5;37;47;15;37;87;5;40;41;4;40;65;4;40;66];
 [5;40;44;5;40;40;5;40;42;6;46;111;15;41;58;15];
 [41;60;15;41;61;15;41;62;15;41;63;6;46;110;5;43];
 [122;4;43;107;5;43;121;5;40;43;6;53;69;5;43;123];
 [15;46;42;15;46;43;6;53;70;5;49;40;6;61;63;6];
 [61;64;4;48;78;15;51;43;15;51;44;15;51;45;15;51];
 [47;15;51;48;6;70;98;5;54;92;5;54;90;5;54;91];
 [5;54;89;4;54;62;15;51;46;5;61;108;5;61;103;5];
 [61;105;5;61;106;5;61;104;5;61;107;6;80;103;6;90];
 [125;5;76;33;5;68;90;7;33;55;15;70;93;15;70;94];
 [5;75;126;5;75;125;5;75;124;7;33;54;15;77;103;15];
 [83;83;7;44;69;15;77;102;15;83;82;4;85;106;7;44];
 [70;5;90;115;15;89;83;15;89;84;5;97;54;5;97;53];
 [5;97;55;15;94;52;7;62;123;5;103;82;5;103;83;7];
 [82;118;5;115;50;4;33;41;6;33;82;15;33;42;15;33];
 [43;15;33;44;15;33;46;6;33;92;15;33;45;5;33;83];
 [6;34;61;4;33;95;6;35;94;6;35;93;6;35;95;6];
 [35;96;15;33;75;6;38;39;6;38;37;6;38;38;15;35];
 [52;15;35;53;4;37;70;6;41;90;4;37;68;6;41;91];
 [6;41;92;6;41;93;15;37;88;15;37;89;6;46;114;6];
 [46;112;6;46;113;6;53;71;15;46;44;6;55;39;6;61];
 [66;6;61;67;6;61;65;15;51;49;15;51;50;15;51;51];
 [6;70;99;6;70;102;15;57;73;6;70;100;15;57;74;15];
 [70;95;15;70;96;15;70;97;15;77;104;7;44;71;15;83];
 [84;15;83;85;15;83;67;15;89;85;15;94;53;15;103;67];
 [4;33;46;5;33;57;6;33;83;6;33;84;6;34;63;5];
 [33;84;6;34;62;15;33;76;6;35;101;6;35;97;6;35];
 [98;6;35;99;15;34;33;5;34;42;6;38;40;15;35;54];
 [6;41;96;6;41;95;6;46;115;6;46;116;6;52;122;6];
 [53;72;6;61;68;6;61;69;5;54;93;6;90;126;15;70];
 [98;7;33;112;7;54;123;5;90;118;5;103;84;7;78;62];
 [6;33;57;4;33;64;6;33;85;5;33;58;5;33;59;6];
 [33;86;4;33;65;15;33;47;6;33;87;5;33;85;5;33];
 [86;4;33;98;6;34;68;5;33;87;6;34;67;6;34;64];
 [6;34;69;4;34;58;6;35;106;5;34;46;5;34;44;5];
 [34;43;4;34;59;4;34;57;6;35;104;6;35;103;5;34];
 [47;6;35;107;6;35;105;5;34;45;4;34;61;15;34;34];
 [15;34;35;4;34;62;6;35;102;4;35;65;6;38;43;4];
 [35;67;5;35;61;4;35;66;5;35;70;5;35;69;5;35];
 [67;5;35;64;6;38;41;5;35;63;5;35;66;5;35;65];
 [6;38;42;6;38;44;5;35;62;5;35;68;6;41;105;5];
 [37;51;5;37;53;4;37;73;4;37;75;3;39;92;6;41];
 [102;4;37;77;6;41;100;6;41;101;6;41;108;6;46;117];
 [6;41;106;5;37;48;5;37;54;6;41;107;5;37;50;6];
 [41;103;5;37;52;15;37;90;15;37;91;15;37;92;15;37];
 [93;6;41;104;6;41;98;6;41;97;5;37;49;6;41;87];
 [4;40;71;5;40;45;4;40;69;6;47;36;6;46;123;6];
 [47;34;4;40;72;6;47;33;4;40;68;4;40;70;6;46];
 [120;6;46;126;6;47;35;6;46;122;6;46;125;6;46;124];
 [15;41;64;15;41;65;15;41;66;6;46;121;5;40;46;6];
 [46;119;6;53;73;4;43;112;4;43;109;5;44;37;5;44];
 [35;4;43;111;4;43;115;6;53;78;6;53;82;5;44;34];
 [6;53;83;4;43;108;5;44;38;6;53;81;4;43;113;6];
 [53;80;6;53;79;6;53;76;6;53;75;4;43;114;5;44];
 [36;6;53;77;15;46;51;6;53;84;15;46;46;15;46;47];
 [15;46;48;15;46;50;15;46;49;6;53;74;5;44;39;5];
 [43;125;5;44;33;5;43;126;4;48;80;5;49;43;4;48];
 [81;5;49;42;6;61;70;4;48;86;4;54;73;4;48;85];
 [6;61;73;6;61;71;5;54;94;4;48;79;5;44;40;15];
 [51;52;15;51;53;15;51;55;6;61;72;6;61;74;6;61];
 [75;4;54;67;5;54;95;6;70;109;6;70;105;4;54;70];
 [4;54;71;5;54;96;5;54;100;4;54;74;4;54;68;4];
 [54;65;4;54;64;6;70;107;6;70;104;6;70;108;5;54];
 [97;5;54;98;6;70;106;15;57;75;15;57;76;15;57;77];
 [15;57;78;4;54;72;6;76;70;6;70;110;5;54;101;4];
 [60;57;6;80;111;5;61;115;6;80;109;4;60;53;5;61];
 [116;6;80;110;5;61;109;4;60;55;4;60;54;5;61;110];
 [4;60;58;5;61;111;6;80;107;15;64;75;6;80;106;6];
 [80;104;6;80;112;6;80;105;5;61;114;5;61;113;15;64];
 [76;5;68;91;4;66;59;6;91;36;5;68;97;6;91;34];
 [6;91;33;4;60;56;4;66;64;5;68;98;5;68;92;5];
 [68;95;4;66;61;4;66;68;6;91;43;6;91;41;6;91];
 [40;5;68;94;5;76;34;6;91;38;5;68;93;6;91;42];
 [5;68;96;6;91;37;15;70;99;15;70;100;15;70;101;6];
 [91;35;6;91;39;5;76;35;5;76;39;4;73;36;5;76];
 [36;5;76;38;7;33;60;7;33;61;7;33;58;7;33;62];
 [7;33;59;5;76;37;7;33;56;7;34;90;7;33;57;4];
 [79;96;7;44;73;5;90;119;7;44;74;7;44;78;7;44];
 [77;7;44;76;5;83;95;5;83;97;5;83;96;5;83;94];
 [7;44;72;7;44;75;7;33;63;15;83;86;5;88;81;5];
 [90;122;4;85;107;5;90;121;5;90;120;7;54;124;15;89];
 [86;4;85;110;7;62;124;5;97;56;5;97;57;7;54;125];
 [15;94;54;5;97;58;7;70;47;7;70;46;7;70;45;7];
 [77;64;7;77;65;5;111;106;7;82;119;15;103;68;5;117];
 [100;4;107;101;7;98;45;7;98;44;6;33;58;5;33;60];
 [6;33;88;4;33;99;5;33;89;5;33;88;5;34;49;5];
 [34;50;15;34;37;15;34;38;15;34;39;15;34;40;5;34];
 [51;6;38;46;4;35;69;5;35;71;15;35;56;15;35;58];
 [15;35;59;6;38;45;4;35;73;5;37;61;5;37;57;6];
 [41;109;5;37;60;6;41;110;15;37;96;15;37;97;15;37];
 [98;15;37;99;5;40;48;4;40;74;6;47;38;5;40;49];
 [5;40;47;6;47;40;15;41;67;15;41;68;15;41;69;6];
 [53;85;6;53;89;4;43;116;5;44;45;5;44;41;5;44];
 [43;5;44;44;5;44;42;15;46;52;15;46;53;6;53;86];
 [6;53;87;5;49;45;6;61;78;6;61;76;6;61;79;6];
 [61;80;6;61;81;15;51;56;15;51;57;6;61;77;5;54];
 [105;5;54;102;5;54;104;5;54;107;5;54;103;15;57;79];
 [15;57;80;6;70;111;6;70;112;6;70;113;5;61;118;5];
 [61;117;4;60;59;6;80;114;6;80;113;15;64;77;5;61];
 [119;4;66;70;5;68;102;5;68;100;5;68;101;5;68;105];
 [4;66;69;5;68;104;6;91;46;15;70;102;6;91;44;6];
 [91;45;5;76;43;5;76;40;4;73;38;5;76;41;5;76];
 [42;7;44;79;5;90;124;15;83;87;5;90;123;5;90;125];
 [7;54;126;7;55;34;7;55;33;5;97;60;7;62;126;7];
 [63;33;5;103;86;5;103;85;7;77;66;5;111;107;7;91];
 [70;5;117;101;4;108;107;7;102;59;5;33;61;6;34;71];
 [6;34;72;5;34;53;5;34;52;5;34;54;15;34;42;6];
 [38;47;5;35;72;5;35;73;4;37;82;6;41;113;6;41];
 [112;15;37;100;15;37;101;6;47;42;4;40;76;6;47;43];
 [6;47;44;15;41;70;6;47;41;4;43;118;6;53;92;6];
 [53;91;6;53;94;6;53;95;6;53;90;6;53;93;5;44];
 [47;4;48;93;6;61;82;5;44;46;5;49;46;5;49;47];
 [6;61;83;4;54;78;15;57;81;6;80;115;4;48;91;5];
 [61;121;15;64;78;15;64;79;6;91;47;4;66;71;5;68];
 [106;5;68;107;15;70;103;15;77;105;4;79;101;7;44;80];
 [7;44;81;7;55;35;7;55;36;5;90;126;7;77;67;6];
 [33;42;4;33;66;6;34;74;6;38;48;6;38;51;5;35];
 [74;6;38;49;6;38;50;4;40;77;6;47;47;6;47;49];
 [6;47;45;6;47;46;6;47;48;6;61;84;6;53;96;15];
 [46;54;15;46;55;6;53;36;6;70;114;15;57;82;4;60];
 [61;15;70;104;7;63;34;5;109;50;6;33;43;15;33;49];
 [5;34;55;6;35;110;4;34;67;6;35;109;6;38;52;4];
 [35;74;6;38;53;15;35;60;6;41;115;5;37;62;5;37];
 [63;4;40;79;6;47;52;5;40;51;6;47;51;5;40;50];
 [6;47;50;6;47;55;6;47;53;15;41;71;5;44;48;6];
 [53;98;6;53;97;5;44;49;6;61;85;15;51;58;4;54];
 [79;6;80;117;6;70;115;6;53;99;5;61;122;4;66;72];
 [6;91;49;6;91;48;5;76;44;5;76;45;5;76;46;15];
 [77;106;5;83;100;7;55;37;15;94;55;4;95;75;7;63];
 [35;7;77;68;7;96;105;7;100;67;15;33;50;5;34;56];
 [6;35;111;5;35;76;6;38;55;15;35;61;15;37;102;6];
 [47;54;5;40;52;6;53;100;15;70;105;7;77;69;7;87];
 [80;6;33;90;5;33;90;5;33;91;6;34;75;6;35;112];
 [4;34;68;4;34;69;6;35;115;6;35;114;5;34;58;5];
 [34;57;6;35;116;6;38;57;5;35;77;6;38;58;6;35];
 [117;6;38;59;15;35;62;5;37;64;6;41;116;6;41;119];
 [6;41;120;6;41;118;15;37;103;15;37;105;15;37;106;15];
 [37;107;15;37;104;6;41;117;6;53;101;6;53;102;15;46];
 [56;15;46;57;4;48;99;4;48;97;4;48;98;15;51;59];
 [15;57;83;15;57;84;6;80;120;6;80;119;6;80;121;6];
 [80;123;15;64;80;15;70;106;15;70;107;5;76;47;15;77];
 [107;15;77;108;7;33;64;7;55;38;15;94;56;7;70;48];
 [7;82;120;7;96;106;7;98;46;6;34;76;6;35;119;6];
 [35;118;6;35;120;4;35;76;5;35;79;5;35;78;6;38];
 [60;4;37;85;4;37;84;6;41;124;6;41;123;6;41;125];
 [6;41;122;6;41;126;6;41;121;15;37;108;6;42;34;4];
 [40;82;4;40;81;5;40;55;15;41;72;15;41;73;15;41];
 [74;15;41;75;6;47;57;6;53;104;4;43;121;5;44;50];
 [6;53;103;6;53;106;6;60;122;6;53;105;6;61;87;6];
 [61;86;6;53;107;6;61;88;6;70;117;6;70;118;6;70];
 [119;5;55;63;6;80;124;5;68;109;6;91;50;7;33;65];
 [15;83;88;7;99;75;5;33;62;4;33;67;15;33;52;6];
 [33;91;4;34;70;6;42;36;6;35;122;6;35;121;4;35];
 [78;6;47;59;5;40;56;6;47;58;4;40;83;6;53;108];
 [6;47;60;6;70;120;5;44;51;5;61;123;6;80;125;5];
 [68;110;7;63;36;5;33;63;5;33;92;6;35;123;6;34];
 [79;6;34;77;6;34;80;5;33;93;4;34;71;5;34;59];
 [6;35;124;6;35;125;5;34;63;5;34;64;5;34;61;5];
 [34;62;15;34;45;6;38;62;5;35;80;6;38;61;5;35];
 [81;6;37;94;15;35;63;6;42;39;6;42;38;6;42;41];
 [6;42;40;5;37;65;4;37;88;15;37;109;15;37;110;6];
 [42;37;5;40;57;4;40;84;6;47;70;6;47;65;6;47];
 [68;6;47;69;6;47;64;6;47;62;6;47;66;6;47;67];
 [15;41;77;15;41;78;4;40;85;6;47;63;6;53;115;6];
 [53;116;4;43;123;5;44;52;4;43;124;6;53;111;6;53];
 [109;6;53;112;6;53;114;6;53;113;6;53;110;5;44;53];
 [15;46;58;15;46;59;6;61;96;6;61;91;4;48;103;6];
 [61;95;6;61;92;6;61;93;15;51;61;5;49;48;6;61];
 [94;4;48;102;4;54;82;6;70;124;6;70;122;4;54;83];
 [6;70;123;6;70;121;6;70;125;15;57;85;6;70;126;5];
 [61;124;5;61;125;6;81;36;6;81;35;6;80;126;15;64];
 [81;6;81;33;4;60;63;4;66;73;6;91;52;6;91;55];
 [6;91;51;6;91;56;5;68;111;15;70;109;15;70;110;6];
 [91;54;6;91;57;6;91;59;6;91;58;6;91;53;7;33];
 [67;4;73;40;5;76;48;7;33;68;7;33;66;15;77;109];
 [7;37;72;5;83;101;7;44;83;7;44;82;15;83;89;15];
 [83;90;7;59;77;15;94;57;15;94;58;15;94;59;15;100];
 [124;7;78;39;7;82;121;5;119;84;7;94;80;7;101;51];
 [7;102;51;5;33;46;6;33;60;6;33;61;6;33;93;6];
 [34;82;6;34;81;4;34;74;6;36;35;6;36;33;15;34];
 [46;4;34;73;6;36;34;6;38;64;15;35;64;5;35;60];
 [6;42;44;6;42;43;6;42;45;6;42;46;6;47;71;6];
 [47;72;4;40;86;15;41;79;6;53;118;6;53;117;6;54];
 [73;6;53;46;5;54;108;6;71;34;6;71;36;6;77;98];
 [15;57;86;6;71;35;5;62;33;6;81;37;5;61;126;15];
 [64;82;6;91;60;15;70;111;6;96;114;7;33;69;5;83];
 [102;15;89;87;7;75;106;6;33;96;5;33;64;6;33;94];
 [5;33;66;6;33;98;6;33;95;6;34;85;4;33;104;5];
 [33;94;6;34;86;5;33;95;6;34;83;6;34;84;6;36];
 [37;4;34;75;6;36;36;5;34;66;6;36;38;5;34;65];
 [6;36;39;6;38;68;6;38;66;5;35;82;15;35;65;15];
 [35;66;15;35;67;15;35;68;4;35;80;6;42;49;6;42];
 [47;6;42;50;6;42;48;15;37;111;6;47;77;6;47;74];
 [6;47;76;6;47;75;6;47;73;15;41;81;15;41;82;6];
 [50;114;5;40;54;6;53;123;5;44;54;6;53;124;6;53];
 [121;6;53;119;6;53;122;15;46;60;15;46;61;15;46;62];
 [15;46;63;6;60;103;6;61;102;6;61;104;5;49;50;5];
 [49;51;6;61;101;6;61;99;6;61;107;6;61;100;5;44];
 [55;6;61;98;6;61;105;6;61;106;6;60;124;6;61;103];
 [4;54;84;5;54;109;6;71;39;6;71;37;15;51;62;15];
 [57;87;15;57;88;15;57;89;15;57;90;6;71;38;4;60];
 [67;4;60;66;6;81;39;6;81;40;6;81;38;4;60;65];
 [6;71;40;6;81;91;6;81;41;6;95;33;6;91;62;6];
 [91;61;5;68;112;6;83;123;15;77;85;5;76;51;5;76];
 [52;15;70;112;5;76;50;7;44;85;15;83;91;3;80;57];
 [5;84;46;7;44;84;7;55;41;7;55;40;15;89;88;4];
 [90;111;7;70;50;7;70;49;4;102;49;15;103;69;7;87];
 [81;5;117;102;7;94;81;7;94;82;5;33;67;6;33;100];
 [4;33;71;4;33;70;15;33;54;6;33;99;5;33;97;6];
 [34;89;6;34;88;6;34;94;6;34;90;6;34;93;6;34];
 [87;6;34;66;15;33;78;6;34;92;5;34;71;6;36;45];
 [5;34;69;6;36;46;4;34;77;5;34;70;4;34;80;6];
 [36;44;4;34;79;4;34;78;5;34;68;6;36;40;15;34];
 [47;15;34;48;15;34;50;15;34;52;6;36;42;15;34;49];
 [15;34;51;5;34;67;6;36;41;6;36;43;4;35;86;6];
 [38;79;6;38;70;6;38;77;6;38;76;5;35;86;4;35];
 [90;4;35;93;5;35;91;5;35;84;6;38;72;4;35;87];
 [4;35;82;4;35;88;5;35;88;6;38;73;5;35;89;4];
 [35;85;5;35;85;6;38;71;5;35;92;15;35;69;15;35];
 [70;15;35;71;15;35;74;15;35;75;15;35;76;15;35;72];
 [6;38;75;6;38;74;6;38;80;6;38;69;5;35;83;5];
 [35;87;5;35;90;4;37;92;4;37;94;6;42;54;5;37];
 [76;5;37;68;4;37;91;6;42;52;5;37;77;5;37;69];
 [5;37;71;4;37;97;5;37;80;6;42;51;5;37;82;5];
 [40;71;6;42;59;5;37;72;5;37;75;5;37;74;5;37];
 [81;5;37;73;5;37;78;6;42;61;5;37;79;15;37;112];
 [15;37;114;15;37;115;15;37;116;15;37;117;15;37;118;15];
 [37;119;15;37;120;15;37;121;15;37;122;15;37;125;15;37];
 [126;15;38;33;15;38;34;15;38;35;5;37;70;6;42;53];
 [5;37;67;6;42;56;6;42;55;15;37;124;6;42;58;5];
 [44;56;5;40;70;5;40;82;5;40;77;5;40;60;5;40];
 [81;6;47;84;6;47;78;5;40;63;4;40;91;4;40;90];
 [5;40;79;5;40;69;5;40;75;5;40;74;5;40;78;5];
 [40;72;5;40;73;5;40;61;5;40;65;5;40;76;4;37];
 [98;6;47;89;6;47;90;5;40;83;6;47;79;5;40;58];
 [6;47;87;6;47;86;5;40;80;6;47;80;6;47;88;6];
 [47;82;5;40;64;5;40;66;15;43;51;15;41;83;15;41];
 [85;15;41;86;15;41;87;15;41;88;15;41;89;15;41;90];
 [15;41;91;15;41;94;15;41;95;15;41;96;15;41;97;15];
 [41;98;15;41;99;15;41;100;15;41;102;15;41;103;5;40];
 [67;5;40;68;4;40;93;15;41;101;6;47;85;6;47;83];
 [4;40;88;5;40;59;5;40;62;6;47;81;6;54;41;4];
 [44;36;4;44;43;4;44;44;4;44;39;6;54;34;5;44];
 [78;5;44;65;5;44;63;5;44;76;5;44;61;5;44;70];
 [5;44;86;5;44;73;4;44;42;5;44;77;5;44;84;5];
 [44;82;4;44;34;6;54;35;6;54;36;5;44;81;4;44];
 [35;5;44;64;6;54;39;6;54;40;5;44;87;6;54;38];
 [5;44;83;5;44;88;5;44;71;5;44;89;5;44;68;5];
 [44;85;15;46;64;15;46;65;15;46;67;15;46;68;15;46];
 [72;15;46;73;15;46;75;15;46;76;15;46;77;15;46;78];
 [15;46;79;15;46;80;15;46;81;15;46;82;15;46;83;15];
 [46;84;6;57;94;6;54;33;5;44;66;5;44;69;5;44];
 [72;6;54;37;5;44;80;5;44;75;5;44;57;5;44;58];
 [5;44;59;15;46;69;5;44;74;5;44;79;5;44;62;5];
 [44;60;5;44;90;5;49;70;4;48;105;6;61;119;6;61];
 [116;4;48;120;6;61;111;4;48;117;5;49;81;5;49;73];
 [5;49;76;4;48;110;4;48;121;5;49;68;6;61;118;5];
 [49;54;5;49;74;5;49;69;5;49;78;5;49;52;5;49];
 [77;5;49;66;5;49;59;6;61;113;6;61;117;6;61;125];
 [6;61;122;6;61;126;5;49;58;5;49;60;6;61;108;5];
 [49;56;6;61;114;6;61;123;15;51;63;15;51;64;15;51];
 [65;15;51;66;15;51;68;15;51;69;15;51;70;15;51;71];
 [15;51;72;15;51;73;15;51;76;15;51;77;5;49;55;6];
 [61;115;5;49;57;6;61;109;5;49;65;5;49;72;6;62];
 [33;5;49;82;6;61;112;5;49;64;5;49;53;5;49;71];
 [5;49;62;5;49;67;5;49;61;5;49;80;6;61;121;3];
 [52;96;5;49;83;5;49;79;6;61;120;6;61;110;5;49];
 [63;5;49;75;4;54;85;4;54;97;6;71;50;5;55;36];
 [6;71;55;6;71;62;5;54;119;6;71;53;5;54;124;4];
 [54;86;5;55;40;5;54;111;5;54;113;4;54;90;5;54];
 [120;4;54;87;5;55;41;5;54;126;4;54;98;4;54;91];
 [5;55;35;5;55;39;4;54;102;5;55;48;4;54;93;5];
 [55;44;5;55;46;6;71;46;6;71;60;5;62;34;6;71];
 [43;6;71;47;6;71;56;5;55;34;6;71;52;6;71;63];
 [6;71;58;4;54;100;5;55;38;5;54;115;15;57;91;15];
 [57;93;15;57;94;15;57;97;15;57;98;15;57;99;15;57];
 [100;15;57;101;15;57;102;15;57;103;15;57;104;15;57;106];
 [15;57;109;15;57;110;15;57;111;15;57;112;5;54;116;5];
 [54;117;5;54;123;5;55;37;5;55;33;6;71;59;15;57];
 [107;15;57;92;15;57;95;15;57;105;15;57;108;5;55;43];
 [5;55;47;6;71;61;5;55;45;5;55;42;5;54;125;6];
 [71;54;6;81;57;5;62;35;4;60;73;5;62;39;4;60];
 [78;5;54;114;6;81;65;4;60;72;4;60;68;6;91;66];
 [5;62;45;6;81;51;6;81;53;5;62;42;5;62;56;6];
 [81;58;6;81;48;5;62;46;5;62;36;5;62;53;5;62];
 [63;6;81;63;6;81;55;5;62;52;5;62;55;4;60;77];
 [5;62;58;4;60;69;5;62;51;5;62;44;4;60;79;5];
 [62;47;4;60;81;5;62;49;5;62;50;6;81;59;6;81];
 [64;6;81;42;6;81;62;6;81;61;5;62;59;6;81;56];
 [5;62;40;5;62;48;5;62;43;6;81;44;6;81;68;6];
 [81;46;6;81;43;6;81;45;15;71;38;5;62;62;6;81];
 [49;15;64;86;15;64;87;15;64;88;15;64;89;15;64;90];
 [15;64;91;15;64;92;15;64;93;15;64;94;15;64;95;15];
 [64;96;15;64;97;15;64;99;6;81;47;6;81;52;6;81];
 [60;15;64;84;6;81;66;5;62;60;5;62;54;5;62;37];
 [5;62;41;5;62;38;15;64;100;6;91;70;6;91;64;6];
 [91;75;4;66;77;6;91;79;6;91;69;6;91;81;6;91];
 [80;4;66;78;6;91;76;5;68;115;5;68;119;5;68;117];
 [5;68;124;6;91;67;6;91;71;4;66;76;4;66;84;5];
 [68;123;4;66;80;5;68;118;6;91;65;5;68;113;5;68];
 [114;5;68;121;6;91;82;6;91;63;6;91;73;6;91;74];
 [5;68;120;6;91;77;15;70;113;15;70;114;15;70;115;15];
 [70;116;15;70;118;15;70;119;15;70;120;15;70;121;15;70];
 [122;15;70;123;15;70;124;15;70;126;15;71;33;15;71;34];
 [15;71;35;15;71;39;15;71;40;15;71;41;15;71;42;15];
 [71;43;15;71;44;15;71;45;15;71;36;6;91;72;15;70];
 [117;5;68;116;5;68;122;6;91;78;5;69;33;15;70;125];
 [6;91;68;15;71;37;5;76;53;5;68;125;15;70;108;7];
 [33;81;5;76;59;7;33;85;7;33;82;5;76;57;7;33];
 [88;7;33;74;5;76;64;5;76;70;5;76;61;7;33;79];
 [5;76;62;7;33;87;7;33;80;5;76;54;7;33;75;5];
 [76;63;7;33;86;7;33;89;5;76;65;4;73;47;7;33];
 [91;5;76;58;7;33;72;5;76;56;5;91;39;7;33;90];
 [4;73;43;7;33;84;5;69;35;7;33;83;7;33;73;7];
 [33;71;7;33;98;7;33;92;15;77;122;7;33;94;5;76];
 [66;7;33;97;7;44;97;5;76;55;4;73;50;5;76;71];
 [15;77;111;15;77;112;15;77;113;15;77;114;15;77;115;15];
 [77;116;15;77;117;15;77;118;15;77;120;15;77;121;5;76];
 [68;7;33;95;7;38;43;7;33;93;7;33;77;7;33;76];
 [5;76;60;5;76;67;7;44;106;4;79;110;5;83;116;7];
 [44;92;5;83;114;7;44;104;4;79;114;5;83;106;5;83];
 [120;7;44;96;4;79;104;4;79;115;4;79;102;5;83;113];
 [4;79;112;5;83;111;5;83;104;7;44;107;7;44;91;7];
 [44;100;5;83;110;7;44;95;5;83;108;5;83;103;5;83];
 [117;5;83;112;5;83;115;7;44;89;5;83;107;5;83;105];
 [7;44;103;7;44;88;7;44;87;15;77;119;4;79;105;4];
 [79;116;5;83;119;7;44;102;15;83;92;15;83;94;15;83];
 [95;15;83;96;15;83;97;15;83;98;15;83;99;15;83;100];
 [15;83;101;15;83;103;15;83;104;15;83;105;15;83;106;15];
 [83;107;15;83;108;15;83;109;15;83;110;15;83;111;7;44];
 [94;7;44;93;7;44;98;7;44;105;5;83;109;15;85;116];
 [5;83;118;4;85;122;5;91;38;5;91;33;7;55;45;7];
 [55;42;7;55;52;7;55;53;5;91;35;5;91;43;4;85];
 [113;4;85;118;5;91;40;4;85;119;7;55;43;5;91;41];
 [4;85;121;7;55;49;7;55;47;7;55;46;5;91;36;4];
 [85;117;7;55;50;7;55;57;15;89;89;15;89;90;15;89];
 [94;15;89;95;15;89;96;15;89;97;15;89;98;7;55;56];
 [7;55;48;7;55;54;7;55;51;7;55;44;5;91;42;5];
 [91;34;4;90;116;7;63;41;7;63;47;4;90;115;5;97];
 [62;7;63;43;4;90;113;4;90;118;5;97;70;4;90;119];
 [5;103;88;5;97;61;5;97;68;5;97;67;4;90;120;7];
 [63;42;4;90;117;4;90;121;4;90;114;7;63;46;5;97];
 [65;7;63;39;7;63;45;7;63;40;7;63;38;7;63;44];
 [5;97;66;15;89;91;7;63;37;15;94;60;15;94;61;15];
 [94;62;15;94;63;15;94;64;15;94;67;15;94;68;15;94];
 [69;5;97;63;15;94;74;7;70;52;4;95;78;5;91;37];
 [7;70;59;7;70;57;7;70;55;5;103;90;5;103;91;4];
 [95;80;5;103;87;7;70;60;7;70;58;7;70;51;7;70];
 [53;7;70;56;4;95;79;15;94;70;5;103;92;15;98;34];
 [15;98;35;15;98;36;15;98;37;15;98;38;7;70;54;7];
 [71;110;7;70;61;5;107;116;5;107;117;5;107;111;5;107];
 [113;5;107;112;7;77;71;7;77;73;7;77;75;7;77;72];
 [7;77;70;7;77;74;15;100;125;15;100;126;15;101;33;7];
 [77;76;5;107;114;7;82;123;5;111;113;5;111;111;4;102];
 [53;5;111;110;7;82;122;5;111;109;7;82;126;5;111;112];
 [7;82;125;4;102;51;15;103;71;15;103;72;5;111;108;7];
 [82;124;7;87;89;7;87;90;5;115;51;7;87;85;7;87];
 [86;7;87;87;7;87;84;7;87;82;7;87;83;15;105;60];
 [4;104;100;7;87;88;7;91;73;7;91;74;15;106;77;7];
 [91;72;7;91;71;5;119;85;5;119;86;4;107;102;7;94];
 [83;7;94;85;7;94;84;7;94;86;15;107;67;5;117;103];
 [5;121;35;4;108;109;15;108;34;15;108;35;7;96;107;7];
 [98;50;7;98;49;7;98;52;7;98;48;7;98;51;15;108];
 [121;15;108;122;6;33;101;6;33;102;15;33;55;4;33;110];
 [6;36;50;6;36;48;5;34;73;15;34;53;6;36;49;6];
 [36;47;5;34;72;6;38;84;6;47;92;6;42;62;6;38];
 [88;6;38;86;15;35;79;15;35;81;6;38;87;6;38;89];
 [6;38;92;6;38;90;6;38;81;6;38;85;6;38;82;6];
 [38;83;6;38;91;5;37;85;6;42;67;6;42;64;6;42];
 [65;6;42;66;6;45;52;6;42;63;15;38;36;5;37;84];
 [5;40;84;5;40;86;6;47;96;6;47;95;5;40;85;6];
 [47;91;6;47;94;6;47;93;5;44;92;6;54;45;6;54];
 [42;6;54;44;5;44;91;6;54;43;5;44;93;5;49;86];
 [6;62;37;5;49;87;6;62;36;6;62;35;6;62;34;5];
 [49;84;6;62;38;5;55;51;6;71;64;6;71;65;5;55];
 [49;5;49;85;15;57;114;15;57;115;15;57;116;6;71;66];
 [5;55;50;5;62;64;6;81;69;5;62;65;6;81;71;6];
 [81;72;5;62;66;6;81;70;15;64;101;6;91;84;6;91];
 [88;5;69;36;6;91;85;6;91;90;6;91;86;15;71;46];
 [15;71;47;15;71;48;6;91;87;7;33;101;7;33;102;7];
 [33;100;15;77;123;4;79;117;15;83;115;7;55;60;7;55];
 [58;7;55;59;4;95;81;7;77;77;7;83;34;7;83;33];
 [4;33;72;5;33;68;6;34;96;15;33;81;15;33;82;6];
 [34;97;6;36;53;15;34;54;15;34;55;6;36;52;6;38];
 [106;4;35;96;6;38;102;6;38;98;6;38;94;6;38;105];
 [6;38;93;6;38;101;6;38;103;15;35;83;15;35;84;15];
 [35;86;15;35;88;15;35;90;6;38;96;6;38;99;6;38];
 [104;6;38;100;6;38;97;6;38;95;5;35;94;15;35;89];
 [5;35;93;5;35;95;5;35;96;5;35;97;4;37;106;6];
 [42;79;6;42;71;6;42;76;6;42;70;4;37;103;6;42];
 [74;4;37;108;6;42;72;5;37;86;6;42;81;6;38;65];
 [6;42;73;15;38;38;15;38;39;15;38;40;15;38;41;15];
 [38;42;15;38;48;15;38;49;15;38;44;15;38;43;4;37];
 [107;15;38;47;15;38;46;6;42;80;6;42;75;6;42;77];
 [6;42;78;15;38;50;15;38;37;6;42;69;6;42;68;5];
 [37;87;5;40;91;6;47;98;5;40;87;6;47;100;6;47];
 [97;5;40;88;4;40;95;6;47;107;6;47;99;15;41;122];
 [15;41;104;15;41;105;15;41;107;15;41;108;15;41;109;15];
 [41;110;15;41;111;15;41;112;15;41;114;15;41;115;15;41];
 [117;15;41;118;15;41;119;15;41;120;15;41;121;15;41;123];
 [15;41;124;15;41;125;6;47;106;6;47;108;6;52;49;6];
 [47;103;6;47;104;6;47;102;15;41;116;5;40;93;5;40];
 [90;5;40;94;5;40;92;5;40;89;5;44;94;4;44;50];
 [6;54;52;4;44;48;4;44;52;6;54;50;6;54;60;6];
 [54;54;6;54;61;6;54;62;6;54;49;6;54;46;6;54];
 [58;6;54;47;6;54;64;15;46;85;15;46;86;15;46;87];
 [15;46;88;15;46;89;15;46;90;15;46;91;15;46;94;15];
 [46;95;15;46;96;6;54;48;6;54;63;6;54;55;6;54];
 [56;6;54;57;5;44;96;6;54;59;15;46;93;15;46;97];
 [6;54;51;5;44;95;5;44;98;4;48;125;6;62;39;4];
 [48;124;5;49;93;6;62;52;6;62;45;5;49;91;6;62];
 [42;5;44;97;6;62;51;6;62;48;5;49;90;4;49;34];
 [4;49;35;15;51;79;15;51;91;6;62;46;6;62;47;15];
 [51;78;15;51;80;15;51;81;15;51;82;15;51;83;15;51];
 [84;15;51;85;15;51;86;15;51;88;15;51;89;15;51;90];
 [15;51;94;15;51;95;15;51;96;15;51;97;5;49;92;6];
 [62;49;6;62;53;4;48;126;6;62;40;6;62;41;5;49];
 [88;5;49;89;3;58;79;6;81;78;4;54;114;6;71;71];
 [4;54;106;6;71;69;4;54;112;4;54;108;6;71;75;6];
 [71;80;4;54;117;6;71;68;6;71;70;6;71;77;5;55];
 [52;6;62;50;6;71;79;4;60;90;5;55;57;4;54;115];
 [6;79;109;5;55;56;15;57;118;15;57;120;15;57;121;15];
 [57;122;15;57;123;15;57;124;15;58;33;15;58;34;15;58];
 [35;15;58;36;15;58;37;15;58;38;6;71;81;6;71;74];
 [6;71;73;4;54;116;6;71;76;15;57;117;5;55;55;5];
 [55;58;6;71;72;5;55;53;5;55;54;5;55;59;5;62];
 [70;6;81;86;6;81;75;6;81;85;5;62;77;4;60;84];
 [6;91;98;6;81;82;5;62;76;6;81;81;5;62;68;5];
 [62;75;5;62;67;6;81;84;6;81;80;5;62;73;5;62];
 [74;4;60;85;5;62;71;6;81;73;6;81;76;15;57;119];
 [6;81;83;6;81;77;15;64;102;15;64;103;15;64;104;15];
 [64;106;15;64;107;15;64;108;15;64;109;15;64;110;15;64];
 [111;15;64;112;15;64;113;15;64;114;15;64;115;6;81;79];
 [5;62;78;5;62;72;5;62;69;5;69;41;5;69;40;5];
 [69;39;6;91;92;4;66;92;6;91;100;6;91;102;6;91];
 [97;5;69;42;6;91;96;5;69;38;6;91;103;15;71;50];
 [15;71;51;15;71;52;15;71;53;15;71;54;15;71;55;15];
 [71;57;15;71;58;15;71;59;15;71;60;6;91;93;15;71];
 [56;6;91;107;6;91;99;6;91;83;15;71;49;4;66;90];
 [6;91;101;6;91;94;5;69;37;5;69;43;7;33;114;4];
 [73;52;4;73;53;7;33;111;4;73;54;5;76;75;5;76];
 [76;7;33;107;7;33;120;4;73;55;7;33;119;7;33;116];
 [15;78;33;5;76;77;5;76;79;7;33;103;7;33;117;15];
 [77;124;15;77;125;15;78;38;15;78;39;15;78;40;15;78];
 [41;15;78;42;15;78;43;15;78;45;7;33;108;7;33;109];
 [7;33;110;5;76;113;7;33;115;7;33;113;7;33;105;15];
 [77;126;15;78;36;15;78;35;5;76;78;5;76;74;5;76];
 [72;7;33;104;5;76;73;7;44;111;7;44;113;7;44;108];
 [4;79;119;4;79;122;4;79;121;7;44;109;7;44;112;15];
 [78;44;15;83;116;15;83;118;15;83;120;5;83;122;7;44];
 [114;5;83;123;5;83;121;7;52;111;7;44;115;7;44;110];
 [15;83;119;4;79;118;7;55;67;4;85;125;7;55;61;5];
 [91;46;7;55;63;7;55;68;7;55;66;7;55;69;5;91];
 [44;7;44;116;15;89;100;15;89;101;15;89;102;15;89;103];
 [15;89;104;15;89;105;15;89;106;15;89;107;7;62;108;7];
 [55;64;7;55;65;4;85;126;5;91;47;7;63;52;5;97];
 [71;7;55;62;5;97;73;7;63;51;15;94;71;15;94;72];
 [15;94;73;15;94;75;15;94;77;15;94;78;7;63;49;7];
 [63;50;5;91;48;5;97;72;15;98;40;5;97;74;7;70];
 [66;7;70;63;5;103;93;7;70;71;7;70;65;15;94;76];
 [15;98;39;7;70;67;7;70;70;7;74;59;7;70;64;7];
 [63;53;4;99;51;15;101;34;15;101;35;15;101;36;15;101];
 [37;7;77;78;5;107;119;7;83;40;4;102;54;7;83;36];
 [7;83;35;7;83;39;7;83;37;5;111;116;15;103;73;15];
 [103;74;15;103;76;7;83;38;15;103;75;5;111;114;5;111];
 [115;7;87;91;15;105;61;5;115;52;7;87;93;5;115;53];
 [7;91;75;7;87;92;7;94;87;5;119;87;5;123;95;7];
 [101;90;7;102;66;7;102;79;6;34;98;6;47;109;6;38];
 [107;6;42;82;15;41;126;15;42;33;5;44;100;6;54;66];
 [6;47;110;6;54;65;15;46;98;5;44;99;6;62;54;15];
 [51;98;6;71;82;6;81;89;6;81;88;6;91;106;6;100];
 [122;6;91;104;15;71;61;6;91;105;7;33;122;7;33;121];
 [7;44;117;7;63;54;7;67;63;15;94;79;7;63;55;7];
 [70;72;7;70;73;7;72;59;7;87;94;5;33;47;6;34];
 [99;6;36;55;6;36;54;6;38;108;15;35;92;6;54;67];
 [6;62;55;6;62;56;6;81;90;6;36;57;6;36;56;5];
 [35;100;5;35;99;4;37;111;6;42;83;15;38;52;15;46];
 [99;5;49;94;6;62;57;6;62;60;5;44;101;6;62;59];
 [6;62;58;5;62;79;6;81;92;15;64;116;6;91;108;15];
 [71;62;6;91;109;5;76;80;15;78;47;15;83;121;7;44];
 [118;7;44;119;7;55;70;7;70;74;7;63;58;7;63;56];
 [7;63;57;7;70;75;7;77;79;6;34;100;6;34;101;6];
 [36;58;6;38;110;6;38;109;6;42;84;15;37;66;5;40];
 [95;5;44;104;4;44;53;5;44;103;6;54;70;6;54;69];
 [15;46;100;15;46;101;6;54;71;5;44;105;4;49;36;5];
 [49;97;6;62;61;5;49;95;5;49;96;5;49;98;15;51];
 [99;6;71;84;5;55;62;5;55;66;5;55;64;5;55;65];
 [15;58;39;5;62;80;6;81;93;5;62;82;5;62;81;6];
 [81;95;4;66;97;6;91;111;6;91;112;6;91;110;5;69];
 [44;5;69;46;7;33;123;5;76;81;7;63;59;5;91;49];
 [5;91;50;7;70;76;6;33;103;6;33;104;15;33;56;6];
 [34;102;15;33;83;15;33;84;5;33;118;6;36;60;4;34];
 [84;6;36;63;6;36;64;6;36;62;6;36;61;15;33;107];
 [4;35;99;4;35;100;4;35;102;15;35;93;15;35;94;15];
 [35;95;15;35;96;15;35;97;15;35;98;15;35;99;6;38];
 [112;6;38;111;4;37;118;5;37;90;4;37;116;6;42;85];
 [6;42;86;4;40;99;6;42;92;6;42;88;6;42;89;15];
 [38;54;15;38;55;6;42;90;6;42;91;6;42;93;4;37];
 [121;6;42;87;6;41;57;4;40;100;4;40;98;5;40;97];
 [5;40;98;5;40;96;15;42;35;15;42;36;15;42;37;15];
 [42;38;15;42;40;15;42;41;15;42;39;15;42;34;5;44];
 [108;6;54;72;6;54;75;5;44;106;5;44;109;15;46;103];
 [15;46;104;15;46;105;6;54;74;4;44;55;5;44;107;5];
 [49;100;15;46;102;4;44;54;6;62;65;6;62;68;3;52];
 [126;6;62;62;6;62;67;6;62;64;6;62;69;6;62;63];
 [15;51;100;15;51;101;4;49;39;5;49;99;4;60;94;6];
 [71;88;6;71;91;6;71;93;6;71;90;15;58;40;6;71];
 [85;6;71;92;5;55;67;6;71;89;4;54;122;4;54;120];
 [5;55;68;6;71;87;6;81;96;6;81;97;4;60;93;15];
 [64;118;5;62;83;5;62;84;5;62;85;6;91;114;4;66];
 [99;5;69;47;4;66;98;15;71;63;15;71;64;15;71;65];
 [6;91;113;5;69;48;4;73;56;7;34;34;7;33;124;7];
 [34;33;7;44;124;7;33;126;5;76;83;15;78;49;15;78];
 [50;7;33;125;4;66;100;5;76;82;7;44;125;5;83;124];
 [7;44;120;7;44;121;4;86;33;15;83;122;7;44;122;7];
 [55;72;7;55;71;5;91;51;4;86;46;4;90;123;15;98];
 [41;5;107;120;7;83;41;15;105;62;5;117;104;15;107;68];
 [7;94;88;15;108;95;5;33;98;15;33;85;15;33;86;6];
 [36;65;4;34;88;6;36;66;15;34;57;15;34;58;15;34];
 [59;15;34;60;4;34;87;5;34;75;6;36;67;5;34;74];
 [6;38;116;4;35;104;4;35;107;15;35;100;15;35;102;15];
 [35;104;15;35;105;15;35;107;15;35;108;15;35;109;15;35];
 [110;15;35;111;15;35;101;6;38;114;6;38;115;6;38;117];
 [6;38;113;15;35;106;15;35;103;5;35;102;5;35;103;5];
 [35;101;4;37;124;6;42;97;6;42;96;5;37;96;4;37];
 [122;5;37;94;4;37;125;5;37;91;5;37;92;4;37;126];
 [15;38;58;15;38;59;15;38;62;15;38;63;15;38;64;15];
 [38;65;15;38;66;15;38;67;15;38;69;15;38;70;15;38];
 [71;15;38;72;15;38;73;6;42;95;6;42;94;15;38;68];
 [15;38;60;15;38;61;5;37;98;5;37;95;5;37;99;5];
 [37;97;4;40;104;5;40;100;6;47;118;6;47;120;6;47];
 [121;4;40;101;4;40;107;5;40;102;4;40;102;5;40;99];
 [6;47;112;6;47;123;6;47;116;5;40;107;6;47;126;15];
 [42;45;15;42;46;15;42;47;15;42;48;15;42;49;15;42];
 [50;15;42;51;15;42;52;6;47;115;6;47;119;4;40;108];
 [6;47;117;6;47;122;6;47;111;6;47;125;5;40;105;4];
 [40;106;5;40;106;5;40;103;6;47;113;6;47;124;5;40];
 [101;5;40;104;6;47;114;3;48;83;5;44;112;6;54;79];
 [5;44;114;5;44;117;5;44;111;6;54;85;5;44;110;6];
 [54;86;6;54;80;6;54;81;15;46;108;15;46;110;15;46];
 [112;15;46;113;15;46;115;15;46;116;15;46;117;15;46;118];
 [15;46;119;15;46;121;6;54;84;6;54;78;5;44;113;6];
 [54;83;6;54;82;15;46;111;15;46;114;5;44;119;5;44];
 [116;5;44;115;5;44;118;5;44;120;6;62;76;6;62;82];
 [6;62;70;6;62;71;5;49;106;6;62;72;6;62;73;6];
 [62;79;5;49;105;5;49;109;6;62;77;4;49;43;6;62];
 [78;5;49;107;6;62;83;15;51;104;15;51;105;15;51;106];
 [15;51;107;15;51;108;15;51;109;15;51;110;15;51;111;15];
 [51;113;15;51;114;15;51;116;15;51;117;15;51;118;15;51];
 [119;15;51;120;15;51;121;15;51;122;15;51;123;15;51;124];
 [15;51;125;15;51;126;15;52;33;15;52;34;15;52;35;15];
 [51;112;6;62;81;4;49;42;6;62;75;6;62;74;5;49];
 [102;5;49;103;5;49;104;5;49;101;4;54;123;6;71;98];
 [4;54;124;5;55;90;6;71;95;4;55;33;5;55;72;5];
 [55;89;6;71;100;6;71;102;5;55;79;6;71;101;6;71];
 [96;5;55;80;5;55;73;5;55;87;5;55;84;5;55;71];
 [5;55;75;15;58;41;15;58;43;15;58;44;15;58;45;15];
 [58;46;15;58;47;15;58;48;15;58;50;15;58;51;15;58];
 [52;15;58;54;15;58;55;15;58;56;15;58;57;15;58;58];
 [15;58;62;15;58;63;15;58;65;15;58;66;15;58;67;15];
 [58;68;15;58;69;15;58;59;5;55;86;6;71;99;5;55];
 [88;6;71;94;15;58;61;15;58;64;15;58;49;15;58;42];
 [5;55;69;5;62;86;5;55;83;5;55;76;5;55;82;5];
 [55;81;5;55;74;5;55;77;5;55;85;6;71;103;15;51];
 [103;5;62;95;5;62;90;5;62;93;5;62;87;4;60;101];
 [5;62;89;6;81;99;4;60;98;4;60;96;6;81;103;6];
 [81;101;6;91;124;5;62;92;5;62;91;6;81;102;15;64];
 [120;15;64;121;15;64;122;15;64;124;15;64;125;15;64;126];
 [15;65;34;15;65;35;6;81;98;6;81;100;15;64;119;6];
 [81;104;5;62;88;5;62;94;5;62;96;6;81;106;15;65];
 [33;4;66;112;5;69;50;4;66;106;6;91;123;4;66;113];
 [6;91;115;5;69;52;7;34;41;4;66;115;6;91;117;15];
 [71;72;4;66;111;5;69;55;4;66;110;15;71;71;15;71];
 [73;15;71;74;15;71;75;15;71;76;15;71;77;15;71;78];
 [15;71;79;15;71;80;15;71;81;15;71;82;15;71;84;6];
 [91;116;6;91;120;4;66;114;4;66;101;6;91;118;15;71];
 [83;5;69;51;5;69;54;5;69;53;7;34;38;5;69;49];
 [6;91;119;5;76;91;5;76;89;4;73;57;5;76;86;7];
 [34;47;5;76;87;4;73;63;4;73;59;7;34;44;4;73];
 [62;7;34;37;6;91;121;7;34;36;15;78;58;7;55;81];
 [15;71;69;5;76;84;5;76;92;15;78;51;15;78;52;15];
 [78;53;15;78;54;15;78;55;15;78;56;15;78;57;15;78];
 [59;15;78;61;15;78;62;15;78;63;15;78;64;15;78;65];
 [15;78;66;15;78;68;6;91;122;7;34;39;7;34;46;7];
 [34;45;7;34;40;7;34;35;15;78;69;15;78;67;15;78];
 [60;5;76;90;5;76;85;4;73;61;7;34;42;5;76;88];
 [7;34;43;15;84;37;5;84;40;5;84;35;7;45;37;7];
 [44;126;5;84;41;5;84;38;7;45;33;4;79;126;7;45];
 [40;5;84;34;7;45;43;5;83;125;7;45;42;7;45;44];
 [15;83;123;15;83;124;15;83;125;15;83;126;15;84;34;15];
 [84;35;15;84;36;15;84;38;15;84;39;15;84;43;15;84];
 [44;5;83;126;7;45;38;7;45;39;7;45;35;7;45;34];
 [7;45;36;15;84;33;15;84;40;5;84;39;5;84;33;5];
 [84;37;7;45;41;7;55;75;7;55;84;7;55;79;4;79];
 [125;7;55;77;4;86;35;7;55;83;7;55;74;5;91;54];
 [5;91;52;7;55;76;7;55;78;7;55;80;5;91;53;4];
 [86;37;15;89;108;15;89;109;15;89;110;15;89;111;15;89];
 [112;15;89;113;7;55;82;7;55;85;7;55;73;5;97;75];
 [4;90;124;7;63;63;5;97;76;5;97;77;7;63;62;7];
 [63;64;15;94;80;15;94;81;15;94;82;15;94;84;7;63];
 [61;7;63;65;15;94;83;7;63;60;5;103;95;4;95;83];
 [7;70;77;7;70;82;7;70;80;15;94;85;15;98;42;15];
 [98;43;7;70;78;5;103;97;5;103;96;15;95;115;7;77];
 [81;5;107;121;15;101;38;5;107;122;5;107;123;7;83;42];
 [5;111;118;7;83;43;5;111;117;15;103;77;15;103;78;7];
 [87;98;5;115;54;7;87;97;7;87;99;7;87;95;15;105];
 [63;7;87;96;7;87;100;15;105;64;5;117;105;7;91;76];
 [7;94;90;7;94;91;15;107;69;7;94;89;7;94;92;15];
 [108;36;5;121;36;15;108;74;7;99;77;5;122;101;4;33];
 [51;6;34;104;5;33;99;6;34;105;15;33;88;15;33;87];
 [6;36;69;6;36;68;6;38;118;6;38;119;5;35;106;4];
 [35;108;15;35;112;5;35;105;4;40;111;6;48;36;6;42];
 [99;6;42;98;15;38;74;15;38;75;15;38;76;15;38;77];
 [15;38;79;6;42;100;15;38;78;6;48;35;6;48;33;6];
 [48;38;6;48;37;15;42;53;15;42;54;15;42;55;6;48];
 [34;6;54;89;5;44;121;6;54;88;15;46;122;15;46;123];
 [5;44;122;15;51;102;15;52;36;15;52;37;15;52;38;15];
 [52;39;5;55;92;6;71;105;5;55;91;6;71;106;15;58];
 [71;6;71;104;15;58;70;4;60;102;4;60;104;6;81;109];
 [5;62;98;15;65;37;15;65;38;6;81;107;6;81;108;5];
 [62;97;4;60;105;6;91;125;15;71;85;15;71;86;5;69];
 [56;4;73;65;4;73;66;15;78;70;5;76;93;7;45;47];
 [7;45;46;7;45;49;7;45;50;5;84;42;7;45;48;15];
 [84;45;15;84;46;7;55;86;7;77;82;15;98;44;15;98];
 [45;5;107;124;15;108;96;6;33;105;5;33;100;6;36;70];
 [6;36;73;6;36;74;4;34;90;15;34;61;15;34;62;15];
 [34;63;15;34;64;15;34;65;6;36;71;6;38;126;6;38];
 [125;4;35;110;6;38;123;6;38;124;15;35;114;5;37;101];
 [5;37;100;6;42;102;5;37;102;6;42;103;6;42;104;15];
 [38;81;15;38;82;15;38;84;15;38;85;6;42;101;15;38];
 [83;5;40;108;6;48;40;6;48;42;5;40;109;4;40;113];
 [4;40;114;4;40;115;6;48;43;6;48;39;6;48;41;15];
 [42;56;15;42;58;15;42;59;15;42;60;6;48;44;6;48];
 [45;4;44;74;6;54;97;4;44;69;4;44;68;4;44;67];
 [4;44;71;6;54;100;6;54;101;6;54;95;6;54;94;5];
 [44;125;5;45;34;6;54;91;6;54;98;15;46;124;15;46];
 [125;6;54;96;6;54;99;6;54;90;6;54;92;5;45;33];
 [5;44;126;4;49;45;5;49;111;6;62;87;6;62;89;6];
 [62;88;6;62;86;6;62;91;5;49;112;15;52;40;15;52];
 [41;15;52;42;15;52;43;15;52;44;15;52;45;15;52;46];
 [15;52;47;4;49;47;6;62;92;5;49;110;6;62;85;5];
 [55;94;4;55;38;5;55;97;6;71;112;6;71;107;4;55];
 [35;5;55;93;5;55;96;6;71;110;4;55;37;5;55;95];
 [6;71;111;6;71;108;15;58;72;15;58;73;15;58;74;15];
 [58;75;15;58;76;15;58;77;15;58;78;15;58;79;6;71];
 [109;5;55;98;15;61;108;6;81;116;6;81;112;4;60;107];
 [4;60;112;5;62;99;6;81;119;5;62;100;6;81;114;6];
 [81;113;6;81;118;4;60;109;6;81;115;6;81;111;6;81];
 [117;15;65;39;15;65;40;15;65;41;15;65;42;15;65;44];
 [15;65;45;15;65;46;6;81;110;6;91;126;6;92;39;5];
 [69;60;5;69;58;6;92;36;6;92;44;4;66;118;6;92];
 [46;6;92;43;6;92;38;5;69;57;7;34;51;15;71;87];
 [15;71;88;15;71;89;15;71;90;6;92;40;6;92;37;6];
 [92;41;6;92;45;6;92;33;6;92;35;5;69;59;6;92];
 [42;15;71;68;6;98;103;7;34;48;5;76;94;4;73;71];
 [7;34;55;4;73;72;7;34;53;7;34;50;15;78;71;15];
 [78;72;15;78;73;15;78;74;15;78;75;15;78;76;15;78];
 [78;15;78;79;7;34;56;7;34;54;15;78;77;5;76;97];
 [5;76;95;7;34;49;5;76;96;7;45;53;7;45;55;5];
 [84;44;4;80;34;5;84;45;5;84;43;7;45;54;7;45];
 [51;7;45;52;15;84;47;15;84;48;15;84;49;15;84;51];
 [15;84;52;15;84;53;15;84;54;15;84;55;7;55;89;7];
 [55;87;5;91;56;15;89;114;15;89;115;15;89;116;15;89];
 [117;7;55;88;7;55;90;7;34;52;5;91;55;7;70;88];
 [5;97;78;15;89;118;15;94;86;15;94;87;7;63;66;15];
 [98;46;4;95;87;7;70;83;7;70;85;4;95;86;7;70];
 [87;7;70;86;15;98;47;7;70;84;4;99;54;7;77;83];
 [7;83;44;4;102;56;7;83;45;15;103;79;15;103;80;7];
 [83;46;5;115;56;4;104;102;7;87;101;5;115;55;7;87];
 [102;4;106;69;4;107;103;15;107;70;7;96;108;7;100;69];
 [5;121;37;15;108;37;4;109;84;5;122;39;4;109;113;7];
 [99;78;7;101;52;6;33;106;6;42;106;6;42;105;15;38];
 [86;15;38;87;5;40;111;6;48;46;15;42;61;6;48;49];
 [6;48;47;4;49;49;6;67;103;6;62;94;6;62;93;4];
 [55;39;6;62;95;6;81;122;6;81;120;6;81;121;6;92];
 [48;4;68;38;15;71;91;6;92;49;5;69;61;15;78;81];
 [7;34;58;7;34;57;7;45;57;5;83;82;7;45;56;7];
 [55;91;7;55;92;5;97;79;7;70;89;7;77;84;7;83];
 [47;6;33;107;15;33;57;6;36;76;5;34;76;6;39;36];
 [4;35;114;6;39;35;6;39;34;15;35;115;5;37;103;15];
 [38;88;6;42;107;6;48;50;6;48;48;6;48;51;5;40];
 [112;4;44;75;15;47;33;6;54;105;6;62;97;5;49;113];
 [5;55;99;6;62;99;6;62;96;6;62;98;15;52;48;6];
 [71;113;15;58;80;6;71;115;6;71;114;5;62;101;15;65];
 [47;5;69;62;6;92;51;6;92;50;5;76;98;7;34;59];
 [5;84;47;7;45;58;15;89;119;5;97;80;5;111;119;4];
 [33;74;15;33;58;5;33;101;15;33;77;15;33;90;6;34];
 [107;6;34;106;5;34;77;15;34;67;5;35;108;4;35;115];
 [5;37;104;6;39;37;5;35;107;5;35;110;5;35;109;6];
 [48;52;5;37;105;6;42;108;5;37;107;15;38;89;6;48];
 [53;5;37;106;5;40;113;6;48;55;6;48;56;5;40;114];
 [6;48;57;5;45;35;6;54;108;6;54;106;5;45;36;6];
 [54;107;6;54;109;15;47;34;6;62;102;5;49;114;4;49];
 [52;5;49;116;6;71;118;6;71;116;6;71;117;4;55;42];
 [6;71;119;15;58;81;6;81;123;6;81;125;6;81;124;5];
 [72;38;4;66;122;6;92;52;5;69;64;5;69;63;6;92];
 [53;5;69;65;7;45;61;7;34;62;7;34;61;7;34;60];
 [7;45;59;5;84;48;7;45;60;7;45;62;15;84;56;7];
 [55;93;4;102;57;4;104;103;5;121;38;6;33;62;4;33];
 [117;4;33;116;6;34;108;6;36;77;4;34;94;5;34;78];
 [6;36;78;6;36;80;6;36;81;6;36;79;15;34;68;6];
 [39;41;15;35;116;6;39;39;6;39;38;6;39;40;5;35];
 [111;4;38;44;4;38;43;6;42;109;6;42;110;5;37;108];
 [6;42;111;15;38;91;5;37;109;4;40;119;6;48;58;6];
 [48;63;4;40;122;4;40;118;5;40;117;6;48;62;6;48];
 [61;6;48;60;6;48;59;15;42;64;15;42;65;15;42;66];
 [15;42;67;15;42;68;15;42;63;6;48;64;5;40;116;6];
 [54;114;4;44;80;6;54;111;4;44;79;6;62;103;6;54];
 [112;6;54;110;15;47;35;15;47;36;15;47;38;15;47;39];
 [15;47;40;5;45;38;5;45;39;6;54;113;6;54;115;5];
 [45;37;6;54;116;6;62;109;6;62;105;5;49;120;5;49];
 [122;5;49;119;5;49;121;5;49;118;5;49;123;6;62;112];
 [6;62;106;15;52;49;15;52;50;15;52;53;15;52;54;15];
 [52;55;15;52;56;15;52;57;15;52;58;6;62;104;6;62];
 [108;6;62;111;6;62;110;15;52;51;6;72;35;6;72;36];
 [6;72;34;4;55;44;6;71;126;6;71;122;5;55;100;4];
 [55;45;5;55;101;6;71;121;6;71;120;6;72;37;6;72];
 [33;6;72;38;6;71;124;15;58;82;15;58;83;15;58;84];
 [6;71;125;4;55;46;6;82;35;5;62;105;5;62;103;6];
 [82;38;5;62;104;6;82;37;6;82;41;6;82;33;6;81];
 [126;6;82;39;6;82;36;15;65;48;15;65;49;15;65;50];
 [6;82;34;6;82;40;5;62;102;4;66;124;4;66;126;4];
 [66;123;6;92;56;6;92;54;6;92;55;15;71;93;6;92];
 [57;5;69;66;7;34;64;5;76;102;15;78;82;15;78;83];
 [15;78;84;15;78;85;15;78;86;5;76;101;5;76;100;7];
 [45;64;7;45;63;7;34;63;15;84;57;7;48;45;7;55];
 [94;7;63;67;4;95;88;5;103;98;15;101;39;15;101;40];
 [5;107;125;15;103;81;5;115;58;5;33;48;6;33;108;6];
 [34;109;6;36;84;6;36;83;6;36;82;5;34;79;4;35];
 [117;6;39;42;4;38;45;6;42;113;6;42;112;5;40;119];
 [6;48;66;6;48;67;5;40;118;6;48;68;6;54;119;6];
 [54;120;6;54;118;6;53;40;6;54;117;6;62;113;6;62];
 [114;6;72;40;5;55;103;6;72;41;6;72;39;15;58;85];
 [6;82;42;6;92;58;7;34;65;7;45;65;7;34;66;7];
 [34;67;7;83;48;7;94;93;5;33;69;5;33;70;6;34];
 [112;6;34;110;6;34;114;6;34;113;15;33;92;15;33;93];
 [15;33;94;6;34;115;5;33;102;6;34;111;6;36;87;6];
 [36;85;6;36;89;3;35;89;15;34;69;15;34;70;6;36];
 [86;5;34;83;6;36;90;6;36;88;5;34;82;6;39;46];
 [5;35;113;5;35;120;5;35;121;6;39;48;5;35;118;5];
 [35;117;5;35;119;5;35;114;5;35;115;6;39;49;6;39];
 [44;6;39;50;15;35;118;15;35;119;15;35;121;15;35;122];
 [15;35;123;15;35;126;15;36;33;6;39;45;6;39;47;4];
 [35;125;15;35;125;6;39;52;6;39;51;4;35;124;6;39];
 [43;5;35;122;4;38;48;5;37;117;6;42;117;4;38;51];
 [6;42;114;5;37;115;5;37;116;6;42;122;5;37;113;6];
 [42;119;6;42;124;5;37;111;6;42;121;5;37;114;5;37];
 [112;6;42;116;6;39;53;15;38;92;15;38;93;15;38;94];
 [15;38;95;15;38;96;15;38;97;15;38;99;15;38;100;15];
 [38;101;15;38;102;15;38;103;15;38;104;6;42;120;6;45];
 [43;6;42;115;5;37;118;6;48;80;6;48;74;5;40;120];
 [6;48;75;5;40;121;4;40;126;5;40;122;6;48;70;6];
 [48;73;6;48;82;15;42;69;15;42;71;15;42;72;15;42];
 [75;15;42;76;15;42;77;15;42;78;15;42;79;15;42;80];
 [15;42;81;6;48;77;6;48;69;6;48;71;6;48;81;6];
 [48;79;6;48;76;15;42;74;15;42;70;6;48;72;5;40];
 [123;4;40;124;5;45;44;5;45;41;4;44;82;4;44;89];
 [5;45;42;6;55;33;4;44;88;5;45;52;5;45;48;5];
 [45;43;6;54;125;5;45;49;5;45;45;5;45;47;6;55];
 [36;6;54;126;4;44;98;6;54;121;4;44;99;4;44;86];
 [6;55;37;6;55;34;6;55;35;6;54;123;15;47;41;15];
 [47;42;15;47;43;15;47;44;15;47;45;15;47;46;15;47];
 [47;15;47;49;15;47;51;5;45;40;15;47;48;15;47;50];
 [5;45;51;4;44;93;5;45;53;5;45;54;5;45;50;6];
 [59;78;4;49;58;6;63;43;6;63;36;6;63;38;4;49];
 [60;4;49;62;5;49;126;6;62;121;6;63;34;6;62;123];
 [5;50;40;4;49;56;6;63;39;6;63;44;6;63;41;6];
 [62;116;6;63;42;4;49;64;4;49;59;5;49;124;5;50];
 [38;6;62;115;4;49;54;5;49;125;5;50;36;6;63;40];
 [6;63;35;15;52;59;15;52;60;15;52;61;15;52;62;15];
 [52;64;15;52;65;15;52;66;15;52;67;15;52;68;15;52];
 [70;15;52;71;15;52;72;6;62;119;6;50;42;6;62;125];
 [6;62;124;6;62;126;6;63;33;6;63;37;4;49;63;5];
 [50;41;5;50;33;5;50;39;5;50;35;5;50;34;5;50];
 [37;5;50;42;5;55;105;6;72;51;5;55;110;6;72;42];
 [6;72;52;5;55;111;5;55;108;5;55;107;4;55;48;5];
 [55;112;5;55;106;5;55;113;5;55;114;5;55;116;6;72];
 [46;6;62;122;4;55;49;6;72;47;5;55;109;4;55;51];
 [5;55;104;5;55;115;15;58;86;15;58;88;15;58;89;15];
 [58;90;15;58;91;6;72;45;5;55;117;6;72;50;6;72];
 [44;6;72;49;6;72;48;15;58;92;5;62;112;6;82;45];
 [5;62;108;4;60;122;5;62;113;6;82;46;6;92;59;4];
 [60;125;6;82;53;5;62;106;5;62;115;6;82;43;5;62];
 [111;6;82;44;6;82;57;6;82;48;6;82;56;5;62;110];
 [6;82;54;6;92;64;15;65;55;5;62;114;15;65;51;15];
 [65;52;15;65;54;15;65;56;15;65;57;6;82;58;6;82];
 [50;6;82;55;5;62;107;15;65;53;6;82;47;5;69;67];
 [5;69;75;5;69;73;6;92;65;6;92;60;4;67;43;4];
 [67;38;4;67;37;5;69;68;5;69;72;5;69;71;5;69];
 [74;5;69;78;6;92;62;6;92;71;5;69;77;5;69;69];
 [5;69;70;6;92;66;4;67;41;6;92;70;4;67;39;4];
 [67;35;5;69;76;6;92;69;6;92;67;6;92;63;4;67];
 [40;15;71;94;15;71;95;15;71;96;15;71;97;6;82;49];
 [4;73;78;7;34;73;4;73;82;7;34;69;5;76;105;7];
 [34;80;7;34;74;5;76;110;5;76;103;7;34;71;7;34];
 [81;5;76;111;7;34;79;7;34;76;7;34;77;5;76;112];
 [5;76;106;5;76;109;7;45;68;7;34;70;15;78;87;15];
 [78;88;15;78;89;15;78;91;15;78;92;7;34;68;7;34];
 [75;7;34;78;5;76;107;7;34;72;4;73;81;5;84;51];
 [4;80;35;7;45;74;4;80;36;5;84;53;7;45;66;5];
 [84;56;5;84;52;5;84;49;7;45;71;7;45;67;5;91];
 [57;5;84;50;15;84;58;15;84;59;15;84;60;7;45;69];
 [7;45;73;7;45;72;7;45;75;7;45;70;7;45;77;5];
 [84;55;4;86;41;5;91;59;5;97;85;7;55;96;5;91];
 [63;7;55;102;5;91;58;7;55;98;7;55;100;7;55;97];
 [5;91;61;7;55;95;7;55;101;15;89;121;15;89;122;15];
 [89;123;4;86;42;7;55;99;7;55;103;7;57;39;5;91];
 [64;7;70;90;5;97;84;7;63;71;4;90;126;5;97;81];
 [5;97;82;7;63;73;15;94;89;5;97;83;7;63;70;15];
 [94;88;7;63;69;7;63;72;5;97;86;5;97;87;7;70];
 [92;4;95;91;7;70;94;5;103;101;4;95;89;7;70;93];
 [7;70;95;7;70;96;15;98;48;15;98;49;15;98;50;7];
 [70;97;7;70;98;7;70;91;4;99;56;7;77;85;4;99];
 [55;5;107;126;7;77;87;15;101;41;7;77;86;5;91;62];
 [5;111;120;5;111;122;5;111;121;7;83;50;7;83;49;5];
 [115;59;4;104;105;4;104;106;7;87;103;7;87;105;7;87];
 [104;7;87;106;5;115;60;7;94;94;4;107;106;4;107;105];
 [7;94;96;5;119;88;7;94;95;5;121;39;15;108;38;5];
 [122;40;5;122;102;5;123;60;7;99;79;5;124;52;6;33];
 [109;4;33;37;4;34;98;5;34;84;6;36;91;6;36;92];
 [5;34;85;6;35;126;4;35;126;5;35;123;6;42;125;15];
 [38;106;15;38;105;6;48;85;6;48;84;6;48;86;6;48];
 [83;6;55;38;5;50;43;4;49;65;6;63;45;5;55;118];
 [6;92;72;7;34;82;5;84;57;15;78;93;15;84;61;7];
 [55;104;7;63;74;7;70;99;5;103;102;7;94;97;7;101];
 [53;6;33;111;6;33;113;6;33;112;15;33;59;5;33;104];
 [5;33;103;5;35;124;6;39;55;15;38;107;6;48;87;6];
 [55;40;15;47;52;6;63;46;15;58;94;7;34;83;7;70];
 [100;6;34;116;5;34;86;6;42;126;6;48;89;6;48;88];
 [4;44;101;6;63;47;5;53;95;5;50;45;6;63;48;5];
 [50;44;6;72;54;15;58;95;15;58;96;15;58;97;7;34];
 [84;7;63;75;4;33;119;6;34;117;6;34;118;5;34;89];
 [5;34;88;4;34;100;5;34;91;6;36;97;6;36;96;6];
 [36;94;15;34;72;15;34;74;5;34;87;6;36;95;5;34];
 [90;6;39;65;6;39;59;5;36;34;6;39;56;5;35;126];
 [5;35;125;5;36;35;6;39;64;5;36;36;6;39;60;6];
 [39;63;5;36;33;15;36;36;6;39;57;6;39;58;6;39];
 [61;5;36;37;6;39;62;5;37;123;4;38;53;5;37;121];
 [5;37;125;5;37;122;5;37;124;5;38;33;6;43;35;5];
 [37;126;5;38;34;6;43;34;15;38;108;5;38;35;6;43];
 [33;5;37;119;5;37;120;5;40;126;6;48;98;5;40;125];
 [5;41;34;5;40;124;5;41;35;6;48;95;5;41;37;5];
 [41;36;6;48;91;5;41;33;6;48;90;6;48;101;6;48];
 [103;15;42;83;15;42;84;15;42;85;4;41;38;6;48;97];
 [6;48;96;6;48;92;6;48;93;6;48;102;6;48;100;6];
 [48;94;5;45;56;6;55;50;5;45;55;6;55;46;5;45];
 [57;5;50;46;6;55;42;4;44;105;4;44;106;6;55;47];
 [5;45;58;6;55;45;6;55;49;6;55;48;4;44;103;6];
 [55;51;6;55;52;15;47;54;15;47;53;6;55;41;6;55];
 [43;6;63;53;5;50;53;4;49;70;4;49;67;4;49;68];
 [5;50;51;5;50;47;6;63;58;5;50;48;5;50;52;6];
 [63;60;5;50;49;5;50;54;6;63;54;6;63;59;6;63];
 [50;5;50;50;6;63;52;15;52;73;15;52;74;15;52;75];
 [15;52;76;6;63;57;6;63;49;6;63;61;6;63;55;6];
 [63;51;6;72;57;4;55;62;6;72;62;5;55;121;5;55];
 [122;4;55;56;5;55;120;6;72;58;4;55;55;5;56;33];
 [5;56;34;6;63;56;6;72;64;6;72;61;6;72;59;5];
 [55;125;6;72;56;15;58;98;15;58;99;6;72;63;5;55];
 [123;5;55;119;6;72;65;5;55;126;15;64;43;5;62;120];
 [4;61;34;5;69;82;4;61;37;5;62;117;5;62;116;4];
 [61;36;5;62;119;5;62;122;6;82;62;6;82;59;6;82];
 [61;6;92;75;5;62;123;6;82;60;5;62;118;5;62;121];
 [6;92;76;6;92;77;5;69;88;4;67;52;5;69;79;5];
 [69;85;6;92;74;5;69;84;5;69;87;15;71;98;5;69];
 [89;5;69;80;5;69;86;5;69;81;7;34;87;7;34;89];
 [5;76;116;5;76;115;5;76;117;4;73;87;5;76;118;5];
 [76;120;4;73;86;7;34;86;7;34;85;7;34;88;5;76];
 [119;5;76;121;5;76;114;7;45;80;5;84;62;7;45;82];
 [7;45;88;5;84;61;4;80;40;7;45;87;7;45;86;5];
 [84;59;7;45;81;5;84;60;7;45;84;5;84;63;7;45];
 [79;4;80;42;5;91;65;5;91;66;4;86;44;7;55;107];
 [15;89;124;7;55;105;7;55;106;5;97;90;5;97;89;5];
 [97;88;7;70;102;4;95;93;5;103;103;4;95;92;7;70];
 [101;7;70;103;5;103;104;15;98;51;7;77;88;5;108;33];
 [7;83;51;7;87;108;5;111;123;5;115;61;7;87;107;7];
 [94;98;7;94;99;5;119;89;7;99;80;7;99;117;4;33];
 [120;6;39;66;5;36;38;4;36;38;6;43;36;15;38;109];
 [15;38;110;6;48;105;6;48;104;15;42;86;6;55;53;5];
 [50;55;6;72;66;5;56;35;6;82;63;5;69;90;15;71];
 [100;7;77;89;15;106;78;6;33;114;6;33;115;6;34;120];
 [5;33;105;6;34;119;15;33;98;4;34;103;4;36;39;5];
 [36;39;15;36;38;6;41;94;6;43;37;5;38;36;5;38];
 [37;6;48;106;6;48;65;4;47;39;6;55;54;4;49;74];
 [6;72;67;5;62;124;5;69;91;7;34;91;15;71;101;6];
 [92;78;15;78;95;7;34;92;7;34;93;4;86;38;7;87];
 [109;4;34;104;5;34;94;6;36;100;5;34;93;6;36;99];
 [6;36;98;6;36;102;4;34;105;6;36;101;6;39;69;5];
 [36;42;5;36;44;5;36;43;5;36;40;5;36;41;6;39];
 [68;6;39;72;6;43;40;6;39;67;6;39;70;5;36;45];
 [5;38;44;5;38;40;5;38;39;5;38;43;5;38;42;4];
 [38;57;6;43;38;6;43;41;6;43;39;4;38;62;6;43];
 [42;15;38;112;15;38;113;15;38;114;15;38;115;15;38;116];
 [5;38;41;5;38;45;6;43;43;5;41;40;5;41;42;4];
 [41;39;6;48;108;5;41;41;6;48;109;15;42;87;15;42];
 [89;15;42;88;15;42;90;15;42;91;15;42;92;6;48;107];
 [5;45;61;5;45;64;5;45;62;5;45;65;5;45;59;6];
 [55;58;6;55;59;4;44;110;5;45;66;5;45;63;6;55];
 [60;5;45;60;6;55;57;15;47;55;6;55;55;6;55;56];
 [5;44;123;5;50;68;5;50;59;5;50;57;4;49;77;6];
 [63;67;5;50;66;6;63;72;6;63;62;5;50;61;5;50];
 [60;5;50;63;5;50;62;6;63;63;6;63;64;5;50;65];
 [5;50;56;4;49;80;6;63;68;5;50;67;5;56;40;6];
 [63;65;15;52;77;15;52;78;15;52;79;15;52;80;15;52];
 [81;15;52;82;15;52;83;6;63;71;6;70;61;5;50;58];
 [6;63;66;5;50;64;6;72;74;4;49;75;5;56;43;5];
 [56;44;5;56;45;6;72;75;6;72;78;5;56;39;6;72];
 [77;4;55;66;5;56;42;5;56;38;6;72;73;4;55;67];
 [5;56;37;6;82;68;6;72;70;6;72;71;5;56;36;15];
 [58;101;15;58;103;15;58;104;15;58;105;15;58;106;6;72];
 [72;6;72;76;15;58;102;4;61;43;5;63;37;4;61;44];
 [6;82;65;6;82;66;5;63;34;5;63;35;6;82;71;5];
 [62;125;6;82;69;15;65;58;15;65;59;15;65;60;6;82];
 [67;6;82;72;5;63;36;5;62;126;6;82;70;4;67;56];
 [5;69;92;4;67;55;5;69;94;6;92;80;5;69;96;5];
 [69;95;6;92;79;15;71;103;15;71;104;15;71;105;15;71];
 [106;15;71;107;15;71;108;15;71;109;15;71;110;15;71;111];
 [6;92;81;6;96;49;15;74;84;7;34;94;4;73;90;4];
 [55;63;4;73;88;5;76;122;4;73;89;7;45;89;7;34];
 [98;5;76;124;5;76;126;15;78;96;15;78;98;15;78;99];
 [7;34;95;7;34;97;7;34;99;7;34;96;5;76;123;5];
 [84;65;5;76;125;5;84;67;5;84;64;4;80;45;5;84];
 [68;15;84;63;15;84;64;15;84;65;15;84;66;7;55;110];
 [5;91;68;7;55;108;7;55;109;15;89;126;15;90;33;15];
 [90;34;15;90;35;5;91;67;7;55;111;5;91;69;7;63];
 [81;7;63;78;5;97;91;15;94;90;15;94;92;7;63;77];
 [7;63;79;7;63;76;15;94;91;7;63;80;7;70;104;7];
 [70;105;5;97;92;5;103;105;15;98;52;15;98;53;15;98];
 [54;5;103;106;5;108;36;5;108;35;7;77;93;7;77;91];
 [5;108;34;7;77;90;7;77;92;7;77;94;4;102;60;7];
 [83;52;7;83;97;5;115;62;7;87;110;7;87;111;5;117];
 [106;15;106;79;7;91;77;7;94;100;7;98;54;5;122;104];
 [5;122;103;15;108;123;15;33;99;15;34;75;15;34;76;6];
 [43;44;15;36;39;6;43;45;6;43;46;15;47;57;15;47];
 [59;15;47;60;15;47;58;5;50;69;15;52;84;6;72;79];
 [15;58;107;15;58;108;5;63;38;6;33;63;6;33;117;6];
 [34;121;6;39;73;4;36;42;6;48;112;6;39;77;15;36];
 [40;6;39;75;6;39;78;4;38;63;6;43;48;5;38;46];
 [6;43;49;3;42;57;4;39;65;6;53;35;6;48;114;6];
 [48;115;6;48;113;6;48;111;6;48;110;6;55;63;6;55];
 [62;4;44;111;6;55;61;6;55;64;6;63;73;6;63;74];
 [6;63;75;6;63;76;6;63;77;6;63;78;4;55;68;6];
 [72;80;6;72;84;6;72;83;6;72;81;15;58;109;6;72];
 [82;6;82;73;5;63;39;15;65;61;6;92;83;6;92;84];
 [6;92;82;5;69;97;7;34;100;7;45;90;7;45;92;4];
 [80;47;5;84;69;7;55;113;7;55;112;7;87;112;7;99];
 [81;7;99;82;7;101;54;6;33;64;6;33;118;15;34;77];
 [4;36;43;6;39;80;6;39;79;5;36;46;6;43;50;6];
 [48;118;6;48;117;6;48;119;5;46;104;6;63;79;5;56];
 [46;6;82;74;6;92;85;7;34;101;7;45;93;5;33;42];
 [5;33;71;6;33;120;6;33;124;6;33;119;6;33;122;6];
 [33;123;6;35;33;6;35;34;6;34;124;6;34;122;6;35];
 [35;6;34;123;6;34;125;6;34;126;5;33;106;5;34;96];
 [5;34;95;6;36;104;6;36;105;6;36;106;6;36;107;5];
 [36;47;6;39;81;5;36;49;6;39;83;5;36;48;15;36];
 [41;15;36;42;15;36;43;15;36;44;6;39;82;5;36;50];
 [5;38;47;6;43;54;6;43;51;6;43;52;6;43;55;6];
 [43;53;6;48;126;5;41;44;6;48;125;4;41;48;6;48];
 [121;5;41;43;6;48;120;5;45;68;5;45;67;5;45;69];
 [6;55;67;6;55;65;5;45;70;15;47;61;6;55;66;5];
 [50;74;5;50;72;5;50;73;6;63;86;6;63;80;4;41];
 [47;6;72;85;6;63;82;6;63;83;5;50;71;6;63;81];
 [15;52;85;15;52;86;15;52;87;6;63;84;6;63;87;6];
 [63;85;6;72;86;6;72;89;5;56;47;5;56;50;5;56];
 [49;6;72;90;5;56;48;6;72;88;6;72;87;5;63;40];
 [4;61;49;6;82;75;15;65;64;6;82;76;5;69;98;6];
 [92;86;5;69;99;6;92;87;6;92;89;15;71;112;6;92];
 [90;6;92;88;5;77;33;5;77;34;4;73;96;7;34;102];
 [15;78;100;15;78;101;7;34;103;7;45;95;5;84;70;4];
 [80;48;7;45;96;7;45;94;7;55;115;7;55;114;7;55];
 [116;15;90;36;4;91;34;5;97;94;7;63;82;15;94;93];
 [5;97;93;7;70;109;7;70;107;7;70;111;7;70;106;7];
 [70;108;5;103;107;5;108;37;7;77;95;4;95;95;7;77];
 [97;7;77;96;5;108;38;5;111;124;5;111;125;4;102;61];
 [7;83;53;5;115;63;7;96;60;7;96;111;7;100;70;6];
 [36;110;6;36;108;6;36;109;5;36;51;6;49;33;6;43];
 [56;6;45;50;6;49;36;6;55;68;6;49;34;6;49;35];
 [6;55;70;6;55;69;6;63;88;6;79;33;5;56;51;6];
 [72;92;6;72;91;5;63;42;6;92;92;6;92;95;6;92];
 [93;6;92;91;6;92;94;7;45;97;7;45;78;4;80;50];
 [7;55;117;7;63;85;7;63;84;7;63;83;7;70;114;7];
 [70;112;7;70;113;7;87;113;7;91;78;7;98;55;6;35];
 [37;6;35;36;15;33;100;6;36;113;6;36;111;15;36;45];
 [6;39;84;5;38;48;6;43;59;6;43;58;6;55;71;4];
 [44;116;4;44;115;5;53;96;6;63;93;6;63;89;6;63];
 [90;15;52;88;15;52;89;15;52;90;6;63;92;6;63;91];
 [5;50;75;6;72;93;6;72;96;6;72;94;6;72;95;15];
 [58;110;6;82;81;6;82;78;6;82;80;6;82;79;15;65];
 [65;4;67;60;6;92;96;7;34;107;7;34;108;7;34;105];
 [7;34;106;5;77;35;4;80;51;5;84;71;7;45;100;7];
 [55;118;7;63;86;15;103;84;7;77;98;7;83;54;5;115];
 [65;15;108;39;6;33;125;5;33;107;4;33;121;5;34;97];
 [4;34;110;5;34;98;5;36;52;6;39;88;5;36;53;6];
 [39;87;6;39;89;6;39;91;6;39;86;5;36;54;6;39];
 [85;6;39;90;5;38;51;6;43;61;5;38;49;6;43;60];
 [5;38;50;5;41;45;6;43;63;4;41;51;6;49;38;5];
 [41;48;5;41;46;6;49;40;5;41;50;5;41;49;15;42];
 [94;6;49;39;6;55;77;4;44;121;4;44;119;4;44;124];
 [4;44;117;5;45;75;5;45;73;4;44;120;4;44;122;4];
 [44;118;4;44;123;5;45;74;6;55;73;6;55;79;6;55];
 [76;15;47;63;15;47;64;6;55;75;6;55;80;6;55;78];
 [6;55;74;4;49;86;5;50;79;6;63;104;6;63;97;5];
 [50;76;5;50;81;5;50;78;6;63;96;5;50;80;4;49];
 [88;6;63;103;6;63;101;6;63;98;4;49;89;6;63;102];
 [5;50;77;6;63;100;6;63;95;6;63;99;6;72;100;15];
 [52;92;4;55;70;5;56;54;5;56;53;5;56;59;5;56];
 [58;5;56;55;4;55;71;6;72;97;5;56;52;6;72;99];
 [5;56;56;4;49;85;15;58;112;6;72;98;15;58;111;5];
 [56;57;5;63;44;5;63;43;6;82;82;6;82;84;6;82];
 [87;6;82;83;15;65;66;15;65;67;15;65;68;15;65;69];
 [15;65;70;15;65;71;6;82;85;6;82;86;6;86;108;5];
 [63;45;4;61;50;6;92;102;6;92;99;5;69;102;6;92];
 [98;4;67;62;5;69;101;4;67;65;4;67;64;6;92;97];
 [5;69;104;5;69;106;5;69;100;6;92;104;6;92;105;6];
 [92;106;5;69;103;6;92;100;15;71;113;15;71;114;15;71];
 [115;15;71;116;15;71;117;6;92;101;4;73;100;5;77;36];
 [5;91;72;4;73;99;4;73;98;5;77;37;7;34;109;7];
 [34;111;15;78;102;15;78;103;7;34;110;7;34;112;7;45];
 [101;5;84;72;5;84;74;7;45;103;7;45;102;15;84;68];
 [15;84;69;7;45;104;5;84;73;5;91;71;7;55;119;4];
 [86;48;15;92;95;5;91;70;5;97;96;7;63;87;5;97];
 [95;7;63;88;15;94;94;5;97;97;7;70;115;7;70;117];
 [7;70;118;7;77;34;7;70;116;5;108;39;4;99;62;4];
 [99;61;15;101;42;7;77;99;7;83;55;5;111;126;7;87];
 [114;4;106;71;5;121;40;5;33;49;6;34;33;4;34;111];
 [5;33;108;6;35;38;15;34;79;6;36;117;5;34;99;6];
 [39;96;5;34;105;6;39;93;5;34;100;6;36;115;6;36];
 [116;5;34;101;6;39;92;6;39;94;6;39;97;6;36;114];
 [5;34;104;5;36;55;5;36;57;4;38;69;6;39;102;6];
 [39;100;6;43;70;6;39;103;6;43;64;6;39;98;6;39];
 [99;6;43;68;6;39;101;6;39;104;3;37;126;6;39;105];
 [5;36;58;15;36;46;15;36;47;15;36;49;15;36;50;15];
 [36;52;15;36;53;15;36;54;15;38;119;15;38;120;15;38];
 [121;15;38;122;15;38;123;15;38;125;15;38;126;15;39;33];
 [15;38;124;6;43;69;6;43;65;6;43;66;4;36;45;15];
 [36;48;4;38;68;5;38;52;6;43;67;4;38;71;6;43];
 [76;4;41;71;6;49;47;4;38;75;6;43;77;6;49;41];
 [5;38;53;6;49;44;6;43;79;4;38;74;5;38;55;4];
 [41;56;5;38;54;4;41;67;6;43;73;5;38;56;4;38];
 [81;4;41;68;6;49;42;6;49;43;6;43;80;6;43;71];
 [6;49;45;15;38;117;15;39;34;15;42;112;4;41;70;6];
 [49;46;6;43;72;6;43;74;6;43;78;6;43;75;15;42];
 [100;15;42;95;15;42;98;15;42;101;15;42;104;15;42;108];
 [6;55;91;6;55;89;6;49;50;4;41;73;5;41;55;4];
 [41;66;4;45;41;5;45;78;5;41;54;6;49;57;6;55];
 [87;6;49;51;4;44;125;5;45;76;6;49;53;6;55;83];
 [4;45;33;6;49;56;5;41;52;4;44;126;6;49;58;6];
 [49;49;6;49;55;6;55;86;6;55;85;4;45;42;6;49];
 [52;15;42;97;15;42;102;15;42;105;15;42;107;15;42;109];
 [15;42;110;15;42;111;15;47;70;15;47;71;15;47;72;15];
 [47;74;6;55;82;15;47;68;6;55;88;15;42;99;5;45];
 [77;6;55;81;5;45;82;5;45;88;5;45;91;6;63;109];
 [6;55;99;6;63;111;6;63;107;6;63;112;6;55;100;5];
 [45;85;6;63;105;4;45;46;6;63;115;5;45;86;4;45];
 [38;5;50;93;5;45;81;5;45;92;6;55;98;6;55;93];
 [5;50;84;6;55;95;6;55;97;6;63;108;6;55;96;6];
 [63;113;4;45;39;5;45;80;6;55;92;5;50;83;6;63];
 [114;6;63;116;5;50;82;5;45;79;15;47;65;15;47;66];
 [15;47;67;15;47;73;15;47;75;15;52;93;15;52;95;15];
 [52;96;15;52;100;15;52;101;15;52;102;15;52;103;15;52];
 [104;6;63;106;6;55;101;6;55;102;5;45;84;5;45;89];
 [4;55;90;6;72;113;4;55;77;5;50;89;6;63;124;4];
 [55;75;6;72;115;6;72;105;5;56;85;6;63;126;6;72];
 [114;6;64;34;4;49;101;5;45;83;4;49;109;6;63;119];
 [6;72;110;4;49;97;5;56;63;5;50;87;5;50;90;4];
 [55;76;6;63;121;5;50;92;6;63;118;6;63;110;4;49];
 [105;5;56;60;6;72;112;5;50;94;4;49;95;6;63;125];
 [6;63;123;6;63;122;6;72;102;6;72;108;5;56;62;5];
 [56;65;6;72;116;5;50;85;6;72;107;6;72;118;6;72];
 [103;6;72;101;6;63;117;5;56;64;15;52;97;15;52;94];
 [15;52;98;15;52;99;15;52;105;15;52;106;15;52;107;15];
 [52;108;15;52;109;15;52;111;15;52;112;15;52;114;15;58];
 [114;15;58;115;15;58;116;15;58;117;15;58;118;15;58;119];
 [15;58;121;15;58;122;15;58;124;15;58;125;15;58;126;15];
 [59;33;15;59;34;15;59;37;15;59;41;15;59;42;15;59];
 [44;15;59;46;6;72;104;5;50;86;6;63;120;15;59;39];
 [15;52;110;6;73;36;6;72;109;6;64;33;15;59;36;4];
 [61;63;5;56;74;5;56;77;5;56;82;4;55;79;4;55];
 [87;4;55;81;6;82;93;6;73;35;5;56;80;6;73;34];
 [4;55;83;5;56;86;5;56;88;5;56;67;6;82;97;5];
 [56;90;5;63;51;4;55;91;5;56;83;6;73;33;5;56];
 [70;6;72;123;5;63;52;5;56;68;5;56;84;5;50;95];
 [6;82;88;5;56;71;4;61;54;4;55;88;5;56;89;5];
 [56;81;5;56;75;5;63;49;6;72;119;5;56;79;5;56];
 [61;6;72;126;6;82;98;6;82;99;6;82;90;6;72;125];
 [5;56;87;6;82;94;6;82;96;5;63;47;4;61;64;4];
 [55;82;5;56;73;6;72;121;15;58;113;15;58;123;15;59];
 [35;15;59;40;15;59;45;15;65;72;15;65;78;15;65;80];
 [15;65;81;15;65;82;6;82;92;6;82;95;6;82;91;6];
 [72;122;15;59;43;5;56;78;5;63;46;5;56;76;15;52];
 [113;15;71;125;5;63;60;5;63;54;5;63;53;6;82;107];
 [5;77;38;5;63;69;6;92;111;5;63;57;5;63;63;5];
 [63;68;6;92;116;6;82;111;5;69;107;5;63;59;6;92];
 [108;6;82;101;5;63;56;5;63;61;5;63;58;6;82;89];
 [4;73;110;6;92;118;6;92;121;5;63;67;6;82;104;6];
 [92;114;4;67;79;6;92;120;6;92;119;5;63;65;5;69];
 [109;5;63;62;6;92;113;6;92;110;6;92;109;5;63;55];
 [6;82;103;6;82;109;15;65;74;15;65;75;15;65;76;15];
 [65;77;15;65;79;15;65;83;15;71;118;15;71;119;15;71];
 [121;15;71;122;15;72;37;15;72;40;6;92;112;6;92;117];
 [5;63;64;15;65;73;6;92;115;6;82;110;6;93;35;6];
 [93;39;4;67;69;4;67;68;5;77;39;6;92;124;5;69];
 [119;5;69;118;5;69;115;4;61;53;6;92;123;7;34;114];
 [7;34;117;5;77;41;5;69;112;5;69;111;5;69;108;5];
 [69;113;5;69;114;5;69;121;6;93;37;6;92;125;6;92];
 [126;6;82;106;6;93;34;7;34;116;6;93;33;7;34;119];
 [5;69;116;5;69;120;7;45;106;4;67;83;15;71;120;15];
 [71;124;15;71;126;15;72;33;15;72;35;15;72;36;15;72];
 [38;15;78;105;15;78;106;15;78;107;15;78;108;15;78;109];
 [15;78;110;15;78;111;15;78;115;15;78;117;7;34;115;7];
 [34;120;6;92;107;5;69;110;6;92;122;5;77;40;5;69];
 [117;7;45;113;4;73;102;4;67;82;7;45;107;4;73;113];
 [7;45;109;5;77;47;7;45;115;4;73;106;5;77;46;7];
 [34;121;5;77;51;4;73;114;7;45;117;5;56;69;5;77];
 [50;5;77;53;4;80;53;4;80;54;7;35;33;5;77;52];
 [7;55;124;5;77;48;5;84;78;4;86;52;7;34;122;7];
 [35;34;5;84;84;5;77;43;5;77;45;5;84;77;5;77];
 [44;7;46;34;7;45;119;7;45;118;7;34;126;4;80;60];
 [7;45;112;7;45;111;15;72;34;15;78;112;7;45;114;5];
 [77;49;7;45;108;15;78;113;15;78;114;15;78;116;15;78];
 [118;15;84;71;15;84;72;15;84;74;15;84;75;15;84;81];
 [15;84;83;7;45;116;5;84;75;7;48;80;7;34;125;7];
 [37;113;4;73;112;5;84;76;5;84;79;15;78;104;15;84];
 [79;5;84;80;5;84;82;7;45;123;7;45;120;5;84;85];
 [5;84;86;5;84;81;7;45;126;7;45;124;7;45;125;5];
 [84;87;4;80;61;5;91;73;7;46;33;7;55;123;7;55];
 [125;7;55;122;7;56;33;5;91;75;7;45;122;7;55;121];
 [7;45;110;15;84;77;5;84;83;7;56;34;15;84;73;15];
 [84;78;15;84;82;15;90;37;15;90;38;15;90;46;15;90];
 [39;5;91;74;5;84;88;15;90;42;15;84;76;7;55;120];
 [5;91;81;4;86;53;4;86;49;4;91;42;5;91;78;5];
 [97;100;5;97;98;7;63;91;7;56;38;4;91;38;5;91];
 [77;5;91;79;7;56;35;7;56;37;5;91;80;5;97;99];
 [7;63;90;5;97;101;7;63;89;7;34;118;15;90;43;15];
 [90;45;15;94;95;15;94;96;15;94;98;15;94;99;15;94];
 [101;15;94;102;15;94;103;7;63;92;7;56;36;15;90;40];
 [4;91;39;5;91;82;7;70;121;7;63;93;5;97;104;7];
 [77;100;4;95;99;4;95;98;7;70;124;5;97;105;7;77];
 [103;4;91;40;5;97;106;7;71;37;7;71;33;7;70;120];
 [5;97;103;7;70;126;5;103;109;7;70;122;5;103;112;7];
 [70;119;7;71;34;7;63;94;7;70;125;5;103;110;15;94];
 [100;5;103;111;7;70;123;5;103;108;15;98;57;7;71;42];
 [4;99;68;7;71;39;5;103;116;7;71;36;5;108;42;7];
 [71;41;7;71;38;7;63;95;5;103;117;4;99;63;5;103];
 [113;5;108;40;7;71;43;7;71;35;7;77;101;5;103;119];
 [15;98;58;15;98;56;15;98;59;15;98;60;15;98;61;7];
 [77;102;5;97;102;5;103;114;15;101;43;5;103;118;5;108];
 [41;7;83;57;7;77;106;4;99;65;7;77;105;4;99;69];
 [7;83;56;7;77;107;15;103;85;7;91;79;4;102;62;5];
 [108;43;7;87;115;7;87;116;7;87;117;7;83;59;7;83];
 [58;7;83;60;15;105;66;7;87;118;7;91;80;7;91;82];
 [7;91;83;7;91;81;15;106;80;15;105;65;15;106;81;15];
 [106;82;7;91;85;5;119;90;7;91;84;7;94;101;15;106];
 [83;15;107;71;15;107;72;5;119;91;7;94;102;5;121;41];
 [7;94;103;15;108;40;15;108;41;4;109;114;15;108;124;15];
 [108;125;5;123;62;5;123;96;15;109;52;5;34;106;4;34];
 [114;6;36;118;6;39;107;5;36;59;6;39;106;6;39;109];
 [6;39;108;4;38;82;6;43;81;6;43;88;6;43;84;6];
 [43;86;4;38;83;6;43;85;6;43;83;6;43;87;15;39];
 [36;15;39;35;6;49;61;6;49;59;6;49;62;6;49;64];
 [4;41;76;6;49;65;6;49;63;15;42;113;15;42;114;6];
 [49;60;6;55;103;5;45;95;6;55;105;5;45;94;6;55];
 [104;5;50;97;4;49;111;6;64;37;15;52;115;15;52;116];
 [6;64;36;5;50;96;6;73;40;6;73;39;6;73;37;6];
 [73;38;4;55;92;6;73;41;15;59;47;5;56;91;5;56];
 [92;15;52;118;4;61;68;6;82;113;5;63;71;5;63;73];
 [15;65;85;4;61;65;6;82;112;5;63;72;6;93;41;6];
 [93;42;5;69;122;5;69;124;5;69;123;7;35;36;5;69];
 [125;15;72;41;15;72;42;6;93;40;5;77;54;4;73;115];
 [4;73;116;7;35;40;7;35;39;7;35;37;6;93;43;7];
 [35;35;15;78;123;7;35;41;7;35;38;15;78;119;15;78];
 [120;15;78;122;7;35;42;7;46;42;7;46;37;7;46;36];
 [7;46;39;7;46;38;7;46;41;7;46;40;7;44;99;7];
 [49;112;7;46;35;7;56;39;5;91;83;15;90;47;7;63];
 [96;7;71;45;4;95;101;7;71;46;5;108;44;15;101;44];
 [5;112;33;7;83;61;6;35;39;5;33;109;6;36;119;6];
 [36;120;4;36;52;15;36;55;15;36;56;5;38;57;6;43];
 [89;6;43;90;6;49;67;6;49;66;6;49;68;5;41;57];
 [15;42;115;15;42;116;15;42;117;6;49;70;6;49;69;5];
 [41;56;6;55;108;6;55;106;6;55;107;5;45;97;5;45];
 [96;6;64;38;15;52;119;5;56;93;5;56;95;5;56;96];
 [5;56;94;5;63;74;5;69;126;4;67;85;7;35;43;5];
 [91;84;5;112;34;6;35;40;5;33;110;6;35;41;6;35];
 [42;5;33;111;5;34;108;4;34;118;6;36;121;5;34;114];
 [5;34;112;5;34;111;5;34;107;5;34;109;15;34;80;15];
 [34;82;5;34;113;4;36;55;6;39;115;6;39;118;6;39];
 [117;4;38;87;5;36;61;6;39;111;4;36;56;4;36;53];
 [6;39;119;5;36;62;4;36;59;6;39;114;6;43;93;6];
 [39;113;6;43;101;6;43;91;6;39;112;5;36;60;6;43];
 [92;6;39;116;15;36;59;15;36;60;15;36;61;15;36;62];
 [15;36;63;15;36;64;15;36;65;15;36;67;15;36;68;15];
 [36;69;15;36;58;6;43;94;6;43;95;6;43;97;5;38];
 [59;5;41;58;6;43;100;6;49;72;5;38;61;6;49;74];
 [5;38;60;6;49;73;6;49;71;6;43;98;15;39;38;15];
 [39;39;15;39;40;15;39;41;15;39;42;15;39;43;15;39];
 [44;15;39;45;15;39;47;15;39;37;5;38;62;6;49;82];
 [6;49;84;4;41;88;4;41;79;4;41;80;6;49;83;6];
 [55;109;5;41;63;5;41;66;5;41;65;6;49;77;5;41];
 [71;4;45;52;4;41;92;5;41;62;5;41;61;5;45;99];
 [4;41;83;6;55;110;5;41;72;4;41;90;6;49;80;5];
 [41;64;5;41;68;6;49;78;6;49;86;6;49;75;5;41];
 [67;5;41;60;6;49;85;6;49;81;15;42;118;15;42;119];
 [15;42;120;15;42;121;15;42;122;15;42;123;15;42;124;15];
 [42;125;15;42;126;15;43;33;15;43;35;15;43;36;15;43];
 [37;15;43;38;15;43;39;15;43;40;15;43;41;15;43;42];
 [15;47;83;15;47;92;15;47;97;6;49;76;15;43;34;5];
 [41;59;5;45;98;5;45;100;4;45;61;6;55;117;4;45];
 [56;5;45;109;5;45;107;4;45;57;4;41;87;4;45;53];
 [5;45;106;6;55;123;6;55;112;6;55;125;6;55;115;5];
 [45;105;6;55;114;6;55;119;4;45;54;6;55;120;5;45];
 [108;5;45;101;4;45;55;5;45;103;5;45;104;4;45;58];
 [6;55;122;5;45;102;6;49;87;6;55;118;6;64;39;6];
 [55;121;6;55;116;5;41;70;6;55;124;6;55;126;15;47];
 [76;15;47;77;15;47;78;15;47;79;15;47;80;15;47;81];
 [15;47;82;15;47;85;15;47;86;15;47;87;15;47;90;15];
 [47;91;15;47;93;15;47;94;15;47;96;15;47;98;6;64];
 [40;15;47;88;6;55;111;15;47;84;4;49;114;4;49;115];
 [4;55;94;5;50;105;6;64;49;5;45;110;6;64;55;5];
 [50;99;4;49;116;4;50;34;4;49;118;5;50;98;4;49];
 [125;5;56;97;5;50;100;6;64;52;5;50;103;6;64;53];
 [6;64;44;6;64;41;4;50;36;6;73;47;6;73;42;6];
 [64;42;5;50;101;6;73;45;4;55;93;6;64;47;6;73];
 [44;6;73;43;5;50;104;6;64;45;6;73;46;6;64;51];
 [6;64;48;4;49;117;6;64;46;15;52;120;15;52;121;15];
 [52;122;15;52;123;15;52;124;15;52;126;15;53;34;15;53];
 [35;15;53;36;15;53;37;15;53;38;15;53;39;15;53;40];
 [15;53;41;15;53;42;15;53;43;15;53;44;15;53;46;15];
 [53;45;15;53;47;15;53;48;15;59;49;15;52;125;5;50];
 [102;4;50;38;15;59;65;5;56;107;6;73;52;4;55;105];
 [6;73;59;6;73;54;5;56;109;6;73;65;5;56;116;6];
 [73;49;4;61;81;4;55;103;5;56;98;5;56;106;4;55];
 [95;5;56;104;4;55;99;5;56;105;4;55;106;5;56;102];
 [4;55;109;5;56;111;4;55;102;6;73;66;6;73;67;6];
 [73;58;5;56;113;6;73;51;6;73;70;6;73;55;5;56];
 [112;4;55;108;6;73;71;6;73;50;5;56;108;5;56;110];
 [6;73;68;5;56;100;6;73;60;6;73;69;6;73;64;6];
 [73;76;6;73;63;6;73;77;6;73;72;6;73;57;5;56];
 [114;6;73;61;5;56;115;5;56;103;6;73;56;6;73;75];
 [5;56;101;6;82;115;15;59;48;15;59;50;15;59;52;15];
 [59;53;15;59;54;15;59;55;15;59;56;15;59;57;15;59];
 [58;15;59;59;15;59;60;15;59;61;15;59;63;15;59;64];
 [15;59;66;15;59;67;15;59;68;15;59;69;15;59;70;15];
 [59;72;15;59;73;15;59;74;6;82;116;6;73;62;6;73];
 [73;6;73;53;5;56;99;15;59;71;5;63;82;6;82;123];
 [4;61;75;4;61;73;5;63;85;4;61;70;6;82;120;4];
 [61;77;4;61;83;4;61;71;4;61;82;6;82;126;5;63];
 [81;5;70;33;5;63;75;6;93;44;6;83;37;6;82;117];
 [6;83;35;6;83;34;5;63;77;5;63;83;5;63;78;6];
 [82;121;6;83;33;5;63;80;6;83;36;6;82;124;5;63];
 [76;6;82;122;5;63;79;15;65;86;15;65;87;15;65;88];
 [15;65;89;15;65;90;15;65;91;15;65;92;15;65;93;15];
 [65;94;15;65;96;15;65;97;15;65;99;15;65;100;15;65];
 [101;15;65;102;15;65;103;15;65;105;15;72;48;6;82;119];
 [6;82;125;6;82;118;15;65;104;5;63;84;6;93;54;5];
 [77;57;5;70;39;5;70;42;4;67;98;4;67;95;6;93];
 [60;6;93;61;6;93;46;4;67;87;6;93;63;5;70;38];
 [4;67;99;5;77;56;5;70;41;6;93;53;4;67;89;7];
 [35;47;4;67;91;4;67;90;7;35;46;7;35;49;5;70];
 [36;4;67;101;6;93;57;6;93;62;6;93;58;5;70;40];
 [6;93;55;5;70;43;7;35;44;6;93;59;6;93;51;6];
 [93;49;5;70;34;4;67;96;6;93;47;6;93;52;15;72];
 [43;15;72;44;15;72;45;15;72;46;15;72;47;15;72;51];
 [15;72;52;15;72;53;15;72;55;15;72;56;15;72;58;15];
 [72;59;15;72;57;15;72;60;15;72;61;15;72;62;15;72];
 [63;15;72;64;15;72;65;15;72;66;15;72;67;15;72;68];
 [15;72;69;15;72;71;15;72;72;15;72;73;15;72;70;6];
 [93;48;15;72;54;7;35;51;7;35;56;5;77;60;4;74];
 [37;7;35;61;7;35;55;7;35;57;4;73;123;4;73;120];
 [5;77;61;5;77;59;7;35;69;4;73;125;7;46;47;4];
 [74;33;5;77;65;4;74;38;4;73;124;5;84;89;7;46];
 [60;7;35;53;7;35;52;7;46;45;7;46;43;7;35;68];
 [7;46;44;7;35;60;5;77;64;7;46;46;5;77;63;7];
 [35;59;7;35;66;7;35;67;7;35;62;7;35;65;4;73];
 [119;15;72;49;7;35;50;7;35;63;7;35;64;15;78;124];
 [15;78;125;15;78;126;15;79;33;15;79;34;15;79;35;15];
 [79;38;15;79;39;15;79;40;15;79;41;15;79;42;15;79];
 [43;15;79;45;15;79;46;15;79;47;15;79;48;15;84;95];
 [15;79;36;4;86;56;4;80;65;7;46;53;7;46;48;5];
 [84;90;5;84;91;7;46;62;7;46;58;7;46;50;7;35];
 [54;4;80;62;4;80;67;4;80;64;5;84;93;4;80;63];
 [7;46;61;4;80;70;7;46;59;4;80;72;4;80;66;4];
 [80;71;7;46;57;7;46;49;7;46;64;7;56;41;7;46];
 [56;5;84;95;5;84;92;7;46;55;7;56;40;7;46;51];
 [7;46;63;15;84;85;15;84;86;15;84;87;15;84;88;15];
 [84;89;15;84;90;15;84;91;15;84;92;15;84;93;15;84];
 [94;15;84;96;7;46;52;7;46;54;4;80;68;15;84;84];
 [5;91;86;7;56;49;5;91;87;7;56;54;4;86;59;7];
 [56;47;7;56;53;4;86;58;7;56;52;7;56;44;5;91];
 [88;4;86;55;5;91;85;7;56;42;7;56;55;7;56;48];
 [7;56;46;7;56;50;7;56;56;7;56;43;7;56;45;15];
 [90;48;15;90;49;15;90;50;15;90;51;15;90;52;15;90];
 [53;7;56;51;4;91;51;4;91;56;5;97;110;5;97;107];
 [5;97;108;5;97;109;7;63;104;7;63;103;4;91;53;4];
 [91;55;5;103;122;5;108;45;7;63;105;7;63;102;4;91];
 [52;7;63;99;7;63;101;7;71;47;7;63;97;7;63;100];
 [15;94;104;15;94;105;15;94;106;15;94;109;15;94;110;15];
 [94;111;15;94;113;15;94;114;15;94;116;15;94;108;15;94];
 [107;4;95;102;4;95;104;4;95;103;4;95;105;5;108;47];
 [7;71;50;7;71;52;7;71;54;5;103;123;7;71;48;5];
 [108;46;7;71;56;4;95;107;7;71;53;7;71;51;7;71];
 [49;4;95;106;5;103;121;15;98;62;15;98;63;15;98;64];
 [15;98;65;15;98;66;15;98;67;15;98;68;15;98;69;15];
 [98;70;15;98;73;15;101;47;7;63;106;7;71;55;15;98];
 [71;5;108;50;4;102;63;7;77;109;4;99;72;7;77;108];
 [4;99;73;7;77;112;4;99;74;7;77;110;5;108;51;5];
 [108;48;5;108;49;7;77;111;15;101;45;15;101;46;15;101];
 [48;7;83;68;7;87;119;4;102;65;7;83;63;7;83;67];
 [7;83;66;4;102;66;5;115;69;7;83;65;7;83;64;15];
 [103;86;15;103;87;15;103;88;15;103;89;7;87;120;7;87];
 [121;5;115;68;5;115;71;5;112;35;7;87;122;5;115;66];
 [5;115;70;7;87;124;7;91;87;7;83;62;15;105;67;15];
 [105;68;5;115;67;7;87;123;7;91;88;15;106;84;15;106];
 [85;15;106;86;7;94;106;5;119;93;7;94;105;4;107;107];
 [7;94;107;5;119;92;7;94;104;15;107;73;15;107;74;15];
 [107;75;15;107;76;7;98;56;15;108;42;15;108;43;4;109];
 [115;7;99;83;15;108;97;7;102;38;4;34;119;4;36;61];
 [4;38;90;15;39;49;15;39;50;15;39;51;6;49;88;6];
 [56;34;5;47;92;4;45;62;6;56;33;6;54;68;6;64];
 [57;6;64;56;6;73;79;6;73;78;15;59;76;15;59;77];
 [5;56;117;6;83;38;15;65;106;6;83;39;5;70;45;6];
 [93;64;7;35;70;7;35;71;5;84;96;15;84;97;7;56];
 [59;7;56;58;5;91;89;7;56;60;7;77;113;5;36;63];
 [6;39;121;5;36;64;6;39;122;5;36;65;6;39;120;6];
 [43;104;4;38;96;5;38;66;5;38;64;4;38;93;6;43];
 [108;6;43;102;6;43;106;6;43;105;6;43;103;5;38;63];
 [5;38;65;4;38;92;4;41;96;6;49;89;5;41;76;5];
 [41;75;6;49;92;6;49;94;6;49;93;5;41;73;5;41];
 [74;4;41;94;4;41;95;6;49;91;6;56;35;6;56;36];
 [6;56;38;5;45;114;6;49;95;4;45;69;6;56;40;5];
 [45;112;6;56;42;5;45;111;5;45;116;6;56;37;5;45];
 [115;5;45;113;6;56;41;6;56;39;4;45;65;5;50;109];
 [6;64;64;4;50;46;6;64;58;6;64;59;6;64;61;5];
 [50;111;5;50;112;4;50;48;6;64;62;6;64;60;5;50];
 [107;6;64;65;4;50;49;4;50;42;4;50;45;4;50;41];
 [5;50;110;15;53;49;15;53;50;15;53;51;15;53;52;15];
 [53;53;5;50;106;6;64;63;6;73;88;5;57;34;6;73];
 [85;4;55;122;4;55;123;6;73;89;6;73;84;6;73;90];
 [5;56;118;5;56;126;5;57;33;5;56;125;5;56;119;6];
 [73;86;5;56;123;6;73;81;6;73;80;6;73;83;4;55];
 [114;4;55;115;4;55;116;5;56;120;5;56;121;5;50;108];
 [6;73;82;6;83;47;5;56;122;5;63;87;5;63;90;5];
 [63;92;4;61;87;4;61;95;6;83;43;6;83;46;6;83];
 [41;5;63;91;6;83;48;6;83;45;6;83;40;4;61;96];
 [5;63;86;6;83;49;5;63;89;4;61;94;4;61;85;4];
 [61;86;4;61;88;5;63;88;6;83;42;15;65;107;6;83];
 [44;5;50;113;4;61;90;6;85;96;5;70;52;6;93;73];
 [5;70;50;6;93;65;4;67;104;5;70;49;6;93;66;5];
 [70;47;6;93;70;5;70;55;5;70;53;6;93;71;6;93];
 [69;6;93;68;6;93;72;6;93;67;6;93;74;5;70;51];
 [4;67;103;5;70;54;6;93;75;5;72;37;5;77;66;5];
 [77;71;4;74;44;7;35;78;7;35;73;7;35;72;5;77];
 [70;7;35;82;7;35;79;7;35;77;5;77;69;7;35;80];
 [5;77;67;5;77;68;15;79;49;7;35;75;7;35;76;7];
 [35;74;4;80;75;7;46;66;7;46;70;7;46;72;15;84];
 [98;5;84;97;7;46;75;7;46;71;7;46;73;7;46;65];
 [7;46;69;7;46;76;5;84;99;7;46;74;4;80;74;5];
 [84;100;5;84;101;5;84;102;15;84;99;7;46;68;5;84];
 [98;7;35;81;5;84;103;7;56;62;7;56;61;5;91;90];
 [5;91;94;5;91;93;4;86;60;4;86;61;5;91;91;15];
 [90;55;15;90;56;7;56;63;5;91;92;5;97;112;7;63];
 [108;5;97;111;4;91;59;7;63;109;7;63;110;4;91;57];
 [7;63;107;5;104;33;5;103;126;5;103;124;5;103;125;15];
 [98;74;5;108;52;4;99;77;5;108;53;7;77;114;4;99];
 [75;7;77;117;7;77;116;5;108;54;7;77;118;7;77;119];
 [4;102;68;5;112;37;5;112;38;5;115;72;15;105;69;7];
 [91;89;5;117;107;4;106;74;7;91;90;4;108;111;15;108];
 [98;15;34;83;15;36;70;6;43;109;15;43;45;15;43;46];
 [15;43;47;6;56;45;6;56;46;15;47;101;6;64;66;6];
 [64;68;15;53;55;15;53;56;6;64;67;15;59;78;5;63];
 [93;15;65;108;6;83;50;15;53;54;5;77;72;7;35;84];
 [7;35;83;5;77;73;15;79;51;15;79;52;5;77;74;7];
 [46;77;15;90;57;15;94;117;15;98;75;15;103;90;7;91];
 [91;6;34;34;15;39;52;6;49;96;4;45;72;5;45;118];
 [5;45;117;6;56;47;5;50;114;15;53;57;6;64;70;6];
 [64;69;6;73;93;15;64;50;6;73;91;6;73;92;4;61];
 [97;6;93;76;5;63;94;15;65;109;4;67;106;4;74;45];
 [7;35;85;7;56;64;4;95;108;6;34;35;15;36;71;6];
 [43;111;6;43;110;6;49;97;15;47;102;4;50;50;6;64];
 [72;6;64;71;6;73;96;6;73;100;6;73;99;5;57;35];
 [6;73;102;6;73;95;6;73;94;6;73;98;4;55;124;6];
 [76;62;6;73;101;4;61;98;6;83;54;6;83;52;6;83];
 [55;5;63;95;6;93;79;6;93;78;6;93;80;3;71;49];
 [4;74;47;6;93;77;5;77;76;5;77;77;7;46;81;7];
 [46;80;7;46;79;7;46;82;7;46;78;4;80;77;7;56];
 [65;7;56;66;7;63;111;4;91;60;7;63;112;7;63;113];
 [7;71;57;15;98;76;7;77;120;7;87;125;4;36;66;6];
 [39;123;15;39;53;15;39;54;5;41;77;6;49;100;6;49];
 [99;15;43;48;6;49;98;4;45;74;5;45;119;6;56;49];
 [6;56;51;6;56;53;15;47;103;15;47;104;15;47;105;15];
 [47;106;6;56;50;4;50;51;4;50;53;6;64;74;15;53];
 [58;15;53;59;6;64;73;6;73;105;5;57;37;5;57;36];
 [6;73;104;6;73;106;6;73;103;15;59;79;15;59;80;6];
 [83;56;5;63;96;6;83;57;15;65;110;15;65;111;5;70];
 [56;5;70;58;6;93;82;5;70;57;7;35;86;15;79;53];
 [7;46;83;5;84;104;7;56;67;5;91;95;7;63;115;5];
 [97;113;4;91;61;7;63;116;7;63;114;7;71;58;7;83];
 [69;4;104;109;7;87;126;7;94;108;7;96;112;5;36;66];
 [5;41;78;5;45;121;5;45;120;4;55;125;6;73;107;6];
 [83;58;6;83;59;4;61;102;15;79;54;6;35;44;6;35];
 [43;6;36;123;5;34;115;6;36;122;6;36;124;15;34;84];
 [15;36;75;6;39;124;6;39;125;6;40;37;5;36;67;6];
 [40;34;6;39;126;6;40;36;6;40;35;6;40;33;15;36];
 [72;15;36;74;15;36;76;4;36;68;5;38;72;6;43;116];
 [6;43;115;5;38;73;6;43;125;5;38;68;6;43;121;5];
 [38;71;6;43;122;6;43;119;5;38;70;5;38;69;6;43];
 [117;6;43;120;15;39;55;15;39;56;15;39;57;15;39;58];
 [15;39;59;15;39;60;15;39;61;6;43;113;6;43;123;6];
 [43;124;6;43;114;6;43;118;5;41;81;6;49;101;6;49];
 [102;5;41;80;4;41;102;6;49;104;6;49;105;4;41;104];
 [15;43;49;15;43;50;6;49;106;15;43;53;15;43;54;6];
 [49;110;6;49;108;6;49;107;5;45;126;6;56;58;5;46];
 [33;5;46;34;5;45;123;5;46;35;5;45;124;5;45;122];
 [6;56;62;6;56;56;6;56;60;5;45;125;6;56;57;6];
 [56;61;15;47;107;15;47;109;6;56;59;15;47;108;6;56];
 [65;6;56;63;5;50;115;4;50;56;4;56;33;6;64;83];
 [4;50;61;6;64;78;6;64;75;6;64;76;6;64;80;6];
 [64;77;6;64;85;5;50;117;6;56;64;6;64;84;6;64];
 [86;15;53;60;15;53;61;15;53;62;15;53;63;15;53;64];
 [15;53;65;15;53;66;15;53;67;15;53;68;15;53;69;15];
 [53;70;15;53;71;6;64;82;5;50;116;6;73;113;6;73];
 [116;4;50;60;5;63;97;5;57;42;6;73;111;5;57;39];
 [6;73;112;5;57;41;5;57;38;6;73;108;6;73;109;4];
 [56;35;6;73;118;5;57;43;4;56;39;6;73;110;6;73];
 [117;6;73;119;15;59;81;15;59;83;15;59;84;15;59;86];
 [15;59;87;15;59;89;15;59;90;15;59;92;15;59;93;15];
 [59;82;15;59;88;4;56;38;4;56;40;6;73;114;5;57];
 [44;5;57;40;6;83;67;5;63;99;6;83;65;6;93;83];
 [6;83;66;6;83;63;6;83;68;15;70;57;15;59;91;6];
 [83;62;15;65;112;15;65;113;15;65;115;15;65;116;15;65];
 [117;15;65;118;15;65;119;15;65;120;15;65;121;15;65;122];
 [15;65;123;15;65;125;5;61;85;6;83;69;6;83;64;5];
 [63;100;5;70;59;5;70;63;5;70;61;5;70;62;6;93];
 [86;5;70;64;5;70;67;5;70;68;4;67;108;5;70;66];
 [5;77;78;15;72;74;15;72;75;15;72;76;15;72;77;15];
 [72;78;15;72;79;6;93;84;5;70;60;6;93;87;6;93];
 [89;6;93;90;6;93;85;6;93;88;7;35;97;7;35;92];
 [7;35;91;7;35;94;5;77;82;5;77;85;7;35;90;7];
 [35;87;7;35;88;7;35;98;15;79;55;15;79;57;15;79];
 [58;5;77;84;7;35;96;15;78;48;7;35;93;7;35;95];
 [7;35;89;5;77;81;5;84;105;5;84;107;7;46;87;4];
 [80;85;7;46;85;7;46;91;7;46;89;7;46;93;4;80];
 [84;7;46;92;7;46;84;15;84;101;15;84;102;15;84;103];
 [15;84;105;15;84;106;7;46;88;5;77;79;7;45;98;15];
 [84;104;7;46;67;5;84;106;7;46;86;15;79;56;7;56];
 [71;5;91;96;5;91;97;7;56;72;5;91;98;7;56;69];
 [7;56;70;7;56;73;15;90;58;15;90;59;15;90;60;7];
 [56;68;15;90;61;4;91;62;5;97;114;5;97;115;7;63];
 [117;15;94;118;15;94;119;15;94;120;15;94;121;15;94;123];
 [7;63;120;5;104;35;7;71;61;7;71;60;5;104;34;5];
 [104;36;7;71;59;7;71;62;15;98;77;5;108;55;15;101];
 [49;15;101;50;5;107;110;7;77;121;7;83;70;7;88;33];
 [15;105;70;5;115;57;5;115;73;7;91;92;5;119;94;7];
 [94;109;15;107;77;5;121;43;7;100;71;15;36;77;6;43];
 [126;15;39;63;15;39;64;6;44;33;5;41;83;5;41;82];
 [6;49;112;15;43;55;15;43;57;6;49;111;6;56;66;15];
 [47;111;15;47;112;15;47;113;15;47;114;15;47;115;15;53];
 [73;15;53;74;15;59;95;6;73;122;6;73;121;5;63;101];
 [4;67;112;6;83;70;5;77;87;5;77;86;7;35;99;15];
 [84;107;5;91;99;7;63;122;5;97;116;7;63;121;7;63];
 [119;4;95;109;7;77;122;7;77;123;5;123;63;7;102;62];
 [6;35;45;6;36;125;5;36;68;6;40;41;6;40;39;6];
 [40;40;6;40;38;6;44;34;5;41;84;4;41;105;4;41];
 [106;15;43;58;6;49;113;6;56;67;15;53;75;5;50;118];
 [6;64;89;6;64;91;6;73;125;6;73;124;6;64;90;5];
 [57;45;15;57;70;15;59;97;15;59;98;6;83;71;5;63];
 [103;15;59;96;15;65;126;15;66;33;6;83;72;6;93;93];
 [6;93;94;7;35;100;4;74;52;5;77;89;4;74;51;15];
 [79;59;15;79;60;5;84;110;5;84;108;5;91;100;5;84];
 [109;15;84;109;15;84;110;7;56;75;7;56;74;15;90;62];
 [5;97;117;15;94;124;7;63;123;5;108;56;5;117;111;5];
 [119;95;5;33;72;4;33;78;4;33;125;15;33;101;5;34];
 [117;6;37;34;5;34;116;6;36;126;6;37;33;15;34;86];
 [4;34;123;4;34;122;6;40;44;4;36;73;6;40;42;6];
 [40;43;15;36;78;15;36;79;15;36;84;15;36;80;15;36];
 [82;5;36;70;6;40;45;5;36;69;4;36;69;4;38;107];
 [5;38;76;4;38;102;5;38;75;6;44;43;5;38;80;5];
 [38;82;6;44;40;6;44;39;6;44;38;5;38;77;5;38];
 [83;5;38;79;5;38;78;15;39;67;15;39;69;15;39;70];
 [15;39;71;15;39;73;15;39;74;15;39;75;15;39;77;15];
 [39;79;15;39;81;15;39;84;15;39;85;6;44;36;6;44];
 [41;5;38;84;6;44;44;15;39;68;6;44;45;6;44;42];
 [15;39;72;15;39;66;6;44;37;5;38;85;6;45;92;6];
 [49;116;6;49;115;4;41;107;5;41;86;6;49;117;6;49];
 [118;5;41;85;5;41;89;6;49;119;5;46;38;5;41;90];
 [5;41;88;15;39;83;15;43;59;15;43;60;15;43;61;15];
 [43;63;15;43;64;15;43;65;15;43;66;15;43;67;15;43];
 [68;15;43;69;15;43;70;15;43;71;15;43;73;15;43;74];
 [15;43;75;15;43;76;15;43;77;15;43;78;15;43;79;5];
 [41;91;6;64;92;6;56;79;6;56;83;6;56;75;6;56];
 [77;6;56;70;5;46;39;6;56;72;6;56;69;6;56;81];
 [4;45;80;6;64;93;5;41;87;5;46;41;5;46;42;6];
 [56;68;15;47;116;15;47;117;15;47;118;15;47;120;15;47];
 [121;15;47;122;15;47;123;15;47;124;15;47;125;15;47;126];
 [15;48;33;15;48;34;15;48;35;15;48;37;15;48;38;15];
 [48;39;15;48;41;15;48;42;15;48;43;15;48;44;15;48];
 [46;6;56;76;6;56;71;6;56;73;4;45;83;6;56;78];
 [15;48;48;15;48;40;4;45;90;15;48;45;5;46;44;5];
 [46;40;15;47;119;6;56;82;6;64;104;6;64;105;6;64];
 [95;5;50;119;5;51;33;5;57;54;4;50;69;4;50;64];
 [5;50;125;6;64;103;6;74;46;6;64;99;15;53;76;15];
 [53;77;15;53;79;15;53;80;15;53;81;15;53;82;15;53];
 [83;15;53;84;15;53;85;15;53;86;15;53;88;15;53;89];
 [15;53;90;15;53;91;15;53;92;15;53;93;15;53;94;15];
 [53;95;15;53;96;15;53;97;15;53;98;15;53;99;15;53];
 [101;15;53;102;6;64;100;6;64;102;6;64;101;4;50;71];
 [6;64;98;6;64;96;6;64;97;4;50;68;5;51;34;5];
 [50;120;5;50;123;5;50;122;5;50;124;6;64;106;15;53];
 [78;6;64;94;4;56;54;6;74;52;5;57;53;6;83;73];
 [4;56;46;5;57;56;6;74;34;5;57;50;4;56;43;5];
 [57;48;5;57;52;4;56;49;6;74;45;6;74;47;5;57];
 [58;6;74;36;6;74;33;5;57;55;6;74;51;5;57;60];
 [5;57;59;6;74;38;4;56;48;6;74;39;6;74;42;6];
 [74;49;5;57;64;6;83;74;5;57;61;6;74;56;6;74];
 [35;6;74;37;6;74;53;4;56;51;4;56;56;6;74;54];
 [6;74;55;15;59;100;15;59;101;15;59;103;15;59;104;15];
 [59;105;15;59;107;15;59;108;15;59;109;15;59;111;15;59];
 [113;15;59;114;15;59;116;15;59;117;15;59;118;15;59;119];
 [15;59;120;15;59;121;15;59;122;15;59;123;15;59;124;15];
 [59;125;15;59;126;15;60;34;15;60;35;15;60;36;15;60];
 [37;15;60;38;15;60;39;15;60;40;15;60;42;15;60;43];
 [15;60;44;15;60;45;15;60;46;15;60;47;6;74;41;6];
 [74;43;6;74;44;6;74;50;5;57;66;6;74;48;6;74];
 [57;6;74;40;5;57;62;5;57;65;5;57;46;5;57;47];
 [5;57;49;6;83;78;6;83;88;4;61;119;6;83;86;4];
 [61;116;6;83;87;5;63;111;5;63;106;5;63;110;5;63];
 [107;4;61;106;6;83;91;5;63;115;6;83;97;5;63;104];
 [4;61;122;5;63;116;5;63;105;6;83;85;5;63;112;5];
 [63;109;6;83;96;4;61;115;6;83;89;6;83;90;6;83];
 [93;6;83;80;4;61;112;6;83;92;5;63;108;6;83;99];
 [6;83;79;6;83;81;6;83;76;15;66;35;15;66;36;15];
 [66;37;15;66;38;15;66;39;15;66;41;15;66;42;15;66];
 [43;15;66;44;15;66;45;15;66;46;15;66;48;15;66;49];
 [15;66;50;15;66;51;15;66;52;15;66;53;15;66;54;15];
 [66;56;15;66;57;15;66;58;15;66;59;15;66;61;15;66];
 [62;15;66;63;15;66;64;15;66;65;15;66;66;15;66;67];
 [15;66;68;15;66;69;15;66;70;15;66;72;15;66;74;15];
 [66;76;6;83;77;6;83;82;6;83;84;4;61;121;6;83];
 [98;6;83;75;6;83;95;15;66;34;15;66;47;15;66;55];
 [5;57;63;5;63;114;6;83;83;15;67;116;5;70;78;15];
 [66;75;5;70;80;4;67;123;4;67;114;5;70;77;5;70];
 [79;6;93;105;5;70;85;5;70;82;7;35;101;6;83;100];
 [5;70;71;6;93;95;5;70;84;5;70;70;5;70;88;6];
 [93;98;5;70;74;5;70;83;6;93;99;4;67;118;5;70];
 [72;5;70;73;6;93;101;5;70;76;5;70;81;15;72;87];
 [15;72;88;15;72;89;15;72;90;15;72;91;15;72;92;15];
 [72;93;15;72;94;15;72;95;15;72;96;15;72;97;15;72];
 [98;15;72;99;15;72;100;15;72;101;15;72;102;15;72;103];
 [15;72;104;15;72;105;15;72;106;15;72;107;15;72;108;15];
 [72;109;15;72;110;15;72;111;15;72;113;15;72;114;15;72];
 [115;15;72;117;3;71;75;6;93;106;6;93;103;6;93;107];
 [6;93;108;5;70;86;5;70;87;15;72;116;6;93;100;6];
 [93;102;15;72;80;15;72;81;15;72;83;15;72;84;6;93];
 [96;6;93;109;6;93;97;15;72;86;7;35;104;5;77;103];
 [5;77;94;4;74;59;4;74;71;5;77;91;4;74;64;7];
 [35;113;7;35;108;7;35;116;5;77;107;5;77;101;7;35];
 [112;4;74;70;5;77;95;4;74;63;5;77;100;4;74;67];
 [4;74;62;4;74;53;7;35;115;5;77;92;4;74;74;5];
 [77;105;7;35;110;5;77;99;5;77;106;7;35;105;4;74];
 [65;5;77;93;7;35;117;4;74;60;4;74;69;4;74;73];
 [7;35;102;7;35;106;15;79;61;15;79;62;15;79;63;15];
 [79;67;15;79;68;15;79;70;15;79;71;15;79;72;15;79];
 [73;15;79;74;15;79;75;15;79;76;15;79;77;15;79;78];
 [15;79;79;15;79;80;15;79;81;15;79;82;15;79;83;15];
 [79;64;7;35;107;5;77;108;5;77;104;5;77;102;7;35];
 [103;7;35;109;5;77;96;5;77;90;5;77;98;4;80;91];
 [5;84;125;7;46;105;4;80;101;4;80;88;5;91;101;7];
 [56;76;7;46;96;7;46;99;5;84;123;7;46;104;7;46];
 [114;5;84;122;7;46;111;7;46;98;4;80;98;4;86;76];
 [4;80;87;7;46;95;4;80;95;5;84;121;7;46;103;7];
 [46;100;5;84;113;5;84;119;4;80;92;7;46;110;7;46];
 [116;5;84;120;4;80;93;7;46;102;7;46;107;4;80;99];
 [5;84;112;7;46;97;5;97;123;5;84;117;5;84;118;5];
 [84;114;4;74;68;7;46;115;7;46;108;7;46;101;7;46];
 [94;5;84;124;5;84;111;5;84;115;15;84;111;15;84;112];
 [15;84;113;15;84;114;15;84;115;15;84;117;15;84;118;15];
 [84;119;15;84;120;15;84;121;15;84;122;15;84;124;15;84];
 [125;15;84;126;15;85;33;15;85;34;15;85;36;15;85;37];
 [15;85;38;15;85;39;15;85;40;15;85;43;15;85;44;15];
 [85;45;15;85;46;15;85;47;15;85;48;15;85;50;15;85];
 [51;15;85;52;15;85;53;15;85;54;15;85;55;15;85;56];
 [7;46;112;7;46;113;4;80;97;15;85;35;5;84;116;15];
 [72;112;15;79;65;7;46;109;4;86;67;7;56;80;7;56];
 [78;4;86;71;7;56;82;7;56;86;5;91;106;5;91;107];
 [4;86;74;4;86;70;5;91;110;7;56;83;5;91;108;7];
 [56;81;7;56;87;5;97;124;5;91;103;4;86;77;4;86];
 [68;7;56;89;4;86;66;5;91;105;7;56;91;5;91;102];
 [7;56;84;15;90;64;15;90;65;15;90;67;15;90;68;15];
 [90;69;15;90;70;15;90;71;15;90;72;15;90;73;15;90];
 [74;15;90;75;15;90;76;15;90;78;15;90;79;15;90;81];
 [15;90;82;15;90;84;7;56;88;5;91;109;7;56;90;7];
 [56;77;7;56;79;7;55;39;15;90;83;15;90;77;5;91];
 [111;5;91;112;15;85;49;15;90;80;4;91;71;5;97;120];
 [7;64;39;7;64;35;4;91;66;7;64;43;5;98;36;5];
 [97;125;5;98;38;7;64;41;4;91;69;5;97;122;5;98];
 [34;5;98;39;5;97;126;7;56;92;5;98;43;5;97;121];
 [4;91;67;4;91;76;4;91;70;7;64;45;7;64;40;5];
 [98;35;7;71;70;5;98;41;7;64;38;4;91;75;5;98];
 [40;5;98;37;5;97;118;7;63;124;7;63;125;15;94;126];
 [15;95;34;15;95;35;15;95;36;15;95;37;15;95;38;15];
 [95;39;15;95;40;15;95;42;15;95;43;15;95;44;15;95];
 [46;15;95;47;15;95;48;7;64;33;7;64;37;7;64;44];
 [7;64;42;5;98;33;15;95;33;5;98;42;5;97;119;7];
 [64;34;7;64;36;15;95;45;5;104;37;7;71;67;5;104];
 [40;5;104;43;5;104;41;7;71;66;7;71;64;5;104;45];
 [7;71;65;4;95;116;7;71;72;7;71;73;5;104;39;5];
 [104;38;7;71;69;5;104;47;7;71;71;7;63;126;15;98];
 [82;15;98;86;15;98;88;15;98;89;15;98;90;15;98;91];
 [15;98;92;15;98;93;15;98;95;15;98;96;15;98;97;5];
 [104;46;7;71;68;7;71;63;15;98;84;5;104;44;15;98];
 [87;15;98;79;15;98;94;15;94;125;4;99;83;7;77;124];
 [5;108;63;7;77;126;5;108;66;5;104;48;5;108;58;5];
 [108;57;5;108;61;7;77;125;5;108;60;5;108;65;5;108];
 [59;5;104;42;5;108;64;5;108;62;15;101;51;15;101;52];
 [15;101;53;15;101;54;15;101;55;15;101;57;15;101;58;15];
 [101;59;15;101;60;15;101;61;15;101;63;7;78;33;4;99];
 [82;7;83;73;7;83;72;5;112;43;5;112;45;4;102;70];
 [5;112;41;7;83;77;5;112;40;5;112;42;5;112;44;7];
 [83;74;4;102;69;5;112;47;7;83;78;5;112;50;15;103];
 [91;15;103;92;15;103;93;15;103;94;15;103;95;15;103;96];
 [15;103;97;15;103;98;15;103;99;15;103;100;7;83;76;5];
 [112;49;5;112;48;7;83;75;5;112;46;7;88;38;5;115];
 [78;5;115;79;5;115;76;5;115;74;4;104;111;5;115;75];
 [5;115;77;7;88;37;15;105;71;15;105;72;15;105;73;15];
 [105;75;15;105;78;15;105;79;15;105;80;15;105;81;7;88];
 [36;7;88;34;15;103;101;5;117;113;5;117;115;5;119;96];
 [5;117;116;7;91;96;5;117;114;7;91;97;5;117;117;7];
 [91;95;5;119;97;7;91;93;15;106;87;15;106;89;7;91];
 [94;5;117;118;5;117;112;4;107;108;7;94;110;5;119;98];
 [7;96;113;15;107;78;15;107;79;15;107;80;15;107;83;15];
 [107;84;7;94;111;7;94;112;15;106;88;7;96;114;5;121];
 [45;15;108;44;7;96;115;5;121;44;5;121;46;15;107;82];
 [5;122;41;7;99;84;7;96;116;4;109;85;15;108;45;15];
 [108;76;15;108;99;7;99;76;7;99;85;5;123;64;7;100];
 [72;7;100;73;7;101;91;15;109;47;7;101;116;6;37;36];
 [4;36;75;6;40;47;6;44;46;6;40;50;5;36;71;6];
 [40;49;4;36;74;5;38;92;5;38;91;5;38;88;6;44];
 [47;4;38;111;6;44;48;5;38;93;4;38;110;5;38;89];
 [5;38;90;5;38;87;15;39;86;5;41;95;6;49;122;6];
 [56;84;6;49;124;5;41;98;4;41;117;5;41;97;5;41];
 [94;6;49;121;5;41;92;5;41;96;6;49;123;5;41;93];
 [15;44;119;6;56;87;6;56;88;6;56;85;5;46;51;5];
 [46;45;6;56;86;6;64;107;5;46;50;4;45;95;5;46];
 [47;5;46;52;5;46;49;5;46;48;15;48;49;5;51;37];
 [6;64;108;6;64;109;15;53;103;15;53;104;15;53;105;15];
 [53;106;15;53;107;15;53;108;15;53;109;15;53;110;4;56];
 [61;5;57;71;5;63;119;4;56;58;5;57;69;6;74;60];
 [5;51;36;5;57;72;6;74;61;5;57;68;5;57;73;6];
 [74;62;5;57;70;6;74;59;15;60;48;15;60;49;6;74];
 [58;6;83;110;5;63;118;5;63;117;5;63;122;6;83;107];
 [5;63;121;6;83;103;6;83;102;6;83;104;6;83;105;6];
 [83;106;6;83;109;5;63;120;15;66;78;6;88;90;6;83];
 [108;6;83;101;15;66;77;5;70;92;4;68;43;5;70;94];
 [6;93;111;6;93;110;4;68;44;5;70;93;4;68;41;6];
 [93;117;6;93;112;5;70;90;6;93;118;6;93;116;5;70];
 [91;6;93;114;6;93;113;6;93;115;6;83;111;15;72;118];
 [15;72;120;5;70;89;5;77;110;7;35;125;5;77;112;5];
 [77;113;4;74;77;7;35;121;7;35;119;7;35;126;7;35];
 [118;7;35;122;7;35;123;5;77;111;15;79;84;7;35;124];
 [5;84;126;7;46;118;4;80;104;7;46;117;15;85;58;15];
 [85;59;7;56;94;7;56;96;5;91;113;7;56;95;15;90];
 [85;7;56;93;5;98;44;5;104;50;5;104;49;15;98;98];
 [5;112;54;7;78;35;5;112;53;5;112;52;4;104;112;5];
 [112;51;5;115;80;7;88;41;7;88;39;7;88;40;5;119];
 [99;7;96;117;4;108;112;4;109;86;5;33;50;5;33;112];
 [6;35;46;6;37;38;5;36;74;6;40;52;6;44;49;5];
 [36;73;5;36;75;6;40;51;6;44;60;6;44;52;6;44];
 [59;6;44;58;6;44;54;6;44;51;6;44;56;6;44;50];
 [6;44;55;5;38;94;6;44;57;6;44;53;5;38;95;15];
 [39;87;15;39;88;15;39;89;4;38;114;4;41;118;5;41];
 [99;5;40;53;6;56;89;6;56;92;5;46;53;6;56;90];
 [6;56;94;6;56;93;6;56;91;6;55;72;5;51;38;6];
 [64;112;15;53;111;6;64;111;4;56;64;4;56;62;5;57];
 [74;5;57;75;6;74;67;4;56;65;6;74;66;6;74;68];
 [6;74;64;6;74;69;6;74;70;6;74;65;5;63;124;6];
 [83;112;5;63;123;15;66;79;6;90;97;7;36;34;7;36];
 [37;7;36;35;7;36;38;7;36;33;7;36;36;15;79;85];
 [7;46;122;7;46;121;7;46;119;7;46;120;7;56;97;4];
 [86;80;15;90;86;15;90;87;5;98;45;5;98;46;7;64];
 [46;5;115;81;7;91;98;7;91;99;5;33;113;5;33;73];
 [5;34;118;6;40;53;4;34;125;6;37;39;5;36;76;4];
 [36;77;6;37;40;6;40;54;6;40;59;6;40;55;4;36];
 [76;6;40;60;5;36;77;6;40;57;6;40;56;6;40;58];
 [6;44;63;5;38;96;5;38;102;5;38;97;5;38;100;4];
 [38;115;4;38;116;5;38;99;4;38;119;6;44;61;6;44];
 [62;6;44;64;6;49;125;5;38;101;5;41;104;4;41;120];
 [4;41;121;6;50;38;4;41;119;6;49;126;5;41;100;5];
 [41;101;5;41;107;5;41;102;5;41;103;6;50;37;4;41];
 [122;6;50;34;6;50;35;5;41;106;6;50;36;6;56;95];
 [15;43;80;6;50;33;5;41;108;5;46;54;4;45;99;6];
 [56;98;5;46;59;6;56;101;5;46;60;5;46;56;5;46];
 [57;6;56;99;6;56;102;5;46;61;5;46;55;5;46;58];
 [5;46;62;6;56;96;6;56;97;5;51;43;6;64;116;5];
 [51;42;6;64;115;5;51;39;5;51;40;5;51;41;6;64];
 [113;4;50;75;5;51;44;6;74;73;6;64;117;6;64;114];
 [15;53;113;6;83;114;6;74;74;5;57;83;4;56;72;6];
 [74;75;4;56;67;5;57;78;5;57;77;5;57;79;4;56];
 [71;5;57;82;5;57;84;5;57;80;5;57;76;5;57;81];
 [6;74;76;6;83;113;6;74;72;15;60;50;6;83;116;6];
 [83;121;5;63;125;5;63;126;6;83;118;6;83;120;4;62];
 [37;6;93;120;6;83;122;6;83;117;6;83;115;15;66;80];
 [15;53;112;4;68;52;4;68;46;6;93;123;6;93;124;4];
 [68;47;6;93;121;6;93;122;6;93;45;7;36;41;4;74];
 [81;5;77;114;7;36;39;5;77;117;7;36;40;7;36;43];
 [5;77;116;4;80;105;7;36;44;7;36;42;15;79;86;5];
 [77;115;7;46;123;7;46;124;5;85;33;4;80;108;5;85];
 [35;5;85;34;7;46;126;15;85;60;15;85;61;7;56;100];
 [7;56;98;5;91;115;7;56;101;7;56;99;5;91;116;5];
 [98;48;5;98;47;4;91;77;7;64;48;7;46;125;5;91];
 [117;7;64;47;5;104;51;5;112;55;5;112;56;7;83;79];
 [7;88;42;5;117;122;5;117;121;5;38;104;5;38;103;6];
 [50;39;6;50;40;5;46;63;4;50;76;4;50;77;6;64];
 [120;6;64;121;6;64;118;6;64;119;15;53;115;15;53;117];
 [15;53;118;15;53;119;6;64;123;6;64;122;5;51;45;6];
 [74;79;6;74;78;15;60;51;15;53;114;6;84;33;6;84];
 [34;6;83;125;6;83;126;6;84;36;15;66;81;15;66;82];
 [6;84;35;6;83;124;5;64;33;5;64;123;5;70;97;4];
 [68;54;6;94;33;4;68;55;6;93;126;6;93;125;15;72];
 [122;5;77;118;6;94;34;7;36;45;4;74;82;7;47;37];
 [7;47;35;7;47;38;7;47;33;7;47;36;5;85;36;7];
 [47;34;15;85;62;15;85;63;15;85;64;7;56;102;7;56];
 [103;4;91;78;7;64;51;5;98;50;5;98;49;7;64;49];
 [7;64;50;4;95;120;7;71;76;7;78;37;7;71;77;7];
 [83;80;4;106;77;5;117;123;7;91;100;5;115;82;7;94];
 [115;5;119;101;5;119;100;7;96;118;7;99;86;5;33;114];
 [6;40;61;6;44;65;6;50;41;6;56;103;15;60;52;5];
 [64;34;4;74;83;15;79;87;15;79;88;15;90;89;15;85];
 [65;15;98;99;15;106;90;5;36;79;6;40;62;6;44;69];
 [6;44;68;5;38;105;6;56;104;6;56;106;6;56;105;6];
 [64;124;6;64;125;5;64;35;4;62;38;5;70;98;5;70];
 [99;6;94;35;7;36;46;7;47;39;7;47;40;5;85;37];
 [7;71;78;5;108;67;5;121;48;5;33;74;4;34;126;15];
 [34;90;15;34;91;6;40;64;6;40;63;4;36;78;15;36];
 [85;15;36;86;15;36;87;15;36;89;15;36;90;5;38;109];
 [5;38;106;5;38;108;5;38;107;6;44;71;6;44;70;15];
 [39;90;15;39;92;15;39;93;15;39;94;15;39;95;5;38];
 [67;6;50;44;5;41;110;5;41;111;5;41;109;5;41;112];
 [5;41;113;6;50;45;5;41;115;6;50;47;6;56;109;6];
 [50;46;5;41;116;6;50;43;5;41;114;15;43;81;15;43];
 [82;15;43;83;15;43;84;15;43;85;15;43;86;15;43;87];
 [15;43;88;15;43;89;15;43;90;15;43;91;15;43;92;15];
 [43;94;15;43;93;6;56;111;5;46;65;6;56;110;4;45];
 [105;5;46;67;4;45;104;6;56;108;5;46;66;15;48;50];
 [15;48;51;15;48;52;15;48;53;15;48;54;15;48;55;15];
 [48;56;15;48;57;6;56;107;5;46;64;6;65;38;4;50];
 [86;6;65;33;5;51;49;6;65;34;6;65;35;5;51;46];
 [6;65;37;5;51;50;5;51;48;5;51;47;6;64;126;6];
 [65;36;15;53;120;15;53;121;15;53;122;15;53;123;15;53];
 [124;5;57;85;4;56;77;5;57;86;4;56;80;6;74;81];
 [6;74;83;5;57;89;5;57;88;5;57;90;6;74;86;6];
 [74;80;6;74;85;5;57;87;6;74;82;15;60;58;15;60];
 [53;15;60;55;15;60;56;15;60;57;15;60;59;15;60;61];
 [15;60;63;15;60;64;6;74;84;15;60;54;5;57;92;6];
 [84;46;6;84;44;4;62;43;6;84;39;6;84;43;4;62];
 [42;6;84;40;6;84;37;6;84;41;6;84;38;6;84;45];
 [6;84;42;6;84;47;5;64;36;15;66;83;15;66;85;15];
 [66;86;15;66;87;6;84;48;6;94;41;5;70;102;5;70];
 [101;6;94;42;6;94;43;6;94;45;4;68;61;6;94;36];
 [4;68;62;5;70;103;4;68;59;6;94;46;6;94;47;6];
 [94;38;6;94;39;15;72;124;15;72;125;15;72;126;15;73];
 [33;6;94;40;5;70;105;6;94;48;6;94;37;6;94;44];
 [4;74;86;7;36;51;7;36;55;7;36;53;4;74;85;4];
 [74;84;5;77;121;7;36;52;5;77;119;5;77;120;7;36];
 [49;7;36;50;7;36;48;7;36;47;7;36;54;7;36;56];
 [7;47;41;5;85;39;7;47;42;4;80;112;5;85;38;4];
 [80;115;7;47;44;15;85;66;15;85;67;15;85;68;15;85];
 [69;7;47;43;7;36;57;7;56;106;4;86;85;4;86;84];
 [7;56;105;5;91;118;7;56;104;15;90;90;15;90;91;15];
 [90;92;7;56;108;7;56;107;5;98;53;5;98;52;5;98];
 [54;7;64;55;7;71;79;7;64;53;5;98;55;7;64;52];
 [7;64;54;15;95;49;5;98;51;15;95;50;7;71;82;5];
 [104;52;7;71;80;7;71;81;15;101;65;7;78;38;4;102];
 [71;5;112;57;7;83;81;15;103;103;7;88;43;5;115;83];
 [15;105;82;5;117;124;7;91;101;7;100;74;6;44;72;6];
 [50;48;5;41;117;5;41;118;6;51;76;6;65;39;15;53];
 [125;6;65;40;6;84;49;4;68;64;7;47;45;7;56;109];
 [4;91;81;15;90;93;6;37;42;6;37;41;15;36;92;6];
 [44;75;6;44;74;6;44;73;6;50;49;6;50;50;15;43];
 [95;5;41;119;5;46;68;15;53;126;5;57;93;15;60;65];
 [6;84;50;7;36;59;7;36;58;7;64;56;7;83;82;15];
 [33;103;6;34;36;6;37;43;5;33;115;6;37;44;15;34];
 [94;15;36;105;4;35;35;6;37;45;5;36;80;6;37;47];
 [6;37;49;3;36;36;15;34;92;15;36;95;15;36;96;6];
 [37;48;6;44;77;5;36;82;6;40;66;5;36;81;5;36];
 [83;4;36;80;6;40;70;6;40;71;6;44;76;6;40;67];
 [6;40;65;6;40;69;6;40;72;15;36;97;15;36;94;15];
 [36;98;15;36;99;15;36;100;15;36;101;15;36;102;15;36];
 [103;15;39;99;15;39;100;15;39;101;4;39;35;5;38;111];
 [6;50;51;5;38;114;5;38;115;4;39;33;6;44;87;4];
 [39;37;6;44;80;4;39;36;6;44;78;5;38;110;5;38];
 [112;6;44;88;5;38;113;6;44;90;6;50;52;6;44;86];
 [6;44;92;4;38;124;6;44;83;15;39;96;15;39;97;15];
 [39;98;15;39;103;15;39;104;15;39;105;15;39;106;15;39];
 [107;15;39;109;15;43;100;15;43;103;15;43;108;6;44;82];
 [6;44;84;6;44;85;6;44;89;6;44;79;5;41;120;4];
 [41;124;6;50;54;5;42;34;6;50;59;6;50;62;5;41];
 [121;4;42;34;4;45;113;5;42;33;5;41;126;6;50;58];
 [6;50;64;5;41;122;6;50;65;5;41;125;6;56;112;6];
 [50;61;6;50;60;4;42;35;4;41;125;6;50;63;15;43];
 [96;15;43;97;15;43;98;15;43;99;15;43;101;15;43;102];
 [15;43;104;15;43;105;15;43;106;15;43;107;15;43;109;15];
 [43;110;15;48;58;15;48;61;15;48;68;6;50;56;4;42];
 [36;6;50;53;6;50;55;5;42;35;15;48;87;4;45;110];
 [5;46;73;6;57;48;6;57;46;5;46;72;5;46;71;6];
 [56;124;5;46;74;6;56;113;6;56;123;4;45;109;4;45];
 [111;6;57;37;6;56;118;6;57;38;6;57;42;6;56;119];
 [6;57;41;6;56;126;6;57;40;6;65;42;6;65;41;4];
 [50;102;6;57;36;6;57;44;5;46;69;6;57;35;6;56];
 [115;6;57;43;6;56;120;6;57;47;6;57;50;6;65;70];
 [15;48;59;15;48;62;15;48;63;15;48;64;15;48;65;15];
 [48;66;15;48;67;15;48;69;15;48;70;15;48;71;15;48];
 [72;15;48;74;15;48;75;15;48;76;15;48;77;15;48;78];
 [15;48;79;15;48;80;15;48;81;15;48;82;15;48;83;15];
 [48;84;15;48;85;15;48;86;15;48;88;15;48;89;15;48];
 [90;6;56;121;6;57;34;6;57;49;4;45;114;6;57;39];
 [6;56;125;6;56;117;5;46;70;15;54;45;4;50;93;5];
 [51;64;4;50;91;4;50;107;6;65;52;6;65;56;6;65];
 [60;4;50;106;6;65;67;4;50;97;6;65;54;4;50;101];
 [6;65;53;6;65;69;4;50;105;5;51;51;6;65;49;4];
 [50;96;4;50;103;6;74;100;5;51;63;6;65;66;5;51];
 [62;6;65;63;4;50;89;4;50;95;6;65;44;4;37;47];
 [6;65;59;6;65;48;6;74;102;5;51;56;5;51;65;6];
 [74;88;6;74;89;6;65;62;6;65;68;5;51;54;4;50];
 [98;6;65;64;5;51;59;6;65;47;6;65;50;5;51;58];
 [5;51;53;4;50;108;4;50;110;5;51;55;6;65;61;15];
 [54;33;15;54;34;15;54;35;15;54;37;15;54;38;15;54];
 [39;15;54;40;15;54;42;15;54;44;15;54;46;15;54;47];
 [15;54;48;15;54;49;15;54;50;15;54;54;15;54;55;15];
 [54;56;15;54;57;15;54;58;15;54;59;15;54;60;15;54];
 [61;15;60;66;15;60;75;15;60;77;15;60;87;15;66;95];
 [6;74;87;6;65;51;6;65;55;5;51;57;6;65;58;6];
 [65;57;6;65;71;6;65;45;6;65;46;5;51;52;5;51];
 [60;6;56;122;6;74;98;6;74;112;4;56;84;5;57;99];
 [4;56;85;6;74;93;6;74;95;5;57;103;5;57;106;5];
 [57;98;6;84;72;5;57;108;6;74;90;4;56;83;5;51];
 [66;4;56;88;6;74;108;6;74;92;5;57;104;6;74;113];
 [6;84;53;6;74;103;6;74;104;6;74;110;5;57;96;6];
 [84;52;6;74;111;4;62;44;5;57;95;5;57;102;5;57];
 [101;5;57;100;6;74;106;5;57;97;6;84;51;6;74;114];
 [5;57;109;6;74;97;15;60;68;15;60;69;15;60;70;15];
 [60;72;15;60;73;15;60;74;15;60;78;15;60;79;15;60];
 [80;15;60;81;15;60;82;15;60;83;15;60;84;15;60;85];
 [15;60;86;15;60;88;15;60;89;15;60;91;15;60;92;6];
 [74;105;5;57;105;6;74;107;4;56;93;6;74;91;6;74];
 [96;6;74;94;5;57;107;15;66;115;6;84;65;5;64;37];
 [4;62;65;6;84;56;4;62;52;6;84;59;6;84;67;4];
 [62;59;4;62;67;4;62;62;4;62;46;6;84;74;5;64];
 [41;5;64;38;4;62;64;6;94;49;6;84;66;4;62;58];
 [5;64;47;5;64;45;4;62;49;6;94;50;4;62;66;5];
 [64;44;5;64;46;6;84;62;6;84;76;7;36;60;6;84];
 [71;4;68;75;6;84;63;6;84;70;6;84;55;6;84;54];
 [5;64;43;5;64;40;4;62;61;6;84;60;6;84;61;6];
 [84;64;6;84;69;15;66;88;15;66;89;15;66;90;15;66];
 [91;15;66;92;15;66;93;15;66;94;15;66;96;15;66;97];
 [15;66;98;15;66;101;15;66;102;15;66;103;15;66;104;15];
 [66;105;15;66;106;15;66;108;15;66;109;15;66;110;15;66];
 [111;15;66;112;15;66;113;15;66;114;15;66;117;15;73;34];
 [15;73;62;5;64;42;6;84;68;4;62;53;6;84;77;6];
 [84;58;6;84;75;15;73;47;15;66;107;15;79;108;6;84];
 [57;7;36;61;4;68;84;4;68;71;4;68;72;4;68;76];
 [5;70;107;4;68;78;5;70;106;5;70;116;5;70;118;4];
 [68;69;4;68;83;6;94;68;5;70;111;6;94;65;6;94];
 [58;4;68;81;4;68;80;5;70;117;5;70;114;5;70;109];
 [7;36;64;7;36;63;5;70;119;6;94;69;4;68;79;6];
 [94;57;6;94;66;5;70;112;5;70;113;4;68;65;6;94];
 [61;5;77;122;7;36;62;6;94;52;5;70;110;6;94;63];
 [5;70;115;15;73;35;15;73;36;15;73;37;15;73;38;15];
 [73;39;15;73;40;15;73;41;15;73;43;15;73;44;15;73];
 [45;15;73;46;15;73;48;15;73;49;15;73;52;15;73;54];
 [15;73;55;15;73;56;15;73;57;15;73;58;15;73;60;15];
 [73;61;15;73;65;15;73;66;15;73;67;15;79;109;7;34];
 [104;4;68;66;6;94;60;6;94;67;6;94;53;5;70;108];
 [6;94;51;6;94;55;6;94;56;15;73;59;6;94;54;15];
 [73;42;7;36;98;7;36;82;7;36;77;4;74;96;7;36];
 [90;7;36;84;7;36;76;4;74;101;4;74;103;5;78;37];
 [7;36;99;7;36;78;7;36;80;7;36;86;4;74;92;7];
 [36;87;7;36;73;5;78;33;7;36;101;7;36;71;7;36];
 [68;4;74;102;5;77;123;5;78;36;7;36;100;4;74;91];
 [7;36;91;4;74;90;7;36;89;5;77;126;7;36;67;7];
 [36;103;5;78;35;5;77;125;7;36;83;7;36;66;7;58];
 [105;7;36;69;7;36;104;5;78;34;7;36;65;7;36;94];
 [7;36;102;5;78;38;5;78;40;5;77;124;4;74;94;7];
 [36;95;7;36;75;7;36;81;5;78;39;7;36;92;15;79];
 [89;15;79;90;15;79;91;15;79;92;15;79;93;15;79;94];
 [15;79;95;15;79;98;15;79;99;15;79;100;15;79;101;15];
 [79;102;15;79;103;15;79;104;15;79;106;15;79;107;15;79];
 [111;15;79;112;15;79;113;15;79;114;15;79;115;15;79;116];
 [15;79;117;15;79;118;15;79;119;15;79;120;15;79;123;15];
 [79;124;15;85;81;7;36;85;7;36;96;7;47;48;4;74];
 [99;7;36;70;7;36;93;7;36;72;7;36;74;15;85;74];
 [15;79;126;15;73;64;4;80;124;5;85;53;5;85;52;5];
 [85;40;5;85;41;5;85;43;7;47;51;5;85;48;7;47];
 [71;7;47;64;7;47;58;4;80;121;7;47;57;4;80;126];
 [5;85;51;7;47;61;7;47;49;7;47;55;7;47;70;7];
 [47;59;7;47;56;7;47;67;7;47;54;7;47;50;5;85];
 [49;5;85;42;5;91;119;7;47;60;7;47;73;5;85;44];
 [5;91;121;5;85;50;7;47;47;7;47;52;7;47;62;7];
 [47;65;15;85;70;15;85;72;15;85;73;15;85;75;15;85];
 [76;15;85;79;15;85;80;15;85;82;15;85;83;15;85;84];
 [15;85;85;15;85;87;15;90;109;5;85;47;7;47;63;7];
 [47;69;7;47;72;7;47;74;7;47;46;7;47;68;4;81];
 [33;15;79;97;15;90;102;15;90;95;5;84;58;5;91;124];
 [4;86;90;4;86;95;5;91;122;7;56;122;7;56;110;4];
 [91;82;5;91;123;5;91;120;7;56;112;7;56;118;7;56];
 [111;7;56;121;7;56;116;7;56;115;5;98;56;7;56;117];
 [7;56;123;5;91;125;7;56;119;5;85;55;3;85;58;7];
 [56;120;15;90;96;15;90;97;15;90;98;15;90;99;15;90];
 [100;15;90;101;15;90;103;15;90;105;15;90;107;15;90;112];
 [7;56;114;5;91;126;7;56;124;7;56;113;15;85;78;15];
 [90;108;15;90;111;15;85;71;15;85;77;15;90;94;7;47];
 [53;5;98;63;5;98;70;5;98;69;4;91;93;5;98;61];
 [5;98;57;5;98;66;7;64;64;7;64;70;4;91;89;5];
 [98;75;5;98;68;7;64;60;5;98;65;5;98;74;4;91];
 [88;5;98;67;7;64;71;5;98;59;7;64;65;5;98;64];
 [7;64;72;7;64;58;4;91;95;4;91;85;7;64;69;7];
 [64;68;7;64;62;5;98;58;4;91;83;5;98;60;5;98];
 [62;5;98;73;5;98;76;5;98;71;7;64;63;4;91;92];
 [7;64;66;7;71;95;5;98;77;15;95;51;15;95;53;15];
 [95;54;15;95;55;15;95;57;15;95;58;15;95;59;15;95];
 [60;15;95;61;15;95;62;15;95;63;15;95;64;15;95;65];
 [15;95;66;15;95;67;15;98;100;15;98;101;15;98;108;7];
 [71;94;7;64;61;7;64;57;7;64;67;7;64;59;15;95];
 [52;15;90;106;15;90;110;5;98;72;7;71;101;7;71;92];
 [7;71;98;4;95;124;4;95;122;7;71;83;5;104;54;7];
 [71;86;7;71;84;7;71;91;7;71;90;7;71;85;5;104];
 [53;7;71;89;7;71;93;5;108;69;7;71;97;15;98;102];
 [15;98;103;15;98;104;15;98;105;15;98;106;15;98;109;15];
 [98;110;15;98;111;15;98;112;15;98;113;7;71;87;7;71];
 [96;7;71;102;7;71;100;7;71;99;7;71;88;5;108;71];
 [5;108;74;5;108;75;7;78;43;4;99;89;4;99;93;7];
 [78;42;7;78;41;5;108;72;4;99;92;7;78;46;4;99];
 [87;4;99;88;4;99;86;7;78;45;5;112;59;5;108;73];
 [5;108;76;7;78;47;15;101;66;15;101;67;15;101;68;7];
 [78;44;4;102;72;5;112;64;7;83;86;5;112;63;5;112];
 [61;4;102;75;7;83;84;5;112;60;7;83;89;7;83;83];
 [4;102;77;7;83;95;5;112;65;7;83;85;7;83;90;15];
 [103;104;15;103;105;15;103;106;15;103;107;15;103;109;15;103];
 [110;15;103;111;7;83;91;7;83;92;7;83;93;7;83;94];
 [5;112;58;15;103;112;15;105;85;7;88;46;7;83;87;7];
 [88;47;5;115;84;5;112;66;7;88;45;5;115;85;7;88];
 [49;4;104;114;7;88;50;15;105;83;15;105;84;7;88;51];
 [7;88;48;7;88;44;5;118;33;5;118;34;7;91;105;7];
 [91;104;5;117;126;7;91;103;5;117;125;15;106;91;15;106];
 [92;15;106;93;7;91;106;7;91;102;7;94;118;5;119;103];
 [7;94;119;4;108;113;7;94;116;5;119;102;7;94;117;4];
 [108;114;7;96;121;7;96;120;7;96;119;15;108;47;7;98];
 [57;4;109;88;5;122;43;5;122;42;4;109;89;4;109;116];
 [5;122;105;5;122;106;7;99;87;7;100;75;5;123;65;15];
 [109;38;7;101;92;5;124;60;6;35;47;6;37;51;4;35];
 [36;4;35;37;6;37;50;15;34;95;15;34;96;15;34;97];
 [6;37;52;4;36;83;4;36;84;5;36;84;6;40;76;5];
 [36;85;5;36;87;15;36;107;15;36;108;15;36;109;15;36];
 [112;15;36;114;6;40;75;5;38;116;4;39;40;5;38;117];
 [15;39;111;15;39;112;15;39;113;15;39;115;15;39;116;15];
 [39;117;15;39;118;15;39;119;6;44;95;15;39;114;6;44];
 [94;4;39;42;5;36;86;5;42;37;6;50;76;5;42;38];
 [6;50;68;5;42;39;6;50;75;6;50;70;15;43;111;15];
 [43;112;15;43;113;15;43;114;15;43;115;15;43;116;15;43];
 [117;15;43;118;15;43;119;15;43;120;15;43;121;15;43;123];
 [15;43;124;15;43;125;15;43;126;15;44;33;15;44;35;4];
 [42;41;6;50;69;6;50;67;6;50;71;6;57;58;5;42];
 [40;6;50;74;15;44;34;6;50;73;5;46;79;5;46;78];
 [6;57;54;6;57;57;15;48;106;4;50;111;6;57;55;4];
 [45;116;6;57;52;5;46;75;15;48;93;15;48;94;15;48];
 [95;15;48;96;15;48;97;15;48;98;15;48;99;15;48;100];
 [15;48;101;15;48;102;15;48;104;15;48;105;15;48;107;15];
 [48;108;15;48;110;15;48;111;15;48;112;15;48;113;15;48];
 [114;5;46;76;6;57;53;6;57;59;6;57;60;15;48;103];
 [15;48;109;6;57;56;5;46;77;6;65;75;4;50;116;5];
 [51;68;6;65;79;4;50;115;4;50;117;6;65;78;6;65];
 [84;6;65;81;6;65;77;6;65;76;6;74;115;6;65;82];
 [6;65;80;6;65;83;15;54;36;15;54;62;15;54;63;15];
 [54;64;15;54;65;15;54;67;15;54;68;15;54;69;15;54];
 [70;15;54;71;15;54;73;15;54;74;15;54;76;15;54;77];
 [15;54;78;15;54;80;6;65;73;6;65;72;15;54;75;5];
 [51;67;5;51;69;6;65;85;4;56;105;6;74;120;6;65];
 [74;5;57;113;5;57;111;6;74;126;6;75;33;5;57;110];
 [6;74;117;4;56;102;6;74;122;6;74;116;6;74;125;4];
 [56;99;5;57;112;6;74;119;15;60;94;15;60;95;15;60];
 [96;15;60;97;15;60;98;15;60;99;15;60;100;15;60;102];
 [15;60;103;15;60;104;15;60;105;15;60;107;15;60;108;15];
 [60;109;15;60;110;15;60;111;15;60;112;15;60;113;15;60];
 [114;15;60;117;15;60;119;15;60;120;15;60;121;15;60;122];
 [15;60;123;15;60;124;15;61;33;6;74;121;6;74;124;4];
 [56;103;6;74;118;6;74;123;15;60;106;5;57;114;5;64];
 [52;6;84;90;6;84;88;5;64;48;6;84;86;6;84;93];
 [4;62;71;6;84;87;4;62;68;6;84;91;6;84;94;4];
 [62;69;5;64;50;6;84;83;6;84;99;6;84;95;6;84];
 [100;5;64;53;6;84;92;6;84;98;15;66;118;15;66;121];
 [15;66;123;15;66;124;15;66;125;15;67;33;15;67;34;15];
 [67;35;15;67;37;15;67;38;15;67;39;15;67;40;15;67];
 [41;15;67;42;15;67;43;15;67;45;15;67;46;15;67;48];
 [15;67;51;15;67;52;15;67;53;15;67;54;15;67;55;15];
 [67;56;15;67;57;15;67;58;15;67;59;15;67;61;15;67];
 [62;6;84;81;6;84;82;6;84;85;6;84;102;4;62;74];
 [6;84;97;6;84;101;6;90;84;15;67;44;5;64;51;5];
 [64;49;15;73;84;6;94;81;6;94;80;5;70;126;6;94];
 [74;5;71;34;4;68;85;5;70;124;5;70;123;5;70;122];
 [7;36;112;7;36;106;6;94;70;5;71;33;6;94;71;6];
 [94;72;5;70;121;6;94;75;6;94;79;15;73;68;15;73];
 [69;15;73;70;15;73;71;15;73;73;15;73;74;15;73;76];
 [15;73;77;15;73;78;15;73;79;15;73;80;15;73;81;15];
 [73;82;15;73;83;15;73;85;15;73;86;15;73;87;15;73];
 [90;15;73;91;15;73;93;15;73;94;15;73;96;15;73;98];
 [15;73;99;15;73;100;4;68;93;5;70;125;6;94;76;6];
 [94;82;6;94;73;6;94;77;15;73;92;6;84;96;15;66];
 [126;15;66;122;4;74;107;5;78;44;7;36;116;7;36;109];
 [7;36;105;5;78;42;7;36;108;7;36;113;7;36;114;7];
 [36;117;7;36;107;5;78;41;15;78;34;5;78;43;7;36];
 [115;15;80;35;15;80;36;15;80;38;15;80;39;15;80;40];
 [15;80;41;15;80;42;15;80;43;15;80;46;15;80;47;15];
 [80;49;15;80;50;15;80;51;15;80;52;15;80;53;15;80];
 [55;15;80;56;15;80;57;15;80;58;15;80;59;15;80;60];
 [7;36;110;15;80;44;7;42;113;15;80;45;15;80;48;15];
 [80;37;15;80;34;5;78;46;5;78;45;6;94;78;4;81];
 [42;7;47;82;7;47;102;7;47;80;7;47;96;7;47;94];
 [5;85;59;4;81;39;7;47;97;7;47;99;7;47;85;7];
 [36;111;4;81;40;7;47;86;7;47;100;7;47;101;4;81];
 [38;7;47;88;7;47;84;4;81;41;7;47;103;5;85;58];
 [5;85;60;7;47;98;7;47;89;7;47;93;7;47;90;7];
 [47;75;7;47;83;7;47;92;15;85;89;15;85;90;15;85];
 [91;15;85;92;15;85;93;15;85;94;15;85;95;15;85;96];
 [15;85;97;15;85;98;15;85;99;15;85;102;15;85;103;15];
 [85;104;15;85;106;15;85;107;15;85;109;15;85;110;15;85];
 [112;15;85;113;15;85;114;15;85;101;5;85;56;7;47;77];
 [7;47;78;7;47;91;7;47;95;7;49;122;7;47;81;7];
 [44;123;15;85;111;5;85;61;5;85;57;7;47;76;7;36];
 [118;7;47;87;7;57;35;4;86;97;7;57;37;5;85;62];
 [7;57;41;7;57;40;4;86;99;7;47;104;5;92;33;7];
 [56;125;5;92;36;5;92;34;15;90;113;15;90;114;15;90];
 [118;15;90;119;15;90;120;15;90;121;15;90;122;15;90;123];
 [15;90;124;15;90;125;15;90;126;15;91;33;15;91;34;15];
 [91;35;7;56;126;7;57;36;7;57;34;5;92;35;7;57];
 [33;15;85;105;7;64;79;4;91;98;7;64;78;5;98;78];
 [7;64;75;7;64;83;7;64;81;7;64;76;4;91;99;5];
 [98;79;5;98;80;4;91;97;7;64;84;7;64;74;7;64];
 [82;15;95;68;15;95;70;15;95;69;15;95;71;15;95;72];
 [15;95;73;15;95;74;15;95;76;15;95;77;7;64;80;7];
 [66;34;7;64;85;7;64;77;7;64;73;7;57;42;15;97];
 [118;15;90;116;15;90;117;7;71;108;5;104;55;4;96;33];
 [7;71;109;4;96;34;7;71;106;15;98;116;15;98;117;15];
 [98;118;15;98;119;7;71;105;7;71;103;7;71;107;15;95];
 [75;7;71;104;15;101;69;5;108;79;7;78;48;7;78;51];
 [7;78;59;5;108;78;5;108;77;5;108;81;4;96;35;7];
 [78;50;7;78;56;4;99;98;4;99;96;7;78;60;7;78];
 [49;7;78;53;7;78;55;15;101;72;7;78;52;15;101;70];
 [15;101;71;15;101;74;15;101;75;15;101;76;15;101;77;15];
 [101;78;7;78;57;7;78;54;7;78;58;5;108;80;7;83];
 [100;4;99;97;7;83;102;5;112;67;4;102;79;7;83;103];
 [7;83;98;7;83;99;7;83;101;15;103;113;15;103;114;15];
 [103;115;15;103;116;15;103;117;7;88;54;5;115;86;4;106];
 [79;7;88;55;7;88;56;7;88;52;15;105;86;15;105;87];
 [15;105;88;7;88;53;7;91;36;7;91;110;7;91;112;7];
 [91;109;7;92;68;7;91;111;7;91;108;7;91;107;5;118];
 [35;15;106;96;7;94;120;15;106;95;5;119;104;7;97;33];
 [7;96;124;7;96;126;7;97;56;7;96;123;7;96;125;7];
 [98;58;5;122;107;15;108;100;15;108;101;7;100;77;7;100];
 [76;7;100;78;7;101;55;7;102;52;5;33;75;6;35;48];
 [6;40;77;6;40;78;5;36;88;6;44;98;6;44;97;6];
 [44;99;15;39;120;15;39;121;6;50;78;5;42;43;5;42];
 [41;6;50;79;5;42;42;6;50;81;15;44;36;15;44;37];
 [15;44;38;6;50;77;6;50;80;5;46;81;5;46;80;15];
 [48;115;6;65;87;6;65;86;6;65;88;15;54;81;4;56];
 [106;6;75;34;6;71;67;6;77;93;6;84;104;6;84;105];
 [6;94;83;5;71;35;6;94;86;6;94;85;6;94;84;7];
 [36;122;5;78;47;7;36;119;7;36;121;7;36;120;7;47];
 [105;7;47;106;5;85;63;4;86;101;15;91;36;15;91;37];
 [15;91;38;15;85;115;7;64;86;5;104;56;15;101;79;15];
 [101;80;7;78;61;7;83;104;7;91;113;7;94;121;7;97];
 [34;15;36;115;15;36;116;6;44;100;6;44;101;6;65;89];
 [6;65;90;15;61;34;15;61;35;6;84;106;15;73;101;5];
 [71;36;5;85;64;15;33;104;6;43;107;5;42;44;4;42];
 [43;4;45;119;15;48;116;5;49;108;6;75;35;6;84;108];
 [6;84;107;5;85;65;7;36;123;7;36;124;5;85;66;6];
 [34;37;6;35;49;6;37;53;6;40;79;4;39;45;6;44];
 [103;6;44;102;6;50;82;4;42;45;6;50;83;6;50;84];
 [6;57;62;4;45;120;15;48;117;6;57;61;6;65;91;6];
 [65;94;6;65;93;4;50;120;6;65;92;15;54;82;15;54];
 [83;6;75;40;6;75;36;6;75;38;6;75;39;6;75;41];
 [6;75;37;6;77;88;6;84;109;6;84;110;15;67;63;6];
 [94;88;6;94;89;15;73;102;7;36;125;15;80;62;7;36];
 [126;5;85;67;5;98;81;4;81;44;7;47;107;7;37;33];
 [5;85;68;7;57;43;7;57;44;5;92;37;7;71;112;5];
 [108;82;7;88;57;7;91;114;7;99;88;5;123;66;7;100];
 [79;15;33;105;6;40;81;5;36;89;6;40;80;4;39;46];
 [6;44;107;6;44;106;6;44;105;6;44;104;6;50;86;6];
 [50;85;5;42;45;6;50;87;5;42;46;5;46;82;4;45];
 [121;4;45;123;6;57;65;6;57;63;5;51;70;5;51;71];
 [6;65;95;6;65;98;6;65;96;6;75;43;4;56;109;6];
 [75;46;6;75;42;6;75;44;6;75;45;5;57;115;5;57];
 [118;5;57;116;5;57;117;4;56;110;5;64;56;6;84;111];
 [4;62;77;5;64;54;5;64;55;6;84;112;15;61;36;5];
 [71;37;6;94;91;6;94;92;6;94;90;15;73;103;5;78];
 [50;7;37;37;5;78;49;5;78;48;5;78;51;7;37;36];
 [7;37;34;5;78;52;7;37;35;5;85;70;5;85;71;5];
 [85;72;7;47;109;5;85;69;7;47;108;5;92;38;4;86];
 [102;15;91;39;15;91;40;5;98;83;5;98;82;5;108;83];
 [7;83;105;5;35;104;6;57;67;6;57;66;4;56;111;6];
 [75;47;15;61;37;15;61;38;6;84;113;6;94;93;5;33];
 [117;15;34;99;6;37;54;15;34;98;6;40;83;15;36;117];
 [6;40;82;6;40;84;5;38;121;5;39;34;5;38;120;5];
 [38;123;5;38;118;5;38;125;6;44;110;4;39;48;5;39];
 [33;6;44;108;5;38;126;5;39;35;5;38;124;6;44;109];
 [15;39;123;15;39;124;15;39;126;15;40;33;5;38;122;6];
 [44;111;6;44;112;5;42;50;5;42;48;5;42;47;6;50];
 [95;6;50;92;5;42;51;5;42;49;4;42;48;6;50;90];
 [6;50;89;15;44;40;15;44;41;6;50;91;6;50;94;6];
 [50;88;6;50;93;5;42;52;15;39;125;5;46;88;5;46];
 [84;5;46;86;5;46;87;5;46;85;6;57;68;5;46;89];
 [4;50;123;6;65;103;6;65;104;5;51;73;5;57;119;4];
 [50;125;4;50;124;5;51;75;5;51;76;15;54;84;15;54];
 [85;6;65;101;6;65;105;6;65;100;5;51;72;4;56;113];
 [4;56;116;5;57;125;6;75;52;5;57;121;5;57;123;5];
 [57;120;6;75;50;6;75;53;15;61;39;15;61;40;6;75]].

