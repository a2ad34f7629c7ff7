(** * PyTests: the primitives compared with CPython 3.11

    Generated by a script that evaluates the Python standard library (not the
    code under /repo).  These are tests of the model's primitives, not proofs of
    properties. *)

From Verif Require Import Maint Misc TextRows Origin.

Definition mk (l : list nat) : string :=
  fold_right (fun n s => String (ascii_of_nat n) s) "" l.

Definition allchars : list nat := seq 0 256.

Example isspace_ok : filter (fun n => isspace (ascii_of_nat n)) allchars = [9;10;11;12;13;28;29;30;31;32;133;160].
Proof. vm_compute. reflexivity. Qed.
Example lower_ok : map (fun n => nat_of_ascii (lower_char (ascii_of_nat n))) allchars = [0;1;2;3;4;5;6;7;8;9;10;11;12;13;14;15;16;17;18;19;20;21;22;23;24;25;26;27;28;29;30;31;32;33;34;35;36;37;38;39;40;41;42;43;44;45;46;47;48;49;50;51;52;53;54;55;56;57;58;59;60;61;62;63;64;97;98;99;100;101;102;103;104;105;106;107;108;109;110;111;112;113;114;115;116;117;118;119;120;121;122;91;92;93;94;95;96;97;98;99;100;101;102;103;104;105;106;107;108;109;110;111;112;113;114;115;116;117;118;119;120;121;122;123;124;125;126;127;128;129;130;131;132;133;134;135;136;137;138;139;140;141;142;143;144;145;146;147;148;149;150;151;152;153;154;155;156;157;158;159;160;161;162;163;164;165;166;167;168;169;170;171;172;173;174;175;176;177;178;179;180;181;182;183;184;185;186;187;188;189;190;191;224;225;226;227;228;229;230;231;232;233;234;235;236;237;238;239;240;241;242;243;244;245;246;215;248;249;250;251;252;253;254;223;224;225;226;227;228;229;230;231;232;233;234;235;236;237;238;239;240;241;242;243;244;245;246;247;248;249;250;251;252;253;254;255].
Proof. vm_compute. reflexivity. Qed.
Example title_ok : map (fun n => title_aux false (mk [n])) allchars = [(mk [0]);(mk [1]);(mk [2]);(mk [3]);(mk [4]);(mk [5]);(mk [6]);(mk [7]);(mk [8]);(mk [9]);(mk [10]);(mk [11]);(mk [12]);(mk [13]);(mk [14]);(mk [15]);(mk [16]);(mk [17]);(mk [18]);(mk [19]);(mk [20]);(mk [21]);(mk [22]);(mk [23]);(mk [24]);(mk [25]);(mk [26]);(mk [27]);(mk [28]);(mk [29]);(mk [30]);(mk [31]);(mk [32]);(mk [33]);(mk [34]);(mk [35]);(mk [36]);(mk [37]);(mk [38]);(mk [39]);(mk [40]);(mk [41]);(mk [42]);(mk [43]);(mk [44]);(mk [45]);(mk [46]);(mk [47]);(mk [48]);(mk [49]);(mk [50]);(mk [51]);(mk [52]);(mk [53]);(mk [54]);(mk [55]);(mk [56]);(mk [57]);(mk [58]);(mk [59]);(mk [60]);(mk [61]);(mk [62]);(mk [63]);(mk [64]);(mk [65]);(mk [66]);(mk [67]);(mk [68]);(mk [69]);(mk [70]);(mk [71]);(mk [72]);(mk [73]);(mk [74]);(mk [75]);(mk [76]);(mk [77]);(mk [78]);(mk [79]);(mk [80]);(mk [81]);(mk [82]);(mk [83]);(mk [84]);(mk [85]);(mk [86]);(mk [87]);(mk [88]);(mk [89]);(mk [90]);(mk [91]);(mk [92]);(mk [93]);(mk [94]);(mk [95]);(mk [96]);(mk [65]);(mk [66]);(mk [67]);(mk [68]);(mk [69]);(mk [70]);(mk [71]);(mk [72]);(mk [73]);(mk [74]);(mk [75]);(mk [76]);(mk [77]);(mk [78]);(mk [79]);(mk [80]);(mk [81]);(mk [82]);(mk [83]);(mk [84]);(mk [85]);(mk [86]);(mk [87]);(mk [88]);(mk [89]);(mk [90]);(mk [123]);(mk [124]);(mk [125]);(mk [126]);(mk [127]);(mk [128]);(mk [129]);(mk [130]);(mk [131]);(mk [132]);(mk [133]);(mk [134]);(mk [135]);(mk [136]);(mk [137]);(mk [138]);(mk [139]);(mk [140]);(mk [141]);(mk [142]);(mk [143]);(mk [144]);(mk [145]);(mk [146]);(mk [147]);(mk [148]);(mk [149]);(mk [150]);(mk [151]);(mk [152]);(mk [153]);(mk [154]);(mk [155]);(mk [156]);(mk [157]);(mk [158]);(mk [159]);(mk [160]);(mk [161]);(mk [162]);(mk [163]);(mk [164]);(mk [165]);(mk [166]);(mk [167]);(mk [168]);(mk [169]);(mk [170]);(mk [171]);(mk [172]);(mk [173]);(mk [174]);(mk [175]);(mk [176]);(mk [177]);(mk [178]);(mk [179]);(mk [180]);(mk [181]);(mk [182]);(mk [183]);(mk [184]);(mk [185]);(mk [186]);(mk [187]);(mk [188]);(mk [189]);(mk [190]);(mk [191]);(mk [192]);(mk [193]);(mk [194]);(mk [195]);(mk [196]);(mk [197]);(mk [198]);(mk [199]);(mk [200]);(mk [201]);(mk [202]);(mk [203]);(mk [204]);(mk [205]);(mk [206]);(mk [207]);(mk [208]);(mk [209]);(mk [210]);(mk [211]);(mk [212]);(mk [213]);(mk [214]);(mk [215]);(mk [216]);(mk [217]);(mk [218]);(mk [219]);(mk [220]);(mk [221]);(mk [222]);(mk [83;115]);(mk [192]);(mk [193]);(mk [194]);(mk [195]);(mk [196]);(mk [197]);(mk [198]);(mk [199]);(mk [200]);(mk [201]);(mk [202]);(mk [203]);(mk [204]);(mk [205]);(mk [206]);(mk [207]);(mk [208]);(mk [209]);(mk [210]);(mk [211]);(mk [212]);(mk [213]);(mk [214]);(mk [247]);(mk [216]);(mk [217]);(mk [218]);(mk [219]);(mk [220]);(mk [221]);(mk [222]);(mk [255])].
Proof. vm_compute. reflexivity. Qed.
Example title2_ok : map (fun n => title (mk [97; n; 97])) allchars = [(mk [65;0;65]);(mk [65;1;65]);(mk [65;2;65]);(mk [65;3;65]);(mk [65;4;65]);(mk [65;5;65]);(mk [65;6;65]);(mk [65;7;65]);(mk [65;8;65]);(mk [65;9;65]);(mk [65;10;65]);(mk [65;11;65]);(mk [65;12;65]);(mk [65;13;65]);(mk [65;14;65]);(mk [65;15;65]);(mk [65;16;65]);(mk [65;17;65]);(mk [65;18;65]);(mk [65;19;65]);(mk [65;20;65]);(mk [65;21;65]);(mk [65;22;65]);(mk [65;23;65]);(mk [65;24;65]);(mk [65;25;65]);(mk [65;26;65]);(mk [65;27;65]);(mk [65;28;65]);(mk [65;29;65]);(mk [65;30;65]);(mk [65;31;65]);(mk [65;32;65]);(mk [65;33;65]);(mk [65;34;65]);(mk [65;35;65]);(mk [65;36;65]);(mk [65;37;65]);(mk [65;38;65]);(mk [65;39;65]);(mk [65;40;65]);(mk [65;41;65]);(mk [65;42;65]);(mk [65;43;65]);(mk [65;44;65]);(mk [65;45;65]);(mk [65;46;65]);(mk [65;47;65]);(mk [65;48;65]);(mk [65;49;65]);(mk [65;50;65]);(mk [65;51;65]);(mk [65;52;65]);(mk [65;53;65]);(mk [65;54;65]);(mk [65;55;65]);(mk [65;56;65]);(mk [65;57;65]);(mk [65;58;65]);(mk [65;59;65]);(mk [65;60;65]);(mk [65;61;65]);(mk [65;62;65]);(mk [65;63;65]);(mk [65;64;65]);(mk [65;97;97]);(mk [65;98;97]);(mk [65;99;97]);(mk [65;100;97]);(mk [65;101;97]);(mk [65;102;97]);(mk [65;103;97]);(mk [65;104;97]);(mk [65;105;97]);(mk [65;106;97]);(mk [65;107;97]);(mk [65;108;97]);(mk [65;109;97]);(mk [65;110;97]);(mk [65;111;97]);(mk [65;112;97]);(mk [65;113;97]);(mk [65;114;97]);(mk [65;115;97]);(mk [65;116;97]);(mk [65;117;97]);(mk [65;118;97]);(mk [65;119;97]);(mk [65;120;97]);(mk [65;121;97]);(mk [65;122;97]);(mk [65;91;65]);(mk [65;92;65]);(mk [65;93;65]);(mk [65;94;65]);(mk [65;95;65]);(mk [65;96;65]);(mk [65;97;97]);(mk [65;98;97]);(mk [65;99;97]);(mk [65;100;97]);(mk [65;101;97]);(mk [65;102;97]);(mk [65;103;97]);(mk [65;104;97]);(mk [65;105;97]);(mk [65;106;97]);(mk [65;107;97]);(mk [65;108;97]);(mk [65;109;97]);(mk [65;110;97]);(mk [65;111;97]);(mk [65;112;97]);(mk [65;113;97]);(mk [65;114;97]);(mk [65;115;97]);(mk [65;116;97]);(mk [65;117;97]);(mk [65;118;97]);(mk [65;119;97]);(mk [65;120;97]);(mk [65;121;97]);(mk [65;122;97]);(mk [65;123;65]);(mk [65;124;65]);(mk [65;125;65]);(mk [65;126;65]);(mk [65;127;65]);(mk [65;128;65]);(mk [65;129;65]);(mk [65;130;65]);(mk [65;131;65]);(mk [65;132;65]);(mk [65;133;65]);(mk [65;134;65]);(mk [65;135;65]);(mk [65;136;65]);(mk [65;137;65]);(mk [65;138;65]);(mk [65;139;65]);(mk [65;140;65]);(mk [65;141;65]);(mk [65;142;65]);(mk [65;143;65]);(mk [65;144;65]);(mk [65;145;65]);(mk [65;146;65]);(mk [65;147;65]);(mk [65;148;65]);(mk [65;149;65]);(mk [65;150;65]);(mk [65;151;65]);(mk [65;152;65]);(mk [65;153;65]);(mk [65;154;65]);(mk [65;155;65]);(mk [65;156;65]);(mk [65;157;65]);(mk [65;158;65]);(mk [65;159;65]);(mk [65;160;65]);(mk [65;161;65]);(mk [65;162;65]);(mk [65;163;65]);(mk [65;164;65]);(mk [65;165;65]);(mk [65;166;65]);(mk [65;167;65]);(mk [65;168;65]);(mk [65;169;65]);(mk [65;170;97]);(mk [65;171;65]);(mk [65;172;65]);(mk [65;173;65]);(mk [65;174;65]);(mk [65;175;65]);(mk [65;176;65]);(mk [65;177;65]);(mk [65;178;65]);(mk [65;179;65]);(mk [65;180;65]);(mk [65;181;97]);(mk [65;182;65]);(mk [65;183;65]);(mk [65;184;65]);(mk [65;185;65]);(mk [65;186;97]);(mk [65;187;65]);(mk [65;188;65]);(mk [65;189;65]);(mk [65;190;65]);(mk [65;191;65]);(mk [65;224;97]);(mk [65;225;97]);(mk [65;226;97]);(mk [65;227;97]);(mk [65;228;97]);(mk [65;229;97]);(mk [65;230;97]);(mk [65;231;97]);(mk [65;232;97]);(mk [65;233;97]);(mk [65;234;97]);(mk [65;235;97]);(mk [65;236;97]);(mk [65;237;97]);(mk [65;238;97]);(mk [65;239;97]);(mk [65;240;97]);(mk [65;241;97]);(mk [65;242;97]);(mk [65;243;97]);(mk [65;244;97]);(mk [65;245;97]);(mk [65;246;97]);(mk [65;215;65]);(mk [65;248;97]);(mk [65;249;97]);(mk [65;250;97]);(mk [65;251;97]);(mk [65;252;97]);(mk [65;253;97]);(mk [65;254;97]);(mk [65;223;97]);(mk [65;224;97]);(mk [65;225;97]);(mk [65;226;97]);(mk [65;227;97]);(mk [65;228;97]);(mk [65;229;97]);(mk [65;230;97]);(mk [65;231;97]);(mk [65;232;97]);(mk [65;233;97]);(mk [65;234;97]);(mk [65;235;97]);(mk [65;236;97]);(mk [65;237;97]);(mk [65;238;97]);(mk [65;239;97]);(mk [65;240;97]);(mk [65;241;97]);(mk [65;242;97]);(mk [65;243;97]);(mk [65;244;97]);(mk [65;245;97]);(mk [65;246;97]);(mk [65;247;65]);(mk [65;248;97]);(mk [65;249;97]);(mk [65;250;97]);(mk [65;251;97]);(mk [65;252;97]);(mk [65;253;97]);(mk [65;254;97]);(mk [65;255;97])].
Proof. vm_compute. reflexivity. Qed.
Example fold_ok : map (fun n => fold_ascii (mk [n])) allchars = [(mk [0]);(mk [1]);(mk [2]);(mk [3]);(mk [4]);(mk [5]);(mk [6]);(mk [7]);(mk [8]);(mk [9]);(mk [10]);(mk [11]);(mk [12]);(mk [13]);(mk [14]);(mk [15]);(mk [16]);(mk [17]);(mk [18]);(mk [19]);(mk [20]);(mk [21]);(mk [22]);(mk [23]);(mk [24]);(mk [25]);(mk [26]);(mk [27]);(mk [28]);(mk [29]);(mk [30]);(mk [31]);(mk [32]);(mk [33]);(mk [34]);(mk [35]);(mk [36]);(mk [37]);(mk [38]);(mk [39]);(mk [40]);(mk [41]);(mk [42]);(mk [43]);(mk [44]);(mk [45]);(mk [46]);(mk [47]);(mk [48]);(mk [49]);(mk [50]);(mk [51]);(mk [52]);(mk [53]);(mk [54]);(mk [55]);(mk [56]);(mk [57]);(mk [58]);(mk [59]);(mk [60]);(mk [61]);(mk [62]);(mk [63]);(mk [64]);(mk [65]);(mk [66]);(mk [67]);(mk [68]);(mk [69]);(mk [70]);(mk [71]);(mk [72]);(mk [73]);(mk [74]);(mk [75]);(mk [76]);(mk [77]);(mk [78]);(mk [79]);(mk [80]);(mk [81]);(mk [82]);(mk [83]);(mk [84]);(mk [85]);(mk [86]);(mk [87]);(mk [88]);(mk [89]);(mk [90]);(mk [91]);(mk [92]);(mk [93]);(mk [94]);(mk [95]);(mk [96]);(mk [97]);(mk [98]);(mk [99]);(mk [100]);(mk [101]);(mk [102]);(mk [103]);(mk [104]);(mk [105]);(mk [106]);(mk [107]);(mk [108]);(mk [109]);(mk [110]);(mk [111]);(mk [112]);(mk [113]);(mk [114]);(mk [115]);(mk [116]);(mk [117]);(mk [118]);(mk [119]);(mk [120]);(mk [121]);(mk [122]);(mk [123]);(mk [124]);(mk [125]);(mk [126]);(mk [127]);(mk []);(mk []);(mk []);(mk []);(mk []);(mk []);(mk []);(mk []);(mk []);(mk []);(mk []);(mk []);(mk []);(mk []);(mk []);(mk []);(mk []);(mk []);(mk []);(mk []);(mk []);(mk []);(mk []);(mk []);(mk []);(mk []);(mk []);(mk []);(mk []);(mk []);(mk []);(mk []);(mk [32]);(mk []);(mk []);(mk []);(mk []);(mk []);(mk []);(mk []);(mk [32]);(mk []);(mk [97]);(mk []);(mk []);(mk []);(mk []);(mk [32]);(mk []);(mk []);(mk [50]);(mk [51]);(mk [32]);(mk []);(mk []);(mk []);(mk [32]);(mk [49]);(mk [111]);(mk []);(mk [49;52]);(mk [49;50]);(mk [51;52]);(mk []);(mk [65]);(mk [65]);(mk [65]);(mk [65]);(mk [65]);(mk [65]);(mk []);(mk [67]);(mk [69]);(mk [69]);(mk [69]);(mk [69]);(mk [73]);(mk [73]);(mk [73]);(mk [73]);(mk []);(mk [78]);(mk [79]);(mk [79]);(mk [79]);(mk [79]);(mk [79]);(mk []);(mk []);(mk [85]);(mk [85]);(mk [85]);(mk [85]);(mk [89]);(mk []);(mk []);(mk [97]);(mk [97]);(mk [97]);(mk [97]);(mk [97]);(mk [97]);(mk []);(mk [99]);(mk [101]);(mk [101]);(mk [101]);(mk [101]);(mk [105]);(mk [105]);(mk [105]);(mk [105]);(mk []);(mk [110]);(mk [111]);(mk [111]);(mk [111]);(mk [111]);(mk [111]);(mk []);(mk []);(mk [117]);(mk [117]);(mk [117]);(mk [117]);(mk [121]);(mk []);(mk [121])].
Proof. vm_compute. reflexivity. Qed.
Example strip_ok : map strip [(mk [28;65]);(mk [32;9;46;9;98]);(mk [32;46;160;32]);(mk []);(mk [65;9;160]);(mk [65;32;45;9]);(mk [45]);(mk [45;65;32;160]);(mk [28;97;65;28]);(mk [9;45;97;46]);(mk [28;9;45;45;160;98]);(mk [9;45;32;45]);(mk [66]);(mk [46;65;98;66;45]);(mk [98;97;160]);(mk [28;160;9;45;97;46]);(mk [98;66;97]);(mk [9;9;46;65]);(mk [98]);(mk [32;9;46]);(mk [98;98;98;45]);(mk [45;66;9]);(mk [9;97;66;9;32;97]);(mk [45;66;97;65;98]);(mk [98;28;45]);(mk [32;160;97]);(mk [160]);(mk [65;66;9]);(mk [46;97;28]);(mk [65;46;97;65;98;65]);(mk [28]);(mk [45;28;97]);(mk [32;28]);(mk [46;98;45]);(mk [98;28;46;45]);(mk [32;66;46;65;65]);(mk [65;9;66]);(mk [65;32;160;9;160]);(mk [28;9;98]);(mk [32;9;32;45]);(mk [46]);(mk [45;32]);(mk [160;45;65;28;97;98]);(mk [98;66;9;9]);(mk [66;66;66;66;97;9]);(mk [9])] = [(mk [65]);(mk [46;9;98]);(mk [46]);(mk []);(mk [65]);(mk [65;32;45]);(mk [45]);(mk [45;65]);(mk [97;65]);(mk [45;97;46]);(mk [45;45;160;98]);(mk [45;32;45]);(mk [66]);(mk [46;65;98;66;45]);(mk [98;97]);(mk [45;97;46]);(mk [98;66;97]);(mk [46;65]);(mk [98]);(mk [46]);(mk [98;98;98;45]);(mk [45;66]);(mk [97;66;9;32;97]);(mk [45;66;97;65;98]);(mk [98;28;45]);(mk [97]);(mk []);(mk [65;66]);(mk [46;97]);(mk [65;46;97;65;98;65]);(mk []);(mk [45;28;97]);(mk []);(mk [46;98;45]);(mk [98;28;46;45]);(mk [66;46;65;65]);(mk [65;9;66]);(mk [65]);(mk [98]);(mk [45]);(mk [46]);(mk [45]);(mk [45;65;28;97;98]);(mk [98;66]);(mk [66;66;66;66;97]);(mk [])].
Proof. vm_compute. reflexivity. Qed.
Example lower_str_ok : map lower [(mk [98;223;97;66;223]);(mk [46]);(mk []);(mk [28;223]);(mk [32;215;46;97]);(mk [9;223;97;46;98]);(mk [98]);(mk [160;46;46;215;46;98]);(mk [160;45;215;215;215]);(mk [160;215;160;65;223;215]);(mk [160]);(mk [66;98;223;32]);(mk [97;66;97;160;223;45]);(mk [66;215]);(mk [98;98;9;160;9]);(mk [66]);(mk [45;32;66;192]);(mk [215;192]);(mk [192;9;65;215;223;215]);(mk [65]);(mk [192;98;9;215;223;65]);(mk [65;223;9]);(mk [28;28;28;32;28]);(mk [66;215;192;28])] = [(mk [98;223;97;98;223]);(mk [46]);(mk []);(mk [28;223]);(mk [32;215;46;97]);(mk [9;223;97;46;98]);(mk [98]);(mk [160;46;46;215;46;98]);(mk [160;45;215;215;215]);(mk [160;215;160;97;223;215]);(mk [160]);(mk [98;98;223;32]);(mk [97;98;97;160;223;45]);(mk [98;215]);(mk [98;98;9;160;9]);(mk [98]);(mk [45;32;98;224]);(mk [215;224]);(mk [224;9;97;215;223;215]);(mk [97]);(mk [224;98;9;215;223;97]);(mk [97;223;9]);(mk [28;28;28;32;28]);(mk [98;215;224;28])].
Proof. vm_compute. reflexivity. Qed.
Example title_str_ok : map title [(mk [233;46;122;45;45;122;97]);(mk []);(mk [45]);(mk [49;95]);(mk [95;95;65]);(mk [65;90;45;65]);(mk [90;45;49;95;122]);(mk [32;233;39;95;45]);(mk [95;45;122;45;122;45]);(mk [97;95;32;223;122;39;97;223]);(mk [122;122]);(mk [39;201;98;45;97;46;233]);(mk [45;45;32;223;223;98;45;97]);(mk [65;90;97]);(mk [45;97;223;98;32;46;39]);(mk [39;45;65;201;90;32;45;45]);(mk [45;65;201;45;90;45;65]);(mk [122;49;98;49;32;46;98]);(mk [49;98;65]);(mk [223;98;223;122]);(mk [122;90;122;32;65]);(mk [49]);(mk [122;233;95;65;122;201;49]);(mk [49;46;49;65;46;46;98;201]);(mk [97;46;45;32;32]);(mk [46;45;39;90;45;98]);(mk [223]);(mk [98;98;90]);(mk [97;223;122;90]);(mk [95;49]);(mk [49;122;45;45]);(mk [201;46;98;90;97;223;201]);(mk [49;98]);(mk [97;233;98;223]);(mk [98;39;95;65]);(mk [90]);(mk [32]);(mk [45;49;90;39;122]);(mk [201;65;98;122;90;97;122;65]);(mk [233;90;45;223]);(mk [90;32;45]);(mk [90;46]);(mk [97;97;97;201]);(mk [45;65;45;32;65;32;98;233]);(mk [233;32;45;95;49;45]);(mk [201;65;65;46]);(mk [95;201;201]);(mk [49;46]);(mk [97;98]);(mk [49;122;97;98]);(mk [95;45;233;90;39;65]);(mk [97;32;122;122]);(mk [32;97;90;46]);(mk [45;46;65;97;90]);(mk [46;122;97]);(mk [49;98;32;90;45]);(mk [65;45;223]);(mk [122]);(mk [39;97;49;97;90;90]);(mk [98;39;45]);(mk [233;201]);(mk [223;46;201;32;122;90]);(mk [97;95]);(mk [233;49;201;201;223;45;122;45]);(mk [39;95;95;223;97;95;233;39]);(mk [98;97;97]);(mk [233;46]);(mk [45;97;233;97;233;45;233]);(mk [32;90;97])] = [(mk [201;46;90;45;45;90;97]);(mk []);(mk [45]);(mk [49;95]);(mk [95;95;65]);(mk [65;122;45;65]);(mk [90;45;49;95;90]);(mk [32;201;39;95;45]);(mk [95;45;90;45;90;45]);(mk [65;95;32;83;115;122;39;65;223]);(mk [90;122]);(mk [39;201;98;45;65;46;201]);(mk [45;45;32;83;115;223;98;45;65]);(mk [65;122;97]);(mk [45;65;223;98;32;46;39]);(mk [39;45;65;233;122;32;45;45]);(mk [45;65;233;45;90;45;65]);(mk [90;49;66;49;32;46;66]);(mk [49;66;97]);(mk [83;115;98;223;122]);(mk [90;122;122;32;65]);(mk [49]);(mk [90;233;95;65;122;233;49]);(mk [49;46;49;65;46;46;66;233]);(mk [65;46;45;32;32]);(mk [46;45;39;90;45;66]);(mk [83;115]);(mk [66;98;122]);(mk [65;223;122;122]);(mk [95;49]);(mk [49;90;45;45]);(mk [201;46;66;122;97;223;233]);(mk [49;66]);(mk [65;233;98;223]);(mk [66;39;95;65]);(mk [90]);(mk [32]);(mk [45;49;90;39;90]);(mk [201;97;98;122;122;97;122;97]);(mk [201;122;45;83;115]);(mk [90;32;45]);(mk [90;46]);(mk [65;97;97;233]);(mk [45;65;45;32;65;32;66;233]);(mk [201;32;45;95;49;45]);(mk [201;97;97;46]);(mk [95;201;233]);(mk [49;46]);(mk [65;98]);(mk [49;90;97;98]);(mk [95;45;201;122;39;65]);(mk [65;32;90;122]);(mk [32;65;122;46]);(mk [45;46;65;97;122]);(mk [46;90;97]);(mk [49;66;32;90;45]);(mk [65;45;83;115]);(mk [90]);(mk [39;65;49;65;122;122]);(mk [66;39;45]);(mk [201;233]);(mk [83;115;46;201;32;90;122]);(mk [65;95]);(mk [201;49;201;233;223;45;90;45]);(mk [39;95;95;83;115;97;95;201;39]);(mk [66;97;97]);(mk [201;46]);(mk [45;65;233;97;233;45;201]);(mk [32;90;97])].
Proof. vm_compute. reflexivity. Qed.
Example split_ok : map (split_on "."%char) [(mk [97;46;46]);(mk [97;46;46;97]);(mk [46;98;98;97;98]);(mk [46]);(mk [97;97;46;46;98;98]);(mk [98;97;98;46;98;97]);(mk [46;46;97;97]);(mk [97;98;98;46]);(mk [46;98;46;46;97]);(mk []);(mk [97;98;98]);(mk [97;46;97;46;98]);(mk [46;46]);(mk [98;98]);(mk [97;46;97]);(mk [97;98]);(mk [98;97]);(mk [46;98;98;98;97;97]);(mk [97;97;46;46]);(mk [46;46;98;97]);(mk [98;97;98;98;98]);(mk [97]);(mk [46;98;98]);(mk [46;97]);(mk [98;98;98]);(mk [98;97;98;98;98;97]);(mk [98;98;98;97;98]);(mk [46;97;98]);(mk [98;97;98]);(mk [46;98;46;97;97;98]);(mk [46;98;97])] = [[(mk [97]);(mk []);(mk [])];[(mk [97]);(mk []);(mk [97])];[(mk []);(mk [98;98;97;98])];[(mk []);(mk [])];[(mk [97;97]);(mk []);(mk [98;98])];[(mk [98;97;98]);(mk [98;97])];[(mk []);(mk []);(mk [97;97])];[(mk [97;98;98]);(mk [])];[(mk []);(mk [98]);(mk []);(mk [97])];[(mk [])];[(mk [97;98;98])];[(mk [97]);(mk [97]);(mk [98])];[(mk []);(mk []);(mk [])];[(mk [98;98])];[(mk [97]);(mk [97])];[(mk [97;98])];[(mk [98;97])];[(mk []);(mk [98;98;98;97;97])];[(mk [97;97]);(mk []);(mk [])];[(mk []);(mk []);(mk [98;97])];[(mk [98;97;98;98;98])];[(mk [97])];[(mk []);(mk [98;98])];[(mk []);(mk [97])];[(mk [98;98;98])];[(mk [98;97;98;98;98;97])];[(mk [98;98;98;97;98])];[(mk []);(mk [97;98])];[(mk [98;97;98])];[(mk []);(mk [98]);(mk [97;97;98])];[(mk []);(mk [98;97])]].
Proof. vm_compute. reflexivity. Qed.
Example replace_ok : map (replace "root." "") [(mk [114;111;111;116;46]);(mk [114;111;111;116;46;97]);(mk [97;46;114;111;111;116;46;98]);(mk [114;111;111;116;114;111;111;116;46]);(mk [114;111;114;111;111;116;46;111;116;46]);(mk [115;117;98;114;111;111;116;46;120]);(mk []);(mk [114;111;111;116]);(mk [114;111;111;116;46;114;111;111;116;46;97]);(mk [97;114;111;111;116;46]);(mk [114;111;114;111;111;116;46;114;111;111;116;46]);(mk [114;111;111;116;46;114;111;114;111]);(mk [97;111;116;46;111;116;46]);(mk [111;116;46;111;116;46]);(mk [97;114;111;111;116;46;114;111;114;111]);(mk [97]);(mk [114;111;97;111;116;46;97]);(mk [114;111;114;111;114;111]);(mk [111;116;46]);(mk [114;111;111;116;46;111;116;46;114;111;111;116;46]);(mk [114;111;114;111;111;116;46]);(mk [97;97;114;111]);(mk [111;116;46;111;116;46;114;111;111;116;46]);(mk [111;116;46;111;116;46;114;111]);(mk [114;111;114;111;111;116;46;111;116;46;114;111]);(mk [97;97;97]);(mk [114;111;111;116;46;114;111]);(mk [97;97;114;111;111;116;46]);(mk [114;111]);(mk [114;111;111;116;46;114;111;111;116;46;114;111;111;116;46])] = [(mk []);(mk [97]);(mk [97;46;98]);(mk [114;111;111;116]);(mk [114;111;111;116;46]);(mk [115;117;98;120]);(mk []);(mk [114;111;111;116]);(mk [97]);(mk [97]);(mk [114;111]);(mk [114;111;114;111]);(mk [97;111;116;46;111;116;46]);(mk [111;116;46;111;116;46]);(mk [97;114;111;114;111]);(mk [97]);(mk [114;111;97;111;116;46;97]);(mk [114;111;114;111;114;111]);(mk [111;116;46]);(mk [111;116;46]);(mk [114;111]);(mk [97;97;114;111]);(mk [111;116;46;111;116;46]);(mk [111;116;46;111;116;46;114;111]);(mk [114;111;111;116;46;114;111]);(mk [97;97;97]);(mk [114;111]);(mk [97;97]);(mk [114;111]);(mk [])].
Proof. vm_compute. reflexivity. Qed.
Example replace2_ok : map (replace "\|" "|") [(mk [92;92;97;92;97;97]);(mk [92;97]);(mk [97;97]);(mk [97;92;92]);(mk []);(mk [124]);(mk [124;124;124;124]);(mk [92;124;97;92;97]);(mk [92]);(mk [97;97;124]);(mk [97;124;92;124;92]);(mk [124;124;92;124;92]);(mk [124;97;124;124;97]);(mk [92;92;124]);(mk [97;92;92;124;92]);(mk [92;92]);(mk [92;124;124]);(mk [124;97;92;92]);(mk [124;97;92]);(mk [92;124;92;92]);(mk [92;124;92;97])] = [(mk [92;92;97;92;97;97]);(mk [92;97]);(mk [97;97]);(mk [97;92;92]);(mk []);(mk [124]);(mk [124;124;124;124]);(mk [124;97;92;97]);(mk [92]);(mk [97;97;124]);(mk [97;124;124;92]);(mk [124;124;124;92]);(mk [124;97;124;124;97]);(mk [92;124]);(mk [97;92;124;92]);(mk [92;92]);(mk [124;124]);(mk [124;97;92;92]);(mk [124;97;92]);(mk [124;92;92]);(mk [124;92;97])].
Proof. vm_compute. reflexivity. Qed.
Example int_ok : map py_int [(mk [48]);(mk [48;48]);(mk [45;48]);(mk [43;53]);(mk [45;49;50]);(mk [32;55;32]);(mk [49;95;48]);(mk [49;95;95;48]);(mk [95;49]);(mk [49;95]);(mk []);(mk [45]);(mk [43]);(mk [120]);(mk [49;50;97]);(mk [178]);(mk [49;32;50]);(mk [45;45;49]);(mk [160;51;28]);(mk [48;48;55]);(mk [49;46;48]);(mk [43;95;49]);(mk [57;57;57;57;57;57;57;57;57;57;57;57;57;57;57;57;57;57;57]);(mk [32;95;32]);(mk [95]);(mk [49]);(mk [32;45;48;95]);(mk [95;95;45]);(mk [48;95]);(mk [48;43;49]);(mk [49;95;43]);(mk [49;95;95]);(mk [48;32;45]);(mk [32]);(mk [48;45;48]);(mk [48;48;95]);(mk [95;95;95;95]);(mk [48;95;32;32]);(mk [95;95]);(mk [32;48;48;49]);(mk [32;45;45]);(mk [45;45]);(mk [32;49]);(mk [49;95;95;45]);(mk [43;48]);(mk [49;45;49;49]);(mk [48;32;48]);(mk [43;43;95]);(mk [45;32;45]);(mk [43;32;49]);(mk [32;48;95;95]);(mk [43;95]);(mk [95;32]);(mk [49;45]);(mk [49;95;48;45]);(mk [49;43]);(mk [49;32;48;32])] = [(Some (0)%Z);(Some (0)%Z);(Some (0)%Z);(Some (5)%Z);(Some (-12)%Z);(Some (7)%Z);(Some (10)%Z);None;None;None;None;None;None;None;None;None;None;None;None;(Some (7)%Z);None;None;(Some (9999999999999999999)%Z);None;None;(Some (1)%Z);None;None;None;None;None;None;None;None;None;None;None;None;None;(Some (1)%Z);None;None;(Some (1)%Z);None;(Some (0)%Z);None;None;None;None;None;None;None;None;None;None;None;None].
Proof. vm_compute. reflexivity. Qed.
Example str_int_ok : map str_of_Z [(0)%Z;(1)%Z;(-1)%Z;(10)%Z;(-10)%Z;(123456789012345678901234567890)%Z;(99)%Z;(-100)%Z] = [(mk [48]);(mk [49]);(mk [45;49]);(mk [49;48]);(mk [45;49;48]);(mk [49;50;51;52;53;54;55;56;57;48;49;50;51;52;53;54;55;56;57;48;49;50;51;52;53;54;55;56;57;48]);(mk [57;57]);(mk [45;49;48;48])].
Proof. vm_compute. reflexivity. Qed.
Example splitlines_ok : map splitlines [(mk [97;98;97;29;13;29;12]);(mk []);(mk [13;98;97;13]);(mk [98;12;30]);(mk [29;31]);(mk [133;97;98;133]);(mk [13;97;12;12;10]);(mk [11;97;31]);(mk [97;12;28]);(mk [10;31;11;98;13]);(mk [30;29;98;28;98;28;133]);(mk [133;30]);(mk [133]);(mk [28;11]);(mk [11;133;11;28;97;11]);(mk [28;28;97;12;133]);(mk [28;28;13]);(mk [10;28;98;98;28;31]);(mk [29;10;10;97;97]);(mk [133;28]);(mk [31]);(mk [30;10;10;12;11]);(mk [30;10]);(mk [98]);(mk [29;13;11;10;97;29]);(mk [97;31;133;28;98]);(mk [133;13]);(mk [31;13;29;10;31;13]);(mk [30;10;28;12;98;10]);(mk [13;97;30]);(mk [98;28;31;29;30]);(mk [133;28;11;31]);(mk [28;28;133]);(mk [29;30;29;10;97]);(mk [29;13;29;31;29;10;29]);(mk [98;98;10;12;28;12]);(mk [29]);(mk [98;12]);(mk [97]);(mk [133;10;97;98;31;98]);(mk [10;29;11]);(mk [12]);(mk [10;12;31;11]);(mk [10;11;30;29;13;31;11]);(mk [12;12;97]);(mk [10;28;10]);(mk [133;12;28;10]);(mk [98;30;97;133]);(mk [29;30;30;31;98]);(mk [30;133;28;12]);(mk [28;12;31;10]);(mk [12;98;29;13;10]);(mk [30;11;11;133]);(mk [97;97;13;10;11]);(mk [28;30;12;97;10;29]);(mk [31;133;97]);(mk [11;98;30;12;30]);(mk [28;31;11]);(mk [13;12]);(mk [10;10;97;13;10;29;98]);(mk [133;11]);(mk [11;97;97;133;30;12]);(mk [31;30;29;13;10;97;97]);(mk [10;13;10;97;98;97])] = [[(mk [97;98;97]);(mk []);(mk []);(mk [])];[];[(mk []);(mk [98;97])];[(mk [98]);(mk [])];[(mk []);(mk [31])];[(mk []);(mk [97;98])];[(mk []);(mk [97]);(mk []);(mk [])];[(mk []);(mk [97;31])];[(mk [97]);(mk [])];[(mk []);(mk [31]);(mk [98])];[(mk []);(mk []);(mk [98]);(mk [98]);(mk [])];[(mk []);(mk [])];[(mk [])];[(mk []);(mk [])];[(mk []);(mk []);(mk []);(mk []);(mk [97])];[(mk []);(mk []);(mk [97]);(mk [])];[(mk []);(mk []);(mk [])];[(mk []);(mk []);(mk [98;98]);(mk [31])];[(mk []);(mk []);(mk []);(mk [97;97])];[(mk []);(mk [])];[(mk [31])];[(mk []);(mk []);(mk []);(mk []);(mk [])];[(mk []);(mk [])];[(mk [98])];[(mk []);(mk []);(mk []);(mk []);(mk [97])];[(mk [97;31]);(mk []);(mk [98])];[(mk []);(mk [])];[(mk [31]);(mk []);(mk []);(mk [31])];[(mk []);(mk []);(mk []);(mk []);(mk [98])];[(mk []);(mk [97])];[(mk [98]);(mk [31]);(mk [])];[(mk []);(mk []);(mk []);(mk [31])];[(mk []);(mk []);(mk [])];[(mk []);(mk []);(mk []);(mk []);(mk [97])];[(mk []);(mk []);(mk []);(mk [31]);(mk []);(mk [])];[(mk [98;98]);(mk []);(mk []);(mk [])];[(mk [])];[(mk [98])];[(mk [97])];[(mk []);(mk []);(mk [97;98;31;98])];[(mk []);(mk []);(mk [])];[(mk [])];[(mk []);(mk []);(mk [31])];[(mk []);(mk []);(mk []);(mk []);(mk []);(mk [31])];[(mk []);(mk []);(mk [97])];[(mk []);(mk []);(mk [])];[(mk []);(mk []);(mk []);(mk [])];[(mk [98]);(mk [97])];[(mk []);(mk []);(mk []);(mk [31;98])];[(mk []);(mk []);(mk []);(mk [])];[(mk []);(mk []);(mk [31])];[(mk []);(mk [98]);(mk [])];[(mk []);(mk []);(mk []);(mk [])];[(mk [97;97]);(mk [])];[(mk []);(mk []);(mk []);(mk [97]);(mk [])];[(mk [31]);(mk [97])];[(mk []);(mk [98]);(mk []);(mk [])];[(mk []);(mk [31])];[(mk []);(mk [])];[(mk []);(mk []);(mk [97]);(mk []);(mk [98])];[(mk []);(mk [])];[(mk []);(mk [97;97]);(mk []);(mk [])];[(mk [31]);(mk []);(mk []);(mk [97;97])];[(mk []);(mk []);(mk [97;98;97])]].
Proof. vm_compute. reflexivity. Qed.
Example comment_ok : map is_comment [(mk [9]);(mk [9;97;9]);(mk [32;35]);(mk []);(mk [32;97;97]);(mk [32;97;9]);(mk [32]);(mk [9;32]);(mk [35;32]);(mk [97;35]);(mk [35]);(mk [97]);(mk [9;97]);(mk [97;32;32]);(mk [9;35;9]);(mk [32;9;9]);(mk [97;32])] = [false;false;true;false;false;false;false;false;true;false;true;false;false;false;true;false;false].
Proof. vm_compute. reflexivity. Qed.
Example line_ok : map line_cells [(mk [97;61]);(mk [58;58;58]);(mk [58;97;58;58;58;97]);(mk [58;61;92;92;124]);(mk [92;32;97;61]);(mk [97;124;92;61;97;58]);(mk [32;97;92;92;98;32;61]);(mk [92]);(mk [98;124;97;92]);(mk [58;61;61]);(mk []);(mk [124;97;124;32;61]);(mk [124;92]);(mk [61;92;58;92;98]);(mk [61;98;32;98]);(mk [98;97;32;61;97;124;61]);(mk [61;97;32;58;58;97;124;124]);(mk [124]);(mk [98;58;58;124;92]);(mk [98;124;32;98;124;98;92;92]);(mk [92;58;92;98;61]);(mk [32;92;32;58;98;124;124]);(mk [92;98;98;58]);(mk [32;32;98;92;98;58;58]);(mk [32;98]);(mk [32;58;92]);(mk [58;98;98;58;98;58;32;97]);(mk [32;97]);(mk [124;98;98]);(mk [32;58;124;58]);(mk [97;32;97]);(mk [98;124;124;97]);(mk [61;61;124;32;98;92]);(mk [124;97;98;58]);(mk [97;32;98;61;124;32]);(mk [61;98;32;32;32;61]);(mk [32;98;32]);(mk [58;58;32;32;97;124]);(mk [61;124;32]);(mk [58;61]);(mk [124;124;97;92;61;124]);(mk [32;32;61;98;32;58;61;97]);(mk [61;124;97;97;58;92]);(mk [98;32;61]);(mk [92;58;97]);(mk [92;98;32;124;92;97;32]);(mk [92;58;124;32;124]);(mk [32;98;124]);(mk [61;97;32;92;58;32;97;58]);(mk [124;124;97;97]);(mk [32;32;32;58;92;58]);(mk [98]);(mk [32;124;92;98]);(mk [124;98;98;98;61;97]);(mk [124;32;92]);(mk [61;98;58]);(mk [124;58;61;92;32;98]);(mk [58;61;61;98;58;32;124]);(mk [124;32;98;124]);(mk [58;98;32;58]);(mk [124;124;124;92;32]);(mk [32]);(mk [98;58;61;124;97]);(mk [61]);(mk [61;98;92;61;58]);(mk [97;32;58]);(mk [92;97;92;98]);(mk [98;61;124]);(mk [61;98;98;124;61]);(mk [98;92;32;92;61;97;32;92]);(mk [98;124;32;98]);(mk [61;61;61;61;32;120]);(mk [61;61;61;61;61]);(mk [61;61;61;61;58;97;124;98]);(mk [61;61;61;97]);(mk [61;61;61;61;32;83;99;104;101;109;97;32;124;32;65;32;124;32;66]);(mk [58]);(mk [97;58]);(mk [97;58;32;98;92;124;99;124;100]);(mk [97;58;92;92;124;98])] = [[(mk [97;61])];[(mk []);(mk [58;58])];[(mk []);(mk [97;58;58;58;97])];[(mk []);(mk [61;92;124])];[(mk [92;32;97;61])];[(mk [97;124;92;61;97]);(mk [])];[(mk [97;92;92;98;32;61])];[(mk [92])];[(mk [98;124;97;92])];[(mk []);(mk [61;61])];[(mk [])];[(mk [124;97;124;32;61])];[(mk [124;92])];[(mk [61;92]);(mk [92;98])];[(mk [61;98;32;98])];[(mk [98;97;32;61;97;124;61])];[(mk [61;97]);(mk [58;97]);(mk []);(mk [])];[(mk [124])];[(mk [98]);(mk [58]);(mk [92])];[(mk [98;124;32;98;124;98;92;92])];[(mk [92]);(mk [92;98;61])];[(mk [92]);(mk [98]);(mk []);(mk [])];[(mk [92;98;98]);(mk [])];[(mk [98;92;98]);(mk [58])];[(mk [98])];[(mk []);(mk [92])];[(mk []);(mk [98;98;58;98;58;32;97])];[(mk [97])];[(mk [124;98;98])];[(mk []);(mk []);(mk [58])];[(mk [97;32;97])];[(mk [98;124;124;97])];[(mk [61;61;124;32;98;92])];[(mk [124;97;98]);(mk [])];[(mk [97;32;98;61;124])];[(mk [61;98;32;32;32;61])];[(mk [98])];[(mk []);(mk [58;32;32;97]);(mk [])];[(mk [61;124])];[(mk []);(mk [61])];[(mk [124;124;97;92;61;124])];[(mk [61;98]);(mk [61;97])];[(mk [61;124;97;97]);(mk [92])];[(mk [98;32;61])];[(mk [92]);(mk [97])];[(mk [92;98;32;124;92;97])];[(mk [92]);(mk []);(mk [32]);(mk [])];[(mk [98;124])];[(mk [61;97;32;92]);(mk [97;58])];[(mk [124;124;97;97])];[(mk []);(mk [92;58])];[(mk [98])];[(mk [124;92;98])];[(mk [124;98;98;98;61;97])];[(mk [124;32;92])];[(mk [61;98]);(mk [])];[(mk [124]);(mk [61;92;32;98])];[(mk []);(mk [61;61;98;58;32]);(mk [])];[(mk [124;32;98;124])];[(mk []);(mk [98;32;58])];[(mk [124;124;124;92])];[(mk [])];[(mk [98]);(mk [61]);(mk [97])];[(mk [61])];[(mk [61;98;92;61]);(mk [])];[(mk [97]);(mk [])];[(mk [92;97;92;98])];[(mk [98;61;124])];[(mk [61;98;98;124;61])];[(mk [98;92;32;92;61;97;32;92])];[(mk [98;124;32;98])];[(mk [83;101;99;116;105;111;110]);(mk [120])];[(mk [83;101;99;116;105;111;110]);(mk [])];[(mk [83;101;99;116;105;111;110]);(mk [58;97]);(mk [98])];[(mk [61;61;61;97])];[(mk [83;101;99;116;105;111;110]);(mk [83;99;104;101;109;97;32]);(mk [32;65;32]);(mk [32;66])];[(mk []);(mk [])];[(mk [97]);(mk [])];[(mk [97]);(mk [98;124;99]);(mk [100])];[(mk [97]);(mk [92;124;98])]].
Proof. vm_compute. reflexivity. Qed.
Example slug_ok : map slugify [(mk [66;35;9;189;66;233;66;95]);(mk [45;32;9;9;233;97]);(mk [9;32;35;9;45;9;32]);(mk [160;35;97;32;46;9;35;160]);(mk [189;95;9;46;33;33;189]);(mk [32]);(mk [189;189;97;97;160]);(mk []);(mk [66;233;9;9;32]);(mk [35;33;189]);(mk [46;66]);(mk [46;9;233;233;45]);(mk [33;46;33;95]);(mk [97;95;95;46;9;33;46;233]);(mk [233;46;45;189]);(mk [66;46;45;46;35;95;32]);(mk [189;66;97;33;35;233;33;233;160]);(mk [95;66;97;97;45;9]);(mk [189;97;233;233;160;33;160;32;189]);(mk [189;66;45;97;189;189;9;189;32]);(mk [189]);(mk [97;33]);(mk [32;95;233;35;95]);(mk [32;33;97;46]);(mk [160;189;160;97;9;160]);(mk [97;66;33;160;35;33;9;66]);(mk [160;160;189;32;9;33]);(mk [66;66;189;9;45;32;189;97]);(mk [97;97;189;189;66;66]);(mk [66;32;9]);(mk [35;160;45;9]);(mk [97;46]);(mk [35;66]);(mk [189;233;35;9]);(mk [189;95;97;35;97;97;97]);(mk [66;33;95;95;35;160;32;9;160]);(mk [46;160;35;9;9]);(mk [32;66]);(mk [189;32;189;33;9]);(mk [9;95;160;46;95;95]);(mk [189;35;160;46;160;35;97;32;160]);(mk [160;33;45;33]);(mk [189;33;160;45;9;95]);(mk [95;95;33;32;160]);(mk [32;160;32;95]);(mk [189;9;46;233;66;233;233;9]);(mk [45;35;45;95;160;97]);(mk [9;35;45;95;160;97]);(mk [9;233;66;233;46;66]);(mk [33;160;233]);(mk [233;46;9;233]);(mk [45;45;45;45;66;32;35;95;46]);(mk [160;46;33;233;32;45;97;9;46]);(mk [46]);(mk [66;32;46;160;97;46;95]);(mk [160;97;66;97;45;160;9;160]);(mk [45;95;95;33;66;9;160;160;32]);(mk [97;46;45;32]);(mk [66;97;97;97;233;46]);(mk [9;66;160;189;33;66;35]);(mk [95]);(mk [160;45;189;66;189]);(mk [33;32;9;32;46;45;35;45]);(mk [97;95]);(mk [97;233;97;97;95]);(mk [35;35;189;9;97;66;32;46]);(mk [189;35;95]);(mk [160;9;189;66;9;46;46;95;33]);(mk [33;32;9;45;32;189;97]);(mk [35;45;97;32;45;66;160]);(mk [35;32;9;66;33]);(mk [9]);(mk [46;45;9;66;189]);(mk [32;46;45;35;97]);(mk [35;9]);(mk [32;9;32;95;33;33;45;32]);(mk [160;95;46;32]);(mk [9;66;46;9]);(mk [66;32;233;97;189;189;45]);(mk [9;95;66;95;45;46;33;95]);(mk [45;66;33]);(mk [33;32;97;35]);(mk [32;189;97;9]);(mk [46;233;32;9;97;233;95;32])] = [(mk [98;45;49;50;98;101;98;95]);(mk [45;101;97]);(mk [45]);(mk [97;45;46;45]);(mk [49;50;95;45;46;49;50]);(mk []);(mk [49;50;49;50;97;97]);(mk []);(mk [98;101]);(mk [49;50]);(mk [46;98]);(mk [46;45;101;101;45]);(mk [46;95]);(mk [97;95;95;46;45;46;101]);(mk [101;46;45;49;50]);(mk [98;46;45;46;95]);(mk [49;50;98;97;101;101]);(mk [95;98;97;97;45]);(mk [49;50;97;101;101;45;49;50]);(mk [49;50;98;45;97;49;50;49;50;45;49;50]);(mk [49;50]);(mk [97]);(mk [95;101;95]);(mk [97;46]);(mk [49;50;45;97]);(mk [97;98;45;98]);(mk [49;50;45]);(mk [98;98;49;50;45;49;50;97]);(mk [97;97;49;50;49;50;98;98]);(mk [98]);(mk [45]);(mk [97;46]);(mk [98]);(mk [49;50;101]);(mk [49;50;95;97;97;97;97]);(mk [98;95;95]);(mk [46;45]);(mk [98]);(mk [49;50;45;49;50]);(mk [95;45;46;95;95]);(mk [49;50;45;46;45;97]);(mk [45]);(mk [49;50;45;95]);(mk [95;95]);(mk [95]);(mk [49;50;45;46;101;98;101;101]);(mk [45;95;45;97]);(mk [45;95;45;97]);(mk [101;98;101;46;98]);(mk [45;101]);(mk [101;46;45;101]);(mk [45;98;45;95;46]);(mk [46;101;45;97;45;46]);(mk [46]);(mk [98;45;46;45;97;46;95]);(mk [97;98;97;45]);(mk [45;95;95;98]);(mk [97;46;45]);(mk [98;97;97;97;101;46]);(mk [98;45;49;50;98]);(mk [95]);(mk [45;49;50;98;49;50]);(mk [45;46;45]);(mk [97;95]);(mk [97;101;97;97;95]);(mk [49;50;45;97;98;45;46]);(mk [49;50;95]);(mk [49;50;98;45;46;46;95]);(mk [45;49;50;97]);(mk [45;97;45;98]);(mk [45;98]);(mk []);(mk [46;45;98;49;50]);(mk [46;45;97]);(mk []);(mk [95;45]);(mk [95;46]);(mk [98;46]);(mk [98;45;101;97;49;50;49;50;45]);(mk [95;98;95;45;46;95]);(mk [45;98]);(mk [45;97]);(mk [49;50;97]);(mk [46;101;45;97;101;95])].
Proof. vm_compute. reflexivity. Qed.
Example csv_write_ok : map csv_write [[[(mk []);(mk [44;34;13]);(mk [44])]];[];[[(mk [44])];[]];[[(mk [44;44]);(mk [13]);(mk [13])];[(mk [97]);(mk [])]];[[(mk []);(mk [34;34]);(mk [97;97;10])];[(mk [98]);(mk [44;44]);(mk [97;44])]];[[(mk []);(mk [13;10])];[]];[[(mk [98;32])]];[[]];[[(mk [13;97;13]);(mk [97]);(mk [97])];[(mk [44])]];[[(mk []);(mk [])]];[[(mk [97;98])];[(mk [32]);(mk [97;34;98]);(mk [])]];[[(mk [])];[(mk []);(mk [10;13;13])]];[[(mk [98])]];[[(mk [44;98;97]);(mk [32;10;13]);(mk [])];[(mk []);(mk [34;10]);(mk [98])]];[[(mk [98;10]);(mk []);(mk [13;44])]];[[(mk [98]);(mk [32;32;97])];[(mk []);(mk [97])]];[[(mk [13]);(mk []);(mk [44])]];[[(mk [32;97;98]);(mk []);(mk [])]];[[(mk [32;13]);(mk [])];[]];[[];[(mk [97]);(mk [97;34]);(mk [32;44])]];[[(mk []);(mk [13;13;44])];[(mk []);(mk [34]);(mk [13;34;34])]];[[];[(mk [13;32;13]);(mk [32])]];[[(mk [10;13])]];[[(mk [98;34;97]);(mk [34]);(mk [44])]];[[(mk [97;34;44]);(mk [34]);(mk [10;34])];[(mk [34]);(mk [])]];[[];[(mk [32;97;13]);(mk [98;10;34])]];[[];[(mk [10])]];[[(mk [32]);(mk [13])]];[[(mk []);(mk [34;98;32])];[(mk [98;97;97])]];[[(mk [10]);(mk [98;13]);(mk [])]];[[(mk [34;32;34]);(mk [34;10]);(mk [32;34;97])]];[[(mk [10;34;44]);(mk [98;44]);(mk [13;10;13])];[(mk [])]];[[(mk [34]);(mk [10])]];[[(mk [13;98]);(mk [13;13]);(mk [13;98;13])]];[[(mk [10;34;97]);(mk [10;97]);(mk [])];[(mk [])]];[[(mk [32;13;13]);(mk [44])]];[[(mk [10;98;13]);(mk [32;13]);(mk [])]];[[(mk [97;98]);(mk [13;44])]];[[(mk [98;13]);(mk [32;44;13])];[(mk [13]);(mk [10])]];[[];[(mk []);(mk [97;98;97])]];[[(mk []);(mk []);(mk [])]];[[(mk [13]);(mk [10])]];[[];[(mk [13])]];[[];[]];[[(mk [13;10;98]);(mk []);(mk [])];[(mk [32]);(mk [34])]];[[(mk [])]];[[];[(mk [10]);(mk [97;97;44])]];[[(mk [97]);(mk []);(mk [34])]]] = [(mk [44;34;44;34;34;13;34;44;34;44;34;13;10]);(mk []);(mk [34;44;34;13;10;13;10]);(mk [34;44;44;34;44;34;13;34;44;34;13;34;13;10;97;44;13;10]);(mk [44;34;34;34;34;34;34;44;34;97;97;10;34;13;10;98;44;34;44;44;34;44;34;97;44;34;13;10]);(mk [44;34;13;10;34;13;10;13;10]);(mk [98;32;13;10]);(mk [13;10]);(mk [34;13;97;13;34;44;97;44;97;13;10;34;44;34;13;10]);(mk [44;13;10]);(mk [97;98;13;10;32;44;34;97;34;34;98;34;44;13;10]);(mk [34;34;13;10;44;34;10;13;13;34;13;10]);(mk [98;13;10]);(mk [34;44;98;97;34;44;34;32;10;13;34;44;13;10;44;34;34;34;10;34;44;98;13;10]);(mk [34;98;10;34;44;44;34;13;44;34;13;10]);(mk [98;44;32;32;97;13;10;44;97;13;10]);(mk [34;13;34;44;44;34;44;34;13;10]);(mk [32;97;98;44;44;13;10]);(mk [34;32;13;34;44;13;10;13;10]);(mk [13;10;97;44;34;97;34;34;34;44;34;32;44;34;13;10]);(mk [44;34;13;13;44;34;13;10;44;34;34;34;34;44;34;13;34;34;34;34;34;13;10]);(mk [13;10;34;13;32;13;34;44;32;13;10]);(mk [34;10;13;34;13;10]);(mk [34;98;34;34;97;34;44;34;34;34;34;44;34;44;34;13;10]);(mk [34;97;34;34;44;34;44;34;34;34;34;44;34;10;34;34;34;13;10;34;34;34;34;44;13;10]);(mk [13;10;34;32;97;13;34;44;34;98;10;34;34;34;13;10]);(mk [13;10;34;10;34;13;10]);(mk [32;44;34;13;34;13;10]);(mk [44;34;34;34;98;32;34;13;10;98;97;97;13;10]);(mk [34;10;34;44;34;98;13;34;44;13;10]);(mk [34;34;34;32;34;34;34;44;34;34;34;10;34;44;34;32;34;34;97;34;13;10]);(mk [34;10;34;34;44;34;44;34;98;44;34;44;34;13;10;13;34;13;10;34;34;13;10]);(mk [34;34;34;34;44;34;10;34;13;10]);(mk [34;13;98;34;44;34;13;13;34;44;34;13;98;13;34;13;10]);(mk [34;10;34;34;97;34;44;34;10;97;34;44;13;10;34;34;13;10]);(mk [34;32;13;13;34;44;34;44;34;13;10]);(mk [34;10;98;13;34;44;34;32;13;34;44;13;10]);(mk [97;98;44;34;13;44;34;13;10]);(mk [34;98;13;34;44;34;32;44;13;34;13;10;34;13;34;44;34;10;34;13;10]);(mk [13;10;44;97;98;97;13;10]);(mk [44;44;13;10]);(mk [34;13;34;44;34;10;34;13;10]);(mk [13;10;34;13;34;13;10]);(mk [13;10;13;10]);(mk [34;13;10;98;34;44;44;13;10;32;44;34;34;34;34;13;10]);(mk [34;34;13;10]);(mk [13;10;34;10;34;44;34;97;97;44;34;13;10]);(mk [97;44;44;34;34;34;34;13;10])].
Proof. vm_compute. reflexivity. Qed.
Example csv_read_ok : map csv_read [(mk [44;44;97]);(mk [13;44]);(mk [97;10;34;10;13]);(mk [10;97;44;10]);(mk [10;34;10]);(mk [97;44;97;44;44;34;10]);(mk [97;34]);(mk [13;34;97;34;13;10]);(mk [10;97;97;10;34]);(mk [44;10;44;10;34;34;44;10]);(mk []);(mk [97;34;44;44]);(mk [97;44]);(mk [13;44;13;10]);(mk [44;44;34;34;44;10;10]);(mk [34;10;13]);(mk [44;10;44]);(mk [13;10;13;34]);(mk [44;10;13;13;44;44;97;13]);(mk [13]);(mk [10;97;13;44]);(mk [97;10;97;44]);(mk [34;44;97]);(mk [13;34;44;97;34]);(mk [44]);(mk [44;10;34;34]);(mk [10;44;34;44;97;34]);(mk [10;97;10;44;10]);(mk [97;44;34;97;34]);(mk [97;10;97]);(mk [10;44]);(mk [44;10;97;13]);(mk [44;13;44;13]);(mk [13;34;10;13;34;97;97]);(mk [97;13;13;97]);(mk [97;97;34]);(mk [34;97;10]);(mk [13;44;34;13;97;34]);(mk [10;34;13;10;13;97]);(mk [10;13;44]);(mk [44;97;13;34;44;13;44]);(mk [13;34;44]);(mk [34;34]);(mk [97;44;34;44;44;10]);(mk [44;44;97;13;10;44;34]);(mk [44;44;13;13]);(mk [34;97;13]);(mk [44;44;13;10;10;44]);(mk [34]);(mk [10;44;97;97;34]);(mk [44;97;34;10]);(mk [10;10;13;34;34]);(mk [13;97]);(mk [10;97;34;13;34;97;10]);(mk [10;44;13;34;97;34]);(mk [44;97;44;97]);(mk [44;34;34;44;13;44]);(mk [10;44;34;34;44]);(mk [44;13;34;34;44]);(mk [97;44;10;10;10;44]);(mk [13;13;97;44]);(mk [44;44;10]);(mk [97;97;10;10;44;44]);(mk [97;97;13;13;10]);(mk [34;97]);(mk [10;34;97;10;97;44;44;10]);(mk [97;10;13;34]);(mk [10;97;13]);(mk [13;10;10;13;44]);(mk [13;13;97;97;34;13]);(mk [13;13;10;34]);(mk [44;34;34;13;97;44;44]);(mk [97;44;13;34;13;13;10]);(mk [13;44;13;10;10]);(mk [97;44;44;44]);(mk [97;44;34;97;44;13;34;10]);(mk [13;10;44]);(mk [13;97;13;13;13;97;10;97]);(mk [44;13;13;13;97;13;97]);(mk [10;13;44;44;13;10;97]);(mk [34;13]);(mk [44;97;34;97;97;13]);(mk [10;34;97]);(mk [10;97]);(mk [13;97;34]);(mk [97;44;34;13]);(mk [34;10;97;13;34;97;34;13]);(mk [13;97;97;44;34]);(mk [44;10;97;13;10]);(mk [97]);(mk [97;97;34;44;44;13;34]);(mk [44;13;34;13;34;10]);(mk [44;10;13;10;97]);(mk [10;44;10;10;44;13]);(mk [97;34;34;13;44;34;44;13]);(mk [44;34;10]);(mk [13;10;10;34;34]);(mk [13;10;34;44;97]);(mk [10;13;97]);(mk [44;34]);(mk [34;97;13;34;34;13]);(mk [13;44;97;13;97;44;10;13]);(mk [44;44;97;34]);(mk [34;13;44;34;13]);(mk [34;97;34;34;10;13]);(mk [44;44;34;44;44]);(mk [97;10;10]);(mk [10;13;34;44;13;97;44]);(mk [34;34;13;13]);(mk [97;44;13;97;13]);(mk [10;34;10;97;10]);(mk [44;34;34;13;97]);(mk [34;44]);(mk [13;34;13]);(mk [97;44;13]);(mk [44;97;44;34;13]);(mk [97;44;34;34;97]);(mk [10;13;34;44;97;10;97]);(mk [10;13;10;34;10]);(mk [13;34;97;10;13]);(mk [44;97;97;44;44]);(mk [34;10;34;13;13]);(mk [44;13;13;34;44;13;34;10]);(mk [13;13;34;44;34]);(mk [10;97;34;44;44;10;97;97]);(mk [97;97]);(mk [13;44;13;44;34;13;34;44]);(mk [44;13]);(mk [44;10;10;44;34]);(mk [10;44;34;97;97;97]);(mk [10]);(mk [97;44;13;10;10]);(mk [44;97;34;97;34;10]);(mk [44;34;44]);(mk [10;34;34;10;44]);(mk [10;34]);(mk [44;44;34;13;13;10;44]);(mk [97;97;44;97]);(mk [34;97;44;10;10;97;10;34]);(mk [34;97;13;44;44;97]);(mk [13;13]);(mk [13;10;97]);(mk [97;97;97;10;44]);(mk [10;97;44;44;13;44;13;13]);(mk [10;97;34;44;44]);(mk [97;97;44;13]);(mk [13;34;34;97;34;97]);(mk [13;34;13;34;10;34;10]);(mk [34;13;10;10;44;10]);(mk [10;44;97;44;13;13]);(mk [13;10;44;44]);(mk [13;34;10;13;34;10]);(mk [10;13;34;13;13;10;44]);(mk [34;97;10;13;34;13]);(mk [97;13;44;13;34]);(mk [10;34;13;13]);(mk [13;44;44;97;13;34;13]);(mk [13;44;34]);(mk [34;10;97;10;44;34]);(mk [97;34;34;13;13;34]);(mk [97;34;10;34;10;97;10]);(mk [44;13;44;97;44;34;10]);(mk [44;13;34;13;34;10;34;97]);(mk [44;97;13;34;97;13;44;34]);(mk [34;34;34;44;34;10;97;13]);(mk [97;44;44;10;34;13;34]);(mk [10;34;97;34;10;10;13]);(mk [34;44;10;13]);(mk [97;44;34;97;97]);(mk [10;10;13;10;10;97;97]);(mk [10;10;10;10;44;97;10]);(mk [10;44;13;97;44;44]);(mk [13;97;34;13;34;10]);(mk [97;97;44;97;13;97;97]);(mk [97;44;13;10;97;44;34]);(mk [97;13;10;13;44;10;97]);(mk [13;97;44]);(mk [34;13;34;97;34;10;34;34]);(mk [10;13;10;97;34;34;44;10]);(mk [13;34;34;44;44;97]);(mk [13;34;10]);(mk [13;44;34;34;44;10;13]);(mk [97;13;97;10;13]);(mk [97;34;44;10;34]);(mk [44;13;13]);(mk [10;10;44;44;97;44;10]);(mk [97;13]);(mk [44;97;13;44;10;44;34]);(mk [13;44;44]);(mk [13;97;10]);(mk [44;34;10;10;44;97]);(mk [34;44;13;34;13;44;34]);(mk [34;13;44;44]);(mk [10;97;34]);(mk [44;34;44;13;97;44]);(mk [44;44;10;34;10;97;97]);(mk [97;44;13;13;97]);(mk [10;34;97;10]);(mk [34;34;13;13;13;97;44]);(mk [13;34;97]);(mk [44;44;34;97;44]);(mk [34;10;10;44;34]);(mk [44;97;34;97;13]);(mk [97;13;97;44;13;10;10]);(mk [13;97;10;44;10;13;34;97]);(mk [44;34;44;97;34]);(mk [34;44;34;97;97;44;97]);(mk [13;97;34;10;44;44;13;13]);(mk [34;34;44;34;10;13;44;44]);(mk [13;13;44]);(mk [13;44;44;97;44;44;34]);(mk [10;13;13;97;34;13]);(mk [44;44;13]);(mk [97;44;97;13;34;97;97;44]);(mk [10;97;97;44;44;13]);(mk [44;44]);(mk [34;97;97])] = [[[(mk []);(mk []);(mk [97])]];[[];[(mk []);(mk [])]];[[(mk [97])];[(mk [10;13])]];[[];[(mk [97]);(mk [])]];[[];[(mk [10])]];[[(mk [97]);(mk [97]);(mk []);(mk [10])]];[[(mk [97;34])]];[[];[(mk [97])]];[[];[(mk [97;97])];[(mk [])]];[[(mk []);(mk [])];[(mk []);(mk [])];[(mk []);(mk [])]];[];[[(mk [97;34]);(mk []);(mk [])]];[[(mk [97]);(mk [])]];[[];[(mk []);(mk [])]];[[(mk []);(mk []);(mk []);(mk [])];[]];[[(mk [10;13])]];[[(mk []);(mk [])];[(mk []);(mk [])]];[[];[];[(mk [])]];[[(mk []);(mk [])];[];[];[(mk []);(mk []);(mk [97])]];[[]];[[];[(mk [97])];[(mk []);(mk [])]];[[(mk [97])];[(mk [97]);(mk [])]];[[(mk [44;97])]];[[];[(mk [44;97])]];[[(mk []);(mk [])]];[[(mk []);(mk [])];[(mk [])]];[[];[(mk []);(mk [44;97])]];[[];[(mk [97])];[(mk []);(mk [])]];[[(mk [97]);(mk [97])]];[[(mk [97])];[(mk [97])]];[[];[(mk []);(mk [])]];[[(mk []);(mk [])];[(mk [97])]];[[(mk []);(mk [])];[(mk []);(mk [])]];[[];[(mk [10;13;97;97])]];[[(mk [97])];[];[(mk [97])]];[[(mk [97;97;34])]];[[(mk [97;10])]];[[];[(mk []);(mk [13;97])]];[[];[(mk [13;10;13;97])]];[[];[];[(mk []);(mk [])]];[[(mk []);(mk [97])];[(mk [44;13;44])]];[[];[(mk [44])]];[[(mk [])]];[[(mk [97]);(mk [44;44;10])]];[[(mk []);(mk []);(mk [97])];[(mk []);(mk [])]];[[(mk []);(mk []);(mk [])];[]];[[(mk [97;13])]];[[(mk []);(mk []);(mk [])];[];[(mk []);(mk [])]];[[(mk [])]];[[];[(mk []);(mk [97;97;34])]];[[(mk []);(mk [97;34])]];[[];[];[];[(mk [])]];[[];[(mk [97])]];[[];[(mk [97;34])];[(mk [97;10])]];[[];[(mk []);(mk [])];[(mk [97])]];[[(mk []);(mk [97]);(mk [97])]];[[(mk []);(mk []);(mk [])];[(mk []);(mk [])]];[[];[(mk []);(mk []);(mk [])]];[[(mk []);(mk [])];[(mk []);(mk [])]];[[(mk [97]);(mk [])];[];[];[(mk []);(mk [])]];[[];[];[(mk [97]);(mk [])]];[[(mk []);(mk []);(mk [])]];[[(mk [97;97])];[];[(mk []);(mk []);(mk [])]];[[(mk [97;97])];[]];[[(mk [97])]];[[];[(mk [97;10;97;44;44;10])]];[[(mk [97])];[];[(mk [])]];[[];[(mk [97])]];[[];[];[];[(mk []);(mk [])]];[[];[];[(mk [97;97;34])]];[[];[];[(mk [])]];[[(mk []);(mk [])];[(mk [97]);(mk []);(mk [])]];[[(mk [97]);(mk [])];[(mk [13;13;10])]];[[];[(mk []);(mk [])];[]];[[(mk [97]);(mk []);(mk []);(mk [])]];[[(mk [97]);(mk [97;44;13])]];[[];[(mk []);(mk [])]];[[];[(mk [97])];[];[];[(mk [97])];[(mk [97])]];[[(mk []);(mk [])];[];[];[(mk [97])];[(mk [97])]];[[];[];[(mk []);(mk []);(mk [])];[(mk [97])]];[[(mk [13])]];[[(mk []);(mk [97;34;97;97])]];[[];[(mk [97])]];[[];[(mk [97])]];[[];[(mk [97;34])]];[[(mk [97]);(mk [13])]];[[(mk [10;97;13;97;34])]];[[];[(mk [97;97]);(mk [])]];[[(mk []);(mk [])];[(mk [97])]];[[(mk [97])]];[[(mk [97;97;34]);(mk []);(mk [])];[(mk [])]];[[(mk []);(mk [])];[(mk [13])]];[[(mk []);(mk [])];[];[(mk [97])]];[[];[(mk []);(mk [])];[];[(mk []);(mk [])]];[[(mk [97;34;34])];[(mk []);(mk [44;13])]];[[(mk []);(mk [10])]];[[];[];[(mk [])]];[[];[(mk [44;97])]];[[];[];[(mk [97])]];[[(mk []);(mk [])]];[[(mk [97;13;34;13])]];[[];[(mk []);(mk [97])];[(mk [97]);(mk [])];[]];[[(mk []);(mk []);(mk [97;34])]];[[(mk [13;44])]];[[(mk [97;34;10;13])]];[[(mk []);(mk []);(mk [44;44])]];[[(mk [97])];[]];[[];[];[(mk [44;13;97;44])]];[[(mk [])];[]];[[(mk [97]);(mk [])];[(mk [97])]];[[];[(mk [10;97;10])]];[[(mk []);(mk [])];[(mk [97])]];[[(mk [44])]];[[];[(mk [13])]];[[(mk [97]);(mk [])]];[[(mk []);(mk [97]);(mk [13])]];[[(mk [97]);(mk [97])]];[[];[];[(mk [44;97;10;97])]];[[];[];[(mk [10])]];[[];[(mk [97;10;13])]];[[(mk []);(mk [97;97]);(mk []);(mk [])]];[[(mk [10])];[]];[[(mk []);(mk [])];[];[(mk [44;13])]];[[];[];[(mk [44])]];[[];[(mk [97;34]);(mk []);(mk [])];[(mk [97;97])]];[[(mk [97;97])]];[[];[(mk []);(mk [])];[(mk []);(mk [13]);(mk [])]];[[(mk []);(mk [])]];[[(mk []);(mk [])];[];[(mk []);(mk [])]];[[];[(mk []);(mk [97;97;97])]];[[]];[[(mk [97]);(mk [])];[]];[[(mk []);(mk [97;34;97;34])]];[[(mk []);(mk [44])]];[[];[(mk [])];[(mk []);(mk [])]];[[];[(mk [])]];[[(mk []);(mk []);(mk [13;13;10;44])]];[[(mk [97;97]);(mk [97])]];[[(mk [97;44;10;10;97;10])]];[[(mk [97;13;44;44;97])]];[[];[]];[[];[(mk [97])]];[[(mk [97;97;97])];[(mk []);(mk [])]];[[];[(mk [97]);(mk []);(mk [])];[(mk []);(mk [])];[]];[[];[(mk [97;34]);(mk []);(mk [])]];[[(mk [97;97]);(mk [])]];[[];[(mk [97;34;97])]];[[];[(mk [13])];[(mk [10])]];[[(mk [13;10;10;44;10])]];[[];[(mk []);(mk [97]);(mk [])];[]];[[];[(mk []);(mk []);(mk [])]];[[];[(mk [10;13])]];[[];[];[(mk [13;13;10;44])]];[[(mk [97;10;13])]];[[(mk [97])];[(mk []);(mk [])];[(mk [])]];[[];[(mk [13;13])]];[[];[(mk []);(mk []);(mk [97])];[(mk [13])]];[[];[(mk []);(mk [])]];[[(mk [10;97;10;44])]];[[(mk [97;34;34])];[];[(mk [])]];[[(mk [97;34])];[(mk [10;97;10])]];[[(mk []);(mk [])];[(mk []);(mk [97]);(mk [10])]];[[(mk []);(mk [])];[(mk [13])];[(mk [97])]];[[(mk []);(mk [97])];[(mk [97;13;44])]];[[(mk [34;44])];[(mk [97])]];[[(mk [97]);(mk []);(mk [])];[(mk [13])]];[[];[(mk [97])];[];[]];[[(mk [44;10;13])]];[[(mk [97]);(mk [97;97])]];[[];[];[];[];[(mk [97;97])]];[[];[];[];[];[(mk []);(mk [97])]];[[];[(mk []);(mk [])];[(mk [97]);(mk []);(mk [])]];[[];[(mk [97;34])];[(mk [10])]];[[(mk [97;97]);(mk [97])];[(mk [97;97])]];[[(mk [97]);(mk [])];[(mk [97]);(mk [])]];[[(mk [97])];[];[(mk []);(mk [])];[(mk [97])]];[[];[(mk [97]);(mk [])]];[[(mk [13;97;34])];[(mk [])]];[[];[];[(mk [97;34;34]);(mk [])]];[[];[(mk []);(mk []);(mk [97])]];[[];[(mk [10])]];[[];[(mk []);(mk []);(mk [])];[]];[[(mk [97])];[(mk [97])];[]];[[(mk [97;34]);(mk [])];[(mk [])]];[[(mk []);(mk [])];[]];[[];[];[(mk []);(mk []);(mk [97]);(mk [])]];[[(mk [97])]];[[(mk []);(mk [97])];[(mk []);(mk [])];[(mk []);(mk [])]];[[];[(mk []);(mk []);(mk [])]];[[];[(mk [97])]];[[(mk []);(mk [10;10;44;97])]];[[(mk [44;13])];[(mk []);(mk [])]];[[(mk [13;44;44])]];[[];[(mk [97;34])]];[[(mk []);(mk [44;13;97;44])]];[[(mk []);(mk []);(mk [])];[(mk [10;97;97])]];[[(mk [97]);(mk [])];[];[(mk [97])]];[[];[(mk [97;10])]];[[(mk [])];[];[];[(mk [97]);(mk [])]];[[];[(mk [97])]];[[(mk []);(mk []);(mk [97;44])]];[[(mk [10;10;44])]];[[(mk []);(mk [97;34;97])]];[[(mk [97])];[(mk [97]);(mk [])];[]];[[];[(mk [97])];[(mk []);(mk [])];[];[(mk [97])]];[[(mk []);(mk [44;97])]];[[(mk [44;97;97]);(mk [97])]];[[];[(mk [97;34])];[(mk []);(mk []);(mk [])];[]];[[(mk []);(mk [10;13;44;44])]];[[];[];[(mk []);(mk [])]];[[];[(mk []);(mk []);(mk [97]);(mk []);(mk [])]];[[];[];[];[(mk [97;34])]];[[(mk []);(mk []);(mk [])]];[[(mk [97]);(mk [97])];[(mk [97;97;44])]];[[];[(mk [97;97]);(mk []);(mk [])]];[[(mk []);(mk []);(mk [])]];[[(mk [97;97])]]].
Proof. vm_compute. reflexivity. Qed.
Example suffix_ok : map suffix [(mk [97;46;99;115;118]);(mk [46;99;115;118]);(mk [46;46;99;115;118]);(mk [97;46]);(mk [97]);(mk [97;46;98;46;116;120;116]);(mk [100;46;99;115;118;47;120]);(mk [100;47;120;46;99;115;118]);(mk [120;46;46]);(mk [46;97;46;116;120;116])] = [(mk [46;99;115;118]);(mk []);(mk [46;99;115;118]);(mk []);(mk []);(mk [46;116;120;116]);(mk []);(mk [46;99;115;118]);(mk []);(mk [46;116;120;116])].
Proof. vm_compute. reflexivity. Qed.
Example ext_ok : map (fun p => file_ext (basename p)) [(mk [97;46;99;115;118]);(mk [46;99;115;118]);(mk [46;46;99;115;118]);(mk [97;46]);(mk [97]);(mk [97;46;98;46;116;120;116]);(mk [100;46;99;115;118;47;120]);(mk [100;47;120;46;99;115;118]);(mk [120;46;46]);(mk [46;97;46;116;120;116]);(mk []);(mk [97;47;47;47;47]);(mk [97;46;47]);(mk [97;47;47]);(mk [46;46]);(mk [47;47;47;46;47]);(mk [97;47;46;46;46]);(mk [97;97;47;97;47]);(mk [46;46;47]);(mk [47]);(mk [47;46;97;46]);(mk [97;97;46]);(mk [47;47;97;46]);(mk [47;46;47;97]);(mk [47;97]);(mk [47;46;47]);(mk [47;46;46;47;46]);(mk [46;46;97;47;46]);(mk [46;97;97;47]);(mk [46]);(mk [47;97;47;46;97]);(mk [46;46;46;47]);(mk [46;97]);(mk [46;46;46;97]);(mk [46;46;46;46;46]);(mk [46;97;97]);(mk [46;47;46;47]);(mk [46;47;47;47]);(mk [97;46;46]);(mk [47;46]);(mk [46;47;97;46])] = [(mk [99;115;118]);(mk []);(mk []);(mk []);(mk []);(mk [116;120;116]);(mk []);(mk [99;115;118]);(mk []);(mk [116;120;116]);(mk []);(mk []);(mk []);(mk []);(mk []);(mk []);(mk []);(mk []);(mk []);(mk []);(mk []);(mk []);(mk []);(mk []);(mk []);(mk []);(mk []);(mk []);(mk []);(mk []);(mk []);(mk []);(mk []);(mk []);(mk []);(mk []);(mk []);(mk []);(mk []);(mk []);(mk [])].
Proof. vm_compute. reflexivity. Qed.
Example pjoin_ok : map (fun ab => path_join (fst ab) (snd ab)) [((mk [97;97;47]),(mk [47;47]));((mk [97]),(mk []));((mk [97;47;97]),(mk [97]));((mk [47;47;47]),(mk [47;47;47]));((mk [97]),(mk [47;97;97]));((mk [97;47]),(mk []));((mk []),(mk [47]));((mk [97]),(mk [97;47]));((mk [97;47]),(mk [97;47]));((mk []),(mk [97;97]));((mk [97;47;47]),(mk []));((mk [97;97;47]),(mk []));((mk [97;47;47]),(mk [97;97]));((mk [47]),(mk []));((mk [47;47]),(mk []));((mk [97;97]),(mk [47;47;97]));((mk []),(mk [47;47]));((mk []),(mk [97;47;47]));((mk [97;47;97]),(mk []));((mk []),(mk [97;97;47]));((mk []),(mk []));((mk [47;97]),(mk [47;47]))] = [(mk [47;47]);(mk [97;47]);(mk [97;47;97;47;97]);(mk [47;47;47]);(mk [47;97;97]);(mk [97;47]);(mk [47]);(mk [97;47;97;47]);(mk [97;47;97;47]);(mk [97;97]);(mk [97;47;47]);(mk [97;97;47]);(mk [97;47;47;97;97]);(mk [47]);(mk [47;47]);(mk [47;47;97]);(mk [47;47]);(mk [97;47;47]);(mk [97;47;97;47]);(mk [97;97;47]);(mk []);(mk [47;47])].
Proof. vm_compute. reflexivity. Qed.
Example endswith_ok : map (endswith "ab") [(mk [98]);(mk [97;98;97]);(mk [97;97]);(mk [98;98]);(mk []);(mk [97]);(mk [98;98;97;98]);(mk [97;97;97])] = [false;false;false;false;false;false;true;false].
Proof. vm_compute. reflexivity. Qed.
Example strip_c_ok : map (strip_c "/"%char) [(mk [97;97;97]);(mk [47]);(mk [47;97;97]);(mk [97;47;97]);(mk [47;47;97;97;47]);(mk [47;97;97;97]);(mk []);(mk [97]);(mk [47;47;97;97]);(mk [97;97;97;97;47])] = [(mk [97;97;97]);(mk []);(mk [97;97]);(mk [97;47;97]);(mk [97;97]);(mk [97;97;97]);(mk []);(mk [97]);(mk [97;97]);(mk [97;97;97;97])].
Proof. vm_compute. reflexivity. Qed.
Example str_le_ok : map (fun ab => str_le (fst ab) (snd ab)) [((mk []),(mk []));((mk []),(mk [233;233]));((mk []),(mk [97]));((mk [233]),(mk [97]));((mk [233]),(mk []));((mk []),(mk [97;97]));((mk [97]),(mk []));((mk [46;46]),(mk [46;98]));((mk [46;98;97]),(mk []));((mk []),(mk [233]));((mk [233;98;97]),(mk []));((mk [46]),(mk [46;98;46]));((mk [46;97]),(mk [233;97]));((mk [233]),(mk [233]));((mk [46;98]),(mk []));((mk [97;46;98]),(mk [46;97]));((mk [46]),(mk []));((mk [233;46]),(mk [97;97]));((mk [98;98;97]),(mk [233]));((mk []),(mk [98]));((mk [97;46]),(mk [97;98;233]));((mk [46]),(mk [98;46;46]));((mk [46]),(mk [97]));((mk []),(mk [46;97;97]));((mk []),(mk [97;98]));((mk []),(mk [46;233;98]));((mk []),(mk [46;233]));((mk [98;233;97]),(mk [46;46;98]));((mk []),(mk [98;97;98]));((mk [46;46]),(mk []));((mk [46]),(mk [98;97]));((mk []),(mk [46;97;98]))] = [true;true;true;false;false;true;false;true;false;true;false;true;true;true;false;false;false;false;true;true;true;true;true;true;true;true;true;false;true;false;true;true].
Proof. vm_compute. reflexivity. Qed.

(* os.path, for Origin.v *)
Example dirname_ok : map dirname [(mk []);(mk [47]);(mk [47;47]);(mk [47;47;47]);(mk [46]);(mk [97;47;46;47;120;32;121]);(mk [46;46]);(mk [47;46;46;47;47;46;46]);(mk [47;47;47]);(mk [47;47;47;47;97;47;47;46;46]);(mk [46;46]);(mk [120;32;121;47;120;32;121]);(mk [47;46;46;47;46;47;47;97;47]);(mk [46;47;97;47;46;46]);(mk [47;98;99;47;46;46;47;120;32;121;47;97;47]);(mk [47;46;46;47;120;32;121]);(mk [47;47;47;47;46;46;47;97;47;46;47;120;32;121]);(mk [47;47;46;47;46;46;47;46]);(mk [47;97;47;97;47;120;32;121]);(mk [47;47;46;46]);(mk [46;47;98;99;47;120;32;121;47;46;47;98;99]);(mk [47;47;47;46;46]);(mk [47;47;47;98;99;47;97]);(mk [47;47;47;120;32;121;47;47;46;46]);(mk [47;47;47;120;32;121;47;98;99;47;46;46]);(mk [46;47;47;47;98;99;47;46]);(mk [47;47;120;32;121]);(mk [47;47;46;46;47;120;32;121;47;46;47;98;99;47;120;32;121;47;46]);(mk [47;47;46]);(mk [47;47;47;46;46;47]);(mk [47;47;97]);(mk [47;47;47;120;32;121;47;97]);(mk [47;47;47;46;47;47;97;47;46]);(mk [47;47;47;98;99;47;97;47;46;47;46;46;47;98;99]);(mk [47;120;32;121;47;46;47;97]);(mk [47;97]);(mk [120;32;121;47;97]);(mk [46;46;47;97;47;98;99;47;98;99]);(mk [47;47;46;47;46;46]);(mk [46;46;47;98;99;47;97;47;120;32;121;47;46;46]);(mk [47;47;47;120;32;121;47;46;46;47;46;47;46]);(mk [47;46;47;120;32;121;47;46]);(mk [47;47;47;47;97]);(mk [47;98;99]);(mk [47]);(mk [47;47;98;99;47;46;46;47;47]);(mk [47;47;46;47;97;47;120;32;121;47;98;99;47;98;99]);(mk [47;47;47;47;47;46;47;46]);(mk [47;47;98;99;47;47;97;47]);(mk [47;98;99;47;46;47;120;32;121;47;97;47;46;46;47]);(mk [47;47;98;99;47;97;47;120;32;121;47;46;46;47]);(mk [47;47;47;120;32;121;47;98;99;47;46;46;47;98;99;47;97]);(mk [47;47;46;46;47;46;46]);(mk [47;97;47;46;46;47;97;47;97;47;46;47;120;32;121]);(mk [47;47;46;46;47;46]);(mk [47;47;47;47;98;99;47;46;47;98;99;47;97]);(mk [47;120;32;121;47;98;99;47;98;99;47]);(mk [47;47;47;97]);(mk [47;47;47;98;99;47;97]);(mk [46;46;47;47;46;47;120;32;121;47;98;99]);(mk [47;47;47;47;46;47;120;32;121;47;97;47;46;47;97]);(mk [98;99;47;47;120;32;121;47;46;47;46;47;46]);(mk [47;47;47;97;47;97;47;97;47;47;97;47;46;46]);(mk [47;97;47;46;46;47;46;46;47;46;47;120;32;121;47;98;99]);(mk [46;46;47;97;47;47;47;120;32;121])] = [(mk []);(mk [47]);(mk [47;47]);(mk [47;47;47]);(mk []);(mk [97;47;46]);(mk []);(mk [47;46;46]);(mk [47;47;47]);(mk [47;47;47;47;97]);(mk []);(mk [120;32;121]);(mk [47;46;46;47;46;47;47;97]);(mk [46;47;97]);(mk [47;98;99;47;46;46;47;120;32;121;47;97]);(mk [47;46;46]);(mk [47;47;47;47;46;46;47;97;47;46]);(mk [47;47;46;47;46;46]);(mk [47;97;47;97]);(mk [47;47]);(mk [46;47;98;99;47;120;32;121;47;46]);(mk [47;47;47]);(mk [47;47;47;98;99]);(mk [47;47;47;120;32;121]);(mk [47;47;47;120;32;121;47;98;99]);(mk [46;47;47;47;98;99]);(mk [47;47]);(mk [47;47;46;46;47;120;32;121;47;46;47;98;99;47;120;32;121]);(mk [47;47]);(mk [47;47;47;46;46]);(mk [47;47]);(mk [47;47;47;120;32;121]);(mk [47;47;47;46;47;47;97]);(mk [47;47;47;98;99;47;97;47;46;47;46;46]);(mk [47;120;32;121;47;46]);(mk [47]);(mk [120;32;121]);(mk [46;46;47;97;47;98;99]);(mk [47;47;46]);(mk [46;46;47;98;99;47;97;47;120;32;121]);(mk [47;47;47;120;32;121;47;46;46;47;46]);(mk [47;46;47;120;32;121]);(mk [47;47;47;47]);(mk [47]);(mk [47]);(mk [47;47;98;99;47;46;46]);(mk [47;47;46;47;97;47;120;32;121;47;98;99]);(mk [47;47;47;47;47;46]);(mk [47;47;98;99;47;47;97]);(mk [47;98;99;47;46;47;120;32;121;47;97;47;46;46]);(mk [47;47;98;99;47;97;47;120;32;121;47;46;46]);(mk [47;47;47;120;32;121;47;98;99;47;46;46;47;98;99]);(mk [47;47;46;46]);(mk [47;97;47;46;46;47;97;47;97;47;46]);(mk [47;47;46;46]);(mk [47;47;47;47;98;99;47;46;47;98;99]);(mk [47;120;32;121;47;98;99;47;98;99]);(mk [47;47;47]);(mk [47;47;47;98;99]);(mk [46;46;47;47;46;47;120;32;121]);(mk [47;47;47;47;46;47;120;32;121;47;97;47;46]);(mk [98;99;47;47;120;32;121;47;46;47;46]);(mk [47;47;47;97;47;97;47;97;47;47;97]);(mk [47;97;47;46;46;47;46;46;47;46;47;120;32;121]);(mk [46;46;47;97])].
Proof. vm_compute. reflexivity. Qed.
Example normpath_ok : map normpath [(mk []);(mk [47]);(mk [47;47]);(mk [47;47;47]);(mk [46]);(mk [97;47;46;47;120;32;121]);(mk [46;46]);(mk [47;46;46;47;47;46;46]);(mk [47;47;47]);(mk [47;47;47;47;97;47;47;46;46]);(mk [46;46]);(mk [120;32;121;47;120;32;121]);(mk [47;46;46;47;46;47;47;97;47]);(mk [46;47;97;47;46;46]);(mk [47;98;99;47;46;46;47;120;32;121;47;97;47]);(mk [47;46;46;47;120;32;121]);(mk [47;47;47;47;46;46;47;97;47;46;47;120;32;121]);(mk [47;47;46;47;46;46;47;46]);(mk [47;97;47;97;47;120;32;121]);(mk [47;47;46;46]);(mk [46;47;98;99;47;120;32;121;47;46;47;98;99]);(mk [47;47;47;46;46]);(mk [47;47;47;98;99;47;97]);(mk [47;47;47;120;32;121;47;47;46;46]);(mk [47;47;47;120;32;121;47;98;99;47;46;46]);(mk [46;47;47;47;98;99;47;46]);(mk [47;47;120;32;121]);(mk [47;47;46;46;47;120;32;121;47;46;47;98;99;47;120;32;121;47;46]);(mk [47;47;46]);(mk [47;47;47;46;46;47]);(mk [47;47;97]);(mk [47;47;47;120;32;121;47;97]);(mk [47;47;47;46;47;47;97;47;46]);(mk [47;47;47;98;99;47;97;47;46;47;46;46;47;98;99]);(mk [47;120;32;121;47;46;47;97]);(mk [47;97]);(mk [120;32;121;47;97]);(mk [46;46;47;97;47;98;99;47;98;99]);(mk [47;47;46;47;46;46]);(mk [46;46;47;98;99;47;97;47;120;32;121;47;46;46]);(mk [47;47;47;120;32;121;47;46;46;47;46;47;46]);(mk [47;46;47;120;32;121;47;46]);(mk [47;47;47;47;97]);(mk [47;98;99]);(mk [47]);(mk [47;47;98;99;47;46;46;47;47]);(mk [47;47;46;47;97;47;120;32;121;47;98;99;47;98;99]);(mk [47;47;47;47;47;46;47;46]);(mk [47;47;98;99;47;47;97;47]);(mk [47;98;99;47;46;47;120;32;121;47;97;47;46;46;47]);(mk [47;47;98;99;47;97;47;120;32;121;47;46;46;47]);(mk [47;47;47;120;32;121;47;98;99;47;46;46;47;98;99;47;97]);(mk [47;47;46;46;47;46;46]);(mk [47;97;47;46;46;47;97;47;97;47;46;47;120;32;121]);(mk [47;47;46;46;47;46]);(mk [47;47;47;47;98;99;47;46;47;98;99;47;97]);(mk [47;120;32;121;47;98;99;47;98;99;47]);(mk [47;47;47;97]);(mk [47;47;47;98;99;47;97]);(mk [46;46;47;47;46;47;120;32;121;47;98;99]);(mk [47;47;47;47;46;47;120;32;121;47;97;47;46;47;97]);(mk [98;99;47;47;120;32;121;47;46;47;46;47;46]);(mk [47;47;47;97;47;97;47;97;47;47;97;47;46;46]);(mk [47;97;47;46;46;47;46;46;47;46;47;120;32;121;47;98;99]);(mk [46;46;47;97;47;47;47;120;32;121])] = [(mk [46]);(mk [47]);(mk [47;47]);(mk [47]);(mk [46]);(mk [97;47;120;32;121]);(mk [46;46]);(mk [47]);(mk [47]);(mk [47]);(mk [46;46]);(mk [120;32;121;47;120;32;121]);(mk [47;97]);(mk [46]);(mk [47;120;32;121;47;97]);(mk [47;120;32;121]);(mk [47;97;47;120;32;121]);(mk [47;47]);(mk [47;97;47;97;47;120;32;121]);(mk [47;47]);(mk [98;99;47;120;32;121;47;98;99]);(mk [47]);(mk [47;98;99;47;97]);(mk [47]);(mk [47;120;32;121]);(mk [98;99]);(mk [47;47;120;32;121]);(mk [47;47;120;32;121;47;98;99;47;120;32;121]);(mk [47;47]);(mk [47]);(mk [47;47;97]);(mk [47;120;32;121;47;97]);(mk [47;97]);(mk [47;98;99;47;98;99]);(mk [47;120;32;121;47;97]);(mk [47;97]);(mk [120;32;121;47;97]);(mk [46;46;47;97;47;98;99;47;98;99]);(mk [47;47]);(mk [46;46;47;98;99;47;97]);(mk [47]);(mk [47;120;32;121]);(mk [47;97]);(mk [47;98;99]);(mk [47]);(mk [47;47]);(mk [47;47;97;47;120;32;121;47;98;99;47;98;99]);(mk [47]);(mk [47;47;98;99;47;97]);(mk [47;98;99;47;120;32;121]);(mk [47;47;98;99;47;97]);(mk [47;120;32;121;47;98;99;47;97]);(mk [47;47]);(mk [47;97;47;97;47;120;32;121]);(mk [47;47]);(mk [47;98;99;47;98;99;47;97]);(mk [47;120;32;121;47;98;99;47;98;99]);(mk [47;97]);(mk [47;98;99;47;97]);(mk [46;46;47;120;32;121;47;98;99]);(mk [47;120;32;121;47;97;47;97]);(mk [98;99;47;120;32;121]);(mk [47;97;47;97;47;97]);(mk [47;120;32;121;47;98;99]);(mk [46;46;47;97;47;120;32;121])].
Proof. vm_compute. reflexivity. Qed.
Example abspath_ok : map (fun ab => abspath (fst ab) (snd ab)) [((mk [47;104;111;109;101;47;117]),(mk []));((mk [47;97;47]),(mk [47]));((mk [47;104;111;109;101;47;117]),(mk [47;47]));((mk [47;104;111;109;101;47;117]),(mk [47;47;47]));((mk [47]),(mk [46]));((mk [47;47;110]),(mk [97;47;46;47;120;32;121]));((mk [47;104;111;109;101;47;117]),(mk [46;46]));((mk [47;47;110]),(mk [47;46;46;47;47;46;46]));((mk [47;104;111;109;101;47;117]),(mk [47;47;47]));((mk [47;47;110]),(mk [47;47;47;47;97;47;47;46;46]));((mk [47;47;110]),(mk [46;46]));((mk [47;97;47]),(mk [120;32;121;47;120;32;121]));((mk [47;104;111;109;101;47;117]),(mk [47;46;46;47;46;47;47;97;47]));((mk [47]),(mk [46;47;97;47;46;46]));((mk [47;47;110]),(mk [47;98;99;47;46;46;47;120;32;121;47;97;47]));((mk [47;97;47]),(mk [47;46;46;47;120;32;121]));((mk [47;97;47]),(mk [47;47;47;47;46;46;47;97;47;46;47;120;32;121]));((mk [47;104;111;109;101;47;117]),(mk [47;47;46;47;46;46;47;46]));((mk [47;104;111;109;101;47;117]),(mk [47;97;47;97;47;120;32;121]));((mk [47]),(mk [47;47;46;46]));((mk [47;97;47]),(mk [46;47;98;99;47;120;32;121;47;46;47;98;99]));((mk [47;104;111;109;101;47;117]),(mk [47;47;47;46;46]));((mk [47]),(mk [47;47;47;98;99;47;97]));((mk [47;104;111;109;101;47;117]),(mk [47;47;47;120;32;121;47;47;46;46]));((mk [47;104;111;109;101;47;117]),(mk [47;47;47;120;32;121;47;98;99;47;46;46]));((mk [47;104;111;109;101;47;117]),(mk [46;47;47;47;98;99;47;46]));((mk [47;97;47]),(mk [47;47;120;32;121]));((mk [47]),(mk [47;47;46;46;47;120;32;121;47;46;47;98;99;47;120;32;121;47;46]));((mk [47]),(mk [47;47;46]));((mk [47;47;110]),(mk [47;47;47;46;46;47]));((mk [47;97;47]),(mk [47;47;97]));((mk [47]),(mk [47;47;47;120;32;121;47;97]));((mk [47]),(mk [47;47;47;46;47;47;97;47;46]));((mk [47;104;111;109;101;47;117]),(mk [47;47;47;98;99;47;97;47;46;47;46;46;47;98;99]));((mk [47;104;111;109;101;47;117]),(mk [47;120;32;121;47;46;47;97]));((mk [47;47;110]),(mk [47;97]));((mk [47]),(mk [120;32;121;47;97]));((mk [47]),(mk [46;46;47;97;47;98;99;47;98;99]));((mk [47;97;47]),(mk [47;47;46;47;46;46]));((mk [47]),(mk [46;46;47;98;99;47;97;47;120;32;121;47;46;46]));((mk [47]),(mk [47;47;47;120;32;121;47;46;46;47;46;47;46]));((mk [47;97;47]),(mk [47;46;47;120;32;121;47;46]));((mk [47;47;110]),(mk [47;47;47;47;97]));((mk [47;104;111;109;101;47;117]),(mk [47;98;99]));((mk [47;47;110]),(mk [47]));((mk [47;97;47]),(mk [47;47;98;99;47;46;46;47;47]));((mk [47;97;47]),(mk [47;47;46;47;97;47;120;32;121;47;98;99;47;98;99]));((mk [47;104;111;109;101;47;117]),(mk [47;47;47;47;47;46;47;46]));((mk [47;47;110]),(mk [47;47;98;99;47;47;97;47]));((mk [47;104;111;109;101;47;117]),(mk [47;98;99;47;46;47;120;32;121;47;97;47;46;46;47]));((mk [47;97;47]),(mk [47;47;98;99;47;97;47;120;32;121;47;46;46;47]));((mk [47;104;111;109;101;47;117]),(mk [47;47;47;120;32;121;47;98;99;47;46;46;47;98;99;47;97]));((mk [47;97;47]),(mk [47;47;46;46;47;46;46]));((mk [47]),(mk [47;97;47;46;46;47;97;47;97;47;46;47;120;32;121]));((mk [47;97;47]),(mk [47;47;46;46;47;46]));((mk [47;97;47]),(mk [47;47;47;47;98;99;47;46;47;98;99;47;97]));((mk [47;47;110]),(mk [47;120;32;121;47;98;99;47;98;99;47]));((mk [47]),(mk [47;47;47;97]));((mk [47;104;111;109;101;47;117]),(mk [47;47;47;98;99;47;97]));((mk [47;97;47]),(mk [46;46;47;47;46;47;120;32;121;47;98;99]));((mk [47]),(mk [47;47;47;47;46;47;120;32;121;47;97;47;46;47;97]));((mk [47;104;111;109;101;47;117]),(mk [98;99;47;47;120;32;121;47;46;47;46;47;46]));((mk [47;47;110]),(mk [47;47;47;97;47;97;47;97;47;47;97;47;46;46]));((mk [47]),(mk [47;97;47;46;46;47;46;46;47;46;47;120;32;121;47;98;99]));((mk [47;104;111;109;101;47;117]),(mk [46;46;47;97;47;47;47;120;32;121]))] = [(mk [47;104;111;109;101;47;117]);(mk [47]);(mk [47;47]);(mk [47]);(mk [47]);(mk [47;47;110;47;97;47;120;32;121]);(mk [47;104;111;109;101]);(mk [47]);(mk [47]);(mk [47]);(mk [47;47]);(mk [47;97;47;120;32;121;47;120;32;121]);(mk [47;97]);(mk [47]);(mk [47;120;32;121;47;97]);(mk [47;120;32;121]);(mk [47;97;47;120;32;121]);(mk [47;47]);(mk [47;97;47;97;47;120;32;121]);(mk [47;47]);(mk [47;97;47;98;99;47;120;32;121;47;98;99]);(mk [47]);(mk [47;98;99;47;97]);(mk [47]);(mk [47;120;32;121]);(mk [47;104;111;109;101;47;117;47;98;99]);(mk [47;47;120;32;121]);(mk [47;47;120;32;121;47;98;99;47;120;32;121]);(mk [47;47]);(mk [47]);(mk [47;47;97]);(mk [47;120;32;121;47;97]);(mk [47;97]);(mk [47;98;99;47;98;99]);(mk [47;120;32;121;47;97]);(mk [47;97]);(mk [47;120;32;121;47;97]);(mk [47;97;47;98;99;47;98;99]);(mk [47;47]);(mk [47;98;99;47;97]);(mk [47]);(mk [47;120;32;121]);(mk [47;97]);(mk [47;98;99]);(mk [47]);(mk [47;47]);(mk [47;47;97;47;120;32;121;47;98;99;47;98;99]);(mk [47]);(mk [47;47;98;99;47;97]);(mk [47;98;99;47;120;32;121]);(mk [47;47;98;99;47;97]);(mk [47;120;32;121;47;98;99;47;97]);(mk [47;47]);(mk [47;97;47;97;47;120;32;121]);(mk [47;47]);(mk [47;98;99;47;98;99;47;97]);(mk [47;120;32;121;47;98;99;47;98;99]);(mk [47;97]);(mk [47;98;99;47;97]);(mk [47;120;32;121;47;98;99]);(mk [47;120;32;121;47;97;47;97]);(mk [47;104;111;109;101;47;117;47;98;99;47;120;32;121]);(mk [47;97;47;97;47;97]);(mk [47;120;32;121;47;98;99]);(mk [47;104;111;109;101;47;97;47;120;32;121])].
Proof. vm_compute. reflexivity. Qed.
