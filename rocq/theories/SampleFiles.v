(** Sample files of the repository, byte for byte. Used only to test the model. *)
From Verif Require Import Base.

(** /repo/tests/samples/non-legacy/New Section 3.one *)
Definition sample_section : list N := [
228;82;92;123;140;216;167;77;174;177;83;120;208;41;150;211;52;251;182;67;21;216;109;103;61;194;67;57;221;188;67;241;52;251;182;67;21;216;109;103;
61;194;67;57;221;188;67;241;47;233;141;99;212;166;193;75;154;54;179;252;37;17;165;183;0;0;0;0;214;3;66;0;252;52;251;182;67;21;216;109;
103;61;194;67;57;221;188;67;241;180;124;147;31;111;178;95;68;185;248;23;226;1;96;228;97;172;2;0;12;86;252;52;251;182;67;21;216;109;103;61;
194;67;57;221;188;67;241;128;34;192;111;237;61;239;57;47;180;52;175;216;239;41;218;246;1;0;0;0;0;0;0;0;3;112;152;12;185;250;222;132;
163;170;13;74;163;168;82;12;119;172;112;115;12;43;99;148;137;143;233;69;45;170;201;116;55;33;252;128;155;44;243;201;49;143;65;169;202;69;168;119;
26;146;153;155;217;210;128;52;251;182;67;21;216;109;103;61;194;67;57;221;188;67;241;1;0;0;0;0;0;0;0;112;152;12;185;250;222;132;163;170;
13;74;163;168;82;12;119;172;112;115;12;243;76;30;17;239;127;135;64;175;106;185;84;74;205;51;77;12;58;22;134;117;228;56;78;199;172;13;94;110;
226;109;72;51;128;52;251;182;67;21;216;109;103;61;194;67;57;221;188;67;241;2;0;0;0;0;0;0;0;136;84;12;56;67;13;28;116;54;146;33;
134;16;248;8;90;53;18;87;128;52;251;182;67;21;216;109;103;61;194;67;57;221;188;67;241;3;0;0;0;0;0;0;0;104;134;128;191;78;231;114;
56;155;105;169;132;160;155;149;175;245;51;36;136;158;99;82;128;122;251;92;178;10;81;85;236;58;205;178;225;105;240;51;145;136;158;99;82;128;52;251;
182;67;21;216;109;103;61;194;67;57;221;188;67;241;4;0;0;0;0;0;0;0;104;118;12;208;179;143;202;160;68;64;237;144;222;114;9;211;155;188;
133;12;117;16;56;246;213;46;73;38;149;178;26;99;150;126;237;5;128;52;251;182;67;21;216;109;103;61;194;67;57;221;188;67;241;5;0;0;0;0;
0;0;0;104;118;12;251;73;58;57;205;48;67;81;135;83;24;79;21;155;19;41;28;243;201;49;143;65;169;202;69;168;119;26;146;153;155;217;210;128;
52;251;182;67;21;216;109;103;61;194;67;57;221;188;67;241;6;0;0;0;0;0;0;0;112;152;12;185;250;222;132;163;170;13;74;163;168;82;12;119;
172;112;115;12;155;165;21;28;219;20;66;135;136;21;254;184;34;10;66;159;92;162;28;168;138;10;194;167;70;169;113;68;207;157;230;182;153;128;52;251;
182;67;21;216;109;103;61;194;67;57;221;188;67;241;7;0;0;0;0;0;0;0;104;118;12;199;223;146;205;238;108;65;177;177;158;22;216;253;25;211;
6;28;162;28;168;138;10;194;167;70;169;113;68;207;157;230;182;153;128;52;251;182;67;21;216;109;103;61;194;67;57;221;188;67;241;8;0;0;0;0;
0;0;0;104;118;12;22;207;82;129;174;135;65;1;161;182;203;147;124;147;233;239;60;162;28;168;138;10;194;167;70;169;113;68;207;157;230;182;153;128;
52;251;182;67;21;216;109;103;61;194;67;57;221;188;67;241;9;0;0;0;0;0;0;0;112;152;12;127;73;17;113;107;27;9;66;148;145;201;139;4;
207;76;90;12;155;165;21;28;219;20;66;135;136;21;254;184;34;10;66;159;76;162;28;168;138;10;194;167;70;169;113;68;207;157;230;182;153;128;52;251;
182;67;21;216;109;103;61;194;67;57;221;188;67;241;10;0;0;0;0;0;0;0;5;12;86;12;56;67;13;28;116;54;146;33;134;16;248;8;90;53;
18;87;128;34;192;111;237;61;239;57;47;180;52;175;216;239;41;218;246;2;0;0;0;0;0;0;0;5;96;32;180;124;147;31;111;178;95;68;185;248;
23;226;1;96;228;97;56;102;12;156;49;90;26;107;194;170;65;185;197;155;216;196;78;7;212;12;185;250;222;132;163;170;13;74;163;168;82;12;119;172;
112;115;12;243;76;30;17;239;127;135;64;175;106;185;84;74;205;51;77;56;102;20;185;250;222;132;163;170;13;74;163;168;82;12;119;172;112;115;12;185;
250;222;132;163;170;13;74;163;168;82;12;119;172;112;115;12;43;99;148;137;143;233;69;45;170;201;116;55;33;252;128;155;5;12;86;12;58;22;134;117;
228;56;78;199;172;13;94;110;226;109;72;51;128;34;192;111;237;61;239;57;47;180;52;175;216;239;41;218;246;3;0;0;0;0;0;0;0;7;88;42;
128;191;78;231;114;56;155;105;169;132;160;155;149;175;245;51;36;136;158;99;82;5;12;94;128;78;99;167;84;255;243;169;234;39;220;159;44;191;253;160;
234;136;158;99;210;128;34;192;111;237;61;239;57;47;180;52;175;216;239;41;218;246;4;0;0;0;0;0;0;0;11;236;0;192;42;12;26;11;118;180;
223;251;227;74;157;8;83;33;157;138;141;33;3;141;0;0;117;244;0;176;146;0;0;141;0;0;0;128;4;0;148;29;0;28;149;29;0;28;147;29;
0;20;153;29;0;20;16;0;0;0;175;119;11;118;0;204;74;164;159;99;139;181;53;14;18;160;16;0;0;0;63;68;218;241;95;166;19;69;178;0;
120;216;169;145;11;141;175;158;99;82;39;0;0;0;121;5;12;86;12;117;16;56;246;213;46;73;38;149;178;26;99;150;126;237;5;128;34;192;111;237;
61;239;57;47;180;52;175;216;239;41;218;246;5;0;0;0;0;0;0;0;9;208;36;12;208;179;143;202;160;68;64;237;144;222;114;9;211;155;188;133;
0;80;68;12;248;23;55;74;20;28;231;73;149;38;129;217;66;222;23;65;84;238;154;103;243;118;196;68;71;178;200;136;117;91;199;206;94;80;68;20;
248;23;55;74;20;28;231;73;149;38;129;217;66;222;23;65;92;238;154;103;243;118;196;68;71;178;200;136;117;91;199;206;94;200;34;12;254;61;238;56;
172;134;79;5;159;206;107;59;12;83;109;168;5;12;94;128;122;251;92;178;10;81;85;236;58;205;178;225;105;240;51;145;136;158;99;82;128;34;192;111;
237;61;239;57;47;180;52;175;216;239;41;218;246;6;0;0;0;0;0;0;0;9;208;44;128;191;78;231;114;56;155;105;169;132;160;155;149;175;245;51;
36;136;158;99;82;0;80;68;12;248;23;55;74;20;28;231;73;149;38;129;217;66;222;23;65;12;26;11;118;180;223;251;227;74;157;8;83;33;157;138;
141;33;200;42;128;78;99;167;84;255;243;169;234;39;220;159;44;191;253;160;234;136;158;99;210;5;12;86;12;162;28;168;138;10;194;167;70;169;113;68;
207;157;230;182;153;128;34;192;111;237;61;239;57;47;180;52;175;216;239;41;218;246;7;0;0;0;0;0;0;0;11;236;0;192;42;84;166;163;210;129;
63;91;74;15;155;5;197;215;71;246;12;212;9;9;0;0;192;42;84;166;163;210;129;63;91;74;15;155;5;197;215;71;246;12;212;3;81;3;3;192;
42;92;166;163;210;129;63;91;74;15;155;5;197;215;71;246;12;212;9;9;0;0;192;42;92;166;163;210;129;63;91;74;15;155;5;197;215;71;246;12;
212;3;161;0;0;192;42;100;166;163;210;129;63;91;74;15;155;5;197;215;71;246;12;212;9;9;0;0;192;44;100;166;163;210;129;63;91;74;15;155;
5;197;215;71;246;12;212;3;2;3;7;0;192;42;108;166;163;210;129;63;91;74;15;155;5;197;215;71;246;12;212;9;9;0;0;192;44;108;166;163;
210;129;63;91;74;15;155;5;197;215;71;246;12;212;3;226;4;0;0;192;42;116;166;163;210;129;63;91;74;15;155;5;197;215;71;246;12;212;9;9;
0;0;192;42;116;166;163;210;129;63;91;74;15;155;5;197;215;71;246;12;212;3;145;5;0;192;42;124;166;163;210;129;63;91;74;15;155;5;197;215;
71;246;12;212;9;9;0;0;192;42;124;166;163;210;129;63;91;74;15;155;5;197;215;71;246;12;212;3;225;3;0;192;42;132;166;163;210;129;63;91;
74;15;155;5;197;215;71;246;12;212;9;9;0;0;192;42;132;166;163;210;129;63;91;74;15;155;5;197;215;71;246;12;212;3;129;7;0;192;42;140;
166;163;210;129;63;91;74;15;155;5;197;215;71;246;12;212;9;9;0;0;192;42;140;166;163;210;129;63;91;74;15;155;5;197;215;71;246;12;212;3;
97;5;0;192;42;156;166;163;210;129;63;91;74;15;155;5;197;215;71;246;12;212;9;9;0;0;192;44;156;166;163;210;129;63;91;74;15;155;5;197;
215;71;246;12;212;3;2;2;0;0;192;42;164;166;163;210;129;63;91;74;15;155;5;197;215;71;246;12;212;9;9;0;0;192;42;164;166;163;210;129;
63;91;74;15;155;5;197;215;71;246;12;212;3;225;5;0;192;42;172;166;163;210;129;63;91;74;15;155;5;197;215;71;246;12;212;9;9;0;0;192;
42;172;166;163;210;129;63;91;74;15;155;5;197;215;71;246;12;212;3;145;7;0;192;42;180;166;163;210;129;63;91;74;15;155;5;197;215;71;246;12;
212;9;9;0;0;192;44;180;166;163;210;129;63;91;74;15;155;5;197;215;71;246;12;212;3;2;2;5;0;192;42;188;166;163;210;129;63;91;74;15;
155;5;197;215;71;246;12;212;9;9;0;0;192;44;188;166;163;210;129;63;91;74;15;155;5;197;215;71;246;12;212;3;34;2;0;0;192;42;196;166;
163;210;129;63;91;74;15;155;5;197;215;71;246;12;212;9;9;0;0;192;42;196;166;163;210;129;63;91;74;15;155;5;197;215;71;246;12;212;3;145;
7;0;192;42;204;166;163;210;129;63;91;74;15;155;5;197;215;71;246;12;212;9;9;0;0;192;42;204;166;163;210;129;63;91;74;15;155;5;197;215;
71;246;12;212;3;209;5;0;192;42;212;166;163;210;129;63;91;74;15;155;5;197;215;71;246;12;212;9;9;0;0;192;42;212;166;163;210;129;63;91;
74;15;155;5;197;215;71;246;12;212;3;65;3;0;192;42;220;166;163;210;129;63;91;74;15;155;5;197;215;71;246;12;212;9;9;0;0;192;42;220;
166;163;210;129;63;91;74;15;155;5;197;215;71;246;12;212;3;129;0;0;192;42;228;166;163;210;129;63;91;74;15;155;5;197;215;71;246;12;212;9;
9;0;0;192;42;228;166;163;210;129;63;91;74;15;155;5;197;215;71;246;12;212;3;113;0;0;192;42;236;166;163;210;129;63;91;74;15;155;5;197;
215;71;246;12;212;9;9;0;0;192;42;236;166;163;210;129;63;91;74;15;155;5;197;215;71;246;12;212;3;113;0;0;117;244;0;176;14;0;0;9;
55;0;6;0;176;188;3;100;166;163;210;129;63;91;74;15;155;5;197;215;71;246;12;212;3;12;127;73;17;113;107;27;9;66;148;145;201;139;4;207;
76;90;12;155;165;21;28;219;20;66;135;136;21;254;184;34;10;66;159;81;1;0;0;64;12;1;0;0;0;0;0;64;1;0;0;0;1;2;0;0;
2;0;31;28;0;36;123;52;0;52;1;0;0;0;1;0;0;0;0;0;176;14;0;0;9;48;0;2;0;176;166;0;0;161;0;0;0;128;6;0;
243;28;0;28;48;28;0;28;255;29;0;20;130;29;0;20;139;52;0;20;101;28;0;24;2;0;0;0;0;0;16;0;0;0;3;183;204;165;159;102;
66;187;181;214;47;10;149;50;66;244;1;0;0;0;40;0;0;0;40;0;0;0;80;67;20;184;249;119;220;1;0;0;0;0;176;14;0;0;9;11;
0;6;0;178;0;238;1;7;116;166;163;210;129;63;91;74;15;155;5;197;215;71;246;12;212;108;166;163;210;129;63;91;74;15;155;5;197;215;71;246;
12;212;108;166;163;210;129;63;91;74;15;155;5;197;215;71;246;12;212;0;2;3;3;0;0;128;14;1;0;0;13;1;0;0;13;1;0;0;19;0;
122;29;0;20;95;29;0;36;220;28;0;136;142;28;0;136;76;28;0;20;77;28;0;20;78;28;0;20;79;28;0;20;1;28;0;20;2;28;0;20;
158;28;0;20;159;28;0;20;160;28;0;20;161;28;0;20;117;29;0;28;248;29;0;28;120;29;0;32;121;29;0;32;146;28;0;8;141;131;130;86;
1;0;0;0;0;0;128;63;0;0;128;63;0;0;0;64;0;0;0;64;80;141;167;65;0;0;174;65;0;0;0;63;0;0;0;63;0;0;128;62;
0;0;128;62;32;0;0;0;84;0;104;0;101;0;114;0;101;0;115;0;97;0;32;0;83;0;105;0;101;0;109;0;101;0;110;0;115;0;0;0;
6;0;0;0;84;0;83;0;0;0;0;0;0;0;176;14;0;0;9;1;0;18;0;178;0;120;2;0;0;226;4;0;0;0;128;3;0;248;29;0;
28;117;29;0;28;48;30;0;28;6;0;0;0;84;0;83;0;0;0;32;0;0;0;84;0;104;0;101;0;114;0;101;0;115;0;97;0;32;0;83;
0;105;0;101;0;109;0;101;0;110;0;115;0;0;0;238;0;0;0;60;0;114;0;101;0;115;0;111;0;108;0;117;0;116;0;105;0;111;0;110;
0;73;0;100;0;32;0;112;0;114;0;111;0;118;0;105;0;100;0;101;0;114;0;61;0;34;0;87;0;105;0;110;0;100;0;111;0;119;0;115;
0;32;0;76;0;105;0;118;0;101;0;34;0;32;0;104;0;97;0;115;0;104;0;61;0;34;0;80;0;88;0;73;0;47;0;115;0;90;0;48;
0;50;0;101;0;117;0;52;0;71;0;98;0;104;0;120;0;112;0;104;0;103;0;112;0;88;0;57;0;103;0;61;0;61;0;34;0;62;0;60;
0;108;0;111;0;99;0;97;0;108;0;73;0;100;0;32;0;99;0;105;0;100;0;61;0;34;0;52;0;55;0;97;0;52;0;102;0;101;0;97;
0;49;0;98;0;100;0;97;0;55;0;54;0;101;0;51;0;49;0;34;0;47;0;62;0;60;0;47;0;114;0;101;0;115;0;111;0;108;0;117;
0;116;0;105;0;111;0;110;0;73;0;100;0;62;0;0;0;0;0;0;0;0;0;176;14;0;0;9;44;0;6;0;176;218;5;124;166;163;210;129;
63;91;74;15;155;5;197;215;71;246;12;212;164;166;163;210;129;63;91;74;15;155;5;197;215;71;246;12;212;0;145;2;0;0;128;15;1;0;0;20;
1;0;0;7;0;122;29;0;20;20;28;0;20;21;28;0;20;62;28;0;20;132;28;0;20;241;28;0;20;32;28;0;36;141;131;130;86;0;0;0;
0;0;0;0;0;12;0;9;0;0;0;0;0;0;0;0;0;2;0;0;0;0;0;176;14;0;0;9;12;0;6;0;178;0;8;1;3;132;166;163;
210;129;63;91;74;15;155;5;197;215;71;246;12;212;0;225;1;0;0;128;16;1;0;0;13;0;122;29;0;20;32;28;0;36;18;28;0;28;3;28;
0;12;28;28;0;20;249;28;0;136;178;28;0;136;180;28;0;136;145;28;0;136;236;28;0;20;255;28;0;136;62;28;0;20;132;28;0;20;141;131;
130;86;1;0;0;0;20;0;0;0;4;0;0;0;0;0;0;63;0;0;0;0;0;0;64;63;0;0;64;63;1;154;153;25;63;0;0;144;64;0;
0;0;0;12;0;0;0;0;176;14;0;0;9;13;0;6;0;176;236;7;108;166;163;210;129;63;91;74;15;155;5;197;215;71;246;12;212;108;166;163;
210;129;63;91;74;15;155;5;197;215;71;246;12;212;140;166;163;210;129;63;91;74;15;155;5;197;215;71;246;12;212;0;129;3;0;0;128;13;1;0;
0;13;1;0;0;17;1;0;0;8;0;122;29;0;20;121;29;0;32;120;29;0;32;9;29;0;20;3;28;0;12;31;28;0;36;178;28;0;136;180;
28;0;136;141;131;130;86;141;131;130;86;1;1;0;0;0;0;176;14;0;0;9;14;0;6;0;176;170;5;156;166;163;210;129;63;91;74;15;155;5;
197;215;71;246;12;212;228;166;163;210;129;63;91;74;15;155;5;197;215;71;246;12;212;0;97;2;0;0;128;19;1;0;0;28;1;0;0;5;0;122;
29;0;20;44;52;0;32;180;28;0;136;254;28;0;16;19;30;0;36;141;131;130;86;7;4;1;0;0;0;0;0;0;0;176;14;0;0;9;77;0;
18;0;178;0;8;1;0;0;2;2;0;0;0;128;14;0;90;52;0;28;4;28;0;8;5;28;0;8;6;28;0;8;12;28;0;20;46;52;0;20;
47;52;0;20;48;52;0;20;7;28;0;8;13;28;0;20;9;28;0;8;8;28;0;8;10;28;0;28;11;28;0;16;20;0;0;0;80;0;97;0;
103;0;101;0;84;0;105;0;116;0;108;0;101;0;0;0;0;0;0;255;0;0;0;0;0;0;0;0;0;0;0;0;0;0;0;255;12;0;0;0;
65;0;114;0;105;0;97;0;108;0;0;0;40;0;0;0;0;0;176;14;0;0;9;12;0;6;0;178;0;42;1;5;172;166;163;210;129;63;91;74;
15;155;5;197;215;71;246;12;212;196;166;163;210;129;63;91;74;15;155;5;197;215;71;246;12;212;0;225;2;0;0;128;21;1;0;0;24;1;0;0;
12;0;122;29;0;20;32;28;0;36;18;28;0;28;3;28;0;12;28;28;0;20;181;28;0;136;0;28;0;136;178;28;0;136;222;28;0;136;12;29;
0;136;62;28;0;20;132;28;0;20;141;131;130;86;2;0;0;0;20;0;0;0;4;0;0;0;0;0;0;63;0;0;0;0;0;0;64;63;0;0;
64;63;1;154;153;25;63;0;0;0;0;12;0;0;0;0;0;0;0;0;176;14;0;0;9;13;0;6;0;176;252;7;108;166;163;210;129;63;91;74;
15;155;5;197;215;71;246;12;212;108;166;163;210;129;63;91;74;15;155;5;197;215;71;246;12;212;180;166;163;210;129;63;91;74;15;155;5;197;215;71;
246;12;212;0;145;3;0;0;128;13;1;0;0;13;1;0;0;22;1;0;0;9;0;122;29;0;20;121;29;0;32;120;29;0;32;9;29;0;20;3;
28;0;12;31;28;0;36;178;28;0;136;12;29;0;136;52;28;0;8;141;131;130;86;141;131;130;86;1;1;0;0;0;0;0;0;0;0;176;14;0;
0;9;14;0;6;0;178;0;76;1;5;188;166;163;210;129;63;91;74;15;155;5;197;215;71;246;12;212;236;166;163;210;129;63;91;74;15;155;5;197;
215;71;246;12;212;0;2;2;2;0;0;128;23;1;0;0;29;1;0;0;13;0;122;29;0;20;44;52;0;32;222;28;0;136;62;28;0;20;132;28;
0;20;0;28;0;136;136;28;0;136;12;29;0;136;181;28;0;136;254;28;0;16;200;28;0;28;152;52;0;28;19;30;0;36;141;131;130;86;1;0;
0;0;12;0;0;0;0;16;5;0;0;0;0;0;0;0;3;25;0;0;0;83;117;110;100;97;121;44;32;50;56;46;32;68;101;99;101;109;98;101;
114;32;50;48;50;53;1;0;0;0;0;0;0;0;0;0;176;14;0;0;9;77;0;18;0;178;0;24;1;0;0;34;2;0;0;0;128;14;0;90;
52;0;28;4;28;0;8;5;28;0;8;6;28;0;8;12;28;0;20;46;52;0;20;47;52;0;20;48;52;0;20;7;28;0;8;13;28;0;20;9;
28;0;8;8;28;0;8;10;28;0;28;11;28;0;16;26;0;0;0;80;0;97;0;103;0;101;0;68;0;97;0;116;0;101;0;84;0;105;0;109;
0;101;0;0;0;118;118;118;0;0;0;0;0;0;0;0;0;0;0;0;0;0;0;0;255;16;0;0;0;67;0;97;0;108;0;105;0;98;0;114;
0;105;0;0;0;20;0;0;0;176;14;0;0;9;13;0;6;0;176;252;7;108;166;163;210;129;63;91;74;15;155;5;197;215;71;246;12;212;108;166;
163;210;129;63;91;74;15;155;5;197;215;71;246;12;212;204;166;163;210;129;63;91;74;15;155;5;197;215;71;246;12;212;0;145;3;0;0;128;13;1;
0;0;13;1;0;0;25;1;0;0;9;0;122;29;0;20;121;29;0;32;120;29;0;32;9;29;0;20;3;28;0;12;31;28;0;36;178;28;0;136;
12;29;0;136;52;28;0;8;141;131;130;86;141;131;130;86;1;1;0;0;0;0;0;0;0;0;176;14;0;0;9;14;0;6;0;178;0;26;1;5;
188;166;163;210;129;63;91;74;15;155;5;197;215;71;246;12;212;236;166;163;210;129;63;91;74;15;155;5;197;215;71;246;12;212;0;209;2;0;0;128;
23;1;0;0;29;1;0;0;13;0;122;29;0;20;44;52;0;32;222;28;0;136;62;28;0;20;132;28;0;20;0;28;0;136;136;28;0;136;12;29;
0;136;135;28;0;136;254;28;0;16;200;28;0;28;152;52;0;28;19;30;0;36;141;131;130;86;1;0;0;0;12;0;0;0;0;16;5;0;0;0;
0;0;0;0;3;5;0;0;0;49;51;58;53;56;1;0;0;0;0;0;176;14;0;0;9;68;0;2;0;176;104;3;220;166;163;210;129;63;91;74;
15;155;5;197;215;71;246;12;212;0;65;1;0;0;128;27;1;0;0;2;0;121;29;0;32;119;29;0;24;128;228;227;183;249;119;220;1;0;0;0;
0;0;0;176;14;0;0;9;1;0;18;0;176;134;0;0;129;0;0;0;128;2;0;248;29;0;28;117;29;0;28;6;0;0;0;84;0;83;0;0;
0;32;0;0;0;84;0;104;0;101;0;114;0;101;0;115;0;97;0;32;0;83;0;105;0;101;0;109;0;101;0;110;0;115;0;0;0;0;0;0;
0;176;14;0;0;9;77;0;18;0;176;118;0;0;113;0;0;0;128;10;0;22;30;0;8;170;52;0;8;20;30;0;8;25;30;0;8;59;28;0;
20;1;29;0;12;82;52;0;12;1;52;0;8;5;52;0;8;6;52;0;8;7;4;0;0;0;0;0;0;0;0;176;14;0;0;9;77;0;18;0;
176;118;0;0;113;0;0;0;128;10;0;22;30;0;8;170;52;0;8;20;30;0;8;25;30;0;8;59;28;0;20;1;29;0;12;82;52;0;12;1;
52;0;8;5;52;0;8;6;52;0;8;0;16;0;0;0;0;0;0;0;0;121;5;12;86;28;162;28;168;138;10;194;167;70;169;113;68;207;157;230;
182;153;128;34;192;111;237;61;239;57;47;180;52;175;216;239;41;218;246;8;0;0;0;0;0;0;0;9;208;36;12;199;223;146;205;238;108;65;177;177;
158;22;216;253;25;211;6;0;80;68;12;248;23;55;74;20;28;231;73;149;38;129;217;66;222;23;65;84;166;163;210;129;63;91;74;15;155;5;197;215;
71;246;12;212;80;68;20;248;23;55;74;20;28;231;73;149;38;129;217;66;222;23;65;92;166;163;210;129;63;91;74;15;155;5;197;215;71;246;12;212;
80;68;36;248;23;55;74;20;28;231;73;149;38;129;217;66;222;23;65;212;166;163;210;129;63;91;74;15;155;5;197;215;71;246;12;212;200;34;12;162;
28;168;138;10;194;167;70;169;113;68;207;157;230;182;153;5;12;86;44;162;28;168;138;10;194;167;70;169;113;68;207;157;230;182;153;128;34;192;111;237;
61;239;57;47;180;52;175;216;239;41;218;246;9;0;0;0;0;0;0;0;11;236;0;192;42;20;127;73;17;113;107;27;9;66;148;145;201;139;4;207;
76;90;9;9;0;0;192;42;20;127;73;17;113;107;27;9;66;148;145;201;139;4;207;76;90;3;17;0;0;192;42;28;127;73;17;113;107;27;9;66;
148;145;201;139;4;207;76;90;9;9;0;0;192;42;28;127;73;17;113;107;27;9;66;148;145;201;139;4;207;76;90;3;49;0;0;117;244;0;176;14;
0;0;9;60;0;6;0;176;22;0;0;17;0;0;0;128;0;0;0;0;176;14;0;0;9;70;0;2;0;176;54;0;0;49;0;0;0;128;2;0;
130;29;0;20;139;52;0;20;40;0;0;0;40;0;0;0;0;0;121;5;12;86;60;162;28;168;138;10;194;167;70;169;113;68;207;157;230;182;153;128;
34;192;111;237;61;239;57;47;180;52;175;216;239;41;218;246;10;0;0;0;0;0;0;0;9;208;36;12;22;207;82;129;174;135;65;1;161;182;203;147;
124;147;233;239;0;80;68;12;248;23;55;74;20;28;231;73;149;38;129;217;66;222;23;65;20;127;73;17;113;107;27;9;66;148;145;201;139;4;207;76;
90;80;68;20;248;23;55;74;20;28;231;73;149;38;129;217;66;222;23;65;28;127;73;17;113;107;27;9;66;148;145;201;139;4;207;76;90;200;34;44;
162;28;168;138;10;194;167;70;169;113;68;207;157;230;182;153;5;12;86;76;162;28;168;138;10;194;167;70;169;113;68;207;157;230;182;153;128;34;192;111;
237;61;239;57;47;180;52;175;216;239;41;218;246;11;0;0;0;0;0;0;0;7;88;34;12;22;207;82;129;174;135;65;1;161;182;203;147;124;147;233;
239;5;12;86;92;162;28;168;138;10;194;167;70;169;113;68;207;157;230;182;153;128;34;192;111;237;61;239;57;47;180;52;175;216;239;41;218;246;12;0;
0;0;0;0;0;0;7;88;34;12;199;223;146;205;238;108;65;177;177;158;22;216;253;25;211;6;5;12;86;12;243;201;49;143;65;169;202;69;168;119;
26;146;153;155;217;210;128;34;192;111;237;61;239;57;47;180;52;175;216;239;41;218;246;13;0;0;0;0;0;0;0;11;236;0;192;42;84;238;154;103;
243;118;196;68;71;178;200;136;117;91;199;206;94;9;9;0;0;192;42;84;238;154;103;243;118;196;68;71;178;200;136;117;91;199;206;94;3;113;3;0;
192;42;92;238;154;103;243;118;196;68;71;178;200;136;117;91;199;206;94;9;9;0;0;192;42;92;238;154;103;243;118;196;68;71;178;200;136;117;91;199;
206;94;3;65;0;0;192;42;100;238;154;103;243;118;196;68;71;178;200;136;117;91;199;206;94;9;9;0;0;192;42;100;238;154;103;243;118;196;68;71;
178;200;136;117;91;199;206;94;3;145;3;3;192;42;12;170;101;189;62;219;34;172;197;63;1;41;20;248;46;119;119;9;9;0;0;192;42;12;170;101;
189;62;219;34;172;197;63;1;41;20;248;46;119;119;3;209;0;0;117;244;0;176;14;0;0;9;7;0;6;0;176;152;3;100;238;154;103;243;118;196;
68;71;178;200;136;117;91;199;206;94;0;113;1;0;0;128;12;1;0;0;3;0;48;28;0;28;101;28;0;24;32;28;0;36;16;0;0;0;187;118;
38;236;131;133;76;84;131;100;180;24;204;248;134;68;80;67;20;184;249;119;220;1;1;0;0;0;0;0;176;14;0;0;9;49;0;2;0;176;70;0;
0;65;0;0;0;128;3;0;130;29;0;20;139;52;0;20;190;28;0;20;40;0;0;0;40;0;0;0;180;158;222;0;0;0;176;14;0;0;9;8;
0;6;0;176;252;3;12;170;101;189;62;219;34;172;197;63;1;41;20;248;46;119;119;3;12;185;250;222;132;163;170;13;74;163;168;82;12;119;172;112;
115;12;155;165;21;28;219;20;66;135;136;21;254;184;34;10;66;159;145;1;0;0;0;1;2;0;0;1;0;0;0;1;3;0;0;4;0;99;29;0;
44;48;28;0;28;101;28;0;24;66;52;0;36;1;0;0;0;16;0;0;0;82;103;78;57;100;219;73;203;188;194;124;43;54;37;18;24;80;67;20;
184;249;119;220;1;1;0;0;0;0;0;176;14;0;0;9;48;0;2;0;176;214;0;0;209;0;0;0;128;7;0;243;28;0;28;48;28;0;28;255;
29;0;20;130;29;0;20;139;52;0;20;101;28;0;24;205;53;0;28;2;0;0;0;0;0;16;0;0;0;3;183;204;165;159;102;66;187;181;214;47;
10;149;50;66;244;1;0;0;0;40;0;0;0;40;0;0;0;80;67;20;184;249;119;220;1;20;0;0;0;126;5;227;91;254;236;72;72;139;147;64;
254;171;48;248;119;49;0;0;0;121;5;12;86;28;243;201;49;143;65;169;202;69;168;119;26;146;153;155;217;210;128;34;192;111;237;61;239;57;47;180;
52;175;216;239;41;218;246;14;0;0;0;0;0;0;0;9;208;68;12;251;73;58;57;205;48;67;81;135;83;24;79;21;155;19;41;12;208;179;143;202;
160;68;64;237;144;222;114;9;211;155;188;133;200;34;12;243;201;49;143;65;169;202;69;168;119;26;146;153;155;217;210;5;12;86;44;243;201;49;143;65;
169;202;69;168;119;26;146;153;155;217;210;128;34;192;111;237;61;239;57;47;180;52;175;216;239;41;218;246;15;0;0;0;0;0;0;0;7;88;34;12;
251;73;58;57;205;48;67;81;135;83;24;79;21;155;19;41;5;12;86;12;254;61;238;56;172;134;79;5;159;206;107;59;12;83;109;168;128;34;192;111;
237;61;239;57;47;180;52;175;216;239;41;218;246;16;0;0;0;0;0;0;0;11;236;0;192;42;84;238;154;103;243;118;196;68;71;178;200;136;117;91;
199;206;94;9;9;0;0;192;42;84;238;154;103;243;118;196;68;71;178;200;136;117;91;199;206;94;3;13;0;0;192;42;92;238;154;103;243;118;196;68;
71;178;200;136;117;91;199;206;94;9;9;0;0;192;42;92;238;154;103;243;118;196;68;71;178;200;136;117;91;199;206;94;3;61;0;0;117;244;0;176;
14;0;0;9;7;0;6;0;176;18;0;0;13;0;0;0;128;0;0;176;14;0;0;9;49;0;2;0;176;66;0;0;61;0;0;0;128;3;0;190;
28;0;20;130;29;0;20;139;52;0;20;180;158;222;0;40;0;0;0;40;0;0;0;121;5;85;235;1;0;0;0;0;0;0;0;0;0;0;0;0;
0;0;0;0;0;0;0;0;0;0;0;0;0;0;0;0;0;0;0;0;0;0;0;0;0;0;0;0;0;0;0;0;0;0;0;0;0;0;0;0;
0;0;0;0;0;0;0;0;0;0;0;0;0;0;0;0;0;0;0;0;0;0;0;0;0;0;0;0;0;0;0;0;0;0;0;0;0;0;0;0;
0;0;0;0;0;0;0;0;0;0;0;0;0;0;0;0;0;0;0;0;0;0;0;0;0;0;0;0;0;0;0;0;0;0;0;0;0;0;0;0;
0;0;0;0;0;0;0;0;0;0;0;0;0;0;0;0;0;0;0;0;0;0;0;0;0;0;0;0;0;0;0;0;0;0;0;0;0;0;0;0;
0;0;0;0;0;0;0;0;0;0;0;0;0;0;0;0;0;0;0;0;0;0;0;0;0;0;0;0;0;0;0;0;0;0;0;0;0;0;0;0;
0;0;0;0;0;0;0;0;0;0;0;0;0;0;0;0;0;0;0;0;0;0;0;0;0;0;0;0;0;0;0;0;0;0;0;0;0;0;0;0;
0;0;0;0;0;0;0;0;0;0;0;0;0;0;0;0;0;0;0;0;0;0;0;0;0;0;0;0;0;0;0;0;0;0;0;0;0;0;0;0;
0;0;0;0;0;0;0;0;0;0;0;0;0;0;0;0;0;0;0;0;0;0;0;0;0;0;0;0;0;0;0;0;0;0;0;0;0;0;0;0;
0;0;0;0;0;0;0;0;0;0;0;0;0;0;0;0;0;0;0;0;0;0;0;0;0;0;0;0;0;0;0;0;0;0;0;0;0;0;0;0;
0;0;0;0;0;0;0;0;0;0;0;0;0;0;0;0;0;0;0;0;0;0;0;0;0;0;0;0;0;0;0;0;0;0;0;0;0;0;0;0;
0;0;0;0;0;0;0;0;0;0;0;0;0;0;0;0;0;0;0;0;0;0;0;0;0;0;0;0;0;0;0;0;0;0;0;0;0;0;0;0;
0;0;0;0;0;0;0;0;0;0;0;0;0;0;0;0;0;0;0;0;0;0;0;0;0;0;0;0;0;0;0;0;0;0;0;0;0;0;0;0;
0;0;0;0;0;0;0;0;0;0;0;0;0;0;0;0;0;0;0;0;0;0;0;0;0;0;0;0;0;0;0;0;0;0;0;0;0;0;0;0;
0;0;0;0;0;0;0;0;0;0;0;0;0;0;0;0;0;0;0;0;0;0;0;0;0;0;0;0;0;0;0;0;0;0;0;0;0;0;0;0;
0;0;0;0;0;0;0;0;0;0;0;0;0;0;0;0;0;0;0;0;0;0;0;0;0;0;0;0;0;0;0;0;0;0;0;0;0;0;0;0;
0;0;0;0;0;0;0;0;0;0;0;0;0;0;0;0;0;0;0;0;0;0;0;0;0;0;0;0;0;0;0;0;0;0;0;0;0;0;0;0;
0;0;0;0;0;0;0;0;0;0;0;0;0;0;0;0;0;0;0;0;0;0;0;0;0;0;0;0;0;0;0;0;0;0;0;0;0;0;0;0;
0;0;0;0;0;0;0;0;0;0;0;0;0;0;0;0;0;0;0;0;0;0;0;0;0;0;0;0;0;0;0;0;0;0;0;0;0;0;0;0;
0;0;0;0;0;0;0;0;0;0;0;0;0;0;0;0;0;0;0;0;0;0;0;0;0;0;0;0;0;0;0;0;0;0;0;0;0;0;0;0;
0;0;0;0;0;0;0;0;0;0;0;0;0;0;0;0;0;0;0;0;0;0;0;0;0;0;0;0;0;0;0;0;0;0;0;0;0;0;0;0;
0;0;0;0;0;0;0;0;0;0;0;0;0;0;0;0;0;0;0;0;0;0;0;0;0;0;0;0;0;0;0;0;0;0;0;0;0;0;0;0;
0;0;0;0;0;0;0;0;0;0;0;0;0;0;0;0;0;0;0;0;0;0;0;0;0;0;0;0;0;0;0;0;0;0;0;0;0;0;0;0;
0;0;0;0;0;0;0;0;0;0;0;0;0;0;0;0;0;0;0;0;0;0;0;0;0;0;0;0;0;0;0;0;0;0;0;0;0;0;0;0;
0;0;0;0;0;0;0;0;0;0;0;0;0;0;0;0;0;0;0;0;0;0;0;0;0;0;0;0;0;0;0;0;0;0;0;0;0;0;0;0;
0;0;0;0;0;0;0;0;0;0;0;0;0;0;0;0;0;0;0;0;0;0;0;0;0;0;0;0;0;0;0;0;0;0;0;0;0;0;0;0;
0;0;0;0;0;0;0;0;0;0;0;0;0;0;0;0;0;0;0;0;0;0;0;0;0;0;0;0;0;0;0;0;0;0;0;0;0;0;0;0;
0;0;0;0;0;0;0;0;0;0;0;0;0;0;0;0;0;0;0;0;0;0;0;0;0;0;0;0;0;0;0;0;0;0;0;0;0;0;0;0;
0;0;0;0;0;0;0;0;0;0;0;0;0;0;0;0;0;0;0;0;0;0;0;0;0;0;0;0;0;0;0;0;0;0;0;0;0;0;0;0;
0;0;0;0;0;0;0;0;0;0;0;0;0;0;0;0;0;0;0;0;0;0;0;0;0;0;0;0;0;0;0;0;0;0;0;0;0;0;0;0;
0;0;0;0;0;0;0;0;0;0;0;0;0;0;0;0;0;0;0;0;0;0;0;0;0;0;0;0;0;0;0;0;0;0;0;0;0;0;0;0;
0;0;0;0;0;0;0;0;0;0;0;0;0;0;0;0;0;0;0;0;0;0;0;0;0;0;0;0;0;0;0;0;0;0;0;0;0;0;0;0;
0;0;0;0;0;0;0;0;0;0;0;0;0;0;0;0;0;0;0;0;0;0;0;0;0;0;0;0;0;0;0;0;0;0;0;0;0;0;0;0;
0;0;0;0;0;0;0;0;0;0;0;0;0;0;0;0;0;0;0;0;0;0;0;0;0;0;0;0;0;0;0;0;0;0;0;0;0;0;0;0;
0;0;0;0;0;0;0;0;0;0;0;0;0;0;0;0;0;0;0;0;0;0;0;0;0;0;0;0;0;0;0;0;0;0;0;0;0;0;0;0;
0;0;0;0;0;0;0;0;0;0;0;0;0;0;0;0;0;0;0;0;0;0;0;0;0;0;0;0;0;0;0;0;0;0;0;0;0;0;0;0;
0;0;0;0;0;0;0;0;0;0;0;0;0;0;0;0;0;0;0;0;0;0;0;0;0;0;0;0;0;0;0;0;0;0;0;0;0;0;0;0;
0;0;0;0;0;0;0;0;0;0;0;0;0;0;0;0;0;0;0;0;0;0;0;0;0;0;0;0;0;0;0;0;0;0;0;0;0;0;0;0;
0;0;0;0;0;0;0;0;0;0;0;0;0;0;0;0;0;0;0;0;0;0;0;0;0;0;0;0;0;0;0;0;0;0;0;0;0;0;0;0;
0;0;0;0;0;0;0;0;0;0;0;0;0;0;0;0;0;0;0;0;0;0;0;0;0;0;0;0;0;0;0;0;0;0;0;0;0;0;0;0;
0;0;0;0;0;0;0;0;0;0;0;0;0;0;0;0;0;0;0;0;0;0;0;0;0;0;0;0;0;0;0;0;0;0;0;0;0;0;0;0;
0;0;0;0;0;0;0;0;0;0;0;0;0;0;0;0;0;0;0;0;0;0;0;0;0;0;0;0;0;0;0;0;0;0;0;0;0;0;0;0;
0;0;0;0;0;0;0;0;0;0;0;0;0;0;0;0;0;0;0;0;0;0;0;0;0;0;0;0;0;0;0;0;0;0;0;0;0;0;0;0;
0;0;0;0;0;0;0;0;0;0;0;0;0;0;0;0;0;0;0;0;0;0;0;0;0;0;0;0;0;0;0;0;0;0;0;0;0;0;0;0;
0;0;0;0;0;0;0;0;0;0;0;0;0;0;0;0;0;0;0;0;0;0;0;0;0;0;0;0;0;0;0;0;0;0;0;0;0;0;0;0;
0;0;0;0;0;0;0;0;0;0;0;0;0;0;0;0;0;0;0;0;0;0;0;0;0;0;0;0;0;0;0;0;0;0;0;0;0;0;0;0;
0;0;0;0;0;0;0;0;0;0;0;0;0;0;0;0;0;0;0;0;0;0;0;0;0;0;0;0;0;0;0;0;0;0;0;0;0;0;0;0;
0;0;0;0;0;0;0;0;0;0;0;0;0;0;0;0;0;0;0;0;0;0;0;0;0;0;0;0;0;0;0;0;0;0;0;0;0;0;0;0;
0;0;0;0;0;0;0;0;0;0;0;0;0;0;0;0;0;0;0;0;0;0;0;0;0;0;0;0;0;0;0;0;0;0;0;0;0;0;0;0;
0;0;0;0;0;0;0;0;0;0;0;0;0;0;0;0;0;0;0;0;0;0;0;0;0;0;0;0;0;0;0;0;0;0;0;0;0;0;0;0;
0;0;0;0;0;0;0;0;0;0;0;0;0;0;0;0;0;0;0;0;0;0;0;0;0;0;0;0;0;0;0;0;0;0;0;0;0;0;0;0;
0;0;0;0;0;0;0;0;0;0;0;0;0;0;0;0;0;0;0;0;0;0;0;0;0;0;0;0;0;0;0;0;0;0;0;0;0;0;0;0;
0;0;0;0;0;0;0;0;0;0;0;0;0;0;0;0;0;0;0;0;0;0;0;0;0;0;0;0;0;0;0;0;0;0;0;0;0;0;0;0;
0;0;0;0;0;0;0;0;0;0;0;0;0;0;0;0;0;0;0;0;0;0;0;0;0;0;0;0;0;0;0;0;0;0;0;0;0;0;0;0;
0;0;0;0;0;0;0;0;0;0;0;0;0;0;0;0;0;0;0;0;0;0;0;0;0;0;0;0;0;0;0;0;0;0;0;0;0;0;0;0;
0;0;0;0;0;0;0;0;0;0;0;0;0;0;0;0;0;0;0;0;0;0;0;0;0;0;0;0;0;0;0;0;0;0;0;0;0;0;0;0;
0;0;0;0;0;0;0;0;0;0;0;0;0;0;0;0;0;0;0;0;0;0;0;0;0;0;0;0;0;0;0;0;0;0;0;0;0;0;0;0;
0;0;0;0;0;0;0;0;0;0;0;0;0;0;0;0;0;0;0;0;0;0;0;0;0;0;0;0;0;0;0;0;0;0;0;0;0;0;0;0;
0;0;0;0;0;0;0;0;0;0;0;0;0;0;0;0;0;0;0;0;0;0;0;0;0;0;0;0;0;0;0;0;0;0;0;0;0;0;0;0;
0;0;0;0;0;0;0;0;0;0;0;0;0;0;0;0;0;0;0;0;0;0;0;0;0;0;0;0;0;0;0;0;0;0;0;0;0;0;0;0;
0;0;0;0;0;0;0;0;0;0;0;0;0;0;0;0;0;0;0;0;0;0;0;0;0;0;0;0;0;0;0;0;0;0;0;0;0;0;0;0;
0;0;0;0;0;0;0;0;0;0;0;0;0;0;0;0;0;0;0;0;0;0;0;0;0;0;0;0;0;0;0;0;0;0;0;0;0;0;0;0;
0;0;0;0;0;0;0;0;0;0;0;0;0;0;0;0;0;0;0;0;0;0;0;0;0;0;0;0;0;0;0;0;0;0;0;0;0;0;0;0;
0;0;0;0;0;0;0;0;0;0;0;0;0;0;0;0;0;0;0;0;0;0;0;0;0;0].

(** /repo/tests/samples/non-legacy/Open Notebook.onetoc2 *)
Definition sample_toc : list N := [
161;47;255;67;217;239;118;76;158;226;16;234;87;34;118;95;63;68;218;241;95;166;19;69;178;0;120;216;169;145;11;141;0;0;0;0;0;0;0;0;
0;0;0;0;0;0;0;0;63;221;154;16;27;145;245;73;165;208;23;145;237;200;174;216;27;0;0;0;27;0;0;0;27;0;0;0;27;0;0;0;
0;0;0;0;0;0;0;0;255;255;255;255;0;0;0;0;1;0;0;0;0;0;0;0;0;0;0;0;0;0;0;0;255;255;255;255;0;0;0;0;
0;0;0;0;0;0;0;0;0;0;0;0;0;0;0;0;0;0;0;0;0;0;0;0;63;168;149;162;255;255;255;255;255;255;255;255;0;0;0;0;
156;4;0;0;0;0;0;0;36;0;0;0;0;4;0;0;0;0;0;0;96;0;0;0;255;255;255;255;255;255;255;255;0;0;0;0;0;0;0;0;
0;0;0;0;0;0;0;0;0;0;0;0;55;102;153;249;213;240;30;79;138;109;108;250;162;142;186;44;1;0;0;0;0;0;0;0;0;0;0;0;
0;0;0;0;0;0;0;0;0;0;0;0;0;0;0;0;0;0;0;0;0;0;0;0;0;0;0;0;0;0;0;0;0;0;0;0;0;0;0;0;
5;0;160;140;5;0;160;140;5;0;160;140;5;0;160;140;0;0;0;0;0;0;0;0;0;0;0;0;0;0;0;0;0;0;0;0;0;0;0;0;
0;0;0;0;0;0;0;0;0;0;0;0;0;0;0;0;0;0;0;0;0;0;0;0;0;0;0;0;0;0;0;0;0;0;0;0;0;0;0;0;
0;0;0;0;0;0;0;0;0;0;0;0;0;0;0;0;0;0;0;0;0;0;0;0;0;0;0;0;0;0;0;0;0;0;0;0;0;0;0;0;
0;0;0;0;0;0;0;0;0;0;0;0;0;0;0;0;0;0;0;0;0;0;0;0;0;0;0;0;0;0;0;0;0;0;0;0;0;0;0;0;
0;0;0;0;0;0;0;0;0;0;0;0;0;0;0;0;0;0;0;0;0;0;0;0;0;0;0;0;0;0;0;0;0;0;0;0;0;0;0;0;
0;0;0;0;0;0;0;0;0;0;0;0;0;0;0;0;0;0;0;0;0;0;0;0;0;0;0;0;0;0;0;0;0;0;0;0;0;0;0;0;
0;0;0;0;0;0;0;0;0;0;0;0;0;0;0;0;0;0;0;0;0;0;0;0;0;0;0;0;0;0;0;0;0;0;0;0;0;0;0;0;
0;0;0;0;0;0;0;0;0;0;0;0;0;0;0;0;0;0;0;0;0;0;0;0;0;0;0;0;0;0;0;0;0;0;0;0;0;0;0;0;
0;0;0;0;0;0;0;0;0;0;0;0;0;0;0;0;0;0;0;0;0;0;0;0;0;0;0;0;0;0;0;0;0;0;0;0;0;0;0;0;
0;0;0;0;0;0;0;0;0;0;0;0;0;0;0;0;0;0;0;0;0;0;0;0;0;0;0;0;0;0;0;0;0;0;0;0;0;0;0;0;
0;0;0;0;0;0;0;0;0;0;0;0;0;0;0;0;0;0;0;0;0;0;0;0;0;0;0;0;0;0;0;0;0;0;0;0;0;0;0;0;
0;0;0;0;0;0;0;0;0;0;0;0;0;0;0;0;0;0;0;0;0;0;0;0;0;0;0;0;0;0;0;0;0;0;0;0;0;0;0;0;
0;0;0;0;0;0;0;0;0;0;0;0;0;0;0;0;0;0;0;0;0;0;0;0;0;0;0;0;0;0;0;0;0;0;0;0;0;0;0;0;
0;0;0;0;0;0;0;0;0;0;0;0;0;0;0;0;0;0;0;0;0;0;0;0;0;0;0;0;0;0;0;0;0;0;0;0;0;0;0;0;
0;0;0;0;0;0;0;0;0;0;0;0;0;0;0;0;0;0;0;0;0;0;0;0;0;0;0;0;0;0;0;0;0;0;0;0;0;0;0;0;
0;0;0;0;0;0;0;0;0;0;0;0;0;0;0;0;0;0;0;0;0;0;0;0;0;0;0;0;0;0;0;0;0;0;0;0;0;0;0;0;
0;0;0;0;0;0;0;0;0;0;0;0;0;0;0;0;0;0;0;0;0;0;0;0;0;0;0;0;0;0;0;0;0;0;0;0;0;0;0;0;
0;0;0;0;0;0;0;0;0;0;0;0;0;0;0;0;0;0;0;0;0;0;0;0;0;0;0;0;0;0;0;0;0;0;0;0;0;0;0;0;
0;0;0;0;0;0;0;0;0;0;0;0;0;0;0;0;0;0;0;0;0;0;0;0;196;244;247;245;177;122;86;164;10;0;0;0;0;0;0;0;
8;144;0;144;96;4;0;0;0;0;0;0;60;0;0;0;51;67;65;17;215;120;80;65;130;52;56;209;41;224;49;242;223;0;0;0;4;96;128;128;
51;67;65;17;215;120;80;65;130;52;56;209;41;224;49;242;223;0;0;0;255;255;255;255;255;255;255;255;0;0;0;0;75;186;51;130;195;21;194;139;
196;244;247;245;177;122;86;164;11;0;0;0;0;0;0;0;12;96;128;128;51;67;65;17;215;120;80;65;130;52;56;209;41;224;49;242;223;0;0;0;
255;255;255;255;255;255;255;255;0;0;0;0;75;186;51;130;195;21;194;139;10;0;0;0;2;0;0;0;11;0;0;0;1;0;0;0;1;0;0;0;
118;55;3;86;255;255;255;255;255;255;255;255;0;0;0;0;228;82;92;123;140;216;167;77;174;177;83;120;208;41;150;211;84;26;231;232;217;118;8;177;
139;61;228;193;194;252;18;118;84;26;231;232;217;118;8;177;139;61;228;193;194;252;18;118;47;233;141;99;212;166;193;75;154;54;179;252;37;17;165;183;
0;0;0;0;214;3;66;0;252;84;26;231;232;217;118;8;177;139;61;228;193;194;252;18;118;56;253;219;228;199;229;139;64;168;161;14;123;66;30;31;
95;172;2;0;12;94;128;7;25;93;110;10;102;145;72;133;227;68;95;119;139;165;54;0;177;4;0;128;66;33;62;70;241;65;92;249;2;203;8;32;
240;105;139;113;1;0;0;0;0;0;0;0;7;88;34;12;33;18;222;148;45;133;215;75;134;12;112;6;208;19;78;171;5;12;94;128;7;25;93;110;
10;102;145;72;133;227;68;95;119;139;165;54;2;177;4;0;128;66;33;62;70;241;65;92;249;2;203;8;32;240;105;139;113;2;0;0;0;0;0;0;
0;9;208;36;12;33;18;222;148;45;133;215;75;134;12;112;6;208;19;78;171;0;80;68;12;248;23;55;74;20;28;231;73;149;38;129;217;66;222;23;
65;12;26;11;118;180;223;251;227;74;157;8;83;33;157;138;141;33;200;34;12;87;22;32;215;17;209;202;74;146;43;54;211;203;98;136;249;5;12;88;
224;55;32;99;216;132;44;167;135;77;174;237;180;238;82;41;163;62;128;66;33;62;70;241;65;92;249;2;203;8;32;240;105;139;113;3;0;0;0;0;
0;0;0;5;96;32;56;253;219;228;199;229;139;64;168;161;14;123;66;30;31;95;56;102;12;156;49;90;26;107;194;170;65;185;197;155;216;196;78;7;
212;12;185;250;222;132;163;170;13;74;163;168;82;12;119;172;112;115;12;243;76;30;17;239;127;135;64;175;106;185;84;74;205;51;77;56;104;20;185;250;
222;132;163;170;13;74;163;168;82;12;119;172;112;115;12;185;250;222;132;163;170;13;74;163;168;82;12;119;172;112;115;224;55;51;67;65;17;215;120;80;
65;130;52;56;209;41;224;49;242;5;12;86;252;84;26;231;232;217;118;8;177;139;61;228;193;194;252;18;118;128;66;33;62;70;241;65;92;249;2;203;
8;32;240;105;139;113;4;0;0;0;0;0;0;0;3;136;86;224;55;32;99;216;132;44;167;135;77;174;237;180;238;82;41;163;62;128;84;26;231;232;
217;118;8;177;139;61;228;193;194;252;18;118;1;0;0;0;0;0;0;0;104;126;12;33;18;222;148;45;133;215;75;134;12;112;6;208;19;78;171;128;
7;25;93;110;10;102;145;72;133;227;68;95;119;139;165;54;2;177;4;0;128;84;26;231;232;217;118;8;177;139;61;228;193;194;252;18;118;2;0;0;
0;0;0;0;0;112;160;12;185;250;222;132;163;170;13;74;163;168;82;12;119;172;112;115;12;243;76;30;17;239;127;135;64;175;106;185;84;74;205;51;
77;128;7;25;93;110;10;102;145;72;133;227;68;95;119;139;165;54;0;177;4;0;128;84;26;231;232;217;118;8;177;139;61;228;193;194;252;18;118;3;
0;0;0;0;0;0;0;112;154;12;185;250;222;132;163;170;13;74;163;168;82;12;119;172;112;115;224;55;51;67;65;17;215;120;80;65;130;52;56;209;
41;224;49;242;12;149;66;44;226;251;244;72;162;132;86;244;116;135;16;21;11;128;84;26;231;232;217;118;8;177;139;61;228;193;194;252;18;118;4;0;
0;0;0;0;0;0;104;118;12;96;74;96;185;177;45;73;233;178;16;38;146;143;75;235;113;12;119;140;126;246;196;64;74;16;189;114;180;121;75;165;
165;0;128;84;26;231;232;217;118;8;177;139;61;228;193;194;252;18;118;5;0;0;0;0;0;0;0;5;12;86;12;87;22;32;215;17;209;202;74;146;
43;54;211;203;98;136;249;128;66;33;62;70;241;65;92;249;2;203;8;32;240;105;139;113;5;0;0;0;0;0;0;0;11;236;0;192;42;12;26;11;
118;180;223;251;227;74;157;8;83;33;157;138;141;33;9;9;0;0;192;42;12;26;11;118;180;223;251;227;74;157;8;83;33;157;138;141;33;3;125;0;
0;117;244;0;176;14;0;0;9;1;0;2;0;176;130;0;0;125;0;0;0;128;3;0;147;29;0;20;148;29;0;28;149;29;0;28;63;168;149;162;
16;0;0;0;63;68;218;241;95;166;19;69;178;0;120;216;169;145;11;141;16;0;0;0;0;0;0;0;0;0;0;0;0;0;0;0;0;0;0;0;
121;5;12;86;12;119;140;126;246;196;64;74;16;189;114;180;121;75;165;165;0;128;66;33;62;70;241;65;92;249;2;203;8;32;240;105;139;113;6;0;
0;0;0;0;0;0;9;208;36;12;96;74;96;185;177;45;73;233;178;16;38;146;143;75;235;113;0;80;70;12;248;23;55;74;20;28;231;73;149;38;
129;217;66;222;23;65;224;49;136;201;106;162;154;124;2;75;177;224;43;150;92;157;164;204;200;34;12;148;74;206;218;50;234;69;26;188;72;140;186;232;
247;247;100;200;34;12;121;81;14;70;177;78;66;149;172;120;236;109;134;23;104;106;5;12;86;12;121;81;14;70;177;78;66;149;172;120;236;109;134;23;
104;106;128;66;33;62;70;241;65;92;249;2;203;8;32;240;105;139;113;7;0;0;0;0;0;0;0;11;236;0;192;42;84;123;213;21;217;207;230;69;
175;166;4;139;231;211;196;214;226;9;9;0;0;192;42;84;123;213;21;217;207;230;69;175;166;4;139;231;211;196;214;226;3;193;0;0;192;44;224;48;
136;201;106;162;154;124;2;75;177;224;43;150;92;157;164;204;9;9;0;0;192;44;224;48;136;201;106;162;154;124;2;75;177;224;43;150;92;157;164;204;
3;189;0;0;192;44;32;49;136;201;106;162;154;124;2;75;177;224;43;150;92;157;164;204;9;9;0;0;192;44;32;49;136;201;106;162;154;124;2;75;
177;224;43;150;92;157;164;204;3;193;0;0;117;244;0;176;14;0;0;9;1;0;2;0;176;198;0;0;193;0;0;0;128;4;0;148;29;0;28;185;
28;0;20;107;29;0;28;190;28;0;20;16;0;0;0;21;153;168;38;97;104;68;155;133;106;182;41;108;248;148;175;1;0;0;0;40;0;0;0;78;
0;101;0;119;0;32;0;83;0;101;0;99;0;116;0;105;0;111;0;110;0;32;0;49;0;32;0;50;0;46;0;111;0;110;0;101;0;0;0;255;
255;255;255;0;0;176;14;0;0;9;1;0;2;0;176;194;0;0;189;0;0;0;128;4;0;148;29;0;28;107;29;0;28;185;28;0;20;190;28;0;
20;16;0;0;0;10;221;117;5;18;86;70;215;184;43;152;63;122;128;178;130;40;0;0;0;78;0;101;0;119;0;32;0;83;0;101;0;99;0;116;
0;105;0;111;0;110;0;32;0;49;0;32;0;50;0;46;0;111;0;110;0;101;0;0;0;0;0;0;0;138;168;228;0;176;14;0;0;9;1;0;
2;0;176;198;0;0;193;0;0;0;128;4;0;148;29;0;28;107;29;0;28;185;28;0;20;190;28;0;20;16;0;0;0;235;72;180;17;243;235;13;
77;147;71;106;21;253;234;127;8;36;0;0;0;78;0;101;0;119;0;32;0;83;0;101;0;99;0;116;0;105;0;111;0;110;0;32;0;50;0;46;
0;111;0;110;0;101;0;0;0;2;0;0;0;255;255;255;255;0;0;0;0;0;0;121;5;12;86;12;148;74;206;218;50;234;69;26;188;72;140;186;
232;247;247;100;128;66;33;62;70;241;65;92;249;2;203;8;32;240;105;139;113;8;0;0;0;0;0;0;0;11;236;0;192;42;84;138;24;177;221;103;
85;74;56;136;174;230;76;117;171;52;225;9;9;0;0;192;42;84;138;24;177;221;103;85;74;56;136;174;230;76;117;171;52;225;3;193;0;0;192;42;
92;123;213;21;217;207;230;69;175;166;4;139;231;211;196;214;226;9;9;0;0;192;42;92;123;213;21;217;207;230;69;175;166;4;139;231;211;196;214;226;
3;177;0;0;192;42;100;123;213;21;217;207;230;69;175;166;4;139;231;211;196;214;226;9;9;0;0;192;42;100;123;213;21;217;207;230;69;175;166;4;
139;231;211;196;214;226;3;177;0;0;192;44;224;49;136;201;106;162;154;124;2;75;177;224;43;150;92;157;164;204;9;9;0;0;192;44;224;49;136;201;
106;162;154;124;2;75;177;224;43;150;92;157;164;204;3;113;13;0;117;244;0;176;14;0;0;9;1;0;2;0;176;198;0;0;193;0;0;0;128;4;
0;148;29;0;28;185;28;0;20;107;29;0;28;190;28;0;20;16;0;0;0;175;119;11;118;0;204;74;164;159;99;139;181;53;14;18;160;3;0;0;
0;36;0;0;0;78;0;101;0;119;0;32;0;83;0;101;0;99;0;116;0;105;0;111;0;110;0;32;0;51;0;46;0;111;0;110;0;101;0;0;
0;255;255;255;255;0;0;0;0;0;0;176;14;0;0;9;1;0;2;0;176;182;0;0;177;0;0;0;128;3;0;148;29;0;28;185;28;0;20;107;
29;0;28;16;0;0;0;124;122;207;161;124;73;76;224;138;228;200;175;11;40;247;144;4;0;0;0;36;0;0;0;78;0;101;0;119;0;32;0;83;
0;101;0;99;0;116;0;105;0;111;0;110;0;32;0;71;0;114;0;111;0;117;0;112;0;0;0;0;0;0;0;0;0;176;14;0;0;9;1;0;
2;0;176;182;0;0;177;0;0;0;128;3;0;148;29;0;28;185;28;0;20;107;29;0;28;16;0;0;0;252;212;154;149;178;183;74;200;141;27;106;
158;196;137;60;177;5;0;0;0;38;0;0;0;79;0;110;0;101;0;78;0;111;0;116;0;101;0;95;0;82;0;101;0;99;0;121;0;99;0;108;
0;101;0;66;0;105;0;110;0;0;0;0;0;0;0;176;14;0;0;9;1;0;2;0;178;0;70;1;13;224;48;136;201;106;162;154;124;2;75;177;
224;43;150;92;157;164;204;32;49;136;201;106;162;154;124;2;75;177;224;43;150;92;157;164;204;84;123;213;21;217;207;230;69;175;166;4;139;231;211;196;
214;226;92;123;213;21;217;207;230;69;175;166;4;139;231;211;196;214;226;100;123;213;21;217;207;230;69;175;166;4;139;231;211;196;214;226;84;138;24;177;
221;103;85;74;56;136;174;230;76;117;171;52;225;0;113;6;0;0;128;195;0;0;0;196;0;0;0;10;1;0;0;11;1;0;0;12;1;0;0;10;
2;0;0;3;0;246;28;0;36;30;30;0;136;190;28;0;20;6;0;0;0;155;187;210;0;0;0;0;0;0;0;121;5;12;86;12;149;66;44;226;
251;244;72;162;132;86;244;116;135;16;21;11;128;66;33;62;70;241;65;92;249;2;203;8;32;240;105;139;113;9;0;0;0;0;0;0;0;7;88;34;
12;96;74;96;185;177;45;73;233;178;16;38;146;143;75;235;113;5;85;235;1;0;0;0;0;0;0;0;0;0;0;0;0;0;0;0;0;0;0;0;
0;0;0;0;0;0;0;0;0;0;0;0;0;0;0;0;0;0;0;0;0;0;0;0;0;0;0;0;0;0;0;0;0;0;0;0;0;0;0;0;
0;0;0;0;0;0;0;0;0;0;0;0;0;0;0;0;0;0;0;0;0;0;0;0;0;0;0;0;0;0;0;0;0;0;0;0;0;0;0;0;
0;0;0;0;0;0;0;0;0;0;0;0;0;0;0;0;0;0;0;0;0;0;0;0;0;0;0;0;0;0;0;0;0;0;0;0;0;0;0;0;
0;0;0;0;0;0;0;0;0;0;0;0;0;0;0;0;0;0;0;0;0;0;0;0;0;0;0;0;0;0;0;0;0;0;0;0;0;0;0;0;
0;0;0;0;0;0;0;0;0;0;0;0;0;0;0;0;0;0;0;0;0;0;0;0;0;0;0;0;0;0;0;0;0;0;0;0;0;0;0;0;
0;0;0;0;0;0;0;0;0;0;0;0;0;0;0;0;0;0;0;0;0;0;0;0;0;0;0;0;0;0;0;0;0;0;0;0;0;0;0;0;
0;0;0;0;0;0;0;0;0;0;0;0;0;0;0;0;0;0;0;0;0;0;0;0;0;0;0;0;0;0;0;0;0;0;0;0;0;0;0;0;
0;0;0;0;0;0;0;0;0;0;0;0;0;0;0;0;0;0;0;0;0;0;0;0;0;0;0;0;0;0;0;0;0;0;0;0;0;0;0;0;
0;0;0;0;0;0;0;0;0;0;0;0;0;0;0;0;0;0;0;0;0;0;0;0;0;0;0;0;0;0;0;0;0;0;0;0;0;0;0;0;
0;0;0;0;0;0;0;0;0;0;0;0;0;0;0;0;0;0;0;0;0;0;0;0;0;0;0;0;0;0;0;0;0;0;0;0;0;0;0;0;
0;0;0;0;0;0;0;0;0;0;0;0;0;0;0;0;0;0;0;0;0;0;0;0;0;0;0;0;0;0;0;0;0;0;0;0;0;0;0;0;
0;0;0;0;0;0;0;0;0;0;0;0;0;0;0;0;0;0;0;0;0;0;0;0;0;0;0;0;0;0;0;0;0;0;0;0;0;0;0;0;
0;0;0;0;0;0;0;0;0;0;0;0;0;0;0;0;0;0;0;0;0;0;0;0;0;0;0;0;0;0;0;0;0;0;0;0;0;0;0;0;
0;0;0;0;0;0;0;0;0;0;0;0;0;0;0;0;0;0;0;0;0;0;0;0;0;0;0;0;0;0;0;0;0;0;0;0;0;0;0;0;
0;0;0;0;0;0;0;0;0;0;0;0;0;0;0;0;0;0;0;0;0;0;0;0;0;0;0;0;0;0;0;0;0;0;0;0;0;0;0;0;
0;0;0;0;0;0;0;0;0;0;0;0;0;0;0;0;0;0;0;0;0;0;0;0;0;0;0;0;0;0;0;0;0;0;0;0;0;0;0;0;
0;0;0;0;0;0;0;0;0;0;0;0;0;0;0;0;0;0;0;0;0;0;0;0;0;0;0;0;0;0;0;0;0;0;0;0;0;0;0;0;
0;0;0;0;0;0;0;0;0;0;0;0;0;0;0;0;0;0;0;0;0;0;0;0;0;0;0;0;0;0;0;0;0;0;0;0;0;0;0;0;
0;0;0;0;0;0;0;0;0;0;0;0;0;0;0;0;0;0;0;0;0;0;0;0;0;0;0;0;0;0;0;0;0;0;0;0;0;0;0;0;
0;0;0;0;0;0;0;0;0;0;0;0;0;0;0;0;0;0;0;0;0;0;0;0;0;0;0;0;0;0;0;0;0;0;0;0;0;0;0;0;
0;0;0;0;0;0;0;0;0;0;0;0;0;0;0;0;0;0;0;0;0;0;0;0;0;0;0;0;0;0;0;0;0;0;0;0;0;0;0;0;
0;0;0;0;0;0;0;0;0;0;0;0;0;0;0;0;0;0;0;0;0;0;0;0;0;0;0;0;0;0;0;0;0;0;0;0;0;0;0;0;
0;0;0;0;0;0;0;0;0;0;0;0;0;0;0;0;0;0;0;0;0;0;0;0;0;0;0;0;0;0;0;0;0;0;0;0;0;0;0;0;
0;0;0;0;0;0;0;0;0;0;0;0;0;0;0;0;0;0;0;0;0;0;0;0;0;0;0;0;0;0;0;0;0;0;0;0;0;0;0;0;
0;0;0;0;0;0;0;0;0;0;0;0;0;0;0;0;0;0;0;0;0;0;0;0;0;0;0;0;0;0].
