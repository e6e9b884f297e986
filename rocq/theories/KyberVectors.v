(** Self-test vectors of ML-KEM, copied from /repo/ml-kem/src/kyber_selftest_vector_{512,768,1024}.h (first entry
    pk, sk, ct, ss; second entry ct, ss: implicit rejection). *)
From Verif Require Import Bytes.

Definition v512_pk : list Z :=
  [194;154;198;108;132;190;227;241;41;80;140;43;140;121;12;153;165;202;65;229;112;126;155;140;117;192;77;126;168;164;
   129;152;10;53;139;6;106;74;126;40;209;93;16;55;79;117;195;61;166;2;156;212;144;116;111;181;95;95;234;178;206;130;
   61;236;24;48;192;193;142;248;155;163;204;59;206;77;37;42;7;164;13;64;26;76;141;39;54;24;181;149;219;33;202;74;149;
   158;180;209;51;85;104;1;178;183;130;84;178;181;149;92;4;0;150;45;187;90;72;122;170;36;164;48;182;20;226;175;147;56;
   175;212;176;51;155;216;48;169;203;118;29;177;168;50;32;53;45;213;35;184;165;131;2;44;161;62;36;101;6;84;140;87;186;
   56;80;172;92;80;216;100;226;212;139;137;105;66;119;204;122;129;116;173;123;27;162;238;98;29;87;210;155;35;194;45;
   248;49;135;32;81;20;93;37;53;219;176;37;226;156;109;163;140;180;117;149;142;42;136;8;164;49;190;213;180;134;130;26;
   21;19;167;41;205;151;155;108;139;56;37;3;207;83;51;118;22;225;5;157;220;89;151;114;25;210;241;123;50;172;171;190;
   134;196;104;193;38;123;43;134;42;197;101;167;226;50;38;108;131;252;112;12;218;25;182;22;55;115;137;66;142;98;97;76;
   214;172;159;8;251;18;210;24;39;254;179;36;177;75;193;108;192;194;9;4;179;151;59;157;254;96;175;87;119;118;68;154;
   195;78;176;9;137;229;168;118;20;59;201;185;48;163;194;165;187;134;18;8;242;37;221;151;98;91;179;107;45;136;16;208;
   69;46;69;137;104;185;12;106;109;151;194;223;202;115;65;213;60;116;26;96;226;185;19;133;200;107;179;177;190;95;16;
   112;140;84;106;230;49;130;9;186;38;141;210;180;227;228;114;39;97;73;26;226;21;96;2;72;231;84;30;96;128;184;101;244;
   74;22;156;2;165;179;116;241;250;85;2;51;55;83;151;156;157;167;84;82;196;129;74;139;143;214;130;184;224;55;6;153;41;
   107;194;244;45;56;229;162;222;146;197;245;246;31;36;182;94;27;155;117;36;155;135;89;112;135;6;100;0;0;180;144;147;
   118;131;225;204;187;243;154;11;174;203;30;221;98;130;103;33;82;75;204;77;59;240;111;142;90;179;104;170;66;110;180;
   44;112;24;57;232;187;204;105;219;204;210;117;127;132;198;10;64;155;102;41;217;141;201;41;71;54;124;82;240;105;140;
   60;65;192;17;16;186;251;235;6;33;204;23;81;112;55;95;130;80;192;246;36;6;227;46;16;114;91;71;227;193;101;132;90;
   122;218;143;178;197;85;85;245;204;134;2;36;111;224;111;135;90;110;181;201;69;157;209;146;146;66;132;146;167;103;56;
   184;5;126;132;200;225;20;54;196;235;120;142;73;78;57;82;101;126;211;49;162;228;164;125;117;73;35;101;196;115;244;
   132;32;5;2;134;140;115;59;185;178;179;228;74;242;201;138;223;185;26;78;26;20;78;236;90;50;210;79;19;199;135;117;
   242;6;215;169;77;238;18;0;127;119;142;72;74;20;48;102;107;254;218;109;187;49;183;87;215;43;92;121;164;105;82;47;
   230;89;154;187;69;181;44;198;64;60;73;112;246;86;132;187;119;12;167;136;147;186;67;144;87;1;54;85;48;156;216;76;82;
   76;156;165;88;227;97;32;65;183;178;2;110;33;135;89;138;251;70;241;212;202;133;9;109;188;155;204;28;37;119;157;251;
   96;112;82;225;22;73;187;127;95;114;104;249;121;196;216;20;10;254;108;229;56;48;243;134;2;41;13;117;20;39;240;123;
   39].
Definition v512_sk : list Z :=
  [124;241;8;199;90;77;53;146;5;61;12;167;156;229;39;236;23;52;247;2;54;86;226;98;83;226;191;198;137;96;222;167;61;40;
   215;169;130;21;151;180;139;69;4;131;126;39;19;44;142;188;72;80;83;3;174;181;104;249;209;146;143;114;68;207;152;180;
   168;136;67;197;219;105;132;90;191;196;228;6;131;220;163;189;230;148;68;92;99;204;81;43;210;228;96;142;145;165;105;
   119;56;187;202;59;9;169;141;164;151;87;173;101;192;133;18;93;17;208;17;120;209;90;203;37;31;65;124;190;255;42;42;
   193;176;93;199;8;57;255;178;151;190;32;81;82;233;131;113;116;93;231;98;67;211;163;2;223;218;127;22;245;168;240;210;
   183;48;33;167;245;192;73;15;246;181;164;18;88;67;136;147;100;40;139;237;228;48;131;92;206;91;248;184;99;119;19;42;
   234;60;237;145;19;17;164;59;135;225;10;228;113;180;159;26;49;182;54;206;93;124;65;93;124;23;83;149;117;114;76;49;
   102;171;35;202;24;63;153;98;160;177;113;144;243;220;32;77;194;85;30;236;35;75;124;78;41;138;78;96;241;93;78;64;188;
   175;27;160;234;168;6;226;20;189;160;160;176;224;245;27;52;116;94;20;130;144;226;34;164;73;108;148;103;102;2;156;
   216;41;100;66;159;216;90;48;238;60;12;109;234;78;107;200;64;35;124;56;216;233;182;168;147;112;36;68;191;238;247;
   131;161;4;168;180;107;131;9;169;20;203;170;168;206;201;192;139;181;74;60;252;26;34;197;169;209;184;118;133;163;4;
   23;216;70;213;226;34;66;232;192;200;49;108;183;241;88;50;183;11;75;188;69;59;182;116;133;227;76;135;217;162;212;
   178;148;210;87;169;141;134;74;250;180;69;174;166;191;72;48;64;77;23;12;167;72;76;199;153;183;58;227;206;55;92;58;
   19;209;49;139;210;145;88;98;3;40;200;188;34;216;18;210;105;200;236;19;60;228;249;119;189;149;48;0;84;181;239;36;
   107;176;134;166;211;52;5;117;70;65;131;225;13;177;161;38;248;26;67;210;248;0;233;98;86;141;227;65;21;21;185;13;193;
   37;100;70;207;143;195;49;73;230;106;134;87;194;33;51;94;181;122;140;166;38;43;6;152;26;3;40;35;34;44;157;162;40;53;
   39;16;51;33;43;78;157;81;97;50;164;40;112;155;88;130;171;135;100;119;24;50;150;141;199;60;76;210;65;173;177;69;181;
   230;84;179;139;171;3;227;82;79;17;53;37;221;10;99;232;241;149;252;235;38;184;176;48;99;196;134;52;89;204;16;197;
   136;76;172;1;110;235;183;175;162;81;155;39;41;59;132;94;126;137;62;112;187;33;208;224;4;241;208;80;21;220;113;252;
   246;177;80;199;80;170;152;201;111;137;200;218;25;158;239;193;113;44;64;155;200;51;168;77;64;74;215;44;135;59;249;
   16;201;25;6;69;185;77;210;163;19;71;89;96;41;210;42;189;7;31;83;135;88;138;153;23;254;228;179;61;27;188;250;24;88;
   57;6;98;182;86;192;159;248;36;237;23;122;191;68;161;24;183;199;139;186;150;185;249;181;163;165;78;89;120;41;190;
   104;104;104;229;70;63;153;190;88;218;11;231;136;101;1;115;14;1;226;106;173;5;53;137;102;22;217;129;37;195;139;62;
   183;120;17;65;118;177;189;73;142;189;146;181;189;10;152;160;163;159;119;181;153;195;230;62;102;251;98;22;123;6;194;
   154;198;108;132;190;227;241;41;80;140;43;140;121;12;153;165;202;65;229;112;126;155;140;117;192;77;126;168;164;129;
   152;10;53;139;6;106;74;126;40;209;93;16;55;79;117;195;61;166;2;156;212;144;116;111;181;95;95;234;178;206;130;61;
   236;24;48;192;193;142;248;155;163;204;59;206;77;37;42;7;164;13;64;26;76;141;39;54;24;181;149;219;33;202;74;149;158;
   180;209;51;85;104;1;178;183;130;84;178;181;149;92;4;0;150;45;187;90;72;122;170;36;164;48;182;20;226;175;147;56;175;
   212;176;51;155;216;48;169;203;118;29;177;168;50;32;53;45;213;35;184;165;131;2;44;161;62;36;101;6;84;140;87;186;56;
   80;172;92;80;216;100;226;212;139;137;105;66;119;204;122;129;116;173;123;27;162;238;98;29;87;210;155;35;194;45;248;
   49;135;32;81;20;93;37;53;219;176;37;226;156;109;163;140;180;117;149;142;42;136;8;164;49;190;213;180;134;130;26;21;
   19;167;41;205;151;155;108;139;56;37;3;207;83;51;118;22;225;5;157;220;89;151;114;25;210;241;123;50;172;171;190;134;
   196;104;193;38;123;43;134;42;197;101;167;226;50;38;108;131;252;112;12;218;25;182;22;55;115;137;66;142;98;97;76;214;
   172;159;8;251;18;210;24;39;254;179;36;177;75;193;108;192;194;9;4;179;151;59;157;254;96;175;87;119;118;68;154;195;
   78;176;9;137;229;168;118;20;59;201;185;48;163;194;165;187;134;18;8;242;37;221;151;98;91;179;107;45;136;16;208;69;
   46;69;137;104;185;12;106;109;151;194;223;202;115;65;213;60;116;26;96;226;185;19;133;200;107;179;177;190;95;16;112;
   140;84;106;230;49;130;9;186;38;141;210;180;227;228;114;39;97;73;26;226;21;96;2;72;231;84;30;96;128;184;101;244;74;
   22;156;2;165;179;116;241;250;85;2;51;55;83;151;156;157;167;84;82;196;129;74;139;143;214;130;184;224;55;6;153;41;
   107;194;244;45;56;229;162;222;146;197;245;246;31;36;182;94;27;155;117;36;155;135;89;112;135;6;100;0;0;180;144;147;
   118;131;225;204;187;243;154;11;174;203;30;221;98;130;103;33;82;75;204;77;59;240;111;142;90;179;104;170;66;110;180;
   44;112;24;57;232;187;204;105;219;204;210;117;127;132;198;10;64;155;102;41;217;141;201;41;71;54;124;82;240;105;140;
   60;65;192;17;16;186;251;235;6;33;204;23;81;112;55;95;130;80;192;246;36;6;227;46;16;114;91;71;227;193;101;132;90;
   122;218;143;178;197;85;85;245;204;134;2;36;111;224;111;135;90;110;181;201;69;157;209;146;146;66;132;146;167;103;56;
   184;5;126;132;200;225;20;54;196;235;120;142;73;78;57;82;101;126;211;49;162;228;164;125;117;73;35;101;196;115;244;
   132;32;5;2;134;140;115;59;185;178;179;228;74;242;201;138;223;185;26;78;26;20;78;236;90;50;210;79;19;199;135;117;
   242;6;215;169;77;238;18;0;127;119;142;72;74;20;48;102;107;254;218;109;187;49;183;87;215;43;92;121;164;105;82;47;
   230;89;154;187;69;181;44;198;64;60;73;112;246;86;132;187;119;12;167;136;147;186;67;144;87;1;54;85;48;156;216;76;82;
   76;156;165;88;227;97;32;65;183;178;2;110;33;135;89;138;251;70;241;212;202;133;9;109;188;155;204;28;37;119;157;251;
   96;112;82;225;22;73;187;127;95;114;104;249;121;196;216;20;10;254;108;229;56;48;243;134;2;41;13;117;20;39;240;123;
   39;205;169;61;236;76;77;196;216;72;68;87;253;136;35;153;196;185;24;196;159;168;56;154;29;250;140;159;146;243;155;0;
   207;60;177;238;169;136;0;75;147;16;60;251;10;238;253;42;104;110;1;250;74;88;232;163;99;156;168;161;227;249;174;87;
   226].
Definition v512_ct : list Z :=
  [90;100;81;32;184;120;147;109;32;46;252;72;81;243;142;107;182;87;60;59;20;176;185;187;68;191;55;45;139;26;168;3;74;
   159;26;21;132;7;111;10;56;232;154;157;73;165;11;121;42;206;117;132;152;27;232;226;57;39;45;238;249;20;65;143;239;
   226;218;217;125;192;236;32;207;232;169;89;155;155;190;62;204;233;31;151;225;12;217;239;44;73;80;227;234;60;70;254;
   72;30;176;210;72;120;196;98;74;211;68;240;220;152;99;231;209;112;147;122;140;236;198;247;208;15;149;101;82;157;87;
   41;89;204;73;208;247;4;47;244;59;125;29;113;239;210;47;38;84;225;78;120;195;31;52;162;106;229;59;6;122;224;56;10;
   101;167;50;69;149;3;218;94;148;6;213;10;112;227;213;235;219;243;201;192;28;173;28;192;1;235;230;158;108;255;32;230;
   76;229;200;2;182;145;88;126;64;76;246;239;162;121;154;47;253;53;52;146;167;95;14;46;165;42;151;78;5;69;160;134;163;
   189;20;182;144;69;35;129;64;167;32;11;16;195;39;108;198;178;166;124;23;63;124;26;214;69;69;173;184;235;223;120;53;
   233;170;31;84;246;137;19;105;152;143;54;37;196;95;47;236;141;154;7;185;17;211;43;166;157;159;245;215;79;16;166;128;
   139;37;163;200;23;9;148;91;242;19;195;69;13;116;72;31;6;80;66;24;107;13;54;251;85;39;17;98;223;175;65;229;22;164;8;
   248;60;202;190;138;11;167;239;250;22;248;143;109;125;189;182;78;96;140;143;24;214;134;199;229;213;72;215;55;17;111;
   165;98;220;118;231;153;74;134;55;74;156;133;184;177;124;79;2;95;162;58;77;225;169;151;168;126;90;101;245;197;56;
   103;114;73;31;216;209;7;49;245;245;170;96;54;111;254;63;210;9;203;123;122;134;21;50;10;208;114;143;65;232;18;189;
   136;210;214;16;71;83;145;126;137;225;202;15;16;23;124;245;218;176;64;228;102;144;139;39;68;98;21;112;155;9;18;151;
   44;66;140;77;154;173;148;50;217;161;89;6;156;150;21;64;1;203;11;228;222;89;126;152;113;176;75;221;170;69;57;248;56;
   188;18;171;10;62;167;232;200;72;27;205;252;193;131;67;105;252;240;97;247;197;153;239;220;79;108;67;65;2;153;20;70;
   174;161;40;129;225;99;253;78;230;196;88;184;46;66;117;159;139;17;176;97;44;18;213;167;119;172;244;199;205;210;111;
   183;218;11;144;152;220;74;249;71;4;218;165;41;148;90;177;105;205;178;45;57;102;252;210;105;80;226;65;140;172;155;
   199;220;50;196;166;4;243;104;240;248;169;199;221;206;139;94;71;107;38;179;49;22;214;7;223;27;73;194;5;173;160;210;
   234;90;90;100;238;203;34;84;157;223;24;160;218;237;46;93;68;203;97;116;185;120;18;54;238;225;31;149;171;12;69;131;
   107;202;252;115;175;59;236;17;68;11;193;198;5;102;158;176;25;207;172;0;151;148;60;242;155;191;252;224;248;35;41;61;
   166;35;229;250;109;42;126;224;199;180;80;117;150;166;46;244;107;190;78;27;99;204;150;186;152;120;167;179;159;132;
   181;157;211;54;241;101;154;36;203;179;48;21;213;21;233;232;14;62;121;2;177;213;131;248;238;151;21;60;216;186;31;
   173;235;158;231;226;242;194;61;254;232;90;80;213;195;85;75;121;146;42;69;55;214;220;79;9;65;141;253;215;68;89;108;
   191;104].
Definition v512_ss : list Z :=
  [34;29;125;134;1;22;89;49;60;131;206;63;208;171;38;121;126;242;23;225;29;31;11;199;110;121;82;251;229;42;10;88].
Definition v512_ct1 : list Z :=
  [90;100;81;32;184;120;147;109;32;46;252;72;81;243;142;107;182;87;60;59;20;176;185;187;68;191;55;45;139;26;168;3;74;
   159;26;21;132;7;111;10;56;232;154;157;73;165;11;121;42;206;117;132;152;27;232;226;57;39;45;238;249;20;65;143;239;
   226;218;217;125;192;236;32;207;232;169;89;155;155;190;62;204;233;31;151;225;12;217;239;44;73;80;227;234;60;70;254;
   72;30;176;210;72;120;196;98;74;211;68;240;220;152;99;231;209;112;147;122;140;236;198;247;208;15;149;101;82;157;87;
   41;89;204;73;208;247;4;47;244;59;125;29;113;239;210;47;38;84;225;78;120;195;31;52;162;106;229;59;6;122;224;56;10;
   101;167;50;69;149;3;218;94;148;6;213;10;112;227;213;235;219;243;201;192;28;173;28;192;1;235;230;158;108;255;32;230;
   76;229;200;2;182;145;88;126;64;76;246;239;162;121;154;47;253;53;52;146;167;95;14;46;165;42;151;78;5;69;160;134;163;
   189;20;182;144;69;35;129;64;167;32;11;16;195;39;108;198;178;166;124;23;63;124;26;214;69;69;173;184;235;223;120;53;
   233;170;31;84;246;137;19;105;152;143;54;37;196;95;47;236;141;154;7;185;17;211;43;166;157;159;245;215;79;16;166;128;
   139;37;163;200;23;9;148;91;242;19;195;69;13;116;72;31;6;80;66;24;107;13;54;251;85;39;17;98;223;175;65;229;22;164;8;
   248;60;202;190;138;11;167;239;250;22;248;143;109;125;189;182;78;96;140;143;24;214;134;199;229;213;72;215;55;17;111;
   165;98;220;118;231;153;74;134;55;74;156;133;184;177;124;79;2;95;162;58;77;225;169;151;168;126;90;101;245;197;56;
   103;114;73;31;216;209;7;49;245;245;170;96;54;111;254;63;210;9;203;123;122;134;21;50;10;208;114;143;65;232;18;189;
   136;210;214;16;71;83;145;126;137;225;202;15;16;23;124;245;218;176;64;228;102;144;139;39;68;98;21;112;155;9;18;151;
   44;66;140;77;154;173;148;50;217;161;89;6;156;150;21;64;1;203;11;228;222;89;126;152;113;176;75;221;170;69;57;248;56;
   188;18;171;10;62;167;232;200;72;27;205;252;193;131;67;105;252;240;97;247;197;153;239;220;79;108;67;65;2;153;20;70;
   174;161;40;129;225;99;253;78;230;196;88;184;46;66;117;159;139;17;176;97;44;18;213;167;119;172;244;199;205;210;111;
   183;218;11;144;152;220;74;249;71;4;218;165;41;148;90;177;105;205;178;45;57;102;252;210;105;80;226;65;140;172;155;
   199;220;50;196;166;4;243;104;240;248;169;199;221;206;139;94;71;107;38;179;49;22;214;7;223;27;73;194;5;173;160;210;
   234;90;90;100;238;203;34;84;157;223;24;160;218;237;46;93;68;203;97;116;185;120;18;54;238;225;31;149;171;12;69;131;
   107;202;252;115;175;59;236;17;68;11;193;198;5;102;158;176;25;207;172;0;151;148;60;242;155;191;252;224;248;35;41;61;
   166;35;229;250;109;42;126;224;199;180;80;117;150;166;46;244;107;190;78;27;99;204;150;186;152;120;167;179;159;132;
   181;157;211;54;241;101;154;36;203;179;48;21;213;21;233;232;14;62;121;2;177;213;131;248;238;151;21;60;216;186;31;
   173;235;158;231;226;242;194;61;254;232;90;80;213;195;85;75;121;146;42;69;55;214;220;79;9;65;141;253;215;68;89;108;
   191;105].
Definition v512_ss1 : list Z :=
  [124;8;157;55;187;189;68;134;37;241;9;226;70;2;46;206;174;234;107;202;63;115;123;218;134;218;189;71;172;112;157;123].
Definition v768_pk : list Z :=
  [120;32;50;2;48;35;142;68;122;207;169;155;99;50;183;83;28;124;229;66;3;27;147;202;20;37;143;95;152;179;12;135;63;
   109;1;178;197;133;63;52;2;105;24;4;128;71;8;167;236;250;91;165;152;15;239;136;54;206;245;168;45;172;131;117;224;98;
   52;203;190;214;76;197;164;178;172;6;132;160;180;217;134;62;102;68;168;51;72;73;192;207;219;251;133;27;132;176;228;
   140;111;176;72;1;208;82;47;213;118;104;155;22;68;103;96;74;180;218;46;52;171;207;118;220;146;68;103;76;78;87;48;
   245;120;124;103;144;33;66;76;19;64;21;77;36;73;51;13;188;148;14;186;123;225;3;153;236;148;10;107;53;64;96;20;153;
   102;80;177;72;161;137;67;71;127;94;149;15;65;160;26;182;52;136;250;242;6;240;242;37;167;49;9;103;119;132;121;27;
   109;236;152;14;96;235;143;150;187;191;71;34;34;176;36;138;18;249;97;136;161;125;104;184;62;82;201;130;123;162;198;
   188;130;117;11;49;174;70;185;130;122;40;119;252;179;56;0;58;104;184;193;170;156;150;107;85;210;3;120;116;17;87;119;
   5;246;219;21;89;249;180;37;138;87;24;32;80;93;131;193;0;154;162;178;132;179;117;167;172;97;106;27;41;66;162;180;
   148;196;62;179;112;193;185;74;205;82;43;32;140;23;199;53;7;126;96;47;65;65;12;251;27;62;161;9;33;88;195;182;234;67;
   204;122;167;3;9;166;15;169;100;71;33;51;42;13;196;85;189;181;99;213;230;110;226;18;16;135;42;89;141;19;169;81;131;
   17;154;80;122;118;52;59;69;75;179;32;75;173;131;70;155;86;39;82;167;58;0;229;232;197;166;217;135;10;202;147;120;
   105;5;194;11;133;2;244;93;145;20;168;210;199;189;46;224;8;127;183;128;250;80;120;88;139;2;111;20;25;108;192;104;
   246;167;94;123;74;68;58;234;65;66;92;175;45;162;18;163;230;173;246;68;81;100;194;144;143;64;157;67;150;94;228;11;
   137;214;84;200;65;48;151;72;106;155;144;226;176;68;116;56;145;24;54;183;202;132;231;107;122;142;230;0;161;59;85;
   168;184;61;160;178;8;37;56;43;218;195;190;37;4;96;36;199;136;118;64;83;241;146;44;250;162;161;184;22;34;48;163;109;
   187;54;207;142;98;200;161;177;95;157;81;144;7;10;180;245;112;163;186;248;99;124;4;173;25;81;164;180;97;11;91;122;
   178;51;86;195;158;54;168;18;133;88;162;89;20;225;168;175;118;228;119;18;248;84;56;177;158;141;4;206;146;53;32;211;
   171;10;196;228;8;88;242;54;45;212;157;180;70;183;237;247;160;221;76;131;170;48;126;250;135;118;179;184;199;161;10;
   31;223;230;142;218;27;156;212;42;192;206;196;118;12;37;147;24;8;44;24;65;93;44;194;147;103;246;6;238;234;28;1;69;
   56;158;162;136;243;131;166;141;214;32;18;122;172;168;139;203;107;66;69;166;100;79;5;166;185;241;22;61;56;225;126;
   87;203;39;204;92;70;123;44;202;148;249;116;207;216;21;13;82;148;225;82;32;11;57;186;250;70;155;156;250;195;172;235;
   123;86;180;123;19;241;113;129;234;149;135;120;16;167;119;174;157;21;96;237;81;25;171;9;183;106;177;32;227;198;25;
   97;213;140;58;147;22;105;160;95;210;136;47;81;151;183;195;176;71;161;151;170;130;12;32;138;92;181;188;64;190;184;
   37;136;245;97;11;11;53;78;184;80;57;176;164;29;253;57;36;143;22;90;187;2;122;253;104;23;224;12;141;173;170;203;41;
   203;37;228;36;117;9;50;174;39;117;106;152;183;183;73;40;83;144;156;169;90;86;146;42;19;54;144;108;2;184;18;5;187;
   88;105;77;232;192;42;0;92;35;38;9;200;121;151;177;106;182;188;121;13;211;41;48;3;185;180;134;123;43;110;4;196;86;
   24;80;53;148;170;38;156;157;79;195;154;161;236;54;63;188;87;199;2;65;49;11;29;107;68;152;232;165;86;196;135;177;
   110;69;170;155;185;177;166;169;187;42;68;111;110;227;9;237;236;29;85;50;153;122;134;148;221;185;145;227;166;119;
   248;149;136;95;169;52;129;234;33;126;186;28;71;75;196;129;136;20;127;220;3;34;129;204;165;195;13;91;28;62;217;9;50;
   189;225;72;85;146;159;94;34;79;39;56;117;54;75;96;12;124;145;107;211;31;102;215;187;196;112;197;54;230;0;232;218;
   127;49;251;59;153;69;115;231;119;150;197;57;105;55;26;94;48;195;113;160;50;80;228;38;194;219;218;158;238;211;155;
   107;101;3;56;128;102;5;211;94;100;213;89;208;145;13;46;247;81;175;168;51;0;44;144;93;181;94;224;9;129;117;242;17;
   17;130;47;106;156;26;171;203;151;113;204;21;59;180;182;25;215;53;250;130;35;213;240;106;139;43;121;8;227;45;143;
   123;130;157;172;136;201;202;164;116;42;18;162;164;75;198;20;32;247;210;107;135;195;200;51;197;108;181;26;204;27;
   212;140;154;100;139;79;96;142;79;235;55;142;101;84;183;60;168;227;123;157;95;167;107;68;28;3;151;248;192;170;57;
   178;52;138;188;60;109;13;19;166;189;145;214;42;67;198;81;96;99;223;213;191;119;240;241;8;66;36;67;123;71;168;43;
   162].
Definition v768_sk : list Z :=
  [231;250;70;205;7;193;180;218;72;203;72;163;175;225;71;159;150;113;27;172;92;210;98;196;61;170;197;188;104;102;45;
   92;93;11;131;85;27;218;185;209;72;164;215;228;61;198;22;86;31;178;127;88;66;131;140;113;71;34;69;108;76;124;68;178;
   72;168;224;102;55;173;64;48;229;57;91;210;167;129;54;26;158;35;97;193;25;56;57;4;135;129;46;219;33;189;4;140;69;
   233;131;178;51;148;152;92;90;43;96;126;252;151;80;87;60;126;159;116;144;206;66;102;121;89;146;151;197;140;230;66;
   15;42;103;51;185;1;129;154;226;89;158;80;112;249;240;119;185;224;185;148;115;128;85;44;196;182;36;43;48;242;136;70;
   213;14;98;56;189;203;11;116;47;23;92;254;187;171;198;71;162;240;50;147;153;140;125;150;65;19;221;90;121;228;123;64;
   124;107;156;35;37;45;164;243;64;30;181;2;31;60;193;253;67;199;135;1;185;114;135;113;0;18;185;133;68;172;15;53;192;
   120;139;122;165;20;148;93;65;128;206;68;157;18;40;1;119;121;183;243;181;22;241;151;88;90;117;41;144;42;87;211;8;
   192;0;193;66;227;150;8;211;186;112;129;33;139;58;26;41;228;227;158;79;33;12;39;169;44;48;208;191;97;26;40;3;58;68;
   199;19;161;106;178;10;89;113;125;161;231;26;174;120;103;91;252;102;163;151;109;251;172;126;171;252;137;97;74;36;
   231;224;158;247;228;72;239;197;40;168;35;48;194;203;162;18;139;200;23;42;182;151;136;186;238;44;143;114;26;48;129;
   179;183;131;92;157;253;249;200;55;37;169;66;252;176;228;6;69;235;75;37;141;98;44;124;213;120;11;39;9;20;66;105;235;
   130;63;168;168;85;64;162;116;154;161;113;49;133;17;148;188;29;217;7;8;248;9;195;13;216;153;102;130;35;221;32;6;175;
   2;66;57;80;12;125;133;111;239;183;22;205;152;138;45;234;138;47;193;3;106;34;62;36;1;128;153;145;34;101;90;204;238;
   165;18;193;66;178;249;215;193;211;146;26;52;233;73;4;240;130;151;216;157;217;246;63;211;107;168;3;249;155;26;245;
   25;113;245;175;222;243;9;97;138;139;156;194;95;244;16;144;10;67;113;138;177;188;74;194;172;154;87;97;127;21;14;42;
   200;58;6;3;46;55;58;146;241;90;196;170;168;112;118;231;44;165;33;18;218;149;192;12;147;40;234;250;112;137;1;50;74;
   163;77;233;195;146;120;131;73;45;121;26;151;69;45;157;24;60;55;180;69;108;132;33;19;172;108;254;89;126;81;228;130;
   52;224;153;126;233;207;69;106;95;163;38;64;225;251;30;166;73;20;255;98;104;225;43;101;117;213;184;46;43;129;122;80;
   29;43;7;79;145;251;60;162;172;110;42;57;62;166;193;82;127;149;12;221;169;45;232;161;167;96;16;54;167;51;181;109;75;
   81;252;172;199;3;209;37;220;135;18;104;197;147;177;183;151;71;0;21;231;186;92;109;7;90;13;147;86;172;176;90;26;128;
   98;94;183;187;14;107;196;219;224;180;110;44;129;83;92;205;155;178;165;79;2;157;177;139;60;241;108;195;3;0;190;22;
   115;14;57;73;87;207;231;163;136;252;7;248;88;62;172;176;31;34;145;192;243;249;19;179;106;14;63;133;67;109;120;67;
   204;73;35;30;9;22;112;59;121;28;114;14;237;165;91;71;170;187;204;76;118;114;130;132;238;57;59;183;129;171;62;188;
   89;96;148;150;172;188;68;34;154;97;245;161;108;157;236;109;15;92;129;185;156;15;190;171;71;230;220;146;183;167;146;
   167;161;21;197;243;139;34;59;62;62;161;67;210;9;131;255;27;139;211;117;30;39;106;53;149;195;54;252;56;157;70;135;
   177;248;3;36;55;152;202;55;53;128;159;6;20;225;216;109;29;171;6;206;232;149;170;167;70;235;181;150;206;18;104;165;
   195;205;191;178;87;233;252;167;82;19;56;112;51;12;142;124;34;41;228;33;41;225;88;96;181;199;233;23;175;75;48;66;
   156;220;182;134;87;84;108;6;115;229;168;70;236;167;100;204;28;177;119;177;59;157;51;33;62;32;57;232;241;139;128;
   210;142;192;115;124;160;92;16;20;91;0;208;68;110;73;243;14;250;35;158;239;0;127;55;130;133;146;117;4;163;37;137;
   244;58;119;114;227;108;82;5;156;173;233;84;8;248;23;159;137;78;194;245;199;239;218;5;20;55;88;9;246;45;147;17;167;
   121;187;177;236;80;53;90;135;117;166;199;139;229;99;197;63;251;81;155;164;159;96;33;197;215;202;95;148;19;112;0;72;
   64;88;74;123;88;120;163;252;56;73;58;208;114;153;181;88;129;98;131;211;122;3;8;118;179;207;39;169;136;200;174;53;
   219;13;80;106;168;162;49;79;58;107;95;4;55;84;190;81;184;146;183;2;90;6;80;238;64;165;255;118;108;99;9;201;38;92;
   22;97;202;90;229;177;170;225;243;132;211;41;37;154;247;76;237;198;15;41;252;4;178;40;36;227;120;134;237;8;73;92;
   214;181;80;76;190;14;19;204;148;113;207;153;4;62;110;117;7;131;44;27;71;203;172;34;104;168;120;32;50;2;48;35;142;
   68;122;207;169;155;99;50;183;83;28;124;229;66;3;27;147;202;20;37;143;95;152;179;12;135;63;109;1;178;197;133;63;52;
   2;105;24;4;128;71;8;167;236;250;91;165;152;15;239;136;54;206;245;168;45;172;131;117;224;98;52;203;190;214;76;197;
   164;178;172;6;132;160;180;217;134;62;102;68;168;51;72;73;192;207;219;251;133;27;132;176;228;140;111;176;72;1;208;
   82;47;213;118;104;155;22;68;103;96;74;180;218;46;52;171;207;118;220;146;68;103;76;78;87;48;245;120;124;103;144;33;
   66;76;19;64;21;77;36;73;51;13;188;148;14;186;123;225;3;153;236;148;10;107;53;64;96;20;153;102;80;177;72;161;137;67;
   71;127;94;149;15;65;160;26;182;52;136;250;242;6;240;242;37;167;49;9;103;119;132;121;27;109;236;152;14;96;235;143;
   150;187;191;71;34;34;176;36;138;18;249;97;136;161;125;104;184;62;82;201;130;123;162;198;188;130;117;11;49;174;70;
   185;130;122;40;119;252;179;56;0;58;104;184;193;170;156;150;107;85;210;3;120;116;17;87;119;5;246;219;21;89;249;180;
   37;138;87;24;32;80;93;131;193;0;154;162;178;132;179;117;167;172;97;106;27;41;66;162;180;148;196;62;179;112;193;185;
   74;205;82;43;32;140;23;199;53;7;126;96;47;65;65;12;251;27;62;161;9;33;88;195;182;234;67;204;122;167;3;9;166;15;169;
   100;71;33;51;42;13;196;85;189;181;99;213;230;110;226;18;16;135;42;89;141;19;169;81;131;17;154;80;122;118;52;59;69;
   75;179;32;75;173;131;70;155;86;39;82;167;58;0;229;232;197;166;217;135;10;202;147;120;105;5;194;11;133;2;244;93;145;
   20;168;210;199;189;46;224;8;127;183;128;250;80;120;88;139;2;111;20;25;108;192;104;246;167;94;123;74;68;58;234;65;
   66;92;175;45;162;18;163;230;173;246;68;81;100;194;144;143;64;157;67;150;94;228;11;137;214;84;200;65;48;151;72;106;
   155;144;226;176;68;116;56;145;24;54;183;202;132;231;107;122;142;230;0;161;59;85;168;184;61;160;178;8;37;56;43;218;
   195;190;37;4;96;36;199;136;118;64;83;241;146;44;250;162;161;184;22;34;48;163;109;187;54;207;142;98;200;161;177;95;
   157;81;144;7;10;180;245;112;163;186;248;99;124;4;173;25;81;164;180;97;11;91;122;178;51;86;195;158;54;168;18;133;88;
   162;89;20;225;168;175;118;228;119;18;248;84;56;177;158;141;4;206;146;53;32;211;171;10;196;228;8;88;242;54;45;212;
   157;180;70;183;237;247;160;221;76;131;170;48;126;250;135;118;179;184;199;161;10;31;223;230;142;218;27;156;212;42;
   192;206;196;118;12;37;147;24;8;44;24;65;93;44;194;147;103;246;6;238;234;28;1;69;56;158;162;136;243;131;166;141;214;
   32;18;122;172;168;139;203;107;66;69;166;100;79;5;166;185;241;22;61;56;225;126;87;203;39;204;92;70;123;44;202;148;
   249;116;207;216;21;13;82;148;225;82;32;11;57;186;250;70;155;156;250;195;172;235;123;86;180;123;19;241;113;129;234;
   149;135;120;16;167;119;174;157;21;96;237;81;25;171;9;183;106;177;32;227;198;25;97;213;140;58;147;22;105;160;95;210;
   136;47;81;151;183;195;176;71;161;151;170;130;12;32;138;92;181;188;64;190;184;37;136;245;97;11;11;53;78;184;80;57;
   176;164;29;253;57;36;143;22;90;187;2;122;253;104;23;224;12;141;173;170;203;41;203;37;228;36;117;9;50;174;39;117;
   106;152;183;183;73;40;83;144;156;169;90;86;146;42;19;54;144;108;2;184;18;5;187;88;105;77;232;192;42;0;92;35;38;9;
   200;121;151;177;106;182;188;121;13;211;41;48;3;185;180;134;123;43;110;4;196;86;24;80;53;148;170;38;156;157;79;195;
   154;161;236;54;63;188;87;199;2;65;49;11;29;107;68;152;232;165;86;196;135;177;110;69;170;155;185;177;166;169;187;42;
   68;111;110;227;9;237;236;29;85;50;153;122;134;148;221;185;145;227;166;119;248;149;136;95;169;52;129;234;33;126;186;
   28;71;75;196;129;136;20;127;220;3;34;129;204;165;195;13;91;28;62;217;9;50;189;225;72;85;146;159;94;34;79;39;56;117;
   54;75;96;12;124;145;107;211;31;102;215;187;196;112;197;54;230;0;232;218;127;49;251;59;153;69;115;231;119;150;197;
   57;105;55;26;94;48;195;113;160;50;80;228;38;194;219;218;158;238;211;155;107;101;3;56;128;102;5;211;94;100;213;89;
   208;145;13;46;247;81;175;168;51;0;44;144;93;181;94;224;9;129;117;242;17;17;130;47;106;156;26;171;203;151;113;204;
   21;59;180;182;25;215;53;250;130;35;213;240;106;139;43;121;8;227;45;143;123;130;157;172;136;201;202;164;116;42;18;
   162;164;75;198;20;32;247;210;107;135;195;200;51;197;108;181;26;204;27;212;140;154;100;139;79;96;142;79;235;55;142;
   101;84;183;60;168;227;123;157;95;167;107;68;28;3;151;248;192;170;57;178;52;138;188;60;109;13;19;166;189;145;214;42;
   67;198;81;96;99;223;213;191;119;240;241;8;66;36;67;123;71;168;43;162;40;184;116;105;212;238;137;6;236;52;219;167;
   108;104;216;168;34;141;243;60;207;58;128;191;21;107;41;83;165;49;38;159;60;177;238;169;136;0;75;147;16;60;251;10;
   238;253;42;104;110;1;250;74;88;232;163;99;156;168;161;227;249;174;87;226].
Definition v768_ct : list Z :=
  [29;59;224;74;106;20;180;152;227;101;222;97;167;0;178;58;32;1;219;195;220;211;135;207;161;241;105;95;17;26;173;71;
   75;52;34;62;16;10;41;229;60;61;22;165;215;105;225;166;79;80;190;2;154;9;132;84;35;103;73;162;199;3;192;50;251;25;
   157;45;238;2;80;144;187;188;96;154;20;40;76;19;95;242;248;254;169;153;58;54;104;130;55;176;56;84;126;119;167;213;
   202;192;67;17;68;222;52;247;121;1;254;37;39;240;152;212;202;193;89;103;75;153;4;230;167;33;144;200;134;209;65;12;
   90;83;7;139;183;193;141;116;156;33;61;228;45;171;230;200;59;140;31;254;200;172;185;50;208;71;82;165;225;110;14;88;
   113;27;243;199;231;1;25;159;73;87;69;224;116;64;147;168;221;136;108;160;107;165;187;78;9;54;95;88;233;158;8;230;
   182;144;42;12;27;6;66;232;253;66;113;65;106;37;18;46;33;154;25;168;205;206;110;102;170;98;255;48;45;248;87;180;101;
   84;121;207;41;43;233;167;234;49;43;164;124;183;126;115;173;155;45;75;86;234;202;36;12;53;39;22;150;205;173;86;15;
   117;177;176;100;22;12;60;245;230;47;147;3;171;149;146;68;118;128;214;124;199;87;21;146;239;223;180;227;5;196;77;94;
   79;228;101;94;124;249;237;120;207;112;182;234;130;61;105;36;145;102;98;13;25;245;224;51;70;240;107;155;154;239;38;
   89;132;221;97;240;43;148;198;176;105;221;74;68;102;47;253;85;2;18;104;90;72;62;158;215;1;62;195;103;115;170;198;
   220;69;206;29;168;91;20;4;92;19;210;89;50;148;14;193;253;191;172;170;127;102;3;220;26;239;249;245;47;174;219;135;
   47;172;20;115;245;203;143;178;12;255;113;36;133;89;121;56;144;58;125;30;72;149;34;98;98;148;212;119;59;113;203;220;
   1;121;200;19;8;117;95;63;63;17;91;193;120;194;149;220;251;28;207;191;181;125;61;51;182;151;65;168;45;166;19;143;
   115;21;146;25;189;97;80;32;34;106;36;181;143;172;129;38;110;70;142;106;108;202;107;226;165;141;236;70;163;247;66;
   199;196;12;141;43;230;111;176;44;50;76;59;88;93;154;208;164;96;77;108;182;201;233;246;121;6;203;41;96;109;26;119;
   65;190;52;235;36;255;220;31;99;75;199;79;118;207;202;13;213;126;223;98;98;200;231;246;28;208;204;207;115;145;189;
   43;214;155;239;223;53;250;243;105;51;163;155;29;244;246;148;152;77;187;210;212;119;195;142;211;41;192;85;141;11;
   200;165;113;111;117;180;59;255;23;220;128;165;153;159;57;122;47;82;211;221;79;122;156;107;57;67;91;12;53;115;235;
   101;245;81;74;221;191;73;137;101;242;112;166;193;155;175;206;70;110;72;54;53;241;10;144;104;34;6;160;92;13;36;153;
   75;57;121;52;254;204;143;8;68;99;38;164;157;62;186;236;114;34;205;207;118;178;153;128;7;82;130;151;180;254;4;162;
   29;139;254;118;39;236;228;190;212;137;222;2;112;87;137;218;197;230;0;38;72;111;121;222;47;147;20;118;216;9;158;226;
   125;45;216;117;134;185;226;235;13;162;36;25;233;72;193;135;153;142;222;127;172;176;106;201;43;220;252;228;19;130;
   178;154;241;203;98;180;26;22;212;216;217;229;149;128;254;3;59;11;238;212;94;35;176;238;116;196;12;169;0;77;121;58;
   9;104;201;218;82;190;173;121;48;156;79;132;180;232;82;21;20;202;160;22;48;141;116;114;111;137;159;188;145;0;227;82;
   125;217;46;202;208;206;53;190;248;105;154;145;28;54;236;241;97;231;255;167;165;62;3;161;249;224;40;227;163;21;91;
   152;232;25;134;238;132;144;47;148;58;128;164;123;32;170;255;145;178;25;61;209;234;151;242;195;142;137;86;240;59;
   226;6;212;185;6;199;103;191;17;253;194;150;250;194;3;96;92;27;24;225;140;1;162;81;199;66;120;16;18;69;213;139;251;
   49;152;4;6;125;226;151;101;209;212;55;116;107;163;65;44;109;218;215;203;1;194;243;173;94;38;81;59;37;178;105;252;
   169;235;63;132;206;72;169;233;1;134;227;168;81;80;139;238;162;41;45;141;59;185;107;91;161;247;53;240;212;21;154;39;
   149;44;32;102;69;103;29;69;242;211;167;149;94;231;114;155;127;212;178;13;186;136;31;172;57;191;167;91;250;247;96;
   57;200;227;45;54;56;78;103;24;190;171;111;206;248;56;243;145;58;52;224;5;251;76;25;168;106;156;255;47;82;255;198;
   105;75;215;114;20;64;81;134;124;44;33;110;231;18;229;157;138;2;170;55;62;171;74;19;23;142;163;230;139;255;95;150;
   191;119;104;109;162;249;39;20;52;249;204;126;56;253;205;6;71;88;214;57;231;161;189;138;137;125;245;250;183;87;24;
   228;47;133;143;233;186;82;86;121].
Definition v768_ss : list Z :=
  [254;98;118;33;254;41;97;134;252;227;34;67;221;85;75;221;163;137;113;180;127;24;70;31;33;50;55;130;223;229;255;137].
Definition v768_ct1 : list Z :=
  [29;59;224;74;106;20;180;152;227;101;222;97;167;0;178;58;32;1;219;195;220;211;135;207;161;241;105;95;17;26;173;71;
   75;52;34;62;16;10;41;229;60;61;22;165;215;105;225;166;79;80;190;2;154;9;132;84;35;103;73;162;199;3;192;50;251;25;
   157;45;238;2;80;144;187;188;96;154;20;40;76;19;95;242;248;254;169;153;58;54;104;130;55;176;56;84;126;119;167;213;
   202;192;67;17;68;222;52;247;121;1;254;37;39;240;152;212;202;193;89;103;75;153;4;230;167;33;144;200;134;209;65;12;
   90;83;7;139;183;193;141;116;156;33;61;228;45;171;230;200;59;140;31;254;200;172;185;50;208;71;82;165;225;110;14;88;
   113;27;243;199;231;1;25;159;73;87;69;224;116;64;147;168;221;136;108;160;107;165;187;78;9;54;95;88;233;158;8;230;
   182;144;42;12;27;6;66;232;253;66;113;65;106;37;18;46;33;154;25;168;205;206;110;102;170;98;255;48;45;248;87;180;101;
   84;121;207;41;43;233;167;234;49;43;164;124;183;126;115;173;155;45;75;86;234;202;36;12;53;39;22;150;205;173;86;15;
   117;177;176;100;22;12;60;245;230;47;147;3;171;149;146;68;118;128;214;124;199;87;21;146;239;223;180;227;5;196;77;94;
   79;228;101;94;124;249;237;120;207;112;182;234;130;61;105;36;145;102;98;13;25;245;224;51;70;240;107;155;154;239;38;
   89;132;221;97;240;43;148;198;176;105;221;74;68;102;47;253;85;2;18;104;90;72;62;158;215;1;62;195;103;115;170;198;
   220;69;206;29;168;91;20;4;92;19;210;89;50;148;14;193;253;191;172;170;127;102;3;220;26;239;249;245;47;174;219;135;
   47;172;20;115;245;203;143;178;12;255;113;36;133;89;121;56;144;58;125;30;72;149;34;98;98;148;212;119;59;113;203;220;
   1;121;200;19;8;117;95;63;63;17;91;193;120;194;149;220;251;28;207;191;181;125;61;51;182;151;65;168;45;166;19;143;
   115;21;146;25;189;97;80;32;34;106;36;181;143;172;129;38;110;70;142;106;108;202;107;226;165;141;236;70;163;247;66;
   199;196;12;141;43;230;111;176;44;50;76;59;88;93;154;208;164;96;77;108;182;201;233;246;121;6;203;41;96;109;26;119;
   65;190;52;235;36;255;220;31;99;75;199;79;118;207;202;13;213;126;223;98;98;200;231;246;28;208;204;207;115;145;189;
   43;214;155;239;223;53;250;243;105;51;163;155;29;244;246;148;152;77;187;210;212;119;195;142;211;41;192;85;141;11;
   200;165;113;111;117;180;59;255;23;220;128;165;153;159;57;122;47;82;211;221;79;122;156;107;57;67;91;12;53;115;235;
   101;245;81;74;221;191;73;137;101;242;112;166;193;155;175;206;70;110;72;54;53;241;10;144;104;34;6;160;92;13;36;153;
   75;57;121;52;254;204;143;8;68;99;38;164;157;62;186;236;114;34;205;207;118;178;153;128;7;82;130;151;180;254;4;162;
   29;139;254;118;39;236;228;190;212;137;222;2;112;87;137;218;197;230;0;38;72;111;121;222;47;147;20;118;216;9;158;226;
   125;45;216;117;134;185;226;235;13;162;36;25;233;72;193;135;153;142;222;127;172;176;106;201;43;220;252;228;19;130;
   178;154;241;203;98;180;26;22;212;216;217;229;149;128;254;3;59;11;238;212;94;35;176;238;116;196;12;169;0;77;121;58;
   9;104;201;218;82;190;173;121;48;156;79;132;180;232;82;21;20;202;160;22;48;141;116;114;111;137;159;188;145;0;227;82;
   125;217;46;202;208;206;53;190;248;105;154;145;28;54;236;241;97;231;255;167;165;62;3;161;249;224;40;227;163;21;91;
   152;232;25;134;238;132;144;47;148;58;128;164;123;32;170;255;145;178;25;61;209;234;151;242;195;142;137;86;240;59;
   226;6;212;185;6;199;103;191;17;253;194;150;250;194;3;96;92;27;24;225;140;1;162;81;199;66;120;16;18;69;213;139;251;
   49;152;4;6;125;226;151;101;209;212;55;116;107;163;65;44;109;218;215;203;1;194;243;173;94;38;81;59;37;178;105;252;
   169;235;63;132;206;72;169;233;1;134;227;168;81;80;139;238;162;41;45;141;59;185;107;91;161;247;53;240;212;21;154;39;
   149;44;32;102;69;103;29;69;242;211;167;149;94;231;114;155;127;212;178;13;186;136;31;172;57;191;167;91;250;247;96;
   57;200;227;45;54;56;78;103;24;190;171;111;206;248;56;243;145;58;52;224;5;251;76;25;168;106;156;255;47;82;255;198;
   105;75;215;114;20;64;81;134;124;44;33;110;231;18;229;157;138;2;170;55;62;171;74;19;23;142;163;230;139;255;95;150;
   191;119;104;109;162;249;39;20;52;249;204;126;56;253;205;6;71;88;214;57;231;161;189;138;137;125;245;250;183;87;24;
   228;47;133;143;233;186;82;86;128].
Definition v768_ss1 : list Z :=
  [80;203;134;241;87;190;11;212;170;215;211;74;58;63;185;4;73;208;139;198;53;140;64;68;150;82;149;122;4;90;143;99].
Definition v1024_pk : list Z :=
  [40;134;116;85;132;116;182;234;59;179;209;23;2;167;18;209;155;100;64;246;140;102;119;92;97;161;104;101;102;155;242;
   52;14;169;241;140;64;178;179;228;152;141;244;124;49;124;176;63;115;106;175;44;26;90;212;35;69;47;139;193;184;26;
   116;149;60;184;97;17;56;125;246;124;71;199;144;38;56;110;42;210;197;224;51;37;111;97;116;208;215;133;200;107;113;
   94;37;113;86;171;36;174;104;32;170;181;160;180;60;93;21;171;37;226;121;81;24;149;29;208;54;11;71;209;60;202;69;189;
   1;106;12;180;201;127;63;102;177;252;97;46;151;65;77;179;155;143;216;42;75;192;154;125;146;243;130;66;233;167;25;83;
   63;168;64;107;185;23;132;252;21;134;207;82;105;159;217;45;83;3;9;250;197;13;225;252;196;92;28;154;160;219;155;204;
   56;4;52;9;110;156;146;23;202;208;54;147;52;115;47;131;61;71;152;33;22;188;149;26;28;61;53;208;136;74;97;66;116;245;
   200;112;166;127;5;245;38;37;231;113;201;208;134;93;113;164;165;121;163;11;28;15;173;34;131;98;251;140;14;177;202;
   253;197;129;178;184;122;177;214;178;198;71;146;85;152;167;207;35;157;116;229;106;74;182;0;37;89;126;175;76;50;229;
   122;65;37;180;157;87;49;45;35;130;90;50;193;41;40;155;64;197;235;104;138;122;175;191;103;91;158;70;166;180;102;32;
   104;227;117;20;90;46;185;103;80;93;51;202;87;25;189;3;240;0;75;88;207;112;241;10;79;235;89;248;169;156;37;113;28;
   73;67;12;239;134;83;164;28;183;54;16;14;0;52;177;116;50;70;117;35;87;128;96;40;220;248;83;43;204;207;90;145;1;154;
   18;166;232;105;127;145;138;127;43;80;72;79;38;90;161;57;118;151;226;94;216;103;71;35;56;138;78;81;150;251;53;149;
   245;108;119;220;58;112;52;36;83;130;44;122;220;135;185;209;179;55;61;186;66;112;69;91;228;196;179;179;230;71;106;8;
   162;244;226;203;129;184;90;209;149;62;204;182;123;160;245;29;17;12;187;60;131;196;128;145;141;16;219;13;185;89;86;
   42;9;17;90;41;190;165;139;49;230;69;179;19;116;150;228;155;196;182;210;43;61;44;187;124;216;102;82;171;9;217;245;
   34;77;57;70;245;74;58;142;227;6;242;4;137;119;84;127;175;164;165;249;9;96;209;130;193;206;197;156;181;230;100;69;
   204;157;56;151;188;41;208;116;0;74;204;81;243;179;6;250;90;251;3;74;166;80;170;61;204;41;37;188;12;218;53;186;157;
   53;67;219;39;163;116;244;61;16;194;91;189;6;54;104;209;48;32;117;204;90;162;110;25;194;160;111;219;199;37;139;83;
   198;135;180;114;113;199;227;232;162;80;68;43;202;99;47;133;88;123;223;2;169;131;234;125;43;20;8;90;224;118;167;169;
   184;65;198;142;15;209;105;34;164;143;8;41;200;20;168;23;216;226;133;239;8;117;140;68;197;153;216;48;42;124;176;15;
   201;39;207;73;159;5;136;68;124;242;141;78;119;141;3;156;62;111;197;25;42;241;28;29;251;138;184;90;6;245;164;170;
   146;67;116;121;233;185;24;198;204;104;154;69;199;232;169;72;151;7;94;251;116;130;177;68;23;51;149;176;74;45;169;
   136;200;17;248;120;233;181;101;190;202;51;242;100;60;106;208;178;202;242;49;91;176;203;211;241;132;205;152;127;189;
   67;113;120;25;24;62;5;166;105;87;119;28;137;170;131;153;96;198;168;89;86;0;204;173;35;85;150;87;44;47;82;6;11;58;
   11;8;117;200;74;2;158;11;58;40;132;116;53;238;229;62;114;169;136;6;195;55;0;161;62;232;25;11;195;114;45;198;52;102;
   234;133;151;222;122;142;81;151;46;153;68;31;131;96;206;136;249;86;151;68;82;157;224;131;167;247;197;4;66;163;215;
   245;196;83;105;97;184;149;174;144;226;41;30;11;153;179;225;204;1;168;163;164;90;186;114;196;6;186;163;14;213;243;
   129;134;0;183;127;134;90;93;121;110;232;35;201;141;214;10;40;91;97;226;231;158;132;44;198;62;98;30;59;54;21;20;68;
   184;118;65;101;140;100;195;113;27;167;62;10;151;170;49;48;7;201;201;201;188;119;22;247;113;143;194;124;191;50;160;
   91;252;0;215;25;154;67;57;69;154;48;121;147;58;95;79;200;59;21;225;16;61;149;26;104;5;26;152;231;62;227;185;144;
   197;74;7;157;146;36;93;140;143;172;212;160;155;18;137;228;108;142;34;84;17;46;65;125;180;84;185;243;44;69;174;105;
   173;224;38;2;105;147;10;64;216;21;174;96;196;117;27;6;117;194;28;34;91;112;0;151;159;37;107;189;244;69;43;169;140;
   171;208;179;48;213;195;89;46;88;153;66;224;159;189;135;137;180;193;23;41;132;66;41;226;203;150;124;177;203;229;200;
   233;224;139;246;148;180;82;188;108;151;156;16;1;23;69;176;230;62;245;170;78;145;10;41;60;165;205;29;177;44;9;26;90;
   252;121;78;24;34;67;135;107;117;139;27;14;182;202;61;179;130;183;198;81;196;15;83;47;108;226;193;139;156;165;107;
   181;126;31;154;165;101;186;196;104;54;153;121;56;99;122;146;183;15;170;174;67;210;38;232;114;93;63;199;53;189;91;
   37;63;50;187;52;168;12;224;26;35;122;99;90;77;121;194;34;185;136;239;80;117;77;35;64;69;185;195;243;97;165;199;193;
   91;213;87;171;225;183;183;224;220;12;149;107;138;100;19;142;220;219;178;104;76;44;76;105;75;247;6;36;126;1;6;56;53;
   166;57;210;8;225;227;17;185;233;17;99;132;18;144;83;192;194;133;67;108;37;135;5;60;27;196;131;160;216;218;56;125;
   75;191;234;229;18;234;49;194;207;7;3;221;119;29;74;6;126;103;24;155;121;128;202;152;187;204;218;56;76;150;232;39;
   46;12;112;89;88;68;164;101;73;127;172;58;88;167;79;242;134;159;178;83;126;83;182;83;219;88;164;129;72;103;211;10;
   107;203;90;31;128;70;206;58;194;11;17;51;132;135;202;135;169;140;175;179;19;119;62;129;37;113;114;24;219;76;35;142;
   92;9;253;44;160;26;244;156;183;229;129;118;32;171;70;106;87;77;26;170;189;83;183;208;214;48;145;252;23;155;84;159;
   65;220;4;143;184;143;165;72;103;176;99;86;177;219;138;196;65;6;71;216;79;225;183;191;68;131;137;158;99;101;94;245;
   189;232;232;36;191;149;102;133;130;41;166;80;88;9;227;55;103;74;31;192;39;12;166;156;42;188;179;202;5;76;43;85;112;
   15;222;177;105;2;44;126;55;227;98;210;252;179;113;162;118;184;84;144;235;35;85;214;66;17;135;82;188;22;244;116;79;
   233;17;87;18;73;8;17;98;164;17;132;247;25;161;225;48;41;201;83;150;155;193;89;253;85;27;21;90;122;104;10;130;54;
   231;221;154;30;101;82;221;185;83;229;200;25;76;195;56;204;184;139;212;218;76;26;76;232;170;225;89;57].
Definition v1024_sk : list Z :=
  [91;128;149;213;166;158;203;233;171;102;198;105;148;152;82;94;147;195;60;252;69;130;3;68;142;227;56;32;118;149;68;
   27;51;41;168;177;148;60;125;194;18;173;147;166;61;190;145;57;149;172;8;43;37;166;137;97;197;178;24;197;243;211;58;
   143;54;59;84;138;155;66;72;46;243;91;177;131;39;32;240;219;192;39;25;171;85;83;142;240;145;9;58;208;108;200;136;
   205;8;230;5;152;218;106;88;44;190;209;105;94;109;1;151;255;209;41;205;177;53;161;203;119;235;69;84;30;139;163;189;
   185;103;176;150;31;107;232;87;200;16;2;216;209;81;145;133;112;128;208;97;58;217;160;154;53;55;208;129;146;187;34;
   161;100;44;6;64;156;203;126;72;92;186;172;113;234;211;45;61;140;140;250;92;54;129;167;174;180;114;105;212;38;95;
   239;245;199;220;32;58;122;58;49;74;140;203;137;21;203;84;71;151;125;118;170;74;160;166;14;138;128;7;41;159;67;66;
   193;54;27;124;21;201;120;232;6;183;115;152;123;222;231;92;74;55;4;149;163;79;108;17;8;108;36;173;111;26;51;139;120;
   36;121;163;135;168;18;112;24;230;71;114;217;102;98;243;60;210;52;76;48;133;28;254;20;142;174;162;204;44;68;70;134;
   84;128;50;152;93;119;192;29;16;251;56;190;2;25;231;194;132;251;120;139;4;139;187;136;35;13;180;197;178;147;105;0;
   228;50;60;9;172;204;37;241;109;232;242;73;43;89;195;129;243;201;188;132;15;253;166;197;195;58;136;157;247;166;212;
   246;102;42;53;121;109;196;146;185;249;144;143;112;137;146;119;81;255;36;13;138;229;60;71;107;29;20;225;75;121;149;
   77;178;41;34;177;83;0;55;99;101;132;252;51;51;171;134;121;105;94;62;91;1;236;19;24;105;176;35;93;102;64;252;140;
   104;243;251;129;230;44;164;138;24;13;79;166;115;38;25;186;153;210;55;53;164;42;216;83;169;46;83;94;0;109;200;242;
   57;11;142;120;147;92;138;118;81;149;51;171;99;178;28;51;9;23;75;71;123;3;180;239;16;23;46;192;202;230;68;204;166;
   35;103;232;218;130;54;6;37;102;218;77;105;41;51;118;91;159;241;26;64;55;215;129;67;210;180;143;166;90;89;57;169;
   172;23;134;146;151;141;223;82;186;66;167;11;193;183;74;69;128;10;142;161;78;145;37;176;125;66;12;110;97;197;147;
   168;126;184;107;137;14;92;135;36;128;175;66;204;146;7;226;90;211;67;138;1;145;158;19;170;82;240;106;201;52;10;156;
   76;161;122;23;172;76;14;12;69;193;119;140;128;252;127;57;113;101;76;55;110;30;193;77;60;75;185;164;186;78;21;151;
   173;255;80;53;117;164;77;250;65;45;75;249;189;216;208;64;29;155;17;154;235;186;25;106;76;178;22;161;61;42;47;222;
   247;128;44;236;37;92;145;75;163;25;151;95;28;67;100;247;24;138;27;161;23;113;9;124;97;104;73;130;143;117;162;193;
   29;36;3;70;214;182;204;168;108;192;68;143;236;23;20;191;58;205;93;68;57;102;139;14;212;243;175;210;34;175;125;9;
   115;233;20;8;231;64;203;3;179;92;200;73;6;82;43;98;165;108;184;223;16;130;104;129;193;208;60;29;127;65;149;215;231;
   207;235;133;108;232;55;12;200;150;58;0;132;154;85;84;140;55;108;132;123;37;105;71;0;74;235;52;48;214;229;132;3;170;
   33;4;58;165;131;53;186;1;32;168;143;228;149;226;128;159;226;64;177;98;225;153;248;105;115;28;226;23;148;37;189;77;
   232;166;138;215;105;125;24;182;241;112;129;119;92;27;141;117;177;172;113;202;125;133;32;173;80;67;49;235;110;61;
   130;43;77;38;119;123;252;64;197;231;92;12;53;46;221;39;15;126;130;103;209;147;40;6;88;0;93;57;43;44;100;135;206;
   249;10;76;108;177;193;199;12;184;42;160;216;234;152;80;21;27;138;6;68;82;153;118;125;231;118;176;25;96;193;12;65;
   100;7;8;62;218;24;144;107;155;91;150;123;200;136;127;140;123;197;128;106;28;18;156;120;5;39;13;118;132;93;20;28;
   133;200;230;197;209;132;14;188;181;33;193;220;133;110;37;158;140;33;37;31;9;83;135;247;125;192;59;95;33;202;83;125;
   248;4;191;23;202;138;160;174;62;187;44;203;226;20;77;26;108;107;25;173;157;32;4;68;20;105;143;12;208;26;182;67;113;
   230;53;152;139;91;122;179;48;132;6;35;116;210;142;157;121;166;191;140;45;80;144;98;112;124;15;34;156;33;232;17;168;
   10;246;117;181;52;112;5;5;149;179;182;47;78;44;166;216;24;41;45;39;0;21;177;100;184;56;85;13;249;143;26;75;68;179;
   96;62;201;148;162;248;145;127;118;194;124;42;22;157;59;18;17;194;202;120;81;2;26;216;119;152;52;240;38;255;230;67;
   235;130;98;89;245;106;108;181;52;14;103;149;118;201;178;107;69;106;139;2;69;206;230;30;124;40;197;52;124;131;91;
   136;193;72;215;92;14;134;7;50;146;104;53;209;18;100;123;204;236;211;175;46;152;141;58;232;53;137;213;202;129;9;82;
   11;25;169;178;166;97;92;161;134;241;224;56;111;241;191;17;72;143;190;195;76;24;85;42;157;115;146;25;184;87;110;82;
   124;232;243;45;6;163;104;108;181;200;37;73;159;32;108;66;80;70;152;217;54;153;240;236;4;215;151;149;54;73;102;149;
   4;74;16;179;119;181;19;4;54;73;45;63;52;172;7;181;0;110;75;129;38;245;166;65;5;98;224;204;158;130;69;77;82;3;1;17;
   211;165;121;182;50;76;12;123;15;9;165;99;33;177;151;12;48;44;199;141;212;224;86;114;38;186;121;135;39;23;42;197;59;
   56;112;128;181;41;43;162;171;39;1;24;138;92;2;24;231;198;98;60;111;149;44;128;163;69;28;122;25;89;155;84;168;114;
   194;128;245;123;190;224;1;28;100;5;198;47;203;130;102;19;138;213;4;162;36;138;25;192;21;163;5;118;89;73;26;123;254;
   85;120;16;80;73;147;96;89;181;101;187;110;196;155;244;167;205;136;33;82;214;156;74;26;41;33;62;90;6;113;135;7;197;
   122;63;138;27;205;220;240;74;12;50;193;252;44;1;159;16;47;5;193;45;191;42;111;161;10;7;91;89;120;178;18;121;26;179;
   163;124;71;129;55;202;35;189;241;44;205;194;38;137;8;108;124;134;155;188;41;49;11;170;148;106;60;63;224;80;63;228;
   87;17;0;2;178;53;195;155;133;85;167;156;204;77;165;55;153;227;103;71;98;3;177;42;75;109;95;16;172;99;135;80;134;
   116;160;99;177;95;127;37;54;54;246;103;100;119;137;173;215;186;237;217;108;186;150;57;14;211;24;107;101;64;203;229;
   146;147;202;155;99;74;188;32;129;41;77;195;148;17;89;181;225;178;40;2;84;167;40;134;116;85;132;116;182;234;59;179;
   209;23;2;167;18;209;155;100;64;246;140;102;119;92;97;161;104;101;102;155;242;52;14;169;241;140;64;178;179;228;152;
   141;244;124;49;124;176;63;115;106;175;44;26;90;212;35;69;47;139;193;184;26;116;149;60;184;97;17;56;125;246;124;71;
   199;144;38;56;110;42;210;197;224;51;37;111;97;116;208;215;133;200;107;113;94;37;113;86;171;36;174;104;32;170;181;
   160;180;60;93;21;171;37;226;121;81;24;149;29;208;54;11;71;209;60;202;69;189;1;106;12;180;201;127;63;102;177;252;97;
   46;151;65;77;179;155;143;216;42;75;192;154;125;146;243;130;66;233;167;25;83;63;168;64;107;185;23;132;252;21;134;
   207;82;105;159;217;45;83;3;9;250;197;13;225;252;196;92;28;154;160;219;155;204;56;4;52;9;110;156;146;23;202;208;54;
   147;52;115;47;131;61;71;152;33;22;188;149;26;28;61;53;208;136;74;97;66;116;245;200;112;166;127;5;245;38;37;231;113;
   201;208;134;93;113;164;165;121;163;11;28;15;173;34;131;98;251;140;14;177;202;253;197;129;178;184;122;177;214;178;
   198;71;146;85;152;167;207;35;157;116;229;106;74;182;0;37;89;126;175;76;50;229;122;65;37;180;157;87;49;45;35;130;90;
   50;193;41;40;155;64;197;235;104;138;122;175;191;103;91;158;70;166;180;102;32;104;227;117;20;90;46;185;103;80;93;51;
   202;87;25;189;3;240;0;75;88;207;112;241;10;79;235;89;248;169;156;37;113;28;73;67;12;239;134;83;164;28;183;54;16;14;
   0;52;177;116;50;70;117;35;87;128;96;40;220;248;83;43;204;207;90;145;1;154;18;166;232;105;127;145;138;127;43;80;72;
   79;38;90;161;57;118;151;226;94;216;103;71;35;56;138;78;81;150;251;53;149;245;108;119;220;58;112;52;36;83;130;44;
   122;220;135;185;209;179;55;61;186;66;112;69;91;228;196;179;179;230;71;106;8;162;244;226;203;129;184;90;209;149;62;
   204;182;123;160;245;29;17;12;187;60;131;196;128;145;141;16;219;13;185;89;86;42;9;17;90;41;190;165;139;49;230;69;
   179;19;116;150;228;155;196;182;210;43;61;44;187;124;216;102;82;171;9;217;245;34;77;57;70;245;74;58;142;227;6;242;4;
   137;119;84;127;175;164;165;249;9;96;209;130;193;206;197;156;181;230;100;69;204;157;56;151;188;41;208;116;0;74;204;
   81;243;179;6;250;90;251;3;74;166;80;170;61;204;41;37;188;12;218;53;186;157;53;67;219;39;163;116;244;61;16;194;91;
   189;6;54;104;209;48;32;117;204;90;162;110;25;194;160;111;219;199;37;139;83;198;135;180;114;113;199;227;232;162;80;
   68;43;202;99;47;133;88;123;223;2;169;131;234;125;43;20;8;90;224;118;167;169;184;65;198;142;15;209;105;34;164;143;8;
   41;200;20;168;23;216;226;133;239;8;117;140;68;197;153;216;48;42;124;176;15;201;39;207;73;159;5;136;68;124;242;141;
   78;119;141;3;156;62;111;197;25;42;241;28;29;251;138;184;90;6;245;164;170;146;67;116;121;233;185;24;198;204;104;154;
   69;199;232;169;72;151;7;94;251;116;130;177;68;23;51;149;176;74;45;169;136;200;17;248;120;233;181;101;190;202;51;
   242;100;60;106;208;178;202;242;49;91;176;203;211;241;132;205;152;127;189;67;113;120;25;24;62;5;166;105;87;119;28;
   137;170;131;153;96;198;168;89;86;0;204;173;35;85;150;87;44;47;82;6;11;58;11;8;117;200;74;2;158;11;58;40;132;116;53;
   238;229;62;114;169;136;6;195;55;0;161;62;232;25;11;195;114;45;198;52;102;234;133;151;222;122;142;81;151;46;153;68;
   31;131;96;206;136;249;86;151;68;82;157;224;131;167;247;197;4;66;163;215;245;196;83;105;97;184;149;174;144;226;41;
   30;11;153;179;225;204;1;168;163;164;90;186;114;196;6;186;163;14;213;243;129;134;0;183;127;134;90;93;121;110;232;35;
   201;141;214;10;40;91;97;226;231;158;132;44;198;62;98;30;59;54;21;20;68;184;118;65;101;140;100;195;113;27;167;62;10;
   151;170;49;48;7;201;201;201;188;119;22;247;113;143;194;124;191;50;160;91;252;0;215;25;154;67;57;69;154;48;121;147;
   58;95;79;200;59;21;225;16;61;149;26;104;5;26;152;231;62;227;185;144;197;74;7;157;146;36;93;140;143;172;212;160;155;
   18;137;228;108;142;34;84;17;46;65;125;180;84;185;243;44;69;174;105;173;224;38;2;105;147;10;64;216;21;174;96;196;
   117;27;6;117;194;28;34;91;112;0;151;159;37;107;189;244;69;43;169;140;171;208;179;48;213;195;89;46;88;153;66;224;
   159;189;135;137;180;193;23;41;132;66;41;226;203;150;124;177;203;229;200;233;224;139;246;148;180;82;188;108;151;156;
   16;1;23;69;176;230;62;245;170;78;145;10;41;60;165;205;29;177;44;9;26;90;252;121;78;24;34;67;135;107;117;139;27;14;
   182;202;61;179;130;183;198;81;196;15;83;47;108;226;193;139;156;165;107;181;126;31;154;165;101;186;196;104;54;153;
   121;56;99;122;146;183;15;170;174;67;210;38;232;114;93;63;199;53;189;91;37;63;50;187;52;168;12;224;26;35;122;99;90;
   77;121;194;34;185;136;239;80;117;77;35;64;69;185;195;243;97;165;199;193;91;213;87;171;225;183;183;224;220;12;149;
   107;138;100;19;142;220;219;178;104;76;44;76;105;75;247;6;36;126;1;6;56;53;166;57;210;8;225;227;17;185;233;17;99;
   132;18;144;83;192;194;133;67;108;37;135;5;60;27;196;131;160;216;218;56;125;75;191;234;229;18;234;49;194;207;7;3;
   221;119;29;74;6;126;103;24;155;121;128;202;152;187;204;218;56;76;150;232;39;46;12;112;89;88;68;164;101;73;127;172;
   58;88;167;79;242;134;159;178;83;126;83;182;83;219;88;164;129;72;103;211;10;107;203;90;31;128;70;206;58;194;11;17;
   51;132;135;202;135;169;140;175;179;19;119;62;129;37;113;114;24;219;76;35;142;92;9;253;44;160;26;244;156;183;229;
   129;118;32;171;70;106;87;77;26;170;189;83;183;208;214;48;145;252;23;155;84;159;65;220;4;143;184;143;165;72;103;176;
   99;86;177;219;138;196;65;6;71;216;79;225;183;191;68;131;137;158;99;101;94;245;189;232;232;36;191;149;102;133;130;
   41;166;80;88;9;227;55;103;74;31;192;39;12;166;156;42;188;179;202;5;76;43;85;112;15;222;177;105;2;44;126;55;227;98;
   210;252;179;113;162;118;184;84;144;235;35;85;214;66;17;135;82;188;22;244;116;79;233;17;87;18;73;8;17;98;164;17;132;
   247;25;161;225;48;41;201;83;150;155;193;89;253;85;27;21;90;122;104;10;130;54;231;221;154;30;101;82;221;185;83;229;
   200;25;76;195;56;204;184;139;212;218;76;26;76;232;170;225;89;57;6;129;94;213;125;72;206;217;116;226;211;4;34;186;
   96;237;207;134;17;80;185;62;150;133;0;202;66;29;144;221;212;161;60;177;238;169;136;0;75;147;16;60;251;10;238;253;
   42;104;110;1;250;74;88;232;163;99;156;168;161;227;249;174;87;226].
Definition v1024_ct : list Z :=
  [49;253;154;123;176;200;117;110;81;114;203;216;143;142;242;33;81;34;201;170;167;67;124;18;21;88;79;185;93;86;195;
   112;12;57;37;126;22;26;235;69;134;163;51;45;174;207;93;182;131;129;127;89;88;247;74;186;15;96;92;139;98;75;130;219;
   100;221;109;75;61;232;86;14;139;156;221;44;42;101;66;98;180;201;99;253;62;125;236;101;17;53;176;179;49;140;164;253;
   118;206;177;188;31;57;227;165;198;118;123;21;150;54;4;32;65;65;126;160;126;48;64;51;212;11;218;215;111;135;139;250;
   50;187;251;19;249;104;57;154;174;22;175;63;7;60;15;166;85;157;234;225;107;169;167;8;77;91;166;190;94;203;52;72;57;
   120;6;212;215;6;28;49;224;153;64;188;120;127;54;92;158;44;227;23;85;115;28;15;196;95;240;194;185;76;87;73;144;84;
   158;24;239;13;75;243;204;215;89;39;107;184;144;198;146;196;43;170;154;55;206;164;141;224;167;63;222;111;39;124;245;
   200;123;146;115;8;215;19;231;199;82;183;105;186;211;183;47;235;134;47;70;67;221;43;8;40;97;15;222;163;238;162;3;
   179;23;159;246;158;197;254;171;124;75;121;86;208;167;193;122;82;198;219;143;123;139;68;162;130;6;65;240;224;25;175;
   158;169;152;237;0;183;150;69;124;97;103;169;184;54;92;20;103;215;4;172;17;141;158;169;205;92;17;2;129;73;111;201;
   98;62;141;26;23;227;118;133;49;72;173;69;110;100;239;254;130;211;28;23;154;103;60;19;200;46;157;219;228;98;111;170;
   62;101;66;53;56;148;221;169;122;227;62;131;238;38;149;236;230;39;66;136;137;207;116;55;118;153;180;49;93;194;202;
   126;236;160;226;143;58;200;190;96;192;26;224;7;87;232;83;35;92;29;225;214;208;222;147;62;253;64;72;130;94;206;14;
   111;23;72;243;67;208;178;250;214;225;243;201;174;90;60;57;101;30;210;221;193;233;118;227;40;57;100;108;233;141;55;
   193;22;153;75;98;91;125;190;231;170;218;71;169;9;16;227;114;95;185;180;46;5;73;45;194;183;171;179;59;101;41;54;65;
   109;132;194;109;180;107;160;38;21;209;21;17;160;127;225;67;121;67;28;29;220;95;29;94;193;137;67;117;242;42;160;226;
   207;21;254;22;7;217;207;249;91;107;218;110;200;165;73;238;55;118;53;237;94;253;233;45;67;2;112;167;196;219;182;221;
   35;121;47;13;61;72;218;149;179;114;135;39;140;40;140;38;108;91;145;78;169;247;45;172;150;94;184;220;220;122;126;35;
   251;220;210;44;220;21;114;204;180;22;202;139;50;127;206;100;231;102;145;96;37;159;186;15;99;123;242;35;179;237;158;
   229;107;48;124;88;143;180;119;207;242;3;199;159;113;6;6;222;150;142;176;141;150;159;195;90;112;100;102;133;100;250;
   249;179;152;156;181;39;31;74;211;34;41;250;115;180;113;22;50;186;229;21;64;173;28;187;24;246;188;44;195;148;67;51;
   214;224;78;94;37;178;200;100;227;77;163;132;182;130;223;80;12;197;110;17;239;94;90;1;204;113;3;93;231;161;66;220;
   80;98;98;182;13;103;194;153;149;243;11;157;221;129;150;71;148;160;82;185;224;73;19;185;67;127;114;114;0;27;130;48;
   206;135;21;185;80;3;171;34;104;124;200;148;71;63;240;213;207;172;127;106;165;159;54;56;56;34;172;208;92;45;227;39;
   148;155;47;245;218;145;102;229;142;155;199;120;115;207;82;181;168;2;253;95;246;72;151;50;87;138;119;36;65;131;244;
   16;244;172;121;143;84;65;162;160;119;9;13;152;166;17;122;191;22;146;254;245;15;112;185;157;236;177;217;71;6;196;42;
   55;152;18;99;226;24;222;140;115;140;233;105;46;85;143;135;87;78;80;241;47;69;231;99;4;74;67;171;255;235;111;178;
   149;13;148;123;36;25;151;34;173;254;102;133;224;188;253;130;63;186;216;251;96;210;78;37;203;71;134;231;16;226;3;
   211;76;164;86;107;77;23;248;235;19;161;97;228;16;53;47;13;90;218;31;100;113;37;5;201;209;5;182;124;222;155;72;168;
   35;205;80;162;237;145;19;192;178;115;104;241;222;194;162;237;195;231;109;233;148;155;91;80;77;34;237;221;25;163;
   164;124;115;66;19;206;63;204;248;138;18;178;30;9;162;59;9;237;158;84;34;251;116;139;76;226;19;33;177;223;95;174;
   173;230;56;230;121;92;121;56;150;76;79;66;146;201;190;145;29;53;54;14;64;254;179;25;22;122;239;161;64;143;180;76;
   116;49;222;26;77;11;58;63;178;107;235;233;183;222;116;165;136;3;214;117;208;101;106;34;221;158;39;63;249;72;69;78;
   57;104;180;237;246;9;221;254;211;167;200;253;134;86;112;206;178;48;91;163;170;201;47;39;109;56;158;190;175;208;34;
   248;107;7;14;162;151;225;108;36;96;207;245;8;69;144;208;95;167;25;57;45;217;136;33;216;65;97;5;106;88;172;13;50;12;
   33;128;34;89;101;125;133;82;119;185;28;230;31;125;152;61;7;96;243;174;129;214;162;61;8;10;74;83;117;188;49;89;154;
   155;114;12;20;232;18;196;178;141;40;96;176;155;89;140;245;16;78;130;95;244;23;212;239;116;3;12;106;114;212;86;41;
   27;30;77;121;59;156;171;181;71;45;180;192;60;124;71;129;35;111;161;6;70;49;2;155;132;55;66;114;20;152;229;163;66;
   17;153;251;159;135;27;88;114;196;169;212;167;94;23;99;233;211;130;11;146;57;153;15;122;143;74;71;172;226;240;13;56;
   204;243;27;168;122;250;18;46;27;79;225;210;46;73;221;13;183;46;198;169;14;181;60;7;71;97;213;146;104;228;160;229;
   58;85;238;140;12;100;96;197;176;103;14;248;127;225;33;92;175;148;228;222;89;131;51;57;38;13;40;187;100;118;160;171;
   192;137;122;233;176;59;163;144;58;96;212;111;119;19;73;144;214;48;239;46;93;13;244;144;64;238;24;172;171;51;225;30;
   160;90;126;40;156;60;107;35;234;48;17;156;57;233;34;143;201;5;237;218;162;16;53;5;61;241;81;216;113;10;38;227;144;
   59;252;221;183;117;13;61;100;84;41;176;54;187;154;161;208;60;80;0;5;62;6;185;189;20;99;197;52;191;190;129;119;43;
   130;78;170;16;126;196;70;139;235;249;160;112;58;118;130;175;53;150;101;125;29;208;27;128;39;187;187;38;254;150;152;
   147;236;81;62;39;145;188;117;18;32;127;140;154;82;226;157;138;214;156;147;120;193;122;186;12;64;4;109;164;255;238;
   164;132;45;175;209;8;101;19;101;149;95;255;164;149;116;60;70;239;223;145;210;51;246;253;149;38;121;85;92;211;183;
   101;190;12;55;69;32;202;51;44;126;64;85;100;243;77;26;167;229;231;80;165;236;174;167;246;86;44;154;15;134;32;115;
   67;151;146;153;204;172;176;112;181;2;231;240;187;91;53;53;96;72;93;135;171;81;159;119;135;191;171;196;200;44;150;
   29;144;12;96;246].
Definition v1024_ss : list Z :=
  [54;216;37;237;62;22;142;183;85;28;131;182;60;56;69;78;49;217;77;51;218;156;59;199;102;36;76;228;212;203;100;12].
Definition v1024_ct1 : list Z :=
  [49;253;154;123;176;200;117;110;81;114;203;216;143;142;242;33;81;34;201;170;167;67;124;18;21;88;79;185;93;86;195;
   112;12;57;37;126;22;26;235;69;134;163;51;45;174;207;93;182;131;129;127;89;88;247;74;186;15;96;92;139;98;75;130;219;
   100;221;109;75;61;232;86;14;139;156;221;44;42;101;66;98;180;201;99;253;62;125;236;101;17;53;176;179;49;140;164;253;
   118;206;177;188;31;57;227;165;198;118;123;21;150;54;4;32;65;65;126;160;126;48;64;51;212;11;218;215;111;135;139;250;
   50;187;251;19;249;104;57;154;174;22;175;63;7;60;15;166;85;157;234;225;107;169;167;8;77;91;166;190;94;203;52;72;57;
   120;6;212;215;6;28;49;224;153;64;188;120;127;54;92;158;44;227;23;85;115;28;15;196;95;240;194;185;76;87;73;144;84;
   158;24;239;13;75;243;204;215;89;39;107;184;144;198;146;196;43;170;154;55;206;164;141;224;167;63;222;111;39;124;245;
   200;123;146;115;8;215;19;231;199;82;183;105;186;211;183;47;235;134;47;70;67;221;43;8;40;97;15;222;163;238;162;3;
   179;23;159;246;158;197;254;171;124;75;121;86;208;167;193;122;82;198;219;143;123;139;68;162;130;6;65;240;224;25;175;
   158;169;152;237;0;183;150;69;124;97;103;169;184;54;92;20;103;215;4;172;17;141;158;169;205;92;17;2;129;73;111;201;
   98;62;141;26;23;227;118;133;49;72;173;69;110;100;239;254;130;211;28;23;154;103;60;19;200;46;157;219;228;98;111;170;
   62;101;66;53;56;148;221;169;122;227;62;131;238;38;149;236;230;39;66;136;137;207;116;55;118;153;180;49;93;194;202;
   126;236;160;226;143;58;200;190;96;192;26;224;7;87;232;83;35;92;29;225;214;208;222;147;62;253;64;72;130;94;206;14;
   111;23;72;243;67;208;178;250;214;225;243;201;174;90;60;57;101;30;210;221;193;233;118;227;40;57;100;108;233;141;55;
   193;22;153;75;98;91;125;190;231;170;218;71;169;9;16;227;114;95;185;180;46;5;73;45;194;183;171;179;59;101;41;54;65;
   109;132;194;109;180;107;160;38;21;209;21;17;160;127;225;67;121;67;28;29;220;95;29;94;193;137;67;117;242;42;160;226;
   207;21;254;22;7;217;207;249;91;107;218;110;200;165;73;238;55;118;53;237;94;253;233;45;67;2;112;167;196;219;182;221;
   35;121;47;13;61;72;218;149;179;114;135;39;140;40;140;38;108;91;145;78;169;247;45;172;150;94;184;220;220;122;126;35;
   251;220;210;44;220;21;114;204;180;22;202;139;50;127;206;100;231;102;145;96;37;159;186;15;99;123;242;35;179;237;158;
   229;107;48;124;88;143;180;119;207;242;3;199;159;113;6;6;222;150;142;176;141;150;159;195;90;112;100;102;133;100;250;
   249;179;152;156;181;39;31;74;211;34;41;250;115;180;113;22;50;186;229;21;64;173;28;187;24;246;188;44;195;148;67;51;
   214;224;78;94;37;178;200;100;227;77;163;132;182;130;223;80;12;197;110;17;239;94;90;1;204;113;3;93;231;161;66;220;
   80;98;98;182;13;103;194;153;149;243;11;157;221;129;150;71;148;160;82;185;224;73;19;185;67;127;114;114;0;27;130;48;
   206;135;21;185;80;3;171;34;104;124;200;148;71;63;240;213;207;172;127;106;165;159;54;56;56;34;172;208;92;45;227;39;
   148;155;47;245;218;145;102;229;142;155;199;120;115;207;82;181;168;2;253;95;246;72;151;50;87;138;119;36;65;131;244;
   16;244;172;121;143;84;65;162;160;119;9;13;152;166;17;122;191;22;146;254;245;15;112;185;157;236;177;217;71;6;196;42;
   55;152;18;99;226;24;222;140;115;140;233;105;46;85;143;135;87;78;80;241;47;69;231;99;4;74;67;171;255;235;111;178;
   149;13;148;123;36;25;151;34;173;254;102;133;224;188;253;130;63;186;216;251;96;210;78;37;203;71;134;231;16;226;3;
   211;76;164;86;107;77;23;248;235;19;161;97;228;16;53;47;13;90;218;31;100;113;37;5;201;209;5;182;124;222;155;72;168;
   35;205;80;162;237;145;19;192;178;115;104;241;222;194;162;237;195;231;109;233;148;155;91;80;77;34;237;221;25;163;
   164;124;115;66;19;206;63;204;248;138;18;178;30;9;162;59;9;237;158;84;34;251;116;139;76;226;19;33;177;223;95;174;
   173;230;56;230;121;92;121;56;150;76;79;66;146;201;190;145;29;53;54;14;64;254;179;25;22;122;239;161;64;143;180;76;
   116;49;222;26;77;11;58;63;178;107;235;233;183;222;116;165;136;3;214;117;208;101;106;34;221;158;39;63;249;72;69;78;
   57;104;180;237;246;9;221;254;211;167;200;253;134;86;112;206;178;48;91;163;170;201;47;39;109;56;158;190;175;208;34;
   248;107;7;14;162;151;225;108;36;96;207;245;8;69;144;208;95;167;25;57;45;217;136;33;216;65;97;5;106;88;172;13;50;12;
   33;128;34;89;101;125;133;82;119;185;28;230;31;125;152;61;7;96;243;174;129;214;162;61;8;10;74;83;117;188;49;89;154;
   155;114;12;20;232;18;196;178;141;40;96;176;155;89;140;245;16;78;130;95;244;23;212;239;116;3;12;106;114;212;86;41;
   27;30;77;121;59;156;171;181;71;45;180;192;60;124;71;129;35;111;161;6;70;49;2;155;132;55;66;114;20;152;229;163;66;
   17;153;251;159;135;27;88;114;196;169;212;167;94;23;99;233;211;130;11;146;57;153;15;122;143;74;71;172;226;240;13;56;
   204;243;27;168;122;250;18;46;27;79;225;210;46;73;221;13;183;46;198;169;14;181;60;7;71;97;213;146;104;228;160;229;
   58;85;238;140;12;100;96;197;176;103;14;248;127;225;33;92;175;148;228;222;89;131;51;57;38;13;40;187;100;118;160;171;
   192;137;122;233;176;59;163;144;58;96;212;111;119;19;73;144;214;48;239;46;93;13;244;144;64;238;24;172;171;51;225;30;
   160;90;126;40;156;60;107;35;234;48;17;156;57;233;34;143;201;5;237;218;162;16;53;5;61;241;81;216;113;10;38;227;144;
   59;252;221;183;117;13;61;100;84;41;176;54;187;154;161;208;60;80;0;5;62;6;185;189;20;99;197;52;191;190;129;119;43;
   130;78;170;16;126;196;70;139;235;249;160;112;58;118;130;175;53;150;101;125;29;208;27;128;39;187;187;38;254;150;152;
   147;236;81;62;39;145;188;117;18;32;127;140;154;82;226;157;138;214;156;147;120;193;122;186;12;64;4;109;164;255;238;
   164;132;45;175;209;8;101;19;101;149;95;255;164;149;116;60;70;239;223;145;210;51;246;253;149;38;121;85;92;211;183;
   101;190;12;55;69;32;202;51;44;126;64;85;100;243;77;26;167;229;231;80;165;236;174;167;246;86;44;154;15;134;32;115;
   67;151;146;153;204;172;176;112;181;2;231;240;187;91;53;53;96;72;93;135;171;81;159;119;135;191;171;196;200;44;150;
   29;144;12;96;247].
Definition v1024_ss1 : list Z :=
  [32;237;219;132;67;34;43;119;24;41;89;34;174;247;231;197;143;171;209;180;38;198;150;238;219;158;83;108;109;48;103;
   243].
(** the selftest RNG is SHAKE128 of the empty message [drng/src/selftest_rng.c: 22-39]: 64 bytes for the key pair, then 32 for enc *)
Definition v_seed : list Z :=
  [127;156;43;164;232;143;130;125;97;96;69;80;118;5;133;62;215;59;128;147;246;239;188;136;235;26;110;172;250;102;239;
   38;60;177;238;169;136;0;75;147;16;60;251;10;238;253;42;104;110;1;250;74;88;232;163;99;156;168;161;227;249;174;87;
   226].
Definition v_m : list Z :=
  [53;184;204;135;60;35;220;98;184;210;96;22;154;250;47;117;171;145;106;88;217;116;145;136;53;210;94;106;67;80;133;
   178].
