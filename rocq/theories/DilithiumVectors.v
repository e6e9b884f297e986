(** Test vectors of the self tests in ml-dsa/src, used by the examples of the PropDil files. *)
From Verif Require Import Bytes.
(** [dilithium_selftest_vector_44.h] *)
Definition dv44_m : list Z :=
  [127;156;43;164;232;143;130;125;97;96;69;80;118;5;133;62;215;59;128;147;246;239;188;136;235;26;110;172;250;102;239;
   38;60;177;238;169;136;0;75;147;16;60;251;10;238;253;42;104;110;1;250;74;88;232;163;99;156;168;161;227;249;174;87;
   226].
Definition dv44_pk : list Z :=
  [225;42;106;215;35;149;52;132;163;125;143;233;248;101;114;128;15;212;161;152;24;245;22;167;159;237;255;56;235;144;
   207;97;196;152;225;21;242;149;230;109;188;177;18;84;89;33;73;197;250;76;25;91;190;220;191;111;239;174;51;166;61;
   203;198;105;21;162;239;88;94;129;3;7;124;49;185;77;78;39;250;206;185;227;233;99;123;186;106;9;106;226;124;193;201;
   35;249;109;72;13;79;233;234;239;148;112;236;43;221;69;70;149;58;184;200;50;13;29;113;38;93;39;149;164;234;138;134;
   35;40;232;145;20;214;9;169;120;112;44;188;154;66;70;122;146;222;199;0;173;98;72;12;82;103;63;180;153;137;202;149;
   88;204;125;73;123;152;197;48;69;233;25;244;159;172;105;44;187;150;133;238;197;152;127;5;153;83;162;80;80;253;144;
   80;26;15;135;65;208;6;92;144;162;179;117;51;169;101;247;209;191;57;40;56;204;54;202;27;212;10;80;218;118;113;198;
   132;228;138;197;200;187;177;33;208;141;207;20;163;59;26;140;108;181;181;154;119;68;153;70;9;108;181;106;148;31;
   104;177;66;178;255;166;234;176;254;40;51;36;14;40;82;218;139;34;4;246;51;57;102;156;95;59;119;89;127;155;222;202;
   133;210;69;209;94;173;189;28;200;58;208;94;115;8;51;39;96;100;227;170;117;251;251;135;123;70;159;204;169;242;21;
   171;6;72;130;1;12;139;195;166;229;70;191;6;208;138;182;116;13;11;110;194;109;2;78;171;93;217;164;101;75;133;184;
   244;117;72;60;196;244;206;152;210;184;38;77;39;73;108;100;205;46;242;225;159;132;165;100;213;68;16;187;58;222;125;
   111;81;215;100;185;186;29;255;179;21;104;211;153;222;6;72;205;125;238;104;40;249;147;91;11;254;140;113;15;19;145;
   229;38;106;123;88;202;221;63;161;197;98;64;248;247;95;12;43;66;119;124;91;122;228;204;220;53;134;233;22;30;12;117;
   210;46;252;187;211;144;162;178;8;44;181;207;31;248;226;56;77;199;16;237;57;56;206;245;190;111;18;145;0;98;114;149;
   122;7;121;227;140;79;0;173;221;243;178;112;29;95;9;8;211;117;232;229;110;36;191;108;50;173;46;38;105;39;63;202;
   57;168;51;87;181;128;75;63;65;83;122;207;228;79;142;106;223;250;223;105;158;72;98;147;67;252;240;109;120;125;232;
   200;78;62;28;92;232;241;187;117;240;138;113;43;187;16;154;123;105;120;202;194;246;50;168;58;168;226;120;181;62;
   64;61;252;65;253;224;123;147;81;152;171;160;249;56;131;192;148;62;183;195;49;35;232;194;192;177;48;118;170;69;45;
   222;67;86;220;251;84;39;0;229;121;14;108;238;247;82;193;95;7;250;93;14;228;162;11;34;165;19;51;253;6;17;13;89;24;
   45;167;161;31;70;54;113;74;157;26;126;181;206;140;35;105;166;151;140;108;162;174;144;63;168;142;4;57;254;116;75;
   93;126;104;142;241;34;114;126;49;97;170;203;56;103;188;174;188;46;113;176;7;47;52;133;233;221;76;60;93;21;91;196;
   63;27;91;177;161;6;100;253;51;47;238;123;199;141;66;208;158;219;1;27;168;126;163;44;110;220;111;48;114;112;184;
   195;252;211;140;209;252;174;14;112;135;22;140;123;201;101;222;145;222;74;186;144;60;38;143;89;91;15;197;130;58;
   114;180;241;131;188;164;117;198;199;91;14;5;25;57;3;222;56;167;164;160;236;166;46;140;175;34;223;42;20;54;253;206;
   39;235;202;185;218;81;79;109;237;160;202;186;244;170;139;99;85;80;56;181;212;156;2;72;141;24;233;51;3;34;239;86;
   48;173;32;206;136;103;251;130;12;35;218;124;188;110;47;152;29;116;119;119;81;113;244;13;208;173;130;27;139;111;
   151;238;4;160;96;111;42;174;160;186;7;230;176;243;189;115;125;187;191;72;217;235;143;121;255;23;92;69;52;72;168;
   57;239;104;43;202;112;93;61;181;213;229;32;226;182;9;68;26;46;219;149;204;86;80;64;93;192;198;19;77;119;115;71;
   154;35;103;44;14;1;80;253;36;116;162;202;15;190;20;74;155;203;238;209;222;149;56;140;231;143;21;203;217;44;33;18;
   170;217;173;49;158;24;158;116;139;91;16;93;113;200;90;158;37;5;131;107;201;2;203;49;223;81;188;39;17;85;236;142;
   247;129;244;147;233;181;91;123;25;239;157;234;202;123;77;0;211;49;26;35;213;152;165;148;236;99;182;95;9;146;30;
   116;24;132;114;209;43;47;115;147;255;178;55;220;239;145;165;116;156;144;59;229;226;6;246;139;34;211;112;247;165;
   67;117;135;158;185;0;166;115;226;135;135;34;198;2;149;90;237;250;170;31;170;245;231;74;44;24;73;148;157;118;120;
   44;107;207;37;173;198;174;16;213;34;176;128;166;69;123;48;250;139;251;75;164;16;247;38;170;9;69;63;240;45;242;104;
   85;124;235;237;148;80;232;152;205;140;6;93;202;174;82;231;40;52;254;156;53;53;83;212;14;133;226;140;197;85;149;
   230;157;47;79;123;134;228;119;29;214;223;240;106;202;84;89;107;201;110;15;28;79;246;16;93;131;59;186;63;214;171;
   195;102;202;135;246;230;8;210;167;225;162;45;45;199;6;139;47;204;222;1;207;129;20;181;119;4;77;24;175;170;112;161;
   144;62;149;131;111;218;210;217;21;232;54;38;35;120;139;255;151;249;240;14;49;67;56;30;223;253;117;73;210;21;119;
   34;150;180;130;6;183;150;189;182;205;210;144;129;229;158;72;28;78;61;254;70;53;99;38;187;10;2;176;14;240;94;10;
   213;22;12;199;242;145;50;149;0;61;50;63;116;172;133;252;109;254;178;121;115;168;19;102;113;59;184;80;152;22;171;
   208;248;75;104;82;109;34;33;137;220;105;64;238;177;218;156;17;98;49;121;183;92;211;166;235;187].
Definition dv44_sk : list Z :=
  [225;42;106;215;35;149;52;132;163;125;143;233;248;101;114;128;15;212;161;152;24;245;22;167;159;237;255;56;235;144;
   207;97;217;81;159;179;142;206;95;52;240;57;173;239;4;13;53;172;95;207;22;102;73;164;76;188;118;224;33;24;110;71;
   88;21;65;92;1;135;25;76;22;154;20;69;239;72;250;148;80;218;238;159;207;47;16;244;165;169;167;219;211;195;170;161;
   242;41;143;145;105;196;203;253;16;139;149;41;80;137;65;62;202;152;80;22;213;64;38;143;26;107;250;230;55;164;243;
   171;46;65;19;20;13;12;133;145;97;54;133;225;4;81;25;163;113;154;164;132;18;22;101;192;176;33;161;168;40;24;136;
   137;9;151;49;76;146;133;19;198;48;76;144;112;36;136;13;35;68;145;99;16;140;89;70;146;34;50;110;96;38;100;3;183;
   128;202;182;36;10;72;73;12;145;141;220;32;144;0;0;96;145;50;18;90;198;128;100;2;9;132;72;137;160;70;46;162;68;41;
   154;38;8;211;192;41;17;135;8;227;196;137;164;182;80;82;8;108;32;53;109;83;162;112;26;55;64;73;52;78;26;24;105;34;
   151;17;28;161;72;80;38;78;194;136;77;76;32;134;2;8;2;0;3;64;4;57;130;193;34;101;81;164;144;28;201;69;210;68;0;20;
   23;10;202;72;73;28;18;2;145;20;50;2;37;112;80;164;65;138;132;49;92;52;73;147;50;36;12;164;32;17;192;44;140;184;
   112;82;70;96;156;0;108;192;40;146;137;182;32;2;3;134;91;20;8;36;163;108;128;20;108;161;136;32;76;182;17;220;18;
   36;75;16;9;208;64;96;4;65;146;24;25;64;0;195;4;20;52;97;8;2;104;0;168;0;96;70;18;33;40;70;216;64;97;12;165;113;
   34;66;34;164;38;110;220;16;5;89;72;46;130;128;133;25;34;6;28;53;32;28;70;136;28;65;100;97;48;77;34;39;2;20;182;
   41;32;37;76;136;148;68;153;130;37;204;16;106;99;2;6;27;2;108;97;70;48;11;33;42;28;8;96;139;54;44;138;144;141;211;
   0;113;27;183;45;227;162;76;132;48;69;9;167;101;65;66;80;148;36;17;73;192;109;146;52;1;4;201;65;139;162;76;0;55;
   113;131;130;0;161;50;77;2;8;80;139;52;108;9;17;133;84;56;78;9;132;36;73;150;112;36;177;41;97;178;76;19;128;113;
   34;57;50;164;52;69;203;198;8;140;16;65;192;38;10;9;24;110;0;70;5;90;54;112;68;36;108;137;64;110;32;147;64;66;134;
   113;219;8;12;24;162;109;18;51;142;138;134;100;84;8;5;17;9;5;27;35;141;201;70;1;131;22;146;3;148;0;1;178;44;84;194;
   16;68;144;9;73;178;133;161;128;129;146;36;136;27;193;100;201;40;136;225;0;5;153;50;9;138;132;100;138;6;2;1;37;8;
   218;70;133;2;166;72;152;8;2;193;0;144;72;2;16;96;32;45;91;162;45;91;36;0;160;178;69;26;6;80;224;194;32;76;160;132;
   88;16;114;196;4;114;217;66;65;17;169;48;144;194;36;161;160;101;228;184;140;34;4;113;130;40;8;164;0;133;0;169;68;
   155;24;81;27;197;77;208;50;6;131;150;12;24;163;4;138;160;72;129;0;2;80;176;80;2;176;145;68;24;96;28;17;38;80;48;
   65;65;16;9;147;36;81;16;48;44;4;6;80;18;34;130;80;194;5;8;55;0;12;192;100;144;148;13;66;134;128;74;180;17;83;68;
   34;27;195;45;96;196;32;83;38;32;193;70;101;88;16;100;131;152;132;160;0;145;74;134;44;26;65;64;88;48;76;192;36;133;
   17;64;110;225;64;73;1;54;109;152;162;16;211;34;70;160;40;13;68;8;8;16;38;8;146;36;45;88;184;101;154;50;108;19;24;
   8;34;194;12;11;53;141;36;70;44;11;17;114;145;40;69;200;52;102;208;184;48;220;2;68;8;1;80;19;176;77;225;66;72;140;
   8;146;33;5;4;66;192;145;196;52;42;149;167;212;47;87;113;248;139;72;41;216;87;21;105;61;130;52;58;241;140;137;74;
   223;162;126;209;240;0;57;147;166;175;196;183;254;70;118;59;100;57;139;52;143;38;9;81;217;173;161;103;103;227;111;
   227;158;45;57;132;156;238;239;201;117;222;141;168;157;172;255;161;120;40;69;68;181;117;226;157;141;209;104;11;216;
   149;154;95;190;94;176;228;46;120;109;67;141;179;226;136;82;208;168;131;220;132;21;24;45;65;116;47;231;166;55;74;
   219;13;249;28;73;209;207;98;206;187;246;230;206;41;128;220;47;141;138;10;162;159;103;169;232;224;237;248;109;36;
   29;126;56;78;74;93;161;205;205;173;70;149;76;35;13;1;103;60;79;77;247;255;14;30;112;153;140;104;43;50;254;17;105;
   160;91;227;99;248;229;240;37;189;172;39;71;73;114;41;157;99;23;231;198;232;17;229;214;251;27;205;106;142;37;49;
   12;43;98;98;73;176;226;32;224;18;1;1;241;83;228;22;172;98;77;133;121;162;253;254;197;197;34;228;177;83;15;41;87;
   211;219;206;105;142;117;26;219;40;234;192;214;106;40;79;107;184;211;112;146;85;93;152;41;140;189;57;55;93;187;24;
   127;143;4;54;213;226;125;115;200;110;21;72;134;137;216;30;197;234;159;4;202;90;235;197;179;93;192;216;55;60;211;
   21;118;14;177;235;106;201;138;188;155;100;76;131;179;252;228;104;43;79;139;129;29;59;198;139;67;75;62;136;211;170;
   205;129;123;182;87;25;40;72;1;120;138;231;75;85;237;216;223;228;164;145;216;160;200;239;73;177;69;235;152;36;205;
   108;228;9;115;218;241;72;133;161;250;53;64;243;17;241;227;224;76;67;10;9;8;102;77;132;212;158;74;173;255;208;142;
   198;51;34;159;147;124;142;179;196;124;35;78;187;206;133;146;119;91;8;153;182;254;11;2;25;24;19;228;210;244;140;
   196;7;45;239;240;166;190;99;255;189;127;161;191;221;106;242;228;247;241;34;122;23;242;126;93;109;120;37;85;139;
   18;125;211;189;243;222;101;139;250;109;195;185;33;228;223;137;45;221;172;171;92;195;11;232;169;46;209;199;82;69;
   34;94;86;81;179;168;184;97;98;7;49;99;100;91;195;138;19;42;74;226;91;19;107;65;120;235;229;245;60;120;152;139;42;
   166;193;53;87;216;16;91;34;222;177;167;111;167;107;62;151;164;171;197;109;254;194;95;198;220;140;41;177;170;136;
   81;191;188;10;131;29;188;33;28;199;172;191;248;244;197;170;230;89;77;44;131;200;235;123;196;192;96;237;142;195;
   25;5;137;216;123;88;145;234;119;82;31;123;190;133;121;117;103;114;57;154;122;233;115;236;132;86;221;58;84;219;149;
   242;134;227;66;240;95;196;243;220;138;80;84;172;137;203;216;70;89;109;210;89;205;79;122;92;218;131;90;252;124;220;
   170;222;78;97;82;61;255;82;46;182;122;52;173;45;102;197;179;162;41;50;191;103;194;51;172;59;87;11;68;62;84;220;
   109;167;207;44;11;30;113;179;230;244;100;92;97;220;170;89;4;91;73;26;237;78;48;11;178;157;104;223;29;0;177;242;
   238;194;213;101;245;7;137;207;70;26;9;77;99;245;58;203;69;122;252;227;189;218;148;105;180;246;87;23;21;251;60;94;
   236;128;115;177;129;194;114;0;221;14;246;122;88;46;207;139;210;232;19;230;9;132;237;238;11;120;158;108;179;29;221;
   37;238;210;146;23;209;105;155;246;28;64;74;183;138;240;198;157;99;197;43;197;230;249;33;185;91;221;199;172;27;7;
   19;109;7;81;134;132;78;197;148;19;148;95;22;87;200;90;87;6;226;202;159;144;187;196;233;94;196;45;185;240;209;88;
   123;80;128;69;154;80;167;94;144;63;118;181;103;7;170;215;167;94;108;214;165;182;131;183;109;0;153;181;132;107;12;
   153;211;63;98;76;215;188;139;233;197;199;248;129;65;148;75;32;175;48;210;184;207;189;193;142;16;186;68;224;64;33;
   189;105;182;235;111;174;95;146;0;94;106;20;49;137;144;1;68;120;170;124;99;13;16;162;105;1;6;114;235;202;201;215;
   126;210;17;98;54;128;92;254;216;145;27;190;73;20;226;146;155;152;123;142;80;63;167;210;51;6;137;119;38;228;94;41;
   134;100;30;254;77;132;21;119;169;127;228;107;80;4;213;102;156;238;165;102;7;203;194;150;252;186;34;90;42;250;69;
   114;116;38;214;164;163;228;14;16;75;227;161;189;156;191;137;73;91;229;135;212;98;192;211;157;66;246;161;43;127;
   137;54;61;211;252;83;215;238;217;136;218;194;246;220;169;79;235;81;154;250;16;112;229;82;173;115;130;239;133;55;
   89;74;91;49;45;172;79;147;150;162;191;251;98;196;243;60;101;96;2;234;172;156;106;97;245;124;205;44;15;226;69;190;
   121;250;86;53;160;214;39;129;181;209;247;127;23;74;108;127;139;0;95;206;200;120;204;245;190;180;128;176;25;45;51;
   231;126;42;234;92;164;221;196;247;125;171;129;30;44;248;176;64;211;135;247;123;157;9;74;29;187;87;91;118;39;57;
   76;79;171;158;56;23;212;190;198;138;60;184;180;210;12;189;73;182;120;25;120;254;232;152;202;27;232;238;25;3;62;
   90;93;8;184;141;244;12;173;87;188;177;37;61;241;11;41;182;6;31;238;23;88;71;222;126;89;168;221;149;198;141;239;
   128;222;122;159;125;99;48;107;21;237;43;140;120;83;131;127;113;145;129;109;48;128;136;141;88;79;236;189;204;15;
   89;36;175;196;250;233;74;211;246;199;230;6;200;244;50;228;146;167;55;6;125;76;5;98;127;75;234;80;229;184;127;16;
   7;239;99;180;240;35;198;79;86;208;148;2;190;130;151;128;219;133;116;173;205;107;84;32;80;64;218;222;123;126;181;
   19;73;86;197;108;86;197;254;206;55;67;68;241;17;123;206;79;239;248;107;119;151;189;71;108;226;181;191;146;163;244;
   4;230;99;212;175;99;136;125;194;141;142;252;137;109;40;158;27;249;28;112;196;105;9;154;146;166;110;171;62;80;207;
   49;108;249;124;246;156;146;63;39;198;55;117;107;231;232;123;112;111;224;248;60;107;105;51;10;220;15;231;61;117;
   217;12;139;60;112;107;49;111;126;126;23;51;83;141;109;209;197;159;59;83;114;225;40;246;3;16;11;126;62;86;25;209;
   185;152;68;175;15;57;243;171;131;4;251;80;122;42;104;255;57;7;210;139;43;210;254;114;13;104;191;102;205;222;90;
   87;52;54;52;126;117;91;188;9;214;108;161;103;41;183;81;91;51;11;123;235;166;132;87;255;218;32;221;149;123;25;123;
   181;251;109;116;230;19;129;236;184;139;53;39;46;249;31;107;239;163;84;223;251;78;13;150;188;154;130;191;241;106;
   97;37;143;238;43;53;198;246;58;49;26;0;167;105;67;62;222;234;75;229;182;170;217;222;84;66;191;148;114;205;157;244;
   236;67;103;52;223;169;233;221;218;144;253;236;185;225;214;218;192;247;29;217;194;252;111;82;237;144;250;140;0;32;
   97;122;182;162;143;64;46;232;119;145;94;70;66;162;104;249;23;183;191;2;189;193;123;44;139;44;146;10;57;36;217;126;
   58;58;129;77;46;245;65;199;24;182;196;63;5;173;35;68;212;163;226;241;145;31;53;68;42;28;46;83;202;5;123;214;32;
   190;58;25;87;20;5;96;84;222;211;251;245;11;244;109;49;122;32;60;127].
Definition dv44_sig : list Z :=
  [222;70;170;250;205;78;21;153;217;53;165;69;28;102;203;209;49;186;83;6;93;55;150;181;9;18;64;110;31;173;180;190;
   104;36;198;93;144;227;145;243;91;246;55;85;211;190;117;182;13;202;27;141;172;187;27;189;115;216;102;145;18;227;
   57;38;41;158;152;63;124;87;227;240;202;159;10;228;13;199;168;33;161;121;181;242;60;149;109;239;212;84;221;238;58;
   244;56;46;222;158;69;209;221;248;108;2;92;178;205;141;191;144;170;192;177;118;137;14;102;26;187;122;39;117;242;
   210;99;51;228;33;247;76;71;177;139;177;27;221;13;43;212;255;165;61;105;205;246;63;228;70;99;110;20;118;132;116;
   198;97;127;231;179;215;72;89;20;169;51;144;176;212;105;88;177;20;217;46;119;97;83;8;187;203;167;8;75;222;244;99;
   65;135;106;99;93;224;130;86;220;190;198;247;177;145;55;89;218;129;133;43;87;78;39;112;148;94;195;13;66;229;132;
   37;144;241;231;163;55;127;42;89;66;222;144;108;166;85;162;213;21;18;7;117;241;251;128;111;5;18;78;39;209;176;205;
   15;14;80;64;125;17;201;185;128;139;209;80;216;30;239;255;200;182;14;118;236;212;221;246;244;122;204;107;23;83;125;
   174;237;193;134;41;72;214;148;192;172;213;240;84;200;119;167;48;150;133;103;172;164;237;157;131;211;221;228;107;
   5;237;198;62;8;89;134;52;226;10;140;150;2;12;4;202;91;129;236;216;230;145;11;30;223;220;168;170;173;97;91;90;178;
   255;245;63;235;158;68;175;23;143;185;233;36;185;235;192;165;199;108;196;11;3;229;169;137;115;219;137;161;227;100;
   127;158;200;35;161;228;88;170;15;24;130;127;39;152;41;197;132;224;80;249;2;239;253;234;161;144;140;73;211;110;30;
   137;221;52;104;110;136;67;180;237;21;77;49;99;191;178;56;10;45;46;188;104;54;225;48;124;105;211;200;177;225;234;
   220;145;239;32;145;219;168;228;242;92;78;53;66;216;210;100;157;193;132;130;89;37;247;211;228;167;113;230;212;131;
   57;244;150;137;63;23;224;205;186;219;124;89;159;220;2;159;8;159;192;195;133;227;174;225;61;69;76;82;240;59;120;
   60;30;165;102;32;172;246;216;153;54;86;94;149;251;211;70;227;150;148;39;228;207;132;151;198;74;104;162;50;72;206;
   248;93;110;112;165;144;0;4;33;232;124;4;233;62;115;31;134;40;205;179;89;226;8;108;165;172;20;10;230;223;200;244;
   82;1;106;17;236;251;53;97;29;50;240;12;142;168;218;246;203;208;164;152;134;175;190;217;101;183;251;40;191;209;185;
   140;219;153;191;15;137;170;77;149;200;141;78;119;152;88;113;89;233;251;7;179;204;46;232;36;198;93;174;87;251;22;
   155;44;185;239;5;32;55;82;214;27;161;72;53;15;191;206;187;69;238;65;154;67;240;66;211;36;156;206;182;190;51;157;
   30;230;184;201;179;140;58;183;23;6;27;231;169;87;182;30;234;252;119;194;79;20;23;49;114;235;59;133;82;113;229;6;
   136;226;146;56;125;225;202;16;55;217;41;149;173;14;101;143;249;156;103;111;236;99;168;34;224;121;198;27;117;189;
   61;14;83;148;81;178;242;128;120;105;140;183;249;170;75;84;170;49;23;192;16;142;255;22;166;103;57;222;209;95;22;
   71;20;98;3;11;158;120;41;235;73;171;66;148;47;203;34;228;244;110;131;229;32;252;148;158;128;33;3;239;107;219;180;
   0;116;49;205;253;254;19;135;48;201;124;91;128;211;150;29;216;13;230;86;187;51;228;61;111;51;207;62;154;144;80;181;
   133;201;200;67;92;249;223;199;8;108;238;190;213;220;72;172;139;72;120;12;225;168;240;44;179;185;59;74;33;198;225;
   206;195;220;134;41;191;160;234;40;148;120;186;210;11;189;31;116;211;228;199;216;100;76;162;243;235;78;63;69;30;
   2;10;242;98;42;91;189;48;156;70;58;156;152;213;52;169;98;34;162;207;242;201;139;29;165;27;188;243;25;218;30;210;
   229;136;112;220;102;198;107;199;215;182;16;99;144;119;109;193;40;169;227;97;20;182;191;78;103;165;168;251;37;163;
   106;236;189;166;5;0;13;235;51;203;132;104;39;216;255;8;21;148;152;210;212;61;35;206;61;221;121;1;0;51;135;13;75;
   105;122;183;125;105;104;232;227;236;254;169;163;186;141;163;2;117;128;51;253;83;111;253;93;161;250;164;29;69;91;
   191;178;226;111;64;201;161;63;6;70;206;7;213;187;238;134;172;127;146;136;50;66;36;175;124;40;228;151;226;57;221;
   173;173;248;228;169;24;66;69;192;167;115;211;36;20;177;146;26;187;254;186;57;15;86;124;4;30;73;227;166;45;212;53;
   201;100;107;4;39;128;91;94;239;255;17;228;250;164;108;110;61;107;196;219;242;133;36;198;169;191;170;57;213;148;
   81;252;251;225;29;80;145;64;187;27;45;78;138;107;49;56;65;31;57;7;105;26;103;112;114;151;168;217;112;23;21;45;62;
   78;207;47;161;51;32;12;204;105;78;179;172;133;63;68;45;78;67;121;22;121;211;154;165;240;63;103;85;171;150;44;57;
   148;110;97;38;200;186;21;107;158;186;181;18;241;230;72;75;41;103;71;86;153;172;151;119;116;196;156;168;157;226;
   208;153;157;98;28;182;243;192;252;186;14;48;213;32;199;251;32;50;67;168;231;84;166;133;12;222;179;238;163;39;199;
   162;86;160;110;56;196;69;20;183;64;84;148;20;42;106;101;130;230;150;249;238;189;78;220;0;28;252;54;160;224;3;205;
   17;137;128;68;202;216;227;106;113;201;96;43;240;243;89;88;253;176;198;131;29;6;29;206;44;126;162;190;79;169;142;
   104;179;192;38;202;70;65;118;52;131;11;40;211;196;73;51;22;28;181;166;73;123;27;241;229;253;217;241;110;101;55;
   2;142;164;37;22;83;162;17;13;23;237;254;88;49;65;248;207;113;220;118;34;198;91;141;14;133;218;199;110;35;190;14;
   7;241;25;203;210;187;246;55;213;21;133;113;66;61;208;51;121;206;177;126;88;236;14;214;180;5;167;79;169;193;59;27;
   207;255;221;184;223;186;75;176;29;77;239;155;18;214;76;206;65;25;34;103;213;219;192;201;110;177;99;142;74;230;244;
   202;197;74;59;56;78;164;134;173;26;6;103;185;248;195;85;107;126;221;187;37;164;93;31;96;191;160;189;248;240;136;
   11;16;180;208;54;113;83;193;103;149;81;232;31;170;67;136;252;76;184;93;147;44;47;41;181;212;124;96;250;241;137;
   153;18;204;175;103;128;173;146;67;129;188;234;55;80;192;163;218;146;20;20;156;173;240;66;208;148;14;131;164;92;
   115;247;163;167;244;44;93;63;149;221;123;134;237;255;182;39;47;66;80;47;180;13;122;109;255;67;250;109;222;159;226;
   139;200;32;223;178;214;122;249;239;62;65;94;56;70;73;49;34;18;151;129;136;163;162;100;30;182;164;87;128;50;153;
   212;217;74;80;106;157;104;213;181;161;162;119;102;232;96;136;29;107;19;214;107;174;57;229;138;157;58;46;201;34;
   140;132;143;163;107;204;57;129;138;80;104;17;159;248;51;114;187;228;44;14;239;88;58;80;63;246;54;79;208;206;239;
   31;237;34;144;6;66;34;157;135;137;28;235;56;112;235;232;83;149;39;121;250;238;17;45;41;96;200;129;116;35;230;120;
   40;93;4;180;116;39;130;184;195;98;99;104;231;121;14;243;142;36;132;75;144;107;88;247;102;0;198;172;26;213;41;243;
   33;109;213;8;150;76;227;107;150;158;236;69;149;116;99;249;169;230;255;180;185;4;100;146;157;157;130;225;37;166;
   15;79;217;125;142;107;252;243;45;123;203;62;115;191;104;124;2;147;184;30;236;153;38;170;229;39;202;29;112;52;203;
   33;183;228;166;231;160;165;134;98;243;5;38;218;174;53;204;135;120;46;245;8;179;42;18;147;104;226;78;149;202;162;
   34;104;3;201;119;186;246;18;62;93;6;113;181;76;171;118;152;95;150;151;9;61;61;113;5;241;247;41;146;147;202;107;
   205;27;68;65;144;118;29;23;41;184;248;247;181;63;172;40;162;224;19;162;9;129;95;184;2;138;53;227;2;20;158;112;231;
   57;13;203;225;81;84;233;162;18;236;246;228;44;25;89;101;46;188;173;164;236;103;147;71;62;199;4;49;96;118;136;25;
   177;128;128;157;211;44;244;161;44;182;64;29;255;174;179;200;138;148;235;184;143;157;17;225;183;137;235;217;66;232;
   53;122;33;195;147;54;75;202;16;13;239;144;254;12;218;121;247;20;222;153;87;9;250;177;24;242;35;17;208;44;239;71;
   11;34;168;123;60;196;115;207;119;139;193;176;226;37;96;113;119;173;22;110;86;150;48;212;220;78;151;215;133;79;61;
   151;66;173;197;79;199;117;111;170;248;109;232;239;109;212;86;63;104;87;2;157;177;249;254;92;16;47;194;66;10;27;
   143;104;141;115;243;125;91;187;99;149;234;59;252;173;127;141;195;116;166;51;61;232;254;152;102;216;178;124;147;
   84;174;143;139;171;244;79;251;208;177;228;220;78;107;145;238;190;149;7;147;70;144;178;66;55;233;0;112;87;178;239;
   74;120;156;193;30;94;116;74;68;12;248;187;125;145;227;45;9;17;135;240;136;245;43;96;112;170;48;231;138;202;238;
   246;180;88;197;119;194;27;182;13;207;152;103;207;104;168;159;46;136;64;91;55;211;2;236;165;103;116;130;106;77;175;
   246;220;194;55;94;28;188;41;118;159;138;94;0;23;206;208;44;97;6;248;60;92;237;86;227;18;26;177;191;89;120;29;237;
   157;41;185;63;114;155;5;177;164;114;215;162;36;18;105;164;134;200;62;33;235;73;175;136;171;42;78;156;240;245;87;
   53;255;167;93;220;168;150;60;58;230;199;55;230;187;145;105;88;165;0;206;178;219;111;1;107;166;3;73;123;248;97;63;
   113;141;225;5;38;37;237;89;13;185;111;13;226;36;27;74;238;179;141;51;65;169;6;122;194;207;253;83;127;152;85;86;
   52;70;113;41;22;188;217;5;223;201;218;250;82;183;53;74;171;76;24;232;211;60;149;59;129;244;153;228;111;136;73;120;
   121;193;169;196;108;209;65;44;77;34;1;215;13;63;12;127;81;148;20;250;142;136;248;185;160;102;104;63;30;24;122;176;
   140;212;240;218;18;143;173;86;177;144;141;232;151;254;28;87;107;52;255;116;95;29;80;243;231;151;90;22;23;48;63;
   65;66;75;78;87;96;110;118;119;123;124;150;165;193;245;8;16;21;25;33;77;78;92;130;136;163;203;222;228;248;249;9;
   46;51;66;71;75;94;97;110;163;178;180;181;184;203;217;218;233;30;41;62;70;90;107;121;133;140;152;159;166;179;181;
   187;206;220;223;255;0;0;0;0;0;0;0;0;19;35;53;72].
(** [dilithium_selftest_vector_65.h] *)
Definition dv65_m : list Z :=
  [127;156;43;164;232;143;130;125;97;96;69;80;118;5;133;62;215;59;128;147;246;239;188;136;235;26;110;172;250;102;239;
   38;60;177;238;169;136;0;75;147;16;60;251;10;238;253;42;104;110;1;250;74;88;232;163;99;156;168;161;227;249;174;87;
   226].
Definition dv65_pk : list Z :=
  [182;6;22;122;238;23;19;232;82;110;96;20;66;4;218;39;250;79;221;18;15;65;238;76;59;60;48;147;180;129;187;53;75;19;
   139;35;96;185;64;157;37;71;169;100;72;162;214;186;102;187;148;158;139;232;99;237;228;186;35;129;251;142;123;162;
   198;32;59;3;157;139;99;232;228;79;222;95;221;249;129;46;50;181;24;196;25;113;186;66;6;230;76;92;120;249;38;144;
   188;230;117;245;33;112;101;16;87;115;196;14;253;205;231;204;45;74;166;88;230;1;132;121;170;219;83;91;66;234;129;
   88;240;87;117;199;243;177;233;54;63;220;224;204;211;75;160;146;73;133;42;253;223;159;178;2;67;231;255;214;61;18;
   92;65;177;255;13;176;86;52;105;10;121;159;205;144;99;162;46;68;112;13;34;63;26;158;25;229;8;227;171;251;26;79;113;
   247;101;85;156;43;160;90;128;68;178;26;134;177;36;169;121;108;79;40;50;17;7;49;6;51;35;220;190;9;152;109;60;54;
   153;14;215;99;213;177;202;72;79;50;31;23;59;110;122;6;98;44;208;176;114;123;161;81;103;29;209;63;44;128;231;112;
   134;91;24;112;122;93;254;222;89;21;139;197;115;247;145;48;109;243;183;15;187;33;129;2;119;137;144;186;146;125;48;
   250;236;220;182;11;152;213;215;102;33;93;103;185;46;5;237;32;225;84;249;27;113;26;78;40;128;54;155;173;98;219;155;
   191;68;214;201;8;105;180;90;171;240;210;82;167;248;232;133;2;155;144;67;23;233;28;220;130;102;38;84;170;186;219;
   178;102;177;212;71;202;92;29;240;97;0;80;61;193;202;9;175;251;24;190;182;55;81;85;55;0;141;68;138;13;154;207;143;
   13;72;64;92;215;179;72;115;141;242;204;149;223;109;67;46;146;67;61;98;249;24;129;243;37;140;103;152;15;207;5;208;
   215;114;118;45;77;243;167;168;116;31;126;168;15;107;159;35;32;235;206;174;18;70;126;56;92;18;89;215;13;31;241;212;
   36;172;38;7;20;114;9;215;49;53;37;201;182;7;196;232;59;208;218;254;1;35;236;30;146;252;147;220;62;146;58;197;128;
   113;0;115;204;172;192;138;231;49;51;140;159;113;161;223;211;53;67;74;152;171;167;179;154;57;101;131;237;107;129;
   250;202;222;124;28;17;221;214;169;180;174;214;86;149;120;249;63;109;176;89;130;125;89;87;248;232;183;51;231;198;
   212;86;203;162;39;102;251;131;157;58;150;100;214;160;12;90;112;15;88;102;194;92;48;89;82;60;177;116;89;239;239;
   131;40;44;53;11;32;78;32;133;245;182;3;160;213;135;30;223;161;59;193;132;160;15;152;172;41;151;164;128;243;174;
   13;74;132;150;174;207;82;232;147;119;80;45;149;176;114;82;255;111;140;234;74;27;148;103;154;190;217;151;189;123;
   80;180;180;68;107;20;235;67;171;255;227;100;48;158;204;175;206;23;204;120;75;95;213;134;244;95;56;22;246;116;230;
   197;178;143;230;85;154;75;219;145;60;23;171;241;203;108;251;211;28;39;131;143;86;142;200;140;62;120;42;110;140;
   8;58;153;92;37;157;36;60;204;132;16;73;81;106;177;183;39;194;215;156;71;110;205;25;65;80;214;181;24;176;132;198;
   196;84;58;132;38;66;52;80;8;60;7;89;48;51;182;10;90;221;127;19;244;104;146;223;148;137;11;88;127;17;28;100;216;
   118;100;195;55;88;90;171;71;188;223;200;17;182;86;26;143;142;139;91;4;248;186;189;239;2;71;166;191;233;109;198;
   18;204;207;225;45;37;52;30;175;143;210;9;62;152;81;111;151;32;188;12;125;198;26;75;142;47;168;208;77;222;93;130;
   127;1;58;149;33;24;0;71;29;120;78;218;87;204;9;201;208;107;83;152;223;235;45;55;56;91;221;129;215;27;24;29;153;
   218;245;165;180;49;13;118;97;114;45;252;150;176;107;56;212;63;144;28;75;195;225;187;91;190;134;240;162;79;62;32;
   233;119;60;96;56;9;9;185;15;112;217;229;76;134;213;91;201;230;189;224;122;52;189;85;241;32;148;70;176;16;118;240;
   182;50;49;82;253;221;87;249;163;159;111;193;220;190;89;84;238;190;33;241;207;182;214;25;180;118;49;138;38;83;58;
   69;85;173;27;45;39;243;130;167;2;231;247;216;110;101;37;47;26;96;214;164;61;5;154;110;162;78;75;109;242;220;182;
   148;3;228;166;10;119;142;171;121;187;219;37;50;72;174;181;106;88;36;105;12;166;78;73;133;31;225;118;161;43;226;
   70;181;222;250;43;106;81;95;187;221;159;197;60;137;118;104;212;249;113;76;219;25;95;114;175;84;68;28;40;139;48;
   43;196;199;43;43;144;231;67;187;130;118;169;110;208;107;15;195;50;18;27;136;225;197;32;33;20;195;121;232;38;183;
   68;94;98;209;185;149;230;191;66;88;61;61;130;186;232;21;209;49;143;159;234;226;69;56;54;23;233;229;156;184;221;
   110;241;222;112;12;165;113;154;239;84;48;92;11;221;198;237;231;199;42;53;241;114;24;45;74;15;152;140;243;161;85;
   114;107;226;223;183;211;128;39;203;124;201;193;156;201;245;236;75;237;95;116;185;199;122;168;70;157;201;67;165;
   145;164;90;170;108;61;216;67;214;76;218;228;82;228;52;80;112;104;184;55;99;216;20;55;225;145;212;206;18;155;44;
   120;205;104;101;225;189;100;111;234;209;194;245;69;136;2;34;43;88;97;248;231;78;44;71;175;190;26;5;206;130;143;
   69;209;115;168;118;52;50;43;204;90;252;120;146;16;217;37;245;151;174;170;62;195;10;83;163;51;252;137;90;112;175;
   181;77;70;150;58;251;215;38;169;180;19;20;7;80;150;183;146;130;200;182;138;60;39;30;222;22;223;220;47;235;30;247;
   160;120;105;12;181;73;232;33;37;107;149;66;37;198;64;78;205;50;175;21;136;231;6;179;85;151;40;202;239;29;14;94;
   216;112;61;86;216;183;51;83;123;12;1;128;22;100;91;75;243;220;147;236;142;109;136;21;162;8;198;171;21;92;157;13;
   213;166;114;140;230;20;30;39;72;24;102;101;34;130;213;208;0;151;108;99;99;212;80;115;183;134;220;205;142;21;190;
   125;148;106;20;86;196;54;136;151;149;106;33;98;11;130;93;52;171;10;70;218;216;40;109;220;1;102;7;199;118;37;6;161;
   239;67;99;5;119;197;244;235;228;29;128;194;205;31;142;3;247;59;181;162;221;62;58;2;80;77;176;129;255;54;141;219;
   154;138;37;121;234;25;244;77;9;224;246;83;93;173;127;5;210;242;103;250;64;58;184;236;30;177;216;214;26;95;42;136;
   239;52;181;108;14;149;154;111;152;117;209;83;217;24;81;191;3;147;51;35;212;41;124;38;139;193;160;123;170;147;248;
   82;198;202;144;118;90;108;253;152;152;147;41;166;109;31;203;55;19;251;145;51;40;3;173;71;181;40;134;242;204;155;
   186;61;121;116;254;18;43;218;21;191;133;202;136;221;196;72;92;221;252;49;133;108;45;120;11;170;50;100;68;197;31;
   103;105;17;151;51;122;238;99;132;158;24;201;52;245;172;225;172;252;26;205;168;136;49;223;134;94;53;129;116;65;173;
   80;243;15;41;48;110;203;176;125;126;151;181;168;195;7;10;22;165;120;133;21;26;125;161;170;121;118;57;197;110;62;
   113;185;68;143;11;233;79;83;207;147;37;231;239;4;204;29;163;105;152;155;16;150;202;154;55;1;134;96;68;199;183;89;
   236;9;87;185;198;28;101;189;199;134;39;254;171;52;94;223;255;79;127;151;193;225;150;247;234;32;63;116;249;192;134;
   229;29;208;41;72;216;198;163;99;176;22;148;12;197;212;1;12;72;69;169;131;69;129;70;103;226;13;41;162;192;255;51;
   74;149;64;233;14;122;83;241;122;246;70;194;229;232;36;44;6;209;120;196;71;179;253;5;156;56;168;104;73;180;242;249;
   45;119;177;110;210;64;173;249;102;55;255;172;158;254;61;106;134;13;246;84;204;163;211;76;249;168;90;180;151;154;
   213;47;98;199;3;55;19;112;90;172;118;80;92;53;70;77;183;71;32;149;163;49;32;248;123;210;90;171;189;53;21;192;195;
   177;215;77;238;10;227;148;195;219;179;194;75;212;173;49;161;128;91;9;133;244;83;153;140;156;41;223;150;9;34;90;
   181;112;10;185;15;200;142;75;88;231;184;187;139;141;162;55;249;226;92;139;170;155;159;228;70;60;183;170;173;150;
   7;55;112;61;172;224;202;63;197;122;73;147;102;226;232;187;102;118;237;41;50;230;217;195;54;80;91;34;49;216;161;
   135;197;0;76;208;210;174;174;103;234;141;76;172;139;246;10;23;68;241;95;63;194;102;17;207;82;189;201;5;187;16;98;
   31;76].
Definition dv65_sk : list Z :=
  [182;6;22;122;238;23;19;232;82;110;96;20;66;4;218;39;250;79;221;18;15;65;238;76;59;60;48;147;180;129;187;53;30;143;
   9;215;115;147;158;24;8;135;119;21;175;56;196;19;167;134;15;77;172;200;81;106;71;9;195;29;14;120;88;1;189;248;77;
   50;66;98;135;176;174;119;208;93;191;208;95;40;173;239;30;117;81;235;39;224;96;229;154;105;57;72;79;138;20;228;29;
   206;225;148;74;211;74;247;32;69;24;39;79;177;30;132;226;53;106;64;79;119;179;196;212;48;238;39;167;118;37;118;96;
   6;128;99;119;69;119;32;8;19;117;70;104;71;99;84;98;36;71;88;8;18;3;53;112;23;70;54;7;70;85;132;115;3;82;38;83;117;
   18;54;39;18;64;120;132;132;53;116;132;113;53;118;134;117;53;136;0;102;21;115;136;72;53;133;5;135;24;86;69;131;104;
   131;84;18;40;67;98;97;131;55;3;5;0;52;51;86;119;118;67;40;3;23;64;82;19;67;34;37;72;82;113;24;102;32;118;49;129;
   68;80;136;97;53;104;69;17;50;98;55;115;16;4;24;67;66;115;71;118;72;100;6;135;132;119;38;112;6;35;54;53;101;133;
   39;20;119;116;117;115;131;114;22;70;22;16;87;68;134;68;85;17;117;113;112;133;88;1;19;115;23;53;96;97;18;6;134;56;
   6;133;69;7;22;68;55;68;68;70;5;50;32;8;36;19;54;85;68;87;64;81;113;101;112;24;49;24;64;38;83;4;131;86;119;7;40;
   22;71;40;130;128;35;50;38;115;18;102;7;129;82;83;133;2;69;83;5;1;39;16;19;24;113;133;85;18;54;16;72;133;20;8;50;
   113;56;84;8;53;39;39;115;56;114;0;114;6;85;128;115;86;38;118;84;37;86;102;37;103;35;37;86;51;120;22;51;5;112;112;
   120;24;119;103;5;116;116;98;52;134;7;133;130;5;32;33;136;33;67;8;134;19;104;88;119;87;81;87;49;65;117;34;130;80;
   23;56;21;70;53;134;16;2;119;101;36;55;16;1;33;85;130;39;64;49;133;98;115;67;64;115;34;132;113;99;56;88;134;132;
   55;1;66;101;54;4;113;65;17;135;132;64;22;52;8;50;38;84;71;70;50;1;70;129;120;24;99;131;4;51;17;100;52;0;136;103;
   0;131;7;16;52;24;98;132;54;67;19;112;4;52;102;0;4;72;67;3;35;4;87;132;34;40;36;83;49;96;104;97;101;68;32;136;134;
   37;16;88;103;32;52;116;112;131;134;136;48;88;51;7;87;65;33;86;1;23;112;16;134;70;83;32;4;136;102;116;23;112;67;
   72;134;99;33;82;16;131;103;128;103;54;99;19;8;87;136;4;40;112;104;81;49;21;16;128;40;133;67;53;24;38;132;40;100;
   53;85;36;81;83;38;97;48;19;129;120;135;67;53;112;70;4;34;16;65;40;133;82;133;85;96;3;118;132;113;132;1;135;8;37;
   100;19;97;97;32;117;19;18;104;22;130;6;131;66;48;48;100;53;69;54;128;98;103;116;119;98;67;36;39;71;7;18;2;136;119;
   129;86;82;54;132;82;50;7;85;66;85;50;65;87;120;51;100;87;117;134;102;135;33;88;98;80;101;133;53;53;23;3;55;133;
   55;18;102;114;24;8;33;64;32;70;87;38;4;119;98;51;100;69;115;7;2;48;86;80;120;113;68;82;4;119;0;129;116;71;130;84;
   133;133;70;100;56;81;131;80;21;54;132;6;65;67;83;37;50;118;0;52;101;130;113;135;7;85;132;19;40;3;104;24;3;54;115;
   113;102;39;53;5;129;56;128;99;24;1;36;7;66;20;136;48;39;119;8;99;22;20;35;71;119;33;20;54;71;135;119;16;23;87;34;
   2;132;5;118;8;129;115;80;82;80;40;101;136;100;32;56;39;72;55;53;96;7;70;50;24;24;86;112;65;135;24;134;19;65;84;
   86;71;81;33;55;7;87;23;118;38;136;50;32;84;20;50;18;101;32;83;53;52;24;134;5;7;129;16;6;5;71;80;32;103;81;53;64;
   4;86;23;37;5;113;86;48;135;53;136;68;113;80;51;48;66;7;112;96;133;102;132;4;100;49;80;36;118;2;48;32;68;119;65;
   87;0;54;35;8;36;98;35;119;133;18;131;49;33;134;69;87;56;69;134;117;84;117;136;99;32;7;85;133;100;18;37;134;128;
   116;128;5;114;19;98;104;19;71;71;1;68;52;101;18;100;33;39;19;120;53;102;69;52;64;112;22;3;24;68;83;8;40;66;88;71;
   104;101;70;133;116;50;114;0;38;98;83;37;34;128;18;3;6;128;128;133;103;115;99;119;100;52;112;7;102;114;54;87;98;
   54;128;34;136;72;19;81;5;18;132;133;18;24;68;128;128;69;69;71;84;1;0;114;18;132;5;33;53;70;1;69;54;84;101;133;132;
   0;1;33;97;19;81;19;131;86;22;55;134;81;113;1;132;119;67;37;71;16;119;99;115;55;69;66;51;116;101;86;2;16;24;52;37;
   120;80;129;20;113;136;38;119;22;98;36;68;6;38;40;101;82;96;2;69;100;88;33;115;5;80;67;71;100;132;102;2;39;20;8;
   129;40;65;39;48;4;115;36;5;21;16;0;54;81;117;130;103;103;112;33;33;51;133;84;22;132;18;52;98;33;133;81;4;36;35;
   21;17;50;18;21;39;119;135;37;104;4;35;37;18;22;6;20;35;85;83;7;119;55;2;5;1;55;97;24;5;68;83;99;37;118;85;113;49;
   48;71;20;7;48;118;32;119;6;68;136;101;119;66;100;70;132;5;23;48;100;120;39;52;85;6;40;52;19;136;23;103;84;1;134;
   88;134;4;116;100;99;64;84;102;39;82;117;38;32;34;38;40;88;21;38;136;114;33;56;87;129;1;112;52;114;85;36;103;69;
   136;3;118;36;17;8;33;54;17;98;0;71;86;7;117;39;113;69;71;135;37;69;1;38;56;55;66;17;4;133;69;82;87;134;135;133;
   120;88;21;82;132;5;16;116;36;56;33;117;23;88;130;84;33;6;131;117;97;1;81;1;100;83;114;96;55;87;4;87;68;117;81;133;
   7;2;3;48;2;52;120;0;129;102;129;22;67;115;114;0;16;85;24;131;88;32;7;119;120;51;33;103;119;120;96;115;39;133;96;
   128;118;80;104;119;53;67;113;22;66;40;72;104;51;8;117;3;48;53;34;4;135;83;136;119;84;3;18;32;81;120;64;114;101;
   24;129;23;101;71;64;38;67;65;85;102;83;1;37;39;65;104;68;22;130;129;99;97;71;86;119;85;70;53;53;67;82;67;135;133;
   7;1;38;5;35;34;104;112;56;55;116;132;114;134;34;7;36;70;135;5;133;88;50;18;56;65;2;22;101;117;3;1;118;35;2;80;0;
   8;18;132;6;3;39;128;1;133;133;50;7;48;32;113;35;101;120;136;56;1;22;3;50;24;33;133;36;136;39;114;33;99;63;73;49;
   221;224;114;87;74;30;249;174;164;151;249;117;206;72;199;208;198;45;133;115;63;226;5;200;6;56;140;116;160;214;114;
   141;223;41;107;55;217;210;1;202;35;98;250;150;255;2;53;148;108;228;107;58;202;158;206;133;174;55;232;84;1;15;225;
   137;180;149;145;11;78;201;131;130;153;145;224;146;202;9;224;164;31;172;227;75;177;20;61;82;53;110;65;132;223;23;
   246;110;66;123;182;175;124;219;207;112;168;204;40;136;117;110;153;173;21;21;48;118;121;239;192;240;204;255;133;
   231;133;23;175;25;239;131;171;220;129;18;172;186;73;77;34;79;144;130;49;181;12;245;145;124;0;234;239;39;11;236;
   65;89;80;102;183;140;15;239;6;208;27;6;2;135;197;42;96;121;88;168;243;70;41;243;183;129;217;26;214;133;101;57;81;
   42;109;27;26;147;61;226;26;221;55;208;232;45;156;47;76;227;18;217;62;94;175;143;204;165;239;10;205;142;251;169;
   158;211;235;196;56;133;111;32;250;68;199;252;29;95;7;11;57;210;210;138;204;127;218;250;147;10;231;129;161;95;214;
   188;97;165;12;73;177;141;168;25;170;162;171;130;50;5;83;7;135;193;44;27;198;58;140;201;39;189;106;180;206;127;72;
   89;13;136;201;44;238;42;19;238;93;23;131;64;236;60;20;236;221;177;183;139;126;198;201;209;129;22;36;57;147;132;
   132;85;6;249;96;44;208;8;9;144;100;140;236;254;6;156;190;150;210;154;14;176;171;225;85;27;161;79;61;31;199;6;125;
   194;207;192;202;39;132;161;210;202;38;207;85;222;107;226;118;102;10;197;46;98;180;65;232;92;192;125;234;84;129;
   68;140;129;34;202;104;226;126;32;191;12;177;79;42;90;55;98;44;31;71;5;2;2;4;49;41;21;116;77;220;106;202;176;143;
   82;114;197;214;66;166;42;219;154;127;45;135;157;255;241;31;32;228;230;217;54;210;17;10;132;87;36;121;30;183;188;
   69;170;137;16;3;151;246;18;69;8;228;58;107;70;135;18;22;86;8;188;5;10;243;178;36;106;104;116;203;72;252;147;250;
   129;227;235;220;239;160;194;223;145;114;246;233;151;0;201;170;33;171;59;2;94;69;145;228;141;191;115;159;233;246;
   2;170;113;58;255;134;136;149;60;88;92;11;64;185;145;115;117;1;180;203;108;191;101;181;206;185;196;47;133;183;136;
   36;77;232;110;202;34;238;163;225;230;211;162;116;193;147;10;38;109;90;163;92;252;202;209;96;219;198;31;187;73;139;
   187;131;43;19;108;99;82;152;127;83;94;157;0;198;186;105;189;250;114;117;110;96;176;99;146;62;220;52;16;32;250;94;
   253;18;29;77;128;45;76;69;104;77;173;222;5;61;156;20;179;39;125;143;115;24;144;199;132;43;106;222;252;35;214;33;
   114;163;73;247;54;154;47;185;145;88;54;243;73;150;124;159;204;196;4;127;20;215;169;198;192;165;197;96;251;235;55;
   196;25;249;99;1;58;139;15;120;147;26;44;20;171;47;68;108;17;212;39;174;217;220;115;205;122;18;101;229;190;225;127;
   27;129;62;238;188;229;138;216;250;54;13;130;124;200;196;229;88;247;154;228;206;150;49;161;208;187;15;4;91;95;30;
   137;133;34;99;248;221;92;33;41;125;59;250;184;155;29;228;159;204;241;78;253;159;48;130;92;184;202;97;195;36;132;
   211;120;15;233;121;147;104;238;110;136;105;188;67;102;204;255;84;40;71;2;214;247;86;249;130;140;139;87;54;151;170;
   121;195;83;210;166;97;199;165;157;170;32;51;35;66;170;54;254;81;234;25;162;204;130;45;14;170;71;177;83;100;51;168;
   31;35;85;25;132;73;25;0;26;52;211;25;50;68;234;171;162;112;132;226;107;250;29;54;13;2;149;189;76;217;166;72;200;
   18;188;143;78;188;211;115;88;32;229;179;54;255;18;104;20;59;9;190;230;191;188;84;99;6;61;155;92;136;70;159;240;
   103;160;179;184;190;254;131;111;79;36;219;70;41;26;232;174;217;85;191;20;152;88;25;119;92;134;39;105;152;141;39;
   211;30;148;202;160;103;117;226;42;238;230;79;103;86;2;227;203;65;243;151;197;253;246;84;18;82;93;254;112;38;132;
   61;87;179;20;70;38;129;21;75;224;76;79;101;252;98;126;91;57;185;129;175;10;75;187;214;179;0;14;221;232;197;169;
   247;205;249;139;44;135;149;53;134;214;126;29;135;174;64;221;33;93;232;115;167;162;118;26;69;1;211;245;159;80;75;
   106;75;103;245;158;13;236;18;138;65;186;206;167;60;50;235;27;202;140;180;110;248;10;81;104;135;75;29;216;87;184;
   247;61;70;117;226;107;255;3;63;220;135;143;164;84;244;168;125;23;11;163;126;127;165;253;81;142;70;9;242;120;84;
   174;64;125;94;29;156;75;186;174;32;212;199;231;230;4;227;1;147;117;162;39;94;238;90;91;192;98;62;224;218;102;230;
   187;167;90;228;159;47;143;174;5;12;16;102;128;180;29;221;76;5;63;192;210;60;115;84;138;185;54;86;157;20;21;60;237;
   125;76;107;187;88;213;40;29;68;241;8;99;1;124;82;153;117;139;9;156;24;236;122;91;43;252;140;173;25;225;62;57;30;
   54;180;68;169;213;117;159;175;26;29;162;78;203;25;109;109;63;67;21;5;47;33;233;41;144;149;246;148;109;47;111;237;
   224;224;48;140;51;205;154;176;126;100;192;41;87;231;197;32;92;103;205;18;217;160;50;154;95;58;177;127;235;110;99;
   148;201;107;129;253;89;153;27;106;118;99;61;44;213;128;86;162;3;110;184;131;35;234;110;185;37;164;85;142;175;232;
   85;235;230;232;56;75;53;48;120;166;84;3;218;15;235;104;143;190;194;152;139;64;122;104;81;80;209;255;84;233;238;
   34;64;210;170;149;192;246;141;0;243;40;39;72;30;25;131;255;76;15;46;73;246;2;148;14;16;20;75;224;121;33;44;8;116;
   29;59;255;47;136;133;206;45;80;5;55;17;205;124;138;155;0;2;220;252;18;108;23;4;171;83;41;17;199;129;65;202;199;
   195;43;174;249;164;68;217;67;235;114;53;140;120;227;159;59;197;251;250;97;191;146;222;128;1;211;214;163;28;1;191;
   105;232;190;36;220;131;146;197;60;123;136;8;248;201;72;126;16;124;240;45;145;220;202;32;224;101;149;206;95;248;
   69;80;165;203;10;131;238;53;89;170;195;210;237;198;248;55;127;20;16;59;15;187;141;214;242;118;250;29;53;171;61;
   45;71;23;179;17;61;100;103;199;38;0;15;93;204;90;91;170;202;123;96;253;171;60;121;254;117;108;169;57;2;140;81;250;
   23;223;29;182;114;32;237;199;208;254;87;89;81;173;249;214;246;103;0;48;254;94;30;12;245;150;99;209;124;232;222;
   19;70;158;173;237;130;249;234;177;25;244;44;46;249;88;188;19;190;129;132;193;43;206;189;45;72;187;151;188;190;157;
   72;49;127;10;135;140;190;216;146;152;81;139;0;120;139;216;119;84;203;183;218;133;243;158;132;30;127;193;228;84;
   69;47;224;154;5;126;161;177;25;235;57;159;35;108;105;243;4;24;223;159;143;34;135;90;84;188;127;50;50;106;252;254;
   143;183;153;147;1;174;239;87;112;34;44;52;159;102;60;218;137;220;165;80;218;230;200;132;165;174;112;196;153;59;
   123;94;15;145;28;184;220;42;243;213;254;184;110;35;157;11;146;123;108;120;196;92;230;55;222;22;62;50;123;8;184;
   221;31;138;203;80;245;101;249;102;158;209;62;26;197;217;68;71;136;253;0;2;19;79;123;202;112;120;171;105;187;44;
   21;219;72;239;219;215;209;137;195;136;21;137;125;60;185;239;81;44;8;151;20;44;177;146;137;209;171;59;68;135;195;
   13;211;209;1;88;117;83;30;10;228;149;158;209;68;205;25;123;25;127;116;87;94;197;176;130;141;68;254;64;201;56;249;
   50;144;120;198;93;40;83;44;197;254;27;83;173;166;139;238;174;28;110;200;51;10;26;81;184;88;217;204;251;241;26;102;
   223;49;213;87;82;108;214;213;85;215;188;95;148;145;56;62;108;135;101;65;240;27;223;234;160;247;192;23;65;130;228;
   206;133;152;135;232;173;100;23;78;234;88;37;60;13;116;139;196;2;229;155;187;233;141;188;125;233;65;144;76;39;9;
   222;162;163;118;228;15;48;239;19;186;1;194;76;15;254;97;197;234;202;206;76;230;14;90;46;159;214;91;158;169;38;27;
   171;202;130;137;82;11;146;20;219;62;195;213;153;107;190;96;114;35;36;49;172;249;84;123;192;42;101;195;60;116;83;
   146;102;56;8;158;109;133;169;188;72;15;131;175;249;103;98;104;3;65;181;204;249;150;37;84;221;234;170;188;0;170;
   158;239;5;240;0;39;34;207;7;194;27;5;82;91;130;26;226;7;166;184;21;24;51;12;38;199;189;142;34;148;113;235;165;136;
   108;172;214;171;206;89;44;170;30;67;114;16;125;14;112;254;84;46;13;6;166;96;80;169;93;16;56;81;212;9;255;138;187;
   39;134;243;169;163;107;25;106;231;118;224;225;222;61;252;162;230;41;90;49;110;19;206;70;66;212;202;27;198;48;40;
   190;14;198;56;210;98;93;179;131;25;234;180;56;92;142;192;82;28;145;244;107;138;149;61;122;41;246;240;46;199;154;
   207;213;94;87;212;117;108;26;130;23;69;119;176;203;131;215;13;86;209;196;79;213;110;216;57;18;144;114;11;131;1;
   133;176;84;120;225;136;139;201;153;65;151;99;148;142;10;49;153;134;97;250;185;100;122;131;130;69;226;207;115;65;
   162;47;132;26;139;53;175;35;14;216;250;107;16;89;123;218;218;238;33;130;80;230;127;131;10;167;221;49;14;232;91;
   44;56;79;176;162;202;61;22;228;159;132;227;116;68;212;194;109;175;234;22;47;2;85;49;249;186;230;95;228;242;89;130;
   178;202;142;37;179;0;105;243;106;211;58;56;232;0;31;204;96;107;208;92;234;30;239;239;32;204;175;76;139;107;195;
   12;71;203;66;219;55;242;247;19;11;15;70;144;149;228;114;171;104;241;178;58;211;183;37;96;187;229;99;252;98;120;
   26;231;66;104;128;162;10;204;91;164;30;208;147;27;234;221;137;161;195;33;244;121;127;156;0;151;76;133;64;124;252;
   193;8;173;169;143;237;94;227;106;206;167;91;54;225;237;166;215;27;21;135;118;149;47;98;120;164;98;88;58;226;22;
   54;176;92;191;32;106;253;134;250;175;20;54;161;251;31;206;57;201;152;233;151;0;173;32;1;185;100;120;41;216;178;
   219;3;175;27;188;245;31;2;180;167;162;225;79;12;106;62;159;30;44;11;195;250;86;220;66;28;183;253;211;102;102;136;
   1;216;168;93;108;29;85;89;58;109;85;234;221;30;236;15;28;31;104;241;241;160;233;216;98;140;4;18;157;157;155;157;
   84;115;171;17;213;14;87;39;74;135;130;148;207;20;43;30;16;150;142;14;94;12;55;164;99;222;48;65;166;133;132;210;
   26;168;115;190;79;99;171;226;101;200;170;203;220;177;180;99;171;216;101;142;226;105;208;135;84;232;27;72;95;238;
   11;231;242;197;144;32].
Definition dv65_sig : list Z :=
  [237;98;0;3;135;32;48;80;184;124;172;189;47;219;93;169;183;173;142;120;253;185;228;115;6;160;130;212;88;89;46;174;
   188;141;11;42;139;102;127;89;40;84;109;61;180;214;67;218;54;20;227;123;202;253;116;128;213;196;31;3;147;44;6;151;
   165;78;198;139;11;174;126;240;225;83;32;172;16;248;188;218;128;124;197;152;150;30;95;34;183;222;191;56;222;8;231;
   68;188;199;202;140;85;170;157;229;151;25;168;247;179;98;149;220;245;40;149;237;143;62;185;4;74;139;74;187;61;14;
   91;102;50;195;126;131;188;104;126;139;230;64;26;102;187;227;35;58;230;225;113;130;73;221;15;161;175;200;37;213;
   78;77;236;32;25;118;73;10;47;46;76;17;21;143;196;255;111;171;247;38;128;88;147;210;52;100;192;236;183;250;25;255;
   40;165;120;28;211;197;97;229;30;193;236;55;184;249;2;197;161;37;217;128;43;95;140;35;210;141;171;128;77;86;30;101;
   181;26;58;247;19;226;184;251;137;156;176;63;153;180;234;224;96;169;80;153;58;9;200;210;188;143;94;245;27;188;140;
   172;12;134;168;200;47;3;252;44;86;202;9;176;150;71;199;103;25;18;209;155;181;238;153;17;86;132;182;198;109;164;
   201;216;128;22;98;122;45;27;131;182;174;203;81;164;66;26;92;159;39;139;110;18;86;148;34;187;177;167;43;174;90;85;
   9;93;203;188;87;209;59;124;232;229;206;3;103;61;23;94;128;113;185;196;115;10;125;142;29;224;22;206;249;225;173;
   231;59;214;182;134;51;33;121;205;87;97;45;109;220;116;77;97;22;176;104;185;80;158;111;119;242;211;234;222;63;25;
   189;34;170;9;221;215;235;207;78;83;1;135;148;230;45;196;34;133;114;134;3;112;142;21;227;10;71;111;76;127;172;16;
   153;116;208;144;166;136;97;205;233;108;101;208;170;196;164;129;68;155;52;14;128;7;146;20;149;159;204;113;224;79;
   36;204;218;166;8;175;22;104;250;58;232;220;85;213;57;133;254;144;53;233;188;102;71;104;179;232;224;164;178;128;
   138;94;83;161;80;146;125;184;28;35;62;109;62;86;109;82;191;244;1;35;180;116;74;242;18;216;157;3;183;161;69;234;
   52;135;87;94;90;190;184;90;35;174;162;241;200;12;118;234;58;86;30;207;248;72;203;109;94;185;51;21;58;129;193;34;
   115;201;20;251;223;176;227;80;233;46;161;21;178;203;243;147;240;26;50;24;102;184;245;123;43;101;238;129;247;123;
   50;225;105;139;239;87;153;136;110;123;209;163;76;150;148;47;60;248;237;2;145;36;25;75;155;116;56;46;174;224;213;
   195;255;60;117;169;223;156;40;158;172;245;119;228;154;16;232;66;162;127;112;74;35;206;95;57;223;52;128;13;32;145;
   11;230;26;206;156;46;31;150;51;80;68;155;139;220;217;87;180;59;8;27;144;168;200;14;204;215;254;78;106;30;177;160;
   135;179;96;0;167;214;229;253;3;219;11;74;233;227;11;206;5;230;199;34;138;241;0;238;246;93;55;4;74;186;95;155;202;
   180;212;47;247;236;218;36;231;40;107;140;61;105;39;48;225;50;201;8;5;119;210;88;193;236;248;155;21;31;191;137;79;
   16;109;79;59;245;41;252;229;236;64;230;175;138;64;93;227;13;177;115;179;250;83;216;143;224;73;61;166;160;78;247;
   16;178;223;18;203;23;229;153;78;210;144;19;30;29;254;160;122;45;98;72;29;124;29;234;233;30;250;174;180;38;238;177;
   111;93;204;205;104;254;185;21;97;69;23;250;69;125;55;119;173;121;125;68;208;79;240;136;93;117;45;23;210;170;122;
   215;117;72;99;64;87;154;69;70;201;109;252;247;120;28;29;33;115;210;69;221;43;68;246;236;151;139;95;164;117;54;199;
   40;27;86;212;84;48;142;223;112;70;150;24;250;210;45;25;8;193;253;167;194;0;153;156;102;129;254;83;162;225;227;120;
   161;170;44;7;224;121;148;172;190;232;191;153;182;49;147;110;248;56;59;182;209;220;50;51;231;40;168;88;223;174;200;
   151;59;44;37;191;72;195;245;127;229;248;134;211;136;120;107;152;201;229;71;194;53;230;14;151;213;57;140;113;98;
   4;87;203;223;27;22;104;251;102;8;242;53;169;188;170;236;24;1;190;173;27;175;150;241;222;60;1;47;234;245;99;232;
   107;233;222;231;216;31;63;124;203;18;234;57;202;53;44;144;226;173;151;251;106;174;173;181;199;152;1;5;190;74;34;
   158;62;209;174;215;132;77;42;41;28;8;125;185;238;248;40;220;66;79;140;133;229;191;29;54;75;211;223;133;12;224;79;
   93;32;59;9;19;136;15;101;139;59;234;235;203;173;249;39;224;240;70;198;248;47;228;154;15;7;240;249;189;228;246;107;
   232;245;150;103;252;26;167;160;14;64;178;237;57;129;238;64;68;178;229;126;54;138;95;197;53;14;98;78;36;41;3;147;
   24;183;66;221;1;118;188;233;239;253;68;196;200;69;136;127;153;101;89;181;141;18;126;124;226;151;160;61;44;100;108;
   142;211;133;137;252;78;239;129;12;101;183;22;82;151;19;66;17;4;29;180;242;202;194;126;72;123;217;188;20;66;161;
   185;65;240;127;160;145;105;171;86;192;90;18;215;80;175;115;179;61;145;192;207;33;180;92;69;62;194;184;21;58;110;
   239;47;226;82;54;0;50;15;172;230;5;5;61;52;66;136;66;5;138;36;109;188;88;151;146;239;36;206;137;233;131;32;199;
   225;225;86;37;182;109;73;251;217;84;83;53;221;146;71;102;132;143;119;182;223;91;254;241;169;253;21;249;90;212;12;
   216;172;5;148;70;70;30;241;46;115;26;199;64;175;70;75;156;24;218;25;56;165;35;16;17;151;137;169;91;237;44;12;25;
   101;123;252;246;235;38;9;39;246;22;220;35;179;186;193;150;205;6;6;146;102;159;239;233;89;174;72;17;168;163;78;95;
   5;194;242;56;204;88;202;223;186;54;52;144;59;1;193;209;24;167;223;162;184;31;100;25;90;83;97;25;103;157;158;127;
   180;233;88;251;164;5;121;188;107;109;183;151;40;68;103;73;49;137;237;221;54;236;37;138;234;209;136;196;131;171;
   229;160;158;192;233;47;93;36;23;136;10;63;254;61;24;203;220;200;244;29;177;203;233;147;187;34;230;188;49;137;165;
   13;102;217;7;246;180;21;234;76;102;37;87;4;141;208;85;6;175;106;111;123;64;246;188;163;164;149;76;97;54;121;12;
   72;138;248;185;69;43;23;66;144;41;163;134;101;100;49;196;87;235;189;104;28;208;176;82;5;16;248;244;174;1;91;198;
   7;118;139;134;122;39;144;246;151;163;15;169;228;249;230;250;15;183;212;186;249;223;89;193;176;168;8;23;231;41;43;
   92;173;160;186;215;160;146;196;94;152;108;141;173;137;236;195;127;230;135;54;155;132;172;150;108;127;0;126;243;
   122;157;2;73;75;157;206;179;187;49;220;66;113;222;214;118;102;73;138;97;156;11;189;54;16;221;147;192;97;214;161;
   160;76;231;55;1;180;96;190;44;130;204;139;143;95;10;152;76;141;96;152;175;44;199;148;19;253;91;56;121;216;97;65;
   144;145;107;3;42;157;180;31;246;44;235;9;206;235;121;122;4;32;29;235;190;255;136;242;199;160;84;24;236;23;158;146;
   253;186;192;241;247;139;158;65;163;171;64;105;190;224;23;123;82;221;253;70;86;156;236;14;117;180;144;78;244;11;
   148;195;179;188;96;232;34;140;150;84;41;142;134;156;72;196;177;152;87;219;212;130;246;41;200;92;243;111;75;231;
   6;80;223;57;174;154;93;152;167;243;124;210;154;183;27;252;244;103;197;8;58;66;130;93;150;77;197;50;101;53;52;192;
   122;49;108;53;224;30;195;70;54;137;196;100;188;29;200;30;206;106;105;35;158;31;81;112;161;142;103;13;73;128;182;
   42;163;164;210;216;81;71;136;152;43;246;146;97;99;69;23;123;238;106;153;239;233;231;185;129;108;71;114;153;32;94;
   2;48;101;102;89;138;153;18;224;253;124;172;196;38;253;76;62;156;71;95;241;10;96;21;57;12;112;159;255;190;199;33;
   167;189;92;135;163;88;232;78;123;245;53;123;193;42;92;81;180;208;148;147;189;130;37;108;250;198;200;198;246;243;
   167;250;44;195;186;80;21;242;76;4;31;51;154;146;80;36;214;43;89;102;64;102;170;66;45;246;79;148;249;248;111;78;
   253;116;149;147;28;185;96;248;133;255;223;82;33;193;78;45;193;29;94;198;63;213;59;65;167;0;26;178;62;153;76;96;
   97;86;42;215;100;232;91;54;171;35;200;247;38;28;246;188;162;107;217;133;23;154;238;92;114;102;83;128;228;81;209;
   93;44;16;249;128;230;227;112;161;21;133;95;8;235;251;113;254;231;96;97;219;88;215;157;178;86;2;135;192;146;213;
   167;13;250;75;46;81;22;106;202;2;12;104;57;231;176;126;220;110;150;56;172;13;169;212;20;96;57;179;34;88;172;80;
   115;230;228;156;219;247;137;204;27;51;189;185;159;7;243;105;128;3;227;246;227;120;17;126;117;205;235;154;225;89;
   146;181;247;150;97;112;65;236;185;120;89;243;210;173;157;251;244;217;35;161;161;95;30;147;156;24;251;156;26;243;
   111;0;86;119;158;253;129;51;56;157;185;16;250;154;60;167;103;62;119;27;156;222;26;96;122;242;59;182;200;254;53;
   174;31;11;115;243;117;230;167;73;139;168;91;66;66;207;231;253;179;167;62;192;86;101;196;99;161;110;129;183;6;105;
   192;164;201;217;174;18;138;10;101;179;208;156;8;131;99;161;23;68;213;100;69;89;102;213;199;175;102;208;92;75;23;
   77;92;85;77;99;187;211;30;154;63;214;215;93;231;12;48;12;244;194;121;71;224;116;209;34;62;74;186;65;206;194;180;
   59;153;34;20;8;245;42;51;123;219;128;17;115;98;117;192;167;170;106;133;226;122;80;243;185;210;189;243;138;176;154;
   149;88;243;92;158;237;84;165;255;83;97;71;107;156;83;101;82;51;160;191;143;158;38;172;255;49;77;243;234;137;196;
   67;221;203;114;109;119;197;217;128;154;202;244;237;85;126;15;70;48;86;214;170;94;196;176;121;27;164;118;132;176;
   110;242;211;236;249;152;223;61;58;68;48;227;59;1;119;121;157;254;188;170;202;225;177;174;143;12;177;188;32;14;196;
   228;50;171;221;5;88;22;230;181;70;229;179;80;195;224;140;87;86;198;248;246;77;55;199;192;102;25;65;114;46;162;43;
   132;218;214;126;107;62;250;113;152;126;94;249;246;129;177;163;64;38;46;241;9;27;19;27;78;33;182;40;186;14;197;36;
   195;3;163;219;73;193;173;8;3;77;93;167;149;73;63;85;77;26;6;101;131;4;0;136;133;166;0;21;100;184;2;206;67;200;34;
   59;152;146;101;239;208;80;87;252;164;68;255;15;94;72;16;154;197;131;40;122;246;252;109;205;109;214;99;180;143;128;
   132;159;206;95;248;164;183;185;184;18;84;226;216;241;45;42;6;52;34;240;76;4;10;2;112;19;124;42;48;242;45;115;171;
   207;28;1;188;200;80;194;135;244;87;125;40;165;119;209;137;6;169;155;227;217;169;141;33;65;116;93;160;187;198;133;
   245;168;175;28;32;176;0;253;64;96;213;84;119;200;134;145;158;128;116;188;164;16;51;183;172;228;7;199;166;108;66;
   34;1;153;51;255;129;211;73;23;223;137;109;209;131;48;21;253;151;158;24;37;118;77;166;153;70;214;9;203;250;59;142;
   11;144;29;5;17;61;149;105;34;221;69;98;82;33;24;98;5;230;222;139;192;124;231;203;163;141;0;178;75;157;214;193;19;
   42;192;237;29;71;160;218;128;14;4;12;30;63;30;85;82;230;243;20;209;58;123;80;232;116;151;216;141;229;232;237;195;
   205;126;254;1;45;138;131;174;185;73;217;225;164;122;219;90;146;95;237;56;34;52;218;221;156;170;170;104;242;77;9;
   51;168;51;188;202;1;251;15;47;161;183;178;177;115;85;68;229;9;108;149;17;162;55;187;151;209;41;108;2;190;242;255;
   7;18;134;208;75;184;135;191;87;103;81;126;140;63;22;91;72;166;62;124;14;67;166;176;33;229;187;27;11;112;181;29;
   15;247;242;241;79;136;238;43;55;89;181;174;182;146;249;19;20;12;221;137;88;84;199;192;160;42;242;247;121;99;132;
   244;59;51;247;37;82;226;92;25;207;104;189;50;183;208;100;21;248;122;6;21;116;233;186;151;221;164;249;238;6;250;
   52;3;207;253;121;163;133;250;79;123;25;228;193;92;236;96;249;179;210;97;153;155;249;227;121;74;92;51;10;47;139;
   90;110;242;119;54;21;248;98;177;68;34;58;198;140;39;133;111;46;107;135;31;99;224;38;186;231;216;255;43;60;246;115;
   186;89;152;18;42;183;99;243;112;208;223;75;97;221;105;221;125;166;50;59;43;172;63;92;124;23;60;33;73;68;196;163;
   217;82;122;19;224;202;237;219;114;137;141;232;53;186;182;152;42;226;152;88;44;209;160;248;123;142;236;221;97;10;
   199;222;194;7;179;223;205;61;62;36;162;25;209;74;136;171;225;147;55;77;56;52;67;69;183;110;15;236;8;216;125;207;
   164;246;108;50;167;10;248;252;209;120;217;209;28;24;221;25;188;95;162;221;227;77;1;254;220;12;87;1;197;93;87;240;
   121;72;129;167;205;255;20;110;32;209;245;159;147;93;140;3;250;34;161;207;116;128;69;17;54;23;173;134;185;70;192;
   143;41;69;133;97;96;123;246;202;42;78;162;107;240;81;17;251;79;26;5;133;116;149;106;251;11;89;76;155;195;68;188;
   233;131;245;220;71;184;114;137;98;234;119;21;201;102;148;26;240;161;49;25;217;21;144;204;114;57;218;8;24;94;254;
   73;61;161;156;59;33;241;39;114;116;112;162;193;149;213;150;174;56;67;238;175;24;154;57;44;136;228;177;250;136;190;
   70;149;128;62;213;144;82;54;250;73;81;210;75;180;135;252;203;35;222;57;122;195;235;79;232;80;245;49;30;199;1;134;
   208;30;144;146;109;137;29;252;150;243;60;75;177;95;238;118;174;249;29;198;162;51;112;161;61;179;158;55;141;23;141;
   27;231;20;47;131;93;76;99;48;244;45;43;210;219;88;102;251;189;71;210;104;111;148;121;23;9;219;216;12;196;78;46;
   186;138;225;60;4;31;197;57;179;161;253;191;140;6;194;248;15;248;167;136;213;82;111;80;23;192;208;206;241;244;166;
   29;245;65;182;214;37;38;155;254;127;94;218;118;167;47;71;98;106;165;216;243;248;6;110;138;143;144;202;47;51;75;
   77;136;140;218;222;234;254;92;104;130;148;192;195;219;252;196;240;31;52;90;117;138;141;168;223;230;0;0;0;0;0;0;
   0;0;0;0;0;0;8;14;24;32;34;43].
(** [dilithium_selftest_vector_87.h] *)
Definition dv87_m : list Z :=
  [127;156;43;164;232;143;130;125;97;96;69;80;118;5;133;62;215;59;128;147;246;239;188;136;235;26;110;172;250;102;239;
   38;60;177;238;169;136;0;75;147;16;60;251;10;238;253;42;104;110;1;250;74;88;232;163;99;156;168;161;227;249;174;87;
   226].
Definition dv87_pk : list Z :=
  [77;246;152;227;23;135;176;252;36;133;199;143;252;135;31;232;6;209;154;170;201;7;111;34;127;80;172;144;90;223;245;
   5;219;156;5;160;222;30;229;211;230;165;228;69;144;226;160;40;91;214;237;10;247;44;142;21;93;207;42;42;198;138;73;
   184;61;54;82;140;48;63;4;136;239;41;221;153;3;215;94;38;138;60;175;39;149;151;214;52;149;59;203;216;158;107;83;
   115;250;254;87;13;10;192;204;8;198;184;147;55;91;99;28;104;18;221;13;62;140;183;13;193;61;96;142;253;219;151;197;
   92;159;145;47;163;64;44;228;159;4;132;68;222;138;230;182;85;164;234;129;245;0;245;124;253;193;88;171;238;183;206;
   147;95;232;156;246;112;225;50;113;10;178;252;11;140;76;28;160;45;239;240;224;167;162;3;233;161;218;26;200;149;224;
   114;98;159;109;174;221;205;136;125;110;209;33;48;78;219;165;116;73;0;153;139;17;96;185;42;176;77;69;159;192;74;
   202;14;103;153;43;199;125;158;163;255;219;89;23;76;113;181;26;114;44;148;57;222;51;148;81;240;164;109;146;56;143;
   227;204;172;173;110;179;209;53;89;142;14;143;19;57;10;180;80;92;148;188;32;71;202;163;158;78;151;117;156;93;70;
   192;254;177;77;162;9;90;220;178;219;179;252;244;236;251;55;1;111;45;192;69;209;33;9;196;69;222;98;163;21;225;168;
   35;14;213;94;239;44;113;165;126;176;210;206;134;227;109;234;90;78;161;152;121;21;155;244;70;204;216;147;38;232;
   206;231;180;208;81;69;232;254;60;11;120;36;189;101;227;234;161;44;126;139;109;245;137;137;1;30;239;246;248;19;54;
   119;92;43;89;153;248;129;146;239;87;254;84;2;16;176;204;63;20;122;175;23;186;200;61;75;169;108;58;132;229;165;243;
   178;86;214;189;196;171;90;252;228;189;228;222;86;126;207;195;7;57;142;121;163;138;74;193;190;252;53;42;174;19;177;
   173;251;252;219;118;225;176;226;176;48;197;180;177;115;30;184;172;139;162;235;54;166;163;217;172;0;244;15;165;3;
   195;37;97;87;134;72;220;197;100;248;135;254;68;165;21;185;38;25;165;186;86;214;5;94;61;16;91;237;125;162;7;94;162;
   104;166;48;42;39;92;124;247;7;88;179;171;143;111;159;254;187;193;138;190;29;196;140;227;245;73;157;216;218;121;
   119;139;2;107;161;211;155;142;66;0;217;36;252;31;129;70;157;104;132;100;54;120;208;85;118;5;96;134;181;3;60;169;
   26;105;155;24;23;240;46;250;215;95;249;255;181;247;5;151;38;182;119;151;215;217;204;84;242;120;174;108;18;250;228;
   18;248;192;226;119;229;34;16;115;188;251;13;1;230;164;48;221;122;51;22;39;127;134;52;188;188;20;155;4;101;43;124;
   104;101;106;193;128;53;197;175;77;20;157;112;138;76;240;100;12;28;198;206;252;65;165;9;75;100;90;65;46;102;51;29;
   113;152;147;64;25;96;5;5;238;238;108;37;17;129;229;125;195;141;76;226;239;92;150;101;27;170;197;137;182;112;42;
   225;163;70;245;38;7;18;26;202;52;174;164;75;103;201;246;102;90;186;117;209;196;66;165;129;209;75;149;223;66;124;
   7;138;78;41;55;87;243;97;6;160;252;12;9;84;5;31;166;227;122;21;183;249;195;156;113;230;79;175;87;211;108;179;97;
   220;211;203;119;206;246;241;38;70;181;219;232;4;183;156;201;116;126;106;42;36;4;21;112;48;75;176;122;108;50;37;
   42;30;50;96;139;133;108;92;84;91;106;163;234;87;169;230;192;85;124;237;242;168;187;155;155;180;15;11;254;142;226;
   242;198;1;163;183;9;223;23;116;75;96;216;84;39;109;251;163;149;110;243;37;53;117;227;31;244;164;61;178;93;75;123;
   242;168;208;99;241;53;194;88;37;49;39;114;136;12;154;131;87;216;37;6;213;240;188;108;202;19;83;75;38;46;21;107;
   170;137;216;148;187;49;162;203;133;247;4;9;90;20;194;160;172;230;244;198;181;243;86;14;158;86;23;161;71;159;59;
   149;224;168;239;3;174;135;145;188;173;115;107;34;96;156;157;58;197;31;134;111;0;22;183;37;35;128;49;27;202;27;97;
   58;157;96;149;60;160;198;120;181;151;102;106;115;114;134;235;234;92;115;219;66;81;117;65;179;252;41;78;0;12;78;
   41;138;21;129;113;112;24;191;175;30;123;235;145;104;180;9;50;29;200;246;50;177;177;243;161;34;64;121;218;122;233;
   59;67;99;255;226;67;12;20;214;206;193;87;45;53;184;114;25;101;71;38;171;255;241;85;169;59;239;96;81;40;227;33;11;
   16;89;22;116;61;10;234;159;145;252;146;9;218;237;150;212;162;230;93;6;132;177;100;117;134;194;36;155;90;195;29;
   27;102;127;225;49;241;20;204;21;241;4;198;51;115;236;227;163;97;224;109;235;39;157;140;71;0;121;40;192;180;168;
   220;179;117;113;88;146;183;126;250;55;184;157;229;31;54;207;247;216;16;84;237;210;92;120;145;206;95;78;43;29;252;
   40;238;181;140;171;245;45;114;177;227;80;204;136;69;81;34;151;165;85;192;116;7;134;196;61;68;156;9;68;151;175;67;
   151;7;248;176;151;190;53;106;87;187;82;56;214;237;128;139;180;226;64;85;160;77;193;26;52;157;228;36;184;141;157;
   221;12;228;122;119;183;1;119;45;172;196;158;164;79;189;30;222;205;93;52;251;37;160;219;73;77;117;192;114;111;161;
   105;216;221;225;35;130;221;94;148;81;124;91;160;153;50;217;196;136;182;50;34;175;188;69;106;19;85;135;3;101;35;
   79;68;193;175;152;240;138;98;142;107;216;97;145;113;138;197;44;80;250;3;27;1;211;211;20;249;173;44;165;51;1;60;
   83;53;42;249;45;10;172;32;137;88;33;74;165;27;193;57;204;242;113;20;75;166;129;206;199;41;123;203;204;111;77;74;
   198;32;180;153;227;138;29;50;149;210;37;18;125;184;222;121;65;193;52;150;186;19;94;19;186;56;155;50;243;210;45;
   225;36;117;112;249;161;173;71;111;58;104;191;127;69;65;101;175;135;125;140;238;81;102;74;46;62;77;172;222;13;51;
   248;219;107;247;53;117;177;47;217;67;84;250;183;122;31;54;240;120;232;167;7;117;234;8;149;110;23;3;141;2;181;121;
   113;96;173;111;210;238;79;98;219;23;35;197;29;115;224;171;172;184;18;115;208;62;146;217;89;62;62;156;4;236;132;
   204;56;29;55;189;95;89;208;142;1;92;204;90;59;0;61;34;214;162;74;202;132;142;71;31;104;82;196;234;220;63;32;108;
   38;227;61;151;253;128;184;86;105;196;143;126;249;24;200;214;171;72;169;40;136;105;142;24;72;37;220;175;185;160;
   32;31;192;249;176;194;207;185;118;34;217;20;108;60;144;237;6;214;95;18;210;212;159;51;254;215;164;45;210;162;42;
   234;147;65;205;100;164;119;188;93;197;230;122;185;227;42;165;35;121;85;228;60;236;133;88;198;244;65;137;176;244;
   57;24;102;95;7;250;30;195;149;87;107;190;122;252;202;151;168;65;88;233;195;240;153;172;111;123;181;166;148;188;
   65;92;212;207;216;173;102;217;86;92;7;125;100;222;254;3;245;70;22;200;0;83;227;169;92;239;221;165;30;244;41;23;
   184;174;83;31;146;110;150;19;108;184;253;45;222;142;192;255;97;87;184;46;147;126;79;77;85;231;101;184;61;244;68;
   247;226;154;225;238;145;174;47;239;181;141;105;85;207;65;218;116;198;4;98;138;112;46;137;214;46;23;147;171;31;235;
   36;79;54;58;175;160;71;26;197;247;32;194;236;48;219;222;48;52;156;210;41;174;135;3;144;52;149;204;248;207;127;241;
   212;134;105;79;128;249;191;192;154;87;63;201;199;134;90;161;212;111;183;71;103;146;236;171;204;192;243;23;5;50;
   132;196;157;108;8;63;209;223;217;20;173;108;26;32;182;92;111;53;91;170;34;72;170;224;20;186;110;94;48;80;84;143;
   197;250;178;60;159;39;232;41;208;122;6;97;231;96;26;169;30;60;214;53;138;105;108;161;144;203;158;57;94;53;80;31;
   0;137;19;65;156;182;239;178;71;48;104;107;218;22;156;212;219;7;199;171;172;199;67;52;226;11;107;237;125;159;78;
   40;221;153;45;154;35;238;121;55;128;32;68;84;240;67;83;248;218;6;99;12;38;223;230;126;153;252;243;78;210;95;72;
   3;68;43;115;39;118;50;134;112;121;190;10;60;24;195;222;98;75;38;141;54;189;41;220;132;255;180;208;116;135;40;222;
   153;1;243;240;20;27;169;124;212;219;16;90;134;228;41;181;166;3;148;93;124;28;255;195;216;109;219;249;227;120;169;
   51;86;75;226;148;117;193;181;178;67;41;135;185;193;185;56;28;153;138;27;149;159;65;58;248;119;147;67;239;39;7;225;
   187;164;250;200;121;110;189;8;228;30;64;145;183;230;230;149;147;129;11;36;197;240;110;69;227;223;74;253;170;139;
   50;84;14;87;213;229;0;55;129;32;137;71;28;62;84;181;144;208;34;140;26;135;182;97;183;227;238;39;187;63;130;129;
   253;241;0;204;222;219;85;247;214;55;106;149;229;185;41;239;90;98;95;142;20;239;215;7;183;221;83;40;10;0;114;96;
   109;61;51;213;4;124;188;102;41;35;146;31;55;234;140;59;222;131;168;103;202;213;61;57;159;57;4;28;137;121;128;140;
   206;121;70;90;174;241;192;210;140;113;236;153;62;171;235;174;184;241;151;81;147;204;54;169;52;234;220;216;213;64;
   204;216;99;36;193;112;3;82;97;116;221;15;251;93;110;148;187;101;234;93;18;81;161;49;104;206;58;86;132;187;137;22;
   133;57;205;24;239;91;112;126;32;132;232;149;201;189;22;19;2;1;135;20;212;37;28;208;178;170;104;69;179;17;0;100;
   179;153;167;92;101;175;106;59;150;119;16;100;88;231;92;158;253;238;244;62;201;219;104;106;186;174;243;151;204;112;
   70;175;51;207;48;188;146;203;203;163;34;207;127;150;56;208;112;40;29;237;163;243;104;30;78;204;198;232;115;226;
   119;219;79;118;159;162;243;255;138;206;98;148;113;142;39;164;131;100;95;158;216;48;7;101;178;219;142;94;201;183;
   77;30;45;97;246;255;231;208;250;244;213;39;116;173;206;202;159;137;61;196;193;130;164;196;113;156;37;47;64;119;
   62;221;93;254;161;5;189;124;153;206;222;49;200;81;238;200;69;159;118;169;24;193;226;172;88;30;248;229;206;150;141;
   5;206;76;138;199;72;74;6;65;22;63;14;199;164;16;167;53;189;183;172;44;46;191;250;106;43;38;248;183;226;251;49;133;
   10;107;61;47;92;89;201;37;159;108;233;26;82;217;184;245;208;140;120;78;158;151;41;146;47;242;221;140;212;3;48;4;
   213;120;187;200;71;64;220;191;182;156;64;17;243;164;14;131;200;208;151;222;212;6;252;212;68;149;75;130;9;90;213;
   38;94;207;149;85;241;30;175;86;21;142;200;90;68;35;67;210;88;160;56;45;200;23;102;202;251;228;72;137;183;149;148;
   156;19;223;99;128;60;96;254;154;180;106;18;19;62;99;224;211;95;89;38;15;5;240;51;127;80;148;248;87;114;240;54;81;
   225;128;172;74;153;35;47;66;64;148;19;252;161;218;128;5;135;177;47;27;151;199;103;177;141;106;23;36;46;164;182;
   93;234;97;41;51;156;242;66;59;246;85;134;40;31;177;253;218;32;175;87;197;204;76;0;51;179;212;189;90;224;158;75;
   170;82;12;75;14;121;242;254;214;152;186;226;226;162;12;193;232;174;169;96;88].
Definition dv87_sk : list Z :=
  [77;246;152;227;23;135;176;252;36;133;199;143;252;135;31;232;6;209;154;170;201;7;111;34;127;80;172;144;90;223;245;
   5;210;179;175;199;214;255;208;63;188;191;201;161;162;11;86;6;32;120;220;158;84;94;210;90;136;47;221;71;142;170;
   27;14;84;71;147;188;46;250;97;14;97;238;82;212;241;213;144;0;52;29;215;126;87;149;238;51;13;104;217;49;79;243;43;
   10;198;225;243;228;176;129;88;209;154;179;212;114;204;184;170;28;134;4;142;11;140;219;9;30;224;136;68;26;6;140;
   195;167;83;148;69;160;50;46;155;196;101;65;146;96;83;8;77;224;56;128;220;72;142;195;34;74;12;149;40;164;38;114;
   81;6;42;227;40;108;35;68;80;193;8;4;140;38;146;9;184;33;17;57;33;146;54;140;9;8;65;145;8;32;89;0;72;99;54;102;163;
   72;134;4;68;14;224;64;132;0;40;140;92;18;74;146;130;141;91;66;144;90;150;128;36;163;145;3;163;109;200;56;17;8;37;
   13;99;8;10;4;54;96;24;67;37;99;50;68;68;200;76;200;52;34;9;196;4;4;182;68;35;6;146;34;68;137;35;72;96;35;53;72;
   11;34;48;28;167;108;20;50;64;68;192;145;35;146;113;24;54;10;138;72;104;208;182;136;12;34;132;9;73;76;82;34;48;164;
   4;49;224;72;100;208;40;5;84;8;37;64;6;134;32;18;105;10;32;98;0;41;2;4;151;112;65;20;8;193;8;33;8;70;137;99;50;106;
   96;22;40;25;192;12;88;72;133;132;166;129;225;18;106;194;194;40;8;24;40;74;136;1;161;166;36;147;68;14;27;25;70;32;
   169;108;36;24;18;2;196;36;34;35;146;201;4;110;8;37;64;92;164;48;92;56;68;152;164;132;32;178;96;28;133;69;192;132;
   33;9;130;109;202;72;134;9;4;9;161;72;13;26;181;5;24;64;104;32;8;50;97;34;128;10;48;34;97;34;12;88;56;33;32;149;
   68;18;193;45;164;8;33;2;150;109;220;176;112;33;40;132;34;69;137;90;52;18;219;56;106;9;73;97;195;38;38;24;163;37;
   98;6;36;200;66;69;2;6;64;128;68;78;219;150;81;161;130;109;89;136;112;32;4;45;12;38;49;212;54;33;66;16;114;16;163;
   17;228;144;100;192;200;108;76;200;49;0;160;128;209;192;32;224;192;77;68;180;112;26;181;64;227;164;96;202;20;64;
   195;22;132;153;162;76;153;136;96;11;35;101;162;200;16;32;49;110;224;150;33;10;52;144;192;192;32;129;184;1;4;48;
   0;89;200;36;224;68;1;65;56;98;208;182;73;145;40;78;34;151;145;220;194;37;34;24;2;28;177;109;217;8;65;11;55;109;
   132;68;77;12;56;36;200;56;38;148;0;145;130;148;97;27;68;18;204;34;14;152;160;16;224;52;40;219;38;114;34;4;65;140;
   4;14;27;169;77;19;153;48;217;196;45;88;32;110;0;136;72;12;9;34;148;160;4;26;160;68;17;5;138;35;35;78;24;167;33;
   216;54;48;0;37;112;4;54;34;137;2;128;156;160;144;26;24;41;216;144;112;208;194;1;25;150;81;162;132;13;27;182;141;
   195;162;132;9;52;100;65;196;145;35;7;48;98;18;44;201;150;80;10;17;109;28;163;97;148;50;104;0;19;96;90;64;105;145;
   72;146;8;38;9;17;16;1;227;4;112;19;166;17;161;146;36;154;6;16;194;144;68;0;65;97;88;178;140;18;54;66;17;146;76;
   161;20;146;99;32;129;154;2;72;227;164;0;160;52;12;192;54;18;16;144;128;98;192;45;160;22;13;16;128;136;16;38;37;
   72;54;45;35;184;65;153;198;100;201;68;41;73;146;0;100;194;72;27;16;44;131;176;109;131;52;10;160;52;73;25;165;69;
   74;36;72;162;32;74;26;199;101;8;68;42;203;68;8;192;2;137;192;128;0;1;144;1;27;5;78;132;32;13;164;134;81;27;164;
   33;18;70;108;226;8;40;36;57;113;25;148;8;89;36;4;20;33;14;10;6;68;208;160;144;99;64;9;208;48;32;16;23;82;210;196;
   16;91;4;17;0;37;66;35;198;68;132;36;100;10;164;37;193;38;81;9;55;82;64;34;66;100;16;9;225;194;64;154;198;48;161;
   52;77;26;34;78;18;17;76;10;7;138;145;0;137;32;65;16;35;34;37;194;18;4;28;3;69;84;56;42;209;20;68;81;20;128;96;144;
   101;80;160;113;156;166;33;83;20;2;227;176;136;26;37;34;154;16;113;144;0;144;211;6;101;137;68;145;25;67;72;98;36;
   46;36;4;113;27;7;109;20;9;5;8;195;132;226;50;6;9;177;133;3;165;8;211;182;69;19;19;140;89;182;4;228;150;37;202;150;
   80;9;8;140;32;25;113;28;7;48;137;48;138;17;165;49;0;17;69;129;48;145;11;34;69;25;49;76;84;132;16;33;72;40;25;130;
   101;217;24;81;27;192;100;153;8;42;1;135;8;10;146;13;72;148;97;25;181;105;16;65;42;217;4;74;16;163;97;225;198;16;
   34;9;46;80;2;17;35;53;77;194;144;33;25;72;36;4;179;41;26;70;78;203;2;134;68;0;13;128;50;104;2;23;46;33;68;0;147;
   16;44;204;194;132;20;161;17;129;152;40;27;66;109;10;17;130;129;16;108;130;18;70;67;134;41;36;55;14;11;70;109;100;
   40;64;16;195;105;129;56;16;10;192;65;195;196;113;227;34;140;83;148;69;203;64;97;3;150;37;68;72;33;73;34;136;16;
   19;80;96;184;33;35;39;97;28;5;96;195;160;5;17;32;76;153;200;0;196;20;38;218;196;48;4;25;132;80;182;96;76;180;8;
   19;8;142;0;192;49;195;20;36;140;72;1;24;65;112;8;201;73;27;182;33;24;16;37;164;64;36;228;24;68;132;200;145;10;55;
   129;75;18;81;128;32;106;227;38;37;10;201;36;218;8;74;89;148;141;26;6;37;136;32;33;163;48;141;0;55;130;10;35;146;
   137;24;82;9;52;146;153;66;138;200;52;106;66;152;80;10;73;5;27;194;112;96;50;68;3;67;9;144;146;36;16;41;136;201;
   178;49;212;36;112;68;32;113;132;166;113;88;16;105;224;20;142;74;16;34;1;146;128;228;56;145;28;167;33;24;17;10;204;
   64;145;34;176;77;200;182;36;17;51;6;20;136;105;9;33;66;34;182;109;130;64;6;24;36;74;67;40;16;2;148;40;226;64;136;
   66;68;70;137;52;40;36;192;32;26;167;132;35;18;10;82;70;8;152;20;6;128;36;108;4;2;76;1;7;81;129;146;9;25;53;37;4;
   19;32;97;166;77;96;68;104;81;4;33;137;64;101;144;148;76;34;21;101;203;48;38;76;24;1;12;32;129;9;151;109;227;200;
   37;17;2;136;227;32;128;217;32;2;20;36;100;89;20;104;202;2;138;17;51;13;12;163;17;12;176;112;32;128;97;228;144;72;
   156;180;101;90;22;142;19;161;109;65;66;17;72;50;4;75;164;133;66;136;104;27;131;1;224;130;13;5;234;33;54;134;213;
   7;145;22;241;179;219;232;26;237;18;49;216;218;0;42;100;202;27;228;107;233;108;168;207;34;129;15;221;10;242;172;
   8;239;54;148;172;161;217;165;64;127;165;250;69;235;153;153;61;231;69;211;243;161;111;123;235;254;144;61;140;193;
   203;157;164;182;117;60;112;80;255;195;221;137;137;26;136;99;64;69;168;231;181;135;41;244;166;85;38;141;69;77;58;
   177;12;184;127;171;167;84;9;243;145;144;157;94;228;177;125;108;200;0;108;131;199;116;0;67;176;6;217;154;3;65;16;
   125;252;254;48;186;67;151;69;68;16;43;87;152;98;212;101;7;136;207;15;40;172;234;164;181;37;53;229;0;143;135;159;
   211;128;127;185;234;28;30;180;72;163;7;83;199;16;165;67;134;182;102;250;124;228;163;196;131;87;74;195;43;212;122;
   103;196;156;31;67;186;2;227;68;203;174;180;81;102;182;131;19;131;215;47;110;200;52;2;195;4;74;50;71;146;85;118;
   40;166;67;248;195;33;34;251;103;184;158;243;122;164;231;64;159;138;48;28;105;162;232;25;49;132;224;14;120;5;229;
   165;66;88;78;19;155;34;116;197;189;165;175;14;238;33;216;176;19;106;68;113;138;28;54;93;98;226;78;2;101;226;181;
   226;25;28;202;1;64;212;65;235;30;209;156;206;134;167;238;21;131;252;80;48;56;245;225;141;173;187;237;49;232;5;18;
   115;92;106;226;97;212;156;10;122;128;160;182;114;228;114;242;131;106;20;111;160;197;54;89;64;126;104;61;125;146;
   94;126;69;27;33;166;44;164;44;123;146;4;36;137;104;252;213;158;132;88;95;181;148;85;86;128;199;114;61;177;212;87;
   171;158;96;225;40;167;83;229;241;96;153;79;121;232;7;65;182;207;155;157;219;231;95;238;236;51;211;141;89;29;203;
   150;145;113;148;161;190;90;76;157;2;236;26;16;60;159;190;21;163;203;49;207;3;141;140;248;91;125;200;148;50;242;
   174;56;145;217;224;116;185;163;175;230;247;10;67;242;181;117;122;97;122;86;204;179;52;47;144;18;201;30;243;136;
   192;252;155;27;197;1;105;167;196;69;10;83;186;0;176;173;247;145;199;94;241;89;163;30;10;174;234;18;186;235;89;217;
   87;218;163;28;139;221;99;186;144;210;126;86;219;202;8;84;17;165;213;95;3;35;235;211;4;4;30;122;183;245;221;227;
   21;70;130;246;6;165;10;178;221;124;176;102;121;139;84;112;168;59;119;102;251;217;25;21;161;253;60;68;84;117;84;
   30;38;133;61;102;242;10;179;63;37;74;119;168;36;88;138;129;9;234;13;253;67;232;106;2;10;144;21;244;128;96;121;55;
   137;249;218;184;91;100;131;105;135;104;91;57;206;52;94;44;30;72;171;215;73;237;213;228;245;100;213;63;119;187;127;
   178;59;44;221;0;93;201;199;190;60;86;111;181;143;69;62;239;183;30;132;151;60;67;184;170;24;229;122;53;28;21;187;
   115;154;219;174;161;182;223;104;231;45;52;5;98;16;126;35;118;173;148;184;248;186;43;125;26;144;196;38;44;201;204;
   188;174;228;250;239;244;73;112;132;2;189;130;163;229;141;111;128;191;72;163;23;255;160;162;204;172;150;186;94;181;
   128;214;213;99;251;68;193;33;47;253;96;134;101;49;4;235;152;238;223;198;50;218;137;45;173;118;137;15;40;107;156;
   185;117;99;30;202;124;242;185;183;167;254;79;125;126;35;65;121;127;220;119;140;142;226;66;167;207;180;60;189;28;
   241;199;251;133;6;69;112;209;154;221;201;95;236;34;114;6;179;116;4;12;214;91;221;127;93;143;133;226;97;239;39;186;
   44;67;159;24;15;105;249;172;179;9;183;196;121;0;172;159;154;94;11;0;176;110;3;230;3;102;81;144;195;9;199;243;82;
   118;251;156;237;93;126;174;254;66;120;135;185;60;236;29;182;39;19;181;196;87;118;108;236;13;108;198;149;78;153;
   29;126;233;24;35;21;95;18;49;87;177;175;27;246;234;187;28;86;238;123;66;17;129;245;24;176;206;62;38;125;233;129;
   195;164;88;119;213;103;20;109;224;205;155;155;180;56;110;200;178;82;238;203;28;180;217;19;30;77;79;198;140;87;64;
   81;226;100;107;237;149;50;115;9;149;145;214;46;247;2;200;31;193;4;100;134;77;99;228;94;104;130;85;203;195;223;76;
   36;188;6;132;28;73;121;104;179;176;119;182;49;55;26;100;196;12;249;243;21;18;243;28;48;131;77;47;151;178;123;126;
   97;113;145;129;106;146;221;97;189;232;86;187;62;250;50;68;184;152;20;128;162;45;205;68;145;149;11;253;216;18;252;
   251;157;143;90;171;234;169;231;188;157;238;180;178;238;203;200;105;125;138;209;164;178;82;140;8;30;60;45;51;83;
   87;216;178;85;32;224;26;173;11;6;43;33;0;219;188;53;121;242;36;232;219;229;9;209;219;120;255;202;185;251;49;194;
   228;223;181;16;42;226;47;112;244;79;203;244;185;142;100;133;28;127;8;41;113;245;133;246;28;165;148;8;216;38;224;
   47;86;133;155;214;43;194;174;195;11;217;45;170;113;218;91;180;109;118;164;190;142;208;148;11;89;215;249;209;88;
   123;118;234;1;15;85;144;196;243;170;52;75;156;167;238;183;251;155;30;80;26;20;9;49;25;21;96;244;44;252;156;139;
   89;91;215;194;66;97;106;40;236;43;41;137;112;62;107;27;166;212;108;209;2;3;234;221;113;213;27;176;215;144;189;175;
   122;207;104;131;158;67;130;52;181;253;85;48;242;137;173;194;234;39;11;23;253;244;72;63;229;141;40;161;100;209;117;
   224;113;230;89;173;85;192;200;22;77;25;255;204;161;93;3;23;232;176;48;146;213;142;22;153;250;95;129;32;104;224;
   166;68;33;47;106;195;183;170;159;1;207;188;175;191;228;71;119;103;1;78;184;172;156;187;199;134;90;55;179;71;36;
   180;163;200;21;165;182;195;222;254;85;39;117;248;69;182;250;113;159;113;120;23;251;152;83;79;179;201;199;92;173;
   209;194;124;238;149;245;44;43;103;242;41;173;196;105;128;97;55;207;46;194;177;50;226;126;162;115;38;44;178;112;
   83;9;165;182;127;71;156;19;209;74;68;130;245;170;199;187;65;100;198;166;190;177;58;13;151;151;184;222;86;218;111;
   78;44;160;9;117;202;32;82;18;157;235;209;127;143;129;51;53;56;224;8;54;242;3;143;239;241;77;118;65;65;69;118;96;
   99;73;97;42;147;57;48;171;248;166;218;7;3;70;100;252;58;219;128;237;28;50;173;38;166;201;189;19;81;27;25;218;119;
   139;65;87;214;210;247;146;138;178;22;41;251;91;200;154;221;55;90;226;188;254;220;181;239;137;167;23;241;195;49;
   9;96;46;178;124;178;111;251;23;202;198;138;149;50;126;197;249;65;0;115;124;166;63;246;102;159;46;111;141;95;228;
   228;185;0;59;209;58;107;31;218;91;247;25;149;125;105;226;83;100;215;126;30;71;42;85;204;117;186;9;67;249;141;160;
   82;31;210;158;163;141;212;194;121;124;186;73;139;25;160;200;67;210;0;1;212;61;77;31;195;72;165;39;131;247;218;238;
   200;174;148;220;155;186;10;140;159;135;204;230;213;216;168;182;45;170;57;229;50;254;5;77;221;240;66;42;202;83;236;
   169;235;144;7;198;52;163;227;83;246;19;129;173;115;99;139;106;190;246;228;51;9;113;143;193;201;108;205;43;186;156;
   219;207;175;250;229;117;201;240;7;221;59;212;240;62;230;45;252;210;222;54;101;151;243;184;184;118;245;192;28;119;
   145;152;0;222;43;220;15;125;1;127;227;198;221;209;246;246;166;183;75;115;93;182;22;206;251;31;246;245;114;108;46;
   93;223;252;68;7;8;51;160;148;119;186;67;247;5;168;9;29;24;112;61;41;66;241;226;133;81;63;36;221;212;153;0;214;225;
   145;87;252;231;113;197;227;178;22;44;156;168;113;74;17;132;82;200;184;225;199;238;70;12;228;221;30;142;27;87;75;
   222;35;145;196;36;231;111;50;37;206;197;254;228;111;112;67;99;124;242;153;57;212;24;125;12;30;199;114;1;248;127;
   56;178;4;38;85;122;22;237;91;157;141;221;13;135;5;40;227;25;91;192;135;234;80;104;24;117;182;222;154;83;153;250;
   75;162;107;107;72;198;30;164;219;24;136;116;254;246;157;220;119;175;57;117;11;180;193;12;132;107;154;108;121;85;
   153;241;253;75;190;224;167;149;19;15;87;15;246;162;164;162;15;236;117;198;62;30;134;47;203;193;216;254;135;124;
   63;40;232;167;80;180;246;226;40;179;166;243;206;71;35;157;148;103;93;175;110;177;88;185;220;43;211;132;60;226;55;
   121;197;248;0;23;3;162;229;18;96;217;145;15;223;104;92;149;74;92;237;56;216;216;54;75;81;96;168;248;138;65;223;
   100;68;250;136;229;187;139;10;254;237;243;253;76;92;237;38;45;0;127;13;73;13;238;91;119;8;184;243;189;121;110;33;
   209;23;172;251;105;220;1;29;229;249;146;81;155;38;73;135;183;157;178;230;206;108;216;71;240;113;30;45;219;163;63;
   38;90;161;190;118;1;150;54;98;204;115;117;71;96;113;187;100;16;163;168;164;126;166;102;242;169;235;39;195;140;104;
   116;60;21;73;222;129;14;105;174;169;82;91;226;188;9;245;75;171;181;77;216;147;107;241;156;30;139;106;49;87;164;
   251;229;135;164;16;218;253;113;35;235;211;165;39;69;54;235;248;250;20;90;177;21;121;32;142;102;219;53;183;56;97;
   128;61;6;186;182;244;133;116;32;124;58;238;75;207;120;67;164;124;137;13;159;245;103;71;97;146;221;215;214;59;204;
   26;51;95;183;8;153;170;96;158;23;228;58;59;193;212;54;4;112;30;235;25;2;201;98;86;91;188;245;199;127;98;7;68;193;
   38;102;152;229;177;233;160;10;183;56;53;116;225;34;236;252;91;79;89;1;152;33;169;86;85;156;111;51;245;93;236;94;
   76;56;133;40;81;148;151;103;247;139;254;239;65;54;39;120;222;47;111;153;234;235;55;141;139;50;126;165;14;18;142;
   100;62;87;153;179;167;206;92;108;169;229;212;58;212;97;162;237;248;204;196;202;101;221;183;30;199;166;165;119;198;
   70;78;220;48;172;63;198;5;162;113;118;84;35;186;205;115;206;133;31;156;142;232;35;158;71;229;15;67;80;141;126;110;
   160;117;160;159;231;158;225;216;11;195;117;151;88;249;160;43;122;122;143;191;96;220;22;133;15;98;174;5;4;155;37;
   237;193;217;86;35;252;3;136;238;93;37;27;110;153;43;250;74;192;14;125;88;251;253;124;160;151;188;3;200;134;60;71;
   47;29;237;108;90;178;139;124;143;151;94;9;52;20;201;180;16;178;99;245;26;62;62;202;127;216;221;238;13;94;28;154;
   207;243;71;204;3;169;80;50;116;133;147;53;107;28;106;153;158;139;19;245;5;105;192;211;100;122;232;93;235;213;52;
   43;174;225;184;130;16;191;149;177;179;237;124;213;115;148;154;162;121;180;9;109;169;48;42;252;232;192;157;101;198;
   163;30;251;187;173;149;67;171;30;62;104;185;189;198;89;112;147;108;138;15;91;184;227;57;254;16;64;179;227;71;213;
   144;193;47;40;246;37;201;125;147;188;125;218;190;182;29;172;208;78;132;64;152;133;235;75;6;14;104;152;146;100;5;
   199;137;88;148;52;118;68;239;216;183;25;131;187;62;163;99;63;56;20;32;66;126;200;171;1;104;100;72;31;209;27;182;
   144;85;56;122;141;56;124;157;168;63;218;170;112;35;28;254;81;112;29;75;221;93;223;186;168;118;83;168;78;68;199;
   115;143;184;214;104;47;96;58;79;129;152;136;113;109;48;119;195;69;9;112;19;74;132;23;106;83;93;253;207;33;62;157;
   28;123;31;43;35;142;160;107;67;5;148;148;119;88;27;47;83;94;111;239;159;34;153;249;53;228;108;43;166;163;172;219;
   141;247;16;64;40;239;87;4;71;3;176;103;61;172;45;201;213;9;200;208;245;94;195;22;89;108;145;147;137;241;199;201;
   17;70;55;225;245;173;131;129;219;12;156;76;43;48;189;219;232;47;155;125;191;54;17;133;112;115;72;13;42;94;55;45;
   85;72;132;108;169;254;145;144;134;181;248;38;133;52;176;77;126;89;71;182;91;158;200;61;121;100;182;50;60;136;132;
   207;0;227;223;189;247;105;135;203;231;110;188;23;250;123;199;241;184;19;41;5;84;172;109;78;128;75;53;41;43;243;
   66;35;72;236;65;99;179;92;252;199;54;195;91;66;29;7;130;1;45;3;187;145;197;225;119;140;224;147;254;163;45;95;92;
   19;152;245;25;67;232;73;27;252;88;22;170;61;29;138;156;211;177;150;1;94;225;65;53;143;45;59;89;244;167;80;114;100;
   136;142;230;161;233;185;168;251;244;73;157;192;192;133;72;44;81;147;80;71;74;1;150;248;29;232;1;97;190;39;164;219;
   170;247;70;219;246;92;49;196;123;53;218;133;173;57;115;94;110;30;80;51;149;229;173;156;151;103;157;50;197;169;103;
   164;186;37;59;32;148;182;249;224;198;233;163;181;10;236;191;14;199;153;146;211;138;94;33;35;66;96;143;173;64;126;
   124;3;190;76;82;79;204;11;92;189;118;206;249;229;221;189;254;129;168;37;239;142;142;240;16;214;85;190;250;181;185;
   13;188;79;209;98;14;247;208;33;10;127;101;225;210;47;170;43;229;15;120;36;116;245;112;30;226;157;145;246;34;219;
   31;27;107;101;12;237;150;107;96;221;246;158;45;246;167;151;59;144;13;10;110;226;252;134;71;130;206;217;68;253;238;
   118;163;132;97;201;128;46;206;6;125;157;95;140;172;117;151;157;243;127;177;102;62;201;218;254;49;204;61;168;142;
   46;103;61;5;90;68;30;232;168;161;105;1;143;26;216;37;137;234;174;15;138;22;11;69;3;195;161;23;228;249;170;9;27;
   154;14;172;20;125;28;114;172;185;40;199;2;176;87;26;128;14;9;138;30;146;159;126;54;132;134;24;66;34;184;186;163;
   182;199;209;196;136;150;108;189;174;139;198;216;98;166;128;117;6;152;63;190;213;205;102;148;104;3;128;217;217;128;
   134;109;44;210;78;32;133;46;237;206;11;64;129;117;241;181;147;171;48;99;97;15;168;102;101;242;22;65;242;175;63;
   152;100;55;119;114;225;41;168;120;181;144;66;100;91;157;159;10;90;1;112;43;12;10;64;203;125;29;229;239;164;130;
   22;82;155;205;122;148;35;217;108;114;125;66;170;244;31;7;24;52;34;12;16;212;99;32;1;37;165;51;249;44;69;194;106;
   30;192;188;17;225;150;212;173;100;167;116;43;211;229;2;15;250;217;71;8;126;136;73;43;61;182;221;69;208;59;137;44;
   64;32;179;149;183;37;136;72;173;183;98;81;77;130;51;221;209;175;249;5;174;70;97;31;158;183;62;83;217;163].
Definition dv87_sig : list Z :=
  [177;31;109;96;178;3;146;79;244;239;212;163;100;144;46;249;195;136;97;119;98;134;155;119;237;30;44;124;233;217;144;
   108;185;248;158;0;17;7;118;67;67;143;54;22;16;190;69;27;94;140;154;47;31;49;61;109;14;104;203;84;213;191;141;245;
   38;157;200;0;124;243;123;110;155;46;125;3;253;248;218;19;144;216;25;9;120;97;171;202;29;48;246;244;197;163;60;175;
   196;216;223;120;233;107;7;227;222;101;38;115;55;2;23;129;231;92;190;191;245;46;175;54;132;66;224;155;111;208;22;
   186;34;111;229;1;27;222;207;170;63;145;245;157;247;191;207;171;40;250;170;41;147;139;24;109;141;241;161;120;7;15;
   36;152;126;41;36;86;231;12;133;132;197;244;243;142;172;102;71;225;39;115;193;215;215;135;73;226;63;29;84;211;147;
   37;91;116;153;246;99;186;177;56;94;117;210;137;33;160;174;211;105;28;9;225;35;54;154;15;204;180;243;230;236;228;
   90;207;230;175;250;243;236;236;132;140;56;154;140;19;70;152;16;196;192;7;115;12;248;48;87;104;248;118;173;202;153;
   124;219;11;240;201;140;112;63;186;35;107;106;112;41;92;121;123;6;167;82;77;174;16;73;170;98;242;146;114;140;188;
   224;180;6;6;17;183;218;123;57;193;70;219;211;73;80;14;141;158;140;112;217;241;25;84;158;145;103;28;86;17;165;25;
   164;191;17;63;183;28;95;162;18;83;227;180;66;58;136;114;156;191;81;220;147;206;15;179;108;102;6;239;248;191;253;
   8;210;242;22;107;168;18;186;63;199;102;45;139;32;36;28;142;125;109;133;126;34;83;140;96;108;239;198;144;191;33;
   9;182;189;35;247;59;115;129;25;66;187;231;242;170;113;75;98;122;20;13;205;209;175;166;2;192;196;190;102;135;107;
   96;85;126;223;167;246;194;78;204;14;163;251;240;208;232;243;51;130;95;32;202;245;86;175;102;101;31;77;245;251;84;
   199;208;6;42;225;153;211;241;184;127;228;127;40;219;98;59;137;28;10;155;210;140;216;31;242;172;116;8;86;224;83;
   115;113;53;68;225;186;124;111;142;109;234;178;227;0;52;149;192;8;160;102;51;192;224;96;187;47;199;91;73;130;85;
   111;94;29;185;73;71;194;100;46;82;241;244;250;82;41;9;210;167;120;59;99;53;171;218;242;67;183;31;169;134;91;20;
   131;131;199;39;180;16;220;149;65;91;94;42;225;213;66;122;8;128;196;73;233;53;99;241;226;201;16;103;62;159;12;80;
   97;55;177;30;20;210;10;14;95;168;164;93;74;80;91;54;73;181;204;180;226;126;187;0;167;127;120;67;169;92;26;51;128;
   133;143;76;78;35;247;129;14;3;221;228;224;126;4;77;71;123;132;137;226;19;22;183;32;4;142;218;16;80;118;94;253;184;
   249;229;48;40;128;135;192;44;0;41;90;3;212;164;10;12;64;216;98;102;112;195;64;101;234;246;27;207;83;17;177;228;
   153;167;29;151;12;252;224;124;199;79;210;4;227;130;27;241;26;47;223;98;190;60;35;25;60;18;16;131;222;15;161;138;
   145;27;41;233;151;106;94;43;16;213;222;117;172;58;199;81;217;126;94;113;23;143;230;65;140;28;14;134;140;228;105;
   57;247;246;165;221;89;199;245;125;96;95;234;116;194;121;82;251;91;174;228;212;174;166;139;123;48;213;10;198;198;
   194;72;28;53;96;229;53;132;183;45;112;37;96;80;110;233;190;214;16;221;207;206;118;28;238;185;137;88;29;235;207;
   63;108;172;38;224;77;165;120;6;175;144;80;241;114;216;68;116;93;235;127;93;122;34;123;210;159;77;24;168;17;155;
   46;7;118;71;248;152;82;180;87;137;28;82;96;76;90;70;21;192;7;175;91;30;68;43;1;39;246;206;39;134;23;49;252;233;
   43;146;180;14;147;228;40;28;125;168;240;234;194;154;77;177;150;151;101;60;88;66;119;9;17;173;53;155;179;128;71;
   48;142;4;123;147;233;28;83;34;99;213;198;58;230;104;11;87;227;230;31;249;154;155;153;254;67;254;140;143;175;100;
   107;87;219;166;215;108;158;201;224;65;177;98;214;74;161;246;95;52;151;218;16;129;92;69;13;120;152;187;228;199;128;
   58;76;165;200;48;113;206;149;204;7;142;204;57;71;252;93;254;110;197;139;61;158;150;38;17;153;174;151;162;208;131;
   5;210;158;25;176;80;89;24;119;119;93;132;102;36;80;246;84;201;90;51;225;72;193;201;37;28;252;72;111;171;10;220;
   192;201;53;223;44;247;66;83;73;18;110;207;129;18;244;225;179;96;101;247;97;6;253;33;87;122;86;83;174;1;199;116;
   23;229;122;64;117;122;100;209;216;9;8;21;78;10;190;112;51;121;52;239;11;8;239;160;92;96;5;75;227;215;195;220;165;
   255;171;140;108;182;16;124;202;77;207;138;220;122;37;113;201;24;180;202;102;104;19;87;251;244;12;88;26;115;126;
   144;214;79;120;140;114;163;255;228;161;201;71;236;202;152;171;22;82;104;151;128;56;66;163;37;126;38;103;119;221;
   106;84;23;42;33;39;76;56;236;141;169;253;167;89;72;36;107;189;154;152;134;223;246;150;99;110;216;235;36;46;246;
   217;5;152;185;93;130;122;172;6;46;48;224;45;29;177;197;164;110;95;176;176;210;103;187;90;239;105;5;207;127;156;
   159;88;125;212;135;192;28;30;132;144;168;210;153;26;50;179;107;246;252;13;111;13;230;248;240;247;7;17;232;187;120;
   185;172;34;246;211;75;139;197;143;122;6;92;201;47;137;109;50;76;174;116;203;162;140;157;33;150;5;224;76;26;255;
   199;147;39;142;111;78;165;207;201;21;95;175;242;192;57;89;35;72;118;1;248;124;215;43;138;204;182;205;90;144;50;
   162;72;120;237;227;154;51;177;20;31;241;21;58;113;144;242;200;51;45;237;207;216;187;205;100;32;206;66;149;107;101;
   127;148;204;64;241;27;131;97;205;242;138;101;48;255;112;36;198;111;4;236;205;113;192;225;173;89;188;201;159;81;
   57;238;124;135;169;182;194;91;231;107;115;134;132;163;45;73;57;58;187;8;177;5;149;76;96;27;4;251;234;121;176;165;
   62;190;59;48;60;118;176;24;61;207;71;62;83;48;193;94;125;190;159;236;197;162;105;143;112;208;175;83;54;196;84;56;
   5;231;13;116;43;126;182;62;94;120;230;203;190;32;16;16;227;21;198;184;73;222;107;157;113;101;5;128;241;23;169;76;
   114;206;25;99;151;61;16;180;160;120;150;190;8;119;32;80;255;61;102;140;79;238;195;115;43;167;3;205;9;1;142;163;
   118;74;243;30;16;238;32;100;77;78;109;231;176;245;76;65;149;72;10;143;244;182;137;96;223;201;115;120;21;117;101;
   240;227;135;31;55;84;193;191;122;162;40;166;193;78;144;62;182;244;5;219;20;135;1;251;124;17;38;19;34;187;101;18;
   60;172;194;47;193;214;41;207;209;221;207;35;227;187;103;17;175;232;227;210;92;240;119;203;209;62;103;135;234;48;
   60;137;250;235;113;196;197;25;149;163;76;120;211;213;28;205;209;229;47;20;108;218;43;216;246;101;30;172;34;176;
   231;28;146;246;105;179;192;149;109;0;232;151;252;231;102;52;12;25;74;106;218;210;13;74;48;18;220;104;31;180;225;
   59;60;241;180;229;107;128;19;7;169;126;106;91;155;203;31;56;234;50;107;246;11;108;144;172;93;203;116;68;172;223;
   194;115;170;105;186;117;121;161;18;5;28;253;38;241;15;20;176;255;127;7;129;226;40;65;206;250;89;49;123;7;135;251;
   194;205;104;177;90;12;236;48;59;102;128;234;58;217;30;117;133;173;222;166;167;123;204;96;231;9;53;201;26;13;144;
   138;39;253;223;149;155;139;199;123;146;211;64;164;88;217;153;240;12;192;250;131;20;237;203;189;72;59;233;232;145;
   91;83;9;2;8;1;172;132;255;243;184;105;138;56;103;124;179;185;251;229;244;151;138;64;226;21;238;62;252;21;102;203;
   74;139;151;139;230;139;123;128;76;119;34;109;108;140;236;210;128;241;184;85;243;33;124;135;99;206;255;31;200;142;
   112;107;26;108;191;14;13;32;231;127;132;245;9;141;127;222;46;223;40;179;4;166;53;147;38;103;167;67;223;176;203;
   156;182;27;187;32;156;163;116;19;217;214;206;48;243;247;79;162;15;120;123;93;24;252;223;72;31;58;41;55;63;41;139;
   126;255;64;134;208;179;70;77;130;46;209;195;145;223;104;21;222;75;63;36;198;1;8;191;167;181;197;94;206;17;206;245;
   65;77;114;2;120;239;162;33;214;242;123;167;120;99;229;222;73;120;126;211;125;139;192;39;246;220;234;138;161;61;
   172;62;43;2;39;66;242;90;110;116;190;84;203;44;196;200;254;119;230;12;65;166;185;164;173;195;62;236;112;110;27;
   250;109;58;108;233;13;205;186;225;33;127;37;122;141;221;129;215;15;72;129;178;94;111;109;80;216;216;96;176;47;14;
   249;231;112;227;185;75;19;150;65;196;127;203;198;63;124;235;52;200;205;174;48;139;73;85;207;220;198;228;181;202;
   100;182;227;199;140;94;230;38;231;217;48;146;209;78;18;151;242;27;203;152;158;37;111;204;148;249;151;130;242;100;
   9;118;215;145;199;93;248;160;54;149;217;100;208;179;66;242;43;163;30;255;233;58;201;5;152;70;40;250;223;152;11;
   95;117;244;169;9;234;3;131;66;207;135;215;2;162;48;220;233;129;13;76;178;96;2;129;251;1;134;198;255;114;140;223;
   56;205;188;215;103;100;119;4;189;88;112;137;179;102;84;153;96;5;67;248;111;255;114;151;236;202;12;238;118;44;130;
   103;29;196;156;215;225;73;45;153;190;46;100;157;195;21;156;79;13;80;53;123;68;161;44;241;255;5;53;128;41;194;43;
   23;161;249;162;206;200;222;167;250;211;74;248;15;111;41;28;36;229;196;206;25;165;11;252;134;214;189;7;151;127;130;
   104;147;224;204;197;237;140;58;169;105;41;135;8;16;211;69;113;84;221;100;153;133;234;56;150;116;41;255;184;248;
   190;150;134;169;125;106;194;188;207;52;13;44;60;106;233;173;127;181;149;151;12;92;198;234;151;1;139;34;209;89;179;
   180;185;180;198;21;119;144;19;11;145;176;128;55;244;88;132;212;234;176;105;118;253;210;146;131;199;128;149;223;
   90;205;149;141;238;203;156;200;22;255;13;20;27;107;25;38;231;66;154;85;140;96;204;204;245;221;138;117;62;112;81;
   44;101;120;171;69;207;71;150;225;230;97;207;158;208;86;56;197;167;188;85;185;169;9;107;175;153;177;160;112;75;237;
   223;106;131;242;38;182;106;141;64;97;3;242;134;4;140;190;141;24;2;186;121;153;45;33;84;210;63;192;240;5;64;8;28;
   128;207;48;105;27;154;142;56;182;180;1;50;249;186;242;183;64;14;153;88;6;193;129;18;143;53;75;63;13;153;215;200;
   5;111;150;153;108;41;228;46;223;37;157;212;191;104;31;28;232;50;30;83;141;194;106;240;232;40;80;19;15;14;148;64;
   81;34;201;167;246;169;103;252;169;241;105;101;133;159;19;15;207;0;159;203;125;131;7;94;24;194;147;154;60;173;118;
   222;190;251;150;55;98;131;64;29;174;94;163;136;222;186;244;147;79;248;144;136;255;68;123;224;44;86;219;156;219;
   152;151;222;204;119;13;125;194;30;8;251;168;84;81;95;4;125;152;101;99;163;135;173;22;247;54;43;66;139;118;215;102;
   148;212;73;45;79;168;136;217;14;251;192;56;75;121;193;226;186;43;151;195;9;219;189;95;97;89;214;41;236;48;226;222;
   188;52;91;159;87;132;197;9;20;231;158;248;210;80;228;174;254;100;165;31;61;146;49;163;22;203;250;228;237;25;2;51;
   226;99;9;250;57;245;226;117;217;113;7;152;172;77;127;240;169;40;6;140;10;108;119;111;160;159;187;197;59;115;45;
   49;235;148;197;137;181;25;132;243;131;91;120;208;146;141;246;203;82;196;209;71;27;232;211;91;3;108;137;77;163;112;
   70;41;254;196;177;225;26;20;199;89;205;181;37;12;210;211;201;231;70;76;44;64;46;174;70;56;146;10;69;83;17;180;10;
   118;158;127;4;59;9;84;89;179;164;203;59;147;73;44;40;103;200;56;61;244;183;140;132;251;13;10;103;171;132;252;232;
   175;157;160;134;254;75;77;63;161;53;186;58;190;104;208;116;27;232;243;167;110;195;140;223;8;187;202;103;175;227;
   116;185;31;154;227;44;107;63;217;68;56;0;216;122;125;27;149;22;174;204;179;36;117;99;38;143;119;120;176;32;132;
   253;252;224;7;116;135;137;155;118;156;167;97;221;41;17;164;183;92;220;100;119;16;102;246;0;158;117;21;245;116;58;
   177;108;57;133;26;203;46;143;211;78;86;187;246;236;188;219;53;231;197;80;122;138;151;15;225;209;156;98;53;209;7;
   219;149;127;20;79;189;188;16;92;98;17;142;131;176;129;121;241;131;117;192;246;132;75;78;163;169;243;45;184;202;
   176;45;62;200;37;10;219;228;95;240;222;255;160;88;48;196;54;59;82;84;72;109;252;90;146;106;107;253;152;114;145;
   95;27;102;92;252;125;72;122;80;77;208;137;35;98;201;51;145;151;243;95;87;87;100;195;132;134;181;230;199;149;136;
   9;12;241;50;223;241;175;222;102;152;141;208;114;159;59;137;82;230;34;238;108;193;216;221;69;195;152;169;184;48;
   186;220;112;22;211;103;38;101;154;200;8;110;231;183;87;63;2;202;133;224;197;129;126;224;114;42;167;13;69;173;219;
   47;20;158;142;85;101;172;178;174;43;37;199;141;217;22;233;10;134;243;248;230;115;242;171;158;255;150;143;0;156;
   164;131;82;203;112;76;245;31;135;3;90;40;190;24;130;227;43;181;9;243;124;61;227;176;202;73;101;81;196;13;149;132;
   164;20;161;9;104;195;180;178;189;95;177;64;187;85;127;9;210;40;219;12;247;155;250;228;151;248;225;1;195;182;188;
   242;64;235;176;70;195;153;16;238;234;94;82;33;24;220;0;231;75;246;70;74;8;193;229;152;173;85;240;69;216;159;140;
   52;193;53;175;241;197;0;189;155;3;0;246;201;12;113;62;131;50;165;157;79;109;13;103;222;38;29;238;49;19;67;206;162;
   198;195;177;165;46;162;220;236;242;79;17;213;34;166;238;175;147;124;58;65;102;139;202;36;254;2;20;116;229;141;188;
   48;45;170;17;230;102;128;122;8;211;186;176;223;165;98;219;203;167;89;100;250;227;192;215;139;175;159;71;223;85;
   169;29;208;37;152;233;243;137;76;208;111;255;139;6;129;70;118;34;146;250;131;61;77;122;10;43;197;31;198;188;102;
   203;233;1;210;214;72;122;157;168;199;17;227;251;59;160;209;166;233;125;198;31;124;157;130;35;144;42;82;126;209;
   169;78;94;228;192;71;222;19;3;198;51;203;158;185;62;34;100;223;123;231;231;25;17;5;253;160;110;98;197;213;24;133;
   36;188;133;122;208;16;55;110;36;231;94;117;73;64;184;74;22;36;175;55;229;93;177;75;156;19;74;16;117;181;74;99;13;
   56;41;218;71;21;204;157;192;203;204;220;114;188;99;167;225;207;204;174;176;125;125;223;160;240;44;174;124;176;227;
   10;127;92;92;128;64;168;183;29;87;19;13;162;45;55;67;163;112;80;213;172;126;251;197;10;25;206;216;224;53;133;232;
   67;56;32;235;112;182;161;192;229;149;203;50;35;196;250;209;97;111;246;21;85;83;188;242;148;7;117;155;173;19;41;
   102;169;10;40;72;63;20;32;195;175;228;238;133;174;115;157;231;104;122;65;55;187;6;197;248;70;0;112;30;109;126;17;
   237;151;67;108;59;129;196;38;161;74;151;113;11;146;159;101;176;121;43;120;172;214;27;112;59;217;138;130;175;175;
   105;90;188;42;24;32;95;120;47;80;206;208;10;189;93;0;93;25;0;36;180;229;90;91;81;85;109;206;231;137;212;51;93;69;
   255;60;49;186;127;241;136;236;1;174;84;11;141;175;204;86;166;174;147;223;216;160;115;137;121;179;127;210;101;201;
   152;79;70;110;223;173;214;39;107;115;161;169;135;141;143;73;55;80;128;196;144;48;16;10;196;7;175;50;117;193;82;
   146;187;220;31;192;213;243;6;234;107;142;19;197;202;50;26;195;134;88;235;130;57;103;116;144;40;59;57;45;182;144;
   43;41;231;181;23;42;174;233;163;216;71;214;155;51;162;27;58;7;158;94;14;168;208;187;18;248;101;255;73;14;105;102;
   191;44;4;160;122;212;110;243;57;50;224;117;54;35;116;227;106;4;157;24;217;30;7;18;221;107;27;147;47;139;4;238;184;
   109;56;242;219;172;52;133;224;43;149;115;46;87;135;110;122;205;201;25;29;126;231;20;207;181;113;101;160;255;106;
   166;153;90;29;10;189;129;225;165;190;120;179;175;37;114;45;206;251;136;59;78;28;64;210;141;115;127;168;174;72;231;
   174;2;139;5;242;44;23;201;147;150;67;32;60;151;121;78;36;221;56;237;245;162;25;28;232;247;190;224;31;204;26;109;
   56;29;36;221;50;180;76;247;94;198;40;189;174;185;62;228;140;223;205;61;159;84;215;183;158;205;185;191;151;51;133;
   24;41;167;31;15;142;9;248;109;2;192;46;251;211;120;38;209;191;165;238;180;191;65;50;196;232;203;105;239;105;77;
   156;198;66;219;81;161;240;159;14;219;59;117;104;255;199;194;238;94;49;36;195;167;162;242;5;248;212;245;22;57;225;
   225;86;53;92;132;136;80;244;213;61;126;70;87;55;84;127;146;159;194;70;8;37;121;8;184;96;254;99;209;99;164;17;11;
   98;167;206;23;249;84;81;10;243;222;150;7;1;24;108;242;164;106;102;203;217;150;118;63;131;113;66;73;197;179;40;103;
   62;189;224;252;31;101;117;0;95;238;36;199;138;241;64;85;124;224;245;129;128;145;26;22;228;44;150;129;231;23;11;
   124;23;185;160;82;115;147;184;114;47;126;189;86;153;146;35;186;229;76;188;100;75;167;247;114;123;144;37;252;46;
   136;171;193;157;158;160;46;50;189;43;78;48;61;65;129;238;236;27;52;123;184;86;81;34;192;154;195;51;206;188;228;
   49;124;64;159;136;162;121;216;190;152;70;116;116;197;233;201;153;9;92;116;196;196;129;8;208;2;190;43;171;5;59;45;
   109;184;199;177;61;176;255;203;44;78;216;146;53;246;153;74;127;56;90;251;91;194;115;180;176;26;198;204;149;56;167;
   152;60;69;205;138;145;125;1;153;165;117;10;4;59;126;44;147;214;7;74;215;241;134;182;11;19;111;41;220;244;151;5;
   100;25;250;195;40;26;51;153;160;233;46;50;54;172;202;110;52;182;71;227;134;159;231;178;78;154;49;87;227;44;181;
   143;151;14;136;43;16;163;79;158;37;162;124;225;181;4;183;221;52;189;69;238;178;105;24;57;245;183;176;116;119;184;
   90;78;232;200;169;220;9;209;192;147;16;6;71;4;228;34;228;52;141;74;6;176;169;125;202;218;119;25;206;4;13;215;111;
   40;44;67;84;234;209;242;9;17;110;214;120;6;235;145;196;186;102;239;178;216;146;9;44;150;109;155;243;105;166;98;
   239;221;154;84;247;37;105;212;219;234;72;214;125;240;153;181;211;104;137;193;24;246;144;234;44;37;100;52;248;195;
   136;243;44;158;173;249;194;47;139;119;182;93;215;219;78;71;168;245;239;146;190;117;51;224;83;101;32;8;171;247;189;
   44;189;254;15;162;210;150;235;181;46;186;148;57;242;213;138;153;38;104;31;91;172;90;204;244;87;243;244;44;174;22;
   135;108;27;159;215;152;65;139;155;250;119;90;14;61;156;117;120;153;103;180;143;80;6;222;243;219;216;232;221;210;
   154;174;38;67;229;19;218;205;71;61;90;247;150;31;121;8;216;224;203;130;146;235;253;79;101;3;199;250;127;117;72;
   73;215;22;146;194;174;152;160;103;125;162;253;22;126;202;141;184;108;97;12;80;74;0;98;196;91;46;190;123;230;118;
   227;237;159;107;90;111;36;218;242;34;132;16;98;99;197;117;200;26;139;26;235;59;36;64;196;65;226;213;80;218;77;147;
   193;0;186;53;13;96;222;143;169;180;68;8;22;26;212;244;43;37;66;230;178;171;138;21;32;210;5;175;216;66;3;113;233;
   31;9;66;6;182;80;201;31;3;74;237;25;52;88;103;107;125;134;174;187;191;219;248;13;43;50;80;82;105;109;118;211;13;
   41;70;175;185;215;15;88;193;32;78;94;138;194;7;28;226;231;3;13;30;133;145;202;230;3;56;80;87;108;131;134;162;165;
   215;223;0;0;0;0;0;0;0;0;0;0;0;0;0;0;0;0;0;0;12;21;27;30;35;39;46;57].
