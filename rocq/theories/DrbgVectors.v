(** Test vectors of the self tests in drng/src, used by the examples of PropDrbg.v. *)
From Verif Require Import Bytes.
(** [hash_drbg.c: self test] *)
Definition hd_ent_nonce : list Z :=
  [158;40;82;241;216;178;60;26;128;202;117;41;55;172;88;84;97;152;219;114;129;183;67;219;55;33;142;134;64;59;116;249;
   136;69;73;220;73;38;187;170;131;62;80;66;169;82;174;151;178;27;114;147;124;199;41;92;71;43;112;251;236;172;217;
   44].
(** [hash_drbg.c: self test] *)
Definition hd_pers : list Z :=
  [18;107;225;73;63;65;40;154;220;92;127;0;67;64;255;33;167;236;77;173;255;218;100;45;228;101;171;46;152;84;25;26].
(** [hash_drbg.c: self test] *)
Definition hd_addtl1 : list Z :=
  [137;24;138;181;130;11;5;152;249;129;179;52;68;109;212;56;41;205;80;78;6;254;17;242;60;112;13;172;168;40;14;64].
(** [hash_drbg.c: self test] *)
Definition hd_addtl2 : list Z :=
  [103;135;238;2;166;15;47;141;141;243;74;191;163;97;126;214;178;177;55;97;165;65;179;140;42;249;1;8;63;201;13;202
   ].
(** [hash_drbg.c: self test] *)
Definition hd_exp : list Z :=
  [77;166;52;146;82;72;49;83;92;45;216;233;189;47;49;155;17;194;218;47;215;33;5;237;44;103;4;55;189;83;179;78;157;
   12;22;84;137;202;227;57;192;119;179;181;250;174;156;89;144;67;9;67;241;76;112;62;0;2;167;243;19;147;152;186;139;
   244;223;158;63;141;101;15;122;53;215;161;77;19;112;80;1;216;84;38;116;42;220;53;182;89;194;251;117;250;71;124;6;
   38;252;204;32;160;17;196;196;232;229;121;51;57;48;100;179;117;123;47;4;82;10;96;65;113;207;59;31;48;91;129;83;42;
   38;222;58;76;90;100;226;41;62;56;143;142;30;118;8;234;129;158;93;123;58;173;100;199;28;50;81;157;103;227;117;143;
   115;35;85;189;27;112;154;139;143;93;207;229;172;109;201;249;72;252;235;214;58;55;1;78;106;174;123;131;245;19;34;
   151;43;200;208;157;212;145;24;161;75;54;243;13;63;78;109;150;141;121;216;215;240;49;87;248;50;147;16;246;186;171;
   87;166;236;184;188;155;11;239;165;0;120;127;99;62;15;69;59;109;217;234;88;238;41;72;173;51;203;27;191;209;29;42
   ].
(** [hmac_drbg.c: self test] *)
Definition hm_ent_nonce : list Z :=
  [197;217;215;123;62;92;14;200;87;19;235;37;18;232;21;64;191;101;137;21;179;249;200;149;34;5;181;240;22;15;208;232;
   189;167;198;88;226;77;184;189;252;197;78;58;254;170;181;121;113;212;149;77;217;152;56;52;40;242;26;52;45;232;201;
   116].
(** [hmac_drbg.c: self test] *)
Definition hm_pers : list Z :=
  [110;207;15;204;124;111;236;3;37;139;219;45;197;197;235;57;51;9;57;83;237;221;192;35;38;138;56;160;76;63;51;238].
(** [hmac_drbg.c: self test] *)
Definition hm_addtl1 : list Z :=
  [181;24;129;77;198;248;113;3;99;90;202;136;226;182;87;19;34;13;233;40;173;134;1;108;174;233;12;92;121;65;85;181].
(** [hmac_drbg.c: self test] *)
Definition hm_addtl2 : list Z :=
  [235;97;35;20;234;117;222;251;234;72;70;162;45;91;58;221;226;48;68;253;208;180;213;233;238;194;241;29;88;249;17;
   158].
(** [hmac_drbg.c: self test] *)
Definition hm_exp : list Z :=
  [182;181;78;125;140;98;254;115;100;13;87;180;181;135;5;18;231;98;168;45;134;184;43;243;34;102;126;147;147;69;136;
   48;234;47;191;186;143;231;237;42;178;8;85;55;99;110;236;30;225;223;3;96;240;192;146;48;33;221;255;66;202;93;125;
   103;206;116;200;107;173;32;117;168;195;192;1;152;161;56;49;45;208;131;117;23;76;82;95;237;138;188;164;14;212;77;
   10;50;68;0;190;93;87;179;17;160;50;48;73;216;211;233;53;182;59;39;129;176;130;248;25;19;197;188;47;220;135;205;
   146;210;167;178;224;143;207;121;32;21;95;64;71;182;124;229;108;122;108;230;185;186;27;134;85;26;194;194;248;58;
   216;215;167;227;60;134;163;225;136;15;92;30;121;166;20;88;158;34;34;194;64;241;147;75;179;58;37;78;194;235;13;4;
   222;193;226;70;133;110;101;146;169;36;68;135;209;66;76;84;113;251;215;114;132;165;100;65;87;116;182;1;215;118;78;
   102;134;96;58;165;20;85;93;90;86;196;178;130;249;205;115;123;182;228;172;229;70;116;16;235;159;13;34;240;148;235;
   9;15;142;141;127;9].
(** [xdrbg256.c: self test] *)
Definition x256_seed : list Z :=
  [0;1;2;3;4;5;6;7;8].
(** [xdrbg256.c: self test] *)
Definition x256_exp : list Z :=
  [26;210;203;118;60;113;109;240;121;44;192;105;125;86;106;101;184;54;190;125;9;18;124;101;71;252;48;88;170;36;57;
   82;41;234;206;67;223;22;44;79;26;237;189;63;245;142;230;77;147;7;61;127;61;210;80;60;174;4;74;135;44;144;48;212;
   142;239;93;83;15;178;219;236;22;57;90;181;154;220;157;1;126;226;172;124;228;61;253;147;166;108;193;34;38;100;160;
   67;82;81;249;181;164;145;84;8;248;143;22;133;84;192;157;206;201;213;215;169;81;192;6;12;4;149;207;125;39;0;126;
   72;109;46;188;248;163;113;61;176;43;117;42;72;26;211;237;201;163;128;136;3;192;39;117;204;245;218;86;141;131;54;
   230;144;156;213;130;250;112;233;191;97;236;151;204;221;220;78;225;100;159;30;179;250;151;167;2;10;40;1;25;208;69;
   233;33;116;82;26;172;95;88;124;2;71;69;6;23;113;197;43;15;169;127;156;21;156;222;0;37;249;163;27;68;254;79;198;
   248;191;108;159;18;199;103;185;63;216;146;207;187;157;44;126;106;98;139;167;229;250;171;64;194].
(** [xdrbg128.c: self test] *)
Definition x128_seed : list Z :=
  [0;1;2;3;4;5;6;7;8].
(** [xdrbg128.c: self test] *)
Definition x128_exp : list Z :=
  [144;252;6;83;251;83;172;104;233;132;197;127;153;223;91;51;141;186;205;203;139;135;7;148;229;54;94;28;193;18;65;
   155;201;120;10;88;201;188;101;154;236;208;217;173;107;86;176;181;197;10;188;135;135;93;148;43;158;227;173;95;195;
   168;140;198;150;172;56;8;149;88;65;211;216;240;49;205;39;229;35;253;84;125;101;17;27;161;219;9;225;233;182;71;238;
   163;154;126;21;253;207;160;8;186;206;87;164;167;3;82;240;120;247;42;123;209;161;214;159;180;194;111;125;62;252;
   120;245;59;37;81;86;126;233;179;76;13;43;31;239;225;218;19;45;214;240;50;34;18;139;89;59;151;40;39;9;161;156;65;
   179;91;33;83;112;61;2;161;19;129;51;105;113;125;59;25;162;158;191;100;205;198;82;155;211;120;106;41;26;52;80;192;
   146;27;75;77;169;194;71;114;196;242;239;50;11;77;183;78;120;88;32;29;189;13;35;41;254;28;54;103;162;143;45;186;
   75;105;253;36;45;58;54;194;234;94;101;33;68;35;252;37;43;7;30;207;85;146;62;106;138;33;177].
(** [cshake_drng.c: self test] *)
Definition cs_seed : list Z :=
  [0;1;2;3;4;5;6;7;8].
(** [cshake_drng.c: self test] *)
Definition cs_exp : list Z :=
  [248;28;186;66;108;111;209;4;210;48;47;51;22;46;234;254;246;204;26;97;49;151;172;101;194;48;231;11;231;225;241;192;
   200;44;90;8;188;217;83;18;159;27;33;63;249;159;114;183;118;86;129;245;111;43;245;53;108;157;15;14;211;214;126;219;
   245;3;190;51;102;43;184;35;195;217;111;231;246;249;248;184;49;134;112;12;228;79;203;178;142;195;152;191;210;89;
   191;133;198;44;99;92;41;152;230;54;37;199;51;29;176;174;12;40;131;120;34;149;233;38;9;245;51;213;86;25;132;165;
   147;131;13;252;59;144;22;128;135;108;62;197;210;202;98;8;154;156;10;144;15;243;17;36;117;117;13;55;221;55;119;123;
   9;91;118;110;198;194;217;131;115;133;254;90;239;54;237;80;7;66;153;81;84;120;169;198;125;236;215;96;177;177;237;
   127;79;246;159;18;112;215;177;46;17;85;13;215;4;161;177;122;64;51;113;65;194;4;76;121;251;216;90;217;41;60;131;
   189;204;211;11;224;43;142;216;47;101;101;234;237;240;1;162;210;228;92;107;178;62;84;254;222;209;112;13;235;60;127;
   241;86;49;230;255;94;250;13;211;85;147;158;239;167;113;218;169;34;214;171;2;164;235;10;46;7;113;141;56;94;103;183;
   62;233;11;233;110;10;181;156;235;84;135;40;114;193;138;211;210;143;3;39;10;185].
(** [kmac_drng.c: self test] *)
Definition km_seed : list Z :=
  [0;1;2;3;4;5;6;7;8].
(** [kmac_drng.c: self test] *)
Definition km_exp : list Z :=
  [188;112;197;214;254;196;40;35;171;87;146;94;183;213;149;206;45;152;58;71;113;47;109;79;130;41;232;92;17;8;72;50;
   251;204;48;108;161;118;69;24;124;5;195;115;32;40;242;136;126;232;96;60;249;232;132;166;17;29;163;146;225;138;152;
   193;251;49;241;252;10;54;171;148;160;57;182;58;179;228;125;227;40;178;209;16;184;8;109;199;221;234;16;58;227;65;
   44;131;251;63;193;50;252;161;219;203;46;182;16;157;23;243;252;48;112;35;103;98;29;195;78;99;139;195;38;162;36;112;
   144;14;153;26;147;227;9;30;160;231;74;106;184;121;151;154;187;13;208;188;204;122;123;174;152;31;81;56;65;154;241;
   47;136;144;83;153;88;177;249;28;211;36;17;14;16;243;252;45;89;131;89;238;147;234;152;248;183;14;16;66;139;66;92;
   249;65;223;63;229;241;231;177;112;157;77;187;77;105;153;52;174;141;59;220;235;233;196;252;122;121;31;98;75;111;
   150;182;12;184;118;227;148;132;235;122;230;59;113;64;201;208;246;163;117;75;182;78;146;208;161;41;86;143;12;128;
   247;139;186;135;127;8;252;165;15;74;10;132;43;197;13;47;71;130;66;182;241;24;130;219;125;80;41;71;79;84;200;189;
   163;211;203;43;48;15;139;196;70;253;246;231;176;57;238;155;20;248;202;128;53;25;202;229;60].
(** [chacha20_drng.c: 42-47] *)
Definition cc_exp : list Z :=
  [118;184;224;173;160;241;61;144;64;93;106;229;83;134;189;40;189;210;25;184;160;141;237;26;168;54;239;204;139;119;
   13;199].
