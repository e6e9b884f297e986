(** Test vectors of aead/tests and aead/src, used by the examples of PropAead.v. The exp_tag arrays in the self tests
    of cshake_crypt.c, kmac_crypt.c and hash_crypt.c are never compared and are not the tags the code computes; the
    ones in aead/tests are. *)
From Verif Require Import Bytes.
(** [tests/cshake_crypt_test.c] *)
Definition cc_in : list Z :=
  [0;1;2;3;4;5;6;7;8;9;10;11;12;13;14;15;16;17;18;19;20;21;22;23;24;25;26;27;28;29;30;31;32;33;34;35;36;37;38;39;40;
   41;42;43;44;45;46;47;48;49;50;51;52;53;54;55;56;57;58;59;60;61;62;63].
(** [tests/cshake_crypt_test.c] *)
Definition cc_key : list Z :=
  [0;1;2;3;4;5;6;7;8;9;10;11;12;13;14;15;16;17;18;19;20;21;22;23;24;25;26;27;28;29;30;31;32;33;34;35;36;37;38;39;40;
   41;42;43;44;45;46;47;48;49;50;51;52;53;54;55;56;57;58;59;60;61;62;63].
(** [tests/cshake_crypt_test.c] *)
Definition cc_exp_ct : list Z :=
  [93;159;105;255;188;175;118;235;134;221;175;95;55;12;184;243;79;245;244;164;188;17;152;17;150;41;20;72;195;254;98;
   31;58;13;58;98;174;228;116;101;2;49;71;247;54;248;253;38;150;243;50;53;178;68;33;31;86;183;1;170;1;239;22;9].
(** [tests/cshake_crypt_test.c] *)
Definition cc_exp_tag : list Z :=
  [195;173;163;23;84;146;137;159;230;192;248;140;197;226;242;241;165;23;175;213;229;55;22;247;3;128;110;242;197;74;
   241;243;245;157;15;44;159;227;185;42;121;86;64;60;179;48;159;5;160;245;192;149;186;52;47;29;88;45;22;193;101;175;
   156;77].
(** [tests/kmac_crypt_test.c] *)
Definition kc_in : list Z :=
  [0;1;2;3;4;5;6;7;8;9;10;11;12;13;14;15;16;17;18;19;20;21;22;23;24;25;26;27;28;29;30;31;32;33;34;35;36;37;38;39;40;
   41;42;43;44;45;46;47;48;49;50;51;52;53;54;55;56;57;58;59;60;61;62;63].
(** [tests/kmac_crypt_test.c] *)
Definition kc_key : list Z :=
  [0;1;2;3;4;5;6;7;8;9;10;11;12;13;14;15;16;17;18;19;20;21;22;23;24;25;26;27;28;29;30;31;32;33;34;35;36;37;38;39;40;
   41;42;43;44;45;46;47;48;49;50;51;52;53;54;55;56;57;58;59;60;61;62;63].
(** [tests/kmac_crypt_test.c] *)
Definition kc_exp_ct : list Z :=
  [50;38;40;68;244;8;39;74;117;249;132;187;79;49;103;129;56;198;65;229;4;38;1;218;219;108;11;228;156;193;99;70;28;
   242;49;48;184;39;242;83;57;73;153;152;97;155;112;240;254;30;122;87;92;31;175;161;58;107;24;26;68;153;218;40].
(** [tests/kmac_crypt_test.c] *)
Definition kc_exp_tag : list Z :=
  [40;67;67;194;64;31;69;9;65;215;92;221;127;197;150;50;139;217;90;227;114;226;115;106;131;209;133;163;197;171;131;
   224;81;137;152;52;241;143;148;204;152;169;226;121;7;178;111;245;104;77;83;170;253;40;62;61;126;115;168;236;242;
   250;121;49].
(** [tests/hash_crypt_test.c] *)
Definition hc_in : list Z :=
  [0;1;2;3;4;5;6;7;8;9;10;11;12;13;14;15;16;17;18;19;20;21;22;23;24;25;26;27;28;29;30;31;32;33;34;35;36;37;38;39;40;
   41;42;43;44;45;46;47;48;49;50;51;52;53;54;55;56;57;58;59;60;61;62;63].
(** [tests/hash_crypt_test.c] *)
Definition hc_exp_ct : list Z :=
  [93;224;172;188;202;94;183;124;139;78;240;58;204;70;225;139;158;140;18;142;208;190;97;215;231;235;85;91;28;150;190;
   213;228;46;79;212;66;157;160;115;99;15;5;91;144;33;137;183;27;151;222;147;56;65;23;233;199;82;181;132;28;113;1;
   12].
(** [tests/hash_crypt_test.c] *)
Definition hc_exp_tag : list Z :=
  [223;205;41;122;40;130;120;250;254;20;54;54;174;96;75;203;172;137;146;167;14;168;83;190;0;2;146;34;32;101;119;14;
   233;180;148;116;219;171;170;83;220;255;47;89;26;201;56;177;173;51;39;105;119;72;205;189;136;114;190;224;124;202;
   62;184].
(** [src/symhmac.c] *)
Definition sh_in : list Z :=
  [0;1;2;3;4;5;6;7;8;9;10;11;12;13;14;15;16;17;18;19;20;21;22;23;24;25;26;27;28;29;30;31;32;33;34;35;36;37;38;39;40;
   41;42;43;44;45;46;47;48;49;50;51;52;53;54;55;56;57;58;59;60;61;62;63].
(** [src/symhmac.c] *)
Definition sh_key : list Z :=
  [0;1;2;3;4;5;6;7;8;9;10;11;12;13;14;15;16;17;18;19;20;21;22;23;24;25;26;27;28;29;30;31;32;33;34;35;36;37;38;39;40;
   41;42;43;44;45;46;47;48;49;50;51;52;53;54;55;56;57;58;59;60;61;62;63].
(** [src/symhmac.c] *)
Definition sh_exp_ct : list Z :=
  [248;246;240;45;47;182;238;87;146;73;184;162;231;193;224;72;106;14;10;70;36;17;239;59;106;11;201;42;184;148;213;
   172;63;10;34;33;97;35;129;64;34;61;114;148;230;74;5;108;85;154;13;125;108;106;179;88;105;141;170;108;155;83;161;
   103].
(** [src/symhmac.c] *)
Definition sh_exp_tag : list Z :=
  [169;209;138;114;237;194;48;38;239;76;105;30;249;103;27;124;175;64;89;89;144;99;213;100;95;25;74;152;246;77;114;
   46;245;199;203;103;29;26;52;248;121;216;195;54;89;191;154;203;179;88;98;172;196;131;145;151;49;25;86;141;50;190;
   241;48].
(** [src/symkmac.c] *)
Definition kh_in : list Z :=
  [0;1;2;3;4;5;6;7;8;9;10;11;12;13;14;15;16;17;18;19;20;21;22;23;24;25;26;27;28;29;30;31;32;33;34;35;36;37;38;39;40;
   41;42;43;44;45;46;47;48;49;50;51;52;53;54;55;56;57;58;59;60;61;62;63].
(** [src/symkmac.c] *)
Definition kh_key : list Z :=
  [0;1;2;3;4;5;6;7;8;9;10;11;12;13;14;15;16;17;18;19;20;21;22;23;24;25;26;27;28;29;30;31;32;33;34;35;36;37;38;39;40;
   41;42;43;44;45;46;47;48;49;50;51;52;53;54;55;56;57;58;59;60;61;62;63].
(** [src/symkmac.c] *)
Definition kh_exp_ct : list Z :=
  [225;227;47;36;238;76;155;71;161;49;181;189;198;54;15;42;114;110;192;67;137;247;145;186;52;135;206;29;225;56;145;
   97;64;42;44;183;233;118;128;195;196;64;69;22;46;189;210;105;21;89;186;156;212;174;0;89;73;39;45;80;217;216;4;235
   ].
(** [src/symkmac.c] *)
Definition kh_exp_tag : list Z :=
  [250;60;196;8;23;164;97;250;163;120;99;88;239;30;224;146;248;244;227;252;182;247;161;161;144;198;51;240;73;10;100;
   88;86;81;114;88;148;246;197;179;13;8;45;197;151;153;213;82;138;42;157;212;13;0;6;205;114;57;140;3;178;235;106;164
   ].
