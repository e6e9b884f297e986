(** * asn1/src/oid_registry_data.c and the enumeration in asn1/api/lc_asn1.h

    Generated by a script from the C text; nothing is computed here. *)
From Coq Require Import ZArith List.
Import ListNotations.
Open Scope Z_scope.

(** lc_asn1.h 40-199: enum OID *)
Definition OID_id_dsa_with_sha1 : Z := 0.
Definition OID_id_dsa : Z := 1.
Definition OID_id_ecPublicKey : Z := 2.
Definition OID_id_prime192v1 : Z := 3.
Definition OID_id_prime256v1 : Z := 4.
Definition OID_id_ecdsa_with_sha1 : Z := 5.
Definition OID_id_ecdsa_with_sha224 : Z := 6.
Definition OID_id_ecdsa_with_sha256 : Z := 7.
Definition OID_id_ecdsa_with_sha384 : Z := 8.
Definition OID_id_ecdsa_with_sha512 : Z := 9.
Definition OID_rsaEncryption : Z := 10.
Definition OID_sha1WithRSAEncryption : Z := 11.
Definition OID_sha256WithRSAEncryption : Z := 12.
Definition OID_sha384WithRSAEncryption : Z := 13.
Definition OID_sha512WithRSAEncryption : Z := 14.
Definition OID_sha224WithRSAEncryption : Z := 15.
Definition OID_data : Z := 16.
Definition OID_signed_data : Z := 17.
Definition OID_email_address : Z := 18.
Definition OID_contentType : Z := 19.
Definition OID_messageDigest : Z := 20.
Definition OID_signingTime : Z := 21.
Definition OID_smimeCapabilites : Z := 22.
Definition OID_smimeAuthenticatedAttrs : Z := 23.
Definition OID_mskrb5 : Z := 24.
Definition OID_krb5 : Z := 25.
Definition OID_krb5u2u : Z := 26.
Definition OID_msIndirectData : Z := 27.
Definition OID_msStatementType : Z := 28.
Definition OID_msSpOpusInfo : Z := 29.
Definition OID_msPeImageDataObjId : Z := 30.
Definition OID_msIndividualSPKeyPurpose : Z := 31.
Definition OID_msOutlookExpress : Z := 32.
Definition OID_ntlmssp : Z := 33.
Definition OID_negoex : Z := 34.
Definition OID_spnego : Z := 35.
Definition OID_IAKerb : Z := 36.
Definition OID_PKU2U : Z := 37.
Definition OID_Scram : Z := 38.
Definition OID_certAuthInfoAccess : Z := 39.
Definition OID_sha1 : Z := 40.
Definition OID_id_ansip384r1 : Z := 41.
Definition OID_id_ansip521r1 : Z := 42.
Definition OID_sha256 : Z := 43.
Definition OID_sha384 : Z := 44.
Definition OID_sha512 : Z := 45.
Definition OID_sha224 : Z := 46.
Definition OID_commonName : Z := 47.
Definition OID_surname : Z := 48.
Definition OID_countryName : Z := 49.
Definition OID_locality : Z := 50.
Definition OID_stateOrProvinceName : Z := 51.
Definition OID_organizationName : Z := 52.
Definition OID_organizationUnitName : Z := 53.
Definition OID_title : Z := 54.
Definition OID_description : Z := 55.
Definition OID_name : Z := 56.
Definition OID_givenName : Z := 57.
Definition OID_initials : Z := 58.
Definition OID_generationalQualifier : Z := 59.
Definition OID_subjectKeyIdentifier : Z := 60.
Definition OID_keyUsage : Z := 61.
Definition OID_subjectAltName : Z := 62.
Definition OID_issuerAltName : Z := 63.
Definition OID_basicConstraints : Z := 64.
Definition OID_crlDistributionPoints : Z := 65.
Definition OID_certPolicies : Z := 66.
Definition OID_authorityKeyIdentifier : Z := 67.
Definition OID_extKeyUsage : Z := 68.
Definition OID_anyExtendedKeyUsage : Z := 69.
Definition OID_id_kp_serverAuth : Z := 70.
Definition OID_id_kp_clientAuth : Z := 71.
Definition OID_id_kp_codeSigning : Z := 72.
Definition OID_id_kp_emailProtection : Z := 73.
Definition OID_id_kp_timeStamping : Z := 74.
Definition OID_id_kp_OCSPSigning : Z := 75.
Definition OID_NetlogonMechanism : Z := 76.
Definition OID_appleLocalKdcSupported : Z := 77.
Definition OID_gostCPSignA : Z := 78.
Definition OID_gostCPSignB : Z := 79.
Definition OID_gostCPSignC : Z := 80.
Definition OID_gost2012PKey256 : Z := 81.
Definition OID_gost2012PKey512 : Z := 82.
Definition OID_gost2012Digest256 : Z := 83.
Definition OID_gost2012Digest512 : Z := 84.
Definition OID_gost2012Signature256 : Z := 85.
Definition OID_gost2012Signature512 : Z := 86.
Definition OID_gostTC26Sign256A : Z := 87.
Definition OID_gostTC26Sign256B : Z := 88.
Definition OID_gostTC26Sign256C : Z := 89.
Definition OID_gostTC26Sign256D : Z := 90.
Definition OID_gostTC26Sign512A : Z := 91.
Definition OID_gostTC26Sign512B : Z := 92.
Definition OID_gostTC26Sign512C : Z := 93.
Definition OID_sm2 : Z := 94.
Definition OID_sm3 : Z := 95.
Definition OID_SM2_with_SM3 : Z := 96.
Definition OID_sm3WithRSAEncryption : Z := 97.
Definition OID_TPMLoadableKey : Z := 98.
Definition OID_TPMImportableKey : Z := 99.
Definition OID_TPMSealedData : Z := 100.
Definition OID_sha3_256 : Z := 101.
Definition OID_sha3_384 : Z := 102.
Definition OID_sha3_512 : Z := 103.
Definition OID_shake128 : Z := 104.
Definition OID_shake256 : Z := 105.
Definition OID_id_ecdsa_with_sha3_256 : Z := 106.
Definition OID_id_ecdsa_with_sha3_384 : Z := 107.
Definition OID_id_ecdsa_with_sha3_512 : Z := 108.
Definition OID_id_rsassa_pkcs1_v1_5_with_sha3_256 : Z := 109.
Definition OID_id_rsassa_pkcs1_v1_5_with_sha3_384 : Z := 110.
Definition OID_id_rsassa_pkcs1_v1_5_with_sha3_512 : Z := 111.
Definition OID_id_MLDSA44 : Z := 112.
Definition OID_id_MLDSA65 : Z := 113.
Definition OID_id_MLDSA87 : Z := 114.
Definition OID_id_MLDSA44_Ed25519 : Z := 115.
Definition OID_id_MLDSA65_Ed25519 : Z := 116.
Definition OID_id_MLDSA87_Ed448 : Z := 117.
Definition OID_id_SLHDSA_SHAKE_128S : Z := 118.
Definition OID_id_SLHDSA_SHAKE_128F : Z := 119.
Definition OID_id_SLHDSA_SHAKE_192S : Z := 120.
Definition OID_id_SLHDSA_SHAKE_192F : Z := 121.
Definition OID_id_SLHDSA_SHAKE_256S : Z := 122.
Definition OID_id_SLHDSA_SHAKE_256F : Z := 123.
Definition OID__NR : Z := 124.

(** lc_asn1.h 41-196: the object identifiers written beside the enumerators,
    in the order of the enumeration *)
Definition oid_arcs : list (list Z) :=
  [[1; 2; 840; 10030; 4; 3];
   [1; 2; 840; 10040; 4; 1];
   [1; 2; 840; 10045; 2; 1];
   [1; 2; 840; 10045; 3; 1; 1];
   [1; 2; 840; 10045; 3; 1; 7];
   [1; 2; 840; 10045; 4; 1];
   [1; 2; 840; 10045; 4; 3; 1];
   [1; 2; 840; 10045; 4; 3; 2];
   [1; 2; 840; 10045; 4; 3; 3];
   [1; 2; 840; 10045; 4; 3; 4];
   [1; 2; 840; 113549; 1; 1; 1];
   [1; 2; 840; 113549; 1; 1; 5];
   [1; 2; 840; 113549; 1; 1; 11];
   [1; 2; 840; 113549; 1; 1; 12];
   [1; 2; 840; 113549; 1; 1; 13];
   [1; 2; 840; 113549; 1; 1; 14];
   [1; 2; 840; 113549; 1; 7; 1];
   [1; 2; 840; 113549; 1; 7; 2];
   [1; 2; 840; 113549; 1; 9; 1];
   [1; 2; 840; 113549; 1; 9; 3];
   [1; 2; 840; 113549; 1; 9; 4];
   [1; 2; 840; 113549; 1; 9; 5];
   [1; 2; 840; 113549; 1; 9; 15];
   [1; 2; 840; 113549; 1; 9; 16; 2; 11];
   [1; 2; 840; 48018; 1; 2; 2];
   [1; 2; 840; 113554; 1; 2; 2];
   [1; 2; 840; 113554; 1; 2; 2; 3];
   [1; 3; 6; 1; 4; 1; 311; 2; 1; 4];
   [1; 3; 6; 1; 4; 1; 311; 2; 1; 11];
   [1; 3; 6; 1; 4; 1; 311; 2; 1; 12];
   [1; 3; 6; 1; 4; 1; 311; 2; 1; 15];
   [1; 3; 6; 1; 4; 1; 311; 2; 1; 21];
   [1; 3; 6; 1; 4; 1; 311; 16; 4];
   [1; 3; 6; 1; 4; 1; 311; 2; 2; 10];
   [1; 3; 6; 1; 4; 1; 311; 2; 2; 30];
   [1; 3; 6; 1; 5; 5; 2];
   [1; 3; 6; 1; 5; 2; 5];
   [1; 3; 5; 1; 5; 2; 7];
   [1; 3; 6; 1; 5; 5; 14];
   [1; 3; 6; 1; 5; 5; 7; 1; 1];
   [1; 3; 14; 3; 2; 26];
   [1; 3; 132; 0; 34];
   [1; 3; 132; 0; 35];
   [2; 16; 840; 1; 101; 3; 4; 2; 1];
   [2; 16; 840; 1; 101; 3; 4; 2; 2];
   [2; 16; 840; 1; 101; 3; 4; 2; 3];
   [2; 16; 840; 1; 101; 3; 4; 2; 4];
   [2; 5; 4; 3];
   [2; 5; 4; 4];
   [2; 5; 4; 6];
   [2; 5; 4; 7];
   [2; 5; 4; 8];
   [2; 5; 4; 10];
   [2; 5; 4; 11];
   [2; 5; 4; 12];
   [2; 5; 4; 13];
   [2; 5; 4; 41];
   [2; 5; 4; 42];
   [2; 5; 4; 43];
   [2; 5; 4; 44];
   [2; 5; 29; 14];
   [2; 5; 29; 15];
   [2; 5; 29; 17];
   [2; 5; 29; 18];
   [2; 5; 29; 19];
   [2; 5; 29; 31];
   [2; 5; 29; 32];
   [2; 5; 29; 35];
   [2; 5; 29; 37];
   [2; 5; 29; 37; 0];
   [1; 3; 6; 1; 5; 5; 7; 3; 1];
   [1; 3; 6; 1; 5; 5; 7; 3; 2];
   [1; 3; 6; 1; 5; 5; 7; 3; 3];
   [1; 3; 6; 1; 5; 5; 7; 3; 4];
   [1; 3; 6; 1; 5; 5; 7; 3; 8];
   [1; 3; 6; 1; 5; 5; 7; 3; 9];
   [1; 2; 752; 43; 14; 2];
   [1; 2; 752; 43; 14; 3];
   [1; 2; 643; 2; 2; 35; 1];
   [1; 2; 643; 2; 2; 35; 2];
   [1; 2; 643; 2; 2; 35; 3];
   [1; 2; 643; 7; 1; 1; 1; 1];
   [1; 2; 643; 7; 1; 1; 1; 2];
   [1; 2; 643; 7; 1; 1; 2; 2];
   [1; 2; 643; 7; 1; 1; 2; 3];
   [1; 2; 643; 7; 1; 1; 3; 2];
   [1; 2; 643; 7; 1; 1; 3; 3];
   [1; 2; 643; 7; 1; 2; 1; 1; 1];
   [1; 2; 643; 7; 1; 2; 1; 1; 2];
   [1; 2; 643; 7; 1; 2; 1; 1; 3];
   [1; 2; 643; 7; 1; 2; 1; 1; 4];
   [1; 2; 643; 7; 1; 2; 1; 2; 1];
   [1; 2; 643; 7; 1; 2; 1; 2; 2];
   [1; 2; 643; 7; 1; 2; 1; 2; 3];
   [1; 2; 156; 10197; 1; 301];
   [1; 2; 156; 10197; 1; 401];
   [1; 2; 156; 10197; 1; 501];
   [1; 2; 156; 10197; 1; 504];
   [2; 23; 133; 10; 1; 3];
   [2; 23; 133; 10; 1; 4];
   [2; 23; 133; 10; 1; 5];
   [2; 16; 840; 1; 101; 3; 4; 2; 8];
   [2; 16; 840; 1; 101; 3; 4; 2; 9];
   [2; 16; 840; 1; 101; 3; 4; 2; 10];
   [2; 16; 840; 1; 101; 3; 4; 2; 11];
   [2; 16; 840; 1; 101; 3; 4; 2; 12];
   [2; 16; 840; 1; 101; 3; 4; 3; 10];
   [2; 16; 840; 1; 101; 3; 4; 3; 11];
   [2; 16; 840; 1; 101; 3; 4; 3; 12];
   [2; 16; 840; 1; 101; 3; 4; 3; 14];
   [2; 16; 840; 1; 101; 3; 4; 3; 15];
   [2; 16; 840; 1; 101; 3; 4; 3; 16];
   [2; 16; 840; 1; 101; 3; 4; 3; 17];
   [2; 16; 840; 1; 101; 3; 4; 3; 18];
   [2; 16; 840; 1; 101; 3; 4; 3; 19];
   [2; 16; 840; 1; 114027; 80; 8; 1; 23];
   [2; 16; 840; 1; 114027; 80; 8; 1; 30];
   [2; 16; 840; 1; 114027; 80; 8; 1; 33];
   [2; 16; 840; 1; 101; 3; 4; 3; 26];
   [2; 16; 840; 1; 101; 3; 4; 3; 27];
   [2; 16; 840; 1; 101; 3; 4; 3; 28];
   [2; 16; 840; 1; 101; 3; 4; 3; 29];
   [2; 16; 840; 1; 101; 3; 4; 3; 30];
   [2; 16; 840; 1; 101; 3; 4; 3; 31]].

(** oid_registry_data.c 6-132: oid_index, in the order of the enumeration *)
Definition oid_index : list Z :=
  [0; 7; 14; 21; 29; 37; 44; 52; 60; 68; 76; 85; 94; 103; 112; 121;
   130; 139; 148; 157; 166; 175; 184; 193; 204; 213; 222; 232; 242; 252; 262; 272;
   282; 291; 301; 311; 317; 323; 329; 335; 343; 348; 353; 358; 367; 376; 385; 394;
   397; 400; 403; 406; 409; 412; 415; 418; 421; 424; 427; 430; 433; 436; 439; 442;
   445; 448; 451; 454; 457; 460; 464; 472; 480; 488; 496; 504; 512; 518; 524; 531;
   538; 545; 553; 561; 569; 577; 585; 593; 602; 611; 620; 629; 638; 647; 656; 664;
   672; 680; 688; 694; 700; 706; 715; 724; 733; 742; 751; 760; 769; 778; 787; 796;
   805; 814; 823; 832; 843; 854; 865; 874; 883; 892; 901; 910; 919].

(** oid_registry_data.c 134-259: oid_data *)
Definition oid_data : list Z :=
  [42; 134; 72; 206; 46; 4; 3; 42; 134; 72; 206; 56; 4; 1; 42; 134;
   72; 206; 61; 2; 1; 42; 134; 72; 206; 61; 3; 1; 1; 42; 134; 72;
   206; 61; 3; 1; 7; 42; 134; 72; 206; 61; 4; 1; 42; 134; 72; 206;
   61; 4; 3; 1; 42; 134; 72; 206; 61; 4; 3; 2; 42; 134; 72; 206;
   61; 4; 3; 3; 42; 134; 72; 206; 61; 4; 3; 4; 42; 134; 72; 134;
   247; 13; 1; 1; 1; 42; 134; 72; 134; 247; 13; 1; 1; 5; 42; 134;
   72; 134; 247; 13; 1; 1; 11; 42; 134; 72; 134; 247; 13; 1; 1; 12;
   42; 134; 72; 134; 247; 13; 1; 1; 13; 42; 134; 72; 134; 247; 13; 1;
   1; 14; 42; 134; 72; 134; 247; 13; 1; 7; 1; 42; 134; 72; 134; 247;
   13; 1; 7; 2; 42; 134; 72; 134; 247; 13; 1; 9; 1; 42; 134; 72;
   134; 247; 13; 1; 9; 3; 42; 134; 72; 134; 247; 13; 1; 9; 4; 42;
   134; 72; 134; 247; 13; 1; 9; 5; 42; 134; 72; 134; 247; 13; 1; 9;
   15; 42; 134; 72; 134; 247; 13; 1; 9; 16; 2; 11; 42; 134; 72; 130;
   247; 18; 1; 2; 2; 42; 134; 72; 134; 247; 18; 1; 2; 2; 42; 134;
   72; 134; 247; 18; 1; 2; 2; 3; 43; 6; 1; 4; 1; 130; 55; 2;
   1; 4; 43; 6; 1; 4; 1; 130; 55; 2; 1; 11; 43; 6; 1; 4;
   1; 130; 55; 2; 1; 12; 43; 6; 1; 4; 1; 130; 55; 2; 1; 15;
   43; 6; 1; 4; 1; 130; 55; 2; 1; 21; 43; 6; 1; 4; 1; 130;
   55; 16; 4; 43; 6; 1; 4; 1; 130; 55; 2; 2; 10; 43; 6; 1;
   4; 1; 130; 55; 2; 2; 30; 43; 6; 1; 5; 5; 2; 43; 6; 1;
   5; 2; 5; 43; 5; 1; 5; 2; 7; 43; 6; 1; 5; 5; 14; 43;
   6; 1; 5; 5; 7; 1; 1; 43; 14; 3; 2; 26; 43; 129; 4; 0;
   34; 43; 129; 4; 0; 35; 96; 134; 72; 1; 101; 3; 4; 2; 1; 96;
   134; 72; 1; 101; 3; 4; 2; 2; 96; 134; 72; 1; 101; 3; 4; 2;
   3; 96; 134; 72; 1; 101; 3; 4; 2; 4; 85; 4; 3; 85; 4; 4;
   85; 4; 6; 85; 4; 7; 85; 4; 8; 85; 4; 10; 85; 4; 11; 85;
   4; 12; 85; 4; 13; 85; 4; 41; 85; 4; 42; 85; 4; 43; 85; 4;
   44; 85; 29; 14; 85; 29; 15; 85; 29; 17; 85; 29; 18; 85; 29; 19;
   85; 29; 31; 85; 29; 32; 85; 29; 35; 85; 29; 37; 85; 29; 37; 0;
   43; 6; 1; 5; 5; 7; 3; 1; 43; 6; 1; 5; 5; 7; 3; 2;
   43; 6; 1; 5; 5; 7; 3; 3; 43; 6; 1; 5; 5; 7; 3; 4;
   43; 6; 1; 5; 5; 7; 3; 8; 43; 6; 1; 5; 5; 7; 3; 9;
   42; 133; 112; 43; 14; 2; 42; 133; 112; 43; 14; 3; 42; 133; 3; 2;
   2; 35; 1; 42; 133; 3; 2; 2; 35; 2; 42; 133; 3; 2; 2; 35;
   3; 42; 133; 3; 7; 1; 1; 1; 1; 42; 133; 3; 7; 1; 1; 1;
   2; 42; 133; 3; 7; 1; 1; 2; 2; 42; 133; 3; 7; 1; 1; 2;
   3; 42; 133; 3; 7; 1; 1; 3; 2; 42; 133; 3; 7; 1; 1; 3;
   3; 42; 133; 3; 7; 1; 2; 1; 1; 1; 42; 133; 3; 7; 1; 2;
   1; 1; 2; 42; 133; 3; 7; 1; 2; 1; 1; 3; 42; 133; 3; 7;
   1; 2; 1; 1; 4; 42; 133; 3; 7; 1; 2; 1; 2; 1; 42; 133;
   3; 7; 1; 2; 1; 2; 2; 42; 133; 3; 7; 1; 2; 1; 2; 3;
   42; 129; 28; 207; 85; 1; 130; 45; 42; 129; 28; 207; 85; 1; 131; 17;
   42; 129; 28; 207; 85; 1; 131; 117; 42; 129; 28; 207; 85; 1; 131; 120;
   103; 129; 5; 10; 1; 3; 103; 129; 5; 10; 1; 4; 103; 129; 5; 10;
   1; 5; 96; 134; 72; 1; 101; 3; 4; 2; 8; 96; 134; 72; 1; 101;
   3; 4; 2; 9; 96; 134; 72; 1; 101; 3; 4; 2; 10; 96; 134; 72;
   1; 101; 3; 4; 2; 11; 96; 134; 72; 1; 101; 3; 4; 2; 12; 96;
   134; 72; 1; 101; 3; 4; 3; 10; 96; 134; 72; 1; 101; 3; 4; 3;
   11; 96; 134; 72; 1; 101; 3; 4; 3; 12; 96; 134; 72; 1; 101; 3;
   4; 3; 14; 96; 134; 72; 1; 101; 3; 4; 3; 15; 96; 134; 72; 1;
   101; 3; 4; 3; 16; 96; 134; 72; 1; 101; 3; 4; 3; 17; 96; 134;
   72; 1; 101; 3; 4; 3; 18; 96; 134; 72; 1; 101; 3; 4; 3; 19;
   96; 134; 72; 1; 134; 250; 107; 80; 8; 1; 23; 96; 134; 72; 1; 134;
   250; 107; 80; 8; 1; 30; 96; 134; 72; 1; 134; 250; 107; 80; 8; 1;
   33; 96; 134; 72; 1; 101; 3; 4; 3; 26; 96; 134; 72; 1; 101; 3;
   4; 3; 27; 96; 134; 72; 1; 101; 3; 4; 3; 28; 96; 134; 72; 1;
   101; 3; 4; 3; 29; 96; 134; 72; 1; 101; 3; 4; 3; 30; 96; 134;
   72; 1; 101; 3; 4; 3; 31].

(** oid_registry_data.c 261-389: oid_search_table, (hash, oid) *)
Definition oid_search_table : list (Z * Z) :=
  [(3, 109);
   (10, 54);
   (11, 35);
   (11, 36);
   (13, 41);
   (19, 93);
   (19, 90);
   (23, 63);
   (23, 58);
   (26, 121);
   (31, 74);
   (32, 0);
   (35, 19);
   (35, 12);
   (36, 67);
   (37, 55);
   (39, 70);
   (43, 1);
   (44, 42);
   (44, 37);
   (44, 26);
   (49, 6);
   (51, 31);
   (52, 96);
   (54, 64);
   (54, 59);
   (59, 120);
   (60, 78);
   (60, 75);
   (64, 98);
   (64, 25);
   (64, 17);
   (65, 111);
   (70, 71);
   (76, 3);
   (77, 49);
   (77, 5);
   (83, 43);
   (84, 94);
   (85, 22);
   (87, 40);
   (88, 102);
   (92, 123);
   (93, 79);
   (97, 18);
   (98, 110);
   (104, 117);
   (105, 69);
   (106, 68);
   (106, 30);
   (110, 50);
   (120, 34);
   (121, 72);
   (123, 101);
   (124, 81);
   (125, 122);
   (126, 80);
   (126, 10);
   (130, 100);
   (132, 23);
   (134, 38);
   (134, 106);
   (134, 104);
   (142, 2);
   (142, 15);
   (143, 51);
   (143, 113);
   (145, 97);
   (146, 60);
   (150, 9);
   (150, 4);
   (152, 73);
   (157, 82);
   (157, 45);
   (160, 16);
   (160, 112);
   (160, 115);
   (161, 65);
   (161, 99);
   (173, 32);
   (178, 44);
   (179, 61);
   (179, 76);
   (185, 103);
   (190, 83);
   (191, 87);
   (195, 24);
   (196, 108);
   (198, 66);
   (200, 29);
   (201, 52);
   (204, 20);
   (204, 13);
   (206, 116);
   (208, 7);
   (208, 91);
   (208, 88);
   (212, 56);
   (213, 47);
   (213, 95);
   (217, 119);
   (223, 85);
   (223, 84);
   (226, 11);
   (228, 39);
   (231, 107);
   (231, 105);
   (231, 33);
   (231, 28);
   (234, 53);
   (236, 77);
   (237, 21);
   (237, 14);
   (238, 114);
   (240, 86);
   (241, 92);
   (241, 89);
   (244, 48);
   (245, 62);
   (245, 57);
   (247, 8);
   (248, 118);
   (252, 46);
   (255, 27)].
