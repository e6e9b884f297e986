(** * asn1/src/x509_algorithm_mapper.c and lc_x509_cert_oid_to_eku

    The build with all hash functions (LC_SHA2_256, LC_SHA2_512, LC_SHA3).
    A hash function is one of the eight [hash_algo] objects or another one. *)
From Coq Require Import ZArith List Lia Bool Ascii String.
Import ListNotations.
From Verif Require Import Bytes OidTables X509Model.
Open Scope Z_scope.
Local Open Scope list_scope.

Inductive halgo := H_sha256 | H_sha384 | H_sha512 | H_sha3_256 | H_sha3_384 | H_sha3_512 | H_shake128 | H_shake256
| H_other.
Definition halgo_eqb (a b : halgo) : bool :=
  match a, b with
  | H_sha256, H_sha256 | H_sha384, H_sha384 | H_sha512, H_sha512 | H_sha3_256, H_sha3_256 | H_sha3_384, H_sha3_384
  | H_sha3_512, H_sha3_512 | H_shake128, H_shake128 | H_shake256, H_shake256 => true
  | _, _ => false
  end.

(** enum lc_sig_types, the rest of the list in X509Model
    [asn1/api/lc_x509_common.h: 109-117] *)
Definition SIG_RSA_PKCS1 := 14.
Definition SIG_ECDSA_X963 := 15.
Definition SIG_SM2 := 16.
Definition SIG_ECRDSA_PKCS1 := 17.

(** strncmp(a, b, n) == 0 for strings without a NUL inside *)
Fixpoint strncmp_eq (n : nat) (a b : string) : bool :=
  match n with
  | O => true
  | S n => match a, b with
           | EmptyString, EmptyString => true
           | String x a, String y b => Ascii.eqb x y && strncmp_eq n a b
           | _, _ => false
           end
  end.
Definition strlen (s : string) : Z := Z.of_nat (String.length s).

(** struct lc_x509_algorithms and x509_algo_table [28-160]; generated from the
    C text; a missing .std_hash is 0 *)
Record algo_row := mkrow { r_oid : Z; r_name : string; r_namelen : Z; r_algo : Z; r_hash : Z }.
Definition row_of (x : Z * string * Z * Z * Z) : algo_row :=
  let '(o, n, l, a, h) := x in mkrow o n l a h.
Definition x509_algo_table : list algo_row := map row_of
  [
   (OID_id_MLDSA44, "ML-DSA44"%string, 8, 1, OID_shake256);
   (OID_id_MLDSA65, "ML-DSA65"%string, 8, 2, OID_shake256);
   (OID_id_MLDSA87, "ML-DSA87"%string, 8, 3, OID_shake256);
   (OID_id_SLHDSA_SHAKE_128F, "SLH-DSA-SHAKE-128F"%string, 18, 13, OID_shake128);
   (OID_id_SLHDSA_SHAKE_128S, "SLH-DSA-SHAKE-128S"%string, 18, 12, OID_shake128);
   (OID_id_SLHDSA_SHAKE_192F, "SLH-DSA-SHAKE-192F"%string, 18, 11, OID_shake256);
   (OID_id_SLHDSA_SHAKE_192S, "SLH-DSA-SHAKE-192S"%string, 18, 10, OID_shake256);
   (OID_id_SLHDSA_SHAKE_256F, "SLH-DSA-SHAKE-256F"%string, 18, 9, OID_shake256);
   (OID_id_SLHDSA_SHAKE_256S, "SLH-DSA-SHAKE-256S"%string, 18, 8, OID_shake256);
   (OID_id_rsassa_pkcs1_v1_5_with_sha3_256, "RSASSA-PKCS1-v1.5-SHA3-256"%string, 26, 14, 0);
   (OID_id_rsassa_pkcs1_v1_5_with_sha3_384, "RSASSA-PKCS1-v1.5-SHA3-384"%string, 26, 14, 0);
   (OID_id_rsassa_pkcs1_v1_5_with_sha3_512, "RSASSA-PKCS1-v1.5-SHA3-512"%string, 26, 14, 0);
   (OID_id_ecdsa_with_sha3_256, "ECDSA-X963-SHA3-256"%string, 19, 15, 0);
   (OID_id_ecdsa_with_sha3_384, "ECDSA-X963-SHA3-384"%string, 19, 15, 0);
   (OID_id_ecdsa_with_sha3_512, "ECDSA-X963-SHA3-512"%string, 19, 15, 0);
   (OID_sha256WithRSAEncryption, "RSASSA-PKCS1-v1.5-SHA2-256"%string, 26, 14, 0);
   (OID_id_ecdsa_with_sha256, "ECDSA-X963-SHA2-256"%string, 19, 15, 0);
   (OID_id_MLDSA44_Ed25519, "ML-DSA44-ED25519"%string, 16, 4, OID_sha3_512);
   (OID_id_MLDSA65_Ed25519, "ML-DSA65-ED25519"%string, 16, 5, OID_sha3_512);
   (OID_id_MLDSA87_Ed448, "ML-DSA44-ED448"%string, 14, 7, OID_sha3_512);
   (OID_sha384WithRSAEncryption, "RSASSA-PKCS1-v1.5-SHA2-384"%string, 26, 14, 0);
   (OID_sha512WithRSAEncryption, "RSASSA-PKCS1-v1.5-SHA2-512"%string, 26, 14, 0);
   (OID_id_ecdsa_with_sha384, "ECDSA-X963-SHA2-384"%string, 19, 15, 0);
   (OID_id_ecdsa_with_sha512, "ECDSA-X963-SHA2-512"%string, 19, 15, 0);
   (OID_rsaEncryption, "RSASSA-PKCS1-v1.5"%string, 17, 14, 0)].

(** lc_x509_pkey_name_to_algorithm [162-191] *)
Definition name_to_algorithm (name : option string) : Z * option Z :=
  match name with
  | None => (EINVAL, None)
  | Some name =>
      let n := strlen name in
      match find (fun r => (n =? r_namelen r) && strncmp_eq (Z.to_nat n) name (r_name r)) x509_algo_table with
      | Some r => (0, Some (r_algo r))
      | None => (ENOPKG, None)
      end
  end.
(** lc_x509_sig_type_to_oid [193-206] *)
Definition sig_type_to_oid (a : Z) : Z * option Z :=
  match find (fun r => a =? r_algo r) x509_algo_table with
  | Some r => (0, Some (r_oid r))
  | None => (ENOPKG, None)
  end.
(** lc_x509_oid_to_sig_type [497-511] *)
Definition oid_to_sig_type (o : Z) : Z * option Z :=
  match find (fun r => o =? r_oid r) x509_algo_table with
  | Some r => (0, Some (r_algo r))
  | None => (ENOPKG, None)
  end.
(** lc_x509_sig_type_to_name [513-526] *)
Definition sig_type_to_name (a : Z) : string :=
  match find (fun r => a =? r_algo r) x509_algo_table with
  | Some r => r_name r
  | None => "<not found>"%string
  end.
(** lc_x509_oid_to_hash [453-495]: the cases in the order of the switch *)
Definition hash_oids : list (Z * halgo) :=
  [(OID_sha256, H_sha256); (OID_sha384, H_sha384); (OID_sha512, H_sha512); (OID_sha3_256, H_sha3_256);
   (OID_sha3_384, H_sha3_384); (OID_sha3_512, H_sha3_512); (OID_shake128, H_shake128); (OID_shake256, H_shake256)].
Definition oid_to_hash (o : Z) : Z * option halgo :=
  match find (fun p => o =? fst p) hash_oids with
  | Some p => (0, Some (snd p))
  | None => (ENOPKG, None)
  end.
(** lc_x509_hash_to_oid [421-451] *)
Definition hash_to_oid (h : halgo) : Z * Z :=
  (0, match find (fun p => halgo_eqb h (snd p)) hash_oids with Some p => fst p | None => OID__NR end).
(** lc_x509_sig_type_to_hash [208-228] *)
Definition sig_type_to_hash (a : Z) : Z * option halgo :=
  let o := match find (fun r => a =? r_algo r) x509_algo_table with Some r => r_hash r | None => OID__NR end in
  if o =? OID__NR then (ENOPKG, None) else oid_to_hash o.
(** lc_x509_sig_check_hash [230-328]: the three groups fall through *)
Definition is_in (h : halgo) (l : list halgo) : bool := existsb (halgo_eqb h) l.
Definition sig_check_hash (a : Z) (h : option halgo) : Z :=
  match h with
  | None => ENOPKG
  | Some h =>
      let level5 := is_in h [H_sha512; H_sha3_512; H_shake256] in
      let level3 := is_in h [H_sha384; H_sha3_384] || level5 in
      let level1 := is_in h [H_sha256; H_sha3_256; H_shake128] || level3 in
      let found :=
        if (a =? SIG_SPHINCS_128F) || (a =? SIG_SPHINCS_128S) || (a =? SIG_DILITHIUM_44) then Some level1
        else if (a =? SIG_SPHINCS_192F) || (a =? SIG_SPHINCS_192S) || (a =? SIG_DILITHIUM_65) then Some level3
        else if (a =? SIG_SPHINCS_256F) || (a =? SIG_SPHINCS_256S) || (a =? SIG_DILITHIUM_87) then Some level5
        else if (a =? SIG_DILITHIUM_44_ED25519) || (a =? SIG_DILITHIUM_65_ED25519) || (a =? SIG_DILITHIUM_87_ED25519)
        then Some level5
        else None in
      match found with
      | Some true => 0
      | _ => ENOPKG
      end
  end.

(** x509_eku_to_name [x509_cert_parser_get_data.c: 76-87], value and OID;
    flags [asn1/api/lc_x509_common.h: 148-157] *)
Definition x509_eku_to_name : list (Z * Z) :=
  [(2, 0); (8, OID_anyExtendedKeyUsage); (16, OID_id_kp_serverAuth); (32, OID_id_kp_clientAuth);
   (64, OID_id_kp_codeSigning); (128, OID_id_kp_emailProtection); (256, OID_id_kp_timeStamping);
   (512, OID_id_kp_OCSPSigning)].
(** lc_x509_cert_oid_to_eku [91-103] *)
Definition oid_to_eku (o : Z) : option Z :=
  match find (fun p => o =? snd p) x509_eku_to_name with Some p => Some (fst p) | None => None end.

(** keyusage_names, eku_names and the functions on them [553-657] *)
Definition keyusage_names : list (Z * string) :=
  [(16384, "critical"); (128, "digitalSignature"); (64, "contentCommitment"); (32, "keyEncipherment");
   (16, "dataEncipherment"); (4, "keyCertSign"); (2, "cRLSign"); (1, "encipherOnly"); (32768, "decipherOnly")]%string.
Definition eku_names : list (Z * string) :=
  [(2, "critical"); (8, "anyExtendedKeyUsage"); (16, "ServerAuthentication"); (32, "ClientAuthentication");
   (64, "CodeSigning"); (128, "EmailProtection"); (256, "TImeStamping"); (512, "OCSPSignign")]%string.
(** lc_x509_name_to_keyusage, lc_x509_name_to_eku: .namelen is the length of
    .name in every row *)
Definition name_to_flags (tbl : list (Z * string)) (name : option string) (flags : Z) : Z * Z :=
  match name with
  | None => (EINVAL, flags)
  | Some name =>
      let hit r := (strlen name =? strlen (snd r)) && strncmp_eq (String.length name) name (snd r) in
      (if existsb hit tbl then 0 else ENOPKG,
       fold_left (fun f r => if hit r then Z.lor f (fst r) else f) tbl flags)
  end.

(** lc_x509_name_to_hash [335-386], lc_x509_hash_to_name [388-419] *)
Definition hash_names : list (string * halgo) :=
  [("SHA2-256", H_sha256); ("SHA2-384", H_sha384); ("SHA2-512", H_sha512); ("SHA3-256", H_sha3_256);
   ("SHA3-384", H_sha3_384); ("SHA3-512", H_sha3_512); ("SHAKE128", H_shake128); ("SHAKE256", H_shake256)]%string.
Definition name_to_hash (name : option string) : Z * option halgo :=
  match name with
  | None => (EINVAL, None)
  | Some name =>
      match find (fun p => (strlen name =? 8) && strncmp_eq (String.length name) name (fst p)) hash_names with
      | Some p => (0, Some (snd p))
      | None => (EINVAL, None)
      end
  end.
Definition hash_to_name (h : halgo) : string :=
  match find (fun p => halgo_eqb h (snd p)) hash_names with Some p => fst p | None => "<unknown>"%string end.
(** lc_x509_oid_to_name [527-538] *)
Definition oid_to_name (o : Z) : string :=
  match find (fun r => o =? r_oid r) x509_algo_table with Some r => r_name r | None => "<not found>"%string end.
