(** * The encoder callbacks of asn1/src/x509_cert_generator.c (names and
    extensions) and of the private-key containers

    A callback gets the room left, the tag and its context and returns the
    return value, the octets it stored, the tag and the context. *)
From Coq Require Import ZArith List Lia Bool.
From Verif Require Import Asn1Model Asn1Tables Asn1EncModel OidTables OidModel.
Import ListNotations.
Open Scope Z_scope.

(** OID_to_data [oid_registry.c: 207-215]; a registered number never fails *)
Definition oid_bytes (o : Z) : list Z :=
  match OID_to_data o with Some (_, d) => d | None => [] end.

(** x509_sufficient_size [x509_cert_generator.h: 78-88] and the copy *)
Definition put_bytes (room : Z) (v : list Z) : Z * list Z :=
  if room <? llen v then (EOVERFLOW_, []) else (0, v).

(** x509_set_bit_string [49-69] *)
Definition set_bit_string (room : Z) (v : list Z) : Z * list Z :=
  match v with
  | [] => put_bytes room []
  | _ => put_bytes room (0 :: v)
  end.

(** ** Private-key containers *)

(** x509_mldsa_private_key_enc [public_key_dilithium.c: 170-190] and
    x509_slhdsa_private_key_enc [public_key_sphincs.c: 183-203], action 0 *)
Definition privkey_act (sk : list Z) (i room tag : Z) (c : unit) : Z * list Z * Z * unit :=
  let '(r, w) := set_bit_string room sk in (r, w, tag, c).

(** x509_ed25519_private_key_enc [public_key_dilithium_ed25519.c: 258-280],
    action 0, and x509_mldsa_composite_private_key_enc [234-256], action 1; the
    same with public keys [172-220] and signatures [80-124] *)
Definition composite_act (mldsa ed : list Z) (i room tag : Z) (c : unit)
  : Z * list Z * Z * unit :=
  let '(r, w) := set_bit_string room (if i =? 0 then ed else mldsa) in (r, w, tag, c).

(** private_key_encode_dilithium [192-202], private_key_encode_sphincs
    [205-215], private_key_encode_dilithium_ed25519 [282-292]: what the
    encoder leaves in the caller's buffer of [avail] octets *)
Definition encode_mldsa_sk (sk : list Z) (avail : Z) :=
  ber_encoder unit (privkey_act sk) x509_mldsa_privkey_actions x509_mldsa_privkey_machine avail 5 tt.
Definition encode_slhdsa_sk (sk : list Z) (avail : Z) :=
  ber_encoder unit (privkey_act sk) x509_slhdsa_privkey_actions x509_slhdsa_privkey_machine avail 5 tt.
Definition encode_composite_sk (mldsa ed : list Z) (avail : Z) :=
  ber_encoder unit (composite_act mldsa ed) x509_composite_mldsa_privkey_actions
    x509_composite_mldsa_privkey_machine avail 6 tt.

(** x509_mldsa_private_key [public_key_dilithium.c: 204-226] and the others:
    what the load function gets for the contents of the BIT STRING *)
Definition loaded (v : list Z) : option (list Z) :=
  match v with [] => None | _ :: k => Some k end.

(** ** Names *)

(** struct lc_x509_certificate_name [asn1/api/lc_x509_common.h: 212-219] *)
Record gname := { n_cn : list Z; n_o : list Z; n_email : list Z; n_c : list Z;
                  n_st : list Z; n_ou : list Z }.

(** in the order of x509_name_OID_enc [226-265] and x509_name_segment_enc
    [279-340]: the flag X509_*_PROCESSED, the registry number, the value *)
Definition segments (n : gname) : list (Z * Z * list Z) :=
  [ (1, OID_commonName, n_cn n); (2, OID_organizationName, n_o n);
    (4, OID_email_address, n_email n); (8, OID_countryName, n_c n);
    (16, OID_stateOrProvinceName, n_st n); (32, OID_organizationUnitName, n_ou n) ].

Definition todo (processed : Z) (s : Z * Z * list Z) : bool :=
  negb (llen (snd s) =? 0) && negb (has processed (fst (fst s))).

(** x509_name_unprocessed [207-224] *)
Definition name_unprocessed (n : gname) (processed : Z) : bool :=
  existsb (todo processed) (segments n).

(** x509_name_OID_enc [226-265] *)
Definition name_OID_enc (n : gname) (processed room : Z) : Z * list Z :=
  match find (todo processed) (segments n) with
  | Some (_, o, _) => put_bytes room (oid_bytes o)
  | None => (0, [])
  end.

(** x509_name_segment_enc [279-340] *)
Definition name_segment_enc (n : gname) (processed room : Z) : Z * list Z * Z :=
  match find (todo processed) (segments n) with
  | Some (b, _, v) => (put_bytes room v, Z.lor processed b)
  | None => (0, [], processed)
  end.

(** The actions of the Name production of x509.asn1 for one name: action 7
    x509_note_attribute_type_OID_enc [1025-1041], action 4
    x509_extract_attribute_name_segment_enc [1007-1023] (leaves *tag alone),
    action 0 x509_attribute_value_continue_enc [1043-1056].  The context is
    *_attrib_processed. *)
Definition name_act (n : gname)
  (i room tag processed : Z) : Z * list Z * Z * Z :=
  if i =? 7 then
    let '(r, w) := name_OID_enc n processed room in (r, w, tag, processed)
  else if i =? 4 then
    let '(r, w, p) := name_segment_enc n processed room in (r, w, tag, p)
  else if i =? 0 then
    ((if name_unprocessed n processed then 1 else 0), [], tag, processed)
  else (0, [], tag, processed).

(** x509_san.asn1: action 1 x509_san_OID_enc [267-277], action 0
    x509_extract_name_segment_enc [342-352]; no DNS name and no IP address
    ([377], [402]) *)
Definition san_name_act (n : gname) (i room tag processed : Z) : Z * list Z * Z * Z :=
  if i =? 1 then
    let '(r, w) := name_OID_enc n processed room in (r, w, tag, processed)
  else if i =? 0 then
    let '(r, w, p) := name_segment_enc n processed room in (r, w, tag, p)
  else (0, [], tag, processed).

(** ** Extensions *)

(** struct x509_generate_context [x509_cert_generator.h: 40-76] and the
    certificate fields used; the subject alternative name and the authority
    key identifier are taken to be absent *)
Record gctx := { g_eku : Z; g_pathlen : Z; g_usage : Z; g_skid : list Z;   (* the certificate *)
                 g_eku_done : Z; g_pathlen_done : Z; g_usage_done : Z; g_skid_done : bool }.

(** LC_KEY_EKU_MASK, LC_KEY_USAGE_MASK [lc_x509_common.h: 144-145, 157-158] *)
Definition EKU_MASK : Z := Z.lor (65535 - 2) 4.
Definition USAGE_MASK : Z := 65535 - (16384 + 8192).

(** x509_eku_unprocessed [75-85] *)
Definition eku_unprocessed (g : gctx) (check : Z) : bool :=
  has (Z.land (g_eku g) (65535 - g_eku_done g)) check.
(** x509_pathlen_unprocessed [140-149] *)
Definition pathlen_of (g : gctx) : Z := Z.land (g_pathlen g) 127.
Definition pathlen_unprocessed (g : gctx) : bool := negb (pathlen_of g =? g_pathlen_done g).
(** x509_keyusage_unprocessed [415-425] *)
Definition usage_unprocessed (g : gctx) : bool :=
  has (Z.land (g_usage g) (65535 - g_usage_done g)) USAGE_MASK.

Definition eku_done (g : gctx) (b : Z) : gctx :=
  {| g_eku := g_eku g; g_pathlen := g_pathlen g; g_usage := g_usage g; g_skid := g_skid g;
     g_eku_done := Z.lor (g_eku_done g) b; g_pathlen_done := g_pathlen_done g;
     g_usage_done := g_usage_done g; g_skid_done := g_skid_done g |}.
Definition pathlen_done (g : gctx) (b : Z) : gctx :=
  {| g_eku := g_eku g; g_pathlen := g_pathlen g; g_usage := g_usage g; g_skid := g_skid g;
     g_eku_done := g_eku_done g; g_pathlen_done := b;
     g_usage_done := g_usage_done g; g_skid_done := g_skid_done g |}.
Definition usage_done (g : gctx) : gctx :=
  {| g_eku := g_eku g; g_pathlen := g_pathlen g; g_usage := g_usage g; g_skid := g_skid g;
     g_eku_done := g_eku_done g; g_pathlen_done := g_pathlen_done g;
     g_usage_done := g_usage g; g_skid_done := g_skid_done g |}.
Definition skid_done (g : gctx) : gctx :=
  {| g_eku := g_eku g; g_pathlen := g_pathlen g; g_usage := g_usage g; g_skid := g_skid g;
     g_eku_done := g_eku_done g; g_pathlen_done := g_pathlen_done g;
     g_usage_done := g_usage_done g; g_skid_done := true |}.

(** 97-127: the order in which the purposes are tried *)
Definition eku_order : list (Z * Z) :=
  [ (8, OID_anyExtendedKeyUsage); (16, OID_id_kp_serverAuth); (32, OID_id_kp_clientAuth);
    (64, OID_id_kp_codeSigning); (128, OID_id_kp_emailProtection);
    (256, OID_id_kp_timeStamping); (512, OID_id_kp_OCSPSigning) ].

(** x509_eku_enc [87-138] *)
Definition eku_enc (i room tag : Z) (g : gctx) : Z * list Z * Z * gctx :=
  match find (fun p => eku_unprocessed g (fst p)) eku_order with
  | Some (b, o) =>
      let '(r, w) := put_bytes room (oid_bytes o) in (r, w, tag, eku_done g b)
  | None => (EINVAL_, [], tag, g)
  end.

(** x509_basic_constraints_ca_enc [154-180] (action 0) and
    x509_basic_constraints_pathlen_enc [185-205] (action 1) *)
Definition basic_enc (i room tag : Z) (g : gctx) : Z * list Z * Z * gctx :=
  if negb (pathlen_unprocessed g) then (0, [], tag, g)
  else if room <? 1 then (EOVERFLOW_, [], tag, g)
  else if i =? 0 then
    (0, [if pathlen_of g =? 0 then 0 else 255], tag, pathlen_done g 16)
  else (0, [pathlen_of g], tag, pathlen_done g (pathlen_of g)).

(** x509_keyusage_enc [430-456]; the two octets are the value in big-endian
    order on either kind of host *)
Definition usage_enc (i room tag : Z) (g : gctx) : Z * list Z * Z * gctx :=
  let u := Z.land (g_usage g) USAGE_MASK in
  let '(r, w) := put_bytes room [u / 256; u mod 256] in
  (r, w, tag, if r <? 0 then g else usage_done g).

(** x509_skid_enc [470-502]; [g_skid] is raw_skid, or pk_digest if that is
    empty *)
Definition skid_enc (i room tag : Z) (g : gctx) : Z * list Z * Z * gctx :=
  let '(r, w) := put_bytes room (g_skid g) in
  (r, w, tag, if r <? 0 then g else skid_done g).

(** a nested call of asn1_ber_encoder_small, cut off after [fuel] trips *)
Definition nested (a : Z -> Z -> Z -> gctx -> Z * list Z * Z * gctx) (nact : Z) (m : list Z)
  (room tag : Z) (g : gctx) : Z * list Z * Z * gctx :=
  match ber_encoder_small gctx a nact m room 64 g with
  | Go (inr (d, g')) => (0, d, tag, g')
  | Fin r => (r, [], tag, g)
  | _ => (-1, [], tag, g)
  end.

(** The actions of the Extensions production of x509.asn1: action 1
    x509_extension_OID_enc [617-659], 2 x509_extension_continue_enc [592-615],
    3 x509_extension_critical_enc [661-701], 17 x509_process_extension_enc
    [703-750] *)
Definition ext_act (i room tag : Z) (g : gctx) : Z * list Z * Z * gctx :=
  let eku := eku_unprocessed g EKU_MASK in
  let path := pathlen_unprocessed g in
  let usage := usage_unprocessed g in
  let skid := negb (g_skid_done g) in
  if i =? 1 then
    let '(r, w) :=
      if eku then put_bytes room (oid_bytes OID_extKeyUsage)
      else if path then put_bytes room (oid_bytes OID_basicConstraints)
      else if usage then put_bytes room (oid_bytes OID_keyUsage)
      else if skid then put_bytes room (oid_bytes OID_subjectKeyIdentifier)
      else (0, []) in
    (r, w, tag, g)
  else if i =? 2 then ((if eku || path || usage || skid then 1 else 0), [], tag, g)
  else if i =? 3 then
    let val :=
      if eku then Some (has (g_eku g) 2)
      else if path then Some (has (g_pathlen g) 128)
      else if usage then Some (has (g_usage g) 16384)
      else None in
    match val with
    | None => (0, [], tag, g)
    | Some b => if room <? 1 then (EOVERFLOW_, [], tag, g)
                else (0, [if b then 255 else 0], tag, g)
    end
  else if i =? 17 then
    if eku then nested eku_enc x509_eku_actions x509_eku_machine room tag g
    else if path then
      nested basic_enc x509_basic_constraints_actions x509_basic_constraints_machine room tag g
    else if usage then nested usage_enc x509_keyusage_actions x509_keyusage_machine room tag g
    else if skid then nested skid_enc x509_skid_actions x509_skid_machine room tag g
    else (0, [], tag, g)
  else (0, [], tag, g).

(** the Extensions production, entered by the jump at pc 60 of the x509
    machine with the [3] level open; [n] trips, stopped when it returns *)
Fixpoint production (C : Type) (act : Z -> Z -> Z -> C -> Z * list Z * Z * C)
  (ret : Z) (n : nat) (sc : est * C) : out (list Z * C) :=
  let '(s, c) := sc in
  if e_pc s =? ret then
    match e_lv s with
    | _ :: (Some p, _) :: _ => Go (p, c)
    | _ => Bad
    end
  else
    match n with
    | O => Bad
    | S n =>
        match estep C act x509_actions x509_machine 10 (2 ^ 18) (2 ^ 18) (s, c) with
        | Go (inl sc') => production C act ret n sc'
        | Go (inr _) => Bad
        | Fin r => Fin r
        | Bad => Bad
        end
    end.

(** the whole [3] EXPLICIT field of the certificate *)
Definition extensions (n : nat) (g : gctx) : out (list Z * gctx) :=
  production gctx ext_act 123 n
    (mkest 105 [] [(Some [], 0); (Some [], 163); (Some [], 48); (Some [], 48)] [63] 1, g).

(** a whole Name, entered by the jumps at pc 16 and 42 *)
Definition rdns (nm : gname) (n : nat) : out (list Z * Z) :=
  production Z (name_act nm) 104 n
    (mkest 89 [] [(Some [], 0); (Some [], 48); (Some [], 48); (Some [], 48)] [19] 1, 0).
