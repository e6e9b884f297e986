(** * X.509: key identifiers, extension handlers, times and policies

    Model of asn1/src/asymmetric_type.c, asn1/src/x509_policies.c, of the
    handlers of asn1/src/x509_cert_parser.c that set the fields on which the
    policies decide, of the time encoder of asn1/src/x509_cert_generator.c,
    of asn1/src/x509_public_key.c and of the dispatcher of
    asn1/src/public_key.c.  A pointer with a length is an [option (list Z)]
    ([None] = NULL); [bool] is a one-bit flag.  The signature primitives
    behind the dispatcher and the clock are parameters. *)
From Coq Require Import ZArith List Lia Bool.
Import ListNotations.
From Verif Require Import Bytes.
From Verif Require UtilModel.
Open Scope Z_scope.

(** Linux values of the return codes [errno.h] not already in [Bytes] *)
Definition ENOENT : Z := -2.
Definition ENODATA : Z := -61.
Definition ENOPKG : Z := -65.
Definition ENOKEY : Z := -126.
Definition EKEYREJECTED : Z := -129.

(** lc_memcmp_secure(a, |a|, b, |b|) == 0, with the model of
    internal/src/memcmp_secure_c.c (addresses: both aligned). *)
Definition cmp_eq (a b : list Z) : bool := UtilModel.lc_memcmp_secure 0 a 0 b =? 0.

(** ** asymmetric_type.c *)
(** struct lc_asymmetric_key_id [asn1/api/lc_x509_common.h: 70-75]:
    one byte of length, 64 + 128 bytes of data *)
Definition KID_DATA : nat := 192.
Record kid := { k_len : Z; k_data : list Z }.
Definition kid0 : kid := {| k_len := 0; k_data := repeat 0 KID_DATA |}.
(** the identifier the structure stands for *)
Definition kid_val (k : kid) : list Z := firstn (Z.to_nat (k_len k)) (k_data k).

Definition opt_bytes (o : option (list Z)) : list Z := match o with Some l => l | None => [] end.
(** asymmetric_key_generate_id [43-63].  The lengths that occur are lengths
    of buffers, so len_1 + len_2 does not wrap; [k] is the previous content. *)
Definition generate_id (k : kid) (v1 v2 : option (list Z)) : Z * kid :=
  let len := (length (opt_bytes v1) + length (opt_bytes v2))%nat in
  if (KID_DATA <? len)%nat then (EOVERFLOW, k)
  else (0, {| k_len := Z.of_nat len mod 256;
              k_data := opt_bytes v1 ++ opt_bytes v2 ++ skipn len (k_data k) |}).
(** asymmetric_key_id_same [69-77]; the first length argument is kid2->len *)
Definition id_same (k1 k2 : kid) : bool :=
  cmp_eq (firstn (Z.to_nat (k_len k2)) (k_data k1)) (firstn (Z.to_nat (k_len k2)) (k_data k2)).
(** asymmetric_key_id_partial [84-94] *)
Definition id_partial (k1 k2 : kid) : bool :=
  if k_len k1 <? k_len k2 then false
  else cmp_eq (firstn (Z.to_nat (k_len k2)) (skipn (Z.to_nat (k_len k1 - k_len k2)) (k_data k1)))
              (firstn (Z.to_nat (k_len k2)) (k_data k2)).

(** ** Certificate data *)
(** enum lc_sig_types [asn1/api/lc_x509_common.h: 77-118] *)
Definition SIG_UNKNOWN := 0.
Definition SIG_DILITHIUM_44 := 1.
Definition SIG_DILITHIUM_65 := 2.
Definition SIG_DILITHIUM_87 := 3.
Definition SIG_DILITHIUM_44_ED25519 := 4.
Definition SIG_DILITHIUM_65_ED25519 := 5.
Definition SIG_DILITHIUM_87_ED25519 := 6.
Definition SIG_DILITHIUM_87_ED448 := 7.
Definition SIG_SPHINCS_256S := 8.
Definition SIG_SPHINCS_256F := 9.
Definition SIG_SPHINCS_192S := 10.
Definition SIG_SPHINCS_192F := 11.
Definition SIG_SPHINCS_128S := 12.
Definition SIG_SPHINCS_128F := 13.

(** flags [asn1/api/lc_x509_common.h: 132-163] *)
Definition KU_KEYCERTSIGN := 4.
Definition KU_CRLSIGN := 2.
Definition KU_CRITICAL := 16384.
Definition KU_PRESENT := 8192.
Definition EKU_CRITICAL := 2.
Definition EKU_PRESENT := 4.
Definition CA_CRITICAL := 128.
Definition CA_MAXLEN := 16.
Definition CA_MASK := 31.

(** struct lc_public_key [asn1/api/lc_x509_common.h: 120-166], the fields
    used by the modelled code *)
Record pubkey := { pk_key : list Z; pk_algo : Z; pk_usage : Z; pk_eku : Z; pk_pathlen : Z }.
(** struct lc_public_key_signature [171-205]; [s_digest] are the first
    digest_size bytes of digest; [s_hash] the hash_algo pointer *)
Record sigdata := { s_s : option (list Z); s_digest : list Z; s_hash : option Z; s_algo : Z;
                    s_raw : option (list Z); s_auth0 : kid; s_auth1 : kid }.
(** struct lc_x509_certificate [237-298], the fields used by the modelled
    code that are fixed once parsing is finished; the fields written during
    verification (seen, signer, blacklisted) are state in [Pkcs7Model] *)
Record cert := { c_pub : pubkey; c_sig : sigdata; c_id : kid; c_skid : kid;
                 c_from : Z; c_to : Z;
                 c_raw_issuer : option (list Z); c_raw_subject : option (list Z);
                 c_san_dns : option (list Z); c_san_ip : option (list Z);
                 c_raw_skid : option (list Z); c_raw_akid : option (list Z);
                 c_version : Z; c_self_signed : bool; c_unsupported : bool }.
Definition upd_self (c : cert) (v u : bool) : cert :=
  {| c_pub := c_pub c; c_sig := c_sig c; c_id := c_id c; c_skid := c_skid c; c_from := c_from c; c_to := c_to c;
     c_raw_issuer := c_raw_issuer c; c_raw_subject := c_raw_subject c; c_san_dns := c_san_dns c; c_san_ip := c_san_ip c;
     c_raw_skid := c_raw_skid c; c_raw_akid := c_raw_akid c; c_version := c_version c;
     c_self_signed := v; c_unsupported := u |}.

(** ** x509_policies.c *)
(** [asn1/api/lc_x509_parser.h: 571-574] *)
Definition POL_TRUE := 1.
Definition POL_FALSE := 0.
Definition flag (v m : Z) : bool := negb (Z.land v m =? 0).
(** CKINT [internal/api/ret_checkers.h: 29-34] followed by
    "if (ret != LC_X509_POL_TRUE) return ret;": both exits return [r]. *)
Definition pol_and (r : Z) (rest : Z) : Z := if r =? POL_TRUE then rest else r.

(** lc_509_policy_cert_contains_signature [28-40]; "sig->s && sig->s_size" *)
Definition contains_signature (c : cert) : Z :=
  match s_s (c_sig c) with Some (_ :: _) => POL_TRUE | _ => POL_FALSE end.
(** lc_x509_policy_version_ge [42-53] *)
Definition version_ge (c : cert) (v : Z) : Z := if v <=? c_version c then POL_TRUE else POL_FALSE.
(** lc_x509_policy_cert_valid [350-376] *)
Definition cert_valid (c : option cert) : Z :=
  match c with
  | None => EINVAL
  | Some c =>
    if (length (opt_bytes (c_raw_skid c)) =? 0)%nat then POL_FALSE
    else match c_raw_subject c, c_san_dns c, c_san_ip c with
         | None, None, None => POL_FALSE
         | _, _, _ => POL_TRUE
         end
  end.
(** lc_x509_policy_is_ca [55-110] *)
Definition is_ca (c : option cert) : Z :=
  match c with
  | None => EINVAL
  | Some c =>
    let pub := c_pub c in
    pol_and (cert_valid (Some c))
      (if (length (opt_bytes (c_raw_skid c)) =? 0)%nat then POL_FALSE
       else if flag (pk_usage pub) KU_PRESENT && negb (flag (pk_usage pub) KU_KEYCERTSIGN) then POL_FALSE
       else if flag (pk_pathlen pub) CA_MASK && negb (flag (pk_pathlen pub) CA_CRITICAL) then POL_FALSE
       else pol_and (version_ge c 3)
              (pol_and (contains_signature c)
                 (if flag (pk_pathlen pub) CA_MASK then POL_TRUE else POL_FALSE)))
  end.
(** lc_x509_policy_is_selfsigned [112-122] *)
Definition is_selfsigned (c : option cert) : Z :=
  match c with None => EINVAL | Some c => if c_self_signed c then POL_TRUE else POL_FALSE end.
(** lc_x509_policy_match_akid [176-211]: is_ca is called in every case and
    only a negative result leaves; "-LC_X509_POL_FALSE" is 0. *)
Definition match_akid (c : option cert) (reference : option (list Z)) : Z :=
  match c with
  | None => EINVAL
  | Some c =>
    match reference with
    | None => POL_FALSE
    | Some rf =>
      let r := is_ca (Some c) in
      if r <? 0 then r
      else let akid := match c_raw_akid c with
                       | Some a => Some a
                       | None => if r =? POL_TRUE then c_raw_skid c else None
                       end in
           match akid with
           | None => - POL_FALSE
           | Some a => if cmp_eq a rf then POL_TRUE else POL_FALSE
           end
    end
  end.
(** lc_x509_policy_match_skid [213-248]; the branch for a missing SKID reads
    the SKID again *)
Definition match_skid (c : option cert) (reference : option (list Z)) : Z :=
  match c with
  | None => EINVAL
  | Some c =>
    match reference with
    | None => POL_FALSE
    | Some rf =>
      let r := is_ca (Some c) in
      if r <? 0 then r
      else match c_raw_skid c with
           | None => - POL_FALSE
           | Some a => if cmp_eq a rf then POL_TRUE else POL_FALSE
           end
    end
  end.
(** lc_x509_policy_is_root_ca [124-152] *)
Definition is_root_ca (c : option cert) : Z :=
  match c with
  | None => EINVAL
  | Some c =>
    let rest := pol_and (is_ca (Some c)) (is_selfsigned (Some c)) in
    match c_raw_akid c with
    | Some _ => pol_and (match_akid (Some c) (c_raw_skid c)) rest
    | None => rest
    end
  end.
(** lc_x509_policy_can_validate_crls [154-174] *)
Definition can_validate_crls (c : option cert) : Z :=
  match c with
  | None => EINVAL
  | Some c => if flag (pk_usage (c_pub c)) KU_PRESENT && negb (flag (pk_usage (c_pub c)) KU_CRLSIGN)
              then POL_FALSE else POL_TRUE
  end.
(** lc_x509_policy_match_key_usage [250-280]; uint16_t arithmetic *)
Definition match_key_usage (c : option cert) (required : Z) : Z :=
  match c with
  | None => EINVAL
  | Some c =>
    if required =? 0 then POL_TRUE
    else let u := pk_usage (c_pub c) in
         if negb (flag u KU_PRESENT) then POL_FALSE
         else if Z.land (Z.land u (65535 - KU_PRESENT)) required =? required then POL_TRUE else POL_FALSE
  end.
(** lc_x509_policy_match_extended_key_usage [282-314] *)
Definition match_eku (c : option cert) (required : Z) : Z :=
  match c with
  | None => EINVAL
  | Some c =>
    if required =? 0 then POL_TRUE
    else let u := pk_eku (c_pub c) in
         if negb (flag u EKU_PRESENT) then POL_FALSE
         else if Z.land (Z.land u (65535 - EKU_PRESENT)) required =? required then POL_TRUE else POL_FALSE
  end.
(** lc_x509_policy_time_valid [316-348] *)
Definition time_valid (c : option cert) (now : Z) : Z :=
  match c with
  | None => EINVAL
  | Some c =>
    if now <? 0 then EINVAL
    else if (c_from c <? 0) || (c_to c <? 0) then POL_FALSE
    else if negb (c_from c =? 0) && (now <? c_from c) then POL_FALSE
    else if negb (c_to c =? 0) && (c_to c <? now) then POL_FALSE
    else POL_TRUE
  end.

(** ** public_key.c and x509_public_key.c *)
Section Verify.
  (** What public_key_verify_signature_dilithium (1), _dilithium_ed25519 (2)
      and _sphincs (3 = fast, 4 = small) return for a key and a signature. *)
  Variable alg_verify : Z -> pubkey -> sigdata -> Z.
  (** lc_x509_sig_check_hash (x509_algorithm_mapper.c 211-297) *)
  Variable sig_check_hash : Z -> Z -> Z.

  (** public_key_verify_signature [public_key.c: 57-122], both pointers
      non-NULL *)
  Definition verify_signature (pk : pubkey) (s : sigdata) : Z :=
    match s_s s with
    | None => EFAULT
    | Some _ =>
      if (SIG_UNKNOWN <? s_algo s) && negb (pk_algo pk =? s_algo s) then EKEYREJECTED
      else
        let chk := match s_hash s with Some h => sig_check_hash (pk_algo pk) h | None => 0 end in
        if chk <? 0 then chk
        else
          let a := pk_algo pk in
          if (a =? SIG_DILITHIUM_44) || (a =? SIG_DILITHIUM_65) || (a =? SIG_DILITHIUM_87)
          then alg_verify 1 pk s
          else if (a =? SIG_DILITHIUM_44_ED25519) || (a =? SIG_DILITHIUM_65_ED25519) || (a =? SIG_DILITHIUM_87_ED25519)
          then alg_verify 2 pk s
          else if (a =? SIG_SPHINCS_128F) || (a =? SIG_SPHINCS_192F) || (a =? SIG_SPHINCS_256F)
          then alg_verify 3 pk s
          else if (a =? SIG_SPHINCS_128S) || (a =? SIG_SPHINCS_192S) || (a =? SIG_SPHINCS_256S)
          then alg_verify 4 pk s
          else ENOPKG
    end.

  (** lc_x509_policy_cert_verify [x509_policies.c: 378-420] with
      CKINT_SIGCHECK = CKINT (public_key.h 48, the non-debug build).
      [clock] = return code and value of lc_get_time. *)
  Definition cert_verify (clock : Z * Z) (pk : pubkey) (c : cert) : Z :=
    let '(rc, now) := clock in
    if negb (rc =? EOPNOTSUPP) && negb (rc =? 0) then rc
    else
      let now := if rc =? EOPNOTSUPP then 0 else now in
      if now =? 0 then verify_signature pk (c_sig c)
      else
        let r := time_valid (Some c) now in
        if r <? 0 then r
        else if r =? POL_FALSE then EKEYREJECTED
        else verify_signature pk (c_sig c).

  (** x509_check_for_self_signed [x509_public_key.c: 131-186] (non-debug);
      result: return code and the certificate afterwards *)
  Definition check_self_signed (c : cert) : Z * cert :=
    if negb (cmp_eq (opt_bytes (c_raw_subject c)) (opt_bytes (c_raw_issuer c))) then (0, c)
    else
      let auth0 := s_auth0 (c_sig c) in let auth1 := s_auth1 (c_sig c) in
      let try_own :=
        if c_unsupported c then (0, c)
        else
          let r := verify_signature (c_pub c) (c_sig c) in
          if r <? 0 then (if r =? ENOPKG then (0, upd_self c (c_self_signed c) true) else (r, c))
          else (r, upd_self c true (c_unsupported c)) in
      if negb (k_len auth0 =? 0) || negb (k_len auth1 =? 0) then
        let a := id_same (c_skid c) auth1 in
        let b := id_same (c_id c) auth0 in
        if negb a && negb b then (0, c)
        else if ((a && negb b) || (b && negb a)) && negb (k_len auth0 =? 0) && negb (k_len auth1 =? 0)
        then (EKEYREJECTED, c)
        else try_own
      else try_own.
End Verify.

(** ** x509_cert_parser.c: extension handlers *)
(** struct x509_parse_context [x509_cert_parser.h], the extension part, with
    the public key being filled *)
Record xctx := { x_crit : bool; x_pub : pubkey }.
Definition set_usage (p : pubkey) (u : Z) : pubkey :=
  {| pk_key := pk_key p; pk_algo := pk_algo p; pk_usage := u; pk_eku := pk_eku p; pk_pathlen := pk_pathlen p |}.
Definition set_eku (p : pubkey) (u : Z) : pubkey :=
  {| pk_key := pk_key p; pk_algo := pk_algo p; pk_usage := pk_usage p; pk_eku := u; pk_pathlen := pk_pathlen p |}.
Definition set_pathlen (p : pubkey) (u : Z) : pubkey :=
  {| pk_key := pk_key p; pk_algo := pk_algo p; pk_usage := pk_usage p; pk_eku := pk_eku p; pk_pathlen := u |}.
(** x509_extension_critical [575-590] *)
Definition extension_critical (x : xctx) (v : list Z) : Z * xctx :=
  match v with
  | [b] => (0, {| x_crit := b =? 255; x_pub := x_pub x |})
  | _ => (EBADMSG, x)
  end.
(** x509_basic_constraints_ca [670-690]; ASN1_TRUE = 0xff [asn1.h] *)
Definition basic_constraints_ca (x : xctx) (v : list Z) : Z * xctx :=
  match v with
  | [b] =>
    let crit := b =? 255 in
    (0, {| x_crit := crit;
           x_pub := set_pathlen (x_pub x)
                      (Z.lor (if b =? 255 then CA_MAXLEN else 0) (if crit then CA_CRITICAL else 0)) |})
  | _ => (EBADMSG, x)
  end.
(** x509_basic_constraints_pathlen [692-723] *)
Definition basic_constraints_pathlen (x : xctx) (v : list Z) : Z * xctx :=
  match v with
  | [b] =>
    if b =? 0 then (0, x)
    else (0, {| x_crit := x_crit x;
                x_pub := set_pathlen (x_pub x)
                           (Z.lor (Z.land (pk_pathlen (x_pub x)) (255 - CA_MAXLEN)) (Z.min CA_MAXLEN b)) |})
  | _ => (EBADMSG, x)
  end.
(** x509_keyusage [725-757]; be_bswap16 (internal/api/conv_be_le.h 72-112)
    exchanges the two bytes on a little-endian host and is the identity on a
    big-endian one ([big]) *)
Definition bswap16 (v : Z) : Z := Z.lor (Z.shiftr v 8) (Z.shiftl v 8 mod 65536).
Definition keyusage_on (big : bool) (x : xctx) (v : list Z) : Z * xctx :=
  if (2 <? length v)%nat || (length v =? 0)%nat then (EBADMSG, x)
  else
    let u := nth 0 v 0 in
    let u := if (length v =? 2)%nat then Z.lor u (Z.shiftl (nth 1 v 0) 8 mod 65536) else u in
    let u := if big then u else bswap16 u in
    let u := Z.lor u (if x_crit x then KU_CRITICAL else 0) in
    (0, {| x_crit := x_crit x; x_pub := set_usage (x_pub x) (Z.lor u KU_PRESENT) |}).
(** the little-endian host is the one used below *)
Definition keyusage : xctx -> list Z -> Z * xctx := keyusage_on false.
(** x509_eku [595-625] after the OID lookup: [e] = lc_x509_cert_oid_to_eku,
    [None] = -ENOENT *)
Definition eku_handler (x : xctx) (e : option Z) : Z * xctx :=
  match e with
  | None => (ENOENT, x)
  | Some e =>
    (0, {| x_crit := x_crit x;
           x_pub := set_eku (x_pub x)
                      (Z.lor (Z.lor (Z.lor (pk_eku (x_pub x)) e) (if x_crit x then EKU_CRITICAL else 0)) EKU_PRESENT) |})
  end.
(** One extension as the generated decoder (x509.asn1: critical BOOLEAN
    DEFAULT, then the value) presents it to the handlers: the criticality
    handler runs only when the BOOLEAN is encoded. *)
Inductive ext_body :=
| Ext_basic (ca pathlen : option (list Z))
| Ext_usage (bits : list Z)
| Ext_eku (purposes : list (option Z))
| Ext_other.
Record ext := { e_crit : option (list Z); e_body : ext_body }.
Definition opt_step (f : xctx -> list Z -> Z * xctx) (x : xctx) (o : option (list Z)) : Z * xctx :=
  match o with None => (0, x) | Some v => f x v end.
Definition then_ (r : Z * xctx) (k : xctx -> Z * xctx) : Z * xctx :=
  let '(rc, x) := r in if rc <? 0 then (rc, x) else k x.
(** x509_process_extension [792-838] with x509_basic_constraints.asn1,
    x509_keyusage.asn1, x509_eku.asn1 *)
Definition process_body (x : xctx) (b : ext_body) : Z * xctx :=
  match b with
  | Ext_basic ca pl => then_ (opt_step basic_constraints_ca x ca) (fun x => opt_step basic_constraints_pathlen x pl)
  | Ext_usage v => keyusage x v
  | Ext_eku l => fold_left (fun r e => then_ r (fun x => eku_handler x e)) l (0, x)
  | Ext_other => (0, x)
  end.
Definition process_ext (x : xctx) (e : ext) : Z * xctx :=
  then_ (opt_step extension_critical x (e_crit e)) (fun x => process_body x (e_body e)).
Definition process_exts (x : xctx) (l : list ext) : Z * xctx :=
  fold_left (fun r e => then_ r (fun x => process_ext x e)) l (0, x).

(** ** x509_cert_parser.c: names *)
(** LC_ASN1_MAX_ISSUER_NAME [asn1/api/lc_x509_common.h: 70]; the name
    buffers issuer and subject have one byte more [284-286] *)
Definition MAX_NAME : Z := 128.
(** x509_extract_name_segment [248-305] for commonName: what the context
    remembers of a value of [vlen] bytes at offset [off] of the certificate:
    (uint8_t)vlen and (uint16_t)(value - ctx->data) *)
Definition note_segment (off vlen : Z) : Z * Z := (vlen mod 256, off mod 65536).
Record nctx := { n_cn : Z * Z; n_o : Z * Z; n_email : Z * Z }.   (* (size, offset) *)
Definition slice_z (data : list Z) (off len : Z) : list Z := firstn (Z.to_nat len) (skipn (Z.to_nat off) data).
(** Result of x509_fabricate_name: the return code and the C string stored
    ([None] = the buffer is left as it was). *)
(** x509_fabricate_name [327-429], the part for an issuer or for a subject
    without alternative names *)
Definition fabricate_name (data : list Z) (n : nctx) : Z * option (list Z) :=
  let '(cs, co) := n_cn n in let '(os, oo) := n_o n in let '(es, eo) := n_email n in
  let single size off :=
    if MAX_NAME <? size then (EOVERFLOW, None) else (0, Some (slice_z data off size)) in
  if (cs =? 0) && (os =? 0) && (es =? 0) then (0, Some [])
  else if negb (cs =? 0) && negb (os =? 0) then
    if (os <=? cs) && cmp_eq (slice_z data co cs) (slice_z data oo os) then single cs co
    else if (7 <=? cs) && (7 <=? os) && cmp_eq (slice_z data co 7) (slice_z data oo 7) then single cs co
    else if MAX_NAME <? os + 2 + cs + 1 then (EOVERFLOW, None)
    else (0, Some (slice_z data oo os ++ [58; 32] ++ slice_z data co cs))
  else if negb (cs =? 0) then single cs co
  else if negb (os =? 0) then single os oo
  else single es eo.

(** ** x509_cert_parser.c: times *)
Definition ASN1_UNITIM : Z := 23.   (* asn1.h *)
Definition ASN1_GENTIM : Z := 24.
(** dec2bin, DD2bin [883-896]: (unsigned char)(X - '0'), refused above 9 *)
Definition dec2bin (x : Z) : option Z := let xx := (x - 48) mod 256 in if 9 <? xx then None else Some xx.
Definition DD2bin (l : list Z) : option (Z * list Z) :=
  match l with
  | a :: b :: r => match dec2bin a with
                   | Some x => match dec2bin b with Some y => Some (x * 10 + y, r) | None => None end
                   | None => None
                   end
  | _ => None
  end.
(** mktime64 [851-874]; year, mon unsigned int *)
Definition mktime64 (year0 mon0 day hour min sec : Z) : Z :=
  let mon := mon0 - 2 in
  let '(mon, year) := if mon <=? 0 then (mon + 12, year0 - 1) else (mon, year0) in
  ((((year / 4 - year / 100 + year / 400 + 367 * mon / 12 + day) + year * 365 - 719499) * 24 + hour) * 60 + min) * 60 + sec.
(** month_lengths and the leap rule [879-880, 933-943] *)
Definition month_lengths : list Z := [31; 28; 31; 30; 31; 30; 31; 31; 30; 31; 30; 31].
Definition mon_len (year mon : Z) : Z :=
  let l := nth (Z.to_nat (mon - 1)) month_lengths 0 in
  if mon =? 2 then
    if year mod 4 =? 0 then
      if year mod 100 =? 0 then (if year mod 400 =? 0 then 29 else 28) else 29
    else l
  else l.
(** the part of x509_decode_time after the year [923-955] *)
Definition decode_rest (year : Z) (v : list Z) : Z * option Z :=
  match DD2bin v with None => (EBADMSG, None) | Some (mon, v) =>
  match DD2bin v with None => (EBADMSG, None) | Some (day, v) =>
  match DD2bin v with None => (EBADMSG, None) | Some (hour, v) =>
  match DD2bin v with None => (EBADMSG, None) | Some (min, v) =>
  match DD2bin v with None => (EBADMSG, None) | Some (sec, v) =>
    if negb (nth 0 v 0 =? 90) then (EBADMSG, None)
    else if (year <? 1970) || (mon <? 1) || (12 <? mon) then (EBADMSG, None)
    else if (day <? 1) || (mon_len year mon <? day) || (24 <? hour) || (59 <? min) || (60 <? sec) then (EBADMSG, None)
    else (0, Some (mktime64 year mon day hour min sec))
  end end end end end.
(** x509_decode_time [876-966]: return code and the time stored.  In the
    GeneralizedTime branch the two operands of the sum both advance value;
    they are taken left to right. *)
Definition decode_time (tag : Z) (v : list Z) : Z * option Z :=
  if tag =? ASN1_UNITIM then
    if negb (length v =? 13)%nat then (EBADMSG, None)
    else match DD2bin v with
         | None => (EBADMSG, None)
         | Some (yy, v) => decode_rest (if 50 <=? yy then yy + 1900 else yy + 2000) v
         end
  else if tag =? ASN1_GENTIM then
    if negb (length v =? 15)%nat then (EBADMSG, None)
    else match DD2bin v with
         | None => (EBADMSG, None)
         | Some (cc, v) =>
           match DD2bin v with
           | None => (EBADMSG, None)
           | Some (yy, v) =>
             let year := cc * 100 + yy in
             if (1950 <=? year) && (year <=? 2049) then (EBADMSG, None) else decode_rest year v
           end
         end
  else (EBADMSG, None).

(** ** x509_cert_generator.c: times *)
(** broken-down time as gmtime(3) returns it: tm_year is the year - 1900,
    tm_mon the month - 1 *)
Record tm := { tm_year : Z; tm_mon : Z; tm_mday : Z; tm_hour : Z; tm_min : Z; tm_sec : Z }.
(** "%02d" / "%.4d" of a number with at most that many digits *)
Definition print2 (n : Z) : list Z := [48 + n / 10; 48 + n mod 10].
Definition print4 (n : Z) : list Z := print2 (n / 100) ++ print2 (n mod 100).
Record gctx := { g_time : Z; g_set : bool }.
Section Gen.
  Variable gmtime : Z -> tm.
  Variables valid_from valid_to : Z.
  (** The handlers below return the code, the bytes written and the context;
      the available space is taken to be sufficient. *)
  (** x509_set_uct_time_enc [1058-1118] *)
  Definition uct_enc (g : gctx) : Z * list Z * gctx :=
    if g_set g then (0, [], g)
    else
      let t := if g_time g =? 0 then valid_from else valid_to in
      if 2524608000 <=? t then (0, [], g)
      else let d := gmtime t in
           (0, print2 (tm_year d mod 100) ++ print2 (tm_mon d + 1) ++ print2 (tm_mday d) ++ print2 (tm_hour d)
               ++ print2 (tm_min d) ++ print2 (tm_sec d) ++ [90], {| g_time := t; g_set := true |}).
  (** x509_set_gen_time_enc [1120-1176] *)
  Definition gen_enc (g : gctx) : Z * list Z * gctx :=
    if g_set g then (0, [], g)
    else
      let t := if g_time g =? 0 then valid_from else valid_to in
      if t <? 2524608000 then (0, [], g)
      else let d := gmtime t in
           (0, print4 (tm_year d + 1900) ++ print2 (tm_mon d + 1) ++ print2 (tm_mday d) ++ print2 (tm_hour d)
               ++ print2 (tm_min d) ++ print2 (tm_sec d) ++ [90], {| g_time := t; g_set := true |}).
  (** x509_note_not_before_enc [1181-1201], x509_note_not_after_enc
      [1206-1226] *)
  Definition not_before_enc (g : gctx) : Z * gctx :=
    if negb (g_time g =? valid_from) then (EFAULT, g) else (0, {| g_time := g_time g; g_set := false |}).
  Definition not_after_enc (g : gctx) : Z * gctx :=
    if negb (g_time g =? valid_to) then (EFAULT, g) else (0, {| g_time := g_time g; g_set := false |}).
  (** One Time ::= CHOICE { utcTime, generalTime } of x509.asn1 with its
      action: result code, the element (tag, content), context.  An element
      for which no byte is written is not emitted by the encoder. *)
  Definition time_enc (fin : gctx -> Z * gctx) (g : gctx) : Z * list (Z * list Z) * gctx :=
    let '(_, u, g1) := uct_enc g in
    let '(_, v, g2) := gen_enc g1 in
    let '(rc, g3) := fin g2 in
    (rc, (match u with [] => [] | _ => [(ASN1_UNITIM, u)] end) ++ (match v with [] => [] | _ => [(ASN1_GENTIM, v)] end), g3).
  (** Validity ::= SEQUENCE { notBefore, notAfter } *)
  Definition validity_enc : Z * list (Z * list Z) * list (Z * list Z) :=
    let '(rc, a, g) := time_enc not_before_enc {| g_time := 0; g_set := false |} in
    if rc <? 0 then (rc, a, [])
    else let '(rc, b, _) := time_enc not_after_enc g in (rc, a, b).
End Gen.
