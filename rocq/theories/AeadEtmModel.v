(** Model of the encrypt-then-MAC AEADs: aead/src/cshake_crypt.c, kmac_crypt.c, hash_crypt.c, symhmac.c, symkmac.c
    behind aead/src/aead_api.c. The five files repeat the same code around a cipher and a MAC; the repeated part is
    [etm_*] below, with the line numbers of each file. in and out are equal or do not overlap. Self tests and
    (un)poison are left out; memory allocation in decrypt_authenticate succeeds. *)
From Verif Require Import Bytes Words UtilModel Sha2Model HashIface Sha3Model KeccakBytes KmacModel MacSpec MacModel
  DrbgSpec DrbgModel AesModel ModesModel.

(** ** The part common to the five files *)
Section Etm.
  Variables (C M : Type).
  Variable enc dec : C -> list Z -> list Z * C.
  Variable mupd : M -> list Z -> M.
  (** encrypt_tag: the bytes written at the start of the tag buffer of the given size, and the MAC afterwards *)
  Variable mtag : M -> nat -> list Z * M.
  (** decrypt_authenticate: None = -EINVAL, Some n = number of bytes compared *)
  Variable cap : nat -> option nat.

  (** add_aad [cshake_crypt.c: 481-490; kmac_crypt.c: 412-421; hash_crypt.c: 161-168; symhmac.c: 136-143; symkmac.c: 138-145] *)
  Definition etm_aad (s : C * M) (aad : list Z) : C * M := (fst s, mupd (snd s) aad).
  (** encrypt [cshake_crypt.c: 538-556; kmac_crypt.c: 469-487; hash_crypt.c: 196-208; symhmac.c: 192-214; symkmac.c: 177-199] *)
  Definition etm_enc (s : C * M) (pt : list Z) : list Z * (C * M) :=
    let '(ct, c) := enc (fst s) pt in (ct, (c, mupd (snd s) ct)).
  (** decrypt [cshake_crypt.c: 558-575; kmac_crypt.c: 489-506; hash_crypt.c: 210-222; symhmac.c: 216-236; symkmac.c: 201-220] *)
  Definition etm_dec (s : C * M) (ct : list Z) : list Z * (C * M) :=
    let m := mupd (snd s) ct in
    let '(pt, c) := dec (fst s) ct in (pt, (c, m)).
  (** encrypt_tag [cshake_crypt.c: 492-507; kmac_crypt.c: 423-438; hash_crypt.c: 172-194; symhmac.c: 145-164;
      symkmac.c: 147-154]: [buf] is the old content of the tag buffer, whose tail may stay. *)
  Definition etm_tag (s : C * M) (buf : list Z) : list Z * (C * M) :=
    let '(t, m) := mtag (snd s) (length buf) in (t ++ skipn (length t) buf, (fst s, m)).
  (** decrypt_authenticate [cshake_crypt.c: 509-536; kmac_crypt.c: 440-467; hash_crypt.c: 242-261; symhmac.c: 166-190;
      symkmac.c: 156-175]: [stack] is the old content of calctag, [p1] [p2] the addresses compared. *)
  Definition etm_auth (stack : nat -> list Z) (p1 p2 : Z) (s : C * M) (tag : list Z) : Z * (C * M) :=
    match cap (length tag) with
    | None => (-22, s)
    | Some n =>
        let '(calc, s) := etm_tag s (stack n) in
        (if lc_memcmp_secure p1 calc p2 (firstn n tag) =? 0 then 0 else -74, s)
    end.

  (** Streams of calls [aead_api.c: 92-231]: init with the AAD, updates, final. *)
  Fixpoint etm_encs (s : C * M) (ps : list (list Z)) : list (list Z) * (C * M) :=
    match ps with
    | [] => ([], s)
    | p :: ps' => let '(c, s) := etm_enc s p in let '(cs, s) := etm_encs s ps' in (c :: cs, s)
    end.
  Fixpoint etm_decs (s : C * M) (cs : list (list Z)) : list (list Z) * (C * M) :=
    match cs with
    | [] => ([], s)
    | c :: cs' => let '(p, s) := etm_dec s c in let '(ps, s) := etm_decs s cs' in (p :: ps, s)
    end.
  Definition etm_encrypt_stream (s : C * M) (aad : list Z) (ps : list (list Z)) (buf : list Z) :
      list (list Z) * list Z :=
    let '(cs, s) := etm_encs (etm_aad s aad) ps in
    (cs, fst (etm_tag s buf)).
  Definition etm_decrypt_stream (stack : nat -> list Z) (p1 p2 : Z) (s : C * M) (aad : list Z) (cs : list (list Z))
      (tag : list Z) : list (list Z) * Z :=
    let '(ps, s) := etm_decs (etm_aad s aad) cs in
    (ps, fst (etm_auth stack p1 p2 s tag)).
  (** lc_aead_encrypt [aead_api.c: 69-90] with the oneshot functions [cshake_crypt.c: 577-592 etc.]: one update. The
      return value is 0 whatever the void callback did. *)
  Definition etm_encrypt (s : C * M) (aad pt buf : list Z) : Z * list Z * list Z :=
    let '(ct, s) := etm_enc (etm_aad s aad) pt in (0, ct, fst (etm_tag s buf)).
  Definition etm_decrypt (stack : nat -> list Z) (p1 p2 : Z) (s : C * M) (aad ct tag : list Z) : Z * list Z :=
    let '(pt, s) := etm_dec (etm_aad s aad) ct in (fst (etm_auth stack p1 p2 s tag), pt).
End Etm.

(** ** Keystream buffer: struct lc_cc_cryptor, lc_kc_cryptor, lc_hc_cryptor *)
Record ks (X : Type) := mkKS { ks_gen : X; ks_buf : list Z; ks_ptr : nat }.
Section Ks.
  Variable X : Type.
  Variable next : X -> list Z * X.
  Variable B : nat.
  (** lc_cc_crypt [cshake_crypt.c: 448-479], lc_kc_crypt [kmac_crypt.c: 377-410], lc_hc_crypt [hash_crypt.c: 124-159];
      [f] bounds the iterations (every iteration consumes a byte when B > 0). In lc_hc_crypt the early return on a
      failed lc_rng_generate is left out: 64 bytes without additional input never fail ([hc_next_ok] in AeadEtmTop). *)
  Fixpoint ks_crypt (f : nat) (s : ks X) (inp : list Z) : list Z * ks X :=
    match f with
    | O => ([], s)
    | S f' =>
        if (length inp =? 0)%nat then ([], s)
        else
          let s := if (B <=? ks_ptr X s)%nat then let '(o, x) := next (ks_gen X s) in mkKS X x o 0 else s in
          let todo := Nat.min (Nat.min (length inp) B) (B - ks_ptr X s) in
          let out := xorl (firstn todo inp) (slice (ks_buf X s) (ks_ptr X s) todo) in
          let '(r, s') := ks_crypt f' (mkKS X (ks_gen X s) (ks_buf X s) (ks_ptr X s + todo)) (skipn todo inp) in
          (out ++ r, s')
    end.
  Definition ks_run (s : ks X) (inp : list Z) : list Z * ks X := ks_crypt (length inp) s inp.
End Ks.

(** "cSHAKE-AEAD crypt" and "cSHAKE-AEAD auth" [cshake_crypt.c: 328-330] *)
Definition cc_crypt_str : list Z := [99;83;72;65;75;69;45;65;69;65;68;32;99;114;121;112;116].
Definition cc_auth_str : list Z := [99;83;72;65;75;69;45;65;69;65;68;32;97;117;116;104].

(** ** cshake_crypt.c *)
(** struct lc_cshake_ctx with reinit support [hash/api/lc_cshake.h: 88-91] *)
Record csctx := mkCS { cs_h : hctx; cs_shadow : kctx }.
(** [hash/src/cshake.c: 86-139] *)
Definition cs_ctx_init (c : csctx) (n s : list Z) : csctx :=
  let h := cshake_init permB (cs_h c) n s in mkCS h (hc_st h).
Definition cs_ctx_reinit (c : csctx) : csctx := mkCS (mkH (hc_alg (cs_h c)) (cs_shadow c)) (cs_shadow c).
Definition cs_ctx_update (c : csctx) (m : list Z) : csctx := mkCS (hh_update permB (cs_h c) m) (cs_shadow c).
(** encrypt_tag [cshake_crypt.c: 492-507] *)
Definition cc_tag (c : csctx) (n : nat) : list Z * csctx :=
  let '(t, h) := hh_xof permB (cs_h c) n in (t, cs_ctx_reinit (mkCS h (cs_shadow c))).
(** lc_hash_final with the digest size left at LC_CC_KEYSTREAM_BLOCK = 136 [cshake_crypt.c: 458-463] *)
Definition cc_next (h : hctx) : list Z * hctx := hh_xof permB h 136.
(** lc_cc_setkey [cshake_crypt.c: 405-446] *)
Definition cc_setkey (s : ks hctx * csctx) (key iv : list Z) : Z * (ks hctx * csctx) :=
  let h := cshake_init permB (ks_gen _ (fst s)) cc_crypt_str key in
  let h := hh_update permB h iv in
  let '(o, h) := hh_xof permB h 136 in
  let m := cs_ctx_init (snd s) cc_auth_str (firstn 32 o) in
  (0, (mkKS _ h o 32, m)).
Definition cc_crypt := ks_run hctx cc_next 136.
Definition cc_enc_stream := etm_encrypt_stream _ _ cc_crypt cs_ctx_update cc_tag.
Definition cc_dec_stream := etm_decrypt_stream _ _ cc_crypt cs_ctx_update cc_tag (fun n => Some n).
Definition cc_encrypt := etm_encrypt _ _ cc_crypt cs_ctx_update cc_tag.
Definition cc_decrypt := etm_decrypt _ _ cc_crypt cs_ctx_update cc_tag (fun n => Some n).

(** ** kmac_crypt.c *)
(** [kmac_crypt.c: 391-396] lc_kmac_final_xof of 136 bytes *)
Definition kc_next (c : kmctx) : list Z * kmctx := kmac_final_xof permB c 136.
(** encrypt_tag [kmac_crypt.c: 423-438] *)
Definition kc_tag (c : kmctx) (n : nat) : list Z * kmctx :=
  let '(t, c) := kmac_final_xof permB c n in (t, kmac_reinit c).
(** lc_kc_setkey [kmac_crypt.c: 341-375] *)
Definition kc_setkey (s : ks kmctx * kmctx) (key iv : list Z) : Z * (ks kmctx * kmctx) :=
  let c := kmac_init permB (ks_gen _ (fst s)) key iv in
  let '(o, c) := kmac_final_xof permB c 136 in
  let m := kmac_init permB (snd s) (firstn 32 o) [] in
  (0, (mkKS _ c o 32, m)).
Definition kc_crypt := ks_run kmctx kc_next 136.
Definition kc_enc_stream := etm_encrypt_stream _ _ kc_crypt (kmac_update permB) kc_tag.
Definition kc_dec_stream := etm_decrypt_stream _ _ kc_crypt (kmac_update permB) kc_tag (fun n => Some n).
Definition kc_encrypt := etm_encrypt _ _ kc_crypt (kmac_update permB) kc_tag.
Definition kc_decrypt := etm_decrypt _ _ kc_crypt (kmac_update permB) kc_tag (fun n => Some n).

(** ** hash_crypt.c: the SHA-512 Hash DRBG and HMAC over the hash [h]. *)
Section Hc.
  Variable h : hashops.
  Definition hc_step := hash_drbg_step sha512_ops 111.
  (** [hash_crypt.c: 136-140] *)
  Definition hc_next (d : hdst sha512_ops) : list Z * hdst sha512_ops :=
    let '(_, o, d) := hc_step d (RGen [] 64) in (o, d).
  (** encrypt_tag [hash_crypt.c: 172-194] *)
  Definition hc_tag (c : hmctx h) (n : nat) : list Z * hmctx h :=
    if (64 <? h_ds h)%nat then ([], c)
    else let '(t, c) := hmac_final h c in (if (n <? h_ds h)%nat then firstn n t else t, c).
  (** lc_hc_setkey [hash_crypt.c: 82-122] *)
  Definition hc_setkey (s : ks (hdst sha512_ops) * hmctx h) (key iv : list Z) : Z * (ks (hdst sha512_ops) * hmctx h) :=
    let '(k, m) := s in
    if (length key =? 0)%nat then (-22, s)
    else
      let '(rc, _, d) := hc_step (ks_gen _ k) (RSeed key iv) in
      if negb (rc =? 0) then (rc, (mkKS _ d (ks_buf _ k) (ks_ptr _ k), m))
      else
        let '(rc, o, d) := hc_step d (RGen [] 64) in
        if negb (rc =? 0) then (rc, (mkKS _ d o (ks_ptr _ k), m))
        else
          let m := hmac_init h m o in
          let '(rc, o, d) := hc_step d (RGen [] 64) in
          if negb (rc =? 0) then (rc, (mkKS _ d o (ks_ptr _ k), m))
          else (0, (mkKS _ d o 0, m)).
  Definition hc_cap (n : nat) : option nat := if (64 <? n)%nat then None else Some n.
  Definition hc_crypt := ks_run (hdst sha512_ops) hc_next 64.
  Definition hc_enc_stream := etm_encrypt_stream _ _ hc_crypt (hmac_update h) hc_tag.
  Definition hc_dec_stream := etm_decrypt_stream _ _ hc_crypt (hmac_update h) hc_tag hc_cap.
  Definition hc_encrypt := etm_encrypt _ _ hc_crypt (hmac_update h) hc_tag.
  Definition hc_decrypt := etm_decrypt _ _ hc_crypt (hmac_update h) hc_tag hc_cap.
End Hc.

(** ** The symmetric ciphers selectable in symhmac.c and symkmac.c: AES-CBC, AES-CTR, ChaCha20 (aes_cbc.c, aes_ctr.c,
    chacha20.c; ECB and KW are not modelled here). *)
Inductive sym := SCbc (c : aesctx) (iv : list Z) | SCtr (c : aesctx) (ctr : Z * Z) | SCc (st : cc20).
(** lc_sym_setkey, lc_sym_setiv after lc_sym_init; None = -EINVAL. The AES modes set the wrapped cipher at init. *)
Definition sym_setup (s : sym) (key iv : list Z) : option sym :=
  match s with
  | SCbc c _ => match mode_cbc_setiv iv with Some v => Some (SCbc (snd (aes_setkey c key)) v) | None => None end
  | SCtr c _ => match mode_ctr_setiv iv with Some v => Some (SCtr (snd (aes_setkey c key)) v) | None => None end
  | SCc st => match cc20_setkey (cc20_init st) key with
              | Some st => match cc20_setiv st iv with Some st => Some (SCc st) | None => None end
              | None => None
              end
  end.
(** sym_algo->blocksize [aes_cbc.c: 78; aes_ctr.c: 76; chacha20.c: 271] *)
Definition sym_bs (s : sym) : nat := match s with SCbc _ _ => 16 | SCtr _ _ => 1 | SCc _ => 1 end.
Definition enc1 (c : aesctx) (b : list Z) : list Z := aes_encrypt c b b.
Definition dec1 (c : aesctx) (b : list Z) : list Z := aes_decrypt c b b.
(** lc_sym_encrypt / lc_sym_decrypt into the buffer [out] *)
Definition sym_enc (s : sym) (inp out : list Z) : list Z * sym :=
  match s with
  | SCbc c iv => let '(o, iv) := mode_cbc_encrypt (enc1 c) iv inp out in (o, SCbc c iv)
  | SCtr c v => let '(o, v) := mode_ctr_crypt (enc1 c) v inp in (o, SCtr c v)
  | SCc st => let '(o, st) := cc20_crypt st inp in (o, SCc st)
  end.
Definition sym_dec (s : sym) (inp out : list Z) : list Z * sym :=
  match s with
  | SCbc c iv => let '(o, iv) := mode_cbc_decrypt (dec1 c) iv inp out in (o, SCbc c iv)
  | SCtr c v => let '(o, v) := mode_ctr_crypt (enc1 c) v inp in (o, SCtr c v)
  | SCc st => let '(o, st) := cc20_crypt st inp in (o, SCc st)
  end.
(** The bytes behind the last whole block are zeroed [symhmac.c: 201-207, 231-235; symkmac.c: 186-192, 216-219], so
    the old content of out does not matter. *)
Definition zero_trailing (bs : nat) (o : list Z) : list Z :=
  let t := (length o mod bs)%nat in firstn (length o - t) o ++ zeros t.
Definition sy_enc (s : sym) (inp : list Z) : list Z * sym :=
  let '(o, s') := sym_enc s inp inp in (zero_trailing (sym_bs s) o, s').
Definition sy_dec (s : sym) (inp : list Z) : list Z * sym :=
  let '(o, s') := sym_dec s inp inp in (zero_trailing (sym_bs s) o, s').

(** ** symhmac.c *)
Section Sh.
  Variable h : hashops.
  (** [symhmac.c: 145-164] *)
  Definition sh_tag (c : hmctx h) (n : nat) : list Z * hmctx h :=
    let '(t, c) := hmac_final h c in (if (n <? h_ds h)%nat then firstn n t else t, c).
  Definition sh_cap (n : nat) : option nat := Some (Nat.min n (h_ds h)).
  (** [symhmac.c: 107-134]; [hm]: memory of the HMAC context inside lc_hkdf. When setkey or setiv fail the cipher
      state is half set; it is kept here as it was, the caller gets the error. *)
  Definition sh_setkey (hm : hmctx sha512_ops) (s : sym * hmctx h) (key iv : list Z) : Z * (sym * hmctx h) :=
    let '(rc, k) := lc_hkdf sha512_ops hm key None None 64 in
    if negb (rc =? 0) then (rc, s)
    else match sym_setup (fst s) (firstn 32 k) iv with
         | None => (-22, s)
         | Some c => (0, (c, hmac_init h (snd s) (skipn 32 k)))
         end.
  Definition sh_enc_stream := etm_encrypt_stream _ _ sy_enc (hmac_update h) sh_tag.
  Definition sh_dec_stream := etm_decrypt_stream _ _ sy_dec (hmac_update h) sh_tag sh_cap.
  Definition sh_encrypt := etm_encrypt _ _ sy_enc (hmac_update h) sh_tag.
  Definition sh_decrypt := etm_decrypt _ _ sy_dec (hmac_update h) sh_tag sh_cap.
End Sh.

(** ** symkmac.c *)
(** [symkmac.c: 147-154] *)
Definition kh_tag (c : kmctx) (n : nat) : list Z * kmctx := kmac_final_xof permB c n.
Definition kh_cap (n : nat) : option nat := Some (Nat.min n 128).
(** lc_kmac_xof [kmac/src/kmac.c: 296-308] with no customization and no message *)
Definition kh_derive (c : kmctx) (key : list Z) : list Z :=
  fst (kmac_final_xof permB (kmac_update permB (kmac_init permB (mkKM (km_h c) None false) key []) []) 64).
(** [symkmac.c: 107-136] *)
Definition kh_setkey (s : sym * kmctx) (key iv : list Z) : Z * (sym * kmctx) :=
  let k := kh_derive (snd s) key in
  match sym_setup (fst s) (firstn 32 k) iv with
  | None => (-22, s)
  | Some c => (0, (c, kmac_init permB (snd s) (skipn 32 k) []))
  end.
Definition kh_enc_stream := etm_encrypt_stream _ _ sy_enc (kmac_update permB) kh_tag.
Definition kh_dec_stream := etm_decrypt_stream _ _ sy_dec (kmac_update permB) kh_tag kh_cap.
Definition kh_encrypt := etm_encrypt _ _ sy_enc (kmac_update permB) kh_tag.
Definition kh_decrypt := etm_decrypt _ _ sy_dec (kmac_update permB) kh_tag kh_cap.
