(** Model of the Ascon family AEAD: /repo/aead/src/ascon.c, ascon_lightweight.c, ascon_keccak.c,
    /repo/aead/api/lc_ascon_aead.h and the generic wrapper aead_api.c.

    The sponge state is the byte view of the uint64_t array on a little-endian host (as in AsconModel and
    Sha3Model): lc_sponge_add_bytes [hash/src/sponge_common.h: 30-69] XORs at a byte offset,
    lc_sponge_extract_bytes [71-186] reads bytes, lc_sponge_newstate [188-236] overwrites bytes.
    The power-up self tests are not modelled (they do not touch the caller's context). *)
From Verif Require Import Bytes Words UtilModel.

Definition EINVAL := 22.
Definition EBADMSG := 74.

(** The members of struct lc_hash the AEAD uses: sponge_permutation, sponge_rate. *)
Record sponge := mkSp { sp_perm : nat -> list Z -> list Z; sp_rate : nat }.

(** struct lc_ascon_cryptor [aead/api/lc_ascon_aead.h: 33-42]; state is the pointed-to memory. *)
Record acry := mkAC {
  ac_key : list Z;        (* key[64] *)
  ac_keylen : nat;
  ac_off : nat;           (* rate_offset *)
  ac_ssize : nat;         (* statesize *)
  ac_roundb : nat;
  ac_taglen : nat;
  ac_st : list Z }.

Section AsconAead.
Variable H : sponge.
Let rate := sp_rate H.
Let P := sp_perm H.

Definition set_st (c : acry) (s : list Z) : acry :=
  mkAC (ac_key c) (ac_keylen c) (ac_off c) (ac_ssize c) (ac_roundb c) (ac_taglen c) s.
Definition set_so (c : acry) (s : list Z) (o : nat) : acry :=
  mkAC (ac_key c) (ac_keylen c) o (ac_ssize c) (ac_roundb c) (ac_taglen c) s.
(** The bytes of the key in use. *)
Definition the_key (c : acry) : list Z := firstn (ac_keylen c) (ac_key c).

(** [ascon.c: 32-42] lc_ascon_zero_ex_key *)
Definition zero_ex_key (c : acry) : acry :=
  mkAC (ac_key c) (ac_keylen c) 0 (ac_ssize c) 0 (ac_taglen c) (zeros (ac_ssize c)).
(** [ascon.c: 44-50] lc_ascon_zero *)
Definition lc_ascon_zero (c : acry) : acry :=
  zero_ex_key (mkAC (zeros 64) 0 (ac_off c) (ac_ssize c) (ac_roundb c) (ac_taglen c) (ac_st c)).

(** [lc_ascon_aead.h: 60-69] lc_ascon_load_key *)
Definition load_key (c : acry) (key : list Z) : Z * acry :=
  if (length key <? 64)%nat
  then (0, mkAC (store_at (ac_key c) 0 key) (length key) (ac_off c) (ac_ssize c) (ac_roundb c)
                (ac_taglen c) (ac_st c))
  else (- EINVAL, c).

(** state_mem[0] = w *)
Definition set_word0 (s : list Z) (w : Z) : list Z := le_bytes 8 w ++ skipn 8 s.

(** [ascon_keccak.c: 117-173] lc_ak_setiv *)
Definition ak_setiv (c : acry) (keylen : nat) : Z * acry :=
  let iv base kl := (1, mkAC (ac_key c) kl (ac_off c) (ac_ssize c) (ac_roundb c) (ac_taglen c)
                       (set_word0 (ac_st c) (Z.lor base (Z.shiftl (Z.of_nat (ac_taglen c)) 24)))) in
  if (ac_taglen c <? 16)%nat || (keylen <? ac_taglen c)%nat then (- EINVAL, c)
  else match rate with
       | 72%nat => if (keylen =? 64)%nat then iv 0x4048181800000000 64%nat else (- EINVAL, c)
       | 136%nat => if (keylen =? 32)%nat then iv 0x2088181800000000 32%nat else (- EINVAL, c)
       | _ => (0, c)
       end.
(** [ascon_lightweight.c: 86-111] lc_ascon_setiv *)
Definition al_setiv (c : acry) (keylen : nat) : Z * acry :=
  match rate with
  | 16%nat => if (keylen =? 16)%nat
              then (1, mkAC (ac_key c) 16 (ac_off c) (ac_ssize c) 8 (ac_taglen c)
                            (set_word0 (ac_st c) 0x00001000808c0001))
              else (- EINVAL, c)
  | _ => (0, c)
  end.

(** [ascon.c: 65-145] lc_ascon_setkey; [key = None] is the NULL pointer. All five sponge callbacks exist
    for the hashes considered, so the -EOPNOTSUPP branch [88-91] is not modelled. *)
Definition lc_ascon_setkey (c : acry) (key : option (list Z)) (nonce : list Z) : Z * acry :=
  let c1 := match key with None => zero_ex_key c | Some _ => lc_ascon_zero c end in
  let k := match key with None => the_key c | Some k => k end in
  let keylen := length k in
  if (length nonce <? 16)%nat || (keylen <? length nonce)%nat then (- EINVAL, c1)
  else
    let '(ret, c2) := ak_setiv c1 keylen in
    if ret <? 0 then (ret, c2)
    else
      let '(ret, c3) := if ret =? 0 then al_setiv c2 keylen else (ret, c2) in
      if ret <? 0 then (ret, c3)
      else if ret =? 0 then (- EINVAL, c3)
      else
        let kb := match key with None => ac_key c3 | Some k => store_at (ac_key c3) 0 k end in
        let s := xor_at (ac_st c3) 8 k in
        let s := xor_at s (8 + keylen) nonce in
        let s := P 12 s in
        let s := xor_at s (ac_ssize c3 - keylen) k in
        (0, mkAC kb (ac_keylen c3) (ac_off c3) (ac_ssize c3) (ac_roundb c3) (ac_taglen c3) s).

(** [lc_ascon_aead.h: 75-90] lc_ascon_add_padbyte *)
Definition add_padbyte (s : list Z) (offset : nat) : list Z :=
  xor_at s (if (offset =? rate)%nat then 0 else offset) [0x01].

(** [ascon.c: 159-167] *)
Fixpoint aad_loop (fuel roundb : nat) (s aad : list Z) : list Z * list Z :=
  match fuel with
  | O => (s, aad)
  | S f => if (rate <=? length aad)%nat
           then aad_loop f roundb (P roundb (xor_at s 0 (firstn rate aad))) (skipn rate aad)
           else (s, aad)
  end.
(** [ascon.c: 148-178] lc_ascon_aad *)
Definition lc_ascon_aad (c : acry) (aad : list Z) : acry :=
  match aad with
  | [] => c
  | _ => let '(s, rest) := aad_loop (length aad) (ac_roundb c) (ac_st c) aad in
         let s := add_padbyte (xor_at s 0 rest) (length rest) in
         let s := P (ac_roundb c) s in
         set_st c (xor_at s (ac_ssize c - 1) [0x80])
  end.

(** [ascon.c: 206-239] lc_ascon_enc_update: one pass of the loop per step. The loop makes progress in
    every pass but at most the first (rate_offset = rate), so [S (length data)] passes suffice. *)
Fixpoint enc_loop (fuel roundb : nat) (s : list Z) (off : nat) (pt : list Z) : list Z * nat * list Z :=
  match fuel, pt with
  | S f, _ :: _ =>
      let todo := Nat.min (length pt) (rate - off) in
      let s1 := xor_at s off (firstn todo pt) in
      let ct := slice s1 off todo in
      match skipn todo pt with
      | [] => (s1, (off + todo)%nat, ct)
      | rest => let '(s2, o2, ct2) := enc_loop f roundb (P roundb s1) 0 rest in (s2, o2, ct ++ ct2)
      end
  | _, _ => (s, off, [])
  end.
Definition lc_ascon_enc_update (c : acry) (pt : list Z) : acry * list Z :=
  let '(s, o, ct) := enc_loop (S (length pt)) (ac_roundb c) (ac_st c) (ac_off c) pt in
  (set_so c s o, ct).

(** [ascon.c: 181-203] lc_ascon_finalization; [None] = the key is XORed in past the end of the state
    memory (rate + keylen > statesize), a write out of bounds. *)
Definition finalization (c : acry) (taglen : nat) : option (acry * list Z) :=
  if (length (ac_st c) <? rate + ac_keylen c)%nat then None
  else
    let s := xor_at (ac_st c) rate (the_key c) in
    let s := P 12 s in
    let off := (ac_ssize c - taglen)%nat in
    let s := xor_at s off (firstn taglen (ac_key c)) in
    Some (set_st c s, slice s off taglen).

(** [ascon.c: 241-263] lc_ascon_enc_final; [tag] is the caller's buffer of taglen bytes. *)
Definition lc_ascon_enc_final (c : acry) (tag : list Z) : option (acry * list Z) :=
  let c := set_st c (P (ac_roundb c) (ac_st c)) in
  if negb (length tag =? ac_taglen c)%nat then Some (c, tag)
  else finalization (set_st c (add_padbyte (ac_st c) (ac_off c))) (length tag).

(** [ascon.c: 266-281] lc_ascon_encrypt *)
Definition lc_ascon_encrypt (c : acry) (pt aad tag : list Z) : option (acry * list Z * list Z) :=
  let c := lc_ascon_aad c aad in
  let '(c, ct) := lc_ascon_enc_update c pt in
  match lc_ascon_enc_final c tag with
  | Some (c, tag) => Some (c, ct, tag)
  | None => None
  end.

(** [ascon.c: 284-353] lc_ascon_dec_update; [inplace] is plaintext == ciphertext: the key stream is then
    extracted to tmp_pt[136], [None] = more than 136 bytes are written there. *)
Fixpoint dec_loop (fuel roundb : nat) (inplace : bool) (s : list Z) (off : nat) (ct : list Z)
  : option (list Z * nat * list Z) :=
  match fuel, ct with
  | S f, _ :: _ =>
      let todo := Nat.min (length ct) (rate - off) in
      if inplace && (136 <? todo)%nat then None
      else
        let ks := slice s off todo in
        let c1 := firstn todo ct in
        let pt := xorl ks c1 in
        match skipn todo ct with
        | [] => Some (xor_at s off pt, (off + todo)%nat, pt)
        | rest =>
            match dec_loop f roundb inplace (P roundb (store_at s off c1)) 0 rest with
            | Some (s2, o2, pt2) => Some (s2, o2, pt ++ pt2)
            | None => None
            end
        end
  | _, _ => Some (s, off, [])
  end.
Definition lc_ascon_dec_update (c : acry) (inplace : bool) (ct : list Z) : option (acry * list Z) :=
  match dec_loop (S (length ct)) (ac_roundb c) inplace (ac_st c) (ac_off c) ct with
  | Some (s, o, pt) => Some (set_so c s o, pt)
  | None => None
  end.

(** [ascon.c: 356-381] lc_ascon_dec_final. [p1], [p2] are the addresses of calctag and tag (the compare
    function chooses its path by alignment). calctag[64] is large enough: taglen is at most 64 for every
    context whose setkey succeeded. *)
Definition lc_ascon_dec_final (p1 p2 : Z) (c : acry) (tag : list Z) : option (Z * acry) :=
  if negb (length tag =? ac_taglen c)%nat then Some (- EINVAL, c)
  else
    let c := set_st c (P (ac_roundb c) (ac_st c)) in
    match finalization (set_st c (add_padbyte (ac_st c) (ac_off c))) (length tag) with
    | Some (c, calctag) =>
        Some (if lc_memcmp_secure p1 calctag p2 tag =? 0 then 0 else - EBADMSG, c)
    | None => None
    end.
(** [ascon.c: 384-401] lc_ascon_decrypt *)
Definition lc_ascon_decrypt (p1 p2 : Z) (c : acry) (inplace : bool) (ct aad tag : list Z)
  : option (Z * acry * list Z) :=
  let c := lc_ascon_aad c aad in
  match lc_ascon_dec_update c inplace ct with
  | None => None
  | Some (c, pt) =>
      match lc_ascon_dec_final p1 p2 c tag with
      | Some (r, c) => Some (r, c, pt)
      | None => None
      end
  end.

(** [aead_api.c: 69-90, 133-151] lc_aead_encrypt, lc_aead_enc_final: the callbacks return void and the
    wrapper returns 0. *)
Definition lc_aead_encrypt (c : acry) (pt aad tag : list Z) : option (Z * acry * list Z * list Z) :=
  match lc_ascon_encrypt c pt aad tag with Some (c, ct, tag) => Some (0, c, ct, tag) | None => None end.
Definition lc_aead_enc_final (c : acry) (tag : list Z) : option (Z * acry * list Z) :=
  match lc_ascon_enc_final c tag with Some (c, tag) => Some (0, c, tag) | None => None end.

(** A stream of enc_update / dec_update calls [aead_api.c: 112-131, 214-233]. *)
Fixpoint enc_updates (c : acry) (pts : list (list Z)) : acry * list (list Z) :=
  match pts with
  | [] => (c, [])
  | p :: r => let '(c, ct) := lc_ascon_enc_update c p in
              let '(c, cts) := enc_updates c r in (c, ct :: cts)
  end.
Fixpoint dec_updates (c : acry) (inplace : bool) (cts : list (list Z)) : option (acry * list (list Z)) :=
  match cts with
  | [] => Some (c, [])
  | p :: r => match lc_ascon_dec_update c inplace p with
              | None => None
              | Some (c, pt) => match dec_updates c inplace r with
                                | Some (c, pts) => Some (c, pt :: pts)
                                | None => None
                                end
              end
  end.
End AsconAead.

(** LC_AL_CTX_ON_STACK / lc_al_alloc and LC_AK_CTX_ON_STACK_TAGLEN / lc_ak_alloc_taglen
    [lc_ascon_lightweight.h: 51-63], [lc_ascon_keccak.h: 70-110]: what they set; the other members hold
    arbitrary memory contents (stack) or zero (heap). *)
Definition al_ctx (key : list Z) (keylen off roundb : nat) (st : list Z) : acry :=
  mkAC key keylen off 40 roundb 16 st.
Definition ak_ctx (taglen : nat) (key : list Z) (keylen off roundb : nat) (st : list Z) : acry :=
  mkAC key keylen off 200 roundb taglen st.
