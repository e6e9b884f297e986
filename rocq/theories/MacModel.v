(** lc_hmac, lc_hkdf, lc_kdf_ctr/fb/dpi, lc_pbkdf2, lc_hotp/totp, over any lc_hash descriptor. *)
From Verif Require Import Bytes Words HashIface.

Definition INT_MAX : Z := 2147483647.
Definition EMSGSIZE : Z := -90.

Section Mac.
  Variable h : hashops.
  Let bs := h_bs h.
  Let ds := h_ds h.

  (** struct lc_hmac_ctx [hmac/api/lc_hmac.h: 40-47]: hash context, k_ipad, k_opad (the used bs bytes). *)
  Record hmctx := mkHM { hm_h : hctx h; hm_ipad : list Z; hm_opad : list Z }.

  (** [hmac.c: 39-45] *)
  Definition hmac_reinit (c : hmctx) : hmctx :=
    mkHM (h_update h (h_init h (hm_h c)) (hm_ipad c)) (hm_ipad c) (hm_opad c).

  (** [hmac.c: 69-75]: memset(k_opad + ds, 0, bs - ds) with bs < ds: size_t wrap, out of bounds write. *)
  Definition hmac_init_oob (keylen : nat) : bool := ((bs <? keylen) && (bs <? ds))%nat.

  (** [hmac.c: 47-89]. The limits of lines 59-62 are LC_SHA_MAX_SIZE_BLOCK = 144 (SHA3-224),
      LC_SHA_MAX_SIZE_DIGEST = 64; the context size test always passes for a context of that hash.
      The self test (line 64) is not modelled. Meaningful when not [hmac_init_oob]. *)
  Definition hmac_init (c : hmctx) (key : list Z) : hmctx :=
    if ((144 <? bs) || (64 <? ds))%nat then c
    else
      let '(k, hc) :=
        if (bs <? length key)%nat then
          let '(d, hc) := h_final h (h_update h (h_init h (hm_h c)) key) in
          (d ++ zeros (bs - ds), hc)
        else (key ++ zeros (bs - length key), hm_h c) in
      hmac_reinit (mkHM hc (map (fun x => Z.lxor x 0x36) k) (map (fun x => Z.lxor x 0x5c) k)).

  (** [hmac.c: 91-97] *)
  Definition hmac_update (c : hmctx) (m : list Z) : hmctx :=
    mkHM (h_update h (hm_h c) m) (hm_ipad c) (hm_opad c).

  (** [hmac.c: 99-114] *)
  Definition hmac_final (c : hmctx) : list Z * hmctx :=
    let '(mac, hc) := h_final h (hm_h c) in
    let hc := h_update h (h_init h hc) (hm_opad c) in
    let hc := h_update h hc mac in
    let '(mac, hc) := h_final h hc in
    (mac, mkHM hc (hm_ipad c) (hm_opad c)).

  Definition hmac_updates (c : hmctx) (ms : list (list Z)) : hmctx := fold_left hmac_update ms c.

  (** [hmac.c: 173-190] lc_hmac: init, update, final on a fresh context. *)
  Definition lc_hmac (c : hmctx) (key m : list Z) : list Z :=
    fst (hmac_final (hmac_update (hmac_init c key) m)).

  (** ** HKDF. struct lc_hkdf_ctx [kdf/api/lc_hkdf.h: 33-40]; [partial] holds the last MAC. *)
  Record hkctx := mkHK { hk_hmac : hmctx; hk_partial : list Z; hk_ptr : nat; hk_ctr : Z; hk_rng : bool }.

  Definition upd_opt (c : hmctx) (m : option (list Z)) : hmctx :=
    match m with Some x => hmac_update c x | None => c end.

  (** [hkdf.c: 63-102]; [salt = None] is a NULL pointer; an empty ikm is refused. *)
  Definition hkdf_extract (c : hkctx) (ikm : list Z) (salt : option (list Z)) : Z * hkctx :=
    if (length ikm =? 0)%nat then (EINVAL, c)
    else
      let hm := match salt with
                | Some s => hmac_init (hk_hmac c) s
                | None => hmac_init (hk_hmac c) (zeros ds) end in
      let hm := hmac_update hm ikm in
      let '(prk, hm) := hmac_final hm in
      (0, mkHK (hmac_init hm prk) (hk_partial c) (hk_ptr c) (hk_ctr c) (hk_rng c)).

  (** [hkdf.c: 121-151] the loop; every iteration ends it or consumes ds >= 1 bytes. ctr is uint8_t. *)
  Fixpoint hkdf_loop (fuel : nat) (c : hkctx) (info : option (list Z)) (dlen : nat) : list Z * hkctx :=
    match fuel with
    | O => ([], c)
    | S f =>
        if (dlen =? 0)%nat then ([], c)
        else
          let hm := hmac_update (upd_opt (hk_hmac c) info) [hk_ctr c] in
          let '(mac, hm) := hmac_final hm in
          let hm := hmac_reinit hm in
          if (dlen <? ds)%nat then
            (firstn dlen mac,
             mkHK (hmac_update hm (firstn dlen mac)) mac dlen (u8 (hk_ctr c + 1)) (hk_rng c))
          else
            let '(o, c') := hkdf_loop f (mkHK (hmac_update hm mac) (hk_partial c) (hk_ptr c)
                                           (u8 (hk_ctr c + 1)) (hk_rng c)) info (dlen - ds) in
            (mac ++ o, c')
    end.

  (** [hkdf.c: 104-155] *)
  Definition hkdf_expand_internal (c : hkctx) (info : option (list Z)) (dlen : nat) : Z * list Z * hkctx :=
    if Z.of_nat dlen >? Z.of_nat ds * (255 - hk_ctr c) then (EINVAL, [], c)
    else let '(o, c') := hkdf_loop dlen c info dlen in (0, o, c').

  (** [hkdf.c: 157-171] *)
  Definition hkdf_expand (c : hkctx) (info : option (list Z)) (dlen : nat) : Z * list Z * hkctx :=
    let c := if hk_ctr c >? 1
             then mkHK (hmac_reinit (hk_hmac c)) (hk_partial c) (hk_ptr c) (hk_ctr c) (hk_rng c) else c in
    hkdf_expand_internal c info dlen.

  (** [hkdf.c: 205-216], also LC_HKDF_CTX_ON_STACK: the context handed to its users. [hm] is the zeroed
      HMAC context. *)
  Definition hkdf_fresh (hm : hmctx) : hkctx := mkHK hm (zeros 64) 64 1 false.

  (** [hkdf.c: 218-234] *)
  Definition lc_hkdf (hm : hmctx) (ikm : list Z) (salt info : option (list Z)) (dlen : nat) : Z * list Z :=
    let '(r, c) := hkdf_extract (hkdf_fresh hm) ikm salt in
    if r <? 0 then (r, []) else fst (hkdf_expand c info dlen).

  (** [hkdf.c: 236-249] *)
  Definition hkdf_rng_seed (c : hkctx) (seed : list Z) (pers : option (list Z)) : Z * hkctx :=
    if hk_rng c then (EOPNOTSUPP, c)
    else hkdf_extract (mkHK (hk_hmac c) (hk_partial c) (hk_ptr c) (hk_ctr c) true) seed pers.

  (** [hkdf.c: 251-289] *)
  Definition hkdf_rng_generate (c : hkctx) (addtl : option (list Z)) (outlen : nat) : Z * list Z * hkctx :=
    if negb (hk_rng c) then (EOPNOTSUPP, [], c)
    else
      let '(o1, c) :=
        if (hk_ptr c <? ds)%nat then
          let todo := Nat.min outlen (ds - hk_ptr c) in
          let o := slice (hk_partial c) (hk_ptr c) todo in
          (o, mkHK (hmac_update (hk_hmac c) o) (hk_partial c) (hk_ptr c + todo) (hk_ctr c) (hk_rng c))
        else ([], c) in
      let left := (outlen - length o1)%nat in
      if (left =? 0)%nat then (0, o1, c)
      else let '(r, o2, c) := hkdf_expand_internal c addtl left in (r, o1 ++ o2, c).

  (** ** SP 800-108. A label of length 0 (or NULL) is the empty list. The counter is a uint32_t; be_bytes 4
      reduces it. *)
  (** [kdf_ctr.c: 76-112] *)
  Fixpoint kdf_ctr_loop (fuel : nat) (c : hmctx) (label : list Z) (dlen i : nat) : list Z * hmctx * nat :=
    match fuel with
    | O => ([], c, i)
    | S f =>
        if (dlen =? 0)%nat then ([], c, i)
        else
          let c := hmac_update c (be_bytes 4 (Z.of_nat i)) in
          let c := if (length label =? 0)%nat then c else hmac_update c label in
          let '(mac, c) := hmac_final c in
          if (dlen <? ds)%nat then (firstn dlen mac, c, S i)
          else let '(o, c', i') := kdf_ctr_loop f (hmac_reinit c) label (dlen - ds) (S i) in (mac ++ o, c', i')
    end.
  (** [kdf_ctr.c: 62-117] *)
  Definition kdf_ctr_generate_internal (c : hmctx) (label : list Z) (dlen i : nat) : Z * list Z * hmctx * nat :=
    if Z.of_nat dlen >? INT_MAX then (EMSGSIZE, [], c, i)
    else let '(o, c', i') := kdf_ctr_loop dlen c label dlen i in (0, o, c', i').
  (** [kdf_ctr.c: 119-127, 139-154] lc_kdf_ctr = init, generate with counter 1 *)
  Definition lc_kdf_ctr (c : hmctx) (key label : list Z) (dlen : nat) : Z * list Z :=
    fst (fst (kdf_ctr_generate_internal (hmac_init c key) label dlen 1)).

  (** struct lc_kdf_ctr_ctx [kdf/api/lc_kdf_ctr.h: 35-40] *)
  Record kcctx := mkKC { kc_hmac : hmctx; kc_ctr : nat; kc_rng : bool }.
  (** [kdf_ctr.c: 156-179] *)
  Definition kdf_ctr_rng_seed (c : kcctx) (seed pers : list Z) : Z * kcctx :=
    if kc_rng c then (EOPNOTSUPP, c)
    else if (length pers =? 0)%nat then (0, mkKC (hmac_init (kc_hmac c) seed) 1 true)
    else (EOPNOTSUPP, mkKC (kc_hmac c) 1 true).
  (** [kdf_ctr.c: 181-198] *)
  Definition kdf_ctr_rng_generate (c : kcctx) (addtl : list Z) (outlen : nat) : Z * list Z * kcctx :=
    if negb (kc_rng c) then (EOPNOTSUPP, [], c)
    else if (outlen =? 0)%nat then (0, [], c)
    else let '(r, o, hm, i) := kdf_ctr_generate_internal (kc_hmac c) addtl outlen (kc_ctr c) in
         (r, o, mkKC hm i (kc_rng c)).

  (** [kdf_fb.c: 81-115]; [prev] is dst - h, the block written before (the IV in the first round). *)
  Fixpoint kdf_fb_loop (fuel : nat) (c : hmctx) (iv prev label : list Z) (dlen i : nat) : list Z :=
    match fuel with
    | O => []
    | S f =>
        if (dlen =? 0)%nat then []
        else
          let c := hmac_update c (if (i =? 1)%nat then iv else prev) in
          let c := hmac_update c (be_bytes 4 (Z.of_nat i)) in
          let c := if (length label =? 0)%nat then c else hmac_update c label in
          let '(mac, c) := hmac_final c in
          if (dlen <? ds)%nat then firstn dlen mac
          else mac ++ kdf_fb_loop f (hmac_reinit c) iv mac label (dlen - ds) (S i)
    end.
  (** [kdf_fb.c: 62-121, 133-150] *)
  Definition lc_kdf_fb (c : hmctx) (key iv label : list Z) (dlen : nat) : Z * list Z :=
    if Z.of_nat dlen >? INT_MAX then (EMSGSIZE, [])
    else if negb (length iv =? ds)%nat then (EINVAL, [])
    else (0, kdf_fb_loop dlen (hmac_init c key) iv [] label dlen 1).

  (** [kdf_dpi.c: 76-117] *)
  Fixpoint kdf_dpi_loop (fuel : nat) (c : hmctx) (Ai label : list Z) (dlen i : nat) : list Z :=
    match fuel with
    | O => []
    | S f =>
        if (dlen =? 0)%nat then []
        else
          let c := if ((i =? 1) && negb (length label =? 0))%nat then hmac_update c label
                   else hmac_update c Ai in
          let '(Ai, c) := hmac_final c in
          let c := hmac_reinit c in
          let c := hmac_update c Ai in
          let c := hmac_update c (be_bytes 4 (Z.of_nat i)) in
          let c := if (length label =? 0)%nat then c else hmac_update c label in
          let '(mac, c) := hmac_final c in
          if (dlen <? ds)%nat then firstn dlen mac
          else mac ++ kdf_dpi_loop f (hmac_reinit c) Ai label (dlen - ds) (S i)
    end.
  (** [kdf_dpi.c: 58-122, 137-155] *)
  Definition lc_kdf_dpi (c : hmctx) (key label : list Z) (dlen : nat) : Z * list Z :=
    if Z.of_nat dlen >? INT_MAX then (EMSGSIZE, [])
    else (0, kdf_dpi_loop dlen (hmac_init c key) (zeros ds) label dlen 1).

  (** ** PBKDF2. [pbkdf2.c: 143-151] the inner loop for j = count - k .. count - 1: MAC of what is in the
      context (plus u when j > 0), then XOR of the first n bytes into the key block. *)
  Fixpoint pb_inner (k : nat) (first : bool) (c : hmctx) (u key : list Z) : list Z * hmctx :=
    match k with
    | O => (key, c)
    | S k' =>
        let c := if first then c else hmac_update c u in
        let '(u, c) := hmac_final c in
        pb_inner k' false (hmac_reinit c) u (xorl key (firstn (length key) u))
    end.
  (** [pbkdf2.c: 136-161]; the key buffer was zeroed at 134. *)
  Fixpoint pb_loop (fuel : nat) (c : hmctx) (salt : list Z) (count keylen i : nat) : list Z :=
    match fuel with
    | O => []
    | S f =>
        if (keylen =? 0)%nat then []
        else
          let c := hmac_update c salt in
          let c := hmac_update c (be_bytes 4 (Z.of_nat i)) in
          let '(blk, c) := pb_inner count true c [] (zeros (Nat.min keylen ds)) in
          if (keylen <? ds)%nat then blk
          else blk ++ pb_loop f c salt count (keylen - ds) (S i)
    end.
  (** [pbkdf2.c: 112-168] *)
  Definition lc_pbkdf2 (c : hmctx) (pw salt : list Z) (count keylen : nat) : Z * list Z :=
    if Z.of_nat keylen >? INT_MAX then (EMSGSIZE, [])
    else if (count =? 0)%nat then (EINVAL, [])
    else (0, pb_loop keylen (hmac_init c pw) salt count keylen 1).

  (** ** HOTP [hotp.c: 27-63]; in the library [h] is SHA-256. [None]: division by zero (undefined). *)
  Fixpoint pow10 (digits : nat) (modulo : Z) : Z :=
    match digits with O => modulo | S d => pow10 d (u32 (modulo * 10)) end.
  Definition lc_hotp (c : hmctx) (key : list Z) (counter : Z) (digits : nat) : option Z :=
    let modulo := pow10 digits 1 in
    let c := hmac_update (hmac_init c key) (be_bytes 8 counter) in
    let '(md, _) := hmac_final c in
    let offset := Z.to_nat (Z.land (nth (ds - 1) md 0) 0xf) in
    let truncated :=
      Z.lor (Z.lor (Z.lor (u32 (Z.shiftl (Z.land (nth offset md 0) 0x7f) 24))
                          (u32 (Z.shiftl (Z.land (nth (offset + 1) md 0) 0xff) 16)))
                   (u32 (Z.shiftl (Z.land (nth (offset + 2) md 0) 0xff) 8)))
            (u32 (Z.land (nth (offset + 3) md 0) 0xff)) in
    if modulo =? 0 then None else Some (truncated mod modulo).

  (** [totp.c: 30-50]; [now] is the result of time(), not -1. [None]: division by zero. *)
  Definition lc_totp (c : hmctx) (key : list Z) (now step : Z) (digits : nat) : option Z :=
    if step =? 0 then None else lc_hotp c key (t64 now / step) digits.
End Mac.
