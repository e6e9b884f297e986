(** drng/src/hash_drbg.c and drng/src/hmac_drbg.c, over the lc_hash descriptor interface. The linked list
    struct lc_drbg_string [drng/api/lc_drbg.h: 44-63] is a list of byte strings. The scratchpad is not
    kept: every function clears what it put there [hash_drbg.c: 199, 233, 259, 293, 328], and no function
    reads what another one left. Additional input and personalisation given as NULL or with length zero
    are the empty list. The self tests are not modelled. *)
From Verif Require Import Bytes Words HashIface MacModel DrbgSpec.

Section HashDrbg.
  Variable h : hashops.
  Variable sl : nat.                        (* LC_DRBG_HASH_STATELEN = 111 *)
  Let bl := h_ds h.                         (* LC_DRBG_HASH_BLOCKLEN = 64 *)

  (** [hash_drbg.c: 102-109] *)
  Definition drbg_hash (hc : hctx h) (ms : list (list Z)) : list Z * hctx h :=
    h_final h (h_updates h (h_init h hc) ms).

  (** [hash_drbg.c: 121-148] drbg_add_buf; both buffers are walked from their last byte, hence the
      reversed lists. First loop 132-139, second loop 141-147. *)
  Fixpoint add_hi (d : list Z) (rem : Z) : list Z :=
    match d with
    | [] => []
    | y :: d' => if 0 <? rem then let rem := y + 1 in Z.land rem 255 :: add_hi d' (Z.shiftr rem 8) else d
    end.
  Fixpoint add_lo (d a : list Z) (rem : Z) {struct a} : list Z :=
    match a with
    | [] => add_hi d rem
    | x :: a' =>
        match d with
        | [] => []
        | y :: d' => let rem := rem + (y + x) in Z.land rem 255 :: add_lo d' a' (Z.shiftr rem 8)
        end
    end.
  Definition drbg_add_buf (dst add : list Z) : list Z := rev (add_lo (rev dst) (rev add) 0).

  (** [hash_drbg.c: 166-200] the loop; [ctr] is input[0] (uint8_t), [hdr] input[1..4]. *)
  Fixpoint df_loop (fuel : nat) (hc : hctx h) (ctr : Z) (hdr : list Z) (ent : list (list Z)) (outlen : nat) :
      list Z * hctx h :=
    match fuel with
    | O => ([], hc)
    | S f =>
        if (outlen =? 0)%nat then ([], hc)
        else
          let blocklen := Nat.min bl outlen in
          let '(d, hc) := drbg_hash hc ((ctr :: hdr) :: ent) in
          let '(o, hc) := df_loop f hc (u8 (ctr + 1)) hdr ent (outlen - blocklen) in
          (firstn blocklen d ++ o, hc)
    end.
  Definition drbg_hash_df (hc : hctx h) (outlen : nat) (ent : list (list Z)) : list Z * hctx h :=
    df_loop outlen hc 1 (be_bytes 4 (u32 (8 * Z.of_nat outlen))) ent outlen.

  (** struct lc_drbg_hash_state [drng/api/lc_hash_drbg.h: 37-48] *)
  Record hdst := mkHD { hd_h : hctx h; hd_V : list Z; hd_C : list Z; hd_ctr : Z; hd_seeded : bool }.

  (** [hash_drbg.c: 203-234] *)
  Definition drbg_hash_update (s : hdst) (seed : list (list Z)) : hdst :=
    let data := if hd_seeded s then [1] :: hd_V s :: seed else seed in
    let '(V, hc) := drbg_hash_df (hd_h s) sl data in
    let '(C, hc) := drbg_hash_df hc sl [[0]; V] in
    mkHD hc V C (hd_ctr s) (hd_seeded s).

  (** [hash_drbg.c: 237-260] *)
  Definition drbg_hash_process_addtl (s : hdst) (addtl : list Z) : hdst :=
    if (length addtl =? 0)%nat then s
    else
      let '(w, hc) := drbg_hash (hd_h s) [[2]; hd_V s; addtl] in
      mkHD hc (drbg_add_buf (hd_V s) w) (hd_C s) (hd_ctr s) (hd_seeded s).

  (** [hash_drbg.c: 263-295]; [src] is the copy of V. *)
  Fixpoint hashgen_loop (fuel : nat) (hc : hctx h) (src : list Z) (buflen : nat) : list Z * hctx h :=
    match fuel with
    | O => ([], hc)
    | S f =>
        if (buflen =? 0)%nat then ([], hc)
        else
          let '(d, hc) := drbg_hash hc [src] in
          let outlen := if (bl <? buflen)%nat then bl else buflen in
          let rest := (buflen - outlen)%nat in
          let src := if (0 <? rest)%nat then drbg_add_buf src [1] else src in
          let '(o, hc) := hashgen_loop f hc src rest in
          (firstn outlen d ++ o, hc)
    end.

  (** [hash_drbg.c: 298-329] *)
  Definition drbg_hash_generate_internal (s : hdst) (addtl : list Z) (buflen : nat) : list Z * hdst :=
    let s := mkHD (hd_h s) (hd_V s) (hd_C s) (u64 (hd_ctr s + 1)) (hd_seeded s) in
    let s := drbg_hash_process_addtl s addtl in
    let '(o, hc) := hashgen_loop buflen (hd_h s) (hd_V s) buflen in
    let '(H, hc) := drbg_hash hc [[3]; hd_V s] in
    let V := drbg_add_buf (hd_V s) H in
    let V := drbg_add_buf V (hd_C s) in
    let V := drbg_add_buf V (be_bytes 8 (hd_ctr s)) in
    (o, mkHD hc V (hd_C s) (hd_ctr s) (hd_seeded s)).

  (** [hash_drbg.c: 331-355] (no check of [seeded]) and [357-400]. *)
  Definition hash_drbg_step (s : hdst) (r : drbg_req) : Z * list Z * hdst :=
    match r with
    | RGen a n =>
        if (2 ^ 16 <? Z.of_nat n) then (EINVAL, [], s)
        else if (2 ^ 31 <? Z.of_nat (length a)) then (EINVAL, [], s)
        else let '(o, s) := drbg_hash_generate_internal s a n in (0, o, s)
    | RSeed e p =>
        if (2 ^ 31 <? Z.of_nat (length p)) then (EINVAL, [], s)
        else if (length e =? 0)%nat then (EINVAL, [], s)
        else
          let s := drbg_hash_update s (e :: if (length p =? 0)%nat then [] else [p]) in
          (0, [], mkHD (hd_h s) (hd_V s) (hd_C s) 0 true)
    end.

  (** [hash_drbg.c: 402-417]; [hc] is the zeroed hash state. *)
  Definition hash_drbg_zero (hc : hctx h) : hdst := mkHD hc (zeros sl) (zeros sl) 0 false.
End HashDrbg.

Section HmacDrbg.
  Variable h : hashops.
  Let sl := h_ds h.                         (* LC_DRBG_HMAC_STATELEN = LC_DRBG_HMAC_BLOCKLEN = 64 *)

  (** [hmac_drbg.c: 100-107]; the key is STATELEN bytes. *)
  Definition drbg_hmac (c : hmctx h) (key : list Z) (ms : list (list Z)) : list Z * hmctx h :=
    hmac_final h (hmac_updates h (hmac_init h c key) ms).

  (** struct lc_drbg_hmac_state [drng/api/lc_hmac_drbg.h: 33-38] *)
  Record hmdst := mkHMD { hmd_h : hmctx h; hmd_V : list Z; hmd_C : list Z; hmd_seeded : bool }.

  (** [hmac_drbg.c: 132-148] one iteration of the loop: new C, then new V. *)
  Definition hmd_round (c : hmctx h) (C V : list Z) (prefix : Z) (seed : list (list Z)) :
      list Z * list Z * hmctx h :=
    let '(C, c) := drbg_hmac c C (V :: [prefix] :: seed) in
    let '(V, c) := drbg_hmac c C [V] in (C, V, c).

  (** [hmac_drbg.c: 114-149]; [seed = None] is the NULL pointer. *)
  Definition drbg_hmac_update (s : hmdst) (seed : option (list (list Z))) : hmdst :=
    let V := if hmd_seeded s then hmd_V s else repeat 1 sl in
    let '(C, V, c) := hmd_round (hmd_h s) (hmd_C s) V 0 (match seed with Some l => l | None => [] end) in
    match seed with
    | None => mkHMD c V C (hmd_seeded s)
    | Some l => let '(C, V, c) := hmd_round c C V 1 l in mkHMD c V C (hmd_seeded s)
    end.

  (** [hmac_drbg.c: 164-177] *)
  Fixpoint hmd_loop (fuel : nat) (c : hmctx h) (C V : list Z) (buflen : nat) : list Z * list Z * hmctx h :=
    match fuel with
    | O => ([], V, c)
    | S f =>
        if (buflen =? 0)%nat then ([], V, c)
        else
          let '(V, c) := drbg_hmac c C [V] in
          let outlen := if (sl <? buflen)%nat then sl else buflen in
          let '(o, V', c) := hmd_loop f c C V (buflen - outlen) in
          (firstn outlen V ++ o, V', c)
    end.

  (** [hmac_drbg.c: 152-185] *)
  Definition drbg_hmac_generate_internal (s : hmdst) (addtl : option (list Z)) (buflen : nat) : list Z * hmdst :=
    let pd := match addtl with Some a => Some [a] | None => None end in
    let s := match addtl with Some _ => drbg_hmac_update s pd | None => s end in
    let '(o, V, c) := hmd_loop buflen (hmd_h s) (hmd_C s) (hmd_V s) buflen in
    (o, drbg_hmac_update (mkHMD c V (hmd_C s) (hmd_seeded s)) pd).

  (** [hmac_drbg.c: 187-211] (no check of [seeded]) and [213-249]. *)
  Definition hmac_drbg_step (s : hmdst) (r : drbg_req) : Z * list Z * hmdst :=
    match r with
    | RGen a n =>
        if (2 ^ 16 <? Z.of_nat n) then (EINVAL, [], s)
        else if (2 ^ 31 <? Z.of_nat (length a)) then (EINVAL, [], s)
        else
          let '(o, s) := drbg_hmac_generate_internal s (if (length a =? 0)%nat then None else Some a) n in
          (0, o, s)
    | RSeed e p =>
        if (2 ^ 31 <? Z.of_nat (length p)) then (EINVAL, [], s)
        else if (length e =? 0)%nat then (EINVAL, [], s)
        else
          let s := drbg_hmac_update s (Some (e :: if (length p =? 0)%nat then [] else [p])) in
          (0, [], mkHMD (hmd_h s) (hmd_V s) (hmd_C s) true)
    end.

  (** [hmac_drbg.c: 251-269]: seeded = 0, the memory behind the structure (HMAC context, V, C) zeroed. *)
  Definition hmac_drbg_zero (c : hmctx h) : hmdst := mkHMD c (zeros sl) (zeros sl) false.
End HmacDrbg.
