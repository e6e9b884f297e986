(** drng/src/xdrbg.c, drng/src/cshake_drng.c, drng/src/kmac_drng.c. The caller's output buffer is an
    argument: what is not written keeps its old content. NULL additional input is the empty list. The
    self tests and the poison/unpoison annotations are not modelled. *)
From Verif Require Import Bytes Words Sha3Model KeccakBytes KmacModel AsconModel AsconPerm DrbgSpec XofDrngSpec.

(** XOF behind struct lc_hash, as used by xdrbg.c: lc_hash_init, lc_hash_update, and lc_xdrbg_xof_final
    [xdrbg.c: 41-46] = set_digestsize + final. *)
Record xofops := mkXO {
  xctx : Type;
  xo_init : xctx;
  xo_update : xctx -> list Z -> xctx;
  xo_read : xctx -> nat -> list Z * xctx
}.
Definition shake256_xo : xofops := mkXO kctx (keccak_init alg_shake256) (keccak_absorb permB) (xof_read permB).
Definition ascon_xo : xofops := mkXO actx ascon_xof_init (ascon_absorb asconB) (ascon_xof_read asconB).

(** [xdrbg.c: 59-96], [cshake_drng.c: 348-387], [kmac_drng.c: 294-327]: the two updates. *)
Definition drng_encode (n : Z) (alpha : list Z) : list (list Z) :=
  let alpha := firstn 84 alpha in [alpha; [u8 (85 * n + Z.of_nat (length alpha))]].

(** The state of all three DRNGs: seeded flag and key. For XDRBG the flag is bit 7 of status
    [drng/api/lc_xdrbg.h: 31-48]. *)
Record xdst := mkXD { xd_seeded : bool; xd_key : list Z }.

Section Gen.
  (** One iteration: [one key alpha n] = what is written to state->key and to out. *)
  Variable one : list Z -> list Z -> nat -> list Z * list Z.
  Variable chunk : nat.
  (** [xdrbg.c: 158-175], [cshake_drng.c: 448-466], [kmac_drng.c: 388-404] *)
  Fixpoint drng_gen_loop (fuel : nat) (key alpha : list Z) (buf : list Z) : list Z * list Z :=
    match fuel with
    | O => (buf, key)
    | S f =>
        if (length buf =? 0)%nat then (buf, key)
        else
          let todo := Nat.min (length buf) chunk in
          let '(key, o) := one key alpha todo in
          let '(buf', key) := drng_gen_loop f key alpha (skipn todo buf) in
          ((o ++ skipn (length o) (firstn todo buf)) ++ buf', key)
    end.
  (** No check of the seeded flag. Returns 0. *)
  Definition drng_generate (s : xdst) (alpha buf : list Z) : Z * list Z * xdst :=
    let '(o, key) := drng_gen_loop (length buf) (xd_key s) alpha buf in (0, o, mkXD (xd_seeded s) key).
End Gen.

Section Xdrbg.
  Variable x : xofops.
  Variables keysize chunk : nat.
  Definition xo_updates (c : xctx x) (ms : list (list Z)) : xctx x := fold_left (xo_update x) ms c.
  (** [xdrbg.c: 113-130, 165-168] *)
  Definition xdrbg_one (v alpha : list Z) (n : nat) : list Z * list Z :=
    let c := xo_updates (xo_init x) (v :: drng_encode 2 alpha) in
    let '(v, c) := xo_read x c keysize in
    let '(o, _) := xo_read x c n in (v, o).
  Definition xdrbg_generate := drng_generate xdrbg_one chunk.
  (** [xdrbg.c: 201-249] *)
  Definition xdrbg_seed (s : xdst) (seed alpha : list Z) : Z * xdst :=
    let ms := seed :: drng_encode (if xd_seeded s then 1 else 0) alpha in
    let c := xo_updates (xo_init x) (if xd_seeded s then xd_key s :: ms else ms) in
    (0, mkXD true (fst (xo_read x c keysize))).
  (** [xdrbg.c: 251-260] *)
  Definition xdrbg_zero : xdst := mkXD false (zeros keysize).
End Xdrbg.
(** [drng/api/lc_xdrbg.h: 59, 65-66]: V of 64 bytes, 2 * 136 - 64 = 208; [123, 130]: V of 32 bytes, 8 * 32 *)
Definition xdrbg256_generate := xdrbg_generate shake256_xo 64 208.
Definition xdrbg256_seed := xdrbg_seed shake256_xo 64.
Definition xdrbg128_generate := xdrbg_generate ascon_xo 32 256.
Definition xdrbg128_seed := xdrbg_seed ascon_xo 32.

(** ** cSHAKE256 DRNG. The context on the stack is fresh in every call. *)
Definition cs_fresh : hctx := mkH alg_cshake256 (keccak_init alg_cshake256).
Definition hh_ups (h : hctx) (ms : list (list Z)) : hctx := fold_left (hh_update permB) ms h.
(** [cshake_drng.c: 407-422, 458-462] *)
Definition csdrng_one (key alpha : list Z) (n : nat) : list Z * list Z :=
  let h := hh_ups (cshake_init permB cs_fresh str_cs_gen key) (drng_encode 2 alpha) in
  let '(key, h) := hh_xof permB h 64 in
  let '(o, _) := hh_xof permB h n in (key, o).
(** chunk = LC_CSHAKE256_DRNG_MAX_CHUNK - LC_CSHAKE256_DRNG_KEYSIZE = 2 * 136 - 64 *)
Definition csdrng_generate := drng_generate csdrng_one 208.
(** [cshake_drng.c: 483-532] *)
Definition csdrng_seed (s : xdst) (seed alpha : list Z) : Z * xdst :=
  let h := cshake_init permB cs_fresh str_cs_seed (if xd_seeded s then xd_key s else []) in
  let h := hh_ups h (seed :: drng_encode (if xd_seeded s then 1 else 0) alpha) in
  (0, mkXD true (fst (hh_xof permB h 64))).
(** [cshake_drng.c: 534-542], [kmac_drng.c: 469-477] *)
Definition xdrng_zero : xdst := mkXD false (zeros 64).

(** ** KMAC256 DRNG *)
Definition km_fresh : kmctx := mkKM cs_fresh None false.
(** [kmac_drng.c: 347-362, 397-401]; lc_kmac_final_xof writes nothing when asked for 1, 2 or 3 bytes. *)
Definition kmdrng_one (key alpha : list Z) (n : nat) : list Z * list Z :=
  let c := kmac_updates permB (kmac_init permB km_fresh key str_km_gen) (drng_encode 2 alpha) in
  let '(key, c) := kmac_final_xof permB c 64 in
  let '(o, _) := kmac_final_xof permB c n in (key, o).
Definition kmdrng_generate := drng_generate kmdrng_one 208.
(** [kmac_drng.c: 421-467] *)
Definition kmdrng_seed (s : xdst) (seed alpha : list Z) : Z * xdst :=
  let c := kmac_init permB km_fresh (if xd_seeded s then xd_key s else []) str_km_seed in
  let c := kmac_updates permB c (seed :: drng_encode (if xd_seeded s then 1 else 0) alpha) in
  (0, mkXD true (fst (kmac_final_xof permB c 64))).

(** A request; [fill n] is the content of the caller's buffer of n bytes before the call. *)
Section Step.
  Variable seed : xdst -> list Z -> list Z -> Z * xdst.
  Variable generate : xdst -> list Z -> list Z -> Z * list Z * xdst.
  Variable fill : nat -> list Z.
  Definition xd_req (s : xdst) (r : drbg_req) : Z * list Z * xdst :=
    match r with
    | RSeed e p => let '(rc, s) := seed s e p in (rc, [], s)
    | RGen a n => generate s a (fill n)
    end.
End Step.
