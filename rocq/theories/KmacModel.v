(** Model of cSHAKE [hash/src/cshake.c], lc_left_encode [internal/src/left_encode.c] and KMAC
    [kmac/src/kmac.c] on top of the SHA-3 context model. *)
From Verif Require Import Bytes Words Sha3Model.

(** [internal/src/left_encode.c: 28-29; kmac/src/kmac.c: 71-72] for (v = val, n = 0; v && n < 8; n++, v >>= 8) *)
Fixpoint enc_n (fuel : nat) (v : Z) : nat :=
  match fuel with
  | O => O
  | S f => if v =? 0 then O else S (enc_n f (Z.shiftr v 8))
  end.
Definition enc_n1 (val : Z) : nat := let n := enc_n 8 val in if (n =? 0)%nat then 1%nat else n.

(** [internal/src/left_encode.c: 22-37] lc_left_encode: the bytes put in buf. *)
Definition lc_left_encode (val : Z) : list Z :=
  let n := enc_n1 val in
  Z.of_nat n :: map (fun i => u8 (Z.shiftr val (8 * Z.of_nat (n - i)))) (seq 1 n).
(** [kmac/src/kmac.c: 65-81] right_encode *)
Definition k_right_encode (val : Z) : list Z :=
  let n := enc_n1 val in
  map (fun i => u8 (Z.shiftr val (8 * Z.of_nat (n - i - 1)))) (seq 0 n) ++ [Z.of_nat n].

(** struct lc_hash_ctx [hash/api/lc_hash.h]: the algorithm pointer and the state. *)
Record hctx := mkH { hc_alg : kalg; hc_st : kctx }.

Section Kmac.
  Variable P : list Z -> list Z.

  (** [hash/src/hash.c: 22-56] dispatch to the algorithm of the context. *)
  Definition hh_init (c : hctx) : hctx := mkH (hc_alg c) (keccak_init (hc_alg c)).
  Definition hh_update (c : hctx) (m : list Z) : hctx := mkH (hc_alg c) (keccak_absorb P (hc_st c) m).
  Definition hh_blocksize (c : hctx) : nat := a_r (hc_alg c).
  (** [hash/api/lc_cshake.h: 74-79] lc_cshake_final *)
  Definition hh_xof (c : hctx) (n : nat) : list Z * hctx :=
    let (o, st) := xof_read P (hc_st c) n in (o, mkH (hc_alg c) st).

  (** size_t nlen << 3 *)
  Definition shl3 (m : list Z) : Z := t64 (8 * Z.of_nat (length m)).
  (** [hash/src/cshake.c: 81-83], [kmac/src/kmac.c: 145-149] zero fill after [added] bytes. *)
  Definition zfill (c : hctx) (added : Z) : hctx :=
    let len := Z.to_nat (t64 added mod Z.of_nat (hh_blocksize c)) in
    if (len =? 0)%nat then c else hh_update c (zeros (hh_blocksize c - len)).

  (** [hash/src/cshake.c: 25-84] lc_cshake_init, ctx not NULL. *)
  Definition cshake_init (c : hctx) (n s : list Z) : hctx :=
    let shake128 := (hh_blocksize c =? 168)%nat in
    if ((length n =? 0) && (length s =? 0))%nat
    then hh_init (mkH (if shake128 then alg_shake128 else alg_shake256) (hc_st c))
    else
      let c := hh_init c in
      let c := hh_update c (if shake128 then [1; 168] else [1; 136]) in
      let ln := lc_left_encode (shl3 n) in
      let c := hh_update c ln in
      let c := hh_update c n in
      let ls := lc_left_encode (shl3 s) in
      let c := hh_update c ls in
      let c := hh_update c s in
      zfill c (2 + Z.of_nat (length ln) + Z.of_nat (length n) + Z.of_nat (length ls) + Z.of_nat (length s)).

  (** struct lc_kmac_ctx [kmac/api/lc_kmac.h]; km_shadow is Some iff allocated with the reinit flag. *)
  Record kmctx := mkKM { km_h : hctx; km_shadow : option kctx; km_final : bool }.

  (** [kmac/src/kmac.c: 102-156] lc_kmac_init *)
  Definition kmac_init (c : kmctx) (key s : list Z) : kmctx :=
    let h := cshake_init (km_h c) [75; 77; 65; 67] s in
    let h := hh_update h (if (hh_blocksize h =? 168)%nat then [1; 168] else [1; 136]) in
    let lk := lc_left_encode (shl3 key) in
    let h := hh_update h lk in
    let h := hh_update h key in
    let h := zfill h (2 + Z.of_nat (length lk) + Z.of_nat (length key)) in
    mkKM h (match km_shadow c with Some _ => Some (hc_st h) | None => None end) false.

  (** [kmac/src/kmac.c: 158-168] *)
  Definition kmac_update (c : kmctx) (m : list Z) : kmctx :=
    mkKM (hh_update (km_h c) m) (km_shadow c) (km_final c).

  (** [kmac/src/kmac.c: 170-188] lc_kmac_final_internal *)
  Definition kmac_final_internal (c : kmctx) (n : nat) : list Z * kmctx :=
    let h := hh_update (km_h c) (k_right_encode (t64 (8 * Z.of_nat n))) in
    let (o, h) := hh_xof h n in (o, mkKM h (km_shadow c) (km_final c)).
  (** [kmac/src/kmac.c: 190-195] lc_kmac_final: fewer than LC_KMAC_MIN_MAC_SIZE = 4 bytes: nothing. *)
  Definition kmac_final (c : kmctx) (n : nat) : list Z * kmctx :=
    if (4 <=? n)%nat then kmac_final_internal c n else ([], c).

  (** [kmac/src/kmac.c: 197-215] lc_kmac_final_xof_internal *)
  Definition kmac_final_xof_internal (c : kmctx) (n : nat) : list Z * kmctx :=
    let h := if km_final c then km_h c else hh_update (km_h c) [0; 1] in
    let (o, h) := hh_xof h n in (o, mkKM h (km_shadow c) true).
  (** [kmac/src/kmac.c: 217-222] *)
  Definition kmac_final_xof (c : kmctx) (n : nat) : list Z * kmctx :=
    if (4 <=? n)%nat then kmac_final_xof_internal c n else ([], c).

  (** [kmac/src/kmac.c: 83-100] lc_kmac_reinit *)
  Definition kmac_reinit (c : kmctx) : kmctx :=
    match km_shadow c with
    | None => c
    | Some sh => mkKM (mkH (hc_alg (km_h c)) sh) (Some sh) false
    end.

  Fixpoint kmac_xof_reads (c : kmctx) (ns : list nat) : list (list Z) * kmctx :=
    match ns with
    | [] => ([], c)
    | n :: ns' =>
        let (o, c1) := kmac_final_xof_internal c n in
        let (os, c2) := kmac_xof_reads c1 ns' in (o :: os, c2)
    end.
  Definition kmac_updates (c : kmctx) (ms : list (list Z)) : kmctx := fold_left kmac_update ms c.
End Kmac.
