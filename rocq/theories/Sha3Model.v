(** Model of the portable SHA-3 family context functions, /repo/hash/src/sha3_c.c.
    Simplification: the 25 word state is viewed as its 200 bytes in memory order on a little-endian
    host (lane i is bytes 8i..8i+7, little endian), which is how lines 175-181 access it. File
    SpongeWords.v relates the word level helper functions to this view. The permutation is a
    parameter [P] here; [KeccakBytes.v] instantiates it with keccakp_1600. *)
From Verif Require Import Bytes Words.

(** [hash/api/lc_sha3.h: 50-59] struct lc_sha3_224_state. The fields offset, r, rword, padding are
    uint8_t; with the rates 72..168 set by the init functions no uint8_t computation below wraps
    (offset <= r <= 168). rword = r/8 is not kept separately. *)
Record kctx := mkK {
  k_state : list Z;
  k_msglen : Z;          (* size_t *)
  k_digestsize : nat;
  k_offset : nat;
  k_r : nat;
  k_padding : Z;
  k_more : bool }.

(** The rate / padding / default digest size chosen by the init functions. *)
Record kalg := mkA { a_r : nat; a_padding : Z; a_digestsize : nat }.
(** [hash/src/sha3_c.c: 233-245, 265-277, 297-309, 329-341, 361-373, 387-399, 413-425, 439-451]
    with LC_SHA3_SIZE_RATE(bits) = (1600 - 2*bits) >> 3 from [hash/api/lc_sha3.h: 30]. *)
Definition alg_sha3_224 := mkA 144 6 28.
Definition alg_sha3_256 := mkA 136 6 32.
Definition alg_sha3_384 := mkA 104 6 48.
Definition alg_sha3_512 := mkA 72 6 64.
Definition alg_shake128 := mkA 168 31 0.
Definition alg_shake256 := mkA 136 31 0.
Definition alg_cshake128 := mkA 168 4 0.
Definition alg_cshake256 := mkA 136 4 0.

(** [hash/src/sha3_c.c: 214-231] sha3_ctx_init followed by the assignments of the *_init_common
    function of the algorithm. All fields are overwritten, so the old context is not an argument. *)
Definition keccak_init (a : kalg) : kctx :=
  mkK (zeros 200) 0 (a_digestsize a) 0 (a_r a) (a_padding a) false.

Section Keccak.
  Variable P : list Z -> list Z.   (* keccakp_1600 on the byte view *)

  (** [hash/src/sha3_c.c: 175-181] sha3_fill_state_bytes (little endian branch). *)
  Definition fill_bytes (st inp : list Z) (off : nat) : list Z := xor_at st off inp.

  (** [hash/src/sha3_c.c: 533-551] loop over full blocks. The two branches (aligned, unaligned input)
      XOR the same rword 64 bit little-endian words, i.e. the next r bytes. [fuel] bounds the number
      of iterations; inlen is an upper bound. Result: state and the remaining input. *)
  Fixpoint absorb_loop (fuel r : nat) (st inp : list Z) : list Z * list Z :=
    match fuel with
    | O => (st, inp)
    | S f =>
        if (r <=? length inp)%nat
        then absorb_loop f r (P (fill_bytes st (firstn r inp) 0)) (skipn r inp)
        else (st, inp)
    end.

  (** [hash/src/sha3_c.c: 491-555] keccak_absorb. *)
  Definition keccak_absorb (c : kctx) (inp : list Z) : kctx :=
    let r := k_r c in
    let partial := Z.to_nat (k_msglen c mod Z.of_nat r) in
    let msglen' := t64 (k_msglen c + Z.of_nat (length inp)) in
    let finish st := mkK st msglen' (k_digestsize c) (k_offset c) r (k_padding c) false in
    let full st inp :=
      let (st', rest) := absorb_loop (length inp) r st inp in
      finish (fill_bytes st' rest 0) in
    if (partial =? 0)%nat then full (k_state c) inp
    else
      let todo := (r - partial)%nat in
      if (length inp <? todo)%nat
      then finish (fill_bytes (k_state c) inp partial)
      else full (P (fill_bytes (k_state c) (firstn todo inp) partial)) (skipn todo inp).

  (** [hash/src/sha3_c.c: 571-585] padding on the first squeeze. *)
  Definition keccak_pad (c : kctx) : list Z :=
    let r := k_r c in
    let partial := Z.to_nat (k_msglen c mod Z.of_nat r) in
    let st := fill_bytes (k_state c) [k_padding c] partial in
    let st := if (128 <=? k_padding c) && (partial =? r - 1)%nat then P st else st in
    fill_bytes st [128] (r - 1).

  (** [hash/src/sha3_c.c: 587-606] the squeeze loop; returns output, state, offset. Each iteration
      writes at least one byte, so digest_len is enough fuel. *)
  Fixpoint squeeze_loop (fuel r : nat) (st : list Z) (off len : nat) : list Z * list Z * nat :=
    match fuel with
    | O => ([], st, off)
    | S f =>
        if (len =? 0)%nat then ([], st, off)
        else
          let todo := (r - off)%nat in
          let todo := if (todo <? len)%nat then todo else len in
          let st := if (off =? 0)%nat then P st else st in
          let o := slice st off todo in
          let '(o', st', off') := squeeze_loop f r st ((off + todo) mod r) (len - todo) in
          (o ++ o', st', off')
    end.

  (** [hash/src/sha3_c.c: 557-607] keccak_squeeze *)
  Definition keccak_squeeze (c : kctx) : list Z * kctx :=
    let st := if k_more c then k_state c else keccak_pad c in
    let '(o, st', off') := squeeze_loop (k_digestsize c) (k_r c) st (k_offset c) (k_digestsize c) in
    (o, mkK st' (k_msglen c) (k_digestsize c) off' (k_r c) (k_padding c) true).

  (** [hash/src/sha3_c.c: 609-614] shake_set_digestsize. For the fixed size SHA-3 functions
      set_digestsize is NULL and lc_hash_set_digestsize does nothing [hash/src/hash.c: 46-57]. *)
  Definition shake_set_digestsize (c : kctx) (n : nat) : kctx :=
    mkK (k_state c) (k_msglen c) n (k_offset c) (k_r c) (k_padding c) (k_more c).

  (** [hash/api/lc_cshake.h] lc_cshake_final = set_digestsize followed by final; one XOF read. *)
  Definition xof_read (c : kctx) (n : nat) : list Z * kctx :=
    keccak_squeeze (shake_set_digestsize c n).

  (** Successive XOF reads. *)
  Fixpoint xof_reads (c : kctx) (ns : list nat) : list (list Z) * kctx :=
    match ns with
    | [] => ([], c)
    | n :: ns' =>
        let (o, c1) := xof_read c n in
        let (os, c2) := xof_reads c1 ns' in
        (o :: os, c2)
    end.

  (** Successive updates. *)
  Definition keccak_updates (c : kctx) (ms : list (list Z)) : kctx := fold_left keccak_absorb ms c.

  (** [hash/src/hash.c: 135-145] lc_hash *)
  Definition keccak_hash (a : kalg) (m : list Z) : list Z :=
    fst (keccak_squeeze (keccak_absorb (keccak_init a) m)).

  (** [hash/src/hash.c: 147-159] lc_xof *)
  Definition keccak_xof (a : kalg) (m : list Z) (n : nat) : list Z :=
    fst (xof_read (keccak_absorb (keccak_init a) m) n).
End Keccak.
