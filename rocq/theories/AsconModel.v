(** Model of the Ascon permutation and the Ascon hash context functions:
    /repo/hash/src/ascon_c.c, ascon_hash.h, ascon_hash_common.c. The uint64_t state[5] is viewed as 40
    bytes in memory order on a little-endian host, as [ascon_hash.h: 47-55] accesses it. *)
From Verif Require Import Bytes Words.

(** [hash/src/ascon_c.c: 67-96] ascon_permutation_one *)
Definition ascon_permutation_one (s : list Z) (constant : Z) : list Z :=
  match s with
  | [s0; s1; s2; s3; s4] =>
      let s2 := Z.lxor s2 constant in
      let s0 := Z.lxor s0 s4 in
      let s4 := Z.lxor s4 s3 in
      let s2 := Z.lxor s2 s1 in
      let t0 := Z.lxor s0 (Z.land (not64 s1) s2) in
      let t1 := Z.lxor s1 (Z.land (not64 s2) s3) in
      let t2 := Z.lxor s2 (Z.land (not64 s3) s4) in
      let t3 := Z.lxor s3 (Z.land (not64 s4) s0) in
      let t4 := Z.lxor s4 (Z.land (not64 s0) s1) in
      let t1 := Z.lxor t1 t0 in
      let t0 := Z.lxor t0 t4 in
      let t3 := Z.lxor t3 t2 in
      let t2 := not64 t2 in
      [Z.lxor (Z.lxor t0 (ror64 t0 19)) (ror64 t0 28);
       Z.lxor (Z.lxor t1 (ror64 t1 61)) (ror64 t1 39);
       Z.lxor (Z.lxor t2 (ror64 t2 1)) (ror64 t2 6);
       Z.lxor (Z.lxor t3 (ror64 t3 10)) (ror64 t3 17);
       Z.lxor (Z.lxor t4 (ror64 t4 7)) (ror64 t4 41)]
  | _ => s
  end.

(** [hash/src/ascon_c.c: 99-135] *)
Definition csts_6 : list Z := [0x96; 0x87; 0x78; 0x69; 0x5a; 0x4b].
Definition csts_8 : list Z := [0xb4; 0xa5; 0x96; 0x87; 0x78; 0x69; 0x5a; 0x4b].
Definition csts_12 : list Z := [0xf0; 0xe1; 0xd2; 0xc3; 0xb4; 0xa5; 0x96; 0x87; 0x78; 0x69; 0x5a; 0x4b].

(** [hash/src/ascon_c.c: 137-152] ascon_c_permutation: no-op for other round numbers. *)
Definition ascon_c_permutation (rounds : nat) (s : list Z) : list Z :=
  match rounds with
  | 12%nat => fold_left ascon_permutation_one csts_12 s
  | 8%nat => fold_left ascon_permutation_one csts_8 s
  | 6%nat => fold_left ascon_permutation_one csts_6 s
  | _ => s
  end.

(** The state array as 40 bytes and back. *)
Definition words5_of_bytes (b : list Z) : list Z := map (fun i => le_val (slice b (8 * i) 8)) (seq 0 5).
Definition bytes_of_words (s : list Z) : list Z := flat_map (le_bytes 8) s.
Definition asconB (rounds : nat) (b : list Z) : list Z :=
  bytes_of_words (ascon_c_permutation rounds (words5_of_bytes b)).

(** struct lc_ascon_hash [hash/api/lc_ascon_hash.h] *)
Record actx := mkAs {
  as_state : list Z;
  as_msglen : Z;
  as_digestsize : nat;
  as_offset : nat;
  as_roundb : nat;
  as_more : bool }.

(** [hash/src/ascon_hash_common.c: 30-53] ascon_256_init_common and [100-123] ascon_xof_init_common: the
    precomputed initial states. *)
Definition ascon_256_state : list Z :=
  [0x9b1e5494e934d681; 0x4bc3a01e333751d2; 0xae65396c6b34b81a; 0x3c7fd4a4d56a4db3; 0x1a5c464906c5976d].
Definition ascon_xof_state : list Z :=
  [0xda82ce768d9447eb; 0xcc7ce6c75f1ef969; 0xe7508fd780085631; 0x0ee0ea53416b58cc; 0xe0547524db6f0bde].
Definition ascon_256_init : actx := mkAs (bytes_of_words ascon_256_state) 0 32 0 12 false.
Definition ascon_xof_init : actx := mkAs (bytes_of_words ascon_xof_state) 0 0 0 12 false.

Section Ascon.
  Variable P : nat -> list Z -> list Z.    (* permutation with a round count, on the byte view *)

  (** LC_ASCON_HASH_RATE = 8 *)
  Definition arate : nat := 8.

  (** [hash/src/ascon_hash.h: 146-168] the loops over full blocks (aligned and unaligned input do the
      same; `if (inlen)` is true in every iteration). *)
  Fixpoint ascon_loop (fuel rb : nat) (st inp : list Z) : list Z * list Z :=
    match fuel with
    | O => (st, inp)
    | S f =>
        if (arate <=? length inp)%nat
        then ascon_loop f rb (P rb (xor_at st 0 (firstn arate inp))) (skipn arate inp)
        else (st, inp)
    end.

  (** [hash/src/ascon_hash.h: 105-172] ascon_absorb_common *)
  Definition ascon_absorb (c : actx) (inp : list Z) : actx :=
    let partial := Z.to_nat (as_msglen c mod Z.of_nat arate) in
    let ml := t64 (as_msglen c + Z.of_nat (length inp)) in
    let finish st := mkAs st ml (as_digestsize c) (as_offset c) (as_roundb c) false in
    let full st inp :=
      let (st', rest) := ascon_loop (length inp) (as_roundb c) st inp in finish (xor_at st' 0 rest) in
    if (partial =? 0)%nat then full (as_state c) inp
    else
      let todo := (arate - partial)%nat in
      if (length inp <? todo)%nat then finish (xor_at (as_state c) partial inp)
      else
        let st := xor_at (as_state c) partial (firstn todo inp) in
        let inp := skipn todo inp in
        (* line 143: if (partial && inlen) *)
        let st := if (0 <? length inp)%nat then P (as_roundb c) st else st in
        full st inp.

  (** [hash/src/ascon_hash.h: 211-232] squeeze loop *)
  Fixpoint ascon_squeeze_loop (fuel rb : nat) (st : list Z) (off len : nat) : list Z * list Z * nat :=
    match fuel with
    | O => ([], st, off)
    | S f =>
        if (len =? 0)%nat then ([], st, off)
        else
          let todo := (arate - off)%nat in
          let todo := if (todo <? len)%nat then todo else len in
          let o := slice st off todo in
          let off := ((off + todo) mod arate)%nat in
          let st := if (off =? 0)%nat then P rb st else st in
          let '(o', st', off') := ascon_squeeze_loop f rb st off (len - todo) in
          (o ++ o', st', off')
    end.

  (** [hash/src/ascon_hash.h: 174-233] ascon_squeeze_common *)
  Definition ascon_squeeze (c : actx) : list Z * actx :=
    let st := if as_more c then as_state c
              else P 12 (xor_at (as_state c) (Z.to_nat (as_msglen c mod Z.of_nat arate)) [1]) in
    let '(o, st', off') :=
      ascon_squeeze_loop (as_digestsize c) (as_roundb c) st (as_offset c) (as_digestsize c) in
    (o, mkAs st' (as_msglen c) (as_digestsize c) off' (as_roundb c) true).

  (** [hash/src/ascon_hash_common.c: 183-188] ascon_xof_set_digestsize, then final. *)
  Definition ascon_xof_read (c : actx) (n : nat) : list Z * actx :=
    ascon_squeeze (mkAs (as_state c) (as_msglen c) n (as_offset c) (as_roundb c) (as_more c)).

  Fixpoint ascon_xof_reads (c : actx) (ns : list nat) : list (list Z) * actx :=
    match ns with
    | [] => ([], c)
    | n :: ns' =>
        let (o, c1) := ascon_xof_read c n in
        let (os, c2) := ascon_xof_reads c1 ns' in
        (o :: os, c2)
    end.

  Definition ascon_updates (c : actx) (ms : list (list Z)) : actx := fold_left ascon_absorb ms c.
End Ascon.
