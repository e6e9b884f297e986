(** The sponge construction of FIPS 202 (sections 4, 5.1, B.2), on byte strings.
    [f] is the permutation on states of [w] bytes, [r] the rate in bytes. Uses only list helpers. *)
From Verif Require Import Bytes.

Section SpongeSpec.
  Variable f : list Z -> list Z.
  Variable w r : nat.

  (** pad10*1 after a domain suffix, byte oriented (FIPS 202, B.2): [suf] holds the suffix bits
      followed by the first pad bit; the last pad bit is the top bit of the last byte. *)
  Definition pad (suf : Z) (m : list Z) : list Z :=
    let q := (r - length m mod r)%nat in
    if (q =? 1)%nat then m ++ [Z.lxor suf 128]
    else m ++ [suf] ++ zeros (q - 2) ++ [128].

  (** One absorbing step: XOR the block into the first r bytes, apply f. *)
  Definition absorb_block (s blk : list Z) : list Z := f (xor_into s blk).

  Definition absorb (s : list Z) (blocks : list (list Z)) : list Z := fold_left absorb_block blocks s.

  (** Byte number [p] of the output: block p/r of Trunc_r(s), Trunc_r(f s), Trunc_r(f (f s)), ... *)
  Definition out_byte (s : list Z) (p : nat) : Z := nth (p mod r) (Nat.iter (p / r) f s) 0.

  Definition sponge_state (suf : Z) (m : list Z) : list Z :=
    absorb (zeros w) (full_chunks r (pad suf m)).

  (** [sponge suf m p n]: the [n] bytes of output starting at position [p]. *)
  Definition sponge (suf : Z) (m : list Z) (p n : nat) : list Z :=
    map (out_byte (sponge_state suf m)) (seq p n).
End SpongeSpec.
