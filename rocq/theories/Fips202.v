(** FIPS 202 sections 6.1, 6.2 and SP 800-185 section 3.3 (suffix 00), in terms of the sponge over
    the bit level Keccak-f[1600]. Lengths in bytes. Nothing here refers to the model. *)
From Verif Require Import Bytes KeccakSpec SpongeSpec.

(** KECCAK[8*2*d](M || suffix): rate 200 - capacity bytes. The suffix byte holds the domain bits and
    the first bit of pad10*1, least significant bit first: 01|1 = 6, 1111|1 = 31, 00|1 = 4. *)
Definition keccak_c (cap : nat) (suf : Z) (m : list Z) (p n : nat) : list Z :=
  sponge keccak_f_bytes 200 (200 - cap) suf m p n.

Definition SHA3 (d : nat) (m : list Z) : list Z := keccak_c (2 * d) 6 m 0 d.
Definition SHAKE128 (m : list Z) (n : nat) : list Z := keccak_c 32 31 m 0 n.
Definition SHAKE256 (m : list Z) (n : nat) : list Z := keccak_c 64 31 m 0 n.
