(** Ascon-p and Ascon-Hash256 / Ascon-XOF128 as defined in NIST SP 800-232, on the bit level.
    Word i (0..4), bit j (0 = least significant). Nothing here refers to the model. *)
From Verif Require Import Bytes KeccakSpec SpongeSpec.

Definition astate := nat -> Z -> bool.

(** SP 800-232, 3.2: constants c_i; round i of Ascon-p[rnd] uses const_{16-rnd+i}; of the table only
    the last twelve entries f0, e1, ..., 4b occur for rnd <= 12. *)
Definition acst (rnd i : nat) : Z := 0xf0 - 15 * Z.of_nat (12 - rnd + i).

Definition pC (c : Z) (a : astate) : astate :=
  fun i j => if (i =? 2)%nat then xorb (a i j) (Z.testbit c j) else a i j.

(** SP 800-232, 3.3: the S-box table; x0 is the most significant bit of the 5 bit value. *)
Definition sbox_table : list Z :=
  [0x4; 0xb; 0x1f; 0x14; 0x1a; 0x15; 0x9; 0x2; 0x1b; 0x5; 0x8; 0x12; 0x1d; 0x3; 0x6; 0x1c;
   0x1e; 0x13; 0x7; 0xe; 0x0; 0xd; 0x11; 0x18; 0x10; 0xc; 0x1; 0x19; 0x16; 0xa; 0xf; 0x17].
Definition sbox5 (x0 x1 x2 x3 x4 : bool) : Z :=
  nth (Z.to_nat (16 * Z.b2z x0 + 8 * Z.b2z x1 + 4 * Z.b2z x2 + 2 * Z.b2z x3 + Z.b2z x4)) sbox_table 0.
Definition pS (a : astate) : astate :=
  fun i j => Z.testbit (sbox5 (a 0%nat j) (a 1%nat j) (a 2%nat j) (a 3%nat j) (a 4%nat j)) (4 - Z.of_nat i).

(** SP 800-232, 3.4: linear diffusion, X xor (X >>> r1) xor (X >>> r2). *)
Definition rots (i : nat) : Z * Z :=
  nth i [(19, 28); (61, 39); (1, 6); (10, 17); (7, 41)] (0, 0).
Definition pL (a : astate) : astate :=
  fun i j => let (r1, r2) := rots i in
    xorb (xorb (a i j) (a i ((j + r1) mod 64))) (a i ((j + r2) mod 64)).

Definition around (rnd : nat) (a : astate) (i : nat) : astate := pL (pS (pC (acst rnd i) a)).
Definition ascon_p (rnd : nat) (a : astate) : astate := fold_left (around rnd) (seq 0 rnd) a.

(** Byte view (SP 800-232, Appendix A, little endian): byte k holds bits 8(k mod 8).. of word k/8. *)
Definition astate_of_bytes (b : list Z) : astate :=
  fun i j => let n := 64 * Z.of_nat i + j in Z.testbit (nth (Z.to_nat (n / 8)) b 0) (n mod 8).
Definition bytes_of_astate (a : astate) : list Z :=
  map (fun k => byte_of_bits (fun j => a (k / 8)%nat (8 * Z.of_nat (k mod 8) + j))) (seq 0 40).
Definition ascon_p_bytes (rnd : nat) (b : list Z) : list Z :=
  bytes_of_astate (ascon_p rnd (astate_of_bytes b)).

(** SP 800-232, 5.1, 5.2: rate 8 bytes, initial value IV || 0^256, padding 1 0*. *)
Definition apad (m : list Z) : list Z := m ++ [1] ++ zeros (7 - length m mod 8).
Definition ascon_hash_state (iv : Z) (m : list Z) : list Z :=
  let f := ascon_p_bytes 12 in
  absorb f (f (le_bytes 8 iv ++ zeros 32)) (full_chunks 8 (apad m)).
(** bytes p .. p+n-1 of the output *)
Definition ascon_hash_out (iv : Z) (m : list Z) (p n : nat) : list Z :=
  map (out_byte (ascon_p_bytes 12) 8 (ascon_hash_state iv m)) (seq p n).

Definition ASCON_HASH256 (m : list Z) : list Z := ascon_hash_out 0x0000080100cc0002 m 0 32.
Definition ASCON_XOF128 (m : list Z) (n : nat) : list Z := ascon_hash_out 0x0000080000cc0003 m 0 n.
