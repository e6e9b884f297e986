(** FIPS 197 (update 1, 2023). Bytes are Z in [0, 256); a state is its 16 bytes, s[r,c] = byte r + 4c. *)
From Verif Require Import Bytes.

(** 4.2: multiplication in GF(2^8) modulo x^8 + x^4 + x^3 + x + 1: shift-and-add on polynomials. *)
Definition xtimes (b : Z) : Z :=
  if Z.testbit b 7 then Z.lxor (2 * b - 256) 0x1b else 2 * b.
Fixpoint gmul_bits (n : nat) (a b : Z) : Z :=
  match n with
  | O => 0
  | S k => Z.lxor (if Z.odd b then a else 0) (gmul_bits k (xtimes a) (b / 2))
  end.
Definition gmul (a b : Z) : Z := gmul_bits 8 a b.

(** 4.4: the inverse (0 for 0): the first element whose product with b is 1. *)
Definition all_bytes : list Z := map Z.of_nat (seq 0 256).
Definition ginv (b : Z) : Z :=
  match filter (fun x => gmul b x =? 1) all_bytes with x :: _ => x | [] => 0 end.

(** 5.1.1: affine transformation, eq. (5.3): b'_i = b_i + b_(i+4) + b_(i+5) + b_(i+6) + b_(i+7) + c_i. *)
Definition affine_bit (b : Z) (i : Z) : bool :=
  xorb (xorb (xorb (xorb (xorb (Z.testbit b i) (Z.testbit b ((i + 4) mod 8))) (Z.testbit b ((i + 5) mod 8)))
    (Z.testbit b ((i + 6) mod 8))) (Z.testbit b ((i + 7) mod 8))) (Z.testbit 0x63 i).
Definition bits_to_byte (f : Z -> bool) : Z :=
  fold_right (fun i acc => (if f (Z.of_nat i) then 2 ^ Z.of_nat i else 0) + acc) 0 (seq 0 8).
Definition SBOX (b : Z) : Z := bits_to_byte (affine_bit (ginv b)).

Definition byte_at (s : list Z) (r c : nat) : Z := nth (r + 4 * c) s 0.
(** Build a state from the function giving s[r,c]. *)
Definition mk_state (f : nat -> nat -> Z) : list Z :=
  map (fun k => f (k mod 4)%nat (k / 4)%nat) (seq 0 16).

Definition SubBytes (s : list Z) : list Z := map SBOX s.
(** (5.5) *)
Definition ShiftRows (s : list Z) : list Z := mk_state (fun r c => byte_at s r ((c + r) mod 4)).
(** (5.7), the circulant matrix 2 3 1 1 *)
Definition mix_coeff (r j : nat) : Z := nth ((j + 4 - r) mod 4) [2; 3; 1; 1] 0.
Definition MixColumns (s : list Z) : list Z :=
  mk_state (fun r c => fold_right Z.lxor 0 (map (fun j => gmul (mix_coeff r j) (byte_at s j c)) (seq 0 4))).
(** (5.9) with the round key words w[4 round + c] *)
Definition AddRoundKey (s : list Z) (w : list (list Z)) (round : nat) : list Z :=
  mk_state (fun r c => Z.lxor (byte_at s r c) (nth r (nth (4 * round + c) w []) 0)).

(** 5.2 key expansion: words are lists of 4 bytes. *)
Definition RotWord (a : list Z) : list Z := [nth 1 a 0; nth 2 a 0; nth 3 a 0; nth 0 a 0].
Definition SubWord (a : list Z) : list Z := map SBOX a.
(** Rcon[j] = x^(j-1) *)
Fixpoint gpow2 (n : nat) : Z := match n with O => 1 | S k => gmul 2 (gpow2 k) end.
Definition RCON (j : nat) : list Z := [gpow2 (j - 1); 0; 0; 0].
Definition next_word (nk : nat) (w : list (list Z)) (i : nat) : list Z :=
  let temp := nth (i - 1) w [] in
  let temp := if (i mod nk =? 0)%nat then xorl (SubWord (RotWord temp)) (RCON (i / nk))
              else if ((6 <? nk) && (i mod nk =? 4))%nat then SubWord temp else temp in
  xorl (nth (i - nk) w []) temp.
Definition KeyExpansion (nk nr : nat) (key : list Z) : list (list Z) :=
  fold_left (fun w i => w ++ [next_word nk w i]) (seq nk (4 * nr + 4 - nk))
    (map (fun i => slice key (4 * i) 4) (seq 0 nk)).

(** Algorithm 1 *)
Definition round_fn (w : list (list Z)) (s : list Z) (round : nat) : list Z :=
  AddRoundKey (MixColumns (ShiftRows (SubBytes s))) w round.
Definition Cipher (nr : nat) (w : list (list Z)) (inp : list Z) : list Z :=
  AddRoundKey (ShiftRows (SubBytes (fold_left (round_fn w) (seq 1 (nr - 1)) (AddRoundKey inp w 0)))) w nr.

(** Table 3: key length in words and number of rounds. *)
Definition rounds_of (keylen : nat) : nat :=
  if (keylen =? 16)%nat then 10%nat else if (keylen =? 24)%nat then 12%nat else 14%nat.
Definition AES (key blk : list Z) : list Z :=
  let nr := rounds_of (length key) in Cipher nr (KeyExpansion (length key / 4) nr key) blk.

(** ** 5.3 decryption *)
(** The inverse affine map: b'_i = b_(i+2) + b_(i+5) + b_(i+7) + d_i with d = 0x05; InvSubBytes applies it and
    then the inversion. *)
Definition inv_affine_bit (b : Z) (i : Z) : bool :=
  xorb (xorb (xorb (Z.testbit b ((i + 2) mod 8)) (Z.testbit b ((i + 5) mod 8))) (Z.testbit b ((i + 7) mod 8)))
    (Z.testbit 0x05 i).
Definition INVSBOX (b : Z) : Z := ginv (bits_to_byte (inv_affine_bit b)).
Definition InvSubBytes (s : list Z) : list Z := map INVSBOX s.
(** (5.11): s'[r,(c+r) mod 4] = s[r,c] *)
Definition InvShiftRows (s : list Z) : list Z := mk_state (fun r c => byte_at s r ((c + 4 - r) mod 4)).
(** (5.14), the circulant matrix 0e 0b 0d 09 *)
Definition inv_mix_coeff (r j : nat) : Z := nth ((j + 4 - r) mod 4) [0x0e; 0x0b; 0x0d; 0x09] 0.
Definition InvMixColumns (s : list Z) : list Z :=
  mk_state (fun r c => fold_right Z.lxor 0 (map (fun j => gmul (inv_mix_coeff r j) (byte_at s j c)) (seq 0 4))).
(** Algorithm 3 *)
Definition inv_round_fn (w : list (list Z)) (s : list Z) (round : nat) : list Z :=
  InvMixColumns (AddRoundKey (InvSubBytes (InvShiftRows s)) w round).
Definition InvCipher (nr : nat) (w : list (list Z)) (inp : list Z) : list Z :=
  AddRoundKey (InvSubBytes (InvShiftRows
    (fold_left (inv_round_fn w) (rev (seq 1 (nr - 1))) (AddRoundKey inp w nr)))) w 0.
Definition AES_inv (key blk : list Z) : list Z :=
  let nr := rounds_of (length key) in InvCipher nr (KeyExpansion (length key / 4) nr key) blk.
