(** AES. Sources: sym/src/aes_sbox.c (table version), sym/src/aes_no_sbox.c and sym/src/aes_scr_helper.h
    (table-free version), sym/src/aes_block.c, sym/src/aes_internal.h. The AES-NI, ARM CE and RISC-V
    variants are not modelled. A state is the list of its 16 bytes in memory order; state[i][j] of the table
    version is byte 4*i + j; state->w[i] of the table-free version is the little endian word of bytes 4*i..4*i+3
    (little endian host). *)
From Verif Require Import Bytes Words.

(** [aes_sbox.c: 50-74] *)
Definition sbox : list Z :=
  [0x63; 0x7c; 0x77; 0x7b; 0xf2; 0x6b; 0x6f; 0xc5; 0x30; 0x01; 0x67; 0x2b; 0xfe; 0xd7; 0xab; 0x76;
   0xca; 0x82; 0xc9; 0x7d; 0xfa; 0x59; 0x47; 0xf0; 0xad; 0xd4; 0xa2; 0xaf; 0x9c; 0xa4; 0x72; 0xc0;
   0xb7; 0xfd; 0x93; 0x26; 0x36; 0x3f; 0xf7; 0xcc; 0x34; 0xa5; 0xe5; 0xf1; 0x71; 0xd8; 0x31; 0x15;
   0x04; 0xc7; 0x23; 0xc3; 0x18; 0x96; 0x05; 0x9a; 0x07; 0x12; 0x80; 0xe2; 0xeb; 0x27; 0xb2; 0x75;
   0x09; 0x83; 0x2c; 0x1a; 0x1b; 0x6e; 0x5a; 0xa0; 0x52; 0x3b; 0xd6; 0xb3; 0x29; 0xe3; 0x2f; 0x84;
   0x53; 0xd1; 0x00; 0xed; 0x20; 0xfc; 0xb1; 0x5b; 0x6a; 0xcb; 0xbe; 0x39; 0x4a; 0x4c; 0x58; 0xcf;
   0xd0; 0xef; 0xaa; 0xfb; 0x43; 0x4d; 0x33; 0x85; 0x45; 0xf9; 0x02; 0x7f; 0x50; 0x3c; 0x9f; 0xa8;
   0x51; 0xa3; 0x40; 0x8f; 0x92; 0x9d; 0x38; 0xf5; 0xbc; 0xb6; 0xda; 0x21; 0x10; 0xff; 0xf3; 0xd2;
   0xcd; 0x0c; 0x13; 0xec; 0x5f; 0x97; 0x44; 0x17; 0xc4; 0xa7; 0x7e; 0x3d; 0x64; 0x5d; 0x19; 0x73;
   0x60; 0x81; 0x4f; 0xdc; 0x22; 0x2a; 0x90; 0x88; 0x46; 0xee; 0xb8; 0x14; 0xde; 0x5e; 0x0b; 0xdb;
   0xe0; 0x32; 0x3a; 0x0a; 0x49; 0x06; 0x24; 0x5c; 0xc2; 0xd3; 0xac; 0x62; 0x91; 0x95; 0xe4; 0x79;
   0xe7; 0xc8; 0x37; 0x6d; 0x8d; 0xd5; 0x4e; 0xa9; 0x6c; 0x56; 0xf4; 0xea; 0x65; 0x7a; 0xae; 0x08;
   0xba; 0x78; 0x25; 0x2e; 0x1c; 0xa6; 0xb4; 0xc6; 0xe8; 0xdd; 0x74; 0x1f; 0x4b; 0xbd; 0x8b; 0x8a;
   0x70; 0x3e; 0xb5; 0x66; 0x48; 0x03; 0xf6; 0x0e; 0x61; 0x35; 0x57; 0xb9; 0x86; 0xc1; 0x1d; 0x9e;
   0xe1; 0xf8; 0x98; 0x11; 0x69; 0xd9; 0x8e; 0x94; 0x9b; 0x1e; 0x87; 0xe9; 0xce; 0x55; 0x28; 0xdf;
   0x8c; 0xa1; 0x89; 0x0d; 0xbf; 0xe6; 0x42; 0x68; 0x41; 0x99; 0x2d; 0x0f; 0xb0; 0x54; 0xbb; 0x16].
(** [aes_sbox.c: 76-99] *)
Definition rsbox : list Z :=
  [0x52; 0x09; 0x6a; 0xd5; 0x30; 0x36; 0xa5; 0x38; 0xbf; 0x40; 0xa3; 0x9e; 0x81; 0xf3; 0xd7; 0xfb;
   0x7c; 0xe3; 0x39; 0x82; 0x9b; 0x2f; 0xff; 0x87; 0x34; 0x8e; 0x43; 0x44; 0xc4; 0xde; 0xe9; 0xcb;
   0x54; 0x7b; 0x94; 0x32; 0xa6; 0xc2; 0x23; 0x3d; 0xee; 0x4c; 0x95; 0x0b; 0x42; 0xfa; 0xc3; 0x4e;
   0x08; 0x2e; 0xa1; 0x66; 0x28; 0xd9; 0x24; 0xb2; 0x76; 0x5b; 0xa2; 0x49; 0x6d; 0x8b; 0xd1; 0x25;
   0x72; 0xf8; 0xf6; 0x64; 0x86; 0x68; 0x98; 0x16; 0xd4; 0xa4; 0x5c; 0xcc; 0x5d; 0x65; 0xb6; 0x92;
   0x6c; 0x70; 0x48; 0x50; 0xfd; 0xed; 0xb9; 0xda; 0x5e; 0x15; 0x46; 0x57; 0xa7; 0x8d; 0x9d; 0x84;
   0x90; 0xd8; 0xab; 0x00; 0x8c; 0xbc; 0xd3; 0x0a; 0xf7; 0xe4; 0x58; 0x05; 0xb8; 0xb3; 0x45; 0x06;
   0xd0; 0x2c; 0x1e; 0x8f; 0xca; 0x3f; 0x0f; 0x02; 0xc1; 0xaf; 0xbd; 0x03; 0x01; 0x13; 0x8a; 0x6b;
   0x3a; 0x91; 0x11; 0x41; 0x4f; 0x67; 0xdc; 0xea; 0x97; 0xf2; 0xcf; 0xce; 0xf0; 0xb4; 0xe6; 0x73;
   0x96; 0xac; 0x74; 0x22; 0xe7; 0xad; 0x35; 0x85; 0xe2; 0xf9; 0x37; 0xe8; 0x1c; 0x75; 0xdf; 0x6e;
   0x47; 0xf1; 0x1a; 0x71; 0x1d; 0x29; 0xc5; 0x89; 0x6f; 0xb7; 0x62; 0x0e; 0xaa; 0x18; 0xbe; 0x1b;
   0xfc; 0x56; 0x3e; 0x4b; 0xc6; 0xd2; 0x79; 0x20; 0x9a; 0xdb; 0xc0; 0xfe; 0x78; 0xcd; 0x5a; 0xf4;
   0x1f; 0xdd; 0xa8; 0x33; 0x88; 0x07; 0xc7; 0x31; 0xb1; 0x12; 0x10; 0x59; 0x27; 0x80; 0xec; 0x5f;
   0x60; 0x51; 0x7f; 0xa9; 0x19; 0xb5; 0x4a; 0x0d; 0x2d; 0xe5; 0x7a; 0x9f; 0x93; 0xc9; 0x9c; 0xef;
   0xa0; 0xe0; 0x3b; 0x4d; 0xae; 0x2a; 0xf5; 0xb0; 0xc8; 0xeb; 0xbb; 0x3c; 0x83; 0x53; 0x99; 0x61;
   0x17; 0x2b; 0x04; 0x7e; 0xba; 0x77; 0xd6; 0x26; 0xe1; 0x69; 0x14; 0x63; 0x55; 0x21; 0x0c; 0x7d].
(** [aes_sbox.c: 173-174] *)
Definition Rcon : list Z :=
  [0x8d; 0x01; 0x02; 0x04; 0x08; 0x10; 0x20; 0x40; 0x80; 0x1b; 0x36].

(** [aes_sbox.c: 104-107, 379-382] *)
Definition getSBoxValue (x : Z) : Z := nth (Z.to_nat x) sbox 0.
Definition getSBoxInvert (x : Z) : Z := nth (Z.to_nat x) rsbox 0.

(** struct aes_block_ctx [aes_internal.h: 53-64]: the bytes of round_key, nk, nr. *)
Record aesctx := mkAes { ae_rk : list Z; ae_nk : nat; ae_nr : nat }.

(** [aes_internal.h: 66-85]; [None] is -EINVAL *)
Definition aes_set_type (keylen : nat) : option (nat * nat) :=
  if (keylen =? 16)%nat then Some (4, 10)%nat
  else if (keylen =? 24)%nat then Some (6, 12)%nat
  else if (keylen =? 32)%nat then Some (8, 14)%nat else None.

(** ** Key expansion of the table version [aes_sbox.c: 180-258].
    The array is written in increasing order, 4 bytes for each i; here it grows by appending. *)
Definition sub4 (t : list Z) : list Z := map getSBoxValue t.
Definition rot4 (t : list Z) : list Z := match t with a :: r => r ++ [a] | [] => [] end.
Definition key_step (nk : nat) (rk : list Z) (i : nat) : list Z :=
  let tempa := slice rk ((i - 1) * 4) 4 in
  let tempa :=
    if (i mod nk =? 0)%nat then
      match sub4 (rot4 tempa) with
      | a :: r => Z.lxor a (nth (i / nk) Rcon 0) :: r
      | [] => []
      end
    else tempa in
  let tempa := if ((nk =? 8) && (i mod nk =? 4))%nat then sub4 tempa else tempa in
  rk ++ xorl (slice rk ((i - nk) * 4) 4) tempa.
Definition aes_key_expansion (nk nr : nat) (key : list Z) : list Z :=
  fold_left (key_step nk) (seq nk (4 * (nr + 1) - nk)) (firstn (4 * nk) key).

(** ** Rounds of the table version. *)
(** [aes_sbox.c: 265-285] *)
Definition add_round_key (round : nat) (s rk : list Z) : list Z := xorl s (slice rk (round * 16) 16).
(** [aes_sbox.c: 291-299] [414-422] every byte *)
Definition aes_sub_bytes (s : list Z) : list Z := map getSBoxValue s.
Definition Invaes_sub_bytes (s : list Z) : list Z := map getSBoxInvert s.

(** Assignment of a byte: state[i][j] = v. *)
Definition st (s : list Z) (i j : nat) : Z := nth (4 * i + j) s 0.
Definition set (s : list Z) (i j : nat) (v : Z) : list Z := upd s (4 * i + j) v.

(** [aes_sbox.c: 306-332] *)
Definition aes_shift_rows (s : list Z) : list Z :=
  let temp := st s 0 1 in
  let s := set s 0 1 (st s 1 1) in
  let s := set s 1 1 (st s 2 1) in
  let s := set s 2 1 (st s 3 1) in
  let s := set s 3 1 temp in
  let temp := st s 0 2 in
  let s := set s 0 2 (st s 2 2) in
  let s := set s 2 2 temp in
  let temp := st s 1 2 in
  let s := set s 1 2 (st s 3 2) in
  let s := set s 3 2 temp in
  let temp := st s 0 3 in
  let s := set s 0 3 (st s 3 3) in
  let s := set s 3 3 (st s 2 3) in
  let s := set s 2 3 (st s 1 3) in
  set s 1 3 temp.

(** [aes_sbox.c: 334-337] *)
Definition xtime (x : Z) : Z := u8 (Z.lxor (Z.shiftl x 1) (Z.land (Z.shiftr x 7) 1 * 0x1b)).

(** [aes_sbox.c: 340-362] the loop body for one column (its four bytes). *)
Definition mix_column (c : list Z) : list Z :=
  match c with
  | [c0; c1; c2; c3] =>
      let t := c0 in
      let Tmp := Z.lxor (Z.lxor (Z.lxor c0 c1) c2) c3 in
      let c0 := Z.lxor c0 (Z.lxor (xtime (Z.lxor c0 c1)) Tmp) in
      let Tm := xtime (Z.lxor c1 c2) in
      let c1 := Z.lxor c1 (Z.lxor Tm Tmp) in
      let Tm := xtime (Z.lxor c2 c3) in
      let c2 := Z.lxor c2 (Z.lxor Tm Tmp) in
      let Tm := xtime (Z.lxor c3 t) in
      let c3 := Z.lxor c3 (Z.lxor Tm Tmp) in
      [c0; c1; c2; c3]
  | _ => c
  end.
Definition columns (f : list Z -> list Z) (s : list Z) : list Z :=
  f (slice s 0 4) ++ f (slice s 4 4) ++ f (slice s 8 4) ++ f (slice s 12 4).
Definition aes_mix_columns (s : list Z) : list Z := columns mix_column s.

(** [aes_sbox.c: 369-377] the products are int; the result is converted to uint8_t. *)
Definition Multiply (x y : Z) : Z :=
  u8 (Z.lxor (Z.lxor (Z.lxor (Z.lxor
    (Z.land y 1 * x)
    (Z.land (Z.shiftr y 1) 1 * xtime x))
    (Z.land (Z.shiftr y 2) 1 * xtime (xtime x)))
    (Z.land (Z.shiftr y 3) 1 * xtime (xtime (xtime x))))
    (Z.land (Z.shiftr y 4) 1 * xtime (xtime (xtime (xtime x))))).

(** [aes_sbox.c: 388-408] *)
Definition inv_mix_column (c : list Z) : list Z :=
  match c with
  | [a; b; c; d] =>
      [Z.lxor (Z.lxor (Z.lxor (Multiply a 0x0e) (Multiply b 0x0b)) (Multiply c 0x0d)) (Multiply d 0x09);
       Z.lxor (Z.lxor (Z.lxor (Multiply a 0x09) (Multiply b 0x0e)) (Multiply c 0x0b)) (Multiply d 0x0d);
       Z.lxor (Z.lxor (Z.lxor (Multiply a 0x0d) (Multiply b 0x09)) (Multiply c 0x0e)) (Multiply d 0x0b);
       Z.lxor (Z.lxor (Z.lxor (Multiply a 0x0b) (Multiply b 0x0d)) (Multiply c 0x09)) (Multiply d 0x0e)]
  | _ => c
  end.
Definition Invaes_mix_columns (s : list Z) : list Z := columns inv_mix_column s.

(** [aes_sbox.c: 424-450] *)
Definition Invaes_shift_rows (s : list Z) : list Z :=
  let temp := st s 3 1 in
  let s := set s 3 1 (st s 2 1) in
  let s := set s 2 1 (st s 1 1) in
  let s := set s 1 1 (st s 0 1) in
  let s := set s 0 1 temp in
  let temp := st s 0 2 in
  let s := set s 0 2 (st s 2 2) in
  let s := set s 2 2 temp in
  let temp := st s 1 2 in
  let s := set s 1 2 (st s 3 2) in
  let s := set s 3 2 temp in
  let temp := st s 0 3 in
  let s := set s 0 3 (st s 1 3) in
  let s := set s 1 3 (st s 2 3) in
  let s := set s 2 3 (st s 3 3) in
  set s 3 3 temp.

(** [aes_sbox.c: 455-478] the loop runs round = 1, 2, ... and leaves when round == Nr; [k] = Nr - round.
    With Nr = 0 the C loop only ends after round wraps at 256, reading far behind round_key; that case is
    kept apart by [aes_usable]. *)
Fixpoint cipher_rounds (k round : nat) (s rk : list Z) : list Z :=
  let s := aes_shift_rows (aes_sub_bytes s) in
  match k with
  | O => s
  | S k' => cipher_rounds k' (S round) (add_round_key round (aes_mix_columns s) rk) rk
  end.
Definition aes_cipher (c : aesctx) (s : list Z) : list Z :=
  let s := add_round_key 0 s (ae_rk c) in
  let s := cipher_rounds (ae_nr c - 1) 1 s (ae_rk c) in
  add_round_key (ae_nr c) s (ae_rk c).
(** [aes_sbox.c: 480-501] *)
Fixpoint inv_rounds (round : nat) (s rk : list Z) : list Z :=
  let s := Invaes_sub_bytes (Invaes_shift_rows s) in
  let s := add_round_key round s rk in
  match round with
  | O => s
  | S r => inv_rounds r (Invaes_mix_columns s) rk
  end.
Definition aes_inv_cipher (c : aesctx) (s : list Z) : list Z :=
  let s := add_round_key (ae_nr c) s (ae_rk c) in
  inv_rounds (ae_nr c - 1) s (ae_rk c).

(** ** aes_block.c: the lc_sym methods. *)
(** [aes_block.c: 92-114]: the result of aes_set_type is dropped. *)
Definition aes_setkey (c : aesctx) (key : list Z) : Z * aesctx :=
  match aes_set_type (length key) with
  | Some (nk, nr) => (0, mkAes (aes_key_expansion nk nr key) nk nr)
  | None => (0, c)
  end.
(** [aes_block.c: 43-63] [65-85]; [out] is the old contents of the output buffer. *)
Definition aes_encrypt (c : aesctx) (inp out : list Z) : list Z :=
  if (length inp =? 16)%nat then aes_cipher c inp else out.
Definition aes_decrypt (c : aesctx) (inp out : list Z) : list Z :=
  if (length inp =? 16)%nat then aes_inv_cipher c inp else out.
(** A context on which the block functions stay inside round_key. *)
Definition aes_usable (c : aesctx) : Prop := (0 < ae_nr c)%nat /\ (16 * (ae_nr c + 1) <= length (ae_rk c))%nat.

(** ** Table-free version *)
(** [aes_scr_helper.h: 36-41] *)
Definition gf_mul2 (w : Z) : Z :=
  let t := Z.land w 0x80808080 in
  Z.lxor (u32 (Z.shiftl (Z.lxor w t) 1)) (u32 (Z.shiftr t 7 * 0x1b)).
(** [aes_scr_helper.h: 57-61] logarithm: the index i at which y = x, counted from i; uint8_t i *)
Fixpoint gf_log (fuel : nat) (x i y : Z) : Z :=
  match fuel with
  | O => i
  | S f => let y := u8 (Z.lxor y (gf_mul2 y)) in
           if y =? x then i else let i := u8 (i + 1) in if i >? 0 then gf_log f x i y else i
  end.
(** [aes_scr_helper.h: 64-66] *)
Fixpoint gf_exp (n : nat) (y : Z) : Z :=
  match n with O => y | S k => gf_exp k (u8 (Z.lxor y (gf_mul2 y))) end.
(** [aes_scr_helper.h: 46-71] *)
Definition gf_mulinv (x : Z) : Z :=
  if x =? 0 then x
  else let i := gf_log 256 x 1 1 in gf_exp (Z.to_nat (u8 (255 - i))) 1.
Definition rol8 (x n : Z) : Z := u8 (Z.lor (Z.shiftl x n) (Z.shiftr x (8 - n))).
(** [aes_scr_helper.h: 76-83] *)
Definition aes_sub_byte (x : Z) : Z :=
  let x := gf_mulinv x in
  let x := Z.lxor x (Z.lxor (Z.lxor (Z.lxor (rol8 x 1) (rol8 x 2)) (rol8 x 3)) (rol8 x 4)) in
  Z.lxor x 0x63.
(** [aes_scr_helper.h: 85-92] *)
Definition aes_sub_byte_inv (x : Z) : Z :=
  let x := Z.lxor x 0x63 in
  gf_mulinv (Z.lxor (Z.lxor (rol8 x 1) (rol8 x 3)) (rol8 x 6)).
(** [aes_scr_helper.h: 97-108] *)
Fixpoint sub_word_loop (n : nat) (r x : Z) : Z :=
  match n with
  | O => r
  | S k => sub_word_loop k (ror32 (Z.lor r (aes_sub_byte (Z.land x 0xff))) 8) (Z.shiftr x 8)
  end.
Definition aes_sub_word (x : Z) : Z := sub_word_loop 4 0 x.

(** [aes_no_sbox.c: 69-83] *)
Definition scr_sub_bytes (s : list Z) : list Z := map aes_sub_byte s.
Definition scr_sub_bytes_inv (s : list Z) : list Z := map aes_sub_byte_inv s.

(** [aes_no_sbox.c: 94-105] gather row i, rotate with [rot], scatter. *)
Definition row_get (s : list Z) (i : nat) : Z :=
  fold_left (fun x j => ror32 (Z.lor x (nth j s 0)) 8) [i; i + 4; i + 8; i + 12]%nat 0.
Definition row_set (s : list Z) (i : nat) (x : Z) : list Z :=
  fst (fold_left (fun p j => (upd (fst p) j (Z.land (snd p) 0xff), Z.shiftr (snd p) 8))
    [i; i + 4; i + 8; i + 12]%nat (s, x)).
(** [aes_no_sbox.c: 85-109] [111-135] *)
Definition scr_shift_rows (s : list Z) : list Z :=
  fold_left (fun s i => row_set s i (ror32 (row_get s i) (Z.of_nat (i * 8)))) [0; 1; 2; 3]%nat s.
Definition scr_shift_rows_inv (s : list Z) : list Z :=
  fold_left (fun s i => row_set s i (rol32 (row_get s i) (Z.of_nat (i * 8)))) [0; 1; 2; 3]%nat s.
(** [aes_no_sbox.c: 137-141] *)
Definition mix_one_column (w : Z) : Z :=
  Z.lxor (Z.lxor (Z.lxor (ror32 w 8) (ror32 w 16)) (ror32 w 24)) (gf_mul2 (Z.lxor (ror32 w 8) w)).
(** [aes_no_sbox.c: 143-149] *)
Definition scr_mix_columns (s : list Z) : list Z :=
  columns (fun c => le_bytes 4 (mix_one_column (le_val c))) s.
(** [aes_no_sbox.c: 151-162] *)
Definition mix_one_inv (w : Z) : Z :=
  let t := Z.lxor (ror32 w 16) w in
  let t := gf_mul2 (gf_mul2 t) in
  mix_one_column (Z.lxor w t).
Definition scr_mix_columns_inv (s : list Z) : list Z :=
  columns (fun c => le_bytes 4 (mix_one_inv (le_val c))) s.

(** [aes_no_sbox.c: 178-220] on words; both ways of loading the key give little endian words. *)
Definition scr_key_step (nk : nat) (p : list Z * Z) (i : nat) : list Z * Z :=
  let '(w, rcon) := p in
  let x := nth (i - 1) w 0 in
  if (i mod nk =? 0)%nat then
    (w ++ [Z.lxor (nth (i - nk) w 0) (Z.lxor (aes_sub_word (ror32 x 8)) rcon)], gf_mul2 rcon)
  else if ((6 <? nk) && (i mod nk =? 4))%nat then
    (w ++ [Z.lxor (nth (i - nk) w 0) (aes_sub_word x)], rcon)
  else (w ++ [Z.lxor (nth (i - nk) w 0) x], rcon).
Definition aes_key_expansion_scr (nk nr : nat) (key : list Z) : list Z :=
  let w0 := map (fun i => le_val (slice key (4 * i) 4)) (seq 0 nk) in
  fst (fold_left (scr_key_step nk) (seq nk (4 * (nr + 1) - nk)) (w0, 1)).

(** [aes_no_sbox.c: 164-176] xor_64 of 16 bytes with the bytes of w[4 rnd .. 4 rnd + 3] *)
Definition scr_add_round_key (round : nat) (s w : list Z) : list Z :=
  xorl s (flat_map (le_bytes 4) (slice w (4 * round) 4)).

(** [aes_no_sbox.c: 233-251] *)
Fixpoint scr_rounds (k round : nat) (s w : list Z) : list Z :=
  match k with
  | O => s
  | S k' => scr_rounds k' (S round)
      (scr_add_round_key round (scr_mix_columns (scr_shift_rows (scr_sub_bytes s))) w) w
  end.
Definition aes_cipher_scr (nr : nat) (w s : list Z) : list Z :=
  let s := scr_add_round_key 0 s w in
  let s := scr_rounds (nr - 1) 1 s w in
  scr_add_round_key nr (scr_shift_rows (scr_sub_bytes s)) w.
(** [aes_no_sbox.c: 253-273] *)
Fixpoint scr_inv_rounds (round : nat) (s w : list Z) : list Z :=
  match round with
  | O => s
  | S r => scr_inv_rounds r
      (scr_mix_columns_inv (scr_add_round_key round (scr_shift_rows_inv (scr_sub_bytes_inv s)) w)) w
  end.
Definition aes_inv_cipher_scr (nr : nat) (w s : list Z) : list Z :=
  let s := scr_add_round_key nr s w in
  let s := scr_inv_rounds (nr - 1) s w in
  scr_add_round_key 0 (scr_shift_rows_inv (scr_sub_bytes_inv s)) w.
