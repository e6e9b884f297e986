(** Model of /repo/hash/src/sha256.c and /repo/hash/src/sha512.c. Both files contain the same code up to
    the word type, the constants and the size of the length field, so one parametrised definition is
    given for each function, citing both places. *)
From Verif Require Import Bytes Words.

(** [sha256.c: 28-40] *)
Definition sha256_K : list Z :=
  [0x428a2f98; 0x71374491; 0xb5c0fbcf; 0xe9b5dba5; 0x3956c25b; 0x59f111f1;
   0x923f82a4; 0xab1c5ed5; 0xd807aa98; 0x12835b01; 0x243185be; 0x550c7dc3;
   0x72be5d74; 0x80deb1fe; 0x9bdc06a7; 0xc19bf174; 0xe49b69c1; 0xefbe4786;
   0x0fc19dc6; 0x240ca1cc; 0x2de92c6f; 0x4a7484aa; 0x5cb0a9dc; 0x76f988da;
   0x983e5152; 0xa831c66d; 0xb00327c8; 0xbf597fc7; 0xc6e00bf3; 0xd5a79147;
   0x06ca6351; 0x14292967; 0x27b70a85; 0x2e1b2138; 0x4d2c6dfc; 0x53380d13;
   0x650a7354; 0x766a0abb; 0x81c2c92e; 0x92722c85; 0xa2bfe8a1; 0xa81a664b;
   0xc24b8b70; 0xc76c51a3; 0xd192e819; 0xd6990624; 0xf40e3585; 0x106aa070;
   0x19a4c116; 0x1e376c08; 0x2748774c; 0x34b0bcb5; 0x391c0cb3; 0x4ed8aa4a;
   0x5b9cca4f; 0x682e6ff3; 0x748f82ee; 0x78a5636f; 0x84c87814; 0x8cc70208;
   0x90befffa; 0xa4506ceb; 0xbef9a3f7; 0xc67178f2].
(** [sha512.c: 29-57] *)
Definition sha512_K : list Z :=
  [0x428a2f98d728ae22; 0x7137449123ef65cd; 0xb5c0fbcfec4d3b2f;
   0xe9b5dba58189dbbc; 0x3956c25bf348b538; 0x59f111f1b605d019;
   0x923f82a4af194f9b; 0xab1c5ed5da6d8118; 0xd807aa98a3030242;
   0x12835b0145706fbe; 0x243185be4ee4b28c; 0x550c7dc3d5ffb4e2;
   0x72be5d74f27b896f; 0x80deb1fe3b1696b1; 0x9bdc06a725c71235;
   0xc19bf174cf692694; 0xe49b69c19ef14ad2; 0xefbe4786384f25e3;
   0x0fc19dc68b8cd5b5; 0x240ca1cc77ac9c65; 0x2de92c6f592b0275;
   0x4a7484aa6ea6e483; 0x5cb0a9dcbd41fbd4; 0x76f988da831153b5;
   0x983e5152ee66dfab; 0xa831c66d2db43210; 0xb00327c898fb213f;
   0xbf597fc7beef0ee4; 0xc6e00bf33da88fc2; 0xd5a79147930aa725;
   0x06ca6351e003826f; 0x142929670a0e6e70; 0x27b70a8546d22ffc;
   0x2e1b21385c26c926; 0x4d2c6dfc5ac42aed; 0x53380d139d95b3df;
   0x650a73548baf63de; 0x766a0abb3c77b2a8; 0x81c2c92e47edaee6;
   0x92722c851482353b; 0xa2bfe8a14cf10364; 0xa81a664bbc423001;
   0xc24b8b70d0f89791; 0xc76c51a30654be30; 0xd192e819d6ef5218;
   0xd69906245565a910; 0xf40e35855771202a; 0x106aa07032bbd1b8;
   0x19a4c116b8d2d0c8; 0x1e376c085141ab53; 0x2748774cdf8eeb99;
   0x34b0bcb5e19b48a8; 0x391c0cb3c5c95a63; 0x4ed8aa4ae3418acb;
   0x5b9cca4f7763e373; 0x682e6ff3d6b2b8a3; 0x748f82ee5defb2fc;
   0x78a5636f43172f60; 0x84c87814a1f0ab72; 0x8cc702081a6439ec;
   0x90befffa23631e28; 0xa4506cebde82bde9; 0xbef9a3f7b2c67915;
   0xc67178f2e372532b; 0xca273eceea26619c; 0xd186b8c721c0c207;
   0xeada7dd6cde0eb1e; 0xf57d4f7fee6ed178; 0x06f067aa72176fba;
   0x0a637dc5a2c898a6; 0x113f9804bef90dae; 0x1b710b35131c471b;
   0x28db77f523047d84; 0x32caab7b40c72493; 0x3c9ebe0a15c9bebc;
   0x431d67c49c100d4c; 0x4cc5d4becb3e42b6; 0x597f299cfc657e2a;
   0x5fcb6fab3ad6faec; 0x6c44198c4a475817].
(** [sha256.c: 70-77] *)
Definition sha256_iv : list Z :=
  [0x6a09e667; 0xbb67ae85; 0x3c6ef372; 0xa54ff53a;
   0x510e527f; 0x9b05688c; 0x1f83d9ab; 0x5be0cd19].
(** [sha512.c: 90-97] *)
Definition sha384_iv : list Z :=
  [0xcbbb9d5dc1059ed8; 0x629a292a367cd507; 0x9159015a3070dd17; 0x152fecd8f70e5939;
   0x67332667ffc00b31; 0x8eb44a8768581511; 0xdb0c2e0d64f98fa7; 0x47b5481dbefa4fa4].
(** [sha512.c: 112-119] *)
Definition sha512_iv : list Z :=
  [0x6a09e667f3bcc908; 0xbb67ae8584caa73b; 0x3c6ef372fe94f82b; 0xa54ff53a5f1d36f1;
   0x510e527fade682d1; 0x9b05688c2b3e6c1f; 0x1f83d9abfb41bd6b; 0x5be0cd19137e2179].

(** What differs between the two files: word operations, table, sizes, rotation amounts. *)
Record sha2_cfg := mkC {
  c_tr : Z -> Z;                    (* truncation to the word type *)
  c_not : Z -> Z;
  c_ror : Z -> Z -> Z;
  c_K : list Z;
  c_wb : nat;                       (* bytes per word *)
  c_nr : nat;                       (* loop bound *)
  c_lf : nat;                       (* 2 * sizeof(word) *)
  c_S0 : Z * Z * Z; c_S1 : Z * Z * Z; c_s0 : Z * Z * Z; c_s1 : Z * Z * Z }.

(** [sha256.c: 82-92, 109, 212] *)
Definition cfg256 := mkC t32 not32 ror32 sha256_K 4 64 8 (2, 13, 22) (6, 11, 25) (7, 18, 3) (17, 19, 10).
(** [sha512.c: 124-134, 151, 251] *)
Definition cfg512 := mkC t64 not64 ror64 sha512_K 8 80 16 (28, 34, 39) (14, 18, 41) (1, 8, 7) (19, 61, 6).

(** [hash/api/lc_sha256.h: 39-43], [hash/api/lc_sha512.h: 46-50] *)
Record sctx := mkS { s_H : list Z; s_msglen : Z; s_partial : list Z }.

Section Sha2.
  Variable c : sha2_cfg.

  (** LC_SHA256_SIZE_BLOCK = 64, LC_SHA512_SIZE_BLOCK = 128: sixteen words. *)
  Definition bs : nat := (16 * c_wb c)%nat.

  (** Unsigned addition. *)
  Definition add (x y : Z) : Z := c_tr c (x + y).

  (** [sha256.c: 87-92] [sha512.c: 129-134] CH, MAJ, S0/S1, s0/s1 *)
  Definition CH (x y z : Z) : Z := Z.lxor (Z.land x y) (Z.land (c_not c x) z).
  Definition MAJ (x y z : Z) : Z := Z.lxor (Z.lxor (Z.land x y) (Z.land x z)) (Z.land y z).
  Definition SIG (t : Z * Z * Z) (x : Z) : Z :=
    let '(p, q, r) := t in Z.lxor (Z.lxor (c_ror c x p) (c_ror c x q)) (c_ror c x r).
  Definition sig (t : Z * Z * Z) (x : Z) : Z :=
    let '(p, q, r) := t in Z.lxor (Z.lxor (c_ror c x p) (c_ror c x q)) (Z.shiftr x r).

  Definition regs : Type := Z * Z * Z * Z * Z * Z * Z * Z.

  (** [sha256.c: 109-130] [sha512.c: 151-172] body of the loop for index i, on (W, a..h).
      [inp] is the block; ptr_to_be32/64 reads a big endian word; [in] advances by one word for each
      i < 16, so word i is read at offset i * wordsize. *)
  Definition transform_step (inp : list Z) (s : list Z * regs) (i : nat) : list Z * regs :=
    let '(W, (a, b, c', d, e, f, g, h)) := s in
    let W :=
      if (i <? 16)%nat then upd W i (be_val (slice inp (c_wb c * i) (c_wb c)))
      else
        let W := upd W i (add (add (add (sig (c_s1 c) (get W (i - 2))) (get W (i - 7)))
                                   (sig (c_s0 c) (get W (i - 15)))) (get W (i - 16))) in
        upd W (i - 16) 0 in
    let T1 := add (add (add (add h (SIG (c_S1 c) e)) (CH e f g)) (get (c_K c) i)) (get W i) in
    let T2 := add (SIG (c_S0 c) a) (MAJ a b c') in
    (W, (add T1 T2, a, b, c', add d T1, e, f, g)).

  (** [sha256.c: 94-144] [sha512.c: 136-186] sha*_transform on H[0..7]. The array W is uninitialised
      in C; here it starts with zeros, no entry is read before it was written. The final zeroisation
      of W has no effect on the result. *)
  Definition transform (H inp : list Z) : list Z :=
    let '(W, (a, b, c', d, e, f, g, h)) :=
      fold_left (transform_step inp) (seq 0 (c_nr c))
        (zeros (c_nr c), (get H 0, get H 1, get H 2, get H 3, get H 4, get H 5, get H 6, get H 7)) in
    [add (get H 0) a; add (get H 1) b; add (get H 2) c'; add (get H 3) d;
     add (get H 4) e; add (get H 5) f; add (get H 6) g; add (get H 7) h].

  (** [sha256.c: 60-80] [sha512.c: 80-122] init: the partial buffer keeps its old contents. *)
  Definition sha2_init (iv old_partial : list Z) : sctx := mkS iv 0 old_partial.

  (** [sha256.c: 181-184] [sha512.c: 223-226] loop over whole blocks; [fuel] bounds the iterations. *)
  Fixpoint full_loop (fuel : nat) (H inp : list Z) : list Z * list Z :=
    match fuel with
    | O => (H, inp)
    | S f => if (bs <=? length inp)%nat then full_loop f (transform H (firstn bs inp)) (skipn bs inp)
             else (H, inp)
    end.

  (** [sha256.c: 146-188] [sha512.c: 188-230] update *)
  Definition sha2_update (x : sctx) (inp : list Z) : sctx :=
    let partial := Z.to_nat (s_msglen x mod Z.of_nat bs) in
    let ml := t64 (s_msglen x + Z.of_nat (length inp)) in
    let rest H buf inp :=
      let (H', r) := full_loop (length inp) H inp in mkS H' ml (store_at buf 0 r) in
    if (partial =? 0)%nat then rest (s_H x) (s_partial x) inp
    else
      let todo := (bs - partial)%nat in
      if (length inp <? todo)%nat then mkS (s_H x) ml (store_at (s_partial x) partial inp)
      else
        let buf := store_at (s_partial x) partial (firstn todo inp) in
        rest (transform (s_H x) buf) buf (skipn todo inp).

  (** [sha256.c: 190-229] [sha512.c: 232-269] the common part of final: padding and last blocks. *)
  Definition sha2_final_internal (x : sctx) : sctx :=
    let partial := Z.to_nat (s_msglen x mod Z.of_nat bs) in
    let buf := store_at (s_partial x) partial [128] in
    let partial := (partial + 1)%nat in
    let '(H, buf, partial) :=
      if (bs - c_lf c <? partial)%nat
      then let buf := store_at buf partial (zeros (bs - partial)) in (transform (s_H x) buf, buf, 0%nat)
      else (s_H x, buf, partial) in
    let buf := store_at buf partial (zeros (bs - partial)) in
    let ml := t64 (Z.shiftl (s_msglen x) 3) in
    let buf := store_at buf (bs - 8) (be_bytes 8 ml) in
    mkS (transform H buf) ml (zeros bs).

  (** [sha256.c: 231-237] (n = 8), [sha512.c: 281-283] (n = 6), [sha512.c: 296-298] (n = 8): output.
      sha256_final also clears H, which nothing later reads before the next init. *)
  Definition sha2_final (n : nat) (x : sctx) : list Z :=
    flat_map (be_bytes (c_wb c)) (firstn n (s_H (sha2_final_internal x))).

  Definition sha2_updates (x : sctx) (ms : list (list Z)) : sctx := fold_left sha2_update ms x.
End Sha2.
