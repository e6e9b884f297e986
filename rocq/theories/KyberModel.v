(** ML-KEM, the C implementation in ml-kem/src (files are named relative to it). The vector and
    assembler variants (armv7, armv8, avx2, riscv64) are not modelled.
    int16_t/int32_t values are integers in range; every store to an int16_t goes through [s16].
    A polynomial is the list of its 256 coefficients, a vector the list of its polynomials. *)
From Verif Require Import Bytes Words KeccakModel Sha3Model KeccakBytes KmacModel UtilModel NttLoop.

(** ** Integer conversions (two's complement, as GCC and clang define them) *)
Definition s16 (x : Z) : Z := (x + 32768) mod 65536 - 32768.

(** ** kyber_reduce.h *)
Definition KQ : Z := 3329.
(** [kyber_reduce.h: 50-57] the product and the difference are int expressions *)
Definition montgomery_reduce (a : Z) : Z :=
  let t := s16 (s16 a * -3327) in
  s16 (Z.shiftr (a - t * KQ) 16).
(** [kyber_reduce.h: 68-76] v = ((1 << 26) + q/2)/q = 20159 *)
Definition barrett_v : Z := ((2 ^ 26) + KQ / 2) / KQ.
Definition barrett_reduce (a : Z) : Z :=
  let t := s16 (Z.shiftr (barrett_v * a + 2 ^ 25) 26) in
  let t := s16 (t * KQ) in
  s16 (a - t).
(** [kyber_reduce.h: 86-89] *)
Definition fqmul (a b : Z) : Z := montgomery_reduce (a * b).

(** ** kyber_zetas.c *)
(** [kyber_zetas.c: 65-79] *)
Definition kyber_zetas : list Z :=
  [-1044; -758;  -359;  -1517; 1493;  1422;  287;	 202;	-171;  622;
	1577;  182;   962;   -1202; -1474; 1468;  573;	 -1325; 264;   383;
	-829;  1458;  -1602; -130;  -681;  1017;  732;	 608;	-1542; 411;
	-205;  -1571; 1223;  652;   -552;  1015;  -1293; 1491;	-282;  -1544;
	516;   -8;    -320;  -666;  -1618; -1162; 126;	 1469;	-853;  -90;
	-271;  830;   107;   -1421; -247;  -951;  -398;	 961;	-1508; -725;
	448;   -1065; 677;   -1275; -1103; 430;	  555;	 843;	-1251; 871;
	1550;  105;   422;   587;   177;   -235;  -291;	 -460;	1574;  1653;
	-246;  778;   1159;  -147;  -777;  1483;  -602;	 1119;	-1590; 644;
	-872;  349;   418;   329;   -156;  -75;	  817;	 1097;	603;   610;
	1322;  -1285; -1465; 384;   -1215; -136;  1218;	 -1335; -874;  220;
	-1187; -1659; -1185; -1530; -1278; 794;	  -1510; -854;	-870;  478;
	-108;  -308;  996;   991;   958;   -1460; 1522;	 1628].
Definition kzeta (k : nat) : Z := nth k kyber_zetas 0.

(** ** kyber_ntt.c *)
(** [kyber_ntt.c: 39-43] the loop body of kyber_ntt *)
Definition k_ct (zeta x y : Z) : Z * Z :=
  let t := fqmul zeta y in (s16 (x + t), s16 (x - t)).
(** [kyber_ntt.c: 30-46] *)
Definition kyber_ntt (r : list Z) : list Z := loop_down k_ct kzeta S 256 256 2 128 1 r.
(** [kyber_ntt.c: 58-63] the loop body of kyber_invntt; the argument of barrett_reduce is converted
    to int16_t *)
Definition k_gs (zeta x y : Z) : Z * Z :=
  (barrett_reduce (s16 (x + y)), fqmul zeta (s16 (y - x))).
(** [kyber_ntt.c: 48-69] *)
Definition kyber_invntt (r : list Z) : list Z :=
  map (fun x => fqmul x 1441) (loop_up k_gs kzeta pred 256 256 256 2 127 r).

(** ** kyber_poly.c, kyber_poly.h, kyber_poly_c.h *)
(** [kyber_poly_c.h: 41-47] *)
Definition poly_reduce (r : list Z) : list Z := map barrett_reduce r.
Fixpoint zip2 (f : Z -> Z -> Z) (a b : list Z) : list Z :=
  match a, b with x :: a', y :: b' => f x y :: zip2 f a' b' | _, _ => [] end.
(** [kyber_poly_c.h: 56-62] *)
Definition poly_add (a b : list Z) : list Z := zip2 (fun x y => s16 (x + y)) a b.
(** [kyber_poly_c.h: 71-77] *)
Definition poly_sub (a b : list Z) : list Z := zip2 (fun x y => s16 (x - y)) a b.
(** [kyber_poly.c: 51-58] *)
Definition basemul (a0 a1 b0 b1 zeta : Z) : list Z :=
  [s16 (fqmul (fqmul a1 b1) zeta + fqmul a0 b0); s16 (fqmul a0 b1 + fqmul a1 b0)].
(** [kyber_poly_c.h: 87-98], i from 64 + i; the four coefficients 4i .. 4i+3 *)
Fixpoint basemul_loop (k : nat) (a b : list Z) : list Z :=
  match a, b with
  | a0 :: a1 :: a2 :: a3 :: a', b0 :: b1 :: b2 :: b3 :: b' =>
      basemul a0 a1 b0 b1 (kzeta k) ++ basemul a2 a3 b2 b3 (s16 (- kzeta k)) ++ basemul_loop (S k) a' b'
  | _, _ => []
  end.
Definition poly_basemul_montgomery (a b : list Z) : list Z := basemul_loop 64 a b.
(** [kyber_poly.h: 295-299] *)
Definition poly_ntt (r : list Z) : list Z := poly_reduce (kyber_ntt r).
(** [kyber_poly.h: 309-312] *)
Definition poly_invntt_tomont (r : list Z) : list Z := kyber_invntt r.
(** [kyber_poly.h: 320-327] f = (1ULL << 32) % q = 1353 *)
Definition poly_tomont (r : list Z) : list Z := map (fun x => montgomery_reduce (x * (2 ^ 32 mod KQ))) r.

(** u += (u >> 15) & q for an int32_t u holding an int16_t value [kyber_poly.c: 71-72] *)
Definition pos32 (u : Z) : Z := u + Z.land (Z.shiftr u 15) KQ.
(** the same for the uint16_t t [kyber_poly.h: 136-137], [kyber_polyvec.c: 41-42] *)
Definition pos16 (c : Z) : Z := let t := u16 c in u16 (t + Z.land (Z.shiftr (s16 t) 15) KQ).

(** [kyber_poly.c: 74-78] *)
Definition comp4 (c : Z) : Z :=
  let d0 := u32 (Z.shiftl (u32 (pos32 c)) 4) in
  let d0 := u32 (d0 + (KQ - KQ / 2)) in
  let d0 := u32 (d0 * 80635) in
  Z.land (Z.shiftr d0 28) 15.
(** [kyber_poly.c: 95-99] *)
Definition comp5 (c : Z) : Z :=
  let d0 := u32 (Z.shiftl (u32 (pos32 c)) 5) in
  let d0 := u32 (d0 + KQ / 2) in
  let d0 := u32 (d0 * 40318) in
  Z.land (Z.shiftr d0 27) 31.
Notation "a .| b" := (Z.lor a b) (at level 50, left associativity).
Notation "a <<' b" := (Z.shiftl a b) (at level 40, left associativity).
Notation "a >>' b" := (Z.shiftr a b) (at level 40, left associativity).
(** [kyber_poly.c: 81-84] *)
Definition pack4 (t : list Z) : list Z :=
  match t with
  | [t0; t1; t2; t3; t4; t5; t6; t7] =>
      [u8 (t0 .| (t1 <<' 4)); u8 (t2 .| (t3 <<' 4)); u8 (t4 .| (t5 <<' 4)); u8 (t6 .| (t7 <<' 4))]
  | _ => []
  end.
(** [kyber_poly.c: 102-106] *)
Definition pack5 (t : list Z) : list Z :=
  match t with
  | [t0; t1; t2; t3; t4; t5; t6; t7] =>
      [u8 ((t0 >>' 0) .| (t1 <<' 5)); u8 ((t1 >>' 3) .| (t2 <<' 2) .| (t3 <<' 7)); u8 ((t3 >>' 1) .| (t4 <<' 4));
       u8 ((t4 >>' 4) .| (t5 <<' 1) .| (t6 <<' 6)); u8 ((t6 >>' 2) .| (t7 <<' 3))]
  | _ => []
  end.
(** [kyber_poly.c: 60-111] dv = 4 or 5 *)
Definition poly_compress (dv : nat) (a : list Z) : list Z :=
  if (dv =? 4)%nat then flat_map pack4 (full_chunks 8 (map comp4 a))
  else flat_map pack5 (full_chunks 8 (map comp5 a)).

(** [kyber_poly.h: 91-97] *)
Definition unpack4 (b : list Z) : list Z :=
  match b with [a0] => [Z.land a0 15; Z.shiftr a0 4] | _ => [] end.
Definition decomp4 (t : Z) : Z := s16 (Z.shiftr (t * KQ + 8) 4).
(** [kyber_poly.h: 103-110] *)
Definition unpack5 (b : list Z) : list Z :=
  match b with
  | [a0; a1; a2; a3; a4] =>
      [u8 (a0 >>' 0); u8 ((a0 >>' 5) .| (a1 <<' 3)); u8 (a1 >>' 2); u8 ((a1 >>' 7) .| (a2 <<' 1));
       u8 ((a2 >>' 4) .| (a3 <<' 4)); u8 (a3 >>' 1); u8 ((a3 >>' 6) .| (a4 <<' 2)); u8 (a4 >>' 3)]
  | _ => []
  end.
(** [kyber_poly.h: 113-117] *)
Definition decomp5 (t : Z) : Z := s16 (Z.shiftr (u32 (Z.land t 31 * KQ + 16)) 5).
(** [kyber_poly.h: 84-121] *)
Definition poly_decompress (dv : nat) (a : list Z) : list Z :=
  if (dv =? 4)%nat then map decomp4 (flat_map unpack4 (full_chunks 1 a))
  else map decomp5 (flat_map unpack5 (full_chunks 5 a)).

(** [kyber_poly.h: 140-142] *)
Definition pack12 (t : list Z) : list Z :=
  match t with
  | [t0; t1] => [u8 (t0 >>' 0); u8 ((t0 >>' 8) .| (t1 <<' 4)); u8 (t1 >>' 4)]
  | _ => []
  end.
(** [kyber_poly.h: 129-144] *)
Definition poly_tobytes (a : list Z) : list Z := flat_map pack12 (full_chunks 2 (map pos16 a)).
(** [kyber_poly.h: 158-163] *)
Definition unpack12 (b : list Z) : list Z :=
  match b with
  | [a0; a1; a2] => [Z.land ((a0 >>' 0) .| u16 (a1 <<' 8)) 4095; Z.land ((a1 >>' 4) .| u16 (a2 <<' 4)) 4095]
  | _ => []
  end.
(** [kyber_poly.h: 153-165] *)
Definition poly_frombytes (a : list Z) : list Z := flat_map unpack12 (full_chunks 3 a).

(** [kyber_poly.h: 212-228] mask = -((msg >> j) & 1), opt_blocker = 0, (q + 1)/2 = 1665 *)
Definition frommsg_byte (b : Z) : list Z :=
  map (fun j => Z.land (s16 (- (Z.land (Z.shiftr b (Z.of_nat j)) 1))) ((KQ + 1) / 2)) (seq 0 8).
(** [kyber_poly.h: 173-231] *)
Definition poly_frommsg (msg : list Z) : list Z := flat_map frommsg_byte msg.
(** [kyber_poly.h: 248-253] *)
Definition tomsg_bit (c : Z) : Z :=
  let t := u32 c in
  let t := u32 (Z.shiftl t 1) in
  let t := u32 (t + (KQ - KQ / 2)) in
  let t := u32 (t * 80635) in
  Z.land (Z.shiftr t 28) 1.
(** [kyber_poly.h: 246-256] *)
Fixpoint tomsg_byte (j : Z) (cs : list Z) (acc : Z) : Z :=
  match cs with
  | [] => acc
  | c :: cs' => tomsg_byte (j + 1) cs' (Z.lor acc (u8 (Z.shiftl (tomsg_bit c) j)))
  end.
(** [kyber_poly.h: 239-258] *)
Definition poly_tomsg (a : list Z) : list Z := map (fun g => tomsg_byte 0 g 0) (full_chunks 8 a).

(** ** kyber_cbd.c *)
(** [kyber_cbd.c: 63-72] *)
Definition cbd2_group (buf : list Z) : list Z :=
  let t := le_val buf in
  let d := u32 (Z.land t 0x55555555 + Z.land (Z.shiftr t 1) 0x55555555) in
  map (fun j => Z.land (Z.shiftr d (4 * Z.of_nat j + 0)) 3 - Z.land (Z.shiftr d (4 * Z.of_nat j + 2)) 3) (seq 0 8).
(** [kyber_cbd.c: 57-74] *)
Definition cbd2 (buf : list Z) : list Z := flat_map cbd2_group (full_chunks 4 buf).
(** [kyber_cbd.c: 91-101] *)
Definition cbd3_group (buf : list Z) : list Z :=
  let t := le_val buf in
  let d := u32 (Z.land t 0x00249249 + Z.land (Z.shiftr t 1) 0x00249249) in
  let d := u32 (d + Z.land (Z.shiftr t 2) 0x00249249) in
  map (fun j => Z.land (Z.shiftr d (6 * Z.of_nat j + 0)) 7 - Z.land (Z.shiftr d (6 * Z.of_nat j + 3)) 7) (seq 0 4).
(** [kyber_cbd.c: 85-103] *)
Definition cbd3 (buf : list Z) : list Z := flat_map cbd3_group (full_chunks 3 buf).
(** [kyber_cbd.h: 42-62] *)
Definition poly_cbd (eta : nat) (buf : list Z) : list Z := if (eta =? 2)%nat then cbd2 buf else cbd3 buf.

(** ** kyber_kdf.h *)
(** [kyber_kdf.h: 42-56] kyber_kdf2 *)
Definition kyber_kdf2 (in1 in2 : list Z) (n : nat) : list Z :=
  fst (xof_read permB (keccak_updates permB (keccak_init alg_shake256) [in1; in2]) n).
(** [kyber_kdf.h: 142-147] *)
Definition kyber_shake256_prf (n : nat) (key : list Z) (nonce : Z) : list Z := kyber_kdf2 key [nonce] n.
(** [kyber_kdf.h: 160-167] *)
Definition kyber_shake256_rkprf (key input : list Z) : list Z := kyber_kdf2 key input 32.
(** lc_hash(lc_sha3_256 / lc_sha3_512, ...) [hash/src/hash.c] *)
Definition k_sha3_256 (ms : list (list Z)) : list Z :=
  fst (keccak_squeeze permB (keccak_updates permB (keccak_init alg_sha3_256) ms)).
Definition k_sha3_512 (ms : list (list Z)) : list Z :=
  fst (keccak_squeeze permB (keccak_updates permB (keccak_init alg_sha3_512) ms)).
(** a KMAC256 context on the stack [kmac/api/lc_kmac.h: LC_KMAC_CTX_ON_STACK] *)
Definition km_stack : kmctx := mkKM (mkH alg_cshake256 (keccak_init alg_cshake256)) None false.
Definition k_kmac (key s : list Z) (xs : list (list Z)) (n : nat) : list Z :=
  fst (kmac_final permB (kmac_updates permB (kmac_init permB km_stack key s) xs) n).
(** "Kyber KEM SS" *)
Definition lbl_ss : list Z := [75; 121; 98; 101; 114; 32; 75; 69; 77; 32; 83; 83].
(** "Kyber KEM 3-way SS", "Kyber KEM 4-way SS" *)
Definition lbl_ss3 : list Z := [75; 121; 98; 101; 114; 32; 75; 69; 77; 32; 51; 45; 119; 97; 121; 32; 83; 83].
Definition lbl_ss4 : list Z := [75; 121; 98; 101; 114; 32; 75; 69; 77; 32; 52; 45; 119; 97; 121; 32; 83; 83].
(** [kyber_kdf.h: 75-92], [kyber_kdf.h: 113-132], [kyber_kdf.h: 176-185] *)
Definition kyber_kdf3 (a b nonce : list Z) (n : nat) : list Z := k_kmac a lbl_ss3 [b; nonce] n.
Definition kyber_kdf4 (a b c nonce : list Z) (n : nat) : list Z := k_kmac a lbl_ss4 [b; c; nonce] n.
Definition kyber_ss_kdf (n : nat) (ct ss : list Z) : list Z := k_kmac ss lbl_ss [ct] n.

(** ** Parameter sets [ml-kem/api/lc_kyber_size.h.in], [kyber_type.h] *)
Record kparams := mkKP { kk : nat; keta1 : nat; kdu : nat; kdv : nat }.
Definition kyber512 := mkKP 2 3 10 4.
Definition kyber768 := mkKP 3 2 10 4.
Definition kyber1024 := mkKP 4 2 11 5.

(** ** kyber_polyvec.c, kyber_polyvec.h, kyber_polyvec_c.h *)
(** [kyber_polyvec.c: 44-48] *)
Definition comp11 (c : Z) : Z :=
  let d0 := u64 (Z.shiftl (pos16 c) 11) in
  let d0 := u64 (d0 + KQ / 2) in
  let d0 := u64 (d0 * 645084) in
  Z.land (Z.shiftr d0 31) 2047.
(** [kyber_polyvec.c: 73-78] *)
Definition comp10 (c : Z) : Z :=
  let d0 := u64 (Z.shiftl (pos16 c) 10) in
  let d0 := u64 (d0 + (KQ - KQ / 2)) in
  let d0 := u64 (d0 * 1290167) in
  Z.land (Z.shiftr d0 32) 1023.
(** [kyber_polyvec.c: 52-62] *)
Definition pack11 (t : list Z) : list Z :=
  match t with
  | [t0; t1; t2; t3; t4; t5; t6; t7] =>
      [u8 (t0 >>' 0); u8 ((t0 >>' 8) .| (t1 <<' 3)); u8 ((t1 >>' 5) .| (t2 <<' 6)); u8 (t2 >>' 2);
       u8 ((t2 >>' 10) .| (t3 <<' 1)); u8 ((t3 >>' 7) .| (t4 <<' 4)); u8 ((t4 >>' 4) .| (t5 <<' 7));
       u8 (t5 >>' 1); u8 ((t5 >>' 9) .| (t6 <<' 2)); u8 ((t6 >>' 6) .| (t7 <<' 5)); u8 (t7 >>' 3)]
  | _ => []
  end.
(** [kyber_polyvec.c: 82-86] *)
Definition pack10 (t : list Z) : list Z :=
  match t with
  | [t0; t1; t2; t3] =>
      [u8 (t0 >>' 0); u8 ((t0 >>' 8) .| (t1 <<' 2)); u8 ((t1 >>' 6) .| (t2 <<' 4));
       u8 ((t2 >>' 4) .| (t3 <<' 6)); u8 (t3 >>' 2)]
  | _ => []
  end.
Definition polyc (du : nat) (a : list Z) : list Z :=
  if (du =? 11)%nat then flat_map pack11 (full_chunks 8 (map comp11 a))
  else flat_map pack10 (full_chunks 4 (map comp10 a)).
(** [kyber_polyvec.c: 30-93] *)
Definition polyvec_compress (du : nat) (v : list (list Z)) : list Z := flat_map (polyc du) v.
(** [kyber_polyvec.c: 105-114] *)
Definition unpack11 (b : list Z) : list Z :=
  match b with
  | [a0; a1; a2; a3; a4; a5; a6; a7; a8; a9; a10] =>
      [u16 ((a0 >>' 0) .| u16 (a1 <<' 8)); u16 ((a1 >>' 3) .| u16 (a2 <<' 5));
       u16 ((a2 >>' 6) .| u16 (a3 <<' 2) .| u16 (a4 <<' 10)); u16 ((a4 >>' 1) .| u16 (a5 <<' 7));
       u16 ((a5 >>' 4) .| u16 (a6 <<' 4)); u16 ((a6 >>' 7) .| u16 (a7 <<' 1) .| u16 (a8 <<' 9));
       u16 ((a8 >>' 2) .| u16 (a9 <<' 6)); u16 ((a9 >>' 5) .| u16 (a10 <<' 3))]
  | _ => []
  end.
(** [kyber_polyvec.c: 117-122] *)
Definition decomp11 (t : Z) : Z := s16 (Z.shiftr (u32 (Z.land t 2047 * KQ + 1024)) 11).
(** [kyber_polyvec.c: 129-132] *)
Definition unpack10 (b : list Z) : list Z :=
  match b with
  | [a0; a1; a2; a3; a4] =>
      [u16 ((a0 >>' 0) .| u16 (a1 <<' 8)); u16 ((a1 >>' 2) .| u16 (a2 <<' 6));
       u16 ((a2 >>' 4) .| u16 (a3 <<' 4)); u16 ((a3 >>' 6) .| u16 (a4 <<' 2))]
  | _ => []
  end.
(** [kyber_polyvec.c: 135-140] *)
Definition decomp10 (t : Z) : Z := s16 (Z.shiftr (u32 (Z.land t 1023 * KQ + 512)) 10).
Definition polyd (du : nat) (a : list Z) : list Z :=
  if (du =? 11)%nat then map decomp11 (flat_map unpack11 (full_chunks 11 a))
  else map decomp10 (flat_map unpack10 (full_chunks 5 a)).
(** cut a byte string into k pieces of n bytes *)
Fixpoint cut (k n : nat) (a : list Z) : list (list Z) :=
  match k with O => [] | S k' => firstn n a :: cut k' n (skipn n a) end.
(** [kyber_polyvec.c: 95-145] *)
Definition polyvec_decompress (k du : nat) (a : list Z) : list (list Z) := map (polyd du) (cut k (32 * du) a).
(** [kyber_polyvec.h: 66-73], [kyber_polyvec.h: 82-89] *)
Definition polyvec_tobytes (v : list (list Z)) : list Z := flat_map poly_tobytes v.
Definition polyvec_frombytes (k : nat) (a : list Z) : list (list Z) := map poly_frombytes (cut k 384 a).
(** [kyber_polyvec.h: 97-103] polyvec_ntt, and likewise polyvec_invntt_tomont, polyvec_reduce, polyvec_add *)
Definition polyvec_ntt (v : list (list Z)) : list (list Z) := map poly_ntt v.
Definition polyvec_invntt_tomont (v : list (list Z)) : list (list Z) := map poly_invntt_tomont v.
Definition polyvec_reduce (v : list (list Z)) : list (list Z) := map poly_reduce v.
Fixpoint polyvec_add (a b : list (list Z)) : list (list Z) :=
  match a, b with x :: a', y :: b' => poly_add x y :: polyvec_add a' b' | _, _ => [] end.
(** [kyber_polyvec_c.h: 45-59] the scratch polynomial t overlaps the first operand of the caller in
    indcpa_keypair (a[0].vec[0]) and indcpa_dec (b.vec[0]); both are last read by the first product,
    before t is written. *)
Fixpoint acc_loop (r : list Z) (a b : list (list Z)) : list Z :=
  match a, b with
  | x :: a', y :: b' => acc_loop (poly_add r (poly_basemul_montgomery x y)) a' b'
  | _, _ => r
  end.
Definition polyvec_basemul_acc_montgomery (a b : list (list Z)) : list Z :=
  match a, b with
  | x :: a', y :: b' => poly_reduce (acc_loop (poly_basemul_montgomery x y) a' b')
  | _, _ => []
  end.

(** ** kyber_indcpa.c *)
(** [kyber_indcpa.c: 141-162] *)
Fixpoint rej_uniform (len : nat) (buf : list Z) : list Z :=
  match len with
  | O => []
  | S _ =>
    match buf with
    | b0 :: b1 :: b2 :: buf' =>
      let val0 := Z.land ((b0 >>' 0) .| u16 (b1 <<' 8)) 4095 in
      let val1 := Z.land ((b1 >>' 4) .| u16 (b2 <<' 4)) 4095 in
      let l0 := if val0 <? KQ then [val0] else [] in
      let len1 := (len - length l0)%nat in
      let l1 := if (0 <? len1)%nat && (val1 <? KQ) then [val1] else [] in
      l0 ++ l1 ++ rej_uniform (len1 - length l1) buf'
    | _ => []
    end
  end.

(** [kyber_indcpa.c: 212-224] the while loop; None: still running after [fuel] rounds *)
Fixpoint gen_refill (fuel : nat) (c : kctx) (buf r : list Z) : option (list Z) :=
  if (length r <? 256)%nat then
    match fuel with
    | O => None
    | S f =>
      let buflen := length buf in
      let off := (buflen mod 3)%nat in
      let (o, c') := xof_read permB c 168 in
      let buf' := skipn (buflen - off) buf ++ o in
      gen_refill f c' buf' (r ++ rej_uniform (256 - length r) buf')
    end
  else Some r.
(** [kyber_indcpa.c: 195-224] one entry, GEN_MATRIX_NBLOCKS = 3 *)
Definition gen_entry (fuel : nat) (seed : list Z) (x y : Z) : option (list Z) :=
  let c := keccak_updates permB (keccak_init alg_shake128) [seed; [x]; [y]] in
  let (buf, c) := xof_read permB c 504 in
  gen_refill fuel c buf (rej_uniform 256 buf).
Fixpoint traverse {A : Type} (l : list (option A)) : option (list A) :=
  match l with
  | [] => Some []
  | Some x :: l' => match traverse l' with Some r => Some (x :: r) | None => None end
  | None :: _ => None
  end.
(** [kyber_indcpa.c: 181-229] *)
Definition gen_matrix (fuel k : nat) (seed : list Z) (transposed : bool) : option (list (list (list Z))) :=
  traverse (map (fun i => traverse (map (fun j =>
    if transposed then gen_entry fuel seed (Z.of_nat i) (Z.of_nat j)
    else gen_entry fuel seed (Z.of_nat j) (Z.of_nat i)) (seq 0 k))) (seq 0 k)).

(** [kyber_poly.c: 33-49] *)
Definition poly_getnoise (eta : nat) (seed : list Z) (nonce : nat) : list Z :=
  poly_cbd eta (kyber_shake256_prf (64 * eta) seed (Z.of_nat nonce)).

(** [kyber_indcpa.c: 52-57] pack_pk *)
Definition pack_pk (pk : list (list Z)) (seed : list Z) : list Z := polyvec_tobytes pk ++ seed.

(** [kyber_indcpa.c: 231-312] [d]: the 32 bytes obtained from the RNG. *)
Definition indcpa_keypair (fuel : nat) (p : kparams) (d : list Z) : option (list Z * list Z) :=
  let k := kk p in
  let buf := k_sha3_512 [d; [Z.of_nat k]] in
  let publicseed := firstn 32 buf in
  let noiseseed := skipn 32 buf in
  let skpv := map (fun i => poly_getnoise (keta1 p) noiseseed i) (seq 0 k) in
  let e := map (fun i => poly_getnoise (keta1 p) noiseseed (k + i)) (seq 0 k) in
  let skpv := polyvec_ntt skpv in
  let e := polyvec_ntt e in
  match gen_matrix fuel k publicseed false with
  | None => None
  | Some a =>
    let pkpv := map (fun row => poly_tomont (polyvec_basemul_acc_montgomery row skpv)) a in
    let pkpv := polyvec_reduce (polyvec_add pkpv e) in
    Some (pack_pk pkpv publicseed, polyvec_tobytes skpv)
  end.

Section Addr.
  (** addresses of the two buffers compared by lc_memcmp_secure *)
  Variables ad1 ad2 : Z.

  (** [kyber_kem_input_validation.h: 61-77] *)
  Definition kyber_kem_iv_pk_modulus (pk : list Z) (pkpv : list (list Z)) (seed : list Z) : Z :=
    if lc_memcmp_secure ad1 pk ad2 (pack_pk pkpv seed) =? 0 then 0 else EINVAL.

  (** result of a call: return code and output buffers (empty when not written) *)
  (** [kyber_indcpa.c: 314-396]; None: gen_at did not end within the fuel *)
  Definition indcpa_enc (fuel : nat) (p : kparams) (m pk coins : list Z) : option (Z * list Z) :=
    let k := kk p in
    let pkpv := polyvec_frombytes k pk in
    let seed := skipn (384 * k) pk in
    let ret := kyber_kem_iv_pk_modulus pk pkpv seed in
    if negb (ret =? 0) then Some (ret, []) else
    let kp := poly_frommsg m in
    match gen_matrix fuel k seed true with
    | None => None
    | Some at_ =>
      let sp := map (fun i => poly_getnoise (keta1 p) coins i) (seq 0 k) in
      let ep := map (fun i => poly_getnoise 2 coins (k + i)) (seq 0 k) in
      let epp := poly_getnoise 2 coins (2 * k) in
      let sp := polyvec_ntt sp in
      let b := map (fun row => polyvec_basemul_acc_montgomery row sp) at_ in
      let v := polyvec_basemul_acc_montgomery pkpv sp in
      let b := polyvec_invntt_tomont b in
      let v := poly_invntt_tomont v in
      let b := polyvec_add b ep in
      let v := poly_add v epp in
      let v := poly_add v kp in
      let b := polyvec_reduce b in
      let v := poly_reduce v in
      Some (0, polyvec_compress (kdu p) b ++ poly_compress (kdv p) v)
    end.

  (** [kyber_indcpa.c: 398-446] *)
  Definition indcpa_dec (p : kparams) (c sk : list Z) : list Z :=
    let k := kk p in
    let skpv := polyvec_frombytes k sk in
    let b := polyvec_decompress k (kdu p) c in
    let v := poly_decompress (kdv p) (skipn (32 * kdu p * k) c) in
    let b := polyvec_ntt b in
    let mp := polyvec_basemul_acc_montgomery skpv b in
    let mp := poly_invntt_tomont mp in
    let mp := poly_sub v mp in
    let mp := poly_reduce mp in
    poly_tomsg mp.

  (** ** kyber_kem.c *)
  (** sizes [ml-kem/api/lc_kyber_size.h.in] *)
  Definition pkbytes (p : kparams) : nat := (384 * kk p + 32)%nat.
  Definition cpaskbytes (p : kparams) : nat := (384 * kk p)%nat.
  Definition ctbytes (p : kparams) : nat := (32 * kdu p * kk p + 32 * kdv p)%nat.
  Definition skbytes (p : kparams) : nat := (cpaskbytes p + pkbytes p + 64)%nat.

  (** [kyber_kem.c: 42-82] the static RNG hands out the seed in order [drng/src/static_rng.c: 22-43] *)
  Definition kyber_keypair_from_seed (fuel : nat) (p : kparams) (seed : list Z) : option (Z * list Z * list Z) :=
    if negb (length seed =? 64)%nat then Some (EINVAL, [], []) else
    match indcpa_keypair fuel p (firstn 32 seed) with
    | None => None
    | Some (pk, sk) => Some (0, pk, sk ++ pk ++ k_sha3_256 [pk] ++ skipn 32 seed)
    end.

  (** [kyber_kem.c: 108-167] [m]: the 32 bytes obtained from the RNG *)
  Definition kyber_enc (fuel : nat) (p : kparams) (pk m : list Z) : option (Z * list Z * list Z) :=
    let buf := m ++ k_sha3_256 [pk] in
    let kr := k_sha3_512 [buf] in
    match indcpa_enc fuel p m pk (skipn 32 kr) with
    | None => None
    | Some (ret, ct) => if ret =? 0 then Some (0, ct, firstn 32 kr) else Some (ret, ct, [])
    end.
  (** [kyber_kem.c: 169-189] *)
  Definition kyber_enc_kdf (fuel : nat) (p : kparams) (pk m : list Z) (n : nat) : option (Z * list Z * list Z) :=
    match kyber_enc fuel p pk m with
    | Some (ret, ct, ss) => if ret =? 0 then Some (0, ct, kyber_ss_kdf n ct ss) else Some (ret, ct, [])
    | None => None
    end.

  (** fields of the secret key [kyber_kem.c: 209-213, 255, 262, 279] *)
  Definition sk_pk (p : kparams) (sk : list Z) : list Z := slice sk (cpaskbytes p) (pkbytes p).
  Definition sk_hpk (p : kparams) (sk : list Z) : list Z := slice sk (skbytes p - 64) 32.
  Definition sk_z (p : kparams) (sk : list Z) : list Z := slice sk (skbytes p - 32) 32.

  (** [kyber_kem.c: 199-221] *)
  Definition kyber_kem_iv_sk (p : kparams) (sk : list Z) : Z :=
    if lc_memcmp_secure ad1 (sk_hpk p sk) ad2 (k_sha3_256 [sk_pk p sk]) =? 0 then 0 else EINVAL.

  (** [internal/api/sidechannel_resistantce.h: 47-54] *)
  Definition cmov (r x : list Z) (b : Z) : list Z :=
    let b := u8 (- b) in zip2 (fun ri xi => Z.lxor ri (Z.land b (Z.lxor ri xi))) r x.

  (** [kyber_kem.c: 223-307] *)
  Definition kyber_dec (fuel : nat) (p : kparams) (ct sk : list Z) : option (Z * list Z) :=
    let ret := kyber_kem_iv_sk p sk in
    if negb (ret =? 0) then Some (ret, []) else
    let pk := sk_pk p sk in
    let m := indcpa_dec p ct (firstn (cpaskbytes p) sk) in
    let kr := k_sha3_512 [m ++ sk_hpk p sk] in
    match indcpa_enc fuel p m pk (skipn 32 kr) with
    | None => None
    | Some (ret, cmp) =>
      if negb (ret =? 0) then Some (ret, []) else
      let fail := lc_memcmp_secure ad1 ct ad2 cmp in
      let ss := kyber_shake256_rkprf (sk_z p sk) ct in
      Some (0, cmov ss (firstn 32 kr) (u8 (1 - fail)))
    end.
  (** [kyber_kem.c: 309-336] *)
  Definition kyber_dec_kdf (fuel : nat) (p : kparams) (ct sk : list Z) (n : nat) : option (Z * list Z) :=
    match kyber_dec fuel p ct sk with
    | Some (ret, ss) => if ret =? 0 then Some (0, kyber_ss_kdf n ct ss) else Some (ret, [])
    | None => None
    end.
End Addr.
