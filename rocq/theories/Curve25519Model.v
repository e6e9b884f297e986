(** * Curve25519 field arithmetic with five 51-bit limbs and the X25519 ladder
    (the x86-64 build: curve25519/src/ed25519_ref10_fe_51.h, fe_51/fe.h,
    ed25519_ref10.c fe25519_invert, x25519_scalarmult_c.c, x25519.c)

    A field element is its five limbs.  uint64_t and uint128_t operations wrap;
    a sum or product of several terms is reduced once at the end, which is the
    same. *)
From Coq Require Import ZArith List Bool.
Import ListNotations.
Open Scope Z_scope.

Definition fe : Type := (Z * Z * Z * Z * Z)%type.
Definition u64 (x : Z) : Z := x mod 18446744073709551616.
Definition u128 (x : Z) : Z := x mod 340282366920938463463374607431768211456.
(** & 0x7ffffffffffff, >> 51 *)
Definition msk (x : Z) : Z := Z.land x 2251799813685247.
Definition shr51 (x : Z) : Z := Z.shiftr x 51.

(** fe25519_0, fe25519_1 [ed25519_ref10_fe_51.h: 41-54] *)
Definition fe_0 : fe := (0, 0, 0, 0, 0).
Definition fe_1 : fe := (1, 0, 0, 0, 0).

(** fe25519_add [61-74] *)
Definition fe_add (f g : fe) : fe :=
  let '(f0, f1, f2, f3, f4) := f in
  let '(g0, g1, g2, g3, g4) := g in
  (u64 (f0 + g0), u64 (f1 + g1), u64 (f2 + g2), u64 (f3 + g3), u64 (f4 + g4)).

(** fe25519_sub [80-112] *)
Definition fe_sub (f g : fe) : fe :=
  let '(f0, f1, f2, f3, f4) := f in
  let '(h0, h1, h2, h3, h4) := g in
  let h1 := u64 (h1 + shr51 h0) in let h0 := msk h0 in
  let h2 := u64 (h2 + shr51 h1) in let h1 := msk h1 in
  let h3 := u64 (h3 + shr51 h2) in let h2 := msk h2 in
  let h4 := u64 (h4 + shr51 h3) in let h3 := msk h3 in
  let h0 := u64 (h0 + 19 * shr51 h4) in let h4 := msk h4 in
  (u64 (f0 + 4503599627370458 - h0), u64 (f1 + 4503599627370494 - h1),
   u64 (f2 + 4503599627370494 - h2), u64 (f3 + 4503599627370494 - h3),
   u64 (f4 + 4503599627370494 - h4)).

(** fe25519_cswap [202-255]: mask = (uint64_t)(-(int64_t)b) *)
Definition cswap_limb (mask f g : Z) : Z * Z :=
  let x := Z.land (Z.lxor f g) mask in (Z.lxor f x, Z.lxor g x).
Definition fe_cswap (f g : fe) (b : Z) : fe * fe :=
  let '(f0, f1, f2, f3, f4) := f in
  let '(g0, g1, g2, g3, g4) := g in
  let mask := u64 (- b) in
  let '(f0, g0) := cswap_limb mask f0 g0 in
  let '(f1, g1) := cswap_limb mask f1 g1 in
  let '(f2, g2) := cswap_limb mask f2 g2 in
  let '(f3, g3) := cswap_limb mask f3 g3 in
  let '(f4, g4) := cswap_limb mask f4 g4 in
  ((f0, f1, f2, f3, f4), (g0, g1, g2, g3, g4)).

(** the end of fe25519_mul [342-362] and of fe25519_sq [406-426] *)
Definition fe_carry (r0 r1 r2 r3 r4 : Z) : fe :=
  let r00 := msk (u64 r0) in let carry := u64 (shr51 r0) in
  let r1 := u128 (r1 + carry) in
  let r01 := msk (u64 r1) in let carry := u64 (shr51 r1) in
  let r2 := u128 (r2 + carry) in
  let r02 := msk (u64 r2) in let carry := u64 (shr51 r2) in
  let r3 := u128 (r3 + carry) in
  let r03 := msk (u64 r3) in let carry := u64 (shr51 r3) in
  let r4 := u128 (r4 + carry) in
  let r04 := msk (u64 r4) in let carry := u64 (shr51 r4) in
  let r00 := u64 (r00 + 19 * carry) in
  let carry := shr51 r00 in let r00 := msk r00 in
  let r01 := u64 (r01 + carry) in
  let carry := shr51 r01 in let r01 := msk r01 in
  let r02 := u64 (r02 + carry) in
  (r00, r01, r02, r03, r04).

(** fe25519_mul [308-369] *)
Definition fe_mul (f g : fe) : fe :=
  let '(f0, f1, f2, f3, f4) := f in
  let '(g0, g1, g2, g3, g4) := g in
  let f1_19 := u128 (19 * f1) in let f2_19 := u128 (19 * f2) in
  let f3_19 := u128 (19 * f3) in let f4_19 := u128 (19 * f4) in
  fe_carry
    (u128 (f0 * g0 + f1_19 * g4 + f2_19 * g3 + f3_19 * g2 + f4_19 * g1))
    (u128 (f0 * g1 + f1 * g0 + f2_19 * g4 + f3_19 * g3 + f4_19 * g2))
    (u128 (f0 * g2 + f1 * g1 + f2 * g0 + f3_19 * g4 + f4_19 * g3))
    (u128 (f0 * g3 + f1 * g2 + f2 * g1 + f3 * g0 + f4_19 * g4))
    (u128 (f0 * g4 + f1 * g3 + f2 * g2 + f3 * g1 + f4 * g0)).

(** fe25519_sq [376-433] *)
Definition fe_sq (f : fe) : fe :=
  let '(f0, f1, f2, f3, f4) := f in
  let f0_2 := u128 (Z.shiftl f0 1) in let f1_2 := u128 (Z.shiftl f1 1) in
  let f1_38 := u128 (38 * f1) in let f2_38 := u128 (38 * f2) in
  let f3_38 := u128 (38 * f3) in
  let f3_19 := u128 (19 * f3) in let f4_19 := u128 (19 * f4) in
  fe_carry
    (u128 (f0 * f0 + f1_38 * f4 + f2_38 * f3))
    (u128 (f0_2 * f1 + f2_38 * f4 + f3_19 * f3))
    (u128 (f0_2 * f2 + f1 * f1 + f3_38 * f4))
    (u128 (f0_2 * f3 + f1_2 * f2 + f4_19 * f4))
    (u128 (f0_2 * f4 + f1_2 * f3 + f2 * f2)).

(** fe25519_mul32 [508-534] *)
Definition fe_mul32 (f : fe) (n : Z) : fe :=
  let '(f0, f1, f2, f3, f4) := f in
  let a := u128 (f0 * n) in let h0 := msk (u64 a) in
  let a := u128 (f1 * n + u64 (shr51 a)) in let h1 := msk (u64 a) in
  let a := u128 (f2 * n + u64 (shr51 a)) in let h2 := msk (u64 a) in
  let a := u128 (f3 * n + u64 (shr51 a)) in let h3 := msk (u64 a) in
  let a := u128 (f4 * n + u64 (shr51 a)) in let h4 := msk (u64 a) in
  let h0 := u64 (h0 + u64 (u64 (shr51 a) * 19)) in
  (h0, h1, h2, h3, h4).

(** ptr_to_le64 at s + i [bitshift_le.h]; le64_to_ptr *)
Definition ld8 (s : list Z) (i k : nat) : Z := Z.shiftl (nth (i + k) s 0) (8 * Z.of_nat k).
Definition ld64 (s : list Z) (i : nat) : Z :=
  fold_right (fun k a => Z.lor (ld8 s i k) a) 0 (seq 0 8).
Definition st64 (v : Z) : list Z :=
  map (fun k => Z.shiftr v (8 * Z.of_nat k) mod 256) (seq 0 8).

(** fe25519_frombytes [fe_51/fe.h: 41-57] *)
Definition fe_frombytes (s : list Z) : fe :=
  (msk (ld64 s 0), msk (Z.shiftr (ld64 s 6) 3), msk (Z.shiftr (ld64 s 12) 6),
   msk (Z.shiftr (ld64 s 19) 1), msk (Z.shiftr (ld64 s 24) 12)).

(** fe25519_reduce [59-135] in steps.  72-81, 83-92, 99-108: carry once round *)
Definition red_round (t : fe) : fe :=
  let '(t0, t1, t2, t3, t4) := t in
  let t1 := u128 (t1 + shr51 t0) in let t0 := msk t0 in
  let t2 := u128 (t2 + shr51 t1) in let t1 := msk t1 in
  let t3 := u128 (t3 + shr51 t2) in let t2 := msk t2 in
  let t4 := u128 (t4 + shr51 t3) in let t3 := msk t3 in
  let t0 := u128 (t0 + 19 * shr51 t4) in let t4 := msk t4 in
  (t0, t1, t2, t3, t4).
(** 97 *)
Definition red_add19 (t : fe) : fe :=
  let '(t0, t1, t2, t3, t4) := t in (u128 (t0 + 19), t1, t2, t3, t4).
(** 112-128 *)
Definition red_last (t : fe) : fe :=
  let '(t0, t1, t2, t3, t4) := t in
  let t0 := u128 (t0 + (2251799813685248 - 19)) in
  let t1 := u128 (t1 + (2251799813685248 - 1)) in
  let t2 := u128 (t2 + (2251799813685248 - 1)) in
  let t3 := u128 (t3 + (2251799813685248 - 1)) in
  let t4 := u128 (t4 + (2251799813685248 - 1)) in
  let t1 := u128 (t1 + shr51 t0) in let t0 := msk t0 in
  let t2 := u128 (t2 + shr51 t1) in let t1 := msk t1 in
  let t3 := u128 (t3 + shr51 t2) in let t2 := msk t2 in
  let t4 := u128 (t4 + shr51 t3) in let t3 := msk t3 in
  let t4 := msk t4 in
  (u64 t0, u64 t1, u64 t2, u64 t3, u64 t4).
Definition fe_reduce (f : fe) : fe :=
  red_last (red_round (red_add19 (red_round (red_round f)))).

(** fe25519_tobytes [137-152] *)
Definition fe_tobytes (h : fe) : list Z :=
  let '(t0, t1, t2, t3, t4) := fe_reduce h in
  st64 (Z.lor t0 (u64 (Z.shiftl t1 51))) ++
  st64 (Z.lor (Z.shiftr t1 13) (u64 (Z.shiftl t2 38))) ++
  st64 (Z.lor (Z.shiftr t2 26) (u64 (Z.shiftl t3 25))) ++
  st64 (Z.lor (Z.shiftr t3 39) (u64 (Z.shiftl t4 12))).

(** n squarings *)
Fixpoint fe_sqn (n : nat) (f : fe) : fe :=
  match n with O => f | S n => fe_sqn n (fe_sq f) end.

(** fe25519_invert [ed25519_ref10.c: 83-133] *)
Definition fe_invert (z : fe) : fe :=
  let t0 := fe_sq z in
  let t1 := fe_sq t0 in
  let t1 := fe_sq t1 in
  let t1 := fe_mul z t1 in
  let t0 := fe_mul t0 t1 in
  let t2 := fe_sq t0 in
  let t1 := fe_mul t1 t2 in
  let t2 := fe_sq t1 in
  let t2 := fe_sqn 4 t2 in
  let t1 := fe_mul t2 t1 in
  let t2 := fe_sq t1 in
  let t2 := fe_sqn 9 t2 in
  let t2 := fe_mul t2 t1 in
  let t3 := fe_sq t2 in
  let t3 := fe_sqn 19 t3 in
  let t2 := fe_mul t3 t2 in
  let t2 := fe_sqn 10 t2 in
  let t1 := fe_mul t2 t1 in
  let t2 := fe_sq t1 in
  let t2 := fe_sqn 49 t2 in
  let t2 := fe_mul t2 t1 in
  let t3 := fe_sq t2 in
  let t3 := fe_sqn 99 t3 in
  let t2 := fe_mul t3 t2 in
  let t2 := fe_sqn 50 t2 in
  let t1 := fe_mul t2 t1 in
  let t1 := fe_sqn 5 t1 in
  fe_mul t1 t0.

(** ** x25519_scalarmult_c.c *)

(** 44-83 *)
Definition blocklist : list (list Z) :=
  [ repeat 0 32;
    1 :: repeat 0 31;
    [224; 235; 122; 124; 59; 65; 184; 174; 22; 86; 227; 250; 241; 159; 196; 106;
     218; 9; 141; 235; 156; 50; 177; 253; 134; 98; 5; 22; 95; 73; 184; 0];
    [95; 156; 149; 188; 163; 80; 140; 36; 177; 208; 177; 85; 156; 131; 239; 91;
     4; 68; 92; 196; 88; 28; 142; 134; 216; 34; 78; 221; 208; 159; 17; 87];
    236 :: repeat 255 30 ++ [127];
    237 :: repeat 255 30 ++ [127];
    238 :: repeat 255 30 ++ [127] ].

(** has_small_order [41-105]: c[i], then k *)
Definition differs (s b : list Z) : Z :=
  fold_left Z.lor
    (map (fun j => Z.lxor (nth j s 0) (nth j b 0)) (seq 0 31) ++
     [Z.lxor (Z.land (nth 31 s 0) 127) (nth 31 b 0)]) 0.
Definition has_small_order (s : list Z) : Z :=
  let k := fold_left (fun k b => Z.lor k ((differs s b - 1) mod 4294967296)) blocklist 0 in
  Z.land (Z.shiftr k 8) 1.

(** 120-125 (and 186-191): clamping *)
Definition clamp (n : list Z) : list Z :=
  Z.land (nth 0 n 0) 248 :: firstn 30 (skipn 1 n) ++ [Z.lor (Z.land (nth 31 n 0) 127) 64].

(** 135-159: one trip of the loop *)
Definition lstate : Type := (fe * fe * fe * fe * Z)%type.
Definition ladder_step (t : list Z) (x1 : fe) (pos : nat) (s : lstate) : lstate :=
  let '(x2, z2, x3, z3, swap) := s in
  let bit := Z.land (Z.shiftr (nth (pos / 8) t 0) (Z.of_nat (pos mod 8))) 1 in
  let swap := Z.lxor swap bit in
  let '(x2, x3) := fe_cswap x2 x3 swap in
  let '(z2, z3) := fe_cswap z2 z3 swap in
  let swap := bit in
  let a := fe_add x2 z2 in
  let b := fe_sub x2 z2 in
  let aa := fe_sq a in
  let bb := fe_sq b in
  let x2 := fe_mul aa bb in
  let e := fe_sub aa bb in
  let da := fe_sub x3 z3 in
  let da := fe_mul da a in
  let cb := fe_add x3 z3 in
  let cb := fe_mul cb b in
  let x3 := fe_add da cb in
  let x3 := fe_sq x3 in
  let z3 := fe_sub da cb in
  let z3 := fe_sq z3 in
  let z3 := fe_mul z3 x1 in
  let z2 := fe_mul32 e 121666 in
  let z2 := fe_add z2 bb in
  let z2 := fe_mul z2 e in
  (x2, z2, x3, z3, swap).
Fixpoint ladder (t : list Z) (x1 : fe) (n : nat) (s : lstate) : lstate :=
  match n with O => s | S n => ladder t x1 n (ladder_step t x1 n s) end.

(** crypto_scalarmult_curve25519_c [107-171]: return value and what was stored
    to q, if anything *)
Definition scalarmult (n p : list Z) : Z * option (list Z) :=
  if negb (has_small_order p =? 0) then (-1, None)
  else
    let t := clamp n in
    let x1 := fe_frombytes p in
    let '(x2, z2, x3, z3, swap) := ladder t x1 255 (fe_1, fe_0, x1, fe_1, 0) in
    let '(x2, x3) := fe_cswap x2 x3 swap in
    let '(z2, z3) := fe_cswap z2 z3 swap in
    let z2 := fe_invert z2 in
    let x2 := fe_mul x2 z2 in
    (0, Some (fe_tobytes x2)).

(** lc_x25519_ss [x25519.c: 112-136]; [None] is a null pointer, the last value
    is the shared secret afterwards (before: [ss]) *)
Definition x25519_ss (ss pk sk : option (list Z)) : Z * option (list Z) :=
  match sk, pk, ss with
  | Some n, Some p, Some s =>
      let '(r, q) := scalarmult n p in (r, Some (match q with Some q => q | None => s end))
  | _, _, _ => (-22, ss)
  end.
