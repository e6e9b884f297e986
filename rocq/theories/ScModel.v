(** * Arithmetic modulo the group order of Ed25519 and the canonicity tests
    (curve25519/src/ed25519_ref10.c: load_3, load_4, sc25519_reduce,
    sc25519_muladd, sc25519_mul, sc25519_is_canonical, ge25519_is_canonical)

    The functions are straight-line code over int64_t variables s0 .. s23.  They
    are written here as lists of instructions, one for each C statement (the
    three statements of a carry are one instruction); a signed overflow makes
    the run [None]. *)
From Coq Require Import ZArith List Bool.
Import ListNotations.
Open Scope Z_scope.

Definition get (s : list Z) (i : nat) : Z := nth i s 0.
Fixpoint set (s : list Z) (i : nat) (v : Z) : list Z :=
  match s, i with
  | [], _ => []
  | _ :: s, O => v :: s
  | x :: s, S i => x :: set s i v
  end.

(** int64_t *)
Definition chk (x : Z) : bool := (-9223372036854775808 <=? x) && (x <=? 9223372036854775807).

Inductive instr : Type :=
| Mac (d k : nat) (c : Z)   (* sd += sk * c; *)
| Msu (d k : nat) (c : Z)   (* sd -= sk * c; *)
| RCar (i : nat)            (* carry = (si + (1 << 20)) >> 21; s(i+1) += carry; si -= carry * (1 << 21); *)
| Car (i : nat)             (* carry = si >> 21; ... the same *)
| Zero (i : nat).           (* si = 0; *)

Definition exec1 (ins : instr) (s : list Z) : option (list Z) :=
  match ins with
  | Mac d k c =>
      let p := get s k * c in let r := get s d + p in
      if chk p && chk r then Some (set s d r) else None
  | Msu d k c =>
      let p := get s k * c in let r := get s d - p in
      if chk p && chk r then Some (set s d r) else None
  | RCar i =>
      let x := get s i in let q := x + 1048576 in
      let carry := Z.shiftr q 21 in
      let n := get s (S i) + carry in let m := carry * 2097152 in
      if chk q && chk n && chk m && chk (x - m) then Some (set (set s (S i) n) i (x - m)) else None
  | Car i =>
      let x := get s i in
      let carry := Z.shiftr x 21 in
      let n := get s (S i) + carry in let m := carry * 2097152 in
      if chk n && chk m && chk (x - m) then Some (set (set s (S i) n) i (x - m)) else None
  | Zero i => Some (set s i 0)
  end.
Fixpoint exec (p : list instr) (s : list Z) : option (list Z) :=
  match p with
  | [] => Some s
  | i :: p => match exec1 i s with Some s => exec p s | None => None end
  end.

(** load_3, load_4 [33-54] *)
Definition load (s : list Z) (off n : nat) : Z :=
  fold_right (fun k a => Z.lor (Z.shiftl (nth (off + k) s 0) (8 * Z.of_nat k)) a) 0 (seq 0 n).
(** (offset, bytes, shift, masked with 2097151) *)
Definition limb (s : list Z) (r : nat * nat * Z * bool) : Z :=
  let '(off, n, sh, m) := r in
  let v := Z.shiftr (load s off n) sh in if m then Z.land 2097151 v else v.
(** sc25519_reduce [2269-2292] *)
Definition load64 : list (nat * nat * Z * bool) :=
  [(0%nat, 3%nat, 0, true); (2%nat, 4%nat, 5, true); (5%nat, 3%nat, 2, true); (7%nat, 4%nat, 7, true); (10%nat, 4%nat, 4, true); (13%nat, 3%nat, 1, true);
   (15%nat, 4%nat, 6, true); (18%nat, 3%nat, 3, true); (21%nat, 3%nat, 0, true); (23%nat, 4%nat, 5, true); (26%nat, 3%nat, 2, true); (28%nat, 4%nat, 7, true);
   (31%nat, 4%nat, 4, true); (34%nat, 3%nat, 1, true); (36%nat, 4%nat, 6, true); (39%nat, 3%nat, 3, true); (42%nat, 3%nat, 0, true); (44%nat, 4%nat, 5, true);
   (47%nat, 3%nat, 2, true); (49%nat, 4%nat, 7, true); (52%nat, 4%nat, 4, true); (55%nat, 3%nat, 1, true); (57%nat, 4%nat, 6, true); (60%nat, 4%nat, 3, false)].
(** sc25519_muladd [1696-1733], sc25519_mul [1222-1247] *)
Definition load32 : list (nat * nat * Z * bool) :=
  [(0%nat, 3%nat, 0, true); (2%nat, 4%nat, 5, true); (5%nat, 3%nat, 2, true); (7%nat, 4%nat, 7, true); (10%nat, 4%nat, 4, true); (13%nat, 3%nat, 1, true);
   (15%nat, 4%nat, 6, true); (18%nat, 3%nat, 3, true); (21%nat, 3%nat, 0, true); (23%nat, 4%nat, 5, true); (26%nat, 3%nat, 2, true); (28%nat, 4%nat, 7, false)].
Definition limbs64 (s : list Z) : list Z := map (limb s) load64.
Definition limbs32 (s : list Z) : list Z := map (limb s) load32.

(** s[j] = (unsigned char)((si >> o) | (s(i+1) * (1 << t))) [2556-2587, 2136-2167, 1648-1679] *)
Definition store32 : list (nat * Z * option Z) :=
  [(0%nat, 0, None); (0%nat, 8, None); (0%nat, 16, Some 5); (1%nat, 3, None); (1%nat, 11, None); (1%nat, 19, Some 2);
   (2%nat, 6, None); (2%nat, 14, Some 7); (3%nat, 1, None); (3%nat, 9, None); (3%nat, 17, Some 4); (4%nat, 4, None);
   (4%nat, 12, None); (4%nat, 20, Some 1); (5%nat, 7, None); (5%nat, 15, Some 6); (6%nat, 2, None); (6%nat, 10, None);
   (6%nat, 18, Some 3); (7%nat, 5, None); (7%nat, 13, None); (8%nat, 0, None); (8%nat, 8, None); (8%nat, 16, Some 5);
   (9%nat, 3, None); (9%nat, 11, None); (9%nat, 19, Some 2); (10%nat, 6, None); (10%nat, 14, Some 7); (11%nat, 1, None);
   (11%nat, 9, None); (11%nat, 17, None)].
Definition store (s : list Z) (r : nat * Z * option Z) : Z :=
  let '(i, o, t) := r in
  let x := Z.shiftr (get s i) o in
  match t with None => x | Some t => Z.lor x (get s (S i) * 2 ^ t) end mod 256.
Definition out32 (s : list Z) : list Z := map (store s) store32.

(** sc25519_reduce [2312-2554] = sc25519_muladd [1892-2134] = sc25519_mul [1404-1646] *)
Definition core : list instr :=
  [Mac 11 23 666643; Mac 12 23 470296; Mac 13 23 654183; Msu 14 23 997805;
   Mac 15 23 136657; Msu 16 23 683901; Mac 10 22 666643; Mac 11 22 470296;
   Mac 12 22 654183; Msu 13 22 997805; Mac 14 22 136657; Msu 15 22 683901;
   Mac 9 21 666643; Mac 10 21 470296; Mac 11 21 654183; Msu 12 21 997805;
   Mac 13 21 136657; Msu 14 21 683901; Mac 8 20 666643; Mac 9 20 470296;
   Mac 10 20 654183; Msu 11 20 997805; Mac 12 20 136657; Msu 13 20 683901;
   Mac 7 19 666643; Mac 8 19 470296; Mac 9 19 654183; Msu 10 19 997805;
   Mac 11 19 136657; Msu 12 19 683901; Mac 6 18 666643; Mac 7 18 470296;
   Mac 8 18 654183; Msu 9 18 997805; Mac 10 18 136657; Msu 11 18 683901;
   RCar 6; RCar 8; RCar 10; RCar 12;
   RCar 14; RCar 16; RCar 7; RCar 9;
   RCar 11; RCar 13; RCar 15; Mac 5 17 666643;
   Mac 6 17 470296; Mac 7 17 654183; Msu 8 17 997805; Mac 9 17 136657;
   Msu 10 17 683901; Mac 4 16 666643; Mac 5 16 470296; Mac 6 16 654183;
   Msu 7 16 997805; Mac 8 16 136657; Msu 9 16 683901; Mac 3 15 666643;
   Mac 4 15 470296; Mac 5 15 654183; Msu 6 15 997805; Mac 7 15 136657;
   Msu 8 15 683901; Mac 2 14 666643; Mac 3 14 470296; Mac 4 14 654183;
   Msu 5 14 997805; Mac 6 14 136657; Msu 7 14 683901; Mac 1 13 666643;
   Mac 2 13 470296; Mac 3 13 654183; Msu 4 13 997805; Mac 5 13 136657;
   Msu 6 13 683901; Mac 0 12 666643; Mac 1 12 470296; Mac 2 12 654183;
   Msu 3 12 997805; Mac 4 12 136657; Msu 5 12 683901; Zero 12;
   RCar 0; RCar 2; RCar 4; RCar 6;
   RCar 8; RCar 10; RCar 1; RCar 3;
   RCar 5; RCar 7; RCar 9; RCar 11;
   Mac 0 12 666643; Mac 1 12 470296; Mac 2 12 654183; Msu 3 12 997805;
   Mac 4 12 136657; Msu 5 12 683901; Zero 12; Car 0;
   Car 1; Car 2; Car 3; Car 4;
   Car 5; Car 6; Car 7; Car 8;
   Car 9; Car 10; Car 11; Mac 0 12 666643;
   Mac 1 12 470296; Mac 2 12 654183; Msu 3 12 997805; Mac 4 12 136657;
   Msu 5 12 683901; Car 0; Car 1; Car 2;
   Car 3; Car 4; Car 5; Car 6;
   Car 7; Car 8; Car 9; Car 10].
(** sc25519_muladd [1819-1890], sc25519_mul [1331-1402] *)
Definition precarry : list instr :=
  [Zero 23; RCar 0; RCar 2; RCar 4;
   RCar 6; RCar 8; RCar 10; RCar 12;
   RCar 14; RCar 16; RCar 18; RCar 20;
   RCar 22; RCar 1; RCar 3; RCar 5;
   RCar 7; RCar 9; RCar 11; RCar 13;
   RCar 15; RCar 17; RCar 19; RCar 21].

(** sc25519_reduce: the first 32 bytes afterwards (the others stay) *)
Definition sc_reduce (s : list Z) : option (list Z) :=
  option_map out32 (exec core (limbs64 s)).

(** sums of products [1784-1818], from left to right *)
Fixpoint dot (acc : Z) (l : list (Z * Z)) : option Z :=
  match l with
  | [] => Some acc
  | (x, y) :: l =>
      if chk (x * y) && chk (acc + x * y) then dot (acc + x * y) l else None
  end.
Definition terms (a b : list Z) (i : nat) : list (Z * Z) :=
  map (fun j => (get a j, get b (i - j))) (seq (i - 11) (min i 11 + 1 - (i - 11))).
Fixpoint all_some (l : list (option Z)) : option (list Z) :=
  match l with
  | [] => Some []
  | None :: _ => None
  | Some x :: l => option_map (cons x) (all_some l)
  end.
(** s0 .. s22; s23 is set by the first instruction of [precarry] *)
Definition products (a b c : list Z) : option (list Z) :=
  all_some (map (fun i => dot (get c i) (terms a b i)) (seq 0 23) ++ [Some 0]).

(** sc25519_muladd [1693-2168] *)
Definition sc_muladd (a b c : list Z) : option (list Z) :=
  match products (limbs32 a) (limbs32 b) (limbs32 c) with
  | Some s => option_map out32 (exec (precarry ++ core) s)
  | None => None
  end.
(** sc25519_mul [1219-1680]: as with c = 0 *)
Definition sc_mul (a b : list Z) : option (list Z) :=
  match products (limbs32 a) (limbs32 b) [] with
  | Some s => option_map out32 (exec (precarry ++ core) s)
  | None => None
  end.

(** sc25519_is_canonical [2590-2610] *)
Definition L_bytes : list Z :=
  [237; 211; 245; 92; 26; 99; 18; 88; 214; 156; 247; 162; 222; 249; 222; 20;
   0; 0; 0; 0; 0; 0; 0; 0; 0; 0; 0; 0; 0; 0; 0; 16].
Fixpoint canon_loop (s : list Z) (i : nat) (c n : Z) : Z :=
  match i with
  | O => c
  | S i =>
      let x := nth i s 0 in let l := nth i L_bytes 0 in
      canon_loop s i
        (Z.lor c (Z.land (Z.shiftr (x - l) 8) n mod 256))
        (Z.land n (Z.shiftr (Z.lxor x l - 1) 8 mod 256))
  end.
Definition sc_is_canonical (s : list Z) : Z := if canon_loop s 32 0 1 =? 0 then 0 else 1.

(** ge25519_is_canonical [1168-1182] *)
Definition ge_is_canonical (s : list Z) : Z :=
  let c := Z.lxor (Z.land (nth 31 s 0) 127) 127 in
  let c := fold_left (fun c i => Z.lor c (Z.lxor (nth i s 0) 255)) (rev (seq 1 30)) c in
  let c := Z.shiftr ((c - 1) mod 4294967296) 8 mod 256 in
  let d := Z.shiftr ((237 - 1 - nth 0 s 0) mod 4294967296) 8 mod 256 in
  1 - Z.land (Z.land c d) 1.
