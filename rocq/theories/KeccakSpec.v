(** Keccak-f[1600] as defined in FIPS 202 section 3, on the bit level.
    A state array is a function of x, y (0..4) and z (0..63). Nothing here refers to the model. *)
From Coq Require Import ZArith List Bool.
Import ListNotations.
Open Scope Z_scope.

Definition state_array := Z -> Z -> Z -> bool.

(** FIPS 202, Algorithm 1: theta *)
Definition theta (a : state_array) : state_array :=
  let C x z := xorb (xorb (xorb (xorb (a x 0 z) (a x 1 z)) (a x 2 z)) (a x 3 z)) (a x 4 z) in
  let D x z := xorb (C ((x - 1) mod 5) z) (C ((x + 1) mod 5) ((z - 1) mod 64)) in
  fun x y z => xorb (a x y z) (D x z).

(** FIPS 202, Algorithm 2: rho. Walk (x,y) := (y, 2x+3y) for t = 0..23 from (1,0). *)
Fixpoint rho_walk (t : nat) : Z * Z :=
  match t with
  | O => (1, 0)
  | S k => let (x, y) := rho_walk k in (y, (2 * x + 3 * y) mod 5)
  end.
Definition rho_offset (x y : Z) : Z :=
  match find (fun t => let (a, b) := rho_walk t in (a =? x) && (b =? y)) (seq 0 24) with
  | Some t => (Z.of_nat t + 1) * (Z.of_nat t + 2) / 2
  | None => 0
  end.
Definition rho (a : state_array) : state_array :=
  fun x y z => a x y ((z - rho_offset x y) mod 64).

(** FIPS 202, Algorithm 3: pi *)
Definition pi (a : state_array) : state_array :=
  fun x y z => a ((x + 3 * y) mod 5) x z.

(** FIPS 202, Algorithm 4: chi *)
Definition chi (a : state_array) : state_array :=
  fun x y z => xorb (a x y z)
                 (andb (xorb (a ((x + 1) mod 5) y z) true) (a ((x + 2) mod 5) y z)).

(** FIPS 202, Algorithm 5: rc(t) by the 8 bit LFSR (R is kept as the list R[0]..R[7]). *)
Definition lfsr_step (R : list bool) : list bool :=
  match R with
  | [r0; r1; r2; r3; r4; r5; r6; r7] =>
      [xorb false r7; r0; r1; r2; xorb r3 r7; xorb r4 r7; xorb r5 r7; r6]
  | _ => R
  end.
Definition rc (t : nat) : bool :=
  hd false (Nat.iter (t mod 255) lfsr_step [true; false; false; false; false; false; false; false]).

(** FIPS 202, Algorithm 6: iota; RC[2^j - 1] = rc(j + 7 ir). *)
Definition RC (ir : nat) (z : Z) : bool :=
  existsb (fun j => (z =? 2 ^ Z.of_nat j - 1) && rc (j + 7 * ir)) (seq 0 7).
Definition iota (ir : nat) (a : state_array) : state_array :=
  fun x y z => if (x =? 0) && (y =? 0) then xorb (a x y z) (RC ir z) else a x y z.

(** FIPS 202, Algorithm 7 with n_r = 24 *)
Definition Rnd (a : state_array) (ir : nat) : state_array := iota ir (chi (pi (rho (theta a)))).
Definition keccak_f (a : state_array) : state_array := fold_left Rnd (seq 0 24) a.

(** FIPS 202, 3.1.2: the state array of a string: lane (x,y) is word 5y+x, bit z of that word. *)
Definition array_of_lanes (s : list Z) : state_array :=
  fun x y z => Z.testbit (nth (Z.to_nat (5 * y + x)) s 0) z.

(** FIPS 202, 3.1.2 and B.1: bit n of a byte string is bit (n mod 8) of byte n/8; the state array of
    the 1600 bit string S is A[x,y,z] = S[64(5y+x)+z]; and back (3.1.3). *)
Definition array_of_bytes (b : list Z) : state_array :=
  fun x y z => let n := 64 * (5 * y + x) + z in Z.testbit (nth (Z.to_nat (n / 8)) b 0) (n mod 8).
Definition bit_xyz (a : state_array) (n : Z) : bool := a (n / 64 mod 5) (n / 64 / 5) (n mod 64).
Definition byte_of_bits (f : Z -> bool) : Z :=
  Z.b2z (f 0) + 2 * Z.b2z (f 1) + 4 * Z.b2z (f 2) + 8 * Z.b2z (f 3) + 16 * Z.b2z (f 4) +
  32 * Z.b2z (f 5) + 64 * Z.b2z (f 6) + 128 * Z.b2z (f 7).
Definition bytes_of_array (a : state_array) : list Z :=
  map (fun k => byte_of_bits (fun j => bit_xyz a (8 * Z.of_nat k + j))) (seq 0 200).

(** Keccak-f[1600] on byte strings of length 200. *)
Definition keccak_f_bytes (b : list Z) : list Z := bytes_of_array (keccak_f (array_of_bytes b)).
