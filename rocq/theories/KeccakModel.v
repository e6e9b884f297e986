(** Model of the portable Keccak-f[1600] permutation.
    Transcribed from /repo/hash/src/sha3_c.c lines 34-157, statement by statement: the state is the
    array [s] of 25 words, each C assignment becomes one [upd]. *)
From Verif Require Import Bytes Words.

(** [hash/src/sha3_c.c: 41]  #define A(x, y) (x + 5 * y) *)
Definition A (x y : nat) : nat := (x + 5 * y)%nat.

(** [hash/src/sha3_c.c: 42]  #define RHO_ROL(t) (((t + 1) * (t + 2) / 2) % 64) *)
Definition RHO_ROL (t : Z) : Z := ((t + 1) * (t + 2) / 2) mod 64.

(** [hash/src/sha3_c.c: 34-37] rol *)
Definition rol := rol64.

(** [hash/src/sha3_c.c: 44-88] keccakp_theta_rho_pi *)
Definition keccakp_theta_rho_pi (s : list Z) : list Z :=
  let C0 := (Z.lxor (Z.lxor (Z.lxor (Z.lxor (get s (A 0 0)) (get s (A 0 1))) (get s (A 0 2))) (get s (A 0 3))) (get s (A 0 4))) in
  let C1 := (Z.lxor (Z.lxor (Z.lxor (Z.lxor (get s (A 1 0)) (get s (A 1 1))) (get s (A 1 2))) (get s (A 1 3))) (get s (A 1 4))) in
  let C2 := (Z.lxor (Z.lxor (Z.lxor (Z.lxor (get s (A 2 0)) (get s (A 2 1))) (get s (A 2 2))) (get s (A 2 3))) (get s (A 2 4))) in
  let C3 := (Z.lxor (Z.lxor (Z.lxor (Z.lxor (get s (A 3 0)) (get s (A 3 1))) (get s (A 3 2))) (get s (A 3 3))) (get s (A 3 4))) in
  let C4 := (Z.lxor (Z.lxor (Z.lxor (Z.lxor (get s (A 4 0)) (get s (A 4 1))) (get s (A 4 2))) (get s (A 4 3))) (get s (A 4 4))) in
  let D0 := Z.lxor C4 (rol C1 1) in
  let D1 := Z.lxor C0 (rol C2 1) in
  let D2 := Z.lxor C1 (rol C3 1) in
  let D3 := Z.lxor C2 (rol C4 1) in
  let D4 := Z.lxor C3 (rol C0 1) in
  let s := upd s (A 0 0) (Z.lxor (get s (A 0 0)) D0) in
  let t := rol (Z.lxor (get s (A 4 4)) D4) (RHO_ROL 11) in
  let s := upd s (A 4 4) (rol (Z.lxor (get s (A 1 4)) D1) (RHO_ROL 10)) in
  let s := upd s (A 1 4) (rol (Z.lxor (get s (A 3 1)) D3) (RHO_ROL 9)) in
  let s := upd s (A 3 1) (rol (Z.lxor (get s (A 1 3)) D1) (RHO_ROL 8)) in
  let s := upd s (A 1 3) (rol (Z.lxor (get s (A 0 1)) D0) (RHO_ROL 7)) in
  let s := upd s (A 0 1) (rol (Z.lxor (get s (A 3 0)) D3) (RHO_ROL 6)) in
  let s := upd s (A 3 0) (rol (Z.lxor (get s (A 3 3)) D3) (RHO_ROL 5)) in
  let s := upd s (A 3 3) (rol (Z.lxor (get s (A 2 3)) D2) (RHO_ROL 4)) in
  let s := upd s (A 2 3) (rol (Z.lxor (get s (A 1 2)) D1) (RHO_ROL 3)) in
  let s := upd s (A 1 2) (rol (Z.lxor (get s (A 2 1)) D2) (RHO_ROL 2)) in
  let s := upd s (A 2 1) (rol (Z.lxor (get s (A 0 2)) D0) (RHO_ROL 1)) in
  let s := upd s (A 0 2) (rol (Z.lxor (get s (A 1 0)) D1) (RHO_ROL 0)) in
  let s := upd s (A 1 0) (rol (Z.lxor (get s (A 1 1)) D1) (RHO_ROL 23)) in
  let s := upd s (A 1 1) (rol (Z.lxor (get s (A 4 1)) D4) (RHO_ROL 22)) in
  let s := upd s (A 4 1) (rol (Z.lxor (get s (A 2 4)) D2) (RHO_ROL 21)) in
  let s := upd s (A 2 4) (rol (Z.lxor (get s (A 4 2)) D4) (RHO_ROL 20)) in
  let s := upd s (A 4 2) (rol (Z.lxor (get s (A 0 4)) D0) (RHO_ROL 19)) in
  let s := upd s (A 0 4) (rol (Z.lxor (get s (A 2 0)) D2) (RHO_ROL 18)) in
  let s := upd s (A 2 0) (rol (Z.lxor (get s (A 2 2)) D2) (RHO_ROL 17)) in
  let s := upd s (A 2 2) (rol (Z.lxor (get s (A 3 2)) D3) (RHO_ROL 16)) in
  let s := upd s (A 3 2) (rol (Z.lxor (get s (A 4 3)) D4) (RHO_ROL 15)) in
  let s := upd s (A 4 3) (rol (Z.lxor (get s (A 3 4)) D3) (RHO_ROL 14)) in
  let s := upd s (A 3 4) (rol (Z.lxor (get s (A 0 3)) D0) (RHO_ROL 13)) in
  let s := upd s (A 0 3) (rol (Z.lxor (get s (A 4 0)) D4) (RHO_ROL 12)) in
  upd s (A 4 0) t.

(** [hash/src/sha3_c.c: 90-99] keccakp_iota_vals *)
Definition keccakp_iota_vals : list Z :=
  [0x0000000000000001;
   0x0000000000008082;
   0x800000000000808a;
   0x8000000080008000;
   0x000000000000808b;
   0x0000000080000001;
   0x8000000080008081;
   0x8000000000008009;
   0x000000000000008a;
   0x0000000000000088;
   0x0000000080008009;
   0x000000008000000a;
   0x000000008000808b;
   0x800000000000008b;
   0x8000000000008089;
   0x8000000000008003;
   0x8000000000008002;
   0x8000000000000080;
   0x000000000000800a;
   0x800000008000000a;
   0x8000000080008081;
   0x8000000000008080;
   0x0000000080000001;
   0x8000000080008008].

(** [hash/src/sha3_c.c: 101-147] keccakp_chi_iota; [k] is the word keccakp_iota_vals[round] read in
    line 118. *)
Definition keccakp_chi_iota_k (s : list Z) (k : Z) : list Z :=
  let t00 := get s (A 0 0) in
  let t01 := get s (A 0 1) in
  let t02 := get s (A 0 2) in
  let t03 := get s (A 0 3) in
  let t04 := get s (A 0 4) in
  let t10 := get s (A 1 0) in
  let t11 := get s (A 1 1) in
  let t12 := get s (A 1 2) in
  let t13 := get s (A 1 3) in
  let t14 := get s (A 1 4) in
  let s := upd s (A 0 0) (Z.lxor (get s (A 0 0)) (Z.land (not64 (get s (A 1 0))) (get s (A 2 0)))) in
  let s := upd s (A 0 0) (Z.lxor (get s (A 0 0)) k) in
  let s := upd s (A 0 1) (Z.lxor (get s (A 0 1)) (Z.land (not64 (get s (A 1 1))) (get s (A 2 1)))) in
  let s := upd s (A 0 2) (Z.lxor (get s (A 0 2)) (Z.land (not64 (get s (A 1 2))) (get s (A 2 2)))) in
  let s := upd s (A 0 3) (Z.lxor (get s (A 0 3)) (Z.land (not64 (get s (A 1 3))) (get s (A 2 3)))) in
  let s := upd s (A 0 4) (Z.lxor (get s (A 0 4)) (Z.land (not64 (get s (A 1 4))) (get s (A 2 4)))) in
  let s := upd s (A 1 0) (Z.lxor (get s (A 1 0)) (Z.land (not64 (get s (A 2 0))) (get s (A 3 0)))) in
  let s := upd s (A 1 1) (Z.lxor (get s (A 1 1)) (Z.land (not64 (get s (A 2 1))) (get s (A 3 1)))) in
  let s := upd s (A 1 2) (Z.lxor (get s (A 1 2)) (Z.land (not64 (get s (A 2 2))) (get s (A 3 2)))) in
  let s := upd s (A 1 3) (Z.lxor (get s (A 1 3)) (Z.land (not64 (get s (A 2 3))) (get s (A 3 3)))) in
  let s := upd s (A 1 4) (Z.lxor (get s (A 1 4)) (Z.land (not64 (get s (A 2 4))) (get s (A 3 4)))) in
  let s := upd s (A 2 0) (Z.lxor (get s (A 2 0)) (Z.land (not64 (get s (A 3 0))) (get s (A 4 0)))) in
  let s := upd s (A 2 1) (Z.lxor (get s (A 2 1)) (Z.land (not64 (get s (A 3 1))) (get s (A 4 1)))) in
  let s := upd s (A 2 2) (Z.lxor (get s (A 2 2)) (Z.land (not64 (get s (A 3 2))) (get s (A 4 2)))) in
  let s := upd s (A 2 3) (Z.lxor (get s (A 2 3)) (Z.land (not64 (get s (A 3 3))) (get s (A 4 3)))) in
  let s := upd s (A 2 4) (Z.lxor (get s (A 2 4)) (Z.land (not64 (get s (A 3 4))) (get s (A 4 4)))) in
  let s := upd s (A 3 0) (Z.lxor (get s (A 3 0)) (Z.land (not64 (get s (A 4 0))) t00)) in
  let s := upd s (A 3 1) (Z.lxor (get s (A 3 1)) (Z.land (not64 (get s (A 4 1))) t01)) in
  let s := upd s (A 3 2) (Z.lxor (get s (A 3 2)) (Z.land (not64 (get s (A 4 2))) t02)) in
  let s := upd s (A 3 3) (Z.lxor (get s (A 3 3)) (Z.land (not64 (get s (A 4 3))) t03)) in
  let s := upd s (A 3 4) (Z.lxor (get s (A 3 4)) (Z.land (not64 (get s (A 4 4))) t04)) in
  let s := upd s (A 4 0) (Z.lxor (get s (A 4 0)) (Z.land (not64 t00) t10)) in
  let s := upd s (A 4 1) (Z.lxor (get s (A 4 1)) (Z.land (not64 t01) t11)) in
  let s := upd s (A 4 2) (Z.lxor (get s (A 4 2)) (Z.land (not64 t02) t12)) in
  let s := upd s (A 4 3) (Z.lxor (get s (A 4 3)) (Z.land (not64 t03) t13)) in
  upd s (A 4 4) (Z.lxor (get s (A 4 4)) (Z.land (not64 t04) t14)).

Definition keccakp_chi_iota (s : list Z) (round : nat) : list Z :=
  keccakp_chi_iota_k s (get keccakp_iota_vals round).

(** [hash/src/sha3_c.c: 149-157] keccakp_1600: the loop body for one round, and the loop. *)
Definition keccak_round (s : list Z) (round : nat) : list Z :=
  keccakp_chi_iota (keccakp_theta_rho_pi s) round.

Definition keccakp_1600 (s : list Z) : list Z := fold_left keccak_round (seq 0 24) s.
