(** * X25519 as in RFC 7748 section 5, stated on its own *)
From Coq Require Import ZArith List.
Import ListNotations.
Open Scope Z_scope.

Definition p25519 : Z := 2 ^ 255 - 19.

(** little-endian value of a byte string, and back *)
Fixpoint le (l : list Z) : Z := match l with [] => 0 | b :: l => b + 256 * le l end.
Fixpoint to_le (n : nat) (v : Z) : list Z :=
  match n with O => [] | S n => v mod 256 :: to_le n (v / 256) end.

(** decodeScalar25519: clear bits 0, 1, 2 and 255, set bit 254 *)
Definition decode_scalar (k : list Z) : Z :=
  le k mod 2 ^ 254 / 8 * 8 + 2 ^ 254.
(** decodeUCoordinate: the top bit is masked; values from p on are allowed *)
Definition decode_u (u : list Z) : Z := le u mod 2 ^ 255.
Definition encode_u (u : Z) : list Z := to_le 32 (u mod p25519).

Definition a24 : Z := 121665.

(** arithmetic modulo p *)
Definition add (a b : Z) : Z := (a + b) mod p25519.
Definition sub (a b : Z) : Z := (a - b) mod p25519.
Definition mul (a b : Z) : Z := (a * b) mod p25519.

Definition cswap {A : Type} (b : bool) (x y : A) : A * A := if b then (y, x) else (x, y).

(** x_2, z_2, x_3, z_3, swap *)
Definition ladder_state : Type := (Z * Z * Z * Z * bool)%type.

(** one round for bit [kt] *)
Definition round (x1 : Z) (kt : bool) (s : ladder_state) : ladder_state :=
  let '(x2, z2, x3, z3, swap) := s in
  let swap := xorb swap kt in
  let '(x2, x3) := cswap swap x2 x3 in
  let '(z2, z3) := cswap swap z2 z3 in
  let A := add x2 z2 in
  let AA := mul A A in
  let B := sub x2 z2 in
  let BB := mul B B in
  let E := sub AA BB in
  let C := add x3 z3 in
  let D := sub x3 z3 in
  let DA := mul D A in
  let CB := mul C B in
  let x3 := mul (add DA CB) (add DA CB) in
  let z3 := mul x1 (mul (sub DA CB) (sub DA CB)) in
  let x2 := mul AA BB in
  let z2 := mul E (add AA (mul a24 E)) in
  (x2, z2, x3, z3, kt).

(** t = n - 1 down to 0 *)
Fixpoint rounds (x1 k : Z) (n : nat) (s : ladder_state) : ladder_state :=
  match n with
  | O => s
  | S n => rounds x1 k n (round x1 (Z.testbit k (Z.of_nat n)) s)
  end.

Definition X25519 (k u : Z) : Z :=
  let '(x2, z2, x3, z3, swap) := rounds u k 255 (1, 0, u mod p25519, 1, false) in
  let '(x2, x3) := cswap swap x2 x3 in
  let '(z2, z3) := cswap swap z2 z3 in
  mul x2 (z2 ^ (p25519 - 2)).

(** the function on byte strings *)
Definition x25519 (k u : list Z) : list Z :=
  encode_u (X25519 (decode_scalar k) (decode_u u)).
