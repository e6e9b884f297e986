(** * Addition and doubling of Ed25519 points (curve25519/src/ed25519_ref10.c)

    Field elements are residues modulo p (the limb arithmetic is treated in
    Curve25519Model.v). *)
From Coq Require Import ZArith.
From Verif Require Import X25519Spec.
Open Scope Z_scope.

(** ge25519_p2, _p3, _p1p1 (also for p3) and _cached; a p2 is (X, Y, Z) *)
Record pt : Type := Pt { pX : Z; pY : Z; pZ : Z; pT : Z }.
Record cached : Type := Ca { YplusX : Z; YminusX : Z; cZ : Z; T2d : Z }.

(** ed25519_d2 (curve25519/src/fe_51/constants.h 19-21), from its limbs *)
Definition ed25519_d2 : Z :=
  1859910466990425 + 2 ^ 51 * 932731440258426 + 2 ^ 102 * 1072319116312658 + 2 ^ 153 * 1815898335770999 +
  2 ^ 204 * 633789495995903.

(** ge25519_p3_to_cached [535-541] *)
Definition p3_to_cached (p : pt) : cached :=
  Ca (add (pY p) (pX p)) (sub (pY p) (pX p)) (pZ p) (mul (pT p) ed25519_d2).

(** ge25519_add_cached [272-288] *)
Definition add_cached (p : pt) (q : cached) : pt :=
  let rX := add (pY p) (pX p) in
  let rY := sub (pY p) (pX p) in
  let rZ := mul rX (YplusX q) in
  let rY := mul rY (YminusX q) in
  let rT := mul (T2d q) (pT p) in
  let rX := mul (pZ p) (cZ q) in
  let t0 := add rX rX in
  let rX := sub rZ rY in
  let rY := add rZ rY in
  let rZ := add t0 rT in
  let rT := sub t0 rT in
  Pt rX rY rZ rT.

(** ge25519_sub_cached [711-727] *)
Definition sub_cached (p : pt) (q : cached) : pt :=
  let rX := add (pY p) (pX p) in
  let rY := sub (pY p) (pX p) in
  let rZ := mul rX (YminusX q) in
  let rY := mul rY (YplusX q) in
  let rT := mul (T2d q) (pT p) in
  let rX := mul (pZ p) (cZ q) in
  let t0 := add rX rX in
  let rX := sub rZ rY in
  let rY := add rZ rY in
  let rZ := sub t0 rT in
  let rT := add t0 rT in
  Pt rX rY rZ rT.

(** ge25519_p1p1_to_p3 [470-476]; ge25519_p1p1_to_p2 [459-464] is its first
    three fields *)
Definition p1p1_to_p3 (p : pt) : pt :=
  Pt (mul (pX p) (pT p)) (mul (pY p) (pZ p)) (mul (pZ p) (pT p)) (mul (pX p) (pY p)).

(** ge25519_p2_dbl [500-513]; ge25519_p3_dbl [590-596] *)
Definition p2_dbl (X Y Z : Z) : pt :=
  let rX := mul X X in
  let rZ := mul Y Y in
  let rT := mul 2 (mul Z Z) in          (* fe25519_sq2 *)
  let rY := add X Y in
  let t0 := mul rY rY in
  let rY := add rZ rX in
  let rZ := sub rZ rX in
  let rX := sub t0 rY in
  let rT := sub rT rZ in
  Pt rX rY rZ rT.
Definition p3_dbl (p : pt) : pt := p2_dbl (pX p) (pY p) (pZ p).

(** ge25519_p3_neg [1030-1036], ge25519_p3_add [1039-1047], ge25519_p3_sub
    [1050-1056] *)
Definition p3_neg (p : pt) : pt := Pt (sub 0 (pX p)) (pY p) (pZ p) (sub 0 (pT p)).
Definition p3_add (p q : pt) : pt := p1p1_to_p3 (add_cached p (p3_to_cached q)).
Definition p3_sub (p q : pt) : pt := p3_add p (p3_neg q).
