(** * The small-order test of Ed25519 points (curve25519/src/ed25519_ref10.c
    1184-1210, ge25519_has_small_order)

    Field elements are residues modulo p (the limb arithmetic is treated in
    Curve25519Model.v); [inv] is fe25519_invert, which raises to the power
    p - 2 (ed25519_ref10.c 60-130). *)
From Coq Require Import ZArith Bool.
From Verif Require Import X25519Spec.
Open Scope Z_scope.
Open Scope bool_scope.

Definition inv (z : Z) : Z := z ^ (p25519 - 2) mod p25519.
Definition iszero (v : Z) : bool := v mod p25519 =? 0.
(** fe25519_sqrtm1 (curve25519/src/fe_51/constants.h) *)
Definition sqrtm1 : Z := 19681161376707505956807079304988542015446066515923890162744021073123829784752.

Definition small_order (X Y Z : Z) : bool :=
  let recip := inv Z in
  let x := mul X recip in
  let r := iszero x in
  let y := mul Y recip in
  let r := r || iszero y in
  let x_neg := sub 0 X in               (* fe25519_neg(x_neg, p->X) *)
  let y_sqrtm1 := mul y sqrtm1 in
  let c := sub y_sqrtm1 x in
  let r := r || iszero c in
  let c := sub y_sqrtm1 x_neg in
  r || iszero c.
