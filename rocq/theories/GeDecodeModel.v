(** * Decoding of Ed25519 points (curve25519/src/ed25519_ref10.c 134-187,
    332-413)

    Field elements are residues modulo p (the limb arithmetic is treated in
    Curve25519Model.v).  The answer is (X, Y); Z is 1 and T is X Y. *)
From Coq Require Import ZArith List Bool.
From Verif Require Import X25519Spec GeSmallModel.
Import ListNotations.
Open Scope Z_scope.
Open Scope bool_scope.

Definition sq (a : Z) : Z := mul a a.
Fixpoint sqn (n : nat) (a : Z) : Z := match n with O => a | S n => sqn n (sq a) end.

(** fe25519_pow22523 [138-187]; [sqn n] is one square and the loop from 1 to n *)
Definition pow22523 (z : Z) : Z :=
  let t0 := sq z in
  let t1 := sq t0 in
  let t1 := sq t1 in
  let t1 := mul z t1 in
  let t0 := mul t0 t1 in
  let t0 := sq t0 in
  let t0 := mul t1 t0 in
  let t1 := sqn 5 t0 in
  let t0 := mul t1 t0 in
  let t1 := sqn 10 t0 in
  let t1 := mul t1 t0 in
  let t2 := sqn 20 t1 in
  let t1 := mul t2 t1 in
  let t1 := sqn 10 t1 in
  let t0 := mul t1 t0 in
  let t1 := sqn 50 t0 in
  let t1 := mul t1 t0 in
  let t2 := sqn 100 t1 in
  let t1 := mul t2 t1 in
  let t1 := sqn 50 t1 in
  let t0 := mul t1 t0 in
  let t0 := sq t0 in
  let t0 := sq t0 in
  mul t0 z.

(** ed25519_d (curve25519/src/fe_51/constants.h) *)
Definition ed25519_d : Z := 37095705934669439343138083508754565189542113879843219016388785533085940283555.
(** fe25519_isnegative: the low bit of the reduced value *)
Definition isnegative (f : Z) : bool := Z.odd (f mod p25519).
(** fe25519_frombytes: bit 255 is ignored *)
Definition fe_frombytes (s : list Z) : Z := decode_u s mod p25519.
(** s[31] >> 7 *)
Definition top (s : list Z) : bool := 128 <=? nth 31 s 0.

(** ge25519_frombytes [332-367] *)
Definition ge_frombytes (s : list Z) : option (Z * Z) :=
  let Y := fe_frombytes s in
  let u := sq Y in
  let v := mul u ed25519_d in
  let u := sub u 1 in
  let v := add v 1 in
  let X := mul u v in
  let X := pow22523 X in
  let X := mul u X in
  let vxx := sq X in
  let vxx := mul vxx v in
  let m_root_check := sub vxx u in
  let p_root_check := add vxx u in
  let has_m_root := iszero m_root_check in
  let has_p_root := iszero p_root_check in
  let x_sqrtm1 := mul X sqrtm1 in
  let X := if has_m_root then X else x_sqrtm1 in
  let negx := sub 0 X in
  let X := if xorb (isnegative X) (top s) then negx else X in
  if has_m_root || has_p_root then Some (X, Y) else None.

(** ge25519_frombytes_negate_vartime [369-413] *)
Definition ge_frombytes_negate (s : list Z) : option (Z * Z) :=
  let Y := fe_frombytes s in
  let u := sq Y in
  let v := mul u ed25519_d in
  let u := sub u 1 in
  let v := add v 1 in
  let v3 := sq v in
  let v3 := mul v3 v in
  let X := sq v3 in
  let X := mul X v in
  let X := mul X u in
  let X := pow22523 X in
  let X := mul X v3 in
  let X := mul X u in
  let vxx := sq X in
  let vxx := mul vxx v in
  let m_root_check := sub vxx u in
  let finish X := Some (if Bool.eqb (isnegative X) (top s) then sub 0 X else X, Y) in
  if negb (iszero m_root_check) then
    let p_root_check := add vxx u in
    if negb (iszero p_root_check) then None
    else finish (mul X sqrtm1)
  else finish X.
