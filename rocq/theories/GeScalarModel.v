(** * Multiplication of a point by a scalar (curve25519/src/ed25519_ref10.c)

    Field elements are residues modulo p, as in GeAddModel.v; signed char is
    two's complement with 8 bits. *)
From Coq Require Import ZArith List.
From Verif Require Import X25519Spec GeAddModel GeAdd2Model.
Import ListNotations.
Open Scope Z_scope.

(** equal [605-616], of unsigned char; y is a uint32_t *)
Definition equal8 (b c : Z) : Z := Z.shiftr ((Z.lxor b c - 1) mod 2 ^ 32) 31.
(** negative [618-626] *)
Definition negative8 (b : Z) : Z := Z.shiftr (b mod 2 ^ 64) 63.
(** babs in ge25519_cmov8_cached [687-688] *)
Definition babs (b : Z) : Z := (b - Z.land (- negative8 b) b * 2) mod 256.

(** ge25519_cmov_cached [636-643]: fe25519_cmov (curve25519/src/ed25519_ref10_fe_51.h
    133-157) copies all limbs if b is not 0 *)
Definition cmov_cached (t u : cached) (b : Z) : cached := if b =? 0 then t else u.

(** ge25519_cached_0 [523-529] *)
Definition cached_0 : cached := Ca 1 1 1 0.

(** ge25519_cmov8_cached [682-705]; the eight conditional copies in turn, j
    being the number compared with *)
Fixpoint cmov_all (t : cached) (tab : list cached) (b j : Z) : cached :=
  match tab with
  | [] => t
  | c :: tab => cmov_all (cmov_cached t c (equal8 b j)) tab b (j + 1)
  end.
Definition cmov8_cached (tab : list cached) (b : Z) : cached :=
  let bnegative := negative8 b in
  let t := cmov_all cached_0 tab (babs b) 1 in
  let minust := Ca (YminusX t) (YplusX t) (cZ t) (sub 0 (T2d t)) in
  cmov_cached t minust bnegative.

(** the table pi of _ge25519_scalarmult [880-908] *)
Definition pi_table (p : pt) : list cached :=
  let c1 := p3_to_cached p in
  let p2 := p1p1_to_p3 (p3_dbl p) in
  let c2 := p3_to_cached p2 in
  let p3 := p1p1_to_p3 (add_cached p c2) in
  let c3 := p3_to_cached p3 in
  let p4 := p1p1_to_p3 (p3_dbl p2) in
  let c4 := p3_to_cached p4 in
  let p5 := p1p1_to_p3 (add_cached p c4) in
  let c5 := p3_to_cached p5 in
  let p6 := p1p1_to_p3 (p3_dbl p3) in
  let c6 := p3_to_cached p6 in
  let p7 := p1p1_to_p3 (add_cached p c6) in
  let c7 := p3_to_cached p7 in
  let p8 := p1p1_to_p3 (p3_dbl p4) in
  let c8 := p3_to_cached p8 in
  [c1; c2; c3; c4; c5; c6; c7; c8].

(** assignment to a signed char *)
Definition sc (z : Z) : Z := (z + 128) mod 256 - 128.

(** e[64] [910-913] *)
Fixpoint nibbles (a : list Z) : list Z :=
  match a with
  | [] => []
  | b :: a => sc (Z.land (Z.shiftr b 0) 15) :: sc (Z.land (Z.shiftr b 4) 15) :: nibbles a
  end.
(** the carries [917-924]: all but the last digit are reduced *)
Fixpoint recode (l : list Z) (carry : Z) : list Z :=
  match l with
  | [] => []
  | d :: r =>
      let e := sc (d + carry) in
      match r with
      | [] => [e]
      | _ => let carry := sc (e + 8) in
             let carry := sc (Z.shiftr carry 4) in
             sc (e - sc (carry * 16)) :: recode r carry
      end
  end.

(** four doublings of a p1p1 [933-940] *)
Definition times16 (r : pt) : pt :=
  let s := p1p1_to_p2 r in let r := p2_dbl (pX s) (pY s) (pZ s) in
  let s := p1p1_to_p2 r in let r := p2_dbl (pX s) (pY s) (pZ s) in
  let s := p1p1_to_p2 r in let r := p2_dbl (pX s) (pY s) (pZ s) in
  let s := p1p1_to_p2 r in p2_dbl (pX s) (pY s) (pZ s).
(** the loop and the last addition [929-947]; the digits from e[63] down *)
Fixpoint sm_loop (tab : list cached) (e : list Z) (h : pt) : pt :=
  match e with
  | [] => h
  | d :: r =>
      let s := add_cached h (cmov8_cached tab d) in
      match r with
      | [] => p1p1_to_p3 s
      | _ => sm_loop tab r (p1p1_to_p3 (times16 s))
      end
  end.
(** _ge25519_scalarmult [865-952]; ge25519_p3_0 [515-521] *)
Definition scalarmult (a : list Z) (p : pt) : pt :=
  sm_loop (pi_table p) (rev (recode (nibbles a) 0)) (Pt 0 1 1 0).
