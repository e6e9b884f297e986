(** * Additions with table entries and repeated doubling (curve25519/src/ed25519_ref10.c)

    Field elements are residues modulo p, as in GeAddModel.v. *)
From Coq Require Import ZArith.
From Verif Require Import X25519Spec GeAddModel.
Open Scope Z_scope.

(** ge25519_precomp (curve25519/src/ed25519_ref10.h) *)
Record precomp : Type := Pre { yplusx : Z; yminusx : Z; xy2d : Z }.

(** ge25519_add_precomp [417-432] *)
Definition add_precomp (p : pt) (q : precomp) : pt :=
  let rX := add (pY p) (pX p) in
  let rY := sub (pY p) (pX p) in
  let rZ := mul rX (yplusx q) in
  let rY := mul rY (yminusx q) in
  let rT := mul (xy2d q) (pT p) in
  let t0 := add (pZ p) (pZ p) in
  let rX := sub rZ rY in
  let rY := add rZ rY in
  let rZ := add t0 rT in
  let rT := sub t0 rT in
  Pt rX rY rZ rT.

(** ge25519_sub_precomp [438-453] *)
Definition sub_precomp (p : pt) (q : precomp) : pt :=
  let rX := add (pY p) (pX p) in
  let rY := sub (pY p) (pX p) in
  let rZ := mul rX (yminusx q) in
  let rY := mul rY (yplusx q) in
  let rT := mul (xy2d q) (pT p) in
  let t0 := add (pZ p) (pZ p) in
  let rX := sub rZ rY in
  let rY := add rZ rY in
  let rZ := sub t0 rT in
  let rT := add t0 rT in
  Pt rX rY rZ rT.

(** ge25519_p1p1_to_p2 [459-464]; the T of a p2 does not exist, 0 here *)
Definition p1p1_to_p2 (p : pt) : pt :=
  Pt (mul (pX p) (pT p)) (mul (pY p) (pZ p)) (mul (pZ p) (pT p)) 0.
(** ge25519_p3_to_p2 [566-571] *)
Definition p3_to_p2 (p : pt) : pt := Pt (pX p) (pY p) (pZ p) 0.

(** the loop of ge25519_p3_dbladd [1066-1070]: p2 and p1p1 *)
Fixpoint dbl_loop (n : nat) (p2 p1p1 : pt) : pt :=
  match n with
  | O => p1p1
  | S n => let r := p2_dbl (pX p2) (pY p2) (pZ p2) in dbl_loop n (p1p1_to_p2 r) r
  end.
(** ge25519_p3_dbladd [1059-1078]; p1p1 is set to 0 if n = 0 *)
Definition p3_dbladd (r : pt) (n : nat) (q : pt) : pt :=
  p3_add (p1p1_to_p3 (dbl_loop n (p3_to_p2 r) (Pt 0 0 0 0))) q.

(** ge25519_clear_cofactor [2654-2665] *)
Definition clear_cofactor (p3 : pt) : pt :=
  let p1 := p3_dbl p3 in
  let p2 := p1p1_to_p2 p1 in
  let p1 := p2_dbl (pX p2) (pY p2) (pZ p2) in
  let p2 := p1p1_to_p2 p1 in
  let p1 := p2_dbl (pX p2) (pY p2) (pZ p2) in
  p1p1_to_p3 p1.
