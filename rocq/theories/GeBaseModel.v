(** * Multiplication of the base point by a scalar (curve25519/src/ed25519_ref10.c)

    Field elements are residues modulo p, as in GeAddModel.v. The table
    base[32][8] is a parameter. *)
From Coq Require Import ZArith List.
From Verif Require Import X25519Spec GeAddModel GeAdd2Model GeScalarModel.
Import ListNotations.
Open Scope Z_scope.

(** ge25519_precomp_0 [598-603] *)
Definition precomp_0 : precomp := Pre 1 1 0.
(** ge25519_cmov [628-634] *)
Definition cmov_precomp (t u : precomp) (b : Z) : precomp := if b =? 0 then t else u.
(** ge25519_cmov8 [645-666], ge25519_cmov8_base [668-680]; the eight copies in
    turn *)
Fixpoint cmov_row (t : precomp) (row : list precomp) (b j : Z) : precomp :=
  match row with
  | [] => t
  | c :: row => cmov_row (cmov_precomp t c (equal8 b j)) row b (j + 1)
  end.
Definition cmov8 (row : list precomp) (b : Z) : precomp :=
  let bnegative := negative8 b in
  let t := cmov_row precomp_0 row (babs b) 1 in
  let minust := Pre (yminusx t) (yplusx t) (sub 0 (xy2d t)) in
  cmov_precomp t minust bnegative.

(** e[1], e[3], ... and e[0], e[2], ... *)
Fixpoint odds (l : list Z) : list Z := match l with _ :: b :: r => b :: odds r | _ => [] end.
Fixpoint evens (l : list Z) : list Z := match l with a :: _ :: r => a :: evens r | _ => [] end.

(** the loops of ge25519_scalarmult_base [999-1003, 1014-1018] *)
Fixpoint base_loop (rows : list (list precomp)) (e : list Z) (h : pt) : pt :=
  match rows, e with
  | row :: rows, d :: e => base_loop rows e (p1p1_to_p3 (add_precomp h (cmov8 row d)))
  | _, _ => h
  end.
(** ge25519_scalarmult_base [970-1019] *)
Definition scalarmult_base (rows : list (list precomp)) (a : list Z) : pt :=
  let e := recode (nibbles a) 0 in
  let h := base_loop rows (odds e) (Pt 0 1 1 0) in
  let r := p3_dbl h in
  let s := p1p1_to_p2 r in let r := p2_dbl (pX s) (pY s) (pZ s) in
  let s := p1p1_to_p2 r in let r := p2_dbl (pX s) (pY s) (pZ s) in
  let s := p1p1_to_p2 r in let r := p2_dbl (pX s) (pY s) (pZ s) in
  let h := p1p1_to_p3 r in
  base_loop rows (evens e) h.
