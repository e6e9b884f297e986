(** * X.690 8.19: object identifiers, and their dotted notation *)
From Coq Require Import ZArith List Decimal NArith.
Import ListNotations.
Open Scope Z_scope.

(** 8.19.2: base 128, most significant first, as few octets as possible, bit 8
    set in all octets but the last *)
Fixpoint b128 (fuel : nat) (n more : Z) : list Z :=
  match fuel with
  | O => []
  | S f => (if n <? 128 then [] else b128 f (n / 128) 128) ++ [n mod 128 + more]
  end.
Definition sub_id (n : Z) : list Z := b128 (S (Z.to_nat (Z.log2 n))) n 0.

(** 8.19.4: the first two arcs share one subidentifier *)
Definition enc_oid (arcs : list Z) : list Z :=
  match arcs with
  | x :: y :: r => sub_id (40 * x + y) ++ concat (map sub_id r)
  | _ => []
  end.

(** X.660: what the arcs of an object identifier can be *)
Definition oid_ok (arcs : list Z) : Prop :=
  match arcs with
  | x :: y :: r => ((x = 0 \/ x = 1) /\ 0 <= y < 40 \/ x = 2 /\ 0 <= y) /\ Forall (fun a => 0 <= a) r
  | _ => False
  end.

(** decimal numeral of [n], as the standard library converts it, in ASCII *)
Fixpoint uint_ascii (u : Decimal.uint) : list Z :=
  match u with
  | Nil => []
  | D0 u => 48 :: uint_ascii u | D1 u => 49 :: uint_ascii u | D2 u => 50 :: uint_ascii u
  | D3 u => 51 :: uint_ascii u | D4 u => 52 :: uint_ascii u | D5 u => 53 :: uint_ascii u
  | D6 u => 54 :: uint_ascii u | D7 u => 55 :: uint_ascii u | D8 u => 56 :: uint_ascii u
  | D9 u => 57 :: uint_ascii u
  end.
Definition numeral (n : Z) : list Z := uint_ascii (N.to_uint (Z.to_N n)).
(** arcs separated by full stops *)
Definition dotted (arcs : list Z) : list Z :=
  match arcs with
  | [] => []
  | a :: r => numeral a ++ concat (map (fun b => 46 :: numeral b) r)
  end.
