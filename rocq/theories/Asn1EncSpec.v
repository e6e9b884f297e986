(** * What a DER encoder may produce, stated on its own *)
From Coq Require Import ZArith List.
From Verif Require Import Asn1DerSpec.
Import ListNotations.
Open Scope Z_scope.

(** a value is primitive (tag, contents) or constructed (tag, parts) *)
Inductive tree : Type :=
  | Leaf (t : Z) (v : list Z)
  | Node (t : Z) (parts : list tree).

Fixpoint enc (x : tree) : list Z :=
  match x with
  | Leaf t v => tlv t v
  | Node t l => tlv t (flat_map enc l)
  end.

(** the primitive values, left to right *)
Fixpoint leaves (x : tree) : list (Z * list Z) :=
  match x with
  | Leaf t v => [(t, v)]
  | Node _ l => flat_map leaves l
  end.

(** X.690 8.1.2.5: bit 6 of the identifier octet of a constructed value is
    set *)
Fixpoint cons_tags (x : tree) : bool :=
  match x with
  | Leaf _ _ => true
  | Node t l => Z.testbit t 5 && forallb cons_tags l
  end.
