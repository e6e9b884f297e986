(** * DER encodings (X.690 8.1, 10.1), stated on their own *)
From Coq Require Import ZArith List.
Import ListNotations.
Open Scope Z_scope.

(** 10.1: the definite form with the minimum number of octets *)
Definition der_len (n : Z) : list Z :=
  if n <? 128 then [n]
  else if n <? 256 then [129; n]
  else if n <? 65536 then [130; n / 256; n mod 256]
  else [131; n / 65536; n / 256 mod 256; n mod 256].

(** tag, length, contents *)
Definition tlv (t : Z) (v : list Z) : list Z :=
  t :: der_len (Z.of_nat (length v)) ++ v.

(** SEQUENCE, OBJECT IDENTIFIER, ... *)
Definition SEQ : Z := 48.
Definition OID : Z := 6.
Definition BOOL : Z := 1.
Definition INT : Z := 2.
Definition BTS : Z := 3.
Definition OTS : Z := 4.
