(** * Ed25519 and Ed25519ph as in RFC 8032, over an abstract curve group

    The group is given by its operations; nothing of the code is used here. *)
From Coq Require Import ZArith List.
From Verif Require Import X25519Spec.
Import ListNotations.
Open Scope Z_scope.

(** the order of the base point *)
Definition L8032 : Z := 2 ^ 252 + 27742317777372353535851937790883648493.

(** dom2(F, C) of section 2 with an empty context: empty for Ed25519, and
    "SigEd25519 no Ed25519 collisions" || octet(1) || octet(0) for Ed25519ph *)
Definition dom2_8032 (ph : bool) : list Z :=
  if ph then [83; 105; 103; 69; 100; 50; 53; 53; 49; 57; 32; 110; 111; 32; 69; 100; 50; 53; 53; 49; 57; 32;
              99; 111; 108; 108; 105; 115; 105; 111; 110; 115] ++ [1] ++ [0] else [].

Section S.
Variable H : list Z -> list Z.            (* SHA-512 *)
Variable encB : Z -> list Z.              (* encoding of [n]B *)

(** 5.1.5: the secret scalar *)
Definition secret_scalar (seed : list Z) : Z := decode_scalar (firstn 32 (H seed)).
Definition public_key (seed : list Z) : list Z := encB (secret_scalar seed).

(** 5.1.6, [M] being PH(M) *)
Definition nonce8032 (ph : bool) (seed M : list Z) : Z :=
  le (H (dom2_8032 ph ++ skipn 32 (H seed) ++ M)) mod L8032.
Definition challenge (ph : bool) (R A M : list Z) : Z := le (H (dom2_8032 ph ++ R ++ A ++ M)) mod L8032.
Definition sign8032 (ph : bool) (seed A M : list Z) : list Z :=
  let r := nonce8032 ph seed M in
  let R := encB r in
  R ++ to_le 32 ((r + challenge ph R A M * secret_scalar seed) mod L8032).
End S.

(** ** an abelian group with scalar multiplication, up to an equivalence *)
Record group (G : Type) (eqG : G -> G -> Prop) (add : G -> G -> G) (neg : G -> G) (zero : G) (smul : Z -> G -> G) : Prop := {
  g_refl : forall P, eqG P P;
  g_sym : forall P Q, eqG P Q -> eqG Q P;
  g_trans : forall P Q T, eqG P Q -> eqG Q T -> eqG P T;
  g_add : forall P P' Q Q', eqG P P' -> eqG Q Q' -> eqG (add P Q) (add P' Q');
  g_comm : forall P Q, eqG (add P Q) (add Q P);
  g_assoc : forall P Q T, eqG (add P (add Q T)) (add (add P Q) T);
  g_zero : forall P, eqG (add P zero) P;
  g_neg : forall P, eqG (add P (neg P)) zero;
  g_smul : forall n P P', eqG P P' -> eqG (smul n P) (smul n P');
  g_smul_0 : forall P, eqG (smul 0 P) zero;
  g_smul_1 : forall P, eqG (smul 1 P) P;
  g_smul_add : forall m n P, eqG (smul (m + n) P) (add (smul m P) (smul n P));
  g_smul_mul : forall m n P, eqG (smul (m * n) P) (smul m (smul n P));
  g_smul_dist : forall n P Q, eqG (smul n (add P Q)) (add (smul n P) (smul n Q))
}.
