(** SP 800-185: string encodings, cSHAKE, KMAC. Nothing here refers to the model. *)
From Verif Require Import Bytes Fips202.

(** Section 2.3.1. n = the smallest positive integer with 2^(8n) > x. *)
Definition enc_len (x : Z) : nat := if x <=? 0 then 1%nat else S (Z.to_nat (Z.log2 x / 8)).
Definition left_encode (x : Z) : list Z := Z.of_nat (enc_len x) :: be_bytes (enc_len x) x.
Definition right_encode (x : Z) : list Z := be_bytes (enc_len x) x ++ [Z.of_nat (enc_len x)].
(** Section 2.3.2 (byte strings). *)
Definition encode_string (s : list Z) : list Z := left_encode (8 * Z.of_nat (length s)) ++ s.
(** Section 2.3.3. *)
Definition bytepad (x : list Z) (w : nat) : list Z :=
  let z := left_encode (Z.of_nat w) ++ x in z ++ zeros ((w - length z mod w) mod w).

(** Section 3.3; output bytes p .. p+n-1 of the stream, capacity [cap] bytes (32 or 64). *)
Definition cSHAKE (cap : nat) (X : list Z) (p n : nat) (N S : list Z) : list Z :=
  match N, S with
  | [], [] => keccak_c cap 31 X p n
  | _, _ => keccak_c cap 4 (bytepad (encode_string N ++ encode_string S) (200 - cap) ++ X) p n
  end.

(** "KMAC" in ASCII *)
Definition KMAC_N : list Z := [75; 77; 65; 67].
(** Section 4.3: KMAC with n bytes of output. *)
Definition KMAC (cap : nat) (K X : list Z) (n : nat) (S : list Z) : list Z :=
  cSHAKE cap (bytepad (encode_string K) (200 - cap) ++ X ++ right_encode (8 * Z.of_nat n)) 0 n KMAC_N S.
(** Section 4.3.1: KMACXOF, bytes p .. p+n-1. *)
Definition KMACXOF (cap : nat) (K X : list Z) (p n : nat) (S : list Z) : list Z :=
  cSHAKE cap (bytepad (encode_string K) (200 - cap) ++ X ++ right_encode 0) p n KMAC_N S.
