(** RFC 2104 (HMAC), RFC 5869 (HKDF), SP 800-108r1 (KDFs), RFC 8018 (PBKDF2), RFC 4226 (HOTP), over an
    arbitrary hash function [H] with block size [B] and digest size [L]. Only list helpers are used. *)
From Verif Require Import Bytes.

Section MacSpec.
  Variable H : list Z -> list Z.
  Variable B L : nat.

  (** RFC 2104 section 2: the key, hashed when longer than B, zero padded to B bytes. *)
  Definition hmac_key (K : list Z) : list Z :=
    let k := if (B <? length K)%nat then H K else K in k ++ zeros (B - length k).
  Definition HMAC (K m : list Z) : list Z :=
    H (map (Z.lxor 0x5c) (hmac_key K) ++ H (map (Z.lxor 0x36) (hmac_key K) ++ m)).

  (** RFC 5869 2.2; no salt means L zero bytes. *)
  Definition HKDF_Extract (salt : option (list Z)) (ikm : list Z) : list Z :=
    HMAC (match salt with Some s => s | None => zeros L end) ikm.
  (** RFC 5869 2.3 *)
  Fixpoint hkdf_T (prk info : list Z) (n : nat) : list Z :=
    match n with
    | O => []
    | S k => HMAC prk (hkdf_T prk info k ++ info ++ [Z.of_nat n])
    end.
  Definition hkdf_stream (prk info : list Z) : list Z := flat_map (hkdf_T prk info) (seq 1 255).
  Definition HKDF_Expand (prk info : list Z) (n : nat) : list Z := firstn n (hkdf_stream prk info).

  (** SP 800-108r1: 32 bit big endian counter, fixed input data [fi]; [n] bytes of output.
      The number of blocks is ceil(n / L) <= n. *)
  Definition be32 (i : nat) : list Z := be_bytes 4 (Z.of_nat i).
  Definition KDF_CTR (K fi : list Z) (n : nat) : list Z :=
    firstn n (flat_map (fun i => HMAC K (be32 i ++ fi)) (seq 1 n)).
  Fixpoint fb_K (K iv fi : list Z) (i : nat) : list Z :=
    match i with
    | O => iv
    | S j => HMAC K (fb_K K iv fi j ++ be32 i ++ fi)
    end.
  Definition KDF_FB (K iv fi : list Z) (n : nat) : list Z :=
    firstn n (flat_map (fb_K K iv fi) (seq 1 n)).
  Fixpoint dpi_A (K fi : list Z) (i : nat) : list Z :=
    match i with O => fi | S j => HMAC K (dpi_A K fi j) end.
  Definition KDF_DPI (K fi : list Z) (n : nat) : list Z :=
    firstn n (flat_map (fun i => HMAC K (dpi_A K fi i ++ be32 i ++ fi)) (seq 1 n)).

  (** RFC 8018 5.2 *)
  Fixpoint pb_U (P S : list Z) (i j : nat) : list Z :=
    match j with
    | O => HMAC P (S ++ be32 i)
    | S k => HMAC P (pb_U P S i k)
    end.
  (** U_1 xor ... xor U_c *)
  Fixpoint pb_F (P S : list Z) (i c : nat) : list Z :=
    match c with
    | O => zeros L
    | S k => xorl (pb_F P S i k) (pb_U P S i k)
    end.
  Definition PBKDF2 (P S : list Z) (c n : nat) : list Z :=
    firstn n (flat_map (fun i => pb_F P S i c) (seq 1 n)).

  (** RFC 4226 5.3, for an L byte MAC: the low nibble of the last byte selects 31 bits. *)
  Definition HOTP (K : list Z) (counter : Z) (digits : nat) : Z :=
    let hs := HMAC K (be_bytes 8 counter) in
    let off := Z.to_nat (nth (L - 1) hs 0 mod 16) in
    (be_val (slice hs off 4) mod 2 ^ 31) mod 10 ^ Z.of_nat digits.
End MacSpec.
