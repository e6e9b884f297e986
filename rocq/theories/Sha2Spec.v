(** FIPS 180-4: SHA-256, SHA-384, SHA-512 on byte strings. Nothing here refers to the model.
    Constants are computed from their definition: fractional parts of square and cube roots of primes
    (FIPS 180-4, 4.2.2, 4.2.3, 5.3.3-5.3.5). *)
From Verif Require Import Bytes.

Record sha2_params := mkP {
  sp_w : Z;                         (* word size in bits *)
  sp_wb : nat;                      (* word size in bytes *)
  sp_nr : nat;                      (* rounds *)
  sp_lf : nat;                      (* bytes of the length field *)
  sp_S0 : Z * Z * Z; sp_S1 : Z * Z * Z; sp_s0 : Z * Z * Z; sp_s1 : Z * Z * Z }.

(** FIPS 180-4, 4.1.2 and 4.1.3. In s0/s1 the third number is a shift. *)
Definition p256 := mkP 32 4 64 8 (2, 13, 22) (6, 11, 25) (7, 18, 3) (17, 19, 10).
Definition p512 := mkP 64 8 80 16 (28, 34, 39) (14, 18, 41) (1, 8, 7) (19, 61, 6).

(** Primes and roots *)
Definition is_prime (n : Z) : bool :=
  (2 <=? n) && forallb (fun d => negb (n mod d =? 0)) (map Z.of_nat (seq 2 (Z.to_nat n - 2))).
Fixpoint primes_from (fuel cnt : nat) (n : Z) : list Z :=
  match fuel, cnt with
  | S f, S c => if is_prime n then n :: primes_from f c (n + 1) else primes_from f (S c) (n + 1)
  | _, _ => []
  end.
Definition primes (cnt : nat) : list Z := primes_from 500 cnt 2.

(** Largest c with c^3 <= n, bit by bit. *)
Fixpoint icbrt_bits (k : nat) (n c : Z) : Z :=
  match k with
  | O => c
  | S j => let c' := c + 2 ^ Z.of_nat j in icbrt_bits j n (if c' * c' * c' <=? n then c' else c)
  end.
Definition icbrt (n : Z) : Z := icbrt_bits 80 n 0.

(** First w bits of the fractional part of the cube root / square root of p. *)
Definition frac_cbrt (w p : Z) : Z := icbrt (p * 2 ^ (3 * w)) mod 2 ^ w.
Definition frac_sqrt (w p : Z) : Z := Z.sqrt (p * 2 ^ (2 * w)) mod 2 ^ w.

Definition K_of (P : sha2_params) : list Z := map (frac_cbrt (sp_w P)) (primes (sp_nr P)).
Definition IV256 : list Z := map (frac_sqrt 32) (primes 8).
Definition IV512 : list Z := map (frac_sqrt 64) (primes 8).
Definition IV384 : list Z := map (frac_sqrt 64) (skipn 8 (primes 16)).

Section Compress.
  Variable P : sha2_params.
  Variable K : list Z.
  Let w := sp_w P.

  Definition ROTR (n x : Z) : Z := Z.lor (Z.shiftr x n) (Z.shiftl x (w - n) mod 2 ^ w).
  Definition SHR (n x : Z) : Z := Z.shiftr x n.
  Definition NOT (x : Z) : Z := Z.lxor x (2 ^ w - 1).
  Definition Ch (x y z : Z) : Z := Z.lxor (Z.land x y) (Z.land (NOT x) z).
  Definition Maj (x y z : Z) : Z := Z.lxor (Z.lxor (Z.land x y) (Z.land x z)) (Z.land y z).
  Definition rot3 (t : Z * Z * Z) (x : Z) : Z :=
    let '(a, b, c) := t in Z.lxor (Z.lxor (ROTR a x) (ROTR b x)) (ROTR c x).
  Definition rot2 (t : Z * Z * Z) (x : Z) : Z :=
    let '(a, b, c) := t in Z.lxor (Z.lxor (ROTR a x) (ROTR b x)) (SHR c x).

  (** Message schedule: 16 + n words. *)
  Fixpoint sched (n : nat) (M : list Z) : list Z :=
    match n with
    | O => M
    | S k =>
        let W := sched k M in
        W ++ [(rot2 (sp_s1 P) (nth (14 + k) W 0) + nth (9 + k) W 0 + rot2 (sp_s0 P) (nth (1 + k) W 0)
               + nth k W 0) mod 2 ^ w]
    end.

  Definition vars : Type := Z * Z * Z * Z * Z * Z * Z * Z.

  (** 6.2.2 / 6.4.2 step 3 *)
  Definition sround (W : list Z) (v : vars) (t : nat) : vars :=
    let '(a, b, c, d, e, f, g, h) := v in
    let T1 := h + rot3 (sp_S1 P) e + Ch e f g + nth t K 0 + nth t W 0 in
    let T2 := rot3 (sp_S0 P) a + Maj a b c in
    ((T1 + T2) mod 2 ^ w, a, b, c, (d + T1) mod 2 ^ w, e, f, g).

  Definition words_of (blk : list Z) : list Z :=
    map (fun i => be_val (slice blk (sp_wb P * i) (sp_wb P))) (seq 0 16).

  Definition compress (H blk : list Z) : list Z :=
    match H with
    | [a; b; c; d; e; f; g; h] =>
        let W := sched (sp_nr P - 16) (words_of blk) in
        let '(a', b', c', d', e', f', g', h') :=
          fold_left (sround W) (seq 0 (sp_nr P)) (a, b, c, d, e, f, g, h) in
        map (fun xy => (fst xy + snd xy) mod 2 ^ w)
          [(a, a'); (b, b'); (c, c'); (d, d'); (e, e'); (f, f'); (g, g'); (h, h')]
    | _ => []
    end.

  Definition blocksize : nat := (16 * sp_wb P)%nat.

  (** 5.1: append 1, zeros, and the length in bits, filling a whole number of blocks. *)
  Definition zero_count (len : nat) : nat :=
    let used := ((len + 1 + sp_lf P) mod blocksize)%nat in
    if (used =? 0)%nat then 0%nat else (blocksize - used)%nat.
  Definition pad2 (m : list Z) : list Z :=
    m ++ [128] ++ zeros (zero_count (length m)) ++ be_bytes (sp_lf P) (8 * Z.of_nat (length m)).

  Definition sha2_H (IV m : list Z) : list Z := fold_left compress (full_chunks blocksize (pad2 m)) IV.
  Definition sha2 (IV : list Z) (n : nat) (m : list Z) : list Z :=
    flat_map (be_bytes (sp_wb P)) (firstn n (sha2_H IV m)).
End Compress.

Definition SHA256 (m : list Z) : list Z := sha2 p256 (K_of p256) IV256 8 m.
Definition SHA512 (m : list Z) : list Z := sha2 p512 (K_of p512) IV512 8 m.
Definition SHA384 (m : list Z) : list Z := sha2 p512 (K_of p512) IV384 6 m.
