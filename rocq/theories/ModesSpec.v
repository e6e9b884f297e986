(** Modes of operation, from the standards, over any 16-byte block cipher; and ChaCha20 from RFC 8439. *)
From Verif Require Import Bytes Words.

Section Modes.
  Variables (E D : list Z -> list Z).

  (** SP 800-38A, 6.2: C_j = E(P_j + C_(j-1)), C_0 = IV; blocks are 16-byte strings. *)
  Fixpoint CBC_enc (iv : list Z) (ps : list (list Z)) : list (list Z) :=
    match ps with
    | [] => []
    | p :: ps' => let c := E (xorl p iv) in c :: CBC_enc c ps'
    end.
  (** P_j = D(C_j) + C_(j-1) *)
  Fixpoint CBC_dec (iv : list Z) (cs : list (list Z)) : list (list Z) :=
    match cs with
    | [] => []
    | c :: cs' => xorl (D c) iv :: CBC_dec c cs'
    end.

  (** SP 800-38A, 6.5 with the standard incrementing function on all 128 bits (B.1): counter block j is
      T + j mod 2^128; the data is XORed with the leading bytes of E(T) | E(T + 1) | ... *)
  Definition ctr_stream (T : Z) (n : nat) : list Z :=
    flat_map (fun j => E (be_bytes 16 ((T + Z.of_nat j) mod 2 ^ 128))) (seq 0 n).
  Definition CTR (T : Z) (data : list Z) : list Z :=
    xorl data (firstn (length data) (ctr_stream T (length data))).

  (** RFC 3394, 2.2.1 (index based), n semiblocks: for j = 0..5, for i = 1..n:
      B = E(A | R[i]); A = MSB(B) xor t, t = n*j + i; R[i] = LSB(B). *)
  Definition kw_steps (n : nat) : list (nat * nat) :=
    flat_map (fun j => map (fun i => (j, i)) (seq 1 n)) (seq 0 6).
  Definition set_nth (R : list (list Z)) (i : nat) (x : list Z) : list (list Z) :=
    firstn i R ++ [x] ++ skipn (S i) R.
  Definition wrap_step (n : nat) (AR : list Z * list (list Z)) (ji : nat * nat) : list Z * list (list Z) :=
    let '(A, R) := AR in let '(j, i) := ji in
    let B := E (A ++ nth (i - 1) R []) in
    (xorl (firstn 8 B) (be_bytes 8 (Z.of_nat (n * j + i))), set_nth R (i - 1) (skipn 8 B)).
  Definition KW_IV : list Z := repeat 0xA6 8.
  Definition KW_wrap (P : list (list Z)) : list Z :=
    let '(A, R) := fold_left (wrap_step (length P)) (kw_steps (length P)) (KW_IV, P) in A ++ concat R.
  (** 2.2.2: for j = 5..0, for i = n..1: B = D((A xor t) | R[i]); A = MSB(B); R[i] = LSB(B). *)
  Definition unwrap_step (n : nat) (AR : list Z * list (list Z)) (ji : nat * nat) : list Z * list (list Z) :=
    let '(A, R) := AR in let '(j, i) := ji in
    let B := D (xorl A (be_bytes 8 (Z.of_nat (n * j + i))) ++ nth (i - 1) R []) in
    (firstn 8 B, set_nth R (i - 1) (skipn 8 B)).
  Definition KW_unwrap (A : list Z) (C : list (list Z)) : list Z * list (list Z) :=
    fold_left (unwrap_step (length C)) (rev (kw_steps (length C))) (A, C).
End Modes.

(** ** RFC 8439 *)
Definition QUARTERROUND (a b c d : Z) : Z * Z * Z * Z :=
  let a := (a + b) mod 2 ^ 32 in let d := rol32 (Z.lxor d a) 16 in
  let c := (c + d) mod 2 ^ 32 in let b := rol32 (Z.lxor b c) 12 in
  let a := (a + b) mod 2 ^ 32 in let d := rol32 (Z.lxor d a) 8 in
  let c := (c + d) mod 2 ^ 32 in let b := rol32 (Z.lxor b c) 7 in
  (a, b, c, d).
Definition QR (s : list Z) (x y z w : nat) : list Z :=
  let '(a, b, c, d) := QUARTERROUND (nth x s 0) (nth y s 0) (nth z s 0) (nth w s 0) in
  upd (upd (upd (upd s x a) y b) z c) w d.
(** 2.3 inner_block *)
Definition inner_block (s : list Z) : list Z :=
  let s := QR s 0 4 8 12 in let s := QR s 1 5 9 13 in let s := QR s 2 6 10 14 in let s := QR s 3 7 11 15 in
  let s := QR s 0 5 10 15 in let s := QR s 1 6 11 12 in let s := QR s 2 7 8 13 in QR s 3 4 9 14.
Definition le_words (b : list Z) (n : nat) : list Z := map (fun i => le_val (slice b (4 * i) 4)) (seq 0 n).
Definition CC20_state (key : list Z) (counter : Z) (nonce : list Z) : list Z :=
  [0x61707865; 0x3320646e; 0x79622d32; 0x6b206574] ++ le_words key 8 ++ [counter] ++ le_words nonce 3.
Definition chacha20_block (key : list Z) (counter : Z) (nonce : list Z) : list Z :=
  let s := CC20_state key counter nonce in
  let w := Nat.iter 10 inner_block s in
  flat_map (fun i => le_bytes 4 ((nth i w 0 + nth i s 0) mod 2 ^ 32)) (seq 0 16).
(** 2.4: block j of the data uses counter + j (the 32-bit counter taken modulo 2^32). *)
Definition chacha20_stream (key : list Z) (counter : Z) (nonce : list Z) (n : nat) : list Z :=
  flat_map (fun j => chacha20_block key ((counter + Z.of_nat j) mod 2 ^ 32) nonce) (seq 0 n).
Definition CHACHA20 (key : list Z) (counter : Z) (nonce data : list Z) : list Z :=
  xorl data (firstn (length data) (chacha20_stream key counter nonce (length data))).
