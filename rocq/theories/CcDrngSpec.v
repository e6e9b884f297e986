(** The ChaCha20 DRNG in terms of the RFC 8439 key stream. Nothing here refers to the model. *)
From Verif Require Import Bytes ModesSpec.

Record cc_state := mkCC { cc_key : list Z; cc_ctr : Z; cc_nonce : list Z }.

(** Number of 64 byte blocks covering n bytes. *)
Definition blocks64 (n : nat) : nat := ((n + 63) / 64)%nat.
(** Position of the 32 key stream bytes that are added to the key after n bytes were handed out: the next
    word boundary if 32 bytes are left in the block, else the next block. *)
Definition key_pos (n : nat) : nat :=
  if (n mod 64 =? 0)%nat || (32 <? n mod 64)%nat then (64 * blocks64 n)%nat else (4 * ((n + 3) / 4))%nat.
(** Blocks computed. *)
Definition blocks_used (n : nat) : nat := blocks64 (key_pos n + 32).

Definition nonce_inc (nonce : list Z) : list Z := le_bytes 12 ((le_val nonce + 1) mod 2 ^ 96).

Definition CC_generate (s : cc_state) (n : nat) : list Z * cc_state :=
  let S := chacha20_stream (cc_key s) (cc_ctr s) (cc_nonce s) (blocks_used n) in
  (firstn n S,
   mkCC (xorl (cc_key s) (slice S (key_pos n) 32)) ((cc_ctr s + Z.of_nat (blocks_used n)) mod 2 ^ 32)
        (nonce_inc (cc_nonce s))).

(** Seeding: each piece of up to 32 bytes is XORed into the key, then the key is replaced by key xor the
    first 32 key stream bytes. *)
Definition CC_mix (s : cc_state) (piece : list Z) : cc_state :=
  let key := xor_into (cc_key s) piece in
  mkCC (xorl key (firstn 32 (chacha20_block key (cc_ctr s) (cc_nonce s)))) ((cc_ctr s + 1) mod 2 ^ 32)
       (nonce_inc (cc_nonce s)).
Fixpoint pieces32 (fuel : nat) (x : list Z) : list (list Z) :=
  match fuel, x with
  | S f, _ :: _ => firstn 32 x :: pieces32 f (skipn 32 x)
  | _, _ => []
  end.
Definition CC_seed (s : cc_state) (x : list Z) : cc_state := fold_left CC_mix (pieces32 (length x) x) s.
