(** drng/src/chacha20_drng.c over the ChaCha20 state of ModesModel (16 words; little endian host, where
    le_bswap32 is the identity and key.b aliases key.u). Not modelled: the self test, NULL contexts, the
    alignment case distinction of [177-186] (both branches write the same bytes) and the wiping of
    [aligned_buf]. *)
From Verif Require Import Bytes Words AesModel ModesModel.

(** [chacha20_drng.c: 85-95], the XOR of eight words starting at byte [src] *)
Definition cc20_key_xor (st : cc20) (src : list Z) : cc20 :=
  fold_left (fun s i => upd s (4 + i) (Z.lxor (get s (4 + i)) (le_val (slice src (4 * i) 4)))) (seq 0 8) st.
(** [chacha20_drng.c: 97-103] *)
Definition cc20_nonce_inc (st : cc20) : cc20 :=
  let st := upd st 13 (add32 (get st 13) 1) in
  if get st 13 =? 0 then
    let st := upd st 14 (add32 (get st 14) 1) in
    if get st 14 =? 0 then upd st 15 (add32 (get st 15) 1) else st
  else st.
(** [chacha20_drng.c: 73-106] *)
Definition cc20_drng_update (st : cc20) (buf : list Z) (used : nat) : cc20 :=
  let st :=
    if (8 <? used)%nat then let '(tmp, st) := cc20_block st in cc20_key_xor st tmp
    else cc20_key_xor st (skipn (4 * used) buf) in
  cc20_nonce_inc st.
(** [chacha20_drng.c: 138-139] *)
Definition cc20_key_inject (st : cc20) (inb : list Z) : cc20 :=
  let kb := xor_into (flat_map (le_bytes 4) (slice st 4 8)) inb in
  fold_left (fun s i => upd s (4 + i) (le_val (slice kb (4 * i) 4))) (seq 0 8) st.
(** [chacha20_drng.c: 120-146] *)
Fixpoint cc20_drng_seed_loop (fuel : nat) (st : cc20) (inb : list Z) : cc20 :=
  match fuel with
  | O => st
  | S f =>
      if (length inb =? 0)%nat then st
      else
        let todo := Nat.min (length inb) 32 in
        let st := cc20_key_inject st (firstn todo inb) in
        let st := cc20_drng_update st [] 16 in
        cc20_drng_seed_loop f st (skipn todo inb)
  end.
Definition cc20_drng_seed (st : cc20) (inb : list Z) : cc20 := cc20_drng_seed_loop (length inb) st inb.
(** [chacha20_drng.c: 161-204] *)
Fixpoint cc20_drng_gen_loop (fuel : nat) (st : cc20) (n : nat) : list Z * cc20 :=
  match fuel with
  | O => ([], st)
  | S f =>
      if (64 <=? n)%nat then
        let '(b, st) := cc20_block st in
        let '(r, st) := cc20_drng_gen_loop f st (n - 64) in (b ++ r, st)
      else if (n =? 0)%nat then ([], cc20_drng_update st [] 16)
      else
        let '(b, st) := cc20_block st in
        (firstn n b, cc20_drng_update st b ((n + 3) / 4))
  end.
Definition cc20_drng_generate (st : cc20) (n : nat) : list Z * cc20 := cc20_drng_gen_loop (S n) st n.
(** [drng/api/lc_chacha20_drng.h: 52-60] *)
Definition cc20_drng_zero : cc20 := cc20_init (zeros 16).
