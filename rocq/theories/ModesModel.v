(** Modes of operation [sym/src/mode_cbc.c, mode_ctr.c, mode_ctr.h, mode_kw.c] over the wrapped cipher's
    [encrypt]/[decrypt] on one 16-byte block, aes_ecb.c, and ChaCha20 [sym/src/chacha20.c].
    in and out are equal or do not overlap. An initialised context (wrapped cipher pointer set) is assumed;
    without it the functions return silently. *)
From Verif Require Import Bytes Words AesModel.

(** Comparison of two 64-bit values, given as their bytes. *)
Fixpoint leq (a b : list Z) : bool :=
  match a, b with [], [] => true | x :: a', y :: b' => (x =? y) && leq a' b' | _, _ => false end.

Section Modes.
  (** wrapped_cipher->encrypt / decrypt with the wrapped context *)
  Variables (E D : list Z -> list Z).

  (** [mode_cbc.c: 108-115] [n] blocks in place; returns the blocks written and the last one (or iv). *)
  Fixpoint cbc_enc_loop (n : nat) (iv out : list Z) : list Z * list Z :=
    match n with
    | O => ([], iv)
    | S k => let c := E (xorl (firstn 16 out) iv) in
             let '(r, iv') := cbc_enc_loop k c (skipn 16 out) in (c ++ r, iv')
    end.
  (** [mode_cbc.c: 95-118]; [out] is the old content of the output buffer (= inp for in-place operation);
      the bytes behind rounded_len keep it. Result: output buffer, ctx->iv. *)
  Definition mode_cbc_encrypt (iv inp out : list Z) : list Z * list Z :=
    let rounded := (length inp / 16 * 16)%nat in
    let '(r, iv') := cbc_enc_loop (length inp / 16) iv (firstn rounded inp) in
    (r ++ skipn rounded out, iv').
  (** [mode_cbc.c: 134-141] *)
  Fixpoint cbc_dec_loop (n : nat) (iv out : list Z) : list Z * list Z :=
    match n with
    | O => ([], iv)
    | S k => let c := firstn 16 out in
             let '(r, iv') := cbc_dec_loop k c (skipn 16 out) in (xorl (D c) iv ++ r, iv')
    end.
  (** [mode_cbc.c: 120-144] *)
  Definition mode_cbc_decrypt (iv inp out : list Z) : list Z * list Z :=
    let rounded := (length inp / 16 * 16)%nat in
    let '(r, iv') := cbc_dec_loop (length inp / 16) iv (firstn rounded inp) in
    (r ++ skipn rounded out, iv').
  (** [mode_cbc.c: 170-178]; None = -EINVAL *)
  Definition mode_cbc_setiv (iv : list Z) : option (list Z) :=
    if (length iv =? 16)%nat then Some iv else None.

  (** [mode_ctr.h: 45-59] *)
  Definition ctr128_inc (c : Z * Z) : Z * Z :=
    let '(c0, c1) := c in
    if c1 <? 0xffffffffffffffff then (c0, u64 (c1 + 1))
    else if c0 <? 0xffffffffffffffff then (u64 (c0 + 1), 0) else (0, 0).
  (** [mode_ctr.h: 61-75] *)
  Definition ptr_to_ctr128 (p : list Z) : Z * Z := (be_val (firstn 8 p), be_val (slice p 8 8)).
  Definition ctr128_to_ptr (c : Z * Z) : list Z := be_bytes 8 (fst c) ++ be_bytes 8 (snd c).
  (** [mode_ctr.c: 101-127]; [f] bounds the number of blocks. *)
  Fixpoint ctr_loop (f : nat) (c : Z * Z) (out : list Z) : list Z * (Z * Z) :=
    match f, out with
    | O, _ => ([], c)
    | _, [] => ([], c)
    | S f', _ =>
        let buffer := E (ctr128_to_ptr c) in
        let c := ctr128_inc c in
        let todo := Nat.min (length out) 16 in
        let '(r, c') := ctr_loop f' c (skipn todo out) in
        (xorl (firstn todo out) (firstn todo buffer) ++ r, c')
    end.
  Definition mode_ctr_crypt (c : Z * Z) (inp : list Z) : list Z * (Z * Z) := ctr_loop (length inp) c inp.
  (** [mode_ctr.c: 153-161] *)
  Definition mode_ctr_setiv (iv : list Z) : option (Z * Z) :=
    if (length iv =? 16)%nat then Some (ptr_to_ctr128 iv) else None.

  (** [mode_kw.c: 113-137] one pass over the semiblocks. The values block.A and block.R are kept as their 8
      bytes in memory; be_bswap64(t) is the 8 big endian bytes of t; t is uint64_t. *)
  Fixpoint kw_enc_pass (A : list Z) (t : Z) (rs : list (list Z)) : list Z * Z * list (list Z) :=
    match rs with
    | [] => (A, t, [])
    | R :: rs' =>
        let b := E (A ++ R) in
        let A := xorl (firstn 8 b) (be_bytes 8 t) in
        let '(A', t', r) := kw_enc_pass A (u64 (t + 1)) rs' in
        (A', t', skipn 8 b :: r)
    end.
  Definition semiblocks (b : list Z) : list (list Z) := map (fun i => slice b (8 * i) 8) (seq 0 (length b / 8)).
  Definition kw_enc_body (p : list Z * Z * list (list Z)) : list Z * Z * list (list Z) :=
    let '(A, t, rs) := p in kw_enc_pass A t rs.
  (** [mode_kw.c: 87-148]: [None] is the run-away loop (nbytes wraps below 0) for lengths not divisible by 8.
      Arguments: ctx->tag and the old content of out. Result: out, ctx->tag. *)
  Definition mode_kw_encrypt (tag inp out : list Z) : option (list Z * list Z) :=
    if (length inp <? 16)%nat then Some (out, tag)
    else if (length inp mod 8 =? 0)%nat then
      let '(A, _, rs) := Nat.iter 6 kw_enc_body (repeat 0xa6 8, 1, semiblocks inp) in
      Some (concat rs, A)
    else None.
  (** [mode_kw.c: 171-200] one pass, last semiblock first: the list is given reversed. *)
  Fixpoint kw_dec_pass (A : list Z) (t : Z) (rs : list (list Z)) : list Z * Z * list (list Z) :=
    match rs with
    | [] => (A, t, [])
    | R :: rs' =>
        let b := D (xorl A (be_bytes 8 t) ++ R) in
        let '(A', t', r) := kw_dec_pass (firstn 8 b) (u64 (t - 1)) rs' in
        (A', t', skipn 8 b :: r)
    end.
  Definition kw_dec_body (p : list Z * Z * list (list Z)) : list Z * Z * list (list Z) :=
    let '(A, t, rs) := p in kw_dec_pass A t rs.
  (** [mode_kw.c: 150-206] *)
  Definition mode_kw_decrypt (tag inp out : list Z) : option (list Z * list Z) :=
    if (length inp <? 16)%nat then Some (out, tag)
    else if (length inp mod 8 =? 0)%nat then
      let '(A, _, rs) := Nat.iter 6 kw_dec_body (tag, u64 (6 * Z.of_nat (length inp / 8)), rev (semiblocks inp)) in
      Some (concat (rev rs), A)
    else None.
  (** [mode_kw.c: 253-265] out has length inp + 8 *)
  Definition lc_aes_kw_encrypt (tag inp out : list Z) : option (list Z * list Z) :=
    match mode_kw_encrypt tag inp (skipn 8 out) with
    | Some (c, tag') => Some (tag' ++ c, tag')
    | None => None
    end.
  (** [mode_kw.c: 267-288] fewer than 8 bytes: in is read beyond its end and len - 8 wraps: [None] *)
  Definition EBADMSG : Z := 74.
  Definition lc_aes_kw_decrypt (inp out : list Z) : option (Z * list Z * list Z) :=
    if (length inp <? 8)%nat then None
    else match mode_kw_decrypt (firstn 8 inp) (skipn 8 inp) out with
         | Some (p, tag) => Some (if leq tag (repeat 0xa6 8) then 0 else - EBADMSG, p, tag)
         | None => None
         end.
End Modes.

(** ** ChaCha20 *)
(** struct lc_sym_state [lc_chacha20_private.h: 34-42] as its 16 words: constants 0..3, key 4..11, counter 12,
    nonce 13..15; state_w walks over all of them. *)
Definition cc20 := list Z.
(** [chacha20.c: 97-174] the eight statements of one "Quarterround", on ws[a], ws[b], ws[c], ws[d] *)
Definition qround (ws : list Z) (a b c d : nat) : list Z :=
  let ws := upd ws a (add32 (get ws a) (get ws b)) in
  let ws := upd ws d (rol32 (Z.lxor (get ws d) (get ws a)) 16) in
  let ws := upd ws c (add32 (get ws c) (get ws d)) in
  let ws := upd ws b (rol32 (Z.lxor (get ws b) (get ws c)) 12) in
  let ws := upd ws a (add32 (get ws a) (get ws b)) in
  let ws := upd ws d (rol32 (Z.lxor (get ws d) (get ws a)) 8) in
  let ws := upd ws c (add32 (get ws c) (get ws d)) in
  upd ws b (rol32 (Z.lxor (get ws b) (get ws c)) 7).
Definition cc20_double_round (ws : list Z) : list Z :=
  let ws := qround ws 0 4 8 12 in
  let ws := qround ws 1 5 9 13 in
  let ws := qround ws 2 6 10 14 in
  let ws := qround ws 3 7 11 15 in
  let ws := qround ws 0 5 10 15 in
  let ws := qround ws 1 6 11 12 in
  let ws := qround ws 2 7 8 13 in
  qround ws 3 4 9 14.
(** [chacha20.c: 86-184]: keystream bytes and state with the counter incremented *)
Definition cc20_block (st : cc20) : list Z * cc20 :=
  let ws := Nat.iter 10 cc20_double_round st in
  (flat_map (fun i => le_bytes 4 (add32 (get ws i) (get st i))) (seq 0 16),
   upd st 12 (add32 (get st 12) 1)).
(** [chacha20.c: 186-201] *)
Definition cc20_init (st : cc20) : cc20 :=
  let st := upd st 0 0x61707865 in let st := upd st 1 0x3320646e in
  let st := upd st 2 0x79622d32 in let st := upd st 3 0x6b206574 in
  upd st 12 1.
(** [chacha20.c: 203-222]; None = -EINVAL *)
Definition cc20_setkey (st : cc20) (key : list Z) : option cc20 :=
  if (length key =? 32)%nat then
    Some (fold_left (fun s i => upd s (4 + i) (le_val (slice key (4 * i) 4))) (seq 0 8) st)
  else None.
(** [chacha20.c: 224-235] *)
Definition cc20_setiv (st : cc20) (iv : list Z) : option cc20 :=
  if (length iv =? 12)%nat then
    Some (fold_left (fun s i => upd s (13 + i) (le_val (slice iv (4 * i) 4))) (seq 0 3) st)
  else None.
(** [chacha20.c: 237-262] *)
Fixpoint cc20_loop (f : nat) (st : cc20) (inp : list Z) : list Z * cc20 :=
  match f, inp with
  | O, _ => ([], st)
  | _, [] => ([], st)
  | S f', _ =>
      let todo := Nat.min (length inp) 64 in
      let '(ks, st) := cc20_block st in
      let '(r, st') := cc20_loop f' st (skipn todo inp) in
      (xorl (firstn todo inp) (firstn todo ks) ++ r, st')
  end.
Definition cc20_crypt (st : cc20) (inp : list Z) : list Z * cc20 := cc20_loop (length inp) st inp.
