(** Ascon-AEAD128 as NIST SP 800-232, section 4, defines it, on bytes (little endian view). Nothing here
    refers to the model. [ascon_p_bytes] is the bit level definition of the permutation (AsconSpec). *)
From Verif Require Import Bytes AsconSpec.

(** S_r xor a block of at most 16 bytes *)
Definition xor_front (s b : list Z) : list Z := xorl (firstn (length b) s) b ++ skipn (length b) s.
Definition p12 := ascon_p_bytes 12.
Definition p8 := ascon_p_bytes 8.
(** parse + pad: M || 1 || 0*, a whole number of 16 byte blocks, the last one always padded *)
Definition pad16 (m : list Z) : list Z := m ++ [1] ++ zeros (15 - length m mod 16).

(** 4.1.1 step 1: IV || K || N *)
Definition aead_init (K N : list Z) : list Z :=
  let s := p12 (le_bytes 8 0x00001000808c0001 ++ K ++ N) in
  firstn 24 s ++ xorl (skipn 24 s) K.
(** step 2; the final XOR of the domain separation bit is made in every case *)
Definition aead_ad (s A : list Z) : list Z :=
  let s := if (length A =? 0)%nat then s
           else fold_left (fun s b => p8 (xor_front s b)) (full_chunks 16 (pad16 A)) s in
  firstn 39 s ++ [Z.lxor (nth 39 s 0) 0x80].
(** step 3: all blocks but the last; then the last, possibly empty, padded one *)
Fixpoint aead_blocks (s : list Z) (bs : list (list Z)) : list Z * list Z :=
  match bs with
  | [] => (s, [])
  | b :: r => let s1 := xor_front s b in
              let '(s2, c) := aead_blocks (p8 s1) r in (s2, firstn 16 s1 ++ c)
  end.
Definition aead_pt (s m : list Z) : list Z * list Z :=
  let '(s, c) := aead_blocks s (full_chunks 16 m) in
  let t := tail_chunk 16 m in
  let s1 := xor_front s (t ++ [1]) in
  (s1, c ++ firstn (length t) s1).
(** step 4 *)
Definition aead_tag (s K : list Z) : list Z :=
  let s := p12 (firstn 16 s ++ xorl (firstn 16 (skipn 16 s)) K ++ skipn 32 s) in
  xorl (skipn 24 s) K.
(** Ascon-AEAD128.enc *)
Definition ASCON_AEAD128 (K N A M : list Z) : list Z * list Z :=
  let '(s, c) := aead_pt (aead_ad (aead_init K N) A) M in (c, aead_tag s K).
