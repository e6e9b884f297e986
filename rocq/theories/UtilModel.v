(** Helpers in internal/src: lc_memcmp_secure, hex conversion, signature domain separation. *)
From Verif Require Import Bytes Words.

(** ** memcmp_secure_internal.h, memcmp_secure_c.c. [p1], [p2]: the addresses (only their alignment matters),
    [s1], [s2]: the bytes found there, [n] <= both lengths. LP64, little-endian loads. *)
Definition bool_not_not (r : Z) : Z := if r =? 0 then 0 else 1.
(** [memcmp_secure_internal.h: 31-36] *)
Definition aligned (p mask : Z) : bool := Z.land p mask =? 0.
(** [38-51] *)
Fixpoint or_xor8 (n : nat) (s1 s2 : list Z) (ret : Z) : Z :=
  match n, s1, s2 with
  | S n', x :: s1', y :: s2' => or_xor8 n' s1' s2' (Z.lor ret (Z.lxor x y))
  | _, _, _ => ret
  end.
Definition memcmp_secure_8 (s1 s2 : list Z) (n : nat) : Z := bool_not_not (or_xor8 n s1 s2 0).
(** The word loops: [k] words of [w] bytes; result: remaining bytes and ret. *)
Fixpoint or_xor_words (w k : nat) (s1 s2 : list Z) (ret : Z) : list Z * list Z * Z :=
  match k with
  | O => (s1, s2, ret)
  | S k' => or_xor_words w k' (skipn w s1) (skipn w s2)
              (Z.lor ret (Z.lxor (le_val (firstn w s1)) (le_val (firstn w s2))))
  end.
(** number of iterations of "n >= w" and of "n > w", n decreasing by w *)
Definition iters_ge (n w : nat) : nat := (n / w)%nat.
Definition iters_gt (n w : nat) : nat := ((n - 1) / w)%nat.
(** [53-74] *)
Definition memcmp_secure_32_aligned (s1 s2 : list Z) (n : nat) : Z :=
  let k := iters_ge n 4 in
  let '(s1, s2, ret) := or_xor_words 4 k s1 s2 0 in
  bool_not_not (Z.lor ret (memcmp_secure_8 s1 s2 (n - 4 * k))).
(** [76-99] *)
Definition memcmp_secure_32 (p1 : Z) (s1 : list Z) (p2 : Z) (s2 : list Z) (n : nat) : Z :=
  if aligned p1 3 && aligned p2 3 then memcmp_secure_32_aligned s1 s2 n
  else let k := iters_gt n 4 in
       let '(s1, s2, ret) := or_xor_words 4 k s1 s2 0 in
       bool_not_not (Z.lor ret (memcmp_secure_8 s1 s2 (n - 4 * k))).
(** [102-123] *)
Definition memcmp_secure_64_aligned (s1 s2 : list Z) (n : nat) : Z :=
  let k := iters_ge n 8 in
  let '(s1, s2, ret) := or_xor_words 8 k s1 s2 0 in
  bool_not_not (Z.lor ret (memcmp_secure_32_aligned s1 s2 (n - 8 * k))).
(** [134-159] *)
Definition memcmp_secure_64 (p1 : Z) (s1 : list Z) (p2 : Z) (s2 : list Z) (n : nat) : Z :=
  if aligned p1 7 && aligned p2 7 then memcmp_secure_64_aligned s1 s2 n
  else let k := iters_gt n 8 in
       let '(s1, s2, ret) := or_xor_words 8 k s1 s2 0 in
       bool_not_not (Z.lor ret
         (memcmp_secure_32 (p1 + Z.of_nat (8 * k)) s1 (p2 + Z.of_nat (8 * k)) s2 (n - 8 * k))).
(** [memcmp_secure_c.c: 23-38] *)
Definition lc_memcmp_secure (p1 : Z) (s1 : list Z) (p2 : Z) (s2 : list Z) : Z :=
  let s1n := length s1 in let s2n := length s2 in
  let '(ret, n) := if (s1n =? s2n)%nat then (0, s1n) else (1, if (s2n <? s1n)%nat then s2n else s1n) in
  Z.lor ret (memcmp_secure_64 p1 s1 p2 s2 n).

(** ** binhexbin.c *)
(** [28-37] *)
Definition bin_char (h : Z) : Z :=
  if (48 <=? h) && (h <=? 57) then h - 48
  else if (65 <=? h) && (h <=? 70) then h - 55
  else if (97 <=? h) && (h <=? 102) then h - 87 else 0.
(** A store with bounds check; [None] = outside the buffer. *)
Definition store (b : list Z) (i : nat) (v : Z) : option (list Z) :=
  if (i <? length b)%nat then Some (upd b i v) else None.
(** [63-66] bytes base..base+chars-1 of bin from hex[off..] *)
Fixpoint hex_loop (k : nat) (hex : list Z) (bin : list Z) (i : nat) : option (list Z) :=
  match k, hex with
  | O, _ => Some bin
  | S k', h :: l :: hex' =>
      match store bin i (Z.lor (u8 (Z.shiftl (bin_char h) 4)) (bin_char l)) with
      | Some bin' => hex_loop k' hex' bin' (S i)
      | None => None
      end
  | S _, _ => None
  end.
(** [47-67]; [bin] is the caller's buffer of binlen bytes *)
Definition hex2bin (hex bin : list Z) : option (list Z) :=
  let hexlen := length hex in let binlen := length bin in
  let chars := if (hexlen / 2 <? binlen)%nat then (hexlen / 2)%nat else binlen in
  if (hexlen mod 2 =? 1)%nat then
    match hex with
    | h :: hex' => match store bin 0 (bin_char h) with
                   | Some bin => hex_loop chars hex' bin 1
                   | None => None
                   end
    | [] => None
    end
  else hex_loop chars hex bin 0.
(** [81-100] -EINVAL for the empty string: [inl] *)
Definition EINVAL : Z := 22.
Definition ENOMEM : Z := 12.
Definition EOPNOTSUPP : Z := 95.
Definition hex2bin_alloc (hex : list Z) : Z + option (list Z) :=
  if (length hex =? 0)%nat then inl (- EINVAL)
  else let outlen := ((length hex + 1) / 2)%nat in
       (* calloc(outlen + 1); hex2bin gets outlen *)
       inr (hex2bin hex (zeros outlen)).
(** [102-111] *)
Definition hex_char (b : Z) (u : bool) : Z :=
  if b <? 10 then 48 + b else if b <? 16 then (if u then 55 + b else 87 + b) else 88.
(** [122-132] *)
Fixpoint b2h_loop (k : nat) (bin hex : list Z) (i : nat) (u : bool) : option (list Z) :=
  match k, bin with
  | O, _ => Some hex
  | S k', b :: bin' =>
      match store hex (2 * i) (hex_char (Z.shiftr b 4) u) with
      | Some hex => match store hex (2 * i + 1) (hex_char (Z.land b 15) u) with
                    | Some hex => b2h_loop k' bin' hex (S i) u
                    | None => None
                    end
      | None => None
      end
  | S _, [] => None
  end.
Definition bin2hex (bin hex : list Z) (u : bool) : option (list Z) :=
  let chars := if (length hex / 2 <? length bin)%nat then (length hex / 2)%nat else length bin in
  b2h_loop chars bin hex 0 u.

(** [199-208] number of bytes of the character, [None] = -EINVAL *)
Definition charbytes (b : Z) : option nat :=
  if Z.land b (Z.lnot 0x7f) =? 0 then Some 1%nat
  else if Z.land b (Z.lnot 0x1f) =? 0xc0 then Some 2%nat
  else if Z.land b (Z.lnot 0xf) =? 0xe0 then Some 3%nat
  else if Z.land b (Z.lnot 7) =? 0xf0 then Some 4%nat else None.
Definition memz (b : Z) (l : list Z) : bool := existsb (Z.eqb b) l.
(** Outcome of the conversion: return value and buffer, or an access outside of str or html. *)
Inductive hres := HRet (ret : Z) (html : list Z) | HOob.
(** [246-265] one character: its bytes [cs]; html is written from [pos] on *)
Fixpoint put_char (cs : list Z) (is_unres : bool) (html : list Z) (pos : nat) : option (list Z * nat) :=
  match cs with
  | [] => Some (html, pos)
  | b :: cs' =>
      if is_unres then
        match store html pos b with Some html => put_char cs' is_unres html (S pos) | None => None end
      else
        match store html pos 37 with
        | Some html =>
            match bin2hex [b] (skipn (S pos) html) true with
            | Some r => put_char cs' is_unres (firstn (S pos) html ++ r) (pos + 3)
            | None => None
            end
        | None => None
        end
  end.
(** [193-276] with reqlen = NULL; [f] >= length str *)
Fixpoint html_loop (f : nat) (unres str html : list Z) (pos : nat) : hres :=
  match str with
  | [] => match store html pos 0 with Some html => HRet 0 html | None => HOob end
  | b :: _ =>
      match f with
      | O => HOob
      | S f' =>
          match charbytes b with
          | None => HRet (- EINVAL) html
          | Some cb =>
              let is_unres := (cb =? 1)%nat && memz b unres in
              let hexbytes := if is_unres then cb else (cb * 3)%nat in
              if (length html - pos <=? hexbytes)%nat then HRet (- ENOMEM) html
              else if (length str <? cb)%nat then HRet (- ENOMEM) html
              else match put_char (firstn cb str) is_unres html pos with
                   | Some (html, pos) => html_loop f' unres (skipn cb str) html pos
                   | None => HOob
                   end
          end
      end
  end.
(** the same with reqlen: the length, [inl] = error return, [inr None] = str is read behind its end after
    strlen wrapped *)
Fixpoint html_count (f : nat) (unres str : list Z) (req : nat) : Z + option nat :=
  match str with
  | [] => inr (Some (req + 1)%nat)
  | b :: _ =>
      match f with
      | O => inr None
      | S f' =>
          match charbytes b with
          | None => inl (- EINVAL)
          | Some cb =>
              let is_unres := (cb =? 1)%nat && memz b unres in
              let hexbytes := if is_unres then cb else (cb * 3)%nat in
              if (length str <? cb)%nat then inr None
              else html_count f' unres (skipn cb str) (req + hexbytes)
          end
      end
  end.
(** [282-293] *)
Definition zrange (a n : nat) : list Z := map Z.of_nat (seq a n).
Definition unreserved : list Z := zrange 97 26 ++ zrange 65 26 ++ zrange 48 10 ++ [45; 46; 95; 126].
Definition unreserved_url : list Z := unreserved ++ [58; 61; 91; 93; 63; 38; 37].
(** [295-307] *)
Definition bin2hex_html (str html : list Z) : hres := html_loop (length str) unreserved str html 0.
Definition bin2hex_html_from_url (str html : list Z) : hres := html_loop (length str) unreserved_url str html 0.
(** [309-339] the buffer has outlen + 1 bytes, of which outlen are announced *)
Definition bin2hex_html_alloc (str : list Z) : hres :=
  if (length str =? 0)%nat then HRet (- EINVAL) []
  else match html_count (length str) unreserved str 0 with
       | inl e => HRet e []
       | inr None => HOob
       | inr (Some outlen) => html_loop (length str) unreserved str (zeros outlen) 0
       end.

(** ** signature_domain_separation.c *)
(** The pre-hash algorithm pointers of interest; [PH_other] any further hash. *)
Inductive prehash := PH_sha256 | PH_sha384 | PH_sha512 | PH_sha3_256 | PH_sha3_384 | PH_sha3_512
  | PH_shake128 | PH_shake256 | PH_other (n : nat).
(** [27-52] *)
Definition nist_hash_oid (x : Z) : list Z := [0x06; 0x09; 0x60; 0x86; 0x48; 0x01; 0x65; 0x03; 0x04; 0x02; x].
(** [54-152] bytes hashed, or -EOPNOTSUPP *)
Definition ph_case5 (p : prehash) : option (list Z) :=
  match p with
  | PH_sha512 => Some (nist_hash_oid 0x03)
  | PH_sha3_512 => Some (nist_hash_oid 0x0a)
  | PH_shake256 => Some (nist_hash_oid 0x0c)
  | _ => None
  end.
Definition ph_case3 (p : prehash) : option (list Z) :=
  match p with
  | PH_sha3_384 => Some (nist_hash_oid 0x09)
  | PH_sha384 => Some (nist_hash_oid 0x02)
  | _ => ph_case5 p
  end.
Definition ph_case1 (p : prehash) : option (list Z) :=
  match p with
  | PH_sha256 => Some (nist_hash_oid 0x01)
  | PH_sha3_256 => Some (nist_hash_oid 0x08)
  | PH_shake128 => Some (nist_hash_oid 0x0b)
  | _ => ph_case3 p
  end.
Definition signature_ph_oids (p : option prehash) (nist_category : Z) : option (list Z) :=
  match p with
  | None => Some []
  | Some p => if nist_category =? 1 then ph_case1 p
              else if nist_category =? 3 then ph_case3 p
              else if nist_category =? 5 then ph_case5 p else None
  end.
(** [signature_domain_separation.h: 33-48] *)
Definition composite_oid (x : Z) : list Z :=
  [0x06; 0x0B; 0x60; 0x86; 0x48; 0x01; 0x86; 0xFA; 0x6B; 0x50; 0x08; 0x01; x].
(** [154-192] return value and bytes hashed. The length byte is the first byte of the size_t in memory
    (little-endian). *)
Definition composite_signature_domain_separation (userctx : list Z) (nist_category : Z) : Z * list Z :=
  if (255 <? length userctx)%nat then (- EINVAL, [])
  else let tail := [u8 (Z.of_nat (length userctx))] ++ userctx in
       if nist_category =? 1 then (0, composite_oid 0x2A ++ tail)
       else if nist_category =? 3 then (0, composite_oid 0x32 ++ tail)
       else if nist_category =? 5 then (0, composite_oid 0x35 ++ tail)
       else (- EOPNOTSUPP, []).
(** [194-230] return value and all bytes given to the hash *)
Definition signature_domain_separation (internal : bool) (p : option prehash) (userctx m : list Z)
    (nist_category : Z) (composite : bool) : Z * list Z :=
  let out (ret : Z) (h : list Z) :=
    let '(ret, h) := if composite then
        let '(r, x) := composite_signature_domain_separation userctx nist_category in (r, h ++ x)
      else (ret, h) in
    (ret, h ++ m) in
  if internal then out 0 []
  else if (255 <? length userctx)%nat then (- EINVAL, [])
  else
    let h := [match p with Some _ => 1 | None => 0 end; u8 (Z.of_nat (length userctx))] ++ userctx in
    match signature_ph_oids p nist_category with
    | Some o => out 0 (h ++ o)
    | None => out (- EOPNOTSUPP) h
    end.
