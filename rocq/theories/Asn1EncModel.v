(** * asn1/src/asn1_encoder_impl.h and asn1_encoder_helper.c: the BER encoder

    [Bad] is undefined behaviour: a read outside the bytecode, the op-length
    table or the action table, a write outside the jump stack, a read of a
    buffer length which was never set, or an action which claims to have
    written more than it was given room for.  The action functions are an
    arbitrary function on an arbitrary context type. *)
From Coq Require Import ZArith List Lia Bool.
From Verif Require Import Asn1Model.
Import ListNotations.
Open Scope Z_scope.

(** errno values, negated as returned *)
Definition EINVAL_ : Z := -22.
Definition EOVERFLOW_ : Z := -75.

(** ** asn1_encoder_helper.c *)

(** 259-300: asn1_encode_length.  [avail] is *data_len on entry; the octets
    stored and *data_len on return *)
Definition encode_length (avail len : Z) : out (list Z * Z) :=
  if avail <? 1 then Fin EINVAL_
  else if len <=? 127 then Go ([len], avail - 1)
  else if avail <? 2 then Fin EINVAL_
  else if len <=? 255 then Go ([129; Z.land len 255], avail - 2)
  else if avail <? 3 then Fin EINVAL_
  else if len <=? 65535 then
    Go ([130; Z.land (Z.shiftr len 8) 255; Z.land len 255], avail - 3)
  else if len >? 16777215 then Fin EINVAL_
  else if avail <? 4 then Fin EINVAL_
  else Go ([131; Z.land (Z.shiftr len 16) 255; Z.land (Z.shiftr len 8) 255;
            Z.land len 255], avail - 4).

(** 302-328: asn1_encode_length_size *)
Definition encode_length_size (len : Z) : out Z :=
  if len <=? 127 then Go 1
  else if len <=? 255 then Go 2
  else if len <=? 65535 then Go 3
  else if len >? 16777215 then Fin EINVAL_
  else Go 4.

(** 72-106: the loop of asn1_encode_integer: [i] octets to go, [acc] the
    octets stored from data[2] on, reversed; *datalen *)
Fixpoint int_loop (i : nat) (integer : Z) (found : bool) (datalen : Z)
  (acc : list Z) : Z * list Z * Z :=
  match i with
  | O => (0, rev acc, datalen)
  | S i' =>
      let byte := Z.shiftr integer (8 * Z.of_nat i') in
      if negb found && (byte =? 0) then int_loop i' integer found datalen acc
      else
        let '(acc, datalen) :=
          if negb found && has byte 128 then (0 :: acc, datalen - 1)
          else (acc, datalen) in
        if datalen =? 0 then (EINVAL_, rev acc, datalen)
        else int_loop i' integer true (datalen - 1) (byte mod 256 :: acc)
  end.

(** 40-113: asn1_encode_integer on a buffer of [datalen] octets: the return
    value, the octets of the buffer up to *retptr, *datalen.  [None] is the
    store to data[1] past a buffer of less than two octets.  Octets not yet
    stored (data[0] after an early error) are shown as 0. *)
Definition encode_integer (datalen integer : Z) : option (Z * list Z * Z) :=
  if datalen <? 2 then None
  else if integer <? 0 then Some (EINVAL_, [0; 0], datalen)
  else if datalen <? 3 then Some (EINVAL_, [0; 0], datalen)
  else if integer =? 0 then Some (0, [2; 1; 0], datalen - 2)
  else
    let '(r, v, d) := int_loop 8 integer false (datalen - 2) [] in
    Some (r, 2 :: Z.of_nat (length v) mod 256 :: v, d).

(** 131-146: the digits of asn1_encode_oid_digit; [k] seven-bit groups follow
    the current one *)
Fixpoint digit_loop (k : nat) (oid avail : Z) (acc : list Z)
  : Z * list Z * Z :=
  match k with
  | O => if avail >? 0 then (0, rev (oid mod 256 :: acc), avail - 1)
         else (EINVAL_, rev acc, avail)
  | S k' =>
      if avail >? 0 then
        let byte := Z.shiftr oid (7 * Z.of_nat k) mod 256 in
        digit_loop k' ((oid - Z.shiftl byte (7 * Z.of_nat k)) mod 2 ^ 32) (avail - 1)
                   (Z.lor byte 128 :: acc)
      else (EINVAL_, rev acc, avail)
  end.

(** 128-129: how many groups follow the first *)
Fixpoint digit_start (k : nat) (oid : Z) : nat :=
  match k with
  | O => O
  | S k' => if Z.shiftr oid (7 * Z.of_nat k) =? 0 then digit_start k' oid else k
  end.

(** 112-155: asn1_encode_oid_digit: return value, octets stored, *data_len *)
Definition encode_oid_digit (avail oid : Z) : Z * list Z * Z :=
  if avail <? 1 then (EINVAL_, [], avail)
  else if oid =? 0 then (0, [128], avail - 1)
  else digit_loop (digit_start 4 oid) oid avail [].

Fixpoint oid_digits (oids : list Z) (avail : Z) : Z * list Z * Z :=
  match oids with
  | [] => (0, [], avail)
  | o :: oids =>
      let '(r, v, a) := encode_oid_digit avail o in
      if r <? 0 then (r, v, a)
      else let '(r', v', a') := oid_digits oids a in (r', v ++ v', a')
  end.

(** 168-210: asn1_encode_oid; the octets from data[0] to *retptr.  [d] starts
    at data[0], so the first sub-identifier overwrites the tag; the length
    overwrites data[1] (208). *)
Definition encode_oid (datalen : Z) (oid : list Z) : Z * list Z * Z :=
  match oid with
  | o0 :: o1 :: rest =>
      if (32 <? Z.of_nat (length oid)) || (datalen <? 3) then (EINVAL_, [], datalen)
      else
        let '(r, v, a) := oid_digits rest (datalen - 3) in
        let first := (o0 * 40 + o1) mod 256 in
        if r <? 0 then (r, first :: v, a)
        else
          let len := (Z.of_nat (length v) + 1 - 2) mod 256 in
          (0, first :: match v with [] => [] | _ :: v' => len :: v' end, a)
  | _ => (EINVAL_, [], datalen)
  end.

(** ** asn1_encoder_impl.h 175-518: asn1_ber_encoder_ws *)

(** 108-118, 184-197: the local variables and the workspace.  The level
    buffers in use are one list, top first; each is the octets stored so far
    and the tag.  [None]: data_len was never set for this level.  *)
Record est := mkest {
  e_pc : Z;
  e_main : list Z;                       (* data, the octets written so far *)
  e_lv : list (option (list Z) * Z);             (* data / data_len and tag *)
  e_js : list Z;                                             (* jump_stack *)
  e_flags : Z }.

Definition E_MATCHED := 1.
Definition E_LAST := 2.
Definition E_CONT := 4.
Definition E_ZERO := 8.

Definition est0 : est := mkest 0 [] [(None, 0)] [] 0.

(** flags &= ~bit *)
Definition clear (f bit : Z) : Z := Z.land f (255 - bit).

Section Encoder.
Variable C : Type.
(** actions[i](context, room, tag): return value, octets written, tag *)
Variable act : Z -> Z -> Z -> C -> Z * list Z * Z * C.
Variable nact : Z.
Variable machine : list Z.
(** ws->max_level, the number of entries of jump_stack too, and maxlen of
    195 *)
Variable max_level maxlen : Z.
Variable max_stack : Z.

Definition emachlen : Z := Z.of_nat (length machine).

Definition llen (l : list Z) : Z := Z.of_nat (length l).

(** 252-264, 367-379, 437-448: an action on the top level *)
Definition call_enc (i : Z) (s : est) (c : C) : out (est * C) :=
  match e_lv s with
  | (Some v, tag) :: rest =>
      if (0 <=? i) && (i <? nact) then
        let '(r, w, tag', c') := act i (maxlen - llen v) tag c in
        if r <? 0 then Fin r
        else if llen w >? maxlen - llen v then Bad
        else
          let f := if r =? 1 then Z.lor (e_flags s) E_CONT else e_flags s in
          let f := if r =? 2 then Z.lor f E_ZERO else f in
          Go (mkest (e_pc s) (e_main s) ((Some (v ++ w), tag') :: rest) (e_js s) f, c')
      else Bad
  | _ => Bad
  end.

(** 124-153: ASN1_BER_ENCODE_WRITE_DATA on a destination holding [dst] *)
Definition write_tlv (dst : list Z) (tag : Z) (v : list Z) : out (list Z) :=
  let avail := maxlen - llen dst in
  if avail <? 1 then Fin EOVERFLOW_
  else
    r <- encode_length (avail - 1) (llen v) ;;
    let '(lb, avail) := r in
    if avail <? llen v then Fin EOVERFLOW_
    else Go (dst ++ tag :: lb ++ v).

(** 387-427: write_data_out, then the next operation *)
Definition write_out (oplen : Z) (s : est) : out est :=
  match e_lv s with
  | (Some v, tag) :: rest =>
      if (llen v =? 0) && negb (has (e_flags s) E_ZERO) then
        Go (mkest (e_pc s + oplen) (e_main s) (e_lv s) (e_js s) (e_flags s))
      else
        let f := clear (e_flags s) E_ZERO in
        match rest with
        | [] =>
            m <- write_tlv (e_main s) tag v ;;
            Go (mkest (e_pc s + oplen) m [(Some [], tag)] (e_js s) f)
        | (Some p, ptag) :: rest' =>
            p' <- write_tlv p tag v ;;
            Go (mkest (e_pc s + oplen) (e_main s) ((Some [], tag) :: (Some p', ptag) :: rest')
                      (e_js s) f)
        | (None, _) :: _ => Bad
        end
  | _ => Bad
  end.

(** 109-118: ASN1_BER_ENCODE_CHECK_FOR_SEQUENCE, [t] = machine[pc + 1] *)
Definition check_seq (op t : Z) (s : est) : out est :=
  if negb (has op 8) && has t 32 then
    if llen (map snd (e_lv s)) =? max_level then Fin EBADMSG
    else Go (mkest (e_pc s) (e_main s) ((Some [], 0) :: e_lv s) (e_js s) (e_flags s))
  else Go s.

(** 232-240 *)
Definition fresh (t : Z) (s : est) : est :=
  mkest (e_pc s) (e_main s)
        (match e_lv s with _ :: r => (Some [], t) :: r | [] => [] end)
        (e_js s) (e_flags s).
(** 316 *)
Definition set_tag (t : Z) (s : est) : est :=
  mkest (e_pc s) (e_main s)
        (match e_lv s with (v, _) :: r => (v, t) :: r | [] => [] end)
        (e_js s) (e_flags s).
Definition set_pc (pc : Z) (s : est) : est :=
  mkest pc (e_main s) (e_lv s) (e_js s) (e_flags s).
Definition set_flags (f : Z) (s : est) : est :=
  mkest (e_pc s) (e_main s) (e_lv s) (e_js s) f.

(** 214-293 *)
Definition enc_match (op oplen : Z) (s : est) (c : C) : out (est * C) :=
  t <- rd machine (e_pc s + 1) ;;
  s <- check_seq op t (fresh t s) ;;
  if has op 2 then
    a <- (if has op 8 then Go t else rd machine (e_pc s + 2)) ;;
    r <- call_enc a s c ;;
    let '(s, c) := r in
    if has t 32 then Go (set_pc (e_pc s + oplen) s, c)
    else s <- write_out oplen s ;; Go (s, c)
  else
    if negb (has t 32) && negb (op =? 0) then
      s <- write_out oplen s ;; Go (s, c)
    else Go (set_pc (e_pc s + oplen) s, c).

(** 295-321.  The bound tested at 307 is max_stack (the size of a level
    buffer), the array has max_level entries; jsp is an unsigned char. *)
Definition enc_jump (op oplen : Z) (s : est) : out est :=
  if (op =? 21) && has (e_flags s) E_LAST then
    Go (set_pc (e_pc s + oplen) (set_flags (clear (e_flags s) E_LAST) s))
  else if llen (e_js s) =? max_stack then Fin EBADMSG
  else if llen (e_js s) >=? max_level then Bad
  else
    t <- rd machine (e_pc s + 1) ;;
    tgt <- rd machine (e_pc s + 2) ;;
    let s := mkest (e_pc s) (e_main s) (e_lv s)
                   ((e_pc s + oplen) mod 256 :: e_js s) (e_flags s) in
    s <- check_seq op t (set_tag t s) ;;
    Go (set_pc tgt s).

(** 341-385 *)
Definition enc_end (op oplen : Z) (s : est) (c : C) : out (est * C) :=
  if has op 2 && has (e_flags s) E_CONT then
    tgt <- rd machine (e_pc s + 1) ;;
    Go (set_pc tgt (set_flags (clear (e_flags s) E_CONT) s), c)
  else
    r <- (if has op 4 then
            a <- rd machine (e_pc s + (if has op 2 then 2 else 1)) ;;
            call_enc a s c
          else Go (s, c)) ;;
    let '(s, c) := r in
    match e_lv s with
    | _ :: (l :: rest) =>
        s <- write_out oplen
               (mkest (e_pc s) (e_main s) (l :: rest) (e_js s) (e_flags s)) ;;
        Go (s, c)
    | _ => Fin EBADMSG
    end.

(** 429-451 *)
Definition enc_act (op oplen : Z) (s : est) (c : C) : out (est * C) :=
  if (op =? 31) && negb (has (e_flags s) E_LAST) then
    Go (set_pc (e_pc s + oplen) s, c)
  else
    a <- rd machine (e_pc s + 1) ;;
    r <- call_enc a s c ;;
    let '(s, c) := r in
    s <- write_out oplen s ;; Go (s, c).

(** 453-474 *)
Definition enc_return (s : est) : out est :=
  below <- (match e_lv s with
            | _ :: (Some p, _) :: _ => Go p
            | _ :: (None, _) :: _ => Bad
            | _ => Go (e_main s)
            end) ;;
  let f := if llen below =? 0 then e_flags s else Z.lor (e_flags s) E_LAST in
  match e_js s with
  | [] => Fin EBADMSG
  | t :: j => Go (mkest t (e_main s) (e_lv s) j (Z.lor f E_MATCHED))
  end.

(** 203-479: one trip from [next_op] to [next_op]; [inr] at COMPLETE, where
    the octets written are in [e_main] *)
Definition estep (sc : est * C) : out (est * C + list Z * C) :=
  let '(s, c) := sc in
  let pc := e_pc s in
  guard (emachlen <=? pc) ;;
  op <- rd machine pc ;;
  oplen <- rd op_lengths op ;;
  guard (emachlen <? pc + oplen) ;;
  if leaf_op op then r <- enc_match op oplen s c ;; Go (inl r)
  else if jump_op op then s <- enc_jump op oplen s ;; Go (inl (s, c))
  else if op =? 28 then
    guard negb (has (e_flags s) E_MATCHED) ;;
    Go (inl (set_pc (pc + oplen) s, c))
  else if op =? 29 then
    match e_js s, e_lv s with
    | [], [_] => Go (inr (e_main s, c))
    | _, _ => Fin EBADMSG
    end
  else if end_op op then r <- enc_end op oplen s c ;; Go (inl r)
  else if (op =? 30) || (op =? 31) then r <- enc_act op oplen s c ;; Go (inl r)
  else if op =? 40 then s <- enc_return s ;; Go (inl (s, c))
  else Fin EBADMSG.

(** a run of at most [n] trips: [Go (inr (octets, context))] on success,
    [Go (inl _)] while it is still running *)
Fixpoint erun (n : nat) (sc : est * C) : out (est * C + list Z * C) :=
  match n with
  | O => Go (inl sc)
  | S n => r <- estep sc ;;
           match r with inl sc' => erun n sc' | inr d => Go (inr d) end
  end.

End Encoder.

(** 195: maxlen for a caller's buffer of [avail] octets *)
Definition maxlen_of (max_stack avail : Z) : Z := Z.min max_stack avail.

(** asn1_encoder.c 24-55: ten levels of 2^18 octets; asn1_encoder_small.c
    24-49: four levels of 256 octets (allocation of the workspace not
    modelled) *)
Definition ber_encoder (C : Type) act nact machine (avail : Z) (n : nat) (c : C) :=
  erun C act nact machine 10 (maxlen_of (2 ^ 18) avail) (2 ^ 18) n (est0, c).
Definition ber_encoder_small (C : Type) act nact machine (avail : Z) (n : nat) (c : C) :=
  erun C act nact machine 4 (maxlen_of 256 avail) 256 n (est0, c).
