(** * asn1/src/asn1_decoder.c: the BER decoder, statement by statement

    [Bad] is undefined behaviour: a read outside the input, the bytecode, the
    op-length table or the action table, or an action handed a slice which is
    not inside the input.  [Fin r] is a return with value [r].  The action
    functions are an arbitrary function [act] on an arbitrary context type. *)
From Coq Require Import ZArith List Lia Bool.
Import ListNotations.
Open Scope Z_scope.

(** asn1.h / ext_headers errno values, negated as returned *)
Definition EBADMSG : Z := -74.
Definition EMSGSIZE : Z := -90.

Inductive out (A : Type) : Type :=
  | Go (a : A)
  | Fin (r : Z)
  | Bad.
Arguments Go {A}. Arguments Fin {A}. Arguments Bad {A}.

Definition bind {A B} (m : out A) (k : A -> out B) : out B :=
  match m with Go a => k a | Fin r => Fin r | Bad => Bad end.
Notation "x <- m ;; k" := (bind m (fun x => k))
  (at level 61, m at next level, right associativity).
Notation "'guard' b ;; k" := (if (b : bool) then Fin EBADMSG else k)
  (at level 61, b at level 60, right associativity).

(** a read of [l[i]] *)
Definition rd (l : list Z) (i : Z) : out Z :=
  if (0 <=? i) && (i <? Z.of_nat (length l)) then Go (nth (Z.to_nat i) l 0)
  else Bad.

(** size_t subtraction and addition (LP64) *)
Definition W64 : Z := 2 ^ 64.
Definition usub (a b : Z) : Z := (a - b) mod W64.
Definition uadd (a b : Z) : Z := (a + b) mod W64.

(** asn1_common.c 24-55: asn1_op_lengths; slots without an initialiser are 0;
    asn1_ber_bytecode.h 58-121: ASN1_OP__NR = 0x29 *)
Definition op_lengths : list Z :=
  [2;2;3;3;3;3;0;0; 1;1;2;2;0;0;0;0;
   0;2;0;3;0;3;0;0; 1;1;2;2;1;1;2;2;
   1;1;2;2;2;2;3;3; 1].

(** ** asn1_decoder.c 37-117: asn1_find_indefinite_length *)

(** 60-66: the rest of a long tag; [n] bounds the recursion *)
Fixpoint long_tag (n : nat) (data : list Z) (datalen dp : Z) : out Z :=
  match n with
  | O => Bad
  | S n =>
      guard (usub datalen dp <? 2) ;;
      tmp <- rd data dp ;;
      let dp := uadd dp 1 in
      if negb (Z.land tmp 128 =? 0) then long_tag n data datalen dp else Go dp
  end.

(** 84-87 and 262-265: big-endian length octets *)
Fixpoint len_octets (n : nat) (data : list Z) (len dp : Z) : out (Z * Z) :=
  match n with
  | O => Go (len, dp)
  | S n =>
      b <- rd data dp ;;
      len_octets n data (Z.lor ((len * 256) mod W64) b) (uadd dp 1)
  end.

(** 46-92: [next_tag] loop.  Returns (dp, len) *)
Fixpoint find_indef (n : nat) (data : list Z) (datalen dp0 dp level : Z)
  : out (Z * Z) :=
  match n with
  | O => Bad
  | S n' =>
      guard (usub datalen dp <? 2) ;;                              (* 47-51 *)
      tag <- rd data dp ;;                                            (* 54 *)
      let dp := uadd dp 1 in
      if tag =? 0 then                                             (* 55-64 *)
        b <- rd data dp ;;
        let dp := uadd dp 1 in
        guard negb (b =? 0) ;;
        let level := level - 1 in
        if level <=? 0 then Go (dp, usub dp dp0)
        else find_indef n' data datalen dp0 dp level
      else
        dp <- (if Z.land tag 31 =? 31 then long_tag n data datalen dp
               else Go dp) ;;                                      (* 66-72 *)
        len <- rd data dp ;;                                          (* 75 *)
        let dp := uadd dp 1 in
        if len <=? 127 then                                        (* 76-77 *)
          guard (len >? usub datalen dp) ;;                        (* 100-102 *)
          find_indef n' data datalen dp0 (uadd dp len) level
        else if len =? 128 then                                    (* 79-85 *)
          guard (Z.land tag 32 =? 0) ;;
          find_indef n' data datalen dp0 dp (level + 1)
        else
          let k := len - 128 in                                    (* 87-97 *)
          guard (k >? 7) ;;
          guard (k >? usub datalen dp) ;;
          r <- len_octets (Z.to_nat k) data 0 dp ;;
          let '(len, dp) := r in
          guard (len >? usub datalen dp) ;;                        (* 98-101 *)
          find_indef n' data datalen dp0 (uadd dp len) level
  end.

(** ** asn1_decoder.c 145-508: asn1_ber_decoder *)

(** 151-175: the local variables.  The cons stacks are one list of
    (dp, datalen, hdrlen), top first; [csp] and [jsp] are the list lengths. *)
Record st := mkst {
  s_pc : Z; s_dp : Z; s_tdp : Z; s_len : Z; s_datalen : Z;
  s_flags : Z; s_tag : Z; s_hdr : Z;
  s_cons : list (Z * Z * Z);
  s_jump : list Z }.

Definition st0 (datalen : Z) : st := mkst 0 0 0 0 datalen 0 0 0 [] [].

Definition F_INDEF := 1.
Definition F_MATCHED := 2.
Definition F_LAST := 4.
Definition F_CONS := 32.
Definition has (x bit : Z) : bool := negb (Z.land x bit =? 0).

Section Decoder.
Variable C : Type.
(** actions[i](context, hdrlen, tag, value offset, vlen) *)
Variable act : Z -> Z -> Z -> Z -> Z -> C -> Z * C.
(** number of entries in the action table *)
Variable nact : Z.
Variable machine data : list Z.

Definition machlen : Z := Z.of_nat (length machine).

(** a call of [actions[i]] on [data + off], [len] bytes, header in front *)
Definition call (i hdr tag off len : Z) (c : C) : out C :=
  if (0 <=? i) && (i <? nact) && (2 <=? hdr) && (hdr <=? off) && (0 <=? len) &&
     (off + len <=? Z.of_nat (length data))
  then let '(r, c') := act i hdr tag off len c in
       if r <? 0 then Fin r else Go c'
  else Bad.

(** 190-299: the tag match made before a MATCH operation is carried out.
    [Go (inl s)]: the operation was skipped (goto next_op);
    [Go (inr s)]: matched, continue with the switch. *)
Definition do_match (op oplen : Z) (s : st) : out (st + st) :=
  let '(mkst pc dp tdp len datalen flags tag hdr cs jump) := s in
  if (has op 16 && has flags F_MATCHED) ||
     (has op 1 && (dp =? datalen)) then                          (* 194-199 *)
    Go (inl (mkst (pc + oplen) dp tdp len datalen
                  (Z.land flags (255 - F_LAST)) tag hdr cs jump))
  else
    guard (usub datalen dp <? 2) ;;                              (* 205-206 *)
    tag <- rd data dp ;;                                             (* 207 *)
    let dp1 := uadd dp 1 in
    guard (Z.land tag 31 =? 31) ;;                               (* 208-209 *)
    m <- (if has op 8 then Go (Some 0)                           (* 211-212 *)
          else optag <- rd machine (pc + 1) ;;                       (* 219 *)
               let flags := Z.land optag F_CONS in                   (* 220 *)
               let tmp := Z.land (Z.lxor optag tag)
                            (255 - Z.land optag 32) in           (* 223-224 *)
               if negb (tmp =? 0) then
                 if has op 1 then Go None else Fin EBADMSG       (* 227-234 *)
               else Go (Some flags)) ;;
    match m with
    | None =>
        (* 230-231: pc advanced, dp-- *)
        optag <- rd machine (pc + 1) ;;
        Go (inl (mkst (pc + oplen) dp tdp len datalen
                      (Z.land optag F_CONS) tag 2 cs jump))
    | Some flags =>
        let flags := Z.lor flags F_MATCHED in                        (* 243 *)
        len0 <- rd data dp1 ;;                                       (* 245 *)
        let dp2 := uadd dp1 1 in
        r <- (if len0 >? 127 then
                if len0 =? 128 then                              (* 247-253 *)
                  guard negb (has tag 32) ;;
                  guard (2 >? usub datalen dp2) ;;
                  Go (Z.lor flags F_INDEF, 2, len0, dp2)
                else                                             (* 254-269 *)
                  let n := len0 - 128 in
                  guard (n >? 3) ;;
                  guard (n >? usub datalen dp2) ;;
                  q <- len_octets (Z.to_nat n) data 0 dp2 ;;
                  let '(len, dp3) := q in
                  guard (len >? usub datalen dp3) ;;
                  Go (flags, 2 + n, len, dp3)
              else
                guard (len0 >? usub datalen dp2) ;;              (* 271-272 *)
                Go (flags, 2, len0, dp2)) ;;
        let '(flags, hdr, len, dp) := r in
        if has flags F_CONS then                                 (* 275-291 *)
          guard (10 <=? Z.of_nat (length cs)) ;;
          if negb (has flags F_INDEF) then
            Go (inr (mkst pc dp dp len (uadd dp len) flags tag hdr
                          ((dp, datalen, hdr) :: cs) jump))
          else
            Go (inr (mkst pc dp dp len datalen flags tag hdr
                          ((dp, 0, hdr) :: cs) jump))
        else
          Go (inr (mkst pc dp dp len datalen flags tag hdr cs jump))
    end.

(** 303-349: the switch, MATCH operations without JUMP *)
Definition do_leaf (op oplen : Z) (s : st) (c : C) : out (st * C) :=
  let '(mkst pc dp tdp len datalen flags tag hdr cs jump) := s in
  len <- (if negb (has flags F_CONS) && has flags F_INDEF then   (* 319-327 *)
            r <- find_indef (S (length data)) data datalen dp dp 1 ;;
            Go (snd r)
          else Go len) ;;
  c <- (if has op 2 then                                         (* 332-342 *)
          i <- rd machine (if has op 8 then pc + 1 else pc + 2) ;;
          call i hdr tag dp len c
        else Go c) ;;
  Go (mkst (pc + oplen) (if has flags F_CONS then dp else uadd dp len)
           tdp len datalen flags tag hdr cs jump, c).          (* 344-347 *)

(** 349-357: MATCH_JUMP *)
Definition do_jump (oplen : Z) (s : st) (c : C) : out (st * C) :=
  let '(mkst pc dp tdp len datalen flags tag hdr cs jump) := s in
  guard (Z.of_nat (length jump) =? 10) ;;
  t <- rd machine (pc + 2) ;;
  Go (mkst t dp tdp len datalen flags tag hdr cs
           ((pc + oplen) mod 256 :: jump), c).

(** 374-444: END_SEQ, END_SET, END_SEQ_OF, ... *)
Definition do_end (op oplen : Z) (s : st) (c : C) : out (st * C) :=
  let '(mkst pc dp tdp len datalen flags tag hdr cs jump) := s in
  guard (((op =? 33) || (op =? 37)) && negb (has flags F_MATCHED)) ;;
  match cs with
  | [] => Fin EBADMSG                                            (* 387-388 *)
  | (cdp, cdatalen, chdr) :: cs' =>
      let len := datalen in                                      (* 389-393 *)
      r <- (if cdatalen =? 0 then                                (* 396-413 *)
              guard (usub len dp <? 2) ;;
              b <- rd data dp ;;
              if negb (b =? 0) then
                if has op 2 then
                  t <- rd machine (pc + 1) ;;
                  Go (inl (mkst t dp cdp len len flags tag chdr cs jump))
                else Fin EBADMSG
              else
                b <- rd data (uadd dp 1) ;;
                guard negb (b =? 0) ;;
                let dp := uadd dp 2 in
                Go (inr (usub (usub dp cdp) 2, dp, len))
            else                                                 (* 414-426 *)
              if (dp <? len) && has op 2 then
                t <- rd machine (pc + 1) ;;
                Go (inl (mkst t dp cdp len len flags tag chdr cs jump))
              else
                guard negb (dp =? len) ;;
                Go (inr (usub len cdp, dp, cdatalen))) ;;
      match r with
      | inl s => Go (s, c)
      | inr (len, dp, datalen) =>
          c <- (if has op 4 then                                 (* 429-439 *)
                  i <- rd machine (if has op 2 then pc + 2 else pc + 1) ;;
                  call i chdr 0 cdp len c
                else Go c) ;;
          Go (mkst (pc + oplen) dp cdp len datalen flags tag chdr cs' jump, c)
      end
  end.

(** 446-461: ACT and MAYBE_ACT *)
Definition do_act (op oplen : Z) (s : st) (c : C) : out (st * C) :=
  let '(mkst pc dp tdp len datalen flags tag hdr cs jump) := s in
  if (op =? 31) && negb (has flags F_LAST) then
    Go (mkst (pc + oplen) dp tdp len datalen flags tag hdr cs jump, c)
  else
    i <- rd machine (pc + 1) ;;
    c <- call i hdr tag tdp len c ;;
    Go (mkst (pc + oplen) dp tdp len datalen flags tag hdr cs jump, c).

(** the operations named in the switch *)
Definition leaf_op (op : Z) : bool :=
  existsb (Z.eqb op) [0;1;2;3;8;9;10;11;17;19;24;25;26;27].
Definition jump_op (op : Z) : bool := existsb (Z.eqb op) [4;5;21].
Definition end_op (op : Z) : bool := (32 <=? op) && (op <=? 39).

(** 177-479: one trip from [next_op] to [next_op] *)
Definition step (sc : st * C) : out (st * C) :=
  let '(s, c) := sc in
  let pc := s_pc s in
  guard (machlen <=? pc) ;;                                      (* 181-182 *)
  op <- rd machine pc ;;                                             (* 183 *)
  oplen <- rd op_lengths op ;;
  guard (machlen <? pc + oplen) ;;                               (* 184-185 *)
  r <- (if op <=? 27 then do_match op oplen s else Go (inr s)) ;;
  match r with
  | inl s => Go (s, c)
  | inr s =>
      if leaf_op op then do_leaf op oplen s c
      else if jump_op op then do_jump oplen s c
      else if op =? 28 then                                      (* 359-363 *)
        guard negb (has (s_flags s) F_MATCHED) ;;
        Go (mkst (s_pc s + oplen) (s_dp s) (s_tdp s) (s_len s) (s_datalen s)
                 (s_flags s) (s_tag s) (s_hdr s) (s_cons s) (s_jump s), c)
      else if op =? 29 then                                      (* 365-372 *)
        match s_cons s, s_jump s with
        | [], [] => Fin 0
        | _, _ => Fin EBADMSG
        end
      else if end_op op then do_end op oplen s c
      else if (op =? 30) || (op =? 31) then do_act op oplen s c
      else if op =? 40 then                                      (* 463-468 *)
        match s_jump s with
        | [] => Fin EBADMSG
        | t :: j =>
            Go (mkst t (s_dp s) (s_tdp s) (s_len s) (s_datalen s)
                     (Z.lor (s_flags s) (F_MATCHED + F_LAST)) (s_tag s)
                     (s_hdr s) (s_cons s) j, c)
        end
      else Fin EBADMSG                                           (* 470-477 *)
  end.

(** what a run of at most [n] trips gives: [Go] if it is still running *)
Fixpoint run (n : nat) (sc : st * C) : out (st * C) :=
  match n with
  | O => Go sc
  | S n => sc' <- step sc ;; run n sc'
  end.

(** the value returned and the context left behind, cut off after [n] trips
    (an action that fails leaves its context behind as it found it) *)
Fixpoint final (n : nat) (sc : st * C) : option (Z * C) :=
  match n with
  | O => None
  | S n => match step sc with
           | Go sc' => final n sc'
           | Fin r => Some (r, snd sc)
           | Bad => None
           end
  end.

(** 145-179: the call, cut off after [n] trips *)
Definition ber_decoder (n : nat) (c : C) : out (st * C) :=
  if Z.of_nat (length data) >? 2 ^ 18 then Fin EMSGSIZE
  else run n (st0 (Z.of_nat (length data)), c).

End Decoder.
