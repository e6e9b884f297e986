(** * asn1/src/oid_registry.c

    A read outside one of the tables or outside the input is [None]. *)
From Coq Require Import ZArith List Lia Bool DecimalN Decimal NArith.
Import ListNotations.
From Verif Require Import Bytes OidTables.
Open Scope Z_scope.

(** errno.h *)
Definition EBADMSG : Z := -74.
Definition ENOBUFS : Z := -105.

Definition W64 : Z := 2 ^ 64.
Definition ix {A} (l : list A) (i : Z) : option A :=
  if 0 <=? i then nth_error l (Z.to_nat i) else None.

(** oid_registry.c 44-50: the hash of the input, in size_t arithmetic *)
Definition oid_hash (data : list Z) : Z :=
  let h := fold_left (fun h b => (h + b * 33) mod W64) data
             ((Z.of_nat (length data) - 1) mod W64) in
  let h := Z.lxor (Z.lxor (Z.lxor (Z.shiftr h 24) (Z.shiftr h 16)) (Z.shiftr h 8)) h in
  Z.land h 255.

(** 85-96: the comparison from the tail; [len] counts down *)
Fixpoint tail_cmp (len : nat) (base : Z) (data : list Z) : option comparison :=
  match len with
  | O => Some Eq
  | S l =>
      match ix oid_data (base + Z.of_nat l), nth_error data l with
      | Some a, Some b =>
          if b <? a then Some Gt else if a <? b then Some Lt else tail_cmp l base data
      | _, _ => None
      end
  end.

(** 56-101: the binary search; [fuel] bounds the number of iterations *)
Fixpoint oid_search (fuel : nat) (hash : Z) (data : list Z) (i k : Z) : option Z :=
  if i <? k then
    match fuel with
    | O => None
    | S fuel =>
        let j := (i + k) / 2 in
        match ix oid_search_table j with
        | None => None
        | Some (xhash, oid) =>
            if hash <? xhash then oid_search fuel hash data i j
            else if xhash <? hash then oid_search fuel hash data (j + 1) k
            else
              match ix oid_index (oid + 1), ix oid_index oid with
              | Some e, Some b =>
                  let len := (e - b) mod W64 in
                  let datasize := Z.of_nat (length data) in
                  if datasize <? len then oid_search fuel hash data i j
                  else if len <? datasize then oid_search fuel hash data (j + 1) k
                  else
                    match tail_cmp (Z.to_nat len) b data with
                    | None => None
                    | Some Gt => oid_search fuel hash data i j
                    | Some Lt => oid_search fuel hash data (j + 1) k
                    | Some Eq => Some oid
                    end
              | _, _ => None
              end
        end
    end
  else Some OID__NR.

(** look_up_OID [37-102] *)
Definition look_up_OID (data : list Z) : option Z :=
  oid_search (Z.to_nat OID__NR) (oid_hash data) data 0 OID__NR.

(** parse_OID [114-122]; the value stored, if one is *)
Definition parse_OID (data : list Z) : option (Z * option Z) :=
  match data with
  | t :: l :: (_ :: _) as d =>
      if negb (t =? 6) || negb (l =? Z.of_nat (length data) - 2) then Some (EBADMSG, None)
      else match look_up_OID (skipn 2 data) with Some o => Some (0, Some o) | None => None end
  | _ => Some (EBADMSG, None)
  end.

(** OID_to_data [207-215] *)
Definition OID_to_data (oid : Z) : option (Z * list Z) :=
  if OID__NR <=? oid then Some (EFAULT, [])
  else match ix oid_index oid, ix oid_index (oid + 1) with
       | Some b, Some e => Some (0, firstn (Z.to_nat (e - b)) (skipn (Z.to_nat b) oid_data))
       | _, _ => None
       end.

(** ** sprint_oid *)
(** snprintf "%u", "%lu": decimal digits, here by the conversion of the
    standard library *)
Fixpoint uint_chars (u : Decimal.uint) : list Z :=
  match u with
  | Nil => []
  | D0 u => 48 :: uint_chars u | D1 u => 49 :: uint_chars u | D2 u => 50 :: uint_chars u
  | D3 u => 51 :: uint_chars u | D4 u => 52 :: uint_chars u | D5 u => 53 :: uint_chars u
  | D6 u => 54 :: uint_chars u | D7 u => 55 :: uint_chars u | D8 u => 56 :: uint_chars u
  | D9 u => 57 :: uint_chars u
  end.
Definition dec (n : Z) : list Z := uint_chars (N.to_uint (Z.to_N n)).
Definition DOT : Z := 46.
(** "(bad)" *)
Definition BAD : list Z := [40; 98; 97; 100; 41].

(** what the C string is when snprintf puts [s] into [size] bytes *)
Definition cut (size : Z) (s : list Z) : list Z := firstn (Z.to_nat (size - 1)) s.

(** 159-166: the do-while loop; [None]: the input ends inside a number *)
Fixpoint more_digits (num : Z) (data : list Z) : option (Z * list Z) :=
  match data with
  | [] => None
  | n :: data =>
      let num := Z.lor ((num * 128) mod W64) (Z.land n 127) in
      if negb (Z.land n 128 =? 0) then more_digits num data else Some (num, data)
  end.

(** 154-175: the main loop.  [ret] is the sum of the lengths, [size] the
    space left; result: the return value and the text that was appended *)
Fixpoint sprint_loop (fuel : nat) (data : list Z) (ret size : Z) : option (Z * list Z) :=
  match data with
  | [] => Some (ret, [])
  | n :: data =>
      match fuel with
      | O => None
      | S fuel =>
          let d := if Z.land n 128 =? 0 then Some (n, data) else more_digits (Z.land n 127) data in
          match d with
          | None => Some (EBADMSG, cut size BAD)
          | Some (num, data) =>
              let s := DOT :: dec num in
              let count := Z.of_nat (length s) in
              if size <=? count then Some (ENOBUFS, cut size s)
              else match sprint_loop fuel data (ret + count) (size - count) with
                   | None => None
                   | Some (r, t) => Some (r, s ++ t)
                   end
          end
      end
  end.

(** sprint_oid [135-180]: return value and the C string in the buffer
    (for a buffer of at least one byte); INT_MAX = 2^31 - 1 *)
Definition sprint_oid (data : list Z) (bufsize : Z) : option (Z * list Z) :=
  match data with
  | [] => Some (EBADMSG, cut bufsize BAD)
  | n :: data =>
      if 2 ^ 31 - 1 <? bufsize then Some (EBADMSG, cut bufsize BAD)
      else
        let s := dec (n / 40) ++ DOT :: dec (n mod 40) in
        let count := Z.of_nat (length s) in
        if bufsize <=? count then Some (ENOBUFS, cut bufsize s)
        else match sprint_loop (length data) data count (bufsize - count) with
             | None => None
             | Some (r, t) => Some (r, s ++ t)
             end
  end.

(** sprint_OID [191-198] *)
Definition sprint_OID (oid bufsize : Z) : option (Z * list Z) :=
  if OID__NR <=? oid then Some (EFAULT, [])
  else match OID_to_data oid with Some (_, d) => sprint_oid d bufsize | None => None end.
