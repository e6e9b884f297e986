(** slh-dsa/src/sphincs_api.c: the layer that picks the parameter set by the type of the key, loads and exports keys and
    signatures. Builds with the six parameter sets enabled. *)
From Verif Require Import Bytes UtilModel SphincsModel.

(** enum lc_sphincs_type [lc_sphincs.h: 66-81]; [None] for LC_SPHINCS_UNKNOWN and any other value *)
Inductive stype := S256s | S256f | S192s | S192f | S128s | S128f.
Definition set_of (t : stype) : sparam :=
  match t with S256s => SHAKE_256s | S256f => SHAKE_256f | S192s => SHAKE_192s | S192f => SHAKE_192f | S128s => SHAKE_128s | S128f => SHAKE_128f end.
Definition stype_eqb (a b : option stype) : bool :=
  match a, b with
  | Some S256s, Some S256s | Some S256f, Some S256f | Some S192s, Some S192s | Some S192f, Some S192f
  | Some S128s, Some S128s | Some S128f, Some S128f | None, None => true
  | _, _ => false
  end.
(** struct lc_sphincs_sk, lc_sphincs_pk, lc_sphincs_sig [lc_sphincs.h: 126-206]: the type and the memory of the union, as long
    as its longest member. Two values of an enum outside of its range are not told apart. *)
Record obj := mkObj { ob_type : option stype; ob_mem : list Z }.
(** writing the member of the union *)
Definition put (o : obj) (t : option stype) (b : list Z) : obj := mkObj t (store_at (ob_mem o) 0 b).
Definition member (size : sparam -> nat) (t : stype) (o : obj) : list Z := firstn (size (set_of t)) (ob_mem o).

(** [131-274] lc_sphincs_sk_size, pk_size, sig_size *)
Definition api_size (size : sparam -> nat) (t : option stype) : nat := match t with Some t => size (set_of t) | None => 0 end.

(** [276-332, 396-452, 516-578] lc_sphincs_sk_load, pk_load, sig_load; [None]: a NULL pointer. The tests of the length in the
    order of the code *)
Definition api_load (size : sparam -> nat) (o : option obj) (src : option (list Z)) : Z * option obj :=
  match o, src with
  | Some o', Some s =>
    if (length s =? 0)%nat then (- EINVAL, o)
    else if (length s =? size SHAKE_256s)%nat then (0, Some (put o' (Some S256s) s))
    else if (length s =? size SHAKE_256f)%nat then (0, Some (put o' (Some S256f) s))
    else if (length s =? size SHAKE_192s)%nat then (0, Some (put o' (Some S192s) s))
    else if (length s =? size SHAKE_192f)%nat then (0, Some (put o' (Some S192f) s))
    else if (length s =? size SHAKE_128s)%nat then (0, Some (put o' (Some S128s) s))
    else if (length s =? size SHAKE_128f)%nat then (0, Some (put o' (Some S128f) s))
    else (- EINVAL, o)
  | _, _ => (- EINVAL, o)
  end.
(** [334-363, 454-483] lc_sphincs_sk_set_keytype_fast, pk_set_keytype_fast *)
Definition api_fast (o : option obj) : Z * option obj :=
  match o with
  | None => (- EINVAL, o)
  | Some x => match ob_type x with
              | Some S256s => (0, Some (mkObj (Some S256f) (ob_mem x)))
              | Some S192s => (0, Some (mkObj (Some S192f) (ob_mem x)))
              | Some S128s => (0, Some (mkObj (Some S128f) (ob_mem x)))
              | Some _ => (0, o)
              | None => (- EINVAL, o)
              end
  end.
(** [365-394, 485-514] lc_sphincs_sk_set_keytype_small, pk_set_keytype_small *)
Definition api_small (o : option obj) : Z * option obj :=
  match o with
  | None => (- EINVAL, o)
  | Some x => match ob_type x with
              | Some S256f => (0, Some (mkObj (Some S256s) (ob_mem x)))
              | Some S192f => (0, Some (mkObj (Some S192s) (ob_mem x)))
              | Some S128f => (0, Some (mkObj (Some S128s) (ob_mem x)))
              | Some _ => (0, o)
              | None => (- EINVAL, o)
              end
  end.
(** [580-758] lc_sphincs_sk_ptr, pk_ptr, sig_ptr: code and the bytes pointed at *)
Definition api_ptr (size : sparam -> nat) (o : option obj) : Z * option (list Z) :=
  match o with
  | None => (- EINVAL, None)
  | Some x => match ob_type x with Some t => (0, Some (member size t x)) | None => (- EINVAL, None) end
  end.

(** [760-832] lc_sphincs_keypair; the type is stored before the key is made. [rng]: None for a NULL rng_ctx, otherwise return
    value and output of lc_rng_generate *)
Definition api_keypair (pk sk : option obj) (rng : option (Z * list Z)) (t : option stype) : option (Z * option obj * option obj) :=
  match pk, sk, rng with
  | Some p, Some s, Some r =>
    match t with
    | None => Some (- EOPNOTSUPP, pk, sk)
    | Some ty => match sp_keypair (set_of ty) r (member sp_pk ty p) (member sp_sk ty s) with
                 | None => None
                 | Some (ret, p', s') => Some (ret, Some (put p t p'), Some (put s t s'))
                 end
    end
  | _, _, _ => Some (- EINVAL, pk, sk)
  end.
(** [834-907] lc_sphincs_keypair_from_seed *)
Definition api_keypair_from_seed (pk sk : option obj) (seed : list Z) (t : option stype) : Z * option obj * option obj :=
  match pk, sk with
  | Some p, Some s =>
    match t with
    | None => (- EOPNOTSUPP, pk, sk)
    | Some ty => let '(ret, p', s') := sp_keypair_from_seed (member sp_pk ty p) (member sp_sk ty s) seed in
                 (ret, Some (put p t p'), Some (put s t s'))
    end
  | _, _ => (- EINVAL, pk, sk)
  end.
(** [978-1051, 909-976] lc_sphincs_sign_ctx; lc_sphincs_sign with the context of LC_SPHINCS_CTX_ON_STACK *)
Definition api_sign_ctx (sg : option obj) (c : spctx) (m : list Z) (sk : option obj) (rng : option (Z * list Z)) : option (Z * option obj) :=
  match sk, sg with
  | Some s, Some g =>
    match ob_type s with
    | None => Some (- EOPNOTSUPP, sg)
    | Some ty => match sp_sign_ctx (set_of ty) (member sp_sig ty g) c m (member sp_sk ty s) rng with
                 | None => None
                 | Some (ret, g') => Some (ret, Some (put g (Some ty) g'))
                 end
    end
  | _, _ => Some (- EINVAL, sg)
  end.
Definition api_sign (sg : option obj) (m : list Z) (sk : option obj) (rng : option (Z * list Z)) := api_sign_ctx sg sc0 m sk rng.
(** [1053-1106, 1322-1375] lc_sphincs_sign_init, lc_sphincs_verify_init: code and context *)
Definition api_stream_init (c : spctx) (key : option obj) : Z * spctx :=
  match key with
  | None => (- EINVAL, c)
  | Some k => match ob_type k with None => (- EOPNOTSUPP, c) | Some ty => (0, sp_stream_init (set_of ty) c) end
  end.
(** [1108-1126, 1377-1395] lc_sphincs_sign_update, lc_sphincs_verify_update *)
Definition api_stream_update (c : spctx) (m : list Z) : spctx := sp_stream_update c m.
Section Final.
  Variable other_digest : nat -> list (list Z) -> list Z.
  Variable old : list Z.
  (** [1128-1195] lc_sphincs_sign_final *)
  Definition api_sign_final (sg : option obj) (c : spctx) (sk : option obj) (rng : option (Z * list Z)) : option (Z * option obj * spctx) :=
    match sk, sg with
    | Some s, Some g =>
      match ob_type s with
      | None => Some (- EOPNOTSUPP, sg, c)
      | Some ty => match sp_sign_final (set_of ty) other_digest old (member sp_sig ty g) c (member sp_sk ty s) rng with
                   | None => None
                   | Some (ret, g', c') => Some (ret, Some (put g (Some ty) g'), c')
                   end
      end
    | _, _ => Some (- EINVAL, sg, c)
    end.
  (** [1259-1320, 1197-1257] lc_sphincs_verify_ctx, lc_sphincs_verify *)
  Variables ad1 ad2 : Z.
  Definition api_verify_ctx (sg : option obj) (c : spctx) (m : list Z) (pk : option obj) : Z :=
    match pk, sg with
    | Some p, Some g =>
      if negb (stype_eqb (ob_type g) (ob_type p)) then - EINVAL else
      match ob_type p with
      | None => - EOPNOTSUPP
      | Some ty => sp_verify_ctx (set_of ty) ad1 ad2 (member sp_sig ty g) c m (member sp_pk ty p)
      end
    | _, _ => - EINVAL
    end.
  Definition api_verify (sg : option obj) (m : list Z) (pk : option obj) : Z := api_verify_ctx sg sc0 m pk.
  (** [1397-1452] lc_sphincs_verify_final *)
  Definition api_verify_final (sg : option obj) (c : spctx) (pk : option obj) : option (Z * spctx) :=
    match pk, sg with
    | Some p, Some g =>
      if negb (stype_eqb (ob_type g) (ob_type p)) then Some (- EINVAL, c) else
      match ob_type p with
      | None => Some (- EOPNOTSUPP, c)
      | Some ty => sp_verify_final (set_of ty) ad1 ad2 other_digest old (member sp_sig ty g) c (member sp_pk ty p)
      end
    | _, _ => Some (- EINVAL, c)
    end.
End Final.
(** [sphincs_pct.c: 28-45] lc_sphincs_pct: the message is 32 zero bytes, the signature object is zeroed; [seeded]: what
    lc_seeded_rng delivers *)
Definition api_pct (ad1 ad2 : Z) (pk sk : option obj) (seeded : Z * list Z) : option Z :=
  match api_sign (Some (mkObj None (zeros 49856))) (zeros 32) sk (Some seeded) with
  | None => None
  | Some (ret, sg) => if ret <? 0 then Some ret else Some (api_verify ad1 ad2 sg (zeros 32) pk)
  end.
(** lc_sphincs_ctx_hash, lc_sphincs_ctx_userctx, lc_sphincs_ctx_internal [88-110] *)
Definition ctx_hash (c : spctx) (h : option prehash) : spctx := mkSC (sc_hash c) h (sc_userctx c) (sc_internal c).
Definition ctx_userctx (c : spctx) (u : list Z) : spctx := mkSC (sc_hash c) (sc_prehash c) u (sc_internal c).
Definition ctx_internal (c : spctx) : spctx := mkSC (sc_hash c) (sc_prehash c) (sc_userctx c) true.
(** [sphincs_signature_helper.c: 25-42] lc_sphincs_ctx_alloc; [alloc]: what lc_alloc_aligned returns *)
Definition ctx_alloc (alloc : Z) : Z * option spctx := if alloc =? 0 then (0, Some sc0) else (- alloc, None).
