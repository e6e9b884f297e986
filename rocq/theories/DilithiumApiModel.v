(** ml-dsa/src/dilithium_api.c, dilithium_signature_helper.c, dilithium_pct.c: the layer that picks the parameter set,
    allocates contexts and loads keys, and the extent of the accesses to the matrix buffer. *)
From Verif Require Import Bytes Words KeccakModel Sha3Model KeccakBytes UtilModel DilithiumModel.
Require Import List ZArith. Import ListNotations. Open Scope Z_scope.

(** enum lc_dilithium_type [lc_dilithium.h: 54-64]; the builds modelled have the three sets enabled *)
Inductive dtype := T_unknown | T87 | T65 | T44.
Definition dtype_eqb (a b : dtype) : bool :=
  match a, b with T_unknown, T_unknown | T87, T87 | T65, T65 | T44, T44 => true | _, _ => false end.
Definition param_of (t : dtype) : option dparam :=
  match t with T87 => Some ML_DSA_87 | T65 => Some ML_DSA_65 | T44 => Some ML_DSA_44 | T_unknown => None end.
(** LC_DILITHIUM_PUBLICKEYBYTES, LC_DILITHIUM_SECRETKEYBYTES, LC_DILITHIUM_CRYPTO_BYTES [lc_dilithium_size.h.in: 100-143] *)
Definition pk_bytes (P : dparam) : nat := 32 + d_k P * 320.
Definition sk_bytes (P : dparam) : nat := 2 * 32 + 64 + d_l P * eta_bytes P + d_k P * eta_bytes P + d_k P * 416.
Definition sig_bytes (P : dparam) : nat := d_ct P + d_l P * z_bytes P + (d_omega P + d_k P).
(** [dilithium_api.c: 151-233] lc_dilithium_sk_size, lc_dilithium_pk_size, lc_dilithium_sig_size *)
Definition api_size (bytes_of : dparam -> nat) (t : dtype) : nat := match param_of t with Some P => bytes_of P | None => 0 end.

(** struct lc_dilithium_sk, lc_dilithium_pk, lc_dilithium_sig: the type and the bytes of the member of the union it selects *)
Record tagged := mkT { t_type : dtype; t_data : list Z }.
(** [dilithium_api.c: 235-335] lc_dilithium_sk_load, pk_load, sig_load; None: a NULL source *)
Definition api_load (bytes_of : dparam -> nat) (dst : tagged) (src : option (list Z)) : Z * tagged :=
  match src with
  | None => (- EINVAL, dst)
  | Some s =>
    if (length s =? 0)%nat then (- EINVAL, dst)
    else if (length s =? api_size bytes_of T87)%nat then (0, mkT T87 s)
    else if (length s =? api_size bytes_of T65)%nat then (0, mkT T65 s)
    else if (length s =? api_size bytes_of T44)%nat then (0, mkT T44 s)
    else (- EINVAL, dst)
  end.
(** [dilithium_api.c: 337-437] lc_dilithium_sk_ptr, pk_ptr, sig_ptr *)
Definition api_ptr (bytes_of : dparam -> nat) (x : tagged) : Z * option (list Z) :=
  match param_of (t_type x) with Some P => (0, Some (firstn (bytes_of P) (t_data x))) | None => (- EINVAL, None) end.
Definition api_sk_load := api_load sk_bytes.
Definition api_pk_load := api_load pk_bytes.
Definition api_sig_load := api_load sig_bytes.
Definition api_sk_ptr := api_ptr sk_bytes.
Definition api_pk_ptr := api_ptr pk_bytes.
Definition api_sig_ptr := api_ptr sig_bytes.

(** [dilithium_api.c: 480-520] lc_dilithium_keypair_from_seed: code, public and secret key. On an unsupported type nothing
    is written; a wrong seed length leaves the types set. *)
Definition api_keypair_from_seed (fuel : nat) (pk sk : tagged) (seed : list Z) (t : dtype) : option (Z * tagged * tagged) :=
  match param_of t with
  | None => Some (- EOPNOTSUPP, pk, sk)
  | Some P => match d_keypair_from_seed fuel P seed with
              | None => None
              | Some (r, p, s) => if r =? 0 then Some (0, mkT t p, mkT t s) else Some (r, mkT t (t_data pk), mkT t (t_data sk))
              end
  end.
(** [dilithium_api.c: 522-559] lc_dilithium_sign *)
Definition api_sign (rounds fuel : nat) (sg : tagged) (m : list Z) (sk : tagged) (rng : option (Z * list Z)) : option (Z * tagged) :=
  match param_of (t_type sk) with
  | None => Some (- EOPNOTSUPP, sg)
  | Some P => match d_sign rounds fuel P m (t_data sk) rng with
              | None => None
              | Some (r, s) => Some (r, if r =? 0 then mkT (t_type sk) s else mkT (t_type sk) (t_data sg))
              end
  end.
(** [dilithium_api.c: 686-719] lc_dilithium_verify *)
Definition api_verify (ad1 ad2 : Z) (fuel : nat) (sg : tagged) (m : list Z) (pk : tagged) : option Z :=
  if negb (dtype_eqb (t_type sg) (t_type pk)) then Some (- EINVAL)
  else match param_of (t_type pk) with
       | None => Some (- EOPNOTSUPP)
       | Some P => d_verify ad1 ad2 fuel P (t_data sg) m (t_data pk)
       end.
(** [dilithium_pct.c: 28-46] lc_dilithium_pct. [ws_m], [ws_sg]: what LC_DECLARE_MEM left in the workspace (small_stack_support.h: zeroes
    on the stack; any values here); [rng]: what lc_seeded_rng returns and delivers *)
Definition api_pct (ad1 ad2 : Z) (rounds fuel : nat) (ws_m : list Z) (ws_sg : tagged) (pk sk : tagged) (rng : Z * list Z) : option Z :=
  match api_sign rounds fuel ws_sg ws_m sk (Some rng) with
  | None => None
  | Some (r, sg) => if r <? 0 then Some r else api_verify ad1 ad2 fuel sg ws_m pk
  end.

(** ** contexts *)
(** [dilithium_signature_helper.c: 25-44] lc_dilithium_44/65/87_ctx_alloc. [raw]: the fields as the allocator hands the memory
    out. LC_DILITHIUM_SET_CTX [lc_dilithium_size.h.in: 278-286] sets everything but ahat_expanded. *)
Definition d_ctx_alloc (raw : dctx) : dctx :=
  mkDctx (keccak_init alg_shake256) None [] None 0 false false (x_expanded raw).
(** [dilithium_signature_helper.c: 46-93] lc_dilithium_44/65/87_ctx_alloc_ahat: ahat, ahat_size and the hash context are set,
    nothing else. [buf]: what the matrix buffer holds *)
Definition d_ctx_alloc_ahat (P : dparam) (raw : dctx) (buf : list (list (list Z))) : dctx :=
  mkDctx (keccak_init alg_shake256) (x_prehash raw) (x_userctx raw) (Some buf) (ahat_bytes P) (x_composite raw) (x_internal raw) (x_expanded raw).
(** all fields zero: what lc_alloc_aligned of memory_support_linux.c and posix_support.c hands out (memory_support.c with
    posix_memalign does not clear) *)
Definition raw_zero : dctx := mkDctx (keccak_init alg_shake256) None [] None 0 false false false.
(** [dilithium_api.c: 33-48] lc_dilithium_ctx_alloc *)
Definition api_ctx_alloc (raw : dctx) : dctx := d_ctx_alloc raw.
(** [dilithium_api.c: 50-65] lc_dilithium_ctx_alloc_ahat calls lc_dilithium_87_ctx_alloc *)
Definition api_ctx_alloc_ahat (raw : dctx) : dctx := d_ctx_alloc raw.
(** [dilithium_api.c: 95-125] lc_dilithium_ctx_internal, _hash, _userctx, _drop_ahat *)
Definition api_ctx_internal (c : dctx) : dctx :=
  mkDctx (x_hash c) (x_prehash c) (x_userctx c) (x_ahat c) (x_ahat_size c) (x_composite c) true (x_expanded c).
Definition api_ctx_hash (c : dctx) (h : option prehash) : dctx :=
  mkDctx (x_hash c) h (x_userctx c) (x_ahat c) (x_ahat_size c) (x_composite c) (x_internal c) (x_expanded c).
Definition api_ctx_userctx (c : dctx) (u : list Z) : dctx :=
  mkDctx (x_hash c) (x_prehash c) u (x_ahat c) (x_ahat_size c) (x_composite c) (x_internal c) (x_expanded c).
Definition api_ctx_drop_ahat (c : dctx) : dctx :=
  mkDctx (x_hash c) (x_prehash c) (x_userctx c) (x_ahat c) (x_ahat_size c) (x_composite c) (x_internal c) false.

(** ** extent of the accesses to the matrix buffer: lc_dilithium_sign_internal_ahat [dilithium_signature_impl.h: 258, 353] and
    lc_dilithium_verify_internal_ahat [692, 708] read mat[0] .. mat[K-1], K * sizeof(polyvecl) bytes from ctx->ahat; the size
    of the buffer is compared in sk_expand and pk_expand only, which are skipped when ahat_expanded is set *)
Inductive access (A : Type) := Within (a : option A) | OutOfBounds.
Arguments Within {A}. Arguments OutOfBounds {A}.
Definition reads_beyond (P : dparam) (c : dctx) : bool :=
  match x_ahat c with Some _ => x_expanded c && (x_ahat_size c <? ahat_bytes P) | None => false end.
Definition d_sign_ctx_mem (rounds fuel : nat) (P : dparam) (c : dctx) (m sk : list Z) (rng : option (Z * list Z)) : access (Z * list Z * dctx) :=
  let '(r, c1) := d_start P (d_sk_tr sk) m c in
  if r <? 0 then Within (Some (r, [], c1))
  else if reads_beyond P c1 then OutOfBounds else Within (d_sign_internal rounds fuel P sk c1 rng).
Definition d_verify_ctx_mem (ad1 ad2 : Z) (fuel : nat) (P : dparam) (sg : list Z) (c : dctx) (m pk : list Z) : access (Z * bool * dctx) :=
  let '(r, c1) := d_start P (shake256_of [pk] 64) m c in
  if r <? 0 then Within (Some (r, true, c1))
  else if reads_beyond P c1 then OutOfBounds else Within (d_verify_internal ad1 ad2 fuel P sg pk c1).
