(** * Memory allocation (internal/src/memory_support_linux.c, the file built on
    Linux) and its callers

    What the system calls answer is an argument.  The memory is reduced to which
    heap blocks and mappings are live and where a struct lc_mem_def was written;
    reading such a header where none was written, freeing what is not the start
    of a live block, writing outside the block and using a pointer that was
    never set are [Bad]. *)
From Coq Require Import ZArith List Bool String.
Import ListNotations.
Open Scope Z_scope.
Open Scope bool_scope.

Inductive res (A : Type) : Type := Val (a : A) | Bad.
Arguments Val {A} _.
Arguments Bad {A}.

Record mem : Type := Mem {
  live : list (Z * Z);             (* heap blocks: start, length *)
  maps : list (Z * Z);             (* mappings *)
  hdr : list (Z * (Z * Z));        (* address of a struct lc_mem_def, fd, size *)
  have_memfd : bool                (* lc_alloc_have_memfd_secret [48-52] *)
}.
(** answers of posix_memalign, mlock, memfd_secret, ftruncate, mmap; the error
    numbers are positive, as POSIX has them *)
Record sys : Type := Sys {
  memalign : Z + Z; mlock : option Z; memfd : Z + Z; ftruncate : option Z; mmap : Z + Z
}.

Definition W64 : Z := 18446744073709551616.
Definition OFFSET : Z := 32.       (* LC_MEM_DEF_ALIGNED_OFFSET [32] *)
Definition HDR : Z := 16.          (* sizeof(struct lc_mem_def) *)
Definition EPERM : Z := 1. Definition EAGAIN : Z := 11. Definition ENOSYS : Z := 38.

Fixpoint find_hdr (l : list (Z * (Z * Z))) (a : Z) : option (Z * Z) :=
  match l with [] => None | (b, h) :: l => if b =? a then Some h else find_hdr l a end.
Definition drop {A} (l : list (Z * A)) (a : Z) : list (Z * A) := filter (fun b => negb (fst b =? a)) l.
Definition is_start (l : list (Z * Z)) (a : Z) : bool := existsb (fun b => fst b =? a) l.

(** lc_free_internal with secure = 0 [161-195]; munmap and free *)
Definition lc_free (st : mem) (ptr : Z) : res mem :=
  if ptr =? 0 then Val st
  else
    let m := ptr - OFFSET in
    match find_hdr (hdr st) m with
    | None => Bad
    | Some (fd, size) =>
        if have_memfd st && (0 <=? fd) then Val (Mem (live st) (drop (maps st) m) (drop (hdr st) m) (have_memfd st))
        else if is_start (live st) m then Val (Mem (drop (live st) m) (maps st) (drop (hdr st) m) (have_memfd st))
        else Bad
    end.

(** alloc_aligned_secure_internal [54-87]: return value and what is stored to
    *memptr, if anything *)
Definition alloc_internal (st : mem) (s : sys) (size : Z) (secure : bool) : res (mem * Z * option Z) :=
  let full := (OFFSET + size) mod W64 in
  match memalign s with
  | inl e => Val (st, e, None)
  | inr base =>
      let st := Mem ((base, full) :: live st) (maps st) (hdr st) (have_memfd st) in
      match (if secure then mlock s else None) with
      | Some e =>
          if negb (e =? EPERM) && negb (e =? EAGAIN) then
            match lc_free st base with Bad => Bad | Val st => Val (st, - e, None) end
          else if (HDR <=? full) && (OFFSET + size <=? full) then
            Val (Mem (live st) (maps st) ((base, (-1, full)) :: hdr st) (have_memfd st), 0, Some (base + OFFSET))
          else Bad
      | None =>
          if (HDR <=? full) && (OFFSET + size <=? full) then
            Val (Mem (live st) (maps st) ((base, (-1, full)) :: hdr st) (have_memfd st), 0, Some (base + OFFSET))
          else Bad
      end
  end.

(** lc_alloc_aligned [89-93], lc_alloc_high_aligned [155-159] *)
Definition alloc_aligned (st : mem) (s : sys) (size : Z) := alloc_internal st s size false.

(** lc_alloc_aligned_secure [96-143], with SYS_memfd_secret known at build time;
    without it [147-151] is the case where the flag starts as 0.  (The munmap of MAP_FAILED at err fails
    without effect; closing the file descriptor is not modelled.) *)
Definition alloc_secure (st : mem) (s : sys) (size : Z) : res (mem * Z * option Z) :=
  let full := (OFFSET + size) mod W64 in
  if negb (have_memfd st) then alloc_internal st s size true
  else
    match memfd s with
    | inl e =>
        if e =? ENOSYS then alloc_internal (Mem (live st) (maps st) (hdr st) false) s size true
        else Val (st, - e, None)
    | inr fd =>
        match ftruncate s with
        | Some e => Val (st, - e, None)
        | None =>
            match mmap s with
            | inl e => Val (st, - e, None)
            | inr base =>
                if HDR <=? full then
                  Val (Mem (live st) ((base, full) :: maps st) ((base, (fd, full)) :: hdr st) true, 0, Some (base + OFFSET))
                else Bad
            end
        end
    end.

(** ** The context allocators.  All have the same shape: an optional null check
    of the result pointer, the allocation, [if (ret) return -ret;], and the
    store of the new context. *)
Record allocator : Type := Al { name : string; null_check : bool; secure : bool }.
Definition allocators : list allocator := [
  Al "lc_hash_alloc" true false;             (* hash/src/hash.c 105-124 *)
  Al "lc_cshake_ctx_alloc" true false;       (* hash/src/cshake.c 141-169 *)
  Al "lc_hmac_alloc" false false;            (* hmac/src/hmac.c 116-131 *)
  Al "lc_kmac_alloc" true false;             (* kmac/src/kmac.c 224-252 *)
  Al "lc_sym_alloc" true false;              (* sym/src/sym.c 70-91 *)
  Al "lc_hkdf_alloc" true false;             (* kdf/src/hkdf.c 173-194 *)
  Al "lc_cc_alloc" false false;              (* aead/src/cshake_crypt.c 619-635 *)
  Al "lc_al_alloc" false false;              (* aead/src/ascon_lightweight.c 113-133 *)
  Al "lc_ak_alloc" false false;              (* aead/src/ascon_keccak.c 175-202 *)
  Al "lc_hc_alloc" false false;              (* aead/src/hash_crypt.c 304-320 *)
  Al "lc_sh_alloc" false false;              (* aead/src/symhmac.c 280-296 *)
  Al "lc_kh_alloc" false false;              (* aead/src/symkmac.c 263-279 *)
  Al "lc_kc_alloc" true false;               (* aead/src/kmac_crypt.c 564-583 *)
  Al "lc_dilithium_ctx_alloc" true false;    (* ml-dsa/src/dilithium_signature_helper.c 25-44 *)
  Al "lc_dilithium_ed25519_ctx_alloc" true false; (* ml-dsa/src/dilithium_ed25519_signature.c 405-424 *)
  Al "lc_sphincs_ctx_alloc" true false;      (* slh-dsa/src/sphincs_signature_helper.c 25-43 *)
  Al "lc_kmac_rng_alloc" true true;          (* kmac/src/kmac.c 364-386 *)
  Al "lc_hkdf_rng_alloc" true true;          (* kdf/src/hkdf.c 301-323 *)
  Al "lc_kdf_ctr_rng_alloc" true true;       (* kdf/src/kdf_ctr.c 212-234 *)
  Al "lc_cc20_drng_alloc" true true;         (* drng/src/chacha20_drng.c 216-238 *)
  Al "lc_xdrbg256_drng_alloc" true true;     (* drng/src/xdrbg256.c 74-94 *)
  Al "lc_xdrbg128_drng_alloc" true true;     (* drng/src/xdrbg128.c 74-94 *)
  Al "lc_drbg_hmac_alloc" true true;         (* drng/src/hmac_drbg.c 271-292 *)
  Al "lc_drbg_hash_alloc" true true;         (* drng/src/hash_drbg.c 419-439 *)
  Al "lc_kmac256_drng_alloc" true true;         (* drng/src/kmac_drng.c 479-499 *)
  Al "lc_cshake256_drng_alloc" true true     (* drng/src/cshake_drng.c 544-563 *)
].
(** [given]: whether the caller passed a place for the result *)
Definition ctx_alloc (a : allocator) (given : bool) (st : mem) (s : sys) (size : Z) : res (mem * Z * option Z) :=
  if null_check a && negb given then Val (st, -22, None)
  else
    match (if secure a then alloc_secure st s size else alloc_aligned st s size) with
    | Bad => Bad
    | Val (st, ret, p) =>
        if negb (ret =? 0) then Val (st, - ret, None)
        else if given then Val (st, 0, p)
        else Bad
    end.

(** ** CKINT users: asn1_ber_encoder [asn1/src/asn1_encoder.c 38-55].  [run] is
    asn1_ber_encoder_ws on the work space; [ws] is uninitialised until set. *)
Definition ber_encoder (run : Z -> Z) (st : mem) (s : sys) (size : Z) : res (mem * Z) :=
  match alloc_aligned st s size with
  | Bad => Bad
  | Val (st, ret, ws) =>
      match ws with
      | None => Bad                 (* ret < 0: lc_free(ws), else ws->max_level = ... *)
      | Some p =>
          let ret := if ret <? 0 then ret else run p in
          match lc_free st p with Bad => Bad | Val st => Val (st, ret) end
      end
  end.
(** lc_pkcs7_set_signer [asn1/src/pkcs7_generator_set_data.c 88-108] up to the
    first use of [sinfo], which starts as NULL; the answer is the pointer used *)
Definition set_signer_start (st : mem) (s : sys) (size : Z) : res (mem * Z * option Z) :=
  match alloc_aligned st s size with
  | Bad => Bad
  | Val (st, ret, p) =>
      if ret <? 0 then Val (st, ret, None)
      else match p with
           | None => Bad            (* sinfo->signer = ... through NULL *)
           | Some p => Val (st, ret, Some p)
           end
  end.
