(** SLH-DSA, the portable C path: slh-dsa/src of /repo, for the six SHAKE parameter sets.
    A byte array is a list of bytes, an address [uint32_t addr[8]] the list of its 32 bytes in memory, an
    array of n-byte nodes (authentication path, treehash stack, WOTS signature, FORS roots) the list of
    its nodes. Workspaces declared with LC_DECLARE_MEM start as zeros
    [internal/api/small_stack_support.h: 35-38]; the signature and the root memory of key generation start
    with arbitrary contents. The poison/unpoison annotations, the self-test hooks and the function-pointer
    selection of the accelerated variants [sphincs_sign.c: 40-107] are left out: only the C functions
    are modelled. *)
From Verif Require Import Bytes Words KeccakModel Sha3Model Sha2Model KeccakBytes UtilModel KyberModel DilithiumModel.

(** [slh-dsa/api/lc_sphincs_size.h.in: 55-517] LC_SPX_N, LC_SPX_FULL_HEIGHT, LC_SPX_D, LC_SPX_FORS_HEIGHT,
    LC_SPX_FORS_TREES, LC_SPHINCS_NIST_CATEGORY *)
Record sparam := mkSP { sp_n : nat; sp_h : nat; sp_d : nat; sp_a : nat; sp_k : nat; sp_cat : Z }.
Definition SHAKE_128s := mkSP 16 63 7 12 14 1.
Definition SHAKE_128f := mkSP 16 66 22 6 33 1.
Definition SHAKE_192s := mkSP 24 63 7 14 17 3.
Definition SHAKE_192f := mkSP 24 66 22 8 33 3.
Definition SHAKE_256s := mkSP 32 64 8 14 22 5.
Definition SHAKE_256f := mkSP 32 68 17 9 35 5.

(** [lc_sphincs_size.h.in: 55-517, the derived constants] *)
Definition sp_len1 (P : sparam) : nat := (8 * sp_n P / 4)%nat.
Definition sp_len2 (P : sparam) : nat := if (sp_n P <=? 8)%nat then 2 else if (sp_n P <=? 136)%nat then 3 else 4.
Definition sp_len (P : sparam) : nat := (sp_len1 P + sp_len2 P)%nat.
Definition sp_wots_bytes (P : sparam) : nat := (sp_len P * sp_n P)%nat.
Definition sp_th (P : sparam) : nat := (sp_h P / sp_d P)%nat.
Definition sp_fors_msg (P : sparam) : nat := ((sp_a P * sp_k P + 7) / 8)%nat.
Definition sp_fors_bytes (P : sparam) : nat := ((sp_a P + 1) * sp_k P * sp_n P)%nat.
Definition sp_layer_bytes (P : sparam) : nat := (sp_wots_bytes P + sp_th P * sp_n P)%nat.
(** struct lc_sphincs_sig [521-545]: r, sigfors, sight *)
Definition sp_sight (P : sparam) : nat := (sp_d P * sp_wots_bytes P + sp_h P * sp_n P)%nat.
Definition sp_sig (P : sparam) : nat := (sp_n P + sp_fors_bytes P + sp_sight P)%nat.
Definition sp_pk (P : sparam) : nat := (2 * sp_n P)%nat.
Definition sp_sk (P : sparam) : nat := (2 * sp_n P + sp_pk P)%nat.
Definition sp_seed (P : sparam) : nat := (3 * sp_n P)%nat.

(** ** Integers and byte strings [sphincs_utils.c] *)
(** [35-44] the low byte goes last *)
Fixpoint ull_le (n : nat) (x : Z) : list Z :=
  match n with O => [] | S n' => Z.land x 0xff :: ull_le n' (Z.shiftr x 8) end.
Definition ull_to_bytes (n : nat) (x : Z) : list Z := rev (ull_le n x).
(** [49-58] *)
Fixpoint bytes_to_ull (i : list Z) : Z :=
  match i with [] => 0 | b :: r => Z.lor (Z.shiftl b (8 * Z.of_nat (length r))) (bytes_to_ull r) end.

(** ** Addresses [sphincs_address.h: 51-148, sphincs_shake_offsets.h: 38-53] *)
Definition adr0 : list Z := zeros 32.
Definition set_layer_addr (a : list Z) (x : Z) : list Z := store_at a 3 [u8 x].
Definition set_tree_addr (a : list Z) (x : Z) : list Z := store_at a 8 (ull_to_bytes 8 x).
Definition set_type (a : list Z) (x : Z) : list Z := store_at a 19 [u8 x].
Definition copy_subtree_addr (out inp : list Z) : list Z := store_at out 0 (firstn 16 inp).
Definition set_keypair_addr (a : list Z) (x : Z) : list Z := store_at a 20 (be_bytes 4 x).
Definition set_chain_addr (a : list Z) (x : Z) : list Z := store_at a 27 [u8 x].
Definition set_hash_addr (a : list Z) (x : Z) : list Z := store_at a 31 [u8 x].
Definition copy_keypair_addr (out inp : list Z) : list Z :=
  store_at (store_at out 0 (firstn 16 inp)) 20 (slice inp 20 4).
Definition set_tree_height (a : list Z) (x : Z) : list Z := store_at a 27 [u8 x].
Definition set_tree_index (a : list Z) (x : Z) : list Z := store_at a 28 (be_bytes 4 x).
(** [sphincs_address.h / sphincs_context: LC_SPX_ADDR_TYPE_*] *)
Definition AT_WOTS := 0. Definition AT_WOTSPK := 1. Definition AT_HASHTREE := 2. Definition AT_FORSTREE := 3.
Definition AT_FORSPK := 4. Definition AT_WOTSPRF := 5. Definition AT_FORSPRF := 6.

(** replacing node [i] of an array of nodes *)
Fixpoint nupd (l : list (list Z)) (i : nat) (v : list Z) : list (list Z) :=
  match l, i with
  | [], _ => []
  | _ :: r, O => v :: r
  | x :: r, S i' => x :: nupd r i' v
  end.

Section Sphincs.
  Variable P : sparam.
  Local Notation n := (sp_n P).
  Section Seeds.
  (** spx_ctx *)
  Variables pub sk : list Z.

  (** [sphincs_thash_shake_simple.c: 36-51] *)
  Definition thash (addr inp : list Z) : list Z := shake256_of [pub; addr; inp] n.
  (** [sphincs_hash.h: 40-53] *)
  Definition prf_addr (addr : list Z) : list Z := shake256_of [pub; addr; sk] n.

  (** ** WOTS+ *)
  (** [sphincs_wots.c: 48-61] the loop body from [i] on, at most [steps] more times; also returns addr *)
  Fixpoint gen_chain (steps : nat) (i : Z) (out addr : list Z) : list Z * list Z :=
    match steps with
    | O => (out, addr)
    | S s => if i <? 16 then let addr := set_hash_addr addr i in gen_chain s (i + 1) (thash addr out) addr
             else (out, addr)
    end.
  (** [sphincs_wots.c: 68-87] [total] starts uninitialised but is assigned in the first round *)
  Fixpoint base_w (out_len : nat) (input : list Z) (total bits : Z) : list Z :=
    match out_len with
    | O => []
    | S o =>
      let '(input, total, bits) := if bits =? 0 then (tl input, hd 0 input, 8) else (input, total, bits) in
      let bits := bits - 4 in
      Z.land (Z.shiftr total bits) 15 :: base_w o input total bits
    end.
  (** [sphincs_wots.c: 90-107] *)
  Definition wots_checksum (msg : list Z) : list Z :=
    let csum := fold_left (fun c x => u32 (c + u32 (15 - x))) msg 0 in
    let csum := u32 (Z.shiftl csum (Z.of_nat ((8 - (sp_len2 P * 4) mod 8) mod 8))) in
    base_w (sp_len2 P) (ull_to_bytes ((sp_len2 P * 4 + 7) / 8) csum) 0 0.
  (** [sphincs_wots.c: 110-114] *)
  Definition chain_lengths (msg : list Z) : list Z :=
    let l := base_w (sp_len1 P) msg 0 0 in l ++ wots_checksum l.
  (** [sphincs_wots.c: 121-140] *)
  Fixpoint wots_pk_loop (i : Z) (lengths : list Z) (sig addr : list Z) : list (list Z) * list Z :=
    match lengths with
    | [] => ([], addr)
    | l :: r =>
      let addr := set_chain_addr addr i in
      let '(o, addr) := gen_chain (Z.to_nat (15 - l)) l (firstn n sig) addr in
      let '(os, addr) := wots_pk_loop (i + 1) r (skipn n sig) addr in
      (o :: os, addr)
    end.
  Definition wots_pk_from_sig (sig msg addr : list Z) : list Z * list Z :=
    let '(os, addr) := wots_pk_loop 0 (chain_lengths msg) sig addr in (concat os, addr).

  (** [sphincs_wotsx1.c: 84-101] the inner loop from [k] on, [todo] = 15 - k *)
  Fixpoint wots_leaf_chain (todo : nat) (k wots_k : Z) (buffer sig_i leaf_addr : list Z) : list Z * list Z * list Z :=
    let sig_i := cmov sig_i buffer (if k =? wots_k then 1 else 0) in
    match todo with
    | O => (buffer, sig_i, leaf_addr)
    | S t => let leaf_addr := set_hash_addr leaf_addr k in
             wots_leaf_chain t (k + 1) wots_k (thash leaf_addr buffer) sig_i leaf_addr
    end.
  (** [sphincs_wotsx1.c: 68-102] *)
  Fixpoint wots_leaf_loop (i : Z) (mask : bool) (steps : list Z) (sigs : list (list Z)) (leaf_addr : list Z)
      : list (list Z) * list (list Z) * list Z :=
    match steps, sigs with
    | s :: steps', g :: sigs' =>
      let wots_k := if mask then 0xffffffff else s in
      let leaf_addr := set_type (set_hash_addr (set_chain_addr leaf_addr i) 0) AT_WOTSPRF in
      let buffer := prf_addr leaf_addr in
      let leaf_addr := set_type leaf_addr AT_WOTS in
      let '(b, g, leaf_addr) := wots_leaf_chain 15 0 wots_k buffer g leaf_addr in
      let '(bs, gs, leaf_addr) := wots_leaf_loop (i + 1) mask steps' sigs' leaf_addr in
      (b :: bs, g :: gs, leaf_addr)
    | _, _ => ([], [], leaf_addr)
    end.
  (** struct leaf_info_x1, without the constant steps and signing leaf *)
  Record leafinfo := mkLI { li_sig : list (list Z); li_leaf : list Z; li_pk : list Z }.
  (** [sphincs_wotsx1.c: 48-106] *)
  Definition wots_gen_leafx1 (steps : list Z) (sign_leaf : Z) (leaf_idx : Z) (i : leafinfo) : list Z * leafinfo :=
    let mask := negb (leaf_idx =? sign_leaf) in
    let leaf_addr := set_keypair_addr (li_leaf i) leaf_idx in
    let pk_addr := set_keypair_addr (li_pk i) leaf_idx in
    let '(bs, gs, leaf_addr) := wots_leaf_loop 0 mask steps (li_sig i) leaf_addr in
    (thash pk_addr (concat bs), mkLI gs leaf_addr pk_addr).

  (** ** treehash [sphincs_utilsx1.c: 48-127] *)
  Section Treehash.
    Context {I : Type}.
    Variable gen_leaf : Z -> I -> list Z * I.
    Variables leaf_idx idx_offset : Z.
    Variable tree_height : nat.
    Definition max_idx : Z := 2 ^ Z.of_nat tree_height - 1.
    (** [83-119] from height [h] on, [todo] = tree_height - h; the root when the top is reached. Leaving
        the loop saves the node on the stack [121-124] *)
    Fixpoint th_up (todo h : nat) (lt : bool) (iidx ileaf ioff : Z) (cur : list Z) (auth stack : list (list Z)) (addr : list Z)
        : option (list Z) * list (list Z) * list (list Z) * list Z :=
      match todo with
      | O => (Some cur, auth, stack, addr)
      | S t =>
        let auth := nupd auth h (cmov (nth h auth []) cur (if Z.lxor iidx ileaf =? 1 then 1 else 0)) in
        if (Z.land iidx 1 =? 0) && lt then (None, auth, nupd stack h cur, addr)
        else
          let ioff := Z.shiftr ioff 1 in
          let addr := set_tree_index (set_tree_height addr (Z.of_nat h + 1)) (iidx / 2 + ioff) in
          th_up t (S h) lt (Z.shiftr iidx 1) (Z.shiftr ileaf 1) ioff (thash addr (nth h stack [] ++ cur)) auth stack addr
      end.
    (** [67-126] [fuel]: rounds left; the loop is left by the return at the root *)
    Fixpoint th_loop (fuel : nat) (idx : Z) (info : I) (auth stack : list (list Z)) (addr : list Z)
        : option (list Z * list (list Z) * list Z * I) :=
      match fuel with
      | O => None
      | S f =>
        let '(leaf, info) := gen_leaf (idx + idx_offset) info in
        match th_up tree_height 0 (idx <? max_idx) idx leaf_idx idx_offset leaf auth stack addr with
        | (Some root, auth, stack, addr) => Some (root, auth, addr, info)
        | (None, auth, stack, addr) => th_loop f (idx + 1) info auth stack addr
        end
      end.
    (** root, authentication path, tree address and leaf information afterwards *)
    Definition treehashx1 (auth stack : list (list Z)) (addr : list Z) (info : I)
        : option (list Z * list (list Z) * list Z * I) :=
      th_loop (Z.to_nat (2 ^ Z.of_nat tree_height)) 0 info auth stack addr.
  End Treehash.

  (** [sphincs_utils.c: 82-99] the loop, [todo] = tree_height - 1 - i; then the last hash [101-106].
      The buffer is the pair of its two nodes. *)
  Fixpoint root_loop (todo : nat) (i : Z) (leaf_idx idx_offset : Z) (lo hi : list Z) (auth addr : list Z) : list Z * list Z :=
    let leaf_idx := Z.shiftr leaf_idx 1 in
    let idx_offset := Z.shiftr idx_offset 1 in
    let addr := set_tree_index (set_tree_height addr (i + 1)) (leaf_idx + idx_offset) in
    match todo with
    | O => (thash addr (lo ++ hi), addr)
    | S t => let x := thash addr (lo ++ hi) in
             if Z.land leaf_idx 1 =? 1
             then root_loop t (i + 1) leaf_idx idx_offset (firstn n auth) x (skipn n auth) addr
             else root_loop t (i + 1) leaf_idx idx_offset x (firstn n auth) (skipn n auth) addr
    end.
  (** [sphincs_utils.c: 64-107] *)
  Definition compute_root (leaf : list Z) (leaf_idx idx_offset : Z) (auth : list Z) (tree_height : nat) (addr : list Z)
      : list Z * list Z :=
    let '(lo, hi) := if Z.land leaf_idx 1 =? 1 then (firstn n auth, leaf) else (leaf, firstn n auth) in
    root_loop (tree_height - 1) 0 leaf_idx idx_offset lo hi (skipn n auth) addr.

  (** ** [sphincs_merkle.c] *)
  (** [42-71] [mem]: the signature memory of this layer; [root]: in, the message; out, the root *)
  Definition merkle_sign (mem root wots_addr tree_addr : list Z) (idx_leaf : Z) : option (list Z * list Z * list Z) :=
    let steps := chain_lengths root in
    let tree_addr := set_type tree_addr AT_HASHTREE in
    let pk_addr := copy_subtree_addr (set_type adr0 AT_WOTSPK) wots_addr in
    let leaf_addr := copy_subtree_addr adr0 wots_addr in
    let sigs := cut (sp_len P) n (firstn (sp_wots_bytes P) mem) in
    let auth := cut (sp_th P) n (skipn (sp_wots_bytes P) mem) in
    match treehashx1 (wots_gen_leafx1 steps idx_leaf) idx_leaf 0 (sp_th P) auth (repeat (zeros n) (sp_th P)) tree_addr
            (mkLI sigs leaf_addr pk_addr) with
    | None => None
    | Some (root, auth, tree_addr, info) => Some (concat (li_sig info) ++ concat auth, root, tree_addr)
    end.
  (** [74-98] [root]: the memory of the root before *)
  Definition merkle_gen_root (root : list Z) : option (list Z) :=
    let a := set_layer_addr adr0 (Z.of_nat (sp_d P) - 1) in
    match merkle_sign (zeros (sp_layer_bytes P)) root a a 0xffffffff with
    | None => None
    | Some (_, root, _) => Some root
    end.

  (** ** FORS [sphincs_fors.c] *)
  (** [51-64] *)
  Definition fors_gen_leafx1 (addr_idx : Z) (leaf_addr : list Z) : list Z * list Z :=
    let a := set_type (set_tree_index leaf_addr addr_idx) AT_FORSPRF in
    let s := prf_addr a in
    let a := set_type a AT_FORSTREE in
    (thash a s, a).
  (** [71-85] *)
  Fixpoint index_bits (j : nat) (todo : nat) (m : list Z) (offset : Z) (acc : Z) : Z :=
    match todo with
    | O => acc
    | S t =>
      let b := Z.land (Z.shiftr (nth (Z.to_nat (Z.shiftr offset 3)) m 0) (Z.land (Z.lnot offset) 7)) 1 in
      index_bits (S j) t m (offset + 1) (Z.lxor acc (Z.shiftl b (Z.of_nat (sp_a P - 1 - j))))
    end.
  Definition message_to_indices (m : list Z) : list Z :=
    map (fun i => index_bits 0 (sp_a P) m (Z.of_nat (i * sp_a P)) 0) (seq 0 (sp_k P)).
  (** [118-138] tree by tree; [mem]: the signature memory still to be written *)
  Fixpoint fors_sign_loop (i : Z) (indices : list Z) (mem tree_addr leaf_addr : list Z) : option (list Z * list (list Z)) :=
    match indices with
    | [] => Some ([], [])
    | x :: r =>
      let idx_offset := i * Z.shiftl 1 (Z.of_nat (sp_a P)) in
      let ta := set_type (set_tree_index (set_tree_height tree_addr 0) (u32 (x + idx_offset))) AT_FORSPRF in
      let s := prf_addr ta in
      let ta := set_type ta AT_FORSTREE in
      let auth := cut (sp_a P) n (firstn (sp_a P * n) (skipn n mem)) in
      match treehashx1 fors_gen_leafx1 x idx_offset (sp_a P) auth (repeat (zeros n) (sp_a P)) ta leaf_addr with
      | None => None
      | Some (root, auth, ta, la) =>
        match fors_sign_loop (i + 1) r (skipn ((sp_a P + 1) * n) mem) ta la with
        | None => None
        | Some (sg, roots) => Some (s ++ concat auth ++ sg, root :: roots)
        end
      end
    end.
  (** [91-145] signature and public key *)
  Definition fors_sign (mem m fors_addr : list Z) : option (list Z * list Z) :=
    let a := copy_keypair_addr adr0 fors_addr in
    match fors_sign_loop 0 (message_to_indices m) mem a a with
    | None => None
    | Some (sg, roots) => Some (sg, thash (set_type a AT_FORSPK) (concat roots))
    end.
  (** [154-201] *)
  Fixpoint fors_pk_loop (i : Z) (indices : list Z) (sig tree_addr : list Z) : list (list Z) :=
    match indices with
    | [] => []
    | x :: r =>
      let idx_offset := i * Z.shiftl 1 (Z.of_nat (sp_a P)) in
      let ta := set_tree_index (set_tree_height tree_addr 0) (u32 (x + idx_offset)) in
      let leaf := thash ta (firstn n sig) in
      let '(root, ta) := compute_root leaf x idx_offset (skipn n sig) (sp_a P) ta in
      root :: fors_pk_loop (i + 1) r (skipn ((sp_a P + 1) * n) sig) ta
    end.
  Definition fors_pk_from_sig (sig m fors_addr : list Z) : list Z :=
    let a := copy_keypair_addr adr0 fors_addr in
    thash (set_type a AT_FORSPK) (concat (fors_pk_loop 0 (message_to_indices m) sig (set_type a AT_FORSTREE))).
  End Seeds.

  (** ** The context [lc_sphincs_size.h.in: 548-612]. The hash context is represented by the algorithm it
      was set to and the pieces fed since lc_hash_init; [None]: not initialised, or zeroed by lc_hash_zero
      and not initialised again *)
  Record spctx := mkSC { sc_hash : option (prehash * list (list Z)); sc_prehash : option prehash; sc_userctx : list Z;
                         sc_internal : bool }.
  (** LC_SPHINCS_SET_CTX [606-611] *)
  Definition sc0 : spctx := mkSC None None [] false.

  (** ** [sphincs_hash_shake.c] *)
  (** [39-60] *)
  Definition gen_message_random (sk_prf optrand m : list Z) (c : spctx) : Z * list Z :=
    let '(ret, b) := signature_domain_separation (sc_internal c) (sc_prehash c) (sc_userctx c) m (sp_cat P) false in
    if ret <? 0 then (ret, []) else (ret, shake256_of [sk_prf; optrand; b] n).
  (** [67-115] digest, tree, leaf index *)
  Definition tree_bits : nat := (sp_th P * (sp_d P - 1))%nat.
  Definition hash_message (R pk m : list Z) (c : spctx) : Z * (list Z * Z * Z) :=
    let '(ret, b) := signature_domain_separation (sc_internal c) (sc_prehash c) (sc_userctx c) m (sp_cat P) false in
    if ret <? 0 then (ret, ([], 0, 0)) else
    let tb := ((tree_bits + 7) / 8)%nat in
    let lb := ((sp_th P + 7) / 8)%nat in
    let buf := shake256_of [R; pk; b] (sp_fors_msg P + tb + lb) in
    let tree := if (sp_d P =? 1)%nat then 0 else
      Z.land (bytes_to_ull (slice buf (sp_fors_msg P) tb)) (Z.shiftr (2 ^ 64 - 1) (64 - Z.of_nat tree_bits)) in
    let leaf := Z.land (u32 (bytes_to_ull (slice buf (sp_fors_msg P + tb) lb))) (Z.shiftr (2 ^ 32 - 1) (32 - Z.of_nat (sp_th P))) in
    (ret, (firstn (sp_fors_msg P) buf, tree, leaf)).

  (** ** [sphincs_sign.c] *)
  (** [109-143] and [190-205] after a successful lc_rng_generate: [seed] its output; [root0] the memory of
      the root before. Public and secret key *)
  Definition sp_keypair_internal (seed root0 : list Z) : option (list Z * list Z) :=
    let pub := slice seed (2 * n) n in
    match merkle_gen_root pub (firstn n seed) root0 with
    | None => None
    | Some root => Some (pub ++ root, seed ++ root)
    end.
  (** [190-205] [rng]: return value and output of lc_rng_generate; [sk0], [pk0]: the key memory before (on an
      RNG error the seed part of sk is whatever the generator left there: [fst] gives it) *)
  Definition sp_keypair (rng : Z * list Z) (pk0 sk0 : list Z) : option (Z * list Z * list Z) :=
    let '(ret, seed) := rng in
    if ret <? 0 then Some (ret, pk0, seed ++ skipn (sp_seed P) sk0) else
    match sp_keypair_internal seed (skipn (sp_seed P) sk0) with
    | None => None
    | Some (pk, sk) => Some (0, pk, sk)
    end.
  (** [150-182] *)
  Definition sp_keypair_from_seed (pk0 sk0 seed : list Z) : Z * list Z * list Z := (- EOPNOTSUPP, pk0, sk0).

  (** [272-288] *)
  Fixpoint sign_layers (todo : nat) (i : Z) (pub sk : list Z) (mem root wots_addr tree_addr : list Z) (tree idx_leaf : Z)
      : option (list Z) :=
    match todo with
    | O => Some []
    | S t =>
      let tree_addr := set_tree_addr (set_layer_addr tree_addr i) tree in
      let wots_addr := set_keypair_addr (copy_subtree_addr wots_addr tree_addr) idx_leaf in
      match merkle_sign pub sk (firstn (sp_layer_bytes P) mem) root wots_addr tree_addr idx_leaf with
      | None => None
      | Some (sg, root, tree_addr) =>
        match sign_layers t (i + 1) pub sk (skipn (sp_layer_bytes P) mem) root wots_addr tree_addr
                (Z.shiftr tree (Z.of_nat (sp_th P))) (u32 (Z.land tree (Z.shiftl 1 (Z.of_nat (sp_th P)) - 1))) with
        | None => None
        | Some rest => Some (sg ++ rest)
        end
      end
    end.
  (** [210-301] [mem]: the signature memory before; [rng]: None for a NULL rng_ctx, otherwise return value
      and output of lc_rng_generate. Return value and signature memory afterwards *)
  Definition sp_sign_ctx (mem : list Z) (c : spctx) (m sk : list Z) (rng : option (Z * list Z)) : option (Z * list Z) :=
    let sk_seed := firstn n sk in
    let sk_prf := slice sk n n in
    let pk := skipn (2 * n) sk in
    let pub := firstn n pk in
    let '(ret, optrand) := match rng with Some r => r | None => (0, firstn n pk) end in
    if ret <? 0 then Some (ret, zeros (sp_sig P)) else
    let '(ret, r) := gen_message_random sk_prf optrand m c in
    if ret <? 0 then Some (ret, zeros (sp_sig P)) else
    let '(ret, (mhash, tree, idx_leaf)) := hash_message r pk m c in
    if ret <? 0 then Some (ret, zeros (sp_sig P)) else
    let wots_addr := set_keypair_addr (set_tree_addr (set_type adr0 AT_WOTS) tree) idx_leaf in
    let tree_addr := set_type adr0 AT_HASHTREE in
    match fors_sign pub sk_seed (slice mem n (sp_fors_bytes P)) mhash wots_addr with
    | None => None
    | Some (sigfors, root) =>
      match sign_layers (sp_d P) 0 pub sk_seed (skipn (n + sp_fors_bytes P) mem) root wots_addr tree_addr tree idx_leaf with
      | None => None
      | Some sight => Some (0, r ++ sigfors ++ sight)
      end
    end.
  (** [303-313] *)
  Definition sp_sign (mem m sk : list Z) (rng : option (Z * list Z)) : option (Z * list Z) := sp_sign_ctx mem sc0 m sk rng.

  (** [451-492] the roots layer by layer *)
  Fixpoint verify_layers (todo : nat) (i : Z) (pub : list Z) (sig root wots_addr tree_addr wots_pk_addr : list Z) (tree idx_leaf : Z)
      : list Z :=
    match todo with
    | O => root
    | S t =>
      let tree_addr := set_tree_addr (set_layer_addr tree_addr i) tree in
      let wots_addr := set_keypair_addr (copy_subtree_addr wots_addr tree_addr) idx_leaf in
      let wots_pk_addr := copy_keypair_addr wots_pk_addr wots_addr in
      let '(wots_pk, wots_addr) := wots_pk_from_sig pub (firstn (sp_wots_bytes P) sig) root wots_addr in
      let leaf := thash pub wots_pk_addr wots_pk in
      let '(root, tree_addr) := compute_root pub leaf idx_leaf 0 (firstn (sp_th P * n) (skipn (sp_wots_bytes P) sig)) (sp_th P) tree_addr in
      verify_layers t (i + 1) pub (skipn (sp_layer_bytes P) sig) root wots_addr tree_addr wots_pk_addr
        (Z.shiftr tree (Z.of_nat (sp_th P))) (u32 (Z.land tree (Z.shiftl 1 (Z.of_nat (sp_th P)) - 1)))
    end.
  (** [414-503] [ad1], [ad2]: the addresses lc_memcmp_secure is called with *)
  Variables ad1 ad2 : Z.
  Definition sp_root (mhash : list Z) (tree idx_leaf : Z) (sig pk : list Z) : list Z :=
    let pub := firstn n pk in
    let wots_addr := set_keypair_addr (set_tree_addr (set_type adr0 AT_WOTS) tree) idx_leaf in
    let tree_addr := set_type adr0 AT_HASHTREE in
    let wots_pk_addr := set_type adr0 AT_WOTSPK in
    let root := fors_pk_from_sig pub (slice sig n (sp_fors_bytes P)) mhash wots_addr in
    verify_layers (sp_d P) 0 pub (skipn (n + sp_fors_bytes P) sig) root wots_addr tree_addr wots_pk_addr tree idx_leaf.
  Definition sp_verify_ctx (sig : list Z) (c : spctx) (m pk : list Z) : Z :=
    let '(ret, (mhash, tree, idx_leaf)) := hash_message (firstn n sig) pk m c in
    if ret <? 0 then ret else
    if lc_memcmp_secure ad1 (sp_root mhash tree idx_leaf sig pk) ad2 (skipn n pk) =? 0 then 0 else - EBADMSG.
  (** [505-514] *)
  Definition sp_verify (sig m pk : list Z) : Z := sp_verify_ctx sig sc0 m pk.

  (** ** Streaming [sphincs_sign.c: 315-409, 516-582] *)
  (** [315-352] a NULL prehash type is replaced in the context *)
  Definition default_prehash : prehash :=
    if sp_cat P =? 1 then PH_sha3_256 else if sp_cat P =? 3 then PH_sha3_384 else PH_sha3_512.
  Definition sp_stream_init (c : spctx) : spctx :=
    let p := match sc_prehash c with Some p => p | None => default_prehash end in
    mkSC (Some (p, [])) (Some p) (sc_userctx c) (sc_internal c).
  (** [354-365] an update before lc_hash_init is outside of the model: [None] stays *)
  Definition sp_stream_update (c : spctx) (m : list Z) : spctx :=
    mkSC (match sc_hash c with Some (p, ms) => Some (p, ms ++ [m]) | None => None end) (sc_prehash c) (sc_userctx c) (sc_internal c).
  (** the digest: lc_hash_final of the hash models (SHA-2: [old] is the stale partial block); any
      other algorithm is given by [other_digest] with its digest size *)
  Variable other_digest : nat -> list (list Z) -> list Z.
  Variable old : list Z.
  (** [375-389] the digest size set for an algorithm without one *)
  Definition shake_size : nat := if sp_cat P =? 1 then 32 else if sp_cat P =? 3 then 48 else 64.
  Definition ph_digest (p : prehash) (ms : list (list Z)) : list Z :=
    match p with
    | PH_sha256 => sha2_final cfg256 8 (sha2_updates cfg256 (sha2_init sha256_iv old) ms)
    | PH_sha384 => sha2_final cfg512 6 (sha2_updates cfg512 (sha2_init sha384_iv old) ms)
    | PH_sha512 => sha2_final cfg512 8 (sha2_updates cfg512 (sha2_init sha512_iv old) ms)
    | PH_sha3_256 => fst (keccak_squeeze permB (keccak_updates permB (keccak_init alg_sha3_256) ms))
    | PH_sha3_384 => fst (keccak_squeeze permB (keccak_updates permB (keccak_init alg_sha3_384) ms))
    | PH_sha3_512 => fst (keccak_squeeze permB (keccak_updates permB (keccak_init alg_sha3_512) ms))
    | PH_shake128 => fst (xof_read permB (keccak_updates permB (keccak_init alg_shake128) ms) shake_size)
    | PH_shake256 => fst (xof_read permB (keccak_updates permB (keccak_init alg_shake256) ms) shake_size)
    | PH_other k => other_digest k ms
    end.
  (** [367-409] return value, signature memory and context afterwards. lc_hash_final of an
      uninitialised or zeroed hash state is not modelled: [None]. A digest of more than 64 bytes: -EFAULT *)
  Definition sp_sign_final (mem : list Z) (c : spctx) (sk : list Z) (rng : option (Z * list Z)) : option (Z * list Z * spctx) :=
    match sc_hash c with
    | None => None
    | Some (p, ms) =>
      let dg := ph_digest p ms in
      if (64 <? length dg)%nat then Some (- EFAULT, mem, c) else
      match sp_sign_ctx mem c dg sk rng with
      | None => None
      | Some (ret, sg) => Some (ret, sg, if ret =? 0 then mkSC None (sc_prehash c) (sc_userctx c) (sc_internal c) else c)
      end
    end.
  (** [545-582] *)
  Definition sp_verify_final (sig : list Z) (c : spctx) (pk : list Z) : option (Z * spctx) :=
    match sc_hash c with
    | None => None
    | Some (p, ms) =>
      let dg := ph_digest p ms in
      if (64 <? length dg)%nat then Some (- EFAULT, c) else
      let ret := sp_verify_ctx sig c dg pk in
      Some (ret, if (ret =? 0) || (ret =? - EBADMSG) then mkSC None (sc_prehash c) (sc_userctx c) (sc_internal c) else c)
    end.
End Sphincs.
