(** FIPS 205 (SLH-DSA, August 2024) for the SHAKE parameter sets, written from the standard and
    independently of the model. Byte strings are lists of integers; an ADRS is kept as its fields
    (section 4.2) and only becomes a byte string when it is hashed. *)
From Verif Require Import Bytes Fips202.

(** Table 2 *)
Record slhp := mkSlh { f_n : nat; f_h : nat; f_d : nat; f_hp : nat; f_a : nat; f_k : nat; f_m : nat }.
Definition SLH_128s : slhp := mkSlh 16 63 7 9 12 14 30.
Definition SLH_128f : slhp := mkSlh 16 66 22 3 6 33 34.
Definition SLH_192s : slhp := mkSlh 24 63 7 9 14 17 39.
Definition SLH_192f : slhp := mkSlh 24 66 22 3 8 33 42.
Definition SLH_256s : slhp := mkSlh 32 64 8 8 14 22 47.
Definition SLH_256f : slhp := mkSlh 32 68 17 4 9 35 49.

(** Algorithms 2 and 3 *)
Definition toInt (X : list Z) : Z := fold_left (fun t b => 256 * t + b) X 0.
Definition toByte (x : Z) (n : nat) : list Z := map (fun i => (x / 256 ^ Z.of_nat (n - 1 - i)) mod 256) (seq 0 n).
(** Algorithm 4: the digits of X in base 2^b, most significant first *)
Definition base_2b (X : list Z) (b out : nat) : list Z :=
  map (fun i => (toInt X / 2 ^ Z.of_nat (8 * length X - b * (i + 1))) mod 2 ^ Z.of_nat b) (seq 0 out).
(** X as a sequence of [k] strings of [n] bytes *)
Definition blocks (k n : nat) (X : list Z) : list (list Z) := map (fun i => slice X (i * n) n) (seq 0 k).

(** ** Addresses (4.2, Table 1, Figures 2-9) *)
Record ADRS := mkADRS { A_layer : Z; A_tree : Z; A_type : Z; A_w1 : Z; A_w2 : Z; A_w3 : Z }.
Definition adrs_bytes (A : ADRS) : list Z :=
  toByte (A_layer A) 4 ++ toByte (A_tree A) 12 ++ toByte (A_type A) 4 ++ toByte (A_w1 A) 4 ++ toByte (A_w2 A) 4 ++ toByte (A_w3 A) 4.
Definition WOTS_HASH := 0. Definition WOTS_PK := 1. Definition TREE := 2. Definition FORS_TREE := 3.
Definition FORS_ROOTS := 4. Definition WOTS_PRF := 5. Definition FORS_PRF := 6.
(** setTypeAndClear followed by setKeyPairAddress *)
Definition setTKP (A : ADRS) (ty kp : Z) : ADRS := mkADRS (A_layer A) (A_tree A) ty kp 0 0.
Definition setChain (A : ADRS) (i : Z) : ADRS := mkADRS (A_layer A) (A_tree A) (A_type A) (A_w1 A) i (A_w3 A).
Definition setHash (A : ADRS) (i : Z) : ADRS := mkADRS (A_layer A) (A_tree A) (A_type A) (A_w1 A) (A_w2 A) i.
(** setTreeHeight, setTreeIndex *)
Definition setNode (A : ADRS) (z i : Z) : ADRS := mkADRS (A_layer A) (A_tree A) (A_type A) (A_w1 A) z i.

Section Slh.
  Variable p : slhp.
  Local Notation n := (f_n p).
  (** ** 11.1: functions for the SHAKE parameter sets *)
  Definition H_msg (R PKseed PKroot M : list Z) : list Z := SHAKE256 (R ++ PKseed ++ PKroot ++ M) (f_m p).
  Definition PRF (PKseed SKseed : list Z) (A : ADRS) : list Z := SHAKE256 (PKseed ++ adrs_bytes A ++ SKseed) n.
  Definition PRF_msg (SKprf opt_rand M : list Z) : list Z := SHAKE256 (SKprf ++ opt_rand ++ M) n.
  (** F, H and T_l *)
  Definition T_l (PKseed : list Z) (A : ADRS) (M : list Z) : list Z := SHAKE256 (PKseed ++ adrs_bytes A ++ M) n.

  (** lg_w = 4: equations 5.1-5.4 *)
  Definition len1 : nat := 2 * n.
  Definition len2 : nat := 3.
  Definition wlen : nat := len1 + len2.

  Variables PKseed : list Z.
  (** ** WOTS+ (5) *)
  (** Algorithm 5 *)
  Fixpoint chain (X : list Z) (i : Z) (s : nat) (A : ADRS) : list Z :=
    match s with O => X | S s' => T_l PKseed (setHash A (i + Z.of_nat s')) (chain X i s' A) end.
  (** lines 1-7 of Algorithms 7 and 8: the digits of the message and of the checksum *)
  Definition wots_digits (M : list Z) : list Z :=
    let msg := base_2b M 4 len1 in
    let csum := fold_right Z.add 0 (map (fun x => 15 - x) msg) in
    msg ++ base_2b (toByte (csum * 2 ^ 4) 2) 4 len2.
  Definition wots_sk (SKseed : list Z) (A : ADRS) (i : nat) : list Z :=
    PRF PKseed SKseed (setChain (setTKP A WOTS_PRF (A_w1 A)) (Z.of_nat i)).
  (** Algorithm 6 *)
  Definition wots_pkGen (SKseed : list Z) (A : ADRS) : list Z :=
    T_l PKseed (setTKP A WOTS_PK (A_w1 A))
      (concat (map (fun i => chain (wots_sk SKseed A i) 0 15 (setChain A (Z.of_nat i))) (seq 0 wlen))).
  (** Algorithm 7 *)
  Definition wots_sign (M SKseed : list Z) (A : ADRS) : list Z :=
    let msg := wots_digits M in
    concat (map (fun i => chain (wots_sk SKseed A i) 0 (Z.to_nat (nth i msg 0)) (setChain A (Z.of_nat i))) (seq 0 wlen)).
  (** Algorithm 8 *)
  Definition wots_pkFromSig (sig M : list Z) (A : ADRS) : list Z :=
    let msg := wots_digits M in
    T_l PKseed (setTKP A WOTS_PK (A_w1 A))
      (concat (map (fun i => chain (slice sig (i * n) n) (nth i msg 0) (Z.to_nat (15 - nth i msg 0)) (setChain A (Z.of_nat i))) (seq 0 wlen))).

  (** ** Merkle trees *)
  (** from a leaf and its authentication path to the root: the loops of Algorithms 11 and 17. [idx]:
      the position deciding left or right, [t]: the tree index in the address *)
  Fixpoint climb (A : ADRS) (node : list Z) (idx t : Z) (z : Z) (auth : list (list Z)) : list Z :=
    match auth with
    | [] => node
    | x :: auth' =>
      let t' := if Z.even idx then t / 2 else (t - 1) / 2 in
      let node' := T_l PKseed (setNode A (z + 1) t') (if Z.even idx then node ++ x else x ++ node) in
      climb A node' (idx / 2) t' (z + 1) auth'
    end.

  (** ** XMSS (6) *)
  (** Algorithm 9 *)
  Fixpoint xmss_node (SKseed : list Z) (i : Z) (z : nat) (A : ADRS) : list Z :=
    match z with
    | O => wots_pkGen SKseed (setTKP A WOTS_HASH i)
    | S z' => T_l PKseed (setNode (setTKP A TREE 0) (Z.of_nat z) i)
                (xmss_node SKseed (2 * i) z' A ++ xmss_node SKseed (2 * i + 1) z' A)
    end.
  (** Algorithm 10 *)
  Definition xmss_sign (M SKseed : list Z) (idx : Z) (A : ADRS) : list Z :=
    wots_sign M SKseed (setTKP A WOTS_HASH idx) ++
    concat (map (fun j => xmss_node SKseed (Z.lxor (idx / 2 ^ Z.of_nat j) 1) j A) (seq 0 (f_hp p))).
  (** Algorithm 11 *)
  Definition xmss_pkFromSig (idx : Z) (SIG M : list Z) (A : ADRS) : list Z :=
    let node := wots_pkFromSig (firstn (wlen * n) SIG) M (setTKP A WOTS_HASH idx) in
    climb (setTKP A TREE 0) node idx idx 0 (blocks (f_hp p) n (skipn (wlen * n) SIG)).

  (** ** The hypertree (7) *)
  Definition ht_adrs (j : nat) (tree : Z) : ADRS := mkADRS (Z.of_nat j) tree 0 0 0 0.
  (** Algorithm 12: the layers from [j] on *)
  Fixpoint ht_sign_from (todo j : nat) (M SKseed : list Z) (tree leaf : Z) : list Z :=
    match todo with
    | O => []
    | S todo' =>
      let S1 := xmss_sign M SKseed leaf (ht_adrs j tree) in
      let root := xmss_pkFromSig leaf S1 M (ht_adrs j tree) in
      S1 ++ ht_sign_from todo' (j + 1) root SKseed (tree / 2 ^ Z.of_nat (f_hp p)) (tree mod 2 ^ Z.of_nat (f_hp p))
    end.
  Definition ht_sign (M SKseed : list Z) (tree leaf : Z) : list Z := ht_sign_from (f_d p) 0 M SKseed tree leaf.
  (** Algorithm 13: the node computed from the layers from [j] on *)
  Definition xmss_bytes : nat := (wlen + f_hp p) * n.
  Fixpoint ht_root_from (todo j : nat) (M SIG : list Z) (tree leaf : Z) : list Z :=
    match todo with
    | O => M
    | S todo' =>
      ht_root_from todo' (j + 1) (xmss_pkFromSig leaf (firstn xmss_bytes SIG) M (ht_adrs j tree)) (skipn xmss_bytes SIG)
        (tree / 2 ^ Z.of_nat (f_hp p)) (tree mod 2 ^ Z.of_nat (f_hp p))
    end.
  Definition ht_verify (M SIG : list Z) (tree leaf : Z) (PKroot : list Z) : Prop :=
    ht_root_from (f_d p) 0 M SIG tree leaf = PKroot.

  (** ** FORS (8) *)
  (** Algorithm 14 *)
  Definition fors_skGen (SKseed : list Z) (A : ADRS) (idx : Z) : list Z :=
    PRF PKseed SKseed (setNode (setTKP A FORS_PRF (A_w1 A)) 0 idx).
  (** Algorithm 15 *)
  Fixpoint fors_node (SKseed : list Z) (i : Z) (z : nat) (A : ADRS) : list Z :=
    match z with
    | O => T_l PKseed (setNode A 0 i) (fors_skGen SKseed A i)
    | S z' => T_l PKseed (setNode A (Z.of_nat z) i) (fors_node SKseed (2 * i) z' A ++ fors_node SKseed (2 * i + 1) z' A)
    end.
  Definition fors_idx (md : list Z) (i : nat) : Z := nth i (base_2b md (f_a p) (f_k p)) 0.
  (** Algorithm 16 *)
  Definition fors_sign (md SKseed : list Z) (A : ADRS) : list Z :=
    concat (map (fun i =>
      fors_skGen SKseed A (Z.of_nat i * 2 ^ Z.of_nat (f_a p) + fors_idx md i) ++
      concat (map (fun j => fors_node SKseed (Z.of_nat i * 2 ^ Z.of_nat (f_a p - j) + Z.lxor (fors_idx md i / 2 ^ Z.of_nat j) 1) j A)
                  (seq 0 (f_a p)))) (seq 0 (f_k p))).
  (** Algorithm 17 *)
  Definition fors_piece : nat := (f_a p + 1) * n.
  Definition fors_pkFromSig (SIG md : list Z) (A : ADRS) : list Z :=
    T_l PKseed (setTKP A FORS_ROOTS (A_w1 A))
      (concat (map (fun i =>
         let s := slice SIG (i * fors_piece) fors_piece in
         let t := Z.of_nat i * 2 ^ Z.of_nat (f_a p) + fors_idx md i in
         climb A (T_l PKseed (setNode A 0 t) (firstn n s)) (fors_idx md i) t 0 (blocks (f_a p) n (skipn n s))) (seq 0 (f_k p)))).

  (** ** SLH-DSA internal functions (9) *)
  (** Algorithm 18: PK.root *)
  Definition slh_root (SKseed : list Z) : list Z := xmss_node SKseed 0 (f_hp p) (ht_adrs (f_d p - 1) 0).

  (** lines 6-13 of Algorithm 19, lines 8-14 of Algorithm 20 *)
  Definition md_bytes : nat := (f_k p * f_a p + 7) / 8.
  Definition tree_bytes : nat := (f_h p - f_h p / f_d p + 7) / 8.
  Definition leaf_bytes : nat := (f_h p + 8 * f_d p - 1) / (8 * f_d p).
  Definition dg_md (dg : list Z) : list Z := firstn md_bytes dg.
  Definition dg_tree (dg : list Z) : Z := toInt (slice dg md_bytes tree_bytes) mod 2 ^ Z.of_nat (f_h p - f_h p / f_d p).
  Definition dg_leaf (dg : list Z) : Z := toInt (slice dg (md_bytes + tree_bytes) leaf_bytes) mod 2 ^ Z.of_nat (f_h p / f_d p).
  Definition fors_adrs (tree leaf : Z) : ADRS := mkADRS 0 tree FORS_TREE leaf 0 0.

  (** Algorithm 19 *)
  Definition slh_sign_internal (M SKseed SKprf PKroot opt_rand : list Z) : list Z :=
    let R := PRF_msg SKprf opt_rand M in
    let dg := H_msg R PKseed PKroot M in
    let A := fors_adrs (dg_tree dg) (dg_leaf dg) in
    let SIGF := fors_sign (dg_md dg) SKseed A in
    let PKF := fors_pkFromSig SIGF (dg_md dg) A in
    R ++ SIGF ++ ht_sign PKF SKseed (dg_tree dg) (dg_leaf dg).
  (** Algorithm 20 *)
  Definition sig_bytes : nat := (1 + f_k p * (1 + f_a p) + f_h p + f_d p * wlen) * n.
  Definition slh_verify_internal (M SIG PKroot : list Z) : Prop :=
    length SIG = sig_bytes /\
    let R := firstn n SIG in
    let SIGF := slice SIG n (f_k p * fors_piece) in
    let SIGH := skipn (n + f_k p * fors_piece) SIG in
    let dg := H_msg R PKseed PKroot M in
    let PKF := fors_pkFromSig SIGF (dg_md dg) (fors_adrs (dg_tree dg) (dg_leaf dg)) in
    ht_verify PKF SIGH (dg_tree dg) (dg_leaf dg) PKroot.
End Slh.

(** ** External functions (10): the message representative of Algorithms 22-25. [oid]: None for the
    pure version, otherwise the OID and the digest *)
Definition slh_message (ctx M : list Z) : list Z := toByte 0 1 ++ toByte (Z.of_nat (length ctx)) 1 ++ ctx ++ M.
Definition hash_slh_message (ctx oid PHM : list Z) : list Z := toByte 1 1 ++ toByte (Z.of_nat (length ctx)) 1 ++ ctx ++ oid ++ PHM.
