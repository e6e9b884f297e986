(** The lc_hash descriptor as seen by its users (HMAC, KDFs, DRBGs): context operations plus sizes.
    [hash/src/hash.c: 28-68, 94-103]; the descriptors themselves are
    [sha3.c: 690-776], [sha256.c: 250-266], [sha512.c: 330-366].
    [hash_ok] is what the users need of a hash; the instances below derive it from C01, C04, C05. *)
From Verif Require Import Bytes Words KeccakModel KeccakSpec SpongeSpec Sha3Model Fips202 KeccakBytes
  KeccakProof Sha3Top Sha2Spec Sha2Model Sha2Proof.

Record hashops := mkHO {
  hctx : Type;
  h_init : hctx -> hctx;                       (* lc_hash_init; may depend on stale memory *)
  h_update : hctx -> list Z -> hctx;           (* lc_hash_update *)
  h_final : hctx -> list Z * hctx;             (* lc_hash_final: digest, context afterwards *)
  h_bs : nat;                                  (* lc_hash_blocksize *)
  h_ds : nat                                   (* lc_hash_digestsize *)
}.

Definition h_updates (h : hashops) (c : hctx h) (ms : list (list Z)) : hctx h := fold_left (h_update h) ms c.

(** [wf]: contexts the caller may hold (buffers of the right size). [H]: the hash function of the
    standard. [maxlen]: messages of fewer bytes are hashed per the standard. *)
Record hash_ok (h : hashops) (wf : hctx h -> Prop) (H : list Z -> list Z) (maxlen : Z) : Prop := mkHOK {
  ok_init : forall c, wf c -> wf (h_init h c);
  ok_update : forall c m, wf c -> wf (h_update h c m);
  ok_final : forall c, wf c -> wf (snd (h_final h c));
  ok_hash : forall c ms, wf c -> Forall bytes ms -> Z.of_nat (length (concat ms)) < maxlen ->
    fst (h_final h (h_updates h (h_init h c) ms)) = H (concat ms);
  ok_len : forall m, length (H m) = h_ds h;
  ok_bytes : forall m, bytes m -> bytes (H m);
  ok_ds : (0 < h_ds h)%nat;
  ok_ds_bs : (h_ds h <= h_bs h)%nat;
  ok_bs : (h_bs h <= 144)%nat;
  ok_ds64 : (h_ds h <= 64)%nat;
  ok_max : 2 ^ 61 <= maxlen
}.

(** ** SHA-3 *)
Definition sha3_ops (a : kalg) : hashops :=
  mkHO kctx (fun _ => keccak_init a) (keccak_absorb permB) (keccak_squeeze permB) (a_r a) (a_digestsize a).

Section SpongeBytes.
  Variable f : list Z -> list Z.
  Variable w r : nat.
  Variable V : list Z -> Prop.
  Hypothesis HV0 : V (zeros w).
  Hypothesis HVb : forall s, V s -> bytes s.
  Hypothesis HVf : forall s, V s -> V (f s).
  Hypothesis HVx : forall s b, V s -> bytes b -> V (xor_into s b).
  Hypothesis Hr : (0 < r)%nat.
  Lemma sponge_bytes_gen : forall suf m p n, bytes m -> byte suf -> bytes (sponge f w r suf m p n).
  Proof.
    intros suf m p n Hm Hs. unfold sponge, sponge_state.
    assert (Hp : bytes (pad r suf m)).
    { unfold pad. destruct (_ =? 1)%nat; apply bytes_app; auto.
      - constructor; [apply byte_lxor; auto; unfold byte; lia|constructor].
      - constructor; [auto|]. apply bytes_app; [apply bytes_zeros|]. constructor; [unfold byte; lia|constructor]. }
    assert (HA : forall bl s, V s -> Forall bytes bl -> V (absorb f s bl)).
    { induction bl as [|b bl IH]; intros s HVs Hb; [exact HVs|]. inversion Hb; subst.
      apply IH; auto. apply HVf, HVx; auto. }
    specialize (HA (full_chunks r (pad r suf m)) (zeros w) HV0 (bytes_full_chunks r _ Hp)).
    set (S := absorb f (zeros w) (full_chunks r (pad r suf m))) in *. clearbody S.
    assert (HI : forall k, V (Nat.iter k f S)) by (induction k; [exact HA|apply HVf; exact IHk]).
    unfold bytes. rewrite Forall_forall. intros z Hz. apply in_map_iff in Hz. destruct Hz as (q & <- & _).
    apply bytes_nth, HVb, HI.
  Qed.
End SpongeBytes.

Lemma sponge_bytes : forall r suf m p n, (0 < r)%nat -> bytes m -> byte suf ->
  bytes (sponge keccak_f_bytes 200 r suf m p n).
Proof.
  intros r suf m p n Hr Hm Hs. rewrite <- (sponge_permB r suf m p n Hr Hm Hs).
  exact (sponge_bytes_gen permB 200 r st200 st200_zeros (fun s H => proj2 H) permB_st200 st200_xor Hr suf m p n Hm Hs).
Qed.

Lemma sha3_ops_ok : forall a d,
  In (a, d) [(alg_sha3_224, 28%nat); (alg_sha3_256, 32%nat); (alg_sha3_384, 48%nat); (alg_sha3_512, 64%nat)] ->
  hash_ok (sha3_ops a) (fun _ => True) (SHA3 d) (2 ^ 64).
Proof.
  intros a d Hin.
  assert (Ha : In a algs) by (unfold algs; cbn in Hin |- *; intuition congruence).
  assert (Hs : a_digestsize a = d /\ a_r a = (200 - 2 * d)%nat /\ a_padding a = 6 /\ (28 <= d <= 64)%nat).
  { cbn in Hin. repeat (destruct Hin as [Hin|Hin]; [injection Hin as <- <-; cbn; lia|]). destruct Hin. }
  destruct Hs as (Hd & Hr & Hp & Hdr).
  constructor; cbn [sha3_ops hctx h_init h_update h_final h_bs h_ds]; auto.
  - intros c ms _ Hb Hl. unfold h_updates. cbn [h_update h_init h_final sha3_ops].
    change (fold_left (keccak_absorb permB) ms (keccak_init a)) with (keccak_updates permB (keccak_init a) ms).
    rewrite (sha3_family_final a ms Ha Hb Hl). unfold SHA3, keccak_c. rewrite Hd, Hr, Hp. reflexivity.
  - intros m. unfold SHA3, keccak_c, sponge. rewrite map_length, seq_length. congruence.
  - intros m Hm. unfold SHA3, keccak_c. apply sponge_bytes; auto; [lia|unfold byte; lia].
  - lia.
  - lia.
  - lia.
  - lia.
  - lia.
Qed.

(** ** SHA-2. The context after final: partial buffer cleared, [sha256.c: 228-237]; SHA-256 also clears H,
    SHA-512 does not [sha512.c: 281-283, 296-298]. *)
Definition sha2_ops (c : sha2_cfg) (iv : list Z) (n : nat) (clear : bool) : hashops :=
  mkHO sctx (fun x => sha2_init iv (s_partial x)) (sha2_update c)
    (fun x => (sha2_final c n x,
               let y := sha2_final_internal c x in
               if clear then mkS (zeros 8) (s_msglen y) (s_partial y) else y))
    (bs c) (n * c_wb c).
Definition sha256_ops := sha2_ops cfg256 sha256_iv 8 true.
Definition sha512_ops := sha2_ops cfg512 sha512_iv 8 false.
Definition sha384_ops := sha2_ops cfg512 sha384_iv 6 false.

Definition swf (c : sha2_cfg) (x : sctx) : Prop := length (s_partial x) = bs c.

Lemma full_loop_rest : forall c fuel H inp, (0 < bs c)%nat -> (length inp <= fuel)%nat ->
  (length (snd (full_loop c fuel H inp)) < bs c)%nat.
Proof.
  intros c fuel. induction fuel as [|f IH]; intros H inp Hb Hl; cbn [full_loop].
  - cbn [snd]. lia.
  - destruct (Nat.leb_spec (bs c) (length inp)).
    + apply IH; auto. rewrite skipn_length. lia.
    + cbn [snd]. lia.
Qed.

Lemma swf_update : forall c x m, (0 < bs c)%nat -> swf c x -> swf c (sha2_update c x m).
Proof.
  intros c x m Hb Hw. unfold swf, sha2_update in *.
  assert (Hp : (Z.to_nat (s_msglen x mod Z.of_nat (bs c)) < bs c)%nat).
  { pose proof (Z.mod_pos_bound (s_msglen x) (Z.of_nat (bs c))). lia. }
  set (p := Z.to_nat (s_msglen x mod Z.of_nat (bs c))) in *.
  destruct (p =? 0)%nat.
  - pose proof (full_loop_rest c (length m) (s_H x) m Hb (le_n _)) as HF.
    destruct (full_loop c (length m) (s_H x) m) as [H' r]. cbn [s_partial snd] in *.
    rewrite store_at_length; auto. lia.
  - destruct (Nat.ltb_spec (length m) (bs c - p)).
    + cbn [s_partial]. rewrite store_at_length; auto. lia.
    + set (H0 := transform _ _ _). set (m' := skipn (bs c - p) m).
      pose proof (full_loop_rest c (length m') H0 m' Hb (le_n _)) as HF.
      destruct (full_loop c (length m') H0 m') as [H' r]. cbn [s_partial snd] in *.
      assert (length (store_at (s_partial x) p (firstn (bs c - p) m)) = bs c).
      { rewrite store_at_length; auto. rewrite firstn_length. lia. }
      rewrite store_at_length; lia.
Qed.

Lemma swf_final : forall c x, swf c (sha2_final_internal c x).
Proof.
  intros c x. unfold swf, sha2_final_internal.
  destruct (bs c - c_lf c <? _)%nat; cbn [s_partial]; apply length_zeros.
Qed.

Lemma flat_be_length : forall k l, length (flat_map (be_bytes k) l) = (length l * k)%nat.
Proof.
  induction l as [|x l IH]; [reflexivity|]. cbn [flat_map length]. rewrite app_length, IH, length_be_bytes. lia.
Qed.
Lemma flat_be_bytes : forall k l, bytes (flat_map (be_bytes k) l).
Proof.
  induction l as [|x l IH]; [constructor|]. cbn [flat_map]. apply bytes_app; auto. apply bytes_be_bytes.
Qed.

Lemma sha2_H_length : forall P K IV m, length IV = 8%nat -> length (sha2_H P K IV m) = 8%nat.
Proof.
  intros P K IV m HI. unfold sha2_H. generalize (full_chunks (blocksize P) (pad2 P m)) as bl.
  intros bl. revert IV HI. induction bl as [|b bl IH]; intros IV HI; [exact HI|]. cbn [fold_left].
  apply IH. unfold compress. do 8 (destruct IV as [|? IV]; [discriminate|]). destruct IV; [|discriminate].
  destruct (fold_left _ _ _) as [[[[[[[a' b'] c'] d'] e'] f'] g'] h']. reflexivity.
Qed.

Lemma sha2_ops_ok : forall c P K IV n clear, matches c P K -> c_wb c = sp_wb P -> length IV = 8%nat -> (n <= 8)%nat ->
  (0 < n * c_wb c)%nat -> (n * c_wb c <= 64)%nat -> (bs c <= 144)%nat ->
  (0 < c_wb c)%nat -> (8 <= c_lf c)%nat -> (c_lf c + 1 < bs c)%nat ->
  hash_ok (sha2_ops c IV n clear) (swf c) (sha2 P K IV n) (2 ^ 61).
Proof.
  intros c P K IV n clear HM Hwb HI Hn Hds Hds64 Hbs Hw Hl Hl2.
  constructor; cbn [sha2_ops hctx h_init h_update h_final h_bs h_ds]; auto.
  - intros x m Hx. apply swf_update; auto. lia.
  - intros x Hx. cbn [snd]. destruct clear; [|apply swf_final].
    unfold swf. cbn [s_partial]. apply swf_final.
  - intros x ms Hx Hb Hlen. unfold h_updates. cbn [h_update h_init h_final sha2_ops fst].
    apply (sha2_streaming c P K); auto.
  - intros m. unfold sha2. rewrite flat_be_length, firstn_length, sha2_H_length, Hwb by auto.
    rewrite Nat.min_l by auto. reflexivity.
  - intros m _. apply flat_be_bytes.
  - unfold bs. nia.
  - lia.
Qed.

Lemma sha256_ops_ok : hash_ok sha256_ops (swf cfg256) SHA256 (2 ^ 61).
Proof.
  unfold SHA256. rewrite IV256_ok.
  apply (sha2_ops_ok cfg256 p256 (K_of p256) sha256_iv 8 true matches256); try reflexivity; cbn; lia.
Qed.
Lemma sha512_ops_ok : hash_ok sha512_ops (swf cfg512) SHA512 (2 ^ 61).
Proof.
  unfold SHA512. rewrite IV512_ok.
  apply (sha2_ops_ok cfg512 p512 (K_of p512) sha512_iv 8 false matches512); try reflexivity; cbn; lia.
Qed.
Lemma sha384_ops_ok : hash_ok sha384_ops (swf cfg512) SHA384 (2 ^ 61).
Proof.
  unfold SHA384. rewrite IV384_ok.
  apply (sha2_ops_ok cfg512 p512 (K_of p512) sha384_iv 6 false matches512); try reflexivity; cbn; lia.
Qed.
