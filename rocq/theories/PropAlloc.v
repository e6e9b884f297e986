(** * C107 - Running out of memory

    What a call made under memory pressure may do: it answers 0 with a block of
    the wanted size, which lc_free takes back and nothing else; or a negative
    error number with nothing changed. *)
From Coq Require Import ZArith Lia List Bool String.
From Verif Require Import AllocModel.
Import ListNotations.
Open Scope Z_scope.

(** the system calls answer as POSIX says: errors are positive numbers and new
    memory is not memory in use *)
Definition new_block (st : mem) (b : Z) : Prop :=
  0 < b /\ (forall n, ~ In (b, n) (live st)) /\ (forall n, ~ In (b, n) (maps st)) /\ (forall h, ~ In (b, h) (hdr st)).
Record posix (st : mem) (s : sys) : Prop := {
  p_memalign : match memalign s with inl e => 0 < e | inr b => new_block st b end;
  p_mlock : forall e, mlock s = Some e -> 0 < e;
  p_memfd : match memfd s with inl e => 0 < e | inr fd => 0 <= fd end;
  p_trunc : forall e, ftruncate s = Some e -> 0 < e;
  p_mmap : match mmap s with inl e => 0 < e | inr b => new_block st b end
}.
(** a size for which the 32 bytes in front still fit a size_t *)
Definition fits (size : Z) : Prop := 0 <= size /\ 32 + size < 2 ^ 64.
(** a block of [size] bytes at [p], in memory that was obtained by this call *)
Definition given_block (st st' : mem) (p size : Z) : Prop :=
  exists b n, b <= p /\ p + size <= b + n /\
    ((live st' = (b, n) :: live st /\ maps st' = maps st) \/ (maps st' = (b, n) :: maps st /\ live st' = live st)).
Definition same_blocks (st st' : mem) : Prop := live st' = live st /\ maps st' = maps st.

(** the wanted behaviour of an allocating call *)
Definition clean (st : mem) (size : Z) (r : res (mem * Z * option Z)) : Prop :=
  (exists st' e, r = Val (st', e, None) /\ e < 0 /\ same_blocks st st') \/
  (exists st' p, r = Val (st', 0, Some p) /\ given_block st st' p size /\
     exists st'', lc_free st' p = Val st'' /\ same_blocks st st'').

Lemma drop_head : forall A (l : list (Z * A)) b x, (forall n, ~ In (b, n) l) -> drop ((b, x) :: l) b = l.
Proof.
  intros A l b x H. unfold drop. cbn [filter fst]. rewrite Z.eqb_refl. cbn [negb].
  induction l as [|[a y] l IH]; [reflexivity|]. cbn [filter fst].
  destruct (a =? b) eqn:E.
  - apply Z.eqb_eq in E. subst a. exfalso. apply (H y). left; reflexivity.
  - cbn [negb]. f_equal. apply IH. intros n Hn. apply (H n). right; exact Hn.
Qed.
Lemma full_fits : forall size, fits size -> (OFFSET + size) mod W64 = 32 + size.
Proof. intros size [H0 H1]. unfold OFFSET. apply Z.mod_small. change W64 with (2 ^ 64). lia. Qed.

(** freeing what the heap allocation gave *)
Lemma free_heap : forall st b n, new_block st b ->
  lc_free (Mem ((b, n) :: live st) (maps st) ((b, (-1, n)) :: hdr st) (have_memfd st)) (b + 32) = Val st.
Proof.
  intros [lv mp hd hv] b n (Hb & Hl & _ & Hh). cbn [live maps hdr have_memfd] in *.
  unfold lc_free. cbn [live maps hdr have_memfd].
  replace (b + 32 =? 0) with false by (symmetry; apply Z.eqb_neq; lia).
  replace (b + 32 - OFFSET) with b by (unfold OFFSET; lia).
  cbn [find_hdr]. rewrite Z.eqb_refl.
  replace (0 <=? -1) with false by reflexivity. rewrite andb_false_r.
  unfold is_start. cbn [existsb fst]. rewrite Z.eqb_refl. cbn [orb].
  rewrite !drop_head by assumption. reflexivity.
Qed.

(** lc_alloc_aligned: 0 and a block, or the (positive) number posix_memalign
    gave; the block can be freed and all is as before *)
Theorem C107_plain : forall st s size, posix st s -> fits size ->
  (exists e, 0 < e /\ alloc_aligned st s size = Val (st, e, None)) \/
  (exists st' p, alloc_aligned st s size = Val (st', 0, Some p) /\ given_block st st' p size /\ lc_free st' p = Val st).
Proof.
  intros st s size P F. pose proof (p_memalign _ _ P) as M.
  unfold alloc_aligned, alloc_internal. rewrite (full_fits size F).
  destruct (memalign s) as [e|b].
  - left. exists e. auto.
  - right. destruct F as [F0 F1].
    replace (HDR <=? 32 + size) with true by (symmetry; apply Z.leb_le; unfold HDR; lia).
    replace (OFFSET + size <=? 32 + size) with true by (symmetry; apply Z.leb_le; unfold OFFSET; lia).
    cbn [andb live maps hdr have_memfd].
    eexists. exists (b + OFFSET). split; [reflexivity|]. split.
    + exists b, (32 + size). unfold OFFSET. cbn [live maps]. repeat split; try lia. left; auto.
    + change (b + OFFSET) with (b + 32). apply free_heap. exact M.
Qed.
Print Assumptions C107_plain.

(** the random number generators, whose state is kept in secret memory, and the
    allocators that look at the result pointer *)
Definition generators : list string :=
  ["lc_kmac_rng_alloc"; "lc_hkdf_rng_alloc"; "lc_kdf_ctr_rng_alloc"; "lc_cc20_drng_alloc"; "lc_xdrbg256_drng_alloc";
   "lc_xdrbg128_drng_alloc"; "lc_drbg_hmac_alloc"; "lc_drbg_hash_alloc"; "lc_kmac256_drng_alloc";
   "lc_cshake256_drng_alloc"]%string.
Definition checking : list string :=
  generators ++ ["lc_hash_alloc"; "lc_cshake_ctx_alloc"; "lc_kmac_alloc"; "lc_sym_alloc"; "lc_hkdf_alloc"; "lc_kc_alloc";
   "lc_dilithium_ctx_alloc"; "lc_dilithium_ed25519_ctx_alloc"; "lc_sphincs_ctx_alloc"]%string.
Lemma table_ok : forall a, In a allocators ->
  (In (name a) generators <-> secure a = true) /\ (In (name a) checking <-> null_check a = true).
Proof.
  assert (H : forallb (fun a =>
    Bool.eqb (existsb (String.eqb (name a)) generators) (secure a) &&
    Bool.eqb (existsb (String.eqb (name a)) checking) (null_check a)) allocators = true) by (vm_compute; reflexivity).
  intros a Ha. rewrite forallb_forall in H. specialize (H a Ha). apply andb_prop in H. destruct H as [A B].
  apply Bool.eqb_prop in A, B. rewrite <- A, <- B.
  assert (E : forall l, In (name a) l <-> existsb (String.eqb (name a)) l = true).
  { intros l. rewrite existsb_exists. split.
    - intros I. exists (name a). split; [exact I|apply String.eqb_refl].
    - intros (n & I & Q). apply String.eqb_eq in Q. subst n. exact I. }
  split; apply E.
Qed.

(** every allocator of a context that takes ordinary memory is clean *)
Theorem C107_ctx : forall a st s size, In a allocators -> ~ In (name a) generators -> posix st s -> fits size ->
  clean st size (ctx_alloc a true st s size).
Proof.
  intros a st s size Ha Hn P F.
  assert (Hs : secure a = false).
  { destruct (secure a) eqn:E; [|reflexivity]. destruct Hn. apply table_ok; assumption. } unfold ctx_alloc. rewrite Hs, andb_false_r.
  destruct (C107_plain st s size P F) as [(e & He & ->)|(st' & p & -> & G & Fr)].
  - left. replace (e =? 0) with false by (symmetry; apply Z.eqb_neq; lia). cbn [negb].
    exists st, (- e). repeat split; lia.
  - right. cbn [Z.eqb negb]. exists st', p. split; [reflexivity|]. split; [exact G|].
    exists st. split; [exact Fr|]. split; reflexivity.
Qed.
Print Assumptions C107_ctx.

(** those that check the result pointer answer -EINVAL without one *)
Theorem C107_null : forall a st s size, In a allocators -> In (name a) checking ->
  ctx_alloc a false st s size = Val (st, -22, None).
Proof. intros a st s size Ha H. apply (table_ok a Ha) in H. unfold ctx_alloc. rewrite H. reflexivity. Qed.
Print Assumptions C107_null.

(** the memory can be locked, or locking is refused for want of permission or
    for the moment only *)
Definition lockable (s : sys) : Prop := forall e, mlock s = Some e -> e = 1 \/ e = 11.

Lemma internal_secure : forall st s size, posix st s -> fits size -> lockable s ->
  alloc_internal st s size true = alloc_internal st s size false.
Proof.
  intros st s size P F L. unfold alloc_internal. rewrite (full_fits size F).
  destruct (memalign s) as [e|b]; [reflexivity|].
  destruct (mlock s) as [e|] eqn:E; [|reflexivity].
  destruct (L e E) as [-> | ->]; reflexivity.
Qed.

Lemma posix_flag : forall st s f, posix st s -> posix (Mem (live st) (maps st) (hdr st) f) s.
Proof. intros st s f P. destruct P as [A B C D E]. constructor; assumption. Qed.

(** lc_alloc_aligned_secure under that condition: safe, and a block that can be
    freed, or an error number of either sign and nothing changed *)
Theorem C107_secure : forall st s size, posix st s -> fits size -> lockable s ->
  (exists st' e, e <> 0 /\ alloc_secure st s size = Val (st', e, None) /\ same_blocks st st') \/
  (exists st' p, alloc_secure st s size = Val (st', 0, Some p) /\ given_block st st' p size /\
     exists st'', lc_free st' p = Val st'' /\ same_blocks st st'').
Proof.
  intros st s size P F L.
  assert (Heap : forall f,
    let st0 := Mem (live st) (maps st) (hdr st) f in
    (exists st' e, e <> 0 /\ alloc_internal st0 s size true = Val (st', e, None) /\ same_blocks st st') \/
    (exists st' p, alloc_internal st0 s size true = Val (st', 0, Some p) /\ given_block st st' p size /\
       exists st'', lc_free st' p = Val st'' /\ same_blocks st st'')).
  { intros f st0. rewrite (internal_secure st0 s size (posix_flag st s f P) F L).
    destruct (C107_plain st0 s size (posix_flag st s f P) F) as [(e & He & Q)|(st' & p & Q & G & Fr)];
      unfold alloc_aligned in Q; rewrite Q.
    - left. exists st0, e. split; [lia|]. split; [reflexivity|]. split; reflexivity.
    - right. exists st', p. split; [reflexivity|]. split; [exact G|]. exists st0. split; [exact Fr|]. split; reflexivity. }
  unfold alloc_secure. destruct (have_memfd st) eqn:Hv; cbn [negb].
  2:{ specialize (Heap (have_memfd st)). cbv zeta in Heap. destruct st; exact Heap. }
  pose proof (p_memfd _ _ P) as M. destruct (memfd s) as [e|fd].
  { destruct (e =? ENOSYS); [apply (Heap false)|].
    left. exists st, (- e). split; [lia|]. split; [reflexivity|]. split; reflexivity. }
  pose proof (p_trunc _ _ P) as T. destruct (ftruncate s) as [e|].
  { specialize (T e eq_refl). left. exists st, (- e). split; [lia|]. split; [reflexivity|]. split; reflexivity. }
  pose proof (p_mmap _ _ P) as Q. destruct (mmap s) as [e|b].
  { left. exists st, (- e). split; [lia|]. split; [reflexivity|]. split; reflexivity. }
  right. rewrite (full_fits size F). destruct F as [F0 F1].
  replace (HDR <=? 32 + size) with true by (symmetry; apply Z.leb_le; unfold HDR; lia).
  eexists. exists (b + OFFSET). split; [reflexivity|]. split.
  - exists b, (32 + size). unfold OFFSET. cbn [live maps]. repeat split; try lia. right; auto.
  - destruct Q as (Hb & _ & Hm & Hh). unfold lc_free. cbn [live maps hdr have_memfd].
    replace (b + OFFSET =? 0) with false by (symmetry; apply Z.eqb_neq; unfold OFFSET; lia).
    replace (b + OFFSET - OFFSET) with b by lia.
    cbn [find_hdr]. rewrite Z.eqb_refl.
    replace (0 <=? fd) with true by (symmetry; apply Z.leb_le; lia). cbn [andb].
    eexists. split; [reflexivity|]. rewrite drop_head by assumption. split; reflexivity.
Qed.
Print Assumptions C107_secure.

(** ** Where the code falls short *)
Definition st0 : mem := Mem [(1000, 64)] [] [(1000, (-1, 64))] true.
Lemma st0_new : forall b, 0 < b -> b <> 1000 -> new_block st0 b.
Proof.
  intros b H N. repeat split; [exact H|..]; intros n [E|[]] || intros n []; injection E; lia.
Qed.

(** posix_memalign succeeds, the lock limit is used up: the clean-up gives
    lc_free the start of the block instead of the address behind the header *)
Definition sys_lock : sys := Sys (inr 4096) (Some 12) (inl 38) None (inl 12).
Theorem C107_lock_refuted : exists st s size, posix st s /\ fits size /\ alloc_secure st s size = Bad.
Proof.
  exists st0, sys_lock, 100. split; [|split; [split; lia|reflexivity]].
  constructor; cbn.
  - apply st0_new; lia.
  - intros e H; injection H; lia.
  - lia.
  - discriminate.
  - lia.
Qed.
Print Assumptions C107_lock_refuted.

(** no secret memory: every random number generator's allocator answers +12, a
    positive number, instead of -ENOMEM *)
Definition sys_nomap : sys := Sys (inl 12) None (inr 5) None (inl 12).
Theorem C107_sign_refuted : forall a, In a allocators -> In (name a) generators ->
  exists st s size, posix st s /\ fits size /\ lockable s /\ ctx_alloc a true st s size = Val (st, 12, None).
Proof.
  intros a Ha Hs. apply (table_ok a Ha) in Hs. exists st0, sys_nomap, 100. repeat apply conj; try lia.
  - constructor; cbn; try lia; discriminate.
  - intros e H; discriminate.
  - unfold ctx_alloc. rewrite Hs, andb_false_r. reflexivity.
Qed.
Print Assumptions C107_sign_refuted.

(** no memory at all: CKINT takes the positive number for success *)
Theorem C107_ckint_refuted : forall run, exists st s size, posix st s /\ fits size /\ lockable s /\
  ber_encoder run st s size = Bad /\ set_signer_start st s size = Bad.
Proof.
  intros run. exists st0, sys_nomap, 100. repeat apply conj; try lia; try reflexivity.
  - constructor; cbn; try lia; discriminate.
  - intros e H; discriminate.
Qed.
Print Assumptions C107_ckint_refuted.

(** the others store through the null pointer *)
Theorem C107_null_refuted : forall a, In a allocators -> ~ In (name a) checking ->
  exists st s size, posix st s /\ fits size /\ ctx_alloc a false st s size = Bad.
Proof.
  intros a Ha Hn.
  assert (H : null_check a = false).
  { destruct (null_check a) eqn:E; [|reflexivity]. destruct Hn. apply table_ok; assumption. }
  assert (S : secure a = false).
  { destruct (secure a) eqn:E; [|reflexivity]. destruct Hn. apply (table_ok a Ha) in E.
    apply in_or_app. left. exact E. }
  exists st0, (Sys (inr 4096) None (inl 38) None (inl 12)), 100. repeat apply conj; try lia.
  - constructor; cbn; try lia; try discriminate. apply st0_new; lia.
  - unfold ctx_alloc. rewrite H, S. reflexivity.
Qed.
Print Assumptions C107_null_refuted.

(** a size close to SIZE_MAX wraps: a tiny block, then a memset over all of it *)
Theorem C107_wrap_refuted : exists st s size, posix st s /\ 0 <= size < 2 ^ 64 /\ alloc_aligned st s size = Bad.
Proof.
  exists st0, (Sys (inr 4096) None (inl 38) None (inl 12)), (2 ^ 64 - 8). repeat apply conj; try lia; [|reflexivity].
  constructor; cbn; try lia; try discriminate. apply st0_new; lia.
Qed.
Print Assumptions C107_wrap_refuted.

(** once a later call has found memfd_secret missing, a mapping obtained before
    is handed to free() *)
Theorem C107_flag_refuted : exists st s1 st1 p s2 st2 q, posix st s1 /\ posix st1 s2 /\ lockable s2 /\
  alloc_secure st s1 100 = Val (st1, 0, Some p) /\ alloc_secure st1 s2 100 = Val (st2, 0, Some q) /\
  lc_free st2 p = Bad.
Proof.
  exists st0, (Sys (inl 12) None (inr 5) None (inr 8192)).
  eexists. exists 8224, (Sys (inr 4096) None (inl 38) None (inl 12)). eexists. exists 4128.
  repeat apply conj; try reflexivity.
  - constructor; cbn; try lia; try discriminate. apply st0_new; lia.
  - constructor; cbn; try lia; try discriminate.
    repeat split; try lia; cbn; intros n H; repeat destruct H as [H|H]; try contradiction; injection H; lia.
  - intros e H; discriminate.
Qed.
Print Assumptions C107_flag_refuted.

(** the table has both kinds, and a run of both *)
Example C107_ex :
  (exists a, In a allocators /\ ~ In (name a) generators) /\ (exists a, In a allocators /\ In (name a) generators) /\
  (exists a, In a allocators /\ ~ In (name a) checking) /\ List.length allocators = 26%nat /\
  posix st0 (Sys (inr 4096) None (inr 5) None (inr 8192)) /\ fits 100 /\
  (exists st', alloc_aligned st0 (Sys (inr 4096) None (inr 5) None (inr 8192)) 100 = Val (st', 0, Some 4128)) /\
  (exists st', alloc_secure st0 (Sys (inr 4096) None (inr 5) None (inr 8192)) 100 = Val (st', 0, Some 8224)) /\
  alloc_aligned st0 sys_nomap 100 = Val (st0, 12, None).
Proof.
  repeat apply conj; try lia; try reflexivity; try (eexists; reflexivity).
  - exists (Al "lc_hash_alloc" true false). split; [left; reflexivity|]. cbn. intuition discriminate.
  - exists (Al "lc_kmac_rng_alloc" true true). split; cbn; tauto.
  - exists (Al "lc_cc_alloc" false false). split; [cbn; tauto|]. cbn. intuition discriminate.
  - constructor; cbn; try lia; try discriminate; apply st0_new; lia.
Qed.
