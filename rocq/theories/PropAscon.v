(** Properties C06, C07. Specification: AsconSpec.v (SP 800-232). *)
From Verif Require Import Bytes Words AsconSpec AsconModel AsconPerm AsconProof.

(** ** The permutation code is Ascon-p[12], Ascon-p[8], Ascon-p[6]. *)
Theorem C07_ascon_permutation : forall rnd b, In rnd [6; 8; 12]%nat ->
  length b = 40%nat -> bytes b -> asconB rnd b = ascon_p_bytes rnd b.
Proof. intros rnd b Hr Hl Hb. exact (asconB_spec rnd b Hr (conj Hl Hb)). Qed.
Print Assumptions C07_ascon_permutation.

(** ** C07: one update call. *)
Theorem C07_ascon_hash_oneshot : forall m, bytes m -> Z.of_nat (length m) < 2 ^ 64 ->
  fst (ascon_squeeze asconB (ascon_absorb asconB ascon_256_init m)) = ASCON_HASH256 m.
Proof.
  intros m Hb Hl. pose proof (ascon256_streaming [m]) as H. cbn [concat] in H. rewrite app_nil_r in H.
  apply H; auto. cbn. lia.
Qed.
Print Assumptions C07_ascon_hash_oneshot.

(** The output of any sequence of reads is a prefix of one stream. *)
Theorem C07_ascon_xof_oneshot : forall m ns, bytes m -> Z.of_nat (length m) < 2 ^ 64 ->
  let outs := fst (ascon_xof_reads asconB (ascon_absorb asconB ascon_xof_init m) ns) in
  concat outs = ASCON_XOF128 m (list_sum ns) /\ map (@length Z) outs = ns.
Proof.
  intros m ns Hb Hl. pose proof (asconxof_streaming [m] ns) as H. cbn [concat] in H. rewrite app_nil_r in H.
  apply H; auto. cbn. lia.
Qed.
Print Assumptions C07_ascon_xof_oneshot.

(** The library's known answer for Ascon-Hash256(00 01 02 03) [hash/src/ascon_selftest.c: 27-32] and
    Ascon-XOF128 of the same message [64-69]. *)
Example C07_case :
  fst (ascon_squeeze asconB (ascon_absorb asconB ascon_256_init [0; 1; 2; 3])) =
  [0xD7; 0xE4; 0xC7; 0xED; 0x9B; 0x8A; 0x32; 0x5C; 0xD0; 0x8B; 0x9E; 0xF2; 0x59; 0xF8; 0x87; 0x70;
   0x54; 0xEC; 0xD8; 0x30; 0x4F; 0xE1; 0xB2; 0xD7; 0xFD; 0x84; 0x71; 0x37; 0xDF; 0x67; 0x27; 0xEE] /\
  fst (ascon_xof_reads asconB (ascon_absorb asconB ascon_xof_init [0; 1; 2; 3]) [3; 0; 4]%nat) =
  [[0x21; 0xF7; 0xFD]; []; [0x74; 0x58; 0x8E; 0x24]].
Proof. split; vm_compute; reflexivity. Qed.

(** ** C06: chunk independence is false of the code. *)
Theorem C06_refuted : exists m1 m2, concat m1 = concat m2 /\ Forall bytes m1 /\ Forall bytes m2 /\
  fst (ascon_squeeze asconB (ascon_updates asconB ascon_256_init m1)) <>
  fst (ascon_squeeze asconB (ascon_updates asconB ascon_256_init m2)).
Proof.
  exists [[1; 2; 3; 4; 5; 6; 7; 8]], [[1; 2; 3; 4]; [5; 6; 7; 8]].
  split; [reflexivity|]. split; [|split].
  - repeat constructor; unfold byte; lia.
  - repeat constructor; unfold byte; lia.
  - vm_compute. discriminate.
Qed.
Print Assumptions C06_refuted.

(** Worse: streaming input admits collisions for free. Whatever u, v, w and the rest of the message are,
    the message u v w ... fed as u, v, w, ... and the different message w u v ... fed as w[0..4), w[4..8),
    u v, ... leave the context in the same state, hence give the same digest. *)
Theorem C06_streaming_collisions : forall u v w rest,
  length u = 4%nat -> length v = 4%nat -> length w = 8%nat ->
  ascon_updates asconB ascon_256_init (u :: v :: w :: rest) =
  ascon_updates asconB ascon_256_init (firstn 4 w :: skipn 4 w :: (u ++ v) :: rest).
Proof. intros. apply ascon_block_swap; auto. Qed.
Print Assumptions C06_streaming_collisions.
Example C06_collision_case :
  concat [[1; 2; 3; 4]; [5; 6; 7; 8]; zeros 8] <> concat [firstn 4 (zeros 8); skipn 4 (zeros 8); [1; 2; 3; 4] ++ [5; 6; 7; 8]].
Proof. discriminate. Qed.

(** What does hold: a split is harmless as long as no call that starts inside an 8 byte block ends exactly
    at the end of that block. Missing for the full C06: those splits, for which it is false. *)
Theorem C06_ascon_streaming_partial : forall ms ns, Forall bytes ms ->
  Z.of_nat (length (concat ms)) < 2 ^ 64 -> safe_split 0 ms ->
  fst (ascon_squeeze asconB (ascon_updates asconB ascon_256_init ms)) = ASCON_HASH256 (concat ms) /\
  concat (fst (ascon_xof_reads asconB (ascon_updates asconB ascon_xof_init ms) ns)) =
    ASCON_XOF128 (concat ms) (list_sum ns).
Proof.
  intros ms ns Hb Hl Hs. split; [apply ascon256_streaming; auto|].
  apply asconxof_streaming; auto.
Qed.
Print Assumptions C06_ascon_streaming_partial.
Example C06_case_hyp : safe_split 0 [[1; 2; 3]; [4; 5; 6; 7; 8; 9]; []; [10; 11]].
Proof. repeat split; intros [? ?]; cbn in *; lia. Qed.
