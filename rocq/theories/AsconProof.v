(** Ascon-Hash256 / Ascon-XOF128 streaming. *)
From Verif Require Import Bytes Words KeccakSpec SpongeSpec AsconSpec AsconModel KeccakBytes Sha3Proof AsconPerm.

(** A split is safe when no update ends exactly on a block boundary after starting inside that block. *)
Fixpoint safe_split (n : nat) (ms : list (list Z)) : Prop :=
  match ms with
  | [] => True
  | x :: ms' => ~ ((n mod 8 <> 0)%nat /\ (n mod 8 + length x = 8)%nat) /\ safe_split (n + length x) ms'
  end.

Section A.
  Variable P : nat -> list Z -> list Z.
  Let f := P 12%nat.

  Lemma ascon_loop_ok : forall fuel st inp, (length inp <= fuel)%nat ->
    ascon_loop P fuel 12 st inp = (absorb f st (full_chunks 8 inp), tail_chunk 8 inp).
  Proof.
    induction fuel as [|n IH]; intros st inp Hf; cbn [ascon_loop].
    - destruct inp; simpl in Hf; [|lia].
      destruct (full_chunks_small 8 [] ltac:(lia)) as [-> ->]; [simpl; lia|]. reflexivity.
    - change arate with 8%nat. destruct (8 <=? length inp)%nat eqn:E.
      + apply Nat.leb_le in E. rewrite IH by (rewrite skipn_length; lia).
        destruct (full_chunks_cons 8 (firstn 8 inp) (skipn 8 inp) ltac:(lia)) as [G1 G2].
        { rewrite firstn_length. lia. }
        rewrite firstn_skipn in G1, G2. rewrite G1, G2.
        unfold absorb. cbn [fold_left]. unfold absorb_block at 3. rewrite <- xor_at_0. reflexivity.
      + apply Nat.leb_gt in E. destruct (full_chunks_small 8 inp ltac:(lia) E) as [-> ->]. reflexivity.
  Qed.

  Definition aabsorbed (s0 m : list Z) : list Z :=
    xor_into (absorb f s0 (full_chunks 8 m)) (tail_chunk 8 m).

  Record ainv (s0 : list Z) (c : actx) (m : list Z) : Prop := {
    ainv_st : as_state c = aabsorbed s0 m;
    ainv_len : as_msglen c = Z.of_nat (length m);
    ainv_rb : as_roundb c = 12%nat;
    ainv_off : as_offset c = 0%nat;
    ainv_more : as_more c = false }.

  Lemma apartial_eq : forall s0 c m, ainv s0 c m ->
    Z.to_nat (as_msglen c mod Z.of_nat arate) = (length m mod 8)%nat.
  Proof.
    intros s0 c m H. rewrite (ainv_len _ _ _ H). unfold arate.
    rewrite <- Nat2Z.inj_mod, Nat2Z.id. reflexivity.
  Qed.

  Lemma ascon_absorb_inv : forall s0 c m x, ainv s0 c m ->
    Z.of_nat (length m + length x) < 2 ^ 64 ->
    ~ ((length m mod 8 <> 0)%nat /\ (length m mod 8 + length x = 8)%nat) ->
    ainv s0 (ascon_absorb P c x) (m ++ x) /\ as_digestsize (ascon_absorb P c x) = as_digestsize c.
  Proof.
    intros s0 c m x H Hlen Hsafe. unfold ascon_absorb.
    rewrite (apartial_eq _ _ _ H), (ainv_rb _ _ _ H).
    assert (Hml : t64 (as_msglen c + Z.of_nat (length x)) = Z.of_nat (length (m ++ x))).
    { rewrite (ainv_len _ _ _ H), app_length, Nat2Z.inj_add. apply t64_id. unfold w64. lia. }
    rewrite Hml.
    assert (H8 : (0 < 8)%nat) by lia.
    pose proof (tail_chunk_length 8 m H8) as Ht.
    destruct (full_chunks_app 8 m x H8) as [F1 F2].
    destruct (length m mod 8 =? 0)%nat eqn:E0.
    - apply Nat.eqb_eq in E0. rewrite E0 in Ht. apply length_zero_iff_nil in Ht.
      rewrite Ht in F1, F2. cbn [app] in F1, F2.
      rewrite ascon_loop_ok by lia. split; [|reflexivity]. constructor; cbn [as_state as_msglen as_roundb as_offset as_more]; auto; [|apply H].
      unfold aabsorbed. rewrite F1, F2. unfold absorb. rewrite fold_left_app.
      rewrite (ainv_st _ _ _ H), xor_at_0. unfold aabsorbed. rewrite Ht, xor_into_nil. reflexivity.
    - apply Nat.eqb_neq in E0. unfold arate.
      destruct (length x <? 8 - length m mod 8)%nat eqn:E1.
      + apply Nat.ltb_lt in E1.
        destruct (full_chunks_small 8 (tail_chunk 8 m ++ x) H8) as [G1 G2].
        { rewrite app_length. lia. }
        split; [|reflexivity]. constructor; cbn [as_state as_msglen as_roundb as_offset as_more]; auto; [|apply H].
        unfold aabsorbed. rewrite F1, F2, G1, G2, app_nil_r, (ainv_st _ _ _ H).
        unfold aabsorbed. rewrite <- xor_at_0, <- xor_at_0, xor_at_app, Ht. reflexivity.
      + apply Nat.ltb_ge in E1. set (todo := (8 - length m mod 8)%nat) in *.
        pose proof (Nat.mod_upper_bound (length m) 8) as Hub.
        assert (Hrest : (0 < length (skipn todo x))%nat) by (rewrite skipn_length; lia).
        apply Nat.ltb_lt in Hrest. rewrite Hrest.
        rewrite ascon_loop_ok by lia.
        destruct (full_chunks_cons 8 (tail_chunk 8 m ++ firstn todo x) (skipn todo x) H8) as [G1 G2].
        { rewrite app_length, firstn_length. lia. }
        rewrite <- app_assoc, firstn_skipn in G1, G2.
        split; [|reflexivity]. constructor; cbn [as_state as_msglen as_roundb as_offset as_more]; auto; [|apply H].
        unfold aabsorbed. rewrite F1, F2, G1, G2. unfold absorb. rewrite fold_left_app.
        cbn [fold_left]. rewrite xor_at_0.
        do 3 f_equal. unfold absorb_block at 1. unfold f at 1. f_equal.
        rewrite (ainv_st _ _ _ H). unfold aabsorbed.
        rewrite <- (xor_at_0 _ (tail_chunk 8 m ++ _)), <- (xor_at_0 _ (tail_chunk 8 m)), xor_at_app, Ht.
        reflexivity.
  Qed.

  Lemma ascon_updates_inv : forall ms s0 c m, ainv s0 c m ->
    Z.of_nat (length m + length (concat ms)) < 2 ^ 64 -> safe_split (length m) ms ->
    ainv s0 (ascon_updates P c ms) (m ++ concat ms) /\
    as_digestsize (ascon_updates P c ms) = as_digestsize c.
  Proof.
    induction ms as [|x ms IH]; intros s0 c m H Hlen Hs; cbn [concat] in *.
    - rewrite app_nil_r. auto.
    - destruct Hs as [Hs1 Hs2]. unfold ascon_updates in *. cbn [fold_left]. rewrite app_length in Hlen.
      destruct (ascon_absorb_inv s0 c m x H ltac:(lia) Hs1) as [A B].
      rewrite app_assoc, <- B. apply IH; auto; rewrite app_length; [lia|exact Hs2].
  Qed.

  (** Padding and the initial permutation of the squeeze. *)
  Lemma apad_state : forall s0 m,
    f (xor_at (aabsorbed s0 m) (length m mod 8) [1]) = absorb f s0 (full_chunks 8 (apad m)).
  Proof.
    intros s0 m. unfold apad. assert (H8 : (0 < 8)%nat) by lia.
    pose proof (tail_chunk_length 8 m H8) as Ht.
    pose proof (Nat.mod_upper_bound (length m) 8 ltac:(lia)) as Hub.
    destruct (full_chunks_app 8 m ([1] ++ zeros (7 - length m mod 8)) H8) as [F _]. rewrite F.
    assert (E : full_chunks 8 (tail_chunk 8 m ++ [1] ++ zeros (7 - length m mod 8)) =
                [tail_chunk 8 m ++ [1] ++ zeros (7 - length m mod 8)]).
    { rewrite <- (app_nil_r (tail_chunk 8 m ++ _)) at 1.
      destruct (full_chunks_cons 8 (tail_chunk 8 m ++ [1] ++ zeros (7 - length m mod 8)) [] H8) as [-> _].
      { rewrite !app_length, length_zeros. cbn [length]. lia. }
      destruct (full_chunks_small 8 [] H8) as [-> _]; [simpl; lia|]. reflexivity. }
    rewrite E. unfold absorb. rewrite fold_left_app. cbn [fold_left]. unfold absorb_block at 1. f_equal.
    unfold aabsorbed. rewrite <- !xor_at_0, !xor_at_app, Ht. cbn [Nat.add length].
    rewrite xor_at_zeros. reflexivity.
  Qed.

  Variable HP : forall s, length s = 40%nat -> length (f s) = 40%nat.

  Lemma asqueeze_ok : forall S0 fuel p len, length S0 = 40%nat -> (len <= fuel)%nat ->
    ascon_squeeze_loop P fuel 12 (Nat.iter (p / 8) f S0) (p mod 8) len =
    (map (out_byte f 8 S0) (seq p len), Nat.iter ((p + len) / 8) f S0, ((p + len) mod 8)%nat).
  Proof.
    intros S0 fuel. induction fuel as [|n IH]; intros p len HS Hf.
    - assert (len = 0)%nat by lia. subst. rewrite Nat.add_0_r. reflexivity.
    - cbn [ascon_squeeze_loop]. destruct (len =? 0)%nat eqn:E0.
      { apply Nat.eqb_eq in E0. subst. rewrite Nat.add_0_r. reflexivity. }
      apply Nat.eqb_neq in E0. unfold arate.
      pose proof (Nat.mod_upper_bound p 8 ltac:(lia)) as Hub.
      pose proof (Nat.div_mod p 8 ltac:(lia)) as Hdm.
      set (todo := if (8 - p mod 8 <? len)%nat then (8 - p mod 8)%nat else len).
      assert (Ht : (0 < todo /\ todo <= 8 - p mod 8 /\ todo <= len)%nat).
      { unfold todo. destruct (8 - p mod 8 <? len)%nat eqn:E1;
          [apply Nat.ltb_lt in E1|apply Nat.ltb_ge in E1]; lia. }
      destruct Ht as (Ht1 & Ht2 & Ht3). clearbody todo.
      replace ((p mod 8 + todo) mod 8)%nat with ((p + todo) mod 8)%nat
        by (rewrite Nat.add_mod_idemp_l by lia; reflexivity).
      set (st1 := if ((p + todo) mod 8 =? 0)%nat then _ else _).
      assert (Hst : st1 = Nat.iter ((p + todo) / 8) f S0).
      { unfold st1. set (q := (p / 8)%nat) in *. set (o := (p mod 8)%nat) in *.
        destruct (Nat.eq_dec (o + todo) 8) as [Eq|Nq].
        - replace ((p + todo) / 8)%nat with (S q) by (apply (Nat.div_unique _ _ _ 0); lia).
          replace ((p + todo) mod 8)%nat with 0%nat by (apply (Nat.mod_unique _ _ (S q)); lia).
          reflexivity.
        - replace ((p + todo) / 8)%nat with q by (apply (Nat.div_unique _ _ _ (o + todo)); lia).
          replace ((p + todo) mod 8)%nat with (o + todo)%nat by (apply (Nat.mod_unique _ _ q); lia).
          destruct (o + todo =? 0)%nat eqn:Z; [apply Nat.eqb_eq in Z; lia|reflexivity]. }
      rewrite Hst, IH by (auto; lia).
      replace (p + todo + (len - todo))%nat with (p + len)%nat by lia.
      f_equal. f_equal.
      assert (HL : forall k, length (Nat.iter k f S0) = 40%nat).
      { induction k; simpl; auto. }
      rewrite (slice_map 8) by (rewrite ?HL; lia).
      replace len with (todo + (len - todo))%nat at 2 by lia.
      rewrite seq_app, map_app. f_equal.
      apply nth_ext with (d := 0) (d' := 0); rewrite !map_length, !seq_length; auto.
      intros i Hi. rewrite !nth_map_seq by lia.
      unfold out_byte.
      replace ((p + i) mod 8)%nat with (p mod 8 + i)%nat by (apply (Nat.mod_unique _ _ (p / 8)); lia).
      replace ((p + i) / 8)%nat with (p / 8)%nat by (apply (Nat.div_unique _ _ _ (p mod 8 + i)); lia).
      reflexivity.
  Qed.

  Record asinv (S0 : list Z) (p : nat) (c : actx) : Prop := {
    asinv_st : as_state c = Nat.iter (p / 8) f S0;
    asinv_off : as_offset c = (p mod 8)%nat;
    asinv_rb : as_roundb c = 12%nat;
    asinv_more : as_more c = true }.

  Lemma aread_sinv : forall S0 p c n, asinv S0 p c -> length S0 = 40%nat ->
    fst (ascon_xof_read P c n) = map (out_byte f 8 S0) (seq p n) /\
    asinv S0 (p + n) (snd (ascon_xof_read P c n)).
  Proof.
    intros S0 p c n H HS. unfold ascon_xof_read, ascon_squeeze.
    cbn [as_more as_state as_msglen as_digestsize as_offset as_roundb].
    rewrite (asinv_more _ _ _ H), (asinv_st _ _ _ H), (asinv_off _ _ _ H), (asinv_rb _ _ _ H).
    rewrite asqueeze_ok by auto. cbn [fst snd]. split; [reflexivity|]. constructor; reflexivity.
  Qed.

  Lemma length_absorb40 : forall bs s, length s = 40%nat -> length (absorb f s bs) = 40%nat.
  Proof.
    induction bs as [|b bs IH]; intros s H; auto. cbn. apply IH. unfold absorb_block. apply HP.
    rewrite length_xor_into. exact H.
  Qed.

  Lemma aread_first : forall s0 c m n, ainv s0 c m -> length s0 = 40%nat ->
    let S0 := absorb f s0 (full_chunks 8 (apad m)) in
    fst (ascon_xof_read P c n) = map (out_byte f 8 S0) (seq 0 n) /\
    asinv S0 n (snd (ascon_xof_read P c n)).
  Proof.
    intros s0 c m n H HS S0. unfold ascon_xof_read, ascon_squeeze.
    cbn [as_more as_state as_msglen as_digestsize as_offset as_roundb].
    rewrite (ainv_more _ _ _ H), (apartial_eq _ _ _ H), (ainv_rb _ _ _ H), (ainv_off _ _ _ H), (ainv_st _ _ _ H).
    fold f. rewrite apad_state. fold S0.
    pose proof (asqueeze_ok S0 n 0 n (length_absorb40 _ _ HS) ltac:(lia)) as Q.
    change (0 / 8)%nat with 0%nat in Q. change (0 mod 8)%nat with 0%nat in Q.
    unfold Nat.iter in Q at 1. cbn [nat_rect] in Q. rewrite Q. cbn [fst snd].
    split; [reflexivity|]. constructor; reflexivity.
  Qed.

  Lemma asqueeze_first : forall s0 c m, ainv s0 c m -> length s0 = 40%nat ->
    fst (ascon_squeeze P c) =
    map (out_byte (P 12%nat) 8 (absorb (P 12%nat) s0 (full_chunks 8 (apad m)))) (seq 0 (as_digestsize c)).
  Proof.
    intros s0 c m H HS. destruct (aread_first s0 c m (as_digestsize c) H HS) as [E _].
    unfold ascon_xof_read in E. destruct c; exact E.
  Qed.

  Lemma areads_sinv : forall ns S0 p c, asinv S0 p c -> length S0 = 40%nat ->
    concat (fst (ascon_xof_reads P c ns)) = map (out_byte f 8 S0) (seq p (list_sum ns)) /\
    map (@length Z) (fst (ascon_xof_reads P c ns)) = ns.
  Proof.
    induction ns as [|n ns IH]; intros S0 p c H HS; cbn [ascon_xof_reads].
    - cbn. auto.
    - destruct (aread_sinv S0 p c n H HS) as [E1 E2].
      destruct (ascon_xof_read P c n) as [o c1]. cbn [fst snd] in E1, E2.
      destruct (IH S0 (p + n)%nat c1 E2 HS) as (F1 & F2).
      destruct (ascon_xof_reads P c1 ns) as [os c2]. cbn [fst snd] in *. subst o.
      change (list_sum (n :: ns)) with (n + list_sum ns)%nat. split.
      + cbn [concat]. rewrite F1, seq_app, map_app. reflexivity.
      + cbn [map]. rewrite map_length, seq_length, F2. reflexivity.
  Qed.

  Lemma areads_first : forall ns s0 c m, ainv s0 c m -> length s0 = 40%nat ->
    let S0 := absorb f s0 (full_chunks 8 (apad m)) in
    concat (fst (ascon_xof_reads P c ns)) = map (out_byte f 8 S0) (seq 0 (list_sum ns)) /\
    map (@length Z) (fst (ascon_xof_reads P c ns)) = ns.
  Proof.
    destruct ns as [|n ns]; intros s0 c m H HS S0; cbn [ascon_xof_reads]; [cbn; auto|].
    destruct (aread_first s0 c m n H HS) as [E1 E2].
    destruct (ascon_xof_read P c n) as [o c1]. cbn [fst snd] in E1, E2. fold S0 in E1, E2.
    destruct (areads_sinv ns S0 n c1 E2 (length_absorb40 _ _ HS)) as (F1 & F2).
    destruct (ascon_xof_reads P c1 ns) as [os c2]. cbn [fst snd] in *. subst o.
    change (list_sum (n :: ns)) with (n + list_sum ns)%nat. split.
    - cbn [concat]. rewrite F1, seq_app, map_app. reflexivity.
    - cbn [map]. rewrite map_length, seq_length, F2. reflexivity.
  Qed.
End A.

(** From the model's permutation to the one of the standard. *)
Lemma in12 : In 12%nat [6; 8; 12]%nat.
Proof. right; right; left; reflexivity. Qed.

Lemma absorb_ext : forall (f g : list Z -> list Z) (Q : list Z -> Prop),
  (forall s, Q s -> f s = g s /\ Q (f s)) -> (forall s b, Q s -> bytes b -> Q (xor_into s b)) ->
  forall bs s, Forall bytes bs -> Q s -> absorb f s bs = absorb g s bs /\ Q (absorb f s bs).
Proof.
  intros f g Q Hfg Hx. induction bs as [|b bs IH]; intros s Hb Hs; [split; auto|].
  inversion Hb; subst.
  change (absorb f s (b :: bs)) with (absorb f (f (xor_into s b)) bs).
  change (absorb g s (b :: bs)) with (absorb g (g (xor_into s b)) bs).
  destruct (Hfg (xor_into s b)) as [E1 E2]; auto. rewrite <- E1. auto.
Qed.

Lemma absorb_asconB : forall bs s, Forall bytes bs -> st40 s ->
  absorb (asconB 12) s bs = absorb (ascon_p_bytes 12) s bs /\ st40 (absorb (asconB 12) s bs).
Proof.
  apply absorb_ext.
  - intros s H. split; [apply asconB_spec|apply asconB_st40]; auto using in12.
  - intros s b [H1 H2] Hb. split; [rewrite length_xor_into; auto|apply bytes_xor_into; auto].
Qed.

Lemma iter_ext : forall (f g : list Z -> list Z) (Q : list Z -> Prop),
  (forall s, Q s -> f s = g s /\ Q (f s)) ->
  forall k s, Q s -> Nat.iter k f s = Nat.iter k g s /\ Q (Nat.iter k f s).
Proof.
  intros f g Q Hfg. induction k as [|k IH]; intros s Hs; [split; auto|].
  destruct (IH s Hs) as [A B]. cbn. destruct (Hfg _ B) as [E1 E2].
  change (nat_rect _ s (fun _ => f) k) with (Nat.iter k f s).
  change (nat_rect _ s (fun _ => g) k) with (Nat.iter k g s).
  rewrite <- A. auto.
Qed.

Lemma iter_asconB : forall k s, st40 s ->
  Nat.iter k (asconB 12) s = Nat.iter k (ascon_p_bytes 12) s /\ st40 (Nat.iter k (asconB 12) s).
Proof.
  apply iter_ext. intros s H. split; [apply asconB_spec|apply asconB_st40]; auto using in12.
Qed.

Lemma bytes_apad : forall m, bytes m -> bytes (apad m).
Proof.
  intros m H. unfold apad. apply bytes_app; auto. apply bytes_app.
  - repeat constructor; unfold byte; lia.
  - apply bytes_zeros.
Qed.

Lemma init_states :
  bytes_of_words ascon_256_state = ascon_p_bytes 12 (le_bytes 8 0x0000080100cc0002 ++ zeros 32) /\
  bytes_of_words ascon_xof_state = ascon_p_bytes 12 (le_bytes 8 0x0000080000cc0003 ++ zeros 32).
Proof.
  assert (S : forall iv, st40 (le_bytes 8 iv ++ zeros 32)).
  { intros. split; [rewrite app_length, length_le_bytes, length_zeros; reflexivity|].
    apply bytes_app; [apply bytes_le_bytes|apply bytes_zeros]. }
  split; (rewrite <- asconB_spec; [|exact in12|apply S]); vm_compute; reflexivity.
Qed.

Lemma out_asconB : forall s0 iv m, bytes m -> st40 s0 ->
  s0 = ascon_p_bytes 12 (le_bytes 8 iv ++ zeros 32) -> forall p n,
  map (out_byte (asconB 12) 8 (absorb (asconB 12) s0 (full_chunks 8 (apad m)))) (seq p n) =
  ascon_hash_out iv m p n.
Proof.
  intros s0 iv m Hm Hs E p n. unfold ascon_hash_out, ascon_hash_state.
  destruct (absorb_asconB (full_chunks 8 (apad m)) s0) as [A B]; auto.
  { apply bytes_full_chunks, bytes_apad; auto. }
  apply map_ext. intros i. unfold out_byte.
  destruct (iter_asconB (i / 8) _ B) as [C _]. rewrite C, A, <- E. reflexivity.
Qed.

Lemma st40_256 : st40 (bytes_of_words ascon_256_state).
Proof. split; [reflexivity|apply bytes_flat_le8]. Qed.
Lemma st40_xof : st40 (bytes_of_words ascon_xof_state).
Proof. split; [reflexivity|apply bytes_flat_le8]. Qed.

Lemma init_ainv : forall s n, length s = 40%nat -> ainv asconB s (mkAs s 0 n 0 12 false) [].
Proof.
  intros s n H. constructor; try reflexivity.
  unfold aabsorbed. destruct (full_chunks_small 8 [] ltac:(lia)) as [-> ->]; [simpl; lia|].
  cbn [absorb fold_left]. rewrite xor_into_nil. reflexivity.
Qed.

Lemma asconB12_len : forall s, length s = 40%nat -> length (asconB 12 s) = 40%nat.
Proof. intros. apply asconB_length. Qed.

Lemma ascon256_streaming : forall ms, Forall bytes ms -> Z.of_nat (length (concat ms)) < 2 ^ 64 ->
  safe_split 0 ms ->
  fst (ascon_squeeze asconB (ascon_updates asconB ascon_256_init ms)) = ASCON_HASH256 (concat ms).
Proof.
  intros ms Hb Hl Hs.
  destruct (ascon_updates_inv asconB ms (bytes_of_words ascon_256_state) ascon_256_init []) as [I D]; auto.
  { apply init_ainv. reflexivity. }
  cbn [app] in I. cbn [as_digestsize ascon_256_init] in D.
  rewrite (asqueeze_first asconB asconB12_len _ _ _ I) by reflexivity. rewrite D.
  apply (out_asconB (bytes_of_words ascon_256_state) 0x0000080100cc0002).
  - apply Forall_concat. exact Hb.
  - apply st40_256.
  - exact (proj1 init_states).
Qed.

Lemma asconxof_streaming : forall ms ns, Forall bytes ms -> Z.of_nat (length (concat ms)) < 2 ^ 64 ->
  safe_split 0 ms ->
  let outs := fst (ascon_xof_reads asconB (ascon_updates asconB ascon_xof_init ms) ns) in
  concat outs = ASCON_XOF128 (concat ms) (list_sum ns) /\ map (@length Z) outs = ns.
Proof.
  intros ms ns Hb Hl Hs outs.
  destruct (ascon_updates_inv asconB ms (bytes_of_words ascon_xof_state) ascon_xof_init []) as [I D]; auto.
  { apply init_ainv. reflexivity. }
  cbn [app] in I.
  destruct (areads_first asconB asconB12_len ns _ _ _ I) as [E1 E2]; [reflexivity|].
  split; [|exact E2]. unfold outs. rewrite E1. apply out_asconB.
  - apply Forall_concat. exact Hb.
  - apply st40_xof.
  - exact (proj2 init_states).
Qed.

(** Halving a block and appending another one commutes: the missing permutation. *)
Lemma ascon_block_swap : forall (P : nat -> list Z -> list Z) c u v w rest,
  length u = 4%nat -> length v = 4%nat -> length w = 8%nat ->
  as_msglen c = 0 -> length (as_state c) = 40%nat ->
  ascon_updates P c (u :: v :: w :: rest) = ascon_updates P c (firstn 4 w :: skipn 4 w :: (u ++ v) :: rest).
Proof.
  intros P c u v w rest Hu Hv Hw Hm Hst. unfold ascon_updates. cbn [fold_left]. f_equal.
  destruct c as [st ml ds off rb more]. cbn [as_msglen as_state] in Hm, Hst. subst ml.
  assert (L4 : length (firstn 4 w) = 4%nat) by (rewrite firstn_length; lia).
  assert (L4' : length (skipn 4 w) = 4%nat) by (rewrite skipn_length; lia).
  assert (L8 : length (u ++ v) = 8%nat) by (rewrite app_length; lia).
  assert (A : forall a b d, length a = 4%nat -> length b = 4%nat -> length d = 8%nat ->
    ascon_absorb P (ascon_absorb P (ascon_absorb P (mkAs st 0 ds off rb more) a) b) d =
    mkAs (P rb (xor_at (xor_at st 0 (a ++ b)) 0 d)) 16 ds off rb false).
  { intros a b d Ha Hb Hd.
    assert (E1 : ascon_absorb P (mkAs st 0 ds off rb more) a = mkAs (xor_at st 0 a) 4 ds off rb false).
    { unfold ascon_absorb. cbn [as_msglen as_state as_digestsize as_offset as_roundb].
      change (Z.to_nat (0 mod Z.of_nat arate) =? 0)%nat with true. cbn iota. rewrite Ha.
      cbn [ascon_loop]. unfold arate. rewrite Ha. reflexivity. }
    rewrite E1.
    assert (E2 : ascon_absorb P (mkAs (xor_at st 0 a) 4 ds off rb false) b =
                 mkAs (xor_at st 0 (a ++ b)) 8 ds off rb false).
    { unfold ascon_absorb. cbn [as_msglen as_state as_digestsize as_offset as_roundb].
      change (Z.to_nat (4 mod Z.of_nat arate)) with 4%nat. cbn [Nat.eqb]. rewrite Hb.
      change (4 <? arate - 4)%nat with false. cbn iota.
      change (arate - 4)%nat with 4%nat.
      rewrite (firstn_all2 b) by lia. rewrite (skipn_all2 b) by lia. cbn [length Nat.ltb Nat.leb ascon_loop].
      rewrite xor_at_app, Ha. cbn [Nat.add]. rewrite !xor_at_0, xor_into_nil. reflexivity. }
    rewrite E2.
    unfold ascon_absorb. cbn [as_msglen as_state as_digestsize as_offset as_roundb].
    change (Z.to_nat (8 mod Z.of_nat arate) =? 0)%nat with true. cbn iota. rewrite Hd.
    cbn [ascon_loop]. unfold arate. rewrite Hd. cbn [Nat.leb].
    rewrite (firstn_all2 d) by lia. rewrite (skipn_all2 d) by lia. cbn [length Nat.leb].
    rewrite !xor_at_0, xor_into_nil. reflexivity. }
  rewrite !A by assumption. rewrite (firstn_skipn 4 w), xor_at_comm. reflexivity.
Qed.
