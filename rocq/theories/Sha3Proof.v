(** The streaming SHA-3 context computes the FIPS 202 sponge. *)
From Verif Require Import Bytes Words SpongeSpec Sha3Model.

Lemma iter_S_r : forall (A : Type) (f : A -> A) n x, Nat.iter n f (f x) = f (Nat.iter n f x).
Proof. intros A f n x. induction n; simpl; auto. rewrite IHn. reflexivity. Qed.

Lemma xor_at_single : forall s o a b, xor_at (xor_at s o [a]) o [b] = xor_at s o [Z.lxor a b].
Proof.
  intros. apply nth_ext0; rewrite !length_xor_at; auto. intros i Hi.
  rewrite !nth_xor_at by (rewrite ?length_xor_at; lia).
  destruct (i <? o)%nat; auto.
  destruct (i - o)%nat as [|k]; cbn [nth].
  - apply Z.lxor_assoc.
  - destruct k; rewrite !Z.lxor_0_r; reflexivity.
Qed.

Section P.
  Variable P : list Z -> list Z.
  Variable w r : nat.
  Hypothesis Hr : (0 < r)%nat.

  Lemma absorb_loop_ok : forall fuel st inp, (length inp <= fuel)%nat ->
    absorb_loop P fuel r st inp =
    (fold_left (absorb_block P) (full_chunks r inp) st, tail_chunk r inp).
  Proof.
    induction fuel as [|f IH]; intros st inp Hf; cbn [absorb_loop].
    - destruct inp; simpl in Hf; [|lia].
      destruct (full_chunks_small r [] Hr) as [-> ->]; [simpl; lia|]. reflexivity.
    - destruct (r <=? length inp)%nat eqn:E.
      + apply Nat.leb_le in E. rewrite IH by (rewrite skipn_length; lia).
        rewrite <- (firstn_skipn r inp) at 4 5.
        destruct (full_chunks_cons r (firstn r inp) (skipn r inp) Hr) as [-> ->].
        { rewrite firstn_length. lia. }
        reflexivity.
      + apply Nat.leb_gt in E. destruct (full_chunks_small r inp Hr E) as [-> ->]. reflexivity.
  Qed.

  (** State of a context that absorbed exactly [m]. *)
  Definition absorbed (s0 m : list Z) : list Z :=
    xor_into (absorb P s0 (full_chunks r m)) (tail_chunk r m).

  Record inv (s0 : list Z) (c : kctx) (m : list Z) : Prop := {
    inv_st : k_state c = absorbed s0 m;
    inv_len : k_msglen c = Z.of_nat (length m);
    inv_r : k_r c = r;
    inv_more : k_more c = false }.

  Lemma partial_eq : forall s0 c m, inv s0 c m ->
    Z.to_nat (k_msglen c mod Z.of_nat (k_r c)) = (length m mod r)%nat.
  Proof.
    intros s0 c m H. rewrite (inv_len _ _ _ H), (inv_r _ _ _ H).
    rewrite <- Nat2Z.inj_mod, Nat2Z.id. reflexivity.
  Qed.

  Lemma absorb_inv : forall s0 c m x, inv s0 c m ->
    Z.of_nat (length m + length x) < 2 ^ 64 -> inv s0 (keccak_absorb P c x) (m ++ x).
  Proof.
    intros s0 c m x H Hlen. unfold keccak_absorb.
    pose proof (partial_eq _ _ _ H) as Hp. rewrite (inv_r _ _ _ H) in *. rewrite Hp.
    assert (Hml : t64 (k_msglen c + Z.of_nat (length x)) = Z.of_nat (length (m ++ x))).
    { rewrite (inv_len _ _ _ H), app_length, Nat2Z.inj_add. apply t64_id.
      unfold w64. lia. }
    rewrite Hml.
    pose proof (tail_chunk_length r m Hr) as Ht.
    destruct (full_chunks_app r m x Hr) as [F1 F2].
    destruct (length m mod r =? 0)%nat eqn:E0.
    - apply Nat.eqb_eq in E0. rewrite E0 in Ht. apply length_zero_iff_nil in Ht.
      rewrite Ht in F1, F2. simpl in F1, F2.
      rewrite absorb_loop_ok by lia. constructor; simpl; auto.
      unfold absorbed. rewrite F1, F2. unfold absorb. rewrite fold_left_app.
      rewrite (inv_st _ _ _ H). unfold absorbed. rewrite Ht, xor_into_nil. reflexivity.
    - apply Nat.eqb_neq in E0. destruct (length x <? r - length m mod r)%nat eqn:E1.
      + apply Nat.ltb_lt in E1.
        destruct (full_chunks_small r (tail_chunk r m ++ x) Hr) as [G1 G2].
        { rewrite app_length. lia. }
        constructor; simpl; auto.
        unfold absorbed. rewrite F1, F2, G1, G2, app_nil_r, (inv_st _ _ _ H).
        unfold absorbed, fill_bytes. rewrite <- xor_at_0, <- xor_at_0, xor_at_app, Ht. reflexivity.
      + apply Nat.ltb_ge in E1. set (todo := (r - length m mod r)%nat) in *.
        pose proof (Nat.mod_upper_bound (length m) r) as Hub.
        rewrite absorb_loop_ok by lia.
        destruct (full_chunks_cons r (tail_chunk r m ++ firstn todo x) (skipn todo x) Hr) as [G1 G2].
        { rewrite app_length, firstn_length. lia. }
        rewrite <- app_assoc, firstn_skipn in G1, G2.
        constructor; simpl; auto.
        unfold absorbed. rewrite F1, F2, G1, G2. unfold absorb. rewrite fold_left_app.
        cbn [fold_left]. unfold fill_bytes. rewrite xor_at_0.
        do 3 f_equal. unfold absorb_block. f_equal.
        rewrite (inv_st _ _ _ H). unfold absorbed.
        rewrite <- (xor_at_0 _ (tail_chunk r m ++ _)), <- (xor_at_0 _ (tail_chunk r m)), xor_at_app, Ht.
        reflexivity.
  Qed.

  Lemma updates_inv : forall ms s0 c m, inv s0 c m ->
    Z.of_nat (length m + length (concat ms)) < 2 ^ 64 ->
    inv s0 (keccak_updates P c ms) (m ++ concat ms).
  Proof.
    induction ms as [|x ms IH]; intros s0 c m H Hlen; cbn [concat] in *.
    - rewrite app_nil_r. exact H.
    - unfold keccak_updates. cbn [fold_left]. rewrite app_assoc. apply IH.
      + apply absorb_inv; auto. rewrite app_length in Hlen. lia.
      + rewrite !app_length in *. lia.
  Qed.

  Lemma init_inv : forall a, a_r a = r -> inv (zeros 200) (keccak_init a) [].
  Proof.
    intros a Ha. constructor; simpl; auto.
    unfold absorbed. destruct (full_chunks_small r [] Hr) as [-> ->]; [simpl; lia|]. reflexivity.
  Qed.

  (** Other fields are untouched by updates. *)
  Lemma absorb_fields : forall c x,
    k_padding (keccak_absorb P c x) = k_padding c /\
    k_digestsize (keccak_absorb P c x) = k_digestsize c /\
    k_offset (keccak_absorb P c x) = k_offset c /\ k_r (keccak_absorb P c x) = k_r c /\
    k_more (keccak_absorb P c x) = false.
  Proof.
    intros. unfold keccak_absorb.
    destruct (_ =? 0)%nat.
    - destruct (absorb_loop _ _ _ _). repeat split; auto.
    - destruct (_ <? _)%nat; [repeat split; auto|].
      destruct (absorb_loop _ _ _ _). repeat split; auto.
  Qed.

  Lemma updates_fields : forall ms c,
    k_padding (keccak_updates P c ms) = k_padding c /\
    k_digestsize (keccak_updates P c ms) = k_digestsize c /\
    k_offset (keccak_updates P c ms) = k_offset c /\ k_r (keccak_updates P c ms) = k_r c.
  Proof.
    induction ms as [|x ms IH]; intros c; [repeat split|].
    unfold keccak_updates in *. cbn [fold_left].
    destruct (IH (keccak_absorb P c x)) as (A & B & C & D).
    destruct (absorb_fields c x) as (A' & B' & C' & D' & _).
    rewrite A, B, C, D. auto.
  Qed.

  (** Padding. *)
  Lemma pad_chunks : forall suf m,
    exists blk, full_chunks r (pad r suf m) = full_chunks r m ++ [blk] /\
      forall s, xor_into s blk =
        xor_at (xor_at (xor_into s (tail_chunk r m)) (length m mod r) [suf]) (r - 1) [128].
  Proof.
    intros suf m. unfold pad.
    pose proof (tail_chunk_length r m Hr) as Ht.
    pose proof (Nat.mod_upper_bound (length m) r ltac:(lia)) as Hub.
    destruct (r - length m mod r =? 1)%nat eqn:E.
    - apply Nat.eqb_eq in E.
      destruct (full_chunks_app r m [Z.lxor suf 128] Hr) as [F _]. rewrite F.
      exists (tail_chunk r m ++ [Z.lxor suf 128]). split.
      + f_equal. rewrite <- (app_nil_r (tail_chunk r m ++ [Z.lxor suf 128])).
        destruct (full_chunks_cons r (tail_chunk r m ++ [Z.lxor suf 128]) [] Hr) as [-> _].
        { rewrite app_length. simpl. lia. }
        rewrite app_nil_r.
        destruct (full_chunks_small r [] Hr) as [-> _]; [simpl; lia|]. reflexivity.
      + intros s. rewrite <- !xor_at_0, xor_at_app, Ht. cbn [Nat.add].
        replace (r - 1)%nat with (length m mod r)%nat by lia.
        rewrite xor_at_single. reflexivity.
    - apply Nat.eqb_neq in E. set (q := (r - length m mod r)%nat) in *.
      destruct (full_chunks_app r m ([suf] ++ zeros (q - 2) ++ [128]) Hr) as [F _]. rewrite F.
      exists (tail_chunk r m ++ [suf] ++ zeros (q - 2) ++ [128]). split.
      + f_equal. rewrite <- (app_nil_r (tail_chunk r m ++ _)).
        destruct (full_chunks_cons r (tail_chunk r m ++ [suf] ++ zeros (q - 2) ++ [128]) [] Hr) as [-> _].
        { rewrite !app_length, length_zeros. simpl. lia. }
        rewrite app_nil_r.
        destruct (full_chunks_small r [] Hr) as [-> _]; [simpl; lia|]. reflexivity.
      + intros s. rewrite <- !xor_at_0, !xor_at_app, Ht. cbn [Nat.add length].
        rewrite length_zeros, xor_at_zeros.
        replace (length m mod r + 1 + (q - 2))%nat with (r - 1)%nat by lia. reflexivity.
  Qed.

  Lemma keccak_pad_ok : forall c m suf, inv (zeros w) c m -> k_padding c = suf -> suf < 128 ->
    P (keccak_pad P c) = sponge_state P w r suf m.
  Proof.
    intros c m suf H Hs Hlt. unfold keccak_pad.
    rewrite (partial_eq _ _ _ H), Hs, (inv_r _ _ _ H), (inv_st _ _ _ H).
    replace (128 <=? suf) with false by (symmetry; apply Z.leb_gt; lia).
    cbn [andb]. unfold sponge_state.
    destruct (pad_chunks suf m) as (blk & -> & Hb).
    unfold absorb. rewrite fold_left_app. cbn [fold_left]. unfold absorb_block at 1. f_equal.
    rewrite Hb. reflexivity.
  Qed.

  Lemma length_absorbed : forall s0 m, length s0 = w ->
    (forall s, length s = w -> length (P s) = w) -> length (absorb P s0 m) = w.
  Proof.
    intros s0 m. revert s0. induction m as [|b m IH]; intros s0 H HP; simpl; auto.
    apply IH; auto. unfold absorb_block. apply HP. rewrite length_xor_into. exact H.
  Qed.

  Lemma keccak_pad_length : forall c m suf, inv (zeros w) c m -> k_padding c = suf -> suf < 128 ->
    (forall s, length s = w -> length (P s) = w) -> length (keccak_pad P c) = w.
  Proof.
    intros c m suf H Hs Hlt HP. unfold keccak_pad.
    rewrite Hs. replace (128 <=? suf) with false by (symmetry; apply Z.leb_gt; lia).
    cbn [andb]. unfold fill_bytes. rewrite !length_xor_at, (inv_st _ _ _ H).
    unfold absorbed. rewrite length_xor_into. apply length_absorbed; auto. apply length_zeros.
  Qed.

  (** Squeezing: [st] is the state that has been permuted ceil(p/r) times. *)
  Definition ceil_div (p : nat) : nat := ((p + r - 1) / r)%nat.

  Lemma ceil_div_step : forall p todo, (0 < todo)%nat -> (todo <= r - p mod r)%nat ->
    ceil_div (p + todo) = (if (p mod r =? 0)%nat then S (ceil_div p) else ceil_div p) /\
    (p / r)%nat = Nat.pred (ceil_div (p + todo)) /\ (0 < ceil_div (p + todo))%nat.
  Proof.
    intros p todo H0 H1. unfold ceil_div.
    pose proof (Nat.div_mod p r ltac:(lia)) as Hdm.
    pose proof (Nat.mod_upper_bound p r ltac:(lia)) as Hub.
    set (q := (p / r)%nat) in *. set (o := (p mod r)%nat) in *.
    assert (E : ((p + todo + r - 1) / r = S q)%nat).
    { symmetry. apply (Nat.div_unique _ _ _ (o + todo - 1)); lia. }
    rewrite E. repeat split; try lia.
    destruct (o =? 0)%nat eqn:Eo.
    - apply Nat.eqb_eq in Eo. f_equal. apply (Nat.div_unique _ _ _ (r - 1)); lia.
    - apply Nat.eqb_neq in Eo. apply (Nat.div_unique _ _ _ (o - 1)); lia.
  Qed.

  Lemma slice_map : forall s off n, (off + n <= length s)%nat ->
    slice s off n = map (fun i => nth i s 0) (seq off n).
  Proof.
    intros s off n H. unfold slice. apply nth_ext0.
    - rewrite firstn_length, skipn_length, map_length, seq_length. lia.
    - intros i Hi. rewrite firstn_length, skipn_length in Hi.
      rewrite firstn_nth0 by lia. rewrite skipn_nth0.
      rewrite nth_map_seq by lia. reflexivity.
  Qed.

  Lemma squeeze_loop_ok : forall S0 fuel p len,
    length S0 = w -> (r <= w)%nat -> (forall s, length s = w -> length (P s) = w) ->
    (len <= fuel)%nat ->
    squeeze_loop P fuel r (Nat.iter (ceil_div p) P S0) (p mod r) len =
    (map (out_byte P r (P S0)) (seq p len), Nat.iter (ceil_div (p + len)) P S0, ((p + len) mod r)%nat).
  Proof.
    intros S0 fuel. induction fuel as [|f IH]; intros p len HS Hrw HP Hf.
    - assert (len = 0)%nat by lia. subst. rewrite Nat.add_0_r. reflexivity.
    - cbn [squeeze_loop]. destruct (len =? 0)%nat eqn:E0.
      { apply Nat.eqb_eq in E0. subst. rewrite Nat.add_0_r. reflexivity. }
      apply Nat.eqb_neq in E0.
      pose proof (Nat.mod_upper_bound p r ltac:(lia)) as Hub.
      set (todo := if (r - p mod r <? len)%nat then (r - p mod r)%nat else len).
      assert (Ht : (0 < todo /\ todo <= r - p mod r /\ todo <= len)%nat).
      { unfold todo. destruct (r - p mod r <? len)%nat eqn:E1;
          [apply Nat.ltb_lt in E1|apply Nat.ltb_ge in E1]; lia. }
      destruct Ht as (Ht1 & Ht2 & Ht3). clearbody todo.
      destruct (ceil_div_step p todo Ht1 Ht2) as (Hc & Hd & Hpos).
      set (st1 := if (p mod r =? 0)%nat then P (Nat.iter (ceil_div p) P S0)
                  else Nat.iter (ceil_div p) P S0).
      assert (Hst : st1 = Nat.iter (ceil_div (p + todo)) P S0).
      { unfold st1. rewrite Hc. destruct (p mod r =? 0)%nat; reflexivity. }
      rewrite Hst.
      replace ((p mod r + todo) mod r)%nat with ((p + todo) mod r)%nat.
      2: { rewrite Nat.add_mod_idemp_l by lia. reflexivity. }
      rewrite IH by (auto; lia).
      replace (p + todo + (len - todo))%nat with (p + len)%nat by lia.
      f_equal. f_equal.
      assert (HL : forall n, length (Nat.iter n P S0) = w).
      { induction n; simpl; auto. }
      rewrite slice_map by (rewrite HL; lia).
      replace len with (todo + (len - todo))%nat at 2 by lia.
      rewrite seq_app, map_app. f_equal.
      apply nth_ext with (d := 0) (d' := 0); rewrite !map_length, !seq_length; auto.
      intros i Hi.
      rewrite !nth_map_seq by lia.
      unfold out_byte. rewrite iter_S_r.
      pose proof (Nat.div_mod p r ltac:(lia)) as Hdm.
      replace ((p + i) mod r)%nat with (p mod r + i)%nat
        by (apply (Nat.mod_unique _ _ (p / r)); lia).
      replace ((p + i) / r)%nat with (p / r)%nat
        by (apply (Nat.div_unique _ _ _ (p mod r + i)); lia).
      rewrite Hd. change (P (Nat.iter (Nat.pred (ceil_div (p + todo))) P S0)) with
        (Nat.iter (S (Nat.pred (ceil_div (p + todo)))) P S0).
      rewrite Nat.succ_pred by lia. reflexivity.
  Qed.

  (** Invariant of a context in the squeezing phase at stream position p. *)
  Record sinv (S0 : list Z) (p : nat) (c : kctx) : Prop := {
    sinv_st : k_state c = Nat.iter (ceil_div p) P S0;
    sinv_off : k_offset c = (p mod r)%nat;
    sinv_r : k_r c = r;
    sinv_more : k_more c = true }.

  Lemma read_sinv : forall S0 p c n, sinv S0 p c ->
    length S0 = w -> (r <= w)%nat -> (forall s, length s = w -> length (P s) = w) ->
    fst (xof_read P c n) = map (out_byte P r (P S0)) (seq p n) /\
    sinv S0 (p + n) (snd (xof_read P c n)).
  Proof.
    intros S0 p c n H HS Hrw HP. unfold xof_read, keccak_squeeze, shake_set_digestsize. cbn.
    rewrite (sinv_more _ _ _ H), (sinv_st _ _ _ H), (sinv_off _ _ _ H), (sinv_r _ _ _ H).
    rewrite squeeze_loop_ok by auto. cbn. split; [reflexivity|].
    constructor; reflexivity.
  Qed.

  Lemma read_first : forall c m suf n,
    inv (zeros w) c m -> k_padding c = suf -> suf < 128 -> k_offset c = 0%nat ->
    (r <= w)%nat -> (forall s, length s = w -> length (P s) = w) ->
    fst (xof_read P c n) = sponge P w r suf m 0 n /\
    sinv (keccak_pad P c) n (snd (xof_read P c n)).
  Proof.
    intros c m suf n H Hs Hlt Ho Hrw HP. unfold xof_read, keccak_squeeze, shake_set_digestsize.
    cbn [k_more k_state k_msglen k_digestsize k_offset k_r k_padding].
    assert (Hpad : keccak_pad P (mkK (k_state c) (k_msglen c) n (k_offset c) (k_r c) (k_padding c) (k_more c))
                   = keccak_pad P c) by reflexivity.
    rewrite Hpad, (inv_more _ _ _ H), Ho, (inv_r _ _ _ H).
    pose proof (keccak_pad_length c m suf H Hs Hlt HP) as HL.
    pose proof (squeeze_loop_ok (keccak_pad P c) n 0 n HL Hrw HP (Nat.le_refl _)) as Q.
    rewrite Nat.mod_0_l in Q by lia.
    replace (ceil_div 0) with 0%nat in Q
      by (unfold ceil_div; symmetry; apply Nat.div_small; lia).
    cbn [Nat.iter nat_rect] in Q. unfold Nat.iter in Q at 1. cbn [nat_rect] in Q.
    rewrite Q. cbn. rewrite (keccak_pad_ok c m suf H Hs Hlt). split; [reflexivity|].
    constructor; reflexivity.
  Qed.

  (** For the fixed digest size functions. *)
  Lemma squeeze_first : forall c m suf,
    inv (zeros w) c m -> k_padding c = suf -> suf < 128 -> k_offset c = 0%nat ->
    (r <= w)%nat -> (forall s, length s = w -> length (P s) = w) ->
    fst (keccak_squeeze P c) = sponge P w r suf m 0 (k_digestsize c).
  Proof.
    intros c m suf H Hs Hlt Ho Hrw HP.
    destruct (read_first c m suf (k_digestsize c) H Hs Hlt Ho Hrw HP) as [E _].
    rewrite <- E. unfold xof_read, shake_set_digestsize. destruct c; reflexivity.
  Qed.

  Lemma sinv_fields : forall c n, k_padding (snd (xof_read P c n)) = k_padding c.
  Proof.
    intros. unfold xof_read, keccak_squeeze. cbn.
    destruct (squeeze_loop _ _ _ _ _ _) as [[? ?] ?]. reflexivity.
  Qed.

  Lemma reads_sinv : forall ns S0 p c, sinv S0 p c ->
    length S0 = w -> (r <= w)%nat -> (forall s, length s = w -> length (P s) = w) ->
    concat (fst (xof_reads P c ns)) = map (out_byte P r (P S0)) (seq p (list_sum ns)) /\
    map (@length Z) (fst (xof_reads P c ns)) = ns /\
    sinv S0 (p + list_sum ns) (snd (xof_reads P c ns)).
  Proof.
    induction ns as [|n ns IH]; intros S0 p c H HS Hrw HP; cbn [xof_reads].
    - cbn. rewrite Nat.add_0_r. auto.
    - destruct (read_sinv S0 p c n H HS Hrw HP) as [E1 E2].
      destruct (xof_read P c n) as [o c1]. cbn [fst snd] in E1, E2.
      destruct (IH S0 (p + n)%nat c1 E2 HS Hrw HP) as (F1 & F2 & F3).
      destruct (xof_reads P c1 ns) as [os c2]. cbn [fst snd] in *. subst o.
      change (list_sum (n :: ns)) with (n + list_sum ns)%nat.
      split; [|split].
      + cbn [concat]. rewrite F1, seq_app, map_app. reflexivity.
      + cbn [map]. rewrite map_length, seq_length, F2. reflexivity.
      + rewrite Nat.add_assoc. exact F3.
  Qed.
End P.
