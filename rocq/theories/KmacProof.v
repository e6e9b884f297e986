(** cSHAKE and KMAC of the library equal SP 800-185. *)
From Verif Require Import Bytes Words KeccakModel KeccakSpec SpongeSpec Sha3Model Sha3Proof KeccakBytes
  Fips202 Sha3Top KmacSpec KmacModel.

Lemma le_bytes_map : forall n x, 0 <= x ->
  le_bytes n x = map (fun i => u8 (Z.shiftr x (8 * Z.of_nat i))) (seq 0 n).
Proof.
  induction n as [|n IH]; intros x Hx; [reflexivity|].
  cbn [le_bytes seq map]. f_equal.
  rewrite IH by (apply Z.div_pos; lia). rewrite <- seq_shift, map_map. apply map_ext. intros i.
    f_equal. change 256 with (2 ^ 8). rewrite <- Z.shiftr_div_pow2 by lia.
    rewrite Z.shiftr_shiftr by lia. f_equal. lia.
Qed.

Lemma be_bytes_map : forall n x, 0 <= x ->
  be_bytes n x = map (fun i => u8 (Z.shiftr x (8 * Z.of_nat (n - 1 - i)))) (seq 0 n).
Proof.
  intros n x Hx. unfold be_bytes. rewrite le_bytes_map by auto. rewrite <- map_rev.
  apply nth_ext0.
  - rewrite !map_length, rev_length, !seq_length. reflexivity.
  - intros i Hi. rewrite map_length, rev_length, seq_length in Hi.
    rewrite nth_map_seq by lia. cbn [Nat.add].
    rewrite (nth_indep _ 0 (u8 (Z.shiftr x (8 * Z.of_nat 0)))) by (rewrite map_length, rev_length, seq_length; lia).
    rewrite (map_nth (fun i => u8 (Z.shiftr x (8 * Z.of_nat i)))).
    rewrite rev_nth by (rewrite seq_length; lia). rewrite seq_length, seq_nth by lia.
    do 4 f_equal. lia.
Qed.

Lemma enc_n_ok : forall fuel v, 0 <= v < 2 ^ (8 * Z.of_nat fuel) ->
  enc_n fuel v = if v =? 0 then 0%nat else S (Z.to_nat (Z.log2 v / 8)).
Proof.
  induction fuel as [|f IH]; intros v Hv.
  - cbn in *. assert (v = 0) by lia. subst. reflexivity.
  - cbn [enc_n]. destruct (v =? 0) eqn:E; auto. apply Z.eqb_neq in E. f_equal.
    rewrite IH.
    + rewrite Z.shiftr_div_pow2 by lia. change (2 ^ 8) with 256.
      destruct (v / 256 =? 0) eqn:E2.
      * apply Z.eqb_eq in E2. assert (v < 256).
        { pose proof (Z.div_mod v 256 ltac:(lia)). pose proof (Z.mod_pos_bound v 256 ltac:(lia)). lia. }
        assert (Z.log2 v < 8) by (apply Z.log2_lt_pow2; lia).
        pose proof (Z.log2_nonneg v). rewrite Z.div_small by lia. reflexivity.
      * apply Z.eqb_neq in E2.
        assert (256 <= v).
        { destruct (Z.lt_ge_cases v 256); auto. rewrite Z.div_small in E2 by lia. lia. }
        assert (8 <= Z.log2 v) by (apply Z.log2_le_pow2; lia).
        change 256 with (2 ^ 8). rewrite <- Z.shiftr_div_pow2 by lia.
        rewrite Z.log2_shiftr by lia. rewrite Z.max_r by lia.
        replace (Z.log2 v) with ((Z.log2 v - 8) + 1 * 8) at 2 by lia.
        rewrite Z.div_add by lia.
        assert (0 <= (Z.log2 v - 8) / 8) by (apply Z.div_pos; lia). lia.
    + split; [apply Z.shiftr_nonneg; lia|].
      rewrite Z.shiftr_div_pow2 by lia. apply Z.div_lt_upper_bound; [lia|].
      rewrite <- Z.pow_add_r by lia. replace (8 + 8 * Z.of_nat f) with (8 * Z.of_nat (S f)) by lia. lia.
Qed.

Lemma enc_n1_ok : forall v, 0 <= v < 2 ^ 64 -> enc_n1 v = enc_len v.
Proof.
  intros v Hv. unfold enc_n1, enc_len. rewrite enc_n_ok by exact Hv.
  destruct (Z.eq_dec v 0) as [->|N]; [reflexivity|].
  rewrite (proj2 (Z.eqb_neq v 0)) by auto. rewrite (proj2 (Z.leb_gt v 0)) by lia. reflexivity.
Qed.

Lemma left_encode_ok : forall v, 0 <= v < 2 ^ 64 -> lc_left_encode v = left_encode v.
Proof.
  intros v Hv. unfold lc_left_encode, left_encode. rewrite enc_n1_ok by auto. f_equal.
  rewrite be_bytes_map by lia. rewrite <- seq_shift, map_map. apply map_ext_in. intros i Hi.
  apply in_seq in Hi. do 4 f_equal. lia.
Qed.

Lemma right_encode_ok : forall v, 0 <= v < 2 ^ 64 -> k_right_encode v = right_encode v.
Proof.
  intros v Hv. unfold k_right_encode, right_encode. rewrite enc_n1_ok by auto. f_equal.
  rewrite be_bytes_map by lia. apply map_ext_in. intros i Hi.
  apply in_seq in Hi. do 4 f_equal. lia.
Qed.

Lemma enc_len_bound : forall x, 0 <= x < 2 ^ 64 -> x < 256 ^ Z.of_nat (enc_len x) /\ (1 <= enc_len x <= 8)%nat.
Proof.
  intros x Hx. unfold enc_len. destruct (x <=? 0) eqn:E.
  - apply Z.leb_le in E. cbn. lia.
  - apply Z.leb_gt in E. pose proof (Z.log2_nonneg x) as Hn.
    assert (Hl : Z.log2 x < 64) by (apply Z.log2_lt_pow2; lia).
    pose proof (Z.div_mod (Z.log2 x) 8 ltac:(lia)) as Hd.
    pose proof (Z.mod_pos_bound (Z.log2 x) 8 ltac:(lia)) as Hm.
    assert (0 <= Z.log2 x / 8 < 8) by lia.
    split; [|lia].
    rewrite Nat2Z.inj_succ, Z2Nat.id by lia. change 256 with (2 ^ 8). rewrite <- Z.pow_mul_r by lia.
    apply Z.log2_lt_pow2; [lia|]. lia.
Qed.

(** left_encode is prefix free. *)
Lemma left_encode_inj : forall x y a b, 0 <= x < 2 ^ 64 -> 0 <= y < 2 ^ 64 ->
  left_encode x ++ a = left_encode y ++ b -> x = y /\ a = b.
Proof.
  intros x y a b Hx Hy H. unfold left_encode in H. cbn [app] in H. injection H as H1 H2.
  apply Nat2Z.inj in H1. rewrite H1 in H2.
  apply app_inj_1 in H2; [|rewrite !length_be_bytes; reflexivity].
  destruct H2 as [H2 H3]. split; auto.
  destruct (enc_len_bound x Hx) as [Bx _]. destruct (enc_len_bound y Hy) as [By _].
  apply (be_bytes_inj (enc_len y)); auto; [rewrite <- H1|]; lia.
Qed.

(** right_encode is suffix free. *)
Lemma right_encode_inj : forall x y a b, 0 <= x < 2 ^ 64 -> 0 <= y < 2 ^ 64 ->
  a ++ right_encode x = b ++ right_encode y -> x = y /\ a = b.
Proof.
  intros x y a b Hx Hy H. unfold right_encode in H. rewrite !app_assoc in H.
  apply app_inj_tail in H. destruct H as [H1 H2]. apply Nat2Z.inj in H2. rewrite H2 in H1.
  apply app_inj_2 in H1; [|rewrite !length_be_bytes; reflexivity].
  destruct H1 as [H1 H3]. split; auto.
  destruct (enc_len_bound x Hx) as [Bx _]. destruct (enc_len_bound y Hy) as [By _].
  apply (be_bytes_inj (enc_len y)); auto; [rewrite <- H2|]; lia.
Qed.

Lemma encode_string_inj : forall s t a b, 8 * Z.of_nat (length s) < 2 ^ 64 -> 8 * Z.of_nat (length t) < 2 ^ 64 ->
  encode_string s ++ a = encode_string t ++ b -> s = t /\ a = b.
Proof.
  intros s t a b Hs Ht H. unfold encode_string in H. rewrite <- !app_assoc in H.
  apply left_encode_inj in H; try lia. destruct H as [H1 H2].
  apply app_inj_1 in H2; [exact H2|]. lia.
Qed.

Lemma bytepad_inj : forall N S N' S' w,
  8 * Z.of_nat (length N) < 2 ^ 64 -> 8 * Z.of_nat (length S) < 2 ^ 64 ->
  8 * Z.of_nat (length N') < 2 ^ 64 -> 8 * Z.of_nat (length S') < 2 ^ 64 ->
  bytepad (encode_string N ++ encode_string S) w = bytepad (encode_string N' ++ encode_string S') w ->
  N = N' /\ S = S'.
Proof.
  intros N S N' S' w H1 H2 H3 H4 H. unfold bytepad in H. rewrite <- !app_assoc in H.
  apply app_inv_head in H.
  apply encode_string_inj in H; auto. destruct H as [E H].
  apply encode_string_inj in H; auto. destruct H as [E' _]. auto.
Qed.

(** *** Contexts *)
Definition shakes : list kalg := [alg_cshake128; alg_cshake256].

(** [h] runs algorithm [a] and absorbed [m] since initialisation. *)
Definition absorbed_m (a : kalg) (h : hctx) (m : list Z) : Prop :=
  exists ms, Forall bytes ms /\ concat ms = m /\ h = mkH a (keccak_updates permB (keccak_init a) ms).

Lemma abs_init : forall h, absorbed_m (hc_alg h) (hh_init h) [].
Proof. intros h. exists []. auto. Qed.

Lemma abs_update : forall a h m x, absorbed_m a h m -> bytes x -> absorbed_m a (hh_update permB h x) (m ++ x).
Proof.
  intros a h m x (ms & H1 & H2 & ->) Hx. exists (ms ++ [x]). split; [|split].
  - apply Forall_app; auto.
  - rewrite concat_app. cbn. rewrite H2, app_nil_r. reflexivity.
  - unfold hh_update, keccak_updates. cbn [hc_alg hc_st]. rewrite fold_left_app. reflexivity.
Qed.

Lemma abs_alg : forall a h m, absorbed_m a h m -> hc_alg h = a.
Proof. intros a h m (ms & _ & _ & ->). reflexivity. Qed.

Lemma abs_zfill : forall a h m n, absorbed_m a h m -> (0 < a_r a)%nat -> 0 <= n < 2 ^ 64 ->
  absorbed_m a (zfill permB h n) (m ++ zeros ((a_r a - Z.to_nat n mod a_r a) mod a_r a)).
Proof.
  intros a h m n H Hr Hn. unfold zfill, hh_blocksize. rewrite (abs_alg _ _ _ H).
  rewrite t64_id by exact Hn.
  rewrite <- (Z2Nat.id n) by lia. rewrite <- Nat2Z.inj_mod, Nat2Z.id, Nat2Z.id.
  pose proof (Nat.mod_upper_bound (Z.to_nat n) (a_r a) ltac:(lia)).
  destruct (Z.to_nat n mod a_r a =? 0)%nat eqn:E.
  - apply Nat.eqb_eq in E. rewrite E, Nat.sub_0_r, Nat.mod_same by lia. rewrite app_nil_r. exact H.
  - apply Nat.eqb_neq in E. rewrite (Nat.mod_small (_ - _)) by lia. apply abs_update; auto. apply bytes_zeros.
Qed.

Lemma bytes_left_encode : forall x, 0 <= x < 2 ^ 64 -> bytes (left_encode x).
Proof.
  intros x Hx. destruct (enc_len_bound x Hx) as [_ B]. unfold left_encode. constructor.
  - unfold byte. lia.
  - apply bytes_be_bytes.
Qed.
Lemma bytes_right_encode : forall x, 0 <= x < 2 ^ 64 -> bytes (right_encode x).
Proof.
  intros x Hx. destruct (enc_len_bound x Hx) as [_ B]. unfold right_encode. apply bytes_app.
  - apply bytes_be_bytes.
  - constructor; [|constructor]. unfold byte. lia.
Qed.

Lemma bytes_encode_string : forall s, bytes s -> 8 * Z.of_nat (length s) < 2 ^ 64 -> bytes (encode_string s).
Proof. intros. unfold encode_string. apply bytes_app; auto. apply bytes_left_encode. lia. Qed.

Lemma shl3_ok : forall m, Z.of_nat (length m) < 2 ^ 61 -> shl3 m = 8 * Z.of_nat (length m).
Proof. intros. unfold shl3. apply t64_id. unfold w64. lia. Qed.

Lemma length_left_encode : forall x, 0 <= x < 2 ^ 64 -> (length (left_encode x) <= 9)%nat.
Proof.
  intros x Hx. destruct (enc_len_bound x Hx) as [_ B]. unfold left_encode. cbn [length].
  rewrite length_be_bytes. lia.
Qed.

Lemma length_right_encode : forall x, 0 <= x < 2 ^ 64 -> (length (right_encode x) <= 9)%nat.
Proof.
  intros x Hx. destruct (enc_len_bound x Hx) as [_ B]. unfold right_encode.
  rewrite app_length, length_be_bytes. cbn [length]. lia.
Qed.

(** bytepad prefix, as the code emits it *)
Lemma shakes_prefix : forall a, In a shakes ->
  (if (a_r a =? 168)%nat then [1; 168] else [1; 136]) = left_encode (Z.of_nat (a_r a)) /\
  (0 < a_r a)%nat.
Proof. intros a [<-|[<-|[]]]; split; try reflexivity; cbn; lia. Qed.

Lemma cshake_init_ok : forall h n s, In (hc_alg h) shakes -> bytes n -> bytes s ->
  Z.of_nat (length n) < 2 ^ 61 -> Z.of_nat (length s) < 2 ^ 61 -> n ++ s <> [] ->
  absorbed_m (hc_alg h) (cshake_init permB h n s)
    (bytepad (encode_string n ++ encode_string s) (a_r (hc_alg h))).
Proof.
  intros h n s Ha Hbn Hbs Hn Hs Hne. destruct (shakes_prefix _ Ha) as [Hpre Hr].
  assert (Hpb : bytes (left_encode (Z.of_nat (a_r (hc_alg h))))).
  { apply bytes_left_encode. split; [lia|]. destruct Ha as [<-|[<-|[]]]; cbn; lia. }
  unfold cshake_init.
  replace ((length n =? 0) && (length s =? 0))%nat with false.
  2: { symmetry. apply Bool.andb_false_iff.
       destruct n; [|left; reflexivity]. destruct s; [|right; reflexivity]. cbn in Hne. congruence. }
  unfold hh_blocksize. rewrite Hpre, !shl3_ok by auto. rewrite !left_encode_ok by lia.
  set (a := hc_alg h) in *.
  set (z := left_encode (Z.of_nat (a_r a)) ++ encode_string n ++ encode_string s).
  assert (Hz : 2 + Z.of_nat (length (left_encode (8 * Z.of_nat (length n)))) + Z.of_nat (length n) +
     Z.of_nat (length (left_encode (8 * Z.of_nat (length s)))) + Z.of_nat (length s) = Z.of_nat (length z)).
  { unfold z, encode_string. rewrite !app_length. rewrite <- Hpre.
    replace (length (if (a_r a =? 168)%nat then [1; 168] else [1; 136])) with 2%nat by (destruct (_ =? _)%nat; reflexivity).
    lia. }
  rewrite Hz.
  assert (B : absorbed_m a (hh_update permB (hh_update permB (hh_update permB (hh_update permB
      (hh_update permB (hh_init h) (left_encode (Z.of_nat (a_r a)))) (left_encode (8 * Z.of_nat (length n)))) n)
         (left_encode (8 * Z.of_nat (length s)))) s) z).
  { replace z with (((((([] ++ left_encode (Z.of_nat (a_r a))) ++ left_encode (8 * Z.of_nat (length n))) ++ n)
       ++ left_encode (8 * Z.of_nat (length s))) ++ s)).
    2: { unfold z, encode_string. cbn [app]. rewrite <- !app_assoc. reflexivity. }
    repeat apply abs_update; auto; try (apply bytes_left_encode; lia).
    apply abs_init. }
  unfold bytepad. fold z.
  rewrite <- (Nat2Z.id (length z)) at 2. apply abs_zfill; auto.
  rewrite <- Hz. pose proof (length_left_encode (8 * Z.of_nat (length n)) ltac:(lia)).
  pose proof (length_left_encode (8 * Z.of_nat (length s)) ltac:(lia)). lia.
Qed.

Lemma cshake_init_empty : forall h,
  absorbed_m (if (a_r (hc_alg h) =? 168)%nat then alg_shake128 else alg_shake256) (cshake_init permB h [] []) [].
Proof. intros h. unfold cshake_init. cbn [length Nat.eqb andb]. unfold hh_blocksize. apply abs_init. Qed.

(** Reading an absorbed context. *)
Fixpoint hh_reads (h : hctx) (ns : list nat) : list (list Z) * hctx :=
  match ns with
  | [] => ([], h)
  | n :: ns' =>
      let (o, h1) := hh_xof permB h n in
      let (os, h2) := hh_reads h1 ns' in (o :: os, h2)
  end.

Lemma hh_reads_xof : forall ns a st, fst (hh_reads (mkH a st) ns) = fst (xof_reads permB st ns).
Proof.
  induction ns as [|n ns IH]; intros a st; [reflexivity|].
  cbn [hh_reads xof_reads]. unfold hh_xof at 1. cbn [hc_st hc_alg].
  destruct (xof_read permB st n) as [o st1]. specialize (IH a st1).
  destruct (hh_reads (mkH a st1) ns) as [os h2]. destruct (xof_reads permB st1 ns) as [os' st2].
  cbn [fst] in *. subst. reflexivity.
Qed.

Lemma abs_reads : forall a h m ns, In a algs -> absorbed_m a h m -> Z.of_nat (length m) < 2 ^ 64 ->
  concat (fst (hh_reads h ns)) = sponge keccak_f_bytes 200 (a_r a) (a_padding a) m 0 (list_sum ns) /\
  map (@length Z) (fst (hh_reads h ns)) = ns.
Proof.
  intros a h m ns Ha (ms & Hb & Hc & ->) Hl. rewrite hh_reads_xof. rewrite <- Hc in *.
  apply sha3_family_reads; auto.
Qed.

Definition hh_updates (h : hctx) (xs : list (list Z)) : hctx := fold_left (hh_update permB) xs h.
Lemma abs_updates : forall xs a h m, absorbed_m a h m -> Forall bytes xs ->
  absorbed_m a (hh_updates h xs) (m ++ concat xs).
Proof.
  induction xs as [|x xs IH]; intros a h m H Hb; [rewrite app_nil_r; exact H|].
  inversion Hb; subst. cbn [concat]. rewrite app_assoc. apply IH; auto. apply abs_update; auto.
Qed.

Lemma abs_bytes : forall a h m, absorbed_m a h m -> bytes m.
Proof. intros a h m (ms & Hb & <- & _). apply concat_bytes; auto. Qed.

Lemma shakes_algs : forall a, In a shakes -> In a algs.
Proof. intros a [<-|[<-|[]]]; cbn; auto 10. Qed.

(** cSHAKE, any split of X, any sequence of reads. *)
Definition cap_of (a : kalg) : nat := (200 - a_r a)%nat.

Lemma cshake_ok : forall h N S xs ns, In (hc_alg h) shakes -> bytes N -> bytes S -> Forall bytes xs ->
  Z.of_nat (length N) < 2 ^ 61 -> Z.of_nat (length S) < 2 ^ 61 ->
  Z.of_nat (length (bytepad (encode_string N ++ encode_string S) (a_r (hc_alg h)) ++ concat xs)) < 2 ^ 64 ->
  let outs := fst (hh_reads (hh_updates (cshake_init permB h N S) xs) ns) in
  concat outs = cSHAKE (cap_of (hc_alg h)) (concat xs) 0 (list_sum ns) N S /\ map (@length Z) outs = ns.
Proof.
  intros h N S xs ns Ha HN HS Hx LN LS LX.
  assert (Hr200 : (200 - cap_of (hc_alg h) = a_r (hc_alg h))%nat)
    by (unfold cap_of; destruct Ha as [<-|[<-|[]]]; reflexivity).
  destruct (list_eq_dec Z.eq_dec (N ++ S) []) as [E|E].
  - apply app_eq_nil in E. destruct E; subst. cbn zeta.
    pose proof (abs_updates xs _ _ _ (cshake_init_empty h) Hx) as A. cbn [app] in A.
    assert (HA : In (if (a_r (hc_alg h) =? 168)%nat then alg_shake128 else alg_shake256) algs).
    { destruct (_ =? 168)%nat; cbn; auto 10. }
    destruct (abs_reads _ _ _ ns HA A) as [R1 R2].
    { rewrite app_length in LX. lia. }
    split; [|exact R2]. rewrite R1. unfold cSHAKE, keccak_c. rewrite Hr200.
    destruct Ha as [<-|[<-|[]]]; reflexivity.
  - cbn zeta. pose proof (abs_updates xs _ _ _ (cshake_init_ok h N S Ha HN HS LN LS E) Hx) as A.
    destruct (abs_reads _ _ _ ns (shakes_algs _ Ha) A LX) as [R1 R2].
    split; [|exact R2]. rewrite R1. unfold cSHAKE.
    assert (Hp : a_padding (hc_alg h) = 4) by (destruct Ha as [<-|[<-|[]]]; reflexivity).
    rewrite Hp. unfold keccak_c. rewrite Hr200.
    destruct N; [destruct S; [cbn in E; congruence|]|]; reflexivity.
Qed.

(** *** KMAC *)
Definition kmac_prefix (a : kalg) (K S : list Z) : list Z :=
  bytepad (encode_string KMAC_N ++ encode_string S) (a_r a) ++ bytepad (encode_string K) (a_r a).

Lemma kmac_init_ok : forall c K S, In (hc_alg (km_h c)) shakes -> bytes K -> bytes S ->
  Z.of_nat (length K) < 2 ^ 61 -> Z.of_nat (length S) < 2 ^ 61 ->
  absorbed_m (hc_alg (km_h c)) (km_h (kmac_init permB c K S)) (kmac_prefix (hc_alg (km_h c)) K S) /\
  km_final (kmac_init permB c K S) = false.
Proof.
  intros c K S Ha HK HS LK LS. split; [|reflexivity].
  destruct (shakes_prefix _ Ha) as [Hpre Hr].
  set (a := hc_alg (km_h c)) in *.
  assert (Hpb : bytes (left_encode (Z.of_nat (a_r a)))).
  { apply bytes_left_encode. split; [lia|]. destruct Ha as [<-|[<-|[]]]; cbn; lia. }
  assert (I : absorbed_m a (cshake_init permB (km_h c) KMAC_N S)
                (bytepad (encode_string KMAC_N ++ encode_string S) (a_r a))).
  { apply cshake_init_ok; auto; cbn; try lia; try discriminate.
    repeat constructor; unfold byte; lia. }
  unfold kmac_init. cbn [km_h]. change [75; 77; 65; 67] with KMAC_N.
  unfold hh_blocksize at 1. rewrite (abs_alg _ _ _ I), Hpre.
  rewrite shl3_ok by auto. rewrite left_encode_ok by lia.
  set (z := left_encode (Z.of_nat (a_r a)) ++ encode_string K).
  assert (Hz : 2 + Z.of_nat (length (left_encode (8 * Z.of_nat (length K)))) + Z.of_nat (length K) = Z.of_nat (length z)).
  { unfold z, encode_string. rewrite !app_length. rewrite <- Hpre.
    replace (length (if (a_r a =? 168)%nat then [1; 168] else [1; 136])) with 2%nat by (destruct (_ =? _)%nat; reflexivity).
    lia. }
  rewrite Hz. unfold kmac_prefix. unfold bytepad at 2. fold z. rewrite app_assoc.
  rewrite <- (Nat2Z.id (length z)) at 2. apply abs_zfill; auto.
  - unfold z, encode_string. rewrite !app_assoc. repeat apply abs_update; auto. apply bytes_left_encode; lia.
  - rewrite <- Hz. pose proof (length_left_encode (8 * Z.of_nat (length K)) ltac:(lia)). lia.
Qed.

Lemma kmac_updates_h : forall xs c,
  kmac_updates permB c xs = mkKM (hh_updates (km_h c) xs) (km_shadow c) (km_final c).
Proof.
  induction xs as [|x xs IH]; intros c; [destruct c; reflexivity|].
  unfold kmac_updates, hh_updates in *. cbn [fold_left]. rewrite IH. reflexivity.
Qed.

Lemma cshake_kmac : forall a X p n S, In a shakes ->
  cSHAKE (cap_of a) X p n KMAC_N S =
  sponge keccak_f_bytes 200 (a_r a) (a_padding a) (bytepad (encode_string KMAC_N ++ encode_string S) (a_r a) ++ X) p n.
Proof.
  intros a X p n S Ha. unfold cSHAKE, KMAC_N. unfold keccak_c.
  destruct Ha as [<-|[<-|[]]]; reflexivity.
Qed.

Lemma kmac_ok : forall c K S xs n, In (hc_alg (km_h c)) shakes -> bytes K -> bytes S -> Forall bytes xs ->
  Z.of_nat (length K) < 2 ^ 61 -> Z.of_nat (length S) < 2 ^ 61 -> (4 <= n)%nat -> Z.of_nat n < 2 ^ 61 ->
  Z.of_nat (length (kmac_prefix (hc_alg (km_h c)) K S ++ concat xs)) + 9 < 2 ^ 64 ->
  fst (kmac_final permB (kmac_updates permB (kmac_init permB c K S) xs) n) =
  KMAC (cap_of (hc_alg (km_h c))) K (concat xs) n S.
Proof.
  intros c K S xs n Ha HK HS Hx LK LS Hn Ln LX.
  destruct (kmac_init_ok c K S Ha HK HS LK LS) as [I F].
  set (a := hc_alg (km_h c)) in *.
  assert (Hr200 : (200 - cap_of a = a_r a)%nat)
    by (unfold cap_of; destruct Ha as [<-|[<-|[]]]; reflexivity).
  unfold kmac_final. rewrite (proj2 (Nat.leb_le 4 n) Hn). unfold kmac_final_internal.
  rewrite kmac_updates_h. cbn [km_h].
  rewrite t64_id by (unfold w64; lia). rewrite right_encode_ok by lia.
  pose proof (abs_update _ _ _ (right_encode (8 * Z.of_nat n)) (abs_updates xs _ _ _ I Hx)
                (bytes_right_encode (8 * Z.of_nat n) ltac:(lia))) as A.
  destruct (abs_reads _ _ _ [n] (shakes_algs _ Ha) A) as [R1 R2].
  { rewrite (app_length (_ ++ _)). pose proof (length_right_encode (8 * Z.of_nat n) ltac:(lia)). lia. }
  cbn [hh_reads] in R1. destruct (hh_xof permB _ n) as [o h1]. cbn [fst concat] in R1 |- *.
  rewrite app_nil_r in R1. rewrite R1. unfold KMAC. rewrite cshake_kmac, Hr200 by auto.
  unfold kmac_prefix. cbn [list_sum fold_right]. rewrite Nat.add_0_r. rewrite <- !app_assoc. reflexivity.
Qed.

Lemma kmac_xof_reads_final : forall ns c, km_final c = true ->
  fst (kmac_xof_reads permB c ns) = fst (hh_reads (km_h c) ns).
Proof.
  induction ns as [|n ns IH]; intros c Hc; [reflexivity|].
  cbn [kmac_xof_reads hh_reads]. unfold kmac_final_xof_internal. rewrite Hc.
  destruct (hh_xof permB (km_h c) n) as [o h].
  specialize (IH (mkKM h (km_shadow c) true) eq_refl). cbn [km_h] in IH.
  destruct (kmac_xof_reads permB (mkKM h (km_shadow c) true) ns), (hh_reads h ns). cbn [fst] in *. congruence.
Qed.

Lemma kmac_xof_reads_h : forall ns c, km_final c = false ->
  fst (kmac_xof_reads permB c ns) = fst (hh_reads (hh_update permB (km_h c) [0; 1]) ns).
Proof.
  destruct ns as [|n ns]; intros c Hc; [reflexivity|].
  cbn [kmac_xof_reads hh_reads]. unfold kmac_final_xof_internal. rewrite Hc.
  destruct (hh_xof permB (hh_update permB (km_h c) [0; 1]) n) as [o h].
  pose proof (kmac_xof_reads_final ns (mkKM h (km_shadow c) true) eq_refl) as IH. cbn [km_h] in IH.
  destruct (kmac_xof_reads permB (mkKM h (km_shadow c) true) ns), (hh_reads h ns). cbn [fst] in *. congruence.
Qed.

Lemma kmacxof_ok : forall c K S xs ns, In (hc_alg (km_h c)) shakes -> bytes K -> bytes S -> Forall bytes xs ->
  Z.of_nat (length K) < 2 ^ 61 -> Z.of_nat (length S) < 2 ^ 61 ->
  Z.of_nat (length (kmac_prefix (hc_alg (km_h c)) K S ++ concat xs)) + 9 < 2 ^ 64 ->
  let outs := fst (kmac_xof_reads permB (kmac_updates permB (kmac_init permB c K S) xs) ns) in
  concat outs = KMACXOF (cap_of (hc_alg (km_h c))) K (concat xs) 0 (list_sum ns) S /\ map (@length Z) outs = ns.
Proof.
  intros c K S xs ns Ha HK HS Hx LK LS LX outs. unfold outs.
  destruct (kmac_init_ok c K S Ha HK HS LK LS) as [I F].
  set (a := hc_alg (km_h c)) in *.
  assert (Hr200 : (200 - cap_of a = a_r a)%nat)
    by (unfold cap_of; destruct Ha as [<-|[<-|[]]]; reflexivity).
  rewrite kmac_xof_reads_h by (rewrite kmac_updates_h; exact F).
  rewrite kmac_updates_h. cbn [km_h].
  assert (E01 : [0; 1] = right_encode 0) by reflexivity. rewrite E01.
  pose proof (abs_update _ _ _ (right_encode 0) (abs_updates xs _ _ _ I Hx)
                (bytes_right_encode 0 ltac:(lia))) as A.
  destruct (abs_reads _ _ _ ns (shakes_algs _ Ha) A) as [R1 R2].
  { rewrite app_length. change (length (right_encode 0)) with 2%nat. lia. }
  split; [|exact R2]. rewrite R1. unfold KMACXOF. rewrite cshake_kmac, Hr200 by auto.
  unfold kmac_prefix. rewrite <- !app_assoc. reflexivity.
Qed.

(** *** Reinitialisation *)
Inductive kop := KUpd (m : list Z) | KFin (n : nat) | KXof (n : nat) | KXofInt (n : nat).
Definition kstep (c : kmctx) (o : kop) : kmctx :=
  match o with
  | KUpd m => kmac_update permB c m
  | KFin n => snd (kmac_final permB c n)
  | KXof n => snd (kmac_final_xof permB c n)
  | KXofInt n => snd (kmac_final_xof_internal permB c n)
  end.

Lemma kstep_inv : forall c o, km_shadow (kstep c o) = km_shadow c /\ hc_alg (km_h (kstep c o)) = hc_alg (km_h c).
Proof.
  assert (X : forall h n, hc_alg (snd (hh_xof permB h n)) = hc_alg h).
  { intros h n. unfold hh_xof. destruct (xof_read _ _ _). reflexivity. }
  assert (I : forall c n, km_shadow (snd (kmac_final_xof_internal permB c n)) = km_shadow c /\
              hc_alg (km_h (snd (kmac_final_xof_internal permB c n))) = hc_alg (km_h c)).
  { intros c n. unfold kmac_final_xof_internal.
    specialize (X (if km_final c then km_h c else hh_update permB (km_h c) [0; 1]) n).
    destruct (hh_xof _ _ _) as [o h]. cbn [snd km_shadow km_h] in *. split; auto.
    rewrite X. destruct (km_final c); reflexivity. }
  intros c [m|n|n|n]; cbn [kstep].
  - split; reflexivity.
  - unfold kmac_final. destruct (4 <=? n)%nat; [|auto]. unfold kmac_final_internal.
    specialize (X (hh_update permB (km_h c) (k_right_encode (t64 (8 * Z.of_nat n)))) n).
    destruct (hh_xof _ _ _) as [o h]. cbn [snd km_shadow km_h] in *. auto.
  - unfold kmac_final_xof. destruct (4 <=? n)%nat; auto.
  - apply I.
Qed.

Lemma hc_alg_cshake_init : forall h n s, n <> [] -> hc_alg (cshake_init permB h n s) = hc_alg h.
Proof.
  intros h n s Hn. unfold cshake_init.
  replace (length n =? 0)%nat with false by (destruct n; [congruence|reflexivity]). cbn [andb].
  unfold zfill. destruct (_ =? 0)%nat; reflexivity.
Qed.

Lemma kmac_reinit_ok : forall c K S ops sh, km_shadow c = Some sh ->
  kmac_reinit (fold_left kstep ops (kmac_init permB c K S)) = kmac_init permB c K S.
Proof.
  intros c K S ops sh Hsh.
  assert (G : forall ops c', km_shadow (fold_left kstep ops c') = km_shadow c' /\
                hc_alg (km_h (fold_left kstep ops c')) = hc_alg (km_h c')).
  { induction ops0 as [|o os IH]; intros c'; [auto|]. cbn [fold_left].
    destruct (IH (kstep c' o)) as [A B]. destruct (kstep_inv c' o) as [C D]. rewrite A, B. auto. }
  destruct (G ops (kmac_init permB c K S)) as [A B].
  unfold kmac_reinit. rewrite A, B.
  unfold kmac_init. cbn [km_shadow km_h]. rewrite Hsh.
  match goal with |- mkKM (mkH (hc_alg ?h) (hc_st ?h)) _ _ = _ => destruct h; reflexivity end.
Qed.
